(** C37, C38, C51-C55: the sumcheck argument and the protocols on top of it. *)
From Coq Require Import ZArith List Bool Lia Zdiv Znumtheory Setoid Morphisms.
From Verif Require Import ZpLib VssModel VssProof SumcheckModel SumcheckProof.
Import ListNotations.
Open Scope Z_scope.

(** The plain sum of a list. *)
Definition list_sum (l : list Z) : Z := fold_right Z.add 0 l.
Lemma vsum_list g : vsum g = list_sum g.
Proof.
  unfold vsum. induction g as [|a g IH]; [reflexivity|].
  change (length (a :: g)) with (1 + length g)%nat. rewrite zsum_app. cbn [zsum plus nth]. rewrite IH. unfold list_sum. cbn [fold_right]. ring.
Qed.

(** ** C37
    With at least one variable the protocol accepts exactly the reduced sum of
    the table, for all draws. *)
Theorem sumcheck_run_exact p g k claimed tape : 0 < p -> length g = (2 ^ S k)%nat ->
  (run_sumcheck p g claimed tape = true <-> claimed = list_sum g mod p).
Proof. intros Hp H. rewrite (run_sumcheck_exact p g claimed tape (S k) Hp H), vsum_list. reflexivity. Qed.
(** With reduced tables also for constants. *)
Theorem sumcheck_run_reduced p g k claimed tape : 0 < p -> length g = (2 ^ k)%nat ->
  Forall (fun a => 0 <= a < p) g ->
  (run_sumcheck p g claimed tape = true <-> claimed = list_sum g mod p).
Proof. intros Hp H R. rewrite (run_sumcheck_reduced p g claimed tape k Hp H R), vsum_list. reflexivity. Qed.
Example sumcheck_run_ex : run_sumcheck 97 [96; 5; 60; 34] 0 (fun i => nth i [90; 17] 0) = false /\
  run_sumcheck 97 [96; 5; 60; 34] 97 (fun i => nth i [90; 17] 0) = false /\
  run_sumcheck 97 [96; 5; 60; 34] ((96 + 5 + 60 + 34) mod 97) (fun i => nth i [90; 17] 0) = true.
Proof. repeat split; reflexivity. Qed.
(** An unreduced constant is not accepted at its reduced value. *)
Theorem sumcheck_constant_refuted : exists p g tape, prime p /\ length g = 1%nat /\
  run_sumcheck p g (list_sum g mod p) tape = false.
Proof. exists 2, [3], (fun _ => 0). split; [exact prime_2|]. split; reflexivity. Qed.

(** ** C38
    For a false claim, whatever the prover does, at most k p^(k-1) of the p^k
    challenge vectors make the verifier accept. *)
Theorem vectors_all p k c : In c (vectors p k) <-> length c = k /\ Forall (fun r => 0 <= r < p) c.
Proof.
  revert c. induction k as [|k IH]; intros c; cbn [vectors].
  - split; [intros [<-|[]]; auto|]. intros [H _]. destruct c; [left; auto|discriminate].
  - rewrite in_flat_map. split.
    + intros [r [Hr Hc]]. apply in_map_iff in Hc. destruct Hc as [c' [<- Hc]]. apply IH in Hc. apply zrange_in in Hr.
      destruct Hc as [L F]. split; [cbn; lia|constructor; auto].
    + intros [L F]. destruct c as [|r c]; [discriminate|]. inversion F; subst. exists r. split; [apply zrange_in; auto|].
      apply in_map. apply IH. cbn in L. auto.
Qed.
Theorem vectors_distinct p k : NoDup (vectors p k) /\ length (vectors p k) = (Z.to_nat p ^ k)%nat.
Proof.
  split; [|apply vectors_length].
  induction k as [|k IH]; cbn [vectors]; [constructor; [intros []|constructor]|].
  pose proof (zrange_nodup p) as N. induction N as [|r l Hr Hl IHl]; cbn [flat_map]; [constructor|].
  assert (D : forall c, In c (map (cons r) (vectors p k)) -> ~ In c (flat_map (fun s => map (cons s) (vectors p k)) l)).
  { intros c Hc K. apply in_map_iff in Hc. destruct Hc as [c' [<- _]]. apply in_flat_map in K. destruct K as [s [Hs K]].
    apply in_map_iff in K. destruct K as [c2 [E _]]. injection E. intros _ ->. contradiction. }
  assert (M : NoDup (map (cons r) (vectors p k))) by (apply FinFun.Injective_map_NoDup; [intros a b E; injection E; auto|exact IH]).
  revert M D. generalize (map (cons r) (vectors p k)). intros m M D. induction M as [|c m Hc Hm IHm]; [exact IHl|].
  cbn [app]. constructor.
  - rewrite in_app_iff. intros [K|K]; [contradiction|]. exact (D c (or_introl eq_refl) K).
  - apply IHm. intros d Hd. apply D. right. exact Hd.
Qed.
Theorem sumcheck_sound p g k claimed prover final : prime p -> length g = (2 ^ k)%nat ->
  Forall (fun a => 0 <= a < p) g -> claimed <> list_sum g mod p ->
  (length (filter (verifier_run p g prover final claimed []) (vectors p k)) <= k * Z.to_nat p ^ (k - 1))%nat.
Proof.
  intros Hp H R N. pose proof (prime_pos p Hp).
  destruct (eqm_dec p claimed (vsum g)) as [E|E].
  - (* congruent but not reduced: rejected at once *)
    assert (Z0 : forall c, In c (vectors p k) -> verifier_run p g prover final claimed [] c = false).
    { intros c Hc. apply vectors_all in Hc. destruct Hc as [L _]. destruct c as [|r c].
      - cbn [length] in L. subst k. cbn [verifier_run]. unfold evaluate. rewrite (num_vars_pow g 0 H). cbn [length Nat.eqb evaluate_loop].
        destruct (Z.eqb_spec (nth 0 g 0) (final [])) as [E1|]; [|reflexivity]. cbn [andb].
        destruct (Z.eqb_spec claimed (final [])) as [E2|]; [|reflexivity]. exfalso. apply N.
        destruct g as [|a [|b g]]; try discriminate. cbn in E1. inversion R; subst. cbn. rewrite Z.add_0_r, Z.mod_small by lia. congruence.
      - cbn [verifier_run]. unfold verify_round. destruct (prover []) as [|a0 [|a1 [|a2 l]]]; try reflexivity.
        destruct (Z.eqb_spec (add_mod a0 (add_mod a0 a1 p) p) claimed) as [E1|]; [|reflexivity]. exfalso. apply N.
        rewrite <- vsum_list. apply eqm_some; auto; [lia|]. rewrite <- E1. apply Z.mod_pos_bound. lia. }
    replace (filter _ _) with (@nil (list Z)); [cbn; lia|]. symmetry.
    revert Z0. generalize (vectors p k). intros l Z0. induction l as [|c l IH]; [reflexivity|]. cbn [filter].
    rewrite Z0 by (left; auto). apply IH. intros d Hd. apply Z0. right. auto.
  - apply (sound_count p g prover final Hp k [] claimed H E).
Qed.
(** A cheating prover for a false claim with exactly p accepting vectors out of
    p^2. *)
Example sumcheck_sound_ex :
  let p := 5 in let g := [1; 2; 3; 4] in
  let prover := fun seen => match seen with [] => [0; 3] | [r] => honest_prover 5 [1; 2; 3; 4] [r] | _ => [] end in
  3 <> list_sum g mod p /\
  length (filter (verifier_run p g prover (honest_final p g) 3 []) (vectors p 2)) = 5%nat.
Proof. split; [discriminate|]. reflexivity. Qed.

(** ** C51: Evaluate is the multilinear extension
    chi r i is the product over the variables j of r_j or 1 - r_j according to
    the j-th bit (most significant first) of i. *)
Definition chi (r : list Z) (i : nat) : Z :=
  fold_right Z.mul 1 (map (fun j => if Nat.testbit i (length r - 1 - j) then nth j r 0 else 1 - nth j r 0) (seq 0 (length r))).
Definition extension (g r : list Z) : Z :=
  list_sum (map (fun i => nth i g 0 * chi r i) (seq 0 (2 ^ length r))).
Lemma zsum_list_sum f n : zsum f n = list_sum (map f (seq 0 n)).
Proof.
  induction n as [|n IH]; [reflexivity|]. rewrite seq_S, map_app. cbn [zsum]. rewrite IH. unfold list_sum.
  rewrite fold_right_app. cbn [map fold_right plus]. generalize (map f (seq 0 n)). intros l.
  induction l as [|a l IHl]; cbn [fold_right]; [ring|]. rewrite <- IHl. ring.
Qed.
Lemma wt_chi r i : wt r i = chi r i.
Proof.
  unfold chi. induction r as [|r0 r IH]; [reflexivity|]. cbn [wt length seq map fold_right nth].
  replace (S (length r) - 1 - 0)%nat with (length r) by lia. f_equal. rewrite IH. rewrite <- seq_shift, map_map. f_equal.
  apply map_ext. intros j. cbn [nth]. replace (S (length r) - 1 - S j)%nat with (length r - 1 - j)%nat by lia. reflexivity.
Qed.
Lemma mle_extension g r : mle g r = extension g r.
Proof. unfold mle, extension. rewrite zsum_list_sum. f_equal. apply map_ext. intros i. rewrite wt_chi. reflexivity. Qed.
Theorem evaluate_extension p g r : 0 < p -> length g = (2 ^ length r)%nat -> Forall (fun a => 0 <= a < p) g ->
  evaluate p g r = Some (extension g r mod p).
Proof.
  intros Hp H R. unfold evaluate. rewrite (num_vars_pow g _ H), Nat.eqb_refl. f_equal.
  rewrite <- mle_extension. apply eqm_some; auto; [apply evaluate_loop_eqm; auto|].
  apply evaluate_loop_range; auto. right. destruct g as [|a g]; [cbn in H; pose proof (pow2_pos (length r)); lia|]. inversion R; auto.
Qed.
(** At Boolean points it returns the table. *)
Lemma bits_msb_S n y : bits_msb (S n) y = (if Nat.testbit y n then 1 else 0) :: bits_msb n y.
Proof.
  unfold bits_msb. cbn [seq map]. replace (S n - 1 - 0)%nat with n by lia. f_equal. rewrite <- seq_shift, map_map.
  apply map_ext. intros j. replace (S n - 1 - S j)%nat with (n - 1 - j)%nat by lia. reflexivity.
Qed.
Lemma bits_msb_length n y : length (bits_msb n y) = n.
Proof. unfold bits_msb. rewrite map_length, seq_length. reflexivity. Qed.
Lemma mod_pow_S n i : (i mod 2 ^ S n = i mod 2 ^ n + (if Nat.testbit i n then 2 ^ n else 0))%nat.
Proof.
  pose proof (pow2_pos n).
  cbn [Nat.pow]. rewrite (Nat.mul_comm 2). rewrite Nat.mod_mul_r by lia.
  destruct (Nat.testbit i n) eqn:E.
  - apply Nat.testbit_true in E. rewrite E. lia.
  - apply Nat.testbit_false in E. rewrite E. lia.
Qed.
Lemma wt_bits n : forall y i, wt (bits_msb n y) i = if Nat.eqb (i mod 2 ^ n) (y mod 2 ^ n) then 1 else 0.
Proof.
  induction n as [|n IH]; intros y i; [cbn; destruct (Nat.eqb_spec (snd (Nat.divmod i 0 0 0)) 0); reflexivity|].
  rewrite bits_msb_S. cbn [wt]. rewrite bits_msb_length, IH, !mod_pow_S.
  pose proof (Nat.mod_upper_bound i (2 ^ n)) as B1. pose proof (Nat.mod_upper_bound y (2 ^ n)) as B2. pose proof (pow2_pos n).
  specialize (B1 ltac:(lia)). specialize (B2 ltac:(lia)).
  destruct (Nat.eqb_spec (i mod 2 ^ n) (y mod 2 ^ n)) as [E|E];
  destruct (Nat.testbit i n), (Nat.testbit y n);
  match goal with |- _ = if Nat.eqb ?a ?b then _ else _ => destruct (Nat.eqb_spec a b) end; try lia; reflexivity.
Qed.
Theorem evaluate_boolean p g k i : 0 < p -> length g = (2 ^ k)%nat -> Forall (fun a => 0 <= a < p) g -> (i < 2 ^ k)%nat ->
  evaluate p g (bits_msb k i) = Some (nth i g 0).
Proof.
  intros Hp H R Hi. rewrite evaluate_extension by (rewrite ?bits_msb_length; auto). f_equal.
  rewrite <- mle_extension. unfold mle. rewrite bits_msb_length.
  rewrite (zsum_ext _ (fun j => if Nat.eqb j i then nth j g 0 else 0)).
  - rewrite zsum_pick by auto. apply Z.mod_small. rewrite Forall_forall in R. apply R. apply nth_In. lia.
  - intros j Hj. rewrite wt_bits, !Nat.mod_small by auto. destruct (Nat.eqb j i); ring.
Qed.
Example evaluate_ex : evaluate 97 [10; 20; 30; 40] [5; 7] = Some ((10 * (-4 * -6) + 20 * (-4 * 7) + 30 * (5 * -6) + 40 * (5 * 7)) mod 97).
Proof. reflexivity. Qed.

(** ** C52: zero check *)
Lemma build_eq_length p r : length (build_eq p r) = (2 ^ length r)%nat.
Proof. unfold build_eq. rewrite map_length, seq_length. reflexivity. Qed.
Lemma eq_fold p r i : forall l acc,
  eqm p (fold_left (fun res j => mul_mod res (if Nat.testbit i (length r - 1 - j) then nth j r 0 else sub_mod 1 (nth j r 0) p) p) l acc)
        (acc * fold_right Z.mul 1 (map (fun j => if Nat.testbit i (length r - 1 - j) then nth j r 0 else 1 - nth j r 0) l)).
Proof.
  induction l as [|j l IH]; intros acc; cbn [fold_left map fold_right]; [mring|].
  rewrite IH, mul_mod_eqm. destruct (Nat.testbit i (length r - 1 - j)); [mring|]. rewrite sub_mod_eqm. mring.
Qed.
Theorem build_eq_chi p r i : 1 < p -> (i < 2 ^ length r)%nat -> nth i (build_eq p r) 0 = chi r i mod p.
Proof.
  intros Hp Hi. unfold build_eq. rewrite nth_map_seq by auto. apply eqm_some; [rewrite eq_fold; unfold chi; mring|lia|].
  destruct r as [|r0 r]; [cbn; lia|].
  assert (G : forall l acc, 0 <= acc < p -> 0 <= fold_left (fun res j => mul_mod res (if Nat.testbit i (length (r0 :: r) - 1 - j) then nth j (r0 :: r) 0 else sub_mod 1 (nth j (r0 :: r) 0) p) p) l acc < p).
  { induction l as [|j l IH]; intros acc Ha; cbn [fold_left]; [auto|]. apply IH. apply Z.mod_pos_bound. lia. }
  apply G. lia.
Qed.
Lemma multiply_some p a b k : length a = (2 ^ k)%nat -> length b = (2 ^ k)%nat ->
  multiply_polynomials p a b = Some (map (fun i => mul_mod (nth i a 0) (nth i b 0) p) (seq 0 (2 ^ k))).
Proof.
  intros Ha Hb. unfold multiply_polynomials. rewrite Ha, Hb, Nat.eqb_refl. apply (make_poly_pow _ k).
  rewrite map_length, seq_length. reflexivity.
Qed.
Lemma products_range p (f h : nat -> Z) n : 0 < p -> Forall (fun a => 0 <= a < p) (map (fun i => mul_mod (f i) (h i) p) (seq 0 n)).
Proof. intros Hp. apply Forall_forall. intros a Ha. apply in_map_iff in Ha. destruct Ha as [i [<- _]]. apply Z.mod_pos_bound. lia. Qed.
Lemma products_sum p (f h : nat -> Z) n : eqm p (vsum (map (fun i => mul_mod (f i) (h i) p) (seq 0 n))) (zsum (fun i => f i * h i) n).
Proof.
  unfold vsum. rewrite map_length, seq_length. apply zsum_ext_eqm. intros i Hi. rewrite nth_map_seq by auto. apply mul_mod_eqm.
Qed.
Theorem zero_check_exact p a k r_eq tape : 1 < p -> length a = (2 ^ k)%nat ->
  exists b, run_zero_check p a r_eq tape = Some b /\
    (b = true <-> extension a (map r_eq (seq 0 k)) mod p = 0).
Proof.
  intros Hp H. unfold run_zero_check. rewrite (num_vars_pow a k H).
  set (r := map r_eq (seq 0 k)). assert (Lr : length r = k) by (unfold r; rewrite map_length, seq_length; reflexivity).
  rewrite (multiply_some p a _ k) by (rewrite ?build_eq_length, ?Lr; auto). eexists. split; [reflexivity|].
  rewrite (run_sumcheck_reduced p _ _ _ k); [|lia|rewrite map_length, seq_length; auto|apply products_range; lia].
  assert (E : eqm p (vsum (map (fun i => mul_mod (nth i a 0) (nth i (build_eq p r) 0) p) (seq 0 (2 ^ k)))) (extension a r)).
  { rewrite (products_sum p (fun i => nth i a 0) (fun i => nth i (build_eq p r) 0)). rewrite <- mle_extension. unfold mle. rewrite Lr. apply zsum_ext_eqm.
    intros i Hi. rewrite build_eq_chi by (rewrite ?Lr; auto). rewrite eqm_mod, wt_chi. reflexivity. }
  destruct E as [E]. rewrite E. split; intros; auto.
Qed.
Theorem zero_check_complete p a k r_eq tape : 1 < p -> length a = (2 ^ k)%nat ->
  Forall (fun x => x mod p = 0) a -> run_zero_check p a r_eq tape = Some true.
Proof.
  intros Hp H F. destruct (zero_check_exact p a k r_eq tape Hp H) as [b [-> E]]. f_equal. apply E.
  rewrite <- mle_extension. unfold mle. rewrite map_length, seq_length.
  assert (K : eqm p (zsum (fun i => nth i a 0 * wt (map r_eq (seq 0 k)) i) (2 ^ k)) (zsum (fun _ => 0) (2 ^ k))).
  { apply zsum_ext_eqm. intros i Hi. rewrite Forall_forall in F. assert (Z0 : eqm p (nth i a 0) 0).
    { constructor. rewrite F; [rewrite Zmod_0_l; reflexivity|]. apply nth_In. lia. }
    rewrite Z0. mring. }
  destruct K as [K]. rewrite K. rewrite zsum_zero by auto. apply Zmod_0_l.
Qed.
Theorem zero_check_sound p a k : prime p -> length a = (2 ^ k)%nat ->
  ~ Forall (fun x => x mod p = 0) a ->
  (length (filter (fun r => match run_zero_check p a (fun j => nth j r 0%Z) (fun _ => 0%Z) with Some b => b | None => true end)
            (vectors p k)) <= k * Z.to_nat p ^ (k - 1))%nat /\
  (forall r tape tape', run_zero_check p a r tape = run_zero_check p a r tape').
Proof.
  intros Hp H N. pose proof (prime_pos p Hp) as P1. split.
  - assert (X : exists i, (i < 2 ^ k)%nat /\ ~ eqm p (nth i a 0) 0).
    { rewrite <- H. clear H. induction a as [|x a IH]; [exfalso; apply N; constructor|].
      destruct (eqm_dec p x 0) as [E|E].
      - destruct IH as [i [Hi Ni]].
        + intros F. apply N. constructor; auto. destruct E as [E]. rewrite E. apply Zmod_0_l.
        + exists (S i). split; [cbn; lia|exact Ni].
      - exists 0%nat. split; [cbn; lia|exact E]. }
    eapply Nat.le_trans; [|apply (mle_zeros p Hp k a H X)]. apply count_mono. intros r Hr.
    apply vectors_all in Hr. destruct Hr as [Lr _].
    destruct (zero_check_exact p a k (fun j => nth j r 0) (fun _ => 0) P1 H) as [b [-> E]]. intros ->.
    assert (M : map (fun j => nth j r 0) (seq 0 k) = r).
    { subst k. clear. apply (nth_ext _ _ 0 0); [rewrite map_length, seq_length; reflexivity|].
      rewrite map_length, seq_length. intros i Hi. rewrite nth_map_seq by auto. reflexivity. }
    rewrite M in E. apply eqmb_true. constructor. rewrite mle_extension, Zmod_0_l. apply E. reflexivity.
  - intros r t t'. destruct (zero_check_exact p a k r t P1 H) as [b [-> E]].
    destruct (zero_check_exact p a k r t' P1 H) as [b' [-> E']]. f_equal. destruct b, b'; auto; [symmetry|]; tauto.
Qed.
Example zero_check_ex : run_zero_check 7 [0; 7; 14; 0] (fun i => nth i [3; 5] 0) (fun _ => 4) = Some true /\
  run_zero_check 7 [0; 1; 0; 0] (fun i => nth i [3; 5] 0) (fun _ => 4) = Some false /\
  run_zero_check 7 [0; 1; 0; 0] (fun i => nth i [3; 0] 0) (fun _ => 4) = Some true.
Proof. repeat split; reflexivity. Qed.

(** ** C53: one check *)
Lemma alpha_loop_length p alpha n : forall cur, length (alpha_loop p alpha cur n) = n.
Proof. induction n as [|n IH]; intros cur; cbn [alpha_loop length]; auto. Qed.
Lemma alpha_loop_nth p alpha n : forall cur i, (i < n)%nat -> eqm p (nth i (alpha_loop p alpha cur n) 0) (cur * alpha ^ Z.of_nat i).
Proof.
  induction n as [|n IH]; intros cur [|i] Hi; try lia; cbn [alpha_loop nth].
  - change (alpha ^ Z.of_nat 0) with 1. mring.
  - rewrite IH by lia. rewrite mul_mod_eqm. rewrite Nat2Z.inj_succ, Z.pow_succ_r by lia. mring.
Qed.
Lemma geometric alpha n : (alpha - 1) * zsum (fun i => alpha ^ Z.of_nat i) n = alpha ^ Z.of_nat n - 1.
Proof.
  induction n as [|n IH]; cbn [zsum]; [change (alpha ^ Z.of_nat 0) with 1; ring|].
  rewrite Z.mul_add_distr_l, IH, Nat2Z.inj_succ, Z.pow_succ_r by lia. ring.
Qed.
Lemma pow2_Z k : Z.of_nat (2 ^ k) = 2 ^ Z.of_nat k.
Proof. rewrite Nat2Z.inj_pow. reflexivity. Qed.
Lemma alpha_sum p k alpha : prime p -> 0 <= alpha < p -> alpha <> 1 ->
  compute_alpha_sum p k alpha = Some (zsum (fun i => alpha ^ Z.of_nat i) (2 ^ k) mod p).
Proof.
  intros Hp Ha N. pose proof (prime_pos p Hp). unfold compute_alpha_sum. destruct (Z.eqb_spec alpha 1); [contradiction|].
  assert (K : ~ eqm p (sub_mod alpha 1 p) 0).
  { rewrite sub_mod_eqm. intros C. apply (proj1 (eqm_sub0 _ _ _)) in C. apply N. apply (eqm_small p); auto. lia. }
  destruct (invert_mod_prime _ p Hp K) as [inv I]. rewrite I. f_equal. apply invert_mod_some in I. destruct I as [_ I].
  apply eqm_some; [|lia|apply Z.mod_pos_bound; lia].
  rewrite mul_mod_eqm, sub_mod_eqm, eqm_mod. rewrite <- pow2_Z, <- geometric.
  rewrite sub_mod_eqm in I.
  transitivity (zsum (fun i => alpha ^ Z.of_nat i) (2 ^ k) * ((alpha - 1) * inv)); [mring|]. rewrite I. mring.
Qed.
Lemma one_check_run p y k alpha tape : 1 < p -> length y = (2 ^ k)%nat ->
  exists g, multiply_polynomials p y (build_alpha p (num_vars y) alpha) = Some g /\
    (forall c, run_sumcheck p g c tape = true <-> c = zsum (fun i => nth i y 0 * alpha ^ Z.of_nat i) (2 ^ k) mod p).
Proof.
  intros Hp H. rewrite (num_vars_pow y k H).
  rewrite (multiply_some p y _ k) by (auto; unfold build_alpha; apply alpha_loop_length). eexists. split; [reflexivity|].
  intros c. rewrite (run_sumcheck_reduced p _ _ _ k); [|lia|rewrite map_length, seq_length; auto|apply products_range; lia].
  match goal with |- c = vsum ?v mod p <-> _ => assert (E : eqm p (vsum v) (zsum (fun i => nth i y 0 * alpha ^ Z.of_nat i) (2 ^ k))) end.
  { rewrite (products_sum p (fun i => nth i y 0)). apply zsum_ext_eqm. intros i Hi. unfold build_alpha. rewrite alpha_loop_nth by auto. mring. }
  destruct E as [E]. rewrite E. reflexivity.
Qed.
Theorem one_check_complete p y k alpha tape : prime p -> length y = (2 ^ k)%nat -> Forall (fun a => a mod p = 1) y ->
  0 <= alpha < p -> (alpha <> 1 \/ 2 ^ Z.of_nat k < p) -> run_one_check p y alpha tape = Some true.
Proof.
  intros Hp H F Ha C. pose proof (prime_pos p Hp). unfold run_one_check.
  destruct (one_check_run p y k alpha tape ltac:(lia) H) as [g [-> E]]. rewrite (num_vars_pow y k H).
  assert (S1 : eqm p (zsum (fun i => nth i y 0 * alpha ^ Z.of_nat i) (2 ^ k)) (zsum (fun i => alpha ^ Z.of_nat i) (2 ^ k))).
  { apply zsum_ext_eqm. intros i Hi. rewrite Forall_forall in F. assert (Y : eqm p (nth i y 0) 1).
    { constructor. rewrite F by (apply nth_In; lia). rewrite Z.mod_small by lia. reflexivity. }
    rewrite Y. mring. }
  destruct (Z.eq_dec alpha 1) as [->|N].
  - unfold compute_alpha_sum. cbn [Z.eqb Pos.eqb]. f_equal. apply E. destruct S1 as [->].
    rewrite (zsum_ext _ (fun _ => 1)) by (intros; apply Z.pow_1_l; lia).
    assert (G : forall n, zsum (fun _ => 1) n = Z.of_nat n) by (induction n as [|n IH]; cbn [zsum]; lia).
    rewrite G, pow2_Z. symmetry. apply Z.mod_small. split; [apply Z.pow_nonneg; lia|]. destruct C; [contradiction|auto].
  - rewrite alpha_sum by auto. f_equal. apply E. destruct S1 as [->]. reflexivity.
Qed.
(** In a field of at most 2^k elements the draw alpha = 1 rejects a correct
    input. *)
Theorem one_check_refuted : exists p y tape, prime p /\ length y = 4%nat /\ Forall (fun a => a = 1) y /\
  run_one_check p y 1 tape = Some false.
Proof. exists 3, [1; 1; 1; 1], (fun _ => 0). split; [exact prime_3|]. split; [reflexivity|]. split; [repeat constructor|reflexivity]. Qed.
Lemma peval_zsum c x : peval c x = zsum (fun i => nth i c 0 * x ^ Z.of_nat i) (length c).
Proof.
  induction c as [|a c IH]; [reflexivity|]. change (length (a :: c)) with (1 + length c)%nat. rewrite zsum_app.
  cbn [peval zsum plus nth]. rewrite IH, <- zsum_scale. change (x ^ Z.of_nat 0) with 1.
  rewrite (zsum_ext (fun i => x * (nth i c 0 * x ^ Z.of_nat i)) (fun i => nth i c 0 * x ^ Z.of_nat (S i))).
  - ring.
  - intros i _. rewrite Nat2Z.inj_succ, Z.pow_succ_r by lia. ring.
Qed.
Lemma distinct_range p l : NoDup l -> (forall a, In a l -> 0 <= a < p) -> distinct p l.
Proof.
  induction 1 as [|a l Ha Hl IH]; intros R; [exact I|]. cbn [distinct]. split.
  - apply Forall_forall. intros b Hb E. apply Ha. assert (a = b); [|subst; auto].
    apply (eqm_small p); [apply R; left; auto|apply R; right; auto|exact E].
  - apply IH. intros b Hb. apply R. right. auto.
Qed.
Theorem one_check_sound p y k tape : prime p -> length y = (2 ^ k)%nat -> ~ Forall (fun a => a mod p = 1) y ->
  (length (filter (fun alpha => match run_one_check p y alpha (tape alpha) with Some b => b | None => true end) (zrange p)) < 2 ^ k)%nat.
Proof.
  intros Hp H N. pose proof (prime_pos p Hp).
  match goal with |- (length ?l < _)%nat => set (acc := l) end.
  destruct (le_lt_dec (2 ^ k) (length acc)) as [L|L]; [exfalso|exact L].
  assert (Z0 : Forall (fun a => eqm p a 0) (map (fun a => a - 1) y)).
  { apply (roots_zero p Hp acc).
    - apply distinct_range; [apply nodup_filter; apply zrange_nodup|].
      intros a Ha. apply filter_In in Ha. apply zrange_in. tauto.
    - rewrite map_length. lia.
    - apply Forall_forall. intros alpha Ha. apply filter_In in Ha. destruct Ha as [Ra A]. apply zrange_in in Ra.
      unfold run_one_check in A.
      destruct (one_check_run p y k alpha (tape alpha) ltac:(lia) H) as [g [-> E]] in A. rewrite (num_vars_pow y k H) in A.
      assert (S1 : eqm p (zsum (fun i => alpha ^ Z.of_nat i) (2 ^ k)) (zsum (fun i => nth i y 0 * alpha ^ Z.of_nat i) (2 ^ k))).
      { destruct (Z.eq_dec alpha 1) as [->|N1].
        - unfold compute_alpha_sum in A. cbn [Z.eqb Pos.eqb] in A. apply E in A.
          rewrite (zsum_ext (fun i => 1 ^ Z.of_nat i) (fun _ => 1)) by (intros; apply Z.pow_1_l; lia).
          assert (G : forall n, zsum (fun _ => 1) n = Z.of_nat n) by (induction n as [|n IH]; cbn [zsum]; lia).
          rewrite G, pow2_Z, A. apply eqm_mod.
        - rewrite alpha_sum in A by auto. apply E in A. constructor. exact A. }
      rewrite peval_zsum, map_length, H.
      assert (D : zsum (fun i => nth i (map (fun a => a - 1) y) 0 * alpha ^ Z.of_nat i) (2 ^ k) =
                  zsum (fun i => nth i y 0 * alpha ^ Z.of_nat i) (2 ^ k) - zsum (fun i => alpha ^ Z.of_nat i) (2 ^ k)).
      { rewrite (zsum_ext _ (fun i => nth i y 0 * alpha ^ Z.of_nat i + (-1) * alpha ^ Z.of_nat i)).
        - rewrite zsum_add, zsum_scale. ring.
        - intros i Hi. rewrite (nth_indep _ 0 ((fun a => a - 1) 0)) by (rewrite map_length; lia). rewrite (map_nth (fun a => a - 1)). ring. }
      rewrite D, S1. mring. }
  apply N. apply Forall_forall. intros a Ha. rewrite Forall_forall in Z0.
  specialize (Z0 (a - 1) ltac:(apply in_map_iff; exists a; auto)). apply (proj1 (eqm_sub0 _ _ _)) in Z0.
  destruct Z0 as [Z0]. rewrite Z0. apply Z.mod_small. lia.
Qed.
Example one_check_ex : run_one_check 11 [1; 12; 1; 1] 6 (fun _ => 3) = Some true /\
  run_one_check 11 [1; 1; 2; 1] 6 (fun _ => 3) = Some false /\ run_one_check 11 [1; 1; 2; 1] 0 (fun _ => 3) = Some true.
Proof. repeat split; reflexivity. Qed.

(** ** C55: matrix products *)
(** The product of a 2^m x 2^n and a 2^n x 2^q matrix, row-major. *)
Definition mat_product (m n q : nat) (a b : list Z) : list Z :=
  map (fun ij => list_sum (map (fun y => nth (ij / 2 ^ q * 2 ^ n + y) a 0 * nth (y * 2 ^ q + ij mod 2 ^ q) b 0) (seq 0 (2 ^ n))))
      (seq 0 (2 ^ m * 2 ^ q)).
Lemma mle_app a u v : (length a = 2 ^ (length u + length v))%nat ->
  mle a (u ++ v) = zsum (fun i => zsum (fun j => wt u i * (nth (i * 2 ^ length v + j) a 0 * wt v j)) (2 ^ length v)) (2 ^ length u).
Proof.
  intros H. unfold mle. rewrite app_length, Nat.pow_add_r, zsum_mul. apply zsum_ext. intros i Hi. apply zsum_ext. intros j Hj.
  rewrite wt_app by auto. ring.
Qed.
Lemma mle_bits_right a u n y : (length a = 2 ^ (length u + n))%nat -> (y < 2 ^ n)%nat ->
  mle a (u ++ bits_msb n y) = zsum (fun i => wt u i * nth (i * 2 ^ n + y) a 0) (2 ^ length u).
Proof.
  intros H Hy. rewrite mle_app by (rewrite bits_msb_length; auto). rewrite bits_msb_length. apply zsum_ext. intros i Hi.
  rewrite (zsum_ext _ (fun j => if Nat.eqb j y then wt u i * nth (i * 2 ^ n + j) a 0 else 0)).
  - rewrite zsum_pick by auto. reflexivity.
  - intros j Hj. rewrite wt_bits, !Nat.mod_small by auto. destruct (Nat.eqb j y); ring.
Qed.
Lemma mle_bits_left b n v y : (length b = 2 ^ (n + length v))%nat -> (y < 2 ^ n)%nat ->
  mle b (bits_msb n y ++ v) = zsum (fun j => nth (y * 2 ^ length v + j) b 0 * wt v j) (2 ^ length v).
Proof.
  intros H Hy. rewrite mle_app by (rewrite bits_msb_length; auto). rewrite bits_msb_length.
  rewrite (zsum_ext _ (fun i => if Nat.eqb i y then zsum (fun j => nth (i * 2 ^ length v + j) b 0 * wt v j) (2 ^ length v) else 0)).
  - rewrite zsum_pick by auto. reflexivity.
  - intros i Hi. rewrite wt_bits, !Nat.mod_small by auto. rewrite zsum_scale. destruct (Nat.eqb i y); ring.
Qed.
Lemma fold_some p (f h : nat -> option Z) n : (forall i, (i < n)%nat -> exists a b, f i = Some a /\ h i = Some b) ->
  exists s, fold_left (fun acc i => match acc, f i, h i with
     | Some s, Some ea, Some eb => Some (add_mod s (mul_mod ea eb p) p) | _, _, _ => None end) (seq 0 n) (Some 0) = Some s /\
  eqm p s (zsum (fun i => (match f i with Some a => a | None => 0 end) * (match h i with Some b => b | None => 0 end)) n) /\
  (0 < p -> 0 <= s < p).
Proof.
  induction n as [|n IH]; intros H.
  - exists 0. split; [reflexivity|]. split; [reflexivity|lia].
  - destruct IH as [s [E [K R]]]; [intros i Hi; apply H; lia|]. rewrite seq_S, fold_left_app, E. cbn [fold_left plus zsum].
    destruct (H n ltac:(lia)) as [a [b [Fa Hb]]]. rewrite Fa, Hb. eexists. split; [reflexivity|]. split.
    + rewrite add_mod_eqm, mul_mod_eqm, K. reflexivity.
    + intros Hp. apply Z.mod_pos_bound. lia.
Qed.
Lemma evaluate_some_eqm p g r : length g = (2 ^ length r)%nat -> exists e, evaluate p g r = Some e /\ eqm p e (mle g r).
Proof.
  intros H. unfold evaluate. rewrite (num_vars_pow g _ H), Nat.eqb_refl. eexists. split; [reflexivity|]. apply evaluate_loop_eqm. auto.
Qed.
Lemma mat_product_nth m n q a b i j : (i < 2 ^ m)%nat -> (j < 2 ^ q)%nat ->
  nth (i * 2 ^ q + j) (mat_product m n q a b) 0 = zsum (fun y => nth (i * 2 ^ n + y) a 0 * nth (y * 2 ^ q + j) b 0) (2 ^ n).
Proof.
  intros Hi Hj. unfold mat_product. pose proof (pow2_pos q). rewrite nth_map_seq by nia. rewrite zsum_list_sum.
  replace ((i * 2 ^ q + j) / 2 ^ q)%nat with i; [replace ((i * 2 ^ q + j) mod 2 ^ q)%nat with j; [reflexivity|]|].
  - rewrite Nat.add_comm, Nat.mod_add by lia. symmetry. apply Nat.mod_small. auto.
  - rewrite Nat.add_comm, Nat.div_add by lia. rewrite Nat.div_small by auto. reflexivity.
Qed.
(** MatMatMultiplication returns the extension of the product matrix at (u, v). *)
Theorem mat_mat_correct p n a b u v : 1 < p -> (1 <= n)%nat ->
  length a = (2 ^ (length u + n))%nat -> length b = (2 ^ (n + length v))%nat ->
  mat_mat p a b u v = Some (extension (mat_product (length u) n (length v) a b) (u ++ v) mod p).
Proof.
  intros Hp Hn La Lb. unfold mat_mat. rewrite (num_vars_pow a _ La), (num_vars_pow b _ Lb).
  destruct (Nat.leb_spec (length u + n) (length u)); [lia|]. destruct (Nat.leb_spec (n + length v) (length v)); [lia|].
  replace (length u + n - length u)%nat with n by lia. replace (n + length v - length v)%nat with n by lia.
  rewrite Nat.eqb_refl. cbn [negb].
  assert (EA : forall y, (y < 2 ^ n)%nat -> exists e, evaluate p a (u ++ bits_msb n y) = Some e /\ eqm p e (mle a (u ++ bits_msb n y))).
  { intros y Hy. apply evaluate_some_eqm. rewrite app_length, bits_msb_length. auto. }
  assert (EB : forall y, (y < 2 ^ n)%nat -> exists e, evaluate p b (bits_msb n y ++ v) = Some e /\ eqm p e (mle b (bits_msb n y ++ v))).
  { intros y Hy. apply evaluate_some_eqm. rewrite app_length, bits_msb_length. auto. }
  destruct (fold_some p (fun y => evaluate p a (u ++ bits_msb n y)) (fun y => evaluate p b (bits_msb n y ++ v)) (2 ^ n)) as [s [E [K R]]].
  { intros y Hy. destruct (EA y Hy) as [e [-> _]]. destruct (EB y Hy) as [f [-> _]]. eauto. }
  rewrite E. f_equal. apply eqm_some; [|lia|apply R; lia]. rewrite K. rewrite <- mle_extension.
  rewrite mle_app by (unfold mat_product; rewrite map_length, seq_length, Nat.pow_add_r; reflexivity).
  assert (S1 : eqm p (zsum (fun y => match evaluate p a (u ++ bits_msb n y) with Some a => a | None => 0 end *
                               match evaluate p b (bits_msb n y ++ v) with Some b => b | None => 0 end) (2 ^ n))
    (zsum (fun y => zsum (fun i => zsum (fun j => wt u i * (nth (i * 2 ^ n + y) a 0 * nth (y * 2 ^ length v + j) b 0) * wt v j) (2 ^ length v)) (2 ^ length u)) (2 ^ n))).
  { apply zsum_ext_eqm. intros y Hy. destruct (EA y Hy) as [e [-> Ee]]. destruct (EB y Hy) as [f [-> Ef]]. rewrite Ee, Ef.
    rewrite (mle_bits_right a u n y La Hy), (mle_bits_left b n v y Lb Hy).
    apply eqm_eq. rewrite Z.mul_comm, <- zsum_scale. apply zsum_ext. intros i Hi. rewrite Z.mul_comm, <- zsum_scale.
    apply zsum_ext. intros j Hj. ring. }
  rewrite S1. apply eqm_eq. rewrite zsum_swap. apply zsum_ext. intros i Hi. rewrite zsum_swap. apply zsum_ext. intros j Hj.
  rewrite mat_product_nth by auto.
  transitivity (wt u i * wt v j * zsum (fun y => nth (i * 2 ^ n + y) a 0 * nth (y * 2 ^ length v + j) b 0) (2 ^ n)); [|ring].
  rewrite <- zsum_scale. apply zsum_ext. intros y Hy. ring.
Qed.
Definition mat_vec_product (m n : nat) (a t : list Z) : list Z :=
  map (fun i => list_sum (map (fun y => nth (i * 2 ^ n + y) a 0 * nth y t 0) (seq 0 (2 ^ n)))) (seq 0 (2 ^ m)).
Theorem mat_vec_correct p n a t r : 1 < p -> (1 <= n)%nat ->
  length a = (2 ^ (length r + n))%nat -> length t = (2 ^ n)%nat ->
  mat_vec p a t r = Some (extension (mat_vec_product (length r) n a t) r mod p).
Proof.
  intros Hp Hn La Lt. unfold mat_vec. rewrite (num_vars_pow a _ La), (num_vars_pow t _ Lt).
  destruct (Nat.leb_spec (length r + n) (length r)); [lia|].
  replace (length r + n - length r)%nat with n by lia. rewrite Nat.eqb_refl. cbn [negb].
  assert (EA : forall y, (y < 2 ^ n)%nat -> exists e, evaluate p a (r ++ bits_msb n y) = Some e /\ eqm p e (mle a (r ++ bits_msb n y))).
  { intros y Hy. apply evaluate_some_eqm. rewrite app_length, bits_msb_length. auto. }
  assert (EB : forall y, (y < 2 ^ n)%nat -> exists e, evaluate p t (bits_msb n y) = Some e /\ eqm p e (mle t (bits_msb n y))).
  { intros y Hy. apply evaluate_some_eqm. rewrite bits_msb_length. auto. }
  destruct (fold_some p (fun y => evaluate p a (r ++ bits_msb n y)) (fun y => evaluate p t (bits_msb n y)) (2 ^ n)) as [s [E [K R]]].
  { intros y Hy. destruct (EA y Hy) as [e [-> _]]. destruct (EB y Hy) as [f [-> _]]. eauto. }
  rewrite E. f_equal. apply eqm_some; [|lia|apply R; lia]. rewrite K. rewrite <- mle_extension. unfold mle at 1.
  assert (S1 : eqm p (zsum (fun y => match evaluate p a (r ++ bits_msb n y) with Some a => a | None => 0 end *
                               match evaluate p t (bits_msb n y) with Some b => b | None => 0 end) (2 ^ n))
    (zsum (fun y => zsum (fun i => nth (i * 2 ^ n + y) a 0 * nth y t 0 * wt r i) (2 ^ length r)) (2 ^ n))).
  { apply zsum_ext_eqm. intros y Hy. destruct (EA y Hy) as [e [-> Ee]]. destruct (EB y Hy) as [f [-> Ef]]. rewrite Ee, Ef.
    rewrite (mle_bits_right a r n y La Hy).
    assert (T : mle t (bits_msb n y) = nth y t 0).
    { pose proof (mle_bits_left t n [] y) as M. rewrite app_nil_r in M. cbn [length Nat.pow] in M. rewrite M by (rewrite ?Nat.add_0_r; auto).
      cbn [zsum wt]. rewrite Nat.mul_1_r, Nat.add_0_r. ring. }
    rewrite T. apply eqm_eq. rewrite Z.mul_comm, <- zsum_scale. apply zsum_ext. intros i Hi. ring. }
  rewrite S1. apply eqm_eq. rewrite zsum_swap. apply zsum_ext. intros i Hi.
  unfold mat_vec_product. rewrite nth_map_seq by auto. rewrite <- zsum_list_sum, Z.mul_comm, <- zsum_scale.
  apply zsum_ext. intros y Hy. ring.
Qed.
Example mat_mat_ex : mat_mat 97 [1; 2; 3; 4] [5; 6; 7; 8] [1] [0] = Some 43 /\ mat_product 1 1 1 [1; 2; 3; 4] [5; 6; 7; 8] = [19; 22; 43; 50] /\
  mat_vec 97 [1; 2; 3; 4] [5; 6] [1] = Some 39.
Proof. repeat split; reflexivity. Qed.

Print Assumptions sumcheck_run_exact.
Print Assumptions sumcheck_run_reduced.
Print Assumptions sumcheck_constant_refuted.
Print Assumptions sumcheck_sound.
Print Assumptions vectors_all.
Print Assumptions vectors_distinct.
Print Assumptions evaluate_extension.
Print Assumptions evaluate_boolean.
Print Assumptions build_eq_chi.
Print Assumptions zero_check_exact.
Print Assumptions zero_check_complete.
Print Assumptions zero_check_sound.
Print Assumptions one_check_complete.
Print Assumptions one_check_refuted.
Print Assumptions one_check_sound.
Print Assumptions mat_mat_correct.
Print Assumptions mat_vec_correct.
