(** C35, C36, C50: secret sharing over a prime field with Feldman commitments. *)
From Coq Require Import ZArith List Bool Lia Zdiv Znumtheory Setoid Morphisms.
From Verif Require Import ZpLib VssModel VssProof.
Import ListNotations.
Open Scope Z_scope.

(** The textbook value: the sum of c_i x^i. *)
Definition poly_value (c : list Z) (x : Z) : Z :=
  fold_right Z.add 0 (map (fun i => nth i c 0 * x ^ Z.of_nat i) (seq 0 (length c))).
Lemma poly_value_peval c x : poly_value c x = peval c x.
Proof.
  unfold poly_value. induction c as [|a c IH]; [reflexivity|].
  cbn [length seq map fold_right nth peval]. rewrite <- seq_shift, map_map. rewrite <- IH.
  replace (a * x ^ Z.of_nat 0) with a by (change (x ^ Z.of_nat 0) with 1; ring). f_equal.
  generalize (seq 0 (length c)). intros l. induction l as [|i l IHl]; cbn [map fold_right]; [ring|].
  rewrite IHl. cbn [nth]. rewrite Nat2Z.inj_succ, Z.pow_succ_r by lia. ring.
Qed.
(** Pairwise incongruent entries, by position. *)
Definition incongruent (p : Z) (l : list Z) : Prop :=
  forall i k, (i < length l)%nat -> (k < length l)%nat -> i <> k -> nth i l 0 mod p <> nth k l 0 mod p.
Lemma incongruent_distinct p l : incongruent p l <-> distinct p l.
Proof.
  rewrite distinct_nth. split; intros H i k Hi Hk N.
  - intros [E]. exact (H i k Hi Hk N E).
  - intros E. exact (H i k Hi Hk N (Eqm _ _ _ E)).
Qed.

Lemma nth_fst k (l : list (Z * Z)) : nth k (map fst l) 0 = fst (nth k l (0, 0)).
Proof. apply (map_nth fst l (0, 0)). Qed.
Lemma nth_snd k (l : list (Z * Z)) : nth k (map snd l) 0 = snd (nth k l (0, 0)).
Proof. apply (map_nth snd l (0, 0)). Qed.

(** EvaluatePolynomial computes the textbook value, reduced when all
    coefficients are. *)
Theorem evaluate_correct m c x : 0 < m -> c <> [] -> Forall (fun a => 0 <= a < m) c ->
  evaluate_polynomial m c x = Some (poly_value c x mod m).
Proof.
  intros Hm Hc R. destruct (evaluate_some m c x Hc) as [y E]. rewrite E. f_equal.
  rewrite poly_value_peval. apply eqm_some; auto; [apply evaluate_eqm; auto|].
  eapply evaluate_range; eauto.
Qed.
Example evaluate_ex : evaluate_polynomial 97 [5; 7; 11] 20 = Some ((5 + 7 * 20 + 11 * 400) mod 97).
Proof. reflexivity. Qed.
(** A one-coefficient polynomial is returned as it is. *)
Theorem evaluate_unreduced_refuted : exists m c x, 0 < m /\ c <> [] /\
  evaluate_polynomial m c x <> Some (poly_value c x mod m).
Proof. exists 7, [10], 3. repeat split; [discriminate|vm_compute; discriminate]. Qed.

(** Interpolating a polynomial of at most n coefficients through n points gives
    its value everywhere. *)
Theorem interpolation_correct p c xs ys t : prime p -> incongruent p xs -> (length c <= length xs)%nat ->
  length ys = length xs ->
  (forall k, (k < length xs)%nat -> nth k ys 0 mod p = poly_value c (nth k xs 0) mod p) ->
  lagrange_interpolation xs ys t p = Some (poly_value c t mod p).
Proof.
  intros Hp D L Ly H. rewrite poly_value_peval. apply interpolation_poly; auto.
  - apply incongruent_distinct; auto.
  - intros k Hk. constructor. rewrite H by auto. rewrite poly_value_peval. reflexivity.
Qed.
Lemma prime_7 : prime 7.
Proof.
  constructor; [lia|]. intros n Hn. apply Zgcd_1_rel_prime.
  assert (n = 1 \/ n = 2 \/ n = 3 \/ n = 4 \/ n = 5 \/ n = 6) as [->|[->|[->|[->|[->| ->]]]]] by lia; reflexivity.
Qed.
Example interpolation_ex : lagrange_interpolation [1; 3; 6] [poly_value [2; 5; 1] 1 mod 7; poly_value [2; 5; 1] 3 mod 7; poly_value [2; 5; 1] 6 mod 7] 4 7
  = Some (poly_value [2; 5; 1] 4 mod 7).
Proof.
  apply interpolation_correct; [exact prime_7| | | |].
  - intros [|[|[|i]]] [|[|[|k]]] Hi Hk N; cbn in *; try lia; discriminate.
  - cbn; lia.
  - reflexivity.
  - intros [|[|[|k]]] Hk; cbn in Hk; try lia; reflexivity.
Qed.

(** ** C35
    Any list of shares taken from the output of CreateShare, in any order and
    possibly more than threshold of them, recovers the secret (modulo p) if the
    x-coordinates of the first threshold of them are pairwise incongruent. *)
Theorem recover_correct p total threshold secret rnd tape shares sel :
  prime p ->
  create_share total threshold secret p rnd tape = Some shares ->
  incl sel shares -> (threshold <= length sel)%nat ->
  incongruent p (map fst (firstn threshold sel)) ->
  recover_secret threshold p sel = Some (secret mod p).
Proof.
  intros Hp C I L D. unfold create_share in C. destruct (Nat.ltb total threshold); [discriminate|].
  destruct (create_polynomial secret threshold rnd) as [c|] eqn:P; [|discriminate].
  apply polynomial_length in P. destruct P as [Lc [c' Ec]].
  unfold recover_secret. destruct (Nat.ltb_spec (length sel) threshold); [lia|].
  assert (Lu : length (firstn threshold sel) = threshold) by (rewrite firstn_length; lia).
  apply incongruent_distinct in D.
  rewrite (interpolation_poly p c).
  - subst c. cbn [peval]. f_equal. rewrite Z.mul_0_l, Z.add_0_r. reflexivity.
  - auto.
  - auto.
  - rewrite map_length. lia.
  - rewrite !map_length. reflexivity.
  - intros k Hk. rewrite map_length in Hk.
    rewrite nth_fst, nth_snd.
    assert (K : In (nth k (firstn threshold sel) (0, 0)) shares).
    { apply I. rewrite <- (firstn_skipn threshold sel) at 2. apply in_app_iff. left. apply nth_In. exact Hk. }
    destruct (nth k (firstn threshold sel) (0, 0)) as [x y]. cbn [fst snd].
    destruct (make_shares_in p c _ shares C x y K) as [_ E]. apply evaluate_eqm in E. exact E.
Qed.
(** With congruent x-coordinates among the first threshold shares it throws. *)
Theorem recover_throws p threshold sel : prime p ->
  ~ incongruent p (map fst (firstn threshold sel)) -> recover_secret threshold p sel = None.
Proof.
  intros Hp D. unfold recover_secret. destruct (Nat.ltb _ _); [reflexivity|].
  apply interpolation_throws; auto. rewrite <- incongruent_distinct. exact D.
Qed.
(** CreateShare gives total shares for every threshold from one to total. *)
Theorem create_share_total p total threshold secret rnd tape : (1 <= threshold <= total)%nat ->
  exists shares, create_share total threshold secret p rnd tape = Some shares /\
    map fst shares = map tape (seq 0 total).
Proof.
  intros H. unfold create_share. destruct (Nat.ltb_spec total threshold); [lia|].
  unfold create_polynomial. destruct threshold as [|t]; [lia|].
  destruct (make_shares_some p (secret :: map rnd (seq 1 t)) (map tape (seq 0 total))) as [l E]; [discriminate|].
  exists l. split; [exact E|]. eapply make_shares_fst; eauto.
Qed.
(** The draws of CreateShare do not exclude equal x-coordinates, nor zero: with
    such draws the whole output does not recover the secret, or a single share
    is the secret. *)
Theorem recover_all_refuted : exists p total threshold secret rnd tape shares,
  prime p /\ (forall i, 0 <= rnd i < p) /\ (forall i, 0 <= tape i < p) /\
  create_share total threshold secret p rnd tape = Some shares /\
  recover_secret threshold p shares <> Some (secret mod p).
Proof.
  exists 7, 3%nat, 2%nat, 5, (fun _ => 4), (fun _ => 3), [(3, 3); (3, 3); (3, 3)].
  split; [exact prime_7|]. split; [lia|]. split; [lia|]. split; [reflexivity|]. vm_compute. discriminate.
Qed.
Theorem share_at_zero_reveals p total threshold secret rnd tape shares i :
  prime p -> (i < total)%nat -> tape i = 0 ->
  create_share total threshold secret p rnd tape = Some shares ->
  snd (nth i shares (0, 0)) mod p = secret mod p.
Proof.
  intros Hp Hi T C. unfold create_share in C. destruct (Nat.ltb total threshold); [discriminate|].
  destruct (create_polynomial secret threshold rnd) as [c|] eqn:P; [|discriminate].
  apply polynomial_length in P. destruct P as [Lc [c' ->]].
  pose proof (make_shares_fst _ _ _ _ C) as F.
  assert (L : length shares = total) by (rewrite <- (map_length fst), F, map_length, seq_length; reflexivity).
  assert (K : In (nth i shares (0, 0)) shares) by (apply nth_In; lia).
  assert (X : fst (nth i shares (0, 0)) = 0).
  { rewrite <- nth_fst, F.
    rewrite (nth_indep _ _ (tape 0%nat)) by (rewrite map_length, seq_length; lia).
    rewrite map_nth, seq_nth by lia. exact T. }
  destruct (nth i shares (0, 0)) as [x y]. cbn [fst snd] in *. subst x.
  destruct (make_shares_in _ _ _ _ C 0 y K) as [_ E]. apply evaluate_eqm in E. cbn [peval] in E.
  rewrite Z.mul_0_l, Z.add_0_r in E. destruct E as [E]. exact E.
Qed.
Example recover_ex :
  let tape := fun i => nth i [6; 2; 5; 3] 0 in
  exists shares, create_share 4 3 5 7 (fun i => nth i [0; 4; 6] 0) tape = Some shares /\
    recover_secret 3 7 [nth 3 shares (0, 0); nth 0 shares (0, 0); nth 2 shares (0, 0)] = Some 5.
Proof. cbv zeta. eexists. split; [reflexivity|]. reflexivity. Qed.

(** ** C50: threshold - 1 shares say nothing about the secret.
    For every secret there is exactly one choice of the random coefficients
    consistent with any threshold - 1 shares at incongruent non-zero
    x-coordinates: every secret is equally likely given them. *)
Lemma Forall2_eqm_eq p c d : Forall2 (eqm p) c d -> Forall (fun a => 0 <= a < p) c -> Forall (fun a => 0 <= a < p) d -> c = d.
Proof.
  induction 1 as [|a b c d E F IH]; intros C D; auto.
  inversion C; inversion D; subst. f_equal; [apply (eqm_small p); auto|auto].
Qed.
Theorem sharing_private p points secret : prime p -> 0 <= secret < p ->
  incongruent p (map fst points) ->
  (forall x y, In (x, y) points -> x mod p <> 0 /\ 0 <= y < p) ->
  exists! c, length c = length points /\ Forall (fun a => 0 <= a < p) c /\
    forall x y, In (x, y) points -> evaluate_polynomial p (secret :: c) x = Some y.
Proof.
  intros Hp Hs D R. pose proof (prime_pos p Hp) as H1. apply incongruent_distinct in D.
  set (n := length points).
  set (xs := 0 :: map fst points). set (ys := secret :: map snd points).
  assert (DX : distinct p xs).
  { cbn [xs distinct]. split; auto. rewrite Forall_forall. intros b Hb [E]. apply in_map_iff in Hb.
    destruct Hb as [[x y] [<- K]]. destruct (R x y K) as [N _]. apply N. cbn [fst] in E. rewrite Zmod_0_l in E. symmetry. exact E. }
  set (q := lagrange_poly p xs ys).
  pose proof (lagrange_poly_length p xs ys) as Lq. fold q in Lq. cbn [xs length] in Lq. rewrite map_length in Lq. fold n in Lq.
  set (q' := map (fun a => a mod p) (firstn (S n) (q ++ repeat 0 (S n)))).
  assert (Lq' : length q' = S n).
  { unfold q'. rewrite map_length, firstn_length, app_length, repeat_length. lia. }
  assert (EZ : forall k x, peval (repeat 0 k) x = 0).
  { intros k x. induction k as [|k IH]; [reflexivity|]. cbn [repeat peval]. rewrite IH. ring. }
  assert (Eq : forall x, eqm p (peval q' x) (peval q x)).
  { intros x. unfold q'.
    assert (F : forall l, eqm p (peval (map (fun a => a mod p) l) x) (peval l x)).
    { induction l as [|a l IH]; cbn [map peval]; [reflexivity|]. rewrite IH, eqm_mod. reflexivity. }
    rewrite F. rewrite firstn_app. rewrite peval_app. rewrite firstn_all2 by lia.
    assert (G : forall j k, peval (firstn j (repeat 0 k)) x = 0).
    { induction j as [|j IH]; intros [|k]; cbn [firstn repeat peval]; auto. rewrite IH. ring. }
    rewrite G. mring. }
  assert (Rq : Forall (fun a => 0 <= a < p) q').
  { apply Forall_forall. intros a Ha. apply in_map_iff in Ha. destruct Ha as [b [<- _]]. apply Z.mod_pos_bound. lia. }
  assert (At : forall k, (k < S n)%nat -> eqm p (peval q' (nth k xs 0)) (nth k ys 0)).
  { intros k Hk. rewrite Eq. unfold q. apply lagrange_poly_at; auto. cbn [xs length]. rewrite map_length. exact Hk. }
  destruct q' as [|a0 c] eqn:Q; [discriminate|].
  assert (a0 = secret) as ->.
  { specialize (At 0%nat ltac:(lia)). cbn [xs ys nth peval] in At. inversion Rq; subst.
    apply (eqm_small p); auto. rewrite <- At. mring. }
  exists c. split.
  - split; [cbn in Lq'; lia|]. split; [inversion Rq; auto|]. intros x y Hin.
    destruct (evaluate_some p (secret :: c) x) as [v E]; [discriminate|]. rewrite E. f_equal.
    destruct (In_nth _ _ (0, 0) Hin) as [k [Hk Ek]].
    specialize (At (S k) ltac:(unfold n; lia)). cbn [xs ys nth] in At.
    rewrite nth_fst, nth_snd, Ek in At. cbn [fst snd] in At.
    apply (eqm_small p); [eapply evaluate_range; eauto; lia|apply (R x y Hin)|].
    rewrite (evaluate_eqm _ _ _ _ E). exact At.
  - intros d [Ld [Rd Ed]].
    assert (K : Forall2 (eqm p) (secret :: c) (secret :: d)).
    { apply (poly_unique p xs); auto.
      - cbn in *. lia.
      - cbn [xs length] in *. rewrite map_length. fold n. lia.
      - apply Forall_forall. intros x Hx. apply (In_nth _ _ 0) in Hx. destruct Hx as [k [Hk <-]].
        cbn [xs length] in Hk. rewrite map_length in Hk. fold n in Hk. rewrite At by auto.
        destruct k as [|k].
        + cbn [xs ys nth peval]. mring.
        + cbn [xs ys nth]. rewrite nth_fst, nth_snd.
          assert (In (nth k points (0, 0)) points) by (apply nth_In; unfold n in Hk; lia).
          destruct (nth k points (0, 0)) as [x y]. cbn [fst snd]. apply evaluate_eqm. apply Ed. auto. }
    apply Forall2_eqm_eq in K; [injection K; auto|exact Rq|constructor; auto].
Qed.
Example sharing_private_ex : incongruent 7 (map fst [(3, 1); (5, 6)]) /\
  (forall x y, In (x, y) [(3, 1); (5, 6)] -> x mod 7 <> 0 /\ 0 <= y < 7) /\
  evaluate_polynomial 7 [2; 6; 4] 3 = Some 0.
Proof.
  split; [intros [|[|i]] [|[|k]] Hi Hk N; cbn in *; try lia; discriminate|]. split; [|reflexivity].
  intros x y [[= <- <-]|[[= <- <-]|[]]]; split; try lia; discriminate.
Qed.

(** ** C36
    The laws of a cyclic group of order n with generator g_base, as far as
    VerifyCommits uses them. *)
Record cyclic (g : group) (n : Z) : Prop := {
  mul_add : forall a b, g_add g (g_mul g (g_base g) a) (g_mul g (g_base g) b) = g_mul g (g_base g) (a + b);
  mul_mul : forall a b, g_mul g (g_mul g (g_base g) a) b = g_mul g (g_base g) (a * b);
  mul_order : forall a b, g_mul g (g_base g) a = g_mul g (g_base g) b <-> a mod n = b mod n;
  eqb_eq : forall a b, g_eqb g a b = true <-> a = b }.

Lemma verify_loop_eq g n : cyclic g n -> forall c x xp acc,
  exists r, verify_loop g x n (create_commits g c) xp (g_mul g (g_base g) acc) = g_mul g (g_base g) r /\
            eqm n r (acc + xp * x * peval c x).
Proof.
  intros [A M O _]. induction c as [|a c IH]; intros x xp acc.
  - exists acc. split; [reflexivity|]. cbn [peval]. mring.
  - cbn [create_commits map verify_loop]. rewrite M, A.
    destruct (IH x (mul_mod xp x n) (acc + a * mul_mod xp x n)) as [r [E K]]. exists r. split; [exact E|].
    rewrite K. rewrite mul_mod_eqm. cbn [peval]. mring.
Qed.
Theorem verify_exact g n c x y : cyclic g n -> c <> [] ->
  (verify_commits g (x, y) (create_commits g c) n = Some true <-> y mod n = poly_value c x mod n) /\
  (verify_commits g (x, y) (create_commits g c) n = Some false <-> y mod n <> poly_value c x mod n).
Proof.
  intros G Hc. destruct c as [|a c]; [contradiction|]. rewrite poly_value_peval.
  unfold verify_commits. cbn [create_commits map fst snd].
  destruct (verify_loop_eq g n G c x 1 a) as [r [E K]]. fold (create_commits g c). rewrite E.
  assert (X : g_eqb g (g_mul g (g_base g) y) (g_mul g (g_base g) r) = true <-> y mod n = peval (a :: c) x mod n).
  { rewrite (eqb_eq g n G), (mul_order g n G).
    assert (K' : eqm n r (peval (a :: c) x)) by (rewrite K; cbn [peval]; mring). destruct K' as [K']. rewrite K'. tauto. }
  destruct (g_eqb g (g_mul g (g_base g) y) (g_mul g (g_base g) r)); split; split; intros H; try discriminate; auto.
  - tauto.
  - exfalso. apply H. tauto.
  - exfalso. apply X in H. discriminate.
  - intros E'. apply X in E'. discriminate.
Qed.
(** All shares of an honest dealer are accepted. *)
Theorem verify_complete g p total threshold secret rnd tape shares c x y :
  cyclic g p -> create_polynomial secret threshold rnd = Some c ->
  create_share total threshold secret p rnd tape = Some shares -> In (x, y) shares ->
  verify_commits g (x, y) (create_commits g c) p = Some true.
Proof.
  intros G P C I. assert (c <> []) by (apply polynomial_length in P; destruct P as [_ [c' ->]]; discriminate).
  apply verify_exact; auto. rewrite poly_value_peval.
  unfold create_share in C. destruct (Nat.ltb total threshold); [discriminate|]. rewrite P in C.
  destruct (make_shares_in _ _ _ _ C x y I) as [_ E]. apply evaluate_eqm in E. destruct E as [E]. exact E.
Qed.
(** Whatever the dealer sent, threshold accepted shares recover the committed
    secret. *)
Theorem verified_recover g p threshold c sel : prime p -> cyclic g p ->
  length c = threshold -> c <> [] -> (threshold <= length sel)%nat ->
  incongruent p (map fst (firstn threshold sel)) ->
  (forall s, In s sel -> verify_commits g s (create_commits g c) p = Some true) ->
  recover_secret threshold p sel = Some (nth 0 c 0 mod p).
Proof.
  intros Hp G Lc Hc L D V. unfold recover_secret. destruct (Nat.ltb_spec (length sel) threshold); [lia|].
  assert (Lu : length (firstn threshold sel) = threshold) by (rewrite firstn_length; lia).
  apply incongruent_distinct in D.
  rewrite (interpolation_poly p c); auto.
  - destruct c as [|a c]; [contradiction|]. cbn [peval nth]. f_equal. rewrite Z.mul_0_l, Z.add_0_r. reflexivity.
  - rewrite map_length. lia.
  - rewrite !map_length. reflexivity.
  - intros k Hk. rewrite map_length in Hk.
    rewrite nth_fst, nth_snd.
    assert (K : In (nth k (firstn threshold sel) (0, 0)) sel).
    { rewrite <- (firstn_skipn threshold sel) at 2. apply in_app_iff. left. apply nth_In. exact Hk. }
    apply V in K. destruct (nth k (firstn threshold sel) (0, 0)) as [x y]. cbn [fst snd].
    apply (verify_exact g p c x y G Hc) in K. rewrite poly_value_peval in K. constructor. exact K.
Qed.

(** The additive group of integers modulo n is such a group. *)
Definition zgroup (n : Z) : group :=
  {| point := Z; g_add := fun a b => (a + b) mod n; g_mul := fun a k => (a * k) mod n; g_base := 1 mod n; g_eqb := Z.eqb |}.
Lemma zgroup_cyclic n : 0 < n -> cyclic (zgroup n) n.
Proof.
  intros Hn. split; cbn.
  - intros a b. rewrite <- Zplus_mod. rewrite <- Z.mul_add_distr_l. reflexivity.
  - intros a b. rewrite Zmult_mod_idemp_l. f_equal. ring.
  - intros a b. rewrite !Zmult_mod_idemp_l, !Z.mul_1_l. tauto.
  - intros a b. apply Z.eqb_eq.
Qed.
Example verify_ex :
  verify_commits (zgroup 7) (3, poly_value [5; 4; 6] 3 mod 7) (create_commits (zgroup 7) [5; 4; 6]) 7 = Some true /\
  verify_commits (zgroup 7) (3, 3) (create_commits (zgroup 7) [5; 4; 6]) 7 = Some false.
Proof. split; reflexivity. Qed.
(** If the sharing prime is not the group order, honest shares may be rejected. *)
Theorem verify_order_refuted : exists g n p c x y, cyclic g n /\ prime p /\ p < n /\ c <> [] /\
  evaluate_polynomial p c x = Some y /\ verify_commits g (x, y) (create_commits g c) p = Some false.
Proof.
  exists (zgroup 11), 11, 7, [5; 4; 6], 3, 1.
  split; [apply zgroup_cyclic; lia|]. split; [exact prime_7|]. split; [lia|]. split; [discriminate|]. split; reflexivity.
Qed.

Print Assumptions evaluate_correct.
Print Assumptions evaluate_unreduced_refuted.
Print Assumptions interpolation_correct.
Print Assumptions recover_correct.
Print Assumptions recover_throws.
Print Assumptions create_share_total.
Print Assumptions recover_all_refuted.
Print Assumptions share_at_zero_reveals.
Print Assumptions sharing_private.
Print Assumptions verify_exact.
Print Assumptions verify_complete.
Print Assumptions verified_recover.
Print Assumptions verify_order_refuted.
