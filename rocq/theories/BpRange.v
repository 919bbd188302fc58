(** The range proof equation. *)
From Coq Require Import Ascii String.
From Coq Require Import ZArith List Bool Arith Lia Znumtheory Setoid.
From Verif Require Import ZpLib VssModel VssProps LinCodeModel BpModel BpProof.
Import ListNotations.
Open Scope Z_scope.

(** Double sums. *)
Definition ds (m k : nat) (f : nat -> nat -> Z) : Z := sm m (fun j => sm k (f j)).
Lemma ds_add m k f g : ds m k (fun j i => f j i + g j i) = ds m k f + ds m k g.
Proof. unfold ds. rewrite <- sm_add. apply sm_ext. intros j _. apply sm_add. Qed.
Lemma ds_sub m k f g : ds m k (fun j i => f j i - g j i) = ds m k f - ds m k g.
Proof. unfold ds. rewrite <- sm_sub. apply sm_ext. intros j _. apply sm_sub. Qed.
Lemma ds_scale m k c f : ds m k (fun j i => c * f j i) = c * ds m k f.
Proof. unfold ds. rewrite <- sm_scale. apply sm_ext. intros j _. apply sm_scale. Qed.
Lemma ds_eqm q m k f g : (forall j i, (j < m)%nat -> (i < k)%nat -> eqm q (f j i) (g j i)) -> eqm q (ds m k f) (ds m k g).
Proof. intros E. unfold ds. apply sm_eqm. intros j J. apply sm_eqm. intros i I. apply E; assumption. Qed.
Lemma ds_outer m k c f : ds m k (fun j i => c j * f j i) = sm m (fun j => c j * sm k (f j)).
Proof. unfold ds. apply sm_ext. intros j _. apply sm_scale. Qed.

Section Blocks.
Context {A : Type} (d : A) (k : nat).
Lemma concat_length m : forall (f : nat -> list A) a, (forall j, (j < m)%nat -> length (f (a + j)%nat) = k) ->
  length (concat (map f (seq a m))) = (k * m)%nat.
Proof.
  induction m as [|m IH]; intros f a L; [cbn; lia|]. cbn [seq map concat]. rewrite app_length, IH.
  - pose proof (L 0%nat) as L0. rewrite Nat.add_0_r in L0. rewrite L0 by lia. lia.
  - intros j J. rewrite <- (L (S j)) by lia. do 2 f_equal. lia.
Qed.
Lemma concat_nth m : forall (f : nat -> list A) a, (forall j, (j < m)%nat -> length (f (a + j)%nat) = k) ->
  forall j i, (j < m)%nat -> (i < k)%nat -> nth (j * k + i) (concat (map f (seq a m))) d = nth i (f (a + j)%nat) d.
Proof.
  induction m as [|m IH]; intros f a L j i J I; [lia|]. cbn [seq map concat].
  pose proof (L 0%nat) as L0. rewrite Nat.add_0_r in L0. destruct j as [|j].
  - rewrite app_nth1 by (rewrite L0; lia). rewrite Nat.add_0_r. reflexivity.
  - rewrite app_nth2 by (rewrite L0; lia). rewrite L0 by lia. replace (S j * k + i - k)%nat with (j * k + i)%nat by lia.
    rewrite IH; [do 2 f_equal; lia| |lia|lia]. intros j' J'. rewrite <- (L (S j')) by lia. do 2 f_equal. lia.
Qed.
End Blocks.
Lemma dot_ds a b m k : length a = (k * m)%nat -> length b = (k * m)%nat ->
  dot a b = ds m k (fun j i => nth (j * k + i) a 0 * nth (j * k + i) b 0).
Proof. intros E F. rewrite (dot_sm a b (k * m) E F), sm_flat. reflexivity. Qed.

Lemma nth_map_seq {A} (f : nat -> A) d k i : (i < k)%nat -> nth i (map f (seq 0 k)) d = f i.
Proof. intros I. rewrite (nth_indep _ d (f 0%nat)) by (rewrite map_length, seq_length; exact I). rewrite map_nth, seq_nth by exact I. reflexivity. Qed.

Section Range.
Variable e : curve.
Hypothesis W : lawful e.
Notation q := (order e).
Notation pt := (point (grp e)).
Notation bs := (bs e).

(** ** Powers *)
Lemma exp_iter_length b : forall k c, length (exp_iter e b c k) = k.
Proof. induction k as [|k IH]; intros c; [reflexivity|]. cbn [exp_iter length]. rewrite IH. reflexivity. Qed.
Lemma exp_iter_nth b : forall k c i, (i < k)%nat -> eqm q (nth i (exp_iter e b c k) 0) (c * b ^ Z.of_nat i).
Proof.
  induction k as [|k IH]; intros c i I; [lia|]. cbn [exp_iter]. destruct i as [|i]; cbn [nth]; [change (Z.of_nat 0) with 0; rewrite Z.pow_0_r; mring|].
  rewrite IH by lia. rewrite mulm. rewrite Nat2Z.inj_succ, Z.pow_succ_r by lia. mring.
Qed.
Lemma powers_nth b k i : (i < k)%nat -> eqm q (nth i (exp_iter_vector e b k) 0) (b ^ Z.of_nat i).
Proof. intros I. unfold exp_iter_vector. rewrite exp_iter_nth by exact I. mring. Qed.
Lemma scalar_exp_eqm b k : eqm q (scalar_exp e b k) (b ^ Z.of_nat k).
Proof. apply eqm_mod. Qed.
Lemma pow_eqm a b k : eqm q a b -> eqm q (a ^ Z.of_nat k) (b ^ Z.of_nat k).
Proof.
  intros E. induction k as [|k IH]; [reflexivity|]. rewrite Nat2Z.inj_succ, !Z.pow_succ_r by lia. rewrite IH, E. reflexivity.
Qed.
Lemma pow_inv a b k : eqm q (a * b) 1 -> eqm q (a ^ Z.of_nat k * b ^ Z.of_nat k) 1.
Proof. intros E. rewrite <- Z.pow_mul_l. rewrite (pow_eqm _ _ k E). rewrite Z.pow_1_l by lia. reflexivity. Qed.
Lemma geom b k : sm k (fun i => b ^ Z.of_nat i) * (b - 1) = b ^ Z.of_nat k - 1.
Proof. induction k as [|k IH]; [reflexivity|]. cbn [sm]. rewrite Z.mul_add_distr_r, IH, Nat2Z.inj_succ, Z.pow_succ_r by lia. ring. Qed.
Lemma sum_of_powers_spec b k : exists s, sum_of_powers e b k = Val s /\ eqm q s (sm k (fun i => b ^ Z.of_nat i)).
Proof.
  unfold sum_of_powers. destruct (Nat.eqb_spec k 0) as [->|NK]; [exists 0; split; reflexivity|].
  pose proof (prime_pos _ (w_prime e W)) as Q. destruct (Z.eqb_spec (b mod q) 1) as [E|NE].
  - eexists. split; [reflexivity|]. rewrite eqm_mod. assert (B : eqm q b 1) by (constructor; rewrite E, Z.mod_1_l by lia; reflexivity).
    transitivity (sm k (fun _ => 1)).
    + apply eqm_eq. clear. induction k as [|k IH]; [reflexivity|]. cbn [sm]. rewrite <- IH. lia.
    + apply sm_eqm. intros i _. rewrite (pow_eqm _ _ i B), Z.pow_1_l by lia. reflexivity.
  - assert (N : ~ eqm q (sub_mod b 1 q) 0).
    { rewrite subm. intros K. apply NE. rewrite eqm_sub0 in K. destruct K as [K]. rewrite K, Z.mod_1_l by lia. reflexivity. }
    destruct (invert_mod_prime _ _ (w_prime e W) N) as [i Ei]. rewrite Ei. eexists. split; [reflexivity|].
    destruct (invert_mod_some _ _ _ Ei) as [_ I]. rewrite subm in I. rewrite mulm, subm, scalar_exp_eqm, <- geom.
    transitivity (sm k (fun i0 => b ^ Z.of_nat i0) * ((b - 1) * i)); [mring|]. rewrite I. mring.
Qed.

(** ** Bits *)
Lemma vbit_01 v i : vbit v i = 0 \/ vbit v i = 1.
Proof.
  unfold vbit. change 1 with (Z.ones 1). rewrite Z.land_ones by lia. change (2 ^ 1) with 2.
  change (Z.ones 1) with 1. pose proof (Z.mod_pos_bound (Z.shiftr v (Z.of_nat i)) 2). lia.
Qed.
Lemma vbit_sum v k : 0 <= v -> sm k (fun i => vbit v i * 2 ^ Z.of_nat i) = v mod 2 ^ Z.of_nat k.
Proof.
  intros V. induction k as [|k IH]; [cbn; rewrite Z.mod_1_r; reflexivity|]. cbn [sm]. rewrite IH.
  unfold vbit. change 1 with (Z.ones 1). rewrite Z.land_ones by lia. change (2 ^ 1) with 2.
  rewrite Z.shiftr_div_pow2 by lia. rewrite Nat2Z.inj_succ, Z.pow_succ_r by lia.
  assert (P : 0 < 2 ^ Z.of_nat k) by (apply Z.pow_pos_nonneg; lia).
  rewrite (Z.mul_comm 2). rewrite Zmod_eq_full with (b := 2 ^ Z.of_nat k * 2) by lia.
  rewrite <- Z.div_div by lia.
  rewrite (Zmod_eq_full v (2 ^ Z.of_nat k)) by lia. rewrite (Zmod_eq_full (v / 2 ^ Z.of_nat k) 2) by lia. ring.
Qed.

(** ** The parties' points *)
Section Honest.
Variables (beta : Z) (n m : nat) (v rb : nat -> Z) (tp : nat -> tape) (gk hk : nat -> list Z).
Hypothesis Lg : forall j, (j < m)%nat -> length (gk j) = n.
Hypothesis Lh : forall j, (j < m)%nat -> length (hk j) = n.
Hypothesis Vpos : forall j, (j < m)%nat -> 0 <= v j.

Lemma party_A_spec j : (j < m)%nat ->
  party_A e (bs 1) (bs beta) n (v j) (tp j) (map bs (gk j)) (map bs (hk j)) =
  bs (beta * d_a (tp j) + sm n (fun i => vbit (v j) i * nth i (gk j) 0 + (vbit (v j) i - 1) * nth i (hk j) 0)).
Proof.
  intros J. unfold party_A. rewrite (bs_mul e W).
  assert (K : forall k acc, (k <= n)%nat ->
    fold_left (fun A i => if vbit (v j) i =? 0 then c_sub e A (nth i (map bs (hk j)) (bs 1)) else g_add (grp e) A (nth i (map bs (gk j)) (bs 1)))
      (seq 0 k) (bs acc) = bs (acc + sm k (fun i => vbit (v j) i * nth i (gk j) 0 + (vbit (v j) i - 1) * nth i (hk j) 0))).
  { induction k as [|k IH]; intros acc Hk; [cbn [seq fold_left sm]; f_equal; lia|].
    rewrite seq_S, fold_left_app, IH by lia. cbn [fold_left sm Nat.add].
    rewrite (nth_indep (map bs (hk j)) (bs 1) (bs 0)) by (rewrite map_length, Lh by exact J; lia).
    rewrite (nth_indep (map bs (gk j)) (bs 1) (bs 0)) by (rewrite map_length, Lg by exact J; lia).
    rewrite !map_nth. destruct (vbit_01 (v j) k) as [E|E]; rewrite E; cbn [Z.eqb].
    - rewrite (w_sub e W). f_equal. lia.
    - rewrite (bs_add e W). f_equal. lia. }
  apply K. lia.
Qed.
Lemma party_S_spec j : (j < m)%nat ->
  party_S e (bs beta) n (tp j) (map bs (gk j)) (map bs (hk j)) =
  Val (bs (beta * d_s (tp j) + sm n (fun i => d_sL (tp j) i * nth i (gk j) 0 + d_sR (tp j) i * nth i (hk j) 0))).
Proof.
  intros J. unfold party_S. change [bs beta] with (map bs [beta]). rewrite <- !(map_app bs).
  rewrite (msm_spec e W) by (rewrite !app_length, !map_length, !seq_length, Lg, Lh by exact J; reflexivity).
  do 2 f_equal. rewrite !dot_app by (rewrite ?map_length, ?seq_length, ?Lg, ?Lh by exact J; reflexivity).
  cbn [dot]. rewrite sm_add.
  rewrite (dot_sm _ (gk j) n) by (rewrite ?map_length, ?seq_length, ?Lg by exact J; reflexivity).
  rewrite (dot_sm _ (hk j) n) by (rewrite ?map_length, ?seq_length, ?Lh by exact J; reflexivity).
  rewrite (sm_ext n (fun i => nth i (map (d_sL (tp j)) (seq 0 n)) 0 * nth i (gk j) 0) (fun i => d_sL (tp j) i * nth i (gk j) 0))
    by (intros i I; rewrite nth_map_seq by exact I; reflexivity).
  rewrite (sm_ext n (fun i => nth i (map (d_sR (tp j)) (seq 0 n)) 0 * nth i (hk j) 0) (fun i => d_sR (tp j) i * nth i (hk j) 0))
    by (intros i I; rewrite nth_map_seq by exact I; reflexivity).
  ring.
Qed.
Lemma commit_spec a r : commit e (bs 1) (bs beta) a r = Val (bs (a + r * beta)).
Proof. unfold commit. change [bs 1; bs beta] with (map bs [1; beta]). rewrite (msm_spec e W) by reflexivity. cbn [dot]. do 2 f_equal. lia. Qed.
Lemma sequence_seq {B} (f : nat -> outcome B) (g : nat -> B) l : (forall j, In j l -> f j = Val (g j)) ->
  sequence (map f l) = Val (map g l).
Proof.
  induction l as [|x l IH]; intros F; [reflexivity|]. cbn [map sequence]. rewrite F by (constructor; reflexivity). cbn [bind].
  rewrite IH by (intros j J; apply F; constructor 2; exact J). reflexivity.
Qed.
Lemma sum_points_spec f k : sum_points e (map (fun j => bs (f j)) (seq 0 k)) = bs (sm k f).
Proof.
  unfold sum_points. change (g_mul (grp e) (g_base (grp e)) 0) with (bs 0).
  induction k as [|k IH]; [reflexivity|]. rewrite seq_S, map_app, fold_left_app, IH. cbn [map fold_left Nat.add sm]. apply (bs_add e W).
Qed.
Lemma sum_mod_spec f k : eqm q (sum_mod e (map f (seq 0 k))) (sm k f).
Proof.
  unfold sum_mod. induction k as [|k IH]; [reflexivity|]. rewrite seq_S, map_app, fold_left_app. cbn [map fold_left Nat.add sm].
  rewrite addm, IH. reflexivity.
Qed.

(** ** The polynomials *)
Variables (y z x w y_inv : Z).
Hypothesis Yinv : eqm q (y * y_inv) 1.
Definition pw (b : Z) (i : nat) : Z := b ^ Z.of_nat i.
Definition aL (j i : nat) : Z := vbit (v j) i.
Definition l0s (j i : nat) : Z := aL j i - z.
Definition r0s (j i : nat) : Z := pw y (j * n + i) * (aL j i - 1 + z) + z * z * pw z j * pw 2 i.
Definition r1s (j i : nat) : Z := pw y (j * n + i) * d_sR (tp j) i.
Lemma pw_add b i j : pw b (i + j) = pw b i * pw b j.
Proof. unfold pw. rewrite Nat2Z.inj_add, Z.pow_add_r by lia. reflexivity. Qed.
Lemma l0_nth j i : (i < n)%nat -> eqm q (nth i (l0 e n (v j) z) 0) (l0s j i).
Proof. intros I. unfold l0. rewrite nth_map_seq by exact I. apply subm. Qed.
Lemma l1_nth j i : (i < n)%nat -> nth i (l1 n (tp j)) 0 = d_sL (tp j) i.
Proof. intros I. unfold l1. apply nth_map_seq. exact I. Qed.
Lemma offset_spec j : eqm q (offset_zz e z j) (z * z * pw z j).
Proof. unfold offset_zz. rewrite !mulm, scalar_exp_eqm. reflexivity. Qed.
Lemma r0_nth j i : (i < n)%nat -> eqm q (nth i (r0 e n (v j) y z j) 0) (r0s j i).
Proof.
  intros I. unfold r0. rewrite nth_map_seq by exact I. rewrite addm, !mulm, offset_spec, addm, subm, scalar_exp_eqm, !powers_nth by exact I.
  unfold r0s, aL. rewrite pw_add. unfold pw. mring.
Qed.
Lemma r1_nth j i : (i < n)%nat -> eqm q (nth i (r1 e n y j (tp j)) 0) (r1s j i).
Proof.
  intros I. unfold r1. rewrite nth_map_seq by exact I. rewrite !mulm, scalar_exp_eqm, powers_nth by exact I.
  unfold r1s. rewrite pw_add. unfold pw. mring.
Qed.
Lemma inner_sm a b f g : length a = n -> length b = n ->
  (forall i, (i < n)%nat -> eqm q (nth i a 0) (f i)) -> (forall i, (i < n)%nat -> eqm q (nth i b 0) (g i)) ->
  eqm q (inner_product e a b) (sm n (fun i => f i * g i)).
Proof.
  intros La Lb F G. rewrite inner_spec by congruence. rewrite (dot_sm a b n La Lb). apply sm_eqm. intros i I. rewrite F, G by exact I. reflexivity.
Qed.
Lemma add_vec_nth a b f g i : length a = n -> length b = n -> (i < n)%nat ->
  eqm q (nth i a 0) (f i) -> eqm q (nth i b 0) (g i) -> eqm q (nth i (add_vec e a b) 0) (f i + g i).
Proof.
  intros La Lb I F G. unfold add_vec. rewrite (nth_indep _ 0 (add_mod (fst (0, 0)) (snd (0, 0)) q)) by (rewrite map_length, combine_length; lia).
  rewrite map_nth with (f := fun p => add_mod (fst p) (snd p) q), combine_nth by congruence. cbn [fst snd]. rewrite addm, F, G. reflexivity.
Qed.
Lemma add_vec_length a b : length a = n -> length b = n -> length (add_vec e a b) = n.
Proof. intros A B. unfold add_vec. rewrite map_length, combine_length. lia. Qed.
Definition t0s (j : nat) : Z := sm n (fun i => l0s j i * r0s j i).
Definition t1s (j : nat) : Z := sm n (fun i => l0s j i * r1s j i + d_sL (tp j) i * r0s j i).
Definition t2s (j : nat) : Z := sm n (fun i => d_sL (tp j) i * r1s j i).
Variables (Gp Hp : nat -> list pt).
Definition par (j : nat) : party e := {| y_v := v j; y_rb := rb j; y_t := tp j; y_G := Gp j; y_H := Hp j |}.
Lemma seq_len {A} (f : nat -> A) : length (map f (seq 0 n)) = n.
Proof. rewrite map_length, seq_length. reflexivity. Qed.
Lemma poly_spec j : exists a b c, party_poly e n y z j (par j) = (a, b, c) /\
  eqm q a (t0s j) /\ eqm q b (t1s j) /\ eqm q c (t2s j).
Proof.
  unfold party_poly, poly_product, par. cbn [y_v y_t]. do 3 eexists. split; [reflexivity|].
  assert (A : eqm q (inner_product e (l0 e n (v j) z) (r0 e n (v j) y z j)) (t0s j)).
  { apply inner_sm; try apply seq_len; intros i I; [apply l0_nth|apply r0_nth]; exact I. }
  assert (C : eqm q (inner_product e (l1 n (tp j)) (r1 e n y j (tp j))) (t2s j)).
  { apply inner_sm; try apply seq_len; intros i I; [rewrite l1_nth by exact I; reflexivity|apply r1_nth; exact I]. }
  split; [exact A|]. split; [|exact C].
  rewrite !subm, A, C.
  rewrite (inner_sm _ _ (fun i => l0s j i + d_sL (tp j) i) (fun i => r0s j i + r1s j i)).
  - unfold t0s, t1s, t2s. rewrite <- !sm_sub. apply sm_eqm. intros i _. mring.
  - apply add_vec_length; apply seq_len.
  - apply add_vec_length; apply seq_len.
  - intros i I. apply add_vec_nth; try apply seq_len; [exact I|apply l0_nth; exact I|rewrite l1_nth by exact I; reflexivity].
  - intros i I. apply add_vec_nth; try apply seq_len; [exact I|apply r0_nth; exact I|apply r1_nth; exact I].
Qed.
Lemma vec_eval_nth a b f g i : length a = n -> length b = n -> (i < n)%nat ->
  eqm q (nth i a 0) (f i) -> eqm q (nth i b 0) (g i) -> eqm q (nth i (vec_eval e a b x) 0) (f i + g i * x).
Proof.
  intros La Lb I F G. unfold vec_eval.
  rewrite (nth_indep _ 0 ((fun p => add_mod (fst p) (mul_mod (snd p) x q) q) (0, 0))) by (rewrite map_length, combine_length; lia).
  rewrite (map_nth (fun p => add_mod (fst p) (mul_mod (snd p) x q) q)), combine_nth by congruence. cbn [fst snd]. rewrite addm, mulm, F, G. reflexivity.
Qed.
Definition ls_ (j i : nat) : Z := l0s j i + d_sL (tp j) i * x.
Definition rs_ (j i : nat) : Z := r0s j i + r1s j i * x.
Lemma share_l_nth j i : (i < n)%nat -> eqm q (nth i (share_l e n z x (par j)) 0) (ls_ j i).
Proof. intros I. apply vec_eval_nth; try apply seq_len; [exact I|apply l0_nth; exact I|cbn [par y_t]; rewrite l1_nth by exact I; reflexivity]. Qed.
Lemma share_r_nth j i : (i < n)%nat -> eqm q (nth i (share_r e n y z x j (par j)) 0) (rs_ j i).
Proof. intros I. apply vec_eval_nth; try apply seq_len; [exact I|apply r0_nth; exact I|apply r1_nth; exact I]. Qed.
Lemma share_l_length j : length (share_l e n z x (par j)) = n.
Proof. unfold share_l, vec_eval. rewrite map_length, combine_length. unfold l0, l1. rewrite !seq_len. lia. Qed.
Lemma share_r_length j : length (share_r e n y z x j (par j)) = n.
Proof. unfold share_r, vec_eval. rewrite map_length, combine_length. unfold r0, r1. rewrite !seq_len. lia. Qed.

Lemma t0_value j : (j < m)%nat ->
  eqm q (t0s j) ((z - z * z) * sm n (fun i => pw y (j * n + i)) + z * z * pw z j * (v j mod 2 ^ Z.of_nat n)
                 - z * z * z * pw z j * sm n (fun i => pw 2 i)).
Proof.
  intros J. unfold t0s. rewrite <- (vbit_sum (v j) n) by (apply Vpos; exact J).
  rewrite <- !sm_scale. rewrite <- sm_add, <- sm_sub. apply sm_eqm. intros i _. unfold l0s, r0s, aL, pw.
  destruct (vbit_01 (v j) i) as [E|E]; rewrite E; mring.
Qed.
Lemma delta_spec : exists d, delta e n m y z = Val d /\
  eqm q d ((z - z * z) * ds m n (fun j i => pw y (j * n + i)) - z * z * z * sm n (fun i => pw 2 i) * sm m (pw z)).
Proof.
  unfold delta. destruct (sum_of_powers_spec y (n * m)) as [a [-> A]]. cbn [bind].
  destruct (sum_of_powers_spec 2 n) as [b [-> B]]. cbn [bind]. destruct (sum_of_powers_spec z m) as [c [-> C]]. cbn [bind].
  eexists. split; [reflexivity|]. rewrite subm, (mulm e _ a), (mulm e _ c), (mulm e _ b), (mulm e z (mul_mod z z q)), subm, (mulm e z z), A, B, C, sm_flat. unfold ds, pw. mring.
Qed.
Lemma t0_total d : delta e n m y z = Val d ->
  eqm q (sm m t0s) (d + z * z * sm m (fun j => pw z j * (v j mod 2 ^ Z.of_nat n))).
Proof.
  intros E. destruct delta_spec as [d' [E' D]]. rewrite E in E'. injection E' as <-.
  rewrite (sm_eqm q m t0s _ (fun j J => t0_value j J)). rewrite D.
  rewrite sm_sub, sm_add, sm_scale.
  rewrite (sm_ext m (fun j => z * z * pw z j * (v j mod 2 ^ Z.of_nat n)) (fun j => z * z * (pw z j * (v j mod 2 ^ Z.of_nat n)))) by (intros; ring).
  rewrite (sm_ext m (fun j => z * z * z * pw z j * sm n (fun i => pw 2 i)) (fun j => z * z * z * sm n (fun i => pw 2 i) * pw z j)) by (intros; ring).
  rewrite !sm_scale. unfold ds. mring.
Qed.

(** ** The flat vectors *)
Lemma had_nth a b i : length a = length b -> nth i (had a b) 0 = nth i a 0 * nth i b 0.
Proof.
  intros E. unfold had. destruct (Nat.lt_ge_cases i (length a)) as [I|I].
  - rewrite (nth_indep _ 0 ((fun p => fst p * snd p) (0, 0))) by (rewrite map_length, combine_length; lia).
    rewrite (map_nth (fun p => fst p * snd p)), combine_nth by exact E. reflexivity.
  - rewrite !nth_overflow; [reflexivity|lia|lia|rewrite map_length, combine_length; lia].
Qed.
Lemma had_ones k a : length a = k -> had (repeat 1 k) a = a.
Proof. intros <-. unfold had. induction a as [|x0 a IH]; [reflexivity|]. cbn [repeat length combine map fst snd]. rewrite IH. f_equal. lia. Qed.
Definition lflat : list Z := concat (map (fun j => share_l e n z x (par j)) (seq 0 m)).
Definition rflat : list Z := concat (map (fun j => share_r e n y z x j (par j)) (seq 0 m)).
Definition gflat : list Z := concat (map gk (seq 0 m)).
Definition hflat : list Z := concat (map hk (seq 0 m)).
Definition yis : list Z := exp_iter_vector e y_inv (n * m).
Lemma lflat_len : length lflat = (n * m)%nat. Proof. apply concat_length. intros j _. apply share_l_length. Qed.
Lemma rflat_len : length rflat = (n * m)%nat. Proof. apply concat_length. intros j _. apply share_r_length. Qed.
Lemma gflat_len : length gflat = (n * m)%nat. Proof. apply concat_length. intros j J. apply Lg. exact J. Qed.
Lemma hflat_len : length hflat = (n * m)%nat. Proof. apply concat_length. intros j J. apply Lh. exact J. Qed.
Lemma yis_len : length yis = (n * m)%nat. Proof. apply exp_iter_length. Qed.
Lemma lflat_nth j i : (j < m)%nat -> (i < n)%nat -> eqm q (nth (j * n + i) lflat 0) (ls_ j i).
Proof. intros J I. unfold lflat. rewrite (concat_nth 0 n m) by (exact J || exact I || (intros; apply share_l_length)). apply share_l_nth. exact I. Qed.
Lemma rflat_nth j i : (j < m)%nat -> (i < n)%nat -> eqm q (nth (j * n + i) rflat 0) (rs_ j i).
Proof. intros J I. unfold rflat. rewrite (concat_nth 0 n m) by (exact J || exact I || (intros; apply share_r_length)). apply share_r_nth. exact I. Qed.
Lemma gflat_nth j i : (j < m)%nat -> (i < n)%nat -> nth (j * n + i) gflat 0 = nth i (gk j) 0.
Proof. intros J I. unfold gflat. rewrite (concat_nth 0 n m) by (exact J || exact I || (intros; apply Lg; assumption)). reflexivity. Qed.
Lemma hflat_nth j i : (j < m)%nat -> (i < n)%nat -> nth (j * n + i) hflat 0 = nth i (hk j) 0.
Proof. intros J I. unfold hflat. rewrite (concat_nth 0 n m) by (exact J || exact I || (intros; apply Lh; assumption)). reflexivity. Qed.
Lemma flat_lt j i : (j < m)%nat -> (i < n)%nat -> (j * n + i < n * m)%nat.
Proof. intros J I. nia. Qed.
Lemma yis_nth j i : (j < m)%nat -> (i < n)%nat -> eqm q (nth (j * n + i) yis 0) (pw y_inv (j * n + i)).
Proof. intros J I. apply powers_nth. apply flat_lt; assumption. Qed.
Lemma y_cancel k : eqm q (pw y_inv k * pw y k) 1.
Proof. unfold pw. rewrite Z.mul_comm. apply pow_inv. exact Yinv. Qed.

Definition G_ (f : nat -> nat -> Z) : Z := ds m n (fun j i => f j i * nth i (gk j) 0).
Definition H_ (f : nat -> nat -> Z) : Z := ds m n (fun j i => f j i * nth i (hk j) 0).
Definition z2y (j i : nat) : Z := pw y_inv (j * n + i) * (pw z j * pw 2 i).
Lemma dot_l_g : eqm q (dot lflat gflat) (G_ aL + x * G_ (fun j => d_sL (tp j)) - z * G_ (fun _ _ => 1)).
Proof.
  rewrite (dot_ds _ _ m n lflat_len gflat_len). unfold G_. rewrite <- !ds_scale, <- ds_add, <- ds_sub. apply ds_eqm. intros j i J I.
  rewrite lflat_nth, gflat_nth by assumption. unfold ls_, l0s. mring.
Qed.
Lemma dot_r_h : eqm q (dot rflat (had yis hflat))
  (H_ (fun j i => aL j i - 1) + x * H_ (fun j => d_sR (tp j)) + z * H_ (fun _ _ => 1) + z * z * H_ z2y).
Proof.
  rewrite (dot_ds _ _ m n rflat_len) by (rewrite had_length, yis_len, hflat_len; lia).
  unfold H_. rewrite <- !ds_scale, <- !ds_add. apply ds_eqm. intros j i J I.
  rewrite had_nth by (rewrite yis_len, hflat_len; reflexivity).
  rewrite rflat_nth, hflat_nth, yis_nth by assumption. unfold rs_, r0s, r1s, z2y.
  transitivity ((pw y_inv (j * n + i) * pw y (j * n + i)) * (aL j i - 1 + z + d_sR (tp j) i * x) * nth i (hk j) 0
                + z * z * pw z j * pw 2 i * pw y_inv (j * n + i) * nth i (hk j) 0); [mring|].
  rewrite y_cancel. mring.
Qed.
Lemma dot_l_r : eqm q (dot lflat rflat) (sm m t0s + x * sm m t1s + x * x * sm m t2s).
Proof.
  rewrite (dot_ds _ _ m n lflat_len rflat_len). unfold t0s, t1s, t2s.
  change (sm m (fun j => sm n (fun i => l0s j i * r0s j i))) with (ds m n (fun j i => l0s j i * r0s j i)).
  change (sm m (fun j => sm n (fun i => l0s j i * r1s j i + d_sL (tp j) i * r0s j i))) with (ds m n (fun j i => l0s j i * r1s j i + d_sL (tp j) i * r0s j i)).
  change (sm m (fun j => sm n (fun i => d_sL (tp j) i * r1s j i))) with (ds m n (fun j i => d_sL (tp j) i * r1s j i)).
  rewrite <- !ds_scale, <- !ds_add. apply ds_eqm. intros j i J I.
  rewrite lflat_nth, rflat_nth by assumption. unfold ls_, rs_. mring.
Qed.
(** The verifier's scalars for the generators. *)
Lemma g_scalars_dot a s s1 : Forall2 (eqm q) s s1 -> length s = (n * m)%nat ->
  eqm q (dot (map (fun si => sub_mod (sub_mod 0 z q) (mul_mod a si q) q) s) gflat) (- z * G_ (fun _ _ => 1) - a * dot s1 gflat).
Proof.
  intros F E. pose proof (eqms_length F) as E1.
  transitivity (dot (map (fun si => - z - a * si) s1) gflat).
  { apply dot_eqm; [|apply eqms_refl]. apply eqms_map; [|exact F]. intros b c B. rewrite subm, (mulm e a b), subm, B. mring. }
  rewrite (dot_ds _ _ m n) by (rewrite ?map_length, ?gflat_len; congruence).
  rewrite (dot_ds s1 gflat m n) by (rewrite ?gflat_len; congruence).
  unfold G_. rewrite <- !ds_scale, <- ds_sub. apply ds_eqm. intros j i J I.
  rewrite (nth_indep _ 0 ((fun si => - z - a * si) 0)) by (rewrite map_length, <- E1, E; apply flat_lt; assumption).
  rewrite (map_nth (fun si => - z - a * si)), gflat_nth by assumption. mring.
Qed.
Definition cz2 : list Z := concat (map (fun ez => map (fun e2 => mul_mod ez e2 q) (exp_iter_vector e 2 n)) (exp_iter_vector e z m)).
Lemma cz2_nth j i : (j < m)%nat -> (i < n)%nat -> eqm q (nth (j * n + i) cz2 0) (pw z j * pw 2 i).
Proof.
  intros J I. unfold cz2.
  assert (K : exp_iter_vector e z m = map (fun k => nth k (exp_iter_vector e z m) 0) (seq 0 m)).
  { apply (nth_ext _ _ 0 0); [rewrite map_length, seq_length; apply exp_iter_length|]. intros k Hk.
    unfold exp_iter_vector in Hk. rewrite exp_iter_length in Hk. rewrite nth_map_seq by exact Hk. reflexivity. }
  rewrite K, map_map. rewrite (concat_nth 0 n m).
  - rewrite Nat.add_0_l.
    rewrite (nth_indep _ 0 ((fun e2 => mul_mod (nth j (exp_iter_vector e z m) 0) e2 q) 0)) by (rewrite map_length; unfold exp_iter_vector; rewrite exp_iter_length; exact I).
    rewrite (map_nth (fun e2 => mul_mod (nth j (exp_iter_vector e z m) 0) e2 q)). rewrite mulm, !powers_nth by assumption. reflexivity.
  - intros. rewrite map_length. apply exp_iter_length.
  - exact J.
  - exact I.
Qed.
Lemma h_scalars_dot b s s2 : Forall2 (eqm q) s s2 -> length s = (n * m)%nat ->
  eqm q (dot (map (fun i =>
          let term := sub_mod (mul_mod (mul_mod z z q) (nth i cz2 0) q) (mul_mod b (nth i s 0) q) q in
          add_mod z (mul_mod (nth i yis 0) term q) q) (seq 0 (n * m))) hflat)
    (z * H_ (fun _ _ => 1) + z * z * H_ z2y - b * dot s2 (had yis hflat)).
Proof.
  intros F E. pose proof (eqms_length F) as E1.
  rewrite (dot_ds _ _ m n) by (rewrite ?map_length, ?seq_length, ?hflat_len; reflexivity).
  rewrite (dot_ds s2 _ m n) by (rewrite ?had_length, ?yis_len, ?hflat_len; lia).
  unfold H_. rewrite <- !ds_scale, <- !ds_add, <- ds_sub. apply ds_eqm. intros j i J I.
  rewrite nth_map_seq by (apply flat_lt; assumption). cbv zeta.
  rewrite addm, mulm, subm, (mulm e b), (mulm e (mul_mod z z q)), (mulm e z z).
  rewrite had_nth by (rewrite yis_len, hflat_len; reflexivity).
  rewrite cz2_nth, yis_nth, hflat_nth by assumption. unfold z2y.
  assert (N : eqm q (nth (j * n + i) s 0) (nth (j * n + i) s2 0)).
  { clear -F. revert s2 F. generalize (j * n + i)%nat as k. induction s as [|a s IH]; intros k s2 F; inversion F; subst; [destruct k; reflexivity|].
    destruct k as [|k]; cbn [nth]; [assumption|apply IH; assumption]. }
  rewrite N. mring.
Qed.
Lemma vc_dot vk : length vk = m ->
  eqm q (dot (map (fun pz => mul_mod (mul_mod w (mul_mod z z q) q) pz q) (exp_iter_vector e z m)) vk)
        (w * (z * z) * sm m (fun j => pw z j * nth j vk 0)).
Proof.
  intros E. rewrite (dot_sm _ _ m) by (first [exact E|rewrite map_length; apply exp_iter_length]).
  rewrite <- sm_scale. apply sm_eqm. intros j J.
  rewrite (nth_indep _ 0 ((fun pz => mul_mod (mul_mod w (mul_mod z z q) q) pz q) 0)) by (rewrite map_length; unfold exp_iter_vector; rewrite exp_iter_length; exact J).
  rewrite (map_nth (fun pz => mul_mod (mul_mod w (mul_mod z z q) q) pz q)).
  rewrite mulm, (mulm e w), (mulm e z z), powers_nth by exact J. unfold pw. mring.
Qed.
Lemma sq_dot us lk : eqm q (dot (map (fun u => mul_mod u u q) us) lk) (dot (sq us) lk).
Proof. apply dot_eqm; [|apply eqms_refl]. unfold sq. apply eqms_map; [|apply eqms_refl]. intros a c A. rewrite mulm, A. reflexivity. Qed.

(** ** The check *)
Lemma check_value dl a b us vs lk rk s t1 t2 tx txb eb vk :
  delta e n m y z = Val dl ->
  length us = length lk -> length vs = length rk -> length us = length vs -> length s = (n * m)%nat ->
  Forall2 (eqm q) s (svec us vs) ->
  eqm q (dot lflat (had (repeat 1 (n * m)) gflat) + dot rflat (had yis hflat) + w * dot lflat rflat + dot (sq us) lk + dot (sq vs) rk)
        (a * dot (svec us vs) (had (repeat 1 (n * m)) gflat) + b * dot (svec vs us) (had yis hflat) + w * (a * b)) ->
  eqm q t1 (sm m (fun j => t1s j + d_t1 (tp j) * beta)) -> eqm q t2 (sm m (fun j => t2s j + d_t2 (tp j) * beta)) ->
  eqm q txb (sm m (fun j => z * z * pw z j * rb j + d_t1 (tp j) * x + d_t2 (tp j) * (x * x))) ->
  eqm q eb (sm m (fun j => d_a (tp j) + d_s (tp j) * x)) ->
  length vk = m -> (forall j, (j < m)%nat -> nth j vk 0 = v j + rb j * beta) ->
  let Ak := sm m (fun j => beta * d_a (tp j) + sm n (fun i => vbit (v j) i * nth i (gk j) 0 + (vbit (v j) i - 1) * nth i (hk j) 0)) in
  let Sk := sm m (fun j => beta * d_s (tp j) + sm n (fun i => d_sL (tp j) i * nth i (gk j) 0 + d_sR (tp j) i * nth i (hk j) 0)) in
  eqm q (dot ([1; x; mul_mod w x q; mul_mod w (mul_mod x x q) q] ++ map (fun u => mul_mod u u q) us ++ map (fun u => mul_mod u u q) vs ++
              [sub_mod 0 (add_mod eb (mul_mod w txb q) q) q;
               add_mod (mul_mod w (sub_mod tx (mul_mod a b q) q) q) (mul_mod w (sub_mod dl tx q) q) q] ++
              map (fun si => sub_mod (sub_mod 0 z q) (mul_mod a si q) q) s ++
              map (fun i =>
                let term := sub_mod (mul_mod (mul_mod z z q) (nth i cz2 0) q) (mul_mod b (nth i (rev s) 0) q) q in
                add_mod z (mul_mod (nth i yis 0) term q) q) (seq 0 (n * m)) ++
              map (fun pz => mul_mod (mul_mod w (mul_mod z z q) q) pz q) (exp_iter_vector e z m))
             ([Ak; Sk; t1; t2] ++ lk ++ rk ++ [beta; 1] ++ gflat ++ hflat ++ vk))
        (w * (z * z) * sm m (fun j => pw z j * (v j - v j mod 2 ^ Z.of_nat n))).
Proof.
  intros ED L1 L2 L3 LS FS EQ T1 T2 TB EB LV VK Ak Sk.
  assert (FR : Forall2 (eqm q) (rev s) (svec vs us)).
  { rewrite <- svec_rev by exact L3. clear -FS. induction FS as [|x0 y0 s t A _ IH]; [constructor|]. cbn [rev]. apply eqms_app; [exact IH|]. constructor; [exact A|constructor]. }
  rewrite !dot_app by (rewrite ?map_length, ?seq_length, ?gflat_len, ?hflat_len; first [reflexivity|congruence]).
  rewrite g_scalars_dot with (s1 := svec us vs) by assumption.
  rewrite h_scalars_dot with (s2 := svec vs us) by (first [exact FR|rewrite rev_length; exact LS]).
  rewrite vc_dot by exact LV. rewrite !sq_dot. cbn [dot].
  rewrite had_ones in EQ by (apply gflat_len).
  rewrite dot_l_g, dot_r_h, dot_l_r in EQ. rewrite (t0_total dl ED) in EQ.
  assert (EQ' : eqm q (dot (sq us) lk + dot (sq vs) rk - a * dot (svec us vs) gflat - b * dot (svec vs us) (had yis hflat) - w * (a * b))
    (- (G_ aL + x * G_ (fun j => d_sL (tp j)) - z * G_ (fun _ _ => 1)
     + (H_ (fun j i => aL j i - 1) + x * H_ (fun j => d_sR (tp j)) + z * H_ (fun _ _ => 1) + z * z * H_ z2y)
     + w * (dl + z * z * sm m (fun j => pw z j * (v j mod 2 ^ Z.of_nat n)) + x * sm m t1s + x * x * sm m t2s)))).
  { apply eqm_sub0. apply eqm_sub0 in EQ. rewrite <- EQ. mring. }
  clear EQ.
  assert (EA : Ak = beta * sm m (fun j => d_a (tp j)) + G_ aL + H_ (fun j i => aL j i - 1)).
  { unfold Ak, G_, H_, aL. rewrite <- sm_scale. rewrite sm_add.
    change (sm m (fun j => sm n (fun i => vbit (v j) i * nth i (gk j) 0 + (vbit (v j) i - 1) * nth i (hk j) 0)))
      with (ds m n (fun j i => vbit (v j) i * nth i (gk j) 0 + (vbit (v j) i - 1) * nth i (hk j) 0)).
    rewrite ds_add. ring. }
  assert (ES : Sk = beta * sm m (fun j => d_s (tp j)) + G_ (fun j => d_sL (tp j)) + H_ (fun j => d_sR (tp j))).
  { unfold Sk, G_, H_. rewrite <- sm_scale. rewrite sm_add.
    change (sm m (fun j => sm n (fun i => d_sL (tp j) i * nth i (gk j) 0 + d_sR (tp j) i * nth i (hk j) 0)))
      with (ds m n (fun j i => d_sL (tp j) i * nth i (gk j) 0 + d_sR (tp j) i * nth i (hk j) 0)).
    rewrite ds_add. ring. }
  assert (E1 : sm m (fun j => t1s j + d_t1 (tp j) * beta) = sm m t1s + beta * sm m (fun j => d_t1 (tp j))).
  { rewrite sm_add, <- sm_scale. f_equal. apply sm_ext. intros; ring. }
  assert (E2 : sm m (fun j => t2s j + d_t2 (tp j) * beta) = sm m t2s + beta * sm m (fun j => d_t2 (tp j))).
  { rewrite sm_add, <- sm_scale. f_equal. apply sm_ext. intros; ring. }
  assert (E3 : sm m (fun j => z * z * pw z j * rb j + d_t1 (tp j) * x + d_t2 (tp j) * (x * x)) =
               z * z * sm m (fun j => pw z j * rb j) + x * sm m (fun j => d_t1 (tp j)) + x * x * sm m (fun j => d_t2 (tp j))).
  { rewrite <- !sm_scale, <- !sm_add. apply sm_ext. intros; ring. }
  assert (E4 : sm m (fun j => d_a (tp j) + d_s (tp j) * x) = sm m (fun j => d_a (tp j)) + x * sm m (fun j => d_s (tp j))).
  { rewrite <- !sm_scale, <- !sm_add. apply sm_ext. intros; ring. }
  assert (E5 : sm m (fun j => pw z j * nth j vk 0) = sm m (fun j => pw z j * v j) + beta * sm m (fun j => pw z j * rb j)).
  { rewrite <- !sm_scale, <- !sm_add. apply sm_ext. intros j J. rewrite VK by exact J. ring. }
  assert (E6 : sm m (fun j => pw z j * (v j - v j mod 2 ^ Z.of_nat n)) =
               sm m (fun j => pw z j * v j) - sm m (fun j => pw z j * (v j mod 2 ^ Z.of_nat n))).
  { rewrite <- sm_sub. apply sm_ext. intros; ring. }
  rewrite EA, ES, E5, E6. rewrite T1, T2, E1, E2.
  rewrite subm, addm, (addm e (mul_mod w (sub_mod tx (mul_mod a b q) q) q)), !(mulm e w), !subm, (mulm e a b), (mulm e x x), EB, TB, E3, E4.
  transitivity ((dot (sq us) lk + dot (sq vs) rk - a * dot (svec us vs) gflat - b * dot (svec vs us) (had yis hflat) - w * (a * b))
    + (G_ aL + x * G_ (fun j => d_sL (tp j)) - z * G_ (fun _ _ => 1)
     + (H_ (fun j i => aL j i - 1) + x * H_ (fun j => d_sR (tp j)) + z * H_ (fun _ _ => 1) + z * z * H_ z2y)
     + w * (dl + x * sm m t1s + x * x * sm m t2s))
    + w * (z * z) * sm m (fun j => pw z j * v j)); [mring|].
  rewrite EQ'. mring.
Qed.
End Honest.

(** The verifier's challenges y, z, x, w for a proof and commitments. *)
Definition range_challenges (st : list Z) (p : rproof pt) (Vs : list pt) (n : nat) : Z * Z * Z * Z :=
  let st := range_sep e st n (length Vs) in
  let st := fold_left (fun st V => append_point e st (text "V") V) Vs st in
  let st := append_point e (append_point e st (text "A") (p_A p)) (text "S") (p_S p) in
  let '(st, y) := challenge_scalar e st (text "y") in
  let '(st, z) := challenge_scalar e st (text "z") in
  let st := append_point e (append_point e st (text "T_1") (p_T1 p)) (text "T_2") (p_T2 p) in
  let '(st, x) := challenge_scalar e st (text "x") in
  let st := append_scalar e (append_scalar e (append_scalar e st (text "t_x") (p_tx p)) (text "t_x_blinding") (p_txb p)) (text "e_blinding") (p_eb p) in
  let '(_, w) := challenge_scalar e st (text "w") in (y, z, x, w).

Lemma all_gens_spec cap parties (K : list (list Z)) n m : length K = parties -> Forall (fun l => length l = cap) K ->
  (n <= cap)%nat -> (m <= parties)%nat ->
  all_gens e cap parties (map (map bs) K) n m = Val (map bs (concat (map (fun j => firstn n (nth j K [])) (seq 0 m)))).
Proof.
  intros LK FK Hn Hm. unfold all_gens. rewrite (proj2 (Nat.leb_le n cap) Hn), (proj2 (Nat.leb_le m parties) Hm). cbn [andb]. f_equal.
  rewrite concat_map, !map_map. f_equal. rewrite firstn_map, map_map.
  apply (nth_ext _ _ (@nil pt) (@nil pt)).
  - rewrite !map_length, firstn_length, seq_length. lia.
  - intros k Hk. rewrite map_length, firstn_length in Hk. rewrite nth_map_seq by lia.
    rewrite (nth_indep _ [] ((fun x => firstn n (map bs x)) [])) by (rewrite map_length, firstn_length; lia).
    rewrite (map_nth (fun x => firstn n (map bs x))), firstn_map. do 2 f_equal.
    rewrite <- (firstn_skipn m K) at 2. rewrite app_nth1 by (rewrite firstn_length; lia). reflexivity.
Qed.
Lemma indexed_seq (P : nat -> party e) m : indexed e (map P (seq 0 m)) = map (fun j => (j, P j)) (seq 0 m).
Proof.
  unfold indexed. rewrite map_length, seq_length. generalize 0%nat. induction m as [|m IH]; intros a; [reflexivity|]. cbn [seq map combine]. rewrite IH. reflexivity.
Qed.

Theorem range_equation claim beta gs GK HK values blindings n tapes st st' p Vs :
  g_G gs = map (map bs) GK -> g_H gs = map (map bs) HK -> length GK = g_parties gs -> length HK = g_parties gs ->
  Forall (fun l => length l = g_cap gs) GK -> Forall (fun l => length l = g_cap gs) HK ->
  Forall (fun v => 0 <= v) values -> Z.of_nat (n * length values) < 2 ^ 32 ->
  prove_with e (bs 1) (bs beta) claim st gs values blindings n tapes = Val (st', p, Vs) ->
  Vs = map (fun j => bs (nth j values 0 + nth j blindings 0 * beta)) (seq 0 (length values)) /\
  verify_multiple e (bs 1) (bs beta) p st gs Vs n =
    if existsb (c_inf e) ([p_A p; p_S p; p_T1 p; p_T2 p] ++ i_L (p_ipp p) ++ i_R (p_ipp p)) then Thrown
    else let '(_, z, _, w) := range_challenges st p Vs n in
         Val (c_inf e (bs (w * (z * z) * sm (length values) (fun j => pw z j * (nth j values 0 - nth j values 0 mod 2 ^ Z.of_nat n))))).
Proof.
  intros EG EH LG LH FG FH FV SZ E. set (m := length values) in *.
  unfold prove_with in E. fold m in E.
  destruct (Nat.eqb_spec m (length blindings)) as [LB|]; cbn [negb] in E; [|discriminate].
  destruct (valid_bits n) eqn:VB; cbn [negb] in E; [|discriminate].
  destruct (Nat.eqb m 0 || negb (Nat.eqb m (next_power_of_two m))) eqn:PW; [discriminate|].
  destruct (Nat.ltb_spec (g_cap gs) n) as [|Hn]; cbn [orb] in E; [discriminate|].
  destruct (Nat.ltb_spec (g_parties gs) m) as [|Hm]; [discriminate|].
  set (gk := fun j => firstn n (nth j GK [])). set (hk := fun j => firstn n (nth j HK [])).
  assert (Lgk : forall j, (j < m)%nat -> length (gk j) = n).
  { intros j J. unfold gk. rewrite firstn_length. rewrite Forall_forall in FG. rewrite (FG (nth j GK [])) by (apply nth_In; lia). lia. }
  assert (Lhk : forall j, (j < m)%nat -> length (hk j) = n).
  { intros j J. unfold hk. rewrite firstn_length. rewrite Forall_forall in FH. rewrite (FH (nth j HK [])) by (apply nth_In; lia). lia. }
  set (v := fun j => nth j values 0) in *. set (rb := fun j => nth j blindings 0) in *.
  assert (Vpos : forall j, (j < m)%nat -> 0 <= v j).
  { intros j J. rewrite Forall_forall in FV. apply FV. apply nth_In. exact J. }
  set (Pj := fun j => par v rb tapes (fun j => map bs (gk j)) (fun j => map bs (hk j)) j).
  assert (EP : map (fun j => {| y_v := nth j values 0; y_rb := nth j blindings 0; y_t := tapes j;
      y_G := firstn n (nth j (g_G gs) []); y_H := firstn n (nth j (g_H gs) []) |}) (seq 0 m) = map Pj (seq 0 m)).
  { apply map_ext_in. intros j J. apply in_seq in J. unfold Pj, par. rewrite EG, EH.
    change (@nil pt) with (map bs []). rewrite !map_nth, !firstn_map. reflexivity. }
  rewrite EP in E. clear EP.
  rewrite map_map in E.
  rewrite (sequence_seq _ (fun j => bs (v j + rb j * beta))) in E by (intros j _; apply (commit_spec)).
  cbn [bind] in E. rewrite map_map in E.
  rewrite (sequence_seq _ (fun j => bs (beta * d_s (tapes j) + sm n (fun i => d_sL (tapes j) i * nth i (gk j) 0 + d_sR (tapes j) i * nth i (hk j) 0)))) in E
    by (intros j J; apply in_seq in J; apply (party_S_spec beta n m tapes gk hk Lgk Lhk j); lia).
  cbn [bind] in E. rewrite map_map in E.
  rewrite (map_ext_in (fun j => party_A e (bs 1) (bs beta) n (y_v e (Pj j)) (y_t e (Pj j)) (y_G e (Pj j)) (y_H e (Pj j)))
    (fun j => bs (beta * d_a (tapes j) + sm n (fun i => vbit (v j) i * nth i (gk j) 0 + (vbit (v j) i - 1) * nth i (hk j) 0)))) in E
    by (intros j J; apply in_seq in J; apply (party_A_spec beta n m v tapes gk hk Lgk Lhk j); lia).
  rewrite !(sum_points_spec) in E.
  set (Ak := sm m (fun j => beta * d_a (tapes j) + sm n (fun i => vbit (v j) i * nth i (gk j) 0 + (vbit (v j) i - 1) * nth i (hk j) 0))) in E.
  set (Sk := sm m (fun j => beta * d_s (tapes j) + sm n (fun i => d_sL (tapes j) i * nth i (gk j) 0 + d_sR (tapes j) i * nth i (hk j) 0))) in E.
  set (VV := map (fun j => bs (v j + rb j * beta)) (seq 0 m)) in *.
  set (st1 := fold_left (fun st V => append_point e st (text "V") V) VV (range_sep e st n m)) in E.
  set (st2 := append_point e (append_point e st1 (text "A") (bs Ak)) (text "S") (bs Sk)) in E.
  destruct (challenge_scalar e st2 (text "y")) as [st3 y] eqn:Cy.
  destruct (challenge_scalar e st3 (text "z")) as [st4 z] eqn:Cz.
  rewrite indexed_seq, !map_map in E. cbn [fst snd] in E.
  set (T1f := fun j => let '(_, t1, _) := party_poly e n y z j (Pj j) in t1).
  set (T2f := fun j => let '(_, _, t2) := party_poly e n y z j (Pj j) in t2).
  rewrite (sequence_seq _ (fun j => bs (T1f j + d_t1 (tapes j) * beta))) in E.
  2:{ intros j _. unfold T1f. destruct (party_poly e n y z j (Pj j)) as [[? ?] ?]. apply (commit_spec). }
  cbn [bind] in E.
  rewrite (sequence_seq _ (fun j => bs (T2f j + d_t2 (tapes j) * beta))) in E.
  2:{ intros j _. unfold T2f. destruct (party_poly e n y z j (Pj j)) as [[? ?] ?]. apply (commit_spec). }
  cbn [bind] in E. rewrite !(sum_points_spec) in E.
  set (t1 := sm m (fun j => T1f j + d_t1 (tapes j) * beta)) in E. set (t2 := sm m (fun j => T2f j + d_t2 (tapes j) * beta)) in E.
  set (st5 := append_point e (append_point e st4 (text "T_1") (bs t1)) (text "T_2") (bs t2)) in E.
  destruct (challenge_scalar e st5 (text "x")) as [st6 x] eqn:Cx.
  destruct (Z.eqb_spec x 0) as [_|_]; [discriminate|].
  rewrite !map_map in E. cbn [fst snd] in E.
  set (tx := claim (sum_mod e (map (fun j => share_tx e n y z x j (Pj j)) (seq 0 m)))) in E.
  set (txb := sum_mod e (map (fun j => share_txb e z x j (Pj j)) (seq 0 m))) in E.
  set (eb := sum_mod e (map (fun j => share_eb e x (Pj j)) (seq 0 m))) in E.
  set (st7 := append_scalar e (append_scalar e (append_scalar e st6 (text "t_x") tx) (text "t_x_blinding") txb) (text "e_blinding") eb) in E.
  destruct (challenge_scalar e st7 (text "w")) as [st8 w] eqn:Cw.
  destruct (invert_mod y q) as [y_inv|] eqn:Iy; [|discriminate].
  destruct (invert_mod_some _ _ _ Iy) as [_ Yinv].
  rewrite EG, EH in E.
  rewrite (all_gens_spec _ _ GK n m LG FG Hn Hm), (all_gens_spec _ _ HK n m LH FH Hn Hm) in E. cbn [bind] in E.
  rewrite (bs_mul e W) in E. replace (1 * w) with w in E by lia.
  change (concat (map (fun j => firstn n (nth j GK [])) (seq 0 m))) with (gflat m gk) in E.
  change (concat (map (fun j => firstn n (nth j HK [])) (seq 0 m))) with (hflat m hk) in E.
  change (exp_iter_vector e y_inv (n * m)) with (yis n m y_inv) in E.
  change (concat (map (fun j => share_l e n z x (Pj j)) (seq 0 m))) with (lflat n m v rb tapes z x (fun j => map bs (gk j)) (fun j => map bs (hk j))) in E.
  change (concat (map (fun j => share_r e n y z x j (Pj j)) (seq 0 m))) with (rflat n m v rb tapes y z x (fun j => map bs (gk j)) (fun j => map bs (hk j))) in E.
  match type of E with bind ?c _ = _ => destruct c as [[st9 ip]| | |] eqn:EC; try discriminate end.
  cbn [bind] in E. injection E as <- <- <-. split; [reflexivity|].
  pose proof (gflat_len n m gk Lgk) as GL. pose proof (hflat_len n m hk Lhk) as HL.
  destruct (ipa_core e W st8 w _ _ _ _ _ _ _ _ ltac:(rewrite GL; exact SZ) EC)
    as [lg [lk [rk [vs [K [L [_ [_ [_ [_ [_ [E1 [E2 [L1 [L2 [IV [LU EQ]]]]]]]]]]]]]]]]].
  rewrite GL in K, IV, LU, EQ.
  set (us := run_challenges e (ipp_sep e st8 (n * m)) (combine (i_L ip) (i_R ip))) in *.
  pose proof (pairs_of e us vs IV) as IP. assert (LV : length vs = lg) by (rewrite <- LU; clear -IP; induction IP; cbn; congruence).
  unfold verify_multiple, range_challenges. cbn [p_A p_S p_T1 p_T2 p_tx p_txb p_eb p_ipp].
  assert (LVV : length VV = m) by (unfold VV; rewrite map_length, seq_length; reflexivity).
  rewrite LVV, VB. rewrite (proj2 (Nat.ltb_ge (g_cap gs) n) Hn), (proj2 (Nat.ltb_ge (g_parties gs) m) Hm). cbn [negb orb].
  fold st1. fold st2. rewrite Cy, Cz. fold st5. rewrite Cx. fold st7. rewrite Cw.
  assert (VA : forall st label P, validate_append e st label P = if c_inf e P then Thrown else Val (append_point e st label P)) by reflexivity.
  rewrite VA. cbn [existsb app].
  destruct (c_inf e (bs Ak)) eqn:IA; cbn [orb]; [reflexivity|]. cbn [bind]. rewrite VA.
  destruct (c_inf e (bs Sk)) eqn:IS; cbn [orb]; [reflexivity|]. cbn [bind]. fold st2. rewrite Cy, Cz. rewrite VA.
  destruct (c_inf e (bs t1)) eqn:I1; cbn [orb]; [reflexivity|]. cbn [bind]. rewrite VA.
  destruct (c_inf e (bs t2)) eqn:I2; cbn [orb]; [reflexivity|]. cbn [bind]. fold st5. rewrite Cx. fold st7. rewrite Cw.
  pose proof (scalars_spec e ip st8 lg vs ltac:(rewrite E1, map_length; exact L1) ltac:(rewrite E2, map_length; exact L2) L) as S.
  rewrite <- K in S. fold us in S. specialize (S IV).
  destruct (existsb (c_inf e) (i_L ip ++ i_R ip)); [rewrite S; reflexivity|].
  destruct S as [st10 [s [S FS]]]. rewrite S. cbn [bind]. rewrite Iy.
  destruct (delta_spec n m y z) as [dl [ED _]]. rewrite ED. cbn [bind].
  rewrite EG, EH, (all_gens_spec _ _ GK n m LG FG Hn Hm), (all_gens_spec _ _ HK n m LH FH Hn Hm). cbn [bind].
  change (concat (map (fun j => firstn n (nth j GK [])) (seq 0 m))) with (gflat m gk).
  change (concat (map (fun j => firstn n (nth j HK [])) (seq 0 m))) with (hflat m hk).
  set (vk := map (fun j => v j + rb j * beta) (seq 0 m)).
  replace VV with (map bs vk) by (unfold vk, VV; rewrite map_map; reflexivity).
  rewrite E1, E2.
  match goal with |- bind (msm e ?ss ?pp) _ = _ => set (ss0 := ss);
    replace pp with (map bs ([Ak; Sk; t1; t2] ++ lk ++ rk ++ [beta; 1] ++ gflat m gk ++ hflat m hk ++ vk)) by (rewrite !map_app; reflexivity) end.
  assert (LS : length s = (n * m)%nat) by (rewrite (eqms_length FS), svec_length, LU; congruence).
  assert (Lvk : length vk = m) by (unfold vk; rewrite map_length, seq_length; reflexivity).
  assert (PS : forall j, eqm q (T1f j) (t1s n v tapes y z j) /\ eqm q (T2f j) (t2s n tapes y j)).
  { intros j. unfold T1f, T2f. destruct (poly_spec n v rb tapes y z (fun j => map bs (gk j)) (fun j => map bs (hk j)) j) as [a [b [c [Ep [_ [B C]]]]]].
    fold (Pj j) in Ep. rewrite Ep. split; assumption. }
  rewrite (msm_spec e W).
  2:{ unfold ss0, exp_iter_vector. repeat (rewrite ?app_length, ?map_length, ?seq_length, ?exp_iter_length, ?GL, ?HL; cbn [length app]). lia. }
  cbn [bind]. f_equal.
  assert (CK : eqm q (dot ss0 ([Ak; Sk; t1; t2] ++ lk ++ rk ++ [beta; 1] ++ gflat m gk ++ hflat m hk ++ vk))
     (w * (z * z) * sm m (fun j => pw z j * (v j - v j mod 2 ^ Z.of_nat n)))).
  { unfold ss0. apply (check_value beta n m v rb tapes gk hk Lgk Lhk Vpos y z x w y_inv Yinv (fun j => map bs (gk j)) (fun j => map bs (hk j))); try assumption; try congruence.
    - apply sm_eqm. intros j _. rewrite (proj1 (PS j)). reflexivity.
    - apply sm_eqm. intros j _. rewrite (proj2 (PS j)). reflexivity.
    - unfold txb. rewrite sum_mod_spec. apply sm_eqm. intros j _. unfold share_txb, poly2_eval. cbn [Pj par y_rb y_t].
      rewrite addm, (addm e (mul_mod (offset_zz e z j) (rb j) q)), !mulm. rewrite offset_spec. unfold pw. mring.
    - unfold eb. rewrite sum_mod_spec. apply sm_eqm. intros j _. unfold share_eb. cbn [Pj par y_t]. rewrite addm, mulm. mring.
    - intros j J. unfold vk. rewrite nth_map_seq by exact J. reflexivity. }
  apply (bs_eqm e W) in CK. rewrite CK. reflexivity.
Qed.
End Range.
