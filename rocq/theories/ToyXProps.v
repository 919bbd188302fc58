(** C89: the x-only Montgomery curve computes the abscissa of a masked multiple, and
    Diffie-Hellman on it agrees. *)
From Coq Require Import ZArith List Bool Lia Znumtheory Field.
From Verif Require Import LinCodeModel ZpLib EcField EcGroup EcMul EcLadder ToyEcModel ToyXModel ToyXProof.
Import ListNotations.
Open Scope Z_scope.

(** A smooth Montgomery curve over an odd prime field of at most 255 bits. *)
Definition mont (c : curve) : Prop :=
  prime (cp c) /\ cp c <> 2 /\ cp c <= 2 ^ 255 /\ (4 | cA c - 2) /\ (cA c ^ 2 - 4) mod cp c <> 0.
(** The multiple that is computed. *)
Definition masked (c : curve) (k : Z) : Z := Z.abs (mask_scalar k) mod 2 ^ Z.of_nat (bit_count (cp c)).
(** The field element of [x], with bit 255 ignored, and the abscissa cubic. *)
Definition fx c Hp (x : Z) : E (cp c) := mk (cp c) Hp (mask_point x).
Definition curve_on c Hp (b : E (cp c)) : pt (E (cp c)) -> Prop :=
  EcGroup.on (E (cp c)) (eadd (cp c) Hp) (emul (cp c) Hp) b (mk (cp c) Hp (cA c)) (mk (cp c) Hp 1) (mk (cp c) Hp 0).
(** Integer multiples under the chord and tangent law on b y^2 = x^3 + A x^2 + x. *)
Definition multiple c Hp (b : E (cp c)) : Z -> pt (E (cp c)) -> pt (E (cp c)) :=
  zmul (pt (E (cp c))) (Inf _)
    (EcGroup.padd (E (cp c)) (mk (cp c) Hp 1) (eadd (cp c) Hp) (emul (cp c) Hp) (esub (cp c) Hp) (eopp (cp c) Hp) (ediv (cp c) Hp) (e_dec (cp c)) b (mk (cp c) Hp (cA c)) (mk (cp c) Hp 1))
    (EcGroup.neg (E (cp c)) (eopp (cp c) Hp)).
Definition abscissa c (Q : pt (E (cp c))) : Z := match Q with Inf _ => 0 | Aff _ x _ => v (cp c) x end.

Lemma bits_pos p : prime p -> (0 < bit_count p)%nat.
Proof. intros Hp. pose proof (prime_pos p Hp). unfold bit_count. destruct (Z.eqb_spec p 0); lia. Qed.

(** For every point with that abscissa, on the curve itself or on a twist (any [b]), the result is
    the abscissa of its masked multiple, and zero stands for infinity. *)
Theorem x_mul_multiple c x k (Hp : prime (cp c)) b y : mont c -> b <> mk (cp c) Hp 0 -> curve_on c Hp b (Aff _ (fx c Hp x) y) ->
  x_mul c x k = abscissa c (multiple c Hp b (masked c k) (Aff _ (fx c Hp x) y)).
Proof.
  intros (_ & odd & _ & dvd & disc) B H. unfold x_mul. apply (ladder_ok c Hp odd dvd disc b B (mask_point x) y H). apply bits_pos. exact Hp.
Qed.
(** Every abscissa has such a point. *)
Theorem x_point_ex c x (Hp : prime (cp c)) : exists b y, b <> mk (cp c) Hp 0 /\ curve_on c Hp b (Aff _ (fx c Hp x) y).
Proof.
  pose proof (F_1_neq_0 (zp_field (cp c) Hp)) as O1.
  destruct (e_dec (cp c) (EcGroup.f _ (eadd (cp c) Hp) (emul (cp c) Hp) (mk (cp c) Hp (cA c)) (mk (cp c) Hp 1) (mk (cp c) Hp 0) (fx c Hp x)) (mk (cp c) Hp 0)) as [E|N].
  - exists (mk (cp c) Hp 1), (mk (cp c) Hp 0). split; [exact O1|]. apply (root_on c Hp _ E).
  - eexists. exists (mk (cp c) Hp 1). split; [exact N|]. apply (unit_on c Hp).
Qed.
Theorem x_mul_range c x k : prime (cp c) -> 0 <= x_mul c x k < cp c.
Proof. intros Hp. pose proof (prime_pos _ Hp). unfold x_mul. apply Z.mod_pos_bound. lia. Qed.

Lemma mask_point_small x : 0 <= x < 2 ^ 255 -> mask_point x = x.
Proof.
  intros H. unfold mask_point, with_mag. destruct (Z.ltb_spec x 0); [lia|]. rewrite Z.clearbit_spec'. 
  apply Z.bits_inj'. intros n Hn. rewrite Z.ldiff_spec, Z.pow2_bits_eqb by lia. destruct (Z.eqb_spec 255 n) as [<-|N]; [|apply andb_true_r].
  cbn [negb]. rewrite andb_false_r. symmetry. apply Z.bits_above_log2; [lia|]. destruct (Z.eq_dec x 0) as [->|]; [cbn; lia|]. apply Z.log2_lt_pow2; lia.
Qed.
Lemma masked_nonneg c k : 0 <= masked c k.
Proof. apply Z.mod_pos_bound. apply Z.pow_pos_nonneg; lia. Qed.

(** Diffie-Hellman: multiplying by two scalars in either order gives the same abscissa. *)
Theorem x_dh c x a b : mont c -> x_mul c (x_mul c x a) b = x_mul c (x_mul c x b) a.
Proof.
  intros M. pose proof M as (Hp & odd & P255 & dvd & disc). destruct (x_point_ex c x Hp) as (d & y & D & H).
  assert (ST : forall a b, x_mul c (x_mul c x a) b = abscissa c (multiple c Hp d (masked c b * masked c a) (Aff _ (fx c Hp x) y))); [|rewrite !ST, Z.mul_comm; reflexivity].
  clear a b. intros a b. pose proof (x_mul_range c x a Hp) as R. set (u := x_mul c x a) in *.
  assert (MU : mask_point u = u) by (apply mask_point_small; lia).
  assert (U : u = abscissa c (multiple c Hp d (masked c a) (Aff _ (fx c Hp x) y))) by (apply x_mul_multiple; assumption).
  pose proof (zm_mul c Hp odd disc d D (masked c b) (masked c a) _ H) as ZM. change (zm c Hp d) with (multiple c Hp d) in ZM. rewrite ZM.
  pose proof (zm_on c Hp odd d D (masked c a) _ H) as OQ. change (zm c Hp d) with (multiple c Hp d) in OQ.
  set (Q := multiple c Hp d (masked c a) _) in *. clearbody Q. destruct Q as [|ux uy].
  - cbn [abscissa] in U. pose proof (zm_e c Hp odd disc d D (masked c b)) as ZE. change (zm c Hp d) with (multiple c Hp d) in ZE. rewrite ZE. cbn [abscissa].
    assert (O0 : curve_on c Hp d (Aff _ (fx c Hp u) (mk (cp c) Hp 0))).
    { unfold fx. rewrite MU, U. apply (zero_on c Hp). }
    rewrite (x_mul_multiple c u b Hp d _ M D O0).
    destruct (zero_mult c Hp odd disc d D (mask_point u) (mk (cp c) Hp 0) O0 (masked c b)) as [Z|Z]; [rewrite MU, U; reflexivity|..];
      change (zm c Hp d) with (multiple c Hp d) in Z; unfold fx; rewrite Z; [reflexivity|]. cbn [abscissa]. rewrite v_mk, MU, U. apply Z.mod_0_l. pose proof (prime_pos _ Hp). lia.
  - cbn [abscissa] in U. assert (FX : fx c Hp u = ux) by (unfold fx; rewrite MU, U; apply mk_v). rewrite <- FX in OQ |- *. apply x_mul_multiple; assumption.
Qed.
(** The result depends on the abscissa only modulo the field size, with bit 255 ignored. *)
Theorem x_mul_reduces c x x' k : mont c -> mask_point x mod cp c = mask_point x' mod cp c -> x_mul c x k = x_mul c x' k.
Proof.
  intros M E. pose proof M as (Hp & _). destruct (x_point_ex c x Hp) as (d & y & D & H).
  assert (FX : fx c Hp x = fx c Hp x') by (apply mk_eq; constructor; exact E). rewrite (x_mul_multiple c x k Hp d y M D H). rewrite FX in H |- *. symmetry. apply x_mul_multiple; assumption.
Qed.
(** The sign of the scalar is ignored. *)
Theorem x_mul_sign c x k : x_mul c x (- k) = x_mul c x k.
Proof.
  unfold x_mul. assert (E : Z.abs (mask_scalar (- k)) = Z.abs (mask_scalar k)).
  { unfold mask_scalar, with_mag. destruct (Z.ltb_spec (- k) 0), (Z.ltb_spec k 0); try lia; [rewrite Z.opp_involutive; lia|]. assert (k = 0) by lia. subst k. reflexivity. }
  assert (R : forall x1 n l, ladder_run c x1 (mask_scalar (- k)) n l = ladder_run c x1 (mask_scalar k) n l).
  { intros x1 n. induction n as [|n IH]; intros l; [reflexivity|]. cbn [ladder_run]. rewrite E. apply IH. }
  rewrite R. reflexivity.
Qed.
(** Which multiple: on a field of 255 bits, 2^254 plus the scalar with its three low bits cleared. *)
Theorem x_masked c k : Z.log2 (cp c) = 254 -> 0 < cp c -> masked c k = 2 ^ 254 + 8 * ((Z.abs k mod 2 ^ 254) / 8).
Proof.
  intros L P. unfold masked, bit_count. destruct (Z.eqb_spec (cp c) 0) as [|_]; [lia|]. rewrite L. change (Z.of_nat (S (Z.to_nat 254))) with 255.
  assert (E : Z.abs (mask_scalar k) = Z.setbit (Z.clearbit (Z.clearbit (Z.clearbit (Z.clearbit (Z.abs k) 0) 1) 2) 255) 254).
  { unfold mask_scalar, with_mag. assert (N : forall z, 0 <= z -> 0 <= Z.setbit (Z.clearbit (Z.clearbit (Z.clearbit (Z.clearbit z 0) 1) 2) 255) 254).
    { intros z Hz. rewrite Z.setbit_spec', !Z.clearbit_spec'. apply Z.lor_nonneg. split; [|lia]. repeat (apply Z.ldiff_nonneg; left). exact Hz. }
    destruct (Z.ltb_spec k 0) as [K|K].
    - rewrite Z.abs_opp, (Z.abs_neq k) by lia. apply Z.abs_eq. apply N. lia.
    - rewrite (Z.abs_eq k) by lia. apply Z.abs_eq. apply N. lia. }
  rewrite E. pose proof (Z.abs_nonneg k) as A. set (a := Z.abs k) in *. clearbody a. clear E.
  assert (S8 : 8 * ((a mod 2 ^ 254) / 8) = Z.shiftl (Z.shiftr (a mod 2 ^ 254) 3) 3) by (rewrite Z.shiftl_mul_pow2, Z.shiftr_div_pow2 by lia; change (2 ^ 3) with 8; ring).
  assert (LO : Z.land (2 ^ 254) (8 * ((a mod 2 ^ 254) / 8)) = 0).
  { rewrite S8. apply Z.bits_inj'. intros n Hn. rewrite Z.land_spec, Z.bits_0, Z.pow2_bits_eqb by lia. destruct (Z.eqb_spec 254 n) as [<-|]; [|reflexivity].
    rewrite Z.shiftl_spec, Z.shiftr_spec by lia. replace (254 - 3 + 3) with 254 by lia. rewrite Z.mod_pow2_bits_high by lia. reflexivity. }
  rewrite Z.add_nocarry_lxor by exact LO. rewrite S8. apply Z.bits_inj'. intros n Hn. rewrite Z.lxor_spec, Z.pow2_bits_eqb by lia.
  rewrite Z.shiftl_spec by lia. destruct (Z.ltb_spec n 255) as [H|H].
  - rewrite Z.mod_pow2_bits_low by lia. rewrite Z.setbit_eqb by lia. rewrite !Z.clearbit_eqb.
    destruct (Z.eqb_spec 254 n) as [<-|N]; cbn [orb].
    + rewrite Z.shiftr_spec, Z.mod_pow2_bits_high by lia. reflexivity.
    + rewrite xorb_false_l. destruct (Z.eqb_spec 255 n) as [|_]; [lia|]. cbn [negb]. rewrite andb_true_r.
      destruct (Z.ltb_spec n 3) as [S|S].
      * rewrite (Z.testbit_neg_r _ (n - 3)) by lia. destruct (Z.eqb_spec 0 n), (Z.eqb_spec 1 n), (Z.eqb_spec 2 n); cbn [negb]; rewrite ?andb_false_r; try reflexivity. lia.
      * destruct (Z.eqb_spec 0 n) as [|_]; [lia|]. destruct (Z.eqb_spec 1 n) as [|_]; [lia|]. destruct (Z.eqb_spec 2 n) as [|_]; [lia|]. cbn [negb]. rewrite !andb_true_r.
        rewrite Z.shiftr_spec by lia. replace (n - 3 + 3) with n by lia. rewrite Z.mod_pow2_bits_low by lia. reflexivity.
  - rewrite Z.mod_pow2_bits_high by lia. destruct (Z.eqb_spec 254 n) as [|_]; [lia|]. rewrite Z.shiftr_spec, Z.mod_pow2_bits_high by lia. reflexivity.
Qed.

(** ** The predefined curve *)
Theorem curve25519_mont : prime (cp curve25519) -> mont curve25519 /\ forall k, masked curve25519 k = 2 ^ 254 + 8 * ((Z.abs k mod 2 ^ 254) / 8).
Proof.
  intros Hp. split; [|intros k; apply x_masked; reflexivity]. split; [exact Hp|]. split; [vm_compute; discriminate|]. split; [vm_compute; discriminate|].
  split; [exists 121665; reflexivity|vm_compute; discriminate].
Qed.

(** ** A concrete curve, and what the masking breaks *)
Definition ex_mont : curve := mkCurve 6 1 (14, 5) 17 5 4.
Lemma prime_17 : prime 17.
Proof. apply prime_intro; [lia|]. intros n Hn. apply Zgcd_1_rel_prime. assert (C : n = 1 \/ n = 2 \/ n = 3 \/ n = 4 \/ n = 5 \/ n = 6 \/ n = 7 \/ n = 8 \/ n = 9 \/ n = 10 \/ n = 11 \/ n = 12 \/ n = 13 \/ n = 14 \/ n = 15 \/ n = 16) by lia.
  repeat (destruct C as [->|C]; [reflexivity|]). subst n. reflexivity. Qed.
Example ex_mont_ok : mont ex_mont /\ x_mul ex_mont 4 8 = 14 /\ x_mul ex_mont 4 16 = 12 /\ x_mul ex_mont (x_mul ex_mont 4 16) 8 = 14 /\ x_mul ex_mont (x_mul ex_mont 4 8) 16 = 14.
Proof.
  split; [|vm_compute; auto]. split; [exact prime_17|]. split; [discriminate|]. split; [vm_compute; discriminate|]. split; [exists 1; reflexivity|vm_compute; discriminate].
Qed.
(** Scalar multiplication is not the group's: 0 and 1 give the same point, so that zero times a
    point is not infinity or one times a point is not the point; this is so on every curve and at
    every abscissa but zero. *)
Theorem x_scalar_refuted c x : x <> 0 -> ~ (x_is_inf (x_mul c x 0) = true /\ x_mul c x 1 = x).
Proof.
  intros N [H0 H1]. apply Z.eqb_eq in H0. assert (E : x_mul c x 1 = x_mul c x 0) by reflexivity. congruence.
Qed.
(** Negation is a multiplication by n - 1 and so is masked too: it changes the abscissa. *)
Theorem x_negate_refuted : exists c x, mont c /\ x_in_curve c x = true /\ x_negate c x <> x /\ x_is_inf (x_negate c x) = true /\ x_is_inf x = false.
Proof. exists ex_mont, 14. split; [apply ex_mont_ok|]. vm_compute. repeat split; congruence. Qed.
(** Zero is both infinity and the abscissa of the point of order two, which is in the group. *)
Theorem x_zero c : 0 < cp c -> x_is_inf 0 = true /\ x_in_curve c 0 = true.
Proof. intros H. split; [reflexivity|]. unfold x_in_curve. apply andb_true_iff. split; [reflexivity|apply Z.ltb_lt; exact H]. Qed.

Print Assumptions x_mul_multiple. Print Assumptions x_point_ex. Print Assumptions x_dh. Print Assumptions x_mul_reduces. Print Assumptions x_mul_sign. Print Assumptions x_masked. Print Assumptions curve25519_mont.
Print Assumptions x_mul_range. Print Assumptions x_scalar_refuted. Print Assumptions x_negate_refuted. Print Assumptions x_zero.
