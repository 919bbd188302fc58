(** The Elligator 2 map of Curve25519 (HashCurveModel.map_g2_val). *)
From Coq Require Import ZArith List Bool Lia Znumtheory.
From Verif Require Import LinCodeModel ZpLib SafePrimeModel SafePrimeProof SafePrimeProps ToyEcModel ToyXModel ToyXProof HashCurveModel HashFieldProof SswuProof.
Import ListNotations.
Open Scope Z_scope.

Definition mont_rhs (c : hctx) (x : Z) : Z := x * x * x + h_a c * (x * x) + x.
Definition g2_good (c : hctx) : Prop :=
  prime (h_p c) /\ h_p c mod 8 = 5 /\ h_c4 c = (h_p c - 5) / 8 /\ ~ eqm (h_p c) (h_a c) 0 /\
  eqm (h_p c) (h_i c * h_i c) (-1) /\ eqm (h_p c) (h_c2 c * h_c2 c) (-2 * h_i c).

Section G2.
Variable c : hctx.
Let p := h_p c.
Hypothesis good : g2_good c.
Let Hp : prime p := proj1 good.
Notation i := (h_i c).
Lemma p85 : p mod 8 = 5. Proof. apply good. Qed.
Lemma i_sq : eqm p (i * i) (-1). Proof. apply good. Qed.
Lemma c2_sq : eqm p (h_c2 c * h_c2 c) (-2 * i). Proof. apply good. Qed.
Lemma godd : p <> 2. Proof. intros E. pose proof p85 as K. rewrite E in K. discriminate. Qed.
Lemma gpos : 5 <= p. Proof. pose proof (prime_ge_2 p Hp). pose proof p85 as K. pose proof (Z.div_mod p 8 ltac:(lia)). pose proof (Z.div_pos p 8 ltac:(lia) ltac:(lia)). lia. Qed.
Definition eighth := (p - 5) / 8.
Lemma eighth_eq : p = 8 * eighth + 5.
Proof. unfold eighth. pose proof (Z.div_mod p 8 ltac:(lia)) as D. rewrite p85 in D. replace (p - 5) with (p / 8 * 8) by lia. rewrite Z.div_mul by lia. lia. Qed.
Lemma eighth_pos : 0 <= eighth. Proof. pose proof eighth_eq. pose proof gpos. lia. Qed.
Lemma gm1 : ~ eqm p (-1) 1. Proof. intros K. apply (eqm_1_m1 p Hp godd). symmetry. exact K. Qed.
Lemma gm10 : ~ eqm p (-1) 0. Proof. intros K. apply (eqm_1_0 p Hp godd). transitivity (0 - (-1)); [mring|]. rewrite K. mring. Qed.
Lemma two_ne : ~ eqm p 2 0. Proof. intros [K]. pose proof gpos. rewrite Z.mod_0_l, Z.mod_small in K by lia. lia. Qed.

(** No square root of -1 is a square. *)
Lemma quartic_nonsquare r : eqm p (r * r) (-1) -> ~ square p r.
Proof.
  intros R (w & W). pose proof eighth_pos as E0. pose proof eighth_eq as E1.
  assert (N : ~ eqm p w 0). { intros K. apply gm10. rewrite <- R, <- W, K. mring. }
  pose proof (fermat_little p w Hp N) as F. replace (p - 1) with (4 * (2 * eighth + 1)) in F by lia. rewrite Z.pow_mul_r in F by lia.
  assert (W4 : eqm p (w ^ 4) (-1)). { rewrite <- R, <- W. mring. }
  rewrite (eqm_pow p (w ^ 4) (-1) (2 * eighth + 1) ltac:(lia) W4) in F. rewrite Z.pow_add_r, Z.pow_mul_r in F by lia. change ((-1) ^ 2) with 1 in F. rewrite Z.pow_1_l in F by lia.
  apply gm1. rewrite <- F. reflexivity.
Qed.
Lemma two_nonsquare : ~ square p 2.
Proof.
  intros (w & W). assert (N : ~ eqm p w 0). { intros K. apply two_ne. rewrite <- W, K. mring. }
  destruct (invert_mod_prime w p Hp N) as (j & I). destruct (invert_mod_some _ _ _ I) as [_ J].
  apply (quartic_nonsquare (- i)); [rewrite <- i_sq; mring|]. exists (h_c2 c * j).
  transitivity (h_c2 c * h_c2 c * (j * j)); [mring|]. rewrite c2_sq. transitivity (- i * (2 * (j * j))); [mring|]. rewrite <- W.
  transitivity (- i * ((w * j) * (w * j))); [mring|]. rewrite J. mring.
Qed.
Lemma xd_ne u : ~ eqm p (2 * u * u + 1) 0.
Proof.
  intros K. assert (N : ~ eqm p u 0). { intros U. apply (eqm_1_0 p Hp godd). rewrite <- K, U. mring. }
  destruct (invert_mod_prime u p Hp N) as (j & I). destruct (invert_mod_some _ _ _ I) as [_ J].
  apply two_nonsquare. exists (i * j). transitivity ((i * i) * (j * j)); [mring|]. rewrite i_sq.
  transitivity (2 * (u * j) * (u * j) - (2 * u * u + 1) * (j * j)); [mring|]. rewrite K, J. mring.
Qed.
Lemma fourth_root x : eqm p (x * x * (x * x)) 1 -> (eqm p x 1 \/ eqm p x (-1)) \/ (eqm p x i \/ eqm p x (- i)).
Proof.
  intros K. destruct (eqm_prime_mul p (x * x - 1) (x * x + 1) Hp) as [D|D].
  - transitivity (x * x * (x * x) - 1); [mring|]. rewrite K. mring.
  - left. destruct (eqm_prime_mul p (x - 1) (x + 1) Hp) as [D'|D']; [rewrite <- D; mring|left; apply eqm_sub0; exact D'|right; apply eqm_sub0; rewrite <- D'; mring].
  - right. destruct (eqm_prime_mul p (x - i) (x + i) Hp) as [D'|D'].
    + transitivity (x * x - i * i); [mring|]. rewrite i_sq, <- D. mring.
    + left; apply eqm_sub0; exact D'.
    + right; apply eqm_sub0; rewrite <- D'; mring.
Qed.
Lemma pow_mod_nonneg v e : 0 <= e -> eqm p (pow_mod v e p) (v ^ e).
Proof.
  intros E. pose proof gpos. destruct (Z.eq_dec e 0) as [->|N].
  - unfold pow_mod. apply eqm_mod.
  - apply pow_mod_ok; lia.
Qed.

(** With n / d the value to take a root of: v = n d^7, y = v^((p-5)/8) d^3 n satisfies y^2 d = n chi
    with chi = v^((p-1)/4) a fourth root of one, and chi^2 = 1 exactly for squares. *)
Lemma candidate n d : ~ eqm p d 0 -> ~ eqm p n 0 -> exists chi,
  (forall y, eqm p y ((n * (d ^ 7)) ^ eighth * (d * d * d * n)) -> eqm p (y * y * d) (n * chi)) /\
  ((square p (n * d) /\ (eqm p chi 1 \/ eqm p chi (-1))) \/ (~ square p (n * d) /\ (eqm p chi i \/ eqm p chi (- i)))).
Proof.
  intros ND NN. pose proof eighth_pos as E0. pose proof eighth_eq as E1. set (w := n * d ^ 7).
  assert (NW : ~ eqm p w 0). { unfold w. replace (d ^ 7) with (d * d * d * d * d * d * d) by ring. repeat apply (mul_nonzero p Hp); auto. }
  exists (w ^ (2 * eighth + 1)). split.
  - intros y Y. rewrite Y. rewrite Z.pow_add_r, Z.pow_1_r by lia. replace (2 * eighth) with (eighth + eighth) by lia. rewrite Z.pow_add_r by lia. generalize (w ^ eighth). intros z. unfold w. mring.
  - assert (SQ : eqm p (w ^ (2 * eighth + 1) * w ^ (2 * eighth + 1)) (w ^ half p)).
    { rewrite <- Z.pow_add_r by lia. apply eqm_eq. f_equal. pose proof (half_eq p Hp godd). lia. }
    assert (WS : square p w <-> square p (n * d)).
    { unfold w. destruct (invert_mod_prime d p Hp ND) as (j & I). destruct (invert_mod_some _ _ _ I) as [_ J]. split; intros (z & Z0).
      - exists (z * (j * j * j)). transitivity (z * z * (j ^ 6)); [mring|]. rewrite Z0. transitivity (n * d * ((d * j) ^ 6)); [mring|]. rewrite (eqm_pow p (d * j) 1 6 ltac:(lia) J). mring.
      - exists (z * (d * d * d)). transitivity (z * z * (d ^ 6)); [mring|]. rewrite Z0. mring. }
    assert (F : eqm p (w ^ half p * w ^ half p) 1). { rewrite <- (fermat_little p w Hp NW). rewrite <- Z.pow_add_r by (pose proof (half_pos p Hp godd); lia). apply eqm_eq. f_equal. pose proof (half_eq p Hp godd). lia. }
    set (chi := w ^ (2 * eighth + 1)) in *. destruct (fourth_root chi) as [C|C]; [rewrite SQ; exact F| |].
    + left. split; [|exact C]. apply WS.
      (* a square root exists: one of y, i y with y = w^(eighth + 1) *)
      assert (YY : eqm p (w ^ (eighth + 1) * w ^ (eighth + 1)) (chi * w)).
      { unfold chi. rewrite <- Z.pow_add_r by lia. replace (eighth + 1 + (eighth + 1)) with (2 * eighth + 1 + 1) by lia. rewrite (Z.pow_add_r w (2 * eighth + 1) 1) by lia. rewrite Z.pow_1_r. reflexivity. }
      destruct C as [C|C]; [exists (w ^ (eighth + 1))|exists (i * w ^ (eighth + 1))].
      * rewrite YY, C. mring.
      * transitivity (i * i * (w ^ (eighth + 1) * w ^ (eighth + 1))); [mring|]. rewrite YY, C, i_sq. mring.
    + right. split; [|exact C]. intros S. apply WS in S. pose proof (euler_square p Hp godd w S NW) as EU. rewrite <- SQ in EU. apply gm1. rewrite <- EU.
      destruct C as [C|C]; rewrite C; rewrite <- i_sq; mring.
Qed.

Lemma gmod z : 0 <= z mod p < p. Proof. apply Z.mod_pos_bound. pose proof gpos. lia. Qed.
Lemma rhs_mod x y : eqm p x y -> eqm p (mont_rhs c x) (mont_rhs c y).
Proof. intros E. unfold mont_rhs. rewrite E. reflexivity. Qed.
Lemma ratio_square g n d : ~ eqm p d 0 -> eqm p (g * d) n -> (square p (n * d) <-> square p g).
Proof.
  intros ND G. destruct (invert_mod_prime d p Hp ND) as (j & I). destruct (invert_mod_some _ _ _ I) as [_ J]. split; intros (z & Z0).
  - exists (z * j). transitivity (z * z * (j * j)); [mring|]. rewrite Z0, <- G. transitivity (g * ((d * j) * (d * j))); [mring|]. rewrite J. mring.
  - exists (z * d). transitivity (z * z * (d * d)); [mring|]. rewrite Z0, <- G. mring.
Qed.
Lemma test_spec y d n : 0 <= n < p -> (((y * y) mod p * d) mod p =? n) = true <-> eqm p (y * y * d) n.
Proof.
  intros N. assert (E : eqm p (((y * y) mod p * d) mod p) (y * y * d)) by (rewrite !eqm_mod; reflexivity). split; intros K.
  - apply Z.eqb_eq in K. rewrite <- E, K. reflexivity.
  - apply Z.eqb_eq. apply (eqm_small p); [apply gmod|exact N|]. rewrite E. exact K.
Qed.

(** The two candidates for y, without reference to the code's temporaries. *)
Lemma roots t u gx1 gxd y11 : eqm p t (2 * u * u) -> 0 <= gx1 < p -> ~ eqm p gxd 0 -> eqm p y11 ((gx1 * gxd ^ 7) ^ eighth * (gxd * gxd * gxd * gx1)) ->
  let y1 := if ((y11 * y11) mod p * gxd) mod p =? gx1 then y11 else (y11 * i) mod p in
  let gx2 := (gx1 * t) mod p in
  let y21 := ((y11 * u) mod p * h_c2 c) mod p in
  let y2 := if ((y21 * y21) mod p * gxd) mod p =? gx2 then y21 else (y21 * i) mod p in
  (square p (gx1 * gxd) /\ eqm p (y1 * y1 * gxd) gx1) \/ (~ square p (gx1 * gxd) /\ ~ eqm p (y1 * y1 * gxd) gx1 /\ eqm p (y2 * y2 * gxd) gx2).
Proof.
  intros T RG ND Y. cbv zeta. set (gx2 := (gx1 * t) mod p). assert (G2 : eqm p gx2 (gx1 * t)) by apply eqm_mod. assert (R2 : 0 <= gx2 < p) by apply gmod.
  set (y21 := ((y11 * u) mod p * h_c2 c) mod p). assert (Y21 : eqm p (y21 * y21) (y11 * y11 * (u * u) * (-2 * i))). { rewrite <- c2_sq. unfold y21. rewrite !eqm_mod. mring. }
  clearbody gx2 y21. destruct (eqm_dec p gx1 0) as [Z0|NZ].
  - left. split; [exists 0; rewrite Z0; mring|].
    assert (Y0 : eqm p (y11 * y11 * gxd) gx1). { rewrite Y. rewrite Z0 at 2 4 5. mring. }
    rewrite (proj2 (test_spec y11 gxd gx1 RG) Y0). exact Y0.
  - destruct (candidate gx1 gxd ND NZ) as (chi & C1 & C2). pose proof (C1 y11 Y) as E. 
    destruct C2 as [(S & C)|(S & C)]; [left|right]; (split; [exact S|]).
    + destruct (((y11 * y11) mod p * gxd) mod p =? gx1) eqn:B; [apply (test_spec y11 gxd gx1 RG); exact B|].
      destruct C as [C|C].
      * exfalso. assert (K : eqm p (y11 * y11 * gxd) gx1) by (rewrite E, C; mring). apply (test_spec y11 gxd gx1 RG) in K. congruence.
      * rewrite eqm_mod. transitivity (i * i * (y11 * y11 * gxd)); [mring|]. rewrite i_sq, E, C. mring.
    + assert (NI : forall e, eqm p e i \/ eqm p e (- i) -> ~ eqm p (gx1 * e) gx1 /\ ~ eqm p (- (gx1 * e)) gx1).
      { intros e Ce. assert (E2 : eqm p (e * e) (-1)) by (destruct Ce as [Ce|Ce]; rewrite Ce; rewrite <- i_sq; mring). split; intros K.
        - assert (e1 : eqm p e 1) by (apply (eqm_prime_cancel p _ _ gx1 Hp NZ); rewrite <- K at 2; mring). apply gm1. rewrite <- E2, e1. mring.
        - assert (e1 : eqm p (- e) 1) by (apply (eqm_prime_cancel p _ _ gx1 Hp NZ); rewrite <- K at 2; mring). apply gm1. rewrite <- E2. transitivity (- e * - e); [mring|]. rewrite e1. mring. }
      split.
      * destruct (((y11 * y11) mod p * gxd) mod p =? gx1) eqn:B.
        -- rewrite E. apply (NI chi C).
        -- intros K. apply (proj2 (NI chi C)). transitivity (i * i * (y11 * y11 * gxd)); [rewrite i_sq, E; mring|]. rewrite <- K. rewrite eqm_mod. mring.
      * assert (E2 : eqm p (y21 * y21 * gxd) (- i * chi * gx2)).
        { rewrite Y21, G2, T. transitivity (y11 * y11 * gxd * (u * u) * (-2 * i)); [mring|]. rewrite E. mring. }
        destruct (((y21 * y21) mod p * gxd) mod p =? gx2) eqn:B; [apply (test_spec y21 gxd gx2 R2); exact B|].
        destruct C as [C|C].
        -- exfalso. assert (K : eqm p (y21 * y21 * gxd) gx2) by (rewrite E2, C; transitivity (- (i * i) * gx2); [mring|]; rewrite i_sq; mring).
           apply (test_spec y21 gxd gx2 R2) in K. congruence.
        -- rewrite eqm_mod. transitivity (i * i * (y21 * y21 * gxd)); [mring|]. rewrite E2, C. transitivity (i * i * (i * i) * gx2); [mring|]. rewrite i_sq. mring.
Qed.

Theorem g2_ok u : 0 <= u -> exists x y x1, map_g2_val c u = Val (x, y) /\ 0 <= x < p /\ 0 <= y < p /\
  eqm p (x1 * (1 + 2 * u * u)) (- h_a c) /\ eqm p (y * y) (mont_rhs c x) /\
  (square p (mont_rhs c x1) /\ eqm p x x1 /\ (y = 0 \/ Z.odd y = true) \/ ~ square p (mont_rhs c x1) /\ eqm p x (- x1 - h_a c) /\ Z.odd y = false).
Proof.
  intros U0. pose proof gpos as P. pose proof good as GD. destruct GD as (_ & _ & C4 & NA & _ & _). fold p in NA, C4. change (h_c4 c = eighth) in C4. unfold map_g2_val. fold p. cbv zeta.
  set (t := (((u * u) mod p) * 2) mod p). assert (T : eqm p t (2 * u * u)). { unfold t. rewrite !eqm_mod. mring. } clearbody t.
  set (xd := (t + 1) mod p). assert (XD : eqm p xd (t + 1)) by (unfold xd; rewrite !eqm_mod; reflexivity). clearbody xd.
  assert (NX : ~ eqm p xd 0). { rewrite XD, T. apply xd_ne. }
  set (gxd := ((xd * xd) mod p * xd) mod p). assert (GX : eqm p gxd (xd * xd * xd)) by (unfold gxd; rewrite !eqm_mod; reflexivity). clearbody gxd.
  set (gx1 := ((((h_a c * t) mod p * - h_a c) mod p + (xd * xd) mod p) mod p * - h_a c) mod p).
  assert (G1 : eqm p gx1 ((h_a c * t * - h_a c + xd * xd) * - h_a c)) by (unfold gx1; rewrite !eqm_mod; reflexivity).
  assert (R1 : 0 <= gx1 < p) by apply gmod. clearbody gx1.
  assert (NG : ~ eqm p gxd 0) by (rewrite GX; repeat apply (mul_nonzero p Hp); auto).
  set (y11 := (pow_mod _ (h_c4 c) p * _) mod p).
  assert (Y11 : eqm p y11 ((gx1 * gxd ^ 7) ^ eighth * (gxd * gxd * gxd * gx1))).
  { unfold y11. rewrite C4, eqm_mod. rewrite pow_mod_nonneg by apply eighth_pos. 
    set (q2 := (gxd * gxd) mod p). assert (Q2 : eqm p q2 (gxd * gxd)) by apply eqm_mod. clearbody q2.
    set (q3 := ((q2 * gxd) mod p * gx1) mod p). assert (Q3 : eqm p q3 (gxd * gxd * gxd * gx1)) by (unfold q3; rewrite !eqm_mod, Q2; reflexivity). clearbody q3.
    assert (EV : eqm p (((q2 * q2) mod p * q3) mod p) (gx1 * gxd ^ 7)) by (rewrite !eqm_mod, Q2, Q3; mring).
    rewrite (eqm_pow p _ _ eighth eighth_pos EV), Q3. reflexivity. }
  assert (RY11 : 0 <= y11 < p) by apply gmod. clearbody y11.
  pose proof (roots t u gx1 gxd y11 T R1 NG Y11) as RT. cbv zeta in RT.
  set (y1 := if ((y11 * y11) mod p * gxd) mod p =? gx1 then y11 else (y11 * i) mod p) in *.
  set (gx2 := (gx1 * t) mod p) in *.
  set (y21 := ((y11 * u) mod p * h_c2 c) mod p) in *.
  set (y2 := if ((y21 * y21) mod p * gxd) mod p =? gx2 then y21 else (y21 * i) mod p) in *.
  assert (RY1 : 0 <= y1 < p) by (unfold y1; destruct (_ =? gx1); [exact RY11|apply gmod]).
  assert (RY2 : 0 <= y2 < p) by (unfold y2; destruct (_ =? gx2); apply gmod).
  assert (EG2 : eqm p gx2 (gx1 * t)) by apply eqm_mod. clearbody y1 y2 gx2.
  destruct (invert_mod_prime xd p Hp NX) as (j & I). destruct (invert_mod_some _ _ _ I) as [_ J]. unfold invert. rewrite I. cbn [bind].
  set (x1 := - h_a c * j). assert (X1 : eqm p (x1 * xd) (- h_a c)). { unfold x1. transitivity (- h_a c * (xd * j)); [mring|]. rewrite J. mring. }
  assert (EG1 : eqm p (mont_rhs c x1 * gxd) gx1).
  { rewrite GX, G1. unfold mont_rhs. transitivity ((x1 * xd) * (x1 * xd) * (x1 * xd) + h_a c * (x1 * xd) * (x1 * xd) * xd + (x1 * xd) * xd * xd); [mring|]. rewrite X1, XD. mring. }
  assert (X2 : eqm p (t * x1) (- x1 - h_a c)). { apply eqm_sub0. transitivity (x1 * (t + 1) - (- h_a c)); [mring|]. rewrite <- XD, X1. mring. }
  assert (EGT : eqm p (mont_rhs c (t * x1) * gxd) gx2).
  { rewrite EG2, <- EG1. transitivity (t * x1 * ((t * x1) * (t * x1) + h_a c * (t * x1) + 1) * gxd); [unfold mont_rhs; mring|].
    assert (Q : eqm p ((t * x1) * (t * x1) + h_a c * (t * x1) + 1) (x1 * x1 + h_a c * x1 + 1)) by (rewrite X2; mring). rewrite Q. unfold mont_rhs. mring. }
  assert (TS : eqm p (x1 * (1 + 2 * u * u)) (- h_a c)). { transitivity (x1 * (2 * u * u + 1)); [mring|]. rewrite <- T, <- XD. exact X1. }
  pose proof (ratio_square _ _ _ NG EG1) as RS.
  assert (PO : Z.odd p = true). { rewrite eighth_eq. rewrite Z.odd_add, Z.odd_mul. reflexivity. }
  (* the last two conditional negations *)
  assert (SG : forall e y, 0 <= y < p -> let y' := if xorb e (sgn0 y) then - y else y in let y' := if y' <? 0 then (y' + p) mod p else y' in
    0 <= y' < p /\ eqm p (y' * y') (y * y) /\ (y' = 0 \/ Z.odd y' = e)).
  { intros e y RY. cbv zeta. rewrite sgn0_odd by lia. destruct (xorb e (Z.odd y)) eqn:X.
    - destruct (Z.ltb_spec (- y) 0) as [L|L].
      + rewrite Z.mod_small by lia. split; [lia|]. split; [transitivity ((p - y) * (p - y)); [apply eqm_eq; ring|]; constructor; replace ((p - y) * (p - y)) with (y * y + (p - 2 * y) * p) by ring; apply Z.mod_add; lia|].
        right. rewrite Z.odd_add, Z.odd_opp, PO. destruct e, (Z.odd y); cbn in *; congruence.
      + split; [lia|]. split; [apply eqm_eq; ring|]. left. lia.
    - destruct (Z.ltb_spec y 0); [lia|]. split; [lia|]. split; [reflexivity|]. right. destruct e, (Z.odd y); cbn in *; congruence. }
  set (e3 := ((y1 * y1) mod p * gxd) mod p =? gx1).
  destruct RT as [[S Y]|(S & Y & Y2)].
  - assert (e3 = true) as -> by (apply (test_spec y1 gxd gx1 R1); exact Y).
    destruct (SG true y1 RY1) as (A1 & A2 & A3). cbv zeta in A1, A2, A3. eexists _, _, x1. split; [reflexivity|]. split; [apply gmod|]. split; [exact A1|]. split; [exact TS|].
    assert (EX : eqm p ((- h_a c * j) mod p) x1) by apply eqm_mod. split.
    + rewrite A2, (rhs_mod _ _ EX). apply (eqm_prime_cancel p _ _ gxd Hp NG). rewrite Y, EG1. reflexivity.
    + left. split; [apply RS; exact S|]. split; [exact EX|exact A3].
  - assert (e3 = false) as ->. { destruct e3 eqn:B; [|reflexivity]. destruct Y. apply (test_spec y1 gxd gx1 R1). exact B. }
    destruct (SG false y2 RY2) as (A1 & A2 & A3). cbv zeta in A1, A2, A3. eexists _, _, x1. split; [reflexivity|]. split; [apply gmod|]. split; [exact A1|]. split; [exact TS|].
    assert (EX : eqm p (((- h_a c * t) mod p * j) mod p) (t * x1)) by (rewrite !eqm_mod; unfold x1; mring). split.
    + rewrite A2, (rhs_mod _ _ EX). apply (eqm_prime_cancel p _ _ gxd Hp NG). rewrite Y2, EGT. reflexivity.
    + right. split; [intros K; apply S, RS, K|]. split; [rewrite EX; exact X2|]. destruct A3 as [A3|A3]; [rewrite A3; reflexivity|exact A3].
Qed.
End G2.
