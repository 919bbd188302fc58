(** Square roots modulo a prime, and the simplified SWU map of HashCurveModel. *)
From Coq Require Import ZArith List Bool Lia Znumtheory Field.
From Verif Require Import LinCodeModel ZpLib SafePrimeModel SafePrimeProof SafePrimeProps EcField ToyEcModel ToyXModel ToyXProof HashCurveModel HashFieldProof.
Import ListNotations.
Open Scope Z_scope.

Definition square (p a : Z) : Prop := exists w, eqm p (w * w) a.

(** ** Euler's criterion *)
Section Euler.
Variable p : Z.
Hypothesis Hp : prime p.
Hypothesis odd : p <> 2.
Lemma p_pos : 2 < p. Proof. pose proof (prime_ge_2 p Hp). lia. Qed.
Lemma p_odd : p mod 2 = 1.
Proof.
  pose proof p_pos. pose proof (Z.mod_pos_bound p 2 ltac:(lia)). destruct (Z.eq_dec (p mod 2) 0) as [E|]; [|lia]. exfalso.
  apply Z.mod_divide in E; [|lia]. apply prime_divisors in E; auto. lia.
Qed.
Definition half := (p - 1) / 2.
Lemma half_eq : p = 2 * half + 1.
Proof. unfold half. pose proof p_odd as O. pose proof (Z.div_mod p 2 ltac:(lia)) as D. rewrite O in D. replace (p - 1) with (p / 2 * 2) by lia. rewrite Z.div_mul by lia. lia. Qed.
Lemma half_pos : 0 < half. Proof. pose proof half_eq. pose proof p_pos. lia. Qed.
Lemma eqm_1_0 : ~ eqm p 1 0. Proof. intros [K]. pose proof p_pos. rewrite Z.mod_0_l, Z.mod_small in K by lia. lia. Qed.
Lemma eqm_1_m1 : ~ eqm p 1 (-1).
Proof. intros K. apply eqm_sub0 in K. destruct K as [K]. pose proof p_pos. rewrite Z.mod_0_l, Z.mod_small in K by lia. lia. Qed.
Lemma euler_pm a : ~ eqm p a 0 -> eqm p (a ^ half) 1 \/ eqm p (a ^ half) (-1).
Proof.
  intros N. pose proof half_pos. pose proof (fermat_little p a Hp N) as F. replace (p - 1) with (half * 2) in F by (pose proof half_eq; lia).
  rewrite Z.pow_mul_r in F by lia. destruct (eqm_prime_mul p (a ^ half - 1) (a ^ half + 1) Hp) as [K|K].
  - transitivity ((a ^ half) ^ 2 - 1); [mring|]. rewrite F. mring.
  - left. apply eqm_sub0. exact K.
  - right. apply eqm_sub0. rewrite <- K. mring.
Qed.
Lemma euler_zero a : eqm p a 0 -> eqm p (a ^ half) 0.
Proof. intros E. rewrite (eqm_pow p a 0) by (auto; pose proof half_pos; lia). rewrite Z.pow_0_l by (pose proof half_pos; lia). reflexivity. Qed.
Lemma euler_square a : square p a -> ~ eqm p a 0 -> eqm p (a ^ half) 1.
Proof.
  intros (w & W) N. pose proof half_pos. assert (NW : ~ eqm p w 0) by (intros K; apply N; rewrite <- W, K; mring).
  rewrite <- (eqm_pow p (w * w) a) by (auto; lia). rewrite <- (fermat_little p w Hp NW). rewrite Z.pow_mul_l, <- Z.pow_add_r by lia.
  replace (half + half) with (p - 1) by (pose proof half_eq; lia). reflexivity.
Qed.
Lemma mul_nonzero a b : ~ eqm p a 0 -> ~ eqm p b 0 -> ~ eqm p (a * b) 0.
Proof. intros A B K. apply eqm_prime_mul in K as [K|K]; auto. Qed.

(** p = 3 modulo 4 *)
Section Three.
Hypothesis p34 : p mod 4 = 3.
Definition quarter := (p + 1) / 4.
Lemma quarter_eq : half + 1 = quarter * 2.
Proof.
  pose proof (Z.div_mod p 4 ltac:(lia)) as D. rewrite p34 in D. unfold quarter. replace (p + 1) with ((p / 4 + 1) * 4) by lia. rewrite Z.div_mul by lia. pose proof half_eq. lia.
Qed.
Lemma quarter_pos : 0 < quarter. Proof. pose proof quarter_eq. pose proof half_pos. lia. Qed.
Lemma root34 a : eqm p (a ^ half) 1 -> eqm p (a ^ quarter * a ^ quarter) a.
Proof.
  intros E. pose proof quarter_pos. pose proof half_pos. rewrite <- Z.pow_2_r, <- Z.pow_mul_r by lia. rewrite <- quarter_eq. rewrite Z.pow_add_r, Z.pow_1_r by lia. rewrite E. mring.
Qed.
Lemma root34_0 a : eqm p a 0 -> eqm p (a ^ quarter * a ^ quarter) a.
Proof. intros E. pose proof quarter_pos. rewrite (eqm_pow p a 0) by (auto; lia). rewrite Z.pow_0_l by lia. rewrite E. mring. Qed.
Lemma nonsquare_pow a : ~ square p a -> eqm p (a ^ half) (-1).
Proof.
  intros N. assert (NZ : ~ eqm p a 0). { intros K. apply N. exists 0. rewrite K. mring. }
  destruct (euler_pm a NZ) as [K|K]; [|exact K]. destruct N. eexists. apply (root34 _ K).
Qed.
Lemma m1_nonsquare : ~ square p (-1).
Proof.
  intros S. assert (N : ~ eqm p (-1) 0). { intros K. apply eqm_1_0. transitivity (0 - (-1)); [mring|]. rewrite K. mring. }
  pose proof (euler_square _ S N) as E. pose proof quarter_eq as Q. pose proof quarter_pos. replace half with (2 * (quarter - 1) + 1) in E by lia.
  rewrite Z.pow_add_r, Z.pow_mul_r in E by lia. change ((-1) ^ 2) with 1 in E. rewrite Z.pow_1_l in E by lia. apply eqm_1_m1. rewrite <- E. mring.
Qed.
(** Minus a nonzero square is no square. *)
Lemma neg_nonsquare a t : eqm p (t * t) (- a) -> ~ eqm p t 0 -> ~ square p a.
Proof.
  intros T N (w & W). destruct (invert_mod_prime t p Hp N) as (i & I). destruct (invert_mod_some _ _ _ I) as [_ J].
  apply m1_nonsquare. exists (w * i). transitivity (w * w * (i * i)); [mring|]. rewrite W. transitivity (- ((- a) * (i * i))); [mring|]. rewrite <- T.
  transitivity (- ((t * i) * (t * i))); [mring|]. rewrite J. mring.
Qed.
End Three.

(** ** IsSquare *)
Lemma pow_mod_range v e : 0 <= pow_mod v e p < p.
Proof. pose proof p_pos. unfold pow_mod. destruct e as [|e|e]; [| |]; try (destruct e; cbn [pow_mod_pos]); apply Z.mod_pos_bound; lia. Qed.
Lemma is_square_val v : is_square_c v p = Val ((pow_mod v half p =? 1) || (pow_mod v half p =? 0)).
Proof.
  pose proof p_pos. unfold is_square_c, invert. destruct (invert_mod_prime 2 p Hp) as (i & I).
  { intros K. destruct K as [K]. rewrite Z.mod_0_l, Z.mod_small in K by lia. lia. }
  destruct (invert_mod_some _ _ _ I) as [_ J]. rewrite I. cbn [bind].
  assert (HE : ((p - 1) mod p * i) mod p = half).
  { apply (eqm_small p); [apply Z.mod_pos_bound; lia|pose proof half_eq; pose proof half_pos; lia|].
    rewrite !eqm_mod. replace (p - 1) with (2 * half) by (pose proof half_eq; lia). transitivity (2 * i * half); [mring|]. rewrite J. mring. }
  rewrite HE. reflexivity.
Qed.
Lemma pow_one v : pow_mod v half p = 1 <-> eqm p (v ^ half) 1.
Proof.
  pose proof p_pos. pose proof (pow_mod_ok v p half ltac:(lia) half_pos) as M. split; intros K.
  - rewrite <- M, K. reflexivity.
  - apply (eqm_small p); [apply pow_mod_range|lia|]. rewrite M. exact K.
Qed.
Lemma pow_zero v : pow_mod v half p = 0 <-> eqm p (v ^ half) 0.
Proof.
  pose proof p_pos. pose proof (pow_mod_ok v p half ltac:(lia) half_pos) as M. split; intros K.
  - rewrite <- M, K. reflexivity.
  - apply (eqm_small p); [apply pow_mod_range|lia|]. rewrite M. exact K.
Qed.
Lemma pow_nonzero v : ~ eqm p v 0 -> ~ eqm p (v ^ half) 0.
Proof. intros N K. destruct (euler_pm v N) as [E|E]; rewrite E in K; [exact (eqm_1_0 K)|]. apply eqm_1_0. transitivity (0 - -1); [mring|]. rewrite K. mring. Qed.
Lemma is_square_true v : is_square_c v p = Val true -> eqm p (v ^ half) 1 \/ eqm p v 0.
Proof.
  rewrite is_square_val. intros K. injection K as K. apply orb_true_iff in K as [K|K]; apply Z.eqb_eq in K.
  - left. apply pow_one, K.
  - right. apply pow_zero in K. destruct (eqm_dec p v 0) as [E|N]; [exact E|]. destruct (pow_nonzero v N K).
Qed.
Lemma is_square_false v : is_square_c v p = Val false -> eqm p (v ^ half) (-1) /\ ~ square p v.
Proof.
  rewrite is_square_val. intros K. injection K as K. apply orb_false_iff in K as [K1 K0]. apply Z.eqb_neq in K1, K0. rewrite pow_one in K1. rewrite pow_zero in K0.
  assert (N : ~ eqm p v 0) by (intros E; apply K0, euler_zero, E). split.
  - destruct (euler_pm v N) as [E|E]; [contradiction|exact E].
  - intros S. apply K1, euler_square; auto.
Qed.
End Euler.

(** ** The simplified SWU map *)
Definition rhs (c : hctx) (x : Z) : Z := x * x * x + h_a c * x + h_b c.
(** The criteria of RFC 9380, 6.6.2 on a context: p = 3 (mod 4) with the exponent of its square
    root, A nonzero, Z no square, and g(B / (Z A)) a square. *)
Definition sswu_good (c : hctx) : Prop :=
  prime (h_p c) /\ h_p c mod 4 = 3 /\ h_c1 c = (h_p c + 1) / 4 /\ ~ eqm (h_p c) (h_a c) 0 /\ ~ square (h_p c) (h_z c) /\
  exists x, eqm (h_p c) (x * h_z c * h_a c) (h_b c) /\ square (h_p c) (rhs c x).

Lemma sgn0_odd v : 0 <= v -> sgn0 v = Z.odd v.
Proof. intros H. unfold sgn0. rewrite Z.rem_mod_nonneg by lia. rewrite Zmod_odd. destruct (Z.odd v); reflexivity. Qed.

Section Sswu.
Variable c : hctx.
Let p := h_p c.
Hypothesis good : sswu_good c.
Let Hp : prime p := proj1 good.
Lemma p34 : p mod 4 = 3. Proof. apply good. Qed.
Lemma odd' : p <> 2. Proof. intros E. pose proof p34 as K. rewrite E in K. discriminate. Qed.
Lemma pp : 2 < p. Proof. apply (p_pos p Hp odd'). Qed.
Lemma rhs_eqm x y : eqm p x y -> eqm p (rhs c x) (rhs c y).
Proof. intros E. unfold rhs. rewrite E. reflexivity. Qed.

Lemma sqrt_ratio_ok u v : ~ eqm p v 0 -> exists r s y, sqrt_ratio c u v = Val (s, y) /\ eqm p (r * v) u /\ 0 <= y < p /\
  (s = true /\ eqm p (y * y) r \/ s = false /\ ~ square p r /\ eqm p (y * y) (r * h_z c)).
Proof.
  intros N. pose proof good as GD. destruct GD as (_ & _ & C1 & _ & NZ & _). fold p in C1, NZ. change ((p + 1) / 4) with (quarter p) in C1. unfold sqrt_ratio. fold p.
  destruct (invert_mod_prime v p Hp N) as (i & I). destruct (invert_mod_some _ _ _ I) as [_ J]. unfold invert. rewrite I. cbn [bind].
  set (r := (i * u) mod p). assert (R : eqm p (r * v) u). { unfold r. rewrite eqm_mod. transitivity (v * i * u); [mring|]. rewrite J. mring. }
  assert (QP : 0 < quarter p) by apply (quarter_pos p Hp odd' p34). pose proof pp as P.
  destruct (is_square_c r p) as [s| | |] eqn:S; try (rewrite (is_square_val p Hp odd') in S; discriminate). cbn [bind]. exists r, s. eexists. split; [reflexivity|]. split; [exact R|].
  split; [rewrite C1; apply (pow_mod_range p Hp odd')|]. rewrite C1.
  destruct s.
  - left. split; [reflexivity|]. rewrite (pow_mod_ok r p _ ltac:(lia) QP). destruct (is_square_true p Hp odd' r S) as [E|E].
    + apply (root34 p Hp odd' p34 _ E).
    + apply (root34_0 p Hp odd' p34 _ E).
  - right. split; [reflexivity|]. destruct (is_square_false p Hp odd' r S) as [E NS]. split; [exact NS|].
    set (q := (r * h_z c) mod p). rewrite (pow_mod_ok q p _ ltac:(lia) QP).
    assert (Q : eqm p q (r * h_z c)) by (unfold q; apply eqm_mod). rewrite <- Q. apply (root34 p Hp odd' p34).
    pose proof (half_pos p Hp odd'). rewrite (eqm_pow p q (r * h_z c)) by (auto; lia). rewrite Z.pow_mul_l. rewrite E, (nonsquare_pow p Hp odd' p34 _ NZ). mring.
Qed.

Lemma mod_range z : 0 <= z mod p < p. Proof. apply Z.mod_pos_bound. pose proof pp. lia. Qed.
Lemma neg_range y : 0 <= y < p -> 0 <= (p - y) mod p < p /\ eqm p ((p - y) mod p) (- y) /\ ((p - y) mod p = 0 \/ Z.odd ((p - y) mod p) = negb (Z.odd y)).
Proof.
  intros Y. split; [apply mod_range|]. split.
  - rewrite eqm_mod. transitivity (0 - y); [|mring]. apply eqm_sub; [|reflexivity]. constructor. rewrite Z_mod_same_full, Z.mod_0_l by lia. reflexivity.
  - destruct (Z.eq_dec y 0) as [->|NY]; [left; rewrite Z.sub_0_r; apply Z_mod_same_full|]. right. rewrite Z.mod_small by lia. rewrite Z.odd_sub.
    replace (Z.odd p) with true; [reflexivity|]. pose proof (p_odd p Hp odd') as O. rewrite Zmod_odd in O. destruct (Z.odd p); [reflexivity|discriminate].
Qed.

Theorem sswu_ok ubuf : ubuf <> [] -> Forall (fun z => 0 <= z < 256) ubuf -> exists x y x1,
  map_sswu c ubuf = Val (x, y) /\ 0 <= x < p /\ 0 <= y < p /\
  (let t := h_z c * be_value ubuf * be_value ubuf in
   (eqm p (t * t + t) 0 /\ eqm p (x1 * h_z c * h_a c) (h_b c) \/ ~ eqm p (t * t + t) 0 /\ eqm p (x1 * h_a c * (t * t + t)) (- h_b c * (t * t + t + 1))) /\
   (square p (rhs c x1) /\ eqm p x x1 \/ ~ square p (rhs c x1) /\ eqm p x (t * x1))) /\
  eqm p (y * y) (rhs c x) /\ (y = 0 \/ Z.odd y = Z.odd (be_value ubuf)).
Proof.
  intros NE BY. pose proof pp as P. pose proof good as GD. destruct GD as (_ & _ & _ & NA & NZ & xe & XE & XS). fold p in NA, NZ, XE, XS.
  assert (NZ0 : ~ eqm p (h_z c) 0). { intros K. apply NZ. exists 0. rewrite K. mring. }
  unfold map_sswu. fold p. replace (length ubuf =? 0)%nat with false by (destruct ubuf; [destruct NE; reflexivity|reflexivity]).
  pose proof (be_value_nonneg ubuf BY) as U0. set (u := be_value ubuf) in *. cbv zeta. clearbody u.
  set (t := (((u * u) mod p) * h_z c) mod p). assert (T : eqm p t (h_z c * u * u)). { unfold t. rewrite !eqm_mod. mring. } clearbody t.
  set (d := ((t * t) mod p + t) mod p). assert (D : eqm p d (t * t + t)) by (unfold d; rewrite !eqm_mod; reflexivity).
  assert (DR : 0 <= d < p) by apply mod_range. clearbody d.
  set (n := (((d + 1) mod p) * h_b c) mod p). assert (En : eqm p n (h_b c * (d + 1))) by (unfold n; rewrite !eqm_mod; mring).
  set (q := ((if negb (d =? 0) then (p - d) mod p else h_z c) * h_a c) mod p).
  assert (Q : d = 0 /\ eqm p q (h_z c * h_a c) \/ ~ eqm p d 0 /\ eqm p q (- d * h_a c)).
  { unfold q. destruct (Z.eqb_spec d 0) as [E|E]; cbn [negb]; [left|right]; split; auto.
    - apply eqm_mod.
    - intros K. apply E. apply (eqm_small p); auto. lia.
    - rewrite eqm_mod. rewrite (proj1 (proj2 (neg_range d DR))). reflexivity. }
  assert (NQ : ~ eqm p q 0).
  { destruct Q as [[_ Q]|[ND Q]]; rewrite Q; apply mul_nonzero; auto. intros K. apply ND. transitivity (- - d); [mring|]. rewrite K. mring. }
  clearbody n q.
  set (q3 := (((q * q) mod p) * q) mod p). assert (Q3 : eqm p q3 (q * q * q)) by (unfold q3; rewrite !eqm_mod; reflexivity).
  set (w := _ : Z). assert (W : eqm p w (n * n * n + h_a c * n * (q * q) + h_b c * (q * q * q))).
  { unfold w. rewrite !eqm_mod, Q3. mring. } clearbody w.
  assert (NQ3 : ~ eqm p q3 0) by (rewrite Q3; repeat apply mul_nonzero; auto). clearbody q3.
  destruct (sqrt_ratio_ok w q3 NQ3) as (r & s & y1 & SR & R & Y1 & CS). rewrite SR. cbn [bind].
  destruct (invert_mod_prime q p Hp NQ) as (i & I). destruct (invert_mod_some _ _ _ I) as [_ J]. unfold invert. rewrite I. cbn [bind].
  set (x1 := n * i). assert (X1 : eqm p (x1 * q) n). { unfold x1. transitivity (n * (q * i)); [mring|]. rewrite J. mring. }
  assert (G : eqm p (rhs c x1) r).
  { apply (eqm_prime_cancel p _ _ q3 Hp NQ3). rewrite R, W, Q3. unfold rhs. transitivity ((x1 * q) * (x1 * q) * (x1 * q) + h_a c * (x1 * q) * (q * q) + h_b c * (q * q * q)); [mring|].
    rewrite X1. reflexivity. }
  assert (XC : eqm p (d) 0 /\ eqm p (x1 * h_z c * h_a c) (h_b c) \/ ~ eqm p d 0 /\ eqm p (x1 * h_a c * d) (- h_b c * (d + 1))).
  { destruct Q as [[D0 Q]|[ND Q]]; [left|right].
    - split; [rewrite D0; reflexivity|]. transitivity (x1 * (h_z c * h_a c)); [mring|]. rewrite <- Q, X1, En, D0. mring.
    - split; [exact ND|]. transitivity (- (x1 * (- d * h_a c))); [mring|]. rewrite <- Q, X1, En. mring. }
  assert (XC' : let t := h_z c * u * u in eqm p (t * t + t) 0 /\ eqm p (x1 * h_z c * h_a c) (h_b c) \/ ~ eqm p (t * t + t) 0 /\ eqm p (x1 * h_a c * (t * t + t)) (- h_b c * (t * t + t + 1))).
  { cbv zeta. rewrite <- T, <- D. exact XC. }
  set (yy := if s then y1 else _). set (xx := if s then n else _).
  assert (YR : 0 <= yy < p) by (unfold yy; destruct s; [exact Y1|apply mod_range]).
  assert (X : (square p (rhs c x1) /\ eqm p (xx * i) x1 \/ ~ square p (rhs c x1) /\ eqm p (xx * i) (t * x1)) /\ eqm p (yy * yy) (rhs c (xx * i))).
  { destruct CS as [[-> Y]|(-> & NS & Y)]; unfold xx, yy; clear xx yy YR.
    - split; [left; split; [exists y1; rewrite G; exact Y|reflexivity]|]. fold x1. rewrite G. exact Y.
    - assert (NS' : ~ square p (rhs c x1)). { intros (w' & W'). apply NS. exists w'. rewrite W'. exact G. }
      assert (EX : eqm p ((t * n) mod p * i) (t * x1)) by (rewrite eqm_mod; unfold x1; mring).
      split; [right; split; [exact NS'|exact EX]|]. rewrite (rhs_eqm _ _ EX).
      destruct XC as [[D0 XC]|[ND XC]].
      + exfalso. apply NS'. destruct XS as (w' & W'). exists w'. rewrite W'. apply rhs_eqm. apply (eqm_prime_cancel p _ _ (h_z c * h_a c) Hp).
        * apply mul_nonzero; auto.
        * transitivity (xe * h_z c * h_a c); [mring|]. rewrite XE, <- XC. mring.
      + transitivity (t * t * (u * u) * (y1 * y1)); [rewrite !eqm_mod; mring|]. rewrite Y. transitivity (t * t * (h_z c * u * u) * r); [mring|]. rewrite <- T, <- G. unfold rhs.
        apply eqm_sub0. transitivity (- (x1 * h_a c * (t * t + t) * (1 - t) + h_b c * (1 - t * t * t))); [mring|]. rewrite <- D, XC, D. mring. }
  destruct X as [X Y]. clearbody xx yy. rewrite !sgn0_odd by lia.
  exists ((xx * i) mod p). exists (if negb (Bool.eqb (Z.odd u) (Z.odd yy)) then (p - yy) mod p else yy), x1.
  split; [reflexivity|]. split; [apply mod_range|]. destruct (neg_range yy YR) as (NR & NM & NO).
  split; [destruct (negb (Bool.eqb (Z.odd u) (Z.odd yy))); [exact NR|exact YR]|].
  split; [cbv zeta; split; [exact XC'|rewrite <- T, eqm_mod; exact X]|].
  assert (Y' : eqm p (yy * yy) (rhs c ((xx * i) mod p))) by (rewrite Y; apply rhs_eqm; symmetry; apply eqm_mod).
  destruct (Bool.eqb (Z.odd u) (Z.odd yy)) eqn:B; cbn [negb].
  - split; [exact Y'|]. right. apply Bool.eqb_prop in B. congruence.
  - split; [rewrite NM, <- Y'; mring|]. destruct NO as [NO|NO]; [left; exact NO|right]. rewrite NO. apply Bool.eqb_false_iff in B. destruct (Z.odd u), (Z.odd yy); cbn; congruence.
Qed.
End Sswu.
