(* Properties of the libsodium groups. *)
From Coq Require Import ZArith Znumtheory List Bool Lia Field Field_theory QArith Qcanon.
From Verif Require Import LinCodeModel EcMul SafePrimeProof SodiumModel.
Import ListNotations.
Local Open Scope Z_scope.

Section Coordinates.
(* The field, and what the library's functions on limbs compute in it. *)
Variable F : Type.
Variables (f0 f1 : F) (fadd fmul fsub fdiv : F -> F -> F) (fopp finv : F -> F).
Hypothesis Fth : field_theory f0 f1 fadd fmul fsub fopp fdiv finv (@eq F).
Add Field Ffield : Fth.
Notation "a +' b" := (fadd a b) (at level 50, left associativity).
Notation "a -' b" := (fsub a b) (at level 50, left associativity).
Notation "a *' b" := (fmul a b) (at level 40, left associativity).
Notation "a /' b" := (fdiv a b) (at level 40, left associativity).

Variable R : Type.
Variable val : R -> F.
Variable r_one : R.
Variables (rmul : R -> R -> R) (rneg rinv : R -> R).
Variable iszero : R -> bool.
Variables limbs_eqb bytes_eqb : R -> R -> bool.
Hypothesis val_one : val r_one = f1.
Hypothesis val_mul : forall a b, val (rmul a b) = val a *' val b.
Hypothesis val_neg : forall a, val (rneg a) = fopp (val a).
Hypothesis val_inv : forall a, val a <> f0 -> val (rinv a) = finv (val a).
Hypothesis iszero_iff : forall a, iszero a = true <-> val a = f0.
Hypothesis limbs_sound : forall a b, limbs_eqb a b = true -> val a = val b.
Hypothesis bytes_iff : forall a b, bytes_eqb a b = true <-> val a = val b.

Variable d : F.
(* The point (x, y) of a representation. *)
Definition ax (p : p3 R) : F := val (pX p) /' val (pZ p).
Definition ay (p : p3 R) : F := val (pY p) /' val (pZ p).
Definition same_point (p q : p3 R) : Prop := ax p = ax q /\ ay p = ay q.
Definition curve_eq (x y : F) : Prop := y *' y -' x *' x = f1 +' d *' x *' x *' y *' y.
Definition well_formed (p : p3 R) : Prop :=
  val (pZ p) <> f0 /\ val (pX p) *' val (pY p) = val (pZ p) *' val (pT p).
Definition valid (p : p3 R) : Prop := well_formed p /\ curve_eq (ax p) (ay p).
(* The only point with x = 0 is the neutral one: so in the prime order
   subgroup. *)
Definition no_order_two (p : p3 R) : Prop := ax p = f0 -> ay p = f1.

Notation is_infinity := (is_infinity R iszero).
Notation point_equal := (point_equal R rmul iszero limbs_eqb bytes_eqb).
Notation negate := (negate R rneg iszero).
Notation negate_inplace := (negate_inplace R rneg iszero).
Notation get_affine := (get_affine R rmul rinv).

Lemma f1_neq : f1 <> f0.
Proof. exact (F_1_neq_0 Fth). Qed.

Lemma fopp_neq z : z <> f0 -> fopp z <> f0.
Proof.
  intros H E. apply H. transitivity (fopp (fopp z)); [ring|]. rewrite E. ring.
Qed.

Lemma cancel z a : z <> f0 -> a *' z = f0 -> a = f0.
Proof.
  intros Hz H. transitivity (a *' z /' z); [field; exact Hz|]. rewrite H. field. exact Hz.
Qed.

Lemma infinity_iff p : val (pZ p) <> f0 -> (is_infinity p = true <-> ax p = f0).
Proof.
  intros Hz. unfold SodiumModel.is_infinity, ax. rewrite orb_true_iff, !iszero_iff. split.
  - intros [E | E]; [|contradiction]. rewrite E. field. exact Hz.
  - intros E. left.
    transitivity (val (pX p) /' val (pZ p) *' val (pZ p)); [field; exact Hz|].
    rewrite E. ring.
Qed.

(* GetAffinePoint returns the coordinates. *)
Theorem get_affine_correct p :
  val (pZ p) <> f0 ->
  val (fst (get_affine p)) = ax p /\ val (snd (get_affine p)) = ay p.
Proof.
  intros Hz. unfold SodiumModel.get_affine, ax, ay. cbn [fst snd].
  rewrite !val_mul, val_inv by exact Hz. split; field; exact Hz.
Qed.

(* Negate and NegateInplace give (-x, y), and keep the form of the point. *)
Theorem ed_negate_correct p :
  well_formed p ->
  ax (negate p) = fopp (ax p) /\ ay (negate p) = ay p /\
  well_formed (negate p) /\ (valid p -> valid (negate p)) /\
  negate_inplace p = negate p.
Proof.
  intros (Hz & HT).
  assert (A : ax (negate p) = fopp (ax p) /\ ay (negate p) = ay p /\ well_formed (negate p)).
  { unfold SodiumModel.negate. destruct (is_infinity p) eqn:I.
    - apply (infinity_iff p Hz) in I. rewrite I.
      split; [ring|]. split; [reflexivity|]. split; assumption.
    - unfold ax, ay, well_formed. cbn [pX pY pZ pT]. rewrite !val_neg.
      split; [field; auto using fopp_neq|]. split; [field; auto using fopp_neq|].
      split; [auto using fopp_neq|].
      transitivity (fopp (val (pX p) *' val (pY p))); [ring|]. rewrite HT. ring. }
  destruct A as (A1 & A2 & A3).
  split; [exact A1|]. split; [exact A2|]. split; [exact A3|]. split; [|reflexivity].
  intros (_ & C). split; [exact A3|]. unfold curve_eq in *. rewrite A1, A2.
  transitivity (ay p *' ay p -' ax p *' ax p); [ring|]. rewrite C. ring.
Qed.

(* PointEqual answers true only for one point, if neither point has order two. *)
Theorem point_equal_sound p q :
  val (pZ p) <> f0 -> val (pZ q) <> f0 -> no_order_two p -> no_order_two q ->
  point_equal p q = true -> same_point p q.
Proof.
  intros Hp Hq Np Nq. unfold SodiumModel.point_equal.
  destruct (is_infinity p && is_infinity q) eqn:I.
  - intros _. apply andb_prop in I. destruct I as [Ip Iq].
    apply (infinity_iff _ Hp) in Ip. apply (infinity_iff _ Hq) in Iq.
    split; [congruence|]. rewrite (Np Ip), (Nq Iq). reflexivity.
  - destruct (limbs_eqb (rmul (pX p) (pZ q)) (rmul (pZ p) (pX q))) eqn:L;
      [|discriminate]. cbn [negb]. intros B.
    apply limbs_sound in L. apply bytes_iff in B. rewrite !val_mul in L, B.
    unfold same_point, ax, ay. split.
    + transitivity (val (pX p) *' val (pZ q) /' (val (pZ p) *' val (pZ q)));
        [field; auto|]. rewrite L. field. auto.
    + transitivity (val (pY p) *' val (pZ q) /' (val (pZ p) *' val (pZ q)));
        [field; auto|]. rewrite B. field. auto.
Qed.

(* And it finds every equal pair when products have one form in limbs. *)
Theorem point_equal_complete p q :
  (forall a b a' b', val (rmul a b) = val (rmul a' b') ->
     limbs_eqb (rmul a b) (rmul a' b') = true) ->
  val (pZ p) <> f0 -> val (pZ q) <> f0 -> same_point p q -> point_equal p q = true.
Proof.
  intros HC Hp Hq (Ex & Ey). unfold SodiumModel.point_equal.
  destruct (is_infinity p && is_infinity q); [reflexivity|].
  assert (K : forall a b, a /' val (pZ p) = b /' val (pZ q) -> a *' val (pZ q) = val (pZ p) *' b).
  { intros a b E.
    transitivity (a /' val (pZ p) *' (val (pZ p) *' val (pZ q))); [field; exact Hp|].
    rewrite E. field. exact Hq. }
  rewrite HC by (rewrite !val_mul; apply K; exact Ex). cbn [negb].
  apply bytes_iff. rewrite !val_mul. apply K. exact Ey.
Qed.

(* Equal points have equal hashes. *)
Theorem equal_points_hash {H : Type} (hb : R -> H) p q :
  (forall a b, val a = val b -> hb a = hb b) ->
  val (pZ p) <> f0 -> val (pZ q) <> f0 ->
  point_equal p q = true ->
  hash_point R rmul rinv hb p = hash_point R rmul rinv hb q.
Proof.
  intros HB Hp Hq E. unfold hash_point. apply HB.
  rewrite (proj1 (get_affine_correct p Hp)), (proj1 (get_affine_correct q Hq)).
  unfold SodiumModel.point_equal in E.
  destruct (is_infinity p && is_infinity q) eqn:I.
  - apply andb_prop in I. destruct I as [Ip Iq].
    apply (infinity_iff _ Hp) in Ip. apply (infinity_iff _ Hq) in Iq. congruence.
  - destruct (limbs_eqb (rmul (pX p) (pZ q)) (rmul (pZ p) (pX q))) eqn:L; [|discriminate].
    apply limbs_sound in L. rewrite !val_mul in L. unfold ax.
    transitivity (val (pX p) *' val (pZ q) /' (val (pZ p) *' val (pZ q)));
      [field; auto|]. rewrite L. field. auto.
Qed.

(* "PointEqual answers true only for one point" is false on the whole curve: the
   neutral point and the point of order two are called equal, and the latter is
   called infinity. *)
Theorem point_equal_refuted (r_zero : R) :
  val r_zero = f0 -> f1 <> fopp f1 ->
  exists p q, valid p /\ valid q /\ ~ same_point p q /\
              is_infinity q = true /\ ay q = fopp f1 /\ point_equal p q = true.
Proof.
  intros H0 H1.
  exists (mkP3 r_zero r_one r_one r_zero), (mkP3 r_zero (rneg r_one) r_one r_zero).
  assert (Iz : iszero r_zero = true) by (apply iszero_iff; exact H0).
  assert (N := f1_neq).
  unfold valid, well_formed, same_point, curve_eq, ax, ay.
  unfold SodiumModel.point_equal, SodiumModel.is_infinity.
  cbn [pX pY pZ pT]. rewrite Iz, H0, !val_neg, !val_one. cbn [orb andb].
  split; [split; [split; [exact N|ring]|field; exact N]|].
  split; [split; [split; [exact N|ring]|field; exact N]|].
  split.
  - intros [_ E]. apply H1. transitivity (f1 /' f1); [field; exact N|]. rewrite E.
    field. exact N.
  - split; [reflexivity|]. split; [field; exact N|reflexivity].
Qed.

Variable on_curve : p3 R -> bool.
Hypothesis on_curve_iff : forall p, well_formed p ->
  (on_curve p = true <-> curve_eq (ax p) (ay p)).
Notation copy_affine := (copy_affine R r_one rmul iszero on_curve).

(* CopyPoint of an affine point with x <> 0 accepts exactly the points of the
   curve. *)
Theorem copy_affine_correct x y :
  val x <> f0 ->
  (curve_eq (val x) (val y) ->
     exists p, copy_affine (x, y) = Val p /\ valid p /\ ax p = val x /\ ay p = val y) /\
  (~ curve_eq (val x) (val y) -> copy_affine (x, y) = Thrown).
Proof.
  intros Hx. assert (N := f1_neq).
  set (p := mkP3 x y r_one (rmul x y)).
  assert (W : well_formed p).
  { unfold well_formed, p. cbn [pX pY pZ pT]. rewrite val_one, val_mul.
    split; [exact N|ring]. }
  assert (Ax : ax p = val x) by (unfold ax, p; cbn [pX pZ]; rewrite val_one; field; exact N).
  assert (Ay : ay p = val y) by (unfold ay, p; cbn [pY pZ]; rewrite val_one; field; exact N).
  assert (I : is_infinity p = false).
  { destruct (is_infinity p) eqn:I; [|reflexivity].
    apply infinity_iff in I; [congruence|apply W]. }
  unfold SodiumModel.copy_affine, is_in_curve_group. cbn [fst snd]. fold p. rewrite I.
  cbn [orb]. assert (O := on_curve_iff p W). rewrite Ax, Ay in O. split.
  - intros C. exists p. rewrite (proj2 O C). unfold valid. rewrite Ax, Ay. auto.
  - intros C. destruct (on_curve p); [|reflexivity]. exfalso. tauto.
Qed.

(* With x = 0 anything is accepted: (0, 0) is not on the curve. *)
Theorem copy_affine_refuted (r_zero : R) :
  val r_zero = f0 ->
  exists xy p, copy_affine xy = Val p /\ well_formed p /\ ~ curve_eq (ax p) (ay p).
Proof.
  intros H0. exists (r_zero, r_zero). assert (N := f1_neq).
  unfold SodiumModel.copy_affine, is_in_curve_group, SodiumModel.is_infinity.
  cbn [fst snd pX]. rewrite (proj2 (iszero_iff r_zero) H0). cbn [orb].
  eexists. split; [reflexivity|].
  unfold well_formed, curve_eq, ax, ay. cbn [pX pY pZ pT].
  rewrite val_one, val_mul, H0. split; [split; [exact N|ring]|].
  intros E. apply N. transitivity (f1 +' d *' (f0 /' f1) *' (f0 /' f1) *' (f0 /' f1) *' (f0 /' f1)).
  { field. exact N. }
  rewrite <- E. field. exact N.
Qed.

(* DeserializePoint reads past the end of a short buffer, and takes whatever the
   library leaves behind when it rejects the bytes. *)
Theorem deserialize_short frombytes buf :
  (length buf < 32)%nat -> deserialize R frombytes buf = OutOfBounds.
Proof.
  intros H. unfold deserialize. destruct (Nat.ltb_spec (length buf) 32); [reflexivity|lia].
Qed.
Theorem deserialize_rejected frombytes buf p :
  (32 <= length buf)%nat -> frombytes (firstn 32 buf) = (p, -1) ->
  deserialize R frombytes buf = Val p.
Proof.
  intros H E. unfold deserialize. destruct (Nat.ltb_spec (length buf) 32); [lia|].
  rewrite E. reflexivity.
Qed.

End Coordinates.

(* ---- Scalars ---- *)

Section Scalars.
Variable G : Type.
Variable on : G -> Prop.
Variables (e : G) (op : G -> G -> G) (iv : G -> G).
Hypothesis on_e : on e.
Hypothesis on_op : forall x y, on x -> on y -> on (op x y).
Hypothesis on_iv : forall x, on x -> on (iv x).
Hypothesis e_l : forall x, on x -> op e x = x.
Hypothesis comm : forall x y, on x -> on y -> op x y = op y x.
Hypothesis assoc : forall x y z, on x -> on y -> on z -> op (op x y) z = op x (op y z).
Hypothesis iv_r : forall x, on x -> op x (iv x) = e.
Notation zmul := (zmul G e op iv).

Variable Pt : Type.
Variable L : ge_lib Pt.
Notation is_inf := (is_inf L).
Notation ge_add := (ge_add L).
Notation ge_sub := (ge_sub L).
Notation ge_scalarmult := (ge_scalarmult L).
Notation ge_scalarmult_base := (ge_scalarmult_base L).
Variable order : Z.
Variable base : G.
(* [repr p g]: the coordinates p stand for the group element g. *)
Variable repr : Pt -> G -> Prop.
Hypothesis order_odd : 0 < order /\ Z.odd order = true.
Hypothesis order_small : order <= 2 ^ 255.
Hypothesis repr_on : forall p g, repr p g -> on g.
Hypothesis add_ok : forall p q g h, repr p g -> repr q h -> repr (ge_add p q) (op g h).
Hypothesis sub_ok : forall p q g h, repr p g -> repr q h -> repr (ge_sub p q) (op g (iv h)).
Hypothesis mul_ok : forall k p g, 0 <= k < 2 ^ 255 -> repr p g ->
  repr (ge_scalarmult k p) (zmul k g).
Hypothesis mul_base_ok : forall k, 0 <= k < 2 ^ 255 -> repr (ge_scalarmult_base k) (zmul k base).
Hypothesis base_on : on base.
Hypothesis base_order : zmul order base = e.
Hypothesis order_gt1 : 1 < order.
(* The points with x = 0 are the neutral one and the one of order two. *)
Hypothesis inf_two : forall p g, repr p g -> is_inf p = true -> op g g = e.

Notation ed_mul := (ed_mul Pt L order).
Notation ed_mul_inplace := (ed_mul_inplace Pt L order).
Notation ed_mul_base := (ed_mul_base Pt L order).
Notation ed_inf := (ed_inf Pt L).
Notation ed_mul_double_base := (ed_mul_double_base Pt L order).

Lemma inf_repr : repr ed_inf e.
Proof.
  unfold SodiumModel.ed_inf, ed_g.
  assert (B : repr (ge_scalarmult_base 1) (zmul 1 base)) by (apply mul_base_ok; lia).
  rewrite <- (iv_r (zmul 1 base)) by (eapply repr_on; exact B).
  apply sub_ok; exact B.
Qed.

Lemma two_order g : on g -> op g g = e -> zmul order g = e -> g = e.
Proof.
  intros Hg H2 Hn. destruct order_odd as [Hp Ho].
  apply Z.odd_spec in Ho. destruct Ho as [m Hm].
  rewrite Hm in Hn.
  assert (E2 : zmul 2 g = e).
  { replace 2 with (1 + 1) by lia.
    rewrite (zmul_add G on e op iv) by auto.
    rewrite (zmul_1 G on e op iv) by auto. exact H2. }
  rewrite (zmul_add G on e op iv) in Hn by auto.
  rewrite (Z.mul_comm 2 m) in Hn.
  rewrite (zmul_mul G on e op iv) in Hn by auto. rewrite E2 in Hn.
  rewrite (zmul_e G on e op iv) in Hn by auto.
  rewrite (zmul_1 G on e op iv) in Hn by auto.
  rewrite e_l in Hn by auto. exact Hn.
Qed.

(* Mul, MulInplace, MulBase and MulDoubleBase are integer multiples, for every
   integer and every point of the subgroup. *)
Theorem ed_mul_correct p g s :
  repr p g -> zmul order g = e ->
  repr (ed_mul p s) (zmul s g) /\ ed_mul_inplace p s = ed_mul p s.
Proof.
  intros Hr Hn. split; [|reflexivity]. assert (Hg := repr_on _ _ Hr).
  assert (M : zmul (s mod order) g = zmul s g) by (apply (zmul_mod G on); auto; lia).
  assert (B : 0 <= s mod order < order) by (apply Z.mod_pos_bound; lia).
  unfold SodiumModel.ed_mul, reduce.
  destruct (Z.ltb_spec 0 (s mod order)) as [Hk|Hk]; cbn [negb orb].
  - destruct (is_inf p) eqn:I.
    + assert (E : g = e) by (apply two_order; auto; apply (inf_two p); assumption).
      subst g. rewrite (zmul_e G on e op iv) by auto. apply inf_repr.
    + rewrite <- M. apply mul_ok; [lia|exact Hr].
  - rewrite <- M. replace (s mod order) with 0 by lia. apply inf_repr.
Qed.

Theorem ed_mul_base_correct s : repr (ed_mul_base s) (zmul s base).
Proof.
  assert (M : zmul (s mod order) base = zmul s base) by (apply (zmul_mod G on); auto; lia).
  assert (B : 0 <= s mod order < order) by (apply Z.mod_pos_bound; lia).
  unfold SodiumModel.ed_mul_base, reduce.
  destruct (Z.ltb_spec 0 (s mod order)) as [Hk|Hk]; cbn [negb].
  - rewrite <- M. apply mul_base_ok. lia.
  - rewrite <- M. replace (s mod order) with 0 by lia. apply inf_repr.
Qed.

Theorem ed_mul_double_base_correct s1 s2 p g :
  repr p g -> zmul order g = e ->
  repr (ed_mul_double_base s1 s2 p) (op (zmul s1 base) (zmul s2 g)).
Proof.
  intros Hr Hn. unfold SodiumModel.ed_mul_double_base.
  apply add_ok; [apply ed_mul_base_correct|apply ed_mul_correct; assumption].
Qed.

Theorem ed_double_correct p g :
  repr p g -> repr (ed_double Pt L p) (zmul 2 g).
Proof.
  intros Hr. assert (Hg := repr_on _ _ Hr). unfold ed_double.
  replace 2 with (1 + 1) by lia.
  rewrite (zmul_add G on e op iv) by auto. rewrite !(zmul_1 G on e op iv) by auto.
  apply add_ok; exact Hr.
Qed.

(* Outside the subgroup it is false: a point of order two called infinity is
   mapped to the neutral point by 1. *)
Theorem ed_mul_order_two p g :
  repr p g -> is_inf p = true -> repr (ed_mul p 1) e.
Proof.
  intros Hr I. unfold SodiumModel.ed_mul, reduce. rewrite I, orb_true_r. apply inf_repr.
Qed.

End Scalars.

(* ---- Compressed points ---- *)

Section Compressed.
Variable p d : Z.
Variable inv : Z -> Z.
Hypothesis p_prime : prime p.
Hypothesis p_five : p mod 8 = 5.
(* 2 is not a square, and dy^2 + 1 has an inverse (d is not a square). *)
Hypothesis two_nonsquare : (p | 2 ^ ((p - 1) / 2) + 1).
Hypothesis inv_ok : forall y, (p | (d * (y * y) + 1) * inv (d * (y * y) + 1) - 1).
Definition curve_p (x y : Z) : Prop := (p | y * y - x * x - (1 + d * (x * x) * (y * y))).
Notation decompress := (decompress p d inv).

Lemma p_big : 5 <= p.
Proof. assert (G := prime_ge_2 p p_prime). assert (M := Z.mod_le p 8). lia. Qed.
Lemma p_odd : Z.odd p = true.
Proof.
  rewrite (Z.div_mod p 8), p_five by lia.
  replace (8 * (p / 8) + 5) with (1 + 2 * (4 * (p / 8) + 2)) by lia.
  apply Z.odd_add_mul_2.
Qed.

Lemma mod_div a : a mod p = 0 <-> (p | a).
Proof. apply Z.mod_divide. assert (B := p_big). lia. Qed.

Lemma mod_sub a : (p | a mod p - a).
Proof.
  assert (B := p_big). exists (- (a / p)). rewrite (Z.div_mod a p) at 2 by lia. lia.
Qed.

(* x^2 = x2 is the curve equation. *)
Lemma curve_iff x y :
  curve_p x y <-> (p | x * x - (y * y - 1) * inv (d * (y * y) + 1)).
Proof.
  destruct (inv_ok y) as [k Hk]. set (i := inv (d * (y * y) + 1)) in *.
  set (D := d * (y * y) + 1) in *. unfold curve_p.
  replace (y * y - x * x - (1 + d * (x * x) * (y * y))) with ((y * y - 1) - x * x * D)
    by (unfold D; ring).
  split.
  - intros [m Hm]. exists (- m * i - x * x * k).
    replace (x * x - (y * y - 1) * i) with
      (- ((y * y - 1) - x * x * D) * i - x * x * (D * i - 1)) by ring.
    rewrite Hm, Hk. ring.
  - intros [m Hm]. exists (- m * D - (y * y - 1) * k).
    replace (y * y - 1 - x * x * D) with
      (- (x * x - (y * y - 1) * i) * D - (y * y - 1) * (D * i - 1)) by ring.
    rewrite Hm, Hk. ring.
Qed.

Lemma flip_parity x : Z.odd (p - x) = negb (Z.odd x).
Proof. rewrite Z.odd_sub, p_odd. reflexivity. Qed.

(* What is accepted lies on the curve, with the parity asked for. *)
Theorem decompress_sound s y x y' :
  decompress s y = Val (x, y') ->
  y' = y /\ y < p /\ 0 <= x <= p /\ curve_p x y /\ Z.odd x = s.
Proof.
  assert (B := p_big). unfold SodiumModel.decompress.
  destruct (Z.ltb_spec y p) as [Hy|Hy]; cbn [negb]; [|discriminate]. cbv zeta.
  set (x2 := (y * y - 1) * inv (d * (y * y) + 1)).
  destruct (Z.eqb_spec x2 0) as [E|E].
  - destruct s; [discriminate|]. intros Q.
    assert (Qx := f_equal (fun o => match o with Val v => fst v | _ => x end) Q).
    assert (Qy := f_equal (fun o => match o with Val v => snd v | _ => y end) Q).
    cbn [fst snd] in Qx, Qy. subst x y'.
    split; [reflexivity|]. split; [exact Hy|]. split; [lia|]. split; [|reflexivity].
    apply curve_iff. fold x2. rewrite E. exists 0. reflexivity.
  - set (c := powmod p x2 ((p + 3) / 8)).
    set (r := if (c * c - x2) mod p =? 0 then c else c * powmod p 2 ((p - 1) / 4) mod p).
    assert (R : 0 <= r < p).
    { unfold r. destruct ((c * c - x2) mod p =? 0);
        [unfold c, powmod|]; apply Z.mod_pos_bound; lia. }
    destruct (Z.eqb_spec ((r * r - x2) mod p) 0) as [Z0|Z0]; cbn [negb]; [|discriminate].
    apply mod_div in Z0. intros Q.
    assert (Qx := f_equal (fun o => match o with Val v => fst v | _ => x end) Q).
    assert (Qy := f_equal (fun o => match o with Val v => snd v | _ => y end) Q).
    cbn [fst snd] in Qx, Qy. clear Q. rewrite <- Qx. rewrite <- Qy.
    split; [reflexivity|]. split; [exact Hy|].
    destruct (Bool.eqb (Z.odd r) s) eqn:P.
    + apply Bool.eqb_prop in P. split; [lia|]. split; [|exact P].
      apply curve_iff. exact Z0.
    + apply Bool.eqb_false_iff in P. split; [lia|].
      split; [|rewrite flip_parity; revert P; destruct (Z.odd r), s; intros P; auto; now elim P].
      apply curve_iff. fold x2. destruct Z0 as [m Hm]. exists (m + (p - 2 * r)).
      replace ((p - r) * (p - r) - x2) with ((r * r - x2) + (p - 2 * r) * p) by ring.
      rewrite Hm. ring.
Qed.

Lemma pow_cong a b e : (p | a - b) -> (p | a ^ e - b ^ e).
Proof.
  intros H. destruct (Z.le_gt_cases 0 e) as [He|He].
  - revert e He. apply natlike_ind.
    + exists 0. rewrite !Z.pow_0_r. reflexivity.
    + intros e He (m & Hm). destruct H as (k & Hk).
      rewrite !Z.pow_succ_r by exact He. exists (k * a ^ e + b * m).
      replace (a * a ^ e - b * b ^ e) with ((a - b) * a ^ e + b * (a ^ e - b ^ e)) by ring.
      rewrite Hk, Hm. ring.
  - exists 0. rewrite !Z.pow_neg_r by exact He. reflexivity.
Qed.

Lemma fermat_div a : ~ (p | a) -> (p | a ^ (p - 1) - 1).
Proof.
  intros H. assert (B := p_big). apply ZpLib.eqm0_divide; [lia|]. apply ZpLib.eqm_sub0.
  apply fermat_little; [exact p_prime|]. rewrite ZpLib.eqm0_divide by lia. exact H.
Qed.

(* The candidate root: its square is x2 or -x2. *)
Lemma candidate_square x x2 :
  ~ (p | x) -> (p | x * x - x2) ->
  let c := powmod p x2 ((p + 3) / 8) in (p | c * c - x2) \/ (p | c * c + x2).
Proof.
  intros Hx H2 c. assert (B := p_big).
  set (e := (p + 3) / 8). assert (E8 : p + 3 = 8 * e).
  { unfold e. rewrite (Z.div_mod p 8), p_five by lia.
    replace (8 * (p / 8) + 5 + 3) with ((p / 8 + 1) * 8) by lia.
    rewrite Z.div_mul by lia. lia. }
  assert (He : 0 <= e) by lia.
  (* c = x^(2e), so c^4 = x^(p+3) = x^4 *)
  assert (C : (p | c - x ^ (2 * e))).
  { destruct (mod_sub (x2 ^ e)) as (k & Hk). destruct (pow_cong (x * x) x2 e H2) as (m & Hm).
    exists (k - m). unfold c, powmod. fold e.
    replace (x ^ (2 * e)) with ((x * x) ^ e)
      by (rewrite Z.pow_mul_r, Z.pow_2_r by lia; reflexivity).
    replace (x2 ^ e mod p - (x * x) ^ e) with
      ((x2 ^ e mod p - x2 ^ e) - ((x * x) ^ e - x2 ^ e)) by ring.
    rewrite Hk, Hm. ring. }
  assert (C4 : (p | c ^ 4 - x ^ 4)).
  { destruct (pow_cong _ _ 4 C) as (m & Hm). destruct (fermat_div x Hx) as (k & Hk).
    assert (Q : (x ^ (2 * e)) ^ 4 = x ^ (p - 1) * x ^ 4).
    { rewrite <- Z.pow_mul_r, <- Z.pow_add_r by lia. f_equal. lia. }
    rewrite Q in Hm. exists (m + k * x ^ 4).
    replace (c ^ 4 - x ^ 4) with ((c ^ 4 - x ^ (p - 1) * x ^ 4) + (x ^ (p - 1) - 1) * x ^ 4)
      by ring.
    rewrite Hm, Hk. ring. }
  apply prime_mult; [exact p_prime|].
  destruct C4 as (m & Hm). destruct H2 as (k & Hk).
  exists (m + k * (x * x + x2)).
  replace ((c * c - x2) * (c * c + x2)) with
    ((c ^ 4 - x ^ 4) + (x * x - x2) * (x * x + x2)) by ring.
  rewrite Hm, Hk. ring.
Qed.

Lemma sqrt_m1 : let i := powmod p 2 ((p - 1) / 4) in (p | i * i + 1).
Proof.
  assert (B := p_big). cbv zeta. set (e := (p - 1) / 4).
  assert (E4 : p - 1 = 4 * e).
  { unfold e. rewrite (Z.div_mod p 8), p_five by lia.
    replace (8 * (p / 8) + 5 - 1) with ((2 * (p / 8) + 1) * 4) by lia.
    rewrite Z.div_mul by lia. lia. }
  assert (E2 : (p - 1) / 2 = e + e).
  { rewrite E4. replace (4 * e) with ((e + e) * 2) by lia. apply Z.div_mul. lia. }
  destruct two_nonsquare as (k & Hk). rewrite E2, Z.pow_add_r in Hk by lia.
  destruct (mod_sub (2 ^ e)) as (m & Hm). unfold powmod.
  set (i := 2 ^ e mod p) in *. exists (m * (i + 2 ^ e) + k).
  replace (i * i + 1) with ((i - 2 ^ e) * (i + 2 ^ e) + (2 ^ e * 2 ^ e + 1)) by ring.
  rewrite Hm, Hk. ring.
Qed.

(* Every point of the curve with x <> 0 is recovered from y and the parity of x. *)
Theorem decompress_complete x y :
  0 < x < p -> 0 <= y < p -> curve_p x y -> decompress (Z.odd x) y = Val (x, y).
Proof.
  intros Hx Hy C. assert (B := p_big). apply curve_iff in C.
  assert (Nx : ~ (p | x)). { intros D. apply Z.divide_pos_le in D; lia. }
  unfold SodiumModel.decompress. destruct (Z.ltb_spec y p); [|lia]. cbn [negb]. cbv zeta.
  set (x2 := (y * y - 1) * inv (d * (y * y) + 1)) in *.
  destruct (Z.eqb_spec x2 0) as [E|E].
  { exfalso. rewrite E, Z.sub_0_r in C. apply prime_mult in C; [tauto|exact p_prime]. }
  set (c := powmod p x2 ((p + 3) / 8)).
  set (r := if (c * c - x2) mod p =? 0 then c else c * powmod p 2 ((p - 1) / 4) mod p).
  assert (R : 0 <= r < p).
  { unfold r. destruct ((c * c - x2) mod p =? 0);
      [unfold c, powmod|]; apply Z.mod_pos_bound; lia. }
  assert (S : (p | r * r - x2)).
  { unfold r. destruct (Z.eqb_spec ((c * c - x2) mod p) 0) as [Q|Q].
    - apply mod_div. exact Q.
    - destruct (candidate_square x x2 Nx C) as [K|K].
      + exfalso. apply Q. apply mod_div. exact K.
      + fold c in K. destruct sqrt_m1 as (k & Hk). set (i := powmod p 2 ((p - 1) / 4)) in *.
        destruct K as (m & Hm). destruct (mod_sub (c * i)) as (n & Hn).
        set (z := c * i mod p) in *.
        exists (n * (z + c * i) + c * c * k - m).
        replace (z * z - x2) with
          ((z - c * i) * (z + c * i) + c * c * (i * i + 1) - (c * c + x2)) by ring.
        rewrite Hn, Hk, Hm. ring. }
  replace ((r * r - x2) mod p) with 0 by (symmetry; apply mod_div; exact S).
  cbn [Z.eqb negb]. do 2 f_equal.
  assert (D : (p | r - x) \/ (p | r + x)).
  { apply prime_mult; [exact p_prime|].
    replace ((r - x) * (r + x)) with ((r * r - x2) - (x * x - x2)) by ring.
    apply Z.divide_sub_r; assumption. }
  destruct D as [(m & Hm) | (m & Hm)].
  - assert (m = 0) by nia. assert (r = x) as -> by lia.
    rewrite Bool.eqb_reflx. reflexivity.
  - assert (m = 1) by nia. assert (r = p - x) as -> by lia.
    rewrite flip_parity. destruct (Z.odd x); cbn [negb Bool.eqb]; lia.
Qed.

(* y = 1 with the sign bit is refused. *)
Theorem decompress_one : decompress false 1 = Val (0, 1) /\ decompress true 1 = Thrown.
Proof.
  assert (B := p_big). unfold SodiumModel.decompress.
  destruct (Z.ltb_spec 1 p); [|lia]. split; reflexivity.
Qed.

(* "x = 0 with the sign bit is refused" is false: y = p - 1 is accepted with x = p,
   because the test for zero is made before the reduction.  So the point (0, -1)
   has two encodings. *)
Theorem decompress_sign_refuted :
  decompress true (p - 1) = Val (p, p - 1) /\ decompress false (p - 1) = Val (0, p - 1).
Proof.
  assert (B := p_big). unfold SodiumModel.decompress.
  destruct (Z.ltb_spec (p - 1) p); [|lia]. cbn [negb]. cbv zeta.
  assert (I := inv_ok (p - 1)).
  set (i := inv (d * ((p - 1) * (p - 1)) + 1)) in *.
  set (x2 := ((p - 1) * (p - 1) - 1) * i).
  assert (Ni : i <> 0).
  { intros Q. rewrite Q, Z.mul_0_r in I. apply Z.divide_opp_r in I.
    apply Z.divide_pos_le in I; lia. }
  assert (Nx : x2 <> 0).
  { unfold x2. replace ((p - 1) * (p - 1) - 1) with (p * (p - 2)) by ring.
    intros Q. apply Z.mul_eq_0 in Q. destruct Q as [Q|Q]; [|contradiction].
    apply Z.mul_eq_0 in Q. lia. }
  assert (Dx : (p | x2)). { exists ((p - 2) * i). unfold x2. ring. }
  assert (Pw : powmod p x2 ((p + 3) / 8) = 0).
  { unfold powmod. apply mod_div.
    assert (1 <= (p + 3) / 8) by (apply Z.div_le_lower_bound; lia).
    replace ((p + 3) / 8) with (Z.succ ((p + 3) / 8 - 1)) by lia.
    rewrite Z.pow_succ_r by lia. apply Z.divide_mul_l. exact Dx. }
  rewrite Pw. destruct (Z.eqb_spec x2 0); [contradiction|].
  assert (M : (0 * 0 - x2) mod p = 0).
  { apply mod_div. replace (0 * 0 - x2) with (- x2) by ring.
    apply Z.divide_opp_r. exact Dx. }
  rewrite M. cbn [Z.eqb negb Z.odd Bool.eqb]. rewrite M. cbn [Z.eqb negb].
  rewrite Z.sub_0_r. split; reflexivity.
Qed.
End Compressed.

(* The hypotheses can be met: p = 13, d = 2, where (2, 4) is on the curve. *)
Definition inv13 (a : Z) : Z := a ^ 11 mod 13.
Lemma prime13 : prime 13.
Proof.
  apply prime_intro; [lia|]. intros n Hn. apply Zgcd_1_rel_prime.
  assert (C : n = 1 \/ n = 2 \/ n = 3 \/ n = 4 \/ n = 5 \/ n = 6 \/ n = 7 \/ n = 8 \/
              n = 9 \/ n = 10 \/ n = 11 \/ n = 12) by lia.
  repeat (destruct C as [-> | C]; [reflexivity|]). subst n. reflexivity.
Qed.
Lemma inv13_ok y : (13 | (2 * (y * y) + 1) * inv13 (2 * (y * y) + 1) - 1).
Proof.
  set (a := 2 * (y * y) + 1).
  assert (N : ~ (13 | a)).
  { intros D. apply Z.mod_divide in D; [|lia]. unfold a in D.
    rewrite <- Z.add_mod_idemp_l, <- Z.mul_mod_idemp_r, Z.mul_mod in D by lia.
    assert (B := Z.mod_pos_bound y 13 eq_refl). rewrite (Z.mul_mod y y) in D by lia.
    assert (C : y mod 13 = 0 \/ y mod 13 = 1 \/ y mod 13 = 2 \/ y mod 13 = 3 \/ y mod 13 = 4 \/
                y mod 13 = 5 \/ y mod 13 = 6 \/ y mod 13 = 7 \/ y mod 13 = 8 \/ y mod 13 = 9 \/
                y mod 13 = 10 \/ y mod 13 = 11 \/ y mod 13 = 12) by lia.
    repeat (destruct C as [C|C]; [rewrite C in D; vm_compute in D; discriminate|]).
    rewrite C in D. vm_compute in D. discriminate. }
  assert (F := fermat_div 13 prime13 eq_refl a N).
  destruct F as (k & Hk). unfold inv13.
  exists (k - a * (a ^ 11 / 13)).
  assert (E : a ^ (13 - 1) = a * a ^ 11) by (rewrite <- Z.pow_succ_r by lia; reflexivity).
  rewrite E in Hk. rewrite (Z.mod_eq (a ^ 11) 13) by lia.
  replace (a * (a ^ 11 - 13 * (a ^ 11 / 13)) - 1) with
    ((a * a ^ 11 - 1) - a * (a ^ 11 / 13) * 13) by ring.
  rewrite Hk. ring.
Qed.
Example decompress_instance x y :
  0 < x < 13 -> 0 <= y < 13 -> curve_p 13 2 x y ->
  decompress 13 2 inv13 (Z.odd x) y = Val (x, y).
Proof.
  apply decompress_complete; [exact prime13|reflexivity|exists 5; reflexivity|exact inv13_ok].
Qed.
Example decompress_values :
  curve_p 13 2 2 4 /\
  map (fun y => (decompress 13 2 inv13 false y, decompress 13 2 inv13 true y)) [4; 12; 1; 5] =
    [(Val (2, 4), Val (11, 4)); (Val (0, 12), Val (13, 12)); (Val (0, 1), Thrown);
     (Thrown, Thrown)].
Proof. split; [exists (-9); reflexivity|vm_compute; reflexivity]. Qed.

(* ---- X25519 ---- *)

Section X25519.
Variable Pt : Type.
Variable ladder : Z -> Pt -> option Pt.
Variable ladder_base : Z -> option Pt.

(* Two parties agree, for all integers they may choose. *)
Theorem x_agreement (b9 : Pt) a b A B :
  (forall k, ladder_base k = ladder k b9) ->
  (forall k l P Q Q', ladder k P = Some Q -> ladder l P = Some Q' ->
     ladder l Q = ladder k Q') ->
  x_mul_base Pt ladder_base a = Val A -> x_mul_base Pt ladder_base b = Val B ->
  x_mul Pt ladder A b = x_mul Pt ladder B a.
Proof.
  intros HB HC. unfold x_mul_base, x_mul, checked. rewrite !HB.
  destruct (ladder (clamp (a mod order25519)) b9) as [A'|] eqn:EA; [|discriminate].
  destruct (ladder (clamp (b mod order25519)) b9) as [B'|] eqn:EB; [|discriminate].
  intros QA QB. injection QA as <-. injection QB as <-.
  rewrite (HC _ _ _ _ _ EA EB). reflexivity.
Qed.

(* MulInplace agrees with Mul on reduced scalars. *)
Theorem x_inplace_agrees P s :
  0 <= s < order25519 -> x_mul_inplace Pt ladder P s = x_mul Pt ladder P s.
Proof.
  intros H. unfold x_mul_inplace, x_mul.
  assert (order25519 < 2 ^ 256) by reflexivity.
  rewrite Z.abs_eq, Z.mod_small by lia.
  destruct (Z.ltb_spec s (2 ^ 256)); [reflexivity|lia].
Qed.

(* The low three bits of a reduced scalar do not count, so the map is not the
   multiple by the scalar. *)
Theorem x_low_bits P s s' :
  0 <= s < order25519 -> 0 <= s' < order25519 -> s / 8 = s' / 8 ->
  x_mul Pt ladder P s = x_mul Pt ladder P s'.
Proof.
  intros H H' E. unfold x_mul. rewrite !Z.mod_small by lia. f_equal. f_equal.
  assert (order25519 < 2 ^ 254) by reflexivity.
  unfold clamp. rewrite !Z.mod_small by lia. rewrite E. reflexivity.
Qed.
End X25519.

(* A clamped scalar is a multiple of the cofactor 8 with bit 254 set. *)
Theorem clamp_form k : 0 <= k ->
  clamp k mod 8 = 0 /\ 2 ^ 254 <= clamp k < 2 ^ 255.
Proof.
  intros H. unfold clamp.
  assert (B := Z.mod_pos_bound k (2 ^ 254) eq_refl).
  assert (D := Z.mul_div_le (k mod 2 ^ 254) 8 eq_refl).
  assert (Q : 0 <= k mod 2 ^ 254 / 8) by (apply Z.div_pos; lia).
  split; [|lia].
  replace (2 ^ 254) with (2 ^ 251 * 8) by reflexivity.
  rewrite <- Z.mul_add_distr_r. apply Z.mod_mul. lia.
Qed.

(* "MulInplace computes what Mul computes" is false: for -1 the two hand the
   ladder scalars that give different x-coordinates on a point of prime order
   (neither equal nor opposite modulo the order). *)
Theorem x_inplace_refuted :
  exists s, Z.abs s < 2 ^ 256 /\
    (clamp (s mod order25519) - clamp (Z.abs s)) mod order25519 <> 0 /\
    (clamp (s mod order25519) + clamp (Z.abs s)) mod order25519 <> 0 /\
    forall (Pt : Type) (ladder : Z -> Pt -> option Pt) P,
      x_mul Pt ladder P s = checked Pt (ladder (clamp (s mod order25519)) P) /\
      x_mul_inplace Pt ladder P s = checked Pt (ladder (clamp (Z.abs s)) P).
Proof.
  exists (-1). split; [reflexivity|].
  split; [vm_compute; discriminate|]. split; [vm_compute; discriminate|].
  intros Pt ladder P. split; reflexivity.
Qed.

(* Nor is Mul by 1 the identity. *)
Theorem x_mul_one_refuted :
  (clamp (1 mod order25519) - 1) mod order25519 <> 0 /\
  (clamp (1 mod order25519) + 1) mod order25519 <> 0.
Proof. split; vm_compute; discriminate. Qed.

(* ---- The hypotheses can be met ---- *)

(* The integers modulo 14 with order 7: 7 is the element of order two, and it is
   called infinity. *)
Definition op14 (a b : Z) : Z := (a + b) mod 14.
Definition iv14 (a : Z) : Z := (- a) mod 14.
Definition mul14 (k a : Z) : Z := (k * a) mod 14.
Definition inf14 (a : Z) : bool := (a =? 0) || (a =? 7).

Definition lib14 : ge_lib Z :=
  mkGe inf14 op14 (fun a b => op14 a (iv14 b)) mul14 (fun k => mul14 k 2).

Lemma zmul14 k a : 0 <= a < 14 -> zmul Z 0 op14 iv14 k a = mul14 k a.
Proof.
  intros Ha.
  assert (N : forall n, nmul Z 0 op14 n a = mul14 (Z.of_nat n) a).
  { induction n as [|n IH]; [reflexivity|].
    cbn [nmul]. rewrite IH. unfold op14, mul14.
    rewrite Z.add_mod_idemp_l by lia. f_equal. lia. }
  unfold zmul. rewrite N, N. destruct (Z.ltb_spec k 0).
  - unfold iv14, mul14. rewrite !Z2Nat.id by lia.
    rewrite <- Z.sub_0_l, Zminus_mod_idemp_r. f_equal. lia.
  - rewrite Z2Nat.id by lia. reflexivity.
Qed.

Example ed_mul_instance s p :
  0 <= p < 14 -> p mod 2 = 0 ->
  ed_mul Z lib14 7 p s = mul14 s p.
Proof.
  intros Hp He.
  destruct (ed_mul_correct Z (fun g => 0 <= g < 14) 0 op14 iv14) with
    (Pt := Z) (L := lib14)
    (order := 7) (base := 2) (repr := fun q g => q = g /\ 0 <= g < 14)
    (p := p) (g := p) (s := s) as [(E & _) _];
    try (unfold op14, iv14, mul14; intros; apply Z.mod_pos_bound; lia).
  - lia.
  - intros x Hx. unfold op14. apply Z.mod_small. lia.
  - intros x y _ _. unfold op14. f_equal. lia.
  - intros x y z _ _ _. unfold op14.
    rewrite Z.add_mod_idemp_l, Z.add_mod_idemp_r by lia. f_equal. lia.
  - intros x _. unfold op14, iv14. rewrite Z.add_mod_idemp_r by lia.
    replace (x + - x) with 0 by lia. reflexivity.
  - split; [lia|reflexivity].
  - lia.
  - intros q g (_ & H). exact H.
  - intros q r g h (-> & H) (-> & H'). split; [reflexivity|].
    unfold op14. apply Z.mod_pos_bound. lia.
  - intros k q g _ (-> & H). rewrite zmul14 by exact H. split; [reflexivity|].
    unfold mul14. apply Z.mod_pos_bound. lia.
  - intros k _. rewrite zmul14 by lia. split; [reflexivity|].
    unfold mul14. apply Z.mod_pos_bound. lia.
  - intros q g (-> & H) I. unfold inf14 in I. apply orb_prop in I.
    unfold op14. destruct I as [I|I]; apply Z.eqb_eq in I; subst; reflexivity.
  - split; [reflexivity|exact Hp].
  - rewrite zmul14 by exact Hp. unfold mul14.
    rewrite (Z.div_mod p 2), He by lia.
    replace (7 * (2 * (p / 2) + 0)) with (p / 2 * 14) by lia. apply Z.mod_mul. lia.
  - rewrite E. apply zmul14. exact Hp.
Qed.

(* In the same group 7 is outside the subgroup, and 1 times 7 is not 7. *)
Theorem ed_mul_outside_refuted :
  exists p, ed_mul Z lib14 7 p 1
            <> mul14 1 p.
Proof. exists 7. vm_compute. discriminate. Qed.

(* The rational numbers, with limbs that are the numbers themselves. *)
Definition qc_eqb (a b : Qc) : bool := if Qc_eq_dec a b then true else false.
Lemma qc_eqb_iff a b : qc_eqb a b = true <-> a = b.
Proof. unfold qc_eqb. destruct (Qc_eq_dec a b); split; congruence. Qed.
Example negate_instance (p : p3 Qc) :
  pZ p <> Q2Qc 0%Q -> Qcmult (pX p) (pY p) = Qcmult (pZ p) (pT p) ->
  Qcdiv (pX (negate Qc Qcopp (fun a => qc_eqb a (Q2Qc 0%Q)) p))
        (pZ (negate Qc Qcopp (fun a => qc_eqb a (Q2Qc 0%Q)) p))
  = Qcopp (Qcdiv (pX p) (pZ p)).
Proof.
  intros Hz HT.
  refine (proj1 (ed_negate_correct Qc (Q2Qc 0%Q) (Q2Qc 1%Q) Qcplus Qcmult Qcminus Qcdiv Qcopp Qcinv
    Qcft Qc (fun a => a) Qcopp (fun a => qc_eqb a (Q2Qc 0%Q)) _ _ (Q2Qc 0%Q) p _)).
  - reflexivity.
  - intros a. apply qc_eqb_iff.
  - split; assumption.
Qed.

(* Two representations of (3/4, 5/4), on the curve with d = 0, and its negative. *)
Definition qc_p3 (x y z t : Q) : p3 Qc := mkP3 (Q2Qc x) (Q2Qc y) (Q2Qc z) (Q2Qc t).
Definition qc_eqc (a b : Qc) : bool := Qeq_bool (this a) (this b).
Definition qc_equal := point_equal Qc Qcmult (fun a => qc_eqc a (Q2Qc 0%Q)) qc_eqc qc_eqc.
Example point_equal_instance :
  let p := qc_p3 3 5 4 (15 # 4) in
  let q := qc_p3 6 10 8 (15 # 2) in
  qc_equal p q = true /\
  qc_equal p (negate Qc Qcopp (fun a => qc_eqc a (Q2Qc 0%Q)) q) = false.
Proof. split; vm_compute; reflexivity. Qed.

Print Assumptions get_affine_correct.
Print Assumptions ed_negate_correct.
Print Assumptions point_equal_sound.
Print Assumptions point_equal_complete.
Print Assumptions equal_points_hash.
Print Assumptions point_equal_refuted.
Print Assumptions copy_affine_correct.
Print Assumptions copy_affine_refuted.
Print Assumptions deserialize_short.
Print Assumptions deserialize_rejected.
Print Assumptions ed_mul_correct.
Print Assumptions ed_mul_base_correct.
Print Assumptions ed_mul_double_base_correct.
Print Assumptions ed_double_correct.
Print Assumptions ed_mul_order_two.
Print Assumptions decompress_sound.
Print Assumptions decompress_complete.
Print Assumptions decompress_one.
Print Assumptions decompress_sign_refuted.
Print Assumptions x_agreement.
Print Assumptions x_inplace_agrees.
Print Assumptions x_low_bits.
Print Assumptions clamp_form.
Print Assumptions x_inplace_refuted.
Print Assumptions x_mul_one_refuted.
