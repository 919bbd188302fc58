(** Model of the affine elliptic-curve library ("Toy"): yacl/crypto/ecc/toy/weierstrass.cc,
    common.{h,cc}, factory.cc and the default operations of yacl/crypto/ecc/group_sketch.cc.

    MPInt arithmetic is exact integer arithmetic; MulMod and SubMod reduce into [0, p)
    (mp_mulmod, mp_submod); InvertMod is ZpLib.invert_mod and throws unless the gcd is one.
    Left out: serialisation, hashing of points, names. *)
From Coq Require Import ZArith List Bool.
From Verif Require Import LinCodeModel MpxModel ExpTableModel ZpLib.
Import ListNotations.
Open Scope Z_scope.

(** AffinePoint (ec_point.h:64-70) and CurveParam (toy/common.h:23-35). *)
Definition point := (Z * Z)%type.
Record curve := mkCurve { cA : Z; cB : Z; cG : point; cp : Z; cn : Z; ch : Z }.
(** kInfPoint (weierstrass.cc:19) and IsInfinity (172-174). *)
Definition infinity : point := (0, 0).
Definition is_inf (P : point) : bool := (fst P =? 0) && (snd P =? 0).
(** AffinePoint::operator== and PointEqual (156-159). *)
Definition point_equal (P Q : point) : bool := (fst P =? fst Q) && (snd P =? snd Q).

Definition invert (a m : Z) : outcome Z := match invert_mod a m with Some r => Val r | None => Thrown end.

(** Add (27-62). *)
Definition ec_add (c : curve) (P Q : point) : outcome point :=
  if is_inf P then Val Q else
  if is_inf Q then Val P else
  if (fst P =? fst Q) && negb (snd P =? snd Q) then Val infinity else
  bind (if fst P =? fst Q
        then bind (invert (snd P * 2) (cp c)) (fun i => Val (((fst P ^ 2 * 3 + cA c) * i) mod cp c))
        else bind (invert ((fst Q - fst P) mod cp c) (cp c)) (fun i => Val (((snd Q - snd P) * i) mod cp c))) (fun lambda =>
  let x3 := (lambda ^ 2 - (fst P + fst Q)) mod cp c in
  let y3 := (lambda * (fst P - x3) - snd P) mod cp c in
  Val (x3, y3)).
(** Negate (96-102). *)
Definition ec_negate (c : curve) (P : point) : point := if is_inf P then P else (fst P, cp c - snd P).

(** The digits of an MPInt: base 2^60, least significant first, no leading zeros. *)
Fixpoint digits (fuel : nat) (k : Z) : list Z :=
  match fuel with O => [] | S f => if k =? 0 then [] else k mod 2 ^ 60 :: digits f (k / 2 ^ 60) end.
Definition mp_of (k : Z) : mp := Mp (k <? 0) (digits (S (Z.to_nat (Z.log2 (Z.abs k)))) (Z.abs k)).
(** Mul (70-94); SlowCustomPow (mp_int.h:378-425) with Add, which may throw. *)
Definition lift_add (c : curve) (P Q : outcome point) : outcome point := bind P (fun P => bind Q (fun Q => ec_add c P Q)).
Definition ec_mul (c : curve) (P : point) (k : Z) : outcome point :=
  if is_inf P then Val infinity else
  if k mod cn c =? 0 then Val infinity else
  bind (slow_custom_pow (lift_add c) (Val infinity) (Val P) (mp_of (Z.abs k))) (fun r =>
  bind r (fun R => Val (if k <? 0 then ec_negate c R else R))).
(** IsInCurveGroup (161-166). *)
Definition ec_in_curve (c : curve) (P : point) : bool :=
  is_inf P || ((snd P ^ 2 - fst P ^ 3 - cA c * fst P - cB c) mod cp c =? 0).

(** EcGroupSketch (group_sketch.cc:23-57): Sub, Double, MulBase, MulDoubleBase, Div. *)
Definition ec_sub (c : curve) (P Q : point) : outcome point := ec_add c P (ec_negate c Q).
Definition ec_double (c : curve) (P : point) : outcome point := ec_mul c P 2.
Definition ec_mul_base (c : curve) (k : Z) : outcome point := ec_mul c (cG c) k.
Definition ec_mul_double_base (c : curve) (s1 s2 : Z) (P : point) : outcome point :=
  bind (ec_mul_base c s1) (fun X => bind (ec_mul c P s2) (fun Y => ec_add c X Y)).
Definition ec_div (c : curve) (P : point) (k : Z) : outcome point :=
  if k =? 0 then Thrown else
  if 0 <? k then bind (invert k (cn c)) (fun i => ec_mul c P i)
  else bind (invert (Z.abs k) (cn c)) (fun i => bind (ec_mul c P i) (fun R => Val (ec_negate c R))).

(** The predefined Weierstrass curves (factory.cc:22-43). *)
Definition secp256k1 : curve := mkCurve 0 7
  (0x79be667ef9dcbbac55a06295ce870b07029bfcdb2dce28d959f2815b16f81798, 0x483ada7726a3c4655da4fbfc0e1108a8fd17b448a68554199c47d08ffb10d4b8)
  0xfffffffffffffffffffffffffffffffffffffffffffffffffffffffefffffc2f 0xfffffffffffffffffffffffffffffffebaaedce6af48a03bbfd25e8cd0364141 1.
Definition sm2 : curve := mkCurve 0xFFFFFFFEFFFFFFFFFFFFFFFFFFFFFFFFFFFFFFFF00000000FFFFFFFFFFFFFFFC 0x28E9FA9E9D9F5E344D5A9E4BCF6509A7F39789F515AB8F92DDBCBD414D940E93
  (0x32C4AE2C1F1981195F9904466A39C9948FE30BBFF2660BE1715A4589334C74C7, 0xBC3736A2F4F6779C59BDCEE36B692153D0A9877CC62A474002DF32E52139F0A0)
  0xFFFFFFFEFFFFFFFFFFFFFFFFFFFFFFFFFFFFFFFF00000000FFFFFFFFFFFFFFFF 0xFFFFFFFEFFFFFFFFFFFFFFFFFFFFFFFF7203DF6B21C6052B53BBF40939D54123 1.
