(* The libsodium groups: yacl/crypto/ecc/libsodium/{sodium_group,ed25519_group,
   x25519_group}.cc.  What is modelled is the code around the library: the tests
   for infinity, equality, negation, conversions, the reduction of scalars, the
   checks on buffers.

   A field element is kept in a type [R] of limb arrays, because one comparison
   looks at the limbs; the library's field functions, point functions and the
   Montgomery ladder are arguments.  Not modelled: hash to curve, formats other
   than Autonomous. *)
From Coq Require Import ZArith List Bool.
From Verif Require Import LinCodeModel.
Import ListNotations.
Local Open Scope Z_scope.

(* sodium_factory.cc:30, 36: the order of the subgroup. *)
Definition order25519 : Z := 2 ^ 252 + 0x14def9dea2f79cd65812631a5cf5d3ed.

Section Coordinates.
Variable R : Type.
Variable r_one : R.
Variable rmul : R -> R -> R.
Variable rneg : R -> R.
Variable rinv : R -> R.
(* fe25519_iszero, comparison of the five limbs, comparison of the 32 bytes. *)
Variable iszero : R -> bool.
Variable limbs_eqb : R -> R -> bool.
Variable bytes_eqb : R -> R -> bool.

(* ge25519_p3: (X:Y:Z:T) with x = X/Z, y = Y/Z, XY = ZT. *)
Record p3 := mkP3 { pX : R; pY : R; pZ : R; pT : R }.

(* ed25519_group.cc:196-199, IsInfinity. *)
Definition is_infinity (p : p3) : bool := iszero (pX p) || iszero (pZ p).

(* sodium_group.cc:193-220, PointEqual. *)
Definition point_equal (p1 p2 : p3) : bool :=
  if is_infinity p1 && is_infinity p2 then true
  else if negb (limbs_eqb (rmul (pX p1) (pZ p2)) (rmul (pZ p1) (pX p2))) then false
  else bytes_eqb (rmul (pY p1) (pZ p2)) (rmul (pZ p1) (pY p2)).

(* ed25519_group.cc:153-167, Negate. *)
Definition negate (p : p3) : p3 :=
  if is_infinity p then p
  else mkP3 (pX p) (rneg (pY p)) (rneg (pZ p)) (pT p).

(* ed25519_group.cc:169-177, NegateInplace. *)
Definition negate_inplace (p : p3) : p3 :=
  if is_infinity p then p
  else {| pX := pX p; pY := rneg (pY p); pZ := rneg (pZ p); pT := pT p |}.

(* ed25519_group.cc:179-190, GetAffinePoint. *)
Definition get_affine (p : p3) : R * R :=
  let recip := rinv (pZ p) in (rmul (pX p) recip, rmul (pY p) recip).

(* sodium_group.cc:178-191, HashPoint: of the bytes of x. *)
Definition hash_point {H : Type} (hash_bytes : R -> H) (p : p3) : H :=
  hash_bytes (fst (get_affine p)).

(* ge25519_is_on_curve. *)
Variable on_curve : p3 -> bool.

(* ed25519_group.cc:192-194, IsInCurveGroup. *)
Definition is_in_curve_group (p : p3) : bool := is_infinity p || on_curve p.

(* sodium_group.cc:59-72, CopyPoint of an affine point (the conversion of the two
   coordinates to limbs, MPIntToFe25519 at 32-37, is done before). *)
Definition copy_affine (xy : R * R) : outcome p3 :=
  let p := mkP3 (fst xy) (snd xy) r_one (rmul (fst xy) (snd xy)) in
  if is_in_curve_group p then Val p else Thrown.

(* sodium_group.cc:156-165, DeserializePoint: the library reads 32 bytes; its
   return value is not looked at.  [frombytes] gives the point left in the output
   and the return value. *)
Variable frombytes : list Z -> p3 * Z.
Definition deserialize (buf : list Z) : outcome p3 :=
  if Nat.ltb (length buf) 32 then OutOfBounds
  else Val (fst (frombytes (firstn 32 buf))).

End Coordinates.
Arguments mkP3 {R}. Arguments pX {R}. Arguments pY {R}. Arguments pZ {R}. Arguments pT {R}.

(* The point functions of the library, and IsInfinity above.  One record, so that
   each definition below takes the same arguments whichever of them it calls. *)
Record ge_lib (Pt : Type) := mkGe {
  is_inf : Pt -> bool;
  ge_add : Pt -> Pt -> Pt;
  ge_sub : Pt -> Pt -> Pt;
  ge_scalarmult : Z -> Pt -> Pt;
  ge_scalarmult_base : Z -> Pt }.
Arguments mkGe {Pt}. Arguments is_inf {Pt}. Arguments ge_add {Pt}. Arguments ge_sub {Pt}.
Arguments ge_scalarmult {Pt}. Arguments ge_scalarmult_base {Pt}.

Section Scalars.
Variable Pt : Type.
Variable L : ge_lib Pt.
Variable order : Z.

(* ed25519_group.cc:47-51, MPInt2Array: the scalar, and whether it is positive. *)
Definition reduce (s : Z) : Z * bool := let k := s mod order in (k, 0 <? k).

(* ed25519_group.cc:43-44: the generator (MulBase(1), where 1 is its own residue) and the point at infinity. *)
Definition ed_g : Pt := ge_scalarmult_base L 1.
Definition ed_inf : Pt := ge_sub L ed_g ed_g.

(* ed25519_group.cc:109-121, MulBase. *)
Definition ed_mul_base (s : Z) : Pt :=
  let (k, pos) := reduce s in if negb pos then ed_inf else ge_scalarmult_base L k.

(* ed25519_group.cc:123-135, Mul. *)
Definition ed_mul (p : Pt) (s : Z) : Pt :=
  let (k, pos) := reduce s in
  if negb pos || is_inf L p then ed_inf else ge_scalarmult L k p.

(* ed25519_group.cc:137-144, MulInplace. *)
Definition ed_mul_inplace (p : Pt) (s : Z) : Pt :=
  let (k, pos) := reduce s in
  if negb pos || is_inf L p then ed_inf else ge_scalarmult L k p.

(* ed25519_group.cc:146-151, MulDoubleBase. *)
Definition ed_mul_double_base (s1 s2 : Z) (p2 : Pt) : Pt :=
  ge_add L (ed_mul_base s1) (ed_mul p2 s2).

(* ed25519_group.cc:105-107, Double and DoubleInplace. *)
Definition ed_double (p : Pt) : Pt := ge_add L p p.
End Scalars.

Section Compressed.
(* param_.p, the constant d (91-92) and InvertMod. *)
Variable p d : Z.
Variable inv : Z -> Z.

Definition powmod (a e : Z) : Z := a ^ e mod p.

(* sodium_group.cc:74-119, CopyPoint of a compressed point, up to the affine point
   that is handed to CopyPoint again; [sign] is the top bit of the 32 bytes and [y]
   the other 255.  PowMod of a negative base is taken as the residue. *)
Definition decompress (sign : bool) (y : Z) : outcome (Z * Z) :=
  if negb (y <? p) then Thrown
  else
    let y2 := y * y in
    let x2 := (y2 - 1) * inv (d * y2 + 1) in
    if x2 =? 0 then (if sign then Thrown else Val (0, y))
    else
      let x := powmod x2 ((p + 3) / 8) in
      let x := if (x * x - x2) mod p =? 0 then x
               else x * powmod 2 ((p - 1) / 4) mod p in
      if negb ((x * x - x2) mod p =? 0) then Thrown
      else Val (if Bool.eqb (Z.odd x) sign then x else p - x, y).
End Compressed.

Section X25519.
Variable Pt : Type.
(* crypto_scalarmult_curve25519 after clamping; None: it returned -1. *)
Variable ladder : Z -> Pt -> option Pt.
Variable ladder_base : Z -> option Pt.

(* RFC 7748: the three low bits and bit 255 are cleared, bit 254 is set. *)
Definition clamp (k : Z) : Z := (k mod 2 ^ 254) / 8 * 8 + 2 ^ 254.

Definition checked (o : option Pt) : outcome Pt :=
  match o with Some r => Val r | None => Thrown end.

(* x25519_group.cc:54-63, MulBase. *)
Definition x_mul_base (s : Z) : outcome Pt :=
  checked (ladder_base (clamp (s mod order25519))).

(* x25519_group.cc:65-75, Mul. *)
Definition x_mul (p : Pt) (s : Z) : outcome Pt :=
  checked (ladder (clamp (s mod order25519)) p).

(* x25519_group.cc:77-84, MulInplace: the magnitude of the scalar, which is not
   reduced; ToMagBytes throws if it needs more than 32 bytes. *)
Definition x_mul_inplace (p : Pt) (s : Z) : outcome Pt :=
  if Z.abs s <? 2 ^ 256 then checked (ladder (clamp (Z.abs s)) p) else Thrown.

End X25519.
