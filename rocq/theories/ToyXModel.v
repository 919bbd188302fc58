(** Model of the x-only Montgomery curve of the "Toy" library: yacl/crypto/ecc/toy/montgomery.cc.
    A point is its abscissa.  MPInt values are integers; SetBit and the bit test act on the
    magnitude and keep the sign (mp_int.cc).  Left out: HashToCurve, serialisation. *)
From Coq Require Import ZArith List Bool.
From Verif Require Import ToyEcModel.
Import ListNotations.
Open Scope Z_scope.

(** SetBit on a signed magnitude. *)
Definition with_mag (k : Z) (f : Z -> Z) : Z := if k <? 0 then - f (- k) else f k.
(** MaskScalar255 and MaskPoint255 (montgomery.cc:31-39). *)
Definition mask_scalar (k : Z) : Z :=
  with_mag k (fun k => Z.setbit (Z.clearbit (Z.clearbit (Z.clearbit (Z.clearbit k 0) 1) 2) 255) 254).
Definition mask_point (x : Z) : Z := with_mag x (fun x => Z.clearbit x 255).
(** cswap (58-62). *)
Definition cswap (s x2 x3 : Z) : Z * Z := let d := s * (x2 - x3) in (x2 - d, x3 + d).
(** PowMod with a positive exponent: square and multiply. *)
Fixpoint pow_mod_pos (b m : Z) (e : positive) : Z :=
  match e with
  | xH => b mod m
  | xO e => let t := pow_mod_pos b m e in (t * t) mod m
  | xI e => let t := pow_mod_pos b m e in ((t * t) mod m * b) mod m
  end.
Definition pow_mod (b e m : Z) : Z := match e with Zpos e => pow_mod_pos b m e | _ => 1 mod m end.
(** a24_ (43): MPInt division truncates. *)
Definition a24 (c : curve) : Z := Z.quot (cA c - 2) 4.

Record ladder := mkL { lx2 : Z; lz2 : Z; lx3 : Z; lz3 : Z; lswap : bool }.
Definition swap_in (s : bool) (l : ladder) : ladder :=
  let (x2, x3) := cswap (Z.b2z s) (lx2 l) (lx3 l) in
  let (z2, z3) := cswap (Z.b2z s) (lz2 l) (lz3 l) in
  mkL x2 z2 x3 z3 (lswap l).
(** The loop body (79-97). *)
Definition ladder_step (c : curve) (x1 : Z) (kt : bool) (l : ladder) : ladder :=
  let p := cp c in
  let l := swap_in (xorb (lswap l) kt) l in
  let A := lx2 l + lz2 l in
  let AA := (A * A) mod p in
  let B := lx2 l - lz2 l in
  let BB := (B * B) mod p in
  let E := AA - BB in
  let C := lx3 l + lz3 l in
  let D := lx3 l - lz3 l in
  let DA := (D * A) mod p in
  let CB := (C * B) mod p in
  mkL ((AA * BB) mod p) ((E * (AA + a24 c * E)) mod p) (((DA + CB) ^ 2) mod p) ((x1 * (DA - CB) ^ 2) mod p) kt.
(** The loop (78-98): bits n-1 down to 0. *)
Fixpoint ladder_run (c : curve) (x1 s : Z) (n : nat) (l : ladder) : ladder :=
  match n with O => l | S n => ladder_run c x1 s n (ladder_step c x1 (Z.testbit (Z.abs s) (Z.of_nat n)) l) end.
(** MPInt::BitCount of the field size. *)
Definition bit_count (p : Z) : nat := if p =? 0 then O else S (Z.to_nat (Z.log2 p)).
(** Mul (64-104). *)
Definition x_mul (c : curve) (x k : Z) : Z :=
  let s := mask_scalar k in
  let x1 := mask_point x in
  let l := ladder_run c x1 s (bit_count (cp c)) (mkL 1 0 x1 1 false) in
  let l := swap_in (lswap l) l in
  (lx2 l * pow_mod (lz2 l) (cp c - 2) (cp c)) mod cp c.
(** Negate (106-108), IsInCurveGroup (206-209), IsInfinity (211-213). *)
Definition x_negate (c : curve) (x : Z) : Z := x_mul c x (cn c - 1).
Definition x_in_curve (c : curve) (x : Z) : bool := (0 <=? x) && (x <? cp c).
Definition x_is_inf (x : Z) : bool := x =? 0.

(** The predefined Montgomery curve (factory.cc:44-53). *)
Definition curve25519 : curve := mkCurve 486662 1
  (9, 0x20ae19a1b8a086b4e01edd2c7748d14c923d4d7e6d7c61b229e9c5a27eced3d9)
  (2 ^ 255 - 19) (2 ^ 252 + 0x14def9dea2f79cd65812631a5cf5d3ed) 8.
