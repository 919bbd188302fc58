(** * Montgomery arithmetic of the GMP back end
      (/repo/yacl/math/bigint/gmp/gmp_int.cc:313-416, gmp/mont_space.cc)

    A number (mpz_t) is its integer.  Where the code works on the limbs it gets from
    mpz_limbs_read / mpz_limbs_modify, so does the model: lists of 64 bit limbs, least
    significant first, with every access checked.  The mpz_* functions the code calls
    are GMP's documented integer functions.  MontgomeryReduceComba (:418-485) is
    compiled out of its only caller (#if 0, :353) and not modelled. *)
From Coq Require Import ZArith List Bool.
From Verif Require Import LinCodeModel MpxModel ExpTableModel.
Import ListNotations.
Open Scope Z_scope.

Definition numb_bits : Z := 64.
Definition base : Z := 2 ^ 64.
(** mpz_size: limbs of the magnitude *)
Definition mpz_size (z : Z) : nat := if z =? 0 then 0%nat else S (Z.to_nat (Z.log2 (Z.abs z) / 64)).
(** the first [k] limbs of a magnitude *)
Fixpoint limbs_of (k : nat) (v : Z) : list Z :=
  match k with O => [] | S k' => v mod base :: limbs_of k' (v / base) end.
Fixpoint limbs_value (l : list Z) : Z :=
  match l with [] => 0 | d :: t => d + base * limbs_value t end.

Definition get (l : list Z) (i : nat) : outcome Z :=
  match nth_error l i with Some v => Val v | None => OutOfBounds end.
Definition put (l : list Z) (i : nat) (v : Z) : outcome (list Z) := store l (Z.of_nat i) v.

(** ** MontgomerySetup :313-325; mp_limb_t arithmetic is modulo 2^64 *)
Definition limb (x : Z) : Z := x mod base.
Definition newton (a x : Z) : Z := limb (x * limb (2 - limb (a * x))).
Definition montgomery_setup (m : Z) : outcome Z :=
  let a := limb (Z.abs m) in
  if Z.land a 1 =? 0 then Thrown
  else
    let x := limb (limb (Z.shiftl (Z.land (limb (a + 2)) 4) 1) + a) in
    let x := newton a x in
    let x := newton a x in
    let x := newton a x in
    let x := newton a x in
    Val (Z.land (Z.shiftl 1 numb_bits - x) (Z.ones 64)).

(** ** MontgomeryCalcNormalization :327-347 *)
Fixpoint double_sub (k : nat) (r m : Z) : Z :=
  match k with
  | O => r
  | S k' => let r := r * 2 in double_sub k' (if m <? r then r - m else r) m
  end.
Definition sizeinbase2 (z : Z) : Z := if z =? 0 then 1 else Z.log2 (Z.abs z) + 1.
Definition calc_normalization (m : Z) : Z :=
  let n_size := Z.of_nat (mpz_size m) in
  let bits := sizeinbase2 m mod numb_bits in
  let '(r, bits) :=
    if 1 <? n_size then (1 * 2 ^ ((n_size - 1) * numb_bits + bits - 1), bits) else (1, 1) in
  (* for (int i = bits - 1; i < 64; ++i) *)
  double_sub (Z.to_nat (numb_bits - (bits - 1))) r m.

(** ** MontgomeryReduce :349-416 *)
(** one multiply-and-add, :372-374 and its copies; the arithmetic is __uint128_t *)
Definition mac (n : list Z) (mu : Z) (ix iy : nat) (x : list Z) (u : Z) : outcome (list Z * Z) :=
  bind (get n iy) (fun ni =>
  bind (get x (ix + iy)) (fun xi =>
    let r := (mu * ni + u + xi) mod 2 ^ 128 in
    bind (put x (ix + iy) (Z.land r (Z.ones 64))) (fun x =>
    Val (x, limb (Z.shiftr r numb_bits))))).
(** the unrolled loop :371-387 *)
Fixpoint by4 (fuel n_size : nat) (n : list Z) (mu : Z) (ix iy : nat) (x : list Z) (u : Z)
  : outcome (list Z * Z * nat) :=
  if (iy + 3 <? n_size)%nat then
    match fuel with
    | O => Hangs
    | S fuel' =>
      bind (mac n mu ix iy x u) (fun '(x, u) =>
      bind (mac n mu ix (iy + 1) x u) (fun '(x, u) =>
      bind (mac n mu ix (iy + 2) x u) (fun '(x, u) =>
      bind (mac n mu ix (iy + 3) x u) (fun '(x, u) =>
      by4 fuel' n_size n mu ix (iy + 4) x u))))
    end
  else Val (x, u, iy).
(** the rest :389-393 *)
Fixpoint by1 (fuel n_size : nat) (n : list Z) (mu : Z) (ix iy : nat) (x : list Z) (u : Z)
  : outcome (list Z * Z * nat) :=
  if (iy <? n_size)%nat then
    match fuel with
    | O => Hangs
    | S fuel' =>
      bind (mac n mu ix iy x u) (fun '(x, u) => by1 fuel' n_size n mu ix (iy + 1) x u)
    end
  else Val (x, u, iy).
(** the carries :396-402 *)
Fixpoint propagate (fuel limbs : nat) (idx : nat) (x : list Z) (u : Z) : outcome (list Z) :=
  if negb (u =? 0) && (idx <? limbs)%nat then
    match fuel with
    | O => Hangs
    | S fuel' =>
      bind (get x idx) (fun xi =>
      let r := (xi + u) mod 2 ^ 128 in
      bind (put x idx (Z.land r (Z.ones 64))) (fun x =>
      propagate fuel' limbs (idx + 1) x (limb (Z.shiftr r numb_bits))))
    end
  else Val x.
(** one round of the main loop :366-403 *)
Definition row (n_size limbs : nat) (n : list Z) (rho : Z) (ix : nat) (x : list Z) : outcome (list Z) :=
  bind (get x ix) (fun xi =>
  let mu := limb (xi * rho) in
  bind (by4 n_size n_size n mu ix 0 x 0) (fun '(x, u, iy) =>
  bind (by1 n_size n_size n mu ix iy x u) (fun '(x, u, iy) =>
  propagate limbs limbs (ix + iy) x u))).
Fixpoint rows (count : nat) (n_size limbs : nat) (n : list Z) (rho : Z) (ix : nat) (x : list Z)
  : outcome (list Z) :=
  match count with
  | O => Val x
  | S count' => bind (row n_size limbs n rho ix x) (fun x => rows count' n_size limbs n rho (S ix) x)
  end.
(** the number of limbs that matter, :405-407 *)
Fixpoint strip (x : list Z) (limbs : nat) : nat :=
  match limbs with
  | O => O
  | S k => if nth k x 0 =? 0 then strip x k else limbs
  end.
(** mpz_limbs_modify keeps the limbs the number has and makes room for [limbs];
    :361-363 clears the new ones.  The sign is kept apart, :358 and :413. *)
Definition montgomery_reduce (z m rho : Z) : outcome Z :=
  let n_size := mpz_size m in
  let x_size := mpz_size z in
  let limbs := (n_size * 2 + 1)%nat in
  let n := limbs_of n_size (Z.abs m) in
  let x := limbs_of x_size (Z.abs z) ++ repeat 0 (limbs - x_size) in
  bind (rows n_size n_size limbs n rho 0 x) (fun x =>
  let y := limbs_value (firstn (strip x limbs) x) in
  let y := Z.quot y (2 ^ (Z.of_nat n_size * numb_bits)) in
  let y := if m <=? y then y - m else y in
  Val (if z <? 0 then - y else y)).

(** ** GmpMontSpace, gmp/mont_space.cc:33-68; the base class's check mont_space.cc:34-37 *)
Record space := { modulus : Z; rho : Z; r_mod : Z; rr_mod : Z }.
Definition make_space (m : Z) : outcome space :=
  if negb (m <? 0) && Z.odd m then
    bind (montgomery_setup m) (fun rho =>
    let r := calc_normalization m in
    Val {| modulus := m; rho := rho; r_mod := r; rr_mod := (r * r) mod m |})
  else Thrown.
Definition map_in (s : space) (z : Z) : outcome Z :=
  let z := if (z <? 0) || (modulus s <=? z) then z mod modulus s else z in
  montgomery_reduce (z * rr_mod s) (modulus s) (rho s).
Definition map_back (s : space) (z : Z) : outcome Z := montgomery_reduce z (modulus s) (rho s).
Definition mul_mod (s : space) (a b : Z) : outcome Z := montgomery_reduce (a * b) (modulus s) (rho s).
Definition identity (s : space) : Z := r_mod s.

(** MakeBaseTable and PowMod of the base class (ExpTableModel) over this space:
    entries are outcomes, so that an exception or a bad access in MulMod is seen.
    GetWords :59-68 gives the limbs of the exponent. *)
Definition mul_o (s : space) (x y : outcome Z) : outcome Z :=
  bind x (fun a => bind y (fun b => mul_mod s a b)).
Definition space_table (s : space) (g u max_exp_bits : Z) : outcome (@table (outcome Z)) :=
  make_table (mul_o s) (g <? 0) (map_in s g) u max_exp_bits.
Definition space_pow (s : space) (t : @table (outcome Z)) (e : Z) : outcome Z :=
  bind (pow_mod (mul_o s) (Val (identity s)) t numb_bits (e <? 0)
          (if e =? 0 then 0 else sizeinbase2 e) (limbs_of (mpz_size e) (Z.abs e))) (fun r => r).
