(** * MPInt's division operators (/repo/yacl/math/mpint/mp_int.cc)

    At the level of values: an MPInt is the integer it holds (C64 relates digits and
    values).  libtommath's functions are outside the model and taken by their
    documentation: mp_div truncates the quotient towards zero and its remainder has
    the dividend's sign; mp_mod's result has the modulus's sign; mp_div_d divides the
    magnitude, gives the quotient the dividend's sign and an unsigned remainder; a
    zero is never negative; dividing by zero is an error (MP_VAL), which
    MPINT_ENFORCE_OK turns into an exception. *)
From Coq Require Import ZArith Bool.
From Verif Require Import LinCodeModel MpxModel.
Open Scope Z_scope.

(** mp_div / MPInt::Div, mp_int.cc:713-717: (c, d) *)
Definition tm_div (a b : Z) : outcome (Z * Z) :=
  if b =? 0 then Thrown else Val (Z.quot a b, Z.rem a b).
(** mp_mod / MPInt::Mod(a, mod, c), mp_int.cc:734-736 *)
Definition tm_mod (a b : Z) : outcome Z := if b =? 0 then Thrown else Val (a mod b).
(** mp_div_d: quotient and remainder by a digit *)
Definition tm_div_d (a b : Z) : outcome (Z * Z) :=
  if b =? 0 then Thrown else Val (Z.sgn a * (Z.abs a / b), Z.abs a mod b).
(** MPInt::Mod(a, mp_digit, c), mp_int.cc:744-746 (mp_mod_d) *)
Definition mod_d (a b : Z) : outcome Z := bind (tm_div_d a b) (fun '(_, r) => Val r).

(** operator/ and operator/= with an MPInt, mp_int.cc:338-347 and :466-474 *)
Definition div (a b : Z) : outcome Z :=
  if b =? 0 then Thrown
  else bind (tm_div a b) (fun '(q, r) =>
       Val (if (q <? 0) && negb (r =? 0) then q - 1 else q)).
(** operator% and operator%= with an MPInt, mp_int.cc:361-366 and :476-480 *)
Definition mod_ (a b : Z) : outcome Z := if b =? 0 then Thrown else tm_mod a b.
(** operator/ and operator/= with a uint64_t, mp_int.cc:398-411 and :509-521;
    [mp_mask] is the largest digit. *)
Definition div_u (a b : Z) : outcome Z :=
  if b <=? mp_mask then
    if b =? 0 then Thrown
    else bind (tm_div_d a b) (fun '(q, r) =>
         Val (if (q <? 0) && negb (r =? 0) then q - 1 else q))
  else div a b.
(** operator% with a uint64_t, mp_int.cc:413-425 *)
Definition mod_u (a b : Z) : outcome Z :=
  if b <=? mp_mask then
    if b =? 0 then Thrown
    else bind (tm_div_d a b) (fun '(_, r) =>
         Val (if (a <? 0) && negb (r =? 0) then b - r else r))
  else bind (mod_ a b) (fun r => Val (Z.abs r mod 2 ^ 64)).
(** operator>> , mp_int.cc:355-359 (mp_div_2d drops the magnitude's low bits) *)
Definition shr (a k : Z) : Z := Z.sgn a * (Z.abs a / 2 ^ k).
(** Compare(int64_t), mp_int.cc:306-311: mp_cmp_d or mp_cmp on the converted value *)
Definition cmp_i64 (a b : Z) : comparison :=
  if (0 <=? b) && (b <=? mp_mask) then
    (* mp_cmp_d: a negative number is smaller than any digit *)
    if a <? 0 then Lt else Z.compare (Z.abs a) b
  else Z.compare a b.
