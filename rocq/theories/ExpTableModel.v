(** * Fixed-base exponentiation with a table (/repo/yacl/math/bigint/mont_space.cc)
      and SlowCustomPow (/repo/yacl/math/mpint/mp_int.h:378-425)

    The ring operations are arguments: [mul] is MulMod, [one] is Identity(), and a
    table holds elements of the same type.  Words of the exponent come least
    significant first, [wbits] bits each (60 for MPInt, 64 for OpenSSL). *)
From Coq Require Import ZArith List Bool.
From Verif Require Import LinCodeModel MpxModel.
Import ListNotations.
Open Scope Z_scope.

Section Table.
  Context {A : Type} (mul : A -> A -> A) (one : A).

  (** BaseTable, mont_space.h:22-31; exp_unit_expand and exp_unit_mask are
      functions of exp_unit_bits. *)
  Record table := { unit_bits : Z; max_bits : Z; stair : list A }.
  (** mont_space.cc:63: 1U << unit_bits is an unsigned int: defined up to 31. *)
  Definition expand (u : Z) : Z := Z.shiftl 1 u.
  Definition mask_of (u : Z) : Z := expand u - 1.

  (** The inner loop :73-76: the level's entries, and the base of the next one. *)
  Fixpoint level_entries (n : nat) (now level_base : A) : list A * A :=
    match n with
    | O => ([], now)
    | S n' => let '(l, nxt) := level_entries n' (mul now level_base) level_base in (now :: l, nxt)
    end.
  (** The outer loop :71-77. *)
  Fixpoint stairs (levels : nat) (u : Z) (now : A) : list A :=
    match levels with
    | O => []
    | S levels' =>
      let '(l, nxt) := level_entries (Z.to_nat (expand u - 1)) now now in
      l ++ stairs levels' u nxt
    end.
  (** MakeBaseTable :39-78.  [mapped] is base after MapIntoMSpace.  A negative base
      and unit_bits = 0 throw; unit_bits over 31 makes the shift undefined. *)
  Definition make_table (base_negative : bool) (mapped : A) (u max_exp_bits : Z) : outcome table :=
    if base_negative then Thrown
    else if u <=? 0 then Thrown
    else if 31 <? u then OutOfBounds
    else
      let levels := (max_exp_bits + u - 1) / u in
      Val {| unit_bits := u; max_bits := levels * u; stair := stairs (Z.to_nat levels) u mapped |}.

  (** r = MulMod(r, stair[level + e_unit - 1]) when e_unit > 0 *)
  Definition step (t : table) (r : A) (level e_unit : Z) : outcome A :=
    if 0 <? e_unit then
      match nth_error (stair t) (Z.to_nat (level + e_unit - 1)) with
      | Some g => Val (mul r g)
      | None => OutOfBounds
      end
    else Val r.

  (** The loop :116-127 over the full units of a word.  Each round takes
      [unit_bits] >= 1 of at most 64 bits. *)
  Fixpoint units (fuel : nat) (t : table) (wbits : Z) (r : A) (level start word e_unit : Z)
    : outcome (A * Z * Z * Z * Z) :=
    if start <=? wbits - unit_bits t then
      match fuel with
      | O => Hangs
      | S fuel' =>
        let e_unit := Z.land word (mask_of (unit_bits t)) in
        let word := Z.shiftr word (unit_bits t) in
        bind (step t r level e_unit) (fun r =>
        units fuel' t wbits r (level + (expand (unit_bits t) - 1)) (start + unit_bits t) word e_unit)
      end
    else Val (r, level, start, word, e_unit).
  (** The loop :96-133 over the words; :135-138 at the end. *)
  Fixpoint words_loop (ws : list Z) (t : table) (wbits : Z) (r : A) (level e_unit start : Z) : outcome A :=
    match ws with
    | [] => if 0 <? start then step t r level e_unit else Val r
    | word :: ws' =>
      let drop_bits := unit_bits t - start in
      bind
        (if 0 <? start then
           let e_unit := Z.lor e_unit (Z.land (Z.shiftl word drop_bits mod 2 ^ 64) (mask_of (unit_bits t))) in
           let word := Z.shiftr word start in
           bind (step t r level e_unit) (fun r =>
           Val (r, level + (expand (unit_bits t) - 1), word, e_unit))
         else Val (r, level, word, e_unit)) (fun '(r, level, word, e_unit) =>
      bind (units 64 t wbits r level start word e_unit) (fun '(r, level, start, word, e_unit) =>
      words_loop ws' t wbits r level word
        (if start =? wbits then 0 else start + unit_bits t - wbits)))
    end.
  (** PowMod :80-141.  [e_bits] is BitCount(e). *)
  Definition pow_mod (t : table) (wbits : Z) (e_negative : bool) (e_bits : Z) (ws : list Z) : outcome A :=
    if negb e_negative && (e_bits <=? max_bits t) then words_loop ws t wbits one 0 0 0
    else Thrown.

  (** ** SlowCustomPow, mp_int.h:378-425 *)
  (** the inner loop :395-401 *)
  Fixpoint digit_pow (n : nat) (e : Z) (res s : A) : A * A :=
    match n with
    | O => (res, s)
    | S n' =>
      let res := if Z.odd e then mul res s else res in
      digit_pow n' (Z.shiftr e 1) res (mul s s)
    end.
  (** the last digit :405-415 *)
  Fixpoint last_pow (fuel : nat) (e : Z) (res s : A) : outcome A :=
    if e =? 0 then Val res
    else match fuel with
         | O => Hangs
         | S fuel' =>
           let res := if Z.odd e then mul res s else res in
           let e := Z.shiftr e 1 in
           last_pow fuel' e res (if e =? 0 then s else mul s s)
         end.
  Fixpoint digits_pow (ds : list Z) (res s : A) : outcome A :=
    match ds with
    | [] => Val res
    | [d] => last_pow 60 (Z.land d mp_mask) res s
    | d :: ds' => let '(res, s) := digit_pow 60 d res s in digits_pow ds' res s
    end.
  Definition slow_custom_pow (base : A) (scalar : mp) : outcome A :=
    if neg scalar then Thrown
    else match dp scalar with [] => Val one | _ => digits_pow (dp scalar) one base end.
End Table.

(** ** The Montgomery ring the tables are used in: the integers modulo [m] with
    [R] = 2^k and [Rinv] its inverse.  libtommath's and OpenSSL's reductions are
    outside the model and taken as exact: mont_space.h:49-57. *)
Definition mont_mul (m Rinv a b : Z) : Z := (a * b * Rinv) mod m.
Definition mont_in (m R a : Z) : Z := (a * R) mod m.
Definition mont_out (m Rinv a : Z) : Z := (a * Rinv) mod m.
Definition mont_one (m R : Z) : Z := R mod m.
(** The words of MPInt's exponent, tommath/mont_space.cc:62-68: its digits. *)
Definition mont_table (m R Rinv base u max_exp_bits : Z) : outcome (@table Z) :=
  make_table (mont_mul m Rinv) (base <? 0) (mont_in m R base) u max_exp_bits.
Definition mont_pow (m R Rinv : Z) (t : @table Z) (e : mp) : outcome Z :=
  pow_mod (mont_mul m Rinv) (mont_one m R) t digit_bit (neg e) (count_bits e) (dp e).
(** OpenSSL's, openssl/mont_space.cc:61-76: 64-bit words, as many as the bytes need. *)
Definition words64 (e : Z) : list Z :=
  map (fun i => (e / 2 ^ (64 * Z.of_nat i)) mod 2 ^ 64)
      (seq 0 (Z.to_nat ((((if e =? 0 then 0 else Z.log2 e + 1) + 7) / 8 + 7) / 8))).
Definition mont_pow64 (m R Rinv : Z) (t : @table Z) (e : Z) : outcome Z :=
  pow_mod (mont_mul m Rinv) (mont_one m R) t 64 (e <? 0)
    (if e =? 0 then 0 else Z.log2 (Z.abs e) + 1) (words64 e).
