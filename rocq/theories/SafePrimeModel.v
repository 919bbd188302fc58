(** * Safe primes: mpx_safe_prime_rand
      (/repo/yacl/math/mpint/tommath_ext_features.cc:33-225)

    At the level of values; reading the bytes in is mpx_from_mag_bytes, which C64
    relates to the number.  The random bytes of each round and the final primality
    test mp_prime_is_prime (libtommath: Miller-Rabin and Baillie-PSW) are arguments. *)
From Coq Require Import ZArith List Bool.
From Verif Require Import LinCodeModel MpxModel.
Import ListNotations.
Open Scope Z_scope.

(** :39-40 *)
Definition small_primes : list Z := [3; 5; 7; 11; 13; 17; 19; 23; 29; 31; 37; 41; 43; 47; 53].
(** :42-54 *)
Definition small_prime_prod : Z := fold_right Z.mul 1 small_primes.
(** :58-65 *)
Definition is_co_prime (num : Z) : bool :=
  forallb (fun s => negb (negb (num =? s) && (num mod s =? 0))) small_primes.
(** :67-73.  small_prime_prod does not fit a 60-bit digit, but mp_mod_d's 128-bit
    arithmetic is exact for any 64-bit divisor. *)
Definition is_prime_candidate (p : Z) : bool := is_co_prime (p mod small_prime_prod).
(** :87-103: 2^(p-1) mod p = 1; mp_exptmod rejects a modulus that is not positive *)
Definition fermat_test (p : Z) : outcome bool :=
  if p <=? 0 then Thrown else Val ((2 ^ (p - 1)) mod p =? 1).

(** :161-187: the bytes of q, most significant first *)
Definition fix_bytes (qsize : Z) (tmp : list Z) : outcome (list Z) :=
  let bsize := Z.shiftr (qsize + 7) 3 in
  let maskAND := if Z.land qsize 7 =? 0 then 255 else Z.shiftr 255 (8 - Z.land qsize 7) in
  let msb_offset := if Z.land qsize 7 =? 1 then 1 else 0 in
  let maskOR_msb := Z.shiftr 128 (Z.land (9 - qsize) 7) in
  let get l i := nth (Z.to_nat i) l 0 in
  bind (store tmp 0 (Z.land (get tmp 0) maskAND)) (fun tmp =>
  bind (store tmp 0 (Z.lor (get tmp 0) (Z.shiftl 1 (Z.land (qsize - 1) 7)))) (fun tmp =>
  bind (store tmp msb_offset (Z.lor (get tmp msb_offset) maskOR_msb)) (fun tmp =>
  store tmp (bsize - 1) (Z.lor (get tmp (bsize - 1)) 3)))).
Definition be_value (l : list Z) : Z := fold_left (fun v b => 256 * v + b) l 0.

(** The loop :194-217.  [q] and [p] are the variables; the loop has 2^19 rounds. *)
Fixpoint search (rounds : nat) (original_m delta last_delta q p : Z) : Z * Z :=
  match rounds with
  | O => (q, p)
  | S rounds' =>
    let m := original_m + delta in
    if m mod 3 =? 1 then search rounds' original_m (delta + 2) last_delta q p
    else if negb (is_co_prime m) then search rounds' original_m (delta + 2) last_delta q p
    else
      let q := q + (delta - last_delta) in
      let p := 2 * q + 1 in
      if is_prime_candidate p then (q, p)
      else search rounds' original_m (delta + 2) delta q p
  end.
Definition search_rounds : nat := Z.to_nat (2 ^ 19).

(** The loop :174-224; the result is (p, q).  [p] keeps the value of the previous
    round, at first whatever the caller's variable holds. *)
Fixpoint rounds (fuel : nat) (is_prime : Z -> bool) (draws : nat -> list Z) (i : nat) (qsize p : Z)
  : outcome (Z * Z) :=
  match fuel with
  | O => Hangs
  | S fuel' =>
    bind (fix_bytes qsize (draws i)) (fun tmp =>
    let q := be_value tmp in
    let '(q, p) := search search_rounds (q mod small_prime_prod) 0 0 q p in
    bind (fermat_test p) (fun ok =>
    if negb ok then rounds fuel' is_prime draws (S i) qsize p
    else if is_prime q then Val (p, q)
    else rounds fuel' is_prime draws (S i) qsize p))
  end.
Definition safe_prime_rand (fuel : nat) (is_prime : Z -> bool) (draws : nat -> list Z) (p0 t psize : Z)
  : outcome (Z * Z) :=
  if (1 <? psize) && (0 <? t) then rounds fuel is_prime draws 0 (psize - 1) p0 else Thrown.
(** MPInt::RandPrimeOver with PrimeType::FastSafe, mp_int.cc:789-799; [trials] is
    mp_prime_rabin_miller_trials(bit_size), which is positive. *)
Definition rand_prime_over (fuel : nat) (is_prime : Z -> bool) (draws : nat -> list Z) (out trials bit_size : Z)
  : outcome (Z * Z) :=
  if 81 <? bit_size then safe_prime_rand fuel is_prime draws out trials bit_size else Thrown.
