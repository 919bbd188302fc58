(** Model of yacl/crypto/rand/rand.{h,cc}: the random helpers, YaclReplayUrbg and
    ReplayShuffle.

    Every helper makes one call to the DRBG; [fill k] are the k bytes that call would
    return.  The DRBG itself (drbg.h), the choice between the fast and the secure one, and
    YaclStdUrbg (which only calls the DRBG) are not modelled.  Undefined behaviour is
    [OutOfBounds]. *)
From Coq Require Import NArith List Bool Arith.
From Verif Require Import LinCodeModel PrgModel BitsetModel.
Import ListNotations.
Open Scope nat_scope.

Section Fill.
Variable fill : nat -> list N.
(** RandCtx::Fill, FillRand (rand.cc:45-52, 62-64): at most INT_MAX bytes. *)
Definition fill_rand (len : nat) : outcome (list N) :=
  if (2 ^ 31 - 1 <? N.of_nat len)%N then Thrown else Val (fill len).
(** RandU32, RandU64, RandU128 (rand.cc:70-86) for [sz] bytes; the host is little endian. *)
Definition rand_int (sz : nat) : outcome N := bind (fill_rand sz) (fun b => Val (le_val b)).
(** RandSeed (rand.h:86); FastRandSeed and SecureRandSeed (87-88). *)
Definition rand_seed : outcome N := rand_int 8.
Definition fast_rand_seed : outcome N := rand_int 16.
(** RandBytes (rand.cc:106-110). *)
Definition rand_bytes (len : nat) : outcome (list N) := fill_rand len.
(** RandVec<unsigned> (rand.h:123-128). *)
Definition rand_words (len : nat) : outcome (list N) :=
  bind (fill_rand (4 * len)) (fun b => Val (map (fun i => le_val (chunk 4 b i)) (seq 0 len))).
(** The values of i in  for (i = 0; i < len; i += stride). *)
Definition strides (len stride : nat) : list nat := map (fun k => k * stride) (seq 0 ((len + stride - 1) / stride)).
(** RandBits<std::vector<bool>> (rand.cc:88-104).  len is below 2^29 here, so the cast of
    len - i to unsigned changes nothing. *)
Definition set_at (l : list bool) (i : nat) (b : bool) : outcome (list bool) :=
  if i <? length l then Val (firstn i l ++ b :: skipn (S i) l) else OutOfBounds.
Definition rand_bools (len : nat) : outcome (list bool) :=
  bind (rand_words len) (fun buf =>
  for_each (fun i out =>
    bind (rd buf i) (fun w =>
    for_each (fun j out => set_at out (i + j) (negb (N.land w (N.shiftl 1 (N.of_nat j)) =? 0)%N))
             (seq 0 (Nat.min 32 (len - i))) out))
    (strides len 32) (repeat false len)).
(** RandBits<dynamic_bitset<T>> (rand.cc:120-145), T of B bits; operator[] assigns one bit. *)
Definition rand_bits (B len : nat) : outcome bitset :=
  bind (of_value B len 0) (fun out =>
  bind (rand_bytes ((len + 7) / 8)) (fun buf =>
  for_each (fun i out =>
    for_each (fun j out =>
      bind (rd buf (i / 8)) (fun w => set_bit B out (i + j) (negb (N.land w (N.shiftl 1 (N.of_nat j)) =? 0)%N)))
             (seq 0 (Nat.min 8 (len - i))) out)
    (strides len 8) out)).
(** RandInRange (rand.h:146-151): n is a uint32_t; % 0 is undefined. *)
Definition rand_in_range (n : N) : outcome N :=
  bind (rand_int 8) (fun r => let tmp := (r mod 2 ^ 32)%N in if (n =? 0)%N then OutOfBounds else Val (tmp mod n)%N).
(** RandLtN<T> (rand.h:153-166), T unsigned of [sz] bytes and S = 64; MPInt::Mod by 0 throws. *)
Definition rand_ltn (sz : nat) (n : N) : outcome N :=
  bind (rand_bytes (sz + (64 + 7) / 8)) (fun b => if (n =? 0)%N then Thrown else Val (le_val b mod n)%N).
End Fill.

(** ** YaclReplayUrbg<T> (rand.h:207-235), T of [sz] bytes *)
Section Replay.
Variable enc : N -> N -> N.   (* key, block *)
Record urbg := mkUrbg { u_seed : N; u_ctr : N; u_iv : N; u_mode : mode }.
Definition urbg_call (sz : nat) (u : urbg) : N * urbg :=
  let (b, c) := PrgModel.fill (enc (u_seed u)) (u_mode u) (u_iv u) (u_ctr u) sz in
  (le_val b, mkUrbg (u_seed u) c (u_iv u) (u_mode u)).
(** The getters: GetSeed returns a uint64_t. *)
Definition get_seed (u : urbg) : N := (u_seed u mod 2 ^ 64)%N.
Definition get_counter (u : urbg) : N := u_ctr u.
Definition get_iv (u : urbg) : N := u_iv u.
Definition get_mode (u : urbg) : mode := u_mode u.
Fixpoint urbg_calls (sz k : nat) (u : urbg) : list N * urbg :=
  match k with
  | O => ([], u)
  | S k' => let (x, u') := urbg_call sz u in let (r, u'') := urbg_calls sz k' u' in (x :: r, u'')
  end.

(** ** ReplayShuffle (rand.h:238-267) *)
(** The vector ind after the reduction. *)
Definition shuffle_indices (seed ctr : N) (n : nat) : list N * N :=
  let (b, c) := PrgModel.fill (enc seed) CTR 0 ctr ((n - 1) * 16) in
  (map (fun idx => (le_val (chunk 16 b idx) mod (N.of_nat idx + 2))%N) (seq 0 (n - 1)), c).
(** std::swap(first[i], first[j]). *)
Definition swap {A} (l : list A) (i j : nat) : outcome (list A) :=
  match nth_error l i, nth_error l j with
  | Some x, Some y =>
      let l' := firstn i l ++ y :: skipn (S i) l in Val (firstn j l' ++ x :: skipn (S j) l')
  | _, _ => OutOfBounds
  end.
Definition knuth {A} (ind : list N) (l : list A) : outcome (list A) :=
  for_each (fun i m => bind (rd ind (i - 1)) (fun k => swap m i (N.to_nat k))) (rev (seq 1 (length l - 1))) l.
(** [ctr] is None for a null pointer.  For an empty range n - 1 is -1 and the constructor of
    the vector throws std::length_error. *)
Definition replay_shuffle {A} (l : list A) (seed : N) (ctr : option N) : outcome (list A * N) :=
  match ctr with
  | None => Thrown
  | Some c =>
      if length l =? 0 then Thrown else
      let (ind, c') := shuffle_indices seed c (length l) in bind (knuth ind l) (fun m => Val (m, c'))
  end.
(** Several arrays shuffled one after the other with the same counter variable. *)
Fixpoint shuffles {A} (seed ctr : N) (ls : list (list A)) : outcome (list (list A) * N) :=
  match ls with
  | [] => Val ([], ctr)
  | l :: t => bind (replay_shuffle l seed (Some ctr)) (fun r => bind (shuffles seed (snd r) t) (fun q => Val (fst r :: fst q, snd q)))
  end.
End Replay.
