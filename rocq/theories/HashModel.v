(** Model of yacl/crypto/tools/crhash.cc, the correlation robust hashes.  Blocks are
    [N], a span is a list.  RP::Gen is an argument [rp]; GenForMultiInputs is ECB
    encryption (rp.cc:34-38), that is [rp] on each block, and throws when the sizes
    differ. *)
From Coq Require Import List NArith Bool Arith.
From Verif Require Import GfModel.
Import ListNotations.
Open Scope nat_scope.

(** A block from its high and low halves. *)
Definition block (hi lo : N) : N := N.lor (N.shiftl hi 64) lo.
(** _mm_shuffle_epi32(x, 0b01001110): exchanges the halves. *)
Definition exchange (x : N) : N := block (lo64 x) (hi64 x).
(** _mm_unpackhi_epi64(x, y) and _mm_unpacklo_epi64(x, y): the two high (low) halves. *)
Definition unpackhi (x y : N) : N := block (hi64 y) (hi64 x).
Definition unpacklo (x y : N) : N := block (lo64 y) (lo64 x).

(** Sigma on one block (36-41). *)
Definition sigma1 (x : N) : N := N.lxor (exchange x) (unpackhi x 0%N).
(** The loop body of the two other versions (51-59, 70-78). *)
Definition sigma_step (x : N) : N := N.lxor (exchange x) (unpacklo x 0%N).
(** Sigma on a span (43-61): num is a uint32_t. *)
Definition sigma_num (n : nat) : nat := N.to_nat (N.of_nat n mod 2 ^ 32).
Definition sigma_span (x : list N) : list N := map sigma_step (firstn (sigma_num (length x)) x).
(** SigmaInplace (63-79): only the first num blocks are changed. *)
Definition sigma_inplace (x : list N) : list N :=
  map sigma_step (firstn (sigma_num (length x)) x) ++ skipn (sigma_num (length x)) x.

(** A function applied in place to subspan(off, len). *)
Definition on_sub (f : list N -> list N) (off len : nat) (l : list N) : list N :=
  firstn off l ++ f (firstn len (skipn off l)) ++ skipn (off + len) l.
(** std::transform with bit_xor. *)
Definition xor_span (x y : list N) : list N := map (fun p => N.lxor (fst p) (snd p)) (combine x y).

Section Hash.
Variable rp : N -> N.
(** kBatchSize (30), 1024. *)
Variable batch : nat.

(** CrHash_128 (88-91). *)
Definition crhash (x : N) : N := N.lxor (rp x) x.
(** ParaCrHash_128 (94-101). *)
Definition para_crhash (x : list N) : list N := xor_span x (map rp x).
(** ParaCrHashInplace_128 (104-128): the loop from [off], then the remainder; [fuel]
    bounds the number of iterations (the size does). *)
Definition cr_step (l : list N) : list N := xor_span (map rp l) l.
Fixpoint cr_loop (fuel off : nat) (l : list N) : list N :=
  match fuel with
  | O => l
  | S fuel =>
      if off + batch <=? length l then cr_loop fuel (off + batch) (on_sub cr_step off batch l)
      else
        let remain := length l - off in
        if 0 <? remain then on_sub cr_step off remain l else l
  end.
Definition para_crhash_inplace (l : list N) : list N := cr_loop (S (length l)) 0 l.

(** CcrHash_128 (130). *)
Definition ccrhash (x : N) : N := crhash (sigma1 x).
(** ParaCcrHash_128 (133-137). *)
Definition para_ccrhash (x : list N) : list N := para_crhash_inplace (sigma_span x).
(** ParaCcrHashInplace_128 (140-153). *)
Definition ccr_step (l : list N) : list N := para_crhash_inplace (sigma_inplace l).
Fixpoint ccr_loop (fuel off : nat) (l : list N) : list N :=
  match fuel with
  | O => l
  | S fuel =>
      if off + batch <? length l then ccr_loop fuel (off + batch) (on_sub ccr_step off batch l)
      else on_sub ccr_step off (length l - off) l
  end.
Definition para_ccrhash_inplace (l : list N) : list N := ccr_loop (S (length l)) 0 l.
End Hash.
Definition kBatchSize : nat := 1024.
