(** Model of the d-local linear code and the expand-accumulate code:
    yacl/kernel/code/linear_code.h and yacl/kernel/code/ea_code.h.

    Blocks (uint64_t or uint128_t) are N; both widths use the same code, and
    xor does not look at the width.  The random permutation rp_ (AES-128-ECB
    under the seed) is an argument rp; any function from blocks to blocks is
    allowed.  A run ends in a value, an exception, an access outside a span, or
    does not end. *)
From Coq Require Import NArith ZArith List Bool Arith.
Import ListNotations.
Open Scope N_scope.

Inductive outcome (A : Type) := Val (a : A) | Thrown | OutOfBounds | Hangs.
Arguments Val {A} a. Arguments Thrown {A}. Arguments OutOfBounds {A}. Arguments Hangs {A}.
Definition bind {A B} (x : outcome A) (f : A -> outcome B) : outcome B :=
  match x with Val a => f a | Thrown => Thrown | OutOfBounds => OutOfBounds | Hangs => Hangs end.
Definition read (l : list N) (i : N) : outcome N :=
  match nth_error l (N.to_nat i) with Some v => Val v | None => OutOfBounds end.
Fixpoint set_nth (l : list N) (i : nat) (v : N) : list N :=
  match l, i with
  | [], _ => []
  | _ :: l', O => v :: l'
  | a :: l', S i' => a :: set_nth l' i' v
  end.

(** kLcBatchSize, linear_code.h:40. *)
Definition batch : nat := 1024.

(** The constructor's mask loop, linear_code.h:61-65.  mask_ is uint32_t, k a
    size_t.  After 31 steps the mask is 2^32 - 1 and stays there, so a loop that
    has not ended after 32 steps never ends. *)
Fixpoint mask_loop (fuel : nat) (mask k : N) : outcome N :=
  if k <=? mask then Val mask
  else match fuel with
       | O => Hangs
       | S f => mask_loop f (N.lor ((2 * mask) mod 2 ^ 32) 1) k
       end.
(** The members mask_ and k_ of a constructed code (k_ truncates k). *)
Record lcode := { mask : N; dim : N }.
Definition make_lcode (k : N) : outcome lcode :=
  bind (mask_loop 32 1 k) (fun m => Val {| mask := m; dim := k mod 2 ^ 32 |}).

(** A uint32_t lane as the signed integer _mm_cmpgt_epi32 compares. *)
Definition signed32 (x : N) : Z := if x <? 2 ^ 31 then Z.of_N x else (Z.of_N x - 2 ^ 32)%Z.
(** One lane of the SIMD loop of GenIndexes, linear_code.h:262-273: and with the
    mask, subtract k when greater than k - 1 (uint32_t subtraction). *)
Definition lane (c : lcode) (w : N) : N :=
  let idx := N.land w (mask c) in
  let cmp := (dim c + 2 ^ 32 - 1) mod 2 ^ 32 in
  let sub := if (signed32 cmp <? signed32 idx)%Z then dim c else 0 in
  (idx + 2 ^ 32 - sub) mod 2 ^ 32.
(** The four uint32_t lanes of a block, in memory order. *)
Definition words (b : N) : list N :=
  map (fun w => (b / 2 ^ (32 * w)) mod 2 ^ 32) [0; 1; 2; 3].
(** GenIndexes, linear_code.h:243-274: block j is rp of the lanes (0, j, 0, i).
    tmp is a larger array whose first block_num entries are overwritten; only
    these are read by Encode. *)
Definition gen_indexes (rp : N -> N) (c : lcode) (i : N) (block_num : nat) : list N :=
  flat_map (fun j => map (lane c) (words (rp (i * 2 ^ 96 + N.of_nat j * 2 ^ 32)))) (seq 0 block_num).

(** The innermost loop of Encode, linear_code.h:100-102. *)
Fixpoint xor_entries (inp : list N) (idxs : list N) (val : N) : outcome N :=
  match idxs with
  | [] => Val val
  | k :: idxs' => bind (read inp k) (fun v => xor_entries inp idxs' (N.lxor val v))
  end.
(** The j loop of Encode, linear_code.h:98-104, from row j for n more rows. *)
Fixpoint encode_rows (d : nat) (inp idxs : list N) (i : N) (j n : nat) (out : list N) : outcome (list N) :=
  match n with
  | O => Val out
  | S n' =>
      let r := i + N.of_nat j in
      bind (read out r) (fun v =>
      bind (xor_entries inp (firstn d (skipn (j * d) idxs)) v) (fun val =>
      encode_rows d inp idxs i (S j) n' (set_nth out (N.to_nat r) val)))
  end.
(** DivCeil(limit * d, 4), linear_code.h:92. *)
Definition div_ceil4 (x : nat) : nat := ((x + 3) / 4)%nat.
(** The batch loop of Encode, linear_code.h:89-105; i is uint32_t. *)
Fixpoint encode_loop (fuel : nat) (rp : N -> N) (c : lcode) (d : nat) (inp : list N) (i : N) (out : list N) : outcome (list N) :=
  let size := N.of_nat (length out) in
  if size <=? i then Val out
  else match fuel with
       | O => Hangs
       | S f =>
           let limit := N.to_nat (N.min (N.of_nat batch) ((size mod 2 ^ 32 + 2 ^ 32 - i) mod 2 ^ 32)) in
           bind (encode_rows d inp (gen_indexes rp c i (div_ceil4 (limit * d))) i 0 limit out)
             (encode_loop f rp c d inp ((i + N.of_nat batch) mod 2 ^ 32))
       end.
(** Encode, linear_code.h:82-106 and 142-165.  The loop visits every multiple of
    1024 below 2^32 at most once unless it never ends, so 2^22 + 1 rounds
    decide it; the model uses one more than the number of batches of the output. *)
Definition encode (rp : N -> N) (c : lcode) (d : nat) (inp out : list N) : outcome (list N) :=
  if N.of_nat (length inp) =? dim c
  then encode_loop (S (length out / batch)) rp c d inp 0 out
  else Thrown.

(** Encode2, linear_code.h:108-140, 167-198 and 200-231: the same loops with two
    inputs and two outputs, over the smaller of the two output sizes. *)
Fixpoint xor_entries2 (in0 in1 : list N) (idxs : list N) (val0 val1 : N) : outcome (N * N) :=
  match idxs with
  | [] => Val (val0, val1)
  | k :: idxs' => bind (read in0 k) (fun v0 => bind (read in1 k) (fun v1 =>
                  xor_entries2 in0 in1 idxs' (N.lxor val0 v0) (N.lxor val1 v1)))
  end.
Fixpoint encode2_rows (d : nat) (in0 in1 idxs : list N) (i : N) (j n : nat) (out : list N * list N) : outcome (list N * list N) :=
  match n with
  | O => Val out
  | S n' =>
      let r := i + N.of_nat j in
      bind (read (fst out) r) (fun v0 => bind (read (snd out) r) (fun v1 =>
      bind (xor_entries2 in0 in1 (firstn d (skipn (j * d) idxs)) v0 v1) (fun val =>
      encode2_rows d in0 in1 idxs i (S j) n'
        (set_nth (fst out) (N.to_nat r) (fst val), set_nth (snd out) (N.to_nat r) (snd val)))))
  end.
Fixpoint encode2_loop (fuel : nat) (rp : N -> N) (c : lcode) (d : nat) (in0 in1 : list N) (i : N) (out : list N * list N)
    : outcome (list N * list N) :=
  let size := N.of_nat (Nat.min (length (fst out)) (length (snd out))) in
  if size <=? i then Val out
  else match fuel with
       | O => Hangs
       | S f =>
           let limit := N.to_nat (N.min (N.of_nat batch) ((size mod 2 ^ 32 + 2 ^ 32 - i) mod 2 ^ 32)) in
           bind (encode2_rows d in0 in1 (gen_indexes rp c i (div_ceil4 (limit * d))) i 0 limit out)
             (encode2_loop f rp c d in0 in1 ((i + N.of_nat batch) mod 2 ^ 32))
       end.
Definition encode2 (rp : N -> N) (c : lcode) (d : nat) (in0 out0 in1 out1 : list N) : outcome (list N * list N) :=
  if (N.of_nat (length in0) =? dim c) && (N.of_nat (length in1) =? dim c)
  then encode2_loop (S (Nat.min (length out0) (length out1) / batch)) rp c d in0 in1 0 (out0, out1)
  else Thrown.

(** ** Expand-accumulate code *)
(** ExAccCode (constructors), ea_code.h:81-86; n and m are uint32_t. *)
Record ecode := { e_n : N; e_m : N }.
Definition make_ecode (d : nat) (n m : N) : outcome ecode :=
  if (n <=? m) && (N.of_nat d <? n) then Val {| e_n := n; e_m := m |} else Thrown.
Definition make_ecode1 (d : nat) (n : N) : outcome ecode := make_ecode d n ((2 * n) mod 2 ^ 32).
(** Accumulate, ea_code.h:162-166: std::partial_sum with xor, in place. *)
Fixpoint accumulate_from (acc : N) (l : list N) : list N :=
  match l with [] => [] | a :: l' => N.lxor acc a :: accumulate_from (N.lxor acc a) l' end.
Definition accumulate (l : list N) : list N := accumulate_from 0 l.
(** DualEncodeImpl, ea_code.h:131-140 with Expand, ea_code.h:168-171: returns
    the modified input and the output.  rp is the permutation under the fixed
    seed 0x12456789.  When the encoder throws, the input has already been
    accumulated; the model only reports the exception. *)
Definition dual_encode (rp : N -> N) (d : nat) (e : ecode) (inp out : list N) : outcome (list N * list N) :=
  if (e_m e <=? N.of_nat (length inp)) && (e_n e <=? N.of_nat (length out))
  then let y := accumulate inp in
       bind (make_lcode (e_m e)) (fun c => bind (encode rp c d y out) (fun o => Val (y, o)))
  else Thrown.
(** DualEncode2Impl, ea_code.h:142-160 with Expand2, ea_code.h:173-177. *)
Definition dual_encode2 (rp : N -> N) (d : nat) (e : ecode) (in0 out0 in1 out1 : list N)
    : outcome ((list N * list N) * (list N * list N)) :=
  if (e_m e <=? N.of_nat (length in0)) && (e_m e <=? N.of_nat (length in1)) &&
     (e_n e <=? N.of_nat (length out0)) && (e_n e <=? N.of_nat (length out1))
  then let y0 := accumulate in0 in let y1 := accumulate in1 in
       bind (make_lcode (e_m e)) (fun c => bind (encode2 rp c d y0 out0 y1 out1) (fun o => Val ((y0, fst o), (y1, snd o))))
  else Thrown.
