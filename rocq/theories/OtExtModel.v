(** Model of the IKNP and KOS OT extensions: yacl/kernel/algorithms/iknp_ote.cc and
    kos_ote.cc.  Blocks are [N].  Both parties are functions of their inputs and of
    the messages received; batch i is sent and received under its own key (see
    ChanProps for the delivery of messages).  The PRG (PrgAesCtr), the hash
    (ParaCrHashInplace_128, applied to each block separately, crhash.cc:98-125) and the
    transpose chosen for the platform (matrix_utils.cc) are arguments.  Sizes are far
    below 2^64, so no size_t computation wraps. *)
From Coq Require Import List NArith ZArith Bool.
From Verif Require Import GfModel.
Import ListNotations.

Open Scope nat_scope.

(** MatrixTranspose128 on blocks; [tr] is the implementation on Z words (TransModel). *)
Definition transpose (tr : list Z -> list Z) (m : list N) : list N := map Z.to_N (tr (map Z.of_N m)).

(** (n + kBatchSize - 1) / kBatchSize, iknp_ote.cc:48, 110; kos_ote.cc:127, 222. *)
Definition batch_num (n : nat) : nat := (n + 127) / 128.

(** The i-th 128-bit word of a bit set: dynamic_bitset<uint128_t>::data()[i]; bits
    beyond the end are zero, as after resize (iknp_ote.cc:126, kos_ote.cc:107). *)
Definition bits_word (bits : list bool) : N := fold_right (fun (b : bool) acc => ((if b then 1 else 0) + 2 * acc)%N) 0%N bits.
Definition choice_word (choices : list bool) (i : nat) : N := bits_word (firstn 128 (skipn (128 * i) choices)).

Section Ext.
Variable prg : N -> nat -> list N.
Variable hash : N -> N.
Variable tr : list Z -> list Z.

(** iknp_ote.cc:57-60, 117-123; kos_ote.cc:66-90 (ExtendBaseOt). *)
Definition extend (blocks : list N) (block_num : nat) : list (list N) := map (fun b => prg b block_num) blocks.
(** Row k, block i. *)
Definition at_ (m : list (list N)) (k i : nat) : N := nth i (nth k m []) 0%N.

(** u = G(K_0) ^ G(K_1) ^ r for the batch (iknp_ote.cc:142-148; kos_ote.cc:236-240). *)
Definition u_batch (t0 t1 : list (list N)) (i : nat) (r : N) : list N :=
  map (fun k => N.lxor (N.lxor (at_ t0 k i) (at_ t1 k i)) r) (seq 0 128).
(** iknp_ote.cc:150-151; kos_ote.cc:274-277. *)
Definition column (t : list (list N)) (i : nat) : list N := map (fun k => at_ t k i) (seq 0 128).

(** IknpOtExtRecv (103-180): the messages, one per batch, and the blocks. *)
Definition iknp_recv (k0 k1 : list N) (choices : list bool) (cot : bool) : list (list N) * list N :=
  let n := length choices in
  let bn := batch_num n in
  let t0 := extend k0 bn in
  let t1 := extend k1 bn in
  (map (fun i => u_batch t0 t1 i (choice_word choices i)) (seq 0 bn),
   flat_map (fun i =>
     let batch := transpose tr (column t0 i) in
     let batch := if cot then batch else map hash batch in
     firstn (Nat.min 128 (n - i * 128)) batch) (seq 0 bn)).

(** IknpOtExtSend (39-101): [s] is the word of base choices (CopyBitBuf().data()[0]). *)
Definition iknp_q (s : N) (ts : list (list N)) (u : list N) (i : nat) : list N :=
  map (fun k => if N.testbit s (N.of_nat k) then N.lxor (nth k u 0%N) (at_ ts k i) else at_ ts k i) (seq 0 128).
Definition iknp_send (s : N) (ks : list N) (n : nat) (cot : bool) (msgs : list (list N)) : list (N * N) :=
  let bn := batch_num n in
  let ts := extend ks bn in
  flat_map (fun i =>
    let batch0 := transpose tr (iknp_q s ts (nth i msgs []) i) in
    let batch1 := map (fun b => N.lxor b s) batch0 in
    let batch0 := if cot then batch0 else map hash batch0 in
    let batch1 := if cot then batch1 else map hash batch1 in
    firstn (Nat.min 128 (n - i * 128)) (combine batch0 batch1)) (seq 0 bn).

(** ** KOS *)
(** reinterpret_cast<uint64_t*> of blocks (little endian). *)
Definition as_u64 (l : list N) : list N := flat_map (fun w => [lo64 w; hi64 w]) l.
Definition kS : nat := 64.
(** math::Gf64Mul on spans, gf_intrinsic.cc:122-127, throws on different sizes. *)
Definition inner (a b : list N) : option N := gf64_mul_span a b.
(** [prg64 seed n]: PrgAesCtr into n uint64_t. *)
Variable prg64 : N -> nat -> list N.

(** CheckMsg: x and the t[k] (kos_ote.cc:39-59). *)
Notation checkmsg := (N * list N)%type (only parsing).

Fixpoint all_some {A} (l : list (option A)) : option (list A) :=
  match l with
  | [] => Some []
  | None :: _ => None
  | Some x :: r => match all_some r with Some y => Some (x :: y) | None => None end
  end.

(** KosOtExtRecv (207-311), first part: the batches. [rnd]: the kS random bits of
    ExtendChoice (92-109). *)
Definition kos_choice (choices rnd : list bool) : list bool := choices ++ firstn kS rnd.
Definition kos_recv_batches (k0 k1 : list N) (choices rnd : list bool) : list (list N) :=
  let bn := batch_num (length choices + kS) in
  let t0 := extend k0 bn in
  let t1 := extend k1 bn in
  map (fun i => u_batch t0 t1 i (choice_word (kos_choice choices rnd) i)) (seq 0 bn).
(** Consistency check message, from the sender's [seed] (244-268). *)
Definition kos_recv_check (k0 : list N) (choices rnd : list bool) (seed : N) : option checkmsg :=
  let bn := batch_num (length choices + kS) in
  let t0 := extend k0 bn in
  let samples := prg64 seed (bn * 2) in
  let words := map (choice_word (kos_choice choices rnd)) (seq 0 bn) in
  match inner samples (as_u64 words), all_some (map (fun k => inner samples (as_u64 (nth k t0 []))) (seq 0 128)) with
  | Some x, Some t => Some (x, t)
  | _, _ => None
  end.
(** Output blocks (270-310). *)
Definition kos_recv_out (k0 : list N) (choices : list bool) (cot : bool) : list N :=
  let ext := length choices + kS in
  let bn := batch_num ext in
  let t0 := extend k0 bn in
  let t_ext := flat_map (fun i => firstn (Nat.min 128 (ext - i * 128)) (transpose tr (column t0 i))) (seq 0 bn) in
  let t_ext := firstn (length choices) t_ext in
  if cot then t_ext else map hash t_ext.

(** KosOtExtSend (114-205). The matrix after the batches (140-158). *)
Definition kos_q (s : N) (ks : list N) (bn : nat) (msgs : list (list N)) : list (list N) :=
  let ts := extend ks bn in
  map (fun k => map (fun i =>
      if N.testbit s (N.of_nat k) then N.lxor (at_ ts k i) (nth k (nth i msgs []) 0%N) else at_ ts k i) (seq 0 bn))
    (seq 0 128).
(** The check (160-186): [None] when YACL_ENFORCE throws. *)
Definition kos_check (s : N) (q : list (list N)) (bn : nat) (seed : N) (c : checkmsg) : bool :=
  let samples := prg64 seed (bn * 2) in
  forallb (fun k =>
    match inner samples (as_u64 (nth k q [])) with
    | None => false
    | Some qc => (if N.testbit s (N.of_nat k) then N.lxor (nth k (snd c) 0%N) (fst c) else nth k (snd c) 0%N) =? qc
    end)%N (seq 0 128).
Definition kos_send (s : N) (ks : list N) (n : nat) (cot : bool) (msgs : list (list N)) (seed : N) (c : checkmsg)
  : option (list (N * N)) :=
  let ext := n + kS in
  let bn := batch_num ext in
  let q := kos_q s ks bn msgs in
  if kos_check s q bn seed c
  then
    let q_ext := flat_map (fun i => firstn (Nat.min 128 (ext - i * 128)) (transpose tr (column q i))) (seq 0 bn) in
    let batch0 := firstn n q_ext in
    let batch1 := map (fun b => N.lxor b s) batch0 in
    Some (if cot then combine batch0 batch1 else combine (map hash batch0) (map hash batch1))
  else None.
End Ext.

(** Two honest parties. *)
Definition run_iknp prg hash tr (k0 k1 : list N) (s : N) (ks : list N) (choices : list bool) (cot : bool)
  : list (N * N) * list N :=
  let '(msgs, out) := iknp_recv prg hash tr k0 k1 choices cot in
  (iknp_send prg hash tr s ks (length choices) cot msgs, out).
Definition run_kos prg hash tr prg64 (k0 k1 : list N) (s : N) (ks : list N) (choices rnd : list bool) (seed : N) (cot : bool)
  : option (list (N * N)) * list N :=
  (match kos_recv_check prg prg64 k0 choices rnd seed with
   | Some c => kos_send prg hash tr prg64 s ks (length choices) cot (kos_recv_batches prg k0 k1 choices rnd) seed c
   | None => None
   end,
   kos_recv_out prg hash tr k0 choices cot).
