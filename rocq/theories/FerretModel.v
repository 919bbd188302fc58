(** Model of the Ferret OT extension: yacl/kernel/algorithms/ferret_ote.cc and
    ferret_ote_rn.h (regular noise; the uniform noise branch throws "Not
    Implemented!").  Blocks are 128-bit words in [N].  Parameters and the batch plan
    are uint64_t values in [N] with their wrapping arithmetic; lengths of spans and
    positions inside them are [nat].  CcrHash_128, AES under the shared seed and
    Blake3 are arguments; every seed drawn with SecureRandSeed is read from a tape. *)
From Coq Require Import NArith List Bool Arith.
From Verif Require Import GfModel LinCodeModel SpcotModel.
Import ListNotations.
Open Scope nat_scope.

Definition w64 (x : N) : N := (x mod 2 ^ 64)%N.
Definition sub64 (a b : N) : N := w64 (a + (2 ^ 64 - w64 b))%N.
Definition of_opt {A} (x : option A) : outcome A := match x with Some a => Val a | None => Thrown end.

(** LpnParam (secparam.h:146-159), regular noise. *)
Record lpn := mkLpn { ln : N; lk : N; lt : N }.

(** MpCotRNHelper (ferret_ote_rn.h:34-42); [OutOfBounds]: division by zero. *)
Definition mpcot_helper (t n : N) (mal : bool) : outcome N :=
  if (t =? 0)%N then OutOfBounds else
  let size := (w64 (sub64 (n + t) 1) / t)%N in
  let last := sub64 n (w64 (size * sub64 t 1)) in
  bind (of_opt (log2_ceil size)) (fun a =>
  bind (of_opt (log2_ceil last)) (fun b =>
  Val (w64 (a * sub64 t 1 + b + if mal then 128 else 0)))).
(** FerretCotHelper (ferret_ote.cc:28-50). *)
Definition cot_helper (p : lpn) (mal : bool) : outcome N :=
  bind (mpcot_helper (lt p) (ln p) false) (fun m => Val (w64 (lk p + m + if mal then 128 else 0))).

(** A compact store: the shared buffer and the window of this handle
    (slice_base.h, ot_store.h).  For the sender the buffer holds the blocks of
    message 0; message 1 is that block xor delta, delta <> 0 (ot_store.cc:296-306). *)
Record store := mkStore { s_buf : list N; s_off : nat; s_len : nat }.
(** Slice (ot_store.cc:74-91, 227-246): positions count from the start of the shared
    buffer, whatever window the handle has.  See OtStoreModel for the counters. *)
Definition slice (c : store) (b e : nat) : outcome store :=
  if (b <? e) && (e <=? length (s_buf c)) then Val (mkStore (s_buf c) b (e - b)) else Thrown.
(** GetBlock(i) and GetBlock(i, 0) (101-104, 296-306). *)
Definition get_block (c : store) (i : nat) : outcome N :=
  if i <? s_len c then
    match nth_error (s_buf c) (s_off c + i) with Some x => Val x | None => OutOfBounds end
  else Thrown.
(** CopyBlkBuf, CopyCotBlkBuf (127-130, 341-346). *)
Definition blocks (c : store) : list N := firstn (s_len c) (skipn (s_off c) (s_buf c)).
(** MakeCompactOtSendStore, MakeCompactOtRecvStore (189-200, 61-72). *)
Definition new_store (l : list N) : store := mkStore l 0 (length l).

(** absl::Span::subspan of a range inside the span, and the write back through it. *)
Definition span (l : list N) (pos len : nat) : list N := firstn len (skipn pos l).
Definition splice (l : list N) (pos : nat) (vals : list N) : list N := firstn pos l ++ vals ++ skipn (pos + length vals) l.

Section Ferret.
(** CcrHash_128. *)
Variable h : N -> N.
(** Blake3 of a serialized uint128_t. *)
Variable digest : N -> N.
(** OtSendStore::GetDelta of the base COTs. *)
Variable delta : N.

(** GywzOtExtSend_ferret (gywz_ote.cc:228-262): output and message. *)
Definition gywz_send (cot : store) (n : nat) (seed : N) (out : list N) : outcome (list N * list N) :=
  let k := log2ceil n in
  if negb (s_len cot =? k) || (n <=? 1) then Thrown else
  let (o, sums) := full_eval h but_lsb (N.land delta but_lsb) (N.land seed but_lsb) n out in
  Val (o, map (fun i => N.lxor (nth i sums 0%N) (N.land (N.lxor (nth i (blocks cot) 0%N) delta) but_lsb)) (seq 0 k)).
(** GywzOtExtRecv_ferret (199-226).  The message is copied with its own length into
    a buffer of [k] blocks: a longer one is written out of bounds, a shorter one
    leaves blocks uninitialised (also [OutOfBounds]). *)
Definition gywz_recv (cot : store) (n : nat) (msg : list N) (out : list N) : outcome (list N) :=
  let k := log2ceil n in
  if negb (s_len cot =? k) || (n <=? 1) then Thrown else
  if negb (length msg =? k) then OutOfBounds else
  let blks := blocks cot in
  let index := bits_nat (map N.odd (firstn k blks)) in
  let sib := map (fun i => N.lxor (nth i msg 0%N) (N.land (nth i blks 0%N) but_lsb)) (seq 0 k) in
  let r := punc_eval h but_lsb index sib n out in
  Val (if index <? n then set_nth index (N.lor (nth index r 0%N) 1) r else r).

(** The loop over the bins of MpCotRNSend (ferret_ote_rn.h:58-64), bins i, i+1, ...;
    one message per bin. *)
Fixpoint send_bins (cot : store) (bs bl : nat) (tape : nat -> N) (i todo : nat) (out : list N)
  : outcome (list N * list (list N)) :=
  match todo with
  | O => Val (out, [])
  | S m =>
      bind (slice cot (i * bl) (i * bl + bl)) (fun c =>
      bind (gywz_send c bs (tape i) (span out (i * bs) bs)) (fun om =>
      bind (send_bins cot bs bl tape (S i) m (splice out (i * bs) (fst om))) (fun r =>
      Val (fst r, snd om :: snd r))))
  end.
(** DivCeil (math/gadget.h:33-35); the divisor is not zero where it is called. *)
Definition div_ceil (x y : nat) : nat := if x =? 0 then 0 else 1 + (x - 1) / y.
(** MpCotRNSend before the check (44-76); the size of a bin is [bs] = spcot_size.
    [OutOfBounds]: division by zero. *)
Definition mpcot_send (cot : store) (range t bs : nat) (tape : nat -> N) (out : list N) : outcome (list N * list (list N)) :=
  if bs =? 0 then OutOfBounds else
  let bn := div_ceil range bs in
  if negb (bn <=? t) || negb (1 <=? bn) then Thrown else
  let last := range - (bn - 1) * bs in
  let bl := log2ceil bs in
  bind (send_bins cot bs bl tape 0 (bn - 1) out) (fun r =>
  let pos := (bn - 1) * bs in
  if last =? 1 then
    bind (get_block cot ((bn - 1) * bl)) (fun b => Val (splice (fst r) pos [b], snd r))
  else
    bind (slice cot ((bn - 1) * bl) ((bn - 1) * bl + log2ceil last)) (fun c =>
    bind (gywz_send c last (tape (bn - 1)) (span (fst r) pos last)) (fun om =>
    Val (splice (fst r) pos (fst om), snd r ++ [snd om])))).
(** MpCotRNRecv before the check (105-137). *)
Fixpoint recv_bins (cot : store) (bs bl i todo : nat) (msgs : list (list N)) (out : list N) : outcome (list N * list (list N)) :=
  match todo with
  | O => Val (out, msgs)
  | S m =>
      bind (slice cot (i * bl) (i * bl + bl)) (fun c =>
      bind (gywz_recv c bs (hd [] msgs) (span out (i * bs) bs)) (fun o =>
      recv_bins cot bs bl (S i) m (tl msgs) (splice out (i * bs) o)))
  end.
Definition mpcot_recv (cot : store) (range t bs : nat) (msgs : list (list N)) (out : list N) : outcome (list N) :=
  if bs =? 0 then OutOfBounds else
  let bn := div_ceil range bs in
  if negb (bn <=? t) || negb (1 <=? bn) then Thrown else
  let last := range - (bn - 1) * bs in
  let bl := log2ceil bs in
  bind (recv_bins cot bs bl 0 (bn - 1) msgs out) (fun r =>
  let pos := (bn - 1) * bs in
  if last =? 1 then
    bind (get_block cot ((bn - 1) * bl)) (fun b => Val (splice (fst r) pos [b]))
  else
    bind (slice cot ((bn - 1) * bl) ((bn - 1) * bl + log2ceil last)) (fun c =>
    bind (gywz_recv c last (hd [] (snd r)) (span (fst r) pos last)) (fun o =>
    Val (splice (fst r) pos o)))).

(** The COTs of the consistency check (79-82, 140-142). *)
Definition check_slice (cot : store) (range bs : nat) : outcome store :=
  let bn := div_ceil range bs in
  let p := log2ceil bs * (bn - 1) + log2ceil (range - (bn - 1) * bs) in
  slice cot p (p + 128).
(** The sender's half of the check (83-102): the digest it sends, given the seed it
    drew and the receiver's masked choices. *)
Definition send_check (c : store) (seed : N) (out : list N) (choices : N) : outcome N :=
  let uhash := universal_hash gf128_mul seed out in
  let data := map (fun i => N.lxor (nth i (blocks c) 0%N) (if N.testbit choices (N.of_nat i) then delta else 0%N)) (seq 0 128) in
  bind (of_opt (gf128_pack data)) (fun diff => Val (digest (N.lxor uhash diff))).
(** The receiver's half (143-172): its message, and the value whose digest must come
    back.  The choices are the lowest bits of the check COTs, CopyBitBuf (150-161).
    [indexes.back()] on an empty vector is undefined. *)
Definition word_of (bits : list bool) : N := fold_right (fun (b : bool) acc => ((if b then 1 else 0) + 2 * acc)%N) 0%N bits.
Definition odd_positions (out : list N) : list N :=
  map N.of_nat (filter (fun i => N.odd (nth i out 0%N)) (seq 0 (length out))).
Definition recv_check (c : store) (seed : N) (out : list N) : outcome (N * N) :=
  let uhash := universal_hash gf128_mul seed out in
  let choices := word_of (map N.odd (blocks c)) in
  bind (of_opt (gf128_pack (blocks c))) (fun diff =>
  match odd_positions out with
  | [] => OutOfBounds
  | indexes => bind (of_opt (extract_hash_coef gf128_mul seed indexes)) (fun coef =>
               Val (fold_left N.lxor coef choices, N.lxor uhash diff))
  end).
Definition recv_accept (value : N) (reply : N) : outcome unit := if (digest value =? reply)%N then Val tt else Thrown.

(** MpCotRNSend and MpCotRNRecv run against each other. *)
Definition run_check (cs cr : store) (range bs : nat) (seed : N) (os orr : list N) : outcome unit :=
  bind (check_slice cs range bs) (fun ks =>
  bind (check_slice cr range bs) (fun kr =>
  bind (recv_check kr seed orr) (fun mv =>
  bind (send_check ks seed os (fst mv)) (fun reply =>
  recv_accept (snd mv) reply)))).
Definition run_mpcot (mal : bool) (cs cr : store) (range t bs : nat) (tape : nat -> N) (seed : N) (os orr : list N)
  : outcome (list N * list N) :=
  bind (mpcot_send cs range t bs tape os) (fun om =>
  bind (mpcot_recv cr range t bs (snd om) orr) (fun r =>
  bind (if mal then run_check cs cr range bs seed (fst om) r else Val tt) (fun _ =>
  Val (fst om, r)))).

(** AES under the seed of SyncSeedSend (ferret_ote.cc:84-85): the matrix of the code. *)
Variable rp : N -> N.
(** The seeds drawn for bin j of batch i, and for the check of batch i. *)
Variable tape : nat -> nat -> N.
Variable check_seed : nat -> N.

(** One round of the loop (105-125, 202-226), both parties: the batch's outputs. *)
Definition run_batch (mal : bool) (code : lcode) (t bs : nat) (i : nat) (v w : list N) (cs cr : store) (os orr : list N)
  : outcome (list N * list N) :=
  bind (run_mpcot mal cs cr (length os) t bs (tape i) (check_seed i) os orr) (fun x =>
  bind (encode rp code 10 v (fst x)) (fun a =>
  bind (encode rp code 10 w (snd x)) (fun b =>
  Val (a, b)))).
(** The loop (104-143, 200-240); [sz] is batch_size and [mp] is mpcot_cot_num.  subspan
    throws if it starts past the end, memcpy past the span is [OutOfBounds]. *)
Fixpoint run_batches (mal : bool) (code : lcode) (p : lpn) (ot sz mp : N) (i fuel : nat) (v w : list N) (cs cr : store)
    (outs outr : list N) : outcome (list N * list N) :=
  match fuel with
  | O => Val (outs, outr)
  | S f =>
      let done := w64 (N.of_nat i * sz) in
      let rest := sub64 ot done in
      let num := N.min (ln p) rest in
      if (ot <? done)%N then Thrown else
      let pos := N.to_nat done in
      let len := N.to_nat num in
      bind (run_batch mal code (N.to_nat (lt p)) (N.to_nat (ln p / lt p)) i v w cs cr (span outs pos len) (span outr pos len)) (fun ab =>
      let outs' := splice outs pos (fst ab) in
      let outr' := splice outr pos (snd ab) in
      if (num <? rest)%N then
        if (N.of_nat (length outs) <? done + sz + lk p + mp)%N then OutOfBounds else
        let b := N.to_nat sz in
        let k := N.to_nat (lk p) in
        let m := N.to_nat mp in
        run_batches mal code p ot sz mp (S i) f
          (span (fst ab) b k) (span (snd ab) b k)
          (new_store (span (fst ab) (b + k) m)) (new_store (span (snd ab) (b + k) m)) outs' outr'
      else Val (outs', outr'))
  end.

(** FerretOtExtSend and FerretOtExtRecv (52-144, 146-242; the versions returning a
    store, 244-408, do the same on a new buffer) and their _cheetah versions (410-571,
    [cheetah] = true).  [outs], [outr]: the two output buffers before the call. *)
Definition ferret (cheetah mal : bool) (p : lpn) (ot : N) (base_s base_r : store) (outs outr : list N)
  : outcome (list N * list N) :=
  bind (cot_helper p false) (fun need =>
  if (N.of_nat (s_len base_s) <? need)%N || (N.of_nat (s_len base_r) <? need)%N then Thrown else
  if negb cheetah && (ot <? w64 (2 * lt p))%N then Thrown else
  if negb (N.of_nat (length outs) =? ot)%N || negb (N.of_nat (length outr) =? ot)%N then Thrown else
  bind (mpcot_helper (lt p) (ln p) mal) (fun mp =>
  let cache := w64 (lk p + mp) in
  let sz := sub64 (ln p) cache in
  if (sz =? 0)%N then OutOfBounds else
  let batches := (w64 (sub64 (ot + sz) 1) / sz)%N in
  let m := N.to_nat mp in
  let k := N.to_nat (lk p) in
  let (bm, bk) := if cheetah then (k, 0) else (0, m) in
  bind (slice base_s bm (bm + m)) (fun cs =>
  bind (slice base_r bm (bm + m)) (fun cr =>
  bind (slice base_s bk (bk + k)) (fun vs =>
  bind (slice base_r bk (bk + k)) (fun vr =>
  bind (make_lcode (lk p)) (fun code =>
  run_batches mal code p ot sz mp 0 (N.to_nat batches) (blocks vs) (blocks vr) cs cr outs outr))))))).
End Ferret.
