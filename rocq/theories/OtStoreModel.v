(** Model of yacl/kernel/type/slice_base.{h,cc} and ot_store.{h,cc}.  Counters
    are uint64_t values; the block and bit buffers, shared by a store and its
    slices through shared_ptr, are passed next to the counters. *)
From Coq Require Import List ZArith Bool.
Import ListNotations.
Open Scope Z_scope.

Definition u64 (x : Z) : Z := x mod 2 ^ 64.

(** SliceBase (slice_base.h:77-84): use counter, use size, buffer counter, buffer size. *)
Record ctrs := mkCtrs { uctr : Z; usize : Z; bctr : Z; bsize : Z }.

(** ConsistencyCheck (slice_base.cc:24-37, ot_store.cc:178-187, 217-223); [len] is
    the size of the block buffer.  The override runs inside the constructors. *)
Definition check (len : Z) (c : ctrs) : bool :=
  (0 <? usize c) && (0 <? bsize c) && (usize c <=? bsize c) && (bctr c <=? bsize c) && (bsize c <=? len).

(** ResetSlice (slice_base.h:28-32). *)
Definition reset_slice (c : ctrs) : ctrs := mkCtrs 0 (bsize c) 0 (bsize c).

(** Blocks per OT: 1 for a receiver and a compact sender, 2 for a normal sender. *)
Definition slice (k len b e : Z) : option ctrs :=
  (** OtRecvStore::Slice (74-91), OtSendStore::Slice (227-246). *)
  let c := mkCtrs (u64 (b * k)) (u64 (u64 (e - b) * k)) (u64 (b * k)) (u64 (e * k)) in
  if check len c then Some c else None.

(** IncreaseBufCtr (slice_base.cc:57-64). *)
Definition increase (c : ctrs) (size : Z) : option ctrs :=
  if size <=? u64 (bsize c - bctr c) then Some (mkCtrs (uctr c) (usize c) (u64 (bctr c + size)) (bsize c)) else None.

(** NextSlice (48-70, 248-275): the new slice and the parent after the call;
    [None]: thrown, the parent is as before. *)
Definition next_slice (k len : Z) (c : ctrs) (num : Z) : option (ctrs * ctrs) :=
  match slice k len (bctr c / k) (u64 (bctr c / k + num)) with
  | None => None
  | Some out => match increase c (u64 (num * k)) with
                | None => None
                | Some c' => Some (out, c')
                end
  end.

(** Constructors (37-46, 202-212); [None]: thrown (num = 0). *)
Definition new_ctrs (k num : Z) : option ctrs :=
  let n := u64 (num * k) in
  let c := mkCtrs 0 n 0 n in if check n c then Some c else None.

(** Memory accesses: thrown, undefined behaviour or a value. *)
Inductive res (A : Type) := Ok (a : A) | Throw | UB.
Arguments Ok {A} a. Arguments Throw {A}. Arguments UB {A}.

(** GetBufIdx (slice_base.cc:49-55). *)
Definition buf_idx (c : ctrs) (i : Z) : option Z :=
  if i <? usize c then Some (u64 (uctr c + i)) else None.
(** vector::operator[] is unchecked. *)
Definition at_ {A} (buf : list A) (i : Z) : res A :=
  if i <? 0 then UB else match nth_error buf (Z.to_nat i) with Some x => Ok x | None => UB end.

(** OtRecvStore::GetBlock (101-104). *)
Definition recv_block (c : ctrs) (blk : list Z) (i : Z) : res Z :=
  if i <? usize c then match buf_idx c i with None => Throw | Some j => at_ blk j end else Throw.
(** OtRecvStore::GetChoice (132-141). *)
Definition recv_choice (compact : bool) (c : ctrs) (blk : list Z) (bits : list bool) (i : Z) : res bool :=
  match buf_idx c i with
  | None => Throw
  | Some j => if compact then match at_ blk j with Ok w => Ok (Z.odd w) | Throw => Throw | UB => UB end
              else at_ bits j
  end.
(** OtSendStore::Size, GetBlock (277-283, 296-306). *)
Definition send_size (k : Z) (c : ctrs) : Z := usize c / k.
Definition send_block (k delta : Z) (c : ctrs) (blk : list Z) (ot msg : Z) : res Z :=
  if negb ((msg =? 0) || (msg =? 1)) then Throw
  else if delta =? 0 then
    match buf_idx c (u64 (2 * ot)) with None => Throw | Some j => at_ blk (u64 (j + msg)) end
  else
    match buf_idx c (u64 (k * ot)) with
    | None => Throw
    | Some j => match at_ blk j with Ok w => Ok (Z.lxor w (delta * msg)) | Throw => Throw | UB => UB end
    end.

Fixpoint upd {A} (l : list A) (i : nat) (x : A) : list A :=
  match l, i with
  | [], _ => []
  | _ :: r, O => x :: r
  | y :: r, S j => y :: upd r j x
  end.
Definition put {A} (buf : list A) (i : Z) (x : A) : res (list A) :=
  if (0 <=? i) && (i <? Z.of_nat (length buf)) then Ok (upd buf (Z.to_nat i) x) else UB.
(** SetBlock, SetChoice, SetCompactBlock, SetNormalBlock (106-108, 143-147, 308-323). *)
Definition recv_set_block (c : ctrs) (blk : list Z) (i v : Z) : res (list Z) :=
  match buf_idx c i with None => Throw | Some j => put blk j v end.
Definition recv_set_choice (c : ctrs) (bits : list bool) (i : Z) (v : bool) : res (list bool) :=
  match buf_idx c i with None => Throw | Some j => put bits j v end.
Definition send_set_compact (c : ctrs) (blk : list Z) (i v : Z) : res (list Z) :=
  match buf_idx c i with None => Throw | Some j => put blk j v end.
Definition send_set_normal (c : ctrs) (blk : list Z) (i msg v : Z) : res (list Z) :=
  if negb ((msg =? 0) || (msg =? 1)) then Throw
  else match buf_idx c (u64 (u64 (i * 2) + msg)) with None => Throw | Some j => put blk j v end.

(** CopyBlkBuf (127-130) and CopyCotBlkBuf (341-346): iterator ranges. *)
Definition copy_range (blk : list Z) (start size : Z) : res (list Z) :=
  if start + size <=? Z.of_nat (length blk) then Ok (firstn (Z.to_nat size) (skipn (Z.to_nat start) blk)) else UB.
Definition recv_copy_blk (c : ctrs) (blk : list Z) : res (list Z) := copy_range blk (uctr c) (usize c).
Definition send_copy_cot (c : ctrs) (blk : list Z) : res (list Z) := copy_range blk (bctr c) (usize c).
(** CopyBitBuf in normal mode (163-176): shift down by the use counter, then resize. *)
Definition recv_copy_bits (c : ctrs) (bits : list bool) : list bool :=
  let shifted := skipn (Z.to_nat (uctr c)) bits ++ repeat false (min (Z.to_nat (uctr c)) (length bits)) in
  firstn (Z.to_nat (usize c)) (shifted ++ repeat false (Z.to_nat (usize c))).

(** Reset (93-99, 214-219): SliceBase::Reset zeroes the counters and then runs the
    check.  StealBlkBuf (120-125, 334-339) moves the buffer out and calls Reset;
    [None]: thrown, the moved-out buffer is destroyed. *)
Definition reset (len : Z) : option ctrs :=
  let c := mkCtrs 0 0 0 0 in if check len c then Some c else None.
Definition steal {A} (blk : list A) : option (list A * ctrs) :=
  match reset (Z.of_nat (length blk)) with None => None | Some c => Some (blk, c) end.

(** Histories: handles are created by NextSlice on any earlier handle. *)
Definition op := (nat * Z)%type.
Definition step (k len : Z) (hs : list ctrs) (o : op) : list ctrs :=
  match nth_error hs (fst o) with
  | None => hs
  | Some c => match next_slice k len c (snd o) with
              | None => hs
              | Some (out, c') => upd hs (fst o) c' ++ [out]
              end
  end.
Definition run (k len : Z) (hs : list ctrs) (os : list op) : list ctrs := fold_left (step k len) os hs.
