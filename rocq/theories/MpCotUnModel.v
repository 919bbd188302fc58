(** Model of the multi-point COT with uniform noise, yacl/kernel/algorithms/ferret_ote_un.h:
    MakeSimpleMap, MpCotUNHelper, MpCotUNSend and MpCotUNRecv.  [code i] is the random
    permutation kRP (line 41) applied to the block i; [h] is CcrHash_128 inside the single
    point COT.  An unordered_map of the simple table is the list of its (key, value) pairs,
    in order of insertion: the values are combined by ^= into distinct positions, so the
    order of iteration does not matter.  The COT stores are not slices themselves (Slice
    counts from the start of the buffer, ot_store.cc:76-94).  The number of bins is a
    parameter, as in CuckooModel, and positive. *)
From Coq Require Import ZArith NArith List Bool Arith.
From Verif Require Import LinCodeModel SpcotModel.
From Verif Require CuckooModel.
Import ListNotations.
Local Open Scope nat_scope.

Definition bin := list (nat * nat).

(** unordered_map::find / at. *)
Fixpoint find (k : nat) (b : bin) : option nat :=
  match b with
  | [] => None
  | (x, v) :: b' => if x =? k then Some v else find k b'
  end.
(** [insert({i, size()})]: nothing happens if the key is present. *)
Definition put (i : nat) (b : bin) : bin :=
  match find i b with Some _ => b | None => b ++ [(i, length b)] end.
Fixpoint push (c i : nat) (m : list bin) : list bin :=
  match m, c with
  | [], _ => []
  | b :: m', O => put i b :: m'
  | b :: m', S c' => b :: push c' i m'
  end.

Section Un.
Variable code : nat -> Z.

(** [itemHash.GetHash(hi) % bin_num], lines 63, 66, 71. *)
Definition bin_of (nb i : nat) (hi : Z) : nat := Z.to_nat (CuckooModel.get_hash (code i) hi mod Z.of_nat nb).
(** One iteration of lines 58-76. *)
Definition simple_step (nb : nat) (m : list bin) (i : nat) : list bin :=
  let b0 := bin_of nb i 0 in
  let m := push b0 i m in
  let b1 := bin_of nb i 1 in
  let m := if b1 =? b0 then m else push b1 i m in
  let b2 := bin_of nb i 2 in
  if (b2 =? b0) || (b2 =? b1) then m else push b2 i m.
(** MakeSimpleMap, lines 44-79. *)
Definition make_simple (nb n : nat) : list bin := fold_left (simple_step nb) (seq 0 n) (repeat [] nb).

(** MpCotUNHelper, lines 100-105. *)
Definition helper (idx_range nb : nat) : nat := log2ceil idx_range * nb.
(** The COTs that lines 117-128 use: they stop at the first empty bin. *)
Fixpoint cots_used (m : list bin) : nat :=
  match m with
  | [] => 0
  | b :: m' => if length b =? 0 then 0 else log2ceil (S (length b)) + cots_used m'
  end.

(** cot.Slice(begin, begin + k). *)
Definition slice {A} (off k : nat) (l : list A) : list A := firstn k (skipn off l).

Section Run.
Variable h : N -> N.
Variable delta : N.
Variable base : list (N * N).
Variable bits : list bool.
Variable blks : list N.
Variable idxes : list nat.
(** SecureRandSeed() of the sender for each bin, and what the uninitialised vectors
    s[i] and r[i] hold after resize. *)
Variable seeds : nat -> N.
Variables junk_s junk_r : nat -> nat -> N.

(** spcot_idx, lines 167-171. *)
Definition point (b : bin) (e : Z) : outcome nat :=
  if (e =? CuckooModel.kEmpty)%Z then Val (S (length b) - 1)
  else match nth_error idxes (Z.to_nat (CuckooModel.input_idx e)) with
       | None => OutOfBounds
       | Some x => match find x b with Some p => Val p | None => Thrown end
       end.

(** The loops 118-128 and 162-179, both parties bin by bin: [i] is the bin, [off] is
    slice_begin.  The results are s[i] and r[i]; bins not reached keep empty vectors. *)
Fixpoint run_bins (i off : nat) (bs : list (bin * Z)) : outcome (list (list N * list N)) :=
  match bs with
  | [] => Val []
  | (b, e) :: bs' =>
      if length b =? 0 then Val (map (fun _ => ([], [])) bs)
      else
        let n := S (length b) in
        let k := log2ceil n in
        bind (point b e) (fun idx =>
        match run_gywz h delta (slice off k base) (slice off k bits) (slice off k blks) n idx (seeds i)
                       (map (junk_s i) (seq 0 n)) (map (junk_r i) (seq 0 n)) with
        | None => Thrown
        | Some sr => bind (run_bins (S i) (off + k) bs') (fun l => Val (sr :: l))
        end)
  end.

(** Lines 136-138 and 183-185: [out[x.first] ^= s[i][x.second]]. *)
Fixpoint xor_bin (b : bin) (s out : list N) : outcome (list N) :=
  match b with
  | [] => Val out
  | (k, v) :: b' =>
      match nth_error s v, nth_error out k with
      | Some x, Some y => xor_bin b' s (set_nth k (N.lxor y x) out)
      | _, _ => OutOfBounds
      end
  end.
(** Lines 132-139: the sender skips empty bins. *)
Fixpoint sum_send (m : list bin) (s : list (list N)) (out : list N) : outcome (list N) :=
  match m, s with
  | b :: m', x :: s' => if length b =? 0 then sum_send m' s' out
                        else bind (xor_bin b x out) (sum_send m' s')
  | _, _ => Val out
  end.
(** Lines 182-186: the receiver stops at the first one. *)
Fixpoint sum_recv (m : list bin) (r : list (list N)) (out : list N) : outcome (list N) :=
  match m, r with
  | b :: m', x :: r' => if length b =? 0 then Val out
                        else bind (xor_bin b x out) (sum_recv m' r')
  | _, _ => Val out
  end.

(** MpCotUNSend (107-140) with MpCotUNRecv (142-187): the outputs of the two parties.
    An exception in the insertion or in one of the single point COTs ends both. *)
Definition run_un (o : CuckooModel.opts) (m : list bin) (outs outr : list N) : outcome (list N) * outcome (list N) :=
  match CuckooModel.new_table o with
  | None => (Thrown, Thrown)
  | Some t =>
      match CuckooModel.insert o t (map code idxes) with
      | CuckooModel.UB => (OutOfBounds, OutOfBounds)
      | CuckooModel.Threw _ _ => (Thrown, Thrown)
      | CuckooModel.Done t' =>
          match run_bins 0 0 (combine m (CuckooModel.bins t')) with
          | Val l => (sum_send m (map fst l) (map (fun _ => 0%N) outs), sum_recv m (map snd l) (map (fun _ => 0%N) outr))
          | Thrown => (Thrown, Thrown)
          | OutOfBounds => (OutOfBounds, OutOfBounds)
          | Hangs => (Hangs, Hangs)
          end
      end
  end.
End Run.
End Un.
