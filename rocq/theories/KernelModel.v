(** Model of the application-level kernels: yacl/kernel/ot_kernel.cc, yacl/kernel/svole_kernel.cc
    and the mock and make functions of yacl/kernel/type/ot_store_utils.cc, on top of the models of
    SoftSpoken (SoftModel), Ferret (FerretModel) and silent VOLE (SilentVoleModel).

    Simplified: the two parties are run together.  The stores handed in by the caller are whole
    stores or are marked as sliced (slice_base.h:26, IsSliced: a slice has been taken); slices
    that start at 0 are not modelled.  AES, the hashes and all random values are arguments. *)
From Coq Require Import List NArith ZArith Bool Arith.
From Verif Require Import LinCodeModel SoftModel FerretModel.
Import ListNotations.
Open Scope nat_scope.

(** ** Whole OT stores (ot_store.h, ot_store.cc); see OtStoreModel for slices *)
Record send_store := mkSend { ss_normal : bool; ss_sliced : bool; ss_delta : N; ss_blk : list N }.
Record recv_store := mkRecv { rs_normal : bool; rs_sliced : bool; rs_bits : list bool; rs_blk : list N }.
(** OtSendStore::Size, OtRecvStore::Size (ot_store.cc:283-289, ot_store.h). *)
Definition ss_size (s : send_store) : nat := if ss_normal s then length (ss_blk s) / 2 else length (ss_blk s).
Definition rs_size (r : recv_store) : nat := length (rs_blk r).
(** operator[] of the buffer after GetBufIdx (slice_base.cc: enforces the index). *)
Definition at_idx {A} (l : list A) (i extra : nat) : outcome A :=
  if i <? length l then match nth_error l (i + extra) with Some x => Val x | None => OutOfBounds end else Thrown.
(** OtSendStore::GetBlock (303-313). *)
Definition send_get (s : send_store) (i msg : nat) : outcome N :=
  if negb (msg <? 2) then Thrown else
  if (ss_delta s =? 0)%N then at_idx (ss_blk s) (2 * i) msg
  else bind (at_idx (ss_blk s) ((if ss_normal s then 2 else 1) * i) 0) (fun x =>
       Val (N.lxor x (if msg =? 1 then ss_delta s else 0%N))).
(** OtRecvStore::GetBlock (101-104), GetChoice (132-142), CopyBitBuf (167-182). *)
Definition recv_get (r : recv_store) (i : nat) : outcome N := at_idx (rs_blk r) i 0.
Definition recv_bit (r : recv_store) (i : nat) : outcome bool :=
  if i <? length (rs_blk r) then
    if rs_normal r then match nth_error (rs_bits r) i with Some b => Val b | None => OutOfBounds end
    else bind (recv_get r i) (fun x => Val (N.odd x))
  else Thrown.
Definition copy_bits (r : recv_store) : list bool :=
  if rs_normal r then firstn (rs_size r) (rs_bits r ++ repeat false (rs_size r)) else map N.odd (rs_blk r).
(** A store write at an index checked by GetBufIdx: SetNormalBlock (315-321), SetBlock (106-108). *)
Fixpoint put {A} (l : list A) (i : nat) (x : A) : list A :=
  match l, i with [], _ => [] | _ :: t, O => x :: t | y :: t, S i => y :: put t i x end.
Definition set_idx {A} (l : list A) (i : nat) (x : A) : outcome (list A) :=
  if i <? length l then Val (put l i x) else Thrown.
(** for (i = beg; i < beg + n; ++i) with a body that may fail. *)
Fixpoint for_range {S} (n beg : nat) (f : nat -> S -> outcome S) (s : S) : outcome S :=
  match n with O => Val s | Datatypes.S n => bind (f beg s) (fun s => for_range n (Datatypes.S beg) f s) end.

(** ** Mock stores (ot_store_utils.cc:22-86) *)
(** MakeOtSendStore (88-116), MakeCompactOtSendStore (118-173), MakeOtRecvStore (174-198),
    MakeCompactOtRecvStore (200-255): the copies and moves of the vectors. *)
Definition make_send (pairs : list (N * N)) : send_store :=
  mkSend true false 0 (flat_map (fun p => [fst p; snd p]) pairs).
Definition make_compact_send (blks : list N) (delta : N) : send_store := mkSend false false delta blks.
Definition make_recv (bits : list bool) (blks : list N) : recv_store := mkRecv true false bits blks.
Definition make_compact_recv (blks : list N) : recv_store := mkRecv false false [] blks.
(** MockRots (27-42); [gen i] is the i-th word of the generator.  The order in which the two
    calls in {gen(), gen()} are made is left to right, as braces require. *)
Definition mock_rots (num : nat) (choices : list bool) (gen : nat -> N) : outcome (send_store * recv_store) :=
  if negb (length choices =? num) then Thrown else
  let pairs := map (fun i => (gen (2 * i), gen (2 * i + 1))) (seq 0 num) in
  Val (make_send pairs,
       make_recv choices (map (fun i => if nth i choices false then gen (2 * i + 1) else gen (2 * i)) (seq 0 num))).
(** MockCots (49-68). *)
Definition mock_cots (num : nat) (delta : N) (choices : list bool) (gen : nat -> N) : outcome (send_store * recv_store) :=
  if negb (length choices =? num) then Thrown else
  Val (make_compact_send (map gen (seq 0 num)) delta,
       make_recv choices (map (fun i => if negb (nth i choices false) then gen i else N.lxor (gen i) delta) (seq 0 num))).
(** MockCompactOts (70-86); [rand] is FastRandU128(). *)
Definition mock_compact (num : nat) (rand : N) (gen : nat -> N) : send_store * recv_store :=
  let delta := N.lor rand 1 in
  (make_compact_send (map (fun i => N.lxor (gen i) (N.land (gen i) 1 * delta)) (seq 0 num)) delta,
   make_compact_recv (map gen (seq 0 num))).

Section Ot.
(** CrHash_128. *)
Variable crh : N -> N.

(** ** Conversions (ot_kernel.cc:37-148) *)
(** "const uint32_t ot_num = cot_store.Size()". *)
Definition u32_size (n : nat) : nat := N.to_nat (N.of_nat n mod 2 ^ 32).
(** naive_cot2rot, sender (44-56).  parallel_for runs disjoint ranges that cover it (C17);
    here one loop. *)
Definition cot2rot_send (cot rot : send_store) : outcome send_store :=
  if negb (ss_size cot =? ss_size rot) || ss_normal cot || negb (ss_normal rot) then Thrown else
  bind (for_range (u32_size (ss_size cot)) 0 (fun i blk =>
    bind (send_get cot i 0) (fun x0 => bind (set_idx blk (2 * i) (crh x0)) (fun blk =>
    bind (send_get cot i 1) (fun x1 => set_idx blk (2 * i + 1) (crh x1))))) (ss_blk rot)) (fun blk =>
  Val (mkSend true (ss_sliced rot) (ss_delta rot) blk)).
(** naive_cot2rot, receiver (59-73): the sizes are not compared. *)
Definition cot2rot_recv (cot rot : recv_store) : outcome recv_store :=
  if rs_normal cot || negb (rs_normal rot) then Thrown else
  bind (for_range (u32_size (rs_size cot)) 0 (fun i blk =>
    bind (recv_get cot i) (fun x => set_idx blk i (crh x))) (rs_blk rot)) (fun blk =>
  Val (mkRecv true (rs_sliced rot) (copy_bits cot) blk)).

(** naive_rot2ot (76-148).  The receiver sends its masked choices, 128 in a word (CopyBitBuf()
    ^ choices); the sender answers with batches of 128 pairs.  The message of choices is the list
    of its bits, a batch is the list of its pairs. *)
Definition masked_choices (rot : recv_store) (choices : list bool) : outcome (list bool) :=
  if negb (rs_normal rot) || negb (rs_size rot =? length choices) then Thrown else
  Val (map (fun p => xorb (fst p) (snd p)) (combine (copy_bits rot) choices)).
Definition mask_pair (rot : send_store) (masked : list bool) (pairs : list (N * N)) (idx : nat) : outcome (N * N) :=
  let m := nth idx pairs (0, 0)%N in
  let b := nth idx masked false in
  bind (send_get rot idx (if b then 1 else 0)) (fun x =>
  bind (send_get rot idx (if b then 0 else 1)) (fun y =>
  Val (N.lxor x (fst m), N.lxor y (snd m)))).
Fixpoint collect {A} (n beg : nat) (f : nat -> outcome A) : outcome (list A) :=
  match n with O => Val [] | S n => bind (f beg) (fun x => bind (collect n (S beg) f) (fun l => Val (x :: l))) end.
Definition rot2ot_send (rot : send_store) (pairs : list (N * N)) (masked : list bool) : outcome (list (list (N * N))) :=
  if negb (ss_normal rot) || negb (ss_size rot =? length pairs) then Thrown else
  let n := u32_size (length pairs) in
  collect ((n + 127) / 128) 0 (fun i => collect (Nat.min 128 (n - i * 128)) (i * 128) (mask_pair rot masked pairs)).
Definition rot2ot_recv (rot : recv_store) (choices : list bool) (batches : list (list (N * N))) (out : list N) : outcome (list N) :=
  let n := u32_size (rs_size rot) in
  for_range ((n + 127) / 128) 0 (fun i out =>
    match nth_error batches i with
    | None => Hangs
    | Some batch =>
        if negb (length batch =? Nat.min 128 (n - i * 128)) then OutOfBounds else
        for_range (Nat.min 128 (n - i * 128)) 0 (fun j out =>
          let idx := i * 128 + j in
          bind (recv_get rot idx) (fun x =>
          let p := nth j batch (0, 0)%N in
          if idx <? length out then Val (put out idx (N.lxor (if nth idx choices false then snd p else fst p) x)) else OutOfBounds)) out
    end) out.
Definition rot2ot (rot_s : send_store) (rot_r : recv_store) (pairs : list (N * N)) (choices : list bool) (out : list N) : outcome (list N) :=
  bind (masked_choices rot_r choices) (fun masked =>
  bind (rot2ot_send rot_s pairs masked) (fun batches =>
  rot2ot_recv rot_r choices batches out)).

(** ** OtKernel (ot_kernel.h:48-125, ot_kernel.cc:152-263) *)
Inductive alg := Ferret | SoftSpoken.
(** Both kernels: [k_soft] is ss_core_ of the two parties, [k_cache] is init_ot_cache_ (delta,
    the sender's blocks, the receiver's blocks). *)
Record kernel := mkKernel { k_alg : alg; k_inited : bool; k_soft : option (send_obj * recv_obj); k_cache : option (N * list N * list N) }.
Definition new_kernel (a : alg) : kernel := mkKernel a false None None.

Variables e0 e1 : N -> N.
Variable digest : N -> N.
Variable digest_all : list N -> N.
Variable tr : list Z -> list Z.
Variable prg64 : N -> nat -> list N.
(** CcrHash_128. *)
Variable ccr : N -> N.
(** LpnParam::GetDefault(). *)
Variable lp : lpn.

(** What one evaluation draws: SecureRandBits, the random bits of ExtendChoice, the seed of
    the SoftSpoken check (not used); the AES of the linear code's seed, the seeds of the GGM
    trees and the uninitialised buffers of Ferret. *)
Record draw := mkDraw { d_bits : nat -> bool; d_ext : list bool; d_seed : N; d_rp : N -> N; d_tape : nat -> nat -> N; d_junk : nat -> N; d_junk' : nat -> N }.
(** Recv(lctx, SecureRandBits(n), out) with Send(lctx, out) on SoftSpoken objects made with
    (k = 2, step = 0, mal = false, compact = true) (ot_kernel.cc:177, 180, 212, 245;
    softspoken_ote.cc:751-985 do the same on stores as the span versions do on spans). *)
Definition soft_cot (so : send_obj) (ro : recv_obj) (n : nat) (d : draw) : outcome (send_obj * recv_obj * list N * list N) :=
  match run_call crh tr prg64 2 0 false true so ro (map (d_bits d) (seq 0 n), d_ext d, true, d_seed d) with
  | None => Thrown
  | Some (so', ro', sent, got) => if (so_delta so =? 0)%N then Thrown else Val (so', ro', map fst sent, got)
  end.
(** init (152-189) with the 128 base OTs (base, bits, blks) and the tree seeds. *)
Definition soft_init (base : list (N * N)) (bits : list bool) (blks : list N) (seeds junk junk' : mem) : outcome (send_obj * recv_obj) :=
  match recv_setup e0 e1 digest digest_all crh 2 false true base seeds junk with
  | None => Thrown
  | Some (ro, parts) =>
      match send_setup e0 e1 digest digest_all crh 2 false true bits blks junk' parts with
      | None => Thrown
      | Some so => Val (so, ro)
      end
  end.
Definition init (k : kernel) (base : list (N * N)) (bits : list bool) (blks : list N) (seeds junk junk' : mem) (d : draw) : outcome kernel :=
  match k_alg k with
  | SoftSpoken => bind (soft_init base bits blks seeds junk junk') (fun s => Val (mkKernel SoftSpoken true (Some s) (k_cache k)))
  | Ferret =>
      bind (cot_helper lp false) (fun need =>
      bind (soft_init base bits blks seeds junk junk') (fun s =>
      bind (soft_cot (fst s) (snd s) (N.to_nat need) d) (fun x =>
      let '(_, _, bs, br) := x in
      Val (mkKernel Ferret true (k_soft k) (Some (so_delta (fst s), bs, br))))))
  end.

(** eval_cot_random_choice (191-263): the new kernels and the two output stores.  Ferret
    replaces the stores, SoftSpoken fills them. *)
Definition eval_cot (k : kernel) (n : nat) (os : send_store) (orr : recv_store) (d : draw) : outcome (kernel * send_store * recv_store) :=
  if negb (n =? ss_size os) || ss_sliced os || negb (k_inited k) || ss_normal os then Thrown else
  if negb (n =? rs_size orr) || rs_sliced orr || rs_normal orr then Thrown else
  match k_alg k with
  | Ferret =>
      match k_cache k with
      | None => Thrown
      | Some (delta, bs, br) =>
          if (delta =? 0)%N then Thrown else
          bind (ferret ccr digest delta (d_rp d) (d_tape d) (fun _ => 0%N) false false lp (N.of_nat n) (new_store bs) (new_store br)
                  (map (d_junk d) (seq 0 n)) (map (d_junk' d) (seq 0 n))) (fun ab =>
          Val (k, make_compact_send (fst ab) delta, make_compact_recv (snd ab)))
      end
  | SoftSpoken =>
      match k_soft k with
      | None => Thrown
      | Some (so, ro) =>
          bind (soft_cot so ro n d) (fun x =>
          let '(so', ro', sent, got) := x in
          Val (mkKernel SoftSpoken true (Some (so', ro')) (k_cache k),
               mkSend false (ss_sliced os) (so_delta so) sent, mkRecv false (rs_sliced orr) (rs_bits orr) got))
      end
  end.
(** eval_rot (265-287). *)
Definition eval_rot (k : kernel) (n : nat) (os : send_store) (orr : recv_store) (d : draw) : outcome (kernel * send_store * recv_store) :=
  if negb (n =? ss_size os) || ss_sliced os || negb (ss_normal os) then Thrown else
  if negb (n =? rs_size orr) || rs_sliced orr || negb (rs_normal orr) then Thrown else
  bind (eval_cot k n (mkSend false false 0 (repeat 0%N n)) (mkRecv false false [] (repeat 0%N n)) d) (fun x =>
  let '(k', cs, cr) := x in
  bind (cot2rot_send cs os) (fun rs => bind (cot2rot_recv cr orr) (fun rr => Val (k', rs, rr)))).

(** A history of one pair of kernels: requests for COTs ([false]) or ROTs ([true]). *)
Definition request := (bool * nat * send_store * recv_store * draw)%type.
Fixpoint run_requests (k : kernel) (rs : list request) : outcome (list (send_store * recv_store)) :=
  match rs with
  | [] => Val []
  | (rot, n, os, orr, d) :: rest =>
      bind (if rot : bool then eval_rot k n os orr d else eval_cot k n os orr d) (fun x =>
      let '(k', s, r) := x in
      bind (run_requests k' rest) (fun l => Val ((s, r) :: l)))
  end.
Definition run_kernel (a : alg) (base : list (N * N)) (bits : list bool) (blks : list N) (seeds junk junk' : mem) (d0 : draw) (rs : list request)
  : outcome (list (send_store * recv_store)) :=
  bind (init (new_kernel a) base bits blks seeds junk junk' d0) (fun k => run_requests k rs).
End Ot.

(** ** SVoleKernel (svole_kernel.cc) *)
Section Svole.
(** One SfSend with one SfRecv on the given spans, on the link and with the OT counter of a
    task (SilentVoleModel.silent_vole): new contents of a, b and c. *)
Variable core : nat -> list N -> list N -> list N -> outcome (list N * list N * list N).

(** absl::Span::subspan: throws beyond the end, shortens to the end; and the write back. *)
Definition subspan (size pos len : nat) : outcome (nat * nat) :=
  if size <? pos then Thrown else Val (pos, Nat.min len (size - pos)).
Definition window (l : list N) (w : nat * nat) : list N := firstn (snd w) (skipn (fst w) l).
Definition write_window (l : list N) (w : nat * nat) (v : list N) : list N := firstn (fst w) l ++ v ++ skipn (fst w + length v) l.

(** The split of eval_multithread (77-85, 115-127): threads - 1 spans of iter_size and the rest. *)
Definition thread_span (size threads i : nat) : nat * nat :=
  let iter := size / threads in
  (iter * i, if i =? threads - 1 then size - iter * (threads - 1) else iter).
(** The tasks (92-101, 134-143): every task works on its own spans, so a task is one step and
    the schedule is the order of the tasks.  pool.Submit's future is dropped: an exception of a
    task is lost.  What a failing task had written is not modelled: nothing. *)
Definition run_task (threads : nat) (i : nat) (abc : list N * list N * list N) : outcome (list N * list N * list N) :=
  let '(a, b, c) := abc in
  let wa := thread_span (length a) threads i in
  let wc := thread_span (length c) threads i in
  match core i (window a wa) (window b wa) (window c wc) with
  | Val (x, y, z) => Val (write_window a wa x, write_window b wa y, write_window c wc z)
  | Thrown => Val (a, b, c)
  | OutOfBounds => OutOfBounds
  | Hangs => Hangs
  end.
Fixpoint run_tasks (threads : nat) (order : list nat) (abc : list N * list N * list N) : outcome (list N * list N * list N) :=
  match order with [] => Val abc | i :: r => bind (run_task threads i abc) (run_tasks threads r) end.
(** eval_multithread (69-147). *)
Definition eval_multithread (threads : nat) (order : list nat) (a b c : list N) : outcome (list N * list N * list N) :=
  if negb (length a =? length b) then Thrown else
  if negb (1 <=? threads) then Thrown else run_tasks threads order (a, b, c).
End Svole.

(** eval_streaming (149-184), [step_size] > 0: (size + step_size - 1) / step_size with
    step_size = 0 is a division by zero, [OutOfBounds] here.  The sender's span begins at
    step_size * (step_num - 1) in every step.  [core s]: the runs of step s; [order s]: their
    schedule. *)
Section Streaming.
Variable core : nat -> nat -> list N -> list N -> list N -> outcome (list N * list N * list N).
Definition step_num (size step : nat) : nat := (size + step - 1) / step.
Definition local_size (size step i : nat) : nat :=
  if i =? step_num size step - 1 then size - step * (step_num size step - 1) else step.
Definition recv_pos (size step i : nat) : nat := step * i.
Definition send_pos (size step i : nat) : nat := step * (step_num size step - 1).
Definition run_step (threads step : nat) (order : nat -> list nat) (i : nat) (abc : list N * list N * list N) : outcome (list N * list N * list N) :=
  let '(a, b, c) := abc in
  bind (subspan (length c) (send_pos (length c) step i) (local_size (length c) step i)) (fun wc =>
  bind (subspan (length a) (recv_pos (length a) step i) (local_size (length a) step i)) (fun wa =>
  bind (eval_multithread (core i) threads (order i) (window a wa) (window b wa) (window c wc)) (fun xyz =>
  let '(x, y, z) := xyz in
  Val (write_window a wa x, write_window b wa y, write_window c wc z)))).
Definition eval_streaming (threads step : nat) (order : nat -> list nat) (a b c : list N) : outcome (list N * list N * list N) :=
  if step =? 0 then OutOfBounds else
  if negb (length a =? length b) then Thrown else
  for_range (step_num (length a) step) 0 (run_step threads step order) (a, b, c).
End Streaming.

(** SilentVoleSender(code, mal) and SilentVoleReceiver(code, mal) (silent_vole.h:88-92, 148-152):
    SoftspokenOtExtSender(2, is_mal_), whose parameters are (k, step, mal, compact)
    (softspoken_ote.h:96-97). *)
Definition silent_vole_ote (mal : bool) : nat * nat * bool * bool := (2, if mal then 1 else 0, false, false).
