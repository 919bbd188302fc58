(** Model of the collective operations of yacl/link/algorithm/{allgather,
    barrier, broadcast, gather, scatter}.cc run by [n] parties.

    Each party executes a list of actions; an action list is produced from the
    loops of the C++ code.  Any number of collectives follow each other; the
    k-th call of every party uses event key [k] (LinkIdProps: coll_keys_match,
    event_key_injective).  The network is one mailbox per ordered pair of
    parties and key: a message in flight is delivered at any later time; a
    message arriving for a key that is already in the mailbox is dropped
    (channel.cc:446-474, channel_mem.cc:60-67); Recv blocks until its key is
    there (channel.cc:403-437).  The retry, chunk and acknowledgement layers
    below are the subject of ChanModel. *)
From Coq Require Import List Arith Bool.
From Verif Require Import ChanKeyModel.
Import ListNotations.

(** What one party does in a collective.  [g] computes the payload from the
    values received so far in this call, [h] the result of the call. *)
Inductive action :=
| ASend (dst key : nat) (g : list bytes -> bytes)   (* ctx->SendAsyncInternal *)
| ARecv (src key : nat)                             (* ctx->RecvInternal *)
| AOut (key : nat) (h : list bytes -> list bytes).  (* return *)

(** Context::PrevRank / NextRank (context.cc:106-112) on ranks, see
    LinkIdProps.neighbour_ranks_ring for the machine arithmetic. *)
Definition next (n r s : nat) : nat := (r + s) mod n.
Definition prev (n r s : nat) : nat := (r + n - s) mod n.

Definition others (n r : nat) : list nat := filter (fun i => negb (i =? r)) (seq 0 n).

(** outputs[idx] = input for idx = rank, the next received value otherwise
    (allgather.cc:45-53, gather.cc:38-45). *)
Fixpoint fill (idxs : list nat) (r : nat) (own : bytes) (regs : list bytes) : list bytes :=
  match idxs with
  | [] => []
  | i :: is => if i =? r then own :: fill is r own regs
               else hd [] regs :: fill is r own (tl regs)
  end.

(** allgather.cc:28-56, single-buffer form. *)
Definition allgather (n r key : nat) (x : nat -> bytes) : list action :=
  map (fun i => ASend i key (fun _ => x r)) (others n r) ++
  map (fun i => ARecv i key) (others n r) ++
  [AOut key (fun regs => fill (seq 0 n) r (x r) regs)].

(** gather.cc:28-51. *)
Definition gather (n root r key : nat) (x : nat -> bytes) : list action :=
  if root =? r then
    map (fun i => ARecv i key) (others n r) ++ [AOut key (fun regs => fill (seq 0 n) r (x r) regs)]
  else [ASend root key (fun _ => x r); AOut key (fun _ => [])].

(** scatter.cc:27-51, when the root passes exactly n inputs (163-166 enforces it);
    the inputs of the other parties are not used. *)
Definition scatter (n root r key : nat) (x : nat -> list bytes) : list action :=
  if root =? r then
    map (fun i => ASend i key (fun _ => nth i (x r) [])) (others n r) ++
    [AOut key (fun _ => [nth root (x r) []])]
  else [ARecv root key; AOut key (fun regs => [hd [] regs])].

(** broadcast.cc:54-69: the loop over the strides [ss]; [received] and [output]
    are the C++ variables ([output] is the input until the receive). *)
Definition bcast_output (own : bytes) (regs : list bytes) : bytes :=
  match regs with [] => own | v :: _ => v end.
Fixpoint bcast_loop (n r vrank key : nat) (own : bytes) (ss : list nat) (received : bool) : list action :=
  match ss with
  | [] => []
  | s :: ss' =>
      if received then
        if vrank + s <? n
        then ASend (next n r s) key (bcast_output own) :: bcast_loop n r vrank key own ss' true
        else bcast_loop n r vrank key own ss' true
      else
        if vrank mod s =? 0
        then ARecv (prev n r s) key :: bcast_loop n r vrank key own ss' true
        else bcast_loop n r vrank key own ss' false
  end.
(** bit_floor(n), then halved down to 1 (broadcast.cc:54-55). *)
Definition strides (n : nat) : list nat := map (fun i => 2 ^ (Nat.log2 n - i)) (seq 0 (S (Nat.log2 n))).
(** broadcast.cc:28-30, 34-72. *)
Definition ring_offset (b e n : nat) : nat := (e + n - b) mod n.
Definition broadcast (n root r key : nat) (x : nat -> bytes) : list action :=
  let vrank := ring_offset root r n in
  bcast_loop n r vrank key (x r) (strides n) (vrank =? 0) ++
  [AOut key (fun regs => [bcast_output (x r) regs])].

(** barrier.cc:27-40: offsets 1, 2, 4, ... below n. *)
Definition offsets (n : nat) : list nat := filter (fun o => o <? n) (map (fun j => 2 ^ j) (seq 0 n)).
Definition barrier (n r key : nat) : list action :=
  flat_map (fun o => [ASend (next n r o) key (fun _ => []); ARecv (prev n r o) key]) (offsets n) ++
  [AOut key (fun _ => [])].

(** A call by all parties: the operation with every party's argument. *)
Inductive op :=
| OpAllGather (x : nat -> bytes)
| OpBroadcast (root : nat) (x : nat -> bytes)
| OpGather (root : nat) (x : nat -> bytes)
| OpScatter (root : nat) (x : nat -> list bytes)
| OpBarrier.

Definition op_actions (n r key : nat) (o : op) : list action :=
  match o with
  | OpAllGather x => allgather n r key x
  | OpBroadcast root x => broadcast n root r key x
  | OpGather root x => gather n root r key x
  | OpScatter root x => scatter n root r key x
  | OpBarrier => barrier n r key
  end.

(** The program of party [r]: the calls in order. *)
Fixpoint program (n r key : nat) (ops : list op) : list action :=
  match ops with
  | [] => []
  | o :: rest => op_actions n r key o ++ program n r (S key) rest
  end.

(** State of a run. *)
Record party := mkParty {
  todo : list action;          (* what is left to do *)
  regs : list bytes;           (* values received in the current call *)
  outs : list (list bytes)     (* results of the finished calls, in order *)
}.
Record message := mkMsg { m_src : nat; m_dst : nat; m_key : nat; m_val : bytes }.
Record net := mkNet {
  parties : nat -> party;
  flight : list message;       (* sent, not yet arrived *)
  boxes : list message         (* arrived, not yet received *)
}.

Definition set_party (p : nat) (x : party) (f : nat -> party) : nat -> party :=
  fun q => if q =? p then x else f q.

Definition same_box (a b : message) : bool :=
  (m_src a =? m_src b) && (m_dst a =? m_dst b) && (m_key a =? m_key b).

Fixpoint take_box (s d k : nat) (l : list message) : option (bytes * list message) :=
  match l with
  | [] => None
  | m :: r => if (m_src m =? s) && (m_dst m =? d) && (m_key m =? k) then Some (m_val m, r)
              else match take_box s d k r with
                   | None => None
                   | Some (v, r') => Some (v, m :: r')
                   end
  end.

Inductive step := SParty (p : nat) | SDeliver (i : nat).

(** One step of a run; [None]: not enabled (finished party, empty mailbox). *)
Definition do_step (st : step) (s : net) : option net :=
  match st with
  | SParty p =>
      let x := parties s p in
      match todo x with
      | [] => None
      | ASend d k g :: r =>
          Some (mkNet (set_party p (mkParty r (regs x) (outs x)) (parties s))
                      (flight s ++ [mkMsg p d k (g (regs x))]) (boxes s))
      | ARecv src k :: r =>
          match take_box src p k (boxes s) with
          | None => None
          | Some (v, b) => Some (mkNet (set_party p (mkParty r (regs x ++ [v]) (outs x)) (parties s)) (flight s) b)
          end
      | AOut k h :: r =>
          Some (mkNet (set_party p (mkParty r [] (outs x ++ [h (regs x)])) (parties s)) (flight s) (boxes s))
      end
  | SDeliver i =>
      match nth_error (flight s) i with
      | None => None
      | Some m =>
          let fl := firstn i (flight s) ++ skipn (S i) (flight s) in
          if existsb (same_box m) (boxes s) then Some (mkNet (parties s) fl (boxes s))
          else Some (mkNet (parties s) fl (boxes s ++ [m]))
      end
  end.

Fixpoint run_steps (sts : list step) (s : net) : option net :=
  match sts with
  | [] => Some s
  | st :: r => match do_step st s with
               | None => None
               | Some s' => run_steps r s'
               end
  end.

Definition start (n : nat) (ops : list op) : net :=
  mkNet (fun r => mkParty (if r <? n then program n r 0 ops else []) [] []) [] [].
