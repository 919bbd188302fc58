(** Model of a link channel between two parties:
    yacl/link/transport/channel.h:143-376 and channel.cc:73-178, 372-796.

    A run is a sequence of events.  Each event is one critical section or one
    atomic access of the C++ code; the events of a party may be interleaved in
    any order with those of its own threads and of the peer, and the network may
    deliver any request that was ever handed to it, at any time and any number
    of times, or never (rpc retry, reordering, loss).  Condition variables are
    modelled by the enabling condition of the waiting event; time-outs by an
    event that may always happen. *)
From Coq Require Import List ZArith Bool.
From Verif Require Import SegTreeModel ChanKeyModel ChunkModel.
Import ListNotations.
Open Scope Z_scope.

(** The two kinds of requests (channel.cc:779-792). *)
Inductive packet :=
| PMono (key value : bytes)
| PChunk (c : chunk).

(** Configuration of an end point: chunk size (GetMaxBytesPerChunk), throttle
    window (0 = off, SetThrottleWindowSize; constant during a run), its own
    "connect_<rank>" key (channel.cc:637) and the contents of fresh memory. *)
Record config := mkCfg { chunk_bytes : nat; window : Z; connect_key : bytes; junk_mem : nat -> byte }.

(** State of one Channel object, with history variables (log_...). *)
Record endpoint := mkEp {
  (* channel.h:357 *)
  msg_seq_id : Z;
  (* send calls that passed their checks but have not yet drawn an id (channel.cc:577-583) *)
  admitted : list (bytes * bytes);
  (* send calls that drew an id but have not yet pushed: (id, (wire key, value)) (channel.cc:590-593) *)
  assigned : list (Z * (bytes * bytes));
  (* send_msgs_ (channel.h:332), front first *)
  send_queue : list (Z * (bytes * bytes));
  (* the id for which the send thread is inside ThrottleWindowWait (channel.cc:163) *)
  throttled : option Z;
  (* the send thread ended through an exception (channel.cc:118-123) *)
  sender_dead : bool;
  (* send_thread_stopped_ (channel.h:334) *)
  send_stopped : bool;
  (* channel.h:346, std::map from message key to (value, id) *)
  recv_msgs : list (bytes * (bytes * Z));
  (* channel.h:359 *)
  received_msg_ids : segtree;
  (* channel.h:361 *)
  received_ack_ids : segtree;
  (* channel.h:363 *)
  received_fin : bool;
  (* channel.h:365 *)
  peer_sent_msg_count : Z;
  (* channel.h:353 *)
  waiting_finish : bool;
  (* channel.h:355 *)
  aborting : bool;
  (* channel.h:339 *)
  chunked_values : table;
  (* complete messages between channel.cc:535 and 538 (lock released, OnMessage not yet called) *)
  reassembled : list (bytes * bytes);
  (* progress of WaitLinkTaskFinish, channel.cc:731-750: 0 not called, 1 after StopReceiving, 2 FIN sent, 3 after WaitForFinAndFlyingMsg, 4 stop flag set, 5 after WaitAsyncSendToFinish, 6 returned *)
  finish_phase : Z;
  (* every request this end point has handed to the transport *)
  wire : list packet;
  (* an out-of-bounds write happened *)
  hit_ub : bool;
  (* history: (id, (message key, value)) in the order ids were drawn *)
  log_sent : list (Z * (bytes * bytes));
  (* history: ids handed to the transport *)
  log_submitted : list Z;
  (* history: (key, (value, id)) returned by Recv *)
  log_returned : list (bytes * (bytes * Z));
  (* history: ids acknowledged without being read (closing) *)
  log_skipped : list Z;
  (* history: ids dropped by the duplicate-key exception *)
  log_dropped : list Z;
  (* history: a send call was between its check and its id when FIN was sent *)
  log_race : bool
}.

Definition set_msg_seq_id (x : Z) (e : endpoint) : endpoint :=
  mkEp x (admitted e) (assigned e) (send_queue e) (throttled e) (sender_dead e) (send_stopped e) (recv_msgs e) (received_msg_ids e) (received_ack_ids e) (received_fin e) (peer_sent_msg_count e) (waiting_finish e) (aborting e) (chunked_values e) (reassembled e) (finish_phase e) (wire e) (hit_ub e) (log_sent e) (log_submitted e) (log_returned e) (log_skipped e) (log_dropped e) (log_race e).
Definition set_admitted (x : list (bytes * bytes)) (e : endpoint) : endpoint :=
  mkEp (msg_seq_id e) x (assigned e) (send_queue e) (throttled e) (sender_dead e) (send_stopped e) (recv_msgs e) (received_msg_ids e) (received_ack_ids e) (received_fin e) (peer_sent_msg_count e) (waiting_finish e) (aborting e) (chunked_values e) (reassembled e) (finish_phase e) (wire e) (hit_ub e) (log_sent e) (log_submitted e) (log_returned e) (log_skipped e) (log_dropped e) (log_race e).
Definition set_assigned (x : list (Z * (bytes * bytes))) (e : endpoint) : endpoint :=
  mkEp (msg_seq_id e) (admitted e) x (send_queue e) (throttled e) (sender_dead e) (send_stopped e) (recv_msgs e) (received_msg_ids e) (received_ack_ids e) (received_fin e) (peer_sent_msg_count e) (waiting_finish e) (aborting e) (chunked_values e) (reassembled e) (finish_phase e) (wire e) (hit_ub e) (log_sent e) (log_submitted e) (log_returned e) (log_skipped e) (log_dropped e) (log_race e).
Definition set_send_queue (x : list (Z * (bytes * bytes))) (e : endpoint) : endpoint :=
  mkEp (msg_seq_id e) (admitted e) (assigned e) x (throttled e) (sender_dead e) (send_stopped e) (recv_msgs e) (received_msg_ids e) (received_ack_ids e) (received_fin e) (peer_sent_msg_count e) (waiting_finish e) (aborting e) (chunked_values e) (reassembled e) (finish_phase e) (wire e) (hit_ub e) (log_sent e) (log_submitted e) (log_returned e) (log_skipped e) (log_dropped e) (log_race e).
Definition set_throttled (x : option Z) (e : endpoint) : endpoint :=
  mkEp (msg_seq_id e) (admitted e) (assigned e) (send_queue e) x (sender_dead e) (send_stopped e) (recv_msgs e) (received_msg_ids e) (received_ack_ids e) (received_fin e) (peer_sent_msg_count e) (waiting_finish e) (aborting e) (chunked_values e) (reassembled e) (finish_phase e) (wire e) (hit_ub e) (log_sent e) (log_submitted e) (log_returned e) (log_skipped e) (log_dropped e) (log_race e).
Definition set_sender_dead (x : bool) (e : endpoint) : endpoint :=
  mkEp (msg_seq_id e) (admitted e) (assigned e) (send_queue e) (throttled e) x (send_stopped e) (recv_msgs e) (received_msg_ids e) (received_ack_ids e) (received_fin e) (peer_sent_msg_count e) (waiting_finish e) (aborting e) (chunked_values e) (reassembled e) (finish_phase e) (wire e) (hit_ub e) (log_sent e) (log_submitted e) (log_returned e) (log_skipped e) (log_dropped e) (log_race e).
Definition set_send_stopped (x : bool) (e : endpoint) : endpoint :=
  mkEp (msg_seq_id e) (admitted e) (assigned e) (send_queue e) (throttled e) (sender_dead e) x (recv_msgs e) (received_msg_ids e) (received_ack_ids e) (received_fin e) (peer_sent_msg_count e) (waiting_finish e) (aborting e) (chunked_values e) (reassembled e) (finish_phase e) (wire e) (hit_ub e) (log_sent e) (log_submitted e) (log_returned e) (log_skipped e) (log_dropped e) (log_race e).
Definition set_recv_msgs (x : list (bytes * (bytes * Z))) (e : endpoint) : endpoint :=
  mkEp (msg_seq_id e) (admitted e) (assigned e) (send_queue e) (throttled e) (sender_dead e) (send_stopped e) x (received_msg_ids e) (received_ack_ids e) (received_fin e) (peer_sent_msg_count e) (waiting_finish e) (aborting e) (chunked_values e) (reassembled e) (finish_phase e) (wire e) (hit_ub e) (log_sent e) (log_submitted e) (log_returned e) (log_skipped e) (log_dropped e) (log_race e).
Definition set_received_msg_ids (x : segtree) (e : endpoint) : endpoint :=
  mkEp (msg_seq_id e) (admitted e) (assigned e) (send_queue e) (throttled e) (sender_dead e) (send_stopped e) (recv_msgs e) x (received_ack_ids e) (received_fin e) (peer_sent_msg_count e) (waiting_finish e) (aborting e) (chunked_values e) (reassembled e) (finish_phase e) (wire e) (hit_ub e) (log_sent e) (log_submitted e) (log_returned e) (log_skipped e) (log_dropped e) (log_race e).
Definition set_received_ack_ids (x : segtree) (e : endpoint) : endpoint :=
  mkEp (msg_seq_id e) (admitted e) (assigned e) (send_queue e) (throttled e) (sender_dead e) (send_stopped e) (recv_msgs e) (received_msg_ids e) x (received_fin e) (peer_sent_msg_count e) (waiting_finish e) (aborting e) (chunked_values e) (reassembled e) (finish_phase e) (wire e) (hit_ub e) (log_sent e) (log_submitted e) (log_returned e) (log_skipped e) (log_dropped e) (log_race e).
Definition set_received_fin (x : bool) (e : endpoint) : endpoint :=
  mkEp (msg_seq_id e) (admitted e) (assigned e) (send_queue e) (throttled e) (sender_dead e) (send_stopped e) (recv_msgs e) (received_msg_ids e) (received_ack_ids e) x (peer_sent_msg_count e) (waiting_finish e) (aborting e) (chunked_values e) (reassembled e) (finish_phase e) (wire e) (hit_ub e) (log_sent e) (log_submitted e) (log_returned e) (log_skipped e) (log_dropped e) (log_race e).
Definition set_peer_sent_msg_count (x : Z) (e : endpoint) : endpoint :=
  mkEp (msg_seq_id e) (admitted e) (assigned e) (send_queue e) (throttled e) (sender_dead e) (send_stopped e) (recv_msgs e) (received_msg_ids e) (received_ack_ids e) (received_fin e) x (waiting_finish e) (aborting e) (chunked_values e) (reassembled e) (finish_phase e) (wire e) (hit_ub e) (log_sent e) (log_submitted e) (log_returned e) (log_skipped e) (log_dropped e) (log_race e).
Definition set_waiting_finish (x : bool) (e : endpoint) : endpoint :=
  mkEp (msg_seq_id e) (admitted e) (assigned e) (send_queue e) (throttled e) (sender_dead e) (send_stopped e) (recv_msgs e) (received_msg_ids e) (received_ack_ids e) (received_fin e) (peer_sent_msg_count e) x (aborting e) (chunked_values e) (reassembled e) (finish_phase e) (wire e) (hit_ub e) (log_sent e) (log_submitted e) (log_returned e) (log_skipped e) (log_dropped e) (log_race e).
Definition set_aborting (x : bool) (e : endpoint) : endpoint :=
  mkEp (msg_seq_id e) (admitted e) (assigned e) (send_queue e) (throttled e) (sender_dead e) (send_stopped e) (recv_msgs e) (received_msg_ids e) (received_ack_ids e) (received_fin e) (peer_sent_msg_count e) (waiting_finish e) x (chunked_values e) (reassembled e) (finish_phase e) (wire e) (hit_ub e) (log_sent e) (log_submitted e) (log_returned e) (log_skipped e) (log_dropped e) (log_race e).
Definition set_chunked_values (x : table) (e : endpoint) : endpoint :=
  mkEp (msg_seq_id e) (admitted e) (assigned e) (send_queue e) (throttled e) (sender_dead e) (send_stopped e) (recv_msgs e) (received_msg_ids e) (received_ack_ids e) (received_fin e) (peer_sent_msg_count e) (waiting_finish e) (aborting e) x (reassembled e) (finish_phase e) (wire e) (hit_ub e) (log_sent e) (log_submitted e) (log_returned e) (log_skipped e) (log_dropped e) (log_race e).
Definition set_reassembled (x : list (bytes * bytes)) (e : endpoint) : endpoint :=
  mkEp (msg_seq_id e) (admitted e) (assigned e) (send_queue e) (throttled e) (sender_dead e) (send_stopped e) (recv_msgs e) (received_msg_ids e) (received_ack_ids e) (received_fin e) (peer_sent_msg_count e) (waiting_finish e) (aborting e) (chunked_values e) x (finish_phase e) (wire e) (hit_ub e) (log_sent e) (log_submitted e) (log_returned e) (log_skipped e) (log_dropped e) (log_race e).
Definition set_finish_phase (x : Z) (e : endpoint) : endpoint :=
  mkEp (msg_seq_id e) (admitted e) (assigned e) (send_queue e) (throttled e) (sender_dead e) (send_stopped e) (recv_msgs e) (received_msg_ids e) (received_ack_ids e) (received_fin e) (peer_sent_msg_count e) (waiting_finish e) (aborting e) (chunked_values e) (reassembled e) x (wire e) (hit_ub e) (log_sent e) (log_submitted e) (log_returned e) (log_skipped e) (log_dropped e) (log_race e).
Definition set_wire (x : list packet) (e : endpoint) : endpoint :=
  mkEp (msg_seq_id e) (admitted e) (assigned e) (send_queue e) (throttled e) (sender_dead e) (send_stopped e) (recv_msgs e) (received_msg_ids e) (received_ack_ids e) (received_fin e) (peer_sent_msg_count e) (waiting_finish e) (aborting e) (chunked_values e) (reassembled e) (finish_phase e) x (hit_ub e) (log_sent e) (log_submitted e) (log_returned e) (log_skipped e) (log_dropped e) (log_race e).
Definition set_hit_ub (x : bool) (e : endpoint) : endpoint :=
  mkEp (msg_seq_id e) (admitted e) (assigned e) (send_queue e) (throttled e) (sender_dead e) (send_stopped e) (recv_msgs e) (received_msg_ids e) (received_ack_ids e) (received_fin e) (peer_sent_msg_count e) (waiting_finish e) (aborting e) (chunked_values e) (reassembled e) (finish_phase e) (wire e) x (log_sent e) (log_submitted e) (log_returned e) (log_skipped e) (log_dropped e) (log_race e).
Definition set_log_sent (x : list (Z * (bytes * bytes))) (e : endpoint) : endpoint :=
  mkEp (msg_seq_id e) (admitted e) (assigned e) (send_queue e) (throttled e) (sender_dead e) (send_stopped e) (recv_msgs e) (received_msg_ids e) (received_ack_ids e) (received_fin e) (peer_sent_msg_count e) (waiting_finish e) (aborting e) (chunked_values e) (reassembled e) (finish_phase e) (wire e) (hit_ub e) x (log_submitted e) (log_returned e) (log_skipped e) (log_dropped e) (log_race e).
Definition set_log_submitted (x : list Z) (e : endpoint) : endpoint :=
  mkEp (msg_seq_id e) (admitted e) (assigned e) (send_queue e) (throttled e) (sender_dead e) (send_stopped e) (recv_msgs e) (received_msg_ids e) (received_ack_ids e) (received_fin e) (peer_sent_msg_count e) (waiting_finish e) (aborting e) (chunked_values e) (reassembled e) (finish_phase e) (wire e) (hit_ub e) (log_sent e) x (log_returned e) (log_skipped e) (log_dropped e) (log_race e).
Definition set_log_returned (x : list (bytes * (bytes * Z))) (e : endpoint) : endpoint :=
  mkEp (msg_seq_id e) (admitted e) (assigned e) (send_queue e) (throttled e) (sender_dead e) (send_stopped e) (recv_msgs e) (received_msg_ids e) (received_ack_ids e) (received_fin e) (peer_sent_msg_count e) (waiting_finish e) (aborting e) (chunked_values e) (reassembled e) (finish_phase e) (wire e) (hit_ub e) (log_sent e) (log_submitted e) x (log_skipped e) (log_dropped e) (log_race e).
Definition set_log_skipped (x : list Z) (e : endpoint) : endpoint :=
  mkEp (msg_seq_id e) (admitted e) (assigned e) (send_queue e) (throttled e) (sender_dead e) (send_stopped e) (recv_msgs e) (received_msg_ids e) (received_ack_ids e) (received_fin e) (peer_sent_msg_count e) (waiting_finish e) (aborting e) (chunked_values e) (reassembled e) (finish_phase e) (wire e) (hit_ub e) (log_sent e) (log_submitted e) (log_returned e) x (log_dropped e) (log_race e).
Definition set_log_dropped (x : list Z) (e : endpoint) : endpoint :=
  mkEp (msg_seq_id e) (admitted e) (assigned e) (send_queue e) (throttled e) (sender_dead e) (send_stopped e) (recv_msgs e) (received_msg_ids e) (received_ack_ids e) (received_fin e) (peer_sent_msg_count e) (waiting_finish e) (aborting e) (chunked_values e) (reassembled e) (finish_phase e) (wire e) (hit_ub e) (log_sent e) (log_submitted e) (log_returned e) (log_skipped e) x (log_race e).
Definition set_log_race (x : bool) (e : endpoint) : endpoint :=
  mkEp (msg_seq_id e) (admitted e) (assigned e) (send_queue e) (throttled e) (sender_dead e) (send_stopped e) (recv_msgs e) (received_msg_ids e) (received_ack_ids e) (received_fin e) (peer_sent_msg_count e) (waiting_finish e) (aborting e) (chunked_values e) (reassembled e) (finish_phase e) (wire e) (hit_ub e) (log_sent e) (log_submitted e) (log_returned e) (log_skipped e) (log_dropped e) x.

(** Channel constructor (channel.h:145-159, default member initialisers 330-375). *)
Definition init_ep : endpoint :=
  mkEp 0 [] [] [] None false false [] empty empty false 0 false false [] [] 0 [] false
       [] [] [] [] [] false.

(** channel.cc:439-444: SendAck; the ack task sends one mono request.  (The ack
    text has at most 20 bytes; a chunk size below that is not modelled for acks.) *)
Definition send_ack (seq_id : Z) (e : endpoint) : endpoint :=
  if 0 <? seq_id then set_wire (wire e ++ [PMono kAckKey (to_string seq_id)]) e else e.

Fixpoint msg_find (k : bytes) (l : list (bytes * (bytes * Z))) : option (bytes * Z) :=
  match l with
  | [] => None
  | (k', p) :: r => if bytes_eqb k k' then Some p else msg_find k r
  end.
Definition msg_erase (k : bytes) (l : list (bytes * (bytes * Z))) :=
  filter (fun x => negb (bytes_eqb k (fst x))) l.

(** channel.cc:446-474: OnNormalMessage.  An exception (malformed key, duplicate
    key) only ends the request handler; its effect on the state is kept. *)
Definition on_normal_message (key v : bytes) (e : endpoint) : endpoint :=
  match split_channel_key key with
  | None => e
  | Some (msg_key, seq_id) =>
      let '(e1, fresh) :=
        if 0 <? seq_id
        then let (t, b) := insert (received_msg_ids e) seq_id in (set_received_msg_ids t e, b)
        else (e, true) in
      if fresh then
        if waiting_finish e1 then
          send_ack seq_id (if 0 <? seq_id then set_log_skipped (log_skipped e1 ++ [seq_id]) e1 else e1)
        else
          match msg_find msg_key (recv_msgs e1) with
          | None => set_recv_msgs (recv_msgs e1 ++ [(msg_key, (v, seq_id))]) e1
          | Some _ => if 0 <? seq_id then set_log_dropped (log_dropped e1 ++ [seq_id]) e1 else e1
          end
      else e1
  end.

(** channel.cc:542-562: OnMessage. *)
Definition on_message (key v : bytes) (e : endpoint) : endpoint :=
  if bytes_eqb key kAckKey then
    match view_to_size_t v with
    | None => e
    | Some n => set_received_ack_ids (fst (insert (received_ack_ids e) n)) e
    end
  else if bytes_eqb key kFinKey then
    if received_fin e then e
    else match view_to_size_t v with
         | None => set_received_fin true e
         | Some n => set_peer_sent_msg_count n (set_received_fin true e)
         end
  else on_normal_message key v e.

(** channel.cc:769-796: OnRequest (the caller checks [aborting]). *)
Definition on_request (cfg : config) (p : packet) (e : endpoint) : endpoint :=
  match p with
  | PMono k v => on_message k v e
  | PChunk c =>
      match on_chunk (junk_mem cfg) (chunked_values e) c with
      | Throw => e
      | UB => set_hit_ub true e
      | Ok (t, None) => set_chunked_values t e
      | Ok (t, Some v) => set_reassembled (reassembled e ++ [(c_key c, v)]) (set_chunked_values t e)
      end
  end.

(** channel.h:239-249 (SendImpl) and channel.cc:281-312: the requests of one message. *)
Definition packets_of (cfg : config) (wire_key v : bytes) : list packet :=
  if Nat.ltb (chunk_bytes cfg) (length v)
  then map PChunk (send_chunked wire_key v (chunk_bytes cfg))
  else [PMono wire_key v].

(** channel.cc:127-138 (SubmitSendTask) of the front message of the queue. *)
Definition submit (cfg : config) (m : Z * (bytes * bytes)) (e : endpoint) : endpoint :=
  set_log_submitted (log_submitted e ++ [fst m])
    (set_wire (wire e ++ packets_of cfg (fst (snd m)) (snd (snd m))) e).

(** The wait condition of WaitForFinAndFlyingMsg / WaitForFlyingAck
    (channel.cc:690-698, 718-726). *)
Definition all_arrived (ids : segtree) (n : Z) : bool :=
  (n =? 0) || ((segments_count ids <=? 1) && contains ids 1 && contains ids n).

Definition remove_nth {A} (i : nat) (l : list A) : list A := firstn i l ++ skipn (S i) l.

Inductive event :=
| ECheck (k v : bytes)    (* Send/SendAsync/SendAsyncThrottled: checks, 577-583, 597-606, 614-624 *)
| EAssign (i : nat)       (* fetch_add and key construction, 590-591 / 607-608 / 625-626 *)
| EPush (i : nat)         (* queue push, 593 / 609 / 627 *)
| EPop                    (* send thread: pop and submit, 157-162 *)
| EThrottleOk             (* send thread: ThrottleWindowWait returns, 653-664 *)
| EThrottleFail           (* send thread: ThrottleWindowWait throws (time-out or abort), 655-661 *)
| EDrain                  (* send thread after the stop flag: pop and submit, 171-177 *)
| EDeliver (i : nat)      (* the network delivers request i of the peer, 769-796 *)
| EReassembled (i : nat)  (* OnMessage of a completed chunked message, 537-539 *)
| ERecv (k : bytes)       (* Recv takes a message and acknowledges it, 403-437 *)
| ETestSend               (* TestSend, 631-640 *)
| EStopReceiving          (* StopReceivingAndAckUnreadMsgs, 703-713 *)
| EFin                    (* FIN with the number of ids drawn, 680-681 *)
| EFinOk                  (* WaitForFinAndFlyingMsg returns, 682-700 *)
| EStop                   (* WaitAsyncSendToFinish: stop flag, 667-668 *)
| EJoin                   (* WaitAsyncSendToFinish: join and wait for tasks, 669-670 *)
| EAckOk                  (* WaitForFlyingAck returns, 715-729 *)
| EAbort.                 (* Abort, 752-767 *)

Definition guard (b : bool) (e : endpoint) : option endpoint := if b then Some e else None.

(** One event at an end point; [peer_wire] is what the peer put on the network.
    [None]: the event is not enabled. *)
Definition exec_ep (cfg : config) (peer_wire : list packet) (ev : event) (e : endpoint) : option endpoint :=
  match ev with
  | ECheck k v =>
      (* a payload longer than 2^63-1 bytes cannot exist *)
      guard (negb (aborting e) && negb (waiting_finish e) && normal_key_ok k && (zlen v <? 2 ^ 63))
            (set_admitted (admitted e ++ [(k, v)]) e)
  | EAssign i =>
      match nth_error (admitted e) i with
      | None => None
      | Some (k, v) =>
          let n := msg_seq_id e + 1 in
          (* the counter never reaches 2^64 - 1 in a real run *)
          guard (n <? 2 ^ 64 - 1)
            (set_log_sent (log_sent e ++ [(n, (k, v))])
            (set_msg_seq_id n
            (set_assigned (assigned e ++ [(n, (build_channel_key k n, v))])
            (set_admitted (remove_nth i (admitted e)) e))))
      end
  | EPush i =>
      match nth_error (assigned e) i with
      | None => None
      | Some m => Some (set_send_queue (send_queue e ++ [m]) (set_assigned (remove_nth i (assigned e)) e))
      end
  | EPop =>
      match throttled e, sender_dead e, send_queue e with
      | None, false, m :: r =>
          Some (submit cfg m
                 (set_throttled (if window cfg =? 0 then None else Some (fst m)) (set_send_queue r e)))
      | _, _, _ => None
      end
  | EThrottleOk =>
      match throttled e with
      | None => None
      | Some n => guard (negb ((count (received_ack_ids e) + window cfg) mod 2 ^ 64 <=? n))
                        (set_throttled None e)
      end
  | EThrottleFail =>
      match throttled e with
      | None => None
      | Some n => Some (set_sender_dead true (set_throttled None e))
      end
  | EDrain =>
      match throttled e, sender_dead e, send_stopped e && negb (aborting e), send_queue e with
      | None, false, true, m :: r => Some (submit cfg m (set_send_queue r e))
      | _, _, _, _ => None
      end
  | EDeliver i =>
      match nth_error peer_wire i with
      | None => None
      | Some p => guard (negb (aborting e)) (on_request cfg p e)
      end
  | EReassembled i =>
      match nth_error (reassembled e) i with
      | None => None
      | Some (k, v) => Some (on_message k v (set_reassembled (remove_nth i (reassembled e)) e))
      end
  | ERecv k =>
      (* the abort check is made before the wait, so a call that passed it may
         still take a message: no guard on [aborting] here *)
      if normal_key_ok k then
        match msg_find k (recv_msgs e) with
        | None => None
        | Some (v, n) =>
            Some (send_ack n (set_log_returned (log_returned e ++ [(k, (v, n))])
                              (set_recv_msgs (msg_erase k (recv_msgs e)) e)))
        end
      else None
  | ETestSend =>
      guard (negb (aborting e) && negb (waiting_finish e))
            (set_wire (wire e ++ [PMono (build_channel_key (connect_key cfg) 0) []]) e)
  | EStopReceiving =>
      guard ((finish_phase e =? 0) && negb (aborting e))
        (set_finish_phase 1
        (set_recv_msgs []
        (set_log_skipped (log_skipped e ++ filter (Z.ltb 0) (map (fun x => snd (snd x)) (recv_msgs e)))
        (fold_left (fun e' x => send_ack (snd (snd x)) e') (recv_msgs e)
                   (set_waiting_finish true e)))))
  | EFin =>
      guard (finish_phase e =? 1)
        (set_finish_phase 2
        (set_log_race (match admitted e with [] => false | _ => true end)
        (set_wire (wire e ++ [PMono kFinKey (to_string (msg_seq_id e))]) e)))
  | EFinOk =>
      guard ((finish_phase e =? 2) && received_fin e
             && all_arrived (received_msg_ids e) (peer_sent_msg_count e))
            (set_finish_phase 3 e)
  | EStop => guard (finish_phase e =? 3) (set_finish_phase 4 (set_send_stopped true e))
  | EJoin =>
      guard ((finish_phase e =? 4) && match throttled e with None => true | _ => false end
             && (match send_queue e with [] => true | _ => false end || aborting e || sender_dead e))
            (set_finish_phase 5 e)
  | EAckOk =>
      guard ((finish_phase e =? 5) && all_arrived (received_ack_ids e) (msg_seq_id e))
            (set_finish_phase 6 e)
  | EAbort => Some (set_send_stopped true (set_aborting true e))
  end.

(** The pair of connected channels; [true] and [false] name the two parties. *)
Record system := mkSys { ep_a : endpoint; ep_b : endpoint }.
Definition init_sys : system := mkSys init_ep init_ep.

Definition exec (ca cb : config) (ev : bool * event) (s : system) : option system :=
  if fst ev then
    match exec_ep ca (wire (ep_b s)) (snd ev) (ep_a s) with
    | None => None
    | Some e => Some (mkSys e (ep_b s))
    end
  else
    match exec_ep cb (wire (ep_a s)) (snd ev) (ep_b s) with
    | None => None
    | Some e => Some (mkSys (ep_a s) e)
    end.

Fixpoint run (ca cb : config) (evs : list (bool * event)) (s : system) : option system :=
  match evs with
  | [] => Some s
  | ev :: r => match exec ca cb ev s with
               | None => None
               | Some s' => run ca cb r s'
               end
  end.
