(** C04 (at-most-once, unaltered delivery), C05 (throttle window), C06 (finish
    handshake): for every run of two connected channels.

    A run [evs] is any sequence of events of the two parties [true] and [false];
    [me who s] is the state of one party, [other who s] that of its peer. *)
From Coq Require Import List ZArith Bool.
From Verif Require Import SegTreeModel SegTreeProof ChanKeyModel ChanKeyProof ChunkModel ChanModel ChanProof.
Import ListNotations.
Open Scope Z_scope.

(** Everything Recv(k) ever returned was sent by the peer under [k] with this
    very content (or is the empty connection test message, which has id 0);
    ids name the peer's send calls one to one, and no id is returned twice. *)
Theorem delivered_at_most_once : forall who ca cb evs s,
  cfg_ok ca -> cfg_ok cb -> run ca cb evs init_sys = Some s ->
  (forall k v n, In (k, (v, n)) (log_returned (me who s)) ->
     (n = 0 /\ k = connect_key (cfg_other who ca cb) /\ v = []) \/
     In (n, (k, v)) (log_sent (other who s))) /\
  NoDup (filter (Z.ltb 0) (map (fun r => snd (snd r)) (log_returned (me who s)))) /\
  NoDup (map fst (log_sent (other who s))) /\
  (forall n x, In (n, x) (log_sent (other who s)) -> 0 < n).
Proof. exact at_most_once. Qed.
Print Assumptions delivered_at_most_once.

(** A message that arrived is waiting to be read, was returned, was skipped
    because the receiver is closing, or was rejected because another message
    with the same key was waiting. *)
Theorem arrived_message_accounted : forall who ca cb evs s,
  cfg_ok ca -> cfg_ok cb -> run ca cb evs init_sys = Some s ->
  forall n, contains (received_msg_ids (me who s)) n = true ->
    In n (map fst (log_sent (other who s))) /\
    (In n (map (fun r => snd (snd r)) (recv_msgs (me who s))) \/
     In n (map (fun r => snd (snd r)) (log_returned (me who s))) \/
     In n (log_skipped (me who s)) \/ In n (log_dropped (me who s))).
Proof. exact no_silent_loss. Qed.
Print Assumptions arrived_message_accounted.

(** Between two honest parties no request ever makes the receiver write outside
    a message buffer (compare chunk_memory_safe_refuted for arbitrary peers). *)
Theorem honest_peers_memory_safe : forall who ca cb evs s,
  cfg_ok ca -> cfg_ok cb -> run ca cb evs init_sys = Some s -> hit_ub (me who s) = false.
Proof. exact never_ub. Qed.
Print Assumptions honest_peers_memory_safe.

(** C05.  Until the channel is closed, at most [window] messages are on the wire
    without acknowledgement. *)
Theorem throttle_window : forall who ca cb evs s,
  cfg_ok ca -> cfg_ok cb -> run ca cb evs init_sys = Some s ->
  0 < window (cfg_me who ca cb) -> send_stopped (me who s) = false ->
  Z.of_nat (length (filter (fun n => negb (contains (received_ack_ids (me who s)) n))
                           (log_submitted (me who s)))) <= window (cfg_me who ca cb).
Proof. exact window_bound. Qed.
Print Assumptions throttle_window.

(** An acknowledgement is only ever seen for a message that was put on the wire
    and arrived at the peer. *)
Theorem ack_is_truthful : forall who ca cb evs s,
  cfg_ok ca -> cfg_ok cb -> run ca cb evs init_sys = Some s ->
  forall n, contains (received_ack_ids (me who s)) n = true ->
    contains (received_msg_ids (other who s)) n = true /\ In n (log_submitted (me who s)).
Proof. exact ack_means_received. Qed.
Print Assumptions ack_is_truthful.

(** C06.  The exit condition of the wait is true exactly when all of 1..n are in,
    for any order and multiplicity of arrivals. *)
Theorem finish_condition_exact : forall xs n,
  0 <= n < 2 ^ 64 - 1 -> Forall (fun x => 1 <= x <= n) xs ->
  all_arrived (insert_all xs) n = true <-> forall i, 1 <= i <= n -> In i xs.
Proof. exact all_arrived_iff. Qed.
Print Assumptions finish_condition_exact.

(** When the receiver stops waiting (phase 3) the peer has announced its count
    and all announced ids have arrived. *)
Theorem finish_never_early : forall who ca cb evs s,
  cfg_ok ca -> cfg_ok cb -> run ca cb evs init_sys = Some s ->
  3 <= finish_phase (me who s) ->
  received_fin (me who s) = true /\
  forall n, 1 <= n <= peer_sent_msg_count (me who s) -> contains (received_msg_ids (me who s)) n = true.
Proof. exact fin_announced. Qed.
Print Assumptions finish_never_early.

(** ... and these are all messages the peer sent, unless one of the peer's send
    calls overlapped the peer's own WaitLinkTaskFinish. *)
Theorem finish_means_all_received : forall who ca cb evs s,
  cfg_ok ca -> cfg_ok cb -> run ca cb evs init_sys = Some s ->
  3 <= finish_phase (me who s) -> log_race (other who s) = false ->
  forall n k v, In (n, (k, v)) (log_sent (other who s)) ->
    contains (received_msg_ids (me who s)) n = true.
Proof. exact fin_all_received. Qed.
Print Assumptions finish_means_all_received.

(** When WaitLinkTaskFinish returns, everything this party sent has arrived. *)
Theorem finish_means_all_delivered : forall who ca cb evs s,
  cfg_ok ca -> cfg_ok cb -> run ca cb evs init_sys = Some s ->
  finish_phase (me who s) = 6 -> log_race (me who s) = false ->
  forall n k v, In (n, (k, v)) (log_sent (me who s)) ->
    contains (received_msg_ids (other who s)) n = true.
Proof. exact finish_all_delivered. Qed.
Print Assumptions finish_means_all_delivered.

(** * Concrete runs *)
Definition cfgA := mkCfg 3 2 [97] (fun _ => 0).
Definition cfgB := mkCfg 4 0 [98] (fun _ => 0).

Definition send_evs (w : bool) (k v : bytes) := [(w, ECheck k v); (w, EAssign 0); (w, EPush 0); (w, EPop)].

(** A sends a short and a chunked message; the network duplicates and reorders;
    B reads both; both sides finish. *)
Definition demo : list (bool * event) :=
  send_evs true [107] [1; 2] ++ [(true, EThrottleOk)] ++
  send_evs true [108] [1; 2; 3; 4; 5] ++
  [(false, EDeliver 2); (false, EDeliver 0); (false, EDeliver 0); (false, EDeliver 1);
   (false, EReassembled 0); (false, ERecv [108]); (false, EDeliver 0); (false, ERecv [107]);
   (true, EDeliver 0); (true, EThrottleOk); (true, EDeliver 1); (true, EDeliver 1);
   (true, EStopReceiving); (true, EFin); (false, EStopReceiving); (false, EFin);
   (true, EDeliver 2); (true, EFinOk); (true, EStop); (true, EJoin); (true, EAckOk);
   (false, EDeliver 3); (false, EFinOk); (false, EStop); (false, EJoin); (false, EAckOk)].

Example demo_run :
  cfg_ok cfgA /\ cfg_ok cfgB /\
  match run cfgA cfgB demo init_sys with
  | Some s =>
      log_returned (ep_b s) = [([108], ([1; 2; 3; 4; 5], 2)); ([107], ([1; 2], 1))] /\
      finish_phase (ep_a s) = 6 /\ finish_phase (ep_b s) = 6 /\ log_race (ep_a s) = false /\
      log_submitted (ep_a s) = [1; 2] /\ count (received_ack_ids (ep_a s)) = 2
  | None => False
  end.
Proof. unfold cfg_ok. vm_compute. repeat split; auto. Qed.

(** A state in which the window is exhausted: two unacknowledged messages, the
    bound of [throttle_window] is reached. *)
Example window_tight :
  match run cfgA cfgB (send_evs true [107] [1] ++ [(true, EThrottleOk)] ++ send_evs true [108] [2]) init_sys with
  | Some s => log_submitted (ep_a s) = [1; 2] /\ throttled (ep_a s) = Some 2 /\
              exec cfgA cfgB (true, EThrottleOk) s = None /\ send_stopped (ep_a s) = false
  | None => False
  end.
Proof. vm_compute. auto. Qed.

(** * What does not hold *)

(** Without the "no overlap" hypothesis the finish handshake loses messages: a
    SendAsync that has passed its check while WaitLinkTaskFinish starts draws an
    id after FIN announced the count.  Both sides finish the handshake and
    the message, which SendAsync accepted, is never received. *)
Definition race_evs : list (bool * event) :=
  [(true, ECheck [107] [1]); (true, EStopReceiving); (true, EFin); (true, EAssign 0);
   (false, EStopReceiving); (false, EFin); (true, EDeliver 0); (false, EDeliver 0);
   (false, EFinOk); (false, EStop); (false, EJoin); (false, EAckOk);
   (true, EFinOk); (true, EStop); (true, EJoin)].
Theorem finish_racing_send_refuted : exists ca cb evs s n k v,
  cfg_ok ca /\ cfg_ok cb /\ run ca cb evs init_sys = Some s /\
  finish_phase (ep_b s) = 6 /\ In (n, (k, v)) (log_sent (ep_a s)) /\
  contains (received_msg_ids (ep_b s)) n = false.
Proof.
  exists cfgA, cfgB, race_evs.
  destruct (run cfgA cfgB race_evs init_sys) as [s|] eqn:E; [|vm_compute in E; discriminate].
  exists s, 1, [107], [1]. revert E. vm_compute. intros E; inversion E; clear E.
  repeat split; auto.
Qed.
Print Assumptions finish_racing_send_refuted.

(** A second message under a key that has not been read yet is dropped without
    an error at either end, and the sender's finish then waits for its
    acknowledgement for ever: the id counts as received, but it is in no queue. *)
Definition dup_evs : list (bool * event) :=
  send_evs true [107] [1] ++ [(true, EThrottleOk)] ++ send_evs true [107] [2] ++
  [(false, EDeliver 0); (false, EDeliver 1); (false, ERecv [107])].
Theorem same_key_twice_refuted : exists ca cb evs s n k v,
  cfg_ok ca /\ cfg_ok cb /\ run ca cb evs init_sys = Some s /\
  In (n, (k, v)) (log_sent (ep_a s)) /\
  contains (received_msg_ids (ep_b s)) n = true /\
  recv_msgs (ep_b s) = [] /\ ~ In n (map (fun r => snd (snd r)) (log_returned (ep_b s))).
Proof.
  exists cfgA, cfgB, dup_evs.
  destruct (run cfgA cfgB dup_evs init_sys) as [s|] eqn:E; [|vm_compute in E; discriminate].
  exists s, 2, [107], [2]. revert E. vm_compute. intros E; inversion E; clear E.
  repeat split; auto. simpl. intros [H|H]; [discriminate|auto].
Qed.
Print Assumptions same_key_twice_refuted.

(** Two threads that send at the same time may push their messages in the
    inverse order of their ids.  With window 1 the send thread then waits, after
    submitting id 2, for two acknowledgements, while id 1 is still in its
    queue: whatever the peer and the network do, message 1 is never put on the
    wire, until the wait times out (EThrottleFail). *)
Definition cfg1 := mkCfg 3 1 [97] (fun _ => 0).
Definition inv_evs : list (bool * event) :=
  [(true, ECheck [107] [1]); (true, ECheck [108] [2]); (true, EAssign 0); (true, EAssign 0);
   (true, EPush 1); (true, EPush 0); (true, EPop)].
Theorem throttle_progress_refuted : exists ca cb evs s,
  cfg_ok ca /\ cfg_ok cb /\ run ca cb evs init_sys = Some s /\
  In (1, ([107], [1])) (log_sent (ep_a s)) /\
  forall evs' s', run ca cb evs' s = Some s' -> ~ In (true, EThrottleFail) evs' ->
    ~ In 1 (log_submitted (ep_a s')).
Proof.
  exists cfg1, cfgB, inv_evs.
  assert (H1 : cfg_ok cfg1) by (split; vm_compute; auto).
  assert (H2 : cfg_ok cfgB) by (split; vm_compute; auto using le_n, le_S).
  destruct (run cfg1 cfgB inv_evs init_sys) as [s|] eqn:E; [|vm_compute in E; discriminate].
  exists s. assert (Hs : stuck s /\ In (1, ([107], [1])) (log_sent (ep_a s))).
  { unfold stuck. revert E. vm_compute. intros E; inversion E; clear E. cbn. auto. }
  destruct Hs as [Hs Hl]. repeat split; try (apply H1); try (apply H2); auto.
  intros evs' s' Hr Hn.
  destruct (stuck_forever cfg1 cfgB evs' inv_evs s s' H1 H2 eq_refl E Hs Hr Hn) as [_ ->].
  intros [H|[]]; discriminate.
Qed.
Print Assumptions throttle_progress_refuted.
