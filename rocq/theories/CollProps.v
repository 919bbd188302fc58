(** C10 (AllGather), C11 (Broadcast), C12 (Gather, Scatter), C13 (Barrier).

    [start n ops]: n parties, each about to make the calls [ops] in order;
    [run_steps sts]: any interleaving of party steps and message deliveries, in
    any order of arrival.  [outs (parties s r)]: the results of the calls party
    [r] has returned from so far. *)
From Coq Require Import ZArith List Arith Bool Lia.
From Verif Require Import ChanKeyModel CollModel CollProof CollInst.
Import ListNotations.
Open Scope nat_scope.

(** Calls the code accepts: roots are ranks, Scatter has one item per party. *)
Definition legal (n : nat) (o : op) : Prop :=
  match o with
  | OpAllGather _ | OpBarrier => True
  | OpBroadcast root _ | OpGather root _ => root < n
  | OpScatter root x => root < n /\ length (x root) = n
  end.

Definition reached (n : nat) (ops : list op) (s : net) : Prop :=
  0 < n /\ Forall (legal n) ops /\ exists sts, run_steps sts (start n ops) = Some s.

Lemma result_at n ops s r k o : reached n ops s -> r < n -> nth_error ops k = Some o ->
  k < length (outs (parties s r)) -> nth_error (outs (parties s r)) k = Some (opout n o r).
Proof.
  intros (Hn & Ho & sts & H) Hr Hk Hl.
  destruct (results_correct n ops sts s r Hn Ho H Hr) as [L E]. rewrite E.
  rewrite nth_error_map.
  replace (nth_error (firstn (length (outs (parties s r))) ops) k) with (Some o); auto.
  rewrite <- Hk. revert Hl. generalize (length (outs (parties s r))). clear.
  revert k. induction ops as [|x l IH]; intros k m Hl; destruct m, k; simpl; auto; try lia. apply IH; lia.
Qed.

(** C10: an AllGather that returns gives everyone all inputs in rank order. *)
Theorem allgather_result : forall n ops s r k x,
  reached n ops s -> r < n -> nth_error ops k = Some (OpAllGather x) -> k < length (outs (parties s r)) ->
  nth_error (outs (parties s r)) k = Some (map x (seq 0 n)).
Proof. exact (fun n ops s r k x Hs Hr Hk Hl => result_at n ops s r k _ Hs Hr Hk Hl). Qed.
Print Assumptions allgather_result.

(** C11: a Broadcast that returns gives everyone the root's input, whatever the
    number of parties. *)
Theorem broadcast_result : forall n ops s r k root x,
  reached n ops s -> r < n -> nth_error ops k = Some (OpBroadcast root x) -> k < length (outs (parties s r)) ->
  nth_error (outs (parties s r)) k = Some [x root].
Proof. exact (fun n ops s r k root x Hs Hr Hk Hl => result_at n ops s r k _ Hs Hr Hk Hl). Qed.
Print Assumptions broadcast_result.

(** C12: Gather gives the root all inputs in rank order and the others nothing. *)
Theorem gather_result : forall n ops s r k root x,
  reached n ops s -> r < n -> nth_error ops k = Some (OpGather root x) -> k < length (outs (parties s r)) ->
  nth_error (outs (parties s r)) k = Some (if root =? r then map x (seq 0 n) else []).
Proof. exact (fun n ops s r k root x Hs Hr Hk Hl => result_at n ops s r k _ Hs Hr Hk Hl). Qed.
Print Assumptions gather_result.

(** C12: Scatter gives party [r] the root's r-th item. *)
Theorem scatter_result : forall n ops s r k root x,
  reached n ops s -> r < n -> nth_error ops k = Some (OpScatter root x) -> k < length (outs (parties s r)) ->
  nth_error (outs (parties s r)) k = Some [nth r (x root) []].
Proof. exact (fun n ops s r k root x Hs Hr Hk Hl => result_at n ops s r k _ Hs Hr Hk Hl). Qed.
Print Assumptions scatter_result.

(** All collectives, any sequence of calls: no schedule deadlocks.  When nothing
    can move any more, every party has returned from every call. *)
Theorem collectives_no_deadlock : forall n ops s,
  reached n ops s -> (forall st, do_step st s = None) ->
  forall r, r < n -> todo (parties s r) = [] /\ length (outs (parties s r)) = length ops.
Proof.
  exact (fun n ops s '(conj Hn (conj Ho (ex_intro _ sts H))) Hst r Hr =>
    match no_deadlock_results n ops sts s Hn Ho H Hst r Hr with
    | conj Ht E => conj Ht (eq_trans (f_equal (@length _) E) (map_length _ _))
    end).
Qed.
Print Assumptions collectives_no_deadlock.

(** Every run is finite, and every partial run extends to one in which every
    party has returned from every call. *)
Theorem collectives_terminate : forall n ops sts s,
  0 < n -> Forall (legal n) ops -> run_steps sts (start n ops) = Some s ->
  length sts <= 2 * list_sum (map (fun r => length (program n r 0 ops)) (seq 0 n)) /\
  exists more s', run_steps more s = Some s' /\ forall r, r < n -> length (outs (parties s' r)) = length ops.
Proof.
  exact (fun n ops sts s Hn Ho H => conj (runs_bounded n ops sts s Hn Ho H)
    match completes n ops sts s Hn Ho H with
    | ex_intro _ more (ex_intro _ s' (conj R F)) =>
        ex_intro _ more (ex_intro _ s' (conj R (fun r Hr =>
          match F r Hr with conj _ E => eq_trans (f_equal (@length _) E) (map_length _ _) end)))
    end).
Qed.
Print Assumptions collectives_terminate.

(** Messages only ever go to another rank of the world. *)
Theorem collectives_addresses : forall n ops sts s m,
  0 < n -> Forall (legal n) ops -> run_steps sts (start n ops) = Some s ->
  In m (flight s ++ boxes s) -> m_dst m < n /\ m_dst m <> m_src m.
Proof. exact messages_valid. Qed.
Print Assumptions collectives_addresses.

(** C13: when some party has returned from the barrier that is call [k], every
    party has entered it: what [q] has left to do is less than call [k] and the
    calls after it, so [q] has started call [k]. *)
Definition entered (n : nat) (ops : list op) (s : net) (q k : nat) : Prop :=
  length (todo (parties s q)) < length (program n q k (skipn k ops)).
Theorem barrier_waits_for_all : forall n ops s p q k,
  reached n ops s -> p < n -> q < n -> nth_error ops k = Some OpBarrier ->
  k < length (outs (parties s p)) -> entered n ops s q k.
Proof.
  exact (fun n ops s p q k '(conj Hn (conj Ho (ex_intro _ sts H))) Hp Hq Hk Hl =>
    barrier_separates n ops sts s p q k Hn Ho H Hp Hq Hk Hl).
Qed.
Print Assumptions barrier_waits_for_all.

(** ... so nobody is still inside an earlier call. *)
Theorem barrier_earlier_calls_done : forall n ops s p q k,
  reached n ops s -> p < n -> q < n -> nth_error ops k = Some OpBarrier ->
  k < length (outs (parties s p)) -> k <= length (outs (parties s q)).
Proof.
  exact (fun n ops s p q k '(conj Hn (conj Ho (ex_intro _ sts H))) Hp Hq Hk Hl =>
    entered_outs n ops sts s q k Hn Ho H Hq (barrier_separates n ops sts s p q k Hn Ho H Hp Hq Hk Hl)).
Qed.
Print Assumptions barrier_earlier_calls_done.

(** Concrete runs: five parties, three calls, round-robin schedule with the
    oldest message delivered in between. *)
Definition demo_x (r : nat) : bytes := [Z.of_nat r; 7%Z].
Definition demo_ops : list op :=
  [OpBroadcast 3 demo_x; OpBarrier; OpAllGather demo_x; OpScatter 4 (fun _ => map demo_x (seq 10 5)); OpGather 2 demo_x].
Fixpoint greedy (fuel : nat) (s : net) (acc : list step) : list step :=
  match fuel with
  | O => rev acc
  | S f =>
      match find (fun st => match do_step st s with Some _ => true | None => false end)
                 [SDeliver 0; SParty 4; SParty 2; SParty 0; SParty 1; SParty 3] with
      | None => rev acc
      | Some st => match do_step st s with Some s' => greedy f s' (st :: acc) | None => rev acc end
      end
  end.
Definition demo_end : option net := run_steps (greedy 400 (start 5 demo_ops) []) (start 5 demo_ops).

Example demo_legal : Forall (legal 5) demo_ops.
Proof. repeat constructor. Qed.
Example demo_results :
  match demo_end with
  | None => False
  | Some s => outs (parties s 2) = [[demo_x 3]; []; map demo_x (seq 0 5); [demo_x 12]; map demo_x (seq 0 5)] /\
              outs (parties s 0) = [[demo_x 3]; []; map demo_x (seq 0 5); [demo_x 10]; []] /\
              flight s = [] /\ boxes s = []
  end.
Proof. vm_compute. auto. Qed.
(** Half way a party can be past the barrier while others are still in it. *)
Example barrier_hypotheses_met : exists s, reached 2 [OpBarrier] s /\
  0 < length (outs (parties s 0)) /\ length (outs (parties s 1)) = 0 /\ entered 2 [OpBarrier] s 1 0.
Proof.
  eexists. split; [|split; [|split]].
  - split; [lia|]. split; [repeat constructor|].
    exists [SParty 0; SParty 1; SDeliver 1; SParty 0; SParty 0]. vm_compute. reflexivity.
  - vm_compute. lia.
  - vm_compute. reflexivity.
  - unfold entered. vm_compute. lia.
Qed.
