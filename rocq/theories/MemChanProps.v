(** C14 (in-memory channel) and C15 (retry policy). *)
From Coq Require Import List ZArith Bool Lia.
From Verif Require Import ChanKeyModel MemChanModel MemChanProof.
Import ListNotations.
Open Scope Z_scope.

(** C14 in full would read: forall es k, the values returned for k followed by
    the still unread ones are the values sent under k.  It is false: *)
Theorem mem_channel_refuted : exists es k,
  sent_vals k es = [[1]; [2]] /\ mem_run es [] = [(k, Some [1]); (k, None)].
Proof.
  exists [MSend [75] [1]; MSend [75] [2]; MRecv [75]; MRecv [75]], [75]. vm_compute. auto.
Qed.
Print Assumptions mem_channel_refuted.

(** The part that holds: as long as no message is sent under a key whose
    previous message is still unread, receivers see exactly what one
    first-in-first-out queue per key would give them ... *)
Theorem mem_channel_partial : forall es, no_overlap es [] -> mem_run es [] = q_run es [].
Proof. exact (fun es => mem_queue es []). Qed.
Print Assumptions mem_channel_partial.

(** ... in particular when keys are never reused, as in a Context (C07). *)
Theorem mem_channel_distinct_keys : forall es, NoDup (send_keys es) -> mem_run es [] = q_run es [].
Proof. exact distinct_queue. Qed.
Print Assumptions mem_channel_distinct_keys.

(** That queue loses and reorders nothing: per key, the values sent are the
    values returned followed by those still waiting. *)
Theorem mem_channel_fifo : forall es k,
  sent_vals k es = got_vals k (q_run es []) ++ pend_vals k (q_end es []).
Proof. exact (fun es k => q_fifo k es []). Qed.
Print Assumptions mem_channel_fifo.

Example mem_channel_concrete :
  let es := [MSend [1] [10]; MRecv [2]; MSend [2] [20]; MRecv [1]; MSend [1] [11]; MRecv [2]; MRecv [1]] in
  no_overlap es [] /\ mem_run es [] = [([2], None); ([1], Some [10]); ([2], Some [20]); ([1], Some [11])].
Proof.
  cbn. split; auto. repeat split; auto; intros H; repeat (destruct H as [H|H]; try discriminate); auto.
Qed.

(** C15.  Waits and number of retries. *)
Theorem retry_delays : forall o tries ws res,
  send_retry o 0 tries = (ws, res) ->
  0 <= max_retry o < 2 ^ 32 -> 0 <= interval_ms o -> 0 <= incr_ms o ->
  interval_ms o + max_retry o * incr_ms o < 2 ^ 32 ->
  Z.of_nat (length ws) <= max_retry o /\
  forall i, (i < length ws)%nat ->
    nth i ws 0 = Z.min (interval_ms o + Z.of_nat i * incr_ms o) (max_interval_ms o).
Proof.
  exact (fun o tries ws res H Hm Hi Hc Hb =>
    match retry_waits o tries 0 ws res ltac:(lia) H with
    | conj Hw Hl =>
        conj (ltac:(lia) : Z.of_nat (length ws) <= max_retry o)
             (fun i Hlt => eq_trans (Hw i Hlt)
                (wait_exact o (0 + Z.of_nat i) ltac:(lia) Hi Hc ltac:(nia)))
    end).
Qed.
Print Assumptions retry_delays.

(** A request is reported sent exactly when some attempt succeeds after at most
    max_retry attempts that all failed with a retryable error. *)
Theorem retry_succeeds_iff : forall o tries, 0 <= max_retry o ->
  (exists ws, send_retry o 0 tries = (ws, RSent)) <->
  exists pre post, tries = pre ++ AOk :: post /\ Forall (retryable o) pre /\ Z.of_nat (length pre) <= max_retry o.
Proof.
  exact (fun o tries Hm => eq_ind (Z.max 0 (max_retry o - 0))
    (fun m => (exists ws, send_retry o 0 tries = (ws, RSent)) <->
       exists pre post, tries = pre ++ AOk :: post /\ Forall (retryable o) pre /\ Z.of_nat (length pre) <= m)
    (retry_success o tries 0 ltac:(lia)) (max_retry o) ltac:(lia)).
Qed.
Print Assumptions retry_succeeds_iff.

(** Without the bound the sum wraps: a huge increment gives a tiny wait. *)
Theorem retry_delay_wraps_refuted : exists o tries ws res i,
  send_retry o 0 tries = (ws, res) /\ (i < length ws)%nat /\
  0 <= max_retry o < 2 ^ 32 /\ 0 <= interval_ms o < 2 ^ 32 /\ 0 <= incr_ms o < 2 ^ 32 /\
  nth i ws 0 = 0 /\ Z.min (interval_ms o + Z.of_nat i * incr_ms o) (max_interval_ms o) = 10000.
Proof.
  exists (mkRetry 3 0 2147483648 10000 [] [] true), [ALinkError 1 0; ALinkError 1 0; ALinkError 1 0; AOk].
  eexists; eexists; exists 2%nat. split; [vm_compute; reflexivity|]. vm_compute. repeat split; congruence || auto.
Qed.
Print Assumptions retry_delay_wraps_refuted.

(** Options given in the external format: every field except the increment is
    the given value, or the default when it is not given. *)
Theorem proto_options_partial : forall pb,
  max_retry (of_proto pb) = (if p_max_retry pb =? 0 then 3 else p_max_retry pb) /\
  interval_ms (of_proto pb) = (if p_interval pb =? 0 then 1000 else p_interval pb) /\
  max_interval_ms (of_proto pb) = (if p_max_interval pb =? 0 then 10000 else p_max_interval pb) /\
  error_codes (of_proto pb) = p_error_codes pb /\ http_codes (of_proto pb) = p_http_codes pb /\
  aggressive (of_proto pb) = p_aggressive pb /\
  (p_incr pb = 0 -> incr_ms (of_proto pb) = 2000) /\
  (p_incr pb <> 0 -> incr_ms (of_proto pb) = p_interval pb).
Proof.
  intros pb. repeat split; auto; intros H; unfold of_proto; cbn [incr_ms].
  - rewrite H. reflexivity.
  - apply Z.eqb_neq in H. rewrite H. reflexivity.
Qed.
Print Assumptions proto_options_partial.

(** The increment is not: with base 1000 and increment 500 the second wait is
    2000 ms instead of 1500 ms; with the base left out it is 0. *)
Theorem proto_increment_refuted : exists pb,
  p_incr pb = 500 /\ p_interval pb = 1000 /\ incr_ms (of_proto pb) = 1000 /\
  fst (send_retry (of_proto pb) 0 [ALinkError 1 0; ALinkError 1 0; AOk]) = [1000; 2000].
Proof. exists (mkProto 5 1000 500 100000 [] [] true). vm_compute. auto. Qed.
Print Assumptions proto_increment_refuted.

Example retry_concrete :
  send_retry (mkRetry 3 10 20 35 [] [] true) 0 [ALinkError 1 0; ALinkError 2 0; ALinkError 3 0; AOk] = ([10; 30; 35], RSent) /\
  send_retry (mkRetry 1 10 20 35 [] [] true) 0 [ALinkError 1 0; ALinkError 2 0; AOk] = ([10], RThrowLink 2 0).
Proof. vm_compute. auto. Qed.
