(** C19: the thread pool.  [prun es (new_pool k)]: any interleaving of submitters,
    k workers, spurious wake-ups and the destructor. *)
From Coq Require Import List Arith Bool Lia Permutation.
From Verif Require Import PoolModel PoolProof.
Import ListNotations.

(** Tasks are started in submission order, each at most once, and an accepted
    task is either started or still queued. *)
Theorem pool_fifo_once : forall k es s, 0 < k -> prun es (new_pool k) = Some s ->
  started s ++ queue s = seq 0 (accepted s).
Proof. exact (fun k es s Hk H => p_fifo k s (pinv_run k es Hk _ s (new_inv k) H)). Qed.
Print Assumptions pool_fifo_once.

(** A started task is finished or is being run by exactly one worker. *)
Theorem pool_started_accounted : forall k es s, 0 < k -> prun es (new_pool k) = Some s ->
  Permutation (finished s ++ running (workers s)) (started s).
Proof. exact (fun k es s Hk H => p_run k s (pinv_run k es Hk _ s (new_inv k) H)). Qed.
Print Assumptions pool_started_accounted.

(** The destructor returns only when every accepted task has finished, exactly once. *)
Theorem pool_destructor_waits : forall k es s, 0 < k -> prun es (new_pool k) = Some s -> joined s = true ->
  queue s = [] /\ Permutation (finished s) (seq 0 (accepted s)).
Proof. exact (fun k es s Hk H => joined_all k s Hk (pinv_run k es Hk _ s (new_inv k) H)). Qed.
Print Assumptions pool_destructor_waits.

(** Once shutdown has started no task is accepted any more. *)
Theorem pool_rejects_after_stop : forall e s s', stop s = true -> pstep e s = Some s' ->
  stop s' = true /\ accepted s' = accepted s /\ (e = PSubmit -> rejected s' = S (rejected s) /\ queue s' = queue s).
Proof. exact stop_rejects. Qed.
Print Assumptions pool_rejects_after_stop.

(** No lost wake-up and no deadlock: whatever the schedule, when the pool cannot
    move any more by itself every accepted task has finished, and the destructor,
    if it was called, has returned. *)
Theorem pool_no_deadlock : forall k es s, 0 < k -> prun es (new_pool k) = Some s ->
  (forall e, internal e -> pstep e s = None) ->
  Permutation (finished s) (seq 0 (accepted s)) /\ (stop s = true -> joined s = true).
Proof.
  intros k es s Hk H Hn. pose proof (pinv_run k es Hk _ s (new_inv k) H) as I.
  destruct (pool_quiescent k s Hk I Hn) as (Hq & Hr & _ & Hs). split; auto.
  pose proof (p_fifo k s I) as F. pose proof (p_run k s I) as R. rewrite Hq, app_nil_r in F. rewrite Hr, app_nil_r in R.
  rewrite R, F. apply Permutation_refl.
Qed.
Print Assumptions pool_no_deadlock.

(** ... and it gets there in a bounded number of steps of its own. *)
Theorem pool_terminates : forall es s s', Forall internal es -> prun es s = Some s' ->
  length es <= wsum (workers s) + 2 * length (queue s) + 2 * pending s + length (workers s) + 2.
Proof.
  intros es s s' Hi H. pose proof (run_internal_bounded es s s' Hi H) as B. unfold pmeasure in B.
  destruct (nall s), (joined s); lia.
Qed.
Print Assumptions pool_terminates.

(** Two workers, three tasks, destruction while tasks are queued. *)
Example pool_concrete :
  let es := [PCheck 0; PCheck 1; PSubmit; PNotify (Some 1); PSubmit; PCheck 1; PNotify (Some 0); PSubmit; PStop; PSubmit;
             PCheck 0; PNotify None; PFinish 0; PCheck 0; PNotifyAll; PFinish 1; PCheck 1; PFinish 0; PCheck 0; PJoin] in
  match prun es (new_pool 2) with
  | Some s => accepted s = 3 /\ rejected s = 1 /\ started s = [0; 1; 2] /\ finished s = [1; 0; 2] /\ joined s = true
  | None => False
  end.
Proof. vm_compute. auto. Qed.
