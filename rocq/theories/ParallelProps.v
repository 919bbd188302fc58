(** C17 (parallel_for) and C18 (parallel_reduce). *)
From Coq Require Import List ZArith Bool Lia Permutation.
From Verif Require Import ParallelModel ParallelProof.
Import ListNotations.
Open Scope Z_scope.

(** [range_ok]: begin < end, positive grain and thread count, and no sum of the
    form end + chunk leaves int64_t. *)

(** C17: the calls of f, in task order, are consecutive non-empty pieces from
    begin to end. *)
Theorem parallel_for_covers : forall b e grain threads nested,
  range_ok b e grain threads ->
  exists l, parallel_for b e grain threads nested = Ok (map Some l) /\ pieces b e l.
Proof. exact parallel_for_spec. Qed.
Print Assumptions parallel_for_covers.

(** ... so that every index lies in exactly one call when it is in the range and
    in none otherwise. *)
Theorem parallel_for_each_index_once : forall b e grain threads nested l i,
  range_ok b e grain threads -> parallel_for b e grain threads nested = Ok (map Some l) ->
  length (filter (fun p => (fst p <=? i) && (i <? snd p)) l) = if (b <=? i) && (i <? e) then 1%nat else 0%nat.
Proof.
  intros b e grain threads nested l i R H.
  destruct (parallel_for_spec b e grain threads nested R) as (l' & H' & P).
  assert (l' = l) as ->.
  { rewrite H in H'. inversion H' as [E]. revert E. clear. revert l'.
    induction l as [|x l IH]; intros [|y l'] E; simpl in E; inversion E; subst; f_equal; auto. }
  exact (pieces_once b e l i P).
Qed.
Print Assumptions parallel_for_each_index_once.

(** An empty range makes no call; a non-positive grain is rejected. *)
Theorem parallel_for_edge_cases : forall b e grain threads nested,
  (0 < grain -> e <= b -> parallel_for b e grain threads nested = Ok []) /\
  (grain <= 0 -> parallel_for b e grain threads nested = Throw).
Proof.
  intros b e grain threads nested. unfold parallel_for. split; intros H.
  - intros H2. destruct (Z.leb_spec grain 0); [lia|]. destruct (Z.leb_spec e b); [auto|lia].
  - destruct (Z.leb_spec grain 0); [auto|lia].
Qed.
Print Assumptions parallel_for_edge_cases.

(** Near the top of int64_t it fails: the end of the last piece wraps. *)
Theorem parallel_for_near_max_refuted : exists b e l,
  - 2 ^ 63 <= b /\ b < e <= i64_max /\ parallel_for b e 1 4 false = Ok l /\
  In (Some (i64_max - 1, - 2 ^ 63 + 1)) l.
Proof.
  exists (i64_max - 10), i64_max. eexists. split; [vm_compute; congruence|].
  split; [vm_compute; split; congruence|]. split; [vm_compute; reflexivity|]. vm_compute. tauto.
Qed.
Print Assumptions parallel_for_near_max_refuted.

(** An exception is rethrown exactly when some task threw, and it is one of those. *)
Theorem parallel_exception : forall (E : Type) (fails : nat -> option E) n, (0 < n)%nat ->
  (rethrown fails n = None <-> forall j, (j < n)%nat -> fails j = None) /\
  (forall x, rethrown fails n = Some x -> exists j, (j < n)%nat /\ fails j = Some x).
Proof. exact (fun E => @rethrown_spec E). Qed.
Print Assumptions parallel_exception.

(** With one thread there is one task and the pool (which cannot be built with
    zero workers) is not touched. *)
Theorem parallel_single_thread : forall b e grain,
  range_ok b e grain 1 -> grain <= e - b -> calc b e grain 1 = Some (1, e - b).
Proof. exact single_thread. Qed.
Print Assumptions parallel_single_thread.

(** C18: for an associative operation the result is the sequential reduction
    g(b) op g(b+1) op ... op g(e-1), whatever the grain, the number of threads,
    and the order [sched] in which the tasks finish. *)
Theorem parallel_reduce_correct : forall (A : Type) (op : A -> A -> A) (g : Z -> A),
  (forall x y z, op (op x y) z = op x (op y z)) ->
  forall init b e grain threads nested sched, range_ok b e grain threads ->
  (forall n c, calc b e grain threads = Some (n, c) -> Permutation sched (seq 0 (Z.to_nat n))) ->
  parallel_reduce (seq_reduce op g) op init b e grain threads threads nested sched = Ok (seq_reduce op g b e).
Proof. exact (fun A op g H init b e grain threads nested sched => parallel_reduce_spec op g H init b e grain threads nested sched). Qed.
Print Assumptions parallel_reduce_correct.

(** The number of threads is read twice.  When it grows in between (another
    thread calls set_num_threads, or the pool is created), a result is written
    past the end of the vector. *)
Theorem parallel_reduce_thread_count_race_refuted : exists t1 t2,
  set_num_threads t2 NotSet = Some (UserSet t2) /\ get_num_threads t1 NotSet = t1 /\ get_num_threads t1 (UserSet t2) = t2 /\
  parallel_reduce (seq_reduce Z.add (fun i => i)) Z.add 0 0 100 1 t1 t2 false (seq 0 16) = UB.
Proof. exists 8, 16. vm_compute. auto. Qed.
Print Assumptions parallel_reduce_thread_count_race_refuted.

(** A conflicting set_num_threads is ignored without an error. *)
Theorem set_num_threads_conflict_refuted : exists n m s,
  set_num_threads n NotSet = Some s /\ n <> m /\ set_num_threads m s = Some s /\ get_num_threads 8 s = n.
Proof. exists 4, 6, (UserSet 4). vm_compute. repeat split; congruence. Qed.
Print Assumptions set_num_threads_conflict_refuted.

Example parallel_for_concrete :
  range_ok (-3) 7 2 3 /\
  parallel_for (-3) 7 2 3 false = Ok [Some (-3, 1); Some (1, 5); Some (5, 7)] /\
  parallel_for (-3) 7 2 3 true = Ok [Some (-3, 7)].
Proof. split; [constructor; vm_compute; congruence|vm_compute; auto]. Qed.
Example parallel_reduce_concrete :
  parallel_reduce (seq_reduce Z.add (fun i => i)) Z.add 0 (-3) 7 2 3 3 false [2%nat; 0%nat; 1%nat] = Ok 15.
Proof. vm_compute. reflexivity. Qed.
