(** C07 (event keys), C08 (child contexts), C09 (neighbour ranks). *)
From Coq Require Import List ZArith Bool Lia.
From Verif Require Import ChanKeyModel ChanKeyProof LinkIdModel LinkIdProof.
Import ListNotations.
Open Scope Z_scope.

(** C09. *)
Theorem neighbour_ranks : forall n r s,
  0 < n < 2 ^ 63 -> 0 <= r < n -> 0 <= s <= n ->
  0 <= next_rank n r s < n /\ 0 <= prev_rank n r s < n /\
  next_rank n (prev_rank n r s) s = r /\ prev_rank n (next_rank n r s) s = r.
Proof. exact ranks_inverse. Qed.
Print Assumptions neighbour_ranks.

(** ... and they are the ring neighbours. *)
Theorem neighbour_ranks_ring : forall n r s,
  0 < n < 2 ^ 63 -> 0 <= r < n -> 0 <= s <= n ->
  next_rank n r s = (r + s) mod n /\ prev_rank n r s = (r - s) mod n.
Proof. exact (fun n r s Hn Hr Hs => conj (next_rank_spec n r s Hn Hr ltac:(lia)) (prev_rank_spec n r s Hn Hr Hs)). Qed.
Print Assumptions neighbour_ranks_ring.

Example ranks_concrete : prev_rank 5 1 3 = 3 /\ next_rank 5 3 3 = 1 /\ prev_rank 5 0 5 = 0.
Proof. vm_compute. auto. Qed.

(** A stride above rank + world size wraps around 2^64 and leaves the ring. *)
Theorem prev_rank_large_stride_refuted : exists n r s,
  0 < n < 2 ^ 63 /\ 0 <= r < n /\ 0 <= s < 2 ^ 63 /\
  prev_rank n r s <> (r - s) mod n /\ next_rank n (prev_rank n r s) s <> r.
Proof. exists 3, 0, 4. vm_compute. repeat split; congruence. Qed.
Print Assumptions prev_rank_large_stride_refuted.

(** C07.  A key determines the context id, the kind of operation, its counter and
    its ranks: keys of different operations, and keys of contexts with different
    ids, never collide - whatever characters the ids contain. *)
Theorem event_key_injective : forall o o',
  opid_ok o -> opid_ok o' -> key_of o = key_of o' -> o = o'.
Proof. exact key_of_inj. Qed.
Print Assumptions event_key_injective.

(** All keys drawn by one context in any sequence of operations are different. *)
Theorem context_keys_never_repeat : forall id rank sub ops ks,
  0 <= rank < 2 ^ 64 -> Forall comm_ok ops -> Z.of_nat (length ops) < 2 ^ 64 ->
  keys_of (new_context id rank sub) ops = Some ks -> NoDup ks.
Proof. exact context_keys_distinct. Qed.
Print Assumptions context_keys_never_repeat.

(** The i-th send of party [s] to [d] and the i-th receive of [d] from [s] use
    the same key, however they are interleaved with other operations. *)
Theorem p2p_keys_match : forall id s d sub1 sub2 ops1 ops2 ks1 ks2,
  s <> d ->
  keys_of (new_context id s sub1) ops1 = Some ks1 ->
  keys_of (new_context id d sub2) ops2 = Some ks2 ->
  length (filter (is_to d) ops1) = length (filter (is_from s) ops2) ->
  select (is_to d) ops1 ks1 = select (is_from s) ops2 ks2.
Proof. exact p2p_match. Qed.
Print Assumptions p2p_keys_match.

(** Parties that call the same collectives in the same order use the same keys. *)
Theorem coll_keys_match : forall id r1 r2 sub1 sub2 ops1 ops2 ks1 ks2,
  keys_of (new_context id r1 sub1) ops1 = Some ks1 ->
  keys_of (new_context id r2 sub2) ops2 = Some ks2 ->
  filter is_coll ops1 = filter is_coll ops2 ->
  select is_coll ops1 ks1 = select is_coll ops2 ks2.
Proof. exact coll_match. Qed.
Print Assumptions coll_keys_match.

Example keys_concrete :
  keys_of (new_context [97] 0 false) [CColl Barrier; CSend 1; CSend 1; CRecv 1] =
  Some [ [97;58;49;58;66;65;82;82;73;69;82];
         [97;58;80;50;80;45;49;58;48;45;62;49]; [97;58;80;50;80;45;50;58;48;45;62;49];
         [97;58;80;50;80;45;49;58;49;45;62;48] ] /\
  option_map (select (is_to 1) [CColl Barrier; CSend 1; CSend 1; CRecv 1])
             (keys_of (new_context [97] 0 false) [CColl Barrier; CSend 1; CSend 1; CRecv 1]) =
  option_map (select (is_from 0) [CRecv 0; CSend 0; CRecv 0])
             (keys_of (new_context [97] 1 false) [CRecv 0; CSend 0; CRecv 0]).
Proof. vm_compute. auto. Qed.

(** "For every number of operations" fails: the point-to-point counter is an
    int, so message number 2^31 from one party to another overflows it
    (undefined behaviour), and every earlier one is fine. *)
Theorem p2p_counter_overflow_refuted : exists ctx d k,
  keys_of ctx (repeat (CSend d) k) <> None /\ keys_of ctx (repeat (CSend d) (S k)) = None.
Proof.
  assert (Hk : exists k, Z.of_nat k = 2 ^ 31 - 1).
  { exists (Z.to_nat (2 ^ 31 - 1)). apply Z2Nat.id. lia. }
  destruct Hk as [k Hk]. exists (new_context [97] 0 false), 1, k.
  destruct (sends_count k (new_context [97] 0 false) 1) as [H|H];
    [simpl; lia| |exfalso; lia].
  destruct (sends_count (S k) (new_context [97] 0 false) 1) as [H'|H'];
    [simpl; lia| |discriminate].
  cbn [p2p_counter new_context ctx_rank] in H, H'.
  rewrite Nat2Z.inj_succ, Hk in H'. rewrite Hk in H. split.
  - apply H. lia.
  - destruct (keys_of (new_context [97] 0 false) (repeat (CSend 1) (S k))) as [l|]; auto. exfalso.
    destruct H' as [_ H']. assert (Hs : Some l <> None) by discriminate. specialize (H' Hs). lia.
Qed.
Print Assumptions p2p_counter_overflow_refuted.

(** C08 is false: the first automatically named child and an explicit "0". *)
Theorem spawn_isolated_refuted : exists id rank ids,
  NoDup ids /\ ~ NoDup (spawn_ids (new_context id rank false) ids).
Proof.
  exists [97], 0, [ []; [48] ]. split.
  - repeat constructor; simpl; intuition discriminate.
  - vm_compute. intros H. inversion H as [|? ? H1 H2]; subst. apply H1. simpl; auto.
Qed.
Print Assumptions spawn_isolated_refuted.

(** Nested children clash too: Spawn("a").Spawn("b") and Spawn("a-b"). *)
Theorem spawn_nested_refuted : exists ctx a b c, a <> c /\ b <> c /\
  ctx_id (fst (spawn (fst (spawn ctx a)) b)) = ctx_id (fst (spawn ctx c)).
Proof. exists (new_context [120] 0 false), [97], [98], [97; 45; 98]. vm_compute. repeat split; congruence. Qed.
Print Assumptions spawn_nested_refuted.

(** What does hold: automatically named children never clash with each other,
    and distinct explicit ids that are not decimal numerals clash with nothing. *)
Theorem spawn_isolated_partial : forall ids ctx,
  0 <= child_counter ctx -> child_counter ctx + Z.of_nat (length ids) < 2 ^ 64 ->
  NoDup (filter (fun i => match i with [] => false | _ => true end) ids) ->
  (forall n, 0 <= n < 2 ^ 64 -> ~ In (to_string n) ids) ->
  NoDup (spawn_ids ctx ids).
Proof. exact spawn_distinct. Qed.
Print Assumptions spawn_isolated_partial.

Example spawn_concrete :
  spawn_ids (new_context [97] 0 false) [[]; [120]; []; [120; 121]] =
  [[97;45;48]; [97;45;120]; [97;45;49]; [97;45;120;121]].
Proof. vm_compute. auto. Qed.

(** A sub world may not close the shared channels, but a child spawned from it may. *)
Theorem sub_world_close_guard_refuted : exists ctx suffix r id,
  may_close (sub_world ctx suffix r) = false /\
  may_close (fst (spawn (sub_world ctx suffix r) id)) = true.
Proof. exists (new_context [120] 0 false), [97], 0, []. vm_compute. auto. Qed.
Print Assumptions sub_world_close_guard_refuted.

(** SubWorld: the caller's new rank is its position in the list, and channel [i]
    of the sub world is the channel to the party named by entry [i]. *)
Theorem sub_world_ranks_correct : forall parties rank sub l j,
  sub_world_ranks parties rank sub = Some (l, j) ->
  length l = length sub /\ 0 <= j < Z.of_nat (length sub) /\
  nth_error l (Z.to_nat j) = Some rank /\
  forall i k, nth_error l i = Some k ->
    0 <= k < Z.of_nat (length parties) /\ nth_error parties (Z.to_nat k) = nth_error sub i.
Proof. exact sub_world_ok. Qed.
Print Assumptions sub_world_ranks_correct.

Example sub_world_concrete :
  sub_world_ranks [[97]; [98]; [99]] 2 [[99]; [97]] = Some ([2; 0], 0).
Proof. vm_compute. auto. Qed.
