(** C01: the received-id tracker behaves as a set. *)
From Coq Require Import List ZArith.
From Verif Require Import SegTreeModel SegTreeProof.
Import ListNotations.
Open Scope Z_scope.

(** Contains / Insert / Count, after any history of insertions. *)
Theorem segtree_is_set : forall xs,
  Forall (fun x => 0 <= x < 2 ^ 64 - 1) xs ->
  (forall y, contains (insert_all xs) y = true <-> In y xs) /\
  (forall x, 0 <= x < 2 ^ 64 - 1 -> snd (insert (insert_all xs) x) = true <-> ~ In x xs) /\
  (forall zs, NoDup zs -> (forall z, In z zs <-> In z xs) ->
     count (insert_all xs) = Z.of_nat (length zs)).
Proof. exact segtree_is_set_lemma. Qed.
Print Assumptions segtree_is_set.

(** GetSegments returns the unique maximal decomposition of the inserted set. *)
Theorem segtree_segments_maximal : forall xs,
  Forall (fun x => 0 <= x < 2 ^ 64 - 1) xs ->
  forall l, maximal_decomposition (fun y => In y xs) l <->
            l = get_segments (insert_all xs).
Proof. exact segtree_segments_lemma. Qed.
Print Assumptions segtree_segments_maximal.

(** Non-vacuity: a history with growth to both sides, a bridge and duplicates. *)
Example segtree_history :
  Forall (fun x => 0 <= x < 2 ^ 64 - 1) [3; 1; 7; 2; 7; 5; 4; 6; 2 ^ 64 - 2] /\
  get_segments (insert_all [3; 1; 7; 2; 7; 5; 4; 6; 2 ^ 64 - 2])
    = [(1, 8); (2 ^ 64 - 2, 2 ^ 64 - 1)].
Proof. split; [repeat constructor; cbv; congruence|reflexivity]. Qed.

(** The bound is needed: the largest value of the item type is lost, because
    the end of its half-open segment wraps to 0. *)
Theorem segtree_max_item_refuted :
  exists x, 0 <= x < 2 ^ 64 /\ contains (insert_all [x]) x = false.
Proof. exists (2 ^ 64 - 1). split; [split; vm_compute; congruence|vm_compute; reflexivity]. Qed.
Print Assumptions segtree_max_item_refuted.
