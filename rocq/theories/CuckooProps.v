(** C20, C21: the cuckoo index. *)
From Coq Require Import List ZArith Bool Lia Permutation.
From Verif Require Import CuckooModel CuckooProof.
Import ListNotations.
Open Scope Z_scope.

(** Options under which the claims are made: 1..5 hash functions (what the
    constructor means to check), at least one bin, indices that fit the 56-bit field. *)
Definition sane (o : opts) : Prop :=
  1 <= num_hash o <= 5 /\ (0 < num_bins o)%nat /\ 0 <= num_input o < 2 ^ 56.

(** Every input inserted so far is in exactly one slot, and every used slot is an input. *)
Definition all_placed_once (t : table) : Prop :=
  forall i, (0 <= i < Z.of_nat (length (hashes t)) <-> exists j, at_slot t j i) /\
            (forall j k, at_slot t j i -> at_slot t k i -> j = k).
(** Every used bin holds an input one of whose hash functions maps it there. *)
Definition bins_reachable (o : opts) (t : table) : Prop :=
  forall b e, nth_error (bins t) b = Some e -> e <> kEmpty ->
    exists h, hash_idx e = h /\ 0 <= h < num_hash o /\
      get_hash (nth (Z.to_nat (input_idx e)) (hashes t) 0) h mod Z.of_nat (num_bins o) = Z.of_nat b.

(** C20: whatever the batches, hash codes and options, successful insertions
    leave every input in exactly one bin or stash slot, in a bin one of its hash
    functions chose; no insertion accesses memory out of bounds. *)
Theorem cuckoo_places_everything_once o t batches :
  sane o -> new_table o = Some t ->
  match insert_all o t batches with
  | Done t' => hashes t' = concat batches /\ all_placed_once t' /\ bins_reachable o t' /\
               length (bins t') = num_bins o /\ length (stash t') = num_stash o
  | Threw _ _ => True
  | UB => False
  end.
Proof.
  intros (Hh & Hb & Hi) Hn.
  pose proof (new_tinv o Hb t ltac:(lia) Hn) as I.
  pose proof (insert_all_inv o Hh Hb ltac:(lia) batches t I) as H.
  destruct (insert_all o t batches) as [t'| |]; auto. destruct H as [[Ts [Tl Tb] [Tsl Tst] Ta] E].
  assert (E0 : hashes t = []) by (unfold new_table in Hn; destruct (_ <=? 16); [inversion Hn; reflexivity|discriminate]).
  rewrite E0 in E. cbn [app] in E. split; auto. split; [|split; [|split; auto]].
  - destruct (unique_slot t' (length (hashes t')) []) as (U1 & U2 & U3); [rewrite app_nil_r; exact Ta|].
    intros i. split; [split|].
    + intros Hr. destruct (U3 i Hr) as [[]|]; auto.
    + intros [j Hj]. apply U1 in Hj. tauto.
    + intros j k. apply U2.
  - intros b e Hbe Hne. destruct (Tb b e Hbe) as [|[(i & h & -> & Hi2 & Hh2) Hhome]]; [tauto|].
    unfold small in Ts. exists h. rewrite hash_encode by lia. split; auto. split; auto.
    unfold home in Hhome. rewrite hash_encode in Hhome by lia.
    rewrite <- Hhome. rewrite Z2Nat.id; auto. apply Z.mod_pos_bound. lia.
Qed.
Print Assumptions cuckoo_places_everything_once.

(** SanityCheck passes exactly when every one of the num_input inputs is placed
    once; so it passes after num_input successful insertions. *)
Theorem cuckoo_sanity_check_passes o t batches t' :
  sane o -> new_table o = Some t -> insert_all o t batches = Done t' ->
  (sanity_check o t' = true <-> Z.of_nat (length (concat batches)) = num_input o).
Proof.
  intros (Hh & Hb & Hi) Hn Hr.
  pose proof (new_tinv o Hb t ltac:(lia) Hn) as I.
  pose proof (insert_all_inv o Hh Hb ltac:(lia) batches t I) as H. rewrite Hr in H.
  destruct H as [[Ts [Tl Tb] [Tsl Tst] Ta] E].
  assert (E0 : hashes t = []) by (unfold new_table in Hn; destruct (_ <=? 16); [inversion Hn; reflexivity|discriminate]).
  rewrite E0 in E. cbn [app] in E. rewrite sanity_iff by lia. rewrite E in *. split.
  - intros P. rewrite Ta in P. apply Permutation_length in P. rewrite !map_length, !seq_length in P. lia.
  - intros <-. rewrite Nat2Z.id. exact Ta.
Qed.
Print Assumptions cuckoo_sanity_check_passes.

(** MinCollidingHashIdx on a used bin returns the smallest hash function that
    maps the bin's input to that bin, and never the "not found" value. *)
Theorem cuckoo_min_colliding o t batches t' b e :
  sane o -> new_table o = Some t -> insert_all o t batches = Done t' ->
  nth_error (bins t') b = Some e -> e <> kEmpty ->
  let code := nth (Z.to_nat (input_idx e)) (concat batches) 0 in
  exists r, min_colliding o t' b = Some r /\ 0 <= r < num_hash o /\
    get_hash code r mod Z.of_nat (num_bins o) = Z.of_nat b /\
    forall j, 0 <= j < r -> get_hash code j mod Z.of_nat (num_bins o) <> Z.of_nat b.
Proof.
  intros (Hh & Hb & Hi) Hn Hr Hbe Hne code.
  pose proof (new_tinv o Hb t ltac:(lia) Hn) as I.
  pose proof (insert_all_inv o Hh Hb ltac:(lia) batches t I) as H. rewrite Hr in H. destruct H as [I' E].
  assert (E0 : hashes t = []) by (unfold new_table in Hn; destruct (_ <=? 16); [inversion Hn; reflexivity|discriminate]).
  rewrite E0 in E. cbn [app] in E. unfold code. rewrite <- E.
  exact (min_colliding_spec o Hh Hb ltac:(lia) t' b e I' Hbe Hne).
Qed.
Print Assumptions cuckoo_min_colliding.

(** C21 is false: an Insert that throws can drop an input that an earlier,
    successful Insert had placed, even with the default limit of 128 passes.
    Two bins (num_input 4, scale_factor 0.5), one stash slot, two hash functions:
    inputs 0, 1, 2 are in the table; inserting input 3 throws and 0 is gone. *)
Theorem cuckoo_rejected_insert_loses_refuted :
  exists o codes1 code t0 t1 t2 lost,
    sane o /\ max_try o = 128%nat /\ new_table o = Some t0 /\ insert o t0 codes1 = Done t1 /\
    insert o t1 [code] = Threw t2 lost /\
    exists i, 0 <= i < Z.of_nat (length codes1) /\ (exists j, at_slot t1 j i) /\ ~ exists j, at_slot t2 j i.
Proof.
  exists (mkOpts 4 1 2 128 2), [0; 65536; 0], 1.
  eexists _, _, _, _. split; [unfold sane; cbn; lia|]. split; [reflexivity|].
  split; [vm_compute; reflexivity|]. split; [vm_compute; reflexivity|]. split; [vm_compute; reflexivity|].
  exists 0. split; [cbn; lia|]. split.
  - exists 0%nat. eexists. split; [reflexivity|]. split; [vm_compute; discriminate|vm_compute; reflexivity].
  - intros [j (e & H1 & H2 & H3)]. cbn [bins stash app] in H1.
    destruct j as [|[|[|[|j]]]]; cbn in H1; try discriminate; inversion H1; subst; vm_compute in H3; discriminate.
Qed.
Print Assumptions cuckoo_rejected_insert_loses_refuted.

(** What does hold of a throwing Insert, after any history of successful ones:
    memory stays safe, no input is duplicated, and every input is either in
    exactly one slot or among the [lost] ones; at least one and at most
    [length codes] inputs are lost, and (unless the call exceeded num_input)
    the stash is then full. *)
Theorem cuckoo_rejected_insert_partial o t0 batches t codes t' lost :
  sane o -> new_table o = Some t0 -> insert_all o t0 batches = Done t ->
  insert o t codes = Threw t' lost ->
  lost <> [] /\ (length lost <= length codes)%nat /\
  (forall i, 0 <= i < Z.of_nat (length (concat batches) + length codes) -> In i lost \/ exists j, at_slot t' j i) /\
  (forall i j, at_slot t' j i -> 0 <= i < Z.of_nat (length (concat batches) + length codes) /\ ~ In i lost /\
     forall k, at_slot t' k i -> j = k) /\
  (Z.of_nat (length (concat batches) + length codes) <= num_input o -> ~ In kEmpty (stash t')).
Proof.
  intros (Hh & Hb & Hi) Hn Hr Hx.
  pose proof (new_tinv o Hb t0 ltac:(lia) Hn) as I.
  pose proof (insert_all_inv o Hh Hb ltac:(lia) batches t0 I) as H. rewrite Hr in H. destruct H as [I' E].
  assert (E0 : hashes t0 = []) by (unfold new_table in Hn; destruct (_ <=? 16); [inversion Hn; reflexivity|discriminate]).
  rewrite E0 in E. cbn [app] in E.
  pose proof (insert_inv o Hh Hb ltac:(lia) t codes I') as H. rewrite Hx in H.
  destruct H as (H1 & H2 & H3 & H4 & H5 & H6 & H7).
  rewrite E in *. rewrite app_length in *.
  destruct (unique_slot t' _ lost H6) as (U1 & U2 & U3).
  split; auto. split; auto. split; [apply U3|]. split; [|apply H7].
  intros i j Hj. pose proof (U1 _ _ Hj) as [Ha Hb2]. split; auto. split; auto. intros k Hk. eapply U2; eauto.
Qed.
Print Assumptions cuckoo_rejected_insert_partial.

(** The constructor's check on num_hash is unsigned: num_hash = 0 passes it, and
    the second insertion into one bin divides by zero. *)
Theorem cuckoo_zero_hash_refuted :
  exists o t0, num_hash o = 0 /\ new_table o = Some t0 /\ insert o t0 [7; 7] = UB.
Proof. exists (mkOpts 2 1 0 128 3). eexists. split; [reflexivity|]. split; [vm_compute; reflexivity|]. vm_compute. reflexivity. Qed.
Print Assumptions cuckoo_zero_hash_refuted.
(** Other counts above 5 (short of 2^62, where the check wraps again) are refused. *)
Theorem cuckoo_hash_count_checked o : 0 < num_hash o < 2 ^ 62 -> (new_table o <> None <-> num_hash o <= 5).
Proof.
  intros H. unfold new_table. rewrite Z.mod_small by lia.
  destruct (Z.leb_spec ((num_hash o - 1) * 2 + 8) 16); split; intros; try lia; [discriminate|tauto].
Qed.
Print Assumptions cuckoo_hash_count_checked.

(** Concrete: 4 inputs in two batches into 6 bins with 3 hash functions. *)
Example cuckoo_concrete :
  let o := mkOpts 4 1 3 128 6 in
  let c1 := 3 + 5 * 65536 + 2 ^ 33 in let c2 := 3 + 4 * 65536 in
  sane o /\ exists t t', new_table o = Some t /\ insert_all o t [[c1; c2]; [c1; 2]] = Done t' /\
    sanity_check o t' = true /\ content (bins t') <> [0; 1; 2; 3].
Proof.
  cbn zeta. split; [unfold sane; cbn; lia|]. eexists _, _. split; [reflexivity|].
  split; [vm_compute; reflexivity|]. split; [vm_compute; reflexivity|vm_compute; discriminate].
Qed.
