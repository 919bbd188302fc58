(** C23, C24, C43: OT stores and their slices. *)
From Coq Require Import List ZArith Bool Lia.
From Verif Require Import OtStoreModel OtStoreProof.
Import ListNotations.
Open Scope Z_scope.

(** A fresh store of [n] OTs ([k] blocks each) and any history of NextSlice calls,
    on the store or on any slice obtained before. *)
Definition history (k n : Z) (os : list op) (hs : list ctrs) : Prop :=
  exists c, new_ctrs k n = Some c /\ Forall (fun o => 0 <= snd o < 2 ^ 63) os /\ hs = run k (k * n) [c] os.
Definition store_params (k n : Z) : Prop := (k = 1 \/ k = 2) /\ 0 < n /\ k * n < 2 ^ 60.

Lemma history_inv k n os hs : store_params k n -> history k n os hs ->
  Forall (good k (k * n)) hs /\ free_disjoint hs /\ laminar hs.
Proof.
  intros (Hk & Hn & Hl) (c & Hc & Ho & ->). destruct (new_good k (k * n) Hk Hl n Hn ltac:(lia)) as (c' & E & -> & G).
  rewrite Hc in E. inversion E; subst.
  assert (G0 : Forall (good k (k * n)) [mkCtrs 0 (n * k) 0 (n * k)]) by (constructor; auto).
  assert (F0 : free_disjoint [mkCtrs 0 (n * k) 0 (n * k)]).
  { intros [|i] [|j] a b Hij Ha Hb; cbn in *; try lia; try (destruct i; discriminate); destruct j; discriminate. }
  assert (L0 : laminar [mkCtrs 0 (n * k) 0 (n * k)]).
  { intros [|i] [|j] a b Ha Hb; cbn in *; auto; try (destruct i; discriminate); destruct j; discriminate. }
  split; [apply run_good; auto|]. split; [apply run_free; auto|apply run_laminar; auto].
Qed.

(** C23: every handle stays inside the buffer; two handles cover disjoint ranges
    of the buffer, or one was carved out of the already consumed part of the
    other; handles that were not sliced further never overlap. *)
Theorem ot_slices_never_overlap k n os hs : store_params k n -> history k n os hs ->
  (forall i a, nth_error hs i = Some a -> 0 <= uctr a /\ 0 < usize a /\ uctr a + usize a <= k * n) /\
  (forall i j a b, i <> j -> nth_error hs i = Some a -> nth_error hs j = Some b ->
     let disjoint := uctr a + usize a <= uctr b \/ uctr b + usize b <= uctr a in
     let in_consumed x y := uctr y <= uctr x /\ uctr x + usize x <= bctr y in
     disjoint \/ in_consumed a b \/ in_consumed b a) /\
  (forall i j a b, i <> j -> nth_error hs i = Some a -> nth_error hs j = Some b ->
     bctr a = uctr a -> bctr b = uctr b -> uctr a + usize a <= uctr b \/ uctr b + usize b <= uctr a).
Proof.
  intros HP HH. destruct (history_inv k n os hs HP HH) as (G & F & L).
  assert (Gx : forall i x, nth_error hs i = Some x -> good k (k * n) x) by (intros i x Hx; rewrite Forall_forall in G; apply G; eapply nth_error_In; eauto).
  split; [|split].
  - intros i a Ha. destruct (Gx i a Ha) as [Xb Xs Xu _]. lia.
  - intros i j a b Hij Ha Hb. cbn zeta. destruct (Gx i a Ha) as [Xb Xs Xu _], (Gx j b Hb) as [Yb Ys Yu _].
    pose proof (L i j a b Ha Hb). lia.
  - intros i j a b Hij Ha Hb Ea Eb. destruct (Gx i a Ha) as [Xb Xs Xu _], (Gx j b Hb) as [Yb Ys Yu _].
    pose proof (F i j a b Hij Ha Hb). lia.
Qed.
Print Assumptions ot_slices_never_overlap.

(** One call: it succeeds exactly when the request is positive and fits in what
    is left, the new slice is the next [num] OTs, and the parent only advances;
    a failing call changes nothing (the model returns no new parent). *)
Theorem ot_next_slice k n os hs i c num : store_params k n -> history k n os hs -> nth_error hs i = Some c -> 0 <= num < 2 ^ 63 ->
  match next_slice k (k * n) c num with
  | Some (out, c') => 0 < num /\ num * k <= uctr c + usize c - bctr c /\
      uctr out = bctr c /\ usize out = num * k /\ bctr out = uctr out /\ bsize out = uctr out + usize out /\
      uctr c' = uctr c /\ usize c' = usize c /\ bctr c' = bctr c + num * k /\ bsize c' = bsize c
  | None => num = 0 \/ uctr c + usize c - bctr c < num * k
  end.
Proof.
  intros HP HH Hi Hn. destruct (history_inv k n os hs HP HH) as (G & _).
  destruct HP as (Hk & H0 & Hl).
  assert (Gc : good k (k * n) c) by (rewrite Forall_forall in G; apply G; eapply nth_error_In; eauto).
  rewrite (next_slice_spec k (k * n) Hk Hl c num Gc Hn). destruct Gc as [Xb Xs Xu _].
  destruct (Z.ltb_spec 0 num), (Z.leb_spec (bctr c + num * k) (bsize c)); cbn [andb uctr usize bctr bsize]; repeat split; lia.
Qed.
Print Assumptions ot_next_slice.

(** C23, correlation: slicing both sides alike keeps them correlated.  [message]
    is the sender's message for OT [i] of the whole store: block 2i+b for random
    OTs (delta = 0), the first block of OT i plus b times delta otherwise. *)
Theorem ot_slices_stay_correlated k n delta compact blkR bits blkS os hr hs :
  store_params k n -> (delta = 0 -> k = 2) ->
  Z.of_nat (length blkR) = n -> (compact = false -> Z.of_nat (length bits) = n) -> Z.of_nat (length blkS) = k * n ->
  (forall i, 0 <= i < n ->
     nth (Z.to_nat i) blkR 0 =
     message k delta blkS i (if compact then Z.odd (nth (Z.to_nat i) blkR 0) else nth (Z.to_nat i) bits false)) ->
  history 1 n os hr -> history k n os hs ->
  length hr = length hs /\
  forall h r s, nth_error hr h = Some r -> nth_error hs h = Some s ->
    usize r = send_size k s /\
    forall i, 0 <= i < usize r -> exists w b,
      recv_block r blkR i = Ok w /\ recv_choice compact r blkR bits i = Ok b /\ send_block k delta s blkS i (Z.b2z b) = Ok w.
Proof.
  intros HP Hd HlR HlB HlS Hcor HhR HhS.
  assert (HP1 : store_params 1 n) by (destruct HP as ([->| ->] & ? & ?); unfold store_params; repeat split; auto; lia).
  destruct (history_inv 1 n os hr HP1 HhR) as (GR & _). destruct (history_inv k n os hs HP HhS) as (GS & _).
  destruct HP as (Hk & H0 & Hl). destruct HP1 as (_ & _ & Hl1).
  assert (HF : Forall2 (scaled k) hr hs).
  { destruct HhR as (cr & Ecr & Ho & ->), HhS as (cs & Ecs & _ & ->).
    destruct (new_good 1 (1 * n) ltac:(auto) Hl1 n H0 ltac:(lia)) as (cr' & E1 & -> & G1). rewrite Ecr in E1. injection E1 as ->.
    destruct (new_good k (k * n) Hk Hl n H0 ltac:(lia)) as (cs' & E2 & -> & G2). rewrite Ecs in E2. injection E2 as ->.
    rewrite Z.mul_1_l in *.
    apply run_scaled; auto; try lia. constructor; [|constructor]. unfold scaled; cbn. repeat split; lia. }
  split; [clear - HF; induction HF; simpl; auto|].
  intros h r s Hr Hs. pose proof (Forall2_nth_error _ _ _ h HF) as E. rewrite Hr, Hs in E. destruct E as (E1 & E2 & E3 & E4).
  rewrite Z.mul_1_l in GR.
  assert (Gr : good 1 n r) by (rewrite Forall_forall in GR; apply GR; eapply nth_error_In; eauto).
  assert (Gs : good k (k * n) s) by (rewrite Forall_forall in GS; apply GS; eapply nth_error_In; eauto).
  assert (Esz : usize s / k = usize r) by (rewrite E2, Z.mul_comm; apply Z.div_mul; lia).
  split; [unfold send_size; congruence|]. intros i Hi.
  rewrite (recv_block_ok n) by (auto; lia). rewrite (recv_choice_ok n) by (auto; lia).
  eexists _, _. split; [reflexivity|]. split; [reflexivity|].
  rewrite (send_block_ok k n) by (auto; lia). f_equal. rewrite E1.
  rewrite (Z.mul_comm k (uctr r)), Z.div_mul by lia. symmetry. apply Hcor. destruct Gr as [Xb Xs Xu _]. lia.
Qed.
Print Assumptions ot_slices_stay_correlated.

(** Copying out a receiver slice copies exactly its OTs. *)
Theorem ot_copies_are_exact n os hs i c blk bits : store_params 1 n -> history 1 n os hs -> nth_error hs i = Some c ->
  Z.of_nat (length blk) = n -> Z.of_nat (length bits) = n ->
  exists l, recv_copy_blk c blk = Ok l /\ Z.of_nat (length l) = usize c /\ Z.of_nat (length (recv_copy_bits c bits)) = usize c /\
    forall j, 0 <= j < usize c -> recv_block c blk j = Ok (nth (Z.to_nat j) l 0) /\
      recv_choice false c blk bits j = Ok (nth (Z.to_nat j) (recv_copy_bits c bits) false).
Proof.
  intros HP HH Hi Hb Hbt. destruct (history_inv 1 n os hs HP HH) as (G & _). rewrite Z.mul_1_l in G. destruct HP as (_ & H0 & Hl).
  assert (Gc : good 1 n c) by (rewrite Forall_forall in G; apply G; eapply nth_error_In; eauto).
  destruct (copy_blk_ok n c blk Gc Hb) as (l & E & L & N). destruct (copy_bits_ok n c bits Gc Hbt) as (L2 & N2).
  exists l. split; auto. split; auto. split; auto. intros j Hj. rewrite N by auto. rewrite N2 by auto. split.
  - apply (recv_block_ok n); auto; lia.
  - apply (recv_choice_ok n false); auto; lia.
Qed.
Print Assumptions ot_copies_are_exact.

(** C24 is false: Slice(b, e) of a slice refers to elements b..e of the whole
    store.  Here the slice is elements 5..7 and its Slice(0, 2) is elements 0..2. *)
Theorem ot_slice_of_slice_refuted :
  exists n c s c' t, new_ctrs 1 n = Some c /\ next_slice 1 n c 5 <> None /\
    (exists x c1, next_slice 1 n c 5 = Some (x, c1) /\ next_slice 1 n c1 3 = Some (s, c')) /\
    slice 1 n 0 2 = Some t /\ uctr s = 5 /\ usize s = 3 /\ uctr t = 0 /\ usize t = 2.
Proof.
  exists 10. do 4 eexists. split; [reflexivity|]. split; [discriminate|].
  split; [do 2 eexists; split; [reflexivity|reflexivity]|]. repeat split; reflexivity.
Qed.
Print Assumptions ot_slice_of_slice_refuted.
(** What holds: for a whole store, Slice(b, e) is elements b..e of it. *)
Theorem ot_slice_partial k n b e : store_params k n -> 0 <= b < 2 ^ 62 -> 0 <= e < 2 ^ 62 ->
  slice k (k * n) b e = if (b <? e) && (e <=? n) then Some (mkCtrs (k * b) (k * (e - b)) (k * b) (k * e)) else None.
Proof.
  intros (Hk & Hn & Hl) Hb He. unfold slice, check. cbn [uctr usize bctr bsize].
  destruct (Z.ltb_spec b e) as [H1|H1]; cbn [andb].
  - rewrite (u64_small (e - b)) by lia. rewrite (u64_small (b * k)), (u64_small ((e - b) * k)), (u64_small (e * k)) by lia.
    destruct (Z.leb_spec e n).
    + replace (0 <? (e - b) * k) with true by (symmetry; apply Z.ltb_lt; lia).
      replace (0 <? e * k) with true by (symmetry; apply Z.ltb_lt; lia).
      replace ((e - b) * k <=? e * k) with true by (symmetry; apply Z.leb_le; lia).
      replace (b * k <=? e * k) with true by (symmetry; apply Z.leb_le; lia).
      replace (e * k <=? k * n) with true by (symmetry; apply Z.leb_le; lia). cbn [andb].
      do 2 f_equal; ring.
    + replace (e * k <=? k * n) with false by (symmetry; apply Z.leb_gt; lia). rewrite andb_false_r. reflexivity.
  - (* e <= b: the unsigned size is 0 or larger than the buffer *)
    destruct (Z.eq_dec b e) as [->|Hne].
    + rewrite Z.sub_diag. reflexivity.
    + assert (E1 : u64 (e - b) = 2 ^ 64 + e - b).
      { unfold u64. symmetry. apply Z.mod_unique with (q := -1); lia. }
      assert (E2 : u64 (u64 (e - b) * k) = 2 ^ 64 + k * (e - b)).
      { rewrite E1. unfold u64. symmetry. apply Z.mod_unique with (q := k - 1); destruct Hk; subst; lia. }
      rewrite E2. rewrite (u64_small (e * k)) by lia.
      replace (2 ^ 64 + k * (e - b) <=? e * k) with false by (symmetry; apply Z.leb_gt; destruct Hk; subst; lia).
      rewrite !andb_false_r. reflexivity.
Qed.
Print Assumptions ot_slice_partial.

(** ResetSlice on a slice makes it cover everything before it too. *)
Theorem ot_reset_slice_escapes_refuted :
  exists n c x c1 s c2, new_ctrs 1 n = Some c /\ next_slice 1 n c 5 = Some (x, c1) /\ next_slice 1 n c1 3 = Some (s, c2) /\
    uctr s = 5 /\ usize s = 3 /\ uctr (reset_slice s) = 0 /\ usize (reset_slice s) = 8.
Proof. exists 10. do 5 eexists. repeat split; reflexivity. Qed.
Print Assumptions ot_reset_slice_escapes_refuted.

(** NextSlice(num) with num >= 2^63 on a normal-mode sender wraps: it succeeds
    as if num - 2^63 OTs had been asked for. *)
Theorem ot_next_slice_wraps_refuted :
  exists n c out c', new_ctrs 2 n = Some c /\ next_slice 2 (2 * n) c (2 ^ 63 + 3) = Some (out, c') /\ usize out = 2 * 3.
Proof. exists 10. do 3 eexists. split; [reflexivity|]. split; [vm_compute; reflexivity|reflexivity]. Qed.
Print Assumptions ot_next_slice_wraps_refuted.

(** CopyCotBlkBuf starts at the buffer counter instead of the use counter: after
    NextSlice it copies past the end of the buffer. *)
Theorem ot_copy_cot_refuted :
  exists n c out c' blk, Z.of_nat (length blk) = n /\ new_ctrs 1 n = Some c /\ next_slice 1 n c 4 = Some (out, c') /\
    send_copy_cot c blk = Ok blk /\ send_copy_cot c' blk = UB.
Proof. exists 10. do 3 eexists. exists (map Z.of_nat (seq 0 10)). repeat split; reflexivity. Qed.
Print Assumptions ot_copy_cot_refuted.
(** Before the first NextSlice it is exact. *)
Theorem ot_copy_cot_partial n c blk : good 1 n c -> bctr c = uctr c -> Z.of_nat (length blk) = n ->
  exists l, send_copy_cot c blk = Ok l /\ Z.of_nat (length l) = usize c /\
    forall i, 0 <= i < usize c -> nth (Z.to_nat i) l 0 = nth (Z.to_nat (uctr c + i)) blk 0.
Proof. intros G E Hl. unfold send_copy_cot. rewrite E. exact (copy_blk_ok n c blk G Hl). Qed.
Print Assumptions ot_copy_cot_partial.

(** C43: taking the buffer out of a store never succeeds: Reset, which the
    take-out ends with, always throws (and the buffer is gone). *)
Theorem ot_steal_refuted : forall (A : Type) (blk : list A), steal blk = None.
Proof. intros. reflexivity. Qed.
Print Assumptions ot_steal_refuted.

(** Concrete: a store of 10 OTs, a nested history, and correlated buffers. *)
Example ot_concrete :
  store_params 2 10 /\ exists hs, history 2 10 [(0%nat, 4); (1%nat, 3); (0%nat, 7); (0%nat, 6); (1%nat, 1)] hs /\
    map (fun c => (uctr c, usize c)) hs = [(0, 20); (0, 8); (0, 6); (8, 12); (6, 2)].
Proof.
  split; [unfold store_params; lia|]. eexists. split.
  - eexists. split; [reflexivity|]. split; [repeat constructor; cbn; lia|reflexivity].
  - vm_compute. reflexivity.
Qed.
Example ot_correlated_concrete :
  exists blkR bits blkS, Z.of_nat (length blkR) = 3 /\ Z.of_nat (length bits) = 3 /\ Z.of_nat (length blkS) = 6 /\
    forall i, 0 <= i < 3 -> nth (Z.to_nat i) blkR 0 = message 2 0 blkS i (nth (Z.to_nat i) bits false).
Proof.
  exists [10; 21; 31], [false; true; true], [10; 11; 20; 21; 30; 31]. repeat split; auto.
  intros i Hi. assert (i = 0 \/ i = 1 \/ i = 2) as [->|[->| ->]] by lia; reflexivity.
Qed.
