(** Properties C27 and C28: SGRR (n-1)-out-of-n OT and GYWZ single point COT. *)
From Coq Require Import List NArith Bool Arith Lia.
From Verif Require Import SpcotModel SpcotProof.
Import ListNotations.
Open Scope nat_scope.

(** ** Specification *)
(** The range of n for which uint32_t arithmetic does not wrap, and spans of at least n blocks. *)
Definition spans (n : nat) (outs outr : list N) : Prop :=
  1 < n /\ (N.of_nat n <= 2 ^ 31)%N /\ n <= length outs /\ n <= length outr.
(** Random OTs: the receiver holds the block its bit selects. *)
Definition rots (k : nat) (base : list (N * N)) (bits : list bool) (blks : list N) : Prop :=
  k <= length base /\ k <= length bits /\ k <= length blks <= 128 /\
  forall i, i < k -> nth i blks 0%N = if nth i bits false then snd (nth i base (0, 0)%N) else fst (nth i base (0, 0)%N).
(** The tree of seeds: the leaf reached from [seed] by the bits of j, lowest first. *)
Definition leaf (e0 e1 : N -> N) (seed : N) (height j : nat) : N :=
  fold_left (fun s (b : bool) => N.lxor (if b then e1 s else e0 s) s) (map (Nat.testbit j) (seq 0 height)) seed.
(** All blocks but one agree, the receiver holds zero there. *)
Definition punctured (n index : nat) (o r : list N) : Prop :=
  nth index r 0%N = 0%N /\ forall j, j < n -> j <> index -> nth j r 0%N = nth j o 0%N.
(** Correlated OTs with offset [delta]. *)
Definition cots (k : nat) (delta : N) (base : list (N * N)) (bits : list bool) (blks : list N) : Prop :=
  length base = k /\ k <= length bits /\ length blks = k /\ (delta < 2 ^ 128)%N /\
  forall i, i < k -> snd (nth i base (0, 0)%N) = N.lxor (fst (nth i base (0, 0)%N)) delta /\
                     nth i blks 0%N = if nth i bits false then snd (nth i base (0, 0)%N) else fst (nth i base (0, 0)%N).
Definition single_point (n index : nat) (delta : N) (o r : list N) : Prop :=
  forall j, j < n -> nth j r 0%N = if j =? index then N.lxor (nth j o 0%N) delta else nth j o 0%N.
(** Nothing beyond the n blocks is written. *)
Definition untouched (n : nat) (before after : list N) : Prop :=
  length after = length before /\ forall j, n <= j -> nth j after 0%N = nth j before 0%N.

(** ** Helpers *)
Lemma leaf_tree e0 e1 seed k : forall j, j < 2 ^ k -> tree e0 e1 seed k j = leaf e0 e1 seed k j.
Proof.
  unfold leaf. induction k as [|k IH]; intros j Hj; [reflexivity|].
  assert (P : 2 ^ k <> 0) by (apply Nat.pow_nonzero; lia).
  rewrite seq_S, map_app, fold_left_app. cbn [tree map fold_left Nat.add].
  assert (M : j mod 2 ^ k < 2 ^ k) by (apply Nat.mod_upper_bound; auto).
  rewrite IH by auto.
  rewrite (map_ext_in (Nat.testbit (j mod 2 ^ k)) (Nat.testbit j)).
  2: { intros i Hi. apply in_seq in Hi. apply Nat.mod_pow2_bits_low. lia. }
  assert (B : Nat.testbit j k = negb (j <? 2 ^ k)).
  { cbn [Nat.pow] in Hj. pose proof (mod_step j k) as E. rewrite (Nat.mod_small j (2 ^ S k)) in E by (cbn [Nat.pow]; lia).
    destruct (Nat.ltb_spec j (2 ^ k)); destruct (Nat.testbit j k); cbn [b2n negb] in *; auto; lia. }
  rewrite B. destruct (j <? 2 ^ k); reflexivity.
Qed.
Lemma tree_eq_level e0 e1 seed n j : 1 < n -> j < n -> tree e0 e1 seed (log2ceil n) j = leaf e0 e1 seed (log2ceil n) j.
Proof. intros H Hj. apply leaf_tree. destruct (log2ceil_spec n H) as [[_ B] _]. lia. Qed.
Lemma index_bits n index : 1 < n -> index < n -> bits_nat (make_bits index (log2ceil n)) = index.
Proof. intros H Hi. rewrite make_bits_val. apply Nat.mod_small. destruct (log2ceil_spec n H) as [[_ B] _]. lia. Qed.
Lemma nth_make_bits index k i : i < k -> nth i (make_bits index k) false = Nat.testbit index i.
Proof. intros H. unfold make_bits. apply (nth_map_seq (Nat.testbit index)). auto. Qed.

Section Checks.
Variables (digest : N -> N) (digest_all : list N -> N) (crhash : N -> N).
Lemma refresh_spec n out : n <= length out ->
  length (refresh crhash n out) = length out /\
  forall j, nth j (refresh crhash n out) 0%N = if j <? n then crhash (nth j out 0%N) else nth j out 0%N.
Proof.
  intros H. unfold refresh. assert (L : length (map crhash (firstn n out)) = n) by (rewrite map_length, firstn_length; lia).
  split; [apply overwrite_length; lia|]. intros j. rewrite nth_overwrite, L. destruct (Nat.ltb_spec j n); auto.
  rewrite (nth_map_d _ _ _ 0%N) by (rewrite firstn_length; lia). rewrite nth_firstn_d by auto. auto.
Qed.
Lemma verify_eq n index out L : n <= length out -> n <= length L -> index < n ->
  (forall j, j < n -> j <> index -> nth j out 0%N = nth j L 0%N) ->
  verify_check digest digest_all n index out (gen_check digest digest_all n L) = true.
Proof.
  intros Ho HL Hi H. unfold verify_check, gen_check. cbn [fst snd].
  set (a := map digest (firstn n out)). set (b := map digest (firstn n L)).
  assert (La : length a = n) by (unfold a; rewrite map_length, firstn_length; lia).
  assert (Lb : length b = n) by (unfold b; rewrite map_length, firstn_length; lia).
  assert (E : b = set_nth index (nth index b 0%N) a).
  { apply list_ext; [rewrite set_nth_length; lia|]. intros j Hj. rewrite nth_set_nth by lia.
    destruct (Nat.eqb_spec j index) as [->|]; auto. unfold a, b.
    rewrite !(nth_map_d _ _ _ 0%N) by (rewrite firstn_length; lia). rewrite !nth_firstn_d by lia. f_equal. symmetry. apply H; lia. }
  assert (T : N.lxor (N.lxor (fold_right N.lxor 0%N b) (fold_right N.lxor 0%N a)) (nth index a 0%N) = nth index b 0%N).
  { rewrite E at 1. rewrite lsum_set by lia. set (x := fold_right N.lxor 0%N a). set (y := nth index a 0%N). set (z := nth index b 0%N).
    rewrite (N.lxor_comm x), xor_self_r, (N.lxor_comm y), xor_self_r. auto. }
  rewrite T, <- E. apply N.eqb_refl.
Qed.
End Checks.

Lemma send_block_eq base i c : send_block base i c = if c then snd (nth i base (0, 0)%N) else fst (nth i base (0, 0)%N).
Proof. reflexivity. Qed.

Section SgrrHelpers.
Variables (e0 e1 : N -> N) (digest : N -> N) (digest_all : list N -> N) (crhash : N -> N).

Lemma sgrr_finish n index (mal : bool) (o r outs outr : list N) :
  n <= length o -> n <= length r -> index < n -> untouched n outs o -> untouched n outr r ->
  nth index r 0%N = 0%N -> (forall j, j < n -> j <> index -> nth j r 0%N = nth j o 0%N) ->
  exists r',
    (if mal then match (if mal then Some (gen_check digest digest_all n o) else None) with
       | Some pr => if verify_check digest digest_all n index r pr then Some (set_nth index 0%N (refresh crhash n r)) else None
       | None => None end else Some r) = Some r' /\
    punctured n index (if mal then refresh crhash n o else o) r' /\
    (forall j, j < n -> nth j (if mal then refresh crhash n o else o) 0%N = (if mal then crhash (nth j o 0%N) else nth j o 0%N)) /\
    untouched n outs (if mal then refresh crhash n o else o) /\ untouched n outr r'.
Proof.
  intros Lo Lr Hi [U1 U2] [V1 V2] Z E. destruct mal.
  - rewrite verify_eq by auto. eexists. split; [reflexivity|].
    destruct (refresh_spec crhash n o Lo) as [A1 A2]. destruct (refresh_spec crhash n r Lr) as [B1 B2].
    split; [split|split; [|split; split]].
    + rewrite nth_set_nth, Nat.eqb_refl by lia. auto.
    + intros j Hj Hne. rewrite nth_set_nth by lia. destruct (Nat.eqb_spec j index); [contradiction|].
      rewrite A2, B2, E by auto. auto.
    + intros j Hj. rewrite A2, (proj2 (Nat.ltb_lt _ _) Hj). auto.
    + lia.
    + intros j Hj. rewrite A2. destruct (Nat.ltb_spec j n); [lia|]. auto.
    + rewrite set_nth_length. lia.
    + intros j Hj. rewrite nth_set_nth by lia. destruct (Nat.eqb_spec j index); [lia|]. rewrite B2. destruct (Nat.ltb_spec j n); [lia|]. auto.
  - exists r. repeat split; auto.
Qed.

Lemma sender_tree n seed outs o ms : 1 < n -> n <= length outs ->
  send_levels e0 e1 n 0 (log2ceil n) (set_nth 0 seed outs) = (o, ms) ->
  untouched n outs o /\ length ms = log2ceil n /\
  (forall j, j < n -> nth j o 0%N = tree e0 e1 seed (log2ceil n) j) /\
  (forall x, x < log2ceil n -> nth x ms (0%N, 0%N) =
     (xsum (fun j => tree e0 e1 seed (S x) j) (seq 0 (2 ^ x)), xsum (fun j => tree e0 e1 seed (S x) (j + 2 ^ x)) (seq 0 (2 ^ x)))).
Proof.
  intros Hn Hl E. pose proof (send_levels_spec e0 e1 seed n (log2ceil n) Hn 0 (set_nth 0 seed outs) eq_refl) as S.
  rewrite set_nth_length, E in S. destruct S as (A1 & A2 & A3 & A4 & A5); auto.
  { intros j Hj _. rewrite nth_set_nth by lia. change (2 ^ 0) with 1 in Hj. replace j with 0 by lia. reflexivity. }
  split; [split; auto|auto].
  intros j Hj. rewrite A4 by auto. rewrite nth_set_nth by lia. destruct (Nat.eqb_spec j 0); [lia|]. auto.
Qed.

Lemma sgrr_run base bits blks n index seed (mal : bool) outs outr :
  spans n outs outr -> index < n -> rots (log2ceil n) base bits blks ->
  exists o r, run_sgrr e0 e1 digest digest_all crhash base bits blks n index seed mal outs outr = Some (o, r) /\
    punctured n index o r /\
    (forall j, j < n -> nth j o 0%N = let l := leaf e0 e1 seed (log2ceil n) j in if mal then crhash l else l) /\
    untouched n outs o /\ untouched n outr r.
Proof.
  intros (Hn & _ & Ls & Lr) Hi (B1 & B2 & B3 & B4). unfold run_sgrr, sgrr_send.
  rewrite (proj2 (Nat.ltb_ge (length base) (log2ceil n))), (proj2 (Nat.leb_gt n 1)) by lia. cbn [orb].
  destruct (send_levels e0 e1 n 0 (log2ceil n) (set_nth 0 seed outs)) as [o ms] eqn:E.
  destruct (sender_tree n seed outs o ms Hn Ls E) as (U & Lm & T & M).
  set (masked := sgrr_masked_choice bits n index). set (msgs := map _ (seq 0 (log2ceil n))).
  assert (Lmsg : length msgs = log2ceil n) by (unfold msgs; rewrite map_length, seq_length; auto).
  unfold sgrr_recv.
  rewrite (proj2 (Nat.leb_gt n 1)), (proj2 (Nat.ltb_ge 128 (length blks))), (proj2 (Nat.ltb_ge (length blks) (log2ceil n))),
    (proj2 (Nat.leb_gt n index)), (proj2 (Nat.ltb_ge (length msgs) (log2ceil n))) by lia. cbn [orb].
  rewrite firstn_all2 by lia.
  assert (IB : bits_nat (firstn (log2ceil n) (make_bits index (log2ceil n))) = index).
  { rewrite make_bits_firstn by lia. apply index_bits; auto. }
  destruct (recv_levels_spec e0 e1 seed false n (make_bits index (log2ceil n)) Hn) with (blks := blks) (msgs := msgs) (i := 0) (out := outr)
    as (R1 & R2 & R3 & R4); try lia.
  - rewrite make_bits_length. lia.
  - destruct msgs; [|congruence]. cbn in Lmsg. destruct (log2ceil_spec n Hn); lia.
  - intros x Hx. cbn [Nat.add]. rewrite Lmsg in Hx. unfold msgs.
    rewrite (nth_map_seq (fun i => (N.lxor (fst (nth i ms (0%N, 0%N))) (send_block base i (nth i masked false)),
                                    N.lxor (snd (nth i ms (0%N, 0%N))) (send_block base i (negb (nth i masked false)))))) by auto.
    cbn [fst snd]. rewrite M by auto. cbn [fst snd]. unfold want. rewrite nth_make_bits by auto.
    unfold masked, sgrr_masked_choice. rewrite (nth_map_seq (fun i => xorb (negb (Nat.testbit index i)) (nth i bits false))) by auto.
    rewrite !send_block_eq, B4 by auto.
    destruct (Nat.testbit index x), (nth x bits false); cbn [negb xorb]; apply xor_self_r.
  - intros j Hj. change (2 ^ 0) with 1 in Hj. cbn [firstn bits_nat]. lia.
  - rewrite IB in *.
    set (r := recv_levels e0 e1 false n 0 (make_bits index (log2ceil n)) msgs blks outr) in *.
    destruct (sgrr_finish n index mal o r outs outr) as (r' & F1 & F2 & F3 & F4 & F5); auto; try lia.
    + destruct U; lia.
    + split; auto.
    + intros j Hj Hne. rewrite R2, T by auto. auto.
    + rewrite F1. eexists. eexists. split; [reflexivity|]. split; [exact F2|]. split; [|split; auto].
      intros j Hj. rewrite F3, T, tree_eq_level by auto. reflexivity.
Qed.

Lemma sgrr_fixed_run base bits blks n seed (mal : bool) outs outr :
  spans n outs outr -> rots (log2ceil n) base bits blks ->
  let index := bits_nat (firstn (log2ceil n) bits) in
  (n <= index -> run_sgrr_fixed e0 e1 digest digest_all crhash base bits blks n seed mal outs outr = None) /\
  (index < n ->
  exists o r, run_sgrr_fixed e0 e1 digest digest_all crhash base bits blks n seed mal outs outr = Some (o, r) /\
    punctured n index o r /\
    (forall j, j < n -> nth j o 0%N = let l := leaf e0 e1 seed (log2ceil n) j in if mal then crhash l else l) /\
    untouched n outs o /\ untouched n outr r).
Proof.
  intros (Hn & _ & Ls & Lr) (B1 & B2 & B3 & B4). cbn zeta. set (index := bits_nat (firstn (log2ceil n) bits)).
  unfold run_sgrr_fixed, sgrr_send_fixed.
  destruct (log2ceil_spec n Hn) as [_ K].
  rewrite (proj2 (Nat.ltb_ge (length base) (log2ceil n))), (proj2 (Nat.leb_gt n 1)) by lia. cbn [orb].
  destruct (send_levels e0 e1 n 0 (log2ceil n) (set_nth 0 seed outs)) as [o ms] eqn:E.
  destruct (sender_tree n seed outs o ms Hn Ls E) as (U & Lm & T & M).
  set (msgs := map _ (seq 0 (log2ceil n))).
  assert (Lmsg : length msgs = log2ceil n) by (unfold msgs; rewrite map_length, seq_length; auto).
  unfold sgrr_recv_fixed.
  rewrite (proj2 (Nat.leb_gt n 1)), (proj2 (Nat.ltb_ge 128 (length blks))), (proj2 (Nat.ltb_ge (length blks) (log2ceil n))) by lia. cbn [orb].
  rewrite Lmsg, Nat.eqb_refl. cbn [negb].
  assert (PI : punctured_index bits (log2ceil n - 1) = index).
  { unfold punctured_index, index. f_equal. f_equal. lia. }
  rewrite PI. split; intros Hi.
  { rewrite (proj2 (Nat.leb_le n index)) by lia. reflexivity. }
  rewrite (proj2 (Nat.leb_gt n index)) by lia.
  destruct (recv_levels_spec e0 e1 seed true n bits Hn) with (blks := blks) (msgs := msgs) (i := 0) (out := outr)
    as (R1 & R2 & R3 & R4); try lia; auto.
  - destruct msgs; [|congruence]. cbn in Lmsg. lia.
  - intros x Hx. cbn [Nat.add]. rewrite Lmsg in Hx. unfold msgs.
    rewrite (nth_map_seq (fun i => (N.lxor (send_block base i true) (fst (nth i ms (0%N, 0%N))),
                                    N.lxor (send_block base i false) (snd (nth i ms (0%N, 0%N)))))) by auto.
    cbn [fst snd]. rewrite M by auto. cbn [fst snd]. unfold want.
    rewrite !send_block_eq, B4 by auto.
    destruct (nth x bits false); rewrite N.lxor_comm; apply xor_self_l.
  - intros j Hj. change (2 ^ 0) with 1 in Hj. cbn [firstn bits_nat]. lia.
  - fold index in R2, R3.
    set (r := recv_levels e0 e1 true n 0 bits msgs blks outr) in *.
    destruct (sgrr_finish n index mal o r outs outr) as (r' & F1 & F2 & F3 & F4 & F5); auto; try lia.
    + destruct U; lia.
    + split; auto.
    + intros j Hj Hne. rewrite R2, T by auto. auto.
    + rewrite F1. eexists. eexists. split; [reflexivity|]. split; [exact F2|]. split; [|split; auto].
      intros j Hj. rewrite F3, T, tree_eq_level by auto. reflexivity.
Qed.
End SgrrHelpers.

(** ** C27 *)
(** For every n > 1, every index, all base OTs, every seed, in both modes, the protocol
    succeeds; the sender gets the n leaves of the tree (hashed in malicious mode), the
    receiver all of them except the one at [index], where it holds zero. *)
Theorem sgrr_correct e0 e1 digest digest_all crhash base bits blks n index seed (mal : bool) outs outr :
  spans n outs outr -> index < n -> rots (log2ceil n) base bits blks ->
  exists o r, run_sgrr e0 e1 digest digest_all crhash base bits blks n index seed mal outs outr = Some (o, r) /\
    punctured n index o r /\
    (forall j, j < n -> nth j o 0%N = let l := leaf e0 e1 seed (log2ceil n) j in if mal then crhash l else l) /\
    untouched n outs o /\ untouched n outr r.
Proof. exact (sgrr_run e0 e1 digest digest_all crhash base bits blks n index seed mal outs outr). Qed.
Print Assumptions sgrr_correct.

(** The fixed index version: the index is what the base choices spell; it is rejected when it is not below n. *)
Theorem sgrr_fixed_correct e0 e1 digest digest_all crhash base bits blks n seed (mal : bool) outs outr :
  spans n outs outr -> rots (log2ceil n) base bits blks ->
  let index := bits_nat (firstn (log2ceil n) bits) in
  (n <= index -> run_sgrr_fixed e0 e1 digest digest_all crhash base bits blks n seed mal outs outr = None) /\
  (index < n ->
  exists o r, run_sgrr_fixed e0 e1 digest digest_all crhash base bits blks n seed mal outs outr = Some (o, r) /\
    punctured n index o r /\
    (forall j, j < n -> nth j o 0%N = let l := leaf e0 e1 seed (log2ceil n) j in if mal then crhash l else l) /\
    untouched n outs o /\ untouched n outr r).
Proof. exact (sgrr_fixed_run e0 e1 digest digest_all crhash base bits blks n seed mal outs outr). Qed.
Print Assumptions sgrr_fixed_correct.

(** The malicious check: with collision free digests, it accepts what the receiver
    holds exactly when that agrees with the committed leaves off the index. *)
Theorem sgrr_check_sound digest digest_all n index out leaves :
  (forall a b, digest a = digest b -> a = b) -> (forall a b, digest_all a = digest_all b -> a = b) ->
  n <= length out -> n <= length leaves -> index < n ->
  verify_check digest digest_all n index out (gen_check digest digest_all n leaves) = true <->
  (forall j, j < n -> j <> index -> nth j out 0%N = nth j leaves 0%N).
Proof.
  intros I1 I2 Lo Ll Hi. split.
  - unfold verify_check, gen_check. cbn [fst snd]. intros H. apply N.eqb_eq, I2 in H.
    intros j Hj Hne. apply I1.
    assert (La : length (map digest (firstn n out)) = n) by (rewrite map_length, firstn_length; lia).
    pose proof (f_equal (fun l => nth j l 0%N) H) as E. cbn beta in E. rewrite nth_set_nth in E by lia.
    destruct (Nat.eqb_spec j index); [contradiction|].
    rewrite !(nth_map_d _ _ _ 0%N) in E by (rewrite firstn_length; lia). rewrite !nth_firstn_d in E by lia. exact E.
  - apply verify_eq; auto.
Qed.
Print Assumptions sgrr_check_sound.

(** ** GYWZ *)
Section GywzHelpers.
Variables (h : N -> N) (one : N).
Lemma land_idem2 x : N.land (N.land x one) one = N.land x one.
Proof. rewrite <- N.land_assoc, N.land_diag. auto. Qed.
Lemma land_xor_d x y : N.land (N.lxor x y) one = N.lxor (N.land x one) (N.land y one).
Proof. apply N.bits_inj. intros k. rewrite !N.land_spec, !N.lxor_spec, !N.land_spec. destruct (N.testbit x k), (N.testbit y k), (N.testbit one k); auto. Qed.

Lemma full_eval_spec delta seed n out o sums : 1 < n -> n <= length out -> full_eval h one delta seed n out = (o, sums) ->
  untouched n out o /\ length sums = log2ceil n /\
  (forall j, j < n -> nth j o 0%N = gnode h one (N.land seed one) (N.land delta one) (log2ceil n - 1) j) /\
  (forall x, x < log2ceil n -> nth x sums 0%N = gsum h one (N.land seed one) (N.land delta one) x).
Proof.
  intros Hn Hl. unfold full_eval. destruct (log2ceil_spec n Hn) as [_ K].
  set (s := N.land seed one). set (d := N.land delta one). set (o0 := set_nth 1 _ _).
  assert (L0 : length o0 = length out) by (unfold o0; rewrite !set_nth_length; auto).
  assert (N0 : forall j, nth j o0 0%N = if j =? 1 then N.lxor s d else if j =? 0 then s else nth j out 0%N).
  { intros j. unfold o0. rewrite nth_set_nth by (rewrite set_nth_length; lia). rewrite nth_set_nth by lia. auto. }
  pose proof (full_levels_spec h one s d n Hn (log2ceil n - 1) 0 o0 ltac:(lia) ltac:(lia)) as S.
  destruct (full_levels h one n (log2ceil n) 1 (log2ceil n - 1) o0) as [o' ss] eqn:E.
  intros E'. injection E' as <- <-.
  destruct S as (A1 & A2 & A3 & A4 & A5).
  { intros j Hj _. rewrite N0. cbn [gnode]. change (2 ^ 1) with 2 in Hj. destruct j as [|[|j]]; cbn [Nat.eqb]; auto. lia. }
  split; [split|split; [|split]].
  - lia.
  - intros j Hj. rewrite A4, N0 by auto. destruct (Nat.eqb_spec j 1); [lia|]. destruct (Nat.eqb_spec j 0); [lia|]. auto.
  - cbn [length]. lia.
  - exact A3.
  - intros [|x] Hx; cbn [nth].
    + unfold gsum. change (2 ^ 0) with 1. cbn [seq xsum fold_right gnode Nat.eqb]. rewrite N.lxor_0_r. auto.
    + rewrite A5 by lia. reflexivity.
Qed.

Lemma punc_eval_spec index sib seed delta n out : 1 < n -> n <= length out -> length sib = log2ceil n ->
  index < 2 ^ log2ceil n -> N.land seed one = seed -> N.land delta one = delta ->
  (forall x, x < log2ceil n -> nth x sib 0%N = N.lxor (gsum h one seed delta x) (if Nat.testbit index x then 0%N else delta)) ->
  untouched n out (punc_eval h one index sib n out) /\
  forall j, j < n -> nth j (punc_eval h one index sib n out) 0%N =
    N.lxor (gnode h one seed delta (log2ceil n - 1) j) (if j =? index then delta else 0%N).
Proof.
  intros Hn Hl Ls Hi Ms Md Hs. unfold punc_eval. rewrite Ls. destruct (log2ceil_spec n Hn) as [_ K].
  set (w := N.land (nth 0 sib 0%N) one). set (o0 := set_nth 1 w (set_nth 0 w out)).
  assert (L0 : length o0 = length out) by (unfold o0; rewrite !set_nth_length; auto).
  assert (N0 : forall j, nth j o0 0%N = if j =? 1 then w else if j =? 0 then w else nth j out 0%N).
  { intros j. unfold o0. rewrite nth_set_nth by (rewrite set_nth_length; lia). rewrite nth_set_nth by lia. auto. }
  assert (W : w = N.lxor seed (if Nat.testbit index 0 then 0%N else delta)).
  { unfold w. rewrite Hs by lia. unfold gsum. change (2 ^ 0) with 1. cbn [seq xsum fold_right gnode Nat.eqb]. rewrite N.lxor_0_r.
    rewrite land_xor_d, Ms. f_equal. destruct (Nat.testbit index 0); auto. }
  assert (E1 : Nat.land index 1 = index mod 2 ^ 1).
  { rewrite (mod_step index 0). change (2 ^ 0) with 1. rewrite Nat.mod_1_r. cbn [Nat.add]. rewrite Nat.mul_1_l.
    change 1 with (Nat.ones 1) at 1. rewrite Nat.land_ones. change (2 ^ 1) with 2. rewrite <- Nat.bit0_mod. destruct (Nat.testbit index 0); reflexivity. }
  rewrite E1.
  destruct (punc_levels_spec h one seed delta n Hn index sib (log2ceil n - 1) 0 o0) as (A1 & A2 & A3); try lia.
  - intros x H1 H2. apply Hs. auto.
  - intros j Hj _. rewrite N0. cbn [gnode]. change (2 ^ 1) with 2 in *.
    rewrite <- Nat.bit0_mod. rewrite W.
    destruct j as [|[|j]]; cbn [Nat.eqb]; [| |lia]; destruct (Nat.testbit index 0); cbn [Nat.b2n Nat.eqb]; rewrite ?N.lxor_0_r, ?xor_self_r; auto.
  - split; [split; [lia|]|].
    + intros j Hj. rewrite A3, N0 by auto. destruct (Nat.eqb_spec j 1); [lia|]. destruct (Nat.eqb_spec j 0); [lia|]. auto.
    + intros j Hj. rewrite A2 by auto. rewrite (Nat.mod_small index) by auto. auto.
Qed.
End GywzHelpers.

Lemma all_ones_id x : (x < 2 ^ 128)%N -> N.land x all_ones = x.
Proof. intros H. unfold all_ones. rewrite N.land_ones. apply N.mod_small. auto. Qed.
Lemma single_point_eq h one s d n index o r k :
  (forall j, j < n -> nth j o 0%N = gnode h one s d k j) ->
  (forall j, j < n -> nth j r 0%N = N.lxor (gnode h one s d k j) (if j =? index then d else 0%N)) ->
  single_point n index d o r.
Proof. intros A B j Hj. rewrite B, A by auto. destruct (j =? index); auto. apply N.lxor_0_r. Qed.

(** ** C28 *)
(** For every n > 1, index and all base COTs: the outputs agree except at [index], where
    they differ by delta. *)
Theorem gywz_correct h delta base bits blks n index seed outs outr :
  spans n outs outr -> index < n -> cots (log2ceil n) delta base bits blks ->
  exists o r, run_gywz h delta base bits blks n index seed outs outr = Some (o, r) /\
    single_point n index delta o r /\ untouched n outs o /\ untouched n outr r.
Proof.
  intros (Hn & _ & Ls & Lr) Hi (B1 & B2 & B3 & B4 & B5). unfold run_gywz, gywz_send.
  rewrite B1, Nat.eqb_refl, (proj2 (Nat.leb_gt n 1)) by lia. cbn [orb negb].
  destruct (full_eval h all_ones delta seed n outs) as [o sums] eqn:E.
  destruct (full_eval_spec h all_ones delta seed n outs o sums Hn Ls E) as (U & L & T & S).
  rewrite (all_ones_id delta) in * by auto.
  unfold gywz_recv. rewrite B3, Nat.eqb_refl, (proj2 (Nat.leb_gt n 1)), (proj2 (Nat.leb_gt n index)) by lia. cbn [orb negb].
  eexists. eexists. split; [reflexivity|].
  match goal with |- context [punc_eval h all_ones index ?x n outr] => set (sib := x) end.
  destruct (punc_eval_spec h all_ones index sib (N.land seed all_ones) delta n outr Hn Lr) as [V W].
  - unfold sib. rewrite map_length, seq_length. auto.
  - destruct (log2ceil_spec n Hn) as [[_ B] _]. lia.
  - apply land_idem2.
  - apply all_ones_id; auto.
  - intros x Hx. unfold sib.
    rewrite (nth_map_seq (fun i => N.lxor (nth i _ 0%N) (nth i blks 0%N))) by auto.
    rewrite (nth_map_seq (fun i => N.lxor (nth i sums 0%N) _)) by auto.
    unfold gywz_masked_choice. rewrite (nth_map_seq (fun i => xorb (Nat.testbit index i) (nth i bits false))) by auto.
    rewrite S, send_block_eq by auto. destruct (B5 x Hx) as [C1 C2]. rewrite C2, C1, N.lxor_assoc. f_equal.
    set (a := fst _). destruct (Nat.testbit index x), (nth x bits false); cbn [xorb negb];
      rewrite ?N.lxor_nilpotent, ?xor_self_l; auto. rewrite N.lxor_comm. apply xor_self_l.
  - split; [|split; auto]. eapply single_point_eq; [exact T|exact W].
Qed.
Print Assumptions gywz_correct.

(** Fixed index: the index is what the choices spell; when it is not below n all blocks agree. *)
Theorem gywz_fixed_correct h delta base bits blks n seed outs outr :
  spans n outs outr -> cots (log2ceil n) delta base bits blks ->
  exists o r, run_gywz_fixed h delta base bits blks n seed outs outr = Some (o, r) /\
    single_point n (bits_nat (firstn (log2ceil n) bits)) delta o r /\ untouched n outs o /\ untouched n outr r.
Proof.
  intros (Hn & _ & Ls & Lr) (B1 & B2 & B3 & B4 & B5). unfold run_gywz_fixed.
  rewrite B1, B3, Nat.eqb_refl, (proj2 (Nat.leb_gt n 1)) by lia. cbn [orb negb].
  destruct (full_eval h all_ones delta seed n outs) as [o sums] eqn:E.
  destruct (full_eval_spec h all_ones delta seed n outs o sums Hn Ls E) as (U & L & T & S).
  rewrite (all_ones_id delta) in * by auto.
  set (index := bits_nat (firstn (log2ceil n) bits)).
  assert (IB : forall x, x < log2ceil n -> Nat.testbit index x = nth x bits false).
  { intros x Hx. unfold index. rewrite bits_nat_testbit. apply nth_firstn_d; auto. }
  eexists. eexists. split; [reflexivity|].
  match goal with |- context [punc_eval h all_ones index ?x n outr] => set (sib := x) end.
  destruct (punc_eval_spec h all_ones index sib (N.land seed all_ones) delta n outr Hn Lr) as [V W].
  - unfold sib. rewrite map_length, seq_length. auto.
  - apply prefix_lt. auto.
  - apply land_idem2.
  - apply all_ones_id; auto.
  - intros x Hx. unfold sib.
    rewrite (nth_map_seq (fun i => N.lxor (nth i _ 0%N) (nth i blks 0%N))) by auto.
    rewrite (nth_map_seq (fun i => N.lxor (nth i sums 0%N) _)) by auto.
    rewrite S, send_block_eq, IB by auto. destruct (B5 x Hx) as [C1 C2]. rewrite C2, C1, N.lxor_assoc. f_equal.
    set (a := fst _). destruct (nth x bits false); rewrite ?N.lxor_nilpotent; auto. rewrite N.lxor_comm. apply xor_self_l.
  - split; [|split; auto]. eapply single_point_eq; [exact T|exact W].
Qed.
Print Assumptions gywz_fixed_correct.

Lemma but_lsb_bit0 x : N.odd (N.land x but_lsb) = false.
Proof. rewrite <- N.bit0_odd, N.land_spec. replace (N.testbit but_lsb 0) with false by reflexivity. apply andb_false_r. Qed.
Lemma but_lsb_odd x : (x < 2 ^ 128)%N -> N.odd x = true -> N.lxor (N.land x but_lsb) 1 = x.
Proof.
  intros H O. apply N.bits_inj. intros k. unfold but_lsb. rewrite N.lxor_spec, N.land_spec, N.lxor_spec.
  destruct (N.eq_dec k 0) as [->|Hk].
  - rewrite N.bit0_odd, O. reflexivity.
  - replace (N.testbit 1 k) with false. 2: { symmetry. apply N.bits_above_log2. cbn. lia. }
    rewrite !xorb_false_r. destruct (N.lt_ge_cases k 128).
    + rewrite N.ones_spec_low by auto. apply andb_true_r.
    + rewrite N.ones_spec_high by auto. rewrite andb_false_r. symmetry.
      destruct (N.eq_dec x 0) as [->|]; [apply N.bits_0|]. apply N.bits_above_log2.
      apply N.lt_le_trans with 128%N; auto. apply N.log2_lt_pow2; lia.
Qed.
Lemma even_lor1 x : N.odd x = false -> N.lor x 1 = N.lxor x 1.
Proof.
  intros E. apply N.bits_inj. intros k. rewrite N.lor_spec, N.lxor_spec. destruct (N.eq_dec k 0) as [->|Hk].
  - rewrite N.bit0_odd, E. reflexivity.
  - replace (N.testbit 1 k) with false. 2: { symmetry. apply N.bits_above_log2. cbn. lia. }
    rewrite orb_false_r, xorb_false_r. auto.
Qed.
Lemma odd_xor a b : N.odd (N.lxor a b) = xorb (N.odd a) (N.odd b).
Proof. rewrite <- !N.bit0_odd. apply N.lxor_spec. Qed.
Lemma gnode_even h s d l : N.odd s = false -> N.odd d = false -> forall j, N.odd (gnode h but_lsb s d l j) = false.
Proof.
  intros Hs Hd. induction l as [|l IH]; intros j; cbn [gnode].
  - destruct (j =? 0); auto. rewrite odd_xor, Hs, Hd. auto.
  - destruct (j <? 2 ^ S l); [apply but_lsb_bit0|]. rewrite odd_xor, IH, but_lsb_bit0. auto.
Qed.

(** The compact version used by Ferret: delta is odd and the
    choice is the lowest bit.  The outputs again form a compact COT whose choices are
    all zero, except at the index the base choices spell (if it is below n). *)
Theorem gywz_ferret_correct h delta base blks n seed outs outr :
  spans n outs outr -> cots (log2ceil n) delta base (map N.odd blks) blks -> N.odd delta = true ->
  let index := bits_nat (map N.odd blks) in
  exists o r, run_gywz_ferret h delta base blks n seed outs outr = Some (o, r) /\
    single_point n index delta o r /\
    (forall j, j < n -> N.odd (nth j o 0%N) = false /\ N.odd (nth j r 0%N) = (j =? index)) /\
    untouched n outs o /\ untouched n outr r.
Proof.
  intros (Hn & _ & Ls & Lr) (B1 & B2 & B3 & B4 & B5) Od. cbn zeta. unfold run_gywz_ferret.
  rewrite B1, B3, Nat.eqb_refl, (proj2 (Nat.leb_gt n 1)) by lia. cbn [orb negb].
  rewrite (firstn_all2 blks) by lia. set (index := bits_nat (map N.odd blks)).
  set (d := N.land delta but_lsb). set (s := N.land seed but_lsb).
  assert (Md : N.land d but_lsb = d) by apply land_idem2.
  assert (Ms : N.land s but_lsb = s) by apply land_idem2.
  assert (Ed : N.odd d = false) by apply but_lsb_bit0.
  assert (Es : N.odd s = false) by apply but_lsb_bit0.
  destruct (full_eval h but_lsb d s n outs) as [o sums] eqn:E.
  destruct (full_eval_spec h but_lsb d s n outs o sums Hn Ls E) as (U & L & T & S).
  rewrite Md, Ms in T, S.
  assert (IB : forall x, x < log2ceil n -> Nat.testbit index x = N.odd (nth x blks 0%N)).
  { intros x Hx. unfold index. rewrite bits_nat_testbit. rewrite (nth_indep _ false (N.odd 0)) by (rewrite map_length; lia). apply map_nth. }
  match goal with |- context [punc_eval h but_lsb index ?x n outr] => set (sib := x) end.
  destruct (punc_eval_spec h but_lsb index sib s d n outr Hn Lr) as [V W]; auto.
  - unfold sib. rewrite map_length, seq_length. auto.
  - unfold index. pose proof (bits_nat_lt (map N.odd blks)) as P. rewrite map_length, B3 in P. exact P.
  - intros x Hx. unfold sib.
    rewrite (nth_map_seq (fun i => N.lxor (nth i _ 0%N) _)) by auto.
    rewrite (nth_map_seq (fun i => N.lxor (nth i sums 0%N) _)) by auto.
    rewrite S, send_block_eq, IB by auto. destruct (B5 x Hx) as [C1 C2].
    assert (Eo : nth x (map N.odd blks) false = N.odd (nth x blks 0%N)).
    { rewrite (nth_indep _ false (N.odd 0)) by (rewrite map_length; lia). apply map_nth. }
    rewrite Eo in C2. rewrite N.lxor_assoc. f_equal. rewrite C1 in *. set (a := fst _) in *. rewrite <- land_xor_d.
    destruct (N.odd (nth x blks 0%N)); rewrite C2.
    + rewrite N.lxor_nilpotent. apply N.land_0_l.
    + rewrite (N.lxor_comm a), xor_self_r. reflexivity.
  - set (r := punc_eval h but_lsb index sib n outr) in *. destruct V as [V1 V2].
    assert (SP : single_point n index d o r) by (eapply single_point_eq; [exact T|exact W]).
    assert (Eo : forall j, j < n -> N.odd (nth j o 0%N) = false) by (intros j Hj; rewrite T by auto; apply gnode_even; auto).
    eexists. eexists. split; [reflexivity|].
    assert (SD : single_point n index delta o (if index <? n then set_nth index (N.lor (nth index r 0%N) 1) r else r)).
    { intros j Hj. destruct (Nat.ltb_spec index n) as [Hi|Hi].
      - rewrite nth_set_nth by lia. destruct (Nat.eqb_spec j index) as [->|Hne].
        + rewrite (SP index Hj), Nat.eqb_refl, even_lor1 by (rewrite odd_xor, Eo, Ed; auto).
          rewrite N.lxor_assoc. f_equal. apply but_lsb_odd; auto.
        + rewrite (SP j Hj). destruct (Nat.eqb_spec j index); [contradiction|]. auto.
      - rewrite (SP j Hj). destruct (Nat.eqb_spec j index); [lia|]. auto. }
    split; [exact SD|]. split; [|split; [exact U|]].
    + intros j Hj. split; [auto|]. rewrite SD by auto. destruct (j =? index); [rewrite odd_xor, Eo, Od by auto; auto|auto].
    + destruct (Nat.ltb_spec index n) as [Hi|Hi]; [|split; auto]. split; [rewrite set_nth_length; auto|].
      intros j Hj. rewrite nth_set_nth by lia. destruct (Nat.eqb_spec j index); [lia|]. auto.
Qed.
Print Assumptions gywz_ferret_correct.

(** ** Concrete cases: n = 5 (not a power of two). *)
Definition ex_base : list (N * N) := [(10, 11); (20, 31); (40, 53)]%N.
Definition ex_bits : list bool := [true; false; true].
Definition ex_blks : list N := [11; 20; 53]%N.
Example sgrr_hypotheses : spans 5 (repeat 0%N 6) (repeat 9%N 5) /\ rots (log2ceil 5) ex_base ex_bits ex_blks.
Proof.
  split; [repeat split; cbn; lia|]. change (log2ceil 5) with 3. repeat split; cbn; try lia.
  intros [|[|[|i]]] H; try reflexivity. lia.
Qed.
Definition ex_e (k x : N) : N := ((x * 7 + k) mod 1009)%N.
Example sgrr_concrete :
  match run_sgrr (ex_e 3) (ex_e 5) (ex_e 1) (fold_right N.add 0%N) (ex_e 2) ex_base ex_bits ex_blks 5 3 77 false (repeat 0%N 6) (repeat 9%N 5) with
  | Some (o, r) => nth 3 r 1%N = 0%N /\ nth 3 o 0%N <> 0%N /\ firstn 3 r = firstn 3 o /\ nth 4 r 0%N = nth 4 o 1%N
  | None => False
  end.
Proof. vm_compute. repeat split; congruence. Qed.
Definition ex_cot (delta : N) : list (N * N) := map (fun k => (k, N.lxor k delta)) [10; 20; 40]%N.
Definition ex_cblks (delta : N) : list N := [N.lxor 10 delta; 20; N.lxor 40 delta]%N.
Example gywz_hypotheses : cots (log2ceil 5) 101 (ex_cot 101) ex_bits (ex_cblks 101) /\
  cots (log2ceil 5) 101 (ex_cot 101) (map N.odd (ex_cblks 101)) (ex_cblks 101) /\ N.odd 101 = true.
Proof.
  change (log2ceil 5) with 3.
  repeat split; cbn; try lia; intros; destruct i as [|[|[|i]]]; try reflexivity; try lia.
Qed.
Example gywz_concrete :
  match run_gywz (ex_e 3) 101 (ex_cot 101) ex_bits (ex_cblks 101) 5 3 77 (repeat 0%N 6) (repeat 9%N 5) with
  | Some (o, r) => nth 3 r 1%N = N.lxor (nth 3 o 0%N) 101 /\ firstn 3 r = firstn 3 o /\ nth 4 r 0%N = nth 4 o 1%N
  | None => False
  end.
Proof. vm_compute. repeat split; congruence. Qed.
