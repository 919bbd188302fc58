(** Properties C73 and C74: the SoftSpoken OT extension (softspoken_ote.cc, SoftModel). *)
From Coq Require Import List NArith ZArith Bool Lia Arith.
From Verif Require Import TransModel TransProof TransProps GfModel GfProof GfProps SpcotModel SpcotProof SpcotProps OtExtModel OtExtProof OtExtProps KosProps SoftModel SoftProof SoftProof2.
Import ListNotations.
Open Scope nat_scope.

(** ** Specification *)
(** 128 base OTs with the extension sender as receiver. *)
Definition base_rots (base : list (N * N)) (bits : list bool) (blks : list N) : Prop :=
  length base = 128 /\ length bits = 128 /\ length blks = 128 /\
  forall i, i < 128 -> nth i blks 0%N = if nth i bits false then snd (nth i base (0, 0)%N) else fst (nth i base (0, 0)%N).
(** The secret: the base choices, in compact mode with the lowest bit forced to 1. *)
Definition is_secret (compact : bool) (bits : list bool) (delta : N) : Prop :=
  block delta /\ forall c, c < 128 -> N.testbit delta (N.of_nat c) = (compact && (c =? 0)) || nth c bits false.
(** In compact mode the lowest bit of the received block is the choice. *)
Definition low_bits (choices : list bool) (sent : list (N * N)) (got : list N) : Prop :=
  forall i, i < length choices -> N.testbit (fst (nth i sent (0, 0)%N)) 0 = false /\ N.testbit (nth i got 0%N) 0 = nth i choices false.
Definition is_hash (crhash : N -> N) : Prop := forall x, block (crhash x).

(** ** The set-up *)
Section Setup.
Variables (e0 e1 digest : N -> N) (digest_all : list N -> N) (crhash : N -> N).
Variables (k : nat) (mal compact : bool) (base : list (N * N)) (bits : list bool) (blks : list N) (seeds junk junk' : mem).
Hypothesis Hk : 1 <= k <= 31.
Hypothesis HB : base_rots base bits blks.
Let Hk1 : 1 <= k := proj1 Hk.
Let base' := base_send compact base.
Let bits' := base_bits compact bits.
Let blks' := base_blks compact blks.
Let num := pprf_num k.
Lemma base_forced : base_rots base' bits' blks'.
Proof.
  destruct HB as (L1 & L2 & L3 & H). unfold base', bits', blks', base_send, base_bits, base_blks. destruct compact; [|exact HB].
  assert (T : forall A (l : list A) x, length l = 128 -> length (x :: tl l) = 128) by (intros A l x Hl; destruct l; cbn in *; lia).
  split; [apply T; auto|]. split; [apply T; auto|]. split; [apply T; auto|].
  intros [|i] Hi; [reflexivity|]. cbn [nth]. specialize (H (S i) Hi). destruct base, bits, blks; try discriminate. exact H.
Qed.
Lemma sub_rots i : i < num -> rots (k_limit k i) (slice k i base') (slice k i bits') (slice k i blks').
Proof.
  intros Hi. destruct base_forced as (L1 & L2 & L3 & H). pose proof (tree_start k Hk1 i Hi).
  unfold rots. rewrite !slice_len by auto. split; auto. split; auto. split; [unfold k_limit; lia|].
  intros j Hj. rewrite !slice_nth by auto. apply H. unfold k_limit in Hj. lia.
Qed.
Definition leaf_of i x : N := let l := leaf e0 e1 (seeds i) (k_limit k i) x in if mal then crhash l else l.
Definition idx i : nat := bits_nat (slice k i bits').
Lemma pow_pos n : 1 <= 2 ^ n.
Proof. apply Nat.neq_0_lt_0, Nat.pow_nonzero. lia. Qed.
Lemma idx_lt i : i < num -> idx i < 2 ^ k_limit k i.
Proof. intros Hi. destruct base_forced as (_ & L2 & _). pose proof (bits_nat_lt (slice k i bits')) as B. rewrite slice_len in B by auto. exact B. Qed.
Lemma log2ceil_pow n : log2ceil (2 ^ n) = n.
Proof. apply Nat.log2_up_pow2. lia. Qed.

(** Both ends of one tree. *)
Lemma tree_run i : i < num ->
  exists leaves msgs proof got,
    sgrr_send_fixed e0 e1 digest digest_all crhash (slice k i base') (2 ^ k_limit k i) (seeds i) mal (map (fun j => junk (i * 2 ^ k + j)) (seq 0 (2 ^ k_limit k i))) = Some (leaves, msgs, proof) /\
    sgrr_recv_fixed e0 e1 digest digest_all crhash (slice k i bits') (slice k i blks') (2 ^ k_limit k i) mal msgs proof (map (fun j => junk' (i * 2 ^ k + j)) (seq 0 (2 ^ k_limit k i))) = Some got /\
    length leaves = 2 ^ k_limit k i /\ length got = 2 ^ k_limit k i /\
    (forall x, x < 2 ^ k_limit k i -> nth x leaves 0%N = leaf_of i x) /\
    (forall x, x < 2 ^ k_limit k i -> x <> idx i -> nth x got 0%N = leaf_of i x).
Proof.
  intros Hi. pose proof (k_limit_pos k Hk1 i Hi) as KL.
  set (outs := map (fun j => junk (i * 2 ^ k + j)) (seq 0 (2 ^ k_limit k i))).
  set (outr := map (fun j => junk' (i * 2 ^ k + j)) (seq 0 (2 ^ k_limit k i))).
  assert (Lo : length outs = 2 ^ k_limit k i) by (unfold outs; rewrite map_length, seq_length; auto).
  assert (Lr : length outr = 2 ^ k_limit k i) by (unfold outr; rewrite map_length, seq_length; auto).
  assert (SP : spans (2 ^ k_limit k i) outs outr).
  { split; [|split; [|split; rewrite ?Lo, ?Lr; apply le_n]].
    - destruct (k_limit k i) as [|m]; [lia|]. cbn [Nat.pow]. pose proof (pow_pos m). lia.
    - rewrite Nat2N.inj_pow. apply N.pow_le_mono_r; [discriminate|]. lia. }
  pose proof (sub_rots i Hi) as SR. rewrite <- (log2ceil_pow (k_limit k i)) in SR at 1.
  pose proof (sgrr_fixed_correct e0 e1 digest digest_all crhash (slice k i base') (slice k i bits') (slice k i blks') (2 ^ k_limit k i) (seeds i) mal outs outr SP SR) as [_ K].
  rewrite log2ceil_pow in K. destruct base_forced as (_ & L2 & _).
  rewrite firstn_all2 in K by (rewrite slice_len by auto; auto). fold (idx i) in K. specialize (K (idx_lt i Hi)).
  destruct K as (o & r & E & PU & LF & (U1 & _) & (U2 & _)). unfold run_sgrr_fixed in E.
  destruct (sgrr_send_fixed e0 e1 digest digest_all crhash (slice k i base') (2 ^ k_limit k i) (seeds i) mal outs) as [[[o' msgs] proof]|] eqn:Es; [|discriminate].
  destruct (sgrr_recv_fixed e0 e1 digest digest_all crhash (slice k i bits') (slice k i blks') (2 ^ k_limit k i) mal msgs proof outr) as [r'|] eqn:Er; [|discriminate].
  injection E as -> ->. exists o, msgs, proof, r. split; auto. split; auto. split; [lia|]. split; [lia|]. split; [exact LF|].
  intros x Hx D. destruct PU as [_ PU]. rewrite PU by auto. apply LF. auto.
Qed.
Lemma tl_nth (l : list N) j : nth j (tl l) 0%N = nth (S j) l 0%N.
Proof. destruct l; destruct j; reflexivity. Qed.
Lemma tl_length {A} (l : list A) : length (tl l) = length l - 1.
Proof. destruct l; cbn; lia. Qed.
Lemma linked_leaves leaves compress msk :
  length leaves = num -> length compress = num ->
  (forall i, i < num -> length (nth i leaves []) = 2 ^ k_limit k i) ->
  (forall i, i < num -> length (nth i compress []) = 2 ^ k_limit k i - 1) ->
  (forall i j, i < num -> S j < 2 ^ k_limit k i -> nth j (nth i compress []) 0%N = nth (if S j =? idx i then 0 else S j) (nth i leaves []) 0%N) ->
  msk = map (fun c => Nat.testbit (idx (c / k)) (c mod k)) (seq 0 128) ->
  linked k (bits_word bits') {| so_compress := concat compress; so_idx := map idx (seq 0 num); so_mask := msk; so_delta := bits_word bits'; so_counter := 0 |}
    {| ro_leaves := concat leaves; ro_counter := 0 |}.
Proof.
  intros L1 L2 H1 H2 H3 ->. destruct base_forced as (_ & Lb & _).
  destruct (num_covers k Hk1) as (_ & N1 & _). fold num in N1.
  assert (TB : forall i j, i < num -> j < k_limit k i -> Nat.testbit (idx i) j = N.testbit (bits_word bits') (N.of_nat (i * k + j))).
  { intros i j Hi Hj. unfold idx. rewrite bits_nat_testbit, slice_nth, bits_word_bit by auto. reflexivity. }
  assert (F1 : forall i j, i < num -> j < i -> length (nth j leaves []) = 2 ^ k).
  { intros i j Hi Hj. rewrite H1 by lia. rewrite k_limit_full by (auto; fold num; lia). reflexivity. }
  assert (F2 : forall i j, i < num -> j < i -> length (nth j compress []) = 2 ^ k - 1).
  { intros i j Hi Hj. rewrite H2 by lia. rewrite k_limit_full by (auto; fold num; lia). reflexivity. }
  constructor; cbn [ro_leaves so_compress so_idx so_mask so_delta so_counter ro_counter]; try reflexivity; fold num.
  - rewrite (concat_len leaves (2 ^ k)); rewrite ?L1; auto.
    + rewrite H1 by lia. reflexivity.
    + intros j Hj. apply (F1 (S j)); lia.
  - rewrite (concat_len compress (2 ^ k - 1)); rewrite ?L2; auto.
    + rewrite H2 by lia. reflexivity.
    + intros j Hj. apply (F2 (S j)); lia.
  - intros i Hi. rewrite nth_map_seq by auto. apply idx_lt. auto.
  - intros i j Hi Hj. rewrite nth_map_seq by auto. auto.
  - intros c Hc. rewrite nth_map_seq by auto. destruct (col_tree k Hk1 c Hc) as (C1 & C2 & C3). rewrite TB by auto. rewrite <- C3. reflexivity.
  - intros i j Hi Hj. rewrite nth_map_seq by auto. rewrite (concat_at compress (2 ^ k - 1)); [|lia| |rewrite H2 by auto; lia].
    2: { intros j' Hj'. apply (F2 i); auto. }
    rewrite H3 by auto. symmetry. apply concat_at; [lia| |].
    + intros j' Hj'. apply (F1 i); auto.
    + rewrite H1 by auto. destruct (S j =? idx i); lia.
Qed.

Lemma setup_runs : exists ro parts so,
  recv_setup e0 e1 digest digest_all crhash k mal compact base seeds junk = Some (ro, parts) /\
  send_setup e0 e1 digest digest_all crhash k mal compact bits blks junk' parts = Some so /\
  linked k (bits_word bits') so ro /\ so_counter so = 0%N /\
  (forall i x, i < num -> x < 2 ^ k_limit k i -> nth (i * 2 ^ k + x) (ro_leaves ro) 0%N = leaf_of i x) /\
  (forall i, i < num -> exists l m p, nth i parts ([], None) = (m, p) /\
     sgrr_send_fixed e0 e1 digest digest_all crhash (slice k i base') (2 ^ k_limit k i) (seeds i) mal (map (fun j => junk (i * 2 ^ k + j)) (seq 0 (2 ^ k_limit k i))) = Some (l, m, p)).
Proof.
  destruct HB as (Lbase & Lbits & Lblks & _). destruct base_forced as (_ & Lb & _).
  assert (R : forall i, i < num -> exists v, recv_tree e0 e1 digest digest_all crhash k mal base' seeds junk i = Some v).
  { intros i Hi. destruct (tree_run i Hi) as (l & m & p & g & E1 & _). unfold recv_tree. rewrite E1. eauto. }
  destruct (all_some_ex _ ([], ([], None)) num R) as (trees & AE & TL & TE).
  unfold recv_setup. rewrite Lbase, Nat.eqb_refl. cbn [negb]. fold base' num. rewrite AE.
  set (parts := map snd trees).
  assert (PT : forall i, i < num -> exists l m p g, nth i trees ([], ([], None)) = (l, (m, p)) /\ nth i parts ([], None) = (m, p) /\
    sgrr_send_fixed e0 e1 digest digest_all crhash (slice k i base') (2 ^ k_limit k i) (seeds i) mal (map (fun j => junk (i * 2 ^ k + j)) (seq 0 (2 ^ k_limit k i))) = Some (l, m, p) /\
    length l = 2 ^ k_limit k i /\ (forall x, x < 2 ^ k_limit k i -> nth x l 0%N = leaf_of i x) /\
    send_tree e0 e1 digest digest_all crhash k mal bits' blks' junk' parts i = Some (tl (set_nth (idx i) (nth 0 g 0%N) g)) /\
    length g = 2 ^ k_limit k i /\ (forall x, x < 2 ^ k_limit k i -> x <> idx i -> nth x g 0%N = leaf_of i x)).
  { intros i Hi. destruct (tree_run i Hi) as (l & m & p & g & E1 & E2 & A1 & A2 & A3 & A4). exists l, m, p, g.
    pose proof (TE i Hi) as X. unfold recv_tree in X. rewrite E1 in X. injection X as X.
    assert (PN : nth i parts ([], None) = (m, p)).
    { unfold parts. change (@nil (N * N), @None (N * N)) with (snd (@nil N, (@nil (N * N), @None (N * N)))). rewrite map_nth, <- X. reflexivity. }
    split; auto. split; auto. split; auto. split; auto. split; auto. split; [|split; auto].
    unfold send_tree. cbn zeta. rewrite PN. cbn [fst snd]. rewrite E2. reflexivity. }
  assert (S : forall i, i < num -> exists v, send_tree e0 e1 digest digest_all crhash k mal bits' blks' junk' parts i = Some v).
  { intros i Hi. destruct (PT i Hi) as (l & m & p & g & _ & _ & _ & _ & _ & E & _). eauto. }
  destruct (all_some_ex _ [] num S) as (comp & CE & CL & CT).
  exists {| ro_leaves := flat_map fst trees; ro_counter := 0 |}, parts.
  eexists. split; [reflexivity|]. split; [|split; [|split; [|split]]].
  - unfold send_setup. rewrite Lbits, Nat.eqb_refl. unfold parts. rewrite map_length, TL. unfold num at 1. rewrite Nat.eqb_refl. cbn [negb orb].
    fold bits' blks' num. fold parts. rewrite CE. reflexivity.
  - rewrite (flat_map_concat_map fst trees).
    assert (NL : forall i, i < num -> nth i (map fst trees) [] = fst (nth i trees ([], ([], None)))).
    { intros i Hi. change (@nil N) with (fst (@nil N, (@nil (N * N), @None (N * N)))) at 1. apply map_nth. }
    apply linked_leaves; auto.
    + rewrite map_length. auto.
    + intros i Hi. rewrite NL by auto. destruct (PT i Hi) as (l & m & p & g & E & _ & _ & A & _). rewrite E. exact A.
    + intros i Hi. destruct (PT i Hi) as (l & m & p & g & _ & _ & _ & _ & _ & E & A & _). rewrite CT in E by auto. injection E as ->.
      rewrite tl_length, set_nth_length, A. reflexivity.
    + intros i j Hi Hj. rewrite NL by auto. destruct (PT i Hi) as (l & m & p & g & E0 & _ & _ & AL & A0 & E & A & A4). rewrite CT in E by auto. injection E as ->.
      rewrite E0. cbn [fst]. pose proof (idx_lt i Hi). rewrite tl_nth, nth_set_nth by lia.
      destruct (Nat.eqb_spec (Datatypes.S j) (idx i)) as [EQ|D].
      * rewrite A0 by lia. apply A4; lia.
      * rewrite A0 by lia. apply A4; lia.
    + exact (tree_map_all k Hk1 (fun i j => Nat.testbit (idx i) j)).
  - reflexivity.
  - intros i x Hi Hx. cbn [ro_leaves]. rewrite (flat_map_concat_map fst trees).
    assert (NL : forall i, i < num -> nth i (map fst trees) [] = fst (nth i trees ([], ([], None)))).
    { intros i' Hi'. change (@nil N) with (fst (@nil N, (@nil (N * N), @None (N * N)))) at 1. apply map_nth. }
    rewrite (concat_at (map fst trees) (2 ^ k)).
    + rewrite NL by auto. destruct (PT i Hi) as (l & m & p & g & E0 & _ & _ & AL & A0 & _). rewrite E0. apply A0. auto.
    + rewrite map_length. lia.
    + intros j Hj. rewrite NL by lia. destruct (PT j ltac:(lia)) as (l & m & p & g & E0 & _ & _ & AL & _). rewrite E0. cbn [fst]. rewrite AL.
      rewrite k_limit_full by (auto; fold num; lia). reflexivity.
    + rewrite NL by auto. destruct (PT i Hi) as (l & m & p & g & E0 & _ & _ & AL & _). rewrite E0. cbn [fst]. lia.
  - intros i Hi. destruct (PT i Hi) as (l & m & p & g & _ & E & E1 & _). eauto.
Qed.
Lemma secret_ok : is_secret compact bits (bits_word bits').
Proof.
  destruct base_forced as (_ & Lb & _). split.
  - unfold block. pose proof (bits_word_lt bits') as B. rewrite Lb in B. exact B.
  - intros c Hc. rewrite bits_word_bit. unfold bits', base_bits. destruct compact; auto.
    destruct c; [reflexivity|]. destruct HB as (_ & L & _). destruct bits; [discriminate|]. reflexivity.
Qed.
End Setup.

(** ** One call between linked objects *)
Lemma step_of_pos k step : 1 <= step_of k step.
Proof. unfold step_of. destruct (Nat.eqb_spec step 0); [|lia]. destruct (k <=? 2); [lia|]. destruct (k <=? 4); lia. Qed.
Lemma nth_map0 {A B} (f : A -> B) l i a b : i < length l -> nth i (map f l) b = f (nth i l a).
Proof. intros H. rewrite (nth_indep _ b (f a)) by (rewrite map_length; auto). apply map_nth. Qed.
Lemma ext_choice_nth choices rnd i : i < length choices -> nth i (ext_choice choices rnd) false = nth i choices false.
Proof. intros H. unfold ext_choice. apply app_nth1. auto. Qed.

Section Call.
Variables (crhash : N -> N) (tr : list Z -> list Z) (prg64 : N -> nat -> list N).
Variables (k step : nat) (mal compact : bool) (delta : N) (so : send_obj) (ro : recv_obj).
Hypothesis HC : is_hash crhash.
Hypothesis HP : is_prg64 prg64.
Hypothesis HT : platform_transpose tr.
Hypothesis Hk : 1 <= k.
Hypothesis HD : block delta.
Hypothesis HD0 : compact = true -> N.testbit delta 0 = true.
Hypothesis LK : linked k delta so ro.
Variables (choices rnd : list bool) (seed : N).
Let n := length choices.
Let st := step_of k step.
Let bn := all_num st n.
Let leaves := ro_leaves ro.
Let c0 := ro_counter ro.
Let word b := choice_word (ext_choice choices rnd) b.
Let words := map word (seq 0 bn).
Let us := map (fun b => recv_u crhash k leaves (c0 + N.of_nat b) (word b)) (seq 0 bn).
Let ws := map (fun b => recv_w crhash k compact leaves (c0 + N.of_nat b) (word b)) (seq 0 bn).
Let vs := map (fun b => send_v crhash k compact delta leaves (c0 + N.of_nat b) (recv_u crhash k leaves (c0 + N.of_nat b) (word b))) (seq 0 bn).
Lemma recv_eq cot : soft_recv crhash tr k step compact ro choices rnd cot =
  ({| ro_leaves := leaves; ro_counter := c0 + N.of_nat bn |}, pack st n us, map (fin crhash cot) (rows tr n ws), (words, ws)).
Proof.
  unfold soft_recv. cbn zeta. fold n st bn leaves c0.
  assert (T : tail0 (length leaves) (fun _ => 0%N)) by (intros p _; reflexivity).
  assert (W : map (choice_word (ext_choice choices rnd)) (seq 0 bn) = words) by reflexivity. rewrite W.
  rewrite (recv_gens_spec crhash k compact leaves Hk words c0 _ T). rewrite !map_map. cbn [fst snd].
  assert (Lw : length words = bn) by (unfold words; rewrite map_length, seq_length; auto). rewrite Lw.
  assert (NW : forall b, In b (seq 0 bn) -> nth b words 0%N = word b) by (intros b Hb; apply in_seq in Hb; unfold words; apply nth_map_seq; lia).
  f_equal; [f_equal; [f_equal|]|].
  - f_equal. apply map_ext_in. intros b Hb. rewrite NW by auto. reflexivity.
  - f_equal. f_equal. apply map_ext_in. intros b Hb. rewrite NW by auto. reflexivity.
  - f_equal. apply map_ext_in. intros b Hb. rewrite NW by auto. reflexivity.
Qed.
Lemma word_lt b : block (word b).
Proof. apply choice_word_lt. Qed.
Lemma vs_gen : send_gens crhash k compact so (so_counter so) us (fun _ => 0%N) = vs.
Proof.
  assert (T : tail0 (length leaves) (fun _ => 0%N)) by (intros p _; reflexivity).
  rewrite (send_gens_spec crhash k compact delta so ro Hk LK us _ _ T). unfold us. rewrite map_length, seq_length. unfold vs.
  apply map_ext_in. intros b Hb. apply in_seq in Hb. rewrite nth_map_seq by lia. rewrite (lk_counter _ _ _ _ LK). reflexivity.
Qed.
Lemma col_vs c : c < 128 -> col c vs = xors (col c ws) (map (fun b => if N.testbit delta (N.of_nat c) then word b else 0%N) (seq 0 bn)).
Proof.
  intros Hc. unfold col, vs, ws. rewrite !map_map, xors_seq. apply map_ext. intros b. apply vole_relation; auto.
Qed.
Lemma honest_check : send_check prg64 (so_mask so) vs seed (recv_check prg64 words ws seed) = true.
Proof.
  unfold send_check, recv_check. cbn zeta. cbn [fst snd].
  assert (Lv : length vs = bn) by (unfold vs; rewrite map_length, seq_length; auto).
  assert (Lw : length words = bn) by (unfold words; rewrite map_length, seq_length; auto).
  rewrite Lv, Lw. destruct (HP seed (bn * 2)) as [SL SW]. set (chi := prg64 seed (bn * 2)) in *.
  apply forallb_forall. intros c Hc. apply in_seq in Hc. apply N.eqb_eq. rewrite nth_map_seq by lia.
  assert (Lc : length (col c ws) = bn) by (unfold col, ws; rewrite !map_length, seq_length; auto).
  rewrite !check_val_ip by (auto; rewrite ?Lc; unfold col; rewrite ?map_length, ?Lv; lia).
  rewrite check_x_ip by (auto; lia). rewrite col_vs by lia. rewrite (lk_mask _ _ _ _ LK) by lia.
  rewrite <- !dot_ip. rewrite dot_xors by (rewrite ?map_length, ?seq_length, ?Lc; auto; lia). f_equal.
  destruct (N.testbit delta (N.of_nat c)); [reflexivity|]. symmetry. apply dot_zero; auto. rewrite seq_length. lia.
Qed.
Lemma call_out cot : exists so' ro' sent got,
  run_call crhash tr prg64 k step mal compact so ro (choices, rnd, cot, seed) = Some (so', ro', sent, got) /\
  linked k delta so' ro' /\ ro_leaves ro' = leaves /\ ro_counter ro' = (c0 + N.of_nat bn)%N /\
  length sent = n /\ length got = n /\
  forall i, i < n -> exists w, nth i got 0%N = fin crhash cot w /\
    (let v := N.lxor w (if nth i choices false then delta else 0%N) in nth i sent (0, 0)%N = (fin crhash cot v, fin crhash cot (N.lxor v delta))) /\
    (compact = true -> N.testbit w 0 = nth i choices false) /\ block w.
Proof.
  destruct (layout st n (step_of_pos k step)) as (L1 & L2 & L3 & L4 & L5 & L6). fold bn in L1, L2, L3, L4, L6.
  unfold run_call. rewrite recv_eq. unfold soft_send. cbn zeta. fold n st bn. rewrite L2, Nat.eqb_refl. cbn [negb].
  assert (Lu : length us = bn) by (unfold us; rewrite map_length, seq_length; auto).
  rewrite (unpack_pack st (pprf_num k) n us (step_of_pos k step) Lu).
  2: { intros u Hu. unfold us in Hu. apply in_map_iff in Hu as (b & <- & _). unfold recv_u. rewrite map_length, seq_length. reflexivity. }
  rewrite vs_gen, honest_check. cbn [negb]. rewrite andb_false_r. rewrite Lu.
  eexists _, _, _, _. split; [reflexivity|]. split; [|split; [reflexivity|]].
  { pose proof (lk_counter _ _ _ _ LK) as LC. destruct LK. constructor; cbn [ro_leaves ro_counter so_compress so_idx so_mask so_delta so_counter]; auto. unfold c0. rewrite LC. reflexivity. }
  split; [reflexivity|].
  assert (Lv : length vs = bn) by (unfold vs; rewrite map_length, seq_length; auto).
  assert (Lws : length ws = bn) by (unfold ws; rewrite map_length, seq_length; auto).
  assert (BN : batch_num n <= bn).
  { destruct (Nat.le_gt_cases (batch_num n) bn) as [|G]; auto. apply batch_num_range in G. lia. }
  assert (RT : forall b, b < bn -> length (transpose tr (nth b ws [])) = 128 /\ length (transpose tr (nth b vs [])) = 128 /\
    forall j, j < 128 -> nth j (transpose tr (nth b vs [])) 0%N = N.lxor (nth j (transpose tr (nth b ws [])) 0%N) (if N.testbit (word b) (N.of_nat j) then delta else 0%N)).
  { intros b Hb. unfold ws, vs. rewrite !nth_map_seq by auto. destruct (recv_w_ok crhash HC k compact leaves (c0 + N.of_nat b) (word b) (word_lt b)) as [W1 W2].
    apply transposed_rows; auto.
    - apply platform_ok; auto.
    - apply word_lt.
    - apply put0_length. rewrite map_length, seq_length. reflexivity.
    - intros c Hc. apply vole_relation; auto. }
  destruct (rows_spec tr n ws) as [W1 W2]; [lia|intros b Hb; apply RT; lia|].
  destruct (rows_spec tr n vs) as [V1 V2]; [lia|intros b Hb; apply RT; lia|].
  split; [rewrite map_length; auto|]. split; [rewrite map_length; auto|].
  intros i Hi. destruct (batch_of n i Hi) as (B1 & B2 & B3 & B4).
  destruct (RT (i / 128) ltac:(lia)) as (R1 & R2 & R3).
  set (w := nth (i mod 128) (transpose tr (nth (i / 128) ws [])) 0%N) in *. exists w.
  assert (WB : N.testbit (word (i / 128)) (N.of_nat (i mod 128)) = nth i choices false).
  { unfold word. rewrite choice_word_bit, <- B4 by auto. apply ext_choice_nth. auto. }
  split; [rewrite (nth_map0 _ _ _ 0%N) by lia; rewrite W2 by auto; reflexivity|]. split.
  - cbn zeta. rewrite (nth_map0 _ _ _ 0%N) by lia. rewrite V2 by auto. rewrite R3 by auto. fold w. rewrite WB, (lk_delta _ _ _ _ LK). reflexivity.
  - unfold w. unfold ws. rewrite nth_map_seq by lia.
    destruct (recv_w_ok crhash HC k compact leaves (c0 + N.of_nat (i / 128)) (word (i / 128)) (word_lt (i / 128))) as [W3 W4].
    destruct (transpose_spec tr _ (platform_ok tr HT) W4 W3) as (T1 & T2 & T3). split.
    2: { rewrite Forall_forall in T2. apply T2, nth_In. rewrite T1. lia. }
    intros CP. pose proof (T3 (i mod 128) 0 ltac:(lia) ltac:(lia)) as T4. cbn [N.of_nat] in T4. rewrite T4.
    unfold recv_w. rewrite put0_nth by (rewrite map_length, seq_length; lia). rewrite CP. cbn [andb Nat.eqb]. exact WB.
Qed.
End Call.

(** ** C73: correctness of every history *)
Theorem soft_correct e0 e1 digest digest_all crhash tr prg64 k step mal compact base bits blks seeds junk junk' (cs : list call) :
  is_hash crhash -> is_prg64 prg64 -> platform_transpose tr -> 1 <= k <= 31 -> base_rots base bits blks ->
  exists delta outs,
    run_soft e0 e1 digest digest_all crhash tr prg64 k step mal compact base bits blks seeds junk junk' cs = Some (delta, outs) /\
    is_secret compact bits delta /\ length outs = length cs /\
    forall q, q < length cs ->
      let '(choices, _, cot, _) := nth q cs ([], [], false, 0%N) in
      let '(sent, got) := nth q outs ([], []) in
      chosen choices sent got /\ (cot = true -> correlated delta sent /\ (compact = true -> low_bits choices sent got)).
Proof.
  intros HC HP HT Hk HB. unfold run_soft.
  destruct (setup_runs e0 e1 digest digest_all crhash k mal compact base bits blks seeds junk junk' Hk HB) as (ro & parts & so & E1 & E2 & LK & _).
  rewrite E1, E2. pose proof (secret_ok k compact base bits blks Hk HB) as SEC. set (delta := bits_word (base_bits compact bits)) in *.
  assert (DL : so_delta so = delta) by (apply (lk_delta _ _ _ _ LK)). rewrite DL.
  assert (HD0 : compact = true -> N.testbit delta 0 = true).
  { intros CP. destruct SEC as [_ S]. specialize (S 0 ltac:(lia)). cbn [N.of_nat] in S. rewrite S, CP. reflexivity. }
  exists delta. clear E1 E2 DL parts. assert (G : exists outs, run_calls crhash tr prg64 k step mal compact so ro cs = Some outs /\ length outs = length cs /\
    forall q, q < length cs ->
      let '(choices, _, cot, _) := nth q cs ([], [], false, 0%N) in
      let '(sent, got) := nth q outs ([], []) in
      chosen choices sent got /\ (cot = true -> correlated delta sent /\ (compact = true -> low_bits choices sent got))).
  2: { destruct G as (outs & E & L & H). exists outs. rewrite E. auto. }
  revert so ro LK. induction cs as [|[[[choices rnd] cot] seed] cs IH]; intros so ro LK.
  - exists []. split; [reflexivity|]. split; [reflexivity|]. intros q Hq. cbn in Hq. lia.
  - destruct (call_out crhash tr prg64 k step mal compact delta so ro HC HP HT (proj1 Hk) (proj1 SEC) HD0 LK choices rnd seed cot)
      as (so' & ro' & sent & got & E & LK' & _ & _ & L1 & L2 & H).
    cbn [run_calls]. rewrite E. destruct (IH so' ro' LK') as (outs & EO & LO & HO). rewrite EO.
    exists ((sent, got) :: outs). split; [reflexivity|]. split; [cbn; lia|]. intros [|q] Hq; cbn [nth].
    + split; [|intros ->; split].
      * split; auto. split; auto. intros i Hi. destruct (H i Hi) as (w & Hg & Hs & _). rewrite Hg, Hs. cbn zeta. cbn [fst snd].
        destruct (nth i choices false); [|rewrite N.lxor_0_r; reflexivity]. f_equal. rewrite N.lxor_assoc, N.lxor_nilpotent, N.lxor_0_r. reflexivity.
      * intros i Hi. destruct (H i ltac:(lia)) as (w & Hg & Hs & _). rewrite Hs. cbn zeta. cbn [fst snd fin]. apply xor_cancel.
      * intros CP i Hi. destruct (H i Hi) as (w & Hg & Hs & HL & _). rewrite Hg, Hs. cbn zeta. cbn [fst snd fin]. specialize (HL CP). split; [|exact HL].
        rewrite N.lxor_spec, HL. destruct (nth i choices false); [rewrite HD0 by auto; reflexivity|reflexivity].
    + apply HO. cbn in Hq. lia.
Qed.
Print Assumptions soft_correct.

(** ** C73: the messages of every history *)
(** The messages of the receiver, call by call; they do not depend on the sender. *)
Fixpoint wire crhash tr k step compact (ro : recv_obj) (cs : list call) : list (list (list N)) :=
  match cs with
  | [] => []
  | (choices, rnd, cot, _) :: r =>
      let '(ro', msgs, _, _) := soft_recv crhash tr k step compact ro choices rnd cot in msgs :: wire crhash tr k step compact ro' r
  end.
Definition call_size (c : call) : nat := let '(choices, _, _, _) := c in length choices.
(** Batches of a call of n: n and 64 more, in units of 128. *)
Definition batches (c : call) : nat := (call_size c + 191) / 128.
Definition batches_before (cs : list call) (q : nat) : nat := list_sum (map batches (firstn q cs)).
(** Word b of the choices: bits 128 b to 128 b + 127 of the choices followed by 64 random bits. *)
Definition is_word (choices rnd : list bool) (b : nat) (w : N) : Prop :=
  block w /\ forall j, j < 128 -> N.testbit w (N.of_nat j) = nth (128 * b + j) (choices ++ firstn 64 rnd) false.
(** The sum of the leaves of one tree, hashed with the counter. *)
Definition tree_sum (crhash : N -> N) (n : nat) (lf : nat -> N) (ctr : N) : N :=
  fold_right N.lxor 0%N (map (fun x => crhash (N.lxor (lf x) ctr)) (seq 0 n)).

Lemma xs_sum f n : xs f n = fold_right N.lxor 0%N (map f (seq 0 n)).
Proof.
  induction n as [|n IH]; [reflexivity|]. cbn [xs]. rewrite seq_S, map_app, fold_right_app. cbn [map fold_right Nat.add].
  rewrite IH, N.lxor_0_r. generalize (map f (seq 0 n)). induction l as [|a l IHl]; cbn [fold_right]; [rewrite N.lxor_0_l; reflexivity|].
  rewrite <- IHl, N.lxor_assoc. reflexivity.
Qed.
Lemma tot_sum crhash k leaves ctr i lf : 1 <= k -> i < pprf_num k ->
  length leaves = (pprf_num k - 1) * 2 ^ k + 2 ^ k_limit k (pprf_num k - 1) ->
  (forall x, x < 2 ^ k_limit k i -> nth (i * 2 ^ k + x) leaves 0%N = lf x) ->
  tot crhash k leaves ctr i = tree_sum crhash (2 ^ k_limit k i) lf ctr.
Proof.
  intros Hk Hi HL H. unfold tot, tree_sum. rewrite <- xs_sum.
  assert (KL : k_limit k i <= k) by (unfold k_limit; lia).
  pose proof (Nat.pow_le_mono_r 2 _ _ ltac:(lia) KL) as P.
  replace (2 ^ k) with (2 ^ k_limit k i + (2 ^ k - 2 ^ k_limit k i)) by lia. rewrite xs_add.
  assert (B : i * 2 ^ k + 2 ^ k_limit k i <= length leaves /\ (2 ^ k_limit k i < 2 ^ k -> length leaves = i * 2 ^ k + 2 ^ k_limit k i)).
  { rewrite HL. destruct (Nat.eq_dec i (pprf_num k - 1)) as [->|D]; [lia|].
    assert (E : k_limit k i = k) by (apply k_limit_full; auto; lia). rewrite E.
    assert (S i * 2 ^ k <= (pprf_num k - 1) * 2 ^ k) by (apply Nat.mul_le_mono_r; lia). cbn [Nat.mul] in *. lia. }
  replace (2 ^ k_limit k i + (2 ^ k - 2 ^ k_limit k i)) with (2 ^ k) by lia.
  rewrite (xs_zero (fun x => hm crhash leaves ctr (i * 2 ^ k + (2 ^ k_limit k i + x)))).
  - rewrite N.lxor_0_r. apply xs_ext. intros x Hx. unfold hm. destruct (Nat.ltb_spec (i * 2 ^ k + x) (length leaves)); [|lia]. rewrite H by auto. reflexivity.
  - intros x Hx. unfold hm. destruct (Nat.ltb_spec (i * 2 ^ k + (2 ^ k_limit k i + x)) (length leaves)); [lia|reflexivity].
Qed.
(** One call of the receiver, in any state. *)
Lemma recv_call crhash tr k step compact ro choices rnd cot : 1 <= k ->
  exists ws x, soft_recv crhash tr k step compact ro choices rnd cot =
    ({| ro_leaves := ro_leaves ro; ro_counter := ro_counter ro + N.of_nat ((length choices + 191) / 128) |},
     pack (step_of k step) (length choices) (map (fun b => recv_u crhash k (ro_leaves ro) (ro_counter ro + N.of_nat b) (choice_word (ext_choice choices rnd) b)) (seq 0 ((length choices + 191) / 128))),
     ws, x).
Proof.
  intros Hk. destruct (layout (step_of k step) (length choices) (step_of_pos k step)) as (L1 & _).
  eexists _, _. rewrite (recv_eq crhash tr k step compact ro Hk choices rnd cot), L1. reflexivity.
Qed.
Lemma nth_concat_uniform {A} (ls : list (list A)) R b i d : (forall l, In l ls -> length l = R) -> b < length ls -> i < R ->
  nth (b * R + i) (concat ls) d = nth i (nth b ls []) d.
Proof.
  revert b. induction ls as [|l ls IH]; intros b H Hb Hi; [cbn in Hb; lia|]. cbn [concat].
  assert (L : length l = R) by (apply H; left; auto). destruct b as [|b]; cbn [nth].
  - rewrite app_nth1 by (cbn; lia). reflexivity.
  - rewrite app_nth2 by (cbn [Nat.mul]; lia). replace (S b * R + i - length l) with (b * R + i) by (cbn [Nat.mul]; lia).
    apply IH; [intros l' Hl'; apply H; right; auto|cbn in Hb; lia|auto].
Qed.
Lemma concat_pack step n us : concat (pack step n us) = concat us.
Proof.
  unfold pack. rewrite concat_app. transitivity (concat (firstn (super_num step n * step) us) ++ concat (skipn (super_num step n * step) us)).
  2: { rewrite <- concat_app, firstn_skipn. reflexivity. }
  f_equal. rewrite <- blocks_firstn. generalize (seq 0 (super_num step n)). induction l as [|t l IH]; [reflexivity|].
  cbn [map concat flat_map]. rewrite concat_app, IH. reflexivity.
Qed.
Lemma word_ok choices rnd b : is_word choices rnd b (choice_word (ext_choice choices rnd) b).
Proof. split; [apply choice_word_lt|]. intros j Hj. rewrite choice_word_bit by auto. reflexivity. Qed.

(** In a state whose leaves are [lf i x], the messages of call q, in order, are for each batch
    and each tree the word of the choices masked by the sum of the hashed leaves of this
    tree; the counter is the number of all earlier batches. *)
Lemma wire_spec crhash tr k step compact lf leaves : 1 <= k ->
  length leaves = (pprf_num k - 1) * 2 ^ k + 2 ^ k_limit k (pprf_num k - 1) ->
  (forall i x, i < pprf_num k -> x < 2 ^ k_limit k i -> nth (i * 2 ^ k + x) leaves 0%N = lf i x) ->
  forall cs c0 q, q < length cs ->
  let msgs := nth q (wire crhash tr k step compact {| ro_leaves := leaves; ro_counter := c0 |} cs) [] in
  let '(choices, rnd, _, _) := nth q cs ([], [], false, 0%N) in
  length (concat msgs) = batches (nth q cs ([], [], false, 0%N)) * pprf_num k /\
  forall b i, b < batches (nth q cs ([], [], false, 0%N)) -> i < pprf_num k ->
    exists w, is_word choices rnd b w /\
      nth (b * pprf_num k + i) (concat msgs) 0%N =
      N.lxor w (tree_sum crhash (2 ^ k_limit k i) (lf i) (c0 + N.of_nat (batches_before cs q) + N.of_nat b)).
Proof.
  intros Hk HL HF. induction cs as [|[[[choices rnd] cot] sd] cs IH]; intros c0 q Hq; [cbn in Hq; lia|].
  destruct (recv_call crhash tr k step compact {| ro_leaves := leaves; ro_counter := c0 |} choices rnd cot Hk) as (ws & x & E).
  cbn [wire ro_leaves ro_counter] in *. rewrite E. destruct q as [|q]; cbn [nth].
  - cbn zeta. rewrite concat_pack. unfold batches. cbn [call_size].
    assert (U : forall u, In u (map (fun b => recv_u crhash k leaves (c0 + N.of_nat b) (choice_word (ext_choice choices rnd) b)) (seq 0 ((length choices + 191) / 128))) -> length u = pprf_num k).
    { intros u Hu. apply in_map_iff in Hu as (b & <- & _). unfold recv_u. rewrite map_length, seq_length. reflexivity. }
    split; [rewrite (concat_uniform_len _ (pprf_num k)) by auto; rewrite map_length, seq_length; reflexivity|].
    intros b i Hb Hi. exists (choice_word (ext_choice choices rnd) b). split; [apply word_ok|].
    rewrite nth_concat_uniform by (auto; rewrite map_length, seq_length; auto). rewrite nth_map_seq by auto.
    unfold recv_u. rewrite nth_map_seq by auto. f_equal. unfold batches_before. cbn [firstn map list_sum fold_right].
    change (N.of_nat 0) with 0%N. rewrite N.add_0_r. apply tot_sum; auto.
  - specialize (IH (c0 + N.of_nat ((length choices + 191) / 128))%N q ltac:(cbn in Hq; lia)). cbn zeta in *.
    destruct (nth q cs ([], [], false, 0%N)) as [[[ch' rnd'] cot'] sd']. destruct IH as [I1 I2]. split; [exact I1|].
    intros b i Hb Hi. destruct (I2 b i Hb Hi) as (w & Hw & EW). exists w. split; auto. rewrite EW. f_equal. f_equal. f_equal.
    unfold batches_before. cbn [firstn map list_sum fold_right]. unfold batches at 2. cbn [call_size]. unfold list_sum. lia.
Qed.

Theorem soft_messages e0 e1 digest digest_all crhash tr k step mal compact base seeds junk (cs : list call) :
  1 <= k <= 31 -> length base = 128 ->
  exists ro parts, recv_setup e0 e1 digest digest_all crhash k mal compact base seeds junk = Some (ro, parts) /\
  forall q, q < length cs ->
    let msgs := nth q (wire crhash tr k step compact ro cs) [] in
    let '(choices, rnd, _, _) := nth q cs ([], [], false, 0%N) in
    length (concat msgs) = batches (nth q cs ([], [], false, 0%N)) * pprf_num k /\
    forall b i, b < batches (nth q cs ([], [], false, 0%N)) -> i < pprf_num k ->
      exists w, is_word choices rnd b w /\
        nth (b * pprf_num k + i) (concat msgs) 0%N =
        N.lxor w (tree_sum crhash (2 ^ k_limit k i)
                    (fun x => let l := leaf e0 e1 (seeds i) (k_limit k i) x in if mal then crhash l else l)
                    (N.of_nat (batches_before cs q + b))).
Proof.
  intros Hk HB.
  assert (HB' : base_rots base (map (fun _ => false) (seq 0 128)) (map fst base)).
  { split; auto. rewrite !map_length, seq_length. split; auto. split; auto. intros i Hi. rewrite nth_map_seq by auto.
    change 0%N with (fst (0, 0)%N) at 1. apply map_nth. }
  destruct (setup_runs e0 e1 digest digest_all crhash k mal compact base _ _ seeds junk (fun _ => 0%N) Hk HB') as (ro & parts & so & E1 & _ & LK & C0 & LF & _).
  exists ro, parts. split; auto. intros q Hq. pose proof (lk_counter _ _ _ _ LK) as LC. pose proof (lk_leaves _ _ _ _ LK) as LL.
  destruct ro as [leaves c0]. cbn [ro_leaves ro_counter] in *. assert (c0 = 0%N) by congruence. clear LC LK. subst c0.
  pose proof (wire_spec crhash tr k step compact (fun i x => leaf_of e0 e1 crhash k mal seeds i x) leaves (proj1 Hk) LL LF cs 0%N q Hq) as W.
  cbn zeta in *. destruct (nth q cs ([], [], false, 0%N)) as [[[ch rnd] cot] sd]. destruct W as [W1 W2]. split; auto.
  intros b i Hb Hi. destruct (W2 b i Hb Hi) as (w & Hw & EW). exists w. split; auto. rewrite EW. unfold leaf_of. f_equal. f_equal. lia.
Qed.
Print Assumptions soft_messages.
