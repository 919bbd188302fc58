(** Properties C73 and C74, continued: the check of the sender, the messages and the choices. *)
From Coq Require Import List NArith ZArith Bool Lia Arith.
From Verif Require Import TransModel TransProof TransProps GfModel GfProof GfProps SpcotModel SpcotProof SpcotProps OtExtModel OtExtProof OtExtProps KosProps SoftModel SoftProof SoftProof2 SoftProps.
Import ListNotations.
Open Scope nat_scope.

(** ** C74: what the messages tell about the choices *)
(** An eavesdropper on a compact set-up: base OT 0 is replaced by two zero keys, so the first
    two blocks of the set-up message are the two children of the root of tree 0. *)
Definition spy_leaf (e0 e1 crhash : N -> N) (k : nat) (mal : bool) (p : N * N) (x : nat) : N :=
  let l := fold_left (fun s (b : bool) => N.lxor (if b then e1 s else e0 s) s) (map (Nat.testbit x) (seq 1 (k - 1)))
             (if Nat.testbit x 0 then snd p else fst p) in
  if mal then crhash l else l.
(** The choice at position j of call q, computed from the set-up message [parts], the messages
    of call q and the numbers of OTs of the calls before it. *)
Definition spy (e0 e1 crhash : N -> N) (k : nat) (mal : bool) (parts : list (list (N * N) * option (N * N)))
    (sizes : list nat) (msgs : list (list N)) (q j : nat) : bool :=
  let p := nth 0 (fst (nth 0 parts ([], None))) (0, 0)%N in
  let ctr := list_sum (map (fun n => (n + 191) / 128) (firstn q sizes)) + j / 128 in
  N.testbit (N.lxor (nth (j / 128 * pprf_num k) (concat msgs) 0%N)
                    (tree_sum crhash (2 ^ k) (spy_leaf e0 e1 crhash k mal p) (N.of_nat ctr))) (N.of_nat (j mod 128)).

Lemma first_pair e0 e1 digest digest_all crhash base n seed mal out l m p : 1 < n -> n <= length out ->
  sgrr_send_fixed e0 e1 digest digest_all crhash base n seed mal out = Some (l, m, p) ->
  nth 0 m (0, 0)%N = (N.lxor (send_block base 0 true) (N.lxor (e0 seed) seed), N.lxor (send_block base 0 false) (N.lxor (e1 seed) seed)).
Proof.
  intros Hn Ho. unfold sgrr_send_fixed. cbn zeta. destruct ((length base <? log2ceil n) || (n <=? 1)); [discriminate|].
  destruct (log2ceil_spec n Hn) as [_ LP].
  pose proof (send_levels_spec e0 e1 seed n (log2ceil n) Hn 0 (set_nth 0 seed out) eq_refl) as SL.
  rewrite set_nth_length in SL. specialize (SL Ho).
  destruct (send_levels e0 e1 n 0 (log2ceil n) (set_nth 0 seed out)) as [o ms]. intros E. injection E as _ <- _.
  assert (S' : forall x, x < log2ceil n -> nth x ms (0%N, 0%N) =
     (xsum (fun j => tree e0 e1 seed (S x) j) (seq 0 (2 ^ x)), xsum (fun j => tree e0 e1 seed (S x) (j + 2 ^ x)) (seq 0 (2 ^ x)))).
  { apply SL. intros j Hj _. replace j with 0 by (cbn in Hj; lia). rewrite nth_set_nth by lia. reflexivity. }
  rewrite nth_map_seq by auto. rewrite S' by auto. cbn [fst snd Nat.pow seq]. unfold xsum, lsum. cbn [map fold_left fold_right tree Nat.add Nat.ltb Nat.leb Nat.pow]. rewrite ?N.lxor_0_l, ?N.lxor_0_r. reflexivity.
Qed.

Lemma fold_xor_ext (f g : nat -> N) l : (forall x, In x l -> f x = g x) -> fold_right N.lxor 0%N (map f l) = fold_right N.lxor 0%N (map g l).
Proof. intros H. f_equal. apply map_ext_in. auto. Qed.
Lemma sizes_before cs q : list_sum (map (fun n => (n + 191) / 128) (firstn q (map call_size cs))) = batches_before cs q.
Proof. unfold batches_before, batches. rewrite firstn_map, map_map. reflexivity. Qed.

(** In compact mode the messages determine every choice of every history. *)
Theorem soft_compact_choices_hidden_refuted e0 e1 digest digest_all crhash tr k step mal base seeds junk (cs : list call) ro parts :
  1 <= k <= 31 -> length base = 128 ->
  recv_setup e0 e1 digest digest_all crhash k mal true base seeds junk = Some (ro, parts) ->
  forall q j, q < length cs ->
    let '(choices, _, _, _) := nth q cs ([], [], false, 0%N) in
    j < length choices ->
    spy e0 e1 crhash k mal parts (map call_size cs) (nth q (wire crhash tr k step true ro cs) []) q j = nth j choices false.
Proof.
  intros Hk HB ER q j Hq.
  destruct (soft_messages e0 e1 digest digest_all crhash tr k step mal true base seeds junk cs Hk HB) as (ro' & parts' & E & M).
  rewrite ER in E. injection E as <- <-. specialize (M q Hq). cbv zeta in M.
  destruct (nth q cs ([], [], false, 0%N)) as [[[choices rnd] cot] sd] eqn:EQ. intros Hj. destruct M as [_ M].
  assert (HB' : base_rots base (map (fun _ => false) (seq 0 128)) (map fst base)).
  { split; auto. rewrite !map_length, seq_length. split; auto. split; auto. intros i Hi. rewrite nth_map_seq by auto.
    change 0%N with (fst (0, 0)%N) at 1. apply map_nth. }
  destruct (setup_runs e0 e1 digest digest_all crhash k mal true base _ _ seeds junk (fun _ => 0%N) Hk HB') as (ro' & parts' & so & E1 & _ & _ & _ & _ & PT).
  rewrite ER in E1. injection E1 as <- <-.
  assert (NP : 0 < pprf_num k) by (destruct (num_covers k (proj1 Hk)) as (_ & ? & _); lia).
  assert (K0 : k_limit k 0 = k) by (unfold k_limit; lia).
  destruct (PT 0 NP) as (l & m & p & EP & ES). rewrite K0 in ES.
  apply first_pair in ES.
  2: { destruct k as [|k']; [lia|]. cbn [Nat.pow]. assert (2 ^ k' <> 0) by (apply Nat.pow_nonzero; lia). lia. }
  2: { rewrite map_length, seq_length. apply le_n. }
  assert (J : j mod 128 < 128) by (apply Nat.mod_upper_bound; lia).
  assert (JD : j = 128 * (j / 128) + j mod 128) by (apply Nat.div_mod; lia).
  assert (JB : j / 128 < batches (choices, rnd, cot, sd)).
  { unfold batches, call_size. apply Nat.lt_le_trans with ((j + 128) / 128); [|apply Nat.div_le_mono; lia].
    rewrite <- (Nat.mul_1_l 128) at 2. rewrite Nat.div_add by lia. lia. }
  destruct (M (j / 128) 0 JB NP) as (w & [_ HW] & EW). rewrite Nat.add_0_r in EW.
  unfold spy. rewrite EP, EW, sizes_before, K0. cbn [fst]. rewrite ES.
  assert (SL : tree_sum crhash (2 ^ k) (spy_leaf e0 e1 crhash k mal
      (N.lxor (send_block (slice k 0 (base_send true base)) 0 true) (N.lxor (e0 (seeds 0)) (seeds 0)),
       N.lxor (send_block (slice k 0 (base_send true base)) 0 false) (N.lxor (e1 (seeds 0)) (seeds 0)))) (N.of_nat (batches_before cs q + j / 128)) =
    tree_sum crhash (2 ^ k) (fun x => let l := leaf e0 e1 (seeds 0) k x in if mal then crhash l else l) (N.of_nat (batches_before cs q + j / 128))).
  { unfold tree_sum. apply fold_xor_ext. intros x _. f_equal. f_equal. unfold spy_leaf, leaf. cbn zeta. cbn [fst snd].
    assert (Z : forall c, send_block (slice k 0 (base_send true base)) 0 c = 0%N).
    { intros c. unfold send_block, slice, base_send. rewrite K0. destruct k as [|k']; [lia|]. destruct c; reflexivity. }
    rewrite !Z, !N.lxor_0_l. destruct k as [|k']; [lia|]. cbn [seq map fold_left]. replace (S k' - 1) with k' by lia.
    destruct (Nat.testbit x 0); reflexivity. }
  rewrite SL, N.lxor_assoc, N.lxor_nilpotent, N.lxor_0_r. rewrite HW by auto. rewrite <- JD. apply app_nth1. auto.
Qed.
Print Assumptions soft_compact_choices_hidden_refuted.

(** Otherwise, with the hash as a random oracle: the messages of any two histories of the same
    shape differ only by the values of the hash at points that no honest sender evaluates. *)
Definition words_of (c : call) : list N := let '(choices, rnd, _, _) := c in map (choice_word (ext_choice choices rnd)) (seq 0 (batches c)).
Lemma words_len c : length (words_of c) = batches c.
Proof. destruct c as [[[ch rnd] cot] sd]. unfold words_of. rewrite map_length, seq_length. reflexivity. Qed.
Lemma all_words_len cs : length (flat_map words_of cs) = list_sum (map batches cs).
Proof. induction cs as [|c cs IH]; [reflexivity|]. cbn [flat_map map]. rewrite app_length, words_len, IH. reflexivity. Qed.
Lemma word_block c t : In t (flat_map words_of c) -> block t.
Proof. intros H. apply in_flat_map in H as ([[[ch rnd] cot] sd] & _ & H). apply in_map_iff in H as (b & <- & _). apply choice_word_lt. Qed.

Lemma wire_same crhash crhash' tr k step compact leaves : 1 <= k -> forall cs cs' c0,
  map call_size cs = map call_size cs' ->
  (forall t, t < list_sum (map batches cs) ->
     recv_u crhash k leaves (c0 + N.of_nat t) (nth t (flat_map words_of cs) 0%N) = recv_u crhash' k leaves (c0 + N.of_nat t) (nth t (flat_map words_of cs') 0%N)) ->
  wire crhash tr k step compact {| ro_leaves := leaves; ro_counter := c0 |} cs = wire crhash' tr k step compact {| ro_leaves := leaves; ro_counter := c0 |} cs'.
Proof.
  intros Hk. induction cs as [|c cs IH]; intros [|c' cs'] c0 HS H; try discriminate HS; [reflexivity|].
  cbn [map] in HS. injection HS as HS1 HS2.
  assert (HB : batches c = batches c') by (unfold batches; rewrite HS1; reflexivity).
  pose proof (words_len c) as L. pose proof (words_len c') as L'. cbn [flat_map map list_sum fold_right] in H.
  destruct c as [[[ch rnd] cot] sd], c' as [[[ch' rnd'] cot'] sd']. cbn [wire].
  destruct (recv_call crhash tr k step compact {| ro_leaves := leaves; ro_counter := c0 |} ch rnd cot Hk) as (ws & x & E).
  destruct (recv_call crhash' tr k step compact {| ro_leaves := leaves; ro_counter := c0 |} ch' rnd' cot' Hk) as (ws' & x' & E').
  rewrite E, E'. cbn [ro_leaves ro_counter]. cbn [call_size] in HS1. rewrite <- HS1. f_equal.
  - f_equal. apply map_ext_in. intros b Hb. apply in_seq in Hb.
    assert (Hb' : b < batches (ch, rnd, cot, sd)) by (unfold batches; cbn [call_size]; lia).
    specialize (H b ltac:(lia)). rewrite !app_nth1 in H by lia. unfold words_of in H. rewrite !nth_map_seq in H by (rewrite <- ?HB; auto). exact H.
  - apply IH; auto. intros t Ht.
    specialize (H (batches (ch, rnd, cot, sd) + t)). rewrite !app_nth2 in H by lia.
    rewrite L, L', <- HB in H. replace (batches (ch, rnd, cot, sd) + t - batches (ch, rnd, cot, sd)) with t in H by lia.
    replace (c0 + N.of_nat ((length ch + 191) / 128) + N.of_nat t)%N with (c0 + N.of_nat (batches (ch, rnd, cot, sd) + t))%N
      by (unfold batches; cbn [call_size]; lia).
    apply H. unfold list_sum in *. lia.
Qed.

(** The hash with the values at the points [pt i t], i < num and t < T, changed by [d t]. *)
Definition patch (crhash : N -> N) (pt : nat -> nat -> N) (num T : nat) (d : nat -> N) (z : N) : N :=
  match find (fun t => existsb (fun i => N.eqb z (pt i t)) (seq 0 num)) (seq 0 T) with
  | Some t => N.lxor (crhash z) (d t)
  | None => crhash z
  end.
Lemma patch_hit crhash pt num T d i t : i < num -> t < T ->
  (forall i' t', i' < num -> t' < T -> pt i t = pt i' t' -> t' = t) -> patch crhash pt num T d (pt i t) = N.lxor (crhash (pt i t)) (d t).
Proof.
  intros Hi Ht H. unfold patch. destruct (find _ (seq 0 T)) as [t'|] eqn:F.
  - apply find_some in F as [F1 F2]. apply existsb_exists in F2 as (i' & F2 & F3). apply N.eqb_eq in F3. apply in_seq in F1, F2.
    rewrite (H i' t') by (auto; lia). reflexivity.
  - exfalso. pose proof (find_none _ _ F t ltac:(apply in_seq; lia)) as F1. cbn beta in F1.
    assert (E : existsb (fun i0 => N.eqb (pt i t) (pt i0 t)) (seq 0 num) = true).
    { apply existsb_exists. exists i. split; [apply in_seq; lia|apply N.eqb_refl]. }
    congruence.
Qed.
Lemma patch_miss crhash pt num T d z : (forall i t, i < num -> t < T -> z <> pt i t) -> patch crhash pt num T d z = crhash z.
Proof.
  intros H. unfold patch. destruct (find _ (seq 0 T)) as [t|] eqn:F; auto.
  apply find_some in F as [F1 F2]. apply existsb_exists in F2 as (i & F2 & F3). apply N.eqb_eq in F3. apply in_seq in F1, F2.
  exfalso. apply (H i t); auto; lia.
Qed.

Theorem soft_choices_hidden e0 e1 digest digest_all crhash tr k step base bits blks seeds junk junk' (cs cs' : list call) ro parts so :
  1 <= k <= 31 -> base_rots base bits blks -> is_hash crhash ->
  recv_setup e0 e1 digest digest_all crhash k false false base seeds junk = Some (ro, parts) ->
  send_setup e0 e1 digest digest_all crhash k false false bits blks junk' parts = Some so ->
  map call_size cs = map call_size cs' ->
  let num := pprf_num k in
  let T := list_sum (map batches cs) in
  let lf i x := leaf e0 e1 (seeds i) (k_limit k i) x in
  let secret i := bits_nat (firstn k (skipn (i * k) bits)) in
  let pt i t := N.lxor (lf i (secret i)) (N.of_nat t) in
  (forall i t i' x t', i < num -> t < T -> i' < num -> x < 2 ^ k_limit k i' -> t' < T ->
     pt i t = N.lxor (lf i' x) (N.of_nat t') -> i' = i /\ x = secret i /\ t' = t) ->
  exists crhash', is_hash crhash' /\
    (forall z, (forall i t, i < num -> t < T -> z <> pt i t) -> crhash' z = crhash z) /\
    (forall l t, In l (so_compress so) -> t < T -> crhash' (N.lxor l (N.of_nat t)) = crhash (N.lxor l (N.of_nat t))) /\
    recv_setup e0 e1 digest digest_all crhash' k false false base seeds junk = Some (ro, parts) /\
    wire crhash' tr k step false ro cs' = wire crhash tr k step false ro cs.
Proof.
  intros Hk HB HC ER ES SZ num T lf secret pt FR.
  destruct (setup_runs e0 e1 digest digest_all crhash k false false base bits blks seeds junk junk' Hk HB) as (ro' & parts' & so' & E1 & E2 & LK & C0 & LF & _).
  rewrite ER in E1. injection E1 as <- <-. rewrite ES in E2. injection E2 as <-.
  assert (SI : forall i, i < num -> nth i (so_idx so) 0 = secret i).
  { intros i Hi. unfold send_setup in ES. destruct (negb (length bits =? 128) || negb (length parts =? pprf_num k)); [discriminate|].
    cbn zeta in ES. destruct (all_some _); [|discriminate]. injection ES as <-. cbn [so_idx]. rewrite nth_map_seq by auto.
    unfold secret, slice, base_bits. destruct HB as (_ & LB & _). pose proof (tree_start k (proj1 Hk) i Hi) as TS.
    f_equal. unfold k_limit. rewrite <- LB. destruct (Nat.le_gt_cases k (length bits - i * k)) as [G|G]; [rewrite Nat.min_l by auto; reflexivity|].
    rewrite Nat.min_r by lia. rewrite !firstn_all2; auto; rewrite skipn_length; lia. }
  assert (SL : forall i, i < num -> secret i < 2 ^ k_limit k i) by (intros i Hi; rewrite <- SI by auto; apply (lk_idx _ _ _ _ LK); auto).
  set (W := flat_map words_of cs) in *. set (W' := flat_map words_of cs') in *.
  set (d := fun t => N.lxor (nth t W 0%N) (nth t W' 0%N)).
  set (h := patch crhash pt num T d). exists h.
  assert (WB : forall c t, block (nth t (flat_map words_of c) 0%N)).
  { intros c t. destruct (Nat.lt_ge_cases t (length (flat_map words_of c))) as [G|G]; [eapply word_block, nth_In, G|rewrite nth_overflow by auto; reflexivity]. }
  assert (HH : forall i t, i < num -> t < T -> h (pt i t) = N.lxor (crhash (pt i t)) (d t)).
  { intros i t Hi Ht. apply patch_hit; auto. intros i' t' Hi' Ht' E. unfold pt at 2 in E. apply FR in E; auto. tauto. }
  assert (HM : forall z, (forall i t, i < num -> t < T -> z <> pt i t) -> h z = crhash z) by (intros z; apply patch_miss).
  assert (HL : forall i x t, i < num -> x < 2 ^ k_limit k i -> t < T -> x <> secret i -> h (N.lxor (lf i x) (N.of_nat t)) = crhash (N.lxor (lf i x) (N.of_nat t))).
  { intros i x t Hi Hx Ht D. apply HM. intros i' t' Hi' Ht' E. symmetry in E. apply FR in E; auto. destruct E as (-> & -> & _). auto. }
  pose proof (lk_counter _ _ _ _ LK) as LC. rewrite C0 in LC.
  split; [|split; [exact HM|split; [|split]]].
  - intros z. unfold h, patch. destruct (find _ (seq 0 T)) as [t|]; [|apply HC]. apply xor_lt; [apply HC|]. apply xor_lt; apply WB.
  - intros l t Hl Ht. apply (In_nth _ _ 0%N) in Hl as (p & Hp & <-). rewrite (lk_compress _ _ _ _ LK) in Hp.
    assert (P2 : 1 <= 2 ^ k - 1).
    { destruct k as [|k']; [lia|]. cbn [Nat.pow]. assert (2 ^ k' <> 0) by (apply Nat.pow_nonzero; lia). lia. }
    set (R := 2 ^ k - 1) in *. pose proof (Nat.div_mod p R ltac:(lia)) as DM. pose proof (Nat.mod_upper_bound p R ltac:(lia)) as MB.
    assert (NP : 1 <= pprf_num k) by (destruct (num_covers k (proj1 Hk)) as (_ & ? & _); auto).
    assert (KL : 2 ^ k_limit k (pprf_num k - 1) <= 2 ^ k) by (apply Nat.pow_le_mono_r; [lia|unfold k_limit; lia]).
    assert (I : p / R < num /\ S (p mod R) < 2 ^ k_limit k (p / R)).
    { unfold num. destruct (Nat.lt_ge_cases (p / R) (pprf_num k - 1)) as [G|G].
      - rewrite k_limit_full by (try apply Hk; lia). unfold R in *. lia.
      - assert ((pprf_num k - 1) * R <= p / R * R) by (apply Nat.mul_le_mono_r; auto).
        assert (PR : p / R = pprf_num k - 1).
        { destruct (Nat.eq_dec (p / R) (pprf_num k - 1)); auto. assert (S (pprf_num k - 1) * R <= p / R * R) by (apply Nat.mul_le_mono_r; lia).
          cbn [Nat.mul] in *. rewrite (Nat.mul_comm R) in DM. unfold R in *. lia. }
        rewrite PR in *. rewrite (Nat.mul_comm R) in DM. lia. }
    destruct I as [I1 I2]. rewrite DM, (Nat.mul_comm R). unfold R at 2 3. fold R.
    rewrite (lk_moved _ _ _ _ LK) by auto. rewrite SI by auto. rewrite LF.
    + unfold leaf_of. apply HL; auto.
      * destruct (Nat.eqb_spec (S (p mod R)) (secret (p / R))); lia.
      * destruct (Nat.eqb_spec (S (p mod R)) (secret (p / R))); lia.
    + auto.
    + destruct (Nat.eqb_spec (S (p mod R)) (secret (p / R))); lia.
  - exact ER.
  - symmetry. destruct ro as [leaves c0]. cbn [ro_counter ro_leaves] in *. subst c0. apply wire_same; auto; [apply Hk|].
    intros t Ht. fold T in Ht. fold W W'. rewrite !N.add_0_l. unfold recv_u. apply map_ext_in. intros i Hi. apply in_seq in Hi. fold num in Hi.
    pose proof (lk_leaves _ _ _ _ LK) as LL. cbn [ro_leaves] in LL.
    rewrite !(tot_sum _ k leaves _ i (lf i)); auto; try (apply Hk); try (unfold num in *; lia).
    2, 3: intros x Hx; rewrite LF by (auto; lia); reflexivity.
    unfold tree_sum. rewrite <- !xs_sum.
    rewrite (xs_change (fun x => h (N.lxor (lf i x) (N.of_nat t))) (fun x => crhash (N.lxor (lf i x) (N.of_nat t))) (2 ^ k_limit k i) (secret i)).
    + fold (pt i t). rewrite HH by (auto; lia). unfold d. set (a := nth t W 0%N). set (b := nth t W' 0%N). set (s := xs _ _). set (q := crhash (pt i t)).
      clearbody a b s q. apply N.bits_inj. intros j. rewrite !N.lxor_spec.
      destruct (N.testbit a j), (N.testbit b j), (N.testbit s j), (N.testbit q j); reflexivity.
    + apply SL. lia.
    + intros x Hx D. apply HL; auto. lia.
Qed.
Print Assumptions soft_choices_hidden.

(** ** C73: the check of the sender in malicious mode *)
(** The word that the receiver effectively uses in tree i of batch b: what it sent minus the
    sum of the hashed leaves. *)
Definition used_word crhash k leaves (c0 : N) (us : list (list N)) (b i : nat) : N :=
  N.lxor (nth i (nth b us []) 0%N) (tot crhash k leaves (c0 + N.of_nat b) i).
Definition used_words crhash k leaves c0 us i : list N := map (fun b => used_word crhash k leaves c0 us b i) (seq 0 (length us)).
(** Column c of the matrix of an honest receiver. *)
Definition own_col crhash k leaves (c0 : N) (n c : nat) : list N := map (fun b => wcol crhash k leaves (c0 + N.of_nat b) c) (seq 0 n).

Theorem soft_check_exact crhash tr prg64 k step compact delta so ro n cot msgs seed x ts us :
  1 <= k -> linked k delta so ro -> is_prg64 prg64 ->
  unpack (step_of k step) (pprf_num k) n msgs = Some us ->
  let chi := prg64 seed (length us * 2) in
  soft_send crhash tr prg64 k step true compact so n cot msgs seed (x, ts) <> None <->
  forall c, c < 128 ->
    if compact && (c =? 0) then N.lxor (nth 0 ts 0%N) (if N.testbit delta 0 then x else 0%N) = 0%N
    else N.lxor (nth c ts 0%N) (dot chi (own_col crhash k (ro_leaves ro) (ro_counter ro) (length us) c)) =
         if N.testbit delta (N.of_nat c) then N.lxor (dot chi (used_words crhash k (ro_leaves ro) (ro_counter ro) us (c / k))) x else 0%N.
Proof.
  intros Hk LK HP EU chi. destruct (layout (step_of k step) n (step_of_pos k step)) as (_ & L2 & _).
  set (vs := map (fun b => send_v crhash k compact delta (ro_leaves ro) (ro_counter ro + N.of_nat b) (nth b us [])) (seq 0 (length us))).
  assert (EV : send_gens crhash k compact so (so_counter so) us (fun _ => 0%N) = vs).
  { rewrite (send_gens_spec crhash k compact delta so ro Hk LK us _ _ ltac:(intros p _; reflexivity)). rewrite (lk_counter _ _ _ _ LK). reflexivity. }
  assert (E : soft_send crhash tr prg64 k step true compact so n cot msgs seed (x, ts) <> None <-> send_check prg64 (so_mask so) vs seed (x, ts) = true).
  { unfold soft_send. cbn zeta. rewrite L2, Nat.eqb_refl. cbn [negb]. rewrite EU, EV. cbn [andb].
    destruct (send_check prg64 (so_mask so) vs seed (x, ts)); cbn [negb]; split; congruence. }
  rewrite E. unfold send_check. cbn zeta. cbn [fst snd]. rewrite forallb_forall.
  assert (Lv : length vs = length us) by (unfold vs; rewrite map_length, seq_length; auto). rewrite Lv.
  destruct (HP seed (length us * 2)) as [SL SW]. fold chi in SL, SW. fold chi.
  assert (K : forall c, c < 128 ->
    (N.eqb (N.lxor (nth c ts 0%N) (if nth c (so_mask so) false then x else 0%N)) (check_val chi (col c vs)) = true <->
     if compact && (c =? 0) then N.lxor (nth 0 ts 0%N) (if N.testbit delta 0 then x else 0%N) = 0%N
     else N.lxor (nth c ts 0%N) (dot chi (own_col crhash k (ro_leaves ro) (ro_counter ro) (length us) c)) =
          if N.testbit delta (N.of_nat c) then N.lxor (dot chi (used_words crhash k (ro_leaves ro) (ro_counter ro) us (c / k))) x else 0%N)).
  { intros c Hc. rewrite N.eqb_eq, (lk_mask _ _ _ _ LK) by auto.
    assert (Lc : length (col c vs) = length us) by (unfold col; rewrite map_length; auto).
    rewrite check_val_ip by (auto; lia). rewrite <- dot_ip.
    destruct (compact && (c =? 0)) eqn:CC.
    - apply andb_true_iff in CC as [CP C0]. apply Nat.eqb_eq in C0. subst c.
      assert (Z : col 0 vs = map (fun _ => 0%N) (seq 0 (length us))).
      { unfold col, vs. rewrite map_map. apply map_ext. intros b. unfold send_v. rewrite put0_nth by (rewrite map_length, seq_length; lia). rewrite CP. reflexivity. }
      rewrite Z, dot_zero by (auto; rewrite seq_length; lia). reflexivity.
    - assert (Z : col c vs = xors (own_col crhash k (ro_leaves ro) (ro_counter ro) (length us) c)
               (map (fun b => if N.testbit delta (N.of_nat c) then used_word crhash k (ro_leaves ro) (ro_counter ro) us b (c / k) else 0%N) (seq 0 (length us)))).
      { unfold col, vs, own_col. rewrite map_map, xors_seq. apply map_ext. intros b. unfold send_v.
        rewrite put0_nth by (rewrite map_length, seq_length; lia). rewrite CC, nth_map_seq by auto. reflexivity. }
      rewrite Z, dot_xors by (unfold own_col; rewrite ?map_length, ?seq_length; auto; lia).
      set (A := dot chi (own_col _ _ _ _ _ _)). set (t := nth c ts 0%N).
      destruct (N.testbit delta (N.of_nat c)).
      + fold (used_words crhash k (ro_leaves ro) (ro_counter ro) us (c / k)). set (B := dot chi (used_words _ _ _ _ _ _)). clearbody A B t.
        split; intros H.
        * apply (f_equal (fun z => N.lxor z (N.lxor A x))) in H. revert H.
          replace (N.lxor (N.lxor t x) (N.lxor A x)) with (N.lxor t A) by (apply N.bits_inj; intros j; rewrite !N.lxor_spec; destruct (N.testbit t j), (N.testbit x j), (N.testbit A j); reflexivity).
          intros ->. apply N.bits_inj; intros j; rewrite !N.lxor_spec; destruct (N.testbit B j), (N.testbit x j), (N.testbit A j); reflexivity.
        * apply (f_equal (fun z => N.lxor z (N.lxor A x))) in H. revert H.
          replace (N.lxor (N.lxor t A) (N.lxor A x)) with (N.lxor t x) by (apply N.bits_inj; intros j; rewrite !N.lxor_spec; destruct (N.testbit t j), (N.testbit x j), (N.testbit A j); reflexivity).
          intros ->. apply N.bits_inj; intros j; rewrite !N.lxor_spec; destruct (N.testbit B j), (N.testbit x j), (N.testbit A j); reflexivity.
      + rewrite dot_zero by (auto; rewrite seq_length; lia). rewrite !N.lxor_0_r. clearbody A t. split; intros H; [subst; apply N.lxor_nilpotent|apply N.lxor_eq; auto]. }
  split; intros H c Hc.
  - apply K; auto. apply H. apply in_seq. lia.
  - apply in_seq in Hc. apply K; [lia|]. apply H. lia.
Qed.
Print Assumptions soft_check_exact.

(** A receiver whose words in tree i do not hash to the x it sent passes for at most one value
    of the secret bits of this tree: two secrets that accept the same messages agree there. *)
Theorem soft_check_sound crhash tr prg64 k step compact delta delta' so so' ro n cot msgs seed x ts us :
  1 <= k -> linked k delta so ro -> linked k delta' so' ro -> is_prg64 prg64 ->
  unpack (step_of k step) (pprf_num k) n msgs = Some us ->
  soft_send crhash tr prg64 k step true compact so n cot msgs seed (x, ts) <> None ->
  soft_send crhash tr prg64 k step true compact so' n cot msgs seed (x, ts) <> None ->
  forall i, i < pprf_num k ->
    dot (prg64 seed (length us * 2)) (used_words crhash k (ro_leaves ro) (ro_counter ro) us i) <> x ->
    forall c, c < 128 -> c / k = i -> (compact && (c =? 0)) = false -> N.testbit delta (N.of_nat c) = N.testbit delta' (N.of_nat c).
Proof.
  intros Hk LK LK' HP EU A A' i Hi D c Hc Hci CC.
  rewrite (soft_check_exact crhash tr prg64 k step compact delta so ro n cot msgs seed x ts us Hk LK HP EU) in A.
  rewrite (soft_check_exact crhash tr prg64 k step compact delta' so' ro n cot msgs seed x ts us Hk LK' HP EU) in A'.
  specialize (A c Hc). specialize (A' c Hc). rewrite CC in A, A'. rewrite Hci in A, A'. rewrite A in A'.
  destruct (N.testbit delta (N.of_nat c)), (N.testbit delta' (N.of_nat c)); auto; exfalso; apply D.
  - apply N.lxor_eq in A'. exact A'.
  - symmetry in A'. apply N.lxor_eq in A'. exact A'.
Qed.
Print Assumptions soft_check_sound.

(** Without the malicious mode every message of the right size is accepted. *)
Theorem soft_semi_honest_accepts crhash tr prg64 k step compact so n cot msgs seed c us :
  unpack (step_of k step) (pprf_num k) n msgs = Some us ->
  soft_send crhash tr prg64 k step false compact so n cot msgs seed c <> None.
Proof.
  intros EU. destruct (layout (step_of k step) n (step_of_pos k step)) as (_ & L2 & _).
  unfold soft_send. cbn zeta. rewrite L2, Nat.eqb_refl. cbn [negb]. rewrite EU. cbn [andb]. discriminate.
Qed.

(** ** C73: random OTs are the hashes of the correlated ones *)
Theorem soft_random_mode crhash tr prg64 k step mal compact so ro choices rnd seed so' ro' sent got : 1 <= k ->
  run_call crhash tr prg64 k step mal compact so ro (choices, rnd, true, seed) = Some (so', ro', sent, got) ->
  run_call crhash tr prg64 k step mal compact so ro (choices, rnd, false, seed) =
    Some (so', ro', map (fun p => (crhash (fst p), crhash (snd p))) sent, map crhash got).
Proof.
  intros Hk. unfold run_call. rewrite !(recv_eq crhash tr k step compact ro Hk). unfold soft_send. cbn zeta.
  destruct (negb (all_num _ _ * 128 =? _)); [discriminate|]. destruct (unpack _ _ _ _) as [us|]; [|discriminate].
  destruct (mal && _); [discriminate|]. intros E. injection E as <- <- <- <-. f_equal. f_equal; [f_equal|].
  - rewrite map_map. reflexivity.
  - rewrite map_map. reflexivity.
Qed.
Print Assumptions soft_random_mode.

(** ** Concrete cases *)
Definition toy_hash (x : N) : N := ((x * 2862933555777941757 + 3037000493) mod 2 ^ 128)%N.
Definition toy_e (c : N) (s : N) : N := N.lxor (2 * s + 128 * c)%N s.
Definition toy_seeds (i : nat) : N := (2 ^ 20 * (N.of_nat i + 1))%N.
Definition toy_base : list (N * N) := map (fun i => (N.of_nat i, N.of_nat (i + 1000))) (seq 0 128).
Definition toy_bits : list bool := map (fun i => i mod 3 =? 0) (seq 0 128).
Definition toy_blks : list N := map (fun i => N.of_nat (if i mod 3 =? 0 then i + 1000 else i)) (seq 0 128).
Lemma toy_rots : base_rots toy_base toy_bits toy_blks.
Proof.
  unfold base_rots, toy_base, toy_bits, toy_blks. rewrite !map_length, !seq_length. split; [auto|]. split; [auto|]. split; [auto|].
  intros i Hi. rewrite !nth_map_seq by auto. cbn [fst snd]. destruct (i mod 3 =? 0); reflexivity.
Qed.
Lemma toy_is_hash : is_hash toy_hash.
Proof. intros x. apply N.mod_lt. discriminate. Qed.
Definition toy_calls : list call := [([true; false; true], repeat true 64, true, 7%N); (repeat true 130, [], false, 8%N)].

Example soft_correct_concrete : forall mal compact, exists delta outs,
  run_soft (toy_e 0) (toy_e 1) toy_hash (fun _ => 0%N) toy_hash eklundh_transpose128 toy_prg 8 0 mal compact toy_base toy_bits toy_blks
    toy_seeds (fun _ => 3%N) (fun _ => 4%N) toy_calls = Some (delta, outs) /\ length outs = 2 /\
  chosen [true; false; true] (fst (nth 0 outs ([], []))) (snd (nth 0 outs ([], []))).
Proof.
  intros mal compact. destruct ext_hypotheses as (_ & HP & _).
  destruct (soft_correct (toy_e 0) (toy_e 1) toy_hash (fun _ => 0%N) toy_hash eklundh_transpose128 toy_prg 8 0 mal compact toy_base toy_bits toy_blks
    toy_seeds (fun _ => 3%N) (fun _ => 4%N) toy_calls toy_is_hash HP (or_introl eq_refl) ltac:(lia) toy_rots) as (delta & outs & E & _ & L & H).
  exists delta, outs. split; auto. split; auto. specialize (H 0 ltac:(cbn; lia)). cbn [nth toy_calls] in H.
  destruct (nth 0 outs ([], [])). apply H.
Qed.

(** The spy reads the choices of a compact run. *)
Example soft_spy_concrete : exists ro parts,
  recv_setup (toy_e 0) (toy_e 1) toy_hash (fun _ => 0%N) toy_hash 8 true true toy_base toy_seeds (fun _ => 3%N) = Some (ro, parts) /\
  map (spy (toy_e 0) (toy_e 1) toy_hash 8 true parts [3; 130] (nth 0 (wire toy_hash eklundh_transpose128 8 0 true ro toy_calls) []) 0) [0; 1; 2] = [true; false; true].
Proof.
  destruct (soft_messages (toy_e 0) (toy_e 1) toy_hash (fun _ => 0%N) toy_hash eklundh_transpose128 8 0 true true toy_base toy_seeds (fun _ => 3%N) toy_calls) as (ro & parts & E & _); [lia|reflexivity|].
  exists ro, parts. split; auto.
  assert (K : forall j, j < 3 -> spy (toy_e 0) (toy_e 1) toy_hash 8 true parts [3; 130] (nth 0 (wire toy_hash eklundh_transpose128 8 0 true ro toy_calls) []) 0 j = nth j [true; false; true] false).
  { intros j Hj. exact (soft_compact_choices_hidden_refuted _ _ _ _ _ eklundh_transpose128 8 0 true toy_base toy_seeds (fun _ => 3%N) toy_calls ro parts ltac:(lia) eq_refl E 0 j ltac:(cbn; lia) Hj). }
  cbn [map]. rewrite !K by lia. reflexivity.
Qed.

(** The freshness hypothesis of [soft_choices_hidden] holds for k = 1 and two calls. *)
Lemma low_xor m t : t < 2 -> N.lxor (128 * m) (N.of_nat t) = (128 * m + N.of_nat t)%N.
Proof.
  intros Ht. symmetry. apply N.add_nocarry_lxor. destruct t as [|[|t]]; [apply N.land_0_r| |lia].
  change (N.of_nat 1) with (N.ones 1). rewrite N.land_ones. replace (128 * m)%N with (64 * m * 2 ^ 1)%N by (change (2 ^ 1)%N with 2%N; lia). apply N.mod_mul. discriminate.
Qed.
Lemma toy_leaf i x : i < 128 -> x < 2 -> leaf (toy_e 0) (toy_e 1) (toy_seeds i) 1 x = (128 * (2 ^ 14 * (N.of_nat i + 1) + N.of_nat x))%N.
Proof.
  intros Hi Hx. unfold leaf. cbn [seq map fold_left]. unfold toy_e, toy_seeds.
  assert (E : Nat.testbit x 0 = (x =? 1)) by (destruct x as [|[|x]]; [reflexivity|reflexivity|lia]). rewrite E.
  change (2 ^ 20)%N with 1048576%N. change (2 ^ 14)%N with 16384%N.
  destruct x as [|[|x]]; [| |lia]; cbn [Nat.eqb]; rewrite N.lxor_assoc, N.lxor_nilpotent, N.lxor_0_r; lia.
Qed.
Example soft_hidden_concrete : exists ro parts so,
  recv_setup (toy_e 0) (toy_e 1) toy_hash (fun _ => 0%N) toy_hash 1 false false toy_base toy_seeds (fun _ => 3%N) = Some (ro, parts) /\
  send_setup (toy_e 0) (toy_e 1) toy_hash (fun _ => 0%N) toy_hash 1 false false toy_bits toy_blks (fun _ => 4%N) parts = Some so /\
  exists h, (forall l t, In l (so_compress so) -> t < 2 -> h (N.lxor l (N.of_nat t)) = toy_hash (N.lxor l (N.of_nat t))) /\
    wire h eklundh_transpose128 1 0 false ro [([true], [], true, 0%N); ([false], [], true, 0%N)] =
    wire toy_hash eklundh_transpose128 1 0 false ro [([false], [], true, 0%N); ([true], [], true, 0%N)].
Proof.
  assert (Hk : 1 <= 1 <= 31) by lia.
  destruct (setup_runs (toy_e 0) (toy_e 1) toy_hash (fun _ => 0%N) toy_hash 1 false false toy_base toy_bits toy_blks toy_seeds (fun _ => 3%N) (fun _ => 4%N) Hk toy_rots)
    as (ro & parts & so & E1 & E2 & _).
  exists ro, parts, so. split; auto. split; auto.
  destruct (soft_choices_hidden (toy_e 0) (toy_e 1) toy_hash (fun _ => 0%N) toy_hash eklundh_transpose128 1 0 toy_base toy_bits toy_blks toy_seeds (fun _ => 3%N) (fun _ => 4%N)
    [([false], [], true, 0%N); ([true], [], true, 0%N)] [([true], [], true, 0%N); ([false], [], true, 0%N)] ro parts so Hk toy_rots toy_is_hash E1 E2 eq_refl)
    as (h & _ & _ & H1 & _ & H2).
  - change (pprf_num 1) with 128. change (list_sum (map batches [([false], [], true, 0%N); ([true], [], true, 0%N)])) with 2.
    intros i t i' x t' Hi Ht Hi' Hx Ht'.
    assert (K : forall i, i < 128 -> k_limit 1 i = 1) by (intros j Hj; unfold k_limit; lia). rewrite !K in * by auto. change (2 ^ 1) with 2 in Hx.
    set (s := bits_nat (firstn 1 (skipn (i * 1) toy_bits))).
    assert (Hs : s < 2).
    { unfold s. pose proof (bits_nat_lt (firstn 1 (skipn (i * 1) toy_bits))) as B. rewrite firstn_length, skipn_length in B.
      replace (Nat.min 1 (length toy_bits - i * 1)) with 1 in B by (unfold toy_bits; rewrite map_length, seq_length; lia). exact B. }
    clearbody s. rewrite !toy_leaf, !low_xor by auto. change (2 ^ 14)%N with 16384%N. intros E.
    assert (N.of_nat i = N.of_nat i' /\ N.of_nat x = N.of_nat s /\ N.of_nat t = N.of_nat t') by lia. lia.
  - exists h. auto.
Qed.

(** A check message is rejected and accepted: an honest one passes, an altered x does not. *)
Example soft_check_concrete : forall ro parts so,
  recv_setup (toy_e 0) (toy_e 1) toy_hash (fun _ => 0%N) toy_hash 1 true false toy_base toy_seeds (fun _ => 3%N) = Some (ro, parts) ->
  send_setup (toy_e 0) (toy_e 1) toy_hash (fun _ => 0%N) toy_hash 1 true false toy_bits toy_blks (fun _ => 4%N) parts = Some so ->
  forall choices rnd seed, let '(_, msgs, _, (words, ws)) := soft_recv toy_hash eklundh_transpose128 1 0 false ro choices rnd true in
  let c := recv_check toy_prg words ws seed in
  soft_send toy_hash eklundh_transpose128 toy_prg 1 0 true false so (length choices) true msgs seed c <> None /\
  soft_send toy_hash eklundh_transpose128 toy_prg 1 0 true false so (length choices) true msgs seed (N.lxor (fst c) 1, snd c) = None.
Proof.
  intros ro parts so E1 E2 choices rnd seed.
  assert (Hk : 1 <= 1 <= 31) by lia. destruct ext_hypotheses as (_ & HP & _).
  destruct (setup_runs (toy_e 0) (toy_e 1) toy_hash (fun _ => 0%N) toy_hash 1 true false toy_base toy_bits toy_blks toy_seeds (fun _ => 3%N) (fun _ => 4%N) Hk toy_rots)
    as (ro' & parts' & so' & E1' & E2' & LK & _). rewrite E1 in E1'. injection E1' as <- <-. rewrite E2 in E2'. injection E2' as <-.
  rewrite (recv_eq toy_hash eklundh_transpose128 1 0 false ro (proj1 Hk)).
  set (words := map _ (seq 0 _)). set (us := map (fun b => recv_u _ _ _ _ _) _). set (ws := map (fun b => recv_w _ _ _ _ _ _) _). cbn zeta.
  assert (EU : unpack (step_of 1 0) (pprf_num 1) (length choices) (pack (step_of 1 0) (length choices) us) = Some us).
  { apply unpack_pack; [apply step_of_pos|unfold us; rewrite map_length, seq_length; reflexivity|].
    intros u Hu. unfold us in Hu. apply in_map_iff in Hu as (b & <- & _). unfold recv_u. rewrite map_length, seq_length. reflexivity. }
  assert (A : soft_send toy_hash eklundh_transpose128 toy_prg 1 0 true false so (length choices) true (pack (step_of 1 0) (length choices) us) seed (recv_check toy_prg words ws seed) <> None).
  { pose proof (call_out toy_hash eklundh_transpose128 toy_prg 1 0 true false (bits_word (base_bits false toy_bits)) so ro toy_is_hash HP (or_introl eq_refl) (proj1 Hk)) as K.
    specialize (K (proj1 (secret_ok 1 false toy_base toy_bits toy_blks Hk toy_rots)) ltac:(discriminate) LK choices rnd seed true).
    destruct K as (so2 & ro2 & sent & got & E & _). unfold run_call in E. rewrite (recv_eq toy_hash eklundh_transpose128 1 0 false ro (proj1 Hk)) in E.
    fold words us ws in E. destruct (soft_send toy_hash _ _ _ _ _ _ _ _ _ _ _ _); congruence. }
  split; auto. set (c := recv_check toy_prg words ws seed) in *.
  destruct (soft_send toy_hash eklundh_transpose128 toy_prg 1 0 true false so (length choices) true (pack (step_of 1 0) (length choices) us) seed (N.lxor (fst c) 1, snd c)) eqn:B; auto.
  exfalso. assert (B' : soft_send toy_hash eklundh_transpose128 toy_prg 1 0 true false so (length choices) true (pack (step_of 1 0) (length choices) us) seed (N.lxor (fst c) 1, snd c) <> None) by (rewrite B; discriminate).
  assert (EC : c = (fst c, snd c)) by reflexivity. rewrite EC in A.
  rewrite (soft_check_exact _ _ _ _ _ _ _ _ _ _ _ _ _ _ _ us (proj1 Hk) LK HP EU) in A. rewrite (soft_check_exact _ _ _ _ _ _ _ _ _ _ _ _ _ _ _ us (proj1 Hk) LK HP EU) in B'.
  specialize (A 0 ltac:(lia)). specialize (B' 0 ltac:(lia)). cbn [andb] in A, B'. rewrite A in B'.
  change (N.testbit (bits_word (base_bits false toy_bits)) (N.of_nat 0)) with true in B'. cbn iota in B'.
  apply (f_equal (fun z => N.testbit z 0)) in B'. rewrite !N.lxor_spec in B'.
  change (N.testbit 1 0) with true in B'. revert B'. destruct (N.testbit (fst c) 0), (N.testbit (dot _ _) 0); discriminate.
Qed.

(** ** C73: the loop over single batches stays inside the step + 1 buffers, and all batches
    together hold the n OTs and the 64 of the check (622-636, 643, 718). *)
Theorem soft_batches_fit k step n :
  single_num (step_of k step) n <= step_of k step + 1 /\ n + 64 <= all_num (step_of k step) n * 128 < n + 192.
Proof.
  destruct (layout (step_of k step) n (step_of_pos k step)) as (L1 & _ & _ & _ & L5 & L6). split; auto. split; auto.
  rewrite L1. pose proof (Nat.div_mod (n + 191) 128 ltac:(lia)). lia.
Qed.
Print Assumptions soft_batches_fit.
