(** C114: the security parameter registry and its compile time hash and counter. *)
From Coq Require Import NArith List Bool Arith Lia Btauto.
From Verif Require Import SecParamModel.
Import ListNotations.
Open Scope N_scope.

(** ** What is claimed, without the model's helpers *)
(** CRC-32 as the standard describes it: the byte is added to the low end of the register,
    then eight times the register is shifted right and, if a one fell out, the reversed
    polynomial is added. *)
Definition bit_step (s : N) : N := N.lxor (N.shiftr s 1) (if N.odd s then 0xedb88320 else 0).
Definition steps (n : nat) (s : N) : N := Nat.iter n bit_step s.
Definition crc32_bitwise (l : list N) : N :=
  N.lxor (fold_left (fun s c => steps 8 (N.lxor s c)) l 0xffffffff) 0xffffffff.
Definition is_name (l : list N) : Prop := Forall (fun c => c < 256) l.

(** ** The CRC *)
Lemma bit_step_xor a b : bit_step (N.lxor a b) = N.lxor (bit_step a) (bit_step b).
Proof.
  unfold bit_step. rewrite <- !N.bit0_odd, N.lxor_spec, N.shiftr_lxor.
  destruct (N.testbit a 0), (N.testbit b 0); cbn [xorb]; apply N.bits_inj; intros i; rewrite ?N.lxor_spec, ?N.bits_0; btauto.
Qed.
Lemma steps_xor n a b : steps n (N.lxor a b) = N.lxor (steps n a) (steps n b).
Proof. unfold steps. induction n as [|n IH]; cbn [Nat.iter nat_rect]; auto. unfold Nat.iter in *. cbn. rewrite IH. apply bit_step_xor. Qed.
Lemma bit_step_even a : bit_step (2 * a) = a.
Proof. unfold bit_step. rewrite N.odd_mul. cbn [N.odd andb]. rewrite N.lxor_0_r, <- N.div2_spec, N.div2_double. auto. Qed.
Lemma iter_S {A} (f : A -> A) n x : Nat.iter (S n) f x = Nat.iter n f (f x).
Proof. unfold Nat.iter. induction n as [|n IH]; cbn [nat_rect] in *; congruence. Qed.
Lemma steps_shift n a : steps n (a * 2 ^ N.of_nat n) = a.
Proof.
  unfold steps. induction n as [|n IH]; [cbn [N.of_nat]; rewrite N.pow_0_r, N.mul_1_r; auto|].
  rewrite iter_S. rewrite Nnat.Nat2N.inj_succ, N.pow_succ_r'.
  replace (a * (2 * 2 ^ N.of_nat n)) with (2 * (a * 2 ^ N.of_nat n)) by lia. rewrite bit_step_even. auto.
Qed.
Lemma steps_add m n s : steps (m + n) s = steps m (steps n s).
Proof. unfold steps. induction m as [|m IH]; [auto|]. cbn [Nat.add]. change (bit_step (Nat.iter (m + n) bit_step s) = bit_step (Nat.iter m bit_step (Nat.iter n bit_step s))). rewrite IH. auto. Qed.
Lemma table_ok : forall i, i < 256 -> nth (N.to_nat i) crc32_table 0 = steps 8 i.
Proof.
  assert (T : forallb (fun i => nth i crc32_table 0 =? steps 8 (N.of_nat i)) (seq 0 256) = true) by (vm_compute; reflexivity).
  rewrite forallb_forall in T. intros i Hi. specialize (T (N.to_nat i)). rewrite Nnat.N2Nat.id, N.eqb_eq in T. apply T. apply in_seq. lia.
Qed.
Lemma split_low s : s = N.lxor (N.shiftr s 8 * 2 ^ 8) (N.land s 255).
Proof.
  rewrite <- N.shiftl_mul_pow2. change 255 with (N.ones 8). apply N.bits_inj. intros i. rewrite N.lxor_spec, N.land_spec.
  destruct (N.lt_ge_cases i 8) as [H|H].
  - rewrite N.shiftl_spec_low, N.ones_spec_low by auto. rewrite andb_true_r, xorb_false_l. auto.
  - rewrite N.shiftl_spec_high', N.ones_spec_high by auto. rewrite N.shiftr_spec', andb_false_r, xorb_false_r. f_equal. lia.
Qed.
Lemma crc_step_bits st c : c < 256 -> crc_step st c = steps 8 (N.lxor st c).
Proof.
  intros Hc. unfold crc_step. rewrite (split_low (N.lxor st c)) at 2. rewrite steps_xor, (steps_shift 8).
  rewrite table_ok.
  - f_equal. rewrite N.shiftr_lxor. replace (N.shiftr c 8) with 0; [rewrite N.lxor_0_r; auto|].
    symmetry. rewrite N.shiftr_div_pow2. apply N.div_small. auto.
  - change 255 with (N.ones 8). rewrite N.land_ones. apply N.mod_lt. discriminate.
Qed.
(** CT_CRC32 is CRC-32, for every string. *)
Theorem ct_crc32_correct l : is_name l -> ct_crc32 l = crc32_bitwise l.
Proof.
  intros H. unfold ct_crc32, crc32, crc32_bitwise. f_equal. generalize 0xffffffff. induction H as [|c l Hc H IH]; intros st; cbn [fold_left]; auto.
  rewrite crc_step_bits by auto. apply IH.
Qed.
Print Assumptions ct_crc32_correct.
(** The check value of the standard: "123456789". *)
Example ct_crc32_check : ct_crc32 [49; 50; 51; 52; 53; 54; 55; 56; 57] = 0xcbf43926 /\ ct_crc32 [] = 0.
Proof. split; vm_compute; reflexivity. Qed.

(** *** Collisions *)
Definition w32 (s : N) : Prop := s < 2 ^ 32.
Lemma w32_bits s : w32 s <-> forall i, 32 <= i -> N.testbit s i = false.
Proof.
  unfold w32. split.
  - intros H i Hi. destruct (N.eq_dec s 0) as [-> |]; [apply N.bits_0|]. apply N.bits_above_log2.
    apply N.lt_le_trans with 32; auto. apply N.log2_lt_pow2; lia.
  - intros H. destruct (N.eq_dec s 0) as [-> |Hn]; [lia|]. apply N.log2_lt_pow2; [lia|].
    destruct (N.lt_ge_cases (N.log2 s) 32) as [|G]; auto. specialize (H _ G). rewrite N.bit_log2 in H by auto. discriminate.
Qed.
Lemma bit_step_w32 s : w32 s -> w32 (bit_step s).
Proof.
  rewrite !w32_bits. intros H i Hi. unfold bit_step. rewrite N.lxor_spec, N.shiftr_spec', H by lia. rewrite xorb_false_l.
  destruct (N.odd s); [|apply N.bits_0]. apply (proj1 (w32_bits 0xedb88320)); auto. unfold w32. lia.
Qed.
Lemma bit_step_inj a b : w32 a -> w32 b -> bit_step a = bit_step b -> a = b.
Proof.
  intros Ha Hb E. rewrite w32_bits in Ha, Hb.
  assert (O : forall s, (forall i, 32 <= i -> N.testbit s i = false) -> N.testbit (bit_step s) 31 = N.odd s).
  { intros s H. unfold bit_step. rewrite N.lxor_spec, N.shiftr_spec', H by lia. destruct (N.odd s); reflexivity. }
  assert (Oo : N.odd a = N.odd b) by (rewrite <- (O a), <- (O b), E; auto).
  unfold bit_step in E. rewrite Oo in E.
  assert (Es : N.shiftr a 1 = N.shiftr b 1).
  { set (p := if N.odd b then _ else _) in E. apply (f_equal (fun z => N.lxor z p)) in E. rewrite !N.lxor_assoc, N.lxor_nilpotent, !N.lxor_0_r in E. auto. }
  rewrite (N.div2_odd a), (N.div2_odd b), Oo, !N.div2_spec, Es. auto.
Qed.
Lemma steps_w32 n s : w32 s -> w32 (steps n s).
Proof. intros H. induction n as [|n IH]; auto. apply bit_step_w32. exact IH. Qed.
Lemma steps_inj n a b : w32 a -> w32 b -> steps n a = steps n b -> a = b.
Proof.
  intros Ha Hb. induction n as [|n IH]; auto. intros E. apply IH. apply bit_step_inj; [apply steps_w32; auto|apply steps_w32; auto|exact E].
Qed.
Lemma xor_w32 a b : w32 a -> w32 b -> w32 (N.lxor a b).
Proof. rewrite !w32_bits. intros Ha Hb i Hi. rewrite N.lxor_spec, Ha, Hb; auto. Qed.
Lemma byte_w32 c : c < 256 -> w32 c.
Proof. unfold w32. lia. Qed.
Lemma xor_cancel_r a b p : N.lxor a p = N.lxor b p -> a = b.
Proof. intros E. apply (f_equal (fun z => N.lxor z p)) in E. rewrite !N.lxor_assoc, N.lxor_nilpotent, !N.lxor_0_r in E. auto. Qed.
Definition run (l : list N) (s : N) : N := fold_left crc_step l s.
Lemma run_w32 l s : is_name l -> w32 s -> w32 (run l s).
Proof.
  intros H. revert s. induction H as [|c l Hc H IH]; intros s Hs; auto. apply IH. rewrite crc_step_bits by auto.
  apply steps_w32, xor_w32; auto. apply byte_w32; auto.
Qed.
Lemma run_inj l a b : is_name l -> w32 a -> w32 b -> run l a = run l b -> a = b.
Proof.
  intros H. revert a b. induction H as [|c l Hc H IH]; intros a b Ha Hb E; auto.
  assert (W : forall s, w32 s -> w32 (steps 8 (N.lxor s c))) by (intros s Hs; apply steps_w32, xor_w32; auto; apply byte_w32; auto).
  unfold run in *. cbn [fold_left] in E. rewrite !crc_step_bits in E by auto. apply IH in E; auto.
  apply steps_inj in E; [|apply xor_w32; auto; apply byte_w32; auto|apply xor_w32; auto; apply byte_w32; auto].
  apply xor_cancel_r in E. auto.
Qed.
(** The bytes of a window as one little-endian word. *)
Fixpoint word (l : list N) : N := match l with [] => 0 | c :: l' => N.lxor c (word l' * 2 ^ 8) end.
Lemma run_word l s : is_name l -> run l s = steps (8 * length l) (N.lxor s (word l)).
Proof.
  intros H. revert s. induction H as [|c l Hc H IH]; intros s; unfold run in *; cbn [fold_left length word]; [rewrite N.lxor_0_r; auto|].
  rewrite IH, crc_step_bits by auto. replace (8 * S (length l))%nat with (8 * length l + 8)%nat by lia. rewrite steps_add. f_equal.
  rewrite <- N.lxor_assoc, (steps_xor 8 (N.lxor s c)), (steps_shift 8). auto.
Qed.
Lemma add_xor c w : c < 256 -> N.lxor c (w * 2 ^ 8) = c + w * 2 ^ 8.
Proof.
  intros H. symmetry. apply N.add_nocarry_lxor. rewrite <- N.shiftl_mul_pow2. apply N.bits_inj. intros i. rewrite N.land_spec, N.bits_0.
  destruct (N.lt_ge_cases i 8) as [L|L]; [rewrite N.shiftl_spec_low by auto; apply andb_false_r|].
  replace (N.testbit c i) with false; auto. symmetry. destruct (N.eq_dec c 0) as [-> |]; [apply N.bits_0|].
  apply N.bits_above_log2. apply N.lt_le_trans with 8; auto. apply N.log2_lt_pow2; lia.
Qed.
Lemma word_inj a b : is_name a -> is_name b -> length a = length b -> word a = word b -> a = b.
Proof.
  intros H. revert b. induction H as [|c l Hc H IH]; intros [|d b] Hb L E; try discriminate; auto.
  inversion Hb; subst. cbn [word] in E. rewrite !add_xor in E by auto. injection L as L.
  assert (c = d /\ word l = word b) as [-> E2] by (change (2 ^ 8) with 256 in E; split; lia). f_equal. auto.
Qed.
Lemma word_bound l : is_name l -> word l < 2 ^ (8 * N.of_nat (length l)).
Proof.
  intros H. induction H as [|c l Hc H IH]; [cbn; lia|]. cbn [word length]. rewrite add_xor by auto.
  replace (8 * N.of_nat (S (length l))) with (8 + 8 * N.of_nat (length l)) by lia. rewrite N.pow_add_r. change (2 ^ 8) with 256. lia.
Qed.
Lemma run_window a b s : is_name a -> is_name b -> length a = length b -> (length a <= 4)%nat -> w32 s -> run a s = run b s -> a = b.
Proof.
  intros Ha Hb L L4 Hs E. rewrite (run_word a), (run_word b), L in E by auto.
  assert (W : forall l, is_name l -> (length l <= 4)%nat -> w32 (word l)).
  { intros l Hl L5. unfold w32. apply N.lt_le_trans with (2 ^ (8 * N.of_nat (length l))); [apply word_bound; auto|]. apply N.pow_le_mono_r; lia. }
  apply steps_inj in E; [|apply xor_w32; auto|apply xor_w32; auto; apply W; auto; lia].
  rewrite (N.lxor_comm s), (N.lxor_comm s) in E. apply xor_cancel_r in E. apply word_inj; auto.
Qed.
(** Two names of the same length that differ only within four consecutive characters have
    different hashes: such modules never clash. *)
Theorem ct_crc32_window p a b q : is_name p -> is_name a -> is_name b -> is_name q ->
  length a = length b -> (length a <= 4)%nat -> a <> b -> ct_crc32 (p ++ a ++ q) <> ct_crc32 (p ++ b ++ q).
Proof.
  intros Hp Ha Hb Hq L L4 Hab E. apply Hab. unfold ct_crc32 in E. apply xor_cancel_r in E. unfold crc32 in E. rewrite !fold_left_app in E.
  fold (run p 0xffffffff) in E. set (s := run p 0xffffffff) in E.
  assert (Hs : w32 s) by (apply run_w32; auto; unfold w32; lia).
  apply (run_inj q) in E; auto; [|apply run_w32; auto|apply run_w32; auto]. apply (run_window a b s); auto.
Qed.
Print Assumptions ct_crc32_window.
Example ct_crc32_window_case : ct_crc32 [105; 107; 110; 112; 95; 111; 116; 101] <> ct_crc32 [107; 107; 114; 116; 95; 111; 116; 101].
Proof.
  apply (ct_crc32_window [] [105; 107; 110; 112] [107; 107; 114; 116] [95; 111; 116; 101]); try (repeat constructor; lia); cbn; try lia. discriminate.
Qed.
(** It is not injective on all names of the same length. *)
Theorem ct_crc32_injective_refuted : exists a b, is_name a /\ is_name b /\ length a = length b /\ a <> b /\ ct_crc32 a = ct_crc32 b.
Proof.
  exists [103; 105; 98; 122; 113; 95; 120; 106], [112; 106; 121; 107; 102; 101; 118; 102].
  split; [repeat constructor; lia|]. split; [repeat constructor; lia|]. split; [auto|]. split; [discriminate|]. vm_compute. reflexivity.
Qed.

(** ** The counter *)
Fixpoint after (n : nat) : option crumbs :=
  match n with O => Some [] | S n' => match after n' with Some cs => counter_inc cs | None => None end end.
Lemma after_S n : after (S n) = match after n with Some cs => counter_inc cs | None => None end.
Proof. reflexivity. Qed.
Fixpoint chk (n : nat) (k : N) (cs : crumbs) : bool :=
  (counter_read cs =? k) &&
  match n with O => true | S n' => match counter_inc cs with Some cs' => chk n' (k + 1) cs' | None => false end end.
Lemma chk_ok : forall n m cs, after m = Some cs -> chk n (N.of_nat m) cs = true ->
  forall j, (j <= n)%nat -> exists cs', after (m + j) = Some cs' /\ counter_read cs' = N.of_nat (m + j).
Proof.
  induction n as [|n IH]; intros m cs A C j Hj; cbn [chk] in C; apply andb_true_iff in C as [C1 C2]; apply N.eqb_eq in C1.
  - assert (j = O) by lia. subst. rewrite Nat.add_0_r. eauto.
  - destruct j as [|j]; [rewrite Nat.add_0_r; eauto|].
    destruct (counter_inc cs) as [cs'|] eqn:E; [|discriminate].
    rewrite <- Nat.add_succ_comm. apply (IH (S m) cs'); [cbn [after]; rewrite A; auto| |lia].
    rewrite Nnat.Nat2N.inj_succ, <- N.add_1_r. auto.
Qed.
Lemma chk_255 : chk 255 0 [] = true.
Proof. vm_compute. reflexivity. Qed.
Definition after_is (n : nat) (f : crumbs -> bool) : bool := match after n with Some cs => f cs | None => false end.
Lemma after_256 : after_is 256 (fun cs => (counter_read cs =? 255) && match counter_inc cs with None => true | Some _ => false end) = true.
Proof. vm_compute. reflexivity. Qed.
(** The counter is exact up to 255 increments; the 256th is not seen by readers, and no
    further one compiles. *)
Theorem counter_correct n :
  ((n <= 255)%nat -> exists cs, after n = Some cs /\ counter_read cs = N.of_nat n) /\
  (n = 256%nat -> exists cs, after n = Some cs /\ counter_read cs = 255) /\
  ((257 <= n)%nat -> after n = None).
Proof.
  pose proof after_256 as H. unfold after_is in H. destruct (after 256) as [cs|] eqn:E; [|discriminate].
  apply andb_true_iff in H as [H1 H2]. apply N.eqb_eq in H1. destruct (counter_inc cs) eqn:I; [discriminate|]. split; [|split].
  - intros Hn. destruct (chk_ok 255 0 [] eq_refl chk_255 n Hn) as (cs' & A & B). exists cs'. auto.
  - intros ->. exists cs. auto.
  - intros Hn. replace n with (n - 257 + 257)%nat by lia. induction (n - 257)%nat as [|m IH].
    + cbn [Nat.add]. rewrite (after_S 256), E. exact I.
    + cbn [Nat.add]. rewrite after_S, IH. auto.
Qed.
Print Assumptions counter_correct.
Lemma after_read n cs : after n = Some cs -> (n <= 256)%nat /\ counter_read cs = N.of_nat (Nat.min n 255).
Proof.
  intros A. destruct (counter_correct n) as (H1 & H2 & H3).
  destruct (Nat.le_gt_cases n 255) as [L|L]; [destruct (H1 L) as (c & B & D)|].
  - assert (c = cs) by congruence. subst. rewrite Nat.min_l by auto. split; [lia|auto].
  - destruct (Nat.eq_dec n 256) as [E|E]; [|rewrite H3 in A by lia; discriminate].
    destruct (H2 E) as (c & B & D). assert (c = cs) by congruence. subst. split; [lia|auto].
Qed.

(** ** Declarations *)
Definition decl := (list N * (N * N))%type.
Definition hash_of (d : decl) : N := ct_crc32 (fst d).
Definition hashes (ds : list decl) : list N := map hash_of ds.
Record good (ds : list decl) (u : unit_state) : Prop := {
  g_ctr : after (length ds) = Some (ctr u);
  g_reg : forall i, (i < length ds)%nat -> lookup (registry u) (N.of_nat i) = Some (nth i (hashes ds) 0);
  g_reg2 : forall k, (length ds <= N.to_nat k)%nat -> lookup (registry u) k = None;
  g_mod : forall d, In d ds -> lookup (modules u) (hash_of d) = Some (snd d);
  g_mod2 : forall h, ~ In h (hashes ds) -> lookup (modules u) h = None;
  g_nodup : NoDup (hashes ds)
}.
Lemma good_empty : good [] empty_unit.
Proof. constructor; cbn; auto; try lia; try tauto. constructor. Qed.
Lemma nodup_snoc {A} (l : list A) x : NoDup (l ++ [x]) <-> NoDup l /\ ~ In x l.
Proof.
  split.
  - intros H. apply NoDup_remove in H. rewrite app_nil_r in H. auto.
  - intros [H1 H2]. apply NoDup_rev in H1. rewrite <- (rev_involutive (l ++ [x])). apply NoDup_rev. rewrite rev_app_distr. cbn [rev app].
    constructor; auto. rewrite <- in_rev. auto.
Qed.
Lemma declare_good ds u name c s : good ds u ->
  match declare u name c s with
  | Some u' => good (ds ++ [(name, (c, s))]) u' /\ ~ In (ct_crc32 name) (hashes ds) /\ (length ds < 256)%nat
  | None => In (ct_crc32 name) (hashes ds) \/ (256 <= length ds)%nat
  end.
Proof.
  intros [G1 G2 G3 G4 G5 G6]. unfold declare. destruct (lookup (modules u) (ct_crc32 name)) as [p|] eqn:M.
  - left. destruct (in_dec N.eq_dec (ct_crc32 name) (hashes ds)) as [|H]; auto. rewrite (G5 _ H) in M. discriminate.
  - assert (Hn : ~ In (ct_crc32 name) (hashes ds)).
    { intros H. apply in_map_iff in H as (d & E & Hd). rewrite <- E in M. fold (hash_of d) in M. rewrite (G4 d Hd) in M. discriminate. }
    destruct (after_read _ _ G1) as [L R]. rewrite R.
    destruct (lookup (registry u) (N.of_nat (Nat.min (length ds) 255))) as [h|] eqn:Q.
    + right. destruct (Nat.le_gt_cases 256 (length ds)) as [|K]; auto. rewrite Nat.min_l in Q by lia. rewrite G3 in Q by lia. discriminate.
    + assert (Ln : (length ds <= 255)%nat).
      { destruct (Nat.le_gt_cases (length ds) 255) as [|K]; auto. rewrite Nat.min_r, G2 in Q by lia. discriminate. }
      rewrite Nat.min_l in * by auto.
      destruct (counter_correct (S (length ds))) as (C1 & C2 & _).
      assert (exists cs, after (S (length ds)) = Some cs) as [cs Hcs].
      { destruct (Nat.eq_dec (length ds) 255) as [E|E]; [destruct C2 as (cs & ? & _); [lia|eauto]|destruct C1 as (cs & ? & _); [lia|eauto]]. }
      cbn [after] in Hcs. rewrite G1 in Hcs. rewrite Hcs. split; [|split; [auto|lia]].
      constructor; cbn [ctr registry modules].
      * rewrite app_length, Nat.add_1_r. cbn [after]. rewrite G1. exact Hcs.
      * intros i Hi. rewrite app_length in Hi. cbn [length] in Hi. cbn [lookup]. unfold hashes in *. rewrite map_app. cbn [map].
        destruct (N.eqb_spec (N.of_nat (length ds)) (N.of_nat i)) as [Ei|Ei].
        -- assert (i = length ds) by lia. subst. rewrite app_nth2 by (rewrite map_length; lia). rewrite map_length, Nat.sub_diag. reflexivity.
        -- rewrite app_nth1 by (rewrite map_length; lia). apply G2. lia.
      * intros k Hk. rewrite app_length in Hk. cbn [length] in Hk. cbn [lookup].
        destruct (N.eqb_spec (N.of_nat (length ds)) k) as [Ek|Ek]; [lia|]. apply G3. lia.
      * intros d Hd. cbn [lookup]. apply in_app_or in Hd as [Hd|[<-|[]]].
        -- destruct (N.eqb_spec (ct_crc32 name) (hash_of d)) as [Eh|Eh]; [|auto]. exfalso. apply Hn. rewrite Eh. apply in_map. auto.
        -- unfold hash_of. cbn [fst snd]. rewrite N.eqb_refl. auto.
      * intros h Hh. unfold hashes in Hh. rewrite map_app, in_app_iff in Hh. cbn [map In] in Hh. cbn [lookup].
        destruct (N.eqb_spec (ct_crc32 name) h) as [Eh|Eh]; [exfalso; apply Hh; right; left; auto|]. apply G5. tauto.
      * unfold hashes. rewrite map_app. apply nodup_snoc. auto.
Qed.
Lemma declare_all_good es : forall ds u, good ds u ->
  match declare_all u es with
  | Some u' => good (ds ++ es) u' /\ (length es <> 0 -> length (ds ++ es) <= 256)%nat
  | None => ~ (NoDup (hashes (ds ++ es)) /\ (length (ds ++ es) <= 256)%nat)
  end.
Proof.
  induction es as [|[name [c s]] es IH]; intros ds u G; cbn [declare_all].
  - rewrite app_nil_r. split; auto. cbn [length]. lia.
  - pose proof (declare_good ds u name c s G) as D. destruct (declare u name c s) as [u'|].
    + destruct D as (G' & Hn & L). specialize (IH _ _ G'). rewrite <- app_assoc in IH. cbn [app] in IH.
      destruct (declare_all u' es) as [v|]; auto. destruct IH as [A B]. split; auto. intros _.
      destruct es as [|e es]; [rewrite app_length; cbn [length]; lia|]. apply B. discriminate.
    + intros [Nd Ln]. rewrite app_length in Ln. cbn [length] in Ln. destruct D as [D|D]; [|lia].
      unfold hashes in Nd, D. rewrite map_app in Nd. cbn [map] in Nd. apply NoDup_remove_2 in Nd. apply Nd. apply in_or_app. left. exact D.
Qed.

(** ** C114: modules *)
(** A translation unit compiles exactly when the hashes of its module names are distinct
    and there are at most 256 modules. *)
Theorem declarations_compile_iff ds :
  declare_all empty_unit ds <> None <-> NoDup (map (fun d => ct_crc32 (fst d)) ds) /\ (length ds <= 256)%nat.
Proof.
  pose proof (declare_all_good ds [] _ good_empty) as H. cbn [app] in H. destruct (declare_all empty_unit ds) as [u|].
  - destruct H as [G L]. split; [|discriminate]. intros _. split; [exact (g_nodup _ _ G)|].
    destruct ds as [|d ds]; [cbn; lia|]. apply L. discriminate.
  - split; [congruence|]. intros K. exfalso. apply H. exact K.
Qed.
Print Assumptions declarations_compile_iff.

(** A module's parameter is what it declared; a name with an undeclared hash is UNKNOWN. *)
Theorem module_secparam_correct ds u name : declare_all empty_unit ds = Some u ->
  (forall lv, In (name, lv) ds -> module_secparam u name = lv) /\
  (~ In (ct_crc32 name) (map (fun d => ct_crc32 (fst d)) ds) -> module_secparam u name = (0, 0)).
Proof.
  intros E. pose proof (declare_all_good ds [] _ good_empty) as H. cbn [app] in H. rewrite E in H. destruct H as [G _].
  unfold module_secparam, module_level. split.
  - intros lv Hin. pose proof (g_mod _ _ G _ Hin) as M. unfold hash_of in M. cbn [fst snd] in M. rewrite M. auto.
  - intros Hn. rewrite (g_mod2 _ _ G _ Hn). auto.
Qed.
Print Assumptions module_secparam_correct.

(** ** C114: the global parameter *)
Lemma glob_fold ds u g : good ds u -> get_glob u g = fold_left fold_module (map snd (firstn 255 ds)) g.
Proof.
  intros G. unfold get_glob. destruct (after_read _ _ (g_ctr _ _ G)) as [L R]. rewrite R, Nnat.Nat2N.id.
  assert (E : map (fun i => module_level u (registry_hash u (N.of_nat i))) (seq 0 (Nat.min (length ds) 255)) = map snd (firstn 255 ds)).
  { apply nth_ext with (d := (0, 0)) (d' := (0, 0)).
    - rewrite !map_length, seq_length, firstn_length. lia.
    - rewrite map_length, seq_length. intros i Hi.
      set (f := fun i => module_level u (registry_hash u (N.of_nat i))).
      rewrite (nth_indep _ (0, 0) (f 0%nat)) by (rewrite map_length, seq_length; auto). rewrite (map_nth f), seq_nth by auto. cbn [Nat.add].
      unfold f, registry_hash. rewrite (g_reg _ _ G) by lia.
      rewrite (nth_indep _ 0 (hash_of ([], (0, 0)))) by (unfold hashes; rewrite map_length; lia). unfold hashes. rewrite map_nth.
      unfold module_level. rewrite (g_mod _ _ G) by (apply nth_In; lia).
      change (0, 0) with (snd (([], (0, 0)) : decl)) at 2. rewrite map_nth. f_equal.
      rewrite <- (firstn_skipn 255 ds) at 1. rewrite app_nth1; auto. rewrite firstn_length. lia. }
  rewrite <- E. clear. generalize (seq 0 (Nat.min (length ds) 255)). intros l. revert g.
  induction l as [|i l IH]; intros g; cbn [fold_left map]; auto.
Qed.
Lemma fold_min ms : forall g a b,
  (a <= fst (fold_left fold_module ms g) <-> a <= fst g /\ Forall (fun m => a <= fst m) ms) /\
  (b <= snd (fold_left fold_module ms g) <-> b <= snd g /\ Forall (fun m => b <= snd m) ms).
Proof.
  induction ms as [|m ms IH]; intros g a b; cbn [fold_left].
  - split; split; intros H; try tauto; split; auto.
  - destruct (IH (fold_module g m) a b) as [-> ->]. rewrite !Forall_cons_iff. unfold fold_module. cbn [fst snd].
    destruct (N.ltb_spec (fst m) (fst g)), (N.ltb_spec (snd m) (snd g)); intuition lia.
Qed.
(** Values the two globals can have while the modules [ds] are declared and the macros are
    used in between, in any order and any number of times. *)
Inductive reachable (ds : list decl) : N * N -> Prop :=
| r_start : reachable ds glob_init
| r_call p u g : (exists q, ds = p ++ q) -> declare_all empty_unit p = Some u -> reachable ds g -> reachable ds (get_glob u g).
Lemma reachable_bounds ds g : reachable ds g ->
  (fst g <= 5 /\ snd g <= 4) /\
  (forall a, a <= 5 -> Forall (fun d : decl => a <= fst (snd d)) ds -> a <= fst g) /\
  (forall b, b <= 4 -> Forall (fun d : decl => b <= snd (snd d)) ds -> b <= snd g).
Proof.
  intros R. induction R as [|p u g [q ->] D R ([I1 I2] & I3 & I4)].
  - unfold glob_init, C_INF, S_INF. cbn [fst snd]. split; [split; lia|]. split; auto.
  - pose proof (declare_all_good p [] _ good_empty) as G. cbn [app] in G. rewrite D in G. destruct G as [G _].
    rewrite (glob_fold p u g G). set (ms := map snd (firstn 255 p)). set (g' := fold_left fold_module ms g).
    assert (Hd : forall (P : N * N -> Prop), Forall (fun d : decl => P (snd d)) (p ++ q) -> Forall P ms).
    { intros P F. apply Forall_app in F as [F _]. unfold ms. apply Forall_map. rewrite <- (firstn_skipn 255 p) in F. apply Forall_app in F as [F _]. exact F. }
    split; [|split].
    + destruct (fold_min ms g (fst g') (snd g')) as [K1 K2]. pose proof (proj1 K1 (N.le_refl _)). pose proof (proj1 K2 (N.le_refl _)). lia.
    + intros a Ha F. apply (proj1 (fold_min ms g a 0)). split; [apply I3; auto|apply (Hd (fun m => a <= fst m)); auto].
    + intros b Hb F. apply (proj2 (fold_min ms g 0 b)). split; [apply I4; auto|apply (Hd (fun m => b <= snd m)); auto].
Qed.
(** YACL_GLOB_SECPARAM is the weakest declared level, whatever uses came before. *)
Theorem glob_is_weakest ds u g a b : declare_all empty_unit ds = Some u -> (length ds <= 255)%nat -> reachable ds g ->
  a <= 5 -> b <= 4 ->
  (a <= fst (get_glob u g) <-> Forall (fun d : decl => a <= fst (snd d)) ds) /\
  (b <= snd (get_glob u g) <-> Forall (fun d : decl => b <= snd (snd d)) ds).
Proof.
  intros D L R Ha Hb. pose proof (declare_all_good ds [] _ good_empty) as G. cbn [app] in G. rewrite D in G. destruct G as [G _].
  rewrite (glob_fold ds u g G), firstn_all2 by auto. destruct (reachable_bounds ds g R) as (_ & B1 & B2).
  destruct (fold_min (map snd ds) g a b) as [-> ->]. rewrite !Forall_map. split; split; intros H; try tauto; split; auto.
Qed.
Print Assumptions glob_is_weakest.
(** YACL_ENFORCE_SECPARAM passes exactly when every declared module meets both levels. *)
Theorem enforce_iff ds u g c s : declare_all empty_unit ds = Some u -> (length ds <= 255)%nat -> reachable ds g ->
  c <= 5 -> s <= 4 ->
  fst (enforce u c s g) = true <-> Forall (fun d : decl => c <= fst (snd d) /\ s <= snd (snd d)) ds.
Proof.
  intros D L R Hc Hs. unfold enforce.
  assert (R1 : reachable ds (get_glob u g)) by (apply (r_call ds ds); auto; exists []; rewrite app_nil_r; auto).
  destruct (glob_is_weakest ds u g c s D L R Hc Hs) as [A _].
  destruct (glob_is_weakest ds u (get_glob u g) c s D L R1 Hc Hs) as [_ B].
  destruct (N.leb_spec c (fst (get_glob u g))) as [X|X].
  - destruct (N.leb_spec s (snd (get_glob u (get_glob u g)))) as [Y|Y]; cbn [fst]; split; intros H; auto; try discriminate.
    + apply A in X. apply B in Y. rewrite Forall_forall in *. auto.
    + exfalso. apply (proj1 (N.lt_nge _ _) Y). apply B. rewrite Forall_forall in *. intros d Hd. apply H. auto.
  - cbn [fst]. split; [discriminate|]. intros H. exfalso. apply (proj1 (N.lt_nge _ _) X). apply A. rewrite Forall_forall in *. intros d Hd. apply H. auto.
Qed.
Print Assumptions enforce_iff.
(** The order of the enumerators is the order of the numbers they stand for. *)
Theorem make_int_monotone a b : (a < b <= 5 -> make_int_c a < make_int_c b) /\ (a < b <= 4 -> make_int_s a < make_int_s b).
Proof.
  split; intros H.
  - assert (b = 1 \/ b = 2 \/ b = 3 \/ b = 4 \/ b = 5) as Hb by lia. assert (a = 0 \/ a = 1 \/ a = 2 \/ a = 3 \/ a = 4) as Ha by lia.
    destruct Ha as [-> |[-> |[-> |[-> | ->]]]], Hb as [-> |[-> |[-> |[-> | ->]]]]; try (exfalso; lia); vm_compute; reflexivity.
  - assert (b = 1 \/ b = 2 \/ b = 3 \/ b = 4) as Hb by lia. assert (a = 0 \/ a = 1 \/ a = 2 \/ a = 3) as Ha by lia.
    destruct Ha as [-> |[-> |[-> | ->]]], Hb as [-> |[-> |[-> | ->]]]; try (exfalso; lia); vm_compute; reflexivity.
Qed.
Print Assumptions make_int_monotone.

(** ** Witnesses *)
Definition one_byte (i : nat) : decl := ([N.of_nat i], (2, 2)).
Definition many : list decl := map one_byte (seq 0 255) ++ [([255], (0, 0))].
Lemma one_byte_hash a b : a < 256 -> b < 256 -> ct_crc32 [a] = ct_crc32 [b] -> a = b.
Proof.
  intros Ha Hb E. destruct (N.eq_dec a b) as [|Hn]; auto. exfalso.
  assert (Hs : forall x, x < 256 -> is_name [x]) by (intros x Hx; constructor; [exact Hx|constructor]).
  apply (ct_crc32_window [] [a] [b] [] (Forall_nil _) (Hs a Ha) (Hs b Hb) (Forall_nil _) eq_refl); [cbn [length]; lia|congruence|exact E].
Qed.
Lemma nodup_inj_map {A B} (f : A -> B) (P : A -> Prop) l : NoDup l -> Forall P l -> (forall x y, P x -> P y -> f x = f y -> x = y) -> NoDup (map f l).
Proof.
  intros Nd F I. induction Nd as [|x l Hx Nd IH]; cbn [map]; [constructor|]. inversion F; subst. constructor; auto.
  intros H. apply in_map_iff in H as (y & E & Hy). rewrite Forall_forall in *. apply Hx. rewrite (I x y); auto.
Qed.
(** With 256 modules the weakest one is overlooked: all declared names have distinct
    hashes, the program compiles, and the requirement <128, 40> is enforced although the
    last module declares UNKNOWN. *)
Theorem enforce_256_refuted : exists ds u, declare_all empty_unit ds = Some u /\ length ds = 256%nat /\
  In ([255], (0, 0)) ds /\ fst (enforce u 2 2 glob_init) = true.
Proof.
  assert (E : map (fun d : decl => fst d) many = map (fun i => [N.of_nat i]) (seq 0 256)).
  { unfold many. change 256%nat with (255 + 1)%nat. rewrite seq_app, !map_app, map_map. reflexivity. }
  assert (W : declare_all empty_unit many <> None).
  { apply declarations_compile_iff. split; [|unfold many; rewrite app_length, map_length, seq_length; cbn; lia].
    rewrite <- (map_map (fun d : decl => fst d) ct_crc32), E, map_map. apply (nodup_inj_map _ (fun i => (i < 256)%nat)); [apply seq_NoDup| |].
    - apply Forall_forall. intros i Hi. apply in_seq in Hi. lia.
    - intros x y Hx Hy H. apply one_byte_hash in H; lia. }
  destruct (declare_all empty_unit many) as [u|] eqn:D; [|congruence]. exists many, u. split; auto.
  split; [unfold many; rewrite app_length, map_length, seq_length; reflexivity|]. split; [apply in_or_app; right; left; auto|].
  pose proof (declare_all_good many [] _ good_empty) as G. cbn [app] in G. rewrite D in G. destruct G as [G _].
  assert (F : forall g, g = glob_init \/ g = (2, 2) -> get_glob u g = (2, 2)).
  { intros g Hg. rewrite (glob_fold many u g G). unfold many. rewrite firstn_app, map_length, seq_length, Nat.sub_diag, firstn_O, app_nil_r.
    rewrite firstn_all2 by (rewrite map_length, seq_length; auto). rewrite map_map. cbn [snd one_byte].
    replace (map (fun _ : nat => (2, 2)) (seq 0 255)) with ((2, 2) :: repeat (2, 2) 254) by reflexivity.
    cbn [fold_left]. replace (fold_module g (2, 2)) with (2, 2) by (destruct Hg as [-> | ->]; reflexivity).
    generalize 254%nat. intros n. clear. induction n as [|n IH]; cbn [repeat fold_left]; auto. }
  unfold enforce. rewrite (F glob_init) by auto. cbn [fst snd]. rewrite (F (2, 2)) by auto. reflexivity.
Qed.
(** Three modules, of which the registry keeps the weakest levels. *)
Example registry_case :
  match declare_all empty_unit [([97; 98], (3, 2)); ([97; 99], (2, 4)); ([98], (5, 1))] with
  | Some u => get_glob u glob_init = (2, 1) /\ fst (enforce u 2 1 glob_init) = true /\ fst (enforce u 3 1 glob_init) = false /\
              fst (enforce u 2 2 glob_init) = false /\ module_secparam u [97; 99] = (2, 4) /\ module_secparam u [99] = (0, 0)
  | None => False
  end.
Proof. vm_compute. repeat split; reflexivity. Qed.
Example duplicate_case : declare_all empty_unit [([97; 98], (3, 2)); ([97; 98], (3, 2))] = None.
Proof. vm_compute. reflexivity. Qed.
