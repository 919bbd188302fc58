(** Property C39: multi-point FSS, multi-point VOLE and the base VOLE from correlated OTs. *)
From Coq Require Import List NArith Bool Arith Lia.
From Verif Require Import GfModel GfProof GfProps SpcotModel SpcotProof SpcotProps MpfssModel MpfssProof.
Import ListNotations.
Open Scope nat_scope.

(** ** Specification *)
(** A commutative group on the words of n bits; its zero is the word zero. *)
Definition is_group (n : N) (add sub : N -> N -> N) : Prop :=
  (forall a b, word n a -> word n b -> word n (add a b)) /\
  (forall a b, word n a -> word n b -> add a b = add b a) /\
  (forall a b c, word n a -> word n b -> word n c -> add a (add b c) = add (add a b) c) /\
  (forall a, word n a -> add 0%N a = a) /\
  (forall a b, word n a -> word n b -> word n (sub a b)) /\
  (forall a b, word n a -> word n b -> add (sub a b) b = a).
Definition kbits (wide : bool) : N := if wide then 128%N else 64%N.
(** [sz] positions in [nn] blocks of sz / nn, the last one takes the remainder: one index in each. *)
Definition block_size (nn sz i : nat) : nat := if i =? nn - 1 then sz - (nn - 1) * (sz / nn) else sz / nn.
Definition point (nn sz : nat) (indexes : list nat) (i : nat) : nat := i * (sz / nn) + nth i indexes 0.
Definition in_range (nn sz : nat) (indexes : list nat) : Prop :=
  nn <= length indexes /\ forall i, i < nn -> nth i indexes 0 < block_size nn sz i.
(** The sender's and the receiver's vectors differ by w_i at point i and agree elsewhere. *)
Definition multi_point (add : N -> N -> N) (nn sz : nat) (indexes : list nat) (w s r : list N) : Prop :=
  forall k, k < sz ->
    (forall i, i < nn -> k = point nn sz indexes i -> nth k s 0%N = add (nth k r 0%N) (nth i w 0%N)) /\
    ((forall i, i < nn -> k <> point nn sz indexes i) -> nth k s 0%N = nth k r 0%N).
(** The first [sz] entries are words. *)
Definition entries (n : N) (sz : nat) (l : list N) : Prop := forall k, k < sz -> word n (nth k l 0%N).
(** [n] correlated OTs. *)
Definition cot_store (n : nat) (delta : N) (base : list (N * N)) (bits : list bool) (blks : list N) : Prop :=
  n <= length base /\ n <= length bits /\ n <= length blks /\ (delta < 2 ^ 128)%N /\
  forall i, i < n -> snd (nth i base (0, 0)%N) = N.lxor (fst (nth i base (0, 0)%N)) delta /\
                     nth i blks 0%N = if nth i bits false then snd (nth i base (0, 0)%N) else fst (nth i base (0, 0)%N).
(** The number a list of bits spells, lowest first. *)
Definition index_of (bits : list bool) : nat := fold_right (fun (b : bool) x => (if b then 1 else 0) + 2 * x) 0 bits.

(** ** Helpers *)
Lemma size_block p i : size p i = block_size (noise p) (mp p) i.
Proof. reflexivity. Qed.
Lemma point_pos p idx i : point (noise p) (mp p) idx i = i * sp p + nth i idx 0.
Proof. reflexivity. Qed.
Lemma index_of_bits l : bits_nat l = index_of l.
Proof. induction l as [|b l IH]; [reflexivity|]. cbn [bits_nat index_of fold_right]. rewrite IH. reflexivity. Qed.
Lemma ktrunc_word wide (crh : N -> N) x : (forall y, (crh y < 2 ^ 128)%N) -> (ktrunc wide (crh x) < 2 ^ kbits wide)%N.
Proof.
  intros H. destruct wide; cbn [ktrunc kbits]; auto. rewrite N.land_ones. apply N.mod_lt. apply N.pow_nonzero. lia.
Qed.
Lemma points_distinct p idx : good p -> (forall i, i < noise p -> nth i idx 0 < size p i) ->
  forall i j, i < noise p -> j < noise p -> i * sp p + nth i idx 0 = j * sp p + nth j idx 0 -> i = j.
Proof.
  intros G R i j Hi Hj E. pose proof (R i Hi). pose proof (R j Hj). destruct (Nat.lt_trichotomy i j) as [L|[L|L]]; auto.
  - pose proof (block_disjoint p i j L Hj). lia.
  - pose proof (block_disjoint p j i L Hi). lia.
Qed.
Lemma points_end p idx : good p -> (forall i, i < noise p -> nth i idx 0 < size p i) ->
  forall i, i < noise p -> i * sp p + nth i idx 0 < mp p.
Proof. intros G R i Hi. pose proof (R i Hi). pose proof (block_end p G i Hi). lia. Qed.

(** From trees that agree but at the index. *)
Lemma outputs_correct crh add sub_op wide p os rs idx w outs outr : good p -> is_group (kbits wide) add sub_op -> (forall x, (crh x < 2 ^ 128)%N) ->
  (forall i, i < noise p -> nth i idx 0 < size p i) ->
  (forall i, i < noise p -> size p i <= length (nth i os []) /\ size p i <= length (nth i rs [])) ->
  (forall i j, i < noise p -> j < size p i -> j <> nth i idx 0 -> nth j (nth i os []) 0%N = nth j (nth i rs []) 0%N) ->
  (forall i, i < noise p -> (nth i w 0 < 2 ^ kbits wide)%N) -> mp p <= length outs -> mp p <= length outr ->
  let '(s, r) := outputs crh add sub_op wide p os rs idx w outs outr in
  multi_point add (noise p) (mp p) idx w s r /\ entries (kbits wide) (mp p) s /\ untouched (mp p) outs s /\ untouched (mp p) outr r.
Proof.
  intros G (A1 & A2 & A3 & A4 & A5 & A6) Hc Hr Hl He Hw Ls Lr. unfold outputs.
  set (o := fun i => nth i os []). set (r := fun i => nth i rs []).
  destruct (fill_spec p G crh wide o outs ltac:(intros; apply Hl; auto) Ls) as (So & Sv & St).
  destruct (fill_spec p G crh wide r outr ltac:(intros; apply Hl; auto) Lr) as (Ro & Rv & Rt).
  set (S0 := fill crh wide p o outs) in *. set (R0 := fill crh wide p r outr) in *. cbn zeta in *.
  pose proof (update_points (fun i => i * sp p + nth i idx 0)
    (fun i x => add x (sub_op (sent_msg crh add sub_op wide p w o i) (recv_sum crh add wide p r i))) (noise p) R0) as U.
  destruct U as (U1 & U2 & U3).
  { intros i Hi. pose proof (points_end p idx G Hr i Hi). lia. }
  { apply points_distinct; auto. }
  fold (adjust add sub_op p idx (sent_msg crh add sub_op wide p w o) (recv_sum crh add wide p r) R0) in U1, U2, U3.
  set (R1 := adjust add sub_op p idx (sent_msg crh add sub_op wide p w o) (recv_sum crh add wide p r) R0) in *.
  split; [|split; [|split]].
  - intros k Hk. split.
    + intros i Hi E. rewrite point_pos in E. subst k. pose proof (Hr i Hi) as Ri.
      rewrite (U2 i Hi), (Sv i _ Hi Ri), (Rv i _ Hi Ri).
      destruct (Hl i Hi) as [Lo Lq].
      assert (LL : forall q, size p i <= length (q i) -> length (leaves crh wide p (q i) i) = size p i).
      { intros q Hq. unfold leaves. rewrite map_length, firstn_length. lia. }
      assert (NL : forall q j, size p i <= length (q i) -> j < size p i -> nth j (leaves crh wide p (q i) i) 0%N = ktrunc wide (crh (nth j (q i) 0%N))).
      { intros q j Hq Hj. unfold leaves. rewrite (nth_map_d _ _ _ 0%N) by (rewrite firstn_length; lia). rewrite nth_firstn_d by auto. auto. }
      assert (FL : forall q, Forall (fun a => (a < 2 ^ kbits wide)%N) (leaves crh wide p (q i) i)).
      { intros q. unfold leaves. apply Forall_forall. intros x Hx. apply in_map_iff in Hx as (y & <- & _). apply ktrunc_word. auto. }
      rewrite <- (NL o), <- (NL r) by auto. unfold sent_msg, recv_sum.
      apply (correction (kbits wide) add sub_op A1 A2 A3 A4 A5 A6); auto.
      * rewrite (LL o), (LL r); auto.
      * rewrite (LL o); auto.
      * intros j Hj. destruct (Nat.lt_ge_cases j (size p i)) as [Hs|Hs].
        -- rewrite (NL o), (NL r) by auto. do 2 f_equal. apply He; auto.
        -- rewrite !nth_overflow; auto; [rewrite (LL r)|rewrite (LL o)]; auto.
    + intros Hne. rewrite (U3 k) by (intros i Hi; specialize (Hne i Hi); rewrite point_pos in Hne; auto).
      destruct (block_of p G k Hk) as (i & j & Hi & Hj & ->).
      rewrite (Sv i j Hi Hj), (Rv i j Hi Hj). do 2 f_equal. apply He; auto. intros ->. apply (Hne i Hi). rewrite point_pos. auto.
  - intros k Hk. destruct (block_of p G k Hk) as (i & j & Hi & Hj & ->). rewrite (Sv i j Hi Hj). apply ktrunc_word. auto.
  - split; auto.
  - split; [rewrite U1; auto|]. intros k Hk. rewrite U3; auto. intros i Hi. pose proof (points_end p idx G Hr i Hi). lia.
Qed.

Lemma slice_cots p delta base bits blks i : good p -> cot_store (require_ot p) delta base bits blks -> i < noise p ->
  cots (len p i) delta (ot_slice p base i) (ot_slice p bits i) (ot_slice p blks i).
Proof.
  intros G (B1 & B2 & B3 & B4 & B5) Hi. pose proof (len_end p i Hi) as E. unfold ot_slice.
  split; [apply length_sub; lia|]. split; [rewrite length_sub; lia|]. split; [apply length_sub; lia|]. split; auto.
  intros j Hj. rewrite !nth_sub by auto. apply B5. lia.
Qed.
Lemma small_size p i : good p -> (N.of_nat (mp p) <= 2 ^ 31)%N -> i < noise p -> (N.of_nat (size p i) <= 2 ^ 31)%N.
Proof. intros G H Hi. pose proof (block_end p G i Hi). lia. Qed.

(** ** MPFSS *)
(** The parameters are accepted exactly when there is a block and blocks have two elements. *)
Theorem mpfss_param nn sz m : (exists p, make_param nn sz m = Some p) <-> 0 < nn /\ 2 * nn <= sz.
Proof.
  unfold make_param, sp. cbn [noise mp]. destruct (Nat.eqb_spec nn 0) as [->|Z]; cbn [orb].
  - split; [intros [p Hp]; discriminate|lia].
  - destruct (Nat.leb_spec (sz / nn) 1) as [L|L].
    + split; [intros [p Hp]; discriminate|]. intros [_ H]. exfalso.
      assert (2 <= sz / nn) by (apply Nat.div_le_lower_bound; lia). lia.
    + split; [intros _; split; [lia|]|intros _; eexists; reflexivity].
      assert (nn * (sz / nn) <= sz) by (apply Nat.mul_div_le; auto). nia.
Qed.
(** The sender's MpfssSend with the receiver's MpfssRecv, 128-bit ([wide]) or 64-bit. *)
Theorem mpfss_correct h crh add sub_op wide nn sz m p delta base bits blks indexes seeds sp1 sp2 w outs outr :
  make_param nn sz m = Some p -> is_group (kbits wide) add sub_op -> (forall x, word 128 (crh x)) ->
  (N.of_nat sz <= 2 ^ 31)%N -> in_range nn sz indexes -> cot_store (require_ot p) delta base bits blks ->
  (forall i, i < nn -> block_size nn sz i <= length (sp1 i) /\ block_size nn sz i <= length (sp2 i)) ->
  nn <= length w -> (forall i, i < nn -> word (kbits wide) (nth i w 0%N)) -> sz <= length outs -> sz <= length outr ->
  exists s r, mpfss h crh add sub_op wide p delta base bits blks indexes seeds sp1 sp2 w outs outr = Some (s, r) /\
    multi_point add nn sz indexes w s r /\ entries (kbits wide) sz s /\ untouched sz outs s /\ untouched sz outr r.
Proof.
  intros Hp. apply make_param_good in Hp as (G & <- & <- & <-). intros Gr Hc Hsz [Hi1 Hi2] Hcot Hsp Lw Hw Ls Lr.
  unfold mpfss, entry_ok. destruct Hcot as (B1 & B2 & B3 & B4 & B5) eqn:Ec. pose proof Hcot as Hcot'. clear Ec.
  rewrite !(proj2 (Nat.leb_le _ _)) by auto. cbn [andb negb orb]. rewrite (proj2 (Nat.ltb_ge _ _)) by auto.
  set (f := fun i => run_gywz h delta (ot_slice p base i) (ot_slice p bits i) (ot_slice p blks i) (tree_size wide p false i) (nth i indexes 0) (seeds i) (sp1 i) (sp2 i)).
  set (g := fun i => match f i with Some x => x | None => ([], []) end).
  assert (K : forall i, i < noise p -> f i = Some (g i) /\ single_point (size p i) (nth i indexes 0) delta (fst (g i)) (snd (g i)) /\
            length (fst (g i)) = length (sp1 i) /\ length (snd (g i)) = length (sp2 i)).
  { intros i Hi. pose proof (slice_cots p delta base bits blks i G Hcot' Hi) as C. destruct (Hsp i Hi) as [Q1 Q2].
    destruct (gywz_correct h delta (ot_slice p base i) (ot_slice p bits i) (ot_slice p blks i) (size p i) (nth i indexes 0) (seeds i) (sp1 i) (sp2 i)) as (o & r & E & P & U1 & U2).
    - split; [apply size_gt1; auto|]. split; [apply small_size; auto|]. auto.
    - apply Hi2. auto.
    - exact C.
    - assert (E' : f i = Some (o, r)) by exact E. unfold g. rewrite E'. cbn [fst snd]. split; auto. split; auto. split; [apply U1|apply U2]. }
  unfold run_blocks. fold f.
  rewrite (all_some_map f g) by (intros i Hi; apply in_seq in Hi; apply K; lia).
  pose proof (outputs_correct crh add sub_op wide p (map fst (map g (seq 0 (noise p)))) (map snd (map g (seq 0 (noise p)))) indexes w outs outr G Gr Hc Hi2) as O.
  rewrite !map_map in O |- *.
  assert (N1 : forall i, i < noise p -> nth i (map (fun x => fst (g x)) (seq 0 (noise p))) [] = fst (g i)) by (intros i Hi; exact (nth_map_seq (fun x => fst (g x)) (noise p) i [] Hi)).
  assert (N2 : forall i, i < noise p -> nth i (map (fun x => snd (g x)) (seq 0 (noise p))) [] = snd (g i)) by (intros i Hi; exact (nth_map_seq (fun x => snd (g x)) (noise p) i [] Hi)).
  destruct (outputs crh add sub_op wide p _ _ indexes w outs outr) as [s r].
  exists s, r. split; auto. apply O; auto.
  - intros i Hi. rewrite N1, N2 by auto. destruct (K i Hi) as (_ & _ & L1 & L2). rewrite L1, L2. apply Hsp. auto.
  - intros i j Hi Hj Hne. rewrite N1, N2 by auto. destruct (K i Hi) as (_ & P & _). rewrite (P j Hj).
    destruct (Nat.eqb_spec j (nth i indexes 0)); [contradiction|auto].
Qed.
Print Assumptions mpfss_correct.

(** ** Fixed index *)
Section Buffers.
Variable p : param.
Hypothesis G : good p.
Lemma super_num_eq : super_num p = S ((noise p - 1) / 16).
Proof. unfold super_num, super. destruct (Nat.eqb_spec (noise p) 0) as [E|E]; auto. destruct G. lia. Qed.
Lemma super_of i : i < noise p -> i / 16 < super_num p /\ i mod 16 < length (super_blocks p (i / 16)) /\ i = 16 * (i / 16) + i mod 16.
Proof.
  intros Hi. rewrite super_num_eq. unfold super_blocks, super. rewrite seq_length.
  assert (M : i mod 16 < 16) by (apply Nat.mod_upper_bound; lia). pose proof (Nat.div_mod i 16 ltac:(lia)) as D.
  split; [apply Nat.lt_succ_r, Nat.div_le_mono; lia|]. split; [|exact D]. apply Nat.min_glb_lt; lia.
Qed.
Lemma super_inner s : S s < super_num p -> Nat.min 16 (noise p - s * 16) = 16 /\ 16 * S s < noise p.
Proof.
  rewrite super_num_eq. intros H. pose proof (Nat.div_mod (noise p - 1) 16 ltac:(lia)) as D. destruct G. lia.
Qed.
Lemma super_end : noise p = 16 * (super_num p - 1) + Nat.min 16 (noise p - (super_num p - 1) * 16) /\
  0 < Nat.min 16 (noise p - (super_num p - 1) * 16).
Proof.
  rewrite super_num_eq. pose proof (Nat.div_mod (noise p - 1) 16 ltac:(lia)) as D.
  pose proof (Nat.mod_upper_bound (noise p - 1) 16 ltac:(lia)). destruct G. lia.
Qed.
Lemma msg_length_sum s : s < super_num p -> msg_length p s = list_sum (map (len p) (super_blocks p s)).
Proof.
  intros H. unfold msg_length, super_blocks, super. rewrite seq_length. destruct (Nat.eqb_spec s (super_num p - 1)) as [E|E].
  - pose proof super_end as [E1 E2]. rewrite <- E in E1, E2. set (m := Nat.min 16 (noise p - s * 16)) in *.
    replace m with (S (m - 1)) at 2 by lia. rewrite seq_S, map_app, list_sum_app, (list_sum_const _ (batch_len p)).
    + cbn [map list_sum fold_right]. replace (s * 16 + (m - 1)) with (noise p - 1) by lia. rewrite len_last. lia.
    + intros i Hi. apply len_inner. lia.
  - destruct (super_inner s ltac:(lia)) as [M L]. rewrite M. rewrite (list_sum_const _ (batch_len p)); auto.
    intros i Hi. apply len_inner. lia.
Qed.
Variable wide : bool.
Variable msgs : nat -> list N.
Hypothesis Lm : forall i, i < noise p -> length (msgs i) = len p i.
Lemma length_msgs a m : a + m <= noise p -> length (concat (map msgs (seq a m))) = list_sum (map (len p) (seq a m)).
Proof.
  intros H. rewrite length_concat_map. f_equal. apply map_ext_in. intros i Hi. apply in_seq in Hi. apply Lm. lia.
Qed.
Lemma super_le s : s < super_num p -> s * 16 + Nat.min 16 (noise p - s * 16) <= noise p.
Proof.
  intros H. destruct (Nat.eq_dec s (super_num p - 1)) as [->|]; [pose proof super_end; lia|]. destruct (super_inner s); lia.
Qed.
Lemma buffers_fine : buffers_ok wide p (send_buffers wide p msgs) = true.
Proof.
  unfold buffers_ok, send_buffers. destruct wide.
  - apply Nat.eqb_eq. rewrite length_msgs by lia. apply len_sum. auto.
  - rewrite map_length, seq_length, Nat.eqb_refl. cbn [andb]. apply forallb_forall. intros s Hs. apply in_seq in Hs.
    apply Nat.eqb_eq. rewrite (nth_map_seq (fun s => concat (map msgs (super_blocks p s))) (super_num p) s []) by lia.
    rewrite msg_length_sum by lia. unfold super_blocks, super. apply length_msgs. apply super_le. lia.
Qed.
Lemma recv_span_msgs i : i < noise p -> recv_span wide p (send_buffers wide p msgs) i = msgs i.
Proof.
  intros Hi. destruct (super_of i Hi) as (H1 & H2 & H3). unfold recv_span, send_buffers, super.
  set (s := i / 16) in *. set (k := i mod 16) in *.
  assert (Ei : i = s * 16 + k) by lia.
  assert (Inner : forall j, j < k -> length (msgs (s * 16 + j)) = batch_len p) by (intros j Hj; rewrite Lm by lia; apply len_inner; lia).
  destruct wide.
  - cbn [nth]. rewrite (list_sum_const _ (16 * batch_len p)).
    + rewrite sub_sub.
      * replace (s * (16 * batch_len p) + k * batch_len p) with (i * batch_len p) by (rewrite Ei; lia).
        rewrite <- (Lm i Hi). apply (concat_sub msgs (batch_len p) i 0 (noise p) Hi).
        intros j Hj. cbn [Nat.add]. rewrite Lm by lia. apply len_inner. lia.
      * rewrite msg_length_sum by auto. unfold super_blocks, super in *. rewrite seq_length in H2.
        set (m := Nat.min 16 (noise p - s * 16)) in *. replace m with (k + S (m - S k)) by lia.
        rewrite seq_app, map_app, list_sum_app. rewrite (list_sum_const _ (batch_len p)) by (intros; apply len_inner; lia).
        cbn [seq map list_sum fold_right]. rewrite Ei at 1. lia.
    + intros j Hj. unfold msg_length, super. destruct (Nat.eqb_spec j (super_num p - 1)); lia.
  - rewrite (nth_map_seq (fun s => concat (map msgs (super_blocks p s))) (super_num p) s []) by auto.
    rewrite <- (Lm i Hi), Ei. unfold super_blocks, super in *. rewrite seq_length in H2. apply concat_sub; auto.
Qed.
End Buffers.

Lemma log2ceil_pow k : log2ceil (2 ^ k) = k.
Proof. unfold log2ceil. apply Nat.log2_up_pow2. lia. Qed.
Lemma tree_size_facts wide p i : good p -> log2ceil (tree_size wide p true i) = len p i /\ size p i <= tree_size wide p true i /\ 1 < tree_size wide p true i.
Proof.
  intros G. pose proof (size_gt1 p G i) as H. unfold tree_size. destruct wide; cbn [negb andb]; [auto|].
  rewrite log2ceil_pow. unfold len. destruct (log2ceil_spec (size p i) H). lia.
Qed.

(** MpfssSend_fixed_index with MpfssRecv_fixed_index: the indexes are those the choice bits of
    the OTs spell, and replace the parameter's. *)
Theorem mpfss_fixed_correct h crh add sub_op wide nn sz m p delta base bits blks indexes seeds sp1 sp2 w outs outr :
  make_param nn sz m = Some p -> is_group (kbits wide) add sub_op -> (forall x, word 128 (crh x)) ->
  (N.of_nat sz <= 2 ^ 31)%N -> cot_store (require_ot p) delta base bits blks -> nn <= length indexes ->
  let bl := Nat.log2_up (sz / nn) in
  let idx := map (fun i => index_of (firstn (Nat.log2_up (block_size nn sz i)) (skipn (i * bl) bits))) (seq 0 nn) in
  in_range nn sz idx ->
  (forall i, i < nn -> let t := if wide then block_size nn sz i else 2 ^ Nat.log2_up (block_size nn sz i) in t <= length (sp1 i) /\ t <= length (sp2 i)) ->
  nn <= length w -> (forall i, i < nn -> word (kbits wide) (nth i w 0%N)) -> sz <= length outs -> sz <= length outr ->
  exists s r, mpfss_fixed h crh add sub_op wide p delta base bits blks indexes seeds sp1 sp2 w outs outr = Some (s, r, idx ++ skipn nn indexes) /\
    multi_point add nn sz idx w s r /\ entries (kbits wide) sz s /\ untouched sz outs s /\ untouched sz outr r.
Proof.
  intros Hp. apply make_param_good in Hp as (G & <- & <- & <-). intros Gr Hc Hsz Hcot Hl. cbn zeta. intros [_ Hi2] Hsp Lw Hw Ls Lr.
  set (idx := map _ (seq 0 (noise p))) in *. unfold mpfss_fixed, entry_ok. pose proof Hcot as (B1 & B2 & B3 & B4 & B5).
  rewrite !(proj2 (Nat.leb_le _ _)) by auto. cbn [andb negb orb]. rewrite (proj2 (Nat.ltb_ge _ _)) by auto.
  assert (Li : length idx = noise p) by (unfold idx; rewrite map_length, seq_length; auto).
  assert (Ni : forall i, i < noise p -> nth i idx 0 = real_index p bits i).
  { intros i Hi. unfold idx. rewrite (nth_map_seq (fun i => index_of (firstn (Nat.log2_up (block_size (noise p) (mp p) i)) (skipn (i * Nat.log2_up (mp p / noise p)) bits))) (noise p) i 0 Hi).
    exact (eq_sym (index_of_bits _)). }
  assert (Ei : map (real_index p bits) (seq 0 (noise p)) = idx).
  { unfold idx. apply map_ext. intros i. exact (index_of_bits _). }
  set (f := fixed_send h wide p delta base seeds sp1). set (g := fun i => match f i with Some x => x | None => ([], []) end).
  set (r := fun i => punc_eval h all_ones (real_index p bits i)
    (map (fun j => N.lxor (nth j (snd (g i)) 0%N) (nth j (ot_slice p blks i) 0%N)) (seq 0 (len p i))) (tree_size wide p true i) (sp2 i)).
  assert (K : forall i, i < noise p -> f i = Some (g i) /\ length (snd (g i)) = len p i /\
            single_point (tree_size wide p true i) (nth i idx 0) delta (fst (g i)) (r i) /\
            length (fst (g i)) = length (sp1 i) /\ length (r i) = length (sp2 i)).
  { intros i Hi. pose proof (slice_cots p delta base bits blks i G Hcot Hi) as C. destruct (Hsp i Hi) as [Q1 Q2].
    destruct (tree_size_facts wide p i G) as (T1 & T2 & T3).
    assert (S31 : (N.of_nat (tree_size wide p true i) <= 2 ^ 31)%N).
    { pose proof (small_size p i G Hsz Hi) as S0. unfold tree_size. destruct wide; cbn [negb andb]; auto.
      rewrite Nat2N.inj_pow. apply N.pow_le_mono_r; [lia|]. unfold len, log2ceil.
      assert (Nat.log2_up (size p i) <= 31); [|lia]. apply Nat.log2_up_le_pow2; [pose proof (size_gt1 p G i); lia|].
      apply Nat.le_trans with (N.to_nat (N.of_nat (size p i))); [lia|]. apply Nat.le_trans with (N.to_nat (2 ^ 31)); [lia|].
      rewrite N2Nat.inj_pow. apply Nat.eq_le_incl. reflexivity. }
    rewrite <- T1 in C.
    destruct (gywz_fixed_correct h delta (ot_slice p base i) (ot_slice p bits i) (ot_slice p blks i) (tree_size wide p true i) (seeds i) (sp1 i) (sp2 i)) as (o & q & E & P & U1 & U2).
    - split; auto. split; auto. split; [eapply Nat.le_trans; [|exact Q1]|eapply Nat.le_trans; [|exact Q2]]; unfold tree_size, len; destruct wide; cbn [andb negb]; apply Nat.le_refl.
    - exact C.
    - unfold run_gywz_fixed in E. destruct C as (C1 & C2 & C3 & _).
      rewrite C1, C3, Nat.eqb_refl, (proj2 (Nat.leb_gt _ _)) in E by auto. cbn [negb orb] in E.
      assert (Ef : f i = Some (o, map (fun j => N.lxor (nth j (snd (full_eval h all_ones delta (seeds i) (tree_size wide p true i) (sp1 i))) 0%N)
                 (SpcotModel.send_block (ot_slice p base i) j true)) (seq 0 (log2ceil (tree_size wide p true i)))) /\
               q = r i).
      { unfold f, fixed_send, r, g, f, fixed_send. rewrite C1, Nat.eqb_refl, (proj2 (Nat.leb_gt _ _)) by auto. cbn [negb orb].
        destruct (full_eval h all_ones delta (seeds i) (tree_size wide p true i) (sp1 i)) as [o' sums]. cbn [snd].
        assert (o' = o) by congruence. subst o'. split; auto.
        apply (f_equal (fun x => match x with Some (_, y) => y | None => [] end)) in E. subst q.
        unfold real_index. rewrite firstn_all2 by (unfold ot_slice, sub; rewrite firstn_length; lia). rewrite T1. reflexivity. }
      destruct Ef as [Ef Eq]. unfold g. rewrite Ef. cbn [fst snd]. split; auto. split; [rewrite map_length, seq_length; auto|].
      split; [|split; [apply U1|rewrite <- Eq; apply U2]].
      rewrite <- Eq. rewrite firstn_all2 in P by (unfold ot_slice, sub; rewrite firstn_length; lia). rewrite Ni by auto. exact P. }
  rewrite (all_some_map f g) by (intros i Hi; apply in_seq in Hi; apply K; lia).
  cbn zeta. set (sent := map g (seq 0 (noise p))).
  assert (Ns : forall i, i < noise p -> nth i sent ([], []) = g i) by (intros i Hi; exact (nth_map_seq g (noise p) i ([], []) Hi)).
  assert (Lm : forall i, i < noise p -> length (snd (nth i sent ([], []))) = len p i) by (intros i Hi; rewrite Ns by auto; apply K; auto).
  rewrite (buffers_fine p G wide _ Lm). cbn [negb].
  rewrite (all_some_map _ r).
  2:{ intros i Hi. apply in_seq in Hi. rewrite (recv_span_msgs p G wide _ Lm) by lia. rewrite Ns by lia. unfold fixed_recv.
      destruct (tree_size_facts wide p i G) as (T1 & T2 & T3). pose proof (slice_cots p delta base bits blks i G Hcot ltac:(lia)) as (C1 & C2 & C3 & _).
      rewrite T1, C3, Nat.eqb_refl, (proj2 (Nat.leb_gt _ _)), (proj2 (Nat.ltb_ge _ _)) by (auto; destruct (K i ltac:(lia)) as (_ & Lg & _); lia).
      reflexivity. }
  rewrite Ei.
  assert (Na : forall i, i < noise p -> nth i (idx ++ skipn (noise p) indexes) 0 = nth i idx 0) by (intros i Hi; apply app_nth1; lia).
  assert (Ra : forall i, i < noise p -> nth i (idx ++ skipn (noise p) indexes) 0 < size p i) by (intros i Hi; rewrite Na by auto; apply Hi2; auto).
  assert (Fb : forallb (fun i => i * sp p + nth i (idx ++ skipn (noise p) indexes) 0 <? length outr) (seq 0 (noise p)) = true).
  { apply forallb_forall. intros i Hi. apply in_seq in Hi. apply Nat.ltb_lt. pose proof (points_end p _ G Ra i ltac:(lia)). lia. }
  rewrite Fb.
  pose proof (outputs_correct crh add sub_op wide p (map fst sent) (map r (seq 0 (noise p))) (idx ++ skipn (noise p) indexes) w outs outr G Gr Hc Ra) as O.
  assert (N1 : forall i, i < noise p -> nth i (map fst sent) [] = fst (g i)).
  { intros i Hi. unfold sent. rewrite map_map. exact (nth_map_seq (fun x => fst (g x)) (noise p) i [] Hi). }
  assert (N2 : forall i, i < noise p -> nth i (map r (seq 0 (noise p))) [] = r i) by (intros i Hi; exact (nth_map_seq r (noise p) i [] Hi)).
  destruct (outputs crh add sub_op wide p (map fst sent) (map r (seq 0 (noise p))) (idx ++ skipn (noise p) indexes) w outs outr) as [s q].
  exists s, q. split; auto. destruct O as (O1 & O4 & O2 & O3); auto.
  - intros i Hi. rewrite N1, N2 by auto. destruct (K i Hi) as (_ & _ & _ & L1 & L2). rewrite L1, L2. destruct (Hsp i Hi) as [Q1 Q2].
    destruct (tree_size_facts wide p i G) as (T1 & T2 & T3). unfold tree_size, len in T2.
    split; [eapply Nat.le_trans; [exact T2|]; eapply Nat.le_trans; [|exact Q1]|eapply Nat.le_trans; [exact T2|]; eapply Nat.le_trans; [|exact Q2]];
      destruct wide; cbn [andb negb]; apply Nat.le_refl.
  - intros i j Hi Hj Hne. rewrite N1, N2 by auto. destruct (K i Hi) as (_ & _ & P & _). destruct (tree_size_facts wide p i G) as (T1 & T2 & T3).
    rewrite (P j ltac:(lia)). rewrite Na in Hne by auto. destruct (Nat.eqb_spec j (nth i idx 0)); [contradiction|auto].
  - split; [|split; [|split]; auto]. intros k Hk. destruct (O1 k Hk) as [P1 P2]. split.
    + intros i Hi E. apply P1; auto. rewrite E. unfold point. rewrite Na by auto. reflexivity.
    + intros Hne. apply P2. intros i Hi E. apply (Hne i Hi). rewrite E. unfold point. rewrite Na by auto. reflexivity.
Qed.
Print Assumptions mpfss_fixed_correct.

(** ** Choice bits for given indexes *)
Definition indexes_of (nn sz : nat) (bits : list bool) : list nat :=
  map (fun i => index_of (firstn (Nat.log2_up (block_size nn sz i)) (skipn (i * Nat.log2_up (sz / nn)) bits))) (seq 0 nn).
(** The bits GenChoices makes from indexes in range spell those indexes, whatever follows them. *)
Theorem mpfss_choices nn sz m p indexes tail : make_param nn sz m = Some p -> length indexes = nn -> in_range nn sz indexes ->
  exists ch, gen_choices p indexes = Some ch /\ length ch = require_ot p /\ indexes_of nn sz (ch ++ tail) = indexes.
Proof.
  intros Hp. apply make_param_good in Hp as (G & <- & <- & <-). intros Hl [_ Hr]. unfold gen_choices. rewrite Hl, Nat.eqb_refl.
  set (f := fun i => map (Nat.testbit (nth i indexes 0)) (seq 0 (len p i))). eexists. split; [reflexivity|].
  assert (Lf : forall i, length (f i) = len p i) by (intros i; unfold f; rewrite map_length, seq_length; auto).
  assert (LC : length (concat (map f (seq 0 (noise p)))) = require_ot p).
  { rewrite length_concat_map, (map_ext _ (len p)) by auto. apply len_sum. auto. }
  split; [exact LC|]. apply (nth_ext _ _ 0 0); unfold indexes_of; rewrite map_length, seq_length; auto.
  intros i Hi. rewrite (nth_map_seq (fun i => index_of (firstn (Nat.log2_up (block_size (noise p) (mp p) i)) (skipn (i * Nat.log2_up (mp p / noise p)) (concat (map f (seq 0 (noise p))) ++ tail)))) (noise p) i 0 Hi).
  rewrite <- index_of_bits. change (Nat.log2_up (block_size (noise p) (mp p) i)) with (len p i). change (Nat.log2_up (mp p / noise p)) with (batch_len p).
  pose proof (len_end p i Hi) as Le.
  assert (E : firstn (len p i) (skipn (i * batch_len p) (concat (map f (seq 0 (noise p))) ++ tail)) = f i).
  { rewrite skipn_app, firstn_app. rewrite skipn_length, LC.
    replace (len p i - (require_ot p - i * batch_len p)) with 0 by lia. cbn [firstn]. rewrite app_nil_r.
    pose proof (concat_sub f (batch_len p) i 0 (noise p) Hi ltac:(intros j Hj; cbn [Nat.add]; rewrite Lf; apply len_inner; lia)) as E.
    cbn [Nat.add] in E. rewrite Lf in E. exact E. }
  rewrite E. apply (index_bits (size p i)); [apply size_gt1; auto|]. apply Hr. auto.
Qed.
Print Assumptions mpfss_choices.
(** The random indexes are in range. *)
Theorem mpfss_gen_indexes nn sz m p r : make_param nn sz m = Some p ->
  in_range nn sz (gen_indexes p r) /\ length (gen_indexes p r) = nn.
Proof.
  intros Hp. apply make_param_good in Hp as (G & <- & <- & <-). unfold gen_indexes, in_range. rewrite map_length, seq_length. split; auto. split; auto.
  intros i Hi. rewrite (nth_map_seq (fun i => nth i r 0 mod size p i) (noise p) i 0 Hi). pose proof (size_gt1 p G i). change (block_size (noise p) (mp p) i) with (size p i). apply Nat.mod_upper_bound. lia.
Qed.
Print Assumptions mpfss_gen_indexes.
(** SetIndexes never sets the last index, and cannot be the first to set any. *)
Theorem mpfss_set_indexes_refuted :
  (forall p given, 0 < noise p -> set_indexes p [] given = None) /\
  (exists p old given, make_param 2 9 false = Some p /\ length old = 2 /\ in_range 2 9 given /\ set_indexes p old given = Some [1; 0] /\ given = [1; 3]).
Proof.
  split.
  - intros p given H. unfold set_indexes. destruct (Nat.ltb (length given) (noise p)); auto. cbn [length]. destruct (Nat.ltb_spec 0 (noise p)); auto. lia.
  - exists (mkParam 2 9 false), [0; 0], [1; 3]. repeat split; auto. intros [|[|i]] H; cbn; lia.
Qed.
Print Assumptions mpfss_set_indexes_refuted.

(** ** Multi-point VOLE *)
(** c = a * delta + b, element by element. *)
Definition vole (wide : bool) (n : nat) (delta : N) (a b c : list N) : Prop :=
  forall k, k < n -> nth k c 0%N = N.lxor (kmul wide (nth k a 0%N) delta) (nth k b 0%N).
Definition words (n : N) (l : list N) : Prop := Forall (word n) l.
(** a is zero but at the points, where it has the entries of [pre_a]. *)
Definition sparse (nn sz : nat) (indexes : list nat) (pre_a a : list N) : Prop :=
  (forall i, i < nn -> nth (point nn sz indexes i) a 0%N = nth i pre_a 0%N) /\
  (forall k, (forall i, i < nn -> k <> point nn sz indexes i) -> nth k a 0%N = 0%N).
Lemma kfield wide : is_field (kbits wide) (kmul wide).
Proof. destruct wide; [exact gf128_field|exact gf64_field]. Qed.
Lemma kone wide : (1 < kbits wide)%N.
Proof. destruct wide; reflexivity. Qed.
Lemma kspan_sum wide x y : words (kbits wide) x -> words (kbits wide) y -> length x = length y ->
  kspan wide x y = Some (sum (map (fun q => kmul wide (fst q) (snd q)) (combine x y))).
Proof.
  intros X Y L. destruct wide; cbn [kspan kbits kmul] in *; [rewrite gf128_span_correct|rewrite gf64_span_correct]; auto; rewrite L, Nat.eqb_refl; auto.
Qed.
Lemma kextract wide s idxs : word (kbits wide) s -> (forall i, In i idxs -> (i <= last idxs 0)%N) -> (2 <= last idxs 0 <= 2 ^ 63)%N ->
  extract_hash_coef (kmul wide) s idxs = Some (map (fun i => power (kmul wide) s (i + 1)) idxs).
Proof. destruct wide; apply extract_hash_coef_partial. Qed.
Lemma xor_group n : is_group n N.lxor N.lxor.
Proof.
  repeat split; intros; auto using N.lxor_comm, N.lxor_0_l; try (apply GfProof.xor_lt; assumption).
  - symmetry. apply N.lxor_assoc.
  - rewrite N.lxor_assoc, N.lxor_nilpotent, N.lxor_0_r. reflexivity.
Qed.
Lemma nth_word n l k : words n l -> word n (nth k l 0%N).
Proof.
  intros H. destruct (nth_in_or_default k l 0%N) as [I| ->]; [|apply N.neq_0_lt_0, N.pow_nonzero; lia]. unfold words in H. rewrite Forall_forall in H. auto.
Qed.
Lemma firstn_In {A} k (x : A) l : In x (firstn k l) -> In x l.
Proof. intros H. rewrite <- (firstn_skipn k l). apply in_or_app. auto. Qed.
Lemma sum_xsum (f : nat -> N) l : sum (map f l) = xsum f l.
Proof. induction l as [|a l IH]; auto. cbn [map]. change (sum (?u :: ?v)) with (N.lxor u (sum v)). rewrite IH. reflexivity. Qed.
Lemma combine_map_seq (f : nat -> N) (l : list N) m : length l = m ->
  combine (map f (seq 0 m)) l = map (fun i => (f i, nth i l 0%N)) (seq 0 m).
Proof.
  intros L. apply (nth_ext _ _ (0%N, 0%N) (0%N, 0%N)); rewrite combine_length, !map_length, seq_length; [lia|]. intros i Hi.
  rewrite combine_nth by (rewrite map_length, seq_length; auto).
  rewrite (nth_map_seq (fun i => (f i, nth i l 0%N)) m i (0%N, 0%N)) by lia. rewrite (nth_map_seq f m i 0%N) by lia. reflexivity.
Qed.
(** An honest run passes the check. *)
Lemma check_passes wide p blake3 seed delta idx pre_a pre_b pre_c a b c : good p -> mal p = true ->
  (forall i, i < noise p -> nth i idx 0 < size p i) -> (2 <= N.of_nat (point (noise p) (mp p) idx (noise p - 1)) <= 2 ^ 63)%N ->
  word (kbits wide) seed -> word (kbits wide) delta -> words (kbits wide) pre_a -> words (kbits wide) b ->
  noise p <= length pre_a -> mp p <= length a -> mp p <= length b -> mp p <= length c ->
  vole wide (base_num p) delta pre_a pre_b pre_c -> vole wide (mp p) delta a b c -> sparse (noise p) (mp p) idx pre_a a ->
  consistent wide p blake3 seed delta idx pre_a pre_b pre_c b c = true.
Proof.
  intros G Mal Hr Hlast Hs Hd Wa Wb Lpa La Lb Lc Hpre Hv [Sp1 Sp2].
  pose proof (kfield wide) as HF. pose proof (kone wide) as Hn. set (mu := kmul wide) in *. set (n := kbits wide) in *.
  set (pos := point (noise p) (mp p) idx) in *.
  assert (Hpos : forall i, i < noise p -> pos i < mp p) by (apply points_end; auto).
  assert (Hinj : forall i j, i < noise p -> j < noise p -> pos i = pos j -> i = j) by (apply points_distinct; auto).
  assert (PW : forall k, word n (power mu seed k)) by (intros; apply (fpower n mu Hn HF); auto).
  assert (Ec : extract_hash_coef mu seed (map (fun i => N.of_nat (pos i)) (seq 0 (noise p))) = Some (map (fun i => power mu seed (N.of_nat (pos i) + 1)) (seq 0 (noise p)))).
  { assert (El : last (map (fun i => N.of_nat (pos i)) (seq 0 (noise p))) 0%N = N.of_nat (pos (noise p - 1))).
    { destruct G. replace (noise p) with (S (noise p - 1)) at 1 by lia. rewrite seq_S, map_app. cbn [map]. rewrite last_last. reflexivity. }
    unfold mu. rewrite kextract; rewrite ?El; auto; [rewrite map_map; reflexivity|].
    intros x Hx. apply in_map_iff in Hx as (i & <- & Hi). apply in_seq in Hi.
    destruct (Nat.eq_dec i (noise p - 1)) as [->|D]; [lia|].
    pose proof (block_disjoint p i (noise p - 1) ltac:(lia) ltac:(lia)) as Bd. pose proof (Hr i ltac:(lia)). unfold pos. rewrite !point_pos. lia. }
  unfold consistent, payload. change (fun i => N.of_nat (i * sp p + nth i idx 0)) with (fun i => N.of_nat (pos i)). fold mu. rewrite Ec.
  rewrite kspan_sum.
  2:{ apply Forall_forall. intros x Hx. apply in_map_iff in Hx as (i & <- & _). apply PW. }
  2:{ apply Forall_forall. intros x Hx. unfold words in Wa. rewrite Forall_forall in Wa. apply Wa. apply (firstn_In (noise p)). auto. }
  2:{ rewrite map_length, seq_length, firstn_length. lia. }
  rewrite combine_map_seq by (rewrite firstn_length; lia). rewrite map_map. cbn [fst snd]. rewrite sum_xsum.
  apply N.eqb_eq. f_equal. unfold recv_check, send_check. fold mu.
  set (last_i := base_num p - 1).
  assert (Wc : words n (firstn (mp p) c)).
  { apply Forall_forall. intros x Hx. apply (In_nth _ _ 0%N) in Hx as (k & Hk & <-). rewrite firstn_length in Hk.
    rewrite nth_firstn_d by lia. rewrite Hv by lia. apply GfProof.xor_lt; [|apply nth_word; auto].
    apply (fmul n mu HF); auto. destruct (block_of p G k ltac:(lia)) as (i & j & Hi & Hj & ->).
    destruct (Nat.eq_dec j (nth i idx 0)) as [->|D].
    - change (i * sp p + nth i idx 0) with (pos i). rewrite Sp1 by auto. apply nth_word. auto.
    - rewrite Sp2; [exact (fw0 n Hn)|]. intros i' Hi' E. unfold pos in E. rewrite point_pos in E. pose proof (Hr i' Hi').
      destruct (Nat.lt_trichotomy i i') as [T|[T|T]]; [pose proof (block_disjoint p i i' T Hi'); lia|subst i'; lia|pose proof (block_disjoint p i' i T Hi); lia]. }
  assert (Wb' : words n (firstn (mp p) b)).
  { apply Forall_forall. intros x Hx. unfold words in Wb. rewrite Forall_forall in Wb. apply Wb. apply (firstn_In (mp p)). auto. }
  rewrite (hash_xsum n mu Hn HF seed _ Hs Wb'), (hash_xsum n mu Hn HF seed _ Hs Wc). rewrite !firstn_length, !Nat.min_l by lia.
  assert (Wpa : forall i, word n (nth i pre_a 0%N)) by (intros; apply nth_word; auto).
  assert (Wak : forall k, k < mp p -> word n (nth k a 0%N)).
  { intros k Hk. destruct (block_of p G k Hk) as (i & j & Hi & Hj & ->). destruct (Nat.eq_dec j (nth i idx 0)) as [->|D].
    - change (i * sp p + nth i idx 0) with (pos i). rewrite Sp1 by auto. auto.
    - rewrite Sp2; [exact (fw0 n Hn)|]. intros i' Hi' E. unfold pos in E. rewrite point_pos in E. pose proof (Hr i' Hi').
      destruct (Nat.lt_trichotomy i i') as [T|[T|T]]; [pose proof (block_disjoint p i i' T Hi'); lia|subst i'; lia|pose proof (block_disjoint p i' i T Hi); lia]. }
  assert (Eh : xsum (fun k => mu (nth k (firstn (mp p) c) 0%N) (power mu seed (N.of_nat k + 1))) (seq 0 (mp p)) =
    N.lxor (mu (xsum (fun k => mu (nth k a 0%N) (power mu seed (N.of_nat k + 1))) (seq 0 (mp p))) delta)
           (xsum (fun k => mu (nth k (firstn (mp p) b) 0%N) (power mu seed (N.of_nat k + 1))) (seq 0 (mp p)))).
  { rewrite <- (xsum_mul n mu Hn HF) by first [exact Hd|intros k Hk; apply in_seq in Hk; apply (fmul n mu HF); [apply Wak; lia|apply PW]].
    rewrite <- xsum_xor. apply xsum_ext. intros k Hk. apply in_seq in Hk. rewrite !nth_firstn_d by lia. rewrite Hv by lia. fold mu.
    pose proof (Wak k ltac:(lia)) as Wk. pose proof (PW (N.of_nat k + 1)%N) as Wp. pose proof (nth_word n b k Wb) as Wbk.
    rewrite (fmul_xor_l n mu HF) by (auto; apply (fmul n mu HF); auto). f_equal.
    destruct HF as (_ & Fc & Fa & _). rewrite <- Fa, (Fc delta), Fa by auto. reflexivity. }
  rewrite Eh. clear Eh.
  rewrite (sparse_xsum n mu Hn HF (fun k => power mu seed (N.of_nat k + 1)) pos (fun i => nth i pre_a 0%N) (mp p) (noise p) (fun k => nth k a 0%N)
    (fun k => PW _) (fun i _ => Wpa i) Hpos Hinj Sp1 (fun k _ => Sp2 k)).
  assert (Ep : xsum (fun x => mu (power mu seed (N.of_nat (pos x) + 1)) (nth x (firstn (noise p) pre_a) 0%N)) (seq 0 (noise p)) =
               xsum (fun i => mu (nth i pre_a 0%N) (power mu seed (N.of_nat (pos i) + 1))) (seq 0 (noise p))).
  { apply xsum_ext. intros i Hi. apply in_seq in Hi. rewrite nth_firstn_d by lia. destruct HF as (_ & Fc & _). apply Fc; auto. }
  change (kmul wide) with mu. rewrite Ep. set (X := xsum (fun i => mu (nth i pre_a 0%N) _) _).
  assert (Wx : word n X) by (apply (xsum_word n Hn); intros i _; apply (fmul n mu HF); [apply Wpa|apply PW]).
  rewrite (fmul_xor_l n mu HF) by first [assumption|apply Wpa].
  assert (El : last_i < base_num p) by (unfold last_i, base_num; rewrite Mal; lia).
  rewrite (Hpre last_i El). fold mu.
  set (B := xsum _ (seq 0 (mp p))). set (u := mu X delta). set (v := mu (nth last_i pre_a 0%N) delta). set (t := nth last_i pre_b 0%N).
  apply N.bits_inj. intros q. rewrite !N.lxor_spec. destruct (N.testbit B q), (N.testbit u q), (N.testbit v q), (N.testbit t q); reflexivity.
Qed.

(** The points used: the given indexes, or those the choice bits spell. *)
Definition used (fixed : bool) (nn sz : nat) (bits : list bool) (indexes : list nat) : list nat :=
  if fixed then indexes_of nn sz bits else indexes.
Lemma mp_vole_core h crh wide fixed nn sz m p otdelta delta base bits blks indexes seeds sp1 sp2 blake3 seed pre_a pre_b pre_c a0 b0 c0 :
  make_param nn sz m = Some p -> (forall x, word 128 (crh x)) -> (N.of_nat sz <= 2 ^ 31)%N ->
  cot_store (require_ot p) otdelta base bits blks -> nn <= length indexes ->
  let idx := used fixed nn sz bits indexes in in_range nn sz idx ->
  (forall i, i < nn -> let t := if fixed && negb wide then 2 ^ Nat.log2_up (block_size nn sz i) else block_size nn sz i in t <= length (sp1 i) /\ t <= length (sp2 i)) ->
  let bn := if m then nn + 1 else nn in
  length pre_a = bn -> length pre_b = bn -> length pre_c = bn -> sz <= length a0 -> sz <= length b0 -> sz <= length c0 ->
  words (kbits wide) pre_a -> words (kbits wide) pre_b -> words (kbits wide) b0 -> word (kbits wide) delta -> word (kbits wide) seed ->
  vole wide bn delta pre_a pre_b pre_c ->
  exists a b c, let out := mp_vole wide p blake3 h crh fixed delta otdelta base bits blks indexes seeds sp1 sp2 seed pre_a pre_b pre_c a0 b0 c0 in
    (out = Some (a, b, c) \/ out = None /\ ~ (m = true -> 2 <= point nn sz idx (nn - 1))) /\
    vole wide sz delta a b c /\ sparse nn sz idx pre_a a /\ length a = length a0 /\ untouched sz b0 b /\ untouched sz c0 c.
Proof.
  intros Hp Hc Hsz Hcot Hl idx Hr Hsp bn La Lb Lc Sa Sb Sc Wa Wb Wb0 Wd Ws Hpre.
  pose proof Hp as Hp'. apply make_param_good in Hp' as (G & En & Em & El).
  assert (Ebn : base_num p = bn) by (unfold base_num, bn; rewrite El, En; auto).
  assert (Wc : words (kbits wide) pre_c).
  { apply Forall_forall. intros x Hx. apply (In_nth _ _ 0%N) in Hx as (k & Hk & <-). rewrite Hpre by lia.
    apply GfProof.xor_lt; [apply (fmul _ _ (kfield wide)); auto|]; apply nth_word; auto. }
  assert (Hn : nn <= bn) by (unfold bn; destruct m; lia).
  assert (Hw : forall i, i < nn -> word (kbits wide) (nth i pre_c 0%N)) by (intros; apply nth_word; auto).
  unfold mp_vole. rewrite La, Lb, Lc, Ebn, !Nat.eqb_refl. cbn [negb orb]. rewrite Em, (proj2 (Nat.ltb_ge _ _)) by auto.
  assert (R : exists c r idx', (if fixed then mpfss_fixed h crh N.lxor N.lxor wide p otdelta base bits blks indexes seeds sp1 sp2 pre_c c0 b0
         else match mpfss h crh N.lxor N.lxor wide p otdelta base bits blks indexes seeds sp1 sp2 pre_c c0 b0 with
              | Some (s, r) => Some (s, r, indexes) | None => None end) = Some (c, r, idx') /\
         (forall i, i < nn -> nth i idx' 0 = nth i idx 0) /\ multi_point N.lxor nn sz idx pre_c c r /\ entries (kbits wide) sz c /\ untouched sz c0 c /\ untouched sz b0 r).
  { destruct fixed; cbn [used andb] in *.
    - destruct (mpfss_fixed_correct h crh N.lxor N.lxor wide nn sz m p otdelta base bits blks indexes seeds sp1 sp2 pre_c c0 b0) as (s & r & E & M & U1 & U2); auto using xor_group; try lia.
      { intros i Hi. specialize (Hsp i Hi). destruct wide; exact Hsp. }
      exists s, r, (idx ++ skipn nn indexes). split; [exact E|]. split; auto.
      intros i Hi. apply app_nth1. unfold idx, indexes_of. rewrite map_length, seq_length. auto.
    - destruct (mpfss_correct h crh N.lxor N.lxor wide nn sz m p otdelta base bits blks indexes seeds sp1 sp2 pre_c c0 b0) as (s & r & E & M & U1 & U2); auto using xor_group; try lia.
      exists s, r, indexes. rewrite E. auto. }
  destruct R as (c & r & idx' & E & Hidx & M & W1 & U1 & U2). rewrite E. clear E. subst nn sz m.
  set (pos := point (noise p) (mp p) idx) in *.
  assert (Hr' : forall i, i < noise p -> nth i idx 0 < size p i) by apply Hr.
  assert (Hpos : forall i, i < noise p -> pos i < mp p) by (apply points_end; auto).
  assert (Hinj : forall i j, i < noise p -> j < noise p -> pos i = pos j -> i = j) by (apply points_distinct; auto).
  set (pos' := fun i => i * sp p + nth i idx' 0).
  assert (Epos : forall i, i < noise p -> pos' i = pos i) by (intros i Hi; unfold pos', pos; rewrite point_pos, Hidx by auto; auto).
  assert (Hinj' : forall i j, i < noise p -> j < noise p -> pos' i = pos' j -> i = j) by (intros i j Hi Hj; rewrite !Epos by auto; auto).
  destruct (update_points pos' (fun i _ => nth i pre_a 0%N) (noise p) (map (fun _ => 0%N) a0)) as (A1 & A2 & A3); auto.
  { intros i Hi. rewrite Epos, map_length by auto. pose proof (Hpos i Hi). lia. }
  destruct (update_points pos' (fun i x => N.lxor x (nth i pre_b 0%N)) (noise p) r) as (B1 & B2 & B3); auto.
  { intros i Hi. rewrite Epos by auto. destruct U2 as [U2 _]. pose proof (Hpos i Hi). lia. }
  set (a := place_a p idx' pre_a a0). set (b := place_b p idx' pre_b r).
  change (length a = length (map (fun _ => 0%N) a0)) in A1. change (forall i, i < noise p -> nth (pos' i) a 0%N = nth i pre_a 0%N) in A2.
  change (forall k, (forall i, i < noise p -> k <> pos' i) -> nth k a 0%N = nth k (map (fun _ => 0%N) a0) 0%N) in A3.
  change (length b = length r) in B1. change (forall i, i < noise p -> nth (pos' i) b 0%N = N.lxor (nth (pos' i) r 0%N) (nth i pre_b 0%N)) in B2.
  change (forall k, (forall i, i < noise p -> k <> pos' i) -> nth k b 0%N = nth k r 0%N) in B3.
  rewrite map_length in A1.
  assert (Z : forall k, nth k (map (fun _ : N => 0%N) a0) 0%N = 0%N).
  { intros k. clear. revert k. induction a0 as [|x l IH]; intros [|k]; cbn; auto. }
  assert (Sp : sparse (noise p) (mp p) idx pre_a a).
  { split.
    - intros i Hi. fold pos. rewrite <- Epos by auto. auto.
    - intros k Hk. rewrite A3; auto. intros i Hi. rewrite Epos by auto. apply Hk. auto. }
  assert (V : vole wide (mp p) delta a b c).
  { intros k Hk. destruct (M k Hk) as [M1 M2]. destruct (block_of p G k Hk) as (i & j & Hi & Hj & Ek).
    destruct (Nat.eq_dec j (nth i idx 0)) as [D|D].
    - assert (Ek' : k = pos i) by (unfold pos; rewrite point_pos; lia). rewrite (M1 i Hi Ek'). rewrite Ek'. clear M1 M2. rewrite <- (Epos i Hi), A2, B2 by auto.
      rewrite (Hpre i) by lia. apply N.bits_inj. intros q. rewrite !N.lxor_spec. 
      destruct (N.testbit (nth (pos' i) r 0%N) q), (N.testbit (kmul wide (nth i pre_a 0%N) delta) q), (N.testbit (nth i pre_b 0%N) q); reflexivity.
    - assert (Hne : forall i', i' < noise p -> k <> pos i').
      { intros i' Hi' E. unfold pos in E. rewrite point_pos in E. pose proof (Hr' i' Hi').
        destruct (Nat.lt_trichotomy i i') as [T|[T|T]]; [pose proof (block_disjoint p i i' T Hi'); lia|subst i'; lia|pose proof (block_disjoint p i' i T Hi); lia]. }
      rewrite (M2 Hne), A3, B3 by (intros i' Hi'; rewrite Epos by auto; auto). rewrite Z.
      rewrite (fmul_0_l _ _ (kone wide) (kfield wide)) by auto. rewrite N.lxor_0_l. reflexivity. }
  assert (Wr : words (kbits wide) r).
  { apply Forall_forall. intros x Hx. apply (In_nth _ _ 0%N) in Hx as (k & Hk & <-).
    destruct (Nat.lt_ge_cases k (mp p)) as [Hk'|Hk'].
    - destruct (M k Hk') as [M1 M2]. pose proof (W1 k Hk') as Wk. destruct (find (fun i => k =? pos i) (seq 0 (noise p))) as [i|] eqn:F.
      + apply find_some in F as [F1 F2]. apply in_seq in F1. apply Nat.eqb_eq in F2. rewrite (M1 i ltac:(lia) F2) in Wk.
        replace (nth k r 0%N) with (N.lxor (N.lxor (nth k r 0%N) (nth i pre_c 0%N)) (nth i pre_c 0%N)) by (rewrite N.lxor_assoc, N.lxor_nilpotent; apply N.lxor_0_r).
        apply GfProof.xor_lt; [exact Wk|apply Hw; lia].
      + rewrite <- M2; auto. intros i Hi E. pose proof (find_none _ _ F i ltac:(apply in_seq; lia)) as Q. apply Nat.eqb_neq in Q. auto.
    - destruct U2 as [_ U2]. rewrite U2 by auto. apply nth_word. auto. }
  assert (Wbb : words (kbits wide) b).
  { apply Forall_forall. intros x Hx. apply (In_nth _ _ 0%N) in Hx as (k & Hk & <-).
    destruct (find (fun i => k =? pos' i) (seq 0 (noise p))) as [i|] eqn:F.
    - apply find_some in F as [F1 F2]. apply in_seq in F1. apply Nat.eqb_eq in F2. subst k. rewrite B2 by lia.
      apply GfProof.xor_lt; apply nth_word; auto.
    - rewrite B3; [apply nth_word; auto|]. intros i Hi E. pose proof (find_none _ _ F i ltac:(apply in_seq; lia)) as Q. apply Nat.eqb_neq in Q. auto. }
  destruct U1 as [U11 U12]. destruct U2 as [U21 U22].
  assert (Ub : untouched (mp p) b0 b).
  { split; [congruence|]. intros k Hk. rewrite B3; auto. intros i Hi. rewrite Epos by auto. pose proof (Hpos i Hi). lia. }
  assert (Ck : mal p = true -> (mal p = true -> 2 <= pos (noise p - 1)) -> consistent wide p blake3 seed delta idx' pre_a pre_b pre_c b c = true).
  { intros Mal Hmal.
    assert (Pt : forall i, i < noise p -> point (noise p) (mp p) idx' i = pos i) by (intros i Hi; unfold pos, point; rewrite Hidx by auto; reflexivity).
    apply check_passes with (a := a); auto; try lia.
    - intros i Hi. rewrite Hidx by auto. auto.
    - destruct G. rewrite Pt by lia. pose proof (Hpos (noise p - 1) ltac:(lia)). pose proof (Hmal Mal). split; [lia|].
      apply N.le_trans with (2 ^ 31)%N; [lia|]. apply N.pow_le_mono_r; lia.
    - destruct Sp as [S1 S2]. split.
      + intros i Hi. rewrite Pt by auto. auto.
      + intros k Hk. apply S2. intros i Hi. fold (pos i). rewrite <- Pt by auto. auto. }
  fold a. fold b. exists a, b, c. cbn zeta. split; [|split; [exact V|]; split; [exact Sp|]; split; [exact A1|]; split; [exact Ub|split; auto]].
  destruct (mal p) eqn:Mal; cbn [andb]; [|left; reflexivity].
  destruct (consistent wide p blake3 seed delta idx' pre_a pre_b pre_c b c) eqn:Cs; cbn [negb]; [left; reflexivity|].
  right. split; [reflexivity|]. intros Hmal. specialize (Ck eq_refl Hmal). discriminate Ck.
Qed.
(** MpVoleSender::Send with MpVoleReceiver::Recv.  A malicious secure run is only complete
    if the last point is at least 2. *)
Theorem mp_vole_correct h crh wide fixed nn sz m p otdelta delta base bits blks indexes seeds sp1 sp2 blake3 seed pre_a pre_b pre_c a0 b0 c0 :
  make_param nn sz m = Some p -> (forall x, word 128 (crh x)) -> (N.of_nat sz <= 2 ^ 31)%N ->
  cot_store (require_ot p) otdelta base bits blks -> nn <= length indexes ->
  let idx := used fixed nn sz bits indexes in in_range nn sz idx ->
  (forall i, i < nn -> let t := if fixed && negb wide then 2 ^ Nat.log2_up (block_size nn sz i) else block_size nn sz i in t <= length (sp1 i) /\ t <= length (sp2 i)) ->
  let bn := if m then nn + 1 else nn in
  length pre_a = bn -> length pre_b = bn -> length pre_c = bn -> sz <= length a0 -> sz <= length b0 -> sz <= length c0 ->
  words (kbits wide) pre_a -> words (kbits wide) pre_b -> words (kbits wide) b0 -> word (kbits wide) delta -> word (kbits wide) seed ->
  vole wide bn delta pre_a pre_b pre_c ->
  (m = true -> 2 <= point nn sz idx (nn - 1)) ->
  exists a b c, mp_vole wide p blake3 h crh fixed delta otdelta base bits blks indexes seeds sp1 sp2 seed pre_a pre_b pre_c a0 b0 c0 = Some (a, b, c) /\
    vole wide sz delta a b c /\ sparse nn sz idx pre_a a /\ length a = length a0 /\ untouched sz b0 b /\ untouched sz c0 c.
Proof.
  intros Hp Hc Hsz Hcot Hl idx Hr Hsp bn La Lb Lc Sa Sb Sc Wa Wb Wb0 Wd Ws Hpre Hmal.
  destruct (mp_vole_core h crh wide fixed nn sz m p otdelta delta base bits blks indexes seeds sp1 sp2 blake3 seed pre_a pre_b pre_c a0 b0 c0
    Hp Hc Hsz Hcot Hl Hr Hsp La Lb Lc Sa Sb Sc Wa Wb Wb0 Wd Ws Hpre) as (a & b & c & [E|[_ E]] & F).
  - exists a, b, c. split; [exact E|exact F].
  - contradiction (E Hmal).
Qed.
(** Whenever both return, the correlation holds, with no condition on the points. *)
Theorem mp_vole_sound h crh wide fixed nn sz m p otdelta delta base bits blks indexes seeds sp1 sp2 blake3 seed pre_a pre_b pre_c a0 b0 c0 :
  make_param nn sz m = Some p -> (forall x, word 128 (crh x)) -> (N.of_nat sz <= 2 ^ 31)%N ->
  cot_store (require_ot p) otdelta base bits blks -> nn <= length indexes ->
  let idx := used fixed nn sz bits indexes in in_range nn sz idx ->
  (forall i, i < nn -> let t := if fixed && negb wide then 2 ^ Nat.log2_up (block_size nn sz i) else block_size nn sz i in t <= length (sp1 i) /\ t <= length (sp2 i)) ->
  let bn := if m then nn + 1 else nn in
  length pre_a = bn -> length pre_b = bn -> length pre_c = bn -> sz <= length a0 -> sz <= length b0 -> sz <= length c0 ->
  words (kbits wide) pre_a -> words (kbits wide) pre_b -> words (kbits wide) b0 -> word (kbits wide) delta -> word (kbits wide) seed ->
  vole wide bn delta pre_a pre_b pre_c ->
  forall a b c, mp_vole wide p blake3 h crh fixed delta otdelta base bits blks indexes seeds sp1 sp2 seed pre_a pre_b pre_c a0 b0 c0 = Some (a, b, c) ->
    vole wide sz delta a b c /\ sparse nn sz idx pre_a a /\ length a = length a0 /\ untouched sz b0 b /\ untouched sz c0 c.
Proof.
  intros Hp Hc Hsz Hcot Hl idx Hr Hsp bn La Lb Lc Sa Sb Sc Wa Wb Wb0 Wd Ws Hpre x y z Hxyz.
  destruct (mp_vole_core h crh wide fixed nn sz m p otdelta delta base bits blks indexes seeds sp1 sp2 blake3 seed pre_a pre_b pre_c a0 b0 c0
    Hp Hc Hsz Hcot Hl Hr Hsp La Lb Lc Sa Sb Sc Wa Wb Wb0 Wd Ws Hpre) as (a & b & c & E & F).
  rewrite Hxyz in E. destruct E as [E|[E _]]; [|discriminate E]. injection E as -> -> ->. exact F.
Qed.
Print Assumptions mp_vole_sound.
Print Assumptions mp_vole_correct.

(** ** The base VOLE *)
Lemma bits_N_spec l : bits_N l = xsum (fun j => if nth j l false then N.shiftl 1 (N.of_nat j) else 0%N) (seq 0 (length l)).
Proof.
  induction l as [|b l IH]; [reflexivity|]. cbn [bits_N length seq]. rewrite xsum_cons. change (nth 0 (b :: l) false) with b.
  assert (E : xsum (fun j => if nth j (b :: l) false then N.shiftl 1 (N.of_nat j) else 0%N) (seq 1 (length l)) = N.shiftl (bits_N l) 1).
  { rewrite IH. clear IH. rewrite <- seq_shift. generalize (seq 0 (length l)) as q. intros q.
    induction q as [|x q IHq]; [reflexivity|]. cbn [map]. rewrite !xsum_cons, IHq, N.shiftl_lxor. f_equal. cbn [nth].
    destruct (nth x l false); [|reflexivity]. rewrite N.shiftl_shiftl. f_equal. lia. }
  rewrite E. clear E. apply N.bits_inj. intros i. rewrite N.lxor_spec.
  destruct (N.eq_dec i 0) as [->|D].
  - rewrite N.shiftl_spec_low by lia. destruct b.
    + rewrite N.add_comm, N.testbit_odd_0. reflexivity.
    + rewrite N.add_0_l, N.testbit_even_0. reflexivity.
  - rewrite N.shiftl_spec_high' by lia. replace i with (N.succ (i - 1)) at 1 by lia. destruct b.
    + rewrite N.add_comm, N.testbit_odd_succ by lia. change (N.shiftl 1 (N.of_nat 0)) with 1%N.
      rewrite (N.bits_above_log2 1 i) by (cbn; lia). destruct (N.testbit _ _); reflexivity.
    + rewrite N.add_0_l, N.testbit_even_succ by lia. rewrite N.bits_0. destruct (N.testbit _ _); reflexivity.
Qed.
Lemma bits_N_bit l j : N.testbit (bits_N l) (N.of_nat j) = nth j l false.
Proof.
  revert j. induction l as [|b l IH]; intros j; [cbn [bits_N]; rewrite N.bits_0; destruct j; auto|]. cbn [bits_N].
  destruct j as [|j]; [destruct b; [rewrite N.add_comm; apply N.testbit_odd_0|apply N.testbit_even_0]|].
  rewrite Nat2N.inj_succ. cbn [nth]. rewrite <- IH. destruct b; [rewrite N.add_comm; apply N.testbit_odd_succ|apply N.testbit_even_succ]; lia.
Qed.
Lemma bits_N_lt l : word (N.of_nat (length l)) (bits_N l).
Proof.
  induction l as [|b l IH]; [reflexivity|]. cbn [length bits_N]. rewrite Nat2N.inj_succ. unfold word in *. rewrite N.pow_succ_r by lia. destruct b; lia.
Qed.
Lemma basis_nth n j : j < n -> nth j (basis n) 0%N = N.shiftl 1 (N.of_nat j).
Proof. intros H. exact (nth_map_seq (fun i => N.shiftl 1 (N.of_nat i)) n j 0%N H). Qed.
Lemma basis_words n k : n <= k -> words (N.of_nat k) (basis n).
Proof.
  intros H. unfold basis. apply Forall_forall. intros x Hx. apply in_map_iff in Hx as (i & <- & Hi). apply in_seq in Hi.
  rewrite N.shiftl_1_l. apply N.pow_lt_mono_r; lia.
Qed.
Lemma ktrunc_lt wide x : word 128 x -> word (kbits wide) (ktrunc wide x).
Proof. destruct wide; cbn [ktrunc kbits]; auto. intros _. rewrite N.land_ones. apply N.mod_lt. apply N.pow_nonzero. lia. Qed.
Lemma ktrunc_xor wide x y : ktrunc wide (N.lxor x y) = N.lxor (ktrunc wide x) (ktrunc wide y).
Proof.
  destruct wide; cbn [ktrunc]; auto. apply N.bits_inj. intros i. rewrite !N.land_spec, !N.lxor_spec, !N.land_spec.
  destruct (N.testbit x i), (N.testbit y i), (N.testbit (N.ones 64) i); reflexivity.
Qed.
Lemma kspan_basis tw wide (f : nat -> N) : (tw = true -> wide = true) -> (forall j, j < tbits tw -> word (kbits wide) (f j)) ->
  kspan wide (map f (seq 0 (tbits tw))) (kbasis (tbits tw)) = Some (xsum (fun j => kmul wide (f j) (N.shiftl 1 (N.of_nat j))) (seq 0 (tbits tw))).
Proof.
  intros Hk Hf. unfold kbasis. rewrite kspan_sum.
  - rewrite combine_map_seq by (unfold basis; rewrite map_length, seq_length; auto). rewrite map_map. cbn [fst snd]. rewrite sum_xsum. f_equal.
    apply xsum_ext. intros j Hj. apply in_seq in Hj. rewrite basis_nth by lia. reflexivity.
  - apply Forall_forall. intros x Hx. apply in_map_iff in Hx as (j & <- & Hj). apply in_seq in Hj. apply Hf. lia.
  - replace (kbits wide) with (N.of_nat (if wide then 128 else 64)) by (destruct wide; reflexivity). apply basis_words.
    destruct tw; [rewrite Hk by auto|destruct wide]; unfold tbits; lia.
  - unfold basis. rewrite !map_length. reflexivity.
Qed.
(** Ot2VoleSend with Ot2VoleRecv on correlated OTs, with T = K = uint64_t, T = K = uint128_t or
    T = uint64_t and K = uint128_t: entry i of u has the choice bits i*|T|, i*|T| + 1, ... as
    its bits, and w = u * delta + v in GF(2^|K|), delta truncated to K. *)
Theorem ot2vole_correct tw wide delta base bits blks sz : (tw = true -> wide = true) ->
  let t := if tw then 128 else 64 in
  cot_store (sz * t) delta base bits blks -> (forall i, i < sz * t -> word 128 (fst (nth i base (0, 0)%N))) ->
  exists u v w, ot2vole_send tw wide base sz = Some w /\ ot2vole_recv tw wide bits blks sz = Some (u, v) /\
    length u = sz /\ length v = sz /\ length w = sz /\
    (forall i, i < sz -> forall j, N.testbit (nth i u 0%N) (N.of_nat j) = (j <? t) && nth (i * t + j) bits false) /\
    vole wide sz (if wide then delta else (delta mod 2 ^ 64)%N) u v w /\
    words (N.of_nat t) u /\ words (kbits wide) v.
Proof.
  intros Hk t. change t with (tbits tw). clear t. intros (B1 & B2 & B3 & B4 & B5) Hb.
  set (t := tbits tw) in *. set (d := if wide then delta else (delta mod 2 ^ 64)%N).
  assert (Ed : ktrunc wide delta = d) by (unfold d; destruct wide; cbn [ktrunc]; auto; apply N.land_ones).
  assert (Ht : (N.of_nat t <= kbits wide)%N) by (unfold t; destruct tw; [rewrite Hk by auto|destruct wide]; cbn; lia).
  assert (In' : forall i j, i < sz -> j < t -> i * t + j < sz * t) by (intros; nia).
  set (fw := fun i j => ktrunc wide (SpcotModel.send_block base (i * t + j) false)).
  set (fv := fun i j => ktrunc wide (nth (i * t + j) blks 0%N)).
  assert (Dw : word (kbits wide) d) by (rewrite <- Ed; apply ktrunc_lt; auto).
  assert (Ww : forall i j, i < sz -> j < t -> word (kbits wide) (fw i j)).
  { intros i j Hi Hj. apply ktrunc_lt. unfold SpcotModel.send_block. apply Hb. auto. }
  assert (Ev : forall i j, i < sz -> j < t -> fv i j = N.lxor (fw i j) (if nth (i * t + j) bits false then d else 0%N)).
  { intros i j Hi Hj. unfold fv, fw, SpcotModel.send_block. destruct (B5 (i * t + j) (In' i j Hi Hj)) as [E1 E2]. rewrite E2. 
    destruct (nth (i * t + j) bits false); [rewrite E1, ktrunc_xor, Ed|rewrite N.lxor_0_r]; reflexivity. }
  assert (Wv : forall i j, i < sz -> j < t -> word (kbits wide) (fv i j)).
  { intros i j Hi Hj. rewrite Ev by auto. apply GfProof.xor_lt; [apply Ww; auto|]. destruct (nth _ bits false); [exact Dw|]. exact (fw0 _ (kone wide)). }
  set (X := fun (f : nat -> nat -> N) i => xsum (fun j => kmul wide (f i j) (N.shiftl 1 (N.of_nat j))) (seq 0 t)).
  unfold ot2vole_send, ot2vole_recv. fold t. rewrite !(proj2 (Nat.ltb_ge _ _)) by auto.
  rewrite (all_some_map _ (X fw)) by (intros i Hi; apply in_seq in Hi; apply (kspan_basis tw wide (fw i) Hk); intros j Hj; apply Ww; [lia|exact Hj]).
  rewrite (all_some_map _ (X fv)) by (intros i Hi; apply in_seq in Hi; apply (kspan_basis tw wide (fv i) Hk); intros j Hj; apply Wv; [lia|exact Hj]).
  eexists _, _, _. split; [reflexivity|]. split; [reflexivity|]. rewrite !map_length, seq_length.
  split; auto. split; auto. split; auto.
  set (ub := fun i => bits_N (sub (i * t) t bits)).
  assert (Nu : forall i, i < sz -> nth i (map ub (seq 0 sz)) 0%N = ub i) by (intros i Hi; exact (nth_map_seq ub sz i 0%N Hi)).
  assert (Lu : forall i, i < sz -> length (sub (i * t) t bits) = t) by (intros i Hi; apply length_sub; nia).
  split; [|split; [|split]].
  - intros i Hi j. rewrite Nu by auto. unfold ub. rewrite bits_N_bit. destruct (Nat.ltb_spec j t) as [L|L]; [rewrite nth_sub by auto; reflexivity|].
    apply nth_overflow. rewrite Lu by auto. auto.
  - intros i Hi. rewrite Nu by auto. rewrite (nth_map_seq (X fw) sz i 0%N Hi), (nth_map_seq (X fv) sz i 0%N Hi).
    assert (Wj : forall j, j < t -> word (kbits wide) (N.shiftl 1 (N.of_nat j))) by (intros j Hj; rewrite N.shiftl_1_l; apply N.pow_lt_mono_r; lia).
    unfold ub. rewrite bits_N_spec, Lu by auto.
    rewrite <- (xsum_mul _ _ (kone wide) (kfield wide)).
    + unfold X. rewrite <- xsum_xor. apply xsum_ext. intros j Hj. apply in_seq in Hj. rewrite Ev by (auto; lia). rewrite nth_sub by lia.
      destruct (nth (i * t + j) bits false).
      * rewrite (fmul_xor_l _ _ (kfield wide)) by first [exact Dw|apply Ww; auto; lia|apply Wj; lia].
        assert (Ecom : kmul wide d (N.shiftl 1 (N.of_nat j)) = kmul wide (N.shiftl 1 (N.of_nat j)) d).
        { destruct (kfield wide) as (_ & C & _). apply C; [exact Dw|apply Wj; lia]. }
        rewrite Ecom, (N.lxor_comm (kmul wide (fw i j) _)), <- N.lxor_assoc, N.lxor_nilpotent, N.lxor_0_l. reflexivity.
      * rewrite N.lxor_0_r, (fmul_0_l _ _ (kone wide) (kfield wide)) by exact Dw. rewrite N.lxor_0_l. reflexivity.
    + exact Dw.
    + intros j Hj. apply in_seq in Hj. destruct (nth j _ false); [apply Wj; lia|]. exact (fw0 _ (kone wide)).
  - apply Forall_forall. intros x Hx. apply in_map_iff in Hx as (i & <- & Hi). apply in_seq in Hi. unfold ub.
    pose proof (bits_N_lt (sub (i * t) t bits)) as W. rewrite (Lu i) in W by lia. exact W.
  - apply Forall_forall. intros x Hx. apply in_map_iff in Hx as (i & <- & Hi). apply in_seq in Hi. unfold X.
    apply xsum_word; [exact (kone wide)|]. intros j Hj. apply in_seq in Hj. apply (fmul _ _ (kfield wide)); [apply Wv; lia|].
    rewrite N.shiftl_1_l. apply N.pow_lt_mono_r; lia.
Qed.
Print Assumptions ot2vole_correct.

(** ** What does not hold *)
(** One block and a point below 2: the honest malicious secure run throws.  (With two blocks or
    more the last point is at least 2.) *)
Theorem mp_vole_last_point nn sz m p idx : make_param nn sz m = Some p -> 2 <= nn -> 2 <= point nn sz idx (nn - 1).
Proof.
  intros Hp H. apply make_param_good in Hp as (G & <- & <- & <-). rewrite point_pos. destruct G as [G1 G2]. unfold sp in *. nia.
Qed.
Definition ex_h (x : N) : N := ((x * 7 + 3) mod 1009)%N.
Definition ex_c (x : N) : N := ((x * 5 + 1) mod 1009)%N.
Lemma ex_c_word x : word 128 (ex_c x).
Proof. unfold ex_c, word. apply N.lt_trans with 1009%N; [apply N.mod_lt; discriminate|reflexivity]. Qed.
Theorem mp_vole_check_refuted i : i < 2 -> exists p otdelta base bits blks pre_a pre_b pre_c delta seed,
  make_param 1 3 true = Some p /\ cot_store (require_ot p) otdelta base bits blks /\ in_range 1 3 [i] /\
  length pre_a = 2 /\ length pre_b = 2 /\ vole false 2 delta pre_a pre_b pre_c /\
  mp_vole false p (fun x => x) ex_h ex_c false delta otdelta base bits blks [i] (fun _ => 7%N)
    (fun _ => repeat 0%N 3) (fun _ => repeat 0%N 3) seed pre_a pre_b pre_c (repeat 0%N 3) (repeat 0%N 3) (repeat 0%N 3) = None.
Proof.
  intros Hi. exists (mkParam 1 3 true), 5%N, [(10, 15); (20, 17)]%N, [false; false], [10; 20]%N, [1; 0]%N, [4; 8]%N, [7; 8]%N, 3%N, 2%N.
  split; [reflexivity|]. split.
  { repeat split; cbn; try lia; destruct i0 as [|[|k]]; try reflexivity; unfold require_ot in H; cbn in H; lia. }
  split; [split; [cbn; lia|]; intros [|k] Hk; [destruct i as [|[|i]]; cbn; lia|lia]|].
  split; [reflexivity|]. split; [reflexivity|]. split.
  { intros [|[|k]] Hk; [vm_compute; reflexivity|vm_compute; reflexivity|lia]. }
  destruct i as [|[|i]]; [vm_compute; reflexivity|vm_compute; reflexivity|lia].
Qed.
(** Choice bits that spell an index beyond the block: the receiver writes outside its buffer, or
    into the next block (not a multi-point correlation for any indexes in range). *)
Theorem mpfss_fixed_range_refuted : exists p otdelta base bits blks,
  make_param 1 3 false = Some p /\ cot_store (require_ot p) otdelta base bits blks /\
  mpfss_fixed ex_h ex_c N.lxor N.lxor true p otdelta base bits blks [0] (fun _ => 7%N) (fun _ => repeat 0%N 4) (fun _ => repeat 0%N 4)
    [9%N] (repeat 0%N 3) (repeat 0%N 3) = None.
Proof.
  exists (mkParam 1 3 false), 5%N, [(10, 15); (20, 17)]%N, [true; true], [15; 17]%N. split; [reflexivity|]. split; [|vm_compute; reflexivity].
  repeat split; cbn; try lia; destruct i as [|[|k]]; try reflexivity; unfold require_ot in H; cbn in H; lia.
Qed.
Theorem mpfss_fixed_block_refuted : exists p otdelta base bits blks s r idx,
  make_param 2 6 false = Some p /\ cot_store (require_ot p) otdelta base bits blks /\
  mpfss_fixed ex_h ex_c N.lxor N.lxor true p otdelta base bits blks [0; 0] (fun _ => 7%N) (fun _ => repeat 0%N 4) (fun _ => repeat 0%N 4)
    [9%N; 6%N] (repeat 0%N 6) (repeat 0%N 6) = Some (s, r, idx) /\
  ~ exists good, in_range 2 6 good /\ multi_point N.lxor 2 6 good [9%N; 6%N] s r.
Proof.
  eexists (mkParam 2 6 false), 5%N, [(10, 15); (20, 17); (40, 45); (80, 85)]%N, [true; true; false; true], [15; 17; 40; 85]%N, _, _, _.
  split; [reflexivity|]. split.
  { repeat split; cbn; try lia; destruct i as [|[|[|[|k]]]]; try reflexivity; unfold require_ot in H; cbn in H; lia. }
  split; [vm_compute; reflexivity|]. intros (good & [Hl Hr] & M).
  pose proof (Hr 0 ltac:(lia)) as R0. change (block_size 2 6 0) with 3 in R0.
  destruct (M (nth 0 good 0) ltac:(lia)) as [M1 _]. specialize (M1 0 ltac:(lia) eq_refl).
  destruct (nth 0 good 0) as [|[|[|k]]]; [vm_compute in M1; discriminate|vm_compute in M1; discriminate|vm_compute in M1; discriminate|lia].
Qed.
(** After OneTimeSetup the sender can be used again, the receiver cannot. *)
Theorem mp_vole_sender_reuse f : use (send_setup f) = Some (mkFlags true true).
Proof. reflexivity. Qed.
Theorem mp_vole_receiver_reuse_refuted f f' : use f = Some f' -> use (recv_setup f') = None.
Proof. unfold use. destruct (setup f && negb (finished f)); intros E; inversion E. reflexivity. Qed.

(** ** Concrete cases: 7 positions in 2 blocks, of 3 and 4. *)
Definition ex_base : list (N * N) := [(10, 15); (20, 17); (40, 45); (80, 85)]%N.
Definition ex_bits : list bool := [false; true; true; true].
Definition ex_blks : list N := [10; 17; 45; 85]%N.
Example mpfss_hypotheses : exists p, make_param 2 7 true = Some p /\ cot_store (require_ot p) 5 ex_base ex_bits ex_blks /\
  in_range 2 7 [1; 0] /\ in_range 2 7 (indexes_of 2 7 ex_bits) /\ indexes_of 2 7 ex_bits = [2; 3].
Proof.
  exists (mkParam 2 7 true). split; [reflexivity|]. split.
  { repeat split; cbn; try lia; destruct i as [|[|[|[|k]]]]; try reflexivity; unfold require_ot in H; cbn in H; lia. }
  split; [split; [cbn; lia|]; intros [|[|i]] Hi; cbn; lia|]. split; [|reflexivity].
  split; [cbn; lia|]; intros [|[|i]] Hi; cbn; lia.
Qed.
Example group_mod : is_group 64 (fun a b => (a + b) mod 2 ^ 64)%N (fun a b => (a + (2 ^ 64 - b)) mod 2 ^ 64)%N.
Proof.
  assert (Z : (2 ^ 64 <> 0)%N) by (apply N.pow_nonzero; lia).
  split; [intros; apply N.mod_lt; exact Z|]. split; [intros; rewrite N.add_comm; reflexivity|]. split.
  { intros. rewrite N.add_mod_idemp_l, N.add_mod_idemp_r by exact Z. rewrite N.add_assoc. reflexivity. }
  split; [intros a Ha; rewrite N.add_0_l; apply N.mod_small; exact Ha|]. split; [intros; apply N.mod_lt; exact Z|].
  intros a b Ha Hb. unfold word in *. set (w := (2 ^ 64)%N) in *. rewrite N.add_mod_idemp_l by exact Z.
  replace (a + (w - b) + b)%N with (a + 1 * w)%N by lia. rewrite N.mod_add by exact Z. apply N.mod_small. exact Ha.
Qed.
Example mpfss_concrete :
  match mpfss ex_h ex_c N.lxor N.lxor true (mkParam 2 7 false) 5 ex_base ex_bits ex_blks [1; 0] (fun _ => 7%N)
          (fun _ => repeat 0%N 4) (fun _ => repeat 0%N 4) [9; 6]%N (repeat 0%N 7) (repeat 0%N 7) with
  | Some (s, r) => map (fun q => N.lxor (fst q) (snd q)) (combine s r) = [0; 9; 0; 6; 0; 0; 0]%N
  | None => False
  end.
Proof. vm_compute. reflexivity. Qed.
(** A malicious secure run with fixed indexes; delta = 3, pre_c = pre_a * 3 + pre_b. *)
Example mp_vole_concrete :
  vole false 3 3 [1; 2; 4]%N [4; 8; 1]%N [7; 14; 13]%N /\
  match mp_vole false (mkParam 2 7 true) (fun x => x) ex_h ex_c true 3 5 ex_base ex_bits ex_blks [0; 0] (fun _ => 7%N)
          (fun _ => repeat 0%N 4) (fun _ => repeat 0%N 4) 2 [1; 2; 4]%N [4; 8; 1]%N [7; 14; 13]%N (repeat 0%N 7) (repeat 0%N 7) (repeat 0%N 7) with
  | Some (a, b, c) => a = [0; 0; 1; 0; 0; 0; 2]%N
  | None => False
  end.
Proof. split; [intros [|[|[|k]]] H; [vm_compute; reflexivity|vm_compute; reflexivity|vm_compute; reflexivity|lia]|vm_compute; reflexivity]. Qed.
(** 64 COTs of two alternating choices. *)
Example ot2vole_hypotheses : let bits := map Nat.odd (seq 0 64) in let base := map (fun i => (N.of_nat i, N.lxor (N.of_nat i) 9)) (seq 0 64) in
  cot_store (1 * 64) 9 base bits (map (fun i => if Nat.odd i then N.lxor (N.of_nat i) 9 else N.of_nat i) (seq 0 64)).
Proof.
  cbn zeta. rewrite Nat.mul_1_l. split; [rewrite map_length, seq_length; auto|]. split; [rewrite map_length, seq_length; auto|].
  split; [rewrite map_length, seq_length; auto|]. split; [reflexivity|]. intros i Hi.
  rewrite (nth_map_seq (fun i => (N.of_nat i, N.lxor (N.of_nat i) 9)) 64 i (0, 0)%N Hi), (nth_map_seq Nat.odd 64 i false Hi).
  rewrite (nth_map_seq (fun i => if Nat.odd i then N.lxor (N.of_nat i) 9 else N.of_nat i) 64 i 0%N Hi). cbn [fst snd]. split; [reflexivity|].
  destruct (Nat.odd i); reflexivity.
Qed.
Print Assumptions mp_vole_check_refuted.
Print Assumptions mpfss_fixed_block_refuted.
