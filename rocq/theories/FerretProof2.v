(** Lemmas about the Ferret model: one batch, and the loop over the batches. *)
From Coq Require Import NArith List Bool Arith Lia.
From Verif Require Import GfModel GfProof GfProps LinCodeModel SpcotModel SpcotProof SpcotProps FerretModel FerretProof FerretCheck.
From Verif Require LinCodeProps.
Import ListNotations.
Open Scope nat_scope.

Lemma uhash_zero seed m : W seed -> universal_hash gf128_mul seed (repeat 0%N m) = 0%N.
Proof.
  intros Hs. rewrite uhash_ev; auto. 2: { apply Forall_forall. intros x Hx. apply repeat_spec in Hx. subst x. apply word0. }
  cbn [ev]. rewrite N.lxor_0_l. replace (ev gf128_mul (repeat 0%N m) seed) with 0%N; [apply (mu_0_r gf128_mul gf128_field); auto|].
  induction m as [|m IH]; [reflexivity|]. cbn [repeat ev]. rewrite <- IH, (mu_0_r gf128_mul gf128_field) by auto. reflexivity.
Qed.
Lemma nth_map_odd l j : nth j (map N.odd l) false = N.odd (nth j l 0%N).
Proof. change false with (N.odd 0). apply map_nth. Qed.
Lemma unit_at_nth n index j : j < n -> nth j (unit_at n index) false = (j =? index).
Proof. intros H. unfold unit_at. apply (nth_map_seq (fun j => j =? index)). auto. Qed.
Lemma unit_at_length n index : length (unit_at n index) = n.
Proof. unfold unit_at. rewrite map_length, seq_length. auto. Qed.
Lemma bits_lt l k : length l = k -> bits_nat l < 2 ^ k.
Proof. intros <-. apply bits_nat_lt. Qed.
Lemma bins_choices_length buf bs bl i m : length (bins_choices buf bs bl i m) = m * bs.
Proof.
  unfold bins_choices. revert i. induction m as [|m IH]; intros i; [reflexivity|]. cbn [seq map concat]. rewrite app_length, IH, unit_at_length. lia.
Qed.
Lemma log2ceil_pow e : log2ceil (2 ^ e) = e.
Proof. unfold log2ceil. apply Nat.log2_up_pow2. lia. Qed.
(** With bins of a power of two and at least two full ones, the second has a puncture. *)
Lemma choices_good c range bs e r : bs = 2 ^ e -> 1 < bs -> 2 * bs < range -> mpcot_need range bs <= length (s_buf c) ->
  length r = range -> map N.odd r = mpcot_choices c range bs -> good_positions r.
Proof.
  intros E Hbs Hr Hn L M. destruct (div_ceil_spec range bs ltac:(lia) ltac:(lia)) as (D1 & D2 & D3).
  unfold mpcot_choices, mpcot_need in *. set (m := div_ceil range bs - 1) in *.
  assert (Hm : 2 <= m) by (destruct m as [|[|m']]; lia). destruct m as [|[|m']]; try lia.
  set (bl := log2ceil bs) in *. assert (Ebl : bl = e) by (unfold bl; rewrite E; apply log2ceil_pow).
  set (x := bin_index (s_buf c) bl 1). assert (Hx : x < bs).
  { unfold x, bin_index. rewrite E. apply bits_lt. rewrite map_length, <- Ebl. apply span_length. nia. }
  exists (bs + x). split; [lia|]. split; [lia|]. rewrite <- nth_map_odd, M. rewrite app_nth1 by (rewrite bins_choices_length; nia).
  unfold bins_choices. cbn [seq map concat]. rewrite app_nth2 by (rewrite unit_at_length; lia). rewrite unit_at_length.
  rewrite app_nth1 by (rewrite unit_at_length; lia). replace (bs + x - bs) with x by lia. rewrite unit_at_nth by auto. apply Nat.eqb_refl.
Qed.

Section Batch.
Variables (h digest : N -> N) (delta : N) (rp : N -> N) (tape : nat -> nat -> N) (check_seed : nat -> N).
Hypothesis delta_lt : W delta.
Hypothesis delta_odd : N.odd delta = true.
Hypothesis seeds_ok : forall i, W (check_seed i).

(** When a check is made it passes. *)
Definition check_fits (mal : bool) (range b have : nat) : Prop :=
  mal = true -> (exists e, b = 2 ^ e) /\ 2 * b < range /\
    (let m := div_ceil range b - 1 in log2ceil b * m + log2ceil (range - m * b) + 128 <= have).
Lemma mpcot_ok mal cs cr range t b i outs outr : 1 < b -> (N.of_nat b <= 2 ^ 31)%N -> 0 < range -> div_ceil range b <= t ->
  (N.of_nat range <= 2 ^ 63)%N ->
  Forall2 (paired delta) (s_buf cs) (s_buf cr) -> s_off cr = s_off cs -> s_len cr = s_len cs ->
  mpcot_need range b <= s_len cs -> s_off cs + s_len cs <= length (s_buf cs) -> check_fits mal range b (length (s_buf cs)) ->
  length outs = range -> length outr = range ->
  exists o r, run_mpcot h digest delta mal cs cr range t b (tape i) (check_seed i) outs outr = Val (o, r) /\
    length o = range /\ Forall2 (paired delta) o r /\ map N.odd r = mpcot_choices cr range b.
Proof.
  intros Hb Hb2 Hr Ht Hr63 R Of Ln Hn Hs Hc Lo Lr. pose proof (Forall2_len _ _ _ R) as LR.
  destruct (mpcot_pair h delta delta_lt delta_odd cs cr range t b (tape i) outs outr Hb Hb2 Hr Ht R Of Ln Hn Hs Lo Lr) as (o & msgs & r & E1 & E2 & L1 & P & C).
  pose proof (Forall2_len _ _ _ P) as L2.
  exists o, r. split; [|auto]. unfold run_mpcot. rewrite E1. cbn [bind fst snd]. rewrite E2. cbn [bind].
  destruct mal; [|reflexivity]. destruct (Hc eq_refl) as ([e Ee] & Hr2 & Hfit). clear Hc. cbn zeta in Hfit.
  unfold run_check, check_slice. set (m := div_ceil range b - 1) in *. set (p := log2ceil b * m + log2ceil (range - m * b)) in *.
  rewrite (slice_val cs), (slice_val cr) by lia. cbn [bind]. replace (p + 128 - p) with 128 by lia.
  destruct (paired_words _ _ _ delta_lt P) as [Wo Wr].
  destruct (check_general digest delta delta_lt (mkStore (s_buf cs) p 128) (mkStore (s_buf cr) p 128) (check_seed i) o r) as (mm & v & F1 & _ & _ & F2); auto.
  - unfold blocks. cbn [s_buf s_off s_len]. apply Forall2_firstn, Forall2_skipn. auto.
  - rewrite blocks_slice. apply span_length. lia.
  - apply (choices_good cr range b e); auto; lia.
  - lia.
  - rewrite F1. cbn [bind fst snd]. rewrite F2. cbn [bind]. unfold recv_accept.
    rewrite errors_paired, uhash_zero, N.lxor_0_r, N.eqb_refl by auto. reflexivity.
Qed.

(** The code's share of a choice. *)
Definition code_choice (k : N) (j : nat) (w : list N) : bool :=
  fold_right xorb false (map (fun x => N.odd (nth (LinCodeProps.lc_index rp k 10 j x) w 0%N)) (seq 0 10)).
Lemma lc_row_odd k j w : N.odd (LinCodeProps.lc_row rp k 10 j w) = code_choice k j w.
Proof.
  unfold LinCodeProps.lc_row, code_choice, LinCodeProps.xors. induction (seq 0 10) as [|x l IH]; [reflexivity|]. cbn [map fold_right]. rewrite odd_xor, IH. reflexivity.
Qed.
Lemma lc_row_paired k j v w : Forall2 (paired delta) v w -> paired delta (LinCodeProps.lc_row rp k 10 j v) (LinCodeProps.lc_row rp k 10 j w).
Proof.
  intros P. unfold LinCodeProps.lc_row, LinCodeProps.xors. induction (seq 0 10) as [|x l IH]; [apply paired_0|]. cbn [map fold_right].
  apply paired_xor; auto. set (q := LinCodeProps.lc_index rp k 10 j x). destruct (Nat.lt_ge_cases q (length v)) as [Hq|Hq].
  - apply (Forall2_nth _ _ _ 0%N 0%N P). auto.
  - rewrite !nth_overflow by (rewrite <- ?(Forall2_len _ _ _ P); auto). apply paired_0.
Qed.
Lemma batch_ok mal code k t b i v w cs cr os orr : make_lcode k = Val code -> (1 <= k)%N -> (k < 2 ^ 31)%N ->
  N.of_nat (length v) = k -> Forall2 (paired delta) v w ->
  1 < b -> (N.of_nat b <= 2 ^ 31)%N -> 0 < length os -> div_ceil (length os) b <= t -> (N.of_nat (length os) <= 2 ^ 32 - 1024)%N ->
  Forall2 (paired delta) (s_buf cs) (s_buf cr) -> s_off cr = s_off cs -> s_len cr = s_len cs ->
  mpcot_need (length os) b <= s_len cs -> s_off cs + s_len cs <= length (s_buf cs) -> check_fits mal (length os) b (length (s_buf cs)) ->
  length orr = length os ->
  exists a r, run_batch h digest delta rp tape check_seed mal code t b i v w cs cr os orr = Val (a, r) /\
    length a = length os /\ Forall2 (paired delta) a r /\
    forall j, j < length os -> N.odd (nth j r 0%N) = xorb (nth j (mpcot_choices cr (length os) b) false) (code_choice k j w).
Proof.
  intros Hcode Hk1 Hk2 Lv Pv Hb Hb2 Hr Ht Hr32 R Of Ln Hn Hs Hc Lr.
  assert (Hr63 : (N.of_nat (length os) <= 2 ^ 63)%N) by (eapply N.le_trans; [exact Hr32|]; discriminate).
  destruct (mpcot_ok mal cs cr (length os) t b i os orr Hb Hb2 Hr Ht Hr63 R Of Ln Hn Hs Hc eq_refl Lr) as (o & r & E & L & P & C).
  pose proof (Forall2_len _ _ _ P) as L2. pose proof (Forall2_len _ _ _ Pv) as Lvw.
  unfold run_batch. rewrite E. cbn [bind fst snd].
  destruct (LinCodeProps.linear_code_encode rp k 10 v o Hk1 Hk2 Lv) as (c1 & a & C1 & A1 & LA & KA); [rewrite L; auto|].
  destruct (LinCodeProps.linear_code_encode rp k 10 w r Hk1 Hk2) as (c2 & x & C2 & A2 & LX & KX); [rewrite <- Lvw; auto|rewrite <- L2, L; auto|].
  rewrite Hcode in C1, C2. injection C1. intros <-. injection C2. intros <-. rewrite A1. cbn [bind]. rewrite A2. cbn [bind].
  exists a, x. split; [reflexivity|]. split; [lia|]. split.
  - apply (nth_Forall2 _ 0%N 0%N); [lia|]. intros j Hj. rewrite KA, KX by lia. apply paired_xor; [|apply lc_row_paired; auto].
    apply (Forall2_nth _ _ _ 0%N 0%N P). lia.
  - intros j Hj. rewrite KX by lia. rewrite odd_xor, lc_row_odd, <- nth_map_odd, C. reflexivity.
Qed.

(** The batches one after the other, [ot] OTs being left: a batch of n OTs, fewer in the last
    one; the choices of each are functions of its seed and of its MPCOT COTs, which are taken
    from the batch before. *)
Fixpoint chain (n k sz mp b ot : nat) (bs : list (list N)) (seed : list N) (c : store) : Prop :=
  match bs with
  | [] => False
  | x :: rest =>
      length x = Nat.min n ot /\
      (forall j, j < length x ->
        N.odd (nth j x 0%N) = xorb (nth j (mpcot_choices c (length x) b) false) (code_choice (N.of_nat k) j seed)) /\
      match rest with [] => ot <= n | _ => n < ot /\ chain n k sz mp b (ot - sz) rest (span x sz k) (new_store (span x (sz + k) mp)) end
  end.
(** What is handed out: the first [sz] of every batch but the last, and the last. *)
Fixpoint delivered (sz : nat) (bs : list (list N)) : list N :=
  match bs with [] => [] | x :: rest => match rest with [] => x | _ => firstn sz x ++ delivered sz rest end end.
(** The length of the last batch. *)
Definition tail_len (n sz ot : nat) : nat := ot - sz * div_ceil (ot - n) sz.
End Batch.

Lemma tail_len_last n sz ot : ot <= n -> tail_len n sz ot = ot.
Proof. intros H. unfold tail_len, div_ceil. replace (ot - n) with 0 by lia. rewrite Nat.eqb_refl. lia. Qed.
Lemma tail_len_le n sz ot : 0 < sz -> tail_len n sz ot <= n.
Proof.
  intros H. destruct (Nat.le_gt_cases ot n) as [|G]; [rewrite tail_len_last by auto; auto|]. unfold tail_len.
  destruct (div_ceil_spec (ot - n) sz ltac:(lia) ltac:(lia)) as (D1 & D2 & D3). set (m := div_ceil (ot - n) sz - 1) in *. nia.
Qed.
Lemma tail_len_step n sz ot : 0 < sz -> sz < n -> n < ot -> tail_len n sz ot = tail_len n sz (ot - sz).
Proof.
  intros H1 H2 H3. unfold tail_len, div_ceil. rewrite (proj2 (Nat.eqb_neq (ot - n) 0)) by lia.
  destruct (Nat.eqb_spec (ot - sz - n) 0) as [E|E].
  - rewrite Nat.div_small by lia. lia.
  - replace (ot - n - 1) with (1 * sz + (ot - sz - n - 1)) by lia. rewrite Nat.div_add_l by lia. lia.
Qed.
Lemma w64_small x : (x < 2 ^ 64)%N -> w64 x = x.
Proof. intros H. unfold w64. apply N.mod_small. auto. Qed.
Lemma sub64_le a b : (b <= a)%N -> (a < 2 ^ 64)%N -> sub64 a b = (a - b)%N.
Proof.
  intros H1 H2. unfold sub64. rewrite (w64_small b) by (eapply N.le_lt_trans; eauto). unfold w64.
  replace (a + (2 ^ 64 - b))%N with (a - b + 1 * 2 ^ 64)%N by lia. rewrite N.mod_add by discriminate. apply N.mod_small. lia.
Qed.

Section Loop.
Variables (h digest : N -> N) (delta : N) (rp : N -> N) (tape : nat -> nat -> N) (check_seed : nat -> N).
Hypothesis delta_lt : W delta.
Hypothesis delta_odd : N.odd delta = true.
Hypothesis seeds_ok : forall i, W (check_seed i).
Variables (mal : bool) (n k t ot : nat) (code : lcode).
Let b := n / t.
Let mp := t * log2ceil b + (if mal then 128 else 0).
Let sz := n - (k + mp).
Hypothesis t_pos : 0 < t.
Hypothesis divides : n = t * b.
Hypothesis b_range : 1 < b /\ (N.of_nat b <= 2 ^ 31)%N.
Hypothesis k_range : (1 <= N.of_nat k < 2 ^ 31)%N.
Hypothesis n_range : (N.of_nat n <= 2 ^ 32 - 1024)%N.
Hypothesis ot_range : (N.of_nat ot < 2 ^ 63)%N.
Hypothesis room : k + mp < n.
Hypothesis code_ok : make_lcode (N.of_nat k) = Val code.

Lemma need_fits range : 0 < range -> range <= n -> mpcot_need range b <= t * log2ceil b /\
  (let m := div_ceil range b - 1 in log2ceil b * m + log2ceil (range - m * b) <= t * log2ceil b) /\ div_ceil range b <= t.
Proof.
  clear -divides b_range. destruct b_range as [Hb _]. intros H1 H2. destruct (div_ceil_spec range b ltac:(lia) H1) as (D1 & D2 & D3).
  unfold mpcot_need. set (m := div_ceil range b - 1) in *. cbn zeta. destruct (log2ceil_spec b Hb) as [_ Hl].
  assert (Hm : S m <= t). { destruct (Nat.le_gt_cases (S m) t); auto. assert (t <= m) by lia. nia. }
  assert (HL : log2ceil (range - m * b) <= log2ceil b) by (apply Nat.log2_up_le_mono; lia). nia.
Qed.
Lemma loop_ok : forall fuel i v w cs cr outs outr,
  length outs = ot -> length outr = ot -> i * sz < ot -> ot <= i * sz + fuel * sz ->
  Forall2 (paired delta) (firstn (i * sz) outs) (firstn (i * sz) outr) ->
  length v = k -> Forall2 (paired delta) v w ->
  Forall2 (paired delta) (s_buf cs) (s_buf cr) -> s_off cr = s_off cs -> s_len cs = mp -> s_len cr = mp -> s_off cs + mp <= length (s_buf cs) ->
  (mal = true -> (exists e, b = 2 ^ e) /\ 2 * b < tail_len n sz (ot - i * sz)) ->
  exists os' or' bs, run_batches h digest delta rp tape check_seed mal code (mkLpn (N.of_nat n) (N.of_nat k) (N.of_nat t))
      (N.of_nat ot) (N.of_nat sz) (N.of_nat mp) i fuel v w cs cr outs outr = Val (os', or') /\
    length os' = ot /\ Forall2 (paired delta) os' or' /\
    or' = firstn (i * sz) outr ++ delivered sz bs /\ chain rp n k sz mp b (ot - i * sz) bs w cr.
Proof.
  assert (Hsz : 0 < sz) by (unfold sz; lia). assert (Hszn : sz < n) by (unfold sz; lia).
  assert (Ht64 : (N.of_nat ot < 2 ^ 64)%N) by (eapply N.lt_trans; [exact ot_range|reflexivity]).
  induction fuel as [|f IH]; intros i v w cs cr outs outr Ls Lr Hi Hf P Lv Pv R O1 N1 N2 Hmp Hmal; [lia|].
  pose proof (Forall2_len _ _ _ R) as LR.
  cbn [run_batches ln lk lt].
  assert (Ed : w64 (N.of_nat i * N.of_nat sz) = N.of_nat (i * sz)) by (rewrite Nat2N.inj_mul; apply w64_small; rewrite <- Nat2N.inj_mul; lia).
  rewrite Ed. rewrite (sub64_le (N.of_nat ot)) by lia.
  replace (N.of_nat ot - N.of_nat (i * sz))%N with (N.of_nat (ot - i * sz)) by lia. set (rest := ot - i * sz) in *.
  rewrite <- Nat2N.inj_min. set (num := Nat.min n rest). rewrite (proj2 (N.ltb_ge (N.of_nat ot) (N.of_nat (i * sz)))) by lia.
  rewrite !Nat2N.id. assert (Eb : N.to_nat (N.of_nat n / N.of_nat t) = b) by (rewrite <- Nat2N.inj_div, Nat2N.id; reflexivity).
  rewrite Eb. assert (Hnum : 0 < num <= n) by (unfold num, rest; lia).
  destruct (need_fits num ltac:(lia) ltac:(lia)) as (F1 & F2 & F3). cbn zeta in F2.
  assert (Lspan : length (span outs (i * sz) num) = num) by (apply span_length; unfold num, rest; lia).
  assert (Lspan2 : length (span outr (i * sz) num) = num) by (apply span_length; unfold num, rest; lia).
  assert (Hneed : mpcot_need num b <= mp) by (unfold mp; lia).
  destruct (batch_ok h digest delta rp tape check_seed delta_lt delta_odd seeds_ok mal code (N.of_nat k) t b i v w cs cr
    (span outs (i * sz) num) (span outr (i * sz) num)) as (a & r & E & La & Pa & Ca); rewrite ?Lspan, ?Lspan2; auto; try tauto; try lia.
  { intros M. destruct (Hmal M) as [He Ht]. split; [auto|]. assert (Ht2 : tail_len n sz rest <= num).
    { unfold num. apply Nat.min_glb; [apply tail_len_le; auto|]. unfold tail_len. lia. }
    split; [lia|]. cbn zeta. assert (Emp : mp = t * log2ceil b + 128) by (unfold mp; rewrite M; reflexivity). lia. }
  rewrite Lspan in *. pose proof (Forall2_len _ _ _ Pa) as Lar. rewrite E. cbn [bind fst snd].
  destruct (N.ltb_spec (N.of_nat num) (N.of_nat rest)) as [Hc|Hc].
  - assert (Hnn : num = n) by (unfold num in *; lia). rewrite Hnn in *. clear num Hnum Hnn.
    rewrite (proj2 (N.ltb_ge _ _)). 2: { rewrite Ls. unfold rest, sz in *. lia. }
    assert (Es : firstn (S i * sz) (splice outs (i * sz) a) = firstn (i * sz) outs ++ firstn sz a).
    { replace (S i * sz) with (i * sz + sz) by lia. unfold splice. rewrite firstn_app, firstn_firstn, firstn_length.
      replace (Nat.min (i * sz + sz) (i * sz)) with (i * sz) by lia. rewrite Nat.min_l by lia. replace (i * sz + sz - i * sz) with sz by lia.
      rewrite firstn_app. replace (sz - length a) with 0 by lia. rewrite firstn_O, app_nil_r. reflexivity. }
    assert (Er : firstn (S i * sz) (splice outr (i * sz) r) = firstn (i * sz) outr ++ firstn sz r).
    { replace (S i * sz) with (i * sz + sz) by lia. unfold splice. rewrite firstn_app, firstn_firstn, firstn_length.
      replace (Nat.min (i * sz + sz) (i * sz)) with (i * sz) by lia. rewrite Nat.min_l by lia. replace (i * sz + sz - i * sz) with sz by lia.
      rewrite firstn_app. replace (sz - length r) with 0 by lia. rewrite firstn_O, app_nil_r. reflexivity. }
    assert (Hfit : sz + k + mp <= n) by (unfold sz; lia).
    assert (Lm : forall l, length l = n -> length (span l (sz + k) mp) = mp) by (intros l Hl; apply span_length; lia).
    destruct (IH (S i) (span a sz k) (span r sz k) (new_store (span a (sz + k) mp)) (new_store (span r (sz + k) mp))
      (splice outs (i * sz) a) (splice outr (i * sz) r)) as (os' & or' & bs & G1 & G2 & G3 & G4 & G5).
    + rewrite splice_length; lia.
    + rewrite splice_length; lia.
    + unfold rest, sz in *. lia.
    + lia.
    + rewrite Es, Er. apply Forall2_app; auto. apply Forall2_firstn. auto.
    + apply span_length. lia.
    + apply Forall2_firstn, Forall2_skipn. auto.
    + cbn [new_store s_buf]. apply Forall2_firstn, Forall2_skipn. auto.
    + reflexivity.
    + cbn [new_store s_len]. apply Lm. auto.
    + cbn [new_store s_len]. apply Lm. lia.
    + cbn [new_store s_buf]. rewrite Lm; auto.
    + intros M. destruct (Hmal M) as [He Ht]. split; auto. replace (ot - S i * sz) with (rest - sz) by (unfold rest; lia).
      rewrite <- tail_len_step; auto. lia.
    + exists os', or', (r :: bs). split; [exact G1|]. split; [auto|]. split; [auto|]. split.
      * rewrite G4, Er, <- app_assoc. f_equal. destruct bs as [|x bs]; [destruct G5|]. reflexivity.
      * cbn [chain]. destruct bs as [|x bs]; [destruct G5|]. split.
        -- rewrite <- Lar, La. fold rest. lia.
        -- split; [intros j Hj; rewrite <- Lar, La in *; rewrite Ca by auto; reflexivity|]. fold rest. split; [lia|].
           replace (rest - sz) with (ot - S i * sz) by (unfold rest; lia). exact G5.
  - assert (Hnn : num = rest) by (unfold num in *; lia). assert (Hrn : rest <= n) by (unfold num in *; lia). rewrite Hnn in *. clear num Hnum Hnn.
    exists (splice outs (i * sz) a), (splice outr (i * sz) r), [r]. split; [reflexivity|].
    rewrite !splice_all by (unfold rest in *; lia). split; [rewrite app_length, firstn_length; unfold rest in *; lia|].
    split; [apply Forall2_app; auto|]. split; [reflexivity|]. cbn [chain]. fold rest. split; [lia|]. split; [|lia].
    intros j Hj. rewrite <- Lar, La in *. rewrite Ca by auto. reflexivity.
Qed.
End Loop.
