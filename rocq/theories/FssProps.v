(** Properties C32, C33 and C34: point functions, comparison functions, puncturable PRF. *)
From Coq Require Import ZArith List Bool Lia.
From Verif Require Import FssModel FssProof.
Import ListNotations.
Open Scope Z_scope.

(** ** Specification *)
(** Two outputs are shares modulo 2^N of a value. *)
Definition shares (N y0 y1 v : Z) : Prop := (y0 + y1) mod 2 ^ N = v mod 2 ^ N.
(** The point and comparison functions on inputs of M bits. *)
Definition point (M : nat) (alpha beta x : Z) : Z :=
  if x mod 2 ^ Z.of_nat M =? alpha mod 2 ^ Z.of_nat M then beta else 0.
Definition below (M : nat) (alpha beta x : Z) : Z :=
  if x mod 2 ^ Z.of_nat M <? alpha mod 2 ^ Z.of_nat M then beta else 0.

(** ** Helpers *)
Lemma agree_mod x a k : agree (ge_bit x) (ge_bit a) 0 k = (x mod 2 ^ Z.of_nat k =? a mod 2 ^ Z.of_nat k).
Proof.
  apply eq_true_iff_eq. rewrite agree_spec, Z.eqb_eq. split.
  - intros H. apply Z.bits_inj'. intros i Hi. destruct (Z.lt_ge_cases i (Z.of_nat k)).
    + rewrite !Z.mod_pow2_bits_low by lia. specialize (H (Z.to_nat i) ltac:(lia)). unfold ge_bit in H. rewrite Z2Nat.id in H by lia. exact H.
    + rewrite !Z.mod_pow2_bits_high by lia. auto.
  - intros H i Hi. unfold ge_bit. rewrite <- (Z.mod_pow2_bits_low x (Z.of_nat k)), <- (Z.mod_pow2_bits_low a (Z.of_nat k)) by lia. rewrite H. auto.
Qed.
Lemma val_range N s : 0 < N <= 128 -> 0 <= ge_val N s < 2 ^ N.
Proof. intros H. rewrite val_eq by auto. apply Z.mod_pos_bound. apply Z.pow_pos_nonneg; lia. Qed.
Lemma shares_of_add N a b v : 0 < N <= 128 -> ge_val N (ge_add a b) = v mod 2 ^ N -> shares N (ge_val N a) (ge_val N b) v.
Proof.
  intros HN H. unfold shares. rewrite <- H. rewrite <- val_eq by auto. apply val_of_eqm; auto.
  rewrite add_eqm, !val_eqm by auto. reflexivity.
Qed.
Lemma shares_raw N a b v : 0 < N <= 128 -> ge_val N (ge_add a b) = v mod 2 ^ N -> shares N a b v.
Proof.
  intros HN H. unfold shares. rewrite <- H. rewrite <- val_eq by auto. apply val_of_eqm; auto. rewrite add_eqm by auto. reflexivity.
Qed.
Lemma zero_mod N : 0 mod 2 ^ N = 0.
Proof. apply Zmod_0_l. Qed.

Section DpfHelp.
Variables (split : Z -> (Z * bool) * (Z * bool)) (prg : Z -> Z) (N : Z) (M : nat).
Hypothesis HN : 0 < N <= 128.

Lemma single_word (t1 : bool) beta p0 p1 :
  cong (2 ^ N) (let v := ge_val N (ge_add (ge_add beta (ge_rev N p0)) p1) in if t1 then ge_val N (ge_rev N v) else v)
    (if t1 then - (beta - p0 + p1) else beta - p0 + p1).
Proof. cbn zeta. destruct t1; rewrite ?val_eqm, ?rev_eqm, ?val_eqm, ?add_eqm, ?rev_eqm by auto; cring. Qed.
Lemma final_word_eqm t1 w target : cong (2 ^ N) w target -> cong (2 ^ N) (final_word N t1 w) (if t1 then - target else target).
Proof. intros H. unfold final_word. rewrite val_eqm by auto. destruct t1; rewrite ?rev_eqm, H by auto; reflexivity. Qed.

Lemma dpf_point_eval alpha beta mk0 mk1 term x :
  let '(k0, k1) := dpf_gen split prg N M alpha beta mk0 mk1 false term in
  exists y0 y1, dpf_eval split prg N M k0 x = Some y0 /\ dpf_eval split prg N M k1 x = Some y1 /\
    0 <= y0 < 2 ^ N /\ 0 <= y1 < 2 ^ N /\ shares N y0 y1 (point M alpha beta x).
Proof.
  unfold dpf_gen. pose proof (words_spec split alpha M 0 mk0 mk1 false) as W. cbn [negb] in W.
  destruct (dpf_words split alpha 0 M mk0 mk1 false true) as [[ws [s0 t0]] [s1 t1]]. destruct W as (L & T & W). cbn [snd] in T. subst t0.
  unfold dpf_eval. cbn [evalall cws mseed rank last_cw nth]. rewrite firstn_all2 by lia. specialize (W x). rewrite agree_mod in W.
  unfold point. set (w := if t1 then _ else _).
  assert (Ew : cong (2 ^ N) w (if t1 then - (beta - prg s0 + prg s1) else beta - prg s0 + prg s1)) by apply single_word.
  destruct (x mod 2 ^ Z.of_nat M =? alpha mod 2 ^ Z.of_nat M).
  - destruct W as [W0 W1]. rewrite W0, W1. eexists. eexists. split; [reflexivity|]. split; [reflexivity|].
    split; [apply val_range; auto|]. split; [apply val_range; auto|]. apply shares_of_add; auto.
    pose proof (outs_on N HN (negb t1) (prg s0) (prg s1) w beta) as O. rewrite negb_involutive in O. apply O. exact Ew.
  - rewrite W. destruct (dpf_walk split ws 0 x (mk1, true)) as [s t]. eexists. eexists. split; [reflexivity|]. split; [reflexivity|].
    split; [apply val_range; auto|]. split; [apply val_range; auto|]. apply shares_of_add; auto. rewrite outs_off, zero_mod by auto. auto.
Qed.

Lemma dpf_all_eval alpha beta mk0 mk1 term mem0 mem1 : (term <= M)%nat -> (0 < M)%nat -> (M <= 64)%nat -> (M - term <= 32)%nat ->
  let '(k0, k1) := dpf_gen split prg N M alpha beta mk0 mk1 true term in
  exists o0 o1, dpf_eval_all split prg N M k0 term mem0 = Some o0 /\ dpf_eval_all split prg N M k1 term mem1 = Some o1 /\
    (forall x, 0 <= x < 2 ^ Z.of_nat M -> shares N (o0 x) (o1 x) (point M alpha beta x)) /\
    (forall x, x < 0 \/ 2 ^ Z.of_nat M <= x -> o0 x = mem0 x /\ o1 x = mem1 x).
Proof.
  intros Ht HM HM2 H32. unfold dpf_gen. pose proof (words_spec split alpha term 0 mk0 mk1 false) as W. cbn [negb] in W.
  destruct (dpf_words split alpha 0 term mk0 mk1 false true) as [[ws [s0 t0]] [s1 t1]]. destruct W as (L & T & W). cbn [snd] in T. subst t0.
  unfold dpf_eval_all. cbn [evalall cws mseed rank]. rewrite firstn_all2 by lia.
  eexists. eexists. split; [reflexivity|]. split; [reflexivity|].
  set (m := 2 ^ Z.of_nat term). assert (P : 0 < m) by (apply Z.pow_pos_nonneg; lia).
  assert (EM : 2 ^ Z.of_nat M = m * 2 ^ Z.of_nat (M - term)).
  { unfold m. rewrite <- Z.pow_add_r by lia. f_equal. lia. }
  assert (EE : Z.of_nat (2 ^ (M - term)) = 2 ^ Z.of_nat (M - term)) by (rewrite Nat2Z.inj_pow; reflexivity).
  assert (P2 : 0 < 2 ^ Z.of_nat (M - term)) by (apply Z.pow_pos_nonneg; lia).
  set (apos := (ge_val (Z.of_nat M) alpha / m) mod 2 ^ 32).
  assert (Eap : apos = (alpha mod 2 ^ Z.of_nat M) / m).
  { unfold apos. rewrite val_eq by lia. apply Z.mod_small.
    pose proof (Z.mod_pos_bound alpha (2 ^ Z.of_nat M) ltac:(lia)) as B. split; [apply Z.div_pos; lia|].
    apply Z.lt_le_trans with (2 ^ Z.of_nat (M - term)); [apply Z.div_lt_upper_bound; lia|]. apply Z.pow_le_mono_r; lia. }
  split.
  - intros x Hx. rewrite !traverse_spec by (try (rewrite ?L; lia); cbn; lia).
    change (Z.of_nat 0) with 0. change (2 ^ 0) with 1. rewrite Z.mod_1_r, Z.eqb_refl. fold m.
    destruct (Z.leb_spec 0 x); [|lia].
    assert (Q : x / m < 2 ^ Z.of_nat (M - term)) by (apply Z.div_lt_upper_bound; lia).
    assert (Q0 : 0 <= x / m) by (apply Z.div_pos; lia).
    rewrite EE. destruct (Z.ltb_spec (x / m) (2 ^ Z.of_nat (M - term))); [|lia]. cbn [andb rank last_cw].
    specialize (W x). rewrite agree_mod in W. fold m in W.
    set (i := Z.to_nat (x / m)). assert (Ei : Z.of_nat i = x / m) by (unfold i; lia).
    rewrite final_words_nth by lia. cbn [Z.add]. rewrite Ei.
    assert (Em : (alpha mod 2 ^ Z.of_nat M) mod m = alpha mod m).
    { symmetry. apply Znumtheory.Zmod_div_mod; try lia. exists (2 ^ Z.of_nat (M - term)). lia. }
    assert (PX : (x mod 2 ^ Z.of_nat M =? alpha mod 2 ^ Z.of_nat M) = (x mod m =? alpha mod m) && (x / m =? apos)).
    { rewrite (Z.mod_small x) by lia. rewrite Eap, <- Em. set (al := alpha mod 2 ^ Z.of_nat M).
      pose proof (Z_div_mod_eq_full x m). pose proof (Z_div_mod_eq_full al m).
      apply eq_true_iff_eq. rewrite andb_true_iff, !Z.eqb_eq. split; [intros ->; auto|]. intros [A B]. rewrite A, B in *. lia. }
    apply shares_raw; auto. unfold point. rewrite PX.
    destruct (x mod m =? alpha mod m); cbn [andb].
    + destruct W as [W0 W1]. rewrite W0, W1.
      pose proof (outs_on N HN (negb t1) (chain prg N i (prg s0)) (chain prg N i (prg s1))) as O. rewrite negb_involutive in O. apply O.
      destruct (x / m =? apos); apply final_word_eqm; rewrite ?add_eqm, ?rev_eqm, ?add_eqm, ?rev_eqm by auto; cring.
    + rewrite W. destruct (dpf_walk split ws 0 x (mk1, true)) as [s t]. rewrite outs_off, zero_mod by auto. auto.
  - intros x Hx. rewrite !traverse_spec by (try (rewrite ?L; lia); cbn; lia). fold m. rewrite EE.
    destruct Hx as [Hx|Hx].
    + destruct (Z.leb_spec 0 x); [lia|]. rewrite andb_false_r. auto.
    + assert (2 ^ Z.of_nat (M - term) <= x / m) by (apply Z.div_le_lower_bound; lia).
      destruct (Z.ltb_spec (x / m) (2 ^ Z.of_nat (M - term))); [lia|]. rewrite andb_false_r. auto.
Qed.
End DpfHelp.

(** ** C32 *)
(** Point evaluation, for every PRG and all seeds. *)
Theorem dpf_correct split prg N M alpha beta mk0 mk1 term x : 0 < N <= 128 -> (0 < M <= 64)%nat ->
  let '(k0, k1) := dpf_gen split prg N M alpha beta mk0 mk1 false term in
  exists y0 y1, dpf_eval split prg N M k0 x = Some y0 /\ dpf_eval split prg N M k1 x = Some y1 /\
    0 <= y0 < 2 ^ N /\ 0 <= y1 < 2 ^ N /\ shares N y0 y1 (point M alpha beta x).
Proof. intros HN _. exact (dpf_point_eval split prg N M HN alpha beta mk0 mk1 term x). Qed.
Print Assumptions dpf_correct.

(** Full-domain evaluation: for every terminal level at most 32 below M (the code's is at
    most 4 below), all 2^M positions are written, and only those. *)
Theorem dpf_all_correct split prg N M alpha beta mk0 mk1 term mem0 mem1 : 0 < N <= 128 -> (0 < M <= 64)%nat -> (term <= M)%nat -> (M - term <= 32)%nat ->
  let '(k0, k1) := dpf_gen split prg N M alpha beta mk0 mk1 true term in
  exists o0 o1, dpf_eval_all split prg N M k0 term mem0 = Some o0 /\ dpf_eval_all split prg N M k1 term mem1 = Some o1 /\
    (forall x, 0 <= x < 2 ^ Z.of_nat M -> shares N (o0 x) (o1 x) (point M alpha beta x)) /\
    (forall x, x < 0 \/ 2 ^ Z.of_nat M <= x -> o0 x = mem0 x /\ o1 x = mem1 x).
Proof. intros HN [H1 H2] H3 H4. exact (dpf_all_eval split prg N M HN alpha beta mk0 mk1 term mem0 mem1 H3 H1 H2 H4). Qed.
Print Assumptions dpf_all_correct.

(** ** C33 *)
Lemma lower_spec M x a todo : forall i, (i + todo = M)%nat ->
  lower M x a i todo = (x mod 2 ^ Z.of_nat todo ?= a mod 2 ^ Z.of_nat todo).
Proof.
  induction todo as [|todo IH]; intros i Hi; cbn [lower].
  - change (2 ^ Z.of_nat 0) with 1. rewrite !Z.mod_1_r. reflexivity.
  - rewrite IH by lia. replace (M - i - 1)%nat with todo by lia.
    set (m := 2 ^ Z.of_nat todo). assert (P : 0 < m) by (apply Z.pow_pos_nonneg; lia).
    assert (E : 2 ^ Z.of_nat (S todo) = m * 2). { unfold m. rewrite Nat2Z.inj_succ, Z.pow_succ_r by lia. lia. }
    assert (B : forall y, y mod (m * 2) = y mod m + m * (if ge_bit y todo then 1 else 0)).
    { intros y. rewrite Z.rem_mul_r by lia. unfold ge_bit. rewrite Z.testbit_odd, Z.shiftr_div_pow2 by lia. fold m. rewrite Zmod_odd. auto. }
    rewrite E, !B. pose proof (Z.mod_pos_bound x m P). pose proof (Z.mod_pos_bound a m P).
    destruct (ge_bit x todo), (ge_bit a todo); symmetry.
    + rewrite Z.mul_1_r. destruct (Z.compare_spec (x mod m) (a mod m)); [apply Z.compare_eq_iff|apply Z.compare_lt_iff|apply Z.compare_gt_iff]; lia.
    + apply Z.compare_gt_iff. lia.
    + apply Z.compare_lt_iff. lia.
    + destruct (Z.compare_spec (x mod m) (a mod m)); [apply Z.compare_eq_iff|apply Z.compare_lt_iff|apply Z.compare_gt_iff]; lia.
Qed.
Theorem dcf_correct split prg N M alpha beta mk0 mk1 x : 0 < N <= 128 -> (0 < M <= 64)%nat ->
  let '(k0, k1) := dcf_gen split prg N M alpha beta mk0 mk1 in
  let y0 := dcf_eval split prg N M k0 x in let y1 := dcf_eval split prg N M k1 x in
  0 <= y0 < 2 ^ N /\ 0 <= y1 < 2 ^ N /\ shares N y0 y1 (below M alpha beta x).
Proof.
  intros HN HM. unfold dcf_gen. pose proof (dcf_words_spec split prg N M HN alpha beta M 0 mk0 mk1 false 0) as W. cbn [negb] in W.
  destruct (dcf_words split prg N M alpha beta 0 M mk0 mk1 false true 0) as [[[ws [s0 t0]] [s1 t1]] v].
  destruct W as (L & T & W). cbn [snd] in T. subst t0.
  unfold dcf_eval. cbn [drank dmseed dcws dlast]. rewrite firstn_all2 by lia.
  set (w := ge_val N _).
  assert (Ew : cong (2 ^ N) w (if t1 then - (prg s1 - prg s0 - v) else prg s1 - prg s0 - v)).
  { unfold w. rewrite val_eqm by auto. destruct t1; rewrite ?rev_eqm, !add_eqm, !rev_eqm by auto; cring. }
  specialize (W x 0 0 (cong_eq _ _ _ eq_refl)). rewrite (lower_spec M x alpha M 0 eq_refl) in W.
  destruct (dcf_walk split prg N M false ws 0 x mk0 false 0) as [[a0 b0] r0].
  destruct (dcf_walk split prg N M true ws 0 x mk1 true 0) as [[a1 b1] r1].
  cbn zeta. split; [apply val_range; auto|]. split; [apply val_range; auto|].
  apply shares_of_add; auto. rewrite <- val_eq by auto. apply val_of_eqm; auto.
  fold (cond b0 (prg a0) w). fold (cond b1 (prg a1) w). rewrite !add_eqm, !signed_eqm, !cond_eqm by auto.
  unfold below. rewrite Z.ltb_compare.
  destruct (x mod 2 ^ Z.of_nat M ?= alpha mod 2 ^ Z.of_nat M).
  - destruct W as (A & B & C). injection A as -> ->. injection B as -> ->.
    transitivity (v + prg s0 - prg s1 + (if t1 then - w else w)).
    + rewrite <- C. destruct t1; cbn [negb]; cring.
    + destruct t1; rewrite Ew; cring.
  - destruct W as (A & B & C). subst a1 b1. transitivity (r0 + r1); [destruct b0; cring|exact C].
  - destruct W as (A & B & C). subst a1 b1. transitivity (r0 + r1); [destruct b0; cring|exact C].
Qed.
Print Assumptions dcf_correct.

(** ** C34 *)
Section PprfHelp.
Variables (gl gr : Z -> Z) (N : Z).
Lemma find_insert (m : list (nat * Z)) i v j : find m i = None -> find (insert m i v) j = if Nat.eqb i j then Some v else find m j.
Proof.
  intros H. unfold insert. rewrite H. unfold find in *. induction m as [|[a b] m IH]; cbn [app List.find fst] in *.
  - destruct (Nat.eqb i j); reflexivity.
  - destruct (Nat.eqb_spec a i) as [->|Hi]; [discriminate|].
    destruct (Nat.eqb_spec a j) as [->|].
    + destruct (Nat.eqb_spec i j); [congruence|]. reflexivity.
    + apply IH, H.
Qed.
(** The seed of the sibling of the path to p at level j. *)
Definition path (x : Z) (i k : nat) (s : Z) : Z := fold_left (fun s i => if ge_bit x i then gr s else gl s) (seq i k) s.
Lemma ggm_punc_find p todo : forall i s m j, (forall k, (i <= k)%nat -> find m k = None) ->
  find (ggm_punc gl gr i todo s p m) j =
  if (i <=? j)%nat && (j <? i + todo)%nat
  then Some (let q := path p i (j - i) s in if ge_bit p j then gl q else gr q)
  else find m j.
Proof.
  induction todo as [|todo IH]; intros i s m j Hm; cbn [ggm_punc].
  - destruct (Nat.leb_spec i j), (Nat.ltb_spec j (i + 0)); try lia; reflexivity.
  - destruct (ge_bit p i) eqn:Eb.
    + rewrite IH.
      2: { intros k Hk. rewrite find_insert by (apply Hm; lia). destruct (Nat.eqb_spec i k); [lia|]. apply Hm. lia. }
      destruct (Nat.leb_spec (S i) j), (Nat.leb_spec i j), (Nat.ltb_spec j (S i + todo)), (Nat.ltb_spec j (i + S todo)); try lia; cbn [andb].
      * replace (j - i)%nat with (S (j - S i)) by lia. unfold path. cbn [seq fold_left]. rewrite Eb. reflexivity.
      * rewrite find_insert by (apply Hm; lia). destruct (Nat.eqb_spec i j); [lia|]. auto.
      * replace j with i by lia. rewrite find_insert, Nat.eqb_refl by (apply Hm; lia). rewrite Nat.sub_diag. cbn [path seq fold_left]. rewrite Eb. reflexivity.
      * rewrite find_insert by (apply Hm; lia). destruct (Nat.eqb_spec i j); [lia|]. auto.
    + rewrite find_insert.
      2: { rewrite IH by (intros k Hk; apply Hm; lia). destruct (Nat.leb_spec (S i) i); [lia|]. cbn [andb]. apply Hm. lia. }
      rewrite IH by (intros k Hk; apply Hm; lia).
      destruct (Nat.eqb_spec i j) as [->|].
      * destruct (Nat.leb_spec j j), (Nat.ltb_spec j (j + S todo)); try lia. cbn [andb]. rewrite Nat.sub_diag. cbn [path seq fold_left]. rewrite Eb. reflexivity.
      * destruct (Nat.leb_spec (S i) j), (Nat.leb_spec i j), (Nat.ltb_spec j (S i + todo)), (Nat.ltb_spec j (i + S todo)); try lia; cbn [andb]; auto.
        replace (j - i)%nat with (S (j - S i)) by lia. unfold path. cbn [seq fold_left]. rewrite Eb. reflexivity.
Qed.
Lemma path_ext x y i k s : (forall j, (i <= j < i + k)%nat -> ge_bit x j = ge_bit y j) -> path x i k s = path y i k s.
Proof.
  revert i s. induction k as [|k IH]; intros i s H; [reflexivity|]. unfold path. cbn [seq fold_left]. rewrite (H i) by lia.
  apply IH. intros j Hj. apply H. lia.
Qed.
Lemma path_app x i k l s : path x i (k + l) s = path x (i + k) l (path x i k s).
Proof. unfold path. rewrite seq_app, fold_left_app. reflexivity. Qed.
Lemma punc_walk_some key x todo : forall i s, punc_walk gl gr key x i todo (Some s) = Some (Some (path x i todo s)).
Proof. induction todo as [|todo IH]; intros i s; cbn [punc_walk]; [reflexivity|]. rewrite IH. reflexivity. Qed.
Lemma punc_walk_none pp m x s M : (forall j, (j < M)%nat -> find m j = Some (let q := path pp 0 j s in if ge_bit pp j then gl q else gr q)) ->
  forall todo i, (i + todo = M)%nat -> (forall j, (j < i)%nat -> ge_bit x j = ge_bit pp j) ->
  punc_walk gl gr (pp, m) x i todo None = Some (if agree (ge_bit x) (ge_bit pp) i todo then None else Some (path x 0 M s)).
Proof.
  intros Hm. induction todo as [|todo IH]; intros i Hi Hx; cbn [punc_walk agree fst snd]; [reflexivity|].
  destruct (Bool.eqb_spec (ge_bit x i) (ge_bit pp i)) as [E|E]; cbn [andb].
  - apply IH; [lia|]. intros j Hj. destruct (Nat.eq_dec j i) as [->|]; auto. apply Hx. lia.
  - rewrite Hm by lia. rewrite punc_walk_some. cbn zeta. f_equal. f_equal.
    rewrite (path_ext pp x 0 i) by (intros j Hj; symmetry; apply Hx; lia).
    rewrite <- Hi, path_app. cbn [Nat.add]. set (q := path x 0 i s).
    change (path x i (S todo) q) with (path x (S i) todo (if ge_bit x i then gr q else gl q)). f_equal.
    destruct (ge_bit x i), (ge_bit pp i); congruence.
Qed.
End PprfHelp.

(** For widths up to 58 and a fresh key object; missing: wider inputs (see below). *)
Theorem pprf_correct_partial gl gr N M key p : 0 < N <= 128 -> (0 < M <= 58)%nat ->
  exists pk, pprf_punc gl gr M key p (0, []) = Some pk /\
  forall x, pprf_punc_eval gl gr N M pk x =
    if x mod 2 ^ Z.of_nat M =? p mod 2 ^ Z.of_nat M then None else Some (pprf_eval gl gr N M key x).
Proof.
  intros HN HM. unfold pprf_punc. destruct (Nat.eqb_spec M 64); [lia|].
  assert (2 ^ Z.of_nat M <= 2 ^ 58) by (apply Z.pow_le_mono_r; lia).
  destruct (Z.ltb_spec ((2 ^ 63 - 1) / 16) (2 ^ Z.of_nat M)) as [H1|H1]; [exfalso; change ((2 ^ 63 - 1) / 16) with 576460752303423487 in H1; change (2 ^ 58) with 288230376151711744 in H; lia|].
  eexists. split; [reflexivity|]. intros x. unfold pprf_punc_eval. cbn [fst snd].
  assert (HMz : 0 < Z.of_nat M <= 128) by lia.
  rewrite val_idem, !val_eq, Z.eqb_sym by auto. destruct (Z.eqb_spec (x mod 2 ^ Z.of_nat M) (p mod 2 ^ Z.of_nat M)) as [E|E]; auto.
  set (pp := p mod 2 ^ Z.of_nat M).
  assert (Bits : forall j, (j < M)%nat -> ge_bit pp j = ge_bit p j) by (intros j Hj; unfold ge_bit, pp; apply Z.mod_pow2_bits_low; lia).
  rewrite (punc_walk_none gl gr pp _ x key M) with (i := 0%nat).
  - rewrite agree_mod. unfold pp. rewrite Z.mod_mod by (apply Z.pow_nonzero; lia).
    destruct (Z.eqb_spec (x mod 2 ^ Z.of_nat M) (p mod 2 ^ Z.of_nat M)); [contradiction|]. reflexivity.
  - intros j Hj. rewrite ggm_punc_find by reflexivity. cbn [Nat.leb Nat.add]. destruct (Nat.ltb_spec j M); [|lia]. cbn [andb].
    rewrite Nat.sub_0_r. cbn zeta. rewrite Bits by auto. rewrite (path_ext gl gr pp p) by (intros; apply Bits; lia). reflexivity.
  - reflexivity.
  - intros j Hj. lia.
Qed.
Print Assumptions pprf_correct_partial.

(** The supported width 64 (static_assert M <= 64, explicit instantiation) always throws. *)
Theorem pprf_width64_refuted : forall gl gr key p out, pprf_punc gl gr 64 key p out = None.
Proof. intros. unfold pprf_punc. reflexivity. Qed.
Print Assumptions pprf_width64_refuted.

(** Puncturing into a key object that was used before keeps the old seeds: evaluation is wrong. *)
Theorem pprf_reused_key_refuted : exists gl gr key1 key2 p pk1 pk2 x,
  pprf_punc gl gr 2 key1 p (0, []) = Some pk1 /\ pprf_punc gl gr 2 key2 p pk1 = Some pk2 /\
  x <> p /\ 0 <= x < 4 /\ pprf_punc_eval gl gr 64 2 pk2 x <> Some (pprf_eval gl gr 64 2 key2 x).
Proof.
  exists (fun s => 2 * s), (fun s => 2 * s + 1), 5, 9, 1. eexists. eexists. exists 0.
  split; [vm_compute; reflexivity|]. split; [vm_compute; reflexivity|]. split; [discriminate|]. split; [split; [discriminate|reflexivity]|].
  vm_compute. discriminate.
Qed.
Print Assumptions pprf_reused_key_refuted.

(** ** Concrete cases *)
Definition ex_split (s : Z) : (Z * bool) * (Z * bool) := ((s * 7 + 3, Z.odd s), (s * 11 + 5, Z.odd (s / 2))).
Definition ex_prg (s : Z) : Z := (s * 6364136223846793005 + 1442695040888963407) mod 2 ^ 128.
Example dpf_concrete :
  let '(k0, k1) := dpf_gen ex_split ex_prg 8 3 5 77 11 22 false 3 in
  map (fun x => match dpf_eval ex_split ex_prg 8 3 k0 x, dpf_eval ex_split ex_prg 8 3 k1 x with Some a, Some b => (a + b) mod 256 | _, _ => -1 end) [0; 1; 2; 3; 4; 5; 6; 7]
  = [0; 0; 0; 0; 0; 77; 0; 0].
Proof. vm_compute. reflexivity. Qed.
Example dpf_all_concrete :
  let '(k0, k1) := dpf_gen ex_split ex_prg 8 3 5 77 11 22 true 2 in
  match dpf_eval_all ex_split ex_prg 8 3 k0 2 (fun _ => 0), dpf_eval_all ex_split ex_prg 8 3 k1 2 (fun _ => 0) with
  | Some a, Some b => map (fun x => (a x + b x) mod 256) [0; 1; 2; 3; 4; 5; 6; 7] = [0; 0; 0; 0; 0; 77; 0; 0]
  | _, _ => False
  end.
Proof. vm_compute. reflexivity. Qed.
Definition ex_dsplit (s : Z) : (Z * Z * bool) * (Z * Z * bool) := ((s * 7 + 3, s + 1, Z.odd s), (s * 11 + 5, s + 2, Z.odd (s / 2))).
Example dcf_concrete :
  let '(k0, k1) := dcf_gen ex_dsplit ex_prg 8 3 5 77 11 22 in
  map (fun x => (dcf_eval ex_dsplit ex_prg 8 3 k0 x + dcf_eval ex_dsplit ex_prg 8 3 k1 x) mod 256) [0; 1; 2; 3; 4; 5; 6; 7]
  = [77; 77; 77; 77; 77; 0; 0; 0].
Proof. vm_compute. reflexivity. Qed.
