(** Lemmas on the observers of a bitset. *)
From Coq Require Import ZArith NArith List Bool Arith Lia.
From Verif Require Import LinCodeModel BitsetModel BitsetProof BitsetProof2.
Import ListNotations.
Open Scope nat_scope.

Lemma for_each_inv {A} (f : nat -> A -> outcome A) (P : nat -> A -> Prop) : forall c a m,
  P a m -> (forall i m, a <= i < a + c -> P i m -> exists m', f i m = Val m' /\ P (S i) m') ->
  exists m', for_each f (seq a c) m = Val m' /\ P (a + c) m'.
Proof.
  induction c as [|c IH]; intros a m H Hs; cbn [seq for_each].
  - exists m. rewrite Nat.add_0_r. auto.
  - destruct (Hs a m ltac:(lia) H) as (m1 & E1 & P1). rewrite E1. cbn [bind]. destruct (IH (S a) m1 P1) as (m2 & E2 & P2).
    + intros i m' Hi Pi. apply Hs; [lia|auto].
    + exists m2. split; [exact E2|]. replace (a + S c) with (S a + c) by lia. exact P2.
Qed.
Lemma for_each_ext {A} (f g : nat -> A -> outcome A) : forall l m, (forall i m, In i l -> f i m = g i m) -> for_each f l m = for_each g l m.
Proof.
  induction l as [|i l IH]; intros m H; cbn [for_each]; [reflexivity|]. rewrite H by (left; auto). destruct (g i m); cbn [bind]; auto. apply IH. intros; apply H; right; auto.
Qed.
Lemma filter_none {A} (f : A -> bool) l : (forall x, In x l -> f x = false) -> filter f l = [].
Proof. induction l as [|x l IH]; intros H; cbn [filter]; [reflexivity|]. rewrite H by (left; auto). apply IH. intros; apply H; right; auto. Qed.
Lemma seq_split a b c : a <= b -> b <= c -> seq a (c - a) = seq a (b - a) ++ seq b (c - b).
Proof. intros H1 H2. replace (c - a) with ((b - a) + (c - b)) by lia. rewrite seq_app. f_equal. f_equal. lia. Qed.
Lemma filter_shift (h : nat -> bool) a c : length (filter h (seq a c)) = length (filter (fun k => h (a + k)) (seq 0 c)).
Proof.
  assert (G : forall c s, length (filter h (seq (a + s) c)) = length (filter (fun k => h (a + k)) (seq s c))).
  { clear c. induction c as [|c IH]; intros s; cbn [seq filter]; [reflexivity|]. replace (S (a + s)) with (a + S s) by lia. destruct (h (a + s)); cbn [length]; rewrite IH; reflexivity. }
  rewrite <- (G c 0). rewrite Nat.add_0_r. reflexivity.
Qed.

Lemma firstn_snoc (m : list N) i : i < length m -> firstn (S i) m = firstn i m ++ [nth i m 0%N].
Proof. revert i. induction m as [|x m IH]; intros [|i] H; cbn [length firstn nth app] in *; try lia; [reflexivity|]. rewrite IH by lia. reflexivity. Qed.

Section Bits.
Variable B : nat.
Hypothesis HB : 0 < B.
Notation req := (blocks_required B).
Notation repr := (repr B).
Notation small := (small B).
Local Notation tb_one := (BitsetProof.tb_one B HB).
Local Notation tb_cast := (BitsetProof.tb_cast B HB).
Local Notation tb_inv := (BitsetProof.tb_inv B HB).
Local Notation tb_shl := (BitsetProof.tb_shl B HB).
Local Notation tb_shr := (BitsetProof.tb_shr B HB).
Local Notation tb_1 := (BitsetProof.tb_1 B HB).

Lemma tb_ext_small x y : small x -> small y -> (forall k, k < B -> tb x k = tb y k) -> x = y.
Proof. intros Hx Hy H. apply N.bits_inj. intros k. rewrite <- (N2Nat.id k). change (tb x (N.to_nat k) = tb y (N.to_nat k)). destruct (Nat.ltb_spec (N.to_nat k) B); [auto|]. rewrite Hx, Hy by auto. reflexivity. Qed.
Lemma small_0 : small 0%N.
Proof. intros k _. apply tb_0. Qed.
Lemma small_one : small (one_block B).
Proof. intros k K. rewrite tb_one. apply Nat.ltb_ge. auto. Qed.
Lemma zero_or x : small x -> (x =? 0)%N = true \/ exists k, k < B /\ tb x k = true.
Proof.
  intros Hx. destruct (existsb (tb x) (seq 0 B)) eqn:E.
  - right. apply existsb_exists in E as (k & I & T). apply in_seq in I. exists k. split; [lia|auto].
  - left. apply N.eqb_eq. apply tb_ext_small; auto using small_0. intros k K. rewrite tb_0. destruct (tb x k) eqn:T; [|reflexivity].
    assert (existsb (tb x) (seq 0 B) = true) by (apply existsb_exists; exists k; split; [apply in_seq; lia|auto]). congruence.
Qed.
Lemma nonzero_bit x k : tb x k = true -> (x =? 0)%N = false.
Proof. intros T. apply N.eqb_neq. intros ->. rewrite tb_0 in T. discriminate. Qed.
Lemma repr_nth_small s n f j : repr s n f -> small (nth j (blocks s) 0%N).
Proof. intros (E1 & E2 & E3) k K. rewrite E3. apply Nat.ltb_ge in K. rewrite K. reflexivity. Qed.
Lemma repr_at s n f i : repr s n f -> i < n -> i / B < length (blocks s) /\ tb (nth (i / B) (blocks s) 0%N) (i mod B) = f i.
Proof.
  intros (E1 & E2 & E3) Hi. destruct (div_spec B HB i) as [D L]. destruct (req_spec B HB n). split; [rewrite E2; nia|]. rewrite E3, <- D. apply Nat.ltb_lt in L. rewrite L.
  apply Nat.ltb_lt in Hi. rewrite Hi. reflexivity.
Qed.
Lemma repr_bit s n f j k : repr s n f -> tb (nth j (blocks s) 0%N) k = true -> k < B /\ j < length (blocks s) /\ j * B + k < n /\ f (j * B + k) = true.
Proof.
  intros R T. pose proof R as (E1 & E2 & E3). pose proof T as T'. rewrite E3 in T. apply andb_true_iff in T as [T F]. apply andb_true_iff in T as [K P]. apply Nat.ltb_lt in K. apply Nat.ltb_lt in P.
  repeat split; auto. destruct (Nat.ltb_spec j (length (blocks s))); [auto|]. rewrite nth_overflow in T' by auto. rewrite tb_0 in T'. discriminate.
Qed.

(** ** test_set, all, any, none, count *)
Lemma test_set_ok s n f p v : repr s n f -> p < n -> exists s', test_set B s p v = Val (s', f p) /\ repr s' n (fun i => if i =? p then v else f i).
Proof.
  intros R H. unfold test_set. rewrite (test_ok B HB s n f) by auto. cbn [bind]. destruct (Bool.eqb (f p) v) eqn:E.
  - apply eqb_prop in E. exists s. split; [reflexivity|]. revert R. apply repr_ext. intros i Hi. destruct (Nat.eqb_spec i p); congruence.
  - destruct (set_bit_ok B HB s n f p v R H) as (s' & E' & R'). rewrite E'. cbn [bind]. eauto.
Qed.
Lemma any_ok s n f : repr s n f -> (any s = true <-> exists i, i < n /\ f i = true).
Proof.
  intros R. unfold any. rewrite existsb_exists. split.
  - intros (x & I & N0). apply (In_nth _ _ 0%N) in I as (j & J & <-). destruct (zero_or _ (repr_nth_small s n f j R)) as [Z|(k & K & T)]; [rewrite Z in N0; discriminate|].
    apply (repr_bit s n f) in T as (_ & _ & P & F); eauto.
  - intros (i & Hi & F). destruct (repr_at s n f i R Hi) as [J T]. rewrite F in T. exists (nth (i / B) (blocks s) 0%N). split; [apply nth_In; auto|]. rewrite (nonzero_bit _ _ T). reflexivity.
Qed.
Lemma full_block x : small x -> ((x =? one_block B)%N = true <-> forall k, k < B -> tb x k = true).
Proof.
  intros Hx. rewrite N.eqb_eq. split.
  - intros -> k K. rewrite tb_one. apply Nat.ltb_lt. auto.
  - intros H. apply tb_ext_small; auto using small_one. intros k K. rewrite H, tb_one by auto. symmetry. apply Nat.ltb_lt. auto.
Qed.
Lemma all_ok s n f : repr s n f -> exists b, all B s = Val b /\ (b = true <-> forall i, i < n -> f i = true).
Proof.
  intros R. pose proof R as (E1 & E2 & E3). unfold all, extra_bits, unused_bits, extra_bits, bit_index. rewrite E1. destruct (Nat.eqb_spec n 0) as [->|N0].
  { exists true. split; [reflexivity|]. split; [lia|auto]. }
  destruct (div_spec B HB n) as [D DL]. destruct (Nat.eqb_spec (n mod B) 0) as [X|X].
  - destruct (req_full B HB n X) as [_ RF]. eexists. split; [reflexivity|]. rewrite forallb_forall. split.
    + intros H i Hi. destruct (repr_at s n f i R Hi) as [J T]. rewrite <- T. apply (full_block _ (repr_nth_small s n f _ R)); [apply H, nth_In; auto|]. apply div_spec. auto.
    + intros H x I. apply (In_nth _ _ 0%N) in I as (j & J & <-). apply full_block; [eapply repr_nth_small; eauto|]. intros k K. rewrite E3.
      assert (P : j * B + k < n) by (pose proof (Nat.mul_le_mono_r (j + 1) (req n) B ltac:(lia)); lia). rewrite H by auto. apply Nat.ltb_lt in K. apply Nat.ltb_lt in P. rewrite K, P. reflexivity.
  - assert (X' : 0 < n mod B) by lia. pose proof (req_part B HB n X') as RQ.
    assert (Hf : forallb (fun x => x =? one_block B)%N (firstn (length (blocks s) - 1) (blocks s)) = true <-> forall i, i < n / B * B -> f i = true).
    { rewrite forallb_forall. split.
      - intros H i Hi. assert (Hi' : i < n) by lia. destruct (repr_at s n f i R Hi') as [J T]. rewrite <- T. apply (full_block _ (repr_nth_small s n f _ R)); [|apply div_spec; auto].
        apply H. assert (Q : i / B < n / B) by (apply Nat.div_lt_upper_bound; lia). rewrite E2, RQ. replace (n / B + 1 - 1) with (n / B) by lia.
        rewrite <- (firstn_skipn (n / B) (blocks s)) at 1. rewrite app_nth1 by (rewrite firstn_length; lia). apply nth_In. rewrite firstn_length. lia.
      - intros H x I. rewrite E2, RQ in I. replace (n / B + 1 - 1) with (n / B) in I by lia. apply (In_nth _ _ 0%N) in I as (j & J & <-). rewrite firstn_length in J.
        assert (Ej : nth j (firstn (n / B) (blocks s)) 0%N = nth j (blocks s) 0%N) by (rewrite <- (firstn_skipn (n / B) (blocks s)) at 2; rewrite app_nth1 by (rewrite firstn_length; lia); reflexivity).
        rewrite Ej. apply full_block; [eapply repr_nth_small; eauto|]. intros k K. rewrite E3.
        assert (P : j * B + k < n / B * B) by (pose proof (Nat.mul_le_mono_r (j + 1) (n / B) B ltac:(lia)); lia). rewrite H by auto. apply Nat.ltb_lt in K. assert (P' : j * B + k < n) by lia. apply Nat.ltb_lt in P'. rewrite K, P'. reflexivity. }
    destruct (forallb _ _) eqn:Fb; cbn [negb].
    + rewrite rd_val by lia. cbn [bind]. eexists. split; [reflexivity|]. rewrite E2, RQ. replace (n / B + 1 - 1) with (n / B) by lia. rewrite N.eqb_eq. split.
      * intros E i Hi. destruct (Nat.ltb_spec i (n / B * B)); [apply Hf; auto|]. destruct (repr_at s n f i R Hi) as [J T]. rewrite <- T. assert (i / B = n / B) as -> by (symmetry; apply (Nat.div_unique i B _ (i - n / B * B)); lia).
        rewrite E, tb_shr, tb_one. apply Nat.ltb_lt. pose proof (Nat.mod_eq i B ltac:(lia)). assert (i / B = n / B) by (symmetry; apply (Nat.div_unique i B _ (i - n / B * B)); lia). lia.
      * intros H. apply tb_ext_small; [eapply repr_nth_small; eauto|intros k K; rewrite tb_shr, tb_one; apply Nat.ltb_ge; lia|]. intros k K. rewrite tb_shr, tb_one, E3. apply Nat.ltb_lt in K as ->. cbn [andb].
        destruct (Nat.ltb_spec (n / B * B + k) n); cbn [andb]; [rewrite H by auto|]; symmetry; [apply Nat.ltb_lt|apply Nat.ltb_ge]; lia.
    + exists false. split; [reflexivity|]. split; [discriminate|]. intros H. apply Hf. intros; apply H; lia.
Qed.
Lemma block_count_sum m : list_sum (map (fun y => block_count y B) m) = length (filter (fun p => tb (nth (p / B) m 0%N) (p mod B)) (seq 0 (length m * B))).
Proof.
  induction m as [|x m IH] using rev_ind; [reflexivity|]. rewrite map_app, list_sum_app, app_length. cbn [map list_sum fold_right length]. rewrite Nat.mul_add_distr_r, Nat.mul_1_l, seq_app, filter_app, app_length. f_equal.
  - rewrite IH. f_equal. apply filter_ext_in. intros p I. apply in_seq in I. rewrite app_nth1; [reflexivity|]. apply Nat.div_lt_upper_bound; lia.
  - rewrite Nat.add_0_r. cbn [Nat.add]. rewrite filter_shift. unfold block_count. f_equal. apply filter_ext_in. intros k I. apply in_seq in I.
    replace (length m * B + k) with (k + length m * B) by lia. rewrite Nat.div_add, Nat.mod_add, Nat.div_small, Nat.mod_small by lia. cbn [Nat.add]. rewrite app_nth2, Nat.sub_diag by lia. reflexivity.
Qed.
Lemma count_ok s n f : repr s n f -> count B s = Val (length (filter f (seq 0 n))).
Proof.
  intros R. pose proof R as (E1 & E2 & E3). unfold count, extra_bits, bit_index. rewrite E1. destruct (Nat.eqb_spec n 0) as [->|N0]; [reflexivity|].
  destruct (req_spec B HB n) as [R1 R2]. assert (Rp : 0 < req n) by nia. rewrite rd_val by lia. cbn [bind]. f_equal.
  assert (Eb : blocks s = firstn (length (blocks s) - 1) (blocks s) ++ [nth (length (blocks s) - 1) (blocks s) 0%N]).
  { rewrite <- firstn_snoc by lia. replace (S (length (blocks s) - 1)) with (length (blocks s)) by lia. symmetry. apply firstn_all. }
  assert (Ec : block_count (nth (length (blocks s) - 1) (blocks s) 0%N) (if n mod B =? 0 then B else n mod B) = block_count (nth (length (blocks s) - 1) (blocks s) 0%N) B).
  { destruct (Nat.eqb_spec (n mod B) 0) as [X|X]; [reflexivity|]. destruct (div_spec B HB n) as [D DL]. unfold block_count. replace B with (n mod B + (B - n mod B)) at 2 by lia. rewrite seq_app, filter_app, app_length.
    rewrite (filter_none _ (seq (0 + n mod B) _)); [cbn [length]; lia|]. intros k I. apply in_seq in I. change (tb (nth (length (blocks s) - 1) (blocks s) 0%N) k = false). rewrite E2, (req_part B HB n ltac:(lia)), E3.
    replace (n / B + 1 - 1) with (n / B) by lia. destruct (Nat.ltb_spec (n / B * B + k) n); [lia|]. rewrite andb_false_r. reflexivity. }
  rewrite Ec. pose proof (block_count_sum (blocks s)) as Q. rewrite Eb in Q at 1. rewrite map_app, list_sum_app in Q. cbn [map list_sum fold_right] in Q. rewrite Nat.add_0_r in Q. rewrite Q, E2.
  rewrite <- (Nat.sub_0_r (req n * B)), (seq_split 0 n (req n * B)), filter_app, app_length, Nat.sub_0_r by lia.
  rewrite (filter_none _ (seq n _)).
  - cbn [length]. rewrite Nat.add_0_r. f_equal. apply filter_ext_in. intros p I. apply in_seq in I. apply (repr_at s n f); [auto|lia].
  - intros p I. apply in_seq in I. rewrite E3. destruct (div_spec B HB p) as [D DL]. rewrite <- D. destruct (Nat.ltb_spec p n); [lia|]. rewrite andb_false_r. reflexivity.
Qed.

(** ** Sets *)
Lemma land_inv_zero x y : small x -> ((N.land x (inv B y) =? 0)%N = true <-> forall k, k < B -> tb x k = true -> tb y k = true).
Proof.
  intros Hx. split.
  - intros Z k K T. destruct (tb y k) eqn:Y; [reflexivity|]. assert (C : tb (N.land x (inv B y)) k = true) by (rewrite tb_land, tb_inv, T, Y; apply Nat.ltb_lt in K; rewrite K; reflexivity).
    apply nonzero_bit in C. congruence.
  - intros H. apply N.eqb_eq. apply tb_ext_small; [|apply small_0|].
    + intros k K. rewrite tb_land, Hx by auto. reflexivity.
    + intros k K. rewrite tb_land, tb_inv, tb_0. destruct (tb x k) eqn:T; [|reflexivity]. rewrite H by auto. apply andb_false_r.
Qed.
Lemma subset_blocks_ok : forall a b, length a = length b -> Forall small a ->
  exists r, subset_blocks B a b = Val r /\ (r = true <-> forall j k, k < B -> tb (nth j a 0%N) k = true -> tb (nth j b 0%N) k = true).
Proof.
  induction a as [|x a IH]; intros [|y b] L Ha; cbn [length] in L; try lia; cbn [subset_blocks].
  - exists true. split; [reflexivity|]. split; [|auto]. intros _ j k K T. destruct j; cbn [nth] in T; rewrite tb_0 in T; discriminate.
  - inversion Ha as [|? ? Hx Ha']; subst. pose proof (land_inv_zero x y Hx) as Z. destruct (N.land x (inv B y) =? 0)%N; cbn [negb].
    + destruct (IH b ltac:(lia) Ha') as (r & E & H). exists r. split; [exact E|]. rewrite H. split.
      * intros Q [|j] k K T; cbn [nth] in *; [apply Z; auto|eapply Q; eauto].
      * intros Q j k K T. apply (Q (S j)); auto.
    + exists false. split; [reflexivity|]. split; [discriminate|]. intros Q. apply Z. intros k K T. apply (Q 0); auto.
Qed.
Lemma pos_of i n : i < n -> exists j k, i = j * B + k /\ k < B.
Proof. intros _. destruct (div_spec B HB i) as [D L]. eauto. Qed.
Lemma repr_sub s t n f g : repr s n f -> repr t n g ->
  ((forall j k, k < B -> tb (nth j (blocks s) 0%N) k = true -> tb (nth j (blocks t) 0%N) k = true) <-> forall i, i < n -> f i = true -> g i = true).
Proof.
  intros R Q. split.
  - intros H i Hi F. destruct (repr_at s n f i R Hi) as [_ T]. destruct (repr_at t n g i Q Hi) as [_ T']. rewrite <- T'. apply H; [apply div_spec; auto|]. rewrite T. auto.
  - intros H j k K T. apply (repr_bit s n f) in T as (_ & _ & P & F); auto. destruct Q as (_ & _ & E3). rewrite E3, H by auto. apply Nat.ltb_lt in K. apply Nat.ltb_lt in P. rewrite K, P. reflexivity.
Qed.
Lemma repr_length s n f : repr s n f -> length (blocks s) = req n.
Proof. intros (_ & E & _). exact E. Qed.
Lemma subset_ok s t n f g : repr s n f -> repr t n g -> exists r, is_subset_of B s t = Val r /\ (r = true <-> forall i, i < n -> f i = true -> g i = true).
Proof.
  intros R Q. destruct (subset_blocks_ok (blocks s) (blocks t)) as (r & E & H).
  - rewrite (repr_length s n f R), (repr_length t n g Q). reflexivity.
  - apply (repr_small B s n f R).
  - exists r. split; [exact E|]. rewrite H. apply repr_sub; auto.
Qed.
Lemma proper_blocks_ok : forall a b p, length a = length b -> Forall small a -> Forall small b ->
  exists r, proper_blocks B p a b = Val r /\ (r = true <-> (forall j k, k < B -> tb (nth j a 0%N) k = true -> tb (nth j b 0%N) k = true) /\
     (p = true \/ exists j k, k < B /\ tb (nth j a 0%N) k = false /\ tb (nth j b 0%N) k = true)).
Proof.
  induction a as [|x a IH]; intros [|y b] p L Ha Hb; cbn [length] in L; try lia; cbn [proper_blocks].
  - exists p. split; [reflexivity|]. split.
    + intros ->. split; [|auto]. intros j k K T. destruct j; cbn [nth] in T; rewrite tb_0 in T; discriminate.
    + intros (_ & [H|(j & k & K & T & T')]); [auto|]. destruct j; cbn [nth] in T'; rewrite tb_0 in T'; discriminate.
  - inversion Ha as [|? ? Hx Ha']; subst. inversion Hb as [|? ? Hy Hb']; subst. pose proof (land_inv_zero x y Hx) as Z. destruct (N.land x (inv B y) =? 0)%N; cbn [negb].
    + pose proof (land_inv_zero y x Hy) as W. rewrite N.land_comm in W.
      destruct (IH b (if negb (N.land (inv B x) y =? 0)%N then true else p) ltac:(lia) Ha' Hb') as (r & E & H). exists r. split; [exact E|]. rewrite H. clear H IH. split.
      * intros (H1 & H2). split.
        -- intros [|j] k K T; cbn [nth] in *; [apply Z; auto|eapply H1; eauto].
        -- destruct H2 as [H2|(j & k & K & T & T')]; [|right; exists (S j), k; auto]. destruct (N.land (inv B x) y =? 0)%N eqn:Ez; cbn [negb] in H2; [auto|]. right. exists 0.
           destruct (zero_or (N.land (inv B x) y)) as [C|(k & K & T)].
           ++ intros k K. rewrite tb_land, Hy by auto. apply andb_false_r.
           ++ congruence.
           ++ rewrite tb_land, tb_inv in T. apply andb_true_iff in T as [T1 T2]. apply andb_true_iff in T1 as [_ T1]. apply negb_true_iff in T1. exists k. auto.
      * intros (H1 & H2). split; [intros j k K T; apply (H1 (S j)); auto|]. destruct H2 as [->|(j & k & K & T & T')]; [left; destruct (N.land (inv B x) y =? 0)%N; reflexivity|].
        destruct j as [|j]; cbn [nth] in T, T'.
        -- left. assert (C : tb (N.land (inv B x) y) k = true) by (rewrite tb_land, tb_inv, T, T'; apply Nat.ltb_lt in K; rewrite K; reflexivity). rewrite (nonzero_bit _ _ C). reflexivity.
        -- right. exists j, k. auto.
    + exists false. split; [reflexivity|]. split; [discriminate|]. intros (Q & _). apply Z. intros k K T. apply (Q 0); auto.
Qed.
Lemma proper_ok s t n f g : repr s n f -> repr t n g -> exists r, is_proper_subset_of B s t = Val r /\
  (r = true <-> (forall i, i < n -> f i = true -> g i = true) /\ exists i, i < n /\ f i = false /\ g i = true).
Proof.
  intros R Q. destruct (proper_blocks_ok (blocks s) (blocks t) false) as (r & E & H).
  - rewrite (repr_length s n f R), (repr_length t n g Q). reflexivity.
  - apply (repr_small B s n f R).
  - apply (repr_small B t n g Q).
  - exists r. split; [exact E|]. rewrite H, (repr_sub s t n f g) by auto. apply and_iff_compat_l. split.
    + intros [C|(j & k & K & T & T')]; [discriminate|]. apply (repr_bit t n g) in T' as (_ & _ & P & F); auto. exists (j * B + k). repeat split; auto.
      destruct R as (_ & _ & E3). rewrite E3 in T. apply Nat.ltb_lt in K. apply Nat.ltb_lt in P. rewrite K, P in T. exact T.
    + intros (i & Hi & F & G). right. exists (i / B), (i mod B). destruct (repr_at s n f i R Hi) as [_ T]. destruct (repr_at t n g i Q Hi) as [_ T']. rewrite T, T'. repeat split; auto. apply div_spec. auto.
Qed.
Lemma intersects_ok s t n n' f g : repr s n f -> repr t n' g -> (intersects s t = true <-> exists i, i < n /\ i < n' /\ f i = true /\ g i = true).
Proof.
  intros R Q. unfold intersects. rewrite existsb_exists. split.
  - intros ([x y] & I & N0). apply (In_nth _ _ (0%N, 0%N)) in I as (j & J & E). rewrite combine_length in J. cbn [fst snd] in N0.
    assert (Ej : nth j (blocks s) 0%N = x /\ nth j (blocks t) 0%N = y).
    { assert (G : forall (a b : list N) j, j < length a -> j < length b -> nth j (combine a b) (0%N, 0%N) = (nth j a 0%N, nth j b 0%N)).
      { clear. induction a as [|x a IH]; intros [|y b] [|j] H1 H2; cbn [length combine nth] in *; try lia; auto. apply IH; lia. }
      rewrite G in E by lia. inversion E. auto. }
    destruct Ej as [<- <-]. destruct (zero_or (N.land (nth j (blocks s) 0%N) (nth j (blocks t) 0%N))) as [Z|(k & K & T)].
    + intros k K. rewrite tb_land, (repr_nth_small s n f j R) by auto. reflexivity.
    + rewrite Z in N0. discriminate.
    + rewrite tb_land in T. apply andb_true_iff in T as [T1 T2]. apply (repr_bit s n f) in T1 as (_ & _ & P & F); auto. apply (repr_bit t n' g) in T2 as (_ & _ & P' & F'); auto. eauto 6.
  - intros (i & Hi & Hi' & F & G). destruct (repr_at s n f i R Hi) as [J T]. destruct (repr_at t n' g i Q Hi') as [J' T']. exists (nth (i / B) (blocks s) 0%N, nth (i / B) (blocks t) 0%N). split.
    + assert (G' : forall (a b : list N) j, j < length a -> j < length b -> In (nth j a 0%N, nth j b 0%N) (combine a b)).
      { clear. induction a as [|x a IH]; intros [|y b] [|j] H1 H2; cbn [length combine nth] in *; try lia; [left; auto|right; apply IH; lia]. }
      apply G'; auto.
    + cbn [fst snd]. rewrite (nonzero_bit _ (i mod B)); [reflexivity|]. rewrite tb_land, T, T', F, G. reflexivity.
Qed.

(** ** Searching *)
Lemma ctz_ok x : forall fuel i k, i <= k < i + fuel -> tb x k = true ->
  let r := ctz_from x i fuel in i <= r <= k /\ tb x r = true /\ forall k', i <= k' < r -> tb x k' = false.
Proof.
  induction fuel as [|fuel IH]; intros i k Hk T; [lia|]. cbn [ctz_from]. fold (tb x i). destruct (tb x i) eqn:E.
  - cbn zeta. split; [lia|]. split; [auto|lia].
  - assert (i <> k) by congruence. destruct (IH (S i) k ltac:(lia) T) as (H1 & H2 & H3). cbn zeta. split; [lia|]. split; [auto|]. intros k' Hk'. destruct (Nat.eq_dec k' i) as [->|]; [auto|apply H3; lia].
Qed.
Lemma trailing_zero_ok x : small x -> (x =? 0)%N = false -> trailing_zero B x < B /\ tb x (trailing_zero B x) = true /\ forall k, k < trailing_zero B x -> tb x k = false.
Proof.
  intros Hx N0. destruct (zero_or x Hx) as [C|(k & K & T)]; [congruence|]. unfold trailing_zero. destruct (ctz_ok x B 0 k ltac:(lia) T) as (H1 & H2 & H3). split; [lia|]. split; [auto|]. intros; apply H3; lia.
Qed.
Lemma find_block_ok : forall m i, Forall small m ->
  match find_block B i m with
  | Some p => exists j k, p = (i + j) * B + k /\ k < B /\ tb (nth j m 0%N) k = true /\ forall j' k', k' < B -> j' * B + k' < j * B + k -> tb (nth j' m 0%N) k' = false
  | None => forall j k, tb (nth j m 0%N) k = false
  end.
Proof.
  induction m as [|x m IH]; intros i H; cbn [find_block].
  - intros j k. destruct j; apply tb_0.
  - inversion H as [|? ? Hx Hm]; subst. destruct (N.eqb_spec x 0) as [->|N0].
    + specialize (IH (S i) Hm). destruct (find_block B (S i) m) as [p|].
      * destruct IH as (j & k & E & K & T & L). exists (S j), k. split; [lia|]. split; [auto|]. split; [auto|]. intros [|j'] k' K' L'; cbn [nth]; [apply tb_0|]. apply L; auto. lia.
      * intros [|j] k; cbn [nth]; [apply tb_0|auto].
    + apply N.eqb_neq in N0. destruct (trailing_zero_ok x Hx N0) as (K & T & L). exists 0, (trailing_zero B x). rewrite Nat.add_0_r. repeat split; auto.
      intros j' k' K' L'. assert (j' = 0) by nia. subst j'. cbn [nth]. apply L. lia.
Qed.
Definition least (lo n : nat) (f : nat -> bool) (r : option nat) : Prop :=
  match r with
  | Some p => lo <= p < n /\ f p = true /\ forall i, lo <= i < p -> f i = false
  | None => forall i, lo <= i < n -> f i = false
  end.
Lemma find_first_ok s n f : repr s n f -> least 0 n f (find_first B s).
Proof.
  intros R. unfold find_first. pose proof (find_block_ok (blocks s) 0 (repr_small B s n f R)) as H. destruct (find_block B 0 (blocks s)) as [p|]; cbn [least].
  - destruct H as (j & k & E & K & T & L). apply (repr_bit s n f) in T as (_ & _ & P & F); auto. cbn [Nat.add] in E. subst p. split; [lia|]. split; [auto|]. intros i Hi.
    destruct (repr_at s n f i R ltac:(lia)) as [_ T]. rewrite <- T. destruct (div_spec B HB i) as [D DL]. apply L; auto. lia.
  - intros i Hi. destruct (repr_at s n f i R ltac:(lia)) as [_ T]. rewrite <- T. apply H.
Qed.
Lemma find_next_ok s n f prev : repr s n f -> exists r, find_next B s prev = Val r /\ least (prev + 1) n f r.
Proof.
  intros R. pose proof R as (E1 & E2 & E3). unfold find_next. rewrite E1. destruct (Nat.eqb_spec n 0) as [->|N0]; cbn [orb]; [exists None; split; [reflexivity|]; cbn [least]; lia|].
  destruct (Nat.leb_spec (n - 1) prev); [exists None; split; [reflexivity|]; cbn [least]; lia|].
  unfold block_index, bit_index. destruct (repr_at s n f (prev + 1) R ltac:(lia)) as [J _]. rewrite rd_val by auto. cbn [bind]. destruct (div_spec B HB (prev + 1)) as [D DL].
  set (fb := (prev + 1) / B) in *. set (e := (prev + 1) mod B) in *. set (x := nth fb (blocks s) 0%N).
  assert (Sy : small (shr x e)) by (intros k K; rewrite tb_shr; apply (repr_nth_small s n f fb R); lia).
  destruct (N.eqb_spec (shr x e) 0) as [Y0|Y0]; cbn [negb].
  - eexists. split; [reflexivity|]. pose proof (find_block_ok (skipn (fb + 1) (blocks s)) (fb + 1)) as H'. assert (Hs : Forall small (skipn (fb + 1) (blocks s))).
    { pose proof (repr_small B s n f R) as F. rewrite <- (firstn_skipn (fb + 1) (blocks s)) in F. apply Forall_app in F as [_ F]. exact F. }
    specialize (H' Hs). assert (Ns : forall j, nth j (skipn (fb + 1) (blocks s)) 0%N = nth (fb + 1 + j) (blocks s) 0%N).
    { intros j. rewrite <- (firstn_skipn (fb + 1) (blocks s)) at 2. rewrite app_nth2; rewrite firstn_length; [|lia]. f_equal. lia. }
    assert (Hin : forall i, prev + 1 <= i < (fb + 1) * B -> i < n -> f i = false).
    { intros i Hi Hn. destruct (repr_at s n f i R Hn) as [_ T]. rewrite <- T. assert (i / B = fb) as Ei by (symmetry; apply (Nat.div_unique i B fb (i - fb * B)); lia). rewrite Ei. fold x. pose proof (Nat.mod_eq i B ltac:(lia)) as Em. rewrite Ei in Em.
      replace (i mod B) with ((i mod B - e) + e) by lia. rewrite <- tb_shr, Y0. apply tb_0. }
    destruct (find_block B (fb + 1) _) as [p|]; cbn [least].
    + destruct H' as (j & k & E & K & T & L). rewrite Ns in T. apply (repr_bit s n f) in T as (_ & _ & P & F); auto. subst p. split; [nia|]. split; [auto|]. intros i Hi.
      destruct (Nat.ltb_spec i ((fb + 1) * B)); [apply Hin; lia|]. destruct (repr_at s n f i R ltac:(lia)) as [_ T]. rewrite <- T. destruct (div_spec B HB i) as [Di DLi]. assert (fb + 1 <= i / B) by nia.
      replace (i / B) with (fb + 1 + (i / B - (fb + 1))) by lia. rewrite <- Ns. apply L; auto. rewrite Nat.mul_sub_distr_r. pose proof (Nat.mul_add_distr_r (fb + 1) j B). pose proof (Nat.mul_le_mono_r (fb + 1) (i / B) B ltac:(lia)). lia.
    + intros i Hi. destruct (Nat.ltb_spec i ((fb + 1) * B)); [apply Hin; lia|]. destruct (repr_at s n f i R ltac:(lia)) as [_ T]. rewrite <- T. destruct (div_spec B HB i) as [Di DLi]. assert (fb + 1 <= i / B) by nia.
      replace (i / B) with (fb + 1 + (i / B - (fb + 1))) by lia. rewrite <- Ns. apply H'.
  - eexists. split; [reflexivity|]. apply N.eqb_neq in Y0. destruct (trailing_zero_ok _ Sy Y0) as (K & T & L). set (tz := trailing_zero B (shr x e)) in *. rewrite tb_shr in T. unfold x in T. apply (repr_bit s n f) in T as (Kb & _ & P & F); auto.
    replace (fb * B + (tz + e)) with (prev + 1 + tz) in * by lia. cbn [least]. split; [lia|]. split; [auto|]. intros i Hi. destruct (repr_at s n f i R ltac:(lia)) as [_ T]. rewrite <- T.
    assert (i / B = fb) as Ei by (symmetry; apply (Nat.div_unique i B fb (i - fb * B)); lia). pose proof (Nat.mod_eq i B ltac:(lia)) as Em. rewrite Ei in *. replace (i mod B) with ((i mod B - e) + e) by lia. fold x. rewrite <- tb_shr. apply L. lia.
Qed.
Lemma least_filter lo n f r : least lo n f r -> filter f (seq lo (n - lo)) = match r with Some p => p :: filter f (seq (p + 1) (n - (p + 1))) | None => [] end.
Proof.
  destruct r as [p|]; cbn [least].
  - intros (H1 & H2 & H3). rewrite (seq_split lo p n) by lia. rewrite filter_app, filter_none by (intros i I; apply in_seq in I; apply H3; lia). cbn [app].
    replace (n - p) with (S (n - (p + 1))) by lia. cbn [seq filter]. rewrite H2. replace (S p) with (p + 1) by lia. reflexivity.
  - intros H. apply filter_none. intros i I. apply in_seq in I. apply H. lia.
Qed.
Lemma iterate_from_ok s n f : repr s n f -> forall fuel lo r, least lo n f r -> n - lo < fuel -> iterate_from B fuel s r = Val (filter f (seq lo (n - lo))).
Proof.
  intros R. induction fuel as [|fuel IH]; intros lo r Hr Hf; [lia|]. rewrite (least_filter lo n f r Hr). destruct r as [p|]; cbn [iterate_from]; [|reflexivity].
  destruct (find_next_ok s n f p R) as (q & E & L). rewrite E. cbn [bind]. cbn [least] in Hr. rewrite (IH (p + 1) q L) by lia. reflexivity.
Qed.
Lemma iterate_ok s n f fuel : repr s n f -> n < fuel -> iterate B fuel s = Val (filter f (seq 0 n)).
Proof. intros R H. unfold iterate. rewrite (iterate_from_ok s n f R fuel 0); [rewrite Nat.sub_0_r; reflexivity|apply find_first_ok; auto|lia]. Qed.

(** ** Comparison *)
Lemma eq_blocks_ok a b : eq_blocks a b = true <-> a = b.
Proof.
  revert b. induction a as [|x a IH]; intros [|y b]; cbn [eq_blocks]; split; intros H; try discriminate; auto.
  - apply andb_true_iff in H as [H1 H2]. apply N.eqb_eq in H1. apply IH in H2. congruence.
  - inversion H; subst. rewrite N.eqb_refl. apply IH. reflexivity.
Qed.
Lemma eq_ok s t n n' f g : repr s n f -> repr t n' g -> (eq s t = true <-> n = n' /\ forall i, i < n -> f i = g i).
Proof.
  intros R Q. pose proof R as (E1 & E2 & E3). pose proof Q as (F1 & F2 & F3). unfold eq. rewrite andb_true_iff, Nat.eqb_eq, eq_blocks_ok, E1, F1. split.
  - intros [<- Eb]. split; [reflexivity|]. intros i Hi. destruct (repr_at s n f i R Hi) as [_ T]. destruct (repr_at t n g i Q Hi) as [_ T']. rewrite <- T, <- T', Eb. reflexivity.
  - intros [<- H]. split; [reflexivity|]. apply (nth_ext _ _ 0%N 0%N); [congruence|]. intros j _. apply tb_ext_small; [eapply repr_nth_small; eauto..|]. intros k K. rewrite E3, F3.
    destruct (Nat.ltb_spec (j * B + k) n); [rewrite H by auto; reflexivity|]. rewrite !andb_false_r. reflexivity.
Qed.
Fixpoint value (m : list N) : N := match m with [] => 0%N | x :: m' => (x + 2 ^ N.of_nat B * value m')%N end.
Lemma small_lt x : small x -> (x < 2 ^ N.of_nat B)%N.
Proof.
  intros H. destruct (N.eq_dec x 0) as [->|N0]; [apply N.neq_0_lt_0, N.pow_nonzero; lia|]. apply N.log2_lt_pow2; [lia|]. destruct (N.lt_ge_cases (N.log2 x) (N.of_nat B)) as [|C]; [auto|].
  specialize (H (N.to_nat (N.log2 x)) ltac:(lia)). unfold tb in H. rewrite N2Nat.id, N.bit_log2 in H by auto. discriminate.
Qed.
Lemma value_lt m : Forall small m -> (value m < 2 ^ (N.of_nat B * N.of_nat (length m)))%N.
Proof.
  induction m as [|x m IH]; intros H; cbn [value length]; [rewrite N.mul_0_r; reflexivity|]. inversion H as [|? ? Hx Hm]; subst. apply small_lt in Hx. specialize (IH Hm).
  replace (N.of_nat B * N.of_nat (S (length m)))%N with (N.of_nat B + N.of_nat B * N.of_nat (length m))%N by lia. rewrite N.pow_add_r.
  set (P := (2 ^ N.of_nat B)%N) in *. set (Q := (2 ^ (N.of_nat B * N.of_nat (length m)))%N) in *. nia.
Qed.
Lemma value_app a b : value (a ++ b) = (value a + 2 ^ (N.of_nat B * N.of_nat (length a)) * value b)%N.
Proof.
  induction a as [|x a IH]; cbn [value app length]; [rewrite N.mul_0_r; lia|]. rewrite IH. replace (N.of_nat B * N.of_nat (S (length a)))%N with (N.of_nat B + N.of_nat B * N.of_nat (length a))%N by lia.
  rewrite N.pow_add_r. lia.
Qed.
Lemma value_bit : forall m j k, Forall small m -> k < B -> tb (value m) (j * B + k) = tb (nth j m 0%N) k.
Proof.
  induction m as [|x m IH]; intros j k H K; cbn [value]; [rewrite !tb_0; destruct j; symmetry; apply tb_0|]. inversion H as [|? ? Hx Hm]; subst. pose proof (small_lt x Hx) as Lx.
  assert (E : (x + 2 ^ N.of_nat B * value m = N.lor x (N.shiftl (value m) (N.of_nat B)))%N).
  { rewrite N.shiftl_mul_pow2, (N.mul_comm (value m)). rewrite <- N.lxor_lor, N.add_nocarry_lxor; auto; apply N.bits_inj_0; intros i; rewrite N.land_spec, N.mul_comm, <- N.shiftl_mul_pow2;
      (destruct (N.lt_ge_cases i (N.of_nat B)); [rewrite N.shiftl_spec_low by auto; apply andb_false_r|]);
      specialize (Hx (N.to_nat i) ltac:(lia)); unfold tb in Hx; rewrite N2Nat.id in Hx; rewrite Hx; reflexivity. }
  rewrite E, tb_lor. unfold tb at 2. destruct j as [|j]; cbn [nth].
  - cbn [Nat.mul Nat.add]. rewrite N.shiftl_spec_low by lia. apply orb_false_r.
  - rewrite N.shiftl_spec_high' by lia. rewrite Hx by nia. cbn [orb]. rewrite <- (IH j k Hm K). unfold tb. f_equal. nia.
Qed.
Lemma Forall_firstn {A} (P : A -> Prop) l i : Forall P l -> Forall P (firstn i l).
Proof. revert i. induction l as [|x l IH]; intros [|i] H; cbn [firstn]; auto. inversion H; subst. constructor; auto. Qed.
Lemma first_diff_ok a b : Forall small a -> Forall small b -> forall i, i < length a -> i < length b ->
  exists r, first_diff a b i = Val r /\
  match r with Some l => l = (value (firstn (S i) a) <? value (firstn (S i) b))%N /\ value (firstn (S i) a) <> value (firstn (S i) b) | None => value (firstn (S i) a) = value (firstn (S i) b) end.
Proof.
  intros Ha Hb. induction i as [|i IH]; intros La Lb; cbn [first_diff].
  - rewrite !rd_val by auto. cbn [bind]. rewrite !firstn_snoc by auto. cbn [firstn app value]. rewrite !N.mul_0_r, !N.add_0_r. destruct (N.eqb_spec (nth 0 a 0%N) (nth 0 b 0%N)); eexists; split; try reflexivity; cbn beta iota; auto.
  - rewrite !rd_val by auto. cbn [bind]. rewrite (firstn_snoc a (S i)), (firstn_snoc b (S i)) by auto. rewrite !value_app, !firstn_length. replace (Nat.min (S i) (length a)) with (S i) by lia. replace (Nat.min (S i) (length b)) with (S i) by lia.
    cbn [value]. rewrite !N.mul_0_r, !N.add_0_r. pose proof (value_lt _ (Forall_firstn _ a (S i) Ha)) as V1. pose proof (value_lt _ (Forall_firstn _ b (S i) Hb)) as V2. rewrite firstn_length in V1, V2.
    replace (Nat.min (S i) (length a)) with (S i) in V1 by lia. replace (Nat.min (S i) (length b)) with (S i) in V2 by lia.
    set (P := (2 ^ (N.of_nat B * N.of_nat (S i)))%N) in *. destruct (N.eqb_spec (nth (S i) a 0%N) (nth (S i) b 0%N)) as [E|E].
    + rewrite E. set (PX := (P * nth (S i) b 0)%N). destruct (IH ltac:(lia) ltac:(lia)) as (r & Er & H). exists r. split; [exact Er|]. destruct r as [l|]; [|congruence]. destruct H as [-> H]. split; [|lia].
      apply eq_true_iff_eq. rewrite !N.ltb_lt. lia.
    + eexists. split; [reflexivity|]. cbn beta iota. split; [|nia]. apply eq_true_iff_eq. rewrite !N.ltb_lt. nia.
Qed.
Lemma any_above_ok m lo : forall fuel i, i < length m -> i < lo + fuel -> 
  exists r, any_above m lo i fuel = Val r /\ (r = true <-> exists j, lo <= j <= i /\ (nth j m 0 =? 0)%N = false).
Proof.
  induction fuel as [|fuel IH]; intros i H Hf; cbn [any_above].
  - exists false. split; [reflexivity|]. split; [discriminate|]. intros (j & Hj & _). lia.
  - destruct (Nat.leb_spec lo i) as [L|L].
    + rewrite rd_val by auto. cbn [bind]. destruct (N.eqb (nth i m 0%N) 0%N) eqn:E; cbn [negb].
      * destruct (Nat.eq_dec i 0) as [->|I0].
        { assert (lo = 0) by lia. subst lo. destruct fuel as [|fuel]; cbn [any_above].
          - exists false. split; [reflexivity|]. split; [discriminate|]. intros (j & Hj & C). assert (j = 0) by lia. subst. congruence.
          - destruct (IH 0 H ltac:(lia)) as (r & Er & Hr). exists r. split; [exact Er|exact Hr]. }
        destruct (IH (i - 1) ltac:(lia) ltac:(lia)) as (r & Er & Hr). exists r. split; [exact Er|]. rewrite Hr. split; intros (j & Hj & C); exists j; (split; [|auto]); [lia|].
        assert (j <> i) by congruence. lia.
      * exists true. split; [reflexivity|]. split; [|auto]. intros _. exists i. split; [lia|auto].
    + exists false. split; [reflexivity|]. split; [discriminate|]. intros (j & Hj & _). lia.
Qed.
Lemma value_zero m : (forall j, (nth j m 0 =? 0)%N = true) -> value m = 0%N.
Proof. induction m as [|x m IH]; intros H; cbn [value]; [reflexivity|]. pose proof (H 0) as H0. cbn [nth] in H0. apply N.eqb_eq in H0. rewrite H0, IH; [lia|]. intros j. apply (H (S j)). Qed.
Lemma value_pos m j : (nth j m 0 =? 0)%N = false -> (0 < value m)%N.
Proof.
  revert j. induction m as [|x m IH]; intros j H; [destruct j; discriminate|]. cbn [value]. assert (P : (0 < 2 ^ N.of_nat B)%N) by (apply N.neq_0_lt_0, N.pow_nonzero; lia). destruct j as [|j]; cbn [nth] in H; [apply N.eqb_neq in H; lia|].
  apply IH in H. nia.
Qed.
Lemma less_ok s t n n' f g : repr s n f -> repr t n' g ->
  less s t = Val ((value (blocks s) <? value (blocks t))%N || ((value (blocks s) =? value (blocks t))%N && (n <? n'))).
Proof.
  intros R Q. pose proof R as (E1 & E2 & E3). pose proof Q as (F1 & F2 & F3). unfold less. rewrite E1, F1. destruct (req_spec B HB n) as [R1 R2]. destruct (req_spec B HB n') as [R1' R2'].
  pose proof (repr_small B s n f R) as Sa. pose proof (repr_small B t n' g Q) as Sb. set (a := blocks s) in *. set (b := blocks t) in *.
  assert (Z : forall m k, length m = req k -> k = 0 -> value m = 0%N) by (intros m k L ->; rewrite req_0 in L by auto; destruct m; [reflexivity|discriminate]).
  destruct (Nat.eqb_spec n n') as [En|En].
  - rewrite <- En in F2 |- *. clear Q F1 F3. rewrite Nat.ltb_irrefl, andb_false_r, orb_false_r. destruct (Nat.eqb_spec n 0) as [N0|N0].
    + rewrite (Z a n), (Z b n) by auto. reflexivity.
    + assert (0 < req n) by nia. destruct (first_diff_ok a b Sa Sb (length a - 1) ltac:(lia) ltac:(lia)) as (r & Er & H'). rewrite Er. cbn [bind].
      replace (S (length a - 1)) with (length a) in H' by lia. rewrite firstn_all in H'. rewrite E2, <- F2, firstn_all in H'. f_equal. destruct r as [l|]; [apply H'|]. rewrite H'. symmetry. apply N.ltb_irrefl.
  - destruct (Nat.eqb_spec n 0) as [N0|N0].
    { rewrite (Z a n) by auto. destruct (Nat.ltb_spec n n'); [|lia]. rewrite andb_true_r. destruct (N.eq_dec (value b) 0) as [->|]; [reflexivity|].
      destruct (N.ltb_spec 0 (value b)); [reflexivity|lia]. }
    destruct (Nat.eqb_spec n' 0) as [N0'|N0'].
    { rewrite (Z b n') by auto. destruct (Nat.ltb_spec n n'); [lia|]. rewrite andb_false_r, orb_false_r. destruct (N.ltb_spec (value a) 0); [lia|reflexivity]. }
    assert (0 < req n) by nia. assert (0 < req n') by nia. set (lo := Nat.min (length a) (length b)). set (hi := Nat.max (length a) (length b)).
    assert (Long : forall m : list N, Forall small m -> length m = hi -> forall m' : list N, Forall small m' -> length m' = lo ->
      exists r, any_above m lo (hi - 1) hi = Val r /\ (r = true -> (value m' < value m)%N) /\ (r = false -> value m = value (firstn lo m))).
    { intros m Sm Lm m' Sm' Lm'. destruct (any_above_ok m lo hi (hi - 1) ltac:(lia) ltac:(lia)) as (r & Er & H'). exists r. split; [exact Er|]. split.
      - intros Hr. apply H' in Hr as (j & Hj & C). rewrite <- (firstn_skipn lo m), value_app, firstn_length. replace (Nat.min lo (length m)) with lo by lia. pose proof (value_lt m' Sm') as V. rewrite Lm' in V.
        assert (P : (0 < value (skipn lo m))%N).
        { apply (value_pos _ (j - lo)). rewrite <- (firstn_skipn lo m), app_nth2 in C; rewrite firstn_length in *; [|lia]. replace (j - Nat.min lo (length m)) with (j - lo) in C by lia. exact C. }
        nia.
      - intros Hr. rewrite <- (firstn_skipn lo m) at 1. rewrite value_app, (value_zero (skipn lo m)); [lia|]. intros j. destruct (Nat.ltb_spec (lo + j) (length m)).
        + destruct (nth j (skipn lo m) 0 =? 0)%N eqn:C; [reflexivity|]. assert (r = true); [|congruence]. apply H'. exists (lo + j). split; [lia|]. rewrite <- (firstn_skipn lo m), app_nth2; rewrite firstn_length; [|lia].
          replace (lo + j - Nat.min lo (length m)) with j by lia. exact C.
        + rewrite nth_overflow; [reflexivity|]. rewrite skipn_length. lia. }
    destruct (first_diff_ok a b Sa Sb (lo - 1) ltac:(lia) ltac:(lia)) as (d & Ed & Hd). replace (S (lo - 1)) with lo in Hd by lia.
    assert (Fin : forall r, (r = true -> value a <> value b /\ (value a <? value b)%N = (n <? n')) -> (r = false -> value a = value (firstn lo a) /\ value b = value (firstn lo b)) ->
      (if r then Val (n <? n') else bind (first_diff a b (lo - 1)) (fun r => Val (match r with Some x => x | None => n <? n' end))) = Val ((value a <? value b)%N || (value a =? value b)%N && (n <? n'))).
    { intros [|] H1 H2.
      - destruct (H1 eq_refl) as [Ne Lt]. apply N.eqb_neq in Ne. rewrite Ne, Lt. cbn [andb]. rewrite orb_false_r. reflexivity.
      - destruct (H2 eq_refl) as [Va Vb]. rewrite Ed. cbn [bind]. rewrite <- Va, <- Vb in Hd. destruct d as [l|].
        + destruct Hd as [-> Ne]. apply N.eqb_neq in Ne. rewrite Ne. cbn [andb]. rewrite orb_false_r. reflexivity.
        + rewrite Hd, N.eqb_refl, N.ltb_irrefl. reflexivity. }
    destruct (Nat.ltb_spec n n') as [L|L].
    + assert (length a <= length b) by nia. destruct (Long b Sb ltac:(lia) a Sa ltac:(lia)) as (r & Er & H1' & H2'). rewrite Er. cbn [bind]. apply Fin.
      * intros Hr. specialize (H1' Hr). split; [lia|]. apply N.ltb_lt. auto.
      * intros Hr. split; [|auto]. replace lo with (length a) by lia. rewrite firstn_all. reflexivity.
    + assert (length b <= length a) by nia. destruct (Long a Sa ltac:(lia) b Sb ltac:(lia)) as (r & Er & H1' & H2'). rewrite Er. cbn [bind]. apply Fin.
      * intros Hr. specialize (H1' Hr). split; [lia|]. apply N.ltb_ge. lia.
      * intros Hr. split; [auto|]. replace lo with (length b) by lia. rewrite firstn_all. reflexivity.
Qed.
End Bits.
