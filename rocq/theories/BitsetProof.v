(** Lemmas on the blocks of a bitset. *)
From Coq Require Import ZArith NArith List Bool Arith Lia.
From Verif Require Import LinCodeModel BitsetModel.
Import ListNotations.
Open Scope nat_scope.

Definition tb (x : N) (k : nat) : bool := N.testbit x (N.of_nat k).
Definition upd {A} (i : nat) (x : A) (m : list A) : list A := firstn i m ++ x :: skipn (S i) m.
Lemma upd_length {A} i (x : A) m : i < length m -> length (upd i x m) = length m.
Proof. intros H. unfold upd. rewrite app_length, firstn_length. cbn [length]. rewrite skipn_length. lia. Qed.
Lemma nth_upd {A} i (x : A) m j d : i < length m -> nth j (upd i x m) d = if j =? i then x else nth j m d.
Proof.
  revert i j. induction m as [|y m IH]; intros i j H; [cbn in H; lia|]. destruct i as [|i].
  - unfold upd. cbn [firstn app skipn]. destruct j; reflexivity.
  - unfold upd. cbn [firstn app skipn]. destruct j as [|j]; [reflexivity|]. cbn [nth]. cbn in H. apply (IH i j). lia.
Qed.
Lemma rd_val m i : i < length m -> rd m i = Val (nth i m 0%N).
Proof. intros H. unfold rd. rewrite (nth_error_nth' m 0%N H). reflexivity. Qed.
Lemma wr_val m i x : i < length m -> wr m i x = Val (upd i x m).
Proof. intros H. unfold wr. apply Nat.ltb_lt in H. rewrite H. reflexivity. Qed.
Lemma seq_app_inv a n l1 l2 : seq a n = l1 ++ l2 -> l1 = seq a (length l1) /\ l2 = seq (a + length l1) (length l2).
Proof.
  revert a n. induction l1 as [|x l1 IH]; intros a n H.
  - cbn [app length] in *. split; [reflexivity|]. rewrite Nat.add_0_r. rewrite <- H, seq_length. reflexivity.
  - destruct n as [|n]; [discriminate|]. cbn [seq app] in H. injection H as -> H. apply IH in H as [H1 H2]. cbn [length seq]. split; [f_equal; exact H1|].
    rewrite <- Nat.add_succ_comm. exact H2.
Qed.
Lemma seq_before a n l1 i l2 j : seq a n = l1 ++ i :: l2 -> In j l1 -> j < i.
Proof.
  intros H J. apply seq_app_inv in H as [H1 H2]. rewrite H1 in J. apply in_seq in J. cbn [length seq] in H2. injection H2 as E _. lia.
Qed.
Lemma rev_seq_before a n l1 i l2 j : rev (seq a n) = l1 ++ i :: l2 -> In j l1 -> i < j.
Proof.
  intros H J. apply (f_equal (@rev nat)) in H. rewrite rev_involutive, rev_app_distr in H. cbn [rev] in H. rewrite <- app_assoc in H. cbn [app] in H.
  apply seq_app_inv in H as [H1 H2]. cbn [length seq] in H2. injection H2 as E H2. apply in_rev in J. rewrite H2 in J. apply in_seq in J. lia.
Qed.

(** A loop that writes each index once, from values it has not overwritten. *)
Lemma for_each_par (f : nat -> list N -> outcome (list N)) (h : nat -> list N -> N) is m :
  NoDup is -> (forall i, In i is -> i < length m) ->
  (forall i m', In i is -> length m' = length m -> f i m' = Val (upd i (h i m') m')) ->
  (forall pre i post m', is = pre ++ i :: post -> length m' = length m -> (forall j, ~ In j pre -> nth j m' 0%N = nth j m 0%N) -> h i m' = h i m) ->
  exists m', for_each f is m = Val m' /\ length m' = length m /\
    (forall j, In j is -> nth j m' 0%N = h j m) /\ (forall j, ~ In j is -> nth j m' 0%N = nth j m 0%N).
Proof.
  intros ND Hlt Hf Hh.
  assert (G : forall post pre m', is = pre ++ post -> length m' = length m -> (forall j, In j pre -> nth j m' 0%N = h j m) ->
    (forall j, ~ In j pre -> nth j m' 0%N = nth j m 0%N) ->
    exists m'', for_each f post m' = Val m'' /\ length m'' = length m /\
      (forall j, In j is -> nth j m'' 0%N = h j m) /\ (forall j, ~ In j is -> nth j m'' 0%N = nth j m 0%N)).
  { induction post as [|i post IH]; intros pre m' E L A C.
    - exists m'. rewrite app_nil_r in E. subst. auto.
    - cbn [for_each]. rewrite Hf by (auto; rewrite E; apply in_or_app; right; left; reflexivity). cbn [bind].
      assert (Hi : i < length m') by (rewrite L; apply Hlt; rewrite E; apply in_or_app; right; left; reflexivity).
      apply (IH (pre ++ [i])).
      + rewrite <- app_assoc. exact E.
      + rewrite upd_length; auto.
      + intros j J. rewrite nth_upd by auto. destruct (Nat.eqb_spec j i) as [->|Ne]; [eapply Hh; eauto|].
        apply in_app_or in J as [J|[J|[]]]; [auto|congruence].
      + intros j J. rewrite nth_upd by auto. destruct (Nat.eqb_spec j i) as [->|Ne]; [exfalso; apply J; apply in_or_app; right; left; reflexivity|].
        apply C. intros K. apply J. apply in_or_app. auto. }
  apply (G is []); auto. intros j [].
Qed.
(** ... reading and writing only the block itself. *)
Lemma for_each_map (f : nat -> list N -> outcome (list N)) (g : nat -> N -> N) a n m :
  a + n <= length m ->
  (forall i m', a <= i < a + n -> length m' = length m -> f i m' = Val (upd i (g i (nth i m' 0%N)) m')) ->
  exists m', for_each f (seq a n) m = Val m' /\ length m' = length m /\
    forall j, nth j m' 0%N = if (a <=? j) && (j <? a + n) then g j (nth j m 0%N) else nth j m 0%N.
Proof.
  intros Hl Hf. destruct (for_each_par f (fun i m' => g i (nth i m' 0%N)) (seq a n) m) as (m' & E & L & A & C).
  - apply seq_NoDup.
  - intros i I. apply in_seq in I. lia.
  - intros i m' I L. apply in_seq in I. apply Hf; auto.
  - intros pre i post m' E L H. f_equal. apply H. intros J. eapply seq_before in E; eauto. lia.
  - exists m'. split; [exact E|]. split; [exact L|]. intros j. destruct (Nat.leb_spec a j); destruct (Nat.ltb_spec j (a + n)); cbn [andb].
    + apply A. apply in_seq. lia.
    + apply C. rewrite in_seq. lia.
    + apply C. rewrite in_seq. lia.
    + apply C. rewrite in_seq. lia.
Qed.

Section Bits.
Variable B : nat.
Hypothesis HB : 0 < B.
Notation req := (blocks_required B).

Lemma tb_one k : tb (one_block B) k = (k <? B).
Proof.
  unfold tb, one_block. destruct (Nat.ltb_spec k B).
  - apply N.ones_spec_low. lia.
  - apply N.ones_spec_high. lia.
Qed.
Lemma tb_cast x k : tb (cast B x) k = tb x k && (k <? B).
Proof. unfold cast, tb. rewrite N.land_spec. f_equal. apply tb_one. Qed.
Lemma tb_inv x k : tb (inv B x) k = (k <? B) && negb (tb x k).
Proof. unfold inv, tb. rewrite N.ldiff_spec. f_equal. apply tb_one. Qed.
Lemma tb_shiftl x s k : tb (N.shiftl x (N.of_nat s)) k = (s <=? k) && tb x (k - s).
Proof.
  unfold tb. destruct (Nat.leb_spec s k).
  - rewrite N.shiftl_spec_high' by lia. cbn [andb]. f_equal. lia.
  - apply N.shiftl_spec_low. lia.
Qed.
Lemma tb_shl x s k : tb (shl B x s) k = (k <? B) && (s <=? k) && tb x (k - s).
Proof. unfold shl. rewrite tb_cast, tb_shiftl. destruct (k <? B), (s <=? k), (tb x (k - s)); reflexivity. Qed.
Lemma tb_shr x s k : tb (shr x s) k = tb x (k + s).
Proof. unfold shr, tb. rewrite N.shiftr_spec'. f_equal. lia. Qed.
Lemma tb_lor x y k : tb (N.lor x y) k = tb x k || tb y k.
Proof. apply N.lor_spec. Qed.
Lemma tb_land x y k : tb (N.land x y) k = tb x k && tb y k.
Proof. apply N.land_spec. Qed.
Lemma tb_lxor x y k : tb (N.lxor x y) k = xorb (tb x k) (tb y k).
Proof. apply N.lxor_spec. Qed.
Lemma tb_0 k : tb 0 k = false.
Proof. apply N.bits_0. Qed.
Lemma tb_1 k : tb 1 k = (k =? 0).
Proof. unfold tb. destruct k; [reflexivity|]. change 1%N with (N.ones 1). rewrite N.ones_spec_high by lia. reflexivity. Qed.
Lemma tb_mask p k : tb (bit_mask B p) k = (k =? p mod B).
Proof.
  unfold bit_mask, bit_index. rewrite tb_shl, tb_1. pose proof (Nat.mod_upper_bound p B ltac:(lia)).
  destruct (Nat.ltb_spec k B), (Nat.leb_spec (p mod B) k), (Nat.eqb_spec (k - p mod B) 0), (Nat.eqb_spec k (p mod B)); cbn; try reflexivity; lia.
Qed.
Lemma tb_low a k : tb (N.shiftl 1 (N.of_nat a) - 1) k = (k <? a).
Proof.
  unfold tb. rewrite N.shiftl_1_l. replace (2 ^ N.of_nat a - 1)%N with (N.ones (N.of_nat a)) by (rewrite N.ones_equiv; lia).
  destruct (Nat.ltb_spec k a); [apply N.ones_spec_low|apply N.ones_spec_high]; lia.
Qed.
Lemma tb_mask2 a b k : a <= b -> b < B -> tb (bit_mask2 B a b) k = (a <=? k) && (k <=? b).
Proof.
  intros Ha Hb. unfold bit_mask2, bit_index. rewrite !Nat.mod_small by lia. destruct (Nat.eqb_spec b (B - 1)) as [->|Ne].
  - rewrite tb_shl, tb_one. destruct (Nat.ltb_spec k B), (Nat.leb_spec a k), (Nat.leb_spec k (B - 1)), (Nat.ltb_spec (k - a) B); cbn; try reflexivity; lia.
  - rewrite tb_cast, tb_lxor, !tb_low. destruct (Nat.ltb_spec k (b + 1)), (Nat.ltb_spec k a), (Nat.ltb_spec k B), (Nat.leb_spec a k), (Nat.leb_spec k b); cbn; try reflexivity; lia.
Qed.
Lemma tb_ext x y : (forall k, tb x k = tb y k) -> x = y.
Proof. intros H. apply N.bits_inj. intros k. specialize (H (N.to_nat k)). unfold tb in H. rewrite N2Nat.id in H. exact H. Qed.
Lemma tb_zero x : x = 0%N <-> forall k, tb x k = false.
Proof. split; [intros -> k; apply tb_0|]. intros H. apply tb_ext. intros k. rewrite H, tb_0. reflexivity. Qed.

Lemma div_spec n : n = n / B * B + n mod B /\ n mod B < B.
Proof. pose proof (Nat.div_mod n B ltac:(lia)). pose proof (Nat.mod_upper_bound n B ltac:(lia)). split; [nia|auto]. Qed.
Lemma pos_inj j k j' k' : k < B -> k' < B -> j * B + k = j' * B + k' -> j = j' /\ k = k'.
Proof. intros H H' E. assert (j = j') by nia. subst. split; [reflexivity|lia]. Qed.
Lemma pos_div j k : k < B -> (j * B + k) / B = j /\ (j * B + k) mod B = k.
Proof. intros H. destruct (div_spec (j * B + k)) as [E L]. symmetry in E. apply pos_inj in E; auto. Qed.
Lemma req_spec n : n <= req n * B /\ req n * B < n + B.
Proof.
  unfold blocks_required. destruct (div_spec n) as [E L]. destruct (Nat.ltb_spec 0 (n mod B)); split; nia.
Qed.
Lemma req_unique n r : n <= r * B -> r * B < n + B -> req n = r.
Proof. intros H1 H2. destruct (req_spec n). nia. Qed.
Lemma req_0 : req 0 = 0.
Proof. apply req_unique; lia. Qed.

(** The bits of a bitset of n bits are those of f. *)
Definition repr (s : bitset) (n : nat) (f : nat -> bool) : Prop :=
  bits s = n /\ length (blocks s) = req n /\
  forall j k, tb (nth j (blocks s) 0%N) k = (k <? B) && (j * B + k <? n) && f (j * B + k).
(** Before sanitize. *)
Definition raw (s : bitset) (n : nat) (f : nat -> bool) : Prop :=
  bits s = n /\ length (blocks s) = req n /\
  forall j k, tb (nth j (blocks s) 0%N) k = (k <? B) && (j <? req n) && f (j * B + k).
Lemma repr_ext s n f g : (forall i, i < n -> f i = g i) -> repr s n f -> repr s n g.
Proof.
  intros H (E1 & E2 & E3). split; [exact E1|]. split; [exact E2|]. intros j k. rewrite E3. destruct (Nat.ltb_spec (j * B + k) n) as [L|L].
  - rewrite (H _ L). reflexivity.
  - rewrite !andb_false_r. reflexivity.
Qed.
Lemma repr_unique s t n f g : repr s n f -> repr t n g -> (forall i, i < n -> f i = g i) -> s = t.
Proof.
  intros (E1 & E2 & E3) (F1 & F2 & F3) H. destruct s as [m b], t as [m' b']. cbn [bits blocks] in *. subst b b'. f_equal.
  apply (nth_ext _ _ 0%N 0%N); [congruence|]. intros j _. apply tb_ext. intros k. rewrite E3, F3. destruct (Nat.ltb_spec (j * B + k) n).
  - rewrite H by lia. reflexivity.
  - rewrite !andb_false_r. reflexivity.
Qed.
Lemma repr_raw s n f : repr s n f -> raw s n (fun i => (i <? n) && f i).
Proof.
  intros (E1 & E2 & E3). split; [exact E1|]. split; [exact E2|]. intros j k. rewrite E3. destruct (req_spec n) as [R1 R2].
  destruct (Nat.ltb_spec k B), (Nat.ltb_spec (j * B + k) n), (Nat.ltb_spec j (req n)); cbn; try reflexivity. nia.
Qed.
Lemma sanitize_ok s n f : raw s n f -> exists s', sanitize B s = Val s' /\ repr s' n f.
Proof.
  intros (E1 & E2 & E3). unfold sanitize. rewrite E1. destruct (div_spec n) as [D DL]. destruct (req_spec n) as [R1 R2].
  destruct (Nat.ltb_spec 0 (n mod B)) as [P|P].
  - assert (Rq : req n = n / B + 1) by (apply req_unique; nia).
    assert (Hl : length (blocks s) - 1 < length (blocks s)) by lia. rewrite rd_val by auto. cbn [bind]. rewrite wr_val by auto. cbn [bind].
    eexists. split; [reflexivity|]. split; [reflexivity|]. cbn [blocks bits]. split; [rewrite upd_length; auto|].
    intros j k. rewrite nth_upd by auto. rewrite E2. destruct (Nat.eqb_spec j (req n - 1)) as [->|Ne].
    + rewrite tb_land, tb_inv, tb_shl, tb_one, E3. replace (req n - 1) with (n / B) by lia.
      destruct (Nat.ltb_spec k B), (Nat.leb_spec (n mod B) k), (Nat.ltb_spec (n / B) (req n)), (Nat.ltb_spec (n / B * B + k) n), (Nat.ltb_spec (k - n mod B) B); cbn;
        rewrite ?andb_true_r, ?andb_false_r; try reflexivity; lia.
    + rewrite E3. destruct (Nat.ltb_spec k B), (Nat.ltb_spec j (req n)), (Nat.ltb_spec (j * B + k) n); cbn [andb]; try reflexivity; exfalso.
      * pose proof (Nat.mul_le_mono_r (j + 1) (n / B) B ltac:(lia)). lia.
      * pose proof (Nat.mul_le_mono_r (req n) j B ltac:(lia)). lia.
  - exists s. split; [reflexivity|]. split; [exact E1|]. split; [exact E2|]. intros j k. rewrite E3.
    destruct (Nat.ltb_spec k B), (Nat.ltb_spec j (req n)), (Nat.ltb_spec (j * B + k) n); cbn [andb]; try reflexivity; exfalso.
    + pose proof (Nat.mul_le_mono_r (j + 1) (req n) B ltac:(lia)). assert (Rq : req n = n / B) by (apply req_unique; lia). rewrite Rq in *. lia.
    + pose proof (Nat.mul_le_mono_r (req n) j B ltac:(lia)). lia.
Qed.
Lemma repr_empty f : repr empty_set 0 f.
Proof. split; [reflexivity|]. split; [symmetry; apply req_0|]. intros j k. cbn [empty_set blocks]. replace (nth j [] 0%N) with 0%N by (destruct j; reflexivity). rewrite tb_0. rewrite andb_false_r. reflexivity. Qed.

(** ** Single bits *)
Lemma index_ok n p : p < n -> p / B < req n.
Proof. intros H. destruct (div_spec p). destruct (req_spec n). nia. Qed.
Lemma pos_eq j k p : k < B -> (j * B + k =? p) = (j =? p / B) && (k =? p mod B).
Proof.
  intros H. destruct (div_spec p) as [E L]. destruct (Nat.eqb_spec (j * B + k) p) as [Q|Q]; destruct (Nat.eqb_spec j (p / B)) as [A|A]; destruct (Nat.eqb_spec k (p mod B)) as [C|C]; cbn; try reflexivity; exfalso.
  - rewrite E in Q. apply pos_inj in Q; auto. tauto.
  - rewrite E in Q. apply pos_inj in Q; auto. tauto.
  - rewrite E in Q. apply pos_inj in Q; auto. tauto.
  - subst. lia.
Qed.
Lemma change_bit_ok s n f p (g : N -> N) (v : bool -> bool) : repr s n f -> p < n ->
  (forall x k, (forall k, B <= k -> tb x k = false) -> tb (g x) k = if k =? p mod B then v (tb x k) else tb x k) ->
  exists s', bind (rd (blocks s) (block_index B p)) (fun x => bind (wr (blocks s) (block_index B p) (g x)) (fun m => Val (mkBits m (bits s)))) = Val s' /\
    repr s' n (fun i => if i =? p then v (f i) else f i).
Proof.
  intros (E1 & E2 & E3) Hp Hg. unfold block_index. pose proof (index_ok n p Hp) as Hi. rewrite rd_val by lia. cbn [bind]. rewrite wr_val by lia. cbn [bind].
  eexists. split; [reflexivity|]. split; [exact E1|]. cbn [blocks]. split; [rewrite upd_length; lia|]. intros j k. rewrite nth_upd by lia.
  destruct (div_spec p) as [Dp Lp].
  destruct (Nat.eqb_spec j (p / B)) as [->|Ne].
  - rewrite Hg by (intros k' K'; rewrite E3; apply Nat.ltb_ge in K'; rewrite K'; reflexivity). rewrite E3. destruct (Nat.eqb_spec k (p mod B)) as [->|Nk].
    + rewrite pos_eq, !Nat.eqb_refl by auto. cbn [andb]. rewrite <- Dp. apply Nat.ltb_lt in Lp. rewrite Lp. apply Nat.ltb_lt in Hp. rewrite Hp. reflexivity.
    + destruct (Nat.ltb_spec k B); [|reflexivity]. rewrite pos_eq by auto. apply Nat.eqb_neq in Nk. rewrite Nk, andb_false_r. reflexivity.
  - rewrite E3. destruct (Nat.ltb_spec k B); [|reflexivity]. rewrite pos_eq by auto. apply Nat.eqb_neq in Ne. rewrite Ne. reflexivity.
Qed.
Lemma set_bit_ok s n f p v : repr s n f -> p < n -> exists s', set_bit B s p v = Val s' /\ repr s' n (fun i => if i =? p then v else f i).
Proof.
  intros R Hp. unfold set_bit. apply (change_bit_ok s n f p (fun x => if v then N.lor x (bit_mask B p) else N.land x (inv B (bit_mask B p))) (fun _ => v) R Hp). intros x k Hx. destruct v.
  - rewrite tb_lor, tb_mask. destruct (k =? p mod B); [apply orb_true_r|apply orb_false_r].
  - rewrite tb_land, tb_inv, tb_mask. destruct (Nat.eqb_spec k (p mod B)); [cbn; rewrite !andb_false_r; reflexivity|].
    destruct (Nat.ltb_spec k B); [apply andb_true_r|]. rewrite Hx by auto. reflexivity.
Qed.
Lemma flip_bit_ok s n f p : repr s n f -> p < n -> exists s', flip_bit B s p = Val s' /\ repr s' n (fun i => if i =? p then negb (f i) else f i).
Proof.
  intros R Hp. unfold flip_bit. apply (change_bit_ok s n f p (fun x => N.lxor x (bit_mask B p)) negb R Hp). intros x k Hx.
  rewrite tb_lxor, tb_mask. destruct (k =? p mod B); [apply xorb_true_r|apply xorb_false_r].
Qed.
Lemma land_mask x p : negb (N.land x (bit_mask B p) =? 0)%N = tb x (p mod B).
Proof.
  destruct (N.eqb_spec (N.land x (bit_mask B p)) 0) as [E|E]; cbn [negb].
  - apply (f_equal (fun y => tb y (p mod B))) in E. rewrite tb_land, tb_mask, Nat.eqb_refl, andb_true_r, tb_0 in E. auto.
  - destruct (tb x (p mod B)) eqn:T; [reflexivity|]. exfalso. apply E. apply tb_zero. intros k. rewrite tb_land, tb_mask.
    destruct (Nat.eqb_spec k (p mod B)) as [->|]; [rewrite T; reflexivity|apply andb_false_r].
Qed.
Lemma test_ok s n f p : repr s n f -> p < n -> test B s p = Val (f p).
Proof.
  intros (E1 & E2 & E3) Hp. unfold test, block_index. pose proof (index_ok n p Hp). rewrite rd_val by lia. cbn [bind]. rewrite land_mask, E3.
  destruct (div_spec p) as [Dp Lp]. rewrite <- Dp. apply Nat.ltb_lt in Lp, Hp. rewrite Lp, Hp. reflexivity.
Qed.

(** ** Whole blocks *)
Lemma nth_map_lt (g : N -> N) m j : j < length m -> nth j (map g m) 0%N = g (nth j m 0%N).
Proof. intros H. rewrite (nth_indep _ _ (g 0%N)) by (rewrite map_length; auto). apply map_nth. Qed.
Lemma reset_all_ok s n f : repr s n f -> repr (reset_all s) n (fun _ => false).
Proof.
  intros (E1 & E2 & E3). split; [exact E1|]. cbn [reset_all blocks]. split; [rewrite map_length; auto|]. intros j k. rewrite andb_false_r.
  destruct (Nat.ltb_spec j (length (blocks s))) as [L|L].
  - rewrite nth_map_lt by auto. apply tb_0.
  - rewrite nth_overflow by (rewrite map_length; auto). apply tb_0.
Qed.
Lemma set_all_ok s n f : repr s n f -> exists s', set_all B s = Val s' /\ repr s' n (fun _ => true).
Proof.
  intros (E1 & E2 & E3). apply sanitize_ok. split; [exact E1|]. cbn [blocks]. split; [rewrite map_length; auto|]. intros j k. rewrite andb_true_r.
  destruct (Nat.ltb_spec j (req n)) as [L|L].
  - rewrite nth_map_lt by lia. rewrite tb_one, andb_true_r. reflexivity.
  - rewrite nth_overflow by (rewrite map_length; lia). rewrite tb_0, andb_false_r. reflexivity.
Qed.
Lemma flip_all_ok s n f : repr s n f -> exists s', flip_all B s = Val s' /\ repr s' n (fun i => negb (f i)).
Proof.
  intros (E1 & E2 & E3). destruct (sanitize_ok (mkBits (map (inv B) (blocks s)) (bits s)) n (fun i => negb ((i <? n) && f i))) as (s' & Es & R).
  - split; [exact E1|]. cbn [blocks]. split; [rewrite map_length; auto|]. intros j k.
    destruct (Nat.ltb_spec j (req n)) as [L|L].
    + rewrite nth_map_lt by lia. rewrite tb_inv, E3, andb_true_r. destruct (k <? B); reflexivity.
    + rewrite nth_overflow by (rewrite map_length; lia). rewrite tb_0, andb_false_r. reflexivity.
  - exists s'. split; [exact Es|]. revert R. apply repr_ext. intros i Hi. apply Nat.ltb_lt in Hi. rewrite Hi. reflexivity.
Qed.
Lemma combine_ok (op : N -> N -> N) (b : bool -> bool -> bool) s t n f g : repr s n f -> repr t n g -> b false false = false ->
  (forall x y k, (B <= k -> tb x k = false) -> (B <= k -> tb y k = false) -> tb (op x y) k = b (tb x k) (tb y k)) ->
  exists s', combine_blocks op s t = Val s' /\ repr s' n (fun i => b (f i) (g i)).
Proof.
  intros (E1 & E2 & E3) (F1 & F2 & F3) B0 Hop. unfold combine_blocks.
  destruct (for_each_map (fun i m => bind (rd m i) (fun x => bind (rd (blocks t) i) (fun y => wr m i (op x y)))) (fun i x => op x (nth i (blocks t) 0%N)) 0 (length (blocks s)) (blocks s)) as (m & Em & L & A).
  - lia.
  - intros i m' Hi L. rewrite rd_val by lia. cbn [bind]. rewrite rd_val by lia. cbn [bind]. rewrite wr_val by lia. reflexivity.
  - rewrite Em. cbn [bind]. eexists. split; [reflexivity|]. split; [exact E1|]. cbn [blocks]. split; [congruence|]. intros j k. rewrite A. cbn [Nat.leb andb Nat.add].
    destruct (Nat.ltb_spec j (length (blocks s))) as [Lj|Lj].
    + rewrite Hop.
      * rewrite E3, F3. destruct (k <? B), (j * B + k <? n); cbn [andb]; auto.
      * intros K. rewrite E3. apply Nat.ltb_ge in K. rewrite K. reflexivity.
      * intros K. rewrite F3. apply Nat.ltb_ge in K. rewrite K. reflexivity.
    + rewrite nth_overflow by auto. rewrite tb_0. destruct (req_spec n) as [R1 R2]. destruct (Nat.ltb_spec (j * B + k) n); [nia|]. rewrite andb_false_r. reflexivity.
Qed.
Lemma and_ok s t n f g : repr s n f -> repr t n g -> exists s', and_eq s t = Val s' /\ repr s' n (fun i => f i && g i).
Proof. intros R Q. apply (combine_ok N.land andb s t n f g R Q eq_refl). intros. apply tb_land. Qed.
Lemma or_ok s t n f g : repr s n f -> repr t n g -> exists s', or_eq s t = Val s' /\ repr s' n (fun i => f i || g i).
Proof. intros R Q. apply (combine_ok N.lor orb s t n f g R Q eq_refl). intros. apply tb_lor. Qed.
Lemma xor_ok s t n f g : repr s n f -> repr t n g -> exists s', xor_eq s t = Val s' /\ repr s' n (fun i => xorb (f i) (g i)).
Proof. intros R Q. apply (combine_ok N.lxor xorb s t n f g R Q eq_refl). intros. apply tb_lxor. Qed.
Lemma sub_ok s t n f g : repr s n f -> repr t n g -> exists s', sub_eq B s t = Val s' /\ repr s' n (fun i => f i && negb (g i)).
Proof.
  intros R Q. apply (combine_ok (fun x y => N.land x (inv B y)) (fun x y => x && negb y) s t n f g R Q eq_refl). intros x y k Hx Hy.
  rewrite tb_land, tb_inv. destruct (Nat.ltb_spec k B); [reflexivity|]. rewrite Hx by auto. reflexivity.
Qed.

(** ** Shifts *)
Lemma zero_prefix_ok a n m : a + n <= length m ->
  exists m', for_each (fun i m => wr m i 0%N) (seq a n) m = Val m' /\ length m' = length m /\
    forall j, nth j m' 0%N = if (a <=? j) && (j <? a + n) then 0%N else nth j m 0%N.
Proof.
  intros H. apply (for_each_map (fun i m => wr m i 0%N) (fun _ _ => 0%N) a n m H). intros i m' Hi L. apply wr_val. lia.
Qed.
Lemma left_shift_ok s n f k : repr s n f -> exists s', left_shift B s k = Val s' /\ repr s' n (fun i => (k <=? i) && f (i - k)).
Proof.
  intros R. pose proof R as (E1 & E2 & E3). unfold left_shift. destruct (Nat.eqb_spec k 0) as [->|K0].
  { exists s. split; [reflexivity|]. revert R. apply repr_ext. intros i _. rewrite Nat.sub_0_r. reflexivity. }
  rewrite E1. destruct (Nat.leb_spec n k) as [Kn|Kn].
  { exists (reset_all s). split; [reflexivity|]. apply (repr_ext _ _ (fun _ => false)); [|eapply reset_all_ok; eauto]. intros i Hi. destruct (Nat.leb_spec k i); [lia|reflexivity]. }
  destruct (div_spec k) as [Dk Lk]. destruct (req_spec n) as [R1 R2]. set (bs := k / B) in *. set (off := k mod B) in *.
  assert (Hbs : bs < req n) by nia.
  assert (S1 : exists m, (if off =? 0 then
          for_each (fun i m => bind (rd m (i - bs)) (fun x => wr m i x)) (rev (seq bs (length (blocks s) - bs))) (blocks s)
        else
          bind (for_each (fun i m => bind (rd m (i - bs)) (fun x => bind (rd m (i - bs - 1)) (fun y =>
                  wr m i (cast B (N.lor (N.shiftl x (N.of_nat off)) (shr y (B - off)))))))
                (rev (seq (S bs) (length (blocks s) - S bs))) (blocks s)) (fun m =>
          bind (rd m 0) (fun x => wr m bs (shl B x off)))) = Val m /\ length m = req n /\
      forall j b, bs <= j -> tb (nth j m 0%N) b = (b <? B) && (j <? req n) && ((k <=? j * B + b) && (j * B + b - k <? n) && f (j * B + b - k))).
  { destruct (Nat.eqb_spec off 0) as [O|O].
    - destruct (for_each_par (fun i m => bind (rd m (i - bs)) (fun x => wr m i x)) (fun i m => nth (i - bs) m 0%N) (rev (seq bs (length (blocks s) - bs))) (blocks s)) as (m & Em & L & A & C).
      + apply NoDup_rev. apply seq_NoDup.
      + intros i I. apply in_rev in I. apply in_seq in I. lia.
      + intros i m' I L. apply in_rev in I. apply in_seq in I. rewrite rd_val by lia. cbn [bind]. apply wr_val. lia.
      + intros pre i post m' E L H. apply H. intros J. eapply rev_seq_before in E; eauto. lia.
      + exists m. split; [exact Em|]. split; [congruence|]. intros j b Hj. destruct (Nat.ltb_spec j (req n)) as [Lj|Lj].
        * rewrite A by (apply -> in_rev; apply in_seq; lia). rewrite E3. destruct (Nat.ltb_spec b B) as [Hb|Hb]; [|reflexivity]. cbn [andb].
          replace (j * B + b - k) with ((j - bs) * B + b) by nia. destruct (Nat.leb_spec k (j * B + b)); [reflexivity|nia].
        * rewrite nth_overflow by lia. rewrite tb_0, andb_false_r. reflexivity.
    - destruct (for_each_par (fun i m => bind (rd m (i - bs)) (fun x => bind (rd m (i - bs - 1)) (fun y =>
                  wr m i (cast B (N.lor (N.shiftl x (N.of_nat off)) (shr y (B - off)))))))
                (fun i m => cast B (N.lor (N.shiftl (nth (i - bs) m 0%N) (N.of_nat off)) (shr (nth (i - bs - 1) m 0%N) (B - off))))
                (rev (seq (S bs) (length (blocks s) - S bs))) (blocks s)) as (m & Em & L & A & C).
      + apply NoDup_rev. apply seq_NoDup.
      + intros i I. apply in_rev in I. apply in_seq in I. lia.
      + intros i m' I L. apply in_rev in I. apply in_seq in I. rewrite rd_val by lia. cbn [bind]. rewrite rd_val by lia. cbn [bind]. apply wr_val. lia.
      + intros pre i post m' E L H. rewrite !H; [reflexivity| |]; intros J; eapply rev_seq_before in E; eauto; lia.
      + rewrite Em. cbn [bind]. rewrite rd_val by lia. cbn [bind]. rewrite wr_val by lia. eexists. split; [reflexivity|].
        split; [rewrite upd_length; lia|]. intros j b Hj. rewrite nth_upd by lia.
        assert (M0 : nth 0 m 0%N = nth 0 (blocks s) 0%N) by (apply C; intros J; apply in_rev in J; apply in_seq in J; lia).
        destruct (Nat.eqb_spec j bs) as [->|Nj].
        * rewrite M0, tb_shl, E3. apply Nat.ltb_lt in Hbs. rewrite Hbs. destruct (Nat.ltb_spec b B) as [Hb|Hb]; [|reflexivity]. cbn [andb Nat.mul Nat.add].
          destruct (Nat.leb_spec off b), (Nat.leb_spec k (bs * B + b)); cbn [andb]; try reflexivity; try lia.
          replace (bs * B + b - k) with (b - off) by lia. destruct (Nat.ltb_spec (b - off) B); [reflexivity|lia].
        * destruct (Nat.ltb_spec j (req n)) as [Lj|Lj].
          -- rewrite A by (apply -> in_rev; apply in_seq; lia). rewrite tb_cast, tb_lor, tb_shiftl, tb_shr, !E3.
             destruct (Nat.ltb_spec b B) as [Hb|Hb]; [|rewrite andb_false_r; reflexivity]. rewrite andb_true_r. cbn [andb].
             assert (Q : j * B = (j - bs) * B + bs * B) by nia. assert (Q1 : (j - bs) * B = (j - bs - 1) * B + B) by nia.
             destruct (Nat.leb_spec k (j * B + b)) as [K|K]; [|lia]. cbn [andb]. destruct (Nat.leb_spec off b) as [O1|O1].
             ++ replace ((j - bs) * B + (b - off)) with (j * B + b - k) by lia. destruct (Nat.ltb_spec (b - off) B); [|lia]. destruct (Nat.ltb_spec (b + (B - off)) B); [lia|].
                cbn [andb]. apply orb_false_r.
             ++ cbn [andb orb]. replace ((j - bs - 1) * B + (b + (B - off))) with (j * B + b - k) by lia. destruct (Nat.ltb_spec (b + (B - off)) B); [reflexivity|lia].
          -- rewrite nth_overflow by lia. rewrite tb_0, andb_false_r. reflexivity. }
  destruct S1 as (m & Em & L & A). rewrite Em. cbn [bind]. destruct (zero_prefix_ok 0 bs m) as (m' & Em' & L' & A'); [lia|]. rewrite Em'. cbn [bind].
  destruct (sanitize_ok (mkBits m' n) n (fun i => (k <=? i) && (i - k <? n) && f (i - k))) as (s' & Es & R').
  - split; [reflexivity|]. cbn [blocks]. split; [congruence|]. intros j b. rewrite A'. cbn [Nat.leb andb Nat.add]. destruct (Nat.ltb_spec j bs) as [J|J].
    + rewrite tb_0. destruct (Nat.ltb_spec b B); [|reflexivity]. destruct (Nat.leb_spec k (j * B + b)); [nia|]. cbn. rewrite andb_false_r. reflexivity.
    + apply A. exact J.
  - exists s'. split; [exact Es|]. revert R'. apply repr_ext. intros i Hi. destruct (Nat.ltb_spec (i - k) n); [rewrite andb_true_r; reflexivity|lia].
Qed.
Lemma right_shift_ok s n f k : repr s n f -> exists s', right_shift B s k = Val s' /\ repr s' n (fun i => (i + k <? n) && f (i + k)).
Proof.
  intros R. pose proof R as (E1 & E2 & E3). unfold right_shift. destruct (Nat.eqb_spec k 0) as [->|K0].
  { exists s. split; [reflexivity|]. revert R. apply repr_ext. intros i Hi. rewrite Nat.add_0_r. apply Nat.ltb_lt in Hi. rewrite Hi. reflexivity. }
  rewrite E1. destruct (Nat.leb_spec n k) as [Kn|Kn].
  { exists (reset_all s). split; [reflexivity|]. apply (repr_ext _ _ (fun _ => false)); [|eapply reset_all_ok; eauto]. intros i Hi. destruct (Nat.ltb_spec (i + k) n); [lia|reflexivity]. }
  destruct (div_spec k) as [Dk Lk]. destruct (req_spec n) as [R1 R2]. set (bs := k / B) in *. set (off := k mod B) in *.
  assert (Hbs : bs < req n) by nia. rewrite E2. set (last := req n - bs - 1).
  assert (S1 : exists m, (if off =? 0 then
          for_each (fun i m => bind (rd m (i + bs)) (fun x => wr m i x)) (seq 0 (last + 1)) (blocks s)
        else
          bind (for_each (fun i m => bind (rd m (i + bs)) (fun x => bind (rd m (i + bs + 1)) (fun y =>
                  wr m i (N.lor (shr x off) (shl B y (B - off))))))
                (seq 0 last) (blocks s)) (fun m =>
          bind (rd m (req n - 1)) (fun x => wr m last (shr x off)))) = Val m /\ length m = req n /\
      forall j b, j <= last -> tb (nth j m 0%N) b = (b <? B) && (j * B + b + k <? n) && f (j * B + b + k)).
  { destruct (Nat.eqb_spec off 0) as [O|O].
    - destruct (for_each_par (fun i m => bind (rd m (i + bs)) (fun x => wr m i x)) (fun i m => nth (i + bs) m 0%N) (seq 0 (last + 1)) (blocks s)) as (m & Em & L & A & C).
      + apply seq_NoDup.
      + intros i I. apply in_seq in I. lia.
      + intros i m' I L. apply in_seq in I. rewrite rd_val by lia. cbn [bind]. apply wr_val. lia.
      + intros pre i post m' E L H. apply H. intros J. eapply seq_before in E; eauto. lia.
      + exists m. split; [exact Em|]. split; [congruence|]. intros j b Hj. rewrite A by (apply in_seq; lia). rewrite E3.
        replace ((j + bs) * B + b) with (j * B + b + k) by nia. reflexivity.
    - destruct (for_each_par (fun i m => bind (rd m (i + bs)) (fun x => bind (rd m (i + bs + 1)) (fun y =>
                  wr m i (N.lor (shr x off) (shl B y (B - off))))))
                (fun i m => N.lor (shr (nth (i + bs) m 0%N) off) (shl B (nth (i + bs + 1) m 0%N) (B - off)))
                (seq 0 last) (blocks s)) as (m & Em & L & A & C).
      + apply seq_NoDup.
      + intros i I. apply in_seq in I. lia.
      + intros i m' I L. apply in_seq in I. rewrite rd_val by lia. cbn [bind]. rewrite rd_val by lia. cbn [bind]. apply wr_val. lia.
      + intros pre i post m' E L H. rewrite !H; [reflexivity| |]; intros J; eapply seq_before in E; eauto; lia.
      + rewrite Em. cbn [bind]. rewrite rd_val by lia. cbn [bind]. rewrite wr_val by lia. eexists. split; [reflexivity|].
        split; [rewrite upd_length; lia|]. intros j b Hj. rewrite nth_upd by lia.
        assert (M0 : nth (req n - 1) m 0%N = nth (req n - 1) (blocks s) 0%N) by (apply C; intros J; apply in_seq in J; lia).
        destruct (Nat.eqb_spec j last) as [->|Nj].
        * rewrite M0, tb_shr, E3. assert (Q : (req n - 1) * B = last * B + bs * B) by (unfold last; nia).
          replace ((req n - 1) * B + (b + off)) with (last * B + b + k) by lia.
          destruct (Nat.ltb_spec (b + off) B), (Nat.ltb_spec b B), (Nat.ltb_spec (last * B + b + k) n); cbn [andb]; try reflexivity; try lia. nia.
        * rewrite A by (apply in_seq; lia). rewrite tb_lor, tb_shr, tb_shl, !E3.
          assert (Q : (j + bs) * B = j * B + bs * B) by nia. assert (Q1 : (j + bs + 1) * B = j * B + bs * B + B) by nia.
          replace ((j + bs) * B + (b + off)) with (j * B + b + k) by lia.
          destruct (Nat.ltb_spec b B) as [Hb|Hb].
          -- destruct (Nat.ltb_spec (b + off) B); cbn [andb].
             ++ destruct (Nat.leb_spec (B - off) b); [lia|]. cbn [andb]. apply orb_false_r.
             ++ destruct (Nat.leb_spec (B - off) b); [|lia]. cbn [andb orb]. replace ((j + bs + 1) * B + (b - (B - off))) with (j * B + b + k) by lia.
                destruct (Nat.ltb_spec (b - (B - off)) B); [reflexivity|lia].
          -- destruct (Nat.ltb_spec (b + off) B); [lia|]. reflexivity. }
  destruct S1 as (m & Em & L & A). rewrite Em. cbn [bind]. destruct (zero_prefix_ok (last + 1) (req n - (last + 1)) m) as (m' & Em' & L' & A'); [lia|]. rewrite Em'. cbn [bind].
  eexists. split; [reflexivity|]. split; [reflexivity|]. cbn [blocks]. split; [congruence|]. intros j b. rewrite A'.
  replace (last + 1 + (req n - (last + 1))) with (req n) by lia.
  destruct (Nat.leb_spec (last + 1) j) as [J|J]; [destruct (Nat.ltb_spec j (req n)) as [J2|J2]|]; cbn [andb].
  - rewrite tb_0. destruct (Nat.ltb_spec (j * B + b + k) n); [|rewrite !andb_false_r; reflexivity]. assert (last + 1 + bs = req n) by lia. nia.
  - rewrite nth_overflow by lia. rewrite tb_0. destruct (Nat.ltb_spec (j * B + b) n); [nia|]. rewrite !andb_false_r. reflexivity.
  - rewrite A by lia. destruct (Nat.ltb_spec b B); [|reflexivity]. destruct (Nat.ltb_spec (j * B + b + k) n), (Nat.ltb_spec (j * B + b) n); cbn; try reflexivity; lia.
Qed.
End Bits.
