(** Lemmas on changes of size, ranges and observers of a bitset. *)
From Coq Require Import ZArith NArith List Bool Arith Lia.
From Verif Require Import LinCodeModel BitsetModel BitsetProof.
Import ListNotations.
Open Scope nat_scope.

Section Bits.
Variable B : nat.
Hypothesis HB : 0 < B.
Notation req := (blocks_required B).
Notation repr := (repr B).
Notation raw := (raw B).
Local Notation tb_one := (BitsetProof.tb_one B HB).
Local Notation tb_cast := (BitsetProof.tb_cast B HB).
Local Notation tb_inv := (BitsetProof.tb_inv B HB).
Local Notation tb_shl := (BitsetProof.tb_shl B HB).
Local Notation tb_shr := (BitsetProof.tb_shr B HB).
Local Notation tb_mask2 := (BitsetProof.tb_mask2 B HB).
Local Notation tb_1 := (BitsetProof.tb_1 B HB).

Lemma req_part n : 0 < n mod B -> req n = n / B + 1.
Proof. intros H. destruct (div_spec B HB n). apply req_unique; auto; nia. Qed.
Lemma req_full n : n mod B = 0 -> req n = n / B /\ n = req n * B.
Proof. intros H. destruct (div_spec B HB n). assert (E : req n = n / B) by (apply req_unique; auto; nia). split; [exact E|]. rewrite E. lia. Qed.
Lemma mod_add n r : (n + r * B) mod B = n mod B.
Proof. apply Nat.mod_add. lia. Qed.
Lemma req_add n r : req (n + r * B) = req n + r.
Proof. destruct (req_spec B HB n). apply req_unique; auto; nia. Qed.
Lemma nth_app_last (m : list N) x j : nth j (m ++ [x]) 0%N = if j =? length m then x else nth j m 0%N.
Proof.
  destruct (Nat.eqb_spec j (length m)) as [->|N].
  - rewrite app_nth2 by lia. rewrite Nat.sub_diag. reflexivity.
  - destruct (Nat.ltb_spec j (length m)); [apply app_nth1; auto|]. rewrite !nth_overflow; rewrite ?app_length; cbn [length]; auto; lia.
Qed.
Lemma nth_vec_resize m r x j : nth j (vec_resize m r x) 0%N = if j <? r then if j <? length m then nth j m 0%N else x else 0%N.
Proof.
  unfold vec_resize. destruct (Nat.ltb_spec j r) as [J|J].
  - destruct (Nat.ltb_spec j (length m)) as [K|K].
    + rewrite app_nth1 by (rewrite firstn_length; lia). rewrite <- (firstn_skipn r m) at 2. rewrite app_nth1 by (rewrite firstn_length; lia). reflexivity.
    + rewrite app_nth2 by (rewrite firstn_length; lia). rewrite firstn_length, nth_indep with (d' := x) by (rewrite repeat_length; lia). apply nth_repeat.
  - apply nth_overflow. rewrite app_length, firstn_length, repeat_length. lia.
Qed.
Lemma vec_resize_length m r x : length (vec_resize m r x) = r.
Proof. unfold vec_resize. rewrite app_length, firstn_length, repeat_length. lia. Qed.

(** ** Size *)
Lemma resize_ok s n f n' v : repr s n f -> exists s', resize B s n' v = Val s' /\ repr s' n' (fun i => if i <? n then f i else v).
Proof.
  intros R. pose proof R as (E1 & E2 & E3). unfold resize. rewrite E1. destruct (Nat.eqb_spec n' n) as [->|Nn].
  { exists s. split; [reflexivity|]. revert R. apply repr_ext. intros i Hi. apply Nat.ltb_lt in Hi. rewrite Hi. reflexivity. }
  rewrite E2. set (m := if req n' =? req n then blocks s else _).
  set (init := if v then one_block B else 0%N) in *.
  assert (Lm : length m = req n') by (unfold m; destruct (Nat.eqb_spec (req n') (req n)); [lia|apply vec_resize_length]).
  assert (Nm : forall j, nth j m 0%N = if j <? req n' then if j <? req n then nth j (blocks s) 0%N else init else 0%N).
  { intros j. unfold m. destruct (Nat.eqb_spec (req n') (req n)) as [Q|Q]; [|rewrite nth_vec_resize, E2; reflexivity].
    rewrite Q. destruct (Nat.ltb_spec j (req n)); [reflexivity|]. apply nth_overflow. lia. }
  assert (Ti : forall k, tb init k = (k <? B) && v) by (intros k; unfold init; destruct v; rewrite ?tb_one, ?tb_0, ?andb_true_r, ?andb_false_r; reflexivity).
  destruct (req_spec B HB n) as [R1 R2]. destruct (req_spec B HB n') as [R1' R2'].
  destruct (Nat.ltb_spec n n') as [G|G].
  - (* growing *)
    assert (Rle : req n <= req n') by nia.
    assert (S1 : exists m', (if v && true && (0 <? req n) then
          if 0 <? extra_bits B s then bind (rd m (req n - 1)) (fun x => wr m (req n - 1) (N.lor x (shl B init (extra_bits B s)))) else Val m
        else Val m) = Val m' /\ raw (mkBits m' n') n' (fun i => if i <? n then f i else v)).
    { rewrite andb_true_r. unfold extra_bits, bit_index. rewrite E1.
      assert (Base : forall j k, j <> req n - 1 \/ v = false \/ n mod B = 0 -> tb (nth j m 0%N) k = (k <? B) && (j <? req n') && (if j * B + k <? n then f (j * B + k) else v)).
      { intros j k H. rewrite Nm. destruct (Nat.ltb_spec j (req n')) as [J|J]; [|rewrite tb_0, andb_false_r; reflexivity]. rewrite andb_true_r.
        destruct (Nat.ltb_spec j (req n)) as [J2|J2].
        - rewrite E3. destruct (Nat.ltb_spec k B) as [K|K]; [|reflexivity]. cbn [andb]. destruct (Nat.ltb_spec (j * B + k) n) as [P|P]; [reflexivity|].
          destruct H as [H|[H|H]]; [|subst; reflexivity|]; exfalso.
          + pose proof (Nat.mul_le_mono_r (j + 1) (req n - 1) B ltac:(lia)). pose proof (Nat.mul_sub_distr_r (req n) 1 B). nia.
          + apply req_full in H as [_ H]. pose proof (Nat.mul_le_mono_r (j + 1) (req n) B ltac:(lia)). lia.
        - rewrite Ti. destruct (Nat.ltb_spec (j * B + k) n); [|reflexivity]. pose proof (Nat.mul_le_mono_r (req n) j B ltac:(lia)). lia. }
      destruct v; cbn [andb].
      2:{ exists m. split; [reflexivity|]. split; [reflexivity|]. split; [exact Lm|]. intros j k. apply Base. auto. }
      destruct (Nat.ltb_spec 0 (req n)) as [P|P].
      2:{ exists m. split; [reflexivity|]. split; [reflexivity|]. split; [exact Lm|]. intros j k. apply Base. right. right. assert (Z0 : n = 0) by nia. rewrite Z0. apply Nat.mod_0_l. lia. }
      destruct (Nat.ltb_spec 0 (n mod B)) as [X|X].
      2:{ exists m. split; [reflexivity|]. split; [reflexivity|]. split; [exact Lm|]. intros j k. apply Base. right. right. lia. }
      rewrite rd_val by lia. cbn [bind]. rewrite wr_val by lia. eexists. split; [reflexivity|]. split; [reflexivity|]. cbn [blocks]. split; [rewrite upd_length; lia|].
      intros j k. rewrite nth_upd by lia. destruct (Nat.eqb_spec j (req n - 1)) as [->|Nj]; [|apply Base; auto].
      rewrite tb_lor, tb_shl, Ti, andb_true_r, Nm. destruct (Nat.ltb_spec (req n - 1) (req n')); [|lia]. destruct (Nat.ltb_spec (req n - 1) (req n)); [|lia].
      rewrite E3. destruct (div_spec B HB n) as [D DL]. rewrite (req_part n X) in *. replace (n / B + 1 - 1) with (n / B) by lia.
      destruct (Nat.ltb_spec k B), (Nat.ltb_spec (n / B * B + k) n), (Nat.leb_spec (n mod B) k), (Nat.ltb_spec (k - n mod B) B); cbn [andb orb]; rewrite ?orb_false_r; try reflexivity; lia. }
    destruct S1 as (m' & Em & Rw). rewrite Em. cbn [bind]. apply sanitize_ok; auto.
  - (* shrinking *)
    rewrite andb_false_r. cbn [andb bind]. assert (Rle : req n' <= req n) by nia.
    destruct (sanitize_ok B HB (mkBits m n') n' (fun i => (i <? n) && f i)) as (s' & Es & R').
    + split; [reflexivity|]. cbn [blocks]. split; [exact Lm|]. intros j k. rewrite Nm. destruct (Nat.ltb_spec j (req n')) as [J|J]; [|rewrite tb_0, andb_false_r; reflexivity].
      destruct (Nat.ltb_spec j (req n)); [|lia]. rewrite E3, andb_true_r. symmetry. apply andb_assoc.
    + exists s'. split; [exact Es|]. revert R'. apply repr_ext. intros i Hi. destruct (Nat.ltb_spec i n); [reflexivity|lia].
Qed.
Lemma push_back_ok s n f v : repr s n f -> exists s', push_back B s v = Val s' /\ repr s' (n + 1) (fun i => if i <? n then f i else v).
Proof.
  intros (E1 & E2 & E3). unfold push_back. rewrite E1, E2. destruct (req_spec B HB n) as [R1 R2]. destruct (Nat.leb_spec (n + 1) (req n * B)) as [H|H].
  - assert (R0 : repr (mkBits (blocks s) (n + 1)) (n + 1) (fun i => (i <? n) && f i)).
    { split; [reflexivity|]. cbn [blocks]. split; [rewrite E2; symmetry; apply req_unique; auto; lia|]. intros j k. rewrite E3.
      destruct (Nat.ltb_spec k B), (Nat.ltb_spec (j * B + k) n), (Nat.ltb_spec (j * B + k) (n + 1)); cbn [andb]; try reflexivity; lia. }
    destruct v.
    + destruct (set_bit_ok B HB _ _ _ n true R0 ltac:(lia)) as (s' & Es & R'). exists s'. split; [exact Es|]. revert R'. apply repr_ext. intros i Hi.
      destruct (Nat.eqb_spec i n), (Nat.ltb_spec i n); try reflexivity; lia.
    + eexists. split; [reflexivity|]. revert R0. apply repr_ext. intros i Hi. destruct (Nat.ltb_spec i n); reflexivity.
  - assert (Rn : n = req n * B) by lia.
    eexists. split; [reflexivity|]. split; [reflexivity|]. cbn [blocks]. split; [rewrite app_length; cbn [length]; rewrite E2; symmetry; apply req_unique; auto; nia|].
    intros j k. rewrite nth_app_last, E2. destruct (Nat.eqb_spec j (req n)) as [->|Nj].
    + rewrite <- Rn. assert (T : tb (if v then 1%N else 0%N) k = (k =? 0) && v) by (destruct v; rewrite ?tb_1, ?tb_0, ?andb_true_r, ?andb_false_r; reflexivity).
      rewrite T. destruct (Nat.eqb_spec k 0), (Nat.ltb_spec k B), (Nat.ltb_spec (n + k) (n + 1)), (Nat.ltb_spec (n + k) n); cbn [andb]; try reflexivity; lia.
    + rewrite E3. destruct (Nat.ltb_spec k B) as [K|K]; [|reflexivity]. cbn [andb]. destruct (Nat.ltb_spec (j * B + k) n), (Nat.ltb_spec (j * B + k) (n + 1)); cbn [andb]; try reflexivity; [lia|].
      exfalso. apply Nj. assert (j * B + k = req n * B + 0) by lia. apply (pos_inj B) in H2; lia.
Qed.
Lemma pop_back_ok s n f : repr s n f -> exists s', pop_back B s = Val s' /\ repr s' (n - 1) f.
Proof.
  intros R. pose proof R as (E1 & E2 & E3). unfold pop_back. rewrite E1, E2. destruct (req_spec B HB n) as [R1 R2]. destruct (req_spec B HB (n - 1)) as [R1' R2'].
  destruct (Nat.eqb_spec n 0) as [->|N0]; [exists s; auto|]. destruct (Nat.ltb_spec (req (n - 1)) (req n)) as [L|L].
  - assert (Rq : req n = req (n - 1) + 1) by nia. assert (Rm : n - 1 = req (n - 1) * B) by nia.
    assert (Eb : blocks s = removelast (blocks s) ++ [last (blocks s) 0%N]) by (apply app_removelast_last; intros C; rewrite C in E2; cbn in E2; lia).
    assert (Ll : length (removelast (blocks s)) = req (n - 1)) by (rewrite Eb, app_length in E2; cbn [length] in E2; lia).
    eexists. split; [reflexivity|]. split; [reflexivity|]. cbn [blocks]. split; [exact Ll|]. intros j k.
    destruct (Nat.ltb_spec j (req (n - 1))) as [J|J].
    + specialize (E3 j k). rewrite Eb, app_nth1 in E3 by lia. rewrite E3. destruct (Nat.ltb_spec k B); [|reflexivity].
      pose proof (Nat.mul_le_mono_r (j + 1) (req (n - 1)) B ltac:(lia)).
      destruct (Nat.ltb_spec (j * B + k) n), (Nat.ltb_spec (j * B + k) (n - 1)); cbn [andb]; try reflexivity; lia.
    + rewrite nth_overflow by lia. rewrite tb_0. pose proof (Nat.mul_le_mono_r (req (n - 1)) j B ltac:(lia)). destruct (Nat.ltb_spec (j * B + k) (n - 1)); [lia|].
      rewrite andb_false_r. reflexivity.
  - assert (Rq : req n = req (n - 1)) by nia. destruct (sanitize_ok B HB (mkBits (blocks s) (n - 1)) (n - 1) (fun i => (i <? n) && f i)) as (s' & Es & R').
    + split; [reflexivity|]. cbn [blocks]. split; [lia|]. intros j k. rewrite E3, <- Rq. destruct (Nat.ltb_spec k B), (Nat.ltb_spec (j * B + k) n), (Nat.ltb_spec j (req n)); cbn [andb]; try reflexivity.
      pose proof (Nat.mul_le_mono_r (req n) j B ltac:(lia)). lia.
    + exists s'. split; [exact Es|]. revert R'. apply repr_ext. intros i Hi. destruct (Nat.ltb_spec i n); [reflexivity|lia].
Qed.
Definition small (x : N) : Prop := forall k, B <= k -> tb x k = false.
Lemma append_block_ok s n f b : repr s n f -> small b -> exists s', append_block B s b = Val s' /\ repr s' (n + B) (fun i => if i <? n then f i else tb b (i - n)).
Proof.
  intros (E1 & E2 & E3) Hb. unfold append_block, extra_bits, bit_index. rewrite E1. destruct (req_spec B HB n) as [R1 R2]. destruct (div_spec B HB n) as [D DL].
  assert (Rn : req (n + B) = req n + 1) by (rewrite <- (req_add n 1); f_equal; lia).
  destruct (Nat.eqb_spec (n mod B) 0) as [X|X].
  - apply req_full in X as [_ X]. cbn [bind]. eexists. split; [reflexivity|]. split; [reflexivity|]. cbn [blocks]. split; [rewrite app_length; cbn [length]; lia|].
    intros j k. rewrite nth_app_last, E2. destruct (Nat.eqb_spec j (req n)) as [->|Nj].
    + rewrite <- X. replace (n + k - n) with k by lia. destruct (Nat.ltb_spec (n + k) n); [lia|]. destruct (Nat.ltb_spec k B), (Nat.ltb_spec (n + k) (n + B)); cbn [andb]; try reflexivity; try lia. apply Hb. lia.
    + rewrite E3. destruct (Nat.ltb_spec k B) as [K|K]; [|reflexivity]. cbn [andb]. destruct (Nat.ltb_spec (j * B + k) n), (Nat.ltb_spec (j * B + k) (n + B)); cbn [andb]; try reflexivity; [lia|].
      exfalso. apply Nj. assert (j >= req n) by nia. assert (j < req n + 1) by nia. lia.
  - assert (X' : 0 < n mod B) by lia. pose proof (req_part n X') as Rq. rewrite rd_val by lia. cbn [bind]. rewrite wr_val by lia. cbn [bind]. eexists. split; [reflexivity|]. split; [reflexivity|]. cbn [blocks].
    split; [rewrite app_length, upd_length by lia; cbn [length]; lia|]. intros j k. rewrite nth_app_last, upd_length, E2 by lia. rewrite nth_upd by lia.
    destruct (Nat.eqb_spec j (req n)) as [->|Nj].
    + rewrite tb_shr, Rq. replace ((n / B + 1) * B + k) with (n + (k + (B - n mod B))) by lia. replace (n + (k + (B - n mod B)) - n) with (k + (B - n mod B)) by lia.
      destruct (Nat.ltb_spec (n + (k + (B - n mod B))) n); [lia|]. destruct (Nat.ltb_spec k B), (Nat.ltb_spec (n + (k + (B - n mod B))) (n + B)); cbn [andb]; try reflexivity; apply Hb; lia.
    + rewrite Rq. replace (n / B + 1 - 1) with (n / B) by lia. destruct (Nat.eqb_spec j (n / B)) as [->|Nj2].
      * rewrite tb_lor, tb_shl, E3. destruct (Nat.ltb_spec k B) as [K|K]; [|reflexivity]. cbn [andb]. destruct (Nat.ltb_spec (n / B * B + k) (n + B)); [|lia].
        destruct (Nat.leb_spec (n mod B) k) as [C|C]; destruct (Nat.ltb_spec (n / B * B + k) n); cbn [andb orb]; try lia; [|apply orb_false_r]. f_equal. lia.
      * rewrite E3. destruct (Nat.ltb_spec k B) as [K|K]; [|reflexivity]. cbn [andb]. destruct (Nat.ltb_spec (j * B + k) n), (Nat.ltb_spec (j * B + k) (n + B)); cbn [andb]; try reflexivity; [lia|].
        exfalso. assert (j < n / B + 2) by nia. assert (n / B <= j) by nia. lia.
Qed.
Fixpoint append_fold (s : bitset) (l : list N) : outcome bitset :=
  match l with [] => Val s | x :: l' => bind (append_block B s x) (fun s' => append_fold s' l') end.
Lemma append_fold_full m n l : n mod B = 0 -> append_fold (mkBits m n) l = Val (mkBits (m ++ l) (n + length l * B)).
Proof.
  revert m n. induction l as [|x l IH]; intros m n H; cbn [append_fold length Nat.mul]; [rewrite app_nil_r, Nat.add_0_r; reflexivity|].
  unfold append_block, extra_bits, bit_index. cbn [bits blocks]. rewrite H. cbn [Nat.eqb bind]. rewrite IH by (rewrite <- (Nat.mul_1_l B) at 1; rewrite mod_add; auto).
  rewrite <- app_assoc. cbn [app]. f_equal. f_equal. lia.
Qed.
Lemma append_fold_part m block n l : n mod B <> 0 ->
  append_fold (mkBits (m ++ [block]) n) l = Val (mkBits (append_rest B (n mod B) (B - n mod B) m block l) (n + length l * B)).
Proof.
  revert m block n. induction l as [|x l IH]; intros m block n H; cbn [append_fold append_rest length Nat.mul]; [rewrite Nat.add_0_r; reflexivity|].
  unfold append_block, extra_bits, bit_index. cbn [bits blocks]. apply Nat.eqb_neq in H as H'. rewrite H'. rewrite app_length. cbn [length]. rewrite rd_val by (rewrite app_length; cbn [length]; lia). cbn [bind].
  rewrite wr_val by (rewrite app_length; cbn [length]; lia). cbn [bind]. replace (length m + 1 - 1) with (length m) by lia.
  rewrite app_nth2, Nat.sub_diag by lia. cbn [nth]. unfold upd. rewrite firstn_app, Nat.sub_diag, firstn_all. cbn [firstn]. rewrite app_nil_r.
  rewrite skipn_all2 by (rewrite app_length; cbn [length]; lia).
  assert (Em : (n + B) mod B = n mod B) by (rewrite <- (Nat.mul_1_l B) at 1; apply mod_add).
  rewrite IH by congruence. rewrite Em. f_equal. f_equal. lia.
Qed.
Lemma append_blocks_fold s n f l : repr s n f -> append_blocks B s l = append_fold s l.
Proof.
  intros (E1 & E2 & E3). destruct s as [m b]. cbn [bits blocks] in *. subst b. destruct l as [|x l]; [reflexivity|]. unfold append_blocks, extra_bits, unused_bits, extra_bits, bit_index. cbn [bits blocks].
  destruct (Nat.eqb_spec (n mod B) 0) as [X|X].
  - cbn [bind]. rewrite append_fold_full by auto. reflexivity.
  - assert (Lm : m <> []) by (intros ->; cbn in E2; assert (X' : 0 < n mod B) by lia; rewrite (req_part n X') in E2; lia).
    destruct (exists_last Lm) as (m' & y & ->). rewrite append_fold_part with (l := x :: l) by auto. cbn [append_rest]. rewrite app_length. cbn [length].
    rewrite rd_val by (rewrite app_length; cbn [length]; lia). cbn [bind]. rewrite wr_val by (rewrite app_length; cbn [length]; lia). cbn [bind].
    replace (length m' + 1 - 1) with (length m') by lia. rewrite app_nth2, Nat.sub_diag by lia. cbn [nth]. unfold upd. rewrite firstn_app, Nat.sub_diag, firstn_all. cbn [firstn]. rewrite app_nil_r.
    rewrite skipn_all2 by (rewrite app_length; cbn [length]; lia). reflexivity.
Qed.
Lemma append_fold_ok l : forall s n f, repr s n f -> Forall small l ->
  exists s', append_fold s l = Val s' /\ repr s' (n + length l * B) (fun i => if i <? n then f i else tb (nth ((i - n) / B) l 0%N) ((i - n) mod B)).
Proof.
  induction l as [|x l IH]; intros s n f R H; cbn [append_fold length Nat.mul].
  - exists s. split; [reflexivity|]. rewrite Nat.add_0_r. revert R. apply repr_ext. intros i Hi. apply Nat.ltb_lt in Hi. rewrite Hi. reflexivity.
  - inversion H as [|? ? Hx Hl]; subst. destruct (append_block_ok s n f x R Hx) as (s1 & E1 & R1). rewrite E1. cbn [bind].
    destruct (IH s1 _ _ R1 Hl) as (s2 & E2 & R2). exists s2. split; [exact E2|]. replace (n + (B + length l * B)) with (n + B + length l * B) by lia. revert R2. apply repr_ext.
    intros i Hi. destruct (Nat.ltb_spec i n) as [P|P].
    + destruct (Nat.ltb_spec i (n + B)); [reflexivity|lia].
    + destruct (Nat.ltb_spec i (n + B)) as [Q|Q].
      * rewrite Nat.div_small, Nat.mod_small by lia. reflexivity.
      * replace (i - n) with ((i - (n + B)) + 1 * B) by lia. rewrite Nat.div_add, Nat.mod_add by lia. rewrite Nat.add_1_r. reflexivity.
Qed.
Lemma append_blocks_ok l s n f : repr s n f -> Forall small l ->
  exists s', append_blocks B s l = Val s' /\ repr s' (n + length l * B) (fun i => if i <? n then f i else tb (nth ((i - n) / B) l 0%N) ((i - n) mod B)).
Proof. intros R H. rewrite (append_blocks_fold s n f) by auto. apply append_fold_ok; auto. Qed.
Lemma repr_small s n f : repr s n f -> Forall small (blocks s).
Proof.
  intros (E1 & E2 & E3). apply Forall_forall. intros x X k K. apply (In_nth _ _ 0%N) in X as (j & J & <-). rewrite E3. apply Nat.ltb_ge in K. rewrite K. reflexivity.
Qed.
Lemma append_ok s t n f n' g : repr s n f -> repr t n' g -> exists s', append B s t = Val s' /\ repr s' (n + n') (fun i => if i <? n then f i else g (i - n)).
Proof.
  intros R Q. unfold append. destruct (append_blocks_ok (blocks t) s n f R (repr_small t n' g Q)) as (s1 & E1 & R1). rewrite E1. cbn [bind].
  destruct R as (A1 & _). destruct Q as (B1 & B2 & B3). rewrite A1, B1.
  destruct (resize_ok s1 _ _ (n + n') false R1) as (s2 & E2 & R2). exists s2. split; [exact E2|]. revert R2. apply repr_ext. intros i Hi.
  rewrite B2. destruct (req_spec B HB n'). destruct (Nat.ltb_spec i (n + req n' * B)); [|lia]. destruct (Nat.ltb_spec i n); [reflexivity|].
  rewrite B3. destruct (div_spec B HB (i - n)) as [D DL]. rewrite <- D. apply Nat.ltb_lt in DL. rewrite DL. destruct (Nat.ltb_spec (i - n) n'); [reflexivity|lia].
Qed.
Lemma append_self_ok s n f : repr s n f -> exists s', append_self B s = Val s' /\ repr s' (n + n) (fun i => if i <? n then f i else f (i - n)).
Proof.
  intros R. pose proof R as (E1 & E2 & E3). unfold append_self. rewrite E1, E2.
  assert (G : forall c i r h, i + c = req n -> repr r (n + i * B) h -> (forall p, p < n -> h p = f p) -> (forall q, q < i * B -> q < n -> h (n + q) = f q) ->
    exists r' h', for_each (fun i r => bind (rd (blocks r) i) (append_block B r)) (seq i c) r = Val r' /\ repr r' (n + req n * B) h' /\
      (forall p, p < n -> h' p = f p) /\ (forall q, q < n -> h' (n + q) = f q)).
  { induction c as [|c IH]; intros i r h Hi Rr H1 H2; cbn [seq for_each].
    - exists r, h. rewrite Nat.add_0_r in Hi. subst i. split; [reflexivity|]. split; [exact Rr|]. split; [exact H1|]. intros q Hq. apply H2; [|auto]. destruct (req_spec B HB n). lia.
    - pose proof Rr as (A1 & A2 & A3). rewrite req_add in A2. rewrite rd_val by lia. cbn [bind].
      assert (Sm : small (nth i (blocks r) 0%N)) by (intros k K; rewrite A3; apply Nat.ltb_ge in K; rewrite K; reflexivity).
      destruct (append_block_ok r _ _ _ Rr Sm) as (r1 & Er & R1). rewrite Er. cbn [bind]. replace (n + i * B + B) with (n + S i * B) in R1 by lia.
      apply (IH (S i) r1 _ ltac:(lia) R1).
      + intros p Hp. destruct (Nat.ltb_spec p (n + i * B)); [auto|lia].
      + intros q Hq Hn. destruct (Nat.ltb_spec (n + q) (n + i * B)) as [P|P]; [apply H2; lia|].
        rewrite A3. replace (n + q - (n + i * B)) with (q - i * B) by lia. replace (i * B + (q - i * B)) with q by lia. rewrite H1 by auto.
        destruct (Nat.ltb_spec (q - i * B) B); [|lia]. destruct (Nat.ltb_spec q (n + i * B)); [reflexivity|lia]. }
  destruct (G (req n) 0 s f ltac:(lia)) as (r & h & Er & Rr & H1 & H2); [rewrite Nat.add_0_r; exact R|auto|lia|].
  rewrite Er. cbn [bind]. destruct (resize_ok r _ _ (n + n) false Rr) as (s' & Es & Rs). exists s'. split; [exact Es|]. revert Rs. apply repr_ext. intros i Hi.
  destruct (req_spec B HB n). destruct (Nat.ltb_spec i (n + req n * B)); [|lia]. destruct (Nat.ltb_spec i n); [auto|]. rewrite <- H2 by lia. f_equal. lia.
Qed.
Lemma tb_repeat_0 j c k : tb (nth j (repeat 0%N c) 0%N) k = false.
Proof. replace (nth j (repeat 0%N c) 0%N) with 0%N; [apply tb_0|]. symmetry. destruct (Nat.ltb_spec j c); [apply nth_repeat|apply nth_overflow; rewrite repeat_length; lia]. Qed.
Lemma repr_zero n : repr (mkBits (repeat 0%N (req n)) n) n (fun _ => false).
Proof. split; [reflexivity|]. cbn [blocks]. split; [apply repeat_length|]. intros j k. rewrite tb_repeat_0, andb_false_r. reflexivity. Qed.
Lemma of_value_ok n v d : d * B = 128 -> (v < 2 ^ 128)%N -> exists s, of_value B n v = Val s /\ repr s n (fun i => tb v i).
Proof.
  intros Hd Hv. unfold of_value. assert (Eq : 128 / B = d) by (rewrite <- Hd; apply Nat.div_mul; lia). rewrite Eq.
  assert (Tv : forall k, 128 <= k -> tb v k = false).
  { intros k K. unfold tb. destruct (N.eq_dec v 0) as [->|N0]; [apply N.bits_0|]. apply N.bits_above_log2. apply N.log2_lt_pow2; [lia|]. eapply N.lt_le_trans; [exact Hv|]. apply N.pow_le_mono_r; lia. }
  destruct (Nat.eqb_spec n 0) as [->|N0]; cbn [orb].
  { eexists. split; [reflexivity|]. apply (repr_ext B _ _ (fun _ => false)); [lia|]. apply repr_zero. }
  destruct (N.eqb_spec v 0) as [->|V0].
  { eexists. split; [reflexivity|]. apply (repr_ext B _ _ (fun _ => false)); [intros; symmetry; apply tb_0|]. apply repr_zero. }
  set (m := repeat 0%N (req n)). assert (Lm : length m = req n) by apply repeat_length. destruct (req_spec B HB n) as [R1 R2]. assert (Rp : 0 < req n) by nia.
  assert (S1 : exists m', (if d =? 1 then wr m 0 (cast B v) else for_each (fun i m => wr m i (cast B (N.land (N.shiftr v (N.of_nat (i * B))) (one_block B)))) (seq 0 (Nat.min (length m) d)) m) = Val m' /\
    length m' = req n /\ forall j k, tb (nth j m' 0%N) k = (k <? B) && (j <? req n) && tb v (j * B + k)).
  { destruct (Nat.eqb_spec d 1) as [D1|D1].
    - rewrite wr_val by lia. eexists. split; [reflexivity|]. split; [rewrite upd_length; lia|]. intros j k. rewrite nth_upd by lia. destruct (Nat.eqb_spec j 0) as [->|J].
      + rewrite tb_cast. cbn [Nat.mul Nat.add]. destruct (Nat.ltb_spec 0 (req n)); [|lia]. rewrite andb_true_r. apply andb_comm.
      + unfold m. rewrite tb_repeat_0. rewrite Tv by nia. rewrite andb_false_r. reflexivity.
    - destruct (for_each_map (fun i m => wr m i (cast B (N.land (N.shiftr v (N.of_nat (i * B))) (one_block B)))) (fun i _ => cast B (N.land (N.shiftr v (N.of_nat (i * B))) (one_block B))) 0 (Nat.min (length m) d) m) as (m' & Em & L & A).
      + lia.
      + intros i m' Hi L. apply wr_val. lia.
      + exists m'. split; [exact Em|]. split; [lia|]. intros j k. rewrite A. cbn [Nat.leb andb Nat.add]. rewrite Lm. destruct (Nat.ltb_spec j (Nat.min (req n) d)) as [J|J].
        * rewrite tb_cast, tb_land, tb_one. unfold tb at 1. rewrite N.shiftr_spec'. replace (N.of_nat k + N.of_nat (j * B))%N with (N.of_nat (j * B + k)) by lia. fold (tb v (j * B + k)).
          destruct (Nat.ltb_spec j (req n)); [|lia]. destruct (k <? B); cbn [andb]; rewrite ?andb_true_r, ?andb_false_r; reflexivity.
        * unfold m. rewrite tb_repeat_0. destruct (Nat.ltb_spec k B), (Nat.ltb_spec j (req n)); cbn [andb]; try reflexivity. symmetry. apply Tv. nia. }
  destruct S1 as (m' & Em & L & A). rewrite Em. cbn [bind]. apply sanitize_ok; auto. split; [reflexivity|]. split; [exact L|exact A].
Qed.

(** ** Ranges *)
Lemma on_range_ok (part : N -> nat -> nat -> N) (full : N -> N) (v : bool -> bool) s n f p len :
  (forall x a b k, a <= b -> b < B -> small x -> tb (part x a b) k = if (a <=? k) && (k <=? b) then v (tb x k) else tb x k) ->
  (forall x k, small x -> tb (full x) k = (k <? B) && v (tb x k)) ->
  repr s n f -> p + len <= n ->
  exists s', on_range B part full s p len = Val s' /\ repr s' n (fun i => if (p <=? i) && (i <? p + len) then v (f i) else f i).
Proof.
  intros Hp Hf R Hl. pose proof R as (E1 & E2 & E3). unfold on_range. destruct (Nat.eqb_spec len 0) as [->|L0].
  { exists s. split; [reflexivity|]. revert R. apply repr_ext. intros i Hi. destruct (Nat.leb_spec p i), (Nat.ltb_spec i (p + 0)); try reflexivity; lia. }
  unfold block_index, bit_index. destruct (div_spec B HB p) as [D1 L1]. destruct (div_spec B HB (p + len - 1)) as [D2 L2].
  set (fb := p / B) in *. set (fi := p mod B) in *. set (lb := (p + len - 1) / B) in *. set (li := (p + len - 1) mod B) in *.
  assert (Hfl : fb <= lb) by nia. destruct (req_spec B HB n) as [R1 R2]. assert (Hlb : lb < req n) by nia.
  set (change := fun i (g : N -> N) (m : list N) => bind (rd m i) (fun x => wr m i (g x))).
  assert (Hc : forall i g m, i < length m -> change i g m = Val (upd i (g (nth i m 0%N)) m)) by (intros i g m H; unfold change; rewrite rd_val by auto; apply wr_val; auto).
  assert (Sm : forall j, small (nth j (blocks s) 0%N)) by (intros j k K; rewrite E3; apply Nat.ltb_ge in K; rewrite K; reflexivity).
  assert (Cond : forall j k, k < B -> ((p <=? j * B + k) && (j * B + k <? p + len)) =
     if j <? fb then false else if lb <? j then false else (if j =? fb then fi <=? k else true) && (if j =? lb then k <=? li else true)).
  { intros j k K. destruct (Nat.ltb_spec j fb) as [C1|C1].
    - destruct (Nat.leb_spec p (j * B + k)); [|reflexivity]. pose proof (Nat.mul_le_mono_r (j + 1) fb B ltac:(lia)). lia.
    - destruct (Nat.ltb_spec lb j) as [C2|C2].
      + destruct (Nat.ltb_spec (j * B + k) (p + len)); [|apply andb_false_r]. pose proof (Nat.mul_le_mono_r (lb + 1) j B ltac:(lia)). lia.
      + f_equal.
        * destruct (Nat.eqb_spec j fb) as [->|C3]; [destruct (Nat.leb_spec p (fb * B + k)), (Nat.leb_spec fi k); try reflexivity; lia|].
          pose proof (Nat.mul_le_mono_r (fb + 1) j B ltac:(lia)). apply Nat.leb_le. lia.
        * destruct (Nat.eqb_spec j lb) as [->|C3]; [destruct (Nat.ltb_spec (lb * B + k) (p + len)), (Nat.leb_spec k li); try reflexivity; lia|].
          pose proof (Nat.mul_le_mono_r (j + 1) lb B ltac:(lia)). apply Nat.ltb_lt. lia. }
  assert (Fin : forall m, length m = req n ->
     (forall j k, k < B -> tb (nth j m 0%N) k = if (if j <? fb then false else if lb <? j then false else (if j =? fb then fi <=? k else true) && (if j =? lb then k <=? li else true)) then v (tb (nth j (blocks s) 0%N) k) else tb (nth j (blocks s) 0%N) k) ->
     (forall j k, B <= k -> tb (nth j m 0%N) k = false) ->
     repr (mkBits m n) n (fun i => if (p <=? i) && (i <? p + len) then v (f i) else f i)).
  { intros m Lm Hm Hk. split; [reflexivity|]. cbn [blocks]. split; [exact Lm|]. intros j k. destruct (Nat.ltb_spec k B) as [K|K]; [|apply Hk; auto]. cbn [andb].
    rewrite Hm by auto. rewrite <- Cond by auto. rewrite E3. apply Nat.ltb_lt in K. rewrite K. cbn [andb].
    destruct (Nat.ltb_spec (j * B + k) n); [destruct ((p <=? j * B + k) && (j * B + k <? p + len)); reflexivity|].
    destruct (Nat.ltb_spec (j * B + k) (p + len)); [lia|]. rewrite andb_false_r. reflexivity. }
  rewrite E1. destruct (Nat.eqb_spec fb lb) as [Efl|Nfl].
  - fold (change fb (fun x => part x fi li) (blocks s)). rewrite Hc by lia. cbn [bind]. eexists. split; [reflexivity|]. assert (fi <= li) by nia. apply Fin.
    + rewrite upd_length; lia.
    + intros j k K. rewrite nth_upd by lia. destruct (Nat.eqb_spec j fb) as [->|Nj].
      * rewrite Hp by auto. rewrite <- Efl. destruct (Nat.ltb_spec fb fb); [lia|]. rewrite Nat.eqb_refl. reflexivity.
      * destruct (Nat.ltb_spec j fb); [reflexivity|]. destruct (Nat.ltb_spec lb j); [reflexivity|lia].
    + intros j k K. rewrite nth_upd by lia. destruct (Nat.eqb_spec j fb) as [->|Nj]; [|apply Sm; auto]. rewrite Hp by auto. destruct (Nat.leb_spec k li); [lia|]. rewrite andb_false_r. apply Sm; auto.
  - fold (change fb (fun x => part x fi (B - 1)) (blocks s)).
    assert (S1 : exists m, (if fi =? 0 then Val (blocks s) else change fb (fun x => part x fi (B - 1)) (blocks s)) = Val m /\ length m = req n /\
      forall j, nth j m 0%N = if (j =? fb) && negb (fi =? 0) then part (nth j (blocks s) 0%N) fi (B - 1) else nth j (blocks s) 0%N).
    { destruct (Nat.eqb_spec fi 0) as [F0|F0].
      - exists (blocks s). split; [reflexivity|]. split; [lia|]. intros j. cbn [negb]. rewrite andb_false_r. reflexivity.
      - rewrite Hc by lia. eexists. split; [reflexivity|]. split; [rewrite upd_length; lia|]. intros j. rewrite nth_upd by lia. cbn [negb]. rewrite andb_true_r. destruct (Nat.eqb_spec j fb) as [->|]; reflexivity. }
    destruct S1 as (m1 & Em1 & Lm1 & A1). rewrite Em1. cbn [bind]. fold (change lb (fun x => part x 0 li) m1).
    assert (S2 : exists m, (if li =? B - 1 then Val m1 else change lb (fun x => part x 0 li) m1) = Val m /\ length m = req n /\
      forall j, nth j m 0%N = if (j =? lb) && negb (li =? B - 1) then part (nth j (blocks s) 0%N) 0 li else nth j m1 0%N).
    { destruct (Nat.eqb_spec li (B - 1)) as [F0|F0].
      - exists m1. split; [reflexivity|]. split; [lia|]. intros j. cbn [negb]. rewrite andb_false_r. reflexivity.
      - rewrite Hc by lia. eexists. split; [reflexivity|]. split; [rewrite upd_length; lia|]. intros j. rewrite nth_upd by lia. cbn [negb]. rewrite andb_true_r. destruct (Nat.eqb_spec j lb) as [->|]; [|reflexivity].
        rewrite A1. destruct (Nat.eqb_spec lb fb); [congruence|reflexivity]. }
    destruct S2 as (m2 & Em2 & Lm2 & A2). rewrite Em2. cbn [bind].
    set (ff := if fi =? 0 then fb else fb + 1). set (lf := if li =? B - 1 then lb else lb - 1).
    assert (Hff : fb <= ff <= fb + 1) by (unfold ff; destruct (fi =? 0); lia). assert (Hlf : lf <= lb /\ lb <= lf + 1) by (unfold lf; destruct (li =? B - 1); lia).
    destruct (for_each_map (fun i => change i full) (fun _ => full) ff (lf + 1 - ff) m2) as (m3 & Em3 & Lm3 & A3).
    + lia.
    + intros i m' Hi L. apply Hc. lia.
    + unfold change at 1 in Em3. rewrite Em3. cbn [bind]. eexists. split; [reflexivity|].
      assert (Nth : forall j, nth j m3 0%N = if (ff <=? j) && (j <=? lf) then full (nth j (blocks s) 0%N) else if j =? fb then part (nth j (blocks s) 0%N) fi (B - 1) else if j =? lb then part (nth j (blocks s) 0%N) 0 li else nth j (blocks s) 0%N).
      { intros j. rewrite A3, A2, A1. unfold ff, lf in *. destruct (Nat.eqb_spec fi 0), (Nat.eqb_spec li (B - 1)); cbn [negb]; rewrite ?andb_true_r, ?andb_false_r;
          repeat match goal with |- context [?a <=? ?b] => destruct (Nat.leb_spec a b) | |- context [?a <? ?b] => destruct (Nat.ltb_spec a b) | |- context [?a =? ?b] => destruct (Nat.eqb_spec a b) end; cbn [andb]; try reflexivity; try lia. }
      apply Fin.
      * lia.
      * intros j k K. rewrite Nth. destruct (Nat.leb_spec ff j) as [F1|F1]; [destruct (Nat.leb_spec j lf) as [F2|F2]|]; cbn [andb].
        -- rewrite Hf by auto. apply Nat.ltb_lt in K as K'. rewrite K'. cbn [andb]. destruct (Nat.ltb_spec j fb); [lia|]. destruct (Nat.ltb_spec lb j); [lia|].
           unfold ff, lf in *. assert (Q1 : (if j =? fb then fi <=? k else true) = true).
           { destruct (Nat.eqb_spec j fb); [|reflexivity]. apply Nat.leb_le. destruct (Nat.eqb_spec fi 0); lia. }
           assert (Q2 : (if j =? lb then k <=? li else true) = true).
           { destruct (Nat.eqb_spec j lb); [|reflexivity]. apply Nat.leb_le. destruct (Nat.eqb_spec li (B - 1)); lia. }
           rewrite Q1, Q2. reflexivity.
        -- destruct (Nat.ltb_spec j fb); [lia|]. destruct (Nat.eqb_spec j fb) as [->|Nj].
           ++ rewrite Hp by (auto; lia). destruct (Nat.ltb_spec lb fb); [lia|]. destruct (Nat.eqb_spec fb lb); [congruence|]. rewrite andb_true_r. destruct (Nat.leb_spec k (B - 1)); [|lia]. rewrite andb_true_r. reflexivity.
           ++ destruct (Nat.eqb_spec j lb) as [->|Nj2].
              ** rewrite Hp by (auto; lia). destruct (Nat.ltb_spec lb lb); [lia|]. reflexivity.
              ** destruct (Nat.ltb_spec lb j); [reflexivity|lia].
        -- destruct (Nat.ltb_spec j fb); [destruct (Nat.eqb_spec j fb); [lia|]; destruct (Nat.eqb_spec j lb); [lia|reflexivity]|].
           assert (j = fb) by lia. subst j. rewrite Nat.eqb_refl. rewrite Hp by (auto; lia). destruct (Nat.ltb_spec lb fb); [lia|]. destruct (Nat.eqb_spec fb lb); [congruence|].
           rewrite andb_true_r. destruct (Nat.leb_spec k (B - 1)); [|lia]. rewrite andb_true_r. reflexivity.
      * intros j k K. rewrite Nth. destruct ((ff <=? j) && (j <=? lf)); [rewrite Hf by auto; apply Nat.ltb_ge in K; rewrite K; reflexivity|].
        destruct (Nat.eqb_spec j fb); [rewrite Hp by (auto; lia); destruct (Nat.leb_spec k (B - 1)); [lia|]; rewrite andb_false_r; apply Sm; auto|].
        destruct (Nat.eqb_spec j lb); [rewrite Hp by (auto; lia); destruct (Nat.leb_spec k li); [lia|]; rewrite andb_false_r; apply Sm; auto|]. apply Sm; auto.
Qed.
Lemma set_range_ok s n f p len v : repr s n f -> p + len <= n ->
  exists s', set_range B s p len v = Val s' /\ repr s' n (fun i => if (p <=? i) && (i <? p + len) then v else f i).
Proof.
  intros R H. apply (on_range_ok _ _ (fun _ => v)); auto.
  - intros x a b k Hab Hb Sx. unfold set_block_bits. destruct v.
    + rewrite tb_lor, tb_mask2 by auto. destruct ((a <=? k) && (k <=? b)); [apply orb_true_r|apply orb_false_r].
    + rewrite tb_land, tb_inv, tb_mask2 by auto. destruct ((a <=? k) && (k <=? b)); cbn [negb]; rewrite ?andb_false_r; [reflexivity|]. rewrite andb_true_r.
      destruct (Nat.ltb_spec k B); [apply andb_true_r|]. rewrite Sx by auto. reflexivity.
  - intros x k Sx. destruct v; [rewrite tb_one, andb_true_r|rewrite tb_0, andb_false_r]; reflexivity.
Qed.
Lemma flip_range_ok s n f p len : repr s n f -> p + len <= n ->
  exists s', flip_range B s p len = Val s' /\ repr s' n (fun i => if (p <=? i) && (i <? p + len) then negb (f i) else f i).
Proof.
  intros R H. apply (on_range_ok _ _ negb); auto.
  - intros x a b k Hab Hb Sx. unfold flip_block_bits. rewrite tb_lxor, tb_mask2 by auto. destruct ((a <=? k) && (k <=? b)); [apply xorb_true_r|apply xorb_false_r].
  - intros x k Sx. apply tb_inv.
Qed.
End Bits.
