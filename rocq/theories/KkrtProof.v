(** Lemmas for KkrtModel. *)
From Coq Require Import List NArith ZArith Bool Lia Arith Btauto.
From Verif Require Import TransModel TransProof TransProps GfModel OtExtModel OtExtProof LinCodeModel KkrtModel.
Import ListNotations.
Open Scope nat_scope.

Lemma nth_map_seq0 {B} (f : nat -> B) n k d : k < n -> nth k (map f (seq 0 n)) d = f k.
Proof. intros H. rewrite (nth_indep _ d (f 0)) by (rewrite map_length, seq_length; auto). rewrite map_nth, seq_nth by auto. auto. Qed.
Lemma list_eq_nth {A} (d : A) l l' : length l = length l' -> (forall i, i < length l -> nth i l d = nth i l' d) -> l = l'.
Proof. intros L H. apply (nth_ext _ _ d d); auto. Qed.

(** ** Rows *)
Section Rows.
Variable stream : N -> nat -> N.
Hypothesis HS : forall s i, w128 (stream s i).

(** Row j read off the streams: bit k of word w is bit j of the column
    w * 128 + k, the columns being the streams cut into 128-bit words. *)
Definition spec_word (seeds : list N) (j w : nat) : N :=
  bits_word (map (fun k => N.testbit (stream (nth (w * 128 + k) seeds 0%N) (j / 128)) (N.of_nat (j mod 128))) (seq 0 128)).
Definition spec_row (seeds : list N) (j : nat) : list N := map (spec_word seeds j) (seq 0 width).

Lemma spec_word_bit seeds j w k : k < 128 ->
  N.testbit (spec_word seeds j w) (N.of_nat k) = N.testbit (stream (nth (w * 128 + k) seeds 0%N) (j / 128)) (N.of_nat (j mod 128)).
Proof. intros H. unfold spec_word. rewrite bits_word_bit, nth_map_seq0 by auto. reflexivity. Qed.
Lemma spec_word_lt seeds j w : w128 (spec_word seeds j w).
Proof. unfold w128. eapply N.lt_le_trans; [apply bits_word_lt|]. rewrite map_length, seq_length. reflexivity. Qed.
Lemma spec_row_length seeds j : length (spec_row seeds j) = width.
Proof. unfold spec_row. rewrite map_length, seq_length. reflexivity. Qed.

Lemma column_128 seeds b w : length (batch_column stream seeds b w) = 128 /\ Forall (fun x => w128 x) (batch_column stream seeds b w).
Proof.
  unfold batch_column. split; [rewrite map_length, seq_length; auto|].
  apply Forall_forall. intros x Hx. apply in_map_iff in Hx as (k & <- & _). apply HS.
Qed.
Lemma sse_is_transpose : is_transpose128 sse_transpose128.
Proof. intros m Hm. destruct (transpose128_correct m Hm) as (_ & _ & S & _). exact S. Qed.
Lemma batch_rows_spec seeds b num : num <= 128 ->
  batch_rows stream seeds b num = map (fun i => spec_row seeds (b * 128 + i)) (seq 0 num).
Proof.
  intros Hn. unfold batch_rows. apply map_ext_in. intros i Hi. apply in_seq in Hi.
  unfold spec_row. apply map_ext. intros w.
  destruct (column_128 seeds b w) as [L F].
  destruct (transpose_spec sse_transpose128 _ sse_is_transpose F L) as (TL & TF & TB).
  apply word_ext128.
  - rewrite Forall_forall in TF. apply TF. apply nth_In. lia.
  - apply spec_word_lt.
  - intros c Hc. rewrite TB, spec_word_bit by lia.
    replace ((b * 128 + i) / 128) with b by (rewrite Nat.div_add_l, (Nat.div_small i) by lia; lia).
    replace ((b * 128 + i) mod 128) with i by (rewrite Nat.add_comm, Nat.mod_add, Nat.mod_small by lia; reflexivity).
    unfold batch_column. rewrite nth_map_seq0 by auto. reflexivity.
Qed.

Lemma fill_words_spec m num : forall f i, 128 * i <= num ->
  fill_words f i num m = map (fun r => nth (r / 128) (nth (r mod 128) m []) 0%N) (seq (128 * i) (Nat.min (128 * f) (num - 128 * i))).
Proof.
  induction f as [|f IH]; intros i Hi; [reflexivity|]. cbn [fill_words].
  set (cnt := Nat.min 128 (num - 128 * i)).
  assert (E : map (fun j => nth i (nth j m []) 0%N) (seq 0 cnt) =
              map (fun r => nth (r / 128) (nth (r mod 128) m []) 0%N) (seq (128 * i) cnt)).
  { replace (seq (128 * i) cnt) with (map (fun j => 128 * i + j) (seq 0 cnt)).
    - rewrite map_map. apply map_ext_in. intros j Hj. apply in_seq in Hj.
      replace ((128 * i + j) / 128) with i by (rewrite (Nat.mul_comm 128), Nat.div_add_l, (Nat.div_small j) by lia; lia).
      replace ((128 * i + j) mod 128) with j by (rewrite Nat.add_comm, (Nat.mul_comm 128), Nat.mod_add, Nat.mod_small by lia; reflexivity).
      reflexivity.
    - clear. induction cnt as [|c IHc]; [reflexivity|]. rewrite !seq_S, map_app, IHc. reflexivity. }
  rewrite E. destruct (Nat.ltb_spec cnt 128) as [Hc|Hc].
  - rewrite app_nil_r. f_equal. f_equal. unfold cnt in *. lia.
  - rewrite IH by (unfold cnt in *; lia). rewrite <- map_app. f_equal.
    replace (Nat.min (128 * S f) (num - 128 * i)) with (cnt + Nat.min (128 * f) (num - 128 * S i)) by (unfold cnt in *; lia).
    rewrite seq_app. f_equal. f_equal. unfold cnt in *. lia.
Qed.
Lemma batch_x_bit seeds b w r k : r < 1024 -> k < 128 ->
  N.testbit (nth (r / 128) (nth (r mod 128) (batch_x stream seeds b w) []) 0%N) (N.of_nat k) =
  N.testbit (stream (nth (w * 128 + k) seeds 0%N) (b * 8 + r / 128)) (N.of_nat (r mod 128)) /\
  w128 (nth (r / 128) (nth (r mod 128) (batch_x stream seeds b w) []) 0%N).
Proof.
  intros Hr Hk. unfold batch_x.
  set (m := map (fun k => map (fun j => Z.of_N (stream (nth (w * 128 + k) seeds 0%N) (b * 8 + j))) (seq 0 8)) (seq 0 128)).
  assert (M : is_matrix_x m).
  { split; [unfold m; rewrite map_length, seq_length; auto|]. apply Forall_forall. intros row Hin.
    apply in_map_iff in Hin as (q & <- & _). split; [rewrite map_length, seq_length; auto|].
    apply Forall_forall. intros z Hz. apply in_map_iff in Hz as (j & <- & _). split; [lia|].
    change (2 ^ 128)%Z with (Z.of_N (2 ^ 128)). apply N2Z.inj_lt. apply HS. }
  destruct (transpose128x1024_correct m M) as [_ [[L F] B]].
  set (m' := sse_transpose128x1024 m) in *.
  assert (R1 : r / 128 < 8) by (apply Nat.div_lt_upper_bound; lia).
  assert (R2 : r mod 128 < 128) by (apply Nat.mod_upper_bound; lia).
  rewrite Forall_forall in F. destruct (F (nth (r mod 128) m' [])) as [L8 F8]; [apply nth_In; lia|].
  rewrite Forall_forall in F8. assert (W : (0 <= nth (r / 128) (nth (r mod 128) m' []) 0 < 2 ^ 128)%Z) by (apply F8, nth_In; lia).
  assert (E : nth (r / 128) (nth (r mod 128) (map (map Z.to_N) m') []) 0%N = Z.to_N (nth (r / 128) (nth (r mod 128) m' []) 0%Z)).
  { change (@nil N) with (map Z.to_N []). rewrite (map_nth (map Z.to_N)). change 0%N with (Z.to_N 0). apply map_nth. }
  rewrite E. split.
  - specialize (B (r mod 128) (r / 128) k R2 R1 Hk). unfold bit_x in B.
    rewrite <- (Z2N.id (nth (r / 128) (nth (r mod 128) m' []) 0%Z)) in B by lia.
    rewrite <- nat_N_Z, Z.testbit_of_N in B. rewrite B.
    unfold m. rewrite nth_map_seq0 by auto. rewrite nth_map_seq0 by auto.
    rewrite <- nat_N_Z, Z.testbit_of_N. reflexivity.
  - unfold w128. change (2 ^ 128)%N with (Z.to_N (2 ^ 128)). apply Z2N.inj_lt; lia.
Qed.
Lemma rows_x_spec seeds b num : num <= 1024 ->
  rows_x stream seeds b num = map (fun i => spec_row seeds (b * 1024 + i)) (seq 0 num).
Proof.
  intros Hn. unfold rows_x. apply map_ext_in. intros r Hr. apply in_seq in Hr.
  rewrite map_map. unfold spec_row. apply map_ext. intros w.
  rewrite fill_words_spec by lia. rewrite Nat.mul_0_r, Nat.sub_0_r, (Nat.min_r (128 * 8)) by lia.
  rewrite nth_map_seq0 by lia. apply word_ext128.
  - apply (batch_x_bit seeds b w r 0); lia.
  - apply spec_word_lt.
  - intros c Hc. destruct (batch_x_bit seeds b w r c) as [E _]; [lia|auto|]. rewrite E, spec_word_bit by auto.
    assert (D : (b * 1024 + r) / 128 = b * 8 + r / 128).
    { replace (b * 1024 + r) with (b * 8 * 128 + r) by lia. rewrite Nat.div_add_l by lia. reflexivity. }
    assert (M : (b * 1024 + r) mod 128 = r mod 128).
    { replace (b * 1024 + r) with (r + b * 8 * 128) by lia. apply Nat.mod_add. lia. }
    rewrite D, M. reflexivity.
Qed.
End Rows.

(** ** Batches *)
Lemma flat_batches {A} (f : nat -> nat -> A) (F : nat -> A) size n m : 0 < size ->
  (forall b i, i < size -> F (b * size + i) = f b i) ->
  flat_map (fun b => map (f b) (seq 0 (this_batch size n b))) (seq 0 m) = map F (seq 0 (Nat.min n (m * size))).
Proof.
  intros Hs HF. induction m as [|m IH].
  - rewrite Nat.mul_0_l, Nat.min_0_r. reflexivity.
  - rewrite seq_S, flat_map_app, IH. cbn [flat_map Nat.add]. rewrite app_nil_r. unfold this_batch.
    destruct (Nat.le_gt_cases n (m * size)) as [H|H].
    + replace (n - m * size) with 0 by lia. cbn [Nat.min seq map]. rewrite app_nil_r. f_equal. f_equal. lia.
    + replace (Nat.min n (S m * size)) with (m * size + Nat.min (n - m * size) size) by lia.
      replace (Nat.min n (m * size)) with (m * size) by lia.
      rewrite seq_app, map_app. f_equal. cbn [Nat.add].
      set (c := Nat.min (n - m * size) size). assert (Hc : c <= size) by (unfold c; lia). clearbody c.
      induction c as [|c IHc]; [reflexivity|]. rewrite !seq_S, !map_app, IHc by lia. cbn [map Nat.add]. rewrite HF by lia. reflexivity.
Qed.
Lemma batch_cover size n : 0 < size -> n <= (n + (size - 1)) / size * size.
Proof.
  intros H. pose proof (Nat.div_mod (n + (size - 1)) size ltac:(lia)). pose proof (Nat.mod_upper_bound (n + (size - 1)) size ltac:(lia)). nia.
Qed.
Lemma splice_ok (R : nat -> list N) l off num : off + num <= length l -> firstn off l = map R (seq 0 off) ->
  length (splice l off (map R (seq off num))) = length l /\
  firstn (off + num) (splice l off (map R (seq off num))) = map R (seq 0 (off + num)).
Proof.
  intros H E. unfold splice. rewrite map_length, seq_length.
  assert (L : length (firstn off l) = off) by (rewrite firstn_length; lia). split.
  - rewrite !app_length, L, map_length, seq_length, skipn_length. lia.
  - rewrite E, seq_app, map_app. cbn [Nat.add]. rewrite app_assoc.
    replace (off + num) with (length (map R (seq 0 off) ++ map R (seq off num)) + 0) by (rewrite app_length, !map_length, !seq_length; lia).
    rewrite firstn_app_2, firstn_O, app_nil_r. reflexivity.
Qed.

(** ** Row algebra *)
Lemma row4 (r : list N) : length r = width -> exists a b c d, r = [a; b; c; d].
Proof. destruct r as [|a [|b [|c [|d [|]]]]]; intros H; try discriminate. eauto. Qed.
Lemma row_xor_length a b : length (row_xor a b) = Nat.min (length a) (length b).
Proof. unfold row_xor. rewrite map_length, combine_length. reflexivity. Qed.
Lemma row_and_length a b : length (row_and a b) = Nat.min (length a) (length b).
Proof. unfold row_and. rewrite map_length, combine_length. reflexivity. Qed.

Ltac rowbits := repeat match goal with |- _ :: _ = _ :: _ => f_equal | |- [] = [] => reflexivity end;
  try (apply N.bits_inj; intro; rewrite ?N.lxor_spec, ?N.land_spec, ?N.lxor_spec, ?N.land_spec, ?N.lxor_spec, ?N.land_spec, ?N.lxor_spec; btauto).
Lemma eval_identity (t v s x y : list N) :
  length t = width -> length v = width -> length s = width -> length x = width -> length y = width ->
  row_xor (row_and y s) (row_xor (row_xor t (row_and (row_xor t v) s)) (row_and (row_xor (row_xor v t) x) s)) =
  row_xor t (row_and (row_xor y x) s).
Proof.
  intros A B C D E. apply row4 in A as (? & ? & ? & ? & ->). apply row4 in B as (? & ? & ? & ? & ->).
  apply row4 in C as (? & ? & ? & ? & ->). apply row4 in D as (? & ? & ? & ? & ->). apply row4 in E as (? & ? & ? & ? & ->).
  unfold row_xor, row_and. cbn [combine map fst snd]. rowbits.
Qed.
Lemma nth_row_len R n i : (forall j, length (R j) = width) -> length (nth i (map R (seq 0 n)) no_row) = width.
Proof.
  intros H. destruct (Nat.lt_ge_cases i n); [rewrite nth_map_seq0; auto|].
  rewrite nth_overflow by (rewrite map_length, seq_length; auto). reflexivity.
Qed.

Section Mix.
Variable stream : N -> nat -> N.
Hypothesis HS : forall s i, w128 (stream s i).
Variables (choices : list bool) (k0 k1 ks : list N).
Hypothesis HC : forall k, k < 512 -> nth k ks 0%N = if nth k choices false then nth k k1 0%N else nth k k0 0%N.
Lemma choice_row_bit w k : w < width -> k < 128 ->
  N.testbit (nth w (choice_row choices) 0%N) (N.of_nat k) = nth (w * 128 + k) choices false.
Proof.
  intros Hw Hk. unfold choice_row. rewrite nth_map_seq0 by auto. rewrite bits_word_bit.
  rewrite nth_firstn by auto. rewrite nth_skipn. reflexivity.
Qed.
Lemma choice_row_length : length (choice_row choices) = width.
Proof. unfold choice_row. rewrite map_length, seq_length. reflexivity. Qed.
Lemma choice_row_lt w : w < width -> w128 (nth w (choice_row choices) 0%N).
Proof.
  intros Hw. unfold choice_row. rewrite nth_map_seq0 by auto. eapply N.lt_le_trans; [apply bits_word_lt|].
  apply N.pow_le_mono_r; [lia|]. rewrite firstn_length. lia.
Qed.
Lemma high_bits x i : w128 x -> (128 <= i)%N -> N.testbit x i = false.
Proof. intros H Hi. rewrite <- (N.mod_small x (2 ^ 128)) by exact H. apply N.mod_pow2_bits_high. exact Hi. Qed.
Lemma low_word x : (forall i, (128 <= i)%N -> N.testbit x i = false) -> w128 x.
Proof.
  intros H. assert (E : x = (x mod 2 ^ 128)%N).
  { apply N.bits_inj. intro i. destruct (N.lt_ge_cases i 128); [rewrite N.mod_pow2_bits_low by auto; reflexivity|].
    rewrite N.mod_pow2_bits_high by auto. auto. }
  rewrite E. apply N.mod_lt. discriminate.
Qed.
Lemma lxor_lt a b : w128 a -> w128 b -> w128 (N.lxor a b).
Proof. intros Ha Hb. apply low_word. intros i Hi. rewrite N.lxor_spec, !high_bits by auto. reflexivity. Qed.
Lemma land_lt a b : w128 a -> w128 (N.land a b).
Proof. intros Ha. apply low_word. intros i Hi. rewrite N.land_spec, high_bits by auto. reflexivity. Qed.
Lemma nth_row_xor a b w : w < length a -> w < length b -> nth w (row_xor a b) 0%N = N.lxor (nth w a 0%N) (nth w b 0%N).
Proof.
  intros Ha Hb. unfold row_xor. revert b w Ha Hb. induction a as [|x a IH]; intros [|y b] [|w] Ha Hb; cbn in *; try lia; auto. apply IH; lia.
Qed.
Lemma nth_row_and a b w : w < length a -> w < length b -> nth w (row_and a b) 0%N = N.land (nth w a 0%N) (nth w b 0%N).
Proof.
  intros Ha Hb. unfold row_and. revert b w Ha Hb. induction a as [|x a IH]; intros [|y b] [|w] Ha Hb; cbn in *; try lia; auto. apply IH; lia.
Qed.
Lemma mix_row j : spec_row stream ks j =
  row_xor (spec_row stream k0 j) (row_and (row_xor (spec_row stream k0 j) (spec_row stream k1 j)) (choice_row choices)).
Proof.
  assert (L := fun s => spec_row_length stream s j). assert (LC := choice_row_length).
  apply (list_eq_nth 0%N).
  - rewrite ?row_xor_length, ?row_and_length, ?row_xor_length, !L, LC. reflexivity.
  - intros w Hw. rewrite L in Hw.
    rewrite nth_row_xor, nth_row_and, nth_row_xor by (rewrite ?row_and_length, ?row_xor_length, ?L, ?LC; auto).
    assert (E : forall s, nth w (spec_row stream s j) 0%N = spec_word stream s j w) by (intros; unfold spec_row; apply nth_map_seq0; auto).
    rewrite !E. apply word_ext128.
    + apply spec_word_lt.
    + apply lxor_lt; [|apply land_lt, lxor_lt]; apply spec_word_lt.
    + intros c Hc. rewrite N.lxor_spec, N.land_spec, N.lxor_spec, choice_row_bit, !spec_word_bit by auto.
      unfold width in *. rewrite HC by lia. destruct (nth (w * 128 + c) choices false); btauto.
Qed.
End Mix.
