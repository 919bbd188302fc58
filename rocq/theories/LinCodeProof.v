(** Lemmas about the local linear code. *)
From Coq Require Import NArith ZArith List Bool Arith Lia.
From Verif Require Import LinCodeModel.
Import ListNotations.
Open Scope N_scope.
Local Opaque N.pow.

(** ** Lists *)
Lemma set_nth_length l : forall i v, length (set_nth l i v) = length l.
Proof. induction l as [|a l IH]; intros [|i] v; cbn [set_nth length]; auto. Qed.
Lemma set_nth_nth l : forall i v j, (i < length l)%nat -> nth j (set_nth l i v) 0 = if Nat.eqb j i then v else nth j l 0.
Proof.
  induction l as [|a l IH]; intros [|i] v [|j] H; cbn in H; try lia; cbn [set_nth nth]; try reflexivity.
  rewrite IH by lia. reflexivity.
Qed.
Lemma read_some l i : (N.to_nat i < length l)%nat -> read l i = Val (nth (N.to_nat i) l 0).
Proof. intros H. unfold read. destruct (nth_error l (N.to_nat i)) eqn:E; [|apply nth_error_None in E; lia]. rewrite (nth_error_nth _ _ _ E). reflexivity. Qed.
Lemma read_none l i : (length l <= N.to_nat i)%nat -> read l i = OutOfBounds.
Proof. intros H. unfold read. apply nth_error_None in H. rewrite H. reflexivity. Qed.
Lemma nth_flat4 (f : nat -> list N) nb : (forall j, length (f j) = 4%nat) -> forall s p, (p < 4 * nb)%nat ->
  nth p (flat_map f (seq s nb)) 0 = nth (p mod 4) (f (s + p / 4)%nat) 0.
Proof.
  intros H. induction nb as [|nb IH]; intros s p Hp; [lia|]. cbn [seq flat_map].
  destruct (le_lt_dec 4 p) as [L|L].
  - rewrite app_nth2 by (rewrite H; lia). rewrite H, IH by lia.
    assert (E : p = (1 * 4 + (p - 4))%nat) by lia. rewrite E at 3 4.
    rewrite Nat.div_add_l by lia. rewrite (Nat.add_comm (1 * 4)), Nat.mod_add by lia. f_equal. f_equal. lia.
  - rewrite app_nth1 by (rewrite H; lia). rewrite Nat.div_small, Nat.mod_small by lia. rewrite Nat.add_0_r. reflexivity.
Qed.
Lemma flat4_length (f : nat -> list N) nb : (forall j, length (f j) = 4%nat) -> forall s, length (flat_map f (seq s nb)) = (4 * nb)%nat.
Proof. intros H. induction nb as [|nb IH]; intros s; [reflexivity|]. cbn [seq flat_map]. rewrite app_length, H, IH. lia. Qed.
Lemma nth_sub {A} (l : list A) d i t (z : A) : (t < d)%nat -> nth t (firstn d (skipn i l)) z = nth (i + t) l z.
Proof.
  revert l t d. induction i as [|i IH]; intros l t d H.
  - cbn [skipn plus]. revert l t H. induction d as [|d IHd]; intros [|a l] [|t] H; try lia; cbn [firstn nth]; auto. apply IHd. lia.
  - destruct l as [|a l]; cbn [skipn plus nth]; [rewrite firstn_nil; destruct t; reflexivity|]. apply IH. auto.
Qed.
Lemma map_seq_nth (f : nat -> N) n t : (t < n)%nat -> nth t (map f (seq 0 n)) 0 = f t.
Proof.
  intros H. rewrite (nth_indep _ 0 (f 0%nat)) by (rewrite map_length, seq_length; lia). rewrite (map_nth f), seq_nth by lia. reflexivity.
Qed.
Lemma sub_list (l : list N) d i : (i + d <= length l)%nat -> firstn d (skipn i l) = map (fun t => nth (i + t) l 0) (seq 0 d).
Proof.
  intros H. apply (nth_ext _ _ 0 0).
  - rewrite firstn_length, skipn_length, map_length, seq_length. lia.
  - rewrite firstn_length, skipn_length. intros t Ht. rewrite nth_sub by lia.
    rewrite map_seq_nth by lia. reflexivity.
Qed.

(** ** The mask *)
Lemma ones_step j : j < 32 -> N.lor ((2 * N.ones j) mod 2 ^ 32) 1 = N.ones (j + 1).
Proof.
  intros H. rewrite N.mod_small.
  - rewrite !N.ones_equiv. assert (P : 0 < 2 ^ j) by (apply N.neq_0_lt_0; apply N.pow_nonzero; lia).
    replace (2 * N.pred (2 ^ j)) with (N.double (N.pred (2 ^ j))) by (rewrite N.double_spec; lia).
    assert (E : forall a, N.lor (N.double a) 1 = N.succ_double a) by (intros [|a]; reflexivity). rewrite E.
    rewrite N.succ_double_spec. replace (j + 1) with (N.succ j) by lia. rewrite N.pow_succ_r'. lia.
  - rewrite N.ones_equiv. assert (P : 0 < 2 ^ j) by (apply N.neq_0_lt_0; apply N.pow_nonzero; lia).
    assert (2 ^ (j + 1) <= 2 ^ 32) by (apply N.pow_le_mono_r; lia). replace (j + 1) with (N.succ j) in * by lia. rewrite N.pow_succ_r' in *. lia.
Qed.
Lemma size_le k j : N.size k <= j <-> k < 2 ^ j.
Proof.
  split; intros H.
  - eapply N.lt_le_trans; [apply N.size_gt|]. apply N.pow_le_mono_r; lia.
  - destruct k as [|k]; [apply N.le_0_l|]. rewrite N.size_log2 by lia. apply N.le_succ_l. apply N.log2_lt_pow2; lia.
Qed.
Lemma ones_le k j : (k <=? N.ones j) = (N.size k <=? j).
Proof.
  assert (P : 0 < 2 ^ j) by (apply N.neq_0_lt_0; apply N.pow_nonzero; lia).
  destruct (N.leb_spec k (N.ones j)) as [H|H], (N.leb_spec (N.size k) j) as [K|K]; try reflexivity; exfalso; rewrite N.ones_equiv in H.
  - assert (N.size k <= j) by (apply size_le; lia). lia.
  - apply size_le in K. lia.
Qed.
Lemma mask_loop_some k : N.size k <= 32 -> forall fuel j, 1 <= j -> j <= N.max 1 (N.size k) -> N.size k <= j + N.of_nat fuel ->
  mask_loop fuel (N.ones j) k = Val (N.ones (N.max 1 (N.size k))).
Proof.
  intros Hs. induction fuel as [|f IH]; intros j H1 H2 H3; cbn [mask_loop]; rewrite ones_le.
  - destruct (N.leb_spec (N.size k) j); [|lia]. do 2 f_equal. lia.
  - destruct (N.leb_spec (N.size k) j); [do 2 f_equal; lia|]. rewrite ones_step by lia. apply IH; lia.
Qed.
Lemma mask_loop_hangs k : 2 ^ 32 <= k -> forall fuel j, j <= 32 -> mask_loop fuel (N.ones j) k = Hangs.
Proof.
  intros Hk. induction fuel as [|f IH]; intros j Hj; cbn [mask_loop]; rewrite ones_le.
  - destruct (N.leb_spec (N.size k) j) as [K|K]; [|reflexivity]. exfalso. apply size_le in K.
    assert (2 ^ j <= 2 ^ 32) by (apply N.pow_le_mono_r; lia). lia.
  - destruct (N.leb_spec (N.size k) j) as [K|K].
    + exfalso. apply size_le in K. assert (2 ^ j <= 2 ^ 32) by (apply N.pow_le_mono_r; lia). lia.
    + destruct (N.eq_dec j 32) as [->|N].
      * replace (N.lor ((2 * N.ones 32) mod 2 ^ 32) 1) with (N.ones 32) by (vm_compute; reflexivity). apply IH. lia.
      * rewrite ones_step by lia. apply IH. lia.
Qed.
Lemma make_lcode_some k : k < 2 ^ 32 -> make_lcode k = Val {| mask := N.ones (N.max 1 (N.size k)); dim := k |}.
Proof.
  intros H. unfold make_lcode. change 1 with (N.ones 1) at 1. rewrite mask_loop_some.
  - cbn [bind]. rewrite N.mod_small by auto. reflexivity.
  - apply size_le. auto.
  - lia.
  - lia.
  - assert (N.size k <= 32) by (apply size_le; auto). cbn [N.of_nat]. lia.
Qed.
Lemma make_lcode_hangs k : 2 ^ 32 <= k -> make_lcode k = Hangs.
Proof. intros H. unfold make_lcode. change 1 with (N.ones 1) at 1. rewrite mask_loop_hangs by (auto; lia). reflexivity. Qed.
Definition reduce (k m : N) : N := if k <=? m then m - k else m.
Lemma lane_eq k w : 1 <= k -> k < 2 ^ 31 ->
  lane {| mask := N.ones (N.max 1 (N.size k)); dim := k |} w = reduce k (w mod 2 ^ N.size k).
Proof.
  intros H1 H2. assert (S1 : 1 <= N.size k) by (destruct k; [lia|]; rewrite N.size_log2 by lia; lia).
  assert (S2 : N.size k <= 31) by (apply size_le; auto).
  unfold lane. cbn [mask dim]. replace (N.max 1 (N.size k)) with (N.size k) by lia. rewrite N.land_ones.
  set (m := w mod 2 ^ N.size k). assert (M : m < 2 ^ N.size k) by (apply N.mod_lt; apply N.pow_nonzero; lia).
  assert (M31 : m < 2 ^ 31) by (eapply N.lt_le_trans; [exact M|apply N.pow_le_mono_r; lia]).
  assert (E32 : 2 ^ 32 = 2 * 2 ^ 31) by reflexivity.
  assert (C : (k + 2 ^ 32 - 1) mod 2 ^ 32 = k - 1).
  { replace (k + 2 ^ 32 - 1) with ((k - 1) + 1 * 2 ^ 32) by lia. rewrite N.mod_add by (apply N.pow_nonzero; lia). apply N.mod_small. lia. }
  rewrite C. unfold signed32.
  destruct (N.ltb_spec (k - 1) (2 ^ 31)); [|lia]. destruct (N.ltb_spec m (2 ^ 31)); [|lia].
  unfold reduce. destruct (Z.ltb_spec (Z.of_N (k - 1)) (Z.of_N m)) as [L|L], (N.leb_spec k m) as [L'|L']; try lia.
  - replace (m + 2 ^ 32 - k) with ((m - k) + 1 * 2 ^ 32) by lia. rewrite N.mod_add by (apply N.pow_nonzero; lia). apply N.mod_small. lia.
  - replace (m + 2 ^ 32 - 0) with (m + 1 * 2 ^ 32) by lia. rewrite N.mod_add by (apply N.pow_nonzero; lia). apply N.mod_small. lia.
Qed.
Lemma reduce_lt k m : 1 <= k -> m < 2 ^ N.size k -> reduce k m < k.
Proof.
  intros H M. unfold reduce. destruct (N.leb_spec k m); [|lia].
  destruct k as [|p]; [lia|]. rewrite N.size_log2 in M by lia. rewrite N.pow_succ_r' in M.
  pose proof (N.log2_spec (N.pos p) ltac:(lia)). lia.
Qed.

(** ** Rows *)
Lemma words_length b : length (words b) = 4%nat.
Proof. reflexivity. Qed.
Lemma words_nth b w : (w < 4)%nat -> nth w (words b) 0 = (b / 2 ^ (32 * N.of_nat w)) mod 2 ^ 32.
Proof. intros H. destruct w as [|[|[|[|w]]]]; try lia; reflexivity. Qed.
(** Position of row r, entry t in the index stream. *)
Definition stream_word (rp : N -> N) (i : N) (pos : nat) : N :=
  (rp (i * 2 ^ 96 + N.of_nat (pos / 4) * 2 ^ 32) / 2 ^ (32 * N.of_nat (pos mod 4))) mod 2 ^ 32.
Lemma gen_indexes_nth rp c i nb p : (p < 4 * nb)%nat -> nth p (gen_indexes rp c i nb) 0 = lane c (stream_word rp i p).
Proof.
  intros H. unfold gen_indexes. rewrite nth_flat4; [|intros; rewrite map_length; reflexivity|auto].
  rewrite (nth_indep _ 0 (lane c 0)) by (rewrite map_length, words_length; apply Nat.mod_upper_bound; lia).
  rewrite (map_nth (lane c)), words_nth by (apply Nat.mod_upper_bound; lia). reflexivity.
Qed.
Lemma gen_indexes_length rp c i nb : length (gen_indexes rp c i nb) = (4 * nb)%nat.
Proof. apply flat4_length. intros. rewrite map_length. reflexivity. Qed.
Lemma div_ceil4_le x : (x <= 4 * div_ceil4 x)%nat.
Proof. unfold div_ceil4. pose proof (Nat.div_mod (x + 3) 4 ltac:(lia)). pose proof (Nat.mod_upper_bound (x + 3) 4 ltac:(lia)). lia. Qed.
Definition xor_at (inp : list N) (idxs : list N) (v : N) : N :=
  fold_left (fun v k => N.lxor v (nth (N.to_nat k) inp 0)) idxs v.
Lemma xor_entries_some inp idxs : Forall (fun k => k < N.of_nat (length inp)) idxs -> forall v,
  xor_entries inp idxs v = Val (xor_at inp idxs v).
Proof.
  induction 1 as [|k idxs Hk _ IH]; intros v; cbn [xor_entries]; [reflexivity|].
  rewrite read_some by lia. cbn [bind]. rewrite IH. reflexivity.
Qed.
Lemma encode_rows_some d inp idxs i : forall n j out,
  (N.to_nat i + j + n <= length out)%nat ->
  (forall r, (j <= r < j + n)%nat -> Forall (fun k => k < N.of_nat (length inp)) (firstn d (skipn (r * d) idxs))) ->
  exists out', encode_rows d inp idxs i j n out = Val out' /\ length out' = length out /\
    forall r, nth r out' 0 = if (N.to_nat i + j <=? r)%nat && (r <? N.to_nat i + j + n)%nat
      then xor_at inp (firstn d (skipn ((r - N.to_nat i) * d) idxs)) (nth r out 0) else nth r out 0.
Proof.
  induction n as [|n IH]; intros j out H F; cbn [encode_rows].
  - exists out. split; [reflexivity|]. split; [reflexivity|]. intros r.
    destruct (Nat.leb_spec (N.to_nat i + j) r), (Nat.ltb_spec r (N.to_nat i + j + 0)); cbn [andb]; auto; lia.
  - assert (E : N.to_nat (i + N.of_nat j) = (N.to_nat i + j)%nat) by lia.
    rewrite read_some by lia. cbn [bind]. rewrite xor_entries_some by (apply F; lia). cbn [bind].
    rewrite !E. set (v := xor_at inp _ _).
    destruct (IH (S j) (set_nth out (N.to_nat i + j) v)) as [out' [R [L K]]].
    { rewrite set_nth_length. lia. }
    { intros r Hr. apply F. lia. }
    exists out'. split; [exact R|]. rewrite set_nth_length in L. split; [exact L|]. intros r. rewrite K, set_nth_nth by lia.
    destruct (Nat.eqb_spec r (N.to_nat i + j)) as [->|Hr].
    + destruct (Nat.leb_spec (N.to_nat i + S j) (N.to_nat i + j)); [lia|]. cbn [andb].
      destruct (Nat.leb_spec (N.to_nat i + j) (N.to_nat i + j)); [|lia].
      destruct (Nat.ltb_spec (N.to_nat i + j) (N.to_nat i + j + S n)); [|lia]. cbn [andb]. unfold v.
      replace (N.to_nat i + j - N.to_nat i)%nat with j by lia. reflexivity.
    + destruct (Nat.leb_spec (N.to_nat i + S j) r), (Nat.leb_spec (N.to_nat i + j) r), (Nat.ltb_spec r (N.to_nat i + S j + n)),
        (Nat.ltb_spec r (N.to_nat i + j + S n)); cbn [andb]; auto; lia.
Qed.
Lemma encode_rows_length d inp idxs i : forall n j out out', encode_rows d inp idxs i j n out = Val out' -> length out' = length out.
Proof.
  induction n as [|n IH]; intros j out out'; cbn [encode_rows]; [intros H; injection H; intros ->; reflexivity|].
  destruct (read out _) as [v| | |]; try discriminate. cbn [bind].
  destruct (xor_entries _ _ _) as [w| | |]; try discriminate. cbn [bind]. intros H. apply IH in H. rewrite set_nth_length in H. exact H.
Qed.

(** ** The batch loop *)
(** The index the code reads for entry t of output row r. *)
Definition batch_index (rp : N -> N) (k : N) (d r t : nat) : N :=
  reduce k (stream_word rp (N.of_nat (r / batch * batch)) (r mod batch * d + t) mod 2 ^ N.size k).
Definition row_value (rp : N -> N) (k : N) (d : nat) (inp : list N) (r : nat) (v : N) : N :=
  xor_at inp (map (batch_index rp k d r) (seq 0 d)) v.
Lemma batch_index_lt rp k d r t : 1 <= k -> batch_index rp k d r t < k.
Proof. intros H. apply reduce_lt; auto. apply N.mod_lt. apply N.pow_nonzero. lia. Qed.
Lemma row_indexes rp k d b limit j : 1 <= k -> k < 2 ^ 31 -> (j < limit)%nat -> (limit <= batch)%nat ->
  firstn d (skipn (j * d) (gen_indexes rp {| mask := N.ones (N.max 1 (N.size k)); dim := k |} (N.of_nat (b * batch)) (div_ceil4 (limit * d)))) =
  map (batch_index rp k d (b * batch + j)) (seq 0 d).
Proof.
  intros H1 H2 Hj Hl. assert (LE : (j * d + d <= 4 * div_ceil4 (limit * d))%nat).
  { eapply Nat.le_trans; [|apply div_ceil4_le]. nia. }
  rewrite sub_list by (rewrite gen_indexes_length; auto). apply map_ext_in. intros t Ht. apply in_seq in Ht.
  rewrite gen_indexes_nth by lia. rewrite lane_eq by auto. unfold batch_index.
  assert (B : (batch <> 0)%nat) by (unfold batch; lia).
  rewrite Nat.div_add_l by auto. rewrite (Nat.div_small j) by lia. rewrite Nat.add_0_r.
  rewrite (Nat.add_comm (b * batch) j), Nat.mod_add by auto. rewrite (Nat.mod_small j) by lia. reflexivity.
Qed.
Lemma limit_eq len i : N.of_nat len <= 2 ^ 32 - 1024 -> i < N.of_nat len ->
  N.to_nat (N.min (N.of_nat batch) ((N.of_nat len mod 2 ^ 32 + 2 ^ 32 - i) mod 2 ^ 32)) = Nat.min batch (len - N.to_nat i).
Proof.
  intros H1 H2. assert (P : 0 < 2 ^ 32) by (apply N.neq_0_lt_0; apply N.pow_nonzero; lia).
  rewrite (N.mod_small (N.of_nat len)) by lia.
  replace (N.of_nat len + 2 ^ 32 - i) with ((N.of_nat len - i) + 1 * 2 ^ 32) by lia.
  rewrite N.mod_add by lia. rewrite N.mod_small by lia. lia.
Qed.
Lemma encode_loop_some rp k d inp : 1 <= k -> k < 2 ^ 31 -> N.of_nat (length inp) = k ->
  forall fuel b out, N.of_nat (length out) <= 2 ^ 32 - 1024 -> (length out < (b + fuel) * batch)%nat ->
  exists out', encode_loop fuel rp {| mask := N.ones (N.max 1 (N.size k)); dim := k |} d inp (N.of_nat (b * batch)) out = Val out' /\
    length out' = length out /\
    forall r, (r < length out)%nat -> nth r out' 0 = if (b * batch <=? r)%nat then row_value rp k d inp r (nth r out 0) else nth r out 0.
Proof.
  intros H1 H2 Hi. induction fuel as [|f IH]; intros b out H3 H4; cbn [encode_loop].
  - destruct (N.leb_spec (N.of_nat (length out)) (N.of_nat (b * batch))) as [L|L]; [|lia].
    exists out. split; [reflexivity|]. split; [reflexivity|]. intros r Hr. destruct (Nat.leb_spec (b * batch) r); [lia|reflexivity].
  - destruct (N.leb_spec (N.of_nat (length out)) (N.of_nat (b * batch))) as [L|L].
    { exists out. split; [reflexivity|]. split; [reflexivity|]. intros r Hr. destruct (Nat.leb_spec (b * batch) r); [lia|reflexivity]. }
    rewrite limit_eq by (auto; lia). rewrite Nat2N.id. set (limit := Nat.min batch (length out - b * batch)).
    destruct (encode_rows_some d inp (gen_indexes rp {| mask := N.ones (N.max 1 (N.size k)); dim := k |} (N.of_nat (b * batch)) (div_ceil4 (limit * d)))
       (N.of_nat (b * batch)) limit 0 out) as [o1 [R [L1 K]]].
    { unfold limit. lia. }
    { intros r Hr. rewrite row_indexes by (auto; unfold limit in *; lia). apply Forall_forall. intros x Hx. apply in_map_iff in Hx.
      destruct Hx as [t [<- _]]. rewrite Hi. apply batch_index_lt. auto. }
    rewrite R. cbn [bind].
    assert (NX : (N.of_nat (b * batch) + N.of_nat batch) mod 2 ^ 32 = N.of_nat (S b * batch)).
    { rewrite N.mod_small; [lia|]. unfold batch in *. lia. }
    rewrite NX. destruct (IH (S b) o1) as [o2 [R2 [L2 K2]]].
    { rewrite L1. auto. }
    { rewrite L1. lia. }
    exists o2. split; [exact R2|]. split; [congruence|]. intros r Hr. rewrite K2 by lia. rewrite K. rewrite Nat2N.id.
    destruct (Nat.leb_spec (S b * batch) r) as [A|A].
    + destruct (Nat.leb_spec (b * batch + 0) r); [|lia]. destruct (Nat.ltb_spec r (b * batch + 0 + limit)); [unfold limit in *; lia|].
      cbn [andb]. destruct (Nat.leb_spec (b * batch) r); [reflexivity|lia].
    + rewrite Nat.add_0_r. destruct (Nat.leb_spec (b * batch) r) as [B|B]; cbn [andb]; [|reflexivity].
      destruct (Nat.ltb_spec r (b * batch + limit)) as [C|C]; [|unfold limit in *; lia].
      rewrite row_indexes by (auto; unfold limit in *; lia). unfold row_value.
      replace (b * batch + (r - b * batch))%nat with r by lia. reflexivity.
Qed.
Lemma encode_some rp k d inp out : 1 <= k -> k < 2 ^ 31 -> N.of_nat (length inp) = k -> N.of_nat (length out) <= 2 ^ 32 - 1024 ->
  exists out', encode rp {| mask := N.ones (N.max 1 (N.size k)); dim := k |} d inp out = Val out' /\ length out' = length out /\
    forall r, (r < length out)%nat -> nth r out' 0 = row_value rp k d inp r (nth r out 0).
Proof.
  intros H1 H2 H3 H4. unfold encode. cbn [dim]. rewrite H3, N.eqb_refl.
  destruct (encode_loop_some rp k d inp H1 H2 H3 (S (length out / batch)) 0 out) as [o [R [L K]]]; auto.
  { pose proof (Nat.div_mod (length out) batch ltac:(unfold batch; lia)). pose proof (Nat.mod_upper_bound (length out) batch ltac:(unfold batch; lia)). nia. }
  exists o. split; [exact R|]. split; [exact L|]. intros r Hr. rewrite K by auto. reflexivity.
Qed.
(** A longer output makes the 32-bit batch counter wrap and the loop endless. *)
Lemma encode_loop_endless rp c d inp fuel : forall b out out', 2 ^ 32 - 1024 < N.of_nat (length out) ->
  N.of_nat b * 1024 < 2 ^ 32 -> encode_loop fuel rp c d inp (N.of_nat b * 1024) out <> Val out'.
Proof.
  assert (E : 2 ^ 32 = 2 ^ 22 * 1024) by reflexivity.
  induction fuel as [|f IH]; intros b out out' H1 H2; cbn [encode_loop].
  - destruct (N.leb_spec (N.of_nat (length out)) (N.of_nat b * 1024)); [lia|discriminate].
  - destruct (N.leb_spec (N.of_nat (length out)) (N.of_nat b * 1024)); [lia|].
    match goal with |- bind ?x _ <> _ => destruct x as [o| | |] eqn:R; try discriminate end. cbn [bind].
    apply encode_rows_length in R. change (N.of_nat batch) with 1024.
    destruct (N.eq_dec (N.of_nat b + 1) (2 ^ 22)) as [F|F].
    + replace (N.of_nat b * 1024 + 1024) with (2 ^ 32) by lia. rewrite N.mod_same by lia.
      apply (IH 0%nat). { rewrite R. auto. } { reflexivity. }
    + rewrite N.mod_small by lia. replace (N.of_nat b * 1024 + 1024) with (N.of_nat (S b) * 1024) by lia. apply IH; [rewrite R; auto|lia].
Qed.

(** ** Two at a time *)
Lemma xor_entries2_some in0 in1 idxs : Forall (fun k => k < N.of_nat (length in0)) idxs -> Forall (fun k => k < N.of_nat (length in1)) idxs -> forall v w,
  xor_entries2 in0 in1 idxs v w = Val (xor_at in0 idxs v, xor_at in1 idxs w).
Proof.
  induction idxs as [|k idxs IH]; intros H0 H1 v w; cbn [xor_entries2]; [reflexivity|].
  inversion_clear H0. inversion_clear H1. rewrite !read_some by lia. cbn [bind]. rewrite IH by auto. reflexivity.
Qed.
Lemma encode2_rows_some d in0 in1 idxs i : length in0 = length in1 -> forall n j out0 out1,
  (N.to_nat i + j + n <= length out0)%nat -> (N.to_nat i + j + n <= length out1)%nat ->
  (forall r, (j <= r < j + n)%nat -> Forall (fun k => k < N.of_nat (length in0)) (firstn d (skipn (r * d) idxs))) ->
  exists o0 o1, encode2_rows d in0 in1 idxs i j n (out0, out1) = Val (o0, o1) /\
    encode_rows d in0 idxs i j n out0 = Val o0 /\ encode_rows d in1 idxs i j n out1 = Val o1.
Proof.
  intros HL. induction n as [|n IH]; intros j out0 out1 H0 H1 F; cbn [encode2_rows encode_rows fst snd].
  - exists out0, out1. auto.
  - rewrite !read_some by lia. cbn [bind].
    assert (F0 : Forall (fun k => k < N.of_nat (length in0)) (firstn d (skipn (j * d) idxs))) by (apply F; lia).
    assert (F1 : Forall (fun k => k < N.of_nat (length in1)) (firstn d (skipn (j * d) idxs))) by (rewrite <- HL; auto).
    rewrite xor_entries2_some by auto. rewrite !xor_entries_some by auto. cbn [bind fst snd].
    apply IH; rewrite ?set_nth_length; try lia. intros r Hr. apply F. lia.
Qed.
Lemma encode2_loop_some rp k d in0 in1 : 1 <= k -> k < 2 ^ 31 -> N.of_nat (length in0) = k -> N.of_nat (length in1) = k ->
  forall fuel b out0 out1, let s := Nat.min (length out0) (length out1) in N.of_nat s <= 2 ^ 32 - 1024 -> (s < (b + fuel) * batch)%nat ->
  exists o0 o1, encode2_loop fuel rp {| mask := N.ones (N.max 1 (N.size k)); dim := k |} d in0 in1 (N.of_nat (b * batch)) (out0, out1) = Val (o0, o1) /\
    length o0 = length out0 /\ length o1 = length out1 /\
    forall r, (nth r o0 0 = if (b * batch <=? r)%nat && (r <? s)%nat then row_value rp k d in0 r (nth r out0 0) else nth r out0 0) /\
              (nth r o1 0 = if (b * batch <=? r)%nat && (r <? s)%nat then row_value rp k d in1 r (nth r out1 0) else nth r out1 0).
Proof.
  intros H1 H2 Hi0 Hi1. induction fuel as [|f IH]; intros b out0 out1 s H3 H4; cbn [encode2_loop fst snd]; fold s.
  - destruct (N.leb_spec (N.of_nat s) (N.of_nat (b * batch))) as [L|L]; [|lia].
    exists out0, out1. split; [reflexivity|]. split; [reflexivity|]. split; [reflexivity|]. intros r.
    destruct (Nat.leb_spec (b * batch) r), (Nat.ltb_spec r s); cbn [andb]; auto; lia.
  - destruct (N.leb_spec (N.of_nat s) (N.of_nat (b * batch))) as [L|L].
    { exists out0, out1. split; [reflexivity|]. split; [reflexivity|]. split; [reflexivity|]. intros r.
      destruct (Nat.leb_spec (b * batch) r), (Nat.ltb_spec r s); cbn [andb]; auto; lia. }
    rewrite limit_eq by (auto; lia). rewrite Nat2N.id. set (limit := Nat.min batch (s - b * batch)).
    set (idxs := gen_indexes rp {| mask := N.ones (N.max 1 (N.size k)); dim := k |} (N.of_nat (b * batch)) (div_ceil4 (limit * d))).
    assert (F : forall r, (0 <= r < 0 + limit)%nat -> Forall (fun x => x < N.of_nat (length in0)) (firstn d (skipn (r * d) idxs))).
    { intros r Hr. unfold idxs. rewrite row_indexes by (auto; unfold limit in *; lia). apply Forall_forall. intros x Hx. apply in_map_iff in Hx.
      destruct Hx as [t [<- _]]. rewrite Hi0. apply batch_index_lt. auto. }
    destruct (encode2_rows_some d in0 in1 idxs (N.of_nat (b * batch)) ltac:(lia) limit 0 out0 out1) as [p0 [p1 [R [R0 R1]]]]; auto;
      try (unfold limit, s in *; lia).
    assert (F1 : forall r, (0 <= r < 0 + limit)%nat -> Forall (fun x => x < N.of_nat (length in1)) (firstn d (skipn (r * d) idxs)))
      by (intros r Hr; rewrite Hi1, <- Hi0; auto).
    destruct (encode_rows_some d in0 idxs (N.of_nat (b * batch)) limit 0 out0) as [q0 [Q0 [L0 K0]]]; auto; [unfold limit, s in *; lia|].
    destruct (encode_rows_some d in1 idxs (N.of_nat (b * batch)) limit 0 out1) as [q1 [Q1 [L1 K1]]]; auto; [unfold limit, s in *; lia|].
    rewrite R0 in Q0. injection Q0. intros <-. rewrite R1 in Q1. injection Q1. intros <-.
    rewrite R. cbn [bind].
    assert (NX : (N.of_nat (b * batch) + N.of_nat batch) mod 2 ^ 32 = N.of_nat (S b * batch)).
    { rewrite N.mod_small; [lia|]. unfold batch, s in *. lia. }
    rewrite NX. assert (S' : Nat.min (length p0) (length p1) = s) by (unfold s; lia).
    destruct (IH (S b) p0 p1) as [o0 [o1 [R2 [M0 [M1 K2]]]]].
    { rewrite S'. auto. }
    { rewrite S'. lia. }
    exists o0, o1. split; [exact R2|]. split; [congruence|]. split; [congruence|]. intros r. specialize (K0 r). specialize (K1 r).
    destruct (K2 r) as [E0 E1]. rewrite E0, E1, K0, K1. rewrite S', Nat2N.id, Nat.add_0_r.
    destruct (Nat.leb_spec (S b * batch) r) as [A|A]; cbn [andb].
    + destruct (Nat.leb_spec (b * batch) r); [|lia]. destruct (Nat.ltb_spec r (b * batch + limit)); [unfold limit in *; lia|]. cbn [andb]. auto.
    + destruct (Nat.leb_spec (b * batch) r) as [B|B]; cbn [andb]; [|auto].
      destruct (Nat.ltb_spec r (b * batch + limit)) as [C|C], (Nat.ltb_spec r s); try (unfold limit in *; lia); auto.
      unfold idxs. rewrite row_indexes by (auto; unfold limit in *; lia). unfold row_value.
      replace (b * batch + (r - b * batch))%nat with r by lia. auto.
Qed.
