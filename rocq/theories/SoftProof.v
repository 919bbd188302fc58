(** Lemmas for SoftModel: XorReduce, the layout of the trees, the small field VOLE. *)
From Coq Require Import List NArith ZArith Bool Lia Arith.
From Verif Require Import GfModel GfProof SpcotModel SpcotProof OtExtModel OtExtProof SoftModel.
Import ListNotations.
Open Scope nat_scope.

(** ** XOR sums *)
Fixpoint xs (f : nat -> N) (n : nat) : N := match n with O => 0%N | S n => N.lxor (xs f n) (f n) end.
Lemma xs_ext f g n : (forall x, x < n -> f x = g x) -> xs f n = xs g n.
Proof. induction n as [|n IH]; intros H; cbn [xs]; auto. rewrite IH, H by auto. reflexivity. Qed.
Lemma xs_add f a b : xs f (a + b) = N.lxor (xs f a) (xs (fun x => f (a + x)) b).
Proof.
  induction b as [|b IH]; cbn [xs].
  - rewrite Nat.add_0_r, N.lxor_0_r. reflexivity.
  - rewrite Nat.add_succ_r. cbn [xs]. rewrite IH, N.lxor_assoc. reflexivity.
Qed.
Lemma xs_zero f n : (forall x, x < n -> f x = 0%N) -> xs f n = 0%N.
Proof. induction n as [|n IH]; intros H; cbn [xs]; auto. rewrite IH, H by auto. reflexivity. Qed.
Lemma xs_change f g n a : a < n -> (forall x, x < n -> x <> a -> f x = g x) -> xs f n = N.lxor (xs g n) (N.lxor (f a) (g a)).
Proof.
  induction n as [|n IH]; intros Ha H; [lia|]. cbn [xs]. destruct (Nat.eq_dec a n) as [->|D].
  - rewrite (xs_ext f g n) by (intros; apply H; lia).
    rewrite N.lxor_assoc. f_equal. rewrite (N.lxor_comm (f n)), xor_cancel. reflexivity.
  - rewrite IH, (H n) by (auto; lia). rewrite !N.lxor_assoc. f_equal. rewrite (N.lxor_comm (g n)), !N.lxor_assoc. reflexivity.
Qed.

(** ** Memory *)
Lemma upd_same m p v : upd m p v p = v.
Proof. unfold upd. rewrite Nat.eqb_refl. reflexivity. Qed.
Lemma upd_other m p v x : x <> p -> upd m p v x = m x.
Proof. intros H. unfold upd. rewrite (proj2 (Nat.eqb_neq x p)) by auto. reflexivity. Qed.

Lemma pow_ge d : d < 2 ^ d.
Proof. apply Nat.pow_gt_lin_r. lia. Qed.
Lemma stride_ge d : 1 <= d -> d <= 2 ^ (d - 1).
Proof. intros H. pose proof (pow_ge (d - 1)). lia. Qed.
Lemma stride_two d : 1 <= d -> 2 * 2 ^ (d - 1) = 2 ^ d.
Proof. intros H. replace d with (S (d - 1)) at 2 by lia. reflexivity. Qed.

(** ** XorReduce *)
Lemma inner_steps i s J m : J <= s -> forall x,
  fold_left (fun m j => upd m (i + j) (N.lxor (m (i + j)) (m (i + j + s)))) (seq 0 J) m x =
  if (i <=? x) && (x <? i + J) then N.lxor (m x) (m (x + s)) else m x.
Proof.
  intros HJ. induction J as [|J IH]; intros x.
  - cbn [seq fold_left]. destruct (Nat.leb_spec i x), (Nat.ltb_spec x (i + 0)); cbn [andb]; auto; lia.
  - rewrite seq_S, fold_left_app. cbn [fold_left Nat.add]. unfold upd.
    rewrite !IH by lia. destruct (Nat.eqb_spec x (i + J)) as [->|D].
    + destruct (Nat.leb_spec i (i + J)), (Nat.ltb_spec (i + J) (i + J)), (Nat.ltb_spec (i + J) (i + S J)); cbn [andb]; try lia.
      destruct (Nat.leb_spec i (i + J + s)), (Nat.ltb_spec (i + J + s) (i + J)); cbn [andb]; auto; lia.
    + destruct (Nat.leb_spec i x), (Nat.ltb_spec x (i + J)), (Nat.ltb_spec x (i + S J)); cbn [andb]; auto; lia.
Qed.
Lemma reduce_block_spec d i m x : 1 <= d ->
  reduce_block d i m x =
  if (i <=? x) && (x <? i + d) then N.lxor (m x) (m (x + 2 ^ (d - 1)))
  else if x =? i + d then m (i + 2 ^ (d - 1)) else m x.
Proof.
  intros Hd. unfold reduce_block. cbn zeta. pose proof (stride_ge d Hd) as G. unfold upd at 1. rewrite !inner_steps by auto.
  destruct (Nat.eqb_spec x (i + d)) as [->|D].
  - destruct (Nat.leb_spec i (i + d)), (Nat.ltb_spec (i + d) (i + d)); cbn [andb]; try lia.
    destruct (Nat.leb_spec i (i + 2 ^ (d - 1))), (Nat.ltb_spec (i + 2 ^ (d - 1)) (i + d)); cbn [andb]; auto; lia.
  - reflexivity.
Qed.
(** The accesses of one block are within 2^d entries from its start. *)
Lemma reduce_in_range d : 1 <= d -> d < 2 ^ d /\ (d - 1) + 2 ^ (d - 1) < 2 ^ d /\ 2 ^ (d - 1) < 2 ^ d.
Proof. intros H. pose proof (stride_ge d H). pose proof (stride_two d H). pose proof (pow_ge (d - 1)). lia. Qed.

Lemma reduce_blocks d nb m : 1 <= d -> forall b x, x < 2 ^ d ->
  fold_left (fun m b => reduce_block d (b * 2 ^ d) m) (seq 0 nb) m (b * 2 ^ d + x) =
  if b <? nb then reduce_block d (b * 2 ^ d) m (b * 2 ^ d + x) else m (b * 2 ^ d + x).
Proof.
  intros Hd. pose proof (reduce_in_range d Hd) as (R1 & R2 & R3). pose proof (stride_two d Hd) as T.
  induction nb as [|nb IH]; intros b x Hx; [reflexivity|].
  rewrite seq_S, fold_left_app. cbn [fold_left Nat.add].
  set (M := fold_left _ (seq 0 nb) m) in *.
  assert (Same : b <> nb -> reduce_block d (nb * 2 ^ d) M (b * 2 ^ d + x) = M (b * 2 ^ d + x)).
  { intros D. rewrite reduce_block_spec by auto.
    assert (b * 2 ^ d + 2 ^ d <= nb * 2 ^ d \/ nb * 2 ^ d + 2 ^ d <= b * 2 ^ d) as O.
    { destruct (Nat.lt_ge_cases b nb).
      - left. replace (b * 2 ^ d + 2 ^ d) with (S b * 2 ^ d) by (cbn; lia). apply Nat.mul_le_mono_r. lia.
      - right. replace (nb * 2 ^ d + 2 ^ d) with (S nb * 2 ^ d) by (cbn; lia). apply Nat.mul_le_mono_r. lia. }
    destruct (Nat.leb_spec (nb * 2 ^ d) (b * 2 ^ d + x)), (Nat.ltb_spec (b * 2 ^ d + x) (nb * 2 ^ d + d)); cbn [andb]; try lia;
      destruct (Nat.eqb_spec (b * 2 ^ d + x) (nb * 2 ^ d + d)); auto; lia. }
  destruct (Nat.ltb_spec b (S nb)) as [L|G].
  - destruct (Nat.eq_dec b nb) as [->|D].
    + rewrite !reduce_block_spec by auto. unfold M.
      replace (nb * 2 ^ d + x + 2 ^ (d - 1)) with (nb * 2 ^ d + (x + 2 ^ (d - 1))) by lia.
      destruct (Nat.leb_spec (nb * 2 ^ d) (nb * 2 ^ d + x)), (Nat.ltb_spec (nb * 2 ^ d + x) (nb * 2 ^ d + d)); cbn [andb]; try lia.
      * rewrite !IH by lia. rewrite Nat.ltb_irrefl. reflexivity.
      * destruct (Nat.eqb_spec (nb * 2 ^ d + x) (nb * 2 ^ d + d)).
        { rewrite IH, Nat.ltb_irrefl by lia. reflexivity. }
        { rewrite IH, Nat.ltb_irrefl by lia. reflexivity. }
    + rewrite Same by auto. rewrite IH by auto. rewrite (proj2 (Nat.ltb_lt b nb)) by lia. reflexivity.
  - rewrite Same by lia. rewrite IH by auto. rewrite (proj2 (Nat.ltb_ge b nb)) by lia. reflexivity.
Qed.
Lemma reduce_depth_spec size d m b x : 1 <= d -> (exists q, size = q * 2 ^ d /\ b < q) -> x < 2 ^ d ->
  reduce_depth size d m (b * 2 ^ d + x) = reduce_block d (b * 2 ^ d) m (b * 2 ^ d + x).
Proof.
  intros Hd (q & E & Hb) Hx. unfold reduce_depth. cbn zeta. rewrite stride_two by auto.
  assert (P : 2 ^ d <> 0) by (apply Nat.pow_nonzero; lia).
  assert (Q : (size + 2 ^ d - 1) / 2 ^ d = q).
  { rewrite E. replace (q * 2 ^ d + 2 ^ d - 1) with ((2 ^ d - 1) + q * 2 ^ d) by lia. rewrite Nat.div_add by auto.
    rewrite Nat.div_small by lia. lia. }
  rewrite Q, reduce_blocks by auto. rewrite (proj2 (Nat.ltb_lt b q)) by auto. reflexivity.
Qed.

(** After depth d, each block of 2^d starts with the sum of all its entries and the sums
    of those whose index has bit 0, 1, ..., d-1. *)
Definition pick (m : mem) (base j x : nat) : N := if Nat.testbit x j then m (base + x) else 0%N.
Lemma xor_reduce_spec num k m d : d <= k ->
  let size := num * 2 ^ k in
  forall b, b * 2 ^ d + 2 ^ d <= size ->
  xor_reduce size d m (b * 2 ^ d) = xs (fun x => m (b * 2 ^ d + x)) (2 ^ d) /\
  forall j, j < d -> xor_reduce size d m (b * 2 ^ d + 1 + j) = xs (pick m (b * 2 ^ d) j) (2 ^ d).
Proof.
  cbn zeta. induction d as [|d IH]; intros Hk b Hb.
  - split; [|lia]. cbn [xor_reduce seq fold_left Nat.pow xs]. rewrite Nat.mul_1_r, Nat.add_0_r. reflexivity.
  - unfold xor_reduce in *. rewrite seq_S, fold_left_app. cbn [fold_left]. replace (1 + d) with (S d) by lia.
    set (M := fold_left _ (seq 1 d) m) in *.
    assert (Q : exists q, num * 2 ^ k = q * 2 ^ S d /\ b < q).
    { exists (num * 2 ^ (k - S d)). split.
      - rewrite <- Nat.mul_assoc, <- Nat.pow_add_r. do 2 f_equal. lia.
      - assert (E : num * 2 ^ k = num * 2 ^ (k - S d) * 2 ^ S d) by (rewrite <- Nat.mul_assoc, <- Nat.pow_add_r; do 2 f_equal; lia).
        rewrite E in Hb. assert (2 ^ S d <> 0) by (apply Nat.pow_nonzero; lia).
        replace (b * 2 ^ S d + 2 ^ S d) with (S b * 2 ^ S d) in Hb by (cbn [Nat.mul]; lia). apply Nat.mul_le_mono_pos_r in Hb; lia. }
    pose proof (reduce_in_range (S d) ltac:(lia)) as (R1 & R2 & R3). replace (S d - 1) with d in * by lia.
    assert (T : 2 ^ S d = 2 ^ d + 2 ^ d) by (cbn [Nat.pow]; lia).
    assert (B0 : 2 * b * 2 ^ d = b * 2 ^ S d) by (cbn [Nat.pow]; lia).
    assert (B1 : (2 * b + 1) * 2 ^ d = b * 2 ^ S d + 2 ^ d) by (cbn [Nat.pow]; lia).
    destruct (IH ltac:(lia) (2 * b) ltac:(lia)) as [L0 LJ]. destruct (IH ltac:(lia) (2 * b + 1) ltac:(lia)) as [U0 UJ].
    rewrite B0 in L0, LJ. rewrite B1 in U0, UJ. set (base := b * 2 ^ S d) in *.
    assert (RD : forall x, x < 2 ^ S d -> reduce_depth (num * 2 ^ k) (S d) M (base + x) = reduce_block (S d) base M (base + x))
      by (intros x Hx; apply reduce_depth_spec; auto; lia).
    assert (F0 : xs (fun x => m (base + 2 ^ d + x)) (2 ^ d) = xs (fun x => m (base + (2 ^ d + x))) (2 ^ d))
      by (apply xs_ext; intros; f_equal; lia).
    split.
    + replace base with (base + 0) at 1 by lia. rewrite RD by lia. rewrite reduce_block_spec by lia. replace (S d - 1) with d by lia.
      destruct (Nat.leb_spec base (base + 0)), (Nat.ltb_spec (base + 0) (base + S d)); cbn [andb]; try lia.
      rewrite Nat.add_0_r, L0, U0, T, xs_add, F0. reflexivity.
    + intros j Hj. replace (base + 1 + j) with (base + (1 + j)) by lia. rewrite RD by lia. rewrite reduce_block_spec by lia.
      replace (S d - 1) with d by lia. rewrite T, xs_add.
      assert (HB : forall x, x < 2 ^ d -> j < d -> Nat.testbit (2 ^ d + x) j = Nat.testbit x j).
      { intros x Hx Hjd. rewrite <- (Nat.mod_pow2_bits_low (2 ^ d + x) d j), <- (Nat.mod_pow2_bits_low x d j) by auto. f_equal.
        replace (2 ^ d + x) with (x + 1 * 2 ^ d) by lia. apply Nat.mod_add. lia. }
      assert (HD : forall x, x < 2 ^ d -> Nat.testbit x d = false /\ Nat.testbit (2 ^ d + x) d = true).
      { intros x Hx. rewrite !Nat.testbit_eqb. rewrite (Nat.div_small x) by auto. split; [reflexivity|].
        replace (2 ^ d + x) with (x + 1 * 2 ^ d) by lia. rewrite Nat.div_add, Nat.div_small by lia. reflexivity. }
      destruct (Nat.leb_spec base (base + (1 + j))), (Nat.ltb_spec (base + (1 + j)) (base + S d)); cbn [andb]; try lia.
      * replace (base + (1 + j)) with (base + 1 + j) by lia. replace (base + 1 + j + 2 ^ d) with (base + 2 ^ d + 1 + j) by lia.
        rewrite LJ, UJ by lia. f_equal. apply xs_ext. intros x Hx. unfold pick. rewrite HB by (auto; lia).
        destruct (Nat.testbit x j); auto. f_equal. lia.
      * assert (j = d) by lia. subst j. replace (1 + d) with (S d) by lia. rewrite Nat.eqb_refl, U0.
        rewrite (xs_zero (pick m base d)), N.lxor_0_l.
        { rewrite F0. apply xs_ext. intros x Hx. unfold pick. rewrite (proj2 (HD x Hx)). reflexivity. }
        { intros x Hx. unfold pick. rewrite (proj1 (HD x Hx)). reflexivity. }
Qed.
Lemma reduce_tree num k m i : i < num ->
  xor_reduce (num * 2 ^ k) k m (i * 2 ^ k) = xs (fun x => m (i * 2 ^ k + x)) (2 ^ k) /\
  forall j, j < k -> xor_reduce (num * 2 ^ k) k m (i * 2 ^ k + 1 + j) = xs (pick m (i * 2 ^ k) j) (2 ^ k).
Proof.
  intros H. apply (xor_reduce_spec num k m k (le_n k) i). replace (i * 2 ^ k + 2 ^ k) with (S i * 2 ^ k) by (cbn [Nat.mul]; lia).
  apply Nat.mul_le_mono_r. lia.
Qed.

(** A zero tail stays zero. *)
Definition tail0 (P : nat) (m : mem) : Prop := forall p, P <= p -> m p = 0%N.
Lemma reduce_block_tail P d i m : 1 <= d -> tail0 P m -> tail0 P (reduce_block d i m).
Proof.
  intros Hd T p Hp. pose proof (stride_ge d Hd). rewrite reduce_block_spec by auto.
  destruct ((i <=? p) && (p <? i + d)); [rewrite !T by lia; reflexivity|].
  destruct (Nat.eqb_spec p (i + d)) as [->|D]; apply T; lia.
Qed.
Lemma reduce_tail P size k m : tail0 P m -> tail0 P (xor_reduce size k m).
Proof.
  intros T. unfold xor_reduce. assert (A : forall l m, (forall d, In d l -> 1 <= d) -> tail0 P m -> tail0 P (fold_left (fun m d => reduce_depth size d m) l m)).
  { induction l as [|d l IH]; intros m' Hl Hm; cbn [fold_left]; auto. apply IH; [intros; apply Hl; right; auto|].
    unfold reduce_depth. cbn zeta. generalize (seq 0 ((size + 2 * 2 ^ (d - 1) - 1) / (2 * 2 ^ (d - 1)))). intros bs. revert m' Hm.
    induction bs as [|b bs IHb]; intros m' Hm; cbn [fold_left]; auto. apply IHb. apply reduce_block_tail; auto. apply Hl. left. auto. }
  apply A; auto. intros d Hd. apply in_seq in Hd. lia.
Qed.

(** ** The layout of the trees *)
Section Layout.
Variable k : nat.
Hypothesis Hk : 1 <= k.
Lemma num_covers : 128 <= pprf_num k * k /\ 1 <= pprf_num k /\ (pprf_num k - 1) * k < 128.
Proof.
  unfold pprf_num. pose proof (Nat.div_mod (128 + k - 1) k ltac:(lia)) as E. pose proof (Nat.mod_upper_bound (128 + k - 1) k ltac:(lia)) as B.
  set (q := (128 + k - 1) / k) in *. set (r := (128 + k - 1) mod k) in *. clearbody q r.
  rewrite (Nat.mul_comm q k). assert (1 <= q) by (destruct q; lia). split; [lia|]. split; auto.
  rewrite Nat.mul_sub_distr_r, (Nat.mul_comm q k). lia.
Qed.
Lemma tree_start i : i < pprf_num k -> i * k < 128.
Proof. intros H. destruct num_covers as (_ & _ & L). assert (i * k <= (pprf_num k - 1) * k) by (apply Nat.mul_le_mono_r; lia). lia. Qed.
Lemma k_limit_pos i : i < pprf_num k -> 1 <= k_limit k i <= k.
Proof. intros H. pose proof (tree_start i H). unfold k_limit. lia. Qed.
Lemma k_limit_full i : S i < pprf_num k -> k_limit k i = k.
Proof. intros H. pose proof (tree_start (S i) H). unfold k_limit. cbn [Nat.mul] in *. lia. Qed.
Lemma tree_map {A} (F : nat -> nat -> A) m :
  flat_map (fun i => map (F i) (seq 0 (k_limit k i))) (seq 0 m) = map (fun c => F (c / k) (c mod k)) (seq 0 (Nat.min 128 (m * k))).
Proof.
  induction m as [|m IH]; [reflexivity|]. rewrite seq_S, flat_map_app, IH. cbn [flat_map Nat.add]. rewrite app_nil_r.
  replace (Nat.min 128 (S m * k)) with (Nat.min 128 (m * k) + k_limit k m) by (unfold k_limit; cbn [Nat.mul]; lia).
  rewrite seq_app, map_app. f_equal. cbn [Nat.add].
  destruct (Nat.le_gt_cases 128 (m * k)).
  - unfold k_limit. replace (128 - m * k) with 0 by lia. rewrite Nat.min_0_r. reflexivity.
  - replace (Nat.min 128 (m * k)) with (m * k) by lia.
    assert (L : k_limit k m <= k) by (unfold k_limit; lia). revert L. generalize (k_limit k m). intros n L.
    replace (seq (m * k) n) with (map (fun j => m * k + j) (seq 0 n)).
    2: { clear L. induction n as [|n IHn]; [reflexivity|]. rewrite !seq_S, map_app, IHn. reflexivity. }
    rewrite map_map. apply map_ext_in. intros j Hj. apply in_seq in Hj.
    rewrite (Nat.add_comm (m * k)), Nat.div_add, Nat.mod_add, Nat.div_small, Nat.mod_small by lia. reflexivity.
Qed.
Lemma tree_map_all {A} (F : nat -> nat -> A) :
  flat_map (fun i => map (F i) (seq 0 (k_limit k i))) (seq 0 (pprf_num k)) = map (fun c => F (c / k) (c mod k)) (seq 0 128).
Proof. rewrite tree_map. destruct num_covers as (L & _). replace (Nat.min 128 (pprf_num k * k)) with 128 by lia. reflexivity. Qed.
Lemma col_tree c : c < 128 -> c / k < pprf_num k /\ c mod k < k_limit k (c / k) /\ c = c / k * k + c mod k.
Proof.
  intros H. destruct num_covers as (L & _). pose proof (Nat.div_mod c k ltac:(lia)) as E. pose proof (Nat.mod_upper_bound c k ltac:(lia)).
  rewrite (Nat.mul_comm k) in E. split; [|split; auto].
  - apply Nat.div_lt_upper_bound; [lia|]. rewrite Nat.mul_comm. lia.
  - unfold k_limit. lia.
Qed.
Lemma slice_len {A} (l : list A) i : length l = 128 -> i < pprf_num k -> length (slice k i l) = k_limit k i.
Proof. intros L H. pose proof (tree_start i H). unfold slice. rewrite firstn_length, skipn_length. unfold k_limit. lia. Qed.
Lemma slice_nth {A} (l : list A) i j d : j < k_limit k i -> nth j (slice k i l) d = nth (i * k + j) l d.
Proof. intros H. unfold slice. rewrite nth_firstn, nth_skipn by auto. reflexivity. Qed.
End Layout.

(** Concatenated trees of which all before the i-th have R entries. *)
Lemma concat_at {A} (ls : list (list A)) R d : forall i x, i < length ls -> (forall j, j < i -> length (nth j ls []) = R) ->
  x < length (nth i ls []) -> nth (i * R + x) (concat ls) d = nth x (nth i ls []) d.
Proof.
  induction ls as [|l ls IH]; intros i x Hi H Hx; [cbn in Hi; lia|]. cbn [concat]. destruct i as [|i].
  - cbn [nth Nat.mul Nat.add] in *. rewrite app_nth1 by auto. reflexivity.
  - assert (L : length l = R) by (apply (H 0); lia). rewrite app_nth2 by (cbn [Nat.mul]; lia). rewrite L.
    replace (S i * R + x - R) with (i * R + x) by (cbn [Nat.mul]; lia). cbn [nth] in *. apply IH; auto.
    + cbn in Hi. lia.
    + intros j Hj. apply (H (S j)). lia.
Qed.
Lemma concat_len {A} (ls : list (list A)) R : 1 <= length ls -> (forall j, S j < length ls -> length (nth j ls []) = R) ->
  length (concat ls) = (length ls - 1) * R + length (nth (length ls - 1) ls []).
Proof.
  induction ls as [|l ls IH]; intros Hl H; [cbn in Hl; lia|]. cbn [concat]. rewrite app_length.
  destruct ls as [|l' ls].
  - cbn. lia.
  - rewrite IH; [|cbn; lia|intros j Hj; apply (H (S j)); cbn in *; lia].
    assert (L : length l = R) by (apply (H 0); cbn; lia). rewrite L.
    replace (length (l :: l' :: ls) - 1) with (S (length (l' :: ls) - 1)) by (cbn; lia).
    cbn [nth Nat.mul]. lia.
Qed.
Lemma all_some_ex {A} (f : nat -> option A) (d : A) n : (forall i, i < n -> exists v, f i = Some v) ->
  exists vs, all_some (map f (seq 0 n)) = Some vs /\ length vs = n /\ forall i, i < n -> f i = Some (nth i vs d).
Proof.
  intros H. set (g := fun i => match f i with Some v => v | None => d end).
  assert (G : forall i, i < n -> f i = Some (g i)) by (intros i Hi; destruct (H i Hi) as [v E]; unfold g; rewrite E; auto).
  exists (map g (seq 0 n)). split; [|split].
  - assert (A0 : forall l, (forall i, In i l -> f i = Some (g i)) -> all_some (map f l) = Some (map g l)).
    { induction l as [|x l IH]; intros Hl; cbn [map all_some]; auto. rewrite Hl by (left; auto). rewrite IH; auto. intros; apply Hl; right; auto. }
    apply A0. intros i Hi. apply in_seq in Hi. apply G. lia.
  - rewrite map_length, seq_length. auto.
  - intros i Hi. rewrite nth_map_seq by auto. auto.
Qed.

(** ** One batch *)
(** The two objects after the set-up, whatever has been done since: the sender has all
    leaves but one of each tree, the first one moved to the place of the missing one. *)
Record linked (k : nat) (delta : N) (so : send_obj) (ro : recv_obj) : Prop := {
  lk_leaves : length (ro_leaves ro) = (pprf_num k - 1) * 2 ^ k + 2 ^ k_limit k (pprf_num k - 1);
  lk_compress : length (so_compress so) = (pprf_num k - 1) * (2 ^ k - 1) + (2 ^ k_limit k (pprf_num k - 1) - 1);
  lk_idx : forall i, i < pprf_num k -> nth i (so_idx so) 0 < 2 ^ k_limit k i;
  lk_bits : forall i j, i < pprf_num k -> j < k_limit k i -> Nat.testbit (nth i (so_idx so) 0) j = N.testbit delta (N.of_nat (i * k + j));
  lk_mask : forall c, c < 128 -> nth c (so_mask so) false = N.testbit delta (N.of_nat c);
  lk_moved : forall i j, i < pprf_num k -> S j < 2 ^ k_limit k i ->
    nth (i * (2 ^ k - 1) + j) (so_compress so) 0%N =
    nth (i * 2 ^ k + (if S j =? nth i (so_idx so) 0 then 0 else S j)) (ro_leaves ro) 0%N;
  lk_delta : so_delta so = delta;
  lk_counter : so_counter so = ro_counter ro }.

Section Gen.
Variable crhash : N -> N.
(** The memory both parties would fill with all leaves. *)
Definition hm (leaves : list N) (ctr : N) : mem := fun p => if p <? length leaves then crhash (N.lxor (nth p leaves 0%N) ctr) else 0%N.
Definition tot k leaves ctr i : N := xs (fun x => hm leaves ctr (i * 2 ^ k + x)) (2 ^ k).
Definition wcol k leaves ctr c : N := xs (pick (hm leaves ctr) (c / k * 2 ^ k) (c mod k)) (2 ^ k).
Definition put0 (compact : bool) (v : N) (l : list N) : list N := if compact then v :: tl l else l.

Lemma in_tree num k i x : i < num -> x < 2 ^ k -> i * 2 ^ k + x < num * 2 ^ k.
Proof. intros H Hx. assert (S i * 2 ^ k <= num * 2 ^ k) by (apply Nat.mul_le_mono_r; lia). cbn [Nat.mul] in *. lia. Qed.

Lemma gen_recv_spec k compact leaves ctr choice xb : 1 <= k -> tail0 (length leaves) xb ->
  exists xb', gen_recv crhash k compact leaves ctr choice xb =
    (map (fun i => N.lxor choice (tot k leaves ctr i)) (seq 0 (pprf_num k)),
     put0 compact choice (map (wcol k leaves ctr) (seq 0 128)), xb') /\ tail0 (length leaves) xb'.
Proof.
  intros Hk T. unfold gen_recv. cbn zeta.
  set (m := fun p => if p <? length leaves then crhash (N.lxor (nth p leaves 0%N) ctr) else xb p).
  assert (M : forall p, m p = hm leaves ctr p).
  { intros p. unfold m, hm. destruct (Nat.ltb_spec p (length leaves)); auto. }
  set (xb' := xor_reduce (pprf_num k * 2 ^ k) k m). exists xb'. split.
  - f_equal; f_equal.
    + apply map_ext_in. intros i Hi. apply in_seq in Hi. f_equal. unfold xb'.
      rewrite (proj1 (reduce_tree (pprf_num k) k m i ltac:(lia))). apply xs_ext. intros; apply M.
    + rewrite (tree_map_all k Hk (fun i j => xb' (i * 2 ^ k + 1 + j))). unfold put0.
      replace (map (fun c => xb' (c / k * 2 ^ k + 1 + c mod k)) (seq 0 128)) with (map (wcol k leaves ctr) (seq 0 128)); [destruct compact; reflexivity|].
      apply map_ext_in. intros c Hc. apply in_seq in Hc. destruct (col_tree k Hk c ltac:(lia)) as (C1 & C2 & _).
      pose proof (k_limit_pos k Hk (c / k) C1). unfold xb'.
      rewrite (proj2 (reduce_tree (pprf_num k) k m (c / k) C1) (c mod k)) by lia.
      apply xs_ext. intros x Hx. unfold pick. rewrite M. reflexivity.
  - unfold xb'. apply reduce_tail. intros p Hp. rewrite M. unfold hm. rewrite (proj2 (Nat.ltb_ge p (length leaves))) by auto. reflexivity.
Qed.

Lemma writes (g : nat -> N) xo J m x :
  fold_left (fun m j => upd m (xo + 1 + j) (g j)) (seq 0 J) m x = if (xo + 1 <=? x) && (x <? xo + 1 + J) then g (x - xo - 1) else m x.
Proof.
  induction J as [|J IH].
  - cbn [seq fold_left]. destruct (Nat.leb_spec (xo + 1) x), (Nat.ltb_spec x (xo + 1 + 0)); cbn [andb]; auto; lia.
  - rewrite seq_S, fold_left_app. cbn [fold_left Nat.add]. unfold upd at 1. rewrite IH.
    destruct (Nat.eqb_spec x (xo + 1 + J)) as [E|D].
    + rewrite E. destruct (Nat.leb_spec (xo + 1) (xo + 1 + J)), (Nat.ltb_spec (xo + 1 + J) (xo + 1 + S J)); cbn [andb]; try lia. f_equal. lia.
    + destruct (Nat.leb_spec (xo + 1) x), (Nat.ltb_spec x (xo + 1 + J)), (Nat.ltb_spec x (xo + 1 + S J)); cbn [andb]; auto; lia.
Qed.
(** Tree i after step 3: the other trees are not touched. *)
Lemma place_tree_spec k hash idx m i p J : Nat.min (2 ^ k - 1) (length hash - i * (2 ^ k - 1)) = J -> nth i idx 0 <= J ->
  place_tree k hash idx m i p =
  if (i * 2 ^ k <=? p) && (p <=? i * 2 ^ k + J) then
    (if p - i * 2 ^ k =? nth i idx 0 then 0%N
     else nth (i * (2 ^ k - 1) + ((if p - i * 2 ^ k =? 0 then nth i idx 0 else p - i * 2 ^ k) - 1)) hash 0%N)
  else m p.
Proof.
  intros EJ Ha. unfold place_tree. cbn zeta. rewrite EJ. set (xo := i * 2 ^ k). set (al := nth i idx 0) in *.
  set (ho := i * (2 ^ k - 1)). 
  set (W := fold_left _ _ m). pose proof (writes (fun j => nth (ho + j) hash 0%N) xo J m) as HW. cbn beta in HW. fold W in HW. clearbody W.
  unfold upd. rewrite !HW.
  destruct (Nat.eqb_spec p (xo + al)) as [E|D].
  - rewrite Nat.eqb_refl. destruct (Nat.leb_spec xo p), (Nat.leb_spec p (xo + J)); cbn [andb]; try lia.
    rewrite (proj2 (Nat.eqb_eq (p - xo) al)) by lia. reflexivity.
  - destruct (Nat.eqb_spec p xo) as [E0|D0].
    + destruct (Nat.eqb_spec (xo + al) xo); [lia|].
      destruct (Nat.leb_spec xo p), (Nat.leb_spec p (xo + J)); cbn [andb]; try lia.
      rewrite (proj2 (Nat.eqb_neq (p - xo) al)) by lia. rewrite (proj2 (Nat.eqb_eq (p - xo) 0)) by lia.
      destruct (Nat.leb_spec (xo + 1) (xo + al)), (Nat.ltb_spec (xo + al) (xo + 1 + J)); cbn [andb]; try lia. f_equal. lia.
    + destruct (Nat.leb_spec (xo + 1) p), (Nat.ltb_spec p (xo + 1 + J)), (Nat.leb_spec xo p), (Nat.leb_spec p (xo + J)); cbn [andb]; try lia; auto.
      rewrite (proj2 (Nat.eqb_neq (p - xo) al)), (proj2 (Nat.eqb_neq (p - xo) 0)) by lia. reflexivity.
Qed.

Section Linked.
Variables (k : nat) (delta : N) (so : send_obj) (ro : recv_obj) (ctr : N).
Hypothesis Hk : 1 <= k.
Hypothesis LK : linked k delta so ro.
Let num := pprf_num k.
Let leaves := ro_leaves ro.
Let hash := map (fun l => crhash (N.lxor l ctr)) (so_compress so).
Let al i := nth i (so_idx so) 0.
Lemma tree_full i : i < num -> 2 ^ k_limit k i = 2 ^ k \/ (i = num - 1 /\ 2 ^ k_limit k i <= 2 ^ k).
Proof.
  intros Hi. destruct (Nat.eq_dec (S i) num).
  - right. split; [lia|]. apply Nat.pow_le_mono_r; [lia|]. apply (k_limit_pos k Hk i Hi).
  - left. rewrite k_limit_full by (auto; unfold num in *; lia). reflexivity.
Qed.
Lemma leaves_in i x : i < num -> x < 2 ^ k -> (i * 2 ^ k + x < length leaves <-> x < 2 ^ k_limit k i).
Proof.
  intros Hi Hx. unfold leaves. rewrite (lk_leaves _ _ _ _ LK). fold num.
  destruct (tree_full i Hi) as [E|[-> E]]; [|lia].
  destruct (Nat.eq_dec i (num - 1)) as [->|D]; [rewrite E; lia|].
  assert (S i * 2 ^ k <= (num - 1) * 2 ^ k) by (apply Nat.mul_le_mono_r; lia). cbn [Nat.mul] in *. lia.
Qed.
Lemma hash_len i : i < num -> Nat.min (2 ^ k - 1) (length hash - i * (2 ^ k - 1)) = 2 ^ k_limit k i - 1.
Proof.
  intros Hi. unfold hash. rewrite map_length, (lk_compress _ _ _ _ LK). fold num.
  assert (P : 1 <= 2 ^ k) by (apply Nat.neq_0_lt_0, Nat.pow_nonzero; lia).
  destruct (tree_full i Hi) as [E|[-> E]]; [|lia].
  destruct (Nat.eq_dec i (num - 1)) as [->|D]; [rewrite E; lia|].
  assert (S i * (2 ^ k - 1) <= (num - 1) * (2 ^ k - 1)) by (apply Nat.mul_le_mono_r; lia). cbn [Nat.mul] in *. lia.
Qed.
Lemma place_one m i i' x : i < num -> i' < num -> x < 2 ^ k ->
  place_tree k hash (so_idx so) m i (i' * 2 ^ k + x) =
  if i' =? i then (if x =? al i then 0%N else if x <? 2 ^ k_limit k i then hm leaves ctr (i * 2 ^ k + x) else m (i * 2 ^ k + x))
  else m (i' * 2 ^ k + x).
Proof.
  intros Hi Hi' Hx. assert (P : 1 <= 2 ^ k_limit k i) by (apply Nat.neq_0_lt_0, Nat.pow_nonzero; lia).
  pose proof (lk_idx _ _ _ _ LK i Hi) as Ha. fold (al i) in Ha.
  rewrite (place_tree_spec k hash (so_idx so) m i _ (2 ^ k_limit k i - 1) (hash_len i Hi)) by (fold (al i); lia).
  assert (LE : 2 ^ k_limit k i <= 2 ^ k) by (apply Nat.pow_le_mono_r; [lia|]; apply (k_limit_pos k Hk i Hi)).
  destruct (Nat.eqb_spec i' i) as [->|D].
  - replace (i * 2 ^ k + x - i * 2 ^ k) with x by lia. fold (al i).
    destruct (Nat.leb_spec (i * 2 ^ k) (i * 2 ^ k + x)), (Nat.leb_spec (i * 2 ^ k + x) (i * 2 ^ k + (2 ^ k_limit k i - 1))); cbn [andb]; try lia.
    + destruct (Nat.eqb_spec x (al i)) as [->|Dx]; auto.
      rewrite (proj2 (Nat.ltb_lt x _)) by lia. unfold hm. rewrite (proj2 (Nat.ltb_lt (i * 2 ^ k + x) (length leaves))) by (apply leaves_in; auto; lia).
      set (y := (if x =? 0 then al i else x) - 1).
      assert (Y : S y = if x =? 0 then al i else x) by (unfold y; destruct (Nat.eqb_spec x 0); lia).
      assert (Y2 : S y < 2 ^ k_limit k i) by (rewrite Y; destruct (Nat.eqb_spec x 0); lia).
      pose proof (lk_moved _ _ _ _ LK i y Hi Y2) as MV. fold (al i) leaves in MV.
      assert (LC : i * (2 ^ k - 1) + y < length (so_compress so)).
      { rewrite (lk_compress _ _ _ _ LK). fold num. destruct (tree_full i Hi) as [E|[-> E]]; [|lia].
        destruct (Nat.eq_dec i (num - 1)) as [->|D']; [lia|].
        assert (S i * (2 ^ k - 1) <= (num - 1) * (2 ^ k - 1)) by (apply Nat.mul_le_mono_r; lia). cbn [Nat.mul] in *. lia. }
      unfold hash. rewrite (nth_indep _ 0%N (crhash (N.lxor 0 ctr))) by (rewrite map_length; auto).
      rewrite (map_nth (fun l => crhash (N.lxor l ctr))). rewrite MV. f_equal. f_equal. f_equal.
      rewrite Y. destruct (Nat.eqb_spec x 0) as [->|]; [rewrite Nat.eqb_refl; reflexivity|].
      rewrite (proj2 (Nat.eqb_neq x (al i))) by auto. reflexivity.
    + destruct (Nat.eqb_spec x (al i)); [lia|]. rewrite (proj2 (Nat.ltb_ge x _)) by lia. reflexivity.
  - assert (i' * 2 ^ k + 2 ^ k <= i * 2 ^ k \/ i * 2 ^ k + 2 ^ k <= i' * 2 ^ k) as O.
    { destruct (Nat.lt_ge_cases i' i).
      - left. replace (i' * 2 ^ k + 2 ^ k) with (S i' * 2 ^ k) by (cbn [Nat.mul]; lia). apply Nat.mul_le_mono_r. lia.
      - right. replace (i * 2 ^ k + 2 ^ k) with (S i * 2 ^ k) by (cbn [Nat.mul]; lia). apply Nat.mul_le_mono_r. lia. }
    destruct (Nat.leb_spec (i * 2 ^ k) (i' * 2 ^ k + x)), (Nat.leb_spec (i' * 2 ^ k + x) (i * 2 ^ k + (2 ^ k_limit k i - 1))); cbn [andb]; auto; lia.
Qed.
Lemma place_all m : tail0 (length leaves) m -> forall n, n <= num -> forall i x, i < num -> x < 2 ^ k ->
  fold_left (place_tree k hash (so_idx so)) (seq 0 n) m (i * 2 ^ k + x) =
  if i <? n then (if x =? al i then 0%N else hm leaves ctr (i * 2 ^ k + x)) else m (i * 2 ^ k + x).
Proof.
  intros T. induction n as [|n IH]; intros Hn i x Hi Hx; [reflexivity|].
  rewrite seq_S, fold_left_app. cbn [fold_left Nat.add]. rewrite place_one by (auto; lia).
  destruct (Nat.eqb_spec i n) as [->|D].
  - rewrite (proj2 (Nat.ltb_lt n (S n))) by lia. destruct (Nat.eqb_spec x (al n)) as [|Dx]; auto.
    destruct (Nat.ltb_spec x (2 ^ k_limit k n)) as [|Ge]; auto. rewrite IH by (auto; lia). rewrite Nat.ltb_irrefl.
    assert (G : length leaves <= n * 2 ^ k + x) by (pose proof (leaves_in n x ltac:(lia) Hx); lia).
    rewrite T by auto. unfold hm. rewrite (proj2 (Nat.ltb_ge _ _)) by auto. reflexivity.
  - rewrite IH by (auto; lia). destruct (Nat.ltb_spec i n), (Nat.ltb_spec i (S n)); auto; lia.
Qed.
Lemma place_tail m n : n <= num -> tail0 (length leaves) m -> tail0 (length leaves) (fold_left (place_tree k hash (so_idx so)) (seq 0 n) m).
Proof.
  induction n as [|n IH]; intros Hn T; auto. rewrite seq_S, fold_left_app. cbn [fold_left Nat.add]. specialize (IH ltac:(lia) T).
  intros p Hp. assert (P : 1 <= 2 ^ k_limit k n) by (apply Nat.neq_0_lt_0, Nat.pow_nonzero; lia).
  pose proof (lk_idx _ _ _ _ LK n ltac:(lia)) as Ha. fold (al n) in Ha.
  rewrite (place_tree_spec k hash (so_idx so) _ n p (2 ^ k_limit k n - 1) (hash_len n ltac:(lia))) by (fold (al n); lia).
  assert (LE : 2 ^ k_limit k n <= 2 ^ k) by (apply Nat.pow_le_mono_r; [lia|]; apply (k_limit_pos k Hk n); lia).
  pose proof (proj2 (leaves_in n (2 ^ k_limit k n - 1) ltac:(lia) ltac:(lia)) ltac:(lia)).
  destruct (Nat.leb_spec (n * 2 ^ k) p), (Nat.leb_spec p (n * 2 ^ k + (2 ^ k_limit k n - 1))); cbn [andb]; auto; lia.
Qed.

(** What the sender gets for any received u. *)
Lemma gen_send_spec compact u xb : tail0 (length leaves) xb ->
  exists xb', gen_send crhash k compact so ctr u xb =
    (put0 compact 0%N (map (fun c => N.lxor (wcol k leaves ctr c)
        (if N.testbit delta (N.of_nat c) then N.lxor (nth (c / k) u 0%N) (tot k leaves ctr (c / k)) else 0%N)) (seq 0 128)), xb') /\
    tail0 (length leaves) xb'.
Proof.
  intros T. unfold gen_send. cbn zeta. fold hash num. set (m := fold_left (place_tree k hash (so_idx so)) (seq 0 num) xb).
  set (xb' := xor_reduce (num * 2 ^ k) k m). exists xb'. split.
  2: { unfold xb'. apply reduce_tail. apply place_tail; auto. }
  assert (Hm : forall i x, i < num -> x < 2 ^ k -> m (i * 2 ^ k + x) = if x =? al i then 0%N else hm leaves ctr (i * 2 ^ k + x)).
  { intros i x Hi Hx. unfold m. rewrite (place_all xb T num (le_n _)) by auto. rewrite (proj2 (Nat.ltb_lt i num)) by auto. reflexivity. }
  assert (Hal : forall i, i < num -> al i < 2 ^ k).
  { intros i Hi. pose proof (lk_idx _ _ _ _ LK i Hi). fold (al i) in *. pose proof (k_limit_pos k Hk i Hi).
    assert (2 ^ k_limit k i <= 2 ^ k) by (apply Nat.pow_le_mono_r; lia). lia. }
  assert (E0 : forall i, i < num -> xb' (i * 2 ^ k) = N.lxor (tot k leaves ctr i) (hm leaves ctr (i * 2 ^ k + al i))).
  { intros i Hi. unfold xb'. rewrite (proj1 (reduce_tree num k m i Hi)).
    rewrite (xs_change _ (fun x => hm leaves ctr (i * 2 ^ k + x)) _ (al i)); auto.
    - fold (tot k leaves ctr i). rewrite Hm by auto. rewrite Nat.eqb_refl, N.lxor_0_l. reflexivity.
    - intros x Hx D. rewrite Hm by auto. rewrite (proj2 (Nat.eqb_neq _ _)) by auto. reflexivity. }
  assert (EJ : forall c, c < 128 -> xb' (c / k * 2 ^ k + 1 + c mod k) =
     N.lxor (wcol k leaves ctr c) (if N.testbit delta (N.of_nat c) then hm leaves ctr (c / k * 2 ^ k + al (c / k)) else 0%N)).
  { intros c Hc. destruct (col_tree k Hk c Hc) as (C1 & C2 & C3). pose proof (k_limit_pos k Hk (c / k) C1). unfold xb'.
    rewrite (proj2 (reduce_tree num k m (c / k) C1) (c mod k)) by lia.
    pose proof (lk_bits _ _ _ _ LK (c / k) (c mod k) C1 C2) as B. rewrite <- C3 in B. fold (al (c / k)) in B.
    rewrite (xs_change _ (pick (hm leaves ctr) (c / k * 2 ^ k) (c mod k)) _ (al (c / k))); auto.
    - fold (wcol k leaves ctr c). unfold pick. rewrite B, Hm by auto. rewrite Nat.eqb_refl.
      destruct (N.testbit delta (N.of_nat c)); rewrite N.lxor_0_l; reflexivity.
    - intros x Hx D. unfold pick. destruct (Nat.testbit x (c mod k)); auto. rewrite Hm by auto. rewrite (proj2 (Nat.eqb_neq _ _)) by auto. reflexivity. }
  f_equal. change num with (pprf_num k).
  rewrite (tree_map_all k Hk (fun i j => N.lxor (xb' (i * 2 ^ k + 1 + j))
     (if nth (i * k + j) (so_mask so) false then N.lxor (nth i u 0%N) (xb' (i * 2 ^ k)) else 0%N))).
  unfold put0. match goal with |- (if compact then _ :: tl ?a else _) = (if compact then _ :: tl ?b else _) => replace a with b; [destruct compact; reflexivity|] end.
  apply map_ext_in. intros c Hc. apply in_seq in Hc. destruct (col_tree k Hk c ltac:(lia)) as (C1 & C2 & C3).
  rewrite <- C3, (lk_mask _ _ _ _ LK) by lia. rewrite EJ by lia. rewrite E0 by auto. rewrite N.lxor_assoc. f_equal.
  destruct (N.testbit delta (N.of_nat c)); auto.
  set (h := hm leaves ctr _). set (a := nth (c / k) u 0%N). set (b := tot k leaves ctr (c / k)).
  rewrite (N.lxor_comm h), !N.lxor_assoc, N.lxor_nilpotent, N.lxor_0_r. reflexivity.
Qed.
End Linked.
End Gen.
