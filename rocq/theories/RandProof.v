(** Lemmas about the random helpers and the replayable shuffle. *)
From Coq Require Import ZArith NArith List Bool Arith Lia Permutation.
From Verif Require Import LinCodeModel PrgModel PrgProof BitsetModel BitsetProof BitsetProof2 BitsetProof3 RandModel.
Import ListNotations.
Open Scope nat_scope.

(** ** Bytes and bits *)
Lemma testbit_land w j : negb (N.land w (N.shiftl 1 (N.of_nat j)) =? 0)%N = N.testbit w (N.of_nat j).
Proof.
  assert (T : forall k, N.testbit (N.land w (N.shiftl 1 (N.of_nat j))) k = (N.testbit w k && (N.of_nat j =? k)%N)).
  { intros k. rewrite N.land_spec, N.shiftl_1_l, N.pow2_bits_eqb. reflexivity. }
  destruct (N.eqb_spec (N.land w (N.shiftl 1 (N.of_nat j))) 0) as [E|E]; cbn [negb].
  - specialize (T (N.of_nat j)). rewrite E, N.bits_0, N.eqb_refl, andb_true_r in T. exact T.
  - destruct (N.testbit w (N.of_nat j)) eqn:B; [reflexivity|]. contradiction E. apply N.bits_inj. intros k. rewrite T, N.bits_0.
    destruct (N.eqb_spec (N.of_nat j) k) as [<-|]; [rewrite B; reflexivity|apply andb_false_r].
Qed.
Lemma skipn_le_bytes a b v : skipn a (le_bytes (a + b) v) = le_bytes b (v / 2 ^ (8 * N.of_nat a))%N.
Proof. rewrite le_bytes_app, skipn_app, skipn_all2 by (rewrite le_bytes_length; lia). rewrite le_bytes_length, Nat.sub_diag. reflexivity. Qed.
Lemma firstn_le_bytes a b v : firstn a (le_bytes (a + b) v) = le_bytes a v.
Proof. rewrite le_bytes_app, firstn_app, le_bytes_length, Nat.sub_diag, firstn_all2 by (rewrite le_bytes_length; lia). cbn [firstn]. apply app_nil_r. Qed.
Lemma chunk_le_bytes sz n v i : i < n -> chunk sz (le_bytes (n * sz) v) i = le_bytes sz (v / 2 ^ (8 * N.of_nat (i * sz)))%N.
Proof.
  intros H. unfold chunk. pose proof (Nat.mul_le_mono_r (S i) n sz H). cbn [Nat.mul] in H0.
  replace (n * sz) with (i * sz + (sz + (n * sz - i * sz - sz))) by lia. rewrite skipn_le_bytes. apply firstn_le_bytes.
Qed.
Lemma chunk_bit sz n v i j : i < n -> j < 8 * sz -> N.testbit (le_val (chunk sz (le_bytes (n * sz) v) i)) (N.of_nat j) = N.testbit v (N.of_nat (8 * (i * sz) + j)).
Proof.
  intros H J. rewrite chunk_le_bytes by exact H. rewrite le_val_bytes, N.mod_pow2_bits_low by lia. rewrite N.div_pow2_bits. f_equal. lia.
Qed.
Lemma nth_le_bytes k v : forall i j, i < k -> j < 8 -> N.testbit (nth i (le_bytes k v) 0%N) (N.of_nat j) = N.testbit v (N.of_nat (8 * i + j)).
Proof.
  revert v. induction k as [|k IH]; intros v i j H J; [lia|]. cbn [le_bytes]. change 256%N with (2 ^ 8)%N. destruct i as [|i]; cbn [nth].
  - rewrite N.mod_pow2_bits_low by lia. reflexivity.
  - rewrite IH by lia. rewrite N.div_pow2_bits. f_equal. lia.
Qed.

(** ** Loops *)
Lemma for_each_app {A} (f : nat -> A -> outcome A) l l' m : for_each f (l ++ l') m = bind (for_each f l m) (for_each f l').
Proof. revert m. induction l as [|i l IH]; intros m; cbn [app for_each]; [reflexivity|]. destruct (f i m); cbn [bind]; auto. Qed.
Lemma for_each_map_idx {A} (f : nat -> A -> outcome A) h l m : for_each f (map h l) m = for_each (fun i => f (h i)) l m.
Proof. revert m. induction l as [|i l IH]; intros m; cbn [map for_each]; [reflexivity|]. destruct (f (h i) m); cbn [bind]; auto. Qed.
Lemma for_each_shift {A} (f : nat -> A -> outcome A) a n m : for_each f (seq a n) m = for_each (fun j => f (a + j)) (seq 0 n) m.
Proof.
  rewrite <- (for_each_map_idx f (Nat.add a)). f_equal. induction n as [|n IH]; [reflexivity|]. rewrite !seq_S, map_app, <- IH. reflexivity.
Qed.
(** A loop in strides of w is the loop over all the positions. *)
Lemma strided {A} (f : nat -> nat -> A -> outcome A) len w m : 0 < w ->
  for_each (fun i out => for_each (f i) (seq 0 (Nat.min w (len - i))) out) (strides len w) m =
  for_each (fun p => f (p / w * w) (p mod w)) (seq 0 len) m.
Proof.
  intros W. unfold strides. rewrite for_each_map_idx.
  set (k := (len + w - 1) / w).
  assert (K1 : len <= k * w) by (unfold k; pose proof (Nat.div_mod (len + w - 1) w ltac:(lia)) as D; pose proof (Nat.mod_upper_bound (len + w - 1) w ltac:(lia)); lia).
  assert (K2 : k = 0 \/ (k - 1) * w < len).
  { destruct (Nat.eq_dec k 0); [auto|right]. pose proof (Nat.div_mod (len + w - 1) w ltac:(lia)) as D. fold k in D. rewrite Nat.mul_sub_distr_r. pose proof (Nat.mul_le_mono_r 1 k w ltac:(lia)). lia. }
  assert (G : forall k a m, (a + k) * w >= len -> (k = 0 \/ (a + k - 1) * w < len) ->
    for_each (fun k => (fun i out => for_each (f i) (seq 0 (Nat.min w (len - i))) out) (k * w)) (seq a k) m =
    for_each (fun p => f (p / w * w) (p mod w)) (seq (a * w) (len - a * w)) m).
  { clear K1 K2 k m. induction k as [|k IH]; intros a m H1 H2.
    - replace (len - a * w) with 0 by (rewrite Nat.add_0_r in H1; lia). reflexivity.
    - assert (La : a * w < len) by (destruct H2 as [|H2]; [lia|]; replace (a + S k - 1) with (a + k) in H2 by lia; pose proof (Nat.mul_le_mono_r a (a + k) w ltac:(lia)); lia).
      assert (Es : seq (a * w) (len - a * w) = seq (a * w) (Nat.min w (len - a * w)) ++ seq (S a * w) (len - S a * w)).
      { destruct (Nat.leb_spec w (len - a * w)).
        - replace (len - a * w) with (w + (len - S a * w)) at 1 by (cbn [Nat.mul]; lia). rewrite seq_app. rewrite Nat.min_l by lia. f_equal. f_equal. cbn [Nat.mul]. lia.
        - rewrite Nat.min_r by lia. replace (len - S a * w) with 0 by (cbn [Nat.mul]; lia). cbn [seq]. rewrite app_nil_r. reflexivity. }
      cbn [seq for_each]. rewrite Es, for_each_app. rewrite (for_each_shift _ (a * w)).
      rewrite (for_each_ext (fun j => f ((a * w + j) / w * w) ((a * w + j) mod w)) (f (a * w)) (seq 0 (Nat.min w (len - a * w)))).
      + destruct (for_each (f (a * w)) (seq 0 (Nat.min w (len - a * w))) m) as [m'| | |]; cbn [bind]; [|reflexivity..]. apply IH; [replace (S a + k) with (a + S k) by lia; lia|].
        destruct k; [left; reflexivity|right]. destruct H2 as [|H2]; [lia|]. replace (S a + S k - 1) with (a + S (S k) - 1) by lia. exact H2.
      + intros i m' I. apply in_seq in I. rewrite (Nat.add_comm (a * w)), Nat.div_add, Nat.mod_add by lia. rewrite Nat.div_small, Nat.mod_small by lia. reflexivity. }
  rewrite (G k 0 m); [cbn [Nat.mul]; rewrite Nat.sub_0_r; reflexivity|cbn [Nat.add]; lia|cbn [Nat.add]; exact K2].
Qed.
Lemma set_at_ok l i b : i < length l -> exists l', set_at l i b = Val l' /\ length l' = length l /\ forall j, nth j l' false = if j =? i then b else nth j l false.
Proof.
  intros H. unfold set_at. destruct (Nat.ltb_spec i (length l)); [|lia]. eexists. split; [reflexivity|].
  assert (L : length (firstn i l) = i) by (rewrite firstn_length; lia). split.
  - rewrite app_length, L. cbn [length]. rewrite skipn_length. lia.
  - intros j. rewrite <- (firstn_skipn i l) at 3. destruct (Nat.eqb_spec j i) as [->|N].
    + rewrite app_nth2, L, Nat.sub_diag by lia. reflexivity.
    + destruct (Nat.ltb_spec j i); [rewrite !app_nth1 by lia; reflexivity|]. rewrite !app_nth2, L by lia. replace (j - i) with (S (j - S i)) by lia. cbn [nth].
      destruct (skipn i l) as [|x t] eqn:E; [apply (f_equal (@length _)) in E; rewrite skipn_length in E; cbn in E; lia|].
      assert (Et : skipn (S i) l = t). { clear -E. revert l E. induction i as [|i IH]; intros [|y l] E; cbn [skipn] in *; try discriminate; [injection E; auto|]. apply IH. exact E. }
      rewrite Et. reflexivity.
Qed.

(** ** Swaps *)
Section Swap.
Context {A : Type}.
Implicit Types l m : list A.
Notation swp := (@RandModel.swap A).
Definition put l i (x : A) : list A := firstn i l ++ x :: skipn (S i) l.
Lemma put_length l i x : i < length l -> length (put l i x) = length l.
Proof. intros H. unfold put. rewrite app_length, firstn_length. cbn [length]. rewrite skipn_length. lia. Qed.
Lemma put_nth l i x j : i < length l -> nth_error (put l i x) j = if j =? i then Some x else nth_error l j.
Proof.
  unfold put. revert i j. induction l as [|y l IH]; intros i j H; cbn [length] in H; [lia|]. destruct i as [|i]; cbn [firstn skipn app].
  - destruct j; reflexivity.
  - destruct j as [|j]; cbn [nth_error Nat.eqb]; [reflexivity|]. apply IH. lia.
Qed.
Lemma swap_ok l i j : i < length l -> j < length l ->
  exists m, swp l i j = Val m /\ length m = length l /\
    forall k, nth_error m k = if k =? j then nth_error l i else if k =? i then nth_error l j else nth_error l k.
Proof.
  intros Hi Hj. unfold RandModel.swap. destruct (nth_error l i) as [x|] eqn:Ei; [|apply nth_error_None in Ei; lia]. destruct (nth_error l j) as [y|] eqn:Ej; [|apply nth_error_None in Ej; lia].
  change (firstn i l ++ y :: skipn (S i) l) with (put l i y). change (firstn j (put l i y) ++ x :: skipn (S j) (put l i y)) with (put (put l i y) j x).
  exists (put (put l i y) j x). split; [reflexivity|]. split; [rewrite !put_length; rewrite ?put_length; auto|]. intros k. rewrite put_nth by (rewrite put_length; auto). destruct (k =? j); [reflexivity|]. apply put_nth. auto.
Qed.
Lemma swap_perm l i j m : swp l i j = Val m -> Permutation l m.
Proof.
  intros E. assert (Hi : i < length l /\ j < length l).
  { unfold RandModel.swap in E. destruct (nth_error l i) eqn:Ei; [|discriminate]. destruct (nth_error l j) eqn:Ej; [|discriminate]. split; apply nth_error_Some; congruence. }
  destruct (swap_ok l i j) as (m' & E' & L & N); [tauto..|]. rewrite E' in E. injection E as ->.
  apply Permutation_nth_error. split; [symmetry; exact L|]. exists (fun k => if k =? j then i else if k =? i then j else k). split.
  - intros a b. destruct (Nat.eqb_spec a j), (Nat.eqb_spec a i), (Nat.eqb_spec b j), (Nat.eqb_spec b i); intros; subst; congruence.
  - intros k. rewrite N. destruct (k =? j); [reflexivity|]. destruct (k =? i); reflexivity.
Qed.
(** The loop of the shuffle, with the indices as a function of i. *)
Fixpoint swaps (ind : nat -> nat) (j : nat) l : outcome (list A) :=
  match j with O => Val l | S j' => bind (swp l j (ind j)) (swaps ind j') end.
Lemma knuth_swaps ind l : length ind = length l - 1 -> knuth ind l = swaps (fun i => N.to_nat (nth (i - 1) ind 0%N)) (length l - 1) l.
Proof.
  intros H. unfold knuth. assert (G : forall j m, j <= length ind ->
    for_each (fun i m => bind (rd ind (i - 1)) (fun k => swp m i (N.to_nat k))) (rev (seq 1 j)) m = swaps (fun i => N.to_nat (nth (i - 1) ind 0%N)) j m).
  { induction j as [|j IH]; intros m Hj; [reflexivity|]. rewrite seq_S, rev_app_distr. cbn [rev app for_each swaps]. unfold rd at 1.
    rewrite (nth_error_nth' ind 0%N) by lia. cbn [bind]. replace (1 + j) with (S j) by lia. destruct (swp m (S j) _); cbn [bind]; auto. apply IH. lia. }
  rewrite G by lia. reflexivity.
Qed.
Lemma swaps_ok ind j : forall l, j < length l -> (forall i, 1 <= i <= j -> ind i <= i) ->
  exists m, swaps ind j l = Val m /\ Permutation l m /\ forall k, j < k -> nth_error m k = nth_error l k.
Proof.
  induction j as [|j IH]; intros l H Hi; cbn [swaps]; [exists l; auto|].
  pose proof (Hi (S j) ltac:(lia)) as Hk. destruct (swap_ok l (S j) (ind (S j))) as (m & E & L & N); [lia..|]. rewrite E. cbn [bind].
  destruct (IH m ltac:(lia)) as (m' & E' & P & T); [intros; apply Hi; lia|]. exists m'. split; [exact E'|]. split; [eapply Permutation_trans; [eapply swap_perm; exact E|exact P]|].
  intros k K. rewrite T, N by lia. destruct (Nat.eqb_spec k (ind (S j))), (Nat.eqb_spec k (S j)); try lia. reflexivity.
Qed.
Lemma nodup_nth_error l i j x : NoDup l -> nth_error l i = Some x -> nth_error l j = Some x -> i = j.
Proof. intros D Hi Hj. apply (proj1 (NoDup_nth_error l) D); [apply nth_error_Some; congruence|congruence]. Qed.
Lemma swaps_inj ind ind' j : forall l, NoDup l -> j < length l -> (forall i, 1 <= i <= j -> ind i <= i) -> (forall i, 1 <= i <= j -> ind' i <= i) ->
  swaps ind j l = swaps ind' j l -> forall i, 1 <= i <= j -> ind i = ind' i.
Proof.
  induction j as [|j IH]; intros l D H Hi Hi' E i Ii; [lia|].
  pose proof (Hi (S j) ltac:(lia)) as Hk. pose proof (Hi' (S j) ltac:(lia)) as Hk'. cbn [swaps] in E.
  destruct (swap_ok l (S j) (ind (S j))) as (m & Em & L & N); [lia..|]. destruct (swap_ok l (S j) (ind' (S j))) as (m' & Em' & L' & N'); [lia..|].
  rewrite Em, Em' in E. cbn [bind] in E.
  destruct (swaps_ok ind j m) as (r & Er & Pr & Tr); [lia|intros; apply Hi; lia|]. destruct (swaps_ok ind' j m') as (r' & Er' & Pr' & Tr'); [lia|intros; apply Hi'; lia|].
  assert (r = r') by congruence. subst r'.
  assert (S1 : nth_error l (ind (S j)) = nth_error l (ind' (S j))).
  { specialize (Tr (S j) ltac:(lia)). specialize (Tr' (S j) ltac:(lia)). rewrite N in Tr. rewrite N' in Tr'. rewrite Nat.eqb_refl in Tr, Tr'.
    assert (X : forall q, (if S j =? q then nth_error l (S j) else nth_error l q) = nth_error l q) by (intros q; destruct (Nat.eqb_spec (S j) q) as [->|]; reflexivity).
    rewrite X in Tr, Tr'. congruence. }
  destruct (nth_error l (ind (S j))) as [x|] eqn:Ex; [|apply nth_error_None in Ex; lia]. assert (Ek : ind (S j) = ind' (S j)) by (eapply nodup_nth_error; eauto).
  destruct (Nat.eq_dec i (S j)) as [->|]; [exact Ek|]. apply (IH m); [eapply Permutation_NoDup; [eapply swap_perm; exact Em|exact D]|lia|intros; apply Hi; lia|intros; apply Hi'; lia| |lia].
  rewrite Ek in Em. assert (m = m') by congruence. subst m'. exact E.
Qed.
Lemma swaps_surj j : forall l l', NoDup l -> j < length l -> Permutation l l' -> (forall k, j < k -> nth_error l' k = nth_error l k) ->
  exists ind, (forall i, 1 <= i <= j -> ind i <= i) /\ swaps ind j l = Val l'.
Proof.
  induction j as [|j IH]; intros l l' D H P T.
  - exists (fun i => i). split; [auto|]. cbn [swaps]. f_equal. destruct l as [|x l]; cbn [length] in H; [lia|]. destruct l' as [|y l'].
    { apply Permutation_sym, Permutation_nil in P. discriminate. }
    assert (l = l'). { revert P T. clear. intros P T. assert (forall k, nth_error l' k = nth_error l k) by (intros k; apply (T (S k)); lia). clear -H. revert l' H. induction l as [|a l IH]; intros [|b l'] H; auto; try (specialize (H 0); discriminate). pose proof (H 0) as H0. cbn in H0. injection H0 as ->. f_equal. apply IH. intros k. apply (H (S k)). }
    subst l'. f_equal. assert (I : In x (y :: l)) by (eapply Permutation_in; [exact P|left; auto]). destruct I as [->|I]; [reflexivity|]. inversion D. contradiction.
  - assert (L : length l' = length l) by (symmetry; apply Permutation_length; exact P).
    destruct (nth_error l' (S j)) as [x|] eqn:Ex; [|apply nth_error_None in Ex; lia].
    assert (I : In x l) by (eapply Permutation_in; [apply Permutation_sym; exact P|eapply nth_error_In; exact Ex]). apply In_nth_error in I as [k Ek].
    assert (Hk : k <= S j).
    { destruct (Nat.leb_spec k (S j)); auto. assert (k = S j); [|lia]. apply (nodup_nth_error l' k (S j) x); [eapply Permutation_NoDup; eauto|rewrite T by lia; exact Ek|exact Ex]. }
    destruct (swap_ok l (S j) k) as (m & Em & Lm & N); [lia..|]. pose proof (swap_perm _ _ _ _ Em) as Pm.
    destruct (IH m l') as (ind & Hi & E).
    + eapply Permutation_NoDup; eauto.
    + lia.
    + eapply Permutation_trans; [apply Permutation_sym; exact Pm|exact P].
    + intros q Hq. rewrite N. destruct (Nat.eqb_spec q k) as [->|].
      * assert (k = S j) by lia. subst k. rewrite Ex, Ek. reflexivity.
      * destruct (Nat.eqb_spec q (S j)) as [->|]; [congruence|]. apply T. lia.
    + exists (fun i => if i =? S j then k else ind i). split.
      * intros i Ii. destruct (Nat.eqb_spec i (S j)); [lia|]. apply Hi. lia.
      * cbn [swaps]. rewrite Nat.eqb_refl, Em. cbn [bind]. rewrite <- E. assert (Q : forall q m, q <= j -> swaps (fun i => if i =? S j then k else ind i) q m = swaps ind q m); [|apply Q; lia].
        clear. induction q as [|q IH]; intros m H; [reflexivity|]. cbn [swaps]. destruct (Nat.eqb_spec (S q) (S j)); [lia|]. destruct (swp m (S q) (ind (S q))); cbn [bind]; auto. apply IH. lia.
Qed.
End Swap.
Lemma swap_map {A C} (f : A -> C) l i j : RandModel.swap (map f l) i j = bind (RandModel.swap l i j) (fun m => Val (map f m)).
Proof.
  unfold RandModel.swap. rewrite !nth_error_map. destruct (nth_error l i) as [x|]; [|reflexivity]. destruct (nth_error l j) as [y|]; [|reflexivity]. cbn [option_map bind]. f_equal.
  rewrite !map_app. cbn [map]. rewrite <- firstn_map, <- skipn_map, map_app. cbn [map]. rewrite <- firstn_map, <- skipn_map. reflexivity.
Qed.
Lemma knuth_map {A C} (f : A -> C) ind l : knuth ind (map f l) = bind (knuth ind l) (fun m => Val (map f m)).
Proof.
  unfold knuth. rewrite map_length. generalize (rev (seq 1 (length l - 1))) as is. intros is. revert l. induction is as [|i is IH]; intros l; cbn [for_each bind]; [reflexivity|].
  destruct (rd ind (i - 1)); cbn [bind]; [|reflexivity..]. rewrite swap_map. destruct (RandModel.swap l i (N.to_nat a)); cbn [bind]; [|reflexivity..]. apply IH.
Qed.
