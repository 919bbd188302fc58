(** Lemmas for SpcotModel. *)
From Coq Require Import List NArith Bool Arith Lia.
From Verif Require Import SpcotModel.
Import ListNotations.
Open Scope nat_scope.

(** ** Lists *)
Lemma set_nth_length k v l : length (set_nth k v l) = length l.
Proof.
  unfold set_nth. rewrite app_length, firstn_length. pose proof (skipn_length k l) as H.
  destruct (skipn k l); cbn in *; lia.
Qed.
Lemma nth_set_nth k v l j : k < length l -> nth j (set_nth k v l) 0%N = if j =? k then v else nth j l 0%N.
Proof.
  intros Hk. unfold set_nth.
  assert (L : length (firstn k l) = k) by (rewrite firstn_length; lia).
  destruct (skipn k l) as [|x t] eqn:E.
  - pose proof (skipn_length k l) as H. rewrite E in H. cbn in H. lia.
  - destruct (Nat.eqb_spec j k) as [->|N].
    + rewrite app_nth2, L, Nat.sub_diag by lia. reflexivity.
    + assert (F : nth j l 0%N = nth j (firstn k l ++ x :: t) 0%N) by (rewrite <- E, firstn_skipn; auto).
      rewrite F. destruct (Nat.lt_ge_cases j k).
      * rewrite !app_nth1 by lia. auto.
      * rewrite !app_nth2 by lia. rewrite L. destruct (j - k) eqn:D; [lia|]. reflexivity.
Qed.
Lemma overwrite_length out vals : length vals <= length out -> length (overwrite out vals) = length out.
Proof. intros H. unfold overwrite. rewrite app_length, skipn_length. lia. Qed.
Lemma nth_skipn_d {A} (l : list A) k j d : nth j (skipn k l) d = nth (k + j) l d.
Proof. revert l. induction k as [|k IH]; intros l; auto. destruct l; cbn; auto. destruct j; auto. Qed.
Lemma nth_firstn_d {A} (l : list A) k j d : j < k -> nth j (firstn k l) d = nth j l d.
Proof. revert k j. induction l as [|x l IH]; intros [|k] [|j] H; cbn; auto; try lia. apply IH. lia. Qed.
Lemma nth_overwrite out vals j : nth j (overwrite out vals) 0%N = if j <? length vals then nth j vals 0%N else nth j out 0%N.
Proof.
  unfold overwrite. destruct (Nat.ltb_spec j (length vals)).
  - apply app_nth1; auto.
  - rewrite app_nth2 by lia. rewrite nth_skipn_d. f_equal. lia.
Qed.
Lemma nth_map_seq {A} (f : nat -> A) n j d : j < n -> nth j (map f (seq 0 n)) d = f j.
Proof. intros H. rewrite (nth_indep _ d (f 0)) by (rewrite map_length, seq_length; auto). rewrite map_nth, seq_nth by auto. reflexivity. Qed.
Lemma nth_map_d {A} (f : A -> N) l j d : j < length l -> nth j (map f l) 0%N = f (nth j l d).
Proof. intros H. rewrite (nth_indep _ 0%N (f d)) by (rewrite map_length; auto). apply map_nth. Qed.

(** ** Sums *)
Lemma xsum_cons f x l : xsum f (x :: l) = N.lxor (f x) (xsum f l).
Proof. reflexivity. Qed.
Lemma xsum_ext f g l : (forall j, In j l -> f j = g j) -> xsum f l = xsum g l.
Proof.
  induction l as [|x l IH]; intros H; auto. rewrite !xsum_cons, (H x) by (cbn; auto). rewrite IH; auto.
  intros j Hj. apply H. cbn; auto.
Qed.
Lemma filter_notin p l : ~ In p l -> filter (fun j => negb (j =? p)) l = l.
Proof.
  induction l as [|x l IH]; intros H; cbn [filter]; auto. cbn in H.
  destruct (Nat.eqb_spec x p) as [->|]; [tauto|]. cbn [negb]. rewrite IH by tauto. auto.
Qed.
Lemma xsum_split f p l : NoDup l -> In p l ->
  xsum f l = N.lxor (f p) (xsum f (filter (fun j => negb (j =? p)) l)).
Proof.
  induction l as [|x l IH]; intros D H; [contradiction|]. inversion D as [|? ? D1 D2]; subst.
  cbn [filter]. destruct (Nat.eqb_spec x p) as [->|Hx]; cbn [negb].
  - rewrite filter_notin; auto.
  - destruct H as [H|H]; [congruence|]. rewrite !xsum_cons. rewrite IH by auto.
    rewrite <- !N.lxor_assoc. f_equal. apply N.lxor_comm.
Qed.
Lemma filter_ext_seq (f g : nat -> bool) n : (forall j, j < n -> f j = g j) -> filter f (seq 0 n) = filter g (seq 0 n).
Proof. intros H. apply filter_ext_in. intros j Hj. apply in_seq in Hj. apply H. lia. Qed.
Lemma xor_self_l a b : N.lxor a (N.lxor a b) = b.
Proof. rewrite <- N.lxor_assoc, N.lxor_nilpotent. apply N.lxor_0_l. Qed.
Lemma xor_self_r a b : N.lxor (N.lxor a b) b = a.
Proof. rewrite N.lxor_assoc, N.lxor_nilpotent. apply N.lxor_0_r. Qed.

(** ** Bits *)
Lemma bits_nat_app a b : bits_nat (a ++ b) = bits_nat a + 2 ^ length a * bits_nat b.
Proof. induction a as [|x a IH]; cbn [bits_nat app length]; [cbn; lia|]. rewrite IH. cbn [Nat.pow]. lia. Qed.
Lemma bits_nat_lt l : bits_nat l < 2 ^ length l.
Proof. induction l as [|x l IH]; cbn [bits_nat length]; [cbn; lia|]. cbn [Nat.pow]. destruct x; lia. Qed.
Lemma bits_nat_testbit l : forall x, Nat.testbit (bits_nat l) x = nth x l false.
Proof.
  induction l as [|b l IH]; intros [|x]; cbn [bits_nat nth]; try reflexivity.
  - apply Nat.bits_0.
  - rewrite Nat.add_comm. destruct b; [apply Nat.testbit_odd_0|rewrite Nat.add_0_r; apply Nat.testbit_even_0].
  - rewrite <- IH, Nat.add_comm. destruct b; [apply Nat.testbit_odd_succ; lia|rewrite Nat.add_0_r; apply Nat.testbit_even_succ; lia].
Qed.
Lemma firstn_S_snoc {A} (l : list A) k d : k < length l -> firstn (S k) l = firstn k l ++ [nth k l d].
Proof.
  revert k. induction l as [|x l IH]; intros k H; [cbn in H; lia|]. destruct k; [reflexivity|].
  cbn [firstn app nth]. f_equal. apply IH. cbn in H. lia.
Qed.
Definition b2n (b : bool) : nat := if b then 1 else 0.
Lemma punctured_step c i : i < length c ->
  punctured_index c i = bits_nat (firstn i c) + 2 ^ i * b2n (nth i c false).
Proof.
  intros H. unfold punctured_index. rewrite (firstn_S_snoc c i false H), bits_nat_app, firstn_length.
  rewrite Nat.min_l by lia. cbn [bits_nat]. destruct (nth i c false); cbn [b2n]; lia.
Qed.
Lemma inserted_step c i : i < length c ->
  inserted_index c i = bits_nat (firstn i c) + 2 ^ i * b2n (negb (nth i c false)).
Proof.
  intros H. unfold inserted_index. rewrite bits_nat_app, firstn_length.
  rewrite Nat.min_l by lia. cbn [bits_nat]. destruct (nth i c false); cbn [b2n negb]; lia.
Qed.
Lemma prefix_lt c i : i <= length c -> bits_nat (firstn i c) < 2 ^ i.
Proof. intros H. pose proof (bits_nat_lt (firstn i c)) as L. rewrite firstn_length, Nat.min_l in L by lia. exact L. Qed.
Lemma make_bits_length index k : length (make_bits index k) = k.
Proof. unfold make_bits. rewrite map_length, seq_length. auto. Qed.
Lemma testbit_half index i : Nat.testbit (index / 2) i = Nat.testbit index (S i).
Proof. rewrite <- Nat.div2_div. reflexivity. Qed.
Lemma make_bits_val k : forall index, bits_nat (make_bits index k) = index mod 2 ^ k.
Proof.
  unfold make_bits. induction k as [|k IH]; intros index; [reflexivity|].
  cbn [seq map bits_nat]. rewrite <- seq_shift, map_map.
  rewrite (map_ext _ (Nat.testbit (index / 2))) by (intros; symmetry; apply testbit_half).
  rewrite IH. cbn [Nat.pow].
  assert (P : 2 ^ k <> 0) by (apply Nat.pow_nonzero; lia).
  rewrite Nat.mod_mul_r by lia. 
  replace (if Nat.testbit index 0 then 1 else 0) with (index mod 2); [reflexivity|].
  rewrite <- Nat.bit0_mod. reflexivity.
Qed.
Lemma make_bits_firstn index k i : i <= k -> firstn i (make_bits index k) = make_bits index i.
Proof.
  intros H. unfold make_bits. rewrite firstn_map. f_equal.
  replace k with (i + (k - i)) by lia. rewrite seq_app, firstn_app, seq_length.
  replace (i - i) with 0 by lia. cbn [firstn]. rewrite app_nil_r. apply firstn_all2. rewrite seq_length. lia.
Qed.
Lemma log2ceil_spec n : 1 < n -> 2 ^ (log2ceil n - 1) < n <= 2 ^ log2ceil n /\ 0 < log2ceil n.
Proof.
  intros H. unfold log2ceil. destruct (Nat.log2_up_spec n H) as [A B].
  pose proof (Nat.log2_up_pos n H). replace (Nat.log2_up n - 1) with (pred (Nat.log2_up n)) by lia. lia.
Qed.
Lemma pow_lt_level n i : 1 < n -> i < log2ceil n -> 2 ^ i < n.
Proof.
  intros H Hi. destruct (log2ceil_spec n H) as [[A _] _].
  apply Nat.le_lt_trans with (2 ^ (log2ceil n - 1)); auto. apply Nat.pow_le_mono_r; lia.
Qed.

(** ** SGRR *)
Section Sgrr.
Variables e0 e1 : N -> N.
Variable seed : N.
(** The tree: node j of level i. *)
Fixpoint tree (i j : nat) : N :=
  match i with
  | O => seed
  | S i => let s := tree i (j mod 2 ^ i) in N.lxor (if j <? 2 ^ i then e0 s else e1 s) s
  end.

Lemma nth_splits out iter act j : 0 < iter -> j < 2 * iter ->
  nth j (splits e0 e1 out iter act) 0%N =
  let s := nth (j mod iter) out 0%N in N.lxor (if j <? iter then e0 s else e1 s) (if act (j mod iter) then s else 0%N).
Proof. intros Hp H. unfold splits. rewrite nth_map_seq by auto. reflexivity. Qed.
Lemma splits_length out iter act : length (splits e0 e1 out iter act) = 2 * iter.
Proof. unfold splits. rewrite map_length, seq_length. auto. Qed.
Lemma splits_tree out i act j : j < 2 * 2 ^ i -> act (j mod 2 ^ i) = true ->
  nth (j mod 2 ^ i) out 0%N = tree i (j mod 2 ^ i) ->
  nth j (splits e0 e1 out (2 ^ i) act) 0%N = tree (S i) j.
Proof.
  intros H A E. assert (P : 0 < 2 ^ i) by (apply Nat.neq_0_lt_0, Nat.pow_nonzero; lia).
  rewrite nth_splits by auto. cbn zeta. rewrite A, E. reflexivity.
Qed.

Lemma send_levels_spec n t : 1 < n -> forall i out, i + t = log2ceil n -> n <= length out ->
  (forall j, j < 2 ^ i -> j < n -> nth j out 0%N = tree i j) ->
  let '(o, ms) := send_levels e0 e1 n i t out in
  length o = length out /\ length ms = t /\
  (forall j, j < n -> nth j o 0%N = tree (log2ceil n) j) /\
  (forall j, n <= j -> nth j o 0%N = nth j out 0%N) /\
  (forall x, x < t -> nth x ms (0%N, 0%N) =
     (xsum (fun j => tree (S (i + x)) j) (seq 0 (2 ^ (i + x))), xsum (fun j => tree (S (i + x)) (j + 2 ^ (i + x))) (seq 0 (2 ^ (i + x))))).
Proof.
  intros Hn. induction t as [|t IH]; intros i out Hi Hlen Hout; cbn [send_levels].
  - rewrite Nat.add_0_r in Hi. subst i. repeat split; auto; try lia.
    intros j Hj. apply Hout; auto. destruct (log2ceil_spec n Hn) as [[_ B] _]. lia.
  - assert (Lt : 2 ^ i < n) by (apply pow_lt_level; auto; lia).
    assert (P : 0 < 2 ^ i) by (apply Nat.neq_0_lt_0, Nat.pow_nonzero; lia).
    destruct (send_level e0 e1 n i out) as [o m] eqn:E. unfold send_level in E.
    rewrite (Nat.min_l (2 ^ i) n) in E by lia. pose proof (f_equal fst E) as Eo. pose proof (f_equal snd E) as Em. cbn [fst snd] in Eo, Em. clear E.
    assert (Sp : forall j, j < 2 * 2 ^ i -> nth j (splits e0 e1 out (2 ^ i) (fun j => j <? 2 ^ i)) 0%N = tree (S i) j).
    { intros j Hj. assert (M : j mod 2 ^ i < 2 ^ i) by (apply Nat.mod_upper_bound; lia).
      apply splits_tree; auto. apply Nat.ltb_lt; auto. apply Hout; lia. }
    assert (Lf : length (firstn (Nat.min (2 * 2 ^ i) n) (splits e0 e1 out (2 ^ i) (fun j => j <? 2 ^ i))) = Nat.min (2 * 2 ^ i) n).
    { rewrite firstn_length, splits_length. lia. }
    assert (Lo : length o = length out) by (rewrite <- Eo; apply overwrite_length; lia).
    assert (No : forall j, nth j o 0%N = if j <? Nat.min (2 * 2 ^ i) n then tree (S i) j else nth j out 0%N).
    { intros j. rewrite <- Eo, nth_overwrite, Lf. destruct (Nat.ltb_spec j (Nat.min (2 * 2 ^ i) n)); auto.
      rewrite nth_firstn_d by auto. apply Sp. lia. }
    specialize (IH (S i) o). destruct (send_levels e0 e1 n (S i) t o) as [o' ms] eqn:E'.
    destruct IH as (A1 & A2 & A3 & A4 & A5); try lia.
    { intros j Hj Hjn. rewrite No. cbn [Nat.pow] in Hj. destruct (Nat.ltb_spec j (Nat.min (2 * 2 ^ i) n)); auto. lia. }
    split; [lia|]. split; [cbn [length]; lia|]. split; [exact A3|]. split.
    + intros j Hj. rewrite A4, No by auto. destruct (Nat.ltb_spec j (Nat.min (2 * 2 ^ i) n)); auto. lia.
    + intros [|x] Hx; cbn [nth].
      * rewrite <- Em, Nat.add_0_r. f_equal; apply xsum_ext; intros j Hj; apply in_seq in Hj; apply Sp; lia.
      * rewrite A5 by lia. replace (S i + x) with (i + S x) by lia. reflexivity.
Qed.

Section Recv.
Variables (fixed : bool) (n : nat) (choice : list bool).
Hypothesis Hn : 1 < n.
Hypothesis Hc : log2ceil n <= length choice.
Hypothesis Hidx : bits_nat (firstn (log2ceil n) choice) < n.
Notation P i := (bits_nat (firstn i choice)).
Definition want (i : nat) : N :=
  xsum (fun j => tree (S i) (if nth i choice false then j else j + 2 ^ i)) (seq 0 (2 ^ i)).

Lemma prefix_mono i j : i <= j -> j <= length choice -> P i <= P j.
Proof.
  intros H Hj. induction H as [|j H IH]; auto. rewrite (firstn_S_snoc choice j false) by lia. rewrite bits_nat_app. lia.
Qed.

Lemma tree_lo i j : j < 2 ^ i -> tree (S i) j = N.lxor (e0 (tree i j)) (tree i j).
Proof. intros H. cbn [tree]. rewrite Nat.mod_small by auto. rewrite (proj2 (Nat.ltb_lt _ _) H). auto. Qed.
Lemma tree_hi i j : j < 2 ^ i -> tree (S i) (j + 2 ^ i) = N.lxor (e1 (tree i j)) (tree i j).
Proof.
  intros H. cbn [tree].
  assert (M : (j + 2 ^ i) mod 2 ^ i = j).
  { rewrite <- (Nat.mul_1_l (2 ^ i)) at 1. rewrite Nat.mod_add, Nat.mod_small by lia. auto. }
  rewrite M. destruct (Nat.ltb_spec (j + 2 ^ i) (2 ^ i)); [lia|]. auto.
Qed.

Lemma recv_level_spec i msg blk out : i < log2ceil n -> n <= length out ->
  N.lxor (if nth i choice false then fst msg else snd msg) blk = want i ->
  (forall j, j < 2 ^ i -> j <> P i -> nth j out 0%N = tree i j) ->
  let o := recv_level e0 e1 fixed n i choice msg blk out in
  length o = length out /\
  (forall j, j < 2 ^ S i -> j < n -> j <> P (S i) -> nth j o 0%N = tree (S i) j) /\
  nth (P (S i)) o 0%N = 0%N /\
  (forall j, n <= j -> nth j o 0%N = nth j out 0%N).
Proof.
  intros Hi Hlen Hmsg Hout. cbn zeta. unfold recv_level.
  assert (Lt : 2 ^ i < n) by (apply pow_lt_level; auto).
  assert (Pos : 0 < 2 ^ i) by (apply Nat.neq_0_lt_0, Nat.pow_nonzero; lia).
  set (b := nth i choice false) in *.
  set (p := punctured_index choice i). set (q := inserted_index choice i).
  assert (Ep : p = P i + 2 ^ i * b2n b) by (apply punctured_step; lia).
  assert (Eq : q = P i + 2 ^ i * b2n (negb b)) by (apply inserted_step; lia).
  assert (EP : P (S i) = p) by reflexivity.
  assert (Pi : P i < 2 ^ i) by (apply prefix_lt; lia).
  assert (Pn : p < n). { rewrite <- EP. eapply Nat.le_lt_trans; [apply (prefix_mono (S i) (log2ceil n)); lia|auto]. }
  rewrite EP. rewrite (proj2 (Nat.ltb_lt p n) Pn). cbn [negb]. rewrite andb_false_r.
  rewrite Nat.min_l by lia.
  set (act := fun j => (j <? 2 ^ i) && negb (j =? p) && negb (j =? q)).
  assert (Act : forall j, j < 2 ^ i -> act j = negb (j =? P i)).
  { intros j Hj. unfold act. rewrite (proj2 (Nat.ltb_lt _ _) Hj). cbn [andb]. rewrite Ep, Eq.
    destruct b; cbn [b2n negb]; rewrite ?Nat.mul_1_r, ?Nat.mul_0_r, ?Nat.add_0_r.
    - destruct (Nat.eqb_spec j (P i + 2 ^ i)); [lia|]. reflexivity.
    - destruct (Nat.eqb_spec j (P i + 2 ^ i)); [lia|]. cbn [negb]. rewrite andb_true_r. auto. }
  set (sp := splits e0 e1 out (2 ^ i) act).
  assert (Sp : forall j, j < 2 * 2 ^ i -> j mod 2 ^ i <> P i -> nth j sp 0%N = tree (S i) j).
  { intros j Hj Hne. assert (M : j mod 2 ^ i < 2 ^ i) by (apply Nat.mod_upper_bound; lia).
    apply splits_tree; auto. rewrite Act by auto. destruct (Nat.eqb_spec (j mod 2 ^ i) (P i)); auto; contradiction. }
  assert (Modhi : forall j, j < 2 ^ i -> (j + 2 ^ i) mod 2 ^ i = j).
  { intros j Hj. replace (j + 2 ^ i) with (j + 1 * 2 ^ i) by lia. rewrite Nat.mod_add, Nat.mod_small by lia. auto. }
  rewrite Hmsg.
  set (v := if i =? 0 then want i else N.lxor (want i) (xsum (fun j => if b then nth j sp 0%N else nth (j + 2 ^ i) sp 0%N) (filter act (seq 0 (2 ^ i))))).
  assert (Ev : v = tree (S i) q).
  { assert (W : want i = N.lxor (tree (S i) q) (xsum (fun j => tree (S i) (if b then j else j + 2 ^ i)) (filter (fun j => negb (j =? P i)) (seq 0 (2 ^ i))))).
    { unfold want. fold b. rewrite (xsum_split _ (P i)) by (try apply seq_NoDup; apply in_seq; lia).
      f_equal. rewrite Eq. destruct b; cbn [b2n negb]; f_equal; lia. }
    unfold v. destruct (Nat.eqb_spec i 0) as [->|Hne].
    - rewrite W. change (2 ^ 0) with 1 in *. replace (P 0) with 0 by reflexivity. cbn [seq filter Nat.eqb negb xsum fold_right].
      apply N.lxor_0_r.
    - rewrite W. rewrite (filter_ext_seq act (fun j => negb (j =? P i))) by auto.
      rewrite (xsum_ext (fun j => if b then nth j sp 0%N else nth (j + 2 ^ i) sp 0%N) (fun j => tree (S i) (if b then j else j + 2 ^ i))).
      + apply xor_self_r.
      + intros j Hj. apply filter_In in Hj. destruct Hj as [Hj1 Hj2]. apply in_seq in Hj1.
        apply negb_true_iff, Nat.eqb_neq in Hj2.
        destruct b; apply Sp; try lia. rewrite Nat.mod_small by lia. auto. rewrite Modhi by lia. auto. }
  rewrite Ev. clearbody v. clear Ev.
  set (o1 := if i =? 0 then out else overwrite out (firstn (Nat.min (2 * 2 ^ i) n) sp)).
  assert (Lf : length (firstn (Nat.min (2 * 2 ^ i) n) sp) = Nat.min (2 * 2 ^ i) n).
  { unfold sp. rewrite firstn_length, splits_length. lia. }
  assert (L1 : length o1 = length out).
  { unfold o1. destruct (i =? 0); auto. apply overwrite_length. lia. }
  assert (N1 : forall j, j < 2 * 2 ^ i -> j < n -> j <> p -> j <> q -> nth j o1 0%N = tree (S i) j).
  { intros j Hj Hjn Hp Hq. unfold o1. destruct (Nat.eqb_spec i 0) as [E0|Hne].
    - exfalso. rewrite E0 in *. change (2 ^ 0) with 1 in *. replace (P 0) with 0 in * by reflexivity.
      rewrite Ep in Hp. rewrite Eq in Hq. destruct b; cbn [b2n negb] in *; lia.
    - rewrite nth_overwrite, Lf. destruct (Nat.ltb_spec j (Nat.min (2 * 2 ^ i) n)); [|lia].
      rewrite nth_firstn_d by lia. apply Sp; auto. intros C. rewrite Ep in Hp. rewrite Eq in Hq.
      destruct (Nat.lt_ge_cases j (2 ^ i)).
      + rewrite Nat.mod_small in C by auto. destruct b; cbn [b2n negb] in *; lia.
      + replace j with ((j - 2 ^ i) + 2 ^ i) in C by lia. rewrite Modhi in C by lia. destruct b; cbn [b2n negb] in *; lia. }
  assert (N2 : forall j, n <= j -> nth j o1 0%N = nth j out 0%N).
  { intros j Hj. unfold o1. destruct (i =? 0); auto. rewrite nth_overwrite, Lf. destruct (Nat.ltb_spec j (Nat.min (2 * 2 ^ i) n)); auto. lia. }
  assert (Dpq : p <> q) by (rewrite Ep, Eq; destruct b; cbn [b2n negb]; lia).
  clearbody o1. cbn [Nat.pow].
  destruct (Nat.ltb_spec q n).
  - rewrite !set_nth_length. split; auto. split; [|split].
    + intros j Hj Hjn Hp. rewrite nth_set_nth by (rewrite set_nth_length; lia).
      destruct (Nat.eqb_spec j q) as [->|]; auto. rewrite nth_set_nth by lia.
      destruct (Nat.eqb_spec j p); [contradiction|]. apply N1; auto.
    + rewrite nth_set_nth by (rewrite set_nth_length; lia).
      destruct (Nat.eqb_spec p q); [contradiction|]. rewrite nth_set_nth, Nat.eqb_refl by lia. auto.
    + intros j Hj. rewrite nth_set_nth by (rewrite set_nth_length; lia). destruct (Nat.eqb_spec j q); [lia|].
      rewrite nth_set_nth by lia. destruct (Nat.eqb_spec j p); [lia|]. auto.
  - rewrite !set_nth_length. split; auto. split; [|split].
    + intros j Hj Hjn Hp. rewrite nth_set_nth by lia.
      destruct (Nat.eqb_spec j p); [contradiction|]. apply N1; auto. lia.
    + rewrite nth_set_nth, Nat.eqb_refl by lia. auto.
    + intros j Hj. rewrite nth_set_nth by lia. destruct (Nat.eqb_spec j p); [lia|]. auto.
Qed.

Lemma recv_levels_spec blks : forall msgs i out, i + length msgs = log2ceil n -> msgs <> [] -> n <= length out ->
  (forall x, x < length msgs ->
    N.lxor (if nth (i + x) choice false then fst (nth x msgs (0%N, 0%N)) else snd (nth x msgs (0%N, 0%N))) (nth (i + x) blks 0%N) = want (i + x)) ->
  (forall j, j < 2 ^ i -> j <> P i -> nth j out 0%N = tree i j) ->
  let o := recv_levels e0 e1 fixed n i choice msgs blks out in
  length o = length out /\
  (forall j, j < n -> j <> P (log2ceil n) -> nth j o 0%N = tree (log2ceil n) j) /\
  nth (P (log2ceil n)) o 0%N = 0%N /\
  (forall j, n <= j -> nth j o 0%N = nth j out 0%N).
Proof.
  induction msgs as [|m ms IH]; intros i out Hi Hne Hlen Hmsg Hout; [congruence|]. cbn zeta. cbn [recv_levels]. cbn [length] in *.
  destruct (recv_level_spec i m (nth i blks 0%N) out) as (A1 & A2 & A3 & A4); auto; try lia.
  { specialize (Hmsg 0 ltac:(lia)). rewrite Nat.add_0_r in Hmsg. exact Hmsg. }
  set (o := recv_level e0 e1 fixed n i choice m (nth i blks 0%N) out) in *.
  destruct ms as [|m' ms'].
  - cbn [recv_levels length] in *. assert (K : log2ceil n = S i) by lia. destruct (log2ceil_spec n Hn) as [[_ B] _].
    rewrite K in *. repeat split; auto. intros j Hj Hp. apply A2; auto. lia.
  - destruct (IH (S i) o) as (B1 & B2 & B3 & B4); try lia; try congruence.
    + intros x Hx. specialize (Hmsg (S x) ltac:(lia)). cbn [nth] in Hmsg. replace (i + S x) with (S i + x) in Hmsg by lia. exact Hmsg.
    + intros j Hj Hp. apply A2; auto. assert (2 ^ S i < n); [|lia]. apply pow_lt_level; auto. cbn [length] in Hi. lia.
    + repeat split; auto; try lia. intros j Hj. rewrite B4, A4; auto.
Qed.
End Recv.
End Sgrr.

(** ** The consistency check *)
Lemma lsum_set l k v : k < length l ->
  fold_right N.lxor 0%N (set_nth k v l) = N.lxor (fold_right N.lxor 0%N l) (N.lxor (nth k l 0%N) v).
Proof.
  unfold set_nth. revert k. induction l as [|x l IH]; intros k H; [cbn in H; lia|].
  destruct k as [|k]; cbn [firstn skipn app fold_right nth].
  - rewrite (N.lxor_comm x (fold_right _ _ _)), N.lxor_assoc, <- (N.lxor_assoc x x), N.lxor_nilpotent, N.lxor_0_l. apply N.lxor_comm.
  - rewrite IH by (cbn in H; lia). rewrite N.lxor_assoc. auto.
Qed.
Lemma set_nth_same l k : k < length l -> set_nth k (nth k l 0%N) l = l.
Proof.
  unfold set_nth. revert k. induction l as [|x l IH]; intros k H; [cbn in H; lia|].
  destruct k as [|k]; cbn [firstn skipn app nth]; auto. f_equal. apply IH. cbn in H. lia.
Qed.
Lemma list_ext (a b : list N) : length a = length b -> (forall j, j < length a -> nth j a 0%N = nth j b 0%N) -> a = b.
Proof. intros L H. apply (nth_ext a b 0%N 0%N); auto. Qed.

(** ** GYWZ *)
Lemma lor_bit index l : Nat.lor (index mod 2 ^ l) (Nat.land index (2 ^ l)) = index mod 2 ^ S l.
Proof.
  apply Nat.bits_inj. intros k. rewrite Nat.lor_spec, Nat.land_spec, Nat.pow2_bits_eqb.
  destruct (Nat.lt_ge_cases k l) as [H|H].
  - rewrite !Nat.mod_pow2_bits_low by lia. destruct (Nat.eqb_spec l k); [lia|]. rewrite andb_false_r, orb_false_r. auto.
  - rewrite Nat.mod_pow2_bits_high by lia. cbn [orb]. destruct (Nat.eqb_spec l k) as [->|].
    + rewrite Nat.mod_pow2_bits_low by lia. apply andb_true_r.
    + rewrite Nat.mod_pow2_bits_high by lia. apply andb_false_r.
Qed.
Lemma mod_step index l : index mod 2 ^ S l = index mod 2 ^ l + 2 ^ l * b2n (Nat.testbit index l).
Proof.
  cbn [Nat.pow]. rewrite (Nat.mul_comm 2). assert (P : 2 ^ l <> 0) by (apply Nat.pow_nonzero; lia).
  rewrite Nat.mod_mul_r by lia. f_equal. f_equal. rewrite <- Nat.bit0_mod, Nat.div_pow2_bits, Nat.add_0_l. destruct (Nat.testbit index l); reflexivity.
Qed.

Lemma lsum_map f m out : m <= length out -> lsum (map f (firstn m out)) = xsum (fun j => f (nth j out 0%N)) (seq 0 m).
Proof.
  intros H. assert (E : firstn m out = map (fun j => nth j out 0%N) (seq 0 m)).
  { apply list_ext.
    - rewrite firstn_length, map_length, seq_length. lia.
    - intros j Hj. rewrite firstn_length in Hj. rewrite nth_firstn_d by lia. rewrite (nth_map_seq (fun j => nth j out 0%N)) by lia. auto. }
  rewrite E, map_map. unfold lsum, xsum. generalize (seq 0 m). intros l. induction l as [|x l IH]; cbn; auto. rewrite IH. auto.
Qed.
Lemma add_nth_length k v l : length (add_nth k v l) = length l.
Proof. apply set_nth_length. Qed.
Lemma nth_add_nth k v l j : k < length l -> nth j (add_nth k v l) 0%N = N.lxor (nth j l 0%N) (if j =? k then v else 0%N).
Proof.
  intros H. unfold add_nth. rewrite nth_set_nth by auto. destruct (Nat.eqb_spec j k) as [->|]; auto. rewrite N.lxor_0_r. auto.
Qed.

Section Gywz.
Variable h : N -> N.
Variables one seed delta : N.
(** Node j of level l+1. *)
Fixpoint gnode (l j : nat) : N :=
  match l with
  | O => if j =? 0 then seed else N.lxor seed delta
  | S l => let s := gnode l (j mod 2 ^ S l) in
           let x := N.land (h s) one in if j <? 2 ^ S l then x else N.lxor s x
  end.

Lemma side_left_length out p : p <= length out -> length (side_left h one out p) = p.
Proof. intros H. unfold side_left. rewrite map_length, firstn_length. lia. Qed.
Lemma side_right_length out p : p <= length out -> length (side_right h one out p) = p.
Proof. intros H. unfold side_right. rewrite map_length, firstn_length. lia. Qed.
Lemma nth_side_left out p j : p <= length out -> j < p -> nth j (side_left h one out p) 0%N = N.land (h (nth j out 0%N)) one.
Proof. intros H Hj. unfold side_left. rewrite (nth_map_d _ _ _ 0%N) by (rewrite firstn_length; lia). rewrite nth_firstn_d by lia. auto. Qed.
Lemma nth_side_right out p j : p <= length out -> j < p ->
  nth j (side_right h one out p) 0%N = N.lxor (nth j out 0%N) (N.land (h (nth j out 0%N)) one).
Proof.
  intros H Hj. unfold side_right. rewrite (nth_map_d (fun s => N.lxor s (N.land (h s) one)) _ _ 0%N) by (rewrite firstn_length; lia).
  rewrite nth_firstn_d by lia. auto.
Qed.

Variable n : nat.
Hypothesis Hn : 1 < n.

Lemma put_sides_spec level out l r : level < log2ceil n -> n <= length out -> length l = 2 ^ level -> length r = 2 ^ level ->
  length (put_sides n (log2ceil n) level out l r) = length out /\ forall j, nth j (put_sides n (log2ceil n) level out l r) 0%N =
    if j <? Nat.min (2 ^ S level) n then (if j <? 2 ^ level then nth j l 0%N else nth (j - 2 ^ level) r 0%N) else nth j out 0%N.
Proof.
  intros Hl Ho Ll Lr. unfold put_sides.
  assert (Lt : 2 ^ level < n) by (apply pow_lt_level; auto).
  destruct (log2ceil_spec n Hn) as [[A B] C].
  set (vals := l ++ _).
  assert (V : length vals = Nat.min (2 ^ S level) n /\ forall j, j < length vals -> nth j vals 0%N = if j <? 2 ^ level then nth j l 0%N else nth (j - 2 ^ level) r 0%N).
  { unfold vals. destruct (Nat.eqb_spec level (log2ceil n - 1)) as [El|El].
    - replace (log2ceil n) with (S level) in * by lia. destruct (Nat.eqb_spec n (2 ^ S level)) as [En|En]; cbn [negb andb].
      + rewrite app_length, Ll, Lr. rewrite En at 1. rewrite Nat.min_id. cbn [Nat.pow]. split; [lia|].
        intros j Hj. destruct (Nat.ltb_spec j (2 ^ level)); [apply app_nth1; lia|]. rewrite app_nth2 by lia. rewrite Ll. auto.
      + cbn [Nat.pow] in *. rewrite app_length, firstn_length, Ll, Lr. split; [lia|].
        intros j Hj. destruct (Nat.ltb_spec j (2 ^ level)); [apply app_nth1; lia|]. rewrite app_nth2 by lia. rewrite Ll. apply nth_firstn_d. lia.
    - rewrite andb_false_r. assert (2 ^ S level < n) by (apply pow_lt_level; auto; lia). rewrite app_length, Ll, Lr.
      cbn [Nat.pow] in *. split; [lia|].
      intros j Hj. destruct (Nat.ltb_spec j (2 ^ level)); [apply app_nth1; lia|]. rewrite app_nth2 by lia. rewrite Ll. auto. }
  destruct V as [V1 V2]. clearbody vals. split.
  - apply overwrite_length. lia.
  - intros j. rewrite nth_overwrite, V1. destruct (Nat.ltb_spec j (Nat.min (2 ^ S level) n)); auto. apply V2. lia.
Qed.

Lemma mod_hi j i : 2 ^ i <= j < 2 ^ S i -> j mod 2 ^ i = j - 2 ^ i.
Proof.
  intros H. cbn [Nat.pow] in H. replace j with ((j - 2 ^ i) + 1 * 2 ^ i) at 1 by lia. rewrite Nat.mod_add, Nat.mod_small by lia. auto.
Qed.

Definition gsum (l : nat) : N := xsum (fun j => gnode l j) (seq 0 (2 ^ l)).

Lemma full_levels_spec t : forall l out, S l + t = log2ceil n -> n <= length out ->
  (forall j, j < 2 ^ S l -> j < n -> nth j out 0%N = gnode l j) ->
  let '(o, sums) := full_levels h one n (log2ceil n) (S l) t out in
  length o = length out /\ length sums = t /\ (forall j, j < n -> nth j o 0%N = gnode (log2ceil n - 1) j) /\
  (forall j, n <= j -> nth j o 0%N = nth j out 0%N) /\
  (forall x, x < t -> nth x sums 0%N = gsum (S l + x)).
Proof.
  destruct (log2ceil_spec n Hn) as [[A B] C].
  induction t as [|t IH]; intros l out Hi Hlen Hout; cbn [full_levels].
  - rewrite Nat.add_0_r in Hi. rewrite <- Hi. replace (S l - 1) with l by lia. repeat split; auto; try lia.
    intros j Hj. apply Hout; auto. rewrite Hi. lia.
  - assert (Lt : 2 ^ S l < n) by (apply pow_lt_level; auto; lia).
    set (sl := side_left h one out (2 ^ S l)). set (sr := side_right h one out (2 ^ S l)).
    assert (Ll : length sl = 2 ^ S l) by (apply side_left_length; lia).
    assert (Lr : length sr = 2 ^ S l) by (apply side_right_length; lia).
    destruct (put_sides_spec (S l) out sl sr ltac:(lia) Hlen Ll Lr) as [P1 P2].
    set (o := put_sides n (log2ceil n) (S l) out sl sr) in *.
    assert (Ho : forall j, j < 2 ^ S (S l) -> j < n -> nth j o 0%N = gnode (S l) j).
    { intros j Hj Hjn. rewrite P2. rewrite (proj2 (Nat.ltb_lt j (Nat.min (2 ^ S (S l)) n))) by lia. cbn [gnode].
      destruct (Nat.ltb_spec j (2 ^ S l)) as [H|H].
      - unfold sl. rewrite nth_side_left by lia. rewrite Hout, Nat.mod_small by lia. auto.
      - rewrite (mod_hi j (S l)) by lia. cbn [Nat.pow] in Hj. unfold sr. rewrite nth_side_right by (cbn [Nat.pow] in *; lia).
        rewrite Hout by (cbn [Nat.pow] in *; lia). auto. }
    assert (Hs : lsum sl = gsum (S l)).
    { unfold sl, side_left. rewrite lsum_map by lia. unfold gsum. apply xsum_ext. intros j Hj. apply in_seq in Hj. rewrite Hout by lia.
      cbn [gnode]. rewrite (proj2 (Nat.ltb_lt j (2 ^ S l))) by lia. rewrite Nat.mod_small by lia. auto. }
    specialize (IH (S l) o ltac:(lia) ltac:(lia) Ho).
    destruct (full_levels h one n (log2ceil n) (S (S l)) t o) as [o' sums].
    destruct IH as (I1 & I2 & I3 & I4 & I5). split; [lia|]. split; [cbn [length]; lia|]. split; [auto|]. split.
    + intros j Hj. rewrite I4, P2 by auto. destruct (Nat.ltb_spec j (Nat.min (2 ^ S (S l)) n)); auto. lia.
    + intros [|x] Hx; cbn [nth]; [rewrite Nat.add_0_r; auto|]. rewrite I5 by lia. f_equal. lia.
Qed.

Lemma xor_swap4 a b c d : N.lxor (N.lxor a b) (N.lxor c d) = N.lxor (N.lxor a c) (N.lxor b d).
Proof. rewrite !N.lxor_assoc. f_equal. rewrite <- !N.lxor_assoc. f_equal. apply N.lxor_comm. Qed.

Lemma punc_levels_spec index sib t : forall l out, S l + t = log2ceil n -> n <= length out ->
  (forall x, S l <= x -> x < log2ceil n -> nth x sib 0%N = N.lxor (gsum x) (if Nat.testbit index x then 0%N else delta)) ->
  (forall j, j < 2 ^ S l -> j < n -> nth j out 0%N = N.lxor (gnode l j) (if j =? index mod 2 ^ S l then delta else 0%N)) ->
  let o := punc_levels h one index n (log2ceil n) (S l) t (index mod 2 ^ S l) sib out in
  length o = length out /\ (forall j, j < n -> nth j o 0%N = N.lxor (gnode (log2ceil n - 1) j) (if j =? index mod 2 ^ log2ceil n then delta else 0%N)) /\
  (forall j, n <= j -> nth j o 0%N = nth j out 0%N).
Proof.
  destruct (log2ceil_spec n Hn) as [[A B] C].
  induction t as [|t IH]; intros l out Hi Hlen Hsib Hout; cbn [punc_levels].
  - rewrite Nat.add_0_r in Hi. rewrite <- Hi. replace (S l - 1) with l by lia. repeat split; auto; try lia.
    intros j Hj. apply Hout; auto. rewrite Hi. lia.
  - assert (Lt : 2 ^ S l < n) by (apply pow_lt_level; auto; lia).
    assert (Pos : 2 ^ S l <> 0) by (apply Nat.pow_nonzero; lia).
    set (p := index mod 2 ^ S l) in *. assert (Hp : p < 2 ^ S l) by (apply Nat.mod_upper_bound; auto).
    set (sl := side_left h one out (2 ^ S l)). set (sr := side_right h one out (2 ^ S l)).
    assert (Ll : length sl = 2 ^ S l) by (apply side_left_length; lia).
    assert (Lr : length sr = 2 ^ S l) by (apply side_right_length; lia).
    set (v := N.lxor (nth (S l) sib 0%N) (lsum sl)).
    set (b := Nat.testbit index (S l)).
    set (g := gnode l p). set (x := N.land (h g) one). set (y := N.land (h (N.lxor g delta)) one).
    assert (Ev : v = N.lxor (N.lxor x y) (if b then 0%N else delta)).
    { unfold v. rewrite Hsib by lia. fold b.
      assert (E1 : lsum sl = N.lxor y (xsum (fun j => gnode (S l) j) (filter (fun j => negb (j =? p)) (seq 0 (2 ^ S l))))).
      { unfold sl, side_left. rewrite lsum_map by lia. rewrite (xsum_split _ p) by (try apply seq_NoDup; apply in_seq; lia).
        rewrite Hout, Nat.eqb_refl by lia. fold g. f_equal. apply xsum_ext. intros j Hj.
        apply filter_In in Hj. destruct Hj as [Hj1 Hj2]. apply in_seq in Hj1. apply negb_true_iff in Hj2.
        rewrite Hout, Hj2, N.lxor_0_r by lia. cbn [gnode]. rewrite (proj2 (Nat.ltb_lt j (2 ^ S l))) by lia. rewrite Nat.mod_small by lia. auto. }
      assert (E2 : gsum (S l) = N.lxor x (xsum (fun j => gnode (S l) j) (filter (fun j => negb (j =? p)) (seq 0 (2 ^ S l))))).
      { unfold gsum. rewrite (xsum_split _ p) by (try apply seq_NoDup; apply in_seq; lia). f_equal.
        cbn [gnode]. rewrite (proj2 (Nat.ltb_lt p (2 ^ S l))) by lia. rewrite Nat.mod_small by lia. auto. }
      rewrite E1, E2. set (z := xsum _ _). rewrite (N.lxor_comm (N.lxor x z)), N.lxor_assoc, xor_swap4, N.lxor_nilpotent, N.lxor_0_r. apply N.lxor_comm. }
    destruct (put_sides_spec (S l) out (add_nth p v sl) (add_nth p v sr) ltac:(lia) Hlen) as [P1 P2];
      [rewrite add_nth_length; auto|rewrite add_nth_length; auto|].
    set (o := put_sides n (log2ceil n) (S l) out (add_nth p v sl) (add_nth p v sr)) in *.
    assert (El : Nat.lor p (Nat.land index (2 ^ S l)) = index mod 2 ^ S (S l)) by apply lor_bit. rewrite El.
    assert (Ho : forall j, j < 2 ^ S (S l) -> j < n -> nth j o 0%N = N.lxor (gnode (S l) j) (if j =? index mod 2 ^ S (S l) then delta else 0%N)).
    { intros j Hj Hjn. rewrite P2. rewrite (proj2 (Nat.ltb_lt j (Nat.min (2 ^ S (S l)) n))) by lia.
      rewrite (mod_step index (S l)). fold p. fold b. cbn [gnode].
      destruct (Nat.ltb_spec j (2 ^ S l)) as [H|H].
      - rewrite nth_add_nth by lia. unfold sl. rewrite nth_side_left by lia. rewrite Nat.mod_small by lia. rewrite Hout by lia.
        destruct (Nat.eqb_spec j p) as [->|Hne].
        + fold g. fold x. fold y. rewrite Ev. rewrite <- (N.lxor_assoc y), (N.lxor_comm y), xor_self_r.
          f_equal. destruct b; cbn [b2n]; rewrite ?Nat.mul_0_r, ?Nat.add_0_r, ?Nat.eqb_refl; auto.
          destruct (Nat.eqb_spec p (p + 2 ^ S l * 1)); auto. lia.
        + rewrite !N.lxor_0_r. destruct (Nat.eqb_spec j (p + 2 ^ S l * b2n b)) as [E|]; [|rewrite N.lxor_0_r; auto].
          destruct b; cbn [b2n] in E; lia.
      - rewrite (mod_hi j (S l)) by lia. cbn [Nat.pow] in Hj. assert (Hjj : j - 2 ^ S l < 2 ^ S l) by (cbn [Nat.pow]; lia).
        rewrite nth_add_nth by lia. unfold sr. rewrite nth_side_right by lia. rewrite Hout by lia.
        destruct (Nat.eqb_spec (j - 2 ^ S l) p) as [E|Hne].
        + rewrite E. fold g. fold x. fold y. rewrite Ev.
          transitivity (N.lxor (N.lxor g x) (N.lxor delta (if b then 0%N else delta))).
          * rewrite (N.lxor_comm x y). rewrite !N.lxor_assoc. f_equal. rewrite <- !N.lxor_assoc. rewrite xor_self_r.
            rewrite (N.lxor_comm delta x). auto.
          * f_equal. destruct b; cbn [b2n]; [rewrite N.lxor_0_r|rewrite N.lxor_nilpotent];
              destruct (Nat.eqb_spec j (p + 2 ^ S l * 1)); destruct (Nat.eqb_spec j (p + 2 ^ S l * 0)); auto; lia.
        + rewrite !N.lxor_0_r. destruct (Nat.eqb_spec j (p + 2 ^ S l * b2n b)) as [E|]; [|rewrite N.lxor_0_r; auto].
          destruct b; cbn [b2n] in E; lia. }
    destruct (IH (S l) o ltac:(lia) ltac:(lia)) as (I1 & I2 & I3); auto.
    { intros i Hi1 Hi2. apply Hsib; lia. }
    split; [lia|]. split; [auto|].
    intros j Hj. rewrite I3, P2 by auto. destruct (Nat.ltb_spec j (Nat.min (2 ^ S (S l)) n)); auto. lia.
Qed.
End Gywz.
