From Coq Require Import List ZArith Bool Lia Permutation.
From Verif Require Import ParallelModel.
Import ListNotations.
Open Scope Z_scope.

(** Consecutive non-empty pieces from [a] to [e]. *)
Fixpoint pieces (a e : Z) (l : list (Z * Z)) : Prop :=
  match l with
  | [] => a = e
  | (x, y) :: r => x = a /\ x < y /\ pieces y e r
  end.

(** Chunk size the code arrives at. *)
Definition chunk_of (d grain threads : Z) : Z := Z.max grain ((d + threads - 1) / threads).

Record range_ok (b e grain threads : Z) : Prop := {
  r_lo : - 2 ^ 63 <= b; r_be : b < e; r_g : 0 < grain; r_t : 0 < threads;
  r_d : (e - b) + threads <= i64_max;
  r_e : e + chunk_of (e - b) grain threads <= i64_max;
  r_c : (e - b) + chunk_of (e - b) grain threads <= i64_max }.

Lemma in_i64_true z : - 2 ^ 63 <= z <= i64_max -> in_i64 z = true.
Proof. intros. unfold in_i64. apply andb_true_iff. split; apply Z.leb_le; lia. Qed.
Lemma wrap64_id z : - 2 ^ 63 <= z <= i64_max -> wrap64 z = z.
Proof. unfold wrap64, i64_max. intros. rewrite Z.mod_small; lia. Qed.

Lemma divup_some x y : 0 < x -> 0 < y -> x + y <= i64_max -> divup x y = Some ((x + y - 1) / y).
Proof.
  intros. unfold divup. rewrite !in_i64_true by (unfold i64_max in *; lia). cbn [andb].
  rewrite Z.quot_div_nonneg by lia. reflexivity.
Qed.

Lemma divup_bounds x y : 0 < x -> 0 < y -> let q := (x + y - 1) / y in 0 < q /\ x <= q * y /\ (q - 1) * y < x.
Proof.
  intros Hx Hy q. pose proof (Z.div_mod (x + y - 1) y ltac:(lia)). pose proof (Z.mod_pos_bound (x + y - 1) y ltac:(lia)).
  fold q in H. nia.
Qed.

Lemma calc_spec b e grain threads : range_ok b e grain threads -> grain <= e - b ->
  exists n c, calc b e grain threads = Some (n, c) /\ 0 < n /\ 0 < c /\ c = chunk_of (e - b) grain threads /\
    e - b <= n * c /\ (n - 1) * c < e - b.
Proof.
  intros R Hg. destruct R. unfold calc. rewrite in_i64_true by (unfold i64_max in *; lia). cbn [negb].
  destruct (Z.ltb_spec (e - b) grain); [lia|].
  rewrite divup_some by lia. fold (chunk_of (e - b) grain threads). set (c := chunk_of (e - b) grain threads) in *.
  assert (Hc : 0 < c) by (unfold c, chunk_of; lia).
  rewrite divup_some by lia. pose proof (divup_bounds (e - b) c ltac:(lia) Hc) as (H1 & H2 & H3).
  eexists; exists c. split; [reflexivity|]. auto.
Qed.

Lemma task_range_some b e c id : - 2 ^ 63 <= b -> 0 < c -> e + c <= i64_max -> b + Z.of_nat id * c < e ->
  task_range b e c id = Some (b + Z.of_nat id * c, Z.min e (b + Z.of_nat (S id) * c)).
Proof.
  intros Hb Hc He Hid. unfold task_range. rewrite wrap64_id by (unfold i64_max in *; nia).
  destruct (Z.ltb_spec (b + Z.of_nat id * c) e); [|lia].
  rewrite wrap64_id by (unfold i64_max in *; nia). replace (c + (b + Z.of_nat id * c)) with (b + Z.of_nat (S id) * c) by (rewrite Nat2Z.inj_succ; ring). reflexivity.
Qed.

(** Tasks i, i+1, ..., n-1. *)
Lemma pieces_from b e c n : - 2 ^ 63 <= b -> 0 < c -> e + c <= i64_max -> e - b <= Z.of_nat n * c -> (Z.of_nat n - 1) * c < e - b ->
  forall m i, (i + m = n)%nat -> (0 < m)%nat ->
  exists l, map (task_range b e c) (seq i m) = map Some l /\ pieces (b + Z.of_nat i * c) e l /\ length l = m.
Proof.
  intros Hb Hc He H1 H2. induction m as [|m IH]; intros i Him Hm; [lia|].
  cbn [seq map]. rewrite task_range_some by (auto; nia).
  destruct m as [|m].
  - exists [(b + Z.of_nat i * c, Z.min e (b + Z.of_nat (S i) * c))]. split; [reflexivity|]. split; auto.
    cbn [pieces]. assert (Z.min e (b + Z.of_nat (S i) * c) = e) by nia. split; auto. split; nia.
  - destruct (IH (S i) ltac:(lia) ltac:(lia)) as (l & El & Pl & Ll).
    exists ((b + Z.of_nat i * c, Z.min e (b + Z.of_nat (S i) * c)) :: l). split; [cbn [map]; f_equal; exact El|].
    split; [|cbn [length]; congruence]. cbn [pieces]. split; auto. split; [nia|].
    replace (Z.min e (b + Z.of_nat (S i) * c)) with (b + Z.of_nat (S i) * c); auto.
    assert (Z.of_nat (S i) <= Z.of_nat n - 1) by lia. nia.
Qed.

Lemma run_calls_spec b e grain threads : range_ok b e grain threads -> grain <= e - b ->
  exists l, run_calls b e grain threads = Ok (map Some l) /\ pieces b e l.
Proof.
  intros R Hg. destruct (calc_spec b e grain threads R Hg) as (n & c & Hc & Hn & Hcp & Ec & H1 & H2).
  unfold run_calls. rewrite Hc. destruct R.
  destruct (pieces_from b e c (Z.to_nat n) ltac:(lia) Hcp ltac:(lia) ltac:(rewrite Z2Nat.id; lia) ltac:(rewrite Z2Nat.id; lia) (Z.to_nat n) 0%nat ltac:(lia) ltac:(lia))
    as (l & El & Pl & _).
  exists l. rewrite El. split; auto. rewrite Z.mul_0_l, Z.add_0_r in Pl. exact Pl.
Qed.

Lemma parallel_for_spec b e grain threads reg : range_ok b e grain threads ->
  exists l, parallel_for b e grain threads reg = Ok (map Some l) /\ pieces b e l.
Proof.
  intros R. pose proof R as R'. destruct R. unfold parallel_for.
  destruct (Z.leb_spec grain 0); [lia|]. destruct (Z.leb_spec e b); [lia|].
  rewrite in_i64_true by (unfold i64_max in *; lia). cbn [negb].
  destruct (Z.ltb_spec (e - b) grain); cbn [orb].
  - exists [(b, e)]. split; auto. simpl. auto.
  - destruct reg; [exists [(b, e)]; split; auto; simpl; auto|]. apply run_calls_spec; auto.
Qed.

(** Pieces cover every index exactly once. *)
Lemma pieces_le a e l : pieces a e l -> a <= e.
Proof.
  revert a. induction l as [|[x y] l IH]; simpl; intros a H; [lia|]. destruct H as (-> & H1 & H2). apply IH in H2. lia.
Qed.
Definition hits (i : Z) (p : Z * Z) : bool := (fst p <=? i) && (i <? snd p).
Lemma pieces_after a e l i : pieces a e l -> i < a -> filter (hits i) l = [].
Proof.
  revert a. induction l as [|[x y] l IH]; intros a Hp Hi; cbn [filter]; auto.
  destruct Hp as (-> & H1 & H2). unfold hits; cbn [fst snd]. destruct (Z.leb_spec a i); [lia|]. cbn [andb].
  fold (hits i). apply (IH y); auto. lia.
Qed.
Lemma pieces_once a e l i : pieces a e l ->
  length (filter (hits i) l) = if (a <=? i) && (i <? e) then 1%nat else 0%nat.
Proof.
  revert a. induction l as [|[x y] l IH]; intros a Hp; cbn [filter].
  - simpl in Hp. subst. destruct (Z.leb_spec e i), (Z.ltb_spec i e); simpl; auto; lia.
  - destruct Hp as (-> & H1 & H2). pose proof (pieces_le _ _ _ H2).
    unfold hits at 1; cbn [fst snd]. destruct (Z.leb_spec a i); cbn [andb].
    + destruct (Z.ltb_spec i y).
      * cbn [length]. rewrite (pieces_after y e l i H2) by lia. destruct (Z.ltb_spec i e); [reflexivity|lia].
      * rewrite (IH y H2). destruct (Z.leb_spec y i); [|lia]. reflexivity.
    + rewrite (pieces_after y e l i H2) by lia. reflexivity.
Qed.

(** Exceptions. *)
Lemma rethrown_last {E} (fails : nat -> option E) m : forall i e0,
  fold_left (fun e j => match fails j with Some x => Some x | None => e end) (seq i m) e0 = None <->
  e0 = None /\ forall j, (i <= j < i + m)%nat -> fails j = None.
Proof.
  induction m as [|m IH]; intros i e0; cbn [seq fold_left].
  - split; [intros; split; auto; intros; lia|tauto].
  - rewrite IH. split.
    + intros [H1 H2]. destruct (fails i) eqn:E0; [discriminate|]. split; auto. intros j Hj.
      destruct (Nat.eq_dec j i) as [->|]; auto. apply H2. lia.
    + intros [H1 H2]. rewrite (H2 i) by lia. split; auto. intros j Hj. apply H2. lia.
Qed.
Lemma rethrown_from {E} (fails : nat -> option E) m : forall i e0 x,
  fold_left (fun e j => match fails j with Some y => Some y | None => e end) (seq i m) e0 = Some x ->
  e0 = Some x \/ exists j, (i <= j < i + m)%nat /\ fails j = Some x.
Proof.
  induction m as [|m IH]; intros i e0 x H; cbn [seq fold_left] in H; auto.
  apply IH in H as [H|(j & Hj & H)].
  - destruct (fails i) eqn:E0; auto. right. exists i. split; [lia|]. congruence.
  - right. exists j. split; auto. lia.
Qed.
Lemma rethrown_spec {E} (fails : nat -> option E) n : (0 < n)%nat ->
  (rethrown fails n = None <-> forall j, (j < n)%nat -> fails j = None) /\
  (forall x, rethrown fails n = Some x -> exists j, (j < n)%nat /\ fails j = Some x).
Proof.
  intros Hn. unfold rethrown. split.
  - rewrite rethrown_last. split.
    + intros [H1 H2] j Hj. destruct j; auto. apply H2. lia.
    + intros H. split; [apply H; lia|]. intros j Hj. apply H. lia.
  - intros x H. apply rethrown_from in H as [H|(j & Hj & H)]; [exists 0%nat; auto|]. exists j. split; auto. lia.
Qed.

(** * Reduction *)
Fixpoint zrange (a : Z) (n : nat) : list Z := match n with O => [] | S m => a :: zrange (a + 1) m end.

Section Red.
Context {A : Type}.
Variable op : A -> A -> A.
Variable g : Z -> A.
Hypothesis Hassoc : forall x y z, op (op x y) z = op x (op y z).

(** op (... op (op (g a) (g (a+1))) ...) (g (b-1)). *)
Definition seq_reduce (a b : Z) : A := fold_left op (map g (zrange (a + 1) (Z.to_nat (b - a - 1)))) (g a).

Lemma fold_assoc l : forall x y, fold_left op l (op x y) = op x (fold_left op l y).
Proof. induction l as [|z l IH]; intros x y; simpl; auto. rewrite Hassoc. apply IH. Qed.

Lemma zrange_app n m : forall a, zrange a (n + m) = zrange a n ++ zrange (a + Z.of_nat n) m.
Proof.
  induction n as [|n IH]; intros a; cbn [zrange Nat.add app].
  - f_equal. lia.
  - f_equal. rewrite IH. do 2 f_equal. lia.
Qed.

Lemma seq_reduce_split a m b : a < m -> m < b -> seq_reduce a b = op (seq_reduce a m) (seq_reduce m b).
Proof.
  intros H1 H2. unfold seq_reduce.
  replace (Z.to_nat (b - a - 1)) with (Z.to_nat (m - a - 1) + S (Z.to_nat (b - m - 1)))%nat by lia.
  rewrite zrange_app, map_app, fold_left_app. replace (a + 1 + Z.of_nat (Z.to_nat (m - a - 1))) with m by lia.
  cbn [zrange map fold_left]. rewrite fold_assoc. reflexivity.
Qed.

Lemma set_nth_some (l : list A) i v : (i < length l)%nat ->
  exists l', set_nth l i v = Some l' /\ length l' = length l /\
    forall j d, nth j l' d = if Nat.eq_dec j i then v else nth j l d.
Proof.
  revert i. induction l as [|x l IH]; intros i Hi; simpl in Hi; [lia|]. destruct i as [|i]; cbn [set_nth].
  - exists (v :: l). repeat split; auto. intros [|j] d; simpl; auto.
  - destruct (IH i ltac:(lia)) as (l' & -> & Hl & Hn). exists (x :: l'). split; auto. split; [simpl; lia|].
    intros [|j] d; simpl; auto. rewrite Hn. destruct (Nat.eq_dec j i), (Nat.eq_dec (S j) (S i)); auto; lia.
Qed.

(** Writing all slots in any order. *)
Lemma run_all (b e c : Z) (rf : Z -> Z -> A) (n : nat) (f : nat -> A) :
  (forall i, (i < n)%nat -> exists x y, task_range b e c i = Some (x, y) /\ rf x y = f i) ->
  forall sched l, length l = n -> (forall i, In i sched -> (i < n)%nat) ->
  exists l', fold_left (run_one rf b e c) sched (Some l) = Some l' /\ length l' = n /\
    forall j d, nth j l' d = if in_dec Nat.eq_dec j sched then f j else nth j l d.
Proof.
  intros Hf. induction sched as [|i sched IH]; intros l Hl Hin; cbn [fold_left].
  - exists l. split; auto.
  - destruct (Hf i) as (x & y & Et & Ef); [apply Hin; simpl; auto|].
    cbn [run_one]. rewrite Et, Ef.
    destruct (set_nth_some l i (f i)) as (l1 & -> & Hl1 & Hn1); [rewrite Hl; apply Hin; simpl; auto|].
    destruct (IH l1 ltac:(congruence)) as (l' & E' & Hl' & Hn'); [intros; apply Hin; simpl; auto|].
    exists l'. split; auto. split; auto. intros j d. rewrite Hn', Hn1.
    destruct (in_dec Nat.eq_dec j sched), (in_dec Nat.eq_dec j (i :: sched)); auto.
    + simpl in n0. tauto.
    + destruct (Nat.eq_dec j i) as [->|Hne]; auto. simpl in i0. destruct i0; [congruence|tauto].
    + destruct (Nat.eq_dec j i) as [->|Hne]; auto. simpl in n1. tauto.
Qed.

Lemma fold_pieces b e l x y : pieces b e ((x, y) :: l) ->
  fold_left op (map (fun p => seq_reduce (fst p) (snd p)) l) (seq_reduce x y) = seq_reduce b e.
Proof.
  intros (-> & H1 & H2). revert y H1 H2. induction l as [|[x2 y2] l IH]; intros y H1 H2; cbn [map fold_left].
  - simpl in H2. subst. reflexivity.
  - destruct H2 as (-> & H3 & H4). cbn [fst snd]. rewrite <- (seq_reduce_split b y y2) by auto.
    apply IH; auto. lia.
Qed.

Lemma nth_ext_list (l l' : list A) : length l = length l' -> (forall j d, nth j l d = nth j l' d) -> l = l'.
Proof.
  revert l'. induction l as [|x l IH]; intros [|y l'] Hl H; simpl in Hl; try lia; auto. f_equal.
  - apply (H 0%nat x).
  - apply IH; [lia|]. intros j d. apply (H (S j) d).
Qed.

Lemma parallel_reduce_spec init b e grain threads reg sched : range_ok b e grain threads ->
  (forall n c, calc b e grain threads = Some (n, c) -> Permutation sched (seq 0 (Z.to_nat n))) ->
  parallel_reduce seq_reduce op init b e grain threads threads reg sched = Ok (seq_reduce b e).
Proof.
  intros R Hs. unfold parallel_reduce. pose proof R as R'. destruct R.
  destruct (Z.leb_spec grain 0); [lia|]. destruct (Z.leb_spec e b); [lia|].
  rewrite in_i64_true by (unfold i64_max in *; lia). cbn [negb].
  destruct (Z.ltb_spec (e - b) grain); cbn [orb]; auto. destruct reg; auto.
  destruct (calc_spec b e grain threads R' ltac:(lia)) as (n & c & Hc & Hn & Hcp & Ec & H3 & H4).
  specialize (Hs n c Hc). rewrite Hc.
  destruct (pieces_from b e c (Z.to_nat n) ltac:(lia) Hcp ltac:(lia) ltac:(rewrite Z2Nat.id; lia) ltac:(rewrite Z2Nat.id; lia) (Z.to_nat n) 0%nat ltac:(lia) ltac:(lia))
    as (l & El & Pl & Ll).
  rewrite Z.mul_0_l, Z.add_0_r in Pl.
  set (f := fun i => match nth_error l i with Some (x, y) => seq_reduce x y | None => init end).
  assert (Hf : forall i, (i < Z.to_nat n)%nat -> exists x y, task_range b e c i = Some (x, y) /\ seq_reduce x y = f i).
  { intros i Hi. assert (Hl : (i < length l)%nat) by lia.
    apply nth_error_Some in Hl. unfold f. destruct (nth_error l i) as [[x y]|] eqn:E; [|tauto].
    exists x, y. split; auto.
    assert (E2 : nth_error (map (task_range b e c) (seq 0 (Z.to_nat n))) i = Some (task_range b e c i)).
    { rewrite nth_error_map. replace (nth_error (seq 0 (Z.to_nat n)) i) with (Some i); auto.
      symmetry. rewrite (nth_error_nth' _ 0%nat) by (rewrite seq_length; lia). rewrite seq_nth by lia. reflexivity. }
    rewrite El, nth_error_map, E in E2. cbn [option_map] in E2. congruence. }
  destruct (run_all b e c seq_reduce (Z.to_nat n) f Hf sched (repeat init (Z.to_nat n))) as (l' & El' & Ll' & Hn').
  { apply repeat_length. }
  { intros i Hi. apply (Permutation_in _ Hs) in Hi. apply in_seq in Hi. lia. }
  rewrite El'.
  assert (E : l' = map (fun p => seq_reduce (fst p) (snd p)) l).
  { apply nth_ext_list; [rewrite map_length; lia|]. intros j d. rewrite Hn'.
    destruct (in_dec Nat.eq_dec j sched) as [Hj|Hj].
    - apply (Permutation_in _ Hs), in_seq in Hj.
      assert (Hl : (j < length l)%nat) by lia. pose proof Hl as Hl2.
      apply nth_error_Some in Hl. unfold f. destruct (nth_error l j) as [[x y]|] eqn:Ej; [|tauto].
      symmetry. apply nth_error_nth. rewrite nth_error_map, Ej. reflexivity.
    - assert (Hj2 : (Z.to_nat n <= j)%nat).
      { destruct (le_lt_dec (Z.to_nat n) j); auto. exfalso. apply Hj. apply (Permutation_in _ (Permutation_sym Hs)). apply in_seq. lia. }
      rewrite !nth_overflow; auto; [rewrite map_length; lia|rewrite repeat_length; auto]. }
  rewrite E. destruct l as [|[x y] l]; [simpl in Ll; lia|]. cbn [map fst snd]. f_equal. apply fold_pieces; auto.
Qed.
End Red.

Lemma single_thread b e grain : range_ok b e grain 1 -> grain <= e - b -> calc b e grain 1 = Some (1, e - b).
Proof.
  intros R Hg. pose proof R as R'. destruct R. destruct (calc_spec b e grain 1 R' Hg) as (n & c & Hc & Hn & Hcp & Ec & H3 & H4).
  unfold chunk_of in Ec. rewrite Z.div_1_r in Ec. assert (c = e - b) by lia. rewrite Hc. subst c.
  replace (Z.max grain (e - b + 1 - 1)) with (e - b) in * by lia.
  assert (n = 1) by nia. congruence.
Qed.
