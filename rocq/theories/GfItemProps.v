From Coq Require Import ZArith Znumtheory Arith Bool List Permutation Lia.
From Verif Require Import LinCodeModel ZpLib MsgModel MsgProof GfItemModel.
From Verif Require MpxModel MpxProof MpxProps.
Import ListNotations.
Open Scope Z_scope.

(** Properties C106 and C107, for the model of GfItemModel.v. *)

(** ** C106: calls on items *)

Lemma map_outcome_val : forall A B (f : A -> outcome B) l r,
  map_outcome f l = Val r <-> Forall2 (fun a b => f a = Val b) l r.
Proof.
  intros A B f l. induction l as [|a l IH]; intro r; cbn [map_outcome].
  - split; intro H; [injection H as <-; constructor|inversion H; reflexivity].
  - destruct (f a) as [b| | |] eqn:E; cbn [bind];
      try (split; intro H; [discriminate H|inversion H; subst; congruence]).
    destruct (map_outcome f l) as [r'| | |] eqn:E2; cbn [bind].
    + split; intro H.
      * injection H as <-. constructor; [exact E|]. apply IH. reflexivity.
      * inversion H as [|x y l0 l' Hab Hl]; subst. apply IH in Hl. injection Hl as ->. congruence.
    + split; intro H; [discriminate H|]. inversion H as [|x y l0 l' Hab Hl]; subst. apply IH in Hl. discriminate Hl.
    + split; intro H; [discriminate H|]. inversion H as [|x y l0 l' Hab Hl]; subst. apply IH in Hl. discriminate Hl.
    + split; intro H; [discriminate H|]. inversion H as [|x y l0 l' Hab Hl]; subst. apply IH in Hl. discriminate Hl.
Qed.

(** C106: a unary function of an array succeeds exactly if it succeeds on every element,
    and gives the array of the results; of a scalar, the scalar result. *)
Theorem item_unary :
  forall (T R : Type) (f : T -> outcome R) m x l, elements m x = Val l ->
  (is_array x = true -> forall z, call_unary f m x = Val z <->
     exists r, Forall2 (fun a b => f a = Val b) l r /\ z = Owned r) /\
  (forall t, x = Scalar t -> forall z, call_unary f m x = Val z <-> exists b, f t = Val b /\ z = Scalar b).
Proof.
  intros T R f m x l Hl. split.
  - intros Ha z. unfold call_unary. rewrite Ha, Hl. cbn [bind].
    destruct (map_outcome f l) as [r| | |] eqn:E; cbn [bind].
    + split.
      * intro H. injection H as <-. exists r. split; [apply map_outcome_val; exact E|reflexivity].
      * intros [r' [H ->]]. apply map_outcome_val in H. congruence.
    + split; [discriminate|]. intros [r' [H _]]. apply map_outcome_val in H. congruence.
    + split; [discriminate|]. intros [r' [H _]]. apply map_outcome_val in H. congruence.
    + split; [discriminate|]. intros [r' [H _]]. apply map_outcome_val in H. congruence.
  - intros t -> z. unfold call_unary. cbn [is_array].
    destruct (f t) as [b| | |] eqn:E; cbn [bind].
    + split; [intro H; injection H as <-; exists b; auto|]. intros [b' [H ->]]. congruence.
    + split; [discriminate|]. intros [b' [H _]]. discriminate H.
    + split; [discriminate|]. intros [b' [H _]]. discriminate H.
    + split; [discriminate|]. intros [b' [H _]]. discriminate H.
Qed.

(** C106: a binary function of two arrays succeeds exactly if they have the same length
    and it succeeds on every pair; an array and a scalar are refused. *)
Theorem item_binary :
  forall (T R : Type) (f : T -> T -> outcome R) m x y l k, elements m x = Val l -> elements m y = Val k ->
  (is_array x = true -> is_array y = true -> forall z, call_binary f m x y = Val z <->
     length l = length k /\ exists r, Forall2 (fun q b => f (fst q) (snd q) = Val b) (combine l k) r /\ z = Owned r) /\
  (forall a b, x = Scalar a -> y = Scalar b -> forall z, call_binary f m x y = Val z <->
     exists c, f a b = Val c /\ z = Scalar c) /\
  (is_array x <> is_array y -> call_binary f m x y = Thrown).
Proof.
  intros T R f m x y l k Hl Hk. split; [|split].
  - intros Hx Hy z. unfold call_binary. rewrite Hx, Hy, Hl, Hk. cbn [bind].
    destruct (Nat.eqb_spec (length l) (length k)) as [El|El]; [|split; [discriminate|tauto]].
    destruct (map_outcome (fun p => f (fst p) (snd p)) (combine l k)) as [r| | |] eqn:E; cbn [bind];
    try (split; [discriminate|]; intros [_ [r' [H _]]]; apply map_outcome_val in H; congruence).
    split.
    + intro H. injection H as <-. split; [exact El|]. exists r. split; [apply map_outcome_val; exact E|reflexivity].
    + intros [_ [r' [H ->]]]. apply map_outcome_val in H. congruence.
  - intros a b -> -> z. unfold call_binary. cbn [is_array].
    destruct (f a b) as [c| | |] eqn:E; cbn [bind];
    try (split; [discriminate|]; intros [c' [H _]]; discriminate H).
    split; [intro H; injection H as <-; exists c; auto|]. intros [c' [H ->]]. congruence.
  - intro H. unfold call_binary. destruct (is_array x), (is_array y); congruence || reflexivity.
Qed.

(** *** In place *)

Lemma set_cell_same : forall T (m : memory T) a k t, set_cell m a k t a k = t.
Proof. intros T m a k t. unfold set_cell. rewrite !Nat.eqb_refl. reflexivity. Qed.
Lemma set_cell_other : forall T (m : memory T) a k t a' k', a' <> a \/ k' <> k -> set_cell m a k t a' k' = m a' k'.
Proof.
  intros T m a k t a' k' H. unfold set_cell. destruct (Nat.eqb_spec a a'), (Nat.eqb_spec k k'); cbn [andb]; try reflexivity.
  subst. tauto.
Qed.

Section Loop.
  Context {T : Type}.
  Variable f : T -> T -> outcome T.
  Variable g : T -> T -> T.
  Hypothesis Hf : forall a b, f a b = Val (g a b).
  Variable a off : nat.
  Variable other : memory T -> nat -> T.

  (** The second operand at i is not touched while other elements are processed. *)
  Definition undisturbed (order : list nat) : Prop :=
    forall i j m t, In i order -> In j order -> i <> j -> other (set_cell m a (off + j) t) i = other m i.

  Lemma inplace_loop_val : forall order m, NoDup order -> undisturbed order ->
    exists m', inplace_loop f other a off order m = Val m' /\
      (forall i, In i order -> m' a (off + i)%nat = g (m a (off + i)%nat) (other m i)) /\
      (forall a' k, ~ (a' = a /\ exists i, In i order /\ k = (off + i)%nat) -> m' a' k = m a' k).
  Proof using Hf.
    induction order as [|i order IH]; intros m Hn Hu.
    - exists m. split; [reflexivity|]. split; [intros i []|reflexivity].
    - inversion Hn as [|x l Hi Hn']; subst. cbn [inplace_loop]. rewrite Hf. cbn [bind].
      set (m1 := set_cell m a (off + i) (g (m a (off + i)%nat) (other m i))).
      destruct (IH m1 Hn') as [m' [H1 [H2 H3]]].
      { intros x y m0 t Hx Hy Hxy. apply Hu; [right; exact Hx|right; exact Hy|exact Hxy]. }
      exists m'. split; [exact H1|]. split.
      + intros j [<-|Hj].
        * rewrite H3.
          -- unfold m1. apply set_cell_same.
          -- intros [_ [x [Hx E]]]. assert (x = i) by lia. subst x. contradiction.
        * rewrite (H2 j Hj). assert (i <> j) by (intros ->; contradiction).
          unfold m1. rewrite Hu; [|right; exact Hj|left; reflexivity|congruence].
          f_equal. apply set_cell_other. right. lia.
      + intros a' k Hk. rewrite H3.
        * unfold m1. apply set_cell_other.
          destruct (Nat.eq_dec a' a) as [->|]; [|left; assumption]. right. intros ->. apply Hk.
          split; [reflexivity|]. exists i. split; [left; reflexivity|reflexivity].
        * intros [-> [x [Hx ->]]]. apply Hk. split; [reflexivity|]. exists x. split; [right; exact Hx|reflexivity].
  Qed.
End Loop.

Lemma order_in : forall n order, Permutation (seq 0 n) order -> NoDup order /\ (forall i, In i order <-> (i < n)%nat).
Proof.
  intros n order H. split; [apply (Permutation_NoDup H); apply seq_NoDup|].
  intro i. split; intro Hi.
  - apply Permutation_sym in H. apply (Permutation_in _ H) in Hi. apply in_seq in Hi. lia.
  - apply (Permutation_in _ H). apply in_seq. lia.
Qed.

Definition zip_with {A B D} (g : A -> B -> D) (l : list A) (k : list B) : list D :=
  map (fun q => g (fst q) (snd q)) (combine l k).

Lemma combine_map_seq : forall A B (u : nat -> A) (v : nat -> B) n s,
  combine (map u (seq s n)) (map v (seq s n)) = map (fun i => (u i, v i)) (seq s n).
Proof.
  intros A B u v n. induction n as [|n IH]; intro s; cbn [seq map combine]; [reflexivity|]. rewrite IH. reflexivity.
Qed.

(** C106: an in-place binary call on a writable view, for every order in which the
    threads process the elements: if the second operand is the same view, or a view that
    does not overlap, the view then holds what the call out of place returns, and no
    other cell of the memory has changed. *)
Theorem item_inplace_view :
  forall (T : Type) (f : T -> T -> outcome T) (g : T -> T -> T), (forall a b, f a b = Val (g a b)) ->
  forall m a off n b off' ro order, Permutation (seq 0 n) order ->
  (a = b /\ off = off') \/ a <> b \/ (off + n <= off')%nat \/ (off' + n <= off)%nat ->
  exists m',
    inplace_binary f order m (View a off n false) (View b off' n ro) = Val (View a off n false, m') /\
    call_binary f m (View a off n false) (View b off' n ro) = Val (Owned (read_view m' a off n)) /\
    read_view m' a off n = zip_with g (read_view m a off n) (read_view m b off' n) /\
    (forall a' k, ~ (a' = a /\ (off <= k < off + n)%nat) -> m' a' k = m a' k).
Proof.
  intros T f g Hf m a off n b off' ro order Hp Hd. destruct (order_in n order Hp) as [Hnd Hin].
  destruct (inplace_loop_val f g Hf a off (fun m i => m b (off' + i)%nat) order m Hnd) as [m' [H1 [H2 H3]]].
  { intros i j m0 t Hi Hj Hij. apply Hin in Hi. apply Hin in Hj. apply set_cell_other.
    destruct (Nat.eq_dec b a) as [->|]; [|left; assumption]. right. lia. }
  assert (Hv : read_view m' a off n = zip_with g (read_view m a off n) (read_view m b off' n)).
  { unfold zip_with, read_view. rewrite combine_map_seq, map_map. apply map_ext_in. intros i Hi.
    apply in_seq in Hi. cbn [fst snd]. apply H2. apply Hin. lia. }
  exists m'. split; [|split; [|split]].
  - unfold inplace_binary. rewrite Nat.eqb_refl, H1. reflexivity.
  - unfold call_binary. cbn [is_array elements bind]. unfold read_view at 1 2. rewrite !map_length, Nat.eqb_refl.
    rewrite Hv. unfold zip_with.
    enough (map_outcome (fun p => f (fst p) (snd p)) (combine (read_view m a off n) (read_view m b off' n))
            = Val (map (fun q => g (fst q) (snd q)) (combine (read_view m a off n) (read_view m b off' n)))) as ->
      by reflexivity.
    apply map_outcome_val. induction (combine (read_view m a off n) (read_view m b off' n)) as [|q l IH];
      cbn [map]; constructor; [apply Hf|exact IH].
  - exact Hv.
  - intros a' k Hk. apply H3. intros [-> [i [Hi ->]]]. apply Hin in Hi. apply Hk. split; [reflexivity|lia].
Qed.

(** C106: the same for the unary calls, and for a vector as the second operand. *)
Theorem item_inplace_view_unary :
  forall (T : Type) (f : T -> outcome T) (g : T -> T), (forall a, f a = Val (g a)) ->
  forall m a off n order, Permutation (seq 0 n) order ->
  exists m',
    inplace_unary f order m (View a off n false) = Val (View a off n false, m') /\
    read_view m' a off n = map g (read_view m a off n) /\
    (forall a' k, ~ (a' = a /\ (off <= k < off + n)%nat) -> m' a' k = m a' k).
Proof.
  intros T f g Hf m a off n order Hp. destruct (order_in n order Hp) as [Hnd Hin].
  destruct (inplace_loop_val (fun t _ => f t) (fun t _ => g t) (fun a _ => Hf a) a off (fun m i => m a (off + i)%nat) order m Hnd)
    as [m' [H1 [H2 H3]]].
  { intros i j m0 t Hi Hj Hij. apply set_cell_other. right. lia. }
  exists m'. split; [|split].
  - unfold inplace_unary. rewrite H1. reflexivity.
  - unfold read_view. rewrite map_map. apply map_ext_in. intros i Hi. apply in_seq in Hi. apply H2. apply Hin. lia.
  - intros a' k Hk. apply H3. intros [-> [i [Hi ->]]]. apply Hin in Hi. apply Hk. split; [reflexivity|lia].
Qed.

Theorem item_inplace_view_vector :
  forall (T : Type) (f : T -> T -> outcome T) (g : T -> T -> T), (forall a b, f a b = Val (g a b)) ->
  forall m a off k order, Permutation (seq 0 (length k)) order ->
  exists m',
    inplace_binary f order m (View a off (length k) false) (Owned k) = Val (View a off (length k) false, m') /\
    read_view m' a off (length k) = zip_with g (read_view m a off (length k)) k /\
    (forall a' j, ~ (a' = a /\ (off <= j < off + length k)%nat) -> m' a' j = m a' j).
Proof.
  intros T f g Hf m a off k order Hp. destruct (order_in (length k) order Hp) as [Hnd Hin].
  destruct (inplace_loop_val f g Hf a off (fun m i => nth i k (m a (off + i)%nat)) order m Hnd) as [m' [H1 [H2 H3]]].
  { intros i j m0 t Hi Hj Hij. rewrite set_cell_other by (right; lia). reflexivity. }
  exists m'. split; [|split].
  - unfold inplace_binary. rewrite Nat.eqb_refl, H1. reflexivity.
  - assert (Hk : k = map (fun i => nth i k (m a (off + i)%nat)) (seq 0 (length k))).
    { apply nth_ext with (d := m a 0%nat) (d' := m a 0%nat); [rewrite map_length, seq_length; reflexivity|].
      intros i Hi.
      rewrite (nth_indep (map _ _) _ (nth 0 k (m a (off + 0)%nat))) by (rewrite map_length, seq_length; exact Hi).
      rewrite (map_nth (fun i => nth i k (m a (off + i)%nat)) (seq 0 (length k)) 0%nat).
      rewrite seq_nth by exact Hi. apply nth_indep. exact Hi. }
    unfold zip_with. rewrite Hk at 3. unfold read_view. rewrite combine_map_seq, map_map. apply map_ext_in. intros i Hi.
    apply in_seq in Hi. cbn [fst snd]. apply H2. apply Hin. lia.
  - intros a' j Hj. apply H3. intros [-> [i [Hi ->]]]. apply Hin in Hi. apply Hj. split; [reflexivity|lia].
Qed.

(** C106: in place on a scalar or a vector, the item becomes what the ordinary call
    returns and the memory does not change; arrays of different lengths, and an array and
    a scalar, are refused. *)
Theorem item_inplace_owned :
  forall (T : Type) (f : T -> outcome T) (f2 : T -> T -> outcome T) order m x y k,
  (exists t, x = Scalar t) \/ (exists l, x = Owned l) -> elements m y = Val k ->
  (forall z m', inplace_unary f order m x = Val (z, m') <-> call_unary f m x = Val z /\ m' = m) /\
  (forall z m', inplace_binary f2 order m x y = Val (z, m') <-> call_binary f2 m x y = Val z /\ m' = m).
Proof.
  intros T f f2 order m x y k Hx Hy.
  assert (Hb : forall (A : Type) (o : outcome A) (c : A -> item T) z m',
             bind o (fun r => Val (c r, m)) = Val (z, m') <-> bind o (fun r => Val (c r)) = Val z /\ m' = m).
  { intros A o c z m'. destruct o; cbn [bind]; split; intro H; try discriminate; try (destruct H; discriminate).
    - injection H as <- <-. auto.
    - destruct H as [H ->]. congruence. }
  split; intros z m'.
  - destruct Hx as [[t ->]|[l ->]]; cbn [inplace_unary]; unfold call_unary; cbn [is_array elements bind]; apply Hb.
  - assert (Ht : forall A : outcome (item T * memory T), (A = Thrown -> A = Val (z, m') <-> @Thrown (item T) = Val z /\ m' = m)).
    { intros A ->. split; [discriminate|intros [H _]; discriminate H]. }
    destruct Hx as [[t ->]|[l ->]]; unfold call_binary; destruct y as [b|ly|ay oy ny ry| |];
      cbn [elements] in Hy; try discriminate; cbn [inplace_binary is_array elements bind];
      try (apply Ht; reflexivity); try apply Hb.
    + destruct (Nat.eqb (length l) (length ly)); [apply Hb|apply Ht; reflexivity].
    + destruct (Nat.eqb (length l) (length (read_view m ay oy ny))); [apply Hb|apply Ht; reflexivity].
Qed.

Theorem item_inplace_mismatch :
  forall (T : Type) (f2 : T -> T -> outcome T) order m x y l k,
  elements m x = Val l -> elements m y = Val k -> length l <> length k \/ is_array x <> is_array y ->
  inplace_binary f2 order m x y = Thrown.
Proof.
  intros T f2 order m x y l k Hx Hy H.
  assert (Hv : forall a o n, length (read_view m a o n) = n)
    by (intros; unfold read_view; rewrite map_length, seq_length; reflexivity).
  destruct x as [a|lx|ax ox nx rx| |], y as [b|ly|ay oy ny ry| |]; cbn [elements] in *; try discriminate;
    injection Hx as <-; injection Hy as <-; cbn [is_array length] in H; cbn [inplace_binary elements bind]; try reflexivity;
    destruct H as [H|H]; try congruence; rewrite ?Hv in H; rewrite ?Hv;
    try (destruct rx; [reflexivity|]);
    match goal with |- context [Nat.eqb ?a ?b] => destruct (Nat.eqb_spec a b); [contradiction|reflexivity] end.
Qed.

(** C106: a read-only view is never modified. *)
Theorem item_readonly :
  forall (T : Type) (f : T -> outcome T) (f2 : T -> T -> outcome T) order m a off n y,
  inplace_unary f order m (View a off n true) = Thrown /\
  inplace_binary f2 order m (View a off n true) y = Thrown.
Proof. intros T f f2 order m a off n y. split; [reflexivity|]. destruct y; reflexivity. Qed.

Lemma seq_plus : forall k q s, seq (q + s) k = map (fun i => (q + i)%nat) (seq s k).
Proof.
  induction k as [|k IH]; intros q s; cbn [seq map]; [reflexivity|].
  f_equal. rewrite <- IH. f_equal. lia.
Qed.

(** C106: SubItem is the slice, inside its parent; a start past the end is refused, a
    sub-item of a read-only view is read-only. *)
Theorem item_sub_item :
  forall (T : Type) (m : memory T) a off n ro pos len const,
  ((pos <= n)%nat -> exists k,
     sub_item (T := T) (View a off n ro) pos len const = Val (View a (off + pos) k (ro || const)) /\
     (off + pos + k <= off + n)%nat /\
     elements m (View a (off + pos) k (ro || const))
     = Val (match len with Some j => firstn j (skipn pos (read_view m a off n)) | None => skipn pos (read_view m a off n) end)) /\
  ((n < pos)%nat -> sub_item (T := T) (View a off n ro) pos len const = Thrown).
Proof.
  intros T m a off n ro pos len const. split.
  - intro Hp. unfold sub_item. apply Nat.leb_le in Hp as Hb. rewrite Hb.
    eexists. split; [reflexivity|].
    assert (Hs : forall q, (q <= n)%nat -> skipn q (read_view m a off n) = read_view m a (off + q) (n - q)).
    { intros q Hq. unfold read_view. rewrite skipn_map.
      replace (seq 0 n) with (seq 0 q ++ seq q (n - q)) by (rewrite <- seq_app; f_equal; lia).
      rewrite skipn_app, seq_length, Nat.sub_diag, skipn_O, skipn_all2 by (rewrite seq_length; lia). cbn [app].
      replace (seq q (n - q)) with (map (fun i => (q + i)%nat) (seq 0 (n - q))).
      - rewrite map_map. apply map_ext. intro i. f_equal. lia.
      - rewrite <- (seq_plus (n - q) q 0), Nat.add_0_r. reflexivity. }
    assert (Hfn : forall j o k, firstn j (read_view m a o k) = read_view m a o (Nat.min j k)).
    { intros j o k. unfold read_view. rewrite firstn_map. f_equal. clear. generalize 0%nat as s. revert k.
      induction j as [|j IHj]; intros k s; [reflexivity|]. destruct k as [|k]; [reflexivity|].
      cbn [Nat.min seq firstn]. f_equal. apply IHj. }
    destruct len as [j|].
    + split; [lia|]. cbn [elements]. rewrite Hs by exact Hp. rewrite Hfn. reflexivity.
    + split; [lia|]. cbn [elements]. rewrite Hs by exact Hp. reflexivity.
  - intro Hp. unfold sub_item. apply Nat.leb_gt in Hp. rewrite Hp. reflexivity.
Qed.

(** C106, false in general: "an in-place call leaves what the call out of place returns".
    With overlapping views the answer is another one, and depends on the schedule. *)
Theorem item_inplace_overlap_refuted :
  exists m x y o1 o2 m1 m2,
    Permutation (seq 0 2) o1 /\ Permutation (seq 0 2) o2 /\
    inplace_binary (gf_add 97) o1 m x y = Val (x, m1) /\ inplace_binary (gf_add 97) o2 m x y = Val (x, m2) /\
    elements m1 x <> elements m2 x /\
    call_binary (gf_add 97) m x y = Val (Owned [3; 5]) /\ elements m1 x = Val [3; 5] /\ elements m2 x = Val [6; 5].
Proof.
  exists (fun _ k => Z.of_nat (S k)), (View 0 0 2 false), (View 0 1 2 false), [0; 1]%nat, [1; 0]%nat.
  eexists. eexists. split; [apply Permutation_refl|]. split; [apply perm_swap|].
  split; [reflexivity|]. split; [reflexivity|]. vm_compute. repeat split; congruence.
Qed.

(** C106, false in general: "an item of the wrong type is refused": an in-place call on
    a scalar of another type follows a null pointer. *)
Theorem item_wrong_type_refuted :
  forall (T : Type) (f : T -> outcome T) (f2 : T -> T -> outcome T) order m t,
  inplace_unary f order m WrongScalar = OutOfBounds /\ inplace_binary f2 order m WrongScalar (Scalar t) = OutOfBounds /\
  call_unary f m WrongScalar = Thrown.
Proof. intros. repeat split. Qed.

(** ** C106: the prime field *)

Section FieldLaws.
  Variable p : Z.
  Hypothesis Hp : prime p.

  Let p1 : 1 < p := prime_pos p Hp.

  Lemma in_field_iff x : in_field p x = true <-> 0 <= x < p.
  Proof using. unfold in_field. rewrite andb_true_iff, Z.leb_le, Z.ltb_lt. reflexivity. Qed.

  Lemma mod_in x : in_field p (x mod p) = true.
  Proof using p1. apply in_field_iff. apply Z.mod_pos_bound. lia. Qed.
End FieldLaws.

Definition then2 (a b : outcome Z) (f : Z -> Z -> outcome Z) : outcome Z := bind a (fun x => bind b (f x)).

(** C106: sums, differences and products of any integers are field elements, and obey
    the laws of a commutative ring. *)
Theorem field_ring :
  forall p, prime p -> forall x y z,
  (forall f, f = gf_add p \/ f = gf_sub p \/ f = gf_mul p -> exists v, f x y = Val v /\ in_field p v = true) /\
  gf_add p x y = gf_add p y x /\ gf_mul p x y = gf_mul p y x /\
  then2 (Val x) (gf_add p y z) (gf_add p) = then2 (gf_add p x y) (Val z) (gf_add p) /\
  then2 (Val x) (gf_mul p y z) (gf_mul p) = then2 (gf_mul p x y) (Val z) (gf_mul p) /\
  then2 (Val x) (gf_add p y z) (gf_mul p) = then2 (gf_mul p x y) (gf_mul p x z) (gf_add p) /\
  then2 (gf_sub p x y) (Val y) (gf_add p) = gf_add p x 0 /\
  (in_field p x = true -> gf_add p x 0 = Val x /\ gf_mul p x 1 = Val x).
Proof.
  intros p Hp x y z. pose proof (prime_pos p Hp) as p1.
  split.
  { intros f [->|[->| ->]]; eexists; (split; [reflexivity|apply mod_in; exact Hp]). }
  unfold gf_add, gf_sub, gf_mul, then2. cbn [bind].
  split; [f_equal; f_equal; ring|]. split; [f_equal; f_equal; ring|].
  split; [rewrite Zplus_mod_idemp_r, Zplus_mod_idemp_l; f_equal; f_equal; ring|].
  split; [rewrite Zmult_mod_idemp_r, Zmult_mod_idemp_l; f_equal; f_equal; ring|].
  split; [rewrite Zmult_mod_idemp_r, <- Zplus_mod; f_equal; f_equal; ring|].
  split; [rewrite Zplus_mod_idemp_l; f_equal; f_equal; ring|].
  intro Hx. apply in_field_iff in Hx. rewrite Z.add_0_r, Z.mul_1_r, Z.mod_small by exact Hx. auto.
Qed.

(** C106: opposite, inverse and quotient; Inv and Div throw exactly for zero. *)
Theorem field_inverses :
  forall p debug, prime p -> forall x y, in_field p x = true -> in_field p y = true ->
  (exists v, gf_neg p debug x = Val v /\ gf_neg_inplace p debug x = Val v /\ in_field p v = true /\ gf_add p x v = Val 0) /\
  (is_zero y = true -> gf_inv p y = Thrown /\ gf_div p x y = Thrown) /\
  (is_zero y = false ->
     (exists v, gf_inv p y = Val v /\ in_field p v = true /\ gf_mul p y v = Val 1) /\
     (exists q, gf_div p x y = Val q /\ in_field p q = true /\ gf_mul p q y = Val x)).
Proof.
  intros p debug Hp x y Hx Hy. pose proof (prime_pos p Hp) as p1.
  assert (Hx' := Hx). assert (Hy' := Hy). apply in_field_iff in Hx'. apply in_field_iff in Hy'.
  split; [|split].
  - unfold gf_neg, gf_neg_inplace. destruct (Z.eqb_spec x 0) as [->|Hn].
    + exists 0. repeat split; try assumption.
    + rewrite Hx. rewrite andb_false_r. exists (p - x). split; [reflexivity|]. unfold gf_add.
      replace (- x + p) with (p - x) by ring. rewrite Z.mod_small by lia. split; [reflexivity|].
      split; [apply in_field_iff; lia|]. replace (x + (p - x)) with p by ring. rewrite Z_mod_same_full. reflexivity.
  - intro Hz. apply Z.eqb_eq in Hz. subst y. unfold gf_div, gf_inv.
    rewrite invert_mod_zero; [split; reflexivity|exact Hp|reflexivity].
  - intro Hz. apply Z.eqb_neq in Hz.
    destruct (invert_mod_prime y p Hp) as [r Hr].
    { intro E. apply (eqm_small p y 0) in E; lia. }
    pose proof (invert_mod_some y p r Hr) as [Hr1 Hr2]. unfold gf_div, gf_inv. rewrite Hr. cbn [bind].
    assert (Hm : y * r mod p = 1) by (destruct Hr2 as [E]; rewrite E; apply Z.mod_small; lia).
    split.
    + exists r. split; [reflexivity|]. split; [apply in_field_iff; exact Hr1|]. unfold gf_mul. rewrite Hm. reflexivity.
    + exists (x * r mod p). split; [reflexivity|]. split; [apply mod_in; exact Hp|]. unfold gf_mul. f_equal.
      rewrite Zmult_mod_idemp_l. replace (x * r * y) with (x * (y * r)) by ring.
      rewrite <- Zmult_mod_idemp_r, Hm, Z.mul_1_r. apply Z.mod_small. exact Hx'.
Qed.

(** C106: powers: by repeated multiplication, with inverses for negative exponents. *)
Theorem field_pow :
  forall p, prime p -> forall x, in_field p x = true ->
  (forall e v, gf_pow p e x = Val v -> in_field p v = true) /\
  gf_pow p 0 x = Val 1 /\
  (forall e, 0 <= e -> then2 (gf_pow p e x) (Val x) (gf_mul p) = gf_pow p (e + 1) x) /\
  (forall e, e < 0 -> is_zero x = true -> gf_pow p e x = Thrown) /\
  (forall e, e < 0 -> is_zero x = false -> exists v w, gf_pow p e x = Val v /\ gf_pow p (- e) x = Val w /\ gf_mul p v w = Val 1).
Proof.
  intros p Hp x Hx. pose proof (prime_pos p Hp) as p1. assert (Hx' := Hx). apply in_field_iff in Hx'.
  split; [|split; [|split; [|split]]].
  - intros e v H. unfold gf_pow in H. destruct (e <? 0).
    + destruct (gf_inv p x) as [i| | |]; cbn [bind] in H; try discriminate. injection H as <-. apply mod_in. exact Hp.
    + injection H as <-. apply mod_in. exact Hp.
  - unfold gf_pow. cbn [Z.ltb Z.compare]. rewrite Z.pow_0_r, Z.mod_small by lia. reflexivity.
  - intros e He. unfold gf_pow.
    replace (e <? 0) with false by (symmetry; apply Z.ltb_ge; lia).
    replace (e + 1 <? 0) with false by (symmetry; apply Z.ltb_ge; lia).
    unfold then2, gf_mul. cbn [bind]. rewrite Zmult_mod_idemp_l, Z.pow_add_r by lia. rewrite Z.pow_1_r. reflexivity.
  - intros e He Hz. unfold gf_pow. replace (e <? 0) with true by (symmetry; apply Z.ltb_lt; lia).
    destruct (field_inverses p false Hp x x Hx Hx) as [_ [H _]]. rewrite (proj1 (H Hz)). reflexivity.
  - intros e He Hz. unfold gf_pow. replace (e <? 0) with true by (symmetry; apply Z.ltb_lt; lia).
    replace (- e <? 0) with false by (symmetry; apply Z.ltb_ge; lia).
    destruct (field_inverses p false Hp x x Hx Hx) as [_ [_ H]]. destruct (H Hz) as [[v [H1 [H2 H3]]] _].
    rewrite H1. cbn [bind]. eexists. eexists. split; [reflexivity|]. split; [reflexivity|].
    unfold gf_mul in *. f_equal. injection H3 as H3.
    rewrite <- Zmult_mod, <- Z.pow_mul_l. replace (v * x) with (x * v) by ring.
    set (n := - e). assert (Hn : 0 <= n) by lia. clearbody n. clear - H3 Hn p1. revert n Hn.
    apply natlike_ind; [rewrite Z.pow_0_r; apply Z.mod_small; lia|].
    intros n Hn IH. rewrite Z.pow_succ_r by exact Hn.
    rewrite <- Zmult_mod_idemp_l, H3, Z.mul_1_l. exact IH.
Qed.

(** C106: Equal on two arrays is equality of the element lists; an array never equals a
    scalar. *)
Theorem field_equal :
  forall m x y l k, elements m x = Val l -> elements m y = Val k ->
  gf_equal m x y = Val (if Bool.eqb (is_array x) (is_array y) then (if list_eq_dec Z.eq_dec l k then true else false) else false).
Proof.
  intros m x y l k Hx Hy.
  assert (Hg : forall l k, Nat.eqb (length l) (length k) && forallb (fun q => fst q =? snd q) (combine l k)
               = if list_eq_dec Z.eq_dec l k then true else false).
  { clear. induction l as [|a l IH]; intros [|b k]; try reflexivity.
    { cbn [length Nat.eqb combine forallb fst snd].
      destruct (Z.eqb_spec a b) as [->|Hab]; cbn [andb].
      + rewrite IH. destruct (list_eq_dec Z.eq_dec l k) as [->|H]; destruct (list_eq_dec Z.eq_dec (b :: _) (b :: k)) as [H2|H2];
          congruence || reflexivity.
      + rewrite andb_false_r. destruct (list_eq_dec Z.eq_dec (a :: l) (b :: k)); congruence || reflexivity. } }
  unfold gf_equal.
  destruct x as [a|lx|ax ox nx rx| |], y as [b|ly|ay oy ny ry| |]; cbn [is_array Bool.eqb elements] in *; try discriminate;
    try reflexivity; injection Hx as <-; injection Hy as <-; cbn [bind]; rewrite ?Hg; try reflexivity.
  destruct (Z.eqb_spec a b) as [->|H]; [destruct (list_eq_dec Z.eq_dec [b] [b])|destruct (list_eq_dec Z.eq_dec [a] [b])];
    congruence || reflexivity.
Qed.

Lemma prime_5 : prime 5.
Proof.
  constructor; [lia|]. intros n Hn. apply Zgcd_1_rel_prime.
  assert (n = 1 \/ n = 2 \/ n = 3 \/ n = 4) as [->|[->|[->| ->]]] by lia; reflexivity.
Qed.
Example field_inverses_used : gf_inv 97 5 = Val 39 /\ gf_div 97 7 5 = Val 79 /\ gf_pow 97 (Z.opp 2) 5 = Val 66.
Proof. vm_compute. repeat split. Qed.

(** C106, false in general: "Neg and NegInplace agree": on an integer outside the field, in
    a release build, they differ, and Neg leaves the field. *)
Theorem field_neg_outside_refuted :
  exists p x, prime p /\ gf_neg p false x = Val 6 /\ gf_neg_inplace p false x = Val 1 /\ in_field p 6 = false.
Proof. exists 5, (Z.opp 1). split; [exact prime_5|]. repeat split. Qed.

(** ** C107: items as bytes *)

(** An element library: every good element has a code of the announced size; it is written
    at the start of a buffer that is large enough, which is refused otherwise; reading the
    code gives the element back. *)
Definition codec {T} (good : T -> Prop) (code : T -> list Z) (size : T -> Z)
  (ser : T -> list Z -> outcome (list Z * Z)) (des : list Z -> outcome T) : Prop :=
  forall t, good t ->
  len (code t) = size t /\ size t < 2 ^ 32 /\ des (code t) = Val t /\
  (forall buf, len buf < size t -> ser t buf = Thrown) /\
  (forall buf, size t <= len buf -> ser t buf = Val (code t ++ skipn (length (code t)) buf, size t)).

Definition header_bytes (h : Z) : list Z := if 0 <=? h then [h] else [].

(** The MessagePack object that an item stands for. *)
Definition item_obj {T} (code : T -> list Z) (arr : bool) (l : list T) : obj :=
  if arr then OArr (map (fun t => OStr (code t)) l) else match l with t :: _ => OStr (code t) | [] => ONil end.

Section CodecProof.
  Context {T : Type}.
  Variable good : T -> Prop.
  Variable code : T -> list Z.
  Variable size : T -> Z.
  Variable ser : T -> list Z -> outcome (list Z * Z).
  Variable des : list Z -> outcome T.
  Hypothesis Hc : codec good code size ser des.

  Definition one (t : T) : list Z := enc (OStr (code t)).

  Lemma one_eq t : good t -> one t = pack_str (size t) ++ code t.
  Proof using Hc.
    intro G. destruct (Hc t G) as (H1 & H2 & _). unfold one, enc, pack_str. cbn [writes].
    rewrite H1. apply Z.ltb_lt in H2 as H3. rewrite H3. cbn [cat]. rewrite app_nil_r.
    rewrite Z.mod_small; [reflexivity|]. pose proof (len_nonneg Z (code t)). lia.
  Qed.

  Lemma size_nat t : good t -> Z.to_nat (size t) = length (code t).
  Proof using Hc. intro G. destruct (Hc t G) as (H1 & _). unfold len in H1. lia. Qed.

  Lemma head_len t : good t -> len (pack_str (size t)) = head_size_of_str (size t).
  Proof using Hc.
    intro G. destruct (Hc t G) as (H1 & H2 & _). pose proof (len_nonneg Z (code t)). unfold pack_str.
    rewrite Z.mod_small by lia.
    unfold str_head, head_size_of_str, len.
    repeat match goal with |- context [if ?c then _ else _] => destruct c end; reflexivity.
  Qed.

  Lemma s_element_val t c free : good t -> size t <= len free ->
    s_element ser t (c, free) = Val (c ++ code t, skipn (length (code t)) free).
  Proof using Hc.
    intros G Hs. destruct (Hc t G) as (H1 & H2 & H3 & H4 & H5). unfold s_element. cbn [fst snd].
    rewrite H5 by exact Hs. cbn [bind fst snd]. rewrite (size_nat t G).
    rewrite firstn_app, skipn_app, firstn_all, skipn_all, Nat.sub_diag, firstn_O, skipn_O, app_nil_r. reflexivity.
  Qed.

  Lemma expand_len extra b : extra <= len (snd (s_expand extra b)) /\ fst (s_expand extra b) = fst b.
  Proof using. unfold s_expand, len. cbn [fst snd]. rewrite app_length, repeat_length. split; [lia|reflexivity]. Qed.

  Lemma s_loop_val : forall l i n total b, Forall good l ->
    exists free, s_loop size ser l i n total b = Val (fst b ++ flat_map one l, free).
  Proof using Hc.
    induction l as [|t l IH]; intros i n total b Hg.
    - exists (snd b). cbn [s_loop flat_map]. rewrite app_nil_r. destruct b; reflexivity.
    - inversion Hg as [|x y G Hg']; subst. cbn [s_loop]. cbv zeta.
      set (b1 := s_write (pack_str (size t)) b).
      set (b2 := if len (snd b1) <? size t then s_expand (Z.max (((total + size t) / (i + 1) + 5) * (n - i)) (size t)) b1 else b1).
      assert (Hb : fst b2 = fst b ++ pack_str (size t) /\ size t <= len (snd b2)).
      { unfold b2. destruct (Z.ltb_spec (len (snd b1)) (size t)) as [Hl|Hl].
        - destruct (expand_len (Z.max (((total + size t) / (i + 1) + 5) * (n - i)) (size t)) b1) as [E1 E2].
          rewrite E2. split; [reflexivity|lia].
        - split; [reflexivity|lia]. }
      destruct b2 as [c free]. cbn [fst snd] in Hb. destruct Hb as [-> Hb].
      rewrite (s_element_val t _ free G Hb). cbn [bind].
      destruct (IH (i + 1) n (total + size t) ((fst b ++ pack_str (size t)) ++ code t, skipn (length (code t)) free) Hg') as [fr Hf].
      exists fr. rewrite Hf. cbn [fst flat_map]. rewrite (one_eq t G), <- !app_assoc. reflexivity.
  Qed.

  Lemma f_element_val t c free : good t ->
    f_element ser t (c, free) =
    if Nat.leb (length (code t)) (length free) then Val (c ++ code t, skipn (length (code t)) free) else Thrown.
  Proof using Hc.
    intros G. destruct (Hc t G) as (H1 & H2 & H3 & H4 & H5). unfold f_element. cbn [fst snd].
    destruct (Nat.leb_spec (length (code t)) (length free)) as [Hl|Hl].
    - rewrite H5 by (unfold len in *; lia). cbn [bind fst snd].
      replace (size t <=? len (code t ++ skipn (length (code t)) free)) with true
        by (symmetry; apply Z.leb_le; rewrite len_app, H1; pose proof (len_nonneg Z (skipn (length (code t)) free)); lia).
      rewrite (size_nat t G).
      rewrite firstn_app, skipn_app, firstn_all, skipn_all, Nat.sub_diag, firstn_O, skipn_O, app_nil_r. reflexivity.
    - rewrite H4 by (unfold len in *; lia). reflexivity.
  Qed.

  (** Writing two pieces one after the other. *)
  Lemma skip2 (a b free : list Z) : skipn (length b) (skipn (length a) free) = skipn (length (a ++ b)) free.
  Proof using.
    rewrite app_length. generalize (length a) as i. generalize (length b) as j. clear.
    intros j i. revert free. induction i as [|i IH]; intro free; [reflexivity|]. destruct free; [rewrite !skipn_nil; reflexivity|].
    cbn [skipn Nat.add]. apply IH.
  Qed.

  Definition put (w : list Z) (b : sbuf) : outcome sbuf :=
    if Nat.leb (length w) (length (snd b)) then Val (fst b ++ w, skipn (length w) (snd b)) else Thrown.

  Lemma put_put a w b : bind (put a b) (put w) = put (a ++ w) b.
  Proof using.
    unfold put. destruct (Nat.leb_spec (length a) (length (snd b))) as [H|H]; cbn [bind fst snd].
    - rewrite skipn_length, skip2, <- app_assoc, app_length.
      destruct (Nat.leb_spec (length w) (length (snd b) - length a)), (Nat.leb_spec (length a + length w) (length (snd b)));
        reflexivity || lia.
    - rewrite app_length. destruct (Nat.leb_spec (length a + length w) (length (snd b))); [lia|reflexivity].
  Qed.

  Lemma bind_ext A B (x : outcome A) (f g : A -> outcome B) : (forall a, f a = g a) -> bind x f = bind x g.
  Proof using. intro H. destruct x; cbn [bind]; auto. Qed.
  Lemma bind_assoc A B D (x : outcome A) (f : A -> outcome B) (g : B -> outcome D) :
    bind (bind x f) g = bind x (fun a => bind (f a) g).
  Proof using. destruct x; reflexivity. Qed.

  Lemma f_item t b : good t -> bind (f_write (pack_str (size t)) b) (f_element ser t) = put (one t) b.
  Proof using Hc.
    intro G. rewrite (one_eq t G), <- put_put. apply bind_ext. intros [c free]. apply f_element_val. exact G.
  Qed.

  Lemma f_loop_val : forall l b, Forall good l -> f_loop size ser l b = put (flat_map one l) b.
  Proof using Hc.
    induction l as [|t l IH]; intros b Hg.
    - unfold put. cbn [f_loop flat_map length Nat.leb skipn]. rewrite app_nil_r. destruct b; reflexivity.
    - inversion Hg as [|x y G Hg']; subst. cbn [f_loop flat_map].
      rewrite <- put_put, <- (f_item t b G), bind_assoc. apply bind_ext. intro b1. apply bind_ext. intro b2. apply IH. exact Hg'.
  Qed.

  Lemma arr_eq l : Forall good l -> len l < 2 ^ 32 -> enc (item_obj code true l) = pack_array (len l) ++ flat_map one l.
  Proof using.
    intros Hg Hl. unfold item_obj. rewrite enc_arr by (unfold len in *; rewrite map_length; exact Hl).
    unfold pack_array. rewrite Z.mod_small by (split; [apply len_nonneg|exact Hl]).
    unfold len. rewrite map_length. f_equal. induction l as [|t l IH]; [reflexivity|]. cbn [map flat_map].
    inversion Hg; subst. rewrite IH; [reflexivity|assumption|unfold len in *; cbn [length] in Hl; lia].
  Qed.

  Lemma arr_head_len n : len (arr_head n) = head_size_of_array n.
  Proof using.
    unfold arr_head, head_size_of_array, len.
    repeat match goal with |- context [if ?c then _ else _] => destruct c end; reflexivity.
  Qed.

  Lemma item_wf arr l : Forall good l -> len l < 2 ^ 32 -> (arr = false -> l <> []) -> MsgProof.wf (item_obj code arr l).
  Proof using Hc.
    intros Hg Hl Ha. destruct arr; cbn [item_obj].
    - cbn [MsgProof.wf]. split; [unfold len in *; rewrite map_length; exact Hl|]. apply wf_forall.
      apply Forall_forall. intros o Ho. apply in_map_iff in Ho. destruct Ho as [t [<- Ht]].
      rewrite Forall_forall in Hg. destruct (Hc t (Hg t Ht)) as (H1 & H2 & _). cbn [MsgProof.wf]. lia.
    - destruct l as [|t l]; [exfalso; apply (Ha eq_refl); reflexivity|]. inversion Hg as [|x y G Hg']; subst.
      destruct (Hc t G) as (H1 & H2 & _). cbn [MsgProof.wf]. lia.
  Qed.
End CodecProof.

Lemma header_eq : forall h, pack_header h = header_bytes h.
Proof. reflexivity. Qed.

(** C107: the bytes of an item are the MessagePack encoding of its elements' codes, after
    the optional header byte, whatever the reserve; the size call announces their number;
    writing to a buffer puts the same bytes at its start, exactly if they fit; and what
    was written is read back. *)
Theorem item_bytes :
  forall (T : Type) (good : T -> Prop) code size ser des, codec good code size ser des ->
  forall m (x : item T) l, elements m x = Val l -> Forall good l -> len l < 2 ^ 32 ->
  forall header,
  let bytes := header_bytes header ++ enc (item_obj code (is_array x) l) in
  (forall reserve, serialize_item size ser reserve header m x = Val bytes) /\
  item_size size header m x = Val (len bytes) /\
  (forall buf, len bytes <= len buf -> serialize_item_to size ser header m x buf = Val (bytes ++ skipn (length bytes) buf, len bytes)) /\
  (forall buf, len buf < len bytes -> serialize_item_to size ser header m x buf = Thrown) /\
  (forall rest, deserialize_item des (skipn (length (header_bytes header)) bytes ++ rest)
     = Val (if is_array x then Owned l else x)).
Proof.
  intros T good code size ser des Hc m x l Hx Hg Hl header bytes.
  assert (Hsc : is_array x = false -> exists t, x = Scalar t /\ l = [t]).
  { destruct x; cbn [is_array elements] in *; try discriminate. intros _. injection Hx as <-. eexists. split; reflexivity. }
  assert (Hto : forall buf, serialize_item_to size ser header m x buf
                = bind (put bytes ([], buf)) (fun b => Val (fst b ++ snd b, len (fst b)))).
  { intro buf. unfold serialize_item_to, bytes. rewrite <- put_put, bind_assoc. apply bind_ext. intro b.
    destruct (is_array x) eqn:Ea.
    - rewrite Hx. cbn [bind]. rewrite (arr_eq good code l Hg Hl). rewrite <- put_put.
      apply (f_equal (fun o => bind o _)). apply bind_ext. intro b'. apply (f_loop_val good code size ser des Hc). exact Hg.
    - destruct (Hsc eq_refl) as [t [-> ->]]. inversion Hg as [|y z G Hg']; subst.
      rewrite (f_item good code size ser des Hc t b G). reflexivity. }
  split; [|split; [|split; [|split]]].
  - intro reserve. unfold serialize_item, bytes. destruct (is_array x) eqn:Ea.
    + rewrite Hx. cbn [bind]. rewrite (arr_eq good code l Hg Hl). destruct l as [|t l'] eqn:El.
      * cbn [flat_map]. rewrite app_nil_r. reflexivity.
      * rewrite <- El in *. set (b := s_write (pack_array (len l)) (s_write (pack_header header) (s_expand reserve ([], [])))).
        destruct (s_loop_val good code size ser des Hc l 0 (len l) 0 b Hg) as [fr Hf]. rewrite Hf. cbn [bind fst].
        unfold b, s_write, s_expand. cbn [fst app]. rewrite header_eq, <- app_assoc. reflexivity.
    + destruct (Hsc eq_refl) as [t [-> ->]]. inversion Hg as [|y z G Hg']; subst. cbv zeta.
      set (b := s_write (pack_header header) (s_expand (size t + head_size_of_str (size t) + 1) ([], []))).
      assert (Hfree : size t + head_size_of_str (size t) <= len (snd b)).
      { unfold b, s_write. cbn [snd]. pose proof (proj1 (expand_len (size t + head_size_of_str (size t) + 1) ([], []))) as He.
        unfold len in *. rewrite skipn_length. unfold pack_header. destruct (0 <=? header); cbn [length]; lia. }
      unfold s_write at 1. rewrite (s_element_val good code size ser des Hc t _ _ G).
      * cbn [bind fst]. unfold b, s_write, s_expand. cbn [fst app]. unfold item_obj. fold (one code t).
        rewrite (one_eq good code size ser des Hc t G), header_eq, <- app_assoc. reflexivity.
      * pose proof (head_len good code size ser des Hc t G) as Hh. unfold len in *. rewrite skipn_length. lia.
  - unfold item_size, bytes. rewrite len_app. cbv zeta.
    assert (Hh : len (header_bytes header) = if 0 <=? header then 1 else 0)
      by (unfold header_bytes; destruct (0 <=? header); reflexivity).
    destruct (is_array x) eqn:Ea.
    + rewrite Hx. cbn [bind]. rewrite (arr_eq good code l Hg Hl), len_app, Hh. f_equal.
      unfold pack_array. rewrite Z.mod_small by (split; [apply len_nonneg|exact Hl]). rewrite arr_head_len.
      enough (fold_right (fun t acc => size t + head_size_of_str (size t) + acc) 0 l = len (flat_map (one code) l)) as -> by ring.
      clear - Hc Hg. induction Hg as [|t l G Hg IH]; [reflexivity|]. cbn [fold_right flat_map]. rewrite len_app, IH.
      rewrite (one_eq good code size ser des Hc t G), len_app, (head_len good code size ser des Hc t G), (proj1 (Hc t G)). ring.
    + destruct (Hsc eq_refl) as [t [-> ->]]. inversion Hg as [|y z G Hg']; subst. f_equal. rewrite Hh.
      unfold item_obj. fold (one code t).
      rewrite (one_eq good code size ser des Hc t G), len_app, (head_len good code size ser des Hc t G), (proj1 (Hc t G)). ring.
  - intros buf Hb. rewrite Hto. unfold put. cbn [snd fst].
    replace (Nat.leb (length bytes) (length buf)) with true by (symmetry; apply Nat.leb_le; unfold len in Hb; lia).
    reflexivity.
  - intros buf Hb. rewrite Hto. unfold put. cbn [snd fst].
    replace (Nat.leb (length bytes) (length buf)) with false by (symmetry; apply Nat.leb_gt; unfold len in Hb; lia).
    reflexivity.
  - intro rest. unfold bytes. rewrite skipn_app, skipn_all, Nat.sub_diag, skipn_O. cbn [app].
    unfold deserialize_item. rewrite unpack_enc.
    + unfold item_obj. destruct (is_array x) eqn:Ea.
      * rewrite (proj2 (map_outcome_val _ _ _ _ l)); [reflexivity|].
        clear - Hc Hg. induction Hg as [|t l G Hg IH]; cbn [map]; constructor; [apply (Hc t G)|exact IH].
      * destruct (Hsc eq_refl) as [t [-> ->]]. inversion Hg as [|y z G Hg']; subst.
        destruct (Hc t G) as (_ & _ & H3 & _). rewrite H3. reflexivity.
    + apply (item_wf good code size ser des Hc); [exact Hg|exact Hl|]. intro Ea.
      destruct (Hsc Ea) as [t [_ ->]]. discriminate.
Qed.

(** C107: the elements of the prime field, MPInts, are such a library. *)
Definition mp_code (a : MpxModel.mp) : list Z :=
  MpxProof.le_bytes (Z.to_nat (MpxModel.serialize_size a))
    (Z.abs (MpxModel.value a) + MpxProof.sign_bit a * 2 ^ (8 * MpxModel.serialize_size a - 1)).

Theorem mpint_codec :
  codec (fun a => MpxProof.wf a /\ MpxModel.serialize_size a < 2 ^ 28) mp_code
        MpxModel.serialize_size MpxModel.serialize MpxModel.deserialize.
Proof.
  intros a [W Hs]. destruct (MpxProof.serialize_size_spec a W) as (T0 & _ & _ & TE).
  assert (L : length (mp_code a) = Z.to_nat (MpxModel.serialize_size a)) by apply MpxProof.le_bytes_length.
  assert (S : forall buf, MpxModel.serialize_size a <= len buf -> MpxModel.serialize a buf
              = Val (mp_code a ++ skipn (length (mp_code a)) buf, MpxModel.serialize_size a)).
  { intros buf Hb. rewrite L. apply MpxProof.serialize_correct; [exact W|exact Hb]. }
  split; [unfold len; rewrite L; lia|]. split; [change (2 ^ 28) with 268435456 in Hs; change (2 ^ 32) with 4294967296; lia|].
  split; [|split; [|exact S]].
  - pose proof (MpxProps.serialize_round_trip a (repeat 0 (Z.to_nat (MpxModel.serialize_size a))) W) as H. cbv zeta in H.
    rewrite <- TE in H. destruct (proj2 H) as (bytes & H1 & H2 & _ & H3); [rewrite repeat_length; lia|].
    rewrite S in H1 by (unfold len; rewrite repeat_length; lia). injection H1 as H1.
    rewrite !skipn_all2 in H1 by (rewrite repeat_length; lia). rewrite !app_nil_r in H1. rewrite H1. exact H3.
  - intros buf Hb. pose proof (MpxProps.serialize_round_trip a buf W) as H. cbv zeta in H.
    rewrite <- TE in H. apply (proj1 H). exact Hb.
Qed.

(** C107: in particular for items of field elements. *)
Theorem field_item_bytes :
  forall m (x : item MpxModel.mp) l, elements m x = Val l ->
  Forall (fun a => MpxProof.wf a /\ MpxModel.serialize_size a < 2 ^ 28) l -> len l < 2 ^ 32 ->
  forall reserve, exists bytes,
  serialize_item MpxModel.serialize_size MpxModel.serialize reserve (Z.opp 1) m x = Val bytes /\
  item_size MpxModel.serialize_size (Z.opp 1) m x = Val (len bytes) /\
  deserialize_item MpxModel.deserialize bytes = Val (if is_array x then Owned l else x).
Proof.
  intros m x l Hx Hg Hl reserve.
  destruct (item_bytes _ _ _ _ _ _ mpint_codec m x l Hx Hg Hl (Z.opp 1)) as (H1 & H2 & _ & _ & H5).
  eexists. split; [apply H1|]. split; [exact H2|].
  specialize (H5 []). rewrite app_nil_r in H5. exact H5.
Qed.

Example field_item_bytes_used :
  let x := Owned [MpxModel.Mp false [300]; MpxModel.Mp true [7]; MpxModel.Mp false []] in
  let bytes := [147; 162; 44; 1; 161; 135; 161; 0] in
  serialize_item MpxModel.serialize_size MpxModel.serialize 3 (Z.opp 1) (fun _ _ => MpxModel.Mp false []) x = Val bytes /\
  deserialize_item MpxModel.deserialize bytes = Val x.
Proof. vm_compute. split; reflexivity. Qed.

Example item_inplace_used :
  Permutation (seq 0 3) [2; 0; 1]%nat /\
  elements (fun _ k => Z.of_nat k) (View 0 4 3 false) = Val [4; 5; 6].
Proof.
  split; [|reflexivity]. apply Permutation_sym. change (seq 0 3) with ([0; 1] ++ [2])%nat.
  change [2; 0; 1]%nat with ([2] ++ [0; 1])%nat. apply Permutation_app_comm.
Qed.

(** C107, false: "what Deserialize returns is in the field": nothing checks it. *)
Theorem field_deserialize_refuted :
  exists bytes a, deserialize_item MpxModel.deserialize bytes = Val (Scalar a) /\ in_field 5 (MpxModel.value a) = false.
Proof. exists [162; 44; 1], (MpxModel.Mp false [300]). vm_compute. split; reflexivity. Qed.

Print Assumptions item_unary.
Print Assumptions item_binary.
Print Assumptions item_inplace_view.
Print Assumptions item_inplace_view_unary.
Print Assumptions item_inplace_view_vector.
Print Assumptions item_inplace_owned.
Print Assumptions item_inplace_mismatch.
Print Assumptions item_readonly.
Print Assumptions item_sub_item.
Print Assumptions item_inplace_overlap_refuted.
Print Assumptions item_wrong_type_refuted.
Print Assumptions field_ring.
Print Assumptions field_inverses.
Print Assumptions field_pow.
Print Assumptions field_equal.
Print Assumptions field_neg_outside_refuted.
Print Assumptions item_bytes.
Print Assumptions mpint_codec.
Print Assumptions field_item_bytes.
Print Assumptions field_deserialize_refuted.
