From Coq Require Import List ZArith Bool Lia Sorting.Sorted Permutation.
From Verif Require Import SegTreeModel.
Import ListNotations.
Open Scope Z_scope.

(** * Specification: maximal decomposition of a set of integers *)

(** [covers l y]: y belongs to one of the half-open intervals of l. *)
Definition covers (l : list seg) (y : Z) : Prop := exists s, In s l /\ fst s <= y < snd s.

(** Non-empty intervals in increasing order, with a gap between neighbours. *)
Inductive separated : list seg -> Prop :=
| sep_nil : separated []
| sep_one a b : a < b -> separated [(a, b)]
| sep_cons a b c d r : a < b -> b < c -> separated ((c, d) :: r) -> separated ((a, b) :: (c, d) :: r).

Definition maximal_decomposition (S : Z -> Prop) (l : list seg) : Prop :=
  separated l /\ forall y, covers l y <-> S y.

(** Total length of the intervals. *)
Definition total (l : list seg) : Z := fold_right (fun s n => (snd s - fst s) + n) 0 l.

Lemma sep_tail s l : separated (s :: l) -> separated l.
Proof. intros H; inversion H; subst; auto using sep_nil. Qed.

Lemma sep_hd s l : separated (s :: l) -> fst s < snd s.
Proof. intros H; inversion H; subst; simpl; auto. Qed.

Lemma sep_all_gt a b l : separated ((a, b) :: l) -> forall s, In s l -> b < fst s /\ fst s < snd s.
Proof.
  revert a b; induction l as [|[c d] r IH]; intros a b H s Hin; [destruct Hin|].
  inversion H as [| |a' b' c' d' r' Hab Hbc Hr]; subst.
  destruct Hin as [<- | Hin]; simpl.
  - split; [lia|]. apply sep_hd in Hr; simpl in Hr; lia.
  - pose proof (sep_hd _ _ Hr) as Hcd; simpl in Hcd.
    destruct (IH c d Hr s Hin); lia.
Qed.

Lemma sep_app_inv p s q : separated (p ++ s :: q) -> separated (s :: q).
Proof. induction p as [|x p IH]; simpl; intros H; auto. apply IH. eapply sep_tail; eauto. Qed.

Lemma sep_app_l p q : separated (p ++ q) -> separated p.
Proof.
  induction p as [|[a b] p IH]; simpl; intros H; [constructor|].
  destruct p as [|[c d] p]; simpl in *.
  - constructor. apply sep_hd in H; auto.
  - inversion H; subst. constructor; auto.
Qed.

Lemma sep_app_lt p a b q : separated (p ++ (a, b) :: q) -> forall s, In s p -> snd s < a /\ fst s < snd s.
Proof.
  induction p as [|[c d] p IH]; simpl; intros H s Hin; [destruct Hin|].
  destruct Hin as [<-|Hin].
  - simpl. pose proof (sep_hd _ _ H) as Hh; simpl in Hh.
    pose proof (sep_all_gt _ _ _ H (a, b)) as G; simpl in G.
    split; [apply G; apply in_or_app; right; left; auto|lia].
  - apply IH; auto. eapply sep_tail; eauto.
Qed.

(** Building [separated] from pieces. *)
Lemma sep_build p a b q :
  separated p -> separated q -> a < b ->
  (forall s, In s p -> snd s < a) -> (forall s, In s q -> b < fst s) ->
  separated (p ++ (a, b) :: q).
Proof.
  induction p as [|[c d] p IH]; simpl; intros Hp Hq Hab Hl Hr.
  - destruct q as [|[e f] q]; constructor; auto.
    apply (Hr (e, f)); left; auto.
  - destruct p as [|[e f] p]; simpl in *.
    + constructor; [apply sep_hd in Hp; simpl in Hp; lia | apply (Hl (c, d)); left; auto|].
      apply IH; auto. constructor.
    + inversion Hp; subst. constructor; auto.
Qed.

Lemma covers_app p q y : covers (p ++ q) y <-> covers p y \/ covers q y.
Proof.
  unfold covers; split.
  - intros (s & Hin & Hy). apply in_app_or in Hin. destruct Hin; [left|right]; eauto.
  - intros [(s & Hin & Hy)|(s & Hin & Hy)]; exists s; split; auto; apply in_or_app; auto.
Qed.

Lemma covers_cons s q y : covers (s :: q) y <-> fst s <= y < snd s \/ covers q y.
Proof.
  unfold covers; simpl; split.
  - intros (x & [-> |Hin] & Hy); [left|right]; eauto.
  - intros [H|(x & Hin & Hy)]; [exists s|exists x]; auto.
Qed.

Lemma covers_nil y : covers [] y <-> False.
Proof. unfold covers; simpl; split; [intros (s & [] & _)|tauto]. Qed.

(** * Facts about the cursor operations *)

Lemma unsnoc_none {A} (l : list A) : unsnoc l = None -> l = [].
Proof. destruct l as [|x r]; simpl; auto. destruct (unsnoc r) as [[? ?]|]; discriminate. Qed.

Lemma unsnoc_some {A} (l p : list A) x : unsnoc l = Some (p, x) -> l = p ++ [x].
Proof.
  revert p x; induction l as [|y r IH]; simpl; intros p x H; [discriminate|].
  destruct (unsnoc r) as [[p' z]|] eqn:E; inversion H; subst.
  - simpl. f_equal. apply IH; auto.
  - apply unsnoc_none in E; subst; auto.
Qed.

Lemma unsnoc_app {A} (p : list A) x : unsnoc (p ++ [x]) = Some (p, x).
Proof. induction p as [|y p IH]; simpl; auto. rewrite IH; auto. Qed.

Lemma split_upper_spec item l a b :
  split_upper item l = (a, b) -> separated l ->
  l = a ++ b /\ (forall s, In s a -> fst s <= item) /\ (forall s, In s b -> item < fst s).
Proof.
  revert a b; induction l as [|s r IH]; simpl; intros a b H Hs.
  - inversion H; subst. simpl; repeat split; intros ? [].
  - destruct (fst s <=? item) eqn:E.
    + destruct (split_upper item r) as [a' b'] eqn:E2. inversion H; subst; clear H.
      destruct (IH a' b eq_refl (sep_tail _ _ Hs)) as (-> & Ha & Hb).
      split; [reflexivity|]; split; [|exact Hb].
      intros x [<-|Hx]; [apply Z.leb_le in E; auto|auto].
    + inversion H; subst; clear H. apply Z.leb_gt in E.
      split; [reflexivity|]; split; [intros ? []|].
      intros x [<-|Hx]; auto.
      destruct s as [u v]. pose proof (sep_hd _ _ Hs); simpl in *.
      destruct (sep_all_gt _ _ _ Hs x Hx); lia.
Qed.

Definition Inv (t : segtree) : Prop := separated (segments t) /\ count t = total (segments t).

Lemma total_app p q : total (p ++ q) = total p + total q.
Proof. unfold total; induction p as [|s p IH]; simpl; auto. rewrite IH; lia. Qed.

Lemma total_cons s q : total (s :: q) = snd s - fst s + total q.
Proof. reflexivity. Qed.

Lemma inc_small x : 0 <= x < 2 ^ 64 - 1 -> inc x = x + 1.
Proof. intros H; unfold inc; apply Z.mod_small; lia. Qed.

Lemma contains_spec t y : separated (segments t) -> contains t y = true <-> covers (segments t) y.
Proof.
  intros Hs. unfold contains.
  destruct (split_upper y (segments t)) as [a b] eqn:E.
  destruct (split_upper_spec _ _ _ _ E Hs) as (Hl & Ha & Hb). rewrite Hl in *.
  destruct (unsnoc a) as [[p [u v]]|] eqn:Eu.
  - apply unsnoc_some in Eu; subst a. simpl.
    rewrite negb_true_iff, Z.leb_gt.
    rewrite <- app_assoc in *; simpl in *.
    rewrite covers_app, covers_cons; simpl.
    assert (Hu : u <= y) by (apply (Ha (u, v)); apply in_or_app; right; left; auto).
    split; intros H.
    + right; left; lia.
    + destruct H as [(s & Hin & Hy)|[H|(s & Hin & Hy)]]; try lia.
      * destruct (sep_app_lt _ _ _ _ Hs s Hin); lia.
      * specialize (Hb s Hin); lia.
  - apply unsnoc_none in Eu; subst a. simpl. split; [discriminate|].
    intros (s & Hin & Hy). specialize (Hb s Hin); lia.
Qed.

(** A cursor whose current interval is the new item glued to what was there. *)
Definition loose (c : cursor) : Prop :=
  let '(l, cur, r) := c in
  separated l /\ separated r /\ fst cur < snd cur /\
  (forall s, In s l -> snd s <= fst cur) /\ (forall s, In s r -> snd cur <= fst s).

Lemma in_unsnoc {A} (p : list A) x s : In s (p ++ [x]) <-> In s p \/ s = x.
Proof. rewrite in_app_iff; simpl; intuition. Qed.

Lemma merge_prev_spec c :
  loose c ->
  let c' := merge_prev c in
  loose c' /\ (let '(l, cur, r) := c' in forall s, In s l -> snd s < fst cur) /\
  (forall y, covers (cursor_list c') y <-> covers (cursor_list c) y) /\
  total (cursor_list c') = total (cursor_list c) /\
  (let '(_, cur, r) := c in let '(_, cur', r') := c' in r' = r /\ snd cur' = snd cur).
Proof.
  destruct c as [[l [a b]] r]; intros (Hl & Hr & Hab & Hla & Hrb); simpl in *.
  destruct (unsnoc l) as [[p [u v]]|] eqn:E.
  - apply unsnoc_some in E; subst l; simpl.
    assert (Huv : u < v).
    { apply sep_app_inv in Hl. apply sep_hd in Hl; auto. }
    pose proof (sep_app_l _ _ Hl) as Hp.
    assert (Hpu : forall s, In s p -> snd s < u).
    { intros s Hs. destruct (sep_app_lt _ _ _ _ Hl s Hs); auto. }
    assert (Hva : v <= a) by (apply (Hla (u, v)); apply in_unsnoc; auto).
    destruct (v =? a) eqn:Ev.
    + apply Z.eqb_eq in Ev; subst v. simpl.
      split; [|split; [|split; [|split]]]; auto.
      * repeat split; auto; try lia. intros s Hs. apply Hpu in Hs; lia.
      * intros y. rewrite <- app_assoc; simpl. rewrite !covers_app, !covers_cons; simpl.
        intuition lia.
      * rewrite <- app_assoc; simpl. rewrite !total_app, !total_cons; simpl. lia.
    + apply Z.eqb_neq in Ev. simpl.
      split; [|split; [|split; [|split]]]; try tauto.
      * intros s Hs. apply in_unsnoc in Hs. destruct Hs as [Hs| ->]; simpl; [|lia].
        specialize (Hpu s Hs). lia.
  - apply unsnoc_none in E; subst l. simpl.
    split; [|split; [|split; [|split]]]; try tauto.
    all: simpl; intros s Hs; simpl in Hs; tauto.
Qed.

Lemma merge_next_spec c :
  loose c ->
  (let '(l, cur, r) := c in forall s, In s l -> snd s < fst cur) ->
  let c' := merge_next c in
  separated (cursor_list c') /\
  (forall y, covers (cursor_list c') y <-> covers (cursor_list c) y) /\
  total (cursor_list c') = total (cursor_list c).
Proof.
  destruct c as [[l [a b]] r]; intros (Hl & Hr & Hab & Hla & Hrb) Hlt; simpl in *.
  destruct r as [|[c d] r]; simpl.
  - split; [|split; tauto]. apply sep_build; auto. intros s [].
  - assert (Hcd : c < d) by (apply sep_hd in Hr; auto).
    assert (Hbc : b <= c) by (apply (Hrb (c, d)); left; auto).
    assert (Hrd : forall s, In s r -> d < fst s).
    { intros s Hs. destruct (sep_all_gt _ _ _ Hr s Hs); auto. }
    destruct (c =? b) eqn:Ec.
    + apply Z.eqb_eq in Ec; subst c. simpl.
      split; [|split].
      * apply sep_build; auto; [eapply sep_tail; eauto|lia].
      * intros y. rewrite !covers_app, !covers_cons; simpl. intuition lia.
      * rewrite !total_app, !total_cons; simpl; lia.
    + apply Z.eqb_neq in Ec. simpl.
      split; [|split; tauto].
      apply sep_build; auto.
      intros s [<-|Hs]; simpl; [lia|]. specialize (Hrd s Hs); lia.
Qed.

Lemma locate_spec item l :
  0 <= item < 2 ^ 64 - 1 -> separated l ->
  match locate item l with
  | None => covers l item
  | Some c => loose c /\ ~ covers l item /\
              (forall y, covers (cursor_list c) y <-> covers l y \/ y = item) /\
              total (cursor_list c) = total l + 1
  end.
Proof.
  intros Hi Hs. unfold locate.
  destruct (split_upper item l) as [a b] eqn:E.
  destruct (split_upper_spec _ _ _ _ E Hs) as (-> & Ha & Hb).
  rewrite inc_small by auto.
  assert (Hsb : separated b).
  { clear -Hs. induction a as [|x a IH]; simpl in *; auto. apply IH. eapply sep_tail; eauto. }
  pose proof (sep_app_l _ _ Hs) as Hsa.
  destruct (unsnoc a) as [[p [u v]]|] eqn:Eu.
  - apply unsnoc_some in Eu; subst a. cbn [fst snd].
    assert (Hs2 : separated (p ++ (u, v) :: b)) by (rewrite <- app_assoc in Hs; exact Hs).
    assert (Hui : u <= item) by (apply (Ha (u, v)); apply in_unsnoc; auto).
    assert (Huv : u < v) by (apply sep_app_inv in Hs2; apply sep_hd in Hs2; auto).
    assert (Hpu : forall s, In s p -> snd s < u /\ fst s < snd s) by (apply (sep_app_lt _ _ _ _ Hs2)).
    assert (Hvb : forall s, In s b -> v < fst s).
    { intros s Hin. apply sep_app_inv in Hs2. destruct (sep_all_gt _ _ _ Hs2 s Hin); auto. }
    pose proof (sep_app_l _ _ Hsa) as Hp.
    destruct (v <? item) eqn:E1; [apply Z.ltb_lt in E1|apply Z.ltb_ge in E1].
    + destruct (u =? item) eqn:E2; [apply Z.eqb_eq in E2; lia|].
      split; [|split; [|split]].
      * repeat split; simpl; auto; try lia.
        -- intros s Hin. apply in_unsnoc in Hin. destruct Hin as [Hin| ->]; simpl; [|lia].
           destruct (Hpu s Hin); lia.
        -- intros s Hin. specialize (Hb s Hin); lia.
      * rewrite covers_app. intros [(s & Hin & Hy)|(s & Hin & Hy)].
        -- apply in_unsnoc in Hin. destruct Hin as [Hin| ->]; simpl in *; [|lia].
           destruct (Hpu s Hin); lia.
        -- specialize (Hb s Hin); lia.
      * intros y. simpl. rewrite !covers_app, !covers_cons; simpl.
        intuition lia.
      * simpl. rewrite !total_app, !total_cons; simpl; lia.
    + destruct (item =? v) eqn:E2; [apply Z.eqb_eq in E2; subst v|apply Z.eqb_neq in E2].
      * split; [|split; [|split]].
        -- repeat split; simpl; auto; try lia.
           ++ intros s Hin. destruct (Hpu s Hin); lia.
           ++ intros s Hin. specialize (Hb s Hin); lia.
        -- rewrite covers_app. intros [(s & Hin & Hy)|(s & Hin & Hy)].
           ++ apply in_unsnoc in Hin. destruct Hin as [Hin| ->]; simpl in *; [|lia].
              destruct (Hpu s Hin); lia.
           ++ specialize (Hb s Hin); lia.
        -- intros y. simpl. rewrite <- app_assoc; simpl. rewrite !covers_app, !covers_cons; simpl.
           intuition lia.
        -- simpl. rewrite <- app_assoc; simpl. rewrite !total_app, !total_cons; simpl; lia.
      * rewrite <- app_assoc; simpl. rewrite covers_app, covers_cons; simpl. right; left; lia.
  - apply unsnoc_none in Eu; subst a. simpl.
    split; [|split; [|split]].
    + repeat split; simpl; auto; try lia; try (intros s []).
      intros s Hin. specialize (Hb s Hin); lia.
    + intros (s & Hin & Hy). specialize (Hb s Hin); lia.
    + intros y. rewrite covers_cons; simpl. intuition lia.
    + unfold total; simpl. lia.
Qed.

Lemma insert_spec t item :
  Inv t -> 0 <= item < 2 ^ 64 - 1 ->
  let '(t', r) := insert t item in
  Inv t' /\ (r = true <-> ~ covers (segments t) item) /\
  (forall y, covers (segments t') y <-> covers (segments t) y \/ y = item).
Proof.
  intros [Hs Hc] Hi. unfold insert.
  destruct (segments t) as [|s0 r0] eqn:E.
  - rewrite inc_small by auto. unfold Inv; simpl. repeat split.
    + constructor; lia.
    + unfold total in Hc; simpl in Hc. unfold total; simpl. lia.
    + intros _ H. apply covers_nil in H; auto.
    + intros Hy. rewrite covers_cons in Hy; simpl in Hy.
      destruct Hy as [Hy|Hy]; [right; lia|left; auto].
    + intros [Hy|Hy]; [apply covers_nil in Hy; tauto|]. rewrite covers_cons; simpl; left; lia.
  - rewrite <- E in *. clear E s0 r0.
    pose proof (locate_spec item (segments t) Hi Hs) as HL.
    destruct (locate item (segments t)) as [c|].
    + destruct HL as (Hloose & Hnot & Hcov & Htot).
      pose proof (merge_prev_spec c Hloose) as HP. cbv zeta in HP.
      destruct HP as (HL2 & Hlt & Hcov2 & Htot2 & _).
      destruct (merge_next_spec _ HL2 Hlt) as (Hsep & Hcov3 & Htot3).
      unfold Inv; simpl. split; [split|split].
      * exact Hsep.
      * rewrite Htot3, Htot2, Htot. lia.
      * tauto.
      * intros y. rewrite Hcov3, Hcov2, Hcov. tauto.
    + split; [split; auto|split].
      * split; [discriminate|tauto].
      * intros y. split; [auto|]. intros [H| ->]; auto.
Qed.

Lemma inv_empty : Inv empty.
Proof. split; simpl; constructor. Qed.

Lemma fold_spec xs t :
  Inv t -> Forall (fun x => 0 <= x < 2 ^ 64 - 1) xs ->
  let t' := fold_left (fun t x => fst (insert t x)) xs t in
  Inv t' /\ forall y, covers (segments t') y <-> covers (segments t) y \/ In y xs.
Proof.
  revert t; induction xs as [|x xs IH]; simpl; intros t Ht Hx.
  - split; auto. tauto.
  - inversion Hx; subst.
    pose proof (insert_spec t x Ht) as HI.
    destruct (insert t x) as [t1 r]; simpl in *.
    destruct HI as (Ht1 & _ & Hc); [auto|].
    destruct (IH t1 Ht1) as [Hinv Hcov]; auto.
    split; auto. intros y. rewrite Hcov, Hc. intuition.
Qed.

Lemma insert_all_inv xs :
  Forall (fun x => 0 <= x < 2 ^ 64 - 1) xs ->
  Inv (insert_all xs) /\ forall y, covers (segments (insert_all xs)) y <-> In y xs.
Proof.
  intros H. destruct (fold_spec xs empty inv_empty H) as [H1 H2].
  split; auto. intros y. unfold insert_all. rewrite H2. simpl. rewrite covers_nil. tauto.
Qed.

(** * Counting: the total length of a separated list is the cardinality of its set. *)

Fixpoint zrange (a : Z) (n : nat) : list Z :=
  match n with O => [] | S k => a :: zrange (a + 1) k end.

Lemma zrange_in a n y : In y (zrange a n) <-> a <= y < a + Z.of_nat n.
Proof.
  revert a; induction n as [|n IH]; intros a; simpl.
  - lia.
  - rewrite IH. lia.
Qed.

Lemma zrange_nodup a n : NoDup (zrange a n).
Proof.
  revert a; induction n as [|n IH]; intros a; simpl; constructor; auto.
  rewrite zrange_in; lia.
Qed.

Lemma zrange_len a n : length (zrange a n) = n.
Proof. revert a; induction n as [|n IH]; intros a; simpl; auto. Qed.

Definition elements (l : list seg) : list Z :=
  flat_map (fun s => zrange (fst s) (Z.to_nat (snd s - fst s))) l.

Lemma elements_in l y : In y (elements l) <-> covers l y.
Proof.
  unfold elements, covers. rewrite in_flat_map.
  split; intros (s & Hin & Hy); exists s; split; auto; apply zrange_in in Hy || apply zrange_in; lia.
Qed.

Lemma nodup_app {A} (p q : list A) :
  NoDup p -> NoDup q -> (forall x, In x p -> ~ In x q) -> NoDup (p ++ q).
Proof.
  induction p as [|x p IH]; simpl; intros Hp Hq Hd; auto.
  inversion Hp; subst. constructor.
  - rewrite in_app_iff. intros [H|H]; auto. apply (Hd x); auto.
  - apply IH; auto.
Qed.

Lemma elements_nodup l : separated l -> NoDup (elements l).
Proof.
  induction l as [|[a b] l IH]; intros Hs; simpl; [constructor|].
  apply nodup_app.
  - apply zrange_nodup.
  - apply IH. eapply sep_tail; eauto.
  - intros x Hx Hx2. apply zrange_in in Hx. apply elements_in in Hx2.
    pose proof (sep_hd _ _ Hs); simpl in *.
    destruct Hx2 as (s & Hin & Hy). destruct (sep_all_gt _ _ _ Hs s Hin). lia.
Qed.

Lemma elements_total l : separated l -> Z.of_nat (length (elements l)) = total l.
Proof.
  induction l as [|[a b] l IH]; intros Hs; [reflexivity|].
  unfold elements in *; cbn [flat_map]. rewrite app_length, zrange_len, Nat2Z.inj_add.
  pose proof (sep_hd _ _ Hs) as Hlt; cbn [fst snd] in Hlt |- *.
  rewrite IH by (eapply sep_tail; eauto). rewrite total_cons; cbn [fst snd]. lia.
Qed.

Lemma count_card xs :
  Forall (fun x => 0 <= x < 2 ^ 64 - 1) xs ->
  forall zs, NoDup zs -> (forall z, In z zs <-> In z xs) ->
  count (insert_all xs) = Z.of_nat (length zs).
Proof.
  intros Hx zs Hnd Hz.
  destruct (insert_all_inv xs Hx) as [[Hs Hc] Hcov].
  rewrite Hc, <- (elements_total _ Hs). f_equal.
  apply Permutation_length, NoDup_Permutation; auto using elements_nodup.
  intros y. rewrite elements_in, Hcov, Hz. tauto.
Qed.

(** * Uniqueness of the decomposition *)
Lemma sep_unique l1 l2 :
  separated l1 -> separated l2 -> (forall y, covers l1 y <-> covers l2 y) -> l1 = l2.
Proof.
  revert l2; induction l1 as [|[a b] l1 IH]; intros [|[c d] l2] H1 H2 Hc; auto.
  - pose proof (sep_hd _ _ H2); simpl in *. specialize (Hc c).
    rewrite covers_cons, covers_nil in Hc; simpl in Hc. destruct Hc as [_ Hc]. exfalso; apply Hc; left; lia.
  - pose proof (sep_hd _ _ H1); simpl in *. specialize (Hc a).
    rewrite covers_cons, covers_nil in Hc; simpl in Hc. destruct Hc as [Hc _]. exfalso; apply Hc; left; lia.
  - pose proof (sep_hd _ _ H1) as Hab; pose proof (sep_hd _ _ H2) as Hcd; simpl in Hab, Hcd.
    pose proof (sep_all_gt _ _ _ H1) as G1; pose proof (sep_all_gt _ _ _ H2) as G2.
    assert (Hn1 : forall y, y <= b -> ~ covers l1 y).
    { intros y Hy (s & Hin & Hs). destruct (G1 s Hin); lia. }
    assert (Hn2 : forall y, y <= d -> ~ covers l2 y).
    { intros y Hy (s & Hin & Hs). destruct (G2 s Hin); lia. }
    assert (Hac : a = c).
    { pose proof (Hc a) as Ha; pose proof (Hc c) as Hcc. rewrite !covers_cons in Ha, Hcc; simpl in Ha, Hcc.
      destruct (Z.lt_trichotomy a c) as [L|[L|L]]; auto.
      - destruct Ha as [Ha _]. destruct Ha as [Ha|Ha]; [left; lia|lia|]. exfalso; apply (Hn2 a); [lia|auto].
      - destruct Hcc as [_ Hcc]. destruct Hcc as [Hcc|Hcc]; [left; lia|lia|]. exfalso; apply (Hn1 c); [lia|auto]. }
    subst c.
    assert (Hbd : b = d).
    { pose proof (Hc b) as Hb; pose proof (Hc d) as Hd. rewrite !covers_cons in Hb, Hd; simpl in Hb, Hd.
      destruct (Z.lt_trichotomy b d) as [L|[L|L]]; auto.
      - destruct Hb as [_ Hb]. destruct Hb as [Hb|Hb]; [left; lia|lia|]. exfalso; apply (Hn1 b); [lia|auto].
      - destruct Hd as [Hd _]. destruct Hd as [Hd|Hd]; [left; lia|lia|]. exfalso; apply (Hn2 d); [lia|auto]. }
    subst d. f_equal. apply IH; try (eapply sep_tail; eauto).
    intros y. pose proof (Hc y) as Hy. rewrite !covers_cons in Hy; simpl in Hy.
    destruct (Z_le_gt_dec y b).
    + split; intros H; [apply Hn1 in H|apply Hn2 in H]; tauto.
    + split; intros H.
      * destruct Hy as [Hy _]. destruct Hy as [Hy|Hy]; auto. lia.
      * destruct Hy as [_ Hy]. destruct Hy as [Hy|Hy]; auto. lia.
Qed.

Lemma segtree_is_set_lemma xs :
  Forall (fun x => 0 <= x < 2 ^ 64 - 1) xs ->
  (forall y, contains (insert_all xs) y = true <-> In y xs) /\
  (forall x, 0 <= x < 2 ^ 64 - 1 -> snd (insert (insert_all xs) x) = true <-> ~ In x xs) /\
  (forall zs, NoDup zs -> (forall z, In z zs <-> In z xs) ->
     count (insert_all xs) = Z.of_nat (length zs)).
Proof.
  intros Hx. destruct (insert_all_inv xs Hx) as [Hinv Hcov].
  split; [|split].
  - intros y. rewrite contains_spec by apply Hinv. apply Hcov.
  - intros x Hb. pose proof (insert_spec _ x Hinv Hb) as H.
    destruct (insert (insert_all xs) x) as [t' r]; simpl. destruct H as (_ & H & _).
    rewrite H, Hcov. tauto.
  - apply count_card; auto.
Qed.

Lemma segtree_segments_lemma xs :
  Forall (fun x => 0 <= x < 2 ^ 64 - 1) xs ->
  forall l, maximal_decomposition (fun y => In y xs) l <->
            l = get_segments (insert_all xs).
Proof.
  intros Hx l. destruct (insert_all_inv xs Hx) as [[Hs Hc] Hcov].
  split.
  - intros [H1 H2]. apply sep_unique; auto. intros y. rewrite H2. unfold get_segments. rewrite Hcov. tauto.
  - intros ->. split; auto.
Qed.
