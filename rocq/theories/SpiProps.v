(* C111: the SPI factory selects, lists and refuses libraries as documented, for
   every history of registrations; argument keys and string values are compared
   in a normal form. *)
From Coq Require Import ZArith List Bool Arith Lia Sorted Permutation.
From Verif Require Import LinCodeModel SpiModel.
Import ListNotations.
Local Open Scope nat_scope.

(* ------------------------------------------------------------------ *)
(* Names                                                               *)

Lemma name_eqb_true a b : name_eqb a b = true <-> a = b.
Proof. unfold name_eqb; destruct (list_eq_dec Nat.eq_dec a b); split; congruence. Qed.

Lemma name_eqb_false a b : name_eqb a b = false <-> a <> b.
Proof. unfold name_eqb; destruct (list_eq_dec Nat.eq_dec a b); split; congruence. Qed.

Lemma name_eqb_refl a : name_eqb a a = true.
Proof. apply name_eqb_true; reflexivity. Qed.

Lemma name_cmp_eq a : forall b, name_cmp a b = Eq <-> a = b.
Proof.
  induction a as [|x a IH]; intros [|y b]; cbn; try (split; congruence).
  destruct (Nat.compare_spec x y) as [E|E|E].
  - rewrite IH. split; congruence.
  - split; [congruence|]. intros H. injection H as H1 H2. lia.
  - split; [congruence|]. intros H. injection H as H1 H2. lia.
Qed.

Lemma name_cmp_gt a : forall b, name_cmp a b = Gt -> name_cmp b a = Lt.
Proof.
  induction a as [|x a IH]; intros [|y b]; cbn; try congruence.
  rewrite (Nat.compare_antisym x y).
  destruct (Nat.compare x y); cbn; try congruence. apply IH.
Qed.

Lemma name_cmp_trans a : forall b c,
  name_cmp a b = Lt -> name_cmp b c = Lt -> name_cmp a c = Lt.
Proof.
  induction a as [|x a IH]; intros [|y b] [|z c]; cbn; try congruence.
  destruct (Nat.compare_spec x y) as [E|E|E];
  destruct (Nat.compare_spec y z) as [F|F|F]; try congruence; intros H1 H2.
  - subst. rewrite Nat.compare_refl. eauto.
  - subst. destruct (Nat.compare_spec y z); try lia. reflexivity.
  - subst. destruct (Nat.compare_spec x z); try lia. reflexivity.
  - destruct (Nat.compare_spec x z); try lia. reflexivity.
Qed.

Definition name_lt (a b : name) : Prop := name_cmp a b = Lt.

Lemma lower_char_idem c : lower_char (lower_char c) = lower_char c.
Proof.
  unfold lower_char, is_upper.
  destruct ((65 <=? c) && (c <=? 90)) eqn:E; [|rewrite E; reflexivity].
  apply andb_true_iff in E. destruct E as [E1 E2].
  apply Nat.leb_le in E1. apply Nat.leb_le in E2.
  destruct (Nat.leb_spec (c + 32) 90); [lia|]. rewrite andb_false_r. reflexivity.
Qed.

Lemma lower_idem s : lower (lower s) = lower s.
Proof.
  unfold lower. rewrite map_map. apply map_ext. apply lower_char_idem.
Qed.

(* ------------------------------------------------------------------ *)
(* Maps                                                                *)

(* Lookup finds the key's value in a map whose keys are sorted. *)
Definition sorted_map {A} (l : list (name * A)) : Prop :=
  StronglySorted name_lt (map fst l).

Lemma lookup_below {A} (l : list (name * A)) k :
  Forall (name_lt k) (map fst l) -> lookup k l = None.
Proof.
  induction l as [|[k0 v0] l IH]; cbn; intros H; [reflexivity|].
  inversion H as [|? ? H1 H2]; subst.
  destruct (name_eqb k k0) eqn:F; [|auto].
  apply name_eqb_true in F. subst k0. unfold name_lt in H1.
  assert (name_cmp k k = Eq) by (apply name_cmp_eq; reflexivity). congruence.
Qed.

Lemma map_insert_keys {A} k (v : A) l x :
  In x (map fst (map_insert k v l)) <-> x = k \/ In x (map fst l).
Proof.
  induction l as [|[k0 v0] l IH]; cbn [map_insert map fst].
  - cbn. intuition congruence.
  - destruct (name_cmp k k0) eqn:E; cbn [map fst In].
    + apply name_cmp_eq in E. subst. intuition congruence.
    + intuition congruence.
    + rewrite IH. intuition congruence.
Qed.

Lemma map_insert_sorted {A} k (v : A) l :
  sorted_map l -> sorted_map (map_insert k v l).
Proof.
  unfold sorted_map.
  induction l as [|[k0 v0] l IH]; cbn [map_insert map fst]; intros H.
  - repeat constructor.
  - inversion H as [|? ? H1 H2]; subst.
    destruct (name_cmp k k0) eqn:E; cbn [map fst].
    + exact H.
    + constructor; [exact H|]. constructor; [exact E|].
      eapply Forall_impl; [|exact H2]. intros a Ha.
      eapply name_cmp_trans; eassumption.
    + constructor; [apply IH; assumption|].
      apply Forall_forall. intros x Hx. apply map_insert_keys in Hx.
      destruct Hx as [Hx|Hx].
      * subst. apply name_cmp_gt. exact E.
      * rewrite Forall_forall in H2. auto.
Qed.

Lemma lookup_insert {A} k v (l : list (name * A)) k' :
  sorted_map l ->
  lookup k' (map_insert k v l) =
  match lookup k' l with
  | Some w => Some w
  | None => if name_eqb k' k then Some v else None
  end.
Proof.
  unfold sorted_map.
  induction l as [|[k0 v0] l IH]; cbn [map_insert lookup map fst]; intros H.
  - reflexivity.
  - inversion H as [|? ? H1 H2]; subst.
    destruct (name_cmp k k0) eqn:E; cbn [lookup].
    + apply name_cmp_eq in E. subst k0.
      destruct (name_eqb k' k); [reflexivity|]. destruct (lookup k' l); reflexivity.
    + destruct (name_eqb k' k) eqn:F.
      * apply name_eqb_true in F. subst k'.
        assert (L : lookup k ((k0, v0) :: l) = None).
        { apply lookup_below. cbn [map fst]. constructor; [exact E|].
          eapply Forall_impl; [|exact H2]. intros a Ha.
          eapply name_cmp_trans; eassumption. }
        cbn [lookup] in L. rewrite L. reflexivity.
      * destruct (name_eqb k' k0); [reflexivity|]. destruct (lookup k' l); reflexivity.
    + destruct (name_eqb k' k0); [reflexivity|]. apply IH; assumption.
Qed.

Lemma lookup_in {A} (l : list (name * A)) k :
  In k (map fst l) <-> exists v, lookup k l = Some v.
Proof.
  induction l as [|[k0 v0] l IH]; cbn.
  - split; [tauto|]. intros [v H]. discriminate.
  - destruct (name_eqb k k0) eqn:F.
    + apply name_eqb_true in F. subst. split; eauto.
    + apply name_eqb_false in F. rewrite <- IH. intuition congruence.
Qed.

Lemma lookup_pair {A} (l : list (name * A)) k v :
  sorted_map l -> (In (k, v) l <-> lookup k l = Some v).
Proof.
  unfold sorted_map. induction l as [|[k0 v0] l IH]; cbn [map fst]; intros H.
  - cbn. split; [tauto|discriminate].
  - inversion H as [|? ? H1 H2]; subst. cbn [lookup In].
    destruct (name_eqb k k0) eqn:F.
    + apply name_eqb_true in F. subst k0. split.
      * intros [E|E]; [congruence|]. exfalso.
        rewrite Forall_forall in H2.
        assert (L : name_lt k k) by (apply H2; apply in_map_iff; exists (k, v); auto).
        unfold name_lt in L.
        assert (name_cmp k k = Eq) by (apply name_cmp_eq; reflexivity). congruence.
      * intros E. left. congruence.
    + apply name_eqb_false in F. rewrite <- IH by assumption. intuition congruence.
Qed.

(* ------------------------------------------------------------------ *)
(* Registration                                                        *)

Section Factory.
Context {V : Type}.
Notation registration := (registration V).
Notation factory := (factory V).

(* The registration number i of the history is the first with its name, upper
   and lower case being the same. *)
Definition accepted_at (l : list registration) (i : nat) (r : registration) : Prop :=
  nth_error l i = Some r /\
  forall j r', j < i -> nth_error l j = Some r' ->
    lower (r_name r') <> lower (r_name r).

(* First registration under a name. *)
Fixpoint first_named (n : name) (l : list registration) : option registration :=
  match l with
  | [] => None
  | r :: l' => if name_eqb n (lower (r_name r)) then Some r else first_named n l'
  end.

Lemma first_named_app n l1 l2 :
  first_named n (l1 ++ l2) =
  match first_named n l1 with Some r => Some r | None => first_named n l2 end.
Proof.
  induction l1 as [|r l1 IH]; cbn; [reflexivity|].
  destruct (name_eqb n (lower (r_name r))); auto.
Qed.

Lemma first_named_some n l r :
  first_named n l = Some r <->
  exists i, accepted_at l i r /\ lower (r_name r) = n.
Proof.
  induction l as [|r0 l IH]; cbn.
  - split; [discriminate|]. intros (i & (H & _) & _). destruct i; discriminate.
  - destruct (name_eqb n (lower (r_name r0))) eqn:F.
    + apply name_eqb_true in F. split.
      * intros E. injection E as ->. exists 0. split; [|congruence].
        split; [reflexivity|]. intros; lia.
      * intros ([|i] & (H & Hf) & En); [exact H|].
        exfalso. apply (Hf 0 r0); [lia|reflexivity|congruence].
    + apply name_eqb_false in F. rewrite IH. split.
      * intros (i & (H & Hf) & En). exists (S i). split; [|exact En].
        split; [exact H|]. intros [|j] r' Hj Hr'.
        { cbn in Hr'. injection Hr' as ->. congruence. }
        { apply (Hf j); [lia|exact Hr']. }
      * intros ([|i] & (H & Hf) & En).
        { cbn in H. injection H as ->. congruence. }
        exists i. split; [|exact En]. split; [exact H|].
        intros j r' Hj Hr'. apply (Hf (S j)); [lia|exact Hr'].
Qed.

(* The factory after a history: the invariant. *)
Lemma run_snoc (l : list registration) r : run (l ++ [r]) = register_step (run l) r.
Proof. unfold run. rewrite fold_left_app. reflexivity. Qed.

Lemma run_libs (l : list registration) :
  sorted_map (libs (run l)) /\ forall n, lookup n (libs (run l)) = first_named n l.
Proof.
  induction l as [|r l [IS IL]] using rev_ind.
  - split; [constructor|reflexivity].
  - rewrite run_snoc. unfold register_step, register.
    destruct (lookup (lower (r_name r)) (libs (run l))) as [r0|] eqn:E.
    + split; [exact IS|]. intros n. rewrite IL, first_named_app.
      destruct (first_named n l) eqn:F; [reflexivity|]. cbn.
      destruct (name_eqb n (lower (r_name r))) eqn:G; [|reflexivity].
      apply name_eqb_true in G. subst n. rewrite IL in E. congruence.
    + cbn [libs]. split; [apply map_insert_sorted; exact IS|].
      intros n. rewrite lookup_insert by exact IS. rewrite IL, first_named_app.
      destruct (first_named n l); reflexivity.
Qed.

(* Best of a history among those that satisfy p: strictly greater replaces. *)
Definition is_best (p : name -> bool) (l : list registration) (o : option (Z * name)) : Prop :=
  match o with
  | None => forall i r, accepted_at l i r -> p (lower (r_name r)) = false
  | Some (k, n) =>
      exists i r, accepted_at l i r /\ lower (r_name r) = n /\
        k = perf_key (r_perf r) /\ p n = true /\
        forall j r', accepted_at l j r' -> p (lower (r_name r')) = true ->
          (perf_key (r_perf r') < k)%Z \/
          (perf_key (r_perf r') = k /\ i <= j)
  end.

Fixpoint perf_sorted (l : list (Z * name)) : Prop :=
  match l with
  | [] => True
  | (k, _) :: l' => Forall (fun e => (fst e <= k)%Z) l' /\ perf_sorted l'
  end.

Lemma perf_insert_forall P k n l :
  Forall P (perf_insert k n l) <-> P (k, n) /\ Forall P l.
Proof.
  induction l as [|[k0 n0] l IH]; cbn [perf_insert].
  - rewrite Forall_cons_iff. intuition.
  - destruct (k0 <? k)%Z; rewrite !Forall_cons_iff; [intuition|].
    rewrite IH. intuition.
Qed.

Lemma perf_insert_sorted k n l : perf_sorted l -> perf_sorted (perf_insert k n l).
Proof.
  induction l as [|[k0 n0] l IH]; cbn [perf_insert perf_sorted].
  - intros _. split; constructor.
  - intros [H1 H2]. destruct (Z.ltb_spec k0 k); cbn [perf_sorted].
    + split; [|auto]. constructor; [cbn; lia|].
      eapply Forall_impl; [|exact H1]. cbn. intros; lia.
    + split; [|auto]. apply perf_insert_forall. cbn. auto.
Qed.

Definition find_perf (p : name -> bool) (l : list (Z * name)) := find (fun e => p (snd e)) l.

Lemma find_perf_insert p k n l :
  perf_sorted l ->
  find_perf p (perf_insert k n l) =
  match find_perf p l with
  | Some (k', n') => if p n && (k' <? k)%Z then Some (k, n) else Some (k', n')
  | None => if p n then Some (k, n) else None
  end.
Proof.
  unfold find_perf. induction l as [|[k0 n0] l IH]; cbn [perf_insert perf_sorted find snd].
  - intros _. destruct (p n); reflexivity.
  - intros [H1 H2]. destruct (Z.ltb_spec k0 k) as [E|E]; cbn [find snd].
    + destruct (p n) eqn:Pn; cbn [andb].
      * destruct (p n0) eqn:Pn0.
        { destruct (Z.ltb_spec k0 k); [reflexivity|lia]. }
        { destruct (find _ l) as [[k1 n1]|] eqn:F; [|reflexivity].
          apply find_some in F. destruct F as [F _].
          rewrite Forall_forall in H1. apply H1 in F. cbn in F.
          destruct (Z.ltb_spec k1 k); [reflexivity|lia]. }
      * destruct (p n0); [reflexivity|]. destruct (find _ l) as [[k1 n1]|]; reflexivity.
    + destruct (p n0) eqn:Pn0.
      * destruct (Z.ltb_spec k0 k); [lia|]. rewrite andb_false_r. reflexivity.
      * apply IH. exact H2.
Qed.

Lemma accepted_snoc (l : list registration) r0 i r :
  accepted_at (l ++ [r0]) i r <->
  accepted_at l i r \/
  (i = length l /\ r = r0 /\ first_named (lower (r_name r0)) l = None).
Proof.
  split.
  - intros [H Hf]. destruct (Nat.lt_ge_cases i (length l)) as [L|L].
    + left. rewrite nth_error_app1 in H by exact L. split; [exact H|].
      intros j r' Hj Hr'. apply (Hf j r' Hj). rewrite nth_error_app1 by lia. exact Hr'.
    + right. rewrite nth_error_app2 in H by exact L.
      destruct (i - length l) as [|d] eqn:D; [|destruct d; discriminate].
      cbn in H. injection H as <-. split; [lia|]. split; [reflexivity|].
      destruct (first_named (lower (r_name r0)) l) as [r1|] eqn:F; [|reflexivity].
      apply first_named_some in F. destruct F as (j & (Hj & _) & En).
      assert (Lj : j < length l) by (apply nth_error_Some; congruence).
      exfalso. apply (Hf j r1); [lia| |exact En].
      rewrite nth_error_app1 by exact Lj. exact Hj.
  - intros [[H Hf]|(-> & -> & F)].
    + assert (L : i < length l) by (apply nth_error_Some; congruence).
      split; [rewrite nth_error_app1 by exact L; exact H|].
      intros j r' Hj Hr'. rewrite nth_error_app1 in Hr' by lia. eauto.
    + split; [rewrite nth_error_app2, Nat.sub_diag by lia; reflexivity|].
      intros j r' Hj Hr'. rewrite nth_error_app1 in Hr' by exact Hj.
      intros E. assert (G : exists r1, first_named (lower (r_name r0)) l = Some r1).
      { clear F. rewrite <- E. clear E.
        revert j Hj Hr'. induction l as [|a l IH]; intros [|j] Hj Hr'; cbn in *.
        - lia.
        - lia.
        - injection Hr' as ->. rewrite name_eqb_refl. eauto.
        - destruct (name_eqb _ _); [eauto|]. apply (IH j); [lia|exact Hr']. }
      destruct G as [r1 G]. congruence.
Qed.

Lemma run_perf (l : list registration) :
  perf_sorted (perf (run l)) /\
  (forall e, In e (perf (run l)) -> exists i r, accepted_at l i r /\ lower (r_name r) = snd e) /\
  forall p, is_best p l (find_perf p (perf (run l))).
Proof.
  induction l as [|r l (IS & IN & IB)] using rev_ind.
  - split; [exact I|]. split; [intros e []|].
    intros p i r [H _]. destruct i; discriminate.
  - rewrite run_snoc. unfold register_step, register.
    destruct (run_libs l) as [LS LL]. rewrite LL.
    destruct (first_named (lower (r_name r)) l) as [r0|] eqn:E.
    + assert (A : forall i r', accepted_at (l ++ [r]) i r' <-> accepted_at l i r').
      { intros i r'. rewrite accepted_snoc. intuition congruence. }
      split; [exact IS|]. split.
      * intros e He. destruct (IN e He) as (i & r' & H1 & H2).
        exists i, r'. rewrite A. auto.
      * intros p. specialize (IB p). unfold is_best in *.
        destruct (find_perf p (perf (run l))) as [[k n]|].
        { destruct IB as (i & r' & H1 & H2 & H3 & H4 & H5).
          exists i, r'. rewrite A. repeat (split; [assumption|]).
          intros j r'' Hj. apply H5. apply A. exact Hj. }
        { intros i r' H. apply (IB i). apply A. exact H. }
    + cbn [perf]. split; [apply perf_insert_sorted; exact IS|]. split.
      * assert (F : Forall (fun e => exists i r', accepted_at (l ++ [r]) i r' /\
                      lower (r_name r') = snd e)
                    (perf_insert (perf_key (r_perf r)) (lower (r_name r)) (perf (run l)))).
        { apply perf_insert_forall. split.
          - exists (length l), r. split; [apply accepted_snoc; auto|reflexivity].
          - apply Forall_forall. intros e He. destruct (IN e He) as (i & r' & H1 & H2).
            exists i, r'. split; [apply accepted_snoc; auto|exact H2]. }
        rewrite Forall_forall in F. exact F.
      * intros p. specialize (IB p). rewrite find_perf_insert by exact IS.
        assert (Lt : forall i r', accepted_at l i r' -> i < length l).
        { intros i r' [H _]. apply nth_error_Some. congruence. }
        destruct (find_perf p (perf (run l))) as [[k n]|] eqn:F; cbn [is_best] in *.
        { destruct IB as (i & r' & H1 & H2 & H3 & H4 & H5).
          destruct (p (lower (r_name r)) && (k <? perf_key (r_perf r))%Z) eqn:C.
          - apply andb_true_iff in C. destruct C as [C1 C2]. apply Z.ltb_lt in C2.
            exists (length l), r. split; [apply accepted_snoc; auto|].
            repeat (split; [auto|]).
            intros j r'' Hj Hp. apply accepted_snoc in Hj.
            destruct Hj as [Hj|(-> & -> & _)]; [|right; split; lia].
            destruct (H5 _ _ Hj Hp) as [H6|[H6 _]]; left; lia.
          - exists i, r'. split; [apply accepted_snoc; auto|].
            repeat (split; [assumption|]).
            intros j r'' Hj Hp. apply accepted_snoc in Hj.
            destruct Hj as [Hj|(-> & -> & _)]; [auto|].
            rewrite Hp in C. cbn in C. apply Z.ltb_ge in C.
            specialize (Lt _ _ H1).
            destruct (Z.eq_dec (perf_key (r_perf r)) k); [right; split; [assumption|lia]|left; lia]. }
        { destruct (p (lower (r_name r))) eqn:Pn.
          - exists (length l), r. split; [apply accepted_snoc; auto|].
            repeat (split; [auto|]).
            intros j r'' Hj Hp. apply accepted_snoc in Hj.
            destruct Hj as [Hj|(-> & -> & _)]; [|right; split; lia].
            rewrite (IB _ _ Hj) in Hp. discriminate.
          - intros i r' Hi. apply accepted_snoc in Hi.
            destruct Hi as [Hi|(-> & -> & _)]; eauto. }
Qed.

Lemma auto_select_find (l : list registration) feature a es :
  (forall e, In e es -> exists i r, accepted_at l i r /\ lower (r_name r) = snd e) ->
  auto_select (run l) feature a es =
  Val (option_map snd (find_perf (fun n => match first_named n l with
                                 | Some r => r_check r feature a
                                 | None => false end) es)).
Proof.
  destruct (run_libs l) as [_ LL].
  induction es as [|[k n] es IH]; intros H; [reflexivity|].
  cbn [auto_select find_perf find snd]. rewrite LL.
  destruct (H (k, n)) as (i & r & H1 & H2); [left; reflexivity|]. cbn in H2.
  assert (F : first_named n l = Some r) by (apply first_named_some; eauto).
  rewrite F. destruct (r_check r feature a); [reflexivity|].
  apply IH. intros e He. apply H. right. exact He.
Qed.

(* Register throws exactly when a library with that name, in any case, was
   registered before. *)
Theorem spi_register_conflict (l : list registration) (r : registration) :
  register (run l) r = Thrown <->
  exists r', In r' l /\ lower (r_name r') = lower (r_name r).
Proof.
  unfold register. destruct (run_libs l) as [_ LL]. rewrite LL.
  destruct (first_named (lower (r_name r)) l) as [r1|] eqn:F.
  - split; [|reflexivity]. intros _.
    apply first_named_some in F. destruct F as (i & (H & _) & E).
    exists r1. split; [eapply nth_error_In; exact H|exact E].
  - split; [discriminate|]. intros (r' & Hin & E). exfalso.
    revert F Hin. rewrite <- E. clear. induction l as [|a l IH]; cbn; [tauto|].
    destruct (name_eqb _ _) eqn:G; [discriminate|]. apply name_eqb_false in G.
    intros F [->|Hin]; [congruence|auto].
Qed.

(* ListLibraries: the accepted names, in lower case, in increasing order,
   without repetition. *)
Theorem spi_list_libraries (l : list registration) :
  StronglySorted name_lt (list_libraries (run l)) /\
  forall n, In n (list_libraries (run l)) <-> exists r, In r l /\ lower (r_name r) = n.
Proof.
  destruct (run_libs l) as [LS LL]. split; [exact LS|].
  intros n. unfold list_libraries. rewrite lookup_in. split.
  - intros [r H]. rewrite LL in H. apply first_named_some in H.
    destruct H as (i & (H & _) & E). exists r. split; [eapply nth_error_In; exact H|exact E].
  - intros (r & Hin & E). rewrite LL. clear LS LL. revert Hin.
    induction l as [|a l IH]; cbn; [tauto|].
    destruct (name_eqb n (lower (r_name a))) eqn:G; [eauto|].
    apply name_eqb_false in G. intros [->|Hin]; [congruence|auto].
Qed.

(* The library asked for, in any case, is the one used, if it was registered and
   supports the feature; otherwise the call throws. *)
Theorem spi_create_named (l : list registration) feature a s :
  lookup arg_lib a = Some (VStr (lower s)) ->
  (forall i r, accepted_at l i r -> lower (r_name r) = lower s ->
     create (run l) feature a =
     if r_check r feature a then r_create r feature a else Thrown) /\
  ((forall r, In r l -> lower (r_name r) <> lower s) ->
     create (run l) feature a = Thrown).
Proof.
  intros Ha. unfold create, get_optional. rewrite Ha. cbn [as_string bind].
  destruct (run_libs l) as [_ LL]. rewrite LL. split.
  - intros i r Hi E.
    assert (F : first_named (lower s) l = Some r) by (apply first_named_some; eauto).
    rewrite F. destruct (r_check r feature a); cbn [bind]; [|reflexivity].
    rewrite LL, F. reflexivity.
  - intros H. destruct (first_named (lower s) l) as [r|] eqn:F; [|reflexivity].
    apply first_named_some in F. destruct F as (i & (F & _) & E).
    exfalso. apply (H r); [eapply nth_error_In; exact F|exact E].
Qed.

(* Without a library name: of the libraries that support the feature the one
   with the best performance is used, the first registered among equals; with
   none the call throws.  Performances are not negative. *)
Theorem spi_create_best (l : list registration) feature a :
  lookup arg_lib a = None ->
  Forall (fun r => 0 <= r_perf r < 2 ^ 63)%Z l ->
  (exists i r, accepted_at l i r /\ r_check r feature a = true /\
     (forall j r', accepted_at l j r' -> r_check r' feature a = true ->
        (r_perf r' < r_perf r)%Z \/ (r_perf r' = r_perf r /\ i <= j)) /\
     create (run l) feature a = r_create r feature a) \/
  ((forall i r, accepted_at l i r -> r_check r feature a = false) /\
   create (run l) feature a = Thrown).
Proof.
  intros Ha Hp. unfold create, get_optional. rewrite Ha. cbn [bind].
  destruct (run_perf l) as (_ & HN & HB).
  rewrite (auto_select_find l) by exact HN. cbn [bind].
  set (p := fun n => match first_named n l with
                     | Some r => r_check r feature a | None => false end).
  specialize (HB p).
  assert (Hpr : forall i r, accepted_at l i r -> p (lower (r_name r)) = r_check r feature a).
  { intros i r H. unfold p.
    assert (F : first_named (lower (r_name r)) l = Some r) by (apply first_named_some; eauto).
    rewrite F. reflexivity. }
  assert (Hk : forall i r, accepted_at l i r -> perf_key (r_perf r) = r_perf r).
  { intros i r [H _]. apply nth_error_In in H. rewrite Forall_forall in Hp.
    specialize (Hp r H). unfold perf_key. apply Z.mod_small.
    change (2 ^ 64)%Z with (2 * 2 ^ 63)%Z. lia. }
  destruct (find_perf p (perf (run l))) as [[k n]|]; cbn [option_map snd is_best bind] in *.
  - left. destruct HB as (i & r & H1 & H2 & H3 & H4 & H5).
    exists i, r. split; [exact H1|]. split; [rewrite <- (Hpr i r H1), H2; exact H4|].
    split.
    + intros j r' Hj Hc. rewrite <- (Hk i r H1), <- (Hk j r' Hj), <- H3.
      apply H5; [exact Hj|]. rewrite (Hpr j r' Hj). exact Hc.
    + destruct (run_libs l) as [_ LL]. rewrite LL.
      assert (F : first_named n l = Some r) by (apply first_named_some; eauto).
      rewrite F. reflexivity.
  - right. split; [|reflexivity]. intros i r H. rewrite <- (Hpr i r H). eauto.
Qed.

(* ListLibraries(feature, args): the libraries that support the feature and have
   the name asked for, in increasing order. *)
Theorem spi_list_libraries_for (l : list registration) feature a lib :
  get_optional a arg_lib = Val lib ->
  exists ns, list_libraries_for (run l) feature a = Val ns /\
    StronglySorted name_lt ns /\
    forall n, In n ns <->
      exists i r, accepted_at l i r /\ lower (r_name r) = n /\
        r_check r feature a = true /\ (forall s, lib = Some s -> n = s).
Proof.
  intros Hl. unfold list_libraries_for. rewrite Hl. cbn [bind].
  destruct (run_libs l) as [LS LL].
  eexists. split; [reflexivity|]. split.
  - unfold sorted_map in LS. clear LL. induction (libs (run l)) as [|[k r] m IH]; cbn.
    + constructor.
    + cbn in LS. inversion LS as [|? ? H1 H2]; subst.
      destruct (_ && _); cbn; [|auto]. constructor; [auto|].
      apply Forall_forall. intros x Hx. rewrite Forall_forall in H2. apply H2.
      apply in_map_iff in Hx. destruct Hx as (kr & <- & Hx).
      apply filter_In in Hx. apply in_map. apply Hx.
  - intros n. rewrite in_map_iff. split.
    + intros ([k r] & E & H). cbn in E. subst k. apply filter_In in H.
      destruct H as [H1 H2]. cbn [fst snd] in H2. apply andb_true_iff in H2.
      destruct H2 as [H2 H3]. apply (lookup_pair _ _ _ LS) in H1. rewrite LL in H1.
      apply first_named_some in H1. destruct H1 as (i & H4 & H5).
      exists i, r. split; [exact H4|]. split; [exact H5|]. split; [exact H3|].
      intros s ->. apply name_eqb_true in H2. congruence.
    + intros (i & r & H1 & H2 & H3 & H4). exists (n, r). split; [reflexivity|].
      apply filter_In. split.
      * apply (lookup_pair _ _ _ LS). rewrite LL. apply first_named_some. eauto.
      * cbn [fst snd]. rewrite H3, andb_true_r. destruct lib as [s|]; [|reflexivity].
        apply name_eqb_true. symmetry. auto.
Qed.

(* Create reaches a creator exactly when that list is not empty. *)
Theorem spi_create_iff_listed (l : list registration) feature a ns :
  list_libraries_for (run l) feature a = Val ns ->
  (ns = [] -> create (run l) feature a = Thrown) /\
  (ns <> [] -> exists r, In r l /\ In (lower (r_name r)) ns /\
                 create (run l) feature a = r_create r feature a).
Proof.
  intros HL.
  assert (Hlib : exists lib, get_optional a arg_lib = Val lib).
  { unfold list_libraries_for in HL. destruct (get_optional a arg_lib); try discriminate. eauto. }
  destruct Hlib as [lib Hlib].
  destruct (spi_list_libraries_for l feature a lib Hlib) as (ns' & HL' & _ & Hin).
  assert (ns' = ns) by congruence. subst ns'. clear HL'.
  unfold create. rewrite Hlib. cbn [bind].
  destruct (run_libs l) as [_ LL]. destruct lib as [s|].
  - rewrite LL. destruct (first_named s l) as [r|] eqn:F.
    + assert (F' := F). apply first_named_some in F'. destruct F' as (i & Hi & En).
      destruct (r_check r feature a) eqn:C; cbn [bind].
      * assert (Hs : In s ns).
        { apply Hin. exists i, r. repeat (split; [assumption|]). intros; congruence. }
        split; [intros ->; destruct Hs|]. intros _. exists r. split.
        { destruct Hi as [Hi _]. eapply nth_error_In; exact Hi. }
        rewrite En. split; [exact Hs|]. rewrite LL, F. reflexivity.
      * split; [reflexivity|]. intros Hne. exfalso. destruct ns as [|n ns]; [congruence|].
        destruct (proj1 (Hin n)) as (j & r' & H1 & H2 & H3 & H4); [left; reflexivity|].
        assert (F2 : first_named s l = Some r').
        { apply first_named_some. exists j. split; [exact H1|]. rewrite H2. auto. }
        congruence.
    + split; [reflexivity|]. intros Hne. exfalso. destruct ns as [|n ns]; [congruence|].
      destruct (proj1 (Hin n)) as (j & r' & H1 & H2 & H3 & H4); [left; reflexivity|].
      assert (F2 : first_named s l = Some r').
      { apply first_named_some. exists j. split; [exact H1|]. rewrite H2. auto. }
      congruence.
  - destruct (run_perf l) as (_ & HN & HB).
    rewrite (auto_select_find l) by exact HN. cbn [bind].
    set (p := fun n => match first_named n l with
                       | Some r => r_check r feature a | None => false end).
    specialize (HB p).
    destruct (find_perf p (perf (run l))) as [[k n]|]; cbn [option_map snd is_best bind] in *.
    + destruct HB as (i & r & H1 & H2 & H3 & H4 & _).
      assert (F : first_named n l = Some r) by (apply first_named_some; eauto).
      unfold p in H4. rewrite F in H4.
      assert (Hs : In n ns).
      { apply Hin. exists i, r. repeat (split; [assumption|]). intros; congruence. }
      split; [intros ->; destruct Hs|]. intros _. exists r. split.
      { destruct H1 as [H1 _]. eapply nth_error_In; exact H1. }
      rewrite H2. split; [exact Hs|]. rewrite LL, F. reflexivity.
    + split; [reflexivity|]. intros Hne. exfalso. destruct ns as [|n ns]; [congruence|].
      destruct (proj1 (Hin n)) as (j & r' & H1 & H2 & H3 & _); [left; reflexivity|].
      specialize (HB _ _ H1). unfold p in HB.
      assert (F : first_named (lower (r_name r')) l = Some r') by (apply first_named_some; eauto).
      rewrite F in HB. congruence.
Qed.

(* An ArgLib that holds no string makes every call throw. *)
Theorem spi_lib_not_string (f : factory) feature a v :
  lookup arg_lib a = Some v -> (forall s, v <> VStr s) ->
  create f feature a = Thrown /\ list_libraries_for f feature a = Thrown.
Proof.
  intros Ha Hv. unfold create, list_libraries_for, get_optional. rewrite Ha.
  destruct v as [s| |]; [exfalso; apply (Hv s); reflexivity| |]; auto.
Qed.

End Factory.

(* ------------------------------------------------------------------ *)
(* Argument keys                                                       *)

Definition alnum (c : nat) : bool := is_upper c || is_tail c.

Definition word (w : name) : Prop := w <> [] /\ Forall (fun c => is_tail c = true) w.

Lemma lower_tail c : alnum c = true -> is_tail (lower_char c) = true.
Proof.
  unfold alnum, lower_char. destruct (is_upper c) eqn:U; cbn [orb]; [|auto].
  intros _. unfold is_upper in U. apply andb_true_iff in U. destruct U as [U1 U2].
  apply Nat.leb_le in U1. apply Nat.leb_le in U2. unfold is_tail.
  destruct (Nat.leb_spec 97 (c + 32)); [|lia].
  destruct (Nat.leb_spec (c + 32) 122); [|lia]. reflexivity.
Qed.

Lemma tail_not_upper c : is_tail c = true -> is_upper c = false.
Proof.
  unfold is_tail, is_upper. intros H. apply andb_false_iff.
  destruct (Nat.leb_spec 65 c) as [K1|K1]; [|auto].
  destruct (Nat.leb_spec c 90) as [K2|K2]; [|auto].
  exfalso. apply orb_true_iff in H. destruct H as [H|H]; apply andb_true_iff in H;
  destruct H as [H1 H2]; apply Nat.leb_le in H1; apply Nat.leb_le in H2; lia.
Qed.

Lemma lower_word w : Forall (fun c => is_tail c = true) w -> lower w = w.
Proof.
  induction 1 as [|c w Hc Hw IH]; [reflexivity|]. unfold lower in *. cbn [map].
  rewrite IH. unfold lower_char. rewrite (tail_not_upper c Hc). reflexivity.
Qed.

Lemma words_alnum s : forall cur,
  Forall (fun c => alnum c = true) cur ->
  Forall (fun w => w <> [] /\ Forall (fun c => alnum c = true) w) (words cur s).
Proof.
  assert (FL : forall cur ws, Forall (fun c => alnum c = true) cur ->
    Forall (fun w => w <> [] /\ Forall (fun c => alnum c = true) w) ws ->
    Forall (fun w => w <> [] /\ Forall (fun c => alnum c = true) w) (flush cur ws)).
  { intros [|c cur] ws H1 H2; cbn [flush]; [exact H2|]. constructor; [|exact H2].
    split; [cbn; destruct (rev cur); discriminate|]. apply Forall_rev. exact H1. }
  induction s as [|c s IH]; intros cur Hc; cbn [words].
  - apply FL; [exact Hc|constructor].
  - destruct (is_upper c) eqn:U.
    + apply FL; [exact Hc|]. apply IH. constructor; [|constructor].
      unfold alnum. rewrite U. reflexivity.
    + destruct (is_tail c) eqn:T.
      * apply IH. constructor; [|exact Hc]. unfold alnum. rewrite T. apply orb_true_r.
      * apply FL; [exact Hc|]. apply IH. constructor.
Qed.

Lemma snake_words s : Forall word (map lower (words [] s)).
Proof.
  apply Forall_map. eapply Forall_impl; [|apply (words_alnum s []); constructor].
  intros w [H1 H2]. split.
  - destruct w; [congruence|discriminate].
  - unfold lower. apply Forall_map. eapply Forall_impl; [|exact H2].
    intros c. apply lower_tail.
Qed.

Lemma words_word w : forall cur s,
  Forall (fun c => is_tail c = true) w ->
  words cur (w ++ s) = words (rev w ++ cur) s.
Proof.
  induction w as [|c w IH]; intros cur s H; [reflexivity|].
  inversion H as [|? ? H1 H2]; subst. cbn [app words].
  rewrite (tail_not_upper c H1), H1, IH by exact H2. cbn [rev].
  rewrite <- app_assoc. reflexivity.
Qed.

Lemma words_join ws : Forall word ws -> words [] (join ws) = ws.
Proof.
  induction ws as [|w ws IH]; intros H; [reflexivity|].
  inversion H as [|? ? [Hn Hw] Hws]; subst.
  assert (Hfl : forall r, flush (rev w ++ []) r = w :: r).
  { intros r. rewrite app_nil_r. destruct (rev w) eqn:E.
    - exfalso. apply Hn. rewrite <- (rev_involutive w), E. reflexivity.
    - unfold flush. rewrite <- E, rev_involutive. reflexivity. }
  destruct ws as [|w' ws].
  - cbn [join]. rewrite <- (app_nil_r w) at 1. rewrite words_word by exact Hw.
    cbn [words]. apply Hfl.
  - change (join (w :: w' :: ws)) with (w ++ underscore :: join (w' :: ws)).
    rewrite words_word by exact Hw. cbn [words].
    change (is_upper underscore) with false. change (is_tail underscore) with false.
    cbn iota. rewrite Hfl, IH by exact Hws. reflexivity.
Qed.

(* The normal form of a key: a second pass changes nothing; it is made of
   non-empty runs of small letters and digits joined by single underscores. *)
Theorem snake_normal_form s :
  snake (snake s) = snake s /\
  exists ws, snake s = join ws /\ Forall word ws.
Proof.
  split.
  - unfold snake at 1 2. rewrite words_join by apply snake_words. unfold snake.
    f_equal. rewrite map_map. apply map_ext. apply lower_idem.
  - exists (map lower (words [] s)). split; [reflexivity|apply snake_words].
Qed.

(* A key already in that form is kept as it is. *)
Theorem snake_fixed ws : Forall word ws -> snake (join ws) = join ws.
Proof.
  intros H. unfold snake. rewrite words_join by exact H. f_equal.
  rewrite <- (map_id ws) at 2. apply map_ext_in. intros w Hw.
  rewrite Forall_forall in H. apply lower_word. apply H. exact Hw.
Qed.

Lemma words_concat s : forall cur,
  concat (words cur s) = rev cur ++ filter alnum s.
Proof.
  assert (FL : forall cur ws, concat (flush cur ws) = rev cur ++ concat ws)
    by (intros [|c cur] ws; reflexivity).
  induction s as [|c s IH]; intros cur; cbn [words filter].
  - rewrite FL. reflexivity.
  - unfold alnum at 1. destruct (is_upper c) eqn:U; cbn [orb].
    + rewrite FL, IH. reflexivity.
    + destruct (is_tail c) eqn:T.
      * rewrite IH. cbn [rev]. rewrite <- app_assoc. reflexivity.
      * rewrite FL, IH. reflexivity.
Qed.

Lemma filter_join ws : Forall word ws -> filter alnum (join ws) = concat ws.
Proof.
  assert (FT : forall w, Forall (fun c => is_tail c = true) w -> filter alnum w = w).
  { induction 1 as [|c w Hc Hw IH]; [reflexivity|]. cbn. unfold alnum at 1.
    rewrite Hc, orb_true_r, IH. reflexivity. }
  induction ws as [|w ws IH]; intros H; [reflexivity|].
  inversion H as [|? ? [_ Hw] Hws]; subst. destruct ws as [|w' ws].
  - cbn [join concat]. rewrite app_nil_r. apply FT. exact Hw.
  - change (join (w :: w' :: ws)) with (w ++ underscore :: join (w' :: ws)).
    rewrite filter_app, FT by exact Hw. cbn [filter].
    change (alnum underscore) with false. cbn iota. rewrite IH by exact Hws. reflexivity.
Qed.

(* The letters and digits of a key survive, in order, in lower case. *)
Theorem snake_letters s :
  filter alnum (snake s) = lower (filter alnum s).
Proof.
  unfold snake. rewrite filter_join by apply snake_words.
  rewrite <- (app_nil_l (filter alnum s)).
  change (@nil nat) with (rev (@nil nat)) at 2. rewrite <- words_concat.
  unfold lower. symmetry. apply concat_map.
Qed.

(* A key is refused exactly when it has no letter and no digit. *)
Theorem spi_arg_refused key v :
  spi_arg key v = Thrown <-> Forall (fun c => alnum c = false) key.
Proof.
  assert (E : snake key = [] <-> filter alnum key = []).
  { split; intros H.
    - assert (L := snake_letters key). rewrite H in L. cbn in L.
      destruct (filter alnum key); [reflexivity|discriminate].
    - unfold snake. assert (C := words_concat key []). rewrite H in C. cbn in C.
      assert (A := words_alnum key [] (Forall_nil _)).
      destruct (words [] key) as [|w ws]; [reflexivity|].
      inversion A as [|? ? [Hn _] _]; subst. destruct w; [congruence|discriminate]. }
  assert (F : filter alnum key = [] <-> Forall (fun c => alnum c = false) key).
  { clear E. induction key as [|c key IH]; cbn.
    - split; [constructor|reflexivity].
    - rewrite Forall_cons_iff. destruct (alnum c); [split; [discriminate|intuition congruence]|].
      rewrite IH. intuition. }
  rewrite <- F, <- E. unfold spi_arg. destruct (snake key); split; congruence.
Qed.

(* The arguments of a call: of several with the same key the first counts;
   their order does not matter otherwise. *)
Fixpoint first_arg (k : name) (l : list (name * value)) : option value :=
  match l with
  | [] => None
  | (k', v) :: l' => if name_eqb k k' then Some v else first_arg k l'
  end.

Lemma spi_args_spec l :
  sorted_map (spi_args l) /\ forall k, lookup k (spi_args l) = first_arg k l.
Proof.
  unfold spi_args.
  induction l as [|[k0 v0] l [IS IL]] using rev_ind.
  - split; [constructor|reflexivity].
  - rewrite fold_left_app. cbn [fold_left]. unfold args_insert at 1 3. cbn [fst snd].
    split; [apply map_insert_sorted; exact IS|]. intros k.
    rewrite lookup_insert by exact IS. rewrite IL. clear IS IL.
    induction l as [|[k1 v1] l IH]; cbn [app first_arg].
    + destruct (name_eqb k k0); reflexivity.
    + destruct (name_eqb k k1); [reflexivity|exact IH].
Qed.

Theorem spi_args_first_wins l k :
  lookup k (spi_args l) =
  match find (fun e => name_eqb k (fst e)) l with Some e => Some (snd e) | None => None end.
Proof.
  rewrite (proj2 (spi_args_spec l)).
  induction l as [|[k1 v1] l IH]; cbn [first_arg find fst]; [reflexivity|].
  destruct (name_eqb k k1); [reflexivity|exact IH].
Qed.

(* The three getters, on any set of arguments. *)
Theorem spi_getters a k d :
  (lookup k a = None ->
     get_optional a k = Val None /\ get_or_default a k d = Val d /\
     get_required a k = Thrown) /\
  (forall s, lookup k a = Some (VStr s) ->
     get_optional a k = Val (Some s) /\ get_or_default a k d = Val s /\
     get_required a k = Val s) /\
  (forall v, lookup k a = Some v -> (forall s, v <> VStr s) ->
     get_optional a k = Thrown /\ get_or_default a k d = Thrown /\
     get_required a k = Thrown).
Proof.
  unfold get_optional, get_or_default, get_required.
  split; [intros ->; auto|]. split; [intros s ->; auto|].
  intros v -> Hv. destruct v as [s| |]; [exfalso; apply (Hv s); reflexivity| |]; auto.
Qed.

(* End to end: the name in the call may be written in any case, and the key in
   any spelling with the same normal form. *)
Theorem spi_create_spelling {V} (l : list (registration V)) feature key s e i r :
  snake key = arg_lib ->
  spi_arg key (VStr s) = Val e ->
  accepted_at l i r -> lower (r_name r) = lower s ->
  create (run l) feature (spi_args [e]) =
  if r_check r feature (spi_args [e]) then r_create r feature (spi_args [e]) else Thrown.
Proof.
  intros Hk He Hi Hn. unfold spi_arg in He. rewrite Hk in He.
  assert (E : e = (arg_lib, VStr (lower s))).
  { change arg_lib with [108; 105; 98] in He. cbn in He.
    change arg_lib with [108; 105; 98]. injection He as <-. reflexivity. }
  subst e. apply (proj1 (spi_create_named l feature _ s
    (eq_refl : lookup arg_lib (spi_args [(arg_lib, VStr (lower s))]) = _)) i r Hi Hn).
Qed.

(* ------------------------------------------------------------------ *)
(* What does not hold                                                  *)

(* Two keys that a caller may mean as different are one argument. *)
Theorem snake_injective_refuted :
  exists a b, a <> b /\ lower a <> lower b /\ snake a = snake b.
Proof. exists [72; 105; 84], [72; 105; 45; 116].
  split; [discriminate|]. split; [|reflexivity]. vm_compute. discriminate. Qed.

Definition demo (n : nat) (p : Z) : registration nat :=
  {| r_name := [79; n]; r_perf := p;
     r_check := fun _ _ => true; r_create := fun _ _ => Val n |}.

(* The performance is an int64_t and the map is keyed by uint64_t: a library
   registered with a negative performance is preferred to all the others. *)
Theorem spi_best_any_performance_refuted :
  exists (l : list (registration nat)) a r r',
    lookup arg_lib a = None /\ In r l /\ In r' l /\
    (r_perf r < r_perf r')%Z /\ r_check r [] a = true /\ r_check r' [] a = true /\
    r_create r [] a <> r_create r' [] a /\
    create (run l) [] a = r_create r [] a.
Proof.
  exists [demo 65 100; demo 66 (-1)], [], (demo 66 (-1)), (demo 65 100).
  cbn. repeat split; auto; discriminate.
Qed.

(* ------------------------------------------------------------------ *)
(* Examples                                                            *)

(* "OA" 100, "OB" 200, "oa" 300 (refused), "OC" 200. *)
Definition demo_history : list (registration nat) :=
  [demo 65 100; demo 66 200;
   {| r_name := [111; 97]; r_perf := 300; r_check := fun _ _ => true;
      r_create := fun _ _ => Val 1 |};
   demo 67 200].

Example ex_spi_best :
  Forall (fun r => 0 <= r_perf r < 2 ^ 63)%Z demo_history /\
  create (run demo_history) [] [] = Val 66 /\
  list_libraries (run demo_history) = [[111; 97]; [111; 98]; [111; 99]] /\
  create (run demo_history) [] (spi_args [(arg_lib, VStr (lower [79; 67]))]) = Val 67 /\
  create (run demo_history) [] (spi_args [(arg_lib, VStr [122])]) = Thrown.
Proof.
  split; [repeat constructor; cbn; lia|]. vm_compute. auto.
Qed.

Example ex_spi_accepted :
  accepted_at demo_history 3 (demo 67 200) /\
  register (run demo_history) (demo 65 5) = Thrown.
Proof.
  split; [|reflexivity]. split; [reflexivity|].
  intros [|[|[|j]]] r' Hj H; cbn in H; try lia; injection H as <-; vm_compute; discriminate.
Qed.

(* "hello-worldHaha" is "hello_world_haha", "LIB" is "l_i_b". *)
Example ex_snake :
  snake [104;101;108;108;111;45;119;111;114;108;100;72;97;104;97] =
    [104;101;108;108;111;95;119;111;114;108;100;95;104;97;104;97] /\
  snake [76;73;66] = [108;95;105;95;98] /\ arg_lib = [108;105;98].
Proof. vm_compute. auto. Qed.

Example ex_spi_lib_not_string :
  create (run demo_history) [] (spi_args [(arg_lib, VOther 5)]) = Thrown.
Proof. reflexivity. Qed.

Example ex_spelling :
  snake [45; 108; 105; 98; 95] = arg_lib /\
  spi_arg [45; 108; 105; 98; 95] (VStr [79; 66]) = Val (arg_lib, VStr [111; 98]).
Proof. vm_compute. auto. Qed.

Print Assumptions spi_register_conflict.
Print Assumptions spi_list_libraries.
Print Assumptions spi_create_named.
Print Assumptions spi_create_best.
Print Assumptions spi_list_libraries_for.
Print Assumptions spi_create_iff_listed.
Print Assumptions spi_lib_not_string.
Print Assumptions snake_normal_form.
Print Assumptions snake_fixed.
Print Assumptions snake_letters.
Print Assumptions spi_arg_refused.
Print Assumptions spi_args_first_wins.
Print Assumptions spi_getters.
Print Assumptions spi_create_spelling.
Print Assumptions snake_injective_refuted.
Print Assumptions spi_best_any_performance_refuted.
