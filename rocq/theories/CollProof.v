From Coq Require Import List Arith Bool Lia Permutation.
From Verif Require Import ChanKeyModel CollModel.
Import ListNotations.

(** * Generic theory of matching send/receive programs *)
Definition tag (a : action) : nat * nat * nat :=
  match a with
  | ASend d k _ => (0, d, k)
  | ARecv s k => (1, s, k)
  | AOut k _ => (2, 0, k)
  end.

Section Generic.
Variable n : nat.
Variable prog : nat -> list action.
Variable val : nat -> nat -> nat -> bytes.
Variable rk : nat -> nat -> nat -> nat.
Variable outv : nat -> nat -> list bytes.

Definition reg_step (r : nat) (acc : list bytes) (a : action) : list bytes :=
  match a with
  | ARecv s k => acc ++ [val k s r]
  | AOut _ _ => []
  | ASend _ _ _ => acc
  end.
Definition exp_regs (r : nat) (l : list action) : list bytes := fold_left (reg_step r) l [].
Definition exp_outs (r : nat) (l : list action) : list (list bytes) :=
  flat_map (fun a => match a with AOut k _ => [outv k r] | _ => [] end) l.

Hypothesis H_nil : forall r, n <= r -> prog r = [].
Hypothesis H_send : forall r d k g, In (ASend d k g) (prog r) -> d < n /\ d <> r /\ In (ARecv r k) (prog d).
Hypothesis H_recv : forall r s k, In (ARecv s k) (prog r) -> s < n /\ exists g, In (ASend r k g) (prog s).
Hypothesis H_nodup : forall r, NoDup (map tag (prog r)).
Hypothesis H_rank : forall r l1 l2 s k d k' g,
  prog r = l1 ++ ARecv s k :: l2 -> In (ASend d k' g) l2 -> rk k s r < rk k' r d.
Hypothesis H_val : forall r l1 l2 d k g, prog r = l1 ++ ASend d k g :: l2 -> g (exp_regs r l1) = val k r d.
Hypothesis H_out : forall r l1 l2 k h, prog r = l1 ++ AOut k h :: l2 -> h (exp_regs r l1) = outv k r.

Definition did (s : net) (r : nat) : list action :=
  firstn (length (prog r) - length (todo (parties s r))) (prog r).

Lemma did_eq s r dn : prog r = dn ++ todo (parties s r) -> did s r = dn.
Proof.
  intros H. unfold did. rewrite H at 1 2. rewrite app_length.
  replace (length dn + length (todo (parties s r)) - length (todo (parties s r))) with (length dn) by lia.
  rewrite firstn_app, Nat.sub_diag, firstn_all. simpl. apply app_nil_r.
Qed.

Definition mtag (m : message) := (m_src m, m_dst m, m_key m).
Definition sent (s : net) (p d k : nat) : Prop := exists g, In (ASend d k g) (did s p).
Definition rcvd (s : net) (p src k : nat) : Prop := In (ARecv src k) (did s p).

Record Inv (s : net) : Prop := {
  i_pre : forall r, prog r = did s r ++ todo (parties s r);
  i_regs : forall r, regs (parties s r) = exp_regs r (did s r);
  i_outs : forall r, outs (parties s r) = exp_outs r (did s r);
  i_msg : forall m, In m (flight s ++ boxes s) ->
          m_val m = val (m_key m) (m_src m) (m_dst m) /\
          sent s (m_src m) (m_dst m) (m_key m) /\ ~ rcvd s (m_dst m) (m_src m) (m_key m);
  i_uniq : NoDup (map mtag (flight s ++ boxes s));
  i_comp : forall p d k, sent s p d k ->
           rcvd s d p k \/ exists m, In m (flight s ++ boxes s) /\ mtag m = (p, d, k);
  i_caus : forall p src k, rcvd s p src k -> sent s src p k
}.

Lemma tag_unique l a b : NoDup (map tag l) -> In a l -> In b l -> tag a = tag b -> a = b.
Proof.
  induction l as [|x l IH]; simpl; intros Hn Ha Hb Ht; [tauto|].
  inversion Hn as [|? ? Hx Hn']; subst.
  destruct Ha as [ -> |Ha], Hb as [ -> |Hb]; auto.
  - exfalso. apply Hx. rewrite Ht. apply in_map; auto.
  - exfalso. apply Hx. rewrite <- Ht. apply in_map; auto.
Qed.

Lemma nodup_head dn a r : NoDup (map tag (dn ++ a :: r)) -> forall b, In b dn -> tag b <> tag a.
Proof.
  rewrite map_app. simpl. intros Hn b Hb Ht. apply NoDup_remove_2 in Hn. apply Hn.
  apply in_or_app. left. rewrite <- Ht. apply in_map; auto.
Qed.

Lemma take_box_some s d k l v l' : take_box s d k l = Some (v, l') ->
  exists l1 l2, l = l1 ++ mkMsg s d k v :: l2 /\ l' = l1 ++ l2.
Proof.
  revert v l'. induction l as [|m l IH]; intros v l' H; simpl in H; [discriminate|].
  destruct ((m_src m =? s) && (m_dst m =? d) && (m_key m =? k)) eqn:E.
  - inversion H; subst. apply andb_true_iff in E as [E E3]. apply andb_true_iff in E as [E1 E2].
    apply Nat.eqb_eq in E1, E2, E3. exists [], l'. split; auto. destruct m; simpl in *; subst; auto.
  - destruct (take_box s d k l) as [[v' r']|] eqn:E'; [|discriminate]. inversion H; subst.
    destruct (IH _ _ eq_refl) as (l1 & l2 & -> & ->). exists (m :: l1), l2. auto.
Qed.

Lemma take_box_none s d k l : take_box s d k l = None -> forall m, In m l -> mtag m <> (s, d, k).
Proof.
  induction l as [|m l IH]; intros H x Hx; simpl in *; [tauto|].
  destruct ((m_src m =? s) && (m_dst m =? d) && (m_key m =? k)) eqn:E; [discriminate|].
  destruct (take_box s d k l) as [[v' r']|] eqn:E'; [discriminate|].
  destruct Hx as [<-|Hx]; auto. unfold mtag. intros Ht. inversion Ht; subst.
  rewrite !Nat.eqb_refl in E. discriminate.
Qed.

(** One party moves from [did] to [did ++ [a]]. *)
Lemma did_step s r a rest : prog r = did s r ++ todo (parties s r) -> todo (parties s r) = a :: rest ->
  forall rg ou fl bx, let s' := mkNet (set_party r (mkParty rest rg ou) (parties s)) fl bx in
  did s' r = did s r ++ [a] /\ forall q, q <> r -> did s' q = did s q.
Proof.
  intros Hp Ht rg ou fl bx s'. split.
  - apply did_eq. unfold s'; simpl. unfold set_party. rewrite Nat.eqb_refl. simpl.
    rewrite <- app_assoc. simpl. rewrite <- Ht. exact Hp.
  - intros q Hq. unfold did, s'; simpl. unfold set_party.
    replace (q =? r) with false by (symmetry; apply Nat.eqb_neq; auto). reflexivity.
Qed.

Lemma inv_init fl : fl = [] -> (forall r, did (mkNet (fun r => mkParty (prog r) [] []) [] []) r = []) /\
  Inv (mkNet (fun r => mkParty (prog r) [] []) fl []).
Proof.
  intros ->. assert (Hd : forall r, did (mkNet (fun r => mkParty (prog r) [] []) [] []) r = []).
  { intros r. apply did_eq. reflexivity. }
  split; auto. constructor; intros; try (rewrite Hd); simpl; auto.
  - simpl in H. tauto.
  - constructor.
  - destruct H as [g H]. rewrite Hd in H. destruct H.
  - unfold rcvd in H. rewrite Hd in H. destruct H.
Qed.

Lemma exp_regs_snoc r l a : exp_regs r (l ++ [a]) = reg_step r (exp_regs r l) a.
Proof. unfold exp_regs. rewrite fold_left_app. reflexivity. Qed.
Lemma exp_outs_app r l l' : exp_outs r (l ++ l') = exp_outs r l ++ exp_outs r l'.
Proof. unfold exp_outs. apply flat_map_app. Qed.

Lemma perm_delivery (i : nat) (fl bx : list message) m :
  nth_error fl i = Some m ->
  Permutation (fl ++ bx) ((firstn i fl ++ skipn (S i) fl) ++ bx ++ [m]).
Proof.
  intros H. apply nth_error_split in H as (l1 & l2 & -> & <-).
  replace (skipn (S (length l1)) (l1 ++ m :: l2)) with l2.
  2:{ rewrite skipn_app. rewrite skipn_all2 by lia.
      replace (S (length l1) - length l1) with 1 by lia. reflexivity. }
  rewrite firstn_app, Nat.sub_diag, firstn_all. simpl. rewrite app_nil_r.
  rewrite app_assoc. rewrite <- !app_assoc. simpl.
  apply Permutation_app_head.
  rewrite app_assoc. apply Permutation_cons_append.
Qed.

Lemma inv_step st s s' : Inv s -> do_step st s = Some s' -> Inv s'.
Proof.
  intros I H. destruct st as [p|i]; cbn [do_step] in H.
  - destruct (todo (parties s p)) as [|[d k g|src k|k h] rest] eqn:Et; [discriminate| | |].
    + (* send *)
      inversion H; subst; clear H.
      destruct (did_step s p _ rest (i_pre s I p) Et (regs (parties s p)) (outs (parties s p))
                  (flight s ++ [mkMsg p d k (g (regs (parties s p)))]) (boxes s)) as [Dp Dq].
      set (s' := mkNet _ _ _) in *. cbv zeta in Dp, Dq.
      assert (Hpp : forall q, q <> p -> parties s' q = parties s q).
      { intros q Hq. unfold s'; simpl. unfold set_party.
        replace (q =? p) with false by (symmetry; apply Nat.eqb_neq; auto). reflexivity. }
      assert (Hp : parties s' p = mkParty rest (regs (parties s p)) (outs (parties s p))).
      { unfold s'; simpl. unfold set_party. rewrite Nat.eqb_refl. reflexivity. }
      assert (Hprog : prog p = did s p ++ ASend d k g :: rest) by (rewrite <- Et; apply (i_pre s I)).
      assert (Hnew : ~ sent s p d k).
      { intros [g' Hg]. pose proof (H_nodup p) as Hn. rewrite Hprog in Hn.
        apply (nodup_head _ _ _ Hn _ Hg). reflexivity. }
      assert (Hsent : forall q d' k', sent s q d' k' -> sent s' q d' k').
      { intros q d' k' [g' Hg]. exists g'. destruct (Nat.eq_dec q p) as [ -> |Hq].
        - rewrite Dp. apply in_or_app; auto.
        - rewrite Dq; auto. }
      assert (Hsent' : forall q d' k', sent s' q d' k' -> sent s q d' k' \/ (q, d', k') = (p, d, k)).
      { intros q d' k' [g' Hg]. destruct (Nat.eq_dec q p) as [ -> |Hq].
        - rewrite Dp in Hg. apply in_app_or in Hg as [Hg|[Hg|[]]]; [left; exists g'; auto|].
          right. inversion Hg; auto.
        - rewrite Dq in Hg by auto. left. exists g'; auto. }
      assert (Hrc : forall q x k', rcvd s' q x k' <-> rcvd s q x k').
      { intros q x k'. unfold rcvd. destruct (Nat.eq_dec q p) as [ -> |Hq].
        - rewrite Dp. rewrite in_app_iff. simpl. intuition discriminate.
        - rewrite Dq; tauto. }
      constructor.
      * intros r. destruct (Nat.eq_dec r p) as [ -> |Hq].
        -- rewrite Dp, Hp. simpl. rewrite <- app_assoc. simpl. exact Hprog.
        -- rewrite Dq, Hpp by auto. apply (i_pre s I).
      * intros r. destruct (Nat.eq_dec r p) as [ -> |Hq].
        -- rewrite Dp, Hp. simpl. rewrite exp_regs_snoc. simpl. apply (i_regs s I).
        -- rewrite Dq, Hpp by auto. apply (i_regs s I).
      * intros r. destruct (Nat.eq_dec r p) as [ -> |Hq].
        -- rewrite Dp, Hp. simpl. rewrite exp_outs_app. simpl. rewrite app_nil_r. apply (i_outs s I).
        -- rewrite Dq, Hpp by auto. apply (i_outs s I).
      * intros m Hm. unfold s' in Hm; simpl in Hm.
        assert (Hm' : In m (flight s ++ boxes s) \/ m = mkMsg p d k (g (regs (parties s p)))).
        { rewrite !in_app_iff in *. simpl in Hm. intuition auto. }
        destruct Hm' as [Hm'| ->].
        -- destruct (i_msg s I m Hm') as (V & S1 & R1). split; auto. split; [apply Hsent; auto|]. rewrite Hrc; auto.
        -- simpl. split; [|split].
           ++ rewrite (i_regs s I). eapply H_val; eauto.
           ++ exists g. rewrite Dp. apply in_or_app. simpl; auto.
           ++ rewrite Hrc. intros Hr. apply Hnew. apply (i_caus s I); auto.
      * unfold s'; simpl. rewrite <- app_assoc. simpl. rewrite map_app. simpl.
        apply NoDup_Add with (a := (p, d, k)) (l := map mtag (flight s ++ boxes s)).
        -- rewrite map_app. apply Add_app.
        -- split; [apply (i_uniq s I)|]. intros Hin. apply in_map_iff in Hin as (m & Hm & Hin).
           destruct (i_msg s I m Hin) as (_ & S1 & _). unfold mtag in Hm. inversion Hm; subst. auto.
      * intros q d' k' Hs. apply Hsent' in Hs as [Hs|Hs].
        -- rewrite Hrc. destruct (i_comp s I _ _ _ Hs) as [C|(m & C1 & C2)]; auto. right. exists m. split; auto.
           unfold s'; simpl. rewrite !in_app_iff in *. tauto.
        -- inversion Hs; subst. right. exists (mkMsg p d k (g (regs (parties s p)))). split; auto.
           unfold s'; simpl. rewrite !in_app_iff. simpl. tauto.
      * intros q x k' Hr. rewrite Hrc in Hr. apply Hsent. apply (i_caus s I); auto.
    + (* recv *)
      destruct (take_box src p k (boxes s)) as [[v b]|] eqn:Eb; [|discriminate].
      inversion H; subst; clear H.
      apply take_box_some in Eb as (b1 & b2 & Eb & ->).
      destruct (did_step s p _ rest (i_pre s I p) Et (regs (parties s p) ++ [v]) (outs (parties s p))
                  (flight s) (b1 ++ b2)) as [Dp Dq].
      set (s' := mkNet _ _ _) in *. cbv zeta in Dp, Dq.
      assert (Hpp : forall q, q <> p -> parties s' q = parties s q).
      { intros q Hq. unfold s'; simpl. unfold set_party.
        replace (q =? p) with false by (symmetry; apply Nat.eqb_neq; auto). reflexivity. }
      assert (Hp : parties s' p = mkParty rest (regs (parties s p) ++ [v]) (outs (parties s p))).
      { unfold s'; simpl. unfold set_party. rewrite Nat.eqb_refl. reflexivity. }
      assert (Hprog : prog p = did s p ++ ARecv src k :: rest) by (rewrite <- Et; apply (i_pre s I)).
      assert (Hm0 : In (mkMsg src p k v) (flight s ++ boxes s)).
      { rewrite Eb. rewrite !in_app_iff. simpl. tauto. }
      destruct (i_msg s I _ Hm0) as (V0 & S0 & R0). simpl in V0, S0, R0.
      assert (Hsent : forall q d' k', sent s' q d' k' <-> sent s q d' k').
      { intros q d' k'. unfold sent. destruct (Nat.eq_dec q p) as [ -> |Hq].
        - rewrite Dp. split; intros [g' Hg]; exists g'.
          + apply in_app_or in Hg as [Hg|[Hg|[]]]; [auto|discriminate].
          + apply in_or_app; auto.
        - rewrite Dq by auto. tauto. }
      assert (Hrc : forall q x k', rcvd s' q x k' <-> rcvd s q x k' \/ (x, q, k') = (src, p, k)).
      { intros q x k'. unfold rcvd. destruct (Nat.eq_dec q p) as [ -> |Hq].
        - rewrite Dp. rewrite in_app_iff. simpl. split.
          + intros [Hr|[Hr|[]]]; auto. inversion Hr; auto.
          + intros [Hr|Hr]; auto. inversion Hr; auto.
        - rewrite Dq by auto. split; auto. intros [Hr|Hr]; auto. inversion Hr; congruence. }
      assert (Hperm : Permutation (flight s ++ boxes s) (mkMsg src p k v :: flight s ++ b1 ++ b2)).
      { rewrite Eb. rewrite !app_assoc. symmetry. apply Permutation_middle. }
      assert (Huniq : NoDup (mtag (mkMsg src p k v) :: map mtag (flight s ++ b1 ++ b2))).
      { change (NoDup (map mtag (mkMsg src p k v :: flight s ++ b1 ++ b2))).
        eapply Permutation_NoDup; [|apply (i_uniq s I)]. apply Permutation_map, Hperm. }
      apply NoDup_cons_iff in Huniq as [U1 U2].
      constructor.
      * intros r. destruct (Nat.eq_dec r p) as [ -> |Hq].
        -- rewrite Dp, Hp. simpl. rewrite <- app_assoc. simpl. exact Hprog.
        -- rewrite Dq, Hpp by auto. apply (i_pre s I).
      * intros r. destruct (Nat.eq_dec r p) as [ -> |Hq].
        -- rewrite Dp, Hp. simpl. rewrite exp_regs_snoc. simpl. rewrite (i_regs s I). rewrite V0. reflexivity.
        -- rewrite Dq, Hpp by auto. apply (i_regs s I).
      * intros r. destruct (Nat.eq_dec r p) as [ -> |Hq].
        -- rewrite Dp, Hp. simpl. rewrite exp_outs_app. simpl. rewrite app_nil_r. apply (i_outs s I).
        -- rewrite Dq, Hpp by auto. apply (i_outs s I).
      * intros m Hm. unfold s' in Hm; simpl in Hm.
        assert (Hm' : In m (flight s ++ boxes s)).
        { eapply Permutation_in; [symmetry; apply Hperm|]. right; auto. }
        destruct (i_msg s I m Hm') as (V & S1 & R1). split; auto. split; [apply Hsent; auto|].
        rewrite Hrc. intros [Hr|Hr]; auto. apply U1. apply in_map_iff. exists m. split; auto.
      * exact U2.
      * intros q d' k' Hs. apply Hsent in Hs. rewrite Hrc.
        destruct (i_comp s I _ _ _ Hs) as [C|(m & C1 & C2)]; auto.
        eapply Permutation_in in C1; [|apply Hperm]. destruct C1 as [<-|C1].
        -- unfold mtag in C2. simpl in C2. left. right. inversion C2; auto.
        -- right. exists m. auto.
      * intros q x k' Hr. rewrite Hrc in Hr. apply Hsent. destruct Hr as [Hr|Hr]; [apply (i_caus s I); auto|].
        inversion Hr; subst. auto.
    + (* out *)
      inversion H; subst; clear H.
      destruct (did_step s p _ rest (i_pre s I p) Et [] (outs (parties s p) ++ [h (regs (parties s p))])
                  (flight s) (boxes s)) as [Dp Dq].
      set (s' := mkNet _ _ _) in *. cbv zeta in Dp, Dq.
      assert (Hpp : forall q, q <> p -> parties s' q = parties s q).
      { intros q Hq. unfold s'; simpl. unfold set_party.
        replace (q =? p) with false by (symmetry; apply Nat.eqb_neq; auto). reflexivity. }
      assert (Hp : parties s' p = mkParty rest [] (outs (parties s p) ++ [h (regs (parties s p))])).
      { unfold s'; simpl. unfold set_party. rewrite Nat.eqb_refl. reflexivity. }
      assert (Hprog : prog p = did s p ++ AOut k h :: rest) by (rewrite <- Et; apply (i_pre s I)).
      assert (Hsent : forall q d' k', sent s' q d' k' <-> sent s q d' k').
      { intros q d' k'. unfold sent. destruct (Nat.eq_dec q p) as [ -> |Hq].
        - rewrite Dp. split; intros [g' Hg]; exists g'.
          + apply in_app_or in Hg as [Hg|[Hg|[]]]; [auto|discriminate].
          + apply in_or_app; auto.
        - rewrite Dq by auto. tauto. }
      assert (Hrc : forall q x k', rcvd s' q x k' <-> rcvd s q x k').
      { intros q x k'. unfold rcvd. destruct (Nat.eq_dec q p) as [ -> |Hq].
        - rewrite Dp. rewrite in_app_iff. simpl. intuition discriminate.
        - rewrite Dq; tauto. }
      constructor.
      * intros r. destruct (Nat.eq_dec r p) as [ -> |Hq].
        -- rewrite Dp, Hp. simpl. rewrite <- app_assoc. simpl. exact Hprog.
        -- rewrite Dq, Hpp by auto. apply (i_pre s I).
      * intros r. destruct (Nat.eq_dec r p) as [ -> |Hq].
        -- rewrite Dp, Hp. simpl. rewrite exp_regs_snoc. reflexivity.
        -- rewrite Dq, Hpp by auto. apply (i_regs s I).
      * intros r. destruct (Nat.eq_dec r p) as [ -> |Hq].
        -- rewrite Dp, Hp. simpl. rewrite exp_outs_app. simpl. rewrite (i_outs s I). f_equal. f_equal.
           rewrite (i_regs s I). eapply H_out; eauto.
        -- rewrite Dq, Hpp by auto. apply (i_outs s I).
      * intros m Hm. destruct (i_msg s I m Hm) as (V & S1 & R1). split; auto. split; [apply Hsent; auto|].
        rewrite Hrc; auto.
      * apply (i_uniq s I).
      * intros q d' k' Hs. apply Hsent in Hs. rewrite Hrc. apply (i_comp s I); auto.
      * intros q x k' Hr. rewrite Hrc in Hr. apply Hsent. apply (i_caus s I); auto.
  - (* deliver *)
    destruct (nth_error (flight s) i) as [m|] eqn:Em; [|discriminate].
    assert (Hnd : existsb (same_box m) (boxes s) = false).
    { destruct (existsb (same_box m) (boxes s)) eqn:E; auto. exfalso.
      apply existsb_exists in E as (m' & Hm' & Hs). unfold same_box in Hs.
      apply andb_true_iff in Hs as [Hs E3]. apply andb_true_iff in Hs as [E1 E2].
      apply Nat.eqb_eq in E1, E2, E3.
      pose proof (i_uniq s I) as U. rewrite map_app in U.
      apply nth_error_In in Em. apply (in_map mtag) in Em, Hm'.
      replace (mtag m') with (mtag m) in Hm' by (unfold mtag; rewrite E1, E2, E3; auto).
      apply in_split in Hm' as (x1 & x2 & Hx). rewrite Hx in U. rewrite app_assoc in U.
      apply NoDup_remove_2 in U. apply U. rewrite !in_app_iff. auto. }
    rewrite Hnd in H. inversion H; subst; clear H.
    pose proof (perm_delivery i (flight s) (boxes s) m Em) as P.
    set (fl := firstn i (flight s) ++ skipn (S i) (flight s)) in *.
    constructor; cbn [parties flight boxes]; try apply (i_pre s I); try apply (i_regs s I); try apply (i_outs s I).
    * intros m' Hm'. eapply Permutation_in in Hm'; [|symmetry; apply P]. apply (i_msg s I m' Hm').
    * eapply Permutation_NoDup; [|apply (i_uniq s I)]. apply Permutation_map, P.
    * intros p d k Hs. destruct (i_comp s I _ _ _ Hs) as [C|(m' & C1 & C2)]; [left; exact C|].
      right. exists m'. split; auto. eapply Permutation_in; [apply P|auto].
    * intros p x k Hr. apply (i_caus s I _ _ _ Hr).
Qed.

Lemma inv_run sts : forall s s', Inv s -> run_steps sts s = Some s' -> Inv s'.
Proof.
  induction sts as [|st sts IH]; intros s s' I H; simpl in H.
  - inversion H; subst; auto.
  - destruct (do_step st s) as [s1|] eqn:E; [|discriminate]. eapply IH; [|exact H]. eapply inv_step; eauto.
Qed.

(** No deadlock. *)
Lemma no_deadlock s : Inv s -> (forall st, do_step st s = None) -> forall r, todo (parties s r) = [].
Proof.
  intros I Hst.
  assert (Hfl : flight s = []).
  { destruct (flight s) as [|m l] eqn:E; auto. exfalso. specialize (Hst (SDeliver 0)). cbn [do_step] in Hst.
    rewrite E in Hst. simpl in Hst. destruct (existsb _ _); discriminate. }
  assert (Hstuck : forall r, todo (parties s r) = [] \/ exists src k rest, todo (parties s r) = ARecv src k :: rest /\
      take_box src r k (boxes s) = None).
  { intros r. pose proof (Hst (SParty r)) as Hr. cbn [do_step] in Hr.
    destruct (todo (parties s r)) as [|[d k g|src k|k h] rest]; auto; try discriminate.
    right. exists src, k, rest. split; auto. destruct (take_box src r k (boxes s)) as [[v b]|]; [discriminate|auto]. }
  assert (Main : forall N r src k rest, todo (parties s r) = ARecv src k :: rest ->
      take_box src r k (boxes s) = None -> rk k src r < N -> False).
  { induction N as [|N IH]; intros r src k rest Ht Hb Hr; [lia|].
    pose proof (i_pre s I r) as Hp. rewrite Ht in Hp.
    assert (Hin : In (ARecv src k) (prog r)) by (rewrite Hp; apply in_or_app; simpl; auto).
    destruct (H_recv _ _ _ Hin) as (Hsrc & g & Hg).
    assert (Hns : ~ sent s src r k).
    { intros Hs. destruct (i_comp s I _ _ _ Hs) as [C|(m & C1 & C2)].
      - pose proof (H_nodup r) as Hn. rewrite Hp in Hn. apply (nodup_head _ _ _ Hn _ C). reflexivity.
      - rewrite Hfl in C1. simpl in C1. apply (take_box_none _ _ _ _ Hb m C1 C2). }
    rewrite (i_pre s I src) in Hg. apply in_app_or in Hg as [Hg|Hg]; [apply Hns; exists g; auto|].
    destruct (Hstuck src) as [E|(src' & k' & rest' & E1 & E2)]; [rewrite E in Hg; destruct Hg|].
    rewrite E1 in Hg. destruct Hg as [Hg|Hg]; [discriminate|].
    pose proof (i_pre s I src) as Hp'. rewrite E1 in Hp'.
    pose proof (H_rank _ _ _ _ _ _ _ _ Hp' Hg) as Hlt.
    apply (IH src src' k' rest' E1 E2). lia. }
  intros r. destruct (Hstuck r) as [E|(src & k & rest & E1 & E2)]; auto.
  exfalso. apply (Main (S (rk k src r)) r src k rest E1 E2). lia.
Qed.

Lemma finished_outs s r : Inv s -> todo (parties s r) = [] -> outs (parties s r) = exp_outs r (prog r).
Proof.
  intros I Ht. rewrite (i_outs s I). pose proof (i_pre s I r) as Hp. rewrite Ht, app_nil_r in Hp.
  rewrite <- Hp. reflexivity.
Qed.

(** Everything sent goes to another party. *)
Lemma flight_valid s m : Inv s -> In m (flight s ++ boxes s) -> m_dst m < n /\ m_dst m <> m_src m.
Proof.
  intros I Hm. destruct (i_msg s I m Hm) as (_ & [g Hg] & _).
  destruct (H_send (m_src m) (m_dst m) (m_key m) g) as (H1 & H2 & _); auto.
  rewrite (i_pre s I). apply in_or_app; auto.
Qed.

(** Termination. *)
Fixpoint total_todo (s : net) (m : nat) : nat :=
  match m with O => 0 | S m' => length (todo (parties s m')) + total_todo s m' end.
Definition measure (s : net) : nat := 2 * total_todo s n + length (flight s).

Lemma total_set s p a rest rg ou fl bx m : todo (parties s p) = a :: rest ->
  total_todo (mkNet (set_party p (mkParty rest rg ou) (parties s)) fl bx) m + (if p <? m then 1 else 0) = total_todo s m.
Proof.
  intros Ht. induction m as [|m IH]; [simpl; auto|].
  cbn [total_todo parties]. unfold set_party at 1. destruct (m =? p) eqn:E.
  - apply Nat.eqb_eq in E. subst m. rewrite Ht. cbn [todo length].
    replace (p <? S p) with true by (symmetry; apply Nat.ltb_lt; lia).
    replace (p <? p) with false in IH by (symmetry; apply Nat.ltb_ge; lia). lia.
  - apply Nat.eqb_neq in E.
    replace (p <? S m) with (p <? m); [lia|].
    destruct (p <? m) eqn:E1; symmetry; [apply Nat.ltb_lt in E1; apply Nat.ltb_lt; lia|].
    apply Nat.ltb_ge in E1. apply Nat.ltb_ge. lia.
Qed.

Lemma measure_step st s s' : Inv s -> do_step st s = Some s' -> measure s' < measure s.
Proof.
  intros I H. destruct st as [p|i]; cbn [do_step] in H.
  - assert (Hp : todo (parties s p) <> [] -> p < n).
    { intros Hne. destruct (le_lt_dec n p) as [L|L]; auto. exfalso. apply Hne.
      pose proof (i_pre s I p) as Hp. rewrite (H_nil p L) in Hp. symmetry in Hp. apply app_eq_nil in Hp. tauto. }
    unfold measure.
    destruct (todo (parties s p)) as [|[d k g|src k|k h] rest] eqn:Et; [discriminate| | |];
      assert (L : p < n) by (apply Hp; discriminate); apply Nat.ltb_lt in L.
    + inversion H; subst; clear H. cbn [flight]. rewrite app_length. simpl length.
      pose proof (total_set s p _ rest (regs (parties s p)) (outs (parties s p))
        (flight s ++ [mkMsg p d k (g (regs (parties s p)))]) (boxes s) n Et) as T. rewrite L in T. lia.
    + destruct (take_box src p k (boxes s)) as [[v b]|]; [|discriminate]. inversion H; subst; clear H. cbn [flight].
      pose proof (total_set s p _ rest (regs (parties s p) ++ [v]) (outs (parties s p)) (flight s) b n Et) as T.
      rewrite L in T. lia.
    + inversion H; subst; clear H. cbn [flight].
      pose proof (total_set s p _ rest [] (outs (parties s p) ++ [h (regs (parties s p))]) (flight s) (boxes s) n Et) as T.
      rewrite L in T. lia.
  - destruct (nth_error (flight s) i) as [m|] eqn:Em; [|discriminate].
    assert (Hl : length (firstn i (flight s) ++ skipn (S i) (flight s)) < length (flight s)).
    { assert (i < length (flight s)) by (apply nth_error_Some; congruence).
      rewrite app_length, firstn_length, skipn_length. lia. }
    assert (T : forall bx m', total_todo (mkNet (parties s) (firstn i (flight s) ++ skipn (S i) (flight s)) bx) m' = total_todo s m').
    { intros bx. induction m' as [|m' IH]; simpl; auto. }
    set (fl := firstn i (flight s) ++ skipn (S i) (flight s)) in *. clearbody fl.
    unfold measure. destruct (existsb _ _); inversion H; subst; cbn [flight]; rewrite T; lia.
Qed.

Lemma run_bounded sts : forall s s', Inv s -> run_steps sts s = Some s' -> length sts + measure s' <= measure s.
Proof.
  induction sts as [|st sts IH]; intros s s' I H; simpl in H.
  - inversion H; subst. simpl. lia.
  - destruct (do_step st s) as [s1|] eqn:E; [|discriminate].
    pose proof (measure_step st s s1 I E). pose proof (inv_step st s s1 I E) as I1.
    pose proof (IH s1 s' I1 H). simpl. lia.
Qed.

(** An executed action implies all earlier ones. *)
Lemma did_prefix s r A a B : Inv s -> prog r = A ++ a :: B -> In a (did s r) -> forall b, In b A -> In b (did s r).
Proof.
  intros I Hp Ha b Hb. pose proof (i_pre s I r) as Hd.
  pose proof (H_nodup r) as Hn.
  destruct (le_lt_dec (length (did s r)) (length A)) as [L|L].
  - (* did is a prefix of A: then a occurs in A *)
    exfalso. rewrite Hd in Hp.
    assert (HA : exists C, A = did s r ++ C).
    { exists (skipn (length (did s r)) A).
      assert (E : firstn (length (did s r)) (did s r ++ todo (parties s r)) = firstn (length (did s r)) (A ++ a :: B)) by (rewrite Hp; auto).
      rewrite firstn_app, Nat.sub_diag, firstn_all in E. simpl in E. rewrite app_nil_r in E.
      rewrite firstn_app in E. replace (length (did s r) - length A) with 0 in E by lia. simpl in E. rewrite app_nil_r in E.
      rewrite E at 1. symmetry. apply firstn_skipn. }
    destruct HA as [C HA]. rewrite Hd, Hp in Hn.
    apply (nodup_head _ _ _ Hn a); auto. rewrite HA. apply in_or_app; auto.
  - rewrite Hd in Hp.
    assert (E : firstn (length A) (did s r ++ todo (parties s r)) = firstn (length A) (A ++ a :: B)) by (rewrite Hp; auto).
    rewrite (firstn_app _ A), Nat.sub_diag, firstn_all in E. simpl in E. rewrite app_nil_r in E.
    rewrite firstn_app in E. replace (length A - length (did s r)) with 0 in E by lia. simpl in E. rewrite app_nil_r in E.
    rewrite <- E in Hb.
    rewrite <- (firstn_skipn (length A) (did s r)). apply in_or_app; auto.
Qed.
End Generic.
