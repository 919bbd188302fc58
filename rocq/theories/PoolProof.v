From Coq Require Import List Arith Bool Lia Permutation.
From Verif Require Import PoolModel.
Import ListNotations.

Definition running (ws : list wstate) : list nat :=
  flat_map (fun w => match w with WRun t => [t] | _ => [] end) ws.
Definition weight (w : wstate) : nat := match w with WCheck => 1 | WRun _ => 2 | _ => 0 end.
Definition wsum (ws : list wstate) : nat := list_sum (map weight ws).
Definition awake (w : wstate) : bool := match w with WCheck | WRun _ => true | _ => false end.

Record PInv (k : nat) (s : pool) : Prop := {
  p_len : length (workers s) = k;
  p_fifo : started s ++ queue s = seq 0 (accepted s);
  p_run : Permutation (finished s ++ running (workers s)) (started s);
  p_exit : existsb is_exit (workers s) = true -> stop s = true /\ queue s = [];
  p_live : queue s <> [] -> 0 < pending s \/ existsb awake (workers s) = true;
  p_stop : stop s = true -> nall s = true \/ (existsb is_wait (workers s) = false /\ joining s = true);
  p_jd : joined s = true -> forallb is_exit (workers s) = true;
  p_na : nall s = true -> stop s = true
}.

Lemma upd_len {A} (l : list A) i x : length (upd l i x) = length l.
Proof. revert i. induction l as [|y l IH]; intros [|i]; simpl; auto. Qed.
Lemma upd_split {A} (l : list A) i x y : nth_error l i = Some y ->
  exists a b, l = a ++ y :: b /\ upd l i x = a ++ x :: b.
Proof.
  revert i. induction l as [|z l IH]; intros [|i] H; simpl in *; try discriminate.
  - inversion H; subst. exists [], l. auto.
  - destruct (IH i H) as (a & b & -> & ->). exists (z :: a), b. auto.
Qed.
Lemma existsb_mid {A} (f : A -> bool) a x b : existsb f (a ++ x :: b) = f x || existsb f (a ++ b).
Proof. rewrite !existsb_app. simpl. destruct (existsb f a), (f x), (existsb f b); reflexivity. Qed.
Lemma forallb_mid {A} (f : A -> bool) a x b : forallb f (a ++ x :: b) = f x && forallb f (a ++ b).
Proof. rewrite !forallb_app. simpl. destruct (forallb f a), (f x), (forallb f b); reflexivity. Qed.
Lemma running_mid a x b : Permutation (running (a ++ x :: b)) (running [x] ++ running (a ++ b)).
Proof.
  unfold running. rewrite !flat_map_app. simpl. rewrite app_nil_r. rewrite !app_assoc.
  apply Permutation_app_tail. apply Permutation_app_comm.
Qed.
Lemma wsum_mid a x b : wsum (a ++ x :: b) = weight x + wsum (a ++ b).
Proof. unfold wsum. rewrite !map_app, !list_sum_app. simpl. lia. Qed.
Lemma running_wake ws : running (map wake ws) = running ws.
Proof. induction ws as [|[] ws IH]; simpl; auto; f_equal; auto. Qed.
Lemma exit_wake ws : existsb is_exit (map wake ws) = existsb is_exit ws.
Proof. induction ws as [|[] ws IH]; simpl; auto. Qed.
Lemma all_exit_wake ws : forallb is_exit (map wake ws) = forallb is_exit ws.
Proof. induction ws as [|[] ws IH]; simpl; auto. Qed.
Lemma wait_wake ws : existsb is_wait (map wake ws) = false.
Proof. induction ws as [|[] ws IH]; simpl; auto. Qed.
Lemma awake_wake ws : existsb awake ws = true -> existsb awake (map wake ws) = true.
Proof. induction ws as [|[] ws IH]; simpl; auto. Qed.
Lemma wsum_wake ws : wsum (map wake ws) <= wsum ws + length ws.
Proof. unfold wsum. induction ws as [|[] ws IH]; simpl; lia. Qed.
Lemma all_exit_no l : forallb is_exit l = true -> existsb awake l = false /\ existsb is_wait l = false.
Proof. induction l as [|[] l IH]; simpl; auto; discriminate. Qed.

Lemma new_inv k : PInv k (new_pool k).
Proof.
  constructor; simpl; auto; try discriminate; try tauto.
  - apply repeat_length.
  - induction k; simpl; auto.
  - induction k; simpl; auto.
Qed.

Lemma pinv_step k e s s' : 0 < k -> PInv k s -> pstep e s = Some s' -> PInv k s'.
Proof.
  intros Hk I H. destruct I as [I1 I2 I3 I4 I5 I6 I7 I8].
  destruct s as [ws q st p na jg jd ac rj sa fi]. cbn [workers queue stop pending nall joining joined accepted rejected started finished] in *.
  destruct e as [|[w|]|w|w|w| | |]; cbn [pstep] in H.
  - (* submit *) destruct st; inversion H; subst; clear H; constructor; cbn [workers queue stop pending nall joining joined accepted rejected started finished]; auto.
    + rewrite app_assoc, I2. rewrite seq_S. reflexivity.
    + intros E. destruct (I4 E). discriminate.
    + intros _. left. lia.
  - (* notify some *) destruct p as [|p]; [discriminate|]. destruct (nth_error ws w) as [[]|] eqn:Ew; try discriminate.
    destruct (upd_split ws w WCheck _ Ew) as (a & b & E1 & E2). inversion H; subst s'; clear H.
    constructor; cbn [workers queue stop pending nall joining joined accepted rejected started finished]; auto.
    + rewrite upd_len; auto.
    + rewrite E2. rewrite E1 in I3. rewrite running_mid in *. exact I3.
    + rewrite E2. rewrite E1 in I4. rewrite existsb_mid in *. exact I4.
    + intros _. right. rewrite E2, existsb_mid. reflexivity.
    + intros Hs. destruct (I6 Hs) as [?|[Hw ?]]; auto. rewrite E1, existsb_mid in Hw. discriminate.
    + intros Hj. apply I7 in Hj. rewrite E1, forallb_mid in Hj. discriminate.
  - (* notify none *) destruct p as [|p]; [discriminate|]. destruct (existsb is_wait ws) eqn:Ew; [discriminate|].
    inversion H; subst s'; clear H.
    constructor; cbn [workers queue stop pending nall joining joined accepted rejected started finished]; auto.
    + intros Hq. right. destruct (existsb awake ws) eqn:Ea; auto. exfalso.
      destruct ws as [|w0 ws].
      * simpl in I1. lia.
      * destruct w0; simpl in Ew, Ea; try discriminate. simpl in I4. destruct (I4 eq_refl). congruence.
    + intros Hs. destruct (I6 Hs) as [?|[_ ?]]; auto.
  - (* spurious *) destruct (nth_error ws w) as [[]|] eqn:Ew; try discriminate.
    destruct (upd_split ws w WCheck _ Ew) as (a & b & E1 & E2). inversion H; subst s'; clear H.
    constructor; cbn [workers queue stop pending nall joining joined accepted rejected started finished]; auto.
    + rewrite upd_len; auto.
    + rewrite E2. rewrite E1 in I3. rewrite running_mid in *. exact I3.
    + rewrite E2. rewrite E1 in I4. rewrite existsb_mid in *. exact I4.
    + intros _. right. rewrite E2, existsb_mid. reflexivity.
    + intros Hs. destruct (I6 Hs) as [?|[Hw ?]]; auto. rewrite E1, existsb_mid in Hw. discriminate.
    + intros Hj. apply I7 in Hj. rewrite E1, forallb_mid in Hj. discriminate.
  - (* check *) destruct (nth_error ws w) as [[]|] eqn:Ew; try discriminate.
    destruct q as [|t q].
    + destruct st.
      * destruct (upd_split ws w WExit _ Ew) as (a & b & E1 & E2). inversion H; subst s'; clear H.
        constructor; cbn [workers queue stop pending nall joining joined accepted rejected started finished]; auto.
        -- rewrite upd_len; auto.
        -- rewrite E2. rewrite E1 in I3. rewrite running_mid in *. exact I3.
        -- intros Hs. destruct (I6 Hs) as [?|[Hw ?]]; auto. right. split; auto. rewrite E1, existsb_mid in Hw. rewrite E2, existsb_mid. exact Hw.
        -- intros Hj. apply I7 in Hj. rewrite E1, forallb_mid in Hj. discriminate.
      * destruct (upd_split ws w WWait _ Ew) as (a & b & E1 & E2). inversion H; subst s'; clear H.
        constructor; cbn [workers queue stop pending nall joining joined accepted rejected started finished]; auto.
        -- rewrite upd_len; auto.
        -- rewrite E2. rewrite E1 in I3. rewrite running_mid in *. exact I3.
        -- rewrite E2. rewrite E1 in I4. rewrite existsb_mid in *. exact I4.
        -- discriminate.
        -- intros Hj. apply I7 in Hj. rewrite E1, forallb_mid in Hj. discriminate.
    + destruct (upd_split ws w (WRun t) _ Ew) as (a & b & E1 & E2). inversion H; subst s'; clear H.
      constructor; cbn [workers queue stop pending nall joining joined accepted rejected started finished]; auto.
      * rewrite upd_len; auto.
      * rewrite <- app_assoc. exact I2.
      * rewrite E2. rewrite E1 in I3. rewrite running_mid in *. simpl in *.
        rewrite <- I3. rewrite (Permutation_app_comm (fi ++ running (a ++ b)) [t]). simpl. symmetry. apply Permutation_middle.
      * rewrite E2. rewrite E1 in I4. rewrite existsb_mid in *. intros E. destruct (I4 E). discriminate.
      * intros _. right. rewrite E2, existsb_mid. reflexivity.
      * intros Hs. destruct (I6 Hs) as [?|[Hw ?]]; auto. right. split; auto. rewrite E1, existsb_mid in Hw. rewrite E2, existsb_mid. exact Hw.
      * intros Hj. apply I7 in Hj. rewrite E1, forallb_mid in Hj. discriminate.
  - (* finish *) destruct (nth_error ws w) as [[]|] eqn:Ew; try discriminate.
    destruct (upd_split ws w WCheck _ Ew) as (a & b & E1 & E2). inversion H; subst s'; clear H.
    constructor; cbn [workers queue stop pending nall joining joined accepted rejected started finished]; auto.
    + rewrite upd_len; auto.
    + rewrite E2. rewrite E1 in I3. rewrite running_mid in *. simpl in *. rewrite <- app_assoc. simpl. exact I3.
    + rewrite E2. rewrite E1 in I4. rewrite existsb_mid in *. exact I4.
    + intros _. right. rewrite E2, existsb_mid. reflexivity.
    + intros Hs. destruct (I6 Hs) as [?|[Hw ?]]; auto. right. split; auto. rewrite E1, existsb_mid in Hw. rewrite E2, existsb_mid. exact Hw.
    + intros Hj. apply I7 in Hj. rewrite E1, forallb_mid in Hj. discriminate.
  - (* stop *) destruct st; [discriminate|]. inversion H; subst s'; clear H.
    constructor; cbn [workers queue stop pending nall joining joined accepted rejected started finished]; auto.
    intros E. destruct (I4 E). discriminate.
  - (* notify all *) destruct na; [|discriminate]. inversion H; subst s'; clear H.
    constructor; cbn [workers queue stop pending nall joining joined accepted rejected started finished]; auto.
    + rewrite map_length; auto.
    + rewrite running_wake; auto.
    + rewrite exit_wake; auto.
    + intros Hq. destruct (I5 Hq); auto. right. apply awake_wake; auto.
    + intros _. right. split; auto. apply wait_wake.
    + intros Hj. rewrite all_exit_wake. auto.
  - (* join *) destruct (jg && negb jd && forallb is_exit ws) eqn:E; [|discriminate]. inversion H; subst s'; clear H.
    apply andb_true_iff in E as [E1 E2].
    constructor; cbn [workers queue stop pending nall joining joined accepted rejected started finished]; auto.
Qed.

Lemma pinv_run k es : 0 < k -> forall s s', PInv k s -> prun es s = Some s' -> PInv k s'.
Proof.
  intros Hk. induction es as [|e es IH]; intros s s' I H; simpl in H; [inversion H; subst; auto|].
  destruct (pstep e s) as [s1|] eqn:E; [|discriminate]. apply (IH s1); auto. eapply pinv_step; eauto.
Qed.

(** Internal events: everything the pool does by itself. *)
Definition internal (e : pev) : Prop := match e with PSubmit | PSpurious _ | PStop => False | _ => True end.

Definition pmeasure (s : pool) : nat :=
  wsum (workers s) + 2 * length (queue s) + 2 * pending s +
  (if nall s then S (length (workers s)) else 0) + (if joined s then 0 else 1).

Lemma pmeasure_step e s s' : internal e -> pstep e s = Some s' -> pmeasure s' < pmeasure s.
Proof.
  intros Hi H. destruct s as [ws q st p na jg jd ac rj sa fi]. unfold pmeasure.
  destruct e as [|[w|]|w|w|w| | |]; cbn [internal pstep] in *; try tauto.
  - destruct p as [|p]; [discriminate|]. destruct (nth_error ws w) as [[]|] eqn:Ew; try discriminate.
    destruct (upd_split ws w WCheck _ Ew) as (a & b & E1 & E2). inversion H; subst s'; clear H.
    cbn [workers queue pending nall joined]. rewrite upd_len, E2. rewrite E1 at 2. rewrite !wsum_mid. simpl. lia.
  - destruct p as [|p]; [discriminate|]. destruct (existsb is_wait ws); [discriminate|]. inversion H; subst s'.
    cbn [workers queue pending nall joined]. lia.
  - destruct (nth_error ws w) as [[]|] eqn:Ew; try discriminate. destruct q as [|t q].
    + destruct st.
      * destruct (upd_split ws w WExit _ Ew) as (a & b & E1 & E2). inversion H; subst s'; clear H.
        cbn [workers queue pending nall joined]. rewrite upd_len, E2. rewrite E1 at 2. rewrite !wsum_mid. simpl. lia.
      * destruct (upd_split ws w WWait _ Ew) as (a & b & E1 & E2). inversion H; subst s'; clear H.
        cbn [workers queue pending nall joined]. rewrite upd_len, E2. rewrite E1 at 2. rewrite !wsum_mid. simpl. lia.
    + destruct (upd_split ws w (WRun t) _ Ew) as (a & b & E1 & E2). inversion H; subst s'; clear H.
      cbn [workers queue pending nall joined]. rewrite upd_len, E2. rewrite E1 at 2. rewrite !wsum_mid. simpl. lia.
  - destruct (nth_error ws w) as [[]|] eqn:Ew; try discriminate.
    destruct (upd_split ws w WCheck _ Ew) as (a & b & E1 & E2). inversion H; subst s'; clear H.
    cbn [workers queue pending nall joined]. rewrite upd_len, E2. rewrite E1 at 2. rewrite !wsum_mid. simpl. lia.
  - destruct na; [|discriminate]. inversion H; subst s'; clear H.
    cbn [workers queue pending nall joined]. pose proof (wsum_wake ws). lia.
  - destruct (jg && negb jd && forallb is_exit ws) eqn:E; [|discriminate]. inversion H; subst s'; clear H.
    cbn [workers queue pending nall joined]. destruct jd; [|lia]. rewrite andb_false_r in E. discriminate.
Qed.

Lemma run_internal_bounded es : forall s s', Forall internal es -> prun es s = Some s' -> length es + pmeasure s' <= pmeasure s.
Proof.
  induction es as [|e es IH]; intros s s' Hi H; simpl in H; [inversion H; subst; simpl; lia|].
  destruct (pstep e s) as [s1|] eqn:E; [|discriminate]. apply Forall_cons_iff in Hi as [He Hi].
  pose proof (pmeasure_step e s s1 He E). pose proof (IH s1 s' Hi H). simpl. lia.
Qed.

(** When nothing internal can happen, everything accepted has been run. *)
Lemma no_wait_find ws : existsb is_wait ws = true -> exists w, nth_error ws w = Some WWait.
Proof.
  induction ws as [|[] ws IH]; simpl; intros H; try discriminate; try (destruct (IH H) as [w Hw]; exists (S w); exact Hw).
  exists 0. reflexivity.
Qed.
Lemma awake_find ws : existsb awake ws = true -> exists w, nth_error ws w = Some WCheck \/ exists t, nth_error ws w = Some (WRun t).
Proof.
  induction ws as [|[| |t|] ws IH]; simpl; intros H; try discriminate; try (destruct (IH H) as [w Hw]; exists (S w); exact Hw).
  - exists 0. auto.
  - exists 0. right. exists t. auto.
Qed.

Lemma pool_quiescent k s : 0 < k -> PInv k s -> (forall e, internal e -> pstep e s = None) ->
  queue s = [] /\ running (workers s) = [] /\ pending s = 0 /\ (stop s = true -> joined s = true).
Proof.
  intros Hk I Hn. destruct I as [I1 I2 I3 I4 I5 I6 I7 I8].
  destruct s as [ws q st p na jg jd ac rj sa fi]. cbn [workers queue stop pending nall joining joined accepted rejected started finished] in *.
  assert (Hp : p = 0).
  { destruct p as [|p]; auto. exfalso. destruct (existsb is_wait ws) eqn:Ew.
    - apply no_wait_find in Ew as [w Hw]. specialize (Hn (PNotify (Some w)) Logic.I). cbn [pstep] in Hn. rewrite Hw in Hn. discriminate.
    - specialize (Hn (PNotify None) Logic.I). cbn [pstep] in Hn. rewrite Ew in Hn. discriminate. }
  assert (Ha : existsb awake ws = false).
  { destruct (existsb awake ws) eqn:Ea; auto. exfalso. apply awake_find in Ea as [w [Hw|[t Hw]]].
    - specialize (Hn (PCheck w) Logic.I). cbn [pstep] in Hn. rewrite Hw in Hn. destruct q; [destruct st|]; discriminate.
    - specialize (Hn (PFinish w) Logic.I). cbn [pstep] in Hn. rewrite Hw in Hn. discriminate. }
  assert (Hna : na = false).
  { destruct na; auto. specialize (Hn PNotifyAll Logic.I). discriminate. }
  split; [|split; [|split]]; auto.
  - destruct q; auto. destruct I5; [discriminate|lia|congruence].
  - clear -Ha. induction ws as [|[] ws IH]; simpl in *; auto; discriminate.
  - intros Hs. destruct (I6 Hs) as [E|[Hw Hj]]; [congruence|].
    assert (Hx : forallb is_exit ws = true).
    { clear -Ha Hw. induction ws as [|[] ws IH]; simpl in *; auto; discriminate. }
    destruct jd; auto. specialize (Hn PJoin Logic.I). cbn [pstep] in Hn. rewrite Hj, Hx in Hn. discriminate.
Qed.

Lemma all_exit_running ws : forallb is_exit ws = true -> running ws = [].
Proof. induction ws as [|[] ws IH]; simpl; auto; discriminate. Qed.

Lemma joined_all k s : 0 < k -> PInv k s -> joined s = true -> queue s = [] /\ Permutation (finished s) (seq 0 (accepted s)).
Proof.
  intros Hk I Hj. destruct I as [I1 I2 I3 I4 I5 I6 I7 I8].
  pose proof (I7 Hj) as Hx. rewrite (all_exit_running _ Hx), app_nil_r in I3.
  assert (Hq : queue s = []).
  { apply I4. destruct (workers s) as [|[] ws] eqn:E; simpl in *; try discriminate; auto. lia. }
  split; auto. rewrite Hq, app_nil_r in I2. rewrite <- I2. exact I3.
Qed.

Lemma stop_rejects e s s' : stop s = true -> pstep e s = Some s' -> stop s' = true /\ accepted s' = accepted s /\
  (e = PSubmit -> rejected s' = S (rejected s) /\ queue s' = queue s).
Proof.
  intros Hs H. destruct s as [ws q st p na jg jd ac rj sa fi]. cbn [stop] in Hs. subst st.
  destruct e as [|[w|]|w|w|w| | |]; cbn [pstep] in H;
    repeat match type of H with
    | match ?x with _ => _ end = _ => destruct x; try discriminate
    | (if ?x then _ else _) = _ => destruct x; try discriminate
    end; inversion H; subst; cbn; repeat split; auto; try discriminate.
Qed.
