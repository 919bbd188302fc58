(** C54: the LogUp lookup argument. *)
From Coq Require Import ZArith List Bool Lia Zdiv Znumtheory Setoid Morphisms.
From Verif Require Import ZpLib VssModel VssProof SumcheckModel SumcheckProof SumcheckProps.
Import ListNotations.
Open Scope Z_scope.

(** How often v occurs in the looked-up table, and the multiplicity the caller
    claims for it in the lookup table, both by residue. *)
Definition occurrences (p : Z) (fa : list Z) (v : Z) : Z := Z.of_nat (length (filter (fun a => a mod p =? v) fa)).
Definition claimed_mult (p : Z) (fb mb : list Z) (v : Z) : Z :=
  list_sum (map snd (filter (fun bm => fst bm mod p =? v) (combine fb mb))).
Definition lookup_ok (p : Z) (fa fb mb : list Z) : Prop :=
  forall v, 0 <= v < p -> occurrences p fa v mod p = claimed_mult p fb mb v mod p.

Section Logup.
Variable p : Z.
Hypothesis Hp : prime p.
Let P1 : 1 < p := prime_pos p Hp.

Definition invf (z v : Z) : Z := match invert_mod (sub_mod z v p) p with Some i => i | None => 0 end.
Lemma invf_eqm z v w : eqm p v w -> invf z v = invf z w.
Proof.
  intros H. unfold invf. rewrite (invert_mod_eqm (sub_mod z v p) (sub_mod z w p)); [reflexivity|].
  rewrite !sub_mod_eqm, H. reflexivity.
Qed.
Lemma sub_mod_zero z v : sub_mod z v p = 0 <-> eqm p z v.
Proof.
  split.
  - intros H. apply eqm_sub0. rewrite <- sub_mod_eqm, H. reflexivity.
  - intros H. apply (eqm_small p); [apply Z.mod_pos_bound; lia|lia|]. rewrite sub_mod_eqm, H. mring.
Qed.
Lemma invf_inv z v : ~ eqm p z v -> invert_mod (sub_mod z v p) p = Some (invf z v) /\ eqm p ((z - v) * invf z v) 1.
Proof.
  intros H. destruct (invert_mod_prime (sub_mod z v p) p Hp) as [i E].
  - rewrite sub_mod_eqm. intros C. apply H. apply eqm_sub0. exact C.
  - unfold invf. rewrite E. split; [reflexivity|]. apply invert_mod_some in E. destruct E as [_ E]. rewrite sub_mod_eqm in E. exact E.
Qed.
Lemma setup_a_some z fa : (forall a, In a fa -> ~ eqm p z a) ->
  setup_a p z fa = Some (map (invf z) fa, map (fun _ => 0) fa).
Proof.
  induction fa as [|a fa IH]; intros H; cbn [setup_a map]; [reflexivity|].
  destruct (Z.eqb_spec (sub_mod z a p) 0) as [E|E]; [exfalso; apply (H a (or_introl eq_refl)); apply sub_mod_zero; auto|].
  destruct (invf_inv z a (H a (or_introl eq_refl))) as [-> _]. rewrite IH by (intros b Hb; apply H; right; auto). reflexivity.
Qed.
Lemma setup_a_none z fa a : In a fa -> eqm p z a -> setup_a p z fa = None.
Proof.
  induction fa as [|b fa IH]; intros H E; [destruct H|]. cbn [setup_a].
  destruct H as [->|H].
  - apply sub_mod_zero in E. rewrite E. reflexivity.
  - rewrite IH by auto. destruct (sub_mod z b p =? 0); [reflexivity|]. destruct (invert_mod _ p); reflexivity.
Qed.
Lemma setup_b_some z : forall fb mb, length fb = length mb ->
  (forall b m, In (b, m) (combine fb mb) -> m <> 0 -> ~ eqm p z b) ->
  setup_b p z fb mb = Some (map (fun bm => (snd bm * invf z (fst bm)) mod p) (combine fb mb), map (fun _ => 0) fb).
Proof.
  induction fb as [|b fb IH]; intros [|m mb] L H; try discriminate; cbn [setup_b combine map]; [reflexivity|].
  rewrite IH by (cbn in L; try lia; intros b' m' K; apply H; right; auto). cbn [fst snd].
  destruct (Z.eqb_spec m 0) as [->|N]; [rewrite Z.mul_0_l, Zmod_0_l; reflexivity|].
  pose proof (H b m (or_introl eq_refl) N) as D.
  destruct (Z.eqb_spec (sub_mod z b p) 0) as [E|E]; [exfalso; apply D; apply sub_mod_zero; auto|].
  destruct (invf_inv z b D) as [-> I]. do 3 f_equal.
  apply sub_mod_zero. rewrite !mul_mod_eqm, sub_mod_eqm.
  transitivity (m * ((z - b) * invf z b)); [mring|]. rewrite I. mring.
Qed.
Lemma setup_b_none z b m : forall fb mb, In (b, m) (combine fb mb) -> m <> 0 -> eqm p z b -> setup_b p z fb mb = None.
Proof.
  induction fb as [|c fb IH]; intros [|n mb] H N E; cbn [combine] in H; try (exfalso; exact H).
  destruct H as [H|H].
  - injection H. intros -> ->. cbn [setup_b]. destruct (Z.eqb_spec m 0); [contradiction|].
    apply sub_mod_zero in E. rewrite E. reflexivity.
  - cbn [setup_b]. rewrite (IH mb H N E). destruct (n =? 0); [reflexivity|]. destruct (sub_mod z c p =? 0); [reflexivity|].
    destruct (invert_mod _ p); reflexivity.
Qed.

(** The weighted list of poles. *)
Definition poles (fa fb mb : list Z) : list (Z * Z) :=
  map (fun a => (a, 1)) fa ++ map (fun bm => (fst bm, - snd bm)) (combine fb mb).
Definition ratsum (l : list (Z * Z)) (z : Z) : Z := list_sum (map (fun vc => snd vc * invf z (fst vc)) l).
Definition coef (l : list (Z * Z)) (v : Z) : Z := list_sum (map snd (filter (fun vc => fst vc mod p =? v) l)).
Lemma list_sum_app l m : list_sum (l ++ m) = list_sum l + list_sum m.
Proof. unfold list_sum. induction l as [|a l IH]; cbn [app fold_right]; [reflexivity|]. rewrite IH. ring. Qed.
Lemma distinct_range l : NoDup l -> (forall v, In v l -> 0 <= v < p) -> distinct p l.
Proof.
  intros ND R. apply distinct_nth. intros i k Hi Hk N C. apply N. apply (proj1 (NoDup_nth l 0) ND i k Hi Hk).
  apply (eqm_small p); auto; apply R; apply nth_In; auto.
Qed.
Lemma coef_poles fa fb mb v : coef (poles fa fb mb) v = occurrences p fa v - claimed_mult p fb mb v.
Proof.
  unfold coef, poles, occurrences, claimed_mult. rewrite filter_app, map_app, list_sum_app.
  assert (A : list_sum (map snd (filter (fun vc : Z * Z => fst vc mod p =? v) (map (fun a => (a, 1)) fa))) =
    Z.of_nat (length (filter (fun a => a mod p =? v) fa))).
  { induction fa as [|a fa IH]; [reflexivity|]. cbn [map filter fst]. destruct (a mod p =? v); [|exact IH].
    cbn [map length]. unfold list_sum in *. cbn [fold_right snd]. rewrite IH. lia. }
  rewrite A. generalize (combine fb mb). intros l.
  assert (B : list_sum (map snd (filter (fun vc : Z * Z => fst vc mod p =? v) (map (fun bm : Z * Z => (fst bm, - snd bm)) l))) =
    - list_sum (map snd (filter (fun bm : Z * Z => fst bm mod p =? v) l))).
  { unfold list_sum. induction l as [|[b m] l IH]; [reflexivity|]. cbn [map filter fst snd]. destruct (b mod p =? v); [|exact IH].
    cbn [map fold_right snd]. rewrite IH. ring. }
  rewrite B. ring.
Qed.
Lemma coef_cons vc l v : coef (vc :: l) v = (if fst vc mod p =? v then snd vc else 0) + coef l v.
Proof. unfold coef. cbn [filter]. destruct (fst vc mod p =? v); [reflexivity|]. ring. Qed.
Lemma sum_pick (f : Z -> Z) x D : NoDup D -> In x D -> list_sum (map (fun v => if x =? v then f v else 0) D) = f x.
Proof.
  unfold list_sum. induction 1 as [|a D Ha HD IH]; intros Hx; [destruct Hx|]. cbn [map fold_right].
  destruct (Z.eqb_spec x a) as [->|N].
  - assert (Z0 : forall l, ~ In a l -> fold_right Z.add 0 (map (fun v => if a =? v then f v else 0) l) = 0).
    { induction l as [|b l IHl]; intros Hl; [reflexivity|]. cbn [map fold_right]. destruct (Z.eqb_spec a b) as [->|]; [exfalso; apply Hl; left; auto|].
      rewrite IHl; [reflexivity|]. intros K. apply Hl. right. auto. }
    rewrite Z0 by auto. ring.
  - rewrite IH; [ring|]. destruct Hx as [->|]; [contradiction|auto].
Qed.
Lemma list_sum_map_add {A} (f g : A -> Z) l : list_sum (map (fun v => f v + g v) l) = list_sum (map f l) + list_sum (map g l).
Proof. unfold list_sum. induction l as [|a l IH]; cbn [map fold_right]; [reflexivity|]. rewrite IH. ring. Qed.
Lemma ratsum_group z D : NoDup D -> forall l, (forall vc, In vc l -> In (fst vc mod p) D) ->
  ratsum l z = list_sum (map (fun v => coef l v * invf z v) D).
Proof.
  intros ND. induction l as [|vc l IH]; intros H.
  - unfold ratsum. cbn [map]. unfold coef. cbn [filter map].
    change (list_sum []) with 0. clear. symmetry.
    induction D as [|a D IH]; [reflexivity|]. cbn [map]. unfold list_sum in *. cbn [fold_right]. rewrite IH. ring.
  - unfold ratsum in *. cbn [map]. unfold list_sum at 1. cbn [fold_right]. fold (list_sum (map (fun vc => snd vc * invf z (fst vc)) l)).
    rewrite IH by (intros d Hd; apply H; right; auto).
    rewrite (map_ext (fun v => coef (vc :: l) v * invf z v) (fun v => (if fst vc mod p =? v then snd vc * invf z v else 0) + coef l v * invf z v)).
    + rewrite list_sum_map_add. f_equal. rewrite (sum_pick (fun v => snd vc * invf z v)); auto; [|apply H; left; auto].
      f_equal. apply invf_eqm. symmetry. apply eqm_mod.
    + intros v. rewrite coef_cons. destruct (fst vc mod p =? v); ring.
Qed.
Lemma prodsub_others l : forall i t, (i < length l)%nat -> prodsub l t = (nth i l 0 - t) * prodsub (others i l) t.
Proof.
  induction l as [|x l IH]; intros [|i] t H; cbn in H; try lia.
  - reflexivity.
  - rewrite others_S, !prodsub_cons. cbn [nth]. rewrite (IH i t) by lia. ring.
Qed.
(** A proper partial fraction with non-zero residues at n distinct poles
    vanishes at fewer than n points. *)
Lemma partial_fraction_zeros (c : Z -> Z) D zs : distinct p D -> D <> [] ->
  (forall v, In v D -> ~ eqm p (c v) 0) -> distinct p zs ->
  (forall z, In z zs -> (forall v, In v D -> ~ eqm p z v) /\ eqm p (list_sum (map (fun v => c v * invf z v) D)) 0) ->
  (length zs < length D)%nat.
Proof.
  intros DD NE NZ DZ H. destruct (le_lt_dec (length D) (length zs)) as [L|L]; [exfalso|exact L].
  set (Q := psum (map (fun i => pscale (c (nth i D 0)) (lpoly (others i D))) (seq 0 (length D)))).
  assert (EQ : forall z, peval Q z = zsum (fun i => c (nth i D 0) * prodsub (others i D) z) (length D)).
  { intros z. unfold Q. rewrite psum_eval. rewrite zsum_list_sum. unfold list_sum.
    generalize (seq 0 (length D)). intros l. induction l as [|i l IH]; [reflexivity|]. cbn [map fold_right].
    rewrite IH, peval_scale, lpoly_eval. reflexivity. }
  assert (Z0 : Forall (fun a => eqm p a 0) Q).
  { apply (roots_zero p Hp zs); auto.
    - eapply Nat.le_trans; [|exact L]. apply psum_length. apply Forall_forall. intros q Hq. apply in_map_iff in Hq.
      destruct Hq as [i [<- Hi]]. apply in_seq in Hi. rewrite pscale_length, lpoly_length, others_length; lia.
    - apply Forall_forall. intros z Hz. destruct (H z Hz) as [H1 H2].
      rewrite EQ.
      assert (S1 : eqm p (zsum (fun i => c (nth i D 0) * prodsub (others i D) z) (length D))
         (- prodsub D z * list_sum (map (fun v => c v * invf z v) D))).
      { assert (M : list_sum (map (fun v => c v * invf z v) D) = zsum (fun i => c (nth i D 0) * invf z (nth i D 0)) (length D)).
        { rewrite zsum_list_sum. f_equal. clear. apply (nth_ext _ _ 0 0); [rewrite !map_length, seq_length; reflexivity|].
          rewrite map_length. intros i Hi. rewrite nth_map_seq by auto. rewrite (nth_indep _ 0 (c 0 * invf z 0)) by (rewrite map_length; auto).
          apply (map_nth (fun v => c v * invf z v)). }
        rewrite M, <- zsum_scale. apply zsum_ext_eqm. intros i Hi. rewrite (prodsub_others D i z Hi).
        destruct (invf_inv z (nth i D 0) (H1 _ (nth_In _ _ Hi))) as [_ I].
        transitivity (c (nth i D 0) * prodsub (others i D) z * ((z - nth i D 0) * invf z (nth i D 0))); [rewrite I; mring|mring]. }
      rewrite S1, H2. mring. }
  assert (HD : (0 < length D)%nat) by (destruct D; [contradiction|cbn; lia]).
  pose proof (peval_zero p Q (nth 0 D 0) Z0) as E. rewrite EQ in E.
  assert (S2 : eqm p (zsum (fun i => c (nth i D 0) * prodsub (others i D) (nth 0 D 0)) (length D)) (c (nth 0 D 0) * prodsub (others 0 D) (nth 0 D 0))).
  { transitivity (zsum (fun i => if Nat.eqb i 0 then c (nth i D 0) * prodsub (others i D) (nth 0 D 0) else 0) (length D)).
    - apply zsum_ext_eqm. intros i Hi. destruct (Nat.eqb_spec i 0) as [->|N]; [reflexivity|].
      assert (K : eqm p (prodsub (others i D) (nth 0 D 0)) 0).
      { apply prodsub_zero; auto. exists (nth 0 D 0). split; [|reflexivity]. apply others_in. exists 0%nat. auto. }
      rewrite K. mring.
    - rewrite (zsum_pick (fun i => c (nth i D 0) * prodsub (others i D) (nth 0 D 0))) by auto. reflexivity. }
  rewrite S2 in E. destruct (eqm_prime_mul p _ _ Hp E) as [K|K].
  - exact (NZ _ (nth_In _ _ HD) K).
  - apply prodsub_zero in K; auto. destruct K as [x [K1 K2]]. apply others_in in K1. destruct K1 as [k [N [Hk <-]]].
    rewrite distinct_nth in DD. exact (DD k 0%nat Hk HD N K2).
Qed.

(** What the protocol decides once the setup does not throw. *)
Lemma zeros_length {A} (l : list A) k : length l = (2 ^ k)%nat -> length (map (fun _ => 0) l) = (2 ^ k)%nat.
Proof. rewrite map_length. auto. Qed.
Lemma logup_decides fa fb mb ka kb z t :
  length fa = (2 ^ ka)%nat -> length fb = (2 ^ kb)%nat -> length mb = (2 ^ kb)%nat ->
  (forall a, In a fa -> ~ eqm p z a) ->
  (forall b m, In (b, m) (combine fb mb) -> m <> 0 -> ~ eqm p z b) ->
  exists r, run_logup p fa fb mb z t = Some r /\ (r = true <-> eqm p (ratsum (poles fa fb mb) z) 0).
Proof.
  intros La Lb Lm HA HB. unfold run_logup.
  rewrite (make_poly_pow fa ka La), (make_poly_pow fb kb Lb), (make_poly_pow mb kb Lm).
  rewrite (num_vars_pow fb kb Lb), (num_vars_pow mb kb Lm), Nat.eqb_refl. cbn [negb].
  rewrite (setup_a_some z fa HA), (setup_b_some z fb mb) by (congruence || auto).
  set (ha := map (invf z) fa). set (hb := map (fun bm => (snd bm * invf z (fst bm)) mod p) (combine fb mb)).
  assert (Lha : length ha = (2 ^ ka)%nat) by (unfold ha; rewrite map_length; auto).
  assert (Lhb : length hb = (2 ^ kb)%nat) by (unfold hb; rewrite map_length, combine_length, Lb, Lm; apply Nat.min_id).
  assert (Rha : Forall (fun a => 0 <= a < p) ha).
  { apply Forall_forall. intros a Ha. apply in_map_iff in Ha. destruct Ha as [x [<- Hx]].
    destruct (invf_inv z x (HA x Hx)) as [I _]. apply invert_mod_some in I. tauto. }
  assert (Rhb : Forall (fun a => 0 <= a < p) hb).
  { apply Forall_forall. intros a Ha. apply in_map_iff in Ha. destruct Ha as [x [<- Hx]]. apply Z.mod_pos_bound. lia. }
  assert (F : forall l, eqm p (sum_hypercube p l) (list_sum l) /\ 0 <= sum_hypercube p l < p).
  { intros l. split; [rewrite sum_hypercube_eqm, vsum_list; reflexivity|]. unfold sum_hypercube.
    assert (G : forall acc, 0 <= acc < p -> 0 <= fold_left (fun s v => add_mod s v p) l acc < p).
    { induction l as [|a l IH]; intros acc Ha; cbn [fold_left]; [auto|]. apply IH. apply Z.mod_pos_bound. lia. }
    apply G. lia. }
  destruct (F ha) as [Ea Ra]. destruct (F hb) as [Eb Rb].
  assert (RS : eqm p (ratsum (poles fa fb mb) z) (sum_hypercube p ha - sum_hypercube p hb)).
  { rewrite Ea, Eb. unfold ratsum, poles. rewrite map_app, list_sum_app, !map_map. cbn [fst snd].
    apply eqm_add.
    - apply eqm_eq. unfold ha. f_equal. apply map_ext. intros a. ring.
    - unfold hb. generalize (combine fb mb). intros l. unfold list_sum. induction l as [|[b m] l IH]; cbn [map fold_right fst snd]; [mring|].
      rewrite IH, eqm_mod. mring. }
  destruct (Z.eqb_spec (sum_hypercube p ha) (sum_hypercube p hb)) as [E|E]; cbn [negb].
  2:{ exists false. split; [reflexivity|]. split; [discriminate|]. intros K. exfalso. apply E.
      apply (eqm_small p); auto. apply eqm_sub0. rewrite <- RS. exact K. }
  assert (T1 : run_sumcheck p ha (sum_hypercube p ha) (t_ha t) = true).
  { apply (run_sumcheck_reduced p ha _ _ ka); auto; [lia|]. apply eqm_some; auto; [rewrite sum_hypercube_eqm; reflexivity|lia]. }
  assert (T2 : run_sumcheck p hb (sum_hypercube p hb) (t_hb t) = true).
  { apply (run_sumcheck_reduced p hb _ _ kb); auto; [lia|]. apply eqm_some; auto; [rewrite sum_hypercube_eqm; reflexivity|lia]. }
  rewrite T1, T2. cbn [negb].
  assert (ZC : forall (l : list Z) k e tp, length l = (2 ^ k)%nat -> run_zero_check p (map (fun _ => 0) l) e tp = Some true).
  { intros l k e tp Hl. apply (zero_check_complete p _ k); [lia|apply zeros_length; auto|].
    apply Forall_forall. intros x Hx. apply in_map_iff in Hx. destruct Hx as [y [<- _]]. apply Zmod_0_l. }
  rewrite (ZC fa ka) by auto. rewrite (ZC fb kb) by auto. exists true. split; [reflexivity|]. split; [|reflexivity].
  intros _. rewrite RS, E. mring.
Qed.

(** A correct lookup is accepted whatever is drawn, unless zeta hits a value of
    either table (the code then throws). *)
Theorem logup_complete fa fb mb ka kb z t :
  length fa = (2 ^ ka)%nat -> length fb = (2 ^ kb)%nat -> length mb = (2 ^ kb)%nat ->
  lookup_ok p fa fb mb ->
  (forall a, In a (fa ++ fb) -> z mod p <> a mod p) ->
  run_logup p fa fb mb z t = Some true.
Proof.
  intros La Lb Lm OK NZ.
  destruct (logup_decides fa fb mb ka kb z t La Lb Lm) as [r [-> E]].
  - intros a Ha [C]. apply (NZ a); auto. apply in_app_iff. auto.
  - intros b m Hb _ [C]. apply (NZ b); auto. apply in_app_iff. right. apply in_combine_l in Hb. auto.
  - f_equal. apply E. rewrite (ratsum_group z (nodup Z.eq_dec (map (fun vc => fst vc mod p) (poles fa fb mb)))).
    + set (D := nodup Z.eq_dec (map (fun vc => fst vc mod p) (poles fa fb mb))).
      assert (R : forall v, In v D -> eqm p (coef (poles fa fb mb) v) 0).
      { intros v Hv. apply nodup_In in Hv. apply in_map_iff in Hv. destruct Hv as [x [<- _]].
        rewrite coef_poles. apply eqm_sub0. constructor. apply OK. apply Z.mod_pos_bound. lia. }
      clearbody D. unfold list_sum. induction D as [|v D IH]; cbn [map fold_right]; [reflexivity|].
      rewrite IH by (intros w Hw; apply R; right; auto). rewrite (R v) by (left; auto). mring.
    + apply NoDup_nodup.
    + intros vc Hvc. apply nodup_In. apply in_map_iff. exists vc. auto.
Qed.

(** A wrong lookup is accepted for fewer than |A| + |B| values of zeta. *)
Theorem logup_sound fa fb mb ka kb t :
  length fa = (2 ^ ka)%nat -> length fb = (2 ^ kb)%nat -> length mb = (2 ^ kb)%nat ->
  ~ lookup_ok p fa fb mb ->
  (length (filter (fun z => match run_logup p fa fb mb z (t z) with Some b => b | None => false end) (zrange p))
   < length fa + length fb)%nat.
Proof.
  intros La Lb Lm BAD.
  set (L := poles fa fb mb). set (D := nodup Z.eq_dec (map (fun vc => fst vc mod p) L)).
  set (D' := filter (fun v => negb (eqmb p (coef L v) 0)) D).
  assert (RD : forall v, In v D -> 0 <= v < p).
  { intros v Hv. apply nodup_In in Hv. apply in_map_iff in Hv. destruct Hv as [x [<- _]]. apply Z.mod_pos_bound. lia. }
  assert (LD : (length D' <= length fa + length fb)%nat).
  { unfold D'. eapply Nat.le_trans; [apply (count_le (fun v => negb (eqmb p (coef L v) 0)) D)|].
    assert (K : (length D <= length (map (fun vc : Z * Z => (fst vc mod p)%Z) L))%nat).
    { apply NoDup_incl_length; [apply NoDup_nodup|]. intros v Hv. apply nodup_In in Hv. exact Hv. }
    eapply Nat.le_trans; [exact K|]. unfold L, poles. rewrite map_length, app_length, !map_length, combine_length. lia. }
  assert (COEF0 : forall v, ~ In v D -> coef L v = 0).
  { intros v Hv. unfold coef. replace (filter (fun vc => fst vc mod p =? v) L) with (@nil (Z * Z)); [reflexivity|].
    symmetry. assert (Q : forall l, incl l L -> filter (fun vc : Z * Z => fst vc mod p =? v) l = []).
    { induction l as [|vc l IH]; intros Hl; [reflexivity|]. cbn [filter]. destruct (Z.eqb_spec (fst vc mod p) v) as [E|E].
      - exfalso. apply Hv. apply nodup_In. apply in_map_iff. exists vc. split; auto. apply Hl. left. auto.
      - apply IH. intros x Hx. apply Hl. right. auto. }
    apply Q. apply incl_refl. }
  assert (NE : D' <> []).
  { intros C. apply BAD. intros v Hv. assert (K : eqm p (coef L v) 0).
    { destruct (in_dec Z.eq_dec v D) as [I|I]; [|rewrite COEF0 by auto; reflexivity].
      destruct (eqmb p (coef L v) 0) eqn:E; [apply eqmb_true; auto|].
      assert (In v D') by (apply filter_In; rewrite E; auto). rewrite C in *. contradiction. }
    unfold L in K. rewrite coef_poles in K. apply (proj1 (eqm_sub0 _ _ _)) in K. destruct K as [K]. exact K. }
  eapply Nat.lt_le_trans; [|exact LD].
  apply (partial_fraction_zeros (coef L)).
  - apply distinct_range; [apply nodup_filter; apply NoDup_nodup|]. intros v Hv. apply filter_In in Hv. apply RD. tauto.
  - exact NE.
  - intros v Hv E. apply filter_In in Hv. destruct Hv as [_ Hv]. apply eqmb_true in E. rewrite E in Hv. discriminate.
  - apply distinct_range; [apply nodup_filter; apply zrange_nodup|]. intros z Hz. apply filter_In in Hz. apply zrange_in. tauto.
  - intros z Hz. apply filter_In in Hz. destruct Hz as [Rz A].
    destruct (run_logup p fa fb mb z (t z)) as [r|] eqn:E; [|discriminate]. subst r.
    (* the setup did not throw *)
    assert (HA : forall a, In a fa -> ~ eqm p z a).
    { intros a Ha C. unfold run_logup in E.
      rewrite (make_poly_pow fa ka La), (make_poly_pow fb kb Lb), (make_poly_pow mb kb Lm) in E.
      rewrite (setup_a_none z fa a Ha C) in E. destruct (negb (Nat.eqb (num_vars fb) (num_vars mb))); discriminate. }
    assert (HB : forall b m, In (b, m) (combine fb mb) -> m <> 0 -> ~ eqm p z b).
    { intros b m Hb Nm C. unfold run_logup in E.
      rewrite (make_poly_pow fa ka La), (make_poly_pow fb kb Lb), (make_poly_pow mb kb Lm) in E.
      rewrite (setup_b_none z b m fb mb Hb Nm C) in E.
      destruct (negb (Nat.eqb (num_vars fb) (num_vars mb))); [discriminate|]. destruct (setup_a p z fa) as [[h q]|]; discriminate. }
    destruct (logup_decides fa fb mb ka kb z (t z) La Lb Lm HA HB) as [r [E' X]]. rewrite E in E'. injection E'. intros <-.
    assert (RS : eqm p (ratsum L z) 0) by (apply X; reflexivity).
    split.
    + intros v Hv C. apply filter_In in Hv. destruct Hv as [Hv NZ].
      assert (K : coef L v = 0).
      { unfold coef. assert (Q : forall l, incl l L -> list_sum (map snd (filter (fun vc : Z * Z => fst vc mod p =? v) l)) = 0).
        { unfold list_sum. induction l as [|[x c] l IH]; intros Hl; [reflexivity|]. cbn [filter fst].
          destruct (Z.eqb_spec (x mod p) v) as [E1|E1]; [|apply IH; intros y Hy; apply Hl; right; auto].
          cbn [map fold_right snd]. rewrite IH by (intros y Hy; apply Hl; right; auto).
          assert (ZX : eqm p z x) by (rewrite C, <- E1; apply eqm_mod).
          assert (I : In (x, c) L) by (apply Hl; left; auto). unfold L, poles in I. apply in_app_iff in I. destruct I as [I|I].
          - apply in_map_iff in I. destruct I as [a [Ea Ia]]. injection Ea. intros _ ->. exfalso. exact (HA x Ia ZX).
          - apply in_map_iff in I. destruct I as [[b m] [Ea Ib]]. injection Ea. cbn [fst snd]. intros <- ->.
            destruct (Z.eq_dec m 0) as [->|Nm]; [reflexivity|]. exfalso. exact (HB x m Ib Nm ZX). }
        apply Q. apply incl_refl. }
      rewrite K in NZ. unfold eqmb in NZ. rewrite Z.eqb_refl in NZ. discriminate.
    + rewrite <- RS. rewrite (ratsum_group z D (NoDup_nodup _ _) L).
      * unfold D'. clearbody D. clear. unfold list_sum. induction D as [|v D IH]; [reflexivity|]. cbn [filter map fold_right].
        destruct (eqmb p (coef L v) 0) eqn:E; cbn [negb].
        -- apply eqmb_true in E. rewrite IH, E. mring.
        -- cbn [map fold_right]. rewrite IH. reflexivity.
      * intros vc Hvc. apply nodup_In. apply in_map_iff. exists vc. auto.
Qed.
End Logup.

Lemma prime_7 : prime 7.
Proof.
  constructor; [lia|]. intros n Hn. apply Zgcd_1_rel_prime.
  assert (n = 1 \/ n = 2 \/ n = 3 \/ n = 4 \/ n = 5 \/ n = 6) as [->|[->|[->|[->|[->| ->]]]]] by lia; reflexivity.
Qed.
Definition ex_tapes : logup_tapes :=
  {| t_ha := fun _ => 2; t_hb := fun _ => 3; e_qa := fun _ => 4; t_qa := fun _ => 5; e_qb := fun _ => 6; t_qb := fun _ => 1 |}.
Example logup_ex : lookup_ok 7 [3; 1; 3; 8] [1; 3] [2; 2] /\
  run_logup 7 [3; 1; 3; 8] [1; 3] [2; 2] 5 ex_tapes = Some true /\
  run_logup 7 [3; 1; 3; 8] [1; 3] [2; 1] 5 ex_tapes = Some false /\
  run_logup 7 [3; 1; 3; 8] [1; 3] [2; 2] 3 ex_tapes = None.
Proof.
  split; [|repeat split; reflexivity]. intros v Hv.
  assert (v = 0 \/ v = 1 \/ v = 2 \/ v = 3 \/ v = 4 \/ v = 5 \/ v = 6) as [->|[->|[->|[->|[->|[->| ->]]]]]] by lia; reflexivity.
Qed.
(** Multiplicities matter only modulo p: in a small field a lookup with absent
    values is accepted. *)
Theorem logup_small_field_refuted : exists p fa fb mb z t, prime p /\ (forall a, In a fa -> ~ In a fb) /\
  run_logup p fa fb mb z t = Some true.
Proof.
  exists 2, [1; 1], [0; 0], [0; 0], 0, ex_tapes. split; [exact prime_2|]. split; [|reflexivity].
  intros a [<-|[<-|[]]] [H|[H|[]]]; discriminate.
Qed.

Print Assumptions logup_complete.
Print Assumptions logup_sound.
Print Assumptions logup_small_field_refuted.
