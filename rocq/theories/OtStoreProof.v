From Coq Require Import List ZArith Bool Lia.
From Verif Require Import OtStoreModel.
Import ListNotations.
Open Scope Z_scope.

Lemma u64_small x : 0 <= x < 2 ^ 64 -> u64 x = x.
Proof. intros. unfold u64. apply Z.mod_small. auto. Qed.
Lemma u64_wrap x : 2 ^ 64 <= x < 2 * 2 ^ 64 -> u64 x = x - 2 ^ 64.
Proof. intros. unfold u64. symmetry. apply Z.mod_unique with (q := 1); lia. Qed.

Section K.
Variable k len : Z.
Hypothesis Hk : k = 1 \/ k = 2.
Hypothesis Hlen : len < 2 ^ 60.

Record good (c : ctrs) : Prop := {
  g_b : 0 <= uctr c <= bctr c;
  g_s : bctr c <= bsize c <= len;
  g_u : 0 < usize c /\ uctr c + usize c = bsize c;
  g_k : bctr c mod k = 0 /\ uctr c mod k = 0 /\ usize c mod k = 0
}.

Lemma next_slice_spec c num : good c -> 0 <= num < 2 ^ 63 ->
  next_slice k len c num =
  if (0 <? num) && (bctr c + num * k <=? bsize c)
  then Some (mkCtrs (bctr c) (num * k) (bctr c) (bctr c + num * k),
             mkCtrs (uctr c) (usize c) (bctr c + num * k) (bsize c))
  else None.
Proof.
  intros [Hb Hs Hu (Hm & _)] Hn. unfold next_slice.
  assert (Hd : bctr c = k * (bctr c / k)) by (pose proof (Z.div_mod (bctr c) k ltac:(lia)); lia).
  set (q := bctr c / k) in *. assert (Hq : 0 <= q) by (apply Z.div_pos; lia).
  assert (Hq2 : q * k < 2 ^ 60) by lia.
  rewrite (u64_small (q + num)) by lia. unfold slice.
  replace (q + num - q) with num by lia. rewrite (u64_small num) by lia.
  rewrite (u64_small (q * k)) by lia. rewrite (u64_small (num * k)) by lia.
  unfold check, increase. cbn [usize bsize bctr uctr].
  assert (Hle : u64 (bsize c - bctr c) = bsize c - bctr c) by (apply u64_small; lia).
  rewrite Hle.
  destruct (Z.ltb_spec 0 num) as [Hp|Hp]; cbn [andb].
  2:{ assert (num = 0) by lia. subst num. rewrite Z.mul_0_l. cbn. reflexivity. }
  assert (Hp2 : 0 <? num * k = true) by (apply Z.ltb_lt; lia). rewrite Hp2. cbn [andb].
  destruct (Z.lt_ge_cases ((q + num) * k) (2 ^ 64)) as [Hw|Hw].
  - rewrite (u64_small ((q + num) * k)) by lia.
    destruct (Z.leb_spec (bctr c + num * k) (bsize c)) as [Hf|Hf].
    + replace (0 <? (q + num) * k) with true by (symmetry; apply Z.ltb_lt; lia).
      replace (num * k <=? (q + num) * k) with true by (symmetry; apply Z.leb_le; lia).
      replace (q * k <=? (q + num) * k) with true by (symmetry; apply Z.leb_le; lia).
      replace ((q + num) * k <=? len) with true by (symmetry; apply Z.leb_le; lia). cbn [andb].
      replace (num * k <=? bsize c - bctr c) with true by (symmetry; apply Z.leb_le; lia).
      rewrite (u64_small (bctr c + num * k)) by lia. rewrite Hd. do 3 f_equal; ring.
    + replace (num * k <=? bsize c - bctr c) with false by (symmetry; apply Z.leb_gt; lia).
      destruct (_ && _); reflexivity.
  - replace (q * k <=? u64 ((q + num) * k)) with false.
    2:{ symmetry. apply Z.leb_gt. rewrite u64_wrap by lia. lia. }
    rewrite andb_false_r. cbn [andb].
    replace (bctr c + num * k <=? bsize c) with false by (symmetry; apply Z.leb_gt; lia). reflexivity.
Qed.

Lemma next_slice_good c num out c' : good c -> 0 <= num < 2 ^ 63 -> next_slice k len c num = Some (out, c') ->
  good out /\ good c' /\ 0 < num /\ bctr c + num * k <= bsize c /\
  out = mkCtrs (bctr c) (num * k) (bctr c) (bctr c + num * k) /\
  c' = mkCtrs (uctr c) (usize c) (bctr c + num * k) (bsize c).
Proof.
  intros G Hn H. rewrite next_slice_spec in H by auto.
  destruct (Z.ltb_spec 0 num) as [Hp|]; [|discriminate]. destruct (Z.leb_spec (bctr c + num * k) (bsize c)) as [Hf|]; [|discriminate].
  cbn [andb] in H. inversion H; subst. destruct G as [Gb Gs Gu (G1 & G2 & G3)].
  assert (Hm : (num * k) mod k = 0) by (apply Z.mod_mul; lia).
  assert (Hm2 : (bctr c + num * k) mod k = 0) by (rewrite Z.mod_add by lia; auto).
  split; [constructor; cbn; repeat split; auto; lia|]. split; [constructor; cbn; repeat split; auto; lia|]. auto.
Qed.

Lemma new_good num : 0 < num -> num * k <= len -> exists c, new_ctrs k num = Some c /\ c = mkCtrs 0 (num * k) 0 (num * k) /\ good c.
Proof.
  intros Hp Hl. unfold new_ctrs. rewrite u64_small by lia. unfold check. cbn [usize bsize bctr].
  replace (0 <? num * k) with true by (symmetry; apply Z.ltb_lt; lia). rewrite Z.leb_refl.
  replace (0 <=? num * k) with true by (symmetry; apply Z.leb_le; lia). cbn [andb].
  eexists. split; [reflexivity|]. split; auto. constructor; cbn; repeat split; try lia; try reflexivity.
  apply Z.mod_mul. lia.
Qed.

(** Histories. *)
Definition valid_op (o : op) : Prop := 0 <= snd o < 2 ^ 63.
Definition free_disjoint (hs : list ctrs) : Prop :=
  forall i j a b, i <> j -> nth_error hs i = Some a -> nth_error hs j = Some b -> bsize a <= bctr b \/ bsize b <= bctr a.

Lemma upd_len {A} (l : list A) i x : length (upd l i x) = length l.
Proof. revert i. induction l as [|y l IH]; intros [|i]; simpl; auto. Qed.
Lemma nth_upd {A} (l : list A) i x j : (i < length l)%nat -> nth_error (upd l i x) j = if Nat.eqb j i then Some x else nth_error l j.
Proof.
  revert i j. induction l as [|y l IH]; intros i j Hl; simpl in Hl; [lia|].
  destruct i as [|i], j as [|j]; simpl; auto. apply IH. lia.
Qed.

Lemma step_cases hs o : Forall good hs -> valid_op o ->
  step k len hs o = hs \/
  exists c, nth_error hs (fst o) = Some c /\ 0 < snd o /\ bctr c + snd o * k <= bsize c /\
    step k len hs o = upd hs (fst o) (mkCtrs (uctr c) (usize c) (bctr c + snd o * k) (bsize c))
                      ++ [mkCtrs (bctr c) (snd o * k) (bctr c) (bctr c + snd o * k)].
Proof.
  intros HG Ho. unfold step. destruct (nth_error hs (fst o)) as [c|] eqn:E; [|left; auto].
  assert (G : good c) by (rewrite Forall_forall in HG; apply HG; eapply nth_error_In; eauto).
  destruct (next_slice k len c (snd o)) as [[out c']|] eqn:En; [|left; auto].
  destruct (next_slice_good c (snd o) out c' G Ho En) as (_ & _ & H1 & H2 & -> & ->). right. exists c. auto.
Qed.

Lemma step_good hs o : Forall good hs -> valid_op o -> Forall good (step k len hs o).
Proof.
  intros HG Ho. unfold step. destruct (nth_error hs (fst o)) as [c|] eqn:E; auto.
  assert (G : good c) by (rewrite Forall_forall in HG; apply HG; eapply nth_error_In; eauto).
  destruct (next_slice k len c (snd o)) as [[out c']|] eqn:En; auto.
  destruct (next_slice_good c (snd o) out c' G Ho En) as (G1 & G2 & _).
  apply Forall_app. split; [|constructor; auto]. apply Forall_forall. intros x Hx. apply In_nth_error in Hx as [j Hj].
  assert (Hl : (fst o < length hs)%nat) by (apply nth_error_Some; congruence).
  rewrite nth_upd in Hj by auto. destruct (Nat.eqb j (fst o)); [inversion Hj; subst; auto|].
  rewrite Forall_forall in HG. apply HG. eapply nth_error_In; eauto.
Qed.
Lemma run_good os : forall hs, Forall good hs -> Forall valid_op os -> Forall good (run k len hs os).
Proof.
  induction os as [|o os IH]; intros hs HG HO; cbn [run fold_left]; auto. apply Forall_cons_iff in HO as [Ho HO].
  apply IH; auto. apply step_good; auto.
Qed.
Lemma step_free hs o : Forall good hs -> valid_op o -> free_disjoint hs -> free_disjoint (step k len hs o).
Proof.
  intros HG Ho HD. destruct (step_cases hs o HG Ho) as [->|(c & E & Hp & Hf & ->)]; auto.
  assert (Hl : (fst o < length hs)%nat) by (apply nth_error_Some; congruence).
  assert (Hmul : 0 < snd o * k) by lia.
  intros i j a b Hij Ha Hb.
  assert (Hnew : forall i x, nth_error (upd hs (fst o) (mkCtrs (uctr c) (usize c) (bctr c + snd o * k) (bsize c)) ++ [mkCtrs (bctr c) (snd o * k) (bctr c) (bctr c + snd o * k)]) i = Some x ->
     (i = length hs /\ bctr x = bctr c /\ bsize x = bctr c + snd o * k) \/
     (i = fst o /\ bctr x = bctr c + snd o * k /\ bsize x = bsize c) \/
     (i <> fst o /\ i <> length hs /\ nth_error hs i = Some x)).
  { clear - Hl. intros i x Hx. destruct (Nat.lt_ge_cases i (length hs)).
    - rewrite nth_error_app1 in Hx by (rewrite upd_len; auto). rewrite nth_upd in Hx by auto.
      destruct (Nat.eqb_spec i (fst o)); [inversion Hx; subst; right; left; cbn; auto|]. right. right. repeat split; auto. lia.
    - rewrite nth_error_app2 in Hx by (rewrite upd_len; auto). rewrite upd_len in Hx.
      destruct (i - length hs)%nat as [|m] eqn:E; cbn in Hx; [|destruct m; discriminate]. inversion Hx; subst. left. cbn. split; auto. lia. }
  destruct (Hnew i a Ha) as [(I1 & I2 & I3)|[(I1 & I2 & I3)|(I1 & I2 & I3)]];
  destruct (Hnew j b Hb) as [(J1 & J2 & J3)|[(J1 & J2 & J3)|(J1 & J2 & J3)]]; try lia.
  - assert (H := HD (fst o) j c b ltac:(auto) E J3). lia.
  - assert (H := HD (fst o) j c b ltac:(auto) E J3). lia.
  - assert (H := HD i (fst o) a c ltac:(auto) I3 E). lia.
  - assert (H := HD i (fst o) a c ltac:(auto) I3 E). lia.
  - apply (HD i j); auto.
Qed.
Lemma run_free os : forall hs, Forall good hs -> Forall valid_op os -> free_disjoint hs -> free_disjoint (run k len hs os).
Proof.
  induction os as [|o os IH]; intros hs HG HO HD; cbn [run fold_left]; auto. apply Forall_cons_iff in HO as [Ho HO].
  apply IH; auto; [apply step_good; auto|apply step_free; auto].
Qed.

(** The use ranges form a laminar family: two handles are disjoint or nested. *)
Definition laminar (hs : list ctrs) : Prop :=
  forall i j a b, nth_error hs i = Some a -> nth_error hs j = Some b ->
    (bsize a <= uctr b \/ bsize b <= uctr a) \/
    (uctr a <= uctr b /\ bsize b <= bctr a) \/ (uctr b <= uctr a /\ bsize a <= bctr b) \/ i = j.
Lemma step_laminar hs o : Forall good hs -> valid_op o -> free_disjoint hs -> laminar hs -> laminar (step k len hs o).
Proof.
  intros HG Ho HD HL. destruct (step_cases hs o HG Ho) as [->|(c & E & Hp & Hf & ->)]; auto.
  assert (Hl : (fst o < length hs)%nat) by (apply nth_error_Some; congruence).
  assert (Hmul : 0 < snd o * k) by lia.
  assert (Gc : good c) by (rewrite Forall_forall in HG; apply HG; eapply nth_error_In; eauto).
  assert (Gx : forall i x, nth_error hs i = Some x -> good x) by (intros i x Hx; rewrite Forall_forall in HG; apply HG; eapply nth_error_In; eauto).
  intros i j a b Ha Hb.
  assert (Hnew : forall i x, nth_error (upd hs (fst o) (mkCtrs (uctr c) (usize c) (bctr c + snd o * k) (bsize c)) ++ [mkCtrs (bctr c) (snd o * k) (bctr c) (bctr c + snd o * k)]) i = Some x ->
     (i = length hs /\ uctr x = bctr c /\ bctr x = bctr c /\ bsize x = bctr c + snd o * k) \/
     (i = fst o /\ uctr x = uctr c /\ bctr x = bctr c + snd o * k /\ bsize x = bsize c) \/
     (i <> fst o /\ i <> length hs /\ nth_error hs i = Some x)).
  { clear - Hl. intros i x Hx. destruct (Nat.lt_ge_cases i (length hs)).
    - rewrite nth_error_app1 in Hx by (rewrite upd_len; auto). rewrite nth_upd in Hx by auto.
      destruct (Nat.eqb_spec i (fst o)); [inversion Hx; subst; right; left; cbn; auto|]. right. right. repeat split; auto. lia.
    - rewrite nth_error_app2 in Hx by (rewrite upd_len; auto). rewrite upd_len in Hx.
      destruct (i - length hs)%nat as [|m] eqn:E; cbn in Hx; [|destruct m; discriminate]. inversion Hx; subst. left. cbn. repeat split; auto. lia. }
  destruct Gc as [Gb Gs Gu _].
  destruct (Hnew i a Ha) as [(I1 & I2 & I3 & I4)|[(I1 & I2 & I3 & I4)|(I1 & I2 & I3)]];
  destruct (Hnew j b Hb) as [(J1 & J2 & J3 & J4)|[(J1 & J2 & J3 & J4)|(J1 & J2 & J3)]]; try lia.
  - pose proof (HD (fst o) j c b ltac:(auto) E J3). pose proof (HL (fst o) j c b E J3). destruct (Gx _ _ J3) as [Xb Xs Xu _]. lia.
  - pose proof (HD (fst o) j c b ltac:(auto) E J3). pose proof (HL (fst o) j c b E J3). destruct (Gx _ _ J3) as [Xb Xs Xu _]. lia.
  - pose proof (HD i (fst o) a c ltac:(auto) I3 E). pose proof (HL i (fst o) a c I3 E). destruct (Gx _ _ I3) as [Xb Xs Xu _]. lia.
  - pose proof (HD i (fst o) a c ltac:(auto) I3 E). pose proof (HL i (fst o) a c I3 E). destruct (Gx _ _ I3) as [Xb Xs Xu _]. lia.
  - apply (HL i j); auto.
Qed.
Lemma run_laminar os : forall hs, Forall good hs -> Forall valid_op os -> free_disjoint hs -> laminar hs -> laminar (run k len hs os).
Proof.
  induction os as [|o os IH]; intros hs HG HO HD HL; cbn [run fold_left]; auto. apply Forall_cons_iff in HO as [Ho HO].
  apply IH; auto; [apply step_good; auto|apply step_free; auto|apply step_laminar; auto].
Qed.

(** Repeated calls on one handle. *)
Fixpoint calls (c : ctrs) (nums : list Z) : list (option ctrs) * ctrs :=
  match nums with
  | [] => ([], c)
  | n :: r => match next_slice k len c n with
              | None => let (l, c') := calls c r in (None :: l, c')
              | Some (out, c1) => let (l, c') := calls c1 r in (Some out :: l, c')
              end
  end.
End K.

(** * Sender and receiver sliced alike *)
Definition scaled (k : Z) (r s : ctrs) : Prop :=
  uctr s = k * uctr r /\ usize s = k * usize r /\ bctr s = k * bctr r /\ bsize s = k * bsize r.

Lemma Forall2_nth_error {A B} (P : A -> B -> Prop) l l' i : Forall2 P l l' ->
  match nth_error l i, nth_error l' i with Some a, Some b => P a b | None, None => True | _, _ => False end.
Proof. intros H. revert i. induction H; intros [|i]; cbn; auto. apply IHForall2. Qed.
Lemma Forall2_upd {A B} (P : A -> B -> Prop) l l' i x y : Forall2 P l l' -> P x y -> Forall2 P (upd l i x) (upd l' i y).
Proof. intros H Hx. revert i. induction H; intros [|i]; cbn; constructor; auto. Qed.

Lemma step_scaled k n hr hs o : k = 1 \/ k = 2 -> k * n < 2 ^ 60 -> 0 <= n ->
  Forall (good 1 n) hr -> Forall (good k (k * n)) hs -> valid_op o ->
  Forall2 (scaled k) hr hs -> Forall2 (scaled k) (step 1 n hr o) (step k (k * n) hs o).
Proof.
  intros Hk Hn H0 GR GS Ho HF. unfold step. pose proof (Forall2_nth_error _ _ _ (fst o) HF) as E.
  destruct (nth_error hr (fst o)) as [r|] eqn:Er, (nth_error hs (fst o)) as [s|] eqn:Es; try tauto.
  assert (Gr : good 1 n r) by (rewrite Forall_forall in GR; apply GR; eapply nth_error_In; eauto).
  assert (Gs : good k (k * n) s) by (rewrite Forall_forall in GS; apply GS; eapply nth_error_In; eauto).
  rewrite (next_slice_spec 1 n ltac:(auto) ltac:(nia) r (snd o) Gr Ho).
  rewrite (next_slice_spec k (k * n) Hk Hn s (snd o) Gs Ho).
  destruct E as (E1 & E2 & E3 & E4).
  assert (Eb : (bctr s + snd o * k <=? bsize s) = (bctr r + snd o * 1 <=? bsize r)).
  { destruct (Z.leb_spec (bctr s + snd o * k) (bsize s)), (Z.leb_spec (bctr r + snd o * 1) (bsize r)); auto; destruct Hk; subst; lia. }
  rewrite Eb. destruct ((0 <? snd o) && _); auto.
  apply Forall2_app; [apply Forall2_upd; auto|constructor; [|constructor]]; unfold scaled; cbn [uctr usize bctr bsize]; rewrite ?E1, ?E2, ?E3, ?E4; repeat split; ring.
Qed.
Lemma run_scaled k n os : k = 1 \/ k = 2 -> k * n < 2 ^ 60 -> 0 <= n -> forall hr hs,
  Forall (good 1 n) hr -> Forall (good k (k * n)) hs -> Forall valid_op os ->
  Forall2 (scaled k) hr hs -> Forall2 (scaled k) (run 1 n hr os) (run k (k * n) hs os).
Proof.
  intros Hk Hn H0. induction os as [|o os IH]; intros hr hs GR GS HO HF; cbn [run fold_left]; auto.
  apply Forall_cons_iff in HO as [Ho HO]. apply IH; auto.
  - apply (step_good 1 n); auto. destruct Hk; subst; lia.
  - apply (step_good k (k * n)); auto.
  - apply step_scaled; auto.
Qed.

Lemma at_ok {A} (buf : list A) i d : 0 <= i < Z.of_nat (length buf) -> at_ buf i = Ok (nth (Z.to_nat i) buf d).
Proof.
  intros H. unfold at_. destruct (Z.ltb_spec i 0); [lia|].
  destruct (nth_error buf (Z.to_nat i)) eqn:E; [|apply nth_error_None in E; lia].
  rewrite (nth_error_nth _ _ d E). reflexivity.
Qed.
Lemma recv_block_ok n c blk i : n < 2 ^ 60 -> good 1 n c -> Z.of_nat (length blk) = n -> 0 <= i < usize c ->
  recv_block c blk i = Ok (nth (Z.to_nat (uctr c + i)) blk 0).
Proof.
  intros Hn [Gb Gs Gu _] Hl Hi. unfold recv_block, buf_idx. destruct (Z.ltb_spec i (usize c)); [|lia].
  rewrite u64_small by lia. apply at_ok. lia.
Qed.
Lemma recv_choice_ok n compact c blk bits i : n < 2 ^ 60 -> good 1 n c -> Z.of_nat (length blk) = n -> (compact = false -> Z.of_nat (length bits) = n) ->
  0 <= i < usize c ->
  recv_choice compact c blk bits i = Ok (if compact then Z.odd (nth (Z.to_nat (uctr c + i)) blk 0) else nth (Z.to_nat (uctr c + i)) bits false).
Proof.
  intros Hn [Gb Gs Gu _] Hl Hb Hi. unfold recv_choice, buf_idx. destruct (Z.ltb_spec i (usize c)); [|lia].
  rewrite u64_small by lia. destruct compact.
  - rewrite (at_ok blk _ 0) by lia. reflexivity.
  - rewrite (at_ok bits _ false); auto. rewrite Hb by auto. lia.
Qed.
(** The sender's message [b] of OT number [i] of the whole store. *)
Definition message (k delta : Z) (blk : list Z) (i : Z) (b : bool) : Z :=
  if delta =? 0 then nth (Z.to_nat (2 * i + Z.b2z b)) blk 0
  else Z.lxor (nth (Z.to_nat (k * i)) blk 0) (if b then delta else 0).
Lemma send_block_ok k n delta c blk i b : k = 1 \/ k = 2 -> (delta = 0 -> k = 2) -> k * n < 2 ^ 60 -> good k (k * n) c -> Z.of_nat (length blk) = k * n ->
  0 <= i < usize c / k ->
  send_block k delta c blk i (Z.b2z b) = Ok (message k delta blk (uctr c / k + i) b).
Proof.
  intros Hk Hd Hn [Gb Gs Gu (Gm1 & Gm2 & Gm3)] Hl Hi. unfold send_block, message, buf_idx.
  pose proof (Z.div_mod (uctr c) k ltac:(lia)) as D1. pose proof (Z.div_mod (usize c) k ltac:(lia)) as D2.
  assert (Hbz : (Z.b2z b =? 0) || (Z.b2z b =? 1) = true) by (destruct b; reflexivity). rewrite Hbz. cbn [negb].
  assert (Hb2 : 0 <= Z.b2z b <= 1) by (destruct b; cbn; lia).
  destruct (Z.eqb_spec delta 0) as [->|Hd0].
  - assert (k = 2) by auto. subst k. rewrite u64_small by lia.
    destruct (Z.ltb_spec (2 * i) (usize c)); [|lia]. rewrite (u64_small (uctr c + 2 * i)) by lia. rewrite u64_small by lia.
    rewrite (at_ok blk _ 0) by lia. do 3 f_equal. lia.
  - rewrite (u64_small (k * i)) by (destruct Hk; subst; lia).
    destruct (Z.ltb_spec (k * i) (usize c)); [|destruct Hk; subst; lia].
    rewrite u64_small by (destruct Hk; subst; lia). rewrite (at_ok blk _ 0) by (destruct Hk; subst; lia). f_equal.
    replace (uctr c + k * i) with (k * (uctr c / k + i)) by lia. destruct b; cbn [Z.b2z]; [rewrite Z.mul_1_r|rewrite Z.mul_0_r]; reflexivity.
Qed.
Lemma copy_blk_ok n c blk : good 1 n c -> Z.of_nat (length blk) = n ->
  exists l, recv_copy_blk c blk = Ok l /\ Z.of_nat (length l) = usize c /\
    forall i, 0 <= i < usize c -> nth (Z.to_nat i) l 0 = nth (Z.to_nat (uctr c + i)) blk 0.
Proof.
  intros [Gb Gs Gu _] Hl. unfold recv_copy_blk, copy_range. destruct (Z.leb_spec (uctr c + usize c) (Z.of_nat (length blk))); [|lia].
  eexists. split; [reflexivity|]. rewrite firstn_length, skipn_length. split; [lia|]. intros i Hi.
  assert (E : forall (l : list Z) n i, (i < n)%nat -> nth i (firstn n l) 0 = nth i l 0).
  { clear. induction l as [|x l IH]; intros [|n] [|i] H; simpl; auto; try lia. apply IH. lia. }
  assert (E2 : forall (l : list Z) n i, nth i (skipn n l) 0 = nth (n + i) l 0).
  { clear. induction l as [|x l IH]; intros [|n] i; simpl; auto. destruct i; auto. }
  rewrite E by lia. rewrite E2. f_equal. lia.
Qed.
Lemma copy_bits_ok n c bits : good 1 n c -> Z.of_nat (length bits) = n ->
  Z.of_nat (length (recv_copy_bits c bits)) = usize c /\
  forall i, 0 <= i < usize c -> nth (Z.to_nat i) (recv_copy_bits c bits) false = nth (Z.to_nat (uctr c + i)) bits false.
Proof.
  intros [Gb Gs Gu _] Hl. unfold recv_copy_bits.
  assert (E : forall (l : list bool) n i, (i < n)%nat -> nth i (firstn n l) false = nth i l false).
  { clear. induction l as [|x l IH]; intros [|n] [|i] H; simpl; auto; try lia. apply IH. lia. }
  assert (E2 : forall (l : list bool) n i, nth i (skipn n l) false = nth (n + i) l false).
  { clear. induction l as [|x l IH]; intros [|n] i; simpl; auto. destruct i; auto. }
  split.
  - rewrite firstn_length, !app_length, skipn_length, !repeat_length. lia.
  - intros i Hi. rewrite E by lia. rewrite app_nth1 by (rewrite app_length, skipn_length, repeat_length; lia).
    rewrite app_nth1 by (rewrite skipn_length; lia). rewrite E2. f_equal. lia.
Qed.
