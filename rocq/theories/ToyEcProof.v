(** The affine formulas of ToyEcModel are the chord and tangent law of EcGroup over Z/p. *)
From Coq Require Import ZArith List Bool Lia Znumtheory Field.
From Verif Require Import LinCodeModel MpxModel MpxProof ExpTableModel ExpTableProps ZpLib EcField EcGroup EcMul ToyEcModel.
Import ListNotations.
Open Scope Z_scope.

(** ** Scalars *)
Lemma digits_ok fuel : forall k, 0 <= k -> (k = 0 \/ Z.log2 k < Z.of_nat fuel) ->
  Forall (fun d => 0 <= d < 2 ^ 60) (digits fuel k) /\ clamp_digits (digits fuel k) = digits fuel k /\ value_of_digits (digits fuel k) = k /\ (digits fuel k = [] -> k = 0).
Proof.
  induction fuel as [|fuel IH]; intros k K F.
  - cbn. assert (k = 0) by (destruct F as [F|F]; [exact F|]; pose proof (Z.log2_nonneg k); lia). subst k. auto.
  - cbn [digits]. destruct (Z.eqb_spec k 0) as [->|N]; [cbn; auto|].
    set (q := k / 2 ^ 60). set (d := k mod 2 ^ 60). assert (D : k = 2 ^ 60 * q + d) by (apply Z.div_mod; lia).
    assert (B : 0 <= d < 2 ^ 60) by (apply Z.mod_pos_bound; lia). assert (Q : 0 <= q) by (apply Z.div_pos; lia).
    destruct (IH q Q) as (I1 & I2 & I3 & I4).
    { destruct (Z.eq_dec q 0) as [|Nq]; [left; assumption|right]. destruct F as [F|F]; [lia|].
      assert (L : 60 + Z.log2 q <= Z.log2 k). { rewrite <- Z.log2_mul_pow2 by lia. apply Z.log2_le_mono. lia. } lia. }
    split; [constructor; assumption|]. split; [|split; [|discriminate]].
    + cbn [clamp_digits]. rewrite I2. destruct (digits fuel q) as [|d' t] eqn:E; [|reflexivity].
      specialize (I4 eq_refl). destruct (Z.eqb_spec d 0) as [D0|D0]; [lia|reflexivity].
    + change (value_of_digits (d :: digits fuel q)) with (d + 2 ^ 60 * value_of_digits (digits fuel q)). rewrite I3. lia.
Qed.
Lemma mp_of_ok k : wf (mp_of k) /\ value (mp_of k) = k.
Proof.
  destruct (digits_ok (S (Z.to_nat (Z.log2 (Z.abs k)))) (Z.abs k)) as (F & C & Vd & N); [lia|right; pose proof (Z.log2_nonneg (Z.abs k)); lia|].
  unfold wf, mp_of, value. cbn [dp MpxModel.neg]. split.
  - split; [exact F|split; [exact C|]]. intros E. specialize (N E). apply Z.ltb_ge. lia.
  - rewrite Vd. destruct (Z.ltb_spec k 0); lia.
Qed.

Section Bridge.
Variable c : curve.
Let p := cp c.
Hypothesis Hp : prime p.
Hypothesis odd : p <> 2.
Hypothesis no_root : forall x, (x ^ 3 + cA c * x + cB c) mod p <> 0.
Let F := E p.
Let m := mk p Hp.
Let FT := zp_field p Hp.
Add Field FF : FT.
Let ed := e_dec p.
Notation PA := (EcGroup.padd F (m 1) (eadd p Hp) (emul p Hp) (esub p Hp) (eopp p Hp) (ediv p Hp) ed (m 1) (m 0) (m (cA c))).
Notation ON := (EcGroup.on F (eadd p Hp) (emul p Hp) (m 1) (m 0) (m (cA c)) (m (cB c))).
Notation NEG := (EcGroup.neg F (eopp p Hp)).
Notation Af := (Aff F).
Infix "[+]" := (eadd p Hp) (at level 50, left associativity).
Infix "[*]" := (emul p Hp) (at level 40, left associativity).
Infix "[-]" := (esub p Hp) (at level 50, left associativity).
Infix "[/]" := (ediv p Hp) (at level 40, left associativity).

Definition rep (P : pt F) : point := match P with Inf _ => infinity | Aff _ x y => (v p x, v p y) end.

Lemma p3 : 3 <= p. Proof. pose proof (prime_ge_2 p Hp). lia. Qed.
Lemma m2 : m 2 = m 1 [+] m 1. Proof. unfold m. rewrite <- mk_add. reflexivity. Qed.
Lemma m3 : m 3 = m 1 [+] m 1 [+] m 1. Proof. unfold m. rewrite <- !mk_add. reflexivity. Qed.
Lemma two : m 1 [+] m 1 <> m 0.
Proof. rewrite <- m2. intros H. apply mk_0 in H. destruct H as [H]. pose proof p3. rewrite Z.mod_0_l, Z.mod_small in H by lia. lia. Qed.
Lemma one : m 1 <> m 0.
Proof. intros H. apply mk_0 in H. destruct H as [H]. pose proof p3. rewrite Z.mod_0_l, Z.mod_small in H by lia. lia. Qed.
Lemma push_cubic x : m (x ^ 3 + cA c * x + cB c) = EcGroup.f F (eadd p Hp) (emul p Hp) (m 0) (m (cA c)) (m (cB c)) (m x).
Proof. replace (x ^ 3) with (x * x * x) by ring. unfold m, EcGroup.f. rewrite !mk_add, !mk_mul. unfold F. ring. Qed.
Lemma f_ne x : EcGroup.f F (eadd p Hp) (emul p Hp) (m 0) (m (cA c)) (m (cB c)) x <> m 0.
Proof.
  intros H. rewrite <- (mk_v p Hp x) in H. fold m in H. rewrite <- push_cubic in H. apply mk_0 in H. destruct H as [H]. rewrite Z.mod_0_l in H by (pose proof p3; lia).
  exact (no_root _ H).
Qed.
Lemma smooth x : EcGroup.f F (eadd p Hp) (emul p Hp) (m 0) (m (cA c)) (m (cB c)) x = m 0 ->
  EcGroup.f' F (m 1) (eadd p Hp) (emul p Hp) (m 0) (m (cA c)) x <> m 0.
Proof. intros H. destruct (f_ne _ H). Qed.
Lemma y_ne x y : ON (Af x y) -> y <> m 0.
Proof. cbn [EcGroup.on]. intros H ->. apply (f_ne x). rewrite <- H. unfold F, m. ring. Qed.
Lemma v_0 x : v p x = 0 -> x = m 0.
Proof. intros H. apply v_inj. rewrite H. unfold m. rewrite v_mk. symmetry. apply Z.mod_0_l. pose proof p3. lia. Qed.
Lemma rep_inf P : ON P -> is_inf (rep P) = true <-> P = Inf F.
Proof.
  intros H. destruct P as [|x y]; [cbn; tauto|]. split; [|discriminate]. intros K. apply andb_true_iff in K as [_ K]. apply Z.eqb_eq in K.
  apply v_0 in K. destruct (y_ne _ _ H K).
Qed.
Lemma rep_aff x y : ON (Af x y) -> is_inf (rep (Af x y)) = false.
Proof. intros H. destruct (is_inf (rep (Af x y))) eqn:Q; auto. apply rep_inf in Q; auto. discriminate. Qed.
Lemma rep_inj P Q : ON P -> ON Q -> rep P = rep Q -> P = Q.
Proof.
  intros HP HQ R. destruct P as [|x y].
  - symmetry. apply rep_inf; auto. rewrite <- R. reflexivity.
  - destruct Q as [|x' y']; [apply rep_inf; auto; rewrite R; reflexivity|]. injection R as R1 R2. apply v_inj in R1, R2. congruence.
Qed.
Lemma inverse a i : invert_mod a p = Some i -> m i = m 1 [/] m a /\ m a <> m 0.
Proof.
  intros H. destruct (invert_mod_some _ _ _ H) as [_ M]. apply (mk_eq p Hp) in M. rewrite mk_mul in M. fold m in M.
  assert (N : m a <> m 0). { intros Z0. rewrite Z0 in M. apply one. rewrite <- M. unfold F, m. ring. }
  split; auto. rewrite <- M. unfold F, m in *. field. exact N.
Qed.
Lemma invert_ne a : m a <> m 0 -> exists i, invert a p = Val i /\ m i = m 1 [/] m a.
Proof.
  intros N. destruct (invert_mod_prime a p Hp) as (i & Ei); [intros K; apply N; apply mk_0; exact K|]. exists i. unfold invert. rewrite Ei. split; auto.
  apply (inverse _ _ Ei).
Qed.
Lemma to_v z e : m z = e -> z mod p = v p e. Proof. intros <-. unfold m. rewrite v_mk. reflexivity. Qed.
Lemma mv x : m (v p x) = x. Proof. apply mk_v. Qed.
Ltac push := unfold m; rewrite ?mk_mod, ?mk_add, ?mk_sub, ?mk_mul, ?mk_mod, ?mk_add, ?mk_sub, ?mk_mul, ?mk_v; fold m.

Lemma third_rep lambda s x1 y1 x2 : m lambda = s ->
  let x3 := (lambda ^ 2 - (v p x1 + v p x2)) mod p in (x3, (lambda * (v p x1 - x3) - v p y1) mod p) = rep (EcGroup.third F (emul p Hp) (esub p Hp) (m 1) (m 0) s x1 y1 x2).
Proof.
  intros L x3. assert (E3 : m x3 = m 1 [*] (s [*] s) [-] m 0 [-] x1 [-] x2).
  { unfold x3. replace (lambda ^ 2) with (lambda * lambda) by ring. push. rewrite L. unfold F, m. ring. }
  unfold EcGroup.third. cbn [rep]. f_equal.
  - rewrite <- E3. unfold m. rewrite v_mk. unfold x3. rewrite Z.mod_mod by (pose proof p3; lia). reflexivity.
  - apply to_v. rewrite <- E3. unfold m. rewrite !mk_sub, !mk_mul, !mk_sub, !mk_v. fold m. rewrite L. reflexivity.
Qed.
Theorem add_rep P Q : ON P -> ON Q -> ec_add c (rep P) (rep Q) = Val (rep (PA P Q)).
Proof.
  intros HP HQ. unfold ec_add. destruct P as [|x1 y1]; [reflexivity|]. rewrite rep_aff by exact HP.
  destruct Q as [|x2 y2]; [reflexivity|]. rewrite rep_aff by exact HQ. cbn [rep fst snd]. fold p.
  pose proof (y_ne _ _ HP) as Y1. cbn [EcGroup.padd]. destruct (ed x1 x2) as [E|E].
  - subst x2. rewrite Z.eqb_refl. cbn [andb]. destruct (Z.eqb_spec (v p y1) (v p y2)) as [Ey|Ey]; cbn [negb].
    + apply v_inj in Ey. subst y2. destruct (ed y1 (eopp p Hp y1)) as [N|N].
      { exfalso. apply Y1. apply (EcGroup.self_neg F (m 0) (m 1) (eadd p Hp) (emul p Hp) (esub p Hp) (eopp p Hp) (ediv p Hp) (einv p Hp) FT ed two _ N). }
      assert (N2 : m (v p y1 * 2) <> m 0).
      { unfold m. rewrite mk_mul. rewrite mk_v. fold m. rewrite m2. apply (EcGroup.mul_ne F (m 0) (m 1) (eadd p Hp) (emul p Hp) (esub p Hp) (eopp p Hp) (ediv p Hp) (einv p Hp) FT ed); auto. apply two. }
      destruct (invert_ne _ N2) as (i & Ei & Mi). rewrite Ei. cbn [bind]. f_equal. apply third_rep.
      replace (v p x1 ^ 2) with (v p x1 * v p x1) by ring. unfold m. rewrite mk_mod, mk_mul, mk_add, !mk_mul, !mk_v. fold m. rewrite Mi, m3.
      revert N2. unfold m. rewrite mk_mul, mk_v. fold m. rewrite m2. intros N2. unfold EcGroup.f', F, m in *. pose proof two as TW. unfold m in TW. field. split; assumption.
    + assert (NY : y1 = eopp p Hp y2).
      { cbn [EcGroup.on] in HP, HQ. destruct (EcGroup.same_x F (m 0) (m 1) (eadd p Hp) (emul p Hp) (esub p Hp) (eopp p Hp) (ediv p Hp) (einv p Hp) FT ed (m 1) (m 0) (m (cA c)) (m (cB c)) one x1 y1 y2 HP HQ) as [K|K]; auto. congruence. }
      destruct (ed y1 (eopp p Hp y2)) as [|N]; [reflexivity|contradiction].
  - destruct (Z.eqb_spec (v p x1) (v p x2)) as [K|_]; [destruct (E (v_inj p _ _ K))|]. cbn [andb].
    assert (N2 : m ((v p x2 - v p x1) mod p) <> m 0).
    { unfold m. rewrite mk_mod, mk_sub, !mk_v. fold m. apply (EcGroup.sub_ne F (m 0) (m 1) (eadd p Hp) (emul p Hp) (esub p Hp) (eopp p Hp) (ediv p Hp) (einv p Hp) FT). congruence. }
    destruct (invert_ne _ N2) as (i & Ei & Mi). rewrite Ei. cbn [bind]. f_equal. apply third_rep.
    unfold m. rewrite mk_mod, mk_mul, mk_sub, !mk_v. fold m. rewrite Mi. revert N2. unfold m. rewrite mk_mod, mk_sub, !mk_v. fold m. intros N2. unfold F, m in *. field. exact N2.
Qed.
Lemma neg_rep P : ON P -> ec_negate c (rep P) = rep (NEG P).
Proof.
  intros H. unfold ec_negate. destruct P as [|x y]; [reflexivity|]. rewrite rep_aff by exact H. cbn [rep fst snd EcGroup.neg]. f_equal.
  fold p. unfold eopp. rewrite v_mk. pose proof (v_range p y) as R.
  assert (v p y <> 0) by (intros K; apply v_0 in K; destruct (y_ne _ _ H K)).
  apply (Z.mod_unique_pos _ _ (-1)); lia.
Qed.

(** ** Valid points *)
Definition valid (P : point) : Prop :=
  P = infinity \/ (0 <= fst P < p /\ 0 <= snd P < p /\ (snd P ^ 2) mod p = (fst P ^ 3 + cA c * fst P + cB c) mod p).
Lemma valid_rep P : valid P -> exists Q, ON Q /\ rep Q = P.
Proof.
  intros [->|(X & Y & H)]; [exists (Inf F); cbn; auto|]. destruct P as [x y]. cbn [fst snd] in *. exists (Af (m x) (m y)). cbn [EcGroup.on rep]. split.
  - rewrite <- push_cubic. assert (K : m (y ^ 2) = m (x ^ 3 + cA c * x + cB c)) by (apply mk_eq; constructor; exact H). rewrite <- K.
    replace (y ^ 2) with (y * y) by ring. unfold m. rewrite mk_mul. unfold F. ring.
  - unfold m. rewrite !v_mk, !Z.mod_small by lia. reflexivity.
Qed.
Lemma rep_valid Q : ON Q -> valid (rep Q).
Proof.
  destruct Q as [|x y]; [left; reflexivity|]. intros H. right. cbn [rep fst snd]. split; [apply v_range|]. split; [apply v_range|].
  assert (K : eqm p (v p y ^ 2) (v p x ^ 3 + cA c * v p x + cB c)).
  { apply (mk_eq p Hp). fold m. rewrite push_cubic, mv. cbn [EcGroup.on] in H. rewrite <- H. replace (v p y ^ 2) with (v p y * v p y) by ring. unfold m. rewrite mk_mul, mk_v. unfold F. ring. }
  destruct K as [K]. exact K.
Qed.

(** ** The group *)
Lemma g_on P Q : ON P -> ON Q -> ON (PA P Q).
Proof. apply (padd_on F (m 0) (m 1) _ _ _ _ _ (einv p Hp) FT ed _ _ _ _ two one). Qed.
Lemma g_iv P : ON P -> ON (NEG P).
Proof. apply (neg_on F (m 0) (m 1) _ _ (esub p Hp) _ (ediv p Hp) (einv p Hp) FT). Qed.
Lemma g_comm P Q : ON P -> ON Q -> PA P Q = PA Q P.
Proof. apply (padd_comm F (m 0) (m 1) _ _ _ _ _ (einv p Hp) FT ed _ _ _ _ two one). Qed.
Lemma g_assoc P Q R : ON P -> ON Q -> ON R -> PA (PA P Q) R = PA P (PA Q R).
Proof. apply (padd_assoc F (m 0) (m 1) _ _ _ _ _ (einv p Hp) FT ed _ _ _ _ two one smooth). Qed.
Lemma g_inv P : ON P -> PA P (NEG P) = Inf F.
Proof. intros _. apply (padd_neg F (m 0) (m 1) _ _ _ _ _ (einv p Hp) FT ed). Qed.
Lemma g_e : ON (Inf F). Proof. exact Logic.I. Qed.
Lemma g_l P : ON P -> PA (Inf F) P = P. Proof. destruct P; reflexivity. Qed.
Definition zm := zmul (pt F) (Inf F) PA NEG.
Lemma zm_on k P : ON P -> ON (zm k P). Proof. apply (zmul_on _ ON); auto using g_e, g_on, g_iv. Qed.
Lemma zm_add k l P : ON P -> zm (k + l) P = PA (zm k P) (zm l P).
Proof. apply (zmul_add _ ON); auto using g_e, g_on, g_iv, g_l, g_comm, g_assoc, g_inv. Qed.
Lemma zm_mul k l P : ON P -> zm (k * l) P = zm k (zm l P).
Proof. apply (zmul_mul _ ON); auto using g_e, g_on, g_iv, g_l, g_comm, g_assoc, g_inv. Qed.
Lemma zm_op k P Q : ON P -> ON Q -> zm k (PA P Q) = PA (zm k P) (zm k Q).
Proof. apply (zmul_op _ ON); auto using g_e, g_on, g_iv, g_l, g_comm, g_assoc, g_inv. Qed.
Lemma zm_opp k P : ON P -> zm (- k) P = NEG (zm k P).
Proof. apply (zmul_opp _ ON); auto using g_e, g_on, g_iv, g_l, g_comm, g_assoc, g_inv. Qed.
Lemma zm_mod n k P : ON P -> n <> 0 -> zm n P = Inf F -> zm (k mod n) P = zm k P.
Proof. apply (zmul_mod _ ON); auto using g_e, g_on, g_iv, g_l, g_comm, g_assoc, g_inv. Qed.
Lemma zm_e k : zm k (Inf F) = Inf F.
Proof. apply (zmul_e _ ON); auto using g_e, g_on, g_iv, g_l, g_comm, g_assoc, g_inv. Qed.
Lemma zm_1 P : ON P -> zm 1 P = P.
Proof. apply (zmul_1 _ ON); auto using g_l. Qed.

(** Mul computes the multiple k P, provided the order n kills P. *)
Theorem mul_rep P k : ON P -> 0 < cn c -> zm (cn c) P = Inf F -> ec_mul c (rep P) k = Val (rep (zm k P)).
Proof.
  intros H N Z0. unfold ec_mul. destruct (is_inf (rep P)) eqn:I.
  - apply rep_inf in I; auto. subst P. rewrite zm_e. reflexivity.
  - destruct (Z.eqb_spec (k mod cn c) 0) as [K|K].
    + rewrite <- (zm_mod (cn c)), K by (auto; lia). reflexivity.
    + destruct (mp_of_ok (Z.abs k)) as [W Va].
      assert (P1 : Val (rep P) = (fun j => Val (rep (zm j P))) 1) by (cbn beta; rewrite zm_1 by auto; reflexivity). rewrite P1.
      rewrite (custom_pow (lift_add c) (Val infinity) (fun j => Val (rep (zm j P)))); auto.
      * rewrite Va. destruct (Z.ltb_spec (Z.abs k) 0) as [L|L]; [lia|]. cbn [bind]. f_equal.
        destruct (Z.ltb_spec k 0) as [L'|L']; [|f_equal; f_equal; lia].
        rewrite neg_rep by auto using zm_on. rewrite <- zm_opp by auto. f_equal. f_equal. lia.
      * intros x y _ _. cbn [lift_add bind]. rewrite add_rep by auto using zm_on. rewrite zm_add by auto. reflexivity.
Qed.
End Bridge.
