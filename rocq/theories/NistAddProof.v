(** AffinePointAddNIST (HashCurveModel.nist_add) is the chord and tangent addition of EcGroup. *)
From Coq Require Import ZArith List Bool Lia Znumtheory Field.
From Verif Require Import LinCodeModel ZpLib EcField EcGroup ToyEcModel HashCurveModel.
Import ListNotations.
Open Scope Z_scope.

Section Nist.
Variables p a b : Z.
Hypothesis Hp : prime p.
Hypothesis odd : p <> 2.
Hypothesis a3 : eqm p a (-3).
Hypothesis bne : ~ eqm p b 0.
Let F := E p.
Let m := mk p Hp.
Let FT := zp_field p Hp.
Add Field FF : FT.
Let ed := e_dec p.
Notation PA := (EcGroup.padd F (m 1) (eadd p Hp) (emul p Hp) (esub p Hp) (eopp p Hp) (ediv p Hp) ed (m 1) (m 0) (m a)).
Notation ON := (EcGroup.on F (eadd p Hp) (emul p Hp) (m 1) (m 0) (m a) (m b)).
Notation Af := (Aff F).
Infix "[+]" := (eadd p Hp) (at level 50, left associativity).
Infix "[*]" := (emul p Hp) (at level 40, left associativity).
Infix "[-]" := (esub p Hp) (at level 50, left associativity).
Infix "[/]" := (ediv p Hp) (at level 40, left associativity).
Definition nrep (P : pt F) : point := match P with Inf _ => (0, 0) | Aff _ x y => (v p x, v p y) end.

Lemma p3 : 3 <= p. Proof. pose proof (prime_ge_2 p Hp). lia. Qed.
Lemma m2 : m 2 = m 1 [+] m 1. Proof. unfold m. rewrite <- mk_add. reflexivity. Qed.
Lemma m3 : m 3 = m 1 [+] m 1 [+] m 1. Proof. unfold m. rewrite <- !mk_add. reflexivity. Qed.
Lemma ma : m a = eopp p Hp (m 3). Proof. unfold m. rewrite <- mk_opp. apply mk_eq. exact a3. Qed.
Lemma two : m 1 [+] m 1 <> m 0.
Proof. rewrite <- m2. intros H. apply mk_0 in H. destruct H as [H]. pose proof p3. rewrite Z.mod_0_l, Z.mod_small in H by lia. lia. Qed.
Lemma one : m 1 <> m 0.
Proof. intros H. apply mk_0 in H. destruct H as [H]. pose proof p3. rewrite Z.mod_0_l, Z.mod_small in H by lia. lia. Qed.
Lemma v_0 x : v p x = 0 <-> x = m 0.
Proof.
  pose proof p3. split; intros H'.
  - apply v_inj. rewrite H'. unfold m. rewrite v_mk. symmetry. apply Z.mod_0_l. lia.
  - rewrite H'. unfold m. rewrite v_mk. apply Z.mod_0_l. lia.
Qed.
Lemma origin_off x y : ON (Af x y) -> (v p x =? 0) && (v p y =? 0) = false.
Proof.
  cbn [EcGroup.on]. intros H. destruct (Z.eqb_spec (v p x) 0) as [X|]; [|reflexivity]. destruct (Z.eqb_spec (v p y) 0) as [Y|]; [|reflexivity]. exfalso.
  apply v_0 in X, Y. subst x y. apply bne. apply (mk_0 p Hp). fold m. unfold EcGroup.f in H. transitivity (m 0 [*] m 0 [*] m 0 [+] m 0 [*] (m 0 [*] m 0) [+] m a [*] m 0 [+] m b); [unfold F, m; ring|].
  fold F in H. rewrite <- H. unfold F, m. ring.
Qed.
Lemma inverse' z i : invert_mod z p = Some i -> m i = m 1 [/] m z /\ m z <> m 0.
Proof.
  intros H. destruct (invert_mod_some _ _ _ H) as [_ M]. apply (mk_eq p Hp) in M. rewrite mk_mul in M. fold m in M.
  assert (N : m z <> m 0). { intros Z0. rewrite Z0 in M. apply one. rewrite <- M. unfold F, m. ring. }
  split; auto. rewrite <- M. unfold F, m in *. field. exact N.
Qed.
Lemma invert_ne' z : m z <> m 0 -> exists i, invert z p = Val i /\ m i = m 1 [/] m z.
Proof.
  intros N. destruct (invert_mod_prime z p Hp) as (i & Ei); [intros K; apply N; apply mk_0; exact K|]. exists i. unfold invert. rewrite Ei. split; auto. apply (inverse' _ _ Ei).
Qed.
Lemma to_v z e : m z = e -> z mod p = v p e. Proof. intros <-. unfold m. rewrite v_mk. reflexivity. Qed.
Lemma fin_rep lambda s x1 y1 x2 : m lambda = s ->
  (let x3 := (lambda * lambda - v p x1 - v p x2) mod p in
   let x3 := if x3 <? 0 then x3 + p else x3 in
   let y3 := (lambda * (v p x1 - x3) - v p y1) mod p in
   let y3 := if y3 <? 0 then y3 + p else y3 in
   Val (x3, y3)) = Val (nrep (EcGroup.third F (emul p Hp) (esub p Hp) (m 1) (m 0) s x1 y1 x2)).
Proof.
  intros L. cbv zeta. set (x3 := (lambda * lambda - v p x1 - v p x2) mod p). pose proof p3.
  assert (R3 : 0 <= x3 < p) by (apply Z.mod_pos_bound; lia). destruct (Z.ltb_spec x3 0); [lia|].
  assert (RY : 0 <= (lambda * (v p x1 - x3) - v p y1) mod p) by (apply Z.mod_pos_bound; lia). destruct (Z.ltb_spec ((lambda * (v p x1 - x3) - v p y1) mod p) 0); [lia|].
  assert (E3 : m x3 = m 1 [*] (s [*] s) [-] m 0 [-] x1 [-] x2).
  { unfold x3, m. rewrite mk_mod, !mk_sub, mk_mul, !mk_v. fold m. rewrite L. unfold F, m. ring. }
  f_equal. unfold EcGroup.third. cbn [nrep]. f_equal.
  - rewrite <- E3. unfold m. rewrite v_mk. symmetry. apply Z.mod_small. exact R3.
  - apply to_v. rewrite <- E3. unfold m. rewrite !mk_sub, !mk_mul, !mk_sub, !mk_v. fold m. rewrite L. reflexivity.
Qed.
Lemma nist_val x1 y1 x2 y2 : ON (Af x1 y1) -> ON (Af x2 y2) -> ~ (x1 = x2 /\ y1 = y2 /\ y1 = m 0) ->
  nist_add (v p x1, v p y1) (v p x2, v p y2) p = Val (nrep (PA (Af x1 y1) (Af x2 y2))).
Proof.
  intros HP HQ N. unfold nist_add. rewrite (origin_off _ _ HP), (origin_off _ _ HQ). cbn [EcGroup.padd].
  destruct (ed x1 x2) as [E|E].
  - subst x2. rewrite Z.eqb_refl. cbn [andb]. destruct (Z.eqb_spec (v p y1) (v p y2)) as [Ey|Ey].
    + apply v_inj in Ey. subst y2. assert (Y1 : y1 <> m 0) by (intros K; apply N; auto). destruct (ed y1 (eopp p Hp y1)) as [S|S].
      { exfalso. apply Y1. apply (EcGroup.self_neg F (m 0) (m 1) (eadd p Hp) (emul p Hp) (esub p Hp) (eopp p Hp) (ediv p Hp) (einv p Hp) FT ed two _ S). }
      assert (N2 : m (v p y1 * 2) <> m 0).
      { unfold m. rewrite mk_mul. rewrite mk_v. fold m. rewrite m2. apply (EcGroup.mul_ne F (m 0) (m 1) (eadd p Hp) (emul p Hp) (esub p Hp) (eopp p Hp) (ediv p Hp) (einv p Hp) FT ed); auto. apply two. }
      destruct (invert_ne' _ N2) as (i & Ei & Mi). rewrite Ei. cbn [bind]. apply fin_rep.
      unfold m. rewrite mk_mod, mk_mul, mk_sub, !mk_mul, !mk_v. fold m. rewrite Mi.
      revert N2. unfold m. rewrite mk_mul, mk_v. fold m. rewrite m2. intros N2. unfold EcGroup.f'. rewrite ma, m3. unfold F, m in *. pose proof two as TW. unfold m in TW. field. split; assumption.
    + replace (v p x1 - v p x1 =? 0) with true by (symmetry; apply Z.eqb_eq; lia).
      assert (NY : y1 = eopp p Hp y2).
      { cbn [EcGroup.on] in HP, HQ. destruct (EcGroup.same_x F (m 0) (m 1) (eadd p Hp) (emul p Hp) (esub p Hp) (eopp p Hp) (ediv p Hp) (einv p Hp) FT ed (m 1) (m 0) (m a) (m b) one x1 y1 y2 HP HQ) as [K|K]; auto. congruence. }
      destruct (ed y1 (eopp p Hp y2)) as [|S]; [reflexivity|contradiction].
  - assert (NV : v p x1 <> v p x2) by (intros K; apply E, (v_inj p _ _ K)). destruct (Z.eqb_spec (v p x1) (v p x2)) as [K|_]; [contradiction|]. cbn [andb].
    destruct (Z.eqb_spec (v p x2 - v p x1) 0) as [K|_]; [lia|].
    assert (N2 : m (v p x2 - v p x1) <> m 0).
    { unfold m. rewrite mk_sub, !mk_v. fold m. apply (EcGroup.sub_ne F (m 0) (m 1) (eadd p Hp) (emul p Hp) (esub p Hp) (eopp p Hp) (ediv p Hp) (einv p Hp) FT). congruence. }
    destruct (invert_ne' _ N2) as (i & Ei & Mi). rewrite Ei. cbn [bind]. apply fin_rep.
    unfold m. rewrite mk_mod, mk_mul, mk_sub, !mk_v. fold m. rewrite Mi. revert N2. unfold m. rewrite mk_sub, !mk_v. fold m. intros N2. unfold F, m in *. field. exact N2.
Qed.
Lemma nist_thrown x y : ON (Af x y) -> y = m 0 -> nist_add (v p x, v p y) (v p x, v p y) p = Thrown.
Proof.
  intros H Y. unfold nist_add. rewrite (origin_off _ _ H). rewrite !Z.eqb_refl. cbn [andb]. unfold invert. rewrite invert_mod_zero; auto.
  apply v_0 in Y. rewrite Y. reflexivity.
Qed.
Lemma nrep_on P : ON P -> nrep P = (0, 0) \/ exists x y, nrep P = (x, y) /\ 0 <= x < p /\ 0 <= y < p /\ eqm p (y * y) (x * x * x + a * x + b).
Proof.
  intros H. destruct P as [|x y]; [left; reflexivity|right]. exists (v p x), (v p y). split; [reflexivity|]. split; [apply v_range|]. split; [apply v_range|].
  cbn [EcGroup.on] in H. apply (mk_eq p Hp). rewrite !mk_add, !mk_mul, !mk_v. fold m. unfold EcGroup.f in H.
  transitivity (m 1 [*] (y [*] y)); [unfold F, m; ring|]. fold F in H. rewrite H. unfold F, m. ring.
Qed.
Lemma on_z x y : 0 <= x < p -> 0 <= y < p -> eqm p (y * y) (x * x * x + a * x + b) -> ON (Af (m x) (m y)) /\ v p (m x) = x /\ v p (m y) = y.
Proof.
  intros X Y H. split.
  - cbn [EcGroup.on]. apply (mk_eq p Hp) in H. rewrite !mk_add, !mk_mul in H. fold m in H. unfold EcGroup.f. transitivity (m y [*] m y); [unfold F, m; ring|]. fold F. rewrite H. unfold F, m. ring.
  - unfold m. rewrite !v_mk, !Z.mod_small by lia. auto.
Qed.
Lemma padd_on' P Q : ON P -> ON Q -> ON (PA P Q).
Proof. apply (EcGroup.padd_on F (m 0) (m 1) (eadd p Hp) (emul p Hp) (esub p Hp) (eopp p Hp) (ediv p Hp) (einv p Hp) FT ed (m 1) (m 0) (m a) (m b) two one). Qed.
End Nist.
