(** The group law on b y^2 = x^3 + a2 x^2 + a4 x + a6 over a field with 2 <> 0: the chord and
    tangent addition is commutative and associative, with inverses.  The line through two
    points is given by its slope s with y2 - y1 = s (x2 - x1) and
    b s (y1 + y2) = x1^2 + x1 x2 + x2^2 + a2 (x1 + x2) + a4, which covers chords and tangents. *)
From Coq Require Import Field Ring Setoid.

Section Curve.
Variable F : Type.
Variables (O I : F) (add mul sub : F -> F -> F) (opp : F -> F) (div : F -> F -> F) (inv : F -> F).
Hypothesis FT : field_theory O I add mul sub opp div inv (@eq F).
Hypothesis eq_dec : forall x y : F, {x = y} + {x <> y}.
Add Field FF : FT.
Declare Scope F_scope.
Infix "+" := add : F_scope. Infix "*" := mul : F_scope. Infix "-" := sub : F_scope. Infix "/" := div : F_scope. Notation "- x" := (opp x) : F_scope.
Notation "0" := O : F_scope. Notation "1" := I : F_scope.
Local Open Scope F_scope.
Variables b a2 a4 a6 : F.
Hypothesis two : 1 + 1 <> 0.
Hypothesis bne : b <> 0.

Definition f (x : F) : F := x * x * x + a2 * (x * x) + a4 * x + a6.
Definition f' (x : F) : F := (1 + 1 + 1) * (x * x) + (1 + 1) * a2 * x + a4.
(** No singular point. *)
Hypothesis smooth : forall x, f x = 0 -> f' x <> 0.

Inductive pt := Inf | Aff (x y : F).
Definition on (P : pt) : Prop := match P with Inf => True | Aff x y => b * (y * y) = f x end.
Definition neg (P : pt) : pt := match P with Inf => Inf | Aff x y => Aff x (- y) end.
Definition third (s x1 y1 x2 : F) : pt := let x3 := b * (s * s) - a2 - x1 - x2 in Aff x3 (s * (x1 - x3) - y1).
Definition padd (P Q : pt) : pt :=
  match P, Q with
  | Inf, _ => Q
  | _, Inf => P
  | Aff x1 y1, Aff x2 y2 =>
      if eq_dec x1 x2 then
        if eq_dec y1 (- y2) then Inf else third (f' x1 / ((1 + 1) * b * y1)) x1 y1 x2
      else third ((y2 - y1) / (x2 - x1)) x1 y1 x2
  end.

(** ** Field lemmas *)
Lemma mul_0 x y : x * y = 0 -> x = 0 \/ y = 0.
Proof.
  intros H. destruct (eq_dec x 0) as [E|E]; [left; exact E|right].
  transitivity (x * y / x); [field; exact E|]. rewrite H. field. exact E.
Qed.
Lemma mul_ne x y : x <> 0 -> y <> 0 -> x * y <> 0.
Proof. intros X Y H. apply mul_0 in H as [H|H]; auto. Qed.
Lemma sub_0 x y : x - y = 0 -> x = y.
Proof. intros H. transitivity (x - y + y); [ring|]. rewrite H. ring. Qed.
Lemma sub_ne x y : x <> y -> x - y <> 0.
Proof. intros H E. apply H, sub_0, E. Qed.
Lemma eq_sub x y : x = y -> x - y = 0. Proof. intros ->. ring. Qed.
Lemma cancel k x y : k <> 0 -> k * x = k * y -> x = y.
Proof. intros K H. apply sub_0. assert (E : k * (x - y) = 0) by (replace (k * (x - y)) with (k * x - k * y) by ring; rewrite H; ring). apply mul_0 in E as [E|E]; [contradiction|exact E]. Qed.
Lemma self_neg y : y = - y -> y = 0.
Proof. intros H. assert (E : (1 + 1) * y = 0) by (transitivity (y + y); [ring|rewrite H at 2; ring]). apply mul_0 in E as [E|E]; [contradiction|exact E]. Qed.
Lemma neg_neg y : - - y = y. Proof. ring. Qed.

(** ** Slopes *)
Definition slope (x1 y1 x2 y2 s : F) : Prop :=
  y2 - y1 = s * (x2 - x1) /\ b * s * (y1 + y2) = x1 * x1 + x1 * x2 + x2 * x2 + a2 * (x1 + x2) + a4.
Lemma same_x x1 y1 y2 : b * (y1 * y1) = f x1 -> b * (y2 * y2) = f x1 -> y1 = y2 \/ y1 = - y2.
Proof.
  intros H1 H2. assert (E : b * ((y1 - y2) * (y1 + y2)) = 0) by (replace (b * ((y1 - y2) * (y1 + y2))) with (b * (y1 * y1) - b * (y2 * y2)) by ring; rewrite H1, H2; ring).
  apply mul_0 in E as [E|E]; [contradiction|]. apply mul_0 in E as [E|E]; [left; apply sub_0; exact E|right].
  apply sub_0. rewrite <- E. ring.
Qed.
Lemma slope_ex x1 y1 x2 y2 : b * (y1 * y1) = f x1 -> b * (y2 * y2) = f x2 -> ~ (x1 = x2 /\ y1 = - y2) -> exists s, slope x1 y1 x2 y2 s.
Proof.
  intros H1 H2 N. destruct (eq_dec x1 x2) as [E|E].
  - subst x2. destruct (same_x _ _ _ H1 H2) as [Ey|Ey]; [|exfalso; apply N; auto]. subst y2.
    assert (Y : y1 <> 0) by (intros Y; apply N; split; [reflexivity|]; rewrite Y; ring).
    exists (f' x1 / ((1 + 1) * b * y1)). split; [ring|]. unfold f'. field. repeat split; auto.
  - exists ((y2 - y1) / (x2 - x1)). assert (D : x2 - x1 <> 0) by (apply sub_ne; congruence). split; [field; exact D|].
    apply (cancel (x2 - x1)); [exact D|]. transitivity (b * (y2 * y2) - b * (y1 * y1)); [field; exact D|]. rewrite H1, H2. unfold f. ring.
Qed.
Lemma padd_slope x1 y1 x2 y2 s : b * (y1 * y1) = f x1 -> b * (y2 * y2) = f x2 -> ~ (x1 = x2 /\ y1 = - y2) -> slope x1 y1 x2 y2 s ->
  padd (Aff x1 y1) (Aff x2 y2) = third s x1 y1 x2.
Proof.
  intros H1 H2 N [S1 S2]. cbn [padd]. destruct (eq_dec x1 x2) as [E|E].
  - subst x2. destruct (eq_dec y1 (- y2)) as [Q|Q]; [exfalso; apply N; auto|]. destruct (same_x _ _ _ H1 H2) as [Ey|Ey]; [|contradiction]. subst y2.
    assert (Y : y1 <> 0) by (intros Y; apply Q; rewrite Y; ring).
    replace (f' x1 / ((1 + 1) * b * y1)) with s; [reflexivity|].
    transitivity (b * s * (y1 + y1) / ((1 + 1) * b * y1)); [field; auto|]. rewrite S2. unfold f'. field. auto.
  - assert (D : x2 - x1 <> 0) by (apply sub_ne; congruence). replace ((y2 - y1) / (x2 - x1)) with s; [reflexivity|]. rewrite S1. field. exact D.
Qed.
Lemma third_on x1 y1 x2 y2 s : b * (y1 * y1) = f x1 -> slope x1 y1 x2 y2 s -> on (third s x1 y1 x2).
Proof.
  intros H1 [S1 S2]. cbn [third on].
  assert (E2 : y2 = y1 + s * (x2 - x1)) by (rewrite <- S1; ring).
  assert (E4 : a4 = b * s * (y1 + y2) - (x1 * x1 + x1 * x2 + x2 * x2 + a2 * (x1 + x2))) by (rewrite S2; ring).
  assert (E6 : a6 = b * (y1 * y1) - (x1 * x1 * x1 + a2 * (x1 * x1) + a4 * x1)) by (rewrite H1; unfold f; ring).
  unfold f. rewrite E6, E4, E2. ring.
Qed.

(** ** Group laws but associativity *)
Lemma neg_on P : on P -> on (neg P).
Proof. destruct P as [|x y]; cbn [on neg]; auto. intros <-. ring. Qed.
Lemma padd_on P Q : on P -> on Q -> on (padd P Q).
Proof.
  destruct P as [|x1 y1], Q as [|x2 y2]; auto. intros H1 H2. cbn [on] in H1, H2.
  destruct (eq_dec x1 x2) as [E|E]; [destruct (eq_dec y1 (- y2)) as [Q|Q]|].
  - cbn [padd]. destruct (eq_dec x1 x2); [|contradiction]. destruct (eq_dec y1 (- y2)); [exact Logic.I|contradiction].
  - assert (N : ~ (x1 = x2 /\ y1 = - y2)) by tauto. destruct (slope_ex _ _ _ _ H1 H2 N) as (s & S). rewrite (padd_slope _ _ _ _ s) by auto. eapply third_on; eauto.
  - assert (N : ~ (x1 = x2 /\ y1 = - y2)) by tauto. destruct (slope_ex _ _ _ _ H1 H2 N) as (s & S). rewrite (padd_slope _ _ _ _ s) by auto. eapply third_on; eauto.
Qed.
Lemma slope_sym x1 y1 x2 y2 s : slope x1 y1 x2 y2 s -> slope x2 y2 x1 y1 s.
Proof. intros [A B]. split; [transitivity (- (y2 - y1)); [ring|]; rewrite A; ring|]. transitivity (b * s * (y1 + y2)); [ring|]. rewrite B. ring. Qed.
Lemma neg_case (x1 y1 x2 y2 : F) : {x1 = x2 /\ y1 = - y2} + {~ (x1 = x2 /\ y1 = - y2)}.
Proof. destruct (eq_dec x1 x2), (eq_dec y1 (- y2)); tauto. Qed.
Lemma padd_opp x y : padd (Aff x y) (Aff x (- y)) = Inf.
Proof. cbn [padd]. destruct (eq_dec x x); [|congruence]. destruct (eq_dec y (- - y)) as [_|H]; auto. exfalso. apply H. ring. Qed.
Lemma padd_neg P : padd P (neg P) = Inf.
Proof. destruct P as [|x y]; [reflexivity|]. apply padd_opp. Qed.
Lemma padd_comm P Q : on P -> on Q -> padd P Q = padd Q P.
Proof.
  destruct P as [|x1 y1], Q as [|x2 y2]; auto. intros H1 H2. cbn [on] in H1, H2. destruct (neg_case x1 y1 x2 y2) as [[E1 E2]|N].
  - subst. rewrite padd_opp. pose proof (padd_opp x2 (- y2)) as E. rewrite neg_neg in E. exact E.
  - assert (N' : ~ (x2 = x1 /\ y2 = - y1)) by (intros [E1 E2]; apply N; subst; split; [reflexivity|ring]).
    destruct (slope_ex _ _ _ _ H1 H2 N) as (s & S). rewrite (padd_slope _ _ _ _ s H1 H2 N S), (padd_slope _ _ _ _ s H2 H1 N' (slope_sym _ _ _ _ _ S)).
    destruct S as [S1 _]. assert (E2 : y2 = y1 + s * (x2 - x1)) by (rewrite <- S1; ring). unfold third. f_equal; [ring|]. rewrite E2. ring.
Qed.
Lemma neg_padd P Q : on P -> on Q -> neg (padd P Q) = padd (neg P) (neg Q).
Proof.
  destruct P as [|x1 y1], Q as [|x2 y2]; auto. intros H1 H2. cbn [on] in H1, H2. cbn [neg]. destruct (neg_case x1 y1 x2 y2) as [[E1 E2]|N].
  - subst. pose proof (padd_opp x2 (- y2)) as E. rewrite neg_neg in E. rewrite E. rewrite neg_neg, padd_opp. reflexivity.
  - destruct (slope_ex _ _ _ _ H1 H2 N) as (s & S). rewrite (padd_slope _ _ _ _ s H1 H2 N S).
    assert (S' : slope x1 (- y1) x2 (- y2) (- s)).
    { destruct S as [S1 S2]. split; [transitivity (- (y2 - y1)); [ring|]; rewrite S1; ring|]. rewrite <- S2. ring. }
    rewrite (padd_slope _ _ _ _ (- s)); auto.
    + unfold third. cbn [neg]. f_equal; ring.
    + rewrite <- H1. ring.
    + rewrite <- H2. ring.
    + intros [E1 E2]. apply N. split; auto. transitivity (- - y1); [ring|]. rewrite E2. ring.
Qed.
Lemma neg_invol P : neg (neg P) = P.
Proof. destruct P as [|x y]; cbn [neg]; auto. f_equal. ring. Qed.
(** (X + Y) - Y = X. *)
Lemma padd_cancel X Y : on X -> on Y -> padd (padd X Y) (neg Y) = X.
Proof.
  intros HX HY. destruct X as [|x1 y1]; [apply padd_neg|]. destruct Y as [|x2 y2]; [reflexivity|]. cbn [on] in HX, HY.
  destruct (neg_case x1 y1 x2 y2) as [[E1 E2]|N].
  - subst. pose proof (padd_opp x2 (- y2)) as E. rewrite neg_neg in E. rewrite E. reflexivity.
  - destruct (slope_ex _ _ _ _ HX HY N) as (s & S). rewrite (padd_slope _ _ _ _ s HX HY N S). pose proof (third_on _ _ _ _ _ HX S) as H3.
    destruct S as [S1 S2]. assert (E2 : y2 = y1 + s * (x2 - x1)) by (rewrite <- S1; ring).
    assert (E4 : a4 = b * s * (y1 + y2) - (x1 * x1 + x1 * x2 + x2 * x2 + a2 * (x1 + x2))) by (rewrite S2; ring).
    unfold third in *. cbn [on neg] in *. set (x3 := b * (s * s) - a2 - x1 - x2) in *. set (y3 := s * (x1 - x3) - y1) in *.
    assert (N3 : ~ (x3 = x2 /\ y3 = - - y2)).
    { intros [Q1 Q2]. assert (Y2 : y2 = 0). { apply self_neg. rewrite <- neg_neg at 1. rewrite <- Q2. unfold y3. rewrite Q1, E2. ring. }
      apply (smooth x2).
      - rewrite <- HY, Y2. ring.
      - unfold f'. rewrite E4. rewrite Y2. assert (Ey : y1 = s * (x1 - x2)) by (apply sub_0; rewrite <- Y2, E2; ring).
        assert (Eb : b * (s * s) = a2 + x1 + x2 + x2). { rewrite <- Q1 at 2. unfold x3. ring. }
        rewrite Ey. replace (b * s * (s * (x1 - x2) + 0)) with (b * (s * s) * (x1 - x2)) by ring. rewrite Eb. ring. }
    rewrite (padd_slope x3 y3 x2 (- y2) (- s)); auto.
    + unfold third. f_equal; unfold y3, x3; ring.
    + rewrite <- HY. ring.
    + split; [unfold y3; rewrite E2; ring|]. rewrite E4, E2. unfold y3, x3. ring.
Qed.

(** ** Associativity *)
Lemma generic x1 x2 x3 s t y2 : s - t <> 0 ->
  b * ((1 + 1) * y2 * (s - t) + s * s * (x1 - x2) - t * t * (x3 - x2)) = (x1 - x3) * (x1 + x2 + x3 + a2) ->
  let y1 := y2 + s * (x1 - x2) in let y3 := y2 + t * (x3 - x2) in
  let x4 := b * (s * s) - a2 - x1 - x2 in let y4 := s * (x1 - x4) - y1 in
  let x5 := b * (t * t) - a2 - x2 - x3 in let y5 := t * (x2 - x5) - y2 in
  x3 - x4 <> 0 -> x5 - x1 <> 0 ->
  third ((y3 - y4) / (x3 - x4)) x4 y4 x3 = third ((y5 - y1) / (x5 - x1)) x1 y1 x5.
Proof.
  intros Hst R.
  assert (E : y2 = ((x1 - x3) * (x1 + x2 + x3 + a2) / b - s * s * (x1 - x2) + t * t * (x3 - x2)) / ((1 + 1) * (s - t))).
  { rewrite <- R. field. auto. }
  clear R. intros. unfold third. subst y1 y3 x4 y4 x5 y5. subst y2. f_equal; field; repeat split; assumption.
Qed.
(** C = A + B, but A <> B + C. *)
Lemma tangent1 x1 x2 s y1 : 
  let y2 := y1 + s * (x2 - x1) in
  let k4 := b * s * (y1 + y2) - (x1 * x1 + x1 * x2 + x2 * x2 + a2 * (x1 + x2)) in
  let x3 := b * (s * s) - a2 - x1 - x2 in let y3 := s * (x1 - x3) - y1 in
  x3 - x2 <> 0 -> y3 <> 0 -> let t := (y3 - y2) / (x3 - x2) in
  let x5 := b * (t * t) - a2 - x2 - x3 in let y5 := t * (x2 - x5) - y2 in
  x5 - x1 <> 0 ->
  third (((1 + 1 + 1) * (x3 * x3) + (1 + 1) * a2 * x3 + k4) / ((1 + 1) * b * y3)) x3 y3 x3 = third ((y5 - y1) / (x5 - x1)) x1 y1 x5.
Proof.
  intros. unfold third. subst x5 y5 t k4 y2 y3 x3. f_equal; field; repeat split; try assumption.
  all: intros Q; apply H1; set (d := b * (s * s) - a2 - x1 - x2 - x2) in *; match type of Q with ?e = _ => transitivity (e / (d * d)); [field; exact H|] end; rewrite Q; field; exact H.
Qed.
(** B = -B, C = A + B. *)
Lemma tangent2 x1 x2 s :
  let y1 := s * (x1 - x2) in
  let k4 := b * s * y1 - (x1 * x1 + x1 * x2 + x2 * x2 + a2 * (x1 + x2)) in
  let x3 := b * (s * s) - a2 - x1 - x2 in let y3 := s * (x1 - x3) - y1 in
  y1 <> 0 -> y3 <> 0 ->
  third (((1 + 1 + 1) * (x3 * x3) + (1 + 1) * a2 * x3 + k4) / ((1 + 1) * b * y3)) x3 y3 x3 =
  third (((1 + 1 + 1) * (x1 * x1) + (1 + 1) * a2 * x1 + k4) / ((1 + 1) * b * y1)) x1 y1 x1.
Proof.
  intros y1 k4 x3 y3 H1 H3. unfold third. subst k4 y1 y3 x3. 
  assert (S : s <> 0) by (intros S; apply H1; rewrite S; ring).
  assert (X : x1 - x2 <> 0) by (intros X; apply H1; rewrite X; ring).
  assert (D : x2 - (b * (s * s) - a2 - x1 - x2) <> 0) by (intros D; apply H3; transitivity (s * (x2 - (b * (s * s) - a2 - x1 - x2))); [ring|]; rewrite D; ring).
  f_equal; field; repeat split; try assumption.
Qed.
Lemma padd_chord x1 y1 x2 y2 : x2 - x1 <> 0 -> padd (Aff x1 y1) (Aff x2 y2) = third ((y2 - y1) / (x2 - x1)) x1 y1 x2.
Proof. intros H. cbn [padd]. destruct (eq_dec x1 x2) as [E|E]; auto. exfalso. apply H. rewrite E. ring. Qed.
Lemma padd_tangent x y : y <> 0 -> padd (Aff x y) (Aff x y) = third (f' x / ((1 + 1) * b * y)) x y x.
Proof.
  intros H. cbn [padd]. destruct (eq_dec x x); [|congruence]. destruct (eq_dec y (- y)) as [E|E]; auto. exfalso. apply H. apply self_neg. exact E.
Qed.
(** C = A + B. *)
Lemma assoc_sum A B : on A -> on B -> padd (padd A B) (padd A B) = padd A (padd B (padd A B)).
Proof.
  intros HA HB. destruct A as [|x1 y1]; [reflexivity|]. destruct B as [|x2 y2]; [reflexivity|].
  pose proof (padd_on _ _ HA HB) as HC. destruct (neg_case x1 y1 x2 y2) as [[E1 E2]|N].
  { subst. pose proof (padd_opp x2 (- y2)) as E. rewrite neg_neg in E. rewrite E. change (Inf = padd (Aff x2 (- y2)) (Aff x2 y2)). symmetry. exact E. }
  destruct (slope_ex _ _ _ _ HA HB N) as (s & S). pose proof (padd_slope _ _ _ _ s HA HB N S) as EC. destruct S as [S1 S2].
  assert (E2 : y2 = y1 + s * (x2 - x1)) by (rewrite <- S1; ring).
  assert (E4 : a4 = b * s * (y1 + y2) - (x1 * x1 + x1 * x2 + x2 * x2 + a2 * (x1 + x2))) by (rewrite S2; ring).
  rewrite EC in HC |- *. unfold third in *. set (x3 := b * (s * s) - a2 - x1 - x2) in *. set (y3 := s * (x1 - x3) - y1) in *. cbn [on] in HA, HB, HC.
  (* 2 C = O *)
  destruct (eq_dec y3 0) as [Y3|Y3].
  { assert (Z : padd (Aff x3 y3) (Aff x3 y3) = Inf). { rewrite Y3. pose proof (padd_opp x3 0) as E. replace (- 0) with 0 in E by ring. exact E. }
    rewrite Z. assert (NC : neg (Aff x3 y3) = Aff x3 y3) by (cbn [neg]; f_equal; rewrite Y3; ring).
    pose proof (padd_cancel (Aff x1 y1) (Aff x2 y2) HA HB) as L. rewrite EC in L. fold x3 in L. fold y3 in L.
    assert (K : padd (Aff x2 y2) (Aff x3 y3) = neg (Aff x1 y1)).
    { rewrite <- L. rewrite neg_padd, neg_invol, NC; auto. - apply padd_comm; auto. - apply neg_on. exact HB. }
    rewrite K. symmetry. apply padd_neg. }
  (* B + C = O: then A = - 2B *)
  destruct (neg_case x2 y2 x3 y3) as [[F1 F2]|N2].
  { assert (K : padd (Aff x2 y2) (Aff x3 y3) = Inf). { rewrite F1, F2. pose proof (padd_opp x3 (- y3)) as E. rewrite neg_neg in E. exact E. }
    rewrite K. change (padd (Aff x1 y1) Inf) with (Aff x1 y1).
    pose proof (padd_cancel (Aff x1 y1) (Aff x2 y2) HA HB) as L. rewrite EC in L. fold x3 in L. fold y3 in L.
    rewrite <- L. f_equal. cbn [neg]. rewrite F1, F2. f_equal. ring. }
  assert (D : x3 - x2 <> 0).
  { intros D. apply sub_0 in D. destruct (same_x x2 y2 y3 HB ltac:(rewrite <- D; exact HC)) as [Q|Q]; [|apply N2; auto].
    assert (Z : y3 = - y2) by (unfold y3; rewrite D, E2; ring). apply N2. split; auto. rewrite Z. rewrite <- Q in Z. rewrite neg_neg. reflexivity. }
  rewrite (padd_chord x2 y2 x3 y3 D). rewrite (padd_tangent x3 y3 Y3).
  pose proof (tangent1 x1 x2 s y1) as T. cbv zeta in T. rewrite <- E2 in T. rewrite <- E4 in T. fold x3 in T. fold y3 in T. specialize (T D Y3).
  unfold third at 2. set (t := (y3 - y2) / (x3 - x2)) in *. set (x5 := b * (t * t) - a2 - x2 - x3) in *. set (y5 := t * (x2 - x5) - y2) in *.
  destruct (eq_dec x5 x1) as [X5|X5].
  2: { assert (D5 : x5 - x1 <> 0) by (apply sub_ne; auto). rewrite (padd_chord x1 y1 x5 y5 D5). exact (T D5). }
  clear T.
  assert (H5 : on (Aff x5 y5)).
  { pose proof (padd_on (Aff x2 y2) (Aff x3 y3) HB HC) as H. rewrite (padd_chord x2 y2 x3 y3 D) in H. exact H. }
  assert (E5 : padd (Aff x2 y2) (Aff x3 y3) = Aff x5 y5) by (rewrite (padd_chord x2 y2 x3 y3 D); reflexivity).
  pose proof H5 as H5'. cbn [on] in H5'. rewrite X5 in H5'. destruct (same_x x1 y5 y1 H5' HA) as [Q|Q].
  - (* A = B + C, so B = -B *)
    assert (EA : Aff x5 y5 = Aff x1 y1) by congruence. rewrite EA in E5 |- *.
    assert (K1 : padd (Aff x1 y1) (neg (Aff x2 y2)) = Aff x3 y3).
    { rewrite <- E5 at 1. rewrite (padd_comm (Aff x2 y2) (Aff x3 y3)) by auto. apply padd_cancel; auto. }
    assert (K2 : neg (Aff x2 y2) = Aff x2 y2).
    { pose proof (neg_on (Aff x2 y2) HB) as HB'. pose proof (padd_cancel (neg (Aff x2 y2)) (Aff x1 y1) HB' HA) as L1. rewrite (padd_comm (neg (Aff x2 y2)) (Aff x1 y1)), K1 in L1 by auto.
      pose proof (padd_cancel (Aff x2 y2) (Aff x1 y1) HB HA) as L2. rewrite (padd_comm (Aff x2 y2) (Aff x1 y1)), EC in L2 by auto. unfold third in L2. fold x3 in L2. fold y3 in L2. congruence. }
    cbn [neg] in K2. injection K2 as K2. symmetry in K2. apply self_neg in K2.
    assert (Y1 : y1 = s * (x1 - x2)) by (apply sub_0; rewrite <- K2, E2; ring).
    destruct (eq_dec y1 0) as [Z1|Z1].
    + (* s = 0 or x1 = x2: both impossible *)
      exfalso. rewrite Z1 in Y1. symmetry in Y1. apply mul_0 in Y1 as [Y1|Y1].
      * apply Y3. unfold y3. rewrite Y1, Z1. ring.
      * apply sub_0 in Y1. apply N. split; [exact Y1|]. rewrite Z1, K2. ring.
    + pose proof (tangent2 x1 x2 s) as T. cbv zeta in T. rewrite <- Y1 in T. fold x3 in T. fold y3 in T.
      assert (E4' : b * s * y1 - (x1 * x1 + x1 * x2 + x2 * x2 + a2 * (x1 + x2)) = a4) by (rewrite E4, K2; ring). rewrite E4' in T.
      rewrite (padd_tangent x1 y1 Z1). exact (T Z1 Y3).
  - (* A = -(B + C): the right side is O *)
    exfalso. apply Y3. apply self_neg.
    assert (EA : neg (Aff x5 y5) = Aff x1 y1) by (cbn [neg]; rewrite X5, Q; f_equal; ring). rewrite <- E5, neg_padd in EA by auto.
    pose proof (padd_cancel (neg (Aff x3 y3)) (neg (Aff x2 y2)) (neg_on (Aff x3 y3) HC) (neg_on (Aff x2 y2) HB)) as L.
    rewrite (padd_comm (neg (Aff x3 y3)) (neg (Aff x2 y2))), EA, neg_invol, EC in L by (apply neg_on; auto). unfold third in L. fold x3 in L. fold y3 in L. cbn [neg] in L. injection L as L. exact L.
Qed.

Theorem padd_assoc A B C : on A -> on B -> on C -> padd (padd A B) C = padd A (padd B C).
Proof.
  intros HA HB HC. destruct A as [|x1 y1]; [reflexivity|]. destruct B as [|x2 y2]; [reflexivity|]. destruct C as [|x3 y3]; [change (padd (Aff x2 y2) Inf) with (Aff x2 y2); destruct (padd (Aff x1 y1) (Aff x2 y2)); reflexivity|].
  pose proof (padd_on _ _ HA HB) as HAB. pose proof (padd_on _ _ HB HC) as HBC.
  (* A + B = O *)
  destruct (neg_case x1 y1 x2 y2) as [[E1 E2]|N1].
  { subst. pose proof (padd_opp x2 (- y2)) as E. rewrite neg_neg in E. rewrite E. change (Aff x3 y3 = padd (neg (Aff x2 y2)) (padd (Aff x2 y2) (Aff x3 y3))).
    rewrite (padd_comm (neg (Aff x2 y2))) by (auto using neg_on). rewrite (padd_comm (Aff x2 y2)) by auto. symmetry. apply padd_cancel; auto. }
  (* B + C = O *)
  destruct (neg_case x2 y2 x3 y3) as [[E1 E2]|N2].
  { assert (EC : Aff x3 y3 = neg (Aff x2 y2)) by (cbn [neg]; subst; f_equal; ring). rewrite EC. rewrite padd_neg. apply padd_cancel; auto. }
  destruct (slope_ex _ _ _ _ HA HB N1) as (s & S). pose proof (padd_slope _ _ _ _ s HA HB N1 S) as EAB.
  destruct (slope_ex _ _ _ _ HB HC N2) as (t & T). pose proof (padd_slope _ _ _ _ t HB HC N2 T) as EBC.
  destruct (padd (Aff x1 y1) (Aff x2 y2)) as [|x4 y4] eqn:P4; [discriminate EAB|]. destruct (padd (Aff x2 y2) (Aff x3 y3)) as [|x5 y5] eqn:P5; [discriminate EBC|].
  (* C = A + B or C = -(A + B) *)
  destruct (eq_dec x3 x4) as [X4|X4].
  { subst x4. destruct (same_x x3 y3 y4 HC HAB) as [Y|Y].
    - subst y4. rewrite <- P5, <- P4. apply assoc_sum; auto.
    - assert (EN : Aff x3 y3 = neg (Aff x3 y4)) by (cbn [neg]; f_equal; exact Y). rewrite EN, padd_neg. symmetry. 
      pose proof (padd_cancel (Aff x1 y1) (Aff x2 y2) HA HB) as L. rewrite P4 in L. apply (f_equal neg) in L. rewrite neg_padd, neg_invol, <- EN in L by (auto using neg_on).
      rewrite (padd_comm (Aff x3 y3) (Aff x2 y2)), P5 in L by auto. rewrite L. apply padd_neg. }
  (* A = B + C or A = -(B + C) *)
  destruct (eq_dec x5 x1) as [X5|X5].
  { subst x5. destruct (same_x x1 y5 y1 HBC HA) as [Y|Y].
    - subst y5. rewrite (padd_comm (Aff x4 y4) (Aff x3 y3)) by auto. rewrite <- P4, <- P5 at 1. 
      rewrite (padd_comm (Aff x2 y2) (Aff x3 y3)) by auto. rewrite (padd_comm (padd (Aff x3 y3) (Aff x2 y2)) (Aff x2 y2)) by (auto using padd_on).
      rewrite <- assoc_sum by auto. rewrite (padd_comm (Aff x3 y3) (Aff x2 y2)), P5 by auto. reflexivity.
    - assert (EN : Aff x1 y5 = neg (Aff x1 y1)) by (cbn [neg]; f_equal; exact Y). rewrite EN, padd_neg.
      pose proof (padd_cancel (Aff x3 y3) (Aff x2 y2) HC HB) as L. rewrite (padd_comm (Aff x3 y3) (Aff x2 y2)), P5, EN in L by auto.
      rewrite <- neg_padd, P4 in L by auto. rewrite <- L. apply padd_neg. }
  (* generic *)
  destruct S as [S1 S2], T as [T1 T2].
  assert (Ey1 : y1 = y2 + s * (x1 - x2)) by (transitivity (y2 - (y2 - y1)); [ring|]; rewrite S1; ring).
  assert (Ey3 : y3 = y2 + t * (x3 - x2)) by (rewrite <- T1; ring).
  assert (R : b * ((1 + 1) * y2 * (s - t) + s * s * (x1 - x2) - t * t * (x3 - x2)) = (x1 - x3) * (x1 + x2 + x3 + a2)).
  { transitivity (b * s * (y1 + y2) - b * t * (y2 + y3)); [rewrite Ey1, Ey3; ring|]. rewrite S2, T2. ring. }
  unfold third in EAB, EBC. injection EAB as E4 F4. injection EBC as E5 F5. rewrite <- E4 in F4. rewrite <- E5 in F5.
  destruct (eq_dec s t) as [ST|ST].
  - (* A = C or A, B, C on a line *)
    subst t. assert (Z : (x1 - x3) * (x1 + x2 + x3 + a2 - b * (s * s)) = 0).
    { transitivity ((x1 - x3) * (x1 + x2 + x3 + a2) - b * (s * s) * (x1 - x3)); [ring|]. rewrite <- R. ring. }
    apply mul_0 in Z as [Z|Z].
    + apply sub_0 in Z. subst x3. assert (Y31 : y3 = y1) by (rewrite Ey1, Ey3; reflexivity). rewrite Y31 in *.
      rewrite (padd_comm (Aff x2 y2)) in P5 by auto. rewrite P4 in P5. injection P5 as <- <-. apply padd_comm; auto.
    + exfalso. apply X4. rewrite E4. apply sub_0. rewrite <- Z. ring.
  - pose proof (generic x1 x2 x3 s t y2 (sub_ne _ _ ST) R) as G. cbv zeta in G. rewrite <- Ey1, <- Ey3, <- E4, <- E5, <- F4, <- F5 in G.
    rewrite (padd_chord x4 y4 x3 y3) by (apply sub_ne; auto). rewrite (padd_chord x1 y1 x5 y5) by (apply sub_ne; auto). apply G; apply sub_ne; auto.
Qed.
End Curve.
