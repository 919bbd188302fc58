(** The projective x-only formulas of the Montgomery ladder compute doublings and differential
    additions of the group law on b y^2 = x^3 + a x^2 + x (EcGroup), in every case. *)
From Coq Require Import Field Ring Setoid.
From Verif Require Import EcGroup.

Section Mont.
Variable F : Type.
Variables (O I : F) (add mul sub : F -> F -> F) (opp : F -> F) (div : F -> F -> F) (inv : F -> F).
Hypothesis FT : field_theory O I add mul sub opp div inv (@eq F).
Hypothesis eq_dec : forall x y : F, {x = y} + {x <> y}.
Add Field FF : FT.
Declare Scope M_scope.
Infix "+" := add : M_scope. Infix "*" := mul : M_scope. Infix "-" := sub : M_scope. Infix "/" := div : M_scope. Notation "- x" := (opp x) : M_scope.
Notation "0" := O : M_scope. Notation "1" := I : M_scope.
Local Open Scope M_scope.
Variables b a : F.
Hypothesis two : 1 + 1 <> 0.
Hypothesis bne : b <> 0.
Hypothesis disc : a * a <> (1 + 1) * (1 + 1).
Notation f := (EcGroup.f F add mul a 1 0).
Notation f' := (EcGroup.f' F 1 add mul a 1).
Notation ON := (EcGroup.on F add mul b a 1 0).
Notation PA := (EcGroup.padd F 1 add mul sub opp div eq_dec b a 1).
Notation NEG := (EcGroup.neg F opp).
Notation third := (EcGroup.third F mul sub b a).
Notation Af := (Aff F).
Notation mul_ne := (EcGroup.mul_ne F O I add mul sub opp div inv FT eq_dec).
Notation mul_0 := (EcGroup.mul_0 F O I add mul sub opp div inv FT eq_dec).
Notation sub_ne := (EcGroup.sub_ne F O I add mul sub opp div inv FT).
Notation cancel := (EcGroup.cancel F O I add mul sub opp div inv FT eq_dec).

Lemma one : 1 <> 0. Proof. exact (F_1_neq_0 FT). Qed.
Lemma f_eq x : f x = x * (x * x + a * x + 1). Proof. unfold EcGroup.f. ring. Qed.
Lemma smooth x : f x = 0 -> f' x <> 0.
Proof.
  rewrite f_eq. intros H. apply mul_0 in H as [->|H].
  - unfold EcGroup.f'. intros K. apply one. rewrite <- K. ring.
  - intros K. assert (K' : x * ((1 + 1) * x + a) = 0).
    { transitivity (f' x - (x * x + a * x + 1)); [unfold EcGroup.f'; ring|]. rewrite K, H. ring. }
    apply mul_0 in K' as [->|K'].
    + apply one. rewrite <- H. ring.
    + apply disc. transitivity (a * a - ((1 + 1) * x + a) * ((1 + 1) * x + a) + (1 + 1) * (1 + 1) * (x * x + a * x + 1)); [rewrite K', H; ring|].
      transitivity ((1 + 1) * (1 + 1) + 0 * 0); ring.
Qed.
(** A projective pair stands for the abscissa of a point. *)
Definition repr (X Z : F) (Q : pt F) : Prop :=
  match Q with Inf _ => Z = 0 /\ X <> 0 | Aff _ x _ => Z <> 0 /\ X = x * Z end.

Lemma dbl X Z Q : ON Q -> repr X Z Q ->
  repr ((X * X - Z * Z) * (X * X - Z * Z)) ((1 + 1) * (1 + 1) * (X * Z) * (X * X + a * (X * Z) + Z * Z)) (PA Q Q).
Proof.
  intros HQ R. destruct Q as [|x y].
  - destruct R as [-> N]. cbn [EcGroup.padd repr]. split; [ring|]. intros K. apply N.
    assert (K' : X * X * (X * X) = 0) by (rewrite <- K; ring). apply mul_0 in K' as [K'|K']; apply mul_0 in K' as [K'|K']; exact K'.
  - destruct R as [N ->]. cbn [EcGroup.on] in HQ. destruct (eq_dec y 0) as [->|Y].
    + assert (H0 : x * (x * x + a * x + 1) = 0) by (rewrite <- f_eq, <- HQ; ring).
      cbn [EcGroup.padd]. destruct (eq_dec x x) as [_|D]; [|congruence]. destruct (eq_dec 0 (- 0)) as [_|D]; [|exfalso; apply D; ring]. cbn [repr]. split.
      * transitivity ((1 + 1) * (1 + 1) * (x * (x * x + a * x + 1)) * (Z * Z * (Z * Z))); [ring|]. rewrite H0. ring.
      * intros K. assert (K' : (x * x - 1) * (x * x - 1) * (Z * Z * (Z * Z)) = 0) by (rewrite <- K; ring).
        apply mul_0 in K' as [K'|K']; [|revert K'; apply mul_ne; apply mul_ne; exact N].
        assert (X1 : x * x - 1 = 0) by (apply mul_0 in K' as [K'|K']; exact K').
        apply mul_0 in H0 as [->|H0]; [apply one; transitivity (0 * 0 - (0 * 0 - 1)); [ring|rewrite X1; ring]|].
        assert (H1 : a * x = - (1 + 1)) by (transitivity ((x * x + a * x + 1) - (x * x - 1) - (1 + 1)); [ring|rewrite H0, X1; ring]).
        apply disc. transitivity (a * x * (a * x) - a * a * (x * x - 1)); [ring|]. rewrite X1, H1. ring.
    + rewrite (EcGroup.padd_tangent F O I add mul sub opp div inv FT eq_dec b a 1 two x y Y). unfold EcGroup.third. cbn [repr].
      assert (B : b * (y * y) <> 0) by (apply mul_ne; [exact bne|apply mul_ne; exact Y]).
      assert (D : x * (x * x + a * x + 1) <> 0) by (rewrite <- f_eq, <- HQ; exact B).
      assert (T4 : (1 + 1) * (1 + 1) <> 0) by (apply mul_ne; exact two).
      assert (Z4 : Z * Z * (Z * Z) <> 0) by (apply mul_ne; apply mul_ne; exact N).
      assert (E : (1 + 1) * (1 + 1) * (x * Z * Z) * (x * Z * (x * Z) + a * (x * Z * Z) + Z * Z) = (1 + 1) * (1 + 1) * (x * (x * x + a * x + 1)) * (Z * Z * (Z * Z))) by ring.
      rewrite E. split; [apply mul_ne; [apply mul_ne; assumption|exact Z4]|].
      assert (S : b * (f' x / ((1 + 1) * b * y) * (f' x / ((1 + 1) * b * y))) = f' x * f' x / ((1 + 1) * (1 + 1) * (b * (y * y)))) by (field; repeat split; assumption).
      rewrite S, HQ, f_eq.
      apply (cancel ((1 + 1) * (1 + 1) * (x * (x * x + a * x + 1)))); [apply mul_ne; assumption|].
      assert (Nx : x <> 0) by (intros ->; apply D; ring). assert (Nq : x * x + a * x + 1 <> 0) by (intros K; apply D; rewrite K; ring).
      unfold EcGroup.f'. field. repeat split; assumption.
Qed.
Lemma dadd x1 y1 X2 Z2 X3 Z3 Q R : x1 <> 0 -> ON (Af x1 y1) -> ON Q -> PA Q (Af x1 y1) = R -> repr X2 Z2 Q -> repr X3 Z3 R ->
  repr ((1 + 1) * (1 + 1) * ((X2 * X3 - Z2 * Z3) * (X2 * X3 - Z2 * Z3))) (x1 * ((1 + 1) * (1 + 1) * ((X3 * Z2 - Z3 * X2) * (X3 * Z2 - Z3 * X2)))) (PA Q R).
Proof.
  intros X1 HP HQ HR R2 R3. assert (T4 : (1 + 1) * (1 + 1) <> 0) by (apply mul_ne; exact two).
  assert (OR : ON R) by (rewrite <- HR; apply (EcGroup.padd_on F O I add mul sub opp div inv FT eq_dec b a 1 0 two bne); assumption).
  assert (HP' : PA R (NEG Q) = Af x1 y1).
  { rewrite <- HR. rewrite (EcGroup.padd_comm F O I add mul sub opp div inv FT eq_dec b a 1 0 two bne Q _ HQ HP).
    apply (EcGroup.padd_cancel F O I add mul sub opp div inv FT eq_dec b a 1 0 two bne smooth); assumption. }
  destruct Q as [|x2 y2].
  - cbn [EcGroup.padd] in HR. subst R. destruct R2 as [-> N2], R3 as [N3 ->]. cbn [EcGroup.padd repr].
    assert (E : x1 * ((1 + 1) * (1 + 1) * ((x1 * Z3 * 0 - Z3 * X2) * (x1 * Z3 * 0 - Z3 * X2))) = x1 * ((1 + 1) * (1 + 1) * ((Z3 * X2) * (Z3 * X2)))) by ring.
    rewrite E. split; [apply mul_ne; [exact X1|apply mul_ne; [exact T4|apply mul_ne; apply mul_ne; assumption]]|ring].
  - destruct R as [|x3 y3].
    + destruct R3 as [-> N3], R2 as [N2 ->]. cbn [EcGroup.padd EcGroup.neg repr] in *. injection HP' as -> _.
      assert (E : x1 * ((1 + 1) * (1 + 1) * ((X3 * Z2 - 0 * (x1 * Z2)) * (X3 * Z2 - 0 * (x1 * Z2)))) = x1 * ((1 + 1) * (1 + 1) * ((X3 * Z2) * (X3 * Z2)))) by ring.
      rewrite E. split; [apply mul_ne; [exact X1|apply mul_ne; [exact T4|apply mul_ne; apply mul_ne; assumption]]|ring].
    + destruct R3 as [N3 ->], R2 as [N2 ->]. cbn [EcGroup.on] in HQ, OR. destruct (eq_dec x2 x3) as [E|E].
      * subst x3. destruct (EcGroup.same_x F O I add mul sub opp div inv FT eq_dec b a 1 0 bne x2 y2 y3 HQ OR) as [->| ->].
        { exfalso. cbn [EcGroup.neg] in HP'. rewrite (EcGroup.padd_opp F O I add mul sub opp div inv FT eq_dec) in HP'. discriminate. }
        assert (PQ : PA (Af x2 (- y3)) (Af x2 y3) = Inf F).
        { rewrite <- (EcGroup.neg_neg F O I add mul sub opp div inv FT y3) at 2. apply (EcGroup.padd_opp F O I add mul sub opp div inv FT eq_dec). }
        rewrite PQ. cbn [repr]. split; [ring|]. intros K.
        assert (K' : (1 + 1) * (1 + 1) * (((x2 * x2 - 1) * (Z2 * Z3)) * ((x2 * x2 - 1) * (Z2 * Z3))) = 0) by (rewrite <- K; ring).
        apply mul_0 in K' as [K'|K']; [contradiction|]. assert (K1 : (x2 * x2 - 1) * (Z2 * Z3) = 0) by (apply mul_0 in K' as [K'|K']; exact K').
        apply mul_0 in K1 as [K1|K1]; [|revert K1; apply mul_ne; assumption].
        cbn [EcGroup.neg] in HP'. rewrite (EcGroup.neg_neg F O I add mul sub opp div inv FT) in HP'.
        assert (RR : repr 1 1 (Af 1 0) -> True) by trivial. clear RR.
        assert (RX : repr x2 1 (Af x2 y3)) by (split; [exact one|ring]).
        pose proof (dbl x2 1 (Af x2 y3) OR RX) as D. rewrite HP' in D. cbn [repr] in D. destruct D as [D1 D2].
        assert (Z0 : x1 * ((1 + 1) * (1 + 1) * (x2 * 1) * (x2 * x2 + a * (x2 * 1) + 1 * 1)) = 0) by (rewrite <- D2; transitivity ((x2 * x2 - 1) * (x2 * x2 - 1)); [ring|rewrite K1; ring]).
        apply mul_0 in Z0 as [Z0|Z0]; contradiction.
      * assert (D : x3 - x2 <> 0) by (apply sub_ne; congruence). assert (D' : x2 - x3 <> 0) by (apply sub_ne; exact E).
        rewrite (EcGroup.padd_chord F O I add mul sub opp div inv FT eq_dec b a 1 x2 y2 x3 y3 D). cbn [EcGroup.neg] in HP'.
        rewrite (EcGroup.padd_chord F O I add mul sub opp div inv FT eq_dec b a 1 x3 y3 x2 (- y2) D') in HP'. unfold EcGroup.third in *. injection HP' as HX _. cbn [repr].
        set (x5 := b * ((y3 - y2) / (x3 - x2) * ((y3 - y2) / (x3 - x2))) - a - x2 - x3).
        set (d := (x3 - x2) * (x3 - x2)). assert (DD : d <> 0) by (apply mul_ne; exact D).
        set (S := f x2 + f x3 - (a + x2 + x3) * d).
        assert (E1 : x1 * d = S + (1 + 1) * (b * y2 * y3)) by (rewrite <- HX; unfold S; rewrite <- HQ, <- OR; unfold d; field; exact D').
        assert (E5 : x5 * d = S - (1 + 1) * (b * y2 * y3)) by (unfold x5, S; rewrite <- HQ, <- OR; unfold d; field; exact D).
        assert (M : x1 * d * (x5 * d) = d * ((x2 * x3 - 1) * (x2 * x3 - 1))).
        { rewrite E1, E5. transitivity (S * S - (1 + 1) * (1 + 1) * ((b * (y2 * y2)) * (b * (y3 * y3)))); [ring|]. rewrite HQ, OR. unfold S, d, EcGroup.f. ring. }
        assert (M' : x1 * d * x5 = (x2 * x3 - 1) * (x2 * x3 - 1)) by (apply (cancel d); [exact DD|]; rewrite <- M; ring).
        assert (EZ : x1 * ((1 + 1) * (1 + 1) * ((x3 * Z3 * Z2 - Z3 * (x2 * Z2)) * (x3 * Z3 * Z2 - Z3 * (x2 * Z2)))) = (1 + 1) * (1 + 1) * (x1 * d) * ((Z2 * Z3) * (Z2 * Z3))) by (unfold d; ring).
        rewrite EZ. split; [apply mul_ne; [apply mul_ne; [exact T4|apply mul_ne; assumption]|apply mul_ne; apply mul_ne; assumption]|].
        transitivity ((1 + 1) * (1 + 1) * ((x2 * x3 - 1) * (x2 * x3 - 1)) * ((Z2 * Z3) * (Z2 * Z3))); [ring|]. rewrite <- M'. ring.
Qed.
End Mont.
