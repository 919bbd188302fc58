(** C63: the built-in division circuits. *)
From Coq Require Import ZArith NArith List Bool Arith Lia FMapPositive.
From Verif Require Import LinCodeModel CircuitModel CircuitProof CircuitProps CircuitCheck BuiltinProof DivProof CircuitDataDiv.
Import ListNotations.
Open Scope nat_scope.

(** ** Unsigned division: UDiv64Path *)
Definition quotient_check (gm : PositiveMap.t gate) (z : N) (outs : list N) (rows : list drow) : bool :=
  (length outs =? length rows) && forallb (fun p => fun_check gm [dr_nq (snd p); z] (fst p) 5) (combine outs rows).
Lemma quotient_sound : forall gs v, Forall (holds v) gs -> forall z outs rows, quotient_check (gate_map gs) z outs rows = true ->
  numh v outs = quotient v rows /\ length outs = length rows.
Proof.
  intros gs v Hv z outs rows E. apply andb_true_iff in E. destruct E as [L E]. apply Nat.eqb_eq in L. split; [|exact L].
  rewrite forallb_forall in E.
  assert (K : forall p, In p (combine outs rows) -> v (fst p) = negb (v (dr_nq (snd p)))).
  { intros p Hp. specialize (E p Hp). cbv beta in E.
    rewrite (fun_check_sound gs v Hv _ _ _ E). unfold point. cbn [map number]. destruct (v (dr_nq (snd p))), (v z); reflexivity. }
  clear E. revert rows L K. induction outs as [|o outs IH]; intros [|r rows] L K; try discriminate; [reflexivity|].
  cbn [length] in L. injection L as L. rewrite numh_cons. cbn [quotient]. rewrite L, (IH rows L).
  - specialize (K (o, r) (or_introl eq_refl)). cbn [fst snd] in K. rewrite K. reflexivity.
  - intros p Hp. apply K. right. exact Hp.
Qed.
Lemma udiv_high : or_check (gate_map udivide64_gates) (skipn (S (length (@nil N))) (wires_from 64 64)) udivide64_high = true.
Proof. vm_compute. reflexivity. Qed.
Lemma udiv_rows : div_rows (gate_map udivide64_gates) (rev (wires_from 0 64)) (wires_from 64 64) udivide64_high [] udivide64_rows = true.
Proof. vm_compute. reflexivity. Qed.
Lemma udiv_out : quotient_check (gate_map udivide64_gates) 0 (rev (wires_from 17016 64)) udivide64_rows = true.
Proof. vm_compute. reflexivity. Qed.
Lemma udiv_runnable : runnable_b udivide64 = true.
Proof. vm_compute. reflexivity. Qed.
(** The quotient; dividing by 0 gives all ones. *)
Theorem udiv64_correct : forall a b o, (a < 2 ^ 64)%N -> (b < 2 ^ 64)%N ->
  run_span 64 udivide64 [a; b] [o] = Val [if (b =? 0)%N then (2 ^ 64 - 1)%N else (a / b)%N].
Proof.
  intros a b o Ha Hb.
  destruct (run_one udivide64 [a; b] o (fun x => x = if (b =? 0)%N then (2 ^ 64 - 1)%N else (a / b)%N) 64) as [? [E ->]];
    [exact udiv_runnable|reflexivity|reflexivity|reflexivity|split; [reflexivity|discriminate]|repeat constructor; assumption| |exact E].
  intros v Hg Hi. pose proof (Hi 0 ltac:(cbn; lia)) as H0. pose proof (Hi 1 ltac:(cbn; lia)) as H1. cbn [nth] in H0, H1.
  change (N.of_nat (0 * 64)) with 0%N in H0. change (N.of_nat (1 * 64)) with 64%N in H1.
  destruct (quotient_sound _ v Hg _ _ _ udiv_out) as [Q L]. unfold numh in Q. rewrite rev_involutive in Q.
  change (nw udivide64 - 64)%N with 17016%N. change (N.to_nat 64) with 64.
  apply N2Z.inj. change (Z.of_N (number (map v (wires_from 17016 64)))) with (num v (wires_from 17016 64)). rewrite Q.
  assert (HD : num v (wires_from 64 64) = Z.of_N b) by (unfold num; rewrite H1; reflexivity).
  assert (HA : numh v (rev (wires_from 0 64)) = Z.of_N a) by (unfold numh, num; rewrite rev_involutive, H0; reflexivity).
  destruct (N.eqb_spec b 0) as [->|Hn].
  - pose proof (div_rows_zero _ v Hg _ _ _ _ _ udiv_high udiv_rows HD) as Z0.
    assert (G : forall rows, Forall (fun r => v (dr_nq r) = false) rows -> quotient v rows = (2 ^ Z.of_nat (length rows) - 1)%Z).
    { induction 1 as [|r rows Hr H IH]; [reflexivity|]. cbn [quotient length]. rewrite Hr, IH. cbn [negb b2z].
      rewrite Nat2Z.inj_succ, Z.pow_succ_r by lia. lia. }
    rewrite (G _ Z0), <- L. reflexivity.
  - destruct (div_rows_sound _ v Hg _ _ _ _ _ udiv_high udiv_rows) as [_ K]; [lia|change (num v []) with 0%Z; lia|].
    rewrite K. change (num v []) with 0%Z. rewrite HD, HA, Z.mul_0_l, Z.add_0_l, N2Z.inj_div. reflexivity.
Qed.
Print Assumptions udiv64_correct.
