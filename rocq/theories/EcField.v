(** The field Z/p as a type, for the elliptic-curve proofs (EcGroup). *)
From Coq Require Import ZArith Bool Lia Znumtheory Field Eqdep_dec.
From Verif Require Import ZpLib.
Open Scope Z_scope.

Section Zp.
Variable p : Z.
Hypothesis Hp : prime p.
Definition E : Type := {x : Z | ((0 <=? x) && (x <? p))%bool = true}.
Definition v (a : E) : Z := proj1_sig a.
Lemma v_range a : 0 <= v a < p.
Proof. destruct a as [x H]. cbn. apply andb_true_iff in H as [H1 H2]. apply Z.leb_le in H1. apply Z.ltb_lt in H2. lia. Qed.
Lemma v_inj a b : v a = v b -> a = b.
Proof. destruct a as [x H], b as [y K]. cbn. intros <-. f_equal. apply UIP_dec. apply bool_dec. Qed.
Lemma mk_ok z : ((0 <=? z mod p) && (z mod p <? p))%bool = true.
Proof. pose proof (prime_pos p Hp). pose proof (Z.mod_pos_bound z p ltac:(lia)). apply andb_true_iff. split; [apply Z.leb_le|apply Z.ltb_lt]; lia. Qed.
Definition mk (z : Z) : E := exist _ (z mod p) (mk_ok z).
Lemma v_mk z : v (mk z) = z mod p. Proof. reflexivity. Qed.
Lemma v_mkm z : eqm p (v (mk z)) z. Proof. rewrite v_mk. apply eqm_mod. Qed.
Lemma mk_eq x y : eqm p x y <-> mk x = mk y.
Proof. split; [intros [H]; apply v_inj; exact H|]. intros H. apply (f_equal v) in H. constructor. exact H. Qed.
Lemma mk_v a : mk (v a) = a.
Proof. apply v_inj. rewrite v_mk. apply Z.mod_small. apply v_range. Qed.
Definition eadd (a b : E) : E := mk (v a + v b).
Definition emul (a b : E) : E := mk (v a * v b).
Definition esub (a b : E) : E := mk (v a - v b).
Definition eopp (a : E) : E := mk (- v a).
Definition einv (a : E) : E := mk (match invert_mod (v a) p with Some r => r | None => 0 end).
Definition ediv (a b : E) : E := emul a (einv b).
Lemma mk_add x y : mk (x + y) = eadd (mk x) (mk y). Proof. apply mk_eq. rewrite !v_mkm. reflexivity. Qed.
Lemma mk_mul x y : mk (x * y) = emul (mk x) (mk y). Proof. apply mk_eq. rewrite !v_mkm. reflexivity. Qed.
Lemma mk_sub x y : mk (x - y) = esub (mk x) (mk y). Proof. apply mk_eq. rewrite !v_mkm. reflexivity. Qed.
Lemma mk_opp x : mk (- x) = eopp (mk x). Proof. apply mk_eq. rewrite !v_mkm. reflexivity. Qed.
Lemma mk_mod x : mk (x mod p) = mk x. Proof. apply mk_eq. apply eqm_mod. Qed.
Lemma mk_0 x : mk x = mk 0 <-> eqm p x 0. Proof. symmetry. apply mk_eq. Qed.
Lemma zp_field : field_theory (mk 0) (mk 1) eadd emul esub eopp ediv einv (@eq E).
Proof.
  constructor; [constructor|..]; intros.
  - rewrite <- (mk_v x) at 2. apply mk_eq. rewrite v_mkm. mring.
  - apply mk_eq. mring.
  - unfold eadd. apply mk_eq. rewrite !v_mkm. mring.
  - rewrite <- (mk_v x) at 2. apply mk_eq. rewrite v_mkm. mring.
  - apply mk_eq. mring.
  - unfold emul. apply mk_eq. rewrite !v_mkm. mring.
  - unfold emul, eadd. apply mk_eq. rewrite !v_mkm. mring.
  - unfold esub, eadd, eopp. apply mk_eq. rewrite !v_mkm. mring.
  - unfold eadd, eopp. apply mk_eq. rewrite !v_mkm. mring.
  - intros H. apply (f_equal v) in H. rewrite !v_mk in H. pose proof (prime_pos p Hp). rewrite Z.mod_0_l, Z.mod_small in H by lia. lia.
  - reflexivity.
  - match goal with H : ?a <> _ |- _ => rename a into x; rename H into Hx end. assert (N : ~ eqm p (v x) 0) by (intros K; apply Hx; apply mk_eq in K; rewrite mk_v in K; exact K).
    destruct (invert_mod_prime _ _ Hp N) as (r & Er). unfold emul, einv. rewrite Er. apply mk_eq. rewrite v_mkm. destruct (invert_mod_some _ _ _ Er) as [_ M]. rewrite <- M. mring.
Qed.
Lemma e_dec (a b : E) : {a = b} + {a <> b}.
Proof. destruct (Z.eq_dec (v a) (v b)) as [H|H]; [left; apply v_inj; exact H|right; congruence]. Qed.
End Zp.
