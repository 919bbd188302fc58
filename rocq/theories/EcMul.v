(** Integer multiples in an abelian group carved out of a type by a predicate. *)
From Coq Require Import ZArith Lia.
Open Scope Z_scope.

Section Grp.
Variable G : Type.
Variable on : G -> Prop.
Variables (e : G) (op : G -> G -> G) (iv : G -> G).
Hypothesis on_e : on e.
Hypothesis on_op : forall x y, on x -> on y -> on (op x y).
Hypothesis on_iv : forall x, on x -> on (iv x).
Hypothesis e_l : forall x, on x -> op e x = x.
Hypothesis comm : forall x y, on x -> on y -> op x y = op y x.
Hypothesis assoc : forall x y z, on x -> on y -> on z -> op (op x y) z = op x (op y z).
Hypothesis iv_r : forall x, on x -> op x (iv x) = e.

Fixpoint nmul (n : nat) (x : G) : G := match n with O => e | S n => op (nmul n x) x end.
Definition zmul (k : Z) (x : G) : G := if k <? 0 then iv (nmul (Z.to_nat (- k)) x) else nmul (Z.to_nat k) x.

Lemma e_r x : on x -> op x e = x. Proof. intros H. rewrite comm by auto. auto. Qed.
Lemma nmul_on n x : on x -> on (nmul n x). Proof. intros H. induction n; cbn; auto. Qed.
Lemma zmul_on k x : on x -> on (zmul k x). Proof. intros H. unfold zmul. destruct (k <? 0); auto using nmul_on. Qed.
Lemma cancel_r x y z : on x -> on y -> on z -> op x z = op y z -> x = y.
Proof.
  intros X Y W H. assert (K : op (op x z) (iv z) = op (op y z) (iv z)) by (rewrite H; reflexivity).
  rewrite !assoc, !iv_r, !e_r in K by auto. exact K.
Qed.
Lemma iv_unique x y : on x -> on y -> op x y = e -> iv x = y.
Proof. intros X Y H. apply (cancel_r _ _ x); auto. rewrite (comm (iv x)), iv_r, (comm y) by auto. symmetry. exact H. Qed.
Lemma iv_e : iv e = e. Proof. apply iv_unique; auto. Qed.
Lemma iv_iv x : on x -> iv (iv x) = x. Proof. intros X. apply iv_unique; auto. rewrite comm; auto. Qed.
Lemma swap4 a b c d : on a -> on b -> on c -> on d -> op (op a b) (op c d) = op (op a c) (op b d).
Proof. intros A B C D. rewrite !assoc by auto. f_equal. rewrite <- !assoc by auto. rewrite (comm b c) by auto. reflexivity. Qed.
Lemma iv_op x y : on x -> on y -> iv (op x y) = op (iv x) (iv y).
Proof. intros X Y. apply iv_unique; auto. rewrite swap4, !iv_r by auto. auto. Qed.
Lemma zmul_0 x : zmul 0 x = e. Proof. reflexivity. Qed.
Lemma zmul_1 x : on x -> zmul 1 x = x. Proof. intros H. change (op e x = x). auto. Qed.
Lemma zmul_nat n x : zmul (Z.of_nat n) x = nmul n x.
Proof. unfold zmul. destruct (Z.ltb_spec (Z.of_nat n) 0); [lia|]. rewrite Nat2Z.id. reflexivity. Qed.
Lemma zmul_opp k x : on x -> zmul (- k) x = iv (zmul k x).
Proof.
  intros H. unfold zmul. destruct (Z.ltb_spec k 0), (Z.ltb_spec (- k) 0); try lia.
  - rewrite iv_iv by auto using nmul_on. reflexivity.
  - rewrite Z.opp_involutive. reflexivity.
  - assert (k = 0) by lia. subst k. cbn. symmetry. apply iv_e.
Qed.
Lemma zmul_succ k x : on x -> zmul (k + 1) x = op (zmul k x) x.
Proof.
  intros H. destruct (Z.ltb_spec k 0) as [L|L].
  - assert (exists n, k = - Z.of_nat (S n)) as (n & ->) by (exists (Z.to_nat (- k - 1)); lia).
    replace (- Z.of_nat (S n) + 1) with (- Z.of_nat n) by lia. rewrite !zmul_opp, !zmul_nat by auto. cbn [nmul].
    pose proof (nmul_on n x H). rewrite iv_op, assoc, (comm (iv x)), iv_r, e_r by auto. reflexivity.
  - assert (exists n, k = Z.of_nat n) as (n & ->) by (exists (Z.to_nat k); lia).
    replace (Z.of_nat n + 1) with (Z.of_nat (S n)) by lia. rewrite !zmul_nat. reflexivity.
Qed.
Lemma zmul_pred k x : on x -> zmul (k - 1) x = op (zmul k x) (iv x).
Proof.
  intros H. apply (cancel_r _ _ x); auto using zmul_on. rewrite <- zmul_succ by auto. replace (k - 1 + 1) with k by lia.
  rewrite assoc, (comm (iv x)), iv_r, e_r by auto using zmul_on. reflexivity.
Qed.
Lemma zmul_add k l x : on x -> zmul (k + l) x = op (zmul k x) (zmul l x).
Proof.
  intros H. revert k. induction l as [|l IH|l IH] using Z.peano_ind; intros k.
  - rewrite Z.add_0_r, zmul_0, e_r by auto using zmul_on. reflexivity.
  - replace (k + Z.succ l) with (k + l + 1) by lia. replace (Z.succ l) with (l + 1) by lia. rewrite !zmul_succ, IH by auto. apply assoc; auto using zmul_on.
  - replace (k + Z.pred l) with (k + l - 1) by lia. replace (Z.pred l) with (l - 1) by lia. rewrite !zmul_pred, IH by auto. apply assoc; auto using zmul_on.
Qed.
Lemma zmul_sub k l x : on x -> zmul (k - l) x = op (zmul k x) (iv (zmul l x)).
Proof. intros H. replace (k - l) with (k + - l) by lia. rewrite zmul_add, zmul_opp by auto. reflexivity. Qed.
Lemma zmul_e k : zmul k e = e.
Proof.
  induction k as [|k IH|k IH] using Z.peano_ind; [reflexivity|..].
  - replace (Z.succ k) with (k + 1) by lia. rewrite zmul_succ, IH by auto. auto.
  - replace (Z.pred k) with (k - 1) by lia. rewrite zmul_pred, IH, iv_e by auto. auto.
Qed.
Lemma zmul_op k x y : on x -> on y -> zmul k (op x y) = op (zmul k x) (zmul k y).
Proof.
  intros X Y. induction k as [|k IH|k IH] using Z.peano_ind; [cbn; symmetry; auto|..].
  - replace (Z.succ k) with (k + 1) by lia. rewrite !zmul_succ, IH by auto. apply swap4; auto using zmul_on.
  - replace (Z.pred k) with (k - 1) by lia. rewrite !zmul_pred, IH, iv_op by auto. apply swap4; auto using zmul_on.
Qed.
Lemma zmul_mul k l x : on x -> zmul (k * l) x = zmul k (zmul l x).
Proof.
  intros H. pose proof (zmul_on l x H). induction k as [|k IH|k IH] using Z.peano_ind; [reflexivity|..].
  - replace (Z.succ k * l) with (k * l + l) by lia. replace (Z.succ k) with (k + 1) by lia. rewrite zmul_succ, zmul_add, IH by auto. reflexivity.
  - replace (Z.pred k * l) with (k * l - l) by lia. replace (Z.pred k) with (k - 1) by lia. rewrite zmul_pred, zmul_sub, IH by auto. reflexivity.
Qed.
Lemma zmul_mod n k x : on x -> n <> 0 -> zmul n x = e -> zmul (k mod n) x = zmul k x.
Proof.
  intros H N E. rewrite (Z.div_mod k n N) at 2. rewrite zmul_add, (Z.mul_comm n), zmul_mul, E, zmul_e, e_l by auto using zmul_on. reflexivity.
Qed.
End Grp.
