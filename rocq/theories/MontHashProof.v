(** PointAdd, PointDbl and PointClearCofactor of curve25519.cc (HashCurveModel) are the group law. *)
From Coq Require Import ZArith List Bool Lia Znumtheory Field.
From Verif Require Import LinCodeModel ZpLib SafePrimeModel SafePrimeProps EcField EcGroup EcMul EcLadder ToyEcModel ToyXModel ToyXProof HashCurveModel HashFieldProof.
Import ListNotations.
Open Scope Z_scope.

Section Mont.
Variable c : hctx.
Let p := h_p c.
Let A := h_a c.
Hypothesis Hp : prime p.
Hypothesis odd : p <> 2.
Hypothesis disc : ~ eqm p (A * A) 4.
Hypothesis size : p <= 256 ^ Z.of_nat (h_key c).
Let F := E p.
Let m := mk p Hp.
Let FT := zp_field p Hp.
Add Field FF : FT.
Let ed := e_dec p.
Notation PA := (EcGroup.padd F (m 1) (eadd p Hp) (emul p Hp) (esub p Hp) (eopp p Hp) (ediv p Hp) ed (m 1) (m A) (m 1)).
Notation ON := (EcGroup.on F (eadd p Hp) (emul p Hp) (m 1) (m A) (m 1) (m 0)).
Notation NEG := (EcGroup.neg F (eopp p Hp)).
Notation Af := (Aff F).
Infix "[+]" := (eadd p Hp) (at level 50, left associativity).
Infix "[*]" := (emul p Hp) (at level 40, left associativity).
Infix "[-]" := (esub p Hp) (at level 50, left associativity).
Infix "[/]" := (ediv p Hp) (at level 40, left associativity).

Lemma q3 : 3 <= p. Proof. pose proof (prime_ge_2 p Hp). lia. Qed.
Lemma n2 : m 2 = m 1 [+] m 1. Proof. unfold m. rewrite <- mk_add. reflexivity. Qed.
Lemma n3 : m 3 = m 1 [+] m 1 [+] m 1. Proof. unfold m. rewrite <- !mk_add. reflexivity. Qed.
Lemma n4 : m 4 = (m 1 [+] m 1) [*] (m 1 [+] m 1). Proof. unfold m. rewrite <- mk_add, <- mk_mul. reflexivity. Qed.
Lemma ntwo : m 1 [+] m 1 <> m 0.
Proof. rewrite <- n2. intros H. apply mk_0 in H. destruct H as [H]. pose proof q3. rewrite Z.mod_0_l, Z.mod_small in H by lia. lia. Qed.
Lemma none : m 1 <> m 0.
Proof. intros H. apply mk_0 in H. destruct H as [H]. pose proof q3. rewrite Z.mod_0_l, Z.mod_small in H by lia. lia. Qed.
Lemma ndisc : m A [*] m A <> (m 1 [+] m 1) [*] (m 1 [+] m 1).
Proof. rewrite <- n4. intros H. apply disc. unfold m in H. rewrite <- mk_mul in H. apply mk_eq in H. exact H. Qed.
Lemma nsmooth x : EcGroup.f F (eadd p Hp) (emul p Hp) (m A) (m 1) (m 0) x = m 0 -> EcGroup.f' F (m 1) (eadd p Hp) (emul p Hp) (m A) (m 1) x <> m 0.
Proof. apply (EcLadder.smooth F (m 0) (m 1) _ _ (esub p Hp) (eopp p Hp) (ediv p Hp) (einv p Hp) FT ed (m A) ndisc). Qed.
Lemma h_on P Q : ON P -> ON Q -> ON (PA P Q).
Proof. apply (padd_on F (m 0) (m 1) _ _ _ _ _ (einv p Hp) FT ed _ _ _ _ ntwo none). Qed.
Lemma h_iv P : ON P -> ON (NEG P).
Proof. apply (neg_on F (m 0) (m 1) _ _ (esub p Hp) _ (ediv p Hp) (einv p Hp) FT). Qed.
Lemma h_comm P Q : ON P -> ON Q -> PA P Q = PA Q P.
Proof. apply (padd_comm F (m 0) (m 1) _ _ _ _ _ (einv p Hp) FT ed _ _ _ _ ntwo none). Qed.
Lemma h_assoc P Q R : ON P -> ON Q -> ON R -> PA (PA P Q) R = PA P (PA Q R).
Proof. apply (padd_assoc F (m 0) (m 1) _ _ _ _ _ (einv p Hp) FT ed _ _ _ _ ntwo none nsmooth). Qed.
Lemma h_inv P : ON P -> PA P (NEG P) = Inf F.
Proof. intros _. apply (padd_neg F (m 0) (m 1) _ _ _ _ _ (einv p Hp) FT ed). Qed.
Lemma h_e : ON (Inf F). Proof. exact Logic.I. Qed.
Lemma h_l P : ON P -> PA (Inf F) P = P. Proof. destruct P; reflexivity. Qed.
Definition times := zmul (pt F) (Inf F) PA NEG.
Lemma times_add k l P : ON P -> times (k + l) P = PA (times k P) (times l P).
Proof. apply (zmul_add _ ON); auto using h_e, h_on, h_iv, h_l, h_comm, h_assoc, h_inv. Qed.
Lemma times_on k P : ON P -> ON (times k P). Proof. apply (zmul_on _ ON); auto using h_e, h_on, h_iv. Qed.
Lemma times_1 P : ON P -> times 1 P = P. Proof. apply (zmul_1 _ ON); auto using h_l. Qed.

(** Coordinates on key_size bytes. *)
Definition wire (P : pt F) : list Z * list Z :=
  match P with Inf _ => ([], []) | Aff _ x y => (be_bytes (h_key c) (v p x), be_bytes (h_key c) (v p y)) end.
Lemma v_key (x : F) : 0 <= v p x < 256 ^ Z.of_nat (h_key c). Proof. pose proof (v_range p x). lia. Qed.
Lemma read_v (x : F) : be_value (be_bytes (h_key c) (v p x)) = v p x. Proof. apply be_value_bytes, v_key. Qed.
Lemma write_z X Y x y : m X = x -> m Y = y -> 0 <= X < p -> 0 <= Y < p -> write_point c (X, Y) = Val (wire (Af x y)).
Proof.
  intros <- <- RX RY. unfold write_point. cbn [fst snd wire]. unfold m. rewrite !v_mk, !Z.mod_small by lia. rewrite !pad_bytes_ok by lia. reflexivity.
Qed.
Lemma read_wire x y : read_point c (wire (Af x y)) = Val (v p x, v p y).
Proof. unfold read_point, deserialize. cbn [fst snd wire]. rewrite !be_bytes_length, Nat.eqb_refl. cbn [bind]. rewrite !read_v. reflexivity. Qed.
Lemma wv_0 x : v p x = 0 <-> x = m 0.
Proof.
  pose proof q3. split; intros H'.
  - apply v_inj. rewrite H'. unfold m. rewrite v_mk. symmetry. apply Z.mod_0_l. lia.
  - rewrite H'. unfold m. rewrite v_mk. apply Z.mod_0_l. lia.
Qed.
Lemma invert_in z : m z <> m 0 -> exists i, invert z p = Val i /\ m i = m 1 [/] m z.
Proof.
  intros N. destruct (invert_mod_prime z p Hp) as (i & Ei); [intros K; apply N; apply mk_0; exact K|]. exists i. unfold invert. rewrite Ei. split; auto.
  destruct (invert_mod_some _ _ _ Ei) as [_ M]. apply (mk_eq p Hp) in M. rewrite mk_mul in M. fold m in M. rewrite <- M. unfold F, m in *. field. exact N.
Qed.
Lemma invert_out z : m z = m 0 -> invert z p = Thrown.
Proof. intros K. unfold invert. rewrite invert_mod_zero; auto. apply mk_0 in K. exact K. Qed.

Lemma wmod z : 0 <= z mod p < p. Proof. apply Z.mod_pos_bound. pose proof q3. lia. Qed.
Lemma same_v (x y : F) : same_bytes (be_bytes (h_key c) (v p x)) (be_bytes (h_key c) (v p y)) = true <-> x = y.
Proof.
  rewrite same_bytes_eq by (rewrite !be_bytes_length; reflexivity). split; [|intros ->; reflexivity]. intros K. apply (v_inj p). rewrite <- (read_v x), <- (read_v y), K. reflexivity.
Qed.
Ltac push := unfold m; repeat (rewrite ?mk_mod, ?mk_sub, ?mk_add, ?mk_mul, ?mk_v); fold m.
Lemma add_val x1 y1 x2 y2 : mont_add c (wire (Af x1 y1)) (wire (Af x2 y2)) = if ed x1 x2 then Thrown else Val (wire (PA (Af x1 y1) (Af x2 y2))).
Proof.
  unfold mont_add. fold p A. cbn [fst snd wire]. rewrite !read_v. cbn [EcGroup.padd]. destruct (ed x1 x2) as [E|E].
  - subst x2. rewrite invert_out by (push; unfold F, m; ring). destruct (same_bytes _ _ && same_bytes _ _); reflexivity.
  - destruct (same_bytes (be_bytes (h_key c) (v p x1)) (be_bytes (h_key c) (v p x2))) eqn:B; [apply same_v in B; contradiction|]. cbn [andb].
    assert (N : x2 [-] x1 <> m 0) by (apply (EcGroup.sub_ne F (m 0) (m 1) (eadd p Hp) (emul p Hp) (esub p Hp) (eopp p Hp) (ediv p Hp) (einv p Hp) FT); congruence).
    destruct (invert_in ((v p x2 - v p x1) mod p)) as (d & D & MD). { push. exact N. }
    rewrite D. cbn [bind].
    set (l := ((v p y2 - v p y1) mod p * d) mod p). assert (L : m l = (y2 [-] y1) [/] (x2 [-] x1)). { unfold l. push. rewrite MD. push. unfold F, m in *. field. exact N. }
    clearbody l. clear MD D.
    repeat match goal with |- context [if ?z mod p <? 0 then _ else _] => destruct (Z.ltb_spec (z mod p) 0) as [LT|_]; [pose proof (wmod z); lia|] end.
    apply write_z; [| |apply wmod|apply wmod]; rewrite <- L; push; rewrite ?n2; unfold F, m; ring.
Qed.
Lemma dbl_val x y : mont_dbl c (wire (Af x y)) = if ed y (m 0) then Thrown else Val (wire (PA (Af x y) (Af x y))).
Proof.
  unfold mont_dbl. fold p A. cbn [fst snd wire]. rewrite !read_v. destruct (ed y (m 0)) as [Y|Y].
  - rewrite invert_out; [reflexivity|]. push. rewrite Y. unfold F, m. ring.
  - assert (N : (m 1 [+] m 1) [*] y <> m 0) by (apply (EcGroup.mul_ne F (m 0) (m 1) (eadd p Hp) (emul p Hp) (esub p Hp) (eopp p Hp) (ediv p Hp) (einv p Hp) FT ed); auto; apply ntwo).
    destruct (invert_in ((v p y * 2) mod p)) as (d & D & MD). { push. rewrite n2. intros K. apply N. rewrite <- K. unfold F, m. ring. }
    rewrite D. cbn [bind].
    rewrite (EcGroup.padd_tangent F (m 0) (m 1) (eadd p Hp) (emul p Hp) (esub p Hp) (eopp p Hp) (ediv p Hp) (einv p Hp) FT ed (m 1) (m A) (m 1) ntwo x y Y).
    set (l := (((v p x * v p x) mod p * 3 mod p + (v p x * A) mod p * 2 mod p) mod p + 1) mod p * d mod p).
    assert (L : m l = EcGroup.f' F (m 1) (eadd p Hp) (emul p Hp) (m A) (m 1) x [/] ((m 1 [+] m 1) [*] m 1 [*] y)).
    { unfold l. push. rewrite MD. push. rewrite n2, n3. unfold EcGroup.f'. pose proof ntwo as TW. unfold F, m in *. field. split; assumption. }
    clearbody l. clear MD D. unfold EcGroup.third. rewrite <- L.
    assert (P2 : m (pow_mod l 2 p) = m l [*] m l). { unfold m. rewrite <- mk_mul. apply mk_eq. rewrite pow_mod_ok by (pose proof q3; lia). apply eqm_eq. ring. }
    assert (P3 : m (pow_mod l 3 p) = m l [*] m l [*] m l). { unfold m. rewrite <- !mk_mul. apply mk_eq. rewrite pow_mod_ok by (pose proof q3; lia). apply eqm_eq. ring. }
    apply write_z; [| |apply wmod|apply wmod]; push; rewrite ?P2, ?P3, ?n2, ?n3; unfold F, m; ring.
Qed.
(** Twice a point is infinity exactly if its ordinate is zero. *)
Lemma twice_inf x y : PA (Af x y) (Af x y) = Inf F <-> y = m 0.
Proof.
  cbn [EcGroup.padd]. destruct (ed x x) as [_|N]; [|congruence]. destruct (ed y (eopp p Hp y)) as [S|S].
  - split; [|reflexivity]. intros _. apply (EcGroup.self_neg F (m 0) (m 1) (eadd p Hp) (emul p Hp) (esub p Hp) (eopp p Hp) (ediv p Hp) (einv p Hp) FT ed ntwo _ S).
  - split; [discriminate|]. intros ->. exfalso. apply S. unfold F, m. ring.
Qed.
Definition is_inf (P : pt F) : bool := match P with Inf _ => true | _ => false end.
Lemma dbl_or P : is_inf P = false -> mont_dbl c (wire P) = if is_inf (PA P P) then Thrown else Val (wire (PA P P)).
Proof.
  destruct P as [|x y]; [discriminate|]. intros _. rewrite dbl_val. destruct (ed y (m 0)) as [Y|Y].
  - apply twice_inf with (x := x) in Y. rewrite Y. reflexivity.
  - destruct (PA (Af x y) (Af x y)) as [|x' y'] eqn:D; [apply twice_inf in D; contradiction|]. reflexivity.
Qed.
Lemma times_8 P : ON P -> times 8 P = PA (PA (PA P P) (PA P P)) (PA (PA P P) (PA P P)).
Proof.
  intros H. change 8 with (4 + 4). rewrite times_add by exact H. change 4 with (2 + 2). rewrite times_add by exact H. change 2 with (1 + 1). rewrite times_add by exact H. rewrite times_1 by exact H. reflexivity.
Qed.
Lemma clear_val P : ON P -> is_inf P = false -> clear_cofactor c (wire P) = if is_inf (times 8 P) then Thrown else Val (wire (times 8 P)).
Proof.
  intros H N. rewrite times_8 by exact H. unfold clear_cofactor. rewrite (dbl_or P N). destruct (is_inf (PA P P)) eqn:N2.
  - destruct (PA P P); [reflexivity|discriminate].
  - cbn [bind]. rewrite (dbl_or _ N2). destruct (is_inf (PA (PA P P) (PA P P))) eqn:N4.
    + destruct (PA (PA P P) (PA P P)); [reflexivity|discriminate].
    + cbn [bind]. rewrite (dbl_or _ N4). reflexivity.
Qed.
Lemma on_of x y : 0 <= x < p -> 0 <= y < p -> eqm p (y * y) (x * x * x + A * (x * x) + x) -> ON (Af (m x) (m y)) /\ v p (m x) = x /\ v p (m y) = y.
Proof.
  intros X Y H. split.
  - cbn [EcGroup.on]. apply (mk_eq p Hp) in H. rewrite !mk_add, !mk_mul in H. fold m in H. unfold EcGroup.f. transitivity (m y [*] m y); [unfold F, m; ring|]. fold F. rewrite H. unfold F, m. ring.
  - unfold m. rewrite !v_mk, !Z.mod_small by lia. auto.
Qed.
Lemma on_back x y : ON (Af x y) -> eqm p (v p y * v p y) (v p x * v p x * v p x + A * (v p x * v p x) + v p x).
Proof.
  intros H. cbn [EcGroup.on] in H. apply (mk_eq p Hp). rewrite !mk_add, !mk_mul, !mk_v. fold m. unfold EcGroup.f in H.
  transitivity (m 1 [*] (y [*] y)); [unfold F, m; ring|]. fold F in H. rewrite H. unfold F, m. ring.
Qed.
End Mont.
