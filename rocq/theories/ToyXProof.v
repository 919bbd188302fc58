(** The Montgomery ladder of ToyXModel computes the abscissa of the multiple. *)
From Coq Require Import ZArith List Bool Lia Znumtheory Field.
From Verif Require Import LinCodeModel ZpLib SafePrimeProof EcField EcGroup EcMul EcLadder ToyEcModel ToyXModel.
Import ListNotations.
Open Scope Z_scope.

Lemma pow_mod_ok b m e : 0 < m -> 0 < e -> eqm m (pow_mod b e m) (b ^ e).
Proof.
  intros M E. destruct e as [|e|e]; try lia. cbn [pow_mod]. clear E. induction e as [e IH|e IH|]; cbn [pow_mod_pos].
  - change (Z.pos e~1) with (2 * Z.pos e + 1). rewrite Z.pow_add_r, (Z.mul_comm 2), Z.pow_mul_r by lia. rewrite !eqm_mod, IH. apply eqm_eq. ring.
  - change (Z.pos e~0) with (2 * Z.pos e). rewrite (Z.mul_comm 2), Z.pow_mul_r by lia. rewrite !eqm_mod, IH. apply eqm_eq. ring.
  - rewrite eqm_mod. apply eqm_eq. symmetry. apply Z.pow_1_r.
Qed.
Lemma swap_false l : swap_in false l = l.
Proof. destruct l as [x2 z2 x3 z3 s]. unfold swap_in, cswap. cbn [lx2 lz2 lx3 lz3 lswap Z.b2z]. f_equal; ring. Qed.
Lemma swap_true l : swap_in true l = mkL (lx3 l) (lz3 l) (lx2 l) (lz2 l) (lswap l).
Proof. destruct l as [x2 z2 x3 z3 s]. unfold swap_in, cswap. cbn [lx2 lz2 lx3 lz3 lswap Z.b2z]. f_equal; ring. Qed.
Lemma swap_ladder s l : lswap (swap_in s l) = lswap l. Proof. destruct s; [rewrite swap_true|rewrite swap_false]; reflexivity. Qed.
Lemma mod_top s n : 0 <= s -> 0 <= n -> s mod 2 ^ (n + 1) = Z.b2z (Z.testbit s n) * 2 ^ n + s mod 2 ^ n.
Proof.
  intros S N. rewrite Z.testbit_spec' by lia. rewrite Z.pow_add_r, Z.pow_1_r by lia.
  rewrite Z.rem_mul_r by (try lia; apply Z.pow_nonzero; lia). ring.
Qed.

Section X.
Variable c : curve.
Let p := cp c.
Hypothesis Hp : prime p.
Hypothesis odd : p <> 2.
Hypothesis dvd : (4 | cA c - 2).
Hypothesis disc : (cA c ^ 2 - 4) mod p <> 0.
Let F := E p.
Let m := mk p Hp.
Let FT := zp_field p Hp.
Add Field FF : FT.
Let ed := e_dec p.
Variable b : F.
Hypothesis bne : b <> m 0.
Notation PA := (EcGroup.padd F (m 1) (eadd p Hp) (emul p Hp) (esub p Hp) (eopp p Hp) (ediv p Hp) ed b (m (cA c)) (m 1)).
Notation ON := (EcGroup.on F (eadd p Hp) (emul p Hp) b (m (cA c)) (m 1) (m 0)).
Notation NEG := (EcGroup.neg F (eopp p Hp)).
Notation Af := (Aff F).
Notation RP := (repr F (m 0) (emul p Hp)).
Infix "[+]" := (eadd p Hp) (at level 50, left associativity).
Infix "[*]" := (emul p Hp) (at level 40, left associativity).
Infix "[-]" := (esub p Hp) (at level 50, left associativity).

Lemma p3 : 3 <= p. Proof. pose proof (prime_ge_2 p Hp). lia. Qed.
Lemma m2 : m 2 = m 1 [+] m 1. Proof. unfold m. rewrite <- mk_add. reflexivity. Qed.
Lemma m4 : m 4 = (m 1 [+] m 1) [*] (m 1 [+] m 1). Proof. unfold m. rewrite <- mk_add, <- mk_mul. reflexivity. Qed.
Lemma two : m 1 [+] m 1 <> m 0.
Proof. rewrite <- m2. intros H. apply mk_0 in H. destruct H as [H]. pose proof p3. rewrite Z.mod_0_l, Z.mod_small in H by lia. lia. Qed.
Lemma disc' : m (cA c) [*] m (cA c) <> (m 1 [+] m 1) [*] (m 1 [+] m 1).
Proof.
  rewrite <- m4. intros H. apply disc. unfold m in H. rewrite <- mk_mul in H. apply mk_eq in H. apply eqm_sub0 in H. destruct H as [H].
  rewrite Z.mod_0_l in H by (pose proof p3; lia). fold p. rewrite <- H. f_equal. ring.
Qed.
Lemma smooth' x : EcGroup.f F (eadd p Hp) (emul p Hp) (m (cA c)) (m 1) (m 0) x = m 0 -> EcGroup.f' F (m 1) (eadd p Hp) (emul p Hp) (m (cA c)) (m 1) x <> m 0.
Proof. apply (EcLadder.smooth F (m 0) (m 1) _ _ (esub p Hp) (eopp p Hp) (ediv p Hp) (einv p Hp) FT ed (m (cA c)) disc'). Qed.

Lemma g_on P Q : ON P -> ON Q -> ON (PA P Q).
Proof. apply (padd_on F (m 0) (m 1) _ _ _ _ _ (einv p Hp) FT ed _ _ _ _ two bne). Qed.
Lemma g_iv P : ON P -> ON (NEG P).
Proof. apply (neg_on F (m 0) (m 1) _ _ (esub p Hp) _ (ediv p Hp) (einv p Hp) FT). Qed.
Lemma g_comm P Q : ON P -> ON Q -> PA P Q = PA Q P.
Proof. apply (padd_comm F (m 0) (m 1) _ _ _ _ _ (einv p Hp) FT ed _ _ _ _ two bne). Qed.
Lemma g_assoc P Q R : ON P -> ON Q -> ON R -> PA (PA P Q) R = PA P (PA Q R).
Proof. apply (padd_assoc F (m 0) (m 1) _ _ _ _ _ (einv p Hp) FT ed _ _ _ _ two bne smooth'). Qed.
Lemma g_inv P : ON P -> PA P (NEG P) = Inf F.
Proof. intros _. apply (padd_neg F (m 0) (m 1) _ _ _ _ _ (einv p Hp) FT ed). Qed.
Lemma g_e : ON (Inf F). Proof. exact Logic.I. Qed.
Lemma g_l P : ON P -> PA (Inf F) P = P. Proof. destruct P; reflexivity. Qed.
Definition zm := zmul (pt F) (Inf F) PA NEG.
Lemma zm_on k P : ON P -> ON (zm k P). Proof. apply (zmul_on _ ON); auto using g_e, g_on, g_iv. Qed.
Lemma zm_add k l P : ON P -> zm (k + l) P = PA (zm k P) (zm l P).
Proof. apply (zmul_add _ ON); auto using g_e, g_on, g_iv, g_l, g_comm, g_assoc, g_inv. Qed.
Lemma zm_mul k l P : ON P -> zm (k * l) P = zm k (zm l P).
Proof. apply (zmul_mul _ ON); auto using g_e, g_on, g_iv, g_l, g_comm, g_assoc, g_inv. Qed.
Lemma zm_opp k P : ON P -> zm (- k) P = NEG (zm k P).
Proof. apply (zmul_opp _ ON); auto using g_e, g_on, g_iv, g_l, g_comm, g_assoc, g_inv. Qed.
Lemma zm_e k : zm k (Inf F) = Inf F.
Proof. apply (zmul_e _ ON); auto using g_e, g_on, g_iv, g_l, g_comm, g_assoc, g_inv. Qed.
Lemma zm_1 P : ON P -> zm 1 P = P.
Proof. apply (zmul_1 _ ON); auto using g_l. Qed.

Lemma zero_on : ON (Af (m 0) (m 0)).
Proof. cbn [EcGroup.on]. unfold EcGroup.f, F, m. ring. Qed.
Lemma unit_on x : EcGroup.on F (eadd p Hp) (emul p Hp) (EcGroup.f F (eadd p Hp) (emul p Hp) (m (cA c)) (m 1) (m 0) x) (m (cA c)) (m 1) (m 0) (Af x (m 1)).
Proof. cbn [EcGroup.on]. unfold F, m. ring. Qed.
Lemma root_on x : EcGroup.f F (eadd p Hp) (emul p Hp) (m (cA c)) (m 1) (m 0) x = m 0 ->
  EcGroup.on F (eadd p Hp) (emul p Hp) (m 1) (m (cA c)) (m 1) (m 0) (Af x (m 0)).
Proof. cbn [EcGroup.on]. intros ->. unfold F, m. ring. Qed.
(** ** The loop *)
Variables (x1 : Z) (y : F).
Hypothesis HP : ON (Af (m x1) y).
Let P := Af (m x1) y.
Definition inv_at (k : Z) (l : ladder) : Prop :=
  let l := swap_in (lswap l) l in RP (m (lx2 l)) (m (lz2 l)) (zm k P) /\ RP (m (lx3 l)) (m (lz3 l)) (zm (k + 1) P).
Lemma a24_m : m (cA c) = m 4 [*] m (a24 c) [+] m 2.
Proof.
  destruct dvd as [q Q]. assert (a24 c = q) as -> by (unfold a24; rewrite Q; apply Z.quot_mul; lia).
  unfold m. rewrite <- mk_mul, <- mk_add. f_equal. lia.
Qed.
Lemma step_dbl x2 z2 Q : ON Q -> RP (m x2) (m z2) Q ->
  RP (m (((x2 + z2) * (x2 + z2)) mod p * (((x2 - z2) * (x2 - z2)) mod p) mod p))
     (m (((((x2 + z2) * (x2 + z2)) mod p - ((x2 - z2) * (x2 - z2)) mod p) *
          (((x2 + z2) * (x2 + z2)) mod p + a24 c * (((x2 + z2) * (x2 + z2)) mod p - ((x2 - z2) * (x2 - z2)) mod p))) mod p)) (PA Q Q).
Proof.
  intros OQ R. pose proof (dbl F (m 0) (m 1) _ _ _ _ _ (einv p Hp) FT ed b (m (cA c)) two bne disc' _ _ Q OQ R) as D.
  match goal with |- RP ?X ?Z _ => match type of D with RP ?X' ?Z' _ => replace X with X'; [replace Z with Z'; [exact D|]|] end end.
  - rewrite a24_m. unfold m. rewrite !mk_mod, !mk_mul, !mk_add, !mk_mul, !mk_sub, !mk_mod, !mk_mul, !mk_sub, !mk_add. fold m. rewrite m2, m4. unfold F, m. ring.
  - unfold m. rewrite !mk_mod, !mk_mul, !mk_mod, !mk_mul, !mk_add, !mk_sub. unfold F. ring.
Qed.
Lemma step_add x2 z2 x3 z3 k s : m x1 <> m 0 ->
  (s = false /\ RP (m x2) (m z2) (zm k P) /\ RP (m x3) (m z3) (zm (k + 1) P)) \/ (s = true /\ RP (m x3) (m z3) (zm k P) /\ RP (m x2) (m z2) (zm (k + 1) P)) ->
  RP (m ((((x3 - z3) * (x2 + z2)) mod p + ((x3 + z3) * (x2 - z2)) mod p) ^ 2 mod p))
     (m ((x1 * (((x3 - z3) * (x2 + z2)) mod p - ((x3 + z3) * (x2 - z2)) mod p) ^ 2) mod p)) (zm (2 * k + 1) P).
Proof.
  intros N H. replace (2 * k + 1) with (k + (k + 1)) by lia. rewrite zm_add by exact HP.
  assert (PQ : PA (zm k P) (Af (m x1) y) = zm (k + 1) P) by (rewrite zm_add, zm_1 by exact HP; reflexivity).
  assert (SQ : forall z, z ^ 2 = z * z) by (intros; ring). rewrite !SQ.
  assert (D : RP ((m 1 [+] m 1) [*] (m 1 [+] m 1) [*] ((m x2 [*] m x3 [-] m z2 [*] m z3) [*] (m x2 [*] m x3 [-] m z2 [*] m z3)))
                 (m x1 [*] ((m 1 [+] m 1) [*] (m 1 [+] m 1) [*] ((m x3 [*] m z2 [-] m z3 [*] m x2) [*] (m x3 [*] m z2 [-] m z3 [*] m x2)))) (PA (zm k P) (zm (k + 1) P))).
  { destruct H as [(_ & R2 & R3)|(_ & R2 & R3)].
    - exact (dadd F (m 0) (m 1) _ _ _ _ _ (einv p Hp) FT ed b (m (cA c)) two bne disc' _ y _ _ _ _ _ _ N HP (zm_on k P HP) PQ R2 R3).
    - pose proof (dadd F (m 0) (m 1) _ _ _ _ _ (einv p Hp) FT ed b (m (cA c)) two bne disc' _ y _ _ _ _ _ _ N HP (zm_on k P HP) PQ R2 R3) as D.
      match goal with |- RP ?X ?Z _ => match type of D with RP ?X' ?Z' _ => replace X with X' by (unfold F, m; ring); replace Z with Z' by (unfold F, m; ring); exact D end end. }
  match goal with |- RP ?X ?Z _ => match type of D with RP ?X' ?Z' _ => replace X with X'; [replace Z with Z'; [exact D|]|] end end.
  - unfold m. rewrite !mk_mod, !mk_mul, !mk_sub, !mk_mod, !mk_mul, !mk_sub, !mk_add. unfold F. ring.
  - unfold m. rewrite !mk_mod, !mk_mul, !mk_add, !mk_mod, !mk_mul, !mk_sub, !mk_add. unfold F. ring.
Qed.
Lemma step_inv k kt l : m x1 <> m 0 -> inv_at k l -> inv_at (2 * k + Z.b2z kt) (ladder_step c x1 kt l).
Proof.
  intros N H. unfold inv_at, ladder_step in *. fold p. cbn [lswap].
  assert (H' : let l' := swap_in (xorb (lswap l) kt) l in
     (kt = false /\ RP (m (lx2 l')) (m (lz2 l')) (zm k P) /\ RP (m (lx3 l')) (m (lz3 l')) (zm (k + 1) P)) \/
     (kt = true /\ RP (m (lx3 l')) (m (lz3 l')) (zm k P) /\ RP (m (lx2 l')) (m (lz2 l')) (zm (k + 1) P))).
  { cbv zeta in *. destruct kt; [right|left]; split; auto.
    - destruct (lswap l); cbn [xorb]; [rewrite swap_false; rewrite swap_true in H|rewrite swap_true; rewrite swap_false in H]; exact H.
    - rewrite xorb_false_r. exact H. }
  cbv zeta in H'. set (l' := swap_in (xorb (lswap l) kt) l) in *. clearbody l'. pose proof (step_add _ _ _ _ k kt N H') as SA.
  destruct H' as [(-> & R2 & R3)|(-> & R2 & R3)]; cbn [Z.b2z].
  - rewrite swap_false. cbn [lx2 lz2 lx3 lz3]. rewrite Z.add_0_r. split; [|exact SA].
    replace (2 * k) with (k + k) by lia. rewrite zm_add by exact HP. apply step_dbl; [apply zm_on; exact HP|exact R2].
  - rewrite swap_true. cbn [lx2 lz2 lx3 lz3]. split; [exact SA|].
    replace (2 * k + 1 + 1) with (k + 1 + (k + 1)) by lia. rewrite (zm_add (k + 1)) by exact HP. apply step_dbl; [apply zm_on; exact HP|exact R3].
Qed.
Lemma run_inv s n : forall k l, m x1 <> m 0 -> inv_at k l -> inv_at (k * 2 ^ Z.of_nat n + Z.abs s mod 2 ^ Z.of_nat n) (ladder_run c x1 s n l).
Proof.
  induction n as [|n IH]; intros k l N H.
  - cbn [ladder_run]. change (2 ^ Z.of_nat 0) with 1. rewrite Z.mod_1_r. replace (k * 1 + 0) with k by lia. exact H.
  - cbn [ladder_run]. rewrite Nat2Z.inj_succ. unfold Z.succ. rewrite mod_top, Z.pow_add_r, Z.pow_1_r by lia.
    replace (k * (2 ^ Z.of_nat n * 2) + (Z.b2z (Z.testbit (Z.abs s) (Z.of_nat n)) * 2 ^ Z.of_nat n + Z.abs s mod 2 ^ Z.of_nat n))
      with ((2 * k + Z.b2z (Z.testbit (Z.abs s) (Z.of_nat n))) * 2 ^ Z.of_nat n + Z.abs s mod 2 ^ Z.of_nat n) by ring.
    apply IH; auto. apply step_inv; auto.
Qed.
Lemma init_inv : inv_at 0 (mkL 1 0 x1 1 false).
Proof.
  unfold inv_at. cbn [lswap]. rewrite swap_false. cbn [lx2 lz2 lx3 lz3]. pose proof (F_1_neq_0 FT) as O1. split; [split; [reflexivity|exact O1]|].
  change (0 + 1) with 1. rewrite zm_1 by exact HP. split; [exact O1|]. unfold F, m. ring.
Qed.
(** The abscissa, zero for infinity. *)
Definition absc (Q : pt F) : Z := match Q with Inf _ => 0 | Aff _ x _ => v p x end.
Lemma finish X Z Q : RP (m X) (m Z) Q -> (X * pow_mod Z (p - 2) p) mod p = absc Q.
Proof.
  intros R. pose proof p3 as P3. assert (E : eqm p (X * pow_mod Z (p - 2) p) (X * Z ^ (p - 2))) by (rewrite pow_mod_ok by lia; reflexivity).
  destruct Q as [|x yy]; cbn [absc repr] in *; destruct R as [R1 R2].
  - apply mk_0 in R1. rewrite (eqm_pow p Z 0) in E by (auto; lia). rewrite Z.pow_0_l, Z.mul_0_r in E by lia. destruct E as [E]. rewrite E. apply Z.mod_0_l. lia.
  - assert (NZ : ~ eqm p Z 0) by (intros K; apply R1; apply mk_0; exact K). pose proof (fermat_little p Z Hp NZ) as FL.
    rewrite <- (mk_v p Hp x) in R2. fold m in R2. unfold m in R2. rewrite <- mk_mul in R2. apply mk_eq in R2. assert (E2 : eqm p (X * Z ^ (p - 2)) (v p x * Z * Z ^ (p - 2))) by (rewrite R2; reflexivity).
    assert (E' : eqm p (v p x * Z * Z ^ (p - 2)) (v p x)).
    { replace (v p x * Z * Z ^ (p - 2)) with (v p x * (Z ^ 1 * Z ^ (p - 2))) by (rewrite Z.pow_1_r; ring). rewrite <- Z.pow_add_r by lia. replace (1 + (p - 2)) with (p - 1) by lia. rewrite FL. apply eqm_eq. ring. }
    rewrite E2, E' in E. destruct E as [E]. rewrite E. apply Z.mod_small. apply v_range.
Qed.
(** Abscissa zero: the point of order two. *)
Lemma zero_step kt l : eqm p x1 0 -> eqm p (lx2 l * lz2 l) 0 -> eqm p (lx3 l * lz3 l) 0 ->
  eqm p (lz2 (ladder_step c x1 kt l)) 0 /\ eqm p (lz3 (ladder_step c x1 kt l)) 0.
Proof.
  intros X0 H2 H3. unfold ladder_step. fold p. set (l' := swap_in (xorb (lswap l) kt) l).
  assert (H : eqm p (lx2 l' * lz2 l') 0). { unfold l'. destruct (xorb (lswap l) kt); [rewrite swap_true|rewrite swap_false]; assumption. }
  clearbody l'. cbn [lz2 lz3]. rewrite !eqm_mod. split.
  - match goal with |- eqm p (?e * ?q) 0 => transitivity (4 * (lx2 l' * lz2 l') * q) end; [apply eqm_mul; [|reflexivity]; apply eqm_eq; ring|]. rewrite H. apply eqm_eq. ring.
  - rewrite X0. apply eqm_eq. ring.
Qed.
Lemma zero_run s n : forall l, eqm p x1 0 -> eqm p (lz2 l) 0 -> eqm p (lz3 l) 0 -> eqm p (lz2 (ladder_run c x1 s n l)) 0 /\ eqm p (lz3 (ladder_run c x1 s n l)) 0.
Proof.
  induction n as [|n IH]; intros l X0 H2 H3; [auto|]. cbn [ladder_run].
  destruct (zero_step (Z.testbit (Z.abs s) (Z.of_nat n)) l X0) as [K2 K3]; [rewrite H2; apply eqm_eq; ring|rewrite H3; apply eqm_eq; ring|]. apply IH; auto.
Qed.
Lemma zero_mult k : m x1 = m 0 -> zm k P = Inf F \/ zm k P = P.
Proof.
  intros X0. assert (Y0 : y = m 0).
  { pose proof HP as H. cbn [EcGroup.on] in H. rewrite X0 in H. unfold EcGroup.f in H. assert (K : b [*] (y [*] y) = m 0) by (rewrite H; unfold F, m; ring).
    apply (EcGroup.mul_0 F (m 0) (m 1) _ _ (esub p Hp) (eopp p Hp) (ediv p Hp) (einv p Hp) FT ed) in K as [K|K]; [contradiction|].
    apply (EcGroup.mul_0 F (m 0) (m 1) _ _ (esub p Hp) (eopp p Hp) (ediv p Hp) (einv p Hp) FT ed) in K as [K|K]; exact K. }
  assert (PP : PA P P = Inf F).
  { unfold P. rewrite Y0. pose proof (EcGroup.padd_opp F (m 0) (m 1) _ _ _ _ _ (einv p Hp) FT ed b (m (cA c)) (m 1) (m x1) (m 0)) as PO.
    replace (eopp p Hp (m 0)) with (m 0) in PO by (unfold F, m; ring). exact PO. }
  assert (NP : NEG P = P) by (unfold P; cbn [EcGroup.neg]; rewrite Y0; f_equal; unfold F, m; ring).
  assert (NAT : forall n, zm (Z.of_nat n) P = Inf F \/ zm (Z.of_nat n) P = P).
  { induction n as [|n IH]; [left; reflexivity|]. rewrite Nat2Z.inj_succ. unfold Z.succ. rewrite zm_add, zm_1 by exact HP. destruct IH as [->| ->]; [right; reflexivity|left; exact PP]. }
  destruct (Z.le_ge_cases 0 k) as [L|L]; [rewrite <- (Z2Nat.id k) by lia; apply NAT|].
  replace k with (- Z.of_nat (Z.to_nat (- k))) by lia. rewrite zm_opp by exact HP. destruct (NAT (Z.to_nat (- k))) as [->| ->]; [left; reflexivity|right; exact NP].
Qed.
Theorem ladder_ok s n : (0 < n)%nat ->
  let l := ladder_run c x1 s n (mkL 1 0 x1 1 false) in let l := swap_in (lswap l) l in
  (lx2 l * pow_mod (lz2 l) (p - 2) p) mod p = absc (zm (Z.abs s mod 2 ^ Z.of_nat n) P).
Proof.
  intros Hn. cbv zeta. destruct (ed (m x1) (m 0)) as [E|N].
  - pose proof p3 as P3. assert (A0 : absc (zm (Z.abs s mod 2 ^ Z.of_nat n) P) = 0).
    { destruct (zero_mult (Z.abs s mod 2 ^ Z.of_nat n) E) as [->| ->]; [reflexivity|]. unfold P. cbn [absc]. rewrite E. unfold m. rewrite v_mk. apply Z.mod_0_l. lia. }
    rewrite A0. assert (X0 : eqm p x1 0) by (apply (mk_eq p Hp); exact E). destruct n as [|n]; [lia|]. cbn [ladder_run].
    destruct (zero_step (Z.testbit (Z.abs s) (Z.of_nat n)) (mkL 1 0 x1 1 false) X0) as [K2 K3]; [apply eqm_eq; cbn; ring|cbn [lx3 lz3]; rewrite X0; apply eqm_eq; ring|].
    destruct (zero_run s n _ X0 K2 K3) as [R2 R3]. set (l := ladder_run c x1 s n _) in *. clearbody l.
    assert (Z2 : eqm p (lz2 (swap_in (lswap l) l)) 0) by (destruct (lswap l); [rewrite swap_true|rewrite swap_false]; assumption).
    assert (K : eqm p (lx2 (swap_in (lswap l) l) * pow_mod (lz2 (swap_in (lswap l) l)) (p - 2) p) 0).
    { rewrite pow_mod_ok by lia. rewrite (eqm_pow p _ 0) by (auto; lia). rewrite Z.pow_0_l by lia. apply eqm_eq. ring. }
    destruct K as [K]. rewrite K. apply Z.mod_0_l. lia.
  - pose proof (run_inv s n 0 _ N init_inv) as [R _]. rewrite Z.mul_0_l, Z.add_0_l in R. apply finish. exact R.
Qed.
End X.
