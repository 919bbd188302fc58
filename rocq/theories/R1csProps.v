(** Properties of the Bulletproofs R1CS proof (C72). *)
From Coq Require Import Ascii String.
From Coq Require Import ZArith List Bool Arith Lia Znumtheory Zpow_facts Setoid.
From Verif Require Import ZpLib VssModel VssProps LinCodeModel BpModel BpProof BpRange BpProps R1csModel R1csProof SafePrimeProof.
Import ListNotations.
Open Scope Z_scope.

(** What a linear combination is worth under the prover's final assignment, term
    by term, and the list of these values for all constraints. *)
Definition var_value (s : prover) (x : var) : Z :=
  match x with
  | Committed i => nth i (s_v s) 0
  | MulLeft i => nth i (s_aL s) 0
  | MulRight i => nth i (s_aR s) 0
  | MulOut i => nth i (s_aO s) 0
  | One => 1
  end.
Definition sum_list (l : list Z) : Z := fold_right Z.add 0 l.
Definition value (s : prover) (l : lc) : Z := sum_list (map (fun t => snd t * var_value s (fst t)) l).
Definition residues (s : prover) : list Z := map (value s) (s_cons s).

Lemma value_lc s l : lc_value (s_v s) (s_aL s) (s_aR s) (s_aO s) l = value s l.
Proof. unfold value, sum_list. induction l as [|[x c] l IH]; [reflexivity|]. cbn [lc_value map fold_right fst snd]. rewrite IH. reflexivity. Qed.
Lemma batch_peval s z cs : forall ez, batch (s_v s) (s_aL s) (s_aR s) (s_aO s) z ez cs = ez * peval (map (value s) cs) z.
Proof.
  induction cs as [|c cs IH]; intros ez; cbn [batch map peval]; [ring|]. rewrite IH, value_lc. ring.
Qed.

(** The arithmetic of linear combinations is the arithmetic of their values. *)
Theorem lc_values s : (forall x, value s (lc_var x) = var_value s x) /\ (forall c, value s (lc_const c) = c) /\
  (forall a b, value s (lc_add a b) = value s a + value s b) /\ (forall a b, value s (lc_sub a b) = value s a - value s b) /\
  (forall a c, value s (lc_scale a c) = c * value s a) /\ (forall a, value s (lc_neg a) = - value s a).
Proof.
  assert (AP : forall a b, value s (a ++ b) = value s a + value s b).
  { intros a b. unfold value, sum_list. rewrite map_app. induction (map _ a) as [|x l IH]; [reflexivity|]. cbn [app fold_right]. rewrite IH. ring. }
  assert (NG : forall a, value s (map (fun t => (fst t, - snd t)) a) = - value s a).
  { intros a. unfold value, sum_list. induction a as [|[x c] a IH]; [reflexivity|]. cbn [map fold_right fst snd] in *. rewrite IH. ring. }
  split; [intros x; unfold value, lc_var, sum_list; cbn [map fold_right fst snd]; ring|].
  split; [intros c; unfold value, lc_const, sum_list; cbn [map fold_right fst snd var_value]; ring|].
  split; [exact AP|]. split; [intros a b; unfold lc_sub; rewrite AP, NG; ring|]. split; [|exact NG].
  intros a c. unfold lc_scale, value, sum_list. induction a as [|[x k] a IH]; cbn [map fold_right fst snd] in *; [ring|]. rewrite IH. ring.
Qed.

(** Let client code make the same calls on a prover and on a verifier with equal
    transcripts, in any order and in one phase or two.  If the prover's calls and
    Prove succeed, then so do the verifier's calls, and Verify accepts exactly
    when r x^2 z times the polynomial whose coefficients are the constraints'
    values vanishes at z modulo the order, where r, x and z are challenges; or it
    throws, when a point of the inner product proof is the identity.  The
    verifier checks the constraints that the prover has, against commitments to
    the prover's values, and every multiplier is a product. *)
Theorem r1cs_exact e : lawful e -> forall B_bl gs p p' st tp s s' pr,
  on_curve e B_bl -> points_ok e gs -> Z.of_nat (g_cap gs) < 2 ^ 32 ->
  shape e (bs e 1) B_bl p p' ->
  run_prover e (bs e 1) B_bl false p (new_prover e st) = Val s ->
  prove e (bs e 1) B_bl gs tp s = Val (s', pr) ->
  exists x, run_verifier e false p' (new_verifier e st) = Val x /\
    (x_V e x = map (fun c => g_add (grp e) (g_mul (grp e) (bs e 1) (fst c)) (g_mul (grp e) B_bl (snd c))) (combine (s_v s') (s_vb s')) /\
     length (s_v s') = length (s_vb s')) /\
    (forall i, var_value s' (MulOut i) = var_value s' (MulLeft i) * var_value s' (MulRight i)) /\
    if existsb (c_inf e) (i_L (r_ipp e pr) ++ i_R (r_ipp e pr)) then verify_r1cs e (bs e 1) B_bl gs pr x = Thrown
    else exists x' c, replay e gs pr x = Val (x', c) /\ x_cons e x' = s_cons s' /\
      verify_r1cs e (bs e 1) B_bl gs pr x = Val ((h_r c * h_x c ^ 2 * h_z c * peval (residues s') (h_z c)) mod order e =? 0).
Proof.
  intros W B_bl gs p p' st tp s s' pr [beta ->] [LG [LH [FG FH]]] CAP SH RUN PR.
  destruct (lists_logs e _ _ FG) as [GK [EG FGK]]. destruct (lists_logs e _ _ FH) as [HK [EH FHK]].
  destruct (r1cs_equation e W beta gs GK HK p p' st tp s s' pr EG EH
    ltac:(rewrite EG, map_length in LG; exact LG) ltac:(rewrite EH, map_length in LH; exact LH) FGK FHK CAP SH RUN PR) as [x [RV [CV [IV EQ]]]].
  exists x. split; [exact RV|]. split; [split|].
  - apply map_Val_inj. rewrite CV. unfold commitments. rewrite map_map. apply map_ext. intros [a b]. cbn [fst snd].
    rewrite (commit_spec e W), !(bs_mul e W), (bs_add e W). do 2 f_equal. ring.
  - symmetry. apply (n_vb s' IV).
  - split; [apply (n_mul s' IV)|].
    destruct (existsb (c_inf e) _); [exact EQ|]. destruct EQ as [x' [c [RP [EC [_ ->]]]]].
    exists x', c. split; [exact RP|]. split; [exact EC|]. f_equal.
    apply eq_true_iff_eq. rewrite (inf_eqm e W), batch_peval. unfold residues.
    pose proof (prime_pos _ (w_prime e W)) as Q. rewrite Z.eqb_eq.
    set (K := h_r c * h_x c ^ 2 * h_z c * peval (map (value s') (s_cons s')) (h_z c)).
    replace (- (h_r c * h_x c ^ 2 * (h_z c * peval (map (value s') (s_cons s')) (h_z c)))) with (- K) by (unfold K; ring).
    split; intros E.
    + assert (E' : eqm (order e) K 0) by (transitivity (- - K); [mring|rewrite E; mring]). destruct E' as [E']. rewrite E'. apply Z.mod_0_l. lia.
    + assert (E' : eqm (order e) K 0) by (constructor; rewrite E, Z.mod_0_l by lia; reflexivity). rewrite E'. mring.
Qed.

(** Satisfied constraints: accepted. *)
Theorem r1cs_complete e : lawful e -> forall B_bl gs p p' st tp s s' pr,
  on_curve e B_bl -> points_ok e gs -> Z.of_nat (g_cap gs) < 2 ^ 32 ->
  shape e (bs e 1) B_bl p p' ->
  run_prover e (bs e 1) B_bl false p (new_prover e st) = Val s ->
  prove e (bs e 1) B_bl gs tp s = Val (s', pr) ->
  existsb (c_inf e) (i_L (r_ipp e pr) ++ i_R (r_ipp e pr)) = false ->
  Forall (fun v => v mod order e = 0) (residues s') ->
  bind (run_verifier e false p' (new_verifier e st)) (verify_r1cs e (bs e 1) B_bl gs pr) = Val true.
Proof.
  intros W B_bl gs p p' st tp s s' pr HB HG CAP SH RUN PR NI SAT.
  destruct (r1cs_exact e W B_bl gs p p' st tp s s' pr HB HG CAP SH RUN PR) as [x [-> [_ [_ EQ]]]]. rewrite NI in EQ.
  destruct EQ as [x' [c [_ [_ EQ]]]]. cbn [bind]. rewrite EQ. f_equal. apply Z.eqb_eq.
  assert (P0 : peval (residues s') (h_z c) mod order e = 0).
  { pose proof (prime_pos _ (w_prime e W)) as Q. clear -SAT Q. induction SAT as [|v l E _ IH]; cbn [peval]; [apply Z.mod_0_l; lia|].
    rewrite Zplus_mod, E, (Zmult_mod (h_z c)), IH, Z.mul_0_r, (Z.mod_0_l (order e)) by lia. apply Z.mod_0_l. lia. }
  rewrite Zmult_mod, P0, Z.mul_0_r. apply Z.mod_0_l. pose proof (prime_pos _ (w_prime e W)). lia.
Qed.

(** A violated constraint: Verify accepts only if a challenge is zero or the
    challenge z is one of fewer than n values, n being the number of constraints
    (pairwise different modulo the order: [distinct]). *)
Theorem r1cs_rejects e : lawful e -> forall B_bl gs p p' st tp s s' pr,
  on_curve e B_bl -> points_ok e gs -> Z.of_nat (g_cap gs) < 2 ^ 32 ->
  shape e (bs e 1) B_bl p p' ->
  run_prover e (bs e 1) B_bl false p (new_prover e st) = Val s ->
  prove e (bs e 1) B_bl gs tp s = Val (s', pr) ->
  Exists (fun v => v mod order e <> 0) (residues s') ->
  (forall x x' c, run_verifier e false p' (new_verifier e st) = Val x -> replay e gs pr x = Val (x', c) ->
     verify_r1cs e (bs e 1) B_bl gs pr x = Val true ->
     h_r c mod order e = 0 \/ h_x c mod order e = 0 \/ h_z c mod order e = 0 \/ peval (residues s') (h_z c) mod order e = 0) /\
  (forall zs, distinct (order e) zs -> Forall (fun z => peval (residues s') z mod order e = 0) zs -> (length zs < length (s_cons s'))%nat).
Proof.
  intros W B_bl gs p p' st tp s s' pr HB HG CAP SH RUN PR BAD.
  pose proof (prime_pos _ (w_prime e W)) as Q.
  assert (Z0 : forall a, eqm (order e) a 0 <-> a mod order e = 0).
  { intros a. split; [intros [E]; rewrite E; apply Z.mod_0_l; lia|intros E; constructor; rewrite E, Z.mod_0_l by lia; reflexivity]. }
  split.
  - intros x x' c RV RP V. destruct (r1cs_exact e W B_bl gs p p' st tp s s' pr HB HG CAP SH RUN PR) as [x0 [RV0 [_ [_ EQ]]]].
    rewrite RV in RV0. apply VI in RV0. subst x0. destruct (existsb (c_inf e) _); [congruence|].
    destruct EQ as [x1 [c1 [RP1 [_ EQ]]]]. rewrite RP in RP1. apply VI in RP1. injection RP1 as <- <-.
    rewrite V in EQ. apply VI in EQ. symmetry in EQ. apply Z.eqb_eq in EQ. apply Z0 in EQ. rewrite <- !Z0.
    apply (eqm_prime_mul (order e)) in EQ as [EQ|EQ]; [|tauto|exact (w_prime e W)].
    apply (eqm_prime_mul (order e)) in EQ as [EQ|EQ]; [|tauto|exact (w_prime e W)].
    apply (eqm_prime_mul (order e)) in EQ as [EQ|EQ]; [tauto| |exact (w_prime e W)].
    rewrite Z.pow_2_r in EQ. apply (eqm_prime_mul (order e)) in EQ as [EQ|EQ]; [tauto|tauto|exact (w_prime e W)].
  - intros zs D R. destruct (Nat.lt_ge_cases (length zs) (length (s_cons s'))) as [L|L]; [exact L|]. exfalso.
    assert (A : Forall (fun a => eqm (order e) a 0) (residues s')).
    { apply (roots_zero (order e) (w_prime e W) zs); [exact D|unfold residues; rewrite map_length; exact L|].
      eapply Forall_impl; [|exact R]. intros z E. apply Z0. exact E. }
    apply Exists_exists in BAD as [v [In N]]. rewrite Forall_forall in A. apply N, Z0, A, In.
Qed.

(** *** Bytes *)
Lemma from_le_mod k : forall x, from_le (le_bytes k x) = x mod 256 ^ Z.of_nat k.
Proof.
  induction k as [|k IH]; intros x; [cbn; rewrite Z.mod_1_r; reflexivity|]. cbn [le_bytes from_le]. rewrite IH.
  rewrite Nat2Z.inj_succ, Z.pow_succ_r by lia. rewrite Z.rem_mul_r by (try lia; apply Z.pow_pos_nonneg; lia). reflexivity.
Qed.
Lemma take_point_back e P rest : c_deser e (c_ser e P) = Val P -> length (c_ser e P) = c_ser_len e ->
  take_point e (c_ser e P ++ rest) = Val (P, rest).
Proof.
  intros D L. unfold take_point. rewrite <- L. rewrite firstn_app, skipn_app, Nat.sub_diag, firstn_all, skipn_all, firstn_O, app_nil_r, skipn_O, D. reflexivity.
Qed.
Lemma take_scalar_back x rest : take_scalar (le_bytes 32 x ++ rest) = (x mod 2 ^ 256, rest).
Proof.
  unfold take_scalar. pose proof (le_bytes_length 32 x) as L. change 32%nat with (length (le_bytes 32 x)) at 1 3. rewrite <- L at 1.
  rewrite firstn_app, Nat.sub_diag, firstn_all, firstn_O, app_nil_r, from_le_mod.
  rewrite skipn_app, skipn_all2 by (rewrite L; reflexivity). rewrite L, skipn_O. reflexivity.
Qed.
Definition with_eb (e : curve) (p : r1proof e) (eb : Z) : r1proof e :=
  {| r_AI1 := r_AI1 e p; r_AO1 := r_AO1 e p; r_S1 := r_S1 e p; r_AI2 := r_AI2 e p; r_AO2 := r_AO2 e p; r_S2 := r_S2 e p;
     r_T1 := r_T1 e p; r_T3 := r_T3 e p; r_T4 := r_T4 e p; r_T5 := r_T5 e p; r_T6 := r_T6 e p;
     r_tx := r_tx e p; r_txb := r_txb e p; r_eb := eb; r_ipp := r_ipp e p |}.
(** FromBytes reads back what ToBytes wrote, except that only the low 32 bytes
    of e_blinding survive; what follows the proof is ignored. *)
Theorem r1cs_round_trip e p junk bytes :
  Forall (fun P => c_deser e (c_ser e P) = Val P /\ length (c_ser e P) = c_ser_len e)
    [r_AI1 e p; r_AO1 e p; r_S1 e p; r_AI2 e p; r_AO2 e p; r_S2 e p; r_T1 e p; r_T3 e p; r_T4 e p; r_T5 e p; r_T6 e p] ->
  (forall P, c_inf e P = true -> P = identity e) ->
  0 <= r_tx e p < 2 ^ 256 -> 0 <= r_txb e p < 2 ^ 256 ->
  ipp_from_bytes e (ipp_bytes e (r_ipp e p) ++ junk) = Val (r_ipp e p) ->
  r1cs_bytes e p = Val bytes -> r1cs_from_bytes e (bytes ++ junk) = Val (with_eb e p (r_eb e p mod 2 ^ 256)).
Proof.
  intros F ID X1 X2 IP E. unfold r1cs_bytes in E.
  destruct (Nat.ltb _ _); [discriminate|]. destruct (Nat.eqb _ _); [|discriminate]. apply VI in E. subst bytes.
  repeat match goal with H : Forall _ (_ :: _) |- _ => apply Forall_cons_iff in H; destruct H as [[? ?] ?] end.
  unfold r1cs_from_bytes. cbn [app]. destruct (one_phase e p) eqn:OP.
  - cbn [Z.eqb].
    match goal with |- (if Nat.ltb ?a ?b then _ else _) = _ => destruct (Nat.ltb_spec a b) as [K|_] end.
    { exfalso. repeat rewrite ?app_length, ?le_bytes_length in K. lia. }
    cbn [app]. rewrite <- !app_assoc.
    do 3 (rewrite take_point_back by assumption; cbn [bind]).
    do 5 (rewrite take_point_back by assumption; cbn [bind]).
    rewrite !take_scalar_back. rewrite IP. cbn [bind]. rewrite !Z.mod_small by assumption.
    unfold one_phase in OP. apply andb_true_iff in OP as [OP O3]. apply andb_true_iff in OP as [O1 O2].
    unfold with_eb. rewrite (ID _ O1), (ID _ O2), (ID _ O3). reflexivity.
  - cbn [Z.eqb].
    match goal with |- (if Nat.ltb ?a ?b then _ else _) = _ => destruct (Nat.ltb_spec a b) as [K|_] end.
    { exfalso. repeat rewrite ?app_length, ?le_bytes_length in K. lia. }
    rewrite <- !app_assoc.
    do 3 (rewrite take_point_back by assumption; cbn [bind]).
    do 3 (rewrite take_point_back by assumption; cbn [bind]).
    do 5 (rewrite take_point_back by assumption; cbn [bind]).
    rewrite !take_scalar_back. rewrite IP. cbn [bind]. rewrite !Z.mod_small by assumption. reflexivity.
Qed.

(** ** Concrete cases *)
(** A product proof in two phases: commit to a, b and c, multiply, constrain the
    output to c; then, in the second phase, draw a challenge r and show
    (a - r)(b - r) = c - r (a + b) + r^2 with another multiplier. *)
Definition product_prog {C : Type} (ca cb cc : C) : prog C :=
  Commit ca (fun a => Commit cb (fun b => Commit cc (fun c =>
  Multiply (lc_var a) (lc_var b) (fun _ _ o => Constrain (lc_sub (lc_var o) (lc_var c))
  (Randomized (ChallengeScalar (text "r") (fun r =>
     Multiply (lc_sub (lc_var a) (lc_const r)) (lc_sub (lc_var b) (lc_const r)) (fun _ _ o2 =>
     Constrain (lc_sub (lc_var o2) (lc_sub (lc_add (lc_var c) (lc_const (r * r))) (lc_scale (lc_add (lc_var a) (lc_var b)) r))) Done))) Done))))).
Lemma product_shape e B B_bl a b c A B' C' : commit e B B_bl (fst a) (snd a) = Val A -> commit e B B_bl (fst b) (snd b) = Val B' ->
  commit e B B_bl (fst c) (snd c) = Val C' -> shape e B B_bl (product_prog a b c) (product_prog A B' C').
Proof.
  intros EA EB EC. destruct a as [a ra], b as [b rb], c as [c rc]. unfold product_prog.
  apply sh_commit; [exact EA|]. intros va. apply sh_commit; [exact EB|]. intros vb. apply sh_commit; [exact EC|]. intros vc.
  apply sh_mul. intros x y z. apply sh_con. apply sh_rand; [|apply sh_done]. apply sh_chal. intros r. apply sh_mul. intros x2 y2 z2. apply sh_con, sh_done.
Qed.
Definition toy_rtape (k : Z) : rtape :=
  {| k_i1 := k - 3; k_o1 := k - 14; k_s1 := k - 15; k_i2 := k - 9; k_o2 := k - 26; k_s2 := k - 5;
     k_sL := fun i => (Z.of_nat i * 7 + 3) mod k; k_sR := fun i => (Z.of_nat i * 31 + 8) mod k;
     k_t1 := 35; k_t3 := 8; k_t4 := 97; k_t5 := 93; k_t6 := 23 |}.
Definition made e B_bl gs st tp p : outcome (r1proof e) :=
  bind (run_prover e (bs e 1) B_bl false p (new_prover e st)) (fun s => bind (prove e (bs e 1) B_bl gs tp s) (fun r => Val (snd r))).
Definition checked e B_bl gs st p pr : outcome bool :=
  bind (run_verifier e false p (new_verifier e st)) (verify_r1cs e (bs e 1) B_bl gs pr).
Definition seen e gs st p pr : outcome (list Z) :=
  bind (run_verifier e false p (new_verifier e st)) (fun x => bind (replay e gs pr x) (fun '(_, c) => Val [h_r c; h_x c; h_z c])).
Definition left_residues e B_bl gs st tp p : outcome (list Z) :=
  bind (run_prover e (bs e 1) B_bl false p (new_prover e st)) (fun s => bind (prove e (bs e 1) B_bl gs tp s) (fun r => Val (map (fun v => v mod order e) (residues (fst r))))).
(** A proof as one list of points and one of scalars. *)
Definition flat e (p : r1proof e) : list (point (grp e)) * list (point (grp e)) * list (point (grp e)) * list Z :=
  ([r_AI1 e p; r_AO1 e p; r_S1 e p; r_AI2 e p; r_AO2 e p; r_S2 e p; r_T1 e p; r_T3 e p; r_T4 e p; r_T5 e p; r_T6 e p],
   i_L (r_ipp e p), i_R (r_ipp e p), [r_tx e p; r_txb e p; r_eb e p; i_a (r_ipp e p); i_b (r_ipp e p)]).
Definition out_map {A B} (f : A -> B) (o : outcome A) : outcome B := bind o (fun a => Val (f a)).
Lemma flat_inj e o p : out_map (flat e) o = Val (flat e p) -> o = Val p.
Proof.
  destruct o as [p'| | |]; try discriminate. intros E. apply VI in E. f_equal.
  destruct p as [? ? ? ? ? ? ? ? ? ? ? ? ? ? [? ? ? ?]], p' as [? ? ? ? ? ? ? ? ? ? ? ? ? ? [? ? ? ?]]. unfold flat in E. cbn in E. injection E. intros. subst. reflexivity.
Qed.
Definition com (v r : Z) : point (grp toy) := (v + 64 * r) mod 101.
Definition toy_good : r1proof toy :=
  {| r_AI1 := 76 : point (grp toy); r_AO1 := 21 : point (grp toy); r_S1 := 66 : point (grp toy); r_AI2 := 44 : point (grp toy);
     r_AO2 := 21 : point (grp toy); r_S2 := 6 : point (grp toy); r_T1 := 71 : point (grp toy); r_T3 := 84 : point (grp toy);
     r_T4 := 0 : point (grp toy); r_T5 := 97 : point (grp toy); r_T6 := 18 : point (grp toy); r_tx := 86; r_txb := 95; r_eb := 2253731557;
     r_ipp := {| i_L := [74] : list (point (grp toy)); i_R := [9]; i_a := 5; i_b := 4 |} |}.
(** The hypotheses of [r1cs_exact] and [r1cs_complete], with two phases. *)
Example r1cs_complete_ex :
  shape toy (bs toy 1) 64 (product_prog (7, 1) (5, 2) (35, 3)) (product_prog (com 7 1) (com 5 2) (com 35 3)) /\
  on_curve toy 64 /\ points_ok toy toy_gens /\ Z.of_nat (g_cap toy_gens) < 2 ^ 32 /\
  made toy 64 toy_gens toy_st (toy_rtape 101) (product_prog (7, 1) (5, 2) (35, 3)) = Val toy_good /\
  existsb (c_inf toy) (i_L (r_ipp toy toy_good) ++ i_R (r_ipp toy toy_good)) = false /\
  left_residues toy 64 toy_gens toy_st (toy_rtape 101) (product_prog (7, 1) (5, 2) (35, 3)) = Val [0; 0; 0; 0; 0; 0] /\
  checked toy 64 toy_gens toy_st (product_prog (com 7 1) (com 5 2) (com 35 3)) toy_good = Val true /\
  checked toy 64 toy_gens toy_st (product_prog (com 7 1) (com 5 2) (com 36 3)) toy_good = Val false.
Proof.
  split; [apply product_shape; vm_compute; reflexivity|]. split; [apply toy_on; lia|]. split; [exact toy_gens_ok|]. split; [vm_compute; reflexivity|].
  split; [apply flat_inj; vm_compute; reflexivity|]. vm_compute. repeat split; reflexivity.
Qed.
(** 7 * 5 is not 36: two constraints are off, and the challenges are not among
    the bad ones. *)
Example r1cs_rejects_ex :
  shape toy (bs toy 1) 64 (product_prog (7, 1) (5, 2) (36, 3)) (product_prog (com 7 1) (com 5 2) (com 36 3)) /\
  left_residues toy 64 toy_gens toy_st (toy_rtape 101) (product_prog (7, 1) (5, 2) (36, 3)) = Val [0; 0; 100; 0; 0; 100] /\
  bind (made toy 64 toy_gens toy_st (toy_rtape 101) (product_prog (7, 1) (5, 2) (36, 3)))
    (seen toy toy_gens toy_st (product_prog (com 7 1) (com 5 2) (com 36 3))) = Val [18; 75; 13] /\
  bind (made toy 64 toy_gens toy_st (toy_rtape 101) (product_prog (7, 1) (5, 2) (36, 3)))
    (checked toy 64 toy_gens toy_st (product_prog (com 7 1) (com 5 2) (com 36 3))) = Val false.
Proof. split; [apply product_shape; vm_compute; reflexivity|]. vm_compute. repeat split; reflexivity. Qed.
(** An allocation without a value is an error on the prover. *)
Example r1cs_errors_ex :
  out_map (flat toy) (made toy 64 toy_gens toy_st (toy_rtape 101) (Allocate None (fun _ => Done))) = Thrown /\
  out_map s_cons (run_prover toy (bs toy 1) 64 false (Randomized (Randomized Done Done) Done) (new_prover toy toy_st)) = Val [].
Proof. vm_compute. split; reflexivity. Qed.

(** *** A prime of 54 bits *)
(** Pocklington's criterion with base 2. *)
Lemma pocklington_gen h q : prime q -> 0 < h -> Z.odd (h * q + 1) = true -> h * q + 1 < (q + 1) * (q + 1) ->
  Zpow_mod 2 (h * q) (h * q + 1) = 1 -> Z.gcd (Zpow_mod 2 h (h * q + 1) - 1) (h * q + 1) = 1 -> prime (h * q + 1).
Proof.
  intros Hq Hh OD SM HF HG. pose proof (prime_pos q Hq) as Pq. set (p := h * q + 1) in *.
  assert (P1 : 1 < p) by (unfold p; nia).
  assert (DIV : forall r, prime r -> (r | p) -> q + 1 <= r).
  { intros r Hr Dr. pose proof (prime_pos r Hr) as Pr.
    assert (E1 : eqm r (2 ^ (h * q)) 1).
    { apply (eqm_divide r p); [lia|exact Dr|lia|]. constructor. rewrite Zpow_mod_correct in HF by lia. rewrite HF. symmetry. apply Z.mod_small. lia. }
    assert (N2 : ~ eqm r 2 0).
    { intros E. apply eqm0_divide in E; [|lia]. apply Z.divide_pos_le in E as L; [|lia].
      assert (r = 2) as -> by lia. destruct Dr as [k Hk]. rewrite Hk in OD. rewrite Z.odd_mul, andb_false_r in OD. discriminate. }
    pose proof (fermat_little r 2 Hr N2) as E2.
    destruct (Zdivide_dec q (r - 1)) as [D|ND].
    - assert (q <= r - 1) by (apply Z.divide_pos_le; [lia|exact D]). lia.
    - exfalso. assert (RP : rel_prime q (r - 1)) by (apply prime_rel_prime; [exact Hq|exact ND]).
      destruct (rel_prime_bezout _ _ RP) as [u v Huv].
      assert (BZ : exists u' v', 0 <= u' /\ 0 <= v' /\ v' * (r - 1) = u' * q + 1).
      { set (k := Z.abs u + Z.abs v). exists (k * (r - 1) - u), (v + k * q). repeat split; unfold k; try nia. }
      destruct BZ as (u' & v' & Hu & Hv & Euv).
      assert (F1 : eqm r (2 ^ (v' * (r - 1) * h)) 1).
      { replace (v' * (r - 1) * h) with ((r - 1) * (h * v')) by ring. rewrite Z.pow_mul_r by nia.
        rewrite (eqm_pow r _ 1) by (auto; nia). rewrite Z.pow_1_l by nia. reflexivity. }
      assert (F2 : eqm r (2 ^ (v' * (r - 1) * h)) (2 ^ h)).
      { rewrite Euv. replace ((u' * q + 1) * h) with (h * q * u' + h) by ring. rewrite Z.pow_add_r by nia.
        rewrite Z.pow_mul_r by nia. rewrite (eqm_pow r (2 ^ (h * q)) 1) by (auto; lia). rewrite Z.pow_1_l by lia. mring. }
      assert (E3 : eqm r (Zpow_mod 2 h p - 1) 0).
      { assert (E4 : eqm r (Zpow_mod 2 h p) (2 ^ h)).
        { apply (eqm_divide r p); [lia|exact Dr|lia|]. rewrite Zpow_mod_correct by lia. constructor. apply Z.mod_mod. lia. }
        rewrite E4, <- F2, F1. mring. }
      apply eqm0_divide in E3; [|lia].
      assert (D1 : (r | 1)) by (rewrite <- HG; apply Z.gcd_greatest; assumption).
      apply Z.divide_pos_le in D1; lia. }
  destruct (prime_divisor p P1) as (r & Hr & [k Hk]). pose proof (DIV r Hr ltac:(exists k; exact Hk)) as Lr.
  destruct (Z.eq_dec k 1) as [->|K1]; [rewrite Hk, Z.mul_1_l; exact Hr|]. exfalso.
  assert (K2 : 1 < k) by nia. destruct (prime_divisor k K2) as (r2 & Hr2 & [j Hj]).
  pose proof (DIV r2 Hr2 ltac:(exists (j * r); rewrite Hk, Hj; ring)) as L2.
  assert (J : 1 <= j) by nia. assert (K3 : q + 1 <= k) by nia. assert ((q + 1) * (q + 1) <= k * r) by (apply Z.mul_le_mono_nonneg; lia). lia.
Qed.
Definition big_order : Z := 11266018765240501.
Lemma prime_big : prime big_order.
Proof.
  assert (P1 : prime 10303) by (apply (pocklington_gen 102 101 prime_101); vm_compute; reflexivity).
  assert (P2 : prime 106141507) by (apply (pocklington_gen 10302 10303 P1); vm_compute; reflexivity).
  apply (pocklington_gen 106141500 106141507 P2); vm_compute; reflexivity.
Qed.
(** The integers modulo this prime; points are eight bytes. *)
Definition big : curve :=
  {| grp := zgroup big_order; order := big_order;
     c_sub := fun a b => (a - b) mod big_order; c_inf := fun a => a =? 0;
     c_ser := le_bytes 8; c_deser := fun l => if Nat.eqb (length l) 8 then Val (from_le l mod big_order) else Thrown; c_ser_len := 8;
     c_h2c := fun m => toy_mix m; sha256 := sha256 toy; shake256 := shake256 toy |}.
Lemma big_bs a : bs big a = a mod big_order.
Proof. unfold bs. cbn -[Z.modulo Z.mul big_order]. rewrite Z.mod_1_l by (unfold big_order; lia). rewrite Z.mul_1_l. reflexivity. Qed.
Lemma big_lawful : lawful big.
Proof.
  constructor.
  - exact prime_big.
  - apply (zgroup_cyclic big_order). unfold big_order. lia.
  - intros a b. rewrite !big_bs. cbn -[Z.modulo big_order]. symmetry. apply Zminus_mod.
  - intros a. rewrite big_bs. cbn -[Z.modulo big_order]. apply Z.eqb_eq.
Qed.
Lemma big_on k : 0 <= k < big_order -> on_curve big k.
Proof. intros K. exists k. rewrite big_bs, Z.mod_small; [reflexivity|exact K]. Qed.
Definition big_gens : gens (point (grp big)) :=
  {| g_cap := 2; g_parties := 1; g_G := [[6; 98]] : list (list (point (grp big))); g_H := [[25; 92]] |}.
Lemma big_gens_ok : points_ok big big_gens.
Proof. unfold points_ok. cbn. repeat split; repeat constructor; apply big_on; unfold big_order; lia. Qed.
Definition big_com (v r : Z) : point (grp big) := (v + 64 * r) mod big_order.
Definition big_proof (eb : Z) : r1proof big :=
  {| r_AI1 := 11266018765240476 : point (grp big); r_AO1 := 11266018765239815 : point (grp big); r_S1 := 11266018765239759 : point (grp big);
     r_AI2 := 328935713370689 : point (grp big); r_AO2 := 7279996748000664 : point (grp big); r_S2 := 4248 : point (grp big);
     r_T1 := 2319352492774680 : point (grp big); r_T3 := 6711196396182217 : point (grp big); r_T4 := 11096836598307804 : point (grp big);
     r_T5 := 11251346621977802 : point (grp big); r_T6 := 6792622883030133 : point (grp big);
     r_tx := 6519214046182258; r_txb := 1434931380527900; r_eb := eb;
     r_ipp := {| i_L := [3852060650544996] : list (point (grp big)); i_R := [9686755101411151]; i_a := 10870020914212161; i_b := 4537690355565733 |} |}.
Definition big_eb : Z := 18429778580127986059006081546798457328090517977526887466975353415716026676818500.
(** Prove does not reduce e_blinding modulo the order, and ToBytes keeps 32
    bytes of it: an honest proof that Verify accepts is refused once it has been
    written and read back.  All points survive. *)
Theorem r1cs_bytes_refuted : exists e B_bl gs st tp p p' pr bytes pr', lawful e /\ on_curve e B_bl /\ points_ok e gs /\
  shape e (bs e 1) B_bl p p' /\ order e < 2 ^ 256 /\
  made e B_bl gs st tp p = Val pr /\ checked e B_bl gs st p' pr = Val true /\
  r1cs_bytes e pr = Val bytes /\ r1cs_from_bytes e bytes = Val pr' /\ pr' = with_eb e pr (r_eb e pr mod 2 ^ 256) /\
  checked e B_bl gs st p' pr' = Val false.
Proof.
  exists big, 64, big_gens, toy_st, (toy_rtape big_order), (product_prog (7, 1) (5, 2) (35, 3)),
    (product_prog (big_com 7 1) (big_com 5 2) (big_com 35 3)), (big_proof big_eb).
  eexists. exists (with_eb big (big_proof big_eb) (big_eb mod 2 ^ 256)).
  split; [exact big_lawful|]. split; [apply big_on; unfold big_order; lia|]. split; [exact big_gens_ok|].
  split; [apply product_shape; vm_compute; reflexivity|]. split; [vm_compute; reflexivity|].
  split; [apply flat_inj; vm_compute; reflexivity|]. split; [vm_compute; reflexivity|].
  split; [vm_compute; reflexivity|]. split; [apply flat_inj; vm_compute; reflexivity|]. split; [reflexivity|]. vm_compute; reflexivity.
Qed.
(** The hypotheses of the round trip, on that proof with a small e_blinding:
    then nothing is lost. *)
Example r1cs_round_trip_ex :
  Forall (fun P => c_deser big (c_ser big P) = Val P /\ length (c_ser big P) = c_ser_len big)
    (let p := big_proof 5 in [r_AI1 big p; r_AO1 big p; r_S1 big p; r_AI2 big p; r_AO2 big p; r_S2 big p; r_T1 big p; r_T3 big p; r_T4 big p; r_T5 big p; r_T6 big p]) /\
  (forall P, c_inf big P = true -> P = identity big) /\
  ipp_from_bytes big (ipp_bytes big (r_ipp big (big_proof 5)) ++ [1; 2]) = Val (r_ipp big (big_proof 5)) /\
  (exists bytes, r1cs_bytes big (big_proof 5) = Val bytes /\ r1cs_from_bytes big (bytes ++ [1; 2]) = Val (big_proof 5)).
Proof.
  split; [repeat constructor; vm_compute; reflexivity|]. split; [intros P E; apply Z.eqb_eq in E; rewrite E; vm_compute; reflexivity|].
  split; [vm_compute; reflexivity|]. eexists. split; [vm_compute; reflexivity|apply flat_inj; vm_compute; reflexivity].
Qed.

Print Assumptions r1cs_exact.
Print Assumptions r1cs_complete.
Print Assumptions r1cs_rejects.
Print Assumptions lc_values.
Print Assumptions r1cs_round_trip.
Print Assumptions r1cs_bytes_refuted.
