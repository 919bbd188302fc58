(** Properties of the Bulletproofs inner product argument and range proof. *)
From Coq Require Import Ascii String.
From Coq Require Import ZArith List Bool Arith Lia Znumtheory Setoid.
From Verif Require Import ZpLib VssModel VssProps LinCodeModel BpModel BpProof BpRange.
Import ListNotations.
Open Scope Z_scope.

(** ** C70: the inner product argument *)

(** What the argument is about: the sum of a_i f_i G_i, of b_i f'_i H_i and of
    <a, b> Q, with the points combined one by one. *)
Fixpoint zdot (a b : list Z) : Z := match a, b with x :: a', y :: b' => x * y + zdot a' b' | _, _ => 0 end.
Fixpoint times (a b : list Z) : list Z := match a, b with x :: a', y :: b' => x * y :: times a' b' | _, _ => [] end.
Definition statement (e : curve) (a b gf hf : list Z) (G H : list (point (grp e))) (Q : point (grp e)) : point (grp e) :=
  g_add (grp e) (g_add (grp e) (lincomb e (times a gf) G) (lincomb e (times b hf) H)) (g_mul (grp e) Q (zdot a b)).
Lemma times_had a : forall b, times a b = had a b.
Proof. unfold had. induction a as [|x a IH]; intros [|y b]; try reflexivity. cbn [times]. rewrite IH. reflexivity. Qed.
Lemma zdot_dot a : forall b, zdot a b = dot a b.
Proof. reflexivity. Qed.

(** An honest proof is accepted for exactly the statement it was made for, and
    for no other point, unless one of its points L, R is the identity: then
    Verify throws. *)
Theorem ipa_exact e : lawful e -> forall st Q gf hf G H a b st' p P,
  on_curve e Q -> Forall (on_curve e) G -> Forall (on_curve e) H -> Z.of_nat (length G) < 2 ^ 32 ->
  create e st Q gf hf G H a b = Val (st', p) ->
  verify e p st gf hf P Q G H =
    if existsb (c_inf e) (i_L p ++ i_R p) then Thrown
    else Val (g_eqb (grp e) (statement e a b gf hf G H Q) P).
Proof.
  intros W st Q gf hf G H a b st' p P [t ->] FG FH SZ E.
  destruct (on_list e G FG) as [gk ->]. destruct (on_list e H FH) as [hk ->]. rewrite map_length in SZ.
  rewrite (ipa_verify e W st t gf hf gk hk a b st' p P SZ E).
  destruct (ipa_core e W st t gf hf gk hk a b st' p SZ E) as [lg [ls [rs [vs [_ [_ [Eh [Ea [Eb [Ef [Ehf _]]]]]]]]]]].
  assert (S : statement e a b gf hf (map (bs e) gk) (map (bs e) hk) (bs e t) = bs e (dot a (had gf gk) + dot b (had hf hk) + t * dot a b)).
  { unfold statement. rewrite !times_had, zdot_dot, !(lincomb_spec e W), (bs_mul e W), !(bs_add e W).
    rewrite !dot_had by congruence. reflexivity. }
  rewrite S. reflexivity.
Qed.

Corollary ipa_complete e : lawful e -> forall st Q gf hf G H a b st' p,
  on_curve e Q -> Forall (on_curve e) G -> Forall (on_curve e) H -> Z.of_nat (length G) < 2 ^ 32 ->
  create e st Q gf hf G H a b = Val (st', p) -> existsb (c_inf e) (i_L p ++ i_R p) = false ->
  verify e p st gf hf (statement e a b gf hf G H Q) Q G H = Val true /\
  (forall P, P <> statement e a b gf hf G H Q -> verify e p st gf hf P Q G H = Val false).
Proof.
  intros W st Q gf hf G H a b st' p HQ FG FH SZ E NI. split; [|intros P N];
    rewrite (ipa_exact e W _ _ _ _ _ _ _ _ _ _ _ HQ FG FH SZ E), NI; f_equal.
  - apply (eqb_eq _ _ (w_cyc e W)). reflexivity.
  - apply not_true_is_false. intros K. apply (eqb_eq _ _ (w_cyc e W)) in K. congruence.
Qed.

(** Create succeeds on equal sizes that are a power of two, whatever the vectors
    are, as long as the transcript gives no zero challenge; on other sizes it
    throws. *)
Theorem ipa_create_total e : lawful e -> (forall st, snd (challenge_scalar e st (text "u")) mod order e <> 0) ->
  forall st Q gf hf G H a b, on_curve e Q -> Forall (on_curve e) G -> Forall (on_curve e) H ->
  (exists r, create e st Q gf hf G H a b = Val r) <->
  (exists k, length G = Nat.pow 2 k) /\ length H = length G /\ length a = length G /\ length b = length G /\
  length gf = length G /\ length hf = length G.
Proof.
  intros W NZ st Q gf hf G H a b [t ->] FG FH.
  assert (NZ' : forall st, ~ eqm (order e) (snd (challenge_scalar e st (text "u"))) 0).
  { intros st0 [K]. rewrite Z.mod_0_l in K by (pose proof (prime_pos _ (w_prime e W)); lia). exact (NZ st0 K). }
  destruct (on_list e G FG) as [gk ->]. destruct (on_list e H FH) as [hk ->]. rewrite !map_length.
  unfold create. rewrite !map_length. split.
  - intros [r E]. destruct (is_power_of_two (length gk)) eqn:P; cbn [andb] in E; [|discriminate].
    unfold is_power_of_two in P. apply andb_true_iff in P. destruct P as [_ P]. apply Nat.eqb_eq in P.
    split; [exists (Nat.log2 (length gk)); congruence|].
    destruct (Nat.eqb_spec (length hk) (length gk)) as [Eh|]; cbn [andb] in E; [|discriminate].
    destruct (Nat.eqb_spec (length a) (length gk)) as [Ea|]; cbn [andb] in E; [|discriminate].
    destruct (Nat.eqb_spec (length b) (length gk)) as [Eb|]; cbn [andb] in E; [|discriminate].
    destruct (Nat.eqb_spec (length gf) (length gk)) as [Ef|]; cbn [andb] in E; [|discriminate].
    destruct (Nat.eqb_spec (length hf) (length gk)) as [Ehf|]; cbn [andb] in E; [|discriminate].
    repeat split; assumption.
  - intros [[k K] [Eh [Ea [Eb [Ef Ehf]]]]].
    assert (P : is_power_of_two (length gk) = true).
    { unfold is_power_of_two. rewrite K, Nat.log2_pow2 by lia. rewrite Nat.eqb_refl, andb_true_r.
      apply negb_true_iff, Nat.eqb_neq, Nat.pow_nonzero. lia. }
    rewrite P, Eh, Ea, Eb, Ef, Ehf, !Nat.eqb_refl. cbn [andb].
    apply (create_loop_total e W NZ' k); cbn [flen]; try congruence.
    rewrite K. pose proof (Nat.pow_gt_lin_r 2 k). lia.
Qed.

(** *** Bytes *)
Lemma from_le_bytes k : forall x, 0 <= x < 256 ^ Z.of_nat k -> from_le (le_bytes k x) = x.
Proof.
  induction k as [|k IH]; intros x B; [cbn in *; lia|]. cbn [le_bytes from_le].
  rewrite Nat2Z.inj_succ, Z.pow_succ_r in B by lia. rewrite IH.
  - pose proof (Z.div_mod x 256). lia.
  - split; [apply Z.div_pos; lia|]. apply Z.div_lt_upper_bound; lia.
Qed.
Lemma le_bytes_length k : forall x, length (le_bytes k x) = k.
Proof. induction k as [|k IH]; intros x; [reflexivity|]. cbn. rewrite IH. reflexivity. Qed.
Lemma scalar_bytes_back x : 0 <= x -> from_le (scalar_bytes x) = x.
Proof.
  intros X. unfold scalar_bytes. apply from_le_bytes. split; [exact X|]. unfold count_bits.
  destruct (Z.eqb_spec x 0) as [->|N]; [apply Z.pow_pos_nonneg; lia|].
  rewrite Z2Nat.id by (pose proof (Z.log2_nonneg x); pose proof (Z.div_pos (Z.log2 x + 1) 8); lia).
  replace 256 with (2 ^ 8) by reflexivity. rewrite <- Z.pow_mul_r by (pose proof (Z.log2_nonneg x); pose proof (Z.div_pos (Z.log2 x + 1) 8); lia).
  apply Z.log2_lt_pow2; [lia|]. pose proof (Z.div_mod (Z.log2 x + 1) 8). pose proof (Z.mod_pos_bound (Z.log2 x + 1) 8). lia.
Qed.
Lemma read_sized_back bs rest : Z.of_nat (length bs) < 2 ^ 32 -> read_sized (sized bs ++ rest) = Val (bs, rest).
Proof.
  intros B. unfold read_sized, sized. rewrite !app_length, le_bytes_length.
  destruct (Nat.leb_spec 4 (4 + length bs + length rest)) as [_|K]; [|lia].
  rewrite <- app_assoc. rewrite firstn_app, skipn_app, le_bytes_length, Nat.sub_diag, firstn_O, app_nil_r.
  rewrite firstn_all2 by (rewrite le_bytes_length; lia). rewrite skipn_all2 by (rewrite le_bytes_length; lia).
  rewrite from_le_bytes by (change (256 ^ Z.of_nat 4) with (2 ^ 32); lia). rewrite Nat2Z.id. cbn [app skipn].
  rewrite app_length. destruct (Nat.leb_spec (length bs) (length bs + length rest)) as [_|K]; [|lia].
  rewrite firstn_app, skipn_app, Nat.sub_diag, firstn_all, skipn_all, app_nil_r. reflexivity.
Qed.
Lemma read_points_back e Ls : forall Rs rest, length Ls = length Rs ->
  Forall (fun P => c_deser e (c_ser e P) = Val P /\ Z.of_nat (length (c_ser e P)) < 2 ^ 32) (Ls ++ Rs) ->
  read_points e (length Ls) (concat (map (fun q => sized (c_ser e (fst q)) ++ sized (c_ser e (snd q))) (combine Ls Rs)) ++ rest) = Val (Ls, Rs, rest).
Proof.
  induction Ls as [|L Ls IH]; intros [|R Rs] rest E F; try discriminate; [reflexivity|].
  cbn [app] in F. inversion F as [|? ? [D1 B1] F']; subst. apply Forall_app in F'. destruct F' as [F1 F2].
  inversion F2 as [|? ? [D2 B2] F3]; subst. cbn [length combine map concat fst snd read_points].
  rewrite <- !app_assoc. rewrite read_sized_back by exact B1. cbn [bind]. rewrite D1. cbn [bind].
  rewrite read_sized_back by exact B2. cbn [bind]. rewrite D2. cbn [bind].
  rewrite IH; [reflexivity|cbn [length] in E; lia|apply Forall_app; split; assumption].
Qed.
(** FromBytes reads back what ToBytes wrote, and ignores what follows it. *)
Theorem ipp_round_trip e p junk :
  (length (i_L p) < 32)%nat -> length (i_L p) = length (i_R p) ->
  Forall (fun P => c_deser e (c_ser e P) = Val P /\ Z.of_nat (length (c_ser e P)) < 2 ^ 32) (i_L p ++ i_R p) ->
  0 <= i_a p < order e -> 0 <= i_b p < order e -> Z.log2 (order e) < 2 ^ 32 ->
  ipp_from_bytes e (ipp_bytes e p ++ junk) = Val p.
Proof.
  intros L E F A B O. unfold ipp_from_bytes, ipp_bytes.
  destruct (Nat.ltb_spec (length ((le_bytes 4 (Z.of_nat (length (i_L p))) ++
     concat (map (fun q => sized (c_ser e (fst q)) ++ sized (c_ser e (snd q))) (combine (i_L p) (i_R p))) ++
     sized (scalar_bytes (i_a p)) ++ sized (scalar_bytes (i_b p))) ++ junk)) 4) as [K|_].
  { rewrite !app_length, le_bytes_length in K. lia. }
  rewrite <- !app_assoc. rewrite firstn_app, skipn_app, le_bytes_length, Nat.sub_diag, firstn_O, app_nil_r.
  rewrite firstn_all2 by (rewrite le_bytes_length; lia). rewrite skipn_all2 by (rewrite le_bytes_length; lia).
  rewrite from_le_bytes by (change (256 ^ Z.of_nat 4) with (2 ^ 32); lia). cbn [app skipn].
  destruct (Z.leb_spec 32 (Z.of_nat (length (i_L p)))) as [K|_]; [lia|]. rewrite Nat2Z.id.
  rewrite read_points_back by assumption. cbn [bind].
  assert (SB : forall x, 0 <= x < order e -> Z.of_nat (length (scalar_bytes x)) < 2 ^ 32).
  { intros x X. unfold scalar_bytes. rewrite le_bytes_length. unfold count_bits. destruct (Z.eqb_spec x 0) as [_|N]; [reflexivity|].
    pose proof (Z.log2_nonneg x) as L0. pose proof (Z.div_pos (Z.log2 x + 1) 8) as D0.
    rewrite Z2Nat.id by lia. assert (Z.log2 x <= Z.log2 (order e)) by (apply Z.log2_le_mono; lia).
    assert ((Z.log2 x + 1) / 8 <= 2 ^ 32 / 8) by (apply Z.div_le_mono; lia). change (2 ^ 32 / 8) with 536870912 in *. lia. }
  rewrite read_sized_back by (apply SB; exact A). cbn [bind]. rewrite read_sized_back by (apply SB; exact B). cbn [bind].
  rewrite !scalar_bytes_back by lia. rewrite !Z.mod_small by assumption. destruct p; reflexivity.
Qed.

(** *** The transcript *)
Inductive tr_op := Append (label message : list Z) | Challenge (label : list Z) (len : Z).
Definition tr_data (o : tr_op) : list Z :=
  match o with
  | Append l msg => Z.of_nat (length l) mod 256 :: l ++ msg
  | Challenge l k => text "challenge" ++ (Z.of_nat (length l) mod 256 :: l) ++ [k mod 256]
  end.
Definition tr_run (e : curve) (ops : list tr_op) : list Z := fold_left (fun st o => update_state e st (tr_data o)) ops (sha256 e []).
(** The model's operations are these. *)
Lemma tr_append e st l msg : append_message e st l msg = update_state e st (tr_data (Append l msg)). Proof. reflexivity. Qed.
Lemma tr_challenge e st l : challenge_scalar e st l =
  let st := update_state e st (tr_data (Challenge l 64)) in (st, from_le (shake256 e st 64) mod order e).
Proof. reflexivity. Qed.
Definition tr_ok (o : tr_op) : Prop :=
  match o with
  | Append l _ => (length l < 256)%nat /\ length l <> 99%nat
  | Challenge l k => (length l < 256)%nat /\ 0 <= k < 256
  end.
Lemma app_len_inv {A} (a b c d : list A) : length a = length c -> a ++ b = c ++ d -> a = c /\ b = d.
Proof.
  revert c. induction a as [|x a IH]; intros [|y c] L E; try discriminate; [split; [reflexivity|exact E]|].
  cbn in *. injection E as -> E. destruct (IH c ltac:(lia) E) as [-> ->]. split; reflexivity.
Qed.
Lemma tr_data_inj o o' : tr_ok o -> tr_ok o' -> tr_data o = tr_data o' -> o = o'.
Proof.
  assert (M : forall l : list Z, (length l < 256)%nat -> Z.of_nat (length l) mod 256 = Z.of_nat (length l)) by (intros l L; apply Z.mod_small; lia).
  assert (X : forall l msg l' k, (length l < 256)%nat -> length l <> 99%nat ->
    Z.of_nat (length l) mod 256 :: l ++ msg <> text "challenge" ++ (Z.of_nat (length l') mod 256 :: l') ++ [k mod 256]).
  { intros l msg l' k L N E. rewrite M in E by exact L. cbn [text list_ascii_of_string map app] in E.
    injection E as E _. change (nat_of_ascii "c") with 99%nat in E. lia. }
  destruct o as [l msg|l k], o' as [l' msg'|l' k']; cbn [tr_ok tr_data]; intros [L N] [L' N'] E.
  - rewrite !M in E by assumption. injection E as E1 E2. apply Nat2Z.inj in E1. destruct (app_len_inv _ _ _ _ E1 E2) as [-> ->]. reflexivity.
  - exfalso. exact (X _ _ _ _ L N E).
  - exfalso. exact (X _ _ _ _ L' N' (eq_sym E)).
  - apply app_inv_head in E. rewrite !M in E by assumption. cbn [app] in E. injection E as E1 E2. apply Nat2Z.inj in E1.
    destruct (app_len_inv _ _ _ _ E1 E2) as [-> E3]. injection E3 as E3. rewrite !Z.mod_small in E3 by assumption. subst. reflexivity.
Qed.
Lemma tr_data_nonempty o : tr_data o <> [].
Proof. destruct o; discriminate. Qed.
(** Two histories that end in the same state are the same history, or exhibit a
    collision of the hash. *)
Theorem transcript_binds e ops : (forall m, length (sha256 e m) = 32%nat) -> forall ops',
  Forall tr_ok ops -> Forall tr_ok ops' -> tr_run e ops = tr_run e ops' ->
  ops = ops' \/ exists a b, a <> b /\ sha256 e a = sha256 e b.
Proof.
  intros H32. unfold tr_run.
  assert (LEN : forall l, length (fold_left (fun st o => update_state e st (tr_data o)) l (sha256 e [])) = 32%nat).
  { intros l. destruct l as [|o l] using rev_ind; [apply H32|]. rewrite fold_left_app. apply H32. }
  induction ops as [|o ops IH] using rev_ind; intros ops' F F' E.
  - destruct ops' as [|o' ops' _] using rev_ind; [constructor; reflexivity|]. rewrite fold_left_app in E. cbn [fold_left] in E. unfold update_state in E at 1.
    constructor 2. eexists. eexists. split; [|exact E]. intros K. symmetry in K. apply app_eq_nil in K. exact (tr_data_nonempty _ (proj2 K)).
  - apply Forall_app in F. destruct F as [F Fo]. inversion Fo; subst.
    destruct ops' as [|o' ops' _] using rev_ind.
    { rewrite fold_left_app in E. cbn [fold_left] in E. unfold update_state in E at 1. constructor 2. eexists. eexists. split; [|exact E].
      intros K. apply app_eq_nil in K. exact (tr_data_nonempty _ (proj2 K)). }
    apply Forall_app in F'. destruct F' as [F' Fo']. inversion Fo'; subst.
    rewrite !fold_left_app in E. cbn [fold_left] in E. unfold update_state in E at 1 3.
    set (s := fold_left (fun st o => update_state e st (tr_data o)) ops (sha256 e [])) in *.
    set (s' := fold_left (fun st o => update_state e st (tr_data o)) ops' (sha256 e [])) in *.
    destruct (list_eq_dec Z.eq_dec (s ++ tr_data o) (s' ++ tr_data o')) as [EE|NE].
    + apply app_len_inv in EE; [|unfold s, s'; rewrite !LEN; reflexivity]. destruct EE as [Es Ed].
      apply tr_data_inj in Ed; [|assumption|assumption]. subst o'.
      destruct (IH ops' F F' Es) as [->|C]; [constructor; reflexivity|constructor 2; exact C].
    + constructor 2. eexists. eexists. split; [exact NE|exact E].
Qed.
(** A message whose label has 99 bytes can be taken for a request for a
    challenge: the two leave the same state. *)
Theorem transcript_label_99_refuted : exists o o' : tr_op, o <> o' /\
  (match o with Append l _ => length l = 99%nat | _ => False end) /\
  (match o' with Challenge l k => length l = 90%nat /\ k = 64 | _ => False end) /\
  forall e st, update_state e st (tr_data o) = update_state e st (tr_data o').
Proof.
  exists (Append (text "hallenge" ++ [90] ++ repeat 117 90) [64]), (Challenge (repeat 117 90) 64).
  split; [discriminate|]. split; [reflexivity|]. split; [split; reflexivity|]. intros e st. reflexivity.
Qed.

(** ** C71: the range proof *)
Definition points_ok (e : curve) (gs : gens (point (grp e))) : Prop :=
  length (g_G gs) = g_parties gs /\ length (g_H gs) = g_parties gs /\
  Forall (fun l => length l = g_cap gs /\ Forall (on_curve e) l) (g_G gs) /\
  Forall (fun l => length l = g_cap gs /\ Forall (on_curve e) l) (g_H gs).
Lemma lists_logs e c (Ls : list (list (point (grp e)))) : Forall (fun l => length l = c /\ Forall (on_curve e) l) Ls ->
  exists K, Ls = map (map (bs e)) K /\ Forall (fun l => length l = c) K.
Proof.
  induction 1 as [|l Ls [E F] _ [K [-> FK]]]; [exists []; split; [reflexivity|constructor]|].
  destruct (on_list e l F) as [k ->]. exists (k :: K). split; [reflexivity|]. constructor; [rewrite map_length in E; exact E|exact FK].
Qed.

(** Over the values v_j with their parts below 2^n removed. *)
Definition excess (z : Z) (n : nat) (values : list Z) : Z :=
  fold_right Z.add 0 (map (fun j => z ^ Z.of_nat j * (nth j values 0 / 2 ^ Z.of_nat n * 2 ^ Z.of_nat n)) (seq 0 (length values))).
Lemma excess_sm z n values : excess z n values = sm (length values) (fun j => pw z j * (nth j values 0 - nth j values 0 mod 2 ^ Z.of_nat n)).
Proof.
  unfold excess. rewrite (sm_ext _ (fun j => pw z j * (nth j values 0 - nth j values 0 mod 2 ^ Z.of_nat n))
    (fun j => z ^ Z.of_nat j * (nth j values 0 / 2 ^ Z.of_nat n * 2 ^ Z.of_nat n))).
  - generalize (length values). induction n0 as [|k IH]; [reflexivity|]. rewrite seq_S, map_app, fold_right_app. cbn [map fold_right sm Nat.add].
    rewrite <- IH. generalize (map (fun j => z ^ Z.of_nat j * (nth j values 0 / 2 ^ Z.of_nat n * 2 ^ Z.of_nat n)) (seq 0 k)).
    intros l. generalize (z ^ Z.of_nat k * (nth k values 0 / 2 ^ Z.of_nat n * 2 ^ Z.of_nat n)). intros c.
    induction l as [|x l IHl]; cbn [fold_right]; lia.
  - intros j _. unfold pw. f_equal. assert (0 < 2 ^ Z.of_nat n) by (apply Z.pow_pos_nonneg; lia).
    pose proof (Z.div_mod (nth j values 0) (2 ^ Z.of_nat n)). lia.
Qed.

(** A proof made by ProveMultiple, for any values, is accepted exactly when the
    challenges w and z satisfy w z^2 sum_j z^j (v_j - v_j mod 2^n) = 0; it throws
    when one of its points is the identity.  The t_x it carries plays no part:
    the same holds when the prover sends any other t_x. *)
Theorem range_exact e : lawful e -> forall claim B_bl gs values blindings n tapes st st' p Vs,
  on_curve e B_bl -> points_ok e gs ->
  Forall (fun v => 0 <= v) values -> Z.of_nat (n * length values) < 2 ^ 32 ->
  prove_with e (bs e 1) B_bl claim st gs values blindings n tapes = Val (st', p, Vs) ->
  verify_multiple e (bs e 1) B_bl p st gs Vs n =
    if existsb (c_inf e) ([p_A p; p_S p; p_T1 p; p_T2 p] ++ i_L (p_ipp p) ++ i_R (p_ipp p)) then Thrown
    else let '(_, z, _, w) := range_challenges e st p Vs n in
         Val ((w * z ^ 2 * excess z n values) mod order e =? 0).
Proof.
  intros W claim B_bl gs values blindings n tapes st st' p Vs [beta ->] [LG [LH [FG FH]]] FV SZ E.
  destruct (lists_logs e _ _ FG) as [GK [EG FGK]]. destruct (lists_logs e _ _ FH) as [HK [EH FHK]].
  destruct (range_equation e W claim beta gs GK HK values blindings n tapes st st' p Vs EG EH
    ltac:(rewrite EG, map_length in LG; exact LG) ltac:(rewrite EH, map_length in LH; exact LH) FGK FHK FV SZ E) as [_ ->].
  destruct (existsb (c_inf e) _); [reflexivity|].
  destruct (range_challenges e st p Vs n) as [[[y z] x] w]. f_equal. rewrite excess_sm.
  replace (z ^ 2) with (z * z) by ring.
  apply eq_true_iff_eq. rewrite (w_inf e W), Z.eqb_eq. tauto.
Qed.

(** The commitments that ProveMultiple returns are v_j B + r_j B'. *)
Theorem range_commitments e : lawful e -> forall B_bl gs values blindings n tapes st st' p Vs,
  on_curve e B_bl -> points_ok e gs -> Forall (fun v => 0 <= v) values -> Z.of_nat (n * length values) < 2 ^ 32 ->
  prove_multiple e (bs e 1) B_bl st gs values blindings n tapes = Val (st', p, Vs) ->
  Vs = map (fun j => g_add (grp e) (g_mul (grp e) (bs e 1) (nth j values 0)) (g_mul (grp e) B_bl (nth j blindings 0))) (seq 0 (length values)).
Proof.
  intros W B_bl gs values blindings n tapes st st' p Vs [beta ->] [LG [LH [FG FH]]] FV SZ E.
  destruct (lists_logs e _ _ FG) as [GK [EG FGK]]. destruct (lists_logs e _ _ FH) as [HK [EH FHK]].
  destruct (range_equation e W (fun t => t) beta gs GK HK values blindings n tapes st st' p Vs EG EH
    ltac:(rewrite EG, map_length in LG; exact LG) ltac:(rewrite EH, map_length in LH; exact LH) FGK FHK FV SZ E) as [-> _].
  apply map_ext. intros j. rewrite !(bs_mul e W), (bs_add e W). f_equal. lia.
Qed.

(** Values in range: accepted. *)
Theorem range_complete e : lawful e -> forall B_bl gs values blindings n tapes st st' p Vs,
  on_curve e B_bl -> points_ok e gs ->
  Forall (fun v => 0 <= v < 2 ^ Z.of_nat n) values -> Z.of_nat (n * length values) < 2 ^ 32 ->
  prove_multiple e (bs e 1) B_bl st gs values blindings n tapes = Val (st', p, Vs) ->
  existsb (c_inf e) ([p_A p; p_S p; p_T1 p; p_T2 p] ++ i_L (p_ipp p) ++ i_R (p_ipp p)) = false ->
  verify_multiple e (bs e 1) B_bl p st gs Vs n = Val true.
Proof.
  intros W B_bl gs values blindings n tapes st st' p Vs HB HP FV SZ E NI.
  rewrite (range_exact e W (fun t => t) B_bl gs values blindings n tapes st st' p Vs HB HP) by
    (first [exact SZ | exact E | eapply Forall_impl; [|exact FV]; cbn; lia]).
  rewrite NI. destruct (range_challenges e st p Vs n) as [[[y z] x] w].
  assert (X : excess z n values = 0).
  { unfold excess. assert (K : forall j, nth j values 0 / 2 ^ Z.of_nat n = 0).
    { intros j. destruct (Nat.lt_ge_cases j (length values)) as [J|J].
      - rewrite Forall_forall in FV. apply Z.div_small. apply FV. apply nth_In. exact J.
      - rewrite nth_overflow by exact J. apply Z.div_0_l. pose proof (Z.pow_pos_nonneg 2 (Z.of_nat n)). lia. }
    induction (seq 0 (length values)) as [|a l IH]; [reflexivity|]. cbn [map fold_right]. rewrite IH, K. lia. }
  rewrite X, Z.mul_0_r, Z.mod_0_l; [reflexivity|]. pose proof (prime_pos _ (w_prime e W)). lia.
Qed.
(** One value out of range: rejected, unless a challenge is zero or the part of
    the value above 2^n is a multiple of the group order. *)
Theorem range_rejects e : lawful e -> forall B_bl gs v r n tapes st st' p Vs,
  on_curve e B_bl -> points_ok e gs -> 0 <= v ->
  (v / 2 ^ Z.of_nat n * 2 ^ Z.of_nat n) mod order e <> 0 ->
  prove_multiple e (bs e 1) B_bl st gs [v] [r] n tapes = Val (st', p, Vs) ->
  (let '(_, z, _, w) := range_challenges e st p Vs n in z mod order e <> 0 /\ w mod order e <> 0) ->
  verify_multiple e (bs e 1) B_bl p st gs Vs n <> Val true.
Proof.
  intros W B_bl gs v r n tapes st st' p Vs HB HP HV HX E NZ.
  assert (P2 : 0 < 2 ^ Z.of_nat n) by (apply Z.pow_pos_nonneg; lia).
  assert (Hn : (n <= 64)%nat).
  { unfold prove_multiple, prove_with in E. cbn [length Nat.eqb negb] in E. destruct (valid_bits n) eqn:VB; [|discriminate].
    unfold valid_bits in VB. repeat (apply orb_true_iff in VB; destruct VB as [VB|VB]); apply Nat.eqb_eq in VB; lia. }
  rewrite (range_exact e W (fun t => t) B_bl gs [v] [r] n tapes st st' p Vs HB HP) by
    (first [exact E | cbn [length]; lia | constructor; [lia|constructor]]).
  destruct (existsb _ _); [discriminate|]. destruct (range_challenges e st p Vs n) as [[[y z] x] w]. destruct NZ as [Nz Nw].
  assert (VI : forall a b : bool, Val a = Val b -> a = b) by (intros a b K; congruence).
  intros K. apply VI, Z.eqb_eq in K.
  assert (Q := prime_pos _ (w_prime e W)).
  assert (M : eqm (order e) (w * z ^ 2 * excess z n [v]) 0) by (constructor; rewrite K, Z.mod_0_l; lia).
  assert (X : excess z n [v] = v / 2 ^ Z.of_nat n * 2 ^ Z.of_nat n).
  { unfold excess. cbn [length seq map fold_right nth]. change (Z.of_nat 0) with 0. rewrite Z.pow_0_r. lia. }
  rewrite X in M.
  assert (NE : forall c, c mod order e <> 0 -> ~ eqm (order e) c 0) by (intros c C [D]; rewrite Z.mod_0_l in D by lia; exact (C D)).
  apply eqm_prime_mul in M; [|exact (w_prime e W)]. destruct M as [M|M].
  - apply eqm_prime_mul in M; [|exact (w_prime e W)]. destruct M as [M|M]; [exact (NE w Nw M)|].
    replace (z ^ 2) with (z * z) in M by ring. apply eqm_prime_mul in M; [|exact (w_prime e W)]. destruct M as [M|M]; exact (NE z Nz M).
  - exact (NE _ HX M).
Qed.
(** With a group order above 2^64 that is every 64-bit value from 2^n on. *)
Corollary range_rejects_64 e : lawful e -> forall B_bl gs v r n tapes st st' p Vs,
  on_curve e B_bl -> points_ok e gs -> 2 ^ 64 < order e -> 2 ^ Z.of_nat n <= v < 2 ^ 64 ->
  prove_multiple e (bs e 1) B_bl st gs [v] [r] n tapes = Val (st', p, Vs) ->
  (let '(_, z, _, w) := range_challenges e st p Vs n in z mod order e <> 0 /\ w mod order e <> 0) ->
  verify_multiple e (bs e 1) B_bl p st gs Vs n <> Val true.
Proof.
  intros W B_bl gs v r n tapes st st' p Vs HB HP HO HV E NZ.
  assert (P2 : 0 < 2 ^ Z.of_nat n) by (apply Z.pow_pos_nonneg; lia).
  apply (range_rejects e W B_bl gs v r n tapes st st' p Vs HB HP); [lia| |exact E|exact NZ].
  pose proof (Z.div_mod v (2 ^ Z.of_nat n)). pose proof (Z.mod_pos_bound v (2 ^ Z.of_nat n)).
  assert (1 <= v / 2 ^ Z.of_nat n) by (apply Z.div_le_lower_bound; lia).
  rewrite Z.mod_small by nia. nia.
Qed.

(** *** The generators *)
(** Growing the generators in steps gives the same vectors as asking for the
    final capacity at once. *)
Lemma new_gens_G e cap parties : g_G (new_gens e cap parties) = map (fun i => map (chain_next e (party_label "G" i)) (seq 0 cap)) (seq 0 parties) /\
  g_H (new_gens e cap parties) = map (fun i => map (chain_next e (party_label "H" i)) (seq 0 cap)) (seq 0 parties) /\
  g_cap (new_gens e cap parties) = cap /\ g_parties (new_gens e cap parties) = parties.
Proof.
  assert (R : forall (A : Type) i k, nth i (repeat (@nil A) k) [] = []).
  { intros A i k. revert i. induction k as [|k IH]; intros [|i]; cbn; auto. }
  unfold new_gens, increase. cbn [g_cap g_parties g_G g_H]. destruct (Nat.leb_spec cap 0) as [L|L].
  - replace cap with 0%nat by lia. cbn [g_cap g_parties g_G g_H]. cbn [seq map].
    assert (K : forall a, repeat (@nil (point (grp e))) parties = map (fun _ => []) (seq a parties)).
    { induction parties as [|k IH]; intros a; [reflexivity|]. cbn [repeat seq map]. rewrite <- IH. reflexivity. }
    repeat split; apply K.
  - cbn [g_cap g_parties g_G g_H]. repeat split; apply map_ext; intros i; unfold extend_chain; rewrite R, Nat.sub_0_r; reflexivity.
Qed.
Theorem generators_stable e parties caps : forall cap,
  fold_left (increase e) caps (new_gens e cap parties) = new_gens e (fold_left Nat.max caps cap) parties.
Proof.
  induction caps as [|c caps IH]; intros cap; [reflexivity|]. cbn [fold_left]. rewrite <- IH. f_equal.
  destruct (new_gens_G e cap parties) as [EG [EH [EC EP]]].
  unfold increase at 1. rewrite EC. destruct (Nat.leb_spec c cap) as [L|L].
  - replace (Nat.max cap c) with cap by lia. reflexivity.
  - replace (Nat.max cap c) with c by lia. destruct (new_gens_G e c parties) as [FG [FH [FC FP]]].
    destruct (new_gens e c parties) as [c' p' G' H']. cbn [g_cap g_parties g_G g_H] in *. subst c' p' G' H'.
    rewrite EP, EG, EH. f_equal; apply map_ext_in; intros i I; apply in_seq in I; unfold extend_chain;
      (rewrite nth_map_seq by lia); rewrite <- map_app, <- seq_app; do 2 f_equal; lia.
Qed.
(** They satisfy the hypothesis of the theorems above. *)
Theorem generators_ok e cap parties : (forall m, on_curve e (c_h2c e m)) -> points_ok e (new_gens e cap parties).
Proof.
  intros HC. destruct (new_gens_G e cap parties) as [EG [EH [EC EP]]]. unfold points_ok. rewrite EG, EH, EC, EP, !map_length, !seq_length.
  assert (K : forall c, Forall (fun l : list (point (grp e)) => length l = cap /\ Forall (on_curve e) l)
      (map (fun i => map (chain_next e (party_label c i)) (seq 0 cap)) (seq 0 parties))).
  { intros c. apply Forall_forall. intros l L. apply in_map_iff in L. destruct L as [i [<- _]]. rewrite map_length, seq_length. split; [reflexivity|].
    apply Forall_forall. intros P HP. apply in_map_iff in HP. destruct HP as [j [<- _]]. apply HC. }
  repeat split; apply K.
Qed.

(** *** Bytes *)
Theorem rproof_round_trip e p junk bytes :
  Forall (fun P => c_deser e (c_ser e P) = Val P /\ length (c_ser e P) = c_ser_len e) [p_A p; p_S p; p_T1 p; p_T2 p] ->
  0 <= p_tx p -> 0 <= p_txb p -> 0 <= p_eb p ->
  ipp_from_bytes e (ipp_bytes e (p_ipp p) ++ junk) = Val (p_ipp p) ->
  rproof_bytes e p = Val bytes -> rproof_from_bytes e (bytes ++ junk) = Val p.
Proof.
  intros F X1 X2 X3 IP E. unfold rproof_bytes, scalar32 in E.
  destruct (Z.ltb_spec (p_tx p) (2 ^ 256)) as [B1|]; [|discriminate]. cbn [bind] in E.
  destruct (Z.ltb_spec (p_txb p) (2 ^ 256)) as [B2|]; [|discriminate]. cbn [bind] in E.
  destruct (Z.ltb_spec (p_eb p) (2 ^ 256)) as [B3|]; [|discriminate]. cbn [bind] in E.
  destruct (Nat.ltb _ _); [discriminate|]. destruct (Nat.eqb _ _); [|discriminate].
  assert (VI : forall a b : list Z, Val a = Val b -> a = b) by (intros a b K; congruence).
  apply VI in E. subst bytes.
  inversion F as [|? ? [D1 L1] F1]; subst. inversion F1 as [|? ? [D2 L2] F2]; subst. inversion F2 as [|? ? [D3 L3] F3]; subst. inversion F3 as [|? ? [D4 L4] _]; subst.
  set (k := c_ser_len e) in *. unfold rproof_from_bytes. fold k.
  set (bs0 := (c_ser e (p_A p) ++ c_ser e (p_S p) ++ c_ser e (p_T1 p) ++ c_ser e (p_T2 p) ++
     le_bytes 32 (p_tx p) ++ le_bytes 32 (p_txb p) ++ le_bytes 32 (p_eb p) ++ ipp_bytes e (p_ipp p)) ++ junk).
  assert (LB : (4 * k + 3 * 32 <= length bs0)%nat) by (unfold bs0; rewrite !app_length, L1, L2, L3, L4, !le_bytes_length; lia).
  destruct (Nat.ltb_spec (length bs0) (4 * k + 3 * 32)) as [K|_]; [lia|]. clear LB.
  assert (SK : forall (a b : list Z) i, skipn (length a + i) (a ++ b) = skipn i b).
  { intros a b i. rewrite skipn_app. rewrite skipn_all2 by lia. replace (length a + i - length a)%nat with i by lia. reflexivity. }
  assert (FI : forall a b : list Z, firstn (length a) (a ++ b) = a).
  { intros a b. rewrite firstn_app, Nat.sub_diag, firstn_all, firstn_O, app_nil_r. reflexivity. }
  set (r5 := le_bytes 32 (p_tx p) ++ le_bytes 32 (p_txb p) ++ le_bytes 32 (p_eb p) ++ ipp_bytes e (p_ipp p) ++ junk).
  assert (EB : bs0 = c_ser e (p_A p) ++ c_ser e (p_S p) ++ c_ser e (p_T1 p) ++ c_ser e (p_T2 p) ++ r5) by (unfold bs0, r5; rewrite <- !app_assoc; reflexivity).
  assert (S1 : forall i, skipn (k + i) bs0 = skipn i (c_ser e (p_S p) ++ c_ser e (p_T1 p) ++ c_ser e (p_T2 p) ++ r5)) by (intros i; rewrite EB, <- L1; apply SK).
  assert (S2 : forall i, skipn (2 * k + i) bs0 = skipn i (c_ser e (p_T1 p) ++ c_ser e (p_T2 p) ++ r5)).
  { intros i. replace (2 * k + i)%nat with (k + (k + i))%nat by lia. rewrite S1. rewrite <- L2 at 1. apply SK. }
  assert (S3 : forall i, skipn (3 * k + i) bs0 = skipn i (c_ser e (p_T2 p) ++ r5)).
  { intros i. replace (3 * k + i)%nat with (2 * k + (k + i))%nat by lia. rewrite S2. rewrite <- L3 at 1. apply SK. }
  assert (S4 : forall i, skipn (4 * k + i) bs0 = skipn i r5).
  { intros i. replace (4 * k + i)%nat with (3 * k + (k + i))%nat by lia. rewrite S3. rewrite <- L4 at 1. apply SK. }
  pose proof (S1 0%nat) as S10. pose proof (S2 0%nat) as S20. pose proof (S3 0%nat) as S30. pose proof (S4 0%nat) as S40.
  rewrite Nat.add_0_r in S10, S20, S30, S40. cbn [skipn] in S10, S20, S30, S40.
  rewrite S10, S20, S30, S40, !S4, skipn_O.
  assert (A0 : firstn k bs0 = c_ser e (p_A p)) by (rewrite EB, <- L1; apply FI). rewrite A0, D1. cbn [bind].
  rewrite <- L2 at 1. rewrite FI, D2. cbn [bind]. rewrite <- L3 at 1. rewrite FI, D3. cbn [bind]. rewrite <- L4 at 1. rewrite FI, D4. cbn [bind].
  assert (R32 : skipn 32 r5 = le_bytes 32 (p_txb p) ++ le_bytes 32 (p_eb p) ++ ipp_bytes e (p_ipp p) ++ junk).
  { unfold r5. rewrite <- (le_bytes_length 32 (p_tx p)) at 1. rewrite <- (Nat.add_0_r (length (le_bytes 32 (p_tx p)))). rewrite SK. reflexivity. }
  assert (R64 : skipn 64 r5 = le_bytes 32 (p_eb p) ++ ipp_bytes e (p_ipp p) ++ junk).
  { unfold r5. replace 64%nat with (length (le_bytes 32 (p_tx p)) + (length (le_bytes 32 (p_txb p)) + 0))%nat by (rewrite !le_bytes_length; reflexivity).
    rewrite !SK. reflexivity. }
  assert (R96 : skipn 96 r5 = ipp_bytes e (p_ipp p) ++ junk).
  { unfold r5. replace 96%nat with (length (le_bytes 32 (p_tx p)) + (length (le_bytes 32 (p_txb p)) + (length (le_bytes 32 (p_eb p)) + 0)))%nat by (rewrite !le_bytes_length; reflexivity).
    rewrite !SK. reflexivity. }
  rewrite R32, R64, R96, IP. cbn [bind].
  assert (F32 : forall x rest, firstn 32 (le_bytes 32 x ++ rest) = le_bytes 32 x).
  { intros x rest. rewrite <- (le_bytes_length 32 x) at 1. apply FI. }
  unfold r5. rewrite !F32. rewrite !from_le_bytes by (change (256 ^ Z.of_nat 32) with (2 ^ 256); lia). destruct p; reflexivity.
Qed.

(** ** Concrete cases *)
(** The integers modulo 101 with toy hashes. *)
Definition toy_mix (m : list Z) : Z := fold_left (fun h b => (h * 33 + b + 7) mod 65521) m 5381.
Definition toy : curve :=
  {| grp := zgroup 101; order := 101;
     c_sub := fun a b => (a - b) mod 101; c_inf := fun a => a =? 0;
     c_ser := fun a => [a]; c_deser := fun l => match l with [a] => Val a | _ => Thrown end; c_ser_len := 1;
     c_h2c := fun m => toy_mix m mod 101;
     sha256 := fun m => le_bytes 32 (toy_mix m * 40503 + 12345);
     shake256 := fun m k => let h := toy_mix m in map (fun i => ((h + Z.of_nat i * Z.of_nat i) / 3) mod 256) (seq 0 k) |}.
Lemma prime_101 : prime 101.
Proof.
  constructor; [lia|]. intros k K. apply Zgcd_1_rel_prime.
  assert (A : forallb (fun i => Z.gcd (Z.of_nat i) 101 =? 1) (seq 1 100) = true) by (vm_compute; reflexivity).
  rewrite forallb_forall in A. specialize (A (Z.to_nat k)). rewrite Z2Nat.id in A by lia.
  apply Z.eqb_eq, A, in_seq. lia.
Qed.
Lemma toy_lawful : lawful toy.
Proof.
  constructor.
  - exact prime_101.
  - apply (zgroup_cyclic 101). lia.
  - intros a b. cbn -[Z.modulo]. unfold bs. cbn -[Z.modulo]. change (1 mod 101) with 1. rewrite !Z.mul_1_l. symmetry. apply Zminus_mod.
  - intros a. unfold bs. cbn -[Z.modulo]. rewrite Z.eqb_eq. change (1 mod 101) with 1. rewrite Z.mul_1_l. reflexivity.
Qed.

Definition toy_st := new_transcript toy (text "test").
Definition toy_G : list Z := [5; 17; 88; 3].
Definition toy_H : list Z := [9; 44; 71; 60].
Definition toy_p : ipp Z := {| i_L := [99; 95]; i_R := [97; 53]; i_a := 23; i_b := 94 |}.
(** C70: the hypotheses of [ipa_exact] and [ipa_complete] on vectors of four,
    with all the factors, and both outcomes. *)
Example ipa_exact_ex :
  (exists st', create toy toy_st 29 [1; 1; 2; 5] [1; 7; 49; 40] toy_G toy_H [3; 0; 55; 8] [4; 100; 6; 1] = Val (st', toy_p)) /\
  existsb (c_inf toy) (i_L toy_p ++ i_R toy_p) = false /\
  verify toy toy_p toy_st [1; 1; 2; 5] [1; 7; 49; 40]
    (statement toy [3; 0; 55; 8] [4; 100; 6; 1] [1; 1; 2; 5] [1; 7; 49; 40] toy_G toy_H 29) 29 toy_G toy_H = Val true /\
  verify toy toy_p toy_st [1; 1; 2; 5] [1; 7; 49; 40] 1 29 toy_G toy_H = Val false.
Proof.
  split; [exists [75; 147; 183; 96; 0; 0; 0; 0; 0; 0; 0; 0; 0; 0; 0; 0; 0; 0; 0; 0; 0; 0; 0; 0; 0; 0; 0; 0; 0; 0; 0; 0]; vm_compute; reflexivity|].
  vm_compute. repeat split; reflexivity.
Qed.
Lemma toy_on k : 0 <= k < 101 -> on_curve toy k.
Proof. intros K. exists k. unfold bs. cbn -[Z.modulo]. change (1 mod 101) with 1. rewrite Z.mul_1_l, Z.mod_small; [reflexivity|exact K]. Qed.
Example ipa_points_ex : on_curve toy 29 /\ Forall (on_curve toy) toy_G /\ Forall (on_curve toy) toy_H /\ Z.of_nat (length toy_G) < 2 ^ 32.
Proof. repeat split; try apply toy_on; try lia; repeat constructor; apply toy_on; lia. Qed.
(** The honest proof about the zero vectors, made by Create, makes Verify throw:
    its points are the identity. *)
Theorem ipa_zero_vectors_refuted : exists e st Q ones G H st' p, lawful e /\
  Forall (on_curve e) (Q :: G ++ H) /\
  create e st Q ones ones G H [0; 0; 0; 0] [0; 0; 0; 0] = Val (st', p) /\
  verify e p st ones ones (statement e [0; 0; 0; 0] [0; 0; 0; 0] ones ones G H Q) Q G H = Thrown.
Proof.
  exists toy, toy_st, 29, [1; 1; 1; 1], toy_G, toy_H,
    [138; 251; 164; 137; 0; 0; 0; 0; 0; 0; 0; 0; 0; 0; 0; 0; 0; 0; 0; 0; 0; 0; 0; 0; 0; 0; 0; 0; 0; 0; 0; 0],
    {| i_L := [0; 0] : list (point (grp toy)); i_R := [0; 0]; i_a := 0; i_b := 0 |}.
  split; [exact toy_lawful|]. split; [repeat constructor; apply toy_on; lia|]. split; vm_compute; reflexivity.
Qed.
(** A run of sizes that Create refuses, and one it accepts. *)
Example ipa_sizes_ex : create toy toy_st 29 [1; 1; 1] [1; 1; 1] [5; 17; 88] [9; 44; 71] [1; 2; 3] [4; 5; 6] = Thrown /\
  create toy toy_st 29 [1; 1] [1] [5; 17] [9; 44] [1; 2] [4; 5] = Thrown.
Proof. vm_compute. split; reflexivity. Qed.
(** A transcript that never gives a zero challenge exists. *)
Definition toy_ones : curve :=
  {| grp := zgroup 101; order := 101; c_sub := c_sub toy; c_inf := c_inf toy; c_ser := c_ser toy; c_deser := c_deser toy; c_ser_len := 1;
     c_h2c := c_h2c toy; sha256 := sha256 toy; shake256 := fun _ k => repeat 1 k |}.
Example ipa_create_total_ex : lawful toy_ones /\ (forall st, snd (challenge_scalar toy_ones st (text "u")) mod order toy_ones <> 0).
Proof. split; [destruct toy_lawful; constructor; assumption|]. intros st. vm_compute. discriminate. Qed.
Example ipp_round_trip_ex : ipp_from_bytes toy (ipp_bytes toy toy_p ++ [1; 2; 3]) = Val toy_p /\
  ipp_bytes toy toy_p = [2; 0; 0; 0;  1; 0; 0; 0; 99;  1; 0; 0; 0; 97;  1; 0; 0; 0; 95;  1; 0; 0; 0; 53;  1; 0; 0; 0; 23;  1; 0; 0; 0; 94].
Proof. vm_compute. split; reflexivity. Qed.
(** Two different encodings of one proof. *)
Theorem ipp_bytes_malleable_refuted : exists e b b', b <> b' /\ ipp_from_bytes e b = ipp_from_bytes e b' /\ exists p, ipp_from_bytes e b = Val p.
Proof.
  exists toy, (ipp_bytes toy toy_p), (ipp_bytes toy toy_p ++ [1; 2; 3]).
  split; [vm_compute; discriminate|]. split; [vm_compute; reflexivity|]. exists toy_p. vm_compute. reflexivity.
Qed.
(** The transcript hypotheses: the labels of this code are short. *)
Example transcript_binds_ex : (forall m, length (sha256 toy m) = 32%nat) /\
  Forall tr_ok [Append (text "dom-sep") (text "ipp v1"); Append (text "n") (le_bytes 8 4); Append (text "L") [99]; Challenge (text "u") 64].
Proof. split; [intros m; apply le_bytes_length|]. repeat constructor; cbn; lia. Qed.

(** C71. *)
Definition toy_gens : gens (point (grp toy)) :=
  {| g_cap := 8; g_parties := 2;
     g_G := [[6; 98; 69; 33; 65; 92; 6; 98]; [92; 17; 0; 64; 96; 22; 92; 17]] : list (list (point (grp toy)));
     g_H := [[25; 92; 88; 21; 22; 16; 25; 92]; [5; 36; 1; 32; 31; 24; 5; 36]] |}.
Example toy_gens_ex : new_gens toy 8 2 = toy_gens.
Proof. vm_compute. reflexivity. Qed.
Lemma toy_gens_ok : points_ok toy toy_gens.
Proof.
  rewrite <- toy_gens_ex. apply generators_ok. intros m. exists (toy_mix m). unfold bs. cbn -[Z.modulo toy_mix].
  change (1 mod 101) with 1. rewrite Z.mul_1_l. reflexivity.
Qed.
Definition toy_tape (j : nat) : tape :=
  {| d_a := 13 + Z.of_nat j; d_s := 22; d_sL := fun i => (Z.of_nat i * 7 + 3) mod 101;
     d_sR := fun i => (Z.of_nat i * 31 + 8) mod 101; d_t1 := 77; d_t2 := 34 |}.
Definition toy_rp : rproof (point (grp toy)) :=
  {| p_A := 81 : point (grp toy); p_S := 10; p_T1 := 14; p_T2 := 70; p_tx := 81; p_txb := 9; p_eb := 26;
     p_ipp := {| i_L := [7; 92; 39; 49]; i_R := [43; 97; 83; 75]; i_a := 88; i_b := 69 |} |}.
Definition proof_of (r : outcome (list Z * rproof (point (grp toy)) * list (point (grp toy)))) : outcome (rproof (point (grp toy)) * list (point (grp toy))) :=
  match r with Val (_, p, Vs) => Val (p, Vs) | Thrown => Thrown | OutOfBounds => OutOfBounds | Hangs => Hangs end.
(** Two values in range: the proof is accepted. *)
Example range_complete_ex :
  proof_of (prove_multiple toy 1 64 toy_st toy_gens [200; 37] [11; 12] 8 toy_tape) = Val (toy_rp, [96; 98]) /\
  existsb (c_inf toy) ([p_A toy_rp; p_S toy_rp; p_T1 toy_rp; p_T2 toy_rp] ++ i_L (p_ipp toy_rp) ++ i_R (p_ipp toy_rp)) = false /\
  verify_multiple toy 1 64 toy_rp toy_st toy_gens [96; 98] 8 = Val true /\
  verify_multiple toy 1 64 toy_rp toy_st toy_gens [96; 97] 8 = Val false.
Proof. vm_compute. repeat split; reflexivity. Qed.
(** One value out of range: rejected. *)
Definition toy_bad : rproof (point (grp toy)) :=
  {| p_A := 63 : point (grp toy); p_S := 1; p_T1 := 32; p_T2 := 75; p_tx := 87; p_txb := 94; p_eb := 52;
     p_ipp := {| i_L := [98; 91; 24]; i_R := [56; 92; 75]; i_a := 79; i_b := 14 |} |}.
Example range_rejects_ex :
  proof_of (prove_multiple toy 1 64 toy_st toy_gens [300] [11] 8 toy_tape) = Val (toy_bad, [95]) /\
  (300 / 2 ^ 8 * 2 ^ 8) mod order toy <> 0 /\
  range_challenges toy toy_st toy_bad [95] 8 = (77, 33, 89, 14) /\
  verify_multiple toy 1 64 toy_bad toy_st toy_gens [95] 8 = Val false.
Proof. vm_compute. repeat split; try discriminate; reflexivity. Qed.

(** The equation that ties t_x to the commitment, from the protocol's
    description: t_x B + t_x' B' = delta(y, z) B + z^2 V + x T_1 + x^2 T_2. *)
Definition tx_equation (e : curve) (B B_bl : point (grp e)) (n : nat) (st : list Z) (p : rproof (point (grp e))) (V : point (grp e)) : Prop :=
  let '(y, z, x, _) := range_challenges e st p [V] n in
  let add := g_add (grp e) in let mul := g_mul (grp e) in
  let powers b := fold_right Z.add 0 (map (fun i => b ^ Z.of_nat i) (seq 0 n)) in
  add (mul B (p_tx p)) (mul B_bl (p_txb p)) =
  add (add (mul B ((z - z ^ 2) * powers y - z ^ 3 * powers 2)) (mul V (z ^ 2))) (add (mul (p_T1 p) x) (mul (p_T2 p) (x ^ 2))).
(** The verifier does not check it: it adds this equation and the one for the
    inner product with the same factor w, and t_x cancels.  The honest proof
    satisfies it; a prover who sends t_x + 1 is accepted all the same. *)
Definition toy_one (tx : Z) (eb a b : Z) (L R : list (point (grp toy))) : rproof (point (grp toy)) :=
  {| p_A := 19 : point (grp toy); p_S := 1; p_T1 := 12; p_T2 := 23; p_tx := tx; p_txb := 38; p_eb := eb;
     p_ipp := {| i_L := L; i_R := R; i_a := a; i_b := b |} |}.
Theorem range_tx_unchecked_refuted : exists e B_bl gs st tapes p, lawful e /\ on_curve e B_bl /\ points_ok e gs /\
  (exists st' Vs, prove_with e (bs e 1) B_bl (fun t => (t + 1) mod order e) st gs [200] [11] 8 tapes = Val (st', p, Vs) /\
    verify_multiple e (bs e 1) B_bl p st gs Vs 8 = Val true /\
    forall V, Vs = [V] -> ~ tx_equation e (bs e 1) B_bl 8 st p V).
Proof.
  exists toy, 64, toy_gens, toy_st, toy_tape, (toy_one 37 5 94 42 [35; 96; 94] [91; 18; 14]).
  split; [exact toy_lawful|]. split; [apply toy_on; lia|]. split; [exact toy_gens_ok|].
  exists [98; 61; 251; 157; 0; 0; 0; 0; 0; 0; 0; 0; 0; 0; 0; 0; 0; 0; 0; 0; 0; 0; 0; 0; 0; 0; 0; 0; 0; 0; 0; 0], [96].
  split; [vm_compute; reflexivity|]. split; [vm_compute; reflexivity|].
  intros V E. injection E as <-. vm_compute. discriminate.
Qed.
Example tx_equation_ex :
  proof_of (prove_multiple toy 1 64 toy_st toy_gens [200] [11] 8 toy_tape) = Val (toy_one 36 5 43 8 [4; 81; 100] [19; 10; 37], [96]) /\
  tx_equation toy 1 64 8 toy_st (toy_one 36 5 43 8 [4; 81; 100] [19; 10; 37]) 96.
Proof. vm_compute. split; reflexivity. Qed.

Example generators_stable_ex : fold_left (increase toy) [1%nat; 3%nat; 2%nat] (new_gens toy 2 2) = new_gens toy 3 2 /\
  g_G (new_gens toy 3 2) = [[6; 98; 69]; [92; 17; 0]].
Proof. split; [apply generators_stable|]. vm_compute. reflexivity. Qed.
Example rproof_round_trip_ex : exists b, rproof_bytes toy toy_rp = Val b /\ length b = 154%nat /\ rproof_from_bytes toy (b ++ [7]) = Val toy_rp.
Proof.
  exists ([81; 10; 14; 70] ++ le_bytes 32 81 ++ le_bytes 32 9 ++ le_bytes 32 26 ++ ipp_bytes toy (p_ipp toy_rp)).
  vm_compute. repeat split; reflexivity.
Qed.
Print Assumptions ipa_exact.
Print Assumptions ipa_complete.
Print Assumptions ipa_create_total.
Print Assumptions ipp_round_trip.
Print Assumptions transcript_binds.
Print Assumptions transcript_label_99_refuted.
Print Assumptions ipa_zero_vectors_refuted.
Print Assumptions ipp_bytes_malleable_refuted.
Print Assumptions range_exact.
Print Assumptions range_commitments.
Print Assumptions range_complete.
Print Assumptions range_rejects.
Print Assumptions range_rejects_64.
Print Assumptions generators_stable.
Print Assumptions generators_ok.
Print Assumptions rproof_round_trip.
Print Assumptions range_tx_unchecked_refuted.
