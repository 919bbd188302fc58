(** C88: the affine elliptic-curve back end is an abelian group and its scalar multiplication is
    repeated addition. *)
From Coq Require Import ZArith List Bool Lia Znumtheory.
From Verif Require Import LinCodeModel ZpLib SafePrimeProof EcField EcGroup EcMul ToyEcModel ToyEcProof.
Import ListNotations.
Open Scope Z_scope.

(** The field is an odd prime field and the cubic has no root: no point of order two, as on a
    curve of odd order. *)
Definition good (c : curve) : Prop :=
  prime (cp c) /\ cp c <> 2 /\ forall x, (x ^ 3 + cA c * x + cB c) mod cp c <> 0.
(** The points: infinity, and the reduced solutions of the curve equation. *)
Definition on_curve (c : curve) (P : point) : Prop :=
  P = (0, 0) \/ (0 <= fst P < cp c /\ 0 <= snd P < cp c /\ (snd P ^ 2) mod cp c = (fst P ^ 3 + cA c * fst P + cB c) mod cp c).
(** [Add] applied [n] times. *)
Fixpoint times (c : curve) (n : nat) (P : point) : outcome point :=
  match n with O => Val (0, 0) | S n => bind (times c n P) (fun R => ec_add c R P) end.
(** The order kills the point. *)
Definition order_kills (c : curve) (P : point) : Prop := 0 < cn c /\ times c (Z.to_nat (cn c)) P = Val (0, 0).

(** Addition is total on the curve, stays there, and is an abelian group with [(0, 0)] as the
    neutral element and [Negate] as the inverse. *)
Theorem toy_group c P Q R : good c -> on_curve c P -> on_curve c Q -> on_curve c R ->
  (exists S, ec_add c P Q = Val S /\ on_curve c S) /\
  on_curve c (ec_negate c P) /\
  ec_add c P Q = ec_add c Q P /\
  bind (ec_add c P Q) (fun S => ec_add c S R) = bind (ec_add c Q R) (fun S => ec_add c P S) /\
  ec_add c (0, 0) P = Val P /\ ec_add c P (0, 0) = Val P /\
  ec_add c P (ec_negate c P) = Val (0, 0).
Proof.
  intros (Hp & odd & nr) HP HQ HR.
  destruct (valid_rep c Hp _ HP) as (P' & OP & <-), (valid_rep c Hp _ HQ) as (Q' & OQ & <-), (valid_rep c Hp _ HR) as (R' & OR & <-).
  rewrite (neg_rep c Hp odd nr P' OP). pose proof (g_iv c Hp P' OP) as ON'. pose proof (g_on c Hp odd P' Q' OP OQ) as OPQ. pose proof (g_on c Hp odd Q' R' OQ OR) as OQR.
  rewrite (add_rep c Hp odd nr P' Q' OP OQ), (add_rep c Hp odd nr Q' P' OQ OP), (add_rep c Hp odd nr P' _ OP ON'), (add_rep c Hp odd nr Q' R' OQ OR). cbn [bind].
  rewrite (add_rep c Hp odd nr _ _ OPQ OR), (add_rep c Hp odd nr _ _ OP OQR).
  change (0, 0) with (rep c (Inf (E (cp c)))). rewrite (add_rep c Hp odd nr _ P' (g_e c Hp) OP), (add_rep c Hp odd nr P' _ OP (g_e c Hp)).
  split; [eexists; split; [reflexivity|]; apply (rep_valid c Hp); exact OPQ|]. split; [apply (rep_valid c Hp); exact ON'|].
  split; [rewrite (g_comm c Hp odd P' Q' OP OQ); reflexivity|]. split; [rewrite (g_assoc c Hp odd nr P' Q' R' OP OQ OR); reflexivity|].
  split; [reflexivity|]. split; [destruct P'; reflexivity|]. rewrite (g_inv c Hp P' OP). reflexivity.
Qed.

(** What addition computes: infinity exactly on opposite points, and otherwise the reflection of
    the third intersection of the line of slope [l] through the two points, the tangent when they
    coincide. *)
Theorem toy_add_line c P Q : good c -> on_curve c P -> on_curve c Q -> P <> (0, 0) -> Q <> (0, 0) ->
  (ec_add c P Q = Val (0, 0) <-> Q = ec_negate c P) /\
  forall x3 y3, ec_add c P Q = Val (x3, y3) -> (x3, y3) <> (0, 0) ->
  0 <= x3 < cp c /\ 0 <= y3 < cp c /\
  exists l, (l * (fst Q - fst P) - (snd Q - snd P)) mod cp c = 0 /\
    (P = Q -> (l * (2 * snd P) - (3 * fst P ^ 2 + cA c)) mod cp c = 0) /\
    (fst P + fst Q + x3 - l ^ 2) mod cp c = 0 /\
    (y3 + snd P - l * (fst P - x3)) mod cp c = 0.
Proof.
  intros G HP HQ NP NQ. split.
  - split.
    + intros H. assert (HN : on_curve c (ec_negate c P)) by apply (toy_group c P Q Q G HP HQ HQ).
      destruct (toy_group c (ec_negate c P) P Q G HN HP HQ) as (_ & _ & CM & AS & EL & ER & _).
      destruct (toy_group c P Q Q G HP HQ HQ) as (_ & _ & _ & _ & _ & _ & IV). rewrite CM, IV in AS. cbn [bind] in AS. rewrite H in AS. cbn [bind] in AS.
      destruct (toy_group c Q Q Q G HQ HQ HQ) as (_ & _ & _ & _ & EL' & _). rewrite EL', ER in AS. congruence.
    + intros ->. apply (toy_group c P P P G HP HP HP).
  - intros x3 y3 H N3. destruct G as (Hp & odd & nr). pose proof (prime_pos _ Hp) as Pp.
    unfold ec_add in H. assert (forall X, X <> (0, 0) -> is_inf X = false) as NI.
    { intros [x y] NX. unfold is_inf. cbn [fst snd]. destruct (Z.eqb_spec x 0), (Z.eqb_spec y 0); subst; auto. congruence. }
    rewrite (NI P NP), (NI Q NQ) in H. destruct P as [x1 y1], Q as [x2 y2]. cbn [fst snd] in *.
    assert (Z0 : forall a, eqm (cp c) a 0 -> a mod cp c = 0) by (intros a [K]; rewrite K; apply Z.mod_0_l; lia).
    assert (FIN : forall l, Val ((l ^ 2 - (x1 + x2)) mod cp c, (l * (x1 - (l ^ 2 - (x1 + x2)) mod cp c) - y1) mod cp c) = Val (x3, y3) ->
      0 <= x3 < cp c /\ 0 <= y3 < cp c /\ (x1 + x2 + x3 - l ^ 2) mod cp c = 0 /\ (y3 + y1 - l * (x1 - x3)) mod cp c = 0).
    { intros l K. assert (K1 : (l ^ 2 - (x1 + x2)) mod cp c = x3) by congruence. rewrite K1 in K. assert (K2 : (l * (x1 - x3) - y1) mod cp c = y3) by congruence. clear K. split; [rewrite <- K1; apply Z.mod_pos_bound; lia|]. split; [rewrite <- K2; apply Z.mod_pos_bound; lia|].
      split; apply Z0; [rewrite <- K1; rewrite eqm_mod
 ; apply eqm_eq; ring|rewrite <- K2; rewrite (eqm_mod _ (l * _ - _)); apply eqm_eq; ring]. }
    destruct (Z.eqb_spec x1 x2) as [Ex|Ex].
    + subst x2. destruct (Z.eqb_spec y1 y2) as [Ey|Ey]; cbn [andb negb] in H; [subst y2|exfalso; apply N3; unfold infinity in H; congruence].
      unfold invert in H. destruct (invert_mod (y1 * 2) (cp c)) as [i|] eqn:Ei; cbn [bind] in H; [|discriminate].
      destruct (FIN _ H) as (B1 & B2 & L1 & L2). split; [exact B1|]. split; [exact B2|]. eexists. split; [|split; [|split; [exact L1|exact L2]]].
      * rewrite !Z.sub_diag, Z.mul_0_r. apply Z.mod_0_l. lia.
      * intros _. apply Z0. rewrite eqm_mod. destruct (invert_mod_some _ _ _ Ei) as [_ M].
        transitivity ((x1 ^ 2 * 3 + cA c) * (y1 * 2 * i) - (x1 ^ 2 * 3 + cA c)); [mring|]. rewrite M. mring.
    + cbn [andb] in H. unfold invert in H. destruct (invert_mod ((x2 - x1) mod cp c) (cp c)) as [i|] eqn:Ei; cbn [bind] in H; [|discriminate].
      destruct (FIN _ H) as (B1 & B2 & L1 & L2). split; [exact B1|]. split; [exact B2|]. eexists. split; [|split; [|split; [exact L1|exact L2]]].
      * apply Z0. rewrite eqm_mod. destruct (invert_mod_some _ _ _ Ei) as [_ M]. rewrite eqm_mod in M.
        transitivity ((y2 - y1) * ((x2 - x1) * i) - (y2 - y1)); [mring|]. rewrite M. mring.
      * intros K. injection K as K1 K2. contradiction.
Qed.

Lemma times_rep c Hp (odd : cp c <> 2) P n : EcGroup.on (E (cp c)) (eadd (cp c) Hp) (emul (cp c) Hp) (mk (cp c) Hp 1) (mk (cp c) Hp 0) (mk (cp c) Hp (cA c)) (mk (cp c) Hp (cB c)) P ->
  (forall x, (x ^ 3 + cA c * x + cB c) mod cp c <> 0) -> times c n (rep c P) = Val (rep c (zm c Hp (Z.of_nat n) P)).
Proof.
  intros OP no_root. induction n as [|n IH]; [reflexivity|]. cbn [times]. rewrite IH. cbn [bind].
  rewrite (add_rep c Hp odd no_root _ _ (zm_on c Hp odd _ _ OP) OP). rewrite Nat2Z.inj_succ. replace (Z.succ (Z.of_nat n)) with (Z.of_nat n + 1) by lia.
  rewrite (zm_add c Hp odd no_root _ _ _ OP), (zm_1 c Hp P OP). reflexivity.
Qed.
Lemma killed c Hp (odd : cp c <> 2) P : EcGroup.on (E (cp c)) (eadd (cp c) Hp) (emul (cp c) Hp) (mk (cp c) Hp 1) (mk (cp c) Hp 0) (mk (cp c) Hp (cA c)) (mk (cp c) Hp (cB c)) P ->
  (forall x, (x ^ 3 + cA c * x + cB c) mod cp c <> 0) -> order_kills c (rep c P) -> zm c Hp (cn c) P = Inf (E (cp c)).
Proof.
  intros OP nr [N K]. rewrite (times_rep c Hp odd P _ OP nr) in K. rewrite Z2Nat.id in K by lia.
  apply (rep_inj c Hp odd nr); [apply (zm_on c Hp odd); exact OP|exact (g_e c Hp)|]. injection K as K. exact K.
Qed.

(** Scalar multiplication is repeated addition, for every integer. *)
Theorem toy_mul c P k : good c -> on_curve c P -> order_kills c P ->
  ec_mul c P k = times c (Z.to_nat (k mod cn c)) P.
Proof.
  intros (Hp & odd & nr) HP K. destruct (valid_rep c Hp _ HP) as (P' & OP & <-). destruct (K) as [N _]. pose proof (killed c Hp odd P' OP nr K) as Z0.
  rewrite (mul_rep c Hp odd nr P' k OP N Z0), (times_rep c Hp odd P' _ OP nr), Z2Nat.id by (apply Z.mod_pos_bound; lia).
  rewrite (zm_mod c Hp odd nr _ k P' OP) by (auto; lia). reflexivity.
Qed.
Theorem toy_mul_laws c P Q k l : good c -> on_curve c P -> on_curve c Q -> order_kills c P -> order_kills c Q ->
  (exists R, ec_mul c P k = Val R /\ on_curve c R /\ order_kills c R) /\
  ec_mul c P 1 = Val P /\
  bind (ec_mul c P k) (fun A => bind (ec_mul c P l) (fun B => ec_add c A B)) = ec_mul c P (k + l) /\
  bind (ec_mul c P l) (fun A => ec_mul c A k) = ec_mul c P (k * l) /\
  bind (ec_add c P Q) (fun S => ec_mul c S k) = bind (ec_mul c P k) (fun A => bind (ec_mul c Q k) (fun B => ec_add c A B)) /\
  ec_mul c P (- k) = bind (ec_mul c P k) (fun A => Val (ec_negate c A)) /\
  ec_mul c P (k mod cn c) = ec_mul c P k.
Proof.
  intros (Hp & odd & nr) HP HQ K K'. destruct (valid_rep c Hp _ HP) as (P' & OP & <-), (valid_rep c Hp _ HQ) as (Q' & OQ & <-). destruct (K) as [N _].
  pose proof (killed c Hp odd P' OP nr K) as ZP. pose proof (killed c Hp odd Q' OQ nr K') as ZQ.
  assert (ZM : forall j X, EcGroup.on (E (cp c)) (eadd (cp c) Hp) (emul (cp c) Hp) (mk (cp c) Hp 1) (mk (cp c) Hp 0) (mk (cp c) Hp (cA c)) (mk (cp c) Hp (cB c)) X ->
    zm c Hp (cn c) X = Inf (E (cp c)) -> zm c Hp (cn c) (zm c Hp j X) = Inf (E (cp c))).
  { intros j X OX ZX. rewrite <- (zm_mul c Hp odd nr _ _ _ OX), Z.mul_comm, (zm_mul c Hp odd nr _ _ _ OX), ZX. apply (zm_e c Hp odd nr). }
  pose proof (zm_on c Hp odd k P' OP) as OKP. pose proof (zm_on c Hp odd l P' OP) as OLP. pose proof (zm_on c Hp odd k Q' OQ) as OKQ.
  pose proof (g_on c Hp odd P' Q' OP OQ) as OPQ.
  rewrite !(mul_rep c Hp odd nr P' _ OP N ZP), (mul_rep c Hp odd nr Q' _ OQ N ZQ). cbn [bind]. rewrite (add_rep c Hp odd nr P' Q' OP OQ). cbn [bind].
  rewrite (mul_rep c Hp odd nr _ k OPQ N) by (rewrite (zm_op c Hp odd nr _ _ _ OP OQ), ZP, ZQ; reflexivity).
  rewrite (add_rep c Hp odd nr _ _ OKP OLP), (add_rep c Hp odd nr _ _ OKP OKQ), (mul_rep c Hp odd nr _ k OLP N) by auto.
  rewrite (neg_rep c Hp odd nr _ OKP).
  split.
  - eexists. split; [reflexivity|]. split; [apply (rep_valid c Hp); exact OKP|]. split; [exact N|].
    rewrite (times_rep c Hp odd _ _ OKP nr), Z2Nat.id, ZM by (auto; lia). reflexivity.
  - rewrite (zm_1 c Hp P' OP), (zm_add c Hp odd nr _ _ _ OP), (zm_mul c Hp odd nr _ _ _ OP), (zm_op c Hp odd nr _ _ _ OP OQ), (zm_opp c Hp odd nr _ _ OP), (zm_mod c Hp odd nr _ k P' OP) by (auto; lia).
    repeat split; reflexivity.
Qed.
(** Doubling, subtraction, and the two-scalar multiplication with base point. *)
Theorem toy_derived c P Q d s1 s2 : good c -> on_curve c P -> on_curve c Q -> order_kills c P -> on_curve c (cG c) -> order_kills c (cG c) ->
  ec_double c P = ec_add c P P /\
  bind (ec_sub c P Q) (fun D => ec_add c D Q) = Val P /\
  (ec_mul_base c d = Val Q -> ec_mul_double_base c s1 s2 Q = ec_mul_base c (s1 + s2 * d)).
Proof.
  intros G HP HQ KP HG KG. split; [|split].
  - unfold ec_double. rewrite (toy_mul c P 2 G HP KP).
    destruct (toy_mul_laws c P P 1 1 G HP HP KP KP) as (_ & M1 & M2 & _). rewrite M1 in M2. cbn [bind] in M2. rewrite M2. symmetry. apply toy_mul; auto.
  - unfold ec_sub. assert (HN : on_curve c (ec_negate c Q)) by apply (toy_group c Q Q Q G HQ HQ HQ).
    destruct (toy_group c P (ec_negate c Q) Q G HP HN HQ) as (_ & _ & _ & AS & _ & ER & _). rewrite AS.
    destruct (toy_group c (ec_negate c Q) Q Q G HN HQ HQ) as (_ & _ & CM & _). rewrite CM.
    destruct (toy_group c Q Q Q G HQ HQ HQ) as (_ & _ & _ & _ & _ & _ & IV). rewrite IV. cbn [bind]. exact ER.
  - intros HD. unfold ec_mul_double_base, ec_mul_base in *.
    destruct (toy_mul_laws c (cG c) (cG c) s2 d G HG HG KG KG) as (_ & _ & _ & ML & _). rewrite HD in ML. cbn [bind] in ML. rewrite ML.
    destruct (toy_mul_laws c (cG c) (cG c) s1 (s2 * d) G HG HG KG KG) as (_ & _ & MA & _). exact MA.
Qed.
(** Division by a scalar coprime to the order undoes the multiplication; any other scalar is refused. *)
Theorem toy_div c P k : good c -> on_curve c P -> order_kills c P ->
  (Z.gcd k (cn c) = 1 -> k <> 0 ->
     (exists R, ec_div c P k = Val R /\ on_curve c R /\ ec_mul c R k = Val P) /\
     bind (ec_mul c P k) (fun A => ec_div c A k) = Val P) /\
  (k = 0 \/ Z.gcd k (cn c) <> 1 -> ec_div c P k = Thrown).
Proof.
  intros G HP KP. destruct (KP) as [N _].
  assert (IM : forall X i, on_curve c X -> order_kills c X -> (i * k) mod cn c = 1 mod cn c -> ec_mul c X (i * k) = Val X).
  { intros X i HX KX E. destruct (toy_mul_laws c X X (i * k) 1 G HX HX KX KX) as (_ & M1 & _ & _ & _ & _ & MM). rewrite <- MM, E.
    destruct (toy_mul_laws c X X 1 1 G HX HX KX KX) as (_ & _ & _ & _ & _ & _ & MM'). rewrite MM'. exact M1. }
  split.
  - intros Co K0. assert (DV : exists i, (i * k) mod cn c = 1 mod cn c /\ forall X, on_curve c X -> order_kills c X -> ec_div c X k = ec_mul c X i).
    { unfold ec_div, invert. destruct (Z.eqb_spec k 0) as [|_]; [contradiction|]. destruct (Z.ltb_spec 0 k) as [L|L].
      - destruct (proj1 (invert_mod_coprime k (cn c) N) Co) as (i & Ei). rewrite Ei. exists i. destruct (invert_mod_some _ _ _ Ei) as [_ [M]]. split; [rewrite Z.mul_comm; exact M|]. reflexivity.
      - destruct (proj1 (invert_mod_coprime (Z.abs k) (cn c) N)) as (i & Ei); [rewrite Z.gcd_abs_l; exact Co|]. rewrite Ei. exists (- i). destruct (invert_mod_some _ _ _ Ei) as [_ [M]].
        split; [rewrite <- M; f_equal; lia|]. intros X HX KX. cbn [bind]. destruct (toy_mul_laws c X X i 1 G HX HX KX KX) as (_ & _ & _ & _ & _ & MN & _). rewrite MN. reflexivity. }
    destruct DV as (i & Ei & DV). split.
    + destruct (toy_mul_laws c P P i 1 G HP HP KP KP) as ((R & ER & OR & _) & _). exists R. rewrite DV by auto. split; [exact ER|]. split; [exact OR|].
      destruct (toy_mul_laws c P P k i G HP HP KP KP) as (_ & _ & _ & ML & _). rewrite ER in ML. cbn [bind] in ML. rewrite ML, Z.mul_comm. apply IM; auto.
    + destruct (toy_mul_laws c P P i k G HP HP KP KP) as (_ & _ & _ & ML & _). destruct (toy_mul_laws c P P k 1 G HP HP KP KP) as ((R & ER & OR & KR) & _).
      rewrite ER in *. cbn [bind] in *. rewrite DV by auto. rewrite ML. apply IM; auto.
  - intros K. unfold ec_div, invert. destruct (Z.eqb_spec k 0) as [|K0]; [reflexivity|]. destruct K as [K|K]; [contradiction|].
    destruct (Z.ltb_spec 0 k) as [L|L].
    + destruct (invert_mod k (cn c)) as [i|] eqn:Ei; [|reflexivity]. exfalso. apply K. apply invert_mod_coprime; eauto.
    + destruct (invert_mod (Z.abs k) (cn c)) as [i|] eqn:Ei; [|reflexivity]. exfalso. apply K. rewrite <- Z.gcd_abs_l. apply invert_mod_coprime; eauto.
Qed.
(** The membership test and the equality test decide the curve and the group element for reduced points. *)
Theorem toy_tests c P Q : 0 < cp c -> 0 <= fst P < cp c -> 0 <= snd P < cp c ->
  (ec_in_curve c P = true <-> on_curve c P) /\ (point_equal P Q = true <-> P = Q).
Proof.
  intros Pp X Y. split.
  - unfold ec_in_curve, on_curve, is_inf. destruct P as [x y]. cbn [fst snd] in *. rewrite orb_true_iff, andb_true_iff, !Z.eqb_eq. split.
    + intros [[-> ->]|H]; [left; reflexivity|right]. split; [exact X|]. split; [exact Y|]. assert (K : eqm (cp c) (y ^ 2) (x ^ 3 + cA c * x + cB c)); [|destruct K as [K]; exact K].
      apply eqm_sub0. constructor. rewrite Z.mod_0_l by lia. rewrite <- H. f_equal. ring.
    + intros [H|(_ & _ & H)]; [left; injection H as -> ->; auto|right]. replace (y ^ 2 - x ^ 3 - cA c * x - cB c) with (y ^ 2 - (x ^ 3 + cA c * x + cB c)) by ring.
      rewrite Zminus_mod, H, Z.sub_diag. apply Z.mod_0_l. lia.
  - unfold point_equal. destruct P as [x y], Q as [x' y']. cbn [fst snd]. rewrite andb_true_iff, !Z.eqb_eq. split; [intros [-> ->]; reflexivity|intros H; injection H as -> ->; auto].
Qed.

(** ** The predefined curve secp256k1 has no point of order two: -7 is not a cube. *)
Definition fold256 (x : Z) : Z := Z.shiftr x 256 * (2 ^ 32 + 977) + Z.land x (Z.ones 256).
Fixpoint pow7 (e : positive) : Z :=
  match e with
  | xH => 7
  | xO e => let t := pow7 e in fold256 (fold256 (t * t))
  | xI e => let t := pow7 e in fold256 (fold256 (t * t)) * 7
  end.
Lemma fold256_eqm x : eqm (cp secp256k1) (fold256 x) x.
Proof.
  unfold fold256. rewrite Z.shiftr_div_pow2, Z.land_ones by lia. rewrite (Z.div_mod x (2 ^ 256)) at 3 by lia. apply eqm_sub0.
  constructor. replace (x / 2 ^ 256 * (2 ^ 32 + 977) + x mod 2 ^ 256 - (2 ^ 256 * (x / 2 ^ 256) + x mod 2 ^ 256)) with (- (x / 2 ^ 256) * cp secp256k1).
  - rewrite Z.mod_mul by discriminate. reflexivity.
  - change (cp secp256k1) with (2 ^ 256 - (2 ^ 32 + 977)). ring.
Qed.
Lemma pow7_eqm e : eqm (cp secp256k1) (pow7 e) (7 ^ Zpos e).
Proof.
  induction e as [e IH|e IH|]; [..|apply eqm_eq; reflexivity]; cbn [pow7].
  - change (Z.pos e~1) with (2 * Z.pos e + 1). rewrite Z.pow_add_r, (Z.mul_comm 2), Z.pow_mul_r by lia. rewrite !fold256_eqm, IH. apply eqm_eq. ring.
  - change (Z.pos e~0) with (2 * Z.pos e). rewrite (Z.mul_comm 2), Z.pow_mul_r by lia. rewrite !fold256_eqm, IH. apply eqm_eq. ring.
Qed.
Lemma not_cube : Z.eqb (pow7 (Z.to_pos ((cp secp256k1 - 1) / 3)) mod cp secp256k1) 1 = false.
Proof. vm_compute. reflexivity. Qed.
Theorem secp256k1_good : prime (cp secp256k1) -> good secp256k1.
Proof.
  intros Hp. split; [exact Hp|]. split; [discriminate|]. intros x H. set (p := cp secp256k1) in *.
  assert (C : eqm p (x ^ 3) (- 7)). { apply eqm_sub0. constructor. rewrite Z.mod_0_l by discriminate. rewrite <- H. f_equal. change (cA secp256k1) with 0. change (cB secp256k1) with 7. ring. }
  assert (N : ~ eqm p x 0). { clear H. intros K. replace (x ^ 3) with (x * x * x) in C by ring. rewrite K in C. destruct C as [C]. vm_compute in C. discriminate. }
  pose proof (fermat_little p x Hp N) as F.
  assert (D : p - 1 = 3 * (2 * ((p - 1) / 6))) by reflexivity.
  assert (D' : Z.pos (Z.to_pos ((p - 1) / 3)) = 2 * ((p - 1) / 6)) by reflexivity.
  set (j := (p - 1) / 6) in *. assert (J : 0 <= j) by (vm_compute; discriminate). clearbody j.
  rewrite D, Z.pow_mul_r in F by lia. rewrite (eqm_pow p _ _ (2 * j) ltac:(lia) C) in F. rewrite Z.pow_mul_r in F by lia. replace ((- 7) ^ 2) with (7 ^ 2) in F by reflexivity. rewrite <- Z.pow_mul_r in F by lia.
  pose proof (pow7_eqm (Z.to_pos ((p - 1) / 3))) as E7. fold p in E7. rewrite D' in E7. rewrite F in E7. destruct E7 as [E7].
  pose proof not_cube as NC. fold p in NC. rewrite E7 in NC. discriminate NC.
Qed.

(** ** A concrete curve, and what fails outside the reduced points of the curve *)
Definition ex_curve : curve := mkCurve 2 2 (5, 1) 17 19 1.
Lemma prime_17 : prime 17.
Proof. apply prime_intro; [lia|]. intros n Hn. apply Zgcd_1_rel_prime. assert (C : n = 1 \/ n = 2 \/ n = 3 \/ n = 4 \/ n = 5 \/ n = 6 \/ n = 7 \/ n = 8 \/ n = 9 \/ n = 10 \/ n = 11 \/ n = 12 \/ n = 13 \/ n = 14 \/ n = 15 \/ n = 16) by lia.
  repeat (destruct C as [->|C]; [reflexivity|]). subst n. reflexivity. Qed.
Lemma ex_good : good ex_curve.
Proof.
  split; [exact prime_17|]. split; [discriminate|]. intros x. cbn [cA cB cp ex_curve].
  assert (E : (x ^ 3 + 2 * x + 2) mod 17 = ((x mod 17) ^ 3 + 2 * (x mod 17) + 2) mod 17).
  { assert (K : eqm 17 (x ^ 3 + 2 * x + 2) ((x mod 17) ^ 3 + 2 * (x mod 17) + 2)) by (replace ((x mod 17) ^ 3) with (x mod 17 * (x mod 17) * (x mod 17)) by ring; rewrite eqm_mod; apply eqm_eq; ring). destruct K as [K]. exact K. }
  rewrite E. pose proof (Z.mod_pos_bound x 17 ltac:(lia)) as B. set (r := x mod 17) in *. clearbody r. clear E x.
  assert (C : r = 0 \/ r = 1 \/ r = 2 \/ r = 3 \/ r = 4 \/ r = 5 \/ r = 6 \/ r = 7 \/ r = 8 \/ r = 9 \/ r = 10 \/ r = 11 \/ r = 12 \/ r = 13 \/ r = 14 \/ r = 15 \/ r = 16) by lia.
  repeat (destruct C as [->|C]; [discriminate|]). subst r. discriminate.
Qed.
Example ex_points : on_curve ex_curve (5, 1) /\ on_curve ex_curve (6, 3) /\ order_kills ex_curve (5, 1) /\ order_kills ex_curve (6, 3) /\
  ec_add ex_curve (5, 1) (6, 3) = Val (10, 6) /\ ec_double ex_curve (5, 1) = Val (6, 3) /\
  ec_mul ex_curve (5, 1) 7 = Val (0, 6) /\ ec_mul ex_curve (5, 1) (-7) = Val (0, 11) /\ ec_mul ex_curve (5, 1) 38 = Val (0, 0) /\
  ec_div ex_curve (0, 6) 7 = Val (5, 1) /\ ec_div ex_curve (0, 11) (-7) = Val (5, 1) /\ ec_div ex_curve (0, 6) 19 = Thrown.
Proof.
  split; [right; repeat split; cbn; lia|]. split; [right; repeat split; cbn; lia|]. split; [split; [reflexivity|vm_compute; reflexivity]|]. split; [split; [reflexivity|vm_compute; reflexivity]|].
  vm_compute. repeat split; reflexivity.
Qed.
Example ex_secp_on : on_curve secp256k1 (cG secp256k1) /\ on_curve sm2 (cG sm2).
Proof. split; right; repeat split; vm_compute; congruence. Qed.

(** The membership test accepts coordinates that are not reduced, on which equality fails and
    addition throws: the generator of secp256k1 with its abscissa shifted by the field size. *)
Theorem toy_unreduced_refuted : exists P, ec_in_curve secp256k1 P = true /\
  fst P mod cp secp256k1 = fst (cG secp256k1) /\ snd P = snd (cG secp256k1) /\
  point_equal P (cG secp256k1) = false /\ ec_add secp256k1 P (cG secp256k1) = Thrown.
Proof.
  exists (fst (cG secp256k1) + cp secp256k1, snd (cG secp256k1)). vm_compute. auto.
Qed.
(** Nothing checks that an operand is on the curve: a multiple of a point off the curve is answered. *)
Theorem toy_off_curve_refuted : exists P R, ec_in_curve ex_curve P = false /\ ec_mul ex_curve P 5 = Val R /\ ec_in_curve ex_curve R = false.
Proof. exists (1, 1), (4, 6). vm_compute. auto. Qed.
(** A point of order two cannot be doubled: where the cubic has a root the sum of a point with
    itself is not infinity but an exception. *)
Theorem toy_two_torsion_refuted : exists c P, prime (cp c) /\ on_curve c P /\ ec_add c P P = Thrown /\ ec_negate c P <> P.
Proof. exists (mkCurve 0 1 (2, 3) 17 18 1), (16, 0). split; [exact prime_17|]. split; [right; repeat split; cbn; lia|]. split; [vm_compute; reflexivity|discriminate]. Qed.

Print Assumptions toy_group. Print Assumptions toy_add_line. Print Assumptions toy_mul. Print Assumptions toy_mul_laws. Print Assumptions toy_derived. Print Assumptions toy_div. Print Assumptions toy_tests. Print Assumptions secp256k1_good.
Print Assumptions toy_unreduced_refuted. Print Assumptions toy_off_curve_refuted. Print Assumptions toy_two_torsion_refuted.
