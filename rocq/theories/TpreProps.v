(** C68: threshold proxy re-encryption. *)
From Coq Require Import ZArith List Bool Lia Zdiv Znumtheory Setoid Morphisms.
From Verif Require Import ZpLib VssModel VssProof VssProps LinCodeModel TpreModel.
Import ListNotations.
Open Scope Z_scope.

(** What is assumed of the primitives: a cyclic group of prime order, a 32-byte
    MAC, a key stream of the requested length. *)
Record sound (e : prims) : Prop := {
  s_prime : prime (order e);
  s_cyclic : cyclic (grp e) (order e);
  s_hmac : forall k m, length (hmac e k m) = 32%nat;
  s_stream : forall k iv n, length (keystream e k iv n) = n }.

(** ** The authenticated cipher *)
Lemma eq_bytes_eq a : forall b, eq_bytes a b = true <-> a = b.
Proof.
  induction a as [|x a IH]; intros [|y b]; cbn; try (split; intros; congruence).
  rewrite andb_true_iff, Z.eqb_eq, IH. split; [intros [-> ->]; auto|intros [= -> ->]; auto].
Qed.
Lemma xor_bytes_length a b : length (xor_bytes a b) = Nat.min (length a) (length b).
Proof. unfold xor_bytes. rewrite map_length, combine_length. reflexivity. Qed.
Lemma xor_bytes_twice a : forall k, length k = length a -> xor_bytes (xor_bytes a k) k = a.
Proof.
  induction a as [|x a IH]; intros [|y k] L; cbn in L; try discriminate; [reflexivity|].
  cbn. rewrite Z.lxor_assoc, Z.lxor_nilpotent, Z.lxor_0_r. f_equal. apply IH. lia.
Qed.
Theorem mte_decrypt_exact e key iv c p : sound e ->
  mte_decrypt e key iv c = Val p <-> p <> [] /\ c = mte_encrypt e key iv p.
Proof.
  intros Hs. unfold mte_decrypt, mte_encrypt.
  pose proof (s_stream e Hs key iv) as Ls. split.
  - set (h := xor_bytes c (keystream e key iv (length c))).
    assert (Lh : length h = length c) by (unfold h; rewrite xor_bytes_length, Ls; lia).
    destruct (Nat.ltb_spec 32 (length h)); [|discriminate].
    destruct (eq_bytes _ _) eqn:E; [|discriminate]. intros Ep.
    assert (p = skipn 32 h) as -> by congruence. apply eq_bytes_eq in E. split.
    + intros N. apply (f_equal (@length Z)) in N. rewrite skipn_length in N. cbn in N. lia.
    + rewrite E, firstn_skipn, Lh. unfold h. rewrite xor_bytes_twice; auto.
  - intros [Np ->]. set (m := mte_mac e key iv p).
    assert (Lm : length m = 32%nat) by apply (s_hmac e Hs).
    assert (Lc : length (xor_bytes (m ++ p) (keystream e key iv (length (m ++ p)))) = length (m ++ p))
      by (rewrite xor_bytes_length, Ls, Nat.min_id; reflexivity).
    rewrite Lc, xor_bytes_twice by apply Ls.
    assert (0 < length p)%nat by (destruct p; [contradiction|cbn; lia]).
    destruct (Nat.ltb_spec 32 (length (m ++ p))) as [_|B]; [|rewrite app_length in B; lia].
    replace (firstn 32 (m ++ p)) with m by (rewrite firstn_app, Lm, Nat.sub_diag, firstn_O, app_nil_r, firstn_all2 by lia; reflexivity).
    replace (skipn 32 (m ++ p)) with p by (rewrite skipn_app, Lm, Nat.sub_diag, skipn_all2 by lia; reflexivity).
    fold m. destruct (eq_bytes m m) eqn:E; [reflexivity|]. rewrite (proj2 (eq_bytes_eq m m)) in E by auto. discriminate.
Qed.
Theorem mte_roundtrip e key iv p : sound e -> p <> [] -> mte_decrypt e key iv (mte_encrypt e key iv p) = Val p.
Proof. intros Hs Np. apply mte_decrypt_exact; auto. Qed.
(** Whoever changes a ciphertext behind its first 32 bytes and has it accepted has found two
    messages with the same HMAC under the key derived from iv and key. *)
Lemma xor_firstn a k i : firstn i (xor_bytes a k) = xor_bytes (firstn i a) (firstn i k).
Proof. unfold xor_bytes. rewrite firstn_map, combine_firstn. reflexivity. Qed.
Theorem mte_forgery e key iv p c p' : sound e ->
  length c = length (mte_encrypt e key iv p) -> firstn 32 c = firstn 32 (mte_encrypt e key iv p) ->
  mte_decrypt e key iv c = Val p' ->
  hmac e (firstn 16 (sm3 e (iv ++ key))) p' = hmac e (firstn 16 (sm3 e (iv ++ key))) p.
Proof.
  intros Hs L F D. apply (mte_decrypt_exact e key iv c p' Hs) in D as [_ ->]. unfold mte_encrypt in *. rewrite !xor_bytes_length, !(s_stream e Hs), !Nat.min_id in L.
  rewrite L, !xor_firstn in F. unfold mte_mac in *. set (k := firstn 16 (sm3 e (iv ++ key))) in *.
  assert (FM : forall x, firstn 32 (hmac e k x ++ x) = hmac e k x).
  { intros x. rewrite firstn_app, (s_hmac e Hs), Nat.sub_diag, firstn_O, app_nil_r, firstn_all2; [reflexivity|rewrite (s_hmac e Hs); lia]. }
  rewrite !FM in F. set (ks := firstn 32 (keystream e key iv (length (hmac e k p ++ p)))) in *.
  assert (Lk : length ks = 32%nat) by (unfold ks; rewrite firstn_length, (s_stream e Hs), app_length, (s_hmac e Hs); lia).
  rewrite <- (xor_bytes_twice (hmac e k p') ks), F, xor_bytes_twice by (rewrite (s_hmac e Hs); auto). reflexivity.
Qed.
(** The empty message encrypts and does not decrypt. *)
Theorem mte_empty_refuted e key iv : sound e -> mte_decrypt e key iv (mte_encrypt e key iv []) = Thrown.
Proof.
  intros Hs. unfold mte_decrypt, mte_encrypt. rewrite app_nil_r.
  rewrite !xor_bytes_length, !(s_stream e Hs), !Nat.min_id. unfold mte_mac. rewrite (s_hmac e Hs). reflexivity.
Qed.

(** ** Group lemmas *)
Section Group.
  Variable e : prims.
  Hypothesis Hs : sound e.
  Notation n := (order e).
  Notation mb := (mul_base e).
  Lemma n_pos : 1 < n. Proof. apply prime_pos, (s_prime e Hs). Qed.
  Lemma mb_mul a k : g_mul (grp e) (mb a) k = mb (a * k).
  Proof. apply (mul_mul _ _ (s_cyclic e Hs)). Qed.
  Lemma mb_add a b : g_add (grp e) (mb a) (mb b) = mb (a + b).
  Proof. apply (mul_add _ _ (s_cyclic e Hs)). Qed.
  Lemma mb_eq a b : mb a = mb b <-> eqm n a b.
  Proof. unfold mul_base. rewrite (mul_order _ _ (s_cyclic e Hs)). split; [constructor; auto|intros [H]; auto]. Qed.
  Lemma mb_eqm a b : eqm n a b -> mb a = mb b. Proof. apply mb_eq. Qed.

  (** ** Lagrange coefficients *)
  Lemma lambda_loop_past si i : forall S_ j lam, (i < j)%nat -> (forall s, In s S_ -> ~ eqm n s si) ->
    exists l, lambda_loop n si i j S_ lam = Val l /\ eqm n (l * prodsub S_ si) (lam * prodsub S_ 0).
  Proof.
    induction S_ as [|s S_ IH]; intros j lam Hj D; cbn [lambda_loop].
    - exists lam. split; [reflexivity|]. cbn. mring.
    - destruct (Nat.eqb_spec i j) as [|_]; [lia|].
      destruct (invert_mod_prime (sub_mod s si n) n (s_prime e Hs)) as [w W].
      { rewrite sub_mod_eqm. rewrite eqm_sub0. apply D. left. auto. }
      rewrite W. destruct (IH (S j) (mul_mod lam (mul_mod w s n) n) ltac:(lia)) as [l [E K]]; [intros x Hx; apply D; right; auto|].
      exists l. split; [exact E|]. rewrite !prodsub_cons.
      apply invert_mod_some in W. destruct W as [_ W]. rewrite sub_mod_eqm in W.
      transitivity ((s - si) * (l * prodsub S_ si)); [mring|]. rewrite K, !mul_mod_eqm.
      transitivity (lam * s * prodsub S_ 0 * ((s - si) * w)); [mring|]. rewrite W. mring.
  Qed.
  Lemma lambda_loop_ok i : forall S_ j si lam, (j <= i)%nat -> (forall s, In s (others (i - j) S_) -> ~ eqm n s si) ->
    exists l, lambda_loop n si i j S_ lam = Val l /\
      eqm n (l * prodsub (others (i - j) S_) si) (lam * prodsub (others (i - j) S_) 0).
  Proof.
    induction S_ as [|s S_ IH]; intros j si lam Hj D; cbn [lambda_loop].
    - exists lam. split; [reflexivity|]. unfold others. rewrite firstn_nil. cbn. mring.
    - destruct (Nat.eqb_spec i j) as [->|N].
      + rewrite Nat.sub_diag, others_O in *. apply lambda_loop_past; [lia|exact D].
      + replace (i - j)%nat with (S (i - S j)) in * by lia. rewrite others_S in *.
        destruct (invert_mod_prime (sub_mod s si n) n (s_prime e Hs)) as [w W].
        { rewrite sub_mod_eqm. rewrite eqm_sub0. apply D. left. auto. }
        rewrite W. destruct (IH (S j) si (mul_mod lam (mul_mod w s n) n) ltac:(lia)) as [l [E K]]; [intros x Hx; apply D; right; auto|].
        exists l. split; [exact E|]. rewrite !prodsub_cons.
        apply invert_mod_some in W. destruct W as [_ W]. rewrite sub_mod_eqm in W.
        transitivity ((s - si) * (l * prodsub (others (i - S j) S_) si)); [mring|]. rewrite K, !mul_mod_eqm.
        transitivity (lam * s * prodsub (others (i - S j) S_) 0 * ((s - si) * w)); [mring|]. rewrite W. mring.
  Qed.
  Definition lam_spec (S_ : list Z) (i : nat) : Z := weight n S_ i * prodsub (others i S_) 0.
  Lemma lambda_i S_ i : distinct n S_ -> (i < length S_)%nat ->
    exists l, lambda_loop n (nth i S_ 0) i 0 S_ 1 = Val l /\ eqm n l (lam_spec S_ i).
  Proof.
    intros D Hi. pose proof (s_prime e Hs) as Hp.
    destruct (lambda_loop_ok i S_ 0 (nth i S_ 0) 1 ltac:(lia)) as [l [E K]].
    { rewrite Nat.sub_0_r. intros s Hin. apply others_in in Hin. destruct Hin as [k [K1 [K2 <-]]].
      rewrite distinct_nth in D. apply D; auto. }
    rewrite Nat.sub_0_r in K. exists l. split; [exact E|].
    destruct (weight_some n S_ i Hp D Hi) as [w W]. unfold lam_spec, weight. rewrite W.
    apply invert_mod_some in W. destruct W as [_ W].
    transitivity (l * (prodsub (others i S_) (nth i S_ 0) * w)); [rewrite W; mring|].
    transitivity (w * (l * prodsub (others i S_) (nth i S_ 0))); [mring|]. rewrite K. mring.
  Qed.
  Lemma lambdas_ok S_ : distinct n S_ -> forall todo, (forall i, In i todo -> (i < length S_)%nat) ->
    exists ls, lambdas n S_ todo = Val ls /\ Forall2 (eqm n) ls (map (lam_spec S_) todo).
  Proof.
    intros D. induction todo as [|i todo IH]; intros Hi; cbn [lambdas map].
    - exists []. split; [reflexivity|constructor].
    - destruct (lambda_i S_ i D) as [l [E K]]; [apply Hi; left; auto|].
      destruct IH as [ls [E' K']]; [intros k Hk; apply Hi; right; auto|].
      rewrite E. cbn [bind]. rewrite E'. cbn [bind]. eexists. split; [reflexivity|]. constructor; auto.
  Qed.
  Lemma combine_fold ls : forall es acc, length es = length ls ->
    fold_left (fun acc pl => g_add (grp e) acc (g_mul (grp e) (fst pl) (snd pl))) (combine (map mb es) ls) (mb acc) =
    mb (acc + fold_right Z.add 0 (map (fun p => fst p * snd p) (combine es ls))).
  Proof.
    induction ls as [|l ls IH]; intros [|x es] acc L; cbn in L; try discriminate.
    - cbn. f_equal. ring.
    - cbn [map combine fold_left fold_right fst snd]. rewrite mb_mul, mb_add, IH by lia. f_equal. ring.
  Qed.
  Lemma combine_points_ok es ls : length es = length ls -> es <> [] ->
    combine_points e (map mb es) ls = Val (mb (fold_right Z.add 0 (map (fun p => fst p * snd p) (combine es ls)))).
  Proof.
    intros L N. destruct es as [|x es]; [contradiction|]. destruct ls as [|l ls]; [discriminate|].
    cbn [combine_points map combine fold_right fst snd]. rewrite mb_mul. f_equal. apply combine_fold. cbn in L. lia.
  Qed.
  Lemma sum_eqm ls : forall ls' es, Forall2 (eqm n) ls ls' ->
    eqm n (fold_right Z.add 0 (map (fun p => fst p * snd p) (combine es ls)))
          (fold_right Z.add 0 (map (fun p => fst p * snd p) (combine es ls'))).
  Proof.
    induction ls as [|l ls IH]; intros ls' es F; inversion F; subst; [reflexivity|].
    destruct es as [|x es]; [reflexivity|]. cbn [combine map fold_right fst snd]. rewrite (IH l'), H1 by auto. reflexivity.
  Qed.
  Lemma sum_scale k f ls : fold_right Z.add 0 (map (fun p => fst p * snd p) (combine (map (fun y => k * y) f) ls)) =
    k * fold_right Z.add 0 (map (fun p => fst p * snd p) (combine f ls)).
  Proof.
    revert ls. induction f as [|y f IH]; intros [|l ls]; cbn [map combine fold_right fst snd]; try ring.
    rewrite IH. ring.
  Qed.
  Lemma sum_seq (ys : list Z) : forall f : nat -> Z,
    fold_right Z.add 0 (map (fun p => fst p * snd p) (combine ys (map f (seq 0 (length ys))))) =
    fold_right (fun i s => nth i ys 0 * f i + s) 0 (seq 0 (length ys)).
  Proof.
    induction ys as [|y ys IH]; intros f; cbn [length seq map combine fold_right fst snd nth]; [reflexivity|].
    rewrite <- seq_shift, map_map. rewrite (IH (fun i => f (S i))). f_equal.
    generalize (seq 0 (length ys)). intros l. induction l as [|i l IHl]; cbn [map fold_right nth]; [reflexivity|].
    rewrite IHl. reflexivity.
  Qed.
  (** Sum of the shares times the coefficients: the value at zero. *)
  Lemma sum_lagrange c S_ ys ls : distinct n S_ -> (length c <= length S_)%nat -> length ys = length S_ ->
    (forall k, (k < length S_)%nat -> eqm n (nth k ys 0) (peval c (nth k S_ 0))) ->
    Forall2 (eqm n) ls (map (lam_spec S_) (seq 0 (length S_))) ->
    eqm n (fold_right Z.add 0 (map (fun p => fst p * snd p) (combine ys ls))) (peval c 0).
  Proof.
    intros D Lc Ly H F. pose proof (s_prime e Hs) as Hp. pose proof n_pos.
    pose proof (interpolation_poly n c S_ ys 0 Hp D Lc Ly H) as P.
    unfold lagrange_interpolation in P. rewrite Ly, Nat.eqb_refl in P.
    rewrite interpolation_loop_eq in P; auto; [|intros i Hi; apply in_seq in Hi; lia|lia].
    assert (P' : eqm n (fold_right (fun i s => nth i ys 0 * weight n S_ i * prodsub (others i S_) 0 + s) 0 (seq 0 (length S_))) (peval c 0)).
    { constructor. injection P as P. exact P. }
    rewrite <- P'. rewrite (sum_eqm _ _ _ F). apply eqm_eq.
    rewrite <- Ly, sum_seq. unfold lam_spec. generalize (seq 0 (length ys)). intros l.
    induction l as [|i l IH]; cbn [fold_right]; [reflexivity|]. rewrite IH. ring.
  Qed.
  Lemma F2_length (a b : list Z) : Forall2 (eqm n) a b -> length a = length b.
  Proof. induction 1; cbn; congruence. Qed.
  Lemma rk_loop_eqm s : forall cs j acc, eqm n (rk_loop n s j cs acc) (acc + s ^ Z.of_nat j * peval cs s).
  Proof.
    induction cs as [|c cs IH]; intros j acc; cbn [rk_loop peval]; [mring|].
    rewrite IH, add_mod_eqm, mul_mod_eqm, eqm_mod, Nat2Z.inj_succ, Z.pow_succ_r by lia. mring.
  Qed.
  (** The exponent the fragments combine to. *)
  Definition frag_sum (S_ rks : list Z) : Z :=
    fold_right Z.add 0 (map (fun p => fst p * snd p) (combine rks (map (lam_spec S_) (seq 0 (length S_))))).
  Definition mk_cfrag (x v : Z) (k : kfrag e) : cfrag e :=
    {| f_E1 := g_mul (grp e) (mb x) (k_rk k); f_V1 := g_mul (grp e) (mb v) (k_rk k); f_id := k_id k; f_XA := k_XA k |}.
  Definition dh_hash (a b : Z) : Z := cipher_hash_points e [mb a; mb b; mb (a * b)].
  Lemma decaps_general a b xA x v sel :
    let S_ := map (fun k => frag_point e (k_id k) (dh_hash a b)) sel in
    sel <> [] -> (forall k, In k sel -> k_XA k = mb xA) -> distinct n S_ ->
    decapsulate_frags e b (mb a) (mb b) (map (mk_cfrag x v) sel) =
    Val (kdf e (ser e (mb ((x + v) * frag_sum S_ (map k_rk sel) * dh_hash xA b))) 16).
  Proof.
    intros S_ N HX D. unfold decapsulate_frags. rewrite mb_mul. fold (dh_hash a b).
    rewrite !map_map. unfold mk_cfrag at 1. cbn [f_id]. fold S_.
    destruct (lambdas_ok S_ D (seq 0 (length (map (mk_cfrag x v) sel)))) as [ls [E K]].
    { intros i Hi. apply in_seq in Hi. unfold S_. rewrite map_length in *. lia. }
    rewrite E. cbn [bind].
    assert (Lls : length ls = length sel).
    { apply F2_length in K. rewrite K, map_length, seq_length, map_length. reflexivity. }
    assert (KK : forall y, exists q, combine_points e (map (fun k => g_mul (grp e) (mb y) (k_rk k)) sel) ls = Val (mb q) /\
                           eqm n q (y * frag_sum S_ (map k_rk sel))).
    { intros y. exists (fold_right Z.add 0 (map (fun p => fst p * snd p) (combine (map (fun r => y * r) (map k_rk sel)) ls))). split.
      - rewrite <- (combine_points_ok (map (fun r => y * r) (map k_rk sel)) ls).
        + rewrite !map_map. f_equal. apply map_ext. intros k. apply mb_mul.
        + rewrite !map_length. auto.
        + destruct sel; [contradiction|discriminate].
      - rewrite sum_scale. unfold frag_sum. rewrite (sum_eqm _ _ _ K). rewrite map_length. unfold S_. rewrite map_length. reflexivity. }
    destruct (KK x) as [qx [Ex Kx]]. destruct (KK v) as [qv [Ev Kv]].
    unfold mk_cfrag at 1. cbn [f_E1]. rewrite Ex. cbn [bind]. unfold mk_cfrag at 1. cbn [f_V1]. rewrite Ev. cbn [bind].
    destruct sel as [|k0 sel]; [contradiction|]. cbn [map f_XA mk_cfrag].
    rewrite (HX k0) by (left; auto). rewrite mb_mul. fold (dh_hash xA b). rewrite mb_add, mb_mul.
    do 3 f_equal. apply mb_eqm. rewrite Kx, Kv. cbn [map]. mring.
  Qed.
  (** What GenerateReKey hands out. *)
  Lemma rekey_inv a b N t tp kfs : generate_rekey e a (mb a) (mb b) N t tp = Val kfs ->
    exists c0 cs, length cs = (t - 1)%nat /\ eqm n (c0 * dh_hash (t_xA tp) b) a /\
      length kfs = N /\
      forall k, In k kfs -> k_XA k = mb (t_xA tp) /\
        eqm n (k_rk k) (peval (c0 :: cs) (frag_point e (k_id k) (dh_hash a b))).
  Proof.
    unfold generate_rekey. rewrite !mb_mul.
    replace (mb (b * t_xA tp)) with (mb (t_xA tp * b)) by (f_equal; ring). fold (dh_hash (t_xA tp) b).
    replace (mb (b * a)) with (mb (a * b)) by (f_equal; ring). fold (dh_hash a b).
    destruct (invert_mod _ n) as [w|] eqn:W; [|discriminate]. intros E.
    apply invert_mod_some in W. destruct W as [_ W].
    exists (mul_mod a w n), (map (t_f tp) (seq 1 (t - 1))).
    split; [rewrite map_length, seq_length; auto|]. split.
    { rewrite mul_mod_eqm. transitivity (a * (dh_hash (t_xA tp) b * w)); [mring|]. rewrite W. mring. }
    injection E as <-. split; [rewrite map_length, seq_length; auto|].
    intros k Hk. apply in_map_iff in Hk. destruct Hk as [i [<- _]]. split; [reflexivity|].
    cbn [make_kfrag k_rk k_id]. rewrite rk_loop_eqm. cbn [peval].
    change (Z.of_nat 1) with 1. rewrite Z.pow_1_r. reflexivity.
  Qed.
End Group.

(** The evaluation point of the fragment with a given id, for owner a and
    receiver b: the hash of the decimal id and of the shared secret's hash. *)
Definition point_of (e : prims) (a b id : Z) : Z :=
  cipher_hash e (to_string e id ++
    to_string e (cipher_hash e (ser e (mul_base e a) ++ ser e (mul_base e b) ++ ser e (mul_base e (a * b)) ++ []))).

(** ** The owner decrypts *)
Theorem owner_decrypts e a iv m r u : sound e -> m <> [] ->
  let ct := tpre_encrypt e (public_key e a) iv m r u in
  tpre_decrypt e (fst ct) iv (snd ct) a = Val m.
Proof.
  intros Hs Nm. unfold tpre_encrypt, encapsulate, tpre_decrypt, decapsulate, public_key. cbn [fst snd c_E c_V].
  rewrite (mb_add e Hs), !(mb_mul e Hs).
  replace (mul_base e ((r + u) * a)) with (mul_base e (a * add_mod u r (order e))).
  - apply mte_roundtrip; auto.
  - apply (mb_eqm e Hs). rewrite add_mod_eqm. mring.
Qed.

(** ** Capsule check
    Exactly the capsules with s = v + x H(E, V) pass, where E = x G, V = v G. *)
Theorem check_capsule_exact e x v s : sound e ->
  check_capsule e {| c_E := mul_base e x; c_V := mul_base e v; c_s := s |} = true <->
  s mod order e = (v + x * cipher_hash e (ser e (mul_base e x) ++ ser e (mul_base e v) ++ [])) mod order e.
Proof.
  intros Hs. unfold check_capsule. cbn [c_E c_V c_s]. rewrite (mb_mul e Hs), (mb_add e Hs).
  rewrite (eqb_eq _ _ (s_cyclic e Hs)), (mb_eq e Hs). unfold cipher_hash_points. cbn [map concat].
  split; [intros [H]; exact H|intros H; constructor; exact H].
Qed.
Theorem honest_capsule_passes e pkA r u : sound e -> check_capsule e (fst (encapsulate e pkA r u)) = true.
Proof.
  intros Hs. unfold encapsulate. cbn [fst]. apply check_capsule_exact; auto.
  assert (K : eqm (order e) (add_mod u (mul_mod r (cipher_hash_points e [mul_base e r; mul_base e u]) (order e)) (order e))
    (u + r * cipher_hash e (ser e (mul_base e r) ++ ser e (mul_base e u) ++ []))).
  { rewrite add_mod_eqm, mul_mod_eqm. reflexivity. }
  destruct K as [K]. exact K.
Qed.
(** A proxy refuses a capsule whose s was changed. *)
Theorem damaged_capsule_refused e pkA r u s k data : sound e ->
  let c := fst (encapsulate e pkA r u) in s mod order e <> c_s c mod order e ->
  tpre_reencrypt e k ({| c_E := c_E c; c_V := c_V c; c_s := s |}, data) = Thrown.
Proof.
  intros Hs c Ds. pose proof (honest_capsule_passes e pkA r u Hs) as H. fold c in H.
  unfold tpre_reencrypt, re_encapsulate. cbn [fst].
  destruct (check_capsule e {| c_E := c_E c; c_V := c_V c; c_s := s |}) eqn:C; [|reflexivity]. exfalso. apply Ds.
  unfold c, encapsulate in *. cbn [fst c_E c_V c_s] in *.
  apply check_capsule_exact in C; auto. apply check_capsule_exact in H; auto. congruence.
Qed.

(** ** Threshold decryption
    Any t (or more) fragments with distinct evaluation points let the receiver
    decrypt. *)
Theorem receiver_decrypts e a b N t tp kfs sel iv m r u : sound e ->
  generate_rekey e a (public_key e a) (public_key e b) N t tp = Val kfs ->
  (forall k, In k sel -> In k kfs) -> (1 <= length sel)%nat -> (t <= length sel)%nat ->
  incongruent (order e) (map (fun k => point_of e a b (k_id k)) sel) -> m <> [] ->
  let ct := tpre_encrypt e (public_key e a) iv m r u in
  exists cfs, Forall2 (fun k c => tpre_reencrypt e k ct = Val (c, snd ct)) sel cfs /\
    tpre_decrypt_frags e b (public_key e a) (public_key e b) iv (cfs, snd ct) = Val m.
Proof.
  intros Hs G Hsel L1 Lt D Nm ct. unfold public_key in *.
  destruct (rekey_inv e Hs a b N t tp kfs G) as [c0 [cs [Lcs [Hc0 [_ Hk]]]]].
  apply incongruent_distinct in D. fold (dh_hash e a b) in D.
  exists (map (mk_cfrag e r u) sel). split.
  - assert (H : forall k, tpre_reencrypt e k ct = Val (mk_cfrag e r u k, snd ct)).
    { intros k. unfold tpre_reencrypt, re_encapsulate, ct, tpre_encrypt.
      pose proof (honest_capsule_passes e (mul_base e a) r u Hs) as P.
      unfold encapsulate in *. cbn [fst snd] in *. rewrite P. reflexivity. }
    clear - H. induction sel as [|k sel IH]; constructor; auto.
  - unfold tpre_decrypt_frags. cbn [fst snd].
    rewrite (decaps_general e Hs a b (t_xA tp)).
    + cbn [bind]. unfold ct, tpre_encrypt, encapsulate. cbn [fst snd]. rewrite (mb_mul e Hs).
      set (S_ := map (fun k => frag_point e (k_id k) (dh_hash e a b)) sel).
      assert (K : eqm (order e) (frag_sum e S_ (map k_rk sel)) c0).
      { assert (E0 : eqm (order e) (peval (c0 :: cs) 0) c0) by (cbn [peval]; mring).
        transitivity (peval (c0 :: cs) 0); [|exact E0]. apply (sum_lagrange e Hs (c0 :: cs) S_); auto.
        - cbn [length]. unfold S_. rewrite map_length. lia.
        - unfold S_. rewrite !map_length. reflexivity.
        - intros i Hi. unfold S_ in Hi. rewrite map_length in Hi.
          destruct (nth_error sel i) as [k|] eqn:Ek; [|apply nth_error_None in Ek; lia].
          assert (F : forall f : kfrag e -> Z, nth i (map f sel) 0 = f k) by (intros f; apply nth_error_nth, map_nth_error; exact Ek).
          unfold S_. rewrite !F. apply Hk, Hsel. apply nth_error_In in Ek. exact Ek.
        - clear. induction (map (lam_spec e S_) (seq 0 (length S_))); constructor; auto; reflexivity. }
      replace (mul_base e ((r + u) * frag_sum e S_ (map k_rk sel) * dh_hash e (t_xA tp) b))
        with (mul_base e (a * add_mod u r (order e))); [apply mte_roundtrip; auto|].
      apply (mb_eqm e Hs). rewrite add_mod_eqm, K.
      transitivity ((c0 * dh_hash e (t_xA tp) b) * (r + u)); [rewrite Hc0; mring|mring].
    + destruct sel; [cbn in L1; lia|discriminate].
    + intros k Hin. apply Hk, Hsel, Hin.
    + exact D.
Qed.

(** Two fragments with the same evaluation point, in particular the same
    fragment twice, make decryption throw. *)
Lemma lambda_loop_throw n si i : prime n -> forall S_ j lam k, (k < length S_)%nat -> (j + k <> i)%nat -> eqm n (nth k S_ 0) si ->
  lambda_loop n si i j S_ lam = Thrown.
Proof.
  intros Hp. induction S_ as [|s S_ IH]; intros j lam k Hk N E; [cbn in Hk; lia|].
  cbn [lambda_loop]. destruct k as [|k].
  - cbn [nth] in E. destruct (Nat.eqb_spec i j); [lia|].
    rewrite invert_mod_zero; auto. rewrite sub_mod_eqm. apply eqm_sub0. exact E.
  - cbn [nth] in E. destruct (Nat.eqb_spec i j).
    + apply (IH _ _ k); auto; [cbn in Hk; lia|lia].
    + destruct (invert_mod _ n); [|reflexivity]. apply (IH _ _ k); auto; [cbn in Hk; lia|lia].
Qed.
Lemma lambda_loop_val n si i : forall S_ j lam, (exists l, lambda_loop n si i j S_ lam = Val l) \/ lambda_loop n si i j S_ lam = Thrown.
Proof.
  induction S_ as [|s S_ IH]; intros j lam; cbn [lambda_loop]; [left; eauto|].
  destruct (Nat.eqb i j); [apply IH|]. destruct (invert_mod _ n); [apply IH|right; reflexivity].
Qed.
Lemma lambdas_throw n S_ i k : prime n -> (k < length S_)%nat -> k <> i -> eqm n (nth k S_ 0) (nth i S_ 0) ->
  forall todo, In i todo -> lambdas n S_ todo = Thrown.
Proof.
  intros Hp Hk N E. induction todo as [|x todo IH]; intros Hin; [contradiction|]. cbn [lambdas].
  destruct Hin as [->|Hin].
  - rewrite (lambda_loop_throw n _ i Hp S_ 0 1 k); auto.
  - destruct (lambda_loop_val n (nth x S_ 0) x S_ 0 1) as [[l ->] | ->]; [|reflexivity]. cbn [bind]. rewrite IH by auto. reflexivity.
Qed.
Theorem equal_points_throw e a b iv cfs data : sound e ->
  ~ incongruent (order e) (map (fun c => point_of e a b (f_id c)) cfs) ->
  tpre_decrypt_frags e b (public_key e a) (public_key e b) iv (cfs, data) = Thrown.
Proof.
  intros Hs ND. unfold public_key, tpre_decrypt_frags, decapsulate_frags. cbn [fst snd].
  rewrite (mb_mul e Hs). fold (dh_hash e a b).
  set (S_ := map (fun c => frag_point e (f_id c) (dh_hash e a b)) cfs). change (~ incongruent (order e) S_) in ND.
  destruct (lambdas (order e) S_ (seq 0 (length cfs))) eqn:L; cbn [bind]; try reflexivity.
  all: exfalso; apply ND; intros i k Hi Hk N E.
  all: rewrite (lambdas_throw (order e) S_ i k (s_prime e Hs) Hk (fun q => N (eq_sym q)) (Eqm _ _ _ (eq_sym E))) in L.
  all: try discriminate.
  all: apply in_seq; unfold S_ in Hi; rewrite map_length in Hi; lia.
Qed.
(** No fragment at all: the code reads the first element of an empty vector. *)
Theorem no_fragments e b pkA pkB iv data : tpre_decrypt_frags e b pkA pkB iv ([], data) = OutOfBounds.
Proof. reflexivity. Qed.

(** ** The hash into the exponents
    The result lies in 0 .. order - 2; it is zero exactly for the digests that
    are -1 modulo order - 1, although hash.cc:28 announces 1 + (digest mod
    (order - 1)). *)
Definition digest_value (e : prims) (x : list Z) : Z := from_mag_bytes_le (sm3 e x ++ sm3 e (sm3 e x)).
Theorem hash_zero_exact e x : 2 < order e ->
  0 <= cipher_hash e x < order e - 1 /\
  (cipher_hash e x = 0 <-> digest_value e x mod (order e - 1) = order e - 2) /\
  (digest_value e x mod (order e - 1) <> order e - 2 -> cipher_hash e x = 1 + digest_value e x mod (order e - 1)).
Proof.
  intros H. unfold cipher_hash, add_mod. fold (digest_value e x). set (z := digest_value e x). set (m := order e - 1).
  pose proof (Z.mod_pos_bound z m ltac:(lia)) as B.
  assert (E : (z + 1) mod m = if Z.eqb (z mod m) (m - 1) then 0 else z mod m + 1).
  { rewrite <- Zplus_mod_idemp_l. destruct (Z.eqb_spec (z mod m) (m - 1)) as [->|N].
    - replace (m - 1 + 1) with m by ring. apply Z_mod_same_full.
    - apply Z.mod_small. lia. }
  rewrite E. replace (order e - 2) with (m - 1) by (unfold m; ring).
  destruct (Z.eqb_spec (z mod m) (m - 1)); lia.
Qed.
(** GenerateReKey throws exactly when the hash of the ephemeral exchange is zero. *)
Theorem rekey_throws_exact e a b N t tp : sound e ->
  let d := cipher_hash e (ser e (mul_base e (t_xA tp)) ++ ser e (mul_base e b) ++ ser e (mul_base e (b * t_xA tp)) ++ []) in
  (generate_rekey e a (public_key e a) (public_key e b) N t tp = Thrown <-> d = 0) /\
  (d <> 0 -> exists kfs, generate_rekey e a (public_key e a) (public_key e b) N t tp = Val kfs /\ length kfs = N).
Proof.
  intros Hs d. pose proof (n_pos e Hs) as Hn. unfold generate_rekey, public_key. rewrite !(mb_mul e Hs).
  unfold cipher_hash_points at 1 3. cbn [map concat]. fold d.
  assert (R : 0 <= d < order e).
  { unfold d, cipher_hash, add_mod. pose proof (Z.mod_pos_bound (from_mag_bytes_le
      (sm3 e (ser e (mul_base e (t_xA tp)) ++ ser e (mul_base e b) ++ ser e (mul_base e (b * t_xA tp)) ++ []) ++
       sm3 e (sm3 e (ser e (mul_base e (t_xA tp)) ++ ser e (mul_base e b) ++ ser e (mul_base e (b * t_xA tp)) ++ []))) + 1) (order e - 1) ltac:(lia)). lia. }
  clearbody d. destruct (Z.eq_dec d 0) as [->|Nd].
  - rewrite invert_mod_zero; [|apply (s_prime e Hs)|reflexivity]. split; [tauto|lia].
  - destruct (invert_mod_prime d (order e) (s_prime e Hs)) as [w W].
    { intros [K]. rewrite Zmod_0_l, Z.mod_small in K by lia. contradiction. }
    rewrite W. split; [split; [discriminate|contradiction]|]. intros _. eexists. split; [reflexivity|].
    rewrite map_length, seq_length. reflexivity.
Qed.

(** ** Fewer fragments than the threshold
    The values of t - 1 fragments at non-zero points are consistent with every
    constant term, by exactly one choice of the other coefficients. *)
Theorem fewer_fragments e a b N t tp kfs sel c0 : sound e ->
  generate_rekey e a (public_key e a) (public_key e b) N t tp = Val kfs ->
  (forall k, In k sel -> In k kfs /\ point_of e a b (k_id k) mod order e <> 0) -> t = S (length sel) ->
  incongruent (order e) (map (fun k => point_of e a b (k_id k)) sel) -> 0 <= c0 < order e ->
  exists c, let good d := length d = length sel /\ Forall (fun x => 0 <= x < order e) d /\
                   forall k, In k sel -> poly_value (c0 :: d) (point_of e a b (k_id k)) mod order e = k_rk k mod order e in
    good c /\ forall d, good d -> d = c.
Proof.
  intros Hs G Hsel Ht D Hc0. pose proof (n_pos e Hs) as Hn.
  destruct (sharing_private (order e) (map (fun k => (point_of e a b (k_id k), k_rk k mod order e)) sel) c0) as [c [[Lc [Rc Ec]] U]]; auto.
  - apply (s_prime e Hs).
  - rewrite map_map. cbn [fst]. exact D.
  - intros x y Hin. apply in_map_iff in Hin. destruct Hin as [k [[= <- <-] Hk]]. split; [apply Hsel; auto|]. apply Z.mod_pos_bound. lia.
  - assert (EV : forall d k, Forall (fun x => 0 <= x < order e) d -> In k sel ->
      (evaluate_polynomial (order e) (c0 :: d) (point_of e a b (k_id k)) = Some (k_rk k mod order e) <->
       poly_value (c0 :: d) (point_of e a b (k_id k)) mod order e = k_rk k mod order e)).
    { intros d k Rd Hk. rewrite evaluate_correct; [|lia|discriminate|constructor; auto].
      split; [intros [= H]; exact H|intros ->; reflexivity]. }
    exists c. cbv zeta. rewrite map_length in *. split.
    + split; [auto|]. split; [auto|]. intros k Hk. apply EV; auto. apply Ec. apply in_map_iff. exists k. auto.
    + intros d [Ld [Rd Ed]]. symmetry. apply U. split; [auto|]. split; [auto|].
      intros x y Hin. apply in_map_iff in Hin. destruct Hin as [k [[= <- <-] Hk]]. apply EV; auto.
Qed.
(** ** Collusion
    The receiver and t proxies together compute the owner's secret key. *)
Theorem collusion e a b N t tp kfs sel : sound e ->
  generate_rekey e a (public_key e a) (public_key e b) N t tp = Val kfs ->
  (forall k, In k sel -> In k kfs) -> (1 <= length sel)%nat -> (t <= length sel)%nat ->
  incongruent (order e) (map (fun k => point_of e a b (k_id k)) sel) ->
  exists v, lagrange_interpolation (map (fun k => point_of e a b (k_id k)) sel) (map k_rk sel) 0 (order e) = Some v /\
    forall k, In k sel ->
      (v * cipher_hash_points e [k_XA k; public_key e b; g_mul (grp e) (k_XA k) b]) mod order e = a mod order e.
Proof.
  intros Hs G Hsel L1 Lt D. unfold public_key in *.
  destruct (rekey_inv e Hs a b N t tp kfs G) as [c0 [cs [Lcs [Hc0 [_ Hk]]]]].
  apply incongruent_distinct in D.
  exists (peval (c0 :: cs) 0 mod order e). split.
  - apply interpolation_poly; auto; [apply (s_prime e Hs)|cbn [length]; rewrite map_length; lia|rewrite !map_length; auto|].
    intros i Hi. rewrite map_length in Hi.
    destruct (nth_error sel i) as [k|] eqn:Ek; [|apply nth_error_None in Ek; lia].
    assert (F : forall f : kfrag e -> Z, nth i (map f sel) 0 = f k) by (intros f; apply nth_error_nth, map_nth_error; exact Ek).
    rewrite !F. apply Hk, Hsel. apply nth_error_In in Ek. exact Ek.
  - intros k Hin. destruct (Hk k (Hsel k Hin)) as [-> _]. rewrite (mb_mul e Hs). fold (dh_hash e (t_xA tp) b).
    assert (K : eqm (order e) ((peval (c0 :: cs) 0 mod order e) * dh_hash e (t_xA tp) b) a).
    { rewrite eqm_mod, <- Hc0. cbn [peval]. mring. }
    destruct K as [K]. exact K.
Qed.

(** ** A concrete instance *)
Definition toy : prims := {| grp := zgroup 11; order := 11; ser := fun p => [p];
  sm3 := fun x => x; hmac := fun k m => firstn 32 (k ++ m ++ repeat 0 32);
  keystream := fun k _ n => repeat (nth 0 k 0) n; to_string := fun z => [z] |}.
Lemma prime_11 : prime 11.
Proof.
  apply prime_intro; [lia|]. intros k Hk. apply Zgcd_1_rel_prime.
  assert (C : k = 1 \/ k = 2 \/ k = 3 \/ k = 4 \/ k = 5 \/ k = 6 \/ k = 7 \/ k = 8 \/ k = 9 \/ k = 10) by lia.
  destruct C as [->|[->|[->|[->|[->|[->|[->|[->|[->| ->]]]]]]]]]; reflexivity.
Qed.
Lemma toy_sound : sound toy.
Proof.
  split.
  - exact prime_11.
  - apply (zgroup_cyclic 11). lia.
  - intros k m. cbn [hmac toy]. rewrite firstn_length, !app_length, repeat_length. lia.
  - intros k iv n. apply repeat_length.
Qed.
Definition toy_tape : rekey_tape :=
  {| t_xA := 3; t_f := fun i => Z.of_nat (4 + 3 * i); t_r0 := 2; t_y := fun i => Z.of_nat i; t_id := fun i => Z.of_nat (2 * i + 1) |}.
Definition toy_kfs : list (kfrag toy) :=
  match generate_rekey toy 5 (public_key toy 5) (public_key toy 7) 4 2 toy_tape with Val l => l | _ => [] end.
Example receiver_decrypts_ex :
  let ct := tpre_encrypt toy (public_key toy 5) [9] [104; 105; 33] 4 8 in
  length toy_kfs = 4%nat /\
  map (fun k => point_of toy 5 7 (k_id k)) toy_kfs = [6; 0; 4; 8] /\
  (exists c0 c1 c2 c3, map (fun k => tpre_reencrypt toy k ct) toy_kfs = map (fun c => Val (c, snd ct)) [c0; c1; c2; c3] /\
    tpre_decrypt_frags toy 7 (public_key toy 5) (public_key toy 7) [9] ([c3; c0], snd ct) = Val [104; 105; 33] /\
    tpre_decrypt_frags toy 7 (public_key toy 5) (public_key toy 7) [9] ([c0; c1; c2; c3], snd ct) = Val [104; 105; 33] /\
    tpre_decrypt_frags toy 7 (public_key toy 5) (public_key toy 7) [9] ([c0], snd ct) = Thrown /\
    tpre_decrypt_frags toy 7 (public_key toy 5) (public_key toy 7) [9] ([c0; c0], snd ct) = Thrown).
Proof.
  split; [reflexivity|]. split; [reflexivity|].
  pose (k i := mk_cfrag toy 4 8 (nth i toy_kfs (Build_kfrag toy 0 0 0 0 0 0 0))).
  exists (k 0%nat), (k 1%nat), (k 2%nat), (k 3%nat).
  split; [vm_compute; reflexivity|]. split; [vm_compute; reflexivity|]. split; [vm_compute; reflexivity|].
  split; vm_compute; reflexivity.
Qed.
(** Nothing checks the proof (U, U_1, z_1, z_2) inside a fragment of the key: a
    fragment with a changed rk re-encrypts, and the receiver derives another key. *)
Theorem proof_fields_ignored e k k' ct : k_id k = k_id k' -> k_rk k = k_rk k' -> k_XA k = k_XA k' ->
  tpre_reencrypt e k ct = tpre_reencrypt e k' ct.
Proof. intros H1 H2 H3. unfold tpre_reencrypt, re_encapsulate. rewrite H1, H2, H3. reflexivity. Qed.
Definition toy_bad : kfrag toy :=
  match toy_kfs with
  | k :: _ => {| k_id := k_id k; k_rk := k_rk k + 1; k_XA := k_XA k; k_U := k_U k; k_U1 := k_U1 k; k_z1 := k_z1 k; k_z2 := k_z2 k |}
  | [] => Build_kfrag toy 0 0 0 0 0 0 0
  end.
Theorem tampered_fragment_refuted : exists e a b N t tp kfs k k' c cs ct iv m,
  sound e /\ generate_rekey e a (public_key e a) (public_key e b) N t tp = Val kfs /\ In k kfs /\
  k_id k' = k_id k /\ k_z1 k' = k_z1 k /\ k_z2 k' = k_z2 k /\ k_U1 k' = k_U1 k /\ k_rk k' <> k_rk k /\
  ct = tpre_encrypt e (public_key e a) iv m 4 8 /\
  tpre_reencrypt e k' ct = Val (c, snd ct) /\
  map (fun k => tpre_reencrypt e k ct) (skipn 2 kfs) = map (fun c => Val (c, snd ct)) cs /\
  tpre_decrypt_frags e b (public_key e a) (public_key e b) iv (c :: cs, snd ct) = Thrown.
Proof.
  exists toy, 5, 7, 4%nat, 2%nat, toy_tape, toy_kfs, (hd toy_bad toy_kfs), toy_bad.
  exists (mk_cfrag toy 4 8 toy_bad), (map (mk_cfrag toy 4 8) (skipn 2 toy_kfs)).
  exists (tpre_encrypt toy (public_key toy 5) [9] [104; 105; 33] 4 8), [9], [104; 105; 33].
  split; [exact toy_sound|]. split; [vm_compute; reflexivity|]. split; [vm_compute; left; reflexivity|].
  do 4 (split; [vm_compute; reflexivity|]). split; [vm_compute; discriminate|]. split; [reflexivity|].
  split; [vm_compute; reflexivity|]. split; vm_compute; reflexivity.
Qed.
(** A fragment whose point is zero carries f_0 itself: here the single fragment
    of id 3 lets the receiver decrypt although the threshold is two. *)
Theorem single_fragment_refuted : exists e a b N t tp kfs k c iv m,
  sound e /\ (2 <= t)%nat /\ generate_rekey e a (public_key e a) (public_key e b) N t tp = Val kfs /\ In k kfs /\
  let ct := tpre_encrypt e (public_key e a) iv m 4 8 in
  tpre_reencrypt e k ct = Val (c, snd ct) /\
  tpre_decrypt_frags e b (public_key e a) (public_key e b) iv ([c], snd ct) = Val m.
Proof.
  exists toy, 5, 7, 4%nat, 2%nat, toy_tape, toy_kfs, (nth 1 toy_kfs toy_bad).
  exists (mk_cfrag toy 4 8 (nth 1 toy_kfs toy_bad)), [9], [104; 105; 33].
  split; [exact toy_sound|]. split; [lia|]. split; [vm_compute; reflexivity|]. split; [vm_compute; right; left; reflexivity|].
  split; vm_compute; reflexivity.
Qed.
(** There are inputs for which GenerateReKey throws: here the digest of the
    exchanged points is -1 modulo order - 1. *)
Theorem rekey_total_refuted : exists e a b N t tp, sound e /\
  generate_rekey e a (public_key e a) (public_key e b) N t tp = Thrown.
Proof.
  pose (tp := {| t_xA := 9; t_f := fun _ => 0; t_r0 := 0; t_y := fun _ => 0; t_id := fun _ => 0 |}).
  exists toy, 5, 3, 4%nat, 2%nat, tp. split; [exact toy_sound|]. vm_compute. reflexivity.
Qed.
(** KDF returns the requested number of bytes. *)
Theorem kdf_length e z n : (forall x, length (sm3 e x) = 32%nat) -> length (kdf e z n) = n.
Proof.
  intros H. unfold kdf. set (f := fun i => _).
  assert (L : forall i, length (f i) = if Nat.eqb i ((n + 32) / 32 - 1) then (n mod 32)%nat else 32%nat).
  { intros i. unfold f, kdf_block. cbv zeta. pose proof (Nat.mod_upper_bound n 32 ltac:(lia)).
    destruct (Nat.eqb i ((n + 32) / 32 - 1)); rewrite firstn_length, H; [|lia].
    destruct (Nat.eqb_spec (n mod 32) 0); lia. }
  assert (Ed : ((n + 32) / 32 = S (n / 32))%nat).
  { replace (n + 32)%nat with (n + 1 * 32)%nat by lia. rewrite Nat.div_add by lia. lia. }
  rewrite Ed in *. rewrite Nat.sub_1_r in L. cbn [Nat.pred] in L.
  rewrite seq_S, map_app, concat_app, app_length. cbn [map concat Nat.add]. rewrite app_nil_r, L, Nat.eqb_refl.
  assert (P : forall m, (m <= n / 32)%nat -> length (concat (map f (seq 0 m))) = (32 * m)%nat).
  { induction m as [|m IH]; intros Hm; [reflexivity|]. rewrite seq_S, map_app, concat_app, app_length.
    cbn [map concat Nat.add]. rewrite app_nil_r, L, IH by lia. destruct (Nat.eqb_spec m (n / 32)); lia. }
  rewrite P by lia. pose proof (Nat.div_mod n 32 ltac:(lia)). lia.
Qed.

Print Assumptions mte_decrypt_exact.
Print Assumptions mte_forgery.
Print Assumptions mte_forgery.
Print Assumptions mte_roundtrip.
Print Assumptions mte_empty_refuted.
Print Assumptions owner_decrypts.
Print Assumptions check_capsule_exact.
Print Assumptions honest_capsule_passes.
Print Assumptions damaged_capsule_refused.
Print Assumptions receiver_decrypts.
Print Assumptions equal_points_throw.
Print Assumptions no_fragments.
Print Assumptions hash_zero_exact.
Print Assumptions rekey_throws_exact.
Print Assumptions fewer_fragments.
Print Assumptions collusion.
Print Assumptions proof_fields_ignored.
Print Assumptions tampered_fragment_refuted.
Print Assumptions single_fragment_refuted.
Print Assumptions rekey_total_refuted.
Print Assumptions kdf_length.
