(** C77, C78: the oblivious pseudorandom functions. *)
From Coq Require Import Ascii String.
From Coq Require Import ZArith List Bool Arith Lia Zdiv Znumtheory Setoid Morphisms.
From Verif Require Import ZpLib VssModel VssProof VssProps LinCodeModel OprfModel.
Import ListNotations.
Open Scope Z_scope.

(** What is assumed of the curve: a cyclic group of prime order in which every hashed
    point lies; encodings and hashes shorter than 2^16 bytes. *)
Section Laws.
Variable e : octx.
Notation q := (order e).
Notation pt := (point (grp e)).
Definition bs (k : Z) : pt := g_mul (grp e) (g_base (grp e)) k.
Definition on_curve (P : pt) : Prop := exists k, P = bs k.
Definition short (l : list Z) : Prop := Z.of_nat (length l) < 2 ^ 16.
Record lawful : Prop := {
  w_prime : prime (order e);
  w_cyc : cyclic (grp e) (order e);
  w_base : g_base (grp e) = bs 1;
  w_sub : forall a b, o_sub e (bs a) (bs b) = bs (a - b);
  w_h2g : forall s d, on_curve (o_h2g e s d);
  w_ser : forall P, short (o_ser e P);
  w_hash : forall m, short (o_hash e m);
  w_str : short (text "Seed-" ++ o_str e) }.

Hypothesis W : lawful.
Lemma bs_eqm a b : bs a = bs b <-> eqm q a b.
Proof. unfold bs. rewrite (mul_order _ _ (w_cyc W) a b). split; [intros E; constructor; exact E|intros [E]; exact E]. Qed.
Lemma bs_add a b : g_add (grp e) (bs a) (bs b) = bs (a + b).
Proof. apply (mul_add _ _ (w_cyc W)). Qed.
Lemma bs_mul a b : mul e (bs a) b = bs (a * b).
Proof. apply (mul_mul _ _ (w_cyc W)). Qed.
End Laws.

(** ** The encodings *)
Lemma le_length k : forall x, length (le k x) = k.
Proof. induction k as [|k IH]; intros x; cbn [le length]; [reflexivity|]. rewrite IH. reflexivity. Qed.
(** The number denoted by a big-endian string. *)
Definition of_be (l : list Z) : Z := fold_left (fun a b => 256 * a + b) l 0.
Lemma of_be_app l m : forall a, fold_left (fun a b => 256 * a + b) (l ++ m) a = fold_left (fun a b => 256 * a + b) m (fold_left (fun a b => 256 * a + b) l a).
Proof. intros a. apply fold_left_app. Qed.
Lemma of_be_le k : forall x, 0 <= x < 256 ^ Z.of_nat k -> of_be (rev (le k x)) = x.
Proof.
  induction k as [|k IH]; intros x Hx; [cbn in *; lia|]. cbn [le rev]. unfold of_be. rewrite fold_left_app. cbn [fold_left].
  fold (of_be (rev (le k (x / 256)))). rewrite IH.
  - symmetry. apply Z.div_mod. lia.
  - rewrite Nat2Z.inj_succ, Z.pow_succ_r in Hx by lia. split; [apply Z.div_pos; lia|apply Z.div_lt_upper_bound; lia].
Qed.
(** I2OSP is the big-endian encoding, and throws exactly for numbers that do not fit. *)
Theorem i2osp_spec x k : 0 <= x ->
  (x < 256 ^ Z.of_nat k -> exists l, i2osp x k = Val l /\ length l = k /\ of_be l = x /\ Forall (fun b => 0 <= b < 256) l) /\
  (256 ^ Z.of_nat k <= x -> i2osp x k = Thrown).
Proof.
  intros Hx. unfold i2osp. split; intros H.
  - rewrite (proj2 (Z.ltb_lt _ _)) by lia. exists (rev (le k x)). split; [reflexivity|]. split; [rewrite rev_length; apply le_length|].
    split; [apply of_be_le; lia|]. apply Forall_rev. clear H Hx. revert x. induction k as [|k IH]; intros x; cbn [le]; constructor; auto. apply Z.mod_pos_bound. lia.
  - rewrite (proj2 (Z.ltb_ge _ _)) by lia. reflexivity.
Qed.
Definition be2 (n : nat) : list Z := rev (le 2 (Z.of_nat n)).
Lemma be2_length n : length (be2 n) = 2%nat.
Proof. reflexivity. Qed.
Lemma size2_short l : short l -> size2 l = Val (be2 (length l)).
Proof. intros H. unfold size2, i2osp. change (256 ^ Z.of_nat 2) with (2 ^ 16). unfold short in H. rewrite (proj2 (Z.ltb_lt _ _)) by lia. reflexivity. Qed.
Lemma size2_long l : ~ short l -> size2 l = Thrown.
Proof. intros H. unfold size2, i2osp. change (256 ^ Z.of_nat 2) with (2 ^ 16). unfold short in H. rewrite (proj2 (Z.ltb_ge _ _)) by lia. reflexivity. Qed.
Lemma be2_inj a b : Z.of_nat a < 2 ^ 16 -> Z.of_nat b < 2 ^ 16 -> be2 a = be2 b -> a = b.
Proof. intros Ha Hb E. apply (f_equal of_be) in E. unfold be2 in E. rewrite !of_be_le in E by (change (256 ^ Z.of_nat 2) with (2 ^ 16); lia). lia. Qed.
(** A string with its length in front can be read back. *)
Definition field (l : list Z) : list Z := be2 (length l) ++ l.
Lemma field_inj a b r s : short a -> short b -> field a ++ r = field b ++ s -> a = b /\ r = s.
Proof.
  intros Ha Hb E. unfold field in E. rewrite <- !app_assoc in E.
  assert (E1 : be2 (length a) = be2 (length b)) by (apply (f_equal (firstn 2)) in E; rewrite !firstn_app, !be2_length in E; cbn [firstn Nat.sub] in E;
    rewrite !app_nil_r in E; exact E).
  assert (L : length a = length b) by (apply be2_inj; auto). rewrite E1 in E. apply app_inv_head in E.
  assert (Ea : a = b).
  { apply (f_equal (firstn (length a))) in E. rewrite firstn_app, firstn_all, Nat.sub_diag, firstn_O, app_nil_r in E.
    rewrite L, firstn_app, firstn_all, Nat.sub_diag, firstn_O, app_nil_r in E. exact E. }
  subst b. apply app_inv_head in E. auto.
Qed.

(** ** Context strings *)
Lemma text_app a b : text (a ++ b) = text a ++ text b.
Proof. unfold text. induction a as [|x a IH]; cbn; [reflexivity|]. f_equal. exact IH. Qed.
Lemma eq_bytes_eq a : forall b, eq_bytes a b = true <-> a = b.
Proof.
  induction a as [|x a IH]; intros [|y b]; cbn; try (split; intros; congruence).
  rewrite andb_true_iff, Z.eqb_eq, IH. split; [intros [-> ->]; auto|intros [= -> ->]; auto].
Qed.
Lemma split_no_dash d s : forall p, In p (split d s) -> ~ In d p.
Proof.
  induction s as [|x s IH]; cbn [split]; intros p Hp.
  - destruct Hp as [<-|[]]. intros [].
  - destruct (Z.eqb_spec x d) as [->|Hx].
    + destruct Hp as [<-|Hp]; [intros []|auto].
    + destruct (split d s) as [|p' r] eqn:E; cbn [In] in Hp.
      * destruct Hp as [<-|[]]. intros [H|[]]; auto.
      * destruct Hp as [<-|Hp]; [|apply IH; right; auto]. intros [H|H]; [auto|]. apply (IH p'); [left; auto|auto].
Qed.
Lemma suite_of_dash s c : suite_of s = Val c -> In 45 s.
Proof.
  unfold suite_of. repeat match goal with |- context [if ?b then _ else _] => destruct b eqn:? end; intros E; try discriminate;
  match goal with H : eq_bytes s _ = true |- _ => apply eq_bytes_eq in H; subst s; cbv; tauto end.
Qed.
(** No context string is accepted: the names of the suites contain the separator. *)
Theorem context_string_refuted s : from_context_string s = Thrown.
Proof.
  unfold from_context_string. pose proof (split_no_dash 45 s) as D.
  destruct (split 45 s) as [|a [|m [|c [|d r]]]]; try reflexivity.
  - destruct m as [|x [|y l]]; reflexivity.
  - destruct m as [|x [|y l]]; try reflexivity. destruct (eq_bytes a _); [|reflexivity].
    destruct (suite_of c) as [k| | |] eqn:E; cbn [bind]; try reflexivity.
    + exfalso. apply (D c); [right; right; left; reflexivity|]. eapply suite_of_dash. eauto.
    + exfalso. revert E. unfold suite_of. repeat match goal with |- context [if ?b then _ else _] => destruct b end; discriminate.
    + exfalso. revert E. unfold suite_of. repeat match goal with |- context [if ?b then _ else _] => destruct b end; discriminate.
  - destruct m as [|x [|y l]]; reflexivity.
Qed.
Print Assumptions context_string_refuted.
Example context_string_concrete : from_context_string (to_context_string 1 P256) = Thrown /\ split 45 (to_context_string 1 P256) = [text "OPRFV1"; [1]; text "P256"; text "SHA256"].
Proof. split; [apply context_string_refuted|reflexivity]. Qed.
(** Different modes and suites have different strings, so their hashes are separated. *)
Theorem context_string_injective m c m' c' : to_context_string m c = to_context_string m' c' -> m = m' /\ c = c'.
Proof.
  unfold to_context_string. intros E. apply app_inv_head in E. cbn [app] in E. injection E as Em E. split; [exact Em|].
  destruct c, c'; try reflexivity; discriminate E.
Qed.
Print Assumptions context_string_injective.

(** ** Keys from a seed *)
Theorem derive_key_exact e seed info : lawful e -> length seed = 32%nat ->
  let buf := seed ++ be2 (length info) ++ info ++ [0] in
  let h := o_h2s e buf (text "DeriveKeyPair" ++ o_str e) in
  derive_key_pair e seed info = if Z.of_nat (length info) <? 2 ^ 16 then if h =? 0 then OutOfBounds else Val (h, bs e h) else Thrown.
Proof.
  intros _ Ls buf h. unfold derive_key_pair. destruct (Z.ltb_spec (Z.of_nat (length info)) (2 ^ 16)) as [H|H]; [|reflexivity].
  cbn [negb]. rewrite size2_short by exact H. cbn [bind]. change 300%nat with (S (S 298)). generalize 298%nat as f. intros f. cbn [derive_loop]. change (negb (0 <=? 255)) with false. cbn [negb].
  assert (I0 : i2osp 0 1 = Val [0]) by reflexivity. rewrite I0. cbn [bind].
  set (b0 := seed ++ be2 (length info) ++ info). assert (L0 : length (b0 ++ [0]) = (length b0 + 1)%nat) by (rewrite app_length; reflexivity).
  rewrite (proj2 (Nat.leb_le _ _)) by lia. cbn [negb].
  rewrite firstn_app, firstn_all, Nat.sub_diag, firstn_O, app_nil_r. rewrite skipn_all2 by lia. rewrite app_nil_r.
  replace (b0 ++ [0]) with buf by (unfold buf, b0; rewrite <- !app_assoc; reflexivity). fold h.
  destruct (h =? 0); [|reflexivity]. change (negb (0 + 1 <=? 255)) with false. cbv iota. assert (I1 : i2osp (0 + 1) 1 = Val [1]) by reflexivity. rewrite I1. cbn [bind].
  assert (Lb : length buf = (length b0 + 1)%nat) by (unfold buf; rewrite <- L0; unfold b0; rewrite <- !app_assoc; reflexivity).
  rewrite (proj2 (Nat.leb_gt _ _)) by lia. reflexivity.
Qed.
Print Assumptions derive_key_exact.
(** RFC 9497 goes on with the next counter; here the retry writes past the buffer. *)
Definition toy_h2s (m d : list Z) : Z := fold_left (fun a b => (a * 31 + b + 3) mod 101) (m ++ d) 7.
Definition toy_hash (m : list Z) : list Z := [fold_left (fun a b => (a * 37 + b + 5) mod 251) m 11; Z.of_nat (length m) mod 256].
Definition toy : octx :=
  {| grp := zgroup 101; order := 101; o_sub := fun a b => (a - b) mod 101; o_ser := fun a => [a; 7];
     o_h2g := fun m d => (1 + toy_h2s m d mod 100) mod 101; o_h2s := toy_h2s; o_hash := toy_hash; o_str := to_context_string 1 P256 |}.
Lemma prime_101 : prime 101.
Proof.
  constructor; [lia|]. intros k K. apply Zgcd_1_rel_prime.
  assert (A : forallb (fun i => Z.gcd (Z.of_nat i) 101 =? 1) (seq 1 100) = true) by (vm_compute; reflexivity).
  rewrite forallb_forall in A. specialize (A (Z.to_nat k)). rewrite Z2Nat.id in A by lia. apply Z.eqb_eq, A, in_seq. lia.
Qed.
Lemma toy_lawful : lawful toy.
Proof.
  constructor.
  - exact prime_101.
  - apply (zgroup_cyclic 101). lia.
  - reflexivity.
  - intros a b. cbn -[Z.modulo]. unfold bs. cbn -[Z.modulo]. change (1 mod 101) with 1. rewrite !Z.mul_1_l. symmetry. apply Zminus_mod.
  - intros s d. exists (o_h2g toy s d). unfold bs. cbn -[Z.modulo]. change (1 mod 101) with 1. rewrite Z.mul_1_l, Zmod_mod. reflexivity.
  - intros P. reflexivity.
  - intros m. reflexivity.
  - vm_compute. reflexivity.
Qed.
Definition zero_seed : list Z := repeat 0 31 ++ [69].
Theorem derive_key_retry_refuted : exists e seed info, lawful e /\ length seed = 32%nat /\ (length info < 10)%nat /\
  derive_key_pair e seed info = OutOfBounds /\ o_h2s e (seed ++ be2 (length info) ++ info ++ [1]) (text "DeriveKeyPair" ++ o_str e) <> 0.
Proof.
  exists toy, zero_seed, [1; 2]. split; [exact toy_lawful|]. split; [reflexivity|]. split; [cbn; lia|]. split; [vm_compute; reflexivity|vm_compute; discriminate].
Qed.
Print Assumptions derive_key_retry_refuted.

(** ** C77: the OPRF *)
(** The function the protocol computes, for key k. *)
Definition prf (e : octx) (k : Z) (input priv : list Z) : list Z :=
  o_hash e (field priv ++ field (o_ser e (g_mul (grp e) (hash_to_group e input) k)) ++ text "Finalize").
Section OprfProofs.
Variable e : octx.
Hypothesis W : lawful e.
Notation q := (order e).
Lemma finish_val pb priv : short priv -> short pb -> finish e pb priv = Val (o_hash e (field priv ++ field pb ++ text "Finalize")).
Proof.
  intros H1 H2. unfold finish. pose proof H1 as H1'. pose proof H2 as H2'. unfold short in H1', H2'. rewrite !(proj2 (Z.leb_le _ (2 ^ 16))) by lia. cbn [negb].
  rewrite !size2_short by auto. cbn [bind]. unfold assemble. cbn [concat]. rewrite app_nil_r.
  rewrite (proj2 (Nat.eqb_eq _ _)) by (rewrite !app_length, !be2_length; lia). cbn [bind]. unfold field. rewrite <- !app_assoc. reflexivity.
Qed.
Lemma finish_long pb priv : ~ short priv -> finish e pb priv = Thrown.
Proof. intros H. unfold finish. destruct (negb _); [reflexivity|]. rewrite size2_long by auto. reflexivity. Qed.

(** The inverse in use fits the blind in use. *)
Definition fresh (c : client) : Prop := ~ eqm q (blind c) 0 /\ (blind_inv c = 0 \/ eqm q (blind c * blind_inv c) 1).
Lemma session_exact c k input priv i :
  (if blind_inv c =? 0 then invert_mod (blind c) q else Some (blind_inv c)) = Some i -> short priv ->
  exists h, hash_to_group e input = bs e h /\
    finalize e c (blind_evaluate e k (client_blind e c input)) priv =
    ({| blind := blind c; blind_inv := i |}, Val (o_hash e (field priv ++ field (o_ser e (bs e (h * k * (blind c * i)))) ++ text "Finalize"))).
Proof.
  intros E Hp. destruct (w_h2g e W input (text "HashToGroup-" ++ o_str e)) as [h Hh]. exists h. split; [exact Hh|].
  unfold finalize. rewrite E. f_equal. unfold blind_evaluate, client_blind. unfold hash_to_group. rewrite Hh, !(bs_mul e W).
  replace (h * blind c * k * i) with (h * k * (blind c * i)) by ring. apply finish_val; [auto|apply (w_ser e W)].
Qed.
(** A session with an honest server gives the function value, whatever the blind. *)
Theorem oprf_correct c k input priv : fresh c -> short priv ->
  exists i, finalize e c (blind_evaluate e k (client_blind e c input)) priv = ({| blind := blind c; blind_inv := i |}, Val (prf e k input priv)) /\
    eqm q (blind c * i) 1.
Proof.
  intros [Hb Hi] Hp. pose proof (w_prime e W) as P.
  assert (G : exists i, (if blind_inv c =? 0 then invert_mod (blind c) q else Some (blind_inv c)) = Some i /\ eqm q (blind c * i) 1).
  { destruct (Z.eqb_spec (blind_inv c) 0) as [E|E].
    - destruct (invert_mod_prime _ _ P Hb) as [r Er]. exists r. split; [exact Er|]. apply (invert_mod_some _ _ _ Er).
    - destruct Hi as [Hi|Hi]; [contradiction|]. exists (blind_inv c). auto. }
  destruct G as (i & Ei & I1). exists i. split; [|exact I1]. destruct (session_exact c k input priv i Ei Hp) as (h & Hh & ->).
  unfold prf. rewrite Hh. fold (mul e (bs e h) k). rewrite (bs_mul e W). replace (bs e (h * k * (blind c * i))) with (bs e (h * k)); [reflexivity|].
  apply (bs_eqm e W). rewrite I1, Z.mul_1_r. reflexivity.
Qed.
(** Inputs of 2^16 bytes and more are refused. *)
Theorem oprf_long_input c ev priv : 2 ^ 16 <= Z.of_nat (length priv) -> snd (finalize e c ev priv) = Thrown.
Proof.
  intros H. unfold finalize. destruct (if blind_inv c =? 0 then _ else _); [|reflexivity]. cbn [snd]. apply finish_long. unfold short. lia.
Qed.

(** Histories of one client object against a server with key k. *)
Inductive op := Session (input priv : list Z) | Refresh (r : Z) | Clear.
Definition step (k : Z) (c : client) (o : op) : client * list (outcome (list Z)) :=
  match o with
  | Session input priv => let (c', r) := finalize e c (blind_evaluate e k (client_blind e c input)) priv in (c', [r])
  | Refresh r => (refresh_blind c r, [])
  | Clear => (clear_blind c, [])
  end.
Fixpoint run (k : Z) (c : client) (ops : list op) : list (outcome (list Z)) :=
  match ops with [] => [] | o :: r => snd (step k c o) ++ run k (fst (step k c o)) r end.
(** A blind is set, and never refreshed once it has been used, unless it is cleared. *)
Fixpoint fine (set used : bool) (ops : list op) : Prop :=
  match ops with
  | [] => True
  | Session _ priv :: r => set = true /\ short priv /\ fine true true r
  | Refresh x :: r => used = false /\ ~ eqm q x 0 /\ fine true false r
  | Clear :: r => fine false false r
  end.
Fixpoint values (k : Z) (ops : list op) : list (outcome (list Z)) :=
  match ops with [] => [] | Session i p :: r => Val (prf e k i p) :: values k r | _ :: r => values k r end.
Theorem oprf_histories k b ops : ~ eqm q b 0 -> fine true false ops -> run k (new_client b) ops = values k ops.
Proof.
  intros Hb. assert (G : forall ops c set used, (set = true -> fresh c) -> (used = false -> blind_inv c = 0) -> fine set used ops -> run k c ops = values k ops).
  { clear ops. induction ops as [|o ops IH]; intros c set used Hs Hu F; [reflexivity|]. cbn [run values]. destruct o as [input priv|r|]; cbn [fine] in F.
    - destruct F as (Es & Hp & F). destruct (oprf_correct c k input priv (Hs Es) Hp) as (i & E & I1). cbn [step]. rewrite E. cbn [fst snd app]. f_equal.
      apply (IH _ true true); auto; [|discriminate]. intros _. split; [apply (Hs Es)|right; exact I1].
    - destruct F as (Eu & Hr & F). cbn [step fst snd app]. apply (IH _ true false); auto. intros _. split; [exact Hr|left; apply Hu; auto].
    - cbn [step fst snd app]. apply (IH _ false false); auto. discriminate. }
  intros F. apply (G ops _ true false); auto. intros _. split; [exact Hb|left; reflexivity].
Qed.
(** RefreshBlind keeps the inverse of the blind before: after a session, the next output
    is not the function value but that of another point. *)
Theorem oprf_refresh_refuted c k input priv r y priv' : fresh c -> short priv -> short priv' ->
  ~ eqm q r (blind c) -> ~ eqm q k 0 -> hash_to_group e y <> bs e 0 ->
  exists o Q, run k c [Session input priv; Refresh r; Session y priv'] = [Val (prf e k input priv); Val o] /\
    o = o_hash e (field priv' ++ field (o_ser e Q) ++ text "Finalize") /\ Q <> g_mul (grp e) (hash_to_group e y) k /\
    ((forall A B, o_ser e A = o_ser e B -> A = B) -> (forall a b, o_hash e a = o_hash e b -> a = b) -> o <> prf e k y priv').
Proof.
  intros F Hp Hp' Hr Hk Hy. pose proof (w_prime e W) as P. destruct (oprf_correct c k input priv F Hp) as (i & E & I1).
  assert (Ni : i <> 0).
  { intros ->. rewrite Z.mul_0_r in I1. destruct I1 as [I1]. pose proof (prime_pos _ P). rewrite Z.mod_0_l, Z.mod_1_l in I1 by lia. lia. }
  set (c2 := {| blind := r; blind_inv := i |}).
  destruct (session_exact c2 k y priv' i) as (h & Hh & E2); [cbn [c2 blind blind_inv]; rewrite (proj2 (Z.eqb_neq i 0)) by auto; reflexivity|auto|].
  exists (o_hash e (field priv' ++ field (o_ser e (bs e (h * k * (r * i)))) ++ text "Finalize")), (bs e (h * k * (r * i))).
  assert (Q : bs e (h * k * (r * i)) <> g_mul (grp e) (hash_to_group e y) k).
  { rewrite Hh. fold (mul e (bs e h) k). rewrite (bs_mul e W). intros B. apply (bs_eqm e W) in B. apply Hr.
    assert (B2 : eqm q (r * i * (h * k)) (1 * (h * k))) by (rewrite Z.mul_1_l, Z.mul_comm; exact B).
    apply (eqm_prime_cancel _ _ _ _ P) in B2.
    - assert (C2 : eqm q (r * (blind c * i)) (blind c)) by (replace (r * (blind c * i)) with (blind c * (r * i)) by ring; rewrite B2, Z.mul_1_r; reflexivity).
      rewrite I1, Z.mul_1_r in C2. exact C2.
    - intros Z0. apply (eqm_prime_mul _ _ _ P) in Z0 as [Z0|Z0]; [|auto]. apply Hy. rewrite Hh. apply (bs_eqm e W). exact Z0. }
  split; [|split; [reflexivity|split; [exact Q|]]].
  - cbn [run step]. rewrite E. cbn [fst snd app]. unfold refresh_blind. cbn [blind_inv]. fold c2. rewrite E2. reflexivity.
  - intros Is Ih. unfold prf. intros X. apply Ih in X. apply app_inv_head in X. apply field_inj in X as [X _]; try apply (w_ser e W). apply Is in X. contradiction.
Qed.
(** After ClearBlind, or with the drawn blind 0, Finalize throws. *)
Theorem oprf_zero_blind c ev priv : eqm q (blind c) 0 -> blind_inv c = 0 -> snd (finalize e c ev priv) = Thrown.
Proof. intros H E. unfold finalize. rewrite E, Z.eqb_refl, (invert_mod_zero _ _ (w_prime e W) H). reflexivity. Qed.
(** Hiding: every blinded element is as likely for one input as for any other; for each
    blind of the first input exactly one blind of the second gives the same element. *)
Theorem oprf_hiding x y b : hash_to_group e x <> bs e 0 -> hash_to_group e y <> bs e 0 ->
  exists b', 0 <= b' < q /\ client_blind e (new_client b') y = client_blind e (new_client b) x /\
    forall b2, 0 <= b2 < q -> client_blind e (new_client b2) y = client_blind e (new_client b) x -> b2 = b'.
Proof.
  intros Hx Hy. pose proof (w_prime e W) as P. pose proof (prime_pos _ P) as Q1. unfold client_blind, new_client. cbn [blind].
  destruct (w_h2g e W x (text "HashToGroup-" ++ o_str e)) as [hx Ex]. destruct (w_h2g e W y (text "HashToGroup-" ++ o_str e)) as [hy Ey].
  unfold hash_to_group in *. rewrite Ex, Ey in *. assert (Ny : ~ eqm q hy 0) by (intros Z0; apply Hy, (bs_eqm e W); exact Z0).
  destruct (invert_mod_prime _ _ P Ny) as [v Ev]. apply invert_mod_some in Ev as [_ V].
  exists ((b * hx * v) mod q). split; [apply Z.mod_pos_bound; lia|]. rewrite !(bs_mul e W). split.
  - apply (bs_eqm e W). rewrite eqm_mod. replace (hy * (b * hx * v)) with (hx * b * (hy * v)) by ring. rewrite V, Z.mul_1_r. reflexivity.
  - intros b2 B2 E. rewrite !(bs_mul e W) in E. apply (bs_eqm e W) in E. apply (eqm_small q); auto; [apply Z.mod_pos_bound; lia|]. rewrite eqm_mod.
    assert (E2 : eqm q (b2 * (hy * v)) (b * hx * v)) by (replace (b2 * (hy * v)) with (hy * b2 * v) by ring; rewrite E; apply eqm_eq; ring).
    rewrite V, Z.mul_1_r in E2. exact E2.
Qed.
End OprfProofs.
Print Assumptions oprf_correct.
Print Assumptions oprf_histories.
Print Assumptions oprf_refresh_refuted.
Print Assumptions oprf_zero_blind.
Print Assumptions oprf_long_input.
Print Assumptions oprf_hiding.

(** ** C78: the verifiable OPRF *)
(** The scalars that weigh the elements of a batch: hashes of the key, the position and
    the two elements. *)
Definition batch_seed (e : octx) (pk : point (grp e)) : list Z := o_hash e (field (o_ser e pk) ++ field (text "Seed-" ++ o_str e)).
Definition weight (e : octx) (pk : point (grp e)) (i : nat) (c d : point (grp e)) : Z :=
  hash_to_scalar e (field (batch_seed e pk) ++ be2 i ++ field (o_ser e c) ++ field (o_ser e d) ++ text "Composite").
Fixpoint weights (e : octx) (pk : point (grp e)) (i : nat) (cs ds : list (point (grp e))) : list Z :=
  match cs, ds with c :: cs', d :: ds' => weight e pk i c d :: weights e pk (S i) cs' ds' | _, _ => [] end.
Fixpoint dot (a b : list Z) : Z := match a, b with x :: a', y :: b' => x * y + dot a' b' | _, _ => 0 end.
Definition dleq_hash (e : octx) (pk m z t2 t3 : point (grp e)) : Z :=
  hash_to_scalar e (field (o_ser e pk) ++ field (o_ser e m) ++ field (o_ser e z) ++ field (o_ser e t2) ++ field (o_ser e t3) ++ text "Challenge").

Section VoprfProofs.
Variable e : octx.
Hypothesis W : lawful e.
Notation q := (order e).
Notation pt := (point (grp e)).
Lemma seed_val pk : composite_seed e pk = Val (batch_seed e pk).
Proof.
  unfold composite_seed. rewrite !size2_short by (apply (w_ser e W) || apply (w_str e W)). cbn [bind]. unfold assemble. cbn [concat]. rewrite app_nil_r.
  rewrite (proj2 (Nat.eqb_eq _ _)) by (rewrite !app_length, !be2_length; lia). cbn [bind]. unfold batch_seed, field. rewrite <- !app_assoc. reflexivity.
Qed.
Lemma scalar_val pk i c d : Z.of_nat i < 2 ^ 16 -> composite_scalar e (batch_seed e pk) i c d = Val (weight e pk i c d).
Proof.
  intros Hi. unfold composite_scalar. rewrite !size2_short by (apply (w_ser e W) || apply (w_hash e W)). cbn [bind]. unfold i2osp. change (256 ^ Z.of_nat 2) with (2 ^ 16).
  rewrite (proj2 (Z.ltb_lt _ _)) by lia. cbn [bind]. fold (be2 i). unfold assemble. cbn [concat]. rewrite app_nil_r.
  rewrite (proj2 (Nat.eqb_eq _ _)) by (rewrite !app_length, !be2_length; lia). cbn [bind]. unfold weight, field. rewrite <- !app_assoc. reflexivity.
Qed.
Lemma scalar_late pk i c d : 2 ^ 16 <= Z.of_nat i -> composite_scalar e (batch_seed e pk) i c d = Thrown.
Proof.
  intros Hi. unfold composite_scalar. rewrite !size2_short by (apply (w_ser e W) || apply (w_hash e W)). cbn [bind]. unfold i2osp. change (256 ^ Z.of_nat 2) with (2 ^ 16).
  rewrite (proj2 (Z.ltb_ge _ _)) by lia. reflexivity.
Qed.
Lemma loop_val pk : forall a b i m z, length a = length b -> Z.of_nat (i + length a) <= 2 ^ 16 ->
  composite_loop e (batch_seed e pk) i (map (bs e) a) (map (bs e) b) (bs e m) (bs e z) =
  Val (bs e (m + dot (weights e pk i (map (bs e) a) (map (bs e) b)) a), bs e (z + dot (weights e pk i (map (bs e) a) (map (bs e) b)) b)).
Proof.
  induction a as [|x a IH]; intros [|y b] i m z L Hi; try discriminate; cbn [map composite_loop weights dot]; [rewrite !Z.add_0_r; reflexivity|].
  cbn [length] in *. rewrite scalar_val by lia. cbn [bind]. set (w := weight _ _ _ _ _). rewrite !(bs_mul e W), !(bs_add e W), IH by lia.
  f_equal. f_equal; f_equal; ring.
Qed.
Lemma loop_late pk : forall cs ds i m z, length cs = length ds -> cs <> [] -> 2 ^ 16 < Z.of_nat (i + length cs) ->
  composite_loop e (batch_seed e pk) i cs ds m z = Thrown.
Proof.
  induction cs as [|c cs IH]; intros [|d ds] i m z L N Hi; try discriminate; [contradiction|]. cbn [composite_loop length] in *.
  destruct (Z_lt_ge_dec (Z.of_nat i) (2 ^ 16)); [|rewrite scalar_late by lia; reflexivity]. rewrite scalar_val by auto. cbn [bind]. apply IH; [lia| |lia].
  intros ->. cbn [length] in Hi. lia.
Qed.
Lemma composites_val pk a b : length a = length b -> Z.of_nat (length a) <= 2 ^ 16 ->
  let ws := weights e pk 0 (map (bs e) a) (map (bs e) b) in
  composites e pk (map (bs e) a) (map (bs e) b) = Val (bs e (dot ws a), bs e (dot ws b)).
Proof.
  intros L Hl ws. unfold composites. rewrite !map_length, L, Nat.eqb_refl. cbn [negb]. rewrite seed_val. cbn [bind].
  unfold base. rewrite (w_base e W), (w_sub e W). rewrite loop_val by auto. reflexivity.
Qed.
Lemma challenge_val pk m z t2 t3 : challenge e pk m z t2 t3 = Val (dleq_hash e pk m z t2 t3).
Proof.
  unfold challenge. rewrite !size2_short by apply (w_ser e W). cbn [bind]. unfold assemble. cbn [concat]. rewrite app_nil_r.
  rewrite (proj2 (Nat.eqb_eq _ _)) by (rewrite !app_length, !be2_length; lia). cbn [bind]. unfold dleq_hash, field. rewrite <- !app_assoc. reflexivity.
Qed.
Lemma base_mul k : mul e (base e) k = bs e k.
Proof. reflexivity. Qed.
Lemma dot_scale k : forall ws a, dot ws (map (Z.mul k) a) = k * dot ws a.
Proof. induction ws as [|w ws IH]; intros [|x a]; cbn [map dot]; try ring. rewrite IH. ring. Qed.
Lemma dot_lin k : forall ws a b, length a = length b -> dot ws (map (fun p => snd p - k * fst p) (combine a b)) = dot ws b - k * dot ws a.
Proof. induction ws as [|w ws IH]; intros [|x a] [|y b] L; try discriminate; cbn [combine map dot fst snd]; try ring. rewrite IH by auto. ring. Qed.

(** The honest server's proof is always accepted, for batches of up to 2^16 elements. *)
Theorem voprf_complete sk cs randomness draw : Forall (on_curve e) cs -> Z.of_nat (length cs) <= 2 ^ 16 ->
  exists p, generate_proof e sk (bs e sk) cs (map (fun c => g_mul (grp e) c sk) cs) randomness draw = Val p /\
    0 <= p_s p < q /\ verify_proof e (bs e sk) cs (map (fun c => g_mul (grp e) c sk) cs) p = Val true.
Proof.
  intros Hc Hl. pose proof (prime_pos _ (w_prime e W)) as Q1.
  assert (exists a, cs = map (bs e) a) as [a ->].
  { clear Hl. induction Hc as [|c cs [x Hx] _ [a IH]]; [exists []; reflexivity|]. exists (x :: a). cbn. congruence. }
  rewrite map_length in Hl. rewrite map_map.
  assert (Em : map (fun x => g_mul (grp e) (bs e x) sk) a = map (bs e) (map (fun x => x * sk) a)).
  { rewrite map_map. apply map_ext. intros x. apply (bs_mul e W). }
  rewrite Em. unfold generate_proof, composites_fast, verify_proof. rewrite composites_val by (rewrite ?map_length; auto).
  set (ws := weights _ _ _ _ _). cbn [bind fst snd]. rewrite challenge_val. cbn [bind]. set (r := if randomness =? 0 then draw else randomness).
  rewrite !base_mul, !(bs_mul e W). set (M := dot ws a). set (c := dleq_hash _ _ _ _ _ _).
  eexists. split; [reflexivity|]. cbn [p_c p_s]. split; [apply Z.mod_pos_bound; lia|]. rewrite challenge_val. cbn [bind]. f_equal.
  assert (Ez : bs e (dot ws (map (fun x => x * sk) a)) = bs e (M * sk)).
  { f_equal. replace (map (fun x => x * sk) a) with (map (Z.mul sk) a) by (apply map_ext; intros; ring). rewrite dot_scale. unfold M. ring. }
  rewrite Ez, !(bs_mul e W), base_mul, !(bs_add e W). rewrite (proj2 (Z.eqb_eq _ 0)); [reflexivity|].
  replace (bs e ((r - c * sk) mod q + sk * c)) with (bs e r).
  2:{ apply (bs_eqm e W). rewrite eqm_mod. apply eqm_eq. ring. }
  replace (bs e (M * ((r - c * sk) mod q) + M * sk * c)) with (bs e (M * r)); [fold c; ring|].
  apply (bs_eqm e W). rewrite eqm_mod. apply eqm_eq. ring.
Qed.
(** Larger batches throw, on both sides. *)
Theorem voprf_long_batch sk pk cs ds randomness draw p : length cs = length ds -> 2 ^ 16 < Z.of_nat (length cs) ->
  generate_proof e sk pk cs ds randomness draw = Thrown /\ verify_proof e pk cs ds p = Thrown.
Proof.
  intros L H. assert (C : composites e pk cs ds = Thrown).
  { unfold composites. rewrite L, Nat.eqb_refl. cbn [negb]. rewrite seed_val. cbn [bind]. apply loop_late; auto. intros ->. cbn in H. lia. }
  unfold generate_proof, composites_fast, verify_proof. rewrite C. auto.
Qed.
(** A proof is accepted exactly when it answers the hash of its own commitments. *)
Definition answers (pk m z : pt) (p : proof) (t2 t3 : pt) : Prop :=
  t2 = g_add (grp e) (bs e (p_s p)) (g_mul (grp e) pk (p_c p)) /\ t3 = g_add (grp e) (g_mul (grp e) m (p_s p)) (g_mul (grp e) z (p_c p)).
Theorem voprf_verify_exact k a b p : length a = length b -> Z.of_nat (length a) <= 2 ^ 16 ->
  let ws := weights e (bs e k) 0 (map (bs e) a) (map (bs e) b) in
  let m := bs e (dot ws a) in let z := bs e (dot ws b) in
  verify_proof e (bs e k) (map (bs e) a) (map (bs e) b) p = Val true <->
  exists t2 t3, answers (bs e k) m z p t2 t3 /\ p_c p = dleq_hash e (bs e k) m z t2 t3.
Proof.
  intros L Hl ws m z. unfold verify_proof. rewrite composites_val by auto. fold ws. cbn [bind fst snd]. fold m z. rewrite challenge_val. cbn [bind].
  rewrite base_mul. split.
  - intros E. injection E as E. apply Z.eqb_eq in E. eexists. eexists. split; [split; reflexivity|]. unfold mul in E. lia.
  - intros (t2 & t3 & [-> ->] & E). f_equal. apply Z.eqb_eq. unfold mul. lia.
Qed.
(** Soundness: if the composite elements are not related by the key, for every pair of
    commitments a single challenge modulo the order can be answered, and it is fixed
    before the challenge is hashed. *)
Theorem voprf_sound k x y t2 t3 p p' : ~ eqm q y (k * x) ->
  answers (bs e k) (bs e x) (bs e y) p t2 t3 -> answers (bs e k) (bs e x) (bs e y) p' t2 t3 -> eqm q (p_c p) (p_c p').
Proof.
  intros N [E2 E3] [F2 F3]. rewrite E2 in F2. rewrite E3 in F3. fold (mul e (bs e k) (p_c p)) (mul e (bs e k) (p_c p')) in F2.
  fold (mul e (bs e x) (p_s p)) (mul e (bs e x) (p_s p')) (mul e (bs e y) (p_c p)) (mul e (bs e y) (p_c p')) in F3.
  rewrite !(bs_mul e W), !(bs_add e W) in F2. rewrite !(bs_mul e W) in F3. rewrite !(bs_add e W) in F3. apply (bs_eqm e W) in F2, F3.
  apply (eqm_prime_cancel q _ _ (y - k * x) (w_prime e W)); [intros Z0; apply N; apply eqm_sub0; exact Z0|].
  assert (F2' : eqm q (x * (p_s p + k * p_c p)) (x * (p_s p' + k * p_c p'))) by (rewrite F2; reflexivity).
  replace (p_c p * (y - k * x)) with (x * p_s p + y * p_c p - x * (p_s p + k * p_c p)) by ring.
  replace (p_c p' * (y - k * x)) with (x * p_s p' + y * p_c p' - x * (p_s p' + k * p_c p')) by ring. rewrite F3, F2'. reflexivity.
Qed.
(** The composite elements of a batch are related by the key exactly when the errors,
    weighed by the hashes, sum to zero. *)
Theorem voprf_batch_exact k a b : length a = length b -> Z.of_nat (length a) <= 2 ^ 16 ->
  let ws := weights e (bs e k) 0 (map (bs e) a) (map (bs e) b) in
  exists x y, composites e (bs e k) (map (bs e) a) (map (bs e) b) = Val (bs e x, bs e y) /\
    (eqm q y (k * x) <-> eqm q (dot ws (map (fun p => snd p - k * fst p) (combine a b))) 0).
Proof.
  intros L Hl ws. exists (dot ws a), (dot ws b). split; [apply composites_val; auto|]. rewrite dot_lin by auto. split; intros H.
  - apply eqm_sub0. exact H.
  - apply eqm_sub0. exact H.
Qed.
(** For one element: a wrong evaluation is accepted only if its weight hashes to zero or
    the challenge is the one value the commitments allow. *)
Theorem voprf_single_sound k c d p p' : on_curve e c -> on_curve e d -> d <> g_mul (grp e) c k -> ~ eqm q (weight e (bs e k) 0 c d) 0 ->
  let w := weight e (bs e k) 0 c d in
  let m := g_mul (grp e) c w in let z := g_mul (grp e) d w in
  forall t2 t3, verify_proof e (bs e k) [c] [d] p = Val true -> answers (bs e k) m z p t2 t3 ->
    p_c p = dleq_hash e (bs e k) m z t2 t3 /\ (answers (bs e k) m z p' t2 t3 -> eqm q (p_c p') (p_c p)).
Proof.
  intros [x ->] [y ->] N Nw w m z t2 t3 V A.
  pose proof (proj1 (voprf_verify_exact k [x] [y] p eq_refl ltac:(cbn; lia)) V) as (u2 & u3 & [B2 B3] & C).
  cbn [map weights dot] in B2, B3, C. fold w in B2, B3, C.
  assert (Em : bs e (w * x + 0) = m) by (unfold m; fold (mul e (bs e x) w); rewrite (bs_mul e W); f_equal; ring).
  assert (Ez : bs e (w * y + 0) = z) by (unfold z; fold (mul e (bs e y) w); rewrite (bs_mul e W); f_equal; ring).
  rewrite Em, Ez in *. destruct A as [A2 A3]. rewrite <- A2 in B2. rewrite <- A3 in B3. subst u2 u3. split; [exact C|].
  intros A'. rewrite <- Em, <- Ez in *. apply (voprf_sound k (w * x + 0) (w * y + 0) t2 t3); auto; [|split; auto].
  intros H. apply N. fold (mul e (bs e x) k). rewrite (bs_mul e W). apply (bs_eqm e W). apply (eqm_prime_cancel q _ _ w (w_prime e W) Nw).
  replace (y * w) with (w * y + 0) by ring. rewrite H. apply eqm_eq. ring.
Qed.
(** A session: honest server and fresh client give the function value ... *)
Theorem voprf_correct sk c input priv randomness draw : fresh e c -> short priv ->
  let b := client_blind e c input in
  exists d p i, blind_evaluate_proof e sk (bs e sk) b randomness draw = Val (d, p) /\
    vfinalize e (bs e sk) c d b p priv = ({| blind := blind c; blind_inv := i |}, Val (prf e sk input priv)).
Proof.
  intros F Hp b. destruct (voprf_complete sk [b] randomness draw) as (p & G & _ & V).
  - constructor; [|constructor]. unfold b, client_blind, hash_to_group. destruct (w_h2g e W input (text "HashToGroup-" ++ o_str e)) as [h ->].
    rewrite (bs_mul e W). eexists. reflexivity.
  - cbn. lia.
  - cbn [map] in G, V. destruct (oprf_correct e W c sk input priv F Hp) as (i & E & _). exists (mul e b sk), p, i.
    unfold blind_evaluate_proof, vfinalize. fold (mul e b sk) in G, V. rewrite G. cbn [bind]. split; [reflexivity|]. rewrite V. exact E.
Qed.
(** ... and whatever the server does, an accepted evaluation that is the key times the
    blinded element gives the function value of the key that was announced. *)
Theorem voprf_binding k c input priv p : fresh e c -> short priv ->
  let b := client_blind e c input in
  verify_proof e (bs e k) [b] [g_mul (grp e) b k] p = Val true ->
  snd (vfinalize e (bs e k) c (g_mul (grp e) b k) b p priv) = Val (prf e k input priv).
Proof.
  intros F Hp b V. unfold vfinalize. rewrite V. destruct (oprf_correct e W c k input priv F Hp) as (i & E & _). unfold b.
  unfold blind_evaluate in E. fold (mul e (client_blind e c input) k). rewrite E. reflexivity.
Qed.
(** A rejected proof makes Finalize throw and leaves the client as it was. *)
Theorem voprf_reject pk c ev b p priv : verify_proof e pk [b] [ev] p = Val false -> vfinalize e pk c ev b p priv = (c, Thrown).
Proof. intros V. unfold vfinalize. rewrite V. reflexivity. Qed.
(** The announced key is not checked: with the point at infinity the output does not
    depend on the input. *)
Theorem voprf_identity_key_refuted c c' x y priv randomness draw : fresh e c -> fresh e c' -> short priv ->
  exists d p d' p' o, blind_evaluate_proof e 0 (bs e 0) (client_blind e c x) randomness draw = Val (d, p) /\
    blind_evaluate_proof e 0 (bs e 0) (client_blind e c' y) randomness draw = Val (d', p') /\
    snd (vfinalize e (bs e 0) c d (client_blind e c x) p priv) = Val o /\ snd (vfinalize e (bs e 0) c' d' (client_blind e c' y) p' priv) = Val o.
Proof.
  intros F F' Hp. destruct (voprf_correct 0 c x priv randomness draw F Hp) as (d & p & i & E1 & E2).
  destruct (voprf_correct 0 c' y priv randomness draw F' Hp) as (d' & p' & i' & E1' & E2').
  exists d, p, d', p', (prf e 0 x priv). split; [exact E1|]. split; [exact E1'|]. rewrite E2, E2'. cbn [snd]. split; [reflexivity|].
  unfold prf, hash_to_group. destruct (w_h2g e W x (text "HashToGroup-" ++ o_str e)) as [h ->]. destruct (w_h2g e W y (text "HashToGroup-" ++ o_str e)) as [h' ->].
  fold (mul e (bs e h) 0) (mul e (bs e h') 0). rewrite !(bs_mul e W), !Z.mul_0_r. reflexivity.
Qed.
End VoprfProofs.
Print Assumptions voprf_complete.
Print Assumptions voprf_long_batch.
Print Assumptions voprf_verify_exact.
Print Assumptions voprf_sound.
Print Assumptions voprf_batch_exact.
Print Assumptions voprf_single_sound.
Print Assumptions voprf_correct.
Print Assumptions voprf_binding.
Print Assumptions voprf_reject.
Print Assumptions voprf_identity_key_refuted.
(** The weights of different elements come from different hash inputs, and so do weights
    and challenges. *)
Theorem transcripts_separate e pk i c d pk' i' c' d' : lawful e -> Z.of_nat i < 2 ^ 16 -> Z.of_nat i' < 2 ^ 16 ->
  field (batch_seed e pk) ++ be2 i ++ field (o_ser e c) ++ field (o_ser e d) ++ text "Composite" =
  field (batch_seed e pk') ++ be2 i' ++ field (o_ser e c') ++ field (o_ser e d') ++ text "Composite" ->
  batch_seed e pk = batch_seed e pk' /\ i = i' /\ o_ser e c = o_ser e c' /\ o_ser e d = o_ser e d'.
Proof.
  intros W Hi Hi' E. apply field_inj in E as [E1 E]; try apply (w_hash e W).
  assert (Ei : be2 i = be2 i'). { apply (f_equal (firstn 2)) in E. rewrite !firstn_app, !be2_length in E. cbn [firstn Nat.sub] in E. rewrite !app_nil_r in E. exact E. }
  split; [exact E1|]. split; [apply be2_inj; auto|]. rewrite Ei in E. apply app_inv_head in E.
  apply field_inj in E as [E2 E]; try apply (w_ser e W). apply field_inj in E as [E3 _]; try apply (w_ser e W). auto.
Qed.
Print Assumptions transcripts_separate.

(** ** Concrete cases *)
Definition toy_session (wrong : Z) : outcome (list Z) :=
  let b := client_blind toy (new_client 17) [9; 8; 7] in
  bind (blind_evaluate_proof toy 23 (bs toy 23) b 0 5) (fun dp =>
    snd (vfinalize toy (bs toy 23) (new_client 17) (fst dp + wrong) b (snd dp) [9; 8; 7])).
Example voprf_concrete : toy_session 0 = Val (prf toy 23 [9; 8; 7] [9; 8; 7]) /\ toy_session 1 = Thrown /\
  fresh toy (new_client 17) /\ short [9; 8; 7].
Proof.
  split; [vm_compute; reflexivity|]. split; [vm_compute; reflexivity|]. split; [|unfold short; cbn; lia].
  split; [|left; reflexivity]. cbn [blind new_client]. intros H. apply eqm0_divide in H; [|cbn; lia]. apply Z.divide_pos_le in H; cbn in *; lia.
Qed.
Example oprf_refresh_concrete :
  run toy 23 (new_client 17) [Session [1] [1]; Session [2] [2]; Clear; Refresh 44; Session [2] [2]] =
    [Val (prf toy 23 [1] [1]); Val (prf toy 23 [2] [2]); Val (prf toy 23 [2] [2])] /\
  run toy 23 (new_client 17) [Session [1] [1]; Refresh 44; Session [2] [2]] <> [Val (prf toy 23 [1] [1]); Val (prf toy 23 [2] [2])] /\
  fine toy true false [Session [1] [1]; Session [2] [2]; Clear; Refresh 44; Session [2] [2]].
Proof.
  split; [vm_compute; reflexivity|]. split; [vm_compute; congruence|]. cbn [fine]. unfold short. cbn [length]. repeat split; try lia.
  intros H. apply eqm0_divide in H; [|cbn; lia]. apply Z.divide_pos_le in H; cbn in *; lia.
Qed.
