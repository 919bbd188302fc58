(** Property C46: what the KOS consistency check guarantees against an arbitrary
    receiver (yacl/kernel/algorithms/kos_ote.cc:114-205, model in OtExtModel). *)
From Coq Require Import List NArith ZArith Bool Lia Arith.
From Verif Require Import TransModel TransProof TransProps GfModel GfProof GfProps OtExtModel OtExtProof OtExtProps.
Import ListNotations.
Open Scope nat_scope.

(** ** Specification *)
(** The inner product over GF(2^64) of the samples with a row of 128-bit words. *)
Definition dot (chi : list N) (row : list N) : N :=
  sum (map (fun p => gf64_mul (fst p) (snd p)) (combine chi (flat_map (fun w => [(w mod 2 ^ 64)%N; ((w / 2 ^ 64) mod 2 ^ 64)%N]) row))).
(** Word i of the keystream of the k-th base key. *)
Definition stream (prg : N -> nat -> list N) (ks : list N) (bn k i : nat) : N := nth i (prg (nth k ks 0%N) bn) 0%N.
(** The choice words a receiver used in row k, whatever it sent: an honest one uses the
    same words in every row. *)
Definition used prg (k0 k1 : list N) (bn : nat) (msgs : list (list N)) (k : nat) : list N :=
  map (fun i => N.lxor (N.lxor (stream prg k0 bn k i) (stream prg k1 bn k i)) (nth k (nth i msgs []) 0%N)) (seq 0 bn).
(** The error in the k-th answer of the check message. *)
Definition offset prg prg64 (k0 : list N) (bn : nat) (seed : N) (c : N * list N) (k : nat) : N :=
  N.lxor (nth k (snd c) 0%N) (dot (prg64 seed (bn * 2)) (map (stream prg k0 bn k) (seq 0 bn))).

(** ** Proofs *)
Lemma as_u64_spec l : as_u64 l = flat_map (fun w => [(w mod 2 ^ 64)%N; ((w / 2 ^ 64) mod 2 ^ 64)%N]) l.
Proof. unfold as_u64. apply flat_map_ext. intros w. unfold hi64, lo64. rewrite !N.land_ones, N.shiftr_div_pow2. reflexivity. Qed.
Lemma dot_ip chi row : dot chi row = ip chi (as_u64 row).
Proof. unfold dot, ip. rewrite as_u64_spec. reflexivity. Qed.
Lemma dot_xors chi a b : Forall (word 64) chi -> length a = length b -> length chi = 2 * length a ->
  dot chi (xors a b) = N.lxor (dot chi a) (dot chi b).
Proof.
  intros W L Lc. rewrite !dot_ip, as_u64_xors. apply ip_xors; auto using as_u64_words; rewrite ?as_u64_length; lia.
Qed.
Lemma dot_zero chi (l : list nat) : Forall (word 64) chi -> length chi = 2 * length l -> dot chi (map (fun _ => 0%N) l) = 0%N.
Proof.
  intros W L. pose proof (dot_xors chi (map (fun _ => 0%N) l) (map (fun _ => 0%N) l) W eq_refl) as K.
  rewrite map_length in K. specialize (K L). rewrite N.lxor_nilpotent, xors_seq in K. exact K.
Qed.
Lemma q_row prg k0 k1 s ks bn msgs k : base_ots k0 k1 s ks -> k < 128 ->
  nth k (kos_q prg s ks bn msgs) [] =
  xors (map (stream prg k0 bn k) (seq 0 bn)) (if N.testbit s (N.of_nat k) then used prg k0 k1 bn msgs k else map (fun _ => 0%N) (seq 0 bn)).
Proof.
  intros (L0 & L1 & Ls & _ & H) Hk. unfold kos_q. rewrite nth_map_seq by auto. unfold used.
  destruct (N.testbit s (N.of_nat k)) eqn:B; rewrite xors_seq; apply map_ext; intros i; unfold stream;
    rewrite at_extend by lia; rewrite H, B by auto.
  - set (a := nth i (prg (nth k k0 0%N) bn) 0%N). rewrite !N.lxor_assoc, xor_cancel. reflexivity.
  - symmetry. apply N.lxor_0_r.
Qed.
Lemma xor_move a b c : N.lxor a b = c <-> a = N.lxor b c.
Proof. split; [intros <-; rewrite (N.lxor_comm a b), xor_cancel; reflexivity|intros ->; rewrite (N.lxor_comm b c), N.lxor_assoc, N.lxor_nilpotent; apply N.lxor_0_r]. Qed.

Lemma xor_out x t u : N.lxor (N.lxor x (N.lxor t u)) t = N.lxor u x.
Proof. apply N.bits_inj. intros i. rewrite !N.lxor_spec. destruct (N.testbit x i), (N.testbit t i), (N.testbit u i); reflexivity. Qed.
Lemma xor_cross p q x y : N.lxor p x = N.lxor q y -> N.lxor p q = N.lxor x y.
Proof.
  intros H. apply N.bits_inj. intros i. pose proof (f_equal (fun z => N.testbit z i) H) as K. cbn beta in K. rewrite !N.lxor_spec in *.
  destruct (N.testbit p i), (N.testbit q i), (N.testbit x i), (N.testbit y i); auto.
Qed.

(** The sender accepts exactly when, in every row, the error of the answer is the one
    explained by the row's choice words where the sender's secret bit is 1, and no error
    where it is 0. *)
Theorem kos_check_exact prg hash tr prg64 k0 k1 s ks n cot msgs seed c :
  is_prg64 prg64 -> base_ots k0 k1 s ks ->
  let bn := batch_num (n + 64) in
  kos_send prg hash tr prg64 s ks n cot msgs seed c <> None <->
  forall k, k < 128 ->
    offset prg prg64 k0 bn seed c k =
    if N.testbit s (N.of_nat k) then N.lxor (dot (prg64 seed (bn * 2)) (used prg k0 k1 bn msgs k)) (fst c) else 0%N.
Proof.
  intros HP64 HB bn. destruct (HP64 seed (bn * 2)) as [SL SW].
  assert (E : kos_send prg hash tr prg64 s ks n cot msgs seed c <> None <->
              kos_check prg64 s (kos_q prg s ks bn msgs) bn seed c = true).
  { unfold kos_send. change (n + kS) with (n + 64). fold bn.
    destruct (kos_check prg64 s (kos_q prg s ks bn msgs) bn seed c); split; congruence. }
  rewrite E. unfold kos_check. rewrite forallb_forall.
  set (chi := prg64 seed (bn * 2)) in *.
  assert (R : forall k, k < 128 -> inner chi (as_u64 (nth k (kos_q prg s ks bn msgs) [])) =
     Some (N.lxor (dot chi (map (stream prg k0 bn k) (seq 0 bn)))
            (if N.testbit s (N.of_nat k) then dot chi (used prg k0 k1 bn msgs k) else 0%N))).
  { intros k Hk. rewrite (q_row prg k0 k1 s ks bn msgs k HB Hk).
    set (a := map (stream prg k0 bn k) (seq 0 bn)). set (b := if N.testbit s (N.of_nat k) then used prg k0 k1 bn msgs k else map (fun _ => 0%N) (seq 0 bn)).
    assert (La : length a = bn) by (unfold a; rewrite map_length, seq_length; auto).
    assert (Lb : length b = bn) by (unfold b, used; destruct (N.testbit s (N.of_nat k)); rewrite map_length, seq_length; auto).
    rewrite inner_ip by (auto using as_u64_words; rewrite as_u64_length, xors_length; lia).
    rewrite <- dot_ip, dot_xors by (auto; lia). unfold b. destruct (N.testbit s (N.of_nat k)); auto.
    rewrite dot_zero by (auto; rewrite seq_length; lia). reflexivity. }
  split; intros H k Hk.
  - specialize (H k ltac:(apply in_seq; lia)). rewrite R in H by auto. apply N.eqb_eq in H. unfold offset. fold chi.
    destruct (N.testbit s (N.of_nat k)).
    + rewrite xor_move in H. rewrite H. apply xor_out.
    + rewrite N.lxor_0_r in H. rewrite H. apply N.lxor_nilpotent.
  - apply in_seq in Hk. specialize (H k ltac:(lia)). rewrite R by lia. apply N.eqb_eq. unfold offset in H. fold chi in H.
    rewrite xor_move in H. rewrite H. destruct (N.testbit s (N.of_nat k)); [|reflexivity].
    rewrite !N.lxor_assoc, N.lxor_nilpotent, N.lxor_0_r. reflexivity.
Qed.

(** A receiver whose row k does not match the announced x learns at most whether its
    guess of bit k of the secret was right: two secrets that both accept agree there. *)
Theorem kos_check_sound prg hash tr prg64 k0 k1 s ks s' ks' n cot msgs seed c :
  is_prg64 prg64 -> base_ots k0 k1 s ks -> base_ots k0 k1 s' ks' ->
  kos_send prg hash tr prg64 s ks n cot msgs seed c <> None ->
  kos_send prg hash tr prg64 s' ks' n cot msgs seed c <> None ->
  forall k, k < 128 ->
    dot (prg64 seed (batch_num (n + 64) * 2)) (used prg k0 k1 (batch_num (n + 64)) msgs k) <> fst c ->
    N.testbit s (N.of_nat k) = N.testbit s' (N.of_nat k).
Proof.
  intros HP HB HB' A A' k Hk D.
  rewrite (kos_check_exact prg hash tr prg64 k0 k1 s ks n cot msgs seed c HP HB) in A.
  rewrite (kos_check_exact prg hash tr prg64 k0 k1 s' ks' n cot msgs seed c HP HB') in A'.
  specialize (A k Hk). specialize (A' k Hk). rewrite A in A'.
  destruct (N.testbit s (N.of_nat k)), (N.testbit s' (N.of_nat k)); auto; exfalso; apply D.
  - apply N.lxor_eq in A'. exact A'.
  - symmetry in A'. apply N.lxor_eq in A'. exact A'.
Qed.

(** Rows with different choice words are told apart by all but one in 2^64 of the values
    of any sample that multiplies a difference. *)
Definition replaced (i : nat) (v : N) (l : list N) : list N := firstn i l ++ v :: skipn (S i) l.
Lemma ip_split chi w i : i < length chi -> length chi = length w ->
  ip chi w = N.lxor (gf64_mul (nth i chi 0%N) (nth i w 0%N)) (N.lxor (ip (firstn i chi) (firstn i w)) (ip (skipn (S i) chi) (skipn (S i) w))).
Proof.
  revert w i. induction chi as [|a chi IH]; intros [|b w] i Hi L; cbn [length] in *; try lia.
  destruct i as [|i]; cbn [nth firstn skipn].
  - rewrite ip_cons. unfold ip at 2. cbn. reflexivity.
  - rewrite !ip_cons, (IH w i) by lia. rewrite !N.lxor_assoc. apply xor_acb.
Qed.
Lemma ip_replaced chi w i v : i < length chi -> length chi = length w ->
  ip (replaced i v chi) w = N.lxor (gf64_mul v (nth i w 0%N)) (N.lxor (ip (firstn i chi) (firstn i w)) (ip (skipn (S i) chi) (skipn (S i) w))).
Proof.
  intros Hi L. assert (Lf : length (firstn i chi) = i) by (rewrite firstn_length; lia).
  assert (Lr : length (replaced i v chi) = length chi) by (unfold replaced; rewrite app_length; cbn [length]; rewrite skipn_length; lia).
  rewrite (ip_split (replaced i v chi) w i) by lia. unfold replaced. f_equal; [f_equal|f_equal; f_equal].
  - rewrite app_nth2 by lia. rewrite Lf, Nat.sub_diag. reflexivity.
  - rewrite firstn_app, Lf, Nat.sub_diag, firstn_O, app_nil_r, firstn_firstn, Nat.min_id. reflexivity.
  - rewrite skipn_app, skipn_all2 by lia. rewrite Lf. replace (S i - i) with 1 by lia. reflexivity.
Qed.
Theorem kos_check_collision chi (r r' : list N) i v v' :
  length chi = 2 * length r -> length r = length r' -> i < length chi -> word 64 v -> word 64 v' ->
  nth i (as_u64 r) 0%N <> nth i (as_u64 r') 0%N ->
  dot (replaced i v chi) r = dot (replaced i v chi) r' ->
  dot (replaced i v' chi) r = dot (replaced i v' chi) r' -> v = v'.
Proof.
  intros L Lr Hi V V' D E E'. destruct gf64_field as (FW & FC & FA & FD & F1 & FZ & FI).
  rewrite !dot_ip, !ip_replaced in E, E' by (rewrite ?as_u64_length; lia).
  set (a := nth i (as_u64 r) 0%N) in *. set (b := nth i (as_u64 r') 0%N) in *.
  set (x := N.lxor (ip (firstn i chi) (firstn i (as_u64 r))) _) in *. set (y := N.lxor (ip (firstn i chi) (firstn i (as_u64 r'))) _) in *.
  assert (Wn : forall l j, word 64 (nth j (as_u64 l) 0%N)).
  { intros l j. destruct (Nat.lt_ge_cases j (length (as_u64 l))) as [J|J]; [|rewrite nth_overflow by lia; reflexivity].
    pose proof (as_u64_words l) as F. rewrite Forall_forall in F. apply F, nth_In, J. }
  assert (Wa : word 64 a) by apply Wn. assert (Wb : word 64 b) by apply Wn.
  assert (G : forall u, word 64 u -> N.lxor (gf64_mul u a) x = N.lxor (gf64_mul u b) y -> gf64_mul u (N.lxor a b) = N.lxor x y).
  { intros u U K. rewrite FD by auto. apply xor_cross, K. }
  assert (Wab : word 64 (N.lxor a b)) by (apply xor_lt; auto).
  assert (Z : gf64_mul (N.lxor a b) (N.lxor v v') = 0%N).
  { rewrite FD by auto. rewrite (FC _ v), (FC _ v') by auto. rewrite (G v V E), (G v' V' E'). apply N.lxor_nilpotent. }
  apply FZ in Z; [|auto|apply xor_lt; auto]. destruct Z as [Z|Z]; [exfalso; apply D|]; apply N.lxor_eq in Z; exact Z.
Qed.
Print Assumptions kos_check_exact.
Print Assumptions kos_check_sound.
Print Assumptions kos_check_collision.

(** An answer of zeroes is refused (row 0, where the secret bit is 0). *)
Example kos_reject_concrete : ~ kos_send toy_prg (fun x => x) eklundh_transpose128 toy_prg toy_s toy_ks 0 true [] 7%N (0%N, []) <> None.
Proof.
  destruct ext_hypotheses as (_ & B & C).
  rewrite (kos_check_exact _ _ _ _ _ _ _ _ _ _ _ _ _ B C). intros H. specialize (H 0 (Nat.lt_0_succ 127)). vm_compute in H. discriminate H.
Qed.
