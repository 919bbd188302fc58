(** Properties C25 and C26: the IKNP and KOS OT extensions. *)
From Coq Require Import List NArith ZArith Bool Lia Arith.
From Verif Require Import TransModel TransProof TransProps GfModel GfProof GfProps OtExtModel OtExtProof.
Import ListNotations.
Open Scope nat_scope.

(** ** Specification *)
Definition block (x : N) : Prop := (x < 2 ^ 128)%N.
(** A pseudo-random generator fills the requested number of blocks. *)
Definition is_prg (prg : N -> nat -> list N) : Prop := forall seed n, length (prg seed n) = n /\ Forall block (prg seed n).
Definition is_prg64 (prg : N -> nat -> list N) : Prop := forall seed n, length (prg seed n) = n /\ Forall (word 64) (prg seed n).
(** 128 base OTs: the extension sender holds, for each k, the key selected by bit k of [s]. *)
Definition base_ots (k0 k1 : list N) (s : N) (ks : list N) : Prop :=
  length k0 = 128 /\ length k1 = 128 /\ length ks = 128 /\ block s /\
  forall k, k < 128 -> nth k ks 0%N = if N.testbit s (N.of_nat k) then nth k k1 0%N else nth k k0 0%N.
(** The transposes MatrixTranspose128 selects from (matrix_utils.cc). *)
Definition platform_transpose (tr : list Z -> list Z) : Prop :=
  tr = eklundh_transpose128 \/ tr = sse_transpose128 \/ tr = avx_transpose128.
(** The receiver obtains exactly the chosen block of every pair. *)
Definition chosen (choices : list bool) (sent : list (N * N)) (got : list N) : Prop :=
  length sent = length choices /\ length got = length choices /\
  forall i, i < length choices ->
    nth i got 0%N = if nth i choices false then snd (nth i sent (0, 0)%N) else fst (nth i sent (0, 0)%N).
Definition correlated (delta : N) (sent : list (N * N)) : Prop :=
  forall i, i < length sent -> N.lxor (fst (nth i sent (0, 0)%N)) (snd (nth i sent (0, 0)%N)) = delta.

(** ** Helpers *)
Lemma platform_ok tr : platform_transpose tr -> is_transpose128 tr.
Proof. intros H m Hm. destruct (transpose128_correct m Hm) as (_ & E & S & A). destruct H as [->|[->| ->]]; auto. Qed.
Lemma combine_nth_eq {A B} (l : list A) (l' : list B) a b i : i < length l -> i < length l' ->
  nth i (combine l l') (a, b) = (nth i l a, nth i l' b).
Proof. revert l' i. induction l as [|x l IH]; intros [|y l'] [|i] H1 H2; cbn in *; try lia; auto. apply IH; lia. Qed.
Lemma nth_map_in {A B} (f : A -> B) l i a b : i < length l -> nth i (map f l) b = f (nth i l a).
Proof. intros H. rewrite (nth_indep _ b (f a)) by (rewrite map_length; auto). apply map_nth. Qed.

Section Iknp.
Variables (prg : N -> nat -> list N) (hash : N -> N) (tr : list Z -> list Z) (k0 k1 : list N) (s : N) (ks : list N).
Hypothesis HP : is_prg prg.
Hypothesis HT : platform_transpose tr.
Hypothesis HB : base_ots k0 k1 s ks.
Definition fin (cot : bool) (b : N) : N := if cot then b else hash b.
Lemma fin_map (cot : bool) l : (if cot then l else map hash l) = map (fin cot) l.
Proof. destruct cot; auto. unfold fin. symmetry. apply map_id. Qed.
(** t_j: row j of the receiver. *)
Definition t_row (bn i j : nat) : N := nth j (transpose tr (OtExtModel.column (extend prg k0 bn) i)) 0%N.
Lemma t_len bn i : length (transpose tr (OtExtModel.column (extend prg k0 bn) i)) = 128.
Proof. destruct HB as (L0 & _). destruct (column_ok prg HP bn i k0 L0) as [C1 C2]. apply (transpose_spec tr _ (platform_ok tr HT) C2 C1). Qed.

Lemma iknp_out choices cot : let n := length choices in let '(sent, got) := run_iknp prg hash tr k0 k1 s ks choices cot in
  length sent = n /\ length got = n /\ forall j, j < n ->
    exists t, nth j got 0%N = fin cot t /\
      nth j sent (0, 0)%N = (let q := N.lxor t (if nth j choices false then s else 0%N) in (fin cot q, fin cot (N.lxor q s))).
Proof.
  cbn zeta. unfold run_iknp, iknp_recv. set (n := length choices). set (bn := batch_num n).
  set (msgs := map _ (seq 0 bn)).
  set (fr := fun i => map (fin cot) (transpose tr (OtExtModel.column (extend prg k0 bn) i))).
  set (q := fun i => transpose tr (iknp_q s (extend prg ks bn) (nth i msgs []) i)).
  set (fs := fun i => combine (map (fin cot) (q i)) (map (fin cot) (map (fun b => N.lxor b s) (q i)))).
  assert (Er : flat_map (fun i => firstn (Nat.min 128 (n - i * 128)) (if cot then transpose tr (OtExtModel.column (extend prg k0 bn) i) else map hash (transpose tr (OtExtModel.column (extend prg k0 bn) i)))) (seq 0 bn) = chopped n fr bn).
  { apply flat_map_ext. intros i. rewrite fin_map. reflexivity. }
  assert (Es : iknp_send prg hash tr s ks n cot msgs = chopped n fs bn).
  { unfold iknp_send. apply flat_map_ext. intros i. rewrite !fin_map. reflexivity. }
  assert (HQ : forall i, i * 128 < n -> length (q i) = 128 /\ forall j, j < 128 -> nth j (q i) 0%N = N.lxor (t_row bn i j) (if nth (128 * i + j) choices false then s else 0%N)).
  { intros i Hi. unfold q.
    destruct (transposed_relation prg k0 k1 s ks HP HB tr bn i (choice_word choices i) (iknp_q s (extend prg ks bn) (nth i msgs []) i)
      (platform_ok tr HT) (choice_word_lt _ _)) as [A B].
    - unfold iknp_q. rewrite map_length, seq_length. reflexivity.
    - intros k Hk. unfold iknp_q. rewrite nth_map_seq by auto. unfold msgs. rewrite nth_map_seq by (apply batch_num_range; auto).
      apply (row_relation prg k0 k1 s ks HB); auto.
    - split; auto. intros j Hj. rewrite B by auto. rewrite choice_word_bit by auto. reflexivity. }
  rewrite Er, Es.
  destruct (chopped_all n fr 0%N) as [R1 R2]; [intros i Hi; unfold fr; rewrite map_length; apply t_len|].
  destruct (chopped_all n fs (0, 0)%N) as [S1 S2]; [intros i Hi; unfold fs; rewrite combine_length, !map_length, (proj1 (HQ i Hi)); reflexivity|].
  split; [exact S1|]. split; [exact R1|]. intros j Hj. destruct (batch_of n j Hj) as (B1 & B2 & B3 & B4).
  exists (t_row bn (j / 128) (j mod 128)). destruct (HQ _ B2) as [LQ HQj]. split.
  - fold bn in R2. rewrite R2 by auto. unfold fr. rewrite (nth_map_in _ _ _ 0%N) by (rewrite t_len; auto). reflexivity.
  - fold bn in S2. rewrite S2 by auto. unfold fs. rewrite combine_nth_eq by (rewrite !map_length, LQ; auto).
    rewrite !(nth_map_in _ _ _ 0%N) by (rewrite ?map_length, LQ; auto). rewrite HQj by auto. rewrite <- B4. reflexivity.
Qed.
End Iknp.

(** ** C25 *)
Theorem iknp_correct prg hash tr k0 k1 s ks choices cot :
  is_prg prg -> platform_transpose tr -> base_ots k0 k1 s ks ->
  let '(sent, got) := run_iknp prg hash tr k0 k1 s ks choices cot in
  chosen choices sent got /\ (cot = true -> correlated s sent).
Proof.
  intros HP HT HB. pose proof (iknp_out prg hash tr k0 k1 s ks HP HT HB choices cot) as K. cbn zeta in K.
  destruct (run_iknp prg hash tr k0 k1 s ks choices cot) as [sent got]. destruct K as (L1 & L2 & H). split.
  - split; auto. split; auto. intros i Hi. destruct (H i Hi) as (t & Hg & Hs). rewrite Hg, Hs. cbn zeta. cbn [fst snd].
    destruct (nth i choices false); [|rewrite N.lxor_0_r; reflexivity]. f_equal. rewrite N.lxor_assoc, N.lxor_nilpotent, N.lxor_0_r. reflexivity.
  - intros -> i Hi. destruct (H i ltac:(lia)) as (t & Hg & Hs). rewrite Hs. cbn zeta. cbn [fst snd fin]. apply xor_cancel.
Qed.
(** Outside correlated mode, both parties hold the hashes of what correlated mode yields. *)
Theorem iknp_random_mode prg hash tr k0 k1 s ks choices :
  let '(sent, got) := run_iknp prg hash tr k0 k1 s ks choices true in
  run_iknp prg hash tr k0 k1 s ks choices false = (map (fun p => (hash (fst p), hash (snd p))) sent, map hash got).
Proof.
  unfold run_iknp, iknp_recv, iknp_send. cbn zeta.
  assert (FM : forall {A B} (f : nat -> list A) (h : A -> B) l, map h (flat_map f l) = flat_map (fun i => map h (f i)) l).
  { intros A B f h l. induction l as [|x l IH]; cbn [flat_map map]; auto. rewrite map_app, IH. reflexivity. }
  rewrite !FM. f_equal.
  - apply flat_map_ext. intros i. rewrite <- firstn_map. f_equal.
    assert (C : forall (a b : list N), map (fun p => (hash (fst p), hash (snd p))) (combine a b) = combine (map hash a) (map hash b)).
    { induction a as [|x a IH]; intros [|y b]; cbn; auto. f_equal. auto. }
    rewrite C. reflexivity.
  - apply flat_map_ext. intros i. apply firstn_map.
Qed.
Print Assumptions iknp_correct.

(** ** C26 *)
Definition ip (a b : list N) : N := sum (map (fun p => gf64_mul (fst p) (snd p)) (combine a b)).
Definition xors (a b : list N) : list N := map (fun p => N.lxor (fst p) (snd p)) (combine a b).
Lemma xors_length a b : length a = length b -> length (xors a b) = length a.
Proof. intros H. unfold xors. rewrite map_length, combine_length. lia. Qed.
Lemma inner_ip a b : Forall (word 64) a -> Forall (word 64) b -> length a = length b -> inner a b = Some (ip a b).
Proof. intros Ha Hb Hl. unfold inner. rewrite gf64_span_correct, Hl, Nat.eqb_refl by auto. reflexivity. Qed.
Lemma ip_cons z c x a : ip (z :: c) (x :: a) = N.lxor (gf64_mul z x) (ip c a).
Proof. reflexivity. Qed.
Lemma xors_cons x a y b : xors (x :: a) (y :: b) = N.lxor x y :: xors a b.
Proof. reflexivity. Qed.
Lemma ip_xors c : Forall (word 64) c -> forall a b, length a = length b -> length c = length a -> Forall (word 64) a -> Forall (word 64) b ->
  ip c (xors a b) = N.lxor (ip c a) (ip c b).
Proof.
  destruct gf64_field as (_ & _ & _ & FD & _).
  intros Hc. induction Hc as [|z c Hz Hc IH]; intros [|x a] [|y b] L1 L2 Ha Hb; try discriminate; [reflexivity|].
  inversion_clear Ha. inversion_clear Hb. rewrite xors_cons, !ip_cons. rewrite IH by (cbn in *; auto; lia). rewrite FD by auto.
  apply xor_4.
Qed.
Lemma as_u64_length l : length (as_u64 l) = 2 * length l.
Proof. induction l as [|w l IH]; cbn; auto. fold (as_u64 l). rewrite IH. lia. Qed.
Lemma as_u64_words l : Forall (word 64) (as_u64 l).
Proof. induction l as [|w l IH]; cbn [as_u64 flat_map app]; constructor; [apply lo64_lt|constructor; [apply hi64_lt|apply IH]]. Qed.
Lemma as_u64_xors a : forall b, as_u64 (xors a b) = xors (as_u64 a) (as_u64 b).
Proof.
  induction a as [|x a IH]; intros [|y b]; cbn; auto. fold (as_u64 a) (as_u64 b) (xors a b) (as_u64 (xors a b)). rewrite IH.
  unfold lo64, hi64, lo64. rewrite N.shiftr_lxor, !land_xor. reflexivity.
Qed.
Lemma all_some_map {A B} (f : A -> option B) (g : A -> B) l : (forall x, In x l -> f x = Some (g x)) -> all_some (map f l) = Some (map g l).
Proof. induction l as [|x l IH]; intros H; cbn [map all_some]; auto. rewrite H by (left; auto). rewrite IH; auto. intros; apply H; right; auto. Qed.
Lemma xors_seq (f g : nat -> N) l : xors (map f l) (map g l) = map (fun i => N.lxor (f i) (g i)) l.
Proof. unfold xors. induction l as [|x l IH]; cbn; auto. f_equal. auto. Qed.
Lemma map_nth_seq (l : list N) : map (fun i => nth i l 0%N) (seq 0 (length l)) = l.
Proof.
  induction l as [|x l IH]; cbn [length seq map nth]; auto. f_equal. rewrite <- seq_shift, map_map. exact IH.
Qed.

Section Kos.
Variables (prg : N -> nat -> list N) (hash : N -> N) (tr : list Z -> list Z) (prg64 : N -> nat -> list N) (k0 k1 : list N) (s : N) (ks : list N).
Hypothesis HP : is_prg prg.
Hypothesis HP64 : is_prg64 prg64.
Hypothesis HT : platform_transpose tr.
Hypothesis HB : base_ots k0 k1 s ks.
Variables (choices rnd : list bool).
Let cw := choice_word (kos_choice choices rnd).
Let bn := batch_num (length choices + kS).
Let msgs := kos_recv_batches prg k0 k1 choices rnd.
(** Row k of the sender's matrix is the receiver's, plus the choice words if s_k = 1. *)
Lemma kos_row k : k < 128 -> nth k (kos_q prg s ks bn msgs) [] =
  xors (nth k (extend prg k0 bn) []) (map (fun i => if N.testbit s (N.of_nat k) then cw i else 0%N) (seq 0 bn)).
Proof.
  intros Hk. unfold kos_q. rewrite nth_map_seq by auto.
  assert (Ln : length (nth k (extend prg k0 bn) []) = bn).
  { destruct HB as (L0 & _). unfold extend. rewrite (nth_map_in _ _ _ 0%N) by lia. apply HP. }
  rewrite <- (map_nth_seq (nth k (extend prg k0 bn) [])) at 1. rewrite Ln, xors_seq. apply map_ext_in. intros i Hi. apply in_seq in Hi.
  fold (at_ (extend prg k0 bn) k i). rewrite <- (row_relation prg k0 k1 s ks HB bn i (cw i) k Hk).
  unfold msgs, kos_recv_batches. fold bn. rewrite nth_map_seq by lia. fold cw. rewrite N.lxor_comm. reflexivity.
Qed.
Lemma row_len k : k < 128 -> length (nth k (extend prg k0 bn) []) = bn.
Proof. intros Hk. destruct HB as (L0 & _). unfold extend. rewrite (nth_map_in _ _ _ 0%N) by lia. apply HP. Qed.
Lemma kos_check_passes seed : exists c, kos_recv_check prg prg64 k0 choices rnd seed = Some c /\
  kos_check prg64 s (kos_q prg s ks bn msgs) bn seed c = true.
Proof.
  destruct (HP64 seed (bn * 2)) as [SL SW]. set (samples := prg64 seed (bn * 2)) in *.
  set (x := ip samples (as_u64 (map cw (seq 0 bn)))). set (t := fun k => ip samples (as_u64 (nth k (extend prg k0 bn) []))).
  exists (x, map t (seq 0 128)). split.
  - unfold kos_recv_check. fold bn. fold cw. fold samples.
    rewrite inner_ip by (auto using as_u64_words; rewrite as_u64_length, map_length, seq_length; lia). fold x.
    rewrite (all_some_map _ t); [reflexivity|]. intros k Hk. apply in_seq in Hk. apply inner_ip; auto using as_u64_words.
    rewrite as_u64_length, row_len; lia.
  - unfold kos_check. fold samples. apply forallb_forall. intros k Hk. apply in_seq in Hk. cbn [fst snd].
    assert (LX : length (xors (nth k (extend prg k0 bn) []) (map (fun i => if N.testbit s (N.of_nat k) then cw i else 0%N) (seq 0 bn))) = bn).
    { rewrite xors_length; rewrite ?map_length, ?seq_length, row_len by lia; auto. }
    rewrite inner_ip by (auto using as_u64_words; rewrite as_u64_length, kos_row, LX by lia; lia).
    apply N.eqb_eq. rewrite kos_row by lia. rewrite as_u64_xors. rewrite nth_map_seq by lia.
    rewrite ip_xors; auto using as_u64_words; rewrite ?as_u64_length, ?map_length, ?seq_length, ?row_len by lia; try lia.
    fold (t k). destruct (N.testbit s (N.of_nat k)); [reflexivity|].
    replace (ip samples (as_u64 (map (fun _ : nat => 0%N) (seq 0 bn)))) with 0%N; [symmetry; apply N.lxor_0_r|].
    assert (Z : forall l, ip samples (as_u64 (map (fun _ : nat => 0%N) l)) = 0%N \/ length l <> bn).
    { intros l. destruct (Nat.eq_dec (length l) bn) as [El|]; auto. left.
      pose proof (ip_xors samples SW (as_u64 (map (fun _ : nat => 0%N) l)) (as_u64 (map (fun _ : nat => 0%N) l)) eq_refl) as K.
      rewrite as_u64_length, map_length in K. specialize (K ltac:(lia) (as_u64_words _) (as_u64_words _)).
      rewrite N.lxor_nilpotent in K. rewrite <- as_u64_xors, xors_seq in K. exact K. }
    destruct (Z (seq 0 bn)) as [->|E]; auto. rewrite seq_length in E. lia.
Qed.
Lemma kos_choice_nth i : i < length choices -> nth i (kos_choice choices rnd) false = nth i choices false.
Proof. intros H. unfold kos_choice. apply app_nth1. auto. Qed.
Lemma kos_out seed cot : exists sent, run_kos prg hash tr prg64 k0 k1 s ks choices rnd seed cot = (Some sent, kos_recv_out prg hash tr k0 choices cot) /\
  length sent = length choices /\ length (kos_recv_out prg hash tr k0 choices cot) = length choices /\
  forall j, j < length choices -> exists t, nth j (kos_recv_out prg hash tr k0 choices cot) 0%N = fin hash cot t /\
      nth j sent (0, 0)%N = (let q := N.lxor t (if nth j choices false then s else 0%N) in (fin hash cot q, fin hash cot (N.lxor q s))).
Proof.
  destruct (kos_check_passes seed) as (c & Ec & Hc). unfold run_kos. rewrite Ec. unfold kos_send. fold bn. fold msgs. rewrite Hc.
  set (ext := length choices + kS). set (Q := kos_q prg s ks bn msgs).
  set (fr := fun i => transpose tr (OtExtModel.column (extend prg k0 bn) i)). set (fs := fun i => transpose tr (OtExtModel.column Q i)).
  assert (HQ : forall i, i * 128 < ext -> length (fs i) = 128 /\ forall j, j < 128 -> nth j (fs i) 0%N = N.lxor (t_row prg tr k0 bn i j) (if N.testbit (cw i) (N.of_nat j) then s else 0%N)).
  { intros i Hi. unfold fs. apply (transposed_relation prg k0 k1 s ks HP HB tr bn i (cw i) (OtExtModel.column Q i) (platform_ok tr HT) (choice_word_lt _ _)).
    - unfold OtExtModel.column. rewrite map_length, seq_length. reflexivity.
    - intros k Hk. unfold OtExtModel.column. rewrite nth_map_seq by auto. unfold at_ at 1. unfold Q. rewrite kos_row by auto.
      rewrite <- (map_nth_seq (nth k (extend prg k0 bn) [])) at 1. rewrite row_len, xors_seq by auto.
      rewrite nth_map_seq by (apply batch_num_range; auto). reflexivity. }
  destruct (chopped_all ext fr 0%N) as [R1 R2]; [intros i Hi; apply (t_len prg tr k0 k1 s ks HP HT HB)|].
  destruct (chopped_all ext fs 0%N) as [S1 S2]; [intros i Hi; apply HQ; auto|].
  change (batch_num ext) with bn in R1, R2, S1, S2.
  change (flat_map (fun i => firstn (Nat.min 128 (ext - i * 128)) (transpose tr (OtExtModel.column Q i))) (seq 0 bn)) with (chopped ext fs bn).
  assert (Eout : kos_recv_out prg hash tr k0 choices cot = map (fin hash cot) (firstn (length choices) (chopped ext fr bn))).
  { unfold kos_recv_out. rewrite fin_map. reflexivity. }
  set (b0 := firstn (length choices) (chopped ext fs bn)).
  assert (L0 : length b0 = length choices) by (unfold b0; rewrite firstn_length, S1; unfold ext; lia).
  assert (Lr : length (firstn (length choices) (chopped ext fr bn)) = length choices) by (rewrite firstn_length, R1; unfold ext; lia).
  exists (combine (map (fin hash cot) b0) (map (fin hash cot) (map (fun b => N.lxor b s) b0))).
  split; [f_equal; f_equal; destruct cot; cbn [fin]; auto; rewrite !map_id; reflexivity|].
  split; [rewrite combine_length, !map_length, L0; lia|]. rewrite Eout. split; [rewrite map_length; exact Lr|].
  intros j Hj. assert (Hje : j < ext) by (unfold ext; lia). destruct (batch_of ext j Hje) as (B1 & B2 & B3 & B4).
  exists (t_row prg tr k0 bn (j / 128) (j mod 128)). split.
  - rewrite (nth_map_in _ _ _ 0%N) by lia. rewrite nth_firstn, R2 by auto. reflexivity.
  - rewrite combine_nth_eq by (rewrite !map_length; lia). rewrite !(nth_map_in _ _ _ 0%N) by (rewrite ?map_length; lia).
    unfold b0. rewrite nth_firstn, S2 by auto. destruct (HQ _ B2) as [_ HQj]. rewrite HQj by auto.
    unfold cw. rewrite choice_word_bit, <- B4, kos_choice_nth by auto. reflexivity.
Qed.
End Kos.
Theorem kos_correct prg hash tr prg64 k0 k1 s ks choices rnd seed cot :
  is_prg prg -> is_prg64 prg64 -> platform_transpose tr -> base_ots k0 k1 s ks ->
  exists sent got, run_kos prg hash tr prg64 k0 k1 s ks choices rnd seed cot = (Some sent, got) /\
    chosen choices sent got /\ (cot = true -> correlated s sent).
Proof.
  intros HP HP64 HT HB. destruct (kos_out prg hash tr prg64 k0 k1 s ks HP HP64 HT HB choices rnd seed cot) as (sent & E & L1 & L2 & H).
  eexists sent, _. split; [exact E|]. split.
  - split; auto. split; auto. intros i Hi. destruct (H i Hi) as (t & Hg & Hs). rewrite Hg, Hs. cbn zeta. cbn [fst snd].
    destruct (nth i choices false); [|rewrite N.lxor_0_r; reflexivity]. f_equal. rewrite N.lxor_assoc, N.lxor_nilpotent, N.lxor_0_r. reflexivity.
  - intros -> i Hi. destruct (H i ltac:(lia)) as (t & Hg & Hs). rewrite Hs. cbn zeta. cbn [fst snd fin]. apply xor_cancel.
Qed.
Print Assumptions kos_correct.

(** The hypotheses are satisfiable: a toy generator, 128 base OTs and 3 choices. *)
Definition toy_prg (b : N) (n : nat) : list N := map (fun i => ((b * 77 + N.of_nat i * 5 + 3) mod 2 ^ 64)%N) (seq 0 n).
Definition toy_s : N := 0x5A5A5A5A5A5A5A5A5A5A5A5A5A5A5A5A%N.
Definition toy_k (off : N) : list N := map (fun i => (off + N.of_nat i)%N) (seq 0 128).
Definition toy_ks : list N := map (fun k => if N.testbit toy_s (N.of_nat k) then (1000 + N.of_nat k)%N else (5 + N.of_nat k)%N) (seq 0 128).
Example ext_hypotheses : is_prg toy_prg /\ is_prg64 toy_prg /\ base_ots (toy_k 5) (toy_k 1000) toy_s toy_ks.
Proof.
  assert (P : is_prg64 toy_prg).
  { intros b n. unfold toy_prg. rewrite map_length, seq_length. split; auto. apply Forall_forall. intros w Hw. apply in_map_iff in Hw as (i & <- & _).
    apply N.mod_lt. discriminate. }
  split; [|split; [exact P|]].
  - intros b n. destruct (P b n) as [A B]. split; auto. eapply Forall_impl; [|exact B]. intros w Hw. unfold block, word in *. eapply N.lt_trans; [exact Hw|reflexivity].
  - unfold base_ots, toy_k, toy_ks. rewrite !map_length, !seq_length. repeat (split; auto). intros k Hk. rewrite !nth_map_seq by auto. reflexivity.
Qed.
Example iknp_concrete : let '(sent, got) := run_iknp toy_prg (fun x => x) eklundh_transpose128 (toy_k 5) (toy_k 1000) toy_s toy_ks [true; false; true] true in
  chosen [true; false; true] sent got /\ correlated toy_s sent.
Proof.
  destruct ext_hypotheses as (A & _ & C). pose proof (iknp_correct toy_prg (fun x => x) eklundh_transpose128 _ _ _ _ [true; false; true] true A (or_introl eq_refl) C) as K.
  destruct (run_iknp toy_prg (fun x => x) eklundh_transpose128 (toy_k 5) (toy_k 1000) toy_s toy_ks [true; false; true] true). destruct K as [K1 K2]. auto.
Qed.
