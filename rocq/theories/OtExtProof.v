From Coq Require Import List NArith ZArith Bool Lia Arith.
From Verif Require Import TransModel TransProof TransProps GfModel GfProof GfProps OtExtModel.
Import ListNotations.
Open Scope nat_scope.

Notation w128 x := (x < 2 ^ 128)%N (only parsing).

(** * Transposition of blocks *)
Definition is_transpose128 (tr : list Z -> list Z) : Prop := forall m, is_matrix m -> is_transpose_of (tr m) m.
Lemma to_of m : Forall (fun w => w128 w) m -> length m = 128 -> is_matrix (map Z.of_N m).
Proof.
  intros H Hl. split; [rewrite map_length; auto|]. apply Forall_forall. intros z Hz. apply in_map_iff in Hz as (w & <- & Hw).
  rewrite Forall_forall in H. specialize (H w Hw). split; [lia|]. change (2 ^ 128)%Z with (Z.of_N (2 ^ 128)). apply N2Z.inj_lt. exact H.
Qed.
Lemma transpose_spec tr m : is_transpose128 tr -> Forall (fun w => w128 w) m -> length m = 128 ->
  length (transpose tr m) = 128 /\ Forall (fun w => w128 w) (transpose tr m) /\
  forall r c, r < 128 -> c < 128 -> N.testbit (nth r (transpose tr m) 0%N) (N.of_nat c) = N.testbit (nth c m 0%N) (N.of_nat r).
Proof.
  intros HT Hm Hl. destruct (HT _ (to_of m Hm Hl)) as [[L W] B]. unfold transpose. split; [rewrite map_length; auto|]. split.
  - apply Forall_forall. intros w Hw. apply in_map_iff in Hw as (z & <- & Hz). rewrite Forall_forall in W. specialize (W z Hz).
    change (2 ^ 128)%N with (Z.to_N (2 ^ 128)). apply Z2N.inj_lt; lia.
  - intros r c Hr Hc. specialize (B r c Hr Hc). unfold bit in B.
    change 0%N with (Z.to_N 0) at 1. rewrite map_nth. rewrite Forall_forall in W.
    assert (Hz : (0 <= nth r (tr (map Z.of_N m)) 0 < 2 ^ 128)%Z) by (apply W; apply nth_In; lia).
    rewrite <- (Z2N.id (nth r (tr (map Z.of_N m)) 0%Z)) in B by lia. rewrite <- nat_N_Z, Z.testbit_of_N in B. rewrite B.
    change 0%Z with (Z.of_N 0). rewrite map_nth, <- nat_N_Z, Z.testbit_of_N. reflexivity.
Qed.
Lemma word_ext128 a b : w128 a -> w128 b -> (forall c, c < 128 -> N.testbit a (N.of_nat c) = N.testbit b (N.of_nat c)) -> a = b.
Proof.
  intros Ha Hb H. apply N.bits_inj. intros i. destruct (N.lt_ge_cases i 128).
  - rewrite <- (N2Nat.id i). apply H. lia.
  - rewrite <- (N.mod_small a _ Ha), <- (N.mod_small b _ Hb), !N.mod_pow2_bits_high by auto. reflexivity.
Qed.

(** * Choice words *)
Lemma bits_word_bit l : forall i, N.testbit (bits_word l) (N.of_nat i) = nth i l false.
Proof.
  induction l as [|b l IH]; intros i; cbn [bits_word fold_right].
  - rewrite N.bits_0. destruct i; reflexivity.
  - fold (bits_word l). rewrite N.add_comm. destruct i as [|i].
    + cbn [N.of_nat nth]. destruct b; [apply N.testbit_odd_0|rewrite N.add_0_r; apply N.testbit_even_0].
    + cbn [nth]. rewrite Nat2N.inj_succ. destruct b; [rewrite N.testbit_odd_succ by lia; apply IH|].
      rewrite N.add_0_r, N.testbit_even_succ by lia. apply IH.
Qed.
Lemma bits_word_lt l : (bits_word l < 2 ^ N.of_nat (length l))%N.
Proof.
  induction l as [|b l IH]; cbn [bits_word fold_right length]; [reflexivity|]. fold (bits_word l). rewrite Nat2N.inj_succ, N.pow_succ_r by lia.
  destruct b; lia.
Qed.
Lemma nth_firstn {A} (l : list A) d : forall n i, i < n -> nth i (firstn n l) d = nth i l d.
Proof. induction l as [|a l IH]; intros [|n] [|i] H; cbn; auto; try lia. apply IH. lia. Qed.
Lemma nth_skipn {A} (l : list A) d : forall n i, nth i (skipn n l) d = nth (n + i) l d.
Proof. induction l as [|a l IH]; intros [|n] i; cbn [skipn Nat.add nth]; auto; destruct i; auto. Qed.
Lemma choice_word_bit choices i j : j < 128 -> N.testbit (choice_word choices i) (N.of_nat j) = nth (128 * i + j) choices false.
Proof. intros H. unfold choice_word. rewrite bits_word_bit, nth_firstn, nth_skipn by auto. reflexivity. Qed.
Lemma choice_word_lt choices i : w128 (choice_word choices i).
Proof.
  eapply N.lt_le_trans; [apply bits_word_lt|]. apply N.pow_le_mono_r; [lia|]. pose proof (firstn_le_length 128 (skipn (128 * i) choices)). lia.
Qed.

(** * Batches *)
Lemma batch_num_range n i : i < batch_num n <-> i * 128 < n.
Proof.
  unfold batch_num. split; intros H.
  - pose proof (Nat.div_mod (n + 127) 128 ltac:(lia)). pose proof (Nat.mod_upper_bound (n + 127) 128 ltac:(lia)). lia.
  - apply (Nat.div_le_lower_bound (n + 127) 128 (S i)); lia.
Qed.
Section Batches.
  Context {A : Type} (n : nat) (f : nat -> list A) (d : A).
  Hypothesis Hlen : forall i, i * 128 < n -> length (f i) = 128.
  Definition chopped (b : nat) := flat_map (fun i => firstn (Nat.min 128 (n - i * 128)) (f i)) (seq 0 b).
  Lemma chopped_spec b : b <= batch_num n -> length (chopped b) = Nat.min n (128 * b) /\
    forall j, j < Nat.min n (128 * b) -> nth j (chopped b) d = nth (j mod 128) (f (j / 128)) d.
  Proof.
    unfold chopped. induction b as [|b IH]; intros Hb.
    - cbn. rewrite Nat.min_0_r. split; [reflexivity|lia].
    - destruct IH as [L B]; [lia|]. rewrite seq_S, flat_map_app. cbn [flat_map Nat.add]. rewrite app_nil_r.
      assert (Hn : b * 128 < n) by (apply batch_num_range; lia).
      assert (Lf : length (firstn (Nat.min 128 (n - b * 128)) (f b)) = Nat.min 128 (n - b * 128)) by (rewrite firstn_length, Hlen by auto; lia).
      split; [rewrite app_length, L, Lf; lia|]. intros j Hj. destruct (Nat.lt_ge_cases j (128 * b)) as [Hlt|Hge].
      + rewrite app_nth1 by lia. apply B. lia.
      + rewrite app_nth2 by lia. rewrite L. replace (Nat.min n (128 * b)) with (128 * b) by lia.
        assert (Ej : j = (j - 128 * b) + b * 128) by lia.
        rewrite nth_firstn by lia. rewrite Ej at 2 3. rewrite Nat.div_add, Nat.mod_add by lia. rewrite Nat.div_small, Nat.mod_small by lia. reflexivity.
  Qed.
  Lemma chopped_all : length (chopped (batch_num n)) = n /\ forall j, j < n -> nth j (chopped (batch_num n)) d = nth (j mod 128) (f (j / 128)) d.
  Proof.
    destruct (chopped_spec (batch_num n) (le_n _)) as [L B].
    assert (H : Nat.min n (128 * batch_num n) = n).
    { unfold batch_num. pose proof (Nat.div_mod (n + 127) 128 ltac:(lia)). pose proof (Nat.mod_upper_bound (n + 127) 128 ltac:(lia)). lia. }
    rewrite H in L, B. auto.
  Qed.
End Batches.
Lemma batch_of n j : j < n -> j / 128 < batch_num n /\ j / 128 * 128 < n /\ j mod 128 < 128 /\ j = 128 * (j / 128) + j mod 128.
Proof.
  intros H. pose proof (Nat.div_mod j 128 ltac:(lia)). pose proof (Nat.mod_upper_bound j 128 ltac:(lia)).
  assert (j / 128 * 128 < n) by lia. split; [apply batch_num_range; auto|]. auto.
Qed.

(** * The correlation *)
Definition base_ok (k0 k1 : list N) (s : N) (ks : list N) : Prop :=
  length k0 = 128 /\ length k1 = 128 /\ length ks = 128 /\ w128 s /\
  forall k, k < 128 -> nth k ks 0%N = if N.testbit s (N.of_nat k) then nth k k1 0%N else nth k k0 0%N.
Definition prg_ok (prg : N -> nat -> list N) : Prop := forall seed n, length (prg seed n) = n /\ Forall (fun w => w128 w) (prg seed n).
Lemma nth_map_seq {B} (f : nat -> B) n k d : k < n -> nth k (map f (seq 0 n)) d = f k.
Proof. intros H. rewrite (nth_indep _ d (f 0)) by (rewrite map_length, seq_length; auto). rewrite map_nth, seq_nth by auto. auto. Qed.

Section Core.
Variables (prg : N -> nat -> list N) (k0 k1 : list N) (s : N) (ks : list N).
Hypothesis HP : prg_ok prg.
Hypothesis HB : base_ok k0 k1 s ks.
Lemma at_extend l bn k i : k < length l -> at_ (extend prg l bn) k i = nth i (prg (nth k l 0%N) bn) 0%N.
Proof.
  intros H. unfold at_, extend. rewrite (nth_indep _ [] (prg 0%N bn)) by (rewrite map_length; auto). rewrite map_nth with (f := fun b => prg b bn). reflexivity.
Qed.
Lemma at_lt l bn k i : length l = 128 -> k < 128 -> w128 (at_ (extend prg l bn) k i).
Proof.
  intros Hl Hk. rewrite at_extend by lia. destruct (HP (nth k l 0%N) bn) as [_ F]. rewrite Forall_forall in F.
  destruct (Nat.lt_ge_cases i (length (prg (nth k l 0%N) bn))); [apply F; apply nth_In; auto|rewrite nth_overflow by auto; reflexivity].
Qed.
(** The sender's row k is the receiver's row, plus the choices when s_k = 1. *)
Lemma row_relation bn i r k : k < 128 ->
  (if N.testbit s (N.of_nat k) then N.lxor (nth k (u_batch (extend prg k0 bn) (extend prg k1 bn) i r) 0%N) (at_ (extend prg ks bn) k i)
   else at_ (extend prg ks bn) k i)
  = N.lxor (at_ (extend prg k0 bn) k i) (if N.testbit s (N.of_nat k) then r else 0%N).
Proof.
  intros Hk. destruct HB as (L0 & L1 & Ls & Hs & H). unfold u_batch. rewrite nth_map_seq by auto.
  rewrite !at_extend by lia. rewrite H by auto. destruct (N.testbit s (N.of_nat k)).
  - set (a := nth i (prg (nth k k0 0%N) bn) 0%N). set (b := nth i (prg (nth k k1 0%N) bn) 0%N).
    rewrite !N.lxor_assoc. f_equal. rewrite (N.lxor_comm r b). apply xor_cancel.
  - rewrite N.lxor_0_r. reflexivity.
Qed.
Lemma column_ok bn i l : length l = 128 -> length (OtExtModel.column (extend prg l bn) i) = 128 /\ Forall (fun w => w128 w) (OtExtModel.column (extend prg l bn) i).
Proof.
  intros Hl. unfold OtExtModel.column. split; [rewrite map_length, seq_length; auto|]. apply Forall_forall. intros w Hw.
  apply in_map_iff in Hw as (k & <- & Hk). apply in_seq in Hk. apply at_lt; auto. lia.
Qed.
(** After transposing: row j of the sender is row j of the receiver plus s when the
    j-th choice bit is set. *)
Lemma transposed_relation tr bn i r (Q : list N) : is_transpose128 tr -> w128 r -> length Q = 128 ->
  (forall k, k < 128 -> nth k Q 0%N = N.lxor (at_ (extend prg k0 bn) k i) (if N.testbit s (N.of_nat k) then r else 0%N)) ->
  length (transpose tr Q) = 128 /\
  forall j, j < 128 -> nth j (transpose tr Q) 0%N
    = N.lxor (nth j (transpose tr (OtExtModel.column (extend prg k0 bn) i)) 0%N) (if N.testbit r (N.of_nat j) then s else 0%N).
Proof.
  intros HT Hr Hl HQ. destruct HB as (L0 & L1 & Ls & Hs & H).
  assert (FQ : Forall (fun w => w128 w) Q).
  { apply Forall_forall. intros w Hw. apply (In_nth _ _ 0%N) in Hw as (k & Hk & <-). rewrite HQ by lia. apply xor_lt; [apply at_lt; auto; lia|].
    destruct (N.testbit s (N.of_nat k)); [auto|reflexivity]. }
  destruct (column_ok bn i k0 L0) as [C1 C2].
  destruct (transpose_spec tr Q HT FQ Hl) as (A1 & A2 & A3). destruct (transpose_spec tr _ HT C2 C1) as (B1 & B2 & B3).
  split; auto. intros j Hj. rewrite Forall_forall in A2, B2. apply word_ext128.
  - apply A2. apply nth_In. lia.
  - apply xor_lt; [apply B2; apply nth_In; lia|]. destruct (N.testbit r (N.of_nat j)); [auto|reflexivity].
  - intros c Hc. rewrite N.lxor_spec, A3, B3, HQ, N.lxor_spec by auto. unfold OtExtModel.column. rewrite nth_map_seq by auto. f_equal.
    destruct (N.testbit s (N.of_nat c)) eqn:Es, (N.testbit r (N.of_nat j)) eqn:Er; rewrite ?N.bits_0; auto.
Qed.
End Core.
