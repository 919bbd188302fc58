(** C22: every bit-matrix transpose is the mathematical transpose. *)
From Coq Require Import List ZArith Bool Lia.
From Verif Require Import TransModel TransProof.
Import ListNotations.

(** A matrix: 128 rows of 128-bit words; bit (r, c) is bit c of row r. *)
Definition is_matrix (m : list Z) : Prop := length m = 128 /\ Forall (fun w => (0 <= w < 2 ^ 128)%Z) m.
Definition bit (m : list Z) (r c : nat) : bool := Z.testbit (nth r m 0%Z) (Z.of_nat c).
Definition is_transpose_of (m' m : list Z) : Prop :=
  is_matrix m' /\ forall r c, r < 128 -> c < 128 -> bit m' r c = bit m c r.

Definition is_matrix_x (m : list (list Z)) : Prop :=
  length m = 128 /\ Forall (fun row => length row = 8 /\ Forall (fun w => (0 <= w < 2 ^ 128)%Z) row) m.
Definition bit_x (m : list (list Z)) (r i c : nat) : bool := Z.testbit (nth i (nth r m []) 0%Z) (Z.of_nat c).
Definition is_transpose_of_x (m' m : list (list Z)) : Prop :=
  is_matrix_x m' /\ forall r i c, r < 128 -> i < 8 -> c < 128 -> bit_x m' r i c = bit_x m c i r.
Lemma is_transpose m m' : transposed m m' -> is_transpose_of m' m.
Proof. intros H. exact H. Qed.
Lemma is_transpose_x m m' : transposed_x m m' -> is_transpose_of_x m' m.
Proof. intros H. exact H. Qed.

(** Whichever of the four implementations is selected (AVX2, SSE2, Eklundh; the
    naive one is the reference in the tests), for every matrix. *)
Theorem transpose128_correct m : is_matrix m ->
  is_transpose_of (naive_transpose128 m) m /\ is_transpose_of (eklundh_transpose128 m) m /\
  is_transpose_of (sse_transpose128 m) m /\ is_transpose_of (avx_transpose128 m) m.
Proof.
  intros [Hl Hw].
  assert (Hm : ok m) by (split; auto).
  split; [|split; [|split]]; apply is_transpose; [apply naive_ok|apply eklundh_ok|apply sse_ok|apply avx_ok]; exact Hm.
Qed.
Print Assumptions transpose128_correct.

(** Hence they all agree bit for bit, and transposing twice (with any two of
    them) gives the matrix back. *)
Theorem transpose128_agree m : is_matrix m ->
  eklundh_transpose128 m = naive_transpose128 m /\ sse_transpose128 m = naive_transpose128 m /\
  avx_transpose128 m = naive_transpose128 m.
Proof.
  intros Hm. change (ok m) in Hm.
  split; [|split].
  - exact (transposed_unique m _ _ (eklundh_ok m Hm) (naive_ok m Hm)).
  - exact (transposed_unique m _ _ (sse_ok m Hm) (naive_ok m Hm)).
  - exact (transposed_unique m _ _ (avx_ok m Hm) (naive_ok m Hm)).
Qed.
Print Assumptions transpose128_agree.
Theorem transpose128_involutive m : is_matrix m ->
  eklundh_transpose128 (eklundh_transpose128 m) = m /\ sse_transpose128 (eklundh_transpose128 m) = m /\
  sse_transpose128 (sse_transpose128 m) = m /\ avx_transpose128 (sse_transpose128 m) = m.
Proof.
  intros Hm. pose proof (eklundh_ok m Hm) as E. pose proof (sse_ok m Hm) as S.
  split; [|split; [|split]].
  - apply (transposed_involutive m _ _ Hm E). apply eklundh_ok. apply E.
  - apply (transposed_involutive m _ _ Hm E). apply sse_ok. apply E.
  - apply (transposed_involutive m _ _ Hm S). apply sse_ok. apply S.
  - apply (transposed_involutive m _ _ Hm S). apply avx_ok. apply S.
Qed.
Print Assumptions transpose128_involutive.

(** The 128 x 1024 versions transpose each of the eight 128 x 128 squares in place. *)
Theorem transpose128x1024_correct m : is_matrix_x m ->
  is_transpose_of_x (eklundh_transpose128x1024 m) m /\ is_transpose_of_x (sse_transpose128x1024 m) m.
Proof. intros H. split; apply is_transpose_x; [apply eklundh_x_ok; exact H|apply sse_x_ok; exact H]. Qed.
Print Assumptions transpose128x1024_correct.

Example matrix_concrete :
  let m := map (fun i => (Z.of_nat i * Z.of_nat i * 0x123456789abcdef01234567 mod 2 ^ 128)%Z) (seq 0 128) in
  is_matrix m /\ bit (sse_transpose128 m) 3 5 = true /\ bit (sse_transpose128 m) 5 3 = false /\ bit (avx_transpose128 m) 100 127 = bit m 127 100.
Proof.
  cbn zeta. set (m := map _ _).
  assert (Hm : is_matrix m).
  { split; [unfold m; rewrite map_length, seq_length; reflexivity|]. apply Forall_forall. intros w Hw. apply in_map_iff in Hw as (i & <- & _).
    apply Z.mod_pos_bound. lia. }
  destruct (transpose128_correct m Hm) as (_ & _ & [_ S] & [_ A]).
  specialize (A 100 127 ltac:(lia) ltac:(lia)). pose proof (S 3 5 ltac:(lia) ltac:(lia)) as S1. pose proof (S 5 3 ltac:(lia) ltac:(lia)) as S2.
  split; [exact Hm|]. split; [|split; [|exact A]].
  - transitivity (bit m 5 3); [exact S1|vm_compute; reflexivity].
  - transitivity (bit m 3 5); [exact S2|vm_compute; reflexivity].
Qed.
