(** C62, C63 from the files: reading the circuit files of the repository gives the gate lists the
    theorems are about, so the theorems hold of a run on what the reader returns. *)
From Coq Require Import String Ascii NArith ZArith List.
From Verif Require Import LinCodeModel CircuitModel CircuitProps BristolModel BristolProps.
From Verif Require Import BristolData BristolDataMul BristolDataDiv BristolDataSdiv.
From Verif Require Import CircuitData CircuitDataMul CircuitDataDiv CircuitDataSdiv BuiltinProps DivProps SdivProps.
Import ListNotations.

Lemma adder64_read : read_file (file adder64_file) = Val adder64.
Proof. vm_cast_no_check (eq_refl (Val adder64)). Qed.
Lemma sub64_read : read_file (file sub64_file) = Val sub64.
Proof. vm_cast_no_check (eq_refl (Val sub64)). Qed.
Lemma neg64_read : read_file (file neg64_file) = Val neg64.
Proof. vm_cast_no_check (eq_refl (Val neg64)). Qed.
Lemma zero_equal_read : read_file (file zero_equal_file) = Val zero_equal.
Proof. vm_cast_no_check (eq_refl (Val zero_equal)). Qed.
Lemma mult64_read : read_file (file mult64_file) = Val mult64.
Proof. vm_cast_no_check (eq_refl (Val mult64)). Qed.
Lemma udivide64_read : read_file (removelast (file udivide64_file)) = Val udivide64.
Proof. vm_cast_no_check (eq_refl (Val udivide64)). Qed.
Lemma divide64_read : read_file (file divide64_file) = Val divide64.
Proof. vm_cast_no_check (eq_refl (Val divide64)). Qed.

(** The circuit of a file, run on inputs. *)
Definition run_file (t : text) (inputs outputs : list N) : outcome (list N) :=
  bind (read_file t) (fun c => run_span 64 c inputs outputs).
Theorem builtin_files : forall a b o, (a < 2 ^ 64)%N -> (b < 2 ^ 64)%N ->
  run_file (file adder64_file) [a; b] [o] = Val [((a + b) mod 2 ^ 64)%N] /\
  run_file (file sub64_file) [a; b] [o] = Val [((2 ^ 64 + a - b) mod 2 ^ 64)%N] /\
  run_file (file neg64_file) [a] [o] = Val [((2 ^ 64 - a) mod 2 ^ 64)%N] /\
  run_file (file zero_equal_file) [a] [o] = Val [if (a =? 0)%N then 1%N else 0%N] /\
  run_file (file mult64_file) [a; b] [o] = Val [((a * b) mod 2 ^ 64)%N].
Proof.
  intros a b o Ha Hb. unfold run_file. rewrite adder64_read, sub64_read, neg64_read, zero_equal_read, mult64_read. cbn [bind].
  split; [exact (add64_correct a b o Ha Hb)|]. split; [exact (sub64_correct a b o Ha Hb)|]. split; [exact (neg64_correct a o Ha)|].
  split; [exact (eqz64_correct a o Ha)|exact (mul64_correct a b o Ha Hb)].
Qed.
Theorem division_files : forall a b o, (a < 2 ^ 64)%N -> (b < 2 ^ 64)%N ->
  run_file (removelast (file udivide64_file)) [a; b] [o] = Val [if (b =? 0)%N then (2 ^ 64 - 1)%N else (a / b)%N] /\
  run_file (file divide64_file) [a; b] [o] =
    Val [if (b =? 0)%N then by_zero a else Z.to_N ((Z.quot (signed a) (signed b)) mod 2 ^ 64)].
Proof.
  intros a b o Ha Hb. unfold run_file. rewrite udivide64_read, divide64_read. cbn [bind].
  split; [exact (udiv64_correct a b o Ha Hb)|exact (sdiv64_correct a b o Ha Hb)].
Qed.
Print Assumptions builtin_files.
Print Assumptions division_files.
