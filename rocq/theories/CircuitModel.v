(** Model of the plaintext circuit executor: yacl/utils/circuit_executor.{h,cc}, with the
    circuit type of yacl/io/circuit/bristol_fashion.h and PrepareSha256Input of
    bristol_fashion.cc.

    A dynamic_bitset is a list of booleans, bit 0 first: resize cuts or pads with false,
    append concatenates, reading or writing behind the end is OutOfBounds (assert in debug
    builds, undefined otherwise).  Wires and counts are uint32_t, here N. *)
From Coq Require Import List NArith Bool Arith.
From Verif Require Import LinCodeModel.
Import ListNotations.
Open Scope nat_scope.

(** BFCircuit (bristol_fashion.h:31-61); niw and now of a gate are the lengths of iw and ow. *)
Inductive gate_op := XOR | AND | INV | EQ | EQW | MAND.
Record gate := mkGate { iw : list N; ow : list N; g_op : gate_op }.
Record circuit := mkCircuit { ng : N; nw : N; niw : list N; now : list N; gates : list gate }.
(** Lines with two inputs and with one input. *)
Definition G2 (o : gate_op) (a b c : N) : gate := mkGate [a; b] [c] o.
Definition G1 (o : gate_op) (a c : N) : gate := mkGate [a] [c] o.

Definition get (w : list bool) (i : N) : outcome bool :=
  match nth_error w (N.to_nat i) with Some b => Val b | None => OutOfBounds end.
Fixpoint set_bit (w : list bool) (i : nat) (b : bool) : list bool :=
  match w, i with
  | [], _ => []
  | _ :: w', O => b :: w'
  | x :: w', S i' => x :: set_bit w' i' b
  end.
Definition set (w : list bool) (i : N) (b : bool) : outcome (list bool) :=
  if N.to_nat i <? length w then Val (set_bit w (N.to_nat i) b) else OutOfBounds.
(** std::vector::operator[]. *)
Definition at_ (l : list N) (i : nat) : outcome N := match nth_error l i with Some x => Val x | None => OutOfBounds end.

(** One round of the loop of Exec (circuit_executor.cc:66-101). *)
Definition exec_gate (w : list bool) (g : gate) : outcome (list bool) :=
  match g_op g with
  | XOR => bind (at_ (iw g) 0) (fun a => bind (get w a) (fun x => bind (at_ (iw g) 1) (fun b => bind (get w b) (fun y =>
           bind (at_ (ow g) 0) (fun o => set w o (xorb x y))))))
  | AND => bind (at_ (iw g) 0) (fun a => bind (get w a) (fun x => bind (at_ (iw g) 1) (fun b => bind (get w b) (fun y =>
           bind (at_ (ow g) 0) (fun o => set w o (x && y))))))
  | INV => bind (at_ (iw g) 0) (fun a => bind (get w a) (fun x => bind (at_ (ow g) 0) (fun o => set w o (negb x))))
  | EQ => bind (at_ (ow g) 0) (fun o => bind (at_ (iw g) 0) (fun a => set w o (negb (a =? 0)%N)))
  | EQW => bind (at_ (iw g) 0) (fun a => bind (get w a) (fun x => bind (at_ (ow g) 0) (fun o => set w o x)))
  | MAND => Thrown
  end.
(** Exec (64-102). *)
Fixpoint exec (gs : list gate) (w : list bool) : outcome (list bool) :=
  match gs with [] => Val w | g :: gs' => bind (exec_gate w g) (exec gs') end.

Definition resize (n : nat) (w : list bool) : list bool := firstn n w ++ repeat false (n - length w).
(** The memory image of integers of [bits] bits, little endian, bit 0 first. *)
Definition bits_of (bits : nat) (x : N) : list bool := map (fun i => N.testbit x (N.of_nat i)) (seq 0 bits).
Definition image (bits : nat) (xs : list N) : list bool := concat (map (bits_of bits) xs).
Definition sum32 (l : list N) : N := fold_left (fun a x => ((a + x) mod 2 ^ 32)%N) l 0%N.

(** SetupInputs(ByteContainerView) (43-51); [w] are the wires of the executor before.  The
    bits the memcpy may write behind the last wire, inside the last byte, are not modelled. *)
Definition setup_bytes (c : circuit) (bytes : list N) (w : list bool) : outcome (list bool) :=
  if (sum32 (niw c) =? 8 * N.of_nat (length bytes))%N then
    let n := N.to_nat (nw c) in
    if length bytes <=? (n + 7) / 8 then
      let img := image 8 bytes in Val (firstn n img ++ skipn (length img) (resize n w))
    else OutOfBounds
  else Thrown.
(** SetupInputs(Span<T>) (53-62), T of [bits] bits. *)
Definition setup_span (bits : nat) (c : circuit) (inputs : list N) (w : list bool) : outcome (list bool) :=
  if length inputs =? length (niw c) then Val (resize (N.to_nat (nw c)) (w ++ image bits inputs)) else Thrown.

(** The number little endian bits spell. *)
Fixpoint number (l : list bool) : N := match l with [] => 0%N | b :: t => ((if b then 1 else 0) + 2 * number t)%N end.
(** [n] wires from [index - n]; index is a size_t, so going below 0 reads far outside. *)
Definition read_back (w : list bool) (index n : nat) : outcome (list bool) :=
  if n <=? index then (if index <=? length w then Val (firstn n (skipn (index - n) w)) else OutOfBounds) else OutOfBounds.
(** Finalize() (104-125): [k] rounds from [index]; the bytes in the order they are read are the
    result, because the vector is filled from the back and then reversed. *)
Fixpoint final_bytes (k : nat) (index : nat) (w : list bool) : outcome (list N) :=
  match k with
  | O => Val []
  | S k' => bind (read_back w index 8) (fun b => bind (final_bytes k' (index - 8) w) (fun r => Val (number b :: r)))
  end.
Definition total (l : list N) : nat := N.to_nat (fold_right N.add 0%N l).
Definition finalize_bytes (c : circuit) (w : list bool) : outcome (list N) :=
  let out_size := (total (now c) + 7) / 8 in
  bind (final_bytes out_size (length w) w) (fun out => Val (rev (rev out))).
(** Finalize(Span<T>) (127-142): round i writes outputs[nov - i - 1] with width now[i].  An
    empty bitset has no first block. *)
Fixpoint final_span (i : nat) (widths : list N) (nov index : nat) (w : list bool) (outputs : list N) : outcome (list N) :=
  match widths with
  | [] => Val outputs
  | n :: widths' =>
      let n := N.to_nat n in
      bind (read_back w index n) (fun b =>
      if n =? 0 then OutOfBounds else
      final_span (S i) widths' nov (index - n) w (set_nth outputs (nov - i - 1) (number b)))
  end.
Definition finalize_span (bits : nat) (c : circuit) (w : list bool) (outputs : list N) : outcome (list N) :=
  if (length (now c) <=? length outputs) && forallb (fun n => (n <=? N.of_nat bits)%N) (now c)
  then final_span 0 (now c) (length (now c)) (length w) w outputs else Thrown.

(** GetSha256InitialHashValues and PrepareSha256Input (bristol_fashion.cc:154-211).  For inputs
    of at most 55 bytes nothing wraps; longer ones are refused. *)
Definition sha256_init : list N :=
  [0x19; 0xcd; 0xe0; 0x5b; 0xab; 0xd9; 0x83; 0x1f; 0x8c; 0x68; 0x05; 0x9b; 0x7f; 0x52; 0x0e; 0x51;
   0x3a; 0xf5; 0x4f; 0xa5; 0x72; 0xf3; 0x6e; 0x3c; 0x85; 0xae; 0x67; 0xbb; 0x67; 0xe6; 0x09; 0x6a]%N.
Definition le64 (x : N) : list N := map (fun i => ((x / 2 ^ (8 * N.of_nat i)) mod 256)%N) (seq 0 8).
Definition prepare_sha256 (input : list N) : outcome (list N) :=
  let n := length input in
  let zeros := if (n + 1 + 8) mod 64 =? 0 then 0 else 64 - (n + 1 + 8) mod 64 in
  if n + 1 + zeros + 8 =? 64
  then Val (le64 (8 * N.of_nat n) ++ repeat 0%N zeros ++ [0x80%N] ++ rev input ++ sha256_init) else Thrown.
