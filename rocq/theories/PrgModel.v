(** Model of yacl/crypto/tools/prg.{h,cc}: FillPRand, the class Prg and the bounded
    samplers.  Memory is a list of bytes ([N] below 256), uint128_t and uint64_t are
    [N].  The block cipher under a key is an argument [enc]; the modes of operation
    are those OpenSSL documents (symmetric_crypto.cc only splits the data in pieces
    of a multiple of 16 bytes for one context, 122-143). *)
From Coq Require Import List NArith Bool Arith.
Import ListNotations.
Open Scope nat_scope.

(** The k bytes of a little endian integer, and back. *)
Fixpoint le_bytes (k : nat) (v : N) : list N :=
  match k with O => [] | S k => (v mod 256)%N :: le_bytes k (v / 256)%N end.
Definition le_val (l : list N) : N := fold_right (fun b acc => (b + 256 * acc)%N) 0%N l.

(** The modes of AES128 and SM4. *)
Inductive mode := ECB | CBC | CTR.

Section Fill.
Variable enc : N -> N.

(** EcbMakeContentBlocks (symmetric_crypto.h:81-83), std::iota on uint128_t. *)
Definition content (count : N) (n : nat) : list N := map (fun j => ((count + N.of_nat j) mod 2 ^ 128)%N) (seq 0 n).
Definition to_mem (blocks : list N) : list N := flat_map (le_bytes 16) blocks.
Definition ecb (blocks : list N) : list N := map enc blocks.
Fixpoint cbc (prev : N) (blocks : list N) : list N :=
  match blocks with [] => [] | b :: t => let c := enc (N.lxor b prev) in c :: cbc c t end.
(** CTR: the IV is the uint128_t count in memory; OpenSSL increments the 16 bytes as one
    big endian number. *)
Definition ctr_in (count : N) (j : nat) : N :=
  le_val (rev (le_bytes 16 ((le_val (rev (le_bytes 16 count)) + N.of_nat j) mod 2 ^ 128)%N)).

Definition nblock (len : nat) : nat := (len + 15) / 16.

(** FillPRand (prg.cc:21-68): the bytes and the returned counter. *)
Definition fill (m : mode) (iv count : N) (len : nat) : list N * N :=
  let nb := nblock len in
  let pad := len mod 16 in
  (match m with
   | CTR => firstn len (to_mem (map (fun j => enc (ctr_in count j)) (seq 0 nb)))
   | ECB =>
       if pad =? 0 then to_mem (ecb (content count nb))
       else (if 1 <? nb then to_mem (ecb (content count (nb - 1))) else [])
            ++ firstn pad (le_bytes 16 (enc ((count + N.of_nat nb - 1) mod 2 ^ 64)%N))
   | CBC =>
       if pad =? 0 then to_mem (cbc iv (content count nb))
       else firstn len (to_mem (cbc iv (content count nb)))
   end,
   ((count + N.of_nat nb) mod 2 ^ 64)%N).
End Fill.

(** ** Prg<T, BATCH_SIZE> (prg.h:305-385) *)
Section Prg.
Variable enc : N -> N -> N.
(** cipher_data_.size() in bytes, cipher_budget_.size() in elements, the initial value of
    num_consumed_, and the access to an element. *)
Variable bytes elems start : nat.
Context {T : Type}.
Variable elem : list N -> nat -> T.

Record prg : Type := { seed : N; counter : N; budget : list N; consumed : nat }.
(** The constructor and SetSeed (311-327). *)
Definition fresh (s : N) : prg := {| seed := s; counter := 0%N; budget := repeat 0%N bytes; consumed := start |}.
Definition set_seed (s : N) (p : prg) : prg := {| seed := s; counter := 0%N; budget := budget p; consumed := consumed p |}.
(** SetStatus (329-332). *)
Definition set_status (s c : N) (p : prg) : prg := {| seed := s; counter := c; budget := budget p; consumed := consumed p |}.
(** GenerateBudgets (362-378); FillPRand takes a uint64_t counter. *)
Definition gen_budgets (p : prg) : prg :=
  let (b, c) := fill (enc (seed p)) ECB 0%N (counter p mod 2 ^ 64)%N bytes in
  {| seed := seed p; counter := c; budget := b; consumed := consumed p |}.
(** operator() (334-340). *)
Definition call (p : prg) : T * prg :=
  let p := if consumed p =? elems then
             let q := gen_budgets p in {| seed := seed q; counter := counter q; budget := budget q; consumed := 0 |}
           else p in
  (elem (budget p) (consumed p), {| seed := seed p; counter := counter p; budget := budget p; consumed := S (consumed p) |}).
(** Fill (344-358). *)
Definition fill_bytes (len : nat) (p : prg) : list N * prg :=
  let (b, c) := fill (enc (seed p)) ECB 0%N (counter p mod 2 ^ 64)%N len in
  (b, {| seed := seed p; counter := c; budget := budget p; consumed := consumed p |}).

(** A sequence of calls. *)
Inductive op := Call | Fill (len : nat) | SetSeed (s : N) | SetStatus (s c : N).
Inductive out := Elem (x : T) | Bytes (l : list N) | Unit.
Definition exec (o : op) (p : prg) : out * prg :=
  match o with
  | Call => let (x, q) := call p in (Elem x, q)
  | Fill len => let (b, q) := fill_bytes len p in (Bytes b, q)
  | SetSeed s => (Unit, set_seed s p)
  | SetStatus s c => (Unit, set_status s c p)
  end.
Fixpoint run (ops : list op) (p : prg) : list out :=
  match ops with [] => [] | o :: t => let (r, q) := exec o p in r :: run t q end.
End Prg.
Arguments Elem {T}. Arguments Bytes {T}. Arguments Unit {T}.

(** The two shapes of cipher_data (276-295): an array of BATCH elements of [sz] bytes,
    and for bool a bit set of 8 * BATCH bits filled with BATCH bytes; num_consumed_ starts
    at BATCH_SIZE in both (382). *)
Definition chunk (sz : nat) (b : list N) (i : nat) : list N := firstn sz (skipn (i * sz) b).
Definition bit (b : list N) (i : nat) : bool := N.testbit (nth (i / 8) b 0%N) (N.of_nat (i mod 8)).
Definition run_typed enc (batch sz : nat) (s : N) (ops : list op) : list (out (T := list N)) :=
  run enc (batch * sz) batch (chunk sz) ops (fresh (batch * sz) batch s).
Definition run_bool enc (batch : nat) (s : N) (ops : list op) : list (out (T := bool)) :=
  run enc batch (8 * batch) bit ops (fresh batch batch s).

(** ** Samplers *)
(** FillPRandWithMersennePrime on uint128_t (w = 127) and uint64_t (w = 61), the loop
    (219-224). *)
Definition mersenne_mask (w : N) : N := (2 ^ w - 1)%N.
Definition mersenne_fast (w e : N) : N :=
  if (N.land e (mersenne_mask w) =? mersenne_mask w)%N then 0%N else N.land e (mersenne_mask w).
(** MersennePrimeMod on uint32_t (w = 31) and uint8_t (w = 7): the loop (192-198) on the
    integer read from the bytes; [fuel] bounds the iterations. *)
Fixpoint mersenne_loop (fuel : nat) (w a : N) : N :=
  match fuel with
  | O => a
  | S fuel =>
      let m := mersenne_mask w in
      let i := (N.land a m + N.shiftr a w)%N in
      let a := if (m <=? i)%N then (i - m)%N else i in
      if (m <=? a)%N then mersenne_loop fuel w a else a
  end.
Definition mersenne_mod (w : N) (buf : list N) : N := mersenne_loop 64 w (le_val buf).
(** MersennePrimeMod on uint128_t and uint64_t (176-185): [sz] bytes, then 5 more. *)
Definition mersenne_mod_wide (w : N) (sz : nat) (buf : list N) : N :=
  let rand := le_val (firstn sz buf) in
  let aux := le_val (skipn sz buf) in
  let i := ((N.land rand (mersenne_mask w) + aux) mod 2 ^ N.of_nat (8 * sz))%N in
  if (mersenne_mask w <? i)%N then (i - mersenne_mask w)%N else i.
(** FillPRandWithMersennePrime (207-241). *)
Definition fill_mersenne_wide enc m iv count (w : N) (sz n : nat) : list N :=
  let (b, _) := fill enc m iv count (n * sz) in map (fun i => mersenne_fast w (le_val (chunk sz b i))) (seq 0 n).
Definition fill_mersenne_small enc m iv count (w : N) (sz n : nat) : list N :=
  let req := sz + 5 in
  let (b, _) := fill enc m iv count (n * req) in map (fun i => mersenne_mod w (chunk req b i)) (seq 0 n).
(** FillPRandWithLtN (254-271): None when MPInt::Mod is given 0. *)
Definition ltn_size (n : N) : nat := N.to_nat ((N.size n + 40 + 7) / 8).
Definition fill_ltn enc m iv count (n : N) (num : nat) : option (list N) :=
  let req := ltn_size n in
  let (b, _) := fill enc m iv count (num * req) in
  if (n =? 0)%N then (match num with O => Some [] | _ => None end)
  else Some (map (fun i => (le_val (chunk req b i) mod n)%N) (seq 0 num)).
