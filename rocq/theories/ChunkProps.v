(** C03 (chunk reassembly) and C16 (memory safety of the chunk receiver). *)
From Coq Require Import List ZArith.
From Verif Require Import ChanKeyModel ChunkModel ChunkProof.
Import ListNotations.
Open Scope Z_scope.

(** C03, one message: chunks of [v] arrive in any order, with any repetition.
    Nothing is delivered before every chunk has arrived ... *)
Theorem chunks_nothing_early : forall junk b k v idx,
  (0 < b)%nat -> Z.of_nat (length v) < 2 ^ 63 ->
  (forall i, In i idx -> (i < num_chunks (length v) b)%nat) ->
  (exists i, (i < num_chunks (length v) b)%nat /\ ~ In i idx) ->
  exists t, on_chunks junk [] (map (chunk_at k v b) idx) = Ok (t, map (fun _ => None) idx).
Proof. exact chunked_wait. Qed.
Print Assumptions chunks_nothing_early.

(** ... and the arrival of the last missing chunk delivers exactly [v]. *)
Theorem chunks_exact : forall junk b k v idx last,
  (0 < b)%nat -> Z.of_nat (length v) < 2 ^ 63 ->
  (forall i, In i (idx ++ [last]) -> (i < num_chunks (length v) b)%nat) ->
  (exists i, (i < num_chunks (length v) b)%nat /\ ~ In i idx) ->
  (forall i, (i < num_chunks (length v) b)%nat -> In i (idx ++ [last])) ->
  exists t, on_chunks junk [] (map (chunk_at k v b) (idx ++ [last]))
            = Ok (t, map (fun _ => None) idx ++ [Some v]).
Proof. exact chunked_delivery. Qed.
Print Assumptions chunks_exact.

(** C03, any number of messages under different wire keys, arbitrarily
    interleaved: the receiver never fails and delivers [payload k] exactly at
    the arrivals of [k] that complete it ([spec_outputs]). *)
Theorem chunks_interleaved : forall junk b payload l,
  (0 < b)%nat ->
  (forall k i, In (k, i) l -> Z.of_nat (length (payload k)) < 2 ^ 63 /\
                              (i < num_chunks (length (payload k)) b)%nat) ->
  exists t, on_chunks junk [] (map (fun a => chunk_at (fst a) (payload (fst a)) b (snd a)) l)
            = Ok (t, spec_outputs (fun k => num_chunks (length (payload k)) b) payload [] l).
Proof. exact chunks_reassemble. Qed.
Print Assumptions chunks_interleaved.

(** The chunks issued by the sender carry the whole message, in order. *)
Theorem send_chunked_covers : forall k v b,
  (0 < b)%nat -> concat (map c_data (send_chunked k v b)) = v.
Proof. exact send_chunked_concat. Qed.
Print Assumptions send_chunked_covers.

Example chunks_concrete : forall junk,
  on_chunks junk [] (map (chunk_at [7] [10; 11; 12; 13; 14] 2) [2; 0; 2; 0; 1]%nat)
  = Ok ([], [None; None; None; None; Some [10; 11; 12; 13; 14]]).
Proof. intros; reflexivity. Qed.

(** C16 is false: two chunks with different totals under one key, each of which
    passes the header check, write past the end of the buffer. *)
Theorem chunk_memory_safe_refuted : exists junk c1 c2,
  c_offset c1 + zlen (c_data c1) <= c_total c1 < 2 ^ 63 /\
  c_offset c2 + zlen (c_data c2) <= c_total c2 < 2 ^ 63 /\
  on_chunks junk [] [c1; c2] = UB.
Proof.
  exists (fun _ => 0), (mkChunk [7] [1] 0 2), (mkChunk [7] [1; 2; 3; 4] 4 8).
  vm_compute. repeat split; congruence.
Qed.
Print Assumptions chunk_memory_safe_refuted.

(** The 64-bit addition in the header check wraps: one request suffices. *)
Theorem chunk_header_wrap_refuted : exists junk c,
  0 <= c_offset c < 2 ^ 64 /\ 0 <= c_total c < 2 ^ 63 /\ on_chunks junk [] [c] = UB.
Proof.
  exists (fun _ => 0), (mkChunk [7] [1; 2] (2 ^ 64 - 1) 4).
  vm_compute. repeat split; congruence.
Qed.
Print Assumptions chunk_header_wrap_refuted.

(** What does hold: if all requests of a key announce the same total length and
    all header fields fit in 63 bits, no sequence of arrivals is memory-unsafe. *)
Theorem chunk_memory_safe_consistent : forall junk cs,
  (forall c, In c cs -> 0 <= c_offset c < 2 ^ 63 /\ 0 <= c_total c < 2 ^ 63 /\ zlen (c_data c) < 2 ^ 63) ->
  (forall c c', In c cs -> In c' cs -> c_key c = c_key c' -> c_total c = c_total c') ->
  on_chunks junk [] cs <> UB.
Proof. exact on_chunks_safe_from_empty. Qed.
Print Assumptions chunk_memory_safe_consistent.
