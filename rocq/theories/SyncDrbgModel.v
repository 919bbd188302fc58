From Coq Require Import ZArith Bool List Lia.
From Verif Require Import LinCodeModel.
Import ListNotations.
Open Scope Z_scope.

(** Model of the syncable generator, yacl/crypto/experimental/sync_drbg/sync_drbg.{h,cc}.

    The Hash_DRBG library is outside the repository: its functions are arguments
    that see the whole context.  Bytes are numbers 0..255.  Entropy is an argument
    of the calls that may need it.  Buffers are shorter than 2^48 bytes (the batch
    counter of Fill has 32 bits). *)

(** HASH_DRBG_CTX, sync_drbg.cc:26-34.  V and C are arrays of
    MAX_SEED_BYTE_LENGTH bytes. *)
Record hctx := { md : Z; V : list Z; C : list Z; hash_output_len : Z; security_strength : Z;
                 seed_byte_len : Z; reseed_counter : Z }.

(** What gen_rnd_bytes_with_hash_drbg answers: success (0) with bytes and a new
    context, REQUIRE_RESEED, or another error; in the last two cases nothing is
    written. *)
Inductive gen_result := GenOk (c : hctx) (out : list Z) | GenReseed | GenError.

(** A SyncDrbg: context and sync_flag_ (sync_drbg.h:155-160). *)
Record drbg := { ctx : hctx; syncing : bool }.

(** memcpy of a long long: eight bytes, little endian two's complement. *)
Fixpoint le_of (k : nat) (x : Z) : list Z :=
  match k with O => [] | S k' => x mod 256 :: le_of k' (x / 256) end.
Definition le_to (l : list Z) : Z := fold_right (fun b acc => b + 256 * acc) 0 l.
Definition signed64 (x : Z) : Z := if x <? 2 ^ 63 then x else x - 2 ^ 64.

(** Public parameters set by a receiver, sync_drbg.cc:36-38, 63-67; EVP_sha256 is number 0. *)
Definition evp_sha256 : Z := 0.
Definition kHashDrbgHashOutputLen : Z := 32.
Definition kHashDrbgSecurityStrength : Z := 128.
Definition kSeedByteLen : Z := 55.
Definition kBatchSize : nat := N.to_nat 65536.

Section Drbg.
  Variable maxlen : nat.   (* MAX_SEED_BYTE_LENGTH *)
  Variable gen : hctx -> Z -> list Z -> gen_result.
  Variable reseed_lib : hctx -> list Z -> list Z -> option hctx.
  Variable instantiate_lib : list Z -> list Z -> list Z -> option hctx.

  (** serialize_hash_drbg_ctx, sync_drbg.cc:52-60. *)
  Definition serialize (c : hctx) : list Z := V c ++ C c ++ le_of 8 (reseed_counter c).
  (** deserialize_hash_drbg_ctx, sync_drbg.cc:62-76: no check of the size of the buffer. *)
  Definition deserialize (buf : list Z) : outcome hctx :=
    if Nat.leb (maxlen + maxlen + 8) (length buf) then
      Val {| md := evp_sha256; V := firstn maxlen buf; C := firstn maxlen (skipn maxlen buf);
             hash_output_len := kHashDrbgHashOutputLen; security_strength := kHashDrbgSecurityStrength;
             seed_byte_len := kSeedByteLen;
             reseed_counter := signed64 (le_to (firstn 8 (skipn (maxlen + maxlen) buf))) |}
    else OutOfBounds.

  (** The constructor, sync_drbg.cc:79-114. *)
  Definition new (seed nonce personal : list Z) : outcome drbg :=
    if Nat.leb (length nonce) 32 && Nat.leb (length personal) 32 then
      match instantiate_lib seed nonce personal with
      | Some c => Val {| ctx := c; syncing := false |}
      | None => Thrown
      end
    else Thrown.
  (** Copy of a context, sync_drbg.cc:42-50; Fork, sync_drbg.h:139: every field is
      copied, the new object is not syncing. *)
  Definition fork (d : drbg) : drbg :=
    let c := ctx d in
    {| ctx := {| md := md c; V := V c; C := C c; hash_output_len := hash_output_len c;
                 security_strength := security_strength c; seed_byte_len := seed_byte_len c;
                 reseed_counter := reseed_counter c |};
       syncing := false |}.

  (** Reseed, sync_drbg.cc:157-168. *)
  Definition reseed (seed additional : list Z) (d : drbg) : outcome drbg :=
    if Nat.leb (length additional) 32 then
      match reseed_lib (ctx d) seed additional with
      | Some c => Val {| ctx := c; syncing := syncing d |}
      | None => Thrown
      end
    else Thrown.

  (** The outcome of Fill: its return value, the caller's buffer and the context;
      or std::terminate, if Reseed throws inside the noexcept function. *)
  Inductive fill_result := Filled (ret : Z) (buf : list Z) (d : drbg) | Terminated.

  (** One pass of the loop of Fill per batch, sync_drbg.cc:133-152: [done] is the part
      of the buffer behind us, [rest] the part still to fill.  A batch for which a reseed is needed is not generated again
      afterwards. *)
  Fixpoint fill_loop (batches : nat) (additional seed : list Z) (done rest : list Z) (d : drbg) : fill_result :=
    match batches with
    | O => Filled 1 (done ++ rest) d
    | S b =>
        let limit := Nat.min kBatchSize (length rest) in
        match gen (ctx d) (Z.of_nat limit) additional with
        | GenOk c out =>
            fill_loop b additional seed (done ++ out) (skipn limit rest) {| ctx := c; syncing := syncing d |}
        | GenReseed =>
            match reseed seed [] d with
            | Val d' => fill_loop b additional seed (done ++ firstn limit rest) (skipn limit rest) d'
            | _ => Terminated
            end
        | GenError => Filled 0 (done ++ rest) d
        end
    end.
  (** Fill, sync_drbg.cc:117-154; buf is what the caller's buffer holds before. *)
  Definition fill (buf additional seed : list Z) (d : drbg) : fill_result :=
    if Nat.ltb 32 (length additional) then Filled 0 buf d
    else if syncing d then Filled 0 buf d
    else fill_loop (Nat.div (length buf + kBatchSize - 1) kBatchSize) additional seed [] buf d.

  (** SendState, sync_drbg.cc:172-184, up to the message; then the rest of the call,
      given the acknowledgement, or None if the link throws while waiting for it.  The
      state is the one the object is left in. *)
  Definition send_state (self peer : nat) (d : drbg) : outcome (list Z * drbg) :=
    if Nat.eqb self peer then Thrown
    else Val (serialize (ctx d), {| ctx := ctx d; syncing := true |}).
  Definition send_state_ack (ack : option (list Z)) (d : drbg) : drbg * outcome unit :=
    match ack with
    | None => (d, Thrown)
    | Some [] => (d, OutOfBounds)
    | Some (b :: _) => if b =? 89 then ({| ctx := ctx d; syncing := false |}, Val tt) else (d, Thrown)
    end.
  (** RecvState, sync_drbg.cc:188-199: the state after the call and the acknowledgement
      (the byte 'Y'); None is a link that throws. *)
  Definition recv_state (self peer : nat) (msg : option (list Z)) (d : drbg) : drbg * outcome (list Z) :=
    if Nat.eqb self peer then (d, Thrown)
    else
      let d1 := {| ctx := ctx d; syncing := true |} in
      match msg with
      | None => (d1, Thrown)
      | Some m =>
          match deserialize m with
          | Val c => ({| ctx := c; syncing := false |}, Val [89])
          | _ => (d1, OutOfBounds)
          end
      end.
  (** Both calls run against each other over a link that delivers. *)
  Definition sync (rank1 rank2 : nat) (d1 d2 : drbg) : outcome (drbg * drbg) :=
    bind (send_state rank1 rank2 d1) (fun s =>
    let '(d2', o2) := recv_state rank2 rank1 (Some (fst s)) d2 in
    bind o2 (fun ack =>
    let '(d1', o1) := send_state_ack (Some ack) (snd s) in
    bind o1 (fun _ => Val (d1', d2')))).

  (** A history of Fill calls: for each the buffer before, the additional data and the
      seed an automatic reseed would get.  It ends early if the program is terminated. *)
  Fixpoint fills (calls : list (list Z * list Z * list Z)) (d : drbg) : list (option (Z * list Z)) :=
    match calls with
    | [] => []
    | (buf, add, seed) :: cs =>
        match fill buf add seed d with
        | Filled r b d' => Some (r, b) :: fills cs d'
        | Terminated => [None]
        end
    end.
End Drbg.
