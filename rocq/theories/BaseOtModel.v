From Coq Require Import ZArith Bool List Lia.
From Verif Require Import LinCodeModel.
Import ListNotations.
Open Scope Z_scope.

(** Model of the base OT (yacl/kernel/algorithms/base_ot.cc:36-53,
    portable_ot_interface.cc:25-118, x86_asm_ot_interface.cc:31-130) and of the
    typed random oracle it uses (yacl/crypto/tools/ro.h:56-142).

    The two libraries behind it (simplest_ot_portable, simplest_ot_x86_asm) are
    outside the repository.  They are modelled by the published algorithm of the
    "simplest OT" (Chou, Orlandi, 2015) over an arbitrary group: the group, the
    32-byte encoding of its elements and the key hash are explicit arguments,
    and the random scalars the libraries draw are explicit as well.  The
    cofactor clearing of the libraries is not modelled.  A byte is a number in
    0..255; an OT block (uint128_t) is a number.  [int kNumOt] is taken to be
    the number of OTs: more than 2^31 - 1 of them are outside the model. *)

(** memcpy of a little endian integer of k bytes, and of k bytes to an integer. *)
Fixpoint le_of (k : nat) (x : Z) : list Z :=
  match k with O => [] | S k' => x mod 256 :: le_of k' (x / 256) end.
Definition le_to (l : list Z) : Z := fold_right (fun b acc => b + 256 * acc) 0 l.

(** ** RandomOracle, crypto/tools/ro.h *)
(** The hash algorithms of yacl/crypto/hash/hash_interface.h; the first three are
    accepted by the oracle. *)
Inductive hash_alg := SHA256 | SM3 | BLAKE3 | OtherHash.
Definition supported (a : hash_alg) : bool :=
  match a with OtherHash => false | _ => true end.

(** SanityCheck, ro.h:115-124: run by the constructor (ro.h:58-61) and by
    SetOutlen (ro.h:63-66). *)
Definition ro_sane (a : hash_alg) (outlen : Z) : bool :=
  (0 <? outlen) && supported a && (outlen <=? 32).

(** operator(), ro.h:72-87: the first outlen bytes of the digest; [digest] is the
    hash function of the algorithm, of 32 bytes. *)
Definition ro_apply (digest : hash_alg -> list Z -> list Z) (a : hash_alg) (x : list Z) (outlen : Z)
  : outcome (list Z) :=
  if supported a && (outlen <=? 32) then Val (firstn (Z.to_nat outlen) (digest a x)) else Thrown.

(** Gen<T>(x), ro.h:95-101, for an unsigned integer type of [size] bytes. *)
Definition ro_gen (digest : hash_alg -> list Z -> list Z) (a : hash_alg) (size : Z) (x : list Z)
  : outcome Z :=
  bind (ro_apply digest a x size) (fun b => Val (le_to b)).

(** The hashed buffer of Gen<T>(x, y), ro.h:107-110: x followed by the eight bytes of y. *)
Definition ro_input (x : list Z) (y : Z) : list Z := x ++ le_of 8 y.
(** Gen<T>(x, y), ro.h:105-112. *)
Definition ro_gen_idx (digest : hash_alg -> list Z -> list Z) (a : hash_alg) (size : Z) (x : list Z) (y : Z)
  : outcome Z :=
  ro_gen digest a size (ro_input x y).

(** ** The base OT *)
(** PACKBYTES, the size of an encoded group element in both libraries. *)
Definition PACKBYTES : nat := 32.

(** math::DivCeil, math/gadget.h. *)
Definition div_ceil (n k : nat) : nat := ((n + k - 1) / k)%nat.

Section Ot.
  (** The group of the library: addition, subtraction, scalar multiples, base
      point, encoding and decoding of elements, and the hash of the keys (of the
      encodings of S, of R and of the shared element). *)
  Variable pt : Type.
  Variables (add sub : pt -> pt -> pt) (mul : Z -> pt -> pt) (base : pt).
  Variables (pack : pt -> list Z) (unpack : list Z -> option pt).
  Variable keyhash : list Z -> list Z -> list Z -> list Z.
  Variable digest : hash_alg -> list Z -> list Z.
  (** How many OTs one call of the library serves: 1 in
      portable_ot_interface.cc:43-48, 4 in x86_asm_ot_interface.cc:54-55. *)
  Variable k : nat.

  (** RO.Gen<uint128_t>(first 16 bytes of the key, index) with the default
      oracle (ro.h:126-137: BLAKE3);
      portable_ot_interface.cc:65-66, 111-115, x86_asm_ot_interface.cc:76-77, 123-127. *)
  Definition block_of (key : list Z) (index : nat) : outcome Z :=
    ro_gen_idx digest BLAKE3 16 (firstn 16 key) (Z.of_nat index).

  Fixpoint all_of {A} (l : list (outcome A)) : outcome (list A) :=
    match l with
    | [] => Val []
    | o :: l' => bind o (fun a => bind (all_of l') (fun r => Val (a :: r)))
    end.

  (** *** The library, receiver side *)
  (** receiver_rsgen: one element per choice of the batch; x are the fresh scalars. *)
  Definition rsgen1 (s : pt) (c : bool) (x : Z) : pt :=
    if c then add s (mul x base) else mul x base.
  (** receiver_keygen. *)
  Definition rkey1 (s_pack : list Z) (s : pt) (r_pack : list Z) (x : Z) : list Z :=
    keyhash s_pack r_pack (pack (mul x s)).

  (** *** The library, sender side *)
  (** sender_keygen_check for one element: the two keys, or a failure if the
      bytes encode no element. *)
  Definition skey1 (s_pack : list Z) (y : Z) (r_pack : list Z) : option (list Z * list Z) :=
    match unpack r_pack with
    | Some r => Some (keyhash s_pack r_pack (pack (mul y r)),
                      keyhash s_pack r_pack (pack (sub (mul y r) (mul y (mul y base)))))
    | None => None
    end.

  (** *** Recv, one batch *)
  (** The choices of the batch starting at OT i, padded with zeroes to k;
      portable :48-52, x86 :59-63. *)
  Definition batch_choices (choices : list bool) (i : nat) : list bool :=
    let b := firstn k (skipn i choices) in b ++ repeat false (k - length b).
  (** rs_pack of the batch; portable :54, x86 :65.  [rnd] gives the scalar drawn
      for every slot. *)
  Definition batch_packs (s : pt) (choices : list bool) (rnd : nat -> Z) (i : nat) : list (list Z) :=
    map (fun j => pack (rsgen1 s (nth j (batch_choices choices i) false) (rnd (i + j)%nat))) (seq 0 k).
  (** The blocks of the batch; portable :56-67, x86 :67-78. *)
  Definition batch_recv (s_pack : list Z) (s : pt) (choices : list bool) (rnd : nat -> Z) (i : nat)
    : outcome (list Z) :=
    let packs := batch_packs s choices rnd i in
    all_of (map (fun j => block_of (rkey1 s_pack s (nth j packs []) (rnd (i + j)%nat)) (i + j))
                (seq 0 (Nat.min k (length choices - i)))).

  (** The loop for (i = 0; i < n; i += k): the batches are 0, k, 2k, ...; blocks
      are written at i + j, that is one after the other. *)
  Definition starts (n : nat) : list nat := map (fun b => b * k)%nat (seq 0 (div_ceil n k)).

  (** PortableOtInterface::Recv and X86AsmOtInterface::Recv: from the bytes
      received as BASE_OT:S_PACK, the bytes sent as BASE_OT:RS_PACK and the blocks. *)
  Definition ot_recv (choices : list bool) (rnd : nat -> Z) (s_pack : list Z)
    : outcome (list Z * list Z) :=
    if Nat.eqb (length s_pack) PACKBYTES then
      match unpack s_pack with
      | None => Thrown
      | Some s =>
          bind (all_of (map (batch_recv s_pack s choices rnd) (starts (length choices)))) (fun blocks =>
          Val (concat (map (fun i => concat (batch_packs s choices rnd i)) (starts (length choices))),
               concat blocks))
      end
    else Thrown.

  (** *** Send *)
  (** S_pack; portable :80-82, x86 :92-94. *)
  Definition ot_send_first (y : Z) : list Z := pack (mul y base).
  (** rs_pack of the batch starting at i, as k encodings; portable :91-92, x86 :106-107. *)
  Definition slot (msg : list Z) (i : nat) : list Z := firstn PACKBYTES (skipn (i * PACKBYTES) msg).
  Fixpoint all_some {A} (l : list (option A)) : option (list A) :=
    match l with
    | [] => Some []
    | Some a :: l' => match all_some l' with Some r => Some (a :: r) | None => None end
    | None :: _ => None
    end.
  (** One batch; the library checks all k elements, also those of the padding;
      portable :95-116, x86 :110-128. *)
  Definition batch_send (y : Z) (n : nat) (msg : list Z) (i : nat) : outcome (list (Z * Z)) :=
    match all_some (map (fun j => skey1 (ot_send_first y) y (slot msg (i + j))) (seq 0 k)) with
    | None => Thrown
    | Some keys =>
        all_of (map (fun j =>
                  bind (block_of (fst (nth j keys ([], []))) (i + j)) (fun b0 =>
                  bind (block_of (snd (nth j keys ([], []))) (i + j)) (fun b1 => Val (b0, b1))))
                (seq 0 (Nat.min k (n - i))))
    end.
  (** The rest of Send: from the bytes received as BASE_OT:RS_PACK, the pairs of blocks. *)
  Definition ot_send (n : nat) (y : Z) (msg : list Z) : outcome (list (Z * Z)) :=
    if Nat.eqb (length msg) (div_ceil n k * k * PACKBYTES) then
      bind (all_of (map (batch_send y n msg) (starts n))) (fun pairs => Val (concat pairs))
    else Thrown.

  (** BaseOtRecv, base_ot.cc:36-45; [world] is ctx->WorldSize(), [nblocks] the
      size of recv_blocks. *)
  Definition base_ot_recv (world nblocks : nat) (choices : list bool) (rnd : nat -> Z) (s_pack : list Z)
    : outcome (list Z * list Z) :=
    if Nat.eqb world 2 && Nat.eqb (length choices) nblocks && negb (Nat.eqb (length choices) 0)
    then ot_recv choices rnd s_pack else Thrown.
  (** BaseOtSend, base_ot.cc:47-53. *)
  Definition base_ot_send (n : nat) (y : Z) (msg : list Z) : outcome (list (Z * Z)) :=
    if Nat.eqb n 0 then Thrown else ot_send n y msg.
End Ot.

(** An OT between two parties: the sender asks for n OTs with secret y, the
    receiver has its choices and scalars; kr and ks are the batch sizes of the
    library each of them is built with. *)
Definition ot_session (pt : Type) (add sub : pt -> pt -> pt) (mul : Z -> pt -> pt) (base : pt)
    (pack : pt -> list Z) (unpack : list Z -> option pt) (keyhash : list Z -> list Z -> list Z -> list Z)
    (digest : hash_alg -> list Z -> list Z) (kr ks : nat)
    (n : nat) (y : Z) (choices : list bool) (rnd : nat -> Z) : outcome (list Z * list (Z * Z)) :=
  bind (base_ot_recv pt add mul base pack unpack keyhash digest kr 2 (length choices) choices rnd
          (ot_send_first pt mul base pack y)) (fun r =>
  bind (base_ot_send pt sub mul base pack unpack keyhash digest ks n y (fst r)) (fun s =>
  Val (snd r, s))).
