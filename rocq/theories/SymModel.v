From Coq Require Import ZArith Arith Bool List Lia.
From Verif Require Import LinCodeModel.
Import ListNotations.
Open Scope Z_scope.

(** Model of SymmetricCrypto, yacl/crypto/block_cipher/symmetric_crypto.{h,cc}.

    AES-128 and SM4 on one block are arguments.  The modes are OpenSSL's, by their
    specification: a context keeps its chaining block or its place in the key stream
    between calls of EVP_CipherUpdate, and EVP_CipherFinal changes neither (checked
    against libcrypto 3.0.13).  Bytes are numbers 0..255. *)

(** CryptoType, symmetric_crypto.h:40-47: cipher and mode. *)
Inductive cipher := AES128 | SM4.
Inductive mode := ECB | CBC | CTR.

Fixpoint be_bytes (k : nat) (x : Z) : list Z :=
  match k with O => [] | S k' => be_bytes k' (x / 256) ++ [x mod 256] end.
Definition be_value (l : list Z) : Z := fold_left (fun acc b => acc * 256 + b) l 0.
Definition xor_block (a b : list Z) : list Z := map (fun p => Z.lxor (fst p) (snd p)) (combine a b).

(** BlockSize(), symmetric_crypto.h:54; limit, symmetric_crypto.cc:113, 153. *)
Definition kBlock : nat := 16.
Definition kLimit : nat := N.to_nat (2 ^ 31 - 16).

Section Sym.
  Variable E D : cipher -> list Z -> list Z -> list Z.  (* key, block *)

  (** An EVP_CIPHER_CTX: direction, cipher, mode, key and the state between updates. *)
  Record ctx := { encrypting : bool; cip : cipher; cmode : mode; ckey : list Z; civ : list Z;
                  chain : list Z; pos : nat }.

  (** EVP_CipherUpdate; the input is whole blocks for ECB and CBC. *)
  Fixpoint ecb_blocks (f : list Z -> list Z) (n : nat) (inp : list Z) : list Z :=
    match n with O => [] | S n' => f (firstn 16 inp) ++ ecb_blocks f n' (skipn 16 inp) end.
  Fixpoint cbc_enc (f : list Z -> list Z) (n : nat) (inp ch : list Z) : list Z * list Z :=
    match n with
    | O => ([], ch)
    | S n' => let c := f (xor_block (firstn 16 inp) ch) in
              let r := cbc_enc f n' (skipn 16 inp) c in (c ++ fst r, snd r)
    end.
  Fixpoint cbc_dec (f : list Z -> list Z) (n : nat) (inp ch : list Z) : list Z * list Z :=
    match n with
    | O => ([], ch)
    | S n' => let c := firstn 16 inp in
              let r := cbc_dec f n' (skipn 16 inp) c in (xor_block (f c) ch ++ fst r, snd r)
    end.
  (** The key stream of counter mode: the initial counter block is a big endian number. *)
  Definition stream_byte (k : ctx) (i : nat) : Z :=
    nth (i mod 16)%nat (E (cip k) (ckey k) (be_bytes 16 ((be_value (civ k) + Z.of_nat (i / 16)) mod 2 ^ 128))) 0.
  Definition update (k : ctx) (inp : list Z) : ctx * list Z :=
    let n := Nat.div (length inp) 16 in
    match cmode k with
    | ECB => (k, ecb_blocks ((if encrypting k then E else D) (cip k) (ckey k)) n inp)
    | CBC =>
        let r := if encrypting k then cbc_enc (E (cip k) (ckey k)) n inp (chain k)
                 else cbc_dec (D (cip k) (ckey k)) n inp (chain k) in
        ({| encrypting := encrypting k; cip := cip k; cmode := cmode k; ckey := ckey k; civ := civ k;
            chain := snd r; pos := pos k |}, fst r)
    | CTR =>
        ({| encrypting := encrypting k; cip := cip k; cmode := cmode k; ckey := ckey k; civ := civ k;
            chain := chain k; pos := (pos k + length inp)%nat |},
         map (fun p => Z.lxor (fst p) (snd p)) (combine inp (map (stream_byte k) (seq (pos k) (length inp)))))
    end.

  (** SetupEVPCipherCtx, symmetric_crypto.cc:29-58. *)
  Definition setup (c : cipher) (m : mode) (key iv : list Z) (enc : bool) : ctx :=
    {| encrypting := enc; cip := c; cmode := m; ckey := key; civ := iv; chain := iv; pos := 0 |}.

  (** A SymmetricCrypto, symmetric_crypto.h:89-95. *)
  Record sym := { type : cipher * mode; key : list Z; iv : list Z; enc_ctx : ctx; dec_ctx : ctx }.
  (** The constructors, symmetric_crypto.cc:72-93; CopyDataAsUint128 (:62-68) reads 16
      bytes whatever the length of the container. *)
  Definition make (c : cipher) (m : mode) (k v : list Z) : outcome sym :=
    if Nat.leb 16 (length k) && Nat.leb 16 (length v) then
      let k := firstn 16 k in
      let v := firstn 16 v in
      Val {| type := (c, m); key := k; iv := v; enc_ctx := setup c m k v true; dec_ctx := setup c m k v false |}
    else OutOfBounds.
  (** Reset, symmetric_crypto.cc:212-225. *)
  Definition reset (s : sym) : sym :=
    let '(c, m) := type s in
    {| type := type s; key := key s; iv := iv s;
       enc_ctx := setup c m (key s) (iv s) true; dec_ctx := setup c m (key s) (iv s) false |}.

  (** The loops, symmetric_crypto.cc:115-125, 155-165: [limit] bytes at a time. *)
  Fixpoint update_loop (fuel limit : nat) (k : ctx) (inp : list Z) : ctx * list Z :=
    match fuel with
    | O => (k, [])
    | S f =>
        match inp with
        | [] => (k, [])
        | _ =>
            let r := update k (firstn limit inp) in
            let r' := update_loop f limit (fst r) (skipn limit inp) in
            (fst r', snd r ++ snd r')
        end
    end.
  Definition is_ctr (s : sym) : bool := match snd (type s) with CTR => true | _ => false end.
  (** Encrypt, symmetric_crypto.cc:136-174, and Decrypt, :95-134: [out] is the size of the
      caller's output buffer; the object afterwards and the bytes written. *)
  Definition encrypt_lim (limit : nat) (s : sym) (plaintext : list Z) (out : nat) : outcome (sym * list Z) :=
    if negb (is_ctr s) && negb (Nat.eqb (out mod kBlock) 0) then Thrown
    else if Nat.eqb (length plaintext) out then
      let r := update_loop (length plaintext) limit (enc_ctx s) plaintext in
      Val ({| type := type s; key := key s; iv := iv s; enc_ctx := fst r; dec_ctx := dec_ctx s |}, snd r)
    else Thrown.
  Definition decrypt_lim (limit : nat) (s : sym) (ciphertext : list Z) (out : nat) : outcome (sym * list Z) :=
    if negb (is_ctr s) && negb (Nat.eqb (length ciphertext mod kBlock) 0) then Thrown
    else if Nat.eqb out (length ciphertext) then
      let r := update_loop (length ciphertext) limit (dec_ctx s) ciphertext in
      Val ({| type := type s; key := key s; iv := iv s; enc_ctx := enc_ctx s; dec_ctx := fst r |}, snd r)
    else Thrown.
  Definition encrypt (s : sym) (plaintext : list Z) (out : nat) := encrypt_lim kLimit s plaintext out.
  Definition decrypt (s : sym) (ciphertext : list Z) (out : nat) := decrypt_lim kLimit s ciphertext out.

  (** Histories: a list of calls, each with an output buffer of the right size. *)
  Fixpoint encrypts (s : sym) (ps : list (list Z)) : outcome (sym * list (list Z)) :=
    match ps with
    | [] => Val (s, [])
    | p :: ps' =>
        bind (encrypt s p (length p)) (fun r =>
        bind (encrypts (fst r) ps') (fun r' => Val (fst r', snd r :: snd r')))
    end.
  Fixpoint decrypts (s : sym) (cs : list (list Z)) : outcome (sym * list (list Z)) :=
    match cs with
    | [] => Val (s, [])
    | c :: cs' =>
        bind (decrypt s c (length c)) (fun r =>
        bind (decrypts (fst r) cs') (fun r' => Val (fst r', snd r :: snd r')))
    end.
End Sym.
