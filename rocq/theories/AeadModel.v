(** Model of the authenticated ciphers, yacl/crypto/aead/{all_gcm,sm4_mte,aead}.cc, and of
    the digital envelopes, yacl/crypto/envelope/digital_envelope.cc.

    OpenSSL's GCM is two arguments: [gcm_crypt], what encrypting or decrypting a buffer
    writes, and [gcm_tag], the tag of additional data and ciphertext.  SM3, HMAC-SM3, the
    block ciphers of SymModel and the public key ciphers are arguments as well.  Buffers
    are byte lists, a caller's output buffer is passed with its old contents.  Thrown
    exceptions are [Thrown], accesses beyond a buffer [OutOfBounds]. *)
From Coq Require Import ZArith Bool Arith List.
From Verif Require Import LinCodeModel SymModel.
Import ListNotations.
Open Scope Z_scope.

(** all_gcm.h:44-50; SM4_GCM exists with YACL_WITH_TONGSUO only. *)
Inductive schema := AES128_GCM | AES256_GCM | SM4_GCM.
(** EVP_CIPHER_key_length, EVP_CIPHER_iv_length, and the tag sizes of all_gcm.h:33-42. *)
Definition gcm_key_size (s : schema) : nat := match s with AES256_GCM => 32 | _ => 16 end.
Definition gcm_iv_size : nat := 12.
Definition gcm_mac_size (s : schema) : nat := 16.

(** The lengths given to EVP_EncryptUpdate and EVP_DecryptUpdate are [int]s: a size_t
    converted to int (all_gcm.cc:61-66, 100-105). *)
Definition int_of (n : nat) : Z :=
  let m := Z.of_nat n mod 2 ^ 32 in if m <? 2 ^ 31 then m else m - 2 ^ 32.
(** The bytes the update sees. *)
Definition seen (l : list Z) : list Z := firstn (Z.to_nat (int_of (length l))) l.
Definition bytes_eqb (a b : list Z) : bool := if list_eq_dec Z.eq_dec a b then true else false.

Section Aead.
  Variable gcm_crypt : schema -> list Z -> list Z -> list Z -> list Z.
  Variable gcm_tag : schema -> list Z -> list Z -> list Z -> list Z -> list Z.
  Variable E D : cipher -> list Z -> list Z -> list Z.
  Variable sm3 : list Z -> list Z.
  Variable hmac : list Z -> list Z -> list Z.

  (** GcmCrypto::Encrypt, all_gcm.cc:40-77.  The size of [mac] is not checked (:44).  A
      negative length has no defined meaning for EVP_EncryptUpdate (it is converted to
      size_t again inside OpenSSL): [OutOfBounds].  The comparison of the output length
      with (int)size (:63, :67) always holds.  Result: the two buffers afterwards. *)
  Definition gcm_encrypt (s : schema) (key iv plaintext aad ciphertext mac : list Z) : outcome (list Z * list Z) :=
    if negb (Nat.eqb (length ciphertext) (length plaintext)) then Thrown
    else if negb (Nat.eqb (length key) (gcm_key_size s)) then Thrown
    else if negb (Nat.eqb (length iv) gcm_iv_size) then Thrown
    else if int_of (length aad) <? 0 then OutOfBounds
    else if int_of (length plaintext) <? 0 then OutOfBounds
    else
      let c := gcm_crypt s key iv (seen plaintext) in
      let tag := gcm_tag s key iv (seen aad) c in
      if Nat.leb (gcm_mac_size s) (length mac)
      then Val (c ++ skipn (length (seen plaintext)) ciphertext, tag ++ skipn (gcm_mac_size s) mac)
      else OutOfBounds.

  (** GcmCrypto::Decrypt, all_gcm.cc:79-116: the plaintext buffer afterwards, also when an
      exception is thrown, and the outcome. *)
  Definition gcm_decrypt (s : schema) (key iv ciphertext aad mac plaintext : list Z) : list Z * outcome unit :=
    if negb (Nat.eqb (length ciphertext) (length plaintext)) then (plaintext, Thrown)
    else if negb (Nat.eqb (length key) (gcm_key_size s)) then (plaintext, Thrown)
    else if negb (Nat.eqb (length iv) gcm_iv_size) then (plaintext, Thrown)
    else if int_of (length aad) <? 0 then (plaintext, OutOfBounds)
    else if int_of (length ciphertext) <? 0 then (plaintext, OutOfBounds)
    else
      let p := gcm_crypt s key iv (seen ciphertext) ++ skipn (length (seen ciphertext)) plaintext in
      if Nat.leb (gcm_mac_size s) (length mac)
      then (p, if bytes_eqb (gcm_tag s key iv (seen aad) (seen ciphertext)) (firstn (gcm_mac_size s) mac)
               then Val tt else Thrown)
      else (p, OutOfBounds).

  (** kSm4MteMacCipherSize, kSm4MteKeySize, sm4_mte.h:32-33. *)
  Definition kMacCipherSize : nat := 32.
  Definition kMteKeySize : nat := 16.
  Definition mte_mac (key iv plaintext : list Z) : list Z := hmac (firstn kMteKeySize (sm3 (iv ++ key))) plaintext.
  (** Sm4MteEncrypt, sm4_mte.cc:21-43. *)
  Definition mte_encrypt (key iv plaintext : list Z) : outcome (list Z) :=
    let hmac_plaintext := mte_mac key iv plaintext ++ plaintext in
    bind (make SM4 CTR key iv) (fun o =>
    bind (encrypt E D o hmac_plaintext (length hmac_plaintext)) (fun r => Val (snd r))).
  (** Sm4MteDecrypt, sm4_mte.cc:45-74. *)
  Definition mte_decrypt (key iv ciphertext : list Z) : outcome (list Z) :=
    bind (make SM4 CTR key iv) (fun o =>
    bind (decrypt E D o ciphertext (length ciphertext)) (fun r =>
    let hmac_plaintext := snd r in
    if Nat.ltb kMacCipherSize (length hmac_plaintext) then
      let plaintext := skipn kMacCipherSize hmac_plaintext in
      if bytes_eqb (mte_mac key iv plaintext) (firstn kMacCipherSize hmac_plaintext) then Val plaintext else Thrown
    else Thrown)).

  (** ** AeadCtx *)
  (** aead.h:35-43. *)
  Inductive algorithm := UNKNOWN | Gcm (s : schema) | SM4_MTE_HMAC_SM3.
  (** GetKeySize, aead.cc:22-39. *)
  Definition get_key_size (a : algorithm) : outcome nat :=
    match a with UNKNOWN => Thrown | Gcm s => Val (gcm_key_size s) | SM4_MTE_HMAC_SM3 => Val kMteKeySize end.
  (** GetMacSize, aead.cc:41-58: the code returns the key sizes of the GCM schemas. *)
  Definition get_mac_size (a : algorithm) : outcome nat :=
    match a with UNKNOWN => Thrown | Gcm s => Val (gcm_key_size s) | SM4_MTE_HMAC_SM3 => Val kMacCipherSize end.
  (** Encrypt, aead.cc:83-120 (the member function, :63-67, passes its algorithm on). *)
  Definition aead_encrypt (a : algorithm) (plaintext key iv ciphertext mac aad : list Z) : outcome (list Z * list Z) :=
    match a with
    | UNKNOWN => Thrown
    | Gcm s => gcm_encrypt s key iv plaintext aad ciphertext mac
    | SM4_MTE_HMAC_SM3 =>
        bind (mte_encrypt key iv plaintext) (fun c =>
        if Nat.eqb (length c) (length ciphertext) then Val (c, mac) else Thrown)
    end.
  (** Decrypt, aead.cc:126-161: the plaintext buffer afterwards and the outcome. *)
  Definition aead_decrypt (a : algorithm) (ciphertext mac key iv plaintext aad : list Z) : list Z * outcome unit :=
    match a with
    | UNKNOWN => (plaintext, Thrown)
    | Gcm s => gcm_decrypt s key iv ciphertext aad mac plaintext
    | SM4_MTE_HMAC_SM3 =>
        match mte_decrypt key iv ciphertext with
        | Val p => if Nat.eqb (length p) (length plaintext) then (p, Val tt) else (plaintext, Thrown)
        | Thrown => (plaintext, Thrown) | OutOfBounds => (plaintext, OutOfBounds) | Hangs => (plaintext, Hangs)
        end
    end.

  (** ** Digital envelopes *)
  (** The public key ciphers: RsaEncryptor, Sm2Encryptor (with their randomness) and
      RsaDecryptor, Sm2Decryptor. *)
  Variable pk_encrypt : list Z -> list Z -> list Z -> outcome (list Z).
  Variable pk_decrypt : list Z -> list Z -> outcome (list Z).

  (** SmEnvSeal, digital_envelope.cc:21-32; [k] is SecureRandBytes(16). *)
  Definition sm_env_seal (pub iv plaintext k r : list Z) : outcome (list Z * list Z) :=
    bind (mte_encrypt k iv plaintext) (fun c =>
    bind (pk_encrypt pub r k) (fun ek => Val (ek, c))).
  (** SmEnvOpen, digital_envelope.cc:34-40. *)
  Definition sm_env_open (pri iv encrypted_key ciphertext : list Z) : outcome (list Z) :=
    bind (pk_decrypt pri encrypted_key) (fun k => mte_decrypt k iv ciphertext).
  (** RsaEnvSeal, digital_envelope.cc:42-54: resizing the caller's vectors keeps the old
      bytes, all of which are overwritten. *)
  Definition resize (l : list Z) (n : nat) : list Z := firstn n l ++ repeat 0 (n - length l).
  Definition rsa_env_seal (pub iv plaintext k r ct_old mac_old : list Z) : outcome (list Z * list Z * list Z) :=
    bind (gcm_encrypt AES128_GCM k iv plaintext [] (resize ct_old (length plaintext)) (resize mac_old 16)) (fun cm =>
    bind (pk_encrypt pub r k) (fun ek => Val (ek, fst cm, snd cm))).
  (** RsaEnvOpen, digital_envelope.cc:56-64: the caller's vector afterwards and the outcome. *)
  Definition rsa_env_open (pri iv encrypted_key ciphertext mac pt_old : list Z) : list Z * outcome unit :=
    match pk_decrypt pri encrypted_key with
    | Val k => gcm_decrypt AES128_GCM k iv ciphertext [] mac (resize pt_old (length ciphertext))
    | Thrown => (pt_old, Thrown) | OutOfBounds => (pt_old, OutOfBounds) | Hangs => (pt_old, Hangs)
    end.
End Aead.
