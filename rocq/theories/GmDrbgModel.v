From Coq Require Import ZArith Bool List Lia.
From Verif Require Import LinCodeModel.
Import ListNotations.
Open Scope Z_scope.

(** Model of the "GM-DRBG" generator, yacl/crypto/rand/drbg/native_factory.{h,cc}
    (Sm4Drbg and NativeDrbg), and of the sizes of the entropy sources it uses
    (crypto/rand/entropy_source/{urandom,rdseed}_factory.cc).

    SM4 on one block and Blake3_128 are arguments.  Bytes are numbers 0..255; a
    uint128_t is a number below 2^128, in memory little endian.  The entropy
    obtained by a call is an argument of the call.  The time stamp
    last_reseed_time is written and never read, and left out. *)

Fixpoint le_of (k : nat) (x : Z) : list Z :=
  match k with O => [] | S k' => x mod 256 :: le_of k' (x / 256) end.
Definition le_to (l : list Z) : Z := fold_right (fun b acc => b + 256 * acc) 0 l.
Definition be32 (x : Z) : list Z :=
  [Z.land (Z.shiftr x 24) 255; Z.land (Z.shiftr x 16) 255; Z.land (Z.shiftr x 8) 255; Z.land x 255].
Definition xor_bytes (a b : list Z) : list Z := map (fun p => Z.lxor (fst p) (snd p)) (combine a b).

(** native_factory.h:49-55. *)
Definition kBlockSize : nat := 16.
Definition kKeySize : nat := 16.
Definition kMinEntropyBits : Z := 256.
Definition kSeedlen : nat := 32.

(** ** Entropy sources: the number of bytes returned by GetEntropy(n) *)
(** urandom_factory.cc:24-46 takes n as a number of bytes; rdseed_factory.cc:42-67
    and :86-104 as bits, on Intel and AMD processors. *)
Inductive source := Urandom | RdseedIntel | RdseedAmd.
Definition entropy_len (s : source) (n : Z) : Z :=
  match s with
  | Urandom => n
  | RdseedIntel => ((n * 5 + 2) / 3 + 7) / 8
  | RdseedAmd => ((n * 10 + 2) / 3 + 7) / 8
  end.

Section Drbg.
  (** SM4 encryption of one block, and Blake3_128. *)
  Variable sm4 : list Z -> list Z -> list Z.
  Variable blake3_128 : list Z -> Z.

  (** EVP_CipherUpdate on a context with this key, for whole blocks (SM4-ECB).
      [outl] says whether the caller passed a pointer for the length: without one
      OpenSSL 3 returns 0 and writes nothing (EVP_EncryptUpdate raises
      ERR_R_PASSED_NULL_PARAMETER; checked against libcrypto 3.0.13). *)
  Fixpoint ecb (key : list Z) (n : nat) (inp : list Z) : list Z :=
    match n with
    | O => []
    | S n' => sm4 key (firstn 16 inp) ++ ecb key n' (skipn 16 inp)
    end.
  Definition evp_update (outl : bool) (key inp : list Z) : option (list Z) :=
    if outl then Some (ecb key (Nat.div (length inp) 16) inp) else None.

  (** The members of Sm4Drbg: the key the context cipher_ctx_ was last initialised
      with, and internal_state_ (native_factory.h:75-82). *)
  Record state := { ctx_key : list Z; key : Z; v : Z; reseed_ctr : Z }.
  Definition reseed_interval : Z := 1024.

  (** cbc_mac, native_factory.cc:213-246 (whole blocks). *)
  Fixpoint mac_loop (k : list Z) (n : nat) (data chain : list Z) : list Z :=
    match n with
    | O => chain
    | S n' => mac_loop k n' (skipn kBlockSize data) (sm4 k (xor_bytes (firstn kBlockSize data) chain))
    end.
  Definition cbc_mac (k : list Z) (data : list Z) : list Z :=
    mac_loop k (Nat.div (length data) kBlockSize) data (repeat 0 kBlockSize).

  (** derive, native_factory.cc:126-211, with out_len = kSeedlen (the only value used).
      Result: the new key of cipher_ctx_ and the bytes returned.
      - The byte 0x80 is stored at offset 8 + kSeedlen of s whatever the size of buf
        (:151-152), outside s if buf has fewer than kSeedlen bytes.
      - The last loop (:202-207) calls EVP_CipherUpdate without a length pointer and
        does not look at the result. *)
  Definition set_byte (l : list Z) (i : nat) (b : Z) : list Z := firstn i l ++ b :: skipn (S i) l.
  Definition resize (l : list Z) (n : nat) : list Z := firstn n l ++ repeat 0 (n - length l).
  Definition derive_key : list Z := le_of 16 (Z.shiftl 0x0001020304050607 64 + 0x08090A0B0C0D0E0F).
  Fixpoint temp_loop (fuel : nat) (i : Z) (s temp : list Z) : list Z :=
    match fuel with
    | O => temp
    | S f => if Nat.ltb (length temp) (kKeySize + kSeedlen)
             then temp_loop f (i + 1) s (temp ++ cbc_mac derive_key ((be32 i ++ repeat 0 (kSeedlen - 4)) ++ s))
             else temp
    end.
  Fixpoint out_loop (fuel : nat) (k x ret : list Z) : list Z :=
    match fuel with
    | O => ret
    | S f => if Nat.ltb (length ret) kSeedlen
             then let cipher := repeat 0 kBlockSize in
                  let cipher' := match evp_update false k x with Some o => o | None => cipher end in
                  out_loop f k x (ret ++ cipher')
             else ret
    end.
  Definition derive (buf : list Z) : outcome (list Z * list Z) :=
    let s0 := be32 (Z.of_nat (length buf)) ++ be32 (Z.of_nat kSeedlen) ++ buf ++ [0] in
    if Nat.ltb (8 + kSeedlen) (length s0) then
      let s := resize (set_byte s0 (8 + kSeedlen) 0x80) kSeedlen in
      (* every cbc_mac has 16 bytes: three rounds give 48 *)
      let temp := temp_loop 3 0 s [] in
      let k := firstn kKeySize temp in
      let x := firstn kSeedlen (skipn kKeySize temp) in
      let ret := out_loop 2 k x [] in
      if Nat.leb kSeedlen (length ret) then Val (k, firstn kSeedlen ret) else Thrown
    else OutOfBounds.

  (** rng_update, native_factory.cc:96-124: encrypts v and v + 1 under the key and
      adds the seed; afterwards the context still holds the old key. *)
  Definition rng_update (seed : list Z) (st : state) : outcome state :=
    let k := le_of 16 (key st) in
    let temp := sm4 k (le_of 16 (v st)) ++ sm4 k (le_of 16 ((v st + 1) mod 2 ^ 128)) in
    if Nat.leb kSeedlen (length seed) then
      let t := xor_bytes temp (firstn kSeedlen seed) in
      Val {| ctx_key := k; key := le_to (firstn 16 t); v := le_to (firstn 16 (skipn 16 t));
             reseed_ctr := reseed_ctr st |}
    else OutOfBounds.

  (** Instantiate, native_factory.cc:64-94; entropy is what GetEntropy(kMinEntropyBits)
      returned. *)
  Definition xor128 (buf : list Z) (off : nat) (x : Z) : list Z :=
    firstn off buf ++ xor_bytes (firstn 16 (skipn off buf)) (le_of 16 x) ++ skipn (off + 16) buf.
  Definition instantiate (entropy nonce personal : list Z) : outcome state :=
    if Nat.leb 32 (length entropy) then
      let buf := xor128 (xor128 entropy 0 (blake3_128 nonce)) 16 (blake3_128 personal) in
      bind (derive buf) (fun d =>
      bind (rng_update (snd d) {| ctx_key := fst d; key := 0; v := 0; reseed_ctr := 1 |}) (fun st =>
      Val {| ctx_key := ctx_key st; key := key st; v := v st; reseed_ctr := 1 |}))
    else OutOfBounds.

  (** ReSeed, native_factory.cc:248-270.  The state is returned with the outcome: what
      was changed before an exception stays changed.
      - :259-261 the buffer is grown first and the additional input then copied
        behind its new end;
      - :264 the size of the buffer is compared with kSeedlen after deriving. *)
  Definition reseed (entropy additional : list Z) (st : state) : state * outcome unit :=
    match additional with
    | _ :: _ => (st, OutOfBounds)
    | [] =>
        match derive entropy with
        | Val (ck, d) =>
            let st' := {| ctx_key := ck; key := key st; v := v st; reseed_ctr := reseed_ctr st |} in
            if Nat.eqb (length entropy) kSeedlen then
              match rng_update d st' with
              | Val st'' => ({| ctx_key := ctx_key st''; key := key st''; v := v st''; reseed_ctr := 1 |}, Val tt)
              | _ => (st', OutOfBounds)
              end
            else (st', Thrown)
        | Thrown => (st, Thrown) | OutOfBounds => (st, OutOfBounds) | Hangs => (st, Hangs)
        end
    end.

  (** Generate, native_factory.cc:272-308. *)
  Definition generate (len : Z) (entropy additional : list Z) (st : state) : state * outcome (list Z) :=
    if len <=? Z.of_nat kBlockSize then
      let '(st1, o1) := if reseed_interval <? reseed_ctr st then reseed entropy additional st else (st, Val tt) in
      match o1 with
      | Val _ =>
          let o2 := match additional with
                    | [] => Val st1
                    | _ => bind (derive additional) (fun d => rng_update (snd d) st1)
                    end in
          match o2 with
          | Val st2 =>
              let st3 := {| ctx_key := ctx_key st2; key := key st2; v := (v st2 + 1) mod 2 ^ 128;
                            reseed_ctr := reseed_ctr st2 + 1 |} in
              match evp_update true (ctx_key st3) (le_of 16 (v st3)) with
              | None => (st3, Thrown)
              | Some enc =>
                  match rng_update (match additional with [] => repeat 0 kSeedlen | _ => additional end) st3 with
                  | Val st4 => (st4, Val (firstn (Z.to_nat len) enc))
                  | Thrown => (st3, Thrown) | OutOfBounds => (st3, OutOfBounds) | Hangs => (st3, Hangs)
                  end
              end
          | Thrown => (st1, Thrown) | OutOfBounds => (st1, OutOfBounds) | Hangs => (st1, Hangs)
          end
      | Thrown => (st1, Thrown) | OutOfBounds => (st1, OutOfBounds) | Hangs => (st1, Hangs)
      end
    else (st, Thrown).

  (** ** NativeDrbg *)
  (** The constructor, native_factory.cc:37-44: a nonce of GetEntropy(32) bytes and no
      personal string. *)
  Definition native_new (entropy nonce : list Z) : outcome state := instantiate entropy nonce [].
  (** Fill, native_factory.cc:46-50; the entropy is used if a reseed is due. *)
  Definition fill (len : Z) (entropy : list Z) (st : state) : state * outcome (list Z) :=
    generate len entropy [] st.
  (** ReSeed, native_factory.cc:52. *)
  Definition native_reseed (entropy : list Z) (st : state) : state * outcome unit := reseed entropy [] st.

  (** A history of Fill calls: the lengths asked for and the entropy available at each call. *)
  Fixpoint fills (calls : list (Z * list Z)) (st : state) : list (outcome (list Z)) * state :=
    match calls with
    | [] => ([], st)
    | (len, e) :: cs =>
        let '(st', o) := fill len e st in
        let '(os, st'') := fills cs st' in (o :: os, st'')
    end.
  Definition session (entropy nonce : list Z) (calls : list (Z * list Z)) : outcome (list (outcome (list Z))) :=
    bind (native_new entropy nonce) (fun st => Val (fst (fills calls st))).
End Drbg.
