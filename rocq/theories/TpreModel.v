(** Model of threshold proxy re-encryption:
    yacl/crypto/experimental/tpre/{hash,kdf,keys,capsule,tpre}.cc and the
    authenticated cipher it uses, yacl/crypto/aead/sm4_mte.cc.

    The elliptic curve (yacl/crypto/ecc/ecc_spi.h) is the group record of
    VssModel with its order and point serialisation.  SM3, HMAC-SM3, the SM4
    counter-mode key stream and MPInt::ToString are arguments.  Bytes are
    integers 0..255.  A thrown exception is [Thrown], a read past the end of a
    vector [OutOfBounds].  Random draws are read from explicit tapes. *)
From Coq Require Import ZArith List Bool.
From Verif Require Import ZpLib VssModel LinCodeModel.
Import ListNotations.
Open Scope Z_scope.

Record prims := {
  grp : group;
  order : Z;                                  (* GetOrder *)
  ser : point grp -> list Z;                  (* SerializePoint *)
  sm3 : list Z -> list Z;                     (* Sm3, Sm3Hash *)
  hmac : list Z -> list Z -> list Z;          (* HmacSm3(key), message *)
  keystream : list Z -> list Z -> nat -> list Z; (* SM4-CTR key, iv, length *)
  to_string : Z -> list Z                     (* MPInt::ToString *)
}.

(** MPInt::FromMagBytes with the default endianness, mp_int.h:378-379: native,
    taken to be little endian. *)
Definition from_mag_bytes_le (bs : list Z) : Z := fold_right (fun b acc => b + 256 * acc) 0 bs.

(** CipherHash on bytes, hash.cc:29-46.  The code adds one before reducing
    modulo order - 1. *)
Definition cipher_hash (e : prims) (input : list Z) : Z :=
  let h0 := sm3 e input in
  let h1 := sm3 e h0 in
  add_mod (from_mag_bytes_le (h0 ++ h1)) 1 (order e - 1).
(** CipherHash on points, hash.cc:48-60: the serialisations one after another.
    All serialisations have the same length GetSerializeLength; the uint8_t
    index cannot wrap, the code passes two or three points. *)
Definition cipher_hash_points (e : prims) (ps : list (point (grp e))) : Z :=
  cipher_hash e (concat (map (ser e) ps)).

(** KDF, kdf.cc:21-50.  The counter is four big-endian bytes. *)
Definition kdf_block (e : prims) (z : list Z) (i : nat) : list Z :=
  let c := Z.of_nat i + 1 in
  sm3 e (z ++ [Z.shiftr c 24 mod 256; Z.shiftr c 16 mod 256; Z.shiftr c 8 mod 256; c mod 256]).
Definition kdf (e : prims) (z : list Z) (key_len : nat) : list Z :=
  let index := Nat.div (key_len + 32) 32 in
  concat (map (fun i =>
    let dgst := kdf_block e z i in
    if Nat.eqb i (index - 1)
    then firstn (if Nat.eqb (Nat.modulo key_len 32) 0 then 0 else Nat.modulo key_len 32) dgst
    else firstn 32 dgst) (seq 0 index)).

(** Sm4MteEncrypt, sm4_mte.cc:21-43.  SymmetricCrypto in counter mode xors the
    key stream; a key or iv that is not 16 bytes long is not modelled. *)
Definition xor_bytes (a b : list Z) : list Z := map (fun p => Z.lxor (fst p) (snd p)) (combine a b).
Definition mte_mac (e : prims) (key iv plaintext : list Z) : list Z :=
  hmac e (firstn 16 (sm3 e (iv ++ key))) plaintext.
Definition mte_encrypt (e : prims) (key iv plaintext : list Z) : list Z :=
  let hmac_plaintext := mte_mac e key iv plaintext ++ plaintext in
  xor_bytes hmac_plaintext (keystream e key iv (length hmac_plaintext)).
(** Sm4MteDecrypt, sm4_mte.cc:45-74: the decrypted buffer must be longer than
    the MAC (ENFORCE_GT :51). *)
Fixpoint eq_bytes (a b : list Z) : bool :=
  match a, b with
  | [], [] => true
  | x :: a', y :: b' => Z.eqb x y && eq_bytes a' b'
  | _, _ => false
  end.
Definition mte_decrypt (e : prims) (key iv ciphertext : list Z) : outcome (list Z) :=
  let hmac_plaintext := xor_bytes ciphertext (keystream e key iv (length ciphertext)) in
  if Nat.ltb 32 (length hmac_plaintext) then
    let tag := firstn 32 hmac_plaintext in
    let plaintext := skipn 32 hmac_plaintext in
    if eq_bytes (mte_mac e key iv plaintext) tag then Val plaintext else Thrown
  else Thrown.

(** Keys, keys.h:44-64.  The generator field of PublicKey is never read. *)
Record kfrag (e : prims) := {
  k_id : Z; k_rk : Z; k_XA : point (grp e); k_U : point (grp e);
  k_U1 : point (grp e); k_z1 : Z; k_z2 : Z }.
Arguments k_id {e} _. Arguments k_rk {e} _. Arguments k_XA {e} _. Arguments k_U {e} _.
Arguments k_U1 {e} _. Arguments k_z1 {e} _. Arguments k_z2 {e} _.
(** MulBase *)
Definition mul_base (e : prims) (k : Z) : point (grp e) := g_mul (grp e) (g_base (grp e)) k.
(** Keys::GenerateKeyPair, keys.cc:21-37: the public key of the drawn secret. *)
Definition public_key (e : prims) (x : Z) : point (grp e) := mul_base e x.

(** The evaluation loop, keys.cc:108-117; j runs from 1. *)
Fixpoint rk_loop (n s : Z) (j : nat) (coeffs : list Z) (acc : Z) : Z :=
  match coeffs with
  | [] => acc
  | c :: coeffs' =>
      rk_loop n s (S j) coeffs' (add_mod acc (mul_mod c (s ^ Z.of_nat j mod n) n) n)
  end.
(** The point at which a fragment's polynomial value is taken, keys.cc:101 and
    capsule.cc:116-119: the hash of the two decimal strings. *)
Definition frag_point (e : prims) (id D : Z) : Z := cipher_hash e (to_string e id ++ to_string e D).
(** One turn of the loop keys.cc:90-137. *)
Definition make_kfrag (e : prims) (a : Z) (pkA pkB XA U : point (grp e)) (coeffs : list Z) (D y id : Z) : kfrag e :=
  let n := order e in
  let s_x := frag_point e id D in
  let rk := match coeffs with [] => 0 | c0 :: cs => rk_loop n s_x 1 cs c0 end in
  let U1 := g_mul (grp e) U rk in
  let z1 := cipher_hash e (ser e (mul_base e y) ++ to_string e id ++ ser e pkA ++ ser e pkB ++ ser e U1 ++ ser e XA) in
  let z2 := sub_mod y (mul_mod a z1 n) n in
  {| k_id := id; k_rk := rk; k_XA := XA; k_U := U; k_U1 := U1; k_z1 := z1; k_z2 := z2 |}.
(** The random draws of GenerateReKey. *)
Record rekey_tape := { t_xA : Z; t_f : nat -> Z; t_r0 : Z; t_y : nat -> Z; t_id : nat -> Z }.
(** Keys::GenerateReKey, keys.cc:40-141.  A negative N or t acts like 0. *)
Definition generate_rekey (e : prims) (a : Z) (pkA pkB : point (grp e)) (N t : nat) (tp : rekey_tape) : outcome (list (kfrag e)) :=
  let n := order e in
  let XA := mul_base e (t_xA tp) in
  let d := cipher_hash_points e [XA; pkB; g_mul (grp e) pkB (t_xA tp)] in
  match invert_mod d n with
  | None => Thrown
  | Some d_inv =>
      let coeffs := mul_mod a d_inv n :: map (t_f tp) (seq 1 (t - 1)) in
      let D := cipher_hash_points e [pkA; pkB; g_mul (grp e) pkB a] in
      let U := mul_base e (t_r0 tp) in
      Val (map (fun i => make_kfrag e a pkA pkB XA U coeffs D (t_y tp i) (t_id tp i)) (seq 0 N))
  end.

(** Capsule::CapsuleStruct and CFrag, capsule.h:44-56. *)
Record capsule (e : prims) := { c_E : point (grp e); c_V : point (grp e); c_s : Z }.
Arguments c_E {e} _. Arguments c_V {e} _. Arguments c_s {e} _.
Record cfrag (e : prims) := { f_E1 : point (grp e); f_V1 : point (grp e); f_id : Z; f_XA : point (grp e) }.
Arguments f_E1 {e} _. Arguments f_V1 {e} _. Arguments f_id {e} _. Arguments f_XA {e} _.

(** Capsule::EnCapsulate, capsule.cc:26-47; r and u are the draws. *)
Definition encapsulate (e : prims) (pkA : point (grp e)) (r u : Z) : capsule e * list Z :=
  let n := order e in
  let E := mul_base e r in
  let V := mul_base e u in
  let s := add_mod u (mul_mod r (cipher_hash_points e [E; V]) n) n in
  let K := g_mul (grp e) pkA (add_mod u r n) in
  ({| c_E := E; c_V := V; c_s := s |}, kdf e (ser e K) 16).
(** Capsule::DeCapsulate, capsule.cc:50-60. *)
Definition decapsulate (e : prims) (a : Z) (c : capsule e) : list Z :=
  kdf e (ser e (g_mul (grp e) (g_add (grp e) (c_E c) (c_V c)) a)) 16.
(** Capsule::CheckCapsule, capsule.cc:62-75. *)
Definition check_capsule (e : prims) (c : capsule e) : bool :=
  let hev := cipher_hash_points e [c_E c; c_V c] in
  g_eqb (grp e) (mul_base e (c_s c)) (g_add (grp e) (c_V c) (g_mul (grp e) (c_E c) hev)).
(** Capsule::ReEncapsulate, capsule.cc:80-101. *)
Definition re_encapsulate (e : prims) (k : kfrag e) (c : capsule e) : outcome (cfrag e) :=
  if check_capsule e c then
    Val {| f_E1 := g_mul (grp e) (c_E c) (k_rk k); f_V1 := g_mul (grp e) (c_V c) (k_rk k);
           f_id := k_id k; f_XA := k_XA k |}
  else Thrown.
(** The inner loop of capsule.cc:127-143; j counts, si is S[i]. *)
Fixpoint lambda_loop (n si : Z) (i j : nat) (S_ : list Z) (lam : Z) : outcome Z :=
  match S_ with
  | [] => Val lam
  | sj :: S_' =>
      if Nat.eqb i j then lambda_loop n si i (S j) S_' lam
      else match invert_mod (sub_mod sj si n) n with
           | None => Thrown
           | Some inv => lambda_loop n si i (S j) S_' (mul_mod lam (mul_mod inv sj n) n)
           end
  end.
(** The outer loop, capsule.cc:125-145. *)
Fixpoint lambdas (n : Z) (S_ : list Z) (todo : list nat) : outcome (list Z) :=
  match todo with
  | [] => Val []
  | i :: todo' =>
      bind (lambda_loop n (nth i S_ 0) i 0 S_ 1) (fun l =>
      bind (lambdas n S_ todo') (fun ls => Val (l :: ls)))
  end.
(** Steps 3 of DeCapsulateFrags, capsule.cc:148-156: the first summand, then the
    others added from the left. *)
Definition combine_points (e : prims) (ps : list (point (grp e))) (ls : list Z) : outcome (point (grp e)) :=
  match ps, ls with
  | p0 :: ps', l0 :: ls' =>
      Val (fold_left (fun acc pl => g_add (grp e) acc (g_mul (grp e) (fst pl) (snd pl))) (combine ps' ls')
             (g_mul (grp e) p0 l0))
  | _, _ => OutOfBounds
  end.
(** Capsule::DeCapsulateFrags, capsule.cc:103-169. *)
Definition decapsulate_frags (e : prims) (b : Z) (pkA pkB : point (grp e)) (cfrags : list (cfrag e)) : outcome (list Z) :=
  let n := order e in
  let D := cipher_hash_points e [pkA; pkB; g_mul (grp e) pkA b] in
  let S_ := map (fun c => frag_point e (f_id c) D) cfrags in
  bind (lambdas n S_ (seq 0 (length cfrags))) (fun ls =>
  bind (combine_points e (map f_E1 cfrags) ls) (fun E' =>
  bind (combine_points e (map f_V1 cfrags) ls) (fun V' =>
  match cfrags with
  | [] => OutOfBounds
  | c0 :: _ =>
      let d := cipher_hash_points e [f_XA c0; pkB; g_mul (grp e) (f_XA c0) b] in
      Val (kdf e (ser e (g_mul (grp e) (g_add (grp e) E' V') d)) 16)
  end))).

(** TPRE::Encrypt, Decrypt, ReEncrypt and DecryptFrags, tpre.cc:24-95. *)
Definition tpre_encrypt (e : prims) (pkA : point (grp e)) (iv plaintext : list Z) (r u : Z) : capsule e * list Z :=
  let '(c, K) := encapsulate e pkA r u in (c, mte_encrypt e K iv plaintext).
Definition tpre_decrypt (e : prims) (c : capsule e) (iv enc_data : list Z) (a : Z) : outcome (list Z) :=
  mte_decrypt e (decapsulate e a c) iv enc_data.
Definition tpre_reencrypt (e : prims) (k : kfrag e) (ct : capsule e * list Z) : outcome (cfrag e * list Z) :=
  bind (re_encapsulate e k (fst ct)) (fun f => Val (f, snd ct)).
Definition tpre_decrypt_frags (e : prims) (b : Z) (pkA pkB : point (grp e)) (iv : list Z)
    (cs : list (cfrag e) * list Z) : outcome (list Z) :=
  bind (decapsulate_frags e b pkA pkB (fst cs)) (fun dek => mte_decrypt e dek iv (snd cs)).
