(* The OpenSSL groups: writing and reading points, hashing to the curve.
   yacl/crypto/ecc/openssl/openssl_group.cc.

   A point is infinity or its affine coordinates.  EC_POINT_point2oct and
   EC_POINT_oct2point are written out from the X9.62 format; recovering y from x
   is an argument, as are the hash functions.  Not modelled: the group
   operations, which are single library calls, HashToScalar, HashPoint. *)
From Coq Require Import ZArith List Bool.
From Verif Require Import LinCodeModel.
Import ListNotations.
Local Open Scope Z_scope.

Definition bytes := list Z.
Inductive point := Inf | Aff (x y : Z).

Inductive format := Compressed | Uncompressed | Hybrid.
(* PointOctetFormat; 205-216, 233-244, 258-269: the switch on it. *)
Inductive octet_format := Autonomous | X962Compressed | X962Uncompressed | X962Hybrid | OtherFormat.
Definition form_of (f : octet_format) : format :=
  match f with
  | X962Uncompressed => Uncompressed
  | X962Hybrid => Hybrid
  | _ => Compressed
  end.

(* Big-endian bytes. *)
Fixpoint le_bytes (n : nat) (x : Z) : bytes :=
  match n with O => [] | S n' => x mod 256 :: le_bytes n' (x / 256) end.
Fixpoint le_value (b : bytes) : Z :=
  match b with [] => 0 | x :: r => x + 256 * le_value r end.
Definition be_bytes (n : nat) (x : Z) : bytes := rev (le_bytes n x).
Definition be_value (b : bytes) : Z := le_value (rev b).

Section Curve.
(* The field prime, its size in bytes, the curve equation. *)
Variable p : Z.
Variable flen : nat.
Variable on_curve : Z -> Z -> bool.
(* y from x and the parity of y. *)
Variable lift : Z -> bool -> option Z.
Variable generator : point.

(* EC_POINT_point2oct (OpenSSL, ossl_ec_GFp_simple_point2oct). *)
Definition point2oct (pt : point) (f : format) : bytes :=
  match pt with
  | Inf => [0]
  | Aff x y =>
      let bit := if Z.odd y then 1 else 0 in
      match f with
      | Compressed => (2 + bit) :: be_bytes flen x
      | Uncompressed => 4 :: be_bytes flen x ++ be_bytes flen y
      | Hybrid => (6 + bit) :: be_bytes flen x ++ be_bytes flen y
      end
  end.

(* EC_POINT_oct2point (OpenSSL, ossl_ec_GFp_simple_oct2point). *)
Definition oct2point (buf : bytes) : option point :=
  match buf with
  | [] => None
  | tag :: body =>
      let bit := Z.odd tag in
      let form := if bit then tag - 1 else tag in
      if form =? 0 then
        if bit then None else match body with [] => Some Inf | _ => None end
      else if form =? 2 then
        if Nat.eqb (length body) flen then
          let x := be_value body in
          if x <? p then
            match lift x bit with Some y => Some (Aff x y) | None => None end
          else None
        else None
      else if (form =? 4) || (form =? 6) then
        if (form =? 4) && bit then None
        else if Nat.eqb (length body) (flen + flen) then
          let x := be_value (firstn flen body) in
          let y := be_value (skipn flen body) in
          if (x <? p) && (y <? p) then
            if (form =? 6) && negb (Bool.eqb bit (Z.odd y)) then None
            else if on_curve x y then Some (Aff x y) else None
          else None
        else None
      else None
  end.

(* 204-222, GetSerializeLength: the length of the generator. *)
Definition serialize_length (f : octet_format) : nat :=
  length (point2oct generator (form_of f)).

(* 224-254, SerializePoint into a Buffer. *)
Definition serialize (pt : point) (f : octet_format) : bytes := point2oct pt (form_of f).

(* 256-281, SerializePoint into memory of the caller: the memory afterwards. *)
Definition serialize_raw (pt : point) (f : octet_format) (buf : bytes) : outcome bytes :=
  let oct := point2oct pt (form_of f) in
  if Nat.ltb (length buf) (length oct) then Thrown
  else Val (oct ++ repeat 0 (length buf - length oct)).

(* 283-291, DeserializePoint: the length handed to the library. *)
Definition deserialize (buf : bytes) : outcome point :=
  let n := match buf with
           | b :: _ => if b =? 0 then 1%nat else length buf
           | [] => 1%nat
           end in
  if Nat.ltb (length buf) n then OutOfBounds
  else match oct2point (firstn n buf) with Some q => Val q | None => Thrown end.

(* 293-412, HashToCurve without the SSWU strategies. *)
Inductive strategy := TryRehash_SHA2 | TryRehash_SHA3 | TryRehash_SM | TryRehash_BLAKE3 | StrAutonomous.
Inductive algo := SHAKE128 | SHAKE256 | SM3 | BLAKE3.
Variable bits : Z.
Variable is_sm2 : bool.
(* The library's hash functions; the extendable ones take the output length. *)
Variable hash_xof : algo -> Z -> bytes -> bytes.
Variable hash_sm3 : bytes -> bytes.
(* 30: kHashToCurveCounterGuard, which is 100. *)
Variable guard : nat.

(* 298-324 *)
Definition select (st : strategy) : outcome algo :=
  match st with
  | TryRehash_SHA2 => Thrown
  | TryRehash_SHA3 => if bits <=? 256 then Val SHAKE128 else Val SHAKE256
  | TryRehash_SM => if is_sm2 then Val SM3 else Thrown
  | TryRehash_BLAKE3 | StrAutonomous => Val BLAKE3
  end.

(* 374-383 and 398-407 *)
Definition rehash (a : algo) (b : bytes) : bytes :=
  match a with
  | BLAKE3 => hash_xof BLAKE3 ((bits + 7) / 8) b
  | SHAKE128 | SHAKE256 => hash_xof SHAKE128 ((bits + 7) / 8) b
  | SM3 => hash_sm3 b
  end.

(* 385-411 *)
Fixpoint try (a : algo) (t : nat) (buf : bytes) : outcome point :=
  match t with
  | O => Thrown
  | S t' =>
      let x := be_value buf mod p in
      match lift x false with
      | Some y => Val (Aff x y)
      | None => try a t' (rehash a buf)
      end
  end.

Definition hash_to_curve (st : strategy) (str dst : bytes) : outcome point :=
  bind (select st) (fun a => try a guard (rehash a str)).
End Curve.
