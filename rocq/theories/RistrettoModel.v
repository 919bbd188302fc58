(* The Ristretto255 group over libsodium:
   yacl/crypto/ecc/libsodium/ristretto255_group.cc.

   A point is its 32 bytes.  The library's functions are arguments; a call that
   returns a nonzero status is None.  Not modelled: GetAffinePoint, HashPoint; the
   RFC 9380 functions behind the named strategies are arguments. *)
From Coq Require Import ZArith List Bool.
From Verif Require Import LinCodeModel.
Import ListNotations.
Local Open Scope Z_scope.

Definition bytes := list Z.
Definition zeros : bytes := repeat 0 32.

(* The strategies told apart at 264-279 and 296-302; all others are Other. *)
Inductive strategy := StrRO | StrNU | StrScalar | Other.

(* The library: crypto_core_ristretto255_{add,sub,is_valid_point},
   crypto_scalarmult_ristretto255, and ..._base, whose output is written whatever
   the status. *)
Record library := mkLibrary {
  lib_add : bytes -> bytes -> option bytes;
  lib_sub : bytes -> bytes -> option bytes;
  lib_valid : bytes -> bool;
  lib_mul : Z -> bytes -> option bytes;
  lib_mul_base : Z -> bytes }.

Section Group.
Variable L : library.
(* param_.n *)
Variable order : Z.

(* 195-203, IsInfinity. *)
Definition is_infinity (p : bytes) : bool := forallb (fun b => b =? 0) p.

(* YACL_ENFORCE(ret == 0). *)
Definition enforce (o : option bytes) : outcome bytes :=
  match o with Some r => Val r | None => Thrown end.

(* 73-79, Add; 89-95, Sub; 105, Double. *)
Definition add (p1 p2 : bytes) : outcome bytes := enforce (lib_add L p1 p2).
Definition sub (p1 p2 : bytes) : outcome bytes := enforce (lib_sub L p1 p2).
Definition double (p : bytes) : outcome bytes := add p p.

(* 81-87, 97-103, 107-113: in place, the new value of the point. *)
Definition add_inplace (p1 p2 : bytes) : outcome bytes :=
  match lib_add L p1 p2 with Some t => Val t | None => Thrown end.
Definition sub_inplace (p1 p2 : bytes) : outcome bytes :=
  match lib_sub L p1 p2 with Some t => Val t | None => Thrown end.
Definition double_inplace (p : bytes) : outcome bytes :=
  match lib_add L p p with Some t => Val t | None => Thrown end.

(* 115-122, MulBase; 57-61, MpIntToScalar. *)
Definition mul_base (s : Z) : bytes := lib_mul_base L (s mod order).

(* 124-139, Mul. *)
Definition mul (p : bytes) (s : Z) : bytes :=
  if is_infinity p then zeros
  else match lib_mul L (s mod order) p with Some r => r | None => zeros end.

(* 141-156, MulInplace. *)
Definition mul_inplace (p : bytes) (s : Z) : bytes :=
  if is_infinity p then p
  else match lib_mul L (s mod order) p with None => zeros | Some t => t end.

(* 158-163, MulDoubleBase. *)
Definition mul_double_base (s1 s2 : Z) (p2 : bytes) : outcome bytes :=
  add_inplace (mul_base s1) (mul p2 s2).

(* 165-170, Negate; 172-181, NegateInplace. *)
Definition negate (p : bytes) : outcome bytes :=
  if is_infinity p then Val p else sub zeros p.
Definition negate_inplace (p : bytes) : outcome bytes :=
  if is_infinity p then Val p
  else match lib_sub L zeros p with Some t => Val t | None => Thrown end.

(* 190-193, IsInCurveGroup. *)
Definition in_curve_group (p : bytes) : bool := is_infinity p || lib_valid L p.

(* 205-209, CopyPoint: no check. *)
Definition copy_point (p : bytes) : bytes := p.

(* 220-222, PointEqual. *)
Definition point_equal (p1 p2 : bytes) : bool :=
  if list_eq_dec Z.eq_dec p1 p2 then true else false.

(* 243-249, SerializePoint into a buffer: the buffer afterwards. *)
Definition serialize_into (p : bytes) (buf : bytes) : outcome bytes :=
  if Nat.ltb (length buf) 32 then Thrown else Val (p ++ skipn 32 buf).

(* 251-262, DeserializePoint. *)
Definition deserialize (buf : bytes) : outcome bytes :=
  if Nat.ltb (length buf) 32 then Thrown
  else let p := firstn 32 buf in if in_curve_group p then Val p else Thrown.
End Group.

Section Hash.
Variable sha512 : bytes -> bytes.
Variable from_hash : bytes -> bytes.
Variable scalar_reduce : bytes -> bytes.
Variables rfc_ro rfc_nu : bytes -> bytes -> bytes.
Variable rfc_scalar : bytes -> bytes -> Z.
Variables dst_ro dst_nu dst_scalar : bytes.

(* dst.empty() ? default : dst *)
Definition final_dst (d dst : bytes) : bytes :=
  match dst with [] => d | _ => dst end.

(* 264-294, HashToCurve. *)
Definition hash_to_curve (st : strategy) (str dst : bytes) : bytes :=
  match st with
  | StrRO => rfc_ro str (final_dst dst_ro dst)
  | StrNU => rfc_nu str (final_dst dst_nu dst)
  | _ => from_hash (sha512 (dst ++ str))
  end.

(* Little-endian bytes to an integer. *)
Fixpoint le (b : bytes) : Z := match b with [] => 0 | x :: r => x + 256 * le r end.

(* 296-320, HashToScalar. *)
Definition hash_to_scalar (st : strategy) (str dst : bytes) : Z :=
  match st with
  | StrScalar => rfc_scalar str (final_dst dst_scalar dst)
  | _ => le (scalar_reduce (sha512 (dst ++ str)))
  end.
End Hash.
