(** Model of the verifiable secret sharing scheme:
    yacl/crypto/experimental/vss/poly.cc and yacl/crypto/experimental/vss/vss.cc.

    MPInt values are integers Z; AddMod, SubMod and MulMod
    (yacl/math/mpint/mp_int.cc:612-657, mp_addmod, mp_submod, mp_mulmod of
    libtommath) return the non-negative remainder for a positive modulus, as
    Z.modulo does.  A thrown exception is None.  Random draws are read from
    explicit tapes. *)
From Coq Require Import ZArith List Bool.
From Verif Require Import ZpLib.
Import ListNotations.
Open Scope Z_scope.

Definition add_mod (a b m : Z) : Z := (a + b) mod m.
Definition sub_mod (a b m : Z) : Z := (a - b) mod m.
Definition mul_mod (a b m : Z) : Z := (a * b) mod m.

(** Polynomial::CreatePolynomial, poly.cc:27-50: constant term zero_value, the
    other threshold - 1 coefficients drawn (tape rnd).  For threshold 0 the
    code writes coefficients[0] of an empty vector: None. *)
Definition create_polynomial (zero_value : Z) (threshold : nat) (rnd : nat -> Z) : option (list Z) :=
  match threshold with
  | O => None
  | S t => Some (zero_value :: map rnd (seq 1 t))
  end.

(** Polynomial::EvaluatePolynomial, poly.cc:53-74: Horner from the last
    coefficient down; throws on an empty coefficient vector.  A polynomial with
    one coefficient is returned without reduction, as in the code. *)
Definition evaluate_polynomial (modulus : Z) (coeffs : list Z) (x : Z) : option Z :=
  match rev coeffs with
  | [] => None
  | top :: rest =>
      Some (fold_left (fun tmp c => add_mod (mul_mod x tmp modulus) c modulus) rest top)
  end.

(** The loop of Polynomial::LagrangeComputeAtX, poly.cc:106-121; j is the loop
    counter, xi is xs[index]. *)
Fixpoint lagrange_loop (xs : list Z) (j index : nat) (xi target_x modulus num denum : Z) : Z * Z :=
  match xs with
  | [] => (num, denum)
  | xj :: xs' =>
      if Nat.eqb j index then lagrange_loop xs' (S j) index xi target_x modulus num denum
      else lagrange_loop xs' (S j) index xi target_x modulus
             (mul_mod num (sub_mod xj target_x modulus) modulus)
             (mul_mod denum (sub_mod xj xi modulus) modulus)
  end.
(** Polynomial::LagrangeComputeAtX, poly.cc:100-126. *)
Definition lagrange_compute_at_x (xs : list Z) (index : nat) (y target_x modulus : Z) : option Z :=
  if Nat.ltb index (length xs) then
    let '(num, denum) := lagrange_loop xs 0 index (nth index xs 0) target_x modulus 1 1 in
    match invert_mod denum modulus with
    | None => None
    | Some denum_inv => Some (mul_mod (mul_mod y num modulus) denum_inv modulus)
    end
  else None.

(** Polynomial::LagrangeInterpolation (static), poly.cc:83-98. *)
Fixpoint interpolation_loop (xs ys : list Z) (target_x modulus : Z) (todo : list nat) (acc : Z) : option Z :=
  match todo with
  | [] => Some acc
  | i :: todo' =>
      match lagrange_compute_at_x xs i (nth i ys 0) target_x modulus with
      | None => None
      | Some t => interpolation_loop xs ys target_x modulus todo' (add_mod t acc modulus)
      end
  end.
Definition lagrange_interpolation (xs ys : list Z) (target_x modulus : Z) : option Z :=
  if Nat.eqb (length xs) (length ys)
  then interpolation_loop xs ys target_x modulus (seq 0 (length xs)) 0
  else None.

(** VerifiableSecretSharing::Share, vss.h:91-94: (x, y). *)
Notation share := (Z * Z)%type (only parsing).

(** The share loop of CreateShare and CreateShareWithCommits, vss.cc:38-49 and
    69-76; xs is the tape of the drawn x-coordinates. *)
Fixpoint make_shares (modulus : Z) (coeffs : list Z) (xs : list Z) : option (list share) :=
  match xs with
  | [] => Some []
  | x :: xs' =>
      match evaluate_polynomial modulus coeffs x, make_shares modulus coeffs xs' with
      | Some y, Some r => Some ((x, y) :: r)
      | _, _ => None
      end
  end.
(** VerifiableSecretSharing (constructor), vss.h:77-80, followed by
    CreateShare, vss.cc:21-51; modulus is the modulus of the Polynomial
    argument.  The x tape has one entry per share. *)
Definition create_share (total threshold : nat) (secret : Z) (modulus : Z)
    (rnd : nat -> Z) (xs : nat -> Z) : option (list share) :=
  if Nat.ltb total threshold then None
  else match create_polynomial secret threshold rnd with
       | None => None
       | Some c => make_shares modulus c (map xs (seq 0 total))
       end.

(** VerifiableSecretSharing::RecoverSecret, vss.cc:86-105: uses the first
    threshold shares. *)
Definition recover_secret (threshold : nat) (prime : Z) (shares : list share) : option Z :=
  if Nat.ltb (length shares) threshold then None
  else let used := firstn threshold shares in
       lagrange_interpolation (map fst used) (map snd used) 0 prime.

(** The elliptic-curve group interface used by the commitments
    (yacl/crypto/ecc/group_sketch.h: Add, Mul, MulBase, PointEqual). *)
Record group := {
  point : Type;
  g_add : point -> point -> point;
  g_mul : point -> Z -> point;
  g_base : point;
  g_eqb : point -> point -> bool
}.
(** CreateCommits, vss.cc:109-119. *)
Definition create_commits (g : group) (coeffs : list Z) : list (point g) :=
  map (g_mul g (g_base g)) coeffs.
(** The loop of VerifyCommits, vss.cc:133-138. *)
Fixpoint verify_loop (g : group) (x prime : Z) (commits : list (point g)) (x_pow_i : Z) (gy : point g) : point g :=
  match commits with
  | [] => gy
  | c :: commits' =>
      let x_pow := mul_mod x_pow_i x prime in
      verify_loop g x prime commits' x_pow (g_add g gy (g_mul g c x_pow))
  end.
(** VerifyCommits, vss.cc:122-142; commits[0] of an empty vector is undefined:
    None. *)
Definition verify_commits (g : group) (s : share) (commits : list (point g)) (prime : Z) : option bool :=
  match commits with
  | [] => None
  | c0 :: commits' =>
      Some (g_eqb g (g_mul g (g_base g) (snd s)) (verify_loop g (fst s) prime commits' 1 c0))
  end.
