(** Model of the oblivious pseudorandom functions:
    yacl/crypto/oprf/{oprf_ctx.h,oprf_ctx.cc,oprf.h,voprf.h}.

    The curve is the group record of VssModel with its order, Sub and point
    serialisation; HashToCurve, HashToScalar and the hash of the cipher suite are
    arguments.  Scalars are integers, bytes are integers 0..255.  An exception is
    [Thrown]; a write past the end of a buffer, or hashing bytes that were never
    written, is [OutOfBounds].  Random scalars are arguments. *)
From Coq Require Import Ascii String.
From Coq Require Import ZArith List Bool Arith.
From Verif Require Import ZpLib VssModel LinCodeModel.
Import ListNotations.
Open Scope Z_scope.

Definition text (s : string) : list Z := map (fun c => Z.of_nat (nat_of_ascii c)) (list_ascii_of_string s).

(** I2OSP, oprf_ctx.h:42-54: the low bytes of a little-endian size_t, reversed. *)
Fixpoint le (k : nat) (x : Z) : list Z := match k with O => [] | S k' => x mod 256 :: le k' (x / 256) end.
Definition i2osp (x : Z) (xlen : nat) : outcome (list Z) :=
  if x <? 256 ^ Z.of_nat xlen then Val (rev (le xlen x)) else Thrown.
Definition size2 (l : list Z) : outcome (list Z) := i2osp (Z.of_nat (length l)) 2.
(** A Buffer of [size] bytes filled by consecutive memcpy's and then hashed. *)
Definition assemble (size : nat) (parts : list (list Z)) : outcome (list Z) :=
  if Nat.eqb (length (concat parts)) size then Val (concat parts) else OutOfBounds.

(** ** OprfConfig, oprf_ctx.h:59-170 *)
Inductive suite := Ristretto255 | Decaf448 | P256 | P384 | P521.
(** CipherSuiteToStr 96-111, CipherSuiteFromStr 80-94. *)
Definition suite_name (c : suite) : list Z :=
  match c with
  | Ristretto255 => text "ristretto255-SHA512" | Decaf448 => text "decaf448-SHAKE256"
  | P256 => text "P256-SHA256" | P384 => text "P384-SHA384" | P521 => text "P521-SHA512"
  end.
Fixpoint eq_bytes (a b : list Z) : bool :=
  match a, b with [], [] => true | x :: a', y :: b' => (x =? y) && eq_bytes a' b' | _, _ => false end.
Definition suite_of (s : list Z) : outcome suite :=
  if eq_bytes s (suite_name Ristretto255) then Val Ristretto255 else
  if eq_bytes s (suite_name Decaf448) then Val Decaf448 else
  if eq_bytes s (suite_name P256) then Val P256 else
  if eq_bytes s (suite_name P384) then Val P384 else
  if eq_bytes s (suite_name P521) then Val P521 else Thrown.
(** ToContextString 151-154; the mode is one raw byte (ModeFromU8 takes any). *)
Definition to_context_string (mode : Z) (c : suite) : list Z := text "OPRFV1-" ++ [mode] ++ text "-" ++ suite_name c.
(** absl::StrSplit at a single character. *)
Fixpoint split (d : Z) (s : list Z) : list (list Z) :=
  match s with
  | [] => [[]]
  | x :: s' =>
      if x =? d then [] :: split d s'
      else match split d s' with p :: r => (x :: p) :: r | [] => [[x]] end
  end.
(** FromContextString 157-165. *)
Definition from_context_string (s : list Z) : outcome (Z * suite) :=
  match split 45 s with
  | [a; [m]; c] => if eq_bytes a (text "OPRFV1") then bind (suite_of c) (fun k => Val (m, k)) else Thrown
  | _ => Thrown
  end.

(** ** OprfCtx, oprf_ctx.h:176-310 *)
Record octx := {
  grp : group;
  order : Z;                                       (* GetOrder *)
  o_sub : point grp -> point grp -> point grp;     (* Sub *)
  o_ser : point grp -> list Z;                     (* SerializePoint *)
  o_h2g : list Z -> list Z -> point grp;           (* HashToCurve(strategy, str, dst) *)
  o_h2s : list Z -> list Z -> Z;                   (* HashToScalar(strategy, str, dst) *)
  o_hash : list Z -> list Z;                       (* SslHash(hash_) *)
  o_str : list Z                                   (* ctx_str_ *)
}.
Section Oprf.
Variable e : octx.
Notation pt := (point (grp e)).
Definition mul (p : pt) (k : Z) : pt := g_mul (grp e) p k.
Definition base : pt := g_base (grp e).
(** HashToGroup 265-284, HashToScalar 286-305. *)
Definition hash_to_group (s : list Z) : pt := o_h2g e s (text "HashToGroup-" ++ o_str e).
Definition hash_to_scalar (s : list Z) : Z := o_h2s e s (text "HashToScalar-" ++ o_str e).
(** GenKeyPair, oprf_ctx.cc:21-26, with the drawn scalar. *)
Definition gen_key_pair (sk : Z) : Z * pt := (sk, mul base sk).
(** DeriveKeyPair 28-62.  The pointer moves on by one in each round of the loop. *)
Fixpoint derive_loop (fuel : nat) (counter : Z) (pos : nat) (buf : list Z) : outcome Z :=
  match fuel with
  | O => Hangs
  | S f =>
      if negb (counter <=? 255) then Thrown else
      bind (i2osp counter 1) (fun c =>
      if negb (Nat.leb (pos + 1) (length buf)) then OutOfBounds else
      let buf' := firstn pos buf ++ c ++ skipn (pos + 1) buf in
      let sk := o_h2s e buf' (text "DeriveKeyPair" ++ o_str e) in
      if sk =? 0 then derive_loop f (counter + 1) (pos + 1) buf' else Val sk)
  end.
Definition derive_key_pair (seed info : list Z) : outcome (Z * pt) :=
  if negb (Z.of_nat (length info) <? 2 ^ 16) then Thrown else
  bind (size2 info) (fun n =>
  let buf := seed ++ n ++ info in
  bind (derive_loop 300 0 (length buf) (buf ++ [0])) (fun sk => Val (sk, mul base sk))).

(** ** OprfServer and OprfClient, oprf.h *)
(** OprfServer::BlindEvaluate 77-83. *)
Definition blind_evaluate (sk : Z) (p : pt) : pt := mul p sk.
Record client := { blind : Z; blind_inv : Z }.
(** The constructors 107-126: MPInt starts at 0. *)
Definition new_client (b : Z) : client := {| blind := b; blind_inv := 0 |}.
(** Blind 138-145. *)
Definition client_blind (c : client) (input : list Z) : pt := mul (hash_to_group input) (blind c).
(** RefreshBlind 191-195 with the drawn scalar; ClearBlind 198-201. *)
Definition refresh_blind (c : client) (r : Z) : client := {| blind := r; blind_inv := blind_inv c |}.
Definition clear_blind (c : client) : client := {| blind := 0; blind_inv := 0 |}.
(** The transcript hashed by Finalize 161-188. *)
Definition finish (point_buf priv : list Z) : outcome (list Z) :=
  if negb (Z.of_nat (length priv) <=? 2 ^ 16) then Thrown else
  bind (size2 priv) (fun n1 =>
  if negb (Z.of_nat (length point_buf) <=? 2 ^ 16) then Thrown else
  bind (size2 point_buf) (fun n2 =>
  bind (assemble (2 + length priv + 2 + length point_buf + length (text "Finalize")) [n1; priv; n2; point_buf; text "Finalize"]) (fun b =>
  Val (o_hash e b)))).
(** Finalize 147-189: the client afterwards and the result. *)
Definition finalize (c : client) (evaluated : pt) (priv : list Z) : client * outcome (list Z) :=
  match (if blind_inv c =? 0 then invert_mod (blind c) (order e) else Some (blind_inv c)) with
  | None => (c, Thrown)
  | Some i => ({| blind := blind c; blind_inv := i |}, finish (o_ser e (mul evaluated i)) priv)
  end.

(** ** VOprfServer and VOprfClient, voprf.h *)
(** The seed of the composites 96-114, 338-356. *)
Definition composite_seed (pk : pt) : outcome (list Z) :=
  let bm := o_ser e pk in
  let dst := text "Seed-" ++ o_str e in
  bind (size2 bm) (fun n1 => bind (size2 dst) (fun n2 =>
  bind (assemble (2 + length bm + 2 + length dst) [n1; bm; n2; dst]) (fun b => Val (o_hash e b)))).
(** One round of the loops 122-153, 366-397: the scalar of element i. *)
Definition composite_scalar (seed : list Z) (i : nat) (c d : pt) : outcome Z :=
  let ci := o_ser e c in
  let di := o_ser e d in
  bind (size2 seed) (fun n0 => bind (i2osp (Z.of_nat i) 2) (fun ib => bind (size2 ci) (fun n1 => bind (size2 di) (fun n2 =>
  bind (assemble (2 + length seed + 2 + 2 + length ci + 2 + length di + length (text "Composite"))
         [n0; seed; ib; n1; ci; n2; di; text "Composite"]) (fun b =>
  Val (hash_to_scalar b)))))).
Fixpoint composite_loop (seed : list Z) (i : nat) (cs ds : list pt) (m z : pt) : outcome (pt * pt) :=
  match cs, ds with
  | c :: cs', d :: ds' =>
      bind (composite_scalar seed i c d) (fun k =>
      composite_loop seed (S i) cs' ds' (g_add (grp e) m (mul c k)) (g_add (grp e) z (mul d k)))
  | _, _ => Val (m, z)
  end.
(** ComputeComposites 326-404.  An int counts the elements; fewer than 2^31. *)
Definition composites (pk : pt) (cs ds : list pt) : outcome (pt * pt) :=
  if negb (Nat.eqb (length cs) (length ds)) then Thrown else
  bind (composite_seed pk) (fun seed =>
  let zero := o_sub e base base in
  composite_loop seed 0 cs ds zero zero).
(** ComputeCompositesFast 84-159: the second point is the key times the first. *)
Definition composites_fast (sk : Z) (pk : pt) (cs ds : list pt) : outcome (pt * pt) :=
  bind (composites pk cs ds) (fun mz => Val (fst mz, mul (fst mz) sk)).
(** The challenge 182-226, 422-466. *)
Definition challenge (pk m z t2 t3 : pt) : outcome Z :=
  let bm := o_ser e pk in let a0 := o_ser e m in let a1 := o_ser e z in let a2 := o_ser e t2 in let a3 := o_ser e t3 in
  bind (size2 bm) (fun n => bind (size2 a0) (fun n0 => bind (size2 a1) (fun n1 => bind (size2 a2) (fun n2 => bind (size2 a3) (fun n3 =>
  bind (assemble (2 + length bm + 2 + length a0 + 2 + length a1 + 2 + length a2 + 2 + length a3 + length (text "Challenge"))
         [n; bm; n0; a0; n1; a1; n2; a2; n3; a3; text "Challenge"]) (fun b =>
  Val (hash_to_scalar b))))))).
Record proof := { p_c : Z; p_s : Z }.
(** GenerateProof 161-232; [draw] is used if [randomness] is zero. *)
Definition generate_proof (sk : Z) (pk : pt) (cs ds : list pt) (randomness draw : Z) : outcome proof :=
  bind (composites_fast sk pk cs ds) (fun mz =>
  let r := if randomness =? 0 then draw else randomness in
  bind (challenge pk (fst mz) (snd mz) (mul base r) (mul (fst mz) r)) (fun c =>
  Val {| p_c := c; p_s := (r - c * sk) mod order e |})).
(** VOprfServer::BlindEvaluate 236-252. *)
Definition blind_evaluate_proof (sk : Z) (pk : pt) (c : pt) (randomness draw : Z) : outcome (pt * proof) :=
  let d := mul c sk in
  bind (generate_proof sk pk [c] [d] randomness draw) (fun p => Val (d, p)).
(** VerifyProof 407-469. *)
Definition verify_proof (pk : pt) (cs ds : list pt) (p : proof) : outcome bool :=
  bind (composites pk cs ds) (fun mz =>
  let t2 := g_add (grp e) (mul base (p_s p)) (mul pk (p_c p)) in
  let t3 := g_add (grp e) (mul (fst mz) (p_s p)) (mul (snd mz) (p_c p)) in
  bind (challenge pk (fst mz) (snd mz) t2 t3) (fun c => Val (p_c p - c =? 0))).
(** VOprfClient::Finalize 471-521. *)
Definition vfinalize (pk : pt) (c : client) (evaluated blinded : pt) (p : proof) (priv : list Z) : client * outcome (list Z) :=
  match verify_proof pk [blinded] [evaluated] p with
  | Val true => finalize c evaluated priv
  | Val false => (c, Thrown)
  | Thrown => (c, Thrown)
  | OutOfBounds => (c, OutOfBounds)
  | Hangs => (c, Hangs)
  end.
End Oprf.
