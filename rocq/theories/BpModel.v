(** Model of the Bulletproofs inner product argument and range proof:
    yacl/crypto/experimental/zkp/bulletproofs/{util,simple_transcript,
    generators}.cc, ipa/inner_product_proof.cc, range_proof/range_proof.cc.

    The curve is the group record of VssModel with its order, Sub, IsInfinity
    and the (de)serialisation of points; SHA-256, SHAKE-256 and HashToCurve are
    arguments.  Scalars are integers, bytes are integers 0..255.  An exception
    and an error Result are both [Thrown]; a read outside a vector is
    [OutOfBounds].  Random scalars are read from explicit tapes.  Sizes are far
    below 2^64. *)
From Coq Require Import Ascii String.
From Coq Require Import ZArith List Bool Arith.
From Verif Require Import ZpLib VssModel LinCodeModel.
Import ListNotations.
Open Scope Z_scope.

Record curve := {
  grp : group;
  order : Z;                                                 (* GetOrder *)
  c_sub : point grp -> point grp -> point grp;               (* Sub *)
  c_inf : point grp -> bool;                                 (* IsInfinity *)
  c_ser : point grp -> list Z;                               (* SerializePoint *)
  c_deser : list Z -> outcome (point grp);                   (* DeserializePoint *)
  c_ser_len : nat;                                           (* GetSerializeLength *)
  c_h2c : list Z -> point grp;                               (* HashToCurve(Autonomous) *)
  sha256 : list Z -> list Z;
  shake256 : list Z -> nat -> list Z
}.

Definition text (s : string) : list Z := map (fun c => Z.of_nat (nat_of_ascii c)) (list_ascii_of_string s).
(** MPInt::Serialize of a number that is not negative, tommath_ext_features.cc
    (C64): count_bits / 8 + 1 bytes, least significant first, the sign bit at the
    top of the last byte being 0.  MPInt::FromMagBytes with the native (little)
    endianness. *)
Fixpoint le_bytes (k : nat) (x : Z) : list Z :=
  match k with O => [] | S k' => x mod 256 :: le_bytes k' (x / 256) end.
Definition count_bits (x : Z) : Z := if x =? 0 then 0 else Z.log2 x + 1.
Definition scalar_bytes (x : Z) : list Z := le_bytes (Z.to_nat (count_bits x / 8 + 1)) x.
Fixpoint from_le (bs : list Z) : Z := match bs with [] => 0 | b :: bs' => b + 256 * from_le bs' end.

(** ** SimpleTranscript, simple_transcript.cc *)
Section Transcript.
Variable e : curve.
(** UpdateState :162-173. *)
Definition update_state (st data : list Z) : list Z := sha256 e (st ++ data).
(** AppendMessage :97-113: the length of the label modulo 256, the label, the
    message. *)
Definition append_message (st label message : list Z) : list Z :=
  update_state st (Z.of_nat (length label) mod 256 :: label ++ message).
(** The constructor :22-31. *)
Definition new_transcript (label : list Z) : list Z :=
  let st := sha256 e [] in
  match label with [] => st | _ => append_message st (text "label") label end.
(** AppendU64 :115-131. *)
Definition append_u64 (st label : list Z) (v : Z) : list Z := append_message st label (le_bytes 8 v).
(** AppendScalar :44-53, AppendPoint :55-65. *)
Definition append_scalar (st label : list Z) (x : Z) : list Z := append_message st label (scalar_bytes x).
Definition append_point (st label : list Z) (p : point (grp e)) : list Z := append_message st label (c_ser e p).
(** ValidateAndAppendPoint :67-78. *)
Definition validate_append (st label : list Z) (p : point (grp e)) : outcome (list Z) :=
  if c_inf e p then Thrown else Val (append_point st label p).
(** ChallengeBytes :133-160 and ChallengeScalar :80-95, with 64 bytes. *)
Definition challenge_request (label : list Z) (len : nat) : list Z :=
  text "challenge" ++ (Z.of_nat (length label) mod 256 :: label) ++ [Z.of_nat len mod 256].
Definition challenge_scalar (st label : list Z) : list Z * Z :=
  let st := update_state st (challenge_request label 64) in
  (st, from_le (shake256 e st 64) mod order e).
(** RangeProofDomainSep :33-37, InnerproductDomainSep :39-42. *)
Definition range_sep (st : list Z) (n m : nat) : list Z :=
  append_u64 (append_u64 (append_message st (text "dom-sep") (text "rangeproof v1")) (text "n") (Z.of_nat n)) (text "m") (Z.of_nat m).
Definition ipp_sep (st : list Z) (n : nat) : list Z :=
  append_u64 (append_message st (text "dom-sep") (text "ipp v1")) (text "n") (Z.of_nat n).
End Transcript.

(** ** util.cc *)
Section Util.
Variable e : curve.
Let n := order e.
(** InnerProduct :113-132 (called with vectors of one size). *)
Definition inner_product (a b : list Z) : Z :=
  fold_left (fun r p => add_mod r (mul_mod (fst p) (snd p) n) n) (combine a b) 0.
(** ExpIterVector :150-168. *)
Fixpoint exp_iter (base current : Z) (k : nat) : list Z :=
  match k with O => [] | S k' => current :: exp_iter base (mul_mod current base n) k' end.
Definition exp_iter_vector (base : Z) (k : nat) : list Z := exp_iter base 1 k.
(** ScalarExp :194-200 (PowMod is exact; 0^0 is 1). *)
Definition scalar_exp (base : Z) (k : nat) : Z := base ^ Z.of_nat k mod n.
(** SumOfPowers :170-192. *)
Definition sum_of_powers (base : Z) (k : nat) : outcome Z :=
  if Nat.eqb k 0 then Val 0
  else if base mod n =? 1 then Val (Z.of_nat k mod n)
  else match invert_mod (sub_mod base 1 n) n with
       | None => Thrown
       | Some i => Val (mul_mod (sub_mod (scalar_exp base k) 1 n) i n)
       end.
(** MultiScalarMul :202-225. *)
Definition msm_loop (ps : list (Z * point (grp e))) (acc : point (grp e)) : point (grp e) :=
  fold_left (fun r p => if fst p =? 0 then r else g_add (grp e) r (g_mul (grp e) (snd p) (fst p))) ps acc.
Definition msm (scalars : list Z) (points : list (point (grp e))) : outcome (point (grp e)) :=
  if Nat.eqb (length scalars) (length points)
  then Val (msm_loop (combine scalars points) (g_mul (grp e) (g_base (grp e)) 0))
  else Thrown.
(** NextPowerOfTwo :235-259: 64 minus the leading zeros is the bit length. *)
Definition next_power_of_two (k : nat) : nat :=
  if Nat.eqb k 0 then 1%nat else Nat.pow 2 (Nat.log2_up k).
End Util.

(** ** InnerProductProof *)
Record ipp (P : Type) := { i_L : list P; i_R : list P; i_a : Z; i_b : Z }.
Arguments i_L {P} _. Arguments i_R {P} _. Arguments i_a {P} _. Arguments i_b {P} _.

Section Ipa.
Variable e : curve.
Let n := order e.
Notation pt := (point (grp e)).

(** One round of Create, inner_product_proof.cc:60-142; [gf] and [hf] are the
    factors in the first round and lists of ones (that are not multiplied in)
    afterwards: [None].  The in-place updates at i < n_half only read positions i
    and n_half + i. *)
Definition with_factors (xs : list Z) (f : option (list Z)) : list Z :=
  match f with None => xs | Some f => map (fun p => mul_mod (fst p) (snd p) n) (combine xs f) end.
Definition halves {A} (l : list A) : list A * list A :=
  let h := Nat.div (length l) 2 in (firstn h l, skipn h l).
Definition half_of (f : option (list Z)) (second : bool) : option (list Z) :=
  match f with None => None | Some f => Some (if second then snd (halves f) else fst (halves f)) end.
Definition round_LR (Q : pt) (gf hf : option (list Z)) (G H : list pt) (a b : list Z) : outcome (pt * pt) :=
  let '(aL, aR) := halves a in let '(bL, bR) := halves b in
  let '(GL, GR) := halves G in let '(HL, HR) := halves H in
  let cL := inner_product e aL bR in
  let cR := inner_product e aR bL in
  bind (msm e (with_factors aL (half_of gf true) ++ with_factors bR (half_of hf false) ++ [cL]) (GR ++ HL ++ [Q])) (fun L =>
  bind (msm e (with_factors aR (half_of gf false) ++ with_factors bL (half_of hf true) ++ [cR]) (GL ++ HR ++ [Q])) (fun R =>
  Val (L, R))).
(** a_vec and b_vec, :154-157. *)
Definition fold_scalars (u v : Z) (xL xR : list Z) : list Z :=
  map (fun p => add_mod (mul_mod (fst p) u n) (mul_mod (snd p) v n) n) (combine xL xR).
(** G_vec and H_vec, :159-179: coefficients cL for the left and cR for the right. *)
Definition fold_points (cL cR : Z) (f : option (list Z)) (PL PR : list pt) : outcome (list pt) :=
  let left_f := match half_of f false with None => map (fun _ => cL) PL | Some f => map (fun x => mul_mod cL x n) f end in
  let right_f := match half_of f true with None => map (fun _ => cR) PR | Some f => map (fun x => mul_mod cR x n) f end in
  fold_right (fun p acc => bind (msm e [fst (fst p); snd (fst p)] [fst (snd p); snd (snd p)]) (fun x => bind acc (fun l => Val (x :: l))))
             (Val []) (combine (combine left_f right_f) (combine PL PR)).
(** The loop :57-190; [fuel] bounds the number of rounds, length G suffices. *)
Fixpoint create_loop (fuel : nat) (st : list Z) (Q : pt) (gf hf : option (list Z)) (G H : list pt) (a b : list Z)
  : outcome (list Z * ipp pt) :=
  match fuel with
  | O => Hangs
  | S fuel' =>
      if Nat.leb (length G) 1 then Val (st, {| i_L := []; i_R := []; i_a := nth 0 a 0; i_b := nth 0 b 0 |})
      else
        bind (round_LR Q gf hf G H a b) (fun '(L, R) =>
        let st := append_point e (append_point e st (text "L") L) (text "R") R in
        let '(st, u) := challenge_scalar e st (text "u") in
        match invert_mod u n with
        | None => Thrown
        | Some v =>
            let '(aL, aR) := halves a in let '(bL, bR) := halves b in
            let '(GL, GR) := halves G in let '(HL, HR) := halves H in
            bind (fold_points v u gf GL GR) (fun G' =>
            bind (fold_points u v hf HL HR) (fun H' =>
            bind (create_loop fuel' st Q None None G' H' (fold_scalars u v aL aR) (fold_scalars v u bL bR)) (fun '(st, p) =>
            Val (st, {| i_L := L :: i_L p; i_R := R :: i_R p; i_a := i_a p; i_b := i_b p |}))))
        end)
  end.
Definition is_power_of_two (k : nat) : bool := negb (Nat.eqb k 0) && Nat.eqb (Nat.pow 2 (Nat.log2 k)) k.
(** Create :28-191.  n & (n - 1) is zero exactly for the powers of two. *)
Definition create (st : list Z) (Q : pt) (gf hf : list Z) (G H : list pt) (a b : list Z) : outcome (list Z * ipp pt) :=
  let k := length G in
  if is_power_of_two k &&
     (Nat.eqb (length H) k && Nat.eqb (length a) k && Nat.eqb (length b) k && Nat.eqb (length gf) k && Nat.eqb (length hf) k)
  then create_loop (S k) (ipp_sep e st k) Q (Some gf) (Some hf) G H a b
  else Thrown.

(** VerificationScalars :193-247. *)
Fixpoint recompute_challenges (st : list Z) (LR : list (pt * pt)) : outcome (list Z * list Z) :=
  match LR with
  | [] => Val (st, [])
  | (L, R) :: LR' =>
      bind (validate_append e st (text "L") L) (fun st =>
      bind (validate_append e st (text "R") R) (fun st =>
      let '(st, u) := challenge_scalar e st (text "u") in
      bind (recompute_challenges st LR') (fun '(st, us) => Val (st, u :: us))))
  end.
Fixpoint invert_all (us : list Z) : outcome (list Z) :=
  match us with
  | [] => Val []
  | u :: us' =>
      match invert_mod u n with
      | None => Thrown
      | Some v => bind (invert_all us') (fun vs => Val (v :: vs))
      end
  end.
Definition s_loop (lg : nat) (u_sq : list Z) (k : nat) (s0 : Z) : list Z :=
  fold_left (fun s i => let lg_i := Nat.log2 i in
               s ++ [mul_mod (nth (i - Nat.pow 2 lg_i) s 0) (nth (lg - 1 - lg_i) u_sq 0) n]) (seq 1 (k - 1)) [s0].
Definition verification_scalars (p : ipp pt) (k : nat) (st : list Z) : outcome (list Z * (list Z * list Z * list Z)) :=
  let lg := length (i_L p) in
  if Nat.ltb lg 32 && Nat.eqb k (Nat.pow 2 lg) && Nat.eqb (length (i_R p)) lg then
    bind (recompute_challenges (ipp_sep e st k) (combine (i_L p) (i_R p))) (fun '(st, us) =>
    bind (invert_all us) (fun vs =>
    let u_sq := map (fun u => mul_mod u u n) us in
    let v_sq := map (fun u => mul_mod u u n) vs in
    let s0 := fold_left (fun s v => mul_mod s v n) vs 1 in
    Val (st, (u_sq, v_sq, s_loop lg u_sq k s0))))
  else Thrown.
(** Verify :249-339.  Only a ProofError is caught, which nothing throws here: an
    ENFORCE that fails leaves Verify as an exception. *)
Definition verify (p : ipp pt) (st : list Z) (gf hf : list Z) (P Q : pt) (G H : list pt) : outcome bool :=
  let k := length G in
  bind (verification_scalars p k st) (fun '(_, (u_sq, v_sq, s)) =>
  if Nat.leb k (length gf) && Nat.leb k (length hf) then
    let gs := map (fun q => mul_mod (mul_mod (i_a p) (fst q) n) (snd q) n) (combine s gf) in
    let hs := map (fun q => mul_mod (mul_mod (i_b p) (fst q) n) (snd q) n) (combine (rev s) hf) in
    let neg := map (fun x => sub_mod 0 x n) in
    bind (msm e ([mul_mod (i_a p) (i_b p) n] ++ gs ++ hs ++ neg u_sq ++ neg v_sq) ([Q] ++ G ++ H ++ i_L p ++ i_R p)) (fun x =>
    Val (g_eqb (grp e) x P))
  else OutOfBounds).

(** ToBytes :341-393, FromBytes :395-493: sizes are uint32_t in native order. *)
Definition sized (bs : list Z) : list Z := le_bytes 4 (Z.of_nat (length bs)) ++ bs.
Definition ipp_bytes (p : ipp pt) : list Z :=
  le_bytes 4 (Z.of_nat (length (i_L p))) ++
  concat (map (fun q => sized (c_ser e (fst q)) ++ sized (c_ser e (snd q))) (combine (i_L p) (i_R p))) ++
  sized (scalar_bytes (i_a p)) ++ sized (scalar_bytes (i_b p)).
(** A size and as many bytes at a position; the rest is kept. *)
Definition read_sized (bs : list Z) : outcome (list Z * list Z) :=
  if Nat.leb 4 (length bs) then
    let k := Z.to_nat (from_le (firstn 4 bs)) in
    let bs := skipn 4 bs in
    if Nat.leb k (length bs) then Val (firstn k bs, skipn k bs) else Thrown
  else Thrown.
Fixpoint read_points (k : nat) (bs : list Z) : outcome (list pt * list pt * list Z) :=
  match k with
  | O => Val ([], [], bs)
  | S k' =>
      bind (read_sized bs) (fun '(l, bs) => bind (c_deser e l) (fun L =>
      bind (read_sized bs) (fun '(r, bs) => bind (c_deser e r) (fun R =>
      bind (read_points k' bs) (fun '(Ls, Rs, bs) => Val (L :: Ls, R :: Rs, bs))))))
  end.
Definition ipp_from_bytes (bs : list Z) : outcome (ipp pt) :=
  if Nat.ltb (length bs) 4 then Thrown
  else
    let lg := from_le (firstn 4 bs) in
    if 32 <=? lg then Thrown
    else bind (read_points (Z.to_nat lg) (skipn 4 bs)) (fun '(Ls, Rs, bs) =>
         bind (read_sized bs) (fun '(a, bs) =>
         bind (read_sized bs) (fun '(b, _) =>
         Val {| i_L := Ls; i_R := Rs; i_a := from_le a mod n; i_b := from_le b mod n |}))).
End Ipa.

(** ** Generators, generators.cc *)
Record gens (P : Type) := { g_cap : nat; g_parties : nat; g_G : list (list P); g_H : list (list P) }.
Arguments g_cap {P} _. Arguments g_parties {P} _. Arguments g_G {P} _. Arguments g_H {P} _.
Section Gens.
Variable e : curve.
Notation pt := (point (grp e)).
(** GeneratorsChain::Next :58-76 with the counter at i: CumulativeHash is the
    first bytes of the SHAKE output. *)
Definition chain_next (label : list Z) (i : nat) : pt := c_h2c e (firstn 64 (skipn (64 * i) (shake256 e label (64 * i + 64)))).
Definition party_label (c : string) (i : nat) : list Z := text c ++ le_bytes 4 (Z.of_nat i mod 2 ^ 32).
(** IncreaseCapacity :98-132 and the constructor :80-91. *)
Definition extend_chain (c : string) (old cap : nat) (i : nat) (l : list pt) : list pt :=
  l ++ map (chain_next (party_label c i)) (seq old (cap - old)).
Definition increase (g : gens pt) (cap : nat) : gens pt :=
  if Nat.leb cap (g_cap g) then g
  else {| g_cap := cap; g_parties := g_parties g;
          g_G := map (fun i => extend_chain "G" (g_cap g) cap i (nth i (g_G g) [])) (seq 0 (g_parties g));
          g_H := map (fun i => extend_chain "H" (g_cap g) cap i (nth i (g_H g) [])) (seq 0 (g_parties g)) |}.
Definition new_gens (cap parties : nat) : gens pt :=
  increase {| g_cap := 0; g_parties := parties; g_G := repeat [] parties; g_H := repeat [] parties |} cap.
(** GetAllG, GetAllH :146-182; GensShare G(n) :186-202 is the first n of party j. *)
Definition all_gens (cap parties : nat) (vs : list (list pt)) (n m : nat) : outcome (list pt) :=
  if Nat.leb n cap && Nat.leb m parties then Val (concat (map (firstn n) (firstn m vs))) else Thrown.
(** PedersenGens::Commit :38-41. *)
Definition commit (B B_bl : pt) (v r : Z) : outcome pt := msm e [v; r] [B; B_bl].
End Gens.

(** ** RangeProof *)
Record rproof (P : Type) := { p_A : P; p_S : P; p_T1 : P; p_T2 : P; p_tx : Z; p_txb : Z; p_eb : Z; p_ipp : ipp P }.
Arguments p_A {P} _. Arguments p_S {P} _. Arguments p_T1 {P} _. Arguments p_T2 {P} _.
Arguments p_tx {P} _. Arguments p_txb {P} _. Arguments p_eb {P} _. Arguments p_ipp {P} _.
(** The random scalars of one party. *)
Record tape := { d_a : Z; d_s : Z; d_sL : nat -> Z; d_sR : nat -> Z; d_t1 : Z; d_t2 : Z }.

Section Range.
Variable e : curve.
Let q := order e.
Notation pt := (point (grp e)).
Variables (B B_bl : pt).

Definition vbit (v : Z) (i : nat) : Z := Z.land (Z.shiftr v (Z.of_nat i)) 1.
Definition valid_bits (n : nat) : bool := Nat.eqb n 8 || Nat.eqb n 16 || Nat.eqb n 32 || Nat.eqb n 64.

(** PartyAwaitingPosition::AssignPosition, range_proof.cc:57-106: A and S. *)
Definition party_A (n : nat) (v : Z) (t : tape) (G H : list pt) : pt :=
  fold_left (fun A i => if vbit v i =? 0 then c_sub e A (nth i H B) else g_add (grp e) A (nth i G B))
            (seq 0 n) (g_mul (grp e) B_bl (d_a t)).
Definition party_S (n : nat) (t : tape) (G H : list pt) : outcome pt :=
  msm e ([d_s t] ++ map (d_sL t) (seq 0 n) ++ map (d_sR t) (seq 0 n)) ([B_bl] ++ G ++ H).

(** PartyAwaitingBitChallenge::ApplyChallenge :123-171: l and r. *)
Definition l0 (n : nat) (v z : Z) : list Z := map (fun i => sub_mod (vbit v i) z q) (seq 0 n).
Definition l1 (n : nat) (t : tape) : list Z := map (d_sL t) (seq 0 n).
Definition offset_zz (z : Z) (j : nat) : Z := mul_mod (mul_mod z z q) (scalar_exp e z j) q.
Definition r0 (n : nat) (v y z : Z) (j : nat) : list Z :=
  map (fun i =>
    let a_R := sub_mod (vbit v i) 1 q in
    add_mod (mul_mod (mul_mod (nth i (exp_iter_vector e y n) 0) (add_mod a_R z q) q) (scalar_exp e y (j * n)) q)
            (mul_mod (offset_zz z j) (nth i (exp_iter_vector e 2 n) 0) q) q) (seq 0 n).
Definition r1 (n : nat) (y : Z) (j : nat) (t : tape) : list Z :=
  map (fun i => mul_mod (mul_mod (nth i (exp_iter_vector e y n) 0) (d_sR t i) q) (scalar_exp e y (j * n)) q) (seq 0 n).
(** VecPoly1::InnerProduct, util.cc:62-90, VecPoly1::Eval :92-105, Poly2::Eval
    :33-44. *)
Definition add_vec (a b : list Z) : list Z := map (fun p => add_mod (fst p) (snd p) q) (combine a b).
Definition poly_product (l0 l1 r0 r1 : list Z) : Z * Z * Z :=
  let t0 := inner_product e l0 r0 in
  let t2 := inner_product e l1 r1 in
  let s := inner_product e (add_vec l0 l1) (add_vec r0 r1) in
  (t0, sub_mod (sub_mod s t0 q) t2 q, t2).
Definition vec_eval (v0 v1 : list Z) (x : Z) : list Z :=
  map (fun p => add_mod (fst p) (mul_mod (snd p) x q) q) (combine v0 v1).
Definition poly2_eval (t0 t1 t2 x : Z) : Z :=
  add_mod (add_mod t0 (mul_mod t1 x q) q) (mul_mod t2 (mul_mod x x q) q) q.

(** One party's messages, PartyAwaitingPolyChallenge::ApplyChallenge :188-205; [rb] is its blinding, [G] and [H] its n generators. *)
Record party := { y_v : Z; y_rb : Z; y_t : tape; y_G : list pt; y_H : list pt }.
Definition party_poly (n : nat) (y z : Z) (j : nat) (p : party) : Z * Z * Z :=
  poly_product (l0 n (y_v p) z) (l1 n (y_t p)) (r0 n (y_v p) y z j) (r1 n y j (y_t p)).
Definition share_tx (n : nat) (y z x : Z) (j : nat) (p : party) : Z :=
  let '(t0, t1, t2) := party_poly n y z j p in poly2_eval t0 t1 t2 x.
Definition share_txb (z x : Z) (j : nat) (p : party) : Z :=
  poly2_eval (mul_mod (offset_zz z j) (y_rb p) q) (d_t1 (y_t p)) (d_t2 (y_t p)) x.
Definition share_eb (x : Z) (p : party) : Z := add_mod (d_a (y_t p)) (mul_mod (d_s (y_t p)) x q) q.
Definition share_l (n : nat) (z x : Z) (p : party) : list Z := vec_eval (l0 n (y_v p) z) (l1 n (y_t p)) x.
Definition share_r (n : nat) (y z x : Z) (j : nat) (p : party) : list Z := vec_eval (r0 n (y_v p) y z j) (r1 n y j (y_t p)) x.

Fixpoint sequence {A} (l : list (outcome A)) : outcome (list A) :=
  match l with [] => Val [] | x :: l' => bind x (fun a => bind (sequence l') (fun r => Val (a :: r))) end.
Definition sum_points (l : list pt) : pt := fold_left (g_add (grp e)) l (g_mul (grp e) (g_base (grp e)) 0).
Definition sum_mod (l : list Z) : Z := fold_left (fun a b => add_mod a b q) l 0.
Definition indexed (ps : list party) : list (nat * party) := combine (seq 0 (length ps)) ps.

(** ProveMultiple :452-552 with the dealer :211-388.  The parties' values are
    uint64_t.  [gs] are the generators, [tapes] the random draws of party j.
    [claim] is the identity in the code; another function is a prover that sends
    something else than the t_x it computed. *)
Definition prove_with (claim : Z -> Z) (st : list Z) (gs : gens pt) (values blindings : list Z) (n : nat) (tapes : nat -> tape)
  : outcome (list Z * rproof pt * list pt) :=
  let m := length values in
  if negb (Nat.eqb m (length blindings)) then Thrown
  else if negb (valid_bits n) then Thrown
  else if Nat.eqb m 0 || negb (Nat.eqb m (next_power_of_two m)) then Thrown
  else if Nat.ltb (g_cap gs) n || Nat.ltb (g_parties gs) m then Thrown
  else
    let st := range_sep e st n m in
    let ps := map (fun j => {| y_v := nth j values 0; y_rb := nth j blindings 0; y_t := tapes j;
                               y_G := firstn n (nth j (g_G gs) []); y_H := firstn n (nth j (g_H gs) []) |}) (seq 0 m) in
    bind (sequence (map (fun p => commit e B B_bl (y_v p) (y_rb p)) ps)) (fun Vs =>
    bind (sequence (map (fun p => party_S n (y_t p) (y_G p) (y_H p)) ps)) (fun Ss =>
    let st := fold_left (fun st V => append_point e st (text "V") V) Vs st in
    let A := sum_points (map (fun p => party_A n (y_v p) (y_t p) (y_G p) (y_H p)) ps) in
    let S := sum_points Ss in
    let st := append_point e (append_point e st (text "A") A) (text "S") S in
    let '(st, y) := challenge_scalar e st (text "y") in
    let '(st, z) := challenge_scalar e st (text "z") in
    bind (sequence (map (fun jp => let '(_, t1, _) := party_poly n y z (fst jp) (snd jp) in
                                   commit e B B_bl t1 (d_t1 (y_t (snd jp)))) (indexed ps))) (fun T1s =>
    bind (sequence (map (fun jp => let '(_, _, t2) := party_poly n y z (fst jp) (snd jp) in
                                   commit e B B_bl t2 (d_t2 (y_t (snd jp)))) (indexed ps))) (fun T2s =>
    let T1 := sum_points T1s in
    let T2 := sum_points T2s in
    let st := append_point e (append_point e st (text "T_1") T1) (text "T_2") T2 in
    let '(st, x) := challenge_scalar e st (text "x") in
    if x =? 0 then Thrown
    else
      let tx := claim (sum_mod (map (fun jp => share_tx n y z x (fst jp) (snd jp)) (indexed ps))) in
      let txb := sum_mod (map (fun jp => share_txb z x (fst jp) (snd jp)) (indexed ps)) in
      let eb := sum_mod (map (share_eb x) ps) in
      let st := append_scalar e (append_scalar e (append_scalar e st (text "t_x") tx) (text "t_x_blinding") txb) (text "e_blinding") eb in
      let '(st, w) := challenge_scalar e st (text "w") in
      match invert_mod y q with
      | None => Thrown
      | Some y_inv =>
          bind (all_gens e (g_cap gs) (g_parties gs) (g_G gs) n m) (fun G =>
          bind (all_gens e (g_cap gs) (g_parties gs) (g_H gs) n m) (fun H =>
          bind (create e st (g_mul (grp e) B w) (repeat 1 (n * m)) (exp_iter_vector e y_inv (n * m)) G H
                  (concat (map (share_l n z x) ps)) (concat (map (fun jp => share_r n y z x (fst jp) (snd jp)) (indexed ps)))) (fun '(st, ip) =>
          Val (st, {| p_A := A; p_S := S; p_T1 := T1; p_T2 := T2; p_tx := tx; p_txb := txb; p_eb := eb; p_ipp := ip |}, Vs))))
      end)))).

Definition prove_multiple := prove_with (fun t => t).

(** Delta :408-424. *)
Definition delta (n m : nat) (y z : Z) : outcome Z :=
  bind (sum_of_powers e y (n * m)) (fun sum_y =>
  bind (sum_of_powers e 2 n) (fun sum_2 =>
  bind (sum_of_powers e z m) (fun sum_z =>
  let zz := mul_mod z z q in
  Val (sub_mod (mul_mod (sub_mod z zz q) sum_y q) (mul_mod (mul_mod (mul_mod z zz q) sum_2 q) sum_z q) q)))).

(** VerifyMultiple :554-684. *)
Definition verify_multiple (p : rproof pt) (st : list Z) (gs : gens pt) (Vs : list pt) (n : nat) : outcome bool :=
  let m := length Vs in
  if negb (valid_bits n) || Nat.ltb (g_cap gs) n || Nat.ltb (g_parties gs) m then Val false
  else
    let st := range_sep e st n m in
    let st := fold_left (fun st V => append_point e st (text "V") V) Vs st in
    bind (validate_append e st (text "A") (p_A p)) (fun st =>
    bind (validate_append e st (text "S") (p_S p)) (fun st =>
    let '(st, y) := challenge_scalar e st (text "y") in
    let '(st, z) := challenge_scalar e st (text "z") in
    bind (validate_append e st (text "T_1") (p_T1 p)) (fun st =>
    bind (validate_append e st (text "T_2") (p_T2 p)) (fun st =>
    let '(st, x) := challenge_scalar e st (text "x") in
    let st := append_scalar e (append_scalar e (append_scalar e st (text "t_x") (p_tx p)) (text "t_x_blinding") (p_txb p)) (text "e_blinding") (p_eb p) in
    let '(st, w) := challenge_scalar e st (text "w") in
    bind (verification_scalars e (p_ipp p) (n * m) st) (fun '(_, (x_sq, x_inv_sq, s)) =>
    let a := i_a (p_ipp p) in
    let b := i_b (p_ipp p) in
    let concat_z_and_2 := concat (map (fun ez => map (fun e2 => mul_mod ez e2 q) (exp_iter_vector e 2 n)) (exp_iter_vector e z m)) in
    match invert_mod y q with
    | None => Thrown
    | Some y_inv =>
        let zz := mul_mod z z q in
        let minus_z := sub_mod 0 z q in
        let g_scalars := map (fun si => sub_mod minus_z (mul_mod a si q) q) s in
        let h_scalars := map (fun i =>
          let term := sub_mod (mul_mod zz (nth i concat_z_and_2 0) q) (mul_mod b (nth i (rev s) 0) q) q in
          add_mod z (mul_mod (nth i (exp_iter_vector e y_inv (n * m)) 0) term q) q) (seq 0 (n * m)) in
        let vc_scalars := map (fun pz => mul_mod (mul_mod w zz q) pz q) (exp_iter_vector e z m) in
        bind (delta n m y z) (fun dl =>
        let basepoint := add_mod (mul_mod w (sub_mod (p_tx p) (mul_mod a b q) q) q) (mul_mod w (sub_mod dl (p_tx p) q) q) q in
        let blinding := sub_mod 0 (add_mod (p_eb p) (mul_mod w (p_txb p) q) q) q in
        bind (all_gens e (g_cap gs) (g_parties gs) (g_G gs) n m) (fun G =>
        bind (all_gens e (g_cap gs) (g_parties gs) (g_H gs) n m) (fun H =>
        bind (msm e ([1; x; mul_mod w x q; mul_mod w (mul_mod x x q) q] ++ x_sq ++ x_inv_sq ++ [blinding; basepoint] ++ g_scalars ++ h_scalars ++ vc_scalars)
                    ([p_A p; p_S p; p_T1 p; p_T2 p] ++ i_L (p_ipp p) ++ i_R (p_ipp p) ++ [B_bl; B] ++ G ++ H ++ Vs)) (fun check =>
        Val (c_inf e check)))))
    end))))).

(** ToBytes :686-736: a buffer of the expected size is filled; ToMagBytes throws
    when the scalar needs more than 32 bytes (C64). *)
Definition scalar32 (x : Z) : outcome (list Z) := if x <? 2 ^ 256 then Val (le_bytes 32 x) else Thrown.
Definition rproof_bytes (p : rproof pt) : outcome (list Z) :=
  bind (scalar32 (p_tx p)) (fun tx => bind (scalar32 (p_txb p)) (fun txb => bind (scalar32 (p_eb p)) (fun eb =>
  let out := c_ser e (p_A p) ++ c_ser e (p_S p) ++ c_ser e (p_T1 p) ++ c_ser e (p_T2 p) ++ tx ++ txb ++ eb ++ ipp_bytes e (p_ipp p) in
  let total := (4 * c_ser_len e + 3 * 32 + length (ipp_bytes e (p_ipp p)))%nat in
  if Nat.ltb total (length out) then OutOfBounds else if Nat.eqb (length out) total then Val out else Thrown))).
(** FromBytes :738-774. *)
Definition rproof_from_bytes (bs : list Z) : outcome (rproof pt) :=
  let k := c_ser_len e in
  if Nat.ltb (length bs) (4 * k + 3 * 32) then Thrown
  else
    let at_ i len := firstn len (skipn i bs) in
    bind (c_deser e (at_ 0 k)%nat) (fun A => bind (c_deser e (at_ k k)) (fun S =>
    bind (c_deser e (at_ (2 * k) k)%nat) (fun T1 => bind (c_deser e (at_ (3 * k) k)%nat) (fun T2 =>
    bind (ipp_from_bytes e (skipn (4 * k + 96) bs)) (fun ip =>
    Val {| p_A := A; p_S := S; p_T1 := T1; p_T2 := T2;
           p_tx := from_le (at_ (4 * k) 32)%nat; p_txb := from_le (at_ (4 * k + 32) 32)%nat; p_eb := from_le (at_ (4 * k + 64) 32)%nat;
           p_ipp := ip |}))))).
End Range.
