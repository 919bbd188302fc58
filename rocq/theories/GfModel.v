(** Model of yacl/math/galois_field/gf_intrinsic.{h,cc}.  uint64_t, uint128_t and
    block values are [N]; bit i is the coefficient of X^i. *)
From Coq Require Import List NArith Bool.
Import ListNotations.
Open Scope N_scope.

(** Carry-less product, the polynomial product over GF(2). *)
Fixpoint pcmul (a : positive) (b : N) : N :=
  match a with
  | xH => b
  | xO p => 2 * pcmul p b
  | xI p => N.lxor b (2 * pcmul p b)
  end.
Definition cmul (a b : N) : N := match a with 0 => 0 | Npos p => pcmul p b end.

(** The low and high 64 bits of a block. *)
Definition lo64 (x : N) : N := N.land x (N.ones 64).
Definition hi64 (x : N) : N := lo64 (N.shiftr x 64).
(** _mm_clmulepi64_si128(x, y, imm): bit 0 of imm selects the half of x, bit 4 that of y. *)
Definition clmul00 (x y : N) : N := cmul (lo64 x) (lo64 y).
Definition clmul11 (x y : N) : N := cmul (hi64 x) (hi64 y).
Definition clmul10 (x y : N) : N := cmul (lo64 x) (hi64 y).
Definition clmul01 (x y : N) : N := cmul (hi64 x) (lo64 y).
(** _mm_srli_si128(x, 8), _mm_slli_si128(x, 8). *)
Definition srl8 (x : N) : N := N.shiftr x 64.
Definition sll8 (x : N) : N := N.land (N.shiftl x 64) (N.ones 128).

(** gf_intrinsic.h:43-44. *)
Definition kGfMod128 : N := N.lor (N.lor (N.lor (N.shiftl 1 7) (N.shiftl 1 2)) (N.shiftl 1 1)) 1.
Definition kGfMod64 : N := N.lor (N.lor (N.lor (N.shiftl 1 4) (N.shiftl 1 3)) (N.shiftl 1 1)) 1.

(** Gf128ClMul on blocks (53-66): (high, low). *)
Definition gf128_clmul (x y : N) : N * N :=
  let low := clmul00 x y in
  let high := clmul11 x y in
  let mid := N.lxor (clmul10 x y) (clmul01 x y) in
  (N.lxor high (srl8 mid), N.lxor low (sll8 mid)).
(** Gf128Reduce (87-97). *)
Definition gf128_reduce (high low : N) : N :=
  let '(upper, carry0) := gf128_clmul high kGfMod128 in
  let low := N.lxor low carry0 in
  let '(_, carry1) := gf128_clmul upper kGfMod128 in
  N.lxor low carry1.
(** Gf128Mul (29-34). *)
Definition gf128_mul (x y : N) : N := let '(h, l) := gf128_clmul x y in gf128_reduce h l.
(** Gf128ClMul on spans (68-85) and Gf128Mul on spans (36-43); [None]: sizes differ. *)
Definition gf128_clmul_span (x y : list N) : N * N :=
  fold_left (fun r p => let '(h, l) := gf128_clmul (fst p) (snd p) in (N.lxor (fst r) h, N.lxor (snd r) l))
    (combine x y) (0, 0).
Definition gf128_mul_span (x y : list N) : option N :=
  if Nat.eqb (length x) (length y)
  then let '(h, l) := gf128_clmul_span x y in Some (gf128_reduce h l) else None.

(** Gf64ClMul (129-133), Gf64Reduce (165-179), Gf64Mul (116-120). *)
Definition gf64_clmul (x y : N) : N := clmul00 x y.
Definition gf64_reduce (x : N) : N :=
  let temp := clmul10 kGfMod64 x in
  let xb := N.lxor x temp in
  let temp := clmul10 kGfMod64 temp in
  lo64 (N.lxor xb temp).
Definition gf64_mul (x y : N) : N := gf64_reduce (gf64_clmul x y).
(** Gf64ClMul on spans (135-163): pairs first, then the odd element. *)
Definition block2 (h l : N) : N := N.lor (N.shiftl h 64) l.
Fixpoint gf64_clmul_span (x y : list N) (ret : N) : N :=
  match x, y with
  | x0 :: x1 :: xs, y0 :: y1 :: ys =>
      let xb := block2 x1 x0 in
      let yb := block2 y1 y0 in
      gf64_clmul_span xs ys (N.lxor (N.lxor ret (clmul00 xb yb)) (clmul11 xb yb))
  | [x0], [y0] => N.lxor ret (gf64_clmul x0 y0)
  | _, _ => ret
  end.
Definition gf64_mul_span (x y : list N) : option N :=
  if Nat.eqb (length x) (length y) then Some (gf64_reduce (gf64_clmul_span x y 0)) else None.

(** kGf64Basis, kGf128Basis (gf_intrinsic.h:46-62), Gf64Pack, Gf128Pack. *)
Definition basis (n : nat) : list N := map (fun i => N.shiftl 1 (N.of_nat i)) (seq 0 n).
Definition gf64_pack (data : list N) : option N :=
  if Nat.leb (length data) 64 then gf64_mul_span data (firstn (length data) (basis 64)) else None.
Definition gf128_pack (data : list N) : option N :=
  if Nat.leb (length data) 128 then gf128_mul_span data (firstn (length data) (basis 128)) else None.

(** Gf64Inv (181-229): a straight-line program on t0, t1, t2; (d, a, b) is
    Gf64Mul(t_a, t_b, &t_d). *)
Definition sq (n : nat) : list (nat * nat * nat) := repeat (0, 0, 0)%nat n.
Definition inv_prog : list (nat * nat * nat) :=
  ([(1, 0, 0); (2, 1, 0);
    (0, 2, 2)] ++ sq 1 ++ [(1, 1, 0); (2, 2, 0);
    (0, 2, 2)] ++ sq 3 ++ [(1, 1, 0); (2, 2, 0);
    (0, 2, 2)] ++ sq 7 ++ [(1, 1, 0); (2, 2, 0);
    (0, 2, 2)] ++ sq 15 ++ [(1, 1, 0); (0, 0, 2)] ++ sq 32 ++ [(0, 0, 1)])%nat.
Definition reg {A} (s : A * A * A) (i : nat) : A :=
  let '(t0, t1, t2) := s in match i with O => t0 | 1%nat => t1 | _ => t2 end.
Definition set_reg {A} (s : A * A * A) (i : nat) (v : A) : A * A * A :=
  let '(t0, t1, t2) := s in match i with O => (v, t1, t2) | 1%nat => (t0, v, t2) | _ => (t0, t1, v) end.
Definition run_prog {A} (mul : A -> A -> A) (p : list (nat * nat * nat)) (s : A * A * A) : A * A * A :=
  fold_left (fun s i => let '(d, a, b) := i in set_reg s d (mul (reg s a) (reg s b))) p s.
(** t1 and t2 are uninitialised at the start: any values. *)
Definition gf64_inv (u1 u2 x : N) : N := reg (run_prog gf64_mul inv_prog (x, u1, u2)) 0%nat.

(** UniversalHash (gf_intrinsic.h:154-162), [mul] is GfMul for the element type. *)
Definition universal_hash (mul : N -> N -> N) (seed : N) (data : list N) : N :=
  fold_left (fun ret val => mul seed (N.lxor ret val)) (rev data) 0.

(** Log2Ceil (math/gadget.h); [None]: thrown. *)
Definition log2_ceil (x : N) : option N := if x =? 0 then None else Some (if x =? 1 then 0 else N.log2 (x - 1) + 1).

(** ExtractHashCoef (gf_intrinsic.h:164-188). [buff] has 64 zeroed entries;
    [None]: throws or writes past the array. *)
Fixpoint squares (mul : N -> N -> N) (b : N) (n : nat) : list N :=
  match n with O => [b] | S k => b :: squares mul (mul b b) k end.
Definition hash_buff (mul : N -> N -> N) (seed max_bits : N) : option (list N) :=
  if max_bits <? 64
  then Some (squares mul seed (N.to_nat max_bits) ++ repeat 0 (63 - N.to_nat max_bits)) else None.
(** The loop over i: [mask] is 2^i modulo 2^64. *)
Fixpoint hash_coef (mul : N -> N -> N) (buff : list N) (idx1 : N) (mask coef : N) : N :=
  match buff with
  | [] => coef
  | b :: r => if mask <=? idx1
              then hash_coef mul r idx1 ((2 * mask) mod 2 ^ 64) (if N.land mask idx1 =? 0 then coef else mul coef b)
              else coef
  end.
Definition extract_hash_coef (mul : N -> N -> N) (seed : N) (indexes : list N) : option (list N) :=
  match indexes with
  | [] => None
  | _ => match log2_ceil (last indexes 0) with
         | None => None
         | Some mb => match hash_buff mul seed mb with
                      | None => None
                      | Some buff => Some (map (fun idx => hash_coef mul buff ((idx + 1) mod 2 ^ 64) 1 1) indexes)
                      end
         end
  end.
