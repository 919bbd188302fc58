(** Model of the Silver code: yacl/kernel/code/silver_code.cc.

    n_ is a uint32_t below 2^31 (so that m_ = 2n does not wrap); blocks are N as
    in LinCodeModel.  uint32_t indexes are Z reduced modulo 2^32 where the code
    lets them wrap.  *)
From Coq Require Import NArith ZArith List Bool Arith.
From Verif Require Import LinCodeModel.
Import ListNotations.
Open Scope nat_scope.

(** diagMtx_g16_w5_seed1_t36, silver_code.cc:35-52. *)
Definition diag5 : list (list nat) :=
  [[0; 4; 11; 15];
   [0; 8; 9; 10];
   [1; 2; 10; 14];
   [0; 5; 8; 15];
   [3; 13; 14; 15];
   [2; 4; 7; 8];
   [0; 9; 12; 15];
   [1; 6; 8; 14];
   [4; 5; 6; 14];
   [1; 3; 8; 13];
   [3; 4; 7; 8];
   [3; 5; 9; 13];
   [8; 11; 12; 14];
   [6; 10; 12; 13];
   [2; 7; 8; 13];
   [0; 6; 10; 15]].
(** diagMtx_g32_w11_seed2_t36, silver_code.cc:57-90. *)
Definition diag11 : list (list nat) :=
  [[6; 7; 8; 12; 16; 17; 20; 22; 24; 25];
   [0; 1; 6; 10; 12; 13; 17; 19; 30; 31];
   [1; 4; 7; 10; 12; 16; 21; 22; 30; 31];
   [3; 5; 9; 13; 15; 21; 23; 25; 26; 27];
   [3; 8; 9; 14; 17; 19; 24; 25; 26; 28];
   [3; 11; 12; 13; 14; 16; 17; 21; 22; 30];
   [2; 4; 5; 11; 12; 17; 22; 24; 30; 31];
   [5; 8; 11; 12; 13; 17; 18; 20; 27; 29];
   [13; 16; 17; 18; 19; 20; 21; 22; 26; 30];
   [3; 8; 13; 15; 16; 17; 19; 20; 21; 27];
   [0; 2; 4; 5; 6; 21; 23; 26; 28; 30];
   [2; 4; 6; 8; 10; 11; 22; 26; 28; 30];
   [7; 9; 11; 14; 15; 16; 17; 18; 24; 30];
   [0; 3; 7; 12; 13; 18; 20; 24; 25; 28];
   [1; 5; 7; 8; 12; 13; 21; 24; 26; 27];
   [0; 16; 17; 19; 22; 24; 25; 27; 28; 31];
   [0; 6; 7; 15; 16; 18; 22; 24; 29; 30];
   [2; 3; 4; 7; 15; 17; 18; 20; 22; 26];
   [2; 3; 9; 16; 17; 19; 24; 27; 29; 31];
   [1; 3; 5; 7; 13; 14; 20; 23; 24; 27];
   [0; 2; 3; 9; 10; 14; 19; 20; 21; 25];
   [4; 13; 16; 20; 21; 23; 25; 27; 28; 31];
   [1; 2; 5; 6; 9; 13; 15; 17; 20; 24];
   [0; 4; 7; 8; 12; 13; 20; 23; 28; 30];
   [0; 3; 4; 5; 8; 9; 23; 25; 26; 28];
   [0; 3; 4; 7; 8; 10; 11; 15; 21; 26];
   [5; 6; 7; 8; 10; 11; 15; 21; 22; 25];
   [0; 1; 2; 3; 8; 9; 22; 24; 27; 28];
   [1; 2; 13; 14; 15; 16; 19; 22; 29; 30];
   [2; 14; 15; 16; 19; 20; 25; 26; 28; 29];
   [8; 9; 11; 12; 13; 15; 17; 18; 23; 27];
   [0; 2; 4; 5; 6; 7; 10; 12; 14; 19]].

(** A constructed code: weight_, gap_, the diagonal table used by the right
    matrix, n_ and L_one_idx_. *)
Record silver := { s_weight : nat; s_gap : nat; s_diag : list (list nat); s_n : nat; s_left : list nat }.

(** std::set<uint32_t>::insert on the sorted list of its elements; false when
    the element is already there. *)
Fixpoint set_insert (x : nat) (l : list nat) : list nat * bool :=
  match l with
  | [] => ([x], true)
  | y :: l' => if Nat.ltb x y then (x :: l, true)
               else if Nat.eqb x y then (l, false)
               else let '(r, b) := set_insert x l' in (y :: r, b)
  end.
(** The while loop of InitLeftMatrix, silver_code.cc:207-211.  The collision
    counter is shared by all entries, so at most 1000 - counter rounds run. *)
Fixpoint probe (fuel : nat) (n tmp : nat) (entry : list nat) (counter : nat) : list nat * nat :=
  match fuel with
  | O => (entry, counter)
  | S f =>
      if Nat.ltb counter 1000
      then let '(e, ok) := set_insert tmp entry in
           if ok then (e, counter) else probe f n ((tmp + 1) mod n) e (S counter)
      else (entry, counter)
  end.
(** InitLeftMatrix, silver_code.cc:197-217.  raw holds the values of
    static_cast<uint32_t>(n_ * R[i]), a floating-point computation that is not
    modelled: any values are allowed. *)
Definition init_left (n : nat) (raw : list nat) : outcome (list nat) :=
  let '(entry, _) := fold_left (fun st r => probe 1001 n (r mod n) (fst st) (snd st)) raw ([], O) in
  if Nat.eqb (length entry) (length raw) then Val entry else Thrown.
(** SilverCode (constructor), silver_code.cc:95-111; raw5 and raw11 stand for
    the tables Left_R5 and Left_R11 scaled by n. *)
Definition make_silver (n weight : nat) (raw5 raw11 : list nat) : outcome silver :=
  match weight with
  | 5 => if Nat.leb 5 n then bind (init_left n raw5) (fun l =>
           Val {| s_weight := 5; s_gap := 16; s_diag := diag5; s_n := n; s_left := l |}) else Thrown
  | 11 => if Nat.leb 11 n then bind (init_left n raw11) (fun l =>
           Val {| s_weight := 11; s_gap := 32; s_diag := diag11; s_n := n; s_left := l |}) else Thrown
  | _ => Thrown
  end.

(** ** LeftEncode *)
Definition rd (l : list N) (i : nat) : outcome N :=
  match nth_error l i with Some v => Val v | None => OutOfBounds end.
(** xor of the pointed-to entries, silver_code.cc:251-284. *)
Fixpoint xor_ptrs (inp : list N) (ptrs : list nat) (val : N) : outcome N :=
  match ptrs with
  | [] => Val val
  | p :: ptrs' => bind (rd inp p) (fun v => xor_ptrs inp ptrs' (N.lxor val v))
  end.
(** The while loop, silver_code.cc:250-288: steps rows from row i on. *)
Fixpoint left_rows (inp : list N) (ptrs : list nat) (i step : nat) (out : list N) : outcome (list N) :=
  match step with
  | O => Val out
  | S s => bind (rd out i) (fun v => bind (xor_ptrs inp ptrs v) (fun w =>
           left_rows inp (map S ptrs) (S i) s (set_nth out i w)))
  end.
(** The outer loop, silver_code.cc:230-289.  one_entry is the deque, front
    first; the ENFORCE compares its back with its maximum. *)
Fixpoint left_loop (fuel : nat) (n : nat) (inp : list N) (i : nat) (one_entry : list nat) (out : list N) : outcome (list N) :=
  if Nat.leb n i then Val out
  else match fuel with
       | O => Hangs
       | S f =>
           let max_idx := last one_entry O in
           if Nat.eqb max_idx (fold_right Nat.max O one_entry)
           then let step := Nat.min (n - max_idx) (n - i) in
                bind (left_rows inp one_entry i step out)
                  (left_loop f n inp (i + step) (O :: removelast (map (Nat.add step) one_entry)))
           else Thrown
       end.
(** LeftEncode, silver_code.cc:219-290. *)
Definition left_encode (c : silver) (inp out : list N) : outcome (list N) :=
  if (Nat.leb (s_n c) (length inp)) && (Nat.leb (s_n c) (length out)) && (Nat.eqb (length (s_left c)) (s_weight c))
  then left_loop (s_n c) (s_n c) inp 0 (s_left c) out
  else Thrown.

(** ** RightEncode *)
Definition w32 (z : Z) : Z := (z mod 2 ^ 32)%Z.
(** x[i] ^= v *)
Definition xor_in (x : list N) (i : Z) (v : N) : outcome (list N) :=
  if (0 <=? i)%Z then
    match nth_error x (Z.to_nat i) with
    | Some w => Val (set_nth x (Z.to_nat i) (N.lxor w v))
    | None => OutOfBounds
    end
  else OutOfBounds.
Definition diag_row (c : silver) (i : Z) : list nat := nth (Z.to_nat (i mod Z.of_nat (s_gap c))) (s_diag c) [].
(** R_offset_, silver_code.cc:92. *)
Definition r_offset0 : Z := 5. Definition r_offset1 : Z := 31.
(** The diagonal xors of the first loop, *(xx + d) ^= tmp, silver_code.cc:430-433
    and 449-458. *)
Fixpoint diag_all (x : list N) (i : Z) (gap : nat) (ds : list nat) (tmp : N) : outcome (list N) :=
  match ds with
  | [] => Val x
  | d :: ds' => bind (xor_in x (i - Z.of_nat gap + Z.of_nat d) tmp) (fun x' => diag_all x' i gap ds' tmp)
  end.
(** The diagonal xors of the second loop, from the last entry down, with the
    break, silver_code.cc:479-485 and 499-505.  ds is the reversed row. *)
Fixpoint diag_break (x : list N) (n : nat) (i : Z) (gap : nat) (ds : list nat) (tmp : N) : outcome (list N) :=
  match ds with
  | [] => Val x
  | d :: ds' =>
      let idx := w32 (Z.of_nat d + i - Z.of_nat gap) in
      if (Z.of_nat n <=? idx)%Z then Val x
      else bind (xor_in x idx tmp) (fun x' => diag_break x' n i gap ds' tmp)
  end.
(** if (n_ > offset) { inout[offset] ^= tmp; --offset; }, silver_code.cc:486-493 and 506-513. *)
Definition off_step (x : list N) (n : nat) (off : Z) (tmp : N) : outcome (list N * Z) :=
  if (off <? Z.of_nat n)%Z then bind (xor_in x off tmp) (fun x' => Val (x', w32 (off - 1)))
  else Val (x, off).
(** The second loop, silver_code.cc:475-519: rows i, i - 1, ..., 0; left is the
    number of rows to go, i = left - 1. *)
Fixpoint right_low (c : silver) (left : nat) (x : list N) (off0 off1 : Z) : outcome (list N) :=
  match left with
  | O => Val x
  | S l =>
      let i := Z.of_nat l in
      bind (rd x l) (fun tmp =>
      bind (diag_break x (s_n c) i (s_gap c) (rev (diag_row c i)) tmp) (fun x1 =>
      bind (off_step x1 (s_n c) off0 tmp) (fun '(x2, o0) =>
      bind (off_step x2 (s_n c) off1 tmp) (fun '(x3, o1) =>
      right_low c l x3 o0 o1))))
  end.
(** The first loop, silver_code.cc:425-473, then the second. *)
Fixpoint right_high (c : silver) (left : nat) (x : list N) (off0 off1 : Z) : outcome (list N) :=
  match left with
  | O => right_low c O x off0 off1
  | S l =>
      let i := Z.of_nat l in
      if (Z.max r_offset0 r_offset1 + Z.of_nat (s_gap c) <? i)%Z
      then bind (rd x l) (fun tmp =>
           bind (diag_all x i (s_gap c) (diag_row c i) tmp) (fun x1 =>
           bind (xor_in x1 off0 tmp) (fun x2 =>
           bind (xor_in x2 off1 tmp) (fun x3 =>
           right_high c l x3 (w32 (off0 - 1)) (w32 (off1 - 1))))))
      else right_low c (S l) x off0 off1
  end.
(** RightEncode, silver_code.cc:414-520.  The pointer inout.data() + i - gap_ is
    formed but not read when n is at most gap. *)
Definition right_encode (c : silver) (x : list N) : outcome (list N) :=
  if Nat.leb (s_n c) (length x) then
    let n := Z.of_nat (s_n c) in
    right_high c (s_n c) x (w32 (n - Z.of_nat (s_gap c) - 1 - r_offset0)) (w32 (n - Z.of_nat (s_gap c) - 1 - r_offset1))
  else Thrown.

(** DualEncodeImpl, silver_code.cc:146-160. *)
Definition sv_dual_encode (c : silver) (inp out : list N) : outcome (list N) :=
  let n := s_n c in
  if (Nat.leb (2 * n) (length inp)) && (Nat.leb n (length out)) then
    bind (right_encode c (firstn n (skipn n inp))) (fun buff =>
    bind (left_encode c buff (firstn n inp)) (fun o =>
    Val (o ++ skipn n out)))
  else Thrown.
(** DualEncodeInplaceImpl, silver_code.cc:136-144. *)
Definition sv_dual_encode_inplace (c : silver) (inout : list N) : outcome (list N) :=
  let n := s_n c in
  if Nat.leb (2 * n) (length inout) then
    bind (right_encode c (firstn n (skipn n inout))) (fun z =>
    bind (left_encode c z (firstn n inout)) (fun o =>
    Val (o ++ z ++ skipn (2 * n) inout)))
  else Thrown.
