(** Model of the Bulletproofs R1CS proof:
    yacl/crypto/experimental/zkp/bulletproofs/r1cs/{r1cs_linear_combination,
    r1cs_prover, r1cs_verifier, r1cs_proof}.cc and util.cc:261-314.

    The calls that a client makes on a prover or verifier are a program: a tree
    of calls whose continuations receive what the call returns.  The same type
    serves both sides; a commitment call carries value and blinding on the
    prover's side and the point on the verifier's.  An error Result and an
    exception are both [Thrown]; an index outside a vector is [OutOfBounds].
    Curve, transcript, inner product proof and generators are those of BpModel.
    Random scalars are read from an explicit tape. *)
From Coq Require Import Ascii String.
From Coq Require Import ZArith List Bool Arith.
From Verif Require Import ZpLib VssModel LinCodeModel BpModel.
Import ListNotations.
Open Scope Z_scope.

(** ** Linear combinations, r1cs_linear_combination.{h,cc} *)
Inductive var := Committed (i : nat) | MulLeft (i : nat) | MulRight (i : nat) | MulOut (i : nat) | One.
Definition lc := list (var * Z).
Definition lc_var (v : var) : lc := [(v, 1)].                           (* :19-21 *)
Definition lc_const (c : Z) : lc := [(One, c)].                         (* :23-25 *)
Definition lc_add (a b : lc) : lc := a ++ b.                            (* :31-34 *)
Definition lc_sub (a b : lc) : lc := a ++ map (fun t => (fst t, - snd t)) b.   (* :36-41 *)
Definition lc_scale (a : lc) (c : Z) : lc := map (fun t => (fst t, snd t * c)) a.   (* :43-49 *)
Definition lc_neg (a : lc) : lc := map (fun t => (fst t, - snd t)) a.   (* :75-80 *)

(** ** Programs *)
Inductive prog (C : Type) : Type :=
| Done                                                        (* the client returns Ok *)
| Fail                                                        (* the client returns an error *)
| Commit (c : C) (k : var -> prog C)
| Multiply (l r : lc) (k : var -> var -> var -> prog C)
| Allocate (a : option Z) (k : var -> prog C)
| AllocateMultiplier (a : option (Z * Z)) (k : var -> var -> var -> prog C)
| Constrain (l : lc) (k : prog C)
| ChallengeScalar (label : list Z) (k : Z -> prog C)          (* on the transcript *)
| AppendMessage (label msg : list Z) (k : prog C)             (* on the transcript *)
| Randomized (cb : prog C) (k : prog C).                      (* SpecifyRandomizedConstraints *)
Arguments Done {C}. Arguments Fail {C}. Arguments Commit {C} _ _. Arguments Multiply {C} _ _ _. Arguments Allocate {C} _ _.
Arguments AllocateMultiplier {C} _ _. Arguments Constrain {C} _ _. Arguments ChallengeScalar {C} _ _.
Arguments AppendMessage {C} _ _ _. Arguments Randomized {C} _ _.

Section R1cs.
Variable e : curve.
Let q := order e.
Notation pt := (point (grp e)).
Variables (B B_bl : pt).

(** ** R1CSProver *)
Record prover := {
  s_tr : list Z;                                              (* the transcript *)
  s_v : list Z; s_vb : list Z;                                (* v_, v_blinding_ *)
  s_aL : list Z; s_aR : list Z; s_aO : list Z;
  s_cons : list lc;                                           (* constraints_ *)
  s_def : list (prog (Z * Z));                                (* deferred_constraints_ *)
  s_pend : option nat                                         (* pending_multiplier_ *)
}.
(** The constructor, r1cs_prover.cc:27-33. *)
Definition new_prover (st : list Z) : prover :=
  {| s_tr := append_message e st (text "dom-sep") (text "r1cs v1");
     s_v := []; s_vb := []; s_aL := []; s_aR := []; s_aO := []; s_cons := []; s_def := []; s_pend := None |}.

Definition get (l : list Z) (i : nat) : outcome Z := match nth_error l i with Some x => Val x | None => OutOfBounds end.
(** Eval :128-152. *)
Definition lookup (s : prover) (v : var) : outcome Z :=
  match v with
  | Committed i => get (s_v s) i
  | MulLeft i => get (s_aL s) i
  | MulRight i => get (s_aR s) i
  | MulOut i => get (s_aO s) i
  | One => Val 1
  end.
Definition eval (s : prover) (l : lc) : outcome Z :=
  fold_left (fun acc t => bind acc (fun a => bind (lookup s (fst t)) (fun x => Val (a + snd t * x)))) l (Val 0).

Definition with_tr (s : prover) (st : list Z) : prover :=
  {| s_tr := st; s_v := s_v s; s_vb := s_vb s; s_aL := s_aL s; s_aR := s_aR s; s_aO := s_aO s;
     s_cons := s_cons s; s_def := s_def s; s_pend := s_pend s |}.
Definition with_mul (s : prover) (l r o : Z) (p : option nat) : prover :=
  {| s_tr := s_tr s; s_v := s_v s; s_vb := s_vb s; s_aL := s_aL s ++ [l]; s_aR := s_aR s ++ [r]; s_aO := s_aO s ++ [o];
     s_cons := s_cons s; s_def := s_def s; s_pend := p |}.
Definition with_con (s : prover) (cs : list lc) : prover :=
  {| s_tr := s_tr s; s_v := s_v s; s_vb := s_vb s; s_aL := s_aL s; s_aR := s_aR s; s_aO := s_aO s;
     s_cons := s_cons s ++ cs; s_def := s_def s; s_pend := s_pend s |}.
Fixpoint set_nth (l : list Z) (i : nat) (x : Z) : list Z :=
  match l, i with [], _ => [] | _ :: l', O => x :: l' | y :: l', S i' => y :: set_nth l' i' x end.

(** The calls: Commit :35-44, Multiply :48-66, Allocate :68-90,
    AllocateMultiplier :92-111, Constrain :118-120, SpecifyRandomizedConstraints
    :122-126; RandomizedProver :449-466 forwards.  In the second phase
    ([late]) the client has no Commit, AllocateMultiplier and
    SpecifyRandomizedConstraints: such programs do not exist, the model lets
    them throw. *)
Fixpoint run_prover (late : bool) (p : prog (Z * Z)) (s : prover) : outcome prover :=
  match p with
  | Done => Val s
  | Fail => Thrown
  | Commit (v, r) k =>
      if late then Thrown else
      bind (commit e B B_bl v r) (fun V =>
      run_prover late (k (Committed (length (s_v s))))
        {| s_tr := append_point e (s_tr s) (text "V") V; s_v := s_v s ++ [v]; s_vb := s_vb s ++ [r];
           s_aL := s_aL s; s_aR := s_aR s; s_aO := s_aO s; s_cons := s_cons s; s_def := s_def s; s_pend := s_pend s |})
  | Multiply l r k =>
      bind (eval s l) (fun a => bind (eval s r) (fun b =>
      let i := length (s_aL s) in
      run_prover late (k (MulLeft i) (MulRight i) (MulOut i))
        (with_con (with_mul s a b (a * b) (s_pend s)) [lc_sub l (lc_var (MulLeft i)); lc_sub r (lc_var (MulRight i))])))
  | Allocate None _ => Thrown
  | Allocate (Some a) k =>
      match s_pend s with
      | None => let i := length (s_aL s) in run_prover late (k (MulLeft i)) (with_mul s a 0 0 (Some i))
      | Some i =>
          run_prover late (k (MulRight i))
            {| s_tr := s_tr s; s_v := s_v s; s_vb := s_vb s; s_aL := s_aL s; s_aR := set_nth (s_aR s) i a;
               s_aO := set_nth (s_aO s) i (nth i (s_aL s) 0 * a); s_cons := s_cons s; s_def := s_def s; s_pend := None |}
      end
  | AllocateMultiplier None _ => Thrown
  | AllocateMultiplier (Some (a, b)) k =>
      if late then Thrown else
      let i := length (s_aL s) in run_prover late (k (MulLeft i) (MulRight i) (MulOut i)) (with_mul s a b (a * b) (s_pend s))
  | Constrain l k => run_prover late k (with_con s [l])
  | ChallengeScalar label k =>
      let '(st, x) := challenge_scalar e (s_tr s) label in run_prover late (k x) (with_tr s st)
  | AppendMessage label msg k => run_prover late k (with_tr s (append_message e (s_tr s) label msg))
  | Randomized cb k =>
      if late then Thrown else
      run_prover late k {| s_tr := s_tr s; s_v := s_v s; s_vb := s_vb s; s_aL := s_aL s; s_aR := s_aR s; s_aO := s_aO s;
                           s_cons := s_cons s; s_def := s_def s ++ [cb]; s_pend := s_pend s |}
  end.
(** CreateRandomizedConstraints :154-169. *)
Definition phase_label (none : bool) : list Z := if none then text "r1cs-1phase" else text "r1cs-2phase".
Definition is_nil {A} (l : list A) : bool := match l with [] => true | _ => false end.
Definition randomize_prover (s : prover) : outcome prover :=
  let st := append_message e (s_tr s) (text "dom-sep") (phase_label (is_nil (s_def s))) in
  fold_left (fun acc cb => bind acc (run_prover true cb)) (s_def s)
    (Val {| s_tr := st; s_v := s_v s; s_vb := s_vb s; s_aL := s_aL s; s_aR := s_aR s; s_aO := s_aO s;
            s_cons := s_cons s; s_def := []; s_pend := None |}).

(** FlattenedConstraints :171-204, and r1cs_verifier.cc:109-145, which also keeps
    the constant.  [add_at] is w[index] += value. *)
Record weights := { w_L : list Z; w_R : list Z; w_O : list Z; w_V : list Z; w_c : Z }.
Definition add_at (l : list Z) (i : nat) (x : Z) : outcome (list Z) :=
  if Nat.ltb i (length l) then Val (set_nth l i (nth i l 0 + x)) else OutOfBounds.
Definition flat_term (ez : Z) (w : weights) (t : var * Z) : outcome weights :=
  let c := ez * snd t in
  match fst t with
  | MulLeft i => bind (add_at (w_L w) i c) (fun l => Val {| w_L := l; w_R := w_R w; w_O := w_O w; w_V := w_V w; w_c := w_c w |})
  | MulRight i => bind (add_at (w_R w) i c) (fun l => Val {| w_L := w_L w; w_R := l; w_O := w_O w; w_V := w_V w; w_c := w_c w |})
  | MulOut i => bind (add_at (w_O w) i c) (fun l => Val {| w_L := w_L w; w_R := w_R w; w_O := l; w_V := w_V w; w_c := w_c w |})
  | Committed i => bind (add_at (w_V w) i (- c)) (fun l => Val {| w_L := w_L w; w_R := w_R w; w_O := w_O w; w_V := l; w_c := w_c w |})
  | One => Val {| w_L := w_L w; w_R := w_R w; w_O := w_O w; w_V := w_V w; w_c := w_c w - c |}
  end.
Fixpoint flat_loop (z ez : Z) (cs : list lc) (w : weights) : outcome weights :=
  match cs with
  | [] => Val w
  | c :: cs' => bind (fold_left (fun acc t => bind acc (fun w => flat_term ez w t)) c (Val w)) (flat_loop z (ez * z) cs')
  end.
Definition flattened (z : Z) (n m : nat) (cs : list lc) : outcome weights :=
  flat_loop z z cs {| w_L := repeat 0 n; w_R := repeat 0 n; w_O := repeat 0 n; w_V := repeat 0 m; w_c := 0 |}.

(** ** VecPoly3, Poly6, SpecialInnerProduct, util.cc:261-314 *)
Record vecpoly3 := { v0 : list Z; v1 : list Z; v2 : list Z; v3 : list Z }.
Definition vecpoly3_eval (p : vecpoly3) (x : Z) : list Z :=
  let x_sq := mul_mod x x q in let x_cb := mul_mod x_sq x q in
  map (fun i => add_mod (add_mod (add_mod (nth i (v0 p) 0) (mul_mod (nth i (v1 p) 0) x q) q) (mul_mod (nth i (v2 p) 0) x_sq q) q)
                        (mul_mod (nth i (v3 p) 0) x_cb q) q) (seq 0 (length (v0 p))).
Record poly6 := { t0 : Z; t1 : Z; t2 : Z; t3 : Z; t4 : Z; t5 : Z; t6 : Z }.
Definition x_pow (x : Z) (k : nat) : Z := Nat.iter k (fun a => mul_mod a x q) 1.
Definition poly6_eval (p : poly6) (x : Z) : Z :=
  let add r t k := add_mod r (mul_mod t (x_pow x k) q) q in
  add (add (add (add (add (add (t0 p) (t1 p) 1%nat) (t2 p) 2%nat) (t3 p) 3%nat) (t4 p) 4%nat) (t5 p) 5%nat) (t6 p) 6%nat.
Definition special_inner_product (l r : vecpoly3) : poly6 :=
  let ip := inner_product e in
  {| t0 := ip (v0 l) (v0 r);
     t1 := ip (v0 l) (v1 r) + ip (v1 l) (v0 r);
     t2 := ip (v0 l) (v2 r) + ip (v1 l) (v1 r) + ip (v2 l) (v0 r);
     t3 := ip (v0 l) (v3 r) + ip (v1 l) (v2 r) + ip (v2 l) (v1 r) + ip (v3 l) (v0 r);
     t4 := ip (v1 l) (v3 r) + ip (v2 l) (v2 r) + ip (v3 l) (v1 r);
     t5 := ip (v2 l) (v3 r) + ip (v3 l) (v2 r);
     t6 := ip (v3 l) (v3 r) |}.

(** ** R1CSProof *)
Record r1proof := {
  r_AI1 : pt; r_AO1 : pt; r_S1 : pt; r_AI2 : pt; r_AO2 : pt; r_S2 : pt;
  r_T1 : pt; r_T3 : pt; r_T4 : pt; r_T5 : pt; r_T6 : pt;
  r_tx : Z; r_txb : Z; r_eb : Z; r_ipp : ipp pt
}.
(** The random scalars of Prove, by name; s_L and s_R by position over both
    phases. *)
Record rtape := {
  k_i1 : Z; k_o1 : Z; k_s1 : Z; k_i2 : Z; k_o2 : Z; k_s2 : Z; k_sL : nat -> Z; k_sR : nat -> Z;
  k_t1 : Z; k_t3 : Z; k_t4 : Z; k_t5 : Z; k_t6 : Z }.
(** BulletproofGens::Share(0).G(n), generators.cc:93-96, :186-202. *)
Definition share0 (gs : gens pt) (l : list (list pt)) (n : nat) : outcome (list pt) :=
  if Nat.ltb 0 (g_parties gs) && Nat.leb n (g_cap gs) then Val (firstn n (nth 0 l [])) else Thrown.
Definition identity : pt := g_mul (grp e) (g_base (grp e)) 0.

(** Prove :206-447.  Returns the proof and the prover afterwards. *)
Definition prove (gs : gens pt) (tp : rtape) (s : prover) : outcome (prover * r1proof) :=
  let n1 := length (s_aL s) in
  if negb (Nat.leb n1 (g_cap gs)) then Thrown else
  bind (share0 gs (g_G gs) n1) (fun G1 => bind (share0 gs (g_H gs) n1) (fun H1 =>
  bind (msm e ([k_i1 tp] ++ s_aL s ++ s_aR s) ([B_bl] ++ G1 ++ H1)) (fun A_I1 =>
  bind (msm e ([k_o1 tp] ++ s_aO s) ([B_bl] ++ G1)) (fun A_O1 =>
  let s_L1 := map (k_sL tp) (seq 0 n1) in let s_R1 := map (k_sR tp) (seq 0 n1) in
  bind (msm e ([k_s1 tp] ++ s_L1 ++ s_R1) ([B_bl] ++ G1 ++ H1)) (fun S1 =>
  let st := append_u64 e (s_tr s) (text "m") (Z.of_nat (length (s_v s))) in
  let st := append_point e (append_point e (append_point e st (text "A_I1") A_I1) (text "A_O1") A_O1) (text "S1") S1 in
  bind (randomize_prover (with_tr s st)) (fun s =>
  let n := length (s_aL s) in
  let n2 := (n - n1)%nat in
  let padded := next_power_of_two n in
  if negb (Nat.leb padded (g_cap gs)) then Thrown else
  bind (if Nat.ltb 0 n2 then
          bind (share0 gs (g_G gs) n) (fun G => bind (share0 gs (g_H gs) n) (fun H =>
          let G2 := skipn n1 G in let H2 := skipn n1 H in
          bind (msm e ([k_i2 tp] ++ skipn n1 (s_aL s) ++ skipn n1 (s_aR s)) ([B_bl] ++ G2 ++ H2)) (fun A_I2 =>
          bind (msm e ([k_o2 tp] ++ skipn n1 (s_aO s)) ([B_bl] ++ G2)) (fun A_O2 =>
          bind (msm e ([k_s2 tp] ++ map (k_sL tp) (seq n1 n2) ++ map (k_sR tp) (seq n1 n2)) ([B_bl] ++ G2 ++ H2)) (fun S2 =>
          Val (A_I2, A_O2, S2, (k_i2 tp, k_o2 tp, k_s2 tp)))))))
        else Val (identity, identity, identity, (0, 0, 0))) (fun '(A_I2, A_O2, S2, (i2, o2, s2)) =>
  let st := append_point e (append_point e (append_point e (s_tr s) (text "A_I2") A_I2) (text "A_O2") A_O2) (text "S2") S2 in
  let '(st, y) := challenge_scalar e st (text "y") in
  let '(st, z) := challenge_scalar e st (text "z") in
  bind (flattened z n (length (s_v s)) (s_cons s)) (fun w =>
  match invert_mod y q with
  | None => Thrown
  | Some y_inv =>
      let y_inv_pows := exp_iter_vector e y_inv padded in
      let y_pows := exp_iter_vector e y padded in
      let l_poly :=
        {| v0 := repeat 0 n;
           v1 := map (fun i => nth i (s_aL s) 0 + nth i y_inv_pows 0 * nth i (w_R w) 0) (seq 0 n);
           v2 := map (fun i => nth i (s_aO s) 0) (seq 0 n);
           v3 := map (k_sL tp) (seq 0 n) |} in
      let r_poly :=
        {| v0 := map (fun i => nth i (w_O w) 0 - nth i y_pows 0) (seq 0 n);
           v1 := map (fun i => nth i y_pows 0 * nth i (s_aR s) 0 + nth i (w_L w) 0) (seq 0 n);
           v2 := repeat 0 n;
           v3 := map (fun i => nth i y_pows 0 * k_sR tp i) (seq 0 n) |} in
      let t := special_inner_product l_poly r_poly in
      bind (commit e B B_bl (t1 t) (k_t1 tp)) (fun T_1 => bind (commit e B B_bl (t3 t) (k_t3 tp)) (fun T_3 =>
      bind (commit e B B_bl (t4 t) (k_t4 tp)) (fun T_4 => bind (commit e B B_bl (t5 t) (k_t5 tp)) (fun T_5 =>
      bind (commit e B B_bl (t6 t) (k_t6 tp)) (fun T_6 =>
      let st := append_point e (append_point e (append_point e (append_point e (append_point e st
                  (text "T_1") T_1) (text "T_3") T_3) (text "T_4") T_4) (text "T_5") T_5) (text "T_6") T_6 in
      let '(st, u) := challenge_scalar e st (text "u") in
      let '(st, x) := challenge_scalar e st (text "x") in
      let t_2_blinding := inner_product e (w_V w) (s_vb s) in
      let tb := {| t0 := 0; t1 := k_t1 tp; t2 := t_2_blinding; t3 := k_t3 tp; t4 := k_t4 tp; t5 := k_t5 tp; t6 := k_t6 tp |} in
      let t_x := poly6_eval t x in
      let t_xb := poly6_eval tb x in
      let l_vec := vecpoly3_eval l_poly x ++ repeat 0 (padded - n) in
      let r_vec := vecpoly3_eval r_poly x ++ map (fun i => - nth i y_pows 0) (seq n (padded - n)) in
      let i_bl := k_i1 tp + u * i2 in let o_bl := k_o1 tp + u * o2 in let s_bl := k_s1 tp + u * s2 in
      let e_bl := x * (i_bl + x * (o_bl + x * s_bl)) in
      let st := append_scalar e (append_scalar e (append_scalar e st (text "t_x") t_x) (text "t_x_blinding") t_xb) (text "e_blinding") e_bl in
      let '(st, w') := challenge_scalar e st (text "w") in
      let G_factors := map (fun i => if Nat.leb n1 i then u else 1) (seq 0 padded) in
      let H_factors := map (fun i => nth i y_inv_pows 0 * nth i G_factors 0) (seq 0 padded) in
      bind (share0 gs (g_G gs) padded) (fun G => bind (share0 gs (g_H gs) padded) (fun H =>
      bind (create e st (g_mul (grp e) B w') G_factors H_factors G H l_vec r_vec) (fun '(st, ip) =>
      Val (with_tr s st,
           {| r_AI1 := A_I1; r_AO1 := A_O1; r_S1 := S1; r_AI2 := A_I2; r_AO2 := A_O2; r_S2 := S2;
              r_T1 := T_1; r_T3 := T_3; r_T4 := T_4; r_T5 := T_5; r_T6 := T_6;
              r_tx := t_x; r_txb := t_xb; r_eb := e_bl; r_ipp := ip |}))))))))) 
  end)))))))).

(** ** R1CSVerifier *)
Record verifier := { x_tr : list Z; x_V : list pt; x_n : nat; x_cons : list lc; x_def : list (prog pt); x_pend : option nat }.
(** The constructor, r1cs_verifier.cc:23-27. *)
Definition new_verifier (st : list Z) : verifier :=
  {| x_tr := append_message e st (text "dom-sep") (text "r1cs v1"); x_V := []; x_n := 0; x_cons := []; x_def := []; x_pend := None |}.
Definition vwith (s : verifier) (st : list Z) (n : nat) (cs : list lc) (pend : option nat) : verifier :=
  {| x_tr := st; x_V := x_V s; x_n := n; x_cons := x_cons s ++ cs; x_def := x_def s; x_pend := pend |}.
(** Commit :29-34, Multiply :38-51, Allocate :53-66, AllocateMultiplier :67-75,
    Constrain :82-84, SpecifyRandomizedConstraints :86-90; RandomizedVerifier
    :328-345. *)
Fixpoint run_verifier (late : bool) (p : prog pt) (s : verifier) : outcome verifier :=
  match p with
  | Done => Val s
  | Fail => Thrown
  | Commit V k =>
      if late then Thrown else
      run_verifier late (k (Committed (length (x_V s))))
        {| x_tr := append_point e (x_tr s) (text "V") V; x_V := x_V s ++ [V]; x_n := x_n s; x_cons := x_cons s;
           x_def := x_def s; x_pend := x_pend s |}
  | Multiply l r k =>
      let i := x_n s in
      run_verifier late (k (MulLeft i) (MulRight i) (MulOut i))
        (vwith s (x_tr s) (S i) [lc_sub l (lc_var (MulLeft i)); lc_sub r (lc_var (MulRight i))] (x_pend s))
  | Allocate _ k =>
      match x_pend s with
      | None => let i := x_n s in run_verifier late (k (MulLeft i)) (vwith s (x_tr s) (S i) [] (Some i))
      | Some i => run_verifier late (k (MulRight i)) (vwith s (x_tr s) (x_n s) [] None)
      end
  | AllocateMultiplier _ k =>
      if late then Thrown else
      let i := x_n s in run_verifier late (k (MulLeft i) (MulRight i) (MulOut i)) (vwith s (x_tr s) (S i) [] (x_pend s))
  | Constrain l k => run_verifier late k (vwith s (x_tr s) (x_n s) [l] (x_pend s))
  | ChallengeScalar label k =>
      let '(st, x) := challenge_scalar e (x_tr s) label in run_verifier late (k x) (vwith s st (x_n s) [] (x_pend s))
  | AppendMessage label msg k => run_verifier late k (vwith s (append_message e (x_tr s) label msg) (x_n s) [] (x_pend s))
  | Randomized cb k =>
      if late then Thrown else
      run_verifier late k {| x_tr := x_tr s; x_V := x_V s; x_n := x_n s; x_cons := x_cons s; x_def := x_def s ++ [cb]; x_pend := x_pend s |}
  end.
(** CreateRandomizedConstraints :92-108. *)
Definition randomize_verifier (s : verifier) : outcome verifier :=
  let st := append_message e (x_tr s) (text "dom-sep") (phase_label (is_nil (x_def s))) in
  fold_left (fun acc cb => bind acc (run_verifier true cb)) (x_def s)
    (Val {| x_tr := st; x_V := x_V s; x_n := x_n s; x_cons := x_cons s; x_def := []; x_pend := None |}).

(** Verify :147-326: first what it reads off the transcript ... *)
Record challenges := { h_y : Z; h_z : Z; h_u : Z; h_x : Z; h_w : Z; h_r : Z; h_usq : list Z; h_vsq : list Z; h_s : list Z }.
Definition replay (gs : gens pt) (p : r1proof) (s : verifier) : outcome (verifier * challenges) :=
  let st := append_u64 e (x_tr s) (text "m") (Z.of_nat (length (x_V s))) in
  let st := append_point e (append_point e (append_point e st (text "A_I1") (r_AI1 p)) (text "A_O1") (r_AO1 p)) (text "S1") (r_S1 p) in
  bind (randomize_verifier (vwith s st (x_n s) [] (x_pend s))) (fun s =>
  let padded := next_power_of_two (x_n s) in
  if negb (Nat.leb padded (g_cap gs)) then Thrown else
  if negb (Nat.ltb 0 (g_parties gs)) then Thrown else
  let st := append_point e (append_point e (append_point e (x_tr s) (text "A_I2") (r_AI2 p)) (text "A_O2") (r_AO2 p)) (text "S2") (r_S2 p) in
  let '(st, y) := challenge_scalar e st (text "y") in
  let '(st, z) := challenge_scalar e st (text "z") in
  let st := append_point e (append_point e (append_point e (append_point e (append_point e st
              (text "T_1") (r_T1 p)) (text "T_3") (r_T3 p)) (text "T_4") (r_T4 p)) (text "T_5") (r_T5 p)) (text "T_6") (r_T6 p) in
  let '(st, u) := challenge_scalar e st (text "u") in
  let '(st, x) := challenge_scalar e st (text "x") in
  let st := append_scalar e (append_scalar e (append_scalar e st (text "t_x") (r_tx p)) (text "t_x_blinding") (r_txb p)) (text "e_blinding") (r_eb p) in
  let '(st, w) := challenge_scalar e st (text "w") in
  bind (verification_scalars e (r_ipp p) padded st) (fun '(st, (u_sq, v_sq, ss)) =>
  let '(st, r) := challenge_scalar e st (text "r") in
  Val (vwith s st (x_n s) [] (x_pend s),
       {| h_y := y; h_z := z; h_u := u; h_x := x; h_w := w; h_r := r; h_usq := u_sq; h_vsq := v_sq; h_s := ss |}))).
(** ... then the check.  The constraints are flattened before the inner product
    challenges are read; only the order of two exceptions depends on that. *)
Definition verify_r1cs (gs : gens pt) (p : r1proof) (s0 : verifier) : outcome bool :=
  let n1 := x_n s0 in
  bind (replay gs p s0) (fun '(s, c) =>
  let n := x_n s in
  let padded := next_power_of_two n in
  let x := h_x c in let u := h_u c in let r := h_r c in
  let a := i_a (r_ipp p) in let b := i_b (r_ipp p) in
  bind (flattened (h_z c) n (length (x_V s)) (x_cons s)) (fun w =>
  let x_sq := mul_mod x x q in let x_3 := mul_mod x_sq x q in
  let r_x_sq := mul_mod r x_sq q in
  let x_4 := mul_mod x_sq x_sq q in let x_5 := mul_mod x_4 x q in let x_6 := mul_mod x_3 x_3 q in
  match invert_mod (h_y c) q with
  | None => Thrown
  | Some y_inv =>
      let y_inv_pows := exp_iter_vector e y_inv padded in
      let yneg_wR := map (fun i => mul_mod (nth i (w_R w) 0) (nth i y_inv_pows 0) q) (seq 0 n) in
      let delta := inner_product e (w_L w) yneg_wR in
      let term1 := mul_mod (h_w c) (sub_mod (r_tx p) (mul_mod a b q) q) q in
      let term2 := mul_mod r (sub_mod (mul_mod x_sq (add_mod (w_c w) delta q) q) (r_tx p) q) q in
      let term3 := sub_mod (- r_eb p) (mul_mod r (r_txb p) q) q mod q in
      let u_for_g := map (fun i => if Nat.ltb i n1 then 1 else u) (seq 0 padded) in
      let g_scalars := map (fun i =>
        let wR_i := if Nat.ltb i n then nth i yneg_wR 0 else 0 in
        mul_mod (nth i u_for_g 0) (sub_mod (mul_mod x wR_i q) (mul_mod a (nth i (h_s c) 0) q) q) q) (seq 0 padded) in
      let h_scalars := map (fun i =>
        let wL_i := if Nat.ltb i n then nth i (w_L w) 0 else 0 in
        let wO_i := if Nat.ltb i n then nth i (w_O w) 0 else 0 in
        let h := sub_mod (add_mod (mul_mod x wL_i q) wO_i q) (mul_mod b (nth i (rev (h_s c)) 0) q) q in
        mul_mod (nth i u_for_g 0) (sub_mod (mul_mod (nth i y_inv_pows 0) h q) 1 q) q) (seq 0 padded) in
      bind (share0 gs (g_G gs) padded) (fun G => bind (share0 gs (g_H gs) padded) (fun H =>
      bind (msm e
        ([x; x_sq; x_3; mul_mod u x q; mul_mod u x_sq q; mul_mod u x_3 q] ++ map (fun wV => mul_mod r_x_sq wV q) (w_V w) ++
         [mul_mod r x q; mul_mod r x_3 q; mul_mod r x_4 q; mul_mod r x_5 q; mul_mod r x_6 q] ++
         [add_mod term1 term2 q; term3] ++ g_scalars ++ h_scalars ++ h_usq c ++ h_vsq c)
        ([r_AI1 p; r_AO1 p; r_S1 p; r_AI2 p; r_AO2 p; r_S2 p] ++ x_V s ++ [r_T1 p; r_T3 p; r_T4 p; r_T5 p; r_T6 p] ++
         [B; B_bl] ++ G ++ H ++ i_L (r_ipp p) ++ i_R (r_ipp p))) (fun check =>
      Val (c_inf e check))))
  end)).

(** ** r1cs_proof.cc: MissingPhase2Commitments :43-47, ToBytes :49-98.
    MPInt::ToBytes keeps the low 32 bytes (C64).  The buffer has the expected
    size; more is written out of bounds, less throws. *)
Definition one_phase (p : r1proof) : bool := c_inf e (r_AI2 p) && c_inf e (r_AO2 p) && c_inf e (r_S2 p).
Definition r1cs_bytes (p : r1proof) : outcome (list Z) :=
  let ser := c_ser e in
  let phase2 := if one_phase p then [] else ser (r_AI2 p) ++ ser (r_AO2 p) ++ ser (r_S2 p) in
  let out := [if one_phase p then 0 else 1] ++ ser (r_AI1 p) ++ ser (r_AO1 p) ++ ser (r_S1 p) ++ phase2 ++
             ser (r_T1 p) ++ ser (r_T3 p) ++ ser (r_T4 p) ++ ser (r_T5 p) ++ ser (r_T6 p) ++
             le_bytes 32 (r_tx p) ++ le_bytes 32 (r_txb p) ++ le_bytes 32 (r_eb p) ++ ipp_bytes e (r_ipp p) in
  let total := (1 + (if one_phase p then 3 else 6) * c_ser_len e + 5 * c_ser_len e + 96 + length (ipp_bytes e (r_ipp p)))%nat in
  if Nat.ltb total (length out) then OutOfBounds else if Nat.eqb (length out) total then Val out else Thrown.
(** FromBytes :100-160. *)
Definition take_point (bs : list Z) : outcome (pt * list Z) :=
  bind (c_deser e (firstn (c_ser_len e) bs)) (fun P => Val (P, skipn (c_ser_len e) bs)).
Definition take_scalar (bs : list Z) : Z * list Z := (from_le (firstn 32 bs), skipn 32 bs).
Definition r1cs_from_bytes (bs : list Z) : outcome r1proof :=
  match bs with
  | [] => Thrown
  | version :: bs =>
      let one := version =? 0 in
      if Nat.ltb (length bs) ((if one then 8 else 11) * c_ser_len e + 96) then Thrown else
      bind (take_point bs) (fun '(A_I1, bs) => bind (take_point bs) (fun '(A_O1, bs) => bind (take_point bs) (fun '(S1, bs) =>
      bind (if one then Val (identity, identity, identity, bs)
            else bind (take_point bs) (fun '(A_I2, bs) => bind (take_point bs) (fun '(A_O2, bs) => bind (take_point bs) (fun '(S2, bs) =>
                 Val (A_I2, A_O2, S2, bs))))) (fun '(A_I2, A_O2, S2, bs) =>
      bind (take_point bs) (fun '(T_1, bs) => bind (take_point bs) (fun '(T_3, bs) => bind (take_point bs) (fun '(T_4, bs) =>
      bind (take_point bs) (fun '(T_5, bs) => bind (take_point bs) (fun '(T_6, bs) =>
      let '(t_x, bs) := take_scalar bs in
      let '(t_xb, bs) := take_scalar bs in
      let '(e_bl, bs) := take_scalar bs in
      bind (ipp_from_bytes e bs) (fun ip =>
      Val {| r_AI1 := A_I1; r_AO1 := A_O1; r_S1 := S1; r_AI2 := A_I2; r_AO2 := A_O2; r_S2 := S2;
             r_T1 := T_1; r_T3 := T_3; r_T4 := T_4; r_T5 := T_5; r_T6 := T_6;
             r_tx := t_x; r_txb := t_xb; r_eb := e_bl; r_ipp := ip |}))))))))))
  end.
End R1cs.
