(** Model of the sumcheck argument and the protocols built on it:
    yacl/crypto/experimental/zkp/sumcheck/{polynomial,sumcheck,logup,matmul_check}.cc.

    Field elements are MPInt values, modelled as Z with the modular operations
    of VssModel; a thrown exception is None.  Every RandFieldElem draw is an
    explicit argument.  Sizes are powers of two below 2^32 in the code
    (1U << k); the model has no bound on k. *)
From Coq Require Import ZArith List Bool.
From Verif Require Import ZpLib VssModel.
Import ListNotations.
Open Scope Z_scope.

(** MultilinearPolynomial (constructor), polynomial.cc:24-33: a non-empty
    vector whose size is a power of two; num_vars is the (floating point, exact
    for powers of two) log2 of its size.  The value is the vector of
    evaluations itself. *)
Definition make_poly (evals : list Z) : option (list Z) :=
  if Nat.eqb (length evals) (2 ^ Nat.log2 (length evals)) then Some evals else None.
Definition num_vars (evals : list Z) : nat := Nat.log2 (length evals).

(** One folding step, shared by MultilinearPolynomial::Evaluate
    (polynomial.cc:52-72) and SumcheckProver::ProcessChallenge
    (sumcheck.cc:85-105): entry j becomes v[j] * (1 - r) + v[j + half] * r. *)
Definition fold_half (modulus : Z) (v : list Z) (r : Z) : list Z :=
  let half := (length v / 2)%nat in
  let one_minus_r := sub_mod 1 r modulus in
  map (fun j => add_mod (mul_mod (nth j v 0) one_minus_r modulus)
                        (mul_mod (nth (j + half) v 0) r modulus) modulus)
      (seq 0 half).
Fixpoint evaluate_loop (modulus : Z) (v : list Z) (r : list Z) : Z :=
  match r with
  | [] => nth 0 v 0
  | ri :: r' => evaluate_loop modulus (fold_half modulus v ri) r'
  end.
(** MultilinearPolynomial::Evaluate, polynomial.cc:41-74. *)
Definition evaluate (modulus : Z) (g : list Z) (r : list Z) : option Z :=
  if Nat.eqb (length r) (num_vars g) then Some (evaluate_loop modulus g r) else None.

(** SumOverBooleanHypercube, polynomial.cc:80-87. *)
Definition sum_hypercube (modulus : Z) (evals : list Z) : Z :=
  fold_left (fun s v => add_mod s v modulus) evals 0.
(** MultiplyPolynomials, polynomial.cc:89-102: pointwise products. *)
Definition multiply_polynomials (modulus : Z) (p1 p2 : list Z) : option (list Z) :=
  if Nat.eqb (length p1) (length p2)
  then make_poly (map (fun i => mul_mod (nth i p1 0) (nth i p2 0) modulus) (seq 0 (length p1)))
  else None.
(** BuildEqPolynomial, polynomial.cc:104-125. *)
Definition build_eq (modulus : Z) (r : list Z) : list Z :=
  let k := length r in
  map (fun i => fold_left (fun res j =>
                  mul_mod res (if Nat.testbit i (k - 1 - j) then nth j r 0 else sub_mod 1 (nth j r 0) modulus) modulus)
                (seq 0 k) 1)
      (seq 0 (2 ^ k)).
(** BuildAlphaPolynomial, polynomial.cc:127-138. *)
Fixpoint alpha_loop (modulus alpha cur : Z) (n : nat) : list Z :=
  match n with O => [] | S n' => cur :: alpha_loop modulus alpha (mul_mod cur alpha modulus) n' end.
Definition build_alpha (modulus : Z) (num_vars : nat) (alpha : Z) : list Z :=
  alpha_loop modulus alpha 1 (2 ^ num_vars).

(** EvaluateUnivariate, sumcheck.cc:24-32: Horner from the last coefficient. *)
Definition evaluate_univariate (modulus : Z) (poly : list Z) (x : Z) : Z :=
  fold_left (fun res c => add_mod (mul_mod res x modulus) c modulus) (rev poly) 0.
(** ComputeAlphaSum, sumcheck.cc:35-57: N itself, unreduced, when alpha is one;
    otherwise the geometric formula, whose inversion may throw. *)
Definition compute_alpha_sum (modulus : Z) (num_vars : nat) (alpha : Z) : option Z :=
  let n := 2 ^ Z.of_nat num_vars in
  if alpha =? 1 then Some n
  else let numerator := sub_mod (alpha ^ n mod modulus) 1 modulus in
       match invert_mod (sub_mod alpha 1 modulus) modulus with
       | None => None
       | Some inv => Some (mul_mod numerator inv modulus)
       end.

(** SumcheckProver::ComputeNextRoundPoly, sumcheck.cc:67-83. *)
Definition next_round_poly (modulus : Z) (v : list Z) : list Z :=
  let half := (length v / 2)%nat in
  let at0 := fold_left (fun s j => add_mod s (nth j v 0) modulus) (seq 0 half) 0 in
  let at1 := fold_left (fun s j => add_mod s (nth (j + half) v 0) modulus) (seq 0 half) 0 in
  [at0; sub_mod at1 at0 modulus].

(** SumcheckVerifier::VerifyRound, sumcheck.cc:119-141: None rejects; Some is
    the new expected sum after drawing the challenge. *)
Definition verify_round (modulus : Z) (expected : Z) (round_poly : list Z) (challenge : Z) : option Z :=
  match round_poly with
  | [a0; a1] =>
      let at1 := add_mod a0 a1 modulus in
      if add_mod a0 at1 modulus =? expected
      then Some (evaluate_univariate modulus round_poly challenge)
      else None
  | _ => None
  end.

(** The verifier against an arbitrary prover.  The prover is any function from
    the challenges sent so far to its next message, and from all challenges to
    its claimed final evaluation.  challenges are the verifier's draws, one per
    round; seen accumulates challenges_.  The loop of RunSumcheckProtocol,
    sumcheck.cc:160-167, then FinalCheck, sumcheck.cc:143-152. *)
Fixpoint verifier_run (modulus : Z) (g : list Z) (prover : list Z -> list Z) (final : list Z -> Z)
    (expected : Z) (seen challenges : list Z) : bool :=
  match challenges with
  | [] => match evaluate modulus g seen with
          | None => false
          | Some check => (check =? final seen) && (expected =? final seen)
          end
  | r :: challenges' =>
      match verify_round modulus expected (prover seen) r with
      | None => false
      | Some expected' => verifier_run modulus g prover final expected' (seen ++ [r]) challenges'
      end
  end.

(** The honest prover as such a function: its state after the challenges seen
    is the polynomial folded by them (ProcessChallenge, sumcheck.cc:85-105). *)
Definition folded (modulus : Z) (g : list Z) (seen : list Z) : list Z :=
  fold_left (fold_half modulus) seen g.
Definition honest_prover (modulus : Z) (g : list Z) (seen : list Z) : list Z :=
  next_round_poly modulus (folded modulus g seen).
(** GetFinalEvaluation, sumcheck.cc:107-111. *)
Definition honest_final (modulus : Z) (g : list Z) (seen : list Z) : Z := nth 0 (folded modulus g seen) 0.

(** RunSumcheckProtocol, sumcheck.cc:154-171; tape gives the challenges. *)
Definition run_sumcheck (modulus : Z) (g : list Z) (claimed : Z) (tape : nat -> Z) : bool :=
  verifier_run modulus g (honest_prover modulus g) (honest_final modulus g) claimed []
    (map tape (seq 0 (num_vars g))).

(** RunZeroCheckProtocol, sumcheck.cc:173-187. *)
Definition run_zero_check (modulus : Z) (a : list Z) (r_eq : nat -> Z) (tape : nat -> Z) : option bool :=
  match multiply_polynomials modulus a (build_eq modulus (map r_eq (seq 0 (num_vars a)))) with
  | None => None
  | Some g => Some (run_sumcheck modulus g 0 tape)
  end.
(** RunOneCheckProtocol, sumcheck.cc:189-198. *)
Definition run_one_check (modulus : Z) (y : list Z) (alpha : Z) (tape : nat -> Z) : option bool :=
  match compute_alpha_sum modulus (num_vars y) alpha,
        multiply_polynomials modulus y (build_alpha modulus (num_vars y) alpha) with
  | Some claimed, Some g => Some (run_sumcheck modulus g claimed tape)
  | _, _ => None
  end.

(** ** LogUp *)
(** The h_A half of LogUpProver::Setup, logup.cc:48-66: (h_A, q_A). *)
Fixpoint setup_a (modulus zeta : Z) (fa : list Z) : option (list Z * list Z) :=
  match fa with
  | [] => Some ([], [])
  | a :: fa' =>
      let d := sub_mod zeta a modulus in
      if d =? 0 then None
      else match invert_mod d modulus, setup_a modulus zeta fa' with
           | Some i, Some (h, q) => Some (i :: h, 0 :: q)
           | _, _ => None
           end
  end.
(** The h_B half, logup.cc:76-105: (h_B, q_B). *)
Fixpoint setup_b (modulus zeta : Z) (fb mb : list Z) : option (list Z * list Z) :=
  match fb, mb with
  | [], _ => Some ([], [])
  | _ :: _, [] => None
  | b :: fb', m :: mb' =>
      if m =? 0 then
        match setup_b modulus zeta fb' mb' with
        | Some (h, q) => Some (0 :: h, 0 :: q)
        | None => None
        end
      else
        let d := sub_mod zeta b modulus in
        if d =? 0 then None
        else match invert_mod d modulus, setup_b modulus zeta fb' mb' with
             | Some i, Some (h, q) =>
                 let hv := mul_mod m i modulus in
                 Some (hv :: h, sub_mod (mul_mod hv d modulus) m modulus :: q)
             | _, _ => None
             end
  end.
(** RunLogUpProtocol, logup.cc:139-151, with LogUpVerifier::Verify,
    logup.cc:124-137.  The four sub-protocols draw from separate tapes. *)
Record logup_tapes := { t_ha : nat -> Z; t_hb : nat -> Z; e_qa : nat -> Z; t_qa : nat -> Z; e_qb : nat -> Z; t_qb : nat -> Z }.
Definition run_logup (modulus : Z) (fa fb mb : list Z) (zeta : Z) (t : logup_tapes) : option bool :=
  match make_poly fa, make_poly fb, make_poly mb with
  | Some fa, Some fb, Some mb =>
      if negb (Nat.eqb (num_vars fb) (num_vars mb)) then None
      else match setup_a modulus zeta fa, setup_b modulus zeta fb mb with
           | Some (ha, qa), Some (hb, qb) =>
               let sa := sum_hypercube modulus ha in
               let sb := sum_hypercube modulus hb in
               if negb (sa =? sb) then Some false
               else if negb (run_sumcheck modulus ha sa (t_ha t)) then Some false
               else if negb (run_sumcheck modulus hb sb (t_hb t)) then Some false
               else match run_zero_check modulus qa (e_qa t) (t_qa t) with
                    | None => None
                    | Some false => Some false
                    | Some true => run_zero_check modulus qb (e_qb t) (t_qb t)
                    end
           | _, _ => None
           end
  | _, _, _ => None
  end.

(** ** Matrix products *)
(** The bits of i, most significant first, matmul_check.cc:49-54 and 97-102. *)
Definition bits_msb (n i : nat) : list Z :=
  map (fun j => if Nat.testbit i (n - 1 - j) then 1 else 0) (seq 0 n).
(** MatMatMultiplication, matmul_check.cc:22-73. *)
Definition mat_mat (modulus : Z) (a b : list Z) (u v : list Z) : option Z :=
  let lm := length u in let lp := length v in
  if Nat.leb (num_vars a) lm then None
  else if Nat.leb (num_vars b) lp then None
  else let ln := (num_vars a - lm)%nat in
       if negb (Nat.eqb ln (num_vars b - lp)) then None
       else fold_left (fun acc i =>
              match acc, evaluate modulus a (u ++ bits_msb ln i), evaluate modulus b (bits_msb ln i ++ v) with
              | Some s, Some ea, Some eb => Some (add_mod s (mul_mod ea eb modulus) modulus)
              | _, _, _ => None
              end) (seq 0 (2 ^ ln)) (Some 0).
(** MatVecMultiplication, matmul_check.cc:75-116. *)
Definition mat_vec (modulus : Z) (m t : list Z) (r : list Z) : option Z :=
  let lr := length r in
  if Nat.leb (num_vars m) lr then None
  else let ln := (num_vars m - lr)%nat in
       if negb (Nat.eqb ln (num_vars t)) then None
       else fold_left (fun acc i =>
              match acc, evaluate modulus m (r ++ bits_msb ln i), evaluate modulus t (bits_msb ln i) with
              | Some s, Some em, Some et => Some (add_mod s (mul_mod em et modulus) modulus)
              | _, _, _ => None
              end) (seq 0 (2 ^ ln)) (Some 0).
