(** C63: the built-in signed division circuit. *)
From Coq Require Import ZArith NArith List Bool Arith Lia FMapPositive.
From Verif Require Import LinCodeModel CircuitModel CircuitProof CircuitProps CircuitCheck BuiltinProof DivProof SdivProof CircuitDataSdiv.
Import ListNotations.
Open Scope nat_scope.

(** The two's complement reading of a 64 bit word. *)
Definition signed (a : N) : Z := if (a <? 2 ^ 63)%N then Z.of_N a else (Z.of_N a - 2 ^ 64)%Z.

(** [rs] is [ns] when [s] is set and [xs] otherwise. *)
Fixpoint sel_bits (gm : PositiveMap.t gate) (s : N) (ns xs rs : list N) : bool :=
  match ns, xs, rs with
  | [], [], [] => true
  | n :: ns', x :: xs', r :: rs' =>
      (if (n =? x)%N then fun_check gm [s; n] r 0xC
       else if (s =? x)%N then fun_check gm [s; n] r 8 else fun_check gm [s; n; x] r 0xD8) && sel_bits gm s ns' xs' rs'
  | _, _, _ => false
  end.
Lemma sel_bits_sound : forall gs v, Forall (holds v) gs -> forall s ns xs rs, sel_bits (gate_map gs) s ns xs rs = true ->
  num v rs = (if v s then num v ns else num v xs).
Proof.
  intros gs v Hv s. induction ns as [|n ns IH]; intros [|x xs] [|r rs] E; try discriminate; [destruct (v s); reflexivity|].
  cbn [sel_bits] in E. apply andb_true_iff in E. destruct E as [E1 E2]. rewrite !num_cons, (IH _ _ E2).
  destruct (N.eqb_spec n x) as [Hn|_]; [|destruct (N.eqb_spec s x) as [Hs|_]];
  rewrite (fun_check_sound gs v Hv _ _ _ E1); unfold point; cbn [map number].
  - rewrite <- Hn. destruct (v s), (v n); reflexivity.
  - rewrite <- Hs. destruct (v s), (v n); reflexivity.
  - destruct (v s), (v n), (v x); reflexivity.
Qed.
(** [qs] are the complements of [ss]. *)
Definition inv_check (gm : PositiveMap.t gate) (ss qs : list N) : bool :=
  (length ss =? length qs) && forallb (fun p => fun_check gm [fst p] (snd p) 1) (combine ss qs).
Lemma inv_check_sound : forall gs v, Forall (holds v) gs -> forall ss qs, inv_check (gate_map gs) ss qs = true ->
  num v qs = numx v true ss.
Proof.
  intros gs v Hv ss qs E. apply andb_true_iff in E. destruct E as [L E]. apply Nat.eqb_eq in L. rewrite forallb_forall in E.
  assert (K : forall p, In p (combine ss qs) -> v (snd p) = negb (v (fst p))).
  { intros p Hp. specialize (E p Hp). cbv beta in E.
    rewrite (fun_check_sound gs v Hv _ _ _ E). unfold point. cbn [map number]. destruct (v (fst p)); reflexivity. }
  clear E. revert qs L K. induction ss as [|s ss IH]; intros [|q qs] L K; try discriminate; [reflexivity|].
  cbn [length] in L. injection L as L. rewrite num_cons, numx_cons, (IH qs L); [|intros p Hp; apply K; right; exact Hp].
  specialize (K (s, q) (or_introl eq_refl)). cbn [fst snd] in K. rewrite K. destruct (v s); reflexivity.
Qed.
Lemma numx_app : forall v i a b, numx v i (a ++ b) = (numx v i a + 2 ^ Z.of_nat (length a) * numx v i b)%Z.
Proof.
  intros v i a b. unfold numx. rewrite map_app, number_app, map_length. rewrite N2Z.inj_add, N2Z.inj_mul, N2Z.inj_pow, nat_N_Z. reflexivity.
Qed.
Lemma numx_num : forall v l, numx v false l = num v l.
Proof. intros v l. unfold numx, num. do 2 f_equal. apply map_ext. intro x. destruct (v x); reflexivity. Qed.
Lemma squotient_numx : forall v rows, squotient v rows = numx v true (rev (map sr_s rows)).
Proof.
  intro v. induction rows as [|r rows IH]; [reflexivity|]. cbn [squotient map rev]. rewrite numx_app, numx_cons, IH, rev_length, map_length.
  change (numx v true []) with 0%Z. destruct (v (sr_s r)); cbn [negb xorb b2z]; lia.
Qed.

Lemma sd_na : neg_bits (gate_map divide64_gates) false true (wires_from 0 64) None sdiv_na sdiv_ca = true.
Proof. vm_compute. reflexivity. Qed.
Lemma sd_nb : neg_bits (gate_map divide64_gates) false true (wires_from 64 64) None sdiv_nb sdiv_cb = true.
Proof. vm_compute. reflexivity. Qed.
Lemma sd_A : sel_bits (gate_map divide64_gates) 63 sdiv_na (wires_from 0 64) sdiv_A = true.
Proof. vm_compute. reflexivity. Qed.
Lemma sd_D : sel_bits (gate_map divide64_gates) 127 sdiv_nb (wires_from 64 64) sdiv_D = true.
Proof. vm_compute. reflexivity. Qed.
Lemma sd_P : neg_bits (gate_map divide64_gates) false false sdiv_D None sdiv_P sdiv_bP = true.
Proof. vm_compute. reflexivity. Qed.
Lemma sd_rows : sdiv_rows (gate_map divide64_gates) (rev sdiv_A) sdiv_D (firstn 63 sdiv_P) (nth 63 sdiv_P 0%N) sdiv_row = true.
Proof. vm_compute. reflexivity. Qed.
Lemma sd_Q : inv_check (gate_map divide64_gates) (rev (map sr_s sdiv_row)) sdiv_Q = true.
Proof. vm_compute. reflexivity. Qed.
Lemma sd_nq : neg_bits (gate_map divide64_gates) true true (rev (map sr_s sdiv_row)) None sdiv_nq sdiv_cq = true.
Proof. vm_compute. reflexivity. Qed.
Lemma sd_sign : fun_check (gate_map divide64_gates) [63; 127]%N 128 6 = true.
Proof. vm_compute. reflexivity. Qed.
Lemma sd_out : sel_bits (gate_map divide64_gates) 128 sdiv_nq sdiv_Q (wires_from 29990 64) = true.
Proof. vm_compute. reflexivity. Qed.
Lemma sd_runnable : runnable_b divide64 = true.
Proof. vm_compute. reflexivity. Qed.

(** What the circuit does for a zero divisor. *)
Definition by_zero (a : N) : N := (if a <? 2 ^ 63 then 2 ^ 64 - 1 else if a =? 2 ^ 63 then 2 else 1)%N.

Lemma top_bit : forall v w n, v (w + N.of_nat n)%N = (2 ^ Z.of_nat n <=? num v (wires_from w (S n)))%Z.
Proof.
  intros v w n. unfold wires_from. rewrite seq_S, map_app, num_app, map_length, seq_length. cbn [map].
  rewrite num_cons. change (num v []) with 0%Z.
  pose proof (num_bound v (map (fun i => (w + N.of_nat i)%N) (seq 0 n))) as B. rewrite map_length, seq_length in B.
  replace (0 + n) with n by lia. destruct (v (w + N.of_nat n)%N); unfold b2z; symmetry; [apply Z.leb_le|apply Z.leb_gt]; lia.
Qed.

(** The absolute value of a word. *)
Lemma abs_word : forall a (x y : Z) k, (0 <= x < 2 ^ 64)%Z -> (a < 2 ^ 64)%N ->
  (y = 2 ^ 64 * k - Z.of_N a - 0)%Z -> (0 <= y < 2 ^ 64)%Z ->
  x = (if (2 ^ 63 <=? Z.of_N a)%Z then y else Z.of_N a) -> x = Z.abs (signed a).
Proof.
  intros a x y k Hx Ha Hy By ->. unfold signed. destruct (Z.leb_spec (2 ^ 63) (Z.of_N a)) as [H|H].
  - destruct (N.ltb_spec a (2 ^ 63)); [lia|]. rewrite Z.abs_neq by lia. assert (k = 1)%Z by lia. subst k. lia.
  - destruct (N.ltb_spec a (2 ^ 63)); [|lia]. rewrite Z.abs_eq by lia. reflexivity.
Qed.

(** The truncated quotient of the signed values (INT64_MIN / -1 wraps to INT64_MIN). *)
Theorem sdiv64_correct : forall a b o, (a < 2 ^ 64)%N -> (b < 2 ^ 64)%N ->
  run_span 64 divide64 [a; b] [o] =
  Val [if (b =? 0)%N then by_zero a else Z.to_N ((signed a ÷ signed b) mod 2 ^ 64)].
Proof.
  intros a b o Ha Hb.
  destruct (run_one divide64 [a; b] o (fun x => x = if (b =? 0)%N then by_zero a else Z.to_N ((signed a ÷ signed b) mod 2 ^ 64)) 64)
    as [? [E ->]];
    [exact sd_runnable|reflexivity|reflexivity|reflexivity|split; [reflexivity|discriminate]|repeat constructor; assumption| |exact E].
  intros v Hg Hi. change (gates divide64) with divide64_gates in Hg. pose proof (Hi 0 ltac:(cbn; lia)) as H0. pose proof (Hi 1 ltac:(cbn; lia)) as H1. cbn [nth] in H0, H1.
  change (N.of_nat (0 * 64)) with 0%N in H0. change (N.of_nat (1 * 64)) with 64%N in H1.
  change (nw divide64 - 64)%N with 29990%N. change (N.to_nat 64) with 64.
  assert (NA : num v (wires_from 0 64) = Z.of_N a) by (unfold num; rewrite H0; reflexivity).
  assert (NB : num v (wires_from 64 64) = Z.of_N b) by (unfold num; rewrite H1; reflexivity).
  pose proof (top_bit v 0 63) as TA. change (0 + N.of_nat 63)%N with 63%N in TA. rewrite NA in TA.
  pose proof (top_bit v 64 63) as TB. change (64 + N.of_nat 63)%N with 127%N in TB. rewrite NB in TB.
  change (2 ^ Z.of_nat 63)%Z with (2 ^ 63)%Z in TA, TB.
  destruct (neg_bits_sound divide64_gates v Hg _ _ _ _ _ _ sd_na) as [_ [ka Ka]]. rewrite numx_num, NA in Ka.
  destruct (neg_bits_sound divide64_gates v Hg _ _ _ _ _ _ sd_nb) as [_ [kb Kb]]. rewrite numx_num, NB in Kb.
  change (2 ^ Z.of_nat (length (wires_from 0 64)))%Z with (2 ^ 64)%Z in Ka.
  change (2 ^ Z.of_nat (length (wires_from 64 64)))%Z with (2 ^ 64)%Z in Kb.
  pose proof (sel_bits_sound divide64_gates v Hg _ _ _ _ sd_A) as SA. rewrite TA, NA in SA.
  pose proof (sel_bits_sound divide64_gates v Hg _ _ _ _ sd_D) as SD. rewrite TB, NB in SD.
  assert (BA : (0 <= num v sdiv_A < 2 ^ 64)%Z) by exact (num_bound v sdiv_A).
  assert (BD : (0 <= num v sdiv_D < 2 ^ 64)%Z) by exact (num_bound v sdiv_D).
  assert (VA : num v sdiv_A = Z.abs (signed a)) by exact (abs_word a _ _ ka BA Ha Ka (num_bound v sdiv_na) SA).
  assert (VD : num v sdiv_D = Z.abs (signed b)) by exact (abs_word b _ _ kb BD Hb Kb (num_bound v sdiv_nb) SD).
  destruct (neg_bits_sound divide64_gates v Hg _ _ _ _ _ _ sd_P) as [_ [kp Kp]]. rewrite numx_num in Kp.
  change (2 ^ Z.of_nat (length sdiv_D))%Z with (2 ^ 64)%Z in Kp. cbn [bval] in Kp.
  assert (HP : num v sdiv_P = (num v (firstn 63 sdiv_P) + 2 ^ 63 * b2z (v (nth 63 sdiv_P 0%N)))%Z).
  { change sdiv_P with (firstn 63 sdiv_P ++ [nth 63 sdiv_P 0%N]) at 1. rewrite num_app, num_cons.
    change (num v []) with 0%Z. change (2 ^ Z.of_nat (length (firstn 63 sdiv_P)))%Z with (2 ^ 63)%Z. lia. }
  assert (BP : (0 <= num v (firstn 63 sdiv_P) < 2 ^ 63)%Z) by exact (num_bound v (firstn 63 sdiv_P)).
  pose proof (inv_check_sound divide64_gates v Hg _ _ sd_Q) as SQ. rewrite <- squotient_numx in SQ.
  destruct (neg_bits_sound divide64_gates v Hg _ _ _ _ _ _ sd_nq) as [_ [kq Kq]]. rewrite <- squotient_numx in Kq. cbn [bval] in Kq.
  change (2 ^ Z.of_nat (length (rev (map sr_s sdiv_row))))%Z with (2 ^ 64)%Z in Kq.
  pose proof (sel_bits_sound divide64_gates v Hg _ _ _ _ sd_out) as SO. rewrite SQ, Kq in SO.
  assert (TS : v 128%N = xorb (v 63%N) (v 127%N)).
  { rewrite (fun_check_sound divide64_gates v Hg _ _ _ sd_sign). unfold point. cbn [map number]. destruct (v 63%N), (v 127%N); reflexivity. }
  rewrite TS, TA, TB in SO.
  assert (BO : (0 <= num v (wires_from 29990 64) < 2 ^ 64)%Z) by exact (num_bound v (wires_from 29990 64)).
  assert (BQ : (0 <= num v sdiv_Q < 2 ^ 64)%Z) by exact (num_bound v sdiv_Q).
  apply N2Z.inj. change (Z.of_N (number (map v (wires_from 29990 64)))) with (num v (wires_from 29990 64)).
  assert (RA : numh v (rev sdiv_A) = num v sdiv_A) by (unfold numh; rewrite rev_involutive; reflexivity).
  destruct (N.eqb_spec b 0) as [->|Hn].
  - pose proof (sdiv_rows_zero divide64_gates v Hg 63 _ _ _ _ _ sd_rows) as K. rewrite RA in K.
    change (2 ^ Z.of_nat (length (rev sdiv_A)))%Z with (2 ^ 64)%Z in K. change (2 ^ Z.of_nat 63)%Z with (2 ^ 63)%Z in K.
    assert (D0 : num v sdiv_D = 0%Z) by exact VD.
    assert (P0 : num v (firstn 63 sdiv_P) = 0%Z /\ v (nth 63 sdiv_P 0%N) = false).
    { assert (num v sdiv_P < 2 ^ 64)%Z by exact (proj2 (num_bound v sdiv_P)).
      destruct (v (nth 63 sdiv_P 0%N)); cbn [b2z] in HP; split; try reflexivity; lia. }
    destruct P0 as [P0 P1]. rewrite P0 in K.
    rewrite K in SO; [|reflexivity|reflexivity|discriminate|exact D0|exact P1|lia].
    rewrite SO in BO |- *. rewrite VA in BO |- *. unfold by_zero, signed in *. clear - BO Ha.
    destruct (N.ltb_spec a (2 ^ 63)) as [Hl|Hl].
    + destruct (Z.leb_spec (2 ^ 63) (Z.of_N a)); [lia|]. rewrite Z.abs_eq in * by lia.
      destruct (Z.leb_spec (2 ^ 63) (0 * 2 ^ 64 + Z.of_N a)); [lia|]. cbn. lia.
    + destruct (Z.leb_spec (2 ^ 63) (Z.of_N a)); [|lia]. rewrite Z.abs_neq in * by lia. cbn [xorb] in *.
      change (2 ^ 63 <=? Z.of_N 0)%Z with false in *. cbv iota in *.
      destruct (N.eqb_spec a (2 ^ 63)) as [->|Hne].
      * change (2 ^ 63 <=? 0 * 2 ^ 64 + - (Z.of_N (2 ^ 63) - 2 ^ 64))%Z with true in *. cbv iota in *. lia.
      * destruct (Z.leb_spec (2 ^ 63) (0 * 2 ^ 64 + - (Z.of_N a - 2 ^ 64))); lia.
  - assert (SB : (0 < Z.abs (signed b) <= 2 ^ 63)%Z).
    { unfold signed. destruct (N.ltb_spec b (2 ^ 63)); lia. }
    destruct (sdiv_rows_sound divide64_gates v Hg 63 _ _ _ _ _ 0 sd_rows) as [_ K]; [reflexivity|reflexivity| | | |].
    + rewrite VD. exact SB.
    + rewrite VD. lia.
    + intros _. change (2 ^ Z.of_nat 63)%Z with (2 ^ 63)%Z.
      assert (num v sdiv_P < 2 ^ 64)%Z by exact (proj2 (num_bound v sdiv_P)).
      assert (0 <= num v sdiv_P)%Z by exact (proj1 (num_bound v sdiv_P)).
      destruct (v (nth 63 sdiv_P 0%N)); cbn [b2z] in HP |- *; lia.
    + rewrite RA, Z.mul_0_l, Z.add_0_l, VA, VD in K. rewrite K in SO.
      assert (Q : ((signed a ÷ signed b) mod 2 ^ 64 = num v (wires_from 29990 64))%Z); [|rewrite Q; lia].
      symmetry. rewrite SO in BO |- *.
      assert (HS : (signed a ÷ signed b)%Z =
        if xorb (2 ^ 63 <=? Z.of_N a)%Z (2 ^ 63 <=? Z.of_N b)%Z then (- (Z.abs (signed a) / Z.abs (signed b)))%Z else (Z.abs (signed a) / Z.abs (signed b))%Z).
      { rewrite <- Z.quot_div_nonneg by lia. clear - Ha Hb Hn. unfold signed.
        destruct (N.ltb_spec a (2 ^ 63)) as [Hl|Hl], (N.ltb_spec b (2 ^ 63)) as [Hr|Hr].
        - destruct (Z.leb_spec (2 ^ 63) (Z.of_N a)); [lia|]. destruct (Z.leb_spec (2 ^ 63) (Z.of_N b)); [lia|]. cbn [xorb].
          rewrite !Z.abs_eq by lia. reflexivity.
        - destruct (Z.leb_spec (2 ^ 63) (Z.of_N a)); [lia|]. destruct (Z.leb_spec (2 ^ 63) (Z.of_N b)); [|lia]. cbn [xorb].
          rewrite (Z.abs_eq (Z.of_N a)), (Z.abs_neq (Z.of_N b - 2 ^ 64)) by lia. rewrite Z.quot_opp_r by lia. lia.
        - destruct (Z.leb_spec (2 ^ 63) (Z.of_N a)); [|lia]. destruct (Z.leb_spec (2 ^ 63) (Z.of_N b)); [lia|]. cbn [xorb].
          rewrite (Z.abs_eq (Z.of_N b)), (Z.abs_neq (Z.of_N a - 2 ^ 64)) by lia. rewrite Z.quot_opp_l by lia. lia.
        - destruct (Z.leb_spec (2 ^ 63) (Z.of_N a)); [|lia]. destruct (Z.leb_spec (2 ^ 63) (Z.of_N b)); [|lia]. cbn [xorb].
          rewrite (Z.abs_neq (Z.of_N b - 2 ^ 64)), (Z.abs_neq (Z.of_N a - 2 ^ 64)) by lia. rewrite Z.quot_opp_opp by lia. reflexivity. }
      rewrite HS. destruct (xorb (2 ^ 63 <=? Z.of_N a)%Z (2 ^ 63 <=? Z.of_N b)%Z).
      * apply Z.mod_unique_pos with (- kq)%Z; [exact BO|]. lia.
      * symmetry. apply Z.mod_small. exact BO.
Qed.
Print Assumptions sdiv64_correct.
Example signed_div_cases :
  (map (fun p => Z.to_N ((signed (fst p) ÷ signed (snd p)) mod 2 ^ 64))
     [(7, 2); (2 ^ 64 - 7, 2); (7, 2 ^ 64 - 2); (2 ^ 63, 2 ^ 64 - 1)]
   = [3; 2 ^ 64 - 3; 2 ^ 64 - 3; 2 ^ 63])%N.
Proof. vm_compute. reflexivity. Qed.
