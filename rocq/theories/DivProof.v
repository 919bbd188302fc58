(** A verified checker for schoolbook division circuits. *)
From Coq Require Import ZArith NArith List Bool Arith Lia FMapPositive.
From Verif Require Import LinCodeModel CircuitModel CircuitProof CircuitProps CircuitCheck BuiltinProof.
Import ListNotations.
Open Scope nat_scope.

(** Wire [w] is the function of the leaves with the truth table [pat]. *)
Definition fun_check (gm : PositiveMap.t gate) (leaves : list N) (w pat : N) : bool :=
  (length leaves <=? 5) &&
  match table gm leaves 8 w with Some t => (N.land t (2 ^ (2 ^ N.of_nat (length leaves)) - 1) =? pat)%N | None => false end.
Lemma fun_check_sound : forall gs v, Forall (holds v) gs -> forall leaves w pat, fun_check (gate_map gs) leaves w pat = true ->
  v w = N.testbit pat (point v leaves).
Proof.
  intros gs v H leaves w pat E. unfold fun_check in E. apply andb_true_iff in E. destruct E as [E5 E]. apply Nat.leb_le in E5.
  destruct (table (gate_map gs) leaves 8 w) as [t|] eqn:T; [|discriminate]. apply N.eqb_eq in E.
  rewrite (table_sound gs v H leaves E5 8 w t T). rewrite <- E, N.land_spec.
  replace (2 ^ 2 ^ N.of_nat (length leaves) - 1)%N with (N.ones (2 ^ N.of_nat (length leaves)))
    by (rewrite N.ones_equiv; symmetry; apply N.sub_1_r).
  rewrite N.ones_spec_low; [rewrite andb_true_r; reflexivity|].
  pose proof (number_bound (map v leaves)) as B. rewrite map_length in B. exact B.
Qed.

Section Div.
  Variable gs : list gate.
  Variable v : N -> bool.
  Hypothesis Hv : Forall (holds v) gs.
  Let gm := gate_map gs.
  Definition num (l : list N) : Z := Z.of_N (number (map v l)).
  Lemma num_cons : forall x l, num (x :: l) = (b2z (v x) + 2 * num l)%Z.
  Proof. intros x l. unfold num. cbn [map number]. destruct (v x); unfold b2z; lia. Qed.
  Lemma num_bound : forall l, (0 <= num l < 2 ^ Z.of_nat (length l))%Z.
  Proof.
    intro l. unfold num. pose proof (number_bound (map v l)) as B. rewrite map_length in B. split; [lia|].
    rewrite <- (nat_N_Z (length l)). change 2%Z with (Z.of_N 2). rewrite <- N2Z.inj_pow. lia.
  Qed.
  Lemma num_app : forall a b, num (a ++ b) = (num a + 2 ^ Z.of_nat (length a) * num b)%Z.
  Proof.
    intros a b. unfold num. rewrite map_app, number_app, map_length. rewrite N2Z.inj_add, N2Z.inj_mul, N2Z.inj_pow, nat_N_Z. reflexivity.
  Qed.
End Div.

(** Subtraction bit by bit: (difference, borrow) from x, y and the borrow before. *)
Fixpoint sub_bits (gm : PositiveMap.t gate) (T D : list N) (c : option N) (bits : list (N * N)) : bool :=
  match T, D, bits with
  | [], _, [] => true
  | x :: T', y :: D', (d, c') :: bits' =>
      match c with
      | Some z => fun_check gm [x; y; z] d 0x96 && fun_check gm [x; y; z] c' 0xD4
      | None => fun_check gm [x; y] d 6 && fun_check gm [x; y] c' 4
      end && sub_bits gm T' D' (Some c') bits'
  | _, _, _ => false
  end.
Fixpoint last_carry (c : option N) (bits : list (N * N)) : option N :=
  match bits with [] => c | (_, c') :: bits' => last_carry (Some c') bits' end.
Definition cval (v : N -> bool) (c : option N) : Z := match c with Some z => b2z (v z) | None => 0%Z end.
Lemma sub_bits_sound : forall gs v, Forall (holds v) gs -> forall T D c bits, sub_bits (gate_map gs) T D c bits = true ->
  (num v T - num v (firstn (length T) D) - cval v c =
   num v (map fst bits) - 2 ^ Z.of_nat (length T) * cval v (last_carry c bits))%Z /\ length bits = length T /\ length T <= length D.
Proof.
  intros gs v Hv. induction T as [|x T IH]; intros D c bits E.
  - destruct bits; [|destruct D; discriminate]. cbn [length firstn map last_carry]. unfold num. cbn [map number].
    change (2 ^ Z.of_nat 0)%Z with 1%Z. split; [lia|]. split; [reflexivity|lia].
  - destruct D as [|y D]; [discriminate|]. destruct bits as [|[d c'] bits]; [discriminate|]. cbn [sub_bits] in E.
    apply andb_true_iff in E. destruct E as [E1 E2]. destruct (IH D (Some c') bits E2) as [K [L1 L2]].
    cbn [length firstn map fst last_carry]. rewrite !num_cons. rewrite Nat2Z.inj_succ, Z.pow_succ_r by lia.
    split; [|split; lia]. set (P := (2 ^ Z.of_nat (length T))%Z) in *. set (F := cval v (last_carry (Some c') bits)) in *.
    assert (B : (b2z (v x) - b2z (v y) - cval v c = b2z (v d) - 2 * cval v (Some c'))%Z).
    { destruct c as [z|]; apply andb_true_iff in E1; destruct E1 as [Ed Ec];
      rewrite (fun_check_sound gs v Hv _ _ _ Ed); cbn [cval]; rewrite (fun_check_sound gs v Hv _ _ _ Ec); unfold point; cbn [map number].
      - destruct (v x), (v y), (v z); reflexivity.
      - destruct (v x), (v y); reflexivity. }
    lia.
Qed.

(** Selection bit by bit. *)
Fixpoint mux_bits (gm : PositiveMap.t gate) (nq : N) (T ds rs : list N) : bool :=
  match T, ds, rs with
  | [], [], [] => true
  | x :: T', d :: ds', r :: rs' => fun_check gm [nq; x; d] r 0xD8 && mux_bits gm nq T' ds' rs'
  | _, _, _ => false
  end.
Lemma mux_bits_sound : forall gs v, Forall (holds v) gs -> forall nq T ds rs, mux_bits (gate_map gs) nq T ds rs = true ->
  num v rs = (if v nq then num v T else num v ds) /\ length rs = length T.
Proof.
  intros gs v Hv nq. induction T as [|x T IH]; intros [|d ds] [|r rs] E; try discriminate; [destruct (v nq); split; reflexivity|].
  cbn [mux_bits] in E. apply andb_true_iff in E. destruct E as [E1 E2]. destruct (IH _ _ E2) as [K L]. rewrite !num_cons, K.
  rewrite (fun_check_sound gs v Hv _ _ _ E1). unfold point. cbn [map number length]. split; [|lia].
  destruct (v nq), (v x), (v d); reflexivity.
Qed.

(** Wire [k] of [hs] says whether some bit of [D] from [k] on is set. *)
Fixpoint or_check (gm : PositiveMap.t gate) (D hs : list N) : bool :=
  match D, hs with
  | [], [] => true
  | d :: D', h :: hs' => or_check gm D' hs' && match hs' with [] => (h =? d)%N | h' :: _ => fun_check gm [h'; d] h 0xE end
  | _, _ => false
  end.
Lemma or_check_sound : forall gs v, Forall (holds v) gs -> forall D hs, or_check (gate_map gs) D hs = true ->
  length hs = length D /\ match hs with [] => True | h :: _ => v h = negb (num v D =? 0)%Z end.
Proof.
  intros gs v Hv. induction D as [|d D IH]; intros [|h hs] E; try discriminate; [split; [reflexivity|exact I]|].
  cbn [or_check] in E. apply andb_true_iff in E. destruct E as [E1 E2]. destruct (IH _ E1) as [L K]. cbn [length].
  split; [lia|]. rewrite num_cons. pose proof (num_bound v D) as B. destruct hs as [|h' hs].
  - destruct D; [|discriminate]. apply N.eqb_eq in E2. subst h. unfold num. cbn [map number]. destruct (v d); reflexivity.
  - rewrite (fun_check_sound gs v Hv _ _ _ E2). unfold point. cbn [map number]. rewrite K.
    destruct (Z.eqb_spec (num v D) 0) as [->|Hn]; cbn [negb].
    + destruct (v d); reflexivity.
    + destruct (Z.eqb_spec (b2z (v d) + 2 * num v D) 0) as [Hz|_]; [destruct (v d); unfold b2z in Hz; lia|]. destruct (v d); reflexivity.
Qed.
Lemma or_check_tl : forall gm D hs, or_check gm D hs = true -> or_check gm (tl D) (tl hs) = true.
Proof.
  intros gm [|d D] [|h hs] E; try discriminate; [reflexivity|]. cbn [or_check tl] in *. apply andb_true_iff in E. tauto.
Qed.

(** One row of the division: the differences and borrows, the new remainder, and the wire that
    says that the divisor is larger. *)
Record drow := Drow { dr_bits : list (N * N); dr_rem : list N; dr_nq : N }.
Fixpoint div_rows (gm : PositiveMap.t gate) (A D hs R : list N) (rows : list drow) : bool :=
  match A, rows with
  | [], [] => true
  | a :: A', row :: rows' =>
      let T := a :: R in
      sub_bits gm T D None (dr_bits row) &&
      match last_carry None (dr_bits row) with
      | None => false
      | Some c => match hs with h :: _ => fun_check gm [c; h] (dr_nq row) 0xE | [] => (dr_nq row =? c)%N end
      end &&
      match rows' with [] => true | _ :: _ => mux_bits gm (dr_nq row) T (map fst (dr_bits row)) (dr_rem row) end &&
      div_rows gm A' D (tl hs) (dr_rem row) rows'
  | _, _ => false
  end.

Lemma row_sound : forall gs v, Forall (holds v) gs -> forall T D hs row c,
  or_check (gate_map gs) (skipn (length T) D) hs = true ->
  sub_bits (gate_map gs) T D None (dr_bits row) = true -> last_carry None (dr_bits row) = Some c ->
  match hs with h :: _ => fun_check (gate_map gs) [c; h] (dr_nq row) 0xE | [] => (dr_nq row =? c)%N end = true ->
  v (dr_nq row) = (num v T <? num v D)%Z /\
  (v (dr_nq row) = false -> num v (map fst (dr_bits row)) = num v T - num v D)%Z.
Proof.
  intros gs v Hv T D hs row c Eh Es Ec En.
  destruct (sub_bits_sound gs v Hv _ _ _ _ Es) as [K [L1 L2]]. rewrite Ec in K. cbn [cval] in K.
  destruct (or_check_sound gs v Hv _ _ Eh) as [Lh Hh].
  set (t := length T) in *.
  assert (HD : num v D = (num v (firstn t D) + 2 ^ Z.of_nat t * num v (skipn t D))%Z).
  { rewrite <- (firstn_skipn t D) at 1. rewrite num_app, firstn_length_le by exact L2. reflexivity. }
  pose proof (num_bound v T) as BT. fold t in BT. pose proof (num_bound v (firstn t D)) as BL. rewrite firstn_length_le in BL by exact L2.
  pose proof (num_bound v (map fst (dr_bits row))) as BD. rewrite map_length, L1 in BD.
  pose proof (num_bound v (skipn t D)) as BH.
  assert (HP : (0 < 2 ^ Z.of_nat t)%Z) by (apply Z.pow_pos_nonneg; lia).
  set (P := (2 ^ Z.of_nat t)%Z) in *.
  assert (Hnq : v (dr_nq row) = v c || negb (num v (skipn t D) =? 0)%Z).
  { destruct hs as [|h hs].
    - apply N.eqb_eq in En. rewrite En. cbn [length] in Lh. symmetry in Lh. apply length_zero_iff_nil in Lh. rewrite Lh.
      change (num v []) with 0%Z. cbn. rewrite orb_false_r. reflexivity.
    - rewrite (fun_check_sound gs v Hv _ _ _ En). unfold point. cbn [map number]. rewrite Hh.
      destruct (v c), (negb (num v (skipn t D) =? 0)%Z); reflexivity. }
  rewrite Hnq. rewrite HD. destruct (Z.eqb_spec (num v (skipn t D)) 0) as [Hz|Hz]; cbn [negb].
  - rewrite Hz, Z.mul_0_r, Z.add_0_r, orb_false_r. destruct (v c); unfold b2z in K.
    + split; [|discriminate]. symmetry. apply Z.ltb_lt. lia.
    + split; [symmetry; apply Z.ltb_ge; lia|]. intros _. lia.
  - rewrite orb_true_r. split; [|discriminate]. symmetry. apply Z.ltb_lt. nia.
Qed.

(** Bits from the highest down. *)
Definition numh (v : N -> bool) (l : list N) : Z := num v (rev l).
Lemma numh_cons : forall v x l, numh v (x :: l) = (b2z (v x) * 2 ^ Z.of_nat (length l) + numh v l)%Z.
Proof.
  intros v x l. unfold numh. cbn [rev]. rewrite num_app, rev_length, num_cons. change (num v []) with 0%Z. lia.
Qed.
(** The quotient the rows spell: a bit is set when the divisor is not larger. *)
Fixpoint quotient (v : N -> bool) (rows : list drow) : Z :=
  match rows with [] => 0%Z | r :: rows' => (b2z (negb (v (dr_nq r))) * 2 ^ Z.of_nat (length rows') + quotient v rows')%Z end.

Lemma div_rows_sound : forall gs v, Forall (holds v) gs -> forall A D hs R rows,
  or_check (gate_map gs) (skipn (S (length R)) D) hs = true -> div_rows (gate_map gs) A D hs R rows = true ->
  (0 < num v D)%Z -> (num v R < num v D)%Z ->
  length rows = length A /\
  quotient v rows = ((num v R * 2 ^ Z.of_nat (length A) + numh v A) / num v D)%Z.
Proof.
  intros gs v Hv. induction A as [|a A IH]; intros D hs R rows Eh E HD HR; destruct rows as [|row rows]; try discriminate.
  - split; [reflexivity|]. cbn [quotient length]. change (numh v []) with 0%Z. change (2 ^ Z.of_nat 0)%Z with 1%Z.
    rewrite Z.add_0_r, Z.mul_1_r. symmetry. apply Z.div_small. pose proof (num_bound v R). lia.
  - cbn [div_rows] in E. repeat rewrite andb_true_iff in E. destruct E as [[[E1 E2] E3] E4].
    destruct (last_carry None (dr_bits row)) as [c|] eqn:Ec; [|discriminate].
    destruct (row_sound gs v Hv (a :: R) D hs row c Eh E1 Ec E2) as [Q1 Q2].
    cbn [quotient length]. rewrite numh_cons.
    assert (HT : num v (a :: R) = (b2z (v a) + 2 * num v R)%Z) by apply num_cons.
    destruct rows as [|row2 rows].
    + destruct A as [|a2 A]; [|cbn [div_rows] in E4; discriminate]. split; [reflexivity|].
      cbn [quotient length]. change (numh v []) with 0%Z. change (2 ^ Z.of_nat 0)%Z with 1%Z. change (2 ^ Z.of_nat 1)%Z with 2%Z.
      replace (num v R * 2 + (b2z (v a) * 1 + 0))%Z with (num v (a :: R)) by lia. rewrite Q1.
      pose proof (num_bound v (a :: R)) as BT. pose proof (num_bound v R).
      destruct (Z.ltb_spec (num v (a :: R)) (num v D)) as [Hl|Hl]; cbn [negb b2z].
      * symmetry. rewrite Z.div_small by lia. lia.
      * symmetry. assert (b2z (v a) <= 1)%Z by (destruct (v a); cbn; lia).
        rewrite <- (Z.div_unique (num v (a :: R)) (num v D) 1 (num v (a :: R) - num v D)); lia.
    + destruct (mux_bits_sound gs v Hv _ _ _ _ E3) as [M1 M2]. cbn [length] in M2.
      destruct (IH D (tl hs) (dr_rem row) (row2 :: rows)) as [L Q]; [| |exact HD| |].
      * rewrite M2. replace (skipn (S (S (length R))) D) with (tl (skipn (S (length R)) D)); [apply or_check_tl; exact Eh|].
        clear. revert D. generalize (length R). intros n D. revert n. induction D as [|d D IH]; intro n; [destruct n; reflexivity|].
        destruct n as [|n]; [destruct D; reflexivity|]. exact (IH n).
      * exact E4.
      * rewrite M1. destruct (v (dr_nq row)) eqn:Eq.
        -- symmetry in Q1. apply Z.ltb_lt in Q1. exact Q1.
        -- rewrite (Q2 eq_refl). symmetry in Q1. apply Z.ltb_ge in Q1. pose proof (num_bound v R).
           assert (b2z (v a) <= 1)%Z by (destruct (v a); cbn; lia). lia.
      * split; [lia|]. rewrite Q. cbn [length] in L. set (n := length A) in *.
        assert (Hn : Z.of_nat (length (row2 :: rows)) = Z.of_nat n) by (cbn [length]; lia). rewrite Hn.
        rewrite Nat2Z.inj_succ, Z.pow_succ_r by lia. set (P := (2 ^ Z.of_nat n)%Z).
        replace (num v R * (2 * P) + (b2z (v a) * P + numh v A))%Z with (num v (a :: R) * P + numh v A)%Z by lia.
        rewrite M1. destruct (v (dr_nq row)) eqn:Eq; cbn [negb].
        -- cbn [b2z]. lia.
        -- rewrite (Q2 eq_refl).
           replace (num v (a :: R) * P + numh v A)%Z with (P * num v D + ((num v (a :: R) - num v D) * P + numh v A))%Z by lia.
           rewrite Z.div_add_l by lia. cbn [b2z]. lia.
Qed.
(** Division by zero: every row finds that the divisor is not larger. *)
Lemma div_rows_zero : forall gs v, Forall (holds v) gs -> forall A D hs R rows,
  or_check (gate_map gs) (skipn (S (length R)) D) hs = true -> div_rows (gate_map gs) A D hs R rows = true ->
  num v D = 0%Z -> Forall (fun r => v (dr_nq r) = false) rows.
Proof.
  intros gs v Hv. induction A as [|a A IH]; intros D hs R rows Eh E HD; destruct rows as [|row rows]; try discriminate; [constructor|].
  cbn [div_rows] in E. repeat rewrite andb_true_iff in E. destruct E as [[[E1 E2] E3] E4].
  destruct (last_carry None (dr_bits row)) as [c|] eqn:Ec; [|discriminate].
  destruct (row_sound gs v Hv (a :: R) D hs row c Eh E1 Ec E2) as [Q1 _].
  constructor.
  - rewrite Q1, HD. apply Z.ltb_ge. apply num_bound.
  - destruct rows as [|row2 rows]; [constructor|].
    destruct (mux_bits_sound gs v Hv _ _ _ _ E3) as [_ M2]. cbn [length] in M2.
    apply (IH D (tl hs) (dr_rem row)); [|exact E4|exact HD].
    rewrite M2. replace (skipn (S (S (length R))) D) with (tl (skipn (S (length R)) D)); [apply or_check_tl; exact Eh|].
    clear. revert D. generalize (length R). intros n D. revert n. induction D as [|d D IH]; intro n; [destruct n; reflexivity|].
    destruct n as [|n]; [destruct D; reflexivity|]. exact (IH n).
Qed.
