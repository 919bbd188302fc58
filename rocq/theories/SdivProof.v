(** A verified checker for non-restoring division circuits. *)
From Coq Require Import ZArith NArith List Bool Arith Lia FMapPositive.
From Verif Require Import LinCodeModel CircuitModel CircuitProof CircuitProps CircuitCheck BuiltinProof DivProof.
Import ListNotations.
Open Scope nat_scope.

(** Negation bit by bit. The bit to negate is the wire [x], or its complement when [xinv];
    the borrow so far is the wire [c] or, when [cinv], its complement. A pair is (result, next borrow). *)
Definition pat_n (xinv cinv : bool) : N := if xorb xinv cinv then 9 else 6.
Definition pat_c (xinv cinv : bool) : N :=
  match xinv, cinv with
  | false, false => 0xE (* x or c *)
  | false, true => 4 (* c and not x *)
  | true, false => 0xD (* c or not x *)
  | true, true => 8 (* c and x *)
  end%N.
Fixpoint neg_bits (gm : PositiveMap.t gate) (xinv cinv : bool) (X : list N) (c : option N) (ns cs : list N) : bool :=
  match X, ns with
  | [], [] => true
  | x :: X', n :: ns' =>
      match c with
      | None => fun_check gm [x] n (if xinv then 1 else 2)
      | Some c => fun_check gm [x; c] n (pat_n xinv cinv)
      end &&
      match X', cs with
      | [], [] => match ns' with [] => true | _ :: _ => false end
      | _ :: _, c' :: cs' =>
          match c with
          | None => fun_check gm [x] c' (if xorb xinv cinv then 1 else 2)
          | Some c => fun_check gm [x; c] c' (pat_c xinv cinv)
          end && neg_bits gm xinv cinv X' (Some c') ns' cs'
      | _, _ => false
      end
  | _, _ => false
  end.
Definition numx (v : N -> bool) (xinv : bool) (X : list N) : Z := Z.of_N (number (map (fun x => xorb xinv (v x)) X)).
Lemma numx_cons : forall v i x l, numx v i (x :: l) = (b2z (xorb i (v x)) + 2 * numx v i l)%Z.
Proof. intros v i x l. unfold numx. cbn [map number]. destruct (xorb i (v x)); unfold b2z; lia. Qed.
Definition bval (v : N -> bool) (cinv : bool) (c : option N) : Z := match c with Some z => b2z (xorb cinv (v z)) | None => 0%Z end.
Lemma neg_bits_sound : forall gs v, Forall (holds v) gs -> forall xinv cinv X c ns cs,
  neg_bits (gate_map gs) xinv cinv X c ns cs = true ->
  length ns = length X /\ exists k, (num v ns = 2 ^ Z.of_nat (length X) * k - numx v xinv X - bval v cinv c)%Z.
Proof.
  intros gs v Hv xinv cinv. induction X as [|x X IH]; intros c [|n ns] cs E; try discriminate.
  - split; [reflexivity|]. exists (bval v cinv c). change (num v []) with 0%Z. change (numx v xinv []) with 0%Z.
    change (2 ^ Z.of_nat (length (@nil N)))%Z with 1%Z. lia.
  - cbn [neg_bits] in E. apply andb_true_iff in E. destruct E as [E1 E2]. rewrite num_cons, numx_cons.
    destruct X as [|x2 X].
    + destruct cs; [|discriminate]. destruct ns; [|discriminate]. split; [reflexivity|].
      change (num v []) with 0%Z. change (numx v xinv []) with 0%Z. change (2 ^ Z.of_nat (length [x]))%Z with 2%Z.
      destruct c as [c|]; rewrite (fun_check_sound gs v Hv _ _ _ E1); unfold point; cbn [map number bval].
      * exists (if xorb xinv (v x) then 1 else if xorb cinv (v c) then 1 else 0)%Z.
        destruct xinv, cinv, (v x), (v c); reflexivity.
      * exists (if xorb xinv (v x) then 1 else 0)%Z. destruct xinv, (v x); reflexivity.
    + destruct cs as [|c' cs]; [discriminate|]. apply andb_true_iff in E2. destruct E2 as [E2 E3].
      destruct (IH (Some c') ns cs E3) as [L [k K]]. split; [cbn [length] in *; lia|]. exists k.
      replace (length (x :: x2 :: X)) with (S (length (x2 :: X))) by reflexivity. rewrite Nat2Z.inj_succ, Z.pow_succ_r by lia.
      set (P := (2 ^ Z.of_nat (length (x2 :: X)))%Z) in *.
      assert (B : (b2z (v n) + b2z (xorb xinv (v x)) + bval v cinv c = 2 * bval v cinv (Some c'))%Z); [|lia].
      destruct c as [c|]; rewrite (fun_check_sound gs v Hv _ _ _ E1); cbn [bval]; rewrite (fun_check_sound gs v Hv _ _ _ E2); unfold point; cbn [map number].
      * destruct xinv, cinv, (v x), (v c); reflexivity.
      * destruct xinv, cinv, (v x); reflexivity.
Qed.

(** One row: with [s] set, X + D; else X - D. The carries are [es], the top bit [top] and the
    bits below it, where they exist, [ps]. *)
Fixpoint addsub_bits (gm : PositiveMap.t gate) (s : N) (X D : list N) (e : option N) (es : list N) (top : N) (ps : option (list N)) : bool :=
  match X, D with
  | [x], [d] =>
      match e with Some e => fun_check gm [x; d; e] top 0x96 | None => false end &&
      match es, ps with [], (None | Some []) => true | _, _ => false end
  | x :: X', d :: D' =>
      match es with
      | [] => false
      | e' :: es' =>
          match e with
          | Some e => fun_check gm [x; d; e; s] e' 0xE8D4
          | None => fun_check gm [x; d; s] e' 0x84
          end &&
          match ps with
          | None => addsub_bits gm s X' D' (Some e') es' top None
          | Some [] => false
          | Some (p :: ps') =>
              match e with Some e => fun_check gm [x; d; e] p 0x96 | None => fun_check gm [x; d] p 6 end &&
              addsub_bits gm s X' D' (Some e') es' top (Some ps')
          end
      end
  | _, _ => false
  end.
Lemma addsub_sound : forall gs v, Forall (holds v) gs -> forall s X D e es top ps,
  addsub_bits (gate_map gs) s X D e es top ps = true ->
  exists n, length X = S n /\ length D = S n /\ exists L K,
    (0 <= L < 2 ^ Z.of_nat n)%Z /\
    ((if v s then num v X + num v D + cval v e else num v X - num v D - cval v e) =
     L + 2 ^ Z.of_nat n * b2z (v top) + 2 ^ Z.of_nat (S n) * K)%Z /\
    (forall l, ps = Some l -> length l = n /\ L = num v l).
Proof.
  intros gs v Hv s. induction X as [|x X IH]; intros D e es top ps E; [discriminate|].
  destruct D as [|d D]; [cbn [addsub_bits] in E; destruct X; discriminate|].
  destruct X as [|x2 X].
  - destruct D as [|d2 D].
    + cbn [addsub_bits] in E. apply andb_true_iff in E. destruct E as [E1 E2].
      destruct e as [e|]; [|discriminate]. exists 0. split; [reflexivity|]. split; [reflexivity|]. exists 0%Z.
      rewrite !num_cons. change (num v []) with 0%Z. rewrite (fun_check_sound gs v Hv _ _ _ E1). unfold point. cbn [map number cval].
      change (2 ^ Z.of_nat 0)%Z with 1%Z. change (2 ^ Z.of_nat 1)%Z with 2%Z.
      exists (if v s then (if v x then (if v d then 1 else if v e then 1 else 0) else if v d then (if v e then 1 else 0) else 0)
              else (if v x then (if v d then (if v e then -1 else 0) else 0) else (if v d then -1 else if v e then -1 else 0)))%Z.
      split; [lia|]. split; [destruct (v s), (v x), (v d), (v e); reflexivity|].
      intros l ->. destruct es; [|discriminate]. destruct l; [|discriminate]. split; reflexivity.
    + exfalso. cbn [addsub_bits] in E. destruct es; [discriminate|]. destruct ps as [[|p ps]|];
        repeat rewrite andb_true_iff in E; destruct D; intuition discriminate.
  - assert (E' : match es with
      | [] => false
      | e' :: es' =>
          match e with
          | Some e => fun_check (gate_map gs) [x; d; e; s] e' 0xE8D4
          | None => fun_check (gate_map gs) [x; d; s] e' 0x84
          end &&
          match ps with
          | None => addsub_bits (gate_map gs) s (x2 :: X) D (Some e') es' top None
          | Some [] => false
          | Some (p :: ps') =>
              match e with Some e => fun_check (gate_map gs) [x; d; e] p 0x96 | None => fun_check (gate_map gs) [x; d] p 6 end &&
              addsub_bits (gate_map gs) s (x2 :: X) D (Some e') es' top (Some ps')
          end
      end = true) by exact E. clear E.
    destruct es as [|e' es]; [discriminate|]. apply andb_true_iff in E'. destruct E' as [E1 E2].
    set (ps' := match ps with Some (_ :: l) => Some l | _ => None end).
    assert (R : addsub_bits (gate_map gs) s (x2 :: X) D (Some e') es top ps' = true).
    { destruct ps as [[|p ps]|]; [discriminate| |exact E2]. apply andb_true_iff in E2. exact (proj2 E2). }
    destruct (IH D (Some e') es top ps' R) as [n [L1 [L2 [L [K [B1 [B2 B3]]]]]]].
    exists (S n). split; [cbn [length] in *; lia|]. split; [cbn [length]; lia|].
    set (pb := xorb (xorb (v x) (v d)) (match e with Some e => v e | None => false end)).
    exists (b2z pb + 2 * L)%Z, K. rewrite (num_cons v x), (num_cons v d).
    rewrite (Nat2Z.inj_succ (S n)), Z.pow_succ_r by lia. rewrite (Nat2Z.inj_succ n) in *. rewrite Z.pow_succ_r in * by lia.
    set (P := (2 ^ Z.of_nat n)%Z) in *.
    split; [destruct pb; unfold b2z; lia|]. split.
    + assert (Hb : (if v s then b2z (v x) + b2z (v d) + cval v e = b2z pb + 2 * cval v (Some e')
                    else b2z (v x) - b2z (v d) - cval v e = b2z pb - 2 * cval v (Some e'))%Z).
      { unfold pb. destruct e as [e|]; cbn [cval]; rewrite (fun_check_sound gs v Hv _ _ _ E1); unfold point; cbn [map number].
        - destruct (v s), (v x), (v d), (v e); reflexivity.
        - destruct (v s), (v x), (v d); reflexivity. }
      destruct (v s); lia.
    + intros l ->. destruct l as [|p l]; [discriminate|]. apply andb_true_iff in E2. destruct E2 as [Ep _].
      destruct (B3 l eq_refl) as [B4 B5]. split; [cbn [length]; lia|]. rewrite num_cons, B5. unfold pb.
      destruct e as [e|]; rewrite (fun_check_sound gs v Hv _ _ _ Ep); unfold point; cbn [map number].
      * destruct (v x), (v d), (v e); cbn; lia.
      * destruct (v x), (v d); cbn; lia.
Qed.

(** The rows: from the sign of the last partial remainder and its other bits. *)
Record srow := Srow { sr_e : list N; sr_p : list N; sr_s : N }.
Fixpoint sdiv_rows (gm : PositiveMap.t gate) (A D P : list N) (s : N) (rows : list srow) : bool :=
  match A, rows with
  | [], [] => true
  | a :: A', row :: rows' =>
      addsub_bits gm s (a :: P) D None (sr_e row) (sr_s row) (match rows' with [] => None | _ => Some (sr_p row) end) &&
      sdiv_rows gm A' D (sr_p row) (sr_s row) rows'
  | _, _ => false
  end.
Fixpoint squotient (v : N -> bool) (rows : list srow) : Z :=
  match rows with [] => 0%Z | r :: rows' => (b2z (negb (v (sr_s r))) * 2 ^ Z.of_nat (length rows') + squotient v rows')%Z end.

Lemma sdiv_rows_sound : forall gs v, Forall (holds v) gs -> forall n A D P s rows R,
  sdiv_rows (gate_map gs) A D P s rows = true -> length D = S n -> (rows <> [] -> length P = n) ->
  (0 < num v D <= 2 ^ Z.of_nat n)%Z -> (0 <= R < num v D)%Z ->
  (rows <> [] -> num v P - 2 ^ Z.of_nat n * b2z (v s) = if v s then R - num v D else R)%Z ->
  length rows = length A /\
  squotient v rows = ((R * 2 ^ Z.of_nat (length A) + numh v A) / num v D)%Z.
Proof.
  intros gs v Hv n. induction A as [|a A IH]; intros D P s rows R E HD HP Hd HR Hs; destruct rows as [|row rows]; try discriminate.
  - split; [reflexivity|]. cbn [squotient length]. change (numh v []) with 0%Z. change (2 ^ Z.of_nat 0)%Z with 1%Z.
    rewrite Z.add_0_r, Z.mul_1_r. symmetry. apply Z.div_small. exact HR.
  - cbn [sdiv_rows] in E. apply andb_true_iff in E. destruct E as [E1 E2].
    specialize (HP ltac:(discriminate)). specialize (Hs ltac:(discriminate)).
    destruct (addsub_sound gs v Hv _ _ _ _ _ _ _ E1) as [m [L1 [L2 [L [K [B1 [B2 B3]]]]]]].
    assert (m = n) by lia. subst m. rewrite Nat2Z.inj_succ in B2. rewrite Z.pow_succ_r in B2 by lia. rewrite num_cons in B2. cbn [cval] in B2.
    set (M := (2 ^ Z.of_nat n)%Z) in *.
    assert (Ha : (0 <= b2z (v a) <= 1)%Z) by (destruct (v a); cbn; lia).
    assert (T : (L - M * b2z (v (sr_s row)) = 2 * R + b2z (v a) - num v D)%Z).
    { assert (exists k, (L - M * b2z (v (sr_s row)) = 2 * R + b2z (v a) - num v D + 2 * M * k)%Z) as [k Hk].
      { destruct (v s); destruct (v (sr_s row)); cbn [b2z] in *.
        - exists (- K)%Z. lia.
        - exists (1 - K)%Z. lia.
        - exists (-1 - K)%Z. lia.
        - exists (- K)%Z. lia. }
      assert (k = 0)%Z; [|subst k; lia]. destruct (v (sr_s row)); cbn [b2z] in *; nia. }
    set (R' := if v (sr_s row) then (2 * R + b2z (v a))%Z else (2 * R + b2z (v a) - num v D)%Z).
    assert (HR' : (0 <= R' < num v D)%Z).
    { unfold R'. destruct (v (sr_s row)); cbn [b2z] in T; lia. }
    destruct (IH D (sr_p row) (sr_s row) rows R' E2 HD) as [Q1 Q2].
    + intro Hn. destruct rows; [contradiction|]. exact (proj1 (B3 _ eq_refl)).
    + exact Hd.
    + exact HR'.
    + intro Hn. destruct rows; [contradiction|]. rewrite <- (proj2 (B3 _ eq_refl)), T. unfold R'. destruct (v (sr_s row)); lia.
    + split; [cbn [length]; lia|]. cbn [squotient length]. rewrite Q2, Q1, numh_cons.
      rewrite Nat2Z.inj_succ, Z.pow_succ_r by lia. set (W := (2 ^ Z.of_nat (length A))%Z).
      unfold R'. destruct (v (sr_s row)); cbn [negb b2z].
      * rewrite Z.mul_0_l, Z.add_0_l. f_equal. lia.
      * replace (R * (2 * W) + (b2z (v a) * W + numh v A))%Z
          with (W * num v D + ((2 * R + b2z (v a) - num v D) * W + numh v A))%Z by lia.
        rewrite Z.div_add_l by lia. lia.
Qed.
(** Division by zero: the rows shift the dividend in, so only its highest bit can turn up as a sign. *)
Lemma sdiv_rows_zero : forall gs v, Forall (holds v) gs -> forall n A D P s rows,
  sdiv_rows (gate_map gs) A D P s rows = true -> length D = S n -> (rows <> [] -> length P = n) -> A <> [] ->
  num v D = 0%Z -> v s = false -> (num v P * 2 ^ Z.of_nat (length A) + numh v A < 2 * 2 ^ Z.of_nat n)%Z ->
  squotient v rows = (2 ^ Z.of_nat (length A) - 1 - (if 2 ^ Z.of_nat n <=? num v P * 2 ^ Z.of_nat (length A) + numh v A then 1 else 0))%Z.
Proof.
  intros gs v Hv n. induction A as [|a A IH]; intros D P s rows E HD HP Hne Hd Hs HV; [contradiction|].
  destruct rows as [|row rows]; [discriminate|].
  cbn [sdiv_rows] in E. apply andb_true_iff in E. destruct E as [E1 E2]. specialize (HP ltac:(discriminate)).
  destruct (addsub_sound gs v Hv _ _ _ _ _ _ _ E1) as [m [L1 [L2 [L [K [B1 [B2 B3]]]]]]].
  assert (m = n) by lia. subst m. rewrite Nat2Z.inj_succ in B2. rewrite Z.pow_succ_r in B2 by lia. rewrite num_cons, Hs, Hd in B2. cbn [cval] in B2.
  set (M := (2 ^ Z.of_nat n)%Z) in *. pose proof (num_bound v P) as BP. rewrite HP in BP. fold M in BP.
  assert (Ha : (0 <= b2z (v a) <= 1)%Z) by (destruct (v a); cbn; lia).
  cbn [squotient length] in *. rewrite numh_cons in *. rewrite Nat2Z.inj_succ, Z.pow_succ_r in * by lia.
  pose proof (num_bound v (rev A)) as BA. rewrite rev_length in BA. change (num v (rev A)) with (numh v A) in BA.
  set (W := (2 ^ Z.of_nat (length A))%Z) in *.
  replace (num v P * (2 * W) + (b2z (v a) * W + numh v A))%Z with ((2 * num v P + b2z (v a)) * W + numh v A)%Z in * by lia.
  assert (HW : (0 < W)%Z) by (apply Z.pow_pos_nonneg; lia).
  assert (K0 : K = 0%Z) by (destruct (v (sr_s row)); cbn [b2z] in B2; nia). subst K.
  destruct A as [|a2 A].
  - destruct rows; [|cbn [sdiv_rows] in E2; discriminate]. cbn [squotient length] in *. change (numh v []) with 0%Z in *.
    change (2 ^ Z.of_nat 0)%Z with 1%Z in W. change (2 ^ Z.of_nat 0)%Z with 1%Z. subst W.
    destruct (Z.leb_spec M ((2 * num v P + b2z (v a)) * 1 + 0)); destruct (v (sr_s row)); cbn [b2z negb] in *; lia.
  - destruct rows as [|row2 rows]; [cbn [sdiv_rows] in E2; discriminate|].
    assert (HW2 : (2 <= W)%Z).
    { unfold W. cbn [length]. rewrite Nat2Z.inj_succ, Z.pow_succ_r by lia. pose proof (Z.pow_pos_nonneg 2 (Z.of_nat (length A))). lia. }
    destruct (B3 _ eq_refl) as [B4 B5].
    assert (Ht : v (sr_s row) = false).
    { destruct (v (sr_s row)); [|reflexivity]. exfalso. cbn [b2z] in B2. nia. }
    rewrite Ht in *. cbn [b2z negb] in *.
    rewrite (IH D (sr_p row) (sr_s row) (row2 :: rows) E2 HD (fun _ => B4)); [| discriminate | exact Hd | exact Ht |].
    + rewrite <- B5. fold W. replace L with (2 * num v P + b2z (v a))%Z by lia.
      assert (LL : length (row2 :: rows) = length (a2 :: A)).
      { clear - E2. revert E2. generalize (sr_p row) (sr_s row) (row2 :: rows) (a2 :: A). intros p s r l. revert p s r.
        induction l as [|x l IHl]; intros p s [|r rs] E; try discriminate; [reflexivity|]. cbn [sdiv_rows] in E.
        apply andb_true_iff in E. cbn [length]. f_equal. exact (IHl _ _ _ (proj2 E)). }
      change (S (length rows)) with (length (row2 :: rows)). rewrite LL. fold W. lia.
    + rewrite <- B5. fold W. replace L with (2 * num v P + b2z (v a))%Z by lia. exact HV.
Qed.
