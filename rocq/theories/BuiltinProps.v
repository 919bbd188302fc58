(** C62: the built-in 64 bit circuits compute their functions on every input. *)
From Coq Require Import ZArith NArith List Bool Arith Lia FMapPositive.
From Verif Require Import LinCodeModel CircuitModel CircuitProof CircuitProps CircuitCheck CircuitData CircuitDataMul BuiltinProof.
Import ListNotations.
Open Scope nat_scope.

Local Ltac start c w := 
  match goal with |- run_span 64 _ ?ins [?o] = Val [?r] =>
    destruct (run_one c ins o (fun x => x = r) w) as [? [E ->]];
    [vm_compute; reflexivity|reflexivity|reflexivity|reflexivity|split; [reflexivity|discriminate]|repeat constructor; assumption| |exact E] end.
Local Ltac inputs2 Hi H0 H1 :=
  pose proof (Hi 0 ltac:(cbn; lia)) as H0; pose proof (Hi 1 ltac:(cbn; lia)) as H1; cbn [nth] in H0, H1;
  change (N.of_nat (0 * 64)) with 0%N in H0; change (N.of_nat (1 * 64)) with 64%N in H1.
Local Ltac inputs1 Hi H0 :=
  pose proof (Hi 0 ltac:(cbn; lia)) as H0; cbn [nth] in H0; change (N.of_nat (0 * 64)) with 0%N in H0.

(** ** Addition: Add64Path *)
Definition add_cert : list step :=
  ha 0 0 64 440 377 :: map (fun k => let i := N.of_nat k in fa k i (64 + i) (376 + i) (440 + i) (377 + i)) (seq 1 62)
  ++ [fa_top 63 63 127 439 503].
Definition add_target : list (Z * N) := weighted 1 440 64 ++ weighted (-1) 0 64 ++ weighted (-1) 64 64.
Lemma add_checked : lin_check M64 (gate_map adder64_gates) 8 add_target 0 add_cert = true.
Proof. vm_compute. reflexivity. Qed.
Theorem add64_correct : forall a b o, (a < 2 ^ 64)%N -> (b < 2 ^ 64)%N ->
  run_span 64 adder64 [a; b] [o] = Val [((a + b) mod 2 ^ 64)%N].
Proof.
  intros a b o Ha Hb. start adder64 64%N.
  intros v Hg Hi. inputs2 Hi H0 H1.
  pose proof (lin_check_sound M64 adder64_gates v 8 add_target 0 add_cert ltac:(discriminate) Hg add_checked) as H.
  unfold add_target in H. rewrite !lin_app, !lin_weighted, H0, H1 in H.
  apply N2Z.inj. rewrite N2Z.inj_mod, N2Z.inj_add.
  apply (finish64 v 440 _ (- (Z.of_N a + Z.of_N b))).
  - etransitivity; [|exact H]. f_equal. lia.
  - rewrite Z.add_opp_diag_r. reflexivity.
Qed.

(** ** Subtraction: Sub64Path *)
Definition sub_cert : list step :=
  Step 1 [0; 64]%N [(1, 0%N); (-1, 64%N); (-1, 503%N); (2, 440%N)]%Z 0
  :: map (fun k => let i := N.of_nat k in fs k i (64 + i) (439 + i) (503 + i) (440 + i)) (seq 1 62)
  ++ [fa_top 63 63 127 502 566].
Definition sub_target : list (Z * N) := weighted 1 503 64 ++ weighted (-1) 0 64 ++ weighted 1 64 64.
Lemma sub_checked : lin_check M64 (gate_map sub64_gates) 8 sub_target 0 sub_cert = true.
Proof. vm_compute. reflexivity. Qed.
Theorem sub64_correct : forall a b o, (a < 2 ^ 64)%N -> (b < 2 ^ 64)%N ->
  run_span 64 sub64 [a; b] [o] = Val [((2 ^ 64 + a - b) mod 2 ^ 64)%N].
Proof.
  intros a b o Ha Hb. start sub64 64%N.
  intros v Hg Hi. inputs2 Hi H0 H1.
  pose proof (lin_check_sound M64 sub64_gates v 8 sub_target 0 sub_cert ltac:(discriminate) Hg sub_checked) as H.
  unfold sub_target in H. rewrite !lin_app, !lin_weighted, H0, H1 in H.
  apply N2Z.inj. rewrite N2Z.inj_mod, N2Z.inj_sub, N2Z.inj_add by lia.
  apply (finish64 v 503 _ (Z.of_N b - Z.of_N a)).
  - etransitivity; [|exact H]. f_equal. lia.
  - replace (Z.of_N (2 ^ 64) + Z.of_N a - Z.of_N b + (Z.of_N b - Z.of_N a))%Z with M64 by (unfold M64; change (Z.of_N (2 ^ 64)) with (2 ^ 64)%Z; lia). reflexivity.
Qed.

(** ** Negation: Neg64Path *)
Definition neg_cert : list step :=
  let c k := nth (k - 1) neg64_carries 0%N in
  Step 1 [0]%N [(-1, 0%N); (-1, 190%N); (-2, c 1%nat)]%Z (-2)
  :: map (fun k => let i := N.of_nat k in
       Step (2 ^ Z.of_nat k) [i; c k] [(-1, i); (1, c k); (-1, (190 + i)%N); (-2, c (S k))]%Z (-1)) (seq 1 62)
  ++ [Step (2 ^ 63) [63%N; c 63] [(-1, 63%N); (1, c 63%nat); (-1, 253%N)]%Z (-1)].
Definition neg_target : list (Z * N) := weighted 1 190 64 ++ weighted 1 0 64.
Lemma neg_checked : lin_check M64 (gate_map neg64_gates) 8 neg_target 0 neg_cert = true.
Proof. vm_compute. reflexivity. Qed.
Theorem neg64_correct : forall a o, (a < 2 ^ 64)%N -> run_span 64 neg64 [a] [o] = Val [((2 ^ 64 - a) mod 2 ^ 64)%N].
Proof.
  intros a o Ha. start neg64 64%N.
  intros v Hg Hi. inputs1 Hi H0.
  pose proof (lin_check_sound M64 neg64_gates v 8 neg_target 0 neg_cert ltac:(discriminate) Hg neg_checked) as H.
  unfold neg_target in H. rewrite !lin_app, !lin_weighted, H0 in H.
  apply N2Z.inj. rewrite N2Z.inj_mod, N2Z.inj_sub by lia.
  apply (finish64 v 190 _ (Z.of_N a)).
  - etransitivity; [|exact H]. f_equal. lia.
  - replace (Z.of_N (2 ^ 64) - Z.of_N a + Z.of_N a)%Z with M64 by (unfold M64; change (Z.of_N (2 ^ 64)) with (2 ^ 64)%Z; lia). reflexivity.
Qed.

(** ** Comparison with zero: EqzPath *)
Lemma eqz_checked : PositiveMap.find (key 190) (zeros 64 zero_equal_gates (PositiveMap.empty N)) = Some (2 ^ 64 - 1)%N.
Proof. vm_compute. reflexivity. Qed.
Theorem eqz64_correct : forall a o, (a < 2 ^ 64)%N -> run_span 64 zero_equal [a] [o] = Val [if (a =? 0)%N then 1%N else 0%N].
Proof.
  intros a o Ha. start zero_equal 1%N.
  intros v Hg Hi. inputs1 Hi H0. change (nw zero_equal - 1)%N with 190%N. change (N.to_nat 1) with 1.
  unfold wires_from. cbn [seq map]. change (190 + N.of_nat 0)%N with 190%N. cbn [number].
  assert (Hx : forall i, (i < 64)%N -> v i = N.testbit a i).
  { intros i Hl. rewrite <- H0. rewrite <- (N2Nat.id i) at 2. rewrite number_testbit. unfold wires_from.
    rewrite map_map. rewrite (nth_indep _ false (v (0 + N.of_nat 0)%N)) by (rewrite map_length, seq_length; lia).
    rewrite (map_nth (fun x => v (0 + N.of_nat x)%N)), seq_nth by lia. f_equal. lia. }
  rewrite (zeros_sound 64 v a Hx zero_equal_gates (PositiveMap.empty N) Hg) with (i := 190%N) (k := (2 ^ 64 - 1)%N).
  - replace (2 ^ 64 - 1)%N with (N.ones 64) by reflexivity. rewrite N.land_ones, N.mod_small by exact Ha. destruct (a =? 0)%N; reflexivity.
  - intros i k E. rewrite PositiveMap.gempty in E. discriminate.
  - exact eqz_checked.
Qed.

(** ** Multiplication: Mul64Path *)
Definition mul_target : list (Z * N) := weighted 1 13739 64 ++ map (fun t => (- fst t, snd t)%Z) (rows_terms 1 mult64_products).
Lemma mul_checked : let gm := gate_map mult64_gates in
  rows_check gm 0 64 64 mult64_products && lin_check M64 gm 8 mul_target 0 mult64_cert = true.
Proof. vm_compute. reflexivity. Qed.
Lemma lin_neg : forall v l, lin v (map (fun t => (- fst t, snd t)%Z) l) = (- lin v l)%Z.
Proof. intros v l. unfold lin. induction l as [|x l IH]; cbn [map fold_right fst snd]; lia. Qed.
Theorem mul64_correct : forall a b o, (a < 2 ^ 64)%N -> (b < 2 ^ 64)%N ->
  run_span 64 mult64 [a; b] [o] = Val [((a * b) mod 2 ^ 64)%N].
Proof.
  intros a b o Ha Hb. start mult64 64%N.
  intros v Hg Hi. inputs2 Hi H0 H1.
  pose proof mul_checked as Hc. cbv zeta in Hc. apply andb_true_iff in Hc. destruct Hc as [Hr Hc].
  pose proof (lin_check_sound M64 mult64_gates v 8 mul_target 0 mult64_cert ltac:(discriminate) Hg Hc) as H.
  pose proof (rows_sound mult64_gates v Hg mult64_products 0 64 64 0 64 Hr eq_refl) as R.
  change (2 ^ Z.of_nat 0)%Z with 1%Z in R. change (2 ^ Z.of_nat 64)%Z with M64 in R. rewrite H0, H1 in R.
  unfold mul_target in H. rewrite lin_app, lin_weighted, lin_neg in H.
  set (P := lin v (rows_terms 1 mult64_products)) in *. clearbody P.
  apply N2Z.inj. rewrite N2Z.inj_mod, N2Z.inj_mul.
  apply (finish64 v 13739 _ (- P)).
  - etransitivity; [|exact H]. f_equal. lia.
  - rewrite Z.mul_1_l in R.
    replace (Z.of_N a * Z.of_N b + - P)%Z with (Z.of_N a * Z.of_N b - P)%Z by lia. rewrite Zminus_mod, R, Z.sub_diag. reflexivity.
Qed.

Print Assumptions add64_correct.
Print Assumptions sub64_correct.
Print Assumptions neg64_correct.
Print Assumptions eqz64_correct.
Print Assumptions mul64_correct.
