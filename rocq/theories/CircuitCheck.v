(** A verified checker for claims about all inputs of a circuit.

    [table] evaluates the part of a circuit between a wire and a few chosen wires (the leaves)
    for all assignments of the leaves at once.  A [step] is a linear equation between wires
    that is checked this way; [lin_check] adds up steps and finds that a linear combination of
    wires is 0 modulo M in every run of the circuit. *)
From Coq Require Import ZArith NArith List Bool Arith Lia FMapPositive.
From Verif Require Import LinCodeModel CircuitModel CircuitProof.
Import ListNotations.
Open Scope nat_scope.

Definition key (i : N) : positive := N.succ_pos i.
Definition unkey (p : positive) : N := Pos.pred_N p.
Lemma unkey_key : forall i, unkey (key i) = i.
Proof. intro i. unfold unkey, key. apply N.pos_pred_succ. Qed.
Lemma key_inj : forall i j, key i = key j -> i = j.
Proof. intros i j H. rewrite <- (unkey_key i), <- (unkey_key j), H. reflexivity. Qed.

(** ** The order of the gates *)
Fixpoint wf_map (n nin : N) (m : PositiveMap.t unit) (gs : list gate) : bool :=
  match gs with
  | [] => true
  | g :: gs' =>
      let known i := (i <? nin)%N || PositiveMap.mem (key i) m in
      (match g_op g with MAND => false | _ => true end) && (arity (g_op g) <=? length (iw g)) && (1 <=? length (ow g)) &&
      forallb known (reads g) && negb (known (out g)) && (out g <? n)%N && wf_map n nin (PositiveMap.add (key (out g)) tt m) gs'
  end.
Lemma wf_ext : forall gs n (P Q : N -> Prop), (forall i, P i <-> Q i) -> wf n P gs -> wf n Q gs.
Proof.
  induction gs as [|g gs IH]; intros n P Q H W; [exact I|]. destruct W as [W1 [W2 [W3 [W4 W5]]]].
  split; [exact W1|]. split; [apply Forall_impl with (2 := W2); intros i; apply H|]. split; [rewrite <- H; exact W3|]. split; [exact W4|].
  apply (IH n (fun i => P i \/ i = out g)); [|exact W5]. intro i. rewrite H. reflexivity.
Qed.
Lemma wf_map_sound : forall gs n nin m, wf_map n nin m gs = true ->
  wf n (fun i => (i <? nin)%N || PositiveMap.mem (key i) m = true) gs.
Proof.
  induction gs as [|g gs IH]; intros n nin m H; [exact I|]. cbn [wf_map] in H.
  repeat rewrite andb_true_iff in H. destruct H as [[[[[[H1 H2] H3] H4] H5] H6] H7].
  apply Nat.leb_le in H2, H3. apply N.ltb_lt in H6. rewrite forallb_forall in H4. apply negb_true_iff in H5.
  split; [|split; [|split; [|split]]].
  - split; [intro E; rewrite E in H1; discriminate|]. auto.
  - apply Forall_forall. intros i Hi. apply H4. exact Hi.
  - rewrite H5. discriminate.
  - exact H6.
  - eapply wf_ext; [|apply IH; exact H7]. intro i. cbv beta.
    assert (E : PositiveMap.mem (key i) (PositiveMap.add (key (out g)) tt m) = (i =? out g)%N || PositiveMap.mem (key i) m).
    { rewrite !PositiveMap.mem_find. destruct (N.eqb_spec i (out g)) as [->|Hn].
      - rewrite PositiveMap.gss. reflexivity.
      - rewrite PositiveMap.gso; [reflexivity|]. intro E. apply Hn. apply key_inj. exact E. }
    clear H1 H2 H3 H4 H5 H6 H7. rewrite E. destruct (N.eqb_spec i (out g)) as [Heq|Hn]; cbn [orb]; [rewrite orb_true_r; tauto|].
    split; [tauto|]. intros [Hx|Hx]; [exact Hx|contradiction].
Qed.
Lemma wf_check : forall gs n nin, wf_map n nin (PositiveMap.empty unit) gs = true -> wf n (fun i => (i < nin)%N) gs.
Proof.
  intros gs n nin H. eapply wf_ext; [|apply wf_map_sound; exact H]. intro i. cbv beta.
  rewrite PositiveMap.mem_find, PositiveMap.gempty, orb_false_r. apply N.ltb_lt.
Qed.

(** ** Cones *)
Definition gate_map (gs : list gate) : PositiveMap.t gate :=
  fold_left (fun m g => PositiveMap.add (key (out g)) g m) gs (PositiveMap.empty gate).
Lemma gate_map_find : forall gs i g, PositiveMap.find (key i) (gate_map gs) = Some g -> In g gs /\ out g = i.
Proof.
  intros gs i g. unfold gate_map.
  assert (G : forall l m, PositiveMap.find (key i) (fold_left (fun m g => PositiveMap.add (key (out g)) g m) l m) = Some g ->
     (In g l /\ out g = i) \/ PositiveMap.find (key i) m = Some g).
  { induction l as [|h l IH]; intros m H; cbn [fold_left] in H; [right; exact H|].
    destruct (IH _ H) as [[H1 H2]|H1]; [left; split; [right; exact H1|exact H2]|].
    destruct (N.eq_dec i (out h)) as [E|E].
    - subst i. rewrite PositiveMap.gss in H1. injection H1 as ->. left. split; [left; reflexivity|reflexivity].
    - rewrite PositiveMap.gso in H1 by (intro K; apply E, key_inj; exact K). right. exact H1. }
  intro H. destruct (G gs _ H) as [H1|H1]; [exact H1|]. rewrite PositiveMap.gempty in H1. discriminate.
Qed.

(** Leaf [k] is bit [k] of the point. *)
Definition patterns : list N := [0xAAAAAAAA; 0xCCCCCCCC; 0xF0F0F0F0; 0xFF00FF00; 0xFFFF0000]%N.
Definition all1 : N := 0xFFFFFFFF%N.
Fixpoint leaf_table (leaves pats : list N) (w : N) : option N :=
  match leaves, pats with
  | l :: leaves', p :: pats' => if (l =? w)%N then Some p else leaf_table leaves' pats' w
  | _, _ => None
  end.
Section Cone.
  Variable gm : PositiveMap.t gate.
  Variable leaves : list N.
  Fixpoint table (fuel : nat) (w : N) : option N :=
    match leaf_table leaves patterns w with
    | Some t => Some t
    | None =>
        match fuel with
        | O => None
        | S f =>
            match PositiveMap.find (key w) gm with
            | None => None
            | Some g =>
                match g_op g with
                | XOR => match table f (arg g 0), table f (arg g 1) with Some a, Some b => Some (N.lxor a b) | _, _ => None end
                | AND => match table f (arg g 0), table f (arg g 1) with Some a, Some b => Some (N.land a b) | _, _ => None end
                | INV => match table f (arg g 0) with Some a => Some (N.lxor a all1) | None => None end
                | EQW => table f (arg g 0)
                | EQ => Some (if (arg g 0 =? 0)%N then 0%N else all1)
                | MAND => None
                end
            end
        end
    end.
End Cone.

Definition point (v : N -> bool) (leaves : list N) : N := number (map v leaves).
Lemma number_bound : forall l, (number l < 2 ^ N.of_nat (length l))%N.
Proof.
  induction l as [|b l IH]; [cbv; reflexivity|]. cbn [number length]. rewrite Nat2N.inj_succ, N.pow_succ_r'. destruct b; lia.
Qed.
Lemma number_testbit : forall l k, N.testbit (number l) (N.of_nat k) = nth k l false.
Proof.
  induction l as [|b l IH]; intro k; cbn [number]; [destruct k; reflexivity|].
  destruct k as [|k].
  - cbn [nth]. change (N.of_nat 0) with 0%N. rewrite N.bit0_odd. rewrite N.add_comm. destruct b.
    + rewrite N.odd_add_mul_2 || rewrite N.add_comm, N.odd_add_mul_2. reflexivity.
    + rewrite N.add_0_r, N.odd_mul. reflexivity.
  - rewrite Nat2N.inj_succ. cbn [nth]. rewrite <- IH.
    replace ((if b then 1 else 0) + 2 * number l)%N with (2 * number l + N.b2n b)%N by (destruct b; cbn [N.b2n]; lia).
    rewrite N.testbit_succ_r. reflexivity.
Qed.
Definition pts : list N := map N.of_nat (seq 0 32).
Lemma pattern_bit : forall k p, k < 5 -> (p < 32)%N -> N.testbit (nth k patterns 0%N) p = N.testbit p (N.of_nat k).
Proof.
  intros k p Hk Hp.
  assert (H : forallb (fun k => forallb (fun p => Bool.eqb (N.testbit (nth k patterns 0%N) p) (N.testbit p (N.of_nat k))) pts) (seq 0 5) = true)
    by reflexivity.
  rewrite forallb_forall in H. specialize (H k ltac:(apply in_seq; lia)). rewrite forallb_forall in H.
  apply eqb_prop. apply H. unfold pts. rewrite <- (N2Nat.id p). apply in_map. apply in_seq. lia.
Qed.
Lemma all1_bit : forall p, (p < 32)%N -> N.testbit all1 p = true.
Proof.
  intros p Hp. assert (H : forallb (N.testbit all1) pts = true) by reflexivity. rewrite forallb_forall in H.
  apply H. unfold pts. rewrite <- (N2Nat.id p). apply in_map. apply in_seq. lia.
Qed.
Lemma leaf_table_sound : forall v all leaves k w t, length leaves + k = length all -> length all <= 5 ->
  skipn k all = leaves -> leaf_table leaves (skipn k patterns) w = Some t -> v w = N.testbit t (point v all).
Proof.
  intros v all leaves. induction leaves as [|l leaves IH]; intros k w t Hk H5 Hs H; [cbn [leaf_table] in H; discriminate|].
  cbn [length] in Hk.
  assert (Hp : skipn k patterns = nth k patterns 0%N :: skipn (S k) patterns).
  { assert (k < 5) by lia. do 5 (destruct k as [|k]; [reflexivity|]). lia. }
  rewrite Hp in H. cbn [leaf_table] in H. destruct (N.eqb_spec l w) as [->|Hn].
  - assert (Et : t = nth k patterns 0%N) by congruence. rewrite Et, pattern_bit; [|lia|].
    + unfold point. rewrite number_testbit.
      assert (E : nth k all 0%N = w).
      { clear - Hs. revert all Hs. induction k as [|k IH]; intros [|a all] Hs; cbn [skipn nth] in *; try discriminate; [congruence|]. apply IH. exact Hs. }
      rewrite (nth_indep _ false (v 0%N)) by (rewrite map_length; lia). rewrite map_nth, E. reflexivity.
    + unfold point. eapply N.lt_le_trans; [apply number_bound|]. rewrite map_length. change 32%N with (2 ^ 5)%N. apply N.pow_le_mono_r; lia.
  - apply (IH (S k) w t); [lia|exact H5| |exact H].
    clear - Hs. revert all Hs. induction k as [|k IH]; intros [|a all] Hs; cbn [skipn] in *; try discriminate; [congruence|].
    specialize (IH _ Hs). exact IH.
Qed.

Lemma table_sound : forall gs v, Forall (holds v) gs -> forall leaves, length leaves <= 5 -> forall fuel w t,
  table (gate_map gs) leaves fuel w = Some t -> v w = N.testbit t (point v leaves).
Proof.
  intros gs v H leaves H5. assert (Hp : (point v leaves < 32)%N).
  { unfold point. eapply N.lt_le_trans; [apply number_bound|]. rewrite map_length. change 32%N with (2 ^ 5)%N. apply N.pow_le_mono_r; lia. }
  assert (HL : forall w t, leaf_table leaves patterns w = Some t -> v w = N.testbit t (point v leaves)).
  { intros w t E. apply (leaf_table_sound v leaves leaves 0 w t); [lia|exact H5|reflexivity|exact E]. }
  induction fuel as [|f IH]; intros w t E; cbn [table] in E.
  - destruct (leaf_table leaves patterns w) eqn:L; [|discriminate]. injection E as <-. apply HL. exact L.
  - destruct (leaf_table leaves patterns w) eqn:L; [injection E as <-; apply HL; exact L|].
    destruct (PositiveMap.find (key w) (gate_map gs)) as [g|] eqn:F; [|discriminate].
    destruct (gate_map_find _ _ _ F) as [Hin Hout]. rewrite Forall_forall in H. specialize (H g Hin).
    unfold holds, gate_value in H. rewrite Hout in H. rewrite H.
    destruct (g_op g).
    + destruct (table (gate_map gs) leaves f (arg g 0)) as [a|] eqn:Ea; [|discriminate].
      destruct (table (gate_map gs) leaves f (arg g 1)) as [b|] eqn:Eb; [|discriminate]. injection E as <-.
      rewrite (IH _ _ Ea), (IH _ _ Eb), N.lxor_spec. reflexivity.
    + destruct (table (gate_map gs) leaves f (arg g 0)) as [a|] eqn:Ea; [|discriminate].
      destruct (table (gate_map gs) leaves f (arg g 1)) as [b|] eqn:Eb; [|discriminate]. injection E as <-.
      rewrite (IH _ _ Ea), (IH _ _ Eb), N.land_spec. reflexivity.
    + destruct (table (gate_map gs) leaves f (arg g 0)) as [a|] eqn:Ea; [|discriminate]. injection E as <-.
      rewrite (IH _ _ Ea), N.lxor_spec, all1_bit by exact Hp. rewrite xorb_true_r. reflexivity.
    + injection E as <-. destruct (arg g 0 =? 0)%N; [rewrite N.bits_0; reflexivity|rewrite all1_bit by exact Hp; reflexivity].
    + apply IH. exact E.
    + discriminate.
Qed.

(** ** Linear equations *)
Definition b2z (b : bool) : Z := if b then 1%Z else 0%Z.
Record step := Step { s_mult : Z; s_leaves : list N; s_terms : list (Z * N); s_cst : Z }.
(** The equation a step stands for. *)
Definition lin (v : N -> bool) (l : list (Z * N)) : Z := fold_right (fun t a => (fst t * b2z (v (snd t)) + a)%Z) 0%Z l.
Definition step_holds (M : Z) (v : N -> bool) (s : step) : Prop := ((s_mult s * (lin v (s_terms s) - s_cst s)) mod M = 0)%Z.

Fixpoint tables (gm : PositiveMap.t gate) (leaves : list N) (fuel : nat) (l : list (Z * N)) : option (list (Z * N)) :=
  match l with
  | [] => Some []
  | (c, w) :: l' => match table gm leaves fuel w, tables gm leaves fuel l' with
                    | Some t, Some r => Some ((c, t) :: r) | _, _ => None end
  end.
Definition points (n : nat) : list N := firstn (2 ^ n) pts.
Definition step_check (M : Z) (gm : PositiveMap.t gate) (fuel : nat) (s : step) : bool :=
  (length (s_leaves s) <=? 5) &&
  match tables gm (s_leaves s) fuel (s_terms s) with
  | Some l => forallb (fun p => ((s_mult s * (fold_right (fun t a => (if N.testbit (snd t) p then fst t + a else a)%Z) 0%Z l - s_cst s)) mod M =? 0)%Z)
                (points (length (s_leaves s)))
  | None => false
  end.
Lemma step_sound : forall gs v, Forall (holds v) gs -> forall M fuel s, step_check M (gate_map gs) fuel s = true -> step_holds M v s.
Proof.
  intros gs v H M fuel s Hc. unfold step_check in Hc. apply andb_true_iff in Hc. destruct Hc as [H5 Hc]. apply Nat.leb_le in H5.
  destruct (tables (gate_map gs) (s_leaves s) fuel (s_terms s)) as [l|] eqn:E; [|discriminate].
  rewrite forallb_forall in Hc. specialize (Hc (point v (s_leaves s))). unfold step_holds.
  assert (Hin : In (point v (s_leaves s)) (points (length (s_leaves s)))).
  { assert (B := number_bound (map v (s_leaves s))). fold (point v (s_leaves s)) in B. rewrite map_length in B.
    unfold points, pts. rewrite firstn_map. rewrite <- (N2Nat.id (point v (s_leaves s))). apply in_map.
    set (n := length (s_leaves s)) in *. clearbody n.
    assert (Hb : N.to_nat (point v (s_leaves s)) < 2 ^ n).
    { apply Nat.lt_le_trans with (m := N.to_nat (2 ^ N.of_nat n)); [lia|]. rewrite N2Nat.inj_pow, Nat2N.id. reflexivity. }
    assert (firstn (2 ^ n) (seq 0 32) = seq 0 (2 ^ n)) as ->.
    { do 6 (destruct n as [|n]; [reflexivity|]). lia. }
    apply in_seq. lia. }
  specialize (Hc Hin). apply Z.eqb_eq in Hc. rewrite <- Hc. clear Hc Hin. f_equal. f_equal. f_equal. unfold lin.
  revert l E. induction (s_terms s) as [|[c w] ts IH]; intros l E; cbn [tables] in E; [injection E as <-; reflexivity|].
  destruct (table (gate_map gs) (s_leaves s) fuel w) as [t|] eqn:T; [|discriminate].
  destruct (tables (gate_map gs) (s_leaves s) fuel ts) as [r|]; [|discriminate]. injection E as <-.
  cbn [fold_right fst snd]. rewrite (IH r eq_refl). rewrite (table_sound gs v H _ H5 _ _ _ T).
  destruct (N.testbit t _); unfold b2z; lia.
Qed.

(** Coefficients of wires. *)
Inductive trie := E0 | T0 (l : trie) (o : Z) (r : trie).
Fixpoint upd (p : positive) (d : Z) (t : trie) : trie :=
  match p, t with
  | xH, E0 => T0 E0 d E0
  | xH, T0 l o r => T0 l (o + d) r
  | xO p', E0 => T0 (upd p' d E0) 0 E0
  | xO p', T0 l o r => T0 (upd p' d l) o r
  | xI p', E0 => T0 E0 0 (upd p' d E0)
  | xI p', T0 l o r => T0 l o (upd p' d r)
  end.
Fixpoint tsum (f : positive -> Z) (t : trie) : Z :=
  match t with E0 => 0%Z | T0 l o r => (tsum (fun p => f (xO p)) l + o * f xH + tsum (fun p => f (xI p)) r)%Z end.
Fixpoint zero_mod (M : Z) (t : trie) : bool :=
  match t with E0 => true | T0 l o r => (o mod M =? 0)%Z && zero_mod M l && zero_mod M r end.
Lemma tsum_upd : forall p d t f, tsum f (upd p d t) = (tsum f t + d * f p)%Z.
Proof.
  induction p as [p IH|p IH|]; intros d t f; destruct t as [|l o r]; cbn [upd tsum]; try rewrite IH; cbn [tsum]; lia.
Qed.
Lemma tsum_zero_mod : forall M t f, M <> 0%Z -> zero_mod M t = true -> (tsum f t mod M = 0)%Z.
Proof.
  intros M t. induction t as [|l IHl o r IHr]; intros f HM H; [apply Z.mod_0_l; exact HM|].
  cbn [zero_mod] in H. apply andb_true_iff in H. destruct H as [H Hr]. apply andb_true_iff in H. destruct H as [Ho Hl].
  apply Z.eqb_eq in Ho. cbn [tsum].
  specialize (IHl (fun p => f (xO p)) HM Hl). specialize (IHr (fun p => f (xI p)) HM Hr).
  apply Z.mod_divide in IHl; [|exact HM]. apply Z.mod_divide in IHr; [|exact HM]. apply Z.mod_divide in Ho; [|exact HM].
  apply Z.mod_divide; [exact HM|]. apply Z.divide_add_r; [apply Z.divide_add_r; [exact IHl|]|exact IHr].
  apply Z.divide_mul_l. exact Ho.
Qed.
Definition add_terms (m : Z) (l : list (Z * N)) (t : trie) : trie := fold_left (fun t x => upd (key (snd x)) (m * fst x)%Z t) l t.
Lemma tsum_add_terms : forall v m l t, tsum (fun p => b2z (v (unkey p))) (add_terms m l t) =
  (tsum (fun p => b2z (v (unkey p))) t + m * lin v l)%Z.
Proof.
  intros v m l. unfold add_terms, lin. induction l as [|[c w] l IH]; intro t; cbn [fold_left fold_right fst snd]; [lia|].
  rewrite IH, tsum_upd, unkey_key. lia.
Qed.
Fixpoint add_steps (l : list step) (t : trie) (c : Z) : trie * Z :=
  match l with [] => (t, c) | s :: l' => add_steps l' (add_terms (s_mult s) (s_terms s) t) (c + s_mult s * s_cst s)%Z end.
(** The combination [target] minus [cst] is 0 modulo M. *)
Definition lin_check (M : Z) (gm : PositiveMap.t gate) (fuel : nat) (target : list (Z * N)) (cst : Z) (l : list step) : bool :=
  forallb (step_check M gm fuel) l &&
  let '(t, c) := add_steps l (add_terms 1 target E0) cst in zero_mod M t && (c mod M =? 0)%Z.
Lemma lin_check_sound : forall M gs v fuel target cst l, M <> 0%Z -> Forall (holds v) gs ->
  lin_check M (gate_map gs) fuel target cst l = true -> (lin v target mod M = cst mod M)%Z.
Proof.
  intros M gs v fuel target cst l HM H Hc. unfold lin_check in Hc. apply andb_true_iff in Hc. destruct Hc as [Hs Hc].
  set (f := fun p => b2z (v (unkey p))).
  assert (G : forall l t c t' c', forallb (step_check M (gate_map gs) fuel) l = true -> add_steps l t c = (t', c') ->
     (M | (tsum f t' - c') - (tsum f t - c))%Z).
  { clear Hs Hc l. induction l as [|s l IH]; intros t c t' c' Hs E; cbn [add_steps forallb] in *.
    - injection E as <- <-. rewrite Z.sub_diag. apply Z.divide_0_r.
    - apply andb_true_iff in Hs. destruct Hs as [H1 H2]. specialize (IH _ _ _ _ H2 E). unfold f in IH. rewrite tsum_add_terms in IH. fold f in IH.
      pose proof (step_sound gs v H M fuel s H1) as S1. unfold step_holds in S1. apply Z.mod_divide in S1; [|exact HM].
      destruct IH as [x Hx]. destruct S1 as [y Hy]. exists (x + y)%Z. lia. }
  destruct (add_steps l (add_terms 1 target E0) cst) as [t c] eqn:E. specialize (G _ _ _ _ _ Hs E).
  apply andb_true_iff in Hc. destruct Hc as [Hz Hc]. apply Z.eqb_eq in Hc.
  pose proof (tsum_zero_mod M t f HM Hz) as Ht.
  unfold f in G. rewrite tsum_add_terms in G. fold f in G. cbn [tsum] in G.
  apply Z.mod_divide in Ht; [|exact HM]. apply Z.mod_divide in Hc; [|exact HM].
  destruct G as [x Hx]. destruct Ht as [y Hy]. destruct Hc as [z Hz'].
  assert (G2 : (lin v target = cst + (y - z - x) * M)%Z) by lia. rewrite G2. apply Z.mod_add. exact HM.
Qed.

(** ** Numbers on wires *)
(** [n] consecutive wires with the weights 2^k. *)
Definition weighted (m : Z) (from : N) (n : nat) : list (Z * N) :=
  map (fun k => ((m * 2 ^ Z.of_nat k)%Z, (from + N.of_nat k)%N)) (seq 0 n).
Lemma lin_app : forall v a b, lin v (a ++ b) = (lin v a + lin v b)%Z.
Proof. intros v a b. unfold lin. induction a as [|x a IH]; cbn [app fold_right]; lia. Qed.
Definition wires_from (from : N) (n : nat) : list N := map (fun k => (from + N.of_nat k)%N) (seq 0 n).
Lemma number_app : forall a b, number (a ++ b) = (number a + 2 ^ N.of_nat (length a) * number b)%N.
Proof.
  induction a as [|x a IH]; intro b; cbn [app number length].
  - rewrite N.pow_0_r. lia.
  - rewrite IH, Nat2N.inj_succ, N.pow_succ_r'. lia.
Qed.
Lemma lin_weighted : forall v m from n, lin v (weighted m from n) = (m * Z.of_N (number (map v (wires_from from n))))%Z.
Proof.
  intros v m from n. unfold weighted, wires_from. induction n as [|n IH]; [cbn; lia|].
  rewrite seq_S, !map_app, lin_app, IH. cbn [map Nat.add]. rewrite number_app, !map_length, seq_length.
  unfold lin. cbn [fold_right fst snd map number]. unfold b2z.
  rewrite N2Z.inj_add, N2Z.inj_mul, N2Z.inj_pow, nat_N_Z. destruct (v _); lia.
Qed.
Lemma number_bits : forall x n, number (map (fun k => N.testbit x (N.of_nat k)) (seq 0 n)) = (x mod 2 ^ N.of_nat n)%N.
Proof.
  intros x n. apply N.bits_inj. intro i. rewrite <- (N2Nat.id i), number_testbit, N2Nat.id.
  destruct (N.lt_ge_cases i (N.of_nat n)) as [Hi|Hi].
  - rewrite N.mod_pow2_bits_low by exact Hi.
    rewrite (nth_indep _ false (N.testbit x (N.of_nat 0))) by (rewrite map_length, seq_length; lia).
    rewrite (map_nth (fun k => N.testbit x (N.of_nat k))), seq_nth by lia. f_equal. lia.
  - rewrite N.mod_pow2_bits_high by exact Hi. apply nth_overflow. rewrite map_length, seq_length. lia.
Qed.
