(** Lemmas for FssModel. *)
From Coq Require Import ZArith List Bool Lia Zdiv Setoid Morphisms.
From Verif Require Import FssModel.
Import ListNotations.
Open Scope Z_scope.

(** Congruence modulo m. *)
Inductive cong (m a b : Z) : Prop := Cong : a mod m = b mod m -> cong m a b.
Global Instance cong_equiv m : Equivalence (cong m).
Proof.
  split; [intros a; constructor; auto|intros a b [H]; constructor; auto|intros a b c [H] [K]; constructor; congruence].
Qed.
Global Instance cong_add m : Proper (cong m ==> cong m ==> cong m) Z.add.
Proof. intros a b [H] c d [K]. constructor. exact (Zplus_eqm m a b H c d K). Qed.
Global Instance cong_sub m : Proper (cong m ==> cong m ==> cong m) Z.sub.
Proof. intros a b [H] c d [K]. constructor. exact (Zminus_eqm m a b H c d K). Qed.
Global Instance cong_mul m : Proper (cong m ==> cong m ==> cong m) Z.mul.
Proof. intros a b [H] c d [K]. constructor. exact (Zmult_eqm m a b H c d K). Qed.
Global Instance cong_opp m : Proper (cong m ==> cong m) Z.opp.
Proof. intros a b [H]. constructor. exact (Zopp_eqm m a b H). Qed.
Lemma cong_eq m a b : a = b -> cong m a b.
Proof. intros ->. reflexivity. Qed.
Ltac cring := apply cong_eq; ring.

(** ** GE2n *)
Section Ge.
Variable N : Z.
Hypothesis HN : 0 < N <= 128.
Notation "a == b" := (cong (2 ^ N) a b) (at level 70).

Lemma mask_eq : ge_mask N = Z.ones N.
Proof.
  unfold ge_mask, u128. rewrite Z.ones_equiv. destruct (Z.eqb_spec N 128) as [->|]; [reflexivity|].
  rewrite Z.mod_small; [lia|]. split; [|]. assert (0 < 2 ^ N) by (apply Z.pow_pos_nonneg; lia). lia.
  assert (2 ^ N < 2 ^ 128) by (apply Z.pow_lt_mono_r; lia). lia.
Qed.
Lemma val_eq s : ge_val N s = s mod 2 ^ N.
Proof. unfold ge_val. rewrite mask_eq. apply Z.land_ones. lia. Qed.
Lemma u128_eqm a : u128 a == a.
Proof.
  unfold u128. constructor. symmetry. assert (E : 2 ^ 128 = 2 ^ N * 2 ^ (128 - N)) by (rewrite <- Z.pow_add_r by lia; f_equal; lia).
  assert (0 < 2 ^ N) by (apply Z.pow_pos_nonneg; lia).
  apply Znumtheory.Zmod_div_mod; try lia. exists (2 ^ (128 - N)). lia.
Qed.
Lemma val_eqm s : ge_val N s == s.
Proof. rewrite val_eq. constructor. apply Z.mod_mod. apply Z.pow_nonzero; lia. Qed.
Lemma add_eqm a b : ge_add a b == a + b.
Proof. apply u128_eqm. Qed.
Lemma rev_eqm a : ge_rev N a == - a.
Proof.
  unfold ge_rev. rewrite u128_eqm. rewrite mask_eq, Z.ones_equiv. rewrite val_eqm.
  constructor. replace (Z.pred (2 ^ N) - a + 1) with (- a + 1 * 2 ^ N) by lia. apply Z.mod_add. apply Z.pow_nonzero; lia.
Qed.
Lemma val_of_eqm a b : a == b -> ge_val N a = ge_val N b.
Proof. intros [H]. rewrite !val_eq. exact H. Qed.
Lemma val_idem s : ge_val N (ge_val N s) = ge_val N s.
Proof. apply val_of_eqm, val_eqm. Qed.
End Ge.

(** Agreement with alpha on the bits from i on. *)
Fixpoint agree (f : nat -> bool) (g : nat -> bool) (i todo : nat) : bool :=
  match todo with O => true | S todo => Bool.eqb (f i) (g i) && agree f g (S i) todo end.
Lemma agree_spec f g todo : forall i, agree f g i todo = true <-> forall k, (i <= k < i + todo)%nat -> f k = g k.
Proof.
  induction todo as [|t IH]; intros i; cbn [agree].
  - split; intros; auto. lia.
  - rewrite andb_true_iff, eqb_true_iff, IH. split.
    + intros [A B] k Hk. destruct (Nat.eq_dec k i) as [->|]; auto. apply B. lia.
    + intros H. split; [apply H; lia|]. intros k Hk. apply H. lia.
Qed.

(** ** DPF *)
Section Dpf.
Variable split : Z -> (Z * bool) * (Z * bool).
Variable prg : Z -> Z.

Lemma walk_same ws i x st : dpf_walk split ws i x st = dpf_walk split ws i x st.
Proof. reflexivity. Qed.

Lemma lxor_cancel_l a b : Z.lxor a (Z.lxor a b) = b.
Proof. rewrite <- Z.lxor_assoc, Z.lxor_nilpotent. apply Z.lxor_0_l. Qed.
Lemma lxor_cancel_r a b : Z.lxor a (Z.lxor b a) = b.
Proof. rewrite (Z.lxor_comm b a). apply lxor_cancel_l. Qed.

Lemma words_spec alpha todo : forall i s0 s1 t0, let '(ws, e0, e1) := dpf_words split alpha i todo s0 s1 t0 (negb t0) in
  length ws = todo /\ snd e0 = negb (snd e1) /\
  forall x, if agree (ge_bit x) (ge_bit alpha) i todo
            then dpf_walk split ws i x (s0, t0) = e0 /\ dpf_walk split ws i x (s1, negb t0) = e1
            else dpf_walk split ws i x (s0, t0) = dpf_walk split ws i x (s1, negb t0).
Proof.
  induction todo as [|todo IH]; intros i s0 s1 t0; cbn [dpf_words].
  - split; [reflexivity|]. split; [cbn; rewrite negb_involutive; reflexivity|]. intros x. cbn [agree]. split; reflexivity.
  - destruct (split s0) as [[l0 tl0] [r0 tr0]] eqn:E0. destruct (split s1) as [[l1 tl1] [r1 tr1]] eqn:E1.
    set (a := ge_bit alpha i). set (cs := Z.lxor (pick a l0 r0) (pick a l1 r1)).
    set (cl := xorb (xorb (xorb tl0 tl1) a) true). set (cr := xorb (xorb tr0 tr1) a).
    set (s0' := if t0 then Z.lxor (pick a r0 l0) cs else pick a r0 l0).
    set (s1' := if negb t0 then Z.lxor (pick a r1 l1) cs else pick a r1 l1).
    set (t0' := xorb (pick a tr0 tl0) (t0 && pick a cr cl)).
    set (t1' := xorb (pick a tr1 tl1) (negb t0 && pick a cr cl)).
    assert (T : t1' = negb t0').
    { unfold t1', t0', cl, cr. destruct a, t0, tl0, tl1, tr0, tr1; reflexivity. }
    rewrite T. specialize (IH (S i) s0' s1' t0').
    destruct (dpf_words split alpha (S i) todo s0' s1' t0' (negb t0')) as [[ws e0] e1].
    destruct IH as (L & Te & W). split; [cbn [length]; lia|]. split; [exact Te|].
    intros x. cbn [agree]. cbn [dpf_walk dpf_step fst snd]. unfold dpf_step. cbn [fst snd]. rewrite E0, E1.
    fold a. destruct (Bool.eqb_spec (ge_bit x i) a) as [Ea|Ea]; cbn [andb].
    + specialize (W x). rewrite Ea. rewrite <- T in *.
      replace (if a then (if t0 then Z.lxor r0 cs else r0, xorb tr0 (t0 && cr)) else (if t0 then Z.lxor l0 cs else l0, xorb tl0 (t0 && cl)))
        with (s0', t0') by (unfold s0', t0'; destruct a; reflexivity).
      replace (if a then (if negb t0 then Z.lxor r1 cs else r1, xorb tr1 (negb t0 && cr)) else (if negb t0 then Z.lxor l1 cs else l1, xorb tl1 (negb t0 && cl)))
        with (s1', t1') by (unfold s1', t1'; destruct a; reflexivity).
      exact W.
    + f_equal. unfold cs, cl, cr. destruct a; destruct (ge_bit x i); try congruence; cbn [pick];
        destruct t0; cbn [negb andb]; f_equal;
        rewrite ?lxor_cancel_l, ?lxor_cancel_r; auto;
        destruct tl0, tl1, tr0, tr1; reflexivity.
Qed.

Variable N : Z.
Variable M : nat.
Hypothesis HN : 0 < N <= 128.
Notation "a == b" := (cong (2 ^ N) a b) (at level 70).

Lemma out_eqm rk p t w : dpf_out N rk p t w == (if rk then - (p + (if t then w else 0)) else p + (if t then w else 0)).
Proof. unfold dpf_out. destruct rk; [rewrite rev_eqm by auto|]; rewrite add_eqm by auto; reflexivity. Qed.

(** The outputs of the two parties add up to [target]. *)
Lemma outs_on t0 p0 p1 w target :
  w == (if negb t0 then - (target - p0 + p1) else target - p0 + p1) ->
  ge_val N (ge_add (dpf_out N false p0 t0 w) (dpf_out N true p1 (negb t0) w)) = target mod 2 ^ N.
Proof.
  intros H. rewrite <- val_eq by auto. apply val_of_eqm; auto. rewrite add_eqm, !out_eqm by auto.
  destruct t0; cbn [negb] in *; rewrite H; cring.
Qed.
Lemma outs_off t p w : ge_val N (ge_add (dpf_out N false p t w) (dpf_out N true p t w)) = 0.
Proof.
  transitivity (ge_val N 0); [|rewrite val_eq by auto; apply Z.mod_0_l; apply Z.pow_nonzero; lia].
  apply val_of_eqm; auto. rewrite add_eqm, !out_eqm by auto. destruct t; cring.
Qed.

(** The PRG chain of the leaves. *)
Fixpoint chain (i : nat) (p : Z) : Z := match i with O => p | S i => chain i (prg (ge_val N p)) end.

Lemma final_words_nth apos beta t1 todo : forall i p0 p1 k, (k < todo)%nat ->
  nth k (final_words prg N apos beta t1 i todo p0 p1) 0 =
  final_word N t1 (if i + Z.of_nat k =? apos then ge_add (ge_add beta (ge_rev N (chain k p0))) (chain k p1) else ge_add (ge_rev N (chain k p0)) (chain k p1)).
Proof.
  induction todo as [|todo IH]; intros i p0 p1 k Hk; [lia|]. cbn [final_words]. destruct k as [|k].
  - cbn [nth chain]. rewrite Z.add_0_r. reflexivity.
  - cbn [nth chain]. rewrite IH by lia. replace (i + 1 + Z.of_nat k) with (i + Z.of_nat (S k)) by lia. reflexivity.
Qed.

Lemma leaf_loop_spec k term pos t todo : 0 <= pos < 2 ^ Z.of_nat term -> forall i p mem x,
  leaf_loop prg N k term pos t i todo p mem x =
  if (x mod 2 ^ Z.of_nat term =? pos) && (Z.of_nat i <=? x / 2 ^ Z.of_nat term) && (x / 2 ^ Z.of_nat term <? Z.of_nat (i + todo))
  then dpf_out N (rank k) (chain (Z.to_nat (x / 2 ^ Z.of_nat term) - i) p) t (nth (Z.to_nat (x / 2 ^ Z.of_nat term)) (last_cw k) 0)
  else mem x.
Proof.
  intros Hpos. assert (P : 0 < 2 ^ Z.of_nat term) by (apply Z.pow_pos_nonneg; lia).
  set (m := 2 ^ Z.of_nat term) in *. set (q x := x / m).
  induction todo as [|todo IH]; intros i p mem x; cbn [leaf_loop].
  - fold (q x). destruct (Z.leb_spec (Z.of_nat i) (q x)); destruct (Z.ltb_spec (q x) (Z.of_nat (i + 0))); rewrite ?andb_false_r; auto; lia.
  - rewrite IH. fold m. unfold store.
    pose proof (Z_div_mod_eq_full x m) as E. fold (q x) in *.
    pose proof (Z.mod_pos_bound x m P) as B.
    destruct (Z.eqb_spec (x mod m) pos) as [Ep|Ep]; cbn [andb].
    2: { destruct (Z.eqb_spec x (pos + Z.of_nat i * m)) as [C|]; auto. exfalso. apply Ep. rewrite C, Z.mod_add, Z.mod_small; lia. }
    destruct (Z.eqb_spec x (pos + Z.of_nat i * m)) as [C|C].
    + assert (Q : q x = Z.of_nat i) by nia. rewrite Q.
      destruct (Z.leb_spec (Z.of_nat (S i)) (Z.of_nat i)); [lia|]. cbn [andb].
      destruct (Z.leb_spec (Z.of_nat i) (Z.of_nat i)); [|lia]. destruct (Z.ltb_spec (Z.of_nat i) (Z.of_nat (i + S todo))); [|lia].
      cbn [andb]. rewrite Nat2Z.id, Nat.sub_diag. reflexivity.
    + assert (Q : q x <> Z.of_nat i) by (intros Q; apply C; nia).
      replace (i + S todo)%nat with (S i + todo)%nat by lia.
      destruct (Z.leb_spec (Z.of_nat (S i)) (q x)); destruct (Z.leb_spec (Z.of_nat i) (q x)); try lia; cbn [andb]; auto.
      destruct (Z.ltb_spec (q x) (Z.of_nat (S i + todo))); auto.
      replace (Z.to_nat (q x) - i)%nat with (S (Z.to_nat (q x) - S i)) by lia. reflexivity.
Qed.

(** Position x is reached from node (level, pos) when x mod 2^level = pos. *)
Lemma bit_mod x level pos : 0 <= pos < 2 ^ Z.of_nat level ->
  (x mod 2 ^ Z.of_nat (S level) =? pos) = (x mod 2 ^ Z.of_nat level =? pos) && negb (ge_bit x level) /\
  (x mod 2 ^ Z.of_nat (S level) =? 2 ^ Z.of_nat level + pos) = (x mod 2 ^ Z.of_nat level =? pos) && ge_bit x level.
Proof.
  intros Hp. set (m := 2 ^ Z.of_nat level) in *. assert (P : 0 < m) by (unfold m; apply Z.pow_pos_nonneg; lia).
  assert (E : 2 ^ Z.of_nat (S level) = m * 2). { unfold m. rewrite Nat2Z.inj_succ, Z.pow_succ_r by lia. lia. }
  rewrite E, Z.rem_mul_r by lia. unfold ge_bit. rewrite Z.testbit_odd, Z.shiftr_div_pow2 by lia. fold m.
  pose proof (Z.mod_pos_bound x m P) as B. rewrite Zmod_odd. destruct (Z.odd (x / m)); cbn [negb]; rewrite ?andb_true_r, ?andb_false_r;
    split; destruct (Z.eqb_spec (x mod m) pos); match goal with |- (?a =? ?b) = _ => destruct (Z.eqb_spec a b) end; auto; lia.
Qed.

Lemma traverse_spec k term ws : forall level pos st mem x, (level + length ws = term)%nat -> 0 <= pos < 2 ^ Z.of_nat level ->
  traverse split prg N M k term ws level pos st mem x =
  if (x mod 2 ^ Z.of_nat level =? pos) && (0 <=? x) && (x / 2 ^ Z.of_nat term <? Z.of_nat (2 ^ (M - term)))
  then let '(s, t) := dpf_walk split ws level x st in
       dpf_out N (rank k) (chain (Z.to_nat (x / 2 ^ Z.of_nat term)) (prg s)) t (nth (Z.to_nat (x / 2 ^ Z.of_nat term)) (last_cw k) 0)
  else mem x.
Proof.
  induction ws as [|w ws IH]; intros level pos st mem x Hl Hpos; cbn [traverse dpf_walk length] in *.
  - rewrite Nat.add_0_r in Hl. subst level. rewrite leaf_loop_spec by auto. cbn [Z.of_nat Nat.add]. rewrite Nat.sub_0_r.
    assert (P : 0 < 2 ^ Z.of_nat term) by (apply Z.pow_pos_nonneg; lia).
    assert (D : (0 <=? x / 2 ^ Z.of_nat term) = (0 <=? x)).
    { destruct (Z.leb_spec 0 x); destruct (Z.leb_spec 0 (x / 2 ^ Z.of_nat term)); auto.
      - assert (0 <= x / 2 ^ Z.of_nat term) by (apply Z.div_pos; lia). lia.
      - assert (x / 2 ^ Z.of_nat term < 0) by (apply Z.div_lt_upper_bound; lia). lia. }
    rewrite D. destruct st as [s t]. reflexivity.
  - destruct (dpf_step split w st) as [l r] eqn:E.
    destruct (bit_mod x level pos Hpos) as [B1 B2].
    assert (Q : 2 ^ Z.of_nat (S level) = 2 * 2 ^ Z.of_nat level) by (rewrite Nat2Z.inj_succ, Z.pow_succ_r by lia; auto).
    rewrite !IH by lia. rewrite B1, B2.
    destruct (x mod 2 ^ Z.of_nat level =? pos), (ge_bit x level); cbn [andb negb]; auto;
      destruct ((0 <=? x) && (x / 2 ^ Z.of_nat term <? Z.of_nat (2 ^ (M - term)))); auto.
Qed.
End Dpf.

(** ** DCF *)
Section Dcf.
Variable split : Z -> (Z * Z * bool) * (Z * Z * bool).
Variable prg : Z -> Z.
Variable N : Z.
Variable M : nat.
Hypothesis HN : 0 < N <= 128.
Notation "a == b" := (cong (2 ^ N) a b) (at level 70).

Lemma signed_eqm rk a : signed N rk a == if rk then - a else a.
Proof. unfold signed. destruct rk; [apply rev_eqm; auto|reflexivity]. Qed.
Definition cond (t : bool) (p w : Z) : Z := if t then ge_add p w else p.
Lemma cond_eqm t p w : cond t p w == p + (if t then w else 0).
Proof. unfold cond. destruct t; [apply add_eqm; auto|]. apply cong_eq; lia. Qed.

(** Once the states coincide, the contributions cancel. *)
Lemma dcf_walk_same ws x : forall i s t o0 o1,
  let '(s0, t0, r0) := dcf_walk split prg N M false ws i x s t o0 in
  let '(s1, t1, r1) := dcf_walk split prg N M true ws i x s t o1 in
  s0 = s1 /\ t0 = t1 /\ r0 + r1 == o0 + o1.
Proof.
  induction ws as [|[[[cs cl] cr] cv] ws IH]; intros i s t o0 o1; cbn [dcf_walk].
  - split; [|split]; auto. reflexivity.
  - destruct (split s) as [[[l vl] tl] [[r vr] tr]] eqn:E. fold (cond t (prg (pick (ge_bit x (M - i - 1)) vr vl)) cv).
    set (c := cond _ _ _). specialize (IH (S i) (pick (ge_bit x (M - i - 1)) (if t then Z.lxor r cs else r) (if t then Z.lxor l cs else l))
      (pick (ge_bit x (M - i - 1)) (xorb tr (t && cr)) (xorb tl (t && cl))) (ge_add o0 (signed N false c)) (ge_add o1 (signed N true c))).
    destruct (dcf_walk split prg N M false ws (S i) x _ _ _) as [[s0 t0] r0].
    destruct (dcf_walk split prg N M true ws (S i) x _ _ _) as [[s1 t1] r1].
    destruct IH as (A & B & C). split; [auto|]. split; [auto|]. rewrite C, !add_eqm, !signed_eqm by auto. cring.
Qed.

(** The words, seen from level i: [lt] of the remaining bits decides. *)
Fixpoint lower (x alpha : Z) (i todo : nat) : comparison :=
  match todo with
  | O => Eq
  | S todo => match ge_bit x (M - i - 1), ge_bit alpha (M - i - 1) with
              | false, true => Lt | true, false => Gt | _, _ => lower x alpha (S i) todo end
  end.

Lemma dcf_words_spec alpha beta todo : forall i s0 s1 t0 v,
  let '(ws, e0, e1, ve) := dcf_words split prg N M alpha beta i todo s0 s1 t0 (negb t0) v in
  length ws = todo /\ snd e0 = negb (snd e1) /\
  forall x o0 o1, o0 + o1 == v ->
    let '(a0, b0, r0) := dcf_walk split prg N M false ws i x s0 t0 o0 in
    let '(a1, b1, r1) := dcf_walk split prg N M true ws i x s1 (negb t0) o1 in
    match lower x alpha i todo with
    | Eq => (a0, b0) = e0 /\ (a1, b1) = e1 /\ r0 + r1 == ve
    | Lt => a0 = a1 /\ b0 = b1 /\ r0 + r1 == beta
    | Gt => a0 = a1 /\ b0 = b1 /\ r0 + r1 == 0
    end.
Proof.
  induction todo as [|todo IH]; intros i s0 s1 t0 v; cbn [dcf_words].
  - split; [reflexivity|]. split; [cbn; rewrite negb_involutive; reflexivity|]. intros x o0 o1 H. cbn [dcf_walk lower]. auto.
  - destruct (split s0) as [[[l0 vl0] tl0] [[r0 vr0] tr0]] eqn:E0. destruct (split s1) as [[[l1 vl1] tl1] [[r1 vr1] tr1]] eqn:E1.
    set (a := ge_bit alpha (M - i - 1)). set (cs := Z.lxor (pick a l0 r0) (pick a l1 r1)).
    set (cl := xorb (xorb (xorb tl0 tl1) a) true). set (cr := xorb (xorb tr0 tr1) a).
    set (lose0 := prg (pick a vl0 vr0)). set (lose1 := prg (pick a vl1 vr1)).
    set (keep0 := prg (pick a vr0 vl0)). set (keep1 := prg (pick a vr1 vl1)).
    set (c0 := ge_add (ge_add lose1 (ge_rev N lose0)) (ge_rev N v)).
    set (c := if negb t0 then (if a then ge_add (ge_rev N c0) (ge_rev N beta) else ge_rev N c0) else (if a then ge_add c0 beta else c0)).
    set (v' := ge_add v (ge_add (ge_add (ge_rev N keep1) keep0) (if negb t0 then ge_rev N c else c))).
    set (s0' := if t0 then Z.lxor (pick a r0 l0) cs else pick a r0 l0).
    set (s1' := if negb t0 then Z.lxor (pick a r1 l1) cs else pick a r1 l1).
    set (t0' := xorb (pick a tr0 tl0) (t0 && pick a cr cl)).
    set (t1' := xorb (pick a tr1 tl1) (negb t0 && pick a cr cl)).
    assert (T : t1' = negb t0').
    { unfold t1', t0', cl, cr. destruct a, t0, tl0, tl1, tr0, tr1; reflexivity. }
    rewrite T. specialize (IH (S i) s0' s1' t0' v').
    destruct (dcf_words split prg N M alpha beta (S i) todo s0' s1' t0' (negb t0') v') as [[[ws e0] e1] ve].
    destruct IH as (L & Te & W). split; [cbn [length]; lia|]. split; [exact Te|].
    assert (C0 : c0 == lose1 - lose0 - v).
    { unfold c0. rewrite !add_eqm, !rev_eqm by auto. cring. }
    assert (C : c == (if t0 then 1 else -1) * (lose1 - lose0 - v + (if a then beta else 0))).
    { unfold c. destruct t0, a; cbn [negb]; rewrite ?add_eqm, ?rev_eqm, ?C0 by auto; cring. }
    assert (V' : v' == v + keep0 - keep1 + (if t0 then c else - c)).
    { unfold v'. rewrite !add_eqm by auto. rewrite rev_eqm by auto. destruct t0; cbn [negb]; rewrite ?rev_eqm by auto; cring. }
    intros x o0 o1 Ho. cbn [dcf_walk lower]. rewrite E0, E1. fold a.
    fold (cond t0 (prg (pick (ge_bit x (M - i - 1)) vr0 vl0)) (ge_val N c)).
    fold (cond (negb t0) (prg (pick (ge_bit x (M - i - 1)) vr1 vl1)) (ge_val N c)).
    destruct (Bool.bool_dec (ge_bit x (M - i - 1)) a) as [Ea|Ea].
    + rewrite Ea. fold keep0 keep1.
      assert (H : ge_add o0 (signed N false (cond t0 keep0 (ge_val N c))) + ge_add o1 (signed N true (cond (negb t0) keep1 (ge_val N c))) == v').
      { rewrite !add_eqm, !signed_eqm, !cond_eqm by auto. rewrite V', <- Ho. destruct t0; cbn [negb]; rewrite val_eqm by auto; cring. }
      specialize (W x _ _ H).
      replace (pick a (if t0 then Z.lxor r0 cs else r0) (if t0 then Z.lxor l0 cs else l0)) with s0' by (unfold s0'; destruct a; reflexivity).
      replace (pick a (xorb tr0 (t0 && cr)) (xorb tl0 (t0 && cl))) with t0' by (unfold t0'; destruct a; reflexivity).
      replace (pick a (if negb t0 then Z.lxor r1 cs else r1) (if negb t0 then Z.lxor l1 cs else l1)) with s1' by (unfold s1'; destruct a; reflexivity).
      replace (pick a (xorb tr1 (negb t0 && cr)) (xorb tl1 (negb t0 && cl))) with (negb t0') by (rewrite <- T; unfold t1'; destruct a; reflexivity).
      destruct (dcf_walk split prg N M false ws (S i) x s0' t0' _) as [[a0 b0] q0].
      destruct (dcf_walk split prg N M true ws (S i) x s1' (negb t0') _) as [[a1 b1] q1].
      destruct a; exact W.
    + set (b := ge_bit x (M - i - 1)) in *.
      assert (Es : pick b (if t0 then Z.lxor r0 cs else r0) (if t0 then Z.lxor l0 cs else l0) =
                   pick b (if negb t0 then Z.lxor r1 cs else r1) (if negb t0 then Z.lxor l1 cs else l1)).
      { unfold cs. destruct a, b; try congruence; cbn [pick]; destruct t0; cbn [negb]; rewrite ?lxor_cancel_l, ?lxor_cancel_r; auto. }
      assert (Et : pick b (xorb tr0 (t0 && cr)) (xorb tl0 (t0 && cl)) = pick b (xorb tr1 (negb t0 && cr)) (xorb tl1 (negb t0 && cl))).
      { unfold cr, cl. destruct a, b; try congruence; cbn [pick]; destruct t0, tl0, tl1, tr0, tr1; reflexivity. }
      rewrite <- Es, <- Et. set (ss := pick b (if t0 then _ else _) _). set (tt := pick b (xorb _ _) _).
      assert (P0 : prg (pick b vr0 vl0) = lose0) by (unfold lose0; destruct a, b; try congruence; reflexivity).
      assert (P1 : prg (pick b vr1 vl1) = lose1) by (unfold lose1; destruct a, b; try congruence; reflexivity).
      rewrite P0, P1.
      pose proof (dcf_walk_same ws x (S i) ss tt (ge_add o0 (signed N false (cond t0 lose0 (ge_val N c)))) (ge_add o1 (signed N true (cond (negb t0) lose1 (ge_val N c))))) as Q.
      destruct (dcf_walk split prg N M false ws (S i) x ss tt _) as [[a0 b0] q0].
      destruct (dcf_walk split prg N M true ws (S i) x ss tt _) as [[a1 b1] q1].
      destruct Q as (Q1 & Q2 & Q3).
      assert (R : q0 + q1 == if a then beta else 0).
      { rewrite Q3. rewrite !add_eqm, !signed_eqm, !cond_eqm by auto.
        transitivity (v + lose0 - lose1 + (if t0 then c else - c)).
        - rewrite <- Ho. destruct t0; cbn [negb]; rewrite val_eqm by auto; cring.
        - destruct t0; rewrite C; cring. }
      destruct a, b; try congruence; auto.
Qed.
End Dcf.
