(** * C65: exponentiation with a fixed-base table, and SlowCustomPow *)
From Coq Require Import ZArith List Bool Lia.
From Verif Require Import LinCodeModel MpxModel MpxProof ExpTableModel.
Import ListNotations.
Open Scope Z_scope.

(** The value of words of [w] bits, least significant first. *)
Definition words_value (w : Z) (l : list Z) : Z := fold_right (fun d v => d + 2 ^ w * v) 0 l.

Lemma expand_pow u : 0 <= u -> expand u = 2 ^ u. Proof. intros. apply Z.shiftl_1_l. Qed.
Lemma land_mask x u : 0 <= u -> Z.land x (mask_of u) = x mod 2 ^ u.
Proof.
  intros. unfold mask_of. rewrite expand_pow by lia. rewrite Z.sub_1_r.
  change (Z.pred (2 ^ u)) with (Z.pred (2 ^ u)). rewrite <- Z.ones_equiv. now apply Z.land_ones.
Qed.

Section Laws.
  Context {A : Type} (mul : A -> A -> A) (one : A) (el : Z -> A).
  (** [el x] is the base to the power x. *)
  Hypothesis el_mul : forall x y, 0 <= x -> 0 <= y -> mul (el x) (el y) = el (x + y).
  Hypothesis el_one : one = el 0.

  (** ** The table *)
  Lemma level_entries_spec n a b : 0 <= a -> 0 <= b ->
    level_entries mul n (el a) (el b) =
      (map (fun k => el (a + b * Z.of_nat k)) (seq 0 n), el (a + b * Z.of_nat n)).
  Proof.
    intros Ha Hb. revert a Ha. induction n as [|n IH]; intros a Ha.
    - cbn [level_entries seq map]. now rewrite Z.mul_0_r, Z.add_0_r.
    - cbn [level_entries]. rewrite el_mul by lia. rewrite IH by lia. cbn [seq map].
      rewrite <- seq_shift, map_map. f_equal; [f_equal|].
      + now rewrite Z.mul_0_r, Z.add_0_r.
      + apply map_ext. intros k. f_equal. lia.
      + f_equal. lia.
  Qed.
  Lemma stairs_spec levels u a : 0 < u -> 0 <= a ->
    forall lv k, (lv < levels)%nat -> 0 < k < 2 ^ u ->
    nth_error (stairs mul levels u (el a)) (Z.to_nat (Z.of_nat lv * (2 ^ u - 1) + k - 1)) =
      Some (el (a * k * 2 ^ (u * Z.of_nat lv))).
  Proof.
    intros Hu. assert (0 < 2 ^ u) as P by (apply Z.pow_pos_nonneg; lia).
    revert a. induction levels as [|levels IH]; intros a Ha lv k Hlv Hk; [lia|].
    cbn [stairs]. rewrite level_entries_spec by lia. rewrite expand_pow by lia.
    set (n := Z.to_nat (2 ^ u - 1)).
    assert (length (map (fun k => el (a + a * Z.of_nat k)) (seq 0 n)) = n) as L by now rewrite map_length, seq_length.
    destruct lv as [|lv].
    - rewrite nth_error_app1 by (rewrite L; lia).
      change (Z.of_nat 0) with 0. rewrite Z.mul_0_l, Z.mul_0_r, Z.pow_0_r, Z.mul_1_r, Z.add_0_l.
      rewrite nth_error_map. rewrite (nth_error_nth' _ 0%nat) by (rewrite seq_length; lia).
      rewrite seq_nth by lia. cbn [option_map]. do 2 f_equal. rewrite Nat.add_0_l, Z2Nat.id by lia. lia.
    - rewrite nth_error_app2 by (rewrite L; nia). rewrite L.
      replace (Z.to_nat (Z.of_nat (S lv) * (2 ^ u - 1) + k - 1) - n)%nat
        with (Z.to_nat (Z.of_nat lv * (2 ^ u - 1) + k - 1)) by (unfold n; nia).
      rewrite IH by (unfold n; nia). do 2 f_equal.
      replace (u * Z.of_nat (S lv)) with (u + u * Z.of_nat lv) by lia. rewrite Z.pow_add_r by lia.
      unfold n. rewrite Z2Nat.id by lia. ring.
  Qed.

  (** ** The exponentiation *)
  Section Pow.
    Variables (t : @table A) (wbits E : Z) (levels : nat).
    Hypothesis Hu : 0 < unit_bits t <= wbits.
    Hypothesis Hw : wbits <= 64.
    Hypothesis Hst : stair t = stairs mul levels (unit_bits t) (el 1).
    Hypothesis HE : 0 <= E < 2 ^ (unit_bits t * Z.of_nat levels).
    Notation u := (unit_bits t).

    Lemma pow_u : 0 < 2 ^ u. Proof. apply Z.pow_pos_nonneg; lia. Qed.
    (** One unit: from the exponent's low u*lv bits to its low u*(lv+1). *)
    Lemma step_correct (lv : nat) :
      let c := u * Z.of_nat lv in
      step mul t (el (E mod 2 ^ c)) (Z.of_nat lv * (2 ^ u - 1)) ((E / 2 ^ c) mod 2 ^ u) =
        Val (el (E mod 2 ^ (c + u))).
    Proof.
      intros c. pose proof pow_u as P. unfold step.
      assert (0 < 2 ^ c) as Pc by (apply Z.pow_pos_nonneg; lia).
      set (k := (E / 2 ^ c) mod 2 ^ u).
      assert (0 <= k < 2 ^ u) as Hk by (apply Z.mod_pos_bound; lia).
      assert (E mod 2 ^ (c + u) = E mod 2 ^ c + k * 2 ^ c) as EQ.
      { rewrite Z.pow_add_r by lia. rewrite Z.rem_mul_r by lia. unfold k. ring. }
      rewrite EQ. destruct (Z.ltb_spec 0 k) as [K|K].
      - assert (lv < levels)%nat as Hlv.
        { destruct (Nat.ltb_spec lv levels) as [|G]; [auto|exfalso].
          assert (E < 2 ^ c).
          { eapply Z.lt_le_trans; [apply HE|]. apply Z.pow_le_mono_r; [lia|]. unfold c. nia. }
          unfold k in K. rewrite Z.div_small, Z.mod_0_l in K by lia. lia. }
        rewrite Hst, stairs_spec by lia. rewrite el_mul.
        + do 2 f_equal. unfold c. ring.
        + apply Z.mod_pos_bound. lia.
        + apply Z.mul_nonneg_nonneg; [lia|]. unfold c in Pc. lia.
      - replace k with 0 by lia. rewrite Z.mul_0_l, Z.add_0_r. reflexivity.
    Qed.

    (** [units]: from c = u*lv consumed bits while a whole unit is left below T. *)
    Lemma units_correct fuel (lv : nat) T e_unit :
      wbits <= T -> u * Z.of_nat lv <= T -> T - wbits <= u * Z.of_nat lv ->
      T - u * Z.of_nat lv < u * (Z.of_nat fuel + 1) ->
      exists lv' e',
        units mul fuel t wbits (el (E mod 2 ^ (u * Z.of_nat lv))) (Z.of_nat lv * (2 ^ u - 1))
          (u * Z.of_nat lv - (T - wbits)) ((E mod 2 ^ T) / 2 ^ (u * Z.of_nat lv)) e_unit =
        Val (el (E mod 2 ^ (u * Z.of_nat lv')), Z.of_nat lv' * (2 ^ u - 1),
             u * Z.of_nat lv' - (T - wbits), (E mod 2 ^ T) / 2 ^ (u * Z.of_nat lv'), e') /\
        (lv <= lv')%nat /\ u * Z.of_nat lv' <= T /\ T - u * Z.of_nat lv' < u.
    Proof.
      revert lv e_unit. induction fuel as [|fuel IH]; intros lv e_unit H1 H2 H3 H4.
      - cbn [units]. destruct (Z.leb_spec (u * Z.of_nat lv - (T - wbits)) (wbits - u)); [lia|].
        exists lv, e_unit. split; [reflexivity|]. lia.
      - cbn [units]. destruct (Z.leb_spec (u * Z.of_nat lv - (T - wbits)) (wbits - u)) as [G|G].
        2:{ exists lv, e_unit. split; [reflexivity|]. lia. }
        rewrite land_mask by lia.
        assert (((E mod 2 ^ T) / 2 ^ (u * Z.of_nat lv)) mod 2 ^ u = (E / 2 ^ (u * Z.of_nat lv)) mod 2 ^ u) as ->.
        { rewrite div_pow_mod by lia. apply mod_mod_le. lia. }
        rewrite step_correct. cbn [bind].
        replace (u * Z.of_nat lv + u) with (u * Z.of_nat (S lv)) by lia.
        rewrite expand_pow by lia.
        replace (Z.of_nat lv * (2 ^ u - 1) + (2 ^ u - 1)) with (Z.of_nat (S lv) * (2 ^ u - 1)) by lia.
        replace (u * Z.of_nat lv - (T - wbits) + u) with (u * Z.of_nat (S lv) - (T - wbits)) by lia.
        replace (Z.shiftr ((E mod 2 ^ T) / 2 ^ (u * Z.of_nat lv)) u)
          with ((E mod 2 ^ T) / 2 ^ (u * Z.of_nat (S lv))).
        2:{ rewrite Z.shiftr_div_pow2, Z.div_div by (try lia; try apply Z.pow_nonzero; try apply Z.pow_pos_nonneg; lia).
            rewrite <- Z.pow_add_r by lia. f_equal. f_equal. lia. }
        destruct (IH (S lv) ((E / 2 ^ (u * Z.of_nat lv)) mod 2 ^ u)) as (lv' & e' & R & Q); try lia.
        exists lv', e'. split; [exact R|]. lia.
    Qed.

    Lemma words_loop_correct ws : forall (lv : nat) T,
      0 <= T -> u * Z.of_nat lv <= T -> T - u * Z.of_nat lv < u ->
      Forall (fun d => 0 <= d < 2 ^ wbits) ws ->
      E = E mod 2 ^ T + 2 ^ T * words_value wbits ws ->
      words_loop mul ws t wbits (el (E mod 2 ^ (u * Z.of_nat lv))) (Z.of_nat lv * (2 ^ u - 1))
        ((E mod 2 ^ T) / 2 ^ (u * Z.of_nat lv))
        (if T =? u * Z.of_nat lv then 0 else u - (T - u * Z.of_nat lv)) = Val (el E).
    Proof.
      pose proof pow_u as P.
      induction ws as [|word ws IH]; intros lv T HT Hc Hr Hws HEq.
      - cbn [words_value fold_right] in HEq. rewrite Z.mul_0_r, Z.add_0_r in HEq.
        cbn [words_loop]. destruct (Z.eqb_spec T (u * Z.of_nat lv)) as [Te|Tn].
        + cbn [Z.ltb Z.compare]. rewrite <- Te. now rewrite <- HEq.
        + destruct (Z.ltb_spec 0 (u - (T - u * Z.of_nat lv))); [|lia].
          rewrite <- HEq.
          assert (0 <= E < 2 ^ T) as BE by (rewrite HEq; apply Z.mod_pos_bound, Z.pow_pos_nonneg; lia).
          pose proof (step_correct lv) as S. cbv zeta in S.
          replace ((E / 2 ^ (u * Z.of_nat lv)) mod 2 ^ u) with (E / 2 ^ (u * Z.of_nat lv)) in S.
          2:{ symmetry. apply Z.mod_small. split; [apply Z.div_pos; [lia|apply Z.pow_pos_nonneg; lia]|].
              apply Z.div_lt_upper_bound; [apply Z.pow_pos_nonneg; lia|]. rewrite <- Z.pow_add_r by lia.
              eapply Z.lt_le_trans; [apply BE|]. apply Z.pow_le_mono_r; lia. }
          rewrite S. do 2 f_equal. apply Z.mod_small. split; [lia|].
          eapply Z.lt_le_trans; [apply BE|]. apply Z.pow_le_mono_r; lia.
      - inversion Hws as [|? ? Hd Hws' X1]; subst.
        cbn [words_value fold_right] in HEq. fold (words_value wbits ws) in HEq.
        assert (0 < 2 ^ T) as PT by (apply Z.pow_pos_nonneg; lia).
        assert (0 < 2 ^ wbits) as PW by (apply Z.pow_pos_nonneg; lia).
        assert (0 <= E mod 2 ^ T < 2 ^ T) as BT by (apply Z.mod_pos_bound; lia).
        assert (E mod 2 ^ (T + wbits) = E mod 2 ^ T + 2 ^ T * word) as EM.
        { rewrite Z.pow_add_r by lia. symmetry. apply Z.mod_unique_pos with (q := words_value wbits ws).
          - nia.
          - rewrite HEq at 1. ring. }
        assert (E = E mod 2 ^ (T + wbits) + 2 ^ (T + wbits) * words_value wbits ws) as HEq'.
        { rewrite EM. rewrite Z.pow_add_r by lia. rewrite HEq at 1. ring. }
        (* the loop over full units and the words after it, from a unit boundary c with T <= c *)
        assert (forall (lv1 : nat) e1, T <= u * Z.of_nat lv1 <= T + wbits ->
          bind (units mul 64 t wbits (el (E mod 2 ^ (u * Z.of_nat lv1))) (Z.of_nat lv1 * (2 ^ u - 1))
                  (u * Z.of_nat lv1 - T) (E mod 2 ^ (T + wbits) / 2 ^ (u * Z.of_nat lv1)) e1)
            (fun '(r, level, start, word, e_unit) =>
               words_loop mul ws t wbits r level word
                 (if start =? wbits then 0 else start + u - wbits)) = Val (el E)) as Tail.
        { intros lv1 e1 Hlv1.
          destruct (units_correct 64 lv1 (T + wbits) e1) as (lv' & e' & R & Q1 & Q2 & Q3); try lia.
          replace (T + wbits - wbits) with T in R by lia. rewrite R. cbn [bind].
          replace (if u * Z.of_nat lv' - T =? wbits then 0 else u * Z.of_nat lv' - T + u - wbits)
            with (if T + wbits =? u * Z.of_nat lv' then 0 else u - (T + wbits - u * Z.of_nat lv')).
          2:{ destruct (Z.eqb_spec (T + wbits) (u * Z.of_nat lv')), (Z.eqb_spec (u * Z.of_nat lv' - T) wbits); lia. }
          apply IH; auto; lia. }
        cbn [words_loop]. destruct (Z.eqb_spec T (u * Z.of_nat lv)) as [Te|Tn].
        + cbn [Z.ltb Z.compare bind].
          specialize (Tail lv (E mod 2 ^ T / 2 ^ (u * Z.of_nat lv)) ltac:(lia)).
          replace (u * Z.of_nat lv - T) with 0 in Tail by lia.
          replace (E mod 2 ^ (T + wbits) / 2 ^ (u * Z.of_nat lv)) with word in Tail; [exact Tail|].
          rewrite EM, <- Te, (Z.mul_comm (2 ^ T)), Z.div_add by lia. rewrite Z.div_small by lia. lia.
        + set (s := u - (T - u * Z.of_nat lv)).
          destruct (Z.ltb_spec 0 s) as [_|]; [|unfold s in *; lia].
          replace (u - s) with (T - u * Z.of_nat lv) by (unfold s; lia).
          set (r := T - u * Z.of_nat lv). set (c := u * Z.of_nat lv) in *.
          assert (0 < 2 ^ c) as Pc by (apply Z.pow_pos_nonneg; unfold c; lia).
          assert (0 < 2 ^ r) as Pr by (apply Z.pow_pos_nonneg; unfold r; lia).
          assert (Z.lor (E mod 2 ^ T / 2 ^ c) (Z.land (Z.shiftl word r mod 2 ^ 64) (mask_of u)) = (E / 2 ^ c) mod 2 ^ u) as EU.
          { rewrite land_mask by lia. rewrite mod_mod_le by lia. rewrite Z.shiftl_mul_pow2 by (unfold r; lia).
            assert (2 ^ u = 2 ^ r * 2 ^ s) as Pu by (rewrite <- Z.pow_add_r by (unfold r, s; lia); f_equal; unfold r, s; lia).
            assert (0 < 2 ^ s) by (apply Z.pow_pos_nonneg; unfold s; lia).
            rewrite Pu, (Z.mul_comm word), Z.mul_mod_distr_l by lia. rewrite (Z.mul_comm (2 ^ r) (word mod _)).
            assert (2 ^ T = 2 ^ c * 2 ^ r) as PTc by (rewrite <- Z.pow_add_r by (unfold c, r; lia); f_equal; unfold r; lia).
            rewrite lor_shift.
            - rewrite Z.rem_mul_r by lia.
              rewrite div_pow_mod by (unfold c in *; lia). fold r.
              assert ((E / 2 ^ c / 2 ^ r) mod 2 ^ s = word mod 2 ^ s) as ->; [|ring].
              rewrite Z.div_div by lia. rewrite <- PTc.
              rewrite HEq at 1. rewrite (Z.mul_comm (2 ^ T)), Z.div_add by lia. rewrite Z.div_small by lia.
              rewrite Z.add_0_l.
              replace (2 ^ wbits * words_value wbits ws) with ((2 ^ (wbits - s) * words_value wbits ws) * 2 ^ s).
              2:{ replace (2 ^ wbits) with (2 ^ (wbits - s) * 2 ^ s) by (rewrite <- Z.pow_add_r by (unfold s; lia); f_equal; lia). ring. }
              now rewrite Z.mod_add by lia.
            - unfold r; lia.
            - split; [apply Z.div_pos; lia|]. apply Z.div_lt_upper_bound; [lia|]. rewrite <- PTc. lia. }
          rewrite EU. pose proof (step_correct lv) as S. cbv zeta in S. fold c in S. rewrite S. cbn [bind].
          replace (c + u) with (u * Z.of_nat (Datatypes.S lv)) by (unfold c; lia).
          rewrite expand_pow by lia.
          replace (Z.of_nat lv * (2 ^ u - 1) + (2 ^ u - 1)) with (Z.of_nat (Datatypes.S lv) * (2 ^ u - 1)) by lia.
          specialize (Tail (Datatypes.S lv) ((E / 2 ^ c) mod 2 ^ u) ltac:(unfold c in *; lia)).
          replace (u * Z.of_nat (Datatypes.S lv) - T) with s in Tail by (unfold s, c; lia).
          replace (E mod 2 ^ (T + wbits) / 2 ^ (u * Z.of_nat (Datatypes.S lv))) with (Z.shiftr word s) in Tail; [exact Tail|].
          rewrite Z.shiftr_div_pow2 by (unfold s; lia).
          replace (u * Z.of_nat (Datatypes.S lv)) with (T + s) by (unfold s, c in *; lia).
          rewrite EM. rewrite Z.pow_add_r by (unfold s; lia). rewrite <- Z.div_div by (try lia; apply Z.pow_pos_nonneg; unfold s; lia).
          f_equal. rewrite (Z.mul_comm (2 ^ T)), Z.div_add by lia. rewrite Z.div_small by lia. lia.
    Qed.
  End Pow.

  Theorem table_pow : forall u max_exp_bits wbits ws,
    0 < u <= 31 -> u <= wbits <= 64 -> 0 <= max_exp_bits ->
    Forall (fun d => 0 <= d < 2 ^ wbits) ws ->
    exists t, make_table mul false (el 1) u max_exp_bits = Val t /\
      max_exp_bits <= max_bits t < max_exp_bits + u /\
      (words_value wbits ws < 2 ^ max_bits t ->
       words_loop mul ws t wbits one 0 0 0 = Val (el (words_value wbits ws))).
  Proof.
    intros u mx wbits ws Hu Hw Hm Hws. unfold make_table.
    destruct (Z.leb_spec u 0); [lia|]. destruct (Z.ltb_spec 31 u); [lia|].
    eexists. split; [reflexivity|]. cbn [max_bits].
    set (lv := (mx + u - 1) / u).
    pose proof (Z.div_mod (mx + u - 1) u ltac:(lia)) as D. pose proof (Z.mod_pos_bound (mx + u - 1) u ltac:(lia)) as M.
    fold lv in D. assert (0 <= lv) by (apply Z.div_pos; lia).
    split; [lia|]. intros Hlt.
    assert (0 <= words_value wbits ws) as Hp.
    { clear - Hws Hw Hu. induction Hws as [|d l Hd Hl IH]; [cbn; lia|].
      cbn [words_value fold_right]. fold (words_value wbits l).
      assert (0 < 2 ^ wbits) by (apply Z.pow_pos_nonneg; lia). nia. }
    set (t := {| unit_bits := u; max_bits := lv * u; stair := stairs mul (Z.to_nat lv) u (el 1) |}).
    pose proof (words_loop_correct t wbits (words_value wbits ws) (Z.to_nat lv)
      ltac:(cbn; lia) ltac:(lia) eq_refl) as W.
    assert (0 <= words_value wbits ws < 2 ^ (unit_bits t * Z.of_nat (Z.to_nat lv))) as HE.
    { cbn [unit_bits]. rewrite Z2Nat.id by lia. split; [lia|]. now rewrite (Z.mul_comm u). }
    specialize (W HE ws 0%nat 0). cbn [Z.of_nat Z.pow] in W.
    rewrite Z.mod_1_r, Z.mul_0_l in W. change (unit_bits t) with u in W.
    rewrite Z.mul_0_r in W. change (2 ^ 0) with 1 in W. rewrite Z.mod_1_r in W.
    rewrite Z.div_1_r in W. cbn [Z.eqb] in W. rewrite el_one. apply W; auto; lia.
  Qed.

  (** ** SlowCustomPow *)
  Lemma digit_pow_correct n e a b : 0 <= e < 2 ^ Z.of_nat n -> 0 <= a -> 0 <= b ->
    digit_pow mul n e (el a) (el b) = (el (a + b * e), el (b * 2 ^ Z.of_nat n)).
  Proof.
    revert e a b. induction n as [|n IH]; intros e a b He Ha Hb.
    - change (2 ^ Z.of_nat 0) with 1 in *. assert (e = 0) as -> by lia. cbn [digit_pow]. f_equal; f_equal; lia.
    - cbn [digit_pow]. rewrite (el_mul b b) by lia.
      replace (Z.of_nat (S n)) with (1 + Z.of_nat n) in * by lia. rewrite Z.pow_add_r in * by lia.
      change (2 ^ 1) with 2 in *. rewrite Z.shiftr_div_pow2 by lia. change (2 ^ 1) with 2.
      pose proof (Z.div_mod e 2 ltac:(lia)) as D. rewrite Zmod_odd in D.
      assert (0 <= e / 2 < 2 ^ Z.of_nat n) by (split; [apply Z.div_pos; lia|apply Z.div_lt_upper_bound; lia]).
      assert (0 < 2 ^ Z.of_nat n) by (apply Z.pow_pos_nonneg; lia).
      destruct (Z.odd e).
      + rewrite el_mul by lia. rewrite IH by lia. f_equal; f_equal; nia.
      + rewrite IH by lia. f_equal; f_equal; nia.
  Qed.
  Lemma last_pow_correct fuel e a b : 0 <= e < 2 ^ Z.of_nat fuel -> 0 <= a -> 0 <= b ->
    last_pow mul fuel e (el a) (el b) = Val (el (a + b * e)).
  Proof.
    revert e a b. induction fuel as [|n IH]; intros e a b He Ha Hb.
    - change (2 ^ Z.of_nat 0) with 1 in *. assert (e = 0) as -> by lia. cbn. do 2 f_equal. lia.
    - cbn [last_pow]. destruct (Z.eqb_spec e 0) as [->|N]; [do 2 f_equal; lia|].
      replace (Z.of_nat (S n)) with (1 + Z.of_nat n) in * by lia. rewrite Z.pow_add_r in * by lia.
      change (2 ^ 1) with 2 in *. rewrite Z.shiftr_div_pow2 by lia. change (2 ^ 1) with 2.
      pose proof (Z.div_mod e 2 ltac:(lia)) as D. rewrite Zmod_odd in D.
      assert (0 <= e / 2 < 2 ^ Z.of_nat n) by (split; [apply Z.div_pos; lia|apply Z.div_lt_upper_bound; lia]).
      rewrite (el_mul b b) by lia.
      destruct (Z.odd e); [rewrite el_mul by lia|]; destruct (Z.eqb_spec (e / 2) 0) as [Z0|];
        rewrite IH by lia; do 2 f_equal; nia.
  Qed.
  Lemma digits_pow_correct ds a b : Forall (fun d => 0 <= d < 2 ^ 60) ds -> 0 <= a -> 0 <= b ->
    digits_pow mul ds (el a) (el b) = Val (el (a + b * V ds)).
  Proof.
    intros H. revert a b. induction H as [|d ds Hd Hds IH]; intros a b Ha Hb.
    - cbn. do 2 f_equal. lia.
    - cbn [digits_pow]. destruct ds as [|d' ds].
      + unfold mp_mask. rewrite Z.land_ones, Z.mod_small by lia.
        rewrite last_pow_correct by (try exact Hd; lia). cbn. do 2 f_equal. lia.
      + rewrite digit_pow_correct by (try exact Hd; lia). rewrite IH by lia.
        rewrite (V_cons d). do 2 f_equal. change (2 ^ Z.of_nat 60) with (2 ^ 60). ring.
  Qed.
  Theorem custom_pow : forall scalar, wf scalar ->
    slow_custom_pow mul one (el 1) scalar =
      if value scalar <? 0 then Thrown else Val (el (value scalar)).
  Proof.
    intros s (Hd & Hc & Hn). unfold slow_custom_pow. pose proof (V_nonneg _ Hd) as B.
    unfold value. destruct (neg s) eqn:N.
    - destruct (Z.ltb_spec (- V (dp s)) 0) as [|G]; [reflexivity|].
      assert (dp s = []) as F by (apply V_zero; auto; lia). specialize (Hn F). discriminate.
    - destruct (Z.ltb_spec (V (dp s)) 0); [lia|].
      destruct (dp s) as [|d l] eqn:E; [cbn; now rewrite el_one|]. rewrite <- E in *. rewrite el_one.
      rewrite digits_pow_correct by (auto; lia). do 2 f_equal. lia.
  Qed.
End Laws.

(** ** The Montgomery ring *)
Definition mont_ok (m R Rinv : Z) : Prop := 0 < m /\ (R * Rinv) mod m = 1 mod m.
Lemma mont_el m R Rinv b : mont_ok m R Rinv -> forall x y, 0 <= x -> 0 <= y ->
  mont_mul m Rinv ((b ^ x * R) mod m) ((b ^ y * R) mod m) = (b ^ (x + y) * R) mod m.
Proof.
  intros [Hm HR] x y Hx Hy. unfold mont_mul.
  rewrite <- Z.mul_mod_idemp_l by lia.
  rewrite <- (Z.mul_mod (b ^ x * R) (b ^ y * R)) by lia.
  rewrite Z.mul_mod_idemp_l by lia.
  replace (b ^ x * R * (b ^ y * R) * Rinv) with ((b ^ x * b ^ y * R) * (R * Rinv)) by ring.
  rewrite <- Z.mul_mod_idemp_r by lia. rewrite HR. rewrite Z.mul_mod_idemp_r by lia.
  rewrite Z.mul_1_r, Z.pow_add_r by lia. reflexivity.
Qed.

(** MakeBaseTable and PowMod with an MPInt exponent: the power in Montgomery form
    when the exponent fits the table, an exception when it is negative or too big;
    the table is never read outside. *)
Theorem mont_pow_correct : forall m R Rinv base u max_exp_bits,
  mont_ok m R Rinv -> 0 <= base -> 0 < u <= 31 -> 0 <= max_exp_bits ->
  exists t, mont_table m R Rinv base u max_exp_bits = Val t /\
    max_exp_bits <= max_bits t < max_exp_bits + u /\
    forall e, wf e ->
      (0 <= value e < 2 ^ max_bits t -> mont_pow m R Rinv t e = Val ((base ^ value e * R) mod m)) /\
      (~ 0 <= value e < 2 ^ max_bits t -> mont_pow m R Rinv t e = Thrown).
Proof.
  intros m R Rinv base u mx OK Hb Hu Hm. pose proof OK as [Pm HR]. unfold mont_table.
  destruct (Z.ltb_spec base 0); [lia|].
  set (el := fun x => (base ^ x * R) mod m).
  assert (mont_in m R base = el 1) as -> by (unfold mont_in, el; now rewrite Z.pow_1_r).
  assert (mont_one m R = el 0) as EO by (unfold mont_one, el; now rewrite Z.pow_0_r, Z.mul_1_l).
  assert (forall x y, 0 <= x -> 0 <= y -> mont_mul m Rinv (el x) (el y) = el (x + y)) as EM
    by (intros; now apply mont_el).
  destruct (table_pow (mont_mul m Rinv) (mont_one m R) el EM EO u mx 60 [] Hu ltac:(lia) Hm ltac:(constructor)) as (t & Et & Bt & _).
  exists t. split; [exact Et|]. split; [exact Bt|]. intros e W.
  pose proof W as (Hd & Hc & Hn). pose proof (V_nonneg _ Hd) as BV.
  destruct (table_pow (mont_mul m Rinv) (mont_one m R) el EM EO u mx 60 (dp e) Hu ltac:(lia) Hm Hd) as (t' & Et' & _ & Pw).
  rewrite Et in Et'. injection Et' as <-.
  change (words_value 60 (dp e)) with (V (dp e)) in Pw.
  unfold mont_pow, pow_mod. rewrite count_bits_correct by exact W.
  assert (0 <= max_bits t) by lia.
  pose proof (bit_length_spec (Z.abs (value e)) (max_bits t) ltac:(lia) ltac:(lia)) as BL.
  split.
  - intros Hv.
    assert (neg e = false) as ->.
    { unfold value in Hv. destruct (neg e) eqn:N; [|reflexivity].
      assert (dp e = []) as F by (apply V_zero; auto; lia). now specialize (Hn F). }
    cbn [negb andb]. destruct (Z.leb_spec (bit_length (Z.abs (value e))) (max_bits t)); [|lia].
    rewrite <- value_abs in Pw by exact W. rewrite Z.abs_eq in Pw by lia. unfold digit_bit. rewrite Pw by lia. reflexivity.
  - intros Hv. destruct (neg e) eqn:N; [reflexivity|]. cbn [negb andb].
    destruct (Z.leb_spec (bit_length (Z.abs (value e))) (max_bits t)); [|reflexivity].
    exfalso. apply Hv. unfold value in *. rewrite N in *. lia.
Qed.
(** The same through OpenSSL's 64-bit words. *)
Lemma words64_value e : 0 <= e -> Forall (fun d => 0 <= d < 2 ^ 64) (words64 e) /\ words_value 64 (words64 e) = e.
Proof.
  intros He. split.
  - apply Forall_forall. intros d Hd. apply in_map_iff in Hd as (i & <- & _). apply Z.mod_pos_bound. lia.
  - unfold words64. fold (bit_length e). set (n := Z.to_nat (((bit_length e + 7) / 8 + 7) / 8)).
    assert (e < 2 ^ (64 * Z.of_nat n)) as B.
    { apply bit_length_spec; [lia|lia|]. pose proof (bit_length_nonneg e He).
      assert (0 <= (bit_length e + 7) / 8) by (apply Z.div_pos; lia).
      assert (0 <= ((bit_length e + 7) / 8 + 7) / 8) by (apply Z.div_pos; lia).
      unfold n. rewrite Z2Nat.id by lia.
      pose proof (Z.div_mod (bit_length e + 7) 8 ltac:(lia)). pose proof (Z.mod_pos_bound (bit_length e + 7) 8 ltac:(lia)).
      pose proof (Z.div_mod ((bit_length e + 7) / 8 + 7) 8 ltac:(lia)). pose proof (Z.mod_pos_bound ((bit_length e + 7) / 8 + 7) 8 ltac:(lia)).
      lia. }
    clearbody n. revert e He B. induction n as [|n IH]; intros e He B.
    + change (2 ^ (64 * Z.of_nat 0)) with 1 in B. cbn. lia.
    + cbn [seq map words_value fold_right]. change (64 * Z.of_nat 0) with 0. rewrite Z.pow_0_r, Z.div_1_r.
      rewrite <- seq_shift, map_map.
      assert (fold_right (fun d v => d + 2 ^ 64 * v) 0
        (map (fun x => (e / 2 ^ (64 * Z.of_nat (S x))) mod 2 ^ 64) (seq 0 n)) = e / 2 ^ 64) as ->.
      { rewrite <- (IH (e / 2 ^ 64)) at 1.
        - unfold words_value. f_equal. apply map_ext. intros i.
          replace (64 * Z.of_nat (S i)) with (64 + 64 * Z.of_nat i) by lia. rewrite Z.pow_add_r by lia.
          now rewrite Z.div_div by (try lia; apply Z.pow_pos_nonneg; lia).
        - apply Z.div_pos; lia.
        - apply Z.div_lt_upper_bound; [lia|]. rewrite <- Z.pow_add_r by lia.
          now replace (64 + 64 * Z.of_nat n) with (64 * Z.of_nat (S n)) by lia. }
      pose proof (Z.div_mod e (2 ^ 64) ltac:(lia)). lia.
Qed.
Theorem mont_pow64_correct : forall m R Rinv base u max_exp_bits,
  mont_ok m R Rinv -> 0 <= base -> 0 < u <= 31 -> 0 <= max_exp_bits ->
  exists t, mont_table m R Rinv base u max_exp_bits = Val t /\
    max_exp_bits <= max_bits t < max_exp_bits + u /\
    forall e,
      (0 <= e < 2 ^ max_bits t -> mont_pow64 m R Rinv t e = Val ((base ^ e * R) mod m)) /\
      (~ 0 <= e < 2 ^ max_bits t -> mont_pow64 m R Rinv t e = Thrown).
Proof.
  intros m R Rinv base u mx OK Hb Hu Hm. pose proof OK as [Pm HR]. unfold mont_table.
  destruct (Z.ltb_spec base 0); [lia|].
  set (el := fun x => (base ^ x * R) mod m).
  assert (mont_in m R base = el 1) as -> by (unfold mont_in, el; now rewrite Z.pow_1_r).
  assert (mont_one m R = el 0) as EO by (unfold mont_one, el; now rewrite Z.pow_0_r, Z.mul_1_l).
  assert (forall x y, 0 <= x -> 0 <= y -> mont_mul m Rinv (el x) (el y) = el (x + y)) as EM
    by (intros; now apply mont_el).
  destruct (table_pow (mont_mul m Rinv) (mont_one m R) el EM EO u mx 64 [] Hu ltac:(lia) Hm ltac:(constructor)) as (t & Et & Bt & _).
  exists t. split; [exact Et|]. split; [exact Bt|]. intros e. unfold mont_pow64, pow_mod.
  assert (0 <= max_bits t) by lia. split.
  - intros He. destruct (words64_value e ltac:(lia)) as [F EV].
    destruct (table_pow (mont_mul m Rinv) (mont_one m R) el EM EO u mx 64 (words64 e) Hu ltac:(lia) Hm F) as (t' & Et' & _ & Pw).
    rewrite Et in Et'. injection Et' as <-. rewrite EV in Pw.
    destruct (Z.ltb_spec e 0); [lia|]. cbn [negb andb]. rewrite Z.abs_eq by lia. fold (bit_length e).
    pose proof (bit_length_spec e (max_bits t) ltac:(lia) ltac:(lia)).
    destruct (Z.leb_spec (bit_length e) (max_bits t)); [|lia]. apply Pw. lia.
  - intros He. destruct (Z.ltb_spec e 0); [reflexivity|]. cbn [negb andb]. rewrite Z.abs_eq by lia. fold (bit_length e).
    pose proof (bit_length_spec e (max_bits t) ltac:(lia) ltac:(lia)).
    destruct (Z.leb_spec (bit_length e) (max_bits t)); [lia|reflexivity].
Qed.
(** Mapped back, that is the power modulo m. *)
Theorem mont_out_correct : forall m R Rinv x, mont_ok m R Rinv -> mont_out m Rinv ((x * R) mod m) = x mod m.
Proof.
  intros m R Rinv x [Hm HR]. unfold mont_out. rewrite Z.mul_mod_idemp_l by lia.
  replace (x * R * Rinv) with (x * (R * Rinv)) by ring.
  rewrite <- Z.mul_mod_idemp_r by lia. rewrite HR. rewrite Z.mul_mod_idemp_r by lia. f_equal. lia.
Qed.
(** SlowCustomPow in any monoid: combining [scalar] copies of [base]. *)
Theorem slow_custom_pow_correct : forall (A : Type) (mul : A -> A -> A) (one base : A) (scalar : mp),
  (forall x y z, mul (mul x y) z = mul x (mul y z)) -> (forall x, mul one x = x) -> (forall x, mul x one = x) ->
  wf scalar ->
  slow_custom_pow mul one base scalar =
    if value scalar <? 0 then Thrown
    else Val (Nat.iter (Z.to_nat (value scalar)) (fun r => mul r base) one).
Proof.
  intros A mul one base scalar As Il Ir W.
  set (el := fun x => Nat.iter (Z.to_nat x) (fun r => mul r base) one).
  assert (forall (x y : nat), mul (Nat.iter x (fun r => mul r base) one) (Nat.iter y (fun r => mul r base) one) =
    Nat.iter (x + y) (fun r => mul r base) one) as EN.
  { intros x y. induction y as [|y IH].
    - rewrite Nat.add_0_r. apply Ir.
    - rewrite Nat.add_succ_r.
      assert (forall n, Nat.iter (S n) (fun r => mul r base) one = mul (Nat.iter n (fun r => mul r base) one) base) as F by reflexivity.
      rewrite !F. rewrite <- As. now rewrite IH. }
  assert (forall x y, 0 <= x -> 0 <= y -> mul (el x) (el y) = el (x + y)) as EM.
  { intros x y Hx Hy. unfold el. rewrite EN. f_equal. lia. }
  assert (el 1 = base) as E1 by (unfold el; cbn; apply Il).
  pose proof (custom_pow mul one el EM eq_refl scalar W) as C. rewrite E1 in C. exact C.
Qed.
(** MakeBaseTable rejects a negative base and empty units. *)
Theorem table_rejects : forall m R Rinv base u max_exp_bits,
  base < 0 \/ u = 0 -> mont_table m R Rinv base u max_exp_bits = Thrown.
Proof.
  intros m R Rinv base u mx H. unfold mont_table, make_table.
  destruct (Z.ltb_spec base 0); [reflexivity|]. destruct (Z.leb_spec u 0); [reflexivity|]. lia.
Qed.

(** ** Concrete cases: modulus 1000003, R = 2^60, units of 3 bits *)
Definition ex_m : Z := 1000003.
Definition ex_R : Z := 2 ^ 60.
Definition ex_Rinv : Z := 26970.
Definition ex_t : outcome (@table Z) := mont_table ex_m ex_R ex_Rinv 5 3 70.
Example ex_ok : mont_ok ex_m ex_R ex_Rinv. Proof. split; [reflexivity|vm_compute; reflexivity]. Qed.
Example ex_pow : bind ex_t (fun t => mont_pow ex_m ex_R ex_Rinv t (Mp false [2 ^ 59 + 12345; 1000])) =
  Val ((5 ^ (12345 + 2 ^ 59 + 1000 * 2 ^ 60) * ex_R) mod ex_m).
Proof.
  destruct (mont_pow_correct ex_m ex_R ex_Rinv 5 3 70 ex_ok ltac:(lia) ltac:(lia) ltac:(lia)) as (t & E & B & P).
  unfold ex_t. rewrite E. cbn [bind].
  destruct (P (Mp false [2 ^ 59 + 12345; 1000])) as [P1 _].
  - split; [repeat constructor; cbn; lia|]. split; [reflexivity|discriminate].
  - rewrite P1; [reflexivity|]. split; [vm_compute; discriminate|].
    eapply Z.lt_le_trans; [|apply Z.pow_le_mono_r; [lia|exact (proj1 B)]]. vm_compute. reflexivity.
Qed.
Example ex_pow_run : bind (mont_table 13 16 9 2 3 8) (fun t => mont_pow 13 16 9 t (Mp false [200])) = Val ((2 ^ 200 * 16) mod 13).
Proof. vm_compute. reflexivity. Qed.
Example ex_too_big : bind (mont_table 13 16 9 2 3 8) (fun t => mont_pow64 13 16 9 t 512) = Thrown. Proof. vm_compute. reflexivity. Qed.
Example ex_slow : slow_custom_pow (fun a b => (a * b) mod 13) 1 2 (Mp false [200]) = Val (2 ^ 200 mod 13). Proof. vm_compute. reflexivity. Qed.

Print Assumptions mont_pow_correct.
Print Assumptions mont_pow64_correct.
Print Assumptions mont_out_correct.
Print Assumptions slow_custom_pow_correct.
Print Assumptions table_rejects.
