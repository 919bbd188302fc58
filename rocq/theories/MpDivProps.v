(** * C66: division and remainder of big integers *)
From Coq Require Import ZArith List Bool Lia.
From Verif Require Import LinCodeModel MpxModel MpDivModel.
Open Scope Z_scope.

(** The pairs of operands for which [/] does not round down: the quotient lies
    strictly between -1 and 0. *)
Definition between (a b : Z) : Prop := Z.abs a < Z.abs b /\ (a < 0 < b \/ b < 0 < a).

Lemma quot_floor a b : b <> 0 ->
  a / b = if ((0 <? a) && (b <? 0) || (a <? 0) && (0 <? b)) && negb (Z.rem a b =? 0) then Z.quot a b - 1 else Z.quot a b.
Proof.
  intros Hb. pose proof (Z.quot_rem' a b) as Q. pose proof (Z.rem_bound_abs a b Hb) as B.
  pose proof (Z.rem_sign_mul a b Hb) as Sg.
  symmetry.
  destruct (Z.eqb_spec (Z.rem a b) 0) as [R0|R0]; cbn [negb].
  - rewrite andb_false_r. apply Z.div_unique_exact; lia.
  - rewrite andb_true_r.
    destruct (Z.ltb_spec 0 a), (Z.ltb_spec b 0), (Z.ltb_spec a 0), (Z.ltb_spec 0 b); cbn [andb orb]; try lia;
      try (apply (Z.div_unique a b _ (Z.rem a b + b)); [nia|lia]);
      try (apply (Z.div_unique a b _ (Z.rem a b)); [nia|lia]).
    all: exfalso; assert (a = 0) as -> by lia; rewrite Z.rem_0_l in R0 by lia; lia.
Qed.
Lemma quot_neg a b : b <> 0 -> Z.quot a b < 0 <-> Z.abs b <= Z.abs a /\ (a < 0 < b \/ b < 0 < a).
Proof.
  intros Hb. pose proof (Z.quot_rem' a b) as Q. pose proof (Z.rem_bound_abs a b Hb) as B.
  pose proof (Z.rem_sign_mul a b Hb) as Sg. nia.
Qed.
Lemma div_value a b : b <> 0 -> (between a b /\ div a b = Val 0 /\ a / b = -1) \/ (~ between a b /\ div a b = Val (a / b)).
Proof.
  intros Hb. unfold div, tm_div. destruct (Z.eqb_spec b 0); [lia|]. cbn [bind].
  pose proof (quot_floor a b Hb) as F. pose proof (quot_neg a b Hb) as N. unfold between.
  pose proof (Z.quot_rem' a b) as Q. pose proof (Z.rem_bound_abs a b Hb) as B.
  pose proof (Z.rem_sign_mul a b Hb) as Sg.
  destruct (Z.ltb_spec (Z.quot a b) 0) as [G|G]; cbn [andb].
  - right. split; [lia|]. f_equal. rewrite F. apply N in G as (_ & G).
    destruct (Z.ltb_spec 0 a), (Z.ltb_spec b 0), (Z.ltb_spec a 0), (Z.ltb_spec 0 b); cbn [andb orb]; try lia; reflexivity.
  - destruct (Z.ltb_spec (Z.abs a) (Z.abs b)) as [L|L].
    + assert (Z.quot a b = 0) as Q0 by nia. rewrite Q0 in *.
      assert (Z.rem a b = a) as R by lia. rewrite R in *.
      destruct (Z.ltb_spec 0 a), (Z.ltb_spec b 0), (Z.ltb_spec a 0), (Z.ltb_spec 0 b), (Z.eqb_spec a 0);
        cbn [andb orb negb] in F; try lia;
        try (left; split; [lia|]; split; [reflexivity|exact F]);
        try (right; split; [lia|]; f_equal; now rewrite F).
    + right. split; [lia|]. f_equal. rewrite F.
      destruct (Z.ltb_spec 0 a), (Z.ltb_spec b 0), (Z.ltb_spec a 0), (Z.ltb_spec 0 b); cbn [andb orb]; try lia; reflexivity.
Qed.

(** [%] is the remainder of floored division for every divisor but zero: it has the
    divisor's sign, or is zero, and a - a % b is a multiple of b. *)
Theorem remainder_exact : forall a b, b <> 0 ->
  exists r, mod_ a b = Val r /\ (0 <= r < b \/ b < r <= 0) /\ exists k, a = b * k + r.
Proof.
  intros a b Hb. exists (a mod b). unfold mod_, tm_mod. destruct (Z.eqb_spec b 0); [lia|].
  split; [reflexivity|]. split; [now apply Z.mod_bound_or|]. exists (a / b). now apply Z.div_mod.
Qed.
(** [/] rounds down, and [/] and [%] satisfy a = (a / b) * b + a % b, for every pair
    of operands but those of [between]; for those [/] is 0, one more than the floor. *)
Theorem quotient_partial : forall a b, b <> 0 ->
  (~ between a b -> exists q r, div a b = Val q /\ mod_ a b = Val r /\ a = q * b + r) /\
  (between a b -> exists r, div a b = Val 0 /\ mod_ a b = Val r /\ a = r - b).
Proof.
  intros a b Hb. unfold mod_, tm_mod. destruct (Z.eqb_spec b 0); [lia|].
  pose proof (Z.div_mod a b Hb) as D.
  destruct (div_value a b Hb) as [(Bt & E & F)|(Bt & E)]; (split; [intros G|intros G]); try contradiction.
  - exists (a mod b). repeat split; auto. rewrite F in D. lia.
  - exists (a / b), (a mod b). repeat split; auto. lia.
Qed.
(** The identity fails, with both operators' documented rounding: -1 / 2 is 0, not -1. *)
Theorem quotient_refuted : exists a b q r, b <> 0 /\ div a b = Val q /\ mod_ a b = Val r /\ a <> q * b + r.
Proof. exists (-1), 2, 0, 1. repeat split; try discriminate. Qed.
(** With operands of the same sign nothing is lost. *)
Theorem quotient_same_sign : forall a b, b <> 0 -> 0 <= a * b ->
  exists q r, div a b = Val q /\ mod_ a b = Val r /\ a = q * b + r /\ (0 <= r < b \/ b < r <= 0).
Proof.
  intros a b Hb Hs. destruct (quotient_partial a b Hb) as [P _].
  destruct P as (q & r & E1 & E2 & E3); [unfold between; nia|].
  destruct (remainder_exact a b Hb) as (r' & E & B & _). rewrite E in E2. injection E2 as <-.
  exists q, r'. auto.
Qed.
(** Dividing by zero always throws. *)
Theorem zero_divisor_throws : forall a, div a 0 = Thrown /\ mod_ a 0 = Thrown /\ div_u a 0 = Thrown /\ mod_u a 0 = Thrown.
Proof. intros a. repeat split. Qed.
(** The uint64_t overloads agree with the MPInt ones for every 64-bit divisor. *)
Lemma tm_div_d_quot a b : 0 < b -> tm_div_d a b = Val (Z.quot a b, Z.abs (Z.rem a b)).
Proof.
  intros Hb. unfold tm_div_d. destruct (Z.eqb_spec b 0); [lia|].
  pose proof (Z.quot_div a b ltac:(lia)) as Q. rewrite (Z.sgn_pos b), (Z.abs_eq b) in Q by lia.
  pose proof (Z.rem_mod a b ltac:(lia)) as R. rewrite (Z.abs_eq b) in R by lia.
  pose proof (Z.mod_pos_bound (Z.abs a) b ltac:(lia)).
  rewrite Q, R. f_equal. f_equal; [lia|].
  destruct (Z.eq_dec a 0) as [->|Na]; [now rewrite Z.mod_0_l by lia|].
  rewrite Z.abs_mul, (Z.abs_eq (Z.abs a mod b)) by lia. assert (Z.abs (Z.sgn a) = 1) as -> by (destruct a; cbn; lia). lia.
Qed.
Theorem unsigned_overloads : forall a b, 0 <= b < 2 ^ 64 -> div_u a b = div a b /\ mod_u a b = mod_ a b.
Proof.
  intros a b Hb. unfold div_u, mod_u. destruct (Z.leb_spec b mp_mask) as [L|L].
  - destruct (Z.eqb_spec b 0) as [->|N]; [split; reflexivity|].
    rewrite tm_div_d_quot by lia. cbn [bind]. unfold div, mod_, tm_div, tm_mod.
    destruct (Z.eqb_spec b 0); [lia|]. cbn [bind].
    pose proof (Z.quot_rem' a b) as Q. pose proof (Z.rem_bound_abs a b ltac:(lia)) as B.
    pose proof (Z.rem_sign_mul a b ltac:(lia)) as Sg.
    split.
    + destruct (Z.eqb_spec (Z.abs (Z.rem a b)) 0), (Z.eqb_spec (Z.rem a b) 0); try lia; reflexivity.
    + f_equal. destruct (Z.ltb_spec a 0); cbn [andb].
      * destruct (Z.eqb_spec (Z.abs (Z.rem a b)) 0); cbn [negb].
        -- apply (Z.mod_unique_pos a b (Z.quot a b)); lia.
        -- apply (Z.mod_unique_pos a b (Z.quot a b - 1)); [nia|]. replace (Z.abs (Z.rem a b)) with (- Z.rem a b) by nia. lia.
      * pose proof (Z.rem_nonneg a b ltac:(lia) ltac:(lia)). rewrite (Z.abs_eq (Z.rem a b)) by lia. apply (Z.mod_unique_pos a b (Z.quot a b)); lia.
  - split; [reflexivity|]. assert (0 < b) by (unfold mp_mask in L; rewrite Z.ones_equiv in L; lia).
    unfold mod_, tm_mod. destruct (Z.eqb_spec b 0); [lia|]. cbn [bind].
    pose proof (Z.mod_pos_bound a b ltac:(lia)). f_equal. rewrite Z.abs_eq by lia. apply Z.mod_small. lia.
Qed.
(** Mod with a digit is the remainder of the magnitude, so it is a mod b (the header's
    "0 <= c < b") for non-negative a and not for others. *)
Theorem mod_digit : forall a b, 0 < b ->
  exists r, mod_d a b = Val r /\ 0 <= r < b /\ (exists k, Z.abs a = b * k + r) /\ (0 <= a -> mod_ a b = Val r).
Proof.
  intros a b Hb. unfold mod_d, tm_div_d, mod_, tm_mod. destruct (Z.eqb_spec b 0); [lia|]. cbn [bind].
  exists (Z.abs a mod b). split; [reflexivity|]. split; [now apply Z.mod_pos_bound|].
  split; [exists (Z.abs a / b); apply Z.div_mod; lia|]. intros Ha. now rewrite Z.abs_eq.
Qed.
Theorem mod_digit_refuted : exists a b r, 0 < b /\ mod_d a b = Val r /\ mod_ a b <> Val r.
Proof. exists (-1), 3, 1. repeat split; discriminate. Qed.
(** [>>] shifts the magnitude: it rounds towards zero. *)
Theorem shift_right : forall a k, 0 <= k -> shr a k = Z.quot a (2 ^ k).
Proof.
  intros a k Hk. unfold shr. assert (0 < 2 ^ k) by (apply Z.pow_pos_nonneg; lia).
  rewrite Z.quot_div by lia. rewrite (Z.sgn_pos (2 ^ k)), (Z.abs_eq (2 ^ k)) by lia. lia.
Qed.
(** Comparisons with an int64_t are comparisons of the integers. *)
Theorem compare_int64 : forall a b, cmp_i64 a b = Z.compare a b.
Proof.
  intros a b. unfold cmp_i64. destruct (Z.leb_spec 0 b); cbn [andb]; [|reflexivity].
  destruct (Z.leb_spec b mp_mask); [|reflexivity].
  destruct (Z.ltb_spec a 0); [symmetry; apply Z.compare_lt_iff; lia|]. now rewrite Z.abs_eq.
Qed.

(** ** Concrete cases *)
Example ex_div : div (-7) 2 = Val (-4) /\ mod_ (-7) 2 = Val 1 /\ div 7 (-2) = Val (-4) /\ mod_ 7 (-2) = Val (-1). Proof. repeat split. Qed.
Example ex_between : between (-1) 2 /\ ~ between (-7) 2. Proof. unfold between. lia. Qed.
Example ex_u : div_u (-7) 2 = Val (-4) /\ mod_u (-7) (2 ^ 63) = Val (2 ^ 63 - 7). Proof. split; vm_compute; reflexivity. Qed.

Print Assumptions remainder_exact.
Print Assumptions quotient_partial.
Print Assumptions quotient_refuted.
Print Assumptions quotient_same_sign.
Print Assumptions zero_divisor_throws.
Print Assumptions unsigned_overloads.
Print Assumptions mod_digit.
Print Assumptions mod_digit_refuted.
Print Assumptions shift_right.
Print Assumptions compare_int64.
