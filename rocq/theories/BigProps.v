(** * C98: big integer arithmetic and the library behind it *)
From Coq Require Import ZArith List Bool Lia Znumtheory.
From Verif Require Import LinCodeModel MpxModel MpxProof MpDivModel MpDivProps ZpLib BigModel BigProof.
Import ListNotations.
Open Scope Z_scope.

(** [%] and [%=] give the same remainder in every library: that of floored division,
    with the divisor's sign; and so does [%] with a uint64_t.  A zero divisor throws. *)
Theorem remainders_agree : forall k a b,
  (b <> 0 -> exists r, mod_k k a b = Val r /\ mod_assign_k k a b = Val r /\
     (0 <= r < b \/ b < r <= 0) /\ (exists q, a = b * q + r) /\
     (0 <= b < 2 ^ 64 -> mod_u_k k a b = Val r)) /\
  (mod_k k a 0 = Thrown /\ mod_assign_k k a 0 = Thrown /\ mod_u_k k a 0 = Thrown).
Proof.
  intros k a b. split.
  2:{ destruct k; repeat split. }
  intros Hb. exists (a mod b). assert (mod_ a b = Val (a mod b)) as T.
  { unfold mod_, tm_mod. now destruct (Z.eqb_spec b 0). }
  assert (gmp_mod a b = Val (a mod b)) as G by (unfold gmp_mod; now destruct (Z.eqb_spec b 0)).
  split; [destruct k; [exact T|now apply ossl_mod_spec|exact G]|].
  split. { destruct k; [exact T| |exact G]. cbn [mod_assign_k]. rewrite <- (ossl_mod_spec a b Hb).
           unfold ossl_mod_assign, ossl_mod. now destruct (Z.eqb_spec b 0). }
  split; [now apply Z.mod_bound_or|]. split; [exists (a / b); now apply Z.div_mod|].
  intros Hu. destruct k; cbn [mod_u_k]; [|apply ossl_mod_u_spec; lia|exact G].
  destruct (unsigned_overloads a b Hu) as (_ & ->). exact T.
Qed.

(** [/]: with GMP always the floor.  With the other two the floor, except that a
    quotient strictly between -1 and 0 ([between], C66) becomes 0.  A uint64_t divisor
    gives what the big integer of the same value gives.  A zero divisor throws. *)
Theorem quotients_partial : forall k a b,
  (b <> 0 -> k = Gmp \/ ~ between a b -> exists q r, div_k k a b = Val q /\ mod_k k a b = Val r /\ a = b * q + r) /\
  (b <> 0 -> k <> Gmp -> between a b -> div_k k a b = Val 0) /\
  (0 <= b < 2 ^ 64 -> div_u_k k a b = div_k k a b) /\
  div_k k a 0 = Thrown.
Proof.
  intros k a b. repeat match goal with |- _ /\ _ => split end.
  - intros Hb H. exists (a / b), (a mod b). destruct (remainders_agree k a b) as [R _].
    destruct (R Hb) as (r & E & _ & B & (q & Q) & _).
    assert (r = a mod b) as -> by (apply (Z.mod_unique a b q); [exact B|exact Q]).
    rewrite E. split; [|split; [reflexivity|now apply Z.div_mod]].
    destruct k; cbn [div_k].
    + destruct (div_value a b Hb) as [(Bt & _)|(_ & D)]; [|exact D]. destruct H as [H|H]; [discriminate|contradiction].
    + rewrite ossl_div_tom. destruct (div_value a b Hb) as [(Bt & _)|(_ & D)]; [|exact D]. destruct H as [H|H]; [discriminate|contradiction].
    + unfold gmp_div. now destruct (Z.eqb_spec b 0).
  - intros Hb Hk Bt. destruct (div_value a b Hb) as [(_ & D & _)|(N & _)]; [|contradiction].
    destruct k; [exact D|cbn [div_k]; now rewrite ossl_div_tom|contradiction].
  - intros Hu. destruct k; cbn [div_u_k div_k]; [now apply unsigned_overloads| |reflexivity].
    rewrite ossl_div_tom. now apply ossl_div_u_tom.
  - destruct k; reflexivity.
Qed.
(** The libraries disagree: -1 / 2 is 0 with libtommath and OpenSSL and -1 with GMP. *)
Theorem quotients_refuted : exists a b,
  div_k Tom a b = Val 0 /\ div_k Ossl a b = Val 0 /\ div_k Gmp a b = Val (-1) /\
  div_u_k Ossl a b = Val 0 /\ div_u_k Gmp a b = Val (-1).
Proof. exists (-1), 2. repeat split. Qed.

(** AddMod, SubMod, MulMod: the residue in [0, m) for every positive modulus and every
    (also negative, also unreduced) operand; a zero modulus throws. *)
Theorem modular_agree : forall k a b m,
  (0 < m -> exists s d p,
     add_mod_k k a b m = Val s /\ 0 <= s < m /\ (m | a + b - s) /\
     sub_mod_k k a b m = Val d /\ 0 <= d < m /\ (m | a - b - d) /\
     mul_mod_k k a b m = Val p /\ 0 <= p < m /\ (m | a * b - p)) /\
  add_mod_k k a b 0 = Thrown /\ sub_mod_k k a b 0 = Thrown /\ mul_mod_k k a b 0 = Thrown.
Proof.
  intros k a b m. split; [|destruct k; repeat split].
  intros Hm. assert (forall x, reduce_k k x m = Val (x mod m)) as R.
  { intros x. destruct k; cbn [reduce_k].
    - unfold tm_mod. destruct (Z.eqb_spec m 0); [lia|reflexivity].
    - rewrite nnmod_spec by lia. now rewrite Z.abs_eq by lia.
    - unfold gmp_mod. destruct (Z.eqb_spec m 0); [lia|reflexivity]. }
  unfold add_mod_k, sub_mod_k, mul_mod_k. rewrite !R.
  exists ((a + b) mod m), ((a - b) mod m), ((a * b) mod m).
  assert (forall x, 0 <= x mod m < m /\ (m | x - x mod m)) as D.
  { intros x. split; [now apply Z.mod_pos_bound|]. exists (x / m). pose proof (Z.div_mod x m ltac:(lia)). lia. }
  repeat match goal with |- _ /\ _ => split end; try reflexivity; apply D.
Qed.
(** With a negative modulus OpenSSL's residue is non-negative and the others' is not. *)
Theorem negative_modulus_refuted : exists a b m, m < 0 /\
  add_mod_k Ossl a b m = Val 3 /\ add_mod_k Gmp a b m = Val (-4) /\ add_mod_k Tom a b m = Val (-4).
Proof. exists 1, 2, (-7). repeat split. Qed.

(** InvMod: the one inverse in [0, m), the same in every library.  Without an inverse
    libtommath and OpenSSL throw. *)
Theorem inverse_agrees : forall junk a m, 1 < m ->
  (Z.gcd a m = 1 -> exists r, (forall k, inv_mod_k junk k a m = Val r) /\ 0 <= r < m /\ (a * r) mod m = 1) /\
  (Z.gcd a m <> 1 -> inv_mod_k junk Tom a m = Thrown /\ inv_mod_k junk Ossl a m = Thrown).
Proof.
  intros junk a m Hm. split.
  - intros G. apply (invert_mod_coprime a m ltac:(lia)) in G as (r & E). exists r. split.
    + intros k. unfold inv_mod_k. rewrite E. reflexivity.
    + destruct (invert_mod_some _ _ _ E) as (R & [Q]). split; [exact R|]. rewrite Q. apply Z.mod_small. lia.
  - intros G. unfold inv_mod_k. destruct (invert_mod a m) eqn:E; [|split; reflexivity].
    exfalso. apply G. apply invert_mod_coprime; [lia|eauto].
Qed.
(** GMP returns a number where there is no inverse: whatever it left in the result. *)
Theorem gmp_inverse_refuted : forall junk, exists a m, 1 < m /\ inv_mod_k junk Gmp a m = Val junk /\
  forall r, (a * r) mod m <> 1.
Proof.
  intros junk. exists 2, 4. split; [lia|]. split; [reflexivity|]. intros r E.
  pose proof (Z.div_mod (2 * r) 4 ltac:(lia)). lia.
Qed.

(** PowMod: the power for a non-negative exponent, the power of the inverse for a
    negative one, the same in every library. *)
Theorem power_mod_agrees : forall k a e m, 1 < m ->
  (0 <= e -> pow_mod_k k a e m = Val (a ^ e mod m)) /\
  (e < 0 -> Z.gcd a m = 1 -> exists r, pow_mod_k k a e m = Val r /\ 0 <= r < m /\ (r * a ^ (- e)) mod m = 1) /\
  (e < 0 -> Z.gcd a m <> 1 -> k <> Gmp -> pow_mod_k k a e m = Thrown).
Proof.
  intros k a e m Hm. unfold pow_mod_k. repeat match goal with |- _ /\ _ => split end.
  - intros He. now destruct (Z.ltb_spec e 0); [lia|].
  - intros He G. destruct (Z.ltb_spec e 0); [|lia]. apply (invert_mod_coprime a m ltac:(lia)) in G as (r & E). rewrite E.
    exists (r ^ Z.abs e mod m). split; [now destruct k|]. split; [apply Z.mod_pos_bound; lia|].
    destruct (invert_mod_some _ _ _ E) as (_ & [Q]). rewrite Z.abs_neq by lia.
    rewrite Z.mul_mod_idemp_l by lia. rewrite <- Z.pow_mul_l. rewrite (Z.mul_comm r a).
    rewrite (Z.mod_small 1) in Q by lia.
    assert (forall n, (a * r) ^ Z.of_nat n mod m = 1) as P.
    { induction n as [|n IH]; [apply Z.mod_small; lia|]. rewrite Nat2Z.inj_succ, Z.pow_succ_r by lia.
      rewrite Z.mul_mod, Q, IH by lia. apply Z.mod_small. lia. }
    rewrite <- (Z2Nat.id (- e)) by lia. apply P.
  - intros He G Hk. destruct (Z.ltb_spec e 0); [|lia]. destruct (invert_mod a m) eqn:E.
    + exfalso. apply G. apply invert_mod_coprime; [lia|eauto].
    + now destruct k.
Qed.
Theorem gmp_power_refuted : exists a e m, 1 < m /\ pow_mod_k Gmp a e m = OutOfBounds /\ pow_mod_k Ossl a e m = Thrown.
Proof. exists 2, (-1), 4. repeat split. Qed.

(** Pow and PowInplace: the power; only MPInt::Pow refuses 0^0. *)
Theorem power_partial : forall k a e, 0 <= e ->
  pow_inplace_k k a e = Val (a ^ e) /\ (k <> Tom \/ a <> 0 \/ e <> 0 -> pow_k k a e = Val (a ^ e)).
Proof.
  intros k a e He. split; [reflexivity|]. intros H. destruct k; try reflexivity. cbn [pow_k].
  destruct (Z.eqb_spec e 0) as [->|]; [|reflexivity]. destruct (Z.eqb_spec a 0); [|reflexivity].
  destruct H as [H|[H|H]]; contradiction.
Qed.
Theorem zero_power_refuted : pow_k Tom 0 0 = Thrown /\ pow_k Ossl 0 0 = Val 1 /\ pow_k Gmp 0 0 = Val 1.
Proof. repeat split. Qed.

(** Lcm: the least non-negative common multiple, unless both operands are zero. *)
Theorem lcm_agrees : forall k a b, a <> 0 \/ b <> 0 ->
  exists l, lcm_k k a b = Val l /\ 0 <= l /\ (a | l) /\ (b | l) /\ forall c, (a | c) -> (b | c) -> (l | c).
Proof.
  intros k a b H. exists (Z.lcm a b).
  split. { destruct k; [now apply tom_lcm_spec|now apply ossl_lcm_spec|reflexivity]. }
  split; [apply Z.lcm_nonneg|]. split; [apply Z.divide_lcm_l|]. split; [apply Z.divide_lcm_r|].
  intros c. apply Z.lcm_least.
Qed.
Theorem lcm_zero_refuted : lcm_k Gmp 0 0 = Val 0 /\ lcm_k Ossl 0 0 = Thrown /\ lcm_k Tom 0 0 = Thrown.
Proof. repeat split. Qed.

(** Shifts by up to 2^31 - 1: multiply by the power of two; divide by it, rounding
    towards zero (not down, unlike [/]). *)
Theorem shifts_agree : forall k a n, 0 <= n <= int_max ->
  shl_k k a n = Val (a * 2 ^ n) /\ shr_k k a n = Val (Z.quot a (2 ^ n)).
Proof.
  intros k a n Hn. assert (0 < 2 ^ n) by (apply Z.pow_pos_nonneg; lia).
  pose proof (shift_right a n ltac:(lia)) as S.
  destruct k; cbn [shl_k shr_k].
  - rewrite to_int_small by exact Hn. destruct (Z.ltb_spec n 0); [lia|]. now rewrite S.
  - destruct (Z.leb_spec n int_max); [|lia]. split; [reflexivity|]. f_equal. rewrite <- S. reflexivity.
  - split; reflexivity.
Qed.
Lemma gmp_shr_all n a : 0 <= a < 2 ^ n -> shr_k Gmp a n = Val 0.
Proof. intros Ha. cbn [shr_k]. now rewrite Z.quot_small by exact Ha. Qed.
Lemma gmp_bit_beyond i a : 0 <= i -> 0 <= a < 2 ^ i -> get_bit_k Gmp a i = 0.
Proof.
  intros Hi Ha. cbn [get_bit_k]. destruct (Z.ltb_spec a 0); [lia|].
  rewrite Z.testbit_eqb by exact Hi. now rewrite Z.div_small by exact Ha.
Qed.
(** Larger shift counts: libtommath takes them modulo 2^32, OpenSSL throws, GMP shifts. *)
Theorem large_shift_refuted : exists n, n < 2 ^ 64 /\
  shr_k Tom 1 n = Val 1 /\ shr_k Ossl 1 n = Thrown /\ shl_k Tom 1 n = Val 1 /\ shl_k Ossl 1 n = Thrown /\
  forall a, 0 <= a < 2 ^ n -> shr_k Gmp a n = Val 0.
Proof.
  exists (2 ^ 32). do 5 (split; [vm_compute; reflexivity|]). exact (gmp_shr_all (2 ^ 32)).
Qed.

(** GetBit and SetBit with an index up to 2^31 - 1 work on the magnitude in every library. *)
Theorem bits_agree : forall k a i bit, 0 <= i <= int_max ->
  get_bit_k k a i = Z.b2z (Z.testbit (Z.abs a) i) /\
  exists r, set_bit_k k a i bit = Val r /\
    (forall j, 0 <= j -> Z.testbit (Z.abs r) j = if j =? i then negb (bit =? 0) else Z.testbit (Z.abs a) j) /\
    0 <= r * a.
Proof.
  intros k a i bit Hi. split.
  - destruct k; cbn [get_bit_k].
    + now rewrite to_int_small.
    + rewrite to_int_small by exact Hi. destruct (Z.ltb_spec i 0); [lia|reflexivity].
    + destruct (Z.ltb_spec a 0); [now rewrite gmp_neg_bit by lia|]. now rewrite Z.abs_eq.
  - set (mag := if bit =? 0 then Z.clearbit (Z.abs a) i else Z.setbit (Z.abs a) i).
    assert (0 <= mag) as M0.
    { subst mag. destruct (bit =? 0).
      - unfold Z.clearbit. apply Z.ldiff_nonneg. lia.
      - unfold Z.setbit. apply Z.lor_nonneg. split; [lia|]. apply Z.shiftl_nonneg. lia. }
    assert (forall j, 0 <= j -> Z.testbit mag j = if j =? i then negb (bit =? 0) else Z.testbit (Z.abs a) j) as MB.
    { intros j Hj. subst mag. destruct (bit =? 0).
      - rewrite Z.clearbit_eqb. destruct (Z.eqb_spec i j), (Z.eqb_spec j i); try lia; cbn [negb]; rewrite ?andb_false_r, ?andb_true_r; reflexivity.
      - rewrite Z.setbit_eqb by lia. destruct (Z.eqb_spec i j), (Z.eqb_spec j i); try lia; reflexivity. }
    exists (with_sign a mag). split; [|split].
    + destruct k; cbn [set_bit_k].
      * rewrite to_int_small by exact Hi. destruct (Z.ltb_spec i 0); [lia|reflexivity].
      * rewrite to_int_small by exact Hi. destruct (Z.ltb_spec i 0); [lia|]. subst mag.
        destruct (bit =? 0); [|reflexivity]. destruct (Z.ltb_spec i (bit_length (Z.abs a))) as [L|L]; [reflexivity|].
        f_equal. assert (Z.clearbit (Z.abs a) i = Z.abs a) as ->.
        { apply Z.bits_inj'. intros j Hj. rewrite Z.clearbit_eqb. destruct (Z.eqb_spec i j) as [->|]; cbn [negb].
          - rewrite andb_false_r. symmetry. rewrite Z.testbit_eqb by lia. rewrite Z.div_small; [reflexivity|].
            split; [lia|]. apply bit_length_spec; lia.
          - apply andb_true_r. }
        unfold with_sign. destruct (Z.ltb_spec a 0); lia.
      * unfold with_sign. subst mag. destruct (Z.ltb_spec a 0).
        -- now rewrite Z.abs_neq by lia.
        -- now rewrite Z.abs_eq by lia.
    + intros j Hj. rewrite <- MB by exact Hj. f_equal. unfold with_sign. destruct (Z.ltb_spec a 0); lia.
    + unfold with_sign. destruct (Z.ltb_spec a 0); nia.
Qed.
(** Larger indices are taken modulo 2^32 by libtommath and OpenSSL. *)
Theorem large_index_refuted : exists i, i < 2 ^ 64 /\
  get_bit_k Tom 1 i = 1 /\ get_bit_k Ossl 1 i = 1 /\ set_bit_k Ossl 0 i 1 = Val 1 /\
  (forall a, 0 <= a < 2 ^ i -> get_bit_k Gmp a i = 0).
Proof.
  exists (2 ^ 32). do 4 (split; [vm_compute; reflexivity|]).
  intros a. apply gmp_bit_beyond. discriminate.
Qed.
(** CompareAbs with an int64_t compares magnitudes, but is undefined with GMP for the
    smallest int64_t. *)
Theorem compare_abs_partial : forall k a b, - 2 ^ 63 < b < 2 ^ 63 ->
  compare_abs_i64_k k a b = Val (Z.compare (Z.abs a) (Z.abs b)).
Proof. intros k a b Hb. destruct k; try reflexivity. cbn [compare_abs_i64_k]. destruct (Z.eqb_spec b (- 2 ^ 63)); [lia|reflexivity]. Qed.
Theorem compare_abs_refuted : exists b, - 2 ^ 63 <= b < 2 ^ 63 /\ forall a,
  compare_abs_i64_k Gmp a b = OutOfBounds /\ compare_abs_i64_k Ossl a b = Val (Z.compare (Z.abs a) (2 ^ 63)).
Proof. exists (- 2 ^ 63). split; [lia|]. intros a. split; reflexivity. Qed.

(** Operands held by different libraries are refused; results stay in the library of
    the operands, and then nothing but that library is involved. *)
Theorem mixed_refused : forall x y m,
  (fst x <> fst y -> big_div x y = Thrown /\ big_mod x y = Thrown /\
     big_add_mod x y m = Thrown /\ big_sub_mod x y m = Thrown /\ big_mul_mod x y m = Thrown /\ big_pow_mod x y m = Thrown) /\
  (fst x <> fst m -> big_add_mod x y m = Thrown /\ big_sub_mod x y m = Thrown /\ big_mul_mod x y m = Thrown /\ big_pow_mod x y m = Thrown) /\
  (forall r, big_mod x y = Val r \/ big_div x y = Val r \/ big_mul_mod x y m = Val r -> fst r = fst x /\ fst y = fst x).
Proof.
  intros [j a] [k b] [l c]. cbn [fst]. repeat match goal with |- _ /\ _ => split end.
  - intros N. unfold big_div, big_mod, big_add_mod, big_sub_mod, big_mul_mod, big_pow_mod, apply2, apply3. cbn [fst].
    assert (backend_eqb j k = false) as -> by (now destruct j, k; try reflexivity; contradiction). repeat split.
  - intros N. unfold big_div, big_mod, big_add_mod, big_sub_mod, big_mul_mod, big_pow_mod, apply2, apply3. cbn [fst].
    assert (backend_eqb j l = false) as -> by (now destruct j, l; try reflexivity; contradiction). rewrite andb_false_r. repeat split.
  - intros [q r] H. cbn [fst]. unfold big_div, big_mod, big_mul_mod, tagged, apply2, apply3 in H. cbn [fst snd] in H.
    destruct (backend_eqb j k) eqn:E.
    + assert (k = j) as -> by (now destruct j, k). split; [|reflexivity].
      destruct H as [H|[H|H]].
      * destruct (mod_k j a b); cbn [bind] in H; congruence.
      * destruct (div_k j a b); cbn [bind] in H; congruence.
      * destruct (backend_eqb j l); cbn [andb] in H; [|discriminate]. destruct (mul_mod_k j a b c); cbn [bind] in H; congruence.
    + cbn [andb bind] in H. destruct H as [H|[H|H]]; discriminate.
Qed.

(** ** Concrete cases *)
Example ex_mod : mod_k Ossl (-7) (-3) = Val (-1) /\ mod_k Tom 7 (-3) = Val (-2) /\ mod_assign_k Ossl 7 (-3) = Val (-2) /\ mod_u_k Ossl (-7) 3 = Val 2.
Proof. repeat split. Qed.
Example ex_div : div_k Ossl (-7) 2 = Val (-4) /\ div_k Gmp (-7) 2 = Val (-4) /\ div_u_k Ossl (-7) 2 = Val (-4).
Proof. repeat split. Qed.
Example ex_inv : inv_mod_k 0 Gmp 3 7 = Val 5 /\ pow_mod_k Ossl 3 (-2) 7 = Val 4. Proof. split; vm_compute; reflexivity. Qed.
Example ex_lcm : lcm_k Ossl (-4) 6 = Val 12 /\ lcm_k Tom (-4) 6 = Val 12 /\ lcm_k Ossl 0 5 = Val 0. Proof. repeat split. Qed.
Example ex_bits : set_bit_k Gmp (-8) 0 1 = Val (-9) /\ get_bit_k Gmp (-8) 3 = 1 /\ set_bit_k Ossl (-8) 3 0 = Val 0.
Proof. repeat split; vm_compute; reflexivity. Qed.
Example ex_mixed : big_mod (Tom, 7) (Gmp, 3) = Thrown /\ big_mod (Gmp, 7) (Gmp, 3) = Val (Gmp, 1). Proof. split; reflexivity. Qed.

Print Assumptions remainders_agree.
Print Assumptions quotients_partial.
Print Assumptions quotients_refuted.
Print Assumptions modular_agree.
Print Assumptions negative_modulus_refuted.
Print Assumptions inverse_agrees.
Print Assumptions gmp_inverse_refuted.
Print Assumptions power_mod_agrees.
Print Assumptions gmp_power_refuted.
Print Assumptions power_partial.
Print Assumptions zero_power_refuted.
Print Assumptions lcm_agrees.
Print Assumptions lcm_zero_refuted.
Print Assumptions shifts_agree.
Print Assumptions large_shift_refuted.
Print Assumptions bits_agree.
Print Assumptions large_index_refuted.
Print Assumptions compare_abs_partial.
Print Assumptions compare_abs_refuted.
Print Assumptions mixed_refused.
