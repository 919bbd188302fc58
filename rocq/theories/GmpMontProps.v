(** * C97: the GMP back end's Montgomery space *)
From Coq Require Import ZArith Znumtheory Zpow_facts List Bool Lia.
From Verif Require Import LinCodeModel MpxModel MpxProof ExpTableModel ExpTableProps GmpMontModel GmpMontProof.
Import ListNotations.
Open Scope Z_scope.

(** R is the least power of 2^64 above the modulus. *)
Definition montgomery_r (m R : Z) : Prop := exists k, 0 < k /\ R = 2 ^ (64 * k) /\ 2 ^ (64 * (k - 1)) <= m < R.

Lemma r_is m : 0 < m -> montgomery_r m (p (mpz_size m)).
Proof.
  intros H. destruct (size_low m ltac:(lia)) as (k & E & L). exists (Z.of_nat (mpz_size m)).
  split; [lia|]. split; [apply p_2|]. pose proof (size_bound m). rewrite Z.abs_eq in * by lia.
  split; [|lia]. replace (Z.of_nat (mpz_size m) - 1) with (Z.of_nat k) by lia. now rewrite <- p_2.
Qed.
Lemma r_unique m R R' : montgomery_r m R -> montgomery_r m R' -> R = R'.
Proof.
  intros (k & Pk & -> & L & U) (k' & Pk' & -> & L' & U').
  assert (64 * (k - 1) < 64 * k') by (apply (Z.pow_lt_mono_r_iff 2); lia).
  assert (64 * (k' - 1) < 64 * k) by (apply (Z.pow_lt_mono_r_iff 2); lia).
  do 2 f_equal. lia.
Qed.
Lemma odd_coprime m k : 0 <= k -> Z.odd m = true -> rel_prime m (2 ^ k).
Proof.
  intros Hk Ho. apply rel_prime_Zpower_r; [exact Hk|]. apply bezout_rel_prime.
  rewrite Z.odd_spec in Ho. destruct Ho as [j Hj]. apply Bezout_intro with (u := 1) (v := - j). lia.
Qed.
Lemma cancel_r m R x y : Z.odd m = true -> montgomery_r m R -> 0 < m ->
  (x * R) mod m = (y * R) mod m -> x mod m = y mod m.
Proof.
  intros Ho (k & Pk & -> & _) Hm H.
  assert (((x - y) * 2 ^ (64 * k)) mod m = 0) as D.
  { replace ((x - y) * 2 ^ (64 * k)) with (x * 2 ^ (64 * k) - y * 2 ^ (64 * k)) by ring.
    rewrite Zminus_mod, H, Z.sub_diag. apply Z.mod_0_l. lia. }
  apply Z.mod_divide in D; [|lia]. rewrite Z.mul_comm in D.
  pose proof (Gauss _ _ _ D (odd_coprime m (64 * k) ltac:(lia) Ho)) as [q Hq].
  replace x with (y + q * m) by lia. apply Z.mod_add. lia.
Qed.

Lemma reduce_mod z m rho R : 0 < m -> montgomery_r m R -> (rho * m) mod base = base - 1 -> Z.abs z < m * R ->
  exists y, montgomery_reduce z m rho = Val y /\ (y * R) mod m = z mod m /\
    (0 <= z -> 0 <= y < m) /\ (z < 0 -> - m < y <= 0).
Proof.
  intros Hm HR Hr Hz. rewrite (r_unique m R _ HR (r_is m Hm)) in *. clear R HR.
  pose proof (r_is m Hm) as (kk & Pk & _ & _ & U). set (R := p (mpz_size m)) in *.
  destruct (reduce_spec z m rho Hm Hr) as (k & y & Bk & E & Py & ->).
  { fold R. replace (mpz_size m * 2 + 1)%nat with (S (mpz_size m + mpz_size m)) by lia.
    rewrite p_S, p_add. fold R. pose proof base_pos.
    assert (m * R < R * R) by (apply Z.mul_lt_mono_pos_r; lia).
    assert (2 * (R * R) <= base * (R * R)) by (apply Z.mul_le_mono_nonneg_r; [nia|unfold base; lia]). nia. }
  fold R in E, Bk. eexists. split; [reflexivity|].
  assert (y < 2 * m) as By.
  { apply (Z.mul_lt_mono_pos_r R); [lia|]. rewrite <- E. nia. }
  set (w := if m <=? y then y - m else y).
  assert (0 <= w < m) as Bw by (unfold w; destruct (Z.leb_spec m y); lia).
  assert (exists c, w = y + c * m) as [c Hc] by (unfold w; destruct (m <=? y); [exists (-1)|exists 0]; lia).
  assert ((w * R) mod m = Z.abs z mod m) as Ew.
  { rewrite Hc. replace ((y + c * m) * R) with (Z.abs z + (k + c * R) * m) by (clear - E; lia).
    apply Z.mod_add. lia. }
  clearbody w. destruct (Z.ltb_spec z 0) as [N|N].
  - split; [|split; lia]. replace (-1 * w * R) with (- (w * R)) by ring. replace z with (- Z.abs z) by lia.
    pose proof (Z.div_mod (w * R) m ltac:(lia)) as D1. pose proof (Z.div_mod (Z.abs z) m ltac:(lia)) as D2. rewrite Ew in D1.
    replace (- (w * R)) with (- Z.abs z + (Z.abs z / m - w * R / m) * m) by lia. apply Z.mod_add. lia.
  - split; [|split; lia]. rewrite Z.mul_1_l, Ew. f_equal. lia.
Qed.

Lemma double_sub_spec k r m : Z.odd m = true -> 0 < r < m ->
  0 < double_sub k r m < m /\ double_sub k r m mod m = (r * 2 ^ Z.of_nat k) mod m.
Proof.
  intros Ho. revert r. induction k as [|k IH]; intros r Hr; cbn [double_sub].
  - split; [exact Hr|]. change (2 ^ Z.of_nat 0) with 1. now rewrite Z.mul_1_r.
  - destruct (IH (if m <? r * 2 then r * 2 - m else r * 2)) as [A B].
    + rewrite Z.odd_spec in Ho. destruct Ho as [j Hj]. destruct (Z.ltb_spec m (r * 2)); lia.
    + split; [exact A|]. rewrite B. rewrite Nat2Z.inj_succ, Z.pow_succ_r by lia.
      destruct (m <? r * 2).
      * replace ((r * 2 - m) * 2 ^ Z.of_nat k) with (r * (2 * 2 ^ Z.of_nat k) + (- 2 ^ Z.of_nat k) * m) by ring.
        apply Z.mod_add. lia.
      * f_equal. ring.
Qed.
Lemma normalization_spec m R : 1 < m -> Z.odd m = true -> montgomery_r m R ->
  calc_normalization m = R mod m.
Proof.
  intros Hm Ho HR. rewrite (r_unique m R _ HR (r_is m ltac:(lia))). clear R HR.
  unfold calc_normalization, sizeinbase2, numb_bits. destruct (Z.eqb_spec m 0); [lia|].
  rewrite (Z.abs_eq m) by lia. set (l := Z.log2 m).
  assert (0 <= l) by apply Z.log2_nonneg.
  pose proof (Z.log2_spec m ltac:(lia)) as [Lo Hi]. fold l in Lo, Hi.
  assert (Z.of_nat (mpz_size m) = l / 64 + 1) as Sz.
  { unfold mpz_size. destruct (Z.eqb_spec m 0); [lia|]. rewrite (Z.abs_eq m) by lia. fold l.
    assert (0 <= l / 64) by (apply Z.div_pos; lia). lia. }
  rewrite p_2, Sz.
  pose proof (Z.div_mod l 64 ltac:(lia)) as D. pose proof (Z.mod_pos_bound l 64 ltac:(lia)) as M.
  assert (0 <= l / 64) as Q by (apply Z.div_pos; lia).
  assert (forall k r e, 0 <= e -> r = 2 ^ e -> e <= l -> e + Z.of_nat k = 64 * (l / 64 + 1) ->
    double_sub k r m = 2 ^ (64 * (l / 64 + 1)) mod m) as G.
  { intros k r e He -> Hel Hk.
    assert (0 < 2 ^ e < m) as Br.
    { split; [apply Z.pow_pos_nonneg; lia|].
      assert (2 ^ e <= 2 ^ l) as Le by (apply Z.pow_le_mono_r; lia).
      destruct (Z.eq_dec e 0) as [->|Ne]; [change (2 ^ 0) with 1; lia|].
      assert (2 ^ e <> m); [|lia]. intros F. rewrite <- F in Ho.
      replace e with (Z.succ (e - 1)) in Ho by lia. rewrite Z.pow_succ_r, Z.odd_mul in Ho by lia. discriminate. }
    destruct (double_sub_spec k (2 ^ e) m Ho Br) as [A B].
    rewrite Z.mod_small in B by lia. rewrite B, <- Z.pow_add_r by lia. now rewrite Hk. }
  destruct (Z.ltb_spec 1 (l / 64 + 1)) as [G1|G1].
  - rewrite Z.mul_1_l. destruct (Z.eq_dec (l mod 64) 63) as [E63|N63].
    + assert ((l + 1) mod 64 = 0) as -> by (rewrite Z.add_mod, E63 by lia; reflexivity).
      apply G with (e := (l / 64 + 1 - 1) * 64 + 0 - 1); [lia|reflexivity|lia|rewrite Z2Nat.id by lia; lia].
    + assert ((l + 1) mod 64 = l mod 64 + 1) as -> by (rewrite Z.add_mod by lia; apply Z.mod_small; change (1 mod 64) with 1; lia).
      apply G with (e := (l / 64 + 1 - 1) * 64 + (l mod 64 + 1) - 1); [lia|reflexivity|lia|rewrite Z2Nat.id by lia; lia].
  - apply G with (e := 0); [lia|reflexivity|lia|]. rewrite Z2Nat.id by lia. lia.
Qed.

(** ** The theorems *)
(** A space exists exactly for positive odd moduli. *)
Theorem space_exists : forall m,
  (0 < m /\ Z.odd m = true -> exists s, make_space m = Val s) /\
  (m < 0 \/ Z.odd m = false -> make_space m = Thrown).
Proof.
  intros m. split.
  - intros [Hm Ho]. unfold make_space. destruct (Z.ltb_spec m 0); [lia|]. rewrite Ho. cbn [negb andb].
    destruct (setup_spec m Hm Ho) as (rho & -> & _). eexists. reflexivity.
  - intros H. unfold make_space. destruct (Z.ltb_spec m 0); [reflexivity|]. destruct H as [H| ->]; [lia|reflexivity].
Qed.
Lemma space_inv m s : make_space m = Val s -> 0 < m /\ Z.odd m = true /\ modulus s = m /\
  (rho s * m) mod base = base - 1 /\ r_mod s = calc_normalization m /\ rr_mod s = (r_mod s * r_mod s) mod m.
Proof.
  unfold make_space. destruct (Z.ltb_spec m 0) as [|N]; [discriminate|]. destruct (Z.odd m) eqn:Ho; [|discriminate].
  assert (0 < m) as Hm by (destruct (Z.eq_dec m 0) as [->|]; [discriminate|lia]).
  cbn [negb andb]. destruct (setup_spec m Hm Ho) as (r & -> & _ & Hr). cbn [bind]. intros E. injection E as <-.
  cbn [modulus rho r_mod rr_mod]. split; [exact Hm|]. split; [reflexivity|]. split; [reflexivity|]. split; [exact Hr|]. split; reflexivity.
Qed.

(** MapBackToZSpace is the exact division by R modulo m, for either sign, of every
    number of magnitude below m * R. *)
Theorem map_back_exact : forall m R s z, make_space m = Val s -> montgomery_r m R -> Z.abs z < m * R ->
  exists y, map_back s z = Val y /\ (y * R) mod m = z mod m /\
    (0 <= z -> 0 <= y < m) /\ (z < 0 -> - m < y <= 0) /\
    (forall y', (y' * R) mod m = z mod m -> y' mod m = y mod m).
Proof.
  intros m R s z E HR Hz. destruct (space_inv m s E) as (Hm & Ho & Em & Hr & _). unfold map_back. rewrite Em.
  destruct (reduce_mod z m (rho s) R Hm HR Hr Hz) as (y & Y & C & P & N). exists y.
  split; [exact Y|]. split; [exact C|]. split; [exact P|]. split; [exact N|].
  intros y' H. apply (cancel_r m R); auto. congruence.
Qed.

Lemma reduce_pos m R s z w : make_space m = Val s -> montgomery_r m R -> 0 <= z < m * R -> 
  (w * R) mod m = z mod m -> montgomery_reduce z m (rho s) = Val (w mod m).
Proof.
  intros E HR Hz Hw. destruct (space_inv m s E) as (Hm & Ho & Em & Hr & _).
  destruct (reduce_mod z m (rho s) R Hm HR Hr ltac:(lia)) as (y & -> & C & P & _). f_equal.
  specialize (P ltac:(lia)). rewrite <- (Z.mod_small y m) by lia.
  apply (cancel_r m R); auto. congruence.
Qed.
Lemma r_below m R : montgomery_r m R -> m < R. Proof. intros (k & _ & _ & _ & U). exact U. Qed.

(** MapIntoMSpace multiplies by R modulo m, whatever integer it is given. *)
Theorem map_in_exact : forall m R s z, make_space m = Val s -> montgomery_r m R ->
  map_in s z = Val ((z * R) mod m).
Proof.
  intros m R s z E HR. pose proof (space_inv m s E) as (Hm & Ho & Em & Hr & Er & Err). unfold map_in.
  pose proof (r_below m R HR) as RB.
  rewrite Em. set (w := if (z <? 0) || (m <=? z) then z mod m else z).
  assert (0 <= w < m /\ w mod m = z mod m) as [Bw Cw].
  { unfold w. destruct (Z.ltb_spec z 0), (Z.leb_spec m z); cbn [orb];
      try (split; [apply Z.mod_pos_bound; lia|apply Z.mod_mod; lia]); split; lia. }
  clearbody w. rewrite Err.
  pose proof (Z.mod_pos_bound (r_mod s * r_mod s) m ltac:(lia)) as Brr.
  erewrite reduce_pos with (m := m) (R := R) (w := z * R); [reflexivity|exact E|exact HR| |].
  - split; [apply Z.mul_nonneg_nonneg; lia|].
    assert (w * ((r_mod s * r_mod s) mod m) <= (m - 1) * m) by (apply Z.mul_le_mono_nonneg; lia). nia.
  - rewrite Z.mul_mod_idemp_r by lia.
    destruct (Z.eq_dec m 1) as [-> | N1]; [now rewrite !Z.mod_1_r|].
    rewrite Er, (normalization_spec m R) by (auto; lia).
    rewrite (Zmult_mod w (R mod m * (R mod m))), Cw, <- (Zmult_mod R R), <- (Zmult_mod z (R * R)).
    f_equal. ring.
Qed.
(** MulMod of two reduced numbers is their product over R. *)
Theorem mul_mod_exact : forall m R s a b, make_space m = Val s -> montgomery_r m R -> 0 <= a < m -> 0 <= b < m ->
  exists y, mul_mod s a b = Val y /\ 0 <= y < m /\ (y * R) mod m = (a * b) mod m.
Proof.
  intros m R s a b E HR Ha Hb. pose proof (space_inv m s E) as (Hm & Ho & Em & Hr & _). unfold mul_mod. rewrite Em.
  pose proof (r_below m R HR) as RB.
  destruct (reduce_mod (a * b) m (rho s) R Hm HR Hr ltac:(nia)) as (y & Y & C & P & _).
  exists y. split; [exact Y|]. split; [apply P; nia|exact C].
Qed.
Lemma mul_mapped m R s x y : make_space m = Val s -> montgomery_r m R ->
  mul_mod s ((x * R) mod m) ((y * R) mod m) = Val ((x * y * R) mod m).
Proof.
  intros E HR. pose proof (space_inv m s E) as (Hm & Ho & Em & Hr & _). pose proof (r_below m R HR) as RB.
  pose proof (Z.mod_pos_bound (x * R) m ltac:(lia)). pose proof (Z.mod_pos_bound (y * R) m ltac:(lia)).
  unfold mul_mod. rewrite Em. apply reduce_pos with (R := R); auto; [nia|].
  rewrite <- Z.mul_mod by lia. f_equal. ring.
Qed.
(** Multiplying in the space and mapping back multiplies modulo m. *)
Theorem product_through_space : forall m s a b, make_space m = Val s ->
  bind (map_in s a) (fun x => bind (map_in s b) (fun y => bind (mul_mod s x y) (map_back s))) = Val ((a * b) mod m) /\
  bind (map_in s a) (map_back s) = Val (a mod m).
Proof.
  intros m s a b E. pose proof (space_inv m s E) as (Hm & Ho & Em & Hr & _).
  pose proof (r_is m Hm) as HR. set (R := p (mpz_size m)) in *. clearbody R. pose proof (r_below m R HR) as RB.
  assert (forall c, map_back s ((c * R) mod m) = Val (c mod m)) as Back.
  { intros c. unfold map_back. rewrite Em. pose proof (Z.mod_pos_bound (c * R) m ltac:(lia)).
    apply reduce_pos with (R := R); auto; [nia|]. rewrite Z.mod_mod by lia. reflexivity. }
  rewrite !(map_in_exact m R s) by auto. cbn [bind].
  rewrite (mul_mapped m R s) by auto. cbn [bind]. split; apply Back.
Qed.
(** Fixed-base powers with a table computed in the space. *)
Theorem power_through_space : forall m s g u max_exp_bits, make_space m = Val s -> 1 < m ->
  0 <= g -> 0 < u <= 31 -> 0 <= max_exp_bits ->
  exists t, space_table s g u max_exp_bits = Val t /\ max_exp_bits <= max_bits t < max_exp_bits + u /\
    forall e,
      (0 <= e < 2 ^ max_bits t -> bind (space_pow s t e) (map_back s) = Val (g ^ e mod m)) /\
      (e < 0 \/ 2 ^ max_bits t <= e -> space_pow s t e = Thrown).
Proof.
  intros m s g u mx E H1 Hg Hu Hx. pose proof (space_inv m s E) as (Hm & Ho & Em & Hr & Er & Err).
  pose proof (r_is m Hm) as HR. set (R := p (mpz_size m)) in *. clearbody R. pose proof (r_below m R HR) as RB.
  set (el := fun i => Val ((g ^ i * R) mod m)).
  assert (forall x y, 0 <= x -> 0 <= y -> mul_o s (el x) (el y) = el (x + y)) as el_mul.
  { intros x y X Y. unfold mul_o, el. cbn [bind]. rewrite (mul_mapped m R s) by auto. now rewrite Z.pow_add_r by lia. }
  assert (Val (identity s) = el 0) as el_one.
  { unfold identity, el. rewrite Er, (normalization_spec m R) by auto. change (g ^ 0) with 1. now rewrite Z.mul_1_l. }
  assert (map_in s g = el 1) as el_1 by (unfold el; rewrite (map_in_exact m R s) by auto; now rewrite Z.pow_1_r).
  unfold space_table. destruct (Z.ltb_spec g 0); [lia|]. rewrite el_1.
  destruct (table_pow (mul_o s) (Val (identity s)) el el_mul el_one u mx 64 [] Hu ltac:(lia) Hx (Forall_nil _)) as (t & T & B & _).
  exists t. split; [exact T|]. split; [exact B|]. intros e.
  assert (forall e, (if e =? 0 then 0 else sizeinbase2 e) <= max_bits t <-> Z.abs e < 2 ^ max_bits t) as Bits.
  { intros e'. unfold sizeinbase2. destruct (Z.eqb_spec e' 0) as [->|N].
    - assert (0 < 2 ^ max_bits t) by (apply Z.pow_pos_nonneg; lia). lia.
    - rewrite Z.log2_lt_pow2 by lia. lia. }
  split.
  - intros He. unfold space_pow, pow_mod. destruct (Z.ltb_spec e 0); [lia|].
    specialize (Bits e). rewrite (Z.abs_eq e) in * by lia.
    destruct (Z.leb_spec (if e =? 0 then 0 else sizeinbase2 e) (max_bits t)) as [|G]; [|lia]. cbn [negb andb].
    set (ws := limbs_of (mpz_size e) e).
    assert (words_value 64 ws = e) as We.
    { assert (forall l, words_value 64 l = LV l) as W by (induction l as [|d l IH]; [reflexivity|]; cbn [words_value fold_right limbs_value]; fold (words_value 64 l); now rewrite IH).
      rewrite W. unfold ws. rewrite LV_limbs_of. apply Z.mod_small. pose proof (size_bound e). lia. }
    destruct (table_pow (mul_o s) (Val (identity s)) el el_mul el_one u mx 64 ws Hu ltac:(lia) Hx (limbs_of_ok _ _)) as (t' & T' & _ & P').
    assert (t' = t) as -> by congruence. rewrite We in P'. unfold numb_bits.
    rewrite P' by lia. cbn [bind el]. unfold el. cbn [bind].
    unfold map_back. rewrite Em. pose proof (Z.mod_pos_bound (g ^ e * R) m ltac:(lia)).
    apply reduce_pos with (R := R); auto; [nia|]. now rewrite Z.mod_mod by lia.
  - intros He. unfold space_pow, pow_mod. destruct (Z.ltb_spec e 0) as [|G]; [reflexivity|]. cbn [negb andb].
    destruct (Z.leb_spec (if e =? 0 then 0 else sizeinbase2 e) (max_bits t)) as [L|]; [|reflexivity].
    apply Bits in L. lia.
Qed.

(** Outside the range the functions are meant for: numbers above m * R come back
    unreduced, and those of more than 2k+1 limbs lose their high limbs. *)
Theorem map_back_large_refuted : exists m s z y, make_space m = Val s /\ map_back s z = Val y /\ ~ y < m.
Proof. exists 3. eexists. exists (15 * 2 ^ 64), 12. split; [reflexivity|]. split; [vm_compute; reflexivity|]. lia. Qed.
Theorem map_back_truncates_refuted : exists m s z y, make_space m = Val s /\ map_back s z = Val y /\
  (y * 2 ^ 64) mod m <> z mod m.
Proof. exists 3. eexists. exists (2 ^ 192), 0. split; [reflexivity|]. split; [vm_compute; reflexivity|]. vm_compute. discriminate. Qed.

(** Two limbs, the second one full; three limbs with an odd bit count. *)
Example ex_space : exists s, make_space (2 ^ 128 - 159) = Val s /\
  bind (map_in s (-5)) (fun x => bind (map_in s (2 ^ 200)) (fun y => bind (mul_mod s x y) (map_back s)))
    = Val ((- 5 * 2 ^ 200) mod (2 ^ 128 - 159)).
Proof. eexists. split; [reflexivity|]. vm_compute. reflexivity. Qed.
Example ex_pow : exists s t, make_space (2 ^ 130 - 5) = Val s /\ space_table s 3 4 20 = Val t /\
  bind (space_pow s t 1000) (map_back s) = Val (3 ^ 1000 mod (2 ^ 130 - 5)).
Proof. do 2 eexists. split; [reflexivity|]. split; [reflexivity|]. vm_compute. reflexivity. Qed.
Example ex_r : montgomery_r (2 ^ 130 - 5) (2 ^ 192). Proof. exists 3. cbn. repeat split; try lia. Qed.

Print Assumptions space_exists.
Print Assumptions map_back_exact.
Print Assumptions map_in_exact.
Print Assumptions mul_mod_exact.
Print Assumptions product_through_space.
Print Assumptions power_through_space.
Print Assumptions map_back_large_refuted.
Print Assumptions map_back_truncates_refuted.
