(** Lemmas about [MpxModel]. *)
From Coq Require Import ZArith List Bool Lia.
From Verif Require Import LinCodeModel MpxModel.
Import ListNotations.
Open Scope Z_scope.

(** A well formed mp_int: digits in range, no leading zero digit, no negative 0. *)
Definition wf (a : mp) : Prop :=
  Forall (fun d => 0 <= d < 2 ^ 60) (dp a) /\
  clamp_digits (dp a) = dp a /\ (dp a = [] -> neg a = false).

Notation V := value_of_digits.

(** ** Digits and values *)
Lemma V_nonneg l : Forall (fun d => 0 <= d < 2 ^ 60) l -> 0 <= V l < 2 ^ (60 * Z.of_nat (length l)).
Proof.
  induction 1 as [|d l Hd Hl IH]; [cbn; lia|].
  cbn [V fold_right length]. fold (V l).
  replace (60 * Z.of_nat (S (length l))) with (60 + 60 * Z.of_nat (length l)) by lia.
  rewrite Z.pow_add_r by lia. nia.
Qed.
Lemma V_cons d l : V (d :: l) = d + 2 ^ 60 * V l. Proof. reflexivity. Qed.
Lemma V_app l m : V (l ++ m) = V l + 2 ^ (60 * Z.of_nat (length l)) * V m.
Proof.
  induction l as [|d l IH]; [cbn [app length]; change (60 * Z.of_nat 0) with 0; cbn [V fold_right]; lia|].
  cbn [app length]. rewrite !V_cons, IH.
  replace (60 * Z.of_nat (S (length l))) with (60 + 60 * Z.of_nat (length l)) by lia.
  rewrite Z.pow_add_r by lia. ring.
Qed.
Lemma V_clamp l : V (clamp_digits l) = V l.
Proof.
  induction l as [|d l IH]; [reflexivity|].
  cbn [clamp_digits]. rewrite V_cons, <- IH. destruct (clamp_digits l) eqn:E.
  - destruct (Z.eqb_spec d 0) as [->|]; cbn; lia.
  - now rewrite V_cons.
Qed.
Lemma clamp_idem l : clamp_digits (clamp_digits l) = clamp_digits l.
Proof.
  induction l as [|d l IH]; [reflexivity|].
  cbn [clamp_digits]. destruct (clamp_digits l) eqn:E.
  - destruct (d =? 0) eqn:Ed; [reflexivity|]. cbn. now rewrite Ed.
  - cbn [clamp_digits]. cbn [clamp_digits] in IH. now rewrite IH.
Qed.
Lemma Forall_clamp P l : Forall P l -> Forall P (clamp_digits l).
Proof.
  induction 1 as [|d l Hd Hl IH]; [constructor|].
  cbn [clamp_digits]. destruct (clamp_digits l); [destruct (d =? 0)|]; auto.
Qed.
Lemma wf_clamp b l : Forall (fun d => 0 <= d < 2 ^ 60) l -> wf (clamp (Mp b l)).
Proof.
  intros H. unfold wf, clamp. cbn [dp neg]. split; [now apply Forall_clamp|].
  split; [apply clamp_idem|]. now intros ->.
Qed.
Lemma V_zero l : Forall (fun d => 0 <= d < 2 ^ 60) l -> clamp_digits l = l -> V l = 0 -> l = [].
Proof.
  intros H. induction H as [|d l Hd Hl IH]; [easy|]. intros Hc Hv.
  rewrite V_cons in Hv. pose proof (V_nonneg l Hl).
  assert (V l = 0) by nia. cbn [clamp_digits] in Hc.
  destruct (clamp_digits l) eqn:E.
  - destruct (Z.eqb_spec d 0) as [->|]; [discriminate|]. injection Hc as <-. cbn in *. lia.
  - injection Hc as Hc. specialize (IH Hc H0). subst l. discriminate.
Qed.
Lemma V_clamp_value b l : value (clamp (Mp b l)) = if b then - V l else V l.
Proof.
  unfold value, clamp. cbn [neg dp]. rewrite V_clamp.
  destruct (clamp_digits l) eqn:E; [|reflexivity].
  rewrite <- V_clamp, E. cbn. now destruct b.
Qed.
Lemma V_inj l m :
  Forall (fun d => 0 <= d < 2 ^ 60) l -> clamp_digits l = l ->
  Forall (fun d => 0 <= d < 2 ^ 60) m -> clamp_digits m = m -> V l = V m -> l = m.
Proof.
  intros Hl. revert m. induction Hl as [|d l Hd Hl IH]; intros m Hcl Hm Hcm E.
  - symmetry. apply V_zero; auto.
  - destruct Hm as [|d' m Hd' Hm]; [apply V_zero; auto|].
    rewrite !V_cons in E. assert (d = d' /\ V l = V m) as [-> E'] by nia.
    f_equal. apply IH; auto.
    + cbn [clamp_digits] in Hcl. destruct (clamp_digits l) eqn:F.
      * destruct (d' =? 0); [discriminate|]. injection Hcl as <-. reflexivity.
      * now injection Hcl as ->.
    + cbn [clamp_digits] in Hcm. destruct (clamp_digits m) eqn:F.
      * destruct (d' =? 0); [discriminate|]. injection Hcm as <-. reflexivity.
      * now injection Hcm as ->.
Qed.
(** A well formed number is determined by its value. *)
Lemma value_inj a b : wf a -> wf b -> value a = value b -> a = b.
Proof.
  intros (Ha & Hca & Hna) (Hb & Hcb & Hnb) E.
  pose proof (V_nonneg _ Ha). pose proof (V_nonneg _ Hb).
  destruct a as [na la], b as [nb lb]; cbn [dp neg] in *.
  assert (V la = V lb) as E' by (unfold value in E; cbn [dp neg] in E; destruct na, nb; lia).
  pose proof (V_inj _ _ Ha Hca Hb Hcb E') as ->. f_equal.
  unfold value in E; cbn [dp neg] in E.
  destruct (Z.eq_dec (V lb) 0) as [Z0|].
  - pose proof (V_zero _ Hb Hcb Z0) as ->. now rewrite Hna, Hnb.
  - destruct na, nb; auto; lia.
Qed.
Lemma value_abs a : wf a -> Z.abs (value a) = V (dp a).
Proof. intros (H & _). pose proof (V_nonneg _ H). unfold value. destruct (neg a); lia. Qed.

Lemma last_snoc {A} (l : list A) d : l <> [] -> exists l', l = l' ++ [last l d].
Proof. intros H. exists (removelast l). now apply app_removelast_last. Qed.
Lemma clamp_snoc l d : clamp_digits (l ++ [d]) = l ++ [d] -> d <> 0.
Proof.
  induction l as [|x l IH]; cbn [app clamp_digits].
  - destruct (Z.eqb_spec d 0); [discriminate|auto].
  - destruct (clamp_digits (l ++ [d])) eqn:E.
    + destruct (x =? 0); [discriminate|]. intros [= F]. now destruct l.
    + intros [= F]. apply IH. congruence.
Qed.

(** ** Bits *)
Lemma ones_land x k : 0 <= k -> Z.land x (Z.ones k) = x mod 2 ^ k.
Proof. intros. now apply Z.land_ones. Qed.
Lemma lor_shift a b k : 0 <= k -> 0 <= a < 2 ^ k -> Z.lor a (b * 2 ^ k) = a + b * 2 ^ k.
Proof.
  intros Hk Ha.
  assert (Z.land a (b * 2 ^ k) = 0) as L.
  { apply Z.bits_inj'. intros n Hn. rewrite Z.land_spec, Z.bits_0, Z.mul_pow2_bits by lia.
    destruct (Z.ltb_spec n k).
    - rewrite (Z.testbit_neg_r b) by lia. apply andb_false_r.
    - replace (Z.testbit a n) with false; [reflexivity|]. symmetry.
      destruct (Z.eq_dec a 0) as [->|]; [apply Z.bits_0|].
      apply Z.bits_above_log2; [lia|].
      assert (Z.log2 a < k) by (apply Z.log2_lt_pow2; lia). lia. }
  rewrite <- Z.lxor_lor by exact L. symmetry. now apply Z.add_nocarry_lxor.
Qed.

(** Bit i of [w] says whether one of the k bits of [v] from i on is set. *)
Definition smeared (v w k : Z) : Prop :=
  forall i, 0 <= i -> Z.testbit w i = true <-> exists j, i <= j < i + k /\ Z.testbit v j = true.
Lemma smear_step v w k : 0 < k -> smeared v w k -> smeared v (smear k w) (k + k).
Proof.
  intros Hk H i Hi. unfold smear. rewrite Z.lor_spec, Z.shiftr_spec, orb_true_iff by lia.
  rewrite (H i), (H (i + k)) by lia. split.
  - intros [(j & ? & ?)|(j & ? & ?)]; exists j; split; auto; lia.
  - intros (j & Hj & E). destruct (Z.ltb_spec j (i + k)); [left|right]; exists j; split; auto; lia.
Qed.
Lemma smear_all v : 0 <= v < 2 ^ 64 ->
  smear 32 (smear 16 (smear 8 (smear 4 (smear 2 (smear 1 v))))) =
  Z.ones (if v =? 0 then 0 else Z.log2 v + 1).
Proof.
  intros Hv.
  assert (smeared v v 1) as S0.
  { intros i Hi. split; [intros; exists i; split; auto; lia|].
    intros (j & Hj & E). now replace i with j by lia. }
  pose proof (smear_step _ _ 1 ltac:(lia) S0) as S1; cbn [Z.add Pos.add Pos.succ] in S1.
  pose proof (smear_step _ _ 2 ltac:(lia) S1) as S2; cbn [Z.add Pos.add Pos.succ] in S2.
  pose proof (smear_step _ _ 4 ltac:(lia) S2) as S3; cbn [Z.add Pos.add Pos.succ] in S3.
  pose proof (smear_step _ _ 8 ltac:(lia) S3) as S4; cbn [Z.add Pos.add Pos.succ] in S4.
  pose proof (smear_step _ _ 16 ltac:(lia) S4) as S5; cbn [Z.add Pos.add Pos.succ] in S5.
  pose proof (smear_step _ _ 32 ltac:(lia) S5) as S6; cbn [Z.add Pos.add Pos.succ] in S6.
  destruct (Z.eqb_spec v 0) as [->|Nz]; [reflexivity|].
  assert (Z.log2 v < 64) as L by (apply Z.log2_lt_pow2; lia).
  pose proof (Z.log2_nonneg v).
  apply Z.bits_inj'. intros n Hn.
  rewrite Z.testbit_ones_nonneg by lia.
  apply eq_true_iff_eq. rewrite (S6 n Hn), Z.ltb_lt. split.
  - intros (j & Hj & E). destruct (Z.ltb_spec n (Z.log2 v + 1)); [auto|].
    rewrite Z.bits_above_log2 in E by lia. discriminate.
  - intros Hl. exists (Z.log2 v). split; [lia|]. apply Z.bit_log2. lia.
Qed.
(** The bit length: 0 for 0, otherwise one more than the position of the top bit. *)
Definition bit_length (x : Z) : Z := if x =? 0 then 0 else Z.log2 x + 1.
Lemma debruijn_ones k : 0 <= k <= 64 ->
  nth (Z.to_nat (Z.shiftr ((Z.ones k * 0x6c04f118e9966f6b) mod 2 ^ 64) 57)) bit_pattern_to_log2 (-1) = k.
Proof.
  assert (forallb (fun k => nth (Z.to_nat (Z.shiftr ((Z.ones k * 0x6c04f118e9966f6b) mod 2 ^ 64) 57))
            bit_pattern_to_log2 (-1) =? k) (map Z.of_nat (seq 0 65)) = true) as C by now vm_compute.
  intros Hk. rewrite forallb_forall in C. apply Z.eqb_eq, C.
  apply in_map_iff. exists (Z.to_nat k). split; [lia|]. apply in_seq. lia.
Qed.
Lemma debruijn_correct v : 0 <= v < 2 ^ 64 -> count_bits_debruijn v = bit_length v.
Proof.
  intros Hv. unfold count_bits_debruijn. cbv zeta. rewrite smear_all by exact Hv.
  apply debruijn_ones. unfold bit_length. destruct (Z.eqb_spec v 0); [lia|].
  assert (Z.log2 v < 64) by (apply Z.log2_lt_pow2; lia).
  pose proof (Z.log2_nonneg v). lia.
Qed.
Lemma count_bits_correct a : wf a -> count_bits a = bit_length (Z.abs (value a)).
Proof.
  intros W. rewrite value_abs by exact W. destruct W as (Hd & Hc & Hn).
  unfold count_bits. destruct (dp a) as [|d0 l0] eqn:E; [reflexivity|]. rewrite <- E in *.
  assert (dp a <> []) as NE by congruence. clear E d0 l0.
  destruct (last_snoc (dp a) 0 NE) as [l E].
  set (d := last (dp a) 0) in *. rewrite E in *.
  pose proof (clamp_snoc _ _ Hc) as Nz.
  apply Forall_app in Hd as [Hl Hd]. inversion Hd; subst.
  rewrite debruijn_correct by lia.
  rewrite app_length, V_app. cbn [length V fold_right].
  pose proof (V_nonneg l Hl) as Bl.
  set (k := 60 * Z.of_nat (length l)) in *.
  unfold bit_length.
  destruct (Z.eqb_spec d 0); [lia|].
  assert (0 < 2 ^ k) by (apply Z.pow_pos_nonneg; lia).
  destruct (Z.eqb_spec (V l + 2 ^ k * (d + 2 ^ 60 * 0)) 0); [nia|].
  assert (0 < d) by lia.
  pose proof (Z.log2_spec d H0) as [L1 L2]. pose proof (Z.log2_nonneg d).
  assert (Z.log2 (V l + 2 ^ k * (d + 2 ^ 60 * 0)) = k + Z.log2 d) as ->.
  { apply Z.log2_unique; [lia|]. rewrite Z.pow_add_r by lia.
    replace (Z.succ (k + Z.log2 d)) with (k + Z.succ (Z.log2 d)) by lia.
    rewrite Z.pow_add_r by lia. nia. }
  unfold digit_bit, k. lia.
Qed.
Lemma bit_length_spec x n : 0 <= x -> 0 <= n -> (x < 2 ^ n <-> bit_length x <= n).
Proof.
  intros Hx Hn. unfold bit_length. destruct (Z.eqb_spec x 0) as [->|].
  - split; [lia|]. intros _. apply Z.pow_pos_nonneg; lia.
  - rewrite Z.log2_lt_pow2 by lia. lia.
Qed.
Lemma bit_length_nonneg x : 0 <= x -> 0 <= bit_length x.
Proof. intros. unfold bit_length. destruct (x =? 0); [lia|]. pose proof (Z.log2_nonneg x). lia. Qed.

(** ** Stores *)
Lemma set_at_length l i v : length (set_at l i v) = length l.
Proof. revert i. induction l as [|a l IH]; intros [|i]; cbn; auto. Qed.
Lemma set_at_same l i v d : (i < length l)%nat -> nth i (set_at l i v) d = v.
Proof. revert i. induction l as [|a l IH]; intros [|i] H; cbn in *; try lia; auto. apply IH. lia. Qed.
Lemma set_at_other l i j v d : i <> j -> nth j (set_at l i v) d = nth j l d.
Proof. revert i j. induction l as [|a l IH]; intros [|i] [|j] H; cbn; auto; try lia. Qed.

(** Entry [i] of a buffer, as C addresses it. *)
Definition byte_in (l : list Z) (i : Z) : Z := nth (Z.to_nat i) l 0.
Lemma store_in l i v : 0 <= i < Z.of_nat (length l) ->
  exists l', store l i v = Val l' /\ length l' = length l /\ byte_in l' i = v /\
    forall j, 0 <= j -> j <> i -> byte_in l' j = byte_in l j.
Proof.
  intros H. unfold store.
  replace ((0 <=? i) && (i <? Z.of_nat (length l))) with true
    by (symmetry; apply andb_true_intro; split; [apply Z.leb_le|apply Z.ltb_lt]; lia).
  eexists. split; [reflexivity|]. split; [apply set_at_length|]. split.
  - apply set_at_same. lia.
  - intros j Hj N. apply set_at_other. lia.
Qed.

(** Byte [i] of an integer in two's complement. *)
Definition byte_of (x i : Z) : Z := x / 2 ^ (8 * i) mod 256.
(** The buffer of [n] bytes holds the first [k] bytes of [x] (least significant
    first) and agrees with [old] outside them. *)
Definition holds (e : endian) (n : Z) (old buf : list Z) (x k : Z) : Prop :=
  length buf = length old /\
  (forall i, 0 <= i < k -> byte_in buf (at_pos e n i) = byte_of x i) /\
  (forall j, n <= j -> byte_in buf j = byte_in old j).
Lemma at_pos_range e n i : 0 <= i < n -> 0 <= at_pos e n i < n.
Proof. destruct e; cbn; lia. Qed.
Lemma at_pos_inj e n i j : at_pos e n i = at_pos e n j -> i = j.
Proof. destruct e; cbn; lia. Qed.

Lemma holds_put e n old buf x k v : 0 <= k < n -> n <= Z.of_nat (length old) ->
  holds e n old buf x k ->
  exists buf', store buf (at_pos e n k) v = Val buf' /\ holds e n old buf' x k /\
    byte_in buf' (at_pos e n k) = v.
Proof.
  intros Hk Hn (HL & HB & HO).
  pose proof (at_pos_range e n k Hk) as R.
  destruct (store_in buf (at_pos e n k) v ltac:(lia)) as (b' & E & L & S & O).
  exists b'. split; [exact E|]. split; [|exact S].
  split; [congruence|]. split.
  - intros i Hi. rewrite O; [now apply HB| |].
    + apply at_pos_range. lia.
    + intros F. apply at_pos_inj in F. lia.
  - intros j Hj. rewrite O by lia. now apply HO.
Qed.
Lemma holds_next e n old buf x k : 0 <= k -> holds e n old buf x k ->
  byte_in buf (at_pos e n k) = byte_of x k -> holds e n old buf x (k + 1).
Proof.
  intros Hk (HL & HB & HO) E. split; [exact HL|]. split; [|exact HO]. intros i Hi.
  destruct (Z.eq_dec i k) as [->|]; [exact E|]. apply HB. lia.
Qed.

(** ** Arithmetic of the byte cache *)
Lemma land255 c : Z.land c 255 = c mod 256.
Proof. change 255 with (Z.ones 8). rewrite Z.land_ones by lia. reflexivity. Qed.
Lemma div_pow_mod x a b : 0 <= a <= b -> (x mod 2 ^ b) / 2 ^ a = (x / 2 ^ a) mod 2 ^ (b - a).
Proof.
  intros H. apply Z.bits_inj'. intros n Hn.
  rewrite Z.div_pow2_bits by lia. destruct (Z.ltb_spec n (b - a)).
  - rewrite !Z.mod_pow2_bits_low by lia. now rewrite Z.div_pow2_bits by lia.
  - rewrite !Z.mod_pow2_bits_high by lia. reflexivity.
Qed.
Lemma mod_mod_le x a b : 0 <= a <= b -> (x mod 2 ^ b) mod 2 ^ a = x mod 2 ^ a.
Proof.
  intros H. apply Z.bits_inj'. intros n Hn. destruct (Z.ltb_spec n a).
  - rewrite !Z.mod_pow2_bits_low by lia. reflexivity.
  - rewrite !Z.mod_pow2_bits_high by lia. reflexivity.
Qed.
(** The low byte of the cache is the next byte. *)
Lemma cache_byte x p t : 0 <= p -> 8 * p + 8 <= t -> ((x mod 2 ^ t) / 2 ^ (8 * p)) mod 256 = byte_of x p.
Proof.
  intros Hp Ht. unfold byte_of. rewrite div_pow_mod by lia.
  change 256 with (2 ^ 8). apply mod_mod_le. lia.
Qed.
Lemma cache_next y p : 0 <= p -> Z.shiftr (y / 2 ^ (8 * p)) 8 = y / 2 ^ (8 * (p + 1)).
Proof.
  intros Hp. rewrite Z.shiftr_div_pow2 by lia. rewrite Z.div_div by lia.
  rewrite <- Z.pow_add_r by lia. f_equal. f_equal. lia.
Qed.
(** Taking in the next 60 bits. *)
Lemma cache_fill x p t w : 0 <= p -> 0 <= w -> 8 * p <= t -> t - 8 * p + w <= 64 ->
  Z.lor ((x mod 2 ^ t) / 2 ^ (8 * p)) (Z.shiftl (x / 2 ^ t mod 2 ^ w) (t - 8 * p) mod 2 ^ 64) =
  (x mod 2 ^ (t + w)) / 2 ^ (8 * p).
Proof.
  intros Hp Hw Ht Hr. set (r := t - 8 * p) in *.
  rewrite !div_pow_mod by lia. fold r. replace (t + w - 8 * p) with (r + w) by lia.
  set (y := x / 2 ^ (8 * p)).
  replace (x / 2 ^ t) with (y / 2 ^ r).
  2:{ unfold y. rewrite Z.div_div by (try lia; apply Z.pow_pos_nonneg; lia).
      rewrite <- Z.pow_add_r by lia. f_equal. f_equal. lia. }
  assert (0 < 2 ^ r) by (apply Z.pow_pos_nonneg; lia).
  assert (0 < 2 ^ w) by (apply Z.pow_pos_nonneg; lia).
  rewrite Z.shiftl_mul_pow2 by lia. rewrite (Z.mod_small (_ * 2 ^ r)).
  2:{ pose proof (Z.mod_pos_bound (y / 2 ^ r) (2 ^ w) ltac:(lia)).
      assert (LE : 2 ^ (r + w) <= 2 ^ 64) by (apply Z.pow_le_mono_r; lia).
      rewrite (Z.pow_add_r 2 r w) in LE by lia. nia. }
  rewrite lor_shift by (try lia; apply Z.mod_pos_bound; lia).
  rewrite (Z.pow_add_r 2 r w) by lia. rewrite Z.rem_mul_r by lia. ring.
Qed.

(** ** The two's complement bytes *)
Lemma emit_correct e len old x t fuel buf pos :
  len <= Z.of_nat (length old) -> 0 <= pos <= len -> 8 * pos <= t -> t - 8 * pos < 8 * Z.of_nat fuel + 8 ->
  holds e len old buf x pos ->
  exists buf' pos',
    emit fuel e len buf pos ((x mod 2 ^ t) / 2 ^ (8 * pos)) (t - 8 * pos) =
      Val (buf', pos', (x mod 2 ^ t) / 2 ^ (8 * pos'), t - 8 * pos') /\
    holds e len old buf' x pos' /\ pos <= pos' <= len /\ 8 * pos' <= t /\
    (t - 8 * pos' < 8 \/ pos' = len) /\ (pos < len -> 8 <= t - 8 * pos -> pos < pos').
Proof.
  intros Hlen. revert buf pos. induction fuel as [|fuel IH]; intros buf pos Hp Ht Hf Hh.
  - cbn [emit]. destruct (Z.leb_spec 8 (t - 8 * pos)); [lia|]. cbn [andb].
    exists buf, pos. split; [reflexivity|]. split; [exact Hh|]. lia.
  - cbn [emit]. destruct (Z.leb_spec 8 (t - 8 * pos)) as [G|G]; cbn [andb].
    2:{ exists buf, pos. split; [reflexivity|]. split; [exact Hh|]. lia. }
    destruct (Z.ltb_spec pos len) as [G'|G'].
    2:{ exists buf, pos. split; [reflexivity|]. split; [exact Hh|]. lia. }
    rewrite land255, cache_byte, cache_next by lia.
    destruct (holds_put e len old buf x pos (byte_of x pos) ltac:(lia) Hlen Hh) as (b' & Es & Hh' & Hb).
    rewrite Es. cbn [bind].
    replace (t - 8 * pos - 8) with (t - 8 * (pos + 1)) by lia.
    destruct (IH b' (pos + 1) ltac:(lia) ltac:(lia) ltac:(lia)
                (holds_next e len old b' x pos ltac:(lia) Hh' Hb)) as (b2 & p2 & E2 & H2 & A & B & C & D).
    exists b2, p2. split; [exact E2|]. split; [exact H2|]. lia.
Qed.

(** Digit [i] of the two's complement form. *)
Definition cdigit (x : Z) (i : nat) : Z := x / 2 ^ (60 * Z.of_nat i) mod 2 ^ 60.
Lemma V_firstn_skipn i l : (i <= length l)%nat ->
  V l = V (firstn i l) + 2 ^ (60 * Z.of_nat i) * V (skipn i l).
Proof.
  intros H. rewrite <- (firstn_skipn i l) at 1. rewrite V_app, firstn_length, min_l by lia. reflexivity.
Qed.
Lemma Forall_firstn {A} (P : A -> Prop) n l : Forall P l -> Forall P (firstn n l).
Proof. intros H. revert n. induction H; intros [|n]; cbn; auto. Qed.
Lemma Forall_skipn {A} (P : A -> Prop) n l : Forall P l -> Forall P (skipn n l).
Proof. intros H. revert n. induction H; intros [|n]; cbn; auto. Qed.
Lemma skipn_nth_error {A} (l : list A) i d : nth_error l i = Some d -> skipn i l = d :: skipn (S i) l.
Proof. revert i. induction l as [|a l IH]; intros [|i] H; cbn in *; try discriminate; [now injection H as ->|]. now apply IH. Qed.
Lemma firstn_S_nth_error {A} (l : list A) i d : nth_error l i = Some d -> firstn (S i) l = firstn i l ++ [d].
Proof.
  revert i. induction l as [|a l IH]; intros [|i] H; cbn in *; try discriminate; [now injection H as ->|].
  f_equal. now apply IH.
Qed.

Section Digits.
  Variable l : list Z.
  Hypothesis Hl : Forall (fun d => 0 <= d < 2 ^ 60) l.
  (** The carry of the complement: 1 as long as only zero digits were seen. *)
  Definition carry (i : nat) : Z := if V (firstn i l) =? 0 then 1 else 0.
  Lemma firstn_bound i : 0 <= V (firstn i l) < 2 ^ (60 * Z.of_nat i).
  Proof.
    pose proof (V_nonneg _ (Forall_firstn _ i _ Hl)) as H. split; [lia|].
    eapply Z.lt_le_trans; [apply H|]. apply Z.pow_le_mono_r; [lia|].
    rewrite firstn_length. lia.
  Qed.
  (** The digit at [i], with what is above it. *)
  Lemma digit_split i : exists d h,
    match nth_error l i with Some v => v | None => 0 end = d /\ 0 <= d < 2 ^ 60 /\ 0 <= h /\
    V l = V (firstn i l) + 2 ^ (60 * Z.of_nat i) * (d + 2 ^ 60 * h) /\
    V (firstn (S i) l) = V (firstn i l) + 2 ^ (60 * Z.of_nat i) * d.
  Proof.
    destruct (nth_error l i) as [d|] eqn:E.
    - assert (i < length l)%nat as Hi by (apply nth_error_Some; congruence).
      exists d, (V (skipn (S i) l)). split; [reflexivity|]. split; [|split; [|split]].
      + rewrite Forall_forall in Hl. apply Hl. eapply nth_error_In, E.
      + pose proof (V_nonneg _ (Forall_skipn _ (S i) _ Hl)). lia.
      + rewrite (V_firstn_skipn i l) by lia. rewrite (skipn_nth_error _ _ _ E), V_cons. reflexivity.
      + rewrite (firstn_S_nth_error _ _ _ E), V_app, firstn_length, min_l by lia. cbn. lia.
    - apply nth_error_None in E. exists 0, 0.
      rewrite !firstn_all2 by lia. repeat split; lia.
  Qed.
  Lemma cdigit_pos i : match nth_error l i with Some v => v | None => 0 end = cdigit (V l) i.
  Proof.
    destruct (digit_split i) as (d & h & -> & Hd & Hh & E & _).
    pose proof (firstn_bound i) as B. unfold cdigit. rewrite E.
    set (p := 2 ^ (60 * Z.of_nat i)) in *. assert (0 < p) by (apply Z.pow_pos_nonneg; lia).
    rewrite (Z.mul_comm p), Z.div_add by lia. rewrite Z.div_small by lia.
    rewrite Z.add_0_l, (Z.mul_comm (2 ^ 60)), Z.mod_add by lia. now rewrite Z.mod_small.
  Qed.
  Lemma cdigit_neg i :
    let ac := (carry i + match nth_error l i with
                         | None => mp_mask
                         | Some v => Z.land (Z.lnot v) mp_mask
                         end) mod 2 ^ 64 in
    Z.land ac mp_mask = cdigit (- V l) i /\ Z.shiftr ac digit_bit = carry (S i).
  Proof.
    destruct (digit_split i) as (d & h & Ed & Hd & Hh & E & ES).
    pose proof (firstn_bound i) as B. pose proof (firstn_bound (S i)) as BS.
    assert (match nth_error l i with None => mp_mask | Some v => Z.land (Z.lnot v) mp_mask end = 2 ^ 60 - 1 - d) as ->.
    { destruct (nth_error l i); subst; [|reflexivity].
      unfold mp_mask. rewrite Z.land_ones by lia. unfold Z.lnot.
      rewrite <- (Z.mod_add _ 1) by lia. rewrite Z.mod_small; lia. }
    cbv zeta. unfold carry, cdigit, mp_mask, digit_bit. rewrite E, ES.
    set (p := 2 ^ (60 * Z.of_nat i)) in *. assert (0 < p) by (apply Z.pow_pos_nonneg; lia).
    set (f := V (firstn i l)) in *. clearbody f p.
    rewrite Z.land_ones, Z.shiftr_div_pow2 by lia.
    assert (forall x y, 0 <= x < 2 ^ 60 -> - (f + p * (d + 2 ^ 60 * h)) = p * (x + 2 ^ 60 * y) + (if f =? 0 then 0 else p - f) ->
      (- (f + p * (d + 2 ^ 60 * h))) / p mod 2 ^ 60 = x) as Q.
    { intros x y Hx ->. rewrite Z.add_comm, (Z.mul_comm p), Z.div_add by lia.
      rewrite Z.div_small by (destruct (Z.eqb_spec f 0); lia).
      rewrite Z.add_0_l, (Z.mul_comm (2 ^ 60)), Z.mod_add by lia. now apply Z.mod_small. }
    destruct (Z.eqb_spec f 0) as [F|F].
    - destruct (Z.eq_dec d 0) as [->|D].
      + rewrite F. cbn [Z.mul Z.add]. split.
        * change ((1 + (2 ^ 60 - 1 - 0)) mod 2 ^ 64 mod 2 ^ 60) with 0. symmetry.
          rewrite F in Q. apply (Q 0 (- h)); lia.
        * replace (f + p * 0) with 0 in * by lia. now rewrite Z.mul_0_r.
      + rewrite (Z.mod_small _ (2 ^ 64)) by lia. split.
        * rewrite Z.mod_small by lia. symmetry. rewrite (Q (2 ^ 60 - d) (- h - 1)); lia.
        * rewrite Z.div_small by lia. destruct (Z.eqb_spec (f + p * d) 0); [nia|reflexivity].
    - rewrite (Z.mod_small _ (2 ^ 64)) by lia. rewrite Z.add_0_l. split.
      + rewrite Z.mod_small by lia. symmetry. rewrite (Q (2 ^ 60 - 1 - d) (- h - 1)); lia.
      + rewrite Z.div_small by lia. destruct (Z.eqb_spec (f + p * d) 0); [nia|reflexivity].
  Qed.
End Digits.

Lemma to_bytes_loop_correct num e len old fuel buf i pos :
  wf num -> len <= Z.of_nat (length old) -> 0 <= pos <= len ->
  0 <= 60 * Z.of_nat i - 8 * pos -> (pos < len -> 60 * Z.of_nat i - 8 * pos < 8) ->
  len - pos <= Z.of_nat fuel ->
  holds e len old buf (value num) pos ->
  exists buf',
    to_bytes_loop fuel num e len buf i pos (if neg num then carry (dp num) i else 1)
      ((value num mod 2 ^ (60 * Z.of_nat i)) / 2 ^ (8 * pos)) (60 * Z.of_nat i - 8 * pos) = Val buf' /\
    holds e len old buf' (value num) len.
Proof.
  intros W Hlen. pose proof W as (Hd & _ & _).
  revert buf i pos. induction fuel as [|fuel IH]; intros buf i pos Hp Hr Hr8 Hf Hh.
  - cbn [to_bytes_loop]. destruct (Z.ltb_spec pos len); [lia|].
    exists buf. split; [reflexivity|]. assert (pos = len) as E by lia. now rewrite <- E at 2.
  - cbn [to_bytes_loop]. destruct (Z.ltb_spec pos len) as [G|G].
    2:{ exists buf. split; [reflexivity|]. assert (pos = len) as E by lia. now rewrite <- E at 2. }
    specialize (Hr8 G).
    set (d := nth_error (dp num) i).
    set (ac1 := (_ + match d with None => mp_mask | Some _ => _ end) mod 2 ^ 64).
    assert ((if neg num then Z.land ac1 mp_mask else match d with None => 0 | Some v => v end)
            = cdigit (value num) i) as ->.
    { unfold value, ac1, d. destruct (neg num); [|now apply cdigit_pos].
      now apply (cdigit_neg (dp num) Hd i). }
    replace (if neg num then Z.shiftr ac1 digit_bit else if neg num then carry (dp num) i else 1)
      with (if neg num then carry (dp num) (S i) else 1).
    2:{ unfold ac1, d. destruct (neg num); [|reflexivity].
        symmetry. now apply (cdigit_neg (dp num) Hd i). }
    unfold cdigit. rewrite cache_fill by lia.
    unfold digit_bit. replace (60 * Z.of_nat i - 8 * pos + 60) with (60 * Z.of_nat (S i) - 8 * pos) by lia.
    replace (60 * Z.of_nat i + 60) with (60 * Z.of_nat (S i)) by lia.
    destruct (emit_correct e len old (value num) (60 * Z.of_nat (S i)) 8 buf pos
                Hlen ltac:(lia) ltac:(lia) ltac:(lia) Hh) as (b1 & p1 & E1 & H1 & A & B & C & D).
    rewrite E1. cbn [bind].
    set (c := value num mod 2 ^ (60 * Z.of_nat (S i)) / 2 ^ (8 * p1)).
    assert (exists b2, (if (0 <? c) && (p1 <? len) then store b1 (at_pos e len p1) (Z.land c 255) else Val b1) = Val b2
            /\ holds e len old b2 (value num) p1) as (b2 & E2 & H2).
    { destruct ((0 <? c) && (p1 <? len)) eqn:F; [|exists b1; split; [reflexivity|exact H1]].
      apply andb_true_iff in F as [_ F]. apply Z.ltb_lt in F.
      destruct (holds_put e len old b1 (value num) p1 (Z.land c 255) ltac:(lia) Hlen H1) as (b2 & E2 & H2 & _).
      exists b2. split; [exact E2|exact H2]. }
    rewrite E2. cbn [bind].
    apply (IH b2 (S i) p1); try lia. exact H2.
Qed.

Lemma byte_in_ext l m : length l = length m ->
  (forall i, 0 <= i < Z.of_nat (length l) -> byte_in l i = byte_in m i) -> l = m.
Proof.
  intros L H. apply (nth_ext _ _ 0 0 L). intros n Hn.
  specialize (H (Z.of_nat n) ltac:(lia)). unfold byte_in in H. now rewrite Nat2Z.id in H.
Qed.
(** The [n] low bytes of [x] in two's complement, least significant first. *)
Definition le_bytes (n : nat) (x : Z) : list Z := map (fun i => byte_of x (Z.of_nat i)) (seq 0 n).
Definition in_order (e : endian) (l : list Z) : list Z := match e with Little => l | Big => rev l end.
Lemma le_bytes_length n x : length (le_bytes n x) = n.
Proof. unfold le_bytes. now rewrite map_length, seq_length. Qed.
Lemma le_bytes_nth n x i : 0 <= i < Z.of_nat n -> byte_in (le_bytes n x) i = byte_of x i.
Proof.
  intros H. unfold byte_in, le_bytes.
  rewrite (nth_indep _ 0 (byte_of x (Z.of_nat 0))) by (rewrite map_length, seq_length; lia).
  rewrite (map_nth (fun j => byte_of x (Z.of_nat j))). rewrite seq_nth by lia. f_equal. lia.
Qed.
Lemma in_order_length e l : length (in_order e l) = length l.
Proof. destruct e; cbn; [reflexivity|apply rev_length]. Qed.
Lemma in_order_nth e l i : 0 <= i < Z.of_nat (length l) ->
  byte_in (in_order e l) (at_pos e (Z.of_nat (length l)) i) = byte_in l i.
Proof.
  intros H. destruct e; cbn [in_order at_pos]; [reflexivity|].
  unfold byte_in. rewrite rev_nth by lia. f_equal. lia.
Qed.
Lemma holds_all e n old buf x : n <= Z.of_nat (length old) -> 0 <= n ->
  holds e n old buf x n -> buf = in_order e (le_bytes (Z.to_nat n) x) ++ skipn (Z.to_nat n) old.
Proof.
  intros Hn Hp (HL & HB & HO).
  assert (length (in_order e (le_bytes (Z.to_nat n) x)) = Z.to_nat n) as L by (rewrite in_order_length; apply le_bytes_length).
  apply byte_in_ext.
  - rewrite app_length, L, skipn_length. lia.
  - intros i Hi. unfold byte_in at 2. destruct (Z.ltb_spec i n).
    + rewrite app_nth1 by lia. change (byte_in buf i = byte_in (in_order e (le_bytes (Z.to_nat n) x)) i).
      assert (exists k, 0 <= k < n /\ i = at_pos e n k) as (k & Hk & ->).
      { exists (at_pos e n i). destruct e; cbn; lia. }
      rewrite HB by exact Hk.
      pose proof (in_order_nth e (le_bytes (Z.to_nat n) x) k) as P. rewrite le_bytes_length, Z2Nat.id in P by lia.
      rewrite P by lia. symmetry. apply le_bytes_nth. lia.
    + rewrite app_nth2 by lia. rewrite L. rewrite HO by lia. unfold byte_in.
      rewrite <- (firstn_skipn (Z.to_nat n) old) at 1.
      rewrite app_nth2; rewrite firstn_length, min_l by lia; [reflexivity|lia].
Qed.
Lemma holds_start e n old x : holds e n old old x 0.
Proof. split; [reflexivity|]. split; [lia|reflexivity]. Qed.

Lemma to_bytes_correct num fresh e : wf num ->
  ToBytes num fresh e = Val (in_order e (le_bytes (length fresh) (value num))).
Proof.
  intros W. unfold ToBytes, to_bytes.
  destruct (to_bytes_loop_correct num e (Z.of_nat (length fresh)) fresh (length fresh) fresh 0 0 W)
    as (b & E & H); try lia; [apply holds_start|].
  replace (if neg num then carry (dp num) 0 else 1) with 1 in E by (now destruct (neg num)).
  replace (value num mod 2 ^ (60 * Z.of_nat 0) / 2 ^ (8 * 0)) with 0 in E
    by (cbn [Z.of_nat Z.mul Z.pow]; now rewrite Z.mod_1_r).
  replace (60 * Z.of_nat 0 - 8 * 0) with 0 in E by reflexivity.
  rewrite Nat2Z.id, E. f_equal. apply holds_all in H; [|lia|lia].
  now rewrite Nat2Z.id, skipn_all, app_nil_r in H.
Qed.

(** ** Magnitude bytes *)
Lemma emit_all_correct e n old x t fuel buf pos :
  n <= Z.of_nat (length old) -> 0 <= pos -> 8 * pos <= t -> t - 8 * pos < 8 * Z.of_nat fuel + 8 ->
  t <= 8 * n -> holds e n old buf x pos ->
  exists buf' pos',
    emit_all fuel e n buf pos ((x mod 2 ^ t) / 2 ^ (8 * pos)) (t - 8 * pos) =
      Val (buf', pos', (x mod 2 ^ t) / 2 ^ (8 * pos'), t - 8 * pos') /\
    holds e n old buf' x pos' /\ pos <= pos' /\ 0 <= t - 8 * pos' < 8.
Proof.
  intros Hlen. revert buf pos. induction fuel as [|fuel IH]; intros buf pos Hp Ht Hf Hn Hh.
  - cbn [emit_all]. destruct (Z.leb_spec 8 (t - 8 * pos)); [lia|].
    exists buf, pos. split; [reflexivity|]. split; [exact Hh|]. lia.
  - cbn [emit_all]. destruct (Z.leb_spec 8 (t - 8 * pos)) as [G|G].
    2:{ exists buf, pos. split; [reflexivity|]. split; [exact Hh|]. lia. }
    rewrite land255, cache_byte, cache_next by lia.
    destruct (holds_put e n old buf x pos (byte_of x pos) ltac:(lia) Hlen Hh) as (b' & Es & Hh' & Hb).
    rewrite Es. cbn [bind].
    replace (t - 8 * pos - 8) with (t - 8 * (pos + 1)) by lia.
    destruct (IH b' (pos + 1) ltac:(lia) ltac:(lia) ltac:(lia) Hn
                (holds_next e n old b' x pos ltac:(lia) Hh' Hb)) as (b2 & p2 & E2 & H2 & A & B).
    exists b2, p2. split; [exact E2|]. split; [exact H2|]. lia.
Qed.
Lemma emit_rest_correct e n old x fuel buf pos :
  n <= Z.of_nat (length old) -> 0 <= pos <= n -> 0 <= x < 2 ^ (8 * n) ->
  (0 < n -> 2 ^ (8 * (n - 1)) <= x) ->
  x / 2 ^ (8 * pos) < 2 ^ (8 * Z.of_nat fuel) -> holds e n old buf x pos ->
  exists buf', emit_rest fuel e n buf pos (x / 2 ^ (8 * pos)) = Val (buf', n) /\ holds e n old buf' x n.
Proof.
  intros Hlen. revert buf pos. induction fuel as [|fuel IH]; intros buf pos Hp Hx Hm Hf Hh.
  - change (8 * Z.of_nat 0) with 0 in Hf. cbn [emit_rest].
    assert (x / 2 ^ (8 * pos) = 0) as E0.
    { assert (0 <= x / 2 ^ (8 * pos)) by (apply Z.div_pos; [lia|apply Z.pow_pos_nonneg; lia]). lia. }
    rewrite E0. cbn [Z.ltb Z.compare]. assert (pos = n) as ->; [|exists buf; split; [reflexivity|exact Hh]].
    destruct (Z.eq_dec pos n) as [|N]; [auto|exfalso].
    assert (x < 2 ^ (8 * pos)) by (apply Z.div_small_iff in E0; [lia|apply Z.pow_nonzero; lia]).
    assert (2 ^ (8 * pos) <= 2 ^ (8 * (n - 1))) by (apply Z.pow_le_mono_r; lia). lia.
  - cbn [emit_rest]. destruct (Z.ltb_spec 0 (x / 2 ^ (8 * pos))) as [G|G].
    + assert (pos < n) as Hpn.
      { destruct (Z.ltb_spec pos n); [auto|]. replace pos with n in G by lia.
        rewrite Z.div_small in G; lia. }
      rewrite land255, cache_next by lia. fold (byte_of x pos).
      destruct (holds_put e n old buf x pos (byte_of x pos) ltac:(lia) Hlen Hh) as (b' & Es & Hh' & Hb).
      rewrite Es. cbn [bind].
      apply (IH b' (pos + 1)); try lia.
      * rewrite <- cache_next by lia. rewrite Z.shiftr_div_pow2 by lia.
        apply Z.div_lt_upper_bound; [lia|].
        rewrite <- Z.pow_add_r by lia. now replace (8 + 8 * Z.of_nat fuel) with (8 * Z.of_nat (S fuel)) by lia.
      * apply holds_next; [lia|exact Hh'|exact Hb].
    + assert (x / 2 ^ (8 * pos) = 0) as E0.
      { assert (0 <= x / 2 ^ (8 * pos)) by (apply Z.div_pos; [lia|apply Z.pow_pos_nonneg; lia]). lia. }
      assert (pos = n) as ->; [|exists buf; split; [reflexivity|exact Hh]].
      destruct (Z.eq_dec pos n) as [|N]; [auto|exfalso].
      assert (x < 2 ^ (8 * pos)) by (apply Z.div_small_iff in E0; [lia|apply Z.pow_nonzero; lia]).
      assert (2 ^ (8 * pos) <= 2 ^ (8 * (n - 1))) by (apply Z.pow_le_mono_r; lia). lia.
Qed.
Lemma mag_loop_correct l e n old ds i buf pos :
  Forall (fun d => 0 <= d < 2 ^ 60) l -> clamp_digits l = l ->
  skipn i l = ds -> ds <> [] ->
  n <= Z.of_nat (length old) -> 0 <= pos <= n -> V l < 2 ^ (8 * n) ->
  (0 < n -> 2 ^ (8 * (n - 1)) <= V l) -> 0 <= 60 * Z.of_nat i - 8 * pos < 8 ->
  holds e n old buf (V l) pos ->
  exists buf',
    mag_loop ds e n buf pos ((V l mod 2 ^ (60 * Z.of_nat i)) / 2 ^ (8 * pos)) (60 * Z.of_nat i - 8 * pos)
      = Val (buf', n) /\ holds e n old buf' (V l) n.
Proof.
  intros Hl Hc. revert i buf pos. induction ds as [|d ds IH]; intros i buf pos Hs Hne Hlen Hp Hx Hm Hr Hh; [easy|].
  assert (i < length l)%nat as Hi.
  { destruct (Nat.ltb_spec i (length l)); [auto|]. rewrite skipn_all2 in Hs by lia. discriminate. }
  assert (nth_error l i = Some d) as Ed.
  { rewrite <- (firstn_skipn i l), nth_error_app2; rewrite firstn_length, min_l by lia; [|lia].
    rewrite Nat.sub_diag, Hs. reflexivity. }
  assert (d = V l / 2 ^ (60 * Z.of_nat i) mod 2 ^ 60) as Dd.
  { pose proof (cdigit_pos l Hl i) as P. rewrite Ed in P. exact P. }
  pose proof (skipn_nth_error l i d Ed) as Hs'. rewrite Hs in Hs'. apply (f_equal (@tl Z)) in Hs'. cbn [tl] in Hs'.
  assert (60 * Z.of_nat i - 8 * pos + 60 <= 64 \/ 60 * Z.of_nat i - 8 * pos + 60 > 64) as [R|R] by lia.
  2:{ exfalso. lia. }
  pose proof (cache_fill (V l) pos (60 * Z.of_nat i) 60 ltac:(lia) ltac:(lia) ltac:(lia) R) as CF.
  rewrite <- Dd in CF.
  destruct ds as [|d' ds].
  - cbn [mag_loop]. rewrite CF.
    assert (V l < 2 ^ (60 * Z.of_nat i + 60)) as Hb.
    { pose proof (V_nonneg l Hl) as B. eapply Z.lt_le_trans; [apply B|].
      apply Z.pow_le_mono_r; [lia|].
      assert (length (skipn (S i) l) = 0%nat) by (rewrite <- Hs'; reflexivity).
      rewrite skipn_length in H. lia. }
    pose proof (V_nonneg l Hl) as B.
    rewrite (Z.mod_small (V l)) by lia.
    apply emit_rest_correct; auto; try lia.
    apply Z.div_lt_upper_bound; [apply Z.pow_pos_nonneg; lia|].
    rewrite <- Z.pow_add_r by lia. eapply Z.lt_le_trans; [exact Hb|]. apply Z.pow_le_mono_r; lia.
  - cbn [mag_loop]. fold mag_loop. rewrite CF. unfold digit_bit.
    replace (60 * Z.of_nat i - 8 * pos + 60) with (60 * Z.of_nat (S i) - 8 * pos) by lia.
    replace (60 * Z.of_nat i + 60) with (60 * Z.of_nat (S i)) by lia.
    assert (60 * Z.of_nat (S i) <= 8 * n) as Hn.
    { destruct (Z.leb_spec (60 * Z.of_nat (S i)) (8 * n)); [auto|exfalso].
      assert (V l < 2 ^ (60 * Z.of_nat (S i))) as Hlt
        by (eapply Z.lt_le_trans; [exact Hx|]; apply Z.pow_le_mono_r; lia).
      rewrite (V_firstn_skipn (S i) l) in Hlt by lia.
      assert (0 <= V (firstn (S i) l)) by apply (V_nonneg _ (Forall_firstn _ _ _ Hl)).
      assert (0 < V (skipn (S i) l)); [|nia].
      assert (0 <= V (skipn (S i) l)) by apply (V_nonneg _ (Forall_skipn _ _ _ Hl)).
      assert (V (skipn (S i) l) <> 0); [|lia]. intros Z0.
      assert (skipn (S i) l = []) as F; [|rewrite F in Hs'; discriminate].
      apply V_zero; [now apply Forall_skipn| |exact Z0].
      clear - Hc. generalize (S i). intros k. revert k. induction l as [|a l IHl]; intros [|k]; auto.
      cbn [skipn]. apply IHl. cbn [clamp_digits] in Hc. destruct (clamp_digits l) eqn:F.
      - destruct (a =? 0); [discriminate|]. now injection Hc as <-.
      - now injection Hc as ->. }
    destruct (emit_all_correct e n old (V l) (60 * Z.of_nat (S i)) 8 buf pos
                Hlen ltac:(lia) ltac:(lia) ltac:(lia) Hn Hh) as (b1 & p1 & E1 & H1 & A & B).
    rewrite E1. cbn [bind].
    apply (IH (S i) b1 p1); auto; try lia. discriminate.
Qed.
(** The least number of bytes that hold [x]. *)
Lemma mag_size_spec a : wf a ->
  0 <= mag_bytes_size a /\ V (dp a) < 2 ^ (8 * mag_bytes_size a) /\
  (0 < mag_bytes_size a -> 2 ^ (8 * (mag_bytes_size a - 1)) <= V (dp a)) /\
  mag_bytes_size a = (bit_length (V (dp a)) + 7) / 8.
Proof.
  intros W. unfold mag_bytes_size. rewrite count_bits_correct, value_abs by exact W.
  destruct W as (Hl & _). pose proof (V_nonneg _ Hl) as B.
  set (x := V (dp a)) in *. pose proof (bit_length_nonneg x ltac:(lia)).
  replace (bit_length x + 8 - 1) with (bit_length x + 7) by lia.
  set (n := (bit_length x + 7) / 8).
  assert (8 * n <= bit_length x + 7 < 8 * n + 8) as D.
  { unfold n. pose proof (Z.div_mod (bit_length x + 7) 8 ltac:(lia)).
    pose proof (Z.mod_pos_bound (bit_length x + 7) 8 ltac:(lia)). lia. }
  split; [unfold n; apply Z.div_pos; lia|]. split; [apply bit_length_spec; lia|]. split; [|reflexivity].
  intros Hn. destruct (Z.leb_spec (2 ^ (8 * (n - 1))) x); [auto|].
  apply bit_length_spec in H0; lia.
Qed.
Lemma to_mag_bytes_correct a buf e : wf a -> mag_bytes_size a <= Z.of_nat (length buf) ->
  to_mag_bytes a buf e =
    Val (in_order e (le_bytes (Z.to_nat (mag_bytes_size a)) (Z.abs (value a))) ++
         skipn (Z.to_nat (mag_bytes_size a)) buf, mag_bytes_size a).
Proof.
  intros W Hn. destruct (mag_size_spec a W) as (S0 & S1 & S2 & _).
  rewrite value_abs by exact W. unfold to_mag_bytes.
  destruct (dp a) as [|d0 l0] eqn:E.
  - unfold mag_bytes_size, count_bits. rewrite E. cbn. now destruct e.
  - rewrite <- E in *. destruct W as (Hl & Hc & _).
    destruct (Z.leb_spec (mag_bytes_size a) (Z.of_nat (length buf))); [|lia].
    destruct (mag_loop_correct (dp a) e (mag_bytes_size a) buf (dp a) 0 buf 0 Hl Hc) as (b & Eb & Hb);
      try reflexivity; try lia; auto.
    { rewrite E. discriminate. }
    { apply holds_start. }
    replace (V (dp a) mod 2 ^ (60 * Z.of_nat 0) / 2 ^ (8 * 0)) with 0 in Eb
      by (cbn [Z.of_nat Z.mul Z.pow]; now rewrite Z.mod_1_r).
    replace (60 * Z.of_nat 0 - 8 * 0) with 0 in Eb by reflexivity.
    rewrite Eb. f_equal. f_equal. now apply holds_all.
Qed.
Lemma to_mag_bytes_small a buf e : wf a -> Z.of_nat (length buf) < mag_bytes_size a ->
  to_mag_bytes a buf e = Thrown.
Proof.
  intros W H. unfold to_mag_bytes. destruct (dp a) eqn:E.
  - unfold mag_bytes_size, count_bits in H. rewrite E in H. cbn in H. lia.
  - destruct (Z.leb_spec (mag_bytes_size a) (Z.of_nat (length buf))); [lia|reflexivity].
Qed.

(** ** Reading magnitude bytes *)
(** The number the bytes spell, least significant first. *)
Definition le_value (l : list Z) : Z := fold_right (fun b v => b + 256 * v) 0 l.
Lemma from_loop_correct bytes cache bits ds :
  Forall (fun b => 0 <= b < 256) bytes -> 0 <= bits < 60 -> bits mod 4 = 0 -> 0 <= cache < 2 ^ bits ->
  Forall (fun d => 0 <= d < 2 ^ 60) ds ->
  Forall (fun d => 0 <= d < 2 ^ 60) (from_loop bytes cache bits ds) /\
  V (from_loop bytes cache bits ds) =
    V ds + 2 ^ (60 * Z.of_nat (length ds)) * (cache + 2 ^ bits * le_value bytes).
Proof.
  intros Hb. revert cache bits ds. induction Hb as [|b t Hb Ht IH]; intros cache bits ds Hbits H4 Hc Hd.
  - cbn [from_loop le_value fold_right].
    assert (cache < 2 ^ 60) by (eapply Z.lt_le_trans; [apply Hc|]; apply Z.pow_le_mono_r; lia).
    destruct (Z.ltb_spec 0 cache).
    + unfold mp_mask. rewrite Z.land_ones, Z.mod_small by lia. split.
      * apply Forall_app. split; [exact Hd|]. constructor; [lia|constructor].
      * rewrite V_app. cbn [V fold_right]. ring.
    + split; [exact Hd|]. replace cache with 0 by lia. ring.
  - cbn [from_loop le_value fold_right]. fold (le_value t).
    assert (bits <= 56) as B56.
    { pose proof (Z.div_mod bits 4 ltac:(lia)). lia. }
    assert (0 < 2 ^ bits) as Pb by (apply Z.pow_pos_nonneg; lia).
    assert (2 ^ (bits + 8) = 2 ^ bits * 256) as P8 by (rewrite Z.pow_add_r by lia; reflexivity).
    rewrite Z.shiftl_mul_pow2 by lia. rewrite (Z.mod_small (b * 2 ^ bits)).
    2:{ assert (2 ^ (bits + 8) <= 2 ^ 64) by (apply Z.pow_le_mono_r; lia). nia. }
    rewrite lor_shift by lia.
    destruct (Z.leb_spec digit_bit (bits + 8)) as [L|L]; unfold digit_bit in *.
    + unfold mp_mask. rewrite Z.land_ones by lia.
      assert (0 <= cache + b * 2 ^ bits < 2 ^ (bits + 8)) as Bc by nia.
      set (c := cache + b * 2 ^ bits) in *.
      rewrite Z.shiftr_div_pow2 by lia.
      destruct (IH (c / 2 ^ 60) (bits + 8 - 60) (ds ++ [c mod 2 ^ 60])) as [F E].
      * lia.
      * replace (bits + 8 - 60) with (bits + (-13) * 4) by lia. now rewrite Z.mod_add by lia.
      * split; [apply Z.div_pos; lia|]. apply Z.div_lt_upper_bound; [lia|].
        rewrite <- Z.pow_add_r by lia. now replace (60 + (bits + 8 - 60)) with (bits + 8) by lia.
      * apply Forall_app. split; [exact Hd|]. constructor; [apply Z.mod_pos_bound; lia|constructor].
      * split; [exact F|]. rewrite E, V_app, app_length. cbn [length V fold_right].
        replace (60 * Z.of_nat (length ds + 1)) with (60 * Z.of_nat (length ds) + 60) by lia.
        rewrite Z.pow_add_r by lia.
        assert (2 ^ bits * 256 = 2 ^ 60 * 2 ^ (bits + 8 - 60)) as PP.
        { rewrite <- P8, <- Z.pow_add_r by lia. f_equal. lia. }
        pose proof (Z.div_mod c (2 ^ 60) ltac:(lia)) as DM.
        transitivity (V ds + 2 ^ (60 * Z.of_nat (length ds)) *
          ((2 ^ 60 * (c / 2 ^ 60) + c mod 2 ^ 60) + (2 ^ 60 * 2 ^ (bits + 8 - 60)) * le_value t)); [ring|].
        rewrite <- DM, <- PP. unfold c. ring.
    + destruct (IH (cache + b * 2 ^ bits) (bits + 8) ds) as [F E]; auto; try lia.
      * replace (bits + 8) with (bits + 2 * 4) by lia. now rewrite Z.mod_add by lia.
      * nia.
      * split; [exact F|]. rewrite E, P8. ring.
Qed.
Lemma from_mag_bytes_correct buf e : Forall (fun b => 0 <= b < 256) buf ->
  wf (from_mag_bytes buf e) /\ value (from_mag_bytes buf e) = le_value (in_order e buf).
Proof.
  intros H.
  assert (Forall (fun b => 0 <= b < 256) (in_order e buf)) as H'
    by (destruct e; cbn; [exact H|now apply Forall_rev]).
  destruct (from_loop_correct (in_order e buf) 0 0 [] H' ltac:(lia) eq_refl ltac:(cbn; lia) ltac:(constructor)) as [F E].
  unfold from_mag_bytes. change (match e with Little => buf | Big => rev buf end) with (in_order e buf).
  split; [now apply wf_clamp|]. rewrite V_clamp_value, E. change (2 ^ (60 * Z.of_nat (length (@nil Z)))) with 1. change (2 ^ 0) with 1. change (V []) with 0. lia.
Qed.
Lemma byte_of_range x i : 0 <= byte_of x i < 256.
Proof. apply Z.mod_pos_bound. lia. Qed.
Lemma le_bytes_range n x : Forall (fun b => 0 <= b < 256) (le_bytes n x).
Proof. apply Forall_forall. intros b Hb. apply in_map_iff in Hb as (i & <- & _). apply byte_of_range. Qed.
Lemma le_bytes_S n x : le_bytes (S n) x = x mod 256 :: le_bytes n (x / 256).
Proof.
  unfold le_bytes. cbn [seq map]. f_equal.
  - unfold byte_of. change (2 ^ (8 * Z.of_nat 0)) with 1. now rewrite Z.div_1_r.
  - rewrite <- seq_shift, map_map. apply map_ext. intros i. unfold byte_of.
    replace (8 * Z.of_nat (S i)) with (8 + 8 * Z.of_nat i) by lia.
    rewrite Z.pow_add_r by lia. change (2 ^ 8) with 256.
    now rewrite Z.div_div by (try lia; apply Z.pow_pos_nonneg; lia).
Qed.
Lemma le_value_le_bytes n x : le_value (le_bytes n x) = x mod 2 ^ (8 * Z.of_nat n).
Proof.
  revert x. induction n as [|n IH]; intros x.
  - cbn. now rewrite Z.mod_1_r.
  - rewrite le_bytes_S. cbn [le_value fold_right]. fold (le_value (le_bytes n (x / 256))). rewrite IH.
    replace (8 * Z.of_nat (S n)) with (8 + 8 * Z.of_nat n) by lia.
    rewrite Z.pow_add_r by lia. change (2 ^ 8) with 256.
    rewrite Z.rem_mul_r by (try lia; apply Z.pow_pos_nonneg; lia). reflexivity.
Qed.
Lemma le_value_bound l : Forall (fun b => 0 <= b < 256) l -> 0 <= le_value l < 2 ^ (8 * Z.of_nat (length l)).
Proof.
  induction 1 as [|b l Hb Hl IH]; [cbn; lia|].
  cbn [le_value fold_right length]. fold (le_value l).
  replace (8 * Z.of_nat (S (length l))) with (8 + 8 * Z.of_nat (length l)) by lia.
  rewrite Z.pow_add_r by lia. change (2 ^ 8) with 256. nia.
Qed.
Lemma in_order_invol e l : in_order e (in_order e l) = l.
Proof. destruct e; cbn; [reflexivity|apply rev_involutive]. Qed.
Lemma le_value_app l m : le_value (l ++ m) = le_value l + 2 ^ (8 * Z.of_nat (length l)) * le_value m.
Proof.
  induction l as [|d l IH]; [cbn [app length]; change (8 * Z.of_nat 0) with 0; cbn [le_value fold_right]; lia|].
  cbn [app length le_value fold_right]. fold (le_value (l ++ m)) (le_value l). rewrite IH.
  replace (8 * Z.of_nat (S (length l))) with (8 + 8 * Z.of_nat (length l)) by lia.
  rewrite Z.pow_add_r by lia. change (2 ^ 8) with 256. ring.
Qed.

(** ** Bits *)
Lemma testbit_V l k : Forall (fun d => 0 <= d < 2 ^ 60) l -> 0 <= k ->
  Z.testbit (V l) k = Z.testbit (nth (Z.to_nat (k / 60)) l 0) (k mod 60).
Proof.
  intros Hl Hk.
  pose proof (cdigit_pos l Hl (Z.to_nat (k / 60))) as P.
  assert (match nth_error l (Z.to_nat (k / 60)) with Some v => v | None => 0 end = nth (Z.to_nat (k / 60)) l 0) as Q.
  { destruct (nth_error l (Z.to_nat (k / 60))) eqn:E; [now rewrite (nth_error_nth _ _ _ E)|].
    apply nth_error_None in E. now rewrite nth_overflow. }
  rewrite <- Q, P. unfold cdigit.
  assert (0 <= k / 60) by (apply Z.div_pos; lia).
  pose proof (Z.mod_pos_bound k 60 ltac:(lia)).
  rewrite Z2Nat.id by lia. rewrite Z.mod_pow2_bits_low by lia. rewrite Z.div_pow2_bits by lia.
  f_equal. pose proof (Z.div_mod k 60 ltac:(lia)). lia.
Qed.
Lemma set_at_Forall P l i v : Forall P l -> P v -> Forall P (set_at l i v).
Proof. intros H Hv. revert i. induction H; intros [|i]; cbn; auto. Qed.
Lemma V_repeat0 n : V (repeat 0 n) = 0.
Proof. induction n; [reflexivity|]. cbn [repeat]. rewrite V_cons. lia. Qed.
Lemma bits_lt_pow2 x n : 0 <= n -> 0 <= x -> (forall k, n <= k -> Z.testbit x k = false) -> x < 2 ^ n.
Proof.
  intros Hn Hx H. destruct (Z.ltb_spec x (2 ^ n)); [auto|exfalso].
  assert (0 < x) by (pose proof (Z.pow_pos_nonneg 2 n); lia).
  assert (n <= Z.log2 x) by (apply Z.log2_le_pow2; lia).
  specialize (H (Z.log2 x) H2). rewrite Z.bit_log2 in H by lia. discriminate.
Qed.
Lemma set_bit_correct a k v : wf a -> 0 <= k ->
  wf (set_bit a k v) /\
  Z.abs (value (set_bit a k v)) =
    (if v =? 0 then Z.clearbit (Z.abs (value a)) k else Z.setbit (Z.abs (value a)) k) /\
  (value (set_bit a k v) <> 0 -> neg (set_bit a k v) = neg a).
Proof.
  intros W Hk. rewrite (value_abs a W). destruct W as (Hl & _ & _).
  unfold set_bit, digit_bit. set (limb := Z.to_nat (k / 60)). set (l := extend_to (dp a) (S limb)).
  set (j := k mod 60).
  assert (0 <= j < 60) as Hj by (apply Z.mod_pos_bound; lia).
  assert (Forall (fun d => 0 <= d < 2 ^ 60) l) as Hl'.
  { unfold l, extend_to. apply Forall_app. split; [exact Hl|]. apply Forall_forall. intros x Hx.
    apply repeat_spec in Hx. subst. lia. }
  assert (V l = V (dp a)) as EV.
  { unfold l, extend_to. rewrite V_app, V_repeat0. lia. }
  assert (limb < length l)%nat as Hlim.
  { unfold l, extend_to. rewrite app_length, repeat_length. lia. }
  set (d := nth limb l 0).
  set (d' := if v =? 0 then Z.land d (Z.lnot (Z.shiftl 1 j)) else Z.lor d (Z.shiftl 1 j)).
  assert (0 <= d < 2 ^ 60) as Hd by (unfold d; rewrite Forall_forall in Hl'; apply Hl', nth_In; lia).
  assert (forall i, 0 <= i -> Z.testbit d' i = if i =? j then negb (v =? 0) else Z.testbit d i) as Bd.
  { intros i Hi. unfold d'. rewrite Z.shiftl_1_l.
    destruct (v =? 0).
    - rewrite Z.land_spec, Z.lnot_spec, Z.pow2_bits_eqb by lia. rewrite Z.eqb_sym.
      destruct (Z.eqb_spec i j); cbn; [apply andb_false_r|apply andb_true_r].
    - rewrite Z.lor_spec, Z.pow2_bits_eqb by lia. rewrite Z.eqb_sym.
      destruct (Z.eqb_spec i j); cbn; [apply orb_true_r|apply orb_false_r]. }
  assert (0 <= d' < 2 ^ 60) as Hd'.
  { assert (0 <= d').
    { unfold d'. destruct (v =? 0); [apply Z.land_nonneg; lia|].
      apply Z.lor_nonneg. split; [lia|]. apply Z.shiftl_nonneg. lia. }
    split; [auto|]. apply bits_lt_pow2; [lia|auto|]. intros i Hi. rewrite Bd by lia.
    destruct (Z.eqb_spec i j); [lia|].
    destruct (Z.eq_dec d 0) as [->|]; [apply Z.bits_0|].
    apply Z.bits_above_log2; [lia|]. assert (Z.log2 d < 60) by (apply Z.log2_lt_pow2; lia). lia. }
  assert (Forall (fun d => 0 <= d < 2 ^ 60) (set_at l limb d')) as HF by (apply set_at_Forall; auto).
  cbv zeta. fold d d'.
  pose proof (wf_clamp (neg a) _ HF) as WC. split; [exact WC|]. split.
  - rewrite value_abs by exact WC. unfold clamp. cbn [dp]. rewrite V_clamp.
    apply Z.bits_inj'. intros n Hn. rewrite testbit_V by auto.
    transitivity (if n =? k then negb (v =? 0) else Z.testbit (V l) n).
    + rewrite testbit_V by auto.
      pose proof (Z.div_mod n 60 ltac:(lia)) as Dn. pose proof (Z.mod_pos_bound n 60 ltac:(lia)) as Mn.
      pose proof (Z.div_mod k 60 ltac:(lia)) as Dk. fold j in Dk.
      assert (0 <= n / 60) by (apply Z.div_pos; lia). assert (0 <= k / 60) by (apply Z.div_pos; lia).
      destruct (Nat.eq_dec limb (Z.to_nat (n / 60))) as [El|Nl].
      * rewrite <- El, set_at_same by exact Hlim. rewrite Bd by lia. unfold limb in El.
        assert (k / 60 = n / 60) by lia.
        destruct (Z.eqb_spec (n mod 60) j), (Z.eqb_spec n k); try lia; reflexivity.
      * rewrite set_at_other by exact Nl. destruct (Z.eqb_spec n k) as [->|]; [|reflexivity].
        exfalso. apply Nl. reflexivity.
    + rewrite EV. destruct (v =? 0); cbn [negb].
      * rewrite Z.clearbit_eqb. rewrite (Z.eqb_sym k n).
        destruct (n =? k); cbn; [now rewrite andb_false_r|now rewrite andb_true_r].
      * rewrite Z.setbit_eqb by lia. rewrite (Z.eqb_sym k n). destruct (n =? k); reflexivity.
  - intros N. unfold clamp in *. cbn [neg dp]. destruct (clamp_digits (set_at l limb d')) eqn:F; [|reflexivity].
    exfalso. apply N. cbn [dp]. rewrite F. reflexivity.
Qed.
Lemma get_bit_correct a k : wf a -> 0 <= k -> get_bit a k = Z.b2z (Z.testbit (Z.abs (value a)) k).
Proof.
  intros W Hk. rewrite value_abs by exact W. destruct W as (Hl & _).
  rewrite testbit_V by auto. unfold get_bit, digit_bit.
  pose proof (Z.mod_pos_bound k 60 ltac:(lia)).
  destruct (nth_error (dp a) (Z.to_nat (k / 60))) as [d|] eqn:E.
  - rewrite (nth_error_nth _ _ _ E). change 1 with (Z.ones 1). rewrite Z.land_ones by lia.
    rewrite Z.shiftr_div_pow2 by lia. change (2 ^ 1) with 2. now rewrite <- Z.testbit_spec' by lia.
  - apply nth_error_None in E. rewrite nth_overflow by exact E. now rewrite Z.bits_0.
Qed.

(** ** The serialized form *)
Lemma le_value_last l : l <> [] -> Forall (fun b => 0 <= b < 256) l ->
  le_value l = le_value (removelast l) + 2 ^ (8 * (Z.of_nat (length l) - 1)) * last l 0.
Proof.
  intros N F. rewrite (app_removelast_last 0 N) at 1. rewrite le_value_app. cbn [le_value fold_right].
  assert (length l = S (length (removelast l))) as ->.
  { rewrite (app_removelast_last 0 N) at 1. rewrite app_length. cbn. lia. }
  replace (Z.of_nat (S (length (removelast l))) - 1) with (Z.of_nat (length (removelast l))) by lia. lia.
Qed.
Lemma clearbit_top x n : 0 <= n -> 0 <= x < 2 ^ (n + 1) -> Z.clearbit x n = x mod 2 ^ n.
Proof.
  intros Hn Hx. apply Z.bits_inj'. intros k Hk. rewrite Z.clearbit_eqb.
  destruct (Z.ltb_spec k n).
  - rewrite Z.mod_pow2_bits_low by lia. destruct (Z.eqb_spec n k); [lia|]. cbn. apply andb_true_r.
  - rewrite Z.mod_pow2_bits_high by lia. destruct (Z.eqb_spec n k); cbn; [apply andb_false_r|].
    destruct (Z.eq_dec x 0) as [->|]; [now rewrite Z.bits_0|].
    rewrite Z.bits_above_log2; [reflexivity|lia|].
    assert (Z.log2 x < n + 1) by (apply Z.log2_lt_pow2; lia). lia.
Qed.
Lemma wf_sign a b : wf a -> dp a <> [] -> wf (Mp b (dp a)).
Proof. intros (H & C & _) N. split; [exact H|]. split; [exact C|]. now intros. Qed.

Lemma set_at_repeat m i : set_at (repeat 0 m) i 0 = repeat 0 m.
Proof. revert i. induction m as [|m IH]; intros [|i]; cbn; auto. now rewrite IH. Qed.
Lemma clamp_repeat m : clamp_digits (repeat 0 m) = [].
Proof. induction m as [|m IH]; [reflexivity|]. cbn [repeat clamp_digits]. now rewrite IH. Qed.

(** What any non-empty buffer decodes to: the sign is the top bit of the last
    byte, the magnitude the remaining bits. *)
Lemma deserialize_correct buf : buf <> [] -> Forall (fun b => 0 <= b < 256) buf ->
  exists a, deserialize buf = Val a /\ wf a /\
    value a = (if 128 <=? last buf 0 then -1 else 1) * (le_value buf mod 2 ^ (8 * Z.of_nat (length buf) - 1)).
Proof.
  intros N F. unfold deserialize. destruct buf as [|b0 t0] eqn:E0; [easy|]. rewrite <- E0 in *. clear E0 b0 t0.
  eexists. split; [reflexivity|].
  destruct (from_mag_bytes_correct buf Little F) as [W Ev]. cbn [in_order] in Ev.
  pose proof (le_value_bound buf F) as B.
  assert (1 <= Z.of_nat (length buf)) as L1 by (destruct buf; [easy|cbn [length]; lia]).
  set (k := Z.of_nat (length buf) * 8 - 1). set (s := Z.shiftr (last buf 0) 7 =? 1).
  assert (s = (128 <=? last buf 0)) as Es.
  { unfold s. assert (0 <= last buf 0 < 256) as Hl
      by (rewrite Forall_forall in F; apply F; rewrite (app_removelast_last 0 N) at 2; apply in_or_app; right; now left).
    rewrite Z.shiftr_div_pow2 by lia. change (2 ^ 7) with 128.
    destruct (Z.leb_spec 128 (last buf 0)).
    - replace (last buf 0 / 128) with 1; [reflexivity|].
      apply (Z.div_unique_pos _ _ 1 (last buf 0 - 128)); lia.
    - now rewrite Z.div_small by lia. }
  rewrite <- Es. clear Es.
  set (a := from_mag_bytes buf Little) in *.
  assert (exists a0, wf a0 /\ set_bit (Mp s (dp a)) k 0 = set_bit a0 k 0 /\ Z.abs (value a0) = le_value buf /\
     (le_value buf <> 0 -> neg a0 = s)) as (a0 & W0 & -> & A0 & N0).
  { destruct (dp a) as [|d0 l0] eqn:Ed.
    - exists mp_zero. split; [split; [constructor|split; [reflexivity|reflexivity]]|].
      assert (le_value buf = 0) as Z0 by (rewrite <- Ev; unfold value; rewrite Ed; destruct (neg a); reflexivity).
      split; [|split; [rewrite Z0; reflexivity|intros X; contradiction]].
      unfold set_bit. cbn [dp neg mp_zero]. unfold clamp. cbn [dp neg].
      assert (clamp_digits (set_at (extend_to [] (S (Z.to_nat (k / digit_bit)))) (Z.to_nat (k / digit_bit))
        (if 0 =? 0 then Z.land (nth (Z.to_nat (k / digit_bit)) (extend_to [] (S (Z.to_nat (k / digit_bit)))) 0)
            (Z.lnot (Z.shiftl 1 (k mod digit_bit)))
         else Z.lor (nth (Z.to_nat (k / digit_bit)) (extend_to [] (S (Z.to_nat (k / digit_bit)))) 0)
            (Z.shiftl 1 (k mod digit_bit)))) = []) as ->; [|reflexivity].
      unfold extend_to. cbn [app length Nat.sub Z.eqb].
      rewrite nth_repeat, Z.land_0_l, set_at_repeat. apply clamp_repeat.
    - rewrite <- Ed. exists (Mp s (dp a)). split; [apply wf_sign; [exact W|rewrite Ed; discriminate]|].
      split; [reflexivity|]. split; [|reflexivity].
      rewrite <- Ev. unfold value at 1. cbn [neg dp].
      assert (neg a = false) as Na.
      { unfold a, from_mag_bytes, clamp. cbn [neg]. now destruct (clamp_digits _). }
      unfold value. rewrite Na. pose proof (V_nonneg (dp a) (proj1 W)). destruct s; lia. }
  destruct (set_bit_correct a0 k 0 W0 ltac:(lia)) as (W' & A' & S').
  split; [exact W'|]. cbn [Z.eqb] in A'. rewrite A0 in A'.
  assert (k + 1 = 8 * Z.of_nat (length buf)) as K1 by (unfold k; lia).
  rewrite clearbit_top in A' by (try rewrite K1; lia).
  replace (8 * Z.of_nat (length buf) - 1) with k by (unfold k; lia).
  destruct (Z.eq_dec (value (set_bit a0 k 0)) 0) as [Z0|Nz].
  - rewrite Z0 in *. cbn in A'. rewrite <- A'. lia.
  - specialize (S' Nz).
    assert (le_value buf <> 0) as Nl.
    { intros F0. rewrite F0, Z.mod_0_l in A' by (apply Z.pow_nonzero; lia). lia. }
    rewrite (N0 Nl) in S'. rewrite <- A'. unfold value in *. rewrite S' in *.
    pose proof (V_nonneg _ (proj1 W')). destruct s; lia.
Qed.

Lemma byte_of_add x s t i : 0 <= i -> 8 * i + 8 <= t -> byte_of (x + s * 2 ^ t) i = byte_of x i.
Proof.
  intros Hi Ht. unfold byte_of.
  replace (s * 2 ^ t) with (s * 2 ^ (t - 8 * i - 8) * 256 * 2 ^ (8 * i)).
  2:{ change 256 with (2 ^ 8). rewrite <- !Z.mul_assoc, <- !Z.pow_add_r by lia. do 2 f_equal. lia. }
  rewrite Z.div_add by (apply Z.pow_nonzero; lia). now rewrite Z.mod_add by lia.
Qed.
Lemma byte_of_top x s i : 0 <= i -> 0 <= x < 2 ^ (8 * i + 7) -> 0 <= s <= 1 ->
  byte_of (x + s * 2 ^ (8 * i + 7)) i = Z.lor (byte_of x i) (s * 128) /\ byte_of x i < 128.
Proof.
  intros Hi Hx Hs. unfold byte_of.
  replace (8 * i + 7) with (7 + 8 * i) by lia. rewrite Z.pow_add_r by lia. change (2 ^ 7) with 128.
  assert (0 < 2 ^ (8 * i)) by (apply Z.pow_pos_nonneg; lia).
  rewrite Z.mul_assoc, Z.div_add by lia.
  assert (0 <= x / 2 ^ (8 * i) < 128) as B.
  { split; [apply Z.div_pos; lia|]. apply Z.div_lt_upper_bound; [lia|].
    replace (8 * i + 7) with (8 * i + 7) in Hx by lia. rewrite Z.pow_add_r in Hx by lia.
    change (2 ^ 7) with 128 in Hx. lia. }
  rewrite !(Z.mod_small _ 256) by lia. split; [|lia].
  change 128 with (2 ^ 7) at 2. rewrite lor_shift; [reflexivity|lia|exact B].
Qed.

Definition sign_bit (a : mp) : Z := if neg a then 1 else 0.
Lemma serialize_size_spec a : wf a ->
  0 < serialize_size a /\ Z.abs (value a) < 2 ^ (8 * serialize_size a - 1) /\
  (serialize_size a = mag_bytes_size a \/ serialize_size a = mag_bytes_size a + 1) /\
  serialize_size a = bit_length (Z.abs (value a)) / 8 + 1.
Proof.
  intros W. destruct (mag_size_spec a W) as (_ & _ & _ & M). rewrite <- value_abs in M by exact W.
  unfold serialize_size. rewrite count_bits_correct by exact W. rewrite M. clear M.
  set (x := Z.abs (value a)). pose proof (bit_length_nonneg x ltac:(lia)).
  assert (0 <= bit_length x / 8) by (apply Z.div_pos; lia).
  pose proof (Z.div_mod (bit_length x) 8 ltac:(lia)). pose proof (Z.mod_pos_bound (bit_length x) 8 ltac:(lia)).
  pose proof (Z.div_mod (bit_length x + 7) 8 ltac:(lia)). pose proof (Z.mod_pos_bound (bit_length x + 7) 8 ltac:(lia)).
  split; [lia|]. split; [apply bit_length_spec; lia|]. split; [|reflexivity]. lia.
Qed.
Lemma serialize_correct a buf : wf a -> serialize_size a <= Z.of_nat (length buf) ->
  serialize a buf =
    Val (le_bytes (Z.to_nat (serialize_size a))
           (Z.abs (value a) + sign_bit a * 2 ^ (8 * serialize_size a - 1)) ++
         skipn (Z.to_nat (serialize_size a)) buf, serialize_size a).
Proof.
  intros W Hn. destruct (serialize_size_spec a W) as (T0 & TB & TM & _).
  unfold serialize. cbv zeta. set (T := serialize_size a) in *.
  destruct (Z.leb_spec T (Z.of_nat (length buf))); [|lia].
  destruct (store_in buf (T - 1) 0 ltac:(lia)) as (b0 & E0 & L0 & Z0 & O0).
  rewrite E0. cbn [bind].
  rewrite to_mag_bytes_correct by (auto; lia). cbn [bind in_order].
  set (n := mag_bytes_size a) in *. set (x := Z.abs (value a)) in *.
  assert ((T =? n) || (T =? n + 1) = true) as ->.
  { destruct TM as [->| ->]; rewrite Z.eqb_refl; [reflexivity|apply orb_true_r]. }
  destruct (mag_size_spec a W) as (N0 & NB & _). fold n in N0, NB. rewrite <- value_abs in NB by exact W. fold x in NB.
  set (b1 := le_bytes (Z.to_nat n) x ++ skipn (Z.to_nat n) b0).
  assert (length b1 = length buf) as L1.
  { unfold b1. rewrite app_length, le_bytes_length, skipn_length. lia. }
  assert (forall i, 0 <= i < T -> byte_in b1 i = byte_of x i) as B1.
  { intros i Hi. unfold b1, byte_in. destruct (Z.ltb_spec i n).
    - rewrite app_nth1 by (rewrite le_bytes_length; lia).
      change (byte_in (le_bytes (Z.to_nat n) x) i = byte_of x i). apply le_bytes_nth. lia.
    - assert (i = n /\ T = n + 1) as [-> ET] by lia.
      rewrite app_nth2 by (rewrite le_bytes_length; lia). rewrite le_bytes_length.
      replace (nth (Z.to_nat n - Z.to_nat n) (skipn (Z.to_nat n) b0) 0) with (byte_in b0 (T - 1)).
      + rewrite Z0. unfold byte_of. rewrite Z.div_small by (unfold x in *; lia). reflexivity.
      + unfold byte_in. rewrite <- (firstn_skipn (Z.to_nat n) b0) at 1.
        rewrite app_nth2; rewrite firstn_length, min_l by lia; [f_equal; lia|lia]. }
  assert (forall j, T <= j -> byte_in b1 j = byte_in buf j) as O1.
  { intros j Hj. rewrite <- O0 by lia. unfold b1, byte_in.
    rewrite app_nth2 by (rewrite le_bytes_length; lia). rewrite le_bytes_length.
    rewrite <- (firstn_skipn (Z.to_nat n) b0) at 2.
    rewrite app_nth2; rewrite firstn_length, min_l by lia; [f_equal; lia|lia]. }
  destruct (store_in b1 (T - 1) (Z.lor (nth (Z.to_nat (T - 1)) b1 0) (if neg a then 128 else 0)) ltac:(lia))
    as (b2 & E2 & L2 & Z2 & O2).
  rewrite E2. cbn [bind]. f_equal. f_equal.
  apply (holds_all Little T buf b2 (x + sign_bit a * 2 ^ (8 * T - 1))); [lia|lia|].
  split; [congruence|]. split.
  - intros i Hi. cbn [at_pos].
    destruct (Z.eq_dec i (T - 1)) as [->|Ni].
    + rewrite Z2. change (nth (Z.to_nat (T - 1)) b1 0) with (byte_in b1 (T - 1)). rewrite B1 by lia.
      replace (8 * T - 1) with (8 * (T - 1) + 7) by lia.
      destruct (byte_of_top x (sign_bit a) (T - 1)) as [-> _]; [lia| |unfold sign_bit; destruct (neg a); lia|].
      * replace (8 * (T - 1) + 7) with (8 * T - 1) by lia. unfold x in *. lia.
      * unfold sign_bit. now destruct (neg a).
    + rewrite O2 by lia. rewrite B1 by lia. symmetry. apply byte_of_add; lia.
  - intros j Hj. rewrite O2 by lia. now apply O1.
Qed.

(** ** Random numbers *)
Lemma mask_last_snoc l d m : mask_last (l ++ [d]) m = l ++ [Z.land d m].
Proof.
  induction l as [|a l IH]; [reflexivity|]. cbn [app mask_last]. rewrite IH.
  now destruct l.
Qed.
Lemma rand_bits_correct bits raw :
  0 < bits -> Forall (fun w => 0 <= w) raw -> Z.of_nat (length raw) = rand_digits bits ->
  wf (rand_bits bits raw) /\
  value (rand_bits bits raw) = V (map (fun w => w mod 2 ^ 60) raw) mod 2 ^ bits.
Proof.
  intros Hb Hr HL. unfold rand_bits. destruct (Z.leb_spec bits 0); [lia|]. cbv zeta. unfold rand_digits, mp_mask, digit_bit in *.
  assert (map (fun d => Z.land d (Z.ones 60)) raw = map (fun w => w mod 2 ^ 60) raw) as ->
    by (apply map_ext; intros; apply Z.land_ones; lia).
  set (l := map (fun w => w mod 2 ^ 60) raw).
  assert (length l = length raw) as Ll by apply map_length.
  assert (Forall (fun d => 0 <= d < 2 ^ 60) l) as Hl.
  { apply Forall_forall. intros d Hd. apply in_map_iff in Hd as (w & <- & _). apply Z.mod_pos_bound. lia. }
  pose proof (Z.div_mod bits 60 ltac:(lia)) as D. pose proof (Z.mod_pos_bound bits 60 ltac:(lia)) as M.
  set (q := bits / 60) in *. set (r := bits mod 60) in *.
  assert (0 <= q) by (apply Z.div_pos; lia).
  destruct (Z.ltb_spec 0 r) as [R|R].
  - assert ((bits + 60 - 1) / 60 = q + 1) as Eq.
    { symmetry. apply (Z.div_unique_pos _ _ (q + 1) (r - 1)); lia. }
    rewrite Eq in HL.
    assert (l <> []) as Nl by (intros F; rewrite F in Ll; cbn in Ll; lia).
    destruct (last_snoc l 0 Nl) as [l' El]. set (d := last l 0) in *. rewrite El in *.
    apply Forall_app in Hl as [Hl' Hd']. apply Forall_inv in Hd' as Hd.
    rewrite mask_last_snoc.
    replace (Z.shiftl 1 r - 1) with (Z.ones r) by (unfold Z.ones; now rewrite Z.sub_1_r).
    rewrite Z.land_ones by lia.
    rewrite app_length in Ll. cbn [length] in Ll.
    assert (0 <= d mod 2 ^ r < 2 ^ r) as Bd by (apply Z.mod_pos_bound, Z.pow_pos_nonneg; lia).
    assert (2 ^ r <= 2 ^ 60) by (apply Z.pow_le_mono_r; lia).
    assert (Forall (fun d => 0 <= d < 2 ^ 60) (l' ++ [d mod 2 ^ r])) as HF
      by (apply Forall_app; split; [exact Hl'|constructor; [lia|constructor]]).
    split; [now apply wf_clamp|]. rewrite V_clamp_value, !V_app. cbn [V fold_right].
    replace (60 * Z.of_nat (length l')) with (60 * q) by lia.
    rewrite D. rewrite Z.pow_add_r by lia.
    pose proof (V_nonneg l' Hl') as B. replace (60 * Z.of_nat (length l')) with (60 * q) in B by lia.
    assert (0 < 2 ^ (60 * q)) by (apply Z.pow_pos_nonneg; lia). assert (0 < 2 ^ r) by (apply Z.pow_pos_nonneg; lia).
    rewrite Z.rem_mul_r by lia.
    replace (V l' + 2 ^ (60 * q) * (d + 2 ^ 60 * 0)) with (V l' + d * 2 ^ (60 * q)) by lia.
    rewrite Z.mod_add, Z.div_add by lia. rewrite (Z.mod_small (V l')), (Z.div_small (V l')) by lia.
    rewrite Z.add_0_l. lia.
  - split; [now apply wf_clamp|]. rewrite V_clamp_value.
    assert ((bits + 60 - 1) / 60 = q) as Eq by (symmetry; apply (Z.div_unique_pos _ _ q 59); lia).
    rewrite Eq in HL. symmetry. apply Z.mod_small.
    pose proof (V_nonneg l Hl) as B. rewrite Ll in B. replace (60 * Z.of_nat (length raw)) with bits in B by lia. lia.
Qed.

(** ** Machine integers *)
Lemma wf_single d : 0 <= d < 2 ^ 60 -> d <> 0 -> wf (Mp false [d]).
Proof.
  intros Hd N. split; [constructor; [exact Hd|constructor]|]. split; [|discriminate].
  cbn. destruct (Z.eqb_spec d 0); [lia|reflexivity].
Qed.
Lemma set_loop_correct fuel w b : 0 <= b < 2 ^ w -> w <= 60 * Z.of_nat fuel ->
  0 < w -> (0 < fuel)%nat ->
  exists l, set_loop fuel w b = Val l /\ Forall (fun d => 0 <= d < 2 ^ 60) l /\ clamp_digits l = l /\ V l = b.
Proof.
  intros Hb Hw Hp Hf.
  destruct (Z.leb_spec w 60) as [W|W].
  - destruct fuel as [|fuel]; [lia|]. cbn [set_loop].
    assert (2 ^ w <= 2 ^ 60) by (apply Z.pow_le_mono_r; lia).
    destruct (Z.eqb_spec b 0) as [->|N]; [now exists []|].
    destruct (Z.leb_spec w digit_bit); [|unfold digit_bit in *; lia].
    unfold mp_mask. rewrite Z.land_ones, Z.mod_small by lia.
    exists [b]. split; [reflexivity|]. destruct (wf_single b ltac:(lia) N) as (A & B & _).
    split; [exact A|]. split; [exact B|]. cbn. lia.
  - assert (forall f c, 0 <= c -> c < 2 ^ (60 * Z.of_nat f) ->
      exists l, set_loop f w c = Val l /\ Forall (fun d => 0 <= d < 2 ^ 60) l /\ clamp_digits l = l /\ V l = c) as G.
    { intros f. induction f as [|f IH]; intros c Hc Hc'.
      - change (60 * Z.of_nat 0) with 0 in Hc'. assert (c = 0) as -> by lia. now exists [].
      - cbn [set_loop]. destruct (Z.eqb_spec c 0) as [->|N]; [now exists []|].
        destruct (Z.leb_spec w digit_bit) as [F|_]; [unfold digit_bit in F; lia|].
        unfold mp_mask, digit_bit. rewrite Z.land_ones, Z.shiftr_div_pow2 by lia.
        destruct (IH (c / 2 ^ 60)) as (l & E & A & B & C).
        + apply Z.div_pos; lia.
        + apply Z.div_lt_upper_bound; [lia|]. rewrite <- Z.pow_add_r by lia.
          now replace (60 + 60 * Z.of_nat f) with (60 * Z.of_nat (S f)) by lia.
        + rewrite E. cbn [bind]. exists (c mod 2 ^ 60 :: l). split; [reflexivity|].
          pose proof (Z.mod_pos_bound c (2 ^ 60) ltac:(lia)). pose proof (Z.div_mod c (2 ^ 60) ltac:(lia)).
          split; [now constructor|]. split; [|rewrite V_cons, C; lia].
          cbn [clamp_digits]. rewrite B. destruct l; [|reflexivity].
          change (V []) with 0 in C. destruct (Z.eqb_spec (c mod 2 ^ 60) 0); [lia|reflexivity]. }
    apply G; [lia|]. eapply Z.lt_le_trans; [apply Hb|]. apply Z.pow_le_mono_r; lia.
Qed.
Lemma set_unsigned_correct w b : 0 < w <= 128 -> 0 <= b < 2 ^ w ->
  exists a, set_unsigned w b = Val a /\ wf a /\ value a = b.
Proof.
  intros Hw Hb. unfold set_unsigned.
  destruct (set_loop_correct 3 w b Hb) as (l & -> & A & B & C); [lia|lia|lia|].
  cbn [bind]. exists (Mp false l). split; [reflexivity|]. split; [|exact C].
  split; [exact A|]. split; [exact B|]. reflexivity.
Qed.
Lemma set_signed_correct w b : 0 < w <= 128 -> - 2 ^ (w - 1) <= b < 2 ^ (w - 1) ->
  exists a, set_signed w b = Val a /\ wf a /\ value a = b.
Proof.
  intros Hw Hb.
  assert (2 ^ w = 2 * 2 ^ (w - 1)) as P by (rewrite <- Z.pow_succ_r by lia; f_equal; lia).
  assert (0 < 2 ^ (w - 1)) by (apply Z.pow_pos_nonneg; lia).
  unfold set_signed.
  set (m := if b <? 0 then - b else b).
  assert (m = Z.abs b) as Em by (unfold m; destruct (Z.ltb_spec b 0); lia).
  rewrite Z.mod_small by lia.
  destruct (set_unsigned_correct w m Hw ltac:(lia)) as (a & E & W & Va). rewrite E. cbn [bind].
  assert (neg a = false) as Na.
  { unfold set_unsigned in E. destruct (set_loop 3 w m); cbn [bind] in E; try discriminate; now injection E as <-. }
  eexists. split; [reflexivity|].
  destruct (Z.ltb_spec b 0).
  - assert (dp a <> []) as N by (intros F; unfold value in Va; rewrite F, Na in Va; cbn in Va; lia).
    split; [now apply wf_sign|]. unfold value. cbn [neg dp]. unfold value in Va. rewrite Na in Va. lia.
  - split; [exact W|lia].
Qed.

Lemma get_loop_correct w ds res : 60 < w -> 0 <= res < 2 ^ w -> Forall (fun d => 0 <= d < 2 ^ 60) ds ->
  get_loop w ds res = (V (rev ds) + 2 ^ (60 * Z.of_nat (length ds)) * res) mod 2 ^ w.
Proof.
  intros Hw Hr H. revert res Hr. induction H as [|d ds Hd Hds IH]; intros res Hr.
  - cbn [get_loop rev V fold_right length]. change (60 * Z.of_nat 0) with 0.
    change (2 ^ 0) with 1. rewrite Z.add_0_l, Z.mul_1_l, Z.mod_small; auto.
  - cbn [get_loop]. destruct (Z.leb_spec w digit_bit) as [F|_]; [unfold digit_bit in F; lia|].
    assert (2 ^ 60 < 2 ^ w) by (apply Z.pow_lt_mono_r; lia).
    assert (2 ^ w = 2 ^ 60 * 2 ^ (w - 60)) as P by (rewrite <- Z.pow_add_r by lia; f_equal; lia).
    assert (0 < 2 ^ (w - 60)) by (apply Z.pow_pos_nonneg; lia).
    assert (Z.lor (Z.shiftl res digit_bit mod 2 ^ w) (d mod 2 ^ w) = (d + res * 2 ^ 60) mod 2 ^ w) as ->.
    { unfold digit_bit. rewrite Z.shiftl_mul_pow2 by lia. rewrite (Z.mod_small d) by lia.
      rewrite P, (Z.mul_comm res), Z.mul_mod_distr_l by lia.
      rewrite Z.lor_comm, (Z.mul_comm (2 ^ 60) (res mod _)), lor_shift by lia.
      rewrite Z.rem_mul_r by lia.
      rewrite (Z.mul_comm (2 ^ 60) res), Z.mod_add, Z.div_add by lia.
      rewrite (Z.mod_small d), (Z.div_small d) by lia. rewrite Z.add_0_l. ring. }
    rewrite IH by (apply Z.mod_pos_bound; lia).
    cbn [rev length]. rewrite V_app, rev_length. cbn [V fold_right].
    replace (60 * Z.of_nat (S (length ds))) with (60 * Z.of_nat (length ds) + 60) by lia.
    rewrite Z.pow_add_r by lia.
    rewrite <- Z.add_mod_idemp_r by lia. rewrite Z.mul_mod_idemp_r by lia. rewrite Z.add_mod_idemp_r by lia.
    f_equal. ring.
Qed.
Lemma get_mag_correct w a : 0 < w -> wf a -> get_mag w a = Z.abs (value a) mod 2 ^ w.
Proof.
  intros Hw W. rewrite value_abs by exact W. destruct W as (Hl & _).
  unfold get_mag, digit_bit. set (k := (w + 60 - 1) / 60).
  pose proof (Z.div_mod (w + 60 - 1) 60 ltac:(lia)) as D. pose proof (Z.mod_pos_bound (w + 60 - 1) 60 ltac:(lia)) as M.
  fold k in D. assert (0 < k) by lia.
  assert (0 < 2 ^ w) by (apply Z.pow_pos_nonneg; lia).
  assert (V (firstn (Z.to_nat k) (dp a)) mod 2 ^ w = V (dp a) mod 2 ^ w) as EV.
  { destruct (Nat.leb_spec (length (dp a)) (Z.to_nat k)); [now rewrite firstn_all2|].
    rewrite (V_firstn_skipn (Z.to_nat k) (dp a)) by lia.
    replace (60 * Z.of_nat (Z.to_nat k)) with ((60 * k - w) + w) by lia.
    rewrite Z.pow_add_r by lia.
    replace (2 ^ (60 * k - w) * 2 ^ w * V (skipn (Z.to_nat k) (dp a)))
      with ((2 ^ (60 * k - w) * V (skipn (Z.to_nat k) (dp a))) * 2 ^ w) by ring.
    now rewrite Z.mod_add by lia. }
  pose proof (Forall_firstn _ (Z.to_nat k) _ Hl) as Hf.
  destruct (Z.leb_spec w 60) as [S|B].
  - assert (k = 1) as Ek by lia. rewrite Ek in *. change (Z.to_nat 1) with 1%nat in *.
    rewrite <- EV. destruct (dp a) as [|d t]; [reflexivity|]. cbn [firstn rev app get_loop].
    destruct (Z.leb_spec w digit_bit) as [_|F]; [|unfold digit_bit in F; lia].
    rewrite Z.lor_0_l. f_equal. cbn. lia.
  - rewrite get_loop_correct by (try lia; now apply Forall_rev).
    rewrite rev_involutive, Z.mul_0_r, Z.add_0_r. exact EV.
Qed.
Lemma to_signed_mod w x y : 0 < w -> x mod 2 ^ w = y mod 2 ^ w -> to_signed w x = to_signed w y.
Proof. intros Hw E. unfold to_signed. now rewrite E. Qed.
Lemma to_signed_eqm w x : 0 < w -> to_signed w x mod 2 ^ w = x mod 2 ^ w.
Proof.
  intros Hw. unfold to_signed. assert (0 < 2 ^ w) by (apply Z.pow_pos_nonneg; lia).
  destruct (x mod 2 ^ w <? 2 ^ (w - 1)); [now rewrite Z.mod_mod by lia|].
  replace (x mod 2 ^ w - 2 ^ w) with (x mod 2 ^ w + (-1) * 2 ^ w) by lia.
  rewrite Z.mod_add by lia. now rewrite Z.mod_mod by lia.
Qed.
Lemma get_signed_correct w a : 0 < w -> wf a -> get_signed w a = to_signed w (value a).
Proof.
  intros Hw W. unfold get_signed. rewrite get_mag_correct by auto.
  assert (0 < 2 ^ w) by (apply Z.pow_pos_nonneg; lia).
  pose proof (V_nonneg _ (proj1 W)).
  destruct (neg a) eqn:N.
  - apply to_signed_mod; [exact Hw|].
    rewrite <- (Z.sub_0_l (to_signed _ _)), Zminus_mod, to_signed_eqm, Z.mod_mod, <- Zminus_mod by lia.
    f_equal. unfold value. rewrite N. lia.
  - apply to_signed_mod; [exact Hw|]. rewrite Z.mod_mod by lia. f_equal. unfold value. rewrite N. lia.
Qed.
Lemma to_signed_id w x : 0 < w -> - 2 ^ (w - 1) <= x < 2 ^ (w - 1) -> to_signed w x = x.
Proof.
  intros Hw Hx.
  assert (2 ^ w = 2 * 2 ^ (w - 1)) as P by (rewrite <- Z.pow_succ_r by lia; f_equal; lia).
  unfold to_signed. destruct (Z.ltb_spec x 0).
  - replace (x mod 2 ^ w) with (x + 2 ^ w).
    2:{ rewrite <- (Z.mod_add x 1) by lia. rewrite Z.mod_small; lia. }
    destruct (Z.ltb_spec (x + 2 ^ w) (2 ^ (w - 1))); lia.
  - rewrite Z.mod_small by lia. destruct (Z.ltb_spec x (2 ^ (w - 1))); lia.
Qed.
