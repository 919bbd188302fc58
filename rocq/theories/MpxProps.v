(** * C64: the multi-precision integer's byte formats, bits and conversions

    [wf] numbers are the ones libtommath produces: digits in range, no leading
    zero digit, no negative zero.  There is exactly one for every integer. *)
From Coq Require Import ZArith List Bool Lia.
From Verif Require Import LinCodeModel MpxModel MpxProof.
Import ListNotations.
Open Scope Z_scope.

Definition bytes_ok (l : list Z) : Prop := Forall (fun b => 0 <= b < 256) l.

Theorem one_per_integer : forall x, exists! a, wf a /\ value a = x.
Proof.
  intros x.
  assert (forall f c, 0 <= c -> c < 2 ^ (60 * Z.of_nat f) -> exists l,
    Forall (fun d => 0 <= d < 2 ^ 60) l /\ clamp_digits l = l /\ V l = c) as G.
  { intros f. induction f as [|f IH]; intros c Hc Hc'.
    - change (60 * Z.of_nat 0) with 0 in Hc'. assert (c = 0) as -> by lia. exists []. repeat split. constructor.
    - destruct (IH (c / 2 ^ 60)) as (l & A & B & C).
      + apply Z.div_pos; lia.
      + apply Z.div_lt_upper_bound; [lia|]. rewrite <- Z.pow_add_r by lia.
        now replace (60 + 60 * Z.of_nat f) with (60 * Z.of_nat (S f)) by lia.
      + pose proof (Z.mod_pos_bound c (2 ^ 60) ltac:(lia)). pose proof (Z.div_mod c (2 ^ 60) ltac:(lia)).
        exists (clamp_digits (c mod 2 ^ 60 :: l)).
        split; [apply Forall_clamp; now constructor|]. split; [apply clamp_idem|].
        rewrite V_clamp, V_cons, C. lia. }
  destruct (G (Z.to_nat (Z.abs x)) (Z.abs x)) as (l & A & B & C); [lia| |].
  { eapply Z.lt_le_trans; [apply Z.pow_gt_lin_r with (a := 2); lia|]. apply Z.pow_le_mono_r; lia. }
  assert (wf (clamp (Mp (x <? 0) l)) /\ value (clamp (Mp (x <? 0) l)) = x) as [W E].
  { split; [now apply wf_clamp|]. rewrite V_clamp_value, C. destruct (Z.ltb_spec x 0); lia. }
  exists (clamp (Mp (x <? 0) l)). split; [auto|]. intros a' [W' E']. apply value_inj; congruence.
Qed.

(** BitCount is the length of the magnitude in bits. *)
Theorem bit_count : forall a, wf a ->
  (value a = 0 -> count_bits a = 0) /\
  (value a <> 0 -> 1 <= count_bits a /\ 2 ^ (count_bits a - 1) <= Z.abs (value a) < 2 ^ count_bits a).
Proof.
  intros a W. rewrite count_bits_correct by exact W. unfold bit_length. split.
  - now intros ->.
  - intros N. destruct (Z.eqb_spec (Z.abs (value a)) 0); [lia|].
    pose proof (Z.log2_nonneg (Z.abs (value a))).
    pose proof (Z.log2_spec (Z.abs (value a)) ltac:(lia)) as L.
    replace (Z.log2 (Z.abs (value a)) + 1 - 1) with (Z.log2 (Z.abs (value a))) by lia.
    rewrite <- Z.add_1_r in L. lia.
Qed.
(** For every 64 bit word, also those wider than a digit. *)
Theorem word_bits : forall v, 0 <= v < 2 ^ 64 ->
  0 <= count_bits_debruijn v <= 64 /\ v < 2 ^ count_bits_debruijn v /\
  (0 < v -> 2 ^ (count_bits_debruijn v - 1) <= v).
Proof.
  intros v Hv. rewrite debruijn_correct by exact Hv.
  pose proof (bit_length_nonneg v ltac:(lia)).
  split; [split; [lia|]; apply bit_length_spec; lia|].
  split; [apply bit_length_spec; lia|]. intros P.
  unfold bit_length. destruct (Z.eqb_spec v 0); [lia|].
  replace (Z.log2 v + 1 - 1) with (Z.log2 v) by lia. apply Z.log2_spec. lia.
Qed.

(** ToBytes gives the two's complement modulo 2^(8n), in either byte order,
    whatever the buffer held before, without touching anything outside it. *)
Theorem to_bytes_twos_complement : forall a fresh e, wf a ->
  exists bytes, ToBytes a fresh e = Val bytes /\ length bytes = length fresh /\ bytes_ok bytes /\
    le_value (in_order e bytes) = value a mod 2 ^ (8 * Z.of_nat (length fresh)).
Proof.
  intros a fresh e W. rewrite to_bytes_correct by exact W. eexists. split; [reflexivity|].
  rewrite in_order_length, le_bytes_length, in_order_invol, le_value_le_bytes.
  repeat split. unfold bytes_ok. destruct e; cbn [in_order]; [|apply Forall_rev]; apply le_bytes_range.
Qed.

(** ToMagBytes writes the magnitude in the least number of bytes, into the front of
    the caller's buffer, keeps the rest, and throws when the buffer is too small. *)
Theorem to_mag_bytes_exact : forall a buf e, wf a ->
  let n := (bit_length (Z.abs (value a)) + 7) / 8 in
  (Z.of_nat (length buf) < n -> to_mag_bytes a buf e = Thrown) /\
  (n <= Z.of_nat (length buf) ->
   exists bytes, to_mag_bytes a buf e = Val (bytes ++ skipn (Z.to_nat n) buf, n) /\
     Z.of_nat (length bytes) = n /\ bytes_ok bytes /\ le_value (in_order e bytes) = Z.abs (value a)).
Proof.
  intros a buf e W n. destruct (mag_size_spec a W) as (S0 & S1 & _ & S3).
  rewrite <- value_abs in S1, S3 by exact W.
  assert (n = mag_bytes_size a) as -> by (now rewrite S3). split.
  - now apply to_mag_bytes_small.
  - intros H. eexists. split; [now apply to_mag_bytes_correct|].
    rewrite in_order_length, le_bytes_length, in_order_invol, le_value_le_bytes.
    split; [lia|]. split.
    + unfold bytes_ok. destruct e; cbn [in_order]; [|apply Forall_rev]; apply le_bytes_range.
    + rewrite Z2Nat.id by lia. apply Z.mod_small. lia.
Qed.
(** FromMagBytes reads any bytes back, leading zeros included. *)
Theorem from_mag_bytes_exact : forall buf e, bytes_ok buf ->
  wf (from_mag_bytes buf e) /\ value (from_mag_bytes buf e) = le_value (in_order e buf).
Proof. intros. now apply from_mag_bytes_correct. Qed.
Theorem mag_bytes_round_trip : forall a fresh e, wf a ->
  Z.of_nat (length fresh) = (bit_length (Z.abs (value a)) + 7) / 8 ->
  exists bytes, to_mag_bytes a fresh e = Val (bytes, Z.of_nat (length fresh)) /\
    from_mag_bytes bytes e = Mp false (dp a).
Proof.
  intros a fresh e W L. destruct (to_mag_bytes_exact a fresh e W) as [_ H].
  rewrite <- L in H. destruct (H ltac:(lia)) as (bytes & E & HL & HB & HV).
  exists bytes. rewrite Nat2Z.id, skipn_all, app_nil_r in E. split; [exact E|].
  destruct (from_mag_bytes_correct bytes e HB) as [W' V'].
  apply value_inj; [exact W'| |].
  - destruct W as (A & B & _). repeat split; auto.
  - rewrite V', HV, value_abs by exact W. reflexivity.
Qed.

(** Serialize then Deserialize gives back the same number, for every number; the
    size is what BitCount says, the rest of a larger buffer is kept, a smaller
    buffer is refused. *)
Theorem serialize_round_trip : forall a buf, wf a ->
  let n := bit_length (Z.abs (value a)) / 8 + 1 in
  (Z.of_nat (length buf) < n -> serialize a buf = Thrown) /\
  (n <= Z.of_nat (length buf) ->
   exists bytes, serialize a buf = Val (bytes ++ skipn (Z.to_nat n) buf, n) /\
     Z.of_nat (length bytes) = n /\ bytes_ok bytes /\ deserialize bytes = Val a).
Proof.
  intros a buf W n. destruct (serialize_size_spec a W) as (T0 & TB & _ & TE).
  assert (n = serialize_size a) as -> by (now rewrite TE). split.
  - intros H. unfold serialize. cbv zeta. destruct (Z.leb_spec (serialize_size a) (Z.of_nat (length buf))); [lia|reflexivity].
  - intros H. set (T := serialize_size a) in *. set (x := Z.abs (value a)) in *.
    eexists. split; [now apply serialize_correct|]. fold T x.
    set (y := x + sign_bit a * 2 ^ (8 * T - 1)).
    assert (0 <= sign_bit a <= 1) as Hs by (unfold sign_bit; destruct (neg a); lia).
    assert (0 < 2 ^ (8 * T - 1)) as P by (apply Z.pow_pos_nonneg; lia).
    assert (2 ^ (8 * T) = 2 * 2 ^ (8 * T - 1)) as P2 by (rewrite <- Z.pow_succ_r by lia; f_equal; lia).
    assert (0 <= y < 2 ^ (8 * T)) as Hy by (unfold y, x in *; nia).
    rewrite le_bytes_length. split; [lia|]. split; [apply le_bytes_range|].
    set (bytes := le_bytes (Z.to_nat T) y).
    assert (bytes <> []) as Nb.
    { intros F. apply (f_equal (@length Z)) in F. unfold bytes in F. rewrite le_bytes_length in F. cbn in F. lia. }
    destruct (deserialize_correct bytes Nb (le_bytes_range _ _)) as (a' & E & W' & V').
    rewrite E. f_equal. apply value_inj; auto. rewrite V'.
    unfold bytes. rewrite le_bytes_length, le_value_le_bytes, Z2Nat.id by lia.
    rewrite (Z.mod_small y) by lia.
    assert (last (le_bytes (Z.to_nat T) y) 0 = byte_of y (T - 1)) as ->.
    { rewrite <- (le_bytes_nth (Z.to_nat T) y (T - 1)) by lia. unfold byte_in.
      fold bytes. assert (length bytes = Z.to_nat T) as Lb by apply le_bytes_length.
      clear - Nb Lb. replace (Z.to_nat (T - 1)) with (length bytes - 1)%nat by lia. clear Lb.
      induction bytes as [|b l IH]; [easy|]. destruct l as [|c l]; [reflexivity|].
      change (last (c :: l) 0 = nth (length (b :: c :: l) - 1) (b :: c :: l) 0).
      rewrite IH by discriminate. cbn [length]. now rewrite Nat.sub_succ, !Nat.sub_0_r. }
    assert (y = x + sign_bit a * 2 ^ (8 * (T - 1) + 7)) as Ey by (unfold y; do 3 f_equal; lia).
    replace (8 * T - 1) with (8 * (T - 1) + 7) in * by lia.
    destruct (byte_of_top x (sign_bit a) (T - 1) ltac:(lia) ltac:(unfold x in *; lia) Hs) as [BT BL].
    rewrite <- Ey in BT. rewrite BT.
    replace (y mod 2 ^ (8 * (T - 1) + 7)) with x.
    2:{ rewrite Ey. rewrite Z.mod_add by lia. rewrite Z.mod_small; [reflexivity|unfold x in *; lia]. }
    pose proof (byte_of_range x (T - 1)) as BR.
    unfold x in *. unfold sign_bit, value in *. pose proof (V_nonneg _ (proj1 W)).
    destruct (neg a).
    + change (1 * 128) with (1 * 2 ^ 7). rewrite lor_shift by (cbn; lia).
      destruct (Z.leb_spec 128 (byte_of (Z.abs (- V (dp a))) (T - 1) + 1 * 2 ^ 7)); [lia|]. cbn in *. lia.
    + rewrite Z.mul_0_l, Z.lor_0_r.
      destruct (Z.leb_spec 128 (byte_of (Z.abs (V (dp a))) (T - 1))); lia.
Qed.
(** Any other buffer is accepted as long as it is not empty: top bit of the last
    byte is the sign, the rest the magnitude. *)
Theorem deserialize_any : forall buf, bytes_ok buf ->
  (buf = [] -> deserialize buf = Thrown) /\
  (buf <> [] -> exists a, deserialize buf = Val a /\ wf a /\
    value a = (if 128 <=? last buf 0 then -1 else 1) * (le_value buf mod 2 ^ (8 * Z.of_nat (length buf) - 1))).
Proof. intros buf H. split; [now intros ->|]. intros N. now apply deserialize_correct. Qed.
(** So the encoding is not unique: a zero with the sign bit set, or padding. *)
Theorem encodings_not_unique_refuted : exists b1 b2, b1 <> b2 /\ deserialize b1 = deserialize b2 /\
  exists a, deserialize b1 = Val a.
Proof. exists [0], [128]. split; [discriminate|]. split; [reflexivity|]. now exists mp_zero. Qed.

(** GetBit and SetBit work on the magnitude. *)
Theorem bit_access : forall a k, wf a -> 0 <= k ->
  get_bit a k = Z.b2z (Z.testbit (Z.abs (value a)) k) /\
  forall v, wf (set_bit a k v) /\
    (forall j, 0 <= j -> get_bit (set_bit a k v) j = if j =? k then (if v =? 0 then 0 else 1) else get_bit a j) /\
    (value (set_bit a k v) <> 0 -> neg (set_bit a k v) = neg a).
Proof.
  intros a k W Hk. split; [now apply get_bit_correct|]. intros v.
  destruct (set_bit_correct a k v W Hk) as (W' & A' & S'). split; [exact W'|]. split; [|exact S'].
  intros j Hj. rewrite !get_bit_correct by auto. rewrite A'.
  destruct (v =? 0).
  - rewrite Z.clearbit_eqb, (Z.eqb_sym k j). destruct (j =? k); cbn [negb].
    + now rewrite andb_false_r.
    + now rewrite andb_true_r.
  - rewrite Z.setbit_eqb, (Z.eqb_sym k j) by lia. destruct (j =? k); reflexivity.
Qed.

(** RandomExactBits(n) is the random source's low 60 bits per word, cut to n bits:
    no bias and never more than n bits. *)
Theorem random_exact_bits : forall bits raw, 0 < bits -> Forall (fun w => 0 <= w) raw ->
  Z.of_nat (length raw) = rand_digits bits ->
  wf (rand_bits bits raw) /\ 0 <= value (rand_bits bits raw) < 2 ^ bits /\
  value (rand_bits bits raw) = V (map (fun w => w mod 2 ^ 60) raw) mod 2 ^ bits.
Proof.
  intros bits raw Hb Hr HL. destruct (rand_bits_correct bits raw Hb Hr HL) as [W E].
  split; [exact W|]. split; [|exact E]. rewrite E. apply Z.mod_pos_bound, Z.pow_pos_nonneg; lia.
Qed.
(** RandomLtN returns a number below n, when it returns. *)
Theorem random_below : forall fuel n draws i r, wf n -> 0 < value n ->
  (forall j, Forall (fun w => 0 <= w) (draws j) /\ Z.of_nat (length (draws j)) = rand_digits (count_bits n)) ->
  random_lt fuel n draws i = Val r -> wf r /\ 0 <= value r < value n.
Proof.
  intros fuel n draws i r W Hp Hd. revert i. induction fuel as [|fuel IH]; intros i E; [discriminate|].
  cbn [random_lt] in E. destruct (neg (rand_bits (count_bits n) (draws i)) || (value n <=? value (rand_bits (count_bits n) (draws i)))) eqn:C; [now apply (IH (S i))|].
  injection E as <-. apply orb_false_iff in C as [_ C]. apply Z.leb_gt in C.
  destruct (bit_count n W) as [_ B]. destruct (Hd i) as [A L].
  destruct (random_exact_bits (count_bits n) (draws i) ltac:(lia) A L) as (W' & R & _).
  split; [exact W'|lia].
Qed.
(** It returns as soon as a draw is below n. *)
Theorem random_below_returns : forall fuel n draws i k, wf n -> 0 < value n ->
  (forall j, Forall (fun w => 0 <= w) (draws j) /\ Z.of_nat (length (draws j)) = rand_digits (count_bits n)) ->
  (k < fuel)%nat ->
  V (map (fun w => w mod 2 ^ 60) (draws (i + k)%nat)) mod 2 ^ count_bits n < value n ->
  exists r, random_lt fuel n draws i = Val r.
Proof.
  intros fuel n draws i k W Hp Hd. destruct (bit_count n W) as [_ B].
  assert (forall j, neg (rand_bits (count_bits n) (draws j)) = false) as NN.
  { intros j. unfold rand_bits. destruct (count_bits n <=? 0); [reflexivity|].
    unfold clamp. cbn [neg dp]. now destruct (clamp_digits _). }
  revert i k. induction fuel as [|fuel IH]; intros i k Hk Hlt; [lia|].
  cbn [random_lt]. rewrite NN. cbn [orb].
  destruct (Z.leb_spec (value n) (value (rand_bits (count_bits n) (draws i)))) as [G|G]; [|eauto].
  destruct k as [|k].
  - exfalso. rewrite Nat.add_0_r in Hlt. destruct (Hd i) as [A L].
    destruct (random_exact_bits (count_bits n) (draws i) ltac:(lia) A L) as (_ & _ & E). lia.
  - apply (IH (S i) k); [lia|]. now replace (S i + k)%nat with (i + S k)%nat by lia.
Qed.
(** For n <= 0 it never does: the documented "select a random r in [0, n)" has no
    guard and loops. *)
Theorem random_below_nonpositive_refuted : forall fuel n draws i, wf n -> value n <= 0 ->
  (forall j, Forall (fun w => 0 <= w) (draws j) /\ Z.of_nat (length (draws j)) = rand_digits (count_bits n)) ->
  random_lt fuel n draws i = Hangs.
Proof.
  intros fuel n draws i W Hn Hd. revert i. induction fuel as [|fuel IH]; intros i; [reflexivity|].
  cbn [random_lt]. destruct (Hd i) as [A L].
  assert (0 <= value (rand_bits (count_bits n) (draws i))) as P.
  { destruct (Z.leb_spec (count_bits n) 0) as [C|C].
    - unfold rand_bits. destruct (Z.leb_spec (count_bits n) 0); [|lia]. cbn. lia.
    - now apply random_exact_bits. }
  destruct (Z.leb_spec (value n) (value (rand_bits (count_bits n) (draws i)))); [|lia].
  rewrite orb_true_r. apply IH.
Qed.

(** Set<T> then Get<T> is the identity for every value of the type, and Get on any
    number truncates: signed types modulo 2^w, unsigned types the magnitude. *)
Theorem machine_integers : forall w, 0 < w <= 128 ->
  (forall b, 0 <= b < 2 ^ w -> exists a, set_unsigned w b = Val a /\ wf a /\ value a = b /\ get_mag w a = b) /\
  (forall b, - 2 ^ (w - 1) <= b < 2 ^ (w - 1) ->
     exists a, set_signed w b = Val a /\ wf a /\ value a = b /\ get_signed w a = b) /\
  (forall a, wf a -> get_mag w a = Z.abs (value a) mod 2 ^ w /\
     (get_signed w a - value a) mod 2 ^ w = 0 /\ - 2 ^ (w - 1) <= get_signed w a < 2 ^ (w - 1)).
Proof.
  intros w Hw.
  assert (0 < 2 ^ (w - 1)) as P1 by (apply Z.pow_pos_nonneg; lia).
  assert (2 ^ w = 2 * 2 ^ (w - 1)) as P by (rewrite <- Z.pow_succ_r by lia; f_equal; lia).
  split; [|split].
  - intros b Hb. destruct (set_unsigned_correct w b Hw Hb) as (a & E & W & Va).
    exists a. repeat split; auto; try apply W. rewrite get_mag_correct by (auto; lia). rewrite Va.
    rewrite Z.abs_eq by lia. now apply Z.mod_small.
  - intros b Hb. destruct (set_signed_correct w b Hw Hb) as (a & E & W & Va).
    exists a. repeat split; auto; try apply W. rewrite get_signed_correct by (auto; lia). rewrite Va.
    apply to_signed_id; lia.
  - intros a W. split; [apply get_mag_correct; auto; lia|].
    rewrite get_signed_correct by (auto; lia). split.
    + rewrite Zminus_mod, to_signed_eqm by lia. rewrite Z.sub_diag. apply Z.mod_0_l. lia.
    + unfold to_signed. pose proof (Z.mod_pos_bound (value a) (2 ^ w) ltac:(lia)).
      destruct (Z.ltb_spec (value a mod 2 ^ w) (2 ^ (w - 1))); lia.
Qed.

(** ** Concrete cases: -(2^64 + 5), two digits *)
Definition ex : mp := Mp true [5; 16].
Example ex_wf : wf ex /\ value ex = - (2 ^ 64 + 5).
Proof. split; [|reflexivity]. split; [repeat constructor; cbn; lia|]. split; [reflexivity|discriminate]. Qed.
Example ex_bits : count_bits ex = 65. Proof. reflexivity. Qed.
Example ex_bytes : ToBytes ex [9;9;9;9;9;9;9;9;9;9] Big = Val [255;254;255;255;255;255;255;255;255;251]. Proof. vm_compute. reflexivity. Qed.
Example ex_serialize : Serialize ex [7;7;7;7;7;7;7;7;7] = Val [5;0;0;0;0;0;0;0;129]. Proof. vm_compute. reflexivity. Qed.
Example ex_deserialize : deserialize [5;0;0;0;0;0;0;0;129] = Val ex. Proof. vm_compute. reflexivity. Qed.
Example ex_mag : to_mag_bytes ex [7;7;7;7;7;7;7;7;7;7;7] Big = Val ([1;0;0;0;0;0;0;0;5;7;7], 9). Proof. vm_compute. reflexivity. Qed.
Example ex_int : set_signed 128 (- 2 ^ 127) = Val (Mp true [0; 0; 128]). Proof. vm_compute. reflexivity. Qed.
Example ex_get : get_signed 64 ex = -5 /\ get_mag 64 ex = 5. Proof. split; vm_compute; reflexivity. Qed.
Example ex_rand : value (rand_bits 65 [2 ^ 64 - 1; 2 ^ 64 - 1]) = 2 ^ 65 - 1. Proof. vm_compute. reflexivity. Qed.
Example ex_lt : random_lt 3 (Mp false [5]) (fun i => [nth i [7; 6; 12] 0]) 0 = Val (Mp false [4]). Proof. vm_compute. reflexivity. Qed.

Print Assumptions one_per_integer.
Print Assumptions bit_count.
Print Assumptions word_bits.
Print Assumptions to_bytes_twos_complement.
Print Assumptions to_mag_bytes_exact.
Print Assumptions from_mag_bytes_exact.
Print Assumptions mag_bytes_round_trip.
Print Assumptions serialize_round_trip.
Print Assumptions deserialize_any.
Print Assumptions encodings_not_unique_refuted.
Print Assumptions bit_access.
Print Assumptions random_exact_bits.
Print Assumptions random_below.
Print Assumptions random_below_returns.
Print Assumptions random_below_nonpositive_refuted.
Print Assumptions machine_integers.
