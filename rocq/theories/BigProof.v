(** * Lemmas on the three big integer back ends *)
From Coq Require Import ZArith List Bool Lia.
From Verif Require Import LinCodeModel MpxModel MpxProof MpDivModel MpDivProps ZpLib BigModel.
Import ListNotations.
Open Scope Z_scope.

Definition bytes_ok (l : list Z) : Prop := Forall (fun b => 0 <= b < 256) l.

(** ** Byte lists and their values *)
Lemma le_value_cons b l : le_value (b :: l) = b + 256 * le_value l. Proof. reflexivity. Qed.
Lemma le_bytes_of l : bytes_ok l -> le_bytes (length l) (le_value l) = l.
Proof.
  unfold bytes_ok. induction 1 as [|b l Hb _ IH]; [reflexivity|].
  cbn [length]. rewrite le_bytes_S, le_value_cons.
  replace (b + 256 * le_value l) with (b + le_value l * 256) by ring.
  rewrite Z.mod_add, Z.mod_small by lia. rewrite Z.div_add, Z.div_small by lia.
  now rewrite Z.add_0_l, IH.
Qed.
Lemma le_bytes_mod n x : le_bytes n (x mod 2 ^ (8 * Z.of_nat n)) = le_bytes n x.
Proof.
  rewrite <- le_value_le_bytes. rewrite <- (le_bytes_length n x) at 1. apply le_bytes_of, le_bytes_range.
Qed.
Lemma le_bytes_unique n x l : length l = n -> bytes_ok l -> le_value l = x mod 2 ^ (8 * Z.of_nat n) -> l = le_bytes n x.
Proof. intros <- H E. rewrite <- le_bytes_mod, <- E. symmetry. now apply le_bytes_of. Qed.
Lemma le_bytes_0 k : le_bytes k 0 = repeat 0 k.
Proof. induction k as [|k IH]; [reflexivity|]. rewrite le_bytes_S. cbn [repeat]. now rewrite <- IH. Qed.
Lemma le_bytes_app n k x : le_bytes (n + k) x = le_bytes n x ++ le_bytes k (x / 2 ^ (8 * Z.of_nat n)).
Proof.
  revert x. induction n as [|n IH]; intros x.
  - cbn [Nat.add]. change (8 * Z.of_nat 0) with 0. change (2 ^ 0) with 1. now rewrite Z.div_1_r.
  - cbn [Nat.add]. rewrite !le_bytes_S, IH. cbn [app]. do 3 f_equal.
    rewrite Z.div_div by (try apply Z.pow_pos_nonneg; lia). f_equal.
    replace (8 * Z.of_nat (S n)) with (8 + 8 * Z.of_nat n) by lia. rewrite Z.pow_add_r by lia. reflexivity.
Qed.
Lemma le_bytes_pad n k x : 0 <= x < 2 ^ (8 * Z.of_nat n) -> le_bytes (n + k) x = le_bytes n x ++ repeat 0 k.
Proof. intros H. rewrite le_bytes_app, Z.div_small by exact H. now rewrite le_bytes_0. Qed.
Lemma firstn_le_bytes n c x : (n <= c)%nat -> firstn n (le_bytes c x) = le_bytes n x.
Proof.
  intros H. replace c with (n + (c - n))%nat by lia. rewrite le_bytes_app, firstn_app.
  rewrite le_bytes_length, Nat.sub_diag. cbn [firstn]. rewrite app_nil_r. apply firstn_all2. rewrite le_bytes_length. lia.
Qed.
Lemma num_bytes_spec z : 0 <= bn_num_bytes z /\ Z.abs z < 2 ^ (8 * bn_num_bytes z).
Proof.
  unfold bn_num_bytes. pose proof (bit_length_nonneg (Z.abs z) ltac:(lia)).
  pose proof (Z.div_mod (bit_length (Z.abs z) + 7) 8 ltac:(lia)). pose proof (Z.mod_pos_bound (bit_length (Z.abs z) + 7) 8 ltac:(lia)).
  assert (0 <= (bit_length (Z.abs z) + 7) / 8) by (apply Z.div_pos; lia).
  split; [lia|]. apply bit_length_spec; lia.
Qed.

(** ** The complement and carry loops *)
Lemma incr_spec l : bytes_ok l ->
  bytes_ok (incr l) /\ length (incr l) = length l /\
  le_value (incr l) = (le_value l + 1) mod 2 ^ (8 * Z.of_nat (length l)).
Proof.
  unfold bytes_ok. induction 1 as [|b l Hb Hl IH]; [repeat split; constructor|].
  cbn [incr length]. destruct IH as (I1 & I2 & I3).
  assert (2 ^ (8 * Z.of_nat (S (length l))) = 256 * 2 ^ (8 * Z.of_nat (length l))) as P.
  { replace (8 * Z.of_nat (S (length l))) with (8 + 8 * Z.of_nat (length l)) by lia. now rewrite Z.pow_add_r by lia. }
  pose proof (le_value_bound l Hl) as B.
  destruct (Z.eqb_spec ((b + 1) mod 256) 0) as [E|E].
  - assert (b = 255) as -> by (pose proof (Z.div_mod (b + 1) 256 ltac:(lia)); lia).
    repeat split; [now constructor|cbn [length]; lia|]. rewrite !le_value_cons, I3, P.
    change ((255 + 1) mod 256) with 0.
    replace (255 + 256 * le_value l + 1) with (256 * (le_value l + 1)) by ring.
    rewrite Z.mul_mod_distr_l by lia. lia.
  - assert (b < 255) by (destruct (Z.eq_dec b 255) as [->|]; [now contradiction E|lia]).
    rewrite Z.mod_small by lia. repeat split; [constructor; [lia|exact Hl]|].
    rewrite !le_value_cons, P. rewrite Z.mod_small by lia. lia.
Qed.
Lemma flip_spec l : bytes_ok l ->
  bytes_ok (map (fun b => 255 - b) l) /\
  le_value (map (fun b => 255 - b) l) = 2 ^ (8 * Z.of_nat (length l)) - 1 - le_value l.
Proof.
  unfold bytes_ok. induction 1 as [|b l Hb Hl (I1 & I2)]; [repeat split; constructor|].
  cbn [map length]. split; [constructor; [lia|exact I1]|]. rewrite !le_value_cons, I2.
  replace (8 * Z.of_nat (S (length l))) with (8 + 8 * Z.of_nat (length l)) by lia. rewrite Z.pow_add_r by lia.
  change (2 ^ 8) with 256. ring.
Qed.
Lemma map_in_order f e l : map f (in_order e l) = in_order e (map f l).
Proof. destruct e; [reflexivity|apply map_rev]. Qed.
Lemma negate_le_bytes e n x : negate_bytes e (in_order e (le_bytes n x)) = in_order e (le_bytes n (- x)).
Proof.
  unfold negate_bytes. rewrite map_in_order, in_order_invol. f_equal.
  pose proof (le_bytes_range n x) as R. destruct (flip_spec _ R) as (F1 & F2).
  destruct (incr_spec _ F1) as (I1 & I2 & I3). rewrite map_length, le_bytes_length in *.
  apply le_bytes_unique; [exact I2|exact I1|]. rewrite I3, F2, le_value_le_bytes.
  set (M := 2 ^ (8 * Z.of_nat n)). assert (0 < M) by (apply Z.pow_pos_nonneg; lia).
  replace (M - 1 - x mod M + 1) with (- (x mod M) + 1 * M) by ring. rewrite Z.mod_add by lia.
  pose proof (Z.div_mod x M ltac:(lia)) as D.
  replace (- x) with (- (x mod M) + (- (x / M)) * M) by lia. now rewrite Z.mod_add by lia.
Qed.

Lemma ossl_fit z n e : bn_num_bytes z <= Z.of_nat n -> ossl_bytes_fit z n e = Val (in_order e (le_bytes n z)).
Proof.
  intros H. unfold ossl_bytes_fit, bn2pad. destruct (Z.ltb_spec (Z.of_nat n) (bn_num_bytes z)); [lia|]. cbn [bind].
  destruct (Z.ltb_spec z 0).
  - rewrite negate_le_bytes. now rewrite Z.abs_neq, Z.opp_involutive by lia.
  - now rewrite Z.abs_eq by lia.
Qed.
Lemma gmp_num z : z <> 0 -> gmp_num_bytes z = bn_num_bytes z.
Proof. intros H. unfold gmp_num_bytes, sizeinbase2. now destruct (Z.eqb_spec z 0). Qed.
Lemma rev_repeat0 n : rev (repeat 0 n) = repeat 0 n.
Proof.
  induction n as [|n IH]; [reflexivity|]. cbn [repeat rev]. rewrite IH. clear IH.
  induction n as [|n IH]; [reflexivity|]. cbn [repeat app]. now rewrite IH.
Qed.
Lemma export_length z e : length (mpz_export z e) = Z.to_nat (bn_num_bytes z).
Proof. unfold mpz_export. rewrite in_order_length. apply le_bytes_length. Qed.
Lemma gmp_fit z n e : gmp_num_bytes z <= Z.of_nat n -> gmp_bytes_fit z n e = Val (in_order e (le_bytes n z)).
Proof.
  intros H. destruct (num_bytes_spec z) as (N0 & N1).
  assert (bn_num_bytes z <= gmp_num_bytes z) as L.
  { destruct (Z.eq_dec z 0) as [->|Nz]; [vm_compute; discriminate|rewrite gmp_num by exact Nz; lia]. }
  unfold gmp_bytes_fit. rewrite export_length.
  set (start := match e with Little => 0 | Big => Z.of_nat n - gmp_num_bytes z end).
  assert (0 <= start /\ start + bn_num_bytes z <= Z.of_nat n) as (S0 & S1) by (subst start; destruct e; lia).
  destruct (Z.ltb_spec start 0); [lia|].
  destruct (Z.ltb_spec (Z.of_nat n) (start + Z.of_nat (Z.to_nat (bn_num_bytes z)))); [lia|]. cbn [orb].
  assert (repeat 0 (Z.to_nat start) ++ mpz_export z e ++ repeat 0 (n - Z.to_nat start - Z.to_nat (bn_num_bytes z))
          = in_order e (le_bytes n (Z.abs z))) as ->.
  { destruct (Z.eq_dec z 0) as [->|Nz].
    - cbn [Z.abs]. rewrite le_bytes_0. change (mpz_export 0 e) with (in_order e []).
      replace (in_order e []) with (@nil Z) by (now destruct e). cbn [app].
      rewrite <- repeat_app. replace (Z.to_nat start + _)%nat with n by (change (bn_num_bytes 0) with 0 in *; lia).
      destruct e; [reflexivity|]. symmetry. apply rev_repeat0.
    - rewrite gmp_num in * by exact Nz.
      assert (0 <= Z.abs z < 2 ^ (8 * Z.of_nat (Z.to_nat (bn_num_bytes z)))) as B by (rewrite Z2Nat.id by lia; lia).
      assert (le_bytes n (Z.abs z) = le_bytes (Z.to_nat (bn_num_bytes z)) (Z.abs z) ++ repeat 0 (n - Z.to_nat (bn_num_bytes z))) as ->.
      { rewrite <- le_bytes_pad by exact B. f_equal. lia. }
      subst start. destruct e; cbn [in_order].
      + change (Z.to_nat 0) with 0%nat. cbn [repeat app]. unfold mpz_export. cbn [in_order]. do 2 f_equal. lia.
      + rewrite (gmp_num z Nz). rewrite rev_app_distr, rev_repeat0. unfold mpz_export. cbn [in_order].
        replace (n - Z.to_nat (Z.of_nat n - bn_num_bytes z) - Z.to_nat (bn_num_bytes z))%nat with 0%nat by lia.
        cbn [repeat]. rewrite app_nil_r. do 2 f_equal. lia. }
  f_equal. destruct (Z.ltb_spec z 0).
  - rewrite negate_le_bytes. now rewrite Z.abs_neq, Z.opp_involutive by lia.
  - now rewrite Z.abs_eq by lia.
Qed.
Lemma low_bytes_le n c x e : (n <= c)%nat -> low_bytes e n (in_order e (le_bytes c x)) = in_order e (le_bytes n x).
Proof.
  intros H. destruct e; cbn [low_bytes in_order]; [now apply firstn_le_bytes|].
  rewrite rev_length, le_bytes_length, skipn_rev, le_bytes_length.
  replace (c - (c - n))%nat with n by lia. now rewrite firstn_le_bytes.
Qed.
Lemma ossl_to_bytes_correct z n e : ossl_to_bytes z n e = Val (in_order e (le_bytes n z)).
Proof.
  unfold ossl_to_bytes. destruct (num_bytes_spec z) as (N0 & _). destruct (Nat.ltb_spec n (Z.to_nat (bn_num_bytes z))).
  - rewrite ossl_fit by lia. cbn [bind]. now rewrite low_bytes_le by lia.
  - apply ossl_fit. lia.
Qed.
Lemma gmp_num_nonneg z : 0 <= gmp_num_bytes z.
Proof. destruct (Z.eq_dec z 0) as [->|N]; [vm_compute; discriminate|]. rewrite gmp_num by exact N. apply num_bytes_spec. Qed.
Lemma gmp_to_bytes_correct z n e : gmp_to_bytes z n e = Val (in_order e (le_bytes n z)).
Proof.
  unfold gmp_to_bytes. pose proof (gmp_num_nonneg z) as N0. destruct (Nat.ltb_spec n (Z.to_nat (gmp_num_bytes z))).
  - rewrite gmp_fit by lia. cbn [bind]. now rewrite low_bytes_le by lia.
  - apply gmp_fit. lia.
Qed.

(** ** Bitwise operators *)
Definition bitwise (f : Z -> Z -> Z) : Prop :=
  exists g, g false false = false /\ forall a b n, 0 <= n -> Z.testbit (f a b) n = g (Z.testbit a n) (Z.testbit b n).
Lemma byte_bits x i n : 0 <= i -> 0 <= n -> Z.testbit (byte_of x i) n = (n <? 8) && Z.testbit x (8 * i + n).
Proof.
  intros Hi Hn. unfold byte_of. change 256 with (2 ^ 8). destruct (Z.ltb_spec n 8); cbn [andb].
  - rewrite Z.mod_pow2_bits_low by lia. rewrite Z.div_pow2_bits by lia. f_equal. lia.
  - apply Z.mod_pow2_bits_high. lia.
Qed.
Lemma bitwise_byte f a b i : bitwise f -> 0 <= i -> f (byte_of a i) (byte_of b i) = byte_of (f a b) i.
Proof.
  intros (g & G0 & G) Hi. apply Z.bits_inj'. intros n Hn. rewrite G by exact Hn. rewrite !byte_bits by assumption.
  destruct (Z.ltb_spec n 8); cbn [andb]; [|exact G0]. now rewrite G by lia.
Qed.
Lemma map2_bytes f n a b : bitwise f -> map2 f (le_bytes n a) (le_bytes n b) = le_bytes n (f a b).
Proof.
  intros F. unfold map2, le_bytes. generalize (seq 0 n) as l. induction l as [|x l IH]; [reflexivity|].
  cbn [map combine]. rewrite IH. f_equal. apply bitwise_byte; [exact F|lia].
Qed.
Lemma signed_bytes n v : (0 < n)%nat -> - 2 ^ (8 * Z.of_nat n - 1) <= v < 2 ^ (8 * Z.of_nat n - 1) ->
  signed_lebin2bn (le_bytes n v) = v.
Proof.
  intros Hn Hv. unfold signed_lebin2bn. rewrite le_bytes_length, le_value_le_bytes.
  assert (2 ^ (8 * Z.of_nat n) = 2 * 2 ^ (8 * Z.of_nat n - 1)) as P.
  { rewrite <- Z.pow_succ_r by lia. f_equal. lia. }
  assert (0 < 2 ^ (8 * Z.of_nat n - 1)) as HP by (apply Z.pow_pos_nonneg; lia).
  rewrite P. set (W := 2 ^ (8 * Z.of_nat n - 1)) in *.
  destruct (Z.ltb_spec 0 (8 * Z.of_nat n)); [|lia]. cbn [andb].
  destruct (Z.ltb_spec v 0).
  - assert (v mod (2 * W) = v + 2 * W) as -> by (symmetry; apply (Z.mod_unique_pos v (2 * W) (-1)); lia).
    destruct (Z.leb_spec W (v + 2 * W)); lia.
  - rewrite Z.mod_small by lia. destruct (Z.leb_spec W v); lia.
Qed.
Lemma shiftr_range x k : 0 <= k -> (- 2 ^ k <= x < 2 ^ k <-> Z.shiftr x k = 0 \/ Z.shiftr x k = -1).
Proof.
  intros Hk. rewrite Z.shiftr_div_pow2 by exact Hk. assert (0 < 2 ^ k) by (apply Z.pow_pos_nonneg; lia).
  set (P := 2 ^ k) in *. pose proof (Z.div_mod x P ltac:(lia)). pose proof (Z.mod_pos_bound x P ltac:(lia)). nia.
Qed.
Lemma bitwise_range f k a b : bitwise f -> 0 <= k -> - 2 ^ k <= a < 2 ^ k -> - 2 ^ k <= b < 2 ^ k -> - 2 ^ k <= f a b < 2 ^ k.
Proof.
  intros (g & G0 & G) Hk Ha Hb. apply shiftr_range in Ha; [|exact Hk]. apply shiftr_range in Hb; [|exact Hk].
  apply shiftr_range; [exact Hk|].
  assert (forall x, Z.shiftr x k = 0 \/ Z.shiftr x k = -1 -> forall n, 0 <= n -> Z.testbit x (n + k) = Z.testbit x k) as T.
  { intros x Hx n Hn.
    replace (Z.testbit x k) with (Z.testbit (Z.shiftr x k) 0) by (rewrite Z.shiftr_spec by lia; f_equal; lia).
    rewrite <- (Z.shiftr_spec x k n) by lia.
    destruct Hx as [-> | ->]; [now rewrite !Z.bits_0|now rewrite !Z.bits_m1 by lia]. }
  destruct (Z.testbit (f a b) k) eqn:E; [right|left]; apply Z.bits_inj'; intros n Hn;
    rewrite Z.shiftr_spec, G, (T a Ha n Hn), (T b Hb n Hn), <- G, E by lia.
  - now rewrite Z.bits_m1 by lia.
  - now rewrite Z.bits_0.
Qed.
Lemma ossl_bitwise_correct f a b : bitwise f -> ossl_bitwise f a b = Val (f a b).
Proof.
  intros F. unfold ossl_bitwise. rewrite !ossl_to_bytes_correct. cbn [bind in_order]. rewrite map2_bytes by exact F. f_equal.
  set (m := Z.max (bit_length (Z.abs a)) (bit_length (Z.abs b))).
  assert (0 <= m) by (pose proof (bit_length_nonneg (Z.abs a)); lia).
  assert (0 <= (m + 7) / 8 /\ m <= 8 * ((m + 7) / 8)) as (N0 & N1).
  { pose proof (Z.div_mod (m + 7) 8 ltac:(lia)). pose proof (Z.mod_pos_bound (m + 7) 8 ltac:(lia)). lia. }
  assert (forall x, bit_length (Z.abs x) <= m -> - 2 ^ (8 * Z.of_nat (Z.to_nat ((m + 7) / 8 + 1)) - 1) <= x
            < 2 ^ (8 * Z.of_nat (Z.to_nat ((m + 7) / 8 + 1)) - 1)) as R.
  { intros x Hx. rewrite Z2Nat.id by lia.
    assert (Z.abs x < 2 ^ (8 * ((m + 7) / 8 + 1) - 1)) by (apply bit_length_spec; lia). lia. }
  apply signed_bytes; [lia|]. apply bitwise_range; [exact F|lia|apply R; lia|apply R; lia].
Qed.
Lemma land_bitwise : bitwise Z.land. Proof. exists andb. split; [reflexivity|]. intros. apply Z.land_spec. Qed.
Lemma lor_bitwise : bitwise Z.lor. Proof. exists orb. split; [reflexivity|]. intros. apply Z.lor_spec. Qed.
Lemma lxor_bitwise : bitwise Z.lxor. Proof. exists xorb. split; [reflexivity|]. intros. apply Z.lxor_spec. Qed.

(** ** The serialized form *)
Definition ser_size (z : Z) : Z := bit_length (Z.abs z) / 8 + 1.
Definition ser_bytes (z : Z) : list Z :=
  le_bytes (Z.to_nat (ser_size z)) (Z.abs z + (if z <? 0 then 1 else 0) * 2 ^ (8 * ser_size z - 1)).
Lemma ser_size_spec z : 0 < ser_size z /\ Z.abs z < 2 ^ (8 * ser_size z - 1) /\
  (ser_size z = bn_num_bytes z \/ ser_size z = bn_num_bytes z + 1).
Proof.
  unfold ser_size, bn_num_bytes. pose proof (bit_length_nonneg (Z.abs z) ltac:(lia)).
  pose proof (Z.div_mod (bit_length (Z.abs z)) 8 ltac:(lia)). pose proof (Z.mod_pos_bound (bit_length (Z.abs z)) 8 ltac:(lia)).
  pose proof (Z.div_mod (bit_length (Z.abs z) + 7) 8 ltac:(lia)). pose proof (Z.mod_pos_bound (bit_length (Z.abs z) + 7) 8 ltac:(lia)).
  split; [lia|]. split; [apply bit_length_spec; lia|]. lia.
Qed.
Lemma set_at_app1 l m i v : (i < length l)%nat -> set_at (l ++ m) i v = set_at l i v ++ m.
Proof.
  revert i. induction l as [|x l IH]; intros [|i] H; cbn [length] in H; try lia; [reflexivity|].
  cbn [app set_at]. now rewrite IH by lia.
Qed.
Lemma set_at_end l x v : set_at (l ++ [x]) (length l) v = l ++ [v].
Proof. induction l as [|y l IH]; [reflexivity|]. cbn [app length set_at]. now rewrite IH. Qed.
Lemma le_bytes_snoc n x : le_bytes (S n) x = le_bytes n x ++ [byte_of x (Z.of_nat n)].
Proof. unfold le_bytes. rewrite seq_S, map_app. reflexivity. Qed.
Lemma or_sign z rest : 
  or_at (le_bytes (Z.to_nat (ser_size z)) (Z.abs z) ++ rest) (ser_size z - 1) (sign_byte z) = Val (ser_bytes z ++ rest).
Proof.
  destruct (ser_size_spec z) as (T0 & TB & _). unfold or_at. rewrite app_length, le_bytes_length.
  destruct (Z.ltb_spec (ser_size z - 1) 0); [lia|]. cbn [orb].
  destruct (Z.leb_spec (Z.of_nat (Z.to_nat (ser_size z) + length rest)) (ser_size z - 1)); [lia|].
  unfold ser_bytes. f_equal.
  set (t := Z.to_nat (ser_size z - 1)). replace (Z.to_nat (ser_size z)) with (S t) by lia.
  replace (8 * ser_size z - 1) with (8 * Z.of_nat t + 7) in * by lia.
  rewrite set_at_app1 by (rewrite le_bytes_length; lia). f_equal.
  rewrite app_nth1 by (rewrite le_bytes_length; lia).
  set (s := if z <? 0 then 1 else 0). assert (0 <= s <= 1) by (subst s; destruct (z <? 0); lia).
  assert (sign_byte z = s * 128) as -> by (unfold sign_byte; subst s; now destruct (z <? 0)).
  destruct (byte_of_top (Z.abs z) s (Z.of_nat t) ltac:(lia) ltac:(lia) ltac:(lia)) as (E & _).
  rewrite !le_bytes_snoc. rewrite app_nth2; rewrite le_bytes_length; [|lia]. rewrite Nat.sub_diag. cbn [nth].
  rewrite E. pose proof (set_at_end (le_bytes t (Z.abs z)) (byte_of (Z.abs z) (Z.of_nat t)) (Z.lor (byte_of (Z.abs z) (Z.of_nat t)) (s * 128))) as SE.
  rewrite le_bytes_length in SE. rewrite SE. f_equal.
  unfold le_bytes. apply map_ext_in. intros i Hi. apply in_seq in Hi. symmetry. apply byte_of_add; lia.
Qed.
Lemma ossl_serialize_correct z buf : ser_size z <= Z.of_nat (length buf) ->
  ossl_serialize z buf = Val (ser_bytes z ++ repeat 0 (length buf - Z.to_nat (ser_size z)), ser_size z).
Proof.
  intros H. destruct (ser_size_spec z) as (T0 & TB & TM). unfold ossl_serialize. fold (ser_size z). cbv zeta.
  destruct (Z.ltb_spec (Z.of_nat (length buf)) (ser_size z)); [lia|].
  unfold bn2pad. destruct (Z.ltb_spec (Z.of_nat (length buf)) (bn_num_bytes z)); [lia|]. cbn [bind in_order].
  replace (length buf) with (Z.to_nat (ser_size z) + (length buf - Z.to_nat (ser_size z)))%nat at 1 by lia.
  rewrite le_bytes_pad, or_sign; [reflexivity|]. rewrite Z2Nat.id by lia. split; [lia|].
  eapply Z.lt_le_trans; [exact TB|]. apply Z.pow_le_mono_r; lia.
Qed.
Lemma gmp_ser_size z : sizeinbase2 z / 8 + 1 = ser_size z.
Proof. unfold sizeinbase2, ser_size. destruct (Z.eqb_spec z 0) as [->|]; reflexivity. Qed.
Lemma skipn_set_at l i v n : (i < n)%nat -> skipn n (set_at l i v) = skipn n l.
Proof.
  revert i n. induction l as [|x l IH]; intros [|i] [|n] H; try lia; try reflexivity.
  cbn [set_at skipn]. apply IH. lia.
Qed.
Lemma skipn_set_at_here l i v : (i < length l)%nat -> skipn i (set_at l i v) = v :: skipn (S i) l.
Proof.
  revert i. induction l as [|x l IH]; intros [|i] H; cbn [length] in H; try lia; [reflexivity|].
  cbn [set_at]. change (skipn (S i) (x :: set_at l i v)) with (skipn i (set_at l i v)). rewrite IH by lia. reflexivity.
Qed.
Lemma gmp_serialize_correct z buf : ser_size z <= Z.of_nat (length buf) ->
  gmp_serialize z buf = Val (ser_bytes z ++ skipn (Z.to_nat (ser_size z)) buf, ser_size z).
Proof.
  intros H. destruct (ser_size_spec z) as (T0 & TB & TM). destruct (num_bytes_spec z) as (N0 & N1).
  unfold gmp_serialize. rewrite gmp_ser_size. cbv zeta.
  destruct (Z.ltb_spec (Z.of_nat (length buf)) (ser_size z)); [lia|].
  unfold store. destruct (Z.leb_spec 0 (ser_size z - 1)); [|lia].
  destruct (Z.ltb_spec (ser_size z - 1) (Z.of_nat (length buf))); [|lia]. cbn [andb bind].
  rewrite set_at_length, export_length, Z2Nat.id by lia.
  destruct (Z.ltb_spec (Z.of_nat (length buf)) (bn_num_bytes z)); [lia|].
  assert (negb ((ser_size z =? bn_num_bytes z) || (ser_size z =? bn_num_bytes z + 1)) = false) as ->.
  { apply negb_false_iff, orb_true_iff. destruct TM; [left|right]; now apply Z.eqb_eq. }
  assert (mpz_export z Little ++ skipn (Z.to_nat (bn_num_bytes z)) (set_at buf (Z.to_nat (ser_size z - 1)) 0)
          = le_bytes (Z.to_nat (ser_size z)) (Z.abs z) ++ skipn (Z.to_nat (ser_size z)) buf) as ->.
  { unfold mpz_export. cbn [in_order]. destruct TM as [E|E].
    - rewrite <- E. now rewrite skipn_set_at by lia.
    - rewrite E. replace (Z.to_nat (bn_num_bytes z + 1)) with (Z.to_nat (bn_num_bytes z) + 1)%nat by lia.
      rewrite le_bytes_pad by (rewrite Z2Nat.id by lia; lia). rewrite <- app_assoc. f_equal.
      replace (bn_num_bytes z + 1 - 1) with (bn_num_bytes z) by lia.
      rewrite skipn_set_at_here by lia. rewrite Nat.add_1_r. reflexivity. }
  rewrite or_sign. reflexivity.
Qed.
Lemma neg_sign a : wf a -> neg a = (value a <? 0).
Proof.
  intros W. destruct a as [b l]. unfold value. cbn [neg dp] in *. destruct W as (R & C & Z0). cbn [neg dp] in *.
  pose proof (V_nonneg l R). destruct b.
  - destruct (Z.ltb_spec (- V l) 0); [reflexivity|]. exfalso.
    assert (l = []) as -> by (apply V_zero; auto; lia). now specialize (Z0 eq_refl).
  - destruct (Z.ltb_spec (V l) 0); [lia|reflexivity].
Qed.
Lemma tom_serialize_correct a buf : wf a -> ser_size (value a) <= Z.of_nat (length buf) ->
  serialize a buf = Val (ser_bytes (value a) ++ skipn (Z.to_nat (ser_size (value a))) buf, ser_size (value a)).
Proof.
  intros W H. destruct (serialize_size_spec a W) as (_ & _ & _ & E). fold (ser_size (value a)) in E.
  rewrite serialize_correct by (try exact W; lia). rewrite E. unfold ser_bytes, sign_bit. rewrite (neg_sign a W). reflexivity.
Qed.
(** What every back end reads from a buffer *)
Definition decoded (buf : list Z) : Z :=
  (if 128 <=? last buf 0 then -1 else 1) * (le_value buf mod 2 ^ (8 * Z.of_nat (length buf) - 1)).
Lemma top_bit buf : buf <> [] -> bytes_ok buf ->
  Z.testbit (le_value buf) (8 * Z.of_nat (length buf) - 1) = (128 <=? last buf 0).
Proof.
  intros N F. rewrite (le_value_last buf N F).
  assert (0 < length buf)%nat by (destruct buf; [easy|cbn; lia]).
  assert (bytes_ok (removelast buf) /\ 0 <= last buf 0 < 256) as (F1 & F2).
  { unfold bytes_ok in *. rewrite (app_removelast_last 0 N) in F. apply Forall_app in F as [A B]. inversion B; subst. auto. }
  pose proof (le_value_bound _ F1) as B. 
  assert (Z.of_nat (length (removelast buf)) = Z.of_nat (length buf) - 1) as L.
  { rewrite (app_removelast_last 0 N) at 2. rewrite app_length. cbn. lia. }
  rewrite L in B. set (t := 8 * (Z.of_nat (length buf) - 1)) in *.
  replace (8 * Z.of_nat (length buf) - 1) with (7 + t) by lia. assert (0 <= t) by lia.
  rewrite <- Z.div_pow2_bits by lia. rewrite Z.mul_comm, Z.div_add, Z.div_small by lia. rewrite Z.add_0_l.
  clear - F2. set (c := last buf 0) in *. clearbody c.
  rewrite Z.testbit_eqb by lia. change (2 ^ 7) with 128.
  destruct (Z.leb_spec 128 c).
  - assert (c / 128 = 1) as -> by (symmetry; apply (Z.div_unique_pos c 128 1 (c - 128)); lia). reflexivity.
  - rewrite Z.div_small by lia. reflexivity.
Qed.
Lemma decode_value buf : buf <> [] -> bytes_ok buf ->
  (if Z.testbit (le_value buf) (8 * Z.of_nat (length buf) - 1)
   then - Z.clearbit (le_value buf) (8 * Z.of_nat (length buf) - 1) else le_value buf) = decoded buf.
Proof.
  intros N F. assert (0 < length buf)%nat by (destruct buf; [easy|cbn; lia]).
  pose proof (le_value_bound buf F) as B. pose proof (top_bit buf N F) as T. unfold decoded.
  set (n := 8 * Z.of_nat (length buf) - 1) in *. replace (8 * Z.of_nat (length buf)) with (n + 1) in B by lia.
  destruct (Z.testbit (le_value buf) n) eqn:E; rewrite <- T.
  - rewrite clearbit_top by lia. lia.
  - rewrite Z.mod_small; [lia|]. split; [lia|]. apply bits_lt_pow2; [lia|lia|]. intros k Hk.
    destruct (Z.eq_dec k n) as [->|]; [exact E|]. rewrite Z.testbit_eqb by lia. rewrite Z.div_small; [reflexivity|].
    split; [lia|]. eapply Z.lt_le_trans; [apply B|]. apply Z.pow_le_mono_r; lia.
Qed.
Lemma ossl_deserialize_correct buf : buf <> [] -> bytes_ok buf -> ossl_deserialize buf = Val (decoded buf).
Proof. intros N F. rewrite <- decode_value by assumption. unfold ossl_deserialize. now destruct buf. Qed.
Lemma gmp_deserialize_correct buf : buf <> [] -> bytes_ok buf -> gmp_deserialize buf = Val (decoded buf).
Proof.
  intros N F. rewrite <- decode_value by assumption. unfold gmp_deserialize. destruct buf as [|b t]; [easy|].
  now destruct (Z.testbit (le_value (b :: t)) (8 * Z.of_nat (length (b :: t)) - 1)).
Qed.
Lemma ser_bytes_length z : Z.of_nat (length (ser_bytes z)) = ser_size z.
Proof. destruct (ser_size_spec z). unfold ser_bytes. rewrite le_bytes_length. lia. Qed.
Lemma ser_bytes_ok z : bytes_ok (ser_bytes z). Proof. apply le_bytes_range. Qed.
Lemma ser_bytes_nonempty z : ser_bytes z <> [].
Proof. pose proof (ser_bytes_length z). destruct (ser_size_spec z). intros E. rewrite E in *. cbn in *. lia. Qed.
Lemma decoded_ser z : decoded (ser_bytes z) = z.
Proof.
  destruct (ser_size_spec z) as (T0 & TB & _).
  rewrite <- decode_value by (try apply ser_bytes_nonempty; apply ser_bytes_ok). rewrite ser_bytes_length.
  unfold ser_bytes. rewrite le_value_le_bytes, Z2Nat.id by lia. set (n := 8 * ser_size z - 1) in *.
  replace (8 * ser_size z) with (n + 1) by lia. assert (0 <= n) by lia. assert (0 < 2 ^ n) by (apply Z.pow_pos_nonneg; lia).
  assert (2 ^ (n + 1) = 2 * 2 ^ n) as P by (rewrite Z.pow_add_r by lia; change (2 ^ 1) with 2; ring).
  destruct (Z.ltb_spec z 0).
  - rewrite Z.mod_small by lia.
    assert (Z.testbit (Z.abs z + 1 * 2 ^ n) n = true) as ->.
    { rewrite Z.testbit_eqb by lia. rewrite Z.div_add, Z.div_small by lia. reflexivity. }
    rewrite clearbit_top by lia. rewrite Z.mod_add, Z.mod_small by lia. lia.
  - rewrite Z.mul_0_l, Z.add_0_r. rewrite Z.mod_small by lia.
    assert (Z.testbit (Z.abs z) n = false) as ->.
    { rewrite Z.testbit_eqb by lia. rewrite Z.div_small by lia. reflexivity. }
    lia.
Qed.

(** ** Quotients and remainders *)
Lemma ossl_div_tom a b : ossl_div a b = div a b.
Proof. unfold ossl_div, div, tm_div. destruct (Z.eqb_spec b 0); reflexivity. Qed.
Lemma rem_mod a b : b <> 0 ->
  a mod b = if ((Z.rem a b <? 0) && (0 <? b)) || ((0 <? Z.rem a b) && (b <? 0)) then Z.rem a b + b else Z.rem a b.
Proof.
  intros Hb. pose proof (Z.quot_rem' a b) as Q. pose proof (Z.rem_bound_abs a b Hb) as B. symmetry.
  destruct (Z.ltb_spec (Z.rem a b) 0), (Z.ltb_spec 0 b), (Z.ltb_spec 0 (Z.rem a b)), (Z.ltb_spec b 0); cbn [andb orb]; try lia;
    try (apply (Z.mod_unique a b (Z.quot a b - 1)); [lia|nia]); try (apply (Z.mod_unique a b (Z.quot a b)); [lia|nia]).
Qed.
Lemma nnmod_spec a m : m <> 0 -> bn_nnmod a m = Val (a mod Z.abs m).
Proof.
  intros Hm. unfold bn_nnmod. destruct (Z.eqb_spec m 0); [lia|]. f_equal.
  pose proof (Z.quot_rem' a m) as Q. pose proof (Z.rem_bound_abs a m Hm) as B.
  destruct (Z.ltb_spec (Z.rem a m) 0).
  - apply (Z.mod_unique_pos a (Z.abs m) (Z.sgn m * Z.quot a m - 1)); lia.
  - apply (Z.mod_unique_pos a (Z.abs m) (Z.sgn m * Z.quot a m)); lia.
Qed.
Lemma ossl_mod_spec a b : b <> 0 -> ossl_mod a b = Val (a mod b).
Proof.
  intros Hb. unfold ossl_mod. destruct (Z.eqb_spec b 0); [lia|]. destruct (Z.ltb_spec b 0).
  - f_equal. rewrite (rem_mod a b Hb).
    destruct (Z.ltb_spec (Z.rem a b) 0), (Z.ltb_spec 0 b), (Z.ltb_spec 0 (Z.rem a b)), (Z.ltb_spec b 0), (Z.eqb_spec (Z.rem a b) 0);
      cbn [andb orb negb]; lia.
  - rewrite nnmod_spec by lia. now rewrite Z.abs_eq by lia.
Qed.
Lemma ossl_div_u_tom a b : 0 <= b < 2 ^ 64 -> ossl_div_u a b = div a b.
Proof.
  intros Hb. unfold ossl_div_u. destruct (Z.eqb_spec b 0) as [->|N]; [reflexivity|].
  pose proof (tm_div_d_quot a b ltac:(lia)) as E. unfold tm_div_d in E. destruct (Z.eqb_spec b 0); [lia|].
  injection E as E1 E2. rewrite E1, E2. unfold div, tm_div. destruct (Z.eqb_spec b 0); [lia|]. cbn [bind]. f_equal.
  destruct (Z.eqb_spec (Z.abs (Z.rem a b)) 0), (Z.eqb_spec (Z.rem a b) 0); try lia; reflexivity.
Qed.
Lemma ossl_mod_u_spec a b : 0 < b -> ossl_mod_u a b = Val (a mod b).
Proof.
  intros Hb. unfold ossl_mod_u. destruct (Z.eqb_spec b 0); [lia|]. f_equal.
  pose proof (Z.div_mod (Z.abs a) b ltac:(lia)). pose proof (Z.mod_pos_bound (Z.abs a) b Hb).
  destruct (Z.ltb_spec a 0), (Z.eqb_spec (Z.abs a mod b) 0); cbn [andb negb].
  - apply (Z.mod_unique_pos a b (- (Z.abs a / b))); lia.
  - apply (Z.mod_unique_pos a b (- (Z.abs a / b) - 1)); lia.
  - apply (Z.mod_unique_pos a b (Z.abs a / b)); lia.
  - apply (Z.mod_unique_pos a b (Z.abs a / b)); lia.
Qed.
Lemma to_int_small n : 0 <= n <= int_max -> to_int n = n.
Proof. intros H. unfold to_int, int_max in *. rewrite Z.mod_small by lia. lia. Qed.
Lemma gmp_neg_bit a i : 0 <= i ->
  Z.land (Z.shiftr (Z.abs a / 2 ^ (64 * (i / 64)) mod 2 ^ 64) (i mod 64)) 1 = mag_bit a i.
Proof.
  intros Hi. pose proof (Z.div_mod i 64 ltac:(lia)). pose proof (Z.mod_pos_bound i 64 ltac:(lia)).
  assert (0 <= i / 64) by (apply Z.div_pos; lia).
  unfold mag_bit. change 1 with (Z.ones 1). rewrite ones_land by lia. change (2 ^ 1) with 2.
  rewrite <- Z.bit0_mod. rewrite Z.shiftr_spec by lia. rewrite Z.mod_pow2_bits_low by lia. rewrite Z.div_pow2_bits by lia.
  do 2 f_equal. lia.
Qed.
Lemma ossl_lcm_spec a b : a <> 0 \/ b <> 0 -> ossl_lcm a b = Val (Z.lcm a b).
Proof.
  intros H. pose proof (Z.gcd_nonneg a b) as G0. unfold ossl_lcm, ossl_div, gcd_k.
  destruct (Z.eqb_spec (Z.gcd a b) 0) as [E|E]; [apply Z.gcd_eq_0 in E; lia|]. cbn [bind].
  destruct (Z.gcd_divide_r a b) as [d D].
  assert (Z.quot (a * b) (Z.gcd a b) = a * d /\ Z.rem (a * b) (Z.gcd a b) = 0) as (-> & ->).
  { replace (a * b) with (a * d * Z.gcd a b) by (rewrite D at 2; ring). split; [apply Z.quot_mul|apply Z.rem_mul]; exact E. }
  cbn [Z.eqb negb]. rewrite andb_false_r. f_equal. unfold Z.lcm.
  assert (b / Z.gcd a b = d) as -> by (rewrite D at 1; now apply Z.div_mul).
  destruct (Z.ltb_spec (a * d) 0); lia.
Qed.
Lemma tom_lcm_spec a b : a <> 0 \/ b <> 0 -> tom_lcm a b = Val (Z.lcm a b).
Proof.
  intros H. unfold tom_lcm, tm_div, gcd_k.
  destruct (Z.eqb_spec (Z.gcd a b) 0) as [E|E]; [apply Z.gcd_eq_0 in E; lia|].
  destruct (Z.ltb_spec (Z.abs a) (Z.abs b)); cbn [bind]; f_equal.
  - rewrite Z.lcm_comm. unfold Z.lcm. rewrite (Z.gcd_comm b a). do 2 f_equal.
    destruct (Z.gcd_divide_l a b) as [d D].
    assert (Z.quot a (Z.gcd a b) = d) as -> by (rewrite D at 1; now apply Z.quot_mul).
    rewrite D at 1. symmetry. now apply Z.div_mul.
  - unfold Z.lcm. do 2 f_equal.
    destruct (Z.gcd_divide_r a b) as [d D].
    assert (Z.quot b (Z.gcd a b) = d) as -> by (rewrite D at 1; now apply Z.quot_mul).
    rewrite D at 1. symmetry. now apply Z.div_mul.
Qed.
