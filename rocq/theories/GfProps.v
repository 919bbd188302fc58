(** Properties C29, C30 and C31: the Galois fields GF(2^64) and GF(2^128). *)
From Coq Require Import List NArith Bool Lia Arith.
From Verif Require Import GfModel GfProof.
Import ListNotations.
Open Scope N_scope.

(** ** Specification *)
(** [p] is the product of [a] and [b] as polynomials over GF(2): the coefficient of
    X^k is the sum of a_i b_j over i + j = k. *)
Definition is_poly_product (a b p : N) : Prop := forall k : nat,
  N.testbit p (N.of_nat k) =
  fold_right xorb false (map (fun i => N.testbit a (N.of_nat i) && N.testbit b (N.of_nat (k - i))) (seq 0 (S k))).
(** [c] is a * b modulo X^n + m: it is reduced and differs from the product by a multiple. *)
Definition is_field_product (n m a b c : N) : Prop :=
  c < 2 ^ n /\ exists p q r, is_poly_product a b p /\ is_poly_product q (2 ^ n + m) r /\ N.lxor p c = r.
(** X^4 + X^3 + X + 1 and X^7 + X^2 + X + 1. *)
Definition tail64 : N := 2 ^ 4 + 2 ^ 3 + 2 ^ 1 + 2 ^ 0.
Definition tail128 : N := 2 ^ 7 + 2 ^ 2 + 2 ^ 1 + 2 ^ 0.
Definition word (n x : N) : Prop := x < 2 ^ n.
(** Sum in the field. *)
Definition sum (l : list N) : N := fold_right N.lxor 0 l.
(** x^k by repeated multiplication. *)
Definition power (mul : N -> N -> N) (x k : N) : N := N.iter k (mul x) 1.
(** A multiplication makes the n-bit words a field with xor as addition. *)
Definition is_field (n : N) (mul : N -> N -> N) : Prop :=
  (forall a b, word n a -> word n b -> word n (mul a b)) /\
  (forall a b, word n a -> word n b -> mul a b = mul b a) /\
  (forall a b c, word n a -> word n b -> word n c -> mul a (mul b c) = mul (mul a b) c) /\
  (forall a b c, word n a -> word n b -> word n c -> mul a (N.lxor b c) = N.lxor (mul a b) (mul a c)) /\
  (forall a, word n a -> mul 1 a = a) /\
  (forall a b, word n a -> word n b -> mul a b = 0 -> a = 0 \/ b = 0) /\
  (forall a, word n a -> a <> 0 -> exists b, word n b /\ mul a b = 1).

(** ** Helpers *)
Lemma product_ok a b : is_poly_product a b (cmul a b).
Proof. intros k. apply cmul_conv. Qed.
Lemma product_unique a b p : is_poly_product a b p -> p = cmul a b.
Proof. intros H. apply N.bits_inj. intros k. rewrite <- (N2Nat.id k), H. symmetry. apply product_ok. Qed.
Lemma P64 : N.lxor (2 ^ 64) 27 = 2 ^ 64 + tail64. Proof. reflexivity. Qed.
Lemma P128 : N.lxor (2 ^ 128) 135 = 2 ^ 128 + tail128. Proof. reflexivity. Qed.
Lemma deg64 : exists h, 27 < 2 ^ (h + 1) /\ 2 * h < 64 + 1. Proof. exists 4. split; reflexivity. Qed.
Lemma deg128 : exists h, 135 < 2 ^ (h + 1) /\ 2 * h < 128 + 1. Proof. exists 7. split; reflexivity. Qed.
Lemma lt64 : 27 < 2 ^ 64. Proof. reflexivity. Qed.
Lemma lt128 : 135 < 2 ^ 128. Proof. reflexivity. Qed.
Lemma one64 : 1 < 64. Proof. reflexivity. Qed.
Lemma one128 : 1 < 128. Proof. reflexivity. Qed.
Lemma word64_mul a b : word 64 a -> word 64 b -> word 64 (gf64_mul a b).
Proof. intros Ha Hb. rewrite gf64_mul_eq by auto. exact (mul_lt 64 27 lt64 one64 deg64 a b Ha Hb). Qed.
Lemma word128_mul a b : word 128 a -> word 128 b -> word 128 (gf128_mul a b).
Proof. intros Ha Hb. rewrite gf128_mul_eq by auto. exact (mul_lt 128 135 lt128 one128 deg128 a b Ha Hb). Qed.

(** ** C29 *)
Theorem gf64_mul_correct a b : word 64 a -> word 64 b -> is_field_product 64 tail64 a b (gf64_mul a b).
Proof.
  intros Ha Hb. split; [apply word64_mul; auto|]. rewrite gf64_mul_eq by auto.
  destruct (mul_cong 64 27 a b) as [q Hq]. rewrite P64 in Hq.
  exists (cmul a b), q, (cmul q (2 ^ 64 + tail64)). split; [apply product_ok|]. split; [apply product_ok|exact Hq].
Qed.
Theorem gf128_mul_correct a b : word 128 a -> word 128 b -> is_field_product 128 tail128 a b (gf128_mul a b).
Proof.
  intros Ha Hb. split; [apply word128_mul; auto|]. rewrite gf128_mul_eq by auto.
  destruct (mul_cong 128 135 a b) as [q Hq]. rewrite P128 in Hq.
  exists (cmul a b), q, (cmul q (2 ^ 128 + tail128)). split; [apply product_ok|]. split; [apply product_ok|exact Hq].
Qed.
(** The specification leaves no choice. *)
Theorem field_product_unique a b c d :
  (is_field_product 64 tail64 a b c -> is_field_product 64 tail64 a b d -> c = d) /\
  (is_field_product 128 tail128 a b c -> is_field_product 128 tail128 a b d -> c = d).
Proof.
  split; intros (Hc & p & q & r & Hp & Hr & E) (Hd & p' & q' & r' & Hp' & Hr' & E');
    apply product_unique in Hp, Hr, Hp', Hr'; subst p r p' r'.
  - rewrite <- P64 in E, E'. apply (cong_unique 64 27 lt64 one64); auto.
    apply (cong_trans 64 27 _ (cmul a b)); [apply cong_sym; exists q; exact E|exists q'; exact E'].
  - rewrite <- P128 in E, E'. apply (cong_unique 128 135 lt128 one128); auto.
    apply (cong_trans 128 135 _ (cmul a b)); [apply cong_sym; exists q; exact E|exists q'; exact E'].
Qed.
Theorem gf64_field : is_field 64 gf64_mul.
Proof.
  split; [exact word64_mul|]. split; [|split; [|split; [|split; [|split]]]].
  - intros a b Ha Hb. rewrite !gf64_mul_eq by auto. apply mul_comm.
  - intros a b c Ha Hb Hc. rewrite !gf64_mul_eq by (auto; rewrite <- ?gf64_mul_eq by auto; apply word64_mul; auto).
    exact (mul_assoc 64 27 lt64 one64 deg64 a b c Ha Hb Hc).
  - intros a b c Ha Hb Hc. rewrite !gf64_mul_eq by (auto; apply xor_lt; auto). apply mul_xor_r.
  - intros a Ha. rewrite gf64_mul_eq by (auto; reflexivity). apply mul_1_l. exact Ha.
  - intros a b Ha Hb. rewrite gf64_mul_eq by auto.
    exact (no_zero_divisors 64 27 lt64 one64 deg64 cert64 cert64_ok frob64_X a b Ha Hb).
  - intros a Ha Hn. exists (gpow 64 27 a (2 ^ 64 - 2)).
    assert (Hw : word 64 (gpow 64 27 a (2 ^ 64 - 2))) by exact (gpow_lt 64 27 lt64 one64 deg64 a _ Ha).
    split; [exact Hw|]. rewrite gf64_mul_eq by auto. exact (fermat 64 27 lt64 one64 deg64 cert64 cert64_ok frob64_X a Ha Hn).
Qed.
Theorem gf128_field : is_field 128 gf128_mul.
Proof.
  split; [exact word128_mul|]. split; [|split; [|split; [|split; [|split]]]].
  - intros a b Ha Hb. rewrite !gf128_mul_eq by auto. apply mul_comm.
  - intros a b c Ha Hb Hc. rewrite !gf128_mul_eq by (auto; rewrite <- ?gf128_mul_eq by auto; apply word128_mul; auto).
    exact (mul_assoc 128 135 lt128 one128 deg128 a b c Ha Hb Hc).
  - intros a b c Ha Hb Hc. rewrite !gf128_mul_eq by (auto; apply xor_lt; auto). apply mul_xor_r.
  - intros a Ha. rewrite gf128_mul_eq by (auto; reflexivity). apply mul_1_l. exact Ha.
  - intros a b Ha Hb. rewrite gf128_mul_eq by auto.
    exact (no_zero_divisors 128 135 lt128 one128 deg128 cert128 cert128_ok frob128_X a b Ha Hb).
  - intros a Ha Hn. exists (gpow 128 135 a (2 ^ 128 - 2)).
    assert (Hw : word 128 (gpow 128 135 a (2 ^ 128 - 2))) by exact (gpow_lt 128 135 lt128 one128 deg128 a _ Ha).
    split; [exact Hw|]. rewrite gf128_mul_eq by auto. exact (fermat 128 135 lt128 one128 deg128 cert128 cert128_ok frob128_X a Ha Hn).
Qed.
Print Assumptions gf64_field.
Print Assumptions gf128_field.
Example gf64_concrete : gf64_mul (2 ^ 63) 2 = 27 /\ gf64_mul 0x123456789abcdef0 0xfedcba9876543210 <> 0.
Proof. split; vm_compute; [reflexivity|discriminate]. Qed.
Example gf128_concrete : gf128_mul (2 ^ 127) 2 = 135 /\ gf128_mul (2 ^ 127) (2 ^ 127) <> 0.
Proof. split; vm_compute; [reflexivity|discriminate]. Qed.

(** The vector forms return the inner product. *)
Lemma combine_words n x y : Forall (word n) x -> Forall (word n) y -> Forall (fun p => word n (fst p) /\ word n (snd p)) (combine x y).
Proof.
  intros Hx. revert y. induction Hx as [|a x Ha Hx IH]; intros y Hy; [constructor|]. destruct Hy as [|b y Hb Hy]; [constructor|].
  cbn [combine]. constructor; auto.
Qed.
Lemma red_sum n m l : 1 < n -> m < 2 ^ n -> red n m (sum (map (fun p => cmul (fst p) (snd p)) l)) = sum (map (fun p => mul n m (fst p) (snd p)) l).
Proof.
  intros Hn Hm. induction l as [|[a b] l IH]; cbn [map sum fold_right fst snd].
  - apply red_small. apply N.neq_0_lt_0. apply N.pow_nonzero. lia.
  - fold (sum (map (fun p => cmul (fst p) (snd p)) l)). rewrite red_xor, IH. reflexivity.
Qed.
Lemma fold_clmul128 l : Forall (fun p => word 128 (fst p) /\ word 128 (snd p)) l -> forall h0 l0,
  fold_left (fun r p => let '(h, l) := gf128_clmul (fst p) (snd p) in (N.lxor (fst r) h, N.lxor (snd r) l)) l (h0, l0)
  = let s := sum (map (fun p => cmul (fst p) (snd p)) l) in (N.lxor h0 (N.shiftr s 128), N.lxor l0 (N.land s (N.ones 128))).
Proof.
  intros H. induction H as [|[a b] l [Ha Hb] Hl IH]; intros h0 l0; cbn zeta.
  - cbn [fold_left map sum fold_right]. rewrite N.shiftr_0_l, N.land_0_l, !N.lxor_0_r. reflexivity.
  - cbn [fold_left map sum fold_right fst snd] in *. rewrite split128 by auto. rewrite IH. cbn zeta. fold (sum (map (fun p => cmul (fst p) (snd p)) l)).
    rewrite N.shiftr_lxor, land_xor, !N.lxor_assoc. reflexivity.
Qed.
Lemma sum_lt n l : Forall (fun x => x < 2 ^ n) l -> sum l < 2 ^ n.
Proof. intros H. induction H; cbn [sum fold_right]; [apply N.neq_0_lt_0; apply N.pow_nonzero; lia|]. apply xor_lt; auto. Qed.
Lemma map_cmul_lt n l : 1 < n -> Forall (fun p => word n (fst p) /\ word n (snd p)) l -> Forall (fun x => x < 2 ^ (2 * n)) (map (fun p => cmul (fst p) (snd p)) l).
Proof. intros Hn H. induction H as [|p l [Ha Hb] Hl IH]; cbn [map]; constructor; auto. apply cmul_bound; auto. Qed.
Theorem gf128_span_correct x y : Forall (word 128) x -> Forall (word 128) y ->
  gf128_mul_span x y = (if Nat.eqb (length x) (length y) then Some (sum (map (fun p => gf128_mul (fst p) (snd p)) (combine x y))) else None).
Proof.
  intros Hx Hy. unfold gf128_mul_span. destruct (Nat.eqb (length x) (length y)); auto. pose proof (combine_words 128 x y Hx Hy) as HC.
  unfold gf128_clmul_span. rewrite fold_clmul128 by auto. cbn zeta. rewrite !N.lxor_0_l. f_equal.
  set (s := sum (map (fun p => cmul (fst p) (snd p)) (combine x y))).
  assert (Hs : s < 2 ^ (2 * 128)) by (apply sum_lt; apply map_cmul_lt; auto; reflexivity).
  rewrite (gf128_reduce_red s); [|apply shiftr_lt; exact Hs|apply land_ones_lt|apply split_hi].
  unfold s. rewrite red_sum by reflexivity. f_equal. apply map_ext_in. intros p Hp. rewrite Forall_forall in HC. destruct (HC p Hp). symmetry. apply gf128_mul_eq; auto.
Qed.
Lemma block2_halves h l : word 64 h -> word 64 l -> lo64 (block2 h l) = l /\ hi64 (block2 h l) = h.
Proof.
  intros Hh Hl. unfold block2, lo64, hi64, lo64.
  assert (E : N.lor (N.shiftl h 64) l = N.lxor l (N.shiftl h 64)).
  { apply N.bits_inj. intros i. rewrite N.lor_spec, N.lxor_spec. destruct (N.lt_ge_cases i 64).
    - rewrite N.shiftl_spec_low by auto. cbn. rewrite xorb_false_r. reflexivity.
    - rewrite <- (small_land l 64 Hl), N.land_spec, N.ones_spec_high by auto. rewrite andb_false_r, orb_false_r, xorb_false_l. reflexivity. }
  rewrite E. split.
  - rewrite land_xor, (small_land l) by auto. replace (N.land (N.shiftl h 64) (N.ones 64)) with 0; [apply N.lxor_0_r|].
    symmetry. rewrite N.land_ones, N.shiftl_mul_pow2. apply N.mod_mul. discriminate.
  - rewrite N.shiftr_lxor, small_shiftr by auto. rewrite N.lxor_0_l, N.shiftr_shiftl_l by lia. change (64 - 64) with 0. rewrite N.shiftl_0_r. apply small_land. auto.
Qed.
Lemma span64 : forall k x y r, (length x <= k)%nat -> length x = length y -> Forall (word 64) x -> Forall (word 64) y ->
  gf64_clmul_span x y r = N.lxor r (sum (map (fun p => cmul (fst p) (snd p)) (combine x y))).
Proof.
  induction k as [|k IH]; intros x y r Hk Hl Hx Hy.
  - destruct x; [|cbn in Hk; lia]. cbn. symmetry. apply N.lxor_0_r.
  - destruct x as [|x0 [|x1 x]].
    + cbn. symmetry. apply N.lxor_0_r.
    + destruct y as [|y0 [|y1 y]]; try discriminate. inversion_clear Hx. inversion_clear Hy.
      cbn [gf64_clmul_span combine map sum fold_right fst snd]. rewrite N.lxor_0_r. unfold gf64_clmul, clmul00. rewrite !lo64_small by auto. reflexivity.
    + destruct y as [|y0 [|y1 y]]; try discriminate. inversion_clear Hx as [|? ? X0 Hx']. inversion_clear Hx' as [|? ? X1 X].
      inversion_clear Hy as [|? ? Y0 Hy']. inversion_clear Hy' as [|? ? Y1 Y].
      cbn [gf64_clmul_span combine map sum fold_right fst snd]. rewrite IH by (cbn in Hk, Hl; first [assumption|lia]).
      unfold clmul00, clmul11. destruct (block2_halves x1 x0 X1 X0) as [-> ->], (block2_halves y1 y0 Y1 Y0) as [-> ->].
      fold (sum (map (fun p => cmul (fst p) (snd p)) (combine x y))). rewrite !N.lxor_assoc. reflexivity.
Qed.
Theorem gf64_span_correct x y : Forall (word 64) x -> Forall (word 64) y ->
  gf64_mul_span x y = (if Nat.eqb (length x) (length y) then Some (sum (map (fun p => gf64_mul (fst p) (snd p)) (combine x y))) else None).
Proof.
  intros Hx Hy. unfold gf64_mul_span. destruct (Nat.eqb_spec (length x) (length y)) as [El|]; auto. pose proof (combine_words 64 x y Hx Hy) as HC.
  rewrite (span64 (length x)) by auto. rewrite N.lxor_0_l. f_equal.
  set (s := sum (map (fun p => cmul (fst p) (snd p)) (combine x y))).
  assert (Hs : s < 2 ^ (2 * 64)) by (apply sum_lt; apply map_cmul_lt; auto; reflexivity).
  rewrite gf64_reduce_red by exact Hs.
  unfold s. rewrite red_sum by reflexivity. f_equal. apply map_ext_in. intros p Hp. rewrite Forall_forall in HC. destruct (HC p Hp). symmetry. apply gf64_mul_eq; auto.
Qed.
(** Packing bits: bit i of the result is the i-th element. *)
Definition is_bit (b : N) : Prop := b = 0 \/ b = 1.
Lemma basis_from n : forall k, combine (repeat 0 0) [] = (@nil (N * N)) /\ firstn k (basis n) = map (fun i => N.shiftl 1 (N.of_nat i)) (seq 0 (Nat.min k n)).
Proof.
  intros k. split; auto. unfold basis. rewrite firstn_map. f_equal.
  generalize 0%nat. revert k. induction n as [|n IH]; intros k s; [rewrite Nat.min_0_r; destruct k; auto|].
  destruct k as [|k]; cbn; auto. f_equal. apply IH.
Qed.
Lemma mul_bit n m b i : 1 < n -> m < 2 ^ n -> is_bit b -> (N.of_nat i < n) -> mul n m b (N.shiftl 1 (N.of_nat i)) = b * 2 ^ N.of_nat i.
Proof.
  intros Hn Hm Hb Hi. assert (Hlt : 2 ^ N.of_nat i < 2 ^ n) by (apply N.pow_lt_mono_r; lia). rewrite N.shiftl_1_l.
  destruct Hb as [->| ->]; [apply mul_0_l; auto|]. rewrite mul_1_l by auto. lia.
Qed.
Lemma sum_bits (d : list N) : Forall is_bit d -> forall s j,
  N.testbit (sum (map (fun p => fst p * 2 ^ N.of_nat (snd p)) (combine d (seq s (length d))))) (N.of_nat j)
  = if (Nat.leb s j && Nat.ltb j (s + length d))%bool then N.testbit (nth (j - s) d 0) 0 else false.
Proof.
  intros H. induction H as [|b d Hb Hd IH]; intros s j; cbn [length seq combine map sum fold_right fst snd].
  - rewrite N.bits_0. destruct (Nat.leb_spec s j), (Nat.ltb_spec j (s + 0)); cbn [andb]; auto; lia.
  - fold (sum (map (fun p => fst p * 2 ^ N.of_nat (snd p)) (combine d (seq (S s) (length d))))). rewrite N.lxor_spec, IH.
    assert (E : N.testbit (b * 2 ^ N.of_nat s) (N.of_nat j) = (Nat.eqb s j && N.testbit b 0)%bool).
    { destruct Hb as [->| ->]; [rewrite N.mul_0_l, !N.bits_0, andb_false_r; reflexivity|]. rewrite N.mul_1_l, N.pow2_bits_eqb, andb_true_r.
      destruct (Nat.eqb_spec s j) as [->|]; [apply N.eqb_refl|apply N.eqb_neq; lia]. }
    rewrite E. destruct (Nat.eqb_spec s j) as [->|Hn]; cbn [andb].
    + rewrite Nat.leb_refl, Nat.sub_diag. destruct (Nat.leb_spec (S j) j); [lia|]. destruct (Nat.ltb_spec j (j + S (length d))); [|lia].
      cbn [andb nth]. apply xorb_false_r.
    + rewrite xorb_false_l. destruct (Nat.leb_spec (S s) j), (Nat.leb_spec s j); cbn [andb]; try lia; auto.
      replace (s + S (length d))%nat with (S s + length d)%nat by lia. destruct (Nat.ltb_spec j (S s + length d)); auto.
      replace (j - s)%nat with (S (j - S s)) by lia. reflexivity.
Qed.
Definition packs_bits (d : list N) (r : N) : Prop := forall j : nat, N.testbit r (N.of_nat j) = N.testbit (nth j d 0) 0.
Lemma sum_packs d : Forall is_bit d -> packs_bits d (sum (map (fun p => fst p * 2 ^ N.of_nat (snd p)) (combine d (seq 0 (length d))))).
Proof.
  intros H j. rewrite sum_bits by auto. cbn [Nat.leb andb Nat.add]. rewrite Nat.sub_0_r. destruct (Nat.ltb_spec j (length d)); auto.
  rewrite nth_overflow by auto. reflexivity.
Qed.
Lemma combine_map_r {A B C} (f : B -> C) (l : list A) : forall l', combine l (map f l') = map (fun p => (fst p, f (snd p))) (combine l l').
Proof. induction l as [|a l IH]; intros [|b l']; cbn; auto. f_equal. auto. Qed.
Theorem gf_pack_correct d : Forall is_bit d ->
  ((length d <= 64)%nat -> exists r, gf64_pack d = Some r /\ packs_bits d r) /\
  ((length d <= 128)%nat -> exists r, gf128_pack d = Some r /\ packs_bits d r).
Proof.
  intros Hd. assert (Hw : forall n, 1 < n -> Forall (word n) d).
  { intros n Hn. eapply Forall_impl; [|exact Hd]. intros b [->| ->]; unfold word; [apply N.neq_0_lt_0; apply N.pow_nonzero; lia|].
    change 1 with (2 ^ 0). apply N.pow_lt_mono_r; lia. }
  assert (Hb : forall n : nat, (length d <= n)%nat -> Forall (word (N.of_nat n)) (firstn (length d) (basis n)) /\ length (firstn (length d) (basis n)) = length d).
  { intros n Hn. rewrite (proj2 (basis_from n (length d))), Nat.min_l by auto. split; [|rewrite map_length, seq_length; auto].
    apply Forall_forall. intros w Hwi. apply in_map_iff in Hwi as (i & <- & Hi). apply in_seq in Hi. rewrite N.shiftl_1_l. apply N.pow_lt_mono_r; lia. }
  split; intros Hl.
  - unfold gf64_pack. destruct (Nat.leb_spec (length d) 64); [|lia]. destruct (Hb 64%nat Hl) as [B1 B2].
    rewrite gf64_span_correct; [|apply Hw; reflexivity|exact B1]. rewrite B2, Nat.eqb_refl. eexists. split; [reflexivity|].
    rewrite (proj2 (basis_from 64 (length d))), Nat.min_l, combine_map_r, map_map by auto. cbn [fst snd].
    rewrite (map_ext_in _ (fun p => fst p * 2 ^ N.of_nat (snd p))); [apply sum_packs; auto|].
    intros [b i] Hin. cbn [fst snd]. assert (Hi : (i < 64)%nat) by (apply in_combine_r in Hin; apply in_seq in Hin; lia).
    assert (Hbit : is_bit b) by (apply in_combine_l in Hin; rewrite Forall_forall in Hd; auto).
    rewrite gf64_mul_eq; [apply mul_bit; [reflexivity|reflexivity|exact Hbit|lia]| |rewrite N.shiftl_1_l; apply N.pow_lt_mono_r; lia].
    destruct Hbit as [->| ->]; reflexivity.
  - unfold gf128_pack. destruct (Nat.leb_spec (length d) 128); [|lia]. destruct (Hb 128%nat Hl) as [B1 B2].
    rewrite gf128_span_correct; [|apply Hw; reflexivity|exact B1]. rewrite B2, Nat.eqb_refl. eexists. split; [reflexivity|].
    rewrite (proj2 (basis_from 128 (length d))), Nat.min_l, combine_map_r, map_map by auto. cbn [fst snd].
    rewrite (map_ext_in _ (fun p => fst p * 2 ^ N.of_nat (snd p))); [apply sum_packs; auto|].
    intros [b i] Hin. cbn [fst snd]. assert (Hi : (i < 128)%nat) by (apply in_combine_r in Hin; apply in_seq in Hin; lia).
    assert (Hbit : is_bit b) by (apply in_combine_l in Hin; rewrite Forall_forall in Hd; auto).
    rewrite gf128_mul_eq; [apply mul_bit; [reflexivity|reflexivity|exact Hbit|lia]| |rewrite N.shiftl_1_l; apply N.pow_lt_mono_r; lia].
    destruct Hbit as [->| ->]; reflexivity.
Qed.
Print Assumptions gf_pack_correct.
Example pack_concrete : gf64_pack [1; 0; 1; 1] = Some 13 /\ Forall is_bit [1; 0; 1; 1].
Proof. split; [vm_compute; reflexivity|]. repeat (apply Forall_cons; [unfold is_bit; auto|]); apply Forall_nil. Qed.

(** ** C30 *)
Lemma field_pow n mu : is_field n mu -> 1 < n -> forall x j k, word n x -> pow mu x (j + k) = mu (pow mu x j) (pow mu x k).
Proof.
  intros (F1 & F2 & F3 & F4 & F5 & _) Hn x j k Hx. apply (pow_add mu (word n)); auto. change 1 with (2 ^ 0). apply N.pow_lt_mono_r; lia.
Qed.
Lemma pow64_gpow x k : word 64 x -> pow gf64_mul x k = gpow 64 27 x k /\ word 64 (pow gf64_mul x k).
Proof.
  intros Hx. induction k as [|k [IH1 IH2]] using N.peano_ind; [split; reflexivity|].
  rewrite pow_succ, gpow_succ. split; [rewrite gf64_mul_eq by auto; rewrite IH1; reflexivity|]. apply word64_mul; auto.
Qed.
Theorem gf64_inv_correct u1 u2 x : word 64 x -> x <> 0 ->
  word 64 (gf64_inv u1 u2 x) /\ gf64_mul x (gf64_inv u1 u2 x) = 1 /\ gf64_mul (gf64_inv u1 u2 x) x = 1.
Proof.
  intros Hx Hn. pose proof gf64_field as (F1 & F2 & F3 & F4 & F5 & _).
  assert (E : gf64_inv u1 u2 x = pow gf64_mul x (2 ^ 64 - 2)).
  { pose proof (run_repr gf64_mul (word 64) F1 F3 ltac:(reflexivity) F5 x inv_prog Hx (x, u1, u2) (Some 1, None, None)) as K.
    specialize (K ltac:(intros [|[|i]]; cbn [reg repr]; auto; symmetry; apply (pow_one gf64_mul (word 64)); auto; reflexivity) 0%nat).
    assert (Er : reg (run_prog oadd inv_prog (Some 1, None, None)) 0%nat = Some (2 ^ 64 - 2)) by (vm_compute; reflexivity).
    rewrite Er in K. exact K. }
  destruct (pow64_gpow x (2 ^ 64 - 2) Hx) as [E1 E2]. rewrite E.
  assert (E3 : gf64_mul x (pow gf64_mul x (2 ^ 64 - 2)) = 1).
  { rewrite gf64_mul_eq by auto. rewrite E1. exact (fermat 64 27 lt64 one64 deg64 cert64 cert64_ok frob64_X x Hx Hn). }
  split; [exact E2|]. split; [exact E3|]. rewrite F2 by auto. exact E3.
Qed.
Print Assumptions gf64_inv_correct.
Example inv_concrete : gf64_inv 5 7 2 = 0x800000000000000d.
Proof. vm_compute. reflexivity. Qed.

(** ** C31 *)
Definition indexed (d : list N) : list (nat * N) := combine (seq 0 (length d)) d.
(** sum of d[i] * seed^(i+1). *)
Definition hash_spec (mul : N -> N -> N) (seed : N) (d : list N) : N :=
  sum (map (fun p => mul (snd p) (power mul seed (N.of_nat (fst p) + 1))) (indexed d)).
Lemma terms_spec mu s d : xsum (terms mu s 1 d) = hash_spec mu s d.
Proof.
  unfold xsum, terms, hash_spec, sum, indexed. f_equal. rewrite <- seq_shift.
  assert (E : forall (l : list nat) (d : list N), combine (map S l) d = map (fun p => (S (fst p), snd p)) (combine l d)).
  { induction l as [|a l IH]; intros [|b d']; cbn; auto. f_equal. auto. }
  rewrite E, map_map. apply map_ext. intros [i b]. cbn [fst snd]. unfold pow, power. rewrite Nat2N.inj_succ, N.add_1_r. reflexivity.
Qed.
Section Hash.
  Variables (n : N) (mu : N -> N -> N).
  Hypothesis Hn : 1 < n.
  Hypothesis HF : is_field n mu.
  Lemma w1 : word n 1. Proof. change 1 with (2 ^ 0). apply N.pow_lt_mono_r; lia. Qed.
  Lemma w0 : word n 0. Proof. apply N.neq_0_lt_0. apply N.pow_nonzero. lia. Qed.
  Lemma hash_sum s d : word n s -> Forall (word n) d -> universal_hash mu s d = hash_spec mu s d.
  Proof.
    destruct HF as (F1 & F2 & F3 & F4 & F5 & _). intros Hs Hd. rewrite <- terms_spec.
    apply (uh_spec mu (word n)); auto using w1, w0. intros; apply xor_lt; auto.
  Qed.
  Lemma hash_linear s d e : word n s -> length d = length e -> Forall (word n) d -> Forall (word n) e ->
    universal_hash mu s (map (fun p => N.lxor (fst p) (snd p)) (combine d e)) = N.lxor (universal_hash mu s d) (universal_hash mu s e).
  Proof.
    destruct HF as (F1 & F2 & F3 & F4 & F5 & _). intros. apply (uh_xor mu (word n)); auto using w1, w0. intros; apply xor_lt; auto.
  Qed.
  Lemma extract_ok s idxs : word n s -> (forall i, In i idxs -> i <= last idxs 0) -> 2 <= last idxs 0 <= 2 ^ 63 ->
    extract_hash_coef mu s idxs = Some (map (fun i => power mu s (i + 1)) idxs).
  Proof. destruct HF as (F1 & F2 & F3 & F4 & F5 & _). intros. apply (extract_spec mu (word n)); auto using w1. Qed.
End Hash.
Theorem universal_hash_correct :
  (forall s d, word 64 s -> Forall (word 64) d -> universal_hash gf64_mul s d = hash_spec gf64_mul s d) /\
  (forall s d, word 128 s -> Forall (word 128) d -> universal_hash gf128_mul s d = hash_spec gf128_mul s d).
Proof.
  split; intros s d Hs Hd; [exact (hash_sum 64 gf64_mul one64 gf64_field s d Hs Hd)|exact (hash_sum 128 gf128_mul one128 gf128_field s d Hs Hd)].
Qed.
Theorem universal_hash_linear :
  (forall s d e, word 64 s -> length d = length e -> Forall (word 64) d -> Forall (word 64) e ->
     universal_hash gf64_mul s (map (fun p => N.lxor (fst p) (snd p)) (combine d e)) = N.lxor (universal_hash gf64_mul s d) (universal_hash gf64_mul s e)) /\
  (forall s d e, word 128 s -> length d = length e -> Forall (word 128) d -> Forall (word 128) e ->
     universal_hash gf128_mul s (map (fun p => N.lxor (fst p) (snd p)) (combine d e)) = N.lxor (universal_hash gf128_mul s d) (universal_hash gf128_mul s e)).
Proof.
  split; intros s d e; [exact (hash_linear 64 gf64_mul one64 gf64_field s d e)|exact (hash_linear 128 gf128_mul one128 gf128_field s d e)].
Qed.
(** ExtractHashCoef is right whenever no index exceeds the last one and the last one
    is at least 2 and at most 2^63. *)
Theorem extract_hash_coef_partial :
  (forall s idxs, word 64 s -> (forall i, In i idxs -> i <= last idxs 0) -> 2 <= last idxs 0 <= 2 ^ 63 ->
     extract_hash_coef gf64_mul s idxs = Some (map (fun i => power gf64_mul s (i + 1)) idxs)) /\
  (forall s idxs, word 128 s -> (forall i, In i idxs -> i <= last idxs 0) -> 2 <= last idxs 0 <= 2 ^ 63 ->
     extract_hash_coef gf128_mul s idxs = Some (map (fun i => power gf128_mul s (i + 1)) idxs)).
Proof.
  split; intros s idxs; [exact (extract_ok 64 gf64_mul one64 gf64_field s idxs)|exact (extract_ok 128 gf128_mul one128 gf128_field s idxs)].
Qed.
Example extract_concrete : extract_hash_coef gf64_mul 2 [0; 3; 4] = Some [2; 16; 32] /\ last [0; 3; 4] 0 = 4.
Proof. split; vm_compute; reflexivity. Qed.
(** It is wrong when the last index is 1: the coefficient of index 1 is 0, not seed^2;
    and it throws when the only index is 0, and when the last index exceeds 2^63 it
    writes past its 64-entry table. *)
Theorem extract_hash_coef_refuted :
  exists s idxs, word 64 s /\ idxs = [0; 1] /\
    extract_hash_coef gf64_mul s idxs = Some [2; 0] /\ map (fun i => power gf64_mul s (i + 1)) idxs = [2; 4] /\
    extract_hash_coef gf64_mul s [0] = None /\ extract_hash_coef gf64_mul s [2 ^ 63 + 1] = None.
Proof.
  exists 2, [0; 1]. split; [reflexivity|]. split; [reflexivity|]. split; [vm_compute; reflexivity|]. split; [vm_compute; reflexivity|].
  split; vm_compute; reflexivity.
Qed.
Print Assumptions universal_hash_correct.
Print Assumptions extract_hash_coef_partial.
