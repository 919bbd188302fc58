From Coq Require Import List NArith Bool Lia Arith.
From Verif Require Import GfModel.
Import ListNotations.
Open Scope N_scope.

(** * Polynomials over GF(2): lxor is addition, cmul is multiplication *)
Lemma double_xor a b : 2 * N.lxor a b = N.lxor (2 * a) (2 * b).
Proof. destruct a as [|a], b as [|b]; reflexivity. Qed.
Lemma succ_double_xor a : 2 * a + 1 = N.lxor (2 * a) 1.
Proof. destruct a; reflexivity. Qed.
Lemma xor_acb a b c : N.lxor a (N.lxor b c) = N.lxor b (N.lxor a c).
Proof. rewrite <- !N.lxor_assoc, (N.lxor_comm a b). reflexivity. Qed.
Lemma xor_cancel a b : N.lxor a (N.lxor a b) = b.
Proof. rewrite <- N.lxor_assoc, N.lxor_nilpotent. apply N.lxor_0_l. Qed.
Lemma xor_4 a b c d : N.lxor (N.lxor a b) (N.lxor c d) = N.lxor (N.lxor a c) (N.lxor b d).
Proof. rewrite !N.lxor_assoc. f_equal. apply xor_acb. Qed.

Lemma cmul_0_l b : cmul 0 b = 0.
Proof. reflexivity. Qed.
Lemma cmul_1_l b : cmul 1 b = b.
Proof. reflexivity. Qed.
Lemma cmul_double_l a b : cmul (2 * a) b = 2 * cmul a b.
Proof. destruct a; reflexivity. Qed.
Lemma cmul_succ_l a b : cmul (2 * a + 1) b = N.lxor b (2 * cmul a b).
Proof. destruct a; cbn [cmul]. - cbn. rewrite N.lxor_0_r. reflexivity. - reflexivity. Qed.
(** Induction on the bits of a polynomial. *)
Lemma bits_ind (P : N -> Prop) : P 0 -> (forall a, P a -> P (2 * a)) -> (forall a, P a -> P (2 * a + 1)) -> forall a, P a.
Proof.
  intros H0 Hd Hs [|p]; auto. induction p as [p IH|p IH|].
  - apply (Hs (Npos p)); auto.
  - apply (Hd (Npos p)); auto.
  - apply (Hs 0); auto.
Qed.
Lemma cmul_0_r a : cmul a 0 = 0.
Proof. induction a as [|a IH|a IH] using bits_ind; rewrite ?cmul_double_l, ?cmul_succ_l, ?IH; reflexivity. Qed.
Lemma cmul_1_r a : cmul a 1 = a.
Proof.
  induction a as [|a IH|a IH] using bits_ind; rewrite ?cmul_double_l, ?cmul_succ_l, ?IH; auto.
  rewrite succ_double_xor. apply N.lxor_comm.
Qed.
Lemma cmul_xor_r a b c : cmul a (N.lxor b c) = N.lxor (cmul a b) (cmul a c).
Proof.
  induction a as [|a IH|a IH] using bits_ind; rewrite ?cmul_double_l, ?cmul_succ_l, ?IH, ?double_xor; auto.
  apply xor_4.
Qed.
Lemma cmul_double_r a b : cmul a (2 * b) = 2 * cmul a b.
Proof. induction a as [|a IH|a IH] using bits_ind; rewrite ?cmul_double_l, ?cmul_succ_l, ?IH, ?double_xor; auto. Qed.
Lemma cmul_comm a b : cmul a b = cmul b a.
Proof.
  induction a as [|a IH|a IH] using bits_ind.
  - rewrite cmul_0_r. reflexivity.
  - rewrite cmul_double_l, cmul_double_r, IH. reflexivity.
  - rewrite cmul_succ_l, succ_double_xor, cmul_xor_r, cmul_1_r, cmul_double_r, IH. apply N.lxor_comm.
Qed.
Lemma cmul_xor_l a b c : cmul (N.lxor a b) c = N.lxor (cmul a c) (cmul b c).
Proof. rewrite cmul_comm, cmul_xor_r, (cmul_comm c a), (cmul_comm c b). reflexivity. Qed.
Lemma cmul_assoc a b c : cmul a (cmul b c) = cmul (cmul a b) c.
Proof.
  induction a as [|a IH|a IH] using bits_ind; auto.
  - rewrite !cmul_double_l, IH. reflexivity.
  - rewrite !cmul_succ_l, cmul_xor_l, cmul_double_l, IH. reflexivity.
Qed.
Lemma shiftl_double b n : N.shiftl b (N.succ n) = 2 * N.shiftl b n.
Proof. rewrite N.shiftl_succ_r. apply N.double_spec. Qed.
Lemma cmul_shiftl a b n : cmul a (N.shiftl b n) = N.shiftl (cmul a b) n.
Proof. induction n as [|n IH] using N.peano_ind; [rewrite !N.shiftl_0_r; auto|]. rewrite !shiftl_double, cmul_double_r, IH. reflexivity. Qed.
Lemma cmul_pow2 a n : cmul a (2 ^ n) = N.shiftl a n.
Proof. rewrite <- N.shiftl_1_l, cmul_shiftl, cmul_1_r. reflexivity. Qed.

(** The coefficients are those of the product of polynomials. *)
Definition conv (a b : N) (k : nat) : bool :=
  fold_right xorb false (map (fun i => N.testbit a (N.of_nat i) && N.testbit b (N.of_nat (k - i))) (seq 0 (S k))).
Lemma fold_xor_double (f : nat -> bool) : forall n s, fold_right xorb false (map f (map S (seq s n))) = fold_right xorb false (map (fun i => f (S i)) (seq s n)).
Proof. intros n s. rewrite map_map. reflexivity. Qed.
Lemma fold_xor_ext (f g : nat -> bool) l : (forall i, In i l -> f i = g i) -> fold_right xorb false (map f l) = fold_right xorb false (map g l).
Proof. intros H. f_equal. apply map_ext_in. auto. Qed.
Lemma fold_xor_false (f : nat -> bool) l : (forall i, In i l -> f i = false) -> fold_right xorb false (map f l) = false.
Proof. induction l as [|x l IH]; intros H; cbn [map fold_right]; auto. rewrite H, IH; auto. - intros; apply H; right; auto. - left; auto. Qed.
Lemma testbit_double_S a i : N.testbit (2 * a) (N.of_nat (S i)) = N.testbit a (N.of_nat i).
Proof. rewrite Nat2N.inj_succ. apply N.double_bits_succ. Qed.
Lemma testbit_double_0 a : N.testbit (2 * a) 0 = false.
Proof. apply N.testbit_even_0. Qed.
Lemma conv_double a b k : conv (2 * a) b (S k) = conv a b k.
Proof.
  unfold conv. change (seq 0 (S (S k))) with (0%nat :: seq 1 (S k)).
  cbn [map fold_right N.of_nat]. rewrite testbit_double_0. cbn [andb]. rewrite xorb_false_l.
  rewrite <- seq_shift, map_map. apply fold_xor_ext. intros i Hi. rewrite testbit_double_S. reflexivity.
Qed.
Lemma cmul_conv a b : forall k, N.testbit (cmul a b) (N.of_nat k) = conv a b k.
Proof.
  induction a as [|a IH|a IH] using bits_ind; intros k.
  - rewrite cmul_0_l, N.bits_0. unfold conv. symmetry. apply fold_xor_false. intros i _. rewrite N.bits_0. reflexivity.
  - rewrite cmul_double_l. destruct k as [|k].
    + unfold conv. cbn [seq map fold_right N.of_nat]. rewrite !testbit_double_0. reflexivity.
    + rewrite testbit_double_S, IH, conv_double. reflexivity.
  - rewrite cmul_succ_l, N.lxor_spec. destruct k as [|k].
    + unfold conv. cbn [seq map fold_right N.of_nat Nat.sub]. rewrite testbit_double_0, N.testbit_odd_0. cbn [andb]. reflexivity.
    + rewrite testbit_double_S, IH. rewrite <- conv_double. unfold conv.
      change (seq 0 (S (S k))) with (0%nat :: seq 1 (S k)). cbn [map fold_right N.of_nat].
      rewrite N.testbit_odd_0, testbit_double_0. cbn [andb]. rewrite Nat.sub_0_r, xorb_false_l. f_equal.
      apply fold_xor_ext. intros i Hi. apply in_seq in Hi. destruct i as [|i]; [lia|].
      rewrite testbit_double_S, Nat2N.inj_succ, N.testbit_odd_succ by lia. reflexivity.
Qed.

(** Degrees. *)
Lemma size_lt_pow a n : N.size a <= n <-> a < 2 ^ n.
Proof.
  split; intros H.
  - apply N.lt_le_trans with (2 ^ N.size a); [apply N.size_gt|]. apply N.pow_le_mono_r; lia.
  - destruct (N.le_gt_cases (N.size a) n) as [|G]; auto. destruct (N.eq_dec a 0) as [->|Hn]; [cbn; lia|].
    pose proof (N.size_le a). assert (2 ^ N.succ n <= 2 ^ N.size a) by (apply N.pow_le_mono_r; lia).
    rewrite N.pow_succ_r in * by lia. lia.
Qed.
Lemma xor_lt a b n : a < 2 ^ n -> b < 2 ^ n -> N.lxor a b < 2 ^ n.
Proof.
  intros Ha Hb. destruct (N.eq_dec (N.lxor a b) 0) as [->|Hn]; [apply N.neq_0_lt_0; apply N.pow_nonzero; lia|].
  apply N.log2_lt_pow2; [lia|]. eapply N.le_lt_trans; [apply N.log2_lxor|].
  destruct (N.eq_dec a 0) as [->|], (N.eq_dec b 0) as [->|]; try (cbn in Hn; lia).
  - cbn [N.log2]. rewrite N.max_r by lia. apply N.log2_lt_pow2; lia.
  - cbn [N.log2]. rewrite N.max_l by lia. apply N.log2_lt_pow2; lia.
  - apply N.max_lub_lt; apply N.log2_lt_pow2; lia.
Qed.
Lemma cmul_lt a b n m : a < 2 ^ n -> b < 2 ^ (m + 1) -> cmul a b < 2 ^ (n + m).
Proof.
  revert n. induction a as [|a IH|a IH] using bits_ind; intros n Ha Hb.
  - apply N.neq_0_lt_0. apply N.pow_nonzero. lia.
  - rewrite cmul_double_l. destruct (N.eq_dec a 0) as [->|]; [cbn; apply N.neq_0_lt_0; apply N.pow_nonzero; lia|].
    destruct n as [|n] using N.peano_ind; [change (2 ^ 0) with 1 in Ha; lia|]. clear IHn. rewrite N.pow_succ_r in Ha by lia. specialize (IH n ltac:(lia) Hb).
    replace (N.succ n + m) with (N.succ (n + m)) by lia. rewrite N.pow_succ_r by lia. lia.
  - rewrite cmul_succ_l. destruct n as [|n] using N.peano_ind; [change (2 ^ 0) with 1 in Ha; lia|]. clear IHn. rewrite N.pow_succ_r in Ha by lia.
    specialize (IH n ltac:(lia) Hb). replace (N.succ n + m) with (N.succ (n + m)) by lia. apply xor_lt.
    + eapply N.lt_le_trans; [apply Hb|]. apply N.pow_le_mono_r; lia.
    + rewrite N.pow_succ_r by lia. lia.
Qed.
(** The product with a polynomial of degree n has degree at least n. *)
Lemma testbit_top a n : 2 ^ n <= a < 2 ^ (n + 1) -> N.testbit a n = true.
Proof. intros H. assert (E : N.log2 a = n) by (apply N.log2_unique; [lia|]; rewrite <- N.add_1_r; lia). rewrite <- E. apply N.bit_log2. pose proof (N.pow_nonzero 2 n). lia. Qed.
Lemma cmul_ge a n p : 2 ^ n <= p < 2 ^ (n + 1) -> a <> 0 -> 2 ^ n <= cmul a p.
Proof.
  intros Hp. induction a as [|a IH|a IH] using bits_ind; intros Ha; [lia| |].
  - rewrite cmul_double_l. specialize (IH ltac:(lia)). lia.
  - rewrite cmul_succ_l. destruct (N.eq_dec a 0) as [->|Hn]; [rewrite cmul_0_l, N.lxor_0_r; lia|].
    specialize (IH Hn). destruct (N.le_gt_cases (2 ^ n) (N.lxor p (2 * cmul a p))) as [|G]; auto.
    (* top bit: 2 * cmul a p has a bit above n *)
    assert (Hlt : N.lxor p (N.lxor p (2 * cmul a p)) < 2 ^ (n + 1)).
    { apply xor_lt; [lia|]. eapply N.lt_trans; [apply G|]. apply N.pow_lt_mono_r; lia. }
    rewrite xor_cancel in Hlt. rewrite N.add_1_r, N.pow_succ_r in Hlt by lia. lia.
Qed.

Lemma split_hi n x : x = N.lxor (N.land x (N.ones n)) (N.shiftl (N.shiftr x n) n).
Proof.
  apply N.bits_inj. intros i. rewrite N.lxor_spec, N.land_spec. destruct (N.lt_ge_cases i n).
  - rewrite N.ones_spec_low, N.shiftl_spec_low by lia. rewrite andb_true_r, xorb_false_r. reflexivity.
  - rewrite N.ones_spec_high, N.shiftl_spec_high', N.shiftr_spec' by lia. rewrite andb_false_r, xorb_false_l. f_equal. lia.
Qed.
Lemma land_ones_lt n x : N.land x (N.ones n) < 2 ^ n.
Proof. rewrite N.land_ones. apply N.mod_lt. apply N.pow_nonzero. lia. Qed.
Lemma cmul_bound n a b : 1 < n -> a < 2 ^ n -> b < 2 ^ n -> cmul a b < 2 ^ (2 * n).
Proof. intros Hn Ha Hb. eapply N.lt_le_trans; [apply (cmul_lt a b n (n - 1))|apply N.pow_le_mono_r; lia]; auto. replace (n - 1 + 1) with n by lia. auto. Qed.

(** * The ring GF(2)[X] / (2^n + m) *)
Section Ring.
Variables (n m : N).
Hypothesis Hm : m < 2 ^ n.
Hypothesis Hn : 1 < n.
Let P := N.lxor (2 ^ n) m.

Lemma P_range : 2 ^ n <= P < 2 ^ (n + 1).
Proof.
  unfold P. assert (E : N.lxor (2 ^ n) m = 2 ^ n + m).
  { symmetry. apply N.add_nocarry_lxor. apply N.bits_inj. intros i. rewrite N.land_spec, N.bits_0, N.pow2_bits_eqb.
    destruct (N.eqb_spec n i) as [<-|]; [|reflexivity]. cbn [andb]. rewrite <- (N.mod_small m (2 ^ n)) by lia. apply N.mod_pow2_bits_high. lia. }
  rewrite E, N.add_1_r, N.pow_succ_r by lia. lia.
Qed.
(** Congruence modulo P. *)
Definition cong (a b : N) : Prop := exists q, N.lxor a b = cmul q P.
Lemma cong_refl a : cong a a.
Proof. exists 0. rewrite N.lxor_nilpotent. reflexivity. Qed.
Lemma cong_sym a b : cong a b -> cong b a.
Proof. intros [q H]. exists q. rewrite N.lxor_comm. auto. Qed.
Lemma cong_trans a b c : cong a b -> cong b c -> cong a c.
Proof.
  intros [q H] [r K]. exists (N.lxor q r). rewrite cmul_xor_l, <- H, <- K. rewrite N.lxor_assoc. f_equal. symmetry. apply xor_cancel.
Qed.
Lemma cong_xor a b c d : cong a b -> cong c d -> cong (N.lxor a c) (N.lxor b d).
Proof. intros [q H] [r K]. exists (N.lxor q r). rewrite cmul_xor_l, <- H, <- K. apply xor_4. Qed.
Lemma cong_mul a b c d : cong a b -> cong c d -> cong (cmul a c) (cmul b d).
Proof.
  intros [q H] [r K]. exists (N.lxor (cmul q c) (cmul r b)). rewrite cmul_xor_l.
  rewrite <- !cmul_assoc, (cmul_comm c P), (cmul_comm b P), !cmul_assoc, <- H, <- K, !cmul_xor_l, (cmul_comm c b), (cmul_comm d b).
  rewrite N.lxor_assoc, xor_cancel. reflexivity.
Qed.
Lemma cong_unique a b : a < 2 ^ n -> b < 2 ^ n -> cong a b -> a = b.
Proof.
  intros Ha Hb [q H]. destruct (N.eq_dec q 0) as [->|Hq].
  - rewrite cmul_0_l in H. apply N.lxor_eq. auto.
  - pose proof (cmul_ge q n P P_range Hq) as G. pose proof (xor_lt a b n Ha Hb). rewrite <- H in G. lia.
Qed.

(** One folding step: X^n is m. *)
Definition fold1 (x : N) : N := N.lxor (N.land x (N.ones n)) (cmul (N.shiftr x n) m).
Lemma fold1_cong x : cong x (fold1 x).
Proof.
  exists (N.shiftr x n). unfold fold1, P. rewrite cmul_xor_r, cmul_pow2. rewrite (split_hi n x) at 1.
  rewrite xor_4, N.lxor_nilpotent, N.lxor_0_l. reflexivity.
Qed.
Definition red (x : N) : N := fold1 (fold1 x).
Lemma red_cong x : cong x (red x).
Proof. eapply cong_trans; [apply fold1_cong|apply fold1_cong]. Qed.
Lemma fold1_xor x y : fold1 (N.lxor x y) = N.lxor (fold1 x) (fold1 y).
Proof.
  unfold fold1. rewrite N.shiftr_lxor, cmul_xor_l.
  replace (N.land (N.lxor x y) (N.ones n)) with (N.lxor (N.land x (N.ones n)) (N.land y (N.ones n))).
  - apply xor_4.
  - apply N.bits_inj. intros i. rewrite !N.lxor_spec, !N.land_spec, N.lxor_spec.
    destruct (N.testbit x i), (N.testbit y i), (N.testbit (N.ones n) i); reflexivity.
Qed.
Lemma red_xor x y : red (N.lxor x y) = N.lxor (red x) (red y).
Proof. unfold red. rewrite !fold1_xor. reflexivity. Qed.
(** Two folds reduce a product completely when m has degree at most n/2. *)
Hypothesis Hm2 : exists h, m < 2 ^ (h + 1) /\ 2 * h < n + 1.
Lemma red_lt x : x < 2 ^ (2 * n) -> red x < 2 ^ n.
Proof.
  intros Hx. destruct Hm2 as (h & Hh & Hhn). unfold red.
  assert (Hs : N.shiftr x n < 2 ^ n).
  { rewrite N.shiftr_div_pow2. apply N.div_lt_upper_bound; [apply N.pow_nonzero; lia|]. rewrite <- N.pow_add_r. replace (n + n) with (2 * n) by lia. auto. }
  assert (F : fold1 x < 2 ^ (n + h)).
  { unfold fold1. apply xor_lt; [eapply N.lt_le_trans; [apply land_ones_lt|apply N.pow_le_mono_r; lia]|]. apply cmul_lt; auto. }
  unfold fold1 at 1. apply xor_lt; [apply land_ones_lt|].
  assert (Hs2 : N.shiftr (fold1 x) n < 2 ^ h).
  { rewrite N.shiftr_div_pow2. apply N.div_lt_upper_bound; [apply N.pow_nonzero; lia|]. rewrite <- N.pow_add_r. auto. }
  destruct (N.eq_dec h 0) as [->|].
  - replace (N.shiftr (fold1 x) n) with 0 by (cbn in Hs2; lia). rewrite cmul_0_l. apply N.neq_0_lt_0. apply N.pow_nonzero. lia.
  - eapply N.lt_le_trans; [apply (cmul_lt _ _ h h Hs2 Hh)|]. apply N.pow_le_mono_r; lia.
Qed.
Lemma fold1_small x : x < 2 ^ n -> fold1 x = x.
Proof.
  intros Hx. unfold fold1. rewrite N.shiftr_div_pow2, N.div_small by auto. rewrite cmul_0_l, N.lxor_0_r, N.land_ones. apply N.mod_small. auto.
Qed.
Lemma red_small x : x < 2 ^ n -> red x = x.
Proof. intros Hx. unfold red. rewrite !fold1_small; auto. rewrite fold1_small; auto. Qed.

Definition mul (a b : N) : N := red (cmul a b).
Notation elt a := (a < 2 ^ n).
Lemma mul_lt a b : elt a -> elt b -> elt (mul a b).
Proof. intros. apply red_lt. apply cmul_bound; auto. Qed.
Lemma mul_cong a b : cong (cmul a b) (mul a b).
Proof. apply red_cong. Qed.
Lemma mul_comm a b : mul a b = mul b a.
Proof. unfold mul. rewrite cmul_comm. reflexivity. Qed.
Lemma mul_xor_r a b c : mul a (N.lxor b c) = N.lxor (mul a b) (mul a c).
Proof. unfold mul. rewrite cmul_xor_r, red_xor. reflexivity. Qed.
Lemma mul_xor_l a b c : mul (N.lxor a b) c = N.lxor (mul a c) (mul b c).
Proof. unfold mul. rewrite cmul_xor_l, red_xor. reflexivity. Qed.
Lemma mul_1_l a : elt a -> mul 1 a = a.
Proof. intros. unfold mul. rewrite cmul_1_l. apply red_small; auto. Qed.
Lemma mul_0_l a : mul 0 a = 0.
Proof. unfold mul. rewrite cmul_0_l. apply red_small. apply N.neq_0_lt_0. apply N.pow_nonzero. lia. Qed.
Lemma mul_assoc a b c : elt a -> elt b -> elt c -> mul a (mul b c) = mul (mul a b) c.
Proof.
  intros Ha Hb Hc. apply cong_unique; [apply mul_lt; auto; apply mul_lt; auto..|].
  eapply cong_trans; [apply cong_sym; apply mul_cong|]. eapply cong_trans; [|apply mul_cong].
  eapply cong_trans; [apply cong_mul; [apply cong_refl|apply cong_sym; apply mul_cong]|].
  rewrite cmul_assoc. apply cong_mul; [apply mul_cong|apply cong_refl].
Qed.

(** Powers. *)
Definition gpow (a k : N) : N := N.iter k (mul a) 1.
Lemma elt_1 : elt 1.
Proof. change 1 with (2 ^ 0). apply N.pow_lt_mono_r; lia. Qed.
Lemma elt_2 : elt 2.
Proof. change 2 with (2 ^ 1) at 1. apply N.pow_lt_mono_r; lia. Qed.
Lemma gpow_succ a k : gpow a (N.succ k) = mul a (gpow a k).
Proof. unfold gpow. apply N.iter_succ. Qed.
Lemma gpow_lt a k : elt a -> elt (gpow a k).
Proof.
  intros Ha. induction k as [|k IH] using N.peano_ind; [apply elt_1|]. rewrite gpow_succ. apply mul_lt; auto.
Qed.
Lemma gpow_1 a : elt a -> gpow a 1 = a.
Proof. intros Ha. change 1 with (N.succ 0). rewrite gpow_succ. rewrite mul_comm. apply mul_1_l. auto. Qed.
Lemma gpow_add a j k : elt a -> gpow a (j + k) = mul (gpow a j) (gpow a k).
Proof.
  intros Ha. induction j as [|j IH] using N.peano_ind.
  - rewrite N.add_0_l. change (gpow a 0) with 1. rewrite mul_1_l; auto. apply gpow_lt; auto.
  - rewrite N.add_succ_l, !gpow_succ, IH. apply mul_assoc; auto; apply gpow_lt; auto.
Qed.

(** Frobenius. *)
Definition frob (a : N) : N := mul a a.
Lemma frob_xor a b : frob (N.lxor a b) = N.lxor (frob a) (frob b).
Proof.
  unfold frob. rewrite mul_xor_l, !mul_xor_r, (mul_comm b a). rewrite N.lxor_assoc, xor_cancel. reflexivity.
Qed.
Lemma frob_lt a : elt a -> elt (frob a).
Proof. intros. apply mul_lt; auto. Qed.
Lemma frob_mul a b : elt a -> elt b -> frob (mul a b) = mul (frob a) (frob b).
Proof.
  intros Ha Hb. unfold frob. rewrite mul_assoc by (auto; apply mul_lt; auto).
  rewrite <- (mul_assoc a b a) by auto. rewrite (mul_comm b a). rewrite !mul_assoc by (auto; apply mul_lt; auto). reflexivity.
Qed.
Lemma frob_1 : frob 1 = 1.
Proof. apply mul_1_l. apply elt_1. Qed.
Lemma frob_0 : frob 0 = 0.
Proof. apply mul_0_l. Qed.
Definition frobs (k : nat) (a : N) : N := Nat.iter k frob a.
Lemma frobs_S k a : frobs (S k) a = frob (frobs k a).
Proof. reflexivity. Qed.
Lemma frobs_lt k a : elt a -> elt (frobs k a).
Proof. intros. induction k; [auto|]. rewrite frobs_S. apply frob_lt; auto. Qed.
Lemma frobs_xor k a b : frobs k (N.lxor a b) = N.lxor (frobs k a) (frobs k b).
Proof. induction k as [|k IH]; [auto|]. rewrite !frobs_S, IH. apply frob_xor. Qed.
Lemma frobs_mul k a b : elt a -> elt b -> frobs k (mul a b) = mul (frobs k a) (frobs k b).
Proof.
  intros Ha Hb. induction k as [|k IH]; [auto|]. rewrite !frobs_S, IH. apply frob_mul; apply frobs_lt; auto.
Qed.
Lemma frobs_1 k : frobs k 1 = 1.
Proof. induction k as [|k IH]; [auto|]. rewrite frobs_S, IH. apply frob_1. Qed.
Lemma frobs_0 k : frobs k 0 = 0.
Proof. induction k as [|k IH]; [auto|]. rewrite frobs_S, IH. apply frob_0. Qed.
Lemma frobs_gpow k a : elt a -> frobs k a = gpow a (2 ^ N.of_nat k).
Proof.
  intros Ha. induction k as [|k IH].
  - change (frobs 0 a) with a. symmetry. apply (gpow_1 a Ha).
  - rewrite frobs_S, IH. unfold frob. rewrite <- gpow_add by auto.
    rewrite Nat2N.inj_succ, N.pow_succ_r by lia. f_equal. lia.
Qed.
(** If the n-th power of Frobenius fixes X, it is the identity. *)
Lemma mul_2 a : 2 * a < 2 ^ n -> mul 2 a = 2 * a.
Proof. intros H. unfold mul. change 2 with (2 * 1) at 1. rewrite cmul_double_l, cmul_1_l. apply red_small. auto. Qed.
Lemma frobs_id k : frobs k 2 = 2 -> forall a, elt a -> frobs k a = a.
Proof.
  intros H2. induction a as [|a IH|a IH] using bits_ind; intros Ha.
  - apply frobs_0.
  - rewrite <- mul_2 at 1 by auto. rewrite frobs_mul by (auto using elt_2; lia). rewrite H2, IH by lia. apply mul_2. auto.
  - rewrite succ_double_xor, frobs_xor, frobs_1. f_equal.
    rewrite <- mul_2 at 1 by lia. rewrite frobs_mul by (auto using elt_2; lia). rewrite H2, IH by lia. apply mul_2. lia.
Qed.

(** Linear maps given by the images of the powers of X. *)
Fixpoint mapply (cols : list N) (v : N) : N :=
  match cols with
  | [] => 0
  | c :: r => N.lxor (if N.odd v then c else 0) (mapply r (N.div2 v))
  end.
Lemma mapply_xor cols : forall v w, mapply cols (N.lxor v w) = N.lxor (mapply cols v) (mapply cols w).
Proof.
  induction cols as [|c r IH]; intros v w; cbn [mapply]; auto.
  rewrite !N.div2_spec, N.shiftr_lxor, <- !N.div2_spec, IH. rewrite <- !N.bit0_odd, N.lxor_spec.
  rewrite xor_4. f_equal. destruct (N.testbit v 0), (N.testbit w 0); cbn [xorb]; rewrite ?N.lxor_0_r, ?N.lxor_0_l, ?N.lxor_nilpotent; reflexivity.
Qed.
Lemma additive_ext (F G : N -> N) : (forall a b, F (N.lxor a b) = N.lxor (F a) (F b)) -> (forall a b, G (N.lxor a b) = N.lxor (G a) (G b)) ->
  forall k, (forall i, (i < k)%nat -> F (2 ^ N.of_nat i) = G (2 ^ N.of_nat i)) -> forall v, v < 2 ^ N.of_nat k -> F v = G v.
Proof.
  intros HF HG. assert (F0 : forall H, (forall a b, H (N.lxor a b) = N.lxor (H a) (H b)) -> H 0 = 0).
  { intros H HH. pose proof (HH 0 0) as E. change (N.lxor 0 0) with 0 in E. rewrite N.lxor_nilpotent in E. exact E. }
  induction k as [|k IH]; intros Hb v Hv.
  - cbn in Hv. replace v with 0 by lia. rewrite !F0 by auto. reflexivity.
  - destruct (N.lt_ge_cases v (2 ^ N.of_nat k)) as [Hl|Hl]; [apply IH; auto|].
    rewrite Nat2N.inj_succ, N.pow_succ_r in Hv by lia.
    assert (E : v = N.lxor (2 ^ N.of_nat k) (N.lxor (2 ^ N.of_nat k) v)) by (symmetry; apply xor_cancel).
    assert (Hs : N.lxor (2 ^ N.of_nat k) v < 2 ^ N.of_nat k).
    { assert (E2 : v = N.lxor (2 ^ N.of_nat k) (v - 2 ^ N.of_nat k)).
      { rewrite <- N.add_nocarry_lxor; [lia|]. apply N.bits_inj. intros i. rewrite N.land_spec, N.bits_0, N.pow2_bits_eqb.
        destruct (N.eqb_spec (N.of_nat k) i) as [<-|]; [|reflexivity]. cbn [andb].
        rewrite <- (N.mod_small (v - 2 ^ N.of_nat k) (2 ^ N.of_nat k)) by lia. apply N.mod_pow2_bits_high. lia. }
      rewrite E2, xor_cancel. lia. }
    rewrite E, HF, HG, Hb by lia. f_equal. apply IH; auto.
Qed.
(** Certificate: a linear left inverse of frob - 1 away from the constant. *)
Definition drop0 (v : N) : N := 2 * N.div2 v.
Lemma drop0_xor v w : drop0 (N.lxor v w) = N.lxor (drop0 v) (drop0 w).
Proof. unfold drop0. rewrite !N.div2_spec, N.shiftr_lxor. apply double_xor. Qed.
Definition cert (cols : list N) : Prop :=
  forall i, (i < N.to_nat n)%nat -> mapply cols (N.lxor (frob (2 ^ N.of_nat i)) (2 ^ N.of_nat i)) = drop0 (2 ^ N.of_nat i).
Lemma fixed_points cols : cert cols -> forall v, elt v -> frob v = v -> v = 0 \/ v = 1.
Proof.
  intros HC v Hv Hf.
  assert (E : mapply cols (N.lxor (frob v) v) = drop0 v).
  { apply (additive_ext (fun v => mapply cols (N.lxor (frob v) v)) drop0) with (k := N.to_nat n); auto using drop0_xor.
    - intros a b. rewrite frob_xor, xor_4. apply mapply_xor.
    - rewrite N2Nat.id. auto. }
  rewrite Hf, N.lxor_nilpotent in E.
  assert (M0 : forall c, mapply c 0 = 0) by (induction c as [|c0 c IH]; cbn [mapply]; auto; rewrite N.div2_spec; cbn; auto).
  rewrite M0 in E. unfold drop0 in E. rewrite N.div2_div in E. assert (H2 : v / 2 = 0) by lia.
  apply N.div_small_iff in H2; lia.
Qed.

(** Fermat: every non-zero element has a^(2^n - 1) = 1. *)
Lemma fermat cols : cert cols -> frobs (N.to_nat n) 2 = 2 -> forall a, elt a -> a <> 0 -> mul a (gpow a (2 ^ n - 2)) = 1.
Proof.
  intros HC HX a Ha Hna.
  assert (Hp : 2 ^ 1 < 2 ^ n) by (apply N.pow_lt_mono_r; lia). change (2 ^ 1) with 2 in Hp.
  set (e := gpow a (2 ^ n - 1)). assert (He : elt e) by (apply gpow_lt; auto).
  assert (Hfull : gpow a (2 ^ n) = a).
  { rewrite <- (N2Nat.id n) at 1. rewrite <- frobs_gpow by auto. apply frobs_id; auto. }
  assert (E1 : mul a (gpow a (2 ^ n - 2)) = e).
  { rewrite <- gpow_succ. unfold e. f_equal. lia. }
  assert (E2 : mul a e = a).
  { unfold e. rewrite <- gpow_succ. rewrite <- Hfull at 2. f_equal. lia. }
  assert (E3 : frob e = e).
  { unfold frob. unfold e at 1. replace (2 ^ n - 1) with (2 ^ n - 2 + 1) by lia. rewrite gpow_add by auto. rewrite gpow_1 by auto.
    rewrite <- mul_assoc by (auto; apply gpow_lt; auto). rewrite E2. unfold e. rewrite mul_comm, <- gpow_succ. f_equal. lia. }
  rewrite E1. destruct (fixed_points cols HC e He E3) as [E0|]; auto.
  exfalso. apply Hna. rewrite <- E2, E0, mul_comm. apply mul_0_l.
Qed.
Lemma no_zero_divisors cols : cert cols -> frobs (N.to_nat n) 2 = 2 -> forall a b, elt a -> elt b -> mul a b = 0 -> a = 0 \/ b = 0.
Proof.
  intros HC HX a b Ha Hb H. destruct (N.eq_dec a 0) as [|Hna]; auto. right.
  pose proof (fermat cols HC HX a Ha Hna) as F. set (i := gpow a (2 ^ n - 2)) in *. assert (Hi : elt i) by (apply gpow_lt; auto).
  rewrite <- (mul_1_l b Hb), <- F, (mul_comm a i), <- mul_assoc, H by auto. rewrite mul_comm. apply mul_0_l.
Qed.
End Ring.

(** * Generic consequences: powers, addition chains, hashing *)
Section Pow.
Variables (mu : N -> N -> N) (elt : N -> Prop).
Hypothesis Hc : forall a b, elt a -> elt b -> elt (mu a b).
Hypothesis Hcomm : forall a b, elt a -> elt b -> mu a b = mu b a.
Hypothesis Hassoc : forall a b c, elt a -> elt b -> elt c -> mu a (mu b c) = mu (mu a b) c.
Hypothesis H1 : elt 1.
Hypothesis Hid : forall a, elt a -> mu 1 a = a.
Definition pow (a k : N) : N := N.iter k (mu a) 1.
Lemma pow_succ a k : pow a (N.succ k) = mu a (pow a k).
Proof. unfold pow. apply N.iter_succ. Qed.
Lemma pow_elt a k : elt a -> elt (pow a k).
Proof. intros Ha. induction k as [|k IH] using N.peano_ind; [exact H1|]. rewrite pow_succ. auto. Qed.
Lemma pow_one a : elt a -> pow a 1 = a.
Proof. intros Ha. change 1 with (N.succ 0). rewrite pow_succ. change (pow a 0) with 1. rewrite Hcomm by auto. auto. Qed.
Lemma pow_add a j k : elt a -> pow a (j + k) = mu (pow a j) (pow a k).
Proof.
  intros Ha. induction j as [|j IH] using N.peano_ind.
  - rewrite N.add_0_l. change (pow a 0) with 1. rewrite Hid; auto. apply pow_elt; auto.
  - rewrite N.add_succ_l, !pow_succ, IH. apply Hassoc; auto; apply pow_elt; auto.
Qed.

(** Running a program on powers adds the exponents; registers may be undefined. *)
Definition oadd (a b : option N) : option N := match a, b with Some x, Some y => Some (x + y) | _, _ => None end.
Definition repr (x v : N) (e : option N) : Prop := match e with Some k => v = pow x k | None => True end.
Definition reprs (x : N) (s : N * N * N) (e : option N * option N * option N) : Prop := forall i, repr x (reg s i) (reg e i).
Lemma run_repr x p : elt x -> forall s e, reprs x s e -> reprs x (run_prog mu p s) (run_prog oadd p e).
Proof.
  intros Hx. induction p as [|[[d a] b] p IH]; intros s e H; [exact H|].
  cbn [run_prog fold_left]. apply IH. intros i.
  assert (Hv : repr x (mu (reg s a) (reg s b)) (oadd (reg e a) (reg e b))).
  { pose proof (H a) as Ka. pose proof (H b) as Kb. destruct (reg e a) as [j|], (reg e b) as [k|]; cbn [oadd repr] in *; auto.
    rewrite Ka, Kb, pow_add; auto. }
  destruct s as [[s0 s1] s2], e as [[e0 e1] e2]. pose proof (H 0%nat) as K0. pose proof (H 1%nat) as K1. pose proof (H 2%nat) as K2.
  cbn [reg] in K0, K1, K2.
  destruct d as [|[|d]]; cbn [set_reg]; destruct i as [|[|i]]; cbn [reg]; auto.
Qed.

(** The table of squares holds the powers seed^(2^i). *)
Lemma squares_length b n : length (squares mu b n) = S n.
Proof. revert b. induction n as [|n IH]; intros b; cbn; auto. Qed.
Lemma squares_nth s : elt s -> forall n j i, (i <= n)%nat -> nth i (squares mu (pow s (2 ^ j)) n) 0 = pow s (2 ^ (j + N.of_nat i)).
Proof.
  intros Hs. induction n as [|n IH]; intros j i Hi.
  - replace i with 0%nat by lia. cbn [squares nth]. f_equal. f_equal. lia.
  - destruct i as [|i]; cbn [squares nth]; [f_equal; f_equal; lia|]. rewrite <- pow_add by auto.
    replace (2 ^ j + 2 ^ j) with (2 ^ (j + 1)) by (rewrite N.add_1_r, N.pow_succ_r by lia; lia). rewrite IH by lia. f_equal. f_equal. lia.
Qed.
Lemma mod_pow_succ a i : a mod 2 ^ (i + 1) = a mod 2 ^ i + (if N.testbit a i then 2 ^ i else 0).
Proof.
  pose proof (N.pow_nonzero 2 i ltac:(lia)).
  rewrite N.pow_add_r, N.pow_1_r. rewrite N.mod_mul_r by lia. f_equal.
  rewrite N.testbit_eqb. pose proof (N.mod_lt (a / 2 ^ i) 2 ltac:(lia)).
  generalize dependent ((a / 2 ^ i) mod 2). intros z Hz.
  destruct (N.eqb_spec z 1) as [->|]; [lia|]. assert (z = 0) as -> by lia. lia.
Qed.
Lemma land_pow2 i a : (N.land (2 ^ i) a =? 0) = negb (N.testbit a i).
Proof.
  assert (E : N.land (2 ^ i) a = if N.testbit a i then 2 ^ i else 0).
  { apply N.bits_inj. intros j. rewrite N.land_spec, N.pow2_bits_eqb. destruct (N.eqb_spec i j) as [<-|Hn]; cbn [andb].
    - destruct (N.testbit a i); [rewrite N.pow2_bits_true; reflexivity|rewrite N.bits_0; reflexivity].
    - destruct (N.testbit a i); [rewrite N.pow2_bits_false; auto|rewrite N.bits_0; reflexivity]. }
  rewrite E. destruct (N.testbit a i); cbn [negb]; [|reflexivity]. apply N.eqb_neq. apply N.pow_nonzero. lia.
Qed.
Lemma hash_coef_spec s idx1 : elt s -> idx1 < 2 ^ 64 -> forall buff i,
  i + N.of_nat (length buff) = 64 ->
  (forall j, (j < length buff)%nat -> N.testbit idx1 (i + N.of_nat j) = true -> nth j buff 0 = pow s (2 ^ (i + N.of_nat j))) ->
  hash_coef mu buff idx1 ((2 ^ i) mod 2 ^ 64) (pow s (idx1 mod 2 ^ i)) = pow s idx1.
Proof.
  intros Hs Hi. induction buff as [|b r IH]; intros i Hl Hb.
  - cbn [hash_coef]. cbn [length N.of_nat] in Hl. replace i with 64 by lia. rewrite N.mod_small by auto. reflexivity.
  - cbn [hash_coef]. cbn [length] in Hl. rewrite Nat2N.inj_succ in Hl.
    assert (Hm : (2 ^ i) mod 2 ^ 64 = 2 ^ i) by (apply N.mod_small; apply N.pow_lt_mono_r; lia). rewrite Hm.
    destruct (N.leb_spec (2 ^ i) idx1) as [Hle|Hgt]; [|rewrite N.mod_small by auto; reflexivity].
    replace (2 * 2 ^ i) with (2 ^ (i + 1)) by (rewrite N.add_1_r, N.pow_succ_r by lia; lia).
    rewrite land_pow2.
    replace (if negb (N.testbit idx1 i) then pow s (idx1 mod 2 ^ i) else mu (pow s (idx1 mod 2 ^ i)) b) with (pow s (idx1 mod 2 ^ (i + 1))).
    + apply IH; [lia|]. intros j Hj Ht. specialize (Hb (S j) ltac:(cbn; lia)). cbn [nth] in Hb.
      rewrite Nat2N.inj_succ in Hb. replace (i + N.succ (N.of_nat j)) with (i + 1 + N.of_nat j) in Hb by lia. auto.
    + rewrite mod_pow_succ. specialize (Hb 0%nat ltac:(cbn; lia)). cbn [nth N.of_nat] in Hb. rewrite N.add_0_r in Hb.
      destruct (N.testbit idx1 i); cbn [negb]; [|rewrite N.add_0_r; reflexivity]. rewrite (Hb eq_refl). apply pow_add; auto.
Qed.
Lemma log2_ceil_le x mb : log2_ceil x = Some mb -> 1 <= x -> x <= 2 ^ mb.
Proof.
  unfold log2_ceil. intros H Hx. destruct (N.eqb_spec x 0); [lia|]. injection H as <-.
  destruct (N.eqb_spec x 1) as [->|]; [cbn; lia|]. pose proof (N.log2_spec (x - 1) ltac:(lia)) as [_ H]. rewrite N.add_1_r. lia.
Qed.
Lemma log2_ceil_small x mb : log2_ceil x = Some mb -> x <= 2 ^ 63 -> mb <= 63.
Proof.
  unfold log2_ceil. intros H Hx. destruct (N.eqb_spec x 0); [discriminate|]. injection H as <-.
  destruct (N.eqb_spec x 1) as [->|]; [lia|]. assert (N.log2 (x - 1) < 63) by (apply N.log2_lt_pow2; lia). lia.
Qed.
Lemma extract_spec s idxs : elt s -> (forall i, In i idxs -> i <= last idxs 0) -> 2 <= last idxs 0 <= 2 ^ 63 ->
  extract_hash_coef mu s idxs = Some (map (fun i => pow s (i + 1)) idxs).
Proof.
  intros Hs Hall Hlast. unfold extract_hash_coef. destruct idxs as [|i0 idxs]; [cbn in Hlast; lia|]. set (l := i0 :: idxs) in *.
  destruct (log2_ceil (last l 0)) as [mb|] eqn:Emb; [|unfold log2_ceil in Emb; destruct (N.eqb_spec (last l 0) 0); [lia|discriminate]].
  pose proof (log2_ceil_le _ _ Emb ltac:(lia)) as Hle. pose proof (log2_ceil_small _ _ Emb ltac:(lia)) as Hmb.
  assert (Hmb1 : 1 <= mb) by (destruct (N.eq_dec mb 0) as [->|]; [change (2 ^ 0) with 1 in Hle; lia|lia]).
  unfold hash_buff. destruct (N.ltb_spec mb 64); [|lia]. f_equal. apply map_ext_in. intros i Hin. specialize (Hall i Hin).
  assert (P64 : 2 ^ 64 = 2 * 2 ^ 63) by reflexivity.
  rewrite (N.mod_small (i + 1)) by lia.
  assert (Hlt : i + 1 < 2 ^ (mb + 1)).
  { rewrite N.add_1_r with (n := mb), N.pow_succ_r by lia. assert (2 ^ 1 <= 2 ^ mb) by (apply N.pow_le_mono_r; lia). change (2 ^ 1) with 2 in H0. lia. }
  pose proof (hash_coef_spec s (i + 1) Hs ltac:(lia) (squares mu s (N.to_nat mb) ++ repeat 0 (63 - N.to_nat mb)) 0) as K.
  change (2 ^ 0) with 1 in K. rewrite N.mod_1_r in K. change (pow s 0) with 1 in K. apply K.
  - rewrite app_length, squares_length, repeat_length. lia.
  - intros j Hj Ht. rewrite N.add_0_l in *. assert (Hjm : N.of_nat j <= mb).
    { destruct (N.le_gt_cases (N.of_nat j) mb) as [|G]; auto. exfalso.
      rewrite <- (N.mod_small (i + 1) (2 ^ (mb + 1))) in Ht by auto. rewrite N.mod_pow2_bits_high in Ht by lia. discriminate. }
    rewrite app_nth1 by (rewrite squares_length; lia).
    pose proof (squares_nth s Hs (N.to_nat mb) 0 j ltac:(lia)) as E. change (2 ^ 0) with 1 in E. rewrite pow_one, N.add_0_l in E by auto. exact E.
Qed.

(** Horner's rule. *)
Hypothesis Hx : forall a b, elt a -> elt b -> elt (N.lxor a b).
Hypothesis H0 : elt 0.
Hypothesis Hdist : forall a b c, elt a -> elt b -> elt c -> mu a (N.lxor b c) = N.lxor (mu a b) (mu a c).
Definition xsum (l : list N) : N := fold_right N.lxor 0 l.
Definition terms (s : N) (k : nat) (d : list N) : list N :=
  map (fun p => mu (snd p) (pow s (N.of_nat (fst p)))) (combine (seq k (length d)) d).
Lemma uh_cons s a d : universal_hash mu s (a :: d) = mu s (N.lxor (universal_hash mu s d) a).
Proof. unfold universal_hash. cbn [rev]. rewrite fold_left_app. reflexivity. Qed.
Lemma uh_elt s d : elt s -> Forall elt d -> elt (universal_hash mu s d).
Proof. intros Hs H. induction H; [exact H0|]. rewrite uh_cons. auto. Qed.
Lemma terms_shift s d k : elt s -> Forall elt d -> elt (xsum (terms s k d)) /\ mu s (xsum (terms s k d)) = xsum (terms s (S k) d).
Proof.
  intros Hs H. revert k. induction H as [|a d Ha Hd IH]; intros k.
  - cbn. split; auto. pose proof (Hdist s 0 0 Hs H0 H0) as E. change (N.lxor 0 0) with 0 in E. rewrite N.lxor_nilpotent in E. exact E.
  - unfold terms, xsum. cbn [length seq combine map fold_right fst snd]. fold (terms s (S k) d) (terms s (S (S k)) d).
    fold (xsum (terms s (S k) d)) (xsum (terms s (S (S k)) d)). destruct (IH (S k)) as [I1 I2].
    pose proof (pow_elt s (N.of_nat k) Hs) as Hp. split; [auto|]. rewrite Hdist by auto. rewrite I2. f_equal.
    rewrite Nat2N.inj_succ, pow_succ. rewrite !Hassoc by auto. rewrite (Hcomm s a) by auto. reflexivity.
Qed.
Lemma uh_spec s d : elt s -> Forall elt d -> universal_hash mu s d = xsum (terms s 1 d).
Proof.
  intros Hs H. induction H as [|a d Ha Hd IH]; [reflexivity|]. rewrite uh_cons, IH.
  destruct (terms_shift s d 1 Hs Hd) as [E1 E2]. rewrite Hdist by auto. rewrite E2.
  unfold terms, xsum. cbn [length seq combine map fold_right fst snd]. fold (terms s 2 d). fold (xsum (terms s 2 d)).
  change (N.of_nat 1) with 1. rewrite pow_one by auto. rewrite (Hcomm s a) by auto. apply N.lxor_comm.
Qed.
Lemma uh_xor s : elt s -> forall d e, length d = length e -> Forall elt d -> Forall elt e ->
  universal_hash mu s (map (fun p => N.lxor (fst p) (snd p)) (combine d e)) = N.lxor (universal_hash mu s d) (universal_hash mu s e).
Proof.
  intros Hs. induction d as [|a d IH]; intros [|b e] Hl Hd He; try discriminate; [reflexivity|].
  inversion_clear Hd. inversion_clear He. cbn [combine map fst snd]. rewrite !uh_cons, IH by (cbn in Hl; auto; lia).
  pose proof (uh_elt s d Hs H2). pose proof (uh_elt s e Hs H4). rewrite <- Hdist by auto. f_equal. apply xor_4.
Qed.
End Pow.

(** * GF(2^64) and GF(2^128) *)
Lemma small_shiftr x k : x < 2 ^ k -> N.shiftr x k = 0.
Proof. intros H. rewrite N.shiftr_div_pow2. apply N.div_small. auto. Qed.
Lemma small_land x k : x < 2 ^ k -> N.land x (N.ones k) = x.
Proof. intros H. rewrite N.land_ones. apply N.mod_small. auto. Qed.
Lemma land_xor a b c : N.land (N.lxor a b) c = N.lxor (N.land a c) (N.land b c).
Proof.
  apply N.bits_inj. intros i. rewrite !N.lxor_spec, !N.land_spec, N.lxor_spec.
  destruct (N.testbit a i), (N.testbit b i), (N.testbit c i); reflexivity.
Qed.
Lemma lo64_lt x : lo64 x < 2 ^ 64.
Proof. apply land_ones_lt. Qed.
Lemma hi64_lt x : hi64 x < 2 ^ 64.
Proof. apply lo64_lt. Qed.
Lemma lo64_small x : x < 2 ^ 64 -> lo64 x = x.
Proof. apply small_land. Qed.
Lemma shiftr_lt x a b : x < 2 ^ (a + b) -> N.shiftr x a < 2 ^ b.
Proof. intros H. rewrite N.shiftr_div_pow2. apply N.div_lt_upper_bound; [apply N.pow_nonzero; lia|]. rewrite <- N.pow_add_r. auto. Qed.
Lemma hi64_block x : x < 2 ^ 128 -> hi64 x = N.shiftr x 64.
Proof. intros H. apply lo64_small. apply shiftr_lt. exact H. Qed.
Lemma kmod64 : kGfMod64 = 27.
Proof. reflexivity. Qed.
Lemma kmod128 : kGfMod128 = 135.
Proof. reflexivity. Qed.

Lemma gf64_reduce_red x : x < 2 ^ 128 -> gf64_reduce x = red 64 27 x.
Proof.
  intros Hx. unfold gf64_reduce, clmul10. rewrite kmod64. rewrite !(lo64_small 27) by reflexivity. rewrite (hi64_block x) by auto.
  assert (Hs : N.shiftr x 64 < 2 ^ 64) by (apply shiftr_lt; exact Hx).
  assert (Ht : cmul 27 (N.shiftr x 64) < 2 ^ 69).
  { apply (cmul_lt 27 (N.shiftr x 64) 5 64); [reflexivity|]. eapply N.lt_trans; [exact Hs|reflexivity]. }
  set (t := cmul 27 (N.shiftr x 64)) in *. rewrite (hi64_block t) by (eapply N.lt_trans; [exact Ht|reflexivity]).
  assert (Hu : cmul 27 (N.shiftr t 64) < 2 ^ 64).
  { eapply N.lt_trans; [apply (cmul_lt 27 (N.shiftr t 64) 5 5); [reflexivity|]|reflexivity].
    eapply N.lt_trans; [apply (shiftr_lt t 64 5); exact Ht|reflexivity]. }
  unfold red, fold1. rewrite (cmul_comm (N.shiftr x 64) 27). fold t. rewrite !land_xor, N.shiftr_lxor.
  rewrite (small_shiftr (N.land x _)) by apply land_ones_lt. rewrite N.lxor_0_l, (cmul_comm _ 27).
  unfold lo64. rewrite !land_xor. rewrite (small_land (N.land x _)) by apply land_ones_lt. rewrite (small_land (cmul 27 _)) by auto. reflexivity.
Qed.
Lemma gf64_mul_eq a b : a < 2 ^ 64 -> b < 2 ^ 64 -> gf64_mul a b = mul 64 27 a b.
Proof.
  intros Ha Hb. unfold gf64_mul, gf64_clmul, clmul00. rewrite !lo64_small by auto. apply gf64_reduce_red.
  apply (cmul_bound 64 a b ltac:(reflexivity) Ha Hb).
Qed.
Lemma split128 x y : x < 2 ^ 128 -> y < 2 ^ 128 ->
  gf128_clmul x y = (N.shiftr (cmul x y) 128, N.land (cmul x y) (N.ones 128)).
Proof.
  intros Hx Hy. unfold gf128_clmul, clmul00, clmul11, clmul10, clmul01, srl8, sll8. rewrite !hi64_block by auto.
  assert (HX : N.shiftr x 64 < 2 ^ 64) by (apply shiftr_lt; exact Hx). assert (HY : N.shiftr y 64 < 2 ^ 64) by (apply shiftr_lt; exact Hy).
  pose proof (lo64_lt x) as LX. pose proof (lo64_lt y) as LY.
  assert (SX : x = N.lxor (lo64 x) (N.shiftl (N.shiftr x 64) 64)) by apply split_hi.
  assert (SY : y = N.lxor (lo64 y) (N.shiftl (N.shiftr y 64) 64)) by apply split_hi.
  set (x0 := lo64 x) in *. set (x1 := N.shiftr x 64) in *. set (y0 := lo64 y) in *. set (y1 := N.shiftr y 64) in *.
  assert (E : cmul x y = N.lxor (N.lxor (cmul x0 y0) (N.shiftl (N.lxor (cmul x0 y1) (cmul x1 y0)) 64)) (N.shiftl (cmul x1 y1) 128)).
  { rewrite SX, SY. rewrite cmul_xor_l, !cmul_xor_r, !cmul_shiftl. rewrite (cmul_comm (N.shiftl x1 64) y0), (cmul_comm (N.shiftl x1 64) y1), !cmul_shiftl.
    rewrite (cmul_comm y0 x1), (cmul_comm y1 x1), N.shiftl_shiftl, N.shiftl_lxor. change (64 + 64) with 128.
    rewrite !N.lxor_assoc. reflexivity. }
  assert (HL : cmul x0 y0 < 2 ^ 128) by (apply (cmul_bound 64); auto; reflexivity).
  rewrite E. set (mid := N.lxor (cmul x0 y1) (cmul x1 y0)). rewrite !N.shiftr_lxor, !land_xor. f_equal.
  - rewrite (small_shiftr (cmul x0 y0)) by auto. rewrite N.lxor_0_l.
    rewrite (N.shiftr_shiftl_r mid 64 128) by lia. rewrite (N.shiftr_shiftl_l (cmul x1 y1) 128 128) by lia. change (128 - 128) with 0. rewrite N.shiftl_0_r.
    apply N.lxor_comm.
  - rewrite (small_land (cmul x0 y0)) by auto. rewrite N.lxor_assoc. f_equal.
    replace (N.land (N.shiftl (cmul x1 y1) 128) (N.ones 128)) with 0; [symmetry; apply N.lxor_0_r|].
    symmetry. rewrite N.land_ones, N.shiftl_mul_pow2. apply N.mod_mul. discriminate.
Qed.
Lemma gf128_reduce_red x h l : h < 2 ^ 128 -> l < 2 ^ 128 -> x = N.lxor l (N.shiftl h 128) -> gf128_reduce h l = red 128 135 x.
Proof.
  intros Hh Hl Ex. unfold gf128_reduce. rewrite kmod128. rewrite split128 by (auto; reflexivity).
  assert (E0 : N.land x (N.ones 128) = l).
  { rewrite Ex, land_xor, small_land by auto. replace (N.land (N.shiftl h 128) (N.ones 128)) with 0; [apply N.lxor_0_r|].
    symmetry. rewrite N.land_ones, N.shiftl_mul_pow2. apply N.mod_mul. discriminate. }
  assert (E1 : N.shiftr x 128 = h).
  { rewrite Ex, N.shiftr_lxor, small_shiftr by auto. rewrite N.lxor_0_l, N.shiftr_shiftl_l by lia. apply N.shiftl_0_r. }
  assert (Ht : cmul h 135 < 2 ^ 135).
  { apply (cmul_lt h 135 128 7); auto. reflexivity. }
  set (t := cmul h 135) in *.
  assert (Hs : N.shiftr t 128 < 2 ^ 7) by (apply shiftr_lt; exact Ht).
  assert (Hu : cmul (N.shiftr t 128) 135 < 2 ^ 128).
  { eapply N.lt_trans; [apply (cmul_lt (N.shiftr t 128) 135 7 7); [exact Hs|reflexivity]|reflexivity]. }
  rewrite (split128 (N.shiftr t 128) 135); [|eapply N.lt_trans; [exact Hs|reflexivity]|reflexivity].
  unfold red, fold1. rewrite E0, E1. fold t. rewrite !land_xor, N.shiftr_lxor, (small_shiftr l), N.lxor_0_l by auto.
  rewrite (small_land l), (small_land (cmul _ _)) by auto. reflexivity.
Qed.
Lemma gf128_mul_eq a b : a < 2 ^ 128 -> b < 2 ^ 128 -> gf128_mul a b = mul 128 135 a b.
Proof.
  intros Ha Hb. unfold gf128_mul. rewrite split128 by auto. pose proof (cmul_bound 128 a b ltac:(reflexivity) Ha Hb) as B.
  apply gf128_reduce_red; [apply shiftr_lt; exact B|apply land_ones_lt|apply split_hi].
Qed.

(** Irreducibility certificates: linear left inverses of the squaring map minus
    the identity (see [cert]). *)
Definition cert64 : list N := [
  0x19c9369f278adc02; 
  0x84b2b22ab2383ee4; 
  0x84b2b22ab2383ee6; 
  0x9d7b84b495b3e3f6; 
  0x84b2b22ab2383ee2; 
  0x37c470b49213f790; 
  0x9d7b84b495b3e3fe; 
  0x1000a0105137c; 
  0x84b2b22ab2383ef2; 
  0x368e964a8edce1fc; 
  0x37c470b49213f7b0; 
  0x19c9368e278fdf4c; 
  0x9d7b84b495b3e3be; 
  0x2e4da23cbc7d4570; 
  0x1000a010513fc; 
  0x84f35772bac24232; 
  0x84b2b22ab2383ff2; 
  0x37c570ba9314e4fc; 
  0x368e964a8edce3fc; 
  0xb377c390213cdb0e; 
  0x37c470b49213f3b0; 
  0x85ed5a3aa99c24f2; 
  0x19c9368e278fd74c; 
  0xaabff0000780000e; 
  0x9d7b84b495b3f3be; 
  0x84b6b3dab03038f2; 
  0x2e4da23cbc7d6570; 
  0x511ea03494ffc; 
  0x1000a010553fc; 
  0xae0c0220343c6c0e; 
  0x84f35772bac2c232; 
  0x800000008000000e; 
  0x84b2b22ab2393ff2; 
  0xb376c29c202bc97e; 
  0x37c570ba9316e4fc; 
  0x9c3062488879e6ce; 
  0x368e964a8ed8e3fc; 
  0x41e42c08e47e70; 
  0xb377c3902134db0e; 
  0x85b9b108a60f56ce; 
  0x37c470b49203f3b0; 
  0x19dd3b6e21f3cb4c; 
  0x85ed5a3aa9bc24f2; 
  0x198ddf682c428ac0; 
  0x19c9368e27cfd74c; 
  0x4b7c68431ca84b0; 
  0xaabff0000700000e; 
  0x8040655489ffefbe; 
  0x9d7b84b494b3f3be; 
  0x18c1354e32bfa74c; 
  0x84b6b3dab23038f2; 
  0xaaf613cc0f74627e; 
  0x2e4da23cb87d6570; 
  0x3248b3d6b3342a8c; 
  0x511ea0b494ffc; 
  0xb60813c00e70700e; 
  0x1000a110553fc; 
  0x1e0d022a05393ffc; 
  0xae0c0220143c6c0e; 
  0xe0c0220143c6c00; 
  0x84f35772fac2c232; 
  0x0; 
  0x800000000000000e; 
  0xc041e55948fbfdce].
Definition cert128 : list N := [
  0x295ac0b1f4731af9676aac9fa4b20b08; 
  0xe5da5595ee970b89929959af766af404; 
  0xe5da5595ee970b89929959af766af406; 
  0x4e9826c74350bfe67783f7333404a20c; 
  0xe5da5595ee970b89929959af766af402; 
  0x2aaea79ad7da34b07dc714cb83074e6a; 
  0x4e9826c74350bfe67783f7333404a204; 
  0xcc8095241ae41171f5f3f531d2d9fe18; 
  0xe5da5595ee970b89929959af766af412; 
  0x4e983687d159ce9677cb862e8ac85b44; 
  0x2aaea79ad7da34b07dc714cb83074e4a; 
  0xaae2ab6aaf144aaff73fcb3c06aaff56; 
  0x4e9826c74350bfe67783f7333404a244; 
  0xe62f327ccd5792dd893fe9ca40603f62; 
  0xcc8095241ae41171f5f3f531d2d9fe98; 
  0xab52f0323f47c90be1336bc7d453b626; 
  0xe5da5595ee970b89929959af766af512; 
  0x2abe34bad75338b479a6a089abf4573a; 
  0x4e983687d159ce9677cb862e8ac85944; 
  0x1e8ccb9dcc72f2e1a9cbef8232562fc; 
  0x2aaea79ad7da34b07dc714cb83074a4a; 
  0x2442c3221f3dc1a0ce869b24a80e48c; 
  0xaae2ab6aaf144aaff73fcb3c06aaf756; 
  0xcf64612f39c4323deb3ff936dd9aa228; 
  0x4e9826c74350bfe67783f7333404b244; 
  0xcc911696880d4909f0d5382a57572458; 
  0xe62f327ccd5792dd893fe9ca40601f62; 
  0x4d7cd7cc29d28cf2697f6478e5db2834; 
  0xcc8095241ae41171f5f3f531d2d9be98; 
  0xccc99127569146a7fc0956ca1a5b86a4; 
  0xab52f0323f47c90be1336bc7d4533626; 
  0x65cece94dacd5b1c14f5986b001eeb82; 
  0xe5da5595ee970b89929959af766bf512; 
  0x2b0e7fa2d509ca746fe27169c7c3e73a; 
  0x2abe34bad75338b479a6a089abf6573a; 
  0x65df4d264824132411d3553885980142; 
  0x4e983687d159ce9677cb862e8acc5944; 
  0xcf74f70e70ef2af7ef6fd21d2af671a4; 
  0x1e8ccb9dcc72f2e1a9cbef8232d62fc; 
  0xcec4b9173b16cdf9f91a9d8499490f58; 
  0x2aaea79ad7da34b07dc714cb83174a4a; 
  0x83f16f99175f624799a6cf206b513bdc; 
  0x2442c3221f3dc1a0ce869b24aa0e48c; 
  0x3f562a96a2aa9081b9e27ebe84671c0; 
  0xaae2ab6aaf144aaff73fcb3c06eaf756; 
  0xccc9c07ae11bcce3fcd6d526cddeebd4; 
  0xcf64612f39c4323deb3ff936dd1aa228; 
  0xa95fc803c09556f7e461dfebe8467196; 
  0x4e9826c74350bfe67783f7333504b244; 
  0x4cdc1ab0f0ab5b2e7b20ee03c15c7384; 
  0xcc911696880d4909f0d5382a55572458; 
  0xaaba68961da11d79fb48c8c7fe68cf6a; 
  0xe62f327ccd5792dd893fe9ca44601f62; 
  0xe5db5416ee209847938b5c70638d3bee; 
  0x4d7cd7cc29d28cf2697f6478eddb2834; 
  0x6437818b95e2e76e0b49fa26a7e512ce; 
  0xcc8095241ae41171f5f3f531c2d9be98; 
  0x4cd9020746184ba27868a299022ddf34; 
  0xccc99127569146a7fc0956ca3a5b86a4; 
  0x824171dcefbe4a8b8f1d24e407e8e76c; 
  0xab52f0323f47c90be1336bc794533626; 
  0xe62e22af1f6bf32b88711e202cdc3b5e; 
  0x65cece94dacd5b1c14f5986b801eeb82; 
  0x83f4672b23a92e499aadb85427b54520; 
  0xe5da5595ee970b89929959ae766bf512; 
  0x1040920971720048711dbeccf94c; 
  0x2b0e7fa2d509ca746fe2716bc7c3e73a; 
  0x81edd40a7a7437cb99d6b267d0d7976c; 
  0x2abe34bad75338b479a6a08dabf6573a; 
  0xe46a1e8deccdf96d84dd884d1a5d4462; 
  0x65df4d264824132411d3553085980142; 
  0x804c1cb1eac70f698ab1aeeb3a605920; 
  0x4e983687d159ce9677cb863e8acc5944; 
  0xa94f4b3252499e01e04514377dbd55aa; 
  0xcf74f70e70ef2af7ef6fd23d2af671a4; 
  0xe7d77da5831189d3978a93f3f56f619e; 
  0x1e8ccb9dcc72f2e1a9cbeb8232d62fc; 
  0x4cdd0f362b68e52a7a5109eab0a16ef4; 
  0xcec4b9173b16cdf9f91a9d0499490f58; 
  0xe4329c3d7bf233698830781e88d05912; 
  0x2aaea79ad7da34b07dc715cb83174a4a; 
  0x82082082597387418618bcbfcff334e0; 
  0x83f16f99175f624799a6cd206b513bdc; 
  0x294b124ed1181a846297e291f4adcc3a; 
  0x2442c3221f3dc1a0ce86db24aa0e48c; 
  0xe78fff41144664939b696b666550119e; 
  0x3f562a96a2aa9081b9e2febe84671c0; 
  0xcd78dbfd54a1436beb568d9e63d55a14; 
  0xaae2ab6aaf144aaff73fdb3c06eaf756; 
  0xccdd4e7b1ce38d0ffacabbbeed722b64; 
  0xccc9c07ae11bcce3fcd6f526cddeebd4; 
  0x3e5e1ccb1bf89c61fb4754fa43bbf3c; 
  0xcf64612f39c4323deb3fb936dd1aa228; 
  0xe5da00893461b455926f68f4172caea2; 
  0xa95fc803c09556f7e4615febe8467196; 
  0xe78ae2a77b3e87b1981cf1dccb9d1fd2; 
  0x4e9826c74350bfe67782f7333504b244; 
  0x2912d4222a675b0a6fd777b6c15f72c6; 
  0x4cdc1ab0f0ab5b2e7b22ee03c15c7384; 
  0xe7d6682e58d237f196f8740f85956fd2; 
  0xcc911696880d4909f0d1382a55572458; 
  0xab4366b0764a0b4be46143c933474626; 
  0xaaba68961da11d79fb40c8c7fe68cf6a; 
  0xe7d77d718378aeb397849bb7f7de0d9e; 
  0xe62f327ccd5792dd892fe9ca44601f62; 
  0x64231d9efb5729d60d13f9bd382e380e; 
  0xe5db5416ee20984793ab5c70638d3bee; 
  0x81b51ab7a5fe1499959811bd9a557220; 
  0x4d7cd7cc29d28cf2693f6478eddb2834; 
  0x295ab4bb43072c12678a4ee975a08406; 
  0x6437818b95e2e76e0bc9fa26a7e512ce; 
  0xab0eead38eb165ebef9e1acd25989a26; 
  0xcc8095241ae41171f4f3f531c2d9be98; 
  0x3ba7996db230c0010185b9b29b00000; 
  0x4cd9020746184ba27a68a299022ddf34; 
  0x8210932010890d058261f45338765990; 
  0xccc99127569146a7f80956ca3a5b86a4; 
  0x2a88e0fbb92f0c2c7f14722e3db361fa; 
  0x824171dcefbe4a8b871d24e407e8e76c; 
  0x29b11e87b8989fd86fb067f47d17578a; 
  0xab52f0323f47c90bf1336bc794533626; 
  0x0; 
  0xe62e22af1f6bf32ba8711e202cdc3b5e; 
  0x862e22af1f6bf32ba8711e202cdc3b6c; 
  0x65cece94dacd5b1c54f5986b801eeb82; 
  0x8e8cbdc6770aef73b1ef36f7c270bdac; 
  0x83f4672b23a92e491aadb85427b54520; 
  0x38b21c09fae1613c0db7ed8c3891e6fa].
(** Squaring spreads the bits. *)
Fixpoint pspread (p : positive) : positive := match p with xH => xH | xO q => xO (xO (pspread q)) | xI q => xI (xO (pspread q)) end.
Definition spread (a : N) : N := match a with 0 => 0 | Npos p => Npos (pspread p) end.
Lemma cmul_spread a : cmul a a = spread a.
Proof.
  induction a as [|a IH|a IH] using bits_ind; auto.
  - rewrite cmul_double_l, cmul_double_r, IH. destruct a; reflexivity.
  - rewrite cmul_succ_l. rewrite (succ_double_xor a) at 2. rewrite cmul_xor_r, cmul_1_r, cmul_double_r, IH.
    rewrite double_xor, (succ_double_xor a). rewrite (N.lxor_comm (2 * (2 * spread a))), <- N.lxor_assoc.
    rewrite (N.lxor_comm (2 * a) 1), (N.lxor_assoc 1), N.lxor_nilpotent, N.lxor_0_r. destruct a; reflexivity.
Qed.
Definition fsq (n m a : N) : N := red n m (spread a).
Lemma fsq_frob n m a : frob n m a = fsq n m a.
Proof. unfold frob, mul, fsq. rewrite cmul_spread. reflexivity. Qed.
Lemma frobs_fsq n m k a : frobs n m k a = Nat.iter k (fsq n m) a.
Proof. induction k as [|k IH]; auto. rewrite frobs_S, fsq_frob, IH. reflexivity. Qed.
Definition check_cert (n m : N) (cols : list N) : bool :=
  forallb (fun i => mapply cols (N.lxor (fsq n m (2 ^ N.of_nat i)) (2 ^ N.of_nat i)) =? drop0 (2 ^ N.of_nat i)) (seq 0 (N.to_nat n)).
Lemma check_cert_ok n m cols : check_cert n m cols = true -> cert n m cols.
Proof.
  intros H i Hi. unfold check_cert in H. rewrite forallb_forall in H. rewrite fsq_frob. apply N.eqb_eq. apply H. apply in_seq. lia.
Qed.
Lemma cert64_ok : cert 64 27 cert64.
Proof. apply check_cert_ok. vm_compute. reflexivity. Qed.
Lemma cert128_ok : cert 128 135 cert128.
Proof. apply check_cert_ok. vm_compute. reflexivity. Qed.
Lemma frob64_X : frobs 64 27 (N.to_nat 64) 2 = 2.
Proof. rewrite frobs_fsq. vm_compute. reflexivity. Qed.
Lemma frob128_X : frobs 128 135 (N.to_nat 128) 2 = 2.
Proof. rewrite frobs_fsq. vm_compute. reflexivity. Qed.
