(** Lemmas about the consistency check of Ferret: the value the receiver compares
    differs from the sender's by the hash of the errors. *)
From Coq Require Import NArith List Bool Arith Lia.
From Verif Require Import GfModel GfProof GfProps LinCodeModel SpcotModel SpcotProof SpcotProps FerretModel FerretProof.
From Verif Require LinCodeProps.
Import ListNotations.
Open Scope nat_scope.

Definition vxor (a b : list N) : list N := map (fun p => N.lxor (fst p) (snd p)) (combine a b).
Definition sel (delta r : N) : N := if N.odd r then delta else 0%N.
(** What is missing for the two blocks to be a COT. *)
Definition errors (delta : N) (os orr : list N) : list N := vxor (vxor os orr) (map (sel delta) orr).
Notation W := (word 128).

Lemma word0 : W 0%N.
Proof. apply N.neq_0_lt_0. apply N.pow_nonzero. lia. Qed.
Lemma word_xor a b : W a -> W b -> W (N.lxor a b).
Proof. apply xor_lt. Qed.
Lemma vxor_words a b : Forall W a -> Forall W b -> Forall W (vxor a b).
Proof.
  intros Ha. revert b. unfold vxor. induction Ha as [|x a Hx Ha IH]; intros b Hb; [constructor|]. destruct Hb as [|y b Hy Hb]; [constructor|].
  cbn [combine map fst snd]. constructor; auto. apply word_xor; auto.
Qed.
Lemma sel_words delta l : W delta -> Forall W (map (sel delta) l).
Proof. intros H. apply Forall_forall. intros x Hx. apply in_map_iff in Hx as (r & <- & _). unfold sel. destruct (N.odd r); auto. apply word0. Qed.
Lemma vxor_length a b : length a = length b -> length (vxor a b) = length a.
Proof. intros H. unfold vxor. rewrite map_length, combine_length. lia. Qed.
Lemma sum_cons x l : sum (x :: l) = N.lxor x (sum l).
Proof. reflexivity. Qed.
Lemma sum_words l : Forall W l -> W (sum l).
Proof. intros H. induction H; [apply word0|]. rewrite sum_cons. apply word_xor; auto. Qed.
Lemma fold_sum l : forall a, fold_left N.lxor l a = N.lxor a (sum l).
Proof.
  induction l as [|x l IH]; intros a; cbn [fold_left]; [symmetry; apply N.lxor_0_r|]. rewrite IH, sum_cons, N.lxor_assoc. auto.
Qed.

Section Field.
Variable mu : N -> N -> N.
Hypothesis HF : is_field 128 mu.
Lemma mu_0_r a : W a -> mu a 0%N = 0%N.
Proof.
  destruct HF as (F1 & F2 & F3 & F4 & F5 & F6 & _). intros Ha. pose proof (F4 a 0%N 0%N Ha word0 word0) as E. rewrite N.lxor_0_r in E.
  rewrite N.lxor_nilpotent in E. exact E.
Qed.
Lemma mu_0_l a : W a -> mu 0%N a = 0%N.
Proof. destruct HF as (F1 & F2 & _). intros Ha. rewrite F2 by (auto using word0). apply mu_0_r. auto. Qed.
Lemma mu_xor_l a b c : W a -> W b -> W c -> mu (N.lxor a b) c = N.lxor (mu a c) (mu b c).
Proof.
  destruct HF as (F1 & F2 & F3 & F4 & F5 & F6 & _). intros Ha Hb Hc. rewrite F2 by (auto using word_xor). rewrite F4 by auto. rewrite (F2 c a), (F2 c b) by auto. auto.
Qed.
Lemma mu_sum d l : W d -> Forall W l -> sum (map (mu d) l) = mu d (sum l).
Proof.
  destruct HF as (F1 & F2 & F3 & F4 & F5 & F6 & _). intros Hd Hl. induction Hl as [|x l Hx Hl IH]; [symmetry; apply mu_0_r; auto|].
  cbn [map]. rewrite !sum_cons, F4, IH; auto. apply sum_words; auto.
Qed.
Lemma power_word s : W s -> forall k, W (power mu s k).
Proof.
  destruct HF as (F1 & _). intros Hs k. unfold power. induction k as [|k IH] using N.peano_ind; [apply w1; reflexivity|].
  rewrite N.iter_succ. apply F1; auto.
Qed.
End Field.

Fixpoint pos_from (k : nat) (l : list N) : list N :=
  match l with [] => [] | x :: r => if N.odd x then N.of_nat k :: pos_from (S k) r else pos_from (S k) r end.
Lemma odd_positions_from l : odd_positions l = pos_from 0 l.
Proof.
  unfold odd_positions. assert (G : forall l k pre, length pre = k ->
    map N.of_nat (filter (fun i => N.odd (nth i (pre ++ l) 0%N)) (seq k (length l))) = pos_from k l).
  { clear l. induction l as [|x l IH]; intros k pre L; [reflexivity|]. cbn [length seq filter pos_from].
    rewrite app_nth2 by lia. rewrite L, Nat.sub_diag. cbn [nth].
    assert (E : map N.of_nat (filter (fun i => N.odd (nth i (pre ++ x :: l) 0%N)) (seq (S k) (length l))) = pos_from (S k) l).
    { rewrite <- (IH (S k) (pre ++ [x])) by (rewrite app_length; cbn; lia). rewrite <- app_assoc. reflexivity. }
    destruct (N.odd x); cbn [map]; rewrite E; reflexivity. }
  apply (G l 0 []). reflexivity.
Qed.
Definition coefs (seed : N) (l : list N) : list N := map (fun i => power gf128_mul seed (i + 1)) (odd_positions l).
Lemma hash_sel delta seed l : W delta -> W seed ->
  universal_hash gf128_mul seed (map (sel delta) l) = gf128_mul delta (sum (coefs seed l)).
Proof.
  intros Hd Hs. pose proof gf128_field as HF. pose proof HF as (F1 & F2 & _).
  rewrite (proj2 universal_hash_correct) by (auto using sel_words). unfold coefs. rewrite odd_positions_from. unfold hash_spec, indexed. rewrite map_length.
  generalize 0 as k. induction l as [|x l IH]; intros k; cbn [length seq map combine pos_from fst snd].
  - symmetry. apply (mu_0_r gf128_mul HF). auto.
  - rewrite sum_cons, IH. unfold sel at 1.
    assert (Wl : W (sum (map (fun i => power gf128_mul seed (i + 1)) (pos_from (S k) l)))).
    { apply sum_words. apply Forall_forall. intros y Hy. apply in_map_iff in Hy as (i & <- & _). apply (power_word gf128_mul HF). auto. }
    pose proof (power_word gf128_mul HF seed Hs (N.of_nat k + 1)) as Wp.
    destruct (N.odd x); cbn [map]; rewrite ?sum_cons.
    + rewrite (proj1 (proj2 (proj2 (proj2 HF)))) by auto. reflexivity.
    + rewrite (mu_0_l gf128_mul HF) by auto. apply N.lxor_0_l.
Qed.

(** Packing. *)
Definition pack (l : list N) : N := sum (map (fun p => gf128_mul (fst p) (snd p)) (combine l (basis 128))).
Lemma basis_words : Forall W (basis 128).
Proof.
  apply Forall_forall. intros x Hx. apply in_map_iff in Hx as (i & <- & Hi). apply in_seq in Hi. rewrite N.shiftl_1_l. apply N.pow_lt_mono_r; lia.
Qed.
Lemma pack_val l : length l = 128 -> Forall W l -> gf128_pack l = Some (pack l).
Proof.
  intros L Hl. unfold gf128_pack. rewrite L. cbn [Nat.leb]. change (128 <=? 128) with true. cbv iota.
  replace (firstn 128 (basis 128)) with (basis 128) by reflexivity.
  rewrite gf128_span_correct by (auto using basis_words). rewrite L. reflexivity.
Qed.
Lemma pack_xor a b : length a = length b -> Forall W a -> Forall W b -> pack (vxor a b) = N.lxor (pack a) (pack b).
Proof.
  unfold pack. pose proof basis_words as HB. pose proof gf128_field as HF. revert HB. generalize (basis 128) as bs. revert b.
  induction a as [|x a IH]; intros [|y b] bs HB L Ha Hb; try discriminate; [reflexivity|].
  destruct bs as [|z bs]; [reflexivity|]. inversion_clear Ha. inversion_clear Hb. inversion_clear HB.
  unfold vxor. cbn [combine map fst snd]. fold (vxor a b). rewrite !sum_cons, IH by (auto; cbn in L; lia).
  rewrite (mu_xor_l gf128_mul HF) by auto. apply LinCodeProps.lxor4.
Qed.
Lemma pack_bits delta (bits : list bool) : W delta ->
  pack (map (fun b : bool => if b then delta else 0%N) bits) = gf128_mul delta (sum (map (fun p => if fst p : bool then snd p else 0%N) (combine bits (basis 128)))).
Proof.
  intros Hd. unfold pack. pose proof basis_words as HB. pose proof gf128_field as HF. revert HB. generalize (basis 128) as bs.
  induction bits as [|b bits IH]; intros bs HB; cbn [map combine].
  - symmetry. apply (mu_0_r gf128_mul HF). auto.
  - destruct bs as [|z bs]; cbn [map combine fst snd]; [symmetry; apply (mu_0_r gf128_mul HF); auto|].
    inversion_clear HB as [|? ? Hz HB']. rewrite !sum_cons, IH by auto.
    assert (Wl : W (sum (map (fun p : bool * N => if fst p then snd p else 0%N) (combine bits bs)))).
    { apply sum_words. apply Forall_forall. intros y Hy. apply in_map_iff in Hy as ([c u] & <- & Hi). apply in_combine_r in Hi.
      rewrite Forall_forall in HB'. cbn [fst snd]. destruct c; auto using word0. }
    destruct b.
    + rewrite (proj1 (proj2 (proj2 (proj2 HF)))) by auto. reflexivity.
    + rewrite (mu_0_l gf128_mul HF), !N.lxor_0_l by auto. reflexivity.
Qed.
Lemma word_of_bit l : forall j : nat, N.testbit (word_of l) (N.of_nat j) = nth j l false.
Proof.
  unfold word_of. induction l as [|b l IH]; intros j; cbn [fold_right].
  - rewrite N.bits_0. destruct j; reflexivity.
  - set (t := fold_right _ _ _) in *. destruct j as [|j]; cbn [nth].
    + rewrite N.bit0_odd. rewrite N.add_comm. destruct b; rewrite ?N.odd_add_mul_2, ?N.add_0_r; auto.
      * rewrite N.add_comm. rewrite N.odd_add_mul_2. reflexivity.
      * rewrite N.odd_mul. reflexivity.
    + rewrite <- IH. rewrite Nat2N.inj_succ. destruct b.
      * rewrite N.add_comm. apply N.testbit_odd_succ. lia.
      * rewrite N.add_0_l. apply N.testbit_even_succ. lia.
Qed.
Lemma word_high x (j : N) : W x -> (128 <= j)%N -> N.testbit x j = false.
Proof.
  intros Hx Hj. destruct (N.eq_dec x 0) as [->|Hn]; [apply N.bits_0|]. apply N.bits_above_log2.
  apply N.lt_le_trans with 128%N; auto. apply N.log2_lt_pow2; [lia|exact Hx].
Qed.
Lemma word_of_lt l : length l = 128 -> W (word_of l).
Proof.
  intros L. assert (G : forall l, (word_of l < 2 ^ N.of_nat (length l))%N).
  { clear. unfold word_of. induction l as [|b l IH]; [reflexivity|]. cbn [length fold_right]. rewrite Nat2N.inj_succ, N.pow_succ_r by lia.
    set (t := fold_right _ _ _) in *. destruct b; lia. }
  specialize (G l). rewrite L in G. exact G.
Qed.
(** A word is the sum of the basis elements its bits select. *)
Lemma word_basis m : W m -> sum (map (fun p : bool * N => if fst p then snd p else 0%N) (combine (map (fun i => N.testbit m (N.of_nat i)) (seq 0 128)) (basis 128))) = m.
Proof.
  intros Hm. unfold basis. 
  assert (G : forall k s, (forall j, s + k <= j -> N.testbit m (N.of_nat j) = false) -> forall j,
    N.testbit (sum (map (fun p : bool * N => if fst p then snd p else 0%N)
      (combine (map (fun i => N.testbit m (N.of_nat i)) (seq s k)) (map (fun i => N.shiftl 1 (N.of_nat i)) (seq s k))))) (N.of_nat j)
    = (s <=? j) && N.testbit m (N.of_nat j)).
  { induction k as [|k IH]; intros s Hh j; cbn [seq map combine].
    - rewrite N.bits_0. destruct (Nat.leb_spec s j); auto. rewrite Hh by lia. auto.
    - rewrite sum_cons, N.lxor_spec. cbn [fst snd]. rewrite IH by (intros; apply Hh; lia).
      assert (E : N.testbit (if N.testbit m (N.of_nat s) then N.shiftl 1 (N.of_nat s) else 0%N) (N.of_nat j) = (s =? j) && N.testbit m (N.of_nat j)).
      { destruct (Nat.eqb_spec s j) as [->|Hne].
        - destruct (N.testbit m (N.of_nat j)) eqn:Em; [|apply N.bits_0]. rewrite N.shiftl_1_l. apply N.pow2_bits_true.
        - destruct (N.testbit m (N.of_nat s)); [|apply N.bits_0]. rewrite N.shiftl_1_l. apply N.pow2_bits_false. lia. }
      rewrite E. destruct (Nat.eqb_spec s j), (Nat.leb_spec (S s) j), (Nat.leb_spec s j); cbn [andb]; try lia; rewrite ?xorb_false_l, ?xorb_false_r; auto. }
  apply N.bits_inj. intros j. rewrite <- (N2Nat.id j), G by (intros; apply word_high; auto; lia). reflexivity.
Qed.

(** The two halves of the check on arbitrary outputs. *)
Lemma vxor_assoc3 a b c : N.lxor (N.lxor a b) (N.lxor (N.lxor c b) a) = c.
Proof. apply N.bits_inj. intros n. rewrite !N.lxor_spec. destruct (N.testbit a n), (N.testbit b n), (N.testbit c n); reflexivity. Qed.
Lemma paired_words delta l m : W delta -> Forall2 (paired delta) l m -> Forall W l /\ Forall W m.
Proof.
  intros Hd H. induction H as [|x y l m Hxy H [IH1 IH2]]; [auto|]. split; constructor; auto; [apply Hxy|eapply paired_bound; eauto].
Qed.
Lemma paired_vxor delta l m : Forall2 (paired delta) l m -> m = vxor l (map (sel delta) m).
Proof.
  intros H. induction H as [|x y l m (_ & _ & E) H IH]; [reflexivity|]. unfold vxor. cbn [map combine fst snd]. fold (vxor l (map (sel delta) m)).
  rewrite <- IH. f_equal. exact E.
Qed.
Lemma vxor_map_seq l f : length l = 128 -> map (fun i => N.lxor (nth i l 0%N) (f i)) (seq 0 128) = vxor l (map f (seq 0 128)).
Proof.
  intros L. rewrite <- L. unfold vxor. clear L. assert (G : forall l s pre, length pre = s ->
    map (fun i => N.lxor (nth i (pre ++ l) 0%N) (f i)) (seq s (length l)) = map (fun p => N.lxor (fst p) (snd p)) (combine l (map f (seq s (length l))))).
  { clear l. induction l as [|x l IH]; intros s pre P; [reflexivity|]. cbn [length seq map combine fst snd].
    rewrite app_nth2 by lia. rewrite P, Nat.sub_diag. cbn [nth]. f_equal.
    rewrite <- (IH (S s) (pre ++ [x])) by (rewrite app_length; cbn; lia). rewrite <- app_assoc. reflexivity. }
  apply (G l 0 []). reflexivity.
Qed.
Lemma xor_list_eq a b c : N.lxor a b = N.lxor c b -> a = c.
Proof. intros H. apply (f_equal (fun x => N.lxor x b)) in H. rewrite !N.lxor_assoc, N.lxor_nilpotent, !N.lxor_0_r in H. exact H. Qed.
(** The last punctured position is at least 2; no position exceeds the last one. *)
Definition good_positions (orr : list N) : Prop := exists i, 2 <= i /\ i < length orr /\ N.odd (nth i orr 0%N) = true.
Lemma positions_last l : forall k i, i < length l -> N.odd (nth i l 0%N) = true ->
  pos_from k l <> [] /\ (N.of_nat (k + i) <= last (pos_from k l) 0)%N.
Proof.
  induction l as [|x l IH]; intros k i Hi Ho; cbn [length] in Hi; [lia|]. cbn [pos_from]. destruct i as [|i]; cbn [nth] in Ho.
  - rewrite Ho. split; [discriminate|]. assert (G : forall l j, (pos_from j l = [] \/ (N.of_nat j <= last (pos_from j l) 0)%N)).
    { clear. induction l as [|y l IH]; intros j; cbn [pos_from]; [auto|]. destruct (N.odd y).
      - right. destruct (IH (S j)) as [E|E]; [rewrite E; cbn; lia|]. destruct (pos_from (S j) l) eqn:El; [cbn; lia|]. cbn [last] in *. lia.
      - destruct (IH (S j)) as [E|E]; [auto|right; lia]. }
    destruct (G l (S k)) as [E|E]; [rewrite E; cbn; lia|]. destruct (pos_from (S k) l); cbn [last] in *; lia.
  - destruct (IH (S k) i ltac:(lia) Ho) as [A B]. destruct (N.odd x).
    + split; [discriminate|]. destruct (pos_from (S k) l) eqn:E; [contradiction|]. cbn [last] in *. lia.
    + split; auto. replace (k + S i) with (S k + i) by lia. auto.
Qed.
Lemma positions_range l : forall k x, In x (pos_from k l) -> (N.of_nat k <= x < N.of_nat (k + length l))%N /\ (x <= last (pos_from k l) 0)%N.
Proof.
  induction l as [|y l IH]; intros k x Hx; [destruct Hx|]. cbn [pos_from length] in *.
  assert (G : forall z, In z (pos_from (S k) l) -> (N.of_nat k <= z < N.of_nat (k + S (length l)))%N /\ (z <= last (pos_from (S k) l) 0)%N).
  { intros z Hz. destruct (IH (S k) z Hz). split; [lia|auto]. }
  destruct (N.odd y).
  - destruct Hx as [<-|Hx].
    + split; [lia|]. destruct (pos_from (S k) l) as [|z r] eqn:E; [cbn; lia|]. destruct (G z (or_introl eq_refl)) as [A B].
      change (last (N.of_nat k :: z :: r) 0%N) with (last (z :: r) 0%N). lia.
    + destruct (G x Hx) as [A B]. split; [auto|]. destruct (pos_from (S k) l) eqn:E; [destruct Hx|]. exact B.
  - apply G. auto.
Qed.
Lemma last_in (l : list N) : l <> [] -> In (last l 0%N) l.
Proof. induction l as [|x l IH]; intros H; [contradiction|]. destruct l; [left; reflexivity|]. right. apply IH. discriminate. Qed.
Section Check.
Variables (digest : N -> N) (delta : N).
Hypothesis delta_lt : W delta.
Lemma check_general ks kr seed os orr : W seed -> length os = length orr -> Forall W os -> Forall W orr ->
  Forall2 (paired delta) (blocks ks) (blocks kr) -> length (blocks ks) = 128 ->
  good_positions orr -> (N.of_nat (length orr) <= 2 ^ 63)%N ->
  exists m v, recv_check kr seed orr = Val (m, v) /\ W m /\ W v /\
    send_check digest delta ks seed os m = Val (digest (N.lxor v (universal_hash gf128_mul seed (errors delta os orr)))).
Proof.
  intros Hs L Ho Hr P L1 (i & Hi2 & Hi & Hio) Hlen.
  pose proof gf128_field as HF. pose proof HF as (F1 & F2 & F3 & F4 & F5 & _).
  destruct (paired_words _ _ _ delta_lt P) as [W1 W2]. pose proof (Forall2_len _ _ _ P) as L2.
  unfold recv_check. rewrite pack_val by (auto; lia). cbn [of_opt bind].
  assert (Ec : extract_hash_coef gf128_mul seed (odd_positions orr) = Some (coefs seed orr) /\ odd_positions orr <> []).
  { rewrite odd_positions_from. destruct (positions_last orr 0 i Hi Hio) as [A B]. split; auto.
    unfold coefs. rewrite odd_positions_from. apply (proj2 extract_hash_coef_partial); auto.
    - intros j Hj. apply (positions_range orr 0 j Hj).
    - pose proof (last_in _ A) as Il. apply positions_range in Il. lia. }
  destruct Ec as [Ec En]. destruct (odd_positions orr) as [|p0 ps] eqn:Ep; [contradiction|]. rewrite Ec. cbn [of_opt bind]. rewrite fold_sum.
  set (C := sum (coefs seed orr)). set (c := word_of (map N.odd (blocks kr))).
  assert (Wc : W c) by (apply word_of_lt; rewrite map_length; lia).
  assert (WC : W C).
  { apply sum_words. apply Forall_forall. intros y Hy. apply in_map_iff in Hy as (j & <- & _). apply (power_word gf128_mul HF). auto. }
  assert (Wm : W (N.lxor c C)) by (apply word_xor; auto).
  assert (Wp : forall l, Forall W l -> W (pack l)).
  { intros l Hl. apply sum_words. apply Forall_forall. intros y Hy. apply in_map_iff in Hy as ([a b] & <- & Hin). cbn [fst snd].
    pose proof basis_words as HB. rewrite Forall_forall in Hl, HB. apply F1; [apply Hl|apply HB]; [eapply in_combine_l|eapply in_combine_r]; eauto. }
  assert (Wu : forall l, Forall W l -> W (universal_hash gf128_mul seed l)).
  { intros l Hl. rewrite (proj2 universal_hash_correct) by auto. apply sum_words. apply Forall_forall. intros y Hy. apply in_map_iff in Hy as ([a b] & <- & Hin). cbn [fst snd].
    apply F1; [|apply (power_word gf128_mul HF); auto]. unfold indexed in Hin. apply in_combine_r in Hin. rewrite Forall_forall in Hl. auto. }
  eexists. eexists. split; [reflexivity|]. split; [auto|]. split; [apply word_xor; auto|].
  unfold send_check. set (bits := map (fun j => N.testbit (N.lxor c C) (N.of_nat j)) (seq 0 128)).
  rewrite (vxor_map_seq (blocks ks) (fun j => if N.testbit (N.lxor c C) (N.of_nat j) then delta else 0%N)) by auto.
  replace (map (fun j => if N.testbit (N.lxor c C) (N.of_nat j) then delta else 0%N) (seq 0 128))
    with (map (fun b : bool => if b then delta else 0%N) bits) by (unfold bits; rewrite map_map; reflexivity).
  assert (Lb : length (map (fun b : bool => if b then delta else 0%N) bits) = 128) by (unfold bits; rewrite !map_length, seq_length; auto).
  assert (Wb : Forall W (map (fun b : bool => if b then delta else 0%N) bits)).
  { apply Forall_forall. intros y Hy. apply in_map_iff in Hy as ([|] & <- & _); auto using word0. }
  rewrite pack_val; [|rewrite vxor_length; lia|apply vxor_words; auto]. cbn [of_opt bind]. f_equal. f_equal.
  rewrite pack_xor by (auto; lia). rewrite pack_bits by auto. unfold bits at 1. rewrite word_basis by auto. rewrite F4 by auto.
  assert (Ek : pack (blocks kr) = N.lxor (pack (blocks ks)) (gf128_mul delta c)).
  { rewrite (paired_vxor delta _ _ P) at 1. rewrite pack_xor; [|rewrite map_length; lia|auto|apply sel_words; auto]. f_equal.
    replace (map (sel delta) (blocks kr)) with (map (fun b : bool => if b then delta else 0%N) (map N.odd (blocks kr))) by (rewrite map_map; reflexivity).
    rewrite pack_bits by auto. f_equal. rewrite <- (word_basis c Wc). f_equal. f_equal. f_equal.
    apply (nth_ext _ _ false false); rewrite !map_length, ?seq_length; [lia|]. intros j Hj.
    rewrite (nth_indep (map (fun i => N.testbit c (N.of_nat i)) (seq 0 128)) false ((fun i => N.testbit c (N.of_nat i)) 0)) by (rewrite map_length, seq_length; lia).
    rewrite (map_nth (fun i => N.testbit c (N.of_nat i))), seq_nth by lia. unfold c. rewrite word_of_bit. reflexivity. }
  rewrite Ek. unfold errors.
  unfold vxor at 1.
  rewrite (proj2 universal_hash_linear); [|auto|rewrite vxor_length, map_length; lia|apply vxor_words; auto|apply sel_words; auto].
  unfold vxor at 1. rewrite (proj2 universal_hash_linear) by auto. rewrite hash_sel by auto. fold C.
  generalize (universal_hash gf128_mul seed os), (universal_hash gf128_mul seed orr), (pack (blocks ks)), (gf128_mul delta c), (gf128_mul delta C).
  intros u1 u2 p1 d1 d2. apply N.bits_inj. intros j. rewrite !N.lxor_spec.
  destruct (N.testbit u1 j), (N.testbit u2 j), (N.testbit p1 j), (N.testbit d1 j), (N.testbit d2 j); reflexivity.
Qed.
Lemma errors_paired os orr : Forall2 (paired delta) os orr -> errors delta os orr = repeat 0%N (length os).
Proof.
  intros H. unfold errors, vxor. induction H as [|x y l m (_ & _ & E) H IH]; [reflexivity|]. cbn [map combine fst snd length repeat]. f_equal; [|exact IH].
  unfold sel. rewrite E at 1. rewrite <- N.lxor_assoc, N.lxor_nilpotent, N.lxor_0_l. apply N.lxor_nilpotent.
Qed.
Lemma errors_zero os orr : length os = length orr -> Forall (fun x => x = 0%N) (errors delta os orr) ->
  forall i, i < length os -> nth i orr 0%N = N.lxor (nth i os 0%N) (if N.odd (nth i orr 0%N) then delta else 0%N).
Proof.
  revert orr. unfold errors, vxor. induction os as [|x os IH]; intros [|y orr] L H i Hi; cbn [length] in *; try lia; try discriminate.
  cbn [map combine fst snd] in H. inversion_clear H as [|? ? E1 E2]. destruct i as [|i]; cbn [nth]; [|apply IH; auto; lia].
  unfold sel in E1. apply N.lxor_eq in E1. rewrite <- E1, <- N.lxor_assoc, N.lxor_nilpotent, N.lxor_0_l. reflexivity.
Qed.
End Check.

Section Roots.
Variable mu : N -> N -> N.
Hypothesis HF : is_field 128 mu.
(** Evaluation of a polynomial, lowest coefficient first, and division by X - a. *)
Fixpoint ev (c : list N) (s : N) : N := match c with [] => 0%N | x :: r => N.lxor x (mu s (ev r s)) end.
Fixpoint quot (a : N) (c : list N) : list N :=
  match c with [] => [] | _ :: r => match r with [] => [] | _ => ev r a :: quot a r end end.
Lemma ev_word c s : Forall W c -> W s -> W (ev c s).
Proof. destruct HF as (F1 & _). intros Hc Hs. induction Hc; cbn [ev]; [apply word0|]. apply word_xor; auto. Qed.
Lemma quot_words a c : Forall W c -> W a -> Forall W (quot a c).
Proof.
  intros Hc Ha. induction Hc as [|x r Hx Hr IH]; cbn [quot]; [constructor|]. destruct r as [|y r']; [constructor|]. constructor; auto. apply ev_word; auto.
Qed.
Lemma quot_length a c : length (quot a c) = length c - 1.
Proof. induction c as [|x r IH]; [reflexivity|]. cbn [quot length]. destruct r as [|y r']; [reflexivity|]. cbn [length] in *. lia. Qed.
Lemma ev_quot a s c : Forall W c -> W a -> W s -> N.lxor (ev c s) (ev c a) = mu (N.lxor s a) (ev (quot a c) s).
Proof.
  destruct HF as (F1 & F2 & F3 & F4 & F5 & _). intros Hc Ha Hs. assert (Wsa : W (N.lxor s a)) by (apply word_xor; auto).
  induction Hc as [|x r Hx Hr IH]; [symmetry; apply (mu_0_r mu HF); auto|].
  cbn [ev quot]. destruct r as [|y r'].
  - cbn [ev]. rewrite !(mu_0_r mu HF) by auto. apply N.lxor_nilpotent.
  - set (r := y :: r') in *. cbn [ev]. assert (Ws : W (ev r s)) by (apply ev_word; auto). assert (Wa : W (ev r a)) by (apply ev_word; auto).
    assert (Wq : W (ev (quot a r) s)) by (apply ev_word; auto using quot_words).
    rewrite F4 by auto. rewrite F3 by auto. rewrite (F2 (N.lxor s a) s) by auto. rewrite <- F3 by auto. rewrite <- IH.
    rewrite F4 by auto. rewrite (mu_xor_l mu HF) by auto.
    generalize (mu s (ev r s)), (mu a (ev r a)), (mu s (ev r a)). intros u1 u2 u3. apply N.bits_inj. intros j. rewrite !N.lxor_spec.
    destruct (N.testbit x j), (N.testbit u1 j), (N.testbit u2 j), (N.testbit u3 j); reflexivity.
Qed.
Lemma quot_zero a c : W a -> Forall (fun x => x = 0%N) (quot a c) -> Forall (fun x => x = 0%N) (tl c).
Proof.
  intros Ha. induction c as [|x r IH]; intros H; [constructor|]. cbn [quot tl] in *. destruct r as [|y r']; [constructor|].
  inversion_clear H as [|? ? E1 E2]. specialize (IH E2). cbn [tl] in IH. constructor; auto.
  cbn [ev] in E1. assert (Z : ev r' a = 0%N).
  { clear -IH HF Ha. induction IH as [|z r' Hz Hr' IH']; [reflexivity|]. cbn [ev]. rewrite IH', Hz, (mu_0_r mu HF) by auto. reflexivity. }
  rewrite Z, (mu_0_r mu HF), N.lxor_0_r in E1 by auto. exact E1.
Qed.
Lemma root_bound : forall m c rs, length c = m -> Forall W c -> Forall W rs -> NoDup rs -> Forall (fun s => ev c s = 0%N) rs ->
  m <= length rs -> Forall (fun x => x = 0%N) c.
Proof.
  pose proof HF as (F1 & F2 & F3 & F4 & F5 & F6 & _).
  induction m as [|m IH]; intros c rs Lc Hc Hrs ND Hz Hm; [destruct c; [constructor|discriminate]|].
  destruct rs as [|a rs]; [cbn in Hm; lia|]. inversion_clear Hrs as [|? ? Wa Wrs]. inversion_clear ND as [|? ? Na ND']. inversion_clear Hz as [|? ? Za Zrs].
  assert (Q : Forall (fun x => x = 0%N) (quot a c)).
  { apply (IH (quot a c) rs); auto; [rewrite quot_length; lia|apply quot_words; auto| |cbn in Hm; lia].
    apply Forall_forall. intros s Hs. rewrite Forall_forall in Wrs, Zrs. pose proof (ev_quot a s c Hc Wa (Wrs s Hs)) as E.
    rewrite Zrs, Za, N.lxor_0_r in E by auto. symmetry in E. apply F6 in E; [|apply word_xor; auto|apply ev_word; auto; apply quot_words; auto].
    destruct E as [E|E]; auto. apply N.lxor_eq in E. subst s. contradiction. }
  apply quot_zero in Q; auto. destruct c as [|x c]; [discriminate|]. cbn [tl] in Q. constructor; auto.
  cbn [ev] in Za. assert (Z : ev c a = 0%N).
  { clear -Q HF Wa. induction Q as [|z r' Hz' Hr' IH']; [reflexivity|]. cbn [ev]. rewrite IH', Hz', (mu_0_r mu HF) by auto. reflexivity. }
  rewrite Z, (mu_0_r mu HF), N.lxor_0_r in Za by auto. exact Za.
Qed.
End Roots.
Lemma uhash_ev seed d : W seed -> Forall W d -> universal_hash gf128_mul seed d = ev gf128_mul (0%N :: d) seed.
Proof.
  intros Hs Hd. unfold universal_hash. rewrite <- fold_left_rev_right, rev_involutive. cbn [ev]. rewrite N.lxor_0_l.
  induction Hd as [|x d Hx Hd IH]; cbn [fold_right ev].
  - symmetry. apply (mu_0_r gf128_mul gf128_field). auto.
  - rewrite IH, N.lxor_comm. reflexivity.
Qed.
