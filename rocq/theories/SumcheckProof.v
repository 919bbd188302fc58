(** Lemmas for SumcheckModel. *)
From Coq Require Import ZArith List Bool Lia Zdiv Znumtheory Setoid Morphisms FinFun.
From Verif Require Import ZpLib VssModel VssProof SumcheckModel.
Import ListNotations.
Open Scope Z_scope.

(** ** Finite sums *)
Fixpoint zsum (f : nat -> Z) (n : nat) : Z := match n with O => 0 | S n' => zsum f n' + f n' end.
Lemma zsum_ext_eqm p f g n : (forall i, (i < n)%nat -> eqm p (f i) (g i)) -> eqm p (zsum f n) (zsum g n).
Proof. induction n as [|n IH]; intros H; cbn [zsum]; [reflexivity|]. rewrite IH by (intros; apply H; lia). rewrite (H n) by lia. reflexivity. Qed.
Lemma zsum_ext f g n : (forall i, (i < n)%nat -> f i = g i) -> zsum f n = zsum g n.
Proof. induction n as [|n IH]; intros H; cbn [zsum]; [reflexivity|]. rewrite IH by (intros; apply H; lia). rewrite (H n) by lia. reflexivity. Qed.
Lemma zsum_add f g n : zsum (fun i => f i + g i) n = zsum f n + zsum g n.
Proof. induction n as [|n IH]; cbn [zsum]; [reflexivity|]. rewrite IH. ring. Qed.
Lemma zsum_scale k f n : zsum (fun i => k * f i) n = k * zsum f n.
Proof. induction n as [|n IH]; cbn [zsum]; [ring|]. rewrite IH. ring. Qed.
Lemma zsum_zero f n : (forall i, (i < n)%nat -> f i = 0) -> zsum f n = 0.
Proof. induction n as [|n IH]; intros H; cbn [zsum]; [reflexivity|]. rewrite IH by (intros; apply H; lia). rewrite H by lia. reflexivity. Qed.
Lemma zsum_app f n m : zsum f (n + m) = zsum f n + zsum (fun i => f (n + i)%nat) m.
Proof. induction m as [|m IH]; [rewrite Nat.add_0_r; cbn; ring|]. rewrite Nat.add_succ_r. cbn [zsum]. rewrite IH. ring. Qed.
Lemma zsum_swap f n m : zsum (fun i => zsum (fun j => f i j) m) n = zsum (fun j => zsum (fun i => f i j) n) m.
Proof.
  induction n as [|n IH]; cbn [zsum].
  - symmetry. apply zsum_zero. auto.
  - rewrite IH, <- zsum_add. reflexivity.
Qed.
Lemma zsum_pick f n k : (k < n)%nat -> zsum (fun i => if Nat.eqb i k then f i else 0) n = f k.
Proof.
  induction n as [|n IH]; intros H; [lia|]. cbn [zsum]. destruct (Nat.eqb_spec n k) as [->|N].
  - rewrite zsum_zero; [ring|]. intros i Hi. destruct (Nat.eqb_spec i k); [lia|reflexivity].
  - rewrite IH by lia. ring.
Qed.
Lemma zsum_mul f n m : zsum f (n * m) = zsum (fun i => zsum (fun j => f (i * m + j)%nat) m) n.
Proof.
  induction n as [|n IH]; [reflexivity|]. replace (S n * m)%nat with (n * m + m)%nat by lia.
  rewrite zsum_app, IH. reflexivity.
Qed.
Lemma zsum_list p l : forall acc, eqm p (fold_left (fun s v => add_mod s v p) l acc) (acc + zsum (fun i => nth i l 0) (length l)).
Proof.
  induction l as [|a l IH]; intros acc; cbn [fold_left].
  - cbn. mring.
  - rewrite IH, add_mod_eqm. change (length (a :: l)) with (1 + length l)%nat. rewrite zsum_app. cbn [zsum plus nth]. mring.
Qed.
Lemma fold_seq_eqm p (f : nat -> Z) n : forall s acc, eqm p (fold_left (fun s j => add_mod s (f j) p) (seq s n) acc) (acc + zsum (fun i => f (s + i)%nat) n).
Proof.
  induction n as [|n IH]; intros s acc.
  - cbn. mring.
  - rewrite seq_S, fold_left_app. cbn [fold_left zsum]. rewrite add_mod_eqm, IH. mring.
Qed.

(** ** Bits of indexes *)
Lemma pow2_pos n : (0 < 2 ^ n)%nat.
Proof. pose proof (Nat.pow_nonzero 2 n). lia. Qed.
Lemma testbit_hi k i : (i < 2 ^ k)%nat -> Nat.testbit (2 ^ k + i) k = true.
Proof.
  intros H. apply Nat.testbit_true. replace (2 ^ k + i)%nat with (i + 1 * 2 ^ k)%nat by lia.
  rewrite Nat.div_add by (pose proof (pow2_pos k); lia). rewrite Nat.div_small by auto. reflexivity.
Qed.
Lemma testbit_lo k i : (i < 2 ^ k)%nat -> Nat.testbit i k = false.
Proof. intros H. apply Nat.testbit_false. rewrite Nat.div_small by auto. reflexivity. Qed.
Lemma testbit_mod k n i : (k < n)%nat -> Nat.testbit (i mod 2 ^ n) k = Nat.testbit i k.
Proof. intros H. apply Nat.mod_pow2_bits_low. auto. Qed.
Lemma testbit_shift i j n k : (j < 2 ^ n)%nat -> Nat.testbit (i * 2 ^ n + j) (k + n) = Nat.testbit i k.
Proof.
  intros H. rewrite <- Nat.div_pow2_bits. f_equal.
  rewrite Nat.add_comm, Nat.div_add by (pose proof (pow2_pos n); lia). rewrite Nat.div_small by auto. reflexivity.
Qed.

(** ** Multilinear weights *)
Fixpoint wt (r : list Z) (i : nat) : Z :=
  match r with
  | [] => 1
  | r0 :: r' => (if Nat.testbit i (length r') then r0 else 1 - r0) * wt r' i
  end.
Lemma wt_mod r : forall n i, (length r <= n)%nat -> wt r (i mod 2 ^ n) = wt r i.
Proof.
  induction r as [|r0 r IH]; intros n i H; [reflexivity|]. cbn [wt length] in *.
  rewrite testbit_mod by lia. rewrite IH by lia. reflexivity.
Qed.
Lemma wt_high r i : (i < 2 ^ length r)%nat -> wt r (2 ^ length r + i) = wt r i.
Proof.
  intros H. rewrite <- (wt_mod r (length r)) by lia. f_equal.
  replace (2 ^ length r + i)%nat with (i + 1 * 2 ^ length r)%nat by lia.
  rewrite Nat.mod_add by (pose proof (pow2_pos (length r)); lia). apply Nat.mod_small. auto.
Qed.
Lemma wt_app u v i j : (j < 2 ^ length v)%nat -> wt (u ++ v) (i * 2 ^ length v + j) = wt u i * wt v j.
Proof.
  intros Hj. induction u as [|u0 u IH].
  - cbn [app wt]. rewrite <- (wt_mod v (length v)) by lia. rewrite Nat.add_comm, Nat.mod_add by (pose proof (pow2_pos (length v)); lia).
    rewrite Nat.mod_small by auto. ring.
  - cbn [app wt]. rewrite app_length, testbit_shift by auto. rewrite IH. ring.
Qed.
Definition mle (v r : list Z) : Z := zsum (fun i => nth i v 0 * wt r i) (2 ^ length r).
Lemma mle_split v r0 r : mle v (r0 :: r) =
  (1 - r0) * zsum (fun i => nth i v 0 * wt r i) (2 ^ length r) +
  r0 * zsum (fun i => nth (2 ^ length r + i) v 0 * wt r i) (2 ^ length r).
Proof.
  unfold mle. cbn [length]. replace (2 ^ S (length r))%nat with (2 ^ length r + 2 ^ length r)%nat by (cbn; lia).
  rewrite zsum_app. rewrite <- !zsum_scale. f_equal; apply zsum_ext; intros i Hi; cbn [wt].
  - rewrite testbit_lo by auto. ring.
  - rewrite testbit_hi by auto. rewrite wt_high by auto. ring.
Qed.

Lemma half_pow k n : n = (2 ^ S k)%nat -> (n / 2 = 2 ^ k)%nat.
Proof. intros ->. cbn [Nat.pow]. rewrite Nat.mul_comm. apply Nat.div_mul. lia. Qed.
Lemma fold_half_length p v r k : length v = (2 ^ S k)%nat -> length (fold_half p v r) = (2 ^ k)%nat.
Proof. intros H. unfold fold_half. rewrite map_length, seq_length. apply half_pow. auto. Qed.
Lemma nth_map_seq {A} (f : nat -> A) n i d : (i < n)%nat -> nth i (map f (seq 0 n)) d = f i.
Proof.
  intros H. rewrite (nth_indep _ d (f 0%nat)) by (rewrite map_length, seq_length; auto).
  rewrite map_nth, seq_nth by auto. reflexivity.
Qed.
Lemma fold_half_nth p v r k i : length v = (2 ^ S k)%nat -> (i < 2 ^ k)%nat ->
  eqm p (nth i (fold_half p v r) 0) ((1 - r) * nth i v 0 + r * nth (2 ^ k + i) v 0).
Proof.
  intros H Hi. unfold fold_half. rewrite (half_pow k) by auto. rewrite nth_map_seq by auto.
  rewrite add_mod_eqm, !mul_mod_eqm, sub_mod_eqm. rewrite (Nat.add_comm i). mring.
Qed.
Lemma fold_half_range p v r i : 0 < p -> (i < length v / 2)%nat -> 0 <= nth i (fold_half p v r) 0 < p.
Proof. intros Hp H. unfold fold_half. rewrite nth_map_seq by auto. apply Z.mod_pos_bound. auto. Qed.
Lemma mle_fold p v r0 r : length v = (2 ^ S (length r))%nat ->
  eqm p (mle (fold_half p v r0) r) (mle v (r0 :: r)).
Proof.
  intros H. rewrite mle_split. unfold mle. rewrite <- !zsum_scale, <- zsum_add. apply zsum_ext_eqm.
  intros i Hi. rewrite (fold_half_nth p v r0 (length r)) by auto. mring.
Qed.
Lemma evaluate_loop_eqm p r : forall v, length v = (2 ^ length r)%nat -> eqm p (evaluate_loop p v r) (mle v r).
Proof.
  induction r as [|r0 r IH]; intros v H; cbn [evaluate_loop].
  - unfold mle. cbn. mring.
  - rewrite IH by (apply fold_half_length; exact H). apply mle_fold. exact H.
Qed.
Lemma evaluate_loop_range p r : forall v, 0 < p -> length v = (2 ^ length r)%nat -> (r <> [] \/ 0 <= nth 0 v 0 < p) ->
  0 <= evaluate_loop p v r < p.
Proof.
  induction r as [|r0 r IH]; intros v Hp H R; cbn [evaluate_loop].
  - destruct R; [contradiction|auto].
  - apply IH; auto; [apply fold_half_length; exact H|]. right. apply fold_half_range; auto.
    rewrite (half_pow (length r)) by auto. apply pow2_pos.
Qed.
Lemma num_vars_pow v k : length v = (2 ^ k)%nat -> num_vars v = k.
Proof. intros H. unfold num_vars. rewrite H. apply Nat.log2_pow2. lia. Qed.
Lemma make_poly_some v g : make_poly v = Some g -> g = v /\ length v = (2 ^ num_vars v)%nat.
Proof. unfold make_poly, num_vars. destruct (Nat.eqb_spec (length v) (2 ^ Nat.log2 (length v))); [|discriminate]. intros [= <-]. auto. Qed.
Lemma make_poly_pow v k : length v = (2 ^ k)%nat -> make_poly v = Some v.
Proof. intros H. unfold make_poly. rewrite H, Nat.log2_pow2 by lia. rewrite Nat.eqb_refl. reflexivity. Qed.

(** ** Sums and the honest prover *)
Definition vsum (v : list Z) : Z := zsum (fun i => nth i v 0) (length v).
Lemma sum_hypercube_eqm p v : eqm p (sum_hypercube p v) (vsum v).
Proof. unfold sum_hypercube, vsum. rewrite zsum_list. mring. Qed.
Lemma vsum_fold p v r k : length v = (2 ^ S k)%nat ->
  eqm p (vsum (fold_half p v r)) ((1 - r) * zsum (fun i => nth i v 0) (2 ^ k) + r * zsum (fun i => nth (2 ^ k + i) v 0) (2 ^ k)).
Proof.
  intros H. unfold vsum. rewrite (fold_half_length p v r k) by auto. rewrite <- !zsum_scale, <- zsum_add.
  apply zsum_ext_eqm. intros i Hi. rewrite (fold_half_nth p v r k) by auto. mring.
Qed.
Lemma vsum_split v k : length v = (2 ^ S k)%nat ->
  vsum v = zsum (fun i => nth i v 0) (2 ^ k) + zsum (fun i => nth (2 ^ k + i) v 0) (2 ^ k).
Proof.
  intros H. unfold vsum. rewrite H. replace (2 ^ S k)%nat with (2 ^ k + 2 ^ k)%nat by (cbn; lia). apply zsum_app.
Qed.
Lemma next_round_eqm p v k : length v = (2 ^ S k)%nat -> exists a0 a1,
  next_round_poly p v = [a0; a1] /\ eqm p a0 (zsum (fun i => nth i v 0) (2 ^ k)) /\
  eqm p a1 (zsum (fun i => nth (2 ^ k + i) v 0) (2 ^ k) - zsum (fun i => nth i v 0) (2 ^ k)).
Proof.
  intros H. unfold next_round_poly. rewrite (half_pow k) by auto. eexists; eexists. split; [reflexivity|].
  assert (A : eqm p (fold_left (fun s j => add_mod s (nth j v 0) p) (seq 0 (2 ^ k)) 0) (zsum (fun i => nth i v 0) (2 ^ k))).
  { rewrite (fold_seq_eqm p (fun j => nth j v 0)). cbn [plus]. mring. }
  split; [exact A|]. rewrite sub_mod_eqm, A.
  rewrite (fold_seq_eqm p (fun j => nth (j + 2 ^ k) v 0)). cbn [plus].
  apply eqm_sub; [|reflexivity]. rewrite Z.add_0_l. apply zsum_ext_eqm. intros i Hi. rewrite Nat.add_comm. reflexivity.
Qed.
Lemma univariate_eqm p a0 a1 x : eqm p (evaluate_univariate p [a0; a1] x) (a0 + a1 * x).
Proof. unfold evaluate_univariate. cbn [rev app fold_left]. rewrite add_mod_eqm, mul_mod_eqm, add_mod_eqm, mul_mod_eqm. mring. Qed.
Lemma univariate_range p a0 a1 x : 0 < p -> 0 <= evaluate_univariate p [a0; a1] x < p.
Proof. intros Hp. unfold evaluate_univariate. cbn [rev app fold_left]. apply Z.mod_pos_bound. auto. Qed.

Lemma evaluate_loop_folded p r : forall v, evaluate_loop p v r = nth 0 (folded p v r) 0.
Proof. induction r as [|r0 r IH]; intros v; cbn [evaluate_loop]; [reflexivity|]. rewrite IH. reflexivity. Qed.
Lemma folded_snoc p g seen r : folded p g (seen ++ [r]) = fold_half p (folded p g seen) r.
Proof. unfold folded. rewrite fold_left_app. reflexivity. Qed.
Lemma folded_length p seen : forall g k, length g = (2 ^ (length seen + k))%nat -> length (folded p g seen) = (2 ^ k)%nat.
Proof.
  induction seen as [|r seen IH]; intros g k H; [exact H|]. cbn [folded fold_left] in *. apply (IH _ k).
  apply fold_half_length. exact H.
Qed.

Lemma honest_run p g : 0 < p -> forall chs seen e, length g = (2 ^ (length seen + length chs))%nat ->
  (chs = [] -> seen = [] \/ 0 <= nth 0 (folded p g seen) 0 < p) ->
  (verifier_run p g (honest_prover p g) (honest_final p g) e seen chs = true <->
   e = match chs with [] => nth 0 (folded p g seen) 0 | _ => vsum (folded p g seen) mod p end).
Proof.
  intros Hp. induction chs as [|r chs IH]; intros seen e H R.
  - cbn [verifier_run]. unfold evaluate. cbn [length] in H. rewrite Nat.add_0_r in H. rewrite (num_vars_pow g _ H), Nat.eqb_refl.
    rewrite evaluate_loop_folded. unfold honest_final. rewrite Z.eqb_refl. cbn [andb]. apply Z.eqb_eq.
  - cbn [verifier_run].
    set (v := folded p g seen).
    assert (Lv : length v = (2 ^ S (length chs))%nat) by (apply folded_length; exact H).
    destruct (next_round_eqm p v (length chs) Lv) as [a0 [a1 [E [E0 E1]]]].
    change (honest_prover p g seen) with (next_round_poly p v). rewrite E. cbn [verify_round].
    assert (S0 : add_mod a0 (add_mod a0 a1 p) p = vsum v mod p).
    { unfold add_mod. apply (eqm_small p); try (apply Z.mod_pos_bound; auto). rewrite !eqm_mod, (vsum_split v (length chs)) by auto.
      rewrite E0, E1. mring. }
    rewrite S0. destruct (Z.eqb_spec (vsum v mod p) e) as [<-|N].
    + split; [reflexivity|]. intros _.
      assert (F : folded p g (seen ++ [r]) = fold_half p v r) by (rewrite folded_snoc; reflexivity).
      apply IH.
      * rewrite app_length. cbn [length] in *. rewrite H. f_equal. lia.
      * intros ->. right. rewrite F. apply fold_half_range; auto. rewrite (half_pow 0) by auto. cbn. lia.
      * rewrite F.
        assert (K : eqm p (evaluate_univariate p [a0; a1] r) (vsum (fold_half p v r))).
        { rewrite univariate_eqm, E0, E1, (vsum_fold p v r (length chs)) by auto. mring. }
        destruct chs as [|r' chs].
        -- apply (eqm_small p); [apply univariate_range; auto|apply fold_half_range; auto; rewrite (half_pow 0) by auto; cbn; lia|].
           rewrite K. unfold vsum. rewrite (fold_half_length p v r 0) by auto. cbn. mring.
        -- apply eqm_some; auto. apply univariate_range; auto.
    + split; [discriminate|]. intros ->. contradiction.
Qed.
Lemma run_sumcheck_exact p g claimed tape k : 0 < p -> length g = (2 ^ k)%nat ->
  (run_sumcheck p g claimed tape = true <-> claimed = match k with O => nth 0 g 0 | _ => vsum g mod p end).
Proof.
  intros Hp H. unfold run_sumcheck. rewrite (num_vars_pow g k H). rewrite (honest_run p g Hp).
  - destruct k; reflexivity.
  - cbn [length plus]. rewrite map_length, seq_length. exact H.
  - left. reflexivity.
Qed.
Lemma run_sumcheck_reduced p g claimed tape k : 0 < p -> length g = (2 ^ k)%nat ->
  Forall (fun a => 0 <= a < p) g ->
  (run_sumcheck p g claimed tape = true <-> claimed = vsum g mod p).
Proof.
  intros Hp H R. rewrite (run_sumcheck_exact p g claimed tape k Hp H). destruct k as [|k]; [|reflexivity].
  assert (E : nth 0 g 0 = vsum g mod p); [|rewrite E; reflexivity].
  destruct g as [|a [|b g]]; try discriminate. unfold vsum. cbn. inversion R; subst. rewrite Z.mod_small by lia. reflexivity.
Qed.

(** ** Counting *)
Definition zrange (p : Z) : list Z := map Z.of_nat (seq 0 (Z.to_nat p)).
Fixpoint vectors (p : Z) (k : nat) : list (list Z) :=
  match k with O => [[]] | S k' => flat_map (fun r => map (cons r) (vectors p k')) (zrange p) end.
Definition count {A} (f : A -> bool) (l : list A) : nat := length (filter f l).
Lemma zrange_in p r : In r (zrange p) <-> 0 <= r < p.
Proof.
  unfold zrange. rewrite in_map_iff. split.
  - intros [i [<- Hi]]. apply in_seq in Hi. lia.
  - intros H. exists (Z.to_nat r). split; [lia|]. apply in_seq. lia.
Qed.
Lemma zrange_length p : length (zrange p) = Z.to_nat p.
Proof. unfold zrange. rewrite map_length, seq_length. reflexivity. Qed.
Lemma zrange_nodup p : NoDup (zrange p).
Proof. unfold zrange. apply FinFun.Injective_map_NoDup; [intros a b H; lia|apply seq_NoDup]. Qed.
Lemma count_app {A} (f : A -> bool) l m : count f (l ++ m) = (count f l + count f m)%nat.
Proof. unfold count. rewrite filter_app, app_length. reflexivity. Qed.
Lemma count_map {A B} (f : B -> bool) (g : A -> B) l : count f (map g l) = count (fun a => f (g a)) l.
Proof. unfold count. induction l as [|a l IH]; [reflexivity|]. cbn [map filter]. destruct (f (g a)); cbn [length]; auto. Qed.
Lemma count_le {A} (f : A -> bool) l : (count f l <= length l)%nat.
Proof. unfold count. induction l as [|a l IH]; [auto|]. cbn [filter]. destruct (f a); cbn [length]; lia. Qed.
Lemma count_mono {A} (f g : A -> bool) l : (forall a, In a l -> f a = true -> g a = true) -> (count f l <= count g l)%nat.
Proof.
  unfold count. induction l as [|a l IH]; intros H; [auto|]. cbn [filter].
  specialize (IH (fun b Hb => H b (or_intror Hb))). pose proof (H a (or_introl eq_refl)) as Ha.
  destruct (f a); [rewrite Ha by auto; cbn [length]; lia|]. destruct (g a); cbn [length]; lia.
Qed.
Lemma vectors_length p k : length (vectors p k) = (Z.to_nat p ^ k)%nat.
Proof.
  induction k as [|k IH]; [reflexivity|]. cbn [vectors Nat.pow]. rewrite <- IH.
  rewrite <- zrange_length. generalize (zrange p). intros l. induction l as [|r l IHl]; [reflexivity|].
  cbn [flat_map length]. rewrite app_length, map_length, IHl. lia.
Qed.
(** Counting over one more coordinate: a tail bound [b] for all but the values
    flagged bad, [a] more for those. *)
Lemma count_flat (f : list Z -> bool) (bad : Z -> bool) (vs : list (list Z)) (a b : nat) (l : list Z) :
  (forall r, In r l -> (count (fun v => f (r :: v)) vs <= b + (if bad r then a else 0))%nat) ->
  (count bad l <= 1)%nat ->
  (count f (flat_map (fun r => map (cons r) vs) l) <= length l * b + a)%nat.
Proof.
  intros H B.
  assert (G : (count f (flat_map (fun r => map (cons r) vs) l) <= length l * b + count bad l * a)%nat).
  { clear B. induction l as [|r l IH]; [cbn; lia|]. cbn [flat_map length]. rewrite count_app, count_map.
    specialize (IH (fun s Hs => H s (or_intror Hs))). specialize (H r (or_introl eq_refl)).
    unfold count at 3. cbn [filter]. fold (count bad l). destruct (bad r); cbn [length]; fold (count bad l); nia. }
  nia.
Qed.
Lemma nodup_filter {A} (f : A -> bool) l : NoDup l -> NoDup (filter f l).
Proof. apply NoDup_filter. Qed.
Lemma count_one (f : Z -> bool) l : NoDup l -> (forall r s, In r l -> In s l -> f r = true -> f s = true -> r = s) -> (count f l <= 1)%nat.
Proof.
  intros N H. unfold count. pose proof (nodup_filter f l N) as NF.
  destruct (filter f l) as [|a [|b m]] eqn:E; cbn [length]; [lia|lia|]. exfalso.
  assert (Ia : In a (filter f l)) by (rewrite E; left; auto).
  assert (Ib : In b (filter f l)) by (rewrite E; right; left; auto).
  apply filter_In in Ia. apply filter_In in Ib. destruct Ia, Ib.
  assert (a = b) by (apply H; auto). subst. inversion NF as [|? ? K _]; subst. apply K. left. auto.
Qed.
(** Two congruences of affine functions at two points of the field force equal
    coefficients. *)
Lemma affine_unique p a0 a1 b0 b1 r s : prime p -> 0 <= r < p -> 0 <= s < p -> r <> s ->
  eqm p (a0 + a1 * r) (b0 + b1 * r) -> eqm p (a0 + a1 * s) (b0 + b1 * s) -> eqm p a1 b1 /\ eqm p a0 b0.
Proof.
  intros Hp Hr Hs N E F.
  assert (K : eqm p a1 b1).
  { apply (eqm_prime_cancel p _ _ (r - s)); auto.
    - intros C. apply (proj1 (eqm_sub0 _ _ _)) in C. apply N. apply (eqm_small p); auto.
    - transitivity (a0 + a1 * r - (a0 + a1 * s)); [mring|]. rewrite E, F. mring. }
  split; auto. transitivity (a0 + a1 * r - a1 * r); [mring|]. rewrite E, K. mring.
Qed.

(** ** Soundness of the verifier *)
Definition eqmb (p a b : Z) : bool := a mod p =? b mod p.
Lemma eqmb_true p a b : eqmb p a b = true <-> eqm p a b.
Proof. unfold eqmb. rewrite Z.eqb_eq. split; [intros; constructor; auto|intros [H]; auto]. Qed.
Lemma sound_count p g prover final : prime p -> forall k seen e, length g = (2 ^ (length seen + k))%nat ->
  ~ eqm p e (vsum (folded p g seen)) ->
  (count (verifier_run p g prover final e seen) (vectors p k) <= k * Z.to_nat p ^ (k - 1))%nat.
Proof.
  intros Hp. pose proof (prime_pos p Hp). induction k as [|k IH]; intros seen e H0 N.
  - cbn [vectors]. unfold count. cbn [filter]. cbn [verifier_run].
    rewrite Nat.add_0_r in H0. unfold evaluate. rewrite (num_vars_pow g _ H0), Nat.eqb_refl.
    rewrite evaluate_loop_folded.
    destruct ((nth 0 (folded p g seen) 0 =? final seen) && (e =? final seen)) eqn:E; [|cbn; lia].
    exfalso. apply andb_true_iff in E. destruct E as [E1 E2]. apply Z.eqb_eq in E1. apply Z.eqb_eq in E2.
    apply N. rewrite E2, <- E1. unfold vsum. rewrite (folded_length p seen g 0) by (rewrite Nat.add_0_r; auto). cbn. mring.
  - set (v := folded p g seen) in *.
    assert (Lv : length v = (2 ^ S k)%nat) by (apply folded_length; exact H0).
    cbn [vectors].
    set (t0 := zsum (fun i => nth i v 0) (2 ^ k)) in *. set (t1 := zsum (fun i => nth (2 ^ k + i) v 0) (2 ^ k)) in *.
    assert (V : vsum v = t0 + t1) by (apply vsum_split; auto).
    destruct (prover seen) as [|a0 [|a1 [|a2 l]]] eqn:P.
    all: try (match goal with |- (count ?f ?l <= _)%nat => replace (count f l) with 0%nat; [lia|] end;
      symmetry; unfold count; match goal with |- length (filter ?f ?l) = _ => assert (Z0 : forall c, In c l -> f c = false) end;
      [intros c Hc; apply in_flat_map in Hc; destruct Hc as [r [_ Hc]]; apply in_map_iff in Hc; destruct Hc as [c' [<- _]]; cbn [verifier_run]; rewrite P; reflexivity|];
      match goal with |- length (filter ?f ?l) = _ => induction l as [|c l' IHl]; [reflexivity|]; cbn [filter]; rewrite Z0 by (left; auto); apply IHl; intros; apply Z0; right; auto end).
    set (good := add_mod a0 (add_mod a0 a1 p) p =? e).
    assert (Step : forall r c, verifier_run p g prover final e seen (r :: c) =
      if good then verifier_run p g prover final (evaluate_univariate p [a0; a1] r) (seen ++ [r]) c else false).
    { intros r c. cbn [verifier_run]. rewrite P. unfold verify_round. fold good. destruct good; reflexivity. }
    destruct good eqn:G.
    2:{ match goal with |- (count ?f ?l <= _)%nat => replace (count f l) with 0%nat; [lia|] end.
        symmetry. unfold count. match goal with |- length (filter ?f ?l) = _ => assert (Z0 : forall c, In c l -> f c = false) end.
        { intros c Hc. apply in_flat_map in Hc. destruct Hc as [r [_ Hc]]. apply in_map_iff in Hc. destruct Hc as [c' [<- _]].
          rewrite Step. reflexivity. }
        match goal with |- length (filter ?f ?l) = _ => induction l as [|c l' IHl]; [reflexivity|]; cbn [filter]; rewrite Z0 by (left; auto); apply IHl; intros; apply Z0; right; auto end. }
    unfold good in G. apply Z.eqb_eq in G.
    assert (E : eqm p e (a0 + (a0 + a1))) by (rewrite <- G, !add_mod_eqm; reflexivity).
    set (bad := fun r => eqmb p (a0 + a1 * r) (t0 + (t1 - t0) * r)).
    replace (S k - 1)%nat with k by lia.
    assert (T : (count (verifier_run p g prover final e seen) (flat_map (fun r => map (cons r) (vectors p k)) (zrange p))
      <= length (zrange p) * (k * Z.to_nat p ^ (k - 1)) + Z.to_nat p ^ k)%nat).
    { apply (count_flat _ bad).
      - intros r Hr. apply zrange_in in Hr. destruct (bad r) eqn:B.
        + eapply Nat.le_trans; [apply count_le|]. rewrite vectors_length. lia.
        + rewrite Nat.add_0_r. eapply Nat.le_trans; [apply count_mono; intros c _ Hc; rewrite Step in Hc; exact Hc|].
          apply IH.
          * rewrite app_length. cbn [length]. rewrite H0. f_equal. lia.
          * rewrite folded_snoc. fold v. rewrite (vsum_fold p v r k) by auto. fold t0 t1. rewrite univariate_eqm. intros C.
            assert (bad r = true); [|congruence]. apply eqmb_true. rewrite C. mring.
      - apply count_one; [apply zrange_nodup|]. intros r s Hr Hs Br Bs. apply zrange_in in Hr. apply zrange_in in Hs.
        destruct (Z.eq_dec r s) as [|D]; auto. exfalso. apply eqmb_true in Br. apply eqmb_true in Bs.
        destruct (affine_unique p _ _ _ _ r s Hp Hr Hs D Br Bs) as [K1 K0].
        apply N. rewrite E, V, K1, K0. mring. }
    rewrite zrange_length in T. destruct k as [|k]; [cbn in *; lia|].
    replace (S k - 1)%nat with k in T by lia. cbn [Nat.pow] in *. nia.
Qed.

(** ** Schwartz-Zippel for the multilinear extension *)
Lemma mle_zeros p : prime p -> forall k v, length v = (2 ^ k)%nat -> (exists i, (i < 2 ^ k)%nat /\ ~ eqm p (nth i v 0) 0) ->
  (count (fun r => eqmb p (mle v r) 0) (vectors p k) <= k * Z.to_nat p ^ (k - 1))%nat.
Proof.
  intros Hp. pose proof (prime_pos p Hp). induction k as [|k IH]; intros v Lv [i0 [Hi0 N]].
  - cbn [vectors]. unfold count. cbn [filter]. destruct (eqmb p (mle v []) 0) eqn:E; [|cbn; lia].
    exfalso. apply eqmb_true in E. apply N. assert (i0 = 0)%nat as -> by (cbn in Hi0; lia). transitivity (mle v []); [unfold mle; cbn; mring|exact E].
  - cbn [vectors]. replace (S k - 1)%nat with k by lia.
    set (allz := fun r => forallb (fun j => eqmb p (nth j (fold_half p v r) 0) 0) (seq 0 (2 ^ k))).
    assert (T : (count (fun r => eqmb p (mle v r) 0) (flat_map (fun r => map (cons r) (vectors p k)) (zrange p))
      <= length (zrange p) * (k * Z.to_nat p ^ (k - 1)) + Z.to_nat p ^ k)%nat).
    { apply (count_flat _ allz).
      - intros r Hr. destruct (allz r) eqn:B.
        + eapply Nat.le_trans; [apply count_le|]. rewrite vectors_length. lia.
        + rewrite Nat.add_0_r.
          assert (IHr := IH (fold_half p v r) (fold_half_length p v r k Lv)).
          eapply Nat.le_trans; [|apply IHr].
          * apply count_mono. intros c Hc E. apply eqmb_true in E. apply eqmb_true.
            rewrite mle_fold; auto.
            assert (length c = k) as ->; auto.
            clear - Hc. revert c Hc. induction k as [|k IHk]; intros c Hc; [destruct Hc as [<-|[]]; reflexivity|].
            cbn [vectors] in Hc. apply in_flat_map in Hc. destruct Hc as [s [_ Hc]]. apply in_map_iff in Hc. destruct Hc as [c' [<- Hc]].
            cbn [length]. f_equal. auto.
          * destruct (forallb_forall (fun j => eqmb p (nth j (fold_half p v r) 0) 0) (seq 0 (2 ^ k))) as [_ F].
            destruct (existsb (fun j => negb (eqmb p (nth j (fold_half p v r) 0) 0)) (seq 0 (2 ^ k))) eqn:X.
            -- apply existsb_exists in X. destruct X as [j [Hj Xj]]. apply in_seq in Hj. exists j. split; [lia|].
               intros C. apply eqmb_true in C. rewrite C in Xj. discriminate.
            -- exfalso. unfold allz in B. rewrite F in B; [discriminate|]. intros j Hj.
               destruct (eqmb p (nth j (fold_half p v r) 0) 0) eqn:C; auto.
               assert (existsb (fun j => negb (eqmb p (nth j (fold_half p v r) 0) 0)) (seq 0 (2 ^ k)) = true); [|congruence].
               apply existsb_exists. exists j. rewrite C. auto.
      - apply count_one; [apply zrange_nodup|]. intros r s Hr Hs Br Bs. apply zrange_in in Hr. apply zrange_in in Hs.
        destruct (Z.eq_dec r s) as [|D]; auto. exfalso.
        assert (A : forall j, (j < 2 ^ k)%nat -> eqm p (nth j v 0) 0 /\ eqm p (nth (2 ^ k + j) v 0) 0).
        { intros j Hj. unfold allz in Br, Bs. rewrite forallb_forall in Br, Bs.
          specialize (Br j ltac:(apply in_seq; lia)). specialize (Bs j ltac:(apply in_seq; lia)).
          apply eqmb_true in Br. apply eqmb_true in Bs. rewrite (fold_half_nth p v r k) in Br by auto. rewrite (fold_half_nth p v s k) in Bs by auto.
          destruct (affine_unique p (nth j v 0) (nth (2 ^ k + j) v 0 - nth j v 0) 0 0 r s Hp Hr Hs D) as [K1 K0].
          - transitivity ((1 - r) * nth j v 0 + r * nth (2 ^ k + j) v 0); [mring|]. rewrite Br. mring.
          - transitivity ((1 - s) * nth j v 0 + s * nth (2 ^ k + j) v 0); [mring|]. rewrite Bs. mring.
          - split; auto. apply (proj1 (eqm_sub0 _ _ _)) in K1. rewrite K1. exact K0. }
        apply N. destruct (lt_dec i0 (2 ^ k)) as [L|L]; [apply A; auto|].
        replace i0 with (2 ^ k + (i0 - 2 ^ k))%nat by lia. apply A. cbn [Nat.pow] in Hi0. lia. }
    rewrite zrange_length in T. destruct k as [|k]; [cbn in *; lia|].
    replace (S k - 1)%nat with k in T by lia. cbn [Nat.pow] in *. nia.
Qed.
