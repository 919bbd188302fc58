(** Lemmas about the Silver code. *)
From Coq Require Import NArith ZArith List Bool Arith Lia Permutation Sorted.
From Verif Require Import LinCodeModel LinCodeProof LinCodeProps SilverModel.
Import ListNotations.
Open Scope nat_scope.

(** ** Sums *)
Lemma xors_cons a l : xors (a :: l) = N.lxor a (xors l).
Proof. reflexivity. Qed.
Lemma xors_app l m : xors (l ++ m) = N.lxor (xors l) (xors m).
Proof. induction l as [|a l IH]; cbn [app]; [rewrite N.lxor_0_l; reflexivity|]. rewrite !xors_cons, IH, N.lxor_assoc. reflexivity. Qed.
Lemma xors_perm l m : Permutation l m -> xors l = xors m.
Proof.
  induction 1 as [|x l m _ IH|x y l|l m k _ IH1 _ IH2]; rewrite ?xors_cons; auto.
  - rewrite IH. reflexivity.
  - rewrite <- !N.lxor_assoc, (N.lxor_comm x y). reflexivity.
  - congruence.
Qed.
Lemma xors_add {A} (f g : A -> N) l : xors (map (fun i => N.lxor (f i) (g i)) l) = N.lxor (xors (map f l)) (xors (map g l)).
Proof. induction l as [|a l IH]; [reflexivity|]. cbn [map]. rewrite !xors_cons, IH. apply lxor4. Qed.
Lemma xors_zero {A} (f : A -> N) l : (forall i, In i l -> f i = 0%N) -> xors (map f l) = 0%N.
Proof. intros H. induction l as [|a l IH]; [reflexivity|]. cbn [map]. rewrite xors_cons, IH by (intros; apply H; right; auto). rewrite H by (left; auto). reflexivity. Qed.
Lemma xors_pick (v : N) i n : i < n -> xors (map (fun j => if Nat.eqb j i then v else 0%N) (seq 0 n)) = v.
Proof.
  intros H. assert (E : seq 0 n = seq 0 i ++ i :: seq (S i) (n - S i)).
  { replace n with (i + S (n - S i)) at 1 by lia. rewrite seq_app. reflexivity. }
  rewrite E, map_app, xors_app. cbn [map]. rewrite xors_cons, Nat.eqb_refl.
  rewrite !xors_zero; [rewrite N.lxor_0_l, N.lxor_0_r; reflexivity| |].
  - intros j Hj. apply in_seq in Hj. destruct (Nat.eqb_spec j i); [lia|reflexivity].
  - intros j Hj. apply in_seq in Hj. destruct (Nat.eqb_spec j i); [lia|reflexivity].
Qed.
Lemma xors_ext {A} (f g : A -> N) l : (forall i, In i l -> f i = g i) -> xors (map f l) = xors (map g l).
Proof. intros H. f_equal. apply map_ext_in. auto. Qed.

(** ** The right matrix *)
(** Off-diagonal entries of R. *)
Definition offdiag (g : nat) (diag : list (list nat)) (i j : nat) : bool :=
  existsb (fun d => j + g =? i + d) (nth (i mod g) diag []) || (j + g + 5 =? i) || (j + g + 31 =? i).
(** Well-formed tables: rows strictly increasing, entries below the gap. *)
Definition wf_diag (g : nat) (diag : list (list nat)) : Prop :=
  0 < g /\ g <= 32 /\ Forall (fun r => StronglySorted lt r /\ Forall (fun d => d < g) r) diag.
Lemma wf_row g diag i : wf_diag g diag -> StronglySorted lt (nth i diag []) /\ Forall (fun d => d < g) (nth i diag []).
Proof.
  intros [_ [_ H]]. rewrite Forall_forall in H. destruct (nth_in_or_default i diag []) as [K|K]; [apply H; auto|].
  rewrite K. split; constructor.
Qed.
Lemma offdiag_lt g diag i j : wf_diag g diag -> offdiag g diag i j = true -> j < i.
Proof.
  intros W H. unfold offdiag in H. destruct (wf_row g diag (i mod g) W) as [_ F]. rewrite Forall_forall in F. destruct W as [G0 _].
  apply orb_true_iff in H. destruct H as [H|H]; [apply orb_true_iff in H; destruct H as [H|H]|].
  - apply existsb_exists in H. destruct H as [d [Hd E]]. apply Nat.eqb_eq in E. apply F in Hd. lia.
  - apply Nat.eqb_eq in H. lia.
  - apply Nat.eqb_eq in H. lia.
Qed.

(** x' is x with tmp added at the places P. *)
Definition xored (P : nat -> bool) (tmp : N) (x x' : list N) : Prop :=
  length x' = length x /\ forall j, nth j x' 0%N = if P j then N.lxor (nth j x 0%N) tmp else nth j x 0%N.
Lemma xored_refl tmp x : xored (fun _ => false) tmp x x.
Proof. split; auto. Qed.
Lemma xored_ext P Q tmp x x' : (forall j, P j = Q j) -> xored P tmp x x' -> xored Q tmp x x'.
Proof. intros H [L K]. split; auto. intros j. rewrite K, H. reflexivity. Qed.
Lemma xor_in_spec P tmp x x1 c : xored P tmp x x1 -> c < length x -> P c = false ->
  exists x2, xor_in x1 (Z.of_nat c) tmp = Val x2 /\ xored (fun j => P j || (j =? c)) tmp x x2.
Proof.
  intros [L K] Hc HP. unfold xor_in. destruct (Z.leb_spec 0 (Z.of_nat c)); [|lia]. rewrite Nat2Z.id.
  destruct (nth_error x1 c) as [w|] eqn:E; [|apply nth_error_None in E; lia].
  eexists. split; [reflexivity|]. apply nth_error_nth with (d := 0%N) in E. split.
  - rewrite set_nth_length. exact L.
  - intros j. rewrite set_nth_nth by lia. destruct (Nat.eqb_spec j c) as [->|N].
    + rewrite orb_true_r. rewrite <- E, K, HP. reflexivity.
    + rewrite orb_false_r. apply K.
Qed.
Lemma diag_all_spec tmp x i g ds : StronglySorted lt ds -> Forall (fun d => d < g) ds -> g <= i -> i < length x ->
  forall P x1, xored P tmp x x1 -> (forall d, In d ds -> forall j, j + g = i + d -> P j = false) ->
  exists x2, diag_all x1 (Z.of_nat i) g ds tmp = Val x2 /\ xored (fun j => P j || existsb (fun d => j + g =? i + d) ds) tmp x x2.
Proof.
  intros S F Hi Hx. induction ds as [|d ds IH]; intros P x1 X D; cbn [diag_all].
  - exists x1. split; [reflexivity|]. eapply xored_ext; [|exact X]. intros j. cbn [existsb]. rewrite orb_false_r. reflexivity.
  - apply StronglySorted_inv in S. destruct S as [S SF]. inversion_clear F as [|? ? Fd Fs].
    replace (Z.of_nat i - Z.of_nat g + Z.of_nat d)%Z with (Z.of_nat (i + d - g)) by lia.
    destruct (xor_in_spec P tmp x x1 (i + d - g) X) as [x2 [E X2]].
    { lia. }
    { apply (D d); [left; auto|lia]. }
    rewrite E. cbn [bind]. destruct (IH S Fs _ _ X2) as [x3 [E3 X3]].
    { intros d' Hd' j Hj. rewrite (D d') by (auto; right; auto). destruct (Nat.eqb_spec j (i + d - g)) as [->|N]; [|reflexivity].
      rewrite Forall_forall in SF. apply SF in Hd'. lia. }
    exists x3. split; [exact E3|]. eapply xored_ext; [|exact X3]. intros j. cbn [existsb]. rewrite <- orb_assoc. f_equal. f_equal.
    destruct (Nat.eqb_spec j (i + d - g)), (Nat.eqb_spec (j + g) (i + d)); auto; lia.
Qed.
Lemma w32_small z : (0 <= z < 2 ^ 32)%Z -> w32 z = z.
Proof. intros H. apply Z.mod_small. exact H. Qed.
Lemma w32_neg z : (- 2 ^ 31 <= z < 0)%Z -> (2 ^ 31 <= w32 z)%Z.
Proof.
  intros H. unfold w32. replace z with ((z + 2 ^ 32) + (-1) * 2 ^ 32)%Z by ring. rewrite Z.mod_add by lia. rewrite Z.mod_small by lia. lia.
Qed.
Lemma sorted_gt_app l d : StronglySorted gt (l ++ [d]) -> StronglySorted gt l /\ Forall (fun x => d < x) l.
Proof.
  induction l as [|a l IH]; intros H; [split; constructor|]. cbn [app] in H. apply StronglySorted_inv in H. destruct H as [H F].
  destruct (IH H) as [S1 F1]. rewrite Forall_app in F. destruct F as [Fl Fd]. inversion_clear Fd. split; constructor; auto.
Qed.
Lemma sorted_rev l : StronglySorted lt l -> StronglySorted gt (rev l).
Proof.
  induction 1 as [|a l S IH F]; [constructor|]. cbn [rev].
  assert (G : forall m, StronglySorted gt m -> Forall (fun x => a < x) m -> StronglySorted gt (m ++ [a])).
  { induction m as [|b m IHm]; intros S1 F1; cbn [app]; [repeat constructor|]. apply StronglySorted_inv in S1. destruct S1 as [S1 Fb]. inversion_clear F1.
    constructor; [apply IHm; auto|]. apply Forall_app. split; auto. }
  apply G; auto. apply Forall_rev. exact F.
Qed.
Lemma diag_break_spec tmp x n i g ds : (Z.of_nat n <= 2 ^ 31)%Z -> n <= length x -> i < n -> 0 < g <= 32 ->
  StronglySorted gt ds -> Forall (fun d => d < g) ds ->
  forall P x1, xored P tmp x x1 -> (forall d, In d ds -> forall j, j + g = i + d -> P j = false) ->
  exists x2, diag_break x1 n (Z.of_nat i) g ds tmp = Val x2 /\ xored (fun j => P j || existsb (fun d => j + g =? i + d) ds) tmp x x2.
Proof.
  intros Hn Hx Hi Hg S F. induction ds as [|d ds IH]; intros P x1 X D; cbn [diag_break].
  - exists x1. split; [reflexivity|]. eapply xored_ext; [|exact X]. intros j. cbn [existsb]. rewrite orb_false_r. reflexivity.
  - apply StronglySorted_inv in S. destruct S as [S SF]. inversion_clear F as [|? ? Fd Fs].
    destruct (le_lt_dec g (i + d)) as [L|L].
    + replace (Z.of_nat d + Z.of_nat i - Z.of_nat g)%Z with (Z.of_nat (i + d - g)) by lia. rewrite w32_small by lia.
      destruct (Z.leb_spec (Z.of_nat n) (Z.of_nat (i + d - g))); [lia|].
      destruct (xor_in_spec P tmp x x1 (i + d - g) X) as [x2 [E X2]].
      { lia. }
      { apply (D d); [left; auto|lia]. }
      rewrite E. cbn [bind]. destruct (IH S Fs _ _ X2) as [x3 [E3 X3]].
      { intros d' Hd' j Hj. rewrite (D d') by (auto; right; auto). destruct (Nat.eqb_spec j (i + d - g)) as [->|N]; [|reflexivity].
        rewrite Forall_forall in SF. apply SF in Hd'. lia. }
      exists x3. split; [exact E3|]. eapply xored_ext; [|exact X3]. intros j. cbn [existsb]. rewrite <- orb_assoc. f_equal. f_equal.
      destruct (Nat.eqb_spec j (i + d - g)), (Nat.eqb_spec (j + g) (i + d)); auto; lia.
    + pose proof (w32_neg (Z.of_nat d + Z.of_nat i - Z.of_nat g) ltac:(lia)).
      destruct (Z.leb_spec (Z.of_nat n) (w32 (Z.of_nat d + Z.of_nat i - Z.of_nat g))); [|lia].
      exists x1. split; [reflexivity|]. eapply xored_ext; [|exact X]. intros j.
      assert (N0 : existsb (fun d0 => j + g =? i + d0) (d :: ds) = false).
      { apply not_true_is_false. intros C. apply existsb_exists in C. destruct C as [d' [[<-|Hd'] E]]; apply Nat.eqb_eq in E; [lia|].
        rewrite Forall_forall in SF. apply SF in Hd'. lia. }
      rewrite N0, orb_false_r. reflexivity.
Qed.
(** The running offset at row i: i - g - o when that is a column, otherwise
    something not below n. *)
Definition off_ok (n i g o : nat) (off : Z) : Prop :=
  if g + o <=? i then off = Z.of_nat (i - g - o) else (Z.of_nat n <= off)%Z.
Lemma off_next n i g o off : (Z.of_nat n <= 2 ^ 31)%Z -> S i < n -> off_ok n (S i) g o off -> g + o <= S i ->
  off_ok n i g o (w32 (off - 1)).
Proof.
  unfold off_ok. intros Hn Hi H L. destruct (Nat.leb_spec (g + o) (S i)); [|lia]. destruct (Nat.leb_spec (g + o) i).
  - rewrite w32_small by lia. lia.
  - assert (E0 : off = 0%Z) by lia. rewrite E0. pose proof (w32_neg (0 - 1) ltac:(lia)). lia.
Qed.
Lemma off_stay n i g o off : off_ok n (S i) g o off -> S i < g + o -> off_ok n i g o off.
Proof. unfold off_ok. intros H L. destruct (Nat.leb_spec (g + o) (S i)); [lia|]. destruct (Nat.leb_spec (g + o) i); [lia|]. auto. Qed.
Lemma off_init n g o : (Z.of_nat n <= 2 ^ 31)%Z -> 0 < n -> g + o <= 100 ->
  off_ok n (n - 1) g o (w32 (Z.of_nat n - Z.of_nat g - 1 - Z.of_nat o)).
Proof.
  intros Hn H0 Hg. unfold off_ok. destruct (Nat.leb_spec (g + o) (n - 1)).
  - rewrite w32_small by lia. lia.
  - pose proof (w32_neg (Z.of_nat n - Z.of_nat g - 1 - Z.of_nat o) ltac:(lia)). lia.
Qed.
Lemma off_step_spec P tmp x x1 n i g o off : xored P tmp x x1 -> n <= length x -> i < n -> (Z.of_nat n <= 2 ^ 31)%Z ->
  off_ok n i g o off -> (forall j, j + g + o = i -> P j = false) ->
  exists x2 off', off_step x1 n off tmp = Val (x2, off') /\ xored (fun j => P j || (j + g + o =? i)) tmp x x2 /\
    (0 < i -> off_ok n (i - 1) g o off').
Proof.
  intros X Hx Hi Hn HO D. unfold off_step. destruct (Nat.leb_spec (g + o) i) as [L|L].
  - assert (E : off = Z.of_nat (i - g - o)). { unfold off_ok in HO. destruct (Nat.leb_spec (g + o) i); [auto|lia]. }
    subst off. destruct (Z.ltb_spec (Z.of_nat (i - g - o)) (Z.of_nat n)); [|lia].
    destruct (xor_in_spec P tmp x x1 (i - g - o) X) as [x2 [E X2]]; [lia|apply D; lia|]. rewrite E. cbn [bind].
    eexists. eexists. split; [reflexivity|]. split.
    + eapply xored_ext; [|exact X2]. intros j. cbn beta. f_equal. destruct (Nat.eqb_spec j (i - g - o)), (Nat.eqb_spec (j + g + o) i); auto; lia.
    + intros Hi0. destruct i as [|i]; [lia|]. replace (S i - 1) with i by lia. apply off_next; auto.
  - assert (E : (Z.of_nat n <= off)%Z). { unfold off_ok in HO. destruct (Nat.leb_spec (g + o) i); [lia|auto]. }
    destruct (Z.ltb_spec off (Z.of_nat n)); [lia|]. exists x1, off. split; [reflexivity|]. split.
    + eapply xored_ext; [|exact X]. intros j. cbn beta. destruct (Nat.eqb_spec (j + g + o) i); [lia|]. rewrite orb_false_r. reflexivity.
    + intros Hi0. destruct i as [|i]; [lia|]. replace (S i - 1) with i by lia. apply off_stay; auto.
Qed.

(** Elimination of row i. *)
Section Right.
Variable c : silver.
Let n := s_n c. Let g := s_gap c.
Hypothesis Hn : (Z.of_nat n <= 2 ^ 31)%Z.
Hypothesis W : wf_diag g (s_diag c).
Let row_eq i : diag_row c (Z.of_nat i) = nth (i mod g) (s_diag c) [].
Proof.
  unfold diag_row. fold g. rewrite <- Nat2Z.inj_mod, Nat2Z.id. reflexivity.
Qed.
Lemma exists_rev (f : nat -> bool) l : existsb f (rev l) = existsb f l.
Proof.
  induction l as [|a l IH]; [reflexivity|]. cbn [rev existsb]. rewrite existsb_app, IH. cbn [existsb]. rewrite orb_false_r, orb_comm. reflexivity.
Qed.
Let disjoint5 i j : j + g + 5 = i -> existsb (fun d => j + g =? i + d) (nth (i mod g) (s_diag c) []) = false.
Proof. intros E. apply not_true_is_false. intros C. apply existsb_exists in C. destruct C as [d [_ C]]. apply Nat.eqb_eq in C. lia. Qed.
Let disjoint31 i j : j + g + 31 = i -> existsb (fun d => j + g =? i + d) (nth (i mod g) (s_diag c) []) || (j + g + 5 =? i) = false.
Proof.
  intros E. apply not_true_is_false. intros C. apply orb_true_iff in C. destruct C as [C|C]; [|apply Nat.eqb_eq in C; lia].
  apply existsb_exists in C. destruct C as [d [_ C]]. apply Nat.eqb_eq in C. lia.
Qed.
Lemma low_step l x off0 off1 : n <= length x -> l < n -> off_ok n l g 5 off0 -> off_ok n l g 31 off1 ->
  exists x' o0 o1, right_low c (S l) x off0 off1 = right_low c l x' o0 o1 /\
    xored (offdiag g (s_diag c) l) (nth l x 0%N) x x' /\
    (0 < l -> off_ok n (l - 1) g 5 o0 /\ off_ok n (l - 1) g 31 o1).
Proof.
  intros Hx Hl H0 H1. cbn [right_low]. unfold rd. destruct (nth_error x l) as [tmp|] eqn:E; [|apply nth_error_None in E; lia]. cbn [bind].
  apply nth_error_nth with (d := 0%N) in E. rewrite E. rewrite row_eq. destruct (wf_row g (s_diag c) (l mod g) W) as [RS RF]. destruct W as [G0 [G1 _]].
  fold n g. destruct (diag_break_spec tmp x n l g (rev (nth (l mod g) (s_diag c) []))) with (P := fun _ : nat => false) (x1 := x) as [x1 [E1 X1]]; auto.
  { apply sorted_rev. auto. } { apply Forall_rev. auto. } { apply xored_refl. }
  rewrite E1. cbn [bind].
  apply (xored_ext _ (fun j => existsb (fun d => j + g =? l + d) (nth (l mod g) (s_diag c) []))) in X1; [|intros j; cbn [orb]; apply exists_rev].
  destruct (off_step_spec _ tmp x x1 n l g 5 off0 X1) as [x2 [o0 [E2 [X2 O0]]]]; auto.
  rewrite E2. cbn [bind].
  destruct (off_step_spec _ tmp x x2 n l g 31 off1 X2) as [x3 [o1 [E3 [X3 O1]]]]; auto.
  rewrite E3. cbn [bind]. exists x3, o0, o1. split; [reflexivity|]. split; [|auto].
  eapply xored_ext; [|exact X3]. intros j. reflexivity.
Qed.
Lemma high_step l x off0 off1 : n <= length x -> l < n -> 31 + g < l -> off_ok n l g 5 off0 -> off_ok n l g 31 off1 ->
  exists x' o0 o1, right_high c (S l) x off0 off1 = right_high c l x' o0 o1 /\
    xored (offdiag g (s_diag c) l) (nth l x 0%N) x x' /\
    off_ok n (l - 1) g 5 o0 /\ off_ok n (l - 1) g 31 o1.
Proof.
  intros Hx Hl HB H0 H1. cbn [right_high]. fold g. unfold r_offset0, r_offset1.
  destruct (Z.ltb_spec (Z.max 5 31 + Z.of_nat g) (Z.of_nat l)); [|lia].
  unfold rd. destruct (nth_error x l) as [tmp|] eqn:E; [|apply nth_error_None in E; lia]. cbn [bind].
  apply nth_error_nth with (d := 0%N) in E. rewrite E. rewrite row_eq. destruct (wf_row g (s_diag c) (l mod g) W) as [RS RF]. destruct W as [G0 [G1 _]].
  destruct (diag_all_spec tmp x l g (nth (l mod g) (s_diag c) [])) with (P := fun _ : nat => false) (x1 := x) as [x1 [E1 X1]]; auto; try lia.
  { apply xored_refl. }
  rewrite E1. cbn [bind]. cbn [orb] in X1.
  assert (Q0 : off0 = Z.of_nat (l - g - 5)) by (unfold off_ok in H0; destruct (Nat.leb_spec (g + 5) l); [auto|lia]).
  assert (Q1 : off1 = Z.of_nat (l - g - 31)) by (unfold off_ok in H1; destruct (Nat.leb_spec (g + 31) l); [auto|lia]).
  destruct (xor_in_spec _ tmp x x1 (l - g - 5) X1) as [x2 [E2 X2]]; [lia|apply disjoint5; lia|].
  rewrite Q0, E2. cbn [bind].
  destruct (xor_in_spec _ tmp x x2 (l - g - 31) X2) as [x3 [E3 X3]]; [lia| |].
  { rewrite <- (disjoint31 l (l - g - 31)) by lia. f_equal. destruct (Nat.eqb_spec (l - g - 31) (l - g - 5)), (Nat.eqb_spec (l - g - 31 + g + 5) l); auto; lia. }
  rewrite Q1, E3. cbn [bind]. exists x3, (w32 (Z.of_nat (l - g - 5) - 1)), (w32 (Z.of_nat (l - g - 31) - 1)). split; [reflexivity|]. split.
  - eapply xored_ext; [|exact X3]. intros j. unfold offdiag. cbn beta. f_equal; [f_equal|].
    + destruct (Nat.eqb_spec j (l - g - 5)), (Nat.eqb_spec (j + g + 5) l); auto; lia.
    + destruct (Nat.eqb_spec j (l - g - 31)), (Nat.eqb_spec (j + g + 31) l); auto; lia.
  - destruct l as [|l]; [lia|]. replace (S l - 1) with l by lia. split; apply off_next; auto; try lia; unfold off_ok.
    + destruct (Nat.leb_spec (g + 5) (S l)); [auto|lia].
    + destruct (Nat.leb_spec (g + 31) (S l)); [auto|lia].
Qed.
(** y = x * (part of R already eliminated). *)
Definition solved (i0 : nat) (y x : list N) : Prop :=
  length x = length y /\ (forall j, n <= j -> nth j x 0%N = nth j y 0%N) /\
  forall j, j < n -> nth j y 0%N = N.lxor (nth j x 0%N)
    (xors (map (fun i => if (i0 <=? i) && offdiag g (s_diag c) i j then nth i x 0%N else 0%N) (seq 0 n))).
Lemma solved_step l y x x' : l < n -> n <= length y -> solved (S l) y x -> xored (offdiag g (s_diag c) l) (nth l x 0%N) x x' -> solved l y x'.
Proof.
  intros Hl Hy [L [O K]] [L' K']. split; [congruence|]. split.
  - intros j Hj. rewrite K'. destruct (offdiag g (s_diag c) l j) eqn:D; [apply offdiag_lt in D; auto; lia|]. auto.
  - intros j Hj. rewrite (K j Hj), K'.
    assert (P : xors (map (fun i => if (l <=? i) && offdiag g (s_diag c) i j then nth i x' 0%N else 0%N) (seq 0 n)) =
      N.lxor (xors (map (fun i => if (S l <=? i) && offdiag g (s_diag c) i j then nth i x 0%N else 0%N) (seq 0 n)))
             (if offdiag g (s_diag c) l j then nth l x 0%N else 0%N)).
    { rewrite <- (xors_pick (if offdiag g (s_diag c) l j then nth l x 0%N else 0%N) l n Hl). rewrite <- xors_add. apply xors_ext. intros i Hi.
      rewrite K'. assert (D : l <= i -> offdiag g (s_diag c) l i = false).
      { intros Hli. apply not_true_is_false. intros C. apply offdiag_lt in C; auto. lia. }
      destruct (Nat.leb_spec l i), (Nat.leb_spec (S l) i), (Nat.eqb_spec i l); subst; cbn [andb]; try lia.
      - rewrite D by auto. rewrite N.lxor_0_r. reflexivity.
      - rewrite D by auto. rewrite N.lxor_0_l. reflexivity.
      - reflexivity. }
    rewrite P. destruct (offdiag g (s_diag c) l j).
    + rewrite lxor4, N.lxor_nilpotent, N.lxor_0_r. reflexivity.
    + rewrite N.lxor_0_r. reflexivity.
Qed.
Lemma solved_init y : solved n y y.
Proof.
  split; [reflexivity|]. split; [auto|]. intros j Hj. rewrite xors_zero; [rewrite N.lxor_0_r; reflexivity|].
  intros i Hi. apply in_seq in Hi. destruct (Nat.leb_spec n i); [lia|reflexivity].
Qed.
Lemma right_low_spec l : forall y x off0 off1, n <= length y -> l <= n -> solved l y x ->
  (0 < l -> off_ok n (l - 1) g 5 off0 /\ off_ok n (l - 1) g 31 off1) ->
  exists x', right_low c l x off0 off1 = Val x' /\ solved 0 y x'.
Proof.
  induction l as [|l IH]; intros y x off0 off1 Hy Hl S0 O.
  - exists x. split; [reflexivity|exact S0].
  - destruct O as [O0 O1]; [lia|]. replace (S l - 1) with l in * by lia. assert (Lx : length x = length y) by apply S0.
    destruct (low_step l x off0 off1) as [x' [o0 [o1 [E [X O]]]]]; auto; try lia. rewrite E.
    apply IH; auto; [lia|]. eapply solved_step; eauto; lia.
Qed.
Lemma right_high_spec l : forall y x off0 off1, n <= length y -> l <= n -> solved l y x ->
  (0 < l -> off_ok n (l - 1) g 5 off0 /\ off_ok n (l - 1) g 31 off1) ->
  exists x', right_high c l x off0 off1 = Val x' /\ solved 0 y x'.
Proof.
  induction l as [|l IH]; intros y x off0 off1 Hy Hl S0 O.
  - exists x. split; [reflexivity|exact S0].
  - destruct (le_lt_dec l (31 + g)) as [B|B].
    + replace (right_high c (S l) x off0 off1) with (right_low c (S l) x off0 off1); [apply right_low_spec; auto|].
      cbn [right_high]. fold g. unfold r_offset0, r_offset1. destruct (Z.ltb_spec (Z.max 5 31 + Z.of_nat g) (Z.of_nat l)); [lia|reflexivity].
    + destruct O as [O0 O1]; [lia|]. replace (S l - 1) with l in * by lia. assert (Lx : length x = length y) by apply S0.
      destruct (high_step l x off0 off1) as [x' [o0 [o1 [E [X [P0 P1]]]]]]; auto; try lia. rewrite E.
      apply IH; auto; [lia|]. eapply solved_step; eauto; lia.
Qed.
Lemma right_encode_solves y : 0 < n -> n <= length y -> exists x, right_encode c y = Val x /\ solved 0 y x.
Proof.
  intros H0 Hy. unfold right_encode. fold n g. destruct (Nat.leb_spec n (length y)); [|lia].
  destruct W as [G0 [G1 _]]. apply right_high_spec; auto; [apply solved_init|]. intros _.
  split; [apply (off_init n g 5); auto; lia|apply (off_init n g 31); auto; lia].
Qed.
End Right.

(** ** The left matrix *)
Lemma xor_ptrs_some inp ptrs : Forall (fun p => p < length inp) ptrs -> forall v,
  xor_ptrs inp ptrs v = Val (N.lxor v (xors (map (fun p => nth p inp 0%N) ptrs))).
Proof.
  induction 1 as [|p ptrs Hp _ IH]; intros v; cbn [xor_ptrs map]; [rewrite N.lxor_0_r; reflexivity|].
  unfold rd. destruct (nth_error inp p) as [w|] eqn:E; [|apply nth_error_None in E; lia]. cbn [bind].
  apply nth_error_nth with (d := 0%N) in E. rewrite E, IH, xors_cons, N.lxor_assoc. reflexivity.
Qed.
Lemma left_rows_some inp step : forall ptrs i out, Forall (fun p => p + step <= length inp) ptrs -> i + step <= length out ->
  exists o, left_rows inp ptrs i step out = Val o /\ length o = length out /\
    forall r, nth r o 0%N = if (i <=? r) && (r <? i + step) then N.lxor (nth r out 0%N) (xors (map (fun p => nth (p + (r - i)) inp 0%N) ptrs)) else nth r out 0%N.
Proof.
  induction step as [|s IH]; intros ptrs i out F H; cbn [left_rows].
  - exists out. split; [reflexivity|]. split; [reflexivity|]. intros r. destruct (Nat.leb_spec i r), (Nat.ltb_spec r (i + 0)); cbn [andb]; auto; lia.
  - unfold rd at 1. destruct (nth_error out i) as [v|] eqn:E; [|apply nth_error_None in E; lia]. cbn [bind].
    apply nth_error_nth with (d := 0%N) in E. rewrite xor_ptrs_some by (eapply Forall_impl; [|exact F]; cbn beta; intros; lia). cbn [bind].
    destruct (IH (map S ptrs) (S i) (set_nth out i (N.lxor v (xors (map (fun p => nth p inp 0%N) ptrs))))) as [o [R [L K]]].
    { apply Forall_map. eapply Forall_impl; [|exact F]. cbn beta. intros; lia. }
    { rewrite set_nth_length. lia. }
    exists o. split; [exact R|]. rewrite set_nth_length in L. split; [exact L|]. intros r. rewrite K, set_nth_nth by lia.
    destruct (Nat.eqb_spec r i) as [->|N].
    + destruct (Nat.leb_spec (S i) i); [lia|]. cbn [andb]. destruct (Nat.leb_spec i i); [|lia]. destruct (Nat.ltb_spec i (i + S s)); [|lia]. cbn [andb].
      rewrite E. f_equal. apply xors_ext. intros p _. f_equal. lia.
    + destruct (Nat.leb_spec (S i) r), (Nat.leb_spec i r), (Nat.ltb_spec r (S i + s)), (Nat.ltb_spec r (i + S s)); cbn [andb]; auto; try lia.
      rewrite map_map. f_equal. apply xors_ext. intros p _. f_equal. lia.
Qed.
Lemma sorted_last l d : StronglySorted lt (l ++ [d]) -> Forall (fun x => x < d) l /\ StronglySorted lt l.
Proof.
  induction l as [|a l IH]; intros H; [split; constructor|]. cbn [app] in H. apply StronglySorted_inv in H. destruct H as [H F].
  destruct (IH H) as [F1 S1]. rewrite Forall_app in F. destruct F as [Fl Fd]. inversion_clear Fd. split; constructor; auto.
Qed.
Lemma max_last l d : Forall (fun x => x < d) l -> fold_right Nat.max 0 (l ++ [d]) = d.
Proof. induction 1 as [|a l Ha _ IH]; cbn [app fold_right]; [lia|]. rewrite IH. lia. Qed.
Lemma sorted_map_add s l : StronglySorted lt l -> StronglySorted lt (map (Nat.add s) l).
Proof. induction 1 as [|a l S IH F]; cbn [map]; constructor; auto. apply Forall_map. eapply Forall_impl; [|exact F]. cbn beta. intros; lia. Qed.
Definition left_row (n : nat) (L : list nat) (inp : list N) (r : nat) : N := xors (map (fun e => nth ((e + r) mod n) inp 0%N) L).
Lemma left_loop_some n inp L : n <= length inp -> 0 < n ->
  forall fuel i oe out, n <= fuel + i -> n <= length out -> oe <> [] -> StronglySorted lt oe -> Forall (fun e => e < n) oe ->
  Permutation oe (map (fun e => (e + i) mod n) L) ->
  exists o, left_loop fuel n inp i oe out = Val o /\ length o = length out /\
    forall r, nth r o 0%N = if (i <=? r) && (r <? n) then N.lxor (nth r out 0%N) (left_row n L inp r) else nth r out 0%N.
Proof.
  intros Hi H0. induction fuel as [|f IH]; intros i oe out Hf Ho NE SO FO PO; cbn [left_loop].
  - destruct (Nat.leb_spec n i); [|lia]. exists out. split; [reflexivity|]. split; [reflexivity|]. intros r.
    destruct (Nat.leb_spec i r), (Nat.ltb_spec r n); cbn [andb]; auto; lia.
  - destruct (Nat.leb_spec n i) as [L1|L1].
    { exists out. split; [reflexivity|]. split; [reflexivity|]. intros r. destruct (Nat.leb_spec i r), (Nat.ltb_spec r n); cbn [andb]; auto; lia. }
    destruct (exists_last NE) as [oe' [m E]]. subst oe. rewrite last_last. destruct (sorted_last _ _ SO) as [FL SL].
    rewrite max_last, Nat.eqb_refl by auto. apply Forall_app in FO. destruct FO as [FO' Fm]. inversion_clear Fm as [|? ? Hm _].
    set (step := Nat.min (n - m) (n - i)).
    destruct (left_rows_some inp step (oe' ++ [m]) i out) as [o1 [R [L2 K]]].
    { apply Forall_app. split; [|constructor; [unfold step; lia|constructor]]. eapply Forall_impl; [|exact FL]. cbn beta. intros; unfold step; lia. }
    { unfold step. lia. }
    rewrite R. cbn [bind].
    assert (ROW : forall r, i <= r -> r < i + step -> xors (map (fun p => nth (p + (r - i)) inp 0%N) (oe' ++ [m])) = left_row n L inp r).
    { intros r Hr1 Hr2. unfold left_row. rewrite (xors_perm _ _ (Permutation_map (fun p => nth (p + (r - i)) inp 0%N) PO)). rewrite map_map.
      apply xors_ext. intros e He. f_equal.
      assert (M : (e + i) mod n + step <= n).
      { assert (In ((e + i) mod n) (oe' ++ [m])). { eapply Permutation_in; [symmetry; exact PO|]. apply in_map_iff. exists e. auto. }
        apply in_app_iff in H. destruct H as [H|[<-|[]]]; [rewrite Forall_forall in FL; apply FL in H; unfold step; lia|unfold step; lia]. }
      replace (e + r) with (e + i + (r - i)) by lia. rewrite <- (Nat.add_mod_idemp_l (e + i)) by lia. symmetry. apply Nat.mod_small. lia. }
    destruct (Nat.eq_dec (i + step) n) as [E|E].
    + exists o1. split.
      { rewrite E. destruct f; cbn [left_loop]; rewrite Nat.leb_refl; reflexivity. }
      split; [exact L2|]. intros r. rewrite K, E. destruct (Nat.leb_spec i r), (Nat.ltb_spec r n); cbn [andb]; auto. rewrite ROW by lia. reflexivity.
    + assert (ST : step = n - m) by (unfold step in *; lia).
      rewrite map_app. cbn [map]. rewrite removelast_last.
      destruct (IH (i + step) (0 :: map (Nat.add step) oe') o1) as [o [R2 [L3 K2]]].
      { lia. } { lia. } { discriminate. }
      { constructor; [apply sorted_map_add; auto|]. apply Forall_map. apply Forall_forall. intros x _. lia. }
      { constructor; [lia|]. apply Forall_map. eapply Forall_impl; [|exact FL]. cbn beta. intros; lia. }
      { assert (PP : Permutation (map (fun x => (x + step) mod n) (oe' ++ [m])) (map (fun e => (e + (i + step)) mod n) L)).
        { rewrite (Permutation_map (fun x => (x + step) mod n) PO). rewrite map_map. apply Permutation_refl'. apply map_ext. intros e.
          rewrite Nat.add_mod_idemp_l by lia. f_equal. lia. }
        rewrite <- PP. rewrite map_app. cbn [map]. replace (m + step) with n by lia. rewrite Nat.mod_same by lia.
        rewrite Permutation_app_comm. cbn [app]. apply perm_skip. apply Permutation_refl'. apply map_ext_in. intros x Hx.
        rewrite Forall_forall in FL. apply FL in Hx. rewrite Nat.mod_small by lia. lia. }
      exists o. split; [exact R2|]. split; [congruence|]. intros r. rewrite K2, K.
      destruct (Nat.leb_spec (i + step) r), (Nat.leb_spec i r), (Nat.ltb_spec r (i + step)), (Nat.ltb_spec r n); cbn [andb]; auto; try lia.
      rewrite ROW by lia. reflexivity.
Qed.

(** ** The constructor *)
Lemma set_insert_spec x l : StronglySorted lt l ->
  let '(r, ok) := set_insert x l in
  StronglySorted lt r /\ (forall y, In y r <-> y = x \/ In y l) /\ (ok = true <-> ~ In x l) /\
  length r = (if ok then S (length l) else length l).
Proof.
  induction l as [|a l IH]; intros H; cbn [set_insert].
  - split; [repeat constructor|]. split; [intros y; cbn; intuition|]. split; [split; [intros _ []|reflexivity]|reflexivity].
  - apply StronglySorted_inv in H. destruct H as [S F]. rewrite Forall_forall in F.
    destruct (Nat.ltb_spec x a).
    { split. { constructor; [constructor; [auto|apply Forall_forall; auto]|]. constructor; auto. apply Forall_forall. intros y Hy. apply F in Hy. lia. }
      split; [intros y; cbn; intuition|]. split; [|reflexivity]. split; [|reflexivity]. intros _ [C|C]; [lia|apply F in C; lia]. }
    destruct (Nat.eqb_spec x a) as [->|N].
    { split; [constructor; auto; apply Forall_forall; auto|]. split; [intros y; cbn; intuition|]. split; [|reflexivity].
      split; [discriminate|]. intros C. exfalso. apply C. left. reflexivity. }
    specialize (IH S). destruct (set_insert x l) as [r ok]. destruct IH as [S1 [M1 [O1 L1]]]. split.
    { constructor; auto. apply Forall_forall. intros y Hy. apply M1 in Hy. destruct Hy as [->|Hy]; [lia|apply F; auto]. }
    split; [intros y; cbn [In]; rewrite M1; intuition|]. split.
    { rewrite O1. cbn [In]. split; intros C; [intros [D|D]; [lia|auto]|intros D; apply C; auto]. }
    cbn [length]. rewrite L1. destruct ok; reflexivity.
Qed.
Lemma sorted_nodup l : StronglySorted lt l -> NoDup l.
Proof. induction 1 as [|a l S IH F]; constructor; auto. intros C. rewrite Forall_forall in F. apply F in C. lia. Qed.
(** Among any k + 1 consecutive residues, k < n, one is not in a k-element set. *)
Lemma free_slot n tmp (l : list nat) k : tmp < n -> NoDup l -> length l <= k -> k < n ->
  exists s, s <= k /\ ~ In ((tmp + s) mod n) l.
Proof.
  intros Ht ND Hl Hk.
  destruct (in_dec Nat.eq_dec 1 (map (fun s => if in_dec Nat.eq_dec ((tmp + s) mod n) l then 0 else 1) (seq 0 (S k)))) as [I|I].
  - apply in_map_iff in I. destruct I as [s [E Hs]]. apply in_seq in Hs. exists s. split; [lia|].
    destruct (in_dec Nat.eq_dec ((tmp + s) mod n) l); [discriminate|auto].
  - exfalso. assert (INC : incl (map (fun s => (tmp + s) mod n) (seq 0 (S k))) l).
    { intros y Hy. apply in_map_iff in Hy. destruct Hy as [s [<- Hs]]. destruct (in_dec Nat.eq_dec ((tmp + s) mod n) l) as [J|J]; auto.
      exfalso. apply I. apply in_map_iff. exists s. split; auto. destruct (in_dec Nat.eq_dec ((tmp + s) mod n) l); [contradiction|reflexivity]. }
    assert (ND2 : NoDup (map (fun s => (tmp + s) mod n) (seq 0 (S k)))).
    { assert (G : forall l0, NoDup l0 -> Forall (fun s => s <= k) l0 -> NoDup (map (fun s => (tmp + s) mod n) l0)).
      { induction 1 as [|a l0 Ha Hl0 IHl]; intros F; cbn [map]; constructor.
        - intros C. apply in_map_iff in C. destruct C as [b [E Hb]]. inversion_clear F as [|? ? Fa Fl]. rewrite Forall_forall in Fl.
          pose proof (Fl b Hb) as Fb. apply Ha. replace a with b; auto.
          assert (Q : forall s, s <= k -> (tmp + s) mod n = if tmp + s <? n then tmp + s else tmp + s - n).
          { intros s Hs. destruct (Nat.ltb_spec (tmp + s) n); [apply Nat.mod_small; auto|].
            replace (tmp + s) with ((tmp + s - n) + 1 * n) at 1 by lia. rewrite Nat.mod_add by lia. apply Nat.mod_small. lia. }
          rewrite !Q in E by lia. destruct (Nat.ltb_spec (tmp + b) n), (Nat.ltb_spec (tmp + a) n); lia.
        - apply IHl. inversion_clear F. auto. }
      apply G; [apply seq_NoDup|]. apply Forall_forall. intros s Hs. apply in_seq in Hs. lia. }
    pose proof (NoDup_incl_length ND2 INC) as LE. rewrite map_length, seq_length in LE. lia.
Qed.
Lemma probe_spec n entry : StronglySorted lt entry -> Forall (fun e => e < n) entry ->
  forall s fuel tmp counter, tmp < n -> ~ In ((tmp + s) mod n) entry -> counter + s < 1000 -> s < fuel ->
  exists e' c', probe fuel n tmp entry counter = (e', c') /\ StronglySorted lt e' /\ Forall (fun e => e < n) e' /\
    length e' = S (length entry) /\ c' <= counter + s.
Proof.
  intros S F. induction s as [|s IH]; intros [|fuel] tmp counter Ht HN Hc Hf; try lia; cbn [probe].
  - destruct (Nat.ltb_spec counter 1000); [|lia]. rewrite Nat.add_0_r, Nat.mod_small in HN by lia.
    pose proof (set_insert_spec tmp entry S) as SI. destruct (set_insert tmp entry) as [e ok]. destruct SI as [S1 [M1 [O1 L1]]].
    assert (ok = true) by (apply O1; auto). subst ok. exists e, counter. split; [reflexivity|]. split; [exact S1|]. split; [|split; [exact L1|lia]].
    apply Forall_forall. intros y Hy. apply M1 in Hy. destruct Hy as [->|Hy]; [lia|]. rewrite Forall_forall in F. auto.
  - destruct (Nat.ltb_spec counter 1000); [|lia].
    pose proof (set_insert_spec tmp entry S) as SI. destruct (set_insert tmp entry) as [e ok] eqn:EQ. destruct SI as [S1 [M1 [O1 L1]]].
    destruct ok.
    + exists e, counter. split; [reflexivity|]. split; [exact S1|]. split; [|split; [exact L1|lia]].
      apply Forall_forall. intros y Hy. apply M1 in Hy. destruct Hy as [->|Hy]; [lia|]. rewrite Forall_forall in F. auto.
    + assert (I : In tmp entry). { destruct (in_dec Nat.eq_dec tmp entry) as [J|J]; auto. apply O1 in J. discriminate. }
      assert (E : e = entry).
      { clear - EQ. revert e EQ. induction entry as [|a l IHl]; intros e EQ; cbn [set_insert] in EQ; [discriminate|].
        destruct (tmp <? a); [discriminate|]. destruct (tmp =? a); [injection EQ; auto|].
        destruct (set_insert tmp l) as [r b]. injection EQ. intros -> <-. f_equal. apply IHl. reflexivity. }
      subst e. destruct (IH fuel ((tmp + 1) mod n) (Datatypes.S counter)) as [e' [c' [E1 [P1 [P2 [P3 P4]]]]]]; try lia.
      { apply Nat.mod_upper_bound. lia. }
      { rewrite Nat.add_mod_idemp_l by lia. replace (tmp + 1 + s) with (tmp + Datatypes.S s) by lia. exact HN. }
      exists e', c'. split; [exact E1|]. split; [exact P1|]. split; [exact P2|]. split; [exact P3|lia].
Qed.
Lemma init_left_some n raw : length raw <= n -> length raw <= 11 ->
  exists l, init_left n raw = Val l /\ StronglySorted lt l /\ Forall (fun e => e < n) l /\ length l = length raw.
Proof.
  intros H H11. unfold init_left.
  assert (G : forall raw entry counter, StronglySorted lt entry -> Forall (fun e => e < n) entry -> length entry + length raw <= n ->
    length entry + length raw <= 11 -> counter <= length entry * 11 ->
    exists e' c', fold_left (fun st r => probe 1001 n (r mod n) (fst st) (snd st)) raw (entry, counter) = (e', c') /\
      StronglySorted lt e' /\ Forall (fun e => e < n) e' /\ length e' = length entry + length raw).
  { induction raw0 as [|r raw0 IH]; intros entry counter S F L L11 C; cbn [fold_left].
    - exists entry, counter. cbn [length]. rewrite Nat.add_0_r. auto.
    - cbn [length] in L, L11. cbn [fst snd].
      assert (Hn : 0 < n) by lia.
      destruct (free_slot n (r mod n) entry (length entry)) as [s [Hs1 Hs2]]; try lia.
      { apply Nat.mod_upper_bound. lia. } { apply sorted_nodup. auto. }
      assert (C2 : exists e' c', probe 1001 n (r mod n) entry counter = (e', c') /\ StronglySorted lt e' /\ Forall (fun e => e < n) e' /\
        length e' = Datatypes.S (length entry) /\ c' <= counter + s).
      { apply probe_spec; auto; [apply Nat.mod_upper_bound; lia|lia|lia]. }
      destruct C2 as [e' [c' [E1 [P1 [P2 [P3 P4]]]]]]. rewrite E1.
      destruct (IH e' c' P1 P2) as [e2 [c2 [E2 [Q1 [Q2 Q3]]]]]; try lia.
      exists e2, c2. split; [exact E2|]. split; [exact Q1|]. split; [exact Q2|]. cbn [length]. lia. }
  destruct (G raw [] 0 (SSorted_nil _) (Forall_nil _) H H11 (Nat.le_refl 0)) as [e [k [E [P1 [P2 P3]]]]].
  rewrite E. cbn [length Nat.add] in P3. rewrite P3, Nat.eqb_refl. exists e. auto.
Qed.
