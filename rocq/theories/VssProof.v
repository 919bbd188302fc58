(** Lemmas for VssModel. *)
From Coq Require Import ZArith List Bool Lia Zdiv Znumtheory Setoid Morphisms.
From Verif Require Import ZpLib VssModel.
Import ListNotations.
Open Scope Z_scope.

Lemma add_mod_eqm m a b : eqm m (add_mod a b m) (a + b).
Proof. apply eqm_mod. Qed.
Lemma sub_mod_eqm m a b : eqm m (sub_mod a b m) (a - b).
Proof. apply eqm_mod. Qed.
Lemma mul_mod_eqm m a b : eqm m (mul_mod a b m) (a * b).
Proof. apply eqm_mod. Qed.
Lemma eqm_some m a b : eqm m a b -> 0 < m -> 0 <= a < m -> a = b mod m.
Proof.
  intros H Hm Ha. apply (eqm_small m); [lia|apply Z.mod_pos_bound; lia|]. rewrite eqm_mod. exact H.
Qed.

(** ** Horner *)
Lemma horner_eqm m x c : forall tmp,
  eqm m (fold_left (fun tmp c => add_mod (mul_mod x tmp m) c m) c tmp)
        (peval (rev c ++ [tmp]) x).
Proof.
  induction c as [|a c IH]; intros tmp.
  - cbn. mring.
  - cbn [fold_left]. rewrite IH. cbn [rev]. rewrite <- app_assoc, !peval_app. cbn [app peval length]. change (Z.of_nat 1) with 1. rewrite ?Z.pow_1_r.
    rewrite add_mod_eqm, mul_mod_eqm. mring.
Qed.
Lemma evaluate_some m c x : c <> [] -> exists y, evaluate_polynomial m c x = Some y.
Proof.
  intros H. unfold evaluate_polynomial. destruct (rev c) as [|t r] eqn:E; [|eauto].
  apply (f_equal (@rev Z)) in E. rewrite rev_involutive in E. contradiction.
Qed.
Lemma evaluate_eqm m c x y : evaluate_polynomial m c x = Some y -> eqm m y (peval c x).
Proof.
  unfold evaluate_polynomial. destruct (rev c) as [|t r] eqn:E; [discriminate|]. intros [= <-].
  rewrite horner_eqm. apply (f_equal (@rev Z)) in E. rewrite rev_involutive in E. rewrite E. reflexivity.
Qed.
Lemma horner_range m x c : 0 < m -> forall tmp, (c <> [] \/ 0 <= tmp < m) ->
  0 <= fold_left (fun tmp c => add_mod (mul_mod x tmp m) c m) c tmp < m.
Proof.
  intros Hm. induction c as [|a c IH]; intros tmp H; cbn [fold_left].
  - destruct H; [contradiction|auto].
  - apply IH. right. apply Z.mod_pos_bound. lia.
Qed.
Lemma evaluate_range m c x y : 0 < m -> Forall (fun a => 0 <= a < m) c ->
  evaluate_polynomial m c x = Some y -> 0 <= y < m.
Proof.
  intros Hm R. unfold evaluate_polynomial. destruct (rev c) as [|t r] eqn:E; [discriminate|]. intros [= <-].
  apply horner_range; auto. right. apply (f_equal (@rev Z)) in E. rewrite rev_involutive in E. subst c.
  rewrite Forall_forall in R. apply R. cbn [rev]. apply in_app_iff. right. left. reflexivity.
Qed.

(** ** Lagrange *)
Definition prodsub (l : list Z) (t : Z) : Z := fold_right (fun x acc => (x - t) * acc) 1 l.
Definition others (i : nat) (xs : list Z) : list Z := firstn i xs ++ skipn (S i) xs.
Definition lpoly (l : list Z) : list Z := fold_right plin [1] l.

Lemma prodsub_cons x l t : prodsub (x :: l) t = (x - t) * prodsub l t.
Proof. reflexivity. Qed.
Lemma lpoly_eval l t : peval (lpoly l) t = prodsub l t.
Proof. unfold lpoly, prodsub. induction l as [|x l IH]; cbn [fold_right]; [cbn [peval]; ring|]. rewrite peval_lin, IH. reflexivity. Qed.
Lemma lpoly_length l : length (lpoly l) = S (length l).
Proof. induction l as [|x l IH]; cbn [lpoly fold_right]; [reflexivity|]. rewrite plin_length. unfold lpoly in IH. rewrite IH. reflexivity. Qed.
Lemma others_length i xs : (i < length xs)%nat -> length (others i xs) = pred (length xs).
Proof. intros H. unfold others. rewrite app_length, firstn_length, skipn_length. lia. Qed.
Lemma others_S i x xs : others (S i) (x :: xs) = x :: others i xs.
Proof. reflexivity. Qed.
Lemma others_O x xs : others 0 (x :: xs) = xs.
Proof. reflexivity. Qed.
Lemma others_in i : forall xs z, In z (others i xs) <-> exists k, k <> i /\ (k < length xs)%nat /\ nth k xs 0 = z.
Proof.
  induction i as [|i IH]; intros [|x xs] z.
  - split; [intros []|intros [k [_ [H _]]]; cbn in H; lia].
  - rewrite others_O. split.
    + intros H. apply (In_nth _ _ 0) in H. destruct H as [k [H1 H2]]. exists (S k). cbn. repeat split; auto; lia.
    + intros [[|k] [H1 [H2 H3]]]; [congruence|]. cbn in *. subst z. apply nth_In. lia.
  - split; [intros []|intros [k [_ [H _]]]; cbn in H; lia].
  - rewrite others_S. cbn [In]. rewrite IH. split.
    + intros [<-|[k [H1 [H2 H3]]]].
      * exists 0%nat. cbn. repeat split; auto; lia.
      * exists (S k). cbn. repeat split; auto; lia.
    + intros [[|k] [H1 [H2 H3]]]; cbn in *; [left; auto|]. right. exists k. repeat split; auto; lia.
Qed.
Lemma prodsub_zero p l t : prime p -> eqm p (prodsub l t) 0 <-> exists x, In x l /\ eqm p x t.
Proof.
  intros Hp. induction l as [|x l IH].
  - cbn. split; [|intros [x [[] _]]]. intros [H]. pose proof (prime_pos p Hp). rewrite Zmod_0_l, Z.mod_small in H by lia. discriminate.
  - rewrite prodsub_cons. split.
    + intros H. destruct (eqm_prime_mul p _ _ Hp H) as [K|K].
      * exists x. split; [left; auto|]. apply eqm_sub0. exact K.
      * apply IH in K. destruct K as [z [K1 K2]]. exists z. split; [right; auto|auto].
    + intros [z [[<-|Hz] E]].
      * apply eqm_sub0 in E. rewrite E. mring.
      * assert (K : eqm p (prodsub l t) 0) by (apply IH; eauto). rewrite K. mring.
Qed.
Lemma distinct_nth p l : distinct p l <-> (forall i k, (i < length l)%nat -> (k < length l)%nat -> i <> k -> ~ eqm p (nth i l 0) (nth k l 0)).
Proof.
  induction l as [|a l IH].
  - split; [intros _ i k H; cbn in H; lia|intros; exact I].
  - cbn [distinct]. rewrite IH, Forall_forall. split.
    + intros [H1 H2] [|i] [|k] Hi Hk N; cbn in *; try lia.
      * apply H1. apply nth_In. lia.
      * intros E. symmetry in E. revert E. apply H1. apply nth_In. lia.
      * apply H2; lia.
    + intros H. split.
      * intros b Hb. apply (In_nth _ _ 0) in Hb. destruct Hb as [k [Hk <-]].
        apply (H 0%nat (S k)); cbn; lia.
      * intros i k Hi Hk N. apply (H (S i) (S k)); cbn; lia.
Qed.

Lemma lagrange_loop_past m t xi i xs : forall j n d, (i < j)%nat ->
  eqm m (fst (lagrange_loop xs j i xi t m n d)) (n * prodsub xs t) /\
  eqm m (snd (lagrange_loop xs j i xi t m n d)) (d * prodsub xs xi).
Proof.
  induction xs as [|x xs IH]; intros j n d H; cbn [lagrange_loop].
  - cbn. split; mring.
  - destruct (Nat.eqb_spec j i); [lia|].
    destruct (IH (S j) (mul_mod n (sub_mod x t m) m) (mul_mod d (sub_mod x xi m) m) ltac:(lia)) as [H1 H2].
    rewrite !prodsub_cons. rewrite H1, H2, !mul_mod_eqm, !sub_mod_eqm. split; mring.
Qed.
Lemma lagrange_loop_eqm m t xi i xs : forall j n d, (j <= i)%nat ->
  eqm m (fst (lagrange_loop xs j i xi t m n d)) (n * prodsub (others (i - j) xs) t) /\
  eqm m (snd (lagrange_loop xs j i xi t m n d)) (d * prodsub (others (i - j) xs) xi).
Proof.
  induction xs as [|x xs IH]; intros j n d H; cbn [lagrange_loop].
  - unfold others. rewrite firstn_nil. cbn. split; mring.
  - destruct (Nat.eqb_spec j i) as [->|N].
    + rewrite Nat.sub_diag, others_O. apply lagrange_loop_past. lia.
    + replace (i - j)%nat with (S (i - S j)) by lia. rewrite others_S, !prodsub_cons.
      destruct (IH (S j) (mul_mod n (sub_mod x t m) m) (mul_mod d (sub_mod x xi m) m) ltac:(lia)) as [H1 H2].
      rewrite H1, H2, !mul_mod_eqm, !sub_mod_eqm. split; mring.
Qed.
Lemma invert_mod_eqm a b m : eqm m a b -> invert_mod a m = invert_mod b m.
Proof. intros [H]. unfold invert_mod. rewrite H. reflexivity. Qed.
Lemma compute_at_x p xs i y t : (i < length xs)%nat ->
  lagrange_compute_at_x xs i y t p =
  match invert_mod (prodsub (others i xs) (nth i xs 0)) p with
  | None => None
  | Some w => Some ((y * prodsub (others i xs) t * w) mod p)
  end.
Proof.
  intros Hi. unfold lagrange_compute_at_x. destruct (Nat.ltb_spec i (length xs)); [|lia].
  pose proof (lagrange_loop_eqm p t (nth i xs 0) i xs 0 1 1 ltac:(lia)) as [H1 H2].
  rewrite Nat.sub_0_r in *. destruct (lagrange_loop xs 0 i (nth i xs 0) t p 1 1) as [n d].
  cbn [fst snd] in *.
  assert (H2' : eqm p d (prodsub (others i xs) (nth i xs 0))) by (rewrite H2; mring).
  rewrite (invert_mod_eqm _ _ p H2'). destruct (invert_mod _ p) as [w|]; [|reflexivity].
  f_equal. unfold mul_mod.
  assert (E : eqm p ((y * n) mod p * w) (y * prodsub (others i xs) t * w)).
  { rewrite eqm_mod, H1. mring. }
  destruct E as [E]. exact E.
Qed.
Lemma weight_some p xs i : prime p -> distinct p xs -> (i < length xs)%nat ->
  exists w, invert_mod (prodsub (others i xs) (nth i xs 0)) p = Some w.
Proof.
  intros Hp D Hi. apply invert_mod_prime; auto. rewrite prodsub_zero by auto.
  intros [x [H1 H2]]. apply others_in in H1. destruct H1 as [k [K1 [K2 <-]]].
  rewrite distinct_nth in D. exact (D k i K2 Hi K1 H2).
Qed.

(** Sum of polynomials *)
Definition psum (l : list (list Z)) : list Z := fold_right padd [] l.
Lemma psum_eval l x : peval (psum l) x = fold_right (fun c acc => peval c x + acc) 0 l.
Proof. induction l as [|c l IH]; cbn [psum fold_right]; [reflexivity|]. rewrite peval_add. unfold psum in IH. rewrite IH. reflexivity. Qed.
Lemma psum_length l n : Forall (fun c => (length c <= n)%nat) l -> (length (psum l) <= n)%nat.
Proof.
  induction 1 as [|c l H K IH]; cbn [psum fold_right]; [cbn; lia|]. rewrite padd_length. unfold psum in IH. lia.
Qed.

Definition weight (p : Z) (xs : list Z) (i : nat) : Z :=
  match invert_mod (prodsub (others i xs) (nth i xs 0)) p with Some w => w | None => 0 end.
Definition lagrange_poly (p : Z) (xs ys : list Z) : list Z :=
  psum (map (fun i => pscale (nth i ys 0 * weight p xs i) (lpoly (others i xs))) (seq 0 (length xs))).
Lemma lagrange_poly_length p xs ys : (length (lagrange_poly p xs ys) <= length xs)%nat.
Proof.
  apply psum_length. rewrite Forall_forall. intros c Hc. apply in_map_iff in Hc.
  destruct Hc as [i [<- Hi]]. apply in_seq in Hi. rewrite pscale_length, lpoly_length, others_length; lia.
Qed.
Lemma interpolation_loop_eq p xs ys t : prime p -> distinct p xs -> forall todo acc,
  (forall i, In i todo -> (i < length xs)%nat) -> 0 <= acc < p ->
  interpolation_loop xs ys t p todo acc =
  Some ((acc + fold_right (fun i s => nth i ys 0 * weight p xs i * prodsub (others i xs) t + s) 0 todo) mod p).
Proof.
  intros Hp D. pose proof (prime_pos p Hp). induction todo as [|i todo IH]; intros acc Hi Ha; cbn [interpolation_loop fold_right].
  - rewrite Z.add_0_r, Z.mod_small by lia. reflexivity.
  - rewrite compute_at_x by (apply Hi; left; auto).
    destruct (weight_some p xs i Hp D) as [w W]; [apply Hi; left; auto|]. rewrite W.
    rewrite IH; [|intros k Hk; apply Hi; right; auto|apply Z.mod_pos_bound; lia].
    f_equal. apply (eqm_small p); try (apply Z.mod_pos_bound; lia).
    rewrite !eqm_mod, add_mod_eqm, eqm_mod. replace (weight p xs i) with w by (unfold weight; rewrite W; reflexivity). rewrite ?eqm_mod. mring.
Qed.
Lemma interpolation_eq p xs ys t : prime p -> distinct p xs -> length xs = length ys ->
  lagrange_interpolation xs ys t p = Some (peval (lagrange_poly p xs ys) t mod p).
Proof.
  intros Hp D L. pose proof (prime_pos p Hp). unfold lagrange_interpolation. rewrite L, Nat.eqb_refl, <- L.
  rewrite interpolation_loop_eq; auto; [|intros i Hi; apply in_seq in Hi; lia|lia].
  f_equal. f_equal. rewrite Z.add_0_l. unfold lagrange_poly. rewrite psum_eval.
  generalize (seq 0 (length xs)). intros l. induction l as [|i l IH]; [reflexivity|].
  cbn [map fold_right]. rewrite IH, peval_scale, lpoly_eval. reflexivity.
Qed.
Lemma sum_single (p : Z) (f : nat -> Z) k l : NoDup l -> (forall i, In i l -> i <> k -> eqm p (f i) 0) ->
  eqm p (fold_right (fun i s => f i + s) 0 l) (if in_dec Nat.eq_dec k l then f k else 0).
Proof.
  induction 1 as [|a l Ha Hl IH]; intros Z0; cbn [fold_right].
  - destruct (in_dec Nat.eq_dec k []) as [[]|]; reflexivity.
  - rewrite IH by (intros i Hi; apply Z0; right; auto).
    destruct (in_dec Nat.eq_dec k l) as [K|K]; destruct (in_dec Nat.eq_dec k (a :: l)) as [K'|K'].
    + rewrite (Z0 a); [mring|left; auto|]. intros ->. contradiction.
    + exfalso. apply K'. right. auto.
    + destruct K' as [->|]; [mring|contradiction].
    + rewrite (Z0 a); [mring|left; auto|]. intros ->. apply K'. left. auto.
Qed.
Lemma lagrange_poly_at p xs ys k : prime p -> distinct p xs -> (k < length xs)%nat ->
  eqm p (peval (lagrange_poly p xs ys) (nth k xs 0)) (nth k ys 0).
Proof.
  intros Hp D Hk. unfold lagrange_poly. rewrite psum_eval.
  assert (E : forall l t, fold_right (fun c acc => peval c t + acc) 0
    (map (fun i => pscale (nth i ys 0 * weight p xs i) (lpoly (others i xs))) l) =
    fold_right (fun i s => nth i ys 0 * weight p xs i * prodsub (others i xs) t + s) 0 l).
  { intros l t. induction l as [|i l IH]; [reflexivity|]. cbn [map fold_right]. rewrite IH, peval_scale, lpoly_eval. reflexivity. }
  rewrite E. rewrite (sum_single p (fun i => nth i ys 0 * weight p xs i * prodsub (others i xs) (nth k xs 0)) k).
  - destruct (in_dec Nat.eq_dec k (seq 0 (length xs))) as [|N]; [|exfalso; apply N; apply in_seq; lia].
    destruct (weight_some p xs k Hp D Hk) as [w W]. unfold weight. rewrite W.
    apply invert_mod_some in W. destruct W as [_ W].
    transitivity (nth k ys 0 * (prodsub (others k xs) (nth k xs 0) * w)); [mring|]. rewrite W. mring.
  - apply seq_NoDup.
  - intros i Hi N. apply in_seq in Hi.
    assert (K : eqm p (prodsub (others i xs) (nth k xs 0)) 0).
    { apply prodsub_zero; auto. exists (nth k xs 0). split; [|reflexivity]. apply others_in. exists k. auto. }
    rewrite K. mring.
Qed.
(** Interpolating the values of a short polynomial gives its value anywhere. *)
Lemma interpolation_poly p c xs ys t : prime p -> distinct p xs -> (length c <= length xs)%nat ->
  length ys = length xs ->
  (forall k, (k < length xs)%nat -> eqm p (nth k ys 0) (peval c (nth k xs 0))) ->
  lagrange_interpolation xs ys t p = Some (peval c t mod p).
Proof.
  intros Hp D L Ly H. rewrite interpolation_eq by auto. f_equal.
  set (q := lagrange_poly p xs ys).
  assert (Z0 : Forall (fun a => eqm p a 0) (padd q (pscale (-1) c))).
  { apply (roots_zero p Hp xs); auto.
    - rewrite padd_length, pscale_length. pose proof (lagrange_poly_length p xs ys). unfold q. lia.
    - rewrite Forall_forall. intros x Hx. apply (In_nth _ _ 0) in Hx. destruct Hx as [k [Hk <-]].
      rewrite peval_add, peval_scale. unfold q. rewrite lagrange_poly_at by auto. rewrite (H k Hk). mring. }
  assert (E : eqm p (peval q t) (peval c t)).
  { apply eqm_sub0. rewrite <- (peval_zero p _ t Z0). rewrite peval_add, peval_scale. mring. }
  destruct E as [E]. exact E.
Qed.
(** Congruent x-coordinates make the inversion throw. *)
Lemma interpolation_throws p xs ys t : prime p -> ~ distinct p xs -> lagrange_interpolation xs ys t p = None.
Proof.
  intros Hp ND. unfold lagrange_interpolation. destruct (Nat.eqb (length xs) (length ys)); [|reflexivity].
  assert (X : exists i, (i < length xs)%nat /\ exists k, (k < length xs)%nat /\ k <> i /\ eqm p (nth k xs 0) (nth i xs 0)).
  { clear t ys Hp. induction xs as [|a xs IH]; [exfalso; apply ND; exact I|].
    cbn [distinct] in ND.
    destruct (Forall_Exists_dec (fun b => ~ eqm p a b) (fun b => match eqm_dec p a b with left e => right (fun n => n e) | right n => left n end) xs) as [F|F].
    - destruct IH as [i [Hi [k [Hk [N E]]]]]; [tauto|].
      exists (S i). split; [cbn; lia|]. exists (S k). split; [cbn; lia|]. split; [lia|exact E].
    - apply Exists_exists in F. destruct F as [b [Hb Nb]]. apply (In_nth _ _ 0) in Hb. destruct Hb as [k [Hk <-]].
      exists 0%nat. split; [cbn; lia|]. exists (S k). split; [cbn; lia|]. split; [discriminate|]. cbn [nth].
      destruct (eqm_dec p a (nth k xs 0)) as [e|n]; [symmetry; exact e|contradiction]. }
  destruct X as [i [Hi [k [Hk [N E]]]]].
  assert (W : forall y, lagrange_compute_at_x xs i y t p = None).
  { intros y. rewrite compute_at_x by auto. rewrite invert_mod_zero; auto.
    apply prodsub_zero; auto. exists (nth k xs 0). split; auto. apply others_in. exists k. auto. }
  assert (G : forall todo acc, In i todo -> interpolation_loop xs ys t p todo acc = None).
  { induction todo as [|j todo IH]; intros acc Hin; [destruct Hin|]. cbn [interpolation_loop].
    destruct Hin as [->|Hin]; [rewrite W; reflexivity|].
    destruct (lagrange_compute_at_x xs j (nth j ys 0) t p); [apply IH; auto|reflexivity]. }
  apply G. apply in_seq. lia.
Qed.

Lemma make_shares_in m c xs l : make_shares m c xs = Some l ->
  forall x y, In (x, y) l -> In x xs /\ evaluate_polynomial m c x = Some y.
Proof.
  revert l. induction xs as [|a xs IH]; intros l; cbn [make_shares].
  - intros [= <-] x y [].
  - destruct (evaluate_polynomial m c a) as [v|] eqn:E; [|discriminate].
    destruct (make_shares m c xs) as [r|]; [|discriminate]. intros [= <-] x y [[= <- <-]|H].
    + split; [left; auto|auto].
    + destruct (IH r eq_refl x y H). split; [right; auto|auto].
Qed.
Lemma make_shares_fst m c xs l : make_shares m c xs = Some l -> map fst l = xs.
Proof.
  revert l. induction xs as [|a xs IH]; intros l; cbn [make_shares].
  - intros [= <-]. reflexivity.
  - destruct (evaluate_polynomial m c a) as [v|] eqn:E; [|discriminate].
    destruct (make_shares m c xs) as [r|]; [|discriminate]. intros [= <-]. cbn. f_equal. auto.
Qed.
Lemma make_shares_some m c xs : c <> [] -> exists l, make_shares m c xs = Some l.
Proof.
  intros H. induction xs as [|a xs [l IH]]; cbn [make_shares]; [eauto|].
  destruct (evaluate_some m c a H) as [y ->]. rewrite IH. eauto.
Qed.
Lemma polynomial_length s t rnd c : create_polynomial s t rnd = Some c -> length c = t /\ exists c', c = s :: c'.
Proof.
  unfold create_polynomial. destruct t as [|t]; [discriminate|]. intros [= <-]. split; [|eauto].
  cbn [length]. rewrite map_length, seq_length. reflexivity.
Qed.
