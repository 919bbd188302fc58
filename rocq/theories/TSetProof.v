(** Lemmas about TSet. *)
From Coq Require Import NArith List Bool Arith Lia Permutation.
From Verif Require Import TSetModel.
Import ListNotations.
Open Scope nat_scope.

Lemma upd_length {A} (l : list A) i v : length (upd l i v) = length l.
Proof. revert i. induction l as [|a l IH]; intros [|i]; cbn [upd length]; auto. Qed.
Lemma upd_nth {A} (l : list A) i v j d : i < length l -> nth j (upd l i v) d = if j =? i then v else nth j l d.
Proof. revert i j. induction l as [|a l IH]; intros [|i] [|j] H; cbn [upd nth length Nat.eqb] in *; auto; try lia. apply IH. lia. Qed.

(** ** Packing *)
Lemma le4_length n : length (le4 n) = 4.
Proof. reflexivity. Qed.
Lemma of_le4 n : (n < 2 ^ 32)%N -> of_le (le4 n) = n.
Proof.
  intros H. unfold le4, of_le. cbn [map fold_right].
  rewrite (N.mul_0_r 8), (N.mul_1_r 8). rewrite N.pow_0_r, N.div_1_r. rewrite N.mul_0_r, N.add_0_r.
  change (2 ^ 8)%N with 256%N. change (2 ^ (8 * 2))%N with (256 * 256)%N. change (2 ^ (8 * 3))%N with (256 * 256 * 256)%N.
  rewrite <- !N.div_div by discriminate.
  set (a := (n / 256)%N). set (b := (a / 256)%N). set (c := (b / 256)%N).
  assert (C : (c < 256)%N). { unfold c, b, a. rewrite !N.div_div by discriminate. apply N.div_lt_upper_bound; [discriminate|]. change (2 ^ 32)%N with (256 * 256 * 256 * 256)%N in H. exact H. }
  rewrite (N.mod_small c) by exact C.
  pose proof (N.div_mod n 256 ltac:(discriminate)) as E1. fold a in E1. pose proof (N.div_mod a 256 ltac:(discriminate)) as E2. fold b in E2.
  pose proof (N.div_mod b 256 ltac:(discriminate)) as E3. fold c in E3. lia.
Qed.
Lemma unpack_pack t : length (fst t) = 9 -> (N.of_nat (length (snd t)) < 2 ^ 32)%N -> unpack (pack t) = Some t.
Proof.
  intros H1 H2. destruct t as [f s]. cbn [fst snd] in *. unfold pack. cbn [fst snd]. rewrite N.mod_small by exact H2. unfold unpack.
  set (l4 := le4 (N.of_nat (length s))). assert (L4 : length l4 = 4) by reflexivity.
  assert (LL : length (f ++ l4 ++ s) = 13 + length s) by (rewrite !app_length; lia).
  destruct (Nat.ltb_spec (length (f ++ l4 ++ s)) 13); [lia|].
  assert (S9 : skipn 9 (f ++ l4 ++ s) = l4 ++ s) by (rewrite <- H1 at 1; rewrite skipn_app, Nat.sub_diag, skipn_all; reflexivity).
  assert (F4 : firstn 4 (l4 ++ s) = l4) by (rewrite <- L4 at 1; rewrite firstn_app, Nat.sub_diag, firstn_all, firstn_O, app_nil_r; reflexivity).
  assert (OL : of_le l4 = N.of_nat (length s)) by (apply of_le4; exact H2).
  rewrite S9, F4, OL, Nat2N.id.
  destruct (Nat.ltb_spec (length (f ++ l4 ++ s)) (13 + length s)); [lia|]. f_equal. f_equal.
  - rewrite <- H1 at 1. rewrite firstn_app, Nat.sub_diag, firstn_all, firstn_O, app_nil_r. reflexivity.
  - replace 13 with (length (f ++ l4)) by (rewrite app_length; lia). rewrite app_assoc, skipn_app, Nat.sub_diag, skipn_all. cbn [app skipn].
    apply firstn_all.
Qed.
Lemma xor_with_length l k : length l <= length k -> length (xor_with l k) = length l.
Proof. intros H. unfold xor_with. rewrite map_length, combine_length. lia. Qed.
Lemma xor_with_twice l : forall k, length l <= length k -> xor_with (xor_with l k) k = l.
Proof.
  induction l as [|a l IH]; intros [|b k] H; cbn [length] in H; try reflexivity; [lia|].
  unfold xor_with in *. cbn [combine map fst snd]. rewrite N.lxor_assoc, N.lxor_nilpotent, N.lxor_0_r. f_equal. apply IH. lia.
Qed.
Lemma keystream_length sha m len : (forall x, length (sha x) = 32) -> len <= length (keystream sha m len).
Proof.
  intros H. unfold keystream. assert (E : forall l, length (flat_map (fun n => sha (m ++ dec (N.of_nat n))) l) = 32 * length l).
  { induction l as [|x l IH]; [reflexivity|]. cbn [flat_map length]. rewrite app_length, H, IH. lia. }
  rewrite E, seq_length. pose proof (Nat.div_mod (len + 31) 32 ltac:(lia)). pose proof (Nat.mod_upper_bound (len + 31) 32 ltac:(lia)). lia.
Qed.
Lemma resize_id l n : length l = n -> resize l n = l.
Proof. intros H. unfold resize. rewrite firstn_all2 by lia. rewrite H, Nat.sub_diag. apply app_nil_r. Qed.
Lemma resize_length l n : length (resize l n) = n.
Proof. unfold resize. rewrite app_length, firstn_length, repeat_length. lia. Qed.
Lemma nth_firstn_row {A} (l : list A) n d : n = length l -> firstn n l = map (fun j => nth j l d) (seq 0 n).
Proof.
  intros ->. rewrite firstn_all. apply nth_ext with (d := d) (d' := d); [rewrite map_length, seq_length; reflexivity|].
  intros i Hi. rewrite (nth_indep (map _ _) d ((fun j => nth j l d) 0)) by (rewrite map_length, seq_length; auto).
  rewrite (map_nth (fun j => nth j l d)), seq_nth by auto. reflexivity.
Qed.
Lemma filter_split {A} (f : A -> bool) l : Permutation l (filter f l ++ filter (fun x => negb (f x)) l).
Proof.
  induction l as [|a l IH]; [constructor|]. cbn [filter]. destruct (f a); cbn [negb app]; [apply perm_skip; exact IH|].
  rewrite IH at 1. apply Permutation_middle.
Qed.
Lemma filter_perm {A} (f : A -> bool) l m : Permutation l m -> Permutation (filter f l) (filter f m).
Proof.
  induction 1 as [|x l m _ IH|x y l|l m k _ IH1 _ IH2]; cbn [filter].
  - constructor.
  - destruct (f x); [apply perm_skip|]; auto.
  - destruct (f x), (f y); try apply perm_swap; reflexivity.
  - rewrite IH1. exact IH2.
Qed.
Lemma filter_map_comm {A B} (f : B -> bool) (g : A -> B) l : filter f (map g l) = map g (filter (fun x => f (g x)) l).
Proof. induction l as [|a l IH]; [reflexivity|]. cbn [map filter]. destruct (f (g a)); cbn [map]; rewrite IH; reflexivity. Qed.
Lemma filter_nil {A} (f : A -> bool) l : (forall x, In x l -> f x = false) -> filter f l = [].
Proof. induction l as [|a l IH]; intros H; [reflexivity|]. cbn [filter]. rewrite H by (left; auto). apply IH. intros; apply H; right; auto. Qed.
Lemma filter_one {A} (f : A -> bool) l x : NoDup l -> In x l -> f x = true -> (forall y, In y l -> f y = true -> y = x) -> filter f l = [x].
Proof.
  induction 1 as [|a l Ha Hl IH]; intros I F U; [destruct I|]. cbn [filter]. destruct I as [->|I].
  - rewrite F. f_equal. apply filter_nil. intros y Hy. destruct (f y) eqn:Fy; [|reflexivity]. exfalso. apply Ha. rewrite <- (U y (or_intror Hy) Fy). exact Hy.
  - destruct (f a) eqn:Fa.
    + exfalso. apply Ha. rewrite (U a (or_introl eq_refl) Fa). exact I.
    + apply IH; auto. intros y Hy. apply U. right. exact Hy.
Qed.

Lemma filter_le {A} (f : A -> bool) l : length (filter f l) <= length l.
Proof. induction l as [|a l IH]; [apply le_n|]. cbn [filter length]. destruct (f a); cbn [length]; lia. Qed.

Section Hashes.
Variable hmac : list N -> list N -> list N.
Variables sm3 sha : list N -> list N.
Variable p : params.
Hypothesis sha32 : forall x, length (sha x) = 32.
Hypothesis sm32 : forall x, length (sm3 x) = 32.
Hypothesis Hb : 0 < nb p.
Hypothesis Hl : label_size p <= 32.
Notation place := (place hmac sm3 p). Notation record := (record hmac sm3 sha p).
Definition norec : rec := {| label := []; value := [] |}.
(** An item: tag, index, number of tuples of the keyword, tuple. *)
Notation item := (list N * nat * nat * (list N * list N))%type (only parsing).
Definition rec_of (d : item) : rec := let '(g, i, n, t) := d in record g i n t.
Definition place_of (d : item) : nat * list N := let '(g, i, _, _) := d in place g i.
Lemma place_lt g i : fst (place g i) < nb p.
Proof.
  unfold TSetModel.place, bucket. cbn [fst]. match goal with |- N.to_nat (?x mod _) < _ => pose proof (N.mod_upper_bound x (N.of_nat (nb p)) ltac:(lia)) end. lia.
Qed.
Lemma place_label g i : length (snd (place g i)) = label_size p.
Proof. unfold TSetModel.place. cbn [snd]. rewrite firstn_length, sm32. lia. Qed.

Definition usedb (fr : list nat) (j : nat) : bool := negb (existsb (Nat.eqb (S j)) fr).
(** old b l: label l may stand in an unused slot of bucket b. *)
Record inv (old : nat -> list N -> Prop) (D : list item) (s : state) : Prop := {
  v_tab : length (tab s) = nb p;
  v_row : forall b, b < nb p -> length (row s b) = ns p;
  v_free : length (free s) = nb p;
  v_range : forall b j, In j (nth b (free s) []) -> 1 <= j <= ns p;
  v_nodup : forall b, NoDup (nth b (free s) []);
  v_old : forall b j, b < nb p -> In (S j) (nth b (free s) []) -> old b (label (nth j (row s b) norec));
  v_used : forall b, b < nb p ->
    Permutation (map (fun j => nth j (row s b) norec) (filter (usedb (nth b (free s) [])) (seq 0 (ns p))))
                (map rec_of (filter (fun d => fst (place_of d) =? b) D)) }.
Lemma erase_in j l x : In x (erase j l) <-> In x l /\ x <> j.
Proof. unfold erase. rewrite filter_In. split; intros [A B]; split; auto; destruct (Nat.eqb_spec x j); try discriminate; auto; contradiction. Qed.
Lemma usedb_in fr j : usedb fr j = false <-> In (S j) fr.
Proof.
  unfold usedb. rewrite negb_false_iff, existsb_exists. split.
  - intros [x [H E]]. apply Nat.eqb_eq in E. subst x. exact H.
  - intros H. exists (S j). split; [exact H|apply Nat.eqb_refl].
Qed.
Lemma used_erase j fr n : In (S j) fr -> j < n ->
  Permutation (filter (usedb (erase (S j) fr)) (seq 0 n)) (j :: filter (usedb fr) (seq 0 n)).
Proof.
  intros I Hj. apply NoDup_Permutation.
  - apply NoDup_filter. apply seq_NoDup.
  - constructor; [|apply NoDup_filter; apply seq_NoDup]. intros C. apply filter_In in C. destruct C as [_ C]. apply usedb_in in I. congruence.
  - intros x. cbn [In]. rewrite !filter_In. 
    assert (U : usedb (erase (S j) fr) x = usedb fr x || (x =? j)).
    { destruct (Nat.eqb_spec x j) as [->|N].
      - rewrite orb_true_r. destruct (usedb (erase (S j) fr) j) eqn:E; [reflexivity|]. apply usedb_in in E. apply erase_in in E. lia.
      - rewrite orb_false_r. destruct (usedb fr x) eqn:E.
        + destruct (usedb (erase (S j) fr) x) eqn:E2; [reflexivity|]. apply usedb_in in E2. apply erase_in in E2. destruct E2 as [E2 _]. apply usedb_in in E2. congruence.
        + apply usedb_in in E. apply usedb_in. apply erase_in. split; [exact E|lia]. }
    rewrite U. rewrite orb_true_iff, Nat.eqb_eq. rewrite in_seq. split.
    + intros [A [B|B]]; [right; split; [lia|auto]|left; auto].
    + intros [<-|[A B]]; [split; [lia|auto]|split; [lia|auto]].
Qed.
Lemma inv_put old D s g i n t f0 fs k : inv old D s -> nth (fst (place g i)) (free s) [] = f0 :: fs -> k < length (f0 :: fs) ->
  let j := nth k (f0 :: fs) 0 in
  inv old ((g, i, n, t) :: D) {| tab := upd (tab s) (fst (place g i)) (upd (row s (fst (place g i))) ((j - 1) mod ns p) (record g i n t));
     free := upd (free s) (fst (place g i)) (erase j (f0 :: fs)); drawn := S (drawn s) |}.
Proof.
  intros I E Hk j. set (b0 := fst (place g i)) in *. destruct I as [T R F RG ND OLD US].
  assert (HB0 : b0 < nb p) by apply place_lt.
  assert (IJ : In j (nth b0 (free s) [])) by (rewrite E; apply nth_In; exact Hk).
  pose proof (RG b0 j IJ) as RJ. replace ((j - 1) mod ns p) with (j - 1) by (symmetry; apply Nat.mod_small; lia).
  assert (J1 : j = S (j - 1)) by lia. set (q := j - 1) in *.
  split; cbn [tab free].
  - rewrite upd_length. exact T.
  - intros b HB. unfold row. cbn [tab]. rewrite upd_nth by lia. destruct (Nat.eqb_spec b b0) as [->|N]; [rewrite upd_length; apply R; auto|apply R; auto].
  - rewrite upd_length. exact F.
  - intros b x. rewrite upd_nth by lia. destruct (Nat.eqb_spec b b0) as [->|N]; [|apply RG]. intros H. apply erase_in in H. rewrite <- E in H. apply (RG b0). apply H.
  - intros b. rewrite upd_nth by lia. destruct (Nat.eqb_spec b b0) as [->|N]; [|apply ND]. apply NoDup_filter. rewrite <- E. apply ND.
  - intros b x HB. unfold row. cbn [tab free]. rewrite !upd_nth by lia. destruct (Nat.eqb_spec b b0) as [->|N]; [|apply OLD; auto].
    intros H. apply erase_in in H. destruct H as [H N]. rewrite <- E in H. rewrite upd_nth by (fold (row s b0); rewrite R by auto; lia).
    destruct (Nat.eqb_spec x q) as [->|N2]; [lia|]. apply OLD; auto.
  - intros b HB. unfold row. cbn [tab free filter place_of]. fold b0. rewrite !upd_nth by lia. rewrite (Nat.eqb_sym b0 b). destruct (Nat.eqb_spec b b0) as [->|N]; [|apply US; auto].
    rewrite <- E. cbn [map]. rewrite J1 at 1. rewrite (used_erase q) by (rewrite <- ?J1; auto; lia). cbn [map]. fold (row s b0).
    rewrite upd_nth by (rewrite R by auto; lia). rewrite Nat.eqb_refl. cbn [rec_of]. apply perm_skip. rewrite <- (US b0 HB).
    apply Permutation_refl'. apply map_ext_in. intros x Hx. apply filter_In in Hx. destruct Hx as [_ Hx].
    rewrite upd_nth by (rewrite R by auto; lia). destruct (Nat.eqb_spec x q) as [->|N2]; [|reflexivity].
    exfalso. assert (usedb (nth b0 (free s) []) q = false) by (apply usedb_in; rewrite <- J1; exact IJ). congruence.
Qed.
(** The items of tuples ts from index i on. *)
Fixpoint items (g : list N) (n i : nat) (ts : list (list N * list N)) : list item :=
  match ts with [] => [] | t :: ts' => (g, i, n, t) :: items g n (S i) ts' end.
Lemma put_tuples_inv old rnd g n ts : forall i D s, inv old D s ->
  let '(s', r) := put_tuples hmac sm3 sha p rnd g n i ts s in
  exists D', inv old D' s' /\ incl D' (items g n i ts ++ D) /\ (r = false -> Permutation D' (items g n i ts ++ D)).
Proof.
  induction ts as [|t ts IH]; intros i D s I; cbn [put_tuples items].
  - exists D. split; [exact I|]. split; [apply incl_refl|reflexivity].
  - destruct (nth (fst (place g i)) (free s) []) as [|f0 fs] eqn:E.
    + exists D. split; [exact I|]. split; [|discriminate]. intros x Hx. right. apply in_app_iff. right. exact Hx.
    + set (k := N.to_nat (rnd (drawn s) mod N.of_nat (length (f0 :: fs)))).
      assert (Hk : k < length (f0 :: fs)). { unfold k. pose proof (N.mod_upper_bound (rnd (drawn s)) (N.of_nat (length (f0 :: fs))) ltac:(cbn [length]; lia)). lia. }
      pose proof (inv_put old D s g i n t f0 fs k I E Hk) as I'. cbn zeta in I'.
      specialize (IH (S i) _ _ I'). destruct (put_tuples _ _ _ _ _ _ _ _ _ _) as [s' r]. destruct IH as [D' [V [IN PM]]]. exists D'. split; [exact V|]. split.
      * intros x Hx. apply IN in Hx. apply in_app_iff in Hx. destruct Hx as [Hx|[Hx|Hx]]; [right; apply in_app_iff; auto|left; auto|right; apply in_app_iff; auto].
      * intros R. rewrite (PM R). symmetry. cbn [app]. apply Permutation_middle.
Qed.
Definition kw_items (kt : N) (db : list (list N * list (list N * list N))) (w : list N) : list item :=
  match lookup db w with Some ts => items (stag_of hmac kt w) (length ts) 1 ts | None => [] end.
Lemma put_keywords_inv old rnd kt db ws : forall D s r0, inv old D s ->
  forall s' r, put_keywords hmac sm3 sha p rnd kt db ws s r0 = Some (s', r) ->
  exists D', inv old D' s' /\ incl D' (flat_map (kw_items kt db) ws ++ D) /\ (r = false -> r0 = false /\ Permutation D' (flat_map (kw_items kt db) ws ++ D)).
Proof.
  induction ws as [|w ws IH]; intros D s r0 I s' r H; cbn [put_keywords flat_map] in *.
  - injection H. intros <- <-. exists D. split; [exact I|]. split; [apply incl_refl|auto].
  - unfold kw_items at 1 3. destruct (lookup db w) as [ts|] eqn:L; [|discriminate].
    pose proof (put_tuples_inv old rnd (stag_of hmac kt w) (length ts) ts 1 D s I) as P. destruct (put_tuples _ _ _ _ _ _ _ _ _ _) as [s1 r1].
    destruct P as [D1 [I1 [IN1 PM1]]]. destruct (IH D1 s1 (r0 || r1) I1 s' r H) as [D' [V [IN PM]]]. exists D'. split; [exact V|]. split.
    + intros x Hx. apply IN in Hx. apply in_app_iff in Hx. rewrite <- app_assoc. rewrite !in_app_iff. destruct Hx as [Hx|Hx]; [auto|]. apply IN1 in Hx. apply in_app_iff in Hx. tauto.
    + intros R. destruct (PM R) as [R0 PM']. apply orb_false_iff in R0. destruct R0 as [R0 R1]. split; [exact R0|]. rewrite PM', (PM1 R1).
      rewrite <- app_assoc. rewrite !app_assoc. apply Permutation_app_tail. apply Permutation_app_comm.
Qed.
(** Old labels of an attempt become old labels of the next. *)
Definition known (db : list (list N * list (list N * list N))) (ws : list (list N)) (tp : tape) (a b : nat) (l : list N) : Prop :=
  l = repeat 0%N (label_size p) \/
  exists a' w ts i, a' < a /\ In w ws /\ lookup db w = Some ts /\ 1 <= i <= length ts /\ place (stag_of hmac (t_key tp a') w) i = (b, l).
Lemma items_in g n ts : forall i d, In d (items g n i ts) -> exists j t, d = (g, j, n, t) /\ i <= j < i + length ts /\ nth_error ts (j - i) = Some t.
Proof.
  clear Hb Hl. induction ts as [|t ts IH]; intros i d H; cbn [items] in H; [destruct H|]. destruct H as [<-|H].
  - exists i, t. split; [reflexivity|]. cbn [length]. split; [lia|]. rewrite Nat.sub_diag. reflexivity.
  - apply IH in H. destruct H as [j [t' [-> [R E]]]]. exists j, t'. split; [reflexivity|]. cbn [length]. split; [lia|]. replace (j - i) with (S (j - S i)) by lia. exact E.
Qed.
Lemma all_free_nth b : b < nb p -> nth b (all_free p) [] = seq 1 (ns p).
Proof. intros H. unfold all_free. apply nth_repeat_lt || (rewrite nth_indep with (d' := seq 1 (ns p)) by (rewrite repeat_length; auto); apply nth_repeat). Qed.
Lemma initialize_inv (old : nat -> list N -> Prop) s : length (tab s) = nb p -> (forall b, b < nb p -> length (row s b) = ns p) ->
  (forall b j, b < nb p -> j < ns p -> length (label (nth j (row s b) norec)) = label_size p /\ old b (label (nth j (row s b) norec))) ->
  inv old [] (initialize p s).
Proof.
  intros T R L. set (f := fun r => {| label := resize (label r) (label_size p); value := resize (value r) (value_size p) |}).
  assert (RW : forall b, b < nb p -> row (initialize p s) b = map f (row s b)).
  { intros b HB. unfold row, initialize. cbn [tab]. fold f. change (@nil rec) with (map f []) at 1. apply map_nth. }
  assert (FB : forall b, nth b (all_free p) [] = if b <? nb p then seq 1 (ns p) else []).
  { intros b. destruct (Nat.ltb_spec b (nb p)); [apply all_free_nth; auto|]. apply nth_overflow. unfold all_free. rewrite repeat_length. auto. }
  split; cbn [initialize free tab].
  - rewrite map_length. exact T.
  - intros b HB. rewrite RW by auto. rewrite map_length. apply R; auto.
  - unfold all_free. apply repeat_length.
  - intros b j H. rewrite FB in H. destruct (b <? nb p); [apply in_seq in H; lia|destruct H].
  - intros b. rewrite FB. destruct (b <? nb p); [apply seq_NoDup|constructor].
  - intros b j HB H. rewrite FB in H. destruct (Nat.ltb_spec b (nb p)); [|lia]. apply in_seq in H. rewrite RW by auto.
    rewrite nth_indep with (d' := f norec) by (rewrite map_length, R by auto; lia). rewrite map_nth. unfold f. cbn [label].
    destruct (L b j HB ltac:(lia)) as [LL OO]. rewrite resize_id by exact LL. exact OO.
  - intros b HB. rewrite FB. destruct (Nat.ltb_spec b (nb p)); [|lia]. cbn [filter map]. rewrite filter_nil; [constructor|].
    intros j Hj. apply in_seq in Hj. apply usedb_in. apply in_seq. lia.
Qed.
(** All labels of a state after an attempt. *)
Lemma inv_labels (old : nat -> list N -> Prop) D s : inv old D s -> (forall b l, old b l -> length l = label_size p) ->
  forall b j, b < nb p -> j < ns p -> length (label (nth j (row s b) norec)) = label_size p /\
    (old b (label (nth j (row s b) norec)) \/ exists d, In d D /\ place_of d = (b, label (nth j (row s b) norec))).
Proof.
  intros I OL b j HB HJ. destruct (usedb (nth b (free s) []) j) eqn:U.
  - assert (X : In (nth j (row s b) norec) (map rec_of (filter (fun d => fst (place_of d) =? b) D))).
    { eapply Permutation_in; [apply (v_used _ _ _ I b HB)|]. apply in_map_iff. exists j. split; [reflexivity|]. apply filter_In. split; [apply in_seq; lia|exact U]. }
    apply in_map_iff in X. destruct X as [[[[g i] n] t] [E Hd]]. apply filter_In in Hd. destruct Hd as [Hd Hb']. apply Nat.eqb_eq in Hb'. cbn [place_of] in Hb'.
    rewrite <- E. cbn [rec_of]. unfold TSetModel.record. cbn [label]. split; [apply place_label|]. right. exists (g, i, n, t). split; [exact Hd|].
    cbn [place_of]. rewrite <- Hb'. destruct (place g i); reflexivity.
  - apply usedb_in in U. pose proof (v_old _ _ _ I b j HB U) as O. split; [eapply OL; eauto|left; exact O].
Qed.
Lemma setup_loop_done tp db ws : forall fuel a s kt s' a',
  length (tab s) = nb p -> (forall b, b < nb p -> length (row s b) = ns p) ->
  (forall b j, b < nb p -> j < ns p -> length (label (nth j (row s b) norec)) = label_size p /\ known db ws tp a b (label (nth j (row s b) norec))) ->
  setup_loop hmac sm3 sha p fuel tp db ws a s = Done kt s' a' ->
  kt = t_key tp a' /\ a <= a' /\ exists D, inv (known db ws tp a') D s' /\ Permutation D (flat_map (kw_items kt db) ws).
Proof.
  induction fuel as [|f IH]; intros a s kt s' a' T R L H; cbn [setup_loop] in H; [discriminate|].
  pose proof (initialize_inv (known db ws tp a) s T R L) as I0.
  destruct (put_keywords hmac sm3 sha p (t_draw tp a) (t_key tp a) db ws (initialize p s) false) as [[s1 r]|] eqn:E; [|discriminate].
  destruct (put_keywords_inv _ _ _ _ _ _ _ _ I0 _ _ E) as [D [I1 [IN PM]]]. rewrite app_nil_r in IN, PM. destruct r.
  - assert (KL : forall b l, known db ws tp a b l -> length l = label_size p).
    { intros b l [->|[a1 [w [ts [i [_ [_ [_ [_ PL]]]]]]]]]; [apply repeat_length|]. pose proof (place_label (stag_of hmac (t_key tp a1) w) i) as PL2. rewrite PL in PL2. exact PL2. }
    pose proof (inv_labels _ _ _ I1 KL) as LB.
    destruct (IH (S a) s1 kt s' a' (v_tab _ _ _ I1) (v_row _ _ _ I1)) as [K1 [K2 K3]]; [|exact H|split; [exact K1|split; [lia|exact K3]]].
    intros b j HB HJ. destruct (LB b j HB HJ) as [L1 L2]. split; [exact L1|]. destruct L2 as [L2|[d [Hd PD]]].
    + destruct L2 as [L2|[a1 [w [ts [i [A1 X]]]]]]; [left; exact L2|right]. exists a1, w, ts, i. split; [lia|exact X].
    + right. apply IN in Hd. apply in_flat_map in Hd. destruct Hd as [w [Hw Hd]]. unfold kw_items in Hd. destruct (lookup db w) as [ts|] eqn:LK; [|destruct Hd].
      apply items_in in Hd. destruct Hd as [i [t [-> [RI _]]]]. exists a, w, ts, i. split; [lia|]. split; [exact Hw|]. split; [exact LK|]. split; [lia|]. exact PD.
  - injection H. intros <- <- <-. split; [reflexivity|]. split; [lia|]. exists D. split; [exact I1|]. apply PM. reflexivity.
Qed.
Lemma setup_done tp db ws fuel kt s' a' : setup hmac sm3 sha p fuel tp db ws = Done kt s' a' ->
  kt = t_key tp a' /\ exists D, inv (known db ws tp a') D s' /\ Permutation D (flat_map (kw_items kt db) ws).
Proof.
  intros H. set (z := {| label := repeat 0%N (label_size p); value := repeat 0%N (value_size p) |}).
  assert (RW : forall b, b < nb p -> row (fresh p) b = repeat z (ns p)).
  { intros b HB. unfold row, fresh. cbn [tab]. fold z. rewrite nth_indep with (d' := repeat z (ns p)) by (rewrite repeat_length; auto). apply nth_repeat. }
  destruct (setup_loop_done tp db ws fuel 0 (fresh p) kt s' a') as [K1 [_ K3]]; auto.
  - unfold fresh. cbn [tab]. apply repeat_length.
  - intros b HB. rewrite RW by auto. apply repeat_length.
  - intros b j HB HJ. rewrite RW by auto. rewrite nth_indep with (d' := z) by (rewrite repeat_length; auto). rewrite nth_repeat. cbn [z label].
    split; [apply repeat_length|left; reflexivity].
Qed.

(** ** Retrieval *)
Lemma scan_app m l rs1 : forall rs2 beta t, scan sha m l (rs1 ++ rs2) beta t =
  match scan sha m l rs1 beta t with Some (b, t') => scan sha m l rs2 b t' | None => None end.
Proof.
  induction rs1 as [|r rs1 IH]; intros rs2 beta t; [reflexivity|]. cbn [app scan]. destruct (list_eq_dec N.eq_dec (label r) l); [|apply IH].
  destruct (xor_with (value r) (keystream sha m (length (value r)))) as [|b rest]; [reflexivity|]. destruct (unpack rest); [apply IH|reflexivity].
Qed.
Definition labb (l : list N) (r : rec) : bool := if list_eq_dec N.eq_dec (label r) l then true else false.
Lemma scan_filter m l rs : forall beta t, scan sha m l rs beta t = scan sha m l (filter (labb l) rs) beta t.
Proof.
  induction rs as [|r rs IH]; intros beta t; [reflexivity|]. cbn [scan filter]. unfold labb at 1. destruct (list_eq_dec N.eq_dec (label r) l) as [E|E].
  - cbn [scan]. destruct (list_eq_dec N.eq_dec (label r) l); [|contradiction]. destruct (xor_with (value r) (keystream sha m (length (value r)))) as [|b rest]; [reflexivity|].
    destruct (unpack rest); [apply IH|reflexivity].
  - apply IH.
Qed.
Lemma scan_record g i n t beta acc : length (fst t) = 9 -> (N.of_nat (length (snd t)) < 2 ^ 32)%N ->
  scan sha (mac_str hmac g i) (snd (place g i)) [record g i n t] beta acc = Some (if i <? n then 1%N else 0%N, acc ++ [t]).
Proof.
  intros H1 H2. cbn [scan]. unfold TSetModel.record at 1. cbn [label]. destruct (list_eq_dec N.eq_dec (snd (place g i)) (snd (place g i))); [|contradiction].
  unfold TSetModel.record. cbn [value]. unfold seal. set (bt := (if i <? n then 1%N else 0%N)). set (m := mac_str hmac g i).
  rewrite xor_with_length by (apply keystream_length; auto). rewrite xor_with_twice by (apply keystream_length; auto). rewrite unpack_pack by auto. reflexivity.
Qed.
Lemma bucket_match (old : nat -> list N -> Prop) D s g i n t : inv old D s -> NoDup D -> In (g, i, n, t) D ->
  ~ old (fst (place g i)) (snd (place g i)) ->
  (forall d, In d D -> place_of d = place g i -> d = (g, i, n, t)) ->
  filter (labb (snd (place g i))) (firstn (ns p) (row s (fst (place g i)))) = [record g i n t].
Proof.
  intros I ND IN NO U. set (b := fst (place g i)) in *. set (l := snd (place g i)) in *. assert (HB : b < nb p) by apply place_lt.
  apply Permutation_length_1_inv. symmetry.
  rewrite (nth_firstn_row (row s b) (ns p) norec) by (symmetry; apply (v_row _ _ _ I); auto).
  rewrite (filter_perm (labb l) _ _ (Permutation_map (fun j => nth j (row s b) norec) (filter_split (usedb (nth b (free s) [])) (seq 0 (ns p))))).
  rewrite map_app, filter_app.
  rewrite (filter_perm (labb l) _ _ (v_used _ _ _ I b HB)).
  assert (Z : filter (labb l) (map (fun j => nth j (row s b) norec) (filter (fun x => negb (usedb (nth b (free s) []) x)) (seq 0 (ns p)))) = []).
  { apply filter_nil. intros r Hr. apply in_map_iff in Hr. destruct Hr as [j [<- Hj]]. apply filter_In in Hj. destruct Hj as [_ Hj]. apply negb_true_iff, usedb_in in Hj.
    unfold labb. destruct (list_eq_dec N.eq_dec _ l) as [E|]; [|reflexivity]. exfalso. apply NO. rewrite <- E. apply (v_old _ _ _ I); auto. }
  rewrite Z, app_nil_r. rewrite filter_map_comm.
  rewrite (filter_one _ _ (g, i, n, t)).
  - reflexivity.
  - apply NoDup_filter. exact ND.
  - apply filter_In. split; [exact IN|]. cbn [place_of]. apply Nat.eqb_refl.
  - cbn [rec_of]. unfold labb, TSetModel.record. cbn [label]. destruct (list_eq_dec N.eq_dec (snd (place g i)) l) as [|N0]; [reflexivity|]. exfalso. apply N0. reflexivity.
  - intros [[[g' i'] n'] t'] Hd F. apply filter_In in Hd. destruct Hd as [Hd HB']. apply Nat.eqb_eq in HB'. cbn [place_of] in HB'. apply U; [exact Hd|]. cbn [place_of].
    unfold labb in F. cbn [rec_of] in F. unfold TSetModel.record in F. cbn [label] in F. destruct (list_eq_dec N.eq_dec (snd (place g' i')) l) as [E|]; [|discriminate].
    destruct (place g' i') as [b1 l1], (place g i) as [b2 l2]. cbn [fst snd] in *. unfold b, l in *. congruence.
Qed.
Lemma items_nth g n ts : forall i k t, nth_error ts k = Some t -> In (g, i + k, n, t) (items g n i ts).
Proof.
  clear Hb Hl. induction ts as [|x ts IH]; intros i [|k] t H; cbn [nth_error] in H; try discriminate; cbn [items].
  - injection H. intros ->. rewrite Nat.add_0_r. left. reflexivity.
  - right. replace (i + S k) with (S i + k) by lia. apply IH. exact H.
Qed.
Lemma retrieve_from (old : nat -> list N -> Prop) D s g ts : inv old D s -> NoDup D -> incl (items g (length ts) 1 ts) D ->
  Forall (fun t : list N * list N => length (fst t) = 9 /\ (N.of_nat (length (snd t)) < 2 ^ 32)%N) ts ->
  forall fuel k acc, k < length ts -> (forall i, 1 <= i <= length ts -> i < S k + fuel -> ~ old (fst (place g i)) (snd (place g i))) ->
  (forall d i n t, In d D -> In (g, i, n, t) D -> 1 <= i <= length ts -> i < S k + fuel -> place_of d = place g i -> d = (g, i, n, t)) ->
  retrieve_loop hmac sm3 sha p fuel (tab s) g (S k) acc = Some (acc ++ firstn fuel (skipn k ts)).
Proof.
  intros I ND IN F. induction fuel as [|f IH]; intros k acc Hk NO U; cbn [retrieve_loop]; [cbn [firstn]; rewrite app_nil_r; reflexivity|].
  destruct (nth_error ts k) as [t|] eqn:E; [|apply nth_error_None in E; lia].
  assert (IT : In (g, S k, length ts, t) D) by (apply IN; apply (items_nth g (length ts) ts 1 k); exact E).
  rewrite scan_filter. fold (row s (fst (place g (S k)))).
  rewrite (bucket_match old D s g (S k) (length ts) t I ND IT).
  2:{ apply NO; lia. }
  2:{ intros d Hd. apply U; auto; lia. }
  rewrite Forall_forall in F. destruct (F t (nth_error_In _ _ E)) as [F1 F2]. rewrite scan_record by auto.
  assert (SK : skipn k ts = t :: skipn (S k) ts).
  { clear - E. revert k E. induction ts as [|x ts IH]; intros [|k] E; cbn [nth_error] in E; try discriminate; [injection E; intros ->; reflexivity|]. cbn [skipn]. apply (IH k E). }
  rewrite SK. cbn [firstn]. destruct (Nat.ltb_spec (S k) (length ts)) as [L|L].
  - rewrite N.eqb_refl. rewrite (IH (S k)); [rewrite <- app_assoc; reflexivity|lia| |].
    + intros i Hi Hi2. apply NO; lia.
    + intros d i n t' Hd Ht Hi Hi2. apply U; auto. lia.
  - rewrite (skipn_all2 (n := S k)) by lia. rewrite firstn_nil. reflexivity.
Qed.

(** ** Room *)
Notation count b D := (length (filter (fun d => fst (place_of d) =? b) D)) (only parsing).
Lemma inv_count old D s b : inv old D s -> b < nb p -> count b D <= ns p /\ (nth b (free s) [] = [] -> count b D = ns p).
Proof.
  intros I HB. pose proof (Permutation_length (v_used _ _ _ I b HB)) as L. rewrite !map_length in L. rewrite <- L. split.
  - pose proof (filter_le (usedb (nth b (free s) [])) (seq 0 (ns p))) as X. rewrite seq_length in X. exact X.
  - intros ->. replace (filter (usedb []) (seq 0 (ns p))) with (seq 0 (ns p)); [apply seq_length|].
    generalize (seq 0 (ns p)). induction l as [|x l IH]; [reflexivity|]. cbn [filter]. unfold usedb at 1. cbn. f_equal. exact IH.
Qed.
Lemma put_tuples_room old rnd g n ts : forall i D s, inv old D s ->
  (forall b, b < nb p -> count b (items g n i ts ++ D) <= ns p) ->
  snd (put_tuples hmac sm3 sha p rnd g n i ts s) = false.
Proof.
  induction ts as [|t ts IH]; intros i D s I C; cbn [put_tuples items] in *; [reflexivity|].
  destruct (nth (fst (place g i)) (free s) []) as [|f0 fs] eqn:E.
  - exfalso. pose proof (place_lt g i) as PL. specialize (C _ PL). destruct (inv_count _ _ _ _ I PL) as [_ Q]. specialize (Q E).
    cbn [app filter place_of] in C. rewrite Nat.eqb_refl in C. cbn [length] in C. rewrite filter_app, app_length in C. lia.
  - set (k := N.to_nat (rnd (drawn s) mod N.of_nat (length (f0 :: fs)))).
    assert (Hk : k < length (f0 :: fs)). { unfold k. pose proof (N.mod_upper_bound (rnd (drawn s)) (N.of_nat (length (f0 :: fs))) ltac:(cbn [length]; lia)). lia. }
    pose proof (inv_put old D s g i n t f0 fs k I E Hk) as I'. cbn zeta in I'. apply (IH (S i) _ _ I').
    intros b HB. specialize (C b HB). eapply Nat.le_trans; [|exact C]. apply Nat.eq_le_incl. apply Permutation_length. apply filter_perm. symmetry. cbn [app]. apply Permutation_middle.
Qed.
Lemma put_keywords_room old rnd kt db ws : forall D s r0, inv old D s ->
  (forall w, In w ws -> lookup db w <> None) ->
  (forall b, b < nb p -> count b (flat_map (kw_items kt db) ws ++ D) <= ns p) ->
  exists s', put_keywords hmac sm3 sha p rnd kt db ws s r0 = Some (s', r0).
Proof.
  induction ws as [|w ws IH]; intros D s r0 I K C; cbn [put_keywords flat_map] in *; [eexists; reflexivity|].
  destruct (lookup db w) as [ts|] eqn:L; [|exfalso; apply (K w); [left; reflexivity|exact L]].
  assert (KE : kw_items kt db w = items (stag_of hmac kt w) (length ts) 1 ts) by (unfold kw_items; rewrite L; reflexivity). rewrite KE in C.
  pose proof (put_tuples_inv old rnd (stag_of hmac kt w) (length ts) ts 1 D s I) as P.
  assert (R1 : snd (put_tuples hmac sm3 sha p rnd (stag_of hmac kt w) (length ts) 1 ts s) = false).
  { apply (put_tuples_room old _ _ _ _ _ D); auto. intros b HB. eapply Nat.le_trans; [|apply (C b HB)]. rewrite !filter_app, !app_length. lia. }
  destruct (put_tuples _ _ _ _ _ _ _ _ _ _) as [s1 r1]. cbn [snd] in R1. subst r1. destruct P as [D1 [I1 [_ PM]]]. specialize (PM eq_refl).
  rewrite orb_false_r. apply (IH D1 s1 r0 I1); [intros w' Hw'; apply K; right; exact Hw'|].
  intros b HB. eapply Nat.le_trans; [|apply (C b HB)]. apply Nat.eq_le_incl. apply Permutation_length. apply filter_perm. rewrite PM. rewrite <- app_assoc, !app_assoc. apply Permutation_app_tail. apply Permutation_app_comm.
Qed.
Lemma put_keywords_known rnd kt db ws : forall s r0, (forall w, In w ws -> lookup db w <> None) <-> put_keywords hmac sm3 sha p rnd kt db ws s r0 <> None.
Proof.
  induction ws as [|w ws IH]; intros s r0; cbn [put_keywords].
  - split; [discriminate|intros _ w []].
  - destruct (lookup db w) as [ts|] eqn:L.
    + destruct (put_tuples _ _ _ _ _ _ _ _ _ _) as [s1 r1]. rewrite <- (IH s1 (r0 || r1)). split; intros H w' Hw; [apply H; right; auto|]. destruct Hw as [<-|Hw]; [congruence|auto].
    + split; [|congruence]. intros H. exfalso. apply (H w); [left; auto|exact L].
Qed.
(** The outcome of one attempt is decided by the loads of the buckets. *)
Definition fits (kt : N) db ws : Prop := forall b, b < nb p -> count b (flat_map (kw_items kt db) ws) <= ns p.
Lemma fits_dec kt db ws : {fits kt db ws} + {~ fits kt db ws}.
Proof.
  unfold fits. generalize (flat_map (kw_items kt db) ws). intros D.
  destruct (forallb (fun b => count b D <=? ns p) (seq 0 (nb p))) eqn:E.
  - left. intros b HB. rewrite forallb_forall in E. apply Nat.leb_le. apply E. apply in_seq. lia.
  - right. intros H. assert (X : forallb (fun b => count b D <=? ns p) (seq 0 (nb p)) = true).
    { apply forallb_forall. intros b Hb'. apply in_seq in Hb'. apply Nat.leb_le. apply H. lia. } congruence.
Qed.
Lemma attempt_fits old tp a db ws s s' r : inv old [] s -> put_keywords hmac sm3 sha p (t_draw tp a) (t_key tp a) db ws s false = Some (s', r) ->
  (r = false <-> fits (t_key tp a) db ws).
Proof.
  intros I E. split.
  - intros ->. destruct (put_keywords_inv _ _ _ _ _ _ _ _ I _ _ E) as [D [I1 [_ PM]]]. destruct (PM eq_refl) as [_ PM']. rewrite app_nil_r in PM'.
    intros b HB. rewrite <- (Permutation_length (filter_perm _ _ _ PM')). apply (inv_count _ _ _ _ I1 HB).
  - intros F. destruct (put_keywords_room old (t_draw tp a) (t_key tp a) db ws [] s false I) as [s2 E2].
    + apply (put_keywords_known (t_draw tp a) (t_key tp a) db ws s false). congruence.
    + intros b HB. rewrite app_nil_r. apply F; auto.
    + congruence.
Qed.
Lemma setup_loop_outcome tp db ws : (forall w, In w ws -> lookup db w <> None) -> forall fuel a s,
  length (tab s) = nb p -> (forall b, b < nb p -> length (row s b) = ns p) ->
  (forall b j, b < nb p -> j < ns p -> length (label (nth j (row s b) norec)) = label_size p) ->
  (exists s' a', setup_loop hmac sm3 sha p fuel tp db ws a s = Done (t_key tp a') s' a' /\ a <= a' < a + fuel /\ fits (t_key tp a') db ws /\ forall k, a <= k < a' -> ~ fits (t_key tp k) db ws) \/
  (setup_loop hmac sm3 sha p fuel tp db ws a s = StillRunning /\ forall k, a <= k < a + fuel -> ~ fits (t_key tp k) db ws).
Proof.
  intros K. induction fuel as [|f IH]; intros a s T R L; cbn [setup_loop]; [right; split; [reflexivity|intros; lia]|].
  pose proof (initialize_inv (fun _ l => length l = label_size p) s T R ltac:(intros b j B J; split; apply L; auto)) as I0.
  destruct (put_keywords hmac sm3 sha p (t_draw tp a) (t_key tp a) db ws (initialize p s) false) as [[s1 r]|] eqn:E.
  2:{ exfalso. apply (put_keywords_known (t_draw tp a) (t_key tp a) db ws (initialize p s) false) in K. contradiction. }
  pose proof (attempt_fits _ _ _ _ _ _ _ _ I0 E) as AF. destruct r.
  - assert (NF : ~ fits (t_key tp a) db ws) by (intros X; apply AF in X; discriminate).
    destruct (put_keywords_inv _ _ _ _ _ _ _ _ I0 _ _ E) as [D [I1 _]].
    destruct (IH (S a) s1 (v_tab _ _ _ I1) (v_row _ _ _ I1)) as [[s' [a' [E' [RA [F U]]]]]|[E' U]].
    + intros b j HB HJ. apply (inv_labels _ _ _ I1); auto.
    + left. exists s', a'. split; [exact E'|]. split; [lia|]. split; [exact F|]. intros k Hk. destruct (Nat.eq_dec k a) as [->|N]; [exact NF|apply U; lia].
    + right. split; [exact E'|]. intros k Hk. destruct (Nat.eq_dec k a) as [->|N]; [exact NF|apply U; lia].
  - left. exists s1, a. split; [reflexivity|]. split; [lia|]. split; [apply AF; reflexivity|]. intros; lia.
Qed.
Lemma setup_outcome tp db ws fuel : (forall w, In w ws -> lookup db w <> None) ->
  (exists s' a', setup hmac sm3 sha p fuel tp db ws = Done (t_key tp a') s' a' /\ a' < fuel /\ fits (t_key tp a') db ws /\ forall k, k < a' -> ~ fits (t_key tp k) db ws) \/
  (setup hmac sm3 sha p fuel tp db ws = StillRunning /\ forall k, k < fuel -> ~ fits (t_key tp k) db ws).
Proof.
  intros K. set (z := {| label := repeat 0%N (label_size p); value := repeat 0%N (value_size p) |}).
  assert (RW : forall b, b < nb p -> row (fresh p) b = repeat z (ns p)).
  { intros b HB. unfold row, fresh. cbn [tab]. fold z. rewrite nth_indep with (d' := repeat z (ns p)) by (rewrite repeat_length; auto). apply nth_repeat. }
  destruct (setup_loop_outcome tp db ws K fuel 0 (fresh p)) as [[s' [a' [E [RA [F U]]]]]|[E U]].
  - unfold fresh. cbn [tab]. apply repeat_length.
  - intros b HB. rewrite RW by auto. apply repeat_length.
  - intros b j HB HJ. rewrite RW by auto. rewrite nth_indep with (d' := z) by (rewrite repeat_length; auto). rewrite nth_repeat. cbn [z label]. apply repeat_length.
  - left. exists s', a'. split; [exact E|]. split; [lia|]. split; [exact F|]. intros k Hk. apply U; lia.
  - right. split; [exact E|]. intros k Hk. apply U; lia.
Qed.
Lemma buckets_sum (D : list item) : forall n, (forall d, In d D -> fst (place_of d) < n) -> length D = list_sum (map (fun b => count b D) (seq 0 n)).
Proof.
  induction D as [|d D IH]; intros n H.
  - cbn [filter length]. induction (seq 0 n) as [|x l IHl]; [reflexivity|]. cbn [map list_sum fold_right]. unfold list_sum in IHl. rewrite <- IHl. reflexivity.
  - cbn [length]. rewrite (IH n) by (intros; apply H; right; auto). assert (X : fst (place_of d) < n) by (apply H; left; auto). cbn [filter].
    assert (G : forall m q, q <= fst (place_of d) < q + m -> list_sum (map (fun b => length (if fst (place_of d) =? b then d :: filter (fun d0 => fst (place_of d0) =? b) D else filter (fun d0 => fst (place_of d0) =? b) D)) (seq q m)) = S (list_sum (map (fun b => count b D) (seq q m)))).
    { assert (Z : forall m q, fst (place_of d) < q -> list_sum (map (fun b => length (if fst (place_of d) =? b then d :: filter (fun d0 => fst (place_of d0) =? b) D else filter (fun d0 => fst (place_of d0) =? b) D)) (seq q m)) = list_sum (map (fun b => count b D) (seq q m))).
      { induction m as [|m IHm]; intros q Hq; [reflexivity|]. cbn [seq map list_sum fold_right]. destruct (Nat.eqb_spec (fst (place_of d)) q); [lia|]. f_equal. apply IHm. lia. }
      induction m as [|m IHm]; intros q Hq; [lia|]. cbn [seq map list_sum fold_right]. destruct (Nat.eqb_spec (fst (place_of d)) q) as [E|E].
      - cbn [length plus]. f_equal. f_equal. apply Z. lia.
      - specialize (IHm (S q) ltac:(lia)). unfold list_sum in *. rewrite IHm. lia. }
    symmetry. apply (G n 0). lia.
Qed.
Lemma fits_total kt db ws : fits kt db ws -> length (flat_map (kw_items kt db) ws) <= nb p * ns p.
Proof.
  intros F. rewrite (buckets_sum _ (nb p)).
  - unfold fits in F. assert (G : forall m q, q + m <= nb p -> list_sum (map (fun b => count b (flat_map (kw_items kt db) ws)) (seq q m)) <= m * ns p).
    { induction m as [|m IHm]; intros q Hq; [cbn; lia|]. cbn [seq map list_sum fold_right]. specialize (F q ltac:(lia)). specialize (IHm (S q) ltac:(lia)). unfold list_sum in IHm. lia. }
    apply G. lia.
  - intros d Hd. destruct d as [[[g i] n] t]. cbn [place_of]. apply place_lt.
Qed.
(** ** Absent keywords *)
Lemma retrieve_none (old : nat -> list N -> Prop) D s g : inv old D s -> (forall b l, old b l -> length l = label_size p) ->
  forall fuel k acc, (forall i, k <= i < k + fuel -> ~ old (fst (place g i)) (snd (place g i)) /\ forall d, In d D -> place_of d <> place g i) ->
  retrieve_loop hmac sm3 sha p fuel (tab s) g k acc = Some acc.
Proof.
  intros I OL. induction fuel as [|f IH]; intros k acc H; cbn [retrieve_loop]; [reflexivity|].
  rewrite scan_filter. fold (row s (fst (place g k))). rewrite filter_nil.
  - cbn [scan]. rewrite N.eqb_refl. apply IH. intros i Hi. apply H. lia.
  - intros r Hr. pose proof (place_lt g k) as PL.
    rewrite (nth_firstn_row (row s (fst (place g k))) (ns p) norec) in Hr by (symmetry; apply (v_row _ _ _ I); auto).
    apply in_map_iff in Hr. destruct Hr as [j [<- Hj]]. apply in_seq in Hj. destruct (inv_labels _ _ _ I OL _ j PL ltac:(lia)) as [_ X].
    unfold labb. destruct (list_eq_dec N.eq_dec _ _) as [E|]; [|reflexivity]. exfalso. destruct (H k ltac:(lia)) as [H1 H2]. rewrite E in X. destruct X as [X|[d [Hd X]]]; [auto|].
    apply (H2 d Hd). rewrite X. symmetry. apply surjective_pairing.
Qed.
End Hashes.
