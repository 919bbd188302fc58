(** Lemmas about Buffer. *)
From Coq Require Import NArith ZArith List Bool Arith Lia Permutation.
From Verif Require Import BufferModel.
Import ListNotations.
Open Scope nat_scope.

Lemma upd_length {A} (l : list A) i v : length (upd l i v) = length l.
Proof. revert i. induction l as [|a l IH]; intros [|i]; cbn [upd length]; auto. Qed.
Lemma upd_nth_error {A} (l : list A) i v j : i < length l -> nth_error (upd l i v) j = if j =? i then Some v else nth_error l j.
Proof.
  revert i j. induction l as [|a l IH]; intros [|i] [|j] H; cbn [upd nth_error length Nat.eqb] in *; auto; try lia. apply IH. lia.
Qed.
Lemma upd_nth {A} (l : list A) i v j d : i < length l -> nth j (upd l i v) d = if j =? i then v else nth j l d.
Proof.
  revert i j. induction l as [|a l IH]; intros [|i] [|j] H; cbn [upd nth length Nat.eqb] in *; auto; try lia. apply IH. lia.
Qed.

(** ** Ownership *)
Definition alive (m : mem) (a : nat) : Prop := exists blk, nth_error (heap m) a = Some blk /\ live blk = true.
Definition called (d a : nat) (c : list (nat * option nat)) : Prop := In (d, Some a) c.
Definition callptrs (c : list (nat * option nat)) : list nat := flat_map (fun x : nat * option nat => match snd x with Some a => [a] | None => [] end) c.
Definition calls_ok (m : mem) : Prop :=
  NoDup (callptrs (calls m)) /\
  forall a d, called d a (calls m) <-> exists blk, nth_error (heap m) a = Some blk /\ how blk = Ext d /\ live blk = false.
Lemma callptrs_in c a : In a (callptrs c) <-> exists d, called d a c.
Proof.
  unfold callptrs, called. rewrite in_flat_map. split.
  - intros [[d o] [H K]]. cbn [snd] in K. destruct o as [b|]; [|destruct K]. destruct K as [->|[]]. exists d. exact H.
  - intros [d H]. exists (d, Some a). split; [exact H|left; reflexivity].
Qed.
(** The effect of a statement on one buffer. *)
Definition eff (m : mem) (b : buf) (m' : mem) (b' : buf) : Prop :=
  (forall a, ptr b <> Some a -> alive m a -> nth_error (heap m') a = nth_error (heap m) a /\ ptr b' <> Some a) /\
  (forall a, alive m' a <-> (alive m a /\ ptr b <> Some a) \/ ptr b' = Some a) /\
  (calls_ok m -> calls_ok m').
Lemma eff_refl m b b' : ptr b' = ptr b -> (forall a, ptr b = Some a -> alive m a) -> eff m b m b'.
Proof.
  intros E H. split; [|split].
  - intros a N A. split; [reflexivity|]. rewrite E. exact N.
  - intros a. rewrite E. split.
    + intros A. destruct (ptr b) as [p|]; [|left; split; [auto|discriminate]]. destruct (Nat.eq_dec p a) as [->|N]; [right; auto|left; split; [auto|congruence]].
    + intros [[A _]|A]; auto.
  - auto.
Qed.
(** A temporary is made, then the old buffer is dropped. *)
Lemma eff_temp m m1 m2 b bt : eff m empty_buf m1 bt -> eff m1 b m2 empty_buf -> (forall a, ptr b = Some a -> alive m a) -> eff m b m2 bt.
Proof.
  intros [F1 [A1 C1]] [F2 [A2 C2]] AB. split; [|split].
  - intros a N A. destruct (F1 a) as [E1 N1]; [discriminate|auto|]. destruct (F2 a) as [E2 _]; [auto|apply A1; left; split; [auto|discriminate]|].
    split; [congruence|auto].
  - intros a. rewrite A2, A1. split.
    + intros [[[[A _]|A] N]|A]; auto. discriminate.
    + intros [[A N]|A].
      * left. split; [left; split; [auto|discriminate]|auto].
      * left. split; [right; auto|]. intros C. apply AB in C. destruct (F1 a) as [_ N]; [discriminate|auto|]. auto.
  - auto.
Qed.

(** ** Values *)
(** v: visible length and cells. *)
Notation val := (nat * list (option N))%type (only parsing).
Definition rep (m : mem) (b : buf) (v : val) : Prop :=
  size b = Z.of_nat (fst v) /\ cap b = Z.of_nat (length (snd v)) /\ fst v <= length (snd v) /\
  match ptr b with
  | None => snd v = []
  | Some a => exists blk, nth_error (heap m) a = Some blk /\ live blk = true /\ bytes blk = snd v /\
                how blk = match del b with None => ByNew | Some d => Ext d end
  end.
Lemma rep_alive m b v a : rep m b v -> ptr b = Some a -> alive m a.
Proof. intros [_ [_ [_ H]]] E. rewrite E in H. destruct H as [blk [H1 [H2 _]]]. exists blk. auto. Qed.
Lemma rep_frame m m' b v : rep m b v -> (forall a, ptr b = Some a -> nth_error (heap m') a = nth_error (heap m) a) -> rep m' b v.
Proof.
  intros [R1 [R2 [R3 R4]]] H. split; [exact R1|]. split; [exact R2|]. split; [exact R3|].
  destruct (ptr b) as [a|]; [|exact R4]. rewrite (H a eq_refl). exact R4.
Qed.
Lemma rep_empty m : rep m empty_buf (0, []).
Proof. repeat split. cbn. auto. Qed.

Lemma alloc_spec m n : (0 <= n)%Z -> let b := {| ptr := Some (fst (alloc m n)); size := 0; cap := n; del := None |} in
  eff m empty_buf (snd (alloc m n)) b /\ rep (snd (alloc m n)) b (0, repeat None (Z.to_nat n)).
Proof.
  intros Hn. cbn [alloc fst snd].
  assert (HX : nth_error (heap m ++ [{| bytes := repeat None (Z.to_nat n); how := ByNew; live := true |}]) (length (heap m)) =
     Some {| bytes := repeat None (Z.to_nat n); how := ByNew; live := true |}) by (rewrite nth_error_app2, Nat.sub_diag by lia; reflexivity).
  assert (OLD : forall a, a < length (heap m) -> nth_error (heap m ++ [{| bytes := repeat None (Z.to_nat n); how := ByNew; live := true |}]) a = nth_error (heap m) a)
    by (intros; apply nth_error_app1; auto).
  split.
  - split; [|split].
    + intros a _ [blk [E L]]. assert (a < length (heap m)) by (apply nth_error_Some; congruence). split; [apply OLD; auto|]. cbn. intros C. injection C. lia.
    + intros a. unfold alive. cbn [heap ptr]. split.
      * intros [blk [E L]]. destruct (Nat.lt_ge_cases a (length (heap m))) as [H|H].
        { left. rewrite OLD in E by auto. split; [exists blk; auto|discriminate]. }
        { right. f_equal. assert (a < length (heap m ++ [{| bytes := repeat None (Z.to_nat n); how := ByNew; live := true |}])) by (apply nth_error_Some; congruence).
          rewrite app_length in H0. cbn in H0. lia. }
      * intros [[[blk [E L]] _]|E].
        { exists blk. rewrite OLD by (apply nth_error_Some; congruence). auto. }
        { injection E. intros <-. eexists. split; [exact HX|reflexivity]. }
    + intros [ND C]. split; [exact ND|]. cbn [calls heap]. intros a d. rewrite C. split.
      * intros [blk [E [H L]]]. exists blk. rewrite OLD by (apply nth_error_Some; congruence). auto.
      * intros [blk [E [H L]]]. destruct (Nat.lt_ge_cases a (length (heap m))) as [K|K]; [exists blk; rewrite OLD in E by auto; auto|].
        rewrite nth_error_app2 in E by auto. destruct (a - length (heap m)) as [|q]; cbn in E; [injection E; intros <-; discriminate|destruct q; discriminate].
  - split; [reflexivity|]. cbn [snd fst cap ptr]. rewrite repeat_length. split; [lia|]. split; [lia|].
    eexists. split; [exact HX|]. repeat split.
Qed.
Lemma kill_alive m a blk c' x : nth_error (heap m) a = Some blk ->
  alive {| heap := upd (heap m) a {| bytes := bytes blk; how := how blk; live := false |}; calls := c' |} x <-> alive m x /\ x <> a.
Proof.
  intros E. assert (H : a < length (heap m)) by (apply nth_error_Some; congruence). unfold alive. cbn [heap]. rewrite upd_nth_error by auto.
  destruct (Nat.eqb_spec x a) as [->|N]; split.
  - intros [b [K L]]. injection K. intros <-. discriminate.
  - intros [_ C]. contradiction.
  - auto.
  - intros [A _]. exact A.
Qed.
Lemma reset_spec m b v : rep m b v -> exists m', reset m b = Ok (m', empty_buf) /\ eff m b m' empty_buf.
Proof.
  intros [_ [_ [_ R]]]. unfold reset. destruct (ptr b) as [a|] eqn:P.
  - destruct R as [blk [E [L [_ H]]]]. assert (LA : a < length (heap m)) by (apply nth_error_Some; congruence).
    destruct (del b) as [d|] eqn:D.
    + cbn [call_deleter]. rewrite E, L, H, Nat.eqb_refl. cbn [bind]. eexists. split; [reflexivity|]. rewrite <- H. split; [|split].
      * intros x N A. rewrite P in N. cbn [heap]. rewrite upd_nth_error by auto. destruct (Nat.eqb_spec x a); [congruence|]. split; [reflexivity|discriminate].
      * intros x. rewrite kill_alive by exact E. rewrite P. split; [intros [A N]; left; split; [auto|congruence]|intros [[A N]|C]; [split; [auto|congruence]|discriminate]].
      * intros [ND C]. split; cbn [calls heap].
        { cbn [callptrs flat_map snd app]. constructor; [|exact ND]. intros I. apply callptrs_in in I. destruct I as [d' I]. apply C in I.
          destruct I as [blk' [E' [_ L']]]. rewrite E in E'. injection E'. intros <-. congruence. }
        { intros x d'. unfold called. cbn [In]. rewrite upd_nth_error by auto. destruct (Nat.eqb_spec x a) as [->|N].
          - split.
            + intros [Q|Q]; [injection Q; intros <-; eexists; split; [reflexivity|]; cbn; auto|]. apply C in Q. destruct Q as [blk' [E' [_ L']]].
              rewrite E in E'. injection E'. intros <-. congruence.
            + intros [blk' [Q [H' _]]]. injection Q. intros <-. cbn in H'. left. congruence.
          - split; [intros [Q|Q]; [congruence|apply C; auto]|]. intros Q. right. apply C. exact Q. }
    + cbn [delete_array]. rewrite E, L, H. cbn [bind]. eexists. split; [reflexivity|]. rewrite <- H. split; [|split].
      * intros x N A. rewrite P in N. cbn [heap]. rewrite upd_nth_error by auto. destruct (Nat.eqb_spec x a); [congruence|]. split; [reflexivity|discriminate].
      * intros x. rewrite kill_alive by exact E. rewrite P. split; [intros [A N]; left; split; [auto|congruence]|intros [[A N]|C]; [split; [auto|congruence]|discriminate]].
      * intros [ND C]. split; [exact ND|]. cbn [calls heap]. intros x d'. rewrite C, upd_nth_error by auto. destruct (Nat.eqb_spec x a) as [->|N]; [|reflexivity].
        split; intros [blk' [Q [H' L']]].
        { rewrite E in Q. injection Q. intros <-. congruence. }
        { injection Q. intros <-. cbn in H'. congruence. }
  - destruct (del b) as [d|].
    + cbn [call_deleter bind]. eexists. split; [reflexivity|]. split; [|split].
      * intros a _ _. split; [reflexivity|discriminate].
      * intros a. rewrite P. unfold alive. cbn [heap]. split; [intros A; left; split; [auto|discriminate]|intros [[A _]|C]; [auto|discriminate]].
      * intros [ND C]. split; [exact ND|]. cbn [calls heap]. intros a d'. rewrite <- C. unfold called. cbn [In]. split; [intros [Q|Q]; [discriminate|auto]|auto].
    + cbn [delete_array bind]. eexists. split; [reflexivity|]. split; [|split].
      * intros a _ _. split; [reflexivity|discriminate].
      * intros a. rewrite P. split; [intros A; left; split; [auto|discriminate]|intros [[A _]|C]; [auto|discriminate]].
      * auto.
Qed.
Lemma load_spec m b v n : rep m b v -> n <= length (snd v) -> load m (ptr b) (Z.of_nat n) = Ok (firstn n (snd v)).
Proof.
  intros [_ [_ [_ R]]] H. unfold load. destruct (Z.leb_spec (Z.of_nat n) 0).
  { replace n with 0 by lia. reflexivity. }
  destruct (ptr b) as [a|]; [|rewrite R in H; cbn in H; lia]. destruct R as [blk [E [L [B _]]]]. rewrite E, L, B.
  destruct (Z.leb_spec (Z.of_nat n) (Z.of_nat (length (snd v)))); [|lia]. cbn [andb]. rewrite Nat2Z.id. reflexivity.
Qed.
Lemma store_spec m b v off vs : rep m b v -> off + length vs <= length (snd v) ->
  exists m', store m (ptr b) off vs = Ok m' /\ eff m b m' b /\ rep m' b (fst v, firstn off (snd v) ++ vs ++ skipn (off + length vs) (snd v)).
Proof.
  intros R H. pose proof R as R0. destruct R as [R1 [R2 [R3 R4]]]. destruct vs as [|v0 vs].
  { exists m. split; [reflexivity|]. split; [apply eff_refl; [auto|intros a P; eapply rep_alive; eauto]|]. cbn [app length]. rewrite Nat.add_0_r, firstn_skipn.
    destruct v; exact R0. }
  destruct (ptr b) as [a|] eqn:P; [|rewrite R4 in H; cbn in H; lia]. destruct R4 as [blk [E [L [B W]]]]. cbn [store]. rewrite E, L, B.
  set (w := v0 :: vs) in *. destruct (Nat.leb_spec (off + length w) (length (snd v))); [|lia]. cbn [andb].
  assert (LA : a < length (heap m)) by (apply nth_error_Some; congruence).
  eexists. split; [reflexivity|]. split; [split; [|split]|].
  - intros x N A. cbn [heap]. rewrite P in *. rewrite upd_nth_error by auto. destruct (Nat.eqb_spec x a); [congruence|]. auto.
  - intros x. rewrite P. unfold alive. cbn [heap]. rewrite upd_nth_error by auto. destruct (Nat.eqb_spec x a) as [->|N].
    + split; [auto|]. intros _. eexists. split; [reflexivity|]. reflexivity.
    + split; [intros A; left; split; [auto|congruence]|intros [[A _]|C]; [auto|congruence]].
  - intros [ND C]. split; [exact ND|]. cbn [calls heap]. intros x d. rewrite C, upd_nth_error by auto. destruct (Nat.eqb_spec x a) as [->|N]; [|reflexivity].
    split; intros [k [Q [_ L']]]; [rewrite E in Q; injection Q; intros <-; congruence|injection Q; intros <-; cbn in L'; congruence].
  - assert (LL : length (firstn off (snd v) ++ w ++ skipn (off + length w) (snd v)) = length (snd v)).
    { rewrite !app_length, firstn_length, skipn_length. lia. }
    split; [exact R1|]. cbn [fst snd]. rewrite LL. split; [exact R2|]. split; [exact R3|]. rewrite P. cbn [heap]. rewrite upd_nth_error, Nat.eqb_refl by auto.
    eexists. split; [reflexivity|]. cbn. auto.
Qed.
Lemma rep_size m b n l s' : rep m b (n, l) -> s' <= length l -> rep m {| ptr := ptr b; size := Z.of_nat s'; cap := cap b; del := del b |} (s', l).
Proof. intros [R1 [R2 [R3 R4]]] H. repeat split; cbn [size cap ptr del fst snd] in *; auto. Qed.
Lemma eff_ptr m b m' b' b2 : eff m b m' b' -> ptr b2 = ptr b' -> eff m b m' b2.
Proof. intros [F [A C]] E. unfold eff. rewrite E. auto. Qed.
Lemma eff_store m m1 m2 b b1 : eff m b m1 b1 -> eff m1 b1 m2 b1 -> eff m b m2 b1.
Proof.
  intros [F1 [A1 C1]] [F2 [A2 C2]]. split; [|split; auto].
  - intros a N A. destruct (F1 a N A) as [E1 N1]. destruct (F2 a) as [E2 _]; auto; [apply A1; auto|]. split; congruence.
  - intros a. rewrite A2, A1. split; [intros [[[[A N]|A] N']|A]; auto|]. intros [[A N]|A]; [|auto]. left. split; [left; auto|]. apply F1; auto.
Qed.
(** The old buffer is dropped after the new block has been filled. *)
Lemma replace_spec m m1 b v bt vt : rep m b v -> eff m empty_buf m1 bt -> rep m1 bt vt ->
  exists m2, reset m1 b = Ok (m2, empty_buf) /\ eff m b m2 bt /\ rep m2 bt vt.
Proof.
  intros RB ET RT. assert (AB : forall a, ptr b = Some a -> alive m a) by (intros; eapply rep_alive; eauto).
  assert (RB1 : rep m1 b v). { eapply rep_frame; [exact RB|]. intros a P. apply ET; [discriminate|auto]. }
  destruct (reset_spec m1 b v RB1) as [m2 [E E2]]. exists m2. split; [exact E|]. split; [eapply eff_temp; eauto|].
  eapply rep_frame; [exact RT|]. intros a P.
  assert (N : ptr b <> Some a). { intros C. destruct ET as [F _]. destruct (F a) as [_ N]; [discriminate|exact (AB a C)|]. exact (N P). }
  destruct E2 as [F2 _]. apply (F2 a N). exact (rep_alive _ _ _ _ RT P).
Qed.
Definition resized (v : val) (n : nat) : val :=
  if n <=? length (snd v) then (n, snd v)
  else (n, firstn (fst v) (snd v) ++ repeat None (n - fst v)).
Lemma resize_spec m b v n : rep m b v -> exists m' b', resize m b (Z.of_nat n) = Ok (m', b') /\ eff m b m' b' /\ rep m' b' (resized v n).
Proof.
  intros R. pose proof R as [R1 [R2 [R3 R4]]]. unfold resize, resized. rewrite R2. destruct (Nat.leb_spec n (length (snd v))) as [L|L].
  - destruct (Z.leb_spec (Z.of_nat n) (Z.of_nat (length (snd v)))); [|lia]. eexists. eexists. split; [reflexivity|]. split.
    + apply eff_refl; [reflexivity|]. intros a P. eapply rep_alive; eauto.
    + rewrite <- R2. destruct v as [k l]. eapply rep_size; eauto.
  - destruct (Z.leb_spec (Z.of_nat n) (Z.of_nat (length (snd v)))); [lia|]. destruct (Z.ltb_spec 0 (Z.of_nat n)); [|lia].
    destruct (alloc_spec m (Z.of_nat n) ltac:(lia)) as [EA RA]. destruct (alloc m (Z.of_nat n)) as [np m1]. cbn [fst snd] in EA, RA. rewrite Nat2Z.id in RA.
    set (bt := {| ptr := Some np; size := 0; cap := Z.of_nat n; del := None |}) in *.
    set (bf := {| ptr := Some np; size := Z.of_nat n; cap := Z.of_nat n; del := None |}).
    assert (FIN : exists m2, (match ptr b with
               | None => Ok (Some np, m1)
               | Some _ => bind (load m1 (ptr b) (Z.min (Z.of_nat n) (size b))) (fun vs =>
                           bind (store m1 (Some np) 0 vs) (fun m2 => Ok (Some np, m2)))
               end) = Ok (Some np, m2) /\ eff m empty_buf m2 bf /\ rep m2 bf (n, firstn (fst v) (snd v) ++ repeat None (n - fst v))).
    { destruct (ptr b) as [a|] eqn:P.
      - assert (RB1 : rep m1 b v). { eapply rep_frame; [exact R|]. intros x Px. apply EA; [discriminate|eapply rep_alive; eauto]. }
        rewrite <- P. rewrite R1. replace (Z.min (Z.of_nat n) (Z.of_nat (fst v))) with (Z.of_nat (fst v)) by lia.
        rewrite (load_spec m1 b v (fst v) RB1) by auto. cbn [bind].
        destruct (store_spec m1 bt _ 0 (firstn (fst v) (snd v)) RA) as [m2 [E2 [F2 RR]]].
        { cbn [snd]. rewrite repeat_length, firstn_length. lia. }
        change (Some np) with (ptr bt) at 1. rewrite E2. cbn [bind]. exists m2. split; [reflexivity|]. split.
        + eapply eff_ptr; [eapply eff_store; [exact EA|exact F2]|reflexivity].
        + cbn [fst snd firstn app Nat.add] in RR. rewrite firstn_length, Nat.min_l in RR by auto.
          replace (skipn (fst v) (repeat (@None N) n)) with (repeat (@None N) (n - fst v)) in RR.
          * eapply (rep_size _ _ _ _ n) in RR; [exact RR|]. rewrite app_length, firstn_length, repeat_length. lia.
          * replace n with (fst v + (n - fst v)) at 2 by lia. rewrite repeat_app, skipn_app, skipn_all2, repeat_length, Nat.sub_diag by (rewrite repeat_length; lia). reflexivity.
      - exists m1. split; [reflexivity|]. split; [eapply eff_ptr; [exact EA|reflexivity]|]. rewrite R4 in *. cbn [length] in R3. replace (fst v) with 0 by lia.
        cbn [firstn app]. rewrite Nat.sub_0_r. eapply (rep_size _ _ _ _ n) in RA; [exact RA|]. rewrite repeat_length. lia. }
    destruct FIN as [m2 [E2 [F2 R2']]]. rewrite E2. cbn [bind].
    destruct (replace_spec m m2 b v bf _ R F2 R2') as [m3 [E3 [F3 R3']]]. rewrite E3. cbn [bind]. rewrite orb_true_r.
    exists m3, bf. auto.
Qed.
Definition reserved (v : val) (n : nat) : val :=
  if n <=? length (snd v) then v else (fst v, firstn (fst v) (snd v) ++ repeat None (n - fst v)).
Lemma reserve_spec m b v n : rep m b v -> fst v <= n -> exists m' b', reserve m b (Z.of_nat n) = Ok (m', b') /\ eff m b m' b' /\ rep m' b' (reserved v n).
Proof.
  intros R Hn. pose proof R as [R1 [R2 [R3 R4]]]. unfold reserve, reserved. rewrite R1, R2. destruct (Z.leb_spec (Z.of_nat (fst v)) (Z.of_nat n)); [|lia].
  destruct (Nat.leb_spec n (length (snd v))) as [L|L].
  - destruct (Z.leb_spec (Z.of_nat n) (Z.of_nat (length (snd v)))); [|lia]. exists m, b. split; [reflexivity|]. split; [|exact R].
    apply eff_refl; [reflexivity|]. intros a P. eapply rep_alive; eauto.
  - destruct (Z.leb_spec (Z.of_nat n) (Z.of_nat (length (snd v)))); [lia|].
    destruct (alloc_spec m (Z.of_nat n) ltac:(lia)) as [EA RA]. destruct (alloc m (Z.of_nat n)) as [np m1]. cbn [fst snd] in EA, RA. rewrite Nat2Z.id in RA.
    set (bt := {| ptr := Some np; size := 0; cap := Z.of_nat n; del := None |}) in *.
    set (bf := {| ptr := Some np; size := Z.of_nat (fst v); cap := Z.of_nat n; del := None |}).
    assert (FIN : exists m2, (match ptr b with
            | Some _ => if (0 <? Z.of_nat (fst v))%Z then bind (load m1 (ptr b) (Z.of_nat (fst v))) (fun vs => store m1 (Some np) 0 vs) else Ok m1
            | None => Ok m1
            end) = Ok m2 /\ eff m empty_buf m2 bf /\ rep m2 bf (fst v, firstn (fst v) (snd v) ++ repeat None (n - fst v))).
    { assert (ZERO : fst v = 0 -> exists m2, Ok m1 = Ok m2 /\ eff m empty_buf m2 bf /\ rep m2 bf (fst v, firstn (fst v) (snd v) ++ repeat None (n - fst v))).
      { intros Z0. exists m1. split; [reflexivity|]. split; [eapply eff_ptr; [exact EA|reflexivity]|]. unfold bf. rewrite Z0.
        cbn [firstn app]. rewrite Nat.sub_0_r. eapply (rep_size _ _ _ _ 0) in RA; [exact RA|]. lia. }
      destruct (ptr b) as [a|] eqn:P.
      - destruct (Z.ltb_spec 0 (Z.of_nat (fst v))); [|apply ZERO; lia].
        assert (RB1 : rep m1 b v). { eapply rep_frame; [exact R|]. intros x Px. apply EA; [discriminate|eapply rep_alive; eauto]. }
        rewrite <- P. rewrite (load_spec m1 b v (fst v) RB1) by auto. cbn [bind].
        destruct (store_spec m1 bt _ 0 (firstn (fst v) (snd v)) RA) as [m2 [E2 [F2 RR]]].
        { cbn [snd]. rewrite repeat_length, firstn_length. lia. }
        change (Some np) with (ptr bt) at 1. rewrite E2. exists m2. split; [reflexivity|]. split.
        + eapply eff_ptr; [eapply eff_store; [exact EA|exact F2]|reflexivity].
        + cbn [fst snd firstn app Nat.add] in RR. rewrite firstn_length, Nat.min_l in RR by auto.
          replace (skipn (fst v) (repeat (@None N) n)) with (repeat (@None N) (n - fst v)) in RR.
          * eapply (rep_size _ _ _ _ (fst v)) in RR; [exact RR|]. rewrite app_length, firstn_length, repeat_length. lia.
          * replace n with (fst v + (n - fst v)) at 2 by lia. rewrite repeat_app, skipn_app, skipn_all2, repeat_length, Nat.sub_diag by (rewrite repeat_length; lia). reflexivity.
      - apply ZERO. rewrite R4 in R3. cbn [length] in R3. lia. }
    destruct FIN as [m2 [E2 [F2 R2']]]. rewrite E2. cbn [bind].
    destruct (replace_spec m m2 b v bf _ R F2 R2') as [m3 [E3 [F3 R3']]]. rewrite E3. cbn [bind].
    exists m3, bf. auto.
Qed.
Lemma resized_len v n : fst v <= length (snd v) -> n <= length (snd (resized v n)) /\ fst (resized v n) = n.
Proof.
  intros H. unfold resized. destruct (Nat.leb_spec n (length (snd v))); cbn [fst snd]; [auto|].
  rewrite app_length, firstn_length, repeat_length. lia.
Qed.
Definition copied (dv sv : val) : val :=
  (fst sv, firstn (fst sv) (snd sv) ++ skipn (fst sv) (snd (resized dv (fst sv)))).
Lemma copy_spec m b v src sv : rep m b v -> rep m src sv -> (forall a, ptr b = Some a -> ptr src <> Some a) ->
  exists m' b', copy_assign m b src = Ok (m', b') /\ eff m b m' b' /\ rep m' b' (copied v sv).
Proof.
  intros R RS D. pose proof R as [R1 [R2 [R3 R4]]]. pose proof RS as [S1 [S2 [S3 S4]]]. unfold copy_assign. rewrite S1.
  destruct (resize_spec m b v (fst sv) R) as [m1 [b1 [E1 [F1 RR1]]]]. rewrite E1. cbn [bind].
  assert (RS1 : rep m1 src sv).
  { eapply rep_frame; [exact RS|]. intros a P. apply F1; [|eapply rep_alive; eauto]. intros C. exact (D a C P). }
  rewrite (load_spec m1 src sv (fst sv) RS1) by auto. cbn [bind].
  destruct (resized_len v (fst sv) R3) as [L1 L2].
  destruct (store_spec m1 b1 _ 0 (firstn (fst sv) (snd sv)) RR1) as [m2 [E2 [F2 RR2]]].
  { rewrite firstn_length. lia. }
  rewrite E2. cbn [bind]. exists m2, b1. split; [reflexivity|]. split; [eapply eff_store; eauto|].
  cbn [firstn app Nat.add] in RR2. rewrite firstn_length, Nat.min_l, L2 in RR2 by auto. exact RR2.
Qed.
