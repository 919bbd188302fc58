From Coq Require Import List ZArith Bool Lia Permutation.
From Verif Require Import CuckooModel.
Import ListNotations.
Open Scope Z_scope.

(** * Encoding *)
Lemma lor_add i h : 0 <= i < 2 ^ 56 -> 0 <= h -> Z.lor i (h * 2 ^ 56) = i + h * 2 ^ 56.
Proof.
  intros Hi Hh. symmetry. rewrite <- Z.lxor_lor.
  - apply Z.add_nocarry_lxor.
    apply Z.bits_inj'. intros n Hn. rewrite Z.land_spec, Z.bits_0. destruct (Z.ltb_spec n 56).
    + rewrite (Z.mul_pow2_bits_low h 56 n) by lia. apply andb_false_r.
    + rewrite <- (Z.mod_small i (2 ^ 56)) by lia. rewrite Z.mod_pow2_bits_high by lia. reflexivity.
  - apply Z.bits_inj'. intros n Hn. rewrite Z.land_spec, Z.bits_0. destruct (Z.ltb_spec n 56).
    + rewrite (Z.mul_pow2_bits_low h 56 n) by lia. apply andb_false_r.
    + rewrite <- (Z.mod_small i (2 ^ 56)) by lia. rewrite Z.mod_pow2_bits_high by lia. reflexivity.
Qed.

Lemma encode_add i h : 0 <= i < 2 ^ 56 -> 0 <= h < 2 ^ 8 -> encode i h = i + h * 2 ^ 56.
Proof.
  intros Hi Hh. unfold encode. rewrite Z.shiftl_mul_pow2 by lia. rewrite lor_add by lia. apply Z.mod_small. lia.
Qed.
Lemma input_encode i h : 0 <= i < 2 ^ 56 -> 0 <= h < 2 ^ 8 -> input_idx (encode i h) = i.
Proof.
  intros Hi Hh. rewrite encode_add by auto. unfold input_idx.
  change (2 ^ 56 - 1) with (Z.ones 56). rewrite Z.land_ones by lia. rewrite Z.mod_add by lia. apply Z.mod_small. lia.
Qed.
Lemma hash_encode i h : 0 <= i < 2 ^ 56 -> 0 <= h < 2 ^ 8 -> hash_idx (encode i h) = h.
Proof.
  intros Hi Hh. rewrite encode_add by auto. unfold hash_idx. rewrite Z.shiftr_div_pow2 by lia.
  rewrite Z.div_add by lia. rewrite Z.div_small by lia. reflexivity.
Qed.
Lemma encode_zero i : 0 <= i < 2 ^ 56 -> encode i 0 = i.
Proof. intros. rewrite encode_add by lia. lia. Qed.

(** * Validity *)
Section Opts.
Variable o : opts.
Hypothesis Hh : 1 <= num_hash o <= 5.
Hypothesis Hb : (0 < num_bins o)%nat.
Hypothesis Hi : num_input o < 2 ^ 56.

(** The word [e] names an existing input and one of its hash functions. *)
Definition valid (hs : list Z) (e : Z) : Prop :=
  exists i h, e = encode i h /\ 0 <= i < Z.of_nat (length hs) /\ 0 <= h < num_hash o.
Definition home (hs : list Z) (e : Z) : nat :=
  Z.to_nat (get_hash (nth (Z.to_nat (input_idx e)) hs 0) (hash_idx e) mod Z.of_nat (num_bins o)).
Definition bins_ok (hs bs : list Z) : Prop :=
  length bs = num_bins o /\
  forall b e, nth_error bs b = Some e -> e = kEmpty \/ (valid hs e /\ home hs e = b).
Definition small (hs : list Z) : Prop := Z.of_nat (length hs) <= num_input o.

Definition content (bs : list Z) : list Z := map input_idx (filter (fun e => negb (e =? kEmpty)) bs).

Lemma valid_not_empty hs e : small hs -> valid hs e -> e <> kEmpty.
Proof.
  unfold small. intros Hs (i & h & -> & H1 & H2). rewrite encode_add by lia. unfold kEmpty. lia.
Qed.
Lemma valid_input hs e : small hs -> valid hs e -> 0 <= input_idx e < Z.of_nat (length hs).
Proof. unfold small. intros Hs (i & h & -> & H1 & H2). rewrite input_encode by lia. lia. Qed.
Lemma valid_next hs e : small hs -> valid hs e ->
  valid hs (encode (input_idx e) ((hash_idx e + 1) mod num_hash o)) /\
  input_idx (encode (input_idx e) ((hash_idx e + 1) mod num_hash o)) = input_idx e.
Proof.
  unfold small. intros Hs (i & h & -> & H1 & H2). rewrite input_encode, hash_encode by lia.
  pose proof (Z.mod_pos_bound (h + 1) (num_hash o) ltac:(lia)). split.
  - exists i, ((h + 1) mod num_hash o). auto.
  - apply input_encode; lia.
Qed.
Lemma valid_extend hs hs' e : valid hs e -> valid (hs ++ hs') e.
Proof. intros (i & h & -> & H1 & H2). exists i, h. rewrite app_length. split; auto. split; auto. lia. Qed.
Lemma home_extend hs hs' e : small hs -> valid hs e -> home (hs ++ hs') e = home hs e.
Proof.
  intros Hs Hv. unfold home. rewrite app_nth1; auto. pose proof (valid_input hs e Hs Hv). lia.
Qed.
Lemma bins_extend hs hs' bs : small hs -> bins_ok hs bs -> bins_ok (hs ++ hs') bs.
Proof.
  intros Hs [H1 H2]. split; auto. intros b e Hbe. destruct (H2 b e Hbe) as [->|[Hv He]]; auto.
  right. split; [apply valid_extend; auto|]. rewrite home_extend; auto.
Qed.

Lemma upd_len l i x : length (upd l i x) = length l.
Proof. revert i. induction l as [|y l IH]; intros [|i]; simpl; auto. Qed.
Lemma upd_split l i x y : nth_error l i = Some y -> exists a b, l = a ++ y :: b /\ upd l i x = a ++ x :: b /\ length a = i.
Proof.
  revert i. induction l as [|z l IH]; intros [|i] H; simpl in *; try discriminate.
  - inversion H; subst. exists [], l. auto.
  - destruct (IH i H) as (a & b & -> & -> & <-). exists (z :: a), b. auto.
Qed.
Lemma nth_upd l i x j : (i < length l)%nat -> nth_error (upd l i x) j = if Nat.eqb j i then Some x else nth_error l j.
Proof.
  revert i j. induction l as [|y l IH]; intros i j Hl; simpl in Hl; [lia|].
  destruct i as [|i], j as [|j]; simpl; auto. apply IH. lia.
Qed.
Lemma content_app a b : content (a ++ b) = content a ++ content b.
Proof. unfold content. rewrite filter_app, map_app. reflexivity. Qed.

Lemma home_lt hs e : (home hs e < num_bins o)%nat.
Proof.
  unfold home. pose proof (Z.mod_pos_bound (get_hash (nth (Z.to_nat (input_idx e)) hs 0) (hash_idx e)) (Z.of_nat (num_bins o)) ltac:(lia)). lia.
Qed.

Lemma skipn_nth {A} (l : list A) i x : nth_error l i = Some x -> skipn i l = x :: skipn (S i) l.
Proof. revert i. induction l as [|y l IH]; intros [|i] H; simpl in *; try discriminate; [congruence|auto]. Qed.
Lemma firstn_upd l w x : (w < length l)%nat -> firstn (S w) (upd l w x) = firstn w l ++ [x].
Proof.
  revert w. induction l as [|y l IH]; intros w Hw; simpl in Hw; [lia|]. destruct w as [|w]; [reflexivity|].
  cbn [upd]. rewrite firstn_cons, IH by lia. reflexivity.
Qed.
Lemma skipn_upd l w x i : (w < i)%nat -> skipn i (upd l w x) = skipn i l.
Proof.
  revert w i. induction l as [|y l IH]; intros w i H; [reflexivity|].
  destruct i as [|i]; [lia|]. destruct w as [|w]; cbn [upd]; [reflexivity|].
  simpl skipn. apply IH. lia.
Qed.

Lemma pass_inv hs : small hs -> forall n i w bs arr,
  bins_ok hs bs -> length arr = (i + n)%nat -> (w <= i)%nat ->
  Forall (valid hs) (firstn w arr) -> Forall (valid hs) (skipn i arr) ->
  exists bs' cs, pass o hs n i w bs arr = Some (bs', cs) /\ bins_ok hs bs' /\ Forall (valid hs) cs /\
    (length cs <= w + n)%nat /\
    Permutation (content bs' ++ map input_idx cs)
                (content bs ++ map input_idx (firstn w arr) ++ map input_idx (skipn i arr)).
Proof.
  intros Hs. induction n as [|n IH]; intros i w bs arr Hbs Hl Hw Hv1 Hv2; cbn [pass].
  - exists bs, (firstn w arr). split; auto. split; auto. split; auto.
    split; [rewrite firstn_length; lia|].
    rewrite skipn_all2 by lia. simpl. rewrite app_nil_r. reflexivity.
  - assert (Hlt : (i < length arr)%nat) by lia. apply nth_error_Some in Hlt.
    destruct (nth_error arr i) as [e|] eqn:Ee; [|tauto]. clear Hlt.
    pose proof (skipn_nth arr i e Ee) as Esk.
    assert (Hve : valid hs e) by (rewrite Esk in Hv2; inversion Hv2; auto).
    assert (Hvr : Forall (valid hs) (skipn (S i) arr)) by (rewrite Esk in Hv2; inversion Hv2; auto).
    pose proof (valid_input hs e Hs Hve) as Hin.
    destruct (nth_error hs (Z.to_nat (input_idx e))) as [code|] eqn:Ec.
    2:{ apply nth_error_None in Ec. lia. }
    destruct (Nat.eqb_spec (num_bins o) 0); [lia|].
    assert (Eh : Z.to_nat (get_hash code (hash_idx e) mod Z.of_nat (num_bins o)) = home hs e).
    { unfold home. rewrite (nth_error_nth _ _ _ Ec). reflexivity. }
    rewrite Eh. destruct Hbs as [Hbl Hbv].
    pose proof (home_lt hs e) as Hhl. pose proof Hhl as Hhl2. rewrite <- Hbl in Hhl2. apply nth_error_Some in Hhl2.
    destruct (nth_error bs (home hs e)) as [old|] eqn:Eo; [|tauto]. clear Hhl2.
    assert (Hbs' : bins_ok hs (upd bs (home hs e) e)).
    { split; [rewrite upd_len; auto|]. intros b x. rewrite nth_upd by lia. destruct (Nat.eqb_spec b (home hs e)).
      - intros H; inversion H; subst. right. auto.
      - apply Hbv. }
    destruct (upd_split bs (home hs e) e old Eo) as (a & c & E1 & E2 & _).
    pose proof (valid_not_empty hs e Hs Hve) as Hne.
    assert (Ece : content (upd bs (home hs e) e) = content a ++ input_idx e :: content c).
    { rewrite E2, content_app. unfold content at 2. cbn [filter]. destruct (Z.eqb_spec e kEmpty); [tauto|]. reflexivity. }
    destruct (Z.eqb_spec old kEmpty) as [Hold|Hold].
    + destruct (IH (S i) w (upd bs (home hs e) e) arr Hbs' ltac:(lia) ltac:(lia) Hv1 Hvr) as (bs' & cs & R & B & V & L & P).
      exists bs', cs. split; auto. split; auto. split; auto. split; [lia|]. rewrite P. rewrite Ece, E1, content_app, Esk.
      unfold content at 4. cbn [filter]. destruct (Z.eqb_spec old kEmpty); [|tauto]. cbn [negb map].
      change (map input_idx (filter (fun e0 => negb (e0 =? kEmpty)) c)) with (content c).
      rewrite <- !app_assoc. apply Permutation_app_head. cbn [app].
      rewrite !app_assoc. apply Permutation_middle.
    + destruct (Z.eqb_spec (num_hash o) 0); [lia|].
      destruct (Hbv _ _ Eo) as [|[Hvo _]]; [tauto|]. destruct (valid_next hs old Hs Hvo) as [Hvn Hin2].
      set (nx := encode (input_idx old) ((hash_idx old + 1) mod num_hash o)) in *.
      assert (Hwl : (w < length arr)%nat) by lia.
      destruct (IH (S i) (S w) (upd bs (home hs e) e) (upd arr w nx) Hbs') as (bs' & cs & R & B & V & L & P).
      * rewrite upd_len. lia.
      * lia.
      * rewrite firstn_upd by auto. apply Forall_app. split; auto.
      * rewrite skipn_upd by lia. auto.
      * exists bs', cs. split; auto. split; auto. split; auto. split; [lia|]. rewrite P.
        rewrite firstn_upd, skipn_upd by lia. rewrite map_app. cbn [map]. rewrite Hin2.
        rewrite Ece, E1, content_app, Esk. unfold content at 4. cbn [filter]. destruct (Z.eqb_spec old kEmpty); [tauto|]. cbn [negb map].
        change (map input_idx (filter (fun e0 => negb (e0 =? kEmpty)) c)) with (content c).
        rewrite <- !app_assoc. apply Permutation_app_head. cbn [app].
        set (x := input_idx e). set (y := input_idx old). set (A := content c). set (B1 := map input_idx (firstn w arr)). set (C := map input_idx (skipn (S i) arr)).
        transitivity (x :: y :: A ++ B1 ++ C).
        -- constructor. rewrite !app_assoc. symmetry. rewrite <- (app_assoc A B1 C), (app_assoc A B1 C). apply Permutation_middle.
        -- rewrite perm_swap. constructor. rewrite !app_assoc. apply Permutation_middle.
Qed.

Lemma passes_inv hs : small hs -> forall tries bs cs,
  bins_ok hs bs -> Forall (valid hs) cs ->
  exists bs' cs', passes o hs tries bs cs = Some (bs', cs') /\ bins_ok hs bs' /\ Forall (valid hs) cs' /\
    (length cs' <= length cs)%nat /\
    Permutation (content bs' ++ map input_idx cs') (content bs ++ map input_idx cs).
Proof.
  intros Hs. induction tries as [|t IH]; intros bs cs Hbs Hv; cbn [passes].
  - exists bs, cs. repeat split; auto; apply Hbs.
  - destruct cs as [|c cs].
    + exists bs, []. repeat split; auto; apply Hbs.
    + destruct (pass_inv hs Hs (length (c :: cs)) 0 0 bs (c :: cs) Hbs ltac:(reflexivity) ltac:(lia)) as (bs1 & cs1 & R1 & B1 & V1 & L1 & P1).
      * simpl. constructor.
      * simpl. auto.
      * rewrite R1. destruct (IH bs1 cs1 B1 V1) as (bs2 & cs2 & R2 & B2 & V2 & L2 & P2).
        exists bs2, cs2. repeat split; auto; try apply B2; [lia|]. rewrite P2, P1. reflexivity.
Qed.

(** * Stash *)
Definition stash_ok (hs st : list Z) : Prop :=
  length st = num_stash o /\ forall e, In e st -> e = kEmpty \/ 0 <= e < Z.of_nat (length hs).

Lemma put_stash_spec st x st' : x <> kEmpty -> input_idx x = x -> put_stash st x = Some st' ->
  length st' = length st /\ (forall e, In e st' -> In e st \/ e = x) /\
  Permutation (content st') (x :: content st).
Proof.
  intros Hx Hid. revert st'. induction st as [|y st IH]; intros st' H; cbn [put_stash] in H; [discriminate|].
  destruct (Z.eqb_spec y kEmpty) as [->|Hy].
  - inversion H; subst. split; auto. split; [simpl; intuition|]. unfold content. cbn [filter].
    rewrite Z.eqb_refl. destruct (Z.eqb_spec x kEmpty); [tauto|]. cbn [negb map]. rewrite Hid. reflexivity.
  - destruct (put_stash st x) as [r'|]; [|discriminate]. inversion H; subst.
    destruct (IH r' eq_refl) as (L & I & P). split; [simpl; lia|]. split.
    + intros e [->|He]; simpl; auto. apply I in He. tauto.
    + unfold content in *. cbn [filter]. destruct (Z.eqb_spec y kEmpty); [tauto|]. cbn [negb map].
      rewrite P. apply perm_swap.
Qed.
Lemma put_stash_none st x : put_stash st x = None -> ~ In kEmpty st.
Proof.
  induction st as [|y st IH]; cbn [put_stash]; intros H; auto.
  destruct (Z.eqb_spec y kEmpty); [discriminate|].
  destruct (put_stash st x); [discriminate|]. intros [->|Hin]; [tauto|]. apply IH; auto.
Qed.

Lemma put_all_spec hs : small hs -> forall cs st st' rest, stash_ok hs st -> Forall (valid hs) cs ->
  put_all st cs = (st', rest) ->
  stash_ok hs st' /\ Permutation (content st' ++ map input_idx rest) (content st ++ map input_idx cs) /\
  (length rest <= length cs)%nat /\ (rest <> [] -> ~ In kEmpty st').
Proof.
  intros Hs. induction cs as [|c cs IH]; intros st st' rest Hst Hv H; cbn [put_all] in H.
  - inversion H; subst. repeat split; auto; apply Hst.
  - apply Forall_cons_iff in Hv as [Hc Hv]. pose proof (valid_input hs c Hs Hc) as Hin.
    destruct (put_stash st (input_idx c)) as [st1|] eqn:E.
    + assert (Hne : input_idx c <> kEmpty) by (unfold kEmpty, small in *; lia).
      assert (Hid : input_idx (input_idx c) = input_idx c).
      { unfold small in Hs. rewrite <- (encode_zero (input_idx c)) at 1 by lia. apply input_encode; lia. }
      destruct (put_stash_spec st (input_idx c) st1 Hne Hid E) as (L & I & P).
      destruct (IH st1 st' rest) as (S1 & P1 & L1 & N1); auto.
      * destruct Hst as [Hl Hst]. split; [congruence|]. intros e He. apply I in He as [He| ->]; auto.
      * split; auto. split; [|split; [simpl; lia|auto]]. rewrite P1, P. cbn [map]. simpl. apply Permutation_middle.
    + inversion H; subst. split; auto. split; auto. split; auto. intros _. eapply put_stash_none; eauto.
Qed.

(** * Whole table *)
Record tinv (t : table) : Prop := {
  t_small : small (hashes t);
  t_bins : bins_ok (hashes t) (bins t);
  t_stash : stash_ok (hashes t) (stash t);
  t_all : Permutation (content (bins t) ++ content (stash t)) (map Z.of_nat (seq 0 (length (hashes t))))
}.

Lemma content_empty n : content (repeat kEmpty n) = [].
Proof. unfold content. induction n; cbn [repeat filter]; auto. Qed.

Lemma new_tinv t : 0 <= num_input o -> new_table o = Some t -> tinv t.
Proof.
  intros H0 H. unfold new_table in H. destruct (_ <=? 16); [|discriminate]. inversion H; subst. constructor; cbn [hashes bins stash].
  - unfold small. simpl. lia.
  - split; [apply repeat_length|]. intros b e Hbe. left. apply nth_error_In in Hbe. apply repeat_spec in Hbe. auto.
  - split; [apply repeat_length|]. intros e He. apply repeat_spec in He. auto.
  - rewrite !content_empty. simpl. reflexivity.
Qed.

Lemma new_cands_valid hs codes : small (hs ++ codes) -> Forall (valid (hs ++ codes)) (map Z.of_nat (seq (length hs) (length codes))).
Proof.
  unfold small. intros Hs. rewrite app_length in Hs. apply Forall_forall. intros e He. apply in_map_iff in He as (i & <- & He).
  apply in_seq in He. exists (Z.of_nat i), 0. rewrite app_length. rewrite encode_zero by lia. split; auto. split; lia.
Qed.

Lemma insert_inv t codes : tinv t ->
  match insert o t codes with
  | Done t' => tinv t' /\ hashes t' = hashes t ++ codes
  | Threw t' lost => hashes t' = hashes t ++ codes /\ lost <> [] /\ (length lost <= length codes)%nat /\
      length (bins t') = num_bins o /\ length (stash t') = num_stash o /\
      Permutation (content (bins t') ++ content (stash t') ++ lost) (map Z.of_nat (seq 0 (length (hashes t ++ codes)))) /\
      (Z.of_nat (length (hashes t ++ codes)) <= num_input o -> ~ In kEmpty (stash t'))
  | UB => False
  end.
Proof.
  intros [Ts Tb Tst Ta]. unfold insert.
  assert (Hall : Permutation ((content (bins t) ++ content (stash t)) ++ map Z.of_nat (seq (length (hashes t)) (length codes)))
                             (map Z.of_nat (seq 0 (length (hashes t ++ codes))))).
  { rewrite app_length, seq_app, map_app. simpl Nat.add. apply Permutation_app_tail. exact Ta. }
  destruct (Z.ltb_spec (num_input o) (Z.of_nat (length (hashes t ++ codes)))) as [Hlt|Hge].
  - split; auto. split.
    { rewrite app_length in Hlt. unfold small in Ts. destruct codes as [|c codes]; [simpl in Hlt; lia|]. simpl. discriminate. }
    split; [rewrite map_length, seq_length; auto|]. split; [apply Tb|]. split; [apply Tst|]. split; [|lia].
    cbn [bins stash]. rewrite app_assoc. exact Hall.
  - assert (Hs : small (hashes t ++ codes)) by (unfold small; auto).
    destruct (passes_inv (hashes t ++ codes) Hs (max_try o) (bins t) (map Z.of_nat (seq (length (hashes t)) (length codes))))
      as (bs & cs & R & B & V & L & P).
    { apply bins_extend; auto. }
    { apply new_cands_valid; auto. }
    rewrite R. destruct (put_all (stash t) cs) as [st rest] eqn:Ep.
    destruct (put_all_spec (hashes t ++ codes) Hs cs (stash t) st rest) as (S1 & P1 & L1 & N1); auto.
    { destruct Tst as [Hl Hst]. split; auto. intros e He. destruct (Hst e He); auto. right. rewrite app_length. lia. }
    assert (Eid : map input_idx (map Z.of_nat (seq (length (hashes t)) (length codes))) = map Z.of_nat (seq (length (hashes t)) (length codes))).
    { rewrite map_map. apply map_ext_in. intros i Hin. apply in_seq in Hin. unfold small in Hs. rewrite app_length in Hs.
      rewrite <- (encode_zero (Z.of_nat i)) at 1 by lia. apply input_encode; lia. }
    rewrite Eid in P.
    assert (Hfin : Permutation (content bs ++ content st ++ map input_idx rest) (map Z.of_nat (seq 0 (length (hashes t ++ codes))))).
    { rewrite P1. rewrite <- Hall. rewrite (Permutation_app_comm (content (stash t))). rewrite app_assoc. rewrite P.
      rewrite <- !app_assoc. apply Permutation_app_head. apply Permutation_app_comm. }
    destruct rest as [|r rest].
    + split; auto. constructor; cbn [hashes bins stash]; auto. simpl in Hfin. rewrite app_nil_r in Hfin. exact Hfin.
    + cbn [hashes bins stash]. split; auto. split; [discriminate|]. split.
      { rewrite map_length. rewrite map_length, seq_length in L. lia. }
      split; [apply B|]. split; [apply S1|]. split; [exact Hfin|]. intros _. apply N1. discriminate.
Qed.

Lemma insert_all_inv batches : forall t, tinv t ->
  match insert_all o t batches with
  | Done t' => tinv t' /\ hashes t' = hashes t ++ concat batches
  | Threw _ _ => True
  | UB => False
  end.
Proof.
  induction batches as [|b batches IH]; intros t I; cbn [insert_all concat].
  - rewrite app_nil_r. auto.
  - pose proof (insert_inv t b I) as H. destruct (insert o t b) as [t'|t' lost|]; auto.
    destruct H as [I' E]. specialize (IH t' I'). destruct (insert_all o t' batches); auto.
    destruct IH as [IH1 IH2]. split; auto. rewrite IH2, E, <- app_assoc. reflexivity.
Qed.

(** MinCollidingHashIdx. *)
Lemma min_hash_spec code b n : forall i h, i <= h < i + Z.of_nat n ->
  get_hash code h mod Z.of_nat (num_bins o) = b ->
  let r := min_hash o code b n i in i <= r <= h /\ get_hash code r mod Z.of_nat (num_bins o) = b /\
    forall j, i <= j < r -> get_hash code j mod Z.of_nat (num_bins o) <> b.
Proof.
  induction n as [|n IH]; intros i h Hr Hg; cbn [min_hash]; [lia|].
  destruct (Z.eqb_spec (get_hash code i mod Z.of_nat (num_bins o)) b) as [E|E].
  - split; [lia|]. split; auto. intros; lia.
  - assert (h <> i) by congruence. destruct (IH (i + 1) h ltac:(lia) Hg) as (H1 & H2 & H3).
    split; [lia|]. split; auto. intros j Hj. destruct (Z.eq_dec j i) as [->|]; auto. apply H3. lia.
Qed.
Lemma min_colliding_spec t b e : tinv t -> nth_error (bins t) b = Some e -> e <> kEmpty ->
  exists r, min_colliding o t b = Some r /\ 0 <= r < num_hash o /\
    get_hash (nth (Z.to_nat (input_idx e)) (hashes t) 0) r mod Z.of_nat (num_bins o) = Z.of_nat b /\
    forall j, 0 <= j < r -> get_hash (nth (Z.to_nat (input_idx e)) (hashes t) 0) j mod Z.of_nat (num_bins o) <> Z.of_nat b.
Proof.
  intros [Ts [Tl Tb] _ _] Hn Hne. destruct (Tb b e Hn) as [|[Hv Hhome]]; [tauto|].
  unfold min_colliding. rewrite Hn. pose proof (valid_input _ _ Ts Hv) as Hin.
  destruct (nth_error (hashes t) (Z.to_nat (input_idx e))) as [code|] eqn:Ec.
  2:{ apply nth_error_None in Ec. lia. }
  rewrite (nth_error_nth _ _ 0 Ec).
  destruct Hv as (i & h & -> & Hi2 & Hh2). unfold small in Ts.
  assert (Hgh : get_hash code h mod Z.of_nat (num_bins o) = Z.of_nat b).
  { unfold home in Hhome. rewrite (nth_error_nth _ _ 0 Ec), hash_encode in Hhome by lia. rewrite <- Hhome, Z2Nat.id; auto.
    apply Z.mod_pos_bound. lia. }
  destruct (min_hash_spec code (Z.of_nat b) (Z.to_nat (num_hash o)) 0 h ltac:(lia) Hgh) as (H1 & H2 & H3).
  eexists. split; [reflexivity|]. split; [lia|]. split; auto.
Qed.
End Opts.

(** * SanityCheck *)
From Coq Require Import Sorted.
Lemma set_insert_spec x l : StronglySorted Z.lt l ->
  match set_insert x l with
  | Some l' => ~ In x l /\ StronglySorted Z.lt l' /\ Permutation l' (x :: l)
  | None => In x l
  end.
Proof.
  induction l as [|y l IH]; intros Hs; cbn [set_insert].
  - split; auto. split; auto. constructor; auto.
  - inversion Hs as [|? ? Hs' Hf]; subst. destruct (Z.ltb_spec x y).
    + split.
      * intros [->|Hin]; [lia|]. rewrite Forall_forall in Hf. apply Hf in Hin. lia.
      * split; auto. constructor; auto. constructor; auto. rewrite Forall_forall in *. intros z Hz. apply Hf in Hz. lia.
    + destruct (Z.eqb_spec x y) as [->|]; [left; auto|]. specialize (IH Hs').
      destruct (set_insert x l) as [l'|].
      * destruct IH as (H1 & H2 & H3). split; [intros [->|]; auto|]. split.
        -- constructor; auto. rewrite Forall_forall in *. intros z Hz. apply (Permutation_in _ H3) in Hz as [->|Hz]; [lia|auto].
        -- rewrite H3. apply perm_swap.
      * right. auto.
Qed.
Lemma collect_spec slots : forall s, StronglySorted Z.lt s ->
  match collect slots s with
  | Some s' => StronglySorted Z.lt s' /\ Permutation s' (content slots ++ s)
  | None => ~ NoDup (content slots ++ s)
  end.
Proof.
  induction slots as [|e slots IH]; intros s Hs; cbn [collect].
  - auto.
  - unfold content. cbn [filter]. destruct (Z.eqb_spec e kEmpty); cbn [negb map].
    + apply IH; auto.
    + pose proof (set_insert_spec (input_idx e) s Hs) as H. fold (content slots).
      destruct (set_insert (input_idx e) s) as [s'|].
      * destruct H as (H1 & H2 & H3). specialize (IH s' H2). destruct (collect slots s') as [s2|].
        -- destruct IH as [A B]. split; auto. rewrite B, H3. cbn [app]. symmetry. apply Permutation_middle.
        -- intros N. apply IH. eapply Permutation_NoDup; [|exact N]. rewrite H3. cbn [app]. apply Permutation_middle.
      * intros N. cbn [app] in N. inversion N as [|? ? N1 N2]; subst. apply N1. apply in_or_app. auto.
Qed.
Lemma is_range_spec l : forall i, is_range l i = true <-> l = map (fun k => i + Z.of_nat k) (seq 0 (length l)).
Proof.
  induction l as [|x l IH]; intros i; cbn [is_range length seq map].
  - split; auto.
  - rewrite andb_true_iff, Z.eqb_eq, IH. rewrite <- seq_shift, map_map.
    split.
    + intros [-> ->]. f_equal; [lia|]. rewrite map_length, seq_length. apply map_ext. intros; lia.
    + intros H. assert (H1 := f_equal (@hd Z 0) H). assert (H2 := f_equal (@tl Z) H). cbn [hd tl] in H1, H2. split; [lia|].
      etransitivity; [exact H2|]. apply map_ext. intros; lia.
Qed.
Lemma sorted_range n k : StronglySorted Z.lt (map Z.of_nat (seq k n)).
Proof.
  revert k. induction n; intros k; cbn [seq map]; constructor; auto.
  apply Forall_forall. intros z Hz. apply in_map_iff in Hz as (j & <- & Hj). apply in_seq in Hj. lia.
Qed.
Lemma sorted_perm_eq l l' : StronglySorted Z.lt l -> StronglySorted Z.lt l' -> Permutation l l' -> l = l'.
Proof.
  revert l'. induction l as [|x l IH]; intros l' H1 H2 P.
  - apply Permutation_nil in P. auto.
  - destruct l' as [|y l']; [apply Permutation_sym, Permutation_nil in P; discriminate|].
    inversion H1 as [|? ? S1 F1]; inversion H2 as [|? ? S2 F2]; subst. rewrite Forall_forall in *.
    assert (x = y).
    { assert (Hx : In x (y :: l')) by (eapply Permutation_in; [exact P|left; auto]).
      assert (Hy : In y (x :: l)) by (eapply Permutation_in; [symmetry; exact P|left; auto]).
      destruct Hx as [|Hx]; auto. destruct Hy as [|Hy]; auto. apply F2 in Hx. apply F1 in Hy. lia. }
    subst. f_equal. apply IH; auto. eapply Permutation_cons_inv; eauto.
Qed.
Lemma nodup_range k n : NoDup (map Z.of_nat (seq k n)).
Proof. apply FinFun.Injective_map_NoDup; [intros a b; lia|apply seq_NoDup]. Qed.

Lemma sanity_iff o t : 0 <= num_input o ->
  sanity_check o t = true <->
  Permutation (content (bins t) ++ content (stash t)) (map Z.of_nat (seq 0 (Z.to_nat (num_input o)))).
Proof.
  intros H0. unfold sanity_check. pose proof (collect_spec (bins t ++ stash t) [] ltac:(constructor)) as H.
  assert (Ea : content (bins t ++ stash t) = content (bins t) ++ content (stash t)) by (unfold content; rewrite filter_app, map_app; auto).
  rewrite app_nil_r, Ea in H.
  destruct (collect (bins t ++ stash t) []) as [s|].
  - destruct H as [Hs Hp]. rewrite andb_true_iff, Z.eqb_eq, is_range_spec. split.
    + intros [H1 H2]. rewrite <- Hp, H2. replace (Z.to_nat (num_input o)) with (length s) by lia.
      erewrite map_ext; [reflexivity|]. intros; lia.
    + intros P. rewrite <- Hp in P. apply sorted_perm_eq in P; auto; [|apply sorted_range].
      rewrite P, map_length, seq_length. split; [lia|]. apply map_ext. intros; lia.
  - split; [discriminate|]. intros P. exfalso. apply H. eapply Permutation_NoDup; [symmetry; exact P|]. apply nodup_range.
Qed.

(** * Unique location *)
Definition at_slot (t : table) (j : nat) (i : Z) : Prop :=
  exists e, nth_error (bins t ++ stash t) j = Some e /\ e <> kEmpty /\ input_idx e = i.
Lemma content_unique l : NoDup (content l) -> forall j k e f,
  nth_error l j = Some e -> nth_error l k = Some f -> e <> kEmpty -> f <> kEmpty -> input_idx e = input_idx f -> j = k.
Proof.
  unfold content. induction l as [|x l IH]; intros Hn j k e f Hj Hk He Hf Hef; [destruct j; discriminate|].
  cbn [filter] in Hn. assert (Hin : forall m g, nth_error l m = Some g -> g <> kEmpty -> In (input_idx g) (map input_idx (filter (fun e => negb (e =? kEmpty)) l))).
  { intros m g Hm Hg. apply in_map. apply filter_In. split; [eapply nth_error_In; eauto|]. destruct (Z.eqb_spec g kEmpty); [tauto|auto]. }
  destruct j as [|j], k as [|k]; simpl in Hj, Hk; auto.
  - inversion Hj; subst. destruct (Z.eqb_spec e kEmpty); [tauto|]. cbn [negb map] in Hn. inversion Hn; subst.
    exfalso. apply H1. rewrite Hef. eauto.
  - inversion Hk; subst. destruct (Z.eqb_spec f kEmpty); [tauto|]. cbn [negb map] in Hn. inversion Hn; subst.
    exfalso. apply H1. rewrite <- Hef. eauto.
  - f_equal. eapply IH; eauto. destruct (negb (x =? kEmpty)); auto. inversion Hn; auto.
Qed.
Lemma content_in l i : In i (content l) <-> exists j e, nth_error l j = Some e /\ e <> kEmpty /\ input_idx e = i.
Proof.
  unfold content. rewrite in_map_iff. split.
  - intros (e & <- & He). apply filter_In in He as [He Hne]. apply In_nth_error in He as [j Hj]. exists j, e.
    destruct (Z.eqb_spec e kEmpty); [discriminate|auto].
  - intros (j & e & Hj & Hne & <-). exists e. split; auto. apply filter_In. split; [eapply nth_error_In; eauto|].
    destruct (Z.eqb_spec e kEmpty); [tauto|auto].
Qed.
Lemma unique_slot t n extra : Permutation (content (bins t) ++ content (stash t) ++ extra) (map Z.of_nat (seq 0 n)) ->
  (forall j i, at_slot t j i -> 0 <= i < Z.of_nat n /\ ~ In i extra) /\
  (forall j k i, at_slot t j i -> at_slot t k i -> j = k) /\
  (forall i, 0 <= i < Z.of_nat n -> In i extra \/ exists j, at_slot t j i).
Proof.
  intros P.
  assert (Ea : content (bins t ++ stash t) = content (bins t) ++ content (stash t)) by (unfold content; rewrite filter_app, map_app; auto).
  rewrite app_assoc, <- Ea in P.
  assert (N : NoDup (content (bins t ++ stash t) ++ extra)) by (eapply Permutation_NoDup; [symmetry; exact P|apply nodup_range]).
  split; [|split].
  - intros j i (e & H1 & H2 & H3).
    assert (Hin : In i (content (bins t ++ stash t))) by (apply content_in; eauto).
    split.
    + assert (Hi : In i (map Z.of_nat (seq 0 n))) by (eapply Permutation_in; [exact P|apply in_or_app; auto]).
      apply in_map_iff in Hi as (m & <- & Hm). apply in_seq in Hm. lia.
    + intros Hx. apply in_split in Hx as (l1 & l2 & ->). apply (NoDup_remove_2 (content (bins t ++ stash t) ++ l1) l2 i).
      * rewrite <- app_assoc. exact N.
      * rewrite <- app_assoc. apply in_or_app. auto.
  - intros j k i (e & H1 & H2 & H3) (f & H4 & H5 & H6).
    eapply content_unique with (l := bins t ++ stash t); eauto; [|congruence].
    clear - N. induction (content (bins t ++ stash t)) as [|x l IH]; [constructor|]. cbn [app] in N. inversion N; subst. constructor; auto.
    intros Hin. apply H1. apply in_or_app; auto.
  - intros i Hi. assert (Hin : In i (map Z.of_nat (seq 0 n))).
    { apply in_map_iff. exists (Z.to_nat i). split; [lia|]. apply in_seq. lia. }
    apply (Permutation_in _ (Permutation_sym P)) in Hin. apply in_app_or in Hin as [Hin|Hin]; auto.
    right. apply content_in in Hin as (j & e & H1 & H2 & H3). exists j, e. auto.
Qed.
