From Coq Require Import List ZArith Bool Lia Permutation.
From Verif Require Import SegTreeModel SegTreeProof ChanKeyModel ChanKeyProof ChunkModel ChunkProof ChanModel.
Import ListNotations.
Open Scope Z_scope.

Ltac ep :=
  unfold set_msg_seq_id, set_admitted, set_assigned, set_send_queue, set_throttled, set_sender_dead,
    set_send_stopped, set_recv_msgs, set_received_msg_ids, set_received_ack_ids, set_received_fin,
    set_peer_sent_msg_count, set_waiting_finish, set_aborting, set_chunked_values, set_reassembled,
    set_finish_phase, set_wire, set_hit_ub, set_log_sent, set_log_submitted, set_log_returned,
    set_log_skipped, set_log_dropped, set_log_race in *;
  cbn [msg_seq_id admitted assigned send_queue throttled sender_dead send_stopped recv_msgs
       received_msg_ids received_ack_ids received_fin peer_sent_msg_count waiting_finish aborting
       chunked_values reassembled finish_phase wire hit_ub log_sent log_submitted log_returned
       log_skipped log_dropped log_race fst snd] in *.

(** * Segment tree facts in terms of [contains] *)

Lemma contains_covers t y : Inv t -> contains t y = true <-> covers (segments t) y.
Proof. intros [H _]. apply contains_spec; auto. Qed.

Lemma insert_contains t x t' b :
  Inv t -> 0 <= x < 2 ^ 64 - 1 -> insert t x = (t', b) ->
  Inv t' /\ (b = true <-> contains t x = false) /\
  (forall y, contains t' y = true <-> contains t y = true \/ y = x).
Proof.
  intros Hi Hx E. pose proof (insert_spec t x Hi Hx) as H. rewrite E in H.
  destruct H as (H1 & H2 & H3). split; [auto|split].
  - rewrite H2, <- (contains_covers t x Hi). destruct (contains t x); intuition congruence.
  - intros y. rewrite (contains_covers t' y H1), (contains_covers t y Hi). apply H3.
Qed.

Lemma insert_count_le t x : count t <= count (fst (insert t x)).
Proof.
  unfold insert. destruct (segments t) as [|? ?]; simpl; [lia|].
  destruct (locate x _); simpl; lia.
Qed.

Lemma inv_count_nonneg t : Inv t -> 0 <= count t.
Proof.
  intros [Hs ->]. unfold total. induction (segments t) as [|s l IH]; simpl; [lia|].
  pose proof (sep_hd _ _ Hs). apply sep_tail in Hs. specialize (IH Hs). lia.
Qed.

Lemma separated_single_covers l a b :
  separated l -> (length l <= 1)%nat -> covers l a -> covers l b ->
  forall y, a <= y <= b -> covers l y.
Proof.
  intros Hs Hl Ha Hb y Hy. destruct l as [|s [|s' l]]; simpl in Hl; try lia.
  - apply covers_nil in Ha. destruct Ha.
  - apply covers_cons in Ha, Hb. apply covers_cons.
    destruct Ha as [Ha|Ha]; [|apply covers_nil in Ha; tauto].
    destruct Hb as [Hb|Hb]; [|apply covers_nil in Hb; tauto]. left; lia.
Qed.

(** The wait condition says exactly that all of 1..n arrived. *)
Lemma all_arrived_sound t n :
  Inv t -> all_arrived t n = true -> forall y, 1 <= y <= n -> contains t y = true.
Proof.
  intros Hi H y Hy. unfold all_arrived in H. apply orb_true_iff in H as [H|H].
  - apply Z.eqb_eq in H. lia.
  - apply andb_true_iff in H as [H H3]. apply andb_true_iff in H as [H1 H2].
    apply Z.leb_le in H1. unfold segments_count in H1.
    apply (contains_covers _ _ Hi) in H2, H3. apply (contains_covers _ _ Hi).
    destruct Hi as [Hs _].
    apply (separated_single_covers _ 1 n); auto. lia.
Qed.

Lemma all_arrived_complete t n :
  Inv t -> 0 <= n -> (forall y, contains t y = true <-> 1 <= y <= n) -> all_arrived t n = true.
Proof.
  intros Hi Hn H. unfold all_arrived. destruct (n =? 0) eqn:E; auto. apply Z.eqb_neq in E. simpl.
  rewrite (proj2 (H 1)) by lia. rewrite (proj2 (H n)) by lia. rewrite !andb_true_r.
  apply Z.leb_le. unfold segments_count. pose proof Hi as [Hs _].
  destruct (segments t) as [|[a b] l] eqn:El; simpl; [lia|].
  destruct l as [|[c d] l']; simpl; [lia|]. exfalso.
  assert (Hc : forall y, covers (segments t) y <-> 1 <= y <= n).
  { intros y. rewrite <- (contains_covers t y Hi). apply H. }
  rewrite El in Hc. inversion Hs as [| |a' b' c' d' r' Hab Hbc Hr]; subst.
  pose proof (sep_hd _ _ Hr) as Hcd; simpl in Hcd.
  assert (1 <= a <= n) by (apply Hc; apply covers_cons; simpl; lia).
  assert (1 <= c <= n) by (apply Hc; apply covers_cons; right; apply covers_cons; simpl; lia).
  assert (Hb : covers ((a, b) :: (c, d) :: l') b) by (apply Hc; lia).
  apply covers_cons in Hb as [Hb|(s & Hs1 & Hs2)]; simpl in *; [lia|].
  pose proof (sep_all_gt _ _ _ Hs s Hs1). lia.
Qed.

(** * Lists *)

Definition ids (l : list (bytes * (bytes * Z))) : list Z := map (fun x => snd (snd x)) l.
Definition pos (l : list Z) : list Z := filter (Z.ltb 0) l.

Lemma pos_in n l : In n (pos l) <-> 0 < n /\ In n l.
Proof. unfold pos. rewrite filter_In, Z.ltb_lt. tauto. Qed.

Lemma filter_perm {A} (f : A -> bool) l l' : Permutation l l' -> Permutation (filter f l) (filter f l').
Proof.
  induction 1; simpl; auto.
  - destruct (f x); auto.
  - destruct (f x), (f y); auto. apply perm_swap.
  - etransitivity; eauto.
Qed.

Lemma msg_find_in k l p : msg_find k l = Some p -> In (k, p) l.
Proof.
  induction l as [|[k' p'] l IH]; simpl; [discriminate|].
  destruct (bytes_eqb k k') eqn:E; [|auto].
  apply bytes_eqb_eq in E. intros H; inversion H; subst; auto.
Qed.

Lemma msg_find_none k l : msg_find k l = None -> ~ In k (map fst l).
Proof.
  induction l as [|[k' p'] l IH]; simpl; auto.
  destruct (bytes_eqb k k') eqn:E; [discriminate|]. apply bytes_eqb_neq in E.
  intros H [H1|H1]; [congruence|]. apply IH; auto.
Qed.

Lemma msg_erase_notin k l : ~ In k (map fst l) -> msg_erase k l = l.
Proof.
  induction l as [|[k' p'] l IH]; simpl; auto. intros H.
  destruct (bytes_eqb k k') eqn:E; simpl.
  - apply bytes_eqb_eq in E. subst. tauto.
  - f_equal. apply IH. tauto.
Qed.

Lemma msg_erase_perm k l p : NoDup (map fst l) -> msg_find k l = Some p ->
  Permutation l ((k, p) :: msg_erase k l).
Proof.
  induction l as [|[k' p'] l IH]; simpl; [discriminate|].
  intros Hn H. inversion Hn as [|x l' Hx Hl]; subst.
  destruct (bytes_eqb k k') eqn:E; simpl.
  - apply bytes_eqb_eq in E. inversion H; subst. rewrite msg_erase_notin; auto.
  - etransitivity; [apply perm_skip, (IH Hl H)|]. apply perm_swap.
Qed.

Lemma msg_erase_incl k l x : In x (msg_erase k l) -> In x l.
Proof. unfold msg_erase. rewrite filter_In. tauto. Qed.

Lemma msg_erase_keys k l : NoDup (map fst l) -> NoDup (map fst (msg_erase k l)).
Proof.
  induction l as [|[k' p'] l IH]; simpl; auto. intros Hn. inversion Hn as [|x l' Hx Hl]; subst.
  destruct (bytes_eqb k k'); simpl; auto. constructor; auto.
  intros H. apply Hx. apply in_map_iff in H as ([k1 p1] & <- & H). apply msg_erase_incl in H.
  apply in_map_iff. exists (k1, p1); auto.
Qed.

Lemma remove_nth_perm {A} i (l : list A) x : nth_error l i = Some x -> Permutation l (x :: remove_nth i l).
Proof.
  intros H. apply nth_error_split in H as (l1 & l2 & -> & <-).
  unfold remove_nth. rewrite firstn_app, Nat.sub_diag, firstn_all, firstn_O, app_nil_r.
  replace (S (length l1)) with (length l1 + 1)%nat by lia.
  rewrite <- skipn_add. rewrite skipn_app, Nat.sub_diag, skipn_all. simpl.
  symmetry. apply Permutation_middle.
Qed.

Lemma remove_nth_in {A} i (l : list A) x : In x (remove_nth i l) -> In x l.
Proof.
  unfold remove_nth. rewrite in_app_iff. intros [H|H].
  - rewrite <- (firstn_skipn i l). apply in_or_app; auto.
  - rewrite <- (firstn_skipn (S i) l). apply in_or_app; auto.
Qed.

(** * The invariant *)

Definition places (t : endpoint) : list Z :=
  ids (recv_msgs t) ++ ids (log_returned t) ++ log_skipped t ++ log_dropped t.

Definition user_msg (s : endpoint) (wk v : bytes) : Prop :=
  exists n k, In (n, (k, v)) (log_sent s) /\ In n (log_submitted s) /\ wk = build_channel_key k n.

Definition pkt_ok (c : config) (s : endpoint) (p : packet) : Prop :=
  match p with
  | PMono wk v =>
      user_msg s wk v
      \/ (wk = build_channel_key (connect_key c) 0 /\ v = [])
      \/ (wk = kAckKey /\ exists n, v = to_string n /\ 1 <= n < 2 ^ 64 - 1 /\
                                    contains (received_msg_ids s) n = true)
      \/ (wk = kFinKey /\ exists n, v = to_string n /\ 0 <= n <= msg_seq_id s /\ 2 <= finish_phase s /\
                                    (log_race s = false -> n = msg_seq_id s))
  | PChunk ch =>
      exists wk v i, user_msg s wk v /\ ch = chunk_at wk v (chunk_bytes c) i /\
                     (i < num_chunks (length v) (chunk_bytes c))%nat
  end.

Definition throttle_inv (c : config) (s : endpoint) : Prop :=
  0 < window c -> send_stopped s = false ->
  match throttled s with
  | Some m => forall n, In n (log_submitted s) -> n = m \/ n < count (received_ack_ids s) + window c
  | None => if sender_dead s
            then exists m, forall n, In n (log_submitted s) -> n = m \/ n < count (received_ack_ids s) + window c
            else forall n, In n (log_submitted s) -> n < count (received_ack_ids s) + window c
  end.

Record SInv (c : config) (s : endpoint) : Prop := {
  s_seq : 0 <= msg_seq_id s < 2 ^ 64 - 1;
  s_log : forall n k v, In (n, (k, v)) (log_sent s) ->
          1 <= n <= msg_seq_id s /\ normal_key_ok k = true /\ Z.of_nat (length v) < 2 ^ 63;
  s_logids : map fst (log_sent s) = zrange 1 (Z.to_nat (msg_seq_id s));
  s_adm : forall k v, In (k, v) (admitted s) -> normal_key_ok k = true /\ Z.of_nat (length v) < 2 ^ 63;
  s_asg : forall n wk v, In (n, (wk, v)) (assigned s ++ send_queue s) ->
          exists k, In (n, (k, v)) (log_sent s) /\ wk = build_channel_key k n;
  s_nodup : NoDup (map fst (assigned s ++ send_queue s) ++ log_submitted s);
  s_sub : forall n, In n (log_submitted s) -> exists k v, In (n, (k, v)) (log_sent s);
  s_wire : forall p, In p (wire s) -> pkt_ok c s p;
  s_rids : Inv (received_msg_ids s);
  s_aids : Inv (received_ack_ids s);
  s_phase : 1 <= finish_phase s -> waiting_finish s = true;
  s_race : 2 <= finish_phase s -> log_race s = false -> admitted s = [];
  s_thr : throttle_inv c s
}.

Record RInv (cs : config) (s t : endpoint) : Prop := {
  r_ids : forall n, contains (received_msg_ids t) n = true -> 1 <= n /\ In n (log_submitted s);
  r_msgs : forall k v n, In (k, (v, n)) (recv_msgs t ++ log_returned t) ->
           (n = 0 /\ k = connect_key cs /\ v = []) \/ (1 <= n /\ In (n, (k, v)) (log_sent s));
  r_places : forall n, 1 <= n -> contains (received_msg_ids t) n = true <-> In n (places t);
  r_nodup : NoDup (pos (places t));
  r_keys : NoDup (map fst (recv_msgs t));
  r_tab : forall wk m, tab_find wk (chunked_values t) = Some m ->
          exists v S, user_msg s wk v /\ partial_ok (chunk_bytes cs) v S m;
  r_reasm : forall wk v, In (wk, v) (reassembled t) -> user_msg s wk v;
  r_acks : forall n, contains (received_ack_ids t) n = true ->
           1 <= n /\ contains (received_msg_ids s) n = true;
  r_fin : received_fin t = true ->
          In (PMono kFinKey (to_string (peer_sent_msg_count t))) (wire s) /\
          0 <= peer_sent_msg_count t < 2 ^ 64;
  r_ub : hit_ub t = false;
  r_finok : 3 <= finish_phase t -> received_fin t = true /\
          forall n, 1 <= n <= peer_sent_msg_count t -> contains (received_msg_ids t) n = true;
  r_ackok : 6 <= finish_phase t -> log_race t = false ->
          forall n, 1 <= n <= msg_seq_id t -> contains (received_ack_ids t) n = true
}.

(** * Monotonicity in the sender *)

Record Mono (s s' : endpoint) : Prop := {
  m_sent : incl (log_sent s) (log_sent s');
  m_sub : incl (log_submitted s) (log_submitted s');
  m_wire : incl (wire s) (wire s');
  m_rids : forall n, contains (received_msg_ids s) n = true -> contains (received_msg_ids s') n = true
}.

Lemma user_msg_mono s s' wk v : Mono s s' -> user_msg s wk v -> user_msg s' wk v.
Proof.
  intros H (n & k & H1 & H2 & H3). exists n, k. split; [apply (m_sent _ _ H); auto|].
  split; [apply (m_sub _ _ H); auto|auto].
Qed.

Lemma rinv_mono c s s' t : Mono s s' -> RInv c s t -> RInv c s' t.
Proof.
  intros M R. destruct R. constructor; auto.
  - intros n Hn. destruct (r_ids0 n Hn). split; auto. apply (m_sub _ _ M); auto.
  - intros k v n Hin. destruct (r_msgs0 k v n Hin) as [H|[H1 H2]]; auto. right; split; auto.
    apply (m_sent _ _ M); auto.
  - intros wk m Hf. destruct (r_tab0 wk m Hf) as (v & S & H1 & H2). exists v, S; split; auto.
    eapply user_msg_mono; eauto.
  - intros wk v Hin. eapply user_msg_mono; eauto.
  - intros n Hn. destruct (r_acks0 n Hn). split; auto. apply (m_rids _ _ M); auto.
  - intros H. destruct (r_fin0 H). split; auto. apply (m_wire _ _ M); auto.
Qed.

Lemma mono_refl s : Mono s s.
Proof. constructor; auto using incl_refl. Qed.

(** Old packets stay valid when the sender's logs only grow. *)
Lemma pkt_mono c s s' p :
  Mono s s' -> (finish_phase s = finish_phase s' \/ finish_phase s <= finish_phase s') ->
  msg_seq_id s <= msg_seq_id s' ->
  (2 <= finish_phase s -> log_race s' = false -> log_race s = false /\ msg_seq_id s' = msg_seq_id s) ->
  pkt_ok c s p -> pkt_ok c s' p.
Proof.
  intros M Hp Hq Hr. destruct p as [wk v|ch]; cbn [pkt_ok].
  - intros [H|[H|[H|H]]].
    + left; eapply user_msg_mono; eauto.
    + auto.
    + right; right; left. destruct H as (H1 & n & H2 & H3 & H4). split; auto. exists n.
      repeat split; auto; try lia. apply (m_rids _ _ M); auto.
    + right; right; right. destruct H as (H1 & n & H2 & H3 & H4 & H5). split; auto. exists n.
      repeat split; auto; try lia. intros Hrace. destruct (Hr H4 Hrace) as [E1 E2].
      rewrite E2. auto.
  - intros (wk & v & i & H & H2). exists wk, v, i. split; auto. eapply user_msg_mono; eauto.
Qed.

(** * Receiving *)

Definition Post (ce cp : config) (e p e' : endpoint) : Prop :=
  Mono e e' /\ SInv ce e' /\ RInv cp p e'.

Lemma post_refl ce cp e p : SInv ce e -> RInv cp p e -> Post ce cp e p e.
Proof. intros; split; [apply mono_refl|auto]. Qed.

Lemma mono_trans a b c : Mono a b -> Mono b c -> Mono a c.
Proof.
  intros H1 H2. destruct H1, H2. constructor; eauto using incl_tran.
Qed.

Lemma post_trans ce cp e p e1 e2 : Post ce cp e p e1 -> Post ce cp e1 p e2 -> Post ce cp e p e2.
Proof. intros (H1 & _) (H4 & H5 & H6). split; [eapply mono_trans; eauto|auto]. Qed.

Lemma wire_ok ce cp e p ps :
  SInv ce e -> RInv cp p e -> (forall x, In x ps -> pkt_ok ce e x) ->
  Post ce cp e p (set_wire (wire e ++ ps) e).
Proof.
  intros S R Hp. split; [|split].
  - constructor; ep; auto using incl_refl. apply incl_appl, incl_refl.
  - destruct S. constructor; ep; auto.
    intros x Hx. apply in_app_iff in Hx as [Hx|Hx].
    + change (pkt_ok ce e x); auto.
    + change (pkt_ok ce e x); auto.
  - destruct R. constructor; ep; auto.
Qed.

Lemma send_ack_ok ce cp e p n :
  SInv ce e -> RInv cp p e -> SInv cp p ->
  (0 < n -> contains (received_msg_ids e) n = true) ->
  Post ce cp e p (send_ack n e).
Proof.
  intros S R Sp Hn. unfold send_ack. destruct (0 <? n) eqn:E; [|apply post_refl; auto].
  apply Z.ltb_lt in E. specialize (Hn E). apply wire_ok; auto.
  intros x [<-|[]]. cbn [pkt_ok]. right; right; left. split; auto. exists n. split; auto.
  destruct (r_ids _ _ _ R n Hn) as [H1 H2]. destruct (s_sub _ _ Sp n H2) as (k & v & H3).
  pose proof (s_log _ _ Sp _ _ _ H3) as (H4 & _). pose proof (s_seq _ _ Sp). split; [lia|auto].
Qed.

Lemma places_app_recv t x :
  Permutation (ids (recv_msgs t ++ [x]) ++ ids (log_returned t) ++ log_skipped t ++ log_dropped t)
              (snd (snd x) :: places t).
Proof.
  unfold ids, places. rewrite map_app. simpl. rewrite <- app_assoc. simpl.
  symmetry. apply Permutation_middle.
Qed.

Lemma perm_snoc_mid {A} (a b c : list A) x : Permutation (a ++ (b ++ [x]) ++ c) (x :: a ++ b ++ c).
Proof.
  transitivity (a ++ x :: b ++ c).
  - apply Permutation_app_head. rewrite <- app_assoc. simpl. symmetry. apply Permutation_middle.
  - symmetry. apply Permutation_middle.
Qed.

Lemma pos_cons_nodup n l : (0 < n -> ~ In n l) -> NoDup (pos l) -> NoDup (pos (n :: l)).
Proof.
  intros H1 H2. unfold pos in *. simpl. destruct (0 <? n) eqn:E; auto.
  apply Z.ltb_lt in E. constructor; auto. intros H. apply filter_In in H as [H _]. apply H1 in E. auto.
Qed.

Lemma throttle_mono c s s' :
  log_submitted s' = log_submitted s -> throttled s' = throttled s -> sender_dead s' = sender_dead s ->
  (send_stopped s' = false -> send_stopped s = false) ->
  count (received_ack_ids s) <= count (received_ack_ids s') ->
  throttle_inv c s -> throttle_inv c s'.
Proof.
  unfold throttle_inv. intros -> -> -> Hst Hc H Hw Hs. specialize (H Hw (Hst Hs)).
  destruct (throttled s) as [m|].
  - intros n Hn. destruct (H n Hn); [auto|right; lia].
  - destruct (sender_dead s).
    + destruct H as [m H]. exists m. intros n Hn. destruct (H n Hn); [auto|right; lia].
    + intros n Hn. specialize (H n Hn). lia.
Qed.

(** A change of the received-id set alone. *)
Lemma sinv_rids ce e t' :
  SInv ce e -> Inv t' ->
  (forall n, contains (received_msg_ids e) n = true -> contains t' n = true) ->
  SInv ce (set_received_msg_ids t' e).
Proof.
  intros S Hi Hm.
  assert (M : Mono e (set_received_msg_ids t' e)) by (constructor; ep; auto using incl_refl).
  pose proof (fun x => pkt_mono ce e (set_received_msg_ids t' e) x M (or_introl eq_refl) (Z.le_refl _)
               (fun _ H => conj H eq_refl)) as Hpk.
  destruct S. constructor; auto.
Qed.

(** Delivery of a fresh positive id: first the id is recorded ... *)
Lemma on_normal_user ce cp e p key v :
  SInv ce e -> SInv cp p -> RInv cp p e -> user_msg p key v ->
  Post ce cp e p (on_normal_message key v e).
Proof.
  intros S Sp R (n & k & Hlog & Hsub & ->).
  pose proof (s_log _ _ Sp _ _ _ Hlog) as (Hn & Hk & _). pose proof (s_seq _ _ Sp) as Hseq.
  unfold on_normal_message. rewrite split_build by (auto; lia).
  replace (0 <? n) with true by (symmetry; apply Z.ltb_lt; lia).
  destruct (insert (received_msg_ids e) n) as [t' b] eqn:Ei.
  destruct (insert_contains _ n _ _ (s_rids _ _ S) ltac:(lia) Ei) as (Hi' & Hb & Hc).
  set (e1 := set_received_msg_ids t' e).
  assert (M1 : Mono e e1).
  { constructor; unfold e1; ep; auto using incl_refl. intros y Hy. apply Hc; auto. }
  assert (S1 : SInv ce e1) by (apply sinv_rids; auto; intros y Hy; apply Hc; auto).
  destruct b.
  2:{ (* duplicate id: nothing changes *)
    assert (Hold : contains (received_msg_ids e) n = true).
    { destruct (contains (received_msg_ids e) n); auto. exfalso. destruct Hb as [_ Hb].
      specialize (Hb eq_refl). discriminate. }
    assert (Hiff : forall y, contains t' y = true <-> contains (received_msg_ids e) y = true).
    { intros y. rewrite Hc. split; [intros [H| ->]; auto|auto]. }
    split; [exact M1|split; [exact S1|]]. destruct R. constructor; unfold e1; ep; auto.
    - intros y Hy. apply r_ids0, Hiff; auto.
    - intros y Hy. rewrite Hiff. apply r_places0; auto.
    - intros Hph. destruct (r_finok0 Hph). split; auto. intros y Hy. apply Hiff; auto. }
  assert (Hnew : contains (received_msg_ids e) n = false) by (apply Hb; auto).
  assert (Hnp : ~ In n (places e)).
  { intros H. apply (r_places _ _ _ R) in H; [congruence|lia]. }
  assert (Hnids : forall y, contains t' y = true -> 1 <= y /\ In y (log_submitted p)).
  { intros y Hy. apply Hc in Hy as [Hy| ->]; [apply (r_ids _ _ _ R); auto|]. split; [lia|auto]. }
  (* what is common to the three outcomes *)
  assert (Hcommon : forall e2,
    received_msg_ids e2 = t' -> log_returned e2 = log_returned e ->
    (forall x, In x (recv_msgs e2) -> In x (recv_msgs e) \/ x = (k, (v, n))) ->
    NoDup (map fst (recv_msgs e2)) -> Permutation (places e2) (n :: places e) ->
    chunked_values e2 = chunked_values e -> reassembled e2 = reassembled e ->
    received_ack_ids e2 = received_ack_ids e -> received_fin e2 = received_fin e ->
    peer_sent_msg_count e2 = peer_sent_msg_count e -> hit_ub e2 = hit_ub e ->
    finish_phase e2 = finish_phase e -> log_race e2 = log_race e -> msg_seq_id e2 = msg_seq_id e ->
    RInv cp p e2).
  { intros e2 E1 E2 Hrecv Hkeys Hperm E3 E4 E5 E6 E7 E8 E9 E10 E11. destruct R. constructor.
    - rewrite E1. auto.
    - intros k0 v0 n0 H. rewrite E2 in H. apply in_app_iff in H as [H|H].
      + apply Hrecv in H as [H|H]; [apply r_msgs0; apply in_or_app; auto|].
        inversion H; subst. right; split; [lia|auto].
      + apply r_msgs0; apply in_or_app; auto.
    - intros y Hy. rewrite E1, Hc. rewrite (r_places0 y Hy). split.
      + intros H. apply (Permutation_in _ (Permutation_sym Hperm)). simpl. intuition.
      + intros H. apply (Permutation_in _ Hperm) in H. simpl in H. intuition.
    - eapply Permutation_NoDup; [apply filter_perm, Permutation_sym, Hperm|].
      apply pos_cons_nodup; auto.
    - auto.
    - rewrite E3; auto.
    - rewrite E4; auto.
    - rewrite E5; auto.
    - rewrite E6, E7; auto.
    - rewrite E8; auto.
    - rewrite E9, E6, E7, E1. intros Hph. destruct (r_finok0 Hph). split; auto.
      intros y Hy. apply Hc; auto.
    - rewrite E9, E10, E11, E5. auto. }
  change (waiting_finish e1) with (waiting_finish e).
  destruct (waiting_finish e) eqn:Ew.
  - (* closing: acknowledged, not stored *)
    set (e2 := set_log_skipped (log_skipped e1 ++ [n]) e1).
    assert (R2 : RInv cp p e2).
    { apply Hcommon; unfold e2, e1; ep; auto.
      - apply (r_keys _ _ _ R).
      - unfold places; ep.
        rewrite (app_assoc (ids (recv_msgs e)) (ids (log_returned e)) ((log_skipped e ++ [n]) ++ log_dropped e)).
        rewrite (app_assoc (ids (recv_msgs e)) (ids (log_returned e)) (log_skipped e ++ log_dropped e)).
        apply perm_snoc_mid. }
    assert (S2 : SInv ce e2).
    { destruct S1. unfold e2. constructor; auto. }
    eapply post_trans; [split; [|split; [exact S2|exact R2]]|].
    + eapply mono_trans; [exact M1|]. unfold e2; constructor; ep; auto using incl_refl.
    + apply send_ack_ok; auto. intros _. unfold e2, e1; ep. apply Hc; auto.
  - change (recv_msgs e1) with (recv_msgs e).
    destruct (msg_find k (recv_msgs e)) as [old|] eqn:Ef.
    + (* the key is still unread: the message is dropped *)
      split; [|split].
      * eapply mono_trans; [exact M1|]. constructor; ep; auto using incl_refl.
      * destruct S1. constructor; auto.
      * apply Hcommon; unfold e1; ep; auto.
        -- apply (r_keys _ _ _ R).
        -- unfold places; ep. rewrite !app_assoc.
           symmetry. etransitivity; [apply Permutation_cons_append|]. auto.
    + split; [|split].
      * eapply mono_trans; [exact M1|]. constructor; ep; auto using incl_refl.
      * destruct S1. constructor; auto.
      * apply Hcommon; unfold e1; ep; auto.
        -- intros x Hx. apply in_app_iff in Hx as [Hx|[<-|[]]]; auto.
        -- rewrite map_app. simpl. apply Permutation_NoDup with (l := k :: map fst (recv_msgs e)).
           ++ apply Permutation_cons_append.
           ++ constructor; [apply msg_find_none; auto|apply (r_keys _ _ _ R)].
        -- unfold places at 1; ep. apply (places_app_recv e (k, (v, n))).
Qed.

Lemma on_normal_connect ce cp e p :
  normal_key_ok (connect_key cp) = true ->
  SInv ce e -> RInv cp p e ->
  Post ce cp e p (on_normal_message (build_channel_key (connect_key cp) 0) [] e).
Proof.
  intros Hk S R. unfold on_normal_message. rewrite split_build by (auto; lia).
  replace (0 <? 0) with false by reflexivity.
  destruct (waiting_finish e); [apply post_refl; auto|].
  destruct (msg_find (connect_key cp) (recv_msgs e)) eqn:Ef; [apply post_refl; auto|].
  split; [constructor; ep; auto using incl_refl|split].
  - destruct S. constructor; auto.
  - destruct R. constructor; ep; auto.
    + intros k v n H. rewrite <- app_assoc in H. apply in_app_iff in H as [H|[H|H]].
      * apply r_msgs0. apply in_or_app; auto.
      * inversion H; subst. auto.
      * apply r_msgs0. apply in_or_app; auto.
    + intros n Hn. rewrite (r_places0 n Hn). unfold places at 2; ep.
      split; intros H.
      * apply (Permutation_in _ (Permutation_sym (places_app_recv e (connect_key cp, ([], 0))))). simpl; auto.
      * apply (Permutation_in _ (places_app_recv e (connect_key cp, ([], 0)))) in H. simpl in H.
        destruct H as [H|H]; [lia|auto].
    + eapply Permutation_NoDup;
        [apply filter_perm, Permutation_sym, (places_app_recv e (connect_key cp, ([], 0)))|].
      apply pos_cons_nodup; auto. simpl; lia.
    + rewrite map_app. simpl. apply Permutation_NoDup with (l := connect_key cp :: map fst (recv_msgs e)).
      * apply Permutation_cons_append.
      * constructor; [apply msg_find_none; auto|auto].
Qed.

Lemma kFin_not_ack : bytes_eqb kFinKey kAckKey = false.
Proof. reflexivity. Qed.

Lemma on_message_ok ce cp e p key v :
  normal_key_ok (connect_key cp) = true ->
  SInv ce e -> SInv cp p -> RInv cp p e ->
  (In (PMono key v) (wire p) \/ user_msg p key v) ->
  Post ce cp e p (on_message key v e).
Proof.
  intros Hk S Sp R Hsrc.
  assert (Hpk : pkt_ok cp p (PMono key v)).
  { destruct Hsrc as [H|H]; [apply (s_wire _ _ Sp); auto|left; auto]. }
  assert (Huser : user_msg p key v -> Post ce cp e p (on_message key v e)).
  { intros Hu. pose proof Hu as (n & k & Hlog & Hsub & ->).
    pose proof (s_log _ _ Sp _ _ _ Hlog) as (Hn & Hkk & _). pose proof (s_seq _ _ Sp) as Hseq.
    destruct (build_not_ctl k n Hkk ltac:(lia)) as [H1 H2].
    unfold on_message. rewrite (proj2 (bytes_eqb_neq _ _) H1), (proj2 (bytes_eqb_neq _ _) H2).
    apply on_normal_user; auto. }
  destruct Hsrc as [Hw|Hu]; [|auto].
  cbn [pkt_ok] in Hpk. destruct Hpk as [Hu|[[-> ->]|[(-> & n & -> & Hn & Hc)|(-> & n & -> & Hn & _)]]].
  - auto.
  - destruct (build_not_ctl (connect_key cp) 0 Hk ltac:(lia)) as [H1 H2].
    unfold on_message. rewrite (proj2 (bytes_eqb_neq _ _) H1), (proj2 (bytes_eqb_neq _ _) H2).
    apply on_normal_connect; auto.
  - unfold on_message. rewrite bytes_eqb_refl, view_to_string by lia.
    destruct (insert (received_ack_ids e) n) as [t' b] eqn:Ei.
    destruct (insert_contains _ n _ _ (s_aids _ _ S) ltac:(lia) Ei) as (Hi' & _ & Hc').
    pose proof (insert_count_le (received_ack_ids e) n) as Hcnt. rewrite Ei in Hcnt.
    cbn [fst] in *.
    split; [constructor; ep; auto using incl_refl|split].
    + destruct S. constructor; auto.
      apply (throttle_mono ce e); ep; auto.
    + destruct R. constructor; ep; auto.
      * intros y Hy. apply Hc' in Hy as [Hy| ->]; [auto|split; [lia|auto]].
      * intros Hph Hr y Hy. apply Hc'; auto.
  - unfold on_message. rewrite kFin_not_ack, bytes_eqb_refl.
    destruct (received_fin e) eqn:Ef; [apply post_refl; auto|].
    pose proof (s_seq _ _ Sp) as Hseq. rewrite view_to_string by lia.
    split; [constructor; ep; auto using incl_refl|split].
    + destruct S. constructor; auto.
    + destruct R. constructor; ep; auto.
      * intros _. split; [auto|lia].
      * intros Hph. destruct (r_finok0 Hph) as [Hx _]. congruence.
Qed.

Lemma build_key_user s c wk v v' : SInv c s -> user_msg s wk v -> user_msg s wk v' -> v = v'.
Proof.
  intros S (n & k & H1 & _ & E1) (n' & k' & H2 & _ & E2).
  pose proof (s_log _ _ S _ _ _ H1) as (B1 & K1 & _). pose proof (s_log _ _ S _ _ _ H2) as (B2 & K2 & _).
  pose proof (s_seq _ _ S).
  rewrite E1 in E2. apply build_inj in E2 as [-> ->]; auto; try lia.
  assert (Hnd : NoDup (map fst (log_sent s))).
  { rewrite (s_logids _ _ S). generalize (Z.to_nat (msg_seq_id s)) 1. clear.
    induction n as [|n IH]; intros a; simpl; constructor; auto.
    rewrite zrange_in. lia. }
  clear - Hnd H1 H2. induction (log_sent s) as [|[a b] l IH]; simpl in *; [tauto|].
  inversion Hnd as [|x y Hx Hy]; subst.
  destruct H1 as [H1|H1], H2 as [H2|H2].
  - congruence.
  - exfalso. inversion H1; subst. apply Hx. apply in_map_iff. exists (n', (k', v')); auto.
  - exfalso. inversion H2; subst. apply Hx. apply in_map_iff. exists (n', (k', v)); auto.
  - auto.
Qed.

Lemma on_request_ok ce cp e p pk :
  normal_key_ok (connect_key cp) = true -> (0 < chunk_bytes cp)%nat ->
  SInv ce e -> SInv cp p -> RInv cp p e -> In pk (wire p) ->
  Post ce cp e p (on_request ce pk e).
Proof.
  intros Hk Hb S Sp R Hin. destruct pk as [key v|ch]; cbn [on_request].
  - apply on_message_ok; auto.
  - pose proof (s_wire _ _ Sp _ Hin) as (wk & v & i & Hu & -> & Hi).
    assert (Hsz : Z.of_nat (length v) < 2 ^ 63).
    { destruct Hu as (n & k & Hlog & _). apply (s_log _ _ Sp) in Hlog. tauto. }
    assert (Hi' : (i * chunk_bytes cp < length v)%nat) by (apply num_chunks_spec; auto).
    set (b := chunk_bytes cp) in *.
    pose proof (chunk_data_length wk v b i Hi') as Hlen.
    assert (Hentry : exists m S0, match tab_find wk (chunked_values e) with
                | Some m => Ok m | None => new_cmsg (junk_mem ce) (Z.of_nat (length v)) end = Ok m
              /\ partial_ok b v S0 m).
    { destruct (tab_find wk (chunked_values e)) as [m|] eqn:Ef.
      - destruct (r_tab _ _ _ R wk m Ef) as (v' & S0 & Hu' & Hp).
        rewrite (build_key_user p cp wk v v' Sp Hu Hu'). eauto.
      - destruct (partial_new b v (junk_mem ce) Hsz) as (m & E & Hm). eauto. }
    destruct Hentry as (m & S0 & Em & Hm).
    destruct (partial_add b v _ m wk i Hb Hi Hm) as (m' & Ea & Hm').
    assert (Hstep : on_chunk (junk_mem ce) (chunked_values e) (chunk_at wk v b i) =
             if is_fully_filled m' then Ok (tab_erase wk (chunked_values e), Some (message m'))
             else Ok ((wk, m') :: tab_erase wk (chunked_values e), None)).
    { unfold on_chunk. change (c_key (chunk_at wk v b i)) with wk.
      change (c_total (chunk_at wk v b i)) with (Z.of_nat (length v)).
      change (c_offset (chunk_at wk v b i)) with (Z.of_nat (i * b)).
      replace (_ <? _) with false.
      2:{ symmetry. apply Z.ltb_ge. unfold zlen. rewrite Hlen. rewrite Z.mod_small; lia. }
      rewrite Em. unfold to_int64.
      replace (Z.of_nat (i * b) <? 2 ^ 63) with true by (symmetry; apply Z.ltb_lt; lia).
      rewrite Ea. reflexivity. }
    rewrite Hstep. change (c_key (chunk_at wk v b i)) with wk.
    assert (Hold : forall wk' m0, wk' <> wk -> tab_find wk' (tab_erase wk (chunked_values e)) = Some m0 ->
              exists v S, user_msg p wk' v /\ partial_ok b v S m0).
    { intros wk' m0 Hne Hf. rewrite tab_find_erase_other in Hf by auto. apply (r_tab _ _ _ R); auto. }
    destruct (is_fully_filled m') eqn:Eff.
    + rewrite (partial_full_message b v _ m' Hb Hm' Eff).
      split; [constructor; ep; auto using incl_refl|split].
      * destruct S. constructor; auto.
      * destruct R. constructor; ep; auto.
        -- intros wk' m0 Hf. destruct (bytes_dec wk' wk) as [-> |Hne].
           ++ rewrite tab_find_erase_same in Hf. discriminate.
           ++ eauto.
        -- intros wk' v' Hin'. apply in_app_iff in Hin' as [Hin'|[Heq|[]]]; auto.
           inversion Heq; subst; auto.
    + split; [constructor; ep; auto using incl_refl|split].
      * destruct S. constructor; auto.
      * destruct R. constructor; ep; auto.
        intros wk' m0 Hf. cbn [tab_find] in Hf. destruct (bytes_eqb wk' wk) eqn:Eq.
        -- apply bytes_eqb_eq in Eq. inversion Hf; subst. eauto.
        -- apply bytes_eqb_neq in Eq. eauto.
Qed.

Local Opaque Z.pow Z.add Z.sub to_string build_channel_key.

Ltac epg :=
  cbn [set_msg_seq_id set_admitted set_assigned set_send_queue set_throttled set_sender_dead
       set_send_stopped set_recv_msgs set_received_msg_ids set_received_ack_ids set_received_fin
       set_peer_sent_msg_count set_waiting_finish set_aborting set_chunked_values set_reassembled
       set_finish_phase set_wire set_hit_ub set_log_sent set_log_submitted set_log_returned
       set_log_skipped set_log_dropped set_log_race
       msg_seq_id admitted assigned send_queue throttled sender_dead send_stopped recv_msgs
       received_msg_ids received_ack_ids received_fin peer_sent_msg_count waiting_finish aborting
       chunked_values reassembled finish_phase wire hit_ub log_sent log_submitted log_returned
       log_skipped log_dropped log_race fst snd].

Ltac mono_tac := constructor; epg;
  [first [apply incl_refl|apply incl_appl, incl_refl] | first [apply incl_refl|apply incl_appl, incl_refl]
  |first [apply incl_refl|apply incl_appl, incl_refl] | auto].

Ltac sinv S := constructor; epg;
  [ try exact (s_seq _ _ S) | try exact (s_log _ _ S) | try exact (s_logids _ _ S) | try exact (s_adm _ _ S)
  | try exact (s_asg _ _ S) | try exact (s_nodup _ _ S) | try exact (s_sub _ _ S) | try exact (s_wire _ _ S)
  | try exact (s_rids _ _ S) | try exact (s_aids _ _ S) | try exact (s_phase _ _ S) | try exact (s_race _ _ S)
  | try exact (s_thr _ _ S) ].

Ltac rinv R := constructor; epg;
  [ try exact (r_ids _ _ _ R) | try exact (r_msgs _ _ _ R) | try exact (r_places _ _ _ R)
  | try exact (r_nodup _ _ _ R) | try exact (r_keys _ _ _ R) | try exact (r_tab _ _ _ R)
  | try exact (r_reasm _ _ _ R) | try exact (r_acks _ _ _ R) | try exact (r_fin _ _ _ R)
  | try exact (r_ub _ _ _ R) | try exact (r_finok _ _ _ R) | try exact (r_ackok _ _ _ R) ].

(** * All events *)

Lemma zrange_snoc a n : zrange a (S n) = zrange a n ++ [a + Z.of_nat n].
Proof.
  revert a; induction n as [|n IH]; intros a.
  - simpl. repeat f_equal. lia.
  - change (zrange a (S (S n))) with (a :: zrange (a + 1) (S n)).
    rewrite IH. change (zrange a (S n)) with (a :: zrange (a + 1) n). cbn [app].
    do 2 f_equal. f_equal. lia.
Qed.

Lemma pos_pos l : pos (pos l) = pos l.
Proof.
  unfold pos. induction l as [|x l IH]; cbn [filter]; auto.
  destruct (0 <? x) eqn:Ex; cbn [filter]; [rewrite Ex; f_equal; auto|auto].
Qed.

Definition ack_packets (l : list (bytes * (bytes * Z))) : list packet :=
  flat_map (fun x => if 0 <? snd (snd x) then [PMono kAckKey (to_string (snd (snd x)))] else []) l.

Lemma set_wire_same e : set_wire (wire e) e = e.
Proof. destruct e; reflexivity. Qed.

Lemma fold_ack l e :
  fold_left (fun e' x => send_ack (snd (snd x)) e') l e = set_wire (wire e ++ ack_packets l) e.
Proof.
  revert e; induction l as [|x l IH]; intros e; simpl.
  - rewrite app_nil_r, set_wire_same. auto.
  - rewrite IH. unfold send_ack. destruct (0 <? snd (snd x)).
    + epg. rewrite <- app_assoc. reflexivity.
    + reflexivity.
Qed.

Lemma submit_ok ce cp e p m r thr :
  (0 < chunk_bytes ce)%nat ->
  SInv ce e -> RInv cp p e -> send_queue e = m :: r ->
  throttle_inv ce (submit ce m (set_throttled thr (set_send_queue r e))) ->
  Post ce cp e p (submit ce m (set_throttled thr (set_send_queue r e))).
Proof.
  intros Hb S R Hq Ht. destruct m as [n [wk v]].
  set (e' := submit ce _ _) in *.
  assert (Hin : In (n, (wk, v)) (assigned e ++ send_queue e)).
  { apply in_or_app; right. rewrite Hq; simpl; auto. }
  destruct (s_asg _ _ S _ _ _ Hin) as (k & Hlog & ->).
  assert (M : Mono e e').
  { unfold e', submit; mono_tac. }
  assert (Hu : user_msg e' (build_channel_key k n) v).
  { exists n, k. unfold e', submit; epg. split; [auto|split; [|auto]]. apply in_or_app; simpl; auto. }
  split; [exact M|split].
  - unfold e', submit; sinv S.
    + intros n0 wk0 v0 H0. apply (s_asg _ _ S). rewrite Hq. apply in_app_iff in H0.
      apply in_or_app. simpl. intuition.
    + pose proof (s_nodup _ _ S) as Hnd. rewrite Hq in Hnd. eapply Permutation_NoDup; [|exact Hnd].
      rewrite !map_app. simpl. rewrite <- !app_assoc. apply Permutation_app_head.
      simpl. rewrite app_assoc. apply Permutation_cons_append.
    + intros n0 H0. apply in_app_iff in H0 as [H0|[<-|[]]]; [apply (s_sub _ _ S); auto|eauto].
    + intros x Hx. apply in_app_iff in Hx as [Hx|Hx].
      * apply (pkt_mono ce e); [exact M|left; reflexivity|apply Z.le_refl|auto|apply (s_wire _ _ S); auto].
      * unfold packets_of in Hx. destruct (Nat.ltb _ _).
        -- apply in_map_iff in Hx as (ch & <- & Hch). unfold send_chunked in Hch.
           apply in_map_iff in Hch as (i & <- & Hi). apply in_seq in Hi. cbn [pkt_ok].
           exists (build_channel_key k n), v, i. split; [exact Hu|split; [auto|lia]].
        -- destruct Hx as [<-|[]]. left. exact Hu.
    + exact Ht.
  - rinv R.
Qed.

Lemma throttle_submit_none ce e m r :
  send_stopped e = true -> throttle_inv ce (submit ce m (set_throttled None (set_send_queue r e))).
Proof. intros H _ H2. change (send_stopped e = false) in H2. congruence. Qed.

Lemma exec_ep_ok ce cp e p ev e' :
  normal_key_ok (connect_key ce) = true -> normal_key_ok (connect_key cp) = true ->
  (0 < chunk_bytes ce)%nat -> (0 < chunk_bytes cp)%nat ->
  SInv ce e -> SInv cp p -> RInv cp p e ->
  exec_ep ce (wire p) ev e = Some e' -> Post ce cp e p e'.
Proof.
  intros Hke Hkp Hbe Hbp S Sp R H.
  pose proof (s_log _ _ S) as Gs_log.
  pose proof (s_adm _ _ S) as Gs_adm.
  pose proof (s_asg _ _ S) as Gs_asg.
  pose proof (s_sub _ _ S) as Gs_sub.
  pose proof (s_wire _ _ S) as Gs_wire.
  pose proof (s_rids _ _ S) as Gs_rids.
  pose proof (s_aids _ _ S) as Gs_aids.
  pose proof (s_phase _ _ S) as Gs_phase.
  pose proof (s_race _ _ S) as Gs_race.
  pose proof (r_ids _ _ _ R) as Gr_ids.
  pose proof (r_msgs _ _ _ R) as Gr_msgs.
  pose proof (r_places _ _ _ R) as Gr_places.
  pose proof (r_nodup _ _ _ R) as Gr_nodup.
  pose proof (r_keys _ _ _ R) as Gr_keys.
  pose proof (r_tab _ _ _ R) as Gr_tab.
  pose proof (r_reasm _ _ _ R) as Gr_reasm.
  pose proof (r_acks _ _ _ R) as Gr_acks.
  pose proof (r_fin _ _ _ R) as Gr_fin.
  pose proof (r_ub _ _ _ R) as Gr_ub.
  pose proof (r_finok _ _ _ R) as Gr_finok.
  pose proof (r_ackok _ _ _ R) as Gr_ackok.
  destruct ev; cbn [exec_ep] in H; unfold guard in H.
  - (* ECheck *)
    destruct (negb (aborting e) && negb (waiting_finish e) && normal_key_ok k && (zlen v <? 2 ^ 63))%bool
      eqn:E; [|discriminate].
    inversion H; subst; clear H. apply andb_true_iff in E as [E E4]. apply andb_true_iff in E as [E E3].
    apply andb_true_iff in E as [E1 E2]. apply negb_true_iff in E2. apply Z.ltb_lt in E4.
    split; [mono_tac|split].
    + sinv S.
      * intros k0 v0 H0. apply in_app_iff in H0 as [H0|[H0|[]]]; auto. inversion H0; subst; auto.
      * intros Hph _. rewrite (s_phase _ _ S) in E2 by lia. discriminate.
    + rinv R.
  - (* EAssign *)
    destruct (nth_error (admitted e) i) as [[k v]|] eqn:En; [|discriminate].
    destruct (msg_seq_id e + 1 <? 2 ^ 64 - 1) eqn:Eb; [|discriminate]. apply Z.ltb_lt in Eb.
    inversion H; subst; clear H.
    pose proof (nth_error_In _ _ En) as Hadm.
    destruct (s_adm _ _ S _ _ Hadm) as [Hk Hv].
    assert (Hnr : 2 <= finish_phase e -> log_race e = false -> False).
    { intros H1 H2. rewrite (s_race _ _ S H1 H2) in Hadm. destruct Hadm. }
    set (e1 := set_log_sent _ _).
    assert (M : Mono e e1).
    { unfold e1; mono_tac. }
    pose proof (s_seq _ _ S) as Hseq.
    split; [exact M|split].
    + assert (Hpk : forall x, In x (wire e) -> pkt_ok ce e1 x).
      { intros x Hx. apply (pkt_mono ce e); [exact M|left; reflexivity|unfold e1; epg; lia| |apply (s_wire _ _ S); assumption].
        intros H1 H2. destruct (Hnr H1 H2). }
      unfold e1; sinv S.
      * lia.
      * intros n k0 v0 H0. apply in_app_iff in H0 as [H0|[H0|[]]].
        -- apply (s_log _ _ S) in H0. intuition lia.
        -- inversion H0; subst. repeat split; auto; lia.
      * rewrite map_app, (s_logids _ _ S). cbn [map fst].
        replace (Z.to_nat (msg_seq_id e + 1)) with (Datatypes.S (Z.to_nat (msg_seq_id e))) by lia.
        rewrite zrange_snoc. f_equal. f_equal. lia.
      * intros k0 v0 H0. apply remove_nth_in in H0. auto.
      * intros n wk v0 H0. rewrite <- app_assoc in H0. apply in_app_iff in H0.
        cbn [app In] in H0. destruct H0 as [H0|[H0|H0]].
        -- destruct ((s_asg _ _ S) n wk v0) as (k0 & H1 & H2); [apply in_or_app; auto|].
           exists k0; split; auto. apply in_or_app; auto.
        -- inversion H0; subst. exists k; split; auto. apply in_or_app; simpl; auto.
        -- destruct ((s_asg _ _ S) n wk v0) as (k0 & H1 & H2); [apply in_or_app; auto|].
           exists k0; split; auto. apply in_or_app; auto.
      * eapply Permutation_NoDup with (l := (msg_seq_id e + 1) :: map fst (assigned e ++ send_queue e) ++ log_submitted e).
        -- rewrite !map_app. simpl. rewrite <- !app_assoc. simpl.
           apply Permutation_middle.
        -- constructor; [|exact (s_nodup _ _ S)]. intros H0. apply in_app_iff in H0 as [H0|H0].
           ++ apply in_map_iff in H0 as ([n [wk v0]] & E0 & H0). simpl in E0. subst n.
              destruct ((s_asg _ _ S) _ _ _ H0) as (k0 & H1 & _). apply (s_log _ _ S) in H1. lia.
           ++ destruct ((s_sub _ _ S) _ H0) as (k0 & v0 & H1). apply (s_log _ _ S) in H1. lia.
      * intros n H0. destruct ((s_sub _ _ S) n H0) as (k0 & v0 & H1). exists k0, v0. apply in_or_app; auto.
      * exact Hpk.
      * intros H1 H2. destruct (Hnr H1 H2).
    + unfold e1; rinv R.
      intros H1 H2. destruct (Hnr ltac:(lia) H2).
  - (* EPush *)
    destruct (nth_error (assigned e) i) as [m|] eqn:En; [|discriminate].
    inversion H; subst; clear H. pose proof (remove_nth_perm _ _ _ En) as Hp.
    assert (Hperm : Permutation (remove_nth i (assigned e) ++ send_queue e ++ [m]) (assigned e ++ send_queue e)).
    { rewrite app_assoc. etransitivity; [symmetry; apply Permutation_cons_append|].
      change (m :: remove_nth i (assigned e) ++ send_queue e) with ((m :: remove_nth i (assigned e)) ++ send_queue e).
      apply Permutation_app_tail. symmetry. auto. }
    split; [mono_tac|split].
    + sinv S.
      * intros n wk v H0. apply (s_asg _ _ S). apply (Permutation_in _ Hperm); auto.
      * eapply Permutation_NoDup; [|exact (s_nodup _ _ S)].
        apply Permutation_app_tail, Permutation_map. symmetry; auto.
    + rinv R.
  - (* EPop *)
    destruct (throttled e) eqn:Et; [discriminate|]. destruct (sender_dead e) eqn:Ed; [discriminate|].
    destruct (send_queue e) as [|m r] eqn:Eq; [discriminate|].
    inversion H; subst; clear H. apply submit_ok; auto.
    pose proof (s_thr _ _ S) as Ht. unfold throttle_inv in *. unfold submit; epg.
    intros Hw Hs. specialize (Ht Hw Hs). rewrite Et, Ed in Ht.
    replace (window ce =? 0) with false by (symmetry; apply Z.eqb_neq; lia).
    intros n Hn. apply in_app_iff in Hn as [Hn|[Hn|[]]]; auto.
  - (* EThrottleOk *)
    destruct (throttled e) as [n|] eqn:Et; [|discriminate].
    destruct (negb _) eqn:Eb; [|discriminate]. inversion H; subst; clear H.
    apply negb_true_iff in Eb. apply Z.leb_gt in Eb.
    pose proof (inv_count_nonneg _ (s_aids _ _ S)) as Hc.
    split; [mono_tac|split].
    + sinv S. pose proof (s_thr _ _ S) as Hthr. unfold throttle_inv in *; epg. rewrite Et in Hthr.
      intros Hw Hs. specialize (Hthr Hw Hs).
      pose proof (Z.mod_le (count (received_ack_ids e) + window ce) (2 ^ 64) ltac:(lia) ltac:(lia)).
      assert (Hall : forall n0, In n0 (log_submitted e) -> n0 < count (received_ack_ids e) + window ce).
      { intros n0 H0. destruct (Hthr n0 H0); lia. }
      destruct (sender_dead e); auto. exists 0; auto.
    + rinv R.
  - (* EThrottleFail *)
    destruct (throttled e) as [n|] eqn:Et; [|discriminate]. inversion H; subst; clear H.
    split; [mono_tac|split].
    + sinv S. pose proof (s_thr _ _ S) as Hthr. unfold throttle_inv in *; epg. rewrite Et in Hthr.
      intros Hw Hs. exists n; auto.
    + rinv R.
  - (* EDrain *)
    destruct (throttled e) eqn:Et; [discriminate|]. destruct (sender_dead e) eqn:Ed; [discriminate|].
    destruct (send_stopped e && negb (aborting e))%bool eqn:Es; [|discriminate].
    destruct (send_queue e) as [|m r] eqn:Eq; [discriminate|].
    apply andb_true_iff in Es as [Es _].
    assert (Ee : set_send_queue r e = set_throttled None (set_send_queue r e)).
    { unfold set_throttled, set_send_queue. epg. rewrite Et. reflexivity. }
    rewrite Ee in H. inversion H; subst; clear H. apply submit_ok; auto.
    apply throttle_submit_none; auto.
  - (* EDeliver *)
    destruct (nth_error (wire p) i) as [pk|] eqn:En; [|discriminate].
    destruct (negb (aborting e)); [|discriminate]. inversion H; subst; clear H.
    apply nth_error_In in En. apply on_request_ok; auto.
  - (* EReassembled *)
    destruct (nth_error (reassembled e) i) as [[k v]|] eqn:En; [|discriminate].
    inversion H; subst; clear H. apply nth_error_In in En.
    pose proof (r_reasm _ _ _ R _ _ En) as Hu.
    set (e1 := set_reassembled _ e).
    assert (P1 : Post ce cp e p e1).
    { split; [unfold e1; mono_tac|split].
      - sinv S.
      - unfold e1; rinv R.
        intros wk v0 H0. apply remove_nth_in in H0. auto. }
    eapply post_trans; [exact P1|]. destruct P1 as (_ & S1 & R1). apply on_message_ok; auto.
  - (* ERecv *)
    destruct (normal_key_ok k); [|discriminate].
    destruct (msg_find k (recv_msgs e)) as [[v n]|] eqn:Ef; [|discriminate].
    inversion H; subst; clear H.
    pose proof (msg_erase_perm _ _ _ (r_keys _ _ _ R) Ef) as Hp.
    set (e1 := set_log_returned _ _).
    assert (Hplaces : Permutation (places e1) (places e)).
    { unfold places, e1; epg.
      assert (Hids : Permutation (ids (recv_msgs e)) (n :: ids (msg_erase k (recv_msgs e)))).
      { unfold ids. apply (Permutation_map (fun x : list Z * (list Z * Z) => snd (snd x))) in Hp. exact Hp. }
      symmetry. etransitivity; [apply Permutation_app_tail, Hids|].
      unfold ids at 4. rewrite map_app. cbn [map snd]. symmetry.
      change (map (fun x : list Z * (list Z * Z) => snd (snd x)) (log_returned e)) with (ids (log_returned e)).
      apply perm_snoc_mid. }
    assert (P1 : Post ce cp e p e1).
    { split; [unfold e1; mono_tac|split].
      - sinv S.
      - unfold e1; rinv R.
        + intros k0 v0 n0 H0. apply in_app_iff in H0 as [H0|H0].
          * apply (r_msgs _ _ _ R). apply in_or_app; left. eapply msg_erase_incl; eauto.
          * apply in_app_iff in H0 as [H0|[H0|[]]]; [apply (r_msgs _ _ _ R); apply in_or_app; auto|].
            inversion H0; subst. apply (r_msgs _ _ _ R). apply in_or_app; left. apply msg_find_in; auto.
        + intros n0 H0. rewrite ((r_places _ _ _ R) n0 H0). split; apply Permutation_in; [symmetry|]; auto.
        + eapply Permutation_NoDup; [apply filter_perm; symmetry; exact Hplaces|auto].
        + apply msg_erase_keys; auto. }
    eapply post_trans; [exact P1|]. destruct P1 as (_ & S1 & R1). apply send_ack_ok; auto.
    intros Hn. unfold e1; epg. apply (r_places _ _ _ R); [lia|]. unfold places, ids.
    apply in_or_app; left. apply in_map_iff. exists (k, (v, n)); split; auto. apply msg_find_in; auto.
  - (* ETestSend *)
    destruct (negb (aborting e) && negb (waiting_finish e))%bool; [|discriminate].
    inversion H; subst; clear H. apply wire_ok; auto.
    intros x [<-|[]]. cbn [pkt_ok]. auto.
  - (* EStopReceiving *)
    destruct ((finish_phase e =? 0) && negb (aborting e))%bool eqn:E; [|discriminate].
    apply andb_true_iff in E as [E _]. apply Z.eqb_eq in E.
    rewrite fold_ack in H.
    assert (He : e' = set_finish_phase 1 (set_recv_msgs [] (set_log_skipped
               (log_skipped e ++ pos (ids (recv_msgs e)))
               (set_wire (wire e ++ ack_packets (recv_msgs e)) (set_waiting_finish true e))))).
    { inversion H; reflexivity. }
    subst e'; clear H. set (e1 := set_finish_phase _ _).
    assert (Hack : forall x, In x (ack_packets (recv_msgs e)) -> pkt_ok ce e x).
    { intros x Hx. unfold ack_packets in Hx. apply in_flat_map in Hx as ([k [v n]] & H1 & H2).
      cbn [fst snd] in H2. destruct (0 <? n) eqn:En; [|destruct H2]. apply Z.ltb_lt in En.
      destruct H2 as [<-|[]]. cbn [pkt_ok]. right; right; left. split; auto. exists n. split; auto.
      assert (Hn : contains (received_msg_ids e) n = true).
      { apply (r_places _ _ _ R); [lia|]. unfold places, ids. apply in_or_app; left.
        apply in_map_iff. exists (k, (v, n)); auto. }
      destruct (r_ids _ _ _ R n Hn) as [H3 H4]. destruct (s_sub _ _ Sp n H4) as (k1 & v1 & H5).
      pose proof (s_log _ _ Sp _ _ _ H5) as (H6 & _). pose proof (s_seq _ _ Sp). split; [lia|auto]. }
    assert (M : Mono e e1).
    { unfold e1; mono_tac. }
    assert (Hperm : Permutation (pos (places e1)) (pos (places e))).
    { unfold places, e1; epg. unfold pos, ids at 1. cbn [map app].
      rewrite !filter_app.
      fold (pos (ids (recv_msgs e))). change (filter (Z.ltb 0) (pos (ids (recv_msgs e)))) with (pos (pos (ids (recv_msgs e)))).
      rewrite pos_pos. unfold pos.
      set (A := filter _ (ids (recv_msgs e))). set (B := filter _ (ids (log_returned e))).
      set (C := filter _ (log_skipped e)). set (D := filter _ (log_dropped e)).
      rewrite (app_assoc B (C ++ A) D), (app_assoc B C A).
      rewrite (app_assoc B C D), (app_assoc A (B ++ C) D).
      apply Permutation_app_tail. apply Permutation_app_comm. }
    split; [exact M|split].
    + assert (Hpk : forall x, pkt_ok ce e x -> pkt_ok ce e1 x).
      { intros x Hx. apply (pkt_mono ce e); [exact M|right; unfold e1; epg; lia|unfold e1; epg; lia|unfold e1; epg; intros; first [lia|auto]|exact Hx]. }
      unfold e1; sinv S.
      * intros x Hx. apply Hpk. apply in_app_iff in Hx as [Hx|Hx]; auto.
      * auto.
      * intros; lia.
    + unfold e1; rinv R.
      * intros k v n H0. cbn [app] in H0. apply (r_msgs _ _ _ R). apply in_or_app; auto.
      * intros n Hn. rewrite ((r_places _ _ _ R) n Hn).
        assert (Hx : forall l, In n l <-> In n (pos l)) by (intros l; rewrite pos_in; intuition lia).
        rewrite (Hx (places e)), (Hx (places _)). split; apply Permutation_in; [symmetry|]; auto.
      * eapply Permutation_NoDup; [symmetry; exact Hperm|auto].
      * constructor.
      * lia.
      * lia.
  - (* EFin *)
    destruct (finish_phase e =? 1) eqn:E; [|discriminate]. apply Z.eqb_eq in E.
    inversion H; subst; clear H. set (e1 := set_finish_phase _ _).
    assert (M : Mono e e1).
    { unfold e1; mono_tac. }
    pose proof (s_seq _ _ S) as Hseq.
    split; [exact M|split].
    + assert (Hpk : forall x, pkt_ok ce e x -> pkt_ok ce e1 x).
      { intros x Hx. apply (pkt_mono ce e); [exact M|right; unfold e1; epg; lia|unfold e1; epg; lia|unfold e1; epg; intros; first [lia|auto]|exact Hx]. }
      unfold e1; sinv S.
      * intros x Hx. apply in_app_iff in Hx as [Hx|[<-|[]]]; auto.
        cbn [pkt_ok]. right; right; right. split; auto. exists (msg_seq_id e); epg.
        repeat split; auto; lia.
      * intros _. apply (s_phase _ _ S). lia.
      * intros _ Hr. destruct (admitted e); [auto|discriminate].
    + unfold e1; rinv R; lia.
  - (* EFinOk *)
    destruct ((finish_phase e =? 2) && received_fin e && all_arrived (received_msg_ids e) (peer_sent_msg_count e))%bool
      eqn:E; [|discriminate].
    apply andb_true_iff in E as [E E3]. apply andb_true_iff in E as [E1 E2]. apply Z.eqb_eq in E1.
    inversion H; subst; clear H. set (e1 := set_finish_phase _ _).
    assert (M : Mono e e1) by (unfold e1; mono_tac).
    split; [exact M|split].
    + assert (Hpk : forall x, pkt_ok ce e x -> pkt_ok ce e1 x).
      { intros x Hx. apply (pkt_mono ce e); [exact M|right; unfold e1; epg; lia|unfold e1; epg; lia|unfold e1; epg; intros; first [lia|auto]|exact Hx]. }
      unfold e1; sinv S.
      * intros x Hx. apply Hpk; auto.
      * intros _. apply (s_phase _ _ S). lia.
      * intros _. apply (s_race _ _ S). lia.
    + pose proof (all_arrived_sound _ _ (s_rids _ _ S) E3) as Hall.
      unfold e1; rinv R; [auto|lia].
  - (* EStop *)
    destruct (finish_phase e =? 3) eqn:E1; [|discriminate]. apply Z.eqb_eq in E1.
    inversion H; subst; clear H. set (e1 := set_finish_phase _ _).
    assert (M : Mono e e1) by (unfold e1; mono_tac).
    split; [exact M|split].
    + assert (Hpk : forall x, pkt_ok ce e x -> pkt_ok ce e1 x).
      { intros x Hx. apply (pkt_mono ce e); [exact M|right; unfold e1; epg; lia|unfold e1; epg; lia|unfold e1; epg; intros; first [lia|auto]|exact Hx]. }
      unfold e1; sinv S.
      * intros x Hx. apply Hpk; auto.
      * intros _. apply (s_phase _ _ S). lia.
      * intros _. apply (s_race _ _ S). lia.
      * intros _ Hc. discriminate.
    + unfold e1; rinv R; try lia.
      intros _. apply (r_finok _ _ _ R). lia.
  - (* EJoin *)
    match type of H with (if ?b then _ else _) = _ => destruct b eqn:E; [|discriminate] end.
    apply andb_true_iff in E as [E _]. apply andb_true_iff in E as [E1 _]. apply Z.eqb_eq in E1.
    inversion H; subst; clear H. set (e1 := set_finish_phase _ _).
    assert (M : Mono e e1) by (unfold e1; mono_tac).
    split; [exact M|split].
    + assert (Hpk : forall x, pkt_ok ce e x -> pkt_ok ce e1 x).
      { intros x Hx. apply (pkt_mono ce e); [exact M|right; unfold e1; epg; lia|unfold e1; epg; lia|unfold e1; epg; intros; first [lia|auto]|exact Hx]. }
      unfold e1; sinv S.
      * intros x Hx. apply Hpk; auto.
      * intros _. apply (s_phase _ _ S). lia.
      * intros _. apply (s_race _ _ S). lia.
    + unfold e1; rinv R; try lia.
      intros _. apply (r_finok _ _ _ R). lia.
  - (* EAckOk *)
    destruct ((finish_phase e =? 5) && all_arrived (received_ack_ids e) (msg_seq_id e))%bool eqn:E; [|discriminate].
    apply andb_true_iff in E as [E1 E3]. apply Z.eqb_eq in E1.
    inversion H; subst; clear H. set (e1 := set_finish_phase _ _).
    assert (M : Mono e e1) by (unfold e1; mono_tac).
    split; [exact M|split].
    + assert (Hpk : forall x, pkt_ok ce e x -> pkt_ok ce e1 x).
      { intros x Hx. apply (pkt_mono ce e); [exact M|right; unfold e1; epg; lia|unfold e1; epg; lia|unfold e1; epg; intros; first [lia|auto]|exact Hx]. }
      unfold e1; sinv S.
      * intros x Hx. apply Hpk; auto.
      * intros _. apply (s_phase _ _ S). lia.
      * intros _. apply (s_race _ _ S). lia.
    + pose proof (all_arrived_sound _ _ (s_aids _ _ S) E3) as Hall.
      unfold e1; rinv R; [|auto].
      intros _. apply (r_finok _ _ _ R). lia.
  - (* EAbort *)
    inversion H; subst; clear H.
    split; [mono_tac|split].
    + sinv S. intros _ Hc. discriminate Hc.
    + rinv R.
Qed.

(** * Reachable states *)

Definition cfg_ok (c : config) : Prop := (0 < chunk_bytes c)%nat /\ normal_key_ok (connect_key c) = true.

Record SysInv (ca cb : config) (s : system) : Prop := {
  i_sa : SInv ca (ep_a s);
  i_sb : SInv cb (ep_b s);
  i_ab : RInv ca (ep_a s) (ep_b s);
  i_ba : RInv cb (ep_b s) (ep_a s)
}.

Lemma sinv_init c : SInv c init_ep.
Proof.
  constructor; unfold init_ep; epg; simpl; try (intros; tauto); try lia; auto.
  - constructor.
  - apply inv_empty.
  - apply inv_empty.
  - unfold throttle_inv; epg. simpl. intros _ _ n [].
Qed.

Lemma rinv_init c : RInv c init_ep init_ep.
Proof.
  constructor; unfold init_ep; epg; simpl; try (intros; tauto); try lia; auto; try (intros; discriminate).
  - intros n Hn. split; [discriminate|intros []].
  - constructor.
  - constructor.
Qed.

Lemma exec_inv ca cb ev s s' :
  cfg_ok ca -> cfg_ok cb -> SysInv ca cb s -> exec ca cb ev s = Some s' -> SysInv ca cb s'.
Proof.
  intros [Ha1 Ha2] [Hb1 Hb2] [Isa Isb Iab Iba] H. unfold exec in H. destruct (fst ev).
  - destruct (exec_ep ca (wire (ep_b s)) (snd ev) (ep_a s)) as [e|] eqn:E; [|discriminate].
    inversion H; subst; clear H.
    destruct (exec_ep_ok ca cb _ _ _ _ Ha2 Hb2 Ha1 Hb1 Isa Isb Iba E) as (M & S' & R').
    constructor; cbn [ep_a ep_b]; auto. eapply rinv_mono; eauto.
  - destruct (exec_ep cb (wire (ep_a s)) (snd ev) (ep_b s)) as [e|] eqn:E; [|discriminate].
    inversion H; subst; clear H.
    destruct (exec_ep_ok cb ca _ _ _ _ Hb2 Ha2 Hb1 Ha1 Isb Isa Iab E) as (M & S' & R').
    constructor; cbn [ep_a ep_b]; auto. eapply rinv_mono; eauto.
Qed.

Lemma run_inv ca cb evs : forall s s',
  cfg_ok ca -> cfg_ok cb -> SysInv ca cb s -> run ca cb evs s = Some s' -> SysInv ca cb s'.
Proof.
  induction evs as [|ev evs IH]; intros s s' Ha Hb I H; simpl in H.
  - inversion H; subst; auto.
  - destruct (exec ca cb ev s) as [s1|] eqn:E; [|discriminate].
    apply (IH s1); auto. eapply exec_inv; eauto.
Qed.

Lemma reachable_inv ca cb evs s :
  cfg_ok ca -> cfg_ok cb -> run ca cb evs init_sys = Some s -> SysInv ca cb s.
Proof.
  intros Ha Hb H. eapply run_inv; eauto. constructor; cbn [ep_a ep_b init_sys].
  - apply sinv_init.
  - apply sinv_init.
  - apply rinv_init.
  - apply rinv_init.
Qed.

(** * Consequences *)

(** A side of the system: the chosen party and its peer. *)
Definition me (who : bool) (s : system) : endpoint := if who then ep_a s else ep_b s.
Definition other (who : bool) (s : system) : endpoint := if who then ep_b s else ep_a s.
Definition cfg_me (who : bool) (ca cb : config) : config := if who then ca else cb.
Definition cfg_other (who : bool) (ca cb : config) : config := if who then cb else ca.

Lemma side_inv who ca cb evs s :
  cfg_ok ca -> cfg_ok cb -> run ca cb evs init_sys = Some s ->
  SInv (cfg_me who ca cb) (me who s) /\ SInv (cfg_other who ca cb) (other who s) /\
  RInv (cfg_other who ca cb) (other who s) (me who s) /\
  RInv (cfg_me who ca cb) (me who s) (other who s).
Proof.
  intros Ha Hb H. destruct (reachable_inv ca cb evs s Ha Hb H). destruct who; cbn [me other cfg_me cfg_other]; auto.
Qed.

Lemma log_ids_nodup c s : SInv c s -> NoDup (map fst (log_sent s)).
Proof.
  intros S. rewrite (s_logids _ _ S). generalize (Z.to_nat (msg_seq_id s)) 1. clear.
  induction n as [|n IH]; intros a; simpl; constructor; auto.
  rewrite zrange_in. lia.
Qed.

Lemma nodup_app_l {A} (l l' : list A) : NoDup (l ++ l') -> NoDup l.
Proof.
  induction l as [|x l IH]; simpl; intros H; [constructor|].
  inversion H as [|y l0 Hx Hl]; subst. constructor; auto. intros Hin. apply Hx. apply in_or_app; auto.
Qed.
Lemma nodup_app_r {A} (l l' : list A) : NoDup (l ++ l') -> NoDup l'.
Proof. induction l as [|x l IH]; simpl; intros H; auto. inversion H; auto. Qed.

Lemma at_most_once who ca cb evs s :
  cfg_ok ca -> cfg_ok cb -> run ca cb evs init_sys = Some s ->
  (forall k v n, In (k, (v, n)) (log_returned (me who s)) ->
     (n = 0 /\ k = connect_key (cfg_other who ca cb) /\ v = []) \/
     In (n, (k, v)) (log_sent (other who s))) /\
  NoDup (filter (Z.ltb 0) (map (fun r => snd (snd r)) (log_returned (me who s)))) /\
  NoDup (map fst (log_sent (other who s))) /\
  (forall n x, In (n, x) (log_sent (other who s)) -> 0 < n).
Proof.
  intros Ha Hb H. destruct (side_inv who ca cb evs s Ha Hb H) as (S & Sp & R & _).
  split; [|split; [|split]].
  - intros k v n Hin. destruct (r_msgs _ _ _ R k v n) as [H1|[_ H1]]; auto. apply in_or_app; auto.
  - pose proof (r_nodup _ _ _ R) as Hn. unfold places, pos in Hn. rewrite !filter_app in Hn.
    apply nodup_app_r in Hn. apply nodup_app_l in Hn. exact Hn.
  - eapply log_ids_nodup; eauto.
  - intros n [k v] Hin. apply (s_log _ _ Sp) in Hin. lia.
Qed.

(** Where a received id is. *)
Lemma no_silent_loss who ca cb evs s :
  cfg_ok ca -> cfg_ok cb -> run ca cb evs init_sys = Some s ->
  forall n, contains (received_msg_ids (me who s)) n = true ->
    In n (map fst (log_sent (other who s))) /\
    (In n (map (fun r => snd (snd r)) (recv_msgs (me who s))) \/
     In n (map (fun r => snd (snd r)) (log_returned (me who s))) \/
     In n (log_skipped (me who s)) \/ In n (log_dropped (me who s))).
Proof.
  intros Ha Hb H n Hn. destruct (side_inv who ca cb evs s Ha Hb H) as (S & Sp & R & _).
  destruct (r_ids _ _ _ R n Hn) as [H1 H2]. split.
  - destruct (s_sub _ _ Sp n H2) as (k & v & H3). apply in_map_iff. exists (n, (k, v)); auto.
  - apply (r_places _ _ _ R n H1) in Hn. unfold places, ids in Hn. rewrite !in_app_iff in Hn. exact Hn.
Qed.

Lemma never_ub who ca cb evs s :
  cfg_ok ca -> cfg_ok cb -> run ca cb evs init_sys = Some s -> hit_ub (me who s) = false.
Proof.
  intros Ha Hb H. destruct (side_inv who ca cb evs s Ha Hb H) as (S & Sp & R & _). apply (r_ub _ _ _ R).
Qed.

(** Window: pigeonhole. *)
Lemma nodup_bound (l : list Z) (b : Z) :
  NoDup l -> (forall x, In x l -> 1 <= x < b) -> Z.of_nat (length l) <= Z.max 0 (b - 1).
Proof.
  intros Hn Hb.
  assert (Hincl : incl l (zrange 1 (Z.to_nat (b - 1)))).
  { intros x Hx. apply zrange_in. specialize (Hb x Hx). lia. }
  pose proof (NoDup_incl_length Hn Hincl) as Hl.
  assert (Hz : forall n a, length (zrange a n) = n).
  { induction n as [|n IH]; intros a; simpl; auto. }
  rewrite Hz in Hl. lia.
Qed.

Lemma nodup_bound_exc (l : list Z) (b m : Z) :
  NoDup l -> (forall x, In x l -> 1 <= x) -> (forall x, In x l -> x = m \/ x < b) -> 1 <= b ->
  Z.of_nat (length l) <= b.
Proof.
  intros Hn Hp Hb H1. destruct (in_dec Z.eq_dec m l) as [Hin|Hni].
  - apply in_split in Hin as (l1 & l2 & ->).
    pose proof (NoDup_remove _ _ _ Hn) as [Hn' Hm].
    assert (Z.of_nat (length (l1 ++ l2)) <= Z.max 0 (b - 1)).
    { apply nodup_bound; auto. intros x Hx.
      assert (Hx' : In x (l1 ++ m :: l2)) by (rewrite in_app_iff in *; simpl; tauto).
      specialize (Hp x Hx'). destruct (Hb x Hx') as [-> |]; [tauto|lia]. }
    rewrite app_length in *. simpl. lia.
  - assert (Z.of_nat (length l) <= Z.max 0 (b - 1)); [|lia].
    apply nodup_bound; auto. intros x Hx. specialize (Hp x Hx). destruct (Hb x Hx) as [-> |]; [tauto|lia].
Qed.

Lemma count_covers t zs : Inv t -> NoDup zs -> (forall z, In z zs <-> contains t z = true) ->
  count t = Z.of_nat (length zs).
Proof.
  intros Hi Hn Hz. pose proof Hi as [Hs Hc]. rewrite Hc, <- (elements_total _ Hs). f_equal.
  apply Permutation_length, NoDup_Permutation; auto using elements_nodup.
  intros y. rewrite elements_in, Hz. symmetry. apply contains_covers; auto.
Qed.

Lemma window_bound who ca cb evs s :
  cfg_ok ca -> cfg_ok cb -> run ca cb evs init_sys = Some s ->
  0 < window (cfg_me who ca cb) -> send_stopped (me who s) = false ->
  Z.of_nat (length (filter (fun n => negb (contains (received_ack_ids (me who s)) n))
                           (log_submitted (me who s)))) <= window (cfg_me who ca cb).
Proof.
  intros Ha Hb H Hw Hst. destruct (side_inv who ca cb evs s Ha Hb H) as (S & Sp & R & R').
  set (e := me who s) in *. set (c := cfg_me who ca cb) in *.
  pose proof (nodup_app_r _ _ (s_nodup _ _ S)) as Hnd.
  pose proof (inv_count_nonneg _ (s_aids _ _ S)) as Hc0.
  assert (Hpos : forall x, In x (log_submitted e) -> 1 <= x).
  { intros x Hx. destruct (s_sub _ _ S x Hx) as (k & v & Hl). apply (s_log _ _ S) in Hl. lia. }
  assert (Htot : Z.of_nat (length (log_submitted e)) <= count (received_ack_ids e) + window c).
  { pose proof (s_thr _ _ S Hw Hst) as Ht. destruct (throttled e) as [m|].
    - apply (nodup_bound_exc _ _ m); auto. lia.
    - destruct (sender_dead e).
      + destruct Ht as [m Ht]. apply (nodup_bound_exc _ _ m); auto. lia.
      + apply (nodup_bound_exc _ _ 0); auto. lia. }
  assert (Hcnt : count (received_ack_ids e) =
     Z.of_nat (length (filter (contains (received_ack_ids e)) (log_submitted e)))).
  { apply count_covers; [apply (s_aids _ _ S)|apply NoDup_filter; auto|].
    intros z. rewrite filter_In. split; [tauto|]. intros Hz. split; auto.
    destruct (r_acks _ _ _ R z Hz) as [_ H2]. apply (r_ids _ _ _ R') in H2. tauto. }
  assert (Hsplit : forall l : list Z, (length (filter (contains (received_ack_ids e)) l) +
     length (filter (fun n => negb (contains (received_ack_ids e) n)) l) = length l)%nat).
  { induction l as [|x l IH]; simpl; auto. destruct (contains _ x); simpl; lia. }
  specialize (Hsplit (log_submitted e)). lia.
Qed.

(** Acks are never ahead of deliveries. *)
Lemma ack_means_received who ca cb evs s :
  cfg_ok ca -> cfg_ok cb -> run ca cb evs init_sys = Some s ->
  forall n, contains (received_ack_ids (me who s)) n = true ->
    contains (received_msg_ids (other who s)) n = true /\ In n (log_submitted (me who s)).
Proof.
  intros Ha Hb H n Hn. destruct (side_inv who ca cb evs s Ha Hb H) as (S & Sp & R & R').
  destruct (r_acks _ _ _ R n Hn) as [_ H1]. split; auto. apply (r_ids _ _ _ R'); auto.
Qed.

Lemma to_string_inj64 n m : 0 <= n < 2 ^ 64 -> 0 <= m < 2 ^ 64 -> to_string n = to_string m -> n = m.
Proof. intros Hn Hm. apply to_string_inj; lia. Qed.

(** When the wait for the peer's data ends, all announced messages are in; and
    without a send call racing with the peer's own finish, all messages the
    peer ever sent are in. *)
Lemma fin_all_received who ca cb evs s :
  cfg_ok ca -> cfg_ok cb -> run ca cb evs init_sys = Some s ->
  3 <= finish_phase (me who s) -> log_race (other who s) = false ->
  forall n k v, In (n, (k, v)) (log_sent (other who s)) ->
    contains (received_msg_ids (me who s)) n = true.
Proof.
  intros Ha Hb H Hph Hr n k v Hin. destruct (side_inv who ca cb evs s Ha Hb H) as (S & Sp & R & R').
  destruct (r_finok _ _ _ R Hph) as [Hf Hall]. apply Hall.
  destruct (r_fin _ _ _ R Hf) as [Hw Hb64]. apply (s_wire _ _ Sp) in Hw. cbn [pkt_ok] in Hw.
  pose proof (s_log _ _ Sp _ _ _ Hin) as (Hn & _). pose proof (s_seq _ _ Sp) as Hseq.
  destruct Hw as [Hu|[[Hk _]|[[Hk _]|(_ & m & Em & Hm & _ & Heq)]]].
  - exfalso. destruct Hu as (n' & k' & H1 & _ & H3).
    pose proof (s_log _ _ Sp _ _ _ H1) as (Hn' & Hk' & _).
    destruct (build_not_ctl k' n' Hk' ltac:(lia)). congruence.
  - exfalso. assert (Hok : normal_key_ok (connect_key (cfg_other who ca cb)) = true).
    { destruct Ha, Hb, who; auto. }
    destruct (build_not_ctl _ 0 Hok ltac:(lia)). congruence.
  - discriminate.
  - apply to_string_inj64 in Em; [|lia|lia]. rewrite Em, (Heq Hr). lia.
Qed.

Lemma fin_announced who ca cb evs s :
  cfg_ok ca -> cfg_ok cb -> run ca cb evs init_sys = Some s ->
  3 <= finish_phase (me who s) ->
  received_fin (me who s) = true /\
  forall n, 1 <= n <= peer_sent_msg_count (me who s) -> contains (received_msg_ids (me who s)) n = true.
Proof.
  intros Ha Hb H Hph. destruct (side_inv who ca cb evs s Ha Hb H) as (S & Sp & R & R').
  apply (r_finok _ _ _ R Hph).
Qed.

Lemma finish_all_delivered who ca cb evs s :
  cfg_ok ca -> cfg_ok cb -> run ca cb evs init_sys = Some s ->
  finish_phase (me who s) = 6 -> log_race (me who s) = false ->
  forall n k v, In (n, (k, v)) (log_sent (me who s)) ->
    contains (received_msg_ids (other who s)) n = true.
Proof.
  intros Ha Hb H Hph Hr n k v Hin. destruct (side_inv who ca cb evs s Ha Hb H) as (S & Sp & R & R').
  pose proof (s_log _ _ S _ _ _ Hin) as (Hn & _).
  pose proof (r_ackok _ _ _ R ltac:(lia) Hr n Hn) as Hack. apply (r_acks _ _ _ R) in Hack. tauto.
Qed.

Lemma run_app ca cb evs1 : forall evs2 s,
  run ca cb (evs1 ++ evs2) s =
  match run ca cb evs1 s with Some s' => run ca cb evs2 s' | None => None end.
Proof.
  induction evs1 as [|ev evs1 IH]; intros evs2 s; simpl; auto.
  destruct (exec ca cb ev s); auto.
Qed.

(** A stuck send thread: with window 1 it has submitted only id 2 and waits for two acks. *)
Definition stuck (s : system) : Prop :=
  throttled (ep_a s) = Some 2 /\ log_submitted (ep_a s) = [2].

Lemma send_ack_same n e : throttled (send_ack n e) = throttled e /\ log_submitted (send_ack n e) = log_submitted e.
Proof. unfold send_ack. destruct (0 <? n); auto. Qed.

Lemma on_message_same k v e :
  throttled (on_message k v e) = throttled e /\ log_submitted (on_message k v e) = log_submitted e.
Proof.
  unfold on_message. destruct (bytes_eqb k kAckKey).
  { destruct (view_to_size_t v); auto. }
  destruct (bytes_eqb k kFinKey).
  { destruct (received_fin e), (view_to_size_t v); auto. }
  unfold on_normal_message. destruct (split_channel_key k) as [[mk n]|]; auto.
  destruct (0 <? n).
  - destruct (insert (received_msg_ids e) n) as [t b]. destruct b; auto.
    destruct (waiting_finish _).
    + rewrite !(proj1 (send_ack_same _ _)), !(proj2 (send_ack_same _ _)); auto.
    + destruct (msg_find mk _); auto.
  - destruct (waiting_finish e).
    + rewrite !(proj1 (send_ack_same _ _)), !(proj2 (send_ack_same _ _)); auto.
    + destruct (msg_find mk _); auto.
Qed.

Lemma fold_ack_same l : forall e,
  let e' := fold_left (fun e' (x : bytes * (bytes * Z)) => send_ack (snd (snd x)) e') l e in
  throttled e' = throttled e /\ log_submitted e' = log_submitted e.
Proof.
  induction l as [|x l IH]; intros e; simpl; auto.
  destruct (IH (send_ack (snd (snd x)) e)) as [-> ->]. apply send_ack_same.
Qed.

Lemma stuck_step ca cb s ev s' :
  window ca = 1 -> count (received_ack_ids (ep_a s)) <= 1 -> 0 <= count (received_ack_ids (ep_a s)) ->
  exec ca cb ev s = Some s' -> ev <> (true, EThrottleFail) -> stuck s -> stuck s'.
Proof.
  intros Hw Hc Hc0 H Hne [H1 H2]. unfold exec in H. destruct ev as [[|] ev]; cbn [fst snd] in H.
  2:{ destruct (exec_ep cb _ ev _); inversion H; subst. split; auto. }
  destruct (exec_ep ca (wire (ep_b s)) ev (ep_a s)) as [e|] eqn:E; inversion H; subst. clear H.
  unfold stuck; cbn [ep_a]. rewrite <- H1, <- H2.
  destruct ev; unfold exec_ep in E; unfold guard in E.
  - destruct (_ && _); inversion E; auto.
  - destruct (nth_error _ _) as [[k v]|]; [|discriminate]. destruct (_ <? _); inversion E; auto.
  - destruct (nth_error _ _); inversion E; auto.
  - rewrite H1 in E. discriminate.
  - rewrite H1, Hw in E. rewrite Z.mod_small in E by lia.
    destruct (Z.leb_spec (count (received_ack_ids (ep_a s)) + 1) 2) as [L|L]; [discriminate|lia].
  - congruence.
  - rewrite H1 in E. discriminate.
  - destruct (nth_error _ _) as [p|]; [|discriminate]. destruct (negb _); inversion E; clear E.
    unfold on_request. destruct p as [k v|c].
    + apply on_message_same.
    + destruct (on_chunk _ _ _) as [[t [v|]]| |]; auto.
  - destruct (nth_error _ _) as [[k v]|]; [|discriminate]. inversion E; clear E.
    destruct (on_message_same k v (set_reassembled (remove_nth i (reassembled (ep_a s))) (ep_a s))) as [-> ->]. auto.
  - destruct (normal_key_ok k); [|discriminate]. destruct (msg_find _ _) as [[v n]|]; [|discriminate].
    inversion E; clear E.
    rewrite !(proj1 (send_ack_same _ _)), !(proj2 (send_ack_same _ _)). auto.
  - destruct (_ && _); inversion E; auto.
  - destruct (_ && _); inversion E; clear E. cbn [throttled log_submitted set_finish_phase set_recv_msgs set_log_skipped].
    apply (fold_ack_same (recv_msgs (ep_a s)) (set_waiting_finish true (ep_a s))).
  - destruct (_ =? _); inversion E; auto.
  - destruct (_ && _); inversion E; auto.
  - destruct (_ =? _); inversion E; auto.
  - destruct (_ && _); inversion E; auto.
  - destruct (_ && _); inversion E; auto.
  - inversion E; auto.
Qed.

Lemma stuck_forever ca cb evs : forall evs0 s s',
  cfg_ok ca -> cfg_ok cb -> window ca = 1 ->
  run ca cb evs0 init_sys = Some s -> stuck s ->
  run ca cb evs s = Some s' -> ~ In (true, EThrottleFail) evs -> stuck s'.
Proof.
  induction evs as [|ev evs IH]; intros evs0 s s' Ha Hb Hw H0 Hs H Hn; simpl in H.
  - inversion H; subst; auto.
  - destruct (exec ca cb ev s) as [s1|] eqn:E; [|discriminate].
    assert (H01 : run ca cb (evs0 ++ [ev]) init_sys = Some s1).
    { rewrite run_app, H0. simpl. rewrite E. auto. }
    apply (IH (evs0 ++ [ev]) s1 s'); auto.
    + destruct (reachable_inv ca cb evs0 s Ha Hb H0).
      apply (stuck_step ca cb s ev s1); auto.
      * rewrite (count_covers _ (filter (contains (received_ack_ids (ep_a s))) (log_submitted (ep_a s)))).
        -- destruct Hs as [_ ->]. simpl. destruct (contains _ 2); simpl; lia.
        -- apply (s_aids _ _ i_sa0).
        -- apply NoDup_filter. apply (nodup_app_r _ _ (s_nodup _ _ i_sa0)).
        -- intros z. rewrite filter_In. split; [tauto|]. intros Hz. split; auto.
           apply (ack_means_received true ca cb evs0 s Ha Hb H0 z Hz).
      * apply inv_count_nonneg, (s_aids _ _ i_sa0).
      * intros ->. apply Hn. simpl; auto.
    + intros Hin. apply Hn. simpl; auto.
Qed.

Lemma all_arrived_iff xs n :
  0 <= n < 2 ^ 64 - 1 -> Forall (fun x => 1 <= x <= n) xs ->
  all_arrived (insert_all xs) n = true <-> forall i, 1 <= i <= n -> In i xs.
Proof.
  intros Hn Hx.
  assert (Hx' : Forall (fun x => 0 <= x < 2 ^ 64 - 1) xs).
  { eapply Forall_impl; [|exact Hx]. cbv beta. intros; lia. }
  destruct (insert_all_inv xs Hx') as [Hi Hc].
  assert (Hcn : forall y, contains (insert_all xs) y = true <-> In y xs).
  { intros y. rewrite (contains_covers _ y Hi). apply Hc. }
  split.
  - intros H i Hin. apply Hcn. eapply all_arrived_sound; eauto.
  - intros H. apply all_arrived_complete; [auto|lia|]. intros y. rewrite Hcn.
    rewrite Forall_forall in Hx. split; auto.
Qed.
