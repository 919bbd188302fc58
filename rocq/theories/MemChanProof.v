From Coq Require Import List ZArith Bool Lia.
From Verif Require Import ChanKeyModel ChanKeyProof MemChanModel.
Import ListNotations.
Open Scope Z_scope.

(** Specification: a first-in first-out queue per key; nothing is ever dropped. *)
Definition q_step (e : mev) (q : list (bytes * bytes)) : list (bytes * bytes) * list (bytes * option bytes) :=
  match e with
  | MSend k v => (q ++ [(k, v)], [])
  | MRecv k => match mem_find k q with
               | Some v => (mem_erase k q, [(k, Some v)])
               | None => (q, [(k, None)])
               end
  end.
Fixpoint q_run (es : list mev) (q : list (bytes * bytes)) : list (bytes * option bytes) :=
  match es with
  | [] => []
  | e :: r => let (q', o) := q_step e q in o ++ q_run r q'
  end.
Fixpoint q_end (es : list mev) (q : list (bytes * bytes)) : list (bytes * bytes) :=
  match es with [] => q | e :: r => q_end r (fst (q_step e q)) end.

(** No message is sent under a key whose previous message is still unread. *)
Fixpoint no_overlap (es : list mev) (q : list (bytes * bytes)) : Prop :=
  match es with
  | [] => True
  | e :: r => (match e with MSend k _ => ~ In k (map fst q) | _ => True end) /\ no_overlap r (fst (q_step e q))
  end.

Lemma beqb_true a b : bytes_eqb a b = true <-> a = b.
Proof.
  revert b. induction a as [|x a IH]; intros [|y b]; simpl; try (split; congruence).
  rewrite andb_true_iff, Z.eqb_eq, IH. split; [intros [-> ->]; auto|intros H; inversion H; auto].
Qed.

Lemma mem_find_none k m : mem_find k m = None <-> ~ In k (map fst m).
Proof.
  induction m as [|[k' v] m IH]; simpl; [tauto|].
  destruct (bytes_eqb k' k) eqn:E.
  - apply beqb_true in E. subst. split; [discriminate|tauto].
  - rewrite IH. split; intros H; [intros [->|H']; auto|tauto].
    assert (bytes_eqb k k = true) by (apply beqb_true; auto). congruence.
Qed.

Lemma mem_queue es : forall q, no_overlap es q -> mem_run es q = q_run es q.
Proof.
  induction es as [|e es IH]; intros q H; cbn [mem_run q_run]; auto. destruct H as [He H].
  destruct e as [k v|k]; cbn [mem_step q_step] in *.
  - apply mem_find_none in He. rewrite He. apply IH; auto.
  - destruct (mem_find k q); cbn [fst] in H; f_equal; auto.
Qed.

Definition send_keys (es : list mev) : list bytes :=
  flat_map (fun e => match e with MSend k _ => [k] | _ => [] end) es.

Lemma erase_keys k q x : In x (map fst (mem_erase k q)) -> In x (map fst q).
Proof.
  induction q as [|[k' v] q IH]; simpl; auto. destruct (bytes_eqb k' k); simpl; tauto.
Qed.

Lemma distinct_no_overlap es : forall q, NoDup (send_keys es) ->
  (forall k, In k (send_keys es) -> ~ In k (map fst q)) -> no_overlap es q.
Proof.
  induction es as [|e es IH]; intros q Hn Hd; simpl; auto. destruct e as [k v|k]; simpl in *.
  - apply NoDup_cons_iff in Hn as [Hk Hn]. split; [apply Hd; auto|]. apply IH; auto.
    intros k' Hk'. rewrite map_app, in_app_iff. simpl. intros [H|[H|[]]]; [eapply Hd; eauto|subst; auto].
  - split; auto. apply IH; auto. intros k' Hk' Hin. apply (Hd k' Hk').
    destruct (mem_find k q); simpl in Hin; auto. eapply erase_keys; eauto.
Qed.

Lemma distinct_queue es : NoDup (send_keys es) -> mem_run es [] = q_run es [].
Proof. intros H. apply mem_queue, distinct_no_overlap; auto. Qed.

(** What is returned was sent: per key, the values returned are a prefix of the
    values sent, in order. *)
Definition sent_vals (k : bytes) (es : list mev) : list bytes :=
  flat_map (fun e => match e with MSend k' v => if bytes_eqb k' k then [v] else [] | _ => [] end) es.
Definition got_vals (k : bytes) (os : list (bytes * option bytes)) : list bytes :=
  flat_map (fun o => match o with (k', Some v) => if bytes_eqb k' k then [v] else [] | _ => [] end) os.
Definition pend_vals (k : bytes) (q : list (bytes * bytes)) : list bytes :=
  flat_map (fun kv => if bytes_eqb (fst kv) k then [snd kv] else []) q.

Lemma pend_find k q v : mem_find k q = Some v -> pend_vals k q = v :: pend_vals k (mem_erase k q).
Proof.
  induction q as [|[k' w] q IH]; simpl; [discriminate|].
  destruct (bytes_eqb k' k) eqn:E; intros H.
  - inversion H; subst. reflexivity.
  - simpl. rewrite E. simpl. auto.
Qed.
Lemma pend_erase_other k k' q : k <> k' -> pend_vals k (mem_erase k' q) = pend_vals k q.
Proof.
  intros Hne. induction q as [|[k2 w] q IH]; simpl; auto.
  destruct (bytes_eqb k2 k') eqn:E.
  - apply beqb_true in E. subst. destruct (bytes_eqb k' k) eqn:E2; auto. apply beqb_true in E2. congruence.
  - simpl. rewrite IH. reflexivity.
Qed.

Lemma q_fifo k es : forall q,
  pend_vals k q ++ sent_vals k es = got_vals k (q_run es q) ++ pend_vals k (q_end es q).
Proof.
  induction es as [|e es IH]; intros q; cbn [q_run q_end].
  - simpl. apply app_nil_r.
  - destruct e as [k' v|k']; cbn [q_step fst].
    + rewrite app_nil_l. rewrite <- IH. unfold pend_vals, sent_vals. rewrite flat_map_app. cbn [flat_map fst snd].
      rewrite <- app_assoc. rewrite app_nil_r. reflexivity.
    + change (sent_vals k (MRecv k' :: es)) with (sent_vals k es).
      destruct (mem_find k' q) as [v|] eqn:E; cbn [fst].
      * specialize (IH (mem_erase k' q)). 
        change (got_vals k ([(k', Some v)] ++ q_run es (mem_erase k' q))) with
          ((if bytes_eqb k' k then [v] else []) ++ got_vals k (q_run es (mem_erase k' q))).
        destruct (bytes_eqb k' k) eqn:E2.
        -- apply beqb_true in E2. subst k'. rewrite (pend_find k q v E). rewrite <- app_assoc. cbn [app]. f_equal. exact IH.
        -- rewrite app_nil_l. rewrite <- IH. rewrite pend_erase_other; auto.
           intros ->. assert (bytes_eqb k' k' = true) by (apply beqb_true; auto). congruence.
      * change (got_vals k ([(k', None)] ++ q_run es q)) with (got_vals k (q_run es q)). apply IH.
Qed.

(** * Retry *)
Lemma retry_waits o : forall tries count ws res, 0 <= count -> send_retry o count tries = (ws, res) ->
  (forall i, (i < length ws)%nat -> nth i ws 0 = wait_ms o (count + Z.of_nat i)) /\
  Z.of_nat (length ws) <= Z.max 0 (max_retry o - count).
Proof.
  induction tries as [|t tries IH]; intros count ws res Hc H; cbn [send_retry] in H.
  - inversion H; subst. split; [simpl; intros; lia|simpl; lia].
  - destruct t as [|c h| |]; try (inversion H; subst; split; [simpl; intros; lia|simpl; lia]).
    destruct (should_retry o c h); [|inversion H; subst; split; [simpl; intros; lia|simpl; lia]].
    destruct (Z.leb_spec (max_retry o) count); [inversion H; subst; split; [simpl; intros; lia|simpl; lia]|].
    destruct (send_retry o (count + 1) tries) as [ws' res'] eqn:E. inversion H; subst.
    destruct (IH (count + 1) ws' res ltac:(lia) E) as [H1 H2]. split.
    + intros [|i] Hi; cbn [nth].
      * rewrite Z.add_0_r. reflexivity.
      * simpl in Hi. rewrite H1 by lia. f_equal. lia.
    + cbn [length]. lia.
Qed.

Lemma wait_exact o count : 0 <= count -> 0 <= interval_ms o -> 0 <= incr_ms o ->
  interval_ms o + count * incr_ms o < 2 ^ 32 -> wait_ms o count = Z.min (interval_ms o + count * incr_ms o) (max_interval_ms o).
Proof.
  intros. unfold wait_ms. assert (0 <= count * incr_ms o) by nia.
  rewrite (Z.mod_small (count * incr_ms o)) by lia. rewrite Z.mod_small by lia. reflexivity.
Qed.

(** The call succeeds exactly when some pass succeeds after retryable failures
    only, within the allowed number of retries. *)
Definition retryable (o : retry_opts) (t : attempt) : Prop :=
  exists c h, t = ALinkError c h /\ should_retry o c h = true.
Lemma retry_success o : forall tries count, 0 <= count ->
  (exists ws, send_retry o count tries = (ws, RSent)) <->
  exists pre post, tries = pre ++ AOk :: post /\ Forall (retryable o) pre /\ Z.of_nat (length pre) <= Z.max 0 (max_retry o - count).
Proof.
  induction tries as [|t tries IH]; intros count Hc; cbn [send_retry].
  - split; [intros [ws H]; discriminate|intros (pre & post & H & _); destruct pre; discriminate].
  - split.
    + intros [ws H]. destruct t as [|c h| |]; try discriminate.
      * exists [], tries. split; auto. split; [constructor|simpl; lia].
      * destruct (should_retry o c h) eqn:Es; [|discriminate].
        destruct (Z.leb_spec (max_retry o) count); [discriminate|].
        destruct (send_retry o (count + 1) tries) as [ws' res'] eqn:E. inversion H; subst.
        destruct (proj1 (IH (count + 1) ltac:(lia))) as (pre & post & -> & Hp & Hl); [exists ws'; auto|].
        exists (ALinkError c h :: pre), post. split; auto. split; [constructor; auto; exists c, h; auto|].
        cbn [length]. lia.
    + intros (pre & post & H & Hp & Hl). destruct pre as [|t' pre]; simpl in H; inversion H; subst.
      * exists []; auto.
      * apply Forall_cons_iff in Hp as [(c & h & -> & Hs) Hp]. rewrite Hs. cbn [length] in Hl.
        destruct (Z.leb_spec (max_retry o) count); [lia|].
        destruct (proj2 (IH (count + 1) ltac:(lia))) as [ws E]; [exists pre, post; repeat split; auto; lia|].
        rewrite E. eexists; reflexivity.
Qed.
