From Coq Require Import List ZArith Bool Lia.
From Verif Require Import ChanKeyModel ChanKeyProof LinkIdModel.
Import ListNotations.
Open Scope Z_scope.

(** * Ranks *)
Lemma next_rank_spec n r s : 0 < n < 2 ^ 63 -> 0 <= r < n -> 0 <= s < 2 ^ 63 ->
  next_rank n r s = (r + s) mod n.
Proof. intros. unfold next_rank. rewrite (Z.mod_small (r + s)) by lia. reflexivity. Qed.

Lemma prev_rank_spec n r s : 0 < n < 2 ^ 63 -> 0 <= r < n -> 0 <= s <= n ->
  prev_rank n r s = (r - s) mod n.
Proof.
  intros. unfold prev_rank. rewrite (Z.mod_small (r - s + n)) by lia.
  replace (r - s + n) with (r - s + 1 * n) by ring. apply Z.mod_add. lia.
Qed.

Lemma ranks_inverse n r s : 0 < n < 2 ^ 63 -> 0 <= r < n -> 0 <= s <= n ->
  0 <= next_rank n r s < n /\ 0 <= prev_rank n r s < n /\
  next_rank n (prev_rank n r s) s = r /\ prev_rank n (next_rank n r s) s = r.
Proof.
  intros Hn Hr Hs. rewrite next_rank_spec by lia. rewrite prev_rank_spec by lia.
  pose proof (Z.mod_pos_bound (r + s) n ltac:(lia)). pose proof (Z.mod_pos_bound (r - s) n ltac:(lia)).
  split; [lia|]. split; [lia|]. rewrite next_rank_spec, prev_rank_spec by lia.
  rewrite Zplus_mod_idemp_l, Zminus_mod_idemp_l.
  replace (r - s + s) with r by ring. replace (r + s - s) with r by ring.
  rewrite Z.mod_small by lia. auto.
Qed.

(** * Keys *)
Definition no_colon (s : bytes) : Prop := ~ In 58 s.

Lemma last_sep_inj (a b u v : bytes) :
  no_colon u -> no_colon v -> a ++ [58] ++ u = b ++ [58] ++ v -> a = b /\ u = v.
Proof.
  revert b. induction a as [|x a IH]; intros [|y b] Hu Hv H; simpl in H.
  - inversion H; auto.
  - inversion H as [[Hy Hr]]. exfalso. apply Hu. rewrite Hr. apply in_or_app. simpl; auto.
  - inversion H as [[Hy Hr]]. exfalso. apply Hv. rewrite <- Hr. apply in_or_app. simpl; auto.
  - inversion H as [[Hy Hr]]. destruct (IH b Hu Hv Hr). subst; auto.
Qed.

Lemma digits_no c n : 0 <= n -> ~ (48 <= c <= 57) -> ~ In c (to_string n).
Proof.
  intros Hn Hc Hin. pose proof (to_string_digits n Hn) as Hd. rewrite Forall_forall in Hd.
  specialize (Hd c Hin). unfold is_digit in Hd. lia.
Qed.

Lemma first_sep_inj (c : Z) (a b u v : bytes) :
  ~ In c a -> ~ In c b -> a ++ c :: u = b ++ c :: v -> a = b /\ u = v.
Proof.
  revert b. induction a as [|x a IH]; intros [|y b] Ha Hb H; simpl in *.
  - inversion H; auto.
  - inversion H; subst. tauto.
  - inversion H; subst. tauto.
  - inversion H; subst. destruct (IH b); auto. subst; auto.
Qed.

Lemma to_string_inj' n m : 0 <= n < 2 ^ 64 -> 0 <= m < 2 ^ 64 -> to_string n = to_string m -> n = m.
Proof. intros Hn Hm. apply to_string_inj; lia. Qed.

Lemma coll_name_no_colon c : no_colon (coll_name c).
Proof. unfold no_colon. destruct c; simpl; intuition discriminate. Qed.
Lemma coll_name_inj c d : coll_name c = coll_name d -> c = d.
Proof. destruct c, d; simpl; congruence. Qed.

Definition p2p_mid (n : Z) : bytes := [80; 50; 80; 45] ++ to_string n.
Definition p2p_end (s d : Z) : bytes := to_string s ++ [45; 62] ++ to_string d.
Lemma p2p_key_eq id n s d : p2p_key id n s d = (id ++ [58] ++ p2p_mid n) ++ [58] ++ p2p_end s d.
Proof. unfold p2p_key, p2p_mid, p2p_end. rewrite <- !app_assoc. reflexivity. Qed.
Lemma coll_key_eq id n c : coll_key id n c = (id ++ [58] ++ to_string n) ++ [58] ++ coll_name c.
Proof. unfold coll_key. rewrite <- !app_assoc. reflexivity. Qed.

Lemma p2p_mid_no_colon n : 0 <= n -> no_colon (p2p_mid n).
Proof.
  intros Hn Hin. unfold p2p_mid in Hin. apply in_app_or in Hin as [H|H].
  - simpl in H. intuition discriminate.
  - apply (digits_no 58 n); auto; lia.
Qed.
Lemma p2p_end_no_colon s d : 0 <= s -> 0 <= d -> no_colon (p2p_end s d).
Proof.
  intros Hs Hd Hin. unfold p2p_end in Hin. apply in_app_or in Hin as [H|H].
  - apply (digits_no 58 s); auto; lia.
  - simpl in H. destruct H as [H|[H|H]]; try discriminate. apply (digits_no 58 d); auto; lia.
Qed.
Lemma dec_no_colon n : 0 <= n -> no_colon (to_string n).
Proof. intros. apply digits_no; auto; lia. Qed.

Lemma p2p_end_inj s d s' d' :
  0 <= s < 2 ^ 64 -> 0 <= d < 2 ^ 64 -> 0 <= s' < 2 ^ 64 -> 0 <= d' < 2 ^ 64 ->
  p2p_end s d = p2p_end s' d' -> s = s' /\ d = d'.
Proof.
  intros Hs Hd Hs' Hd' H. unfold p2p_end in H. simpl in H.
  apply first_sep_inj in H as [H1 H2].
  - inversion H2. split; apply to_string_inj'; auto.
  - apply digits_no; lia.
  - apply digits_no; lia.
Qed.

Lemma to_string_head n : 0 <= n -> exists c r, to_string n = c :: r /\ is_digit c.
Proof.
  intros Hn. pose proof (to_string_nonempty n). pose proof (to_string_digits n Hn) as Hd.
  destruct (to_string n) as [|c r]; [congruence|]. exists c, r. split; auto. inversion Hd; auto.
Qed.

(** A spec-level description of an operation: what the key stands for. *)
Inductive opid :=
| OColl (id : bytes) (n : Z) (c : coll)
| OP2P (id : bytes) (n src dst : Z).
Definition opid_ok (o : opid) : Prop :=
  match o with
  | OColl _ n _ => 0 <= n < 2 ^ 64
  | OP2P _ n s d => 0 <= n < 2 ^ 64 /\ 0 <= s < 2 ^ 64 /\ 0 <= d < 2 ^ 64
  end.
Definition key_of (o : opid) : bytes :=
  match o with
  | OColl id n c => coll_key id n c
  | OP2P id n s d => p2p_key id n s d
  end.

Lemma key_of_inj o o' : opid_ok o -> opid_ok o' -> key_of o = key_of o' -> o = o'.
Proof.
  destruct o as [id n c|id n s d], o' as [id' n' c'|id' n' s' d']; simpl; intros H1 H2 H;
    rewrite ?coll_key_eq, ?p2p_key_eq in H.
  - apply last_sep_inj in H as [H Hc]; try apply coll_name_no_colon.
    apply last_sep_inj in H as [Hi Hn]; try (apply dec_no_colon; lia).
    apply to_string_inj' in Hn; try lia. apply coll_name_inj in Hc. subst; auto.
  - exfalso. apply last_sep_inj in H as [H _]; [|apply coll_name_no_colon|apply p2p_end_no_colon; lia].
    apply last_sep_inj in H as [_ Hn]; [|apply dec_no_colon; lia|apply p2p_mid_no_colon; lia].
    destruct (to_string_head n ltac:(lia)) as (x & r & Hx & Hd). rewrite Hx in Hn. unfold p2p_mid in Hn.
    simpl in Hn. inversion Hn; subst. unfold is_digit in Hd. lia.
  - exfalso. apply last_sep_inj in H as [H _]; [|apply p2p_end_no_colon; lia|apply coll_name_no_colon].
    apply last_sep_inj in H as [_ Hn]; [|apply p2p_mid_no_colon; lia|apply dec_no_colon; lia].
    destruct (to_string_head n' ltac:(lia)) as (x & r & Hx & Hd). rewrite Hx in Hn. unfold p2p_mid in Hn.
    simpl in Hn. inversion Hn; subst. unfold is_digit in Hd. lia.
  - apply last_sep_inj in H as [H He]; [|apply p2p_end_no_colon; lia|apply p2p_end_no_colon; lia].
    apply p2p_end_inj in He as [-> ->]; try lia.
    apply last_sep_inj in H as [-> Hn]; [|apply p2p_mid_no_colon; lia|apply p2p_mid_no_colon; lia].
    unfold p2p_mid in Hn. apply app_inv_head in Hn. apply to_string_inj' in Hn; try lia. subst; auto.
Qed.

(** * Keys drawn by a run *)
Definition comm_ok (o : comm) : Prop :=
  match o with CColl _ => True | CSend d => 0 <= d < 2 ^ 64 | CRecv s => 0 <= s < 2 ^ 64 end.
Definition ctx_ok (ctx : context) (room : Z) : Prop :=
  0 <= ctx_rank ctx < 2 ^ 64 /\ 0 <= counter ctx /\ counter ctx + room < 2 ^ 64 /\
  forall s d, 0 <= p2p_counter ctx s d < 2 ^ 31.

(** [used ctx k]: [k] is a key this context has drawn in the past. *)
Definition used (ctx : context) (k : bytes) : Prop :=
  (exists n c, 1 <= n <= counter ctx /\ k = coll_key (ctx_id ctx) n c) \/
  (exists n s d, 1 <= n <= p2p_counter ctx s d /\ 0 <= s < 2 ^ 64 /\ 0 <= d < 2 ^ 64 /\
                 k = p2p_key (ctx_id ctx) n s d).

Lemma next_key_fresh ctx o k ctx' room :
  comm_ok o -> 1 <= room -> ctx_ok ctx room -> next_key ctx o = Some (k, ctx') ->
  ctx_ok ctx' (room - 1) /\ used ctx' k /\ ~ used ctx k /\ (forall x, used ctx x -> used ctx' x) /\
  ctx_id ctx' = ctx_id ctx /\ ctx_rank ctx' = ctx_rank ctx.
Proof.
  intros Ho Hroom (Hr & Hc & Hcr & Hp) H.
  assert (P2P : forall s d, 0 <= s < 2 ^ 64 -> 0 <= d < 2 ^ 64 -> next_p2p ctx s d = Some (k, ctx') ->
    ctx_ok ctx' (room - 1) /\ used ctx' k /\ ~ used ctx k /\ (forall x, used ctx x -> used ctx' x) /\
    ctx_id ctx' = ctx_id ctx /\ ctx_rank ctx' = ctx_rank ctx).
  { intros s d Hs Hd Hn. unfold next_p2p in Hn.
    pose proof (Hp s d) as Hpsd.
    destruct (p2p_counter ctx s d + 1 <? 2 ^ 31) eqn:E; [|discriminate]. apply Z.ltb_lt in E.
    inversion Hn; subst; clear Hn. unfold ctx_ok, used; simpl.
    assert (Hu : upd2 (p2p_counter ctx) s d (p2p_counter ctx s d + 1) s d = p2p_counter ctx s d + 1).
    { unfold upd2. rewrite !Z.eqb_refl. reflexivity. }
    assert (Hmono : forall s' d', p2p_counter ctx s' d' <= upd2 (p2p_counter ctx) s d (p2p_counter ctx s d + 1) s' d').
    { intros s' d'. unfold upd2. destruct (s' =? s) eqn:E1; simpl; [|lia]. destruct (d' =? d) eqn:E2; simpl; [|lia].
      apply Z.eqb_eq in E1, E2. subst. lia. }
    split; [|split; [|split; [|split; [|auto]]]].
    - split; [lia|]. split; [lia|]. split; [lia|]. intros s' d'. unfold upd2.
      destruct (_ && _); [lia|apply Hp].
    - right. exists (p2p_counter ctx s d + 1), s, d. rewrite Hu. split; [lia|auto].
    - intros [(n & c & Hn & He)|(n & s' & d' & Hn & Hs' & Hd' & He)].
      + assert (X : OP2P (ctx_id ctx) (p2p_counter ctx s d + 1) s d = OColl (ctx_id ctx) n c).
        { apply key_of_inj; simpl; auto; lia. }
        discriminate.
      + assert (X : OP2P (ctx_id ctx) (p2p_counter ctx s d + 1) s d = OP2P (ctx_id ctx) n s' d').
        { pose proof (Hp s' d'). apply key_of_inj; simpl; auto; lia. }
        inversion X; subst. lia.
    - intros x [(n & c & Hn & He)|(n & s' & d' & Hn & Hs' & Hd' & He)].
      + left. exists n, c. auto.
      + right. exists n, s', d'. pose proof (Hmono s' d'). repeat split; auto; lia. }
  destruct o as [c|d|s]; simpl in H, Ho.
  - unfold next_coll in H. rewrite Z.mod_small in H by lia. inversion H; subst; clear H.
    unfold ctx_ok, used; simpl.
    split; [|split; [|split; [|split; [|auto]]]].
    + repeat split; try lia; apply Hp.
    + left. exists (counter ctx + 1), c. split; [lia|auto].
    + intros [(n & c' & Hn & He)|(n & s' & d' & Hn & Hs' & Hd' & He)].
      * assert (X : OColl (ctx_id ctx) (counter ctx + 1) c = OColl (ctx_id ctx) n c').
        { apply key_of_inj; simpl; auto; lia. }
        inversion X; lia.
      * assert (X : OColl (ctx_id ctx) (counter ctx + 1) c = OP2P (ctx_id ctx) n s' d').
        { pose proof (Hp s' d'). apply key_of_inj; simpl; auto; lia. }
        discriminate.
    + intros x [(n & c' & Hn & He)|(n & s' & d' & Hn & Hs' & Hd' & He)].
      * left. exists n, c'. split; [lia|auto].
      * right. exists n, s', d'. auto.
  - apply P2P in H; auto.
  - apply P2P in H; auto.
Qed.

Lemma keys_fresh ops : forall ctx ks,
  Forall comm_ok ops -> ctx_ok ctx (Z.of_nat (length ops)) -> keys_of ctx ops = Some ks ->
  NoDup ks /\ forall k, In k ks -> ~ used ctx k.
Proof.
  induction ops as [|o ops IH]; intros ctx ks Ho Hc H; cbn [keys_of] in H.
  - inversion H; subst. split; [constructor|intros k []].
  - inversion Ho as [|? ? Ho1 Ho2]; subst.
    destruct (next_key ctx o) as [[k ctx']|] eqn:E; [|discriminate].
    destruct (keys_of ctx' ops) as [ks'|] eqn:E'; [|discriminate]. inversion H; subst; clear H.
    cbn [length] in Hc. rewrite Nat2Z.inj_succ in Hc.
    destruct (next_key_fresh ctx o k ctx' (Z.succ (Z.of_nat (length ops))) Ho1 ltac:(lia) Hc E) as (C' & U & F & M & _).
    replace (Z.succ (Z.of_nat (length ops)) - 1) with (Z.of_nat (length ops)) in C' by lia.
    destruct (IH ctx' ks' Ho2 C' E') as [N F'].
    split.
    + constructor; auto. intros Hin. apply (F' k Hin). auto.
    + intros x [<-|Hin]; auto. intros Hu. apply (F' x Hin). auto.
Qed.

Lemma context_keys_distinct id rank sub ops ks :
  0 <= rank < 2 ^ 64 -> Forall comm_ok ops -> Z.of_nat (length ops) < 2 ^ 64 ->
  keys_of (new_context id rank sub) ops = Some ks -> NoDup ks.
Proof.
  intros Hr Ho Hl H. eapply keys_fresh; eauto.
  unfold ctx_ok, new_context; simpl. repeat split; try lia.
Qed.

(** * Keys of matching operations agree *)
Definition is_to (d : Z) (o : comm) : bool := match o with CSend x => x =? d | _ => false end.
Definition is_from (s : Z) (o : comm) : bool := match o with CRecv x => x =? s | _ => false end.
Definition is_coll (o : comm) : bool := match o with CColl _ => true | _ => false end.

(** The sub-list of keys drawn by the operations satisfying [f]. *)
Fixpoint select {A} (f : comm -> bool) (ops : list comm) (l : list A) : list A :=
  match ops, l with
  | o :: r, k :: l' => if f o then k :: select f r l' else select f r l'
  | _, _ => []
  end.

Fixpoint p2p_run (id : bytes) (m : nat) (from s d : Z) : list bytes :=
  match m with O => [] | S m' => p2p_key id (from + 1) s d :: p2p_run id m' (from + 1) s d end.

Lemma send_keys ops : forall ctx ks d,
  ctx_rank ctx <> d -> keys_of ctx ops = Some ks ->
  select (is_to d) ops ks =
  p2p_run (ctx_id ctx) (length (filter (is_to d) ops)) (p2p_counter ctx (ctx_rank ctx) d) (ctx_rank ctx) d.
Proof.
  induction ops as [|o ops IH]; intros ctx ks d Hne H; cbn [keys_of] in H.
  - reflexivity.
  - destruct (next_key ctx o) as [[k ctx']|] eqn:E; [|discriminate].
    destruct (keys_of ctx' ops) as [ks'|] eqn:E'; [|discriminate]. inversion H; subst; clear H.
    destruct o as [c|d'|s']; cbn [next_key] in E; cbn [select is_to filter].
    + inversion E; subst. apply (IH _ _ d) in E'; auto.
    + unfold next_p2p in E. destruct (_ <? _); [|discriminate]. inversion E; subst; clear E.
      apply (IH _ _ d) in E'; auto. simpl in E'. rewrite E'. unfold upd2. rewrite Z.eqb_refl. simpl.
      rewrite (Z.eqb_sym d d'). destruct (d' =? d) eqn:Ed; auto. apply Z.eqb_eq in Ed. subst. reflexivity.
    + unfold next_p2p in E. destruct (_ <? _); [|discriminate]. inversion E; subst; clear E.
      apply (IH _ _ d) in E'; auto. simpl in E'. rewrite E'. unfold upd2.
      replace (d =? ctx_rank ctx) with false by (symmetry; apply Z.eqb_neq; auto).
      rewrite andb_false_r. reflexivity.
Qed.

Lemma recv_keys ops : forall ctx ks s,
  ctx_rank ctx <> s -> keys_of ctx ops = Some ks ->
  select (is_from s) ops ks =
  p2p_run (ctx_id ctx) (length (filter (is_from s) ops)) (p2p_counter ctx s (ctx_rank ctx)) s (ctx_rank ctx).
Proof.
  induction ops as [|o ops IH]; intros ctx ks s Hne H; cbn [keys_of] in H.
  - reflexivity.
  - destruct (next_key ctx o) as [[k ctx']|] eqn:E; [|discriminate].
    destruct (keys_of ctx' ops) as [ks'|] eqn:E'; [|discriminate]. inversion H; subst; clear H.
    destruct o as [c|d'|s']; cbn [next_key] in E; cbn [select is_from filter].
    + inversion E; subst. apply (IH _ _ s) in E'; auto.
    + unfold next_p2p in E. destruct (_ <? _); [|discriminate]. inversion E; subst; clear E.
      apply (IH _ _ s) in E'; auto. simpl in E'. rewrite E'. unfold upd2.
      replace (s =? ctx_rank ctx) with false by (symmetry; apply Z.eqb_neq; auto). reflexivity.
    + unfold next_p2p in E. destruct (_ <? _); [|discriminate]. inversion E; subst; clear E.
      apply (IH _ _ s) in E'; auto. simpl in E'. rewrite E'. unfold upd2. rewrite Z.eqb_refl.
      rewrite andb_true_r. rewrite (Z.eqb_sym s s'). destruct (s' =? s) eqn:Ed; auto. apply Z.eqb_eq in Ed. subst. reflexivity.
Qed.

Lemma p2p_match id s d sub1 sub2 ops1 ops2 ks1 ks2 :
  s <> d ->
  keys_of (new_context id s sub1) ops1 = Some ks1 ->
  keys_of (new_context id d sub2) ops2 = Some ks2 ->
  length (filter (is_to d) ops1) = length (filter (is_from s) ops2) ->
  select (is_to d) ops1 ks1 = select (is_from s) ops2 ks2.
Proof.
  intros Hne H1 H2 Hl.
  rewrite (send_keys ops1 (new_context id s sub1) ks1 d Hne H1).
  rewrite (recv_keys ops2 (new_context id d sub2) ks2 s (not_eq_sym Hne) H2).
  simpl. rewrite Hl. reflexivity.
Qed.

Fixpoint coll_run (id : bytes) (cs : list comm) (from : Z) : list bytes :=
  match cs with
  | CColl c :: r => coll_key id ((from + 1) mod 2 ^ 64) c :: coll_run id r ((from + 1) mod 2 ^ 64)
  | _ => []
  end.

Lemma coll_keys ops : forall ctx ks,
  keys_of ctx ops = Some ks ->
  select is_coll ops ks = coll_run (ctx_id ctx) (filter is_coll ops) (counter ctx).
Proof.
  induction ops as [|o ops IH]; intros ctx ks H; cbn [keys_of] in H.
  - reflexivity.
  - destruct (next_key ctx o) as [[k ctx']|] eqn:E; [|discriminate].
    destruct (keys_of ctx' ops) as [ks'|] eqn:E'; [|discriminate]. inversion H; subst; clear H.
    destruct o as [c|d'|s']; cbn [next_key] in E; cbn [select is_coll filter coll_run].
    + inversion E; subst. apply IH in E'. rewrite E'. reflexivity.
    + unfold next_p2p in E. destruct (_ <? _); [|discriminate]. inversion E; subst; clear E.
      apply IH in E'. exact E'.
    + unfold next_p2p in E. destruct (_ <? _); [|discriminate]. inversion E; subst; clear E.
      apply IH in E'. exact E'.
Qed.

Lemma coll_match id r1 r2 sub1 sub2 ops1 ops2 ks1 ks2 :
  keys_of (new_context id r1 sub1) ops1 = Some ks1 ->
  keys_of (new_context id r2 sub2) ops2 = Some ks2 ->
  filter is_coll ops1 = filter is_coll ops2 ->
  select is_coll ops1 ks1 = select is_coll ops2 ks2.
Proof.
  intros H1 H2 Hf. rewrite (coll_keys _ _ _ H1), (coll_keys _ _ _ H2), Hf. reflexivity.
Qed.

(** * Overflow of the point-to-point counter *)
Lemma sends_count k : forall ctx d,
  0 <= p2p_counter ctx (ctx_rank ctx) d ->
  (p2p_counter ctx (ctx_rank ctx) d + Z.of_nat k < 2 ^ 31 <-> keys_of ctx (repeat (CSend d) k) <> None) \/ k = O.
Proof.
  induction k as [|k IH]; intros ctx d H0; [auto|left].
  cbn [repeat keys_of next_key]. unfold next_p2p.
  destruct (p2p_counter ctx (ctx_rank ctx) d + 1 <? 2 ^ 31) eqn:E.
  - apply Z.ltb_lt in E.
    match goal with |- context [keys_of ?c (repeat _ k)] => set (ctx' := c) end.
    assert (Hc : p2p_counter ctx' (ctx_rank ctx') d = p2p_counter ctx (ctx_rank ctx) d + 1).
    { unfold ctx'. simpl. unfold upd2. rewrite !Z.eqb_refl. reflexivity. }
    destruct (IH ctx' d ltac:(lia)) as [IH'| ->].
    + rewrite Hc in IH'. destruct (keys_of ctx' (repeat (CSend d) k)) as [l|].
      * split; intros; [discriminate|]. destruct IH' as [_ IH']. specialize (IH' ltac:(discriminate)). lia.
      * split; [intros|intros X; elim X; auto]. exfalso. destruct IH' as [IH' _]. apply IH'; [lia|auto].
    + simpl. split; intros; [discriminate|lia].
  - apply Z.ltb_ge in E. split; [lia|intros X; elim X; auto].
Qed.

(** * Spawn *)
Lemma spawn_auto_inj ctx n m : 0 <= n < 2 ^ 64 -> 0 <= m < 2 ^ 64 ->
  ctx_id ctx ++ [45] ++ to_string n = ctx_id ctx ++ [45] ++ to_string m -> n = m.
Proof. intros Hn Hm H. apply app_inv_head in H. inversion H. apply to_string_inj'; auto. Qed.

Lemma spawn_ids_in ids : forall ctx x, 0 <= child_counter ctx ->
  child_counter ctx + Z.of_nat (length ids) < 2 ^ 64 ->
  In x (spawn_ids ctx ids) ->
  (exists n, child_counter ctx <= n < child_counter ctx + Z.of_nat (length ids) /\
             x = ctx_id ctx ++ [45] ++ to_string n) \/
  (exists i, In i ids /\ i <> [] /\ x = ctx_id ctx ++ [45] ++ i).
Proof.
  induction ids as [|i ids IH]; intros ctx x H0 Hb Hin; cbn [spawn_ids] in Hin; [destruct Hin|].
  cbn [length] in Hb |- *. rewrite Nat2Z.inj_succ in *.
  destruct i as [|c i]; cbn [spawn] in Hin.
  - destruct Hin as [<-|Hin].
    + left. exists (child_counter ctx). split; [lia|reflexivity].
    + apply IH in Hin; cbn [child_counter ctx_id] in *; rewrite Z.mod_small in * by lia; try lia.
      destruct Hin as [(n & Hn & ->)|(j & Hj & Hne & ->)].
      * left. exists n. split; [lia|auto].
      * right. exists j. simpl; auto.
  - destruct Hin as [<-|Hin].
    + right. exists (c :: i). simpl. split; auto. split; [discriminate|auto].
    + apply IH in Hin; try lia. destruct Hin as [(n & Hn & ->)|(j & Hj & Hne & ->)].
      * left. exists n. split; [lia|auto].
      * right. exists j. simpl; auto.
Qed.

(** Explicit ids that are pairwise different and not decimal numerals cannot clash. *)
Lemma spawn_distinct ids : forall ctx, 0 <= child_counter ctx ->
  child_counter ctx + Z.of_nat (length ids) < 2 ^ 64 ->
  NoDup (filter (fun i => match i with [] => false | _ => true end) ids) ->
  (forall n, 0 <= n < 2 ^ 64 -> ~ In (to_string n) ids) ->
  NoDup (spawn_ids ctx ids).
Proof.
  induction ids as [|i ids IH]; intros ctx H0 Hb Hn Hd; cbn [spawn_ids]; [constructor|].
  cbn [length] in Hb. rewrite Nat2Z.inj_succ in Hb.
  assert (Hd' : forall n, 0 <= n < 2 ^ 64 -> ~ In (to_string n) ids).
  { intros n Hr Hin. apply (Hd n Hr). simpl; auto. }
  destruct i as [|c i]; cbn [spawn].
  - constructor.
    + intros Hin. apply spawn_ids_in in Hin; cbn [child_counter ctx_id new_context] in *; rewrite Z.mod_small in * by lia; try lia.
      destruct Hin as [(n & Hr & He)|(j & Hj & Hne & He)].
      * apply spawn_auto_inj in He; lia.
      * apply app_inv_head in He. inversion He as [He']. apply (Hd' (child_counter ctx)); [lia|]. rewrite He'. auto.
    + apply IH; cbn [child_counter]; rewrite ?Z.mod_small by lia; try lia; auto.
  - cbn [filter] in Hn. inversion Hn as [|? ? Hni Hn']; subst. constructor.
    + intros Hin. apply spawn_ids_in in Hin; try lia. cbn [ctx_id new_context] in Hin.
      destruct Hin as [(n & Hr & He)|(j & Hj & Hne & He)].
      * apply app_inv_head in He. inversion He as [He']. apply (Hd n ltac:(lia)). simpl. auto.
      * apply app_inv_head in He. simpl in He. inversion He as [He']. apply Hni. apply filter_In. rewrite He'. split; auto.
    + apply IH; auto; lia.
Qed.

(** * SubWorld *)
Lemma last_rank_sound parties : forall i p k,
  last_rank parties i p = Some k -> i <= k < i + Z.of_nat (length parties) /\ nth_error parties (Z.to_nat (k - i)) = Some p.
Proof.
  induction parties as [|q parties IH]; intros i p k H; cbn [last_rank] in H; [discriminate|].
  cbn [length]. rewrite Nat2Z.inj_succ.
  destruct (last_rank parties (i + 1) p) as [k'|] eqn:E.
  - inversion H; subst. apply IH in E as [E1 E2]. split; [lia|].
    replace (Z.to_nat (k - i)) with (S (Z.to_nat (k - (i + 1)))) by lia. exact E2.
  - destruct (bytes_eqb p q) eqn:Eb; [|discriminate]. inversion H; subst. apply bytes_eqb_eq in Eb. subst.
    split; [lia|]. rewrite Z.sub_diag. reflexivity.
Qed.

Lemma orig_ranks_sound parties sub : forall l,
  orig_ranks parties sub = Some l ->
  length l = length sub /\
  forall j k, nth_error l j = Some k -> 0 <= k < Z.of_nat (length parties) /\
    nth_error parties (Z.to_nat k) = nth_error sub j.
Proof.
  induction sub as [|p sub IH]; intros l H; cbn [orig_ranks] in H.
  - inversion H; subst. split; auto. intros [|j] k; discriminate.
  - destruct (last_rank parties 0 p) as [k0|] eqn:E; [|discriminate].
    destruct (orig_ranks parties sub) as [l'|]; [|discriminate]. inversion H; subst; clear H.
    destruct (IH l' eq_refl) as [H1 H2]. split; [simpl; auto|].
    intros [|j] k Hk; simpl in Hk.
    + inversion Hk; subst. apply last_rank_sound in E as [E1 E2]. rewrite Z.sub_0_r in E2. simpl. auto.
    + simpl. apply H2. auto.
Qed.

Lemma last_pos_sound l : forall i r j,
  last_pos l i r = Some j -> i <= j < i + Z.of_nat (length l) /\ nth_error l (Z.to_nat (j - i)) = Some r.
Proof.
  induction l as [|q l IH]; intros i r j H; cbn [last_pos] in H; [discriminate|].
  cbn [length]. rewrite Nat2Z.inj_succ.
  destruct (last_pos l (i + 1) r) as [k'|] eqn:E.
  - inversion H; subst. apply IH in E as [E1 E2]. split; [lia|].
    replace (Z.to_nat (j - i)) with (S (Z.to_nat (j - (i + 1)))) by lia. exact E2.
  - destruct (q =? r) eqn:Eb; [|discriminate]. inversion H; subst. apply Z.eqb_eq in Eb. subst.
    split; [lia|]. rewrite Z.sub_diag. reflexivity.
Qed.

Lemma sub_world_ok parties rank sub l j :
  sub_world_ranks parties rank sub = Some (l, j) ->
  length l = length sub /\ 0 <= j < Z.of_nat (length sub) /\
  nth_error l (Z.to_nat j) = Some rank /\
  forall i k, nth_error l i = Some k ->
    0 <= k < Z.of_nat (length parties) /\ nth_error parties (Z.to_nat k) = nth_error sub i.
Proof.
  unfold sub_world_ranks. intros H. destruct (orig_ranks parties sub) as [l'|] eqn:E; [|discriminate].
  destruct (last_pos l' 0 rank) as [j'|] eqn:E2; [|discriminate]. inversion H; subst; clear H.
  apply orig_ranks_sound in E as [H1 H2]. apply last_pos_sound in E2 as [H3 H4].
  rewrite Z.sub_0_r in H4. rewrite H1 in H3. repeat split; try lia; auto; apply (H2 i k H).
Qed.
