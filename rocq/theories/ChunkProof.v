From Coq Require Import List ZArith Bool Lia PeanoNat.
From Verif Require Import ChanKeyModel ChanKeyProof ChunkModel.
Import ListNotations.
Open Scope Z_scope.

(** * Specification: which arrivals complete a message *)

(** An arrival is a pair (wire key, chunk index). *)
Definition arrival := (bytes * nat)%type.
Definition arrival_eqb (a b : arrival) : bool :=
  bytes_eqb (fst a) (fst b) && Nat.eqb (snd a) (snd b).

(** Given how many chunks each key has, an arrival completes its key when every
    chunk index of that key has arrived since the key was last completed. *)
Definition completes (parts : bytes -> nat) (seen : list arrival) (a : arrival) : bool :=
  forallb (fun i => existsb (arrival_eqb (fst a, i)) (a :: seen)) (seq 0 (parts (fst a))).

Fixpoint spec_outputs (parts : bytes -> nat) (payload : bytes -> bytes)
         (seen : list arrival) (l : list arrival) : list (option bytes) :=
  match l with
  | [] => []
  | a :: r =>
      if completes parts seen a then
        Some (payload (fst a))
          :: spec_outputs parts payload
               (filter (fun x => negb (bytes_eqb (fst a) (fst x))) seen) r
      else None :: spec_outputs parts payload (a :: seen) r
  end.

(** * Lists *)

Lemma arrival_eqb_eq a b : arrival_eqb a b = true <-> a = b.
Proof.
  unfold arrival_eqb. rewrite andb_true_iff, bytes_eqb_eq, Nat.eqb_eq.
  destruct a, b; simpl; split; [intros [-> ->]|intros H; inversion H]; auto.
Qed.

Lemma mem_arrival a l : existsb (arrival_eqb a) l = true <-> In a l.
Proof.
  rewrite existsb_exists. split.
  - intros (x & Hx & E). apply arrival_eqb_eq in E. subst; auto.
  - intros H; exists a; split; auto. apply arrival_eqb_eq; auto.
Qed.

Lemma completes_spec parts seen a :
  completes parts seen a = true <->
  forall i, (i < parts (fst a))%nat -> In (fst a, i) (a :: seen).
Proof.
  unfold completes. rewrite forallb_forall. split.
  - intros H i Hi. apply mem_arrival. apply H. apply in_seq; lia.
  - intros H i Hi. apply mem_arrival. apply H. apply in_seq in Hi; lia.
Qed.

Lemma write_at_length off data buf :
  (off + length data <= length buf)%nat -> length (write_at off data buf) = length buf.
Proof.
  intros H. unfold write_at. rewrite !app_length, firstn_length, skipn_length. lia.
Qed.

Lemma nth_write_at off data buf j d :
  (off + length data <= length buf)%nat ->
  nth j (write_at off data buf) d =
  if (Nat.leb off j && Nat.ltb j (off + length data))%bool then nth (j - off) data d else nth j buf d.
Proof.
  intros H. unfold write_at.
  destruct (Nat.leb off j) eqn:E1; [apply Nat.leb_le in E1|apply Nat.leb_gt in E1]; simpl.
  - rewrite app_nth2; rewrite firstn_length, Nat.min_l by lia; [|lia].
    destruct (Nat.ltb j (off + length data)) eqn:E2; [apply Nat.ltb_lt in E2|apply Nat.ltb_ge in E2].
    + rewrite app_nth1 by lia. auto.
    + rewrite app_nth2 by lia.
      rewrite <- (firstn_skipn (off + length data) buf) at 2.
      rewrite (app_nth2 (firstn _ _)); rewrite firstn_length, Nat.min_l by lia; [|lia].
      f_equal. lia.
  - rewrite app_nth1 by (rewrite firstn_length; lia).
    rewrite <- (firstn_skipn off buf) at 2.
    rewrite app_nth1 by (rewrite firstn_length; lia). auto.
Qed.

Lemma nth_chunk (v : bytes) off len j d :
  (off + len <= length v)%nat -> (off <= j < off + len)%nat ->
  nth (j - off) (firstn len (skipn off v)) d = nth j v d.
Proof.
  intros H1 H2.
  assert (E : nth (j - off) (firstn len (skipn off v)) d = nth (j - off) (skipn off v) d).
  { rewrite <- (firstn_skipn len (skipn off v)) at 2.
    rewrite app_nth1; auto. rewrite firstn_length, skipn_length. lia. }
  rewrite E. rewrite <- (firstn_skipn off v) at 2.
  rewrite app_nth2; rewrite firstn_length, Nat.min_l by lia; auto; lia.
Qed.

(** * Counting covered byte positions *)

Definition memb (i : nat) (S : list nat) : bool := existsb (Nat.eqb i) S.

Lemma memb_in i S : memb i S = true <-> In i S.
Proof.
  unfold memb. rewrite existsb_exists. split.
  - intros (x & Hx & E). apply Nat.eqb_eq in E. subst; auto.
  - intros H; exists i; split; auto. apply Nat.eqb_refl.
Qed.

(** Number of byte positions below [n] whose chunk index is in [S]. *)
Definition cov (b : nat) (S : list nat) (n : nat) : nat :=
  length (filter (fun j => memb (Nat.div j b) S) (seq 0 n)).

Lemma filter_length_or {A} (f g h : A -> bool) l :
  (forall x, h x = (f x || g x)%bool) -> (forall x, f x = true -> g x = false) ->
  length (filter h l) = (length (filter f l) + length (filter g l))%nat.
Proof.
  intros Hh Hd. induction l as [|x l IH]; simpl; auto.
  rewrite Hh. destruct (f x) eqn:Ef; [rewrite (Hd _ Ef)|destruct (g x)]; simpl; lia.
Qed.

Lemma count_chunk b i n : (0 < b)%nat ->
  length (filter (fun j => Nat.eqb (Nat.div j b) i) (seq 0 n)) = Nat.min b (n - i * b).
Proof.
  intros Hb. induction n as [|n IH]; [simpl; lia|].
  rewrite seq_S, filter_app, app_length, IH. cbn [filter Nat.add].
  destruct (Nat.eqb (n / b) i) eqn:E; cbn [length].
  - apply Nat.eqb_eq in E.
    pose proof (Nat.div_mod n b ltac:(lia)) as Hd. pose proof (Nat.mod_upper_bound n b ltac:(lia)).
    rewrite E, (Nat.mul_comm b i) in Hd. lia.
  - apply Nat.eqb_neq in E.
    destruct (Nat.le_gt_cases (i * b) n).
    + assert (i * b + b <= n)%nat; [|lia].
      destruct (Nat.le_gt_cases (i * b + b) n); auto. exfalso; apply E.
      symmetry. apply (Nat.div_unique n b i (n - i * b)); lia.
    + lia.
Qed.

Lemma cov_cons b S i n : (0 < b)%nat -> ~ In i S ->
  cov b (i :: S) n = (cov b S n + Nat.min b (n - i * b))%nat.
Proof.
  intros Hb Hi. unfold cov. rewrite <- (count_chunk b i n Hb).
  apply filter_length_or.
  - intros x. unfold memb; simpl. rewrite orb_comm. reflexivity.
  - intros x Hx. apply memb_in in Hx. apply Nat.eqb_neq. intros E. rewrite E in Hx. contradiction.
Qed.

Lemma cov_ext b S T n : (forall i, In i S <-> In i T) -> cov b S n = cov b T n.
Proof.
  intros H. unfold cov. f_equal. apply filter_ext. intros j.
  destruct (memb (j / b) S) eqn:E1, (memb (j / b) T) eqn:E2; auto; exfalso.
  - apply memb_in in E1. apply H in E1. apply memb_in in E1. congruence.
  - apply memb_in in E2. apply H in E2. apply memb_in in E2. congruence.
Qed.

Lemma filter_len_le {A} (f : A -> bool) l : (length (filter f l) <= length l)%nat.
Proof. induction l as [|x l IH]; simpl; auto. destruct (f x); simpl; lia. Qed.

Lemma filter_all_length {A} (f : A -> bool) l :
  length (filter f l) = length l <-> forall x, In x l -> f x = true.
Proof.
  induction l as [|x l IH]; simpl; [intuition|].
  pose proof (filter_len_le f l) as Hle.
  destruct (f x) eqn:E; simpl; split.
  - intros H y [<-|Hy]; auto. apply IH; auto; lia.
  - intros H. f_equal. apply IH; auto.
  - intros H. lia.
  - intros H. rewrite H in E by auto. discriminate.
Qed.

Lemma cov_le b S n : (cov b S n <= n)%nat.
Proof.
  unfold cov. rewrite <- (seq_length n 0) at 2. apply filter_len_le.
Qed.

Lemma num_chunks_spec n b i : (0 < b)%nat -> (i < num_chunks n b <-> i * b < n)%nat.
Proof.
  intros Hb. unfold num_chunks.
  pose proof (Nat.div_mod (n + b - 1) b ltac:(lia)).
  pose proof (Nat.mod_upper_bound (n + b - 1) b ltac:(lia)). nia.
Qed.

Lemma cov_full b S n : (0 < b)%nat ->
  (cov b S n = n <-> forall i, (i < num_chunks n b)%nat -> In i S).
Proof.
  intros Hb. unfold cov. rewrite <- (seq_length n 0) at 2. rewrite filter_all_length. split.
  - intros H i Hi. apply num_chunks_spec in Hi; auto.
    assert (Hin : In (i * b)%nat (seq 0 n)) by (apply in_seq; lia).
    apply H in Hin. apply memb_in in Hin. rewrite Nat.div_mul in Hin by lia. auto.
  - intros H j Hj. apply in_seq in Hj. apply memb_in. apply H.
    apply num_chunks_spec; auto.
    pose proof (Nat.div_mod j b ltac:(lia)). nia.
Qed.

(** * State of one partial message *)

(** [m] is the partial message after the chunks with index in [S] of [v] arrived. *)
Definition partial_ok (b : nat) (v : bytes) (S : list nat) (m : cmsg) : Prop :=
  (forall i, In i S -> (i < num_chunks (length v) b)%nat) /\
  (forall o, In o (received m) <-> exists i, In i S /\ o = Z.of_nat (i * b)) /\
  bytes_written m = Z.of_nat (cov b S (length v)) /\
  length (message m) = length v /\
  (forall j, (j < length v)%nat -> In (Nat.div j b) S -> nth j (message m) 0 = nth j v 0).

Lemma partial_ext b v S T m : (forall i, In i S <-> In i T) -> partial_ok b v S m -> partial_ok b v T m.
Proof.
  intros HST (H1 & H2 & H3 & H4 & H5). split; [|split; [|split; [|split]]]; auto.
  - intros i Hi. apply H1, HST; auto.
  - intros o. rewrite H2. split; intros (i & Hi & E); exists i; split; auto; apply HST; auto.
  - rewrite H3. f_equal. apply cov_ext; auto.
  - intros j Hj Hin. apply H5; auto. apply HST; auto.
Qed.

Lemma partial_new b v junk : Z.of_nat (length v) < 2 ^ 63 ->
  exists m, new_cmsg junk (Z.of_nat (length v)) = Ok m /\ partial_ok b v [] m.
Proof.
  intros H. unfold new_cmsg. replace (_ <? _) with true by (symmetry; apply Z.ltb_lt; auto).
  eexists; split; [reflexivity|]. rewrite Nat2Z.id. repeat split; simpl; auto.
  - intros i [].
  - intros [].
  - intros (i & [] & _).
  - unfold cov. replace (filter _ _) with (@nil nat); auto.
    induction (seq 0 (length v)) as [|x l IH]; simpl; auto.
  - rewrite map_length, seq_length. auto.
  - intros j _ [].
Qed.

Lemma chunk_data_length key v b i :
  (i * b < length v)%nat ->
  length (c_data (chunk_at key v b i)) = Nat.min b (length v - i * b).
Proof.
  intros H. unfold chunk_at; cbn [c_data]. rewrite firstn_length, skipn_length. lia.
Qed.

Lemma partial_add b v S m key i :
  (0 < b)%nat -> (i < num_chunks (length v) b)%nat -> partial_ok b v S m ->
  exists m', add_chunk m (Z.of_nat (i * b)) (c_data (chunk_at key v b i)) = Ok m' /\
             partial_ok b v (i :: S) m'.
Proof.
  intros Hb Hi (H1 & H2 & H3 & H4 & H5).
  pose proof Hi as Hi'. apply num_chunks_spec in Hi'; auto.
  pose proof (chunk_data_length key v b i Hi') as Hlen.
  unfold add_chunk.
  destruct (existsb (Z.eqb (Z.of_nat (i * b))) (received m)) eqn:E.
  - exists m; split; auto. apply partial_ext with S; [|repeat split; auto; apply H2].
    assert (HiS : In i S).
    { apply existsb_exists in E as (o & Ho & Eo). apply Z.eqb_eq in Eo. subst o.
      apply H2 in Ho as (i' & Hi1 & Hi2). apply Nat2Z.inj in Hi2.
      assert (i = i') by nia. subst; auto. }
    intros x; simpl; split; intuition; subst; auto.
  - assert (HiS : ~ In i S).
    { intros Hc. assert (existsb (Z.eqb (Z.of_nat (i * b))) (received m) = true); [|congruence].
      apply existsb_exists. exists (Z.of_nat (i * b)). split; [|apply Z.eqb_refl].
      apply H2. exists i; auto. }
    assert (Hfit : (i * b + length (c_data (chunk_at key v b i)) <= length (message m))%nat)
      by (rewrite Hlen, H4; lia).
    replace ((0 <=? Z.of_nat (i * b)) && _)%bool with true
      by (symmetry; apply andb_true_iff; split; apply Z.leb_le; unfold zlen; lia).
    eexists; split; [reflexivity|]. rewrite Nat2Z.id. repeat split; cbn [received bytes_written message].
    + intros x [<-|Hx]; auto.
    + intros [<-|Ho]; [exists i; simpl; auto|]. apply H2 in Ho as (x & Hx & ->).
      exists x; simpl; auto.
    + intros (x & [<-|Hx] & ->); simpl; auto. right; apply H2; eauto.
    + rewrite cov_cons by auto. unfold zlen. rewrite H3, Hlen. lia.
    + rewrite write_at_length; auto.
    + intros j Hj Hin. rewrite nth_write_at by auto.
      rewrite Hlen. destruct (Nat.leb (i * b) j && Nat.ltb j _)%bool eqn:Er.
      * apply andb_true_iff in Er as [Er1 Er2]. apply Nat.leb_le in Er1. apply Nat.ltb_lt in Er2.
        unfold chunk_at; cbn [c_data]. apply nth_chunk; lia.
      * destruct Hin as [Heq|Hin]; [|apply H5; auto]. exfalso.
        apply andb_false_iff in Er.
        pose proof (Nat.div_mod j b ltac:(lia)). pose proof (Nat.mod_upper_bound j b ltac:(lia)).
        destruct Er as [Er|Er]; [apply Nat.leb_gt in Er|apply Nat.ltb_ge in Er]; nia.
Qed.

Lemma partial_full b v S m : (0 < b)%nat -> partial_ok b v S m ->
  (is_fully_filled m = true <-> forall i, (i < num_chunks (length v) b)%nat -> In i S).
Proof.
  intros Hb (H1 & H2 & H3 & H4 & H5). unfold is_fully_filled, zlen.
  rewrite Z.eqb_eq, H3, H4. rewrite <- (cov_full b S (length v)) by auto. lia.
Qed.

Lemma partial_full_message b v S m : (0 < b)%nat -> partial_ok b v S m ->
  is_fully_filled m = true -> message m = v.
Proof.
  intros Hb Hp Hf. pose proof Hp as (H1 & H2 & H3 & H4 & H5).
  pose proof (proj1 (partial_full b v S m Hb Hp) Hf) as Hall.
  apply (nth_ext _ _ 0 0); auto. intros j Hj. rewrite H4 in Hj. apply H5; auto.
  apply Hall. apply num_chunks_spec; auto. pose proof (Nat.div_mod j b ltac:(lia)). nia.
Qed.

(** * The table *)

Lemma tab_find_erase_same k t : tab_find k (tab_erase k t) = None.
Proof.
  induction t as [|[k' m] t IH]; simpl; auto.
  destruct (bytes_eqb k k') eqn:E; simpl; auto. rewrite E; auto.
Qed.

Lemma tab_find_erase_other k k' t : k <> k' -> tab_find k (tab_erase k' t) = tab_find k t.
Proof.
  intros H. induction t as [|[k1 m] t IH]; simpl; auto.
  destruct (bytes_eqb k' k1) eqn:E; simpl.
  - apply bytes_eqb_eq in E. subst k1.
    destruct (bytes_eqb k k') eqn:E2; auto. apply bytes_eqb_eq in E2. contradiction.
  - rewrite IH. auto.
Qed.

(** Arrived chunk indices of a key since its last completion. *)
Definition idxs (k : bytes) (seen : list arrival) : list nat :=
  map snd (filter (fun x => bytes_eqb k (fst x)) seen).

Lemma idxs_in k seen i : In i (idxs k seen) <-> In (k, i) seen.
Proof.
  unfold idxs. rewrite in_map_iff. split.
  - intros ([k' i'] & <- & H). apply filter_In in H as [H1 H2]. simpl in H2.
    apply bytes_eqb_eq in H2. subst; auto.
  - intros H. exists (k, i). split; auto. apply filter_In; split; auto. simpl. apply bytes_eqb_refl.
Qed.

Lemma idxs_cons_same k i seen : idxs k ((k, i) :: seen) = i :: idxs k seen.
Proof. unfold idxs; simpl. rewrite bytes_eqb_refl. auto. Qed.

Lemma idxs_cons_other k k' i seen : k <> k' -> idxs k ((k', i) :: seen) = idxs k seen.
Proof. intros H. unfold idxs; simpl. apply bytes_eqb_neq in H. rewrite H. auto. Qed.

Lemma idxs_drop_same k seen : idxs k (filter (fun x => negb (bytes_eqb k (fst x))) seen) = [].
Proof.
  unfold idxs. induction seen as [|[k' i] s IH]; simpl; auto.
  destruct (bytes_eqb k k') eqn:E; simpl; auto. rewrite E; auto.
Qed.

Lemma idxs_drop_other k k' seen : k <> k' ->
  idxs k (filter (fun x => negb (bytes_eqb k' (fst x))) seen) = idxs k seen.
Proof.
  intros H. unfold idxs. induction seen as [|[k1 i] s IH]; simpl; auto.
  destruct (bytes_eqb k' k1) eqn:E; simpl.
  - apply bytes_eqb_eq in E. subst k1. apply bytes_eqb_neq in H. rewrite H. auto.
  - destruct (bytes_eqb k k1); simpl; rewrite IH; auto.
Qed.

Definition table_ok (b : nat) (payload : bytes -> bytes) (seen : list arrival) (t : table) : Prop :=
  forall k, match tab_find k t with
            | None => idxs k seen = []
            | Some m => partial_ok b (payload k) (idxs k seen) m
            end.

Section Run.
Variables (junk : nat -> byte) (b : nat) (payload : bytes -> bytes).
Hypothesis Hb : (0 < b)%nat.

Definition parts (k : bytes) : nat := num_chunks (length (payload k)) b.
Definition arrive (a : arrival) : chunk := chunk_at (fst a) (payload (fst a)) b (snd a).

Lemma on_chunk_step seen t a :
  table_ok b payload seen t ->
  Z.of_nat (length (payload (fst a))) < 2 ^ 63 -> (snd a < parts (fst a))%nat ->
  if completes parts seen a
  then exists t', on_chunk junk t (arrive a) = Ok (t', Some (payload (fst a))) /\
       table_ok b payload (filter (fun x => negb (bytes_eqb (fst a) (fst x))) seen) t'
  else exists t', on_chunk junk t (arrive a) = Ok (t', None) /\ table_ok b payload (a :: seen) t'.
Proof.
  destruct a as [k i]; cbn [fst snd]. intros Ht Hsz Hi. set (v := payload k) in *.
  assert (Hi' : (i * b < length v)%nat) by (apply num_chunks_spec; auto).
  pose proof (chunk_data_length k v b i Hi') as Hlen.
  assert (Hentry : exists m S, match tab_find k t with Some m => Ok m | None => new_cmsg junk (Z.of_nat (length v)) end = Ok m
            /\ partial_ok b v S m /\ S = idxs k seen).
  { specialize (Ht k). destruct (tab_find k t) as [m|].
    - exists m, (idxs k seen); auto.
    - destruct (partial_new b v junk Hsz) as (m & E & Hm). exists m, []. rewrite Ht; auto. }
  destruct Hentry as (m & S & Em & Hm & ->).
  destruct (partial_add b v _ m k i Hb Hi Hm) as (m' & Ea & Hm').
  assert (Hstep : on_chunk junk t (arrive (k, i)) =
           if is_fully_filled m' then Ok (tab_erase k t, Some (message m'))
           else Ok ((k, m') :: tab_erase k t, None)).
  { unfold on_chunk, arrive; cbn [fst snd]. fold v.
    cbn [c_key c_offset c_total chunk_at]. fold (c_data (chunk_at k v b i)).
    replace (_ <? _) with false.
    2:{ symmetry. apply Z.ltb_ge.
        change (c_data _) with (c_data (chunk_at k v b i)).
        unfold zlen. rewrite Hlen. rewrite Z.mod_small; lia. }
    rewrite Em. unfold to_int64.
    replace (Z.of_nat (i * b) <? 2 ^ 63) with true by (symmetry; apply Z.ltb_lt; lia).
    change (c_data _) with (c_data (chunk_at k v b i)). rewrite Ea. reflexivity. }
  rewrite Hstep.
  pose proof (partial_full b v _ m' Hb Hm') as Hfull.
  assert (Hc : completes parts seen (k, i) = is_fully_filled m').
  { apply eq_true_iff_eq. rewrite Hfull, completes_spec. cbn [fst].
    split; intros H j Hj.
    - specialize (H j Hj). apply idxs_in in H. rewrite idxs_cons_same in H. auto.
    - apply idxs_in. rewrite idxs_cons_same. auto. }
  rewrite Hc. destruct (is_fully_filled m') eqn:Ef.
  - eexists; split; [rewrite (partial_full_message b v _ m' Hb Hm' Ef); reflexivity|].
    intros k'. destruct (bytes_dec k' k) as [-> |Hne].
    + rewrite tab_find_erase_same. apply idxs_drop_same.
    + rewrite tab_find_erase_other, idxs_drop_other by auto. apply Ht.
  - eexists; split; [reflexivity|].
    intros k'. simpl. destruct (bytes_dec k' k) as [-> |Hne].
    + rewrite bytes_eqb_refl, idxs_cons_same. auto.
    + pose proof Hne as Hne'. apply bytes_eqb_neq in Hne'. rewrite Hne'.
      rewrite tab_find_erase_other, idxs_cons_other by auto. apply Ht.
Qed.

Lemma on_chunks_run l : forall seen t,
  table_ok b payload seen t ->
  (forall a, In a l -> Z.of_nat (length (payload (fst a))) < 2 ^ 63 /\ (snd a < parts (fst a))%nat) ->
  exists t', on_chunks junk t (map arrive l) = Ok (t', spec_outputs parts payload seen l).
Proof.
  induction l as [|a l IH]; intros seen t Ht Hl; simpl; [eauto|].
  destruct (Hl a (or_introl eq_refl)) as [Hsz Hi].
  pose proof (on_chunk_step seen t a Ht Hsz Hi) as Hs.
  assert (Hl' : forall x, In x l -> Z.of_nat (length (payload (fst x))) < 2 ^ 63 /\ (snd x < parts (fst x))%nat)
    by (intros x Hx; apply Hl; simpl; auto).
  destruct (completes parts seen a).
  - destruct Hs as (t1 & E & Ht1). rewrite E. destruct (IH _ _ Ht1 Hl') as (t2 & E2). rewrite E2. eauto.
  - destruct Hs as (t1 & E & Ht1). rewrite E. destruct (IH _ _ Ht1 Hl') as (t2 & E2). rewrite E2. eauto.
Qed.

End Run.

Lemma chunks_reassemble junk b payload l :
  (0 < b)%nat ->
  (forall k i, In (k, i) l -> Z.of_nat (length (payload k)) < 2 ^ 63 /\
                              (i < num_chunks (length (payload k)) b)%nat) ->
  exists t, on_chunks junk [] (map (fun a => chunk_at (fst a) (payload (fst a)) b (snd a)) l)
            = Ok (t, spec_outputs (fun k => num_chunks (length (payload k)) b) payload [] l).
Proof.
  intros Hb Hl. apply on_chunks_run; auto.
  - intros k. simpl. reflexivity.
  - intros [k i] H. apply Hl in H. auto.
Qed.

(** Single message: the first time all chunks are there. *)
Lemma spec_outputs_wait parts payload k idx : forall seen,
  (forall a, In a seen -> fst a = k) ->
  (exists i, (i < parts k)%nat /\ ~ In (k, i) seen /\ ~ In i idx) ->
  spec_outputs parts payload seen (map (fun i => (k, i)) idx) = map (fun _ => None) idx.
Proof.
  induction idx as [|j idx IH]; intros seen Hs (i & Hi & Hn1 & Hn2); simpl; auto.
  assert (E : completes parts seen (k, j) = false).
  { destruct (completes parts seen (k, j)) eqn:E; auto. exfalso.
    rewrite completes_spec in E. destruct (E i Hi) as [H|H]; [|contradiction].
    inversion H; subst. apply Hn2; simpl; auto. }
  rewrite E. f_equal. apply IH.
  - intros a [<-|H]; auto.
  - exists i. simpl. repeat split; auto; [|intros H; apply Hn2; simpl; auto].
    intros [H|H]; [|contradiction]. inversion H; subst. apply Hn2; simpl; auto.
Qed.

Lemma spec_outputs_app_wait parts payload k idx seen last :
  (forall a, In a seen -> fst a = k) ->
  (exists i, (i < parts k)%nat /\ ~ In (k, i) seen /\ ~ In i idx) ->
  (forall i, (i < parts k)%nat -> In (k, i) seen \/ In i idx \/ i = last) ->
  spec_outputs parts payload seen (map (fun i => (k, i)) (idx ++ [last])) =
  map (fun _ => None) idx ++ [Some (payload k)].
Proof.
  revert seen. induction idx as [|j idx IH]; intros seen Hs (i & Hi & Hn1 & Hn2) Hall.
  - simpl. assert (E : completes parts seen (k, last) = true).
    { apply completes_spec. intros x Hx. destruct (Hall x Hx) as [H|[H| ->]]; simpl; auto. destruct H. }
    rewrite E. reflexivity.
  - cbn [map app spec_outputs].
    assert (E : completes parts seen (k, j) = false).
    { destruct (completes parts seen (k, j)) eqn:E; auto. exfalso.
      rewrite completes_spec in E. destruct (E i Hi) as [H|H]; [|contradiction].
      inversion H; subst. apply Hn2; simpl; auto. }
    rewrite E. f_equal. apply IH.
    + intros a [<-|H]; auto.
    + exists i. simpl. repeat split; auto; [|intros H; apply Hn2; simpl; auto].
      intros [H|H]; [|contradiction]. inversion H; subst. apply Hn2; simpl; auto.
    + intros x Hx. destruct (Hall x Hx) as [H|[[H|H]|H]]; subst; simpl; auto.
Qed.

Lemma chunked_delivery junk b k v idx last :
  (0 < b)%nat -> Z.of_nat (length v) < 2 ^ 63 ->
  (forall i, In i (idx ++ [last]) -> (i < num_chunks (length v) b)%nat) ->
  (exists i, (i < num_chunks (length v) b)%nat /\ ~ In i idx) ->
  (forall i, (i < num_chunks (length v) b)%nat -> In i (idx ++ [last])) ->
  exists t, on_chunks junk [] (map (chunk_at k v b) (idx ++ [last]))
            = Ok (t, map (fun _ => None) idx ++ [Some v]).
Proof.
  intros Hb Hsz Hin (i & Hi & Hni) Hall.
  destruct (chunks_reassemble junk b (fun _ => v) (map (fun i => (k, i)) (idx ++ [last])) Hb) as (t & E).
  { intros k' j Hj. apply in_map_iff in Hj as (x & Hx & Hx2). inversion Hx; subst. auto. }
  exists t. rewrite map_map in E. cbn [fst snd] in E. etransitivity; [exact E|].
  do 2 f_equal. apply (spec_outputs_app_wait (fun _ => num_chunks (length v) b) (fun _ => v)).
  - intros a [].
  - exists i; auto.
  - intros x Hx. apply Hall in Hx. apply in_app_iff in Hx. simpl in Hx. intuition.
Qed.

Lemma chunked_wait junk b k v idx :
  (0 < b)%nat -> Z.of_nat (length v) < 2 ^ 63 ->
  (forall i, In i idx -> (i < num_chunks (length v) b)%nat) ->
  (exists i, (i < num_chunks (length v) b)%nat /\ ~ In i idx) ->
  exists t, on_chunks junk [] (map (chunk_at k v b) idx) = Ok (t, map (fun _ => None) idx).
Proof.
  intros Hb Hsz Hin (i & Hi & Hni).
  destruct (chunks_reassemble junk b (fun _ => v) (map (fun i => (k, i)) idx) Hb) as (t & E).
  { intros k' j Hj. apply in_map_iff in Hj as (x & Hx & Hx2). inversion Hx; subst. auto. }
  exists t. rewrite map_map in E. cbn [fst snd] in E. etransitivity; [exact E|].
  do 2 f_equal. apply (spec_outputs_wait (fun _ => num_chunks (length v) b) (fun _ => v)).
  - intros a [].
  - exists i; auto.
Qed.

(** * What holds for arbitrary (untrusted) headers *)

Lemma on_chunk_consistent_safe junk t c :
  0 <= c_offset c < 2 ^ 63 -> 0 <= c_total c < 2 ^ 63 -> zlen (c_data c) < 2 ^ 63 ->
  (forall m, tab_find (c_key c) t = Some m -> zlen (message m) = c_total c) ->
  on_chunk junk t c <> UB.
Proof.
  intros Ho Ht Hd Hm. unfold on_chunk.
  destruct (c_total c <? _) eqn:E; [discriminate|]. apply Z.ltb_ge in E.
  assert (0 <= zlen (c_data c)) by (unfold zlen; lia).
  rewrite Z.mod_small in E by lia.
  assert (He : forall m, match tab_find (c_key c) t with Some m => Ok m | None => new_cmsg junk (c_total c) end = Ok m
               -> zlen (message m) = c_total c).
  { intros m. destruct (tab_find (c_key c) t) as [m0|] eqn:F.
    - intros H0; inversion H0; subst. apply Hm; auto.
    - unfold new_cmsg. destruct (_ <? _); [|discriminate]. intros H0; inversion H0; subst.
      unfold zlen; simpl. rewrite map_length, seq_length. lia. }
  destruct (match tab_find (c_key c) t with Some m => Ok m | None => new_cmsg junk (c_total c) end) as [m| |] eqn:F.
  - specialize (He m eq_refl). unfold add_chunk, to_int64.
    replace (c_offset c <? 2 ^ 63) with true by (symmetry; apply Z.ltb_lt; lia).
    destruct (existsb _ _).
    + destruct (is_fully_filled m); discriminate.
    + replace ((0 <=? c_offset c) && _)%bool with true
        by (symmetry; apply andb_true_iff; split; apply Z.leb_le; lia).
      destruct (is_fully_filled _); discriminate.
  - discriminate.
  - exfalso. clear - F. destruct (tab_find (c_key c) t); [discriminate|].
    unfold new_cmsg in F. destruct (_ <? _); discriminate.
Qed.

Lemma add_chunk_zlen m o d m' : add_chunk m o d = Ok m' -> zlen (message m') = zlen (message m).
Proof.
  unfold add_chunk. destruct (existsb _ _); [intros H; inversion H; auto|].
  destruct ((0 <=? o) && (o + zlen d <=? zlen (message m)))%bool eqn:E; [|discriminate].
  intros H; inversion H; subst; cbn [message]. unfold zlen.
  apply andb_true_iff in E as [E1 E2]. apply Z.leb_le in E1, E2. unfold zlen in E2.
  rewrite write_at_length; auto. lia.
Qed.

Lemma on_chunks_consistent_safe junk (all : list chunk) :
  (forall c, In c all -> 0 <= c_offset c < 2 ^ 63 /\ 0 <= c_total c < 2 ^ 63 /\ zlen (c_data c) < 2 ^ 63) ->
  (forall c c', In c all -> In c' all -> c_key c = c_key c' -> c_total c = c_total c') ->
  forall cs t, incl cs all ->
  (forall k m c, tab_find k t = Some m -> In c all -> c_key c = k -> zlen (message m) = c_total c) ->
  on_chunks junk t cs <> UB.
Proof.
  intros Hb Hc. induction cs as [|c cs IH]; intros t Hin Ht; [discriminate|].
  cbn [on_chunks].
  assert (Hca : In c all) by (apply Hin; simpl; auto).
  destruct (Hb c Hca) as (B1 & B2 & B3).
  pose proof (on_chunk_consistent_safe junk t c B1 B2 B3 (fun m Hm => Ht _ m c Hm Hca eq_refl)) as Hs.
  destruct (on_chunk junk t c) as [[t' o]| |] eqn:E; [|discriminate|congruence].
  assert (Ht' : forall k m c0, tab_find k t' = Some m -> In c0 all -> c_key c0 = k -> zlen (message m) = c_total c0).
  { intros k m c0 Hf Hc0 Hk. unfold on_chunk in E.
    destruct (c_total c <? _); [discriminate|].
    destruct (match tab_find (c_key c) t with Some m => Ok m | None => new_cmsg junk (c_total c) end)
      as [m1| |] eqn:Em; [|discriminate|discriminate].
    destruct (add_chunk m1 (to_int64 (c_offset c)) (c_data c)) as [m2| |] eqn:Ea; [|discriminate|discriminate].
    assert (Hm1 : zlen (message m1) = c_total c).
    { destruct (tab_find (c_key c) t) as [m0|] eqn:F.
      - inversion Em; subst. apply (Ht _ _ c F Hca eq_refl).
      - unfold new_cmsg in Em. destruct (_ <? _); [|discriminate]. inversion Em; subst.
        unfold zlen; simpl. rewrite map_length, seq_length. lia. }
    apply add_chunk_zlen in Ea.
    destruct (is_fully_filled m2).
    - inversion E; subst. destruct (bytes_dec (c_key c0) (c_key c)) as [e|n].
      + rewrite e, tab_find_erase_same in Hf. discriminate.
      + rewrite tab_find_erase_other in Hf by auto. apply (Ht _ _ c0 Hf); auto.
    - inversion E; subst t' o. cbn [tab_find] in Hf.
      destruct (bytes_eqb k (c_key c)) eqn:Ek.
      + apply bytes_eqb_eq in Ek. inversion Hf; subst m. rewrite Ea, Hm1. apply Hc; auto. congruence.
      + apply bytes_eqb_neq in Ek. rewrite tab_find_erase_other in Hf by auto. apply (Ht _ _ c0 Hf); auto. }
  assert (Hr : on_chunks junk t' cs <> UB).
  { apply IH; auto. intros x Hx; apply Hin; simpl; auto. }
  destruct (on_chunks junk t' cs) as [[t'' os]| |]; [discriminate|discriminate|congruence].
Qed.

Lemma on_chunks_safe_from_empty junk cs :
  (forall c, In c cs -> 0 <= c_offset c < 2 ^ 63 /\ 0 <= c_total c < 2 ^ 63 /\ zlen (c_data c) < 2 ^ 63) ->
  (forall c c', In c cs -> In c' cs -> c_key c = c_key c' -> c_total c = c_total c') ->
  on_chunks junk [] cs <> UB.
Proof.
  intros H1 H2. apply (on_chunks_consistent_safe junk cs); auto.
  - intros x Hx; auto.
  - intros k m c H; discriminate.
Qed.

Lemma skipn_add {A} a b (l : list A) : skipn a (skipn b l) = skipn (b + a) l.
Proof.
  revert l; induction b as [|b IH]; intros l; [reflexivity|].
  destruct l as [|x l]; cbn [skipn Nat.add]; [apply skipn_nil|apply IH].
Qed.

Lemma send_chunked_concat_from k v b n s : (0 < b)%nat ->
  concat (map c_data (map (chunk_at k v b) (seq s n))) = firstn (n * b) (skipn (s * b) v).
Proof.
  intros Hb. revert s. induction n as [|n IH]; intros s; [reflexivity|].
  cbn [seq map concat]. rewrite IH. unfold chunk_at at 1; cbn [c_data].
  set (w := skipn (s * b) v).
  replace (skipn (S s * b) v) with (skipn b w).
  2:{ unfold w. rewrite skipn_add. f_equal. lia. }
  assert (Hw : (length v - s * b = length w)%nat) by (unfold w; rewrite skipn_length; auto).
  rewrite Hw.
  destruct (Nat.le_gt_cases b (length w)) as [H|H].
  - rewrite Nat.min_l by auto.
    transitivity (firstn (S n * b) (firstn b w ++ skipn b w)); [|rewrite firstn_skipn; auto].
    rewrite firstn_app, firstn_length, Nat.min_l by auto.
    f_equal; [rewrite firstn_firstn; f_equal; nia|f_equal; nia].
  - rewrite Nat.min_r by lia. rewrite (skipn_all2 w) by lia. rewrite firstn_nil, app_nil_r.
    rewrite firstn_all, firstn_all2; auto. nia.
Qed.

Lemma send_chunked_concat k v b : (0 < b)%nat -> concat (map c_data (send_chunked k v b)) = v.
Proof.
  intros Hb. unfold send_chunked. rewrite send_chunked_concat_from by auto.
  simpl skipn. apply firstn_all2.
  unfold num_chunks. pose proof (Nat.div_mod (length v + b - 1) b ltac:(lia)).
  pose proof (Nat.mod_upper_bound (length v + b - 1) b ltac:(lia)). nia.
Qed.
