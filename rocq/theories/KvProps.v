From Coq Require Import ZArith Bool List Lia.
From Verif Require Import KvModel.
Import ListNotations.
Open Scope Z_scope.

(** ** The order of the keys *)
Lemma key_ltb_irrefl a : key_ltb a a = false.
Proof. induction a as [|x a IH]; cbn; [reflexivity|]. rewrite IH, Z.ltb_irrefl, Z.eqb_refl. reflexivity. Qed.
Lemma key_total a b : key_ltb a b = false -> key_ltb b a = false -> a = b.
Proof.
  revert b. induction a as [|x a IH]; intros [|y b] H1 H2; cbn in *; try discriminate; auto.
  apply orb_false_iff in H1 as [H1 H1']. apply orb_false_iff in H2 as [H2 H2'].
  assert (x = y) by lia. subst y. rewrite Z.eqb_refl in *. cbn in *. f_equal. now apply IH.
Qed.
Lemma key_ltb_trans a b c : key_ltb a b = true -> key_ltb b c = true -> key_ltb a c = true.
Proof.
  revert b c. induction a as [|x a IH]; intros [|y b] [|z c] H1 H2; cbn in *; try discriminate; auto.
  apply orb_true_iff in H1. apply orb_true_iff in H2. apply orb_true_iff.
  destruct H1 as [H1|H1], H2 as [H2|H2]; try (left; lia);
    try (apply andb_prop in H1 as [E1 H1]); try (apply andb_prop in H2 as [E2 H2]);
    try (left; lia).
  right. apply andb_true_iff. split; [lia|]. now apply (IH b).
Qed.
Lemma key_ltb_asym a b : key_ltb a b = true -> key_ltb b a = false.
Proof.
  intros H. destruct (key_ltb b a) eqn:E; [|reflexivity].
  pose proof (key_ltb_trans _ _ _ H E). now rewrite key_ltb_irrefl in *.
Qed.

(** Sorted association lists. *)
Fixpoint sorted (m : kv_map) : Prop :=
  match m with
  | [] => True
  | (k, _) :: m' => (forall k' v', In (k', v') m' -> key_ltb k k' = true) /\ sorted m'
  end.
Lemma find_in m k v : sorted m -> (map_find m k = Some v <-> In (k, v) m).
Proof.
  induction m as [|[k' v'] m IH]; cbn; intros Hs; [easy|]. destruct Hs as [Hlt Hs].
  destruct (key_ltb k k') eqn:E1.
  - split; [discriminate|]. intros [H|H].
    + injection H as -> ->. now rewrite key_ltb_irrefl in E1.
    + apply Hlt in H. pose proof (key_ltb_asym _ _ E1). congruence.
  - destruct (key_ltb k' k) eqn:E2.
    + rewrite IH by exact Hs. split; [tauto|]. intros [H|H]; [|exact H].
      injection H as -> ->. now rewrite key_ltb_irrefl in E2.
    + rewrite (key_total _ _ E1 E2). split.
      * intros [= ->]. now left.
      * intros [H|H]; [congruence|]. apply Hlt in H. now rewrite key_ltb_irrefl in H.
Qed.
Lemma find_none m k : sorted m -> (map_find m k = None <-> forall v, ~ In (k, v) m).
Proof.
  intros Hs. split.
  - intros H v Hv. apply find_in in Hv; [congruence|exact Hs].
  - intros H. destruct (map_find m k) as [v|] eqn:E; [|reflexivity].
    apply find_in in E; [|exact Hs]. destruct (H v E).
Qed.

Lemma insert_in m k v k' v' : In (k', v') (map_insert m k v) -> (k' = k /\ v' = v) \/ In (k', v') m.
Proof.
  induction m as [|[k0 v0] m IH]; cbn.
  - intros [[= -> ->]|[]]. auto.
  - destruct (key_ltb k k0); cbn; [intros [[= -> ->]|H]; auto|].
    destruct (key_ltb k0 k); cbn; [|auto]. intros [H|H]; [auto|]. destruct (IH H); auto.
Qed.
Lemma insert_sorted m k v : sorted m -> sorted (map_insert m k v).
Proof.
  induction m as [|[k0 v0] m IH]; cbn; intros Hs; [split; [easy|exact I]|]. destruct Hs as [Hlt Hs].
  destruct (key_ltb k k0) eqn:E1; cbn.
  - split; [|split; assumption]. intros k' v' [[= -> ->]|H]; [exact E1|].
    apply (key_ltb_trans _ k0); [exact E1|]. now apply (Hlt _ v').
  - destruct (key_ltb k0 k) eqn:E2; cbn; [|split; assumption].
    split; [|now apply IH]. intros k' v' H. apply insert_in in H as [[-> ->]|H]; [exact E2|]. now apply (Hlt _ v').
Qed.
Lemma find_insert m k v k' : sorted m ->
  map_find (map_insert m k v) k' =
    match map_find m k' with Some w => Some w | None => if bytes_eqb k k' then Some v else None end.
Proof.
  unfold bytes_eqb. destruct (list_eq_dec Z.eq_dec k k') as [->|Hne]; intros Hs.
  - induction m as [|[k0 v0] m IH]; cbn.
    + now rewrite key_ltb_irrefl.
    + destruct Hs as [Hlt Hs]. destruct (key_ltb k' k0) eqn:E1; cbn; [now rewrite key_ltb_irrefl|].
      destruct (key_ltb k0 k') eqn:E2; cbn; rewrite E1, E2; [now apply IH|reflexivity].
  - induction m as [|[k0 v0] m IH]; cbn.
    + destruct (key_ltb k' k) eqn:E1; [reflexivity|]. destruct (key_ltb k k') eqn:E2; [reflexivity|].
      destruct Hne. now apply key_total.
    + destruct Hs as [Hlt Hs]. destruct (key_ltb k k0) eqn:E1; cbn.
      * destruct (key_ltb k' k) eqn:E3.
        -- rewrite (key_ltb_trans _ _ _ E3 E1). reflexivity.
        -- destruct (key_ltb k k') eqn:E4; [destruct (key_ltb k' k0); [reflexivity|]; destruct (key_ltb k0 k'); [now destruct (map_find m k')|reflexivity]|].
           destruct Hne. now apply key_total.
      * destruct (key_ltb k0 k) eqn:E2; cbn.
        -- destruct (key_ltb k' k0); [reflexivity|]. destruct (key_ltb k0 k'); [now apply IH|reflexivity].
        -- destruct (key_ltb k' k0); [reflexivity|]. destruct (key_ltb k0 k'); [now destruct (map_find m k')|reflexivity].
Qed.

Lemma set_in m k v k' v' : In (k', v') (ldb_set m k v) -> (k' = k /\ v' = v) \/ In (k', v') m.
Proof.
  induction m as [|[k0 v0] m IH]; cbn.
  - intros [[= -> ->]|[]]. auto.
  - destruct (key_ltb k k0); cbn; [intros [[= -> ->]|H]; auto|].
    destruct (key_ltb k0 k); cbn.
    + intros [H|H]; [auto|]. destruct (IH H); auto.
    + intros [[= -> ->]|H]; auto.
Qed.
Lemma set_sorted m k v : sorted m -> sorted (ldb_set m k v).
Proof.
  induction m as [|[k0 v0] m IH]; cbn; intros Hs; [split; [easy|exact I]|]. destruct Hs as [Hlt Hs].
  destruct (key_ltb k k0) eqn:E1; cbn.
  - split; [|split; assumption]. intros k' v' [[= -> ->]|H]; [exact E1|].
    apply (key_ltb_trans _ k0); [exact E1|]. now apply (Hlt _ v').
  - destruct (key_ltb k0 k) eqn:E2; cbn.
    + split; [|now apply IH]. intros k' v' H. apply set_in in H as [[-> ->]|H]; [exact E2|]. now apply (Hlt _ v').
    + rewrite (key_total _ _ E1 E2). split; assumption.
Qed.
Lemma find_set m k v k' : sorted m ->
  map_find (ldb_set m k v) k' = if bytes_eqb k k' then Some v else map_find m k'.
Proof.
  unfold bytes_eqb. destruct (list_eq_dec Z.eq_dec k k') as [->|Hne]; intros Hs.
  - induction m as [|[k0 v0] m IH]; cbn.
    + now rewrite key_ltb_irrefl.
    + destruct Hs as [Hlt Hs]. destruct (key_ltb k' k0) eqn:E1; cbn; [now rewrite key_ltb_irrefl|].
      destruct (key_ltb k0 k') eqn:E2; cbn; [rewrite E1, E2; now apply IH|now rewrite key_ltb_irrefl].
  - induction m as [|[k0 v0] m IH]; cbn.
    + destruct (key_ltb k' k) eqn:E1; [reflexivity|]. destruct (key_ltb k k') eqn:E2; [reflexivity|].
      destruct Hne. now apply key_total.
    + destruct Hs as [Hlt Hs]. destruct (key_ltb k k0) eqn:E1; cbn.
      * destruct (key_ltb k' k) eqn:E3.
        -- rewrite (key_ltb_trans _ _ _ E3 E1). reflexivity.
        -- destruct (key_ltb k k') eqn:E4; [reflexivity|]. destruct Hne. now apply key_total.
      * destruct (key_ltb k0 k) eqn:E2; cbn.
        -- destruct (key_ltb k' k0); [reflexivity|]. destruct (key_ltb k0 k'); [now apply IH|reflexivity].
        -- rewrite (key_total _ _ E1 E2). destruct (key_ltb k' k0) eqn:E3; [reflexivity|].
           destruct (key_ltb k0 k') eqn:E4; [reflexivity|]. destruct Hne. rewrite (key_total _ _ E1 E2).
           symmetry. now apply key_total.
Qed.

(** ** Histories *)
(** The store after a list of Put calls, the first one first. *)
Definition history := list (bytes * bytes).
Definition after (s : store) (h : history) : store := fold_left (fun s p => put s (fst p) (snd p)) h s.

(** What a user expects of a history, independent of any store: the first and the
    last value given to a key, and how many keys there are. *)
Fixpoint first_value (h : history) (k : bytes) : option bytes :=
  match h with [] => None | (k', v) :: h' => if bytes_eqb k' k then Some v else first_value h' k end.
Definition last_value (h : history) (k : bytes) : option bytes := first_value (rev h) k.
Definition distinct_keys (h : history) : nat := length (nodup (list_eq_dec Z.eq_dec) (map fst h)).

Lemma first_value_app h1 h2 k :
  first_value (h1 ++ h2) k = match first_value h1 k with Some v => Some v | None => first_value h2 k end.
Proof. induction h1 as [|[k' v] h IH]; cbn; [reflexivity|]. now destruct (bytes_eqb k' k). Qed.

Lemma mem_after h : exists m, after (Memory []) h = Memory m /\ sorted m /\ forall k, map_find m k = first_value h k.
Proof.
  induction h as [|[k v] h IH] using rev_ind.
  - exists []. repeat split.
  - destruct IH as (m & E & Hs & Hf). unfold after in *. rewrite fold_left_app, E. cbn.
    exists (map_insert m k v). split; [reflexivity|]. split; [now apply insert_sorted|].
    intros k'. rewrite find_insert by exact Hs. rewrite Hf, first_value_app. cbn. reflexivity.
Qed.
Lemma ldb_after h : exists m, after (Leveldb []) h = Leveldb m /\ sorted m /\ forall k, map_find m k = last_value h k.
Proof.
  induction h as [|[k v] h IH] using rev_ind.
  - exists []. repeat split.
  - destruct IH as (m & E & Hs & Hf). unfold after in *. rewrite fold_left_app, E. cbn.
    exists (ldb_set m k v). split; [reflexivity|]. split; [now apply set_sorted|].
    intros k'. rewrite find_set by exact Hs. rewrite Hf. unfold last_value. rewrite rev_app_distr. cbn. reflexivity.
Qed.

Lemma first_value_key h k : first_value h k <> None <-> In k (map fst h).
Proof.
  induction h as [|[k' v] h IH]; cbn; [intuition|]. unfold bytes_eqb.
  destruct (list_eq_dec Z.eq_dec k' k) as [->|Hne]; [split; [auto|discriminate]|].
  rewrite IH. intuition.
Qed.
Lemma sorted_nodup m : sorted m -> NoDup (map fst m).
Proof.
  induction m as [|[k v] m IH]; cbn; [constructor|]. intros [Hlt Hs]. constructor; [|now apply IH].
  intros H. apply in_map_iff in H as ([k' v'] & E & H). cbn in E. subst k'. apply Hlt in H. now rewrite key_ltb_irrefl in H.
Qed.
Lemma length_keys m h : sorted m -> (forall k, map_find m k <> None <-> In k (map fst h)) -> length m = distinct_keys h.
Proof.
  intros Hs H. unfold distinct_keys. rewrite <- (map_length fst m).
  apply Nat.le_antisymm; apply NoDup_incl_length.
  - now apply sorted_nodup.
  - intros k Hk. apply nodup_In, H. apply in_map_iff in Hk as ([k' v'] & E & Hk). cbn in E. subst k'.
    apply find_in in Hk; [congruence|exact Hs].
  - apply NoDup_nodup.
  - intros k Hk. apply nodup_In, H in Hk. destruct (map_find m k) as [v|] eqn:E; [|congruence].
    apply find_in in E; [|exact Hs]. apply in_map_iff. exists (k, v). auto.
Qed.
Lemma fold_count m c : fold_left (fun c (_ : bytes * bytes) => S c) m c = (length m + c)%nat.
Proof. revert c. induction m as [|a m IH]; intros c; cbn; [reflexivity|]. rewrite IH. lia. Qed.

(** ** C102: the key-value stores *)

(** LevelDB store: after every history, Get gives the last value put under the
    key and leaves the caller's string alone if there is none. *)
Theorem leveldb_store_last_put :
  forall h k old, get (after (Leveldb []) h) k old =
    match last_value h k with Some v => (true, v) | None => (false, old) end.
Proof.
  intros h k old. destruct (ldb_after h) as (m & E & _ & Hf). rewrite E. cbn. unfold ldb_get. now rewrite Hf.
Qed.
(** Memory store: it gives the first one. *)
Theorem memory_store_first_put :
  forall h k old, get (after (Memory []) h) k old =
    match first_value h k with Some v => (true, v) | None => (false, old) end.
Proof.
  intros h k old. destruct (mem_after h) as (m & E & _ & Hf). rewrite E. cbn. unfold mem_get. now rewrite Hf.
Qed.
(** Count is the number of different keys put, in both. *)
Theorem store_counts_keys :
  forall h, count (after (Memory []) h) = distinct_keys h /\ count (after (Leveldb []) h) = distinct_keys h.
Proof.
  intros h. split.
  - destruct (mem_after h) as (m & E & Hs & Hf). rewrite E. cbn. apply length_keys; [exact Hs|].
    intros k. rewrite Hf. apply first_value_key.
  - destruct (ldb_after h) as (m & E & Hs & Hf). rewrite E. cbn. unfold ldb_count. rewrite fold_count, Nat.add_0_r.
    apply length_keys; [exact Hs|]. intros k. rewrite Hf. unfold last_value. rewrite first_value_key, map_rev.
    symmetry. apply in_rev.
Qed.
(** A key that was put is found, with one of the values put under it, and a key
    that was not put is not found. *)
Lemma first_value_in h k v : first_value h k = Some v -> In (k, v) h.
Proof.
  induction h as [|[k' v'] h IH]; cbn; [discriminate|]. unfold bytes_eqb.
  destruct (list_eq_dec Z.eq_dec k' k) as [->|]; [intros [= ->]; now left|]. intros H. right. now apply IH.
Qed.
Theorem store_found_iff_put :
  forall (memory : bool) h k old,
  let r := get (after (if memory then Memory [] else Leveldb []) h) k old in
  (fst r = true <-> In k (map fst h)) /\ (fst r = true -> In (k, snd r) h) /\ (fst r = false -> snd r = old).
Proof.
  intros memory h k old r. subst r. destruct memory.
  - rewrite memory_store_first_put. pose proof (first_value_key h k) as H.
    destruct (first_value h k) as [v|] eqn:E; cbn; repeat split; auto; try discriminate.
    + intros _. apply H. discriminate.
    + intros _. now apply first_value_in.
    + intros Hk. apply H in Hk. congruence.
  - rewrite leveldb_store_last_put. unfold last_value. pose proof (first_value_key (rev h) k) as H.
    rewrite map_rev, <- in_rev in H.
    destruct (first_value (rev h) k) as [v|] eqn:E; cbn; repeat split; auto; try discriminate.
    + intros _. apply H. discriminate.
    + intros _. apply in_rev. now apply first_value_in.
    + intros Hk. apply H in Hk. congruence.
Qed.
(** Get into a Buffer: the same answer; a miss empties the buffer. *)
Theorem store_get_buffer :
  forall (memory : bool) h k old,
  let s := after (if memory then Memory [] else Leveldb []) h in
  fst (get_buffer s k old) = fst (get s k old) /\
  (fst (get_buffer s k old) = true -> snd (get_buffer s k old) = snd (get s k old)) /\
  (fst (get_buffer s k old) = false -> snd (get_buffer s k old) = []).
Proof.
  intros memory h k old s. subst s. unfold get_buffer. destruct memory.
  - rewrite !memory_store_first_put. destruct (first_value h k); cbn; repeat split; auto; discriminate.
  - rewrite !leveldb_store_last_put. destruct (last_value h k); cbn; repeat split; auto; discriminate.
Qed.
(** As long as no key is put twice the two stores cannot be told apart. *)
Theorem stores_agree_on_new_keys :
  forall h, NoDup (map fst h) -> forall k old,
  get (after (Memory []) h) k old = get (after (Leveldb []) h) k old /\
  count (after (Memory []) h) = count (after (Leveldb []) h).
Proof.
  intros h Hd k old. destruct (store_counts_keys h) as [-> ->]. split; [|reflexivity].
  rewrite memory_store_first_put, leveldb_store_last_put. unfold last_value.
  assert (E : first_value h k = first_value (rev h) k).
  { clear old. induction h as [|[k' v] h IH]; cbn; [reflexivity|]. inversion Hd as [|? ? Hn Hd']; subst.
    rewrite first_value_app. rewrite <- IH by exact Hd'. cbn. unfold bytes_eqb.
    destruct (list_eq_dec Z.eq_dec k' k) as [->|]; [|now destruct (first_value h k)].
    destruct (first_value h k) as [w|] eqn:E; [|reflexivity].
    destruct Hn. apply first_value_key. congruence. }
  now rewrite E.
Qed.
(** Overwriting does not work in the memory store. *)
Theorem memory_store_overwrites_refuted :
  exists h k v old, last_value h k = Some v /\ get (after (Memory []) h) k old <> (true, v) /\
    get (after (Leveldb []) h) k old = (true, v).
Proof. exists [([107], [1]); ([107], [2])], [107], [2], []. vm_compute. repeat split. discriminate. Qed.

(** IndexStore: the keys of different indices are different, so an index store is
    an array: every statement above holds with indices for keys. *)
Definition dec_val (l : bytes) : Z := fold_left (fun a d => a * 10 + (d - 48)) l 0.
Lemma dec_val_app l1 l2 : dec_val (l1 ++ l2) = fold_left (fun a d => a * 10 + (d - 48)) l2 (dec_val l1).
Proof. unfold dec_val. now rewrite fold_left_app. Qed.
Lemma digits_app f : forall n acc, digits f n acc = digits f n [] ++ acc.
Proof.
  induction f as [|f IH]; intros n acc; cbn [digits]; [reflexivity|].
  destruct (n / 10 =? 0); [reflexivity|]. rewrite IH, (IH _ [_]), <- app_assoc. reflexivity.
Qed.
Lemma digits_val f : forall n, 0 <= n < 10 ^ Z.of_nat f -> dec_val (digits f n []) = n.
Proof.
  induction f as [|f IH]; intros n Hn; [rewrite Z.pow_0_r in Hn; assert (n = 0) by lia; now subst|].
  cbn [digits]. rewrite Nat2Z.inj_succ, Z.pow_succ_r in Hn by lia.
  pose proof (Z.div_mod n 10 ltac:(lia)) as E.
  destruct (Z.eqb_spec (n / 10) 0) as [E0|E0].
  - unfold dec_val. cbn [fold_left]. lia.
  - rewrite digits_app, dec_val_app, IH.
    + cbn [fold_left]. lia.
    + split; [apply Z.div_pos; lia|]. apply Z.div_lt_upper_bound; lia.
Qed.
Theorem index_keys_distinct :
  forall i j, 0 <= i < 2 ^ 64 -> 0 <= j < 2 ^ 64 -> to_string i = to_string j -> i = j.
Proof.
  intros i j Hi Hj E. unfold to_string in E.
  assert (2 ^ 64 < 10 ^ Z.of_nat 20) by reflexivity.
  rewrite <- (digits_val 20 i), <- (digits_val 20 j), E by lia. reflexivity.
Qed.
Definition iafter (s : store) (h : list (Z * bytes)) : store := fold_left (fun s p => iput s (fst p) (snd p)) h s.
Fixpoint first_at (h : list (Z * bytes)) (i : Z) : option bytes :=
  match h with [] => None | (j, v) :: h' => if j =? i then Some v else first_at h' i end.
Lemma iafter_eq s h : iafter s h = after s (map (fun p => (to_string (fst p), snd p)) h).
Proof. revert s. induction h as [|[i v] h IH]; intros s; cbn; [reflexivity|]. apply IH. Qed.
Lemma first_at_string h i : 0 <= i < 2 ^ 64 -> Forall (fun p => 0 <= fst p < 2 ^ 64) h ->
  first_value (map (fun p => (to_string (fst p), snd p)) h) (to_string i) = first_at h i.
Proof.
  intros Hi. induction h as [|[j v] h IH]; intros Hh; cbn [map first_value first_at fst snd]; [reflexivity|].
  inversion Hh as [|? ? Hj Hh']; subst. cbn [fst] in Hj. unfold bytes_eqb.
  destruct (list_eq_dec Z.eq_dec (to_string j) (to_string i)) as [E|E].
  - apply index_keys_distinct in E; auto. subst j. now rewrite Z.eqb_refl.
  - destruct (Z.eqb_spec j i) as [->|]; [congruence|]. now apply IH.
Qed.
Theorem index_store_reads :
  forall h i old, 0 <= i < 2 ^ 64 -> Forall (fun p => 0 <= fst p < 2 ^ 64) h ->
  iget (iafter (Leveldb []) h) i old =
    match first_at (rev h) i with Some v => (true, v) | None => (false, old) end /\
  iget (iafter (Memory []) h) i old =
    match first_at h i with Some v => (true, v) | None => (false, old) end.
Proof.
  intros h i old Hi Hh. unfold iget. rewrite !iafter_eq, leveldb_store_last_put, memory_store_first_put.
  unfold last_value. rewrite <- map_rev, !first_at_string; auto. apply Forall_rev. exact Hh.
Qed.
(** Reading an index into a Buffer, and Count: one per distinct index. *)
Theorem index_store_reads_buffer :
  forall h i old, 0 <= i < 2 ^ 64 -> Forall (fun p => 0 <= fst p < 2 ^ 64) h ->
  iget_buffer (iafter (Leveldb []) h) i old =
    match first_at (rev h) i with Some v => (true, v) | None => (false, []) end /\
  iget_buffer (iafter (Memory []) h) i old =
    match first_at h i with Some v => (true, v) | None => (false, []) end.
Proof. intros h i old Hi Hh. exact (index_store_reads h i [] Hi Hh). Qed.
Theorem index_store_count :
  forall h, Forall (fun p => 0 <= fst p < 2 ^ 64) h ->
  icount (iafter (Leveldb []) h) = length (nodup Z.eq_dec (map fst h)) /\
  icount (iafter (Memory []) h) = length (nodup Z.eq_dec (map fst h)).
Proof.
  intros h Hh. unfold icount. rewrite !iafter_eq. destruct (store_counts_keys (map (fun p => (to_string (fst p), snd p)) h)) as [-> ->].
  assert (E : length (nodup (list_eq_dec Z.eq_dec) (map fst (map (fun p => (to_string (fst p), snd p)) h))) = length (nodup Z.eq_dec (map fst h))).
  { induction h as [|[i v] h IH]; [reflexivity|]. inversion Hh as [|? ? Hi Hh']; subst. cbn [map fst nodup].
    specialize (IH Hh'). cbn [fst] in Hi.
    destruct (in_dec (list_eq_dec Z.eq_dec) (to_string i) _) as [H|H]; destruct (in_dec Z.eq_dec i (map fst h)) as [H'|H'].
    - exact IH.
    - exfalso. apply H'. rewrite map_map in H. apply in_map_iff in H. destruct H as ([j w] & Hj & Hin). cbn [fst] in Hj.
      rewrite Forall_forall in Hh'. apply index_keys_distinct in Hj; [|exact (Hh' _ Hin)|exact Hi]. subst j.
      apply in_map_iff. exists (i, w). auto.
    - exfalso. apply H. rewrite map_map. apply in_map_iff in H'. destruct H' as ([j w] & Hj & Hin). cbn [fst] in Hj. subst j.
      apply in_map_iff. exists (i, w). auto.
    - cbn [length]. now rewrite IH. }
  auto.
Qed.

(** ** Instances *)
Example kv_example :
  let h := [([98], [1; 2]); ([97], [3]); ([98], [4]); ([], [5])] in
  get (after (Leveldb []) h) [98] [9] = (true, [4]) /\ get (after (Memory []) h) [98] [9] = (true, [1; 2]) /\
  get (after (Memory []) h) [99] [9] = (false, [9]) /\ get_buffer (after (Memory []) h) [99] [9] = (false, []) /\
  count (after (Leveldb []) h) = 3%nat /\ after (Memory []) h = Memory [([], [5]); ([97], [3]); ([98], [1; 2])].
Proof. repeat split. Qed.
Example index_example : to_string 0 = [48] /\ to_string 1905 = [49; 57; 48; 53] /\
  iget (iafter (Leveldb []) [(12, [1]); (1, [2])]) 12 [] = (true, [1]).
Proof. repeat split. Qed.
Example new_keys_example : NoDup (map fst [([98], [1; 2]); ([97], [3])]).
Proof. repeat constructor; cbn; intuition discriminate. Qed.

Print Assumptions leveldb_store_last_put.
Print Assumptions memory_store_first_put.
Print Assumptions store_counts_keys.
Print Assumptions store_found_iff_put.
Print Assumptions store_get_buffer.
Print Assumptions stores_agree_on_new_keys.
Print Assumptions memory_store_overwrites_refuted.
Print Assumptions index_keys_distinct.
Print Assumptions index_store_reads.
Print Assumptions index_store_reads_buffer.
Print Assumptions index_store_count.
