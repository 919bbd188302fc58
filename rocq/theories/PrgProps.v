(** Properties C47 (FillPRand), C48 (Prg) and C49 (bounded samplers). *)
From Coq Require Import List NArith Bool Arith Lia.
From Verif Require Import PrgModel PrgProof.
Import ListNotations.
Open Scope nat_scope.

(** ** Specification *)
(** Blocks in memory, little endian. *)
Definition bytes_of (blocks : list N) : list N := flat_map (le_bytes 16) blocks.
Definition blocks_for (len : nat) : nat := (len + 15) / 16.
Fixpoint total_blocks (lens : list nat) : nat :=
  match lens with [] => 0 | l :: t => blocks_for l + total_blocks t end.
(** Successive fills, each from the counter the previous one returned. *)
Fixpoint fills enc m iv c (lens : list nat) : list (list N) :=
  match lens with
  | [] => []
  | l :: t => fst (fill enc m iv c l) :: fills enc m iv (snd (fill enc m iv c l)) t
  end.
(** The ECB stream of a key: E(0), E(1), ... *)
Definition stream (enc : N -> N) (n : nat) : list N := bytes_of (map (fun j => enc (N.of_nat j)) (seq 0 n)).

(** ** C47 *)
Lemma fill_snd enc m iv c len : (c + N.of_nat (blocks_for len) < 2 ^ 64)%N -> snd (fill enc m iv c len) = (c + N.of_nat (blocks_for len))%N.
Proof. intros H. unfold fill. cbn [snd]. apply N.mod_small. exact H. Qed.
Lemma cbc_firstn enc l : forall p k, firstn k (cbc enc p l) = cbc enc p (firstn k l).
Proof. induction l as [|b l IH]; intros p [|k]; cbn; auto. f_equal. apply IH. Qed.
Lemma firstn_seq_le k n : k <= n -> firstn k (seq 0 n) = seq 0 k.
Proof.
  intros H. replace n with (k + (n - k)) by lia. rewrite seq_app, firstn_app, seq_length, Nat.sub_diag, firstn_O, app_nil_r.
  apply firstn_all2. rewrite seq_length. lia.
Qed.
Lemma cut_prefix (l : list N) len len' nb nb' : len <= len' -> len <= 16 * nb -> nb <= nb' ->
  firstn len (to_mem (firstn nb l)) = firstn len (firstn len' (to_mem l)).
Proof.
  intros A B C. rewrite <- to_mem_firstn, !firstn_firstn. f_equal. lia.
Qed.

(** Asking for fewer bytes gives a prefix, in every mode. *)
Theorem fill_prefix enc m iv c len len' :
  len <= len' -> (c + N.of_nat (blocks_for len') < 2 ^ 64)%N ->
  fst (fill enc m iv c len) = firstn len (fst (fill enc m iv c len')) /\ length (fst (fill enc m iv c len)) = len.
Proof.
  intros L H. change blocks_for with nblock in *.
  assert (NB : nblock len <= nblock len') by (pose proof (nblock_bounds len); pose proof (nblock_bounds len'); lia).
  pose proof (nblock_bounds len) as [B _]. split; [|apply fill_length; right; lia].
  destruct m.
  - rewrite !fill_ecb by lia. rewrite <- (firstn_seq_le (nblock len) (nblock len') NB), <- firstn_map.
    apply (cut_prefix _ _ _ _ (nblock len')); auto.
  - rewrite !fill_cbc by lia. rewrite <- (firstn_seq_le (nblock len) (nblock len') NB), <- firstn_map, <- cbc_firstn.
    apply (cut_prefix _ _ _ _ (nblock len')); auto.
  - rewrite !fill_ctr. rewrite <- (firstn_seq_le (nblock len) (nblock len') NB), <- firstn_map.
    apply (cut_prefix _ _ _ _ (nblock len')); auto.
Qed.

Lemma seq_from s k : seq s k = map (fun j => s + j) (seq 0 k).
Proof.
  revert s. induction k as [|k IH]; intros s; cbn [seq map]; auto. f_equal; [lia|]. rewrite IH, (IH 1), map_map.
  apply map_ext. intros j. lia.
Qed.
(** In ECB mode a fill of whole blocks can be continued from the returned counter. *)
Theorem fill_continues enc iv c a b :
  a mod 16 = 0 -> (c + N.of_nat (blocks_for (a + b)) < 2 ^ 64)%N ->
  fst (fill enc ECB iv c (a + b)) = fst (fill enc ECB iv c a) ++ fst (fill enc ECB iv (snd (fill enc ECB iv c a)) b)
  /\ snd (fill enc ECB iv c (a + b)) = snd (fill enc ECB iv (snd (fill enc ECB iv c a)) b).
Proof.
  intros A H. change blocks_for with nblock in H. pose proof (nblock_add a b A) as NA. rewrite NA in H.
  assert (E : snd (fill enc ECB iv c a) = (c + N.of_nat (nblock a))%N) by (apply fill_snd; change blocks_for with nblock; lia).
  rewrite E. split.
  - rewrite !fill_ecb by lia. rewrite NA, seq_app, map_app, to_mem_app.
    pose proof (nblock_exact a A) as EA. rewrite firstn_app.
    assert (LA : length (to_mem (map (fun j => enc (c + N.of_nat j)%N) (seq 0 (nblock a)))) = a) by (rewrite to_mem_length, map_length, seq_length; exact EA).
    rewrite LA. replace (a + b - a) with b by lia. rewrite !firstn_all2 with (n := a + b) by (rewrite LA; lia).
    rewrite (firstn_all2 (n := a)) by (rewrite LA; lia). f_equal. f_equal. f_equal.
    rewrite (seq_from (0 + nblock a)), map_map. apply map_ext. intros j. f_equal. lia.
  - rewrite !fill_snd by (change blocks_for with nblock; lia). change blocks_for with nblock. rewrite NA. lia.
Qed.
(** Not so in CTR mode: the counter is put little endian in the IV and incremented big endian. *)
Theorem ctr_continues_refuted : exists enc c a b, a mod 16 = 0 /\
  fst (fill enc CTR 0 c (a + b)) <> fst (fill enc CTR 0 c a) ++ fst (fill enc CTR 0 (snd (fill enc CTR 0 c a)) b).
Proof. exists (fun x => x), 0%N, 16, 16. split; [reflexivity|]. vm_compute. discriminate. Qed.
(** And the initial vector has no effect in CTR mode. *)
Theorem ctr_ignores_iv_refuted enc iv iv' c len : fill enc CTR iv c len = fill enc CTR iv' c len.
Proof. reflexivity. Qed.

(** No cipher input is used twice in a sequence of fills, in ECB or CTR mode. *)
Fixpoint pairs (c : N) (lens : list nat) : list (list (N * nat)) :=
  match lens with [] => [] | l :: t => map (fun j => (c, j)) (seq 0 (nblock l)) :: pairs (c + N.of_nat (nblock l))%N t end.
Definition input (m : mode) (p : N * nat) : N := match m with CTR => ctr_in (fst p) (snd p) | _ => (fst p + N.of_nat (snd p))%N end.
Lemma pairs_sum lens : forall c, map (fun p => (fst p + N.of_nat (snd p))%N) (concat (pairs c lens)) = map (fun j => (c + N.of_nat j)%N) (seq 0 (total_blocks lens)).
Proof.
  induction lens as [|l lens IH]; intros c; cbn [pairs concat total_blocks]; auto.
  change (blocks_for l) with (nblock l). rewrite map_app, IH, seq_app, map_app, map_map. cbn [fst snd Nat.add]. f_equal.
  rewrite (seq_from (nblock l)), map_map. apply map_ext. intros j. lia.
Qed.
Lemma NoDup_map_in {A B} (f : A -> B) l : (forall x y, In x l -> In y l -> f x = f y -> x = y) -> NoDup l -> NoDup (map f l).
Proof.
  intros H D. induction D as [|a l NI D IH]; cbn [map]; constructor.
  - intros K. apply in_map_iff in K as (b & E & I). apply NI. rewrite (H a b); auto; [left; auto|right; auto].
  - apply IH. intros x y X Y. apply H; right; auto.
Qed.
Lemma pairs_range lens : forall c p, In p (concat (pairs c lens)) -> (c <= fst p /\ fst p + N.of_nat (snd p) < c + N.of_nat (total_blocks lens))%N.
Proof.
  induction lens as [|l lens IH]; intros c p H; [contradiction|]. cbn [pairs concat total_blocks] in *.
  change (blocks_for l) with (nblock l). apply in_app_iff in H as [H|H].
  - apply in_map_iff in H as (j & <- & J). apply in_seq in J. cbn [fst snd]. lia.
  - apply IH in H. lia.
Qed.
Lemma pairs_nodup lens c : NoDup (concat (pairs c lens)).
Proof.
  apply (NoDup_map_inv (fun p => (fst p + N.of_nat (snd p))%N)). rewrite pairs_sum.
  apply NoDup_map_in; [intros x y _ _ E; lia|apply seq_NoDup].
Qed.
Lemma fills_inputs enc m iv lens : m <> CBC -> forall c, (c + N.of_nat (total_blocks lens) < 2 ^ 64)%N ->
  fills enc m iv c lens = map (fun q => firstn (fst q) (to_mem (map enc (map (input m) (snd q))))) (combine lens (pairs c lens)).
Proof.
  intros M. induction lens as [|l lens IH]; intros c H; cbn [fills pairs combine map total_blocks] in *; auto.
  change (blocks_for l) with (nblock l) in H. rewrite fill_snd by (change blocks_for with nblock; lia). change (blocks_for l) with (nblock l).
  f_equal; [|apply IH; lia]. cbn [fst snd]. rewrite !map_map. destruct m; [|contradiction|].
  - rewrite fill_ecb by lia. reflexivity.
  - apply fill_ctr.
Qed.
Theorem fills_no_reuse m iv c lens : m <> CBC -> (c + N.of_nat (total_blocks lens) < 2 ^ 64)%N ->
  exists ins : list (list N),
    NoDup (concat ins) /\ map (@length N) ins = map blocks_for lens /\
    forall enc, fills enc m iv c lens = map (fun q => firstn (fst q) (bytes_of (map enc (snd q)))) (combine lens ins).
Proof.
  intros M H. exists (map (map (input m)) (pairs c lens)). split; [|split].
  - rewrite <- concat_map. destruct m; [|contradiction|].
    + change (input ECB) with (fun p : N * nat => (fst p + N.of_nat (snd p))%N). rewrite pairs_sum.
      apply NoDup_map_in; [intros x y _ _ E; lia|apply seq_NoDup].
    + apply NoDup_map_in; [|apply pairs_nodup]. intros [a i] [b j] A B E. apply pairs_range in A. apply pairs_range in B. cbn [fst snd] in *.
      cbn [input fst snd] in E. destruct (ctr_in_inj a i b j) as [-> ->]; auto; lia.
  - clear. revert c. induction lens as [|l lens IH]; intros c; cbn [pairs map]; auto. f_equal; [|apply IH].
    rewrite !map_length, seq_length. reflexivity.
  - intros enc. rewrite fills_inputs by auto. generalize (pairs c lens). clear.
    induction lens as [|l lens IH]; intros [|p ps]; cbn [combine map]; auto. f_equal. apply IH.
Qed.

Example fills_concrete : (0 + N.of_nat (total_blocks [5; 16; 33]%nat) < 2 ^ 64)%N /\
  fills (fun x => (x * 3)%N) ECB 0 0 [5; 16; 33] <> fills (fun x => (x * 3)%N) CTR 0 0 [5; 16; 33].
Proof. vm_compute. split; [reflexivity|discriminate]. Qed.
Print Assumptions fill_prefix.
Print Assumptions fill_continues.
Print Assumptions ctr_continues_refuted.
Print Assumptions fills_no_reuse.

(** ** C48 *)
Lemma skipn_to_mem k : forall l, skipn (16 * k) (to_mem l) = to_mem (skipn k l).
Proof.
  induction k as [|k IH]; intros l; [reflexivity|]. destruct l as [|b l]; [rewrite !skipn_nil; reflexivity|].
  cbn [skipn]. rewrite <- IH. cbn [to_mem flat_map]. fold (to_mem l).
  rewrite skipn_app, (skipn_all2 (le_bytes 16 b)) by (rewrite le_bytes_length; lia). rewrite le_bytes_length. cbn [app]. f_equal. lia.
Qed.
Lemma firstn_skipn_firstn {A} (l : list A) n a m : a + n <= m -> firstn n (skipn a (firstn m l)) = firstn n (skipn a l).
Proof. intros H. rewrite skipn_firstn_comm, firstn_firstn. f_equal. lia. Qed.
Lemma skipn_skipn_add {A} (l : list A) : forall a b, skipn a (skipn b l) = skipn (b + a) l.
Proof. induction l as [|x l IH]; intros a [|b]; cbn; auto. - apply skipn_nil. Qed.
Lemma map_skipn_nat {A B} (f : A -> B) n : forall l, skipn n (map f l) = map f (skipn n l).
Proof. induction n as [|n IH]; intros [|x l]; cbn; auto. Qed.
Lemma skipn_seq_add k n : skipn k (seq 0 (k + n)) = seq k n.
Proof. rewrite seq_app, skipn_app, seq_length, Nat.sub_diag, skipn_all2 by (rewrite seq_length; lia). reflexivity. Qed.

Section Calls.
Variables (enc : N -> N -> N) (batch sz bs : nat) (s : N).
Hypothesis B0 : 0 < batch.
Hypothesis BS : batch * sz = 16 * bs.
Definition slice (b : nat) : list N := to_mem (map (fun j => enc s (N.of_nat (b * bs) + N.of_nat j)%N) (seq 0 bs)).
Definition at_pos (p : prg) (b r : nat) : Prop :=
  seed p = s /\ r < batch /\
  ((r = 0 /\ consumed p = batch /\ counter p = N.of_nat (b * bs)) \/
   (consumed p = r /\ counter p = N.of_nat (S b * bs) /\ budget p = slice b)).
Lemma nblock_batch : nblock (batch * sz) = bs.
Proof. unfold nblock. rewrite BS. symmetry. apply Nat.div_unique with (r := 15); lia. Qed.
Lemma slice_chunk b r K : r < batch -> S b * bs <= K -> chunk sz (slice b) r = chunk sz (stream (enc s) K) (b * batch + r).
Proof.
  intros R H. unfold chunk, slice, stream. change (bytes_of) with to_mem.
  assert (E : to_mem (map (fun j => enc s (N.of_nat (b * bs) + N.of_nat j)%N) (seq 0 bs)) =
              firstn (batch * sz) (skipn (b * (batch * sz)) (to_mem (map (fun j => enc s (N.of_nat j)) (seq 0 K))))).
  { replace (b * (batch * sz)) with (16 * (b * bs)) by lia. rewrite skipn_to_mem, BS, to_mem_firstn. f_equal.
    rewrite map_skipn_nat, firstn_map. replace K with (b * bs + (K - b * bs)) by lia. rewrite skipn_seq_add, (seq_from (b * bs)), firstn_map.
    rewrite firstn_seq_le by lia. rewrite map_map. apply map_ext. intros j. f_equal. lia. }
  rewrite E. rewrite firstn_skipn_firstn by nia. rewrite skipn_skipn_add. f_equal. f_equal. lia.
Qed.
Lemma call_at p b r : at_pos p b r -> (N.of_nat (S (S b) * bs) < 2 ^ 64)%N ->
  fst (call enc (batch * sz) batch (chunk sz) p) = chunk sz (slice b) r /\
  let q := snd (call enc (batch * sz) batch (chunk sz) p) in if S r <? batch then at_pos q b (S r) else at_pos q (S b) 0.
Proof.
  intros (Es & R & H) L. unfold call. destruct H as [(-> & C & Ec)|(C & Ec & Eb)].
  - rewrite C, Nat.eqb_refl. unfold gen_budgets.
    assert (Mc : (counter p mod 2 ^ 64)%N = N.of_nat (b * bs)) by (rewrite Ec; apply N.mod_small; nia).
    rewrite Mc, Es.
    assert (Ef : fill (enc s) ECB 0 (N.of_nat (b * bs)) (batch * sz) = (slice b, N.of_nat (S b * bs))).
    { rewrite (surjective_pairing (fill _ _ _ _ _)). f_equal.
      - rewrite fill_ecb by (rewrite nblock_batch; nia). rewrite nblock_batch. unfold slice. apply firstn_all2.
        rewrite to_mem_length, map_length, seq_length. lia.
      - rewrite fill_snd; change blocks_for with nblock; rewrite nblock_batch; nia. }
    rewrite Ef. cbn [fst snd seed counter budget consumed]. split; [reflexivity|].
    destruct (Nat.ltb_spec 1 batch) as [K|K]; split; cbn [seed counter budget consumed]; auto; split; auto; try lia.
  - assert (Nb : (consumed p =? batch) = false) by (apply Nat.eqb_neq; lia). rewrite Nb.
    cbn [fst snd seed counter budget consumed]. split; [rewrite Eb, C; reflexivity|].
    destruct (Nat.ltb_spec (S r) batch) as [K|K]; split; cbn [seed counter budget consumed]; auto; split; auto; try lia.
Qed.
Lemma mul_batch b : b * batch * sz = 16 * (b * bs).
Proof. rewrite <- Nat.mul_assoc, BS. lia. Qed.
Lemma calls_at K : forall n p b r, at_pos p b r -> (N.of_nat ((b * batch + r + n + 2 * batch) * sz) < 16 * 2 ^ 64)%N ->
  (b * batch + r + n + batch) * sz <= 16 * K ->
  run enc (batch * sz) batch (chunk sz) (repeat Call n) p = map (fun i => Elem (chunk sz (stream (enc s) K) (b * batch + r + i))) (seq 0 n).
Proof.
  induction n as [|n IH]; intros p b r P L HK; [reflexivity|]. cbn [repeat run exec].
  pose proof (mul_batch b) as MB. pose proof (mul_batch 2) as M2. pose proof (mul_batch 1) as M1.
  rewrite !Nat.mul_add_distr_r in L, HK.
  destruct (call_at p b r P) as [E1 E2]; [change (2 ^ 64)%N with 18446744073709551616%N in *; lia|].
  destruct (call enc (batch * sz) batch (chunk sz) p) as [x q]. cbn [fst snd] in E1, E2. subst x.
  cbn [seq map]. f_equal.
  - f_equal. rewrite Nat.add_0_r. apply slice_chunk; [apply P|lia].
  - rewrite (seq_from 1), map_map. destruct (Nat.ltb_spec (S r) batch) as [Q|Q].
    + rewrite (IH q b (S r) E2) by (rewrite !Nat.mul_add_distr_r; lia). apply map_ext. intros i. do 2 f_equal. lia.
    + destruct P as (_ & P & _). assert (ER : r = batch - 1) by lia. assert (ES : r * sz + sz = batch * sz) by nia.
      rewrite (IH q (S b) 0 E2) by (rewrite !Nat.mul_add_distr_r; cbn [Nat.mul]; rewrite ?Nat.mul_add_distr_r; lia).
      apply map_ext. intros i. do 2 f_equal. cbn [Nat.mul]. lia.
Qed.
End Calls.

Lemma chunk_stream enc sz i K K' : S i * sz <= 16 * K -> K <= K' -> chunk sz (stream enc K) i = chunk sz (stream enc K') i.
Proof.
  intros H L. unfold chunk, stream. change bytes_of with to_mem. rewrite <- (firstn_seq_le K K' L), <- firstn_map, <- to_mem_firstn.
  apply firstn_skipn_firstn. cbn [Nat.mul] in H. lia.
Qed.

(** The n first values of a fresh generator are the successive elements of the stream
    E(0) E(1) ... of its seed, whatever the element and batch sizes. *)
Theorem prg_calls enc batch sz s n i K :
  0 < batch -> 0 < sz -> (batch * sz) mod 16 = 0 -> (N.of_nat ((n + 2 * batch) * sz) < 16 * 2 ^ 64)%N ->
  i < n -> S i * sz <= 16 * K ->
  nth i (run_typed enc batch sz s (repeat Call n)) Unit = Elem (chunk sz (stream (enc s) K) i).
Proof.
  intros B0 S0 M L Hi HK. assert (BS : batch * sz = 16 * ((batch * sz) / 16)).
  { rewrite (Nat.div_mod (batch * sz) 16) at 1 by lia. lia. }
  set (K' := Nat.max K ((n + batch) * sz)).
  rewrite (chunk_stream (enc s) sz i K K') by lia. unfold run_typed.
  rewrite (calls_at enc batch sz _ s B0 BS K' n (fresh (batch * sz) batch s) 0 0).
  - rewrite (nth_indep _ Unit (Elem (chunk sz (stream (enc s) K') (0 * batch + 0 + 0)))) by (rewrite map_length, seq_length; auto).
    rewrite (map_nth (fun i => Elem (chunk sz (stream (enc s) K') (0 * batch + 0 + i)))), seq_nth by auto. reflexivity.
  - split; [reflexivity|]. split; [exact B0|]. left. auto.
  - cbn [Nat.mul Nat.add]. exact L.
  - cbn [Nat.mul Nat.add]. lia.
Qed.

(** Fill does not disturb the values: with fills interleaved, the values and the fills
    are cut from the stream in the order they are requested, every block used once. *)
Fixpoint spec_run (enc : N -> N) (bs sz batch : nat) (next : N) (queue : list (list N)) (ops : list op) : list (out (T := list N)) :=
  let blocks n := bytes_of (map (fun j => enc (next + N.of_nat j)%N) (seq 0 n)) in
  match ops with
  | [] => []
  | Fill len :: t => Bytes (firstn len (blocks (blocks_for len))) :: spec_run enc bs sz batch (next + N.of_nat (blocks_for len))%N queue t
  | _ :: t =>
      match queue with
      | x :: q => Elem x :: spec_run enc bs sz batch next q t
      | [] => match map (chunk sz (blocks bs)) (seq 0 batch) with
              | x :: q => Elem x :: spec_run enc bs sz batch (next + N.of_nat bs)%N q t
              | [] => []
              end
      end
  end.
Definition plain (o : op) : Prop := match o with Call | Fill _ => True | _ => False end.
Fixpoint cost (bs : nat) (ops : list op) : nat :=
  match ops with [] => 0 | Fill len :: t => blocks_for len + cost bs t | _ :: t => bs + cost bs t end.
Lemma skipn_step {A} (l : list A) k d : k < length l -> skipn k l = nth k l d :: skipn (S k) l.
Proof. revert k. induction l as [|x l IH]; intros [|k] H; cbn in *; try lia; auto. apply IH. lia. Qed.
Lemma prg_history_at enc batch sz bs s ops : 0 < batch -> batch * sz = 16 * bs -> Forall plain ops ->
  forall p next queue, seed p = s -> counter p = next -> consumed p <= batch ->
    queue = skipn (consumed p) (map (chunk sz (budget p)) (seq 0 batch)) -> (next + N.of_nat (cost bs ops) < 2 ^ 64)%N ->
    run enc (batch * sz) batch (chunk sz) ops p = spec_run (enc s) bs sz batch next queue ops.
Proof.
  intros B0 BS F. induction F as [|o ops P F IH]; intros p next queue Es En Hc Hq L; [reflexivity|].
  assert (NB : nblock (batch * sz) = bs) by (exact (nblock_batch batch sz bs B0 BS)).
  destruct o as [|len|?|? ?]; try contradiction; cbn [run exec cost] in *.
  - unfold call. destruct (Nat.eqb_spec (consumed p) batch) as [E|E].
    + unfold gen_budgets. rewrite Es, En, N.mod_small by lia.
      assert (Ef : fill (enc s) ECB 0 next (batch * sz) = (to_mem (map (fun j => enc s (next + N.of_nat j)%N) (seq 0 bs)), (next + N.of_nat bs)%N)).
      { rewrite (surjective_pairing (fill _ _ _ _ _)). f_equal.
        - rewrite fill_ecb by (rewrite NB; lia). rewrite NB. apply firstn_all2. rewrite to_mem_length, map_length, seq_length. lia.
        - rewrite fill_snd; change blocks_for with nblock; rewrite NB; lia. }
      rewrite Ef. cbn [seed counter budget consumed]. cbn [spec_run].
      assert (Q : queue = []) by (rewrite Hq, E; apply skipn_all2; rewrite map_length, seq_length; lia). rewrite Q.
      change bytes_of with to_mem. set (bl := to_mem _).
      destruct batch as [|batch']; [lia|]. cbn [seq map]. f_equal.
      apply IH; cbn [seed counter budget consumed]; auto; lia.
    + cbn [seed counter budget consumed spec_run].
      assert (Q : queue = chunk sz (budget p) (consumed p) :: skipn (S (consumed p)) (map (chunk sz (budget p)) (seq 0 batch))).
      { rewrite Hq. rewrite (skipn_step _ _ (chunk sz (budget p) 0)) by (rewrite map_length, seq_length; lia).
        rewrite map_nth, seq_nth by lia. reflexivity. }
      rewrite Q. f_equal. apply IH; cbn [seed counter budget consumed]; auto; lia.
  - unfold fill_bytes. rewrite Es, En, N.mod_small by lia. rewrite (surjective_pairing (fill _ _ _ _ _)).
    rewrite fill_snd by lia. rewrite fill_ecb by (change nblock with blocks_for; lia). cbn [spec_run]. f_equal.
    apply IH; cbn [seed counter budget consumed]; auto; lia.
Qed.
Theorem prg_history enc batch sz s ops :
  0 < batch -> (batch * sz) mod 16 = 0 -> Forall plain ops -> (N.of_nat (cost (batch * sz / 16) ops) < 2 ^ 64)%N ->
  run_typed enc batch sz s ops = spec_run (enc s) (batch * sz / 16) sz batch 0 [] ops.
Proof.
  intros B0 M F L. unfold run_typed.
  apply (prg_history_at enc batch sz _ s ops); auto.
  - rewrite (Nat.div_mod (batch * sz) 16) at 1 by lia. lia.
  - cbn [fresh consumed]. symmetry. apply skipn_all2. rewrite map_length, seq_length. lia.
Qed.

(** Setting the seed restarts the stream when all values of the current batch are
    consumed (in particular before the first value)... *)
Lemma run_same enc bytes elems {T} (elem : list N -> nat -> T) ops : forall p q,
  seed p = seed q -> counter p = counter q -> consumed p = elems -> consumed q = elems ->
  run enc bytes elems elem ops p = run enc bytes elems elem ops q.
Proof.
  induction ops as [|o ops IH]; intros p q Es En Cp Cq; [reflexivity|].
  destruct o as [|len|s|s c]; cbn [run exec].
  - unfold call. rewrite Cp, Cq, Nat.eqb_refl. unfold gen_budgets. rewrite Es, En. destruct (fill _ _ _ _ _) as [b c]. reflexivity.
  - unfold fill_bytes. rewrite Es, En. destruct (fill _ _ _ _ _) as [b c]. f_equal. apply IH; auto.
  - f_equal. apply IH; auto.
  - f_equal. apply IH; auto.
Qed.
Theorem set_seed_restarts enc batch sz s (p : prg) ops : consumed p = batch ->
  run enc (batch * sz) batch (chunk sz) ops (set_seed s p) = run_typed enc batch sz s ops.
Proof. intros H. apply run_same; auto. Qed.
(** ... but not otherwise: the rest of the batch of the old seed comes first. *)
Theorem set_seed_stale enc batch sz s s' : 2 <= batch ->
  nth 2 (run_typed enc batch sz s [Call; SetSeed s'; Call]) Unit = nth 1 (run_typed enc batch sz s [Call; Call]) Unit.
Proof.
  intros B. unfold run_typed. cbn [run exec]. unfold call at 1 3. cbn [fresh consumed]. rewrite Nat.eqb_refl.
  unfold gen_budgets. cbn [seed counter]. destruct (fill _ _ _ _ _) as [b c]. cbn [seed counter budget consumed].
  unfold set_seed, call. cbn [seed counter budget consumed].
  assert (N1 : (1 =? batch) = false) by (apply Nat.eqb_neq; lia). rewrite N1. reflexivity.
Qed.
Theorem set_seed_refuted : exists enc s s',
  nth 2 (run_typed enc 16 16 s [Call; SetSeed s'; Call]) Unit <> nth 0 (run_typed enc 16 16 s' [Call]) Unit.
Proof. exists (fun k x => (k + x)%N), 1%N, 2000%N. vm_compute. discriminate. Qed.

(** Prg<bool> starts with 7 * BATCH_SIZE zeroes whatever its seed, instead of the stream. *)
Theorem prg_bool_refuted enc batch s : 0 < batch ->
  run_bool enc batch s (repeat Call (7 * batch)) = repeat (Elem false) (7 * batch).
Proof.
  intros B. unfold run_bool.
  assert (G : forall n p, budget p = repeat 0%N batch -> consumed p + n <= 8 * batch ->
     run enc batch (8 * batch) bit (repeat Call n) p = repeat (Elem false) n).
  { induction n as [|n IH]; intros p Eb H; [reflexivity|]. cbn [repeat run exec]. unfold call.
    assert (E : (consumed p =? 8 * batch) = false) by (apply Nat.eqb_neq; lia). rewrite E.
    rewrite IH by (cbn [budget consumed]; auto; lia). f_equal. f_equal. rewrite Eb. unfold bit.
    replace (nth (consumed p / 8) (repeat 0%N batch) 0%N) with 0%N; [apply N.bits_0|].
    symmetry. apply nth_repeat. }
  apply G; cbn [fresh budget consumed]; auto.
Qed.
Example prg_concrete : (16 * 4) mod 16 = 0 /\ nth 17 (run_typed (fun k x => (k * 7 + x * 5)%N) 16 4 3 (repeat Call 20)) Unit = Elem [0; 0; 0; 0]%N /\ nth 16 (run_typed (fun k x => (k * 7 + x * 5)%N) 16 4 3 (repeat Call 20)) Unit = Elem [41; 0; 0; 0]%N.
Proof. vm_compute. auto. Qed.
Print Assumptions prg_calls.
Print Assumptions prg_history.
Print Assumptions set_seed_restarts.
Print Assumptions set_seed_stale.
Print Assumptions set_seed_refuted.
Print Assumptions prg_bool_refuted.

(** ** C49 *)
Lemma land_mask w e : N.land e (mersenne_mask w) = (e mod 2 ^ w)%N.
Proof. unfold mersenne_mask. rewrite <- N.pred_sub, <- N.ones_equiv. apply N.land_ones. Qed.
(** The fast reduction is the reduction of the w low bits modulo 2^w - 1. *)
Lemma mersenne_fast_spec w e : (2 <= w)%N -> mersenne_fast w e = ((e mod 2 ^ w) mod (2 ^ w - 1))%N.
Proof.
  intros W. unfold mersenne_fast. rewrite land_mask. unfold mersenne_mask.
  assert (P : (4 <= 2 ^ w)%N) by (change 4%N with (2 ^ 2)%N; apply N.pow_le_mono_r; [discriminate|exact W]).
  pose proof (N.mod_lt e (2 ^ w) ltac:(lia)) as L. set (r := (e mod 2 ^ w)%N) in *.
  destruct (N.eqb_spec r (2 ^ w - 1)) as [E|E]; [rewrite E; symmetry; apply N.mod_same; lia|].
  symmetry. apply N.mod_small. lia.
Qed.
Lemma mersenne_loop_spec w : (2 <= w)%N -> forall fuel a, (a < 2 ^ (w + N.of_nat fuel))%N -> 0 < fuel ->
  mersenne_loop fuel w a = (a mod (2 ^ w - 1))%N.
Proof.
  intros W. assert (P : (4 <= 2 ^ w)%N) by (change 4%N with (2 ^ 2)%N; apply N.pow_le_mono_r; [discriminate|exact W]).
  induction fuel as [|fuel IH]; intros a H F; [lia|]. cbn [mersenne_loop].
  rewrite land_mask, N.shiftr_div_pow2. unfold mersenne_mask. set (p := (2 ^ w - 1)%N).
  assert (Ep : (2 ^ w = p + 1)%N) by (unfold p; lia).
  pose proof (N.div_mod a (2 ^ w) ltac:(lia)) as D. pose proof (N.mod_lt a (2 ^ w) ltac:(lia)) as R.
  set (q := (a / 2 ^ w)%N) in *. set (r := (a mod 2 ^ w)%N) in *.
  assert (Hq : (q < 2 ^ N.of_nat (S fuel))%N).
  { unfold q. apply N.div_lt_upper_bound; [lia|]. rewrite <- N.pow_add_r. exact H. }
  assert (Hi : ((r + q) mod p = a mod p)%N).
  { rewrite D, Ep. replace ((p + 1) * q + r)%N with (r + q + q * p)%N by lia. rewrite N.mod_add by (unfold p; lia). reflexivity. }
  set (i := (r + q)%N) in *. set (a' := if (p <=? i)%N then (i - p)%N else i).
  assert (Ha' : (a' mod p = a mod p)%N).
  { unfold a'. destruct (N.leb_spec p i) as [L|L]; [|exact Hi]. rewrite <- Hi.
    replace i with (i - p + 1 * p)%N at 2 by lia. rewrite N.mod_add by (unfold p; lia). reflexivity. }
  destruct (N.leb_spec p a') as [L|L]; [|rewrite <- Ha'; symmetry; apply N.mod_small; exact L].
  assert (La : (a' <= q)%N).
  { unfold a' in *. destruct (N.leb_spec p i) as [L1|L1]; [unfold i in *; lia|exfalso; lia]. }
  destruct fuel as [|fuel].
  - exfalso. change (2 ^ N.of_nat 1)%N with 2%N in Hq. unfold p in *. lia.
  - rewrite IH; [exact Ha'| |lia]. apply (N.le_lt_trans _ q); [exact La|].
    eapply N.lt_le_trans; [exact Hq|]. apply N.pow_le_mono_r; [discriminate|lia].
Qed.
Lemma chunk_le sz b i : length (chunk sz b i) <= sz.
Proof. unfold chunk. rewrite firstn_length. lia. Qed.
Lemma to_mem_lt l : Forall (fun b => (b < 256)%N) (to_mem l).
Proof. induction l as [|x l IH]; [constructor|]. cbn [to_mem flat_map]. apply Forall_app. split; [apply le_bytes_lt|exact IH]. Qed.
Lemma Forall_firstn {A} (P : A -> Prop) n l : Forall P l -> Forall P (firstn n l).
Proof. intros H. revert n. induction H as [|x l X H IH]; intros [|n]; cbn; constructor; auto. Qed.
Lemma Forall_skipn {A} (P : A -> Prop) n l : Forall P l -> Forall P (skipn n l).
Proof. intros H. revert n. induction H as [|x l X H IH]; intros [|n]; cbn; auto. Qed.
Lemma fill_lt enc m iv c len : Forall (fun b => (b < 256)%N) (fst (fill enc m iv c len)).
Proof.
  unfold fill. cbn [fst]. destruct m.
  - destruct (_ =? 0); [apply to_mem_lt|]. apply Forall_app. split.
    + destruct (1 <? _); [apply to_mem_lt|constructor].
    + apply Forall_firstn, le_bytes_lt.
  - destruct (_ =? 0); [|apply Forall_firstn]; apply to_mem_lt.
  - apply Forall_firstn, to_mem_lt.
Qed.

(** The integer read from the i-th group of [size] random bytes. *)
Definition raw enc m iv c (size num i : nat) : N := le_val (firstn size (skipn (i * size) (fst (fill enc m iv c (num * size))))).

(** uint64_t (61 bits, 8 bytes) and uint128_t (127 bits, 16 bytes): every value is below the
    Mersenne prime, and is the low bits of the random word with the prime mapped to 0. *)
Theorem mersenne_wide_range enc m iv c w sz num : (2 <= w)%N ->
  fill_mersenne_wide enc m iv c w sz num =
    map (fun i => ((raw enc m iv c sz num i mod 2 ^ w) mod (2 ^ w - 1))%N) (seq 0 num)
  /\ Forall (fun v => (v < 2 ^ w - 1)%N) (fill_mersenne_wide enc m iv c w sz num).
Proof.
  intros W. assert (P : (4 <= 2 ^ w)%N) by (change 4%N with (2 ^ 2)%N; apply N.pow_le_mono_r; [discriminate|exact W]).
  assert (E : fill_mersenne_wide enc m iv c w sz num = map (fun i => ((raw enc m iv c sz num i mod 2 ^ w) mod (2 ^ w - 1))%N) (seq 0 num)).
  { unfold fill_mersenne_wide, raw. rewrite (surjective_pairing (fill _ _ _ _ _)). apply map_ext. intros i. apply mersenne_fast_spec. exact W. }
  split; [exact E|]. rewrite E. apply Forall_forall. intros v V. apply in_map_iff in V as (i & <- & _). apply N.mod_lt. lia.
Qed.
(** uint32_t (31 bits, 4 bytes) and uint8_t (7 bits, 1 byte): the exact remainder of a random
    integer with 40 more bits than the word. *)
Theorem mersenne_small_range enc m iv c w sz num : (2 <= w)%N -> (8 * N.of_nat (sz + 5) <= w + 64)%N ->
  fill_mersenne_small enc m iv c w sz num = map (fun i => (raw enc m iv c (sz + 5) num i mod (2 ^ w - 1))%N) (seq 0 num)
  /\ Forall (fun v => (v < 2 ^ w - 1)%N) (fill_mersenne_small enc m iv c w sz num).
Proof.
  intros W S. assert (P : (4 <= 2 ^ w)%N) by (change 4%N with (2 ^ 2)%N; apply N.pow_le_mono_r; [discriminate|exact W]).
  assert (E : fill_mersenne_small enc m iv c w sz num = map (fun i => (raw enc m iv c (sz + 5) num i mod (2 ^ w - 1))%N) (seq 0 num)).
  { unfold fill_mersenne_small, raw. rewrite (surjective_pairing (fill _ _ _ _ _)). apply map_ext. intros i. unfold mersenne_mod.
    apply mersenne_loop_spec; auto; [|lia]. eapply N.lt_le_trans; [apply le_val_lt, Forall_firstn, Forall_skipn, fill_lt|].
    apply N.pow_le_mono_r; [discriminate|]. rewrite firstn_length. lia. }
  split; [exact E|]. rewrite E. apply Forall_forall. intros v V. apply in_map_iff in V as (i & <- & _). apply N.mod_lt. lia.
Qed.
Example mersenne_widths : (8 * N.of_nat (4 + 5) <= 31 + 64)%N /\ (8 * N.of_nat (1 + 5) <= 7 + 64)%N /\
  fill_mersenne_small (fun x => (x + 2 ^ 127 - 1)%N) ECB 0 0 31 4 2 <> [].
Proof. vm_compute. split; [discriminate|]. split; discriminate. Qed.

(** MersennePrimeMod on uint64_t and uint128_t is not the remainder, and not even below the prime. *)
Theorem mersenne_mod_wide_refuted :
  (exists buf, length buf = 13 /\ mersenne_mod_wide 61 8 buf = (2 ^ 61 - 1)%N) /\
  (exists buf, length buf = 21 /\ mersenne_mod_wide 127 16 buf = (2 ^ 127 - 1)%N) /\
  (exists buf, length buf = 13 /\ mersenne_mod_wide 61 8 buf <> (le_val buf mod (2 ^ 61 - 1))%N).
Proof.
  split; [|split].
  - exists (le_bytes 13 (2 ^ 61 - 1)). vm_compute. auto.
  - exists (le_bytes 21 (2 ^ 127 - 1)). vm_compute. auto.
  - exists (le_bytes 13 (2 ^ 61)). vm_compute. split; [reflexivity|discriminate].
Qed.

(** FillPRandWithLtN: every value is the remainder of a random integer that has at least
    40 bits more than n... *)
Theorem ltn_range enc m iv c n num : (n <> 0)%N ->
  exists l, fill_ltn enc m iv c n num = Some l /\
    l = map (fun i => (raw enc m iv c (ltn_size n) num i mod n)%N) (seq 0 num) /\
    Forall (fun v => (v < n)%N) l /\ (2 ^ 40 * n <= 2 ^ (8 * N.of_nat (ltn_size n)))%N.
Proof.
  intros H. unfold fill_ltn. rewrite (surjective_pairing (fill _ _ _ _ _)). apply N.eqb_neq in H as H'. rewrite H'.
  eexists. split; [reflexivity|]. split; [reflexivity|]. split.
  - apply Forall_forall. intros v V. apply in_map_iff in V as (i & <- & _). apply N.mod_lt. exact H.
  - assert (L : (n < 2 ^ N.size n)%N) by (apply N.size_gt).
    apply (N.le_trans _ (2 ^ (40 + N.size n))); [rewrite N.pow_add_r; apply N.mul_le_mono_l; lia|].
    apply N.pow_le_mono_r; [discriminate|]. unfold ltn_size. rewrite N2Nat.id.
    pose proof (N.div_mod (N.size n + 40 + 7) 8 ltac:(discriminate)) as D. pose proof (N.mod_lt (N.size n + 40 + 7) 8 ltac:(discriminate)) as D'. lia.
Qed.
(** ... so each value below n has floor(M / n) or one more of the M possible integers
    behind it: the bias is below 2^-40. *)
Theorem ltn_bias (n M v : N) : (n <> 0 -> v < n -> 2 ^ 40 * n <= M ->
  exists k, (k = M / n \/ k = M / n + 1) /\ 2 ^ 40 <= k /\
    forall x, x < M /\ x mod n = v <-> exists j, j < k /\ x = v + j * n)%N.
Proof.
  intros H V L. pose proof (N.div_mod M n H) as D. pose proof (N.mod_lt M n H) as R.
  set (q := (M / n)%N) in *. set (r := (M mod n)%N) in *.
  assert (Q : (2 ^ 40 <= q)%N) by (apply N.div_le_lower_bound; [exact H|]; lia).
  exists (if (v <? r)%N then (q + 1)%N else q).
  split; [destruct (v <? r)%N; auto|]. split; [destruct (v <? r)%N; lia|].
  intros x. split.
  - intros [X E]. exists (x / n)%N. pose proof (N.div_mod x n H) as Dx. rewrite E in Dx. set (j := (x / n)%N) in *. split; [|lia].
    destruct (N.ltb_spec v r) as [K|K]; nia.
  - intros (j & J & ->). split.
    + destruct (N.ltb_spec v r) as [K|K]; nia.
    + rewrite N.mod_add by exact H. apply N.mod_small. exact V.
Qed.
Print Assumptions mersenne_wide_range.
Print Assumptions mersenne_small_range.
Print Assumptions mersenne_mod_wide_refuted.
Print Assumptions ltn_range.
Print Assumptions ltn_bias.
