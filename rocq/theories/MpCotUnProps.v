(** C113: the multi-point COT with uniform noise. *)
From Coq Require Import ZArith NArith List Bool Arith Lia Permutation.
From Verif Require Import LinCodeModel SpcotModel SpcotProof SpcotProps MpCotUnModel.
From Verif Require CuckooModel CuckooProof CuckooProps.
Import ListNotations.
Local Open Scope nat_scope.

(** ** What is claimed, without the model's helpers *)
(** Index i belongs to bin c if one of its three hashes says so. *)
Definition belongs (code : nat -> Z) (nb c i : nat) : Prop :=
  exists hi, (0 <= hi < 3)%Z /\ (CuckooModel.get_hash (code i) hi mod Z.of_nat nb = Z.of_nat c)%Z.
(** Bin c is empty for the index range n. *)
Definition no_member (code : nat -> Z) (nb n c : nat) : Prop := forall i, i < n -> ~ belongs code nb c i.
(** No bin with members comes after one without. *)
Definition no_gap (code : nat -> Z) (nb n : nat) : Prop :=
  forall c d, c < d < nb -> no_member code nb n c -> no_member code nb n d.
Definition times (l : list nat) (k : nat) : nat := count_occ Nat.eq_dec l k.

(** ** The simple table *)
Lemma push_length c i m : length (push c i m) = length m.
Proof. revert c. induction m as [|b m IH]; intros [|c]; cbn [push length]; auto. Qed.
Lemma nth_push c i m d : d < length m -> nth d (push c i m) [] = if d =? c then put i (nth d m []) else nth d m [].
Proof.
  revert c d. induction m as [|b m IH]; intros c d Hd; [cbn [length] in Hd; lia|].
  destruct c as [|c], d as [|d]; cbn [push nth Nat.eqb]; auto. apply IH. cbn [length] in Hd. lia.
Qed.
Lemma step_length code nb m i : length (simple_step code nb m i) = length m.
Proof.
  unfold simple_step. destruct (_ || _); rewrite ?push_length; destruct (_ =? _); rewrite ?push_length; auto.
Qed.
Definition hits (code : nat -> Z) (nb c i : nat) : bool :=
  (bin_of code nb i 0 =? c) || (bin_of code nb i 1 =? c) || (bin_of code nb i 2 =? c).
Lemma hits_belongs code nb c i : 0 < nb -> hits code nb c i = true <-> belongs code nb c i.
Proof.
  intros Hb. unfold hits, belongs, bin_of. rewrite !orb_true_iff, !Nat.eqb_eq.
  assert (P : forall x, (0 <= x mod Z.of_nat nb)%Z) by (intros x; apply Z.mod_pos_bound; lia).
  split.
  - intros [[E|E]|E]; [exists 0%Z|exists 1%Z|exists 2%Z]; (split; [lia|]); rewrite <- E, Z2Nat.id; auto.
  - intros (hi & Hh & E). assert (hi = 0 \/ hi = 1 \/ hi = 2)%Z as [-> |[-> | ->]] by lia; rewrite E, Nat2Z.id; auto.
Qed.
Lemma nth_step code nb m i c : c < length m -> find i (nth c m []) = None ->
  nth c (simple_step code nb m i) [] = if hits code nb c i then nth c m [] ++ [(i, length (nth c m []))] else nth c m [].
Proof.
  intros Hc Hf. unfold simple_step, hits. set (b0 := bin_of code nb i 0). set (b1 := bin_of code nb i 1). set (b2 := bin_of code nb i 2).
  assert (P : put i (nth c m []) = nth c m [] ++ [(i, length (nth c m []))]) by (unfold put; rewrite Hf; auto).
  rewrite (Nat.eqb_sym b0 c), (Nat.eqb_sym b1 c), (Nat.eqb_sym b2 c).
  destruct (Nat.eqb_spec b1 b0) as [E1|E1], (Nat.eqb_spec b2 b0) as [E2|E2], (Nat.eqb_spec b2 b1) as [E3|E3]; cbn [orb];
    rewrite ?nth_push by (rewrite ?push_length; auto);
    destruct (Nat.eqb_spec c b0), (Nat.eqb_spec c b1), (Nat.eqb_spec c b2); cbn [orb]; auto; lia.
Qed.
Lemma find_none k ks vs : length ks = length vs -> ~ In k ks -> find k (combine ks vs) = None.
Proof.
  revert vs. induction ks as [|x ks IH]; intros [|v vs] L H; cbn [combine find]; auto.
  cbn [In] in H. destruct (Nat.eqb_spec x k); [tauto|]. apply IH; auto.
Qed.
Definition members (code : nat -> Z) (nb n c : nat) : list nat := filter (hits code nb c) (seq 0 n).
Lemma combine_snoc {A B} (l : list A) (l' : list B) a b : length l = length l' -> combine (l ++ [a]) (l' ++ [b]) = combine l l' ++ [(a, b)].
Proof. revert l'. induction l as [|x l IH]; intros [|y l'] L; try discriminate; cbn [app combine]; [auto|]. rewrite IH; auto. Qed.
Lemma simple_spec code nb n : length (make_simple code nb n) = nb /\
  forall c, c < nb -> nth c (make_simple code nb n) [] = combine (members code nb n c) (seq 0 (length (members code nb n c))).
Proof.
  unfold make_simple. induction n as [|n [L IH]].
  - cbn [seq fold_left]. rewrite repeat_length. split; auto. intros c Hc. cbn. rewrite nth_repeat. auto.
  - rewrite seq_S, fold_left_app. cbn [fold_left Nat.add]. split; [rewrite step_length; auto|].
    intros c Hc. rewrite nth_step.
    + rewrite IH by auto. unfold members. rewrite seq_S, filter_app. cbn [filter Nat.add].
      destruct (hits code nb c n).
      * rewrite app_length. cbn [length]. rewrite Nat.add_1_r, seq_S, combine_snoc by (rewrite seq_length; auto).
        rewrite combine_length, seq_length, Nat.min_id. auto.
      * rewrite app_nil_r. auto.
    + exact (eq_ind_r (fun z => c < z) Hc L).
    + rewrite IH by auto. apply find_none; [rewrite seq_length; auto|].
      unfold members. rewrite filter_In, in_seq. lia.
Qed.
Lemma members_nodup code nb n c : NoDup (members code nb n c).
Proof. apply NoDup_filter, seq_NoDup. Qed.
Lemma members_in code nb n c i : In i (members code nb n c) <-> i < n /\ hits code nb c i = true.
Proof. unfold members. rewrite filter_In, in_seq. intuition lia. Qed.

(** ** Bins as enumerations of distinct keys *)
Definition enum (ks : list nat) : bin := combine ks (seq 0 (length ks)).
Lemma enum_length ks : length (enum ks) = length ks.
Proof. unfold enum. rewrite combine_length, seq_length. lia. Qed.
Lemma find_combine k ks a : NoDup ks -> In k ks ->
  exists p, find k (combine ks (seq a (length ks))) = Some (a + p) /\ p < length ks /\ nth_error ks p = Some k.
Proof.
  revert a. induction ks as [|x ks IH]; intros a Nd Hin; [destruct Hin|].
  inversion Nd; subst. cbn [length seq combine find]. destruct (Nat.eqb_spec x k) as [->|Hne].
  - exists 0. cbn [nth_error]. rewrite Nat.add_0_r. repeat split; lia.
  - destruct Hin as [->|Hin]; [lia|]. destruct (IH (S a) H2 Hin) as (p & A & B & C). exists (S p). rewrite A. cbn [nth_error].
    split; [f_equal; lia|]. split; [lia|auto].
Qed.
Lemma find_enum k ks : NoDup ks -> In k ks -> exists p, find k (enum ks) = Some p /\ p < length ks /\ nth_error ks p = Some k.
Proof. intros Nd H. destruct (find_combine k ks 0 Nd H) as (p & A & B & C). exists p. auto. Qed.
Lemma find_enum_none k ks : ~ In k ks -> find k (enum ks) = None.
Proof. intros H. apply find_none; auto. rewrite seq_length. auto. Qed.

Definition val (b : bin) (s : list N) (k : nat) : N := match find k b with Some p => nth p s 0%N | None => 0%N end.
Lemma nth_nth_error {A} (l : list A) i d : i < length l -> nth_error l i = Some (nth i l d).
Proof. apply nth_error_nth'. Qed.
Lemma xor_combine ks a s : NoDup ks -> forall out, (forall k, In k ks -> k < length out) -> a + length ks <= length s ->
  exists o, xor_bin (combine ks (seq a (length ks))) s out = Val o /\ length o = length out /\
    forall k, nth k o 0%N = N.lxor (nth k out 0%N) (val (combine ks (seq a (length ks))) s k).
Proof.
  revert a. induction ks as [|x ks IH]; intros a Nd out Hk Hs; cbn [length seq combine xor_bin].
  - exists out. repeat split; auto. intros k. unfold val. cbn [find]. rewrite N.lxor_0_r. auto.
  - inversion Nd; subst. cbn [length] in Hs.
    rewrite (nth_nth_error s a 0%N) by lia. rewrite (nth_nth_error out x 0%N) by (apply Hk; left; auto).
    destruct (IH (S a) H2 (set_nth x (N.lxor (nth x out 0%N) (nth a s 0%N)) out)) as (o & A & B & C).
    + intros k H. rewrite set_nth_length. apply Hk. right. auto.
    + lia.
    + exists o. split; [exact A|]. rewrite set_nth_length in B. split; auto. intros k. rewrite C.
      rewrite nth_set_nth by (apply Hk; left; auto). unfold val. cbn [find].
      destruct (Nat.eqb_spec k x) as [->|Hne].
      * rewrite Nat.eqb_refl. rewrite (find_none x) by (auto; rewrite seq_length; auto). apply N.lxor_0_r.
      * destruct (Nat.eqb_spec x k); [lia|auto].
Qed.
Lemma xor_enum ks s out : NoDup ks -> (forall k, In k ks -> k < length out) -> length ks <= length s ->
  exists o, xor_bin (enum ks) s out = Val o /\ length o = length out /\
    forall k, nth k o 0%N = N.lxor (nth k out 0%N) (val (enum ks) s k).
Proof. intros. apply xor_combine; auto. Qed.

(** ** The loop over the bins *)
Section Loop.
Variable h : N -> N.
Variable delta : N.
Variable base : list (N * N).
Variable bits : list bool.
Variable blks : list N.
Variable idxes : list nat.
Variable seeds : nat -> N.
Variables junk_s junk_r : nat -> nat -> N.
Variable n : nat.

(** A row: the members of a bin and what the cuckoo bin holds. *)
Definition row := (list nat * Z)%type.
Definition row_ok (r : row) : Prop :=
  NoDup (fst r) /\ (forall k, In k (fst r) -> k < n) /\ (N.of_nat (S (length (fst r))) <= 2 ^ 31)%N /\
  (snd r <> CuckooModel.kEmpty -> exists x, nth_error idxes (Z.to_nat (CuckooModel.input_idx (snd r))) = Some x /\ In x (fst r)).
Definition pair_of (r : row) : bin * Z := (enum (fst r), snd r).
Definition share (r : row) (k : nat) : N :=
  if (snd r =? CuckooModel.kEmpty)%Z then 0%N
  else if nth (Z.to_nat (CuckooModel.input_idx (snd r))) idxes 0 =? k then delta else 0%N.
Definition row_done (r : row) (sr : list N * list N) : Prop :=
  length (fst sr) = S (length (fst r)) /\ length (snd sr) = S (length (fst r)) /\
  forall k, N.lxor (val (enum (fst r)) (fst sr) k) (val (enum (fst r)) (snd sr) k) = share r k.
(** Rows after the first empty one are left with empty vectors. *)
Fixpoint rows_done (rows : list row) (l : list (list N * list N)) : Prop :=
  match rows, l with
  | [], [] => True
  | r :: rows', x :: l' => if length (fst r) =? 0 then x = ([], []) /\ Forall (fun y => y = ([], [])) l' /\ length l' = length rows'
                           else row_done r x /\ rows_done rows' l'
  | _, _ => False
  end.
Definition good_cots (total : nat) : Prop :=
  total <= length base /\ total <= length bits /\ total <= length blks /\ (delta < 2 ^ 128)%N /\
  forall i, i < total -> snd (nth i base (0, 0)%N) = N.lxor (fst (nth i base (0, 0)%N)) delta /\
                         nth i blks 0%N = if nth i bits false then snd (nth i base (0, 0)%N) else fst (nth i base (0, 0)%N).

Lemma nth_slice {A} off k (l : list A) i d : i < k -> nth i (slice off k l) d = nth (off + i) l d.
Proof.
  intros H. unfold slice. revert l. induction off as [|off IH]; intros l.
  - cbn [skipn Nat.add]. revert k i H. induction l as [|x l IHl]; intros [|k] i H; try lia; cbn [firstn]; auto.
    destruct i as [|i]; cbn [nth]; auto. apply IHl. lia.
  - destruct l as [|x l]; cbn [skipn Nat.add nth]; [rewrite firstn_nil; destruct i; auto|apply IH].
Qed.
Lemma slice_length {A} off k (l : list A) : off + k <= length l -> length (slice off k l) = k.
Proof. intros H. unfold slice. rewrite firstn_length, skipn_length. lia. Qed.
Lemma slice_cots total off k : good_cots total -> off + k <= total ->
  cots k delta (slice off k base) (slice off k bits) (slice off k blks).
Proof.
  intros (A & B & C & D & E) H. unfold cots. rewrite !slice_length by lia. repeat split; auto.
  - rewrite !nth_slice by auto. apply E. lia.
  - rewrite !nth_slice by auto. apply E. lia.
Qed.

Lemma point_ok r : row_ok r -> length (fst r) <> 0 ->
  exists idx, point idxes (enum (fst r)) (snd r) = Val idx /\ idx < S (length (fst r)) /\
    forall k, (match find k (enum (fst r)) with Some p => if p =? idx then delta else 0%N | None => 0%N end) = share r k.
Proof.
  intros (Nd & Hk & _ & Hx) Hne. unfold point, share. rewrite enum_length.
  destruct (Z.eqb_spec (snd r) CuckooModel.kEmpty) as [E|E].
  - eexists. split; [reflexivity|]. split; [lia|]. intros k.
    destruct (in_dec Nat.eq_dec k (fst r)) as [Hin|Hin].
    + destruct (find_enum k (fst r) Nd Hin) as (p & -> & B & _). destruct (Nat.eqb_spec p (S (length (fst r)) - 1)); [lia|auto].
    + rewrite find_enum_none; auto.
  - destruct (Hx E) as (x & Ex & Hin). rewrite Ex, (nth_error_nth _ _ _ Ex).
    destruct (find_enum x (fst r) Nd Hin) as (p & F & B & C). rewrite F.
    exists p. split; auto. split; [lia|]. intros k.
    destruct (in_dec Nat.eq_dec k (fst r)) as [Hik|Hik].
    + destruct (find_enum k (fst r) Nd Hik) as (q & F2 & D & G). rewrite F2.
      destruct (Nat.eqb_spec q p) as [->|Hqp], (Nat.eqb_spec x k) as [->|Hxk]; auto; congruence.
    + rewrite find_enum_none by auto. destruct (Nat.eqb_spec x k) as [->|]; tauto.
Qed.

Lemma run_bins_ok total rows : good_cots total -> forall i off, Forall row_ok rows ->
  off + cots_used (map (fun r => enum (fst r)) rows) <= total ->
  exists l, run_bins h delta base bits blks idxes seeds junk_s junk_r i off (map pair_of rows) = Val l /\ rows_done rows l.
Proof.
  intros G. induction rows as [|r rows IH]; intros i off Hr Ht.
  - exists []. cbn [map run_bins rows_done]. auto.
  - inversion Hr as [|r' rows' H1 H2]; subst. cbn [map cots_used] in Ht. cbn [map run_bins pair_of]. rewrite enum_length in *.
    destruct (Nat.eqb_spec (length (fst r)) 0) as [Z0|Z0].
    + eexists. split; [reflexivity|]. cbn [map rows_done]. rewrite Z0. cbn [Nat.eqb].
      split; [auto|]. split; [|rewrite !map_length; auto].
      apply Forall_forall. intros y Hy. apply in_map_iff in Hy as (z & <- & _). auto.
    + destruct (point_ok r H1 Z0) as (idx & P1 & P2 & P3). rewrite P1. cbn [bind].
      set (m := S (length (fst r))) in *. set (k := log2ceil m) in *.
      destruct (gywz_correct h delta (slice off k base) (slice off k bits) (slice off k blks) m idx (seeds i)
                  (map (junk_s i) (seq 0 m)) (map (junk_r i) (seq 0 m))) as (s & t & R & S1 & (U1 & _) & (U2 & _)).
      * destruct H1 as (_ & _ & H1 & _). unfold spans. rewrite !map_length, !seq_length. unfold m in *. repeat split; auto; lia.
      * exact P2.
      * apply (slice_cots total); auto. lia.
      * rewrite R. destruct (IH (S i) (off + k) H2) as (l & A & B); [lia|]. rewrite A. cbn [bind].
        eexists. split; [reflexivity|]. cbn [rows_done]. destruct (Nat.eqb_spec (length (fst r)) 0); [lia|].
        split; [|auto]. rewrite map_length, seq_length in U1, U2. unfold row_done. cbn [fst snd]. repeat split; auto.
        intros q. rewrite <- P3. unfold val. destruct (find q (enum (fst r))) as [p|] eqn:F; [|apply N.lxor_0_l].
        assert (Hp : p < m).
        { destruct H1 as (Nd & _). destruct (in_dec Nat.eq_dec q (fst r)) as [Hin|Hin].
          - destruct (find_enum q (fst r) Nd Hin) as (p' & F' & ? & _). unfold m. assert (p = p') by congruence. lia.
          - rewrite find_enum_none in F by auto. discriminate. }
        rewrite (S1 p Hp). destruct (p =? idx); [rewrite <- N.lxor_assoc|]; rewrite N.lxor_nilpotent; auto; apply N.lxor_0_l.
Qed.

Fixpoint prefixed (rows : list row) : Prop :=
  match rows with
  | [] => True
  | r :: rows' => if length (fst r) =? 0 then Forall (fun q => length (fst q) = 0) rows' else prefixed rows'
  end.
Definition xorl (l : list N) : N := fold_right N.lxor 0%N l.
Definition bins_of (rows : list row) : list bin := map (fun r => enum (fst r)) rows.

Lemma sum_send_empty rows : Forall (fun q : row => length (fst q) = 0) rows -> forall s out, sum_send (bins_of rows) s out = Val out.
Proof.
  intros H. induction H as [|r rows E H IH]; intros s out; [auto|]. cbn [bins_of map sum_send]. destruct s as [|x s]; auto.
  rewrite enum_length, E. cbn [Nat.eqb]. apply IH.
Qed.
Lemma empty_rows_share rows : Forall (fun q : row => length (fst q) = 0) rows -> Forall row_ok rows ->
  forall k, xorl (map (fun r => share r k) rows) = 0%N.
Proof.
  intros H1 H2 k. induction H1 as [|r rows E H IH]; cbn [map xorl fold_right]; auto. inversion H2 as [|r' rows' (_ & _ & _ & Hx) H3]; subst.
  fold (xorl (map (fun r => share r k) rows)). rewrite IH by auto. rewrite N.lxor_0_r. unfold share.
  destruct (Z.eqb_spec (snd r) CuckooModel.kEmpty) as [|D]; auto. destruct (Hx D) as (x & _ & Hin). destruct (fst r); [destruct Hin|discriminate].
Qed.
Lemma sums_ok rows : Forall row_ok rows -> prefixed rows -> forall l outs outr,
  rows_done rows l -> n <= length outs -> n <= length outr ->
  exists o r, sum_send (bins_of rows) (map fst l) outs = Val o /\ sum_recv (bins_of rows) (map snd l) outr = Val r /\
    length o = length outs /\ length r = length outr /\
    forall k, N.lxor (nth k o 0%N) (nth k r 0%N) =
              N.lxor (N.lxor (nth k outs 0%N) (nth k outr 0%N)) (xorl (map (fun q => share q k) rows)).
Proof.
  intros Hr. induction Hr as [|r rows H1 H2 IH]; intros Hp l outs outr Hd Ls Lr.
  - exists outs, outr. cbn [bins_of map sum_send sum_recv xorl fold_right]. repeat split; auto. intros k. rewrite N.lxor_0_r. auto.
  - destruct l as [|x l]; [destruct Hd|]. cbn [rows_done prefixed] in Hd, Hp. cbn [bins_of map sum_send sum_recv]. rewrite enum_length.
    destruct (Nat.eqb_spec (length (fst r)) 0) as [Z0|Z0].
    + exists outs, outr. fold (bins_of rows). rewrite sum_send_empty by auto. repeat split; auto. intros k.
      match goal with |- context [xorl ?x] => replace (xorl x) with 0%N end; [rewrite N.lxor_0_r; auto|].
      symmetry. apply (empty_rows_share (r :: rows)); constructor; auto.
    + destruct Hd as [(L1 & L2 & D) Hd]. destruct H1 as (Nd & Hk & _).
      destruct (xor_enum (fst r) (fst x) outs Nd) as (o1 & A1 & A2 & A3); [intros k Q; specialize (Hk k Q); lia|lia|].
      destruct (xor_enum (fst r) (snd x) outr Nd) as (r1 & B1 & B2 & B3); [intros k Q; specialize (Hk k Q); lia|lia|].
      rewrite A1, B1. cbn [bind]. fold (bins_of rows).
      destruct (IH Hp l o1 r1 Hd) as (o & t & C1 & C2 & C3 & C4 & C5); [lia|lia|].
      exists o, t. split; [auto|]. split; [auto|]. split; [lia|]. split; [lia|]. intros k. rewrite C5, A3, B3. cbn [xorl fold_right].
      fold (xorl (map (fun q => share q k) rows)). rewrite <- D.
      apply N.bits_inj. intros b. rewrite !N.lxor_spec.
      destruct (N.testbit (nth k outs 0%N) b), (N.testbit (nth k outr 0%N) b), (N.testbit (val (enum (fst r)) (fst x) k) b),
        (N.testbit (val (enum (fst r)) (snd x) k) b), (N.testbit (xorl (map (fun q => share q k) rows)) b); reflexivity.
Qed.
(** The sender reads an empty vector when a bin with members follows an empty one. *)
Lemma send_fault rows : Forall row_ok rows -> ~ prefixed rows -> forall l outs,
  rows_done rows l -> n <= length outs -> sum_send (bins_of rows) (map fst l) outs = OutOfBounds.
Proof.
  intros Hr. induction Hr as [|r rows H1 H2 IH]; intros Hp l outs Hd Ls; [cbn [prefixed] in Hp; tauto|].
  destruct l as [|x l]; [destruct Hd|]. cbn [rows_done prefixed] in Hd, Hp. cbn [bins_of map sum_send]. rewrite enum_length.
  fold (bins_of rows). destruct (Nat.eqb_spec (length (fst r)) 0) as [Z0|Z0].
  - destruct Hd as (_ & Hl & Ll). clear - Hp Hl Ll H2.
    revert l Hl Ll. induction rows as [|q rows IH]; intros l Hl Ll; [destruct Hp; constructor|].
    destruct l as [|y l]; [discriminate|]. inversion Hl; subst. inversion H2; subst. cbn [bins_of map sum_send fst]. rewrite enum_length.
    fold (bins_of rows). destruct (Nat.eqb_spec (length (fst q)) 0) as [Zq|Zq].
    + apply IH; auto.
    + unfold enum. destruct (fst q) as [|a ks]; [cbn [length] in Zq; lia|]. cbn [length seq combine xor_bin nth_error bind]. auto.
  - destruct Hd as [(L1 & L2 & D) Hd]. destruct H1 as (Nd & Hk & _).
    destruct (xor_enum (fst r) (fst x) outs Nd) as (o1 & A1 & A2 & A3); [intros k Q; specialize (Hk k Q); lia|lia|].
    rewrite A1. cbn [bind]. apply IH; auto. lia.
Qed.
End Loop.

Lemma prefixed_iff rows : prefixed rows <->
  forall c d, c < d < length rows -> length (fst (nth c rows ([], 0%Z))) = 0 -> length (fst (nth d rows ([], 0%Z))) = 0.
Proof.
  induction rows as [|r rows IH]; cbn [prefixed length]; [split; auto; intros; lia|].
  destruct (Nat.eqb_spec (length (fst r)) 0) as [Z0|Z0].
  - split.
    + intros F c [|d] Hcd _; [lia|]. cbn [nth]. rewrite Forall_forall in F. apply F. apply nth_In. lia.
    + intros H. apply Forall_forall. intros q Hq. apply (In_nth rows q (([], 0%Z) : row)) in Hq as (d & Hd & <-).
      apply (H 0 (S d)); [lia|auto].
  - rewrite IH. split.
    + intros H [|c] [|d] Hcd E; cbn [nth] in *; try lia. apply (H c d); auto. lia.
    + intros H c d Hcd E. apply (H (S c) (S d)); auto. lia.
Qed.

(** ** From bins to inputs *)
Lemma xorl_app a b : xorl (a ++ b) = N.lxor (xorl a) (xorl b).
Proof. unfold xorl. induction a as [|x a IH]; cbn [app fold_right]; [rewrite N.lxor_0_l; auto|]. rewrite IH, N.lxor_assoc. auto. Qed.
Lemma xorl_perm a b : Permutation a b -> xorl a = xorl b.
Proof.
  unfold xorl. intros P. induction P as [|x a b P IH|x y a|a b c P1 I1 P2 I2]; cbn [fold_right]; auto; [rewrite IH; auto| |congruence].
  rewrite <- !N.lxor_assoc, (N.lxor_comm y x). auto.
Qed.
Lemma content_xor (g : Z -> N) bs :
  xorl (map (fun e => if (e =? CuckooModel.kEmpty)%Z then 0%N else g (CuckooModel.input_idx e)) bs) = xorl (map g (CuckooProof.content bs)).
Proof.
  unfold CuckooProof.content. induction bs as [|e bs IH]; [auto|]. cbn [map filter xorl fold_right].
  fold (xorl (map (fun e => if (e =? CuckooModel.kEmpty)%Z then 0%N else g (CuckooModel.input_idx e)) bs)). rewrite IH.
  destruct (e =? CuckooModel.kEmpty)%Z; cbn [negb map xorl fold_right]; auto.
Qed.
Lemma parity_xor d k l : xorl (map (fun x => if x =? k then d else 0%N) l) = if Nat.odd (times l k) then d else 0%N.
Proof.
  unfold times. induction l as [|x l IH]; [auto|]. cbn [map xorl fold_right count_occ].
  fold (xorl (map (fun x => if x =? k then d else 0%N) l)). rewrite IH.
  destruct (Nat.eq_dec x k) as [E|E]; [rewrite (proj2 (Nat.eqb_eq x k)) by auto|rewrite (proj2 (Nat.eqb_neq x k)) by auto; apply N.lxor_0_l].
  rewrite Nat.odd_succ, <- Nat.negb_odd. destruct (Nat.odd _); cbn [negb]; [apply N.lxor_nilpotent|apply N.lxor_0_r].
Qed.
Lemma map_nth_seq (l : list nat) : map (fun i => nth i l 0) (seq 0 (length l)) = l.
Proof.
  apply nth_ext with (d := 0) (d' := 0); rewrite map_length, seq_length; auto.
  intros i Hi. rewrite (nth_indep _ 0 (nth 0 l 0)) by (rewrite map_length, seq_length; auto).
  rewrite (map_nth (fun i => nth i l 0) (seq 0 (length l)) 0 i), seq_nth; auto.
Qed.

(** The rows of a run. *)
Definition rows_of (code : nat -> Z) (nb n : nat) (bs : list Z) : list row :=
  map (fun c => (members code nb n c, nth c bs 0%Z)) (seq 0 nb).
Lemma nth_rows code nb n bs c : c < nb -> nth c (rows_of code nb n bs) ([], 0%Z) = (members code nb n c, nth c bs 0%Z).
Proof.
  intros H. unfold rows_of. set (f := fun c => _). rewrite (nth_indep _ _ (f 0)) by (rewrite map_length, seq_length; auto).
  rewrite (map_nth f), seq_nth; auto.
Qed.
Lemma rows_bins code nb n bs : bins_of (rows_of code nb n bs) = make_simple code nb n.
Proof.
  destruct (simple_spec code nb n) as [L S]. unfold bins_of, rows_of. rewrite map_map. cbn [fst].
  apply nth_ext with (d := []) (d' := []); [rewrite map_length, seq_length; auto|].
  rewrite map_length, seq_length. intros c Hc. rewrite (S c Hc).
  set (f := fun x => enum (members code nb n x)). rewrite (nth_indep _ [] (f 0)) by (rewrite map_length, seq_length; auto).
  rewrite (map_nth f), seq_nth by auto. reflexivity.
Qed.
Lemma map_nth_self (bs : list Z) : map (fun c => nth c bs 0%Z) (seq 0 (length bs)) = bs.
Proof.
  apply nth_ext with (d := 0%Z) (d' := 0%Z); rewrite map_length, seq_length; auto.
  intros i Hi. set (f := fun c => nth c bs 0%Z). rewrite (nth_indep _ 0%Z (f 0)) by (rewrite map_length, seq_length; auto).
  rewrite (map_nth f), seq_nth; auto.
Qed.
Lemma combine_map_self {A B C} (f : A -> B) (g : A -> C) l : combine (map f l) (map g l) = map (fun x => (f x, g x)) l.
Proof. induction l as [|x l IH]; cbn [map combine]; [auto|]. rewrite IH. auto. Qed.
Lemma rows_pairs code nb n bs : length bs = nb -> combine (make_simple code nb n) bs = map pair_of (rows_of code nb n bs).
Proof.
  intros L. rewrite <- (rows_bins code nb n bs). unfold bins_of, pair_of.
  assert (E : bs = map snd (rows_of code nb n bs)).
  { unfold rows_of. rewrite map_map. cbn [snd]. rewrite <- L. symmetry. apply map_nth_self. }
  set (rows := rows_of code nb n bs) in *. rewrite E. apply (combine_map_self (fun r : row => enum (fst r)) snd).
Qed.
Lemma no_member_iff code nb n c : 0 < nb -> no_member code nb n c <-> length (members code nb n c) = 0.
Proof.
  intros Hb. unfold no_member. split.
  - intros H. destruct (members code nb n c) as [|i l] eqn:E; auto. exfalso.
    assert (Hi : In i (members code nb n c)) by (rewrite E; left; auto). apply members_in in Hi as [Hi Hh].
    apply (H i Hi). apply hits_belongs; auto.
  - intros E i Hi Hb2. apply hits_belongs in Hb2; auto. assert (Hm : In i (members code nb n c)) by (apply members_in; auto).
    destruct (members code nb n c); [destruct Hm|discriminate].
Qed.
Lemma no_gap_iff code nb n bs : 0 < nb -> no_gap code nb n <-> prefixed (rows_of code nb n bs).
Proof.
  intros Hb. rewrite prefixed_iff. unfold no_gap. unfold rows_of at 1. rewrite map_length, seq_length. split; intros H c d Hcd.
  - rewrite !nth_rows by lia. cbn [fst]. rewrite <- !no_member_iff by auto. apply H. auto.
  - rewrite !no_member_iff by auto. specialize (H c d Hcd). rewrite !nth_rows in H by lia. exact H.
Qed.

(** ** Single run facts *)
(** What the caller provides: three hash functions at most, no stash, the indices in
    range, sound base COTs. *)
Definition inputs_ok (o : CuckooModel.opts) (n : nat) (idxes : list nat) : Prop :=
  CuckooProps.sane o /\ (CuckooModel.num_hash o <= 3)%Z /\ CuckooModel.num_stash o = 0 /\
  (N.of_nat (S n) <= 2 ^ 31)%N /\ Forall (fun i => i < n) idxes.

Lemma filter_len {A} (f : A -> bool) l : length (filter f l) <= length l.
Proof. induction l as [|x l IH]; cbn [filter length]; auto. destruct (f x); cbn [length]; lia. Qed.
Lemma run_facts code o n idxes t t' : inputs_ok o n idxes -> CuckooModel.new_table o = Some t ->
  CuckooModel.insert o t (map code idxes) = CuckooModel.Done t' ->
  let nb := CuckooModel.num_bins o in
  let rows := rows_of code nb n (CuckooModel.bins t') in
  length (CuckooModel.bins t') = nb /\ Forall (row_ok idxes n) rows /\
  forall delta k, xorl (map (fun r => share delta idxes r k) rows) = if Nat.odd (times idxes k) then delta else 0%N.
Proof.
  intros ((Hh & Hb & Hi) & H3 & Hst & Hn & Hx) Hnew Hins nb rows.
  assert (E0 : CuckooModel.hashes t = []).
  { unfold CuckooModel.new_table in Hnew. destruct (_ <=? 16)%Z; [inversion Hnew; reflexivity|discriminate]. }
  pose proof (CuckooProof.new_tinv o Hb t ltac:(lia) Hnew) as I.
  pose proof (CuckooProof.insert_inv o Hh Hb ltac:(lia) t (map code idxes) I) as V. rewrite Hins in V. destruct V as [V E].
  rewrite E0 in E. cbn [app] in E.
  pose proof (CuckooProps.cuckoo_places_everything_once o t [map code idxes] (conj Hh (conj Hb Hi)) Hnew) as W.
  cbn [CuckooModel.insert_all] in W. rewrite Hins in W. destruct W as (_ & _ & R & Lb & Ls).
  destruct V as [Ts _ _ Ta].
  assert (St : CuckooModel.stash t' = []) by (destruct (CuckooModel.stash t'); auto; cbn [length] in Ls; lia).
  rewrite St in Ta. change (CuckooProof.content []) with (@nil Z) in Ta. rewrite app_nil_r, E, map_length in Ta.
  split; [exact Lb|]. split.
  - apply Forall_forall. intros r Hr. apply in_map_iff in Hr as (c & <- & Hc). apply in_seq in Hc. unfold row_ok. cbn [fst snd].
    split; [apply members_nodup|]. split; [intros k Hk; apply members_in in Hk; tauto|]. split.
    + assert (length (members code nb n c) <= n) by (unfold members; rewrite <- (seq_length n 0) at 2; apply filter_len).
      clear - H Hn. lia.
    + intros Hne. set (e := nth c (CuckooModel.bins t') 0%Z) in *.
      assert (He : nth_error (CuckooModel.bins t') c = Some e) by (apply nth_error_nth'; lia).
      destruct (R c e He Hne) as (hi & H1 & H2 & H4).
      assert (Hin : In (CuckooModel.input_idx e) (CuckooProof.content (CuckooModel.bins t'))) by (apply CuckooProof.content_in; eauto).
      eapply Permutation_in in Hin; [|exact Ta]. apply in_map_iff in Hin as (p & Ep & Hp). apply in_seq in Hp.
      rewrite <- Ep, Nat2Z.id in *. exists (nth p idxes 0). split; [apply nth_error_nth'; lia|].
      apply members_in. split; [rewrite Forall_forall in Hx; apply Hx, nth_In; lia|].
      apply hits_belongs; auto. exists hi. split; [lia|]. rewrite <- H4, E.
      rewrite (nth_indep _ 0%Z (code 0)) by (rewrite map_length; lia). rewrite map_nth. reflexivity.
  - intros delta k. unfold rows, rows_of, share. rewrite map_map. cbn [snd].
    rewrite <- (map_map (fun c => nth c (CuckooModel.bins t') 0%Z)
                 (fun e => if (e =? CuckooModel.kEmpty)%Z then 0%N else if nth (Z.to_nat (CuckooModel.input_idx e)) idxes 0 =? k then delta else 0%N)).
    assert (Em : map (fun c => nth c (CuckooModel.bins t') 0%Z) (seq 0 nb) = CuckooModel.bins t').
    { unfold nb. rewrite <- Lb. apply map_nth_self. }
    rewrite Em, (content_xor (fun i => if nth (Z.to_nat i) idxes 0 =? k then delta else 0%N)).
    rewrite (xorl_perm _ _ (Permutation_map _ Ta)), map_map.
    rewrite <- (parity_xor delta k idxes).
    transitivity (xorl (map (fun x => if x =? k then delta else 0%N) (map (fun i => nth i idxes 0) (seq 0 (length idxes)))));
      [|rewrite map_nth_seq; reflexivity].
    rewrite map_map. f_equal. apply map_ext. intros i. rewrite Nat2Z.id. auto.
Qed.

(** ** C113 *)
(** MakeSimpleMap: bin c lists exactly the indices one of whose hashes is c, numbered
    0, 1, ... without repetition. *)
Theorem simple_map_correct code nb n c : c < nb ->
  let b := nth c (make_simple code nb n) [] in
  length (make_simple code nb n) = nb /\ NoDup (map fst b) /\ map snd b = seq 0 (length b) /\
  forall i, In i (map fst b) <-> i < n /\ belongs code nb c i.
Proof.
  intros Hc b. destruct (simple_spec code nb n) as [L S]. unfold b. rewrite (S c Hc).
  set (ks := members code nb n c).
  assert (F : forall (l : list nat) a, map fst (combine l (seq a (length l))) = l /\ map snd (combine l (seq a (length l))) = seq a (length l)).
  { induction l as [|x l IH]; intros a; cbn [length seq combine map fst snd]; auto. destruct (IH (Datatypes.S a)) as [-> ->]. auto. }
  destruct (F ks 0) as [-> ->]. rewrite combine_length, seq_length, Nat.min_id. split; [auto|]. split; [apply members_nodup|]. split; [auto|].
  intros i. unfold ks. rewrite members_in, hits_belongs by lia. tauto.
Qed.
Print Assumptions simple_map_correct.

(** Whatever the hash function, the seeds and the contents of fresh memory: if the
    insertion succeeds and no bin with members follows one without, both parties finish and
    their outputs differ by delta at the indices chosen an odd number of times, and
    nowhere else. *)
Theorem mpcot_un_correct code h delta base bits blks idxes seeds junk_s junk_r o n outs outr t t' total :
  inputs_ok o n idxes -> CuckooModel.new_table o = Some t ->
  CuckooModel.insert o t (map code idxes) = CuckooModel.Done t' ->
  no_gap code (CuckooModel.num_bins o) n ->
  good_cots delta base bits blks total -> cots_used (make_simple code (CuckooModel.num_bins o) n) <= total ->
  length outs = n -> length outr = n ->
  exists s r, run_un code h delta base bits blks idxes seeds junk_s junk_r o (make_simple code (CuckooModel.num_bins o) n) outs outr = (Val s, Val r) /\
    length s = n /\ length r = n /\
    forall k, N.lxor (nth k s 0%N) (nth k r 0%N) = if Nat.odd (times idxes k) then delta else 0%N.
Proof.
  intros Hok Hnew Hins Hg Hc Ht Ls Lr. unfold run_un. rewrite Hnew, Hins.
  destruct (run_facts code o n idxes t t' Hok Hnew Hins) as (Lb & Ro & Sh).
  destruct Hok as ((_ & Hb & _) & _). rewrite rows_pairs by exact Lb.
  rewrite <- (rows_bins code (CuckooModel.num_bins o) n (CuckooModel.bins t')) in Ht |- *.
  apply (no_gap_iff _ _ _ (CuckooModel.bins t') Hb) in Hg. set (rows := rows_of _ _ _ _) in *.
  destruct (run_bins_ok h delta base bits blks idxes seeds junk_s junk_r n total rows Hc 0 0 Ro Ht) as (l & -> & D).
  destruct (sums_ok delta idxes n rows Ro Hg l (map (fun _ => 0%N) outs) (map (fun _ => 0%N) outr) D) as (s & r & A & B & C1 & C2 & C3); rewrite ?map_length; try lia.
  rewrite map_length in C1, C2. exists s, r. rewrite A, B. split; [auto|]. split; [lia|]. split; [lia|]. intros k. rewrite C3, Sh.
  assert (Z : forall (l : list N) k, nth k (map (fun _ => 0%N) l) 0%N = 0%N).
  { intros l0 k0. apply (map_nth (fun _ : N => 0%N) l0 0%N k0). }
  rewrite !Z. apply N.lxor_0_l.
Qed.
Print Assumptions mpcot_un_correct.

(** When a bin with members does follow an empty one, the sender reads a vector that was
    never filled. *)
Theorem mpcot_un_gap_faults code h delta base bits blks idxes seeds junk_s junk_r o n outs outr t t' total :
  inputs_ok o n idxes -> CuckooModel.new_table o = Some t ->
  CuckooModel.insert o t (map code idxes) = CuckooModel.Done t' ->
  ~ no_gap code (CuckooModel.num_bins o) n ->
  good_cots delta base bits blks total -> cots_used (make_simple code (CuckooModel.num_bins o) n) <= total ->
  length outs = n ->
  fst (run_un code h delta base bits blks idxes seeds junk_s junk_r o (make_simple code (CuckooModel.num_bins o) n) outs outr) = OutOfBounds.
Proof.
  intros Hok Hnew Hins Hg Hc Ht Ls. unfold run_un. rewrite Hnew, Hins.
  destruct (run_facts code o n idxes t t' Hok Hnew Hins) as (Lb & Ro & _).
  destruct Hok as ((_ & Hb & _) & _). rewrite rows_pairs by exact Lb.
  rewrite <- (rows_bins code (CuckooModel.num_bins o) n (CuckooModel.bins t')) in Ht |- *.
  assert (Hp : ~ prefixed (rows_of code (CuckooModel.num_bins o) n (CuckooModel.bins t'))) by (intros P; apply Hg; apply (no_gap_iff _ _ _ (CuckooModel.bins t') Hb); exact P). set (rows := rows_of _ _ _ _) in *.
  destruct (run_bins_ok h delta base bits blks idxes seeds junk_s junk_r n total rows Hc 0 0 Ro Ht) as (l & -> & D).
  cbn [fst]. eapply send_fault; eauto. rewrite map_length. lia.
Qed.
Print Assumptions mpcot_un_gap_faults.

(** An insertion that does not fit is an exception for the receiver, not a wrong result. *)
Theorem mpcot_un_insert_throws code h delta base bits blks idxes seeds junk_s junk_r o m outs outr t x lost :
  CuckooModel.new_table o = Some t -> CuckooModel.insert o t (map code idxes) = CuckooModel.Threw x lost ->
  snd (run_un code h delta base bits blks idxes seeds junk_s junk_r o m outs outr) = Thrown.
Proof. intros A B. unfold run_un. rewrite A, B. reflexivity. Qed.
Print Assumptions mpcot_un_insert_throws.

(** The number of COTs that MpCotUNHelper announces is enough, for at least two indices
    and six bins. *)
Fixpoint total_len (m : list bin) : nat := match m with [] => 0 | b :: m' => length b + total_len m' end.
Lemma log_bound s k : 1 <= k -> s <= 2 ^ k -> log2ceil (S s) <= k - 1 + s / 2 ^ (k - 1).
Proof.
  intros Hk Hs. unfold log2ceil. set (q := 2 ^ (k - 1)).
  assert (Q : q <> 0) by (apply Nat.pow_nonzero; lia).
  assert (E : 2 ^ k = 2 * q) by (unfold q; replace k with (S (k - 1)) at 1 by lia; apply Nat.pow_succ_r').
  destruct (Nat.lt_ge_cases s q) as [A|A].
  - rewrite (Nat.div_small s q) by auto. rewrite Nat.add_0_r. destruct s as [|s]; [cbn; lia|].
    apply Nat.log2_up_le_pow2; [lia|]. fold q. lia.
  - destruct (Nat.lt_ge_cases s (2 * q)) as [B|B].
    + assert (1 <= s / q) by (apply Nat.div_le_lower_bound; lia).
      assert (Nat.log2_up (S s) <= k) by (apply Nat.log2_up_le_pow2; lia). lia.
    + assert (2 <= s / q) by (apply Nat.div_le_lower_bound; lia).
      assert (Nat.log2_up (S s) <= S k) by (apply Nat.log2_up_le_pow2; [lia|rewrite Nat.pow_succ_r'; lia]). lia.
Qed.
Lemma used_bound k m : 1 <= k -> Forall (fun b => length b <= 2 ^ k) m ->
  cots_used m * 2 ^ (k - 1) <= length m * (k - 1) * 2 ^ (k - 1) + total_len m.
Proof.
  intros Hk F. induction F as [|b m Hb F IH]; cbn [cots_used length total_len]; [lia|].
  set (q := 2 ^ (k - 1)) in *. assert (Q : q <> 0) by (apply Nat.pow_nonzero; lia).
  destruct (length b =? 0); [rewrite Nat.mul_0_l; apply Nat.le_0_l|].
  pose proof (log_bound (length b) k Hk Hb) as L. fold q in L.
  pose proof (Nat.mul_div_le (length b) q Q) as D. 
  rewrite Nat.mul_add_distr_r. transitivity ((k - 1 + length b / q) * q + cots_used m * q); [apply Nat.add_le_mono_r, Nat.mul_le_mono_r, L|].
  rewrite Nat.mul_add_distr_r. cbn [Nat.mul]. rewrite !Nat.mul_add_distr_r. lia.
Qed.
Lemma push_total c i m : total_len (push c i m) <= S (total_len m).
Proof.
  revert c. induction m as [|b m IH]; intros [|c]; cbn [push total_len]; auto.
  - unfold put. destruct (find i b); [lia|]. rewrite app_length. cbn [length]. lia.
  - specialize (IH c). lia.
Qed.
Lemma step_total code nb m i : total_len (simple_step code nb m i) <= 3 + total_len m.
Proof.
  unfold simple_step. set (m1 := push (bin_of code nb i 0) i m). pose proof (push_total (bin_of code nb i 0) i m) as A. fold m1 in A.
  destruct (bin_of code nb i 1 =? bin_of code nb i 0); destruct (_ || _).
  - lia.
  - pose proof (push_total (bin_of code nb i 2) i m1). lia.
  - pose proof (push_total (bin_of code nb i 1) i m1). lia.
  - pose proof (push_total (bin_of code nb i 1) i m1). pose proof (push_total (bin_of code nb i 2) i (push (bin_of code nb i 1) i m1)). lia.
Qed.
Lemma simple_total code nb n : total_len (make_simple code nb n) <= 3 * n.
Proof.
  unfold make_simple. induction n as [|n IH].
  - cbn [seq fold_left]. induction nb as [|nb IH]; cbn [repeat total_len length]; lia.
  - rewrite seq_S, fold_left_app. cbn [fold_left Nat.add]. pose proof (step_total code nb (fold_left (simple_step code nb) (seq 0 n) (repeat [] nb)) n). lia.
Qed.
Theorem mpcot_un_helper_enough code nb n : 2 <= n -> 6 <= nb -> cots_used (make_simple code nb n) <= helper n nb.
Proof.
  intros Hn Hb. unfold helper. set (k := log2ceil n). set (m := make_simple code nb n).
  destruct (simple_spec code nb n) as [L S]. fold m in L, S.
  assert (Hk : 1 <= k /\ n <= 2 ^ k) by (unfold k, log2ceil; pose proof (Nat.log2_up_spec n ltac:(lia)); pose proof (Nat.log2_up_pos n ltac:(lia)); lia).
  assert (F : Forall (fun b : bin => length b <= 2 ^ k) m).
  { apply Forall_forall. intros b Hb2. apply (In_nth _ _ []) in Hb2 as (c & Hc & <-). 
    eapply Nat.le_trans; [apply Nat.eq_le_incl; exact (f_equal (@length _) (S c (eq_ind _ (fun z => c < z) Hc _ L)))|].
    rewrite combine_length, seq_length, Nat.min_id. unfold members.
    pose proof (filter_len (hits code nb c) (seq 0 n)) as Q. rewrite seq_length in Q. lia. }
  pose proof (used_bound k m (proj1 Hk) F) as U0.
  assert (U : cots_used m * 2 ^ (k - 1) <= nb * (k - 1) * 2 ^ (k - 1) + total_len m) by exact (eq_ind _ (fun z => cots_used m * 2 ^ (k - 1) <= z * (k - 1) * 2 ^ (k - 1) + total_len m) U0 _ L). clear U0. pose proof (simple_total code nb n) as T. fold m in T.
  set (q := 2 ^ (k - 1)) in *. assert (Q : q <> 0) by (apply Nat.pow_nonzero; lia).
  assert (E : 2 ^ k = 2 * q) by (unfold q; replace k with (Datatypes.S (k - 1)) at 1 by lia; apply Nat.pow_succ_r').
  apply (Nat.mul_le_mono_pos_r _ _ q); [lia|].
  assert (X : k * nb * q = nb * (k - 1) * q + nb * q) by (replace k with (Datatypes.S (k - 1)) at 1 by lia; cbn [Nat.mul]; lia).
  assert (Y : 6 * q <= nb * q) by (apply Nat.mul_le_mono_r; auto). lia.
Qed.
Print Assumptions mpcot_un_helper_enough.

(** With the number of COTs the helper announces, from the caller's view. *)
Theorem mpcot_un_with_helper code h delta base bits blks idxes seeds junk_s junk_r o n outs outr t t' :
  inputs_ok o n idxes -> 2 <= n -> 6 <= CuckooModel.num_bins o -> NoDup idxes ->
  CuckooModel.new_table o = Some t -> CuckooModel.insert o t (map code idxes) = CuckooModel.Done t' ->
  no_gap code (CuckooModel.num_bins o) n ->
  good_cots delta base bits blks (helper n (CuckooModel.num_bins o)) -> length outs = n -> length outr = n ->
  exists s r, run_un code h delta base bits blks idxes seeds junk_s junk_r o (make_simple code (CuckooModel.num_bins o) n) outs outr = (Val s, Val r) /\
    length s = n /\ length r = n /\
    forall k, nth k r 0%N = if in_dec Nat.eq_dec k idxes then N.lxor (nth k s 0%N) delta else nth k s 0%N.
Proof.
  intros Hok Hn Hb Nd Hnew Hins Hg Hc Ls Lr.
  destruct (mpcot_un_correct code h delta base bits blks idxes seeds junk_s junk_r o n outs outr t t' _ Hok Hnew Hins Hg Hc
              (mpcot_un_helper_enough code _ n Hn Hb) Ls Lr) as (s & r & A & B & C & D).
  exists s, r. split; auto. split; auto. split; auto. intros k. specialize (D k). unfold times in D.
  assert (E : nth k r 0%N = N.lxor (nth k s 0%N) (N.lxor (nth k s 0%N) (nth k r 0%N))) by (rewrite <- N.lxor_assoc, N.lxor_nilpotent, N.lxor_0_l; auto).
  rewrite E, D. destruct (in_dec Nat.eq_dec k idxes) as [Hin|Hin].
  - rewrite (proj1 (NoDup_count_occ' Nat.eq_dec idxes) Nd k Hin). reflexivity.
  - rewrite (proj1 (count_occ_not_In Nat.eq_dec idxes k) Hin). cbn [Nat.odd Nat.even negb]. apply N.lxor_0_r.
Qed.
Print Assumptions mpcot_un_with_helper.

(** ** Witnesses *)
(** Two indices, nine bins: index 0 falls into bin 0 and index 1 into bin 2.  All the
    caller's obligations are met and the sender reads out of bounds. *)
Definition gap_code (i : nat) : Z := if i =? 0 then 0%Z else 0x00050005000500050005000500050005%Z.
Definition gap_opts : CuckooModel.opts := CuckooModel.mkOpts 1 0 3 128 9.
Theorem mpcot_un_always_finishes_refuted :
  exists code h delta base bits blks idxes seeds junk_s junk_r o n outs outr t t',
    inputs_ok o n idxes /\ 2 <= n /\ 6 <= CuckooModel.num_bins o /\ NoDup idxes /\ code 0 <> code 1 /\
    CuckooModel.new_table o = Some t /\ CuckooModel.insert o t (map code idxes) = CuckooModel.Done t' /\
    good_cots delta base bits blks (helper n (CuckooModel.num_bins o)) /\ length outs = n /\ length outr = n /\
    fst (run_un code h delta base bits blks idxes seeds junk_s junk_r o (make_simple code (CuckooModel.num_bins o) n) outs outr) = OutOfBounds.
Proof.
  exists gap_code, (fun x => x), 5%N, (repeat (7, 2)%N 9), (repeat true 9), (repeat 2%N 9), [0], (fun _ => 3%N), (fun _ _ => 0%N), (fun _ _ => 0%N),
    gap_opts, 2, [0; 0]%N, [0; 0]%N.
  eexists. eexists. split; [|split; [lia|split; [cbn; lia|split; [|split; [|split; [reflexivity|split; [vm_compute; reflexivity|split; [|split; [auto|split; [auto|vm_compute; reflexivity]]]]]]]]]].
  - unfold inputs_ok, CuckooProps.sane. cbn [gap_opts CuckooModel.num_hash CuckooModel.num_bins CuckooModel.num_input CuckooModel.num_stash].
    repeat split; try lia. repeat constructor.
  - repeat constructor; cbn [In]; tauto.
  - discriminate.
  - unfold good_cots. change (helper 2 (CuckooModel.num_bins gap_opts)) with 9. repeat rewrite repeat_length. repeat split; try lia;
    destruct i as [|[|[|[|[|[|[|[|[|i]]]]]]]]]; try reflexivity; lia.
Qed.
(** Announcing the COTs for a range of one index is too few: none, while one is used. *)
Theorem mpcot_un_helper_one_refuted : exists code nb, 6 <= nb /\ helper 1 nb < cots_used (make_simple code nb 1).
Proof. exists gap_code, 9. vm_compute. lia. Qed.

(** A run with members in every bin: indices 0, 1, 2 in two bins (2 in both), 1 and 2 chosen. *)
Definition ex_code (i : nat) : Z := match i with 0 => 0%Z | 1 => 0x00010001000100010001000100010001%Z | _ => 0x00010000%Z end.
Definition ex_opts : CuckooModel.opts := CuckooModel.mkOpts 2 0 3 128 2.
Example mpcot_un_example :
  inputs_ok ex_opts 3 [1; 2] /\ no_gap ex_code 2 3 /\
  (exists t t', CuckooModel.new_table ex_opts = Some t /\ CuckooModel.insert ex_opts t (map ex_code [1; 2]) = CuckooModel.Done t') /\
  cots_used (make_simple ex_code 2 3) = 4 /\
  make_simple ex_code 2 3 = [[(0, 0); (2, 1)]; [(1, 0); (2, 1)]].
Proof.
  split; [|split; [|split; [|split]]].
  - unfold inputs_ok, CuckooProps.sane. cbn [ex_opts CuckooModel.num_hash CuckooModel.num_bins CuckooModel.num_input CuckooModel.num_stash].
    repeat split; try lia. repeat constructor.
  - intros c d H M. exfalso. assert (c = 0) by lia. subst. apply (M 0); [lia|]. exists 0%Z. split; [lia|reflexivity].
  - eexists. eexists. split; [reflexivity|]. vm_compute. reflexivity.
  - vm_compute. reflexivity.
  - vm_compute. reflexivity.
Qed.
Example mpcot_un_example_run :
  match run_un ex_code (fun x => x) 5%N (repeat (7, 2)%N 4) [true; false; true; false] [2; 7; 2; 7]%N [1; 2] (fun i => N.of_nat (9 + i))
               (fun _ j => N.of_nat j) (fun _ _ => 77%N) ex_opts (make_simple ex_code 2 3) [1; 1; 1]%N [4; 4; 4]%N with
  | (Val s, Val r) => map (fun p => N.lxor (fst p) (snd p)) (combine s r)
  | _ => []
  end = [0; 5; 5]%N.
Proof. vm_compute. reflexivity. Qed.
