(** Instantiation of the generic theory with the five collectives. *)
From Coq Require Import List Arith Bool Lia Permutation Sorted.
From Verif Require Import ChanKeyModel CollModel CollProof.
Import ListNotations.

(** * Ring arithmetic *)
Lemma mod_two a n : 0 < n -> a < 2 * n -> a mod n = if a <? n then a else a - n.
Proof.
  intros Hn Ha. destruct (a <? n) eqn:E.
  - apply Nat.ltb_lt in E. apply Nat.mod_small; auto.
  - apply Nat.ltb_ge in E. symmetry. apply Nat.mod_unique with (q := 1); lia.
Qed.

Definition dist (n s d : nat) : nat := (d + n - s) mod n.

Ltac ring_tac :=
  unfold dist, next, prev, ring_offset in *;
  repeat match goal with
  | |- context [?a mod ?n] => rewrite (mod_two a n) by lia
  | H : context [?a mod ?n] |- _ => rewrite (mod_two a n) in H by lia
  end;
  repeat match goal with
  | |- context [?a <? ?b] => destruct (Nat.ltb_spec a b)
  | H : context [?a <? ?b] |- _ => destruct (Nat.ltb_spec a b)
  end.

Lemma next_lt n r s : 0 < n -> next n r s < n.
Proof. intros. apply Nat.mod_upper_bound. lia. Qed.
Lemma prev_lt n r s : 0 < n -> prev n r s < n.
Proof. intros. apply Nat.mod_upper_bound. lia. Qed.
Lemma next_prev n r o : r < n -> o < n -> next n (prev n r o) o = r.
Proof. intros. ring_tac; ring_tac; lia. Qed.
Lemma prev_next n r o : r < n -> o < n -> prev n (next n r o) o = r.
Proof. intros. ring_tac; ring_tac; lia. Qed.
Lemma next_neq n r o : r < n -> 0 < o < n -> next n r o <> r.
Proof. intros. ring_tac; lia. Qed.
Lemma prev_neq n r o : r < n -> 0 < o < n -> prev n r o <> r.
Proof. intros. ring_tac; lia. Qed.
Lemma dist_next n r o : r < n -> o < n -> dist n r (next n r o) = o.
Proof. intros. ring_tac; ring_tac; lia. Qed.
Lemma dist_prev n r o : r < n -> o < n -> dist n (prev n r o) r = o.
Proof. intros. ring_tac; ring_tac; lia. Qed.
Lemma dist_lt n s d : 0 < n -> dist n s d < n.
Proof. intros. apply Nat.mod_upper_bound. lia. Qed.
Lemma prev_dist n p q : p < n -> q < n -> prev n p (dist n q p) = q.
Proof. intros. ring_tac; ring_tac; lia. Qed.
Lemma prev_add n p a b : p < n -> a + b < n -> prev n (prev n p a) b = prev n p (a + b).
Proof. intros. ring_tac; ring_tac; lia. Qed.

Lemma off_next n root r s : root < n -> r < n -> ring_offset root r n + s < n -> 0 < s ->
  ring_offset root (next n r s) n = ring_offset root r n + s.
Proof. intros H1 H2 H3 H4. assert (s < n) by lia. revert H3. ring_tac; intros; ring_tac; lia. Qed.
Lemma off_prev n root r s : root < n -> r < n -> s <= ring_offset root r n ->
  ring_offset root (prev n r s) n = ring_offset root r n - s.
Proof.
  intros H1 H2 H3. assert (ring_offset root r n < n) by (apply Nat.mod_upper_bound; lia).
  assert (s < n) by lia. revert H3. ring_tac; intros; ring_tac; lia.
Qed.
Lemma off_zero n root r : root < n -> r < n -> ring_offset root r n = 0 <-> r = root.
Proof. intros. ring_tac; lia. Qed.
Lemma off_lt n root r : 0 < n -> ring_offset root r n < n.
Proof. intros. apply Nat.mod_upper_bound. lia. Qed.

(** * Specification of the collectives *)
(** The value travelling from [s] to [d]. *)
Definition opval (o : op) (s d : nat) : bytes :=
  match o with
  | OpAllGather x => x s
  | OpBroadcast root x => x root
  | OpGather root x => x s
  | OpScatter root x => nth d (x root) []
  | OpBarrier => []
  end.
(** The result of party [r]. *)
Definition opout (n : nat) (o : op) (r : nat) : list bytes :=
  match o with
  | OpAllGather x => map x (seq 0 n)
  | OpBroadcast root x => [x root]
  | OpGather root x => if root =? r then map x (seq 0 n) else []
  | OpScatter root x => [nth r (x root) []]
  | OpBarrier => []
  end.
Definition op_ok (n : nat) (o : op) : Prop :=
  match o with
  | OpAllGather _ => True
  | OpBroadcast root _ => root < n
  | OpGather root _ => root < n
  | OpScatter root x => root < n /\ length (x root) = n
  | OpBarrier => True
  end.
(** Position of the message in the dependency order of its call. *)
Definition oprk (n : nat) (o : op) (s d : nat) : nat :=
  match o with
  | OpBroadcast _ _ => Nat.log2 n - Nat.log2 (dist n s d)
  | OpBarrier => Nat.log2 (dist n s d)
  | _ => 0
  end.

Lemma oprk_lt n o s d : 0 < n -> oprk n o s d < S (Nat.log2 n).
Proof.
  intros Hn. destruct o; simpl; try lia.
  pose proof (Nat.log2_le_mono (dist n s d) n). pose proof (dist_lt n s d Hn). lia.
Qed.

(** * Per-call facts *)
Definition body_of (n r key : nat) (o : op) : list action := removelast (op_actions n r key o).

Record op_facts (n : nat) (o : op) (key : nat) : Prop := {
  f_split : forall r, r < n -> exists body h, op_actions n r key o = body ++ [AOut key h] /\
     Forall (fun a => match a with AOut _ _ => False | _ => True end) body /\
     h (fold_left (reg_step (fun _ => opval o) r) body []) = opout n o r /\
     (forall l1 l2 d k g, body = l1 ++ ASend d k g :: l2 ->
        g (fold_left (reg_step (fun _ => opval o) r) l1 []) = opval o r d);
  f_send : forall r d k g, r < n -> In (ASend d k g) (op_actions n r key o) ->
     k = key /\ d < n /\ d <> r /\ In (ARecv r key) (op_actions n d key o);
  f_recv : forall r s k, r < n -> In (ARecv s k) (op_actions n r key o) ->
     k = key /\ s < n /\ exists g, In (ASend r key g) (op_actions n s key o);
  f_nodup : forall r, r < n -> NoDup (map tag (op_actions n r key o));
  f_rank : forall r l1 l2 s k d k' g, r < n -> op_actions n r key o = l1 ++ ARecv s k :: l2 ->
     In (ASend d k' g) l2 -> oprk n o s r < oprk n o r d
}.

(** ** AllGather, Gather, Scatter *)
Lemma others_in n r i : In i (others n r) <-> i < n /\ i <> r.
Proof.
  unfold others. rewrite filter_In, in_seq. destruct (Nat.eqb_spec i r); simpl; intuition (try lia; congruence).
Qed.
Lemma others_nodup n r : NoDup (others n r).
Proof. apply NoDup_filter, seq_NoDup. Qed.

Lemma regs_recvs (val : nat -> nat -> nat -> bytes) r k l acc :
  fold_left (reg_step val r) (map (fun i => ARecv i k) l) acc = acc ++ map (fun i => val k i r) l.
Proof.
  revert acc. induction l as [|i l IH]; intros acc; simpl.
  - rewrite app_nil_r; auto.
  - rewrite IH, <- app_assoc. reflexivity.
Qed.
Lemma regs_sends (val : nat -> nat -> nat -> bytes) r k l acc (g : nat -> list bytes -> bytes) :
  fold_left (reg_step val r) (map (fun i => ASend i k (g i)) l) acc = acc.
Proof. revert acc. induction l as [|i l IH]; intros acc; simpl; auto. Qed.

Lemma fill_spec idxs r (x : nat -> bytes) :
  fill idxs r (x r) (map x (filter (fun i => negb (i =? r)) idxs)) = map x idxs.
Proof.
  induction idxs as [|i l IH]; simpl; auto. destruct (Nat.eqb_spec i r) as [->|]; simpl; f_equal; auto.
Qed.

Lemma map_split_send l k (g : nat -> list bytes -> bytes) l1 l2 d k' g' :
  map (fun i => ASend i k (g i)) l = l1 ++ ASend d k' g' :: l2 -> g' = g d /\ exists m1, l1 = map (fun i => ASend i k (g i)) m1.
Proof.
  revert l1. induction l as [|i l IH]; intros [|a l1] H; simpl in H; try discriminate.
  - inversion H; subst. split; auto. exists []. reflexivity.
  - inversion H; subst. destruct (IH l1 H2) as [-> [m1 ->]]. split; auto. exists (i :: m1). reflexivity.
Qed.

Lemma nodup_tags_sends l k (g : nat -> list bytes -> bytes) : NoDup l -> NoDup (map tag (map (fun i => ASend i k (g i)) l)).
Proof.
  intros H. rewrite map_map. simpl. apply FinFun.Injective_map_NoDup; auto.
  intros a b E. inversion E; auto.
Qed.
Lemma nodup_tags_recvs l k : NoDup l -> NoDup (map tag (map (fun i => ARecv i k) l)).
Proof.
  intros H. rewrite map_map. simpl. apply FinFun.Injective_map_NoDup; auto.
  intros a b E. inversion E; auto.
Qed.
Lemma nodup_app3 {A} (p q : list A) :
  NoDup p -> NoDup q -> (forall x, In x p -> ~ In x q) -> NoDup (p ++ q).
Proof.
  induction p as [|x p IH]; simpl; intros Hp Hq Hd; auto.
  inversion Hp; subst. constructor.
  - rewrite in_app_iff. intros [H|H]; auto. apply (Hd x); auto.
  - apply IH; auto.
Qed.

Lemma in_split_app {A} (a b l1 l2 : list A) x : a ++ b = l1 ++ x :: l2 ->
  (exists l2', a = l1 ++ x :: l2' /\ l2 = l2' ++ b) \/ (exists l1', l1 = a ++ l1' /\ b = l1' ++ x :: l2).
Proof.
  revert l1. induction a as [|y a IH]; intros l1 H; simpl in H.
  - right. exists l1. auto.
  - destruct l1 as [|z l1]; simpl in H; inversion H; subst.
    + left. exists a. auto.
    + destruct (IH l1 H2) as [(l2' & -> & ->)|(l1' & -> & ->)].
      * left. exists l2'. auto.
      * right. exists l1'. auto.
Qed.

Lemma in_sends d k g l key (gg : nat -> list bytes -> bytes) :
  In (ASend d k g) (map (fun i => ASend i key (gg i)) l) -> k = key /\ In d l /\ g = gg d.
Proof. intros H. apply in_map_iff in H as (i & E & H). inversion E; subst. auto. Qed.
Lemma in_recvs s k l key : In (ARecv s k) (map (fun i => ARecv i key) l) -> k = key /\ In s l.
Proof. intros H. apply in_map_iff in H as (i & E & H). inversion E; subst. auto. Qed.
Lemma no_recv_in_sends s k l key (gg : nat -> list bytes -> bytes) : ~ In (ARecv s k) (map (fun i => ASend i key (gg i)) l).
Proof. intros H. apply in_map_iff in H as (i & E & H). discriminate. Qed.
Lemma no_send_in_recvs d k g l key : ~ In (ASend d k g) (map (fun i => ARecv i key) l).
Proof. intros H. apply in_map_iff in H as (i & E & H). discriminate. Qed.

Lemma allgather_facts n x key : 0 < n -> op_facts n (OpAllGather x) key.
Proof.
  intros Hn. constructor; cbn [op_actions opval opout oprk].
  - intros r Hr. unfold allgather.
    exists (map (fun i => ASend i key (fun _ => x r)) (others n r) ++ map (fun i => ARecv i key) (others n r)).
    exists (fun regs => fill (seq 0 n) r (x r) regs). rewrite <- app_assoc. split; auto. split; [|split].
    + apply Forall_app. split; apply Forall_forall; intros a Ha; apply in_map_iff in Ha as (i & <- & _); auto.
    + rewrite fold_left_app, (regs_sends _ r key _ _ (fun i _ => x r)), regs_recvs. simpl. apply fill_spec.
    + intros l1 l2 d k g H. apply in_split_app in H as [(l2' & H & ->)|(l1' & -> & H)].
      * apply (map_split_send _ _ (fun i _ => x r)) in H as [-> _]. reflexivity.
      * exfalso. apply (no_send_in_recvs d k g (others n r) key). rewrite H. apply in_or_app; simpl; auto.
  - intros r d k g Hr H. unfold allgather in *. apply in_app_or in H as [H|H].
    + apply (in_sends _ _ _ _ _ (fun i _ => x r)) in H as (-> & H & _). apply others_in in H.
      repeat split; try tauto. apply in_or_app. right. apply in_or_app. left.
      apply in_map_iff. exists r. split; auto. apply others_in. split; auto. intros E; subst; tauto.
    + apply in_app_or in H as [H|[H|[]]]; [|discriminate]. elim (no_send_in_recvs _ _ _ _ _ H).
  - intros r s k Hr H. unfold allgather in *. apply in_app_or in H as [H|H].
    + elim (no_recv_in_sends _ _ _ _ (fun i _ => x r) H).
    + apply in_app_or in H as [H|[H|[]]]; [|discriminate]. apply in_recvs in H as [-> H]. apply others_in in H.
      repeat split; try tauto. exists (fun _ => x s). apply in_or_app. left.
      apply in_map_iff. exists r. split; auto. apply others_in. split; auto. intros E; subst; tauto.
  - intros r Hr. unfold allgather. rewrite !map_app. apply nodup_app3.
    + apply (nodup_tags_sends _ _ (fun i _ => x r)), others_nodup.
    + apply nodup_app3; [apply nodup_tags_recvs, others_nodup|repeat constructor; simpl; tauto|].
      intros t H [H1|[]]. rewrite map_map in H. apply in_map_iff in H as (i & <- & _). discriminate.
    + intros t H H1. rewrite map_map in H. apply in_map_iff in H as (i & <- & _).
      apply in_app_or in H1 as [H1|[H1|[]]]; [|discriminate].
      rewrite map_map in H1. apply in_map_iff in H1 as (j & H1 & _). discriminate.
  - intros r l1 l2 s k d k' g Hr H Hin. exfalso. unfold allgather in H.
    apply in_split_app in H as [(l2' & H & ->)|(l1' & -> & H)].
    + apply (no_recv_in_sends s k (others n r) key (fun i _ => x r)). rewrite H. apply in_or_app; simpl; auto.
    + assert (Hin' : In (ASend d k' g) (map (fun i => ARecv i key) (others n r) ++ [AOut key (fun regs => fill (seq 0 n) r (x r) regs)])).
      { rewrite H. apply in_or_app. simpl; auto. }
      apply in_app_or in Hin' as [Hi|[Hi|[]]]; [|discriminate]. elim (no_send_in_recvs _ _ _ _ _ Hi).
Qed.

Lemma gather_facts n root x key : root < n -> op_facts n (OpGather root x) key.
Proof.
  intros Hroot. constructor; cbn [op_actions opval opout oprk].
  - intros r Hr. unfold gather. destruct (Nat.eqb_spec root r) as [->|Hne].
    + exists (map (fun i => ARecv i key) (others n r)), (fun regs => fill (seq 0 n) r (x r) regs). split; auto. split; [|split].
      * apply Forall_forall; intros a Ha; apply in_map_iff in Ha as (i & <- & _); auto.
      * rewrite regs_recvs. simpl. apply fill_spec.
      * intros l1 l2 d k g H. exfalso. apply (no_send_in_recvs d k g (others n r) key). rewrite H. apply in_or_app; simpl; auto.
    + exists [ASend root key (fun _ => x r)], (fun _ => []). split; auto. split; [|split]; auto.
      intros [|a [|b l1]] l2 d k g H; inversion H; subst; auto.
  - intros r d k g Hr H. unfold gather in *. destruct (Nat.eqb_spec root r) as [->|Hne].
    + apply in_app_or in H as [H|[H|[]]]; [|discriminate]. elim (no_send_in_recvs _ _ _ _ _ H).
    + destruct H as [H|[H|[]]]; [|discriminate]. inversion H; subst. repeat split; auto.
      rewrite Nat.eqb_refl. apply in_or_app. left. apply in_map_iff. exists r. split; auto. apply others_in; auto.
  - intros r s k Hr H. unfold gather in *. destruct (Nat.eqb_spec root r) as [->|Hne].
    + apply in_app_or in H as [H|[H|[]]]; [|discriminate]. apply in_recvs in H as [-> H]. apply others_in in H.
      repeat split; try tauto. exists (fun _ => x s). destruct (Nat.eqb_spec r s); [subst; tauto|]. simpl; auto.
    + destruct H as [H|[H|[]]]; discriminate.
  - intros r Hr. unfold gather. destruct (Nat.eqb_spec root r) as [->|Hne].
    + rewrite map_app. apply nodup_app3; [apply nodup_tags_recvs, others_nodup|repeat constructor; simpl; tauto|].
      intros t H [H1|[]]. rewrite map_map in H. apply in_map_iff in H as (i & <- & _). discriminate.
    + simpl. repeat constructor; simpl; intuition discriminate.
  - intros r l1 l2 s k d k' g Hr H Hin. exfalso. unfold gather in H. destruct (Nat.eqb_spec root r) as [->|Hne].
    + assert (Hin' : In (ASend d k' g) (map (fun i => ARecv i key) (others n r) ++ [AOut key (fun regs => fill (seq 0 n) r (x r) regs)])).
      { rewrite H. apply in_or_app. simpl; auto. }
      apply in_app_or in Hin' as [Hi|[Hi|[]]]; [|discriminate]. elim (no_send_in_recvs _ _ _ _ _ Hi).
    + assert (Hin' : In (ARecv s k) [ASend root key (fun _ => x r); AOut key (fun _ => [])]).
      { rewrite H. apply in_or_app. simpl; auto. }
      destruct Hin' as [Hi|[Hi|[]]]; discriminate.
Qed.

Lemma scatter_facts n root x key : root < n -> op_facts n (OpScatter root x) key.
Proof.
  intros Hroot. constructor; cbn [op_actions opval opout oprk].
  - intros r Hr. unfold scatter. destruct (Nat.eqb_spec root r) as [->|Hne].
    + exists (map (fun i => ASend i key (fun _ => nth i (x r) [])) (others n r)), (fun _ => [nth r (x r) []]).
      split; auto. split; [|split].
      * apply Forall_forall; intros a Ha; apply in_map_iff in Ha as (i & <- & _); auto.
      * reflexivity.
      * intros l1 l2 d k g H. apply (map_split_send _ _ (fun i _ => nth i (x r) [])) in H as [-> _]. reflexivity.
    + exists [ARecv root key], (fun regs => [hd [] regs]). split; auto. split; [|split]; auto.
      intros [|a [|b l1]] l2 d k g H; inversion H.
  - intros r d k g Hr H. unfold scatter in *. destruct (Nat.eqb_spec root r) as [->|Hne].
    + apply in_app_or in H as [H|[H|[]]]; [|discriminate].
      apply (in_sends _ _ _ _ _ (fun i _ => nth i (x r) [])) in H as (-> & H & _). apply others_in in H.
      repeat split; try tauto. destruct (Nat.eqb_spec r d); [subst; tauto|]. simpl; auto.
    + destruct H as [H|[H|[]]]; discriminate.
  - intros r s k Hr H. unfold scatter in *. destruct (Nat.eqb_spec root r) as [->|Hne].
    + apply in_app_or in H as [H|[H|[]]]; [|discriminate].
      elim (no_recv_in_sends _ _ _ _ (fun i _ => nth i (x r) []) H).
    + destruct H as [H|[H|[]]]; [|discriminate]. inversion H; subst. repeat split; auto.
      exists (fun _ => nth r (x s) []). rewrite Nat.eqb_refl. apply in_or_app. left.
      apply in_map_iff. exists r. split; auto. apply others_in; auto.
  - intros r Hr. unfold scatter. destruct (Nat.eqb_spec root r) as [->|Hne].
    + rewrite map_app. apply nodup_app3; [apply (nodup_tags_sends _ _ (fun i _ => nth i (x r) [])), others_nodup|repeat constructor; simpl; tauto|].
      intros t H [H1|[]]. rewrite map_map in H. apply in_map_iff in H as (i & <- & _). discriminate.
    + simpl. repeat constructor; simpl; intuition discriminate.
  - intros r l1 l2 s k d k' g Hr H Hin. exfalso. unfold scatter in H. destruct (Nat.eqb_spec root r) as [->|Hne].
    + assert (Hin' : In (ARecv s k) (map (fun i => ASend i key (fun _ => nth i (x r) [])) (others n r) ++ [AOut key (fun _ => [nth r (x r) []])])).
      { rewrite H. apply in_or_app. simpl; auto. }
      apply in_app_or in Hin' as [Hi|[Hi|[]]]; [|discriminate]. elim (no_recv_in_sends _ _ _ _ (fun i _ => nth i (x r) []) Hi).
    + assert (Hin' : In (ASend d k' g) [ARecv root key; AOut key (fun regs => [hd [] regs])]).
      { rewrite H. apply in_or_app. simpl; auto. }
      destruct Hin' as [Hi|[Hi|[]]]; discriminate.
Qed.

(** ** Strictly ordered bodies *)
Definition arank (n : nat) (o : op) (r : nat) (a : action) : nat :=
  match a with
  | ASend d _ _ => 2 * oprk n o r d
  | ARecv s _ => 2 * oprk n o s r + 1
  | AOut _ _ => 2 * S (Nat.log2 n)
  end.
Fixpoint increasing (f : action -> nat) (l : list action) : Prop :=
  match l with
  | [] => True
  | a :: r => Forall (fun b => f a < f b) r /\ increasing f r
  end.
Lemma increasing_nodup n o r key l :
  (forall a, In a l -> snd (tag a) = key) -> increasing (arank n o r) l -> NoDup (map tag l).
Proof.
  induction l as [|a l IH]; simpl; intros Hk H; constructor.
  - destruct H as [H _]. rewrite Forall_forall in H. intros Hin. apply in_map_iff in Hin as (b & E & Hb).
    specialize (H b Hb). destruct a, b; simpl in E; inversion E; subst; simpl in H; lia.
  - apply IH; [auto|tauto].
Qed.
Lemma increasing_rank n o r l1 l2 s k d k' g :
  increasing (arank n o r) (l1 ++ ARecv s k :: l2) -> In (ASend d k' g) l2 -> oprk n o s r < oprk n o r d.
Proof.
  induction l1 as [|a l1 IH]; simpl; intros H Hin.
  - destruct H as [H _]. rewrite Forall_forall in H. specialize (H _ Hin). simpl in H. lia.
  - apply IH; tauto.
Qed.
Lemma increasing_app f l l' :
  increasing f l -> increasing f l' -> (forall a b, In a l -> In b l' -> f a < f b) -> increasing f (l ++ l').
Proof.
  induction l as [|a l IH]; simpl; intros H1 H2 H3; auto. destruct H1 as [H1 H1']. split.
  - apply Forall_app. split; auto. apply Forall_forall. intros b Hb. auto.
  - apply IH; auto.
Qed.

(** ** Broadcast *)
Fixpoint down (l : nat) : list nat := match l with O => [0] | S l' => l :: down l' end.
Lemma down_eq L : map (fun i => L - i) (seq 0 (S L)) = down L.
Proof.
  induction L as [|L IH]; [reflexivity|].
  cbn [down]. rewrite <- IH. cbn [seq map]. f_equal. rewrite <- seq_shift, map_map. reflexivity.
Qed.
Lemma strides_eq n : strides n = map (fun l => 2 ^ l) (down (Nat.log2 n)).
Proof. unfold strides. rewrite <- down_eq, map_map. reflexivity. Qed.
Lemma down_in L l : In l (down L) <-> l <= L.
Proof. induction L as [|L IH]; simpl; [lia|]. rewrite IH. lia. Qed.

Definition divb (a b : nat) : bool := b mod a =? 0.
Definition bc_act (n r v k : nat) (own : bytes) (l : nat) : list action :=
  if divb (2 ^ S l) v then if v + 2 ^ l <? n then [ASend (next n r (2 ^ l)) k (bcast_output own)] else []
  else if divb (2 ^ l) v then [ARecv (prev n r (2 ^ l)) k] else [].

Lemma pow_pos l : 0 < 2 ^ l.
Proof. pose proof (Nat.pow_nonzero 2 l). lia. Qed.
Lemma divb_divide a b : a <> 0 -> divb a b = true <-> Nat.divide a b.
Proof. intros Ha. unfold divb. rewrite Nat.eqb_eq. apply Nat.mod_divide; auto. Qed.
Lemma divb_S l v : divb (2 ^ S l) v = true -> divb (2 ^ l) v = true.
Proof.
  intros H. apply divb_divide in H; [|apply Nat.pow_nonzero; lia]. apply divb_divide; [apply Nat.pow_nonzero; lia|].
  destruct H as [c ->]. exists (c * 2). simpl. lia.
Qed.

Lemma bcast_loop_flat n r v k own L :
  bcast_loop n r v k own (map (fun l => 2 ^ l) (down L)) (divb (2 ^ S L) v) = flat_map (bc_act n r v k own) (down L).
Proof.
  induction L as [|L IH].
  - cbn [down map flat_map bcast_loop]. unfold bc_act.
    destruct (divb (2 ^ 1) v); cbn [app].
    + destruct (v + 2 ^ 0 <? n); reflexivity.
    + change (v mod 2 ^ 0 =? 0) with (divb (2 ^ 0) v). destruct (divb (2 ^ 0) v); reflexivity.
  - cbn [down map flat_map bcast_loop]. unfold bc_act at 1.
    destruct (divb (2 ^ S (S L)) v) eqn:E.
    + apply divb_S in E. rewrite E in IH. rewrite IH. destruct (v + 2 ^ S L <? n); reflexivity.
    + change (v mod 2 ^ S L =? 0) with (divb (2 ^ S L) v).
      destruct (divb (2 ^ S L) v) eqn:E2; rewrite IH; reflexivity.
Qed.

Lemma bcast_body n root r k x : root < n -> r < n ->
  bcast_loop n r (ring_offset root r n) k (x r) (strides n) (ring_offset root r n =? 0) =
  flat_map (bc_act n r (ring_offset root r n) k (x r)) (down (Nat.log2 n)).
Proof.
  intros Hroot Hr. rewrite strides_eq, <- bcast_loop_flat. f_equal.
  pose proof (off_lt n root r ltac:(lia)) as Hv. pose proof (Nat.log2_spec n ltac:(lia)) as [_ H2].
  unfold divb. rewrite Nat.mod_small by lia. reflexivity.
Qed.

Lemma bc_act_in a n r v k own l : In a (bc_act n r v k own l) ->
  (a = ASend (next n r (2 ^ l)) k (bcast_output own) /\ Nat.divide (2 ^ S l) v /\ v + 2 ^ l < n) \/
  (a = ARecv (prev n r (2 ^ l)) k /\ ~ Nat.divide (2 ^ S l) v /\ Nat.divide (2 ^ l) v).
Proof.
  unfold bc_act. intros H. assert (N : forall j, 2 ^ j <> 0) by (intros; apply Nat.pow_nonzero; lia).
  destruct (divb (2 ^ S l) v) eqn:E1.
  - destruct (Nat.ltb_spec (v + 2 ^ l) n); [|destruct H]. destruct H as [<-|[]]. left.
    apply divb_divide in E1; auto.
  - destruct (divb (2 ^ l) v) eqn:E2; [|destruct H]. destruct H as [<-|[]]. right.
    apply divb_divide in E2; auto. split; auto. split; auto. intros H. apply divb_divide in H; auto. congruence.
Qed.

Lemma odd_multiple l v : ~ Nat.divide (2 ^ S l) v -> Nat.divide (2 ^ l) v -> 2 ^ l <= v /\ Nat.divide (2 ^ S l) (v - 2 ^ l).
Proof.
  intros Hn [c ->]. destruct (Nat.Even_or_Odd c) as [[e ->]|[e ->]].
  - exfalso. apply Hn. exists e. simpl. lia.
  - split; [pose proof (pow_pos l); nia|]. exists e. simpl. nia.
Qed.
Lemma even_plus l v : Nat.divide (2 ^ S l) v -> ~ Nat.divide (2 ^ S l) (v + 2 ^ l) /\ Nat.divide (2 ^ l) (v + 2 ^ l).
Proof.
  intros [c ->]. pose proof (pow_pos l). split.
  - intros [e He]. simpl in He.
    assert (E : (2 * c + 1) * 2 ^ l = (2 * e) * 2 ^ l) by lia. apply Nat.mul_cancel_r in E; lia.
  - exists (2 * c + 1). simpl. lia.
Qed.

Lemma log2_stride n l : 0 < n -> l <= Nat.log2 n -> 2 ^ l <= n.
Proof.
  intros Hn Hl. pose proof (Nat.log2_spec n Hn) as [H _]. pose proof (Nat.pow_le_mono_r 2 l (Nat.log2 n)). lia.
Qed.

Lemma bc_act_rank n root r k own l a : root < n -> r < n -> l <= Nat.log2 n ->
  In a (bc_act n r (ring_offset root r n) k own l) ->
  2 * (Nat.log2 n - l) <= arank n (OpBroadcast root (fun _ => own)) r a <= 2 * (Nat.log2 n - l) + 1.
Proof.
  intros Hroot Hr Hl H. pose proof (off_lt n root r ltac:(lia)) as Hv.
  apply bc_act_in in H as [(-> & Hd & Hs)|(-> & Hn & Hd)]; cbn [arank oprk].
  - rewrite dist_next by lia. rewrite Nat.log2_pow2 by lia. lia.
  - destruct (odd_multiple _ _ Hn Hd) as [H1 _]. rewrite dist_prev by lia. rewrite Nat.log2_pow2 by lia. lia.
Qed.

(** Number of receives in a piece of a broadcast body. *)
Fixpoint nrecv (l : list action) : nat :=
  match l with [] => 0 | ARecv _ _ :: r => S (nrecv r) | _ :: r => nrecv r end.

Lemma bcast_regs root x r l acc : Forall (fun a => match a with AOut _ _ => False | _ => True end) l ->
  fold_left (reg_step (fun _ => opval (OpBroadcast root x)) r) l acc = acc ++ repeat (x root) (nrecv l).
Proof.
  revert acc. induction l as [|[d k g|s k|k h] l IH]; intros acc H; simpl; inversion H; subst.
  - rewrite app_nil_r; auto.
  - apply IH; auto.
  - rewrite IH by auto. rewrite <- app_assoc. reflexivity.
  - tauto.
Qed.

Lemma loop_nrecv n r v k own ss : forall received,
  (received = false -> In 1 ss) -> nrecv (bcast_loop n r v k own ss received) = if received then 0 else 1.
Proof.
  induction ss as [|s ss IH]; intros received H; cbn [bcast_loop].
  - destruct received; auto. destruct (H eq_refl).
  - destruct received.
    + destruct (v + s <? n); cbn [nrecv]; apply (IH true); discriminate.
    + destruct (Nat.eqb_spec (v mod s) 0).
      * cbn [nrecv]. rewrite (IH true) by discriminate. reflexivity.
      * apply (IH false). intros _. destruct (H eq_refl) as [->|H']; auto. exfalso. apply n0. apply Nat.mod_1_r.
Qed.

Lemma loop_send_split n r v k own ss : forall received l1 l2 d k' g,
  bcast_loop n r v k own ss received = l1 ++ ASend d k' g :: l2 ->
  g = bcast_output own /\ nrecv l1 = if received then 0 else 1.
Proof.
  induction ss as [|s ss IH]; intros received l1 l2 d k' g H; cbn [bcast_loop] in H.
  - destruct l1; discriminate.
  - destruct received.
    + destruct (v + s <? n).
      * destruct l1 as [|a l1]; simpl in H; inversion H; subst; auto. apply IH in H2 as [-> H2]. auto.
      * apply IH in H. auto.
    + destruct (v mod s =? 0).
      * destruct l1 as [|a l1]; simpl in H; inversion H; subst. apply IH in H2 as [-> H2]. simpl. rewrite H2. auto.
      * apply IH in H. auto.
Qed.

Lemma loop_no_out n r v k own ss : forall received,
  Forall (fun a => match a with AOut _ _ => False | _ => True end) (bcast_loop n r v k own ss received).
Proof.
  induction ss as [|s ss IH]; intros received; cbn [bcast_loop]; [constructor|].
  destruct received.
  - destruct (v + s <? n); auto.
  - destruct (v mod s =? 0); auto.
Qed.

Lemma strides_one n : In 1 (strides n).
Proof. rewrite strides_eq. apply in_map_iff. exists 0. split; auto. apply down_in. lia. Qed.

Lemma in_flat_act n root r k x a : In a (flat_map (bc_act n r (ring_offset root r n) k (x r)) (down (Nat.log2 n))) ->
  exists l, l <= Nat.log2 n /\ In a (bc_act n r (ring_offset root r n) k (x r) l).
Proof. intros H. apply in_flat_map in H as (l & Hl & H). exists l. split; auto. apply down_in; auto. Qed.

Lemma bc_increasing n root r k own L : root < n -> r < n -> L <= Nat.log2 n ->
  increasing (arank n (OpBroadcast root (fun _ => own)) r) (flat_map (bc_act n r (ring_offset root r n) k own) (down L)).
Proof.
  intros Hroot Hr. induction L as [|L IH]; intros HL.
  - cbn [down flat_map]. rewrite app_nil_r. unfold bc_act.
    destruct (divb _ _); [destruct (_ <? _)|destruct (divb _ _)]; simpl; auto.
  - cbn [down flat_map]. apply increasing_app.
    + unfold bc_act. destruct (divb _ _); [destruct (_ <? _)|destruct (divb _ _)]; simpl; auto.
    + apply IH. lia.
    + intros a b Ha Hb. apply in_flat_map in Hb as (l & Hl & Hb). apply down_in in Hl.
      apply (bc_act_rank n root r k own (S L)) in Ha; auto. apply (bc_act_rank n root r k own l) in Hb; auto; lia.
Qed.

Lemma arank_bcast n root x y r a : arank n (OpBroadcast root x) r a = arank n (OpBroadcast root y) r a.
Proof. destruct a; reflexivity. Qed.

Lemma increasing_ext f g l : (forall a, f a = g a) -> increasing f l -> increasing g l.
Proof.
  intros E. induction l as [|a l IH]; simpl; auto. intros [H1 H2]. split; auto.
  eapply Forall_impl; [|exact H1]. intros b. rewrite !E; auto.
Qed.

Lemma bcast_increasing n root r k x : root < n -> r < n ->
  increasing (arank n (OpBroadcast root x) r) (broadcast n root r k x).
Proof.
  intros Hroot Hr. unfold broadcast. rewrite bcast_body by auto. apply increasing_app.
  - eapply increasing_ext; [|apply (bc_increasing n root r k (x r)); auto].
    intros a. apply arank_bcast.
  - simpl; auto.
  - intros a b Ha [<-|[]]. apply in_flat_act in Ha as (l & Hl & Ha).
    apply (bc_act_rank n root r k (x r) l) in Ha; auto. rewrite (arank_bcast n root x (fun _ => x r)).
    cbn [arank] in *. lia.
Qed.

Lemma bcast_facts n root x key : root < n -> op_facts n (OpBroadcast root x) key.
Proof.
  intros Hroot. constructor; cbn [op_actions].
  - intros r Hr. unfold broadcast. set (v := ring_offset root r n).
    exists (bcast_loop n r v key (x r) (strides n) (v =? 0)), (fun regs => [bcast_output (x r) regs]).
    split; auto. split; [|split].
    + apply loop_no_out.
    + rewrite bcast_regs by apply loop_no_out. rewrite loop_nrecv by (intros; apply strides_one).
      cbn [opout]. destruct (Nat.eqb_spec v 0) as [E|E]; simpl; auto.
      apply off_zero in E; auto. subst. reflexivity.
    + intros l1 l2 d k g H.
      pose proof (loop_no_out n r v key (x r) (strides n) (v =? 0)) as Hno. rewrite H in Hno.
      apply Forall_app in Hno as [Hno _]. rewrite bcast_regs by auto.
      apply loop_send_split in H as [-> ->]. cbn [opval].
      destruct (Nat.eqb_spec v 0) as [E|E]; [|reflexivity].
      apply (off_zero n root r) in E; [|exact Hroot|exact Hr]. subst r. reflexivity.
  - intros r d k g Hr H. unfold broadcast in *. rewrite bcast_body in H by auto.
    apply in_app_or in H as [H|[H|[]]]; [|discriminate]. apply in_flat_act in H as (l & Hl & H).
    apply bc_act_in in H as [(E & Hd & Hs)|(E & _)]; [|discriminate]. inversion E; subst; clear E.
    pose proof (pow_pos l). assert (Hlt : 2 ^ l < n) by lia.
    split; auto. split; [apply next_lt; lia|]. split; [apply next_neq; lia|].
    rewrite bcast_body by (auto; apply next_lt; lia). apply in_or_app. left.
    apply in_flat_map. exists l. split; [apply down_in; auto|]. unfold bc_act.
    rewrite off_next by (auto; lia). destruct (even_plus l _ Hd) as [E1 E2].
    destruct (divb (2 ^ S l) (ring_offset root r n + 2 ^ l)) eqn:D1.
    { apply divb_divide in D1; [tauto|apply Nat.pow_nonzero; lia]. }
    apply divb_divide in E2; [|apply Nat.pow_nonzero; lia]. rewrite E2.
    rewrite prev_next by lia. simpl; auto.
  - intros r s k Hr H. unfold broadcast in *. rewrite bcast_body in H by auto.
    apply in_app_or in H as [H|[H|[]]]; [|discriminate]. apply in_flat_act in H as (l & Hl & H).
    apply bc_act_in in H as [(E & _)|(E & Hn & Hd)]; [discriminate|]. inversion E; subst; clear E.
    pose proof (pow_pos l). pose proof (off_lt n root r ltac:(lia)).
    destruct (odd_multiple _ _ Hn Hd) as [H1 H2].
    split; auto. split; [apply prev_lt; lia|].
    exists (bcast_output (x (prev n r (2 ^ l)))).
    rewrite bcast_body by (auto; apply prev_lt; lia). apply in_or_app. left.
    apply in_flat_map. exists l. split; [apply down_in; auto|]. unfold bc_act.
    rewrite off_prev by (auto; lia).
    apply divb_divide in H2; [|apply Nat.pow_nonzero; lia]. rewrite H2.
    destruct (Nat.ltb_spec (ring_offset root r n - 2 ^ l + 2 ^ l) n); [|lia].
    rewrite next_prev by lia. simpl; auto.
  - intros r Hr. apply (increasing_nodup n (OpBroadcast root x) r key); [|apply bcast_increasing; auto].
    intros a Ha. unfold broadcast in Ha. rewrite bcast_body in Ha by auto.
    apply in_app_or in Ha as [Ha|[<-|[]]]; auto. apply in_flat_act in Ha as (l & _ & Ha).
    apply bc_act_in in Ha as [(-> & _)|(-> & _)]; reflexivity.
  - intros r l1 l2 s k d k' g Hr H Hin. pose proof (bcast_increasing n root r key x Hroot Hr) as Hi.
    rewrite H in Hi. eapply increasing_rank; eauto.
Qed.

(** ** Barrier *)
Lemma offsets_in n o : In o (offsets n) <-> exists j, o = 2 ^ j /\ 2 ^ j < n.
Proof.
  unfold offsets. rewrite filter_In, in_map_iff. rewrite Nat.ltb_lt. split.
  - intros [(j & <- & Hj) Ho]. exists j. auto.
  - intros (j & -> & Hj). split; auto. exists j. split; auto. apply in_seq.
    pose proof (Nat.pow_gt_lin_r 2 j ltac:(lia)). lia.
Qed.

Definition bar_pair (n r key o : nat) : list action :=
  [ASend (next n r o) key (fun _ => []); ARecv (prev n r o) key].

Lemma bar_flat_increasing n r key : r < n -> forall m a,
  increasing (arank n OpBarrier r)
    (flat_map (bar_pair n r key) (filter (fun o => o <? n) (map (fun j => 2 ^ j) (seq a m)))).
Proof.
  intros Hr. induction m as [|m IH]; intros a; [simpl; auto|]. cbn [seq map filter].
  destruct (Nat.ltb_spec (2 ^ a) n) as [L|L]; [|apply IH].
  cbn [flat_map]. apply increasing_app; [| apply IH |].
  - unfold bar_pair. cbn [increasing]. repeat split; auto. constructor; auto. cbn [arank oprk].
    rewrite dist_next, dist_prev by lia. lia.
  - intros x y Hx Hy. apply in_flat_map in Hy as (o & Ho & Hy).
    apply filter_In in Ho as [Ho Hlt]. apply Nat.ltb_lt in Hlt. apply in_map_iff in Ho as (j & <- & Hj).
    apply in_seq in Hj.
    assert (Hx' : arank n OpBarrier r x <= 2 * a + 1).
    { destruct Hx as [<-|[<-|[]]]; cbn [arank oprk]; rewrite ?dist_next, ?dist_prev by lia; rewrite Nat.log2_pow2 by lia; lia. }
    assert (Hy' : 2 * j <= arank n OpBarrier r y).
    { destruct Hy as [<-|[<-|[]]]; cbn [arank oprk]; rewrite ?dist_next, ?dist_prev by lia; rewrite Nat.log2_pow2 by lia; lia. }
    lia.
Qed.

Lemma bar_increasing n r key : r < n -> increasing (arank n OpBarrier r) (barrier n r key).
Proof.
  intros Hr. unfold barrier. apply increasing_app; [apply bar_flat_increasing; auto|simpl; auto|].
  intros a b Ha [<-|[]]. cbn [arank]. apply in_flat_map in Ha as (o & Ho & Ha).
  apply offsets_in in Ho as (j & -> & Hj).
  assert (j <= Nat.log2 n). { rewrite <- (Nat.log2_pow2 j) by lia. apply Nat.log2_le_mono. lia. }
  destruct Ha as [<-|[<-|[]]]; cbn [arank oprk]; rewrite ?dist_next, ?dist_prev by lia; rewrite Nat.log2_pow2 by lia; lia.
Qed.

Lemma barrier_facts n key : 0 < n -> op_facts n OpBarrier key.
Proof.
  intros Hn. constructor; cbn [op_actions].
  - intros r Hr. unfold barrier. eexists; eexists. split; [reflexivity|]. split; [|split].
    + apply Forall_forall. intros a Ha. apply in_flat_map in Ha as (o & Ho & [<-|[<-|[]]]); auto.
    + reflexivity.
    + intros l1 l2 d k g H.
      assert (Hin : In (ASend d k g) (flat_map (bar_pair n r key) (offsets n))).
      { unfold bar_pair. rewrite H. apply in_or_app; simpl; auto. }
      apply in_flat_map in Hin as (o & Ho & [E|[E|[]]]); inversion E; subst; reflexivity.
  - intros r d k g Hr H. unfold barrier in *. apply in_app_or in H as [H|[H|[]]]; [|discriminate].
    apply in_flat_map in H as (o & Ho & [E|[E|[]]]); inversion E; subst; clear E.
    pose proof Ho as Ho'. apply offsets_in in Ho' as (j & -> & Hj). pose proof (pow_pos j).
    split; auto. split; [apply next_lt; lia|]. split; [apply next_neq; lia|].
    apply in_or_app. left. apply in_flat_map. exists (2 ^ j). split; auto. rewrite prev_next by lia. simpl; auto.
  - intros r s k Hr H. unfold barrier in *. apply in_app_or in H as [H|[H|[]]]; [|discriminate].
    apply in_flat_map in H as (o & Ho & [E|[E|[]]]); inversion E; subst; clear E.
    pose proof Ho as Ho'. apply offsets_in in Ho' as (j & -> & Hj). pose proof (pow_pos j).
    split; auto. split; [apply prev_lt; lia|]. exists (fun _ => []).
    apply in_or_app. left. apply in_flat_map. exists (2 ^ j). split; auto. rewrite next_prev by lia. simpl; auto.
  - intros r Hr. apply (increasing_nodup n OpBarrier r key); [|apply bar_increasing; auto].
    intros a Ha. unfold barrier in Ha. apply in_app_or in Ha as [Ha|[<-|[]]]; auto.
    apply in_flat_map in Ha as (o & Ho & [<-|[<-|[]]]); auto.
  - intros r l1 l2 s k d k' g Hr H Hin. pose proof (bar_increasing n r key Hr) as Hi.
    rewrite H in Hi. eapply increasing_rank; eauto.
Qed.

Lemma all_facts n o key : 0 < n -> op_ok n o -> op_facts n o key.
Proof.
  intros Hn Ho. destruct o; simpl in Ho.
  - apply allgather_facts; auto.
  - apply bcast_facts; auto.
  - apply gather_facts; auto.
  - apply scatter_facts; tauto.
  - apply barrier_facts; auto.
Qed.

(** * Whole programs *)
Definition akey (a : action) : nat := snd (tag a).

Lemma op_keys n o key r a : op_facts n o key -> r < n -> In a (op_actions n r key o) -> akey a = key.
Proof.
  intros F Hr H. destruct a as [d k g|s k|k h]; unfold akey; simpl.
  - apply (f_send n o key F) in H; tauto.
  - apply (f_recv n o key F) in H; tauto.
  - destruct (f_split n o key F r Hr) as (body & h' & E & Hno & _). rewrite E in H.
    apply in_app_or in H as [H|[H|[]]]; [|inversion H; auto].
    rewrite Forall_forall in Hno. destruct (Hno _ H).
Qed.

Lemma program_split n r ops : forall k0 l1 a l2, program n r k0 ops = l1 ++ a :: l2 ->
  exists i o b1 b2, nth_error ops i = Some o /\ l1 = program n r k0 (firstn i ops) ++ b1 /\
    op_actions n r (k0 + i) o = b1 ++ a :: b2 /\ l2 = b2 ++ program n r (S (k0 + i)) (skipn (S i) ops).
Proof.
  induction ops as [|o ops IH]; intros k0 l1 a l2 H; cbn [program] in H.
  - destruct l1; discriminate.
  - apply in_split_app in H as [(l2' & H & ->)|(l1' & -> & H)].
    + exists 0, o, l1, l2'. rewrite Nat.add_0_r. simpl. auto.
    + apply IH in H as (i & o' & b1 & b2 & H1 & -> & H3 & ->).
      exists (S i), o', b1, b2. replace (k0 + S i) with (S k0 + i) by lia. split; auto. split; auto.
      cbn [firstn program]. rewrite app_assoc. reflexivity.
Qed.

Lemma program_at n r ops : forall k0 i o, nth_error ops i = Some o ->
  program n r k0 ops = program n r k0 (firstn i ops) ++ op_actions n r (k0 + i) o ++ program n r (S (k0 + i)) (skipn (S i) ops).
Proof.
  induction ops as [|o' ops IH]; intros k0 i o H; [destruct i; discriminate|].
  destruct i as [|i].
  - simpl in H. inversion H; subst. rewrite Nat.add_0_r. reflexivity.
  - simpl in H. change (firstn (S i) (o' :: ops)) with (o' :: firstn i ops). cbn [program].
    rewrite (IH (S k0) i o H). rewrite <- app_assoc. replace (k0 + S i) with (S k0 + i) by lia. reflexivity.
Qed.

Lemma program_in n r ops k0 i o a : nth_error ops i = Some o -> In a (op_actions n r (k0 + i) o) -> In a (program n r k0 ops).
Proof. intros H Ha. rewrite (program_at n r ops k0 i o H). rewrite !in_app_iff. auto. Qed.

Lemma in_program n r ops k0 a : In a (program n r k0 ops) -> exists i o, nth_error ops i = Some o /\ In a (op_actions n r (k0 + i) o).
Proof.
  intros H. apply in_split in H as (l1 & l2 & H). apply program_split in H as (i & o & b1 & b2 & H1 & _ & H3 & _).
  exists i, o. split; auto. rewrite H3. apply in_or_app; simpl; auto.
Qed.

Definition oks (n : nat) (ops : list op) : Prop := Forall (op_ok n) ops.
Lemma oks_nth n ops i o : oks n ops -> nth_error ops i = Some o -> op_ok n o.
Proof. intros H Hi. unfold oks in H. rewrite Forall_forall in H. apply H. eapply nth_error_In; eauto. Qed.

Lemma program_keys n r ops k0 a : 0 < n -> r < n -> oks n ops -> In a (program n r k0 ops) ->
  k0 <= akey a < k0 + length ops.
Proof.
  intros Hn Hr Hok H. apply in_program in H as (i & o & Hi & Ha).
  pose proof (op_keys n o (k0 + i) r a (all_facts n o _ Hn (oks_nth _ _ _ _ Hok Hi)) Hr Ha).
  assert (i < length ops) by (apply nth_error_Some; congruence). lia.
Qed.

Section Prog.
Variable n : nat.
Variable ops : list op.
Hypothesis Hn : 0 < n.
Hypothesis Hok : oks n ops.

Definition opk (k : nat) : op := nth k ops OpBarrier.
Definition gprog (r : nat) : list action := if r <? n then program n r 0 ops else [].
Definition gval (k s d : nat) : bytes := opval (opk k) s d.
Definition grk (k s d : nat) : nat := k * S (Nat.log2 n) + oprk n (opk k) s d.
Definition gout (k r : nat) : list bytes := opout n (opk k) r.

Lemma opk_nth i o : nth_error ops i = Some o -> opk i = o.
Proof. intros H. unfold opk. apply nth_error_nth; auto. Qed.
Lemma facts i o key : nth_error ops i = Some o -> op_facts n o key.
Proof. intros H. apply all_facts; auto. eapply oks_nth; eauto. Qed.
Lemma gprog_lt r a : In a (gprog r) -> r < n.
Proof. unfold gprog. destruct (Nat.ltb_spec r n); auto. intros []. Qed.
Lemma gprog_eq r : r < n -> gprog r = program n r 0 ops.
Proof. intros H. unfold gprog. apply Nat.ltb_lt in H. rewrite H. reflexivity. Qed.

Lemma g_nil r : n <= r -> gprog r = [].
Proof. intros H. unfold gprog. apply Nat.ltb_ge in H. rewrite H. reflexivity. Qed.

Lemma g_send r d k g : In (ASend d k g) (gprog r) -> d < n /\ d <> r /\ In (ARecv r k) (gprog d).
Proof.
  intros H. pose proof (gprog_lt _ _ H) as Hr. rewrite gprog_eq in H by auto.
  apply in_program in H as (i & o & Hi & H). simpl in H.
  destruct (f_send n o i (facts i o i Hi) r d k g Hr H) as (-> & H1 & H2 & H3).
  repeat split; auto. rewrite gprog_eq by auto. eapply program_in; eauto.
Qed.
Lemma g_recv r s k : In (ARecv s k) (gprog r) -> s < n /\ exists g, In (ASend r k g) (gprog s).
Proof.
  intros H. pose proof (gprog_lt _ _ H) as Hr. rewrite gprog_eq in H by auto.
  apply in_program in H as (i & o & Hi & H). simpl in H.
  destruct (f_recv n o i (facts i o i Hi) r s k Hr H) as (-> & H1 & g & H2).
  repeat split; auto. exists g. rewrite gprog_eq by auto. eapply program_in; eauto.
Qed.
Lemma prog_nodup r os : r < n -> oks n os -> forall k0, NoDup (map tag (program n r k0 os)).
Proof.
  intros Hr. induction os as [|o os IH]; intros Hos k0; [constructor|]. cbn [program].
  inversion Hos as [|? ? Ho Hos']; subst. rewrite map_app. apply nodup_app3.
  - apply (f_nodup n o k0 (all_facts n o k0 Hn Ho) r Hr).
  - apply IH; auto.
  - intros t H1 H2. apply in_map_iff in H1 as (a & <- & H1). apply in_map_iff in H2 as (b & E & H2).
    pose proof (op_keys n o k0 r a (all_facts n o k0 Hn Ho) Hr H1) as Ka.
    pose proof (program_keys n r os (S k0) b Hn Hr Hos' H2) as Kb. unfold akey in *. rewrite E in Kb. lia.
Qed.
Lemma g_nodup r : NoDup (map tag (gprog r)).
Proof. unfold gprog. destruct (Nat.ltb_spec r n); [|constructor]. apply prog_nodup; auto. Qed.

Lemma g_rank r l1 l2 s k d k' g :
  gprog r = l1 ++ ARecv s k :: l2 -> In (ASend d k' g) l2 -> grk k s r < grk k' r d.
Proof.
  intros H Hin. assert (Hr : r < n). { apply (gprog_lt r (ARecv s k)). rewrite H. apply in_or_app; simpl; auto. }
  rewrite gprog_eq in H by auto. apply program_split in H as (i & o & b1 & b2 & Hi & -> & Hb & ->). simpl in Hb.
  pose proof (facts i o i Hi) as F.
  assert (Hk : akey (ARecv s k) = i) by (apply (op_keys n o i r _ F Hr); rewrite Hb; apply in_or_app; simpl; auto).
  unfold akey in Hk; simpl in Hk; subst k. unfold grk. rewrite (opk_nth i o Hi).
  apply in_app_or in Hin as [Hin|Hin].
  - assert (Hk : akey (ASend d k' g) = i) by (apply (op_keys n o i r _ F Hr); rewrite Hb; apply in_or_app; simpl; auto).
    unfold akey in Hk; simpl in Hk; subst k'. rewrite (opk_nth i o Hi).
    pose proof (f_rank n o i F r b1 b2 s i d i g Hr Hb Hin). lia.
  - assert (Hk : S i <= k').
    { apply (program_keys n r (skipn (S i) ops) (S i) (ASend d k' g)) in Hin; auto; [unfold akey in Hin; simpl in Hin; lia|].
      unfold oks in *. rewrite Forall_forall in *. intros x Hx. apply Hok.
      rewrite <- (firstn_skipn (S i) ops). apply in_or_app; auto. }
    pose proof (oprk_lt n o s r Hn). nia.
Qed.

Lemma regs_ext (v1 v2 : nat -> nat -> nat -> bytes) r l : (forall s k, In (ARecv s k) l -> v1 k s r = v2 k s r) ->
  forall acc, fold_left (reg_step v1 r) l acc = fold_left (reg_step v2 r) l acc.
Proof.
  induction l as [|a l IH]; intros H acc; cbn [fold_left]; auto.
  replace (reg_step v1 r acc a) with (reg_step v2 r acc a).
  - apply IH. intros s k Hin. apply H. simpl; auto.
  - destruct a; simpl; auto. rewrite H; simpl; auto.
Qed.

Lemma program_regs r os : r < n -> oks n os -> forall k0, exp_regs gval r (program n r k0 os) = [].
Proof.
  intros Hr. induction os as [|o os IH]; intros Hos k0; [reflexivity|]. cbn [program].
  inversion Hos as [|? ? Ho Hos']; subst. unfold exp_regs. rewrite fold_left_app.
  destruct (f_split n o k0 (all_facts n o k0 Hn Ho) r Hr) as (body & h & E & _). rewrite E, fold_left_app. simpl.
  apply IH; auto.
Qed.

Lemma firstn_oks i : oks n (firstn i ops).
Proof.
  unfold oks in *. rewrite Forall_forall in *. intros x Hx. apply Hok.
  rewrite <- (firstn_skipn i ops). apply in_or_app; auto.
Qed.

Lemma call_regs r i o b1 b2 : r < n -> nth_error ops i = Some o -> op_actions n r i o = b1 ++ b2 ->
  exp_regs gval r (program n r 0 (firstn i ops) ++ b1) = fold_left (reg_step (fun _ => opval o) r) b1 [].
Proof.
  intros Hr Hi Hb. unfold exp_regs. rewrite fold_left_app.
  pose proof (program_regs r (firstn i ops) Hr (firstn_oks i) 0) as E. unfold exp_regs in E. rewrite E.
  apply regs_ext. intros s k Hin. unfold gval.
  assert (Hk : akey (ARecv s k) = i).
  { apply (op_keys n o i r _ (facts i o i Hi) Hr). rewrite Hb. apply in_or_app; auto. }
  unfold akey in Hk; simpl in Hk; subst k. rewrite (opk_nth i o Hi). reflexivity.
Qed.

Lemma snoc_split {A} (l : list A) x l1 y l2 : l ++ [x] = l1 ++ y :: l2 ->
  (l1 = l /\ y = x /\ l2 = []) \/ exists l2', l = l1 ++ y :: l2' /\ l2 = l2' ++ [x].
Proof.
  intros H. apply in_split_app in H as [(l2' & -> & ->)|(l1' & -> & H)]; [right; exists l2'; auto|].
  left. destruct l1' as [|z l1']; simpl in H; inversion H; subst; [|destruct l1'; discriminate].
  rewrite app_nil_r. auto.
Qed.

Lemma g_val r l1 l2 d k g : gprog r = l1 ++ ASend d k g :: l2 -> g (exp_regs gval r l1) = gval k r d.
Proof.
  intros H. assert (Hr : r < n). { apply (gprog_lt r (ASend d k g)). rewrite H. apply in_or_app; simpl; auto. }
  rewrite gprog_eq in H by auto. apply program_split in H as (i & o & b1 & b2 & Hi & -> & Hb & _). simpl in Hb.
  pose proof (facts i o i Hi) as F.
  assert (Hk : akey (ASend d k g) = i) by (apply (op_keys n o i r _ F Hr); rewrite Hb; apply in_or_app; simpl; auto).
  unfold akey in Hk; simpl in Hk; subst k.
  rewrite (call_regs r i o b1 _ Hr Hi Hb). unfold gval. rewrite (opk_nth i o Hi).
  destruct (f_split n o i F r Hr) as (body & h & E & Hno & _ & Hs). rewrite E in Hb.
  apply snoc_split in Hb as [(_ & E2 & _)|(b2' & -> & _)]; [discriminate|]. eapply Hs; eauto.
Qed.

Lemma g_out r l1 l2 k h : gprog r = l1 ++ AOut k h :: l2 -> h (exp_regs gval r l1) = gout k r.
Proof.
  intros H. assert (Hr : r < n). { apply (gprog_lt r (AOut k h)). rewrite H. apply in_or_app; simpl; auto. }
  rewrite gprog_eq in H by auto. apply program_split in H as (i & o & b1 & b2 & Hi & -> & Hb & _). simpl in Hb.
  pose proof (facts i o i Hi) as F.
  assert (Hk : akey (AOut k h) = i) by (apply (op_keys n o i r _ F Hr); rewrite Hb; apply in_or_app; simpl; auto).
  unfold akey in Hk; simpl in Hk; subst k.
  rewrite (call_regs r i o b1 _ Hr Hi Hb). unfold gout. rewrite (opk_nth i o Hi).
  destruct (f_split n o i F r Hr) as (body & h' & E & Hno & Ho & _). rewrite E in Hb.
  apply snoc_split in Hb as [(-> & E2 & _)|(b2' & -> & _)].
  - inversion E2; subst. auto.
  - apply Forall_app in Hno as [_ Hno]. inversion Hno; tauto.
Qed.

Definition GInv := Inv gprog gval gout.

Lemma start_inv : GInv (start n ops).
Proof.
  unfold start. apply (inv_init gprog gval gout []). reflexivity.
Qed.

Lemma reach_inv sts s : run_steps sts (start n ops) = Some s -> GInv s.
Proof.
  intros H. eapply (inv_run gprog gval gout g_nodup g_val g_out); [apply start_inv|exact H].
Qed.

(** Results of the finished calls. *)
Definition outkeys (l : list action) : list nat := flat_map (fun a => match a with AOut k _ => [k] | _ => [] end) l.
Lemma outkeys_app l l' : outkeys (l ++ l') = outkeys l ++ outkeys l'.
Proof. apply flat_map_app. Qed.
Lemma outkeys_body l : Forall (fun a => match a with AOut _ _ => False | _ => True end) l -> outkeys l = [].
Proof. induction 1 as [|[]]; simpl; auto; tauto. Qed.
Lemma program_outkeys r os : r < n -> oks n os -> forall k0, outkeys (program n r k0 os) = seq k0 (length os).
Proof.
  intros Hr. induction os as [|o os IH]; intros Hos k0; [reflexivity|]. cbn [program length seq].
  inversion Hos as [|? ? Ho Hos']; subst. rewrite outkeys_app, IH by auto.
  destruct (f_split n o k0 (all_facts n o k0 Hn Ho) r Hr) as (body & h & E & Hno & _).
  rewrite E, outkeys_app, outkeys_body by auto. reflexivity.
Qed.
Lemma exp_outs_keys r l : exp_outs gout r l = map (fun k => gout k r) (outkeys l).
Proof.
  induction l as [|[d k g|s k|k h] l IH]; auto.
  change (exp_outs gout r (AOut k h :: l)) with (gout k r :: exp_outs gout r l).
  change (outkeys (AOut k h :: l)) with (k :: outkeys l). simpl. f_equal. exact IH.
Qed.
Lemma seq_prefix a m l l' : l ++ l' = seq a m -> l = seq a (length l) /\ length l <= m.
Proof.
  revert a m. induction l as [|x l IH]; intros a m H; simpl; [split; auto; lia|].
  destruct m; [discriminate|]. simpl in H. inversion H; subst. destruct (IH _ _ H2) as [-> E].
  rewrite seq_length. split; auto. rewrite seq_length in E. lia.
Qed.
Lemma map_firstn_ops r c : c <= length ops -> map (fun k => gout k r) (seq 0 c) = map (fun o => opout n o r) (firstn c ops).
Proof.
  intros Hc. unfold gout, opk. revert Hc. generalize ops. intros os. clear. revert c.
  induction os as [|o os IH]; intros c Hc; destruct c as [|c]; simpl in *; auto; try lia.
  f_equal. rewrite <- seq_shift, map_map. apply (IH c). lia.
Qed.
Lemma did_outkeys s r : GInv s -> r < n ->
  outkeys (did gprog s r) = seq 0 (length (outs (parties s r))) /\ length (outs (parties s r)) <= length ops.
Proof.
  intros I Hr. pose proof (i_pre _ _ _ s I r) as Hp. rewrite gprog_eq in Hp by auto.
  pose proof (program_outkeys r ops Hr Hok 0) as Hk. rewrite Hp, outkeys_app in Hk.
  apply seq_prefix in Hk as [E L]. rewrite (i_outs _ _ _ s I), exp_outs_keys, map_length. auto.
Qed.
Lemma outs_prefix s r : GInv s -> r < n ->
  length (outs (parties s r)) <= length ops /\
  outs (parties s r) = map (fun o => opout n o r) (firstn (length (outs (parties s r))) ops).
Proof.
  intros I Hr. destruct (did_outkeys s r I Hr) as [E L]. split; auto.
  rewrite <- map_firstn_ops by auto. rewrite <- E. rewrite (i_outs _ _ _ s I), exp_outs_keys. reflexivity.
Qed.
Lemma finished_all s r : GInv s -> r < n -> todo (parties s r) = [] ->
  outs (parties s r) = map (fun o => opout n o r) ops.
Proof.
  intros I Hr Ht. rewrite (finished_outs gprog gval gout s r I Ht).
  rewrite gprog_eq, exp_outs_keys, program_outkeys, map_firstn_ops, firstn_all by auto. reflexivity.
Qed.

(** Barrier *)
Lemma increasing_before f A a B b : increasing f (A ++ a :: B) -> In b (A ++ a :: B) -> f b < f a -> In b A.
Proof.
  induction A as [|x A IH]; simpl; intros H Hin Hlt.
  - destruct H as [H _]. rewrite Forall_forall in H. destruct Hin as [ -> |Hin]; [lia|]. specialize (H b Hin). lia.
  - destruct Hin as [ -> |Hin]; auto. right. apply IH; tauto.
Qed.

Lemma barrier_earlier s r k a b : GInv s -> r < n -> nth_error ops k = Some OpBarrier ->
  In a (barrier n r k) -> In a (did gprog s r) -> In b (barrier n r k) ->
  arank n OpBarrier r b < arank n OpBarrier r a -> In b (did gprog s r).
Proof.
  intros I Hr Hk Ha Hd Hb Hlt. apply in_split in Ha as (A & B & E).
  pose proof (bar_increasing n r k Hr) as Hi. rewrite E in Hi, Hb.
  pose proof (increasing_before _ _ _ _ _ Hi Hb Hlt) as HA.
  pose proof (program_at n r ops 0 k OpBarrier Hk) as Hp. cbn [op_actions] in Hp. simpl Nat.add in Hp. rewrite E in Hp.
  eapply (did_prefix gprog gval gout g_nodup s r (program n r 0 (firstn k ops) ++ A) a); eauto.
  - rewrite gprog_eq by auto. rewrite Hp. rewrite <- !app_assoc. reflexivity.
  - apply in_or_app; auto.
Qed.

Definition part (s : net) (q k : nat) : Prop := exists a, In a (barrier n q k) /\ In a (did gprog s q).

Lemma bar_in_send r k j : 2 ^ j < n -> In (ASend (next n r (2 ^ j)) k (fun _ => [])) (barrier n r k).
Proof.
  intros Hj. unfold barrier. apply in_or_app. left. apply in_flat_map. exists (2 ^ j). split; [|simpl; auto].
  apply offsets_in. exists j; auto.
Qed.
Lemma bar_in_recv r k j : 2 ^ j < n -> In (ARecv (prev n r (2 ^ j)) k) (barrier n r k).
Proof.
  intros Hj. unfold barrier. apply in_or_app. left. apply in_flat_map. exists (2 ^ j). split; [|simpl; auto].
  apply offsets_in. exists j; auto.
Qed.

(** The send of round [j] in the barrier is the only send to that rank. *)
Lemma sent_bar s q d k : GInv s -> q < n -> nth_error ops k = Some OpBarrier -> sent gprog s q d k ->
  In (ASend d k (fun _ => [])) (barrier n q k) -> In (ASend d k (fun _ => [])) (did gprog s q).
Proof.
  intros I Hq Hk [g Hg] Hin.
  assert (E : ASend d k g = ASend d k (fun _ => [])).
  { apply (tag_unique (gprog q)); auto; [apply g_nodup| |].
    - rewrite (i_pre _ _ _ s I q). apply in_or_app; auto.
    - rewrite gprog_eq by auto. eapply (program_in n q ops 0 k); eauto. }
  rewrite <- E. exact Hg.
Qed.

Lemma bar_round s k : GInv s -> nth_error ops k = Some OpBarrier -> forall j p m, p < n -> 2 ^ j < n ->
  In (ASend (next n p (2 ^ j)) k (fun _ => [])) (did gprog s p) -> m < 2 ^ j -> part s (prev n p m) k.
Proof.
  intros I Hk. induction j as [|j IH]; intros p m Hp Hj Hd Hm.
  - simpl in Hm. replace m with 0 by lia. replace (prev n p 0) with p by (ring_tac; lia).
    exists (ASend (next n p (2 ^ 0)) k (fun _ => [])). split; auto. apply bar_in_send; auto.
  - pose proof (pow_pos j). assert (Hj' : 2 ^ j < n) by (simpl in Hj; lia).
    assert (Hs : In (ASend (next n p (2 ^ j)) k (fun _ => [])) (did gprog s p)).
    { apply (barrier_earlier s p k (ASend (next n p (2 ^ S j)) k (fun _ => []))); auto using bar_in_send. cbn [arank oprk].
      rewrite !dist_next by lia. rewrite !Nat.log2_pow2 by lia. lia. }
    destruct (le_lt_dec (2 ^ j) m) as [L|L]; [|apply (IH p m); auto].
    assert (Hr : In (ARecv (prev n p (2 ^ j)) k) (did gprog s p)).
    { apply (barrier_earlier s p k (ASend (next n p (2 ^ S j)) k (fun _ => []))); auto using bar_in_send, bar_in_recv. cbn [arank oprk].
      rewrite dist_next, dist_prev by lia. rewrite !Nat.log2_pow2 by lia. lia. }
    pose proof (i_caus _ _ _ s I _ _ _ Hr) as Hc. set (q := prev n p (2 ^ j)) in *.
    assert (Hq : q < n) by (apply prev_lt; lia).
    assert (Eq : next n q (2 ^ j) = p) by (apply next_prev; lia).
    assert (Hqs : In (ASend (next n q (2 ^ j)) k (fun _ => [])) (did gprog s q)).
    { apply sent_bar; auto; [rewrite Eq; auto|]. apply bar_in_send; auto. }
    replace (prev n p m) with (prev n q (m - 2 ^ j)).
    + apply IH; auto. simpl in Hm. lia.
    + unfold q. rewrite prev_add; [f_equal; lia|auto|]. cbn [Nat.pow] in Hj, Hm. lia.
Qed.

Lemma bar_all s p q k : GInv s -> p < n -> q < n -> nth_error ops k = Some OpBarrier ->
  (exists h, In (AOut k h) (did gprog s p)) -> part s q k.
Proof.
  intros I Hp Hq Hk [h0 Hh].
  assert (Ho : In (AOut k (fun _ => [])) (barrier n p k)) by (unfold barrier; apply in_or_app; simpl; auto).
  assert (Hout : In (AOut k (fun _ : list bytes => @nil bytes)) (did gprog s p)).
  { replace (AOut k (fun _ => [])) with (AOut k h0); auto. apply (tag_unique (gprog p)); auto; [apply g_nodup| |].
    - rewrite (i_pre _ _ _ s I p). apply in_or_app; auto.
    - rewrite gprog_eq by auto. eapply (program_in n p ops 0 k); eauto. }
  destruct (Nat.eq_dec p q) as [ -> |Hne].
  { eexists; split; eauto. }
  assert (H1 : 1 < n) by lia. set (J := Nat.log2 (n - 1)).
  pose proof (Nat.log2_spec (n - 1) ltac:(lia)) as [HJ1 HJ2]. fold J in HJ1, HJ2.
  pose proof (pow_pos J). assert (HJ : 2 ^ J < n) by lia.
  assert (HJl : J <= Nat.log2 n) by (apply Nat.log2_le_mono; lia).
  assert (Hs : In (ASend (next n p (2 ^ J)) k (fun _ => [])) (did gprog s p)).
  { eapply barrier_earlier; [exact I|exact Hp|exact Hk|exact Ho|exact Hout|apply bar_in_send; auto|].
    cbn [arank oprk]. rewrite dist_next by lia. rewrite Nat.log2_pow2 by lia. lia. }
  assert (Hr : In (ARecv (prev n p (2 ^ J)) k) (did gprog s p)).
  { eapply barrier_earlier; [exact I|exact Hp|exact Hk|exact Ho|exact Hout|apply bar_in_recv; auto|].
    cbn [arank oprk]. rewrite dist_prev by lia. rewrite Nat.log2_pow2 by lia. lia. }
  rewrite <- (prev_dist n p q Hp Hq). set (m := dist n q p).
  assert (Hm : m < n) by (apply dist_lt; lia).
  destruct (le_lt_dec (2 ^ J) m) as [L|L]; [|eapply bar_round; eauto].
  pose proof (i_caus _ _ _ s I _ _ _ Hr) as Hc. set (p' := prev n p (2 ^ J)) in *.
  assert (Hp' : p' < n) by (apply prev_lt; lia).
  assert (Eq : next n p' (2 ^ J) = p) by (apply next_prev; lia).
  assert (Hqs : In (ASend (next n p' (2 ^ J)) k (fun _ => [])) (did gprog s p')).
  { apply sent_bar; auto; [rewrite Eq; auto|]. apply bar_in_send; auto. }
  replace (prev n p m) with (prev n p' (m - 2 ^ J)).
  - eapply bar_round; eauto. cbn [Nat.pow] in HJ2. lia.
  - unfold p'. rewrite prev_add; [f_equal; lia|auto|lia].
Qed.

Lemma part_entered s q k : GInv s -> q < n -> nth_error ops k = Some OpBarrier -> part s q k ->
  length (todo (parties s q)) < length (program n q k (skipn k ops)).
Proof.
  intros I Hq Hk (a & Ha & Hd).
  pose proof (program_at n q ops 0 k OpBarrier Hk) as Hp. simpl Nat.add in Hp.
  assert (Hs : program n q k (skipn k ops) = op_actions n q k OpBarrier ++ program n q (S k) (skipn (S k) ops)).
  { clear -Hk. revert k Hk. intros k. assert (E : skipn k ops = OpBarrier :: skipn (S k) ops \/ nth_error ops k <> Some OpBarrier).
    { generalize ops. induction k as [|k IH]; intros [|o l]; simpl; auto; try (right; discriminate).
      - destruct o; simpl; auto; right; discriminate.
      - destruct (IH l) as [E|E]; auto. }
    intros Hk. destruct E as [E|E]; [|tauto]. rewrite E. reflexivity. }
  rewrite Hs. rewrite <- gprog_eq in Hp by auto.
  pose proof (i_pre _ _ _ s I q) as Hd2.
  destruct (le_lt_dec (length (did gprog s q)) (length (program n q 0 (firstn k ops)))) as [L|L].
  - exfalso. rewrite Hd2 in Hp.
    assert (E : firstn (length (did gprog s q)) (did gprog s q ++ todo (parties s q)) =
      firstn (length (did gprog s q)) (program n q 0 (firstn k ops) ++ op_actions n q k OpBarrier ++ program n q (S k) (skipn (S k) ops)))
      by (rewrite Hp; auto).
    rewrite firstn_app, Nat.sub_diag, firstn_all in E. simpl firstn in E at 1. rewrite app_nil_r in E.
    rewrite firstn_app in E. replace (length (did gprog s q) - length (program n q 0 (firstn k ops))) with 0 in E by lia.
    simpl firstn in E at 2. rewrite app_nil_r in E. rewrite E in Hd.
    assert (Hin : In a (program n q 0 (firstn k ops))).
    { rewrite <- (firstn_skipn (length (did gprog s q)) (program n q 0 (firstn k ops))). apply in_or_app; auto. }
    apply (program_keys n q _ 0) in Hin; auto; [|apply firstn_oks].
    assert (Hka : akey a = k) by (apply (op_keys n OpBarrier k q a); auto; apply barrier_facts; auto).
    rewrite firstn_length in Hin. lia.
  - assert (E : length (did gprog s q ++ todo (parties s q)) = length (program n q 0 (firstn k ops) ++ op_actions n q k OpBarrier ++ program n q (S k) (skipn (S k) ops))).
    { rewrite <- Hd2, <- Hp. reflexivity. }
    rewrite !app_length in E. rewrite app_length. lia.
Qed.
End Prog.

(** * The theorems *)
Lemma results_correct n ops sts s r : 0 < n -> Forall (op_ok n) ops -> run_steps sts (start n ops) = Some s -> r < n ->
  length (outs (parties s r)) <= length ops /\
  outs (parties s r) = map (fun o => opout n o r) (firstn (length (outs (parties s r))) ops).
Proof. intros. apply outs_prefix; auto. eapply reach_inv; eauto. Qed.

Lemma no_deadlock_results n ops sts s : 0 < n -> Forall (op_ok n) ops -> run_steps sts (start n ops) = Some s ->
  (forall st, do_step st s = None) ->
  forall r, r < n -> todo (parties s r) = [] /\ outs (parties s r) = map (fun o => opout n o r) ops.
Proof.
  intros Hn Ho H Hst r Hr. pose proof (reach_inv n ops Hn Ho sts s H) as I.
  assert (Ht : todo (parties s r) = []).
  { apply (no_deadlock n (gprog n ops) (gval ops) (grk n ops) (gout n ops) (g_recv n ops Hn Ho) (g_nodup n ops Hn Ho) (g_rank n ops Hn Ho) s I Hst). }
  split; auto. apply finished_all; auto.
Qed.

Lemma runs_bounded n ops sts s : 0 < n -> Forall (op_ok n) ops -> run_steps sts (start n ops) = Some s ->
  length sts <= 2 * list_sum (map (fun r => length (program n r 0 ops)) (seq 0 n)).
Proof.
  intros Hn Ho H. pose proof (start_inv n ops) as I.
  pose proof (run_bounded n (gprog n ops) (gval ops) (gout n ops) (g_nil n ops) (g_nodup n ops Hn Ho) (g_val n ops Hn Ho) (g_out n ops Hn Ho) sts _ _ I H) as B.
  unfold measure in B. cbn [start flight length] in B.
  assert (E : forall m, m <= n -> total_todo (start n ops) m = list_sum (map (fun r => length (program n r 0 ops)) (seq 0 m))).
  { induction m as [|m IH]; intros Hm; auto. rewrite seq_S, map_app, list_sum_app. rewrite <- IH by lia.
    cbn [total_todo start parties todo map list_sum fold_right]. simpl Nat.add at 3.
    replace (m <? n) with true by (symmetry; apply Nat.ltb_lt; lia). lia. }
  rewrite E in B by lia. lia.
Qed.

Lemma messages_valid n ops sts s m : 0 < n -> Forall (op_ok n) ops -> run_steps sts (start n ops) = Some s ->
  In m (flight s ++ boxes s) -> m_dst m < n /\ m_dst m <> m_src m.
Proof.
  intros Hn Ho H Hm. eapply (flight_valid n (gprog n ops) (gval ops) (gout n ops) (g_send n ops Hn Ho)); eauto.
  eapply reach_inv; eauto.
Qed.

Lemma barrier_separates n ops sts s p q k : 0 < n -> Forall (op_ok n) ops -> run_steps sts (start n ops) = Some s ->
  p < n -> q < n -> nth_error ops k = Some OpBarrier -> k < length (outs (parties s p)) ->
  length (todo (parties s q)) < length (program n q k (skipn k ops)).
Proof.
  intros Hn Ho H Hp Hq Hk Hl. pose proof (reach_inv n ops Hn Ho sts s H) as I.
  apply part_entered; auto. apply (bar_all n ops Hn Ho s p q k); auto.
  destruct (did_outkeys n ops Hn Ho s p I Hp) as [E _].
  assert (Hin : In k (outkeys (did (gprog n ops) s p))) by (rewrite E; apply in_seq; lia).
  apply in_flat_map in Hin as (a & Ha & Hin). destruct a as [d k' g|src k'|k' h]; simpl in Hin; try tauto.
  destruct Hin as [ -> |[]]. exists h; auto.
Qed.

(** Every reachable state can be run to completion. *)
Lemma dec_stuck s n : (forall p, n <= p -> todo (parties s p) = []) ->
  (exists st s', do_step st s = Some s') \/ (forall st, do_step st s = None).
Proof.
  intros Hout.
  destruct (flight s) as [|m l] eqn:Ef.
  2:{ left. exists (SDeliver 0). cbn [do_step]. rewrite Ef. simpl. destruct (existsb _ _); eauto. }
  assert (Hp : forall j, (exists p s', p < j /\ do_step (SParty p) s = Some s') \/ (forall p, p < j -> do_step (SParty p) s = None)).
  { induction j as [|j IH]; [right; intros; lia|]. destruct IH as [(p & s' & L & E)|IH]; [left; exists p, s'; split; auto|].
    destruct (do_step (SParty j) s) as [s'|] eqn:E; [left; exists j, s'; auto|].
    right. intros p L. destruct (Nat.eq_dec p j) as [ -> |]; auto. apply IH. lia. }
  destruct (Hp n) as [(p & s' & L & E)|Hn]; [left; eauto|].
  right. intros [p|i].
  - destruct (le_lt_dec n p) as [L|L]; auto. cbn [do_step]. rewrite Hout; auto.
  - cbn [do_step]. rewrite Ef. destruct i; reflexivity.
Qed.

Lemma run_app sts1 sts2 s s1 : run_steps sts1 s = Some s1 -> run_steps (sts1 ++ sts2) s = run_steps sts2 s1.
Proof.
  revert s. induction sts1 as [|st l IH]; intros s H; simpl in *; [inversion H; auto|].
  destruct (do_step st s) as [s'|]; [|discriminate]. auto.
Qed.

Lemma completes n ops sts s : 0 < n -> Forall (op_ok n) ops -> run_steps sts (start n ops) = Some s ->
  exists more s', run_steps more s = Some s' /\
    forall r, r < n -> todo (parties s' r) = [] /\ outs (parties s' r) = map (fun o => opout n o r) ops.
Proof.
  intros Hn Ho. remember (measure n s) as N. revert sts s HeqN.
  induction N as [N IH] using (well_founded_induction lt_wf). intros sts s -> H.
  pose proof (reach_inv n ops Hn Ho sts s H) as I.
  destruct (dec_stuck s n) as [(st & s' & E)|Hst].
  - intros p Hp. pose proof (i_pre _ _ _ s I p) as Hpre. rewrite (g_nil n ops p Hp) in Hpre.
    symmetry in Hpre. apply app_eq_nil in Hpre. tauto.
  - assert (Hm : measure n s' < measure n s).
    { eapply (measure_step n (gprog n ops) (gval ops) (gout n ops) (g_nil n ops)); eauto. }
    destruct (IH _ Hm (sts ++ [st]) s' eq_refl) as (more & s2 & R & F).
    { rewrite (run_app _ _ _ _ H). simpl. rewrite E. reflexivity. }
    exists (st :: more), s2. split; auto. simpl. rewrite E. auto.
  - exists [], s. split; auto. eapply no_deadlock_results; eauto.
Qed.

(** A party that has started call [k] has the results of all calls before it. *)
Lemma entered_outs n ops sts s q k : 0 < n -> Forall (op_ok n) ops -> run_steps sts (start n ops) = Some s -> q < n ->
  length (todo (parties s q)) < length (program n q k (skipn k ops)) -> k <= length (outs (parties s q)).
Proof.
  intros Hn Ho H Hq Hl. pose proof (reach_inv n ops Hn Ho sts s H) as I.
  destruct (le_lt_dec (length ops) k) as [L|L].
  { rewrite skipn_all2 in Hl by auto. simpl in Hl. lia. }
  assert (Hp : program n q 0 ops = program n q 0 (firstn k ops) ++ program n q k (skipn k ops)).
  { clear. assert (G : forall k0, program n q k0 ops = program n q k0 (firstn k ops) ++ program n q (k0 + k) (skipn k ops)).
    { revert k. induction ops as [|o l IH]; intros k k0.
      - rewrite firstn_nil, skipn_nil. reflexivity.
      - destruct k as [|k]; [rewrite Nat.add_0_r; reflexivity|]. cbn [firstn skipn program].
        rewrite (IH k (S k0)), <- app_assoc. replace (k0 + S k) with (S k0 + k) by lia. reflexivity. }
    apply (G 0). }
  pose proof (i_pre _ _ _ s I q) as Hd. rewrite (gprog_eq n ops q Hq), Hp in Hd.
  destruct (did_outkeys n ops Hn Ho s q I Hq) as [E _].
  set (D := did (gprog n ops) s q) in *. set (T := todo (parties s q)) in *.
  set (P1 := program n q 0 (firstn k ops)) in *. set (P2 := program n q k (skipn k ops)) in *.
  assert (Hpre : D = P1 ++ skipn (length P1) D).
  { assert (E1 : firstn (length P1) (P1 ++ P2) = firstn (length P1) (D ++ T)) by (rewrite Hd; auto).
    rewrite firstn_app, Nat.sub_diag, firstn_all in E1. simpl firstn in E1 at 1. rewrite app_nil_r in E1.
    assert (LD : length P1 <= length D).
    { apply (f_equal (@length _)) in Hd. rewrite !app_length in Hd. lia. }
    rewrite firstn_app in E1. replace (length P1 - length D) with 0 in E1 by lia. simpl firstn in E1 at 2.
    rewrite app_nil_r in E1. rewrite E1 at 1. symmetry. apply firstn_skipn. }
  assert (EK : outkeys P1 = seq 0 k).
  { unfold P1. rewrite (program_outkeys n Hn q (firstn k ops) Hq (firstn_oks n ops Ho k)), firstn_length.
    f_equal. lia. }
  apply (f_equal (@length _)) in E. rewrite Hpre, outkeys_app, EK, app_length, !seq_length in E. lia.
Qed.
