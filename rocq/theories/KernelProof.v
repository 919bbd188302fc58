(** Lemmas for the kernels (KernelModel): stores, conversions, mock stores. *)
From Coq Require Import List NArith ZArith Bool Arith Lia.
From Verif Require Import LinCodeModel SoftModel FerretModel KernelModel.
Import ListNotations.
Open Scope nat_scope.

Lemma put_length {A} (l : list A) i x : length (put l i x) = length l.
Proof. revert i. induction l as [|y l IH]; intros [|i]; cbn [put length]; auto. Qed.
Lemma put_nth {A} (l : list A) i j x d : i < length l -> nth j (put l i x) d = if j =? i then x else nth j l d.
Proof.
  revert i j. induction l as [|y l IH]; intros [|i] [|j] H; cbn [put length nth Nat.eqb] in *; auto; try lia. apply IH. lia.
Qed.
Lemma set_idx_val {A} (l : list A) i x : i < length l -> set_idx l i x = Val (put l i x).
Proof. intros H. unfold set_idx. rewrite (proj2 (Nat.ltb_lt _ _) H). reflexivity. Qed.
Lemma for_range_inv {S} (P : nat -> S -> Prop) (f : nat -> S -> outcome S) n : forall beg s,
  P beg s -> (forall i s, beg <= i < beg + n -> P i s -> exists s', f i s = Val s' /\ P (Datatypes.S i) s') ->
  exists s', for_range n beg f s = Val s' /\ P (beg + n) s'.
Proof.
  induction n as [|n IH]; intros beg s H F; cbn [for_range]; [rewrite Nat.add_0_r; eauto|].
  destruct (F beg s ltac:(lia) H) as (s1 & E & H1). rewrite E. cbn [bind].
  destruct (IH (Datatypes.S beg) s1 H1) as (s2 & E2 & H2); [intros i t Hi; apply F; lia|].
  exists s2. split; auto. replace (beg + Datatypes.S n) with (Datatypes.S beg + n) by lia. exact H2.
Qed.
Lemma collect_spec {A} (f : nat -> outcome A) (g : nat -> A) n : forall beg,
  (forall i, beg <= i < beg + n -> f i = Val (g i)) -> collect n beg f = Val (map g (seq beg n)).
Proof.
  induction n as [|n IH]; intros beg H; cbn [collect seq map]; auto. rewrite H by lia. cbn [bind]. rewrite IH by (intros i Hi; apply H; lia). reflexivity.
Qed.
Lemma at_idx_val {A} (l : list A) i e d : i + e < length l -> at_idx l i e = Val (nth (i + e) l d).
Proof.
  intros H. unfold at_idx. rewrite (proj2 (Nat.ltb_lt i (length l))) by lia. rewrite (nth_error_nth' l d) by lia. reflexivity.
Qed.
Lemma at_idx_val0 {A} (l : list A) i d : i < length l -> at_idx l i 0 = Val (nth i l d).
Proof. intros H. rewrite (at_idx_val l i 0 d) by lia. rewrite Nat.add_0_r. reflexivity. Qed.
Lemma u32_id n : (N.of_nat n < 2 ^ 32)%N -> u32_size n = n.
Proof. intros H. unfold u32_size. rewrite N.mod_small by exact H. apply Nat2N.id. Qed.
Lemma u32_le n : u32_size n <= n.
Proof. unfold u32_size. pose proof (N.mod_le (N.of_nat n) (2 ^ 32) ltac:(discriminate)) as H. revert H. generalize (2 ^ 32)%N. intros. lia. Qed.

(** ** Reading whole stores *)
Lemma send_get_compact s i m : ss_normal s = false -> ss_delta s <> 0%N -> i < length (ss_blk s) -> m < 2 ->
  send_get s i m = Val (N.lxor (nth i (ss_blk s) 0%N) (if m =? 1 then ss_delta s else 0%N)).
Proof.
  intros Hn Hd Hi Hm. unfold send_get. rewrite (proj2 (Nat.ltb_lt m 2) Hm). cbn [negb]. rewrite (proj2 (N.eqb_neq _ _) Hd), Hn, Nat.mul_1_l.
  rewrite (at_idx_val0 _ _ 0%N) by auto. reflexivity.
Qed.
Lemma send_get_normal s i m : ss_normal s = true -> ss_delta s = 0%N -> 2 * i + m < length (ss_blk s) -> m < 2 ->
  send_get s i m = Val (nth (2 * i + m) (ss_blk s) 0%N).
Proof.
  intros Hn Hd Hi Hm. unfold send_get. rewrite (proj2 (Nat.ltb_lt m 2) Hm), Hd, N.eqb_refl. cbn [negb]. apply at_idx_val. auto.
Qed.
Lemma recv_get_val r i : i < rs_size r -> recv_get r i = Val (nth i (rs_blk r) 0%N).
Proof. intros H. apply at_idx_val0. auto. Qed.
Lemma recv_bit_normal r i : rs_normal r = true -> i < rs_size r -> i < length (rs_bits r) -> recv_bit r i = Val (nth i (rs_bits r) false).
Proof.
  intros Hn Hi Hb. unfold recv_bit. unfold rs_size in Hi. rewrite (proj2 (Nat.ltb_lt _ _) Hi), Hn. rewrite (nth_error_nth' _ false) by auto. reflexivity.
Qed.
Lemma recv_bit_compact r i : rs_normal r = false -> i < rs_size r -> recv_bit r i = Val (N.odd (nth i (rs_blk r) 0%N)).
Proof.
  intros Hn Hi. unfold recv_bit. unfold rs_size in Hi. rewrite (proj2 (Nat.ltb_lt _ _) Hi), Hn, recv_get_val by auto. reflexivity.
Qed.
Lemma copy_bits_normal r : rs_normal r = true -> length (rs_bits r) = rs_size r -> copy_bits r = rs_bits r.
Proof. intros Hn H. unfold copy_bits. rewrite Hn, <- H. rewrite firstn_app, Nat.sub_diag, firstn_all. cbn [firstn]. apply app_nil_r. Qed.

(** ** COT to ROT *)
Section Crh.
Variable crh : N -> N.
Lemma cot2rot_send_spec cot rot : ss_normal cot = false -> ss_delta cot <> 0%N -> ss_normal rot = true ->
  length (ss_blk rot) = 2 * length (ss_blk cot) ->
  exists blk, cot2rot_send crh cot rot = Val (mkSend true (ss_sliced rot) (ss_delta rot) blk) /\ length blk = 2 * length (ss_blk cot) /\
    forall i m, i < length (ss_blk cot) -> m < 2 ->
      nth (2 * i + m) blk 0%N =
        if i <? u32_size (length (ss_blk cot)) then crh (N.lxor (nth i (ss_blk cot) 0%N) (if m =? 1 then ss_delta cot else 0%N))
        else nth (2 * i + m) (ss_blk rot) 0%N.
Proof.
  intros Hc Hd Hr L. unfold cot2rot_send. unfold ss_size. rewrite Hc, Hr, L. rewrite (Nat.mul_comm 2), Nat.div_mul by lia.
  rewrite Nat.eqb_refl. cbn [negb orb]. set (n := length (ss_blk cot)) in *.
  pose proof (u32_le n) as U. set (u := u32_size n) in *.
  destruct (for_range_inv (fun k blk => length blk = 2 * n /\ forall i m, i < n -> m < 2 -> nth (2 * i + m) blk 0%N =
     if i <? k then crh (N.lxor (nth i (ss_blk cot) 0%N) (if m =? 1 then ss_delta cot else 0%N)) else nth (2 * i + m) (ss_blk rot) 0%N)
    (fun i blk => bind (send_get cot i 0) (fun x0 => bind (set_idx blk (2 * i) (crh x0)) (fun blk =>
    bind (send_get cot i 1) (fun x1 => set_idx blk (2 * i + 1) (crh x1))))) u 0 (ss_blk rot)) as (blk & E & Lb & H).
  - split; [lia|]. intros. reflexivity.
  - intros i blk Hi (Lb & H). rewrite !send_get_compact by (auto; fold n; lia). cbn [Nat.eqb bind]. rewrite set_idx_val by lia. cbn [bind].
    rewrite set_idx_val by (rewrite put_length; lia). eexists. split; [reflexivity|]. split; [rewrite !put_length; auto|].
    intros j m Hj Hm. rewrite !put_nth by (rewrite ?put_length; lia). specialize (H j m Hj Hm).
    destruct (Nat.ltb_spec j (S i)) as [Q|Q].
    + destruct (Nat.eq_dec j i) as [->|Ne].
      * destruct m as [|[|m]]; [| |lia].
        -- rewrite (proj2 (Nat.eqb_neq _ _)) by lia. rewrite (proj2 (Nat.eqb_eq _ _)) by lia. reflexivity.
        -- rewrite Nat.eqb_refl. reflexivity.
      * rewrite !(proj2 (Nat.eqb_neq _ _)) by lia. rewrite H. rewrite (proj2 (Nat.ltb_lt j i)) by lia. reflexivity.
    + rewrite !(proj2 (Nat.eqb_neq _ _)) by lia. rewrite H. rewrite (proj2 (Nat.ltb_ge j i)) by lia. reflexivity.
  - rewrite E. cbn [bind]. exists blk. split; [reflexivity|]. split; [lia|]. exact H.
Qed.
Lemma cot2rot_recv_spec cot rot : rs_normal cot = false -> rs_normal rot = true -> length (rs_blk rot) = length (rs_blk cot) ->
  exists blk, cot2rot_recv crh cot rot = Val (mkRecv true (rs_sliced rot) (map N.odd (rs_blk cot)) blk) /\ length blk = length (rs_blk cot) /\
    forall i, i < length (rs_blk cot) ->
      nth i blk 0%N = if i <? u32_size (length (rs_blk cot)) then crh (nth i (rs_blk cot) 0%N) else nth i (rs_blk rot) 0%N.
Proof.
  intros Hc Hr L. unfold cot2rot_recv, copy_bits. rewrite Hc, Hr. cbn [negb orb]. unfold rs_size. set (n := length (rs_blk cot)) in *.
  pose proof (u32_le n) as U. set (u := u32_size n) in *.
  destruct (for_range_inv (fun k blk => length blk = n /\ forall i, i < n -> nth i blk 0%N = if i <? k then crh (nth i (rs_blk cot) 0%N) else nth i (rs_blk rot) 0%N)
    (fun i blk => bind (recv_get cot i) (fun x => set_idx blk i (crh x))) u 0 (rs_blk rot)) as (blk & E & Lb & H).
  - split; [lia|]. intros. reflexivity.
  - intros i blk Hi (Lb & H). rewrite recv_get_val by (unfold rs_size; fold n; lia). cbn [bind]. rewrite set_idx_val by lia. eexists. split; [reflexivity|].
    split; [rewrite put_length; auto|]. intros j Hj. rewrite put_nth by lia. specialize (H j Hj).
    destruct (Nat.eqb_spec j i) as [->|Ne]; [rewrite (proj2 (Nat.ltb_lt i (S i))) by lia; reflexivity|].
    rewrite H. destruct (Nat.ltb_spec j i), (Nat.ltb_spec j (S i)); auto; lia.
  - rewrite E. cbn [bind]. exists blk. auto.
Qed.

(** ** ROT to OT *)
Lemma rot2ot_spec (rs : send_store) (rr : recv_store) pairs choices out n :
  ss_normal rs = true -> ss_delta rs = 0%N -> rs_normal rr = true -> length (ss_blk rs) = 2 * n -> length (rs_blk rr) = n -> length (rs_bits rr) = n ->
  length pairs = n -> length choices = n -> length out = n -> (N.of_nat n < 2 ^ 32)%N ->
  (forall i, i < n -> nth i (rs_blk rr) 0%N = nth (2 * i + (if nth i (rs_bits rr) false then 1 else 0)) (ss_blk rs) 0%N) ->
  exists got, rot2ot rs rr pairs choices out = Val got /\ length got = n /\
    forall i, i < n -> nth i got 0%N = (if nth i choices false then snd else fst) (nth i pairs (0, 0)%N).
Proof.
  intros Hs Hd Hr Ls Lr Lb Lp Lc Lo Hn H. unfold rot2ot, masked_choices. rewrite Hr. unfold rs_size at 1. rewrite Lr, Lc, Nat.eqb_refl. cbn [negb orb bind].
  rewrite copy_bits_normal by (auto; unfold rs_size; lia). set (masked := map _ _).
  assert (Hm : forall i, i < n -> nth i masked false = xorb (nth i (rs_bits rr) false) (nth i choices false)).
  { intros i Hi. unfold masked. rewrite (nth_indep _ false (xorb (fst (false, false)) (snd (false, false)))) by (rewrite map_length, combine_length; lia).
    rewrite (map_nth (fun p => xorb (fst p) (snd p))). rewrite combine_nth by lia. reflexivity. }
  unfold rot2ot_send, ss_size. rewrite Hs, Ls, Lp. rewrite (Nat.mul_comm 2), Nat.div_mul by lia. rewrite Nat.eqb_refl. cbn [negb orb]. rewrite (u32_id n Hn).
  set (nb := (n + 127) / 128).
  set (g := fun idx => let m := nth idx pairs (0, 0)%N in let b := nth idx masked false in
      (N.lxor (nth (2 * idx + (if b then 1 else 0)) (ss_blk rs) 0%N) (fst m), N.lxor (nth (2 * idx + (if b then 0 else 1)) (ss_blk rs) 0%N) (snd m))).
  assert (HB : forall i, i < nb -> i * 128 < n /\ Nat.min 128 (n - i * 128) + i * 128 <= n).
  { intros i Hi. unfold nb in Hi. assert (i * 128 < n); [|lia]. pose proof (Nat.div_mod (n + 127) 128 ltac:(lia)). nia. }
  rewrite (collect_spec _ (fun i => map g (seq (i * 128) (Nat.min 128 (n - i * 128))))).
  2: { intros i Hi. apply collect_spec. intros idx Hidx. destruct (HB i ltac:(lia)) as [B1 B2]. unfold mask_pair.
       rewrite !send_get_normal by (auto; destruct (nth idx masked false); lia). reflexivity. }
  cbn [bind]. set (batches := map _ (seq 0 nb)). unfold rot2ot_recv. unfold rs_size. rewrite Lr, (u32_id n Hn). fold nb.
  set (goal := fun i => (if nth i choices false then snd else fst) (nth i pairs (0, 0)%N)).
  assert (Hg : forall idx, idx < n -> N.lxor (if nth idx choices false then snd (g idx) else fst (g idx)) (nth idx (rs_blk rr) 0%N) = goal idx).
  { intros idx Hi. rewrite H by auto. unfold g, goal. cbn zeta. rewrite Hm by auto. 
    destruct (nth idx (rs_bits rr) false), (nth idx choices false); cbn [xorb fst snd]; rewrite N.lxor_comm, <- N.lxor_assoc, N.lxor_nilpotent; apply N.lxor_0_l. }

  match goal with |- exists got, for_range _ _ ?f _ = _ /\ _ => destruct (for_range_inv (fun k o => length o = n /\ forall i, i < n -> i < k * 128 -> nth i o 0%N = goal i) f nb 0 out) as (got & E & L & G) end.
  - split; auto. intros i _ Hi. lia.
  - intros i o Hi (L & G). destruct (HB i ltac:(lia)) as [B1 B2]. unfold batches.
    rewrite nth_error_map, (nth_error_nth' _ 0) by (rewrite seq_length; lia). rewrite seq_nth by lia. cbn [option_map].
    rewrite map_length, seq_length, Nat.add_0_l, Nat.eqb_refl. cbn [negb]. set (w := Nat.min 128 (n - i * 128)) in *.
    match goal with |- exists s', for_range _ _ ?f _ = _ /\ _ =>
      destruct (for_range_inv (fun k o => length o = n /\ forall j, j < n -> j < i * 128 + k -> nth j o 0%N = goal j) f w 0 o) as (o' & E & L' & G') end.
    + split; auto. intros j Hj Hj2. apply G; lia.
    + intros j t Hj (L' & G'). rewrite recv_get_val by (unfold rs_size; lia). cbn [bind].
      rewrite (nth_indep _ (0, 0)%N (g 0)) by (rewrite map_length, seq_length; lia). rewrite map_nth, seq_nth by lia.
      rewrite (proj2 (Nat.ltb_lt (i * 128 + j) (length t))) by lia. eexists. split; [reflexivity|]. split; [rewrite put_length; auto|].
      intros q Hq Hq2. rewrite put_nth by lia. destruct (Nat.eqb_spec q (i * 128 + j)) as [->|Ne]; [apply Hg; lia|]. apply G'; lia.
    + exists o'. split; [exact E|]. split; auto. intros j Hj Hj2. apply G'; auto. unfold w. change (S i) with (1 + i) in Hj2. pose proof (Nat.min_spec 128 (n - i * 128)). lia.
  - rewrite E. exists got. split; [reflexivity|]. split; auto. intros i Hi. rewrite G; auto. unfold nb. pose proof (Nat.div_mod (n + 127) 128 ltac:(lia)).
    pose proof (Nat.mod_upper_bound (n + 127) 128 ltac:(lia)). lia.
Qed.
End Crh.
