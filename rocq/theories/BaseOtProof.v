From Coq Require Import ZArith Bool List Lia.
From Verif Require Import LinCodeModel BaseOtModel.
Import ListNotations.
Open Scope Z_scope.

Lemma all_of_vals A B (f : A -> B) l : all_of (map (fun a => Val (f a)) l) = Val (map f l).
Proof. induction l as [|a l IH]; cbn; [reflexivity|]. now rewrite IH. Qed.
Lemma all_of_ext A B (f : A -> outcome B) (g : A -> B) l :
  (forall a, In a l -> f a = Val (g a)) -> all_of (map f l) = Val (map g l).
Proof.
  intros H. rewrite <- all_of_vals. f_equal. apply map_ext_in. exact H.
Qed.
Lemma all_some_somes A B (f : A -> option B) (g : A -> B) l :
  (forall a, In a l -> f a = Some (g a)) -> all_some (map f l) = Some (map g l).
Proof.
  induction l as [|a l IH]; intros H; cbn; [reflexivity|].
  rewrite (H a (or_introl eq_refl)), IH; [reflexivity|]. intros b Hb. apply H. now right.
Qed.

(** The batches cover 0 .. n-1 in order. *)
Lemma batches_cover k n B :
  concat (map (fun b => seq (b * k) (Nat.min k (n - b * k))) (seq 0 B)) = seq 0 (Nat.min (B * k) n).
Proof.
  induction B as [|B IH]; [reflexivity|].
  rewrite seq_S, map_app, concat_app, IH. cbn [map concat Nat.add]. rewrite app_nil_r.
  destruct (Nat.le_gt_cases (B * k) n) as [H|H].
  - rewrite (Nat.min_l (B * k) n) by lia.
    pose proof (seq_app (B * k) (Nat.min k (n - B * k)) 0) as E. cbn [Nat.add] in E. rewrite <- E.
    f_equal. cbn [Nat.mul]. lia.
  - replace (Nat.min k (n - B * k)) with 0%nat by lia. cbn [seq]. rewrite app_nil_r. f_equal. cbn [Nat.mul]. lia.
Qed.
Lemma div_ceil_enough n k : (0 < k)%nat -> (n <= div_ceil n k * k)%nat.
Proof.
  intros Hk. unfold div_ceil.
  pose proof (Nat.div_mod (n + k - 1) k ltac:(lia)) as E.
  pose proof (Nat.mod_upper_bound (n + k - 1) k ltac:(lia)). nia.
Qed.
Lemma map_seq_shift A (f : nat -> A) i m : map (fun j => f (i + j)%nat) (seq 0 m) = map f (seq i m).
Proof.
  revert i. induction m as [|m IH]; intros i; [reflexivity|].
  cbn [seq map]. rewrite Nat.add_0_r. f_equal.
  rewrite <- seq_shift, map_map, <- (IH (S i)). apply map_ext. intros a. f_equal. lia.
Qed.
Lemma starts_cover A (f : nat -> A) k n : (0 < k)%nat ->
  concat (map (fun i => map (fun j => f (i + j)%nat) (seq 0 (Nat.min k (n - i)))) (starts k n)) = map f (seq 0 n).
Proof.
  intros Hk. unfold starts. rewrite map_map.
  rewrite (map_ext _ (fun b => map f (seq (b * k) (Nat.min k (n - b * k))))) by (intros b; apply map_seq_shift).
  rewrite <- (map_map (fun b => seq (b * k) (Nat.min k (n - b * k))) (map f)), <- concat_map, batches_cover.
  now rewrite Nat.min_r by (apply div_ceil_enough; lia).
Qed.
Lemma starts_full A (f : nat -> A) k n : (0 < k)%nat ->
  concat (map (fun i => map (fun j => f (i + j)%nat) (seq 0 k)) (starts k n)) = map f (seq 0 (div_ceil n k * k)).
Proof.
  intros Hk. unfold starts. rewrite map_map.
  rewrite (map_ext_in _ (fun b => map f (seq (b * k) (Nat.min k (div_ceil n k * k - b * k))))).
  - rewrite <- (map_map (fun b => seq (b * k) (Nat.min k (div_ceil n k * k - b * k))) (map f)), <- concat_map, batches_cover.
    now rewrite Nat.min_id.
  - intros b Hb. apply in_seq in Hb. rewrite map_seq_shift. f_equal. f_equal. nia.
Qed.
Lemma concat_map_concat A B (f : A -> list (list B)) l :
  concat (map (fun i => concat (f i)) l) = concat (concat (map f l)).
Proof. induction l as [|a l IH]; cbn; [reflexivity|]. now rewrite IH, concat_app. Qed.
Lemma in_starts k n i : (0 < k)%nat -> In i (starts k n) -> (i + k <= div_ceil n k * k)%nat /\ (i < n)%nat.
Proof.
  intros Hk H. unfold starts in H. apply in_map_iff in H as (b & <- & Hb). apply in_seq in Hb.
  assert (div_ceil n k * k <= n + k - 1)%nat.
  { unfold div_ceil. rewrite Nat.mul_comm. apply Nat.mul_div_le. lia. }
  nia.
Qed.

(** Slots of a message made of 32-byte pieces. *)
Lemma slot_concat (f : nat -> list Z) m i :
  (forall j, length (f j) = PACKBYTES) -> (i < m)%nat -> slot (concat (map f (seq 0 m))) i = f i.
Proof.
  intros L H. unfold slot.
  assert (E : forall a c, length (concat (map f (seq a c))) = (c * PACKBYTES)%nat).
  { intros a c. revert a. induction c as [|c IH]; intros a; [reflexivity|].
    cbn [seq map concat]. rewrite app_length, L, IH. lia. }
  replace m with (i + (1 + (m - i - 1)))%nat by lia.
  rewrite seq_app, map_app, concat_app, skipn_app, E.
  rewrite skipn_all2 by (rewrite E; lia).
  rewrite Nat.sub_diag. cbn [skipn app Nat.add seq map concat].
  rewrite firstn_app, L, Nat.sub_diag. cbn [firstn]. rewrite app_nil_r.
  rewrite <- (L i). apply firstn_all.
Qed.
Lemma concat_packs_length (f : nat -> list Z) m :
  (forall j, length (f j) = PACKBYTES) -> length (concat (map f (seq 0 m))) = (m * PACKBYTES)%nat.
Proof.
  intros L. generalize 0%nat as a. induction m as [|m IH]; intros a; [reflexivity|].
  cbn [seq map concat]. rewrite app_length, L, IH. lia.
Qed.

(** The value of block_of. *)
Definition blk (digest : hash_alg -> list Z -> list Z) (key : list Z) (index : nat) : Z :=
  le_to (firstn 16 (digest BLAKE3 (firstn 16 key ++ le_of 8 (Z.of_nat index)))).
Lemma block_of_val digest key i : block_of digest key i = Val (blk digest key i).
Proof. reflexivity. Qed.

Lemma nth_map_seq A (d : A) (f : nat -> A) m j : (j < m)%nat -> nth j (map f (seq 0 m)) d = f j.
Proof.
  intros H. rewrite (nth_indep _ d (f 0%nat)) by (rewrite map_length, seq_length; lia).
  now rewrite map_nth, seq_nth by lia.
Qed.
Lemma nth_firstn_lt A (d : A) n l j : (j < n)%nat -> nth j (firstn n l) d = nth j l d.
Proof.
  revert l j. induction n as [|n IH]; intros l j H; [lia|].
  destruct l as [|a l]; [reflexivity|]. destruct j as [|j]; [reflexivity|]. cbn. apply IH. lia.
Qed.
Lemma nth_skipn_add A (d : A) i l j : nth j (skipn i l) d = nth (i + j) l d.
Proof.
  revert l. induction i as [|i IH]; intros l; [reflexivity|].
  destruct l as [|a l]; [now destruct j|]. cbn. apply IH.
Qed.
Lemma batch_choices_nth k choices i j : (j < k)%nat ->
  nth j (batch_choices k choices i) false = nth (i + j) choices false.
Proof.
  intros Hj. unfold batch_choices. rewrite <- nth_skipn_add. set (t := skipn i choices). clearbody t.
  destruct (Nat.lt_ge_cases j (length t)) as [H|H].
  - rewrite app_nth1 by (rewrite firstn_length; lia). now apply nth_firstn_lt.
  - rewrite app_nth2 by (rewrite firstn_length; lia). rewrite (nth_overflow t) by lia. apply nth_repeat.
Qed.

Section Session.
  Variable pt : Type.
  Variables (add sub : pt -> pt -> pt) (mul : Z -> pt -> pt) (base : pt).
  Variables (pack : pt -> list Z) (unpack : list Z -> option pt).
  Variable keyhash : list Z -> list Z -> list Z -> list Z.
  Variable digest : hash_alg -> list Z -> list Z.
  Variable k : nat.
  Hypothesis Hk : (0 < k)%nat.
  Hypothesis Hup : forall p, unpack (pack p) = Some p.
  Hypothesis Hlen : forall p, length (pack p) = PACKBYTES.

  (** The encoding sent for OT i. *)
  Definition rpack (s : pt) (choices : list bool) (rnd : nat -> Z) (i : nat) : list Z :=
    pack (if nth i choices false then add s (mul (rnd i) base) else mul (rnd i) base).

  Lemma batch_packs_eq s choices rnd i :
    batch_packs pt add mul base pack k s choices rnd i = map (fun j => rpack s choices rnd (i + j)%nat) (seq 0 k).
  Proof.
    unfold batch_packs. apply map_ext_in. intros j Hj. apply in_seq in Hj.
    unfold rpack, rsgen1. rewrite batch_choices_nth by lia. reflexivity.
  Qed.

  Lemma ot_recv_ok choices rnd s :
    ot_recv pt add mul base pack unpack keyhash digest k choices rnd (pack s) =
    Val (concat (map (rpack s choices rnd) (seq 0 (div_ceil (length choices) k * k))),
         map (fun i => blk digest (keyhash (pack s) (rpack s choices rnd i) (pack (mul (rnd i) s))) i)
             (seq 0 (length choices))).
  Proof.
    unfold ot_recv. rewrite Hlen, Nat.eqb_refl, Hup.
    rewrite (all_of_ext _ _ _ (fun i => map (fun j => (fun m =>
      blk digest (keyhash (pack s) (rpack s choices rnd m) (pack (mul (rnd m) s))) m) (i + j)%nat)
        (seq 0 (Nat.min k (length choices - i))))).
    2:{ intros i Hi. unfold batch_recv. rewrite batch_packs_eq. apply all_of_ext. intros j Hj. apply in_seq in Hj.
        rewrite block_of_val. f_equal. unfold rkey1. f_equal. f_equal.
        rewrite nth_map_seq by lia. reflexivity. }
    cbn [bind]. f_equal. f_equal.
    - rewrite concat_map_concat. f_equal.
      rewrite (map_ext _ _ (fun i => batch_packs_eq s choices rnd i)). exact (starts_full _ (rpack s choices rnd) k _ Hk).
    - exact (starts_cover _ (fun m => blk digest (keyhash (pack s) (rpack s choices rnd m) (pack (mul (rnd m) s))) m) k _ Hk).
  Qed.

  (** The sender, on the encodings f 0, f 1, ... of elements g 0, g 1, ... *)
  Lemma ot_send_ok n y (g : nat -> pt) :
    ot_send pt sub mul base pack unpack keyhash digest k n y
      (concat (map (fun i => pack (g i)) (seq 0 (div_ceil n k * k)))) =
    Val (map (fun i => (blk digest (keyhash (pack (mul y base)) (pack (g i)) (pack (mul y (g i)))) i,
                        blk digest (keyhash (pack (mul y base)) (pack (g i))
                                      (pack (sub (mul y (g i)) (mul y (mul y base))))) i))
             (seq 0 n)).
  Proof.
    unfold ot_send. rewrite concat_packs_length by (intros; apply Hlen). rewrite Nat.eqb_refl.
    set (msg := concat _).
    rewrite (all_of_ext _ _ _ (fun i => map (fun j => (fun m =>
      (blk digest (keyhash (pack (mul y base)) (pack (g m)) (pack (mul y (g m)))) m,
       blk digest (keyhash (pack (mul y base)) (pack (g m)) (pack (sub (mul y (g m)) (mul y (mul y base))))) m))
      (i + j)%nat) (seq 0 (Nat.min k (n - i))))).
    - cbn [bind]. f_equal. exact (starts_cover _ (fun m =>
        (blk digest (keyhash (pack (mul y base)) (pack (g m)) (pack (mul y (g m)))) m,
         blk digest (keyhash (pack (mul y base)) (pack (g m)) (pack (sub (mul y (g m)) (mul y (mul y base))))) m)) k _ Hk).
    - intros i Hi. destruct (in_starts _ _ _ Hk Hi) as [H1 H2]. unfold batch_send.
      rewrite (all_some_somes _ _ _ (fun j =>
        (keyhash (pack (mul y base)) (pack (g (i + j)%nat)) (pack (mul y (g (i + j)%nat))),
         keyhash (pack (mul y base)) (pack (g (i + j)%nat)) (pack (sub (mul y (g (i + j)%nat)) (mul y (mul y base))))))).
      + apply all_of_ext. intros j Hj. apply in_seq in Hj.
        rewrite nth_map_seq by lia. cbn [fst snd Nat.add]. rewrite !block_of_val. reflexivity.
      + intros j Hj. apply in_seq in Hj. unfold skey1, ot_send_first, msg.
        rewrite (slot_concat (fun i => pack (g i))) by (try (intros; apply Hlen); lia).
        now rewrite Hup.
  Qed.
End Session.
