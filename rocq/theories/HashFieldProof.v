(** Bytes, expand_message_xmd and hash_to_field of HashCurveModel. *)
From Coq Require Import ZArith List Bool Lia PeanoNat.
From Verif Require Import LinCodeModel ZpLib SafePrimeModel SafePrimeProps HashCurveModel.
Import ListNotations.
Open Scope Z_scope.

(** ** Bytes *)
Lemma be_bytes_length n v : length (be_bytes n v) = n.
Proof. unfold be_bytes. rewrite rev_length, map_length, seq_length. reflexivity. Qed.
Lemma be_bytes_byte n v : Forall (fun b => 0 <= b < 256) (be_bytes n v).
Proof.
  apply Forall_forall. intros b Hb. unfold be_bytes in Hb. apply in_rev in Hb. apply in_map_iff in Hb as (k & <- & _). unfold low_byte. apply Z.mod_pos_bound. lia.
Qed.
Lemma seq_S_map n s : seq (S s) n = map S (seq s n). Proof. symmetry. apply seq_shift. Qed.
Lemma low_byte_S v k : low_byte v (S k) = low_byte (v / 256) k.
Proof.
  unfold low_byte. rewrite Nat2Z.inj_succ, Z.pow_succ_r by lia. rewrite Z.div_div by (try lia; apply Z.pow_pos_nonneg; lia). reflexivity.
Qed.
Lemma be_bytes_S n v : be_bytes (S n) v = be_bytes n (v / 256) ++ [v mod 256].
Proof.
  unfold be_bytes. cbn [seq map rev]. f_equal.
  - f_equal. rewrite seq_S_map, map_map. apply map_ext. intros k. apply low_byte_S.
  - unfold low_byte. cbn [Z.of_nat]. rewrite Z.pow_0_r, Z.div_1_r. reflexivity.
Qed.
Lemma be_value_bytes n : forall v, 0 <= v < 256 ^ Z.of_nat n -> be_value (be_bytes n v) = v.
Proof.
  induction n as [|n IH]; intros v Hv.
  - cbn in Hv. replace v with 0 by lia. reflexivity.
  - rewrite be_bytes_S, be_app. rewrite Nat2Z.inj_succ, Z.pow_succ_r in Hv by lia. rewrite IH.
    + symmetry. apply Z.div_mod. lia.
    + split; [apply Z.div_pos; lia|]. apply Z.div_lt_upper_bound; lia.
Qed.
Lemma be_value_nonneg l : Forall (fun b => 0 <= b < 256) l -> 0 <= be_value l.
Proof.
  induction l as [|b l IH] using rev_ind; intros F; [cbn; lia|]. apply Forall_app in F as [F B]. inversion B as [|? ? B1 ?]; subst. rewrite be_app. specialize (IH F). lia.
Qed.
Lemma be_value_inj a : forall b, length a = length b -> Forall (fun z => 0 <= z < 256) a -> Forall (fun z => 0 <= z < 256) b -> be_value a = be_value b -> a = b.
Proof.
  induction a as [|x a IH] using rev_ind; intros b L FA FB E.
  - destruct b; [reflexivity|discriminate].
  - destruct b as [|y b _] using rev_ind; [rewrite app_length in L; cbn in L; lia|]. rewrite !app_length in L. cbn [length] in L.
    apply Forall_app in FA as [FA XA], FB as [FB YB]. inversion XA; inversion YB; subst. rewrite !be_app in E.
    assert (x = y) by lia. subst y. f_equal. apply IH; auto; lia.
Qed.
Lemma pad_bytes_ok key v : 0 <= v < 256 ^ Z.of_nat key -> pad_bytes key v = Val (be_bytes key v).
Proof. intros H. unfold pad_bytes. rewrite Z.abs_eq by lia. destruct (Z.ltb_spec v (256 ^ Z.of_nat key)); [reflexivity|lia]. Qed.
Lemma same_bytes_eq a : forall b, length a = length b -> same_bytes a b = true <-> a = b.
Proof.
  induction a as [|x a IH]; intros [|y b] L; try discriminate; [split; auto|]. cbn [same_bytes]. rewrite andb_true_iff, Z.eqb_eq, IH by (cbn in L; lia).
  split; [intros [-> ->]; reflexivity|intros E; injection E; auto].
Qed.

(** ** expand_message_xmd *)
Lemma i2osp1 x : 0 <= x < 256 -> i2osp x 1 = Val [x].
Proof.
  intros H. unfold i2osp. change (256 ^ Z.of_nat 1) with 256. destruct (Z.ltb_spec x 256); [|lia]. cbn [negb Nat.ltb Nat.leb map seq].
  unfold low_byte. cbn [Z.of_nat]. rewrite Z.pow_0_r, Z.div_1_r, Z.mod_small by lia. reflexivity.
Qed.
Lemma i2osp2 x : 0 <= x <= 65535 -> i2osp x 2 = Val [x / 256; x mod 256].
Proof.
  intros H. unfold i2osp. change (256 ^ Z.of_nat 2) with 65536. destruct (Z.ltb_spec x 65536); [|lia]. cbn [negb Nat.ltb Nat.leb map seq rev app].
  unfold low_byte. cbn [Z.of_nat]. change (256 ^ Z.pos (Pos.of_succ_nat 0)) with 256. rewrite Z.pow_0_r, Z.div_1_r. rewrite (Z.mod_small (x / 256)); [reflexivity|].
  split; [apply Z.div_pos; lia|apply Z.div_lt_upper_bound; lia].
Qed.

Section Xmd.
Variable H : list Z -> list Z.
Variable b : nat.
Hypothesis bpos : (0 < b)%nat.
Hypothesis Hlen : forall l, length (H l) = b.

Lemma loop_app b0 dstp n : forall i bi ret, xmd_loop H b0 dstp n i bi ret = ret ++ xmd_loop H b0 dstp n i bi [].
Proof.
  induction n as [|n IH]; intros i bi ret; cbn [xmd_loop]; [rewrite app_nil_r; reflexivity|]. rewrite IH, (IH _ _ ([] ++ _)). cbn [app]. rewrite app_assoc. reflexivity.
Qed.
Lemma loop_length b0 dstp n : forall i bi ret, length (xmd_loop H b0 dstp n i bi ret) = (length ret + n * b)%nat.
Proof. induction n as [|n IH]; intros i bi ret; cbn [xmd_loop]; [lia|]. rewrite IH, app_length, Hlen. lia. Qed.
Lemma ceil_le len : (len <= (len + b - 1) / b * b)%nat.
Proof.
  pose proof (Nat.div_mod (len + b - 1) b ltac:(lia)) as D. pose proof (Nat.mod_upper_bound (len + b - 1) b ltac:(lia)). nia.
Qed.
End Xmd.
