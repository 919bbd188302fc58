From Coq Require Import NArith ZArith Arith Bool List Lia.
From Verif Require Import LinCodeModel SyncDrbgModel.
Import ListNotations.
Open Scope Z_scope.

(** Property C104, for the model of SyncDrbgModel.v. *)

(** ** The eight bytes of the counter *)

Lemma le_of_length : forall k x, length (le_of k x) = k.
Proof. induction k; intro x; cbn [le_of length]; [reflexivity | f_equal; apply IHk]. Qed.

Lemma le_to_of : forall k x, le_to (le_of k x) = x mod 2 ^ (8 * Z.of_nat k).
Proof.
  induction k; intro x; cbn [le_of].
  - change (le_to []) with 0. change (8 * Z.of_nat 0) with 0. rewrite Z.pow_0_r, Z.mod_1_r. reflexivity.
  - change (le_to (x mod 256 :: le_of k (x / 256))) with (x mod 256 + 256 * le_to (le_of k (x / 256))).
    rewrite IHk.
    replace (8 * Z.of_nat (S k)) with (8 + 8 * Z.of_nat k) by lia.
    rewrite Z.pow_add_r by lia. change (2 ^ 8) with 256.
    rewrite Z.rem_mul_r; [reflexivity | lia |].
    assert (0 < 2 ^ (8 * Z.of_nat k)) by (apply Z.pow_pos_nonneg; lia). lia.
Qed.

Lemma counter_round_trip : forall x, - 2 ^ 63 <= x < 2 ^ 63 -> signed64 (le_to (le_of 8 x)) = x.
Proof.
  intros x Hx. rewrite le_to_of. change (8 * Z.of_nat 8) with 64.
  unfold signed64. change (2 ^ 63) with 9223372036854775808 in *. change (2 ^ 64) with 18446744073709551616.
  destruct (Z_lt_le_dec x 0) as [Hn|Hn].
  - replace (x mod 18446744073709551616) with (x + 18446744073709551616)
      by (apply Z.mod_unique_pos with (-1); lia).
    replace (x + 18446744073709551616 <? 9223372036854775808) with false by (symmetry; apply Z.ltb_ge; lia). lia.
  - rewrite Z.mod_small by lia.
    replace (x <? 9223372036854775808) with true by (symmetry; apply Z.ltb_lt; lia). reflexivity.
Qed.

(** ** What is required of the library *)

(** A context of the kind the constructor makes: SHA-256 parameters, full arrays, a
    counter that fits. *)
Definition sha256_context (maxlen : nat) (c : hctx) : Prop :=
  md c = evp_sha256 /\ hash_output_len c = 32 /\ security_strength c = 128 /\ seed_byte_len c = 55
  /\ length (V c) = maxlen /\ length (C c) = maxlen /\ - 2 ^ 63 <= reseed_counter c < 2 ^ 63.

(** gen writes as many bytes as asked for. *)
Definition gen_fills (gen : hctx -> Z -> list Z -> gen_result) : Prop :=
  forall c n add c' out, 0 <= n -> gen c n add = GenOk c' out -> Z.of_nat (length out) = n.

(** NIST SP 800-90A: a reseed is required exactly when the counter has passed the
    interval; every request counts. *)
Definition gen_counts (interval : Z) (gen : hctx -> Z -> list Z -> gen_result) : Prop :=
  forall c n add,
    (gen c n add = GenReseed <-> interval < reseed_counter c) /\
    (forall c' out, gen c n add = GenOk c' out -> reseed_counter c' = reseed_counter c + 1).

Definition libs_keep (maxlen : nat) (gen : hctx -> Z -> list Z -> gen_result)
  (reseed_lib : hctx -> list Z -> list Z -> option hctx)
  (instantiate_lib : list Z -> list Z -> list Z -> option hctx) : Prop :=
  (forall c n add c' out, sha256_context maxlen c -> gen c n add = GenOk c' out -> sha256_context maxlen c') /\
  (forall c s a c', sha256_context maxlen c -> reseed_lib c s a = Some c' -> sha256_context maxlen c') /\
  (forall s n p c, instantiate_lib s n p = Some c -> sha256_context maxlen c).

(** ** What Fill writes: the concatenation of the library's outputs *)

(** Successive requests of the given sizes succeed and give these bytes. *)
Inductive stream (gen : hctx -> Z -> list Z -> gen_result) (add : list Z) : hctx -> list nat -> list Z -> hctx -> Prop :=
| stream_nil : forall c, stream gen add c [] [] c
| stream_cons : forall c n c1 out ns outs c2,
    gen c (Z.of_nat n) add = GenOk c1 out -> stream gen add c1 ns outs c2 ->
    stream gen add c (n :: ns) (out ++ outs) c2.

Lemma batch_pos : (0 < kBatchSize)%nat.
Proof. unfold kBatchSize. lia. Qed.

Lemma batch_Z : Z.of_nat kBatchSize = 65536.
Proof. unfold kBatchSize. lia. Qed.

Lemma batch_N : kBatchSize = N.to_nat 65536.
Proof. reflexivity. Qed.

Opaque kBatchSize.

Lemma batches_of : forall q r, (0 < r <= kBatchSize)%nat ->
  Nat.div (q * kBatchSize + r + kBatchSize - 1) kBatchSize = S q.
Proof.
  intros q r Hr. generalize dependent kBatchSize. intros k Hr.
  symmetry. apply Nat.div_unique with (r - 1)%nat; [lia|].
  replace (k * S q)%nat with (q * k + k)%nat by ring. lia.
Qed.

Lemma batches_0 : Nat.div (0 + kBatchSize - 1) kBatchSize = 0%nat.
Proof. pose proof batch_pos. apply Nat.div_small. lia. Qed.

Section Fill.
  Variable gen : hctx -> Z -> list Z -> gen_result.
  Variable reseed_lib : hctx -> list Z -> list Z -> option hctx.
  Hypothesis HG : gen_fills gen.

  Lemma fill_loop_stream : forall add seed q r rest done c c' out sy,
    (0 < r <= kBatchSize)%nat -> length rest = (q * kBatchSize + r)%nat ->
    stream gen add c (repeat kBatchSize q ++ [r]) out c' ->
    fill_loop gen reseed_lib (S q) add seed done rest {| ctx := c; syncing := sy |}
    = Filled 1 (done ++ out) {| ctx := c'; syncing := sy |}.
  Proof using HG.
    intros add seed q. induction q as [|q IH]; intros r rest done c c' out sy Hr Hl Hs.
    - cbn [repeat app] in Hs. inversion Hs as [|c0 n c1 o1 ns o2 c2 Hg Hs2]; subst.
      inversion Hs2; subst. rewrite app_nil_r.
      cbn [fill_loop ctx syncing]. replace (Nat.min kBatchSize (length rest)) with r by lia.
      rewrite Hg. rewrite skipn_all2 by lia. rewrite app_nil_r. reflexivity.
    - cbn [repeat app] in Hs. inversion Hs as [|c0 n c1 o1 ns o2 c2 Hg Hs2]; subst.
      assert (Hk : (length rest = kBatchSize + (q * kBatchSize + r))%nat)
        by (rewrite Hl; replace (S q * kBatchSize)%nat with (kBatchSize + q * kBatchSize)%nat by ring; lia).
      remember (S q) as sq eqn:Esq. cbn [fill_loop ctx syncing].
      replace (Nat.min kBatchSize (length rest)) with kBatchSize by lia.
      rewrite Hg. rewrite app_assoc. subst sq. apply IH with r; try assumption.
      rewrite skipn_length. lia.
  Qed.

  Lemma fill_loop_length : forall add seed b done rest d r buf d',
    fill_loop gen reseed_lib b add seed done rest d = Filled r buf d' ->
    length buf = (length done + length rest)%nat /\ (r = 0 \/ r = 1) /\ syncing d' = syncing d.
  Proof using HG.
    intros add seed b. induction b as [|b IH]; intros done rest d r buf d' H; cbn [fill_loop] in H.
    - injection H as <- <- <-. rewrite app_length. auto.
    - set (limit := Nat.min kBatchSize (length rest)) in *.
      assert (Hlim : (limit <= length rest)%nat) by (unfold limit; lia).
      destruct (gen (ctx d) (Z.of_nat limit) add) as [c out| |] eqn:Eg.
      + apply HG in Eg; [|lia]. apply IH in H. destruct H as [Hl [Hr Hs]].
        rewrite app_length, skipn_length in Hl. cbn [syncing] in Hs. split; [lia|auto].
      + destruct (reseed reseed_lib seed [] d) as [d1| | |] eqn:Er; try discriminate H.
        apply IH in H. destruct H as [Hl [Hr Hs]].
        rewrite app_length, skipn_length, firstn_length in Hl. split; [lia|]. split; [exact Hr|].
        rewrite Hs. unfold reseed in Er. destruct (Nat.leb _ _); [|discriminate Er].
        destruct (reseed_lib _ _ _); [|discriminate Er]. injection Er as <-. reflexivity.
      + injection H as <- <- <-. rewrite app_length. auto.
  Qed.
End Fill.

(** C104: if the requests for the batches of a buffer succeed, Fill returns 1 and the
    whole buffer holds their outputs, in order, whatever it held before. *)
Theorem sync_drbg_fill :
  forall gen reseed_lib, gen_fills gen ->
  forall q r buf add seed c c' out,
  (0 < r <= 65536)%N -> N.of_nat (length buf) = (65536 * N.of_nat q + r)%N -> (length add <= 32)%nat ->
  stream gen add c (repeat (N.to_nat 65536) q ++ [N.to_nat r]) out c' ->
  fill gen reseed_lib buf add seed {| ctx := c; syncing := false |}
    = Filled 1 out {| ctx := c'; syncing := false |}
  /\ length out = length buf.
Proof.
  intros gen reseed_lib HG q r buf add seed c c' out Hr Hl Ha Hs.
  pose proof batch_N as Hk.
  assert (Hr' : (0 < N.to_nat r <= kBatchSize)%nat) by (rewrite Hk; lia).
  assert (Hl' : length buf = (q * kBatchSize + N.to_nat r)%nat)
    by (rewrite Hk; apply Nnat.Nat2N.inj; rewrite Hl, Nnat.Nat2N.inj_add, Nnat.Nat2N.inj_mul, !Nnat.N2Nat.id; lia).
  assert (Hf : fill gen reseed_lib buf add seed {| ctx := c; syncing := false |}
    = Filled 1 out {| ctx := c'; syncing := false |}).
  { unfold fill. replace (Nat.ltb 32 (length add)) with false by (symmetry; apply Nat.ltb_ge; exact Ha).
    cbn [syncing]. rewrite Hl', batches_of by exact Hr'.
    rewrite <- Hk in Hs.
    apply (fill_loop_stream gen reseed_lib HG add seed q (N.to_nat r) buf [] c c' out false Hr' Hl' Hs). }
  split; [exact Hf|].
  unfold fill in Hf. replace (Nat.ltb 32 (length add)) with false in Hf by (symmetry; apply Nat.ltb_ge; exact Ha).
  cbn [syncing] in Hf. apply (fill_loop_length gen reseed_lib HG) in Hf.
  cbn [length] in Hf. lia.
Qed.

(** C104: Fill never writes outside the buffer, returns 0 or 1; with too much additional
    data, or during a synchronisation, it returns 0 and touches nothing. *)
Theorem sync_drbg_fill_bounds :
  forall gen reseed_lib, gen_fills gen ->
  forall buf add seed d,
  (forall r b d', fill gen reseed_lib buf add seed d = Filled r b d' ->
     length b = length buf /\ (r = 0 \/ r = 1) /\ syncing d' = syncing d) /\
  ((32 < length add)%nat \/ syncing d = true -> fill gen reseed_lib buf add seed d = Filled 0 buf d).
Proof.
  intros gen reseed_lib HG buf add seed d. split.
  - intros r b d' H. unfold fill in H.
    destruct (Nat.ltb 32 (length add)); [injection H as <- <- <-; auto|].
    destruct (syncing d) eqn:Es; [injection H as <- <- <-; auto|].
    apply (fill_loop_length gen reseed_lib HG) in H. cbn [length] in H. rewrite Es in H. exact H.
  - intros [H|H]; unfold fill.
    + apply Nat.ltb_lt in H. rewrite H. reflexivity.
    + rewrite H. destruct (Nat.ltb 32 (length add)); reflexivity.
Qed.

(** ** Two generators with the same context *)

(** The number of library requests of a history. *)
Definition cost (call : list Z * list Z * list Z) : Z :=
  (Z.of_nat (length (fst (fst call))) + 65535) / 65536.
Definition total_cost (calls : list (list Z * list Z * list Z)) : Z :=
  fold_right (fun c acc => cost c + acc) 0 calls.

(** The same request: as many bytes, the same additional data. *)
Definition same_request (c1 c2 : list Z * list Z * list Z) : Prop :=
  length (fst (fst c1)) = length (fst (fst c2)) /\ snd (fst c1) = snd (fst c2).

(** The same answer: the return value and, on success, the bytes. *)
Definition same_answer (a1 a2 : option (Z * list Z)) : Prop :=
  match a1, a2 with
  | Some (r1, b1), Some (r2, b2) => r1 = r2 /\ (r1 = 1 -> b1 = b2)
  | _, _ => False
  end.

Section Same.
  Variable gen : hctx -> Z -> list Z -> gen_result.
  Variable reseed_lib : hctx -> list Z -> list Z -> option hctx.
  Variable interval : Z.
  Hypothesis HC : gen_counts interval gen.

  Lemma loop_same : forall add s1 s2 b done1 done2 rest1 rest2 d,
    length rest1 = length rest2 -> (length rest1 <= b * kBatchSize)%nat ->
    reseed_counter (ctx d) + Z.of_nat b <= interval + 1 ->
    exists r x1 x2 d',
      fill_loop gen reseed_lib b add s1 done1 rest1 d = Filled r x1 d' /\
      fill_loop gen reseed_lib b add s2 done2 rest2 d = Filled r x2 d' /\
      (r = 1 -> exists t, x1 = done1 ++ t /\ x2 = done2 ++ t) /\
      syncing d' = syncing d /\ (reseed_counter (ctx d') <= reseed_counter (ctx d) + Z.of_nat b).
  Proof using HC.
    intros add s1 s2 b. induction b as [|b IH]; intros done1 done2 rest1 rest2 d Hl Hb Hc.
    - cbn [fill_loop]. exists 1, (done1 ++ rest1), (done2 ++ rest2), d.
      destruct rest1; [|cbn [length] in Hb; lia]. destruct rest2; [|cbn [length] in Hl; lia].
      do 2 (split; [reflexivity|]). split; [intros _; exists []; auto|]. split; [reflexivity|lia].
    - cbn [fill_loop]. rewrite <- Hl. set (limit := Nat.min kBatchSize (length rest1)).
      destruct (HC (ctx d) (Z.of_nat limit) add) as [Hres Hcnt].
      destruct (gen (ctx d) (Z.of_nat limit) add) as [c out| |] eqn:Eg.
      + specialize (Hcnt c out eq_refl).
        destruct (IH (done1 ++ out) (done2 ++ out) (skipn limit rest1) (skipn limit rest2)
                     {| ctx := c; syncing := syncing d |}) as [r [x1 [x2 [d' [H1 [H2 [H3 [H4 H5]]]]]]]].
        * rewrite !skipn_length. lia.
        * rewrite skipn_length. unfold limit. cbn [Nat.mul] in Hb. lia.
        * cbn [ctx]. lia.
        * exists r, x1, x2, d'. do 2 (split; [assumption|]). split.
          { intro Hr. destruct (H3 Hr) as [t [Ht1 Ht2]]. exists (out ++ t). rewrite !app_assoc. auto. }
          cbn [ctx syncing] in *. split; [assumption|lia].
      + exfalso. assert (interval < reseed_counter (ctx d)) by (apply Hres; reflexivity). lia.
      + exists 0, (done1 ++ rest1), (done2 ++ rest2), d. do 2 (split; [reflexivity|]).
        split; [discriminate|]. split; [reflexivity|lia].
  Qed.

  Lemma cost_batches : forall (buf : list Z),
    Z.of_nat (Nat.div (length buf + kBatchSize - 1) kBatchSize) = (Z.of_nat (length buf) + 65535) / 65536.
  Proof using.
    intro buf. pose proof batch_pos. rewrite Nat2Z.inj_div.
    pose proof batch_Z as Hk.
    rewrite Nat2Z.inj_sub by lia. rewrite Nat2Z.inj_add, Hk. f_equal. lia.
  Qed.

  Lemma batches_enough : forall n, (n <= Nat.div (n + kBatchSize - 1) kBatchSize * kBatchSize)%nat.
  Proof using.
    intro n. pose proof batch_pos as Hp.
    pose proof (Nat.div_mod (n + kBatchSize - 1) kBatchSize ltac:(lia)) as H.
    pose proof (Nat.mod_upper_bound (n + kBatchSize - 1) kBatchSize ltac:(lia)).
    rewrite Nat.mul_comm in H. lia.
  Qed.

  Lemma fill_same : forall c1 c2 s1 s2 add d,
    length c1 = length c2 ->
    reseed_counter (ctx d) + (Z.of_nat (length c1) + 65535) / 65536 <= interval + 1 ->
    exists r x1 x2 d',
      fill gen reseed_lib c1 add s1 d = Filled r x1 d' /\
      fill gen reseed_lib c2 add s2 d = Filled r x2 d' /\
      (r = 1 -> x1 = x2) /\ reseed_counter (ctx d') <= reseed_counter (ctx d) + (Z.of_nat (length c1) + 65535) / 65536.
  Proof using HC.
    intros c1 c2 s1 s2 add d Hl Hc. unfold fill.
    assert (0 <= (Z.of_nat (length c1) + 65535) / 65536) by (apply Z.div_pos; lia).
    destruct (Nat.ltb 32 (length add)).
    { exists 0, c1, c2, d. do 2 (split; [reflexivity|]). split; [discriminate|lia]. }
    destruct (syncing d).
    { exists 0, c1, c2, d. do 2 (split; [reflexivity|]). split; [discriminate|lia]. }
    rewrite <- Hl.
    destruct (loop_same add s1 s2 (Nat.div (length c1 + kBatchSize - 1) kBatchSize) [] [] c1 c2 d Hl (batches_enough _))
      as [r [x1 [x2 [d' [H1 [H2 [H3 [_ H5]]]]]]]].
    - rewrite cost_batches. exact Hc.
    - exists r, x1, x2, d'. do 2 (split; [assumption|]). split.
      + intro Hr. destruct (H3 Hr) as [t [-> ->]]. reflexivity.
      + rewrite cost_batches in H5. exact H5.
  Qed.

  Lemma fills_same : forall h1 h2 d,
    Forall2 same_request h1 h2 -> reseed_counter (ctx d) + total_cost h1 <= interval + 1 ->
    Forall2 same_answer (fills gen reseed_lib h1 d) (fills gen reseed_lib h2 d).
  Proof using HC.
    intros h1 h2 d H. revert d. induction H as [|[[b1 a1] s1] [[b2 a2] s2] h1 h2 [Hl Ha] _ IH]; intros d Hc.
    - constructor.
    - cbn [fst snd] in Hl, Ha. subst a2. cbn [total_cost fold_right] in Hc. fold (total_cost h1) in Hc.
      unfold cost in Hc. cbn [fst] in Hc.
      assert (Ht : 0 <= total_cost h1).
      { clear. induction h1 as [|c h IHh]; [reflexivity|]. cbn [total_cost fold_right]. fold (total_cost h).
        assert (0 <= cost c) by (unfold cost; apply Z.div_pos; lia). lia. }
      destruct (fill_same b1 b2 s1 s2 a1 d Hl) as [r [x1 [x2 [d' [H1 [H2 [H3 H4]]]]]]]; [lia|].
      cbn [fills]. rewrite H1, H2. constructor; [split; auto|]. apply IH. lia.
  Qed.
End Same.

(** C104: a fork and its original give the same bytes for the same requests, whatever
    happens to either, for every history that does not reach the reseed interval. *)
Theorem sync_drbg_fork :
  forall gen reseed_lib interval, gen_counts interval gen ->
  forall d h1 h2, syncing d = false ->
  Forall2 same_request h1 h2 -> reseed_counter (ctx d) + total_cost h1 <= interval + 1 ->
  Forall2 same_answer (fills gen reseed_lib h1 d) (fills gen reseed_lib h2 (fork d)).
Proof.
  intros gen reseed_lib interval HC d h1 h2 Hs Hh Hc.
  replace (fork d) with d; [apply (fills_same gen reseed_lib interval HC); assumption|].
  destruct d as [[m v c ho ss sl rc] sy]. cbn [syncing] in Hs. subst sy. reflexivity.
Qed.
(** A fork of an object that is being synchronised (or is stuck after a failed
    synchronisation) does serve requests: with the answers the object would give had the
    synchronisation not begun. *)
Theorem sync_drbg_fork_serves :
  forall gen reseed_lib d h, fills gen reseed_lib h (fork d) = fills gen reseed_lib h {| ctx := ctx d; syncing := false |}.
Proof. intros gen reseed_lib [[m v c ho ss sl rc] sy] h. reflexivity. Qed.

(** ** Synchronisation *)

Lemma deserialize_serialize : forall maxlen c, sha256_context maxlen c ->
  deserialize maxlen (serialize c) = Val c.
Proof.
  intros maxlen [m v cc ho ss sl rc] [H1 [H2 [H3 [H4 [H5 [H6 H7]]]]]].
  cbn [md V C hash_output_len security_strength seed_byte_len reseed_counter] in *. subst m ho ss sl.
  unfold deserialize, serialize. cbn [V C reseed_counter].
  rewrite !app_length, le_of_length, H5, H6.
  replace (Nat.leb (maxlen + maxlen + 8) (maxlen + (maxlen + 8))) with true by (symmetry; apply Nat.leb_le; lia).
  rewrite firstn_app, H5, Nat.sub_diag, firstn_O, app_nil_r, (firstn_all2 v) by lia.
  rewrite skipn_app, H5, Nat.sub_diag, skipn_O, skipn_all2 by lia. cbn [app].
  rewrite firstn_app, H6, Nat.sub_diag, firstn_O, app_nil_r, (firstn_all2 cc) by lia.
  rewrite skipn_app, H5. rewrite (skipn_all2 v) by lia. cbn [app].
  replace (maxlen + maxlen - maxlen)%nat with maxlen by lia.
  rewrite skipn_app, H6, Nat.sub_diag, skipn_O, (skipn_all2 cc) by lia. cbn [app].
  rewrite (firstn_all2 (le_of 8 rc)) by (rewrite le_of_length; lia).
  rewrite counter_round_trip by exact H7. reflexivity.
Qed.

(** C104: a synchronisation between two parties over a link that delivers leaves the
    sender as it was, makes the receiver an exact copy of it whatever it held before,
    and both may be used again. *)
Theorem sync_drbg_sync :
  forall maxlen r1 r2 d1 d2, r1 <> r2 -> sha256_context maxlen (ctx d1) ->
  sync maxlen r1 r2 d1 d2 = Val ({| ctx := ctx d1; syncing := false |}, {| ctx := ctx d1; syncing := false |}).
Proof.
  intros maxlen r1 r2 d1 d2 Hr Hw. unfold sync, send_state.
  replace (Nat.eqb r1 r2) with false by (symmetry; apply Nat.eqb_neq; exact Hr). cbn [bind fst snd].
  unfold recv_state. replace (Nat.eqb r2 r1) with false by (symmetry; apply Nat.eqb_neq; auto).
  rewrite (deserialize_serialize maxlen (ctx d1) Hw). cbn [bind send_state_ack]. reflexivity.
Qed.

(** C104: so afterwards both give the same bytes for the same requests, for every
    history that does not reach the reseed interval. *)
Theorem sync_drbg_sync_outputs :
  forall maxlen gen reseed_lib interval, gen_counts interval gen ->
  forall r1 r2 d1 d2 h1 h2, r1 <> r2 -> sha256_context maxlen (ctx d1) ->
  Forall2 same_request h1 h2 -> reseed_counter (ctx d1) + total_cost h1 <= interval + 1 ->
  exists e1 e2, sync maxlen r1 r2 d1 d2 = Val (e1, e2) /\
    Forall2 same_answer (fills gen reseed_lib h1 e1) (fills gen reseed_lib h2 e2).
Proof.
  intros maxlen gen reseed_lib interval HC r1 r2 d1 d2 h1 h2 Hr Hw Hh Hc.
  eexists. eexists. split; [apply sync_drbg_sync; assumption|].
  apply (fills_same gen reseed_lib interval HC); assumption.
Qed.

(** The objects a program can hold: made by the constructor, then used, forked and
    synchronised in any order; a synchronisation may fail at any point. *)
Inductive reachable (maxlen : nat) (gen : hctx -> Z -> list Z -> gen_result)
  (reseed_lib : hctx -> list Z -> list Z -> option hctx)
  (instantiate_lib : list Z -> list Z -> list Z -> option hctx) : drbg -> Prop :=
| r_new : forall s n p d, new instantiate_lib s n p = Val d -> reachable maxlen gen reseed_lib instantiate_lib d
| r_fork : forall d, reachable maxlen gen reseed_lib instantiate_lib d ->
    reachable maxlen gen reseed_lib instantiate_lib (fork d)
| r_fill : forall d buf add s r b d', reachable maxlen gen reseed_lib instantiate_lib d ->
    fill gen reseed_lib buf add s d = Filled r b d' -> reachable maxlen gen reseed_lib instantiate_lib d'
| r_reseed : forall d s a d', reachable maxlen gen reseed_lib instantiate_lib d ->
    reseed reseed_lib s a d = Val d' -> reachable maxlen gen reseed_lib instantiate_lib d'
| r_send : forall d i j m d1 ack, reachable maxlen gen reseed_lib instantiate_lib d ->
    send_state i j d = Val (m, d1) -> reachable maxlen gen reseed_lib instantiate_lib (fst (send_state_ack ack d1))
| r_recv : forall d e i j m e1, reachable maxlen gen reseed_lib instantiate_lib d ->
    reachable maxlen gen reseed_lib instantiate_lib e -> send_state i j e = Val (m, e1) ->
    reachable maxlen gen reseed_lib instantiate_lib (fst (recv_state maxlen j i (Some m) d))
| r_recv_fail : forall d i j, reachable maxlen gen reseed_lib instantiate_lib d ->
    reachable maxlen gen reseed_lib instantiate_lib (fst (recv_state maxlen j i None d)).

Lemma fill_keeps : forall maxlen gen reseed_lib inst, libs_keep maxlen gen reseed_lib inst ->
  forall add seed b done rest d r buf d', sha256_context maxlen (ctx d) ->
  fill_loop gen reseed_lib b add seed done rest d = Filled r buf d' -> sha256_context maxlen (ctx d').
Proof.
  intros maxlen gen reseed_lib inst [HG [HR _]] add seed b.
  induction b as [|b IH]; intros done rest d r buf d' Hw H; cbn [fill_loop] in H.
  - injection H as _ _ <-. exact Hw.
  - destruct (gen (ctx d) _ add) as [c out| |] eqn:Eg.
    + apply IH in H; [exact H|]. cbn [ctx]. exact (HG _ _ _ _ _ Hw Eg).
    + unfold reseed in H. cbn [length Nat.leb] in H.
      destruct (reseed_lib (ctx d) seed []) as [c|] eqn:Er; [|discriminate H].
      apply IH in H; [exact H|]. cbn [ctx]. exact (HR _ _ _ _ Hw Er).
    + injection H as _ _ <-. exact Hw.
Qed.

(** C104: hence every object a program can hold can be the source of a synchronisation. *)
Theorem sync_drbg_reachable :
  forall maxlen gen reseed_lib inst, libs_keep maxlen gen reseed_lib inst ->
  forall d1, reachable maxlen gen reseed_lib inst d1 ->
  sha256_context maxlen (ctx d1) /\
  (forall r1 r2 d2, r1 <> r2 ->
     sync maxlen r1 r2 d1 d2 = Val ({| ctx := ctx d1; syncing := false |}, {| ctx := ctx d1; syncing := false |})).
Proof.
  intros maxlen gen reseed_lib inst HL d1 H.
  assert (Hw : sha256_context maxlen (ctx d1)).
  { destruct HL as [HG [HR HI]].
    induction H as [s n p d Hn|d H IH|d buf add s r b d' H IH Hf|d s a d' H IH Hr|d i j m d1 ack H IH Hs
                    |d e i j m e1 H IH He IHe Hs|d i j H IH].
    - unfold new in Hn. destruct (_ && _); [|discriminate Hn].
      destruct (inst s n p) as [c|] eqn:Ei; [|discriminate Hn]. injection Hn as <-. exact (HI _ _ _ _ Ei).
    - exact IH.
    - unfold fill in Hf. destruct (Nat.ltb 32 (length add)); [injection Hf as _ _ <-; exact IH|].
      destruct (syncing d); [injection Hf as _ _ <-; exact IH|].
      exact (fill_keeps maxlen gen reseed_lib inst (conj HG (conj HR HI)) _ _ _ _ _ _ _ _ _ IH Hf).
    - unfold reseed in Hr. destruct (Nat.leb (length a) 32); [|discriminate Hr].
      destruct (reseed_lib (ctx d) s a) as [c|] eqn:Er; [|discriminate Hr]. injection Hr as <-.
      exact (HR _ _ _ _ IH Er).
    - unfold send_state in Hs. destruct (Nat.eqb i j); [discriminate Hs|]. injection Hs as _ <-.
      destruct ack as [[|x l]|]; cbn [send_state_ack fst ctx]; try exact IH.
      destruct (x =? 89); exact IH.
    - unfold send_state in Hs. destruct (Nat.eqb i j); [discriminate Hs|]. injection Hs as <- _.
      unfold recv_state. destruct (Nat.eqb j i); [exact IH|].
      rewrite (deserialize_serialize maxlen (ctx e) IHe). exact IHe.
    - unfold recv_state. destruct (Nat.eqb j i); exact IH. }
  split; [exact Hw|]. intros r1 r2 d2 Hr. apply sync_drbg_sync; assumption.
Qed.

(** ** What does not hold *)

(** C104: when a reseed is due, Fill reseeds, reports success, and leaves the buffer as
    it was: the caller takes the old contents for random bytes. *)
Theorem sync_drbg_fill_unfilled :
  forall gen reseed_lib interval, gen_counts interval gen ->
  forall buf add seed d c', syncing d = false -> (length add <= 32)%nat ->
  (0 < length buf)%nat -> (N.of_nat (length buf) <= 65536)%N ->
  interval < reseed_counter (ctx d) -> reseed_lib (ctx d) seed [] = Some c' ->
  fill gen reseed_lib buf add seed d = Filled 1 buf {| ctx := c'; syncing := false |}.
Proof.
  intros gen reseed_lib interval HC buf add seed d c' Hs Ha H0 Hl Hi Hr. unfold fill.
  replace (Nat.ltb 32 (length add)) with false by (symmetry; apply Nat.ltb_ge; exact Ha). rewrite Hs.
  pose proof batch_N as Hk.
  replace (length buf + kBatchSize - 1)%nat with (0 * kBatchSize + length buf + kBatchSize - 1)%nat by lia.
  rewrite batches_of by (rewrite Hk; lia).
  cbn [fill_loop]. replace (Nat.min kBatchSize (length buf)) with (length buf) by (rewrite Hk; lia).
  destruct (HC (ctx d) (Z.of_nat (length buf)) add) as [Hres _]. rewrite (proj2 Hres Hi).
  unfold reseed. cbn [length Nat.leb]. rewrite Hr. cbn [app].
  rewrite firstn_all, skipn_all, app_nil_r, Hs. reflexivity.
Qed.

(** C104: a synchronisation that fails (a lost or wrong acknowledgement, a lost state)
    leaves the object unusable: Fill returns 0 and writes nothing, for ever. *)
Theorem sync_drbg_failed_sync :
  forall maxlen gen reseed_lib d i j, i <> j ->
  (forall m d1 ack, send_state i j d = Val (m, d1) -> (forall l, ack <> Some (89 :: l)) ->
     forall h, fills gen reseed_lib h (fst (send_state_ack ack d1))
               = map (fun c => Some (0, fst (fst c))) h) /\
  (forall h, fills gen reseed_lib h (fst (recv_state maxlen i j None d))
             = map (fun c => Some (0, fst (fst c))) h).
Proof.
  intros maxlen gen reseed_lib d i j Hij.
  assert (Hstuck : forall h c, fills gen reseed_lib h {| ctx := c; syncing := true |}
                               = map (fun c => Some (0, fst (fst c))) h).
  { intros h c. induction h as [|[[b a] s] h IH]; [reflexivity|].
    cbn [fills map fst]. unfold fill. cbn [syncing]. destruct (Nat.ltb 32 (length a)); rewrite IH; reflexivity. }
  split.
  - intros m d1 ack Hs Hack h. unfold send_state in Hs.
    destruct (Nat.eqb i j); [discriminate Hs|]. injection Hs as _ <-.
    destruct ack as [[|b l]|]; cbn [send_state_ack fst]; [apply Hstuck| |apply Hstuck].
    destruct (b =? 89) eqn:Eb; [|apply Hstuck].
    apply Z.eqb_eq in Eb. subst b. exfalso. apply (Hack l). reflexivity.
  - intro h. unfold recv_state.
    replace (Nat.eqb i j) with false by (symmetry; apply Nat.eqb_neq; exact Hij). apply Hstuck.
Qed.

(** ** A small generator: the counter and the first byte of V *)

Definition toy_gen (c : hctx) (n : Z) (add : list Z) : gen_result :=
  if 3 <? reseed_counter c then GenReseed
  else GenOk {| md := md c; V := map (fun x => (x + 7) mod 256) (V c); C := C c;
                hash_output_len := hash_output_len c; security_strength := security_strength c;
                seed_byte_len := seed_byte_len c; reseed_counter := reseed_counter c + 1 |}
             (map (fun i => (hd 0 (V c) + 10 * Z.of_nat i + fold_right Z.add 0 add) mod 256) (seq 0 (Z.to_nat n))).
Definition toy_ctx (v : Z) (k : Z) : hctx :=
  {| md := 0; V := [v; 2]; C := [3; 4]; hash_output_len := 32; security_strength := 128; seed_byte_len := 55;
     reseed_counter := k |}.
Definition toy_reseed (c : hctx) (s a : list Z) : option hctx := Some (toy_ctx (hd 0 s) 1).
Definition toy_d : drbg := {| ctx := toy_ctx 1 1; syncing := false |}.

Example toy_counts : gen_counts 3 toy_gen.
Proof.
  intros c n add. unfold toy_gen. destruct (3 <? reseed_counter c) eqn:E.
  - split; [apply Z.ltb_lt in E; tauto|]. intros c' out H. discriminate H.
  - apply Z.ltb_ge in E. split; [split; [discriminate|lia]|].
    intros c' out H. injection H as <- _. reflexivity.
Qed.

(** C104, false in general: "Fill returned 1, so the buffer holds generated bytes". *)
Theorem sync_drbg_fill_refuted :
  exists d buf seed d', syncing d = false /\
    fill toy_gen toy_reseed buf [] seed d = Filled 1 buf d' /\ buf = [0; 0; 0; 0].
Proof.
  exists {| ctx := toy_ctx 1 4; syncing := false |}, [0; 0; 0; 0], [9]. eexists.
  split; [reflexivity|]. split; [|reflexivity].
  apply (sync_drbg_fill_unfilled toy_gen toy_reseed 3); try reflexivity; try (cbn [length]; lia).
  apply toy_counts.
Qed.

(** C104, false in general: "a malformed state message is rejected" - a short one is
    read past its end. *)
Theorem sync_drbg_short_message_refuted :
  forall maxlen i j d m, i <> j -> (length m < maxlen + maxlen + 8)%nat ->
  snd (recv_state maxlen i j (Some m) d) = OutOfBounds.
Proof.
  intros maxlen i j d m Hij Hm. unfold recv_state, deserialize.
  replace (Nat.eqb i j) with false by (symmetry; apply Nat.eqb_neq; exact Hij).
  replace (Nat.leb (maxlen + maxlen + 8) (length m)) with false by (symmetry; apply Nat.leb_gt; exact Hm).
  reflexivity.
Qed.

Example toy_fills : gen_fills toy_gen.
Proof.
  intros c n add c' out Hn H. unfold toy_gen in H. destruct (3 <? reseed_counter c); [discriminate H|].
  injection H as _ <-. rewrite map_length, seq_length. lia.
Qed.

Example toy_fill :
  fill toy_gen toy_reseed [0; 0; 0] [5] [9] toy_d
  = Filled 1 [6; 16; 26] {| ctx := {| md := 0; V := [8; 9]; C := [3; 4]; hash_output_len := 32;
      security_strength := 128; seed_byte_len := 55; reseed_counter := 2 |}; syncing := false |}.
Proof.
  apply (sync_drbg_fill toy_gen toy_reseed toy_fills 0 3%N); [lia|reflexivity|cbn [length]; lia|].
  change [6; 16; 26] with ([6; 16; 26] ++ [] : list Z). eapply stream_cons; [reflexivity|constructor].
Qed.

Example toy_sync_outputs :
  exists e1 e2, sync 2 0 1 toy_d {| ctx := toy_ctx 77 3; syncing := true |} = Val (e1, e2) /\
    Forall2 same_answer
      (fills toy_gen toy_reseed [([0; 0], [], [5]); ([1], [2], [5]); ([0; 0; 0], [], [5])] e1)
      (fills toy_gen toy_reseed [([8; 8], [], [6]); ([7], [2], [6]); ([9; 9; 9], [], [6])] e2).
Proof.
  apply (sync_drbg_sync_outputs 2 toy_gen toy_reseed 3 toy_counts).
  - discriminate.
  - unfold sha256_context, toy_d. repeat match goal with |- _ /\ _ => split end; vm_compute; congruence.
  - repeat constructor.
  - cbn. lia.
Qed.

Example toy_keeps : libs_keep 2 toy_gen toy_reseed (fun s n p => Some (toy_ctx (hd 0 s) 1)).
Proof.
  change (2 ^ 63) with 9223372036854775808 in *.
  split; [|split].
  - intros c n add c' out [H1 [H2 [H3 [H4 [H5 [H6 H7]]]]]] H. unfold toy_gen in H.
    destruct (3 <? reseed_counter c) eqn:E; [discriminate H|]. apply Z.ltb_ge in E. injection H as <- _.
    unfold sha256_context. cbn [md V C hash_output_len security_strength seed_byte_len reseed_counter].
    rewrite map_length. change (2 ^ 63) with 9223372036854775808 in *.
    repeat match goal with |- _ /\ _ => split end; try assumption; lia.
  - intros c s a c' _ H. injection H as <-. unfold sha256_context.
    repeat match goal with |- _ /\ _ => split end; try reflexivity; vm_compute; congruence.
  - intros s n p c H. injection H as <-. unfold sha256_context.
    repeat match goal with |- _ /\ _ => split end; try reflexivity; vm_compute; congruence.
Qed.

Print Assumptions sync_drbg_fill.
Print Assumptions sync_drbg_fill_bounds.
Print Assumptions sync_drbg_fork.
Print Assumptions sync_drbg_fork_serves.
Print Assumptions sync_drbg_sync.
Print Assumptions sync_drbg_sync_outputs.
Print Assumptions sync_drbg_reachable.
Print Assumptions sync_drbg_fill_unfilled.
Print Assumptions sync_drbg_failed_sync.
Print Assumptions sync_drbg_fill_refuted.
Print Assumptions sync_drbg_short_message_refuted.
