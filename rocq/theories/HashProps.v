From Coq Require Import List NArith Bool Arith Lia.
From Verif Require Import GfModel GfProof HashModel HashProof.
Import ListNotations.
Open Scope N_scope.

(** * C45: the hash of a block does not depend on how it is batched *)

(** The documented functions (crhash.h:30, 41-42): CrHash(x) = RP(x) xor x and
    CcrHash(x) = CrHash(Sigma(x)), Sigma(left || right) = (left xor right) || left, left
    being the half that comes first in memory (the low one). *)
Definition cr_spec (rp : N -> N) (x : N) : N := N.lxor (rp x) x.
Definition sigma_spec (x : N) : N := (x mod 2 ^ 64) * 2 ^ 64 + N.lxor (x mod 2 ^ 64) (x / 2 ^ 64).
Definition ccr_spec (rp : N -> N) (x : N) : N := cr_spec rp (sigma_spec x).

(** Whatever the number of blocks, all versions of the plain hash agree. *)
Theorem crhash_batched : forall rp (l : list N),
  map (crhash rp) l = map (cr_spec rp) l
  /\ para_crhash rp l = map (cr_spec rp) l
  /\ para_crhash_inplace rp kBatchSize l = map (cr_spec rp) l.
Proof.
  intros rp l. split; [reflexivity|]. split; [apply para_crhash_map|].
  apply para_crhash_inplace_map. unfold kBatchSize. lia.
Qed.

Lemma sigma_step_spec x : x < 2 ^ 128 -> sigma_step x = sigma_spec x.
Proof.
  intros H. rewrite sigma_step_val, block_val by (apply xor_lt; [apply hi64_lt|apply lo64_lt]).
  unfold sigma_spec. rewrite hi64_div, lo64_mod by exact H. rewrite (N.lxor_comm (x / _)). reflexivity.
Qed.

(** The batched versions of the circular hash: in place for every number of blocks, and
    into a new vector below 2^32 blocks. *)
Theorem ccrhash_batched : forall rp (l : list N), Forall (fun x => x < 2 ^ 128) l ->
  para_ccrhash_inplace rp kBatchSize l = map (ccr_spec rp) l
  /\ (N.of_nat (length l) < 2 ^ 32 -> para_ccrhash rp kBatchSize l = map (ccr_spec rp) l).
Proof.
  intros rp l F.
  assert (E : map (fun v => crhash rp (sigma_step v)) l = map (ccr_spec rp) l).
  { apply map_ext_in. intros v V. rewrite Forall_forall in F. rewrite sigma_step_spec by (apply F, V). reflexivity. }
  assert (B : (0 < kBatchSize)%nat) by (unfold kBatchSize; lia).
  split.
  - unfold para_ccrhash_inplace. rewrite <- E.
    apply (ccr_loop_map rp kBatchSize B) with (done := []).
    + unfold kBatchSize. reflexivity.
    + reflexivity.
    + lia.
  - intros L. unfold para_ccrhash. rewrite para_crhash_inplace_map by exact B. unfold sigma_span.
    rewrite sigma_num_small, firstn_all, map_map by exact L. exact E.
Qed.

(** From 2^32 blocks on, ParaCcrHash_128 returns too few hashes. *)
Theorem para_ccrhash_truncates_refuted : forall rp (l : list N), N.of_nat (length l) = 2 ^ 32 + 1 ->
  length (para_ccrhash rp kBatchSize l) = 1%nat.
Proof.
  intros rp l L. unfold para_ccrhash. rewrite para_crhash_inplace_map by (unfold kBatchSize; lia).
  unfold sigma_span. rewrite !map_length, firstn_length. unfold sigma_num. rewrite L.
  change (N.to_nat ((2 ^ 32 + 1) mod 2 ^ 32)) with 1%nat. destruct l; [discriminate|]. reflexivity.
Qed.

(** The Sigma of the batched versions is a linear orthomorphism of the blocks: it and
    x -> Sigma(x) xor x are injective, as the security of the construction requires. *)
Theorem sigma_orthomorphism :
  (forall x, x < 2 ^ 128 -> sigma_step x < 2 ^ 128)
  /\ (forall x y, x < 2 ^ 128 -> y < 2 ^ 128 -> sigma_step (N.lxor x y) = N.lxor (sigma_step x) (sigma_step y))
  /\ (forall x y, x < 2 ^ 128 -> y < 2 ^ 128 -> sigma_step x = sigma_step y -> x = y)
  /\ (forall x y, x < 2 ^ 128 -> y < 2 ^ 128 ->
        N.lxor (sigma_step x) x = N.lxor (sigma_step y) y -> x = y).
Proof.
  assert (Lin : forall x y, sigma_step (N.lxor x y) = N.lxor (sigma_step x) (sigma_step y)).
  { intros x y. rewrite !sigma_step_val, block_xor by (apply xor_lt; first [apply hi64_lt|apply lo64_lt]).
    assert (Lo : forall a b, lo64 (N.lxor a b) = N.lxor (lo64 a) (lo64 b)).
    { intros a b. unfold lo64. apply N.bits_inj. intros i. rewrite !N.land_spec, !N.lxor_spec, !N.land_spec.
      destruct (N.testbit a i), (N.testbit b i), (N.testbit (N.ones 64) i); reflexivity. }
    assert (Hi : forall a b, hi64 (N.lxor a b) = N.lxor (hi64 a) (hi64 b)).
    { intros a b. unfold hi64. rewrite N.shiftr_lxor. apply Lo. }
    rewrite Lo, Hi. f_equal. apply xor_4. }
  assert (R : forall x, sigma_step x < 2 ^ 128).
  { intros x. rewrite sigma_step_val. apply block_lt; [apply lo64_lt|apply xor_lt; [apply hi64_lt|apply lo64_lt]]. }
  (* the kernels are trivial *)
  assert (K1 : forall x, x < 2 ^ 128 -> sigma_step x = 0 -> x = 0).
  { intros x X E. rewrite sigma_step_val in E.
    assert (HL : lo64 x = 0).
    { rewrite <- (hi_block (lo64 x) (N.lxor (hi64 x) (lo64 x))); [rewrite E; reflexivity|apply lo64_lt|].
      apply xor_lt; [apply hi64_lt|apply lo64_lt]. }
    assert (HH : N.lxor (hi64 x) (lo64 x) = 0).
    { rewrite <- (lo_block (lo64 x) (N.lxor (hi64 x) (lo64 x))); [rewrite E; reflexivity|].
      apply xor_lt; [apply hi64_lt|apply lo64_lt]. }
    rewrite HL, N.lxor_0_r in HH. rewrite <- (block_eta x X), HL, HH. reflexivity. }
  assert (K2 : forall x, x < 2 ^ 128 -> N.lxor (sigma_step x) x = 0 -> x = 0).
  { intros x X E. apply N.lxor_eq in E.
    pose proof (f_equal hi64 E) as EH. pose proof (f_equal lo64 E) as EL.
    rewrite sigma_step_val in EH, EL.
    rewrite hi_block in EH by first [apply lo64_lt|apply xor_lt; [apply hi64_lt|apply lo64_lt]].
    rewrite lo_block in EL by (apply xor_lt; [apply hi64_lt|apply lo64_lt]).
    rewrite EH, N.lxor_nilpotent in EL. rewrite <- (block_eta x X), EH, <- EL. reflexivity. }
  split; [intros; apply R|]. split; [intros; apply Lin|]. split.
  - intros x y X Y E. apply N.lxor_eq, K1; [apply xor_lt; assumption|]. rewrite Lin, E. apply N.lxor_nilpotent.
  - intros x y X Y E. apply N.lxor_eq, K2; [apply xor_lt; assumption|].
    rewrite Lin, xor_4, E. apply N.lxor_nilpotent.
Qed.

(** The single-block version, CcrHash_128, is not that function: it ignores the high
    half of its input, for every permutation... *)
Theorem ccrhash_single_collides : forall rp x y, x mod 2 ^ 64 = y mod 2 ^ 64 -> ccrhash rp x = ccrhash rp y.
Proof. intros rp x y E. unfold ccrhash. rewrite !sigma1_val, !lo64_mod, E. reflexivity. Qed.
(** ... so it differs from the batched version on the block 2^64 unless the plain hash
    itself collides on 0 and 1. *)
Theorem ccrhash_single_refuted : forall rp, cr_spec rp 0 <> cr_spec rp 1 ->
  exists x, x < 2 ^ 128 /\ ccrhash rp x <> ccr_spec rp x /\ [ccrhash rp x] <> para_ccrhash rp kBatchSize [x].
Proof.
  intros rp H. exists (2 ^ 64). split; [reflexivity|].
  assert (D : ccrhash rp (2 ^ 64) <> ccr_spec rp (2 ^ 64)).
  { change (cr_spec rp 0 <> cr_spec rp 1). exact H. }
  split; [exact D|]. intros E. apply D.
  destruct (ccrhash_batched rp [2 ^ 64]) as [_ B]; [constructor; [reflexivity|constructor]|].
  rewrite (B eq_refl) in E. injection E as E. exact E.
Qed.

Example crhash_concrete :
  para_crhash_inplace (fun x => x + 3) 2 [5; 6; 7] = [13; 15; 13]
  /\ para_ccrhash_inplace (fun x => x + 3) 2 [1; 2 ^ 64; 5 * 2 ^ 64 + 5] = map (ccr_spec (fun x => x + 3)) [1; 2 ^ 64; 5 * 2 ^ 64 + 5].
Proof. vm_compute. split; reflexivity. Qed.
Example ccrhash_single_concrete : cr_spec (fun x => x + 3) 0 <> cr_spec (fun x => x + 3) 1.
Proof. vm_compute. discriminate. Qed.

Print Assumptions crhash_batched.
Print Assumptions ccrhash_batched.
Print Assumptions para_ccrhash_truncates_refuted.
Print Assumptions sigma_orthomorphism.
Print Assumptions ccrhash_single_collides.
Print Assumptions ccrhash_single_refuted.
