(** Properties C84 and C87: the OT kernel and the mock stores. *)
From Coq Require Import List NArith ZArith Bool Arith Lia.
From Verif Require Import TransModel SpcotModel OtExtModel OtExtProps LinCodeModel SoftModel SoftProof SoftProof2 SoftProps SoftProps2 FerretModel FerretProof FerretProof2 FerretProps KernelModel KernelProof.
Import ListNotations.
Open Scope nat_scope.

(** ** Specification *)
(** n correlated OTs under delta, as the accessors of the two stores show them: the choice,
    the two messages, and the message received. *)
Definition is_cot (delta : N) (n : nat) (s : send_store) (r : recv_store) : Prop :=
  ss_size s = n /\ rs_size r = n /\ ss_normal s = false /\ rs_normal r = false /\
  forall i, i < n -> exists m0 b,
    send_get s i 0 = Val m0 /\ send_get s i 1 = Val (N.lxor m0 delta) /\ recv_bit r i = Val b /\
    recv_get r i = Val (if b : bool then N.lxor m0 delta else m0).
(** n OTs whose messages are the hashes of the messages of correlated OTs. *)
Definition is_rot (crh : N -> N) (delta : N) (n : nat) (s : send_store) (r : recv_store) : Prop :=
  ss_size s = n /\ rs_size r = n /\ ss_normal s = true /\ rs_normal r = true /\
  forall i, i < n -> exists x b,
    send_get s i 0 = Val (crh x) /\ send_get s i 1 = Val (crh (N.lxor x delta)) /\ recv_bit r i = Val b /\
    recv_get r i = Val (if b : bool then crh (N.lxor x delta) else crh x).
(** The stores a caller may hand in: of the right size and type, not sliced; for random OTs
    without a delta. *)
Definition fits (rot : bool) (n : nat) (os : send_store) (orr : recv_store) : Prop :=
  ss_normal os = rot /\ rs_normal orr = rot /\ ss_sliced os = false /\ rs_sliced orr = false /\
  length (ss_blk os) = (if rot then 2 * n else n) /\ length (rs_blk orr) = n /\ (rot = true -> ss_delta os = 0%N).
(** The numbers of OTs a kernel can be asked for: less than 2^32 random OTs; Ferret needs at
    least 2 t. *)
Definition in_range (a : alg) (t : nat) (rot : bool) (n : nat) : Prop :=
  (rot = true -> (N.of_nat n < 2 ^ 32)%N) /\ (a = Ferret -> 0 < t /\ 2 * t <= n /\ (N.of_nat n < 2 ^ 63)%N).
Definition valid (a : alg) (t : nat) (q : request) : Prop :=
  let '(rot, n, os, orr, _) := q in fits rot n os orr /\ in_range a t rot n.
(** What a request must deliver; SoftSpoken's choices are those drawn. *)
Definition served (crh : N -> N) (delta : N) (a : alg) (q : request) (out : send_store * recv_store) : Prop :=
  let '(rot, n, _, _, d) := q in
  (if rot : bool then is_rot crh delta n (fst out) (snd out) else is_cot delta n (fst out) (snd out)) /\
  (a = SoftSpoken -> forall i, i < n -> recv_bit (snd out) i = Val (d_bits d i)).

Section Kernel.
Variables (crh e0 e1 digest : N -> N) (digest_all : list N -> N) (tr : list Z -> list Z) (prg64 : N -> nat -> list N) (ccr : N -> N).
Variables (n0 k0 t0 : nat).
Hypothesis HC : is_hash crh.
Hypothesis HP : is_prg64 prg64.
Hypothesis HT : platform_transpose tr.
Hypothesis HS : supported false n0 k0 t0.
Let lp := params n0 k0 t0.
Variables (delta : N).
Hypothesis HD : block delta.
Hypothesis HO : N.odd delta = true.
Lemma delta0 : delta <> 0%N.
Proof using HO. clear - HO. intros E. rewrite E in HO. discriminate. Qed.

Lemma soft_cot_ok so ro n d : linked 2 delta so ro ->
  exists so' ro' sent got, soft_cot crh tr prg64 so ro n d = Val (so', ro', sent, got) /\ linked 2 delta so' ro' /\
    length sent = n /\ length got = n /\ Forall2 (paired delta) sent got /\ forall i, i < n -> N.odd (nth i got 0%N) = d_bits d i.
Proof using HC HP HT HD HO.
  intros LK.
  destruct (call_out crh tr prg64 2 0 false true delta so ro HC HP HT ltac:(lia) HD) with (choices := map (d_bits d) (seq 0 n)) (rnd := d_ext d) (seed := d_seed d) (cot := true)
    as (so' & ro' & sent & got & E & LK' & _ & _ & L1 & L2 & H); [intros _; rewrite <- N.bit0_odd in HO; exact HO|exact LK|].
  rewrite map_length, seq_length in L1, L2, H.
  unfold soft_cot. rewrite E. pose proof (lk_delta _ _ _ _ LK) as Ld. rewrite Ld, (proj2 (N.eqb_neq _ _) delta0).
  exists so', ro', (map fst sent), got. split; [reflexivity|]. split; [exact LK'|]. split; [rewrite map_length; auto|]. split; auto.
  assert (K : forall i, i < n -> paired delta (nth i (map fst sent) 0%N) (nth i got 0%N) /\ N.odd (nth i got 0%N) = d_bits d i).
  { intros i Hi. destruct (H i Hi) as (w & Hg & Hs & Hc & Hw). rewrite SpcotProof.nth_map_seq in Hs, Hc by auto. specialize (Hc eq_refl).
    rewrite (nth_map0 _ _ _ (0, 0)%N) by lia. rewrite Hg, Hs. cbn zeta. cbn [fst fin]. rewrite N.bit0_odd in Hc. split; [|exact Hc].
    unfold paired. rewrite Hc. split.
    - destruct (d_bits d i); [|rewrite N.lxor_0_r; exact Hw]. unfold block in *.
      destruct (N.eq_dec (N.lxor w delta) 0) as [Z|Z]; [rewrite Z; reflexivity|].
      apply N.log2_lt_pow2; [lia|]. eapply N.le_lt_trans; [apply N.log2_lxor|].
      assert (P : forall x, (x < 2 ^ 128)%N -> (N.log2 x < 128)%N).
      { intros x Hx. destruct (N.eq_dec x 0) as [->|Nx]; [reflexivity|]. apply N.log2_lt_pow2; [lia|exact Hx]. }
      apply N.max_lub_lt; apply P; assumption.
    - rewrite <- N.bit0_odd, N.lxor_spec, !N.bit0_odd, Hc. split.
      + destruct (d_bits d i); [rewrite HO|]; reflexivity.
      + rewrite N.lxor_assoc, N.lxor_nilpotent, N.lxor_0_r. reflexivity. }
  split; [|intros i Hi; apply K; auto].
  apply (nth_Forall2 _ 0%N 0%N); [rewrite map_length; lia|]. rewrite map_length. intros i Hi. apply K. lia.
Qed.

(** What holds between evaluations. *)
Inductive ready : alg -> kernel -> Prop :=
| ready_soft so ro c : linked 2 delta so ro -> ready SoftSpoken (mkKernel SoftSpoken true (Some (so, ro)) c)
| ready_ferret bs br s : Forall2 (paired delta) bs br -> length bs = k0 + mpcots false n0 t0 -> ready Ferret (mkKernel Ferret true s (Some (delta, bs, br))).

Lemma paired_cot n bs br sl sl' bb : length bs = n -> Forall2 (paired delta) bs br -> is_cot delta n (mkSend false sl delta bs) (mkRecv false sl' bb br).
Proof using HO.
  intros L P. pose proof (Forall2_len _ _ _ P) as L2. unfold is_cot, ss_size, rs_size. cbn [ss_normal ss_blk rs_blk rs_normal].
  split; auto. split; [lia|]. split; auto. split; auto. intros i Hi. exists (nth i bs 0%N), (N.odd (nth i br 0%N)).
  rewrite !send_get_compact by (cbn [ss_normal ss_delta ss_blk]; auto using delta0; lia). cbn [ss_blk ss_delta Nat.eqb]. rewrite N.lxor_0_r.
  rewrite recv_bit_compact, recv_get_val by (auto; unfold rs_size; cbn [rs_blk]; lia). cbn [rs_blk]. repeat (split; [reflexivity|]).
  destruct (Forall2_nth _ _ _ 0%N 0%N P i ltac:(lia)) as (_ & _ & E). rewrite E at 1. destruct (N.odd (nth i br 0%N)); [reflexivity|rewrite N.lxor_0_r; reflexivity].
Qed.

Lemma eval_cot_ok a k n os orr d : ready a k -> fits false n os orr -> in_range a t0 false n ->
  exists k' s r, eval_cot crh digest tr prg64 ccr lp k n os orr d = Val (k', s, r) /\ ready a k' /\ is_cot delta n s r /\
    ss_delta s = delta /\ (a = SoftSpoken -> forall i, i < n -> recv_bit r i = Val (d_bits d i)).
Proof using HC HP HT HS HD HO.
  intros R (F1 & F2 & F3 & F4 & F5 & F6 & _) (_ & G). unfold eval_cot. rewrite F1, F2, F3, F4. unfold ss_size, rs_size. rewrite F1, F5, F6, Nat.eqb_refl.
  destruct R as [so ro c LK|bs br s P L]; cbn [k_inited k_alg k_soft k_cache negb orb].
  - destruct (soft_cot_ok so ro n d LK) as (so' & ro' & sent & got & E & LK' & L1 & L2 & P & H). rewrite E. cbn [bind].
    pose proof (lk_delta _ _ _ _ LK) as Ld. rewrite Ld. eexists _, _, _. split; [reflexivity|]. split; [constructor; exact LK'|]. split; [apply paired_cot; auto|].
    split; [reflexivity|]. intros _ i Hi. rewrite recv_bit_compact by (auto; unfold rs_size; cbn [rs_blk]; lia). cbn [rs_blk]. rewrite H by auto. reflexivity.
  - rewrite (proj2 (N.eqb_neq _ _) delta0). destruct (G eq_refl) as (T & T2 & T3). pose proof (Forall2_len _ _ _ P) as L2.
    destruct (ferret_correct ccr digest delta (d_rp d) (d_tape d) (fun _ => 0%N) false false n0 k0 t0 n (new_store bs) (new_store br)
      (map (d_junk d) (seq 0 n)) (map (d_junk' d) (seq 0 n)) HD HO) as (x & y & q & E & Lx & Px & _); cbn [s_buf s_len new_store]; auto; try lia;
      rewrite ?map_length, ?seq_length; auto; try discriminate.
    unfold lp. rewrite E. cbn [bind fst snd]. eexists _, _, _. split; [reflexivity|]. split; [constructor; auto|]. split; [apply paired_cot; auto|].
    split; [reflexivity|]. discriminate.
Qed.

Lemma eval_rot_ok a k n os orr d : ready a k -> fits true n os orr -> in_range a t0 true n ->
  exists k' s r, eval_rot crh digest tr prg64 ccr lp k n os orr d = Val (k', s, r) /\ ready a k' /\ is_rot crh delta n s r /\
    (a = SoftSpoken -> forall i, i < n -> recv_bit r i = Val (d_bits d i)).
Proof using HC HP HT HS HD HO.
  intros R (F1 & F2 & F3 & F4 & F5 & F6 & F7) G. unfold eval_rot. unfold ss_size, rs_size. rewrite F1, F2, F3, F4, F5, F6. rewrite (Nat.mul_comm 2), Nat.div_mul by lia.
  rewrite Nat.eqb_refl. cbn [negb orb]. pose proof G as [G1 G2]. specialize (G1 eq_refl).
  destruct (eval_cot_ok a k n (mkSend false false 0 (repeat 0%N n)) (mkRecv false false [] (repeat 0%N n)) d R) as (k' & cs & cr & E & R' & (C1 & C2 & C3 & C4 & C5) & D & B).
  { unfold fits. cbn [ss_normal ss_sliced ss_blk ss_delta rs_normal rs_sliced rs_blk]. rewrite !repeat_length. repeat (split; auto). }
  { split; [discriminate|exact G2]. }
  rewrite E. cbn [bind]. unfold ss_size in C1. rewrite C3 in C1. unfold rs_size in C2.
  destruct (cot2rot_send_spec crh cs os C3 ltac:(rewrite D; apply delta0) F1 ltac:(lia)) as (blk & E1 & L1 & H1). rewrite E1. cbn [bind].
  destruct (cot2rot_recv_spec crh cr orr C4 F2 ltac:(lia)) as (bl & E2 & L2 & H2). rewrite E2. cbn [bind].
  eexists _, _, _. split; [reflexivity|]. split; [exact R'|]. rewrite C1 in L1, H1. rewrite C2 in L2, H2. rewrite u32_id in H1, H2 by exact G1.
  assert (RB : forall i, i < n -> recv_bit (mkRecv true (rs_sliced orr) (map N.odd (rs_blk cr)) bl) i = recv_bit cr i).
  { intros i Hi. rewrite recv_bit_normal by (unfold rs_size; cbn [rs_normal rs_blk rs_bits]; rewrite ?map_length; auto; lia). cbn [rs_bits].
    rewrite recv_bit_compact by (auto; unfold rs_size; lia). rewrite (nth_map0 _ _ _ 0%N) by lia. reflexivity. }
  split; [|intros A i Hi; rewrite RB by auto; apply B; auto].
  unfold is_rot, ss_size, rs_size. cbn [ss_normal ss_blk rs_blk rs_normal]. rewrite L1, (Nat.mul_comm 2), Nat.div_mul by lia. repeat (split; [auto; fail|]).
  intros i Hi. destruct (C5 i Hi) as (m0 & b & S0 & S1 & Rb & Rg).
  rewrite send_get_compact in S0 by (auto; rewrite ?D, ?C1; auto using delta0). cbn [Nat.eqb] in S0. rewrite N.lxor_0_r in S0. injection S0 as S0.
  rewrite recv_get_val in Rg by (unfold rs_size; lia). injection Rg as Rg.
  exists m0, b. rewrite !send_get_normal by (cbn [ss_normal ss_delta ss_blk]; auto; lia). cbn [ss_blk]. rewrite !H1 by lia. rewrite (proj2 (Nat.ltb_lt i n) Hi). cbn [Nat.eqb].
  rewrite S0, D, N.lxor_0_r. split; [reflexivity|]. split; [reflexivity|]. rewrite RB by auto. split; [exact Rb|].
  rewrite recv_get_val by (unfold rs_size; cbn [rs_blk]; lia). cbn [rs_blk]. rewrite H2 by auto. rewrite (proj2 (Nat.ltb_lt i n) Hi), Rg. destruct b; reflexivity.
Qed.

Lemma requests_ok a rs : forall k, ready a k -> Forall (valid a t0) rs ->
  exists outs, run_requests crh digest tr prg64 ccr lp k rs = Val outs /\ Forall2 (served crh delta a) rs outs.
Proof using HC HP HT HS HD HO.
  induction rs as [|[[[[rot n] os] orr] d] rs IH]; intros k R V; [exists []; split; [reflexivity|constructor]|].
  inversion V as [|q l Hv V']; subst q l. cbn [valid] in Hv. destruct Hv as [Hf Hr]. cbn [run_requests]. destruct rot.
  - destruct (eval_rot_ok a k n os orr d R Hf Hr) as (k' & s & r & E & R' & S & B). rewrite E. cbn [bind].
    destruct (IH k' R' V') as (outs & E2 & S2). rewrite E2. cbn [bind]. eexists. split; [reflexivity|]. constructor; [|exact S2]. split; [exact S|exact B].
  - destruct (eval_cot_ok a k n os orr d R Hf Hr) as (k' & s & r & E & R' & S & _ & B). rewrite E. cbn [bind].
    destruct (IH k' R' V') as (outs & E2 & S2). rewrite E2. cbn [bind]. eexists. split; [reflexivity|]. constructor; [|exact S2]. split; [exact S|exact B].
Qed.
End Kernel.

(** C84: after init, every history of requests is served, all under one delta made of the base
    choices. *)
Theorem ot_kernel_correct crh e0 e1 digest digest_all tr prg64 ccr n0 k0 t0 a base bits blks seeds junk junk' d0 rs :
  is_hash crh -> is_prg64 prg64 -> platform_transpose tr -> supported false n0 k0 t0 -> base_rots base bits blks ->
  Forall (valid a t0) rs ->
  exists delta outs,
    run_kernel crh e0 e1 digest digest_all tr prg64 ccr (params n0 k0 t0) a base bits blks seeds junk junk' d0 rs = Val outs /\
    is_secret true bits delta /\ Forall2 (served crh delta a) rs outs.
Proof.
  intros HC HP HT HS HB HV. unfold run_kernel, init, soft_init. cbn [k_alg new_kernel k_cache k_soft].
  destruct (setup_runs e0 e1 digest digest_all crh 2 false true base bits blks seeds junk junk' ltac:(lia) HB) as (ro & parts & so & E1 & E2 & LK & _).
  rewrite E1, E2. pose proof (secret_ok 2 true base bits blks ltac:(lia) HB) as SEC. set (delta := bits_word (base_bits true bits)) in *.
  assert (HO : N.odd delta = true).
  { destruct SEC as [_ S]. specialize (S 0 ltac:(lia)). cbn [N.of_nat] in S. rewrite <- N.bit0_odd. rewrite S. reflexivity. }
  pose proof (proj1 SEC) as HD. exists delta. destruct a; cbn [bind].
  - destruct (ferret_helper false n0 k0 t0 HS) as [_ Eh]. rewrite Eh. cbn [bind fst snd]. rewrite Nat2N.id.
    destruct (soft_cot_ok crh tr prg64 HC HP HT delta HD HO so ro (k0 + mpcots false n0 t0) d0 LK) as (so' & ro' & sent & got & E & _ & L1 & L2 & P & _).
    rewrite E. cbn [bind]. pose proof (lk_delta _ _ _ _ LK) as Ld. rewrite Ld.
    destruct (requests_ok crh digest tr prg64 ccr n0 k0 t0 HC HP HT HS delta HD HO Ferret rs _ (ready_ferret n0 k0 t0 delta sent got None P L1) HV) as (outs & Er & S).
    exists outs. auto.
  - destruct (requests_ok crh digest tr prg64 ccr n0 k0 t0 HC HP HT HS delta HD HO SoftSpoken rs _ (ready_soft n0 k0 t0 delta so ro None LK) HV) as (outs & Er & S).
    exists outs. auto.
Qed.
Print Assumptions ot_kernel_correct.

(** The default parameters are supported; [t] is 1280 there. *)
Theorem ot_kernel_default : supported false (N.to_nat 10485760) (N.to_nat 452000) (N.to_nat 1280).
Proof. exact (proj1 (ferret_default false)). Qed.

(** The default algorithm refuses fewer than 2 t OTs (2560). *)
Theorem ot_kernel_small_refuted crh e0 e1 digest digest_all tr prg64 ccr n0 k0 t0 base bits blks seeds junk junk' d0 rot n os orr d :
  is_hash crh -> is_prg64 prg64 -> platform_transpose tr -> supported false n0 k0 t0 -> base_rots base bits blks ->
  fits rot n os orr -> n < 2 * t0 ->
  run_kernel crh e0 e1 digest digest_all tr prg64 ccr (params n0 k0 t0) Ferret base bits blks seeds junk junk' d0 [(rot, n, os, orr, d)] = Thrown.
Proof.
  intros HC HP HT HS HB HF Hn. unfold run_kernel, init, soft_init. cbn [k_alg new_kernel k_cache k_soft].
  destruct (setup_runs e0 e1 digest digest_all crh 2 false true base bits blks seeds junk junk' ltac:(lia) HB) as (ro & parts & so & E1 & E2 & LK & _).
  rewrite E1, E2. pose proof (secret_ok 2 true base bits blks ltac:(lia) HB) as SEC. set (delta := bits_word (base_bits true bits)) in *.
  assert (HO : N.odd delta = true).
  { destruct SEC as [_ S]. specialize (S 0 ltac:(lia)). cbn [N.of_nat] in S. rewrite <- N.bit0_odd. rewrite S. reflexivity. }
  pose proof (proj1 SEC) as HD. cbn [bind].
  destruct (ferret_helper false n0 k0 t0 HS) as [_ Eh]. rewrite Eh. cbn [bind fst snd]. rewrite Nat2N.id.
  destruct (soft_cot_ok crh tr prg64 HC HP HT delta HD HO so ro (k0 + mpcots false n0 t0) d0 LK) as (so' & ro' & sent & got & E & _ & L1 & L2 & P & _).
  rewrite E. cbn [bind]. pose proof (lk_delta _ _ _ _ LK) as Ld. rewrite Ld.
  assert (T : forall s r, fits false n s r -> eval_cot crh digest tr prg64 ccr (params n0 k0 t0) (mkKernel Ferret true None (Some (delta, sent, got))) n s r d = Thrown).
  { intros s r (F1 & F2 & F3 & F4 & F5 & F6 & _). unfold eval_cot. rewrite F1, F2, F3, F4. unfold ss_size, rs_size. rewrite F1, F5, F6, Nat.eqb_refl.
    cbn [k_inited k_alg k_soft k_cache negb orb]. rewrite (proj2 (N.eqb_neq delta 0)) by (intros Q; rewrite Q in HO; discriminate).
    unfold ferret. rewrite Eh. cbn [bind params lt]. destruct (_ || _)%bool; [reflexivity|]. cbn [negb andb].
    assert (Hw : (N.of_nat n <? w64 (2 * N.of_nat t0) = true)%N); [|rewrite Hw; reflexivity].
    destruct HS as (S1 & S2 & S3 & _ & _ & S4 & _). assert (t0 <= n0) by nia.
    assert (Q : (N.of_nat n0 < 2 ^ 32)%N) by (eapply N.le_lt_trans; [exact S4|reflexivity]).
    rewrite w64_small; [apply N.ltb_lt; lia|]. apply N.lt_trans with (2 * 2 ^ 32)%N; [|reflexivity]. lia. }
  cbn [run_requests]. destruct rot.
  - pose proof HF as (F1 & F2 & F3 & F4 & F5 & F6 & F7). unfold eval_rot, ss_size, rs_size. rewrite F1, F2, F3, F4, F5, F6. rewrite (Nat.mul_comm 2), Nat.div_mul by lia.
    rewrite Nat.eqb_refl. cbn [negb orb]. rewrite T; [reflexivity|]. unfold fits. cbn [ss_normal ss_sliced ss_blk ss_delta rs_normal rs_sliced rs_blk].
    rewrite !repeat_length. repeat (split; auto).
  - rewrite T; [reflexivity|]. exact HF.
Qed.
Print Assumptions ot_kernel_small_refuted.

(** With 2^32 OTs or more the conversion stops at the size modulo 2^32: the messages after
    that are what the caller's store held. *)
Theorem ot_kernel_narrow_refuted crh cot rot i m :
  ss_normal cot = false -> ss_delta cot <> 0%N -> ss_normal rot = true -> ss_delta rot = 0%N -> length (ss_blk rot) = 2 * length (ss_blk cot) ->
  (2 ^ 32 <= N.of_nat (length (ss_blk cot)))%N -> (N.of_nat (length (ss_blk cot)) mod 2 ^ 32 <= N.of_nat i)%N -> i < length (ss_blk cot) -> m < 2 ->
  exists s, cot2rot_send crh cot rot = Val s /\ send_get s i m = send_get rot i m.
Proof.
  intros H1 H2 H3 H4 H5 _ Hi Hl Hm. destruct (cot2rot_send_spec crh cot rot H1 H2 H3 H5) as (blk & E & L & H). eexists. split; [exact E|].
  rewrite !send_get_normal by (auto; cbn [ss_blk]; lia). cbn [ss_blk]. rewrite H by auto.
  rewrite (proj2 (Nat.ltb_ge i _)); [reflexivity|]. unfold u32_size. revert Hi. generalize (N.of_nat (length (ss_blk cot)) mod 2 ^ 32)%N. intros x Hx. lia.
Qed.
Print Assumptions ot_kernel_narrow_refuted.
(** A store in normal mode that has a delta: the second message is not the hash. *)
Theorem ot_kernel_delta_refuted crh cot rot i :
  ss_normal cot = false -> ss_delta cot <> 0%N -> ss_normal rot = true -> ss_delta rot <> 0%N -> length (ss_blk rot) = 2 * length (ss_blk cot) ->
  (N.of_nat (length (ss_blk cot)) < 2 ^ 32)%N -> i < length (ss_blk cot) ->
  exists s x, cot2rot_send crh cot rot = Val s /\ send_get cot i 0 = Val x /\ send_get s i 0 = Val (crh x) /\
    send_get s i 1 = Val (N.lxor (crh x) (ss_delta rot)).
Proof.
  intros H1 H2 H3 H4 H5 H6 Hi. destruct (cot2rot_send_spec crh cot rot H1 H2 H3 H5) as (blk & E & L & H). eexists _, _. split; [exact E|].
  rewrite send_get_compact by auto. cbn [Nat.eqb]. rewrite N.lxor_0_r. split; [reflexivity|].
  unfold send_get. cbn [ss_delta ss_blk ss_normal Nat.ltb Nat.leb negb Nat.eqb]. rewrite (proj2 (N.eqb_neq _ _) H4). rewrite (at_idx_val0 _ _ 0%N) by lia.
  cbn [bind]. rewrite N.lxor_0_r. specialize (H i 0 Hi ltac:(lia)). rewrite Nat.add_0_r in H. rewrite H, (u32_id _ H6), (proj2 (Nat.ltb_lt _ _) Hi).
  cbn [Nat.eqb]. rewrite N.lxor_0_r. split; reflexivity.
Qed.
Print Assumptions ot_kernel_delta_refuted.
(** Ferret evaluates from the same base COTs every time: whenever the seed of the code (which
    the sender draws) is the same in two evaluations, the receiver's choices are the same,
    whatever else is drawn. *)
Theorem ot_kernel_reuse_refuted crh digest tr prg64 ccr n0 k0 t0 delta bs br n os orr os' orr' d d' :
  supported false n0 k0 t0 -> block delta -> N.odd delta = true -> Forall2 (paired delta) bs br -> length bs = k0 + mpcots false n0 t0 ->
  fits false n os orr -> fits false n os' orr' -> in_range Ferret t0 false n -> d_rp d' = d_rp d ->
  let k := mkKernel Ferret true None (Some (delta, bs, br)) in
  exists s r s' r', eval_cot crh digest tr prg64 ccr (params n0 k0 t0) k n os orr d = Val (k, s, r) /\
    eval_cot crh digest tr prg64 ccr (params n0 k0 t0) k n os' orr' d' = Val (k, s', r') /\
    forall i, i < n -> recv_bit r i = recv_bit r' i.
Proof.
  intros HS HD HO P L (F1 & F2 & F3 & F4 & F5 & F6 & _) (F1' & F2' & F3' & F4' & F5' & F6' & _) (_ & G) Er k.
  destruct (G eq_refl) as (T & T2 & T3). pose proof (Forall2_len _ _ _ P) as L2.
  destruct (ferret_choices ccr ccr digest digest delta delta (d_rp d) (d_tape d) (d_tape d') (fun _ => 0%N) (fun _ => 0%N) false false n0 k0 t0 n
    (new_store bs) (new_store bs) (new_store br) (new_store br) (map (d_junk d) (seq 0 n)) (map (d_junk' d) (seq 0 n)) (map (d_junk d') (seq 0 n)) (map (d_junk' d') (seq 0 n)))
    as (a & b & a' & b' & E & E' & O); cbn [s_buf s_len new_store]; rewrite ?map_length, ?seq_length; auto; try lia; try discriminate; try (intros i; reflexivity).
  destruct (ferret_correct ccr digest delta (d_rp d) (d_tape d) (fun _ => 0%N) false false n0 k0 t0 n (new_store bs) (new_store br)
      (map (d_junk d) (seq 0 n)) (map (d_junk' d) (seq 0 n)) HD HO) as (x & y & q & Ex & Lx & Px & _); cbn [s_buf s_len new_store]; auto; try lia;
      rewrite ?map_length, ?seq_length; auto; try discriminate.
  rewrite Ex in E. injection E as <- <-. pose proof (Forall2_len _ _ _ Px) as Ly.
  assert (Lb : length b' = n). { apply (f_equal (@length bool)) in O. rewrite !map_length in O. lia. }
  unfold eval_cot. rewrite F1, F2, F3, F4, F1', F2', F3', F4'. unfold ss_size, rs_size. rewrite F1, F1', F5, F6, F5', F6', Nat.eqb_refl.
  cbn [k k_inited k_alg k_soft k_cache negb orb]. rewrite (proj2 (N.eqb_neq delta 0)) by (intros Q; rewrite Q in HO; discriminate).
  rewrite Er, Ex, E'. cbn [bind fst snd]. eexists _, _, _, _. split; [reflexivity|]. split; [reflexivity|].
  intros i Hi. rewrite !recv_bit_compact by (auto; unfold rs_size; cbn [rs_blk make_compact_recv]; lia). cbn [rs_blk make_compact_recv]. f_equal. apply odd_nth. exact O.
Qed.
Print Assumptions ot_kernel_reuse_refuted.

(** C84, chosen messages: from random OTs, the receiver gets the chosen message of every pair. *)
Theorem ot_kernel_chosen crh delta n s r pairs choices out :
  is_rot crh delta n s r -> ss_delta s = 0%N -> length (ss_blk s) = 2 * n -> length (rs_bits r) = n ->
  length pairs = n -> length choices = n -> length out = n -> (N.of_nat n < 2 ^ 32)%N ->
  exists got, rot2ot s r pairs choices out = Val got /\ length got = n /\
    forall i, i < n -> nth i got 0%N = (if nth i choices false then snd else fst) (nth i pairs (0, 0)%N).
Proof.
  intros (S1 & S2 & S3 & S4 & H) D L Lb Lp Lc Lo Hn. apply rot2ot_spec; auto. intros i Hi.
  destruct (H i Hi) as (x & b & G0 & G1 & Rb & Rg).
  rewrite send_get_normal in G0, G1 by (auto; lia). rewrite recv_bit_normal in Rb by (auto; lia). rewrite recv_get_val in Rg by lia.
  injection G0 as G0. injection G1 as G1. injection Rb as Rb. injection Rg as Rg. rewrite Rg, Rb. destruct b; auto.
Qed.
Print Assumptions ot_kernel_chosen.

(** C84, refusals: a kernel that was not initialised serves no request, whatever it holds, nor
    does any kernel fill stores of the wrong size, kind or stride. *)
Theorem ot_kernel_refuses crh digest tr prg64 ccr lp k n os orr d :
  (k_inited k = false -> eval_cot crh digest tr prg64 ccr lp k n os orr d = Thrown /\ eval_rot crh digest tr prg64 ccr lp k n os orr d = Thrown) /\
  (ss_size os <> n \/ rs_size orr <> n \/ ss_sliced os = true \/ rs_sliced orr = true \/ ss_normal os = true \/ rs_normal orr = true -> eval_cot crh digest tr prg64 ccr lp k n os orr d = Thrown) /\
  (ss_size os <> n \/ rs_size orr <> n \/ ss_sliced os = true \/ rs_sliced orr = true \/ ss_normal os = false \/ rs_normal orr = false -> eval_rot crh digest tr prg64 ccr lp k n os orr d = Thrown).
Proof.
  assert (A : k_inited k = false -> forall n s r, eval_cot crh digest tr prg64 ccr lp k n s r d = Thrown).
  { intros U m s r. unfold eval_cot. rewrite U. cbn [negb]. rewrite orb_true_r. reflexivity. }
  split; [|split].
  - intros U. split; [apply A; exact U|]. unfold eval_rot. rewrite A by exact U.
    destruct (negb (n =? ss_size os) || ss_sliced os || negb (ss_normal os)); [reflexivity|]. destruct (negb (n =? rs_size orr) || rs_sliced orr || negb (rs_normal orr)); reflexivity.
  - intros C. unfold eval_cot. destruct (Nat.eqb_spec n (ss_size os)) as [E1|]; [|reflexivity]. destruct (Nat.eqb_spec n (rs_size orr)) as [E2|];
      [|destruct (ss_sliced os), (k_inited k), (ss_normal os); reflexivity].
    destruct (ss_sliced os), (rs_sliced orr), (ss_normal os), (rs_normal orr), (k_inited k); cbn [negb orb]; try reflexivity; exfalso; intuition congruence.
  - intros C. unfold eval_rot. destruct (Nat.eqb_spec n (ss_size os)) as [E1|]; [|reflexivity]. destruct (Nat.eqb_spec n (rs_size orr)) as [E2|];
      [|destruct (ss_sliced os), (ss_normal os); reflexivity].
    destruct (ss_sliced os), (rs_sliced orr), (ss_normal os), (rs_normal orr); cbn [negb orb]; try reflexivity; exfalso; intuition congruence.
Qed.
Print Assumptions ot_kernel_refuses.

(** ** C87: the mock stores *)
(** OTs with the given choices. *)
Definition are_ots (choice : nat -> bool) (n : nat) (s : send_store) (r : recv_store) : Prop :=
  ss_size s = n /\ rs_size r = n /\
  forall i, i < n -> exists m0 m1, send_get s i 0 = Val m0 /\ send_get s i 1 = Val m1 /\ recv_bit r i = Val (choice i) /\
    recv_get r i = Val (if choice i then m1 else m0).
Lemma pairs_flat (l : list (N * N)) : length (flat_map (fun p => [fst p; snd p]) l) = 2 * length l /\
  forall i, i < length l -> nth (2 * i) (flat_map (fun p => [fst p; snd p]) l) 0%N = fst (nth i l (0, 0)%N) /\
    nth (2 * i + 1) (flat_map (fun p => [fst p; snd p]) l) 0%N = snd (nth i l (0, 0)%N).
Proof.
  induction l as [|p l [IH1 IH2]]; [split; [reflexivity|]; intros i Hi; cbn in Hi; lia|]. cbn [flat_map app length]. split; [lia|].
  intros [|i] Hi; [split; reflexivity|]. replace (2 * S i) with (S (S (2 * i))) by lia. replace (S (S (2 * i)) + 1) with (S (S (2 * i + 1))) by lia.
  cbn [nth]. apply IH2. lia.
Qed.
Theorem mock_rots_correct num choices gen : length choices = num ->
  exists s r, mock_rots num choices gen = Val (s, r) /\ are_ots (fun i => nth i choices false) num s r /\
    forall i, i < num -> send_get s i 0 = Val (gen (2 * i)) /\ send_get s i 1 = Val (gen (2 * i + 1)).
Proof.
  intros L. unfold mock_rots. rewrite L, Nat.eqb_refl. cbn [negb]. eexists _, _. split; [reflexivity|].
  set (pairs := map _ (seq 0 num)). destruct (pairs_flat pairs) as [L1 H]. assert (Lp : length pairs = num) by (unfold pairs; rewrite map_length, seq_length; auto).
  assert (K : forall i, i < num -> send_get (make_send pairs) i 0 = Val (gen (2 * i)) /\ send_get (make_send pairs) i 1 = Val (gen (2 * i + 1))).
  { intros i Hi. destruct (H i ltac:(lia)) as [A B]. rewrite !send_get_normal by (auto; unfold make_send; cbn [ss_blk]; lia). unfold make_send. cbn [ss_blk].
    rewrite Nat.add_0_r, A, B. unfold pairs. rewrite SpcotProof.nth_map_seq by auto. split; reflexivity. }
  split; [|exact K]. unfold are_ots. split.
  { unfold ss_size, make_send. cbn [ss_normal ss_blk]. rewrite L1, (Nat.mul_comm 2), Nat.div_mul, Lp by lia. reflexivity. }
  unfold make_recv, rs_size. cbn [rs_blk]. split; [rewrite map_length, seq_length; auto|]. intros i Hi. destruct (K i Hi) as [A B].
  eexists _, _. split; [exact A|]. split; [exact B|]. rewrite recv_bit_normal by (unfold rs_size; cbn [rs_blk rs_bits rs_normal]; rewrite ?map_length, ?seq_length; auto; lia).
  split; [reflexivity|]. rewrite recv_get_val by (unfold rs_size; cbn [rs_blk]; rewrite map_length, seq_length; auto). cbn [rs_blk].
  rewrite SpcotProof.nth_map_seq by auto. reflexivity.
Qed.
Theorem mock_cots_correct num delta choices gen : length choices = num -> delta <> 0%N ->
  exists s r, mock_cots num delta choices gen = Val (s, r) /\ are_ots (fun i => nth i choices false) num s r /\
    forall i, i < num -> send_get s i 0 = Val (gen i) /\ send_get s i 1 = Val (N.lxor (gen i) delta).
Proof.
  intros L D. unfold mock_cots. rewrite L, Nat.eqb_refl. cbn [negb]. eexists _, _. split; [reflexivity|].
  assert (K : forall i, i < num -> send_get (make_compact_send (map gen (seq 0 num)) delta) i 0 = Val (gen i) /\
    send_get (make_compact_send (map gen (seq 0 num)) delta) i 1 = Val (N.lxor (gen i) delta)).
  { intros i Hi. rewrite !send_get_compact by (auto; unfold make_compact_send; cbn [ss_blk]; rewrite map_length, seq_length; lia).
    unfold make_compact_send. cbn [ss_blk ss_delta Nat.eqb]. rewrite SpcotProof.nth_map_seq, N.lxor_0_r by auto. split; reflexivity. }
  split; [|exact K]. unfold are_ots. split; [unfold ss_size, make_compact_send; cbn [ss_normal ss_blk]; rewrite map_length, seq_length; reflexivity|].
  unfold make_recv, rs_size. cbn [rs_blk]. split; [rewrite map_length, seq_length; auto|]. intros i Hi. destruct (K i Hi) as [A B].
  eexists _, _. split; [exact A|]. split; [exact B|]. rewrite recv_bit_normal by (unfold rs_size; cbn [rs_blk rs_bits rs_normal]; rewrite ?map_length, ?seq_length; auto; lia).
  split; [reflexivity|]. rewrite recv_get_val by (unfold rs_size; cbn [rs_blk]; rewrite map_length, seq_length; auto). cbn [rs_blk].
  rewrite SpcotProof.nth_map_seq by auto. destruct (nth i choices false); reflexivity.
Qed.
Theorem mock_compact_correct num rand gen : (rand < 2 ^ 128)%N ->
  let '(s, r) := mock_compact num rand gen in
  are_ots (fun i => N.odd (gen i)) num s r /\ N.odd (ss_delta s) = true /\
  forall i, i < num -> recv_get r i = Val (gen i) /\ exists m0, send_get s i 0 = Val m0 /\ send_get s i 1 = Val (N.lxor m0 (ss_delta s)) /\ N.odd m0 = false.
Proof.
  intros _. unfold mock_compact. set (delta := N.lor rand 1). set (s := make_compact_send _ _). set (r := make_compact_recv _).
  assert (HO : N.odd delta = true). { unfold delta. rewrite <- N.bit0_odd, N.lor_spec. rewrite orb_comm. reflexivity. }
  assert (D : delta <> 0%N) by (intros Q; rewrite Q in HO; discriminate).
  assert (Lb : forall x, (N.land x 1 * delta)%N = if N.odd x then delta else 0%N).
  { intros x. change 1%N with (N.ones 1). rewrite N.land_ones. change (2 ^ 1)%N with 2%N. rewrite <- N.bit0_mod, N.bit0_odd. destruct (N.odd x); cbn [N.b2n]; lia. }
  assert (K : forall i m, i < num -> m < 2 -> send_get s i m = Val (N.lxor (N.lxor (gen i) (if N.odd (gen i) then delta else 0%N)) (if m =? 1 then delta else 0%N))).
  { intros i m Hi Hm. rewrite send_get_compact by (auto; unfold s, make_compact_send; cbn [ss_blk]; rewrite map_length, seq_length; lia).
    unfold s, make_compact_send. cbn [ss_blk ss_delta]. rewrite SpcotProof.nth_map_seq by auto. rewrite Lb. reflexivity. }
  assert (G : forall i, i < num -> recv_get r i = Val (gen i)).
  { intros i Hi. rewrite recv_get_val by (unfold rs_size, r, make_compact_recv; cbn [rs_blk]; rewrite map_length, seq_length; auto).
    unfold r, make_compact_recv. cbn [rs_blk]. rewrite SpcotProof.nth_map_seq by auto. reflexivity. }
  split; [|split; [exact HO|]].
  - unfold are_ots, ss_size, rs_size, s, r, make_compact_send, make_compact_recv. cbn [ss_normal ss_blk rs_blk]. rewrite !map_length, seq_length. split; auto. split; auto.
    intros i Hi. fold s r. eexists _, _. split; [apply (K i 0); auto|]. split; [apply (K i 1); auto|]. cbn [Nat.eqb]. split.
    + rewrite recv_bit_compact by (auto; unfold rs_size, r, make_compact_recv; cbn [rs_blk]; rewrite map_length, seq_length; auto).
      unfold r, make_compact_recv. cbn [rs_blk]. rewrite SpcotProof.nth_map_seq by auto. reflexivity.
    + change (mkRecv false false [] (map gen (seq 0 num))) with r. rewrite G by auto. f_equal.
      destruct (N.odd (gen i)); [rewrite N.lxor_assoc, N.lxor_nilpotent|]; rewrite ?N.lxor_0_r; reflexivity.
  - intros i Hi. split; [apply G; auto|]. eexists. split; [apply (K i 0); auto|]. cbn [Nat.eqb]. rewrite N.lxor_0_r. split.
    + rewrite (K i 1) by auto. reflexivity.
    + rewrite <- N.bit0_odd, N.lxor_spec, !N.bit0_odd. destruct (N.odd (gen i)) eqn:Q; [rewrite HO|]; reflexivity.
Qed.
Print Assumptions mock_rots_correct.
Print Assumptions mock_cots_correct.
Print Assumptions mock_compact_correct.
(** MockCots with delta 0: the sender's accessor takes the store for one of pairs. *)
Theorem mock_cots_zero_refuted : exists num choices gen s r, length choices = num /\ mock_cots num 0 choices gen = Val (s, r) /\
  send_get s 0 1 = Val (gen 1) /\ send_get s 1 0 = Thrown /\ gen 1 <> gen 0 /\ recv_get r 0 = Val (gen 0).
Proof.
  exists 2, [true; false], (fun i => N.of_nat (5 + i)). eexists _, _. repeat (split; [vm_compute; reflexivity|]). split; [discriminate|]. vm_compute. reflexivity.
Qed.
Print Assumptions mock_cots_zero_refuted.

(** ** A case: four requests, with both algorithms *)
Definition ex_draw (s : nat) : draw := mkDraw (fun i => (i + s) mod 3 =? 0) [] 9%N (fun x => (x * 7 + N.of_nat s)%N) (fun i j => N.of_nat (i * 5 + j + s)) (fun i => N.of_nat i) (fun i => N.of_nat i).
Definition ex_request (rot : bool) (n s : nat) : request :=
  (rot, n, mkSend rot false 0%N (repeat 7%N (if rot then 2 * n else n)), mkRecv rot false (repeat false (if rot then n else 0)) (repeat 7%N n), ex_draw s).
Example ex_kernel a : exists delta outs,
  run_kernel toy_hash (toy_e 0) (toy_e 1) toy_hash (fun _ => 0%N) eklundh_transpose128 OtExtProps.toy_prg toy_hash (params 16 4 2) a toy_base toy_bits toy_blks toy_seeds (fun _ => 3%N) (fun _ => 4%N)
    (ex_draw 0) [ex_request false 5 1; ex_request true 40 2; ex_request true 4 3; ex_request false 25 1] = Val outs /\
  is_secret true toy_bits delta /\ Forall2 (served toy_hash delta a) [ex_request false 5 1; ex_request true 40 2; ex_request true 4 3; ex_request false 25 1] outs.
Proof.
  apply ot_kernel_correct.
  - exact toy_is_hash.
  - exact (proj1 (proj2 OtExtProps.ext_hypotheses)).
  - left. reflexivity.
  - exact (proj1 ferret_concrete).
  - exact toy_rots.
  - assert (V : forall rot n s, 4 <= n <= 40 -> valid a 2 (ex_request rot n s)).
    { intros rot n s Hn. unfold valid, ex_request, fits, in_range. cbn [ss_normal ss_sliced ss_delta ss_blk rs_normal rs_sliced rs_blk]. rewrite !repeat_length.
      split; [repeat (split; [reflexivity|]); reflexivity|]. split.
      - intros _. apply N.lt_le_trans with 64%N; [lia|vm_compute; discriminate].
      - intros _. split; [lia|]. split; [lia|]. apply N.lt_le_trans with 64%N; [lia|vm_compute; discriminate]. }
    repeat constructor; apply V; lia.
Qed.
