(** Lemmas about the Ferret model: one bin, one MPCOT. *)
From Coq Require Import NArith List Bool Arith Lia.
From Verif Require Import GfModel GfProof LinCodeModel SpcotModel SpcotProof SpcotProps FerretModel.
Import ListNotations.
Open Scope nat_scope.

(** Compact correlated OTs: the sender's block is even, the receiver's block is the
    sender's, plus delta if the choice, its lowest bit, is set. *)
Definition paired (delta s r : N) : Prop :=
  (s < 2 ^ 128)%N /\ N.odd s = false /\ r = N.lxor s (if N.odd r then delta else 0%N).

Lemma Forall2_firstn {A B} (R : A -> B -> Prop) k l m : Forall2 R l m -> Forall2 R (firstn k l) (firstn k m).
Proof. intros H. revert k. induction H as [|x y l m Hxy H IH]; intros [|k]; cbn [firstn]; auto. Qed.
Lemma Forall2_skipn {A B} (R : A -> B -> Prop) k l m : Forall2 R l m -> Forall2 R (skipn k l) (skipn k m).
Proof. intros H. revert k. induction H as [|x y l m Hxy H IH]; intros [|k]; cbn [skipn]; auto. Qed.
Lemma Forall2_len {A B} (R : A -> B -> Prop) l m : Forall2 R l m -> length l = length m.
Proof. intros H. induction H; cbn [length]; auto. Qed.
Lemma Forall2_nth {A B} (R : A -> B -> Prop) l m a b : Forall2 R l m -> forall i, i < length l -> R (nth i l a) (nth i m b).
Proof. intros H. induction H as [|x y l m Hxy H IH]; intros [|i] Hi; cbn [length nth] in *; auto; try lia. apply IH. lia. Qed.
Lemma nth_Forall2 {A B} (R : A -> B -> Prop) a b : forall l m, length l = length m -> (forall i, i < length l -> R (nth i l a) (nth i m b)) -> Forall2 R l m.
Proof.
  induction l as [|x l IH]; intros [|y m] L H; try discriminate; constructor.
  - apply (H 0). cbn [length]. lia.
  - apply IH; [cbn [length] in L; lia|]. intros i Hi. apply (H (S i)). cbn [length]. lia.
Qed.
Lemma paired_bound delta s r : (delta < 2 ^ 128)%N -> paired delta s r -> (r < 2 ^ 128)%N.
Proof.
  intros Hd (A & _ & E). rewrite E. apply xor_lt; auto. destruct (N.odd r); auto. apply N.neq_0_lt_0. apply N.pow_nonzero. lia.
Qed.
Lemma paired_xor delta s1 r1 s2 r2 : paired delta s1 r1 -> paired delta s2 r2 -> paired delta (N.lxor s1 s2) (N.lxor r1 r2).
Proof.
  intros (A1 & B1 & C1) (A2 & B2 & C2). split; [apply xor_lt; auto|]. rewrite !odd_xor, B1, B2. split; [reflexivity|].
  rewrite C1 at 1. rewrite C2 at 1. destruct (N.odd r1), (N.odd r2); cbn [xorb]; rewrite ?N.lxor_0_r; auto.
  - rewrite N.lxor_assoc, (N.lxor_comm delta), N.lxor_assoc, N.lxor_nilpotent, N.lxor_0_r. auto.
  - rewrite N.lxor_assoc, (N.lxor_comm delta). rewrite N.lxor_assoc. auto.
  - rewrite N.lxor_assoc. auto.
Qed.
Lemma paired_0 delta : paired delta 0 0.
Proof. split; [apply N.neq_0_lt_0; apply N.pow_nonzero; lia|]. split; reflexivity. Qed.

Lemma span_length l pos len : pos + len <= length l -> length (span l pos len) = len.
Proof. intros H. unfold span. rewrite firstn_length, skipn_length. lia. Qed.
Lemma splice_length l pos vals : pos + length vals <= length l -> length (splice l pos vals) = length l.
Proof. intros H. unfold splice. rewrite !app_length, firstn_length, skipn_length. lia. Qed.
Lemma splice_firstn l pos vals : pos <= length l -> firstn (pos + length vals) (splice l pos vals) = firstn pos l ++ vals.
Proof.
  intros H. unfold splice. rewrite app_assoc. rewrite firstn_app.
  rewrite (firstn_all2 (firstn pos l ++ vals)) by (rewrite app_length, firstn_length; lia).
  rewrite app_length, firstn_length, Nat.min_l by lia. rewrite Nat.sub_diag, firstn_O, app_nil_r. auto.
Qed.
Lemma splice_all l pos vals : pos + length vals = length l -> splice l pos vals = firstn pos l ++ vals.
Proof. intros H. unfold splice. rewrite skipn_all2 by lia. rewrite app_nil_r. auto. Qed.

Lemma slice_val c b e : b < e -> e <= length (s_buf c) -> slice c b e = Val (mkStore (s_buf c) b (e - b)).
Proof. intros H1 H2. unfold slice. rewrite (proj2 (Nat.ltb_lt b e)), (proj2 (Nat.leb_le e _)) by auto. reflexivity. Qed.
Lemma blocks_slice buf b n : blocks (mkStore buf b n) = span buf b n.
Proof. reflexivity. Qed.

(** The choices of one bin: one at the position its COTs spell, zero elsewhere. *)
Definition unit_at (n index : nat) : list bool := map (fun j => j =? index) (seq 0 n).
Lemma map_nth_seq {A B} (f : A -> B) (d : A) l : map f l = map (fun i => f (nth i l d)) (seq 0 (length l)).
Proof.
  induction l as [|x l IH]; [reflexivity|]. cbn [length seq map nth]. f_equal. rewrite IH, <- seq_shift, map_map. reflexivity.
Qed.

Lemma div_ceil_spec range bs : 0 < bs -> 0 < range ->
  let m := div_ceil range bs - 1 in div_ceil range bs = S m /\ m * bs < range /\ range <= m * bs + bs.
Proof.
  intros H1 H2. unfold div_ceil. rewrite (proj2 (Nat.eqb_neq range 0)) by lia. cbn zeta.
  replace (1 + (range - 1) / bs - 1) with ((range - 1) / bs) by lia.
  pose proof (Nat.div_mod (range - 1) bs ltac:(lia)). pose proof (Nat.mod_upper_bound (range - 1) bs ltac:(lia)). split; [lia|]. nia.
Qed.
Lemma get_block_val c i x : i < s_len c -> s_off c + i < length (s_buf c) -> nth (s_off c + i) (s_buf c) 0%N = x -> get_block c i = Val x.
Proof.
  intros H1 H2 E. unfold get_block. rewrite (proj2 (Nat.ltb_lt _ _)) by auto. rewrite (nth_error_nth' _ 0%N) by auto. rewrite E. auto.
Qed.

Section Bins.
Variables (h : N -> N) (delta : N).
Hypothesis delta_lt : (delta < 2 ^ 128)%N.
Hypothesis delta_odd : N.odd delta = true.

Lemma land_but_lsb_lt x : (N.land x but_lsb < 2 ^ 128)%N.
Proof.
  assert (E : N.land x but_lsb = N.land (N.land x but_lsb) (N.ones 128)).
  { rewrite <- N.land_assoc. reflexivity. }
  rewrite E. apply land_ones_lt.
Qed.
Lemma gnode_lt s d : (s < 2 ^ 128)%N -> (d < 2 ^ 128)%N -> forall l j, (gnode h but_lsb s d l j < 2 ^ 128)%N.
Proof.
  intros Hs Hd. induction l as [|l IH]; intros j; cbn [gnode].
  - destruct (j =? 0); auto. apply xor_lt; auto.
  - destruct (j <? 2 ^ S l); [apply land_but_lsb_lt|]. apply xor_lt; auto. apply land_but_lsb_lt.
Qed.

Lemma gywz_pair bs br n seed outs outr k : k = log2ceil n -> 1 < n -> (N.of_nat n <= 2 ^ 31)%N ->
  length outs = n -> length outr = n -> forall b, b + k <= length bs -> Forall2 (paired delta) bs br ->
  exists o msg r, gywz_send h delta (mkStore bs b k) n seed outs = Val (o, msg) /\ gywz_recv h (mkStore br b k) n msg outr = Val r /\
    length o = n /\ Forall2 (paired delta) o r /\ map N.odd r = unit_at n (bits_nat (map N.odd (span br b k))).
Proof.
  intros -> Hn Hn2 Lo Lr b Hb R. set (k := log2ceil n) in *.
  assert (Lb : length bs = length br) by (eapply Forall2_len; eauto).
  set (xs := span bs b k). set (xr := span br b k).
  assert (Rx : Forall2 (paired delta) xs xr) by (apply Forall2_firstn, Forall2_skipn; auto).
  assert (Lx : length xs = k) by (apply span_length; auto).
  assert (Lxr : length xr = k) by (apply span_length; lia).
  set (base := map (fun w => (w, N.lxor w delta)) xs).
  assert (Nb : forall i, i < k -> nth i base (0, 0)%N = (nth i xs 0%N, N.lxor (nth i xs 0%N) delta)).
  { intros i Hi. unfold base. rewrite (nth_indep _ (0, 0)%N ((fun w => (w, N.lxor w delta)) 0%N)) by (rewrite map_length; lia).
    apply (map_nth (fun w => (w, N.lxor w delta))). }
  destruct (gywz_ferret_correct h delta base xr n seed outs outr) as (o & r & E & SP & OD & U1 & U2).
  - split; [auto|]. split; [auto|]. lia.
  - split; [unfold base; rewrite map_length; auto|]. rewrite map_length. split; [lia|]. split; [auto|]. split; [auto|].
    intros i Hi. rewrite Nb by auto. cbn [fst snd]. split; [reflexivity|].
    rewrite (nth_indep _ false (N.odd 0)) by (rewrite map_length; lia). rewrite map_nth.
    destruct (Forall2_nth _ _ _ 0%N 0%N Rx i ltac:(lia)) as (_ & _ & Ei). rewrite Ei at 1. destruct (N.odd (nth i xr 0%N)); auto. apply N.lxor_0_r.
  - auto.
  - fold k in E. unfold run_gywz_ferret in E. fold k in E.
    assert (Lbase : length base = k) by (unfold base; rewrite map_length; auto).
    rewrite Lbase, Lxr, Nat.eqb_refl, (proj2 (Nat.leb_gt n 1)) in E by auto. cbn [negb orb] in E.
    destruct (full_eval h but_lsb (N.land delta but_lsb) (N.land seed but_lsb) n outs) as [o' sums] eqn:F.
    unfold gywz_send, gywz_recv. cbn [s_len]. fold k. rewrite !Nat.eqb_refl, (proj2 (Nat.leb_gt n 1)) by auto. cbn [negb orb].
    rewrite F. rewrite !blocks_slice. fold xs xr.
    injection E. intros Er Eo. eexists. eexists. eexists. split; [reflexivity|].
    rewrite map_length, seq_length, Nat.eqb_refl. cbn [negb]. split; [reflexivity|].
    match goal with |- _ /\ Forall2 _ _ ?x /\ _ => assert (E2 : x = r) end.
    { rewrite <- Er. rewrite (map_ext_in (fun i => N.lxor (nth i sums 0%N) (N.land (N.lxor (nth i xs 0%N) delta) but_lsb))
        (fun i => N.lxor (nth i sums 0%N) (N.land (send_block base i true) but_lsb))); [reflexivity|].
      intros i Hi. apply in_seq in Hi. unfold send_block. rewrite Nb by lia. reflexivity. }
    rewrite E2. subst o'. destruct U1 as [U1 _], U2 as [U2 _]. rewrite Lo in U1. rewrite Lr in U2. split; [auto|]. split.
    + apply (nth_Forall2 _ 0%N 0%N); [lia|]. intros j Hj. rewrite U1 in Hj. destruct (OD j Hj) as [O1 O2]. split; [|split; [auto|]].
      * destruct (full_eval_spec h but_lsb (N.land delta but_lsb) (N.land seed but_lsb) n outs o sums) as (_ & _ & T & _); auto; try lia.
        rewrite T by auto. apply gnode_lt; rewrite ?land_idem2; apply land_but_lsb_lt.
      * rewrite O2. rewrite (SP j Hj). destruct (j =? _); auto. rewrite N.lxor_0_r. auto.
    + rewrite (map_nth_seq N.odd 0%N), U2. unfold unit_at. apply map_ext_in. intros j Hj. apply in_seq in Hj. apply OD. lia.
Qed.

(** The index spelled by the COTs of bin i, and the choices of [m] bins. *)
Definition bin_index (buf : list N) (bl i : nat) : nat := bits_nat (map N.odd (span buf (i * bl) bl)).
Definition bins_choices (buf : list N) (bs bl i m : nat) : list bool :=
  concat (map (fun j => unit_at bs (bin_index buf bl j)) (seq i m)).
Lemma bins_pair cs cr bs bl tape : bl = log2ceil bs -> 1 < bs -> (N.of_nat bs <= 2 ^ 31)%N ->
  Forall2 (paired delta) (s_buf cs) (s_buf cr) -> forall m i outs outr,
  (i + m) * bl <= length (s_buf cs) -> (i + m) * bs <= length outs -> length outr = length outs ->
  Forall2 (paired delta) (firstn (i * bs) outs) (firstn (i * bs) outr) ->
  exists o msgs r, send_bins h delta cs bs bl tape i m outs = Val (o, msgs) /\
    (forall tail, recv_bins h cr bs bl i m (msgs ++ tail) outr = Val (r, tail)) /\
    length o = length outs /\ length r = length outs /\
    Forall2 (paired delta) (firstn ((i + m) * bs) o) (firstn ((i + m) * bs) r) /\
    map N.odd (firstn ((i + m) * bs) r) = map N.odd (firstn (i * bs) outr) ++ bins_choices (s_buf cr) bs bl i m.
Proof.
  intros Ebl Hbs Hbs2 R. assert (Hbl : 0 < bl) by (subst bl; apply log2ceil_spec; auto).
  pose proof (Forall2_len _ _ _ R) as LR.
  induction m as [|m IH]; intros i outs outr Hb Ho Lo P; cbn [send_bins recv_bins].
  - exists outs, [], outr. rewrite Nat.add_0_r. split; [reflexivity|]. split; [reflexivity|]. unfold bins_choices. cbn [seq map concat].
    rewrite app_nil_r. auto.
  - assert (B1 : i * bl + bl <= length (s_buf cs)) by nia. assert (O1 : i * bs + bs <= length outs) by nia.
    rewrite (slice_val cs), (slice_val cr) by lia. cbn [bind].
    replace (i * bl + bl - i * bl) with bl by lia.
    destruct (gywz_pair (s_buf cs) (s_buf cr) bs (tape i) (span outs (i * bs) bs) (span outr (i * bs) bs) bl Ebl Hbs Hbs2)
      with (b := i * bl) as (o & msg & r & E1 & E2 & Lo' & P' & C'); auto.
    1: apply span_length; lia.
    1: apply span_length; lia.
    pose proof (Forall2_len _ _ _ P') as Lr'. rewrite E1. cbn [bind fst snd].
    assert (Eo : firstn (i * bs + bs) (splice outs (i * bs) o) = firstn (i * bs) outs ++ o).
    { rewrite <- splice_firstn by lia. rewrite Lo'. reflexivity. }
    assert (Er : firstn (i * bs + bs) (splice outr (i * bs) r) = firstn (i * bs) outr ++ r).
    { rewrite <- splice_firstn by lia. rewrite <- Lr', Lo'. reflexivity. }
    destruct (IH (S i) (splice outs (i * bs) o) (splice outr (i * bs) r)) as (o2 & msgs & r2 & F1 & F2 & F3 & F4 & F5 & F6).
    + nia.
    + rewrite splice_length by lia. nia.
    + rewrite !splice_length by lia. auto.
    + replace (S i * bs) with (i * bs + bs) by lia. rewrite Eo, Er. apply Forall2_app; auto.
    + rewrite splice_length in F3, F4 by lia.
      exists o2, (msg :: msgs), r2. rewrite F1. cbn [bind fst snd]. split; [reflexivity|]. split.
      { intros tail. cbn [app hd tl]. rewrite E2. cbn [bind]. apply F2. }
      split; [auto|]. split; [auto|]. replace (i + S m) with (S i + m) by lia. split; [auto|].
      rewrite F6. replace (S i * bs) with (i * bs + bs) by lia. rewrite Er, map_app, <- app_assoc. f_equal.
      unfold bins_choices. cbn [seq map concat]. rewrite C'. reflexivity.
Qed.

(** The choices of one MPCOT. *)
Definition mpcot_choices (c : store) (range bs : nat) : list bool :=
  let bl := log2ceil bs in
  let m := div_ceil range bs - 1 in
  let last := range - m * bs in
  bins_choices (s_buf c) bs bl 0 m ++
  if last =? 1 then [N.odd (nth (s_off c + m * bl) (s_buf c) 0%N)]
  else unit_at last (bits_nat (map N.odd (span (s_buf c) (m * bl) (log2ceil last)))).
(** The number of COTs one MPCOT reads. *)
Definition mpcot_need (range bs : nat) : nat :=
  let m := div_ceil range bs - 1 in m * log2ceil bs + Nat.max 1 (log2ceil (range - m * bs)).
Lemma mpcot_pair cs cr range t bs tape outs outr : 1 < bs -> (N.of_nat bs <= 2 ^ 31)%N -> 0 < range -> div_ceil range bs <= t ->
  Forall2 (paired delta) (s_buf cs) (s_buf cr) -> s_off cr = s_off cs -> s_len cr = s_len cs ->
  mpcot_need range bs <= s_len cs -> s_off cs + s_len cs <= length (s_buf cs) ->
  length outs = range -> length outr = range ->
  exists o msgs r, mpcot_send h delta cs range t bs tape outs = Val (o, msgs) /\ mpcot_recv h cr range t bs msgs outr = Val r /\
    length o = range /\ Forall2 (paired delta) o r /\ map N.odd r = mpcot_choices cr range bs.
Proof.
  intros Hbs Hbs2 Hr Ht R Of Ln Hn Hs Lo Lr. pose proof (Forall2_len _ _ _ R) as LR.
  destruct (div_ceil_spec range bs ltac:(lia) Hr) as (D1 & D2 & D3). unfold mpcot_need in Hn.
  unfold mpcot_send, mpcot_recv, mpcot_choices. set (bn := div_ceil range bs) in *. set (m := bn - 1) in *.
  rewrite (proj2 (Nat.eqb_neq bs 0)) by lia. rewrite (proj2 (Nat.leb_le bn t)), (proj2 (Nat.leb_le 1 bn)) by lia. cbn [negb orb].
  set (bl := log2ceil bs) in *. set (last := range - m * bs) in *. assert (Hl : 0 < last) by lia.
  destruct (bins_pair cs cr bs bl tape eq_refl Hbs Hbs2 R m 0 outs outr) as (o & msgs & r & E1 & E2 & L1 & L2 & P & C); cbn [Nat.mul firstn]; auto; try lia.
  cbn [Nat.add] in P, C. cbn [Nat.mul firstn map app] in C. rewrite E1. cbn [bind fst snd].
  destruct (Nat.eqb_spec last 1) as [El|El].
  - rewrite (get_block_val cs (m * bl) (nth (s_off cs + m * bl) (s_buf cs) 0%N)) by (auto; lia).
    rewrite (get_block_val cr (m * bl) (nth (s_off cs + m * bl) (s_buf cr) 0%N)) by (rewrite ?Of; auto; lia).
    cbn [bind]. specialize (E2 []). rewrite app_nil_r in E2. eexists. eexists. eexists. split; [reflexivity|]. rewrite E2. cbn [bind fst snd]. split; [reflexivity|].
    rewrite !splice_all by (cbn [length]; lia). split; [rewrite app_length, firstn_length; cbn [length]; lia|]. split.
    + apply Forall2_app; auto. constructor; [|constructor]. apply (Forall2_nth _ _ _ 0%N 0%N R). lia.
    + rewrite map_app, C, Of. reflexivity.
  - assert (Hl2 : 0 < log2ceil last) by (apply log2ceil_spec; lia).
    rewrite !slice_val by lia. cbn [bind]. replace (m * bl + log2ceil last - m * bl) with (log2ceil last) by lia.
    destruct (gywz_pair (s_buf cs) (s_buf cr) last (tape m) (span o (m * bs) last) (span r (m * bs) last) (log2ceil last) eq_refl)
      with (b := m * bl) as (o' & msg & r' & F1 & F2 & F3 & F4 & F5); auto; try lia.
    1: apply span_length; lia.
    1: apply span_length; lia.
    pose proof (Forall2_len _ _ _ F4) as L4. rewrite F1. cbn [bind fst snd]. eexists. eexists. eexists. split; [reflexivity|].
    rewrite E2. cbn [bind fst snd hd]. rewrite F2. cbn [bind]. split; [reflexivity|].
    rewrite !splice_all by lia. split; [rewrite app_length, firstn_length; lia|]. split; [apply Forall2_app; auto|].
    rewrite map_app, C, F5. reflexivity.
Qed.
End Bins.
