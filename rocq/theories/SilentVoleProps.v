(** Property C59: silent VOLE returns c = a * delta + b. *)
From Coq Require Import List NArith ZArith Bool Arith Lia.
From Verif Require Import LinCodeModel GfModel GfProof GfProps MpfssModel MpfssProof MpfssProps SilentVoleModel SilentVoleProof.
Import ListNotations.
Open Scope nat_scope.

(** ** Specification *)
(** The degree of the expand-accumulate codes. *)
Definition degree (c : code_type) : option nat :=
  match c with ExAcc7 => Some 7 | ExAcc11 => Some 11 | ExAcc21 => Some 21 | ExAcc40 => Some 40 | _ => None end.
(** How far a, b, c are from a VOLE at position k. *)
Definition defect (wide : bool) (delta : N) (a b c : list N) (k : nat) : N :=
  N.lxor (nth k c 0%N) (N.lxor (kmul wide (nth k a 0%N) delta) (nth k b 0%N)).
(** The sender's delta in the field of the output: all of it, or its low 64 bits. *)
Definition field_delta (wide : bool) (delta : N) : N := if wide then delta else (delta mod 2 ^ 64)%N.
(** The OTs of one run: their number, and the receiver's choices. *)
Definition ot_count (v : vparam) : nat := v_mp_ot v + v_base_ot v.

Lemma ktrunc_field wide delta : ktrunc wide delta = field_delta wide delta.
Proof. unfold field_delta. destruct wide; cbn [ktrunc]; auto. apply N.land_ones. Qed.
Lemma cot_store_prefix n k delta base bits blks : k <= n -> cot_store n delta base bits blks -> cot_store k delta base bits blks.
Proof. intros H (A & B & C & D & E). split; [lia|]. split; [lia|]. split; [lia|]. split; auto. intros i Hi. apply E. lia. Qed.
Lemma cot_store_sub off n k delta base bits blks : off + k <= n -> cot_store n delta base bits blks ->
  cot_store k delta (sub off k base) (sub off k bits) (sub off k blks).
Proof.
  intros H (A & B & C & D & E). unfold cot_store. rewrite !length_sub by lia. split; auto. split; auto. split; auto. split; auto.
  intros i Hi. rewrite !nth_sub by auto. apply E. lia.
Qed.

Section Run.
Variables (rp : N -> N) (raw5 raw11 : list nat) (blake3 h crh : N -> N).
Variables (tw wide : bool) (code : code_type) (nn : nat) (m : bool) (v : vparam).
Variables (delta : N) (base : list (N * N)) (bits : list bool) (blks : list N) (r : list nat) (base_choices : list bool).
Variables (seeds : nat -> N) (sp1 sp2 : nat -> list N) (seed : N) (noise0 outr0 outs0 a0 b0 c0 : list N).
Notation size := (mp (v_mp v)).
Notation num := (length a0).
(** What a run needs: the parties agree on the sizes, the code has room (an expand-accumulate
    code needs more outputs than its degree), the OTs are correlated and their choices are those
    the receiver asked for, and the buffers have the type's width. *)
Definition run_ok : Prop :=
  length raw5 = 5 /\ length raw11 = 11 /\ (forall x, word 128 (crh x)) /\ (tw = true -> wide = true) /\
  2 <= nn /\ length b0 = num /\ length c0 = num /\ make_vparam tw code num nn m = Val v /\ (N.of_nat size < 2 ^ 31)%N /\
  (forall d, degree code = Some d -> d < num) /\
  all_choices v r base_choices = Some bits /\ cot_store (ot_count v) delta base bits blks /\
  (forall i, i < ot_count v -> word 128 (fst (nth i base (0, 0)%N))) /\
  length noise0 = size /\ length outr0 = size /\ length outs0 = size /\ words (kbits wide) outr0 /\ words (kbits wide) a0 /\ word (kbits wide) seed /\
  (forall i, i < nn -> let t := if negb wide then 2 ^ Nat.log2_up (block_size nn size i) else block_size nn size i in t <= length (sp1 i) /\ t <= length (sp2 i)).

Notation run := (silent_vole rp raw5 raw11 blake3 h crh tw wide code nn m delta base bits blks r seeds sp1 sp2 seed noise0 outr0 outs0 a0 b0 c0).

Lemma run_core : run_ok ->
  exists a b c, run = Val (a, b, c) /\ length a = num /\ length b = num /\ length c = num /\
    forall k, k < num -> defect wide (field_delta wide delta) a b c k = if adds code then defect wide (field_delta wide delta) a0 b0 c0 k else 0%N.
Proof.
  intros (L5 & L11 & Hc & Htw & Hnn & Lb & Lc & Hv & Hsz & Hd & Hch & Hcot & Hbw & Ln & Lr & Ls & Wr & Wa0 & Wsd & Hsp).
  destruct (vparam_spec _ _ _ _ _ _ Hv) as (Hr & Vn & Vc & Vs & Vnn & Vp & _ & H1 & H2 & Vb & Vbn & Vmo).
  set (bn := if m then nn + 1 else nn) in *. set (d := field_delta wide delta).
  assert (Dw : word (kbits wide) d).
  { destruct Hcot as (_ & _ & _ & D & _). unfold d. rewrite <- ktrunc_field. destruct wide; cbn [ktrunc kbits]; [exact D|]. apply trunc_lt. }
  (* the points *)
  destruct (mpfss_gen_indexes nn size m (v_mp v) r Vp) as (Ir & Il).
  destruct (mpfss_choices nn size m (v_mp v) (gen_indexes (v_mp v) r) base_choices Vp Il Ir) as (ch & Ech & Lch & Ich).
  unfold all_choices in Hch. rewrite Ech in Hch. injection Hch as Ebits.
  (* base VOLE *)
  destruct (ot2vole_correct tw wide delta (sub (v_mp_ot v) (v_base_ot v) base) (sub (v_mp_ot v) (v_base_ot v) bits) (sub (v_mp_ot v) (v_base_ot v) blks) bn Htw)
    as (u & vv & w & E1 & E2 & Lu & Lv & Lw & _ & Vo & Wu & Wv).
  { change (bn * (if tw then 128 else 64)) with (bn * tbits tw). rewrite <- Vb. apply (cot_store_sub _ (ot_count v)); auto. }
  { change (bn * (if tw then 128 else 64)) with (bn * tbits tw). rewrite <- Vb. intros i Hi. rewrite nth_sub by auto. apply Hbw. unfold ot_count. lia. }
  assert (Wu' : words (kbits wide) u).
  { eapply Forall_impl; [|exact Wu]. intros x Hx. unfold word in *. eapply N.lt_le_trans; [exact Hx|]. apply N.pow_le_mono_r; [discriminate|].
    destruct tw; [rewrite Htw by auto|destruct wide]; cbn; lia. }
  (* the multi-point VOLE *)
  assert (Eu : used true nn size bits (gen_indexes (v_mp v) r) = gen_indexes (v_mp v) r) by (cbn [used]; rewrite <- Ebits; exact Ich).
  destruct (mp_vole_correct h crh wide true nn size m (v_mp v) delta d base bits blks (gen_indexes (v_mp v) r) seeds sp1 sp2 blake3 seed u vv w noise0 outr0 outs0
    Vp Hc) as (a & b & c & E3 & V & _ & La & Ub & Uc); auto; try lia.
  { apply cot_store_prefix with (n := ot_count v); auto. unfold ot_count. lia. }
  { rewrite Eu. auto. }
  { intros _. apply (mp_vole_last_point nn size m (v_mp v)); auto. }
  pose proof (mp_vole_sound h crh wide true nn size m (v_mp v) delta d base bits blks (gen_indexes (v_mp v) r) seeds sp1 sp2 blake3 seed u vv w noise0 outr0 outs0
    Vp Hc) as Sd. 
  assert (Sp : sparse nn size (gen_indexes (v_mp v) r) u a).
  { destruct (Sd ltac:(lia) ltac:(apply cot_store_prefix with (n := ot_count v); auto; unfold ot_count; lia) ltac:(lia) ltac:(rewrite Eu; auto) Hsp
      ltac:(auto) ltac:(auto) ltac:(auto) ltac:(lia) ltac:(lia) ltac:(lia) Wu' Wv Wr Dw Wsd Vo a b c E3) as (_ & S & _). rewrite Eu in S. exact S. }
  clear Sd. destruct Ub as [Lb' _]. destruct Uc as [Lc' _]. rewrite Ln in La. rewrite Lr in Lb'. rewrite Ls in Lc'.
  assert (Wa : forall k, word (kbits wide) (nth k a 0%N)).
  { intros k. destruct Sp as [S1 S2]. destruct (find (fun i => k =? point nn size (gen_indexes (v_mp v) r) i) (seq 0 nn)) as [i|] eqn:F.
    - apply find_some in F as [F1 F2]. apply in_seq in F1. apply Nat.eqb_eq in F2. subst k. rewrite S1 by lia. apply nth_word. exact Wu'.
    - rewrite S2; [exact (fw0 _ (kone wide))|]. intros i Hi E. pose proof (find_none _ _ F i ltac:(apply in_seq; lia)) as Q. apply Nat.eqb_neq in Q. auto. }
  (* the code *)
  destruct (lpn_spec rp raw5 raw11 tw code num nn m v L5 L11 Hv Hsz) as (E & Elin & Eenc & Eenc2).
  { unfold wide_enough. destruct (exacc_degree code) as [dg|] eqn:Q; auto. }
  destruct (Eenc2 a a0 b b0 La eq_refl ltac:(lia) Lb) as (ya & yb & Ya & Yb & Y2).
  destruct (Eenc c c0 ltac:(lia) Lc) as (yc & Yc & Lyc & Kc).
  destruct (Eenc a a0 La eq_refl) as (ya' & Ya' & Lya & Ka). rewrite Ya in Ya'. injection Ya' as <-.
  destruct (Eenc b b0 ltac:(lia) Lb) as (yb' & Yb' & Lyb & Kb). rewrite Yb in Yb'. injection Yb' as <-.
  exists ya, yb, yc. split.
  { unfold silent_vole. rewrite Lb, Lc, Nat.eqb_refl. cbn [negb]. rewrite Hv. cbn [bind]. rewrite Vbn, E1, E2. cbn [bind or_throw fst snd].
    rewrite ktrunc_field. fold d. rewrite E3. cbn [bind or_throw fst snd]. rewrite Yc. cbn [bind]. rewrite Y2. cbn [bind fst snd]. reflexivity. }
  split; [exact Lya|]. split; [exact Lyb|]. split; [exact Lyc|]. intros k Hk.
  set (phi := times wide d). assert (P : additive phi) by (apply additive_times; exact Dw).
  assert (C : comb phi a b c).
  { split; [lia|]. split; [lia|]. intros i. unfold phi. rewrite times_word by apply Wa. destruct (Nat.lt_ge_cases i size) as [Q|Q]; [apply V; auto|].
    rewrite !nth_overflow by lia. rewrite (fmul_0_l _ _ (kone wide) (kfield wide)) by exact Dw. reflexivity. }
  pose proof (Elin phi a b c k P C Lc' Hk) as X1.
  assert (Wea : word (kbits wide) (E a k)).
  { set (z := map (fun i => N.lxor (nth i a 0%N) (nth i b 0%N)) (seq 0 size)).
    assert (Nz : forall i, nth i z 0%N = N.lxor (nth i a 0%N) (nth i b 0%N)).
    { intros i. destruct (Nat.lt_ge_cases i size) as [Q|Q]; [exact (SpcotProof.nth_map_seq (fun i => N.lxor (nth i a 0%N) (nth i b 0%N)) size i 0%N Q)|].
      unfold z. rewrite !nth_overflow by (rewrite ?map_length, ?seq_length; lia). reflexivity. }
    assert (Lz : length z = size) by (unfold z; rewrite map_length, seq_length; auto).
    pose proof (Elin (fun x => x) a b z k ltac:(intros x y; reflexivity) ltac:(split; [lia|]; split; [lia|]; exact Nz) Lz Hk) as Z1.
    pose proof (Elin (fun x => N.land x (N.ones (kbits wide))) a b z k (additive_trunc _)
      ltac:(split; [lia|]; split; [lia|]; intros i; rewrite Nz, trunc_id by apply Wa; reflexivity) Lz Hk) as Z2.
    cbn beta in Z1, Z2. rewrite Z1 in Z2. 
    assert (Eq : E a k = N.land (E a k) (N.ones (kbits wide))).
    { apply (f_equal (fun x => N.lxor x (E b k))) in Z2. rewrite !N.lxor_assoc, !N.lxor_nilpotent, !N.lxor_0_r in Z2. exact Z2. }
    rewrite Eq. apply trunc_lt. }
  unfold phi in X1. rewrite times_word in X1 by exact Wea. unfold defect. rewrite Ka, Kb, Kc, X1 by auto.
  destruct (adds code).
  - rewrite (fmul_xor_l _ _ (kfield wide)) by first [exact Dw|exact Wea|apply nth_word; exact Wa0].
    apply N.bits_inj. intros q. rewrite !N.lxor_spec.
    destruct (N.testbit (nth k c0 0%N) q), (N.testbit (kmul wide (E a k) d) q), (N.testbit (E b k) q), (N.testbit (kmul wide (nth k a0 0%N) d) q), (N.testbit (nth k b0 0%N) q); reflexivity.
  - rewrite !N.lxor_0_l. apply N.lxor_nilpotent.
Qed.

(** C59, Silver codes: whatever the caller's spans hold, c = a * delta + b. *)
Theorem silent_vole_silver : run_ok -> code = Silver5 \/ code = Silver11 ->
  exists a b c, run = Val (a, b, c) /\ length a = num /\ length b = num /\ length c = num /\
    vole wide num (field_delta wide delta) a b c.
Proof.
  intros H Hs. destruct (run_core H) as (a & b & c & E & La & Lb & Lc & D). exists a, b, c. repeat (split; [assumption|]).
  intros k Hk. specialize (D k Hk). replace (adds code) with false in D by (destruct Hs as [-> | ->]; reflexivity). apply N.lxor_eq. exact D.
Qed.
(** C59, expand-accumulate codes: the spans must be zero (or hold a VOLE with the same delta). *)
Theorem silent_vole_accumulates : run_ok -> vole wide num (field_delta wide delta) a0 b0 c0 ->
  exists a b c, run = Val (a, b, c) /\ length a = num /\ length b = num /\ length c = num /\
    vole wide num (field_delta wide delta) a b c.
Proof.
  intros H Hs. destruct (run_core H) as (a & b & c & E & La & Lb & Lc & D). exists a, b, c. repeat (split; [assumption|]).
  intros k Hk. specialize (D k Hk). specialize (Hs k Hk). unfold defect in D at 2. rewrite Hs, N.lxor_nilpotent in D. 
  apply N.lxor_eq. destruct (adds code); exact D.
Qed.
Theorem silent_vole_zeroed : run_ok -> a0 = repeat 0%N num -> b0 = repeat 0%N num -> c0 = repeat 0%N num ->
  exists a b c, run = Val (a, b, c) /\ length a = num /\ length b = num /\ length c = num /\
    vole wide num (field_delta wide delta) a b c.
Proof.
  intros H Ha Hb Hc. apply silent_vole_accumulates; auto. intros k Hk. rewrite Ha, Hb, Hc, !nth_repeat.
  rewrite (fmul_0_l _ _ (kone wide) (kfield wide)); [reflexivity|].
  destruct H as (_ & _ & _ & _ & _ & _ & _ & _ & _ & _ & _ & Hcot & _). destruct Hcot as (_ & _ & _ & Dl & _).
  rewrite <- ktrunc_field. destruct wide; cbn [ktrunc kbits]; [exact Dl|]. apply trunc_lt.
Qed.
(** With such a code and any other content, the result is not a VOLE, at the same positions. *)
Theorem silent_vole_spans : run_ok -> degree code <> None ->
  exists a b c, run = Val (a, b, c) /\ 
    forall k, k < num -> (nth k c 0%N = N.lxor (kmul wide (nth k a 0%N) (field_delta wide delta)) (nth k b 0%N) <->
                          nth k c0 0%N = N.lxor (kmul wide (nth k a0 0%N) (field_delta wide delta)) (nth k b0 0%N)).
Proof.
  intros H Hs. destruct (run_core H) as (a & b & c & E & _ & _ & _ & D). exists a, b, c. split; [exact E|]. intros k Hk. specialize (D k Hk).
  replace (adds code) with true in D by (destruct code; try reflexivity; contradiction Hs; reflexivity). unfold defect in D. split; intros F.
  - rewrite F, N.lxor_nilpotent in D. apply N.lxor_eq. symmetry. exact D.
  - rewrite F, N.lxor_nilpotent in D. apply N.lxor_eq. exact D.
Qed.
End Run.
Print Assumptions silent_vole_silver.
Print Assumptions silent_vole_accumulates.
Print Assumptions silent_vole_zeroed.
Print Assumptions silent_vole_spans.

(** The parameters: every code with a known distance is accepted, for every number of outputs;
    there is room for twice as many positions as outputs, and one OT per bit of each block. *)
Theorem silent_vole_param tw code num nn m : 1 <= nn ->
  match code with
  | ExConv7x24 | ExConv21x24 => make_vparam tw code num nn m = Thrown
  | _ => exists v, make_vparam tw code num nn m = Val v /\ noise (v_mp v) = nn /\ 2 * num <= mp (v_mp v) /\
           (forall i, i < nn -> 2 <= block_size nn (mp (v_mp v)) i) /\
           v_base_ot v = (if m then nn + 1 else nn) * (if tw then 128 else 64) /\
           v_mp_ot v = list_sum (map (fun i => Nat.log2_up (block_size nn (mp (v_mp v)) i)) (seq 0 nn))
  end.
Proof.
  intros Hn.
  assert (G : has_ratio code = true -> exists v, make_vparam tw code num nn m = Val v /\ noise (v_mp v) = nn /\ 2 * num <= mp (v_mp v) /\
           (forall i, i < nn -> 2 <= block_size nn (mp (v_mp v)) i) /\
           v_base_ot v = (if m then nn + 1 else nn) * (if tw then 128 else 64) /\
           v_mp_ot v = list_sum (map (fun i => Nat.log2_up (block_size nn (mp (v_mp v)) i)) (seq 0 nn))).
  { intros Hr. destruct (vparam_some tw code num nn m Hr Hn) as [v Hv]. exists v. split; [exact Hv|].
    destruct (vparam_spec _ _ _ _ _ _ Hv) as (_ & Vn & Vc & Vs & Vnn & Vp & _ & H1 & H2 & Vb & Vbn & Vmo).
    split; [exact Vnn|]. split; [lia|]. 
    apply make_param_good in Vp as (Gd & En & _ & _).
    split; [|split; [exact Vb|]].
    - intros i Hi. pose proof (size_gt1 (v_mp v) Gd i) as X. unfold MpfssModel.size, last_sp, MpfssModel.sp in X. rewrite En in X. unfold block_size. lia.
    - rewrite Vmo, <- (len_sum (v_mp v) Gd), En. f_equal. apply map_ext. intros i. unfold len, MpfssModel.size, last_sp, MpfssModel.sp. rewrite En. reflexivity. }
  destruct code; try exact (G eq_refl); reflexivity.
Qed.
Print Assumptions silent_vole_param.
(** An expand-accumulate code with no more outputs than its degree: the run throws. *)
Theorem silent_vole_too_short rp raw5 raw11 tw code d num nn m v x o : degree code = Some d -> num <= d ->
  make_vparam tw code num nn m = Val v -> dual_lpn_encode rp raw5 raw11 v x o = Thrown.
Proof.
  intros Hd Hn Hv. destruct (vparam_spec _ _ _ _ _ _ Hv) as (_ & Vn & Vc & _).
  assert (Ge : get_encoder raw5 raw11 v = Thrown).
  { unfold get_encoder. rewrite Vc, Vn. unfold make_ecode.
    destruct code; try discriminate Hd; injection Hd as <-; (rewrite (proj2 (N.ltb_ge _ _)) by lia; rewrite andb_false_r; reflexivity). }
  unfold dual_lpn_encode. rewrite Ge. reflexivity.
Qed.
Print Assumptions silent_vole_too_short.

(** ** A run *)
(** Correlated OTs for given choices: the sender's random blocks are [z], the receiver's follow. *)
Definition honest_base (delta : N) (z : nat -> N) (n : nat) : list (N * N) := map (fun i => (z i, N.lxor (z i) delta)) (seq 0 n).
Definition honest_blks (delta : N) (z : nat -> N) (bits : list bool) (n : nat) : list N :=
  map (fun i => N.lxor (z i) (if nth i bits false then delta else 0%N)) (seq 0 n).
Lemma honest_store delta z bits n : (delta < 2 ^ 128)%N -> n <= length bits ->
  cot_store n delta (honest_base delta z n) bits (honest_blks delta z bits n).
Proof.
  intros Hd Hb. unfold cot_store, honest_base, honest_blks. rewrite !map_length, seq_length. repeat (split; [lia|auto; try lia]). intros i Hi.
  rewrite (SpcotProof.nth_map_seq (fun i => (z i, N.lxor (z i) delta)) n i (0, 0)%N Hi).
  rewrite (SpcotProof.nth_map_seq (fun i => N.lxor (z i) (if nth i bits false then delta else 0%N)) n i 0%N Hi). cbn [fst snd]. split; auto.
  destruct (nth i bits false); auto. apply N.lxor_0_r.
Qed.
(** Eight outputs over GF(2^64) with two points, for every delta, every point and all random bits. *)
Definition ex_bits8 (r : list nat) (base_choices : list bool) (v : vparam) : list bool :=
  match all_choices v r base_choices with Some b => b | None => [] end.
Definition ex_param (code : code_type) : vparam :=
  match make_vparam false code 8 2 false with Val v => v | _ => mkVParam 0 0 code (mkParam 0 0 false) 0 0 end.
Example ex_run (crh : N -> N) code delta z r base_choices a0 b0 c0 : code = ExAcc7 \/ code = Silver5 ->
  (forall x, word 128 (crh x)) -> (delta < 2 ^ 128)%N -> (forall i, word 128 (z i)) -> length base_choices = 128 ->
  length a0 = 8 -> length b0 = 8 -> length c0 = 8 -> words 64 a0 ->
  let v := ex_param code in let bits := ex_bits8 r base_choices v in let q := repeat 0%N 64 in let buf := repeat 0%N (mp (v_mp v)) in
  run_ok (seq 0 5) (seq 0 11) crh false false code 2 false v delta
    (honest_base delta z (ot_count v)) bits (honest_blks delta z bits (ot_count v)) r base_choices (fun _ => q) (fun _ => q) 1%N buf buf buf a0 b0 c0.
Proof.
  intros Hco Hc Hd Hz Lbc La Lb Lc Wa v bits q buf.
  assert (Hv : make_vparam false code 8 2 false = Val v) by (destruct Hco as [-> | ->]; reflexivity).
  destruct (vparam_spec _ _ _ _ _ _ Hv) as (_ & _ & _ & _ & _ & Vp & _ & _ & _ & Vb & _ & Vmo).
  destruct (mpfss_gen_indexes 2 (mp (v_mp v)) false (v_mp v) r Vp) as (Ir & Il).
  destruct (mpfss_choices 2 (mp (v_mp v)) false (v_mp v) (gen_indexes (v_mp v) r) base_choices Vp Il Ir) as (ch & Ech & Lch & _).
  assert (Ea : all_choices v r base_choices = Some bits).
  { unfold bits, ex_bits8. unfold all_choices. rewrite Ech. reflexivity. }
  assert (Lbits : length bits = ot_count v).
  { unfold all_choices in Ea. rewrite Ech in Ea. injection Ea as <-. rewrite app_length, Lch, Lbc. unfold ot_count. rewrite Vb, Vmo. reflexivity. }
  assert (Lq : length q = 64) by apply repeat_length.
  unfold run_ok. rewrite La.
  split; [reflexivity|]. split; [reflexivity|]. split; [exact Hc|]. split; [discriminate|]. split; [lia|]. split; [exact Lb|]. split; [exact Lc|].
  split; [exact Hv|]. split; [destruct Hco as [-> | ->]; vm_compute; reflexivity|].
  split; [intros d; destruct Hco as [-> | ->]; cbn; [injection 1 as <-; lia|discriminate]|].
  split; [exact Ea|]. split; [apply honest_store; auto; lia|].
  split.
  { intros i Hi. unfold honest_base. rewrite (SpcotProof.nth_map_seq (fun i => (z i, N.lxor (z i) delta)) (ot_count v) i (0, 0)%N Hi). apply Hz. }
  split; [apply repeat_length|]. split; [apply repeat_length|]. split; [apply repeat_length|].
  split; [apply Forall_forall; intros x Hx; apply repeat_spec in Hx; subst x; reflexivity|]. split; [exact Wa|]. split; [reflexivity|].
  intros i Hi. cbn [negb]. rewrite Lq.
  assert (B : block_size 2 (mp (v_mp v)) i <= 64).
  { destruct Hco as [-> | ->]; unfold v; destruct i as [|[|i]]; try lia; vm_compute; lia. }
  assert (2 ^ Nat.log2_up (block_size 2 (mp (v_mp v)) i) <= 64).
  { apply Nat.log2_up_le_mono in B. apply (Nat.pow_le_mono_r 2) in B; [exact B|lia]. }
  lia.
Qed.
(** So the spans must be zeroed first for these codes: with one nonzero entry in the sender's span the
    outputs are no VOLE, whatever the random choices. *)
Theorem silent_vole_exacc_refuted rp blake3 h crh delta z r base_choices seeds :
  (forall x, word 128 (crh x)) -> (delta < 2 ^ 128)%N -> (forall i, word 128 (z i)) -> length base_choices = 128 ->
  let v := ex_param ExAcc7 in let bits := ex_bits8 r base_choices v in let q := repeat 0%N 64 in let buf := repeat 0%N (mp (v_mp v)) in
  let zero := repeat 0%N 8 in
  exists a b c, silent_vole rp (seq 0 5) (seq 0 11) blake3 h crh false false ExAcc7 2 false delta
    (honest_base delta z (ot_count v)) bits (honest_blks delta z bits (ot_count v)) r seeds (fun _ => q) (fun _ => q) 1%N buf buf buf
    zero zero (1%N :: repeat 0%N 7) = Val (a, b, c) /\ ~ vole false 8 (delta mod 2 ^ 64)%N a b c.
Proof.
  intros Hc Hd Hz Hl v bits q buf zero.
  assert (Wz : words 64 zero) by (apply Forall_forall; intros x Hx; apply repeat_spec in Hx; subst x; reflexivity).
  pose proof (ex_run crh ExAcc7 delta z r base_choices zero zero (1%N :: repeat 0%N 7) (or_introl eq_refl) Hc Hd Hz Hl eq_refl eq_refl eq_refl Wz) as R.
  cbv zeta in R. fold v in R. fold bits q buf in R.
  destruct (silent_vole_spans rp (seq 0 5) (seq 0 11) blake3 h crh false false ExAcc7 2 false v delta _ bits _ r base_choices seeds (fun _ => q) (fun _ => q) 1%N buf buf buf _ _ _ R) as (a & b & c & E & F);
    [discriminate|].
  exists a, b, c. split; [exact E|]. intros V. assert (L : 0 < length zero) by (unfold zero; cbn; lia). pose proof (proj1 (F 0 L) (V 0 ltac:(lia))) as X.
  unfold zero in X. change (nth 0 (repeat 0%N 8) 0%N) with 0%N in X. change (nth 0 (1%N :: repeat 0%N 7) 0%N) with 1%N in X.
  rewrite (fmul_0_l _ _ (kone false) (kfield false)) in X; [discriminate X|]. cbn [kbits field_delta]. apply N.mod_lt. discriminate.
Qed.
Print Assumptions silent_vole_exacc_refuted.
