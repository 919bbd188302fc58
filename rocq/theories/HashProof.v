From Coq Require Import List NArith Bool Arith Lia.
From Verif Require Import GfModel GfProof HashModel.
Import ListNotations.
Open Scope nat_scope.

Lemma xor_span_map (f g : N -> N) l : xor_span (map f l) (map g l) = map (fun v => N.lxor (f v) (g v)) l.
Proof. unfold xor_span. induction l as [|a l IH]; [reflexivity|]. cbn. f_equal. exact IH. Qed.
Lemma cr_step_map rp l : cr_step rp l = map (crhash rp) l.
Proof. unfold cr_step. rewrite <- (map_id l) at 2. rewrite xor_span_map. reflexivity. Qed.
Lemma para_crhash_map rp l : para_crhash rp l = map (crhash rp) l.
Proof.
  unfold para_crhash. rewrite <- (map_id l) at 1. rewrite xor_span_map. apply map_ext. intros v.
  unfold crhash. apply N.lxor_comm.
Qed.

(** A step on a sub-span of a list whose prefix is already done. *)
Lemma on_sub_app (g : N -> N) f off len done rest :
  length done = off -> len <= length rest -> (forall l, f l = map g l) \/ f (firstn len rest) = map g (firstn len rest) ->
  on_sub f off len (done ++ rest) = (done ++ map g (firstn len rest)) ++ skipn len rest.
Proof.
  intros E L F. unfold on_sub. rewrite firstn_app, <- E, Nat.sub_diag, firstn_all, firstn_O, app_nil_r.
  rewrite skipn_app, skipn_all, Nat.sub_diag. cbn [app skipn].
  rewrite skipn_app, (skipn_all2 done) by lia. cbn [app]. replace (length done + len - length done) with len by lia.
  rewrite <- app_assoc. f_equal. f_equal. destruct F as [F|F]; [apply F|exact F].
Qed.
Lemma map_split (g : N -> N) len rest : map g (firstn len rest) ++ map g (skipn len rest) = map g rest.
Proof. rewrite <- map_app, firstn_skipn. reflexivity. Qed.

Lemma cr_loop_map rp batch : 0 < batch -> forall fuel off done rest,
  length done = off -> length rest < fuel ->
  cr_loop rp batch fuel off (done ++ rest) = done ++ map (crhash rp) rest.
Proof.
  intros B. induction fuel as [|fuel IH]; intros off done rest E F; [lia|]. cbn [cr_loop].
  rewrite app_length, E. destruct (Nat.leb_spec (off + batch) (off + length rest)) as [L|L].
  - rewrite (on_sub_app (crhash rp)) by (auto; try lia; left; intros; apply cr_step_map).
    rewrite IH.
    + rewrite <- app_assoc, map_split. reflexivity.
    + rewrite app_length, map_length, firstn_length. lia.
    + rewrite skipn_length. lia.
  - replace (off + length rest - off) with (length rest) by lia.
    destruct (Nat.ltb_spec 0 (length rest)) as [P|P].
    + rewrite (on_sub_app (crhash rp)) by (auto; left; intros; apply cr_step_map).
      rewrite firstn_all, skipn_all, app_nil_r. reflexivity.
    + destruct rest; [|cbn in P; lia]. reflexivity.
Qed.
Lemma para_crhash_inplace_map rp batch l : 0 < batch -> para_crhash_inplace rp batch l = map (crhash rp) l.
Proof. intros B. unfold para_crhash_inplace. apply (cr_loop_map rp batch B (S (length l)) 0 [] l); cbn; lia. Qed.

Lemma sigma_num_small n : (N.of_nat n < 2 ^ 32)%N -> sigma_num n = n.
Proof. intros H. unfold sigma_num. rewrite N.mod_small by exact H. apply Nat2N.id. Qed.
Lemma ccr_step_map rp batch l : 0 < batch -> (N.of_nat (length l) < 2 ^ 32)%N ->
  ccr_step rp batch l = map (fun v => crhash rp (sigma_step v)) l.
Proof.
  intros B H. unfold ccr_step. rewrite para_crhash_inplace_map by exact B. unfold sigma_inplace.
  rewrite sigma_num_small, firstn_all, skipn_all, app_nil_r by exact H. apply map_map.
Qed.
Lemma ccr_loop_map rp batch : 0 < batch -> (N.of_nat batch < 2 ^ 32)%N -> forall fuel off done rest,
  length done = off -> length rest < fuel ->
  ccr_loop rp batch fuel off (done ++ rest) = done ++ map (fun v => crhash rp (sigma_step v)) rest.
Proof.
  intros B B32. induction fuel as [|fuel IH]; intros off done rest E F; [lia|]. cbn [ccr_loop].
  rewrite app_length, E. destruct (Nat.ltb_spec (off + batch) (off + length rest)) as [L|L].
  - rewrite (on_sub_app (fun v => crhash rp (sigma_step v))).
    + rewrite IH.
      * rewrite <- app_assoc, map_split. reflexivity.
      * rewrite app_length, map_length, firstn_length. lia.
      * rewrite skipn_length. lia.
    + exact E.
    + lia.
    + right. apply ccr_step_map; auto. rewrite firstn_length. rewrite Nat.min_l by lia. exact B32.
  - replace (off + length rest - off) with (length rest) by lia.
    rewrite (on_sub_app (fun v => crhash rp (sigma_step v))).
    + rewrite firstn_all, skipn_all, app_nil_r. reflexivity.
    + exact E.
    + lia.
    + right. rewrite firstn_all. apply ccr_step_map; auto. lia.
Qed.

(** ** Halves *)
Open Scope N_scope.
Lemma lo64_lt x : lo64 x < 2 ^ 64.
Proof. apply land_ones_lt. Qed.
Lemma lo64_mod x : lo64 x = x mod 2 ^ 64.
Proof. apply N.land_ones. Qed.
Lemma hi64_div x : x < 2 ^ 128 -> hi64 x = x / 2 ^ 64.
Proof.
  intros H. unfold hi64. rewrite lo64_mod, N.shiftr_div_pow2. apply N.mod_small.
  apply N.div_lt_upper_bound; [discriminate|]. exact H.
Qed.
Lemma block_val h l : l < 2 ^ 64 -> block h l = h * 2 ^ 64 + l.
Proof.
  intros H. unfold block. rewrite <- N.lxor_lor, <- N.add_nocarry_lxor, N.shiftl_mul_pow2; auto.
  all: apply N.bits_inj; intros i; rewrite N.land_spec, N.bits_0;
    destruct (N.ltb_spec i 64) as [L|L]; [rewrite N.shiftl_spec_low by exact L; reflexivity|];
    rewrite (N.bits_above_log2 l); [apply andb_false_r|].
  all: destruct (N.eq_dec l 0) as [->|Z]; [cbn; lia|apply N.log2_lt_pow2; [lia|]].
  all: apply (N.lt_le_trans _ (2 ^ 64)); [exact H|apply N.pow_le_mono_r; [discriminate|exact L]].
Qed.
Lemma testbit_block h l i : l < 2 ^ 64 -> N.testbit (block h l) i = if i <? 64 then N.testbit l i else N.testbit h (i - 64).
Proof.
  intros H. unfold block. rewrite N.lor_spec. destruct (N.ltb_spec i 64) as [L|L].
  - rewrite N.shiftl_spec_low by exact L. reflexivity.
  - rewrite N.shiftl_spec_high' by exact L. rewrite (N.bits_above_log2 l); [apply orb_false_r|].
    destruct (N.eq_dec l 0) as [->|Z]; [cbn; lia|apply N.log2_lt_pow2; [lia|]].
    apply (N.lt_le_trans _ (2 ^ 64)); [exact H|apply N.pow_le_mono_r; [discriminate|exact L]].
Qed.
Lemma block_xor h l h' l' : l < 2 ^ 64 -> l' < 2 ^ 64 -> N.lxor (block h l) (block h' l') = block (N.lxor h h') (N.lxor l l').
Proof.
  intros H H'. apply N.bits_inj. intros i. rewrite N.lxor_spec, !testbit_block by (auto; apply xor_lt; auto).
  destruct (i <? 64); symmetry; apply N.lxor_spec.
Qed.
Lemma block_lt h l : h < 2 ^ 64 -> l < 2 ^ 64 -> block h l < 2 ^ 128.
Proof. intros H L. rewrite block_val by exact L. change (2 ^ 128) with (2 ^ 64 * 2 ^ 64). change (2 ^ 64) with 18446744073709551616 in *. lia. Qed.
Lemma hi_block h l : h < 2 ^ 64 -> l < 2 ^ 64 -> hi64 (block h l) = h.
Proof.
  intros H L. rewrite hi64_div by (apply block_lt; auto). rewrite block_val by exact L.
  rewrite N.div_add_l by discriminate. rewrite N.div_small by exact L. apply N.add_0_r.
Qed.
Lemma lo_block h l : l < 2 ^ 64 -> lo64 (block h l) = l.
Proof.
  intros L. rewrite lo64_mod, block_val by exact L. rewrite N.add_comm, N.mod_add by discriminate. apply N.mod_small. exact L.
Qed.
Lemma block_eta x : x < 2 ^ 128 -> block (hi64 x) (lo64 x) = x.
Proof.
  intros H. rewrite block_val by apply lo64_lt. rewrite hi64_div, lo64_mod by exact H.
  rewrite N.mul_comm. symmetry. apply N.div_mod. discriminate.
Qed.
Lemma hi64_lt x : hi64 x < 2 ^ 64.
Proof. apply lo64_lt. Qed.
Lemma sigma_step_val x : sigma_step x = block (lo64 x) (N.lxor (hi64 x) (lo64 x)).
Proof.
  unfold sigma_step, exchange, unpacklo. rewrite block_xor by apply lo64_lt.
  change (lo64 0) with 0. rewrite N.lxor_0_r. reflexivity.
Qed.
Lemma sigma1_val x : sigma1 x = block (lo64 x) 0.
Proof.
  unfold sigma1, exchange, unpackhi. rewrite block_xor by apply lo64_lt.
  change (hi64 0) with 0. rewrite N.lxor_0_r, N.lxor_nilpotent. reflexivity.
Qed.
