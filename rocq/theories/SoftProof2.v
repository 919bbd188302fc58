(** Lemmas for SoftModel, second part: sequences of batches, messages, set-up, check. *)
From Coq Require Import List NArith ZArith Bool Lia Arith.
From Verif Require Import TransModel TransProof TransProps GfModel GfProof GfProps SpcotModel SpcotProof SpcotProps OtExtModel OtExtProof OtExtProps KosProps SoftModel SoftProof.
Import ListNotations.
Open Scope nat_scope.

(** ** Sequences of batches *)
Section Gens.
Variable crhash : N -> N.
Definition recv_u k leaves ctr c : list N := map (fun i => N.lxor c (tot crhash k leaves ctr i)) (seq 0 (pprf_num k)).
Definition recv_w k compact leaves ctr c : list N := put0 compact c (map (wcol crhash k leaves ctr) (seq 0 128)).
Definition send_v k compact delta leaves ctr (u : list N) : list N :=
  put0 compact 0%N (map (fun c => N.lxor (wcol crhash k leaves ctr c)
        (if N.testbit delta (N.of_nat c) then N.lxor (nth (c / k) u 0%N) (tot crhash k leaves ctr (c / k)) else 0%N)) (seq 0 128)).
Lemma map_seq_S {A} (f : nat -> A) n : map f (seq 0 (S n)) = f 0 :: map (fun b => f (S b)) (seq 0 n).
Proof. cbn [seq map]. rewrite <- seq_shift, map_map. reflexivity. Qed.
Lemma ctr_S ctr b : (ctr + 1 + N.of_nat b = ctr + N.of_nat (S b))%N.
Proof. lia. Qed.
Lemma recv_gens_spec k compact leaves : 1 <= k -> forall words ctr xb, tail0 (length leaves) xb ->
  recv_gens crhash k compact leaves ctr words xb =
  map (fun b => (recv_u k leaves (ctr + N.of_nat b) (nth b words 0%N), recv_w k compact leaves (ctr + N.of_nat b) (nth b words 0%N))) (seq 0 (length words)).
Proof.
  intros Hk. induction words as [|c words IH]; intros ctr xb T; [reflexivity|]. cbn [recv_gens length].
  destruct (gen_recv_spec crhash k compact leaves ctr c xb Hk T) as (xb' & E & T'). rewrite E.
  rewrite (map_seq_S _ (length words)). f_equal.
  - cbn [nth]. change (N.of_nat 0) with 0%N. rewrite N.add_0_r. reflexivity.
  - rewrite IH by auto. apply map_ext. intros b. rewrite ctr_S. reflexivity.
Qed.
Lemma send_gens_spec k compact delta so ro : 1 <= k -> linked k delta so ro -> forall us ctr xb, tail0 (length (ro_leaves ro)) xb ->
  send_gens crhash k compact so ctr us xb =
  map (fun b => send_v k compact delta (ro_leaves ro) (ctr + N.of_nat b) (nth b us [])) (seq 0 (length us)).
Proof.
  intros Hk LK. induction us as [|u us IH]; intros ctr xb T; [reflexivity|]. cbn [send_gens length].
  destruct (gen_send_spec crhash k delta so ro ctr Hk LK compact u xb T) as (xb' & E & T'). rewrite E.
  rewrite (map_seq_S _ (length us)). f_equal.
  - cbn [nth]. change (N.of_nat 0) with 0%N. rewrite N.add_0_r. reflexivity.
  - rewrite IH by auto. apply map_ext. intros b. rewrite ctr_S. reflexivity.
Qed.
Lemma put0_length compact v l : length l = 128 -> length (put0 compact v l) = 128.
Proof. intros H. destruct compact; auto. destruct l; cbn in *; lia. Qed.
Lemma put0_nth compact v l c : c < length l -> nth c (put0 compact v l) 0%N = if compact && (c =? 0) then v else nth c l 0%N.
Proof. intros H. destruct compact; auto. destruct l as [|x l]; [cbn in H; lia|]. destruct c; reflexivity. Qed.

(** The honest relation of one batch. *)
Lemma vole_relation k compact delta leaves ctr ch c : 1 <= k -> (compact = true -> N.testbit delta 0 = true) -> c < 128 ->
  nth c (send_v k compact delta leaves ctr (recv_u k leaves ctr ch)) 0%N =
  N.lxor (nth c (recv_w k compact leaves ctr ch) 0%N) (if N.testbit delta (N.of_nat c) then ch else 0%N).
Proof.
  intros Hk HC Hc. unfold send_v, recv_w. rewrite !put0_nth by (rewrite map_length, seq_length; auto). rewrite !nth_map_seq by auto.
  destruct (compact && (c =? 0)) eqn:B.
  - apply andb_true_iff in B as [B1 B2]. apply Nat.eqb_eq in B2. subst c. cbn [N.of_nat]. rewrite HC by auto. rewrite N.lxor_nilpotent. reflexivity.
  - f_equal. destruct (N.testbit delta (N.of_nat c)); auto. destruct (col_tree k Hk c Hc) as (C1 & _).
    unfold recv_u. rewrite nth_map_seq by auto. rewrite N.lxor_assoc, N.lxor_nilpotent, N.lxor_0_r. reflexivity.
Qed.

Hypothesis HC : forall x, (crhash x < 2 ^ 128)%N.
Lemma hm_lt leaves ctr p : (hm crhash leaves ctr p < 2 ^ 128)%N.
Proof. unfold hm. destruct (p <? length leaves); [apply HC|reflexivity]. Qed.
Lemma xs_lt f n : (forall x, (f x < 2 ^ 128)%N) -> (xs f n < 2 ^ 128)%N.
Proof. intros H. induction n as [|n IH]; cbn [xs]; [reflexivity|]. apply xor_lt; auto. Qed.
Lemma wcol_lt k leaves ctr c : (wcol crhash k leaves ctr c < 2 ^ 128)%N.
Proof. apply xs_lt. intros x. unfold pick. destruct (Nat.testbit x (c mod k)); [apply hm_lt|reflexivity]. Qed.
Lemma recv_w_ok k compact leaves ctr ch : (ch < 2 ^ 128)%N ->
  length (recv_w k compact leaves ctr ch) = 128 /\ Forall (fun w => w128 w) (recv_w k compact leaves ctr ch).
Proof.
  intros H. unfold recv_w. split; [apply put0_length; rewrite map_length, seq_length; auto|].
  assert (F : Forall (fun w => w128 w) (map (wcol crhash k leaves ctr) (seq 0 128))).
  { apply Forall_forall. intros w Hw. apply in_map_iff in Hw as (c & <- & _). apply wcol_lt. }
  destruct compact; auto. cbn [put0]. constructor; auto. destruct (map (wcol crhash k leaves ctr) (seq 0 128)); auto. inversion F; auto.
Qed.
End Gens.

(** ** Transposing *)
Lemma transposed_rows tr (W V : list N) (delta r : N) : is_transpose128 tr -> w128 delta -> w128 r ->
  length W = 128 -> Forall (fun w => w128 w) W -> length V = 128 ->
  (forall c, c < 128 -> nth c V 0%N = N.lxor (nth c W 0%N) (if N.testbit delta (N.of_nat c) then r else 0%N)) ->
  length (transpose tr W) = 128 /\ length (transpose tr V) = 128 /\
  forall j, j < 128 -> nth j (transpose tr V) 0%N = N.lxor (nth j (transpose tr W) 0%N) (if N.testbit r (N.of_nat j) then delta else 0%N).
Proof.
  intros HT Hd Hr LW FW LV R.
  assert (FV : Forall (fun w => w128 w) V).
  { apply Forall_forall. intros w Hw. apply (In_nth _ _ 0%N) in Hw as (c & Hc & <-). rewrite R by lia. rewrite Forall_forall in FW.
    apply xor_lt; [apply FW; apply nth_In; lia|]. destruct (N.testbit delta (N.of_nat c)); [auto|reflexivity]. }
  destruct (transpose_spec tr V HT FV LV) as (A1 & A2 & A3). destruct (transpose_spec tr W HT FW LW) as (B1 & B2 & B3).
  split; auto. split; auto. intros j Hj. rewrite Forall_forall in A2, B2. apply word_ext128.
  - apply A2. apply nth_In. lia.
  - apply xor_lt; [apply B2; apply nth_In; lia|]. destruct (N.testbit r (N.of_nat j)); [auto|reflexivity].
  - intros c Hc. rewrite N.lxor_spec, A3, B3, R, N.lxor_spec by auto. f_equal.
    destruct (N.testbit delta (N.of_nat c)) eqn:Es, (N.testbit r (N.of_nat j)) eqn:Er; rewrite ?N.bits_0; auto.
Qed.

(** ** Layout of the batches and messages *)
Lemma layout step n : 1 <= step ->
  all_num step n = (n + 191) / 128 /\ all_num step n * 128 = expand n /\ super_num step n * step <= all_num step n /\
  all_num step n = super_num step n * step + single_num step n /\ single_num step n <= step + 1 /\ n + 64 <= all_num step n * 128.
Proof.
  intros Hs. unfold all_num, single_num, expand. replace (n + 64 + 128 - 1) with (n + 191) by lia.
  set (E := (n + 191) / 128). unfold super_num.
  pose proof (Nat.div_mod (n + 191) 128 ltac:(lia)) as DE. pose proof (Nat.mod_upper_bound (n + 191) 128 ltac:(lia)) as ME. fold E in DE.
  pose proof (Nat.div_mod n (step * 128) ltac:(lia)) as DS. pose proof (Nat.mod_upper_bound n (step * 128) ltac:(lia)) as MS.
  set (s := n / (step * 128)) in *. set (r := n mod (step * 128)) in *. set (re := (n + 191) mod 128) in *. clearbody E s r re.
  assert (X : step * 128 * s = s * step * 128) by (rewrite (Nat.mul_comm s step); lia).
  replace (s * (step * 128)) with (s * step * 128) by lia.
  set (q := s * step) in *. clearbody q.
  replace (E * 128 - q * 128) with ((E - q) * 128) by lia.
  replace ((E - q) * 128 + 128 - 1) with (127 + (E - q) * 128) by lia. rewrite Nat.div_add, (Nat.div_small 127) by lia.
  cbn [Nat.add]. lia.
Qed.
Lemma concat_uniform_len {A} (ls : list (list A)) R : (forall l, In l ls -> length l = R) -> length (concat ls) = length ls * R.
Proof. induction ls as [|l ls IH]; intros H; cbn [concat length Nat.mul]; auto. rewrite app_length, IH, (H l) by (intros; try apply H; cbn; auto). reflexivity. Qed.
Lemma concat_chunks {A} (ls : list (list A)) R : (forall l, In l ls -> length l = R) ->
  map (fun s => firstn R (skipn (s * R) (concat ls))) (seq 0 (length ls)) = ls.
Proof.
  induction ls as [|l ls IH]; intros H; [reflexivity|]. cbn [length]. rewrite map_seq_S.
  assert (L : length l = R) by (apply H; left; auto). f_equal.
  - cbn [Nat.mul]. rewrite skipn_O. cbn [concat]. rewrite firstn_app, firstn_all2, L, Nat.sub_diag, firstn_O, app_nil_r by lia. reflexivity.
  - rewrite <- IH at 2 by (intros; apply H; right; auto). apply map_ext. intros s. f_equal. cbn [concat Nat.mul].
    rewrite skipn_app, skipn_all2 by lia. cbn [app]. f_equal. lia.
Qed.
Lemma blocks_firstn {A} (us : list A) step : forall s, flat_map (fun t => firstn step (skipn (t * step) us)) (seq 0 s) = firstn (s * step) us.
Proof.
  induction s as [|s IH]; [reflexivity|]. rewrite seq_S, flat_map_app, IH. cbn [flat_map Nat.add]. rewrite app_nil_r.
  replace (S s * step) with (s * step + step) by (cbn [Nat.mul]; lia).
  rewrite <- (firstn_skipn (s * step) (firstn (s * step + step) us)).
  rewrite firstn_firstn. replace (Nat.min (s * step) (s * step + step)) with (s * step) by lia. f_equal.
  rewrite firstn_skipn_comm. reflexivity.
Qed.
Lemma In_firstn {A} (l : list A) n x : In x (firstn n l) -> In x l.
Proof. intros H. rewrite <- (firstn_skipn n l). apply in_or_app. auto. Qed.
Lemma In_skipn {A} (l : list A) n x : In x (skipn n l) -> In x l.
Proof. intros H. rewrite <- (firstn_skipn n l). apply in_or_app. auto. Qed.
Lemma unpack_pack step num n us : 1 <= step -> length us = all_num step n -> (forall u, In u us -> length u = num) ->
  unpack step num n (pack step n us) = Some us.
Proof.
  intros Hs L H. destruct (layout step n Hs) as (_ & _ & Q & A & _ & _). unfold unpack, pack. cbn zeta.
  set (s := super_num step n) in *.
  set (sup := map (fun t => concat (firstn step (skipn (t * step) us))) (seq 0 s)). set (sgl := skipn (s * step) us).
  assert (Ls : length sup = s) by (unfold sup; rewrite map_length, seq_length; auto).
  assert (Lg : length sgl = single_num step n) by (unfold sgl; rewrite skipn_length; lia).
  rewrite app_length, Ls, Lg, Nat.eqb_refl. cbn [negb].
  rewrite firstn_app, Ls, Nat.sub_diag, firstn_O, app_nil_r, (firstn_all2 sup) by lia.
  rewrite skipn_app, Ls, Nat.sub_diag, skipn_O, (skipn_all2 sup) by lia. cbn [app].
  assert (LL : forall t, t < s -> length (firstn step (skipn (t * step) us)) = step).
  { intros t Ht. rewrite firstn_length, skipn_length. assert (S t * step <= s * step) by (apply Nat.mul_le_mono_r; lia). cbn [Nat.mul] in *. lia. }
  assert (IN : forall t l, In l (firstn step (skipn (t * step) us)) -> length l = num).
  { intros t l Hl. apply H. apply In_firstn in Hl. apply In_skipn in Hl. auto. }
  rewrite (proj2 (forallb_forall _ sup)).
  2: { intros m Hm. apply in_map_iff in Hm as (t & <- & Ht). apply in_seq in Ht. apply Nat.eqb_eq.
       rewrite (concat_uniform_len _ num) by (apply IN). rewrite LL by lia. reflexivity. }
  rewrite (proj2 (forallb_forall _ sgl)).
  2: { intros m Hm. apply Nat.eqb_eq. apply H. apply In_skipn in Hm. auto. }
  cbn [andb]. f_equal. unfold sgl. rewrite <- (firstn_skipn (s * step) us) at 2. f_equal.
  rewrite <- blocks_firstn. unfold sup. rewrite flat_map_concat_map, map_map, <- flat_map_concat_map.
  assert (FE : forall l, (forall t, In t l -> t < s) ->
    flat_map (fun t => map (fun s0 => firstn num (skipn (s0 * num) (concat (firstn step (skipn (t * step) us))))) (seq 0 step)) l =
    flat_map (fun t => firstn step (skipn (t * step) us)) l).
  { induction l as [|t l IH]; intros Hl; cbn [flat_map]; auto. rewrite IH by (intros; apply Hl; right; auto). f_equal.
    rewrite <- (LL t) at 1 by (apply Hl; left; auto). apply concat_chunks. apply IN. }
  apply FE. intros t Ht. apply in_seq in Ht. lia.
Qed.

(** ** The blocks of the batches *)
Lemma rows_spec tr n ms : batch_num n <= length ms -> (forall b, b * 128 < n -> length (transpose tr (nth b ms [])) = 128) ->
  length (rows tr n ms) = n /\ forall j, j < n -> nth j (rows tr n ms) 0%N = nth (j mod 128) (transpose tr (nth (j / 128) ms [])) 0%N.
Proof.
  intros L H. unfold rows.
  replace (seq 0 (length ms)) with (seq 0 (batch_num n) ++ seq (batch_num n) (length ms - batch_num n)).
  2: { replace (length ms) with (batch_num n + (length ms - batch_num n)) at 2 by lia. rewrite (seq_app (batch_num n) (length ms - batch_num n) 0). reflexivity. }
  rewrite flat_map_app.
  assert (Z : forall l, (forall b, In b l -> batch_num n <= b) ->
     flat_map (fun b => firstn (Nat.min 128 (n - b * 128)) (transpose tr (nth b ms []))) l = []).
  { induction l as [|b l IH]; intros Hl; cbn [flat_map]; auto. rewrite IH by (intros; apply Hl; right; auto).
    assert (LB : batch_num n <= b) by (apply Hl; left; auto).
    assert (G : n <= b * 128) by (destruct (Nat.le_gt_cases n (b * 128)) as [|C]; auto; apply batch_num_range in C; lia).
    replace (n - b * 128) with 0 by lia. rewrite Nat.min_0_r. reflexivity. }
  rewrite (Z (seq (batch_num n) (length ms - batch_num n))) by (intros b Hb; apply in_seq in Hb; lia). rewrite app_nil_r.
  exact (chopped_all n (fun b => transpose tr (nth b ms [])) 0%N H).
Qed.

(** ** The check *)
Lemma clmul_span_acc x : forall y acc, gf64_clmul_span x y acc = N.lxor acc (gf64_clmul_span x y 0%N).
Proof.
  assert (H : forall n x y acc, length x <= n -> gf64_clmul_span x y acc = N.lxor acc (gf64_clmul_span x y 0%N)).
  { induction n as [|n IH]; intros [|x0 [|x1 xs]] y acc L; cbn [length] in L; try lia; try (destruct y; cbn [gf64_clmul_span]; rewrite ?N.lxor_0_r; reflexivity).
    - destruct y as [|y0 [|y1 ys]]; cbn [gf64_clmul_span]; rewrite ?N.lxor_0_r, ?N.lxor_0_l; auto.
    - destruct y as [|y0 [|y1 ys]]; cbn [gf64_clmul_span]; rewrite ?N.lxor_0_r; auto.
      rewrite (IH xs ys) by lia. rewrite (IH xs ys (N.lxor (N.lxor 0 _) _)) by lia. rewrite N.lxor_0_l, !N.lxor_assoc. reflexivity. }
  intros y acc. apply (H (length x)). auto.
Qed.
Lemma check_val_ip samples cl : Forall (word 64) samples -> length samples = 2 * length cl -> check_val samples cl = ip samples (as_u64 cl).
Proof.
  intros W L.
  assert (E : forall cl samples acc, length samples = 2 * length cl ->
    fold_left (fun acc i => N.lxor acc (gf64_clmul_span (firstn 2 (skipn (i * 2) samples)) (as_u64 [nth i cl 0%N]) 0%N)) (seq 0 (length cl)) acc =
    gf64_clmul_span samples (as_u64 cl) acc).
  { clear. induction cl as [|w cl IH]; intros samples acc L.
    - cbn [length seq fold_left as_u64 flat_map]. destruct samples; [reflexivity|cbn in L; lia].
    - destruct samples as [|a [|b samples]]; cbn [length] in L; try lia.
      cbn [length seq fold_left]. rewrite <- seq_shift.
      assert (FS : forall (f : N -> nat -> N) l a0, fold_left f (map S l) a0 = fold_left (fun x i => f x (S i)) l a0)
        by (intros f l; induction l as [|x l IHl]; intros a0; cbn; auto).
      rewrite FS. cbn [Nat.mul skipn nth firstn]. rewrite (IH samples) by lia.
      cbn [as_u64 flat_map app]. fold (as_u64 cl). cbn [gf64_clmul_span]. f_equal. rewrite N.lxor_0_l, N.lxor_assoc. reflexivity. }
  unfold check_val. rewrite E by auto.
  assert (I : inner samples (as_u64 cl) = Some (ip samples (as_u64 cl))) by (apply inner_ip; auto using as_u64_words; rewrite as_u64_length; auto).
  unfold inner, gf64_mul_span in I. destruct (Nat.eqb (length samples) (length (as_u64 cl))); congruence.
Qed.
Lemma check_x_ip samples words : Forall (word 64) samples -> length samples = 2 * length words ->
  gf64_reduce (gf64_clmul_span samples (as_u64 words) 0%N) = ip samples (as_u64 words).
Proof.
  intros W L. assert (I : inner samples (as_u64 words) = Some (ip samples (as_u64 words))) by (apply inner_ip; auto using as_u64_words; rewrite as_u64_length; auto).
  unfold inner, gf64_mul_span in I. destruct (Nat.eqb (length samples) (length (as_u64 words))); congruence.
Qed.
