(** Properties C75 and C76: the Ferret OT extension. *)
From Coq Require Import NArith List Bool Arith Lia.
From Verif Require Import GfModel GfProof GfProps LinCodeModel SpcotModel SpcotProof SpcotProps FerretModel FerretProof FerretCheck FerretProof2.
From Verif Require LinCodeProps.
Import ListNotations.
Open Scope nat_scope.

(** ** C75: extension *)
(** The COTs one MPCOT takes, and the parameters for which Ferret works: the number of
    bins divides n, bins have at least 2 elements, the sizes fit the linear code, and a
    batch produces more than the next one consumes. *)
Definition mpcots (mal : bool) (n t : nat) : nat := t * log2ceil (n / t) + (if mal then 128 else 0).
Definition supported (mal : bool) (n k t : nat) : Prop :=
  0 < t /\ n = t * (n / t) /\ 1 < n / t /\ (N.of_nat (n / t) <= 2 ^ 31)%N /\ (1 <= N.of_nat k < 2 ^ 31)%N /\
  (N.of_nat n <= 2 ^ 32 - 1024)%N /\ k + mpcots mal n t < n.
Definition params (n k t : nat) : lpn := mkLpn (N.of_nat n) (N.of_nat k) (N.of_nat t).

Lemma log2_of_nat x : N.log2 (N.of_nat x) = N.of_nat (Nat.log2 x).
Proof.
  destruct x as [|x]; [reflexivity|]. apply N.log2_unique; [lia|]. pose proof (Nat.log2_spec (S x) ltac:(lia)) as [A B].
  assert (P : forall y, (2 ^ N.of_nat y)%N = N.of_nat (2 ^ y)).
  { induction y as [|y IH]; [reflexivity|]. rewrite Nat2N.inj_succ, N.pow_succ_r, IH by lia. cbn [Nat.pow]. lia. }
  rewrite <- Nat2N.inj_succ, !P. lia.
Qed.
Lemma log2_ceil_of_nat x : 0 < x -> log2_ceil (N.of_nat x) = Some (N.of_nat (log2ceil x)).
Proof.
  intros H. unfold log2_ceil, log2ceil, Nat.log2_up. rewrite (proj2 (N.eqb_neq (N.of_nat x) 0)) by lia.
  destruct (Nat.compare_spec 1 x) as [<-|G|G]; [reflexivity| |lia]. rewrite (proj2 (N.eqb_neq (N.of_nat x) 1)) by lia.
  replace (N.of_nat x - 1)%N with (N.of_nat (Nat.pred x)) by lia. rewrite log2_of_nat. f_equal. lia.
Qed.
Lemma log2ceil_le x : log2ceil x <= x.
Proof.
  destruct (Nat.le_gt_cases x 1) as [|G]; [unfold log2ceil; rewrite Nat.log2_up_eqn0 by auto; lia|].
  destruct (log2ceil_spec x G) as [[A _] B]. pose proof (Nat.pow_gt_lin_r 2 (log2ceil x - 1) ltac:(lia)). lia.
Qed.
(** The number of COTs FerretCotHelper asks for. *)
Theorem ferret_helper mal n k t : supported mal n k t ->
  mpcot_helper (N.of_nat t) (N.of_nat n) mal = Val (N.of_nat (mpcots mal n t)) /\
  cot_helper (params n k t) mal = Val (N.of_nat (k + mpcots mal n t)).
Proof.
  intros (T & D & B1 & B2 & K & Nn & R). set (b := n / t) in *.
  assert (E : forall m, mpcot_helper (N.of_nat t) (N.of_nat n) m = Val (N.of_nat (mpcots m n t))).
  { intros m. unfold mpcot_helper, mpcots. fold b. rewrite (proj2 (N.eqb_neq (N.of_nat t) 0)) by lia.
    assert (Tn : t <= n) by nia. assert (P64 : (2 ^ 64 = 2 ^ 32 * 2 ^ 32)%N) by reflexivity.
    assert (Hn' : (N.of_nat n < 2 ^ 32)%N) by (eapply N.le_lt_trans; [exact Nn|reflexivity]).
    assert (L33 : (2 ^ 33 < 2 ^ 64)%N) by reflexivity. assert (L32 : (2 ^ 33 = 2 * 2 ^ 32)%N) by reflexivity.
    rewrite (sub64_le (N.of_nat n + N.of_nat t)) by lia. rewrite w64_small by lia.
    assert (Eb : ((N.of_nat n + N.of_nat t - 1) / N.of_nat t = N.of_nat b)%N).
    { symmetry. apply N.div_unique with (N.of_nat t - 1)%N; nia. }
    rewrite Eb, (sub64_le (N.of_nat t) 1) by lia.
    replace (N.of_nat t - 1)%N with (N.of_nat (t - 1)) by lia. rewrite <- Nat2N.inj_mul.
    assert (Hbt : b * (t - 1) <= n) by nia. rewrite (w64_small (N.of_nat (b * (t - 1)))) by lia. rewrite sub64_le by lia.
    replace (N.of_nat n - N.of_nat (b * (t - 1)))%N with (N.of_nat b) by nia.
    rewrite log2_ceil_of_nat by lia. cbn [of_opt bind]. pose proof (log2ceil_le b) as Lb.
    assert (Hm : t * log2ceil b <= n) by nia. f_equal. rewrite <- Nat2N.inj_mul, w64_small.
    - destruct m; nia.
    - assert (log2ceil b * (t - 1) + log2ceil b = t * log2ceil b) by nia. destruct m; lia. }
  split; [apply E|]. unfold cot_helper, params. cbn [ln lk lt]. rewrite E. cbn [bind]. f_equal. unfold mpcots in *.
  assert (L33 : (2 ^ 33 < 2 ^ 64)%N) by reflexivity. assert (Hn' : (N.of_nat n < 2 ^ 32)%N) by (eapply N.le_lt_trans; [exact Nn|reflexivity]).
  assert (L32 : (2 ^ 33 = 2 * 2 ^ 32)%N) by reflexivity.
  rewrite w64_small; destruct mal; lia.
Qed.
Print Assumptions ferret_helper.

(** Any number of OTs, over any number of batches: both parties return and hold ot_num
    compact COTs under the base delta.  The receiver's blocks are those of a chain of
    batches; what seeds the next batch is never handed out; the choices of a batch are
    its seed's choices under the linear code plus one puncture in every bin, at the
    position the bin's COTs spell.  With the check, the bins must have a power of two
    of elements and every batch more than two bins. *)
Theorem ferret_correct h digest delta rp tape check_seed (cheetah mal : bool) n k t ot base_s base_r outs outr :
  (delta < 2 ^ 128)%N -> N.odd delta = true -> (forall i, (check_seed i < 2 ^ 128)%N) ->
  supported mal n k t -> 0 < ot -> (cheetah = false -> 2 * t <= ot) -> (N.of_nat ot < 2 ^ 63)%N -> length outs = ot -> length outr = ot ->
  let mp := mpcots mal n t in
  let sz := n - (k + mp) in
  Forall2 (paired delta) (s_buf base_s) (s_buf base_r) -> k + mp <= length (s_buf base_s) ->
  k + mpcots false n t <= s_len base_s -> k + mpcots false n t <= s_len base_r ->
  (mal = true -> (exists e, n / t = 2 ^ e) /\ 2 * (n / t) < tail_len n sz ot) ->
  exists os orr bs, ferret h digest delta rp tape check_seed cheetah mal (params n k t) (N.of_nat ot) base_s base_r outs outr = Val (os, orr) /\
    length os = ot /\ Forall2 (paired delta) os orr /\ orr = delivered sz bs /\
    chain rp n k sz mp (n / t) ot bs (span (s_buf base_r) (if cheetah then 0 else mp) k) (mkStore (s_buf base_r) (if cheetah then k else 0) mp).
Proof.
  intros Hd Od Hs S Ho Ht Ho63 L1 L2 mp sz P Hbuf Ls Lr Hmal.
  pose proof S as (T & D & B1 & B2 & K & Nn & R). fold mp in R.
  assert (Hmp : 0 < mp). { unfold mp, mpcots. destruct (log2ceil_spec (n / t) B1) as [_ Hl]. nia. }
  unfold ferret. assert (SF : supported false n k t). { unfold supported, mpcots in *. destruct mal; tauto || (repeat apply conj; try tauto; lia). }
  rewrite (proj2 (ferret_helper false n k t SF)). cbn [bind params ln lk lt].
  assert (Hn' : (N.of_nat n < 2 ^ 32)%N) by (eapply N.le_lt_trans; [exact Nn|reflexivity]).
  assert (L33 : (2 ^ 33 < 2 ^ 63)%N) by reflexivity. assert (L32 : (2 ^ 33 = 2 * 2 ^ 32)%N) by reflexivity.
  assert (L64 : (2 ^ 64 = 2 * 2 ^ 63)%N) by reflexivity. assert (Tn : t <= n) by nia.
  rewrite (proj2 (N.ltb_ge (N.of_nat (s_len base_s)) _)), (proj2 (N.ltb_ge (N.of_nat (s_len base_r)) _)) by lia. cbn [orb].
  rewrite (w64_small (2 * N.of_nat t)) by lia.
  replace (negb cheetah && (N.of_nat ot <? 2 * N.of_nat t)%N) with false.
  2: { destruct cheetah; [reflexivity|]. cbn [negb andb]. symmetry. apply N.ltb_ge. specialize (Ht eq_refl). lia. }
  rewrite L1, L2, N.eqb_refl. cbn [negb orb].
  rewrite (proj1 (ferret_helper mal n k t S)). cbn [bind]. fold mp.
  rewrite <- Nat2N.inj_add, (w64_small (N.of_nat (k + mp))) by lia. rewrite sub64_le by lia.
  replace (N.of_nat n - N.of_nat (k + mp))%N with (N.of_nat sz) by (unfold sz; lia). assert (Hsz : 0 < sz <= n) by (unfold sz; lia).
  rewrite (proj2 (N.eqb_neq (N.of_nat sz) 0)) by lia. rewrite (sub64_le (N.of_nat ot + N.of_nat sz) 1) by lia.
  rewrite (w64_small (N.of_nat ot + N.of_nat sz - 1)) by lia. rewrite !Nat2N.id.
  replace (N.of_nat ot + N.of_nat sz - 1)%N with (N.of_nat (ot + sz - 1)) by lia. rewrite <- Nat2N.inj_div, Nat2N.id.
  pose proof (Forall2_len _ _ _ P) as LP.
  destruct (LinCodeProps.linear_code_encode rp (N.of_nat k) 10 (repeat 0%N k) []) as (code & _ & Ec & _); try lia.
  { rewrite repeat_length. auto. }
  { cbn. discriminate. }
  assert (Fuel : ot <= 0 * sz + (ot + sz - 1) / sz * sz).
  { pose proof (Nat.div_mod (ot + sz - 1) sz ltac:(lia)). pose proof (Nat.mod_upper_bound (ot + sz - 1) sz ltac:(lia)). nia. }
  destruct (loop_ok h digest delta rp tape check_seed Hd Od Hs mal n k t ot code T D (conj B1 B2) K Nn Ho63 R Ec ((ot + sz - 1) / sz) 0
    (span (s_buf base_s) (if cheetah then 0 else mp) k) (span (s_buf base_r) (if cheetah then 0 else mp) k)
    (mkStore (s_buf base_s) (if cheetah then k else 0) mp) (mkStore (s_buf base_r) (if cheetah then k else 0) mp) outs outr)
    as (os & orr & bs & E & E2 & E3 & E4 & E5); auto.
  - cbn [Nat.mul firstn]. constructor.
  - apply span_length. destruct cheetah; lia.
  - apply Forall2_firstn, Forall2_skipn. auto.
  - cbn [s_off s_buf]. change (t * log2ceil (n / t) + (if mal then 128 else 0)) with mp. destruct cheetah; lia.
  - intros M. rewrite Nat.mul_0_l, Nat.sub_0_r. auto.
  - rewrite Nat.mul_0_l, Nat.sub_0_r in E5. exists os, orr, bs. split; [|auto].
    destruct cheetah; cbv iota beta; rewrite !slice_val by (cbn [s_buf]; lia); cbn [bind]; rewrite Ec; cbn [bind]; rewrite !blocks_slice.
    + replace (k + mp - k) with mp by lia. replace (0 + k - 0) with k by lia. exact E.
    + replace (0 + mp - 0) with mp by lia. replace (mp + k - mp) with k by lia. exact E.
Qed.
Print Assumptions ferret_correct.

(** The receiver's choices depend only on the choices of its base COTs and on the code's seed,
    which the sender draws. *)
Lemma odd_nth l l' i : map N.odd l = map N.odd l' -> N.odd (nth i l 0%N) = N.odd (nth i l' 0%N).
Proof. intros E. rewrite <- !(map_nth N.odd). cbn [N.odd]. rewrite E. reflexivity. Qed.
Lemma odd_span l l' i w : map N.odd l = map N.odd l' -> map N.odd (span l i w) = map N.odd (span l' i w).
Proof. intros E. unfold span. rewrite <- !firstn_map, <- !skipn_map, E. reflexivity. Qed.
Lemma bins_choices_odd l l' b bl m : map N.odd l = map N.odd l' -> forall i, bins_choices l b bl i m = bins_choices l' b bl i m.
Proof.
  intros E i. unfold bins_choices, bin_index. f_equal. apply map_ext. intros j. rewrite (odd_span l l' _ _ E). reflexivity.
Qed.
Lemma mpcot_choices_odd c c' r b : map N.odd (s_buf c) = map N.odd (s_buf c') -> s_off c = s_off c' -> mpcot_choices c r b = mpcot_choices c' r b.
Proof.
  intros E O. unfold mpcot_choices. cbn zeta. rewrite (bins_choices_odd _ _ b _ _ E), (odd_span _ _ _ _ E), O, (odd_nth _ _ _ E). reflexivity.
Qed.
Lemma code_choice_odd rp k j w w' : map N.odd w = map N.odd w' -> code_choice rp k j w = code_choice rp k j w'.
Proof. intros E. unfold code_choice. f_equal. apply map_ext. intros x. apply odd_nth. exact E. Qed.
Lemma chain_choices rp n k sz mp b : forall bs bs' ot w w' c c',
  map N.odd w = map N.odd w' -> map N.odd (s_buf c) = map N.odd (s_buf c') -> s_off c = s_off c' ->
  chain rp n k sz mp b ot bs w c -> chain rp n k sz mp b ot bs' w' c' -> map N.odd (delivered sz bs) = map N.odd (delivered sz bs').
Proof.
  induction bs as [|x bs IH]; intros [|x' bs'] ot w w' c c' Ew Ec Eo H H'; cbn [chain] in H, H'; try contradiction.
  destruct H as (L & C & R). destruct H' as (L' & C' & R').
  assert (E : map N.odd x = map N.odd x').
  { apply (nth_ext _ _ false false); [rewrite !map_length; lia|]. rewrite map_length. intros j Hj.
    change false with (N.odd 0). rewrite !map_nth. rewrite C, C' by lia. rewrite L, L', (mpcot_choices_odd c c' _ _ Ec Eo), (code_choice_odd _ _ _ w w' Ew). reflexivity. }
  cbn [delivered]. destruct bs as [|y bs], bs' as [|y' bs']; try (destruct R; lia); try (destruct R'; lia); [exact E|].
  destruct R as [_ R]. destruct R' as [_ R']. rewrite !map_app, <- !firstn_map, E. f_equal.
  apply (IH _ _ _ _ _ _ (odd_span _ _ sz k E) (odd_span _ _ (sz + k) mp E : map N.odd (s_buf (new_store _)) = map N.odd (s_buf (new_store _))) eq_refl R R').
Qed.
Theorem ferret_choices h h' digest digest' delta delta' rp tape tape' cs cs' cheetah mal n k t ot base_s base_s' base_r base_r' outs outr outs' outr' :
  (delta < 2 ^ 128)%N -> N.odd delta = true -> (delta' < 2 ^ 128)%N -> N.odd delta' = true -> (forall i, (cs i < 2 ^ 128)%N) -> (forall i, (cs' i < 2 ^ 128)%N) ->
  supported mal n k t -> 0 < ot -> (cheetah = false -> 2 * t <= ot) -> (N.of_nat ot < 2 ^ 63)%N ->
  length outs = ot -> length outr = ot -> length outs' = ot -> length outr' = ot ->
  let mp := mpcots mal n t in
  Forall2 (paired delta) (s_buf base_s) (s_buf base_r) -> k + mp <= length (s_buf base_s) ->
  k + mpcots false n t <= s_len base_s -> k + mpcots false n t <= s_len base_r ->
  Forall2 (paired delta') (s_buf base_s') (s_buf base_r') -> k + mp <= length (s_buf base_s') ->
  k + mpcots false n t <= s_len base_s' -> k + mpcots false n t <= s_len base_r' ->
  (mal = true -> (exists e, n / t = 2 ^ e) /\ 2 * (n / t) < tail_len n (n - (k + mp)) ot) ->
  map N.odd (s_buf base_r) = map N.odd (s_buf base_r') ->
  exists a b a' b', ferret h digest delta rp tape cs cheetah mal (params n k t) (N.of_nat ot) base_s base_r outs outr = Val (a, b) /\
    ferret h' digest' delta' rp tape' cs' cheetah mal (params n k t) (N.of_nat ot) base_s' base_r' outs' outr' = Val (a', b') /\
    map N.odd b = map N.odd b'.
Proof.
  intros. destruct (ferret_correct h digest delta rp tape cs cheetah mal n k t ot base_s base_r outs outr) as (a & b & bs & E & _ & _ & D & C); auto.
  destruct (ferret_correct h' digest' delta' rp tape' cs' cheetah mal n k t ot base_s' base_r' outs' outr') as (a' & b' & bs' & E' & _ & _ & D' & C'); auto.
  exists a, b, a', b'. split; [exact E|]. split; [exact E'|]. rewrite D, D'. eapply chain_choices; [| | |exact C|exact C'].
  - apply odd_span. assumption.
  - assumption.
  - reflexivity.
Qed.
Print Assumptions ferret_choices.

(** The default parameters of the library are supported, with and without the check. *)
Theorem ferret_default mal : supported mal (N.to_nat 10485760) (N.to_nat 452000) (N.to_nat 1280) /\
  N.of_nat (mpcots mal (N.to_nat 10485760) (N.to_nat 1280)) = (if mal then 16768 else 16640)%N /\ N.to_nat 10485760 / N.to_nat 1280 = 2 ^ 13.
Proof.
  assert (P13 : N.to_nat 8192 = 2 ^ 13).
  { replace (2 ^ 13) with (N.to_nat (2 ^ N.of_nat 13)); [reflexivity|]. change (N.of_nat 13) with 13%N. apply Nat2N.inj. rewrite N2Nat.id. vm_compute. reflexivity. }
  assert (D : N.to_nat 10485760 / N.to_nat 1280 = N.to_nat 8192).
  { rewrite <- N2Nat.inj_div. f_equal. }
  assert (L : log2ceil (N.to_nat 8192) = 13).
  { pose proof (log2_ceil_of_nat (N.to_nat 8192) ltac:(rewrite P13; apply Nat.neq_0_lt_0, Nat.pow_nonzero; discriminate)) as E. rewrite N2Nat.id in E.
    change (log2_ceil 8192) with (Some 13%N) in E.
    apply (f_equal (fun o => match o with Some x => x | None => 0%N end)) in E. cbv beta iota in E. apply Nat2N.inj. symmetry. exact E. }
  assert (M : N.of_nat (mpcots mal (N.to_nat 10485760) (N.to_nat 1280)) = (if mal then 16768 else 16640)%N).
  { unfold mpcots. rewrite D, L, Nat2N.inj_add, Nat2N.inj_mul, N2Nat.id. destruct mal; reflexivity. }
  split; [|split; [exact M|rewrite D; exact P13]].
  unfold supported. rewrite D. set (m := mpcots _ _ _) in *. clearbody m. rewrite !N2Nat.id.
  split; [lia|]. split; [rewrite <- N2Nat.inj_mul; reflexivity|]. split; [lia|]. split; [discriminate|]. split; [split; [discriminate|reflexivity]|]. split; [discriminate|].
  destruct mal; lia.
Qed.
Print Assumptions ferret_default.

(** A small run of three batches. *)
Definition ex_h (x : N) : N := (x * 5 + 77)%N.
Definition ex_rp (x : N) : N := (x * 0x9E3779B97F4A7C15F39CC0605CEDC835 + 0x123456789ABCDEF0FEDCBA987654321)%N.
Definition ex_tape (i j : nat) : N := (1000 * N.of_nat i + 10 * N.of_nat j + 4)%N.
Definition ex_delta : N := 0xF0F1.
Definition ex_base_s (len : nat) : list N := map (fun i => (2 * (N.of_nat i * N.of_nat i + 3))%N) (seq 0 len).
Definition ex_base_r (len : nat) : list N :=
  map (fun i => N.lxor ((2 * (N.of_nat i * N.of_nat i + 3))%N) (if N.testbit 0x5A6B3 (N.of_nat i) then ex_delta else 0%N)) (seq 0 len).
Definition ex_run : outcome (list N * list N) :=
  ferret ex_h (fun x => x) ex_delta ex_rp ex_tape (fun _ => 0%N) false false (params 16 4 2) 23
    (new_store (ex_base_s 10)) (new_store (ex_base_r 10)) (repeat 0%N 23) (repeat 0%N 23).
Definition mixed (x : outcome (list N * list N)) : bool :=
  match x with Val (a, b) => existsb N.odd b && existsb (fun x => negb (N.odd x)) b && (length a =? 23) | _ => false end.
Example ferret_concrete : supported false 16 4 2 /\ mpcots false 16 2 = 6 /\
  Forall2 (paired ex_delta) (ex_base_s 10) (ex_base_r 10) /\ mixed ex_run = true.
Proof.
  split; [unfold supported; repeat apply conj; vm_compute; congruence || reflexivity || (intros; congruence) || (repeat constructor)|].
  split; [reflexivity|]. split; [repeat constructor|]. vm_compute. reflexivity.
Qed.

Lemma bind_val {A B} (x : outcome A) (f : A -> outcome B) y : bind x f = Val y -> exists a, x = Val a /\ f a = Val y.
Proof. destruct x; cbn [bind]; intros H; try discriminate. eauto. Qed.
(** If t does not divide n, no batch of n can be made: every call for n or more OTs fails. *)
Theorem ferret_indivisible_refuted h digest delta rp tape check_seed cheetah mal n k t ot mp base_s base_r outs outr x :
  0 < t -> n mod t <> 0 -> n <= ot -> (N.of_nat ot < 2 ^ 63)%N -> mpcot_helper (N.of_nat t) (N.of_nat n) mal = Val (N.of_nat mp) -> k + mp < n ->
  ferret h digest delta rp tape check_seed cheetah mal (params n k t) (N.of_nat ot) base_s base_r outs outr <> Val x.
Proof.
  intros T M Ho Ho63 Eh R E. unfold ferret in E. cbn [params ln lk lt] in E. apply bind_val in E as (need & _ & E).
  destruct (_ || _)%bool; [discriminate|]. destruct (negb cheetah && _); [discriminate|].
  destruct (N.eqb_spec (N.of_nat (length outs)) (N.of_nat ot)) as [Lo|]; [|discriminate]. destruct (negb true || _)%bool; [discriminate|].
  rewrite Eh in E. cbn [bind] in E. assert (L64 : (2 ^ 64 = 2 * 2 ^ 63)%N) by reflexivity.
  rewrite <- Nat2N.inj_add, (w64_small (N.of_nat (k + mp))) in E by lia. rewrite sub64_le in E by lia. set (sz := (N.of_nat n - N.of_nat (k + mp))%N) in E.
  assert (Hsz : (0 < sz)%N) by (unfold sz; lia). rewrite (proj2 (N.eqb_neq sz 0)) in E by lia.
  assert (Hsz2 : (sz <= N.of_nat ot)%N) by (unfold sz; lia).
  rewrite (sub64_le (N.of_nat ot + sz) 1), (w64_small (N.of_nat ot + sz - 1)) in E by lia.
  assert (Hb : N.to_nat ((N.of_nat ot + sz - 1) / sz) <> 0).
  { assert (1 <= (N.of_nat ot + sz - 1) / sz)%N by (apply N.div_le_lower_bound; lia). lia. }
  destruct (N.to_nat ((N.of_nat ot + sz - 1) / sz)) as [|f]; [contradiction|]. clear Hb.
  destruct (if cheetah then _ else _) as [bm bk]. apply bind_val in E as (cs & _ & E). apply bind_val in E as (cr & _ & E).
  apply bind_val in E as (vs & _ & E). apply bind_val in E as (vr & _ & E). apply bind_val in E as (code & _ & E).
  cbn [run_batches params ln lk lt] in E. rewrite N.mul_0_l in E. change (w64 0) with 0%N in E. rewrite (sub64_le (N.of_nat ot) 0) in E by lia.
  rewrite N.sub_0_r, N.min_l in E by lia. destruct (N.of_nat ot <? 0)%N; [discriminate|].
  apply bind_val in E as (ab & E & _). unfold run_batch in E. apply bind_val in E as (y & E & _). unfold run_mpcot in E. apply bind_val in E as (om & E & _).
  rewrite span_length in E by lia. rewrite !Nat2N.id in E. rewrite <- Nat2N.inj_div, Nat2N.id in E. unfold mpcot_send in E.
  destruct (Nat.eqb_spec (n / t) 0) as [|Hb]; [discriminate|].
  destruct (Nat.leb_spec (div_ceil n (n / t)) t) as [Hle|]; [|discriminate].
  destruct (div_ceil_spec n (n / t) ltac:(lia) ltac:(lia)) as (D1 & D2 & D3).
  pose proof (Nat.div_mod n t ltac:(lia)). set (m := div_ceil n (n / t) - 1) in *. assert (S m * (n / t) <= t * (n / t)) by (apply Nat.mul_le_mono_r; lia). lia.
Qed.
Print Assumptions ferret_indivisible_refuted.
Example ferret_indivisible_concrete : 100 mod 7 <> 0 /\ mpcot_helper 7 100 false = Val 28%N /\ 10 + 28 < 100.
Proof. split; [discriminate|]. split; [vm_compute; reflexivity|lia]. Qed.

(** If a batch is smaller than what the next one needs, batch_size wraps and no batch is
    run at all: the call returns the output buffers as they were. *)
Theorem ferret_small_n_refuted h digest delta rp tape check_seed mal n k t ot mp mp0 base_s base_r outs outr :
  mpcot_helper (N.of_nat t) (N.of_nat n) mal = Val (N.of_nat mp) -> mpcot_helper (N.of_nat t) (N.of_nat n) false = Val (N.of_nat mp0) ->
  0 < mp -> (1 <= N.of_nat k < 2 ^ 31)%N -> (N.of_nat (k + mp) < 2 ^ 63)%N -> n < k + mp -> k + mp - n < ot -> 2 * t <= ot -> (N.of_nat ot < 2 ^ 63)%N ->
  k + mp0 <= s_len base_s -> k + mp0 <= s_len base_r -> k + mp <= length (s_buf base_s) -> k + mp <= length (s_buf base_r) ->
  length outs = ot -> length outr = ot ->
  ferret h digest delta rp tape check_seed false mal (params n k t) (N.of_nat ot) base_s base_r outs outr = Val (outs, outr).
Proof.
  intros Eh Eh0 Hm Hk Hkm Hn Ho Ht Ho63 S1 S2 B1 B2 L1 L2. unfold ferret, cot_helper. cbn [params ln lk lt]. rewrite Eh0. cbn [bind].
  assert (L64 : (2 ^ 64 = 2 * 2 ^ 63)%N) by reflexivity.
  assert (Hw : (w64 (N.of_nat k + N.of_nat mp0 + 0) <= N.of_nat (k + mp0))%N).
  { unfold w64. etransitivity; [apply N.mod_le; discriminate|]. lia. }
  rewrite (proj2 (N.ltb_ge (N.of_nat (s_len base_s)) _)), (proj2 (N.ltb_ge (N.of_nat (s_len base_r)) _)) by lia. cbn [orb negb andb].
  rewrite (w64_small (2 * N.of_nat t)) by lia. rewrite (proj2 (N.ltb_ge _ _)) by lia. rewrite L1, L2, N.eqb_refl. cbn [negb orb].
  rewrite Eh. cbn [bind]. rewrite <- Nat2N.inj_add, (w64_small (N.of_nat (k + mp))) by lia.
  assert (Esz : sub64 (N.of_nat n) (N.of_nat (k + mp)) = (2 ^ 64 - N.of_nat (k + mp - n))%N).
  { unfold sub64. rewrite (w64_small (N.of_nat (k + mp))) by lia. unfold w64. rewrite N.mod_small by lia. lia. }
  rewrite Esz. set (sz := (2 ^ 64 - N.of_nat (k + mp - n))%N). assert (Hsz : (2 ^ 63 < sz)%N) by (unfold sz; lia).
  rewrite (proj2 (N.eqb_neq sz 0)) by lia.
  assert (Eb : (w64 (sub64 (N.of_nat ot + sz) 1) / sz = 0)%N).
  { assert (E1 : sub64 (N.of_nat ot + sz) 1 = (N.of_nat ot - N.of_nat (k + mp - n) - 1)%N).
    { unfold sub64. change (w64 1) with 1%N. unfold w64.
      replace (N.of_nat ot + sz + (2 ^ 64 - 1))%N with (N.of_nat ot - N.of_nat (k + mp - n) - 1 + 2 * 2 ^ 64)%N by (unfold sz; lia).
      rewrite N.mod_add by discriminate. apply N.mod_small. lia. }
    rewrite E1, w64_small by lia. apply N.div_small. lia. }
  rewrite Eb. rewrite !Nat2N.id. cbn [N.to_nat run_batches].
  rewrite (slice_val base_s), (slice_val base_r), (slice_val base_s), (slice_val base_r) by lia. cbn [bind].
  destruct (LinCodeProps.linear_code_encode rp (N.of_nat k) 10 (repeat 0%N k) []) as (code & _ & Ec & _); try lia.
  { rewrite repeat_length. auto. }
  { cbn. discriminate. }
  rewrite Ec. reflexivity.
Qed.
Print Assumptions ferret_small_n_refuted.
(** n = 8 in 2 bins, k = 10: 14 COTs are consumed per batch; 7 OTs are asked for. *)
Example ferret_small_n_concrete : mpcot_helper 2 8 false = Val 4%N /\ 8 < 10 + 4 /\ 10 + 4 - 8 < 7 /\ 2 * 2 <= 7 /\
  ferret ex_h (fun x => x) ex_delta ex_rp ex_tape (fun _ => 0%N) false false (params 8 10 2) 7
    (new_store (ex_base_s 14)) (new_store (ex_base_r 14)) [1; 2; 3; 4; 5; 6; 7]%N (repeat 9%N 7) = Val ([1; 2; 3; 4; 5; 6; 7]%N, repeat 9%N 7).
Proof.
  split; [vm_compute; reflexivity|]. split; [lia|]. split; [lia|]. split; [lia|].
  apply (ferret_small_n_refuted _ _ _ _ _ _ false 8 10 2 7 4 4); try reflexivity; cbn; lia.
Qed.

(** If t does not divide n, the MPCOT of a short batch can take more COTs than were set
    aside for it: 9 instead of 8 here.  The ninth is the first of the linear code's seed. *)
Theorem ferret_overlap_refuted : exists n k t ot, 0 < t /\ 2 * t <= ot /\ n mod t <> 0 /\ ot < n /\ mpcot_helper (N.of_nat t) (N.of_nat n) false = Val 8%N /\
  mpcot_need ot (n / t) = 9 /\ k + 8 < n /\
  (exists a b, mpcot_send ex_h ex_delta (mkStore (ex_base_s (8 + k)) 0 8) ot t (n / t) (ex_tape 0) (repeat 0%N ot) = Val (a, b)) /\
  mpcot_send ex_h ex_delta (new_store (ex_base_s 8)) ot t (n / t) (ex_tape 0) (repeat 0%N ot) = Thrown.
Proof.
  exists 16, 4, 3, 15. split; [lia|]. split; [lia|]. split; [discriminate|]. split; [lia|]. split; [vm_compute; reflexivity|]. split; [reflexivity|]. split; [cbn; lia|].
  split; [eexists; eexists; vm_compute; reflexivity|vm_compute; reflexivity].
Qed.

(** The _cheetah version slices the MPCOT COTs out of the seed: it gives the same output
    whatever the COTs set aside for the MPCOT are. *)
Definition cheetah_run (extra : N) : outcome (list N * list N) :=
  ferret ex_h (fun x => x) ex_delta ex_rp ex_tape (fun _ => 0%N) true false (params 16 6 2) 10
    (new_store (ex_base_s 6 ++ repeat extra 6)) (new_store (ex_base_r 6 ++ repeat extra 6)) (repeat 0%N 10) (repeat 0%N 10).
Theorem ferret_cheetah_reuse_refuted : supported false 16 6 2 /\ mpcots false 16 2 = 6 /\
  Forall2 (paired ex_delta) (ex_base_s 6) (ex_base_r 6) /\ paired ex_delta 2 2 /\ paired ex_delta 4 4 /\
  cheetah_run 2 = cheetah_run 4 /\ exists a b, cheetah_run 2 = Val (a, b).
Proof.
  split; [unfold supported; repeat apply conj; vm_compute; congruence || reflexivity || (intros; congruence) || (repeat constructor)|].
  split; [reflexivity|]. split; [repeat constructor|]. split; [repeat split|]. split; [repeat split|]. split; [vm_compute; reflexivity|].
  eexists. eexists. vm_compute. reflexivity.
Qed.
Print Assumptions ferret_cheetah_reuse_refuted.

(** ** C76: the check of the malicious version *)
(** Both parties hold the same check COTs, correctly paired; [os] and [orr] are what they
    have after the MPCOT, whatever the messages were. *)
Definition check_state (delta : N) (cs cr : store) (range bs : nat) (os orr : list N) : Prop :=
  (delta < 2 ^ 128)%N /\ Forall2 (paired delta) (s_buf cs) (s_buf cr) /\ s_off cs = 0 /\ s_off cr = 0 /\
  log2ceil bs * (div_ceil range bs - 1) + log2ceil (range - (div_ceil range bs - 1) * bs) + 128 <= length (s_buf cs) /\
  length os = length orr /\ Forall (word 128) os /\ Forall (word 128) orr /\ (N.of_nat (length orr) <= 2 ^ 63)%N.
Definition consistent (delta : N) (os orr : list N) : Prop :=
  forall i, i < length os -> nth i orr 0%N = N.lxor (nth i os 0%N) (if N.odd (nth i orr 0%N) then delta else 0%N).

Lemma check_run digest delta cs cr range bs seed os orr : check_state delta cs cr range bs os orr -> word 128 seed -> good_positions orr ->
  exists v, run_check digest delta cs cr range bs seed os orr =
    if (digest v =? digest (N.lxor v (universal_hash gf128_mul seed (errors delta os orr))))%N then Val tt else Thrown.
Proof.
  intros (Hd & R & Oc & Or & Hfit & L & Wo & Wr & Hl) Hs G. pose proof (Forall2_len _ _ _ R) as LR.
  unfold run_check, check_slice. set (p := log2ceil bs * (div_ceil range bs - 1) + log2ceil (range - (div_ceil range bs - 1) * bs)) in *.
  rewrite (slice_val cs), (slice_val cr) by lia. cbn [bind]. replace (p + 128 - p) with 128 by lia.
  destruct (check_general digest delta Hd (mkStore (s_buf cs) p 128) (mkStore (s_buf cr) p 128) seed os orr) as (mm & v & F1 & _ & Wv & F2); auto.
  - unfold blocks. cbn [s_buf s_off s_len]. apply Forall2_firstn, Forall2_skipn. auto.
  - rewrite blocks_slice. apply span_length. lia.
  - exists v. rewrite F1. cbn [bind fst snd]. rewrite F2. reflexivity.
Qed.
Lemma errors_words delta os orr : (delta < 2 ^ 128)%N -> Forall (word 128) os -> Forall (word 128) orr -> Forall (word 128) (errors delta os orr).
Proof. intros Hd Ho Hr. unfold errors. apply vxor_words; [apply vxor_words; auto|apply sel_words; auto]. Qed.

(** The check accepts exactly when the hash of the errors is zero. *)
Theorem ferret_check_exact digest delta cs cr range bs seed os orr :
  check_state delta cs cr range bs os orr -> word 128 seed -> good_positions orr -> (forall x y, digest x = digest y -> x = y) ->
  run_check digest delta cs cr range bs seed os orr = if (hash_spec gf128_mul seed (errors delta os orr) =? 0)%N then Val tt else Thrown.
Proof.
  intros C Hs G Inj. destruct (check_run digest delta cs cr range bs seed os orr C Hs G) as (v & ->).
  destruct C as (Hd & _ & _ & _ & _ & _ & Wo & Wr & _). rewrite <- (proj2 universal_hash_correct) by auto using errors_words.
  set (u := universal_hash _ _ _). destruct (N.eqb_spec u 0) as [->|Hu]; [rewrite N.lxor_0_r, N.eqb_refl; reflexivity|].
  destruct (N.eqb_spec (digest v) (digest (N.lxor v u))) as [E|]; [|reflexivity]. apply Inj in E. exfalso. apply Hu.
  apply (f_equal (N.lxor v)) in E. rewrite <- N.lxor_assoc, N.lxor_nilpotent, N.lxor_0_l in E. auto.
Qed.
Print Assumptions ferret_check_exact.

(** Outputs that are not correlated pass for at most as many seeds as there are outputs. *)
Theorem ferret_check_sound digest delta cs cr range bs os orr seeds :
  check_state delta cs cr range bs os orr -> good_positions orr -> (forall x y, digest x = digest y -> x = y) ->
  Forall (word 128) seeds -> NoDup seeds -> length os < length seeds ->
  (forall s, In s seeds -> run_check digest delta cs cr range bs s os orr = Val tt) -> consistent delta os orr.
Proof.
  intros C G Inj Ws ND Len Acc. pose proof C as (Hd & _ & _ & _ & _ & L & Wo & Wr & _). pose proof (errors_words delta os orr Hd Wo Wr) as We.
  assert (Le : length (errors delta os orr) = length os) by (unfold errors; rewrite !vxor_length, ?map_length; auto; rewrite ?vxor_length, ?map_length; auto).
  unfold consistent. apply errors_zero; auto.
  assert (Z : Forall (fun x => x = 0%N) (0%N :: errors delta os orr)).
  { apply (root_bound gf128_mul gf128_field (S (length os)) _ seeds); auto.
    - cbn [length]. rewrite Le. reflexivity.
    - constructor; auto. reflexivity.
    - rewrite Forall_forall. intros s Hs. rewrite Forall_forall in Ws. specialize (Acc s Hs).
      rewrite (ferret_check_exact digest delta cs cr range bs s os orr C (Ws s Hs) G Inj) in Acc.
      destruct (N.eqb_spec (hash_spec gf128_mul s (errors delta os orr)) 0) as [E|]; [|discriminate].
      rewrite <- uhash_ev by auto. rewrite (proj2 universal_hash_correct) by auto. exact E. }
  inversion Z. auto.
Qed.
Print Assumptions ferret_check_sound.
(** The correlated outputs pass for every seed (no assumption on the digest). *)
Theorem ferret_check_complete digest delta cs cr range bs seed os orr :
  check_state delta cs cr range bs os orr -> word 128 seed -> good_positions orr -> Forall2 (paired delta) os orr ->
  run_check digest delta cs cr range bs seed os orr = Val tt.
Proof.
  intros C Hs G P. destruct (check_run digest delta cs cr range bs seed os orr C Hs G) as (v & ->).
  rewrite errors_paired, uhash_zero, N.lxor_0_r, N.eqb_refl by auto. reflexivity.
Qed.
Print Assumptions ferret_check_complete.

(** But the seed is drawn by the sender, the party that is checked.  With seed 0 everything passes. *)
Theorem ferret_check_zero_seed digest delta cs cr range bs os orr :
  check_state delta cs cr range bs os orr -> good_positions orr -> run_check digest delta cs cr range bs 0 os orr = Val tt.
Proof.
  intros C G. destruct (check_run digest delta cs cr range bs 0 os orr C eq_refl G) as (v & ->).
  destruct C as (Hd & _ & _ & _ & _ & _ & Wo & Wr & _).
  rewrite uhash_ev by (reflexivity || auto using errors_words). cbn [ev].
  rewrite (mu_0_l gf128_mul gf128_field) by (apply ev_word; [exact gf128_field|auto using errors_words|reflexivity]).
  rewrite N.lxor_0_r, N.eqb_refl. reflexivity.
Qed.
Print Assumptions ferret_check_zero_seed.

(** Three bins of 2; the sender changes the message of the second bin. *)
Definition cheat_os : list N := match mpcot_send ex_h ex_delta (new_store (ex_base_s 131)) 6 3 2 (ex_tape 0) (repeat 0%N 6) with Val (o, _) => o | _ => [] end.
Definition cheat_msgs : list (list N) :=
  match mpcot_send ex_h ex_delta (new_store (ex_base_s 131)) 6 3 2 (ex_tape 0) (repeat 0%N 6) with
  | Val (_, [a; [b]; c]) => [a; [N.lxor b 0x100]; c]
  | _ => []
  end.
Definition cheat_orr : list N := match mpcot_recv ex_h (new_store (ex_base_r 131)) 6 3 2 cheat_msgs (repeat 0%N 6) with Val r => r | _ => [] end.
Definition pairedb (delta s r : N) : bool := ((s <? 2 ^ 128) && negb (N.odd s) && (r =? N.lxor s (if N.odd r then delta else 0)))%N.
Lemma pairedb_spec delta l : forall m, length l = length m -> forallb (fun p => pairedb delta (fst p) (snd p)) (combine l m) = true -> Forall2 (paired delta) l m.
Proof.
  induction l as [|x l IH]; intros [|y m] L H; try discriminate; constructor; cbn [combine forallb fst snd] in H; apply andb_prop in H as [H1 H2]; [|apply IH; auto].
  unfold pairedb in H1. apply andb_prop in H1 as [H1 H3]. apply andb_prop in H1 as [H0 H1]. apply N.ltb_lt in H0. apply N.eqb_eq in H3.
  repeat split; auto. destruct (N.odd x); auto; discriminate.
Qed.
Lemma base_131 : Forall2 (paired ex_delta) (ex_base_s 131) (ex_base_r 131).
Proof. apply pairedb_spec; vm_compute; reflexivity. Qed.
Definition words (l : list N) : bool := forallb (fun x => (x <? 2 ^ 128)%N) l.
Lemma words_spec l : words l = true -> Forall (word 128) l.
Proof. intros H. apply Forall_forall. intros x Hx. unfold words in H. rewrite forallb_forall in H. apply N.ltb_lt, H. auto. Qed.
Theorem ferret_check_refuted : exists cs cr os msgs orr good,
  mpcot_send ex_h ex_delta cs 6 3 2 (ex_tape 0) (repeat 0%N 6) = Val (os, good) /\ msgs <> good /\
  mpcot_recv ex_h cr 6 3 2 msgs (repeat 0%N 6) = Val orr /\ check_state ex_delta cs cr 6 2 os orr /\ good_positions orr /\
  ~ consistent ex_delta os orr /\ forall digest, run_check digest ex_delta cs cr 6 2 0 os orr = Val tt.
Proof.
  exists (new_store (ex_base_s 131)), (new_store (ex_base_r 131)), cheat_os, cheat_msgs, cheat_orr. eexists.
  assert (C : check_state ex_delta (new_store (ex_base_s 131)) (new_store (ex_base_r 131)) 6 2 cheat_os cheat_orr).
  { split; [reflexivity|]. split; [exact base_131|]. split; [reflexivity|]. split; [reflexivity|]. split; [cbn; lia|]. split; [vm_compute; reflexivity|].
    split; [apply words_spec; vm_compute; reflexivity|]. split; [apply words_spec; vm_compute; reflexivity|vm_compute; congruence]. }
  assert (G : good_positions cheat_orr).
  { exists 4. split; [lia|]. split; [vm_compute; lia|vm_compute; reflexivity]. }
  split; [vm_compute; reflexivity|]. split; [vm_compute; congruence|]. split; [vm_compute; reflexivity|]. split; [exact C|]. split; [exact G|].
  split; [|intros digest; apply ferret_check_zero_seed; auto].
  intros H. specialize (H 3 ltac:(vm_compute; lia)). vm_compute in H. discriminate.
Qed.
Print Assumptions ferret_check_refuted.

(** An honest run is not safe either: if no bin is punctured inside the range, which bins
    of a size that is not a power of two allow, the receiver reads past an empty vector;
    if only position 0 is punctured, it throws. *)
Lemma odd_positions_none l : Forall (fun x => N.odd x = false) l -> odd_positions l = [].
Proof. intros H. rewrite odd_positions_from. generalize 0. induction H as [|x l Hx Hl IH]; intros k; cbn [pos_from]; [reflexivity|]. rewrite Hx. auto. Qed.
Lemma odd_positions_first x l : N.odd x = true -> Forall (fun y => N.odd y = false) l -> odd_positions (x :: l) = [0%N].
Proof.
  intros Hx H. rewrite odd_positions_from. cbn [pos_from]. rewrite Hx. f_equal. generalize 1.
  induction H as [|y l Hy Hl IH]; intros k; cbn [pos_from]; [reflexivity|]. rewrite Hy. auto.
Qed.
Theorem ferret_check_no_puncture_refuted digest delta cs cr range bs seed os orr :
  check_state delta cs cr range bs os orr ->
  (Forall (fun x => N.odd x = false) orr -> run_check digest delta cs cr range bs seed os orr = OutOfBounds) /\
  (forall x l, orr = x :: l -> N.odd x = true -> Forall (fun y => N.odd y = false) l -> run_check digest delta cs cr range bs seed os orr = Thrown).
Proof.
  intros (Hd & R & Oc & Or & Hfit & L & Wo & Wr & Hl). pose proof (Forall2_len _ _ _ R) as LR.
  unfold run_check, check_slice. set (p := log2ceil bs * (div_ceil range bs - 1) + log2ceil (range - (div_ceil range bs - 1) * bs)) in *.
  rewrite (slice_val cs), (slice_val cr) by lia. cbn [bind]. replace (p + 128 - p) with 128 by lia. unfold recv_check.
  rewrite pack_val.
  2:{ rewrite blocks_slice. apply span_length. lia. }
  2:{ refine (proj2 (paired_words delta (blocks (mkStore (s_buf cs) p 128)) _ Hd _)). unfold blocks. cbn [s_buf s_off s_len].
      apply Forall2_firstn, Forall2_skipn. exact R. }
  cbn [of_opt bind]. split.
  - intros H. rewrite odd_positions_none by auto. reflexivity.
  - intros x l -> Hx H. rewrite odd_positions_first by auto. reflexivity.
Qed.
Print Assumptions ferret_check_no_puncture_refuted.
(** One bin of 3 with choice bits 1, 1, and one bin of 2 with choice bit 0. *)
Definition np_s (len : nat) : list N := repeat 6%N len.
Definition np_r (b : N) (len : nat) : list N := repeat (N.lxor 6 (b * ex_delta)) len.
Lemma np_paired b len : (b <? 2)%N = true -> Forall2 (paired ex_delta) (np_s len) (np_r b len).
Proof.
  intros H. unfold np_s, np_r. apply N.ltb_lt in H. assert (B : b = 0%N \/ b = 1%N) by lia.
  induction len as [|len IH]; cbn [repeat]; constructor; auto. destruct B as [-> | ->]; repeat split.
Qed.
Definition np_out (b : N) (bs : nat) : option (list N * list N) :=
  match run_mpcot ex_h (fun x => x) ex_delta false (new_store (np_s 130)) (new_store (np_r b 130)) bs 1 bs (ex_tape 0) 5 (repeat 0%N bs) (repeat 0%N bs) with
  | Val x => Some x | _ => None end.
Definition np_ok (b : N) (bs : nat) : bool :=
  match np_out b bs with
  | Some (o, r) => words o && words r && (length o =? bs) && (length r =? bs) && forallb (fun x => negb (N.odd x)) (skipn (2 - N.to_nat b - 1) r)
                   && (N.odd (hd 0%N r) || (b =? 1)%N)
  | None => false end.
Example ferret_no_puncture_concrete : forall digest,
  run_mpcot ex_h digest ex_delta true (new_store (np_s 130)) (new_store (np_r 1 130)) 3 1 3 (ex_tape 0) 5 (repeat 0%N 3) (repeat 0%N 3) = OutOfBounds /\
  run_mpcot ex_h digest ex_delta true (new_store (np_s 130)) (new_store (np_r 0 130)) 2 1 2 (ex_tape 0) 5 (repeat 0%N 2) (repeat 0%N 2) = Thrown.
Proof.
  intros digest.
  assert (F : forall l, forallb (fun x => negb (N.odd x)) l = true -> Forall (fun x => N.odd x = false) l).
  { intros l H. apply Forall_forall. intros x Hx. rewrite forallb_forall in H. specialize (H x Hx). destruct (N.odd x); auto; discriminate. }
  assert (G : forall b bs, (b <? 2)%N = true -> 1 < bs -> bs < 4 -> np_ok b bs = true ->
    exists o r, check_state ex_delta (new_store (np_s 130)) (new_store (np_r b 130)) bs bs o r /\ length r = bs /\
      forallb (fun x => negb (N.odd x)) (skipn (2 - N.to_nat b - 1) r) = true /\ N.odd (hd 0%N r) || (b =? 1)%N = true /\
      run_mpcot ex_h digest ex_delta true (new_store (np_s 130)) (new_store (np_r b 130)) bs 1 bs (ex_tape 0) 5 (repeat 0%N bs) (repeat 0%N bs) =
      bind (run_check digest ex_delta (new_store (np_s 130)) (new_store (np_r b 130)) bs bs 5 o r) (fun _ => Val (o, r))).
  { intros b bs Hb B1 B3 H. unfold np_ok, np_out, run_mpcot in *. destruct (mpcot_send _ _ _ _ _ _ _ _) as [[o m]| | |]; try discriminate. cbn [bind fst snd] in *.
    destruct (mpcot_recv _ _ _ _ _ _ _) as [r| | |]; try discriminate. cbn [bind fst snd] in *.
    apply andb_prop in H as [H H6]. apply andb_prop in H as [H H5]. apply andb_prop in H as [H H4]. apply andb_prop in H as [H H3]. apply andb_prop in H as [H1 H2].
    apply Nat.eqb_eq in H3, H4. exists o, r. split; [|repeat (split; auto)]. split; [reflexivity|]. split; [apply np_paired; auto|].
    split; [reflexivity|]. split; [reflexivity|]. split; [|split; [lia|split; [apply words_spec; auto|split; [apply words_spec; auto|lia]]]].
    assert (bs = 2 \/ bs = 3) as [-> | ->] by lia; cbn; lia. }
  split.
  - destruct (G 1%N 3 eq_refl ltac:(auto) ltac:(auto) ltac:(vm_compute; reflexivity)) as (o & r & C & L & H & _ & ->).
    rewrite (proj1 (ferret_check_no_puncture_refuted digest _ _ _ _ _ 5%N _ _ C)) by (apply F; auto). reflexivity.
  - destruct (G 0%N 2 eq_refl ltac:(auto) ltac:(auto) ltac:(vm_compute; reflexivity)) as (o & r & C & L & H & H0 & ->).
    destruct r as [|x l]; [discriminate|]. cbn in H, H0. rewrite orb_false_r in H0.
    rewrite (proj2 (ferret_check_no_puncture_refuted digest _ _ _ _ _ 5%N _ _ C) x l eq_refl H0) by (apply F; auto). reflexivity.
Qed.

(** If the last bin has one element, its output COT is the first COT of the check. *)
Theorem ferret_check_reuse_refuted h delta cs range t bs tape out o msgs k :
  1 < bs -> range = (div_ceil range bs - 1) * bs + 1 -> s_off cs = 0 -> length o = range ->
  mpcot_send h delta cs range t bs tape out = Val (o, msgs) -> check_slice cs range bs = Val k ->
  nth (range - 1) o 0%N = nth 0 (blocks k) 0%N.
Proof.
  intros Hb Hr Oc Lo E Ek. unfold mpcot_send in E. destruct (bs =? 0); [discriminate|].
  destruct (negb (div_ceil range bs <=? t) || negb (1 <=? div_ceil range bs)); [discriminate|]. unfold check_slice in Ek.
  set (m := div_ceil range bs - 1) in *. replace (range - m * bs) with 1 in * by lia. rewrite Nat.eqb_refl in E.
  apply bind_val in E as ((o1 & ms) & E1 & E). cbn [fst snd] in E. apply bind_val in E as (b & E2 & E). injection E as <- <-.
  unfold splice in *. rewrite !app_length, firstn_length, skipn_length in Lo. cbn [length] in Lo.
  assert (Lf : length (firstn (m * bs) o1) = m * bs) by (rewrite firstn_length; lia).
  rewrite app_nth2 by lia. rewrite Lf. replace (range - 1 - m * bs) with 0 by lia. cbn [app nth].
  unfold get_block in E2. destruct (_ <? _); [|discriminate]. rewrite Oc in E2. cbn [Nat.add] in E2.
  change (log2ceil 1) with 0 in Ek. rewrite Nat.add_0_r in Ek. unfold slice in Ek. destruct (_ && _); [|discriminate]. injection Ek as <-.
  unfold blocks. cbn [s_buf s_off s_len]. rewrite (Nat.mul_comm (log2ceil bs)).
  destruct (nth_error (s_buf cs) (m * log2ceil bs)) as [x|] eqn:En; [|discriminate]. injection E2 as <-.
  replace (m * log2ceil bs + 128 - m * log2ceil bs) with (S 127) by lia. apply nth_error_split in En as (l1 & l2 & -> & Hl).
  rewrite <- Hl, skipn_app, skipn_all, Nat.sub_diag. reflexivity.
Qed.
Print Assumptions ferret_check_reuse_refuted.
(** Seven outputs in bins of 2: the last one is COT 3, and so is the check's first. *)
Definition reuse_run : option (N * nat) := match mpcot_send ex_h ex_delta (new_store (ex_base_s 131)) 7 4 2 (ex_tape 0) (repeat 0%N 7) with Val (o, _) => Some (nth 6 o 0%N, length o) | _ => None end.
Definition reuse_check : option N := match check_slice (new_store (ex_base_s 131)) 7 2 with Val k => Some (nth 0 (blocks k) 0%N) | _ => None end.
Example ferret_check_reuse_concrete : 7 = (div_ceil 7 2 - 1) * 2 + 1 /\ reuse_run = Some (24%N, 7) /\ reuse_check = Some 24%N.
Proof. split; [reflexivity|]. split; vm_compute; reflexivity. Qed.

(** The message of a bin is copied with the length it came with: a wrong one writes or
    reads out of bounds. *)
Theorem ferret_message_length_refuted h cot n msg out : s_len cot = log2ceil n -> 1 < n -> length msg <> log2ceil n ->
  gywz_recv h cot n msg out = OutOfBounds.
Proof.
  intros L Hn Hm. unfold gywz_recv. rewrite L, Nat.eqb_refl, (proj2 (Nat.leb_gt n 1)), (proj2 (Nat.eqb_neq _ _) Hm) by auto. reflexivity.
Qed.
Print Assumptions ferret_message_length_refuted.
Example ferret_message_length_concrete : gywz_recv ex_h (new_store (ex_base_r 2)) 4 [1; 2; 3]%N (repeat 0%N 4) = OutOfBounds.
Proof. apply ferret_message_length_refuted; [reflexivity|lia|discriminate]. Qed.
