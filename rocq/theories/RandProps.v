(** C80: what the random helpers return.  C81: the replayable generator and shuffle. *)
From Coq Require Import ZArith NArith List Bool Arith Lia Permutation.
From Verif Require Import LinCodeModel PrgModel PrgProof PrgProps BitsetModel BitsetProof BitsetProof2 BitsetProof3 BitsetProps RandModel RandProof.
Import ListNotations.
Open Scope nat_scope.

(** ** C80: random helpers *)
(** The DRBG's next call returns the low bytes of the number v.  Every list of bytes is of this form
    (bytes_of_number), and a uniform v below 2^(8 k) is k uniform bytes. *)
Definition next (v : N) : nat -> list N := fun k => le_bytes k v.
Theorem bytes_of_number l : Forall (fun b => (b < 256)%N) l -> exists v, (v < 2 ^ (8 * N.of_nat (length l)))%N /\ next v (length l) = l.
Proof. intros H. exists (le_val l). split; [apply le_val_lt; exact H|apply le_bytes_val; exact H]. Qed.
Lemma fill_small f len : (N.of_nat len <= 2 ^ 31 - 1)%N -> fill_rand f len = Val (f len).
Proof. intros H. unfold fill_rand. destruct (N.ltb_spec (2 ^ 31 - 1) (N.of_nat len)); [lia|reflexivity]. Qed.

(** Integers are the number itself. *)
Theorem rand_int_exact v sz : (N.of_nat sz <= 2 ^ 31 - 1)%N -> rand_int (next v) sz = Val (v mod 2 ^ (8 * N.of_nat sz))%N.
Proof. intros H. unfold rand_int. rewrite fill_small by exact H. cbn [bind]. unfold next. rewrite le_val_bytes. reflexivity. Qed.
(** Every 128-bit seed comes from FastRandSeed and SecureRandSeed, but RandSeed only returns 64-bit ones. *)
Theorem fast_seed_full s : (s < 2 ^ 128)%N -> fast_rand_seed (next s) = Val s.
Proof. intros H. unfold fast_rand_seed. rewrite rand_int_exact by (cbv; discriminate). f_equal. apply N.mod_small. exact H. Qed.
Theorem rand_seed_full_refuted : exists s, (s < 2 ^ 128)%N /\ forall fill v, (forall k, Forall (fun b => (b < 256)%N) (fill k) /\ length (fill k) = k) -> rand_seed fill = Val v -> (v < 2 ^ 64)%N /\ v <> s.
Proof.
  exists (2 ^ 64)%N. split; [reflexivity|]. intros fill v F E. unfold rand_seed, rand_int in E. rewrite fill_small in E by (cbv; discriminate). cbn [bind] in E. injection E as <-.
  destruct (F 8) as [B L]. apply le_val_lt in B. rewrite L in B. change (2 ^ (8 * N.of_nat 8))%N with (2 ^ 64)%N in B. split; [exact B|]. intros E. rewrite E in B. revert B. apply N.lt_irrefl.
Qed.

(** RandBits as a bitset: bit i is bit i of the number, for every width of the blocks. *)
Theorem rand_bits_exact {char} (zero one : char) B v len : 0 < B -> (exists d, d * B = 128) -> (N.of_nat ((len + 7) / 8) <= 2 ^ 31 - 1)%N ->
  exists s, rand_bits (next v) B len = Val s /\ observed zero one B s (map (fun i => N.testbit v (N.of_nat i)) (seq 0 len)).
Proof.
  intros HB HD HL. unfold rand_bits. destruct HD as [d HD]. destruct (of_value_ok B HB len 0%N d HD) as (s0 & E0 & R0); [reflexivity|]. rewrite E0. cbn [bind].
  unfold rand_bytes. rewrite fill_small by exact HL. cbn [bind].
  rewrite (strided (fun i j out => bind (rd (next v ((len + 7) / 8)) (i / 8)) (fun w => set_bit B out (i + j) (negb (N.land w (N.shiftl 1 (N.of_nat j)) =? 0)%N))) len 8) by lia.
  destruct (for_each_inv (fun p out => bind (rd (next v ((len + 7) / 8)) (p / 8 * 8 / 8)) (fun w => set_bit B out (p / 8 * 8 + p mod 8) (negb (N.land w (N.shiftl 1 (N.of_nat (p mod 8))) =? 0)%N)))
    (fun j s => BitsetProof.repr B s len (fun i => (i <? j) && N.testbit v (N.of_nat i))) len 0 s0) as (s & E & R).
  - revert R0. apply repr_ext. intros i Hi. cbn [andb]. unfold tb. rewrite N.bits_0. destruct (Nat.ltb_spec i 0); [lia|reflexivity].
  - intros p m Hp R. rewrite Nat.div_mul by lia. assert (P8 : p / 8 < (len + 7) / 8) by (apply Nat.div_lt_upper_bound; [lia|]; pose proof (Nat.div_mod (len + 7) 8 ltac:(lia)); pose proof (Nat.mod_upper_bound (len + 7) 8 ltac:(lia)); lia).
    pose proof (Nat.div_mod p 8 ltac:(lia)) as D. pose proof (Nat.mod_upper_bound p 8 ltac:(lia)) as U.
    unfold rd. unfold next at 1. rewrite (nth_error_nth' _ 0%N) by (rewrite le_bytes_length; exact P8). cbn [bind]. rewrite testbit_land, nth_le_bytes by lia.
    replace (p / 8 * 8 + p mod 8) with p by lia. replace (8 * (p / 8) + p mod 8) with p by lia. destruct (set_bit_ok B HB m len _ p (N.testbit v (N.of_nat p)) R ltac:(lia)) as (s' & Es & R').
    exists s'. split; [exact Es|]. revert R'. apply repr_ext. intros i Hi. destruct (Nat.eqb_spec i p) as [->|]; [destruct (Nat.ltb_spec p (S p)); [reflexivity|lia]|].
    destruct (Nat.ltb_spec i p), (Nat.ltb_spec i (S p)); try reflexivity; lia.
  - exists s. split; [exact E|]. apply (rep_observed zero one B HB). apply (rep_of B s len _ _ R); [rewrite map_length, seq_length; reflexivity|]. intros i Hi.
    rewrite (nth_indep _ false ((fun i => N.testbit v (N.of_nat i)) 0)) by (rewrite map_length, seq_length; exact Hi). rewrite (map_nth (fun i => N.testbit v (N.of_nat i))), seq_nth by exact Hi. cbn [Nat.add].
    destruct (Nat.ltb_spec i len); [reflexivity|lia].
Qed.
(** RandBits as a vector<bool>: bit i is bit 1024 * (i / 32) + i mod 32, a different one for every i, so the
    result is as uniform as the bytes; but it asks for 4 bytes a bit and throws from 2^29 bits on. *)
Definition bool_pos (i : nat) : nat := 1024 * (i / 32) + i mod 32.
Theorem rand_bools_exact v len : (N.of_nat (4 * len) <= 2 ^ 31 - 1)%N ->
  rand_bools (next v) len = Val (map (fun i => N.testbit v (N.of_nat (bool_pos i))) (seq 0 len)).
Proof.
  intros HL. unfold rand_bools, rand_words. rewrite fill_small by exact HL. cbn [bind]. unfold next at 1. rewrite (Nat.mul_comm 4 len).
  set (buf := map _ (seq 0 len)).
  assert (Lb : length buf = len) by (unfold buf; rewrite map_length, seq_length; reflexivity).
  assert (Nb : forall i, i < len -> rd buf i = Val (le_val (chunk 4 (le_bytes (len * 4) v) i))).
  { intros i Hi. unfold rd, buf. rewrite (map_nth_error _ i (seq 0 len) (d := i)); [reflexivity|]. rewrite (nth_error_nth' _ 0) by (rewrite seq_length; exact Hi). rewrite seq_nth by exact Hi. reflexivity. }
  rewrite (for_each_ext _ (fun i out => for_each (fun j out => bind (rd buf i) (fun w => set_at out (i + j) (negb (N.land w (N.shiftl 1 (N.of_nat j)) =? 0)%N))) (seq 0 (Nat.min 32 (len - i))) out)).
  2:{ intros i m I. unfold strides in I. apply in_map_iff in I as (k & <- & I). apply in_seq in I.
      assert (K : k * 32 < len). { pose proof (Nat.div_mod (len + 32 - 1) 32 ltac:(lia)). lia. } rewrite Nb by exact K. cbn [bind]. reflexivity. }
  rewrite (strided (fun i j out => bind (rd buf i) (fun w => set_at out (i + j) (negb (N.land w (N.shiftl 1 (N.of_nat j)) =? 0)%N))) len 32) by lia.
  destruct (for_each_inv (fun p out => bind (rd buf (p / 32 * 32)) (fun w => set_at out (p / 32 * 32 + p mod 32) (negb (N.land w (N.shiftl 1 (N.of_nat (p mod 32))) =? 0)%N)))
    (fun j l => length l = len /\ forall i, i < len -> nth i l false = (i <? j) && N.testbit v (N.of_nat (bool_pos i))) len 0 (repeat false len)) as (l & E & Ll & Nl).
  - split; [apply repeat_length|]. intros i Hi. destruct (Nat.ltb_spec i 0); [lia|]. apply nth_repeat.
  - intros p m Hp [Lm Nm]. pose proof (Nat.div_mod p 32 ltac:(lia)) as D. pose proof (Nat.mod_upper_bound p 32 ltac:(lia)) as U.
    rewrite Nb by lia. cbn [bind]. rewrite testbit_land, chunk_bit by lia. replace (8 * (p / 32 * 32 * 4) + p mod 32) with (bool_pos p) by (unfold bool_pos; lia).
    replace (p / 32 * 32 + p mod 32) with p by lia. destruct (set_at_ok m p (N.testbit v (N.of_nat (bool_pos p)))) as (m' & Em & Lm' & Nm'); [lia|].
    exists m'. split; [exact Em|]. split; [lia|]. intros i Hi. rewrite Nm'. destruct (Nat.eqb_spec i p) as [->|]; [destruct (Nat.ltb_spec p (S p)); [reflexivity|lia]|].
    rewrite Nm by exact Hi. destruct (Nat.ltb_spec i p), (Nat.ltb_spec i (S p)); try reflexivity; lia.
  - rewrite E. f_equal. apply (nth_ext _ _ false (N.testbit v (N.of_nat (bool_pos 0)))); [rewrite map_length, seq_length; exact Ll|]. intros i Hi. rewrite Ll in Hi. rewrite Nl by exact Hi.
    rewrite (map_nth (fun i => N.testbit v (N.of_nat (bool_pos i)))), seq_nth by exact Hi. destruct (Nat.ltb_spec i (0 + len)); [reflexivity|lia].
Qed.
Theorem bool_pos_distinct len i j : i < len -> bool_pos i < 32 * len /\ (i < j -> bool_pos i < bool_pos j).
Proof.
  intros H. unfold bool_pos. pose proof (Nat.div_mod i 32 ltac:(lia)). pose proof (Nat.mod_upper_bound i 32 ltac:(lia)).
  pose proof (Nat.div_mod j 32 ltac:(lia)). pose proof (Nat.mod_upper_bound j 32 ltac:(lia)). split; lia.
Qed.
Theorem rand_bools_long v len : (2 ^ 29 <= N.of_nat len)%N -> rand_bools (next v) len = Thrown.
Proof. intros H. unfold rand_bools, rand_words, fill_rand. destruct (N.ltb_spec (2 ^ 31 - 1) (N.of_nat (4 * len))); [reflexivity|]. change (2 ^ 31 - 1)%N with 2147483647%N in *. change (2 ^ 29)%N with 536870912%N in H. lia. Qed.

(** RandLtN: the reduction of 64 more bits than the type has; below n, and every value has M / n or M / n + 1
    of the M = 2^(8 sz + 64) numbers, at least 2^64. *)
Theorem rand_ltn_range v sz n : (N.of_nat sz <= 16)%N -> (0 < n)%N -> exists x, rand_ltn (next v) sz n = Val x /\ (x < n)%N /\ x = ((v mod 2 ^ (8 * N.of_nat sz + 64)) mod n)%N.
Proof.
  intros HS HN. unfold rand_ltn, rand_bytes. rewrite fill_small; [|change (2 ^ 31 - 1)%N with 2147483647%N; change ((64 + 7) / 8) with 8; lia]. cbn [bind]. destruct (N.eqb_spec n 0); [lia|].
  unfold next. rewrite le_val_bytes. eexists. split; [reflexivity|]. split; [apply N.mod_lt; lia|]. change ((64 + 7) / 8) with 8. do 3 f_equal. lia.
Qed.
Theorem rand_ltn_uniform sz n y : (N.of_nat sz <= 16)%N -> (n < 2 ^ (8 * N.of_nat sz))%N -> (y < n)%N ->
  exists k : N, let M := (2 ^ (8 * N.of_nat sz + 64))%N in (k = M / n \/ k = M / n + 1)%N /\ (2 ^ 64 <= k)%N /\
    forall v, (v < M)%N /\ rand_ltn (next v) sz n = Val y <-> exists j, (j < k)%N /\ v = (y + j * n)%N.
Proof.
  intros HS HN HY. set (M := (2 ^ (8 * N.of_nat sz + 64))%N).
  assert (HM : (2 ^ 64 * n <= M)%N) by (unfold M; rewrite N.add_comm, N.pow_add_r; apply N.mul_le_mono_l; lia).
  assert (HM' : (2 ^ 40 * n <= M)%N) by (eapply N.le_trans; [|exact HM]; apply N.mul_le_mono_r; discriminate).
  destruct (ltn_bias n M y ltac:(lia) HY HM') as (k & Hk & _ & H). exists k. split; [exact Hk|]. split.
  - assert (Q : (2 ^ 64 <= M / n)%N) by (apply N.div_le_lower_bound; lia). lia.
  - intros v. rewrite <- H. split; intros [L E]; (split; [exact L|]); destruct (rand_ltn_range v sz n HS ltac:(lia)) as (x & Ex & _ & X); fold M in X; rewrite (N.mod_small v M L) in X; congruence.
Qed.
Theorem rand_ltn_zero v sz : (N.of_nat sz <= 16)%N -> rand_ltn (next v) sz 0 = Thrown.
Proof. intros HS. unfold rand_ltn, rand_bytes. rewrite fill_small; [reflexivity|change (2 ^ 31 - 1)%N with 2147483647%N; change ((64 + 7) / 8) with 8; lia]. Qed.

(** RandInRange is below n, but some values are twice as likely as others: for n = 3 * 2^30 the value 0 comes from
    two of the 2^32 words and the value 2^30 from one. *)
Theorem rand_in_range_lt v n : (0 < n)%N -> exists x, rand_in_range (next v) n = Val x /\ (x < n)%N.
Proof. intros H. unfold rand_in_range. rewrite rand_int_exact by (cbv; discriminate). cbn [bind]. destruct (N.eqb_spec n 0); [lia|]. eexists. split; [reflexivity|]. apply N.mod_lt. lia. Qed.
Theorem rand_in_range_uniform_refuted : exists n a b w w' u, (n < 2 ^ 32 /\ a < n /\ b < n /\ w < 2 ^ 32 /\ w' < 2 ^ 32 /\ w <> w')%N /\
  rand_in_range (next w) n = Val a /\ rand_in_range (next w') n = Val a /\
  forall v, (v < 2 ^ 32)%N -> rand_in_range (next v) n = Val b -> v = u.
Proof.
  exists (3 * 2 ^ 30)%N, 0%N, (2 ^ 30)%N, 0%N, (3 * 2 ^ 30)%N, (2 ^ 30)%N. split; [repeat split; discriminate|]. split; [vm_compute; reflexivity|]. split; [vm_compute; reflexivity|].
  intros v V. unfold rand_in_range. rewrite rand_int_exact by (cbv; discriminate). cbn [bind]. change (3 * 2 ^ 30 =? 0)%N with false. cbv iota.
  change (8 * N.of_nat 8)%N with 64%N. rewrite (N.mod_small v (2 ^ 64)) by (eapply N.lt_trans; [exact V|reflexivity]). rewrite (N.mod_small v (2 ^ 32)) by exact V. intros E.
  assert (E' : (v mod (3 * 2 ^ 30) = 2 ^ 30)%N) by congruence. pose proof (N.div_mod v (3 * 2 ^ 30) ltac:(discriminate)) as D. rewrite E' in D.
  change (3 * 2 ^ 30)%N with 3221225472%N in *. change (2 ^ 30)%N with 1073741824%N in *. change (2 ^ 32)%N with 4294967296%N in V. lia.
Qed.
Theorem rand_in_range_zero_refuted v : rand_in_range (next v) 0 = OutOfBounds.
Proof. unfold rand_in_range. rewrite rand_int_exact by (cbv; discriminate). reflexivity. Qed.
Example rand_concrete :
  rand_int (next 0x0123456789) 4 = Val 0x23456789%N /\ rand_bools (next 0xB5) 5 = Val [true; false; true; false; true] /\
  rand_ltn (next (2 ^ 100 + 7)) 4 1000 = Val 7%N /\ rand_ltn (next (2 ^ 90 + 7)) 4 1000 = Val ((2 ^ 90 + 7) mod 1000)%N.
Proof. vm_compute. repeat split. Qed.

Example rand_bits_concrete : rand_bits (next 0x1B5) 16 9 = Val (mkBits [0x1B5]%N 9) /\ rand_bits (next 0x1B5) 64 5 = Val (mkBits [0x15]%N 5).
Proof. vm_compute. auto. Qed.

(** ** C81 *)
(** The generator: call i after the counter c returns the bytes FillPRand gives at the counter c + i, whatever the
    type, mode and counter; and a generator rebuilt from the seed and GetCounter continues the sequence. *)
Theorem urbg_stream enc sz k : forall u, 0 < sz <= 16 -> (u_ctr u + N.of_nat k < 2 ^ 64)%N ->
  urbg_calls enc sz k u =
  (map (fun i => le_val (fst (PrgModel.fill (enc (u_seed u)) (u_mode u) (u_iv u) (u_ctr u + N.of_nat i)%N sz))) (seq 0 k),
   mkUrbg (u_seed u) (u_ctr u + N.of_nat k)%N (u_iv u) (u_mode u)).
Proof.
  induction k as [|k IH]; intros [s c iv m] S C; cbn [urbg_calls u_seed u_ctr u_iv u_mode] in *.
  - rewrite N.add_0_r. reflexivity.
  - assert (B1 : blocks_for sz = 1).
    { unfold blocks_for. symmetry. apply (Nat.div_unique (sz + 15) 16 1 (sz - 1)); lia. }
    unfold urbg_call. cbn [u_seed u_ctr u_iv u_mode]. pose proof (fill_snd (enc s) m iv c sz) as F. rewrite B1 in F. specialize (F ltac:(lia)).
    destruct (PrgModel.fill (enc s) m iv c sz) as [b c'] eqn:Ef. cbn [snd] in F. subst c'. rewrite IH; cbn [u_seed u_ctr u_iv u_mode]; [|exact S|lia].
    cbn [seq map]. rewrite <- seq_shift, map_map. cbn [N.of_nat]. rewrite N.add_0_r, Ef. cbn [fst]. f_equal.
    + f_equal. apply map_ext. intros i. do 3 f_equal. lia.
    + f_equal. lia.
Qed.
Theorem urbg_resume enc sz a b u : 0 < sz <= 16 -> (u_ctr u + N.of_nat (a + b) < 2 ^ 64)%N ->
  let u' := snd (urbg_calls enc sz a u) in
  fst (urbg_calls enc sz (a + b) u) = fst (urbg_calls enc sz a u) ++ fst (urbg_calls enc sz b (mkUrbg (u_seed u) (get_counter u') (get_iv u') (get_mode u'))).
Proof.
  intros S C. rewrite !urbg_stream by (auto; lia). cbn [snd fst get_counter get_iv get_mode u_ctr u_iv u_mode u_seed]. rewrite urbg_stream by (cbn [u_ctr]; auto; lia).
  cbn [fst u_ctr u_iv u_mode u_seed]. rewrite seq_app, map_app. f_equal. cbn [Nat.add]. rewrite <- (Nat.add_0_l a) at 1. rewrite <- (map_id (seq (0 + a) b)). 
  assert (Es : seq (0 + a) b = map (fun i => a + i) (seq 0 b)).
  { clear. induction b as [|b IH]; [reflexivity|]. rewrite !seq_S, map_app, <- IH. reflexivity. }
  rewrite Es, !map_map. apply map_ext. intros i. do 3 f_equal. lia.
Qed.
Example urbg_concrete : fst (urbg_calls (fun k x => (k * x + k)%N) 4 3 (mkUrbg 5 7 0 ECB)) = [40; 45; 50]%N.
Proof. vm_compute. reflexivity. Qed.
(** But not one rebuilt from GetSeed, which returns the low half of the seed; and the initial vector does nothing
    in the default mode. *)
Theorem urbg_get_seed_refuted : exists enc u, (u_seed u < 2 ^ 128)%N /\
  fst (urbg_calls enc 8 1 (mkUrbg (get_seed u) (get_counter u) (get_iv u) (get_mode u))) <> fst (urbg_calls enc 8 1 u).
Proof. exists (fun k _ => (k / 2 ^ 64)%N), (mkUrbg (2 ^ 64) 0 0 CTR). split; [reflexivity|]. vm_compute. discriminate. Qed.
Theorem urbg_iv_refuted enc sz k s c : forall iv iv', fst (urbg_calls enc sz k (mkUrbg s c iv CTR)) = fst (urbg_calls enc sz k (mkUrbg s c iv' CTR)).
Proof.
  revert c. induction k as [|k IH]; intros c iv iv'; [reflexivity|]. cbn [urbg_calls]. unfold urbg_call. cbn [u_seed u_ctr u_iv u_mode]. rewrite (ctr_ignores_iv_refuted (enc s) iv iv').
  destruct (PrgModel.fill (enc s) CTR iv' c sz) as [b c']. specialize (IH c' iv iv'). destruct (urbg_calls enc sz k (mkUrbg s c' iv CTR)), (urbg_calls enc sz k (mkUrbg s c' iv' CTR)). cbn [fst] in *. congruence.
Qed.

(** The shuffle: the cipher words become indices, the indices a permutation. *)
Definition reduce (ws : list N) : list N := map (fun p => ((snd p mod 2 ^ 128) mod (N.of_nat (fst p) + 2))%N) (combine (seq 0 (length ws)) ws).
Definition words (enc : N -> N) (ctr : N) (n : nat) : list N := map (fun j => enc (ctr_in ctr j)) (seq 0 n).
Lemma nblock_16 n : nblock (n * 16) = n.
Proof. unfold nblock. symmetry. apply (Nat.div_unique _ 16 n 15); lia. Qed.
Lemma chunk_mem ws i : i < length ws -> le_val (chunk 16 (to_mem ws) i) = (nth i ws 0 mod 2 ^ 128)%N.
Proof.
  intros H. unfold chunk. revert ws H. induction i as [|i IH]; intros [|w ws] H; cbn [length] in H; try lia.
  - cbn [Nat.mul skipn to_mem flat_map nth]. rewrite firstn_app, le_bytes_length, Nat.sub_diag. rewrite firstn_all2 by (rewrite le_bytes_length; lia). cbn [firstn]. rewrite app_nil_r, le_val_bytes. reflexivity.
  - cbn [nth to_mem flat_map]. replace (S i * 16) with (16 + i * 16) by lia. rewrite skipn_app, le_bytes_length. rewrite skipn_all2 by (rewrite le_bytes_length; lia). cbn [app].
    replace (16 + i * 16 - 16) with (i * 16) by lia. apply IH. lia.
Qed.
Lemma indices_reduce enc seed ctr n : fst (shuffle_indices enc seed ctr n) = reduce (words (enc seed) ctr (n - 1)).
Proof.
  unfold shuffle_indices. destruct (PrgModel.fill (enc seed) CTR 0 ctr ((n - 1) * 16)) as [b c] eqn:E. cbn [fst].
  assert (Eb : b = to_mem (words (enc seed) ctr (n - 1))).
  { apply (f_equal fst) in E. rewrite fill_ctr, nblock_16 in E. cbn [fst] in E. rewrite <- E. apply firstn_all2. unfold words. rewrite to_mem_length, map_length, seq_length. lia. }
  set (ws := words (enc seed) ctr (n - 1)) in *. assert (Lw : length ws = n - 1) by (unfold ws, words; rewrite map_length, seq_length; reflexivity).
  unfold reduce. rewrite Lw. subst b. clear E. clearbody ws. apply (nth_ext _ _ 0%N 0%N); [rewrite !map_length, combine_length, !seq_length; lia|].
  rewrite map_length, seq_length. intros i Hi.
  rewrite (nth_indep _ 0%N ((fun idx => (le_val (chunk 16 (to_mem ws) idx) mod (N.of_nat idx + 2))%N) 0)) by (rewrite map_length, seq_length; exact Hi).
  rewrite (map_nth (fun idx => (le_val (chunk 16 (to_mem ws) idx) mod (N.of_nat idx + 2))%N)), seq_nth by exact Hi. cbn [Nat.add].
  rewrite (nth_indep (map _ (combine _ _)) 0%N ((fun p => ((snd p mod 2 ^ 128) mod (N.of_nat (fst p) + 2))%N) (0, 0%N))) by (rewrite map_length, combine_length, seq_length; lia).
  rewrite (map_nth (fun p => ((snd p mod 2 ^ 128) mod (N.of_nat (fst p) + 2))%N)), combine_nth by (rewrite seq_length; auto). rewrite seq_nth by exact Hi. cbn [fst snd Nat.add].
  rewrite chunk_mem by lia. reflexivity.
Qed.
Definition valid (n : nat) (ind : list N) : Prop := length ind = n - 1 /\ forall i, i < n - 1 -> (nth i ind 0 <= N.of_nat i + 1)%N.
Lemma reduce_valid ws : valid (S (length ws)) (reduce ws).
Proof.
  unfold valid. rewrite Nat.sub_1_r. cbn [Nat.pred]. split; [unfold reduce; rewrite map_length, combine_length, seq_length; lia|]. intros i Hi. unfold reduce.
  rewrite (nth_indep _ 0%N ((fun p => ((snd p mod 2 ^ 128) mod (N.of_nat (fst p) + 2))%N) (0, 0%N))) by (rewrite map_length, combine_length, seq_length; lia).
  rewrite (map_nth (fun p => ((snd p mod 2 ^ 128) mod (N.of_nat (fst p) + 2))%N)), combine_nth by (rewrite seq_length; auto). rewrite seq_nth by exact Hi. cbn [fst snd Nat.add].
  pose proof (N.mod_lt (nth i ws 0 mod 2 ^ 128)%N (N.of_nat i + 2)%N ltac:(lia)). lia.
Qed.
Lemma valid_idx n ind : valid n ind -> forall i, 1 <= i <= n - 1 -> N.to_nat (nth (i - 1) ind 0%N) <= i.
Proof. intros [L V] i Hi. specialize (V (i - 1) ltac:(lia)). lia. Qed.

(** It always returns a rearrangement of the array and advances the counter by one block an element but one. *)
Theorem shuffle_permutes {A} enc (l : list A) seed c : l <> [] -> (c + N.of_nat (length l - 1) < 2 ^ 64)%N ->
  exists l', replay_shuffle enc l seed (Some c) = Val (l', c + N.of_nat (length l - 1))%N /\ Permutation l l' /\
             knuth (reduce (words (enc seed) c (length l - 1))) l = Val l'.
Proof.
  intros H C. assert (Hl : length l <> 0) by (destruct l; cbn; congruence). unfold replay_shuffle. destruct (Nat.eqb_spec (length l) 0); [contradiction|].
  pose proof (indices_reduce enc seed c (length l)) as I. assert (J : snd (shuffle_indices enc seed c (length l)) = (c + N.of_nat (length l - 1))%N).
  { unfold shuffle_indices. pose proof (fill_snd (enc seed) CTR 0%N c ((length l - 1) * 16)) as F. change blocks_for with nblock in F. rewrite nblock_16 in F. specialize (F C).
    destruct (PrgModel.fill (enc seed) CTR 0 c ((length l - 1) * 16)). cbn [snd] in *. exact F. }
  destruct (shuffle_indices enc seed c (length l)) as [ind c']. cbn [fst snd] in I, J. subst ind c'.
  assert (V : valid (length l) (reduce (words (enc seed) c (length l - 1)))).
  { pose proof (reduce_valid (words (enc seed) c (length l - 1))) as V. assert (Lw : length (words (enc seed) c (length l - 1)) = length l - 1) by (unfold words; rewrite map_length, seq_length; reflexivity). rewrite Lw in V. replace (S (length l - 1)) with (length l) in V by lia. exact V. }
  destruct (swaps_ok (fun i => N.to_nat (nth (i - 1) (reduce (words (enc seed) c (length l - 1))) 0%N)) (length l - 1) l) as (l' & E & P & _); [lia|apply (valid_idx _ _ V)|].
  rewrite knuth_swaps by apply V. rewrite E. exists l'. cbn [bind]. auto.
Qed.
(** Index vectors and orders of the array are in bijection: every order comes from exactly one vector. *)
Theorem knuth_bijective {A} (l l' : list A) : NoDup l -> l <> [] -> Permutation l l' -> exists! ind, valid (length l) ind /\ knuth ind l = Val l'.
Proof.
  intros D H P. assert (Hl : length l <> 0) by (destruct l; cbn; congruence).
  destruct (swaps_surj (length l - 1) l l' D ltac:(lia) P) as (f & Hf & E).
  { intros k K. assert (L : length l' = length l) by (symmetry; apply Permutation_length; exact P). transitivity (@None A); [|symmetry]; apply nth_error_None; lia. }
  set (ind := map (fun i => N.of_nat (f (S i))) (seq 0 (length l - 1))).
  assert (Li : length ind = length l - 1) by (unfold ind; rewrite map_length, seq_length; reflexivity).
  assert (Ni : forall i, i < length l - 1 -> nth i ind 0%N = N.of_nat (f (S i))).
  { intros i Hi. unfold ind. rewrite (nth_indep _ 0%N ((fun i => N.of_nat (f (S i))) 0)) by (rewrite map_length, seq_length; exact Hi). rewrite (map_nth (fun i => N.of_nat (f (S i)))), seq_nth by exact Hi. reflexivity. }
  assert (V : valid (length l) ind) by (split; [exact Li|]; intros i Hi; rewrite Ni by exact Hi; specialize (Hf (S i) ltac:(lia)); lia).
  assert (E1 : knuth ind l = Val l').
  { rewrite knuth_swaps by exact Li. rewrite <- E.
    assert (Q : forall q (m : list A), q <= length l - 1 -> swaps (fun i => N.to_nat (nth (i - 1) ind 0%N)) q m = swaps f q m); [|apply Q; lia].
    induction q as [|q IH]; intros m Hq; [reflexivity|]. cbn [swaps]. rewrite Ni by lia. replace (S (S q - 1)) with (S q) by lia. rewrite Nat2N.id. destruct (RandModel.swap m (S q) (f (S q))); cbn [bind]; auto. apply IH. lia. }
  exists ind. split; [auto|]. intros ind' [V' E']. pose proof V' as [L' _]. rewrite knuth_swaps in E' by exact L'. rewrite knuth_swaps in E1 by exact Li.
  pose proof (swaps_inj _ _ (length l - 1) l D ltac:(lia) (valid_idx _ _ V) (valid_idx _ _ V') (eq_trans E1 (eq_sym E'))) as I.
  apply (nth_ext _ _ 0%N 0%N); [lia|]. rewrite Li. intros i Hi. specialize (I (S i) ltac:(lia)). cbn beta in I. replace (S i - 1) with i in I by lia. apply N2Nat.inj. exact I.
Qed.
(** Each index comes from M / k or M / k + 1 of the M = 2^128 cipher words, k being the number of its values. *)
Theorem index_uniform (i : nat) y : (N.of_nat i + 2 <= 2 ^ 64)%N -> (y <= N.of_nat i + 1)%N ->
  let M := (2 ^ 128)%N in let k := (N.of_nat i + 2)%N in
  exists c, (c = M / k \/ c = M / k + 1)%N /\ (2 ^ 64 <= c)%N /\ forall w, (w < M)%N /\ ((w mod 2 ^ 128) mod k = y)%N <-> exists j, (j < c)%N /\ w = (y + j * k)%N.
Proof.
  intros H Y M k. assert (HM : (2 ^ 64 * k <= M)%N) by (unfold M, k; change (2 ^ 128)%N with (2 ^ 64 * 2 ^ 64)%N; apply N.mul_le_mono_l; exact H).
  assert (HM' : (2 ^ 40 * k <= M)%N) by (eapply N.le_trans; [|exact HM]; apply N.mul_le_mono_r; discriminate).
  destruct (ltn_bias k M y ltac:(unfold k; lia) ltac:(unfold k; lia) HM') as (c & Hc & _ & Hx). exists c. split; [exact Hc|]. split.
  - assert (Q : (2 ^ 64 <= M / k)%N) by (apply N.div_le_lower_bound; [unfold k|]; lia). lia.
  - intros w. rewrite <- Hx. unfold M. split; intros [L E]; (split; [exact L|]); rewrite (N.mod_small w (2 ^ 128) L) in *; exact E.
Qed.
(** The same seed and counter rearrange every array of the same length in the same way. *)
Theorem shuffle_natural {A C} (f : A -> C) enc l seed c l' c' : replay_shuffle enc l seed c = Val (l', c') -> replay_shuffle enc (map f l) seed c = Val (map f l', c').
Proof.
  unfold replay_shuffle. destruct c as [c|]; [|discriminate]. rewrite map_length. destruct (length l =? 0); [discriminate|]. destruct (shuffle_indices enc seed c (length l)) as [ind c1].
  rewrite knuth_map. destruct (knuth ind l) as [m| | |]; cbn [bind]; try discriminate. intros E. injection E as <- <-. reflexivity.
Qed.
(** Successive shuffles with the same counter variable take their indices from cipher blocks that are all different. *)
Theorem shuffles_no_reuse {A} c (ls : list (list A)) : Forall (fun l => l <> []) ls -> (c + N.of_nat (list_sum (map (fun l => (length l - 1)%nat) ls)) < 2 ^ 64)%N ->
  exists ins : list (list N), NoDup (concat ins) /\ map (@length N) ins = map (fun l => (length l - 1)%nat) ls /\
  forall enc seed, exists rs, shuffles enc seed c ls = Val (rs, c + N.of_nat (list_sum (map (fun l => (length l - 1)%nat) ls)))%N /\
    map (fun q => knuth (reduce (map (enc seed) (fst q))) (snd q)) (combine ins ls) = map Val rs.
Proof.
  intros F C. set (lens := map (fun l : list A => (length l - 1) * 16) ls).
  assert (T : total_blocks lens = list_sum (map (fun l => (length l - 1)%nat) ls)).
  { unfold lens. clear. induction ls as [|l ls IH]; [reflexivity|]. cbn [map total_blocks list_sum fold_right]. change blocks_for with nblock. rewrite nblock_16, IH. reflexivity. }
  exists (map (map (input CTR)) (pairs c lens)).
  split; [|split].
  - assert (Nd : NoDup (concat (pairs c lens))).
    { apply (NoDup_map_inv (fun p => (fst p + N.of_nat (snd p))%N)). rewrite pairs_sum. apply FinFun.Injective_map_NoDup; [intros x y E; lia|apply seq_NoDup]. }
    rewrite <- concat_map.
    assert (B : forall p, In p (concat (pairs c lens)) -> (fst p < 2 ^ 64)%N /\ (N.of_nat (snd p) < 2 ^ 64)%N).
    { intros p I. apply (in_map (fun p => (fst p + N.of_nat (snd p))%N)) in I. rewrite pairs_sum in I. apply in_map_iff in I as (j & E & I). apply in_seq in I. lia. }
    revert Nd B. generalize (concat (pairs c lens)) as ps. induction ps as [|p ps IH]; intros Nd B; cbn [map]; constructor; inversion Nd as [|? ? Np Nd']; subst.
    + intros I. apply in_map_iff in I as (q & E & I). destruct (B p ltac:(left; auto)) as [B1 B2]. destruct (B q ltac:(right; auto)) as [B3 B4]. unfold input in E. destruct (ctr_in_inj _ _ _ _ B3 B1 B4 B2 E). destruct p, q. cbn [fst snd] in *. subst. contradiction.
    + apply IH; [exact Nd'|]. intros q I. apply B. right. exact I.
  - unfold lens. clear. revert c. induction ls as [|l ls IH]; intros c; [reflexivity|]. cbn [map pairs]. rewrite !map_length, seq_length, nblock_16. f_equal. apply IH.
  - intros enc seed. unfold lens. clear T lens. revert c F C. induction ls as [|l ls IH]; intros c F C; cbn [map list_sum fold_right shuffles pairs combine] in *.
    + exists []. rewrite N.add_0_r. auto.
    + inversion F as [|? ? F1 F2]; subst. fold (list_sum (map (fun l => (length l - 1)%nat) ls)) in *. destruct (shuffle_permutes enc l seed c F1 ltac:(lia)) as (l' & E & _ & K). rewrite E. cbn [bind fst snd].
      rewrite nblock_16. destruct (IH (c + N.of_nat (length l - 1))%N F2 ltac:(lia)) as (rs & Er & M). rewrite Er. cbn [bind fst snd]. exists (l' :: rs). split; [do 2 f_equal; lia|].
      cbn [map fst snd]. rewrite M. f_equal. rewrite <- K. do 2 f_equal. unfold words. rewrite !map_map. reflexivity.
Qed.
(** Shuffling an empty range throws. *)
Theorem shuffle_empty_refuted enc seed c : replay_shuffle enc (@nil nat) seed (Some c) = Thrown.
Proof. reflexivity. Qed.
Example shuffle_concrete : exists l', replay_shuffle (fun k x => (k * x + x / 7)%N) [10; 20; 30; 40; 50] 12345 (Some 3%N) = Val (l', 7%N) /\ l' <> [10; 20; 30; 40; 50].
Proof. eexists. split; [vm_compute; reflexivity|discriminate]. Qed.
Print Assumptions bytes_of_number.
Print Assumptions rand_int_exact.
Print Assumptions fast_seed_full.
Print Assumptions rand_seed_full_refuted.
Print Assumptions rand_bits_exact.
Print Assumptions rand_bools_exact.
Print Assumptions bool_pos_distinct.
Print Assumptions rand_bools_long.
Print Assumptions rand_ltn_range.
Print Assumptions rand_ltn_uniform.
Print Assumptions rand_in_range_uniform_refuted.
Print Assumptions urbg_stream.
Print Assumptions urbg_resume.
Print Assumptions urbg_get_seed_refuted.
Print Assumptions urbg_iv_refuted.
Print Assumptions shuffle_permutes.
Print Assumptions knuth_bijective.
Print Assumptions index_uniform.
Print Assumptions shuffle_natural.
Print Assumptions shuffles_no_reuse.
Print Assumptions shuffle_empty_refuted.
