(** * C67: the fast safe prime generator *)
From Coq Require Import ZArith Znumtheory List Bool Lia.
From Verif Require Import LinCodeModel MpxModel MpxProof ZpLib SafePrimeModel SafePrimeProof.
Import ListNotations.
Open Scope Z_scope.

(** ** The bytes of q *)
Definition bytes (l : list Z) : Prop := Forall (fun b => 0 <= b < 256) l.
Lemma be_acc l v : fold_left (fun v b => 256 * v + b) l v = v * 256 ^ Z.of_nat (length l) + be_value l.
Proof.
  unfold be_value. revert v. induction l as [|b l IH]; intros v.
  - cbn [fold_left length]. change (256 ^ Z.of_nat 0) with 1. lia.
  - cbn [fold_left length]. rewrite IH, (IH (256 * 0 + b)). rewrite Nat2Z.inj_succ, Z.pow_succ_r by lia. ring.
Qed.
Lemma be_cons b l : be_value (b :: l) = b * 256 ^ Z.of_nat (length l) + be_value l.
Proof. unfold be_value at 1. cbn [fold_left]. rewrite be_acc. ring. Qed.
Lemma be_app l z : be_value (l ++ [z]) = 256 * be_value l + z.
Proof. unfold be_value. now rewrite fold_left_app. Qed.
Lemma be_bound l : bytes l -> 0 <= be_value l < 256 ^ Z.of_nat (length l).
Proof.
  induction 1 as [|b l Hb Hl IH]; [cbn; lia|]. rewrite be_cons. cbn [length].
  rewrite Nat2Z.inj_succ, Z.pow_succ_r by lia. nia.
Qed.
Lemma lor3 z : 0 <= z < 256 -> 0 <= Z.lor z 3 < 256 /\ Z.lor z 3 mod 4 = 3 /\ z <= Z.lor z 3.
Proof.
  intros Hz.
  assert (forallb (fun n => let z := Z.of_nat n in (0 <=? Z.lor z 3) && (Z.lor z 3 <? 256) && (Z.lor z 3 mod 4 =? 3) && (z <=? Z.lor z 3)) (seq 0 256) = true) as F by (vm_compute; reflexivity).
  rewrite forallb_forall in F. specialize (F (Z.to_nat z)). rewrite in_seq, Z2Nat.id in F by lia.
  specialize (F ltac:(lia)). rewrite !andb_true_iff, !Z.leb_le, Z.ltb_lt, Z.eqb_eq in F. lia.
Qed.
Lemma set_at_app l z v : set_at (l ++ [z]) (length l) v = l ++ [v].
Proof. induction l as [|x l IH]; [reflexivity|]. cbn. now rewrite IH. Qed.
(** setting the last byte's two low bits *)
Lemma set_last l : l <> [] -> bytes l ->
  let l' := set_at l (length l - 1) (Z.lor (nth (length l - 1) l 0) 3) in
  bytes l' /\ length l' = length l /\ be_value l' mod 4 = 3 /\ be_value l <= be_value l'.
Proof.
  intros Hl Hb. destruct (exists_last Hl) as (i & z & ->). cbv zeta.
  rewrite app_length. cbn [length]. replace (length i + 1 - 1)%nat with (length i) by lia.
  rewrite app_nth2, Nat.sub_diag, set_at_app by lia. cbn [nth].
  apply Forall_app in Hb as [Hi Hz]. inversion Hz as [|? ? Hz' X]; subst. destruct (lor3 z Hz') as (B & M & L).
  split; [apply Forall_app; split; [exact Hi|repeat constructor; lia]|]. split; [rewrite app_length; reflexivity|].
  rewrite !be_app. split; [|lia].
  replace (256 * be_value i + Z.lor z 3) with (Z.lor z 3 + 64 * be_value i * 4) by ring. now rewrite Z.mod_add by lia.
Qed.
(** the first byte, for j bits in it *)
Definition first_byte (j b : Z) : Z :=
  Z.lor (Z.lor (Z.land b (if Z.land j 7 =? 0 then 255 else Z.shiftr 255 (8 - Z.land j 7))) (Z.shiftl 1 (Z.land (j - 1) 7)))
    (if Z.land j 7 =? 1 then 0 else Z.shiftr 128 (Z.land (9 - j) 7)).
Lemma first_byte_ok j b : 1 <= j <= 8 -> 0 <= b < 256 ->
  0 <= first_byte j b < 2 ^ j /\ (1 < j -> 3 * 2 ^ (j - 2) <= first_byte j b) /\ (j = 1 -> first_byte j b = 1).
Proof.
  intros Hj Hb.
  assert (forallb (fun j => forallb (fun n => let b := Z.of_nat n in
    (0 <=? first_byte j b) && (first_byte j b <? 2 ^ j) &&
    (if 1 <? j then 3 * 2 ^ (j - 2) <=? first_byte j b else first_byte j b =? 1)) (seq 0 256)) [1;2;3;4;5;6;7;8] = true) as F
    by (vm_compute; reflexivity).
  rewrite forallb_forall in F. specialize (F j ltac:(cbn [In]; lia)).
  rewrite forallb_forall in F. specialize (F (Z.to_nat b)). rewrite in_seq, Z2Nat.id in F by lia.
  specialize (F ltac:(lia)). rewrite !andb_true_iff, Z.leb_le, Z.ltb_lt in F.
  destruct F as [F1 F2]. split; [lia|].
  destruct (Z.ltb_spec 1 j); [apply Z.leb_le in F2|apply Z.eqb_eq in F2]; split; lia.
Qed.
Lemma lor128 b : 0 <= b < 256 -> 128 <= Z.lor b 128 < 256.
Proof.
  intros Hb.
  assert (forallb (fun n => (128 <=? Z.lor (Z.of_nat n) 128) && (Z.lor (Z.of_nat n) 128 <? 256)) (seq 0 256) = true) as F by (vm_compute; reflexivity).
  rewrite forallb_forall in F. specialize (F (Z.to_nat b)). rewrite in_seq, Z2Nat.id in F by lia.
  specialize (F ltac:(lia)). rewrite andb_true_iff, Z.leb_le, Z.ltb_lt in F. lia.
Qed.
Lemma store_last x0 l n : l <> [] -> bytes l -> n = Z.of_nat (length l) ->
  exists l', store (x0 :: l) n (Z.lor (nth (Z.to_nat n) (x0 :: l) 0) 3) = Val (x0 :: l') /\
    bytes l' /\ length l' = length l /\ be_value l' mod 4 = 3 /\ be_value l <= be_value l'.
Proof.
  intros Hl Hb ->. destruct (set_last l Hl Hb) as (B1 & B2 & B3 & B4). eexists. split; [|exact (conj B1 (conj B2 (conj B3 B4)))].
  unfold store. cbn [length]. destruct (Z.leb_spec 0 (Z.of_nat (length l))); [|lia].
  destruct (Z.ltb_spec (Z.of_nat (length l)) (Z.of_nat (S (length l)))); [|lia]. cbn [andb].
  rewrite Nat2Z.id. destruct l as [|y l]; [contradiction|]. cbn [length]. rewrite Nat.sub_succ, Nat.sub_0_r. reflexivity.
Qed.
Lemma fix_bytes_ok qsize tmp : 2 <= qsize -> bytes tmp -> Z.of_nat (length tmp) = (qsize + 7) / 8 ->
  exists tmp', fix_bytes qsize tmp = Val tmp' /\
    3 * 2 ^ (qsize - 2) <= be_value tmp' < 2 ^ qsize /\ be_value tmp' mod 4 = 3.
Proof.
  intros Hq Hb HL.
  set (n := Z.of_nat (length tmp) - 1). set (j := qsize - 8 * n).
  pose proof (Z.div_mod (qsize + 7) 8 ltac:(lia)) as D. pose proof (Z.mod_pos_bound (qsize + 7) 8 ltac:(lia)) as M.
  rewrite <- HL in D.
  assert (1 <= j <= 8) as Hj by (unfold j, n; lia).
  assert (0 <= n) as Hn by (unfold n, j in *; lia).
  assert (Z.land qsize 7 = Z.land j 7 /\ Z.land (qsize - 1) 7 = Z.land (j - 1) 7 /\ Z.land (9 - qsize) 7 = Z.land (9 - j) 7) as (L1 & L2 & L3).
  { change 7 with (Z.ones 3). rewrite !Z.land_ones by lia. change (2 ^ 3) with 8.
    replace qsize with (j + n * 8) by (unfold j; lia).
    replace (j + n * 8 - 1) with (j - 1 + n * 8) by lia. replace (9 - (j + n * 8)) with (9 - j + (- n) * 8) by lia.
    now rewrite !Z.mod_add by lia. }
  assert (Z.shiftr (qsize + 7) 3 - 1 = n) as LB.
  { rewrite Z.shiftr_div_pow2 by lia. change (2 ^ 3) with 8. unfold n. lia. }
  unfold fix_bytes. rewrite L1, L2, L3, LB. cbv zeta.
  destruct tmp as [|b0 tmp]; [unfold n in Hn; cbn in Hn; lia|].
  inversion Hb as [|? ? Hb0 Hb1]; subst. destruct (first_byte_ok j b0 Hj Hb0) as (FB & FL & F1).
  unfold store at 1. cbn [length nth Z.to_nat set_at]. change (0 <=? 0) with true.
  destruct (Z.ltb_spec 0 (Z.of_nat (S (length tmp)))); [|lia]. cbn [andb bind].
  unfold store at 1. cbn [length nth Z.to_nat set_at]. change (0 <=? 0) with true.
  destruct (Z.ltb_spec 0 (Z.of_nat (S (length tmp)))); [|lia]. cbn [andb bind].
  unfold first_byte in FB, FL, F1.
  assert (2 ^ qsize = 2 ^ j * 256 ^ n) as PQ.
  { change 256 with (2 ^ 8). rewrite <- Z.pow_mul_r, <- Z.pow_add_r by lia. f_equal. unfold j. lia. }
  assert (0 < 256 ^ n) as P256 by (apply Z.pow_pos_nonneg; lia).
  destruct (Z.eqb_spec (Z.land j 7) 1) as [E1|E1].
  - (* the second bit is the top bit of the second byte *)
    assert (j = 1) as Ej.
    { change 7 with (Z.ones 3) in E1. rewrite Z.land_ones in E1 by lia. change (2 ^ 3) with 8 in E1.
      destruct (Z.eq_dec j 8) as [->|]; [discriminate|]. rewrite Z.mod_small in E1; lia. }
    destruct tmp as [|b1 tmp]; [unfold n, j in *; cbn [length] in *; lia|].
    inversion Hb1 as [|? ? Hc Hc1]; subst b1.
    set (x0 := Z.lor (Z.land b0 _) _). assert (x0 = 1) as Ex0 by (specialize (F1 Ej); rewrite Z.lor_0_r in F1; exact F1).
    clearbody x0. subst x0.
    unfold store at 1. cbn [length]. change (0 <=? 1) with true.
    destruct (Z.ltb_spec 1 (Z.of_nat (S (S (length tmp))))); [|lia]. cbn [andb bind].
    change (Z.to_nat 1) with 1%nat. cbn [set_at nth]. rewrite Ej. change (Z.shiftr 128 (Z.land (9 - 1) 7)) with 128.
    pose proof (lor128 x Hc) as B128.
    destruct (store_last 1 (Z.lor x 128 :: tmp) n) as (l' & E & B1 & B2 & B3 & B4);
      [discriminate|constructor; [lia|exact Hc1]|unfold n; cbn [length]; lia|].
    exists (1 :: l'). split; [exact E|]. rewrite be_cons, B2. pose proof (be_bound _ B1) as BB. rewrite B2 in BB.
    rewrite be_cons in B4. cbn [length] in *.
    assert (n = Z.of_nat (S (length tmp))) as En by (unfold n; lia). rewrite <- En in *.
    assert (256 ^ n = 256 * 256 ^ Z.of_nat (length tmp)) as P1 by (rewrite En, Nat2Z.inj_succ, Z.pow_succ_r by lia; ring).
    assert (4 * 2 ^ (qsize - 2) = 2 ^ qsize) as P2.
    { change 4 with (2 ^ 2). rewrite <- Z.pow_add_r by lia. f_equal. lia. }
    rewrite Ej in PQ. change (2 ^ 1) with 2 in PQ. pose proof (be_bound tmp Hc1).
    split; [nia|]. replace (1 * 256 ^ n + be_value l') with (be_value l' + 64 * 256 ^ Z.of_nat (length tmp) * 4) by lia.
    now rewrite Z.mod_add by lia.
  - assert (1 < j) as J1 by (destruct (Z.eq_dec j 1) as [->|]; [now contradiction E1|lia]).
    specialize (FL J1).
    unfold store at 1. cbn [length]. change (0 <=? 0) with true.
    destruct (Z.ltb_spec 0 (Z.of_nat (S (length tmp)))); [|lia]. cbn [andb bind]. change (Z.to_nat 0) with 0%nat. cbn [set_at nth].
    set (x0 := Z.lor (Z.lor (Z.land b0 _) _) _) in *. clearbody x0.
    assert (3 * 2 ^ (qsize - 2) = 3 * 2 ^ (j - 2) * 256 ^ n) as P2.
    { change 256 with (2 ^ 8). rewrite <- Z.pow_mul_r, <- Z.mul_assoc, <- Z.pow_add_r by lia. do 2 f_equal. unfold j. lia. }
    destruct tmp as [|b1 tmp].
    + (* one byte *)
      assert (n = 0) as En by reflexivity. rewrite En in *. change (256 ^ 0) with 1 in *.
      assert (j = qsize) as Eq by (unfold j; lia). rewrite Eq in *.
      unfold store. change (Z.to_nat 0) with 0%nat. cbn [length nth set_at]. change (0 <=? 0) with true.
      destruct (Z.ltb_spec 0 (Z.of_nat 1)); [|lia]. cbn [andb].
      exists [Z.lor x0 3]. split; [reflexivity|].
      assert (be_value [Z.lor x0 3] = Z.lor x0 3) as -> by (cbn; lia).
      assert (2 ^ qsize <= 256) by (change 256 with (2 ^ 8); apply Z.pow_le_mono_r; lia).
      destruct (lor3 x0 ltac:(lia)) as (B & M3 & G). split; [|exact M3]. split; [lia|].
      assert (Z.log2 (Z.lor x0 3) < qsize) as LG.
      { rewrite Z.log2_lor by lia. apply Z.max_lub_lt; [apply Z.log2_lt_pow2; lia|]. change (Z.log2 3) with 1. lia. }
      apply Z.log2_lt_pow2; [lia|exact LG].
    + destruct (store_last x0 (b1 :: tmp) n) as (l' & E & B1 & B2 & B3 & B4); [discriminate|exact Hb1|unfold n; cbn [length]; lia|].
      exists (x0 :: l'). split; [exact E|]. rewrite be_cons, B2. pose proof (be_bound _ B1) as BB. rewrite B2 in BB.
      assert (n = Z.of_nat (length (b1 :: tmp))) as En by (unfold n; cbn [length]; lia). rewrite <- En in *.
      split; [rewrite PQ, P2; nia|].
      assert (256 ^ n = 256 * 256 ^ (n - 1)) as P1 by (rewrite <- Z.pow_succ_r by (cbn [length] in En; lia); f_equal; lia).
      rewrite P1. replace (x0 * (256 * 256 ^ (n - 1)) + be_value l') with (be_value l' + x0 * 64 * 256 ^ (n - 1) * 4) by ring.
      now rewrite Z.mod_add by lia.
Qed.

(** ** The search *)
Lemma co_prime_of_avoids m : m mod 3 = 2 -> avoids big_primes m = true -> is_co_prime m = true.
Proof.
  intros H3 H. unfold is_co_prime. apply forallb_forall. intros s Hs.
  change small_primes with (3 :: big_primes) in Hs. destruct Hs as [<-|Hs].
  - rewrite H3. now rewrite andb_false_r.
  - unfold avoids in H. rewrite forallb_forall in H.
    specialize (H s Hs). apply negb_true_iff in H. rewrite H. now rewrite andb_false_r.
Qed.
Lemma search_spec n : forall m delta last q p,
  let r := search n m delta last q p in
  (fst r = q /\ snd r = p /\ forall k, (k < n)%nat ->
     (m + delta + 2 * Z.of_nat k) mod 3 = 1 \/ is_co_prime (m + delta + 2 * Z.of_nat k) = false) \/
  (exists k, (k < n)%nat /\ fst r = q - last + delta + 2 * Z.of_nat k /\ snd r = 2 * fst r + 1 /\
     (m + delta + 2 * Z.of_nat k) mod 3 <> 1).
Proof.
  induction n as [|n IH]; intros m delta last q p.
  - left. repeat split; auto. intros k Hk. lia.
  - assert (forall last' q' p', q' - last' = q - last ->
      (m + delta) mod 3 = 1 \/ is_co_prime (m + delta) = false \/ (q' = q - last + delta /\ p' = 2 * q' + 1 /\ (m + delta) mod 3 <> 1) ->
      ((m + delta) mod 3 = 1 \/ is_co_prime (m + delta) = false -> q' = q /\ p' = p) ->
      let r := search n m (delta + 2) last' q' p' in
      (fst r = q /\ snd r = p /\ forall k, (k < S n)%nat ->
         (m + delta + 2 * Z.of_nat k) mod 3 = 1 \/ is_co_prime (m + delta + 2 * Z.of_nat k) = false) \/
      (exists k, (k < S n)%nat /\ fst r = q - last + delta + 2 * Z.of_nat k /\ snd r = 2 * fst r + 1 /\
         (m + delta + 2 * Z.of_nat k) mod 3 <> 1)) as Step.
    { intros last' q' p' Hq' Hc Hk r. destruct (IH m (delta + 2) last' q' p') as [(A & B & C)|(k & A & B & C & D)]; fold r in A, B, C || fold r in B, C.
      - destruct Hc as [Hc|[Hc|(Hc1 & Hc2 & Hc3)]].
        1,2: left; destruct Hk as [-> ->]; [auto|]; repeat split; auto; intros [|k] Hkn;
          [rewrite Z.add_0_r; auto|]; specialize (C k ltac:(lia));
          replace (m + delta + 2 * Z.of_nat (S k)) with (m + (delta + 2) + 2 * Z.of_nat k) by lia; exact C.
        right. exists 0%nat. rewrite A, B. repeat split; try lia. now rewrite Z.mul_0_r, Z.add_0_r.
      - right. exists (S k). replace (m + delta + 2 * Z.of_nat (S k)) with (m + (delta + 2) + 2 * Z.of_nat k) by lia.
        repeat split; auto; lia. }
    cbn [search].
    destruct (Z.eqb_spec ((m + delta) mod 3) 1) as [E1|E1]; [apply Step; auto|].
    destruct (is_co_prime (m + delta)) eqn:E2; cbn [negb]; [|apply Step; auto].
    destruct (is_prime_candidate (2 * (q + (delta - last)) + 1)).
    + right. exists 0%nat. cbn [fst snd]. rewrite Z.mul_0_r, !Z.add_0_r. repeat split; auto; lia.
    + apply Step; [lia| |].
      * right. right. repeat split; auto; lia.
      * intros [K|K]; [contradiction|discriminate].
Qed.
Lemma search_finds_n n q p0 : Z.of_nat n = 2 ^ 19 ->
  (forall m, exists i, (i < n)%nat /\ (m + 2 * Z.of_nat i) mod 3 = 2 /\ avoids big_primes (m + 2 * Z.of_nat i) = true) ->
  exists d, 0 <= d < 2 ^ 20 /\ Z.even d = true /\
    search n (q mod small_prime_prod) 0 0 q p0 = (q + d, 2 * (q + d) + 1) /\ (2 * (q + d) + 1) mod 3 <> 0.
Proof.
  intros Hn CE. set (m := q mod small_prime_prod).
  pose proof (search_spec n m 0 0 q p0) as Sp. cbv zeta in Sp.
  destruct (search n m 0 0 q p0) as [q' p']. cbn [fst snd] in Sp.
  destruct Sp as [(_ & _ & C)|(k & Hk & Eq & Ep & N1)].
  - exfalso. destruct (CE m) as (i & Hi & H3 & Ha).
    specialize (C i Hi). rewrite Z.add_0_r in C. rewrite (co_prime_of_avoids _ H3 Ha), H3 in C. destruct C; discriminate.
  - exists (2 * Z.of_nat k). 
    assert (Z.of_nat k < 2 ^ 19) as Hk' by lia.
    split; [lia|]. split; [now rewrite Z.even_mul|]. split; [f_equal; lia|].
    intros E. apply N1. rewrite Z.add_0_r.
    assert (m mod 3 = q mod 3) as Em.
    { unfold m. apply Z.mod_divide in E; [|lia]. clear.
      pose proof (Z.div_mod q small_prime_prod ltac:(discriminate)) as D.
      rewrite D at 2. rewrite Z.add_comm.
      replace (small_prime_prod * (q / small_prime_prod)) with ((small_prime_prod / 3 * (q / small_prime_prod)) * 3).
      2:{ assert (small_prime_prod = small_prime_prod / 3 * 3) as S3 by reflexivity. rewrite S3 at 3. ring. }
      symmetry. now apply Z.mod_add. }
    rewrite <- Z.add_mod_idemp_l, Em, Z.add_mod_idemp_l by lia.
    pose proof (Z.div_mod (2 * (q + 2 * Z.of_nat k) + 1) 3 ltac:(lia)) as D. rewrite E in D.
    set (t := (2 * (q + 2 * Z.of_nat k) + 1) / 3) in *.
    symmetry. apply Z.mod_unique_pos with (q := (q + 2 * Z.of_nat k - 1) / 3); [lia|].
    pose proof (Z.div_mod (q + 2 * Z.of_nat k - 1) 3 ltac:(lia)). pose proof (Z.mod_pos_bound (q + 2 * Z.of_nat k - 1) 3 ltac:(lia)). lia.
Qed.

Lemma search_finds q p0 :
  exists d, 0 <= d < 2 ^ 20 /\ Z.even d = true /\
    search search_rounds (q mod small_prime_prod) 0 0 q p0 = (q + d, 2 * (q + d) + 1) /\ (2 * (q + d) + 1) mod 3 <> 0.
Proof. apply search_finds_n; [apply Z2Nat.id; lia|exact candidate_exists]. Qed.

(** ** The generator *)
Definition good_draws (qsize : Z) (draws : nat -> list Z) : Prop :=
  forall i, bytes (draws i) /\ Z.of_nat (length (draws i)) = (qsize + 7) / 8.
Lemma rounds_ok fuel is_prime draws qsize : 2 <= qsize -> good_draws qsize draws -> forall i p0,
  rounds fuel is_prime draws i qsize p0 = Hangs \/
  exists q, rounds fuel is_prime draws i qsize p0 = Val (2 * q + 1, q) /\ is_prime q = true /\
    3 * 2 ^ (qsize - 2) <= q < 2 ^ qsize + 2 ^ 20 /\ Z.odd q = true /\ (prime q -> prime (2 * q + 1)).
Proof.
  intros Hq Hd. induction fuel as [|fuel IH]; intros i p0; [now left|].
  cbn [rounds]. destruct (Hd i) as [Hb HL]. destruct (fix_bytes_ok qsize (draws i) Hq Hb HL) as (tmp & Et & Bt & M4).
  rewrite Et. cbn [bind]. destruct (search_finds (be_value tmp) p0) as (d & Hdd & Ev & Es & N3). rewrite Es.
  set (q := be_value tmp + d) in *. assert (0 < 2 ^ (qsize - 2)) by (apply Z.pow_pos_nonneg; lia).
  unfold fermat_test. destruct (Z.leb_spec (2 * q + 1) 0); [lia|]. cbn [bind].
  destruct (Z.eqb_spec (2 ^ (2 * q + 1 - 1) mod (2 * q + 1)) 1) as [F|F]; cbn [negb]; [|apply IH].
  destruct (is_prime q) eqn:Eq; [|apply IH]. right. exists q. split; [reflexivity|]. split; [exact Eq|]. split; [lia|]. split.
  - unfold q. rewrite Z.odd_add. rewrite <- (Z.negb_even d), Ev. cbn [negb]. rewrite xorb_false_r.
    pose proof (Z.div_mod (be_value tmp) 4 ltac:(lia)) as D. rewrite M4 in D. rewrite D.
    replace (4 * (be_value tmp / 4) + 3) with (1 + 2 * (2 * (be_value tmp / 4) + 1)) by ring. now rewrite Z.odd_add_mul_2.
  - intros Pq. replace (2 * q + 1 - 1) with (2 * q) in F by lia. exact (pocklington q Pq N3 F).
Qed.

(** Whatever the random bytes, the variable's old contents and the answers of the
    final test: if the generator returns p, then p = 2 q + 1 for a q the final test
    accepted, and p is prime if q is. *)
Theorem safe_prime : forall fuel is_prime draws p0 t psize p q, 3 <= psize ->
  good_draws (psize - 1) draws ->
  safe_prime_rand fuel is_prime draws p0 t psize = Val (p, q) ->
  p = 2 * q + 1 /\ is_prime q = true /\ (prime q -> prime p).
Proof.
  intros fuel ip draws p0 t psize p q Hs Hd H. unfold safe_prime_rand in H.
  destruct ((1 <? psize) && (0 <? t)); [|discriminate].
  destruct (rounds_ok fuel ip draws (psize - 1) ltac:(lia) Hd 0 p0) as [E|(q' & E & A & B & C & D)]; rewrite E in H; [discriminate|].
  assert (p = 2 * q' + 1 /\ q = q') as [-> ->] by (split; congruence). auto.
Qed.
(** Its size: p has psize or psize + 1 bits and starts with the bits 11 in the first
    case; q is odd. *)
Theorem safe_prime_size : forall fuel is_prime draws p0 t psize p q, 23 <= psize ->
  good_draws (psize - 1) draws ->
  safe_prime_rand fuel is_prime draws p0 t psize = Val (p, q) ->
  3 * 2 ^ (psize - 2) < p < 2 ^ psize + 2 ^ 21 /\ Z.log2 p + 1 <= psize + 1 /\ p mod 4 = 3.
Proof.
  intros fuel ip draws p0 t psize p q Hs Hd H. unfold safe_prime_rand in H.
  destruct ((1 <? psize) && (0 <? t)); [|discriminate].
  destruct (rounds_ok fuel ip draws (psize - 1) ltac:(lia) Hd 0 p0) as [E|(q' & E & A & B & C & D)]; rewrite E in H; [discriminate|].
  assert (p = 2 * q' + 1 /\ q = q') as [-> ->] by (split; congruence).
  assert (2 ^ (psize - 1) = 2 * 2 ^ (psize - 1 - 1)) as P1 by (rewrite <- Z.pow_succ_r by lia; f_equal; lia).
  assert (2 ^ (psize - 2) = 2 * 2 ^ (psize - 1 - 2)) as P2 by (rewrite <- Z.pow_succ_r by lia; f_equal; lia).
  assert (2 ^ psize = 2 * 2 ^ (psize - 1)) as P3 by (rewrite <- Z.pow_succ_r by lia; f_equal; lia).
  assert (2 ^ (psize - 1) = 2 * 2 ^ (psize - 2)) as P4 by (rewrite <- Z.pow_succ_r by lia; f_equal; lia).
  assert (2 ^ 23 <= 2 ^ psize) as P5 by (apply Z.pow_le_mono_r; lia).
  split; [lia|]. split.
  - assert (Z.log2 (2 * q' + 1) < psize + 1); [|lia]. apply Z.log2_lt_pow2; [lia|].
    replace (2 ^ (psize + 1)) with (2 * 2 ^ psize) by (rewrite <- Z.pow_succ_r by lia; f_equal; lia). lia.
  - apply Z.odd_spec in C as [k ->]. replace (2 * (2 * k + 1) + 1) with (3 + k * 4) by ring. now rewrite Z.mod_add by lia.
Qed.
(** It throws exactly when the parameters are out of range and never reads or writes
    outside its buffer for psize >= 3. *)
Theorem safe_prime_outcomes : forall fuel is_prime draws p0 t psize,
  (psize <= 1 \/ t <= 0 -> safe_prime_rand fuel is_prime draws p0 t psize = Thrown) /\
  (3 <= psize -> 0 < t -> good_draws (psize - 1) draws ->
   safe_prime_rand fuel is_prime draws p0 t psize = Hangs \/
   exists r, safe_prime_rand fuel is_prime draws p0 t psize = Val r).
Proof.
  intros fuel ip draws p0 t psize. unfold safe_prime_rand.
  destruct (Z.ltb_spec 1 psize), (Z.ltb_spec 0 t); cbn [andb]; (split; [intros K|intros K1 K2 K3]); try lia; try reflexivity.
  destruct (rounds_ok fuel ip draws (psize - 1) ltac:(lia) K3 0 p0) as [E|(q' & E & _)]; rewrite E; eauto.
Qed.
(** psize = 2 passes the check but writes past its one-byte buffer. *)
Theorem safe_prime_two_bits_refuted : exists draws, good_draws 1 draws /\
  forall is_prime p0, safe_prime_rand 1 is_prime draws p0 1 2 = OutOfBounds.
Proof.
  exists (fun _ => [0]). split; [intros i; split; [repeat constructor; lia|reflexivity]|].
  intros ip p0. reflexivity.
Qed.
(** The result can be one bit longer than asked for. *)
Theorem safe_prime_exact_size_refuted : exists draws, good_draws 5 draws /\
  forall is_prime p0, is_prime 41 = true ->
  safe_prime_rand 1 is_prime draws p0 1 6 = Val (83, 41) /\ 2 ^ 6 <= 83.
Proof.
  exists (fun _ => [255]). split; [intros i; split; [repeat constructor; lia|reflexivity]|].
  intros ip p0 H. split; [|lia].
  assert (fix_bytes 5 [255] = Val [31]) as E1 by reflexivity.
  assert (search search_rounds (31 mod small_prime_prod) 0 0 31 p0 = (41, 83)) as E2.
  { vm_cast_no_check (eq_refl (41, 83)). }
  unfold safe_prime_rand. cbn [Z.ltb Z.compare Pos.compare Pos.compare_cont andb rounds].
  change (6 - 1) with 5. rewrite E1. cbn [bind]. change (be_value [31]) with 31. rewrite E2.
  assert (fermat_test 83 = Val true) as -> by (vm_compute; reflexivity). cbn [bind negb]. now rewrite H.
Qed.
(** RandPrimeOver with PrimeType::FastSafe. *)
Theorem rand_prime_over_safe : forall fuel is_prime draws out trials bit_size,
  (bit_size <= 81 -> rand_prime_over fuel is_prime draws out trials bit_size = Thrown) /\
  (forall p q, good_draws (bit_size - 1) draws ->
   rand_prime_over fuel is_prime draws out trials bit_size = Val (p, q) ->
   p = 2 * q + 1 /\ is_prime q = true /\ (prime q -> prime p) /\
   bit_size <= Z.log2 p + 1 <= bit_size + 1).
Proof.
  intros fuel ip draws out t n. unfold rand_prime_over. destruct (Z.ltb_spec 81 n) as [G|G].
  - split; [lia|]. intros p q Hd H. destruct (safe_prime fuel ip draws out t n p q ltac:(lia) Hd H) as (A & B & C).
    destruct (safe_prime_size fuel ip draws out t n p q ltac:(lia) Hd H) as (D & E & _).
    assert (2 ^ (n - 1) <= p) as PL.
    { replace (2 ^ (n - 1)) with (2 * 2 ^ (n - 2)) in * by (rewrite <- Z.pow_succ_r by lia; f_equal; lia). pose proof (Z.pow_pos_nonneg 2 (n - 2) ltac:(lia) ltac:(lia)). lia. }
    assert (0 < 2 ^ (n - 1)) by (apply Z.pow_pos_nonneg; lia).
    assert (n - 1 <= Z.log2 p) by (apply Z.log2_le_pow2; lia).
    assert (n <= Z.log2 p + 1) as F by lia. exact (conj A (conj B (conj C (conj F E)))).
  - split; [reflexivity|]. discriminate.
Qed.

(** ** A concrete case: 11-bit p, q = 1019 at once *)
Example ex_bytes : fix_bytes 10 [0; 251] = Val [3; 251]. Proof. reflexivity. Qed.
Example ex_found : safe_prime_rand 1 (fun q => q =? 1019) (fun _ => [0; 251]) 0 8 11 = Val (2039, 1019). Proof. vm_compute. reflexivity. Qed.

Print Assumptions safe_prime.
Print Assumptions safe_prime_size.
Print Assumptions safe_prime_outcomes.
Print Assumptions safe_prime_two_bits_refuted.
Print Assumptions safe_prime_exact_size_refuted.
Print Assumptions rand_prime_over_safe.
