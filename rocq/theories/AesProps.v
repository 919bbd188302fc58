(* C112: AES-128 on processor instructions: the two key schedules are the one of
   FIPS-197, encryption is its cipher, decryption inverts it, and the batched
   encryption uses each key on its own blocks. *)
From Coq Require Import NArith List Bool Arith Lia Btauto.
From Verif Require Import LinCodeModel AesModel.
Import ListNotations.
Local Open Scope nat_scope.

(* ------------------------------------------------------------------ *)
(* FIPS-197                                                            *)

(* 5.2: Rcon[j] = (x^(j-1), 0, 0, 0). *)
Definition rcon (j : nat) : col := C (Nat.iter (j - 1) xtime 1%N) 0 0 0.

(* 5.2: the key expansion, as the recurrence its words satisfy. *)
Definition key_expansion (k : vec) (w : nat -> col) : Prop :=
  k = V (w 0) (w 1) (w 2) (w 3) /\
  forall i, 4 <= i < 44 ->
    w i = xor_col (w (i - 4))
            (if Nat.eqb (i mod 4) 0
             then xor_col (sub_word (rot_word (w (i - 1)))) (rcon (i / 4))
             else w (i - 1)).

Definition round_key (w : nat -> col) (r : nat) : vec :=
  V (w (4 * r)) (w (4 * r + 1)) (w (4 * r + 2)) (w (4 * r + 3)).

(* 5.1, the cipher. *)
Definition cipher (w : nat -> col) (b : vec) : vec :=
  xor_vec
    (shift_rows (sub_bytes
      (fold_left (fun s r => xor_vec (mix_columns (shift_rows (sub_bytes s))) (round_key w r))
         [1; 2; 3; 4; 5; 6; 7; 8; 9] (xor_vec b (round_key w 0)))))
    (round_key w 10).

(* 5.3, the inverse cipher. *)
Definition inv_cipher (w : nat -> col) (b : vec) : vec :=
  xor_vec
    (inv_sub_bytes (inv_shift_rows
      (fold_left (fun s r => inv_mix_columns
                    (xor_vec (inv_sub_bytes (inv_shift_rows s)) (round_key w r)))
         [9; 8; 7; 6; 5; 4; 3; 2; 1] (xor_vec b (round_key w 10)))))
    (round_key w 0).

(* 4.2: multiplication in GF(2^8), and 5.1.1: the S-box is the inverse followed
   by an affine map. *)
Fixpoint gmul_bits (n : nat) (a b : N) : N :=
  match n with
  | O => 0
  | S n' => N.lxor (if N.testbit a 0 then b else 0%N) (gmul_bits n' (N.div2 a) (xtime b))
  end.
Definition gmul (a b : N) : N := gmul_bits 8 a b.

Definition affine_bit (b : N) (i : N) : bool :=
  xorb (xorb (xorb (xorb (xorb (N.testbit b i) (N.testbit b ((i + 4) mod 8)))
    (N.testbit b ((i + 5) mod 8))) (N.testbit b ((i + 6) mod 8)))
    (N.testbit b ((i + 7) mod 8))) (N.testbit 99 i).

(* ------------------------------------------------------------------ *)
(* Bytes                                                               *)

Ltac xsolve :=
  apply N.bits_inj; intro; rewrite ?N.lxor_spec, ?N.bits_0; btauto.

Lemma xtime_lxor a b : xtime (N.lxor a b) = N.lxor (xtime a) (xtime b).
Proof.
  unfold xtime. rewrite N.shiftl_lxor, N.lxor_spec.
  destruct (N.testbit a 7), (N.testbit b 7); cbn [xorb]; xsolve.
Qed.

Lemma sbox_pairs :
  forallb (fun i => N.eqb (inv_sbox (sbox (N.of_nat i))) (N.of_nat i) &&
                    N.eqb (sbox (inv_sbox (N.of_nat i))) (N.of_nat i)) (seq 0 256) = true.
Proof. vm_compute. reflexivity. Qed.

Lemma sbox_big b : 256 <= N.to_nat b -> sbox b = b /\ inv_sbox b = b.
Proof. intros H. unfold sbox, inv_sbox. split; apply nth_overflow; exact H. Qed.

Lemma inv_sbox_sbox b : inv_sbox (sbox b) = b /\ sbox (inv_sbox b) = b.
Proof.
  destruct (Nat.lt_ge_cases (N.to_nat b) 256) as [L|L].
  - assert (H := sbox_pairs). rewrite forallb_forall in H.
    specialize (H (N.to_nat b)). rewrite N2Nat.id in H.
    rewrite in_seq in H. specialize (H (conj (Nat.le_0_l _) L)).
    apply andb_true_iff in H. destruct H as [H1 H2].
    apply N.eqb_eq in H1. apply N.eqb_eq in H2. auto.
  - destruct (sbox_big b L) as [H1 H2]. split.
    + rewrite H1. exact H2.
    + rewrite H2. exact H1.
Qed.

(* ------------------------------------------------------------------ *)
(* Columns and blocks                                                  *)

Lemma xor_col_self_r x y : xor_col (xor_col x y) y = x.
Proof. destruct x, y. cbn. f_equal; xsolve. Qed.

Lemma xor_vec_self_r x y : xor_vec (xor_vec x y) y = x.
Proof. destruct x, y. cbn. f_equal; apply xor_col_self_r. Qed.

Lemma sub_shift x : sub_bytes (shift_rows x) = shift_rows (sub_bytes x).
Proof. destruct x as [[][][][]]. reflexivity. Qed.

Lemma inv_sub_shift x :
  inv_sub_bytes (inv_shift_rows (shift_rows (sub_bytes x))) = x.
Proof.
  destruct x as [[][][][]].
  cbn [inv_sub_bytes inv_shift_rows shift_rows sub_bytes map_vec map_col].
  rewrite !(fun b => proj1 (inv_sbox_sbox b)). reflexivity.
Qed.

Lemma sub_shift_inv x :
  shift_rows (sub_bytes (inv_sub_bytes (inv_shift_rows x))) = x.
Proof.
  destruct x as [[][][][]].
  cbn [inv_sub_bytes inv_shift_rows shift_rows sub_bytes map_vec map_col].
  rewrite !(fun b => proj2 (inv_sbox_sbox b)). reflexivity.
Qed.

Lemma inv_mix_mix_col x : inv_mix_col (mix_col x) = x.
Proof.
  destruct x as [a b c d].
  cbn [inv_mix_col mix_col]. unfold xor4, m14, m13, m11, m9, m3, m2.
  f_equal; rewrite !xtime_lxor; xsolve.
Qed.

Lemma mix_inv_mix_col x : mix_col (inv_mix_col x) = x.
Proof.
  destruct x as [a b c d].
  cbn [inv_mix_col mix_col]. unfold xor4, m14, m13, m11, m9, m3, m2.
  f_equal; rewrite !xtime_lxor; xsolve.
Qed.

Lemma inv_mix_mix x : inv_mix_columns (mix_columns x) = x.
Proof. destruct x. cbn. f_equal; apply inv_mix_mix_col. Qed.

Lemma mix_inv_mix x : mix_columns (inv_mix_columns x) = x.
Proof. destruct x. cbn. f_equal; apply mix_inv_mix_col. Qed.

Lemma inv_mix_xor_col x y :
  inv_mix_col (xor_col x y) = xor_col (inv_mix_col x) (inv_mix_col y).
Proof.
  destruct x, y. cbn [xor_col inv_mix_col].
  unfold xor4, m14, m13, m11, m9. f_equal; rewrite !xtime_lxor; xsolve.
Qed.

Lemma inv_mix_xor x y :
  inv_mix_columns (xor_vec x y) = xor_vec (inv_mix_columns x) (inv_mix_columns y).
Proof.
  destruct x, y. cbn [inv_mix_columns map_vec xor_vec]. f_equal; apply inv_mix_xor_col.
Qed.

(* ------------------------------------------------------------------ *)
(* The cipher and its inverse                                          *)

Lemma xor_vec_comm_self x y : xor_vec (xor_vec x y) y = x.
Proof. apply xor_vec_self_r. Qed.

Lemma enc_step_inv s k :
  xor_vec (inv_mix_columns (xor_vec (mix_columns (shift_rows (sub_bytes s))) k))
          (inv_mix_columns k) = shift_rows (sub_bytes s).
Proof. rewrite inv_mix_xor, inv_mix_mix, xor_vec_self_r. reflexivity. Qed.

Section Inverse.
Variable w : nat -> col.
Let rk := round_key w.

Let enc_rounds (rs : list nat) (s : vec) : vec :=
  fold_left (fun s r => xor_vec (mix_columns (shift_rows (sub_bytes s))) (rk r)) rs s.
Let dec_rounds (rs : list nat) (s : vec) : vec :=
  fold_left (fun s r => inv_mix_columns
                    (xor_vec (inv_sub_bytes (inv_shift_rows s)) (rk r))) rs s.

Lemma rounds_inverse rs : forall s,
  dec_rounds (rev rs) (shift_rows (sub_bytes (enc_rounds rs s))) = shift_rows (sub_bytes s).
Proof.
  induction rs as [|r rs IH] using rev_ind; intros s; [reflexivity|].
  rewrite rev_unit. unfold enc_rounds, dec_rounds in *.
  rewrite fold_left_app. cbn [fold_left].
  rewrite inv_sub_shift, xor_vec_self_r, inv_mix_mix. apply IH.
Qed.

Lemma rounds_inverse' rs : forall s,
  enc_rounds (rev rs) (inv_sub_bytes (inv_shift_rows (dec_rounds rs s))) =
  inv_sub_bytes (inv_shift_rows s).
Proof.
  induction rs as [|r rs IH] using rev_ind; intros s; [reflexivity|].
  rewrite rev_unit. unfold enc_rounds, dec_rounds in *.
  rewrite fold_left_app. cbn [fold_left].
  rewrite sub_shift_inv, mix_inv_mix, xor_vec_self_r. apply IH.
Qed.

Lemma inv_cipher_cipher b : inv_cipher w (cipher w b) = b.
Proof.
  unfold inv_cipher, cipher. rewrite xor_vec_self_r.
  assert (H := rounds_inverse [1;2;3;4;5;6;7;8;9] (xor_vec b (round_key w 0))).
  unfold enc_rounds, dec_rounds, rk in H. cbn [rev app] in H. rewrite H.
  rewrite inv_sub_shift. apply xor_vec_self_r.
Qed.

Lemma cipher_inv_cipher b : cipher w (inv_cipher w b) = b.
Proof.
  unfold inv_cipher, cipher. rewrite xor_vec_self_r.
  assert (H := rounds_inverse' [9;8;7;6;5;4;3;2;1] (xor_vec b (round_key w 10))).
  unfold enc_rounds, dec_rounds, rk in H. cbn [rev app] in H. rewrite H.
  rewrite sub_shift_inv. apply xor_vec_self_r.
Qed.

End Inverse.

(* ------------------------------------------------------------------ *)
(* One step of the key schedules                                       *)

Definition next_key (v : vec) (rc : N) : vec :=
  match v with V w0 w1 w2 w3 =>
    let w4 := xor_col w0 (xor_col (sub_word (rot_word w3)) (C rc 0 0 0)) in
    let w5 := xor_col w1 w4 in
    let w6 := xor_col w2 w5 in
    let w7 := xor_col w3 w6 in
    V w4 w5 w6 w7 end.

Lemma expand_assist_next v b c d rc :
  exists b' c' d',
    expand_assist v (V zero_col b c d) 255 rc = (next_key v rc, V zero_col b' c' d').
Proof.
  destruct v as [[a0 a1 a2 a3] [b0 b1 b2 b3] [c0 c1 c2 c3] [d0 d1 d2 d3]].
  unfold expand_assist, shuffle_ps, shuffle_epi32, lane.
  change (N.to_nat (sel 16 0)) with 0. change (N.to_nat (sel 16 2)) with 0.
  change (N.to_nat (sel 16 4)) with 1. change (N.to_nat (sel 16 6)) with 0.
  change (N.to_nat (sel 140 0)) with 0. change (N.to_nat (sel 140 2)) with 3.
  change (N.to_nat (sel 140 4)) with 0. change (N.to_nat (sel 140 6)) with 2.
  change (N.to_nat (sel 255 0)) with 3. change (N.to_nat (sel 255 2)) with 3.
  change (N.to_nat (sel 255 4)) with 3. change (N.to_nat (sel 255 6)) with 3.
  cbn [aeskeygenassist lanes nth xor_vec xor_col zero_col next_key sub_word rot_word map_col].
  do 3 eexists. apply f_equal2; [|reflexivity].
  f_equal; f_equal; xsolve.
Qed.

Definition rep (rc : N) : vec :=
  V (C rc 0 0 0) (C rc 0 0 0) (C rc 0 0 0) (C rc 0 0 0).

Lemma ks_round_next v rc : ks_round v (rep rc) con3_const mask_const = next_key v rc.
Proof.
  destruct v as [[a0 a1 a2 a3] [b0 b1 b2 b3] [c0 c1 c2 c3] [d0 d1 d2 d3]].
  unfold ks_round.
  change con3_const with
    (V (C 255 255 255 255) (C 255 255 255 255) (C 4 5 6 7) (C 4 5 6 7)).
  change mask_const with
    (V (C 13 14 15 12) (C 13 14 15 12) (C 13 14 15 12) (C 13 14 15 12)).
  unfold shuffle_epi8, pick, slli_epi64_32, zero_col.
  cbn [map_vec map_col xor_vec xor_col].
  change (N.testbit 255 7) with true.
  change (N.testbit 4 7) with false. change (N.testbit 5 7) with false.
  change (N.testbit 6 7) with false. change (N.testbit 7 7) with false.
  change (N.testbit 12 7) with false. change (N.testbit 13 7) with false.
  change (N.testbit 14 7) with false. change (N.testbit 15 7) with false.
  cbn iota.
  change (N.to_nat (N.land 4 15)) with 4. change (N.to_nat (N.land 5 15)) with 5.
  change (N.to_nat (N.land 6 15)) with 6. change (N.to_nat (N.land 7 15)) with 7.
  change (N.to_nat (N.land 12 15)) with 12. change (N.to_nat (N.land 13 15)) with 13.
  change (N.to_nat (N.land 14 15)) with 14. change (N.to_nat (N.land 15 15)) with 15.
  unfold bytes. cbn [lanes flat_map app nth].
  unfold aesenclast, rep.
  cbn [shift_rows sub_bytes map_vec map_col next_key xor_vec xor_col sub_word rot_word].
  f_equal; f_equal; xsolve.
Qed.

(* ------------------------------------------------------------------ *)
(* Arrays                                                              *)

Lemma nth_error_ext {A} (a : list A) : forall b,
  (forall m, nth_error a m = nth_error b m) -> a = b.
Proof.
  induction a as [|x a IH]; intros [|y b] H.
  - reflexivity.
  - specialize (H 0). discriminate.
  - specialize (H 0). discriminate.
  - assert (H0 := H 0). cbn in H0. injection H0 as ->. f_equal.
    apply IH. intros m. exact (H (S m)).
Qed.

Lemma get_val {A} (l : list A) i v : nth_error l i = Some v -> get l i = Val v.
Proof. unfold get. intros ->. reflexivity. Qed.

Lemma set_val {A} (l : list A) : forall i v, i < length l ->
  exists l', set l i v = Val l' /\ length l' = length l /\
    forall m, nth_error l' m = if Nat.eqb m i then Some v else nth_error l m.
Proof.
  induction l as [|x l IH]; intros [|i] v H; cbn in H; try lia.
  - exists (v :: l). split; [reflexivity|]. split; [reflexivity|].
    intros [|m]; reflexivity.
  - destruct (IH i v) as (l' & H1 & H2 & H3); [lia|].
    exists (x :: l'). cbn [set]. rewrite H1. split; [reflexivity|].
    split; [cbn; lia|]. intros [|m]; [reflexivity|]. apply H3.
Qed.

Lemma nth_error_lt {A} (l : list A) i : i < length l -> exists v, nth_error l i = Some v.
Proof.
  intros H. destruct (nth_error l i) eqn:E; [eauto|].
  apply nth_error_None in E. lia.
Qed.

Definition in_range (i n m : nat) : bool := (i <=? m) && (m <? i + n).

Lemma in_range_S i n m : in_range i (S n) m = Nat.eqb m i || in_range (S i) n m.
Proof.
  unfold in_range. destruct (Nat.eqb_spec m i), (Nat.leb_spec i m), (Nat.leb_spec (S i) m),
    (Nat.ltb_spec m (i + S n)), (Nat.ltb_spec m (S i + n)); cbn; lia || reflexivity.
Qed.

Lemma in_range_not i n : in_range (S i) n i = false.
Proof.
  unfold in_range. destruct (Nat.leb_spec (S i) i); [lia|reflexivity].
Qed.

(* The loop over blocks. *)
Lemma blocks_loop_spec f g ins : (forall b, f b = Val (g b)) ->
  forall n i out, i + n <= length ins -> i + n <= length out ->
  exists r, blocks_loop f ins n i out = Val r /\ length r = length out /\
    forall m, nth_error r m =
      if in_range i n m then option_map g (nth_error ins m) else nth_error out m.
Proof.
  intros Hf. induction n as [|n IH]; intros i out H1 H2; cbn [blocks_loop].
  - exists out. split; [reflexivity|]. split; [reflexivity|]. intros m.
    unfold in_range. destruct (Nat.leb_spec i m), (Nat.ltb_spec m (i + 0)); cbn; try lia; reflexivity.
  - destruct (nth_error_lt ins i) as [b Hb]; [lia|].
    rewrite (get_val _ _ _ Hb). cbn [bind]. rewrite Hf. cbn [bind].
    destruct (set_val out i (g b)) as (out' & E1 & E2 & E3); [lia|].
    rewrite E1. cbn [bind].
    destruct (IH (S i) out') as (r & R1 & R2 & R3); [lia|lia|].
    exists r. split; [exact R1|]. split; [lia|]. intros m.
    rewrite R3, in_range_S. destruct (Nat.eqb_spec m i) as [->|Hm]; cbn [orb].
    + rewrite in_range_not, E3, Nat.eqb_refl, Hb. reflexivity.
    + destruct (in_range (S i) n m); [reflexivity|].
      rewrite E3. destruct (Nat.eqb_spec m i); [lia|reflexivity].
Qed.

Lemma blocks_in_place_spec f g : (forall b, f b = Val (g b)) ->
  forall n i buf, i + n <= length buf ->
  exists r, blocks_in_place f n i buf = Val r /\ length r = length buf /\
    forall m, nth_error r m =
      if in_range i n m then option_map g (nth_error buf m) else nth_error buf m.
Proof.
  intros Hf. induction n as [|n IH]; intros i out H1; cbn [blocks_in_place].
  - exists out. split; [reflexivity|]. split; [reflexivity|]. intros m.
    unfold in_range. destruct (Nat.leb_spec i m), (Nat.ltb_spec m (i + 0)); cbn; try lia; reflexivity.
  - destruct (nth_error_lt out i) as [b Hb]; [lia|].
    rewrite (get_val _ _ _ Hb). cbn [bind]. rewrite Hf. cbn [bind].
    destruct (set_val out i (g b)) as (out' & E1 & E2 & E3); [lia|].
    rewrite E1. cbn [bind].
    destruct (IH (S i) out') as (r & R1 & R2 & R3); [lia|].
    exists r. split; [exact R1|]. split; [lia|]. intros m.
    rewrite R3, in_range_S. destruct (Nat.eqb_spec m i) as [->|Hm]; cbn [orb].
    + rewrite in_range_not, E3, Nat.eqb_refl, Hb. reflexivity.
    + rewrite E3. destruct (Nat.eqb_spec m i); [lia|]. reflexivity.
Qed.

Lemma full_range {A} (g : A -> A) (ins out r : list A) :
  length ins = length out -> length r = length out ->
  (forall m, nth_error r m =
     if in_range 0 (length ins) m then option_map g (nth_error ins m) else nth_error out m) ->
  r = map g ins.
Proof.
  intros H1 H2 H3. apply nth_error_ext. intros m. rewrite H3, nth_error_map.
  unfold in_range. cbn [Nat.leb andb Nat.add].
  destruct (Nat.ltb_spec m (length ins)) as [L|L]; [reflexivity|].
  rewrite (proj2 (nth_error_None out m)) by lia.
  rewrite (proj2 (nth_error_None ins m)) by lia. reflexivity.
Qed.

(* ------------------------------------------------------------------ *)
(* The key schedule is the one of FIPS-197                             *)

Definition consts : list N := [1; 2; 4; 8; 16; 32; 64; 128; 27; 54]%N.

Fixpoint chain (v : vec) (cs : list N) : list vec :=
  match cs with [] => [] | c :: cs' => next_key v c :: chain (next_key v c) cs' end.

Lemma expand_chain cs : forall v b c d, expand v (V zero_col b c d) cs = chain v cs.
Proof.
  induction cs as [|c0 cs IH]; intros v b c d; [reflexivity|]. cbn [expand chain].
  destruct (expand_assist_next v b c d c0) as (b' & c' & d' & E). rewrite E.
  f_equal. apply IH.
Qed.

Lemma schedule_chain k : rd_key (set_encrypt_key k) = k :: chain k consts.
Proof. unfold set_encrypt_key. cbn [rd_key]. f_equal. apply expand_chain. Qed.

Lemma rcon_next k w r : key_expansion k w -> 1 <= r <= 10 ->
  round_key w r = next_key (round_key w (r - 1)) (nth (r - 1) consts 0%N).
Proof.
  intros [_ H] Hr.
  assert (HR : rcon r = C (nth (r - 1) consts 0%N) 0 0 0).
  { unfold rcon. destruct r as [|[|[|[|[|[|[|[|[|[|[|r]]]]]]]]]]]; try lia; reflexivity. }
  destruct r as [|q]; [lia|]. replace (S q - 1) with q in * by lia.
  unfold round_key. replace (4 * S q) with (4 * q + 4) by lia.
  assert (W4 := H (4 * q + 4)). assert (W5 := H (4 * q + 4 + 1)).
  assert (W6 := H (4 * q + 4 + 2)). assert (W7 := H (4 * q + 4 + 3)).
  specialize (W4 ltac:(lia)). specialize (W5 ltac:(lia)).
  specialize (W6 ltac:(lia)). specialize (W7 ltac:(lia)).
  replace ((4 * q + 4) mod 4) with 0 in W4
    by (replace (4 * q + 4) with (0 + (q + 1) * 4) by lia; rewrite Nat.mod_add by lia; reflexivity).
  replace ((4 * q + 4 + 1) mod 4) with 1 in W5
    by (replace (4 * q + 4 + 1) with (1 + (q + 1) * 4) by lia; rewrite Nat.mod_add by lia; reflexivity).
  replace ((4 * q + 4 + 2) mod 4) with 2 in W6
    by (replace (4 * q + 4 + 2) with (2 + (q + 1) * 4) by lia; rewrite Nat.mod_add by lia; reflexivity).
  replace ((4 * q + 4 + 3) mod 4) with 3 in W7
    by (replace (4 * q + 4 + 3) with (3 + (q + 1) * 4) by lia; rewrite Nat.mod_add by lia; reflexivity).
  replace ((4 * q + 4) / 4) with (S q) in W4
    by (replace (4 * q + 4) with ((q + 1) * 4) by lia; rewrite Nat.div_mul by lia; lia).
  cbn [Nat.eqb] in *. rewrite HR in W4.
  replace (4 * q + 4 - 4) with (4 * q) in W4 by lia.
  replace (4 * q + 4 - 1) with (4 * q + 3) in W4 by lia.
  replace (4 * q + 4 + 1 - 4) with (4 * q + 1) in W5 by lia.
  replace (4 * q + 4 + 1 - 1) with (4 * q + 4) in W5 by lia.
  replace (4 * q + 4 + 2 - 4) with (4 * q + 2) in W6 by lia.
  replace (4 * q + 4 + 2 - 1) with (4 * q + 4 + 1) in W6 by lia.
  replace (4 * q + 4 + 3 - 4) with (4 * q + 3) in W7 by lia.
  replace (4 * q + 4 + 3 - 1) with (4 * q + 4 + 2) in W7 by lia.
  cbn [next_key]. rewrite W7, W6, W5, W4. reflexivity.
Qed.

(* AES_set_encrypt_key stores the eleven round keys of FIPS-197, for every key. *)
Theorem aes_key_schedule_fips k w :
  key_expansion k w ->
  rd_key (set_encrypt_key k) = map (round_key w) (seq 0 11) /\
  rounds (set_encrypt_key k) = 10.
Proof.
  intros H. split; [|reflexivity]. rewrite schedule_chain.
  assert (E0 : k = round_key w 0) by (exact (proj1 H)).
  assert (R := fun r Hr => rcon_next k w r H Hr).
  assert (R1 := R 1 ltac:(lia)). assert (R2 := R 2 ltac:(lia)).
  assert (R3 := R 3 ltac:(lia)). assert (R4 := R 4 ltac:(lia)).
  assert (R5 := R 5 ltac:(lia)). assert (R6 := R 6 ltac:(lia)).
  assert (R7 := R 7 ltac:(lia)). assert (R8 := R 8 ltac:(lia)).
  assert (R9 := R 9 ltac:(lia)). assert (R10 := R 10 ltac:(lia)).
  unfold consts in *. cbn [Nat.sub nth] in R1, R2, R3, R4, R5, R6, R7, R8, R9, R10.
  cbn [chain map seq]. rewrite E0.
  rewrite <- R1, <- R2, <- R3, <- R4, <- R5, <- R6, <- R7, <- R8, <- R9, <- R10.
  reflexivity.
Qed.

Lemma next_key_lanes v c :
  let l := lanes (next_key v c) in
  nth 0 l zero_col = xor_col (nth 0 (lanes v) zero_col)
     (xor_col (sub_word (rot_word (nth 3 (lanes v) zero_col))) (C c 0 0 0)) /\
  nth 1 l zero_col = xor_col (nth 1 (lanes v) zero_col) (nth 0 l zero_col) /\
  nth 2 l zero_col = xor_col (nth 2 (lanes v) zero_col) (nth 1 l zero_col) /\
  nth 3 l zero_col = xor_col (nth 3 (lanes v) zero_col) (nth 2 l zero_col).
Proof. destruct v. cbn [next_key lanes nth]. auto. Qed.

(* Every key has an expansion, so the statements about expansions are about
   every key. *)
Theorem aes_key_expansion_exists k : exists w, key_expansion k w.
Proof.
  set (K := fun r => nth r (k :: chain k consts) zero_vec).
  assert (HK : forall r, 1 <= r <= 10 -> K r = next_key (K (r - 1)) (nth (r - 1) consts 0%N)).
  { intros r Hr. unfold K, consts.
    destruct r as [|[|[|[|[|[|[|[|[|[|[|r]]]]]]]]]]]; try lia; reflexivity. }
  assert (HR : forall r, 1 <= r <= 10 -> rcon r = C (nth (r - 1) consts 0%N) 0 0 0).
  { intros r Hr. unfold rcon.
    destruct r as [|[|[|[|[|[|[|[|[|[|[|r]]]]]]]]]]]; try lia; reflexivity. }
  set (w := fun i => nth (i mod 4) (lanes (K (i / 4))) zero_col).
  assert (HW : forall q j, j < 4 -> w (4 * q + j) = nth j (lanes (K q)) zero_col).
  { intros q j Hj. unfold w. replace (4 * q + j) with (j + q * 4) by lia.
    rewrite Nat.mod_add, Nat.div_add, Nat.mod_small, Nat.div_small by lia. reflexivity. }
  clearbody w. exists w. split.
  - assert (H0 := HW 0 0 ltac:(lia)). assert (H1 := HW 0 1 ltac:(lia)).
    assert (H2 := HW 0 2 ltac:(lia)). assert (H3 := HW 0 3 ltac:(lia)).
    cbn [Nat.mul Nat.add] in *. rewrite H0, H1, H2, H3. unfold K. cbn [nth].
    destruct k. reflexivity.
  - intros i Hi.
    assert (Hd : i = 4 * (i / 4) + i mod 4) by (apply Nat.div_mod; lia).
    assert (Hm : i mod 4 < 4) by (apply Nat.mod_upper_bound; lia).
    remember (i / 4) as q eqn:Eq. remember (i mod 4) as j eqn:Ej. clear Ej Eq.
    assert (Hq : 1 <= q <= 10) by lia.
    destruct (next_key_lanes (K (q - 1)) (nth (q - 1) consts 0%N)) as (L0 & L1 & L2 & L3).
    rewrite <- (HK q Hq) in L0, L1, L2, L3. rewrite Hd.
    destruct j as [|[|[|[|j]]]]; [| | | |lia]; cbn [Nat.eqb].
    + rewrite (HR q Hq), (HW q 0), L0 by lia.
      replace (4 * q + 0 - 4) with (4 * (q - 1) + 0) by lia.
      replace (4 * q + 0 - 1) with (4 * (q - 1) + 3) by lia.
      rewrite !HW by lia. reflexivity.
    + rewrite (HW q 1), L1 by lia.
      replace (4 * q + 1 - 4) with (4 * (q - 1) + 1) by lia.
      replace (4 * q + 1 - 1) with (4 * q + 0) by lia.
      rewrite !HW by lia. reflexivity.
    + rewrite (HW q 2), L2 by lia.
      replace (4 * q + 2 - 4) with (4 * (q - 1) + 2) by lia.
      replace (4 * q + 2 - 1) with (4 * q + 1) by lia.
      rewrite !HW by lia. reflexivity.
    + rewrite (HW q 3), L3 by lia.
      replace (4 * q + 3 - 4) with (4 * (q - 1) + 3) by lia.
      replace (4 * q + 3 - 1) with (4 * q + 2) by lia.
      rewrite !HW by lia. reflexivity.
Qed.

(* ------------------------------------------------------------------ *)
(* Encryption                                                          *)

Lemma encrypt_block_fips k w : key_expansion k w ->
  forall b, encrypt_block (set_encrypt_key k) b = Val (cipher w b).
Proof.
  intros H b. destruct (aes_key_schedule_fips k w H) as [E R].
  unfold encrypt_block. rewrite E, R. cbn [map seq].
  unfold get. cbn [nth_error bind Nat.sub round_loop get].
  unfold get. cbn [nth_error bind]. unfold aesenc, aesenclast, cipher.
  cbn [fold_left]. rewrite !sub_shift. reflexivity.
Qed.

(* AES_ecb_encrypt_blks applies the cipher of FIPS-197 to every block, into a
   buffer of the same size or in place, and refuses other sizes. *)
Theorem aes_encrypt_fips k w ins out :
  key_expansion k w ->
  ecb_encrypt (set_encrypt_key k) ins out =
    (if Nat.eqb (length ins) (length out) then Val (map (cipher w) ins) else Thrown) /\
  ecb_encrypt_vector (set_encrypt_key k) ins = Val (map (cipher w) ins) /\
  blocks_in_place (encrypt_block (set_encrypt_key k)) (length ins) 0 ins =
    Val (map (cipher w) ins).
Proof.
  intros H. assert (HB := encrypt_block_fips k w H).
  assert (M : forall out, length ins = length out ->
    ecb_encrypt (set_encrypt_key k) ins out = Val (map (cipher w) ins)).
  { intros o L. unfold ecb_encrypt, ecb_encrypt_ptr. rewrite L, Nat.eqb_refl, <- L.
    destruct (blocks_loop_spec _ _ ins HB (length ins) 0 o) as (r & R1 & R2 & R3); [lia|lia|].
    rewrite R1. f_equal. apply (full_range (cipher w) ins o); assumption. }
  split; [|split].
  - destruct (Nat.eqb_spec (length ins) (length out)) as [L|L]; [apply M; exact L|].
    unfold ecb_encrypt. destruct (Nat.eqb_spec (length ins) (length out)); [lia|reflexivity].
  - unfold ecb_encrypt_vector. apply M. rewrite repeat_length. reflexivity.
  - destruct (blocks_in_place_spec _ _ HB (length ins) 0 ins) as (r & R1 & R2 & R3); [lia|].
    rewrite R1. f_equal. apply (full_range (cipher w) ins ins); auto.
Qed.

(* Other numbers of blocks, through pointers: the first are encrypted, the rest
   of the output stays. *)
Theorem aes_encrypt_ptr k w ins out n :
  key_expansion k w -> n <= length ins -> n <= length out ->
  ecb_encrypt_ptr ins out n (set_encrypt_key k) =
  Val (map (cipher w) (firstn n ins) ++ skipn n out).
Proof.
  intros H L1 L2. unfold ecb_encrypt_ptr.
  destruct (blocks_loop_spec _ _ ins (encrypt_block_fips k w H) n 0 out)
    as (r & R1 & R2 & R3); [lia|lia|].
  rewrite R1. f_equal. apply nth_error_ext. intros m. rewrite R3.
  unfold in_range. cbn [Nat.leb andb Nat.add].
  assert (Lf : length (map (cipher w) (firstn n ins)) = n)
    by (rewrite map_length, firstn_length; lia).
  destruct (Nat.ltb_spec m n) as [L|L].
  - rewrite nth_error_app1 by lia. rewrite nth_error_map. f_equal.
    rewrite <- (firstn_skipn n ins) at 1. rewrite nth_error_app1; [reflexivity|].
    rewrite firstn_length. lia.
  - rewrite nth_error_app2 by lia. rewrite Lf.
    rewrite <- (firstn_skipn n out) at 1. rewrite nth_error_app2; rewrite firstn_length.
    + f_equal. lia.
    + lia.
Qed.

(* ------------------------------------------------------------------ *)
(* Decryption                                                          *)

Lemma set_decrypt_key_val k w key0 : key_expansion k w -> length (rd_key key0) = 11 ->
  set_decrypt_key k key0 = Val
    {| rd_key := round_key w 10 ::
         map (fun r => aesimc (round_key w r)) [9; 8; 7; 6; 5; 4; 3; 2; 1] ++ [round_key w 0];
       rounds := 10 |}.
Proof.
  intros H L. destruct (aes_key_schedule_fips k w H) as [E R].
  unfold set_decrypt_key, set_decrypt_key_fast. rewrite R, E. cbn [map seq].
  destruct key0 as [l n]. cbn [rd_key] in *.
  destruct l as [|x0 [|x1 [|x2 [|x3 [|x4 [|x5 [|x6 [|x7 [|x8 [|x9 [|x10 [|x11 l]]]]]]]]]]]];
    try discriminate L.
  reflexivity.
Qed.

Lemma decrypt_block_fips k w key0 dk : key_expansion k w -> length (rd_key key0) = 11 ->
  set_decrypt_key k key0 = Val dk ->
  forall b, decrypt_block dk b = Val (inv_cipher w b).
Proof.
  intros H L E b. rewrite (set_decrypt_key_val k w key0 H L) in E.
  assert (E' : dk = {| rd_key := round_key w 10 ::
         map (fun r => aesimc (round_key w r)) [9; 8; 7; 6; 5; 4; 3; 2; 1] ++ [round_key w 0];
       rounds := 10 |}) by congruence.
  subst dk. unfold decrypt_block. cbn [map app rd_key rounds].
  unfold get. cbn [nth_error bind Nat.sub Nat.max round_loop].
  unfold get. cbn [nth_error bind]. unfold aesdec, aesdeclast, aesimc, inv_cipher.
  cbn [fold_left]. rewrite !inv_mix_xor. reflexivity.
Qed.

(* AES_ecb_decrypt_blks with the key of AES_set_decrypt_key is the inverse cipher
   of FIPS-197, up to 2^32 - 1 blocks; the inverse cipher undoes the cipher and
   the cipher undoes it. *)
Theorem aes_decrypt_fips k w key0 ins out :
  key_expansion k w -> length (rd_key key0) = 11 ->
  (N.of_nat (length ins) < 2 ^ 32)%N ->
  exists dk, set_decrypt_key k key0 = Val dk /\
    ecb_decrypt dk ins out =
      (if Nat.eqb (length ins) (length out) then Val (map (inv_cipher w) ins) else Thrown) /\
    ecb_decrypt_vector dk ins = Val (map (inv_cipher w) ins) /\
    blocks_in_place (decrypt_block dk) (length ins) 0 ins = Val (map (inv_cipher w) ins).
Proof.
  intros H L Hn. assert (E := set_decrypt_key_val k w key0 H L).
  eexists. split; [exact E|].
  assert (HB := decrypt_block_fips k w key0 _ H L E). revert HB.
  match goal with |- (forall b, decrypt_block ?D b = _) -> _ => generalize D as dk end.
  clear E. intros dk HB.
  assert (M : forall out, length ins = length out ->
    ecb_decrypt dk ins out = Val (map (inv_cipher w) ins)).
  { intros o Lo. unfold ecb_decrypt, ecb_decrypt_ptr. rewrite Lo, Nat.eqb_refl, <- Lo.
    rewrite N.mod_small by exact Hn. rewrite Nnat.Nat2N.id.
    destruct (blocks_loop_spec _ _ ins HB (length ins) 0 o) as (r & R1 & R2 & R3); [lia|lia|].
    rewrite R1. f_equal. apply (full_range (inv_cipher w) ins o); assumption. }
  split; [|split].
  - destruct (Nat.eqb_spec (length ins) (length out)) as [Lo|Lo]; [apply M; exact Lo|].
    unfold ecb_decrypt. destruct (Nat.eqb_spec (length ins) (length out)); [lia|reflexivity].
  - unfold ecb_decrypt_vector. apply M. rewrite repeat_length. reflexivity.
  - destruct (blocks_in_place_spec _ _ HB (length ins) 0 ins) as (r & R1 & R2 & R3); [lia|].
    rewrite R1. f_equal. apply (full_range (inv_cipher w) ins ins); auto.
Qed.

Theorem aes_cipher_bijective w b :
  inv_cipher w (cipher w b) = b /\ cipher w (inv_cipher w b) = b.
Proof. split; [apply inv_cipher_cipher|apply cipher_inv_cipher]. Qed.

(* Without the FIPS names: decrypting an encryption gives the blocks back, for
   every key and every list of fewer than 2^32 blocks, and so does encrypting a
   decryption. *)
Theorem aes_round_trip k key0 ins :
  length (rd_key key0) = 11 -> (N.of_nat (length ins) < 2 ^ 32)%N ->
  exists dk, set_decrypt_key k key0 = Val dk /\
    bind (ecb_encrypt_vector (set_encrypt_key k) ins) (ecb_decrypt_vector dk) = Val ins /\
    bind (ecb_decrypt_vector dk ins) (ecb_encrypt_vector (set_encrypt_key k)) = Val ins.
Proof.
  intros L Hn. destruct (aes_key_expansion_exists k) as [w H].
  destruct (aes_decrypt_fips k w key0 ins ins H L Hn) as (dk & E & _ & D & _).
  exists dk. split; [exact E|].
  destruct (aes_encrypt_fips k w ins ins H) as (_ & Enc & _). rewrite Enc, D. cbn [bind].
  split.
  - destruct (aes_decrypt_fips k w key0 (map (cipher w) ins) ins H L) as (dk' & E' & _ & D' & _).
    { rewrite map_length. exact Hn. }
    assert (dk' = dk) by congruence. subst dk'. rewrite D', map_map. f_equal.
    rewrite <- (map_id ins) at 2. apply map_ext. intros b. apply inv_cipher_cipher.
  - destruct (aes_encrypt_fips k w (map (inv_cipher w) ins) ins H) as (_ & Enc' & _).
    rewrite Enc', map_map. f_equal.
    rewrite <- (map_id ins) at 2. apply map_ext. intros b. apply cipher_inv_cipher.
Qed.

(* The number of blocks to decrypt is cut to 32 bits: of 2^32 blocks, with any
   key, none is decrypted. *)
Theorem aes_decrypt_any_length_refuted k key0 : length (rd_key key0) = 11 ->
  exists dk ins, set_decrypt_key k key0 = Val dk /\
    bind (ecb_encrypt_vector (set_encrypt_key k) ins) (ecb_decrypt_vector dk) =
      Val (repeat zero_vec (length ins)) /\
    ins <> repeat zero_vec (length ins).
Proof.
  intros L. destruct (aes_key_expansion_exists k) as [w H].
  remember (2 ^ 32)%N as n eqn:En.
  assert (Hpos : exists n', N.to_nat n = S n').
  { exists (N.to_nat (N.pred n)). rewrite <- Nnat.N2Nat.inj_succ.
    rewrite N.succ_pred; [reflexivity|]. rewrite En. discriminate. }
  destruct Hpos as [n' Hn'].
  exists {| rd_key := round_key w 10 ::
         map (fun r => aesimc (round_key w r)) [9; 8; 7; 6; 5; 4; 3; 2; 1] ++ [round_key w 0];
       rounds := 10 |}, (repeat (rep 1) (N.to_nat n)).
  split; [apply (set_decrypt_key_val k w key0 H L)|].
  set (ins := repeat (rep 1) (N.to_nat n)).
  assert (Ln : length ins = N.to_nat n) by apply repeat_length.
  split.
  - destruct (aes_encrypt_fips k w ins ins H) as (_ & Enc & _). rewrite Enc. cbn [bind].
    unfold ecb_decrypt_vector, ecb_decrypt. rewrite repeat_length, Nat.eqb_refl, map_length, Ln.
    unfold ecb_decrypt_ptr. rewrite Nnat.N2Nat.id.
    assert (Z0 : (n mod 2 ^ 32 = 0)%N) by (rewrite En; reflexivity).
    rewrite Z0. reflexivity.
  - unfold ins. rewrite repeat_length, Hn'. cbn [repeat]. discriminate.
Qed.

(* ------------------------------------------------------------------ *)
(* Many keys at once                                                   *)

Lemma ks_rounds_spec con con3 mask r : forall n i keys,
  (forall m, i <= m < i + n -> exists k v, nth_error keys m = Some k /\
     nth_error (rd_key k) (r - 1) = Some v /\ r < length (rd_key k)) ->
  exists keys', ks_rounds n i keys con con3 mask r = Val keys' /\
    length keys' = length keys /\
    (forall m, i <= m < i + n -> forall k v, nth_error keys m = Some k ->
       nth_error (rd_key k) (r - 1) = Some v ->
       exists rd, nth_error keys' m = Some {| rd_key := rd; rounds := rounds k |} /\
         length rd = length (rd_key k) /\
         forall t, nth_error rd t =
           if Nat.eqb t r then Some (ks_round v con con3 mask) else nth_error (rd_key k) t) /\
    (forall m, m < i \/ i + n <= m -> nth_error keys' m = nth_error keys m).
Proof.
  induction n as [|n IH]; intros i keys H; cbn [ks_rounds].
  - exists keys. split; [reflexivity|]. split; [reflexivity|].
    split; [intros; lia|reflexivity].
  - destruct (H i) as (k & v & H1 & H2 & H3); [lia|].
    rewrite (get_val _ _ _ H1). cbn [bind]. rewrite (get_val _ _ _ H2). cbn [bind].
    destruct (set_val (rd_key k) r (ks_round v con con3 mask) H3) as (rd & R1 & R2 & R3).
    rewrite R1. cbn [bind].
    assert (Li : i < length keys) by (apply nth_error_Some; congruence).
    destruct (set_val keys i {| rd_key := rd; rounds := rounds k |} Li) as (ks & S1 & S2 & S3).
    rewrite S1. cbn [bind].
    destruct (IH (S i) ks) as (keys' & K1 & K2 & K3 & K4).
    { intros m Hm. rewrite S3. destruct (Nat.eqb_spec m i); [lia|]. apply H. lia. }
    exists keys'. split; [exact K1|]. split; [lia|]. split.
    + intros m Hm k' v' Hk' Hv'. destruct (Nat.eq_dec m i) as [->|Hne].
      * assert (k' = k) by congruence. subst k'. assert (v' = v) by congruence. subst v'.
        exists rd. split; [|split; [exact R2|exact R3]].
        rewrite K4 by lia. rewrite S3, Nat.eqb_refl. reflexivity.
      * apply (K3 m ltac:(lia) k' v'); [|exact Hv'].
        rewrite S3. destruct (Nat.eqb_spec m i); [lia|]. exact Hk'.
    + intros m Hm. rewrite K4 by lia. rewrite S3.
      destruct (Nat.eqb_spec m i); [lia|reflexivity].
Qed.

Lemma ks_init_spec user : forall n i keys,
  (forall m, i <= m < i + n -> m < length user /\
     exists k, nth_error keys m = Some k /\ 0 < length (rd_key k)) ->
  exists keys', ks_init n i user keys = Val keys' /\
    length keys' = length keys /\
    (forall m, i <= m < i + n -> forall k, nth_error keys m = Some k ->
       exists rd, nth_error keys' m = Some {| rd_key := rd; rounds := 10 |} /\
         length rd = length (rd_key k) /\ nth_error rd 0 = nth_error user m) /\
    (forall m, m < i \/ i + n <= m -> nth_error keys' m = nth_error keys m).
Proof.
  induction n as [|n IH]; intros i keys H; cbn [ks_init].
  - exists keys. split; [reflexivity|]. split; [reflexivity|].
    split; [intros; lia|reflexivity].
  - destruct (H i) as (H1 & k & H2 & H3); [lia|].
    destruct (nth_error_lt user i H1) as [u Hu].
    rewrite (get_val _ _ _ Hu). cbn [bind]. rewrite (get_val _ _ _ H2). cbn [bind].
    destruct (set_val (rd_key k) 0 u H3) as (rd & R1 & R2 & R3).
    rewrite R1. cbn [bind].
    assert (Li : i < length keys) by (apply nth_error_Some; congruence).
    destruct (set_val keys i {| rd_key := rd; rounds := 10 |} Li) as (ks & S1 & S2 & S3).
    rewrite S1. cbn [bind].
    destruct (IH (S i) ks) as (keys' & K1 & K2 & K3 & K4).
    { intros m Hm. rewrite S3. destruct (Nat.eqb_spec m i); [lia|]. apply H. lia. }
    exists keys'. split; [exact K1|]. split; [lia|]. split.
    + intros m Hm k' Hk'. destruct (Nat.eq_dec m i) as [->|Hne].
      * assert (k' = k) by congruence. subst k'.
        exists rd. split; [|split; [exact R2|]].
        { rewrite K4 by lia. rewrite S3, Nat.eqb_refl. reflexivity. }
        { rewrite R3. cbn [Nat.eqb]. congruence. }
      * apply (K3 m ltac:(lia) k'). rewrite S3. destruct (Nat.eqb_spec m i); [lia|]. exact Hk'.
    + intros m Hm. rewrite K4 by lia. rewrite S3.
      destruct (Nat.eqb_spec m i); [lia|reflexivity].
Qed.

(* The first r + 1 round keys are in place for the first n keys; the other keys
   are untouched. *)
Definition filled (n r : nat) (user : list vec) (keys0 keys : list aes_key) : Prop :=
  length keys = length keys0 /\
  (forall m u, m < n -> nth_error user m = Some u ->
     exists rd, nth_error keys m = Some {| rd_key := rd; rounds := 10 |} /\
       length rd = 11 /\
       forall t, t <= r -> nth_error rd t = nth_error (rd_key (set_encrypt_key u)) t) /\
  (forall m, n <= m -> nth_error keys m = nth_error keys0 m).

Lemma schedule_step u r : 1 <= r <= 10 ->
  exists v, nth_error (rd_key (set_encrypt_key u)) (r - 1) = Some v /\
    nth_error (rd_key (set_encrypt_key u)) r = Some (next_key v (nth (r - 1) consts 0%N)).
Proof.
  intros Hr. rewrite schedule_chain. unfold consts.
  destruct r as [|[|[|[|[|[|[|[|[|[|[|r]]]]]]]]]]]; try lia; eexists; split; reflexivity.
Qed.

Lemma filled_step n r user keys0 keys con :
  n <= length user -> 1 <= r <= 10 -> con = rep (nth (r - 1) consts 0%N) ->
  filled n (r - 1) user keys0 keys ->
  exists keys', ks_rounds n 0 keys con con3_const mask_const r = Val keys' /\
    filled n r user keys0 keys'.
Proof.
  intros Ln Hr -> (F1 & F2 & F3).
  destruct (ks_rounds_spec (rep (nth (r - 1) consts 0%N)) con3_const mask_const r n 0 keys)
    as (keys' & K1 & K2 & K3 & K4).
  { intros m Hm. destruct (nth_error_lt user m) as [u Hu]; [lia|].
    destruct (F2 m u) as (rd & G1 & G2 & G3); [lia|exact Hu|].
    destruct (schedule_step u r Hr) as (v & V1 & _).
    exists {| rd_key := rd; rounds := 10 |}, v. split; [exact G1|]. cbn [rd_key].
    split; [rewrite G3 by lia; exact V1|lia]. }
  exists keys'. split; [exact K1|]. split; [congruence|]. split.
  - intros m u Hm Hu. destruct (F2 m u Hm Hu) as (rd & G1 & G2 & G3).
    destruct (schedule_step u r Hr) as (v & V1 & V2).
    destruct (K3 m ltac:(lia) _ v G1) as (rd' & D1 & D2 & D3).
    { cbn [rd_key]. rewrite G3 by lia. exact V1. }
    cbn [rd_key rounds] in *. exists rd'. split; [exact D1|]. split; [lia|].
    intros t Ht. rewrite D3. destruct (Nat.eqb_spec t r) as [->|Hne].
    + rewrite V2, ks_round_next. reflexivity.
    + apply G3. lia.
  - intros m Hm. rewrite K4 by lia. apply F3. exact Hm.
Qed.

Local Ltac one_step user keys Lu H r K F :=
    let E := fresh "E" in
    match goal with |- context [ks_rounds ?n 0 ?ks ?con con3_const mask_const r] =>
      destruct (filled_step n r user keys ks con Lu ltac:(lia) eq_refl H) as (K & E & F);
      rewrite E; cbn [bind] end.

(* AES_opt_key_schedule<NumKeys> stores, for each of the keys, exactly what
   AES_set_encrypt_key stores, and touches no other. *)
Theorem aes_opt_key_schedule_same n user keys :
  n <= length user -> n <= length keys ->
  Forall (fun k => length (rd_key k) = 11) keys ->
  opt_key_schedule n user keys =
  Val (map set_encrypt_key (firstn n user) ++ skipn n keys).
Proof.
  intros Lu Lk Hk. rewrite Forall_forall in Hk. unfold opt_key_schedule.
  destruct (ks_init_spec user n 0 keys) as (k0 & I1 & I2 & I3 & I4).
  { intros m Hm. split; [lia|]. destruct (nth_error_lt keys m) as [k Ek]; [lia|].
    exists k. split; [exact Ek|]. rewrite (Hk k) by (eapply nth_error_In; exact Ek). lia. }
  rewrite I1. cbn [bind].
  assert (F0 : filled n 0 user keys k0).
  { split; [exact I2|]. split.
    - intros m u Hm Hu. destruct (nth_error_lt keys m) as [k Ek]; [lia|].
      destruct (I3 m ltac:(lia) k Ek) as (rd & D1 & D2 & D3).
      exists rd. split; [exact D1|].
      split; [rewrite D2; apply Hk; eapply nth_error_In; exact Ek|].
      intros t Ht. replace t with 0 by lia. rewrite D3, Hu, schedule_chain. reflexivity.
    - intros m Hm. apply I4. lia. }
  cbn [ks_calls].
  one_step user keys Lu F0 1 k1 F1. one_step user keys Lu F1 2 k2 F2. one_step user keys Lu F2 3 k3 F3. one_step user keys Lu F3 4 k4 F4.
  one_step user keys Lu F4 5 k5 F5. one_step user keys Lu F5 6 k6 F6. one_step user keys Lu F6 7 k7 F7. one_step user keys Lu F7 8 k8 F8.
  one_step user keys Lu F8 9 k9 F9. one_step user keys Lu F9 10 k10 F10.
  f_equal. destruct F10 as (G1 & G2 & G3). apply nth_error_ext. intros m.
  assert (Lm : length (map set_encrypt_key (firstn n user)) = n)
    by (rewrite map_length, firstn_length; lia).
  destruct (Nat.lt_ge_cases m n) as [L|L].
  - destruct (nth_error_lt user m) as [u Hu]; [lia|].
    destruct (G2 m u L Hu) as (rd & D1 & D2 & D3).
    rewrite nth_error_app1 by lia. rewrite nth_error_map, D1.
    replace (nth_error (firstn n user) m) with (Some u).
    2: { rewrite <- (firstn_skipn n user) in Hu. rewrite nth_error_app1 in Hu;
         [congruence|rewrite firstn_length; lia]. }
    cbn [option_map]. f_equal.
    assert (Erd : rd = rd_key (set_encrypt_key u)).
    { apply nth_error_ext. intros t. destruct (Nat.le_gt_cases t 10) as [T|T]; [auto|].
      rewrite (proj2 (nth_error_None rd t)) by lia. symmetry. apply nth_error_None.
      rewrite schedule_chain. cbn [length chain consts]. lia. }
    rewrite Erd. reflexivity.
  - rewrite G3 by exact L. rewrite nth_error_app2 by lia. rewrite Lm.
    rewrite <- (firstn_skipn n keys) at 1. rewrite nth_error_app2; rewrite firstn_length;
    [f_equal; lia|lia].
Qed.

Lemma pass_blocks_spec f K : forall n pos blks, pos + n <= length blks ->
  exists r, pass_blocks f K n pos blks = Val r /\ length r = length blks /\
    forall m, nth_error r m =
      if in_range pos n m then option_map (fun b => f b K) (nth_error blks m)
      else nth_error blks m.
Proof.
  induction n as [|n IH]; intros i out H1; cbn [pass_blocks].
  - exists out. split; [reflexivity|]. split; [reflexivity|]. intros m.
    unfold in_range. destruct (Nat.leb_spec i m), (Nat.ltb_spec m (i + 0)); cbn; try lia; reflexivity.
  - destruct (nth_error_lt out i) as [b Hb]; [lia|].
    rewrite (get_val _ _ _ Hb). cbn [bind].
    destruct (set_val out i (f b K)) as (out' & E1 & E2 & E3); [lia|].
    rewrite E1. cbn [bind].
    destruct (IH (S i) out') as (r & R1 & R2 & R3); [lia|].
    exists r. split; [exact R1|]. split; [lia|]. intros m.
    rewrite R3, in_range_S. destruct (Nat.eqb_spec m i) as [->|Hm]; cbn [orb].
    + rewrite in_range_not, E3, Nat.eqb_refl, Hb. reflexivity.
    + rewrite E3. destruct (Nat.eqb_spec m i); [lia|]. reflexivity.
Qed.

Lemma pass_keys_spec f keys r KR n : forall nk i pos blks,
  (forall q, i <= q < i + nk ->
     exists key, nth_error keys q = Some key /\ nth_error (rd_key key) r = Some (KR q)) ->
  pos + nk * n <= length blks ->
  exists out, pass_keys f keys r nk i n pos blks = Val out /\ length out = length blks /\
    (forall q j, q < nk -> j < n ->
       nth_error out (pos + q * n + j) =
       option_map (fun b => f b (KR (i + q))) (nth_error blks (pos + q * n + j))) /\
    (forall m, m < pos \/ pos + nk * n <= m -> nth_error out m = nth_error blks m).
Proof.
  induction nk as [|nk IH]; intros i pos blks HK L; cbn [pass_keys].
  - exists blks. split; [reflexivity|]. split; [reflexivity|].
    split; [intros; lia|reflexivity].
  - destruct (HK i) as (key & H1 & H2); [lia|].
    rewrite (get_val _ _ _ H1). cbn [bind]. rewrite (get_val _ _ _ H2). cbn [bind].
    cbn [Nat.mul] in L.
    destruct (pass_blocks_spec f (KR i) n pos blks) as (b1 & B1 & B2 & B3); [lia|].
    rewrite B1. cbn [bind].
    destruct (IH (S i) (pos + n) b1) as (out & O1 & O2 & O3 & O4).
    { intros q Hq. apply HK. lia. }
    { lia. }
    exists out. split; [exact O1|]. split; [lia|]. split.
    + intros [|q] j Hq Hj.
      * cbn [Nat.mul]. rewrite O4 by lia. rewrite B3. unfold in_range.
        destruct (Nat.leb_spec pos (pos + 0 + j)); [|lia].
        destruct (Nat.ltb_spec (pos + 0 + j) (pos + n)); [|lia].
        cbn [andb]. rewrite (Nat.add_0_r i). reflexivity.
      * cbn [Nat.mul]. replace (pos + (n + q * n) + j) with (pos + n + q * n + j) by lia.
        rewrite O3 by lia. replace (i + S q) with (S i + q) by lia. f_equal.
        rewrite B3. unfold in_range.
        destruct (Nat.ltb_spec (pos + n + q * n + j) (pos + n)); [lia|].
        rewrite andb_false_r. reflexivity.
    + intros m Hm. cbn [Nat.mul] in Hm. rewrite O4 by lia. rewrite B3. unfold in_range.
      destruct (Nat.leb_spec pos m), (Nat.ltb_spec m (pos + n)); cbn [andb]; try reflexivity; lia.
Qed.

Lemma pass_rounds_spec keys (KR : nat -> nat -> vec) nk n : forall count r blks,
  (forall t, r <= t < r + count -> forall q, q < nk ->
     exists key, nth_error keys q = Some key /\ nth_error (rd_key key) t = Some (KR t q)) ->
  nk * n <= length blks ->
  exists out, pass_rounds keys nk n count r blks = Val out /\ length out = length blks /\
    (forall q j, q < nk -> j < n ->
       nth_error out (q * n + j) =
       option_map (fun b => fold_left (fun s t => aesenc s (KR t q)) (seq r count) b)
         (nth_error blks (q * n + j))) /\
    (forall m, nk * n <= m -> nth_error out m = nth_error blks m).
Proof.
  induction count as [|c IH]; intros r blks HK L; cbn [pass_rounds].
  - exists blks. split; [reflexivity|]. split; [reflexivity|]. split; [|reflexivity].
    intros q j _ _. cbn [seq fold_left]. destruct (nth_error blks (q * n + j)); reflexivity.
  - destruct (pass_keys_spec aesenc keys r (KR r) n nk 0 0 blks) as (b1 & B1 & B2 & B3 & B4).
    { intros q Hq. apply HK; lia. }
    { exact L. }
    rewrite B1. cbn [bind].
    destruct (IH (S r) b1) as (out & O1 & O2 & O3 & O4).
    { intros t Ht. apply HK. lia. }
    { lia. }
    exists out. split; [exact O1|]. split; [lia|]. split.
    + intros q j Hq Hj. rewrite O3 by assumption.
      assert (E := B3 q j Hq Hj). cbn [Nat.add] in E. rewrite E.
      cbn [seq fold_left]. destruct (nth_error blks (q * n + j)); reflexivity.
    + intros m Hm. rewrite O4 by exact Hm. apply B4. right. exact Hm.
Qed.

(* ParaEnc: with numKeys keys prepared by either schedule, block j of the i-th
   group of numEncs blocks is encrypted, by FIPS-197, with key i; later blocks
   stay. *)
Theorem aes_para_enc nk n blks (user : list vec) (w : nat -> nat -> col) keys :
  (forall i u, i < nk -> nth_error user i = Some u -> key_expansion u (w i)) ->
  nk <= length user -> nk * n <= length blks ->
  (forall i u, i < nk -> nth_error user i = Some u ->
     nth_error keys i = Some (set_encrypt_key u)) ->
  exists out, para_enc nk n blks keys = Val out /\ length out = length blks /\
    (forall i j, i < nk -> j < n ->
       nth_error out (i * n + j) = option_map (cipher (w i)) (nth_error blks (i * n + j))) /\
    (forall m, nk * n <= m -> nth_error out m = nth_error blks m).
Proof.
  intros HW Lu Lb HK. unfold para_enc.
  assert (HR : forall t, t <= 10 -> forall q, q < nk ->
    exists key, nth_error keys q = Some key /\
      nth_error (rd_key key) t = Some (round_key (w q) t)).
  { intros t Ht q Hq. destruct (nth_error_lt user q) as [u Hu]; [lia|].
    exists (set_encrypt_key u). split; [apply HK; assumption|].
    rewrite (proj1 (aes_key_schedule_fips u (w q) (HW q u Hq Hu))), nth_error_map.
    assert (E : nth_error (seq 0 11) t = Some t).
    { destruct t as [|[|[|[|[|[|[|[|[|[|[|t]]]]]]]]]]]; try lia; reflexivity. }
    rewrite E. reflexivity. }
  destruct (pass_keys_spec xor_vec keys 0 (fun q => round_key (w q) 0) n nk 0 0 blks)
    as (b1 & B1 & B2 & B3 & B4).
  { intros q Hq. apply HR; lia. }
  { exact Lb. }
  rewrite B1. cbn [bind].
  destruct (pass_rounds_spec keys (fun t q => round_key (w q) t) nk n 9 1 b1)
    as (b2 & C1 & C2 & C3 & C4).
  { intros t Ht q Hq. apply HR; lia. }
  { lia. }
  rewrite C1. cbn [bind].
  destruct (pass_keys_spec aesenclast keys 10 (fun q => round_key (w q) 10) n nk 0 0 b2)
    as (b3 & D1 & D2 & D3 & D4).
  { intros q Hq. apply HR; lia. }
  { lia. }
  exists b3. split; [exact D1|]. split; [lia|]. split.
  - intros i j Hi Hj.
    assert (E3 := D3 i j Hi Hj). assert (E1 := B3 i j Hi Hj). cbn [Nat.add] in E3, E1.
    rewrite E3, C3, E1 by assumption.
    destruct (nth_error blks (i * n + j)) as [b|]; [|reflexivity].
    cbn [option_map seq fold_left]. unfold aesenc, aesenclast, cipher. cbn [fold_left].
    rewrite !sub_shift. reflexivity.
  - intros m Hm. rewrite D4, C4, B4 by (try right; exact Hm). reflexivity.
Qed.

Lemma nth_error_firstn {A} (l : list A) : forall n m,
  nth_error (firstn n l) m = if m <? n then nth_error l m else None.
Proof.
  induction l as [|x l IH]; intros [|n] [|m]; cbn [firstn nth_error]; try reflexivity.
  - destruct (S m <? S n); reflexivity.
  - rewrite IH. reflexivity.
Qed.

Lemma nth_error_skipn {A} (l : list A) : forall a m,
  nth_error (skipn a l) m = nth_error l (a + m).
Proof.
  induction l as [|x l IH]; intros [|a] m; cbn [skipn Nat.add nth_error]; try reflexivity.
  - destruct m; reflexivity.
  - apply IH.
Qed.

Lemma nth_error_slice {A} (l : list A) n a m :
  nth_error (firstn n (skipn a l)) m = if m <? n then nth_error l (a + m) else None.
Proof. rewrite nth_error_firstn, nth_error_skipn. reflexivity. Qed.

(* The two together: a batch is the same as encrypting each group on its own. *)
Theorem aes_batch_same nk n blks user keys :
  nk = length user -> nk <= length keys -> length blks = nk * n ->
  Forall (fun k => length (rd_key k) = 11) keys ->
  exists ks out, opt_key_schedule nk user keys = Val ks /\
    para_enc nk n blks ks = Val out /\ length out = length blks /\
    forall i u, nth_error user i = Some u ->
      ecb_encrypt_vector (set_encrypt_key u) (firstn n (skipn (i * n) blks)) =
      Val (firstn n (skipn (i * n) out)).
Proof.
  intros -> Lk Lb Hk.
  assert (Hw : forall us : list vec, exists w : nat -> nat -> col,
    forall i u, nth_error us i = Some u -> key_expansion u (w i)).
  { induction us as [|u us [w IH]].
    - exists (fun _ _ => zero_col). intros [|i] u; discriminate.
    - destruct (aes_key_expansion_exists u) as [w0 H0].
      exists (fun i => match i with O => w0 | S i' => w i' end).
      intros [|i] u' E; cbn in E; [injection E as <-; exact H0|]. apply IH. exact E. }
  destruct (Hw user) as [w HW].
  exists (map set_encrypt_key user ++ skipn (length user) keys).
  assert (HO := aes_opt_key_schedule_same (length user) user keys (le_n _) Lk Hk).
  rewrite firstn_all in HO.
  destruct (aes_para_enc (length user) n blks user w
              (map set_encrypt_key user ++ skipn (length user) keys))
    as (out & P1 & P2 & P3 & P4).
  { intros i u _ E. apply HW. exact E. }
  { lia. }
  { lia. }
  { intros i u Hi E. rewrite nth_error_app1 by (rewrite map_length; exact Hi).
    rewrite nth_error_map, E. reflexivity. }
  exists out. split; [exact HO|]. split; [exact P1|]. split; [exact P2|].
  intros i u Eu. assert (Hi : i < length user) by (apply nth_error_Some; congruence).
  destruct (aes_encrypt_fips u (w i) (firstn n (skipn (i * n) blks)) [] (HW i u Eu))
    as (_ & Enc & _).
  rewrite Enc. f_equal.
  apply nth_error_ext. intros m. rewrite nth_error_map, !nth_error_slice.
  destruct (Nat.ltb_spec m n) as [Lm|Lm]; [|reflexivity].
  rewrite P3 by assumption. reflexivity.
Qed.

(* ------------------------------------------------------------------ *)
(* The S-box                                                           *)

(* A witness for each inverse. *)
Definition inverses : list N :=
  [
   0; 1; 141; 246; 203; 82; 123; 209; 232; 79; 41; 192; 176; 225; 229; 199;
   116; 180; 170; 75; 153; 43; 96; 95; 88; 63; 253; 204; 255; 64; 238; 178;
   58; 110; 90; 241; 85; 77; 168; 201; 193; 10; 152; 21; 48; 68; 162; 194;
   44; 69; 146; 108; 243; 57; 102; 66; 242; 53; 32; 111; 119; 187; 89; 25;
   29; 254; 55; 103; 45; 49; 245; 105; 167; 100; 171; 19; 84; 37; 233; 9;
   237; 92; 5; 202; 76; 36; 135; 191; 24; 62; 34; 240; 81; 236; 97; 23;
   22; 94; 175; 211; 73; 166; 54; 67; 244; 71; 145; 223; 51; 147; 33; 59;
   121; 183; 151; 133; 16; 181; 186; 60; 182; 112; 208; 6; 161; 250; 129; 130;
   131; 126; 127; 128; 150; 115; 190; 86; 155; 158; 149; 217; 247; 2; 185; 164;
   222; 106; 50; 109; 216; 138; 132; 114; 42; 20; 159; 136; 249; 220; 137; 154;
   251; 124; 46; 195; 143; 184; 101; 72; 38; 200; 18; 74; 206; 231; 210; 98;
   12; 224; 31; 239; 17; 117; 120; 113; 165; 142; 118; 61; 189; 188; 134; 87;
   11; 40; 47; 163; 218; 212; 228; 15; 169; 39; 83; 4; 27; 252; 172; 230;
   122; 7; 174; 99; 197; 219; 226; 234; 148; 139; 196; 213; 157; 248; 144; 107;
   177; 13; 214; 235; 198; 14; 207; 173; 8; 78; 215; 227; 93; 80; 30; 179;
   91; 35; 56; 52; 104; 70; 3; 140; 221; 156; 125; 160; 205; 26; 65; 28]%N.

Lemma sbox_affine_all :
  forallb (fun b => existsb (fun c =>
      (if Nat.eqb b 0 then Nat.eqb c 0
       else N.eqb (gmul (N.of_nat b) (N.of_nat c)) 1) &&
      forallb (fun i => Bool.eqb (N.testbit (sbox (N.of_nat b)) i) (affine_bit (N.of_nat c) i))
        [0; 1; 2; 3; 4; 5; 6; 7]%N && N.ltb (sbox (N.of_nat b)) 256)
      [N.to_nat (nth b inverses 0%N)]) (seq 0 256) = true.
Proof. vm_compute. reflexivity. Qed.

(* FIPS-197 5.1.1: the table is the multiplicative inverse, zero for zero,
   followed by the affine map. *)
Theorem aes_sbox_affine b : (b < 256)%N ->
  (sbox b < 256)%N /\
  exists c, (b = 0 /\ c = 0 \/ gmul b c = 1)%N /\
    forall i, (i < 8)%N -> N.testbit (sbox b) i = affine_bit c i.
Proof.
  intros Hb. assert (H := sbox_affine_all). rewrite forallb_forall in H.
  specialize (H (N.to_nat b)). rewrite in_seq in H.
  specialize (H ltac:(split; [lia|]; apply Nat.lt_le_trans with (N.to_nat 256);
    [lia|vm_compute; lia])).
  cbn [existsb] in H. rewrite orb_false_r in H. rewrite !N2Nat.id in H.
  apply andb_true_iff in H. destruct H as [H HL].
  apply andb_true_iff in H. destruct H as [HG HA].
  split; [apply N.ltb_lt; exact HL|].
  exists (nth (N.to_nat b) inverses 0%N). split.
  - destruct (Nat.eqb_spec (N.to_nat b) 0) as [E|E].
    + left. apply Nat.eqb_eq in HG. split; lia.
    + right. apply N.eqb_eq. exact HG.
  - intros i Hi. rewrite forallb_forall in HA.
    apply Bool.eqb_prop. apply HA.
    assert (E : (i = 0 \/ i = 1 \/ i = 2 \/ i = 3 \/ i = 4 \/ i = 5 \/ i = 6 \/ i = 7)%N) by lia.
    cbn [In]. intuition.
Qed.

(* ------------------------------------------------------------------ *)
(* Examples                                                            *)

(* FIPS-197 appendix C.1. *)
Definition ex_key : vec :=
  V (C 0 1 2 3) (C 4 5 6 7) (C 8 9 10 11) (C 12 13 14 15).
Definition ex_plain : vec :=
  V (C 0 17 34 51) (C 68 85 102 119) (C 136 153 170 187) (C 204 221 238 255).
Definition ex_cipher : vec :=
  V (C 105 196 224 216) (C 106 123 4 48) (C 216 205 183 128) (C 112 180 197 90).

Definition fresh_key : aes_key := {| rd_key := repeat zero_vec 11; rounds := 0 |}.

Example ex_aes_fips :
  ecb_encrypt_vector (set_encrypt_key ex_key) [ex_plain; ex_plain] =
    Val [ex_cipher; ex_cipher] /\
  bind (set_decrypt_key ex_key fresh_key) (fun dk => ecb_decrypt_vector dk [ex_cipher]) =
    Val [ex_plain].
Proof. vm_compute. auto. Qed.

(* FIPS-197 appendix A.1: the last word of the expansion of 2b7e1516... is
   b6630ca6. *)
Example ex_aes_expansion :
  nth_error (rd_key (set_encrypt_key
    (V (C 43 126 21 22) (C 40 174 210 166) (C 171 247 21 136) (C 9 207 79 60)))) 10 =
  Some (V (C 208 20 249 168) (C 201 238 37 137) (C 225 63 12 200) (C 182 99 12 166)).
Proof. vm_compute. reflexivity. Qed.

Example ex_aes_batch :
  bind (opt_key_schedule 2 [ex_key; ex_plain] [fresh_key; fresh_key; fresh_key]) (fun ks =>
    para_enc 2 1 [ex_plain; zero_vec] ks) =
  bind (ecb_encrypt_vector (set_encrypt_key ex_key) [ex_plain]) (fun a =>
  bind (ecb_encrypt_vector (set_encrypt_key ex_plain) [zero_vec]) (fun b => Val (a ++ b))) /\
  Forall (fun k => length (rd_key k) = 11) [fresh_key; fresh_key; fresh_key].
Proof. split; [vm_compute; reflexivity|]. repeat constructor. Qed.

Example ex_aes_size : ecb_encrypt (set_encrypt_key ex_key) [ex_plain] [] = Thrown.
Proof. reflexivity. Qed.

Print Assumptions aes_key_schedule_fips.
Print Assumptions aes_key_expansion_exists.
Print Assumptions aes_encrypt_fips.
Print Assumptions aes_encrypt_ptr.
Print Assumptions aes_decrypt_fips.
Print Assumptions aes_cipher_bijective.
Print Assumptions aes_round_trip.
Print Assumptions aes_decrypt_any_length_refuted.
Print Assumptions aes_opt_key_schedule_same.
Print Assumptions aes_para_enc.
Print Assumptions aes_batch_same.
Print Assumptions aes_sbox_affine.
