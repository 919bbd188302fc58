From Coq Require Import List ZArith Bool Lia Arith.
From Verif Require Import TransModel.
Import ListNotations.
Open Scope nat_scope.

(** * Bits of words *)
Definition tb (w : Z) (c : nat) : bool := Z.testbit w (Z.of_nat c).
Definition word (w : Z) : Prop := (0 <= w < 2 ^ 128)%Z.

Lemma range_bits w : (0 <= w)%Z -> (w < 2 ^ 128)%Z <-> (forall c, (128 <= c)%Z -> Z.testbit w c = false).
Proof.
  intros H0. split.
  - intros H c Hc. rewrite <- (Z.mod_small w (2 ^ 128)) by lia. apply Z.mod_pow2_bits_high. lia.
  - intros H. destruct (Z.eq_dec w 0) as [->|]; [lia|]. apply Z.log2_lt_pow2; [lia|].
    destruct (Z.lt_ge_cases (Z.log2 w) 128) as [|H1]; auto.
    pose proof (Z.bit_log2 w ltac:(lia)) as E. rewrite (H _ H1) in E. discriminate.
Qed.
Lemma tb_high w c : word w -> 128 <= c -> tb w c = false.
Proof. intros [H0 H1] Hc. apply (proj1 (range_bits w H0) H1). lia. Qed.
Lemma word_intro w : (0 <= w)%Z -> (forall c, 128 <= c -> tb w c = false) -> word w.
Proof.
  intros H0 H. split; auto. apply range_bits; auto. intros c Hc. rewrite <- (Z2Nat.id c) by lia. apply H. lia.
Qed.
Lemma word_zero : word 0.
Proof. split; lia. Qed.
Lemma tb_xor a b c : tb (xor a b) c = xorb (tb a c) (tb b c).
Proof. apply Z.lxor_spec. Qed.
Lemma tb_and m a c : tb (andm m a) c = tb a c && tb m c.
Proof. apply Z.land_spec. Qed.
Lemma tb_shr n a c : tb (shr n a) c = tb a (n + c).
Proof. unfold tb, shr. rewrite Z.shiftr_spec by lia. f_equal. lia. Qed.
Lemma tb_shl n a c : c < 128 -> tb (shl n a) c = if c <? n then false else tb a (c - n).
Proof.
  intros Hc. unfold tb, shl. rewrite Z.land_spec, Z.ones_spec_low by lia. rewrite andb_true_r, Z.shiftl_spec by lia.
  destruct (Nat.ltb_spec c n); [apply Z.testbit_neg_r; lia|]. f_equal. lia.
Qed.
Lemma word_xor a b : word a -> word b -> word (xor a b).
Proof.
  intros Ha Hb. apply word_intro; [apply Z.lxor_nonneg; unfold word in *; lia|]. intros c Hc.
  rewrite tb_xor, !tb_high by auto. reflexivity.
Qed.
Lemma word_and m a : word a -> word (andm m a).
Proof.
  intros Ha. apply word_intro; [apply Z.land_nonneg; unfold word in *; lia|]. intros c Hc. rewrite tb_and, tb_high by auto. reflexivity.
Qed.
Lemma word_shr n a : word a -> word (shr n a).
Proof.
  intros Ha. apply word_intro; [apply Z.shiftr_nonneg; unfold word in *; lia|]. intros c Hc. rewrite tb_shr. apply tb_high; auto. lia.
Qed.
Lemma word_shl n a : word (shl n a).
Proof. unfold shl, word. rewrite Z.land_ones by lia. apply Z.mod_pos_bound. lia. Qed.
Global Hint Resolve word_zero word_xor word_and word_shr word_shl : words.
Lemma word_ext a b : word a -> word b -> (forall c, c < 128 -> tb a c = tb b c) -> a = b.
Proof.
  intros Ha Hb H. apply Z.bits_inj'. intros n Hn. rewrite <- (Z2Nat.id n) by lia.
  destruct (Nat.lt_ge_cases (Z.to_nat n) 128) as [Hl|Hl]; [apply H; auto|].
  fold (tb a (Z.to_nat n)) (tb b (Z.to_nat n)). rewrite !tb_high by auto. reflexivity.
Qed.

(** * Matrices *)
Definition ok (m : list Z) : Prop := length m = 128 /\ Forall word m.
Definition bit (m : list Z) (r c : nat) : bool := tb (get m r) c.
Lemma upd_len {A} (l : list A) i x : length (upd l i x) = length l.
Proof. revert i. induction l as [|y l IH]; intros [|i]; simpl; auto. Qed.
Lemma nth_upd {A} (l : list A) i x j d : i < length l -> nth j (upd l i x) d = if j =? i then x else nth j l d.
Proof.
  revert i j. induction l as [|y l IH]; intros i j Hl; simpl in Hl; [lia|].
  destruct i as [|i], j as [|j]; simpl; auto. apply IH. lia.
Qed.
Lemma upd_out {A} (l : list A) i x : length l <= i -> upd l i x = l.
Proof. revert i. induction l as [|y l IH]; intros [|i] H; simpl in *; auto; try lia. rewrite IH; auto. lia. Qed.
Lemma get_upd m i x j : i < length m -> get (upd m i x) j = if j =? i then x else get m j.
Proof. apply nth_upd. Qed.
Lemma ok_word m i : ok m -> word (get m i).
Proof.
  intros [Hl Hw]. unfold get. destruct (Nat.lt_ge_cases i (length m)).
  - rewrite Forall_forall in Hw. apply Hw. apply nth_In. auto.
  - rewrite nth_overflow by auto. apply word_zero.
Qed.
Lemma ok_upd m i w : ok m -> word w -> ok (upd m i w).
Proof.
  intros [Hl Hw] H. split; [rewrite upd_len; auto|]. clear Hl. revert i. induction Hw; intros [|i]; cbn; constructor; auto.
Qed.
Global Hint Resolve ok_word ok_upd : words.

Lemma loop_inv {S} (P : nat -> S -> Prop) n f s :
  P 0 s -> (forall i s, i < n -> P i s -> P (Datatypes.S i) (f i s)) -> P n (loop n f s).
Proof.
  intros H0 Hs. induction n as [|n IH]; [exact H0|].
  unfold loop in *. rewrite seq_S, fold_left_app. cbn [fold_left Nat.add]. apply Hs; [lia|]. apply IH. intros i s' Hi. apply Hs. lia.
Qed.
Lemma loop_rel {A B} (P : A -> B -> Prop) n f g a b :
  P a b -> (forall i a b, i < n -> P a b -> P (f i a) (g i b)) -> P (loop n f a) (loop n g b).
Proof.
  intros H Hs. induction n as [|n IH]; [exact H|].
  unfold loop in *. rewrite !seq_S, !fold_left_app. cbn [fold_left Nat.add]. apply Hs; [lia|]. apply IH. intros i a' b' Hi. apply Hs. lia.
Qed.
(** Checks over the 128 columns. *)
Definition all128 (f : nat -> bool) : bool := forallb f (seq 0 128).
Lemma all128_spec f : all128 f = true -> forall c, c < 128 -> f c = true.
Proof. unfold all128. rewrite forallb_forall. intros H c Hc. apply H. apply in_seq. lia. Qed.

(** * Fields laid side by side *)
Lemma fields w (F : nat -> Z) n : 0 < w -> n * w <= 128 -> (forall l, word (F l)) -> (forall l c, w <= c -> tb (F l) c = false) ->
  let r := loop n (fun l acc => xor acc (shl (w * l) (F l))) zero in
  word r /\ forall c, c < 128 -> tb r c = if c / w <? n then tb (F (c / w)) (c mod w) else false.
Proof.
  intros Hw Hn HF HB. cbn zeta.
  apply (loop_inv (fun n r => word r /\ forall c, c < 128 -> tb r c = if c / w <? n then tb (F (c / w)) (c mod w) else false) n
     (fun l acc => xor acc (shl (w * l) (F l)))).
  - split; [apply word_zero|]. intros c Hc. unfold tb, zero. rewrite Z.bits_0. reflexivity.
  - intros l s Hl [Hs Hb]. split; [auto with words|]. intros c Hc. rewrite tb_xor, Hb by auto. rewrite tb_shl by auto.
    pose proof (Nat.div_mod c w ltac:(lia)) as D. pose proof (Nat.mod_upper_bound c w ltac:(lia)) as M.
    destruct (Nat.ltb_spec c (w * l)).
    + destruct (Nat.ltb_spec (c / w) l); [|nia]. destruct (Nat.ltb_spec (c / w) (S l)); [|lia]. apply xorb_false_r.
    + destruct (Nat.ltb_spec (c / w) l); [nia|]. destruct (Nat.ltb_spec (c / w) (S l)).
      * assert (c / w = l) by lia. rewrite xorb_false_l. rewrite H2. f_equal. nia.
      * rewrite xorb_false_l. apply HB. nia.
Qed.
Lemma tb_one c : tb 1 c = (c =? 0).
Proof. unfold tb. destruct c; [reflexivity|]. rewrite Z.bits_above_log2; auto; cbn; lia. Qed.
Lemma tb_get_bit a p c : tb (get_bit a p) c = if c =? 0 then tb a p else false.
Proof.
  unfold get_bit. rewrite tb_and, tb_shr, tb_one. destruct (Nat.eqb_spec c 0) as [->|]; [rewrite Nat.add_0_r; apply andb_true_r|apply andb_false_r].
Qed.

Definition transposed (m m' : list Z) : Prop := ok m' /\ forall r c, r < 128 -> c < 128 -> bit m' r c = bit m c r.
(** * NaiveTranspose *)
Lemma naive_ok m : ok m -> transposed m (naive_transpose128 m).
Proof.
  intros Hm. unfold naive_transpose128.
  pose (row := fun i => loop 128 (fun j t => xor t (shl j (get_bit (get m j) i))) zero).
  assert (HR : forall i, word (row i) /\ forall c, c < 128 -> tb (row i) c = bit m c i).
  { intros i.
    assert (E : row i = loop 128 (fun l acc => xor acc (shl (1 * l) (get_bit (get m l) i))) zero).
    { unfold row. apply (loop_rel eq); auto. intros j a b _ ->. rewrite Nat.mul_1_l. reflexivity. }
    rewrite E. destruct (fields 1 (fun l => get_bit (get m l) i) 128) as [F1 F2]; try lia.
    - intros l. unfold get_bit. auto with words.
    - intros l c Hc. rewrite tb_get_bit. destruct (Nat.eqb_spec c 0); [lia|auto].
    - split; auto. intros c Hc. rewrite F2 by auto. rewrite Nat.div_1_r, Nat.mod_1_r. destruct (Nat.ltb_spec c 128); [|lia].
      rewrite tb_get_bit. reflexivity. }
  pose proof (loop_inv (fun n out => ok out /\ forall r c, c < 128 -> r < n -> bit out r c = bit m c r) 128 (fun i out => upd out i (row i)) m) as K.
  destruct K as [K1 K2].
  - split; auto. intros; lia.
  - intros i out Hi [Ho Hb]. split; [apply ok_upd; auto; apply HR|]. intros r c Hc Hr. unfold bit at 1.
    rewrite get_upd by (destruct Ho; lia). destruct (Nat.eqb_spec r i) as [->|]; [apply HR; auto|]. apply Hb; auto. lia.
  - split; auto.
Qed.

(** * One swap of bit [b] between row and column number, on one pair of rows *)
Definition swaps (b : nat) (tx ty : nat -> bool) (x' y' : Z) : Prop :=
  word x' /\ word y' /\ forall c, c < 128 ->
    tb x' c = (if Nat.testbit c b then ty (c - 2 ^ b) else tx c) /\
    tb y' c = (if Nat.testbit c b then ty c else tx (c + 2 ^ b)).

(** Columns: facts about c +- 2^b, for b < 7. *)
Definition col_ok (b c : nat) : bool :=
  if Nat.testbit c b then (2 ^ b <=? c) && (Nat.lxor c (2 ^ b) =? c - 2 ^ b)
  else (c + 2 ^ b <? 128) && (Nat.lxor c (2 ^ b) =? c + 2 ^ b).
Lemma col_facts : forallb (fun b => all128 (col_ok b)) (seq 0 7) = true.
Proof. vm_compute. reflexivity. Qed.
Lemma col_lo b c : b < 7 -> c < 128 -> Nat.testbit c b = true -> 2 ^ b <= c /\ c - 2 ^ b = Nat.lxor c (2 ^ b).
Proof.
  intros Hb Hc Ht. pose proof col_facts as H. rewrite forallb_forall in H. specialize (H b ltac:(apply in_seq; lia)).
  apply (all128_spec _ H) in Hc. unfold col_ok in Hc. rewrite Ht in Hc. apply andb_true_iff in Hc as [H1 H2].
  apply Nat.leb_le in H1. apply Nat.eqb_eq in H2. auto.
Qed.
Lemma col_hi b c : b < 7 -> c < 128 -> Nat.testbit c b = false -> c + 2 ^ b < 128 /\ c + 2 ^ b = Nat.lxor c (2 ^ b).
Proof.
  intros Hb Hc Ht. pose proof col_facts as H. rewrite forallb_forall in H. specialize (H b ltac:(apply in_seq; lia)).
  apply (all128_spec _ H) in Hc. unfold col_ok in Hc. rewrite Ht in Hc. apply andb_true_iff in Hc as [H1 H2].
  apply Nat.ltb_lt in H1. apply Nat.eqb_eq in H2. auto.
Qed.

(** The bits of [d] of row and column number are exchanged. *)
Definition mix (d a b : nat) : nat := Nat.lor (Nat.ldiff a d) (Nat.land b d).
Lemma mix_bit d a b p : Nat.testbit (mix d a b) p = if Nat.testbit d p then Nat.testbit b p else Nat.testbit a p.
Proof.
  unfold mix. rewrite Nat.lor_spec, Nat.ldiff_spec, Nat.land_spec.
  destruct (Nat.testbit a p), (Nat.testbit b p), (Nat.testbit d p); reflexivity.
Qed.
Lemma lxor_bit c b p : Nat.testbit (Nat.lxor c (2 ^ b)) p = xorb (Nat.testbit c p) (b =? p).
Proof. rewrite Nat.lxor_spec, Nat.pow2_bits_eqb. reflexivity. Qed.

Definition Inv (m0 : list Z) (D : list nat) (m : list Z) : Prop :=
  ok m /\ length D = 128 /\ forall r c, r < 128 -> c < 128 -> bit m r c = bit m0 (mix (nth r D 0) r c) (mix (nth r D 0) c r).

Definition dstep (D : list nat) (b r1 r2 : nat) : option (list nat) :=
  if (b <? 7) && (r1 <? 128) && (r2 <? 128) && (r2 =? r1 + 2 ^ b) && negb (Nat.testbit r1 b)
     && (nth r1 D 0 =? nth r2 D 0) && negb (Nat.testbit (nth r1 D 0) b) && (nth r1 D 0 <? 128)
  then let d := nth r1 D 0 + 2 ^ b in Some (upd (upd D r1 d) r2 d) else None.

Lemma swap_step m0 D m b r1 r2 D' x' y' :
  Inv m0 D m -> dstep D b r1 r2 = Some D' -> swaps b (bit m r1) (bit m r2) x' y' ->
  Inv m0 D' (upd (upd m r1 x') r2 y').
Proof.
  intros (Hm & HD & HI) Hd (Wx & Wy & Hs). unfold dstep in Hd.
  destruct (Nat.ltb_spec b 7) as [Hb|]; cbn [andb] in Hd; [|discriminate].
  destruct (Nat.ltb_spec r1 128) as [H1|]; cbn [andb] in Hd; [|discriminate].
  destruct (Nat.ltb_spec r2 128) as [H2|]; cbn [andb] in Hd; [|discriminate].
  destruct (Nat.eqb_spec r2 (r1 + 2 ^ b)) as [E2|]; cbn [andb] in Hd; [|discriminate].
  destruct (Nat.testbit r1 b) eqn:Et; cbn [andb negb] in Hd; [discriminate|].
  rewrite (proj2 (col_hi b r1 Hb H1 Et)) in E2.
  destruct (Nat.eqb_spec (nth r1 D 0) (nth r2 D 0)) as [Ed|]; cbn [andb] in Hd; [|discriminate].
  destruct (Nat.testbit (nth r1 D 0) b) eqn:Etd; cbn [andb negb] in Hd; [discriminate|].
  destruct (Nat.ltb_spec (nth r1 D 0) 128) as [H3|]; cbn [andb] in Hd; [|discriminate].
  rewrite (proj2 (col_hi b _ Hb H3 Etd)) in Hd.
  inversion Hd; subst D'. clear Hd. set (d := nth r1 D 0) in *.
  assert (Hr2 : Nat.testbit r2 b = true) by (rewrite E2, lxor_bit, Et, Nat.eqb_refl; reflexivity).
  assert (Hne : r1 <> r2) by (intros E; rewrite E in Et; congruence).
  assert (Hlm : length m = 128) by apply Hm.
  split; [auto with words|]. split; [rewrite !upd_len; auto|]. intros r c Hr Hc.
  unfold bit at 1. rewrite get_upd by (rewrite upd_len; lia). rewrite get_upd by lia.
  rewrite nth_upd by (rewrite upd_len; lia). rewrite nth_upd by lia.
  destruct (Hs c Hc) as [Sx Sy].
  destruct (Nat.eqb_spec r r2) as [->|Hnr2]; [|destruct (Nat.eqb_spec r r1) as [->|Hnr1]].
  - rewrite Sy. destruct (Nat.testbit c b) eqn:Ec.
    + rewrite HI by auto. rewrite <- Ed. f_equal; apply Nat.bits_inj; intros p; rewrite !mix_bit, lxor_bit;
        destruct (Nat.eqb_spec b p) as [<-|]; rewrite ?Etd, ?xorb_true_r, ?xorb_false_r, ?Ec, ?Hr2; reflexivity.
    + destruct (col_hi b c Hb Hc Ec) as [Hlt ->]. rewrite HI by (auto; rewrite <- (proj2 (col_hi b c Hb Hc Ec)); auto).
      fold d. f_equal; apply Nat.bits_inj; intros p; rewrite !mix_bit, ?lxor_bit, ?E2, ?lxor_bit;
        destruct (Nat.eqb_spec b p) as [<-|]; rewrite ?Etd, ?xorb_true_r, ?xorb_false_r, ?Ec, ?Et; reflexivity.
  - rewrite Sx. destruct (Nat.testbit c b) eqn:Ec.
    + destruct (col_lo b c Hb Hc Ec) as [Hle E]. rewrite HI by (auto; lia). rewrite E, <- Ed.
      f_equal; apply Nat.bits_inj; intros p; rewrite !mix_bit, ?lxor_bit, ?E2, ?lxor_bit;
        destruct (Nat.eqb_spec b p) as [<-|]; rewrite ?Etd, ?xorb_true_r, ?xorb_false_r, ?Ec, ?Et; reflexivity.
    + rewrite HI by auto. fold d. f_equal; apply Nat.bits_inj; intros p; rewrite !mix_bit, ?lxor_bit;
        destruct (Nat.eqb_spec b p) as [<-|]; rewrite ?Etd, ?xorb_true_r, ?xorb_false_r, ?Ec, ?Et; reflexivity.
  - apply HI; auto.
Qed.

Lemma Inv_start m : ok m -> Inv m (repeat 0 128) m.
Proof.
  intros H. split; auto. split; [apply repeat_length|]. intros r c Hr Hc. rewrite nth_repeat.
  f_equal; apply Nat.bits_inj; intros p; rewrite mix_bit, Nat.bits_0; reflexivity.
Qed.
Lemma small_bits c p : c < 128 -> 7 <= p -> Nat.testbit c p = false.
Proof.
  intros Hc Hp. rewrite Nat.testbit_false. rewrite Nat.div_small; auto.
  apply Nat.lt_le_trans with (2 ^ 7); [exact Hc|]. apply Nat.pow_le_mono_r; lia.
Qed.
Lemma Inv_end m m' : Inv m (repeat 127 128) m' -> transposed m m'.
Proof.
  intros (H1 & H2 & H3). split; auto. intros r c Hr Hc. rewrite H3 by auto.
  replace (nth r (repeat 127 128) 0) with 127 by (rewrite (nth_indep _ 0 127) by (rewrite repeat_length; auto); rewrite nth_repeat; auto).
  assert (E : forall a b, a < 128 -> b < 128 -> mix 127 a b = b).
  { intros a b Ha Hb. apply Nat.bits_inj. intros p. rewrite mix_bit. destruct (Nat.lt_ge_cases p 7).
    - do 7 (destruct p as [|p]; [reflexivity|]). lia.
    - rewrite !small_bits by (auto; lia). destruct (Nat.testbit 127 p); reflexivity. }
  rewrite !E by auto. reflexivity.
Qed.

(** * Eklundh *)
Definition ek_col_ok (m mi : Z) (i c : nat) : bool :=
  let b := 6 - i in let w := 2 ^ b in
  Bool.eqb (tb m c) (negb (Nat.testbit c b)) &&
  (if c <? w then negb (Nat.testbit c b) else Bool.eqb (tb m (c - w)) (Nat.testbit c b)) &&
  Bool.eqb (tb mi c) (Nat.testbit c b) &&
  Bool.eqb (tb mi (w + c)) (negb (Nat.testbit c b)).
Lemma ek_facts : forallb (fun i => all128 (ek_col_ok (trans_mask i) (trans_mask_inv i) i)) (seq 0 7) = true.
Proof. vm_compute. reflexivity. Qed.
Lemma ek_swaps i x y : i < 7 -> word x -> word y ->
  swaps (6 - i) (tb x) (tb y)
    (xor (andm (trans_mask i) x) (shl (2 ^ (6 - i)) (andm (trans_mask i) y)))
    (xor (andm (trans_mask_inv i) y) (shr (2 ^ (6 - i)) (andm (trans_mask_inv i) x))).
Proof.
  intros Hi Hx Hy. split; [auto with words|]. split; [auto with words|]. intros c Hc.
  pose proof ek_facts as H. rewrite forallb_forall in H. specialize (H i ltac:(apply in_seq; lia)).
  pose proof (all128_spec _ H c Hc) as F. unfold ek_col_ok in F. cbn zeta in F.
  apply andb_true_iff in F as [F F4]. apply andb_true_iff in F as [F F3]. apply andb_true_iff in F as [F1 F2].
  apply eqb_prop in F1, F3, F4. rewrite !tb_xor, !tb_and, tb_shr, tb_shl, !tb_and by auto. rewrite F1, F3, F4. split.
  - destruct (Nat.ltb_spec c (2 ^ (6 - i))).
    + destruct (Nat.testbit c (6 - i)); [discriminate|]. cbn [negb]. rewrite andb_true_r, xorb_false_r. reflexivity.
    + apply eqb_prop in F2. rewrite F2. destruct (Nat.testbit c (6 - i)); cbn [negb];
        rewrite ?andb_true_r, ?andb_false_r, ?xorb_false_r, ?xorb_false_l; reflexivity.
  - destruct (Nat.testbit c (6 - i)); cbn [negb]; rewrite ?andb_true_r, ?andb_false_r, ?xorb_false_r, ?xorb_false_l; auto.
    f_equal. lia.
Qed.

Definition bindD (D : option (list nat)) (f : list nat -> option (list nat)) : option (list nat) :=
  match D with None => None | Some d => f d end.
Definition ekD (i width j k : nat) (D : option (list nat)) : option (list nat) :=
  if (i <? 7) && (width =? 2 ^ (6 - i))
  then bindD D (fun d => dstep d (6 - i) (k + 2 * width * j) (k + width + 2 * width * j)) else None.
Definition ekD_all : option (list nat) :=
  snd (loop 7 (fun i (s : nat * nat * option (list nat)) => let '(width, nswaps, D) := s in
    (Nat.div width 2, nswaps * 2, loop nswaps (fun j D => loop width (fun k D => ekD i width j k D) D) D)) (64, 1, Some (repeat 0 128))).
Lemma ekD_run : ekD_all = Some (repeat 127 128).
Proof. vm_compute. reflexivity. Qed.

Definition InvO (m0 : list Z) (D : option (list nat)) (m : list Z) : Prop :=
  match D with None => True | Some d => Inv m0 d m end.
Lemma dstep_rows D b r1 r2 D' : dstep D b r1 r2 = Some D' -> r1 <> r2 /\ r1 < 128 /\ r2 < 128.
Proof.
  unfold dstep. intros Hd.
  destruct (Nat.ltb_spec b 7) as [Hb|]; cbn [andb] in Hd; [|discriminate].
  destruct (Nat.ltb_spec r1 128) as [H1|]; cbn [andb] in Hd; [|discriminate].
  destruct (Nat.ltb_spec r2 128) as [H2|]; cbn [andb] in Hd; [|discriminate].
  destruct (Nat.eqb_spec r2 (r1 + 2 ^ b)) as [E2|]; cbn [andb] in Hd; [|discriminate].
  destruct (Nat.testbit r1 b) eqn:Et; cbn [andb negb] in Hd; [discriminate|].
  rewrite (proj2 (col_hi b r1 Hb H1 Et)) in E2.
  split; auto. intros E. assert (F : Nat.testbit r2 b = true) by (rewrite E2, lxor_bit, Et, Nat.eqb_refl; reflexivity). rewrite <- E in F. congruence.
Qed.
Lemma eklundh_ok m : ok m -> transposed m (eklundh_transpose128 m).
Proof.
  intros Hm. apply Inv_end. unfold eklundh_transpose128.
  assert (K : InvO m ekD_all (snd (loop 7 ek_round (64, 1, m)))).
  { unfold ekD_all.
    match goal with |- InvO m (snd (loop 7 ?g ?a)) (snd (loop 7 ?f ?b)) =>
      pose proof (loop_rel (fun (s : nat * nat * list Z) (t : nat * nat * option (list nat)) => fst s = fst t /\ InvO m (snd t) (snd s)) 7 f g b a) as K end.
    refine (proj2 (K _ _)); clear K.
    - split; auto. apply Inv_start; auto.
    - intros i [[w n] a] [[w' n'] D] Hi [E HI]. cbn [fst snd] in *. inversion E; subst w' n'. clear E. cbn [ek_round fst snd].
      split; auto. apply (loop_rel (fun a D => InvO m D a)); auto. intros j a1 D1 Hj HI1.
      apply (loop_rel (fun a D => InvO m D a)); auto. intros k a2 D2 Hk HI2. unfold ekD.
      destruct (Nat.ltb_spec i 7); [|exact I]. destruct (Nat.eqb_spec w (2 ^ (6 - i))) as [->|]; cbn [andb]; [|exact I].
      destruct D2 as [d|]; cbn [bindD]; [|exact I]. cbn [InvO] in HI2.
      destruct (dstep d (6 - i) (k + 2 * 2 ^ (6 - i) * j) (k + 2 ^ (6 - i) + 2 * 2 ^ (6 - i) * j)) as [d'|] eqn:Ed; [|exact I].
      cbn [InvO]. unfold ek_swap. cbn zeta.
      apply (swap_step m d a2 (6 - i)); auto. apply ek_swaps; auto; apply ok_word; apply HI2. }
  rewrite ekD_run in K. exact K.
Qed.

(** * AVX *)
Lemma lanes_spec w keep c : c < 128 -> tb (lanes w keep) c = keep (Nat.modulo c w).
Proof.
  intros Hc. unfold lanes.
  assert (K : forall n, n <= 128 -> tb (fold_left (fun z c => if keep (Nat.modulo c w) then Z.setbit z (Z.of_nat c) else z) (seq 0 n) 0%Z) c
     = if c <? n then keep (Nat.modulo c w) else false).
  { induction n as [|n IH]; intros Hn.
    - cbn. unfold tb. apply Z.bits_0.
    - rewrite seq_S, fold_left_app. cbn [fold_left Nat.add]. destruct (keep (Nat.modulo n w)) eqn:Ek.
      + unfold tb. rewrite Z.setbit_eqb by lia. destruct (Z.eqb_spec (Z.of_nat n) (Z.of_nat c)) as [E|E].
        * apply Nat2Z.inj in E. subst. destruct (Nat.ltb_spec c (S c)); [|lia]. rewrite Ek. reflexivity.
        * unfold tb in IH. rewrite IH by lia. cbn [orb]. destruct (Nat.ltb_spec c n), (Nat.ltb_spec c (S n)); auto; lia.
      + rewrite IH by lia. destruct (Nat.ltb_spec c n), (Nat.ltb_spec c (S n)); auto; try lia.
        assert (c = n) by lia. subst. auto. }
  rewrite K by lia. destruct (Nat.ltb_spec c 128); [auto|lia].
Qed.
Lemma lanes_high w keep c : 128 <= c -> tb (lanes w keep) c = false.
Proof.
  intros Hc. unfold lanes. assert (K : forall l z, (forall x, In x l -> x < 128) -> tb z c = false ->
    tb (fold_left (fun z c => if keep (Nat.modulo c w) then Z.setbit z (Z.of_nat c) else z) l z) c = false).
  { induction l as [|x l IH]; intros z Hl Hz; cbn [fold_left]; auto. apply IH; [intros; apply Hl; right; auto|].
    destruct (keep _); auto. unfold tb. rewrite Z.setbit_eqb by lia. fold (tb z c). rewrite Hz.
    destruct (Z.eqb_spec (Z.of_nat x) (Z.of_nat c)); auto. specialize (Hl x ltac:(left; auto)). lia. }
  apply K; [intros x Hx; apply in_seq in Hx; lia|]. unfold tb. apply Z.bits_0.
Qed.
Lemma tb_slli w n a c : c < 128 -> tb (slli w n a) c = (if c <? n then false else tb a (c - n)) && (n <=? c mod w).
Proof. intros Hc. unfold slli. rewrite tb_and, tb_shl, lanes_spec by auto. reflexivity. Qed.
Lemma tb_srli w n a c : c < 128 -> tb (srli w n a) c = tb a (n + c) && (c mod w <? w - n).
Proof. intros Hc. unfold srli. rewrite tb_and, tb_shr, lanes_spec by auto. reflexivity. Qed.
Lemma word_slli w n a : word (slli w n a).
Proof. unfold slli. auto with words. Qed.
Lemma word_srli w n a : word a -> word (srli w n a).
Proof. unfold srli. auto with words. Qed.
Global Hint Resolve word_slli word_srli : words.

Definition diff_col_ok (lane b : nat) (mask : Z) (c : nat) : bool :=
  let n := 2 ^ b in
  Bool.eqb (tb mask c) (Nat.testbit c b) &&
  (if Nat.testbit c b then (n <=? c) && (n <=? c mod lane) && ((128 <=? c + n) || negb (tb mask (c + n)))
   else (c + n <? 128) && (c mod lane <? lane - n) && tb mask (c + n) && (n <=? (c + n) mod lane)).
Lemma diff_swaps lane b mask x y : all128 (diff_col_ok lane b mask) = true -> word x -> word y ->
  swaps b (tb x) (tb y) (fst (diff_step lane (2 ^ b) mask x y)) (snd (diff_step lane (2 ^ b) mask x y)).
Proof.
  intros HF Hx Hy. unfold diff_step. cbn [fst snd]. split; [auto with words|]. split; [auto with words|]. intros c Hc.
  pose proof (all128_spec _ HF c Hc) as F. unfold diff_col_ok in F. cbn zeta in F.
  apply andb_true_iff in F as [F1 F]. apply eqb_prop in F1.
  rewrite !tb_xor, tb_srli, !tb_and, tb_xor, F1 by auto. rewrite tb_slli by auto.
  destruct (Nat.testbit c b) eqn:Ec.
  - apply andb_true_iff in F as [F F4]. apply andb_true_iff in F as [F2 F3]. apply Nat.leb_le in F2. rewrite F3.
    destruct (Nat.ltb_spec c (2 ^ b)); [lia|]. rewrite !andb_true_r. split.
    + destruct (tb x c), (tb y (c - 2 ^ b)); reflexivity.
    + assert (E : tb (xor x (slli lane (2 ^ b) y)) (2 ^ b + c) && tb mask (2 ^ b + c) = false).
      { rewrite (Nat.add_comm (2 ^ b) c). apply orb_true_iff in F4 as [F4|F4].
        - apply Nat.leb_le in F4. rewrite tb_high by auto with words. reflexivity.
        - destruct (tb mask (c + 2 ^ b)); [discriminate|]. apply andb_false_r. }
      rewrite E. cbn [andb]. apply xorb_false_r.
  - apply andb_true_iff in F as [F F5]. apply andb_true_iff in F as [F F4]. apply andb_true_iff in F as [F2 F3]. apply Nat.ltb_lt in F2.
    rewrite F3. rewrite !andb_false_r, xorb_false_r. split; auto. rewrite andb_true_r. rewrite (Nat.add_comm (2 ^ b) c).
    rewrite F4, andb_true_r. rewrite tb_xor, tb_slli by auto. rewrite F5, andb_true_r.
    destruct (Nat.ltb_spec (c + 2 ^ b) (2 ^ b)); [lia|]. replace (c + 2 ^ b - 2 ^ b) with c by lia.
    destruct (tb x (c + 2 ^ b)), (tb y c); reflexivity.
Qed.
Lemma avx_mask_facts : forallb (fun bs => all128 (diff_col_ok 64 bs (avx_mask bs))) (seq 1 5) = true.
Proof. vm_compute. reflexivity. Qed.
Lemma aaaa_facts : all128 (diff_col_ok 16 0 mask_aaaa) = true.
Proof. vm_compute. reflexivity. Qed.
Definition lo_ok (c : nat) : bool := Bool.eqb (tb (2 ^ 64 - 1) c) (c <? 64) && Bool.eqb (Nat.testbit c 6) (64 <=? c).
Lemma lo_facts : all128 lo_ok = true.
Proof. vm_compute. reflexivity. Qed.
Lemma unpack_swaps x y : word x -> word y -> swaps 6 (tb x) (tb y) (unpacklo x y) (unpackhi x y).
Proof.
  intros Hx Hy. unfold unpacklo, unpackhi. split; [auto with words|]. split; [auto with words|]. intros c Hc.
  change (2 ^ 6) with 64.
  pose proof (all128_spec _ lo_facts c Hc) as F. unfold lo_ok in F. apply andb_true_iff in F as [F1 F2]. apply eqb_prop in F1, F2.
  rewrite !tb_xor, !tb_and, !tb_shl, !tb_and, !tb_shr, F1, F2 by auto.
  destruct (Nat.ltb_spec c 64), (Nat.leb_spec 64 c); try lia.
  - rewrite !xorb_false_r, andb_true_r. split; auto. f_equal. lia.
  - pose proof (all128_spec _ lo_facts (c - 64) ltac:(lia)) as G. unfold lo_ok in G. apply andb_true_iff in G as [G1 _]. apply eqb_prop in G1.
    rewrite G1. destruct (Nat.ltb_spec (c - 64) 64); [|lia]. rewrite andb_false_r, andb_true_r, xorb_false_l. split; auto.
    rewrite (tb_high x) by (auto; lia). rewrite xorb_false_l. f_equal. lia.
Qed.

Definition avxD (bs q0 j : nat) (D : option (list nat)) : option (list nat) :=
  let qx := q0 + Nat.div j 2 in
  let qy := q0 + Nat.div j 2 + 2 ^ (bs - 1) in
  if (1 <=? bs) && (bs <=? 6) then
    bindD (if bs =? 1 then bindD (bindD D (fun d => dstep d 0 (2 * qx) (2 * qx + 1))) (fun d => dstep d 0 (2 * qy) (2 * qy + 1)) else D)
      (fun d => bindD (dstep d bs (2 * qx) (2 * qy)) (fun d => dstep d bs (2 * qx + 1) (2 * qy + 1)))
  else None.
Fixpoint avxD_iter1 (fuel bs br q0 j : nat) (D : option (list nat)) : option (list nat) :=
  match fuel with
  | O => D
  | S f => if Nat.eqb j (2 ^ bs) then D else avxD bs q0 j (avxD_iter1 f bs br q0 (j + 2 ^ br) D)
  end.
Fixpoint avxD_iter2 (fuel bs br nrows q0 : nat) (D : option (list nat)) : option (list nat) :=
  match fuel with
  | O => D
  | S f => if Nat.eqb nrows 0 then D
           else let i := nrows - 2 ^ (bs + 1) in
                avxD_iter1 65 bs br (q0 + Nat.div i 2) 0 (avxD_iter2 f bs br i q0 D)
  end.
Fixpoint avxD_block (fuel bs ms br mr q0 : nat) (D : option (list nat)) : option (list nat) :=
  match fuel with
  | O => D
  | S f => if Nat.eqb bs ms then D
           else avxD_block f (bs + 1) ms br mr q0 (avxD_iter2 65 bs br (2 ^ (mr + ms)) q0 D)
  end.
Definition avxD_all : option (list nat) :=
  loop 4 (fun i D => avxD_block 8 3 7 3 0 i D) (loop 4 (fun i D => avxD_block 8 1 3 1 (4 + 1 - 3) (16 * i) D) (Some (repeat 0 128))).
Lemma avxD_run : avxD_all = Some (repeat 127 128).
Proof. vm_compute. reflexivity. Qed.

Lemma list_ext128 a b : length a = 128 -> length b = 128 -> (forall r, r < 128 -> get a r = get b r) -> a = b.
Proof. intros H1 H2 H. apply nth_ext with (d := zero) (d' := zero); [congruence|]. intros n Hn. apply H. lia. Qed.
Ltac rows := repeat (rewrite get_upd by (rewrite ?upd_len; lia)).

Lemma two_swaps m0 d d1 d2 m b p q r s xp xq xr xs :
  Inv m0 d m -> dstep d b p q = Some d1 -> dstep d1 b r s = Some d2 -> p <> r -> p <> s -> q <> r -> q <> s ->
  swaps b (bit m p) (bit m q) xp xq -> swaps b (bit m r) (bit m s) xr xs ->
  Inv m0 d2 (upd (upd (upd (upd m p xp) r xr) q xq) s xs).
Proof.
  intros HI D1 D2 N1 N2 N3 N4 S1 S2. pose proof HI as (Hm & _). assert (Hl : length m = 128) by apply Hm.
  destruct (dstep_rows _ _ _ _ _ D1) as (R1 & R2 & R3), (dstep_rows _ _ _ _ _ D2) as (R4 & R5 & R6).
  replace (upd (upd (upd (upd m p xp) r xr) q xq) s xs) with (upd (upd (upd (upd m p xp) q xq) r xr) s xs).
  - apply (swap_step m0 d1 _ b); auto.
    + apply (swap_step m0 d _ b); auto.
    + destruct S2 as (W1 & W2 & S2). split; auto. split; auto. intros c Hc. unfold bit. rows.
      destruct (Nat.eqb_spec r q); [lia|]. destruct (Nat.eqb_spec r p); [lia|].
      destruct (Nat.eqb_spec s q); [lia|]. destruct (Nat.eqb_spec s p); [lia|]. apply S2; auto.
  - apply list_ext128; [rewrite !upd_len; auto..|]. intros t Ht. rows.
    destruct (Nat.eqb_spec t s), (Nat.eqb_spec t r), (Nat.eqb_spec t q), (Nat.eqb_spec t p); auto; lia.
Qed.

Lemma avx_body_inv m0 bs q0 j D m : InvO m0 D m -> InvO m0 (avxD bs q0 j D) (avx_iter1_body bs q0 j m).
Proof.
  intros HI. unfold avxD, avx_iter1_body. cbn zeta. set (qx := q0 + j / 2). set (qy := qx + 2 ^ (bs - 1)).
  destruct (Nat.leb_spec 1 bs); cbn [andb]; [|exact I]. destruct (Nat.leb_spec bs 6); cbn [andb]; [|exact I].
  destruct D as [d|]; [|destruct (bs =? 1); exact I]. cbn [InvO] in HI. pose proof HI as (Hm & _).
  assert (Hp : 0 < 2 ^ (bs - 1)) by (apply Nat.neq_0_lt_0; apply Nat.pow_nonzero; lia).
  assert (W : forall i, word (get m i)) by (intros; apply ok_word; auto). assert (Hl : length m = 128) by apply Hm.
  destruct (Nat.eqb_spec bs 6) as [->|H6]; cbn [Nat.eqb bindD].
  - destruct (dstep d 6 (2 * qx) (2 * qy)) as [d1|] eqn:E1; cbn [bindD]; [|exact I].
    destruct (dstep d1 6 (2 * qx + 1) (2 * qy + 1)) as [d2|] eqn:E2; [|exact I]. cbn [InvO].
    apply (two_swaps m0 d d1 d2 m 6); auto; try lia; apply unpack_swaps; auto.
  - assert (HF : all128 (diff_col_ok 64 bs (avx_mask bs)) = true).
    { pose proof avx_mask_facts as F. rewrite forallb_forall in F. apply F. apply in_seq. lia. }
    destruct (Nat.eqb_spec bs 1) as [->|H1]; cbn [bindD].
    + destruct (dstep d 0 (2 * qx) (2 * qx + 1)) as [d1|] eqn:E1; cbn [bindD]; [|exact I].
      destruct (dstep d1 0 (2 * qy) (2 * qy + 1)) as [d2|] eqn:E2; cbn [bindD]; [|exact I].
      destruct (dstep d2 1 (2 * qx) (2 * qy)) as [d3|] eqn:E3; cbn [bindD]; [|exact I].
      destruct (dstep d3 1 (2 * qx + 1) (2 * qy + 1)) as [d4|] eqn:E4; [|exact I]. cbn [InvO].
      pose proof (diff_swaps 16 0 mask_aaaa _ _ aaaa_facts (W (2 * qx)) (W (2 * qx + 1))) as S1.
      pose proof (diff_swaps 16 0 mask_aaaa _ _ aaaa_facts (W (2 * qy)) (W (2 * qy + 1))) as S2.
      change (2 ^ 0) with 1 in S1, S2.
      destruct (diff_step 16 1 mask_aaaa (get m (2 * qx)) (get m (2 * qx + 1))) as [ul vl].
      destruct (diff_step 16 1 mask_aaaa (get m (2 * qy)) (get m (2 * qy + 1))) as [uh vh]. cbn [fst snd] in S1, S2.
      pose proof (two_swaps m0 d d1 d2 m 0 _ _ _ _ ul vl uh vh HI E1 E2 ltac:(lia) ltac:(lia) ltac:(lia) ltac:(lia) S1 S2) as I2.
      set (m2 := upd (upd (upd (upd m (2 * qx) ul) (2 * qy) uh) (2 * qx + 1) vl) (2 * qy + 1) vh) in *.
      destruct (dstep_rows _ _ _ _ _ E3) as (_ & Ra & Rb), (dstep_rows _ _ _ _ _ E4) as (_ & Rc & Rd).
      assert (G1 : get m2 (2 * qx) = ul) by (unfold m2; rows; destruct (Nat.eqb_spec (2 * qx) (2 * qy + 1)), (Nat.eqb_spec (2 * qx) (2 * qx + 1)), (Nat.eqb_spec (2 * qx) (2 * qy)), (Nat.eqb_spec (2 * qx) (2 * qx)); auto; lia).
      assert (G2 : get m2 (2 * qy) = uh) by (unfold m2; rows; destruct (Nat.eqb_spec (2 * qy) (2 * qy + 1)), (Nat.eqb_spec (2 * qy) (2 * qx + 1)), (Nat.eqb_spec (2 * qy) (2 * qy)); auto; lia).
      assert (G3 : get m2 (2 * qx + 1) = vl) by (unfold m2; rows; destruct (Nat.eqb_spec (2 * qx + 1) (2 * qy + 1)), (Nat.eqb_spec (2 * qx + 1) (2 * qx + 1)); auto; lia).
      assert (G4 : get m2 (2 * qy + 1) = vh) by (unfold m2; rows; destruct (Nat.eqb_spec (2 * qy + 1) (2 * qy + 1)); auto; lia).
      assert (W2 : forall i, word (get m2 i)) by (intros; apply ok_word; apply I2).
      pose proof (diff_swaps 64 1 (avx_mask 1) _ _ HF (W2 (2 * qx)) (W2 (2 * qy))) as S3.
      pose proof (diff_swaps 64 1 (avx_mask 1) _ _ HF (W2 (2 * qx + 1)) (W2 (2 * qy + 1))) as S4.
      rewrite G1, G2 in S3. rewrite G3, G4 in S4.
      destruct (diff_step 64 (2 ^ 1) (avx_mask 1) ul uh) as [xl yl]. destruct (diff_step 64 (2 ^ 1) (avx_mask 1) vl vh) as [xh yh]. cbn [fst snd] in S3, S4.
      assert (I4 : Inv m0 d4 (upd (upd (upd (upd m2 (2 * qx) xl) (2 * qx + 1) xh) (2 * qy) yl) (2 * qy + 1) yh)).
      { apply (two_swaps m0 d2 d3 d4 m2 1); auto; try lia; unfold bit; rewrite ?G1, ?G2, ?G3, ?G4; auto. }
      replace (upd (upd (upd (upd m (2 * qx) xl) (2 * qx + 1) xh) (2 * qy) yl) (2 * qy + 1) yh)
        with (upd (upd (upd (upd m2 (2 * qx) xl) (2 * qx + 1) xh) (2 * qy) yl) (2 * qy + 1) yh); auto.
      apply list_ext128; [unfold m2; rewrite !upd_len; auto..|]. intros t Ht. unfold m2. rows.
      destruct (Nat.eqb_spec t (2 * qy + 1)), (Nat.eqb_spec t (2 * qy)), (Nat.eqb_spec t (2 * qx + 1)), (Nat.eqb_spec t (2 * qx)); auto.
    + destruct (dstep d bs (2 * qx) (2 * qy)) as [d1|] eqn:E1; cbn [bindD]; [|exact I].
      destruct (dstep d1 bs (2 * qx + 1) (2 * qy + 1)) as [d2|] eqn:E2; [|exact I]. cbn [InvO].
      pose proof (diff_swaps 64 bs (avx_mask bs) _ _ HF (W (2 * qx)) (W (2 * qy))) as S3.
      pose proof (diff_swaps 64 bs (avx_mask bs) _ _ HF (W (2 * qx + 1)) (W (2 * qy + 1))) as S4.
      destruct (diff_step 64 (2 ^ bs) (avx_mask bs) (get m (2 * qx)) (get m (2 * qy))) as [xl yl].
      destruct (diff_step 64 (2 ^ bs) (avx_mask bs) (get m (2 * qx + 1)) (get m (2 * qy + 1))) as [xh yh]. cbn [fst snd] in S3, S4.
      apply (two_swaps m0 d d1 d2 m bs); auto; lia.
Qed.
Lemma avx_iter1_inv m0 fuel bs br q0 : forall j D m, InvO m0 D m -> InvO m0 (avxD_iter1 fuel bs br q0 j D) (avx_iter1 fuel bs br q0 j m).
Proof.
  induction fuel as [|f IH]; intros j D m H; cbn [avx_iter1 avxD_iter1]; auto.
  destruct (Nat.eqb j (2 ^ bs)); auto. apply avx_body_inv; auto.
Qed.
Lemma avx_iter2_inv m0 fuel bs br q0 : forall n D m, InvO m0 D m -> InvO m0 (avxD_iter2 fuel bs br n q0 D) (avx_iter2 fuel bs br n q0 m).
Proof.
  induction fuel as [|f IH]; intros n D m H; cbn [avx_iter2 avxD_iter2]; auto.
  destruct (Nat.eqb n 0); auto. apply avx_iter1_inv; auto.
Qed.
Lemma avx_block_inv m0 fuel : forall bs ms br mr q0 D m, InvO m0 D m ->
  InvO m0 (avxD_block fuel bs ms br mr q0 D) (avx_block fuel bs ms br mr q0 m).
Proof.
  induction fuel as [|f IH]; intros bs ms br mr q0 D m H; cbn [avx_block avxD_block]; auto.
  destruct (Nat.eqb bs ms); auto. apply IH. apply avx_iter2_inv; auto.
Qed.
Lemma avx_ok m : ok m -> transposed m (avx_transpose128 m).
Proof.
  intros Hm. apply Inv_end.
  assert (K : InvO m avxD_all (avx_transpose128 m)).
  { unfold avxD_all, avx_transpose128. cbn zeta.
    apply (loop_rel (fun a D => InvO m D a)); [apply (loop_rel (fun a D => InvO m D a))|].
    - apply Inv_start; auto.
    - intros i a D _ H. apply avx_block_inv; auto.
    - intros i a D _ H. apply avx_block_inv; auto. }
  rewrite avxD_run in K. exact K.
Qed.

(** * SSE: 16 x 16 blocks *)
Definition Loaded (m : list Z) (x y : nat) (a : Z * Z) : Prop :=
  word (fst a) /\ word (snd a) /\ forall l b, l < 16 -> b < 8 ->
    tb (fst a) (8 * l + b) = bit m (16 * x + l) (16 * y + b) /\
    tb (snd a) (8 * l + b) = bit m (16 * x + l) (16 * y + 8 + b).
Definition Stored (m : list Z) (a : Z * Z) (x y : nat) (m' : list Z) : Prop :=
  ok m' /\ forall r c, r < 128 -> c < 128 ->
    bit m' r c = if (r / 16 =? x) && (c / 16 =? y)
                 then tb (if r mod 16 <? 8 then fst a else snd a) (8 * (c mod 16) + (r mod 16) mod 8)
                 else bit m r c.
Lemma divmod16 r : r = 16 * (r / 16) + r mod 16 /\ r mod 16 < 16.
Proof. split; [apply Nat.div_mod; lia|apply Nat.mod_upper_bound; lia]. Qed.
Lemma load_store m m1 a x y m2 : Loaded m y x a -> Stored m1 a x y m2 -> forall r c, r < 128 -> c < 128 ->
  bit m2 r c = if (r / 16 =? x) && (c / 16 =? y) then bit m c r else bit m1 r c.
Proof.
  intros (_ & _ & HL) (_ & HS) r c Hr Hc. rewrite HS by auto.
  destruct (Nat.eqb_spec (r / 16) x) as [Ex|]; cbn [andb]; auto. destruct (Nat.eqb_spec (c / 16) y) as [Ey|]; auto.
  destruct (divmod16 r) as [Dr Mr], (divmod16 c) as [Dc Mc].
  destruct (Nat.ltb_spec (r mod 16) 8) as [Hlt|Hge].
  - rewrite (Nat.mod_small (r mod 16)) by auto. rewrite (proj1 (HL _ _ Mc Hlt)). f_equal; lia.
  - assert (E : (r mod 16) mod 8 = r mod 16 - 8).
    { replace (r mod 16) with (r mod 16 - 8 + 1 * 8) at 1 by lia. rewrite Nat.mod_add by lia. apply Nat.mod_small. lia. }
    rewrite E. rewrite (proj2 (HL (c mod 16) (r mod 16 - 8) Mc ltac:(lia))). f_equal; lia.
Qed.

Section Sse.
  Context {S : Type} (view : S -> list Z) (good : S -> Prop) (load : S -> nat -> nat -> Z * Z) (store : S -> Z * Z -> nat -> nat -> S).
  Hypothesis Hok : forall s, good s -> ok (view s).
  Hypothesis Hload : forall s x y, good s -> x < 8 -> y < 8 -> Loaded (view s) x y (load s x y).
  Hypothesis Hstore : forall s a x y, good s -> x < 8 -> y < 8 -> word (fst a) -> word (snd a) ->
    good (store s a x y) /\ Stored (view s) a x y (view (store s a x y)).
  Lemma sse_generic s0 : good s0 ->
    let s' := loop 8 (fun j m =>
      let m := store m (load m j j) j j in
      loop j (fun k m =>
        let a := load m k j in
        let b := load m j k in
        store (store m a j k) b k j) m) s0 in
    good s' /\ transposed (view s0) (view s').
  Proof.
    intros Hg. cbn zeta.
    pose (P := fun j s => good s /\ forall r c, r < 128 -> c < 128 ->
       bit (view s) r c = if (r / 16 <? j) && (c / 16 <? j) then bit (view s0) c r else bit (view s0) r c).
    assert (K : P 8 (loop 8 (fun j m =>
      let m := store m (load m j j) j j in
      loop j (fun k m =>
        let a := load m k j in
        let b := load m j k in
        store (store m a j k) b k j) m) s0)).
    { apply loop_inv; [split; auto|]. intros j s Hj [Gs Bs]. cbn zeta.
      pose (Q := fun k s => good s /\ forall r c, r < 128 -> c < 128 ->
        bit (view s) r c = if ((r / 16 <? j) && (c / 16 <? j)) || ((r / 16 =? j) && (c / 16 =? j)) ||
           ((r / 16 =? j) && (c / 16 <? k)) || ((c / 16 =? j) && (r / 16 <? k)) then bit (view s0) c r else bit (view s0) r c).
      assert (KQ : Q j (loop j (fun k m => store (store m (load m k j) j k) (load m j k) k j) (store s (load s j j) j j))).
      { apply loop_inv.
        - destruct (Hload s j j Gs Hj Hj) as (L1 & L2 & L3).
          destruct (Hstore s (load s j j) j j Gs Hj Hj L1 L2) as [G1 S1]. split; auto. intros r c Hr Hc.
          rewrite (load_store (view s) (view s) _ j j _ (conj L1 (conj L2 L3)) S1) by auto.
          assert (N0 : forall a, (a <? 0) = false) by (intros; apply Nat.ltb_ge; lia). rewrite !N0, !andb_false_r, !orb_false_r.
          rewrite !Bs by auto.
          destruct (Nat.eqb_spec (r / 16) j) as [->|], (Nat.eqb_spec (c / 16) j) as [->|]; cbn [andb]; rewrite ?orb_false_r, ?orb_true_r; auto.
          rewrite Nat.ltb_irrefl. reflexivity.
        - intros k t Hk [Gt Bt]. assert (Hk8 : k < 8) by lia.
          destruct (Hload t k j Gt Hk8 Hj) as (L1 & L2 & L3). destruct (Hload t j k Gt Hj Hk8) as (M1 & M2 & M3).
          destruct (Hstore t (load t k j) j k Gt Hj Hk8 L1 L2) as [G1 S1].
          destruct (Hstore _ (load t j k) k j G1 Hk8 Hj M1 M2) as [G2 S2]. split; auto. intros r c Hr Hc.
          rewrite (load_store (view t) _ _ k j _ (conj M1 (conj M2 M3)) S2) by auto.
          rewrite (load_store (view t) _ _ j k _ (conj L1 (conj L2 L3)) S1) by auto.
          rewrite !Bt by auto.
          clear - Hk. generalize (bit (view s0) c r) (bit (view s0) r c). generalize (r / 16) (c / 16). clear - Hk. intros X Y u v.
          destruct (Nat.eqb_spec X k), (Nat.eqb_spec X j); try lia; destruct (Nat.ltb_spec X j), (Nat.ltb_spec X k); try lia;
            destruct (Nat.ltb_spec X (Datatypes.S k)); try lia;
            (destruct (Nat.eqb_spec Y k), (Nat.eqb_spec Y j); try lia; destruct (Nat.ltb_spec Y j), (Nat.ltb_spec Y k); try lia;
              destruct (Nat.ltb_spec Y (Datatypes.S k)); try lia); cbn [andb orb]; auto. }
      destruct KQ as [GQ BQ]. split; auto. intros r c Hr Hc. rewrite BQ by auto.
      destruct (Nat.eqb_spec (c / 16) j), (Nat.eqb_spec (r / 16) j),
            (Nat.ltb_spec (r / 16) j), (Nat.ltb_spec (c / 16) j),
            (Nat.ltb_spec (c / 16) (Datatypes.S j)), (Nat.ltb_spec (r / 16) (Datatypes.S j)); cbn [andb orb]; auto; lia. }
    destruct K as [G B]. split; auto. split; auto. intros r c Hr Hc. rewrite B by auto.
    assert (r / 16 < 8) by (apply Nat.div_lt_upper_bound; lia). assert (c / 16 < 8) by (apply Nat.div_lt_upper_bound; lia).
    destruct (Nat.ltb_spec (r / 16) 8), (Nat.ltb_spec (c / 16) 8); auto; lia.
  Qed.
End Sse.

Lemma loop_pair {A B} n (f : nat -> A -> A) (g : nat -> B -> B) : forall a b,
  loop n (fun i s => (f i (fst s), g i (snd s))) (a, b) = (loop n f a, loop n g b).
Proof.
  intros a b. unfold loop. generalize (seq 0 n). intros l. revert a b. induction l as [|x l IH]; intros a b; cbn [fold_left]; auto.
Qed.
Lemma loop_ext {A} n (f g : nat -> A -> A) a : (forall i s, f i s = g i s) -> loop n f a = loop n g a.
Proof. intros H. apply (loop_rel eq); auto. intros i x y _ ->. auto. Qed.
Lemma tb_byte w k c : tb (byte_at w k) c = if c <? 8 then tb w (8 * k + c) else false.
Proof.
  unfold byte_at. rewrite tb_and, tb_shr. change 255%Z with (Z.ones 8). unfold tb at 2.
  destruct (Nat.ltb_spec c 8); [rewrite Z.ones_spec_low by lia; apply andb_true_r|rewrite Z.ones_spec_high by lia; apply andb_false_r].
Qed.
(** Sixteen bytes gathered from sixteen words. *)
Local Notation gather rowf k := (loop 16 (fun l acc => xor acc (shl (8 * l) (byte_at (rowf l) k))) zero).
Lemma gather_spec rowf k : (forall l, word (rowf l)) ->
  word (gather rowf k) /\ forall l b, l < 16 -> b < 8 -> tb (gather rowf k) (8 * l + b) = tb (rowf l) (8 * k + b).
Proof.
  intros HW. destruct (fields 8 (fun l => byte_at (rowf l) k) 16) as [F1 F2]; try lia.
  - intros l. unfold byte_at. auto with words.
  - intros l c Hc. rewrite tb_byte. destruct (Nat.ltb_spec c 8); [lia|auto].
  - split; auto. intros l b Hl Hb. rewrite F2 by lia.
    replace (8 * l + b) with (b + l * 8) by lia. rewrite Nat.div_add, Nat.mod_add by lia. rewrite Nat.div_small, Nat.mod_small by lia.
    cbn [Nat.add]. destruct (Nat.ltb_spec l 16); [|lia]. rewrite tb_byte. destruct (Nat.ltb_spec b 8); [auto|lia].
Qed.
Lemma gather_loaded m x y (rowf : nat -> Z) : (forall l, word (rowf l)) -> (forall l, l < 16 -> rowf l = get m (16 * x + l)) ->
  Loaded m x y (gather rowf (2 * y), gather rowf (2 * y + 1)).
Proof.
  intros HW HR. destruct (gather_spec rowf (2 * y) HW) as [A1 A2], (gather_spec rowf (2 * y + 1) HW) as [B1 B2].
  split; auto. split; auto. cbn [fst snd]. intros l b Hl Hb. rewrite A2, B2 by auto. unfold bit. rewrite HR by auto. split; f_equal; lia.
Qed.
Lemma sse_load_loaded m x y : ok m -> Loaded m x y (sse_load m x y).
Proof.
  intros Hm. unfold sse_load.
  rewrite (loop_pair 16 (fun l acc => xor acc (shl (8 * l) (byte_at (get m (16 * x + l)) (2 * y))))
     (fun l acc => xor acc (shl (8 * l) (byte_at (get m (16 * x + l)) (2 * y + 1))))).
  pose proof (gather_loaded m x y (fun l => get m (16 * x + l)) (fun l => ok_word m _ Hm) (fun l _ => eq_refl)) as G.
  exact G.
Qed.

Lemma movemask_spec b : word (movemask b) /\ forall c, c < 128 -> tb (movemask b) c = if c <? 16 then tb b (8 * c + 7) else false.
Proof.
  assert (E : movemask b = loop 16 (fun l acc => xor acc (shl (1 * l) (get_bit b (8 * l + 7)))) zero).
  { unfold movemask. apply loop_ext. intros i s. rewrite Nat.mul_1_l. reflexivity. }
  rewrite E. destruct (fields 1 (fun l => andm (Z.ones 128) (get_bit b (8 * l + 7))) 16) as [F1 F2]; try lia.
  - intros l. apply word_intro; [apply Z.land_nonneg; right; unfold Z.ones; cbn; lia|]. intros c Hc. rewrite tb_and. unfold tb at 2.
    rewrite Z.ones_spec_high by lia. apply andb_false_r.
  - intros l c Hc. rewrite tb_and, tb_get_bit. destruct (Nat.eqb_spec c 0); [lia|auto].
  - assert (E2 : loop 16 (fun l acc => xor acc (shl (1 * l) (get_bit b (8 * l + 7)))) zero
      = loop 16 (fun l acc => xor acc (shl (1 * l) (andm (Z.ones 128) (get_bit b (8 * l + 7))))) zero).
    { apply loop_ext. intros i s. f_equal. f_equal. apply Z.bits_inj'. intros n Hn. rewrite <- (Z2Nat.id n) by lia.
      fold (tb (get_bit b (8 * i + 7)) (Z.to_nat n)) (tb (andm (Z.ones 128) (get_bit b (8 * i + 7))) (Z.to_nat n)).
      rewrite tb_and, tb_get_bit. destruct (Nat.eqb_spec (Z.to_nat n) 0) as [->|]; [|reflexivity].
      unfold tb at 3. rewrite Z.ones_spec_low by lia. symmetry. apply andb_true_r. }
    rewrite E2. split; auto. intros c Hc. rewrite F2 by auto. rewrite Nat.div_1_r, Nat.mod_1_r.
    destruct (Nat.ltb_spec c 16); auto. rewrite tb_and, tb_get_bit. cbn [Nat.eqb]. unfold tb at 2. rewrite Z.ones_spec_low by lia. apply andb_true_r.
Qed.
Lemma set_u16_spec w y v : word w -> y < 8 -> (forall c, c < 128 -> 16 <= c -> tb v c = false) ->
  word (set_u16 w y v) /\ forall c, c < 128 -> tb (set_u16 w y v) c = if c / 16 =? y then tb v (c mod 16) else tb w c.
Proof.
  intros Hw Hy Hv. unfold set_u16. split; [auto with words|]. intros c Hc.
  rewrite tb_xor, tb_and, tb_shl by auto.
  assert (EM : tb (Z.lxor (2 ^ 128 - 1) (Z.shiftl 65535 (Z.of_nat (16 * y)))) c = negb (c / 16 =? y)).
  { unfold tb. rewrite Z.lxor_spec, Z.shiftl_spec by lia. change (2 ^ 128 - 1)%Z with (Z.ones 128). change 65535%Z with (Z.ones 16).
    rewrite Z.ones_spec_low by lia. rewrite xorb_true_l. f_equal. destruct (divmod16 c) as [Dc Mc].
    destruct (Nat.eqb_spec (c / 16) y).
    - apply Z.ones_spec_low. lia.
    - destruct (Nat.lt_ge_cases c (16 * y)); [apply Z.testbit_neg_r; lia|]. apply Z.ones_spec_high. lia. }
  rewrite EM. destruct (divmod16 c) as [Dc Mc]. destruct (Nat.eqb_spec (c / 16) y) as [E|E]; cbn [negb].
  - rewrite andb_false_r, xorb_false_l. destruct (Nat.ltb_spec c (16 * y)); [lia|]. f_equal. lia.
  - rewrite andb_true_r. destruct (Nat.ltb_spec c (16 * y)); [apply xorb_false_r|]. rewrite Hv by lia. apply xorb_false_r.
Qed.
(** One row of the block is written. *)
Lemma set_movemask w y b : word w -> y < 8 ->
  word (set_u16 w y (movemask b)) /\
  forall c, c < 128 -> tb (set_u16 w y (movemask b)) c = if c / 16 =? y then tb b (8 * (c mod 16) + 7) else tb w c.
Proof.
  intros Hw Hy. destruct (movemask_spec b) as [M1 M2]. destruct (set_u16_spec w y (movemask b) Hw Hy) as [A B].
  - intros c Hc H16. rewrite M2 by auto. destruct (Nat.ltb_spec c 16); [lia|auto].
  - split; auto. intros c Hc. rewrite B by auto. destruct (Nat.eqb_spec (c / 16) y); auto. destruct (divmod16 c) as [_ Mc].
    rewrite M2 by lia. destruct (Nat.ltb_spec (c mod 16) 16); [auto|lia].
Qed.

Lemma sse_store_stored m a x y : ok m -> x < 8 -> y < 8 -> Stored m a x y (sse_store m a x y).
Proof.
  intros Hm Hx Hy. unfold sse_store.
  pose (P := fun j (s : (Z * Z) * list Z) =>
    (forall l b, l < 16 -> b < 8 -> j <= b -> tb (fst (fst s)) (8 * l + b) = tb (fst a) (8 * l + b - j) /\
                                              tb (snd (fst s)) (8 * l + b) = tb (snd a) (8 * l + b - j)) /\
    ok (snd s) /\
    forall r c, r < 128 -> c < 128 ->
      bit (snd s) r c = if (r / 16 =? x) && (c / 16 =? y) && (8 <=? (r mod 16) mod 8 + j)
                   then tb (if r mod 16 <? 8 then fst a else snd a) (8 * (c mod 16) + (r mod 16) mod 8) else bit m r c).
  match goal with |- Stored _ _ _ _ (snd (loop 8 ?f ?s0)) => assert (K : P 8 (loop 8 f s0)) end.
  { apply loop_inv.
    - unfold P. cbn [fst snd]. split; [intros; rewrite Nat.sub_0_r; auto|]. split; auto. intros r c Hr Hc.
      rewrite Nat.add_0_r. pose proof (Nat.mod_upper_bound (r mod 16) 8 ltac:(lia)).
      destruct (Nat.leb_spec 8 ((r mod 16) mod 8)); [lia|]. rewrite andb_false_r. reflexivity.
    - intros j [[a0 a1] t] Hj (HA & HO & HB). cbn [fst snd] in *. unfold P. cbn [fst snd]. split; [|].
      + intros l b Hl Hb Hjb. rewrite !tb_slli by lia. destruct (Nat.ltb_spec (8 * l + b) 1); [lia|].
        assert (E : 1 <= (8 * l + b) mod 64).
        { replace (8 * l + b) with ((8 * (l mod 8) + b) + (l / 8) * 64) by (pose proof (Nat.div_mod l 8 ltac:(lia)); lia).
          rewrite Nat.mod_add by lia. rewrite Nat.mod_small; [lia|]. pose proof (Nat.mod_upper_bound l 8 ltac:(lia)). lia. }
        destruct (Nat.leb_spec 1 ((8 * l + b) mod 64)); [|lia]. rewrite !andb_true_r.
        replace (8 * l + b - 1) with (8 * l + (b - 1)) by lia.
        destruct (HA l (b - 1) Hl ltac:(lia) ltac:(lia)) as [-> ->]. split; f_equal; lia.
      + assert (Ht : length t = 128) by apply HO.
        pose proof (set_movemask (get t (16 * x + 7 - j)) y a0 ltac:(auto with words) Hy) as [W0 B0].
        set (t1 := upd t (16 * x + 7 - j) (set_u16 (get t (16 * x + 7 - j)) y (movemask a0))).
        assert (O1 : ok t1) by (unfold t1; auto with words).
        pose proof (set_movemask (get t1 (16 * x + 15 - j)) y a1 ltac:(auto with words) Hy) as [W1 B1].
        split; [auto with words|]. intros r c Hr Hc. unfold bit at 1.
        rewrite get_upd by (unfold t1; rewrite upd_len; lia).
        assert (G1 : get t1 (16 * x + 15 - j) = get t (16 * x + 15 - j)).
        { unfold t1. rewrite get_upd by lia. destruct (Nat.eqb_spec (16 * x + 15 - j) (16 * x + 7 - j)); [lia|auto]. }
        rewrite G1 in B1.
        destruct (divmod16 r) as [Dr Mr], (divmod16 c) as [Dc Mc].
        destruct (Nat.eqb_spec r (16 * x + 15 - j)) as [E1|N1].
        * rewrite G1. rewrite B1 by auto. fold (bit t (16 * x + 15 - j) c). rewrite <- E1.
          assert (Er : r / 16 = x) by (rewrite E1; replace (16 * x + 15 - j) with (15 - j + x * 16) by lia; rewrite Nat.div_add by lia; rewrite Nat.div_small; lia).
          assert (Em : r mod 16 = 15 - j) by lia. rewrite Er, Em, Nat.eqb_refl. cbn [andb].
          assert (Em8 : (15 - j) mod 8 = 7 - j) by (replace (15 - j) with (7 - j + 1 * 8) by lia; rewrite Nat.mod_add by lia; apply Nat.mod_small; lia).
          rewrite Em8. rewrite HB by auto. rewrite Er, Em, Em8.
          destruct (Nat.leb_spec 8 (7 - j + S j)); [|lia]. destruct (Nat.leb_spec 8 (7 - j + j)); [lia|].
          destruct (Nat.ltb_spec (15 - j) 8); [lia|].
          destruct (Nat.eqb_spec (c / 16) y); cbn [andb]; rewrite ?andb_false_r; auto.
          rewrite (proj2 (HA (c mod 16) 7 Mc ltac:(lia) ltac:(lia))). f_equal. lia.
        * unfold t1. rewrite get_upd by lia. destruct (Nat.eqb_spec r (16 * x + 7 - j)) as [E0|N0].
          -- rewrite B0 by auto. fold (bit t (16 * x + 7 - j) c). rewrite <- E0.
             assert (Er : r / 16 = x) by (rewrite E0; replace (16 * x + 7 - j) with (7 - j + x * 16) by lia; rewrite Nat.div_add by lia; rewrite Nat.div_small; lia).
             assert (Em : r mod 16 = 7 - j) by lia. rewrite Er, Em, Nat.eqb_refl. cbn [andb].
             assert (Em8 : (7 - j) mod 8 = 7 - j) by (apply Nat.mod_small; lia).
             rewrite Em8. rewrite HB by auto. rewrite Er, Em, Em8.
             destruct (Nat.leb_spec 8 (7 - j + S j)); [|lia]. destruct (Nat.leb_spec 8 (7 - j + j)); [lia|].
             destruct (Nat.ltb_spec (7 - j) 8); [|lia].
             destruct (Nat.eqb_spec (c / 16) y); cbn [andb]; rewrite ?andb_false_r; auto.
             rewrite (proj1 (HA (c mod 16) 7 Mc ltac:(lia) ltac:(lia))). f_equal. lia.
          -- fold (bit t r c). rewrite HB by auto.
             destruct (Nat.eqb_spec (r / 16) x) as [Er|]; cbn [andb]; auto. destruct (Nat.eqb_spec (c / 16) y); cbn [andb]; auto.
             assert (E8 : (r mod 16) mod 8 = r mod 16 \/ (r mod 16) mod 8 = r mod 16 - 8 /\ 8 <= r mod 16).
             { destruct (Nat.lt_ge_cases (r mod 16) 8) as [Hlt|Hge]; [left; apply Nat.mod_small; auto|]. right. split; auto.
               replace (r mod 16) with (r mod 16 - 8 + 1 * 8) at 1 by lia. rewrite Nat.mod_add by lia. apply Nat.mod_small. lia. }
             pose proof (Nat.mod_upper_bound (r mod 16) 8 ltac:(lia)).
             destruct (Nat.leb_spec 8 ((r mod 16) mod 8 + j)), (Nat.leb_spec 8 ((r mod 16) mod 8 + S j)); auto; lia. }
  destruct K as (_ & HO & HB). split; auto. intros r c Hr Hc. rewrite HB by auto.
  destruct (Nat.leb_spec 8 ((r mod 16) mod 8 + 8)); [|lia]. rewrite andb_true_r. reflexivity.
Qed.
Lemma sse_ok m : ok m -> transposed m (sse_transpose128 m).
Proof.
  intros Hm. pose proof (sse_generic (fun m => m) ok sse_load sse_store) as K. apply K; auto.
  - intros. apply sse_load_loaded; auto.
  - intros s a x y Hs Hx Hy _ _. pose proof (sse_store_stored s a x y Hs Hx Hy) as H. split; auto. apply H.
Qed.

(** * The 128 x 1024 versions *)
Definition shape (m : list (list Z)) : Prop := length m = 128 /\ Forall (fun row => length row = 8 /\ Forall word row) m.
Lemma nth_map_seq {B} (f : nat -> B) n k d : k < n -> nth k (map f (seq 0 n)) d = f k.
Proof. intros H. rewrite (nth_indep _ d (f 0)) by (rewrite map_length, seq_length; auto). rewrite map_nth, seq_nth by auto. auto. Qed.
Lemma get_column m i r : r < 128 -> get (column m i) r = get2 m r i.
Proof. intros H. unfold get, column. rewrite nth_map_seq by auto. reflexivity. Qed.
Lemma shape_word m r i : shape m -> word (get2 m r i).
Proof.
  intros [Hl Hw]. unfold get2. destruct (Nat.lt_ge_cases r (length m)).
  - rewrite Forall_forall in Hw. destruct (Hw (nth r m []) (nth_In m [] H)) as [L8 W8].
    destruct (Nat.lt_ge_cases i (length (nth r m []))).
    + rewrite Forall_forall in W8. apply W8. apply nth_In; auto.
    + rewrite nth_overflow by auto. apply word_zero.
  - rewrite nth_overflow with (l := m) by auto. destruct i; apply word_zero.
Qed.
Lemma column_ok m i : shape m -> ok (column m i).
Proof.
  intros H. split; [unfold column; rewrite map_length, seq_length; auto|]. apply Forall_forall. intros w Hw.
  unfold column in Hw. apply in_map_iff in Hw as (j & <- & _). apply shape_word; auto.
Qed.
Lemma shape_set2 m r i w : shape m -> word w -> shape (set2 m r i w).
Proof.
  intros [Hl Hw] Hword. unfold set2. split; [rewrite upd_len; auto|].
  destruct (Nat.lt_ge_cases r (length m)) as [Hr|Hr]; [|rewrite upd_out by auto; auto].
  apply Forall_forall. intros row Hin. apply (In_nth _ _ []) in Hin as (k & Hk & <-). rewrite upd_len in Hk.
  rewrite Forall_forall in Hw. rewrite nth_upd by auto. destruct (Nat.eqb_spec k r).
  - destruct (Hw _ (nth_In m [] Hr)) as [L8 W8]. split; [rewrite upd_len; auto|]. clear - W8 Hword. revert i.
    induction W8; intros [|i]; cbn; constructor; auto.
  - apply Hw. apply nth_In. auto.
Qed.
Lemma get2_set2 m r i w r' i' : shape m -> r < 128 -> i < 8 -> get2 (set2 m r i w) r' i' = if (r' =? r) && (i' =? i) then w else get2 m r' i'.
Proof.
  intros [Hl Hw] Hr Hi. unfold get2, set2. rewrite nth_upd by lia. destruct (Nat.eqb_spec r' r) as [->|]; cbn [andb]; auto.
  rewrite nth_upd; auto. rewrite Forall_forall in Hw. destruct (Hw (nth r m []) (nth_In m [] (eq_ind_r (fun z => r < z) Hr Hl))) as [L8 _]. lia.
Qed.
Lemma column_set2 m r i w : shape m -> r < 128 -> i < 8 -> column (set2 m r i w) i = upd (column m i) r w.
Proof.
  intros H Hr Hi. apply list_ext128; [unfold column; rewrite ?upd_len, map_length, seq_length; auto..|]. intros t Ht.
  rewrite get_upd by (unfold column; rewrite map_length, seq_length; auto). rewrite !get_column, get2_set2 by auto.
  rewrite Nat.eqb_refl, andb_true_r. reflexivity.
Qed.
Lemma column_set2_other m r i w i' : shape m -> r < 128 -> i < 8 -> i' <> i -> column (set2 m r i w) i' = column m i'.
Proof.
  intros H Hr Hi N. apply list_ext128; [unfold column; rewrite ?upd_len, map_length, seq_length; auto..|]. intros t Ht.
  rewrite !get_column, get2_set2 by auto. destruct (Nat.eqb_spec i' i); [lia|]. rewrite andb_false_r. reflexivity.
Qed.
(** [m'] differs from [m] in column [i] only. *)
Definition only (i : nat) (m m' : list (list Z)) : Prop := shape m' /\ forall i', i' <> i -> column m' i' = column m i'.
Lemma set_column_ok m i sub : shape m -> i < 8 -> ok sub -> only i m (set_column m i sub) /\ column (set_column m i sub) i = sub.
Proof.
  intros Hm Hi Hs. unfold set_column.
  pose proof (loop_inv (fun n t => only i m t /\ forall r, r < n -> get2 t r i = get sub r) 128 (fun j m => set2 m j i (get sub j)) m) as K.
  destruct K as [K1 K2].
  - split; [split; auto|]. intros; lia.
  - intros j t Hj [[A B] C]. split; [split|].
    + apply shape_set2; auto with words.
    + intros i' Hn. rewrite column_set2_other by auto. auto.
    + intros r Hr. rewrite get2_set2 by auto. rewrite Nat.eqb_refl, andb_true_r. destruct (Nat.eqb_spec r j) as [->|]; auto. apply C. lia.
  - split; auto. apply list_ext128; [unfold column; rewrite map_length, seq_length; auto|apply Hs|]. intros r Hr. rewrite get_column by auto. auto.
Qed.
Definition transposed_x (m m' : list (list Z)) : Prop :=
  shape m' /\ forall r i c, r < 128 -> i < 8 -> c < 128 ->
    Z.testbit (nth i (nth r m' []) 0%Z) (Z.of_nat c) = Z.testbit (nth i (nth c m []) 0%Z) (Z.of_nat r).
(** Transposing the columns one after the other. *)
Lemma by_columns m (f : nat -> list (list Z) -> list (list Z)) : shape m ->
  (forall i t, i < 8 -> shape t -> only i t (f i t) /\ transposed (column t i) (column (f i t) i)) ->
  transposed_x m (loop 8 f m).
Proof.
  intros Hm Hf.
  pose proof (loop_inv (fun n t => shape t /\ forall i, i < 8 -> if i <? n then transposed (column m i) (column t i) else column t i = column m i) 8 f m) as K.
  destruct K as [K1 K2].
  - split; auto. intros i _. destruct (Nat.ltb_spec i 0); [lia|auto].
  - intros n t Hn [A B]. destruct (Hf n t Hn A) as [[C1 C2] D]. split; auto. intros i Hi. specialize (B i Hi).
    destruct (Nat.ltb_spec i n) as [L|L].
    + destruct (Nat.ltb_spec i (S n)); [|lia]. rewrite C2 by lia. auto.
    + destruct (Nat.ltb_spec i (S n)).
      * assert (i = n) by lia. subst i. rewrite B in D. exact D.
      * rewrite C2 by lia. auto.
  - split; auto. intros r i c Hr Hi Hc. specialize (K2 i Hi). destruct (Nat.ltb_spec i 8); [|lia]. destruct K2 as [_ E].
    specialize (E r c Hr Hc). unfold bit in E. rewrite !get_column in E by auto. exact E.
Qed.
Lemma eklundh_x_ok m : shape m -> transposed_x m (eklundh_transpose128x1024 m).
Proof.
  intros Hm. apply by_columns; auto. intros i t Hi Ht. pose proof (eklundh_ok _ (column_ok t i Ht)) as T.
  destruct (set_column_ok t i (eklundh_transpose128 (column t i)) Ht Hi (proj1 T)) as [A B]. split; auto. rewrite B. exact T.
Qed.
Lemma sse_load_x_loaded m x y i : shape m -> x < 8 -> Loaded (column m i) x y (sse_load_x m x y i).
Proof.
  intros Hm Hx. unfold sse_load_x.
  rewrite (loop_pair 16 (fun l acc => xor acc (shl (8 * l) (byte_at (get2 m (x * 16 + l) i) (2 * y))))
     (fun l acc => xor acc (shl (8 * l) (byte_at (get2 m (x * 16 + l) i) (2 * y + 1))))).
  pose proof (gather_loaded (column m i) x y (fun l => get2 m (x * 16 + l) i)) as G. apply G.
  - intros l. apply shape_word; auto.
  - intros l Hl. rewrite get_column by lia. f_equal. lia.
Qed.
(** Eight rows of the block, from [w], at rows 16x + base + 7 - n. *)
Lemma half_store m w x y i base : shape m -> x < 8 -> y < 8 -> i < 8 -> base = 0 \/ base = 8 ->
  let m' := loop 8 (fun n m => let r := x * 16 + (base + 7) - n in
                      set2 m r i (set_u16 (get2 m r i) y (movemask (slli 64 n w)))) m in
  only i m m' /\ forall r c, r < 128 -> c < 128 ->
    bit (column m' i) r c = if (r / 16 =? x) && (c / 16 =? y) && (base <=? r mod 16) && (r mod 16 <? base + 8)
                 then tb w (8 * (c mod 16) + (r mod 16) mod 8) else bit (column m i) r c.
Proof.
  intros Hm Hx Hy Hi Hbase. cbn zeta.
  pose (P := fun n m' => only i m m' /\ forall r c, r < 128 -> c < 128 ->
    bit (column m' i) r c = if (r / 16 =? x) && (c / 16 =? y) && (base + 8 - n <=? r mod 16) && (r mod 16 <? base + 8)
                 then tb w (8 * (c mod 16) + (r mod 16) mod 8) else bit (column m i) r c).
  match goal with |- only _ _ (loop 8 ?f m) /\ _ => assert (K : P 8 (loop 8 f m)) end.
  { apply loop_inv.
    - split; [split; auto|]. intros r c Hr Hc. destruct (Nat.leb_spec (base + 8 - 0) (r mod 16)), (Nat.ltb_spec (r mod 16) (base + 8)); try lia;
        rewrite ?andb_false_r; reflexivity.
    - intros n t Hn [[A B] C]. cbn zeta. set (r0 := x * 16 + (base + 7) - n).
      assert (Hr0 : r0 < 128) by (unfold r0; lia).
      destruct (set_movemask (get2 t r0 i) y (slli 64 n w) (shape_word _ _ _ A) Hy) as [W0 B0].
      split; [split; [apply shape_set2; auto|intros i' Hn'; rewrite column_set2_other by auto; auto]|].
      intros r c Hr Hc. rewrite column_set2 by auto. unfold bit at 1. rewrite get_upd by (unfold column; rewrite map_length, seq_length; auto).
      destruct (divmod16 r) as [Dr Mr], (divmod16 c) as [Dc Mc].
      destruct (Nat.eqb_spec r r0) as [E0|N0].
      + rewrite B0 by auto. rewrite <- get_column by auto. fold (bit (column t i) r0 c). rewrite <- E0.
        assert (Er : r / 16 = x) by (rewrite E0; unfold r0; replace (x * 16 + (base + 7) - n) with (base + 7 - n + x * 16) by lia; rewrite Nat.div_add by lia; rewrite Nat.div_small; lia).
        assert (Em : r mod 16 = base + 7 - n) by (unfold r0 in E0; lia).
        assert (Em8 : (base + 7 - n) mod 8 = 7 - n).
        { destruct Hbase as [->| ->]; [apply Nat.mod_small; lia|]. replace (8 + 7 - n) with (7 - n + 1 * 8) by lia. rewrite Nat.mod_add by lia. apply Nat.mod_small. lia. }
        rewrite C by auto. rewrite Er, Em, Em8, Nat.eqb_refl. cbn [andb].
        destruct (Nat.leb_spec (base + 8 - S n) (base + 7 - n)); [|lia]. destruct (Nat.leb_spec (base + 8 - n) (base + 7 - n)); [lia|].
        destruct (Nat.ltb_spec (base + 7 - n) (base + 8)); [|lia]. rewrite !andb_true_r, !andb_false_r.
        destruct (Nat.eqb_spec (c / 16) y); cbn [andb]; auto. rewrite tb_slli by lia.
        destruct (Nat.ltb_spec (8 * (c mod 16) + 7) n); [lia|].
        assert (E : n <= (8 * (c mod 16) + 7) mod 64).
        { set (l := c mod 16) in *. replace (8 * l + 7) with ((8 * (l mod 8) + 7) + (l / 8) * 64) by (pose proof (Nat.div_mod l 8 ltac:(lia)); lia).
          rewrite Nat.mod_add by lia. rewrite Nat.mod_small; [lia|]. pose proof (Nat.mod_upper_bound l 8 ltac:(lia)). lia. }
        destruct (Nat.leb_spec n ((8 * (c mod 16) + 7) mod 64)); [|lia]. rewrite andb_true_r. f_equal. lia.
      + fold (bit (column t i) r c). rewrite C by auto.
        destruct (Nat.eqb_spec (r / 16) x) as [Er|]; cbn [andb]; auto. destruct (Nat.eqb_spec (c / 16) y); cbn [andb]; auto.
        assert (r mod 16 <> base + 7 - n) by (intros E; apply N0; unfold r0; lia).
        destruct (Nat.leb_spec (base + 8 - n) (r mod 16)), (Nat.leb_spec (base + 8 - S n) (r mod 16)), (Nat.ltb_spec (r mod 16) (base + 8)); cbn [andb]; auto; lia. }
  destruct K as [K1 K2]. split; auto. intros r c Hr Hc. rewrite K2 by auto. replace (base + 8 - 8) with base by lia. reflexivity.
Qed.
Lemma sse_store_x_stored m a x y i : shape m -> x < 8 -> y < 8 -> i < 8 ->
  only i m (sse_store_x m a x y i) /\ Stored (column m i) a x y (column (sse_store_x m a x y i) i).
Proof.
  intros Hm Hx Hy Hi. unfold sse_store_x. cbn zeta.
  destruct (half_store m (fst a) x y i 0 Hm Hx Hy Hi ltac:(lia)) as [[A1 A2] A3]. cbn zeta in A1, A2, A3. cbn [Nat.add] in A1, A2, A3.
  set (m1 := loop 8 _ m) in *.
  destruct (half_store m1 (snd a) x y i 8 A1 Hx Hy Hi ltac:(lia)) as [[B1 B2] B3]. cbn zeta in B1, B2, B3. cbn [Nat.add] in B1, B2, B3.
  set (m2 := loop 8 _ m1) in *. split.
  - split; auto. intros i' Hn. rewrite B2, A2 by auto. reflexivity.
  - split; [apply column_ok; auto|]. intros r c Hr Hc. rewrite B3, A3 by auto. destruct (divmod16 r) as [Dr Mr].
    destruct (Nat.eqb_spec (r / 16) x), (Nat.eqb_spec (c / 16) y); cbn [andb]; auto.
    destruct (Nat.ltb_spec (r mod 16) 8), (Nat.leb_spec 8 (r mod 16)), (Nat.ltb_spec (r mod 16) 16); cbn [andb]; try lia; rewrite ?andb_true_r, ?andb_false_r; auto; try lia.
Qed.
Lemma sse_x_ok m : shape m -> transposed_x m (sse_transpose128x1024 m).
Proof.
  intros Hm. apply by_columns; auto. intros i t Hi Ht.
  pose proof (sse_generic (fun m => column m i) (only i t) (fun m x y => sse_load_x m x y i) (fun m a x y => sse_store_x m a x y i)) as K.
  apply K; clear K.
  - intros s [A B]. apply column_ok; auto.
  - intros s x y [A B] Hx Hy. apply sse_load_x_loaded; auto.
  - intros s a x y [A B] Hx Hy _ _. destruct (sse_store_x_stored s a x y i A Hx Hy Hi) as [[C1 C2] D]. split; auto. split; auto.
    intros i' Hn. rewrite C2, B by auto. reflexivity.
  - split; auto.
Qed.

Lemma transposed_unique m a b : transposed m a -> transposed m b -> a = b.
Proof.
  intros [[A1 A2] A3] [[B1 B2] B3]. apply list_ext128; auto. intros r Hr. apply word_ext.
  - apply ok_word; split; auto.
  - apply ok_word; split; auto.
  - intros c Hc. fold (bit a r c) (bit b r c). rewrite A3, B3 by auto. reflexivity.
Qed.
Lemma transposed_involutive m a b : ok m -> transposed m a -> transposed a b -> b = m.
Proof.
  intros Hm [A1 A2] [B1 B2]. apply list_ext128; [apply B1|apply Hm|]. intros r Hr. apply word_ext.
  - apply ok_word; auto.
  - apply ok_word; auto.
  - intros c Hc. fold (bit b r c) (bit m r c). rewrite B2, A2 by auto. reflexivity.
Qed.
