(** C79: a bitset behaves as the list of its bits. *)
From Coq Require Import ZArith NArith List Bool Arith Lia.
From Verif Require Import LinCodeModel BitsetModel BitsetProof BitsetProof2 BitsetProof3.
Import ListNotations.
Open Scope nat_scope.

(** ** The specification: lists of bits, least significant first *)
Definition bits_of (v : N) (n : nat) : list bool := map (fun i => N.testbit v (N.of_nat i)) (seq 0 n).
Definition change_range (g : bool -> bool) (l : list bool) (p len : nat) : list bool :=
  firstn p l ++ map g (firstn len (skipn p l)) ++ skipn (p + len) l.
Definition zip (g : bool -> bool -> bool) (l l' : list bool) : list bool := map (fun p => g (fst p) (snd p)) (combine l l').
Fixpoint number (l : list bool) : N := match l with [] => 0%N | b :: l' => ((if b then 1 else 0) + 2 * number l')%N end.

Section Char.
Context {char : Type}.
Variable eqc : char -> char -> bool.
Variables zero one : char.
(** Everything a program can do to build bitsets. *)
Inductive hist : Type :=
| HEmpty
| HValue (n : nat) (v : N)
| HString (str : list char) (pos n : nat)
| HResize (h : hist) (n : nat) (v : bool)
| HClear (h : hist)
| HPush (h : hist) (v : bool)
| HPop (h : hist)
| HAppendBlock (h : hist) (b : N)
| HAppendBlocks (h : hist) (l : list N)
| HAppend (h h' : hist)
| HAppendSelf (h : hist)
| HAnd (h h' : hist)
| HOr (h h' : hist)
| HXor (h h' : hist)
| HSub (h h' : hist)
| HShl (h : hist) (k : nat)
| HShr (h : hist) (k : nat)
| HSetRange (h : hist) (p len : nat) (v : bool)
| HSet (h : hist) (p : nat) (v : bool)
| HSetAll (h : hist)
| HResetAll (h : hist)
| HFlipRange (h : hist) (p len : nat)
| HFlip (h : hist) (p : nat)
| HFlipAll (h : hist)
| HTestSet (h : hist) (p : nat) (v : bool).

Section Width.
Variable B : nat.
Fixpoint eval (h : hist) : outcome bitset :=
  let two f h h' := bind (eval h) (fun s => bind (eval h') (fun t => f s t)) in
  match h with
  | HEmpty => Val empty_set
  | HValue n v => of_value B n v
  | HString str pos n => of_string B eqc one str pos n
  | HResize h n v => bind (eval h) (fun s => resize B s n v)
  | HClear h => bind (eval h) (fun s => Val (clear s))
  | HPush h v => bind (eval h) (fun s => push_back B s v)
  | HPop h => bind (eval h) (pop_back B)
  | HAppendBlock h b => bind (eval h) (fun s => append_block B s b)
  | HAppendBlocks h l => bind (eval h) (fun s => append_blocks B s l)
  | HAppend h h' => two (append B) h h'
  | HAppendSelf h => bind (eval h) (append_self B)
  | HAnd h h' => two and_eq h h'
  | HOr h h' => two or_eq h h'
  | HXor h h' => two xor_eq h h'
  | HSub h h' => two (sub_eq B) h h'
  | HShl h k => bind (eval h) (fun s => left_shift B s k)
  | HShr h k => bind (eval h) (fun s => right_shift B s k)
  | HSetRange h p len v => bind (eval h) (fun s => set_range B s p len v)
  | HSet h p v => bind (eval h) (fun s => set_bit B s p v)
  | HSetAll h => bind (eval h) (set_all B)
  | HResetAll h => bind (eval h) (fun s => Val (reset_all s))
  | HFlipRange h p len => bind (eval h) (fun s => flip_range B s p len)
  | HFlip h p => bind (eval h) (fun s => flip_bit B s p)
  | HFlipAll h => bind (eval h) (flip_all B)
  | HTestSet h p v => bind (eval h) (fun s => bind (test_set B s p v) (fun r => Val (fst r)))
  end.

(** What the same history does to lists; None outside the contract of the header: positions and ranges
    inside the bitset, operands of the same size, blocks of the block's width. *)
Definition guard {A} (b : bool) (x : A) : option A := if b then Some x else None.
Definition obind {A C} (x : option A) (f : A -> option C) : option C := match x with Some a => f a | None => None end.
Fixpoint spec (h : hist) : option (list bool) :=
  let same g h h' := obind (spec h) (fun l => obind (spec h') (fun l' => guard (length l =? length l') (zip g l l'))) in
  match h with
  | HEmpty => Some []
  | HValue n v => guard (v <? 2 ^ 128)%N (bits_of v n)
  | HString str pos n => guard (pos <? length str) (rev (map (fun c => eqc c one) (firstn n (skipn pos str))))
  | HResize h n v => obind (spec h) (fun l => Some (firstn n l ++ repeat v (n - length l)))
  | HClear h => obind (spec h) (fun _ => Some [])
  | HPush h v => obind (spec h) (fun l => Some (l ++ [v]))
  | HPop h => obind (spec h) (fun l => Some (removelast l))
  | HAppendBlock h b => obind (spec h) (fun l => guard (b <? 2 ^ N.of_nat B)%N (l ++ bits_of b B))
  | HAppendBlocks h bs => obind (spec h) (fun l => guard (forallb (fun b => b <? 2 ^ N.of_nat B)%N bs) (l ++ flat_map (fun b => bits_of b B) bs))
  | HAppend h h' => obind (spec h) (fun l => obind (spec h') (fun l' => Some (l ++ l')))
  | HAppendSelf h => obind (spec h) (fun l => Some (l ++ l))
  | HAnd h h' => same andb h h'
  | HOr h h' => same orb h h'
  | HXor h h' => same xorb h h'
  | HSub h h' => same (fun a b => a && negb b) h h'
  | HShl h k => obind (spec h) (fun l => Some (firstn (length l) (repeat false k ++ l)))
  | HShr h k => obind (spec h) (fun l => Some (skipn k l ++ repeat false (Nat.min k (length l))))
  | HSetRange h p len v => obind (spec h) (fun l => guard (p + len <=? length l) (change_range (fun _ => v) l p len))
  | HSet h p v => obind (spec h) (fun l => guard (p <? length l) (change_range (fun _ => v) l p 1))
  | HSetAll h => obind (spec h) (fun l => Some (map (fun _ => true) l))
  | HResetAll h => obind (spec h) (fun l => Some (map (fun _ => false) l))
  | HFlipRange h p len => obind (spec h) (fun l => guard (p + len <=? length l) (change_range negb l p len))
  | HFlip h p => obind (spec h) (fun l => guard (p <? length l) (change_range negb l p 1))
  | HFlipAll h => obind (spec h) (fun l => Some (map negb l))
  | HTestSet h p v => obind (spec h) (fun l => guard (p <? length l) (change_range (fun _ => v) l p 1))
  end.

(** What a program can see of a bitset holding the bits l. *)
Definition observed (s : bitset) (l : list bool) : Prop :=
  bits s = length l /\
  (forall i, i < length l -> test B s i = Val (nth i l false)) /\
  (forall i v, i < length l -> exists s', test_set B s i v = Val (s', nth i l false)) /\
  all B s = Val (forallb id l) /\
  any s = existsb id l /\
  none s = negb (existsb id l) /\
  count B s = Val (count_occ Bool.bool_dec l true) /\
  find_first B s = find (fun i => nth i l false) (seq 0 (length l)) /\
  (forall p, find_next B s p = Val (find (fun i => nth i l false) (seq (p + 1) (length l - (p + 1))))) /\
  (forall fuel, length l < fuel -> iterate B fuel s = Val (filter (fun i => nth i l false) (seq 0 (length l)))) /\
  to_string B zero one s = Val (map (fun b : bool => if b then one else zero) (rev l)).

Hypothesis HB : 0 < B.
Notation repr := (repr B).
Definition rep (s : bitset) (l : list bool) : Prop := repr s (length l) (fun i => nth i l false).
Lemma rep_of s n f l : repr s n f -> length l = n -> (forall i, i < n -> nth i l false = f i) -> rep s l.
Proof. intros R L H. unfold rep. rewrite L. revert R. apply repr_ext. intros i Hi. symmetry. auto. Qed.

Lemma skipn_add {A} (l : list A) a b : skipn b (skipn a l) = skipn (a + b) l.
Proof. revert l. induction a as [|a IH]; intros [|x l]; cbn [skipn Nat.add]; auto. apply skipn_nil. Qed.
Lemma nth_change_range g l p len i : p + len <= length l -> i < length l ->
  nth i (change_range g l p len) false = if (p <=? i) && (i <? p + len) then g (nth i l false) else nth i l false.
Proof.
  intros H Hi. unfold change_range. set (a := firstn p l). set (b := firstn len (skipn p l)). set (c := skipn (p + len) l).
  assert (E : l = a ++ b ++ c) by (unfold a, b, c; rewrite <- skipn_add, firstn_skipn, firstn_skipn; reflexivity).
  assert (La : length a = p) by (unfold a; rewrite firstn_length; lia).
  assert (Lb : length b = len) by (unfold b; rewrite firstn_length, skipn_length; lia).
  rewrite E. destruct (Nat.leb_spec p i) as [P|P]; cbn [andb].
  - rewrite app_nth2 by lia. rewrite (app_nth2 a) by lia. destruct (Nat.ltb_spec i (p + len)).
    + rewrite app_nth1 by (rewrite map_length; lia). rewrite app_nth1 by lia. rewrite (nth_indep _ false (g false)) by (rewrite map_length; lia). apply map_nth.
    + rewrite app_nth2 by (rewrite map_length; lia). rewrite app_nth2 by lia. rewrite map_length. reflexivity.
  - rewrite !app_nth1 by lia. reflexivity.
Qed.
Lemma length_change_range g l p len : p + len <= length l -> length (change_range g l p len) = length l.
Proof. intros H. unfold change_range. rewrite !app_length, map_length, !firstn_length, !skipn_length. lia. Qed.
Lemma length_zip g l l' : length l = length l' -> length (zip g l l') = length l.
Proof. intros H. unfold zip. rewrite map_length, combine_length. lia. Qed.
Lemma nth_zip g l l' i : length l = length l' -> i < length l -> nth i (zip g l l') false = g (nth i l false) (nth i l' false).
Proof.
  intros H Hi. unfold zip. rewrite (nth_indep _ false (g (fst (false, false)) (snd (false, false)))) by (rewrite map_length, combine_length; lia).
  rewrite (map_nth (fun p => g (fst p) (snd p))), combine_nth by auto. reflexivity.
Qed.
Lemma length_bits_of v n : length (bits_of v n) = n.
Proof. unfold bits_of. rewrite map_length, seq_length. reflexivity. Qed.
Lemma nth_bits_of v n i : i < n -> nth i (bits_of v n) false = tb v i.
Proof. intros H. unfold bits_of. rewrite (nth_indep _ false ((fun i => N.testbit v (N.of_nat i)) 0)) by (rewrite map_length, seq_length; lia). rewrite (map_nth (fun i => N.testbit v (N.of_nat i))), seq_nth by auto. reflexivity. Qed.
Lemma nth_map_const (b : bool) (l : list bool) i : i < length l -> nth i (map (fun _ => b) l) false = b.
Proof. revert i. induction l as [|x l IH]; intros [|i] H; cbn [length map nth] in *; try lia; auto. apply IH. lia. Qed.
Lemma nth_map_f (g : bool -> bool) (l : list bool) i : i < length l -> nth i (map g l) false = g (nth i l false).
Proof. intros H. rewrite (nth_indep _ false (g false)) by (rewrite map_length; auto). apply map_nth. Qed.
Lemma nth_repeat_lt (b : bool) c i : i < c -> nth i (repeat b c) false = b.
Proof. intros H. rewrite (nth_indep _ false b) by (rewrite repeat_length; auto). apply nth_repeat. Qed.
Lemma nth_app_if (a b : list bool) i : nth i (a ++ b) false = if i <? length a then nth i a false else nth (i - length a) b false.
Proof. destruct (Nat.ltb_spec i (length a)); [apply app_nth1|apply app_nth2]; auto. Qed.
Lemma nth_firstn_if (l : list bool) n i : nth i (firstn n l) false = if i <? n then nth i l false else false.
Proof.
  destruct (Nat.ltb_spec i n); [|apply nth_overflow; rewrite firstn_length; lia]. destruct (Nat.ltb_spec i (length l)); [|rewrite !nth_overflow; rewrite ?firstn_length; auto; lia].
  rewrite <- (firstn_skipn n l) at 2. rewrite app_nth1 by (rewrite firstn_length; lia). reflexivity.
Qed.
Lemma nth_skipn_eq {A} (l : list A) n i d : nth i (skipn n l) d = nth (n + i) l d.
Proof. revert l. induction n as [|n IH]; intros [|x l]; cbn [skipn Nat.add nth]; auto. destruct i; reflexivity. Qed.
Lemma lt_small x : (x < 2 ^ N.of_nat B)%N -> small B x.
Proof.
  intros H k K. unfold tb. destruct (N.eq_dec x 0) as [->|N0]; [apply N.bits_0|]. apply N.bits_above_log2. apply N.log2_lt_pow2; [lia|]. eapply N.lt_le_trans; [exact H|]. apply N.pow_le_mono_r; lia.
Qed.
Lemma of_string_ok str pos n : pos < length str -> exists s, of_string B eqc one str pos n = Val s /\ rep s (rev (map (fun c => eqc c one) (firstn n (skipn pos str)))).
Proof.
  intros H. unfold of_string. destruct (Nat.leb_spec pos (length str)); [|lia]. set (size := Nat.min n (length str - pos)).
  set (l := rev (map (fun c => eqc c one) (firstn n (skipn pos str)))).
  assert (Ll : length l = size) by (unfold l; rewrite rev_length, map_length, firstn_length, skipn_length; reflexivity).
  assert (Nl : forall i c, i < size -> nth_error str (pos + size - 1 - i) = Some c -> nth i l false = eqc c one).
  { intros i c Hi Ec. unfold l. rewrite rev_nth; rewrite map_length, firstn_length, skipn_length; fold size; [|lia]. rewrite (nth_indep _ false ((fun c => eqc c one) c)) by (rewrite map_length, firstn_length, skipn_length; fold size; lia).
    rewrite (map_nth (fun c => eqc c one)). f_equal. apply nth_error_nth with (d := c) in Ec. rewrite <- Ec at 2. rewrite <- (firstn_skipn pos str) at 2. rewrite app_nth2; rewrite firstn_length; [|lia].
    rewrite <- (firstn_skipn n (skipn pos str)) at 2. rewrite app_nth1 by (rewrite firstn_length, skipn_length; fold size; lia). f_equal. lia. }
  destruct (for_each_inv (fun i s => match nth_error str (pos + size - 1 - i) with None => OutOfBounds | Some c => if eqc c one then set_bit B s i true else Val s end)
    (fun j s => repr s size (fun i => (i <? j) && nth i l false)) size 0 (mkBits (repeat 0%N (blocks_required B size)) size)) as (s & Es & R).
  - apply (repr_ext B _ _ (fun _ => false)); [auto|]. apply (repr_zero B HB).
  - intros i m Hi R. destruct (nth_error str (pos + size - 1 - i)) as [c|] eqn:Ec; [|apply nth_error_None in Ec; lia]. specialize (Nl i c ltac:(lia) Ec). destruct (eqc c one).
    + destruct (set_bit_ok B HB m size _ i true R ltac:(lia)) as (s' & Es & R'). exists s'. split; [exact Es|]. revert R'. apply repr_ext. intros j Hj.
      destruct (Nat.eqb_spec j i) as [->|Nj]; [rewrite Nl; destruct (Nat.ltb_spec i (S i)); [reflexivity|lia]|]. destruct (Nat.ltb_spec j i), (Nat.ltb_spec j (S i)); try reflexivity; lia.
    + exists m. split; [reflexivity|]. revert R. apply repr_ext. intros j Hj. destruct (Nat.ltb_spec j i), (Nat.ltb_spec j (S i)); try reflexivity; try lia. assert (j = i) by lia. subst j. rewrite Nl. reflexivity.
  - exists s. split; [exact Es|]. apply (rep_of s size _ l R Ll). intros i Hi. destruct (Nat.ltb_spec i (0 + size)); [reflexivity|lia].
Qed.
Lemma flat_bits bs : length (flat_map (fun b => bits_of b B) bs) = length bs * B /\
  forall i, i < length bs * B -> nth i (flat_map (fun b => bits_of b B) bs) false = tb (nth (i / B) bs 0%N) (i mod B).
Proof.
  induction bs as [|b bs [IHl IH]]; cbn [flat_map length Nat.mul]; [split; [reflexivity|lia]|]. split; [rewrite app_length, length_bits_of, IHl; reflexivity|].
  intros i Hi. rewrite nth_app_if, length_bits_of. destruct (Nat.ltb_spec i B).
  - rewrite nth_bits_of, Nat.div_small, Nat.mod_small by auto. reflexivity.
  - rewrite IH by lia. replace i with (i - B + 1 * B) at 3 4 by lia. rewrite Nat.div_add, Nat.mod_add by lia. rewrite Nat.add_1_r. reflexivity.
Qed.

Hypothesis HD : exists d, d * B = 128.   (* uint8_t ... uint128_t *)
Ltac fin E := eexists; split; [reflexivity|]; rewrite E.
Theorem rep_run h l : spec h = Some l -> exists s, eval h = Val s /\ rep s l.
Proof.
  assert (O : forall {A C} (x : option A) (f : A -> option C) c, obind x f = Some c -> exists a, x = Some a /\ f a = Some c) by (intros A C [a|] f c; cbn [obind]; [eauto|discriminate]).
  assert (G : forall {A} b (x c : A), guard b x = Some c -> b = true /\ x = c) by (intros A [|] x c; cbn [guard]; [inversion 1; auto|discriminate]).
  assert (RL : forall s l, rep s l -> bits s = length l) by (intros s l' (E & _); exact E).
  revert l. induction h; intros r Hr; cbn [spec eval] in *;
    try (apply O in Hr as (l1 & S1 & Hr); destruct (IHh _ S1) as (s1 & E1 & R1); rewrite E1; cbn [bind]; clear IHh S1 E1);
    try (apply O in Hr as (l1 & S1 & Hr); destruct (IHh1 _ S1) as (s1 & E1 & R1); rewrite E1; cbn [bind]; clear IHh1 S1 E1;
         apply O in Hr as (l2 & S2 & Hr); destruct (IHh2 _ S2) as (s2 & E2 & R2); rewrite E2; cbn [bind]; clear IHh2 S2 E2);
    try (apply G in Hr as [Hg Hr]); try (injection Hr as Hr); subst.
  - exists empty_set. split; [reflexivity|]. apply (repr_empty B HB).
  - apply N.ltb_lt in Hg. destruct HD as [d Hd]. destruct (of_value_ok B HB n v d Hd Hg) as (s & E & R). exists s. split; [exact E|]. apply (rep_of _ _ _ _ R); [apply length_bits_of|]. apply nth_bits_of.
  - apply Nat.ltb_lt in Hg. apply of_string_ok. auto.
  - destruct (resize_ok B HB s1 _ _ n v R1) as (s & E & R). exists s. split; [exact E|]. apply (rep_of _ _ _ _ R).
    + rewrite app_length, firstn_length, repeat_length. lia.
    + intros i Hi. rewrite nth_app_if, firstn_length, nth_firstn_if. destruct (Nat.ltb_spec i (Nat.min n (length l1))), (Nat.ltb_spec i n), (Nat.ltb_spec i (length l1)); try lia; [reflexivity|]. apply nth_repeat_lt. lia.
  - exists empty_set. split; [reflexivity|]. apply (repr_empty B HB).
  - destruct (push_back_ok B HB s1 _ _ v R1) as (s & E & R). exists s. split; [exact E|]. apply (rep_of _ _ _ _ R); [rewrite app_length; reflexivity|].
    intros i Hi. rewrite nth_app_if. destruct (Nat.ltb_spec i (length l1)); [reflexivity|]. replace (i - length l1) with 0 by lia. reflexivity.
  - destruct (pop_back_ok B HB s1 _ _ R1) as (s & E & R). exists s. split; [exact E|]. assert (Er : removelast l1 = firstn (length l1 - 1) l1) by (rewrite Nat.sub_1_r; apply removelast_firstn_len).
    apply (rep_of _ _ _ _ R); [rewrite Er, firstn_length; lia|]. intros i Hi. rewrite Er, nth_firstn_if. destruct (Nat.ltb_spec i (length l1 - 1)); [reflexivity|lia].
  - apply N.ltb_lt, lt_small in Hg. destruct (append_block_ok B HB s1 _ _ b R1 Hg) as (s & E & R). exists s. split; [exact E|]. apply (rep_of _ _ _ _ R); [rewrite app_length, length_bits_of; reflexivity|].
    intros i Hi. rewrite nth_app_if. destruct (Nat.ltb_spec i (length l1)); [reflexivity|]. apply nth_bits_of. lia.
  - rewrite forallb_forall in Hg. destruct (append_blocks_ok B HB l s1 _ _ R1) as (s & E & R); [apply Forall_forall; intros b I; apply lt_small, N.ltb_lt; auto|].
    destruct (flat_bits l) as [FL FN]. exists s. split; [exact E|]. apply (rep_of _ _ _ _ R); [rewrite app_length, FL; reflexivity|].
    intros i Hi. rewrite nth_app_if. destruct (Nat.ltb_spec i (length l1)); [reflexivity|]. apply FN. lia.
  - destruct (append_ok B HB s1 s2 _ _ _ _ R1 R2) as (s & E & R). exists s. split; [exact E|]. apply (rep_of _ _ _ _ R); [apply app_length|]. intros i Hi. apply nth_app_if.
  - destruct (append_self_ok B HB s1 _ _ R1) as (s & E & R). exists s. split; [exact E|]. apply (rep_of _ _ _ _ R); [apply app_length|]. intros i Hi. apply nth_app_if.
  - apply Nat.eqb_eq in Hg. unfold rep in R2. rewrite <- Hg in R2. destruct (and_ok B HB s1 s2 _ _ _ R1 R2) as (s & E & R). exists s. split; [exact E|]. apply (rep_of _ _ _ _ R); [apply length_zip; auto|]. intros i Hi. apply nth_zip; auto.
  - apply Nat.eqb_eq in Hg. unfold rep in R2. rewrite <- Hg in R2. destruct (or_ok B HB s1 s2 _ _ _ R1 R2) as (s & E & R). exists s. split; [exact E|]. apply (rep_of _ _ _ _ R); [apply length_zip; auto|]. intros i Hi. apply nth_zip; auto.
  - apply Nat.eqb_eq in Hg. unfold rep in R2. rewrite <- Hg in R2. destruct (xor_ok B HB s1 s2 _ _ _ R1 R2) as (s & E & R). exists s. split; [exact E|]. apply (rep_of _ _ _ _ R); [apply length_zip; auto|]. intros i Hi. apply nth_zip; auto.
  - apply Nat.eqb_eq in Hg. unfold rep in R2. rewrite <- Hg in R2. destruct (sub_ok B HB s1 s2 _ _ _ R1 R2) as (s & E & R). exists s. split; [exact E|]. apply (rep_of _ _ _ _ R); [apply length_zip; auto|]. intros i Hi. apply (nth_zip (fun a b => a && negb b)); auto.
  - destruct (left_shift_ok B HB s1 _ _ k R1) as (s & E & R). exists s. split; [exact E|]. apply (rep_of _ _ _ _ R); [rewrite firstn_length, app_length, repeat_length; lia|].
    intros i Hi. rewrite nth_firstn_if, nth_app_if, repeat_length. destruct (Nat.ltb_spec i (length l1)); [|lia]. destruct (Nat.ltb_spec i k), (Nat.leb_spec k i); try lia; cbn [andb]; [apply nth_repeat_lt; auto|reflexivity].
  - destruct (right_shift_ok B HB s1 _ _ k R1) as (s & E & R). exists s. split; [exact E|]. apply (rep_of _ _ _ _ R); [rewrite app_length, skipn_length, repeat_length; lia|].
    intros i Hi. rewrite nth_app_if, skipn_length, nth_skipn_eq. destruct (Nat.ltb_spec i (length l1 - k)), (Nat.ltb_spec (i + k) (length l1)); try lia; cbn [andb]; [f_equal; lia|apply nth_repeat_lt; lia].
  - apply Nat.leb_le in Hg. destruct (set_range_ok B HB s1 _ _ p len v R1 Hg) as (s & E & R). exists s. split; [exact E|]. apply (rep_of _ _ _ _ R); [apply length_change_range; auto|]. intros i Hi. apply (nth_change_range (fun _ => v)); auto.
  - apply Nat.ltb_lt in Hg. destruct (set_bit_ok B HB s1 _ _ p v R1 Hg) as (s & E & R). exists s. split; [exact E|]. apply (rep_of _ _ _ _ R); [apply length_change_range; lia|]. intros i Hi. rewrite nth_change_range by lia.
    destruct (Nat.eqb_spec i p), (Nat.leb_spec p i), (Nat.ltb_spec i (p + 1)); cbn [andb]; try reflexivity; lia.
  - destruct (set_all_ok B HB s1 _ _ R1) as (s & E & R). exists s. split; [exact E|]. apply (rep_of _ _ _ _ R); [apply map_length|]. intros i Hi. apply nth_map_const. auto.
  - eexists. split; [reflexivity|]. pose proof (reset_all_ok B s1 _ _ R1) as R. apply (rep_of _ _ _ _ R); [apply map_length|]. intros i Hi. apply nth_map_const. auto.
  - apply Nat.leb_le in Hg. destruct (flip_range_ok B HB s1 _ _ p len R1 Hg) as (s & E & R). exists s. split; [exact E|]. apply (rep_of _ _ _ _ R); [apply length_change_range; auto|]. intros i Hi. apply nth_change_range; auto.
  - apply Nat.ltb_lt in Hg. destruct (flip_bit_ok B HB s1 _ _ p R1 Hg) as (s & E & R). exists s. split; [exact E|]. apply (rep_of _ _ _ _ R); [apply length_change_range; lia|]. intros i Hi. rewrite nth_change_range by lia.
    destruct (Nat.eqb_spec i p), (Nat.leb_spec p i), (Nat.ltb_spec i (p + 1)); cbn [andb]; try reflexivity; lia.
  - destruct (flip_all_ok B HB s1 _ _ R1) as (s & E & R). exists s. split; [exact E|]. apply (rep_of _ _ _ _ R); [apply map_length|]. intros i Hi. apply nth_map_f. auto.
  - apply Nat.ltb_lt in Hg. destruct (test_set_ok B HB s1 _ _ p v R1 Hg) as (s & E & R). exists s. rewrite E. cbn [bind fst]. split; [reflexivity|]. apply (rep_of _ _ _ _ R); [apply length_change_range; lia|]. intros i Hi. rewrite nth_change_range by lia.
    destruct (Nat.eqb_spec i p), (Nat.leb_spec p i), (Nat.ltb_spec i (p + 1)); cbn [andb]; try reflexivity; lia.
Qed.

(** ** Observers *)
Lemma least_find lo n f r : least lo n f r -> find f (seq lo (n - lo)) = r.
Proof.
  assert (F0 : forall l, (forall x, In x l -> f x = false) -> forall l', find f (l ++ l') = find f l').
  { induction l as [|x l IH]; intros H l'; cbn [app find]; [reflexivity|]. rewrite H by (left; auto). apply IH. intros; apply H; right; auto. }
  destruct r as [p|]; cbn [least].
  - intros (H1 & H2 & H3). rewrite (seq_split lo p n) by lia. rewrite F0 by (intros i I; apply in_seq in I; apply H3; lia). replace (n - p) with (S (n - (p + 1))) by lia. cbn [seq find]. rewrite H2. reflexivity.
  - intros H. rewrite <- (app_nil_r (seq lo (n - lo))). apply F0. intros i I. apply in_seq in I. apply H. lia.
Qed.
Lemma filter_count l : length (filter (fun i => nth i l false) (seq 0 (length l))) = count_occ Bool.bool_dec l true.
Proof.
  induction l as [|b l IH] using rev_ind; [reflexivity|]. rewrite app_length, count_occ_app. cbn [length]. rewrite seq_app, filter_app, app_length. f_equal.
  - rewrite <- IH. f_equal. apply filter_ext_in. intros i I. apply in_seq in I. apply app_nth1. lia.
  - cbn [Nat.add seq filter]. rewrite app_nth2, Nat.sub_diag by lia. cbn [nth]. destruct b; reflexivity.
Qed.
Lemma existsb_nth_iff l : existsb id l = true <-> exists i, i < length l /\ nth i l false = true.
Proof.
  rewrite existsb_exists. unfold id. split.
  - intros (b & I & ->). apply (In_nth _ _ false) in I as (i & Hi & E). eauto.
  - intros (i & Hi & E). exists true. split; [|reflexivity]. rewrite <- E. apply nth_In. auto.
Qed.
Lemma forallb_nth_iff l : forallb id l = true <-> forall i, i < length l -> nth i l false = true.
Proof.
  rewrite forallb_forall. unfold id. split.
  - intros H i Hi. apply H. apply nth_In. auto.
  - intros H b I. apply (In_nth _ _ false) in I as (i & Hi & E). rewrite <- E. auto.
Qed.
Lemma put_char_val (l : list char) i c : i < length l -> put_char l i c = Val (firstn i l ++ c :: skipn (S i) l).
Proof. intros H. unfold put_char. apply Nat.ltb_lt in H. rewrite H. reflexivity. Qed.
Lemma nth_put (l : list char) i c j d : i < length l -> nth j (firstn i l ++ c :: skipn (S i) l) d = if j =? i then c else nth j l d.
Proof.
  intros H. destruct (Nat.eqb_spec j i) as [->|N].
  - rewrite app_nth2; rewrite firstn_length; [|lia]. replace (i - Nat.min i (length l)) with 0 by lia. reflexivity.
  - destruct (Nat.ltb_spec j i).
    + rewrite app_nth1 by (rewrite firstn_length; lia). rewrite <- (firstn_skipn i l) at 2. rewrite app_nth1 by (rewrite firstn_length; lia). reflexivity.
    + rewrite app_nth2; rewrite firstn_length; [|lia]. replace (j - Nat.min i (length l)) with (S (j - S i)) by lia. cbn [nth]. rewrite nth_skipn_eq. f_equal. lia.
Qed.
Lemma to_string_ok s l : rep s l -> to_string B zero one s = Val (map (fun b : bool => if b then one else zero) (rev l)).
Proof.
  intros R. pose proof R as (E1 & E2 & E3). unfold to_string. rewrite E1. set (n := length l) in *. destruct (req_spec B HB n) as [R1 R2].
  set (P := fun p (str : list char) => length str = n /\ forall i, i < n -> nth (n - 1 - i) str zero = if (i <? p) && nth i l false then one else zero).
  destruct (for_each_inv (fun ib str => bind (rd (blocks s) ib) (fun x => if (x =? 0)%N then Val str else
     for_each (fun i str => if negb (N.land x (shl B 1 i) =? 0)%N then if n <? ib * B + i + 1 then OutOfBounds else put_char str (n - (ib * B + i + 1)) one else Val str)
        (seq 0 (if ib * B <? n then n - ib * B else B)) str)) (fun ib => P (ib * B)) (length (blocks s)) 0 (repeat zero n)) as (str & Es & Ls & Hs).
  - split; [apply repeat_length|]. intros i Hi. cbn [Nat.mul Nat.ltb Nat.leb andb]. apply nth_repeat.
  - intros ib str Hib [Ls Hs]. rewrite rd_val by lia. cbn [bind]. set (x := nth ib (blocks s) 0%N).
    assert (Tx : forall k, tb x k = (k <? B) && (ib * B + k <? n) && nth (ib * B + k) l false) by (intros k; apply E3).
    assert (Hlt : ib * B < n) by (pose proof (Nat.mul_le_mono_r (ib + 1) (blocks_required B n) B ltac:(lia)); lia).
    destruct (N.eqb_spec x 0) as [X0|X0].
    { exists str. split; [reflexivity|]. split; [auto|]. intros i Hi. rewrite Hs by auto. destruct (Nat.ltb_spec i (ib * B)), (Nat.ltb_spec i (S ib * B)); try reflexivity; try lia. cbn [andb].
      specialize (Tx (i - ib * B)). rewrite X0, tb_0 in Tx. replace (ib * B + (i - ib * B)) with i in Tx by lia. destruct (Nat.ltb_spec (i - ib * B) B); [|lia]. destruct (Nat.ltb_spec i n); [|lia]. cbn [andb] in Tx. rewrite <- Tx. reflexivity. }
    destruct (Nat.ltb_spec (ib * B) n); [|lia].
    destruct (for_each_inv (fun i str => if negb (N.land x (shl B 1 i) =? 0)%N then if n <? ib * B + i + 1 then OutOfBounds else put_char str (n - (ib * B + i + 1)) one else Val str)
      (fun i => P (ib * B + Nat.min i B)) (n - ib * B) 0 str) as (str' & Es' & Ls' & Hs').
    + cbn [Nat.min]. rewrite Nat.add_0_r. split; auto.
    + intros i str1 Hi [L1 H1]. assert (Tm : forall k, tb (shl B 1 i) k = (i <? B) && (k =? i)).
      { intros k. rewrite (tb_shl B HB), (tb_1 B HB). destruct (Nat.ltb_spec k B), (Nat.leb_spec i k), (Nat.eqb_spec (k - i) 0), (Nat.ltb_spec i B), (Nat.eqb_spec k i); cbn [andb]; try reflexivity; lia. }
      assert (Tl : (N.land x (shl B 1 i) =? 0)%N = negb ((i <? B) && tb x i)).
      { destruct ((i <? B) && tb x i) eqn:Q; cbn [negb].
        - apply (nonzero_bit _ i). rewrite tb_land, Tm, Nat.eqb_refl, andb_true_r. rewrite andb_comm. exact Q.
        - apply N.eqb_eq. apply (tb_ext_small B); [intros k K; rewrite tb_land, Tm|apply small_0|intros k K; rewrite tb_land, Tm, tb_0].
          + rewrite Tx. destruct (Nat.ltb_spec k B); [lia|reflexivity].
          + destruct (Nat.eqb_spec k i) as [->|]; [rewrite andb_true_r, andb_comm; exact Q|rewrite !andb_false_r; reflexivity]. }
      rewrite Tl, negb_involutive, Tx. destruct (Nat.ltb_spec i B) as [Ib|Ib]; cbn [andb].
      * replace (Nat.min i B) with i in H1 by lia. replace (Nat.min (S i) B) with (S i) by lia. destruct (Nat.ltb_spec (ib * B + i) n); [|lia]. cbn [andb]. destruct (nth (ib * B + i) l false) eqn:Nl.
        -- destruct (Nat.ltb_spec n (ib * B + i + 1)); [lia|]. rewrite put_char_val by lia. eexists. split; [reflexivity|]. split; [rewrite app_length, firstn_length; cbn [length]; rewrite skipn_length; lia|].
           intros q Hq. rewrite nth_put by lia. destruct (Nat.eqb_spec (n - 1 - q) (n - (ib * B + i + 1))) as [Eq|Nq].
           ++ assert (q = ib * B + i) by lia. subst q. rewrite Nl. destruct (Nat.ltb_spec (ib * B + i) (ib * B + S i)); [reflexivity|lia].
           ++ rewrite H1 by auto. destruct (Nat.ltb_spec q (ib * B + i)), (Nat.ltb_spec q (ib * B + S i)); try reflexivity; lia.
        -- exists str1. split; [reflexivity|]. split; [auto|]. intros q Hq. rewrite H1 by auto. destruct (Nat.ltb_spec q (ib * B + i)), (Nat.ltb_spec q (ib * B + S i)); try reflexivity; try lia.
           assert (q = ib * B + i) by lia. subst q. rewrite Nl. reflexivity.
      * exists str1. split; [reflexivity|]. replace (Nat.min (S i) B) with B by lia. replace (Nat.min i B) with B in H1 by lia. split; auto.
    + exists str'. split; [exact Es'|]. split; [auto|]. intros i Hi. rewrite Hs' by auto. cbn [Nat.add]. destruct (Nat.ltb_spec i (ib * B + Nat.min (n - ib * B) B)), (Nat.ltb_spec i (S ib * B)); try reflexivity; lia.
  - rewrite Es. f_equal. apply (nth_ext _ _ zero zero); [rewrite map_length, rev_length; auto|]. rewrite Ls. intros i Hi. specialize (Hs (n - 1 - i) ltac:(lia)). replace (n - 1 - (n - 1 - i)) with i in Hs by lia. rewrite Hs.
    rewrite E2. destruct (Nat.ltb_spec (n - 1 - i) ((0 + blocks_required B n) * B)); [|cbn [Nat.add] in *; lia]. cbn [andb].
    pose proof (map_nth (fun b : bool => if b then one else zero) (rev l) false i) as Mn. cbn beta iota in Mn. rewrite Mn, rev_nth by auto. fold n. replace (n - S i) with (n - 1 - i) by lia. reflexivity.
Qed.
Lemma rep_observed s l : rep s l -> observed s l.
Proof.
  intros R. unfold observed. assert (A : any s = existsb id l) by (apply eq_true_iff_eq; rewrite (any_ok B HB s _ _ R), existsb_nth_iff; reflexivity).
  split; [apply R|]. split; [intros i Hi; apply (test_ok B HB s _ _ i R Hi)|].
  split; [intros i v Hi; destruct (test_set_ok B HB s _ _ i v R Hi) as (s' & E & _); eauto|].
  split. { destruct (all_ok B HB s _ _ R) as (b & E & H). rewrite E. f_equal. apply eq_true_iff_eq. rewrite H, forallb_nth_iff. reflexivity. }
  split; [exact A|]. split; [unfold none; rewrite A; reflexivity|].
  split; [rewrite (count_ok B HB s _ _ R), filter_count; reflexivity|].
  split. { pose proof (find_first_ok B HB s _ _ R) as F. apply least_find in F. rewrite Nat.sub_0_r in F. auto. }
  split. { intros p. destruct (find_next_ok B HB s _ _ p R) as (r & E & F). rewrite E. f_equal. symmetry. apply least_find. exact F. }
  split; [intros fuel Hf; apply (iterate_ok B HB s _ _ fuel R Hf)|]. apply to_string_ok. exact R.
Qed.

(** C79: after any history of in-contract operations, with any block width, nothing was read or written
    out of bounds, and every observer answers for the list of bits the history describes. *)
Theorem bitset_refines_list h l : spec h = Some l -> exists s, eval h = Val s /\ observed s l.
Proof. intros H. destruct (rep_run h l H) as (s & E & R). exists s. split; [exact E|]. apply rep_observed. exact R. Qed.

Lemma number_bit l i : N.testbit (number l) (N.of_nat i) = nth i l false.
Proof.
  revert i. induction l as [|b l IH]; intros i; cbn [number]; [rewrite N.bits_0; destruct i; reflexivity|]. rewrite N.add_comm. destruct i as [|i]; cbn [nth].
  - change (N.of_nat 0) with 0%N. destruct b; [apply N.testbit_odd_0|rewrite N.add_0_r; apply N.testbit_even_0].
  - rewrite Nat2N.inj_succ. destruct b; [rewrite N.testbit_odd_succ by lia|rewrite N.add_0_r, N.testbit_even_succ by lia]; apply IH.
Qed.
Lemma rep_value s l : rep s l -> value B (blocks s) = number l.
Proof.
  intros R. pose proof R as (E1 & E2 & E3). apply N.bits_inj. intros q. rewrite <- (N2Nat.id q). set (i := N.to_nat q). rewrite number_bit. change (tb (value B (blocks s)) i = nth i l false).
  destruct (div_spec B HB i) as [D L]. rewrite D. rewrite (value_bit B HB) by (auto; eapply (repr_small B); exact R). rewrite E3. apply Nat.ltb_lt in L. rewrite L. cbn [andb]. destruct (Nat.ltb_spec (i / B * B + i mod B) (length l)); [reflexivity|].
  rewrite nth_overflow by auto. reflexivity.
Qed.
(** Two bitsets compare by their bits. *)
Definition compared (s t : bitset) (l l' : list bool) : Prop :=
  (eq s t = true <-> l = l') /\
  less s t = Val ((number l <? number l')%N || ((number l =? number l')%N && (length l <? length l'))) /\
  intersects s t = existsb id (zip andb l l') /\
  (length l = length l' ->
     is_subset_of B s t = Val (forallb id (zip implb l l')) /\
     is_proper_subset_of B s t = Val (forallb id (zip implb l l') && negb (forallb id (zip Bool.eqb l l')))).
Lemma zip_nth_min g l l' i : i < Nat.min (length l) (length l') -> nth i (zip g l l') false = g (nth i l false) (nth i l' false).
Proof.
  revert l' i. induction l as [|a l IH]; intros [|b l'] [|i] H; cbn [length] in H; try (cbn in H; lia); cbn [zip combine map nth fst snd]; [reflexivity|].
  apply (IH l' i). lia.
Qed.
Lemma zip_length_min g l l' : length (zip g l l') = Nat.min (length l) (length l').
Proof. unfold zip. rewrite map_length. apply combine_length. Qed.
Theorem bitset_compare h h' l l' : spec h = Some l -> spec h' = Some l' ->
  exists s t, eval h = Val s /\ eval h' = Val t /\ compared s t l l'.
Proof.
  intros H H'. destruct (rep_run h l H) as (s & E & R). destruct (rep_run h' l' H') as (t & E' & R'). exists s, t. split; [exact E|]. split; [exact E'|]. split; [|split; [|split]].
  - rewrite (eq_ok B HB s t _ _ _ _ R R'). split; [intros [L N]; apply (nth_ext _ _ false false); auto|]. intros <-. auto.
  - rewrite (less_ok B HB s t _ _ _ _ R R'), (rep_value s l R), (rep_value t l' R'). reflexivity.
  - apply eq_true_iff_eq. rewrite (intersects_ok B HB s t _ _ _ _ R R'), existsb_nth_iff, zip_length_min. split.
    + intros (i & H1 & H2 & F & G). exists i. split; [lia|]. rewrite zip_nth_min by lia. rewrite F, G. reflexivity.
    + intros (i & Hi & F). rewrite zip_nth_min in F by lia. apply andb_true_iff in F as [F G]. exists i. repeat split; auto; lia.
  - intros L. unfold rep in R'. rewrite <- L in R'. assert (Z : forallb id (zip implb l l') = true <-> forall i, i < length l -> nth i l false = true -> nth i l' false = true).
    { rewrite forallb_nth_iff, length_zip by auto. split.
      - intros Q i Hi F. specialize (Q i Hi). rewrite nth_zip in Q by auto. rewrite F in Q. exact Q.
      - intros Q i Hi. rewrite nth_zip by auto. destruct (nth i l false) eqn:F; [cbn [implb]; auto|reflexivity]. }
    split.
    + destruct (subset_ok B HB s t _ _ _ R R') as (r & Er & Hr). rewrite Er. f_equal. apply eq_true_iff_eq. rewrite Hr, Z. reflexivity.
    + destruct (proper_ok B HB s t _ _ _ R R') as (r & Er & Hr). rewrite Er. f_equal. apply eq_true_iff_eq. rewrite Hr, andb_true_iff, Z. split; intros [SS Q]; (split; [exact SS|]).
      * destruct Q as (i & Hi & F & G). apply negb_true_iff. apply not_true_iff_false. rewrite forallb_nth_iff, length_zip by auto. intros Q. specialize (Q i Hi). rewrite nth_zip, F, G in Q by auto. discriminate.
      * apply negb_true_iff in Q. destruct (existsb (fun i => negb (nth i l false) && nth i l' false) (seq 0 (length l))) eqn:X.
        -- apply existsb_exists in X as (i & I & X). apply in_seq in I. apply andb_true_iff in X as [X1 X2]. apply negb_true_iff in X1. exists i. repeat split; auto. lia.
        -- exfalso. apply not_true_iff_false in Q. apply Q. apply forallb_nth_iff. rewrite length_zip by auto. intros i Hi. rewrite nth_zip by auto.
           destruct (nth i l false) eqn:F, (nth i l' false) eqn:G; try reflexivity.
           ++ rewrite SS in G by auto. discriminate.
           ++ assert (C : existsb (fun i => negb (nth i l false) && nth i l' false) (seq 0 (length l)) = true) by (apply existsb_exists; exists i; split; [apply in_seq; lia|rewrite F, G; reflexivity]). congruence.
Qed.
(** < is a strict total order on values, whose ties are exactly ==. *)
Lemma number_inj l l' : length l = length l' -> number l = number l' -> l = l'.
Proof. intros L H. apply (nth_ext _ _ false false); auto. intros i _. rewrite <- !number_bit, H. reflexivity. Qed.
Theorem bitset_order h1 h2 h3 l1 l2 l3 : spec h1 = Some l1 -> spec h2 = Some l2 -> spec h3 = Some l3 ->
  exists s1 s2 s3 b12 b21 b23 b13, eval h1 = Val s1 /\ eval h2 = Val s2 /\ eval h3 = Val s3 /\
    less s1 s2 = Val b12 /\ less s2 s1 = Val b21 /\ less s2 s3 = Val b23 /\ less s1 s3 = Val b13 /\
    b12 && b21 = false /\ (b12 || b21 = negb (eq s1 s2)) /\ (b12 && b23 = true -> b13 = true).
Proof.
  intros H1 H2 H3. destruct (rep_run h1 l1 H1) as (s1 & E1 & R1). destruct (rep_run h2 l2 H2) as (s2 & E2 & R2). destruct (rep_run h3 l3 H3) as (s3 & E3 & R3).
  exists s1, s2, s3. do 4 eexists. split; [exact E1|]. split; [exact E2|]. split; [exact E3|].
  rewrite (less_ok B HB s1 s2 _ _ _ _ R1 R2), (less_ok B HB s2 s1 _ _ _ _ R2 R1), (less_ok B HB s2 s3 _ _ _ _ R2 R3), (less_ok B HB s1 s3 _ _ _ _ R1 R3).
  rewrite (rep_value s1 l1 R1), (rep_value s2 l2 R2), (rep_value s3 l3 R3). do 4 (split; [reflexivity|]).
  assert (Q : eq s1 s2 = true <-> l1 = l2).
  { rewrite (eq_ok B HB s1 s2 _ _ _ _ R1 R2). split; [intros [L N]; apply (nth_ext _ _ false false); auto|]. intros <-. auto. }
  split; [|split].
  - destruct (N.ltb_spec (number l1) (number l2)), (N.ltb_spec (number l2) (number l1)), (N.eqb_spec (number l1) (number l2)), (N.eqb_spec (number l2) (number l1)), (Nat.ltb_spec (length l1) (length l2)), (Nat.ltb_spec (length l2) (length l1)); cbn [andb orb]; try reflexivity; lia.
  - apply eq_true_iff_eq. rewrite negb_true_iff, <- not_true_iff_false, Q. split.
    + intros T ->. rewrite N.ltb_irrefl, Nat.ltb_irrefl, andb_false_r in T. discriminate.
    + intros Ne. destruct (N.ltb_spec (number l1) (number l2)), (N.ltb_spec (number l2) (number l1)), (N.eqb_spec (number l1) (number l2)), (N.eqb_spec (number l2) (number l1)), (Nat.ltb_spec (length l1) (length l2)), (Nat.ltb_spec (length l2) (length l1)); cbn [andb orb]; try reflexivity; try lia.
      exfalso. apply Ne. apply number_inj; lia.
  - intros T. apply andb_true_iff in T as [T1 T2]. apply orb_true_iff in T1, T2. apply orb_true_iff. rewrite !andb_true_iff, !N.ltb_lt, !N.eqb_eq, !Nat.ltb_lt in *. lia.
Qed.

(** ** Streams *)
Hypothesis Heqc : forall a b, eqc a b = true <-> a = b.
Hypothesis Hne : zero <> one.
Lemma read_rev_ok digits rest : forall s l, rep s l -> Forall (fun c => c = zero \/ c = one) digits ->
  match rest with [] => True | c :: _ => c <> zero /\ c <> one end ->
  exists r, read_rev B eqc zero one s (digits ++ rest) = Val (r, rest) /\ rep r (l ++ map (fun c => eqc c one) digits).
Proof.
  induction digits as [|c digits IH]; intros s l R Hd Hr; cbn [app map].
  - exists s. rewrite app_nil_r. split; [|exact R]. destruct rest as [|c rest]; cbn [read_rev]; [reflexivity|]. destruct Hr as [Hz Ho].
    destruct (eqc c one) eqn:E; [apply Heqc in E; congruence|]. destruct (eqc c zero) eqn:E'; [apply Heqc in E'; congruence|]. reflexivity.
  - inversion Hd as [|? ? Hc Hd']; subst. cbn [read_rev].
    assert (Push : forall v, exists s', push_back B s v = Val s' /\ rep s' (l ++ [v])).
    { intros v. destruct (push_back_ok B HB s _ _ v R) as (s' & E & R'). exists s'. split; [exact E|]. apply (rep_of _ _ _ _ R'); [rewrite app_length; reflexivity|].
      intros i Hi. rewrite nth_app_if. destruct (Nat.ltb_spec i (length l)); [reflexivity|]. replace (i - length l) with 0 by lia. reflexivity. }
    destruct Hc as [-> | ->].
    + assert (E : eqc zero one = false) by (apply not_true_iff_false; rewrite Heqc; exact Hne). assert (E' : eqc zero zero = true) by (apply Heqc; reflexivity). rewrite E, E'.
      destruct (Push false) as (s' & Es & R'). rewrite Es. cbn [bind]. destruct (IH s' _ R' Hd' Hr) as (r & Er & Rr). exists r. split; [exact Er|]. rewrite <- app_assoc in Rr. exact Rr.
    + assert (E : eqc one one = true) by (apply Heqc; reflexivity). rewrite E.
      destruct (Push true) as (s' & Es & R'). rewrite Es. cbn [bind]. destruct (IH s' _ R' Hd' Hr) as (r & Er & Rr). exists r. split; [exact Er|]. rewrite <- app_assoc in Rr. exact Rr.
Qed.
Lemma push_rev_ok r l : rep r l -> forall k s l', k <= length l -> rep s l' ->
  exists s', for_each (fun i s => bind (test B r i) (push_back B s)) (rev (seq 0 k)) s = Val s' /\ rep s' (l' ++ rev (firstn k l)).
Proof.
  intros R. induction k as [|k IH]; intros s l' Hk Rs.
  - exists s. cbn [seq rev for_each firstn]. rewrite app_nil_r. auto.
  - rewrite seq_S, rev_app_distr. cbn [rev app Nat.add for_each]. rewrite (test_ok B HB r _ _ k R) by lia. cbn [bind].
    destruct (push_back_ok B HB s _ _ (nth k l false) Rs) as (s1 & E1 & R1). rewrite E1. cbn [bind].
    assert (R1' : rep s1 (l' ++ [nth k l false])).
    { apply (rep_of _ _ _ _ R1); [rewrite app_length; reflexivity|]. intros i Hi. rewrite nth_app_if. destruct (Nat.ltb_spec i (length l')); [reflexivity|]. replace (i - length l') with 0 by lia. reflexivity. }
    destruct (IH s1 _ ltac:(lia) R1') as (s' & Es & R'). exists s'. split; [exact Es|]. replace (firstn (S k) l) with (firstn k l ++ [nth k l false]).
    + rewrite rev_app_distr. cbn [rev app]. rewrite <- app_assoc in R'. exact R'.
    + clear - Hk. revert l Hk. induction k as [|k IH]; intros [|x l] H; cbn [length firstn nth app] in *; try lia; [reflexivity|]. rewrite IH by lia. reflexivity.
Qed.
(** Reading takes the longest run of the two digits, most significant first. *)
Theorem bitset_read digits rest : Forall (fun c => c = zero \/ c = one) digits ->
  match rest with [] => True | c :: _ => c <> zero /\ c <> one end ->
  exists s, read B eqc zero one (digits ++ rest) = Val (s, rest) /\ observed s (rev (map (fun c => eqc c one) digits)).
Proof.
  intros Hd Hr. unfold read. assert (R0 : rep empty_set []) by apply (repr_empty B HB). destruct (read_rev_ok digits rest empty_set [] R0 Hd Hr) as (r & Er & Rr). rewrite Er. cbn [bind app] in *.
  pose proof Rr as (Eb & _). rewrite Eb. destruct (push_rev_ok r _ Rr (length (map (fun c => eqc c one) digits)) empty_set [] ltac:(lia) R0) as (s & Es & Rs). rewrite Es. cbn [bind]. exists s. split; [reflexivity|].
  apply rep_observed. rewrite firstn_all in Rs. exact Rs.
Qed.
(** A bitset written to a stream or a string reads back as itself. *)
Theorem bitset_string_round_trip h l rest : spec h = Some l -> match rest with [] => True | c :: _ => c <> zero /\ c <> one end ->
  exists s str t, eval h = Val s /\ to_string B zero one s = Val str /\
    read B eqc zero one (str ++ rest) = Val (t, rest) /\ eq s t = true /\
    (l <> [] -> exists u, of_string B eqc one str 0 (length str) = Val u /\ eq s u = true).
Proof.
  intros H Hr. destruct (rep_run h l H) as (s & E & R). set (ch := fun b : bool => if b then one else zero).
  assert (Back : rev (map (fun c => eqc c one) (map ch (rev l))) = l).
  { rewrite map_map, <- map_rev, rev_involutive. rewrite <- (map_id l) at 2. apply map_ext. intros [|]; unfold ch; [apply Heqc; reflexivity|]. apply not_true_iff_false. rewrite Heqc. exact Hne. }
  assert (Hd : Forall (fun c => c = zero \/ c = one) (map ch (rev l))) by (apply Forall_forall; intros c I; apply in_map_iff in I as ([|] & <- & _); unfold ch; auto).
  assert (Eqq : forall t, rep t l -> eq s t = true) by (intros t Rt; apply (eq_ok B HB s t _ _ _ _ R Rt); auto).
  unfold read. assert (R0 : rep empty_set []) by apply (repr_empty B HB). destruct (read_rev_ok (map ch (rev l)) rest empty_set [] R0 Hd Hr) as (r & Er & Rr).
  pose proof Rr as (Eb & _). destruct (push_rev_ok r _ Rr (bits r) empty_set [] ltac:(lia) R0) as (t & Et & Rt). rewrite Eb, firstn_all in Rt. cbn [app] in Rt. rewrite Back in Rt.
  exists s, (map ch (rev l)), t. split; [exact E|]. split; [apply to_string_ok; exact R|]. split; [rewrite Er; cbn [bind]; rewrite Et; reflexivity|]. split; [auto|].
  intros Nl. destruct (of_string_ok (map ch (rev l)) 0 (length (map ch (rev l)))) as (u & Eu & Ru).
  - rewrite map_length, rev_length. destruct l; [congruence|cbn [length]; lia].
  - exists u. split; [exact Eu|]. cbn [skipn] in Ru. rewrite firstn_all, Back in Ru. auto.
Qed.
End Width.
(** The block width cannot be seen: two widths give equal answers (histories that append raw blocks aside). *)
Fixpoint no_raw (h : hist) : Prop :=
  match h with
  | HEmpty | HValue _ _ | HString _ _ _ => True
  | HAppendBlock _ _ | HAppendBlocks _ _ => False
  | HAppend h h' | HAnd h h' | HOr h h' | HXor h h' | HSub h h' => no_raw h /\ no_raw h'
  | HResize h _ _ | HClear h | HPush h _ | HPop h | HAppendSelf h | HShl h _ | HShr h _ | HSetRange h _ _ _ | HSet h _ _
  | HSetAll h | HResetAll h | HFlipRange h _ _ | HFlip h _ | HFlipAll h | HTestSet h _ _ => no_raw h
  end.
Lemma spec_width h B B' : no_raw h -> spec B h = spec B' h.
Proof.
  induction h; cbn [no_raw spec]; intros H; try reflexivity; try contradiction; try (rewrite IHh by auto; reflexivity); destruct H as [H1 H2]; rewrite IHh1, IHh2 by auto; reflexivity.
Qed.
Theorem bitset_width_invisible h l B B' : no_raw h -> spec B h = Some l -> 0 < B -> (exists d, d * B = 128) -> 0 < B' -> (exists d, d * B' = 128) ->
  exists s s', eval B h = Val s /\ eval B' h = Val s' /\ observed B s l /\ observed B' s' l.
Proof.
  intros Hn Hs HB HD HB' HD'. destruct (bitset_refines_list B HB HD h l Hs) as (s & E & O). rewrite (spec_width h B B' Hn) in Hs. destruct (bitset_refines_list B' HB' HD' h l Hs) as (s' & E' & O'). eauto 7.
Qed.
End Char.

(** ** Non-vacuity: a history over 8-bit blocks with 19 bits, ranges and shifts across blocks *)
From Coq Require Import Ascii.
Definition demo : hist :=
  HXor (HShl (HSetRange (HAppendSelf (HPop (HPush (HValue 9 0x155) true))) 3 12 true) 5)
       (HFlipRange (HResize (HString ["1"; "0"; "1"; "1"]%char 1 3) 18 true) 2 9).
Example demo_concrete : option_map number (spec Ascii.eqb "1"%char 8 demo) = Some 0x7a7%N /\
  eval Ascii.eqb "1"%char 8 demo = Val (mkBits [0xa7; 0x07; 0]%N 18) /\ no_raw demo /\
  eval Ascii.eqb "1"%char 64 demo = Val (mkBits [0x7a7]%N 18).
Proof. repeat split; vm_compute; reflexivity. Qed.
Example compare_concrete :
  bind (eval Ascii.eqb "1"%char 8 (HValue 9 0x101)) (fun s => bind (eval Ascii.eqb "1"%char 8 (HValue 20 0x101)) (fun t =>
  bind (less s t) (fun a => bind (less t s) (fun b => Val (a, b, eq s t, intersects s t))))) = Val (true, false, false, true).
Proof. vm_compute. reflexivity. Qed.
Example string_concrete :
  bind (eval Ascii.eqb "1"%char 8 (HValue 9 0x105)) (to_string 8 "0"%char "1"%char) = Val ["1"; "0"; "0"; "0"; "0"; "0"; "1"; "0"; "1"]%char /\
  read 8 Ascii.eqb "0"%char "1"%char ["1"; "1"; "0"; "x"; "1"]%char = Val (mkBits [6]%N 3, ["x"; "1"]%char).
Proof. split; vm_compute; reflexivity. Qed.

(** ** Outside the contract a release build goes on silently *)
(** set just past the size, inside the last block, leaves a bitset that is not equal to itself before although
    every bit agrees, and that has "any" bit set although it counts none. *)
Theorem set_past_size_refuted : exists s s', of_value 8 4 0 = Val s /\ set_bit 8 s 6 true = Val s' /\ bits s' = bits s /\
  (forall i, i < bits s -> test 8 s' i = test 8 s i) /\ eq s s' = false /\ any s' = true /\ count 8 s' = Val 0 /\
  (exists t, push_back 8 s' false = Val t /\ (exists u, push_back 8 t false = Val u /\ exists w, push_back 8 u false = Val w /\ test 8 w 6 = Val true)).
Proof.
  exists (mkBits [0%N] 4), (mkBits [64%N] 4). split; [vm_compute; reflexivity|]. split; [vm_compute; reflexivity|]. split; [reflexivity|]. split.
  - intros i Hi. cbn [bits] in Hi. do 4 (destruct i as [|i]; [vm_compute; reflexivity|]). lia.
  - repeat (split; [vm_compute; reflexivity|]). exists (mkBits [64%N] 5). split; [vm_compute; reflexivity|]. exists (mkBits [64%N] 6). split; [vm_compute; reflexivity|].
    exists (mkBits [64%N] 7). split; vm_compute; reflexivity.
Qed.
(** |= with a longer operand of as many blocks sets bits past the end. *)
Theorem or_longer_refuted : exists s t r, of_value 8 4 5 = Val s /\ of_value 8 8 0xf0 = Val t /\ or_eq s t = Val r /\
  (forall i, i < 4 -> test 8 r i = test 8 s i) /\ bits r = bits s /\ eq r s = false /\ find_next 8 r 2 = Val (Some 4).
Proof.
  exists (mkBits [5%N] 4), (mkBits [0xf0%N] 8), (mkBits [0xf5%N] 4). repeat (split; [vm_compute; reflexivity|]). split.
  - intros i Hi. do 4 (destruct i as [|i]; [vm_compute; reflexivity|]). lia.
  - repeat split; vm_compute; reflexivity.
Qed.
(** The string constructor with a start past the string reads out of bounds; test past the blocks too. *)
Theorem string_past_end_refuted : of_string 8 Ascii.eqb "1"%char ["1"; "0"]%char 3 2 = OutOfBounds /\ bind (of_value 8 4 0) (fun s => test 8 s 8) = OutOfBounds.
Proof. split; vm_compute; reflexivity. Qed.

Print Assumptions bitset_refines_list.
Print Assumptions bitset_compare.
Print Assumptions bitset_order.
Print Assumptions bitset_read.
Print Assumptions bitset_string_round_trip.
Print Assumptions bitset_width_invisible.
Print Assumptions demo_concrete.
Print Assumptions compare_concrete.
Print Assumptions string_concrete.
Print Assumptions set_past_size_refuted.
Print Assumptions or_longer_refuted.
Print Assumptions string_past_end_refuted.
