(** C61: the circuit file reader. *)
From Coq Require Import String Ascii NArith ZArith List Bool Arith Lia.
From Verif Require Import LinCodeModel CircuitModel CircuitProof CircuitProps BristolModel CircuitData.
Import ListNotations.
Open Scope nat_scope.

(** ** The format: decimal numbers, single spaces, one gate a line *)
Fixpoint dec_aux (fuel : nat) (n : N) : text :=
  match fuel with
  | O => []
  | S f => (if (n <? 10)%N then [] else dec_aux f (n / 10)) ++ [ascii_of_N (48 + n mod 10)]
  end.
(** Decimal digits; ten are enough below 2^32. *)
Definition dec (n : N) : text := dec_aux 10 n.
Fixpoint join (ws : list text) : text :=
  match ws with [] => [] | [w] => w | w :: ws' => w ++ sp :: join ws' end.
Definition op_word (o : gate_op) : text :=
  match o with XOR => w_XOR | AND => w_AND | INV => w_INV | EQ => w_EQ | EQW => w_EQW | MAND => w_MAND end.
Definition gate_line (g : gate) : text :=
  join (dec (N.of_nat (List.length (iw g))) :: dec (N.of_nat (List.length (ow g))) :: map dec (iw g) ++ map dec (ow g) ++ [op_word (g_op g)]).
Definition widths_line (l : list N) : text := join (dec (N.of_nat (List.length l)) :: map dec l).
Definition unlines (ls : list text) : text := concat (map (fun l => l ++ [nl]) ls).
Definition header (c : circuit) : text :=
  unlines [join [dec (ng c); dec (nw c)]; widths_line (niw c); widths_line (now c); []].
Definition print (c : circuit) : text := header c ++ unlines (map gate_line (gates c)).

(** Everything fits in 32 bits and every gate has the wires of its kind. *)
Definition small (n : N) : Prop := (n < 2 ^ 32)%N.
Definition gate_ok (g : gate) : Prop :=
  Forall small (iw g) /\ Forall small (ow g) /\
  match g_op g with
  | XOR | AND => List.length (iw g) = 2 /\ List.length (ow g) = 1
  | INV | EQ | EQW => List.length (iw g) = 1 /\ List.length (ow g) = 1
  | MAND => List.length (iw g) = 2 * List.length (ow g) /\ small (N.of_nat (3 * List.length (ow g) + 2))
  end.
Definition fields_ok (c : circuit) : Prop :=
  small (ng c) /\ small (nw c) /\ Forall small (niw c) /\ Forall small (now c) /\
  small (N.of_nat (S (List.length (niw c)))) /\ small (N.of_nat (S (List.length (now c)))).

(** ** Numbers *)
Definition is_digit (c : ascii) : Prop := exists d, (d < 10)%N /\ c = ascii_of_N (48 + d).
Lemma digit_char : forall d, (d < 10)%N -> digit (ascii_of_N (48 + d)) = Some d /\ is_space (ascii_of_N (48 + d)) = false /\
  Ascii.eqb (ascii_of_N (48 + d)) "+" = false /\ Ascii.eqb (ascii_of_N (48 + d)) sp = false /\ Ascii.eqb (ascii_of_N (48 + d)) nl = false.
Proof.
  intros d H. assert (K : In d (map N.of_nat (seq 0 10))).
  { apply in_map_iff. exists (N.to_nat d). split; [apply N2Nat.id|]. apply in_seq. lia. }
  cbn in K. repeat (destruct K as [<-|K]; [vm_compute; repeat split|]). contradiction.
Qed.
Lemma dec_aux_digits : forall f n, Forall is_digit (dec_aux f n).
Proof.
  induction f as [|f IH]; intro n; [constructor|]. cbn [dec_aux]. apply Forall_app. split; [destruct (n <? 10)%N; [constructor|apply IH]|].
  constructor; [|constructor]. exists (n mod 10)%N. split; [apply N.mod_lt; lia|reflexivity].
Qed.
Lemma dec_digits : forall n, Forall is_digit (dec n).
Proof. intro n. apply dec_aux_digits. Qed.
Lemma dec_nonempty : forall n, dec n <> [].
Proof. intros n E. unfold dec in E. cbn [dec_aux] in E. apply app_eq_nil in E. destruct E as [_ E]. discriminate. Qed.
Lemma digits_app : forall a t u, digits a (t ++ u) = match digits a t with Some b => digits b u | None => None end.
Proof.
  intros a t. revert a. induction t as [|c t IH]; intros a u; [reflexivity|]. cbn [app digits]. destruct (digit c); [|reflexivity].
  destruct (_ <? _)%N; [apply IH|reflexivity].
Qed.
Lemma digits_dec_aux : forall f n, (n < 10 ^ N.of_nat f)%N -> (0 < f) -> (n < 2 ^ 32)%N -> digits 0 (dec_aux f n) = Some n.
Proof.
  induction f as [|f IH]; intros n H Hf Hs; [lia|]. cbn [dec_aux]. rewrite digits_app.
  destruct (digit_char (n mod 10)) as [D _]; [apply N.mod_lt; lia|].
  pose proof (N.div_mod n 10 ltac:(lia)) as E. pose proof (N.mod_lt n 10 ltac:(lia)) as B.
  destruct (N.ltb_spec n 10) as [Hn|Hn].
  - cbn [digits]. rewrite D. rewrite N.mod_small by exact Hn. change (0 * 10 + n)%N with n.
    destruct (N.ltb_spec n (2 ^ 32)); [reflexivity|lia].
  - assert (Hq : (n / 10 < 10 ^ N.of_nat f)%N).
    { apply N.div_lt_upper_bound; [lia|]. replace (N.of_nat (S f)) with (N.succ (N.of_nat f)) in H by lia. rewrite N.pow_succ_r' in H. exact H. }
    assert (Hle : (n / 10 < 2 ^ 32)%N) by (apply N.div_lt_upper_bound; [lia|]; clear - Hs; lia).
    rewrite IH; [|exact Hq| |exact Hle].
    + cbn [digits]. rewrite D. replace (n / 10 * 10 + n mod 10)%N with n by lia. destruct (N.ltb_spec n (2 ^ 32)); [reflexivity|lia].
    + destruct f; [|lia]. change (10 ^ N.of_nat 0)%N with 1%N in Hq. lia.
Qed.
Lemma strip_digits : forall t, Forall is_digit t -> strip t = t.
Proof.
  intros [|c t] H; [reflexivity|]. apply Forall_inv in H. destruct H as [d [Hd E]]. cbn [strip]. destruct (digit_char d Hd) as [_ [S _]]. rewrite E, S. reflexivity.
Qed.
Lemma atoi_dec : forall n, small n -> atoi (dec n) = Some n.
Proof.
  intros n H. unfold atoi. rewrite (strip_digits (dec n)) by apply dec_digits.
  rewrite strip_digits by (apply Forall_rev; apply dec_digits). rewrite rev_involutive.
  pose proof (dec_nonempty n) as NE. pose proof (dec_digits n) as DD.
  assert (digits 0 (dec n) = Some n) as R.
  { apply digits_dec_aux; [|lia|exact H]. unfold small in H. change (N.of_nat 10) with 10%N. etransitivity; [exact H|]. reflexivity. }
  destruct (dec n) as [|c t]; [contradiction|]. apply Forall_inv in DD. destruct DD as [d [Hd Ec]].
  destruct (digit_char d Hd) as [_ [_ [E _]]]. rewrite <- Ec in E. rewrite E. exact R.
Qed.

(** Any run of digits is read as the number it spells, or refused if that needs more than 32 bits. *)
Definition spells (t : text) : N := fold_left (fun a c => (a * 10 + (N_of_ascii c - 48))%N) t 0%N.
Theorem atoi_value : forall t, t <> [] -> Forall is_digit t -> atoi t = if (spells t <? 2 ^ 32)%N then Some (spells t) else None.
Proof.
  intros t Hn H. unfold atoi. rewrite (strip_digits t) by exact H. rewrite strip_digits by (apply Forall_rev; exact H). rewrite rev_involutive.
  assert (R : forall t a, Forall is_digit t -> small a ->
    let n := fold_left (fun a c => (a * 10 + (N_of_ascii c - 48))%N) t a in digits a t = if (n <? 2 ^ 32)%N then Some n else None).
  { clear. induction t as [|c t IH]; intros a H Ha; cbv zeta; cbn [digits fold_left].
    - destruct (N.ltb_spec a (2 ^ 32)); [reflexivity|unfold small in Ha; lia].
    - inversion H as [|? ? [d [Hd Ec]] Ht]; subst. destruct (digit_char d Hd) as [D _]. rewrite D.
      assert (V : (N_of_ascii (ascii_of_N (48 + d)) - 48)%N = d) by (rewrite N_ascii_embedding; lia). rewrite V.
      destruct (N.ltb_spec (a * 10 + d) (2 ^ 32)) as [Hl|Hl]; [exact (IH _ Ht Hl)|].
      assert (G : forall t b, (2 ^ 32 <= b)%N -> (2 ^ 32 <= fold_left (fun a c => (a * 10 + (N_of_ascii c - 48))%N) t b)%N).
      { clear. induction t as [|c t IH]; intros b Hb; cbn [fold_left]; [exact Hb|]. apply IH. lia. }
      specialize (G t _ Hl). destruct (N.ltb_spec (fold_left (fun a c => (a * 10 + (N_of_ascii c - 48))%N) t (a * 10 + d)%N) (2 ^ 32)); [lia|reflexivity]. }
  destruct t as [|c t]; [contradiction|]. assert (E : Ascii.eqb c "+" = false).
  { apply Forall_inv in H. destruct H as [d [Hd ->]]. apply digit_char. exact Hd. }
  rewrite E. exact (R (c :: t) 0%N H eq_refl).
Qed.

(** ** Words and lines *)
Definition word (w : text) : Prop := Forall (fun c => Ascii.eqb c sp = false /\ Ascii.eqb c nl = false) w.
Lemma word_dec : forall n, word (dec n).
Proof.
  intro n. eapply Forall_impl; [|apply dec_digits]. intros c [d [Hd ->]]. destruct (digit_char d Hd) as [_ [_ [_ K]]]. exact K.
Qed.
Lemma word_op : forall o, word (op_word o).
Proof. intros []; repeat constructor. Qed.
Lemma split_word : forall w, word w -> split w = [w].
Proof. induction 1 as [|c w [H _] _ IH]; [reflexivity|]. cbn [split]. rewrite H, IH. reflexivity. Qed.
Lemma split_cons : forall w t, word w -> split (w ++ sp :: t) = w :: split t.
Proof.
  induction 1 as [|c w [H _] _ IH]; [reflexivity|]. cbn [app split]. rewrite H, IH. reflexivity.
Qed.
Lemma split_join : forall ws, ws <> [] -> Forall word ws -> split (join ws) = ws.
Proof.
  induction ws as [|w ws IH]; intros Hn H; [contradiction|]. inversion H; subst. destruct ws as [|w2 ws].
  - apply split_word. assumption.
  - change (join (w :: w2 :: ws)) with (w ++ sp :: join (w2 :: ws)). rewrite split_cons by assumption. f_equal. apply IH; [discriminate|assumption].
Qed.
Definition one_line (t : text) : Prop := Forall (fun c => Ascii.eqb c nl = false) t.
Lemma join_one_line : forall ws, Forall word ws -> one_line (join ws).
Proof.
  induction ws as [|w ws IH]; intro H; [constructor|]. inversion H as [|? ? Hw Hs]; subst.
  assert (Hl : one_line w) by (eapply Forall_impl; [|exact Hw]; intros c Hc; apply Hc).
  destruct ws as [|w2 ws]; [exact Hl|]. change (join (w :: w2 :: ws)) with (w ++ sp :: join (w2 :: ws)).
  apply Forall_app. split; [exact Hl|]. constructor; [reflexivity|]. apply IH. exact Hs.
Qed.
Lemma cut_line : forall l t, one_line l -> cut (l ++ nl :: t) = Some (l, t).
Proof. induction 1 as [|c l H _ IH]; [reflexivity|]. cbn [app cut]. rewrite H, IH. reflexivity. Qed.
Lemma cut_none : forall l, one_line l -> cut l = None.
Proof. induction 1 as [|c l H _ IH]; [reflexivity|]. cbn [cut]. rewrite H, IH. reflexivity. Qed.
Lemma get_line_line : forall l t old, one_line l -> get_line (mkStream (l ++ nl :: t) false) old = (l, mkStream t false).
Proof. intros l t old H. unfold get_line. cbn [eof rest]. rewrite cut_line by exact H. reflexivity. Qed.

Lemma nums_dec : forall l ws, Forall small l -> nums (map dec l ++ ws) (N.of_nat (List.length l)) = Val l.
Proof.
  induction l as [|x l IH]; intros ws H; [destruct ws; reflexivity|]. inversion H; subst. cbn [map app List.length nums].
  destruct (N.eqb_spec (N.of_nat (S (List.length l))) 0); [lia|]. rewrite atoi_dec by assumption. cbn [must bind].
  replace (N.of_nat (S (List.length l)) - 1)%N with (N.of_nat (List.length l)) by lia. rewrite IH by assumption. reflexivity.
Qed.
Lemma words_dec : forall l, Forall word (map dec l).
Proof. intro l. apply Forall_forall. intros w Hw. apply in_map_iff in Hw. destruct Hw as [n [<- _]]. apply word_dec. Qed.
Lemma read_widths_line : forall l, Forall small l -> small (N.of_nat (S (List.length l))) -> read_widths (widths_line l) = Val l.
Proof.
  intros l H Hl. unfold read_widths, widths_line. rewrite split_join; [|discriminate|constructor; [apply word_dec|apply words_dec]].
  cbn [tok nth_error N.to_nat bind]. rewrite atoi_dec by (unfold small in *; lia). cbn [must bind].
  rewrite N.mod_small by (unfold small in *; lia). cbn [List.length]. rewrite map_length.
  destruct (N.leb_spec (N.of_nat (List.length l) + 1) (N.of_nat (S (List.length l)))); [|lia]. cbn [enforce bind skipn].
  rewrite <- (app_nil_r (map dec l)). apply nums_dec. exact H.
Qed.
Lemma widths_one_line : forall l, one_line (widths_line l).
Proof. intro l. apply join_one_line. constructor; [apply word_dec|apply words_dec]. Qed.
Lemma gate_words : forall g, Forall word (dec (N.of_nat (List.length (iw g))) :: dec (N.of_nat (List.length (ow g))) :: map dec (iw g) ++ map dec (ow g) ++ [op_word (g_op g)]).
Proof.
  intro g. constructor; [apply word_dec|]. constructor; [apply word_dec|]. apply Forall_app. split; [apply words_dec|].
  apply Forall_app. split; [apply words_dec|]. constructor; [apply word_op|constructor].
Qed.
Lemma gate_one_line : forall g, one_line (gate_line g).
Proof. intro g. apply join_one_line. apply gate_words. Qed.
Lemma read_gate_line : forall g, gate_ok g -> read_gate (gate_line g) = Val g.
Proof.
  intros [i o op] [Hi [Ho Ha]]. cbn [iw ow g_op] in *. unfold read_gate, gate_line. cbn [iw ow g_op].
  rewrite split_join; [|discriminate|exact (gate_words (mkGate i o op))].
  set (ws := dec _ :: _).
  assert (Hsum : small (N.of_nat (List.length i) + N.of_nat (List.length o) + 2)%N).
  { unfold small in *. destruct op; destruct Ha as [Ha Hb]; rewrite Ha; try rewrite Hb; try (cbn; lia); lia. }
  assert (Li : small (N.of_nat (List.length i))) by (unfold small in *; lia).
  assert (Lo : small (N.of_nat (List.length o))) by (unfold small in *; lia).
  unfold ws at 1. cbn [tok nth_error N.to_nat bind]. rewrite atoi_dec by exact Li. cbn [must bind].
  unfold ws at 1. unfold tok at 1. change (N.to_nat 1) with 1. cbn [nth_error bind]. rewrite atoi_dec by exact Lo. cbn [must bind].
  rewrite N.mod_small by exact Hsum. rewrite (N.mod_small (2 + N.of_nat (List.length i))) by (unfold small in *; lia).
  assert (Lw : List.length ws = List.length i + List.length o + 3).
  { unfold ws. cbn [List.length]. rewrite !app_length, !map_length. cbn [List.length]. lia. }
  destruct (N.ltb_spec (N.of_nat (List.length i) + N.of_nat (List.length o) + 2) (N.of_nat (List.length ws))); [|lia]. cbn [enforce bind].
  change (skipn 2 ws) with (map dec i ++ map dec o ++ [op_word op]). rewrite nums_dec by exact Hi. cbn [bind].
  replace (N.to_nat (2 + N.of_nat (List.length i))) with (S (S (List.length i))) by lia.
  change (skipn (S (S (List.length i))) ws) with (skipn (List.length i) (map dec i ++ map dec o ++ [op_word op])).
  rewrite skipn_app, skipn_all2 by (rewrite map_length; lia). rewrite map_length, Nat.sub_diag. cbn [app skipn].
  rewrite nums_dec by exact Ho. cbn [bind]. unfold tok.
  replace (N.to_nat (N.of_nat (List.length i) + N.of_nat (List.length o) + 2)) with (S (S (List.length i + List.length o))) by lia.
  unfold ws. cbn [nth_error]. rewrite nth_error_app2 by (rewrite map_length; lia). rewrite map_length.
  rewrite nth_error_app2 by (rewrite map_length; lia). rewrite map_length.
  replace (List.length i + List.length o - List.length i - List.length o) with 0 by lia. cbn [nth_error bind].
  destruct op; cbn [op_word same w_XOR w_AND w_INV w_EQ w_EQW w_MAND Ascii.eqb Bool.eqb andb];
    try (destruct Ha as [-> ->]; reflexivity).
  destruct Ha as [Ha Hb]. destruct (N.eqb_spec (N.of_nat (List.length i)) ((N.of_nat (List.length o) * 2) mod 2 ^ 32)) as [_|N0]; [reflexivity|].
  exfalso. apply N0. rewrite N.mod_small by (unfold small in *; lia). lia.
Qed.
Lemma unlines_cons : forall l ls, unlines (l :: ls) = l ++ nl :: unlines ls.
Proof. intros l ls. unfold unlines. cbn [map concat]. rewrite <- app_assoc. reflexivity. Qed.
Lemma read_gates_lines : forall gs t old, Forall gate_ok gs ->
  read_gates (List.length gs) (mkStream (unlines (map gate_line gs) ++ t) false) old = Val gs.
Proof.
  induction gs as [|g gs IH]; intros t old H; [reflexivity|]. inversion H; subst. cbn [List.length map read_gates].
  rewrite unlines_cons, <- app_assoc, <- app_comm_cons, get_line_line by apply gate_one_line.
  rewrite read_gate_line by assumption. cbn [bind]. rewrite IH by assumption. reflexivity.
Qed.

(** Reading the header leaves the reader on the first gate line. *)
Lemma read_header : forall c t, fields_ok c ->
  read_file (header c ++ t) =
  bind (read_gates (N.to_nat (ng c)) (mkStream t false) []) (fun gs => Val (mkCircuit (ng c) (nw c) (niw c) (now c) gs)).
Proof.
  intros c t (Hg & Hw & Hi & Ho & Li & Lo). unfold read_file, header. rewrite !unlines_cons.
  change (unlines []) with (@nil ascii). rewrite <- app_assoc, <- app_comm_cons.
  assert (W : Forall word [dec (ng c); dec (nw c)]) by (repeat constructor; apply word_dec).
  rewrite get_line_line by (apply join_one_line; exact W).
  rewrite split_join; [|discriminate|exact W]. cbn [List.length Nat.eqb enforce bind]. cbn [tok nth_error N.to_nat bind].
  rewrite atoi_dec by exact Hg. cbn [must bind]. unfold tok. change (N.to_nat 1) with 1. cbn [nth_error bind].
  rewrite atoi_dec by exact Hw. cbn [must bind].
  rewrite <- app_assoc, <- app_comm_cons. rewrite get_line_line by apply widths_one_line. rewrite read_widths_line by assumption. cbn [bind].
  rewrite <- app_assoc, <- app_comm_cons. rewrite get_line_line by apply widths_one_line. rewrite read_widths_line by assumption. cbn [bind].
  cbn [rest]. cbn [app]. reflexivity.
Qed.

(** ** C61 *)
(** Reading back a written circuit; whatever follows the last gate is ignored. *)
Theorem read_print : forall c t, fields_ok c -> Forall gate_ok (gates c) -> ng c = N.of_nat (List.length (gates c)) ->
  read_file (print c ++ t) = Val c.
Proof.
  intros c t Hf Hg Hn. unfold print. rewrite <- app_assoc, read_header by exact Hf. rewrite Hn, Nat2N.id, read_gates_lines by exact Hg.
  cbn [bind]. rewrite <- Hn. destruct c; reflexivity.
Qed.

(** A file that ends, with a newline, before all its gates is refused. *)
Theorem read_truncated : forall c gs, fields_ok c -> Forall gate_ok gs -> (N.of_nat (List.length gs) < ng c)%N ->
  read_file (header c ++ unlines (map gate_line gs)) = Thrown.
Proof.
  intros c gs Hf Hg Hn. rewrite read_header by exact Hf.
  assert (K : forall n gs old, List.length gs < n -> Forall gate_ok gs -> read_gates n (mkStream (unlines (map gate_line gs)) false) old = Thrown).
  { clear. induction n as [|n IH]; intros gs old Hl H; [lia|]. destruct gs as [|g gs].
    - cbn [map read_gates]. change (unlines []) with (@nil ascii). reflexivity.
    - inversion H; subst. cbn [map read_gates]. rewrite unlines_cons, get_line_line by apply gate_one_line.
      rewrite read_gate_line by assumption. cbn [bind]. rewrite IH; [reflexivity|cbn [List.length] in Hl; lia|assumption]. }
  rewrite K; [reflexivity|lia|exact Hg].
Qed.

(** If the last line lacks its newline, the missing gates are taken to be copies of it. *)
Theorem read_truncated_copies : forall c gs g, fields_ok c -> Forall gate_ok (gs ++ [g]) ->
  (N.of_nat (List.length gs) < ng c)%N ->
  read_file (header c ++ unlines (map gate_line gs) ++ gate_line g) =
  Val (mkCircuit (ng c) (nw c) (niw c) (now c) (gs ++ repeat g (N.to_nat (ng c) - List.length gs))).
Proof.
  intros c gs g Hf Hg Hn. rewrite read_header by exact Hf.
  assert (G : gate_ok g) by (apply Forall_app in Hg; destruct Hg as [_ Hg]; inversion Hg; assumption).
  assert (R : forall n, read_gates n (mkStream [] true) (gate_line g) = Val (repeat g n)).
  { induction n as [|n IH]; [reflexivity|]. cbn [read_gates get_line eof repeat]. rewrite read_gate_line by exact G. cbn [bind]. rewrite IH. reflexivity. }
  assert (K : forall n gs old, List.length gs < n -> Forall gate_ok gs ->
    read_gates n (mkStream (unlines (map gate_line gs) ++ gate_line g) false) old = Val (gs ++ repeat g (n - List.length gs))).
  { clear - R G. induction n as [|n IH]; intros gs old Hl H; [lia|]. destruct gs as [|h gs].
    - cbn [map read_gates]. change (unlines []) with (@nil ascii). cbn [app]. unfold get_line. cbn [eof rest].
      rewrite cut_none by apply gate_one_line. rewrite read_gate_line by exact G. cbn [bind]. rewrite R. cbn [bind List.length].
      rewrite Nat.sub_0_r. reflexivity.
    - inversion H; subst. cbn [map read_gates]. rewrite unlines_cons, <- app_assoc, <- app_comm_cons, get_line_line by apply gate_one_line.
      rewrite read_gate_line by assumption. cbn [bind]. rewrite IH; [reflexivity|cbn [List.length] in Hl; lia|assumption]. }
  rewrite K; [reflexivity|lia|]. apply Forall_app in Hg. tauto.
Qed.

(** What is accepted is well shaped: as many gates as announced, each with the wires of its kind,
    and nothing above 32 bits. *)
Lemma bind_val : forall A B (x : outcome A) (f : A -> outcome B) b, bind x f = Val b -> exists a, x = Val a /\ f a = Val b.
Proof. intros A B [a| | |] f b E; try discriminate. exists a. split; [reflexivity|exact E]. Qed.
Lemma digits_small : forall t a n, small a -> digits a t = Some n -> small n.
Proof.
  induction t as [|c t IH]; intros a n H E; cbn [digits] in E; [injection E as <-; exact H|].
  destruct (digit c); [|discriminate]. destruct (N.ltb_spec (a * 10 + n0) (2 ^ 32)); [|discriminate]. eapply IH; [|exact E]. assumption.
Qed.
Lemma atoi_small : forall t n, atoi t = Some n -> small n.
Proof.
  intros t n E. unfold atoi in E. destruct (rev (strip (rev (strip t)))) as [|c u]; [discriminate|].
  destruct (Ascii.eqb c "+"); [destruct u; [discriminate|]|]; eapply digits_small; try exact E; reflexivity.
Qed.
Lemma must_small : forall t n, must (atoi t) = Val n -> small n.
Proof. intros t n E. unfold must in E. destruct (atoi t) as [k|] eqn:A; [|discriminate]. injection E as <-. exact (atoi_small _ _ A). Qed.
Lemma nums_val : forall ws n l, nums ws n = Val l -> N.of_nat (List.length l) = n /\ Forall small l.
Proof.
  induction ws as [|w ws IH]; intros n l E; cbn [nums] in E; destruct (N.eqb_spec n 0) as [->|Hn];
    try discriminate; try (injection E as <-; split; [reflexivity|constructor]).
  apply bind_val in E. destruct E as [x [Ex E]]. apply bind_val in E. destruct E as [r [Er E]]. injection E as <-.
  destruct (IH _ _ Er) as [L F]. split; [cbn [List.length]; lia|]. constructor; [exact (must_small _ _ Ex)|exact F].
Qed.
Lemma enforce_val : forall b u, enforce b = Val u -> b = true.
Proof. intros [] u E; [reflexivity|discriminate]. Qed.
Definition gate_shape (g : gate) : Prop :=
  Forall small (iw g) /\ Forall small (ow g) /\
  match g_op g with
  | XOR | AND => List.length (iw g) = 2 /\ List.length (ow g) = 1
  | INV | EQ | EQW => List.length (iw g) = 1 /\ List.length (ow g) = 1
  | MAND => (N.of_nat (List.length (iw g)) = (N.of_nat (List.length (ow g)) * 2) mod 2 ^ 32)%N
  end.
Lemma read_gate_shape : forall t g, read_gate t = Val g -> gate_shape g.
Proof.
  intros t g E. unfold read_gate in E.
  apply bind_val in E. destruct E as [t0 [_ E]]. apply bind_val in E. destruct E as [ni [_ E]].
  apply bind_val in E. destruct E as [t1 [_ E]]. apply bind_val in E. destruct E as [no [_ E]].
  apply bind_val in E. destruct E as [u [_ E]].
  apply bind_val in E. destruct E as [i [Ei E]]. apply bind_val in E. destruct E as [o [Eo E]].
  apply bind_val in E. destruct E as [op [_ E]].
  destruct (nums_val _ _ _ Ei) as [Li Fi]. destruct (nums_val _ _ _ Eo) as [Lo Fo].
  assert (G : forall b k, bind (enforce b) (fun _ => Val (mkGate i o k)) = Val g -> b = true /\ g = mkGate i o k).
  { intros b k B. apply bind_val in B. destruct B as [x [Ex B]]. split; [exact (enforce_val _ _ Ex)|]. congruence. }
  repeat match type of E with
  | (if ?b then _ else _) = _ => destruct b
  end; try discriminate; apply G in E; destruct E as [B ->]; try apply andb_true_iff in B;
  (split; [exact Fi|]; split; [exact Fo|]; cbn [g_op iw ow]);
  try (destruct B as [B1 B2]; apply N.eqb_eq in B1; apply N.eqb_eq in B2; split; lia).
  apply N.eqb_eq in B. rewrite Li, Lo. exact B.
Qed.
Theorem read_shape : forall t c, read_file t = Val c ->
  ng c = N.of_nat (List.length (gates c)) /\ small (ng c) /\ small (nw c) /\ Forall small (niw c) /\ Forall small (now c) /\ Forall gate_shape (gates c).
Proof.
  intros t c E. unfold read_file in E.
  destruct (get_line (mkStream t false) []) as [l1 s1].
  apply bind_val in E. destruct E as [u [_ E]]. apply bind_val in E. destruct E as [a [_ E]].
  apply bind_val in E. destruct E as [n [En E]]. apply bind_val in E. destruct E as [b [_ E]].
  apply bind_val in E. destruct E as [w [Ew E]]. destruct (get_line s1 l1) as [l2 s2].
  apply bind_val in E. destruct E as [ins [Ei E]]. destruct (get_line s2 l2) as [l3 s3].
  apply bind_val in E. destruct E as [outs [Eo E]]. destruct (get_line (mkStream (rest s3) false) []) as [l4 s4].
  apply bind_val in E. destruct E as [gs [Eg E]]. injection E as <-. cbn [ng nw niw now gates].
  assert (Wd : forall l r, read_widths l = Val r -> Forall small r).
  { intros l r R. unfold read_widths in R. apply bind_val in R. destruct R as [? [_ R]]. apply bind_val in R. destruct R as [? [_ R]].
    apply bind_val in R. destruct R as [? [_ R]]. exact (proj2 (nums_val _ _ _ R)). }
  assert (K : forall k s old r, read_gates k s old = Val r -> List.length r = k /\ Forall gate_shape r).
  { induction k as [|k IH]; intros s old r R; cbn [read_gates] in R; [injection R as <-; split; [reflexivity|constructor]|].
    destruct (get_line s old) as [line s']. apply bind_val in R. destruct R as [g [Rg R]]. apply bind_val in R. destruct R as [r' [Rr R]].
    injection R as <-. destruct (IH _ _ _ Rr) as [L F]. split; [cbn [List.length]; lia|]. constructor; [exact (read_gate_shape _ _ Rg)|exact F]. }
  destruct (K _ _ _ _ Eg) as [L F]. split; [lia|]. split; [exact (must_small _ _ En)|]. split; [exact (must_small _ _ Ew)|].
  split; [exact (Wd _ _ Ei)|]. split; [exact (Wd _ _ Eo)|exact F].
Qed.
Print Assumptions atoi_value.
Print Assumptions read_print.
Print Assumptions read_truncated.
Print Assumptions read_truncated_copies.
Print Assumptions read_shape.

(** ** Hostile files *)
Definition file (ls : list string) : text := unlines (map list_ascii_of_string ls).
(** A malformed file need not end in an exception: a gate line of one word makes the reader use
    a vector element that is not there, and so do counts that wrap around in 32 bits. *)
Theorem malformed_refuted : exists t1 t2 t3,
  read_file t1 = OutOfBounds /\ read_file t2 = OutOfBounds /\ read_file t3 = OutOfBounds.
Proof.
  exists (file ["1 3"; "2 1 1"; "1 1"; ""; "2"]%string),
         (file ["1 3"; "4294967295 1 1"; "1 1"; ""; "2 1 0 1 2 XOR"]%string),
         (file ["1 3"; "2 1 1"; "1 1"; ""; "4294967295 0"]%string).
  vm_compute. repeat split.
Qed.
Print Assumptions malformed_refuted.
Example one_gate : read_file (file ["1 3"; "2 1 1"; "1 1"; ""; "2 1 0 1 2 AND"]%string) = Val (mkCircuit 1 3 [1; 1]%N [1]%N [G2 AND 0 1 2]).
Proof. reflexivity. Qed.
Example printed : print (mkCircuit 1 300 [1; 1]%N [1]%N [G2 AND 0 1 299]) = file ["1 300"; "2 1 1"; "1 1"; ""; "2 1 0 1 299 AND"]%string.
Proof. reflexivity. Qed.
