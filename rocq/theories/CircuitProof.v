(** Lemmas about the circuit executor model. *)
From Coq Require Import List NArith Bool Arith Lia.
From Verif Require Import LinCodeModel CircuitModel.
Import ListNotations.
Open Scope nat_scope.

(** * What a circuit means *)

(** A valuation of the wires, and the value a gate of the Bristol Fashion format puts on its
    output wire. *)
Definition arg (g : gate) (k : nat) : N := nth k (iw g) 0%N.
Definition out (g : gate) : N := nth 0 (ow g) 0%N.
Definition gate_value (v : N -> bool) (g : gate) : bool :=
  match g_op g with
  | XOR => xorb (v (arg g 0)) (v (arg g 1))
  | AND => v (arg g 0) && v (arg g 1)
  | INV => negb (v (arg g 0))
  | EQ => negb (arg g 0 =? 0)%N
  | EQW => v (arg g 0)
  | MAND => false
  end.
Definition holds (v : N -> bool) (g : gate) : Prop := v (out g) = gate_value v g.
(** The wires a gate reads. *)
Definition reads (g : gate) : list N :=
  match g_op g with XOR | AND => [arg g 0; arg g 1] | INV | EQW => [arg g 0] | EQ | MAND => [] end.
Definition arity (o : gate_op) : nat := match o with XOR | AND => 2 | INV | EQ | EQW => 1 | MAND => 0 end.
Definition shaped (g : gate) : Prop := g_op g <> MAND /\ arity (g_op g) <= length (iw g) /\ 1 <= length (ow g).
(** Gates in an order in which every wire is written once, after the wires it depends on. *)
Fixpoint wf (n : N) (defined : N -> Prop) (gs : list gate) : Prop :=
  match gs with
  | [] => True
  | g :: gs' => shaped g /\ Forall defined (reads g) /\ ~ defined (out g) /\ (out g < n)%N /\
                wf n (fun i => defined i \/ i = out g) gs'
  end.
Definition wire (w : list bool) (i : N) : bool := nth (N.to_nat i) w false.

Lemma length_set_bit : forall w i b, length (set_bit w i b) = length w.
Proof. induction w as [|x w IH]; intros [|i] b; cbn [set_bit length]; congruence. Qed.
Lemma nth_set_bit : forall w i b j, i < length w -> nth j (set_bit w i b) false = if j =? i then b else nth j w false.
Proof.
  induction w as [|x w IH]; intros [|i] b j Hi; cbn [length] in Hi; [lia|lia| |].
  - destruct j; reflexivity.
  - destruct j; cbn [set_bit nth]; [reflexivity|]. rewrite IH by lia. reflexivity.
Qed.
Lemma get_wire : forall w i, N.to_nat i < length w -> get w i = Val (wire w i).
Proof. intros w i H. unfold get, wire. rewrite (nth_error_nth' w false H). reflexivity. Qed.
Lemma at_nth : forall l k, k < length l -> at_ l k = Val (nth k l 0%N).
Proof. intros l k H. unfold at_. rewrite (nth_error_nth' l 0%N H). reflexivity. Qed.

Lemma exec_gate_ok : forall w g, shaped g -> Forall (fun i => N.to_nat i < length w) (reads g) ->
  N.to_nat (out g) < length w -> exec_gate w g = Val (set_bit w (N.to_nat (out g)) (gate_value (wire w) g)).
Proof.
  intros w g [Hm [Hi Ho]] Hr Hw. unfold exec_gate, gate_value, reads, arg, out in *.
  assert (Hset : forall b, bind (at_ (ow g) 0) (fun o => set w o b) = Val (set_bit w (N.to_nat (nth 0 (ow g) 0%N)) b)).
  { intro b. rewrite at_nth by lia. cbn [bind]. unfold set. apply Nat.ltb_lt in Hw. rewrite Hw. reflexivity. }
  destruct (g_op g); cbn [arity] in Hi; [| | | | |congruence]; repeat rewrite (Forall_cons_iff) in Hr.
  - destruct Hr as [H0 [H1 _]].
    rewrite (at_nth (iw g) 0), (at_nth (iw g) 1) by lia. cbn [bind]. rewrite get_wire by assumption. cbn [bind].
    rewrite get_wire by assumption. cbn [bind]. apply Hset.
  - destruct Hr as [H0 [H1 _]].
    rewrite (at_nth (iw g) 0), (at_nth (iw g) 1) by lia. cbn [bind]. rewrite get_wire by assumption. cbn [bind].
    rewrite get_wire by assumption. cbn [bind]. apply Hset.
  - destruct Hr as [H0 _]. rewrite (at_nth (iw g) 0) by lia. cbn [bind]. rewrite get_wire by assumption. cbn [bind]. apply Hset.
  - rewrite (at_nth (iw g) 0) by lia. specialize (Hset (negb (nth 0 (iw g) 0 =? 0)%N)).
    rewrite at_nth in * by lia. cbn [bind] in *. exact Hset.
  - destruct Hr as [H0 _]. rewrite (at_nth (iw g) 0) by lia. cbn [bind]. rewrite get_wire by assumption. cbn [bind]. apply Hset.
Qed.

Lemma wire_set_bit : forall w i b j, N.to_nat i < length w ->
  wire (set_bit w (N.to_nat i) b) j = if (j =? i)%N then b else wire w j.
Proof.
  intros w i b j H. unfold wire. rewrite nth_set_bit by assumption.
  destruct (N.eqb_spec j i) as [->|Hn]; [rewrite Nat.eqb_refl; reflexivity|].
  destruct (Nat.eqb_spec (N.to_nat j) (N.to_nat i)); [exfalso; apply Hn; lia|reflexivity].
Qed.
Lemma gate_value_ext : forall v v' g, (forall i, In i (reads g) -> v i = v' i) -> gate_value v g = gate_value v' g.
Proof.
  intros v v' g H. unfold gate_value, reads in *. destruct (g_op g); cbn [In] in H; try reflexivity;
  repeat rewrite H by auto; reflexivity.
Qed.

Lemma exec_inv : forall gs n (d : N -> Prop) w, wf n d gs -> length w = N.to_nat n -> (forall i, d i -> (i < n)%N) ->
  exists w', exec gs w = Val w' /\ length w' = N.to_nat n /\ (forall i, d i -> wire w' i = wire w i) /\
             Forall (holds (wire w')) gs.
Proof.
  induction gs as [|g gs IH]; intros n d w Hwf Hl Hd.
  - exists w. repeat split; auto.
  - destruct Hwf as [Hs [Hr [Hno [Ho Hwf]]]].
    assert (How : N.to_nat (out g) < length w) by lia.
    cbn [exec]. rewrite exec_gate_ok; [|assumption| |assumption].
    2:{ apply Forall_impl with (2 := Hr). intros i Hi. specialize (Hd i Hi). lia. }
    cbn [bind]. set (w1 := set_bit w (N.to_nat (out g)) (gate_value (wire w) g)).
    destruct (IH n _ w1 Hwf) as [w' [E [L [K F]]]].
    { unfold w1. rewrite length_set_bit. exact Hl. }
    { intros i [Hi| ->]; auto. }
    exists w'. split; [exact E|]. split; [exact L|].
    assert (K0 : forall i, d i -> wire w' i = wire w i).
    { intros i Hi. rewrite K by (left; exact Hi). unfold w1. rewrite wire_set_bit by assumption.
      destruct (N.eqb_spec i (out g)) as [->|]; [contradiction|reflexivity]. }
    split; [exact K0|]. constructor; [|exact F].
    unfold holds. rewrite K by (right; reflexivity). unfold w1. rewrite wire_set_bit by assumption. rewrite N.eqb_refl.
    apply gate_value_ext. intros i Hi. symmetry. apply K0. rewrite Forall_forall in Hr. exact (Hr i Hi).
Qed.

(** Every wire that is defined in the end. *)
Fixpoint written (d : N -> Prop) (gs : list gate) : N -> Prop :=
  match gs with [] => d | g :: gs' => written (fun i => d i \/ i = out g) gs' end.
Lemma written_iff : forall gs (d : N -> Prop) i, written d gs i <-> d i \/ In i (map out gs).
Proof.
  induction gs as [|g gs IH]; intros d i; cbn [written map In]; [tauto|]. rewrite IH. split; intros [H|H]; [destruct H as [H| ->]| |left|]; auto.
  destruct H as [<-|H]; auto.
Qed.
Lemma unique : forall gs n (d : N -> Prop) v v', wf n d gs -> (forall i, d i -> v i = v' i) ->
  Forall (holds v) gs -> Forall (holds v') gs -> forall i, written d gs i -> v i = v' i.
Proof.
  induction gs as [|g gs IH]; intros n d v v' Hwf Hd H H' i Hi; [exact (Hd i Hi)|].
  destruct Hwf as [_ [Hr [_ [_ Hwf]]]]. inversion H as [|? ? Hg Hgs]; subst. inversion H' as [|? ? Hg' Hgs']; subst.
  cbn [written] in Hi. refine (IH n _ v v' Hwf _ Hgs Hgs' i Hi).
  intros j [Hj| ->]; [exact (Hd j Hj)|]. unfold holds in *. rewrite Hg, Hg'. apply gate_value_ext.
  intros k Hk. apply Hd. rewrite Forall_forall in Hr. exact (Hr k Hk).
Qed.

(** * Inputs *)
Lemma length_bits_of : forall b x, length (bits_of b x) = b.
Proof. intros. unfold bits_of. rewrite map_length, seq_length. reflexivity. Qed.
Lemma length_image : forall b xs, length (image b xs) = b * length xs.
Proof.
  intros b xs. unfold image. induction xs as [|x xs IH]; cbn [map concat length]; [lia|].
  rewrite app_length, length_bits_of, IH. lia.
Qed.
Lemma nth_bits_of : forall b x k, k < b -> nth k (bits_of b x) false = N.testbit x (N.of_nat k).
Proof.
  intros b x k Hk. unfold bits_of. rewrite (nth_indep _ false (N.testbit x (N.of_nat 0))) by (rewrite map_length, seq_length; lia).
  rewrite (map_nth (fun i => N.testbit x (N.of_nat i)) (seq 0 b) 0). rewrite seq_nth by lia. reflexivity.
Qed.
Lemma nth_image : forall b xs j k, j < length xs -> k < b -> nth (j * b + k) (image b xs) false = N.testbit (nth j xs 0%N) (N.of_nat k).
Proof.
  intros b xs. unfold image. induction xs as [|x xs IH]; intros j k Hj Hk; cbn [length] in Hj; [lia|].
  cbn [map concat]. destruct j as [|j].
  - rewrite app_nth1 by (rewrite length_bits_of; lia). cbn [Nat.mul Nat.add nth]. apply nth_bits_of. exact Hk.
  - rewrite app_nth2 by (rewrite length_bits_of; lia). rewrite length_bits_of. replace (S j * b + k - b) with (j * b + k) by lia.
    cbn [nth]. apply IH; lia.
Qed.
Lemma length_resize : forall n w, length (resize n w) = n.
Proof. intros. unfold resize. rewrite app_length, firstn_length, repeat_length. lia. Qed.
Lemma nth_resize : forall n w i, i < n -> nth i (resize n w) false = nth i w false.
Proof.
  intros n w i H. unfold resize. destruct (Nat.lt_ge_cases i (length w)) as [Hi|Hi].
  - rewrite app_nth1 by (rewrite firstn_length; lia). revert n w H Hi. induction i as [|i IH]; intros [|n] [|x w] H Hi; cbn [length] in Hi; try lia; [reflexivity|].
    cbn [firstn nth]. apply IH; lia.
  - rewrite app_nth2 by (rewrite firstn_length; lia). rewrite nth_repeat. rewrite nth_overflow by lia. reflexivity.
Qed.

(** * Outputs *)
(** [l] cut into pieces of the given lengths. *)
Fixpoint pieces {A : Type} (ws : list nat) (l : list A) : list (list A) :=
  match ws with [] => [] | n :: ws' => firstn n l :: pieces ws' (skipn n l) end.
Definition sum (ws : list nat) : nat := fold_right Nat.add 0 ws.
Lemma sum_app : forall a b, sum (a ++ b) = sum a + sum b.
Proof. intros a b. unfold sum. induction a as [|x a IH]; cbn [app fold_right]; lia. Qed.
Lemma sum_rev : forall a, sum (rev a) = sum a.
Proof. induction a as [|x a IH]; [reflexivity|]. cbn [rev]. rewrite sum_app, IH. unfold sum. cbn [fold_right]. lia. Qed.
Lemma pieces_app : forall (A : Type) a b (l : list A), sum a <= length l -> pieces (a ++ b) l = pieces a (firstn (sum a) l) ++ pieces b (skipn (sum a) l).
Proof.
  intros A. induction a as [|n a IH]; intros b l H; [reflexivity|].
  assert (Hs : sum (n :: a) = n + sum a) by reflexivity. rewrite Hs in *.
  cbn [app pieces]. rewrite IH by (rewrite skipn_length; lia). cbn [app]. f_equal.
  - rewrite firstn_firstn. f_equal. lia.
  - f_equal; [f_equal|].
    + rewrite firstn_skipn_comm. reflexivity.
    + f_equal. clear. revert l. induction n as [|n IH]; intros [|x l]; try reflexivity; [rewrite skipn_nil; reflexivity|].
      cbn [skipn Nat.add]. apply IH.
Qed.
Lemma length_pieces : forall (A : Type) ws (l : list A), length (pieces ws l) = length ws.
Proof. intro A. induction ws as [|n ws IH]; intro l; cbn [pieces length]; [reflexivity|rewrite IH; reflexivity]. Qed.

Lemma skipn_add : forall (A : Type) a b (l : list A), skipn a (skipn b l) = skipn (a + b) l.
Proof.
  intros A a b. induction b as [|b IH]; intro l; [rewrite Nat.add_0_r; reflexivity|].
  destruct l as [|x l]; [rewrite !skipn_nil; reflexivity|]. rewrite Nat.add_succ_r. cbn [skipn]. apply IH.
Qed.

(** Cutting from the end. *)
Lemma pieces_last : forall ws n index (w : list bool), sum ws + n <= index -> index <= length w ->
  pieces (rev (n :: ws)) (firstn (sum (n :: ws)) (skipn (index - sum (n :: ws)) w)) =
  pieces (rev ws) (firstn (sum ws) (skipn (index - n - sum ws) w)) ++ [firstn n (skipn (index - n) w)].
Proof.
  intros ws n index w H Hw. cbn [rev]. assert (Hs : sum (n :: ws) = n + sum ws) by reflexivity. rewrite Hs.
  rewrite pieces_app by (rewrite sum_rev, firstn_length, skipn_length; lia). rewrite sum_rev. f_equal.
  - rewrite firstn_firstn. f_equal. f_equal; [lia|]. f_equal. lia.
  - cbn [pieces]. f_equal. rewrite skipn_firstn_comm. replace (n + sum ws - sum ws) with n by lia.
    rewrite skipn_add, firstn_firstn, Nat.min_id. f_equal. f_equal. lia.
Qed.

Lemma length_set_nth : forall l i x, length (set_nth l i x) = length l.
Proof. induction l as [|a l IH]; intros [|i] x; cbn [set_nth length]; congruence. Qed.
Lemma skipn_set_nth : forall l i x, i < length l -> skipn i (set_nth l i x) = x :: skipn (S i) l.
Proof.
  induction l as [|a l IH]; intros i x H; cbn [length] in H; [lia|]. destruct i as [|i]; [reflexivity|].
  cbn [set_nth skipn]. rewrite IH by lia. reflexivity.
Qed.
Lemma final_span_ok : forall ws i nov index w outputs, i + length ws = nov -> nov <= length outputs ->
  sum (map N.to_nat ws) <= index -> index <= length w -> Forall (fun n => n <> 0%N) ws ->
  final_span i ws nov index w outputs =
  Val (map number (pieces (rev (map N.to_nat ws)) (firstn (sum (map N.to_nat ws)) (skipn (index - sum (map N.to_nat ws)) w)))
       ++ skipn (length ws) outputs).
Proof.
  induction ws as [|n ws IH]; intros i nov index w outputs Hn Ho Hs Hw Hp; [reflexivity|].
  inversion Hp as [|? ? Hn0 Hp']; subst. cbn [length] in *. cbn [map]. cbn [map] in Hs.
  assert (Hsum : sum (N.to_nat n :: map N.to_nat ws) = N.to_nat n + sum (map N.to_nat ws)) by reflexivity.
  rewrite Hsum in Hs. cbn [final_span].
  unfold read_back. destruct (Nat.leb_spec (N.to_nat n) index) as [_|]; [|lia].
  destruct (Nat.leb_spec index (length w)) as [_|]; [|lia]. cbn [bind].
  destruct (Nat.eqb_spec (N.to_nat n) 0) as [|_]; [lia|].
  rewrite IH; [|lia|rewrite length_set_nth; lia|lia|lia|assumption]. f_equal.
  rewrite pieces_last by lia. rewrite map_app. rewrite <- app_assoc. cbn [map app]. f_equal.
  replace (i + S (length ws) - i - 1) with (length ws) by lia. rewrite skipn_set_nth by lia. reflexivity.
Qed.
Lemma rev_repeat : forall (A : Type) (x : A) n, rev (repeat x n) = repeat x n.
Proof.
  intros A x n. induction n as [|n IH]; [reflexivity|]. cbn [repeat rev]. rewrite IH. symmetry. apply repeat_cons.
Qed.
Lemma sum_repeat : forall a k, sum (repeat a k) = a * k.
Proof. intros a k. unfold sum. induction k as [|k IH]; cbn [repeat fold_right]; lia. Qed.
Lemma final_bytes_ok : forall k index w, 8 * k <= index -> index <= length w ->
  final_bytes k index w = Val (rev (map number (pieces (repeat 8 k) (firstn (8 * k) (skipn (index - 8 * k) w))))).
Proof.
  induction k as [|k IH]; intros index w H Hw; [reflexivity|].
  cbn [final_bytes]. unfold read_back. destruct (Nat.leb_spec 8 index) as [_|]; [|lia].
  destruct (Nat.leb_spec index (length w)) as [_|]; [|lia]. cbn [bind]. rewrite IH by lia. cbn [bind]. f_equal.
  pose proof (pieces_last (repeat 8 k) 8 index w) as P. rewrite sum_repeat in P.
  change (8 :: repeat 8 k) with (repeat 8 (S k)) in P. rewrite !rev_repeat, sum_repeat in P. rewrite P by lia.
  rewrite map_app, rev_app_distr. cbn [map rev app]. f_equal.
Qed.
Lemma total_sum : forall l, total l = sum (map N.to_nat l).
Proof. intro l. unfold total, sum. induction l as [|x l IH]; cbn [fold_right map]; lia. Qed.
Lemma pieces_map : forall (A B : Type) (f : A -> B) ws l, pieces ws (map f l) = map (map f) (pieces ws l).
Proof.
  intros A B f. induction ws as [|n ws IH]; intro l; cbn [pieces map]; [reflexivity|].
  rewrite firstn_map, skipn_map, IH. reflexivity.
Qed.
Lemma tail_wires : forall w a b, a + b = length w -> firstn b (skipn a w) = map (wire w) (map N.of_nat (seq a b)).
Proof.
  intros w a b H. apply (nth_ext _ _ false false).
  - rewrite firstn_length, skipn_length, !map_length, seq_length. lia.
  - intros i Hi. rewrite firstn_length, skipn_length in Hi.
    rewrite firstn_all2 by (rewrite skipn_length; lia).
    rewrite map_map. rewrite (nth_indep (map _ _) false (wire w (N.of_nat 0))) by (rewrite map_length, seq_length; lia).
    rewrite (map_nth (fun x => wire w (N.of_nat x))), seq_nth by lia.
    unfold wire. rewrite Nat2N.id. clear H Hi. revert a. induction w as [|x w IH]; intro a; [rewrite skipn_nil; destruct i, a; reflexivity|].
    destruct a as [|a]; [reflexivity|]. cbn [skipn]. rewrite IH. reflexivity.
Qed.
