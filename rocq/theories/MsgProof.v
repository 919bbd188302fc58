From Coq Require Import ZArith Arith Bool List Lia.
From Verif Require Import LinCodeModel MsgModel.
Import ListNotations.
Open Scope Z_scope.

(** Lemmas for MsgProps.v. *)

(** ** Numbers *)

Lemma be_length : forall k x, length (be k x) = k.
Proof. induction k; intro x; cbn [be length]; [reflexivity|f_equal; apply IHk]. Qed.

Lemma unbe_be_gen : forall k x acc,
  fold_left (fun a b => a * 256 + b) (be k x) acc = acc * 256 ^ Z.of_nat k + x mod 256 ^ Z.of_nat k.
Proof.
  induction k; intros x acc; cbn [be fold_left].
  - change (256 ^ Z.of_nat 0) with 1. rewrite Z.mod_1_r. ring.
  - rewrite IHk. replace (Z.of_nat (S k)) with (Z.of_nat k + 1) by lia.
    rewrite Z.pow_add_r by lia. change (256 ^ 1) with 256.
    assert (0 < 256 ^ Z.of_nat k) by (apply Z.pow_pos_nonneg; lia).
    rewrite Z.rem_mul_r by lia. ring.
Qed.

Lemma unbe_be : forall k x, unbe (be k x) = x mod 256 ^ Z.of_nat k.
Proof. intros k x. unfold unbe. rewrite unbe_be_gen. ring. Qed.

Lemma len_app : forall A (a b : list A), len (a ++ b) = len a + len b.
Proof. intros A a b. unfold len. rewrite app_length. lia. Qed.

Lemma len_nonneg : forall A (l : list A), 0 <= len l.
Proof. intros A l. unfold len. lia. Qed.

Lemma take_app : forall a r, take (len a) (a ++ r) = Some (a, r).
Proof.
  intros a r. unfold take. rewrite len_app.
  replace (len a <=? len a + len r) with true by (symmetry; apply Z.leb_le; pose proof (len_nonneg Z r); lia).
  unfold len. rewrite Nat2Z.id, firstn_app, skipn_app, firstn_all, skipn_all, Nat.sub_diag, firstn_O, skipn_O.
  rewrite app_nil_r. reflexivity.
Qed.

Lemma take_be_app : forall k x r, take_be k (be k x ++ r) = Some (x mod 256 ^ Z.of_nat k, r).
Proof.
  intros k x r. unfold take_be. replace (Z.of_nat k) with (len (be k x)) at 1 by (unfold len; rewrite be_length; reflexivity).
  rewrite take_app, unbe_be. reflexivity.
Qed.

Lemma p_int_app : forall k x r, 0 <= x < 256 ^ Z.of_nat k -> p_int k (be k x ++ r) = Some (OInt x, r).
Proof. intros k x r Hx. unfold p_int. rewrite take_be_app, Z.mod_small by lia. reflexivity. Qed.

Lemma sgn_mod : forall k x, (0 < k)%nat -> - 2 ^ (8 * Z.of_nat k - 1) <= x < 0 -> sgn k (x mod 256 ^ Z.of_nat k) = x.
Proof.
  intros k x Hk Hx. change 256 with (2 ^ 8). rewrite <- Z.pow_mul_r by lia. unfold sgn.
  assert (H2 : 2 ^ (8 * Z.of_nat k) = 2 * 2 ^ (8 * Z.of_nat k - 1)).
  { replace (8 * Z.of_nat k) with (1 + (8 * Z.of_nat k - 1)) at 1 by lia. rewrite Z.pow_add_r by lia. reflexivity. }
  replace (x mod 2 ^ (8 * Z.of_nat k)) with (x + 2 ^ (8 * Z.of_nat k))
    by (apply Z.mod_unique_pos with (-1); lia).
  replace (x + 2 ^ (8 * Z.of_nat k) <? 2 ^ (8 * Z.of_nat k - 1)) with false by (symmetry; apply Z.ltb_ge; lia).
  lia.
Qed.

Lemma p_sint_app : forall k x r, (0 < k)%nat -> - 2 ^ (8 * Z.of_nat k - 1) <= x < 0 ->
  p_sint k (be k x ++ r) = Some (OInt x, r).
Proof. intros k x r Hk Hx. unfold p_sint. rewrite take_be_app, sgn_mod by assumption. reflexivity. Qed.

Lemma p_sized_app : forall c k l r, len l < 256 ^ Z.of_nat k -> p_sized c k (be k (len l) ++ l ++ r) = Some (c l, r).
Proof.
  intros c k l r H. unfold p_sized. pose proof (len_nonneg Z l).
  rewrite take_be_app, Z.mod_small by lia. unfold p_body. rewrite take_app. reflexivity.
Qed.

(** ** What the writes add up to *)

Fixpoint cat (ws : list (option (list Z))) : list Z :=
  match ws with [] => [] | None :: ws' => cat ws' | Some c :: ws' => c ++ cat ws' end.
Definition writable (ws : list (option (list Z))) : Prop := Forall (fun w => w <> None) ws.
Definition enc (o : obj) : list Z := cat (writes o).

Lemma cat_app : forall a b, cat (a ++ b) = cat a ++ cat b.
Proof.
  induction a as [|[c|] a IH]; intro b; cbn [app cat]; [reflexivity| |apply IH].
  rewrite IH, app_assoc. reflexivity.
Qed.

Lemma cat_flat_map : forall A (f : A -> list (option (list Z))) l, cat (flat_map f l) = flat_map (fun x => cat (f x)) l.
Proof. induction l as [|a l IH]; cbn [flat_map]; [reflexivity|]. rewrite cat_app, IH. reflexivity. Qed.

Lemma stream_write_val : forall ws buf, writable ws -> stream_write ws buf = Val (buf ++ cat ws).
Proof.
  intros ws buf H. revert buf. induction H as [|w ws Hw H IH]; intro buf; cbn [stream_write cat].
  - rewrite app_nil_r. reflexivity.
  - destruct w as [c|]; [|congruence]. rewrite IH, <- app_assoc. reflexivity.
Qed.

Lemma shadow_write_val : forall ws s, writable ws -> shadow_write ws s = Val (s + len (cat ws)).
Proof.
  intros ws s H. revert s. induction H as [|w ws Hw H IH]; intro s; cbn [shadow_write cat].
  - unfold len. cbn [length]. f_equal. lia.
  - destruct w as [c|]; [|congruence]. rewrite IH, len_app. f_equal. lia.
Qed.

Lemma fixed_write_fits : forall ws a b, writable ws -> (length (cat ws) <= length b)%nat ->
  fixed_write ws (a ++ b) (length a)
  = (a ++ cat ws ++ skipn (length (cat ws)) b, Val (length a + length (cat ws))%nat).
Proof.
  intros ws a b H. revert a b. induction H as [|w ws Hw H IH]; intros a b Hl; cbn [fixed_write cat].
  - cbn [length app]. rewrite skipn_O, Nat.add_0_r. reflexivity.
  - destruct w as [c|]; [|congruence]. cbn [cat] in Hl. rewrite app_length in Hl.
    replace (Nat.leb (length a + length c) (length (a ++ b))) with true
      by (symmetry; apply Nat.leb_le; rewrite app_length; lia).
    rewrite firstn_app, firstn_all, Nat.sub_diag, firstn_O, app_nil_r.
    rewrite skipn_app, (skipn_all2 a) by lia. cbn [app].
    replace (length a + length c - length a)%nat with (length c) by lia.
    rewrite app_assoc. rewrite <- (app_length a c).
    rewrite IH by (rewrite skipn_length; lia).
    rewrite !app_length, <- !app_assoc.
    replace (skipn (length (cat ws)) (skipn (length c) b)) with (skipn (length c + length (cat ws)) b).
    + f_equal. f_equal. lia.
    + clear. revert b. induction (length c) as [|n IHn]; intro b; cbn [Nat.add]; [rewrite skipn_O; reflexivity|].
      destruct b as [|x b]; [rewrite !skipn_nil; reflexivity|]. cbn [skipn]. apply IHn.
Qed.

Lemma fixed_write_length : forall ws buf pos, (pos <= length buf)%nat ->
  length (fst (fixed_write ws buf pos)) = length buf.
Proof.
  induction ws as [|w ws IH]; intros buf pos Hp; cbn [fixed_write fst]; [reflexivity|].
  destruct w as [c|]; [|reflexivity].
  destruct (Nat.leb (pos + length c) (length buf)) eqn:E; [|reflexivity]. apply Nat.leb_le in E.
  assert (Hl : length (firstn pos buf ++ c ++ skipn (pos + length c) buf) = length buf)
    by (rewrite !app_length, firstn_length, skipn_length; lia).
  rewrite IH by lia. exact Hl.
Qed.

Lemma fixed_write_short : forall ws buf pos, writable ws -> (pos <= length buf)%nat ->
  (length buf < pos + length (cat ws))%nat -> snd (fixed_write ws buf pos) = Thrown.
Proof.
  intros ws buf pos H. revert buf pos. induction H as [|w ws Hw H IH]; intros buf pos Hp Hl; cbn [fixed_write snd cat] in *.
  - cbn [length] in Hl. lia.
  - destruct w as [c|]; [|congruence]. cbn [cat] in Hl. rewrite app_length in Hl.
    destruct (Nat.leb (pos + length c) (length buf)) eqn:E; [|reflexivity]. apply Nat.leb_le in E.
    assert (Hk : length (firstn pos buf ++ c ++ skipn (pos + length c) buf) = length buf)
      by (rewrite !app_length, firstn_length, skipn_length; lia).
    apply IH; lia.
Qed.

(** ** Objects that can be packed *)

Fixpoint wf (o : obj) : Prop :=
  match o with
  | ONil | OBool _ => True
  | OInt z => - 2 ^ 63 <= z < 2 ^ 64
  | OBin l | OStr l => len l < 2 ^ 32
  | OArr l => len l < 2 ^ 32 /\ fold_right (fun o P => wf o /\ P) True l
  end.

Lemma wf_forall : forall l, fold_right (fun o P => wf o /\ P) True l <-> Forall wf l.
Proof.
  induction l as [|o l IH]; cbn [fold_right]; [split; auto|].
  split.
  - intros [H1 H2]. constructor; tauto.
  - intro H. inversion H; subst. tauto.
Qed.

(** Induction over objects, with the elements of an array. *)
Lemma obj_induct (P : obj -> Prop) :
  P ONil -> (forall b, P (OBool b)) -> (forall z, P (OInt z)) -> (forall l, P (OBin l)) -> (forall l, P (OStr l)) ->
  (forall l, Forall P l -> P (OArr l)) -> forall o, P o.
Proof.
  intros H1 H2 H3 H4 H5 H6. fix IH 1. intros [|b|z|l|l|l]; [exact H1|apply H2|apply H3|apply H4|apply H5|].
  apply H6. induction l as [|o l IHl]; constructor; [apply IH|exact IHl].
Qed.

Lemma writable_writes : forall o, wf o -> writable (writes o).
Proof.
  induction o as [|b|z|l|l|l IH] using obj_induct; cbn [wf writes]; intro H.
  - repeat constructor; discriminate.
  - repeat constructor; discriminate.
  - repeat constructor; discriminate.
  - apply Z.ltb_lt in H. rewrite H. repeat constructor; discriminate.
  - apply Z.ltb_lt in H. rewrite H. repeat constructor; discriminate.
  - destruct H as [Hl H]. apply Z.ltb_lt in Hl. rewrite Hl. constructor; [discriminate|].
    apply wf_forall in H. clear Hl. induction IH as [|o l Ho IH IHl]; cbn [flat_map]; [constructor|].
    inversion H; subst. apply Forall_app. split; [apply Ho; assumption|apply IHl; assumption].
Qed.

Lemma enc_arr : forall l, len l < 2 ^ 32 -> enc (OArr l) = arr_head (len l) ++ flat_map enc l.
Proof.
  intros l H. unfold enc. cbn [writes]. apply Z.ltb_lt in H. rewrite H. cbn [cat].
  rewrite cat_flat_map. reflexivity.
Qed.

Lemma int_bytes_nonempty : forall z, (1 <= length (int_bytes z))%nat.
Proof.
  intro z. unfold int_bytes.
  repeat match goal with |- context [if ?c then _ else _] => destruct c end; cbn [length]; lia.
Qed.

Lemma arr_head_nonempty : forall z, (1 <= length (arr_head z))%nat.
Proof.
  intro z. unfold arr_head.
  repeat match goal with |- context [if ?c then _ else _] => destruct c end; cbn [length]; lia.
Qed.

(** ** The unpacker reads back what the packer wrote *)

Ltac head_byte := cbn [parse app Z.ltb Z.eqb Z.compare Pos.compare Pos.compare_cont Pos.eqb].
Ltac tests :=
  repeat match goal with
  | |- context [if ?a <? ?b then _ else _] => destruct (Z.ltb_spec a b); [try lia|try lia]
  | |- context [if ?a =? ?b then _ else _] => destruct (Z.eqb_spec a b); [try lia|try lia]
  end.

Lemma parse_int : forall f z r, - 2 ^ 63 <= z < 2 ^ 64 -> parse (S f) (int_bytes z ++ r) = Some (OInt z, r).
Proof.
  intros f z r Hz. unfold int_bytes.
  change (2 ^ 63) with 9223372036854775808 in *. change (2 ^ 64) with 18446744073709551616 in *.
  change (2 ^ 31) with 2147483648. change (2 ^ 15) with 32768. change (2 ^ 7) with 128. change (2 ^ 5) with 32.
  change (2 ^ 8) with 256. change (2 ^ 16) with 65536. change (2 ^ 32) with 4294967296.
  destruct (Z.ltb_spec z (Z.opp 2147483648)).
  { head_byte. apply p_sint_app; [lia|]. change (2 ^ (8 * Z.of_nat 8 - 1)) with 9223372036854775808. lia. }
  destruct (Z.ltb_spec z (Z.opp 32768)).
  { head_byte. apply p_sint_app; [lia|]. change (2 ^ (8 * Z.of_nat 4 - 1)) with 2147483648. lia. }
  destruct (Z.ltb_spec z (Z.opp 128)).
  { head_byte. apply p_sint_app; [lia|]. change (2 ^ (8 * Z.of_nat 2 - 1)) with 32768. lia. }
  destruct (Z.ltb_spec z (Z.opp 32)).
  { head_byte. apply p_sint_app; [lia|]. change (2 ^ (8 * Z.of_nat 1 - 1)) with 128. lia. }
  destruct (Z.ltb_spec z 0).
  { cbn [parse app]. tests. do 2 f_equal. f_equal. lia. }
  destruct (Z.ltb_spec z 128).
  { cbn [parse app]. tests. reflexivity. }
  destruct (Z.ltb_spec z 256).
  { head_byte. apply p_int_app. change (256 ^ Z.of_nat 1) with 256. lia. }
  destruct (Z.ltb_spec z 65536).
  { head_byte. apply p_int_app. change (256 ^ Z.of_nat 2) with 65536. lia. }
  destruct (Z.ltb_spec z 4294967296).
  { head_byte. apply p_int_app. change (256 ^ Z.of_nat 4) with 4294967296. lia. }
  head_byte. apply p_int_app. change (256 ^ Z.of_nat 8) with 18446744073709551616. lia.
Qed.

Lemma parse_bin : forall f l r, len l < 2 ^ 32 -> parse (S f) (bin_head (len l) ++ l ++ r) = Some (OBin l, r).
Proof.
  intros f l r Hl. change (2 ^ 32) with 4294967296 in Hl. pose proof (len_nonneg Z l). unfold bin_head.
  destruct (Z.ltb_spec (len l) 256).
  { head_byte. apply p_sized_app. change (256 ^ Z.of_nat 1) with 256. lia. }
  destruct (Z.ltb_spec (len l) 65536).
  { head_byte. apply p_sized_app. change (256 ^ Z.of_nat 2) with 65536. lia. }
  head_byte. apply p_sized_app. change (256 ^ Z.of_nat 4) with 4294967296. lia.
Qed.

Lemma parse_str : forall f l r, len l < 2 ^ 32 -> parse (S f) (str_head (len l) ++ l ++ r) = Some (OStr l, r).
Proof.
  intros f l r Hl. change (2 ^ 32) with 4294967296 in Hl. pose proof (len_nonneg Z l). unfold str_head.
  destruct (Z.ltb_spec (len l) 32).
  { cbn [parse app]. tests. replace (160 + len l - 160) with (len l) by lia. unfold p_body. rewrite take_app. reflexivity. }
  destruct (Z.ltb_spec (len l) 256).
  { head_byte. apply p_sized_app. change (256 ^ Z.of_nat 1) with 256. lia. }
  destruct (Z.ltb_spec (len l) 65536).
  { head_byte. apply p_sized_app. change (256 ^ Z.of_nat 2) with 65536. lia. }
  head_byte. apply p_sized_app. change (256 ^ Z.of_nat 4) with 4294967296. lia.
Qed.

Lemma parse_arr_head : forall f n r, 0 <= n < 2 ^ 32 -> parse (S f) (arr_head n ++ r) = p_arr (parse f) n r.
Proof.
  intros f n r Hn. change (2 ^ 32) with 4294967296 in Hn. unfold arr_head.
  destruct (Z.ltb_spec n 16).
  { cbn [parse app]. tests. replace (144 + n - 144) with n by lia. reflexivity. }
  destruct (Z.ltb_spec n 65536).
  { head_byte. unfold p_arr_sized. rewrite take_be_app, Z.mod_small; [reflexivity|].
    change (256 ^ Z.of_nat 2) with 65536. lia. }
  head_byte. unfold p_arr_sized. rewrite take_be_app, Z.mod_small; [reflexivity|].
  change (256 ^ Z.of_nat 4) with 4294967296. lia.
Qed.

Lemma many_enc : forall p l r, Forall (fun o => forall r, p (enc o ++ r) = Some (o, r)) l ->
  many p (length l) (flat_map enc l ++ r) = Some (l, r).
Proof.
  intros p l r H. induction H as [|o l Ho H IH]; cbn [length many flat_map]; [reflexivity|].
  rewrite <- app_assoc, Ho, IH. reflexivity.
Qed.

Lemma enc_nonempty : forall o, wf o -> (1 <= length (enc o))%nat.
Proof.
  intros o H. destruct o as [|b|z|l|l|l]; unfold enc; cbn [writes cat wf] in *.
  - cbn [length app]. lia.
  - cbn [length app]. lia.
  - rewrite app_nil_r. apply int_bytes_nonempty.
  - apply Z.ltb_lt in H. rewrite H. cbn [cat]. rewrite app_length. unfold bin_head.
    repeat match goal with |- context [if ?c then _ else _] => destruct c end; cbn [length]; lia.
  - apply Z.ltb_lt in H. rewrite H. cbn [cat]. rewrite app_length. unfold str_head.
    repeat match goal with |- context [if ?c then _ else _] => destruct c end; cbn [length]; lia.
  - destruct H as [H _]. apply Z.ltb_lt in H. rewrite H. cbn [cat]. rewrite app_length.
    pose proof (arr_head_nonempty (len l)). lia.
Qed.

Lemma in_flat_map_length : forall (o : obj) l, In o l -> (length (enc o) <= length (flat_map enc l))%nat.
Proof.
  intros o l. induction l as [|x l IH]; intro H; [contradiction|]. cbn [flat_map]. rewrite app_length.
  destruct H as [<-|H]; [lia|]. specialize (IH H). lia.
Qed.

Lemma parse_enc : forall o, wf o -> forall f r, (length (enc o) <= f)%nat -> parse f (enc o ++ r) = Some (o, r).
Proof.
  induction o as [|b|z|l|l|l IH] using obj_induct; intros Hw f r Hf;
    pose proof (enc_nonempty _ Hw) as Hne; (destruct f as [|f]; [lia|]).
  - reflexivity.
  - destruct b; reflexivity.
  - unfold enc. cbn [writes cat]. rewrite app_nil_r. apply parse_int. exact Hw.
  - unfold enc. cbn [writes wf] in *. pose proof Hw as Hb. apply Z.ltb_lt in Hb. rewrite Hb. cbn [cat].
    rewrite app_nil_r, <- app_assoc. apply parse_bin. exact Hw.
  - unfold enc. cbn [writes wf] in *. pose proof Hw as Hb. apply Z.ltb_lt in Hb. rewrite Hb. cbn [cat].
    rewrite app_nil_r, <- app_assoc. apply parse_str. exact Hw.
  - cbn [wf] in Hw. destruct Hw as [Hl Hw]. apply wf_forall in Hw.
    rewrite enc_arr in * by exact Hl. rewrite app_length in Hf. pose proof (arr_head_nonempty (len l)).
    rewrite <- app_assoc, parse_arr_head by (pose proof (len_nonneg obj l); lia).
    unfold p_arr. unfold len. rewrite Nat2Z.id. rewrite many_enc; [reflexivity|].
    apply Forall_forall. intros o Ho r'. rewrite Forall_forall in IH, Hw.
    apply IH; [exact Ho|apply Hw; exact Ho|]. pose proof (in_flat_map_length o l Ho). lia.
Qed.

Lemma unpack_enc : forall o r, wf o -> unpack (enc o ++ r) = Some (o, r).
Proof. intros o r H. unfold unpack. apply parse_enc; [exact H|]. rewrite app_length. lia. Qed.

(** ** More input, or more fuel, does not change a result *)

Definition stable (p : list Z -> option (obj * list Z)) : Prop :=
  forall l o r x, p l = Some (o, r) -> p (l ++ x) = Some (o, r ++ x).

Lemma take_stable : forall n l a r x, take n l = Some (a, r) -> take n (l ++ x) = Some (a, r ++ x).
Proof.
  intros n l a r x H. unfold take in *. rewrite len_app. destruct (Z.leb_spec n (len l)) as [Hn|Hn]; [|discriminate H].
  injection H as <- <-. pose proof (len_nonneg Z x).
  replace (n <=? len l + len x) with true by (symmetry; apply Z.leb_le; lia).
  unfold len in Hn. rewrite firstn_app, skipn_app.
  replace (Z.to_nat n - length l)%nat with 0%nat by lia. rewrite firstn_O, skipn_O, app_nil_r. reflexivity.
Qed.

Lemma take_be_stable : forall k l n r x, take_be k l = Some (n, r) -> take_be k (l ++ x) = Some (n, r ++ x).
Proof.
  intros k l n r x H. unfold take_be in *. destruct (take (Z.of_nat k) l) as [[a r']|] eqn:E; [|discriminate H].
  injection H as <- <-. rewrite (take_stable _ _ _ _ x E). reflexivity.
Qed.

Lemma many_stable : forall p n l os r x, stable p -> many p n l = Some (os, r) -> many p n (l ++ x) = Some (os, r ++ x).
Proof.
  intros p n l os r x Hp. revert l os r. induction n as [|n IH]; intros l os r H; cbn [many] in *.
  - injection H as <- <-. reflexivity.
  - destruct (p l) as [[o l1]|] eqn:E1; [|discriminate H].
    destruct (many p n l1) as [[os' l2]|] eqn:E2; [|discriminate H]. injection H as <- <-.
    rewrite (Hp _ _ _ x E1), (IH _ _ _ E2). reflexivity.
Qed.

Lemma p_int_stable : forall k, stable (p_int k).
Proof.
  intros k l o r x H. unfold p_int in *. destruct (take_be k l) as [[n r']|] eqn:E; [|discriminate H].
  injection H as <- <-. rewrite (take_be_stable _ _ _ _ x E). reflexivity.
Qed.
Lemma p_sint_stable : forall k, stable (p_sint k).
Proof.
  intros k l o r x H. unfold p_sint in *. destruct (take_be k l) as [[n r']|] eqn:E; [|discriminate H].
  injection H as <- <-. rewrite (take_be_stable _ _ _ _ x E). reflexivity.
Qed.
Lemma p_body_stable : forall c n, stable (p_body c n).
Proof.
  intros c n l o r x H. unfold p_body in *. destruct (take n l) as [[b r']|] eqn:E; [|discriminate H].
  injection H as <- <-. rewrite (take_stable _ _ _ _ x E). reflexivity.
Qed.
Lemma p_sized_stable : forall c k, stable (p_sized c k).
Proof.
  intros c k l o r x H. unfold p_sized in *. destruct (take_be k l) as [[n r']|] eqn:E; [|discriminate H].
  rewrite (take_be_stable _ _ _ _ x E). apply p_body_stable. exact H.
Qed.
Lemma p_arr_stable : forall p n, stable p -> stable (p_arr p n).
Proof.
  intros p n Hp l o r x H. unfold p_arr in *. destruct (many p (Z.to_nat n) l) as [[os r']|] eqn:E; [|discriminate H].
  injection H as <- <-. rewrite (many_stable _ _ _ _ _ x Hp E). reflexivity.
Qed.
Lemma p_arr_sized_stable : forall p k, stable p -> stable (p_arr_sized p k).
Proof.
  intros p k Hp l o r x H. unfold p_arr_sized in *. destruct (take_be k l) as [[n r']|] eqn:E; [|discriminate H].
  rewrite (take_be_stable _ _ _ _ x E). apply p_arr_stable; assumption.
Qed.

Lemma parse_stable : forall f, stable (parse f).
Proof.
  induction f as [|f IH]; intros l o r x H; [discriminate H|].
  destruct l as [|b l]; [discriminate H|]. cbn [parse app] in *.
  repeat match type of H with context [if ?c then _ else _] => destruct c end;
  first [ discriminate H
        | injection H as <- <-; reflexivity
        | apply p_int_stable; exact H | apply p_sint_stable; exact H
        | apply p_sized_stable; exact H | apply p_body_stable; exact H
        | apply (p_arr_stable _ _ IH); exact H | apply (p_arr_sized_stable _ _ IH); exact H ].
Qed.

Lemma many_mono : forall (p q : list Z -> option (obj * list Z)),
  (forall l o r, p l = Some (o, r) -> q l = Some (o, r)) ->
  forall n l os r, many p n l = Some (os, r) -> many q n l = Some (os, r).
Proof.
  intros p q Hpq n. induction n as [|n IH]; intros l os r H; cbn [many] in *; [exact H|].
  destruct (p l) as [[o l1]|] eqn:E1; [|discriminate H]. rewrite (Hpq _ _ _ E1).
  destruct (many p n l1) as [[os' l2]|] eqn:E2; [|discriminate H]. rewrite (IH _ _ _ E2). exact H.
Qed.

Lemma parse_mono : forall f g l o r, (f <= g)%nat -> parse f l = Some (o, r) -> parse g l = Some (o, r).
Proof.
  induction f as [|f IH]; intros g l o r Hfg H; [discriminate H|].
  destruct g as [|g]; [lia|]. destruct l as [|b l]; [discriminate H|]. cbn [parse] in *.
  assert (IH' : forall l o r, parse f l = Some (o, r) -> parse g l = Some (o, r)) by (intros; apply IH; [lia|assumption]).
  assert (Ha : forall n l o r, p_arr (parse f) n l = Some (o, r) -> p_arr (parse g) n l = Some (o, r)).
  { intros n l' o' r' Hp. unfold p_arr in *. destruct (many (parse f) (Z.to_nat n) l') as [[os r1]|] eqn:E; [|discriminate Hp].
    rewrite (many_mono _ _ IH' _ _ _ _ E). exact Hp. }
  assert (Hb : forall k l o r, p_arr_sized (parse f) k l = Some (o, r) -> p_arr_sized (parse g) k l = Some (o, r)).
  { intros k l' o' r' Hp. unfold p_arr_sized in *. destruct (take_be k l') as [[n r1]|]; [|discriminate Hp]. apply Ha. exact Hp. }
  repeat match type of H with context [if ?c then _ else _] => destruct c end;
  first [ exact H | apply Ha; exact H | apply Hb; exact H ].
Qed.

(** A message cut short is not unpacked. *)
Lemma unpack_prefix : forall o p x, wf o -> enc o = p ++ x -> x <> [] -> unpack p = None.
Proof.
  intros o p x Hw He Hx. unfold unpack. destruct (parse (S (length p)) p) as [[o' r]|] eqn:E; [|reflexivity].
  exfalso. apply parse_mono with (g := S (length (enc o))) in E; [|rewrite He, app_length; lia].
  apply (parse_stable _ _ _ _ x) in E. rewrite <- He in E.
  rewrite <- (app_nil_r (enc o)) in E. rewrite parse_enc in E; [|exact Hw|rewrite app_nil_r; lia].
  injection E as _ E. symmetry in E. apply app_eq_nil in E. destruct E as [_ E]. contradiction.
Qed.

(** ** 128 bit integers *)

Lemma lor_high : forall a b, 0 <= b < 2 ^ 64 -> Z.lor (a * 2 ^ 64) b = a * 2 ^ 64 + b.
Proof.
  intros a b Hb. rewrite <- Z.lxor_lor, <- Z.add_nocarry_lxor; try reflexivity;
  apply Z.bits_inj'; intros n Hn; rewrite Z.land_spec, Z.bits_0;
  (destruct (Z_lt_le_dec n 64) as [H|H];
   [rewrite Z.mul_pow2_bits_low by exact H; reflexivity|]);
  (replace (Z.testbit b n) with false; [apply andb_false_r|]);
  symmetry; (destruct (Z.eq_dec b 0) as [->|Hz]; [apply Z.bits_0|]);
  apply Z.bits_above_log2; try lia; apply Z.lt_le_trans with 64; try lia; apply Z.log2_lt_pow2; lia.
Qed.

Lemma make_uint128_ok : forall hi lo, 0 <= hi < 2 ^ 64 -> 0 <= lo < 2 ^ 64 -> make_uint128 hi lo = hi * 2 ^ 64 + lo.
Proof.
  intros hi lo Hh Hl. unfold make_uint128. rewrite Z.shiftl_mul_pow2 by lia.
  rewrite Z.mod_small.
  - apply lor_high. exact Hl.
  - change (2 ^ 128) with (2 ^ 64 * 2 ^ 64). nia.
Qed.

Lemma make_int128_ok : forall hi lo, - 2 ^ 63 <= hi < 2 ^ 63 -> 0 <= lo < 2 ^ 64 -> make_int128 hi lo = hi * 2 ^ 64 + lo.
Proof.
  intros hi lo Hh Hl. unfold make_int128. rewrite <- lor_high by exact Hl. f_equal.
  rewrite Z.shiftl_mul_pow2 by lia. unfold bit_cast_signed.
  change (2 ^ 64) with 18446744073709551616 in *. change (2 ^ 63) with 9223372036854775808 in *.
  change (2 ^ 128) with 340282366920938463463374607431768211456.
  assert (Hm : (hi mod 340282366920938463463374607431768211456 * 18446744073709551616) mod 340282366920938463463374607431768211456
               = if hi <? 0 then hi * 18446744073709551616 + 340282366920938463463374607431768211456
                 else hi * 18446744073709551616).
  { rewrite Z.mul_mod_idemp_l by lia. destruct (Z.ltb_spec hi 0).
    - symmetry. apply Z.mod_unique_pos with (-1); lia.
    - apply Z.mod_small. lia. }
  rewrite Hm. rewrite Z.testbit_odd, Z.shiftr_div_pow2 by lia.
  change (2 ^ 127) with 170141183460469231731687303715884105728.
  destruct (Z.ltb_spec hi 0).
  - replace ((hi * 18446744073709551616 + 340282366920938463463374607431768211456) / 170141183460469231731687303715884105728) with 1.
    + cbn [Z.odd]. lia.
    + apply Z.div_unique with (hi * 18446744073709551616 + 170141183460469231731687303715884105728); lia.
  - rewrite Z.div_small by lia. reflexivity.
Qed.

(** ** Typed values *)

Fixpoint ok (t : ty) : den t -> Prop :=
  match t return den t -> Prop with
  | TBool => fun _ => True
  | TU k => fun z => 0 <= k <= 64 /\ 0 <= z < 2 ^ k
  | TI k => fun z => 1 <= k <= 64 /\ - 2 ^ (k - 1) <= z < 2 ^ (k - 1)
  | TU128 => fun z => 0 <= z < 2 ^ 128
  | TI128 => fun z => - 2 ^ 127 <= z < 2 ^ 127
  | TBuffer => fun l => len l < 2 ^ 32
  | TString => fun l => len l < 2 ^ 32
  | TByteVec => fun l => len l < 2 ^ 32
  | TVec t => fun l => len l < 2 ^ 32 /\ Forall (ok t) l
  | TPair a b => fun p => ok a (fst p) /\ ok b (snd p)
  end.

Lemma conv_u_ok : forall k z, 0 <= z < 2 ^ k -> conv_u k (OInt z) = Some z.
Proof.
  intros k z [H1 H2]. unfold conv_u. apply Z.leb_le in H1. apply Z.ltb_lt in H2. rewrite H1, H2. reflexivity.
Qed.
Lemma conv_i_ok : forall k z, - 2 ^ (k - 1) <= z < 2 ^ (k - 1) -> conv_i k (OInt z) = Some z.
Proof.
  intros k z [H1 H2]. unfold conv_i. apply Z.leb_le in H1. apply Z.ltb_lt in H2. rewrite H1, H2. reflexivity.
Qed.

Lemma all_some_map : forall A B (f : A -> B) (g : B -> option A) l,
  Forall (fun a => g (f a) = Some a) l -> all_some (map g (map f l)) = Some l.
Proof.
  intros A B f g l H. induction H as [|a l Ha H IH]; cbn [map all_some]; [reflexivity|].
  rewrite Ha, IH. reflexivity.
Qed.

Lemma halves_u : forall z, 0 <= z < 2 ^ 128 -> 0 <= z / 2 ^ 64 < 2 ^ 64.
Proof.
  intros z Hz. split; [apply Z.div_pos; lia|]. apply Z.div_lt_upper_bound; [lia|]. exact (proj2 Hz).
Qed.
Lemma halves_i : forall z, - 2 ^ 127 <= z < 2 ^ 127 -> - 2 ^ 63 <= z / 2 ^ 64 < 2 ^ 63.
Proof.
  intros z Hz. split; [apply Z.div_le_lower_bound; [lia|]; exact (proj1 Hz)|].
  apply Z.div_lt_upper_bound; [lia|]. exact (proj2 Hz).
Qed.

Lemma value_ok : forall t v, ok t v -> wf (to_obj t v) /\ convert t (to_obj t v) = Some v.
Proof.
  induction t as [|k|k| | | | | |t IH|a IHa b IHb]; intros v H; cbn [ok to_obj wf convert] in *.
  - auto.
  - destruct H as [Hk H]. split; [|apply conv_u_ok; exact H].
    assert (2 ^ k <= 2 ^ 64) by (apply Z.pow_le_mono_r; lia). split; [|lia]. change (2 ^ 63) with 9223372036854775808. lia.
  - destruct H as [Hk H]. split; [|apply conv_i_ok; exact H].
    assert (2 ^ (k - 1) <= 2 ^ 63) by (apply Z.pow_le_mono_r; lia). change (2 ^ 64) with (2 * 2 ^ 63). lia.
  - pose proof (halves_u v H) as Hh. pose proof (Z.mod_pos_bound v (2 ^ 64) ltac:(lia)) as Hl. cbn [decompose fst snd].
    split.
    + cbn [fold_right wf]. change (2 ^ 63) with 9223372036854775808. split; [reflexivity|]. lia.
    + rewrite !conv_u_ok by assumption. rewrite make_uint128_ok by assumption.
      rewrite Z.mul_comm. apply (f_equal Some). symmetry. apply Z.div_mod. discriminate.
  - pose proof (halves_i v H) as Hh. pose proof (Z.mod_pos_bound v (2 ^ 64) ltac:(lia)) as Hl. cbn [decompose fst snd].
    split.
    + cbn [fold_right wf]. change (2 ^ 63) with 9223372036854775808 in *. change (2 ^ 64) with 18446744073709551616 in *.
      split; [reflexivity|]. lia.
    + rewrite conv_i_ok by exact Hh. rewrite conv_u_ok by exact Hl. rewrite make_int128_ok by assumption.
      rewrite Z.mul_comm. apply (f_equal Some). symmetry. apply Z.div_mod. discriminate.
  - auto.
  - auto.
  - auto.
  - destruct H as [Hl H]. unfold len in *. rewrite map_length. split.
    + split; [exact Hl|]. apply wf_forall. apply Forall_map. eapply Forall_impl; [|exact H]. intros x Hx. apply IH. exact Hx.
    + apply all_some_map. eapply Forall_impl; [|exact H]. intros x Hx. apply IH. exact Hx.
  - destruct v as [x y]. cbn [fst snd] in *. destruct H as [Hx Hy].
    destruct (IHa x Hx) as [Wx Cx]. destruct (IHb y Hy) as [Wy Cy]. split.
    + split; [reflexivity|]. cbn [fold_right]. auto.
    + rewrite Cx, Cy. reflexivity.
Qed.
