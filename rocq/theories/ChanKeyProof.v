From Coq Require Import List ZArith Bool Lia.
From Verif Require Import ChanKeyModel.
Import ListNotations.
Open Scope Z_scope.

Lemma bytes_eqb_eq a b : bytes_eqb a b = true <-> a = b.
Proof.
  revert b; induction a as [|x a IH]; intros [|y b]; simpl; split; intros H; try congruence; auto.
  - apply andb_true_iff in H as [H1 H2]. apply Z.eqb_eq in H1. apply IH in H2. congruence.
  - inversion H; subst. rewrite Z.eqb_refl. simpl. apply IH; auto.
Qed.

Lemma bytes_eqb_refl a : bytes_eqb a a = true.
Proof. apply bytes_eqb_eq; auto. Qed.

Lemma bytes_eqb_neq a b : bytes_eqb a b = false <-> a <> b.
Proof.
  destruct (bytes_eqb a b) eqn:E.
  - apply bytes_eqb_eq in E. split; [discriminate|intros H; contradiction].
  - split; auto. intros _ ->. rewrite bytes_eqb_refl in E; discriminate.
Qed.

Definition bytes_dec (a b : bytes) : {a = b} + {a <> b} := list_eq_dec Z.eq_dec a b.

(** The separator occurs in a byte string. *)
Definition has_sep (k : bytes) : Prop := exists p s, k = p ++ kSeqKey ++ s.

Lemma find_sep_some k p s : find_sep k = Some (p, s) -> k = p ++ kSeqKey ++ s.
Proof.
  revert p s; induction k as [|c r IH]; simpl; intros p s H; [discriminate|].
  destruct r as [|d r']; [discriminate|].
  destruct ((c =? 1) && (d =? 2)) eqn:E.
  - apply andb_true_iff in E as [E1 E2]. apply Z.eqb_eq in E1, E2. inversion H; subst. reflexivity.
  - destruct (find_sep (d :: r')) as [[p' s']|] eqn:F; [|discriminate].
    inversion H; subst. simpl. f_equal. apply IH; auto.
Qed.

Lemma find_sep_cons2 c d r :
  find_sep (c :: d :: r) =
  if (c =? 1) && (d =? 2) then Some ([], r)
  else match find_sep (d :: r) with None => None | Some (p, s) => Some (c :: p, s) end.
Proof. reflexivity. Qed.

Lemma find_sep_none k : find_sep k = None <-> ~ has_sep k.
Proof.
  split.
  - intros H (p & s & ->). revert H. induction p as [|c p IH]; [simpl; discriminate|].
    destruct p as [|d p'].
    + cbn [app kSeqKey] in *. rewrite find_sep_cons2.
      destruct ((c =? 1) && (1 =? 2)); [discriminate|].
      simpl. discriminate.
    + cbn [app] in *. rewrite find_sep_cons2. destruct ((c =? 1) && (d =? 2)); [discriminate|].
      destruct (find_sep (d :: p' ++ kSeqKey ++ s)) as [[? ?]|]; [discriminate|]. auto.
  - intros H. destruct (find_sep k) as [[p s]|] eqn:E; auto.
    exfalso; apply H. apply find_sep_some in E. exists p, s; auto.
Qed.

(** The separator just after a separator-free prefix is the first one. *)
Lemma find_sep_app k s : find_sep k = None -> find_sep (k ++ kSeqKey ++ s) = Some (k, s).
Proof.
  induction k as [|c r IH]; intros H; [reflexivity|].
  destruct r as [|d r'].
  - cbn [app kSeqKey]. rewrite find_sep_cons2.
    replace (1 =? 2) with false by reflexivity. rewrite andb_false_r. reflexivity.
  - rewrite find_sep_cons2 in H. cbn [app]. rewrite find_sep_cons2.
    destruct ((c =? 1) && (d =? 2)); [discriminate|].
    destruct (find_sep (d :: r')) as [[p' s']|] eqn:F; [discriminate|].
    specialize (IH eq_refl). cbn [app] in IH. rewrite IH. reflexivity.
Qed.

Lemma normal_key_ok_spec k : normal_key_ok k = true <-> k <> [] /\ ~ has_sep k.
Proof.
  unfold normal_key_ok. destruct k as [|c r]; [split; [discriminate|tauto]|].
  rewrite <- find_sep_none. destruct (find_sep (c :: r)); split; intuition congruence.
Qed.

Lemma normal_key_find k : normal_key_ok k = true -> find_sep k = None.
Proof. intros H; apply find_sep_none; apply normal_key_ok_spec in H; tauto. Qed.

(** * Decimal numbers *)

Definition is_digit (c : byte) : Prop := 48 <= c <= 57.

Fixpoint value (acc : Z) (s : bytes) : Z :=
  match s with [] => acc | c :: r => value (10 * acc + (c - 48)) r end.

Lemma value_app a s t : value a (s ++ t) = value (value a s) t.
Proof. revert a; induction s as [|c s IH]; simpl; auto. Qed.

Lemma dec_fuel_app f n acc : dec_fuel f n acc = dec_fuel f n [] ++ acc.
Proof.
  revert n acc; induction f as [|f IH]; intros n acc; cbn [dec_fuel]; auto.
  destruct (n <? 10); auto.
  rewrite (IH (n / 10) ((48 + n mod 10) :: acc)), (IH (n / 10) [48 + n mod 10]).
  rewrite <- app_assoc. reflexivity.
Qed.

Lemma dec_fuel_digits f n : 0 <= n -> Forall is_digit (dec_fuel f n []).
Proof.
  revert n; induction f as [|f IH]; intros n H; cbn [dec_fuel]; [constructor|].
  pose proof (Z.mod_pos_bound n 10 ltac:(lia)).
  assert (is_digit (48 + n mod 10)) by (unfold is_digit; lia).
  destruct (n <? 10); [repeat constructor; auto; unfold is_digit in *; lia|].
  rewrite dec_fuel_app. apply Forall_app. split; [|repeat constructor; unfold is_digit in *; lia].
  apply IH. apply Z.div_pos; lia.
Qed.

Lemma dec_fuel_value f n : 0 <= n < 10 ^ Z.of_nat f -> value 0 (dec_fuel f n []) = n.
Proof.
  revert n; induction f as [|f IH]; intros n H.
  - simpl in *. lia.
  - rewrite Nat2Z.inj_succ, Z.pow_succ_r in H by lia. cbn [dec_fuel].
    pose proof (Z.mod_pos_bound n 10 ltac:(lia)).
    pose proof (Z.div_mod n 10 ltac:(lia)).
    destruct (n <? 10) eqn:E.
    + apply Z.ltb_lt in E. cbn [value]. rewrite Z.mod_small; lia.
    + apply Z.ltb_ge in E. rewrite dec_fuel_app, value_app.
      rewrite IH; [cbn [value]; lia|]. split; [apply Z.div_pos; lia|].
      apply Z.div_lt_upper_bound; lia.
Qed.

Lemma dec_fuel_nonempty f n acc : dec_fuel (S f) n acc <> [].
Proof.
  cbn [dec_fuel]. destruct (n <? 10); [discriminate|].
  rewrite dec_fuel_app. intros H. apply app_eq_nil in H. destruct H; discriminate.
Qed.

Lemma to_string_digits n : 0 <= n -> Forall is_digit (to_string n).
Proof. apply dec_fuel_digits. Qed.

Lemma to_string_nonempty n : to_string n <> [].
Proof. apply dec_fuel_nonempty. Qed.

Lemma to_string_value n : 0 <= n < 10 ^ 20 -> value 0 (to_string n) = n.
Proof. intros H. apply dec_fuel_value. exact H. Qed.

Lemma to_string_inj n m : 0 <= n < 10 ^ 20 -> 0 <= m < 10 ^ 20 -> to_string n = to_string m -> n = m.
Proof.
  intros Hn Hm H. rewrite <- (to_string_value n), <- (to_string_value m), H by auto. auto.
Qed.

Lemma value_lower s a : Forall is_digit s -> 0 <= a -> a <= value a s.
Proof.
  revert a; induction s as [|c s IH]; cbn [value]; intros a H Ha; [lia|].
  inversion H as [|x l Hc Hs]; subst. unfold is_digit in Hc.
  pose proof (IH (10 * a + (c - 48)) Hs ltac:(lia)). lia.
Qed.

Lemma digits_val_value s a :
  Forall is_digit s -> 0 <= a -> value a s < 2 ^ 64 -> digits_val a s = Some (value a s).
Proof.
  revert a; induction s as [|c s IH]; intros a H Ha Hb; [reflexivity|].
  inversion H as [|x l Hc Hs]; subst. unfold is_digit in Hc.
  cbn [value] in Hb. cbn [digits_val value].
  replace ((48 <=? c) && (c <=? 57)) with true
    by (symmetry; apply andb_true_iff; split; apply Z.leb_le; lia).
  pose proof (value_lower s (10 * a + (c - 48)) Hs ltac:(lia)).
  replace (10 * a + (c - 48) <? 2 ^ 64) with true by (symmetry; apply Z.ltb_lt; lia).
  apply IH; auto; lia.
Qed.

Lemma digit_not_space c : is_digit c -> is_space c = false.
Proof.
  unfold is_digit, is_space; intros H.
  apply orb_false_iff; split; [apply Z.eqb_neq; lia|].
  apply andb_false_iff; right; apply Z.leb_gt; lia.
Qed.

Lemma drop_space_digits s : Forall is_digit s -> drop_space s = s.
Proof.
  intros H; destruct H as [|c r Hc Hr]; simpl; auto. rewrite digit_not_space; auto.
Qed.

Lemma strip_digits s : Forall is_digit s -> strip s = s.
Proof.
  intros H. unfold strip. rewrite (drop_space_digits s) by auto.
  rewrite drop_space_digits by (apply Forall_rev; auto). apply rev_involutive.
Qed.

Lemma view_to_string n : 0 <= n < 2 ^ 64 -> view_to_size_t (to_string n) = Some n.
Proof.
  intros H. unfold view_to_size_t.
  pose proof (to_string_digits n ltac:(lia)) as Hd. rewrite strip_digits by auto.
  pose proof (to_string_value n ltac:(lia)) as Hv. pose proof (to_string_nonempty n) as Hne.
  destruct (to_string n) as [|c r] eqn:E; [congruence|].
  pose proof (Forall_inv Hd) as Hc. unfold is_digit in Hc.
  replace (c =? 45) with false by (symmetry; apply Z.eqb_neq; lia).
  replace (c =? 43) with false by (symmetry; apply Z.eqb_neq; lia).
  rewrite digits_val_value; [rewrite Hv; reflexivity|auto|lia|rewrite Hv; lia].
Qed.

(** * Channel keys *)

Lemma split_build k n :
  normal_key_ok k = true -> 0 <= n < 2 ^ 64 ->
  split_channel_key (build_channel_key k n) = Some (k, n).
Proof.
  intros Hk Hn. unfold split_channel_key, build_channel_key.
  rewrite find_sep_app by (apply normal_key_find; auto).
  rewrite view_to_string by auto. reflexivity.
Qed.

Lemma build_inj k k' n n' :
  normal_key_ok k = true -> normal_key_ok k' = true ->
  0 <= n < 2 ^ 64 -> 0 <= n' < 2 ^ 64 ->
  build_channel_key k n = build_channel_key k' n' -> k = k' /\ n = n'.
Proof.
  intros Hk Hk' Hn Hn' H.
  pose proof (split_build k n Hk Hn) as E. rewrite H, split_build in E by auto.
  inversion E; auto.
Qed.

Lemma build_not_ctl k n :
  normal_key_ok k = true -> 0 <= n < 2 ^ 64 ->
  build_channel_key k n <> kAckKey /\ build_channel_key k n <> kFinKey.
Proof.
  intros Hk Hn.
  pose proof (split_build k n Hk Hn) as E.
  split; intros H; rewrite H in E; vm_compute in E; discriminate.
Qed.

(** Without sequence ids the wire key is the user key itself. *)
Lemma plain_key_split k : normal_key_ok k = true -> split_channel_key k = Some (k, 0).
Proof. intros H. unfold split_channel_key. rewrite normal_key_find; auto. Qed.

Lemma plain_key_not_ctl k : normal_key_ok k = true -> k <> kAckKey /\ k <> kFinKey.
Proof. intros H; split; intros ->; vm_compute in H; discriminate. Qed.
