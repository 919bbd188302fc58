(** Lemmas for the CSV reader and writer. *)
From Coq Require Import NArith List Bool Arith Ascii Lia.
From Verif Require Import LinCodeModel PrgModel CsvModel.
Import ListNotations.
Open Scope nat_scope.

(** The text of lines: every line ends in the delimiter, except perhaps the last one. *)
Fixpoint file (d : ascii) (ls : list text) (trail : bool) : text :=
  match ls with
  | [] => []
  | [l] => if trail then l ++ [d] else l
  | l :: r => l ++ d :: file d r trail
  end.

Lemma text_eqb_eq a b : text_eqb a b = true <-> a = b.
Proof. unfold text_eqb. destruct (list_eq_dec ascii_dec a b); split; congruence. Qed.

Lemma cut_none d t : ~ In d t -> cut d t = None.
Proof.
  induction t as [| c t IH]; cbn; intros H; [reflexivity|].
  destruct (Ascii.eqb_spec c d); [exfalso; apply H; now left|].
  rewrite IH; [reflexivity|]. intros X; apply H; now right.
Qed.
Lemma cut_app d t u : ~ In d t -> cut d (t ++ d :: u) = Some (t, u).
Proof.
  induction t as [| c t IH]; cbn; intros H; [now rewrite Ascii.eqb_refl|].
  destruct (Ascii.eqb_spec c d); [exfalso; apply H; now left|].
  rewrite IH; [reflexivity|]. intros X; apply H; now right.
Qed.
Lemma split_none d t : ~ In d t -> split d t = [t].
Proof.
  induction t as [| c t IH]; cbn; intros H; [reflexivity|].
  destruct (Ascii.eqb_spec c d); [exfalso; apply H; now left|].
  rewrite IH; [reflexivity|]. intros X; apply H; now right.
Qed.
Lemma split_app d t u : ~ In d t -> split d (t ++ d :: u) = t :: split d u.
Proof.
  induction t as [| c t IH]; cbn; intros H; [now rewrite Ascii.eqb_refl|].
  destruct (Ascii.eqb_spec c d); [exfalso; apply H; now left|].
  rewrite IH; [reflexivity|]. intros X; apply H; now right.
Qed.
Lemma split_join d l : l <> [] -> Forall (fun t => ~ In d t) l -> split d (join d l) = l.
Proof.
  induction l as [| x l IH]; intros Hne H; [congruence|].
  inversion H; subst. destruct l as [| y l]; cbn [join]; [now apply split_none|].
  rewrite split_app by assumption. f_equal. apply IH; [discriminate|assumption].
Qed.
Lemma join_split d t : join d (split d t) = t /\ split d t <> [] /\ Forall (fun x => ~ In d x) (split d t).
Proof.
  induction t as [| c t (IH & Hne & Hf)]; cbn; [repeat split; [congruence|constructor; auto]|].
  destruct (Ascii.eqb_spec c d) as [-> | Hcd].
  - repeat split; [|congruence|constructor; auto].
    cbn. destruct (split d t) eqn:E; [congruence|]. cbn in IH |- *. now rewrite IH.
  - destruct (split d t) as [| w ws] eqn:E; [congruence|].
    repeat split; [|congruence|].
    + destruct ws; cbn in *; now rewrite <- IH.
    + inversion Hf; subst. constructor; [intros [-> | X]; auto|assumption].
Qed.
Lemma in_join d e l : In e (join d l) -> e = d \/ exists t, In t l /\ In e t.
Proof.
  induction l as [| x l IH]; cbn; [tauto|].
  destruct l as [| y l]; [intros H; right; exists x; auto|].
  rewrite in_app_iff. intros [H | [H | H]]; [right; exists x; auto| left; auto |].
  destruct (IH H) as [| (t & Ht & He)]; [now left | right; exists t; split; [now right|assumption]].
Qed.

Lemma file_cons2 d l m r tr : file d (l :: m :: r) tr = l ++ d :: file d (m :: r) tr.
Proof. reflexivity. Qed.
Lemma file_suffix d tr i : forall ls, exists p, file d ls tr = p ++ file d (skipn i ls) tr.
Proof.
  induction i as [| i IH]; intros ls; [now exists []|].
  destruct ls as [| l [| m r]]; [now exists []| |].
  - cbn [skipn]. rewrite skipn_nil. cbn [file]. destruct tr; eexists; now rewrite app_nil_r.
  - destruct (IH (m :: r)) as (p & Hp). exists (l ++ d :: p). cbn [skipn]. rewrite file_cons2, Hp.
    now rewrite <- app_assoc.
Qed.

(** ** Streams over a text of lines *)
Section Lines.
Variables (d : ascii) (ls : list text) (tr : bool).
Hypothesis Hls : Forall (fun l => ~ In d l) ls.
Hypothesis Htr : tr = true \/ last ls [d] <> [].
Definition content := file d ls tr.
(** The position of line i. *)
Definition pos (i : nat) : nat := length content - length (file d (skipn i ls) tr).
Lemma pos_skip i : skipn (pos i) content = file d (skipn i ls) tr.
Proof.
  destruct (file_suffix d tr i ls) as (p & Hp). unfold pos, content. rewrite Hp, app_length.
  replace (length p + _ - _) with (length p) by lia.
  rewrite skipn_app, skipn_all, Nat.sub_diag. reflexivity.
Qed.
Lemma pos_le i : pos i <= length content.
Proof. unfold pos. lia. Qed.
Lemma pos_0 : pos 0 = 0.
Proof. unfold pos, content. cbn [skipn]. lia. Qed.

(** The stream stands before line i. *)
Definition at_line (i : nat) (s : stream) : Prop :=
  sdata s = content /\ spos s = pos i /\ i <= length ls /\ (seof s = true -> i = length ls) /\ (sfail s = true -> seof s = true).

Lemma last_skipn {A} (l : list A) i x : i < length l -> last (skipn i l) x = last l x.
Proof.
  revert i. induction l as [| a l IH]; intros i Hi; [cbn in Hi; lia|].
  destruct i; [reflexivity|]. cbn in Hi. cbn [skipn].
  destruct l as [| b l]; [cbn in Hi; lia|]. rewrite IH by lia. reflexivity.
Qed.
Lemma skipn_cons {A} i (l : list A) x : nth_error l i = Some x -> skipn i l = x :: skipn (S i) l.
Proof.
  revert l. induction i; intros [| y l] H; cbn in H; try discriminate; [injection H as ->; reflexivity|].
  cbn [skipn]. rewrite (IHi _ H). reflexivity.
Qed.

Lemma get_line_some i s old l :
  at_line i s -> nth_error ls i = Some l ->
  exists s', get_line d old s = (l, s') /\ sfail s' = false /\ at_line (S i) s' /\
             (seof s' = true -> tr = false) .
Proof.
  intros (Hd & Hp & Hi & He & Hf) Hl.
  assert (Hlt : i < length ls) by (apply nth_error_Some; congruence).
  assert (Eeof : seof s = false) by (destruct (seof s); [specialize (He eq_refl); lia|reflexivity]).
  assert (Efail : sfail s = false) by (destruct (sfail s); [rewrite Hf in Eeof by reflexivity; discriminate|reflexivity]).
  assert (Hnl : ~ In d l) by (rewrite Forall_forall in Hls; apply Hls; eapply nth_error_In; eassumption).
  unfold get_line. rewrite Eeof, Efail. cbn [orb]. rewrite Hd, Hp, pos_skip.
  pose proof (skipn_cons _ _ _ Hl) as Hsk. rewrite Hsk.
  assert (Hlen : length content = pos i + length (file d (skipn i ls) tr)).
  { rewrite <- pos_skip, skipn_length. pose proof (pos_le i). lia. }
  destruct (skipn (S i) ls) as [| m r] eqn:Er.
  - assert (Hn : S i = length ls).
    { assert (length (skipn (S i) ls) = 0) as X by now rewrite Er. rewrite skipn_length in X. lia. }
    assert (Hlast : last ls [d] = l).
    { rewrite <- (last_skipn ls i) by lia. rewrite Hsk. reflexivity. }
    assert (HpS : pos (S i) = length content) by (unfold pos; rewrite Er; cbn [file length]; lia).
    cbn [file]. destruct tr eqn:Etr.
    + rewrite cut_app by assumption. eexists. split; [reflexivity|]. cbn [sfail seof sdata spos].
      split; [reflexivity|]. split; [|discriminate].
      repeat split; cbn [sfail seof sdata spos]; try discriminate; [|lia].
      rewrite HpS, Hlen, Hsk. cbn [file]. rewrite app_length. cbn [length]. lia.
    + rewrite cut_none by assumption. eexists. split; [reflexivity|]. cbn [sfail seof sdata spos].
      assert (l <> []) by (destruct Htr as [|X]; [discriminate|congruence]).
      split; [destruct l; congruence|]. split; [|reflexivity].
      repeat split; cbn [sfail seof sdata spos]; [congruence|lia|lia].
  - rewrite file_cons2, cut_app by assumption. eexists. split; [reflexivity|]. cbn [sfail seof sdata spos].
    split; [reflexivity|]. split; [|discriminate].
    assert (S i < length ls).
    { assert (length (skipn (S i) ls) = S (length r)) as X by now rewrite Er. rewrite skipn_length in X. lia. }
    repeat split; cbn [sfail seof sdata spos]; try discriminate; [|lia].
    assert (length content = pos (S i) + length (file d (skipn (S i) ls) tr)) as X.
    { rewrite <- pos_skip, skipn_length. pose proof (pos_le (S i)). lia. }
    rewrite Er in X. rewrite Hlen, Hsk, file_cons2, app_length in X. cbn [length] in X. lia.
Qed.

Lemma get_line_none s old :
  at_line (length ls) s ->
  exists t s', get_line d old s = (t, s') /\ sfail s' = true /\ at_line (length ls) s' /\ seof s' = true.
Proof.
  intros (Hd & Hp & Hi & He & Hf). unfold get_line.
  destruct (seof s || sfail s) eqn:E.
  - eexists _, _. split; [reflexivity|]. cbn [sfail seof].
    assert (seof s = true) by (destruct (seof s); [reflexivity|cbn in E; auto]).
    repeat split; cbn [sfail seof sdata spos]; auto.
  - assert (Hsk : skipn (pos (length ls)) content = []) by (rewrite pos_skip, skipn_all; reflexivity).
    rewrite Hd, Hp, Hsk. cbn [cut].
    eexists _, _. split; [reflexivity|]. cbn [sfail seof].
    repeat split; cbn [sfail seof sdata spos]; auto.
    unfold pos. rewrite skipn_all. cbn [file length]. lia.
Qed.

Lemma seekg_line i s : sdata s = content -> i <= length ls -> at_line i (seekg (pos i) s).
Proof.
  intros Hd Hi. unfold seekg, at_line. cbn [sdata spos seof sfail].
  repeat (split; [solve [auto | discriminate]|]).
  rewrite Hd. pose proof (pos_le i). intros X%Nat.ltb_lt. lia.
Qed.
Lemma spawn_line i s : at_line i s -> at_line i (stream_spawn s).
Proof.
  intros (Hd & Hp & Hi & _). unfold stream_spawn, tellg. rewrite Hp.
  apply seekg_line; assumption.
Qed.
Lemma open_line : at_line 0 (mkStream content 0 false false).
Proof. repeat split; cbn; try discriminate; [now rewrite pos_0|lia]. Qed.
End Lines.

(** Every text is a text of lines. *)
Lemma file_of_text d (t : text) : t <> [] -> exists ls tr,
  t = file d ls tr /\ ls <> [] /\ Forall (fun l => ~ In d l) ls /\ (tr = true \/ last ls [d] <> []).
Proof.
  induction t as [| c t IH]; intros Hne; [congruence|].
  destruct (list_eq_dec ascii_dec t []) as [-> | Ht].
  - destruct (Ascii.eqb_spec c d) as [-> | Hc].
    + exists [[]], true. repeat split; auto; congruence.
    + exists [[c]], false. split; [reflexivity|]. split; [congruence|]. split; [|right; cbn; congruence].
      constructor; [intros [H|[]]; auto|constructor].
  - destruct (IH Ht) as (ls & tr & -> & Hls & Hf & Htr). destruct ls as [| l ls]; [congruence|].
    destruct (Ascii.eqb_spec c d) as [-> | Hc].
    + exists ([] :: l :: ls), tr. repeat split; auto; try congruence.
    + exists ((c :: l) :: ls), tr. split; [|split; [congruence|split]].
      * destruct ls; [destruct tr; reflexivity|reflexivity].
      * inversion Hf; subst. constructor; [intros [H|H]; auto|assumption].
      * destruct Htr as [H | H]; [now left|right]. destruct ls; [discriminate|exact H].
Qed.
