(** The row reader against tables: lemmas. *)
From Coq Require Import NArith List Bool Arith Ascii Lia.
From Verif Require Import LinCodeModel PrgModel CsvModel CsvProof.
Import ListNotations.
Open Scope nat_scope.

(** ** Features *)
Lemma text_eqb_refl a : text_eqb a a = true.
Proof. now apply text_eqb_eq. Qed.
Lemma text_eqb_neq a b : a <> b -> text_eqb a b = false.
Proof. intros H. destruct (text_eqb a b) eqn:E; [apply text_eqb_eq in E; congruence|reflexivity]. Qed.
Lemma existsb_text w acc : existsb (text_eqb w) acc = true <-> In w acc.
Proof.
  rewrite existsb_exists. split; [intros (x & Hx & E); apply text_eqb_eq in E; now subst|].
  intros H. exists w. split; [assumption|apply text_eqb_refl].
Qed.
Lemma add_headers_ok hs : forall acc, ~ In [] (map strip hs) -> NoDup (acc ++ map strip hs) ->
  add_headers acc hs = Val (acc ++ map strip hs).
Proof.
  induction hs as [| h hs IH]; intros acc Hne Hnd; cbn [add_headers map]; [now rewrite app_nil_r|].
  cbn [map] in Hne, Hnd. rewrite text_eqb_neq by (intros E; apply Hne; now left).
  destruct (existsb (text_eqb (strip h)) acc) eqn:E.
  - apply existsb_text in E. apply NoDup_remove_2 in Hnd. exfalso. apply Hnd, in_or_app. now left.
  - rewrite IH, <- app_assoc; [reflexivity|intros X; apply Hne; now right|now rewrite <- app_assoc].
Qed.
Lemma add_headers_bad hs : forall acc, In [] (map strip hs) \/ ~ NoDup (acc ++ map strip hs) -> NoDup acc ->
  add_headers acc hs = Thrown.
Proof.
  induction hs as [| h hs IH]; intros acc Hb Hnd; cbn [add_headers map] in *.
  - rewrite app_nil_r in Hb. destruct Hb as [[]|]; contradiction.
  - destruct (text_eqb (strip h) []) eqn:E1; [reflexivity|].
    destruct (existsb (text_eqb (strip h)) acc) eqn:E2; [reflexivity|].
    apply IH.
    + destruct Hb as [[H | H] | H]; [exfalso; rewrite H in E1; cbn in E1; discriminate|now left|].
      right. now rewrite <- app_assoc.
    + apply NoDup_rev in Hnd. rewrite <- (rev_involutive (acc ++ [strip h])). apply NoDup_rev.
      rewrite rev_app_distr. cbn. constructor; [|assumption].
      rewrite <- in_rev. intros X. apply existsb_text in X. congruence.
Qed.
Lemma find_index_some x l i : find_index x l = Some i -> nth_error l i = Some x.
Proof.
  revert i. induction l as [| y l IH]; intros i; cbn; [discriminate|].
  destruct (text_eqb y x) eqn:E; [intros [= <-]; apply text_eqb_eq in E; now subst|].
  destruct (find_index x l); [|discriminate]. intros [= <-]. cbn. now apply IH.
Qed.
Lemma find_index_in x l : In x l -> exists i, find_index x l = Some i.
Proof.
  induction l as [| y l IH]; cbn; [tauto|].
  intros [-> | H]; [rewrite text_eqb_refl; eauto|].
  destruct (text_eqb y x); [eauto|]. destruct (IH H) as (i & ->). eauto.
Qed.
Lemma find_index_none x l : ~ In x l -> find_index x l = None.
Proof.
  induction l as [| y l IH]; cbn; intros H; [reflexivity|].
  rewrite text_eqb_neq by (intros E; apply H; now left). rewrite IH; [reflexivity|intros X; apply H; now right].
Qed.

(** The field of a row under a header. *)
Definition field_of (names : list text) (row : list text) (n : text) : option text :=
  option_map snd (find (fun p => text_eqb (fst p) n) (combine names row)).
Lemma field_of_index names : forall row n i, length row = length names -> find_index n names = Some i -> field_of names row n = nth_error row i.
Proof.
  unfold field_of. induction names as [| m names IH]; intros row n i Hl; cbn; [discriminate|].
  destruct row as [| x row]; [discriminate|]. cbn in *.
  destruct (text_eqb m n) eqn:E; [intros [= <-]; reflexivity|].
  destruct (find_index n names) eqn:F; [|discriminate]. intros [= <-]. cbn. apply IH; [lia|assumption].
Qed.

(** The features in the order of the header. *)
Definition header_order (names : list text) (feats : list (text * stype)) : list (text * stype) :=
  flat_map (fun h => filter (fun f => text_eqb (fst f) h) feats) names.
Definition selects (names : list text) (f : text * stype) (s : nat * stype) : Prop :=
  find_index (fst f) names = Some (fst s) /\ snd f = snd s.

Lemma select_ok names : forall ns ts, length ns = length ts -> incl ns names ->
  exists sel, select names ns ts = Val sel /\ Forall2 (selects names) (combine ns ts) sel.
Proof.
  induction ns as [| n ns IH]; intros [| t ts] Hl Hi; try discriminate; cbn.
  - exists []. split; [reflexivity|constructor].
  - destruct (find_index_in n names) as (i & Ei); [apply Hi; now left|]. rewrite Ei.
    destruct (IH ts) as (sel & -> & H2); [now injection Hl|intros x Hx; apply Hi; now right|].
    cbn. exists ((i, t) :: sel). split; [reflexivity|]. constructor; [split; [exact Ei|reflexivity]|assumption].
Qed.
Lemma select_bad names : forall ns ts, length ns = length ts -> ~ incl ns names -> select names ns ts = Thrown.
Proof.
  induction ns as [| n ns IH]; intros [| t ts] Hl Hi; try discriminate.
  - exfalso. apply Hi. intros x [].
  - cbn. destruct (find_index n names) eqn:E; [|reflexivity].
    rewrite IH; [reflexivity|now injection Hl|]. intros X. apply Hi. intros x [<- | Hx]; [|now apply X].
    apply find_index_some in E. now apply nth_error_In in E.
Qed.

Definition buckets (a m : nat) (l : list (nat * stype)) := flat_map (fun j => filter (fun p => fst p =? j) l) (seq a m).
Lemma insert_mid x A B : Forall (fun y => fst y <= fst x) A -> Forall (fun y => fst x < fst y) B ->
  insert_feature x (A ++ B) = A ++ x :: B.
Proof.
  induction A as [| a A IH]; intros HA HB; cbn.
  - destruct B as [| b B]; [reflexivity|]. cbn. inversion HB; subst.
    destruct (Nat.leb_spec (fst b) (fst x)); [lia|reflexivity].
  - inversion HA; subst. destruct (Nat.leb_spec (fst a) (fst x)); [|lia]. now rewrite IH.
Qed.
Lemma buckets_split a m k l : k <= m -> buckets a m l = buckets a k l ++ buckets (a + k) (m - k) l.
Proof.
  intros H. unfold buckets. rewrite <- flat_map_app, <- seq_app. do 2 f_equal. lia.
Qed.
Lemma buckets_bound a m l : Forall (fun y => a <= fst y < a + m) (buckets a m l).
Proof.
  rewrite Forall_forall. intros y Hy. unfold buckets in Hy. apply in_flat_map in Hy as (j & Hj & Hy).
  apply in_seq in Hj. apply filter_In in Hy as (_ & Hy). apply Nat.eqb_eq in Hy. lia.
Qed.
Lemma buckets_snoc_other a m l x : (fst x < a \/ a + m <= fst x) -> buckets a m (l ++ [x]) = buckets a m l.
Proof.
  intros H. unfold buckets. rewrite !flat_map_concat_map. f_equal. apply map_ext_in. intros j Hj. apply in_seq in Hj.
  rewrite filter_app. cbn. destruct (Nat.eqb_spec (fst x) j); [lia|]. now rewrite app_nil_r.
Qed.
Lemma buckets_snoc m l x : fst x < m -> buckets 0 m (l ++ [x]) = insert_feature x (buckets 0 m l).
Proof.
  intros H. rewrite (buckets_split 0 m (S (fst x)) (l ++ [x])), (buckets_split 0 m (S (fst x)) l) by lia.
  rewrite insert_mid.
  - rewrite (buckets_snoc_other (0 + S (fst x))) by lia.
    rewrite (buckets_split 0 (S (fst x)) (fst x) (l ++ [x])), (buckets_split 0 (S (fst x)) (fst x) l) by lia.
    rewrite (buckets_snoc_other 0) by lia. replace (S (fst x) - fst x) with 1 by lia. cbn [Nat.add].
    assert (forall q, buckets (fst x) 1 q = filter (fun p => fst p =? fst x) q) as B1
      by (intros q; unfold buckets; cbn [seq flat_map]; apply app_nil_r).
    rewrite !B1, filter_app. cbn [filter]. rewrite Nat.eqb_refl.
    now rewrite <- !app_assoc.
  - eapply Forall_impl; [|apply buckets_bound]. cbn. intros; lia.
  - eapply Forall_impl; [|apply buckets_bound]. cbn. intros; lia.
Qed.
Lemma sort_buckets m l : Forall (fun p => fst p < m) l -> sort_features l = buckets 0 m l.
Proof.
  unfold sort_features. induction l as [| x l IH] using rev_ind; intros H.
  - unfold buckets. cbn. induction (seq 0 m); [reflexivity|assumption].
  - apply Forall_app in H as (Hl & Hx). inversion Hx; subst.
    rewrite fold_left_app. cbn [fold_left]. rewrite IH by assumption. now rewrite buckets_snoc.
Qed.
Lemma selects_lt names f s : selects names f s -> fst s < length names.
Proof. intros (H & _). apply find_index_some in H. apply nth_error_Some. congruence. Qed.
Lemma Forall2_filter {A B} (R : A -> B -> Prop) p q : (forall a b, R a b -> p a = q b) -> forall l m,
  Forall2 R l m -> Forall2 R (filter p l) (filter q m).
Proof.
  intros H l m HF. induction HF as [| a b l m Hab HF IH]; cbn; [constructor|].
  rewrite (H _ _ Hab). destruct (q b); [constructor|]; assumption.
Qed.
Lemma header_order_ok names feats sel : NoDup names -> Forall2 (selects names) feats sel ->
  Forall2 (selects names) (header_order names feats) (sort_features sel).
Proof.
  intros Hnd HF. rewrite (sort_buckets (length names)).
  2:{ clear Hnd. induction HF; constructor; [eapply selects_lt; eassumption|assumption]. }
  unfold header_order, buckets.
  assert (forall k pre post, names = pre ++ post -> k = length pre ->
    Forall2 (selects names) (flat_map (fun h => filter (fun f => text_eqb (fst f) h) feats) post)
      (flat_map (fun j => filter (fun p => fst p =? j) sel) (seq k (length post)))) as X.
  { intros k pre post. revert k pre. induction post as [| h post IH]; intros k pre E Ek; cbn; [constructor|].
    apply Forall2_app; [|apply (IH (S k) (pre ++ [h])); [now rewrite <- app_assoc|rewrite app_length; cbn; lia]].
    apply Forall2_filter; [|assumption]. intros f s (Hf & _). apply find_index_some in Hf.
    assert (nth_error names k = Some h) as Hk by (subst; rewrite nth_error_app2, Nat.sub_diag by lia; reflexivity).
    destruct (Nat.eqb_spec (fst s) k) as [Es | Es].
    - apply text_eqb_eq. congruence.
    - apply text_eqb_neq. intros Efh. apply Es. eapply (proj1 (NoDup_nth_error names) Hnd); [apply nth_error_Some; congruence|congruence]. }
  apply (X 0 [] names); reflexivity.
Qed.

Section Rows.
Context {F D : Type}.
Variable pf : text -> option F.
Variable pd : text -> option D.
Notation reader := (reader) (only parsing).

(** The value of a field. *)
Definition field_value (ty : stype) (t : text) : option (@cell F D) :=
  match ty with STRING => Some (CStr t) | FLOAT => option_map CFlt (pf t) | DOUBLE => option_map CDbl (pd t) end.
Definition value_of (names : list text) (row : list text) (f : text * stype) : option cell :=
  match field_of names row (fst f) with Some t => field_value (snd f) t | None => None end.
(** A row has as many fields as the header, and the features have values. *)
Definition row_good (names : list text) (feats : list (text * stype)) (row : list text) : Prop :=
  length row = length names /\ Forall (fun f => value_of names row f <> None) feats.

Lemma convert_value ty t : convert pf pd ty t = match field_value ty t with Some c => Val c | None => Thrown end.
Proof. destruct ty; cbn; [reflexivity| |]; [destruct (pf t)|destruct (pd t)]; reflexivity. Qed.
Lemma parse_row_cases names feats sel row : length row = length names -> Forall2 (selects names) feats sel ->
  (exists cells, parse_row pf pd sel row = Val cells /\ map (value_of names row) feats = map Some cells) \/
  (parse_row pf pd sel row = Thrown /\ Exists (fun f => value_of names row f = None) feats).
Proof.
  intros Hl HF. induction HF as [| f (i, ty) feats sel (Hi & Hty) HF IH]; cbn [parse_row map].
  - left. exists []. split; reflexivity.
  - cbn in Hi, Hty. assert (Hv : value_of names row f = match nth_error row i with Some t => field_value ty t | None => None end).
    { unfold value_of. now rewrite (field_of_index _ _ _ i Hl Hi), Hty. }
    assert (Hlt : i < length row). { rewrite Hl. apply find_index_some in Hi. apply nth_error_Some. congruence. }
    apply nth_error_Some in Hlt. destruct (nth_error row i) as [t|]; [|congruence].
    rewrite convert_value. destruct (field_value ty t) as [c|] eqn:Ec.
    + cbn [bind]. destruct IH as [(cells & -> & E) | (-> & E)].
      * left. exists (c :: cells). cbn. split; [reflexivity|]. now rewrite Hv, E.
      * right. split; [reflexivity|now right].
    + right. split; [reflexivity|]. left. assumption.
Qed.
Lemma Exists_not_good names feats row : Exists (fun f => value_of names row f = None) feats -> ~ row_good names feats row.
Proof.
  intros E (_ & H). apply Exists_exists in E as (f & Hf & Ef). rewrite Forall_forall in H. now apply (H f Hf).
Qed.

(** The columns of rows. *)
Definition columns_of (names : list text) (feats : list (text * stype)) (w : list (list text)) (cols : list (list cell)) : Prop :=
  Forall2 (fun f col => map Some col = map (fun row => value_of names row f) w) feats cols.
Lemma columns_push names feats w row : forall cols cells, columns_of names feats w cols ->
  map (value_of names row) feats = map Some cells ->
  columns_of names feats (w ++ [row]) (map (fun p => fst p ++ [snd p]) (combine cols cells)).
Proof.
  unfold columns_of. induction feats as [| f feats IH]; intros cols cells HF E; inversion HF; subst; cbn.
  - constructor.
  - destruct cells as [| c cells]; [discriminate|]. cbn in E. injection E as E1 E2. cbn. constructor; [|now apply IH].
    rewrite !map_app, H1. cbn. now rewrite E1.
Qed.
Lemma columns_nil names feats (s : list (nat * stype)) : length s = length feats -> columns_of names feats [] (map (fun _ => []) s).
Proof.
  unfold columns_of. revert s. induction feats; intros [| x s] H; try discriminate; cbn; constructor; [reflexivity|].
  apply IHfeats. now injection H.
Qed.

(** ** A table in a file *)
Variables (f l : ascii) (header : list text) (rws : list (list text)) (tr : bool).
Definition clean (t : text) : Prop := ~ In f t /\ ~ In l t.
Definition table_ok : Prop :=
  f <> l /\ header <> [] /\ Forall clean header /\ Forall (fun row => row <> [] /\ Forall clean row) rws /\
  (tr = true \/ last (map (join f) (header :: rws)) [] <> []).
Definition lines_of : list text := map (join f) (header :: rws).
Definition doc : text := file l lines_of tr.
Notation names := (map strip header).
Notation n := (length rws).
Hypothesis OK : table_ok.

Lemma lines_clean : Forall (fun t => ~ In l t) lines_of.
Proof.
  destruct OK as (Hfl & _ & Hh & Hr & _). unfold lines_of. apply Forall_map.
  constructor.
  - intros X. apply in_join in X as [X | (t & Ht & Hx)]; [congruence|]. rewrite Forall_forall in Hh. now apply (Hh t).
  - eapply Forall_impl; [|exact Hr]. intros row (_ & Hc) X.
    apply in_join in X as [X | (t & Ht & Hx)]; [congruence|]. rewrite Forall_forall in Hc. now apply (Hc t).
Qed.
Lemma lines_last : tr = true \/ last lines_of [l] <> [].
Proof.
  destruct OK as (_ & _ & _ & _ & [H | H]); [now left|right].
  unfold lines_of in *. cbn [map] in *. generalize dependent (join f header). induction (map (join f) rws) as [| x m IH]; intros t H; [exact H|].
  cbn in H |- *. destruct m; [exact H|]. apply (IH x). exact H.
Qed.
Lemma lines_length : length lines_of = S n.
Proof. unfold lines_of. now rewrite map_length. Qed.
Notation at_line := (at_line l lines_of tr).
Notation lpos := (pos l lines_of tr).

Lemma next_line_row (r : @CsvModel.reader) c row :
  fd r = f -> ld r = l -> at_line (S c) (inp r) -> nth_error rws c = Some row ->
  exists s t, next_line r = (Some row, with_inp s t r) /\ at_line (S (S c)) s.
Proof.
  intros Hf Hl Ha Hr. unfold next_line. rewrite Hl.
  destruct (get_line_some l lines_of tr lines_clean lines_last (S c) (inp r) (line r) (join f row) Ha) as (s & -> & Hs & Ha' & _).
  { unfold lines_of. cbn [map nth_error]. rewrite nth_error_map, Hr. reflexivity. }
  rewrite Hs. exists s, (join f row). split; [|assumption]. do 2 f_equal. rewrite Hf.
  destruct OK as (_ & _ & _ & Hrs & _). rewrite Forall_forall in Hrs. destruct (Hrs row) as (Hne & Hc); [now apply nth_error_In in Hr|].
  apply split_join; [assumption|]. eapply Forall_impl; [|exact Hc]. now intros t (H & _).
Qed.
Lemma next_line_end (r : CsvModel.reader) :
  ld r = l -> at_line (S n) (inp r) -> exists s t, next_line r = (None, with_inp s t r) /\ at_line (S n) s /\ seof s = true.
Proof.
  intros Hl Ha. unfold next_line. rewrite Hl. rewrite <- lines_length in *.
  destruct (get_line_none l lines_of tr (inp r) (line r) Ha) as (t & s & -> & Hs & Ha' & He).
  rewrite Hs. eauto.
Qed.

(** ** The loop of NextRow *)
Variables (feats : list (text * stype)) (sel : list (nat * stype)).
Hypothesis Hsel : Forall2 (selects names) feats sel.
Definition window (c k : nat) : list (list text) := firstn k (skipn c rws).
Lemma window_end c k : n <= c -> window c k = [].
Proof. intros H. unfold window. rewrite skipn_all2 by assumption. now destruct k. Qed.
Lemma window_S c k row : nth_error rws c = Some row -> window c (S k) = row :: window (S c) k.
Proof. intros H. unfold window. now rewrite (skipn_cons _ _ _ H). Qed.

Lemma row_loop_cases k : forall (r : CsvModel.reader) c w0 cols count,
  fd r = f -> ld r = l -> headers r = names -> selected r = sel -> cur r = c -> c <= n -> at_line (S c) (inp r) ->
  columns_of names feats w0 cols ->
  (Forall (row_good names feats) (window c k) /\
   exists cols' s t, row_loop pf pd k r cols count = (Val (cols', count + length (window c k)), with_cur (c + length (window c k)) (with_inp s t r)) /\
     columns_of names feats (w0 ++ window c k) cols' /\ at_line (S (c + length (window c k))) s /\ (length (window c k) < k -> seof s = true)) \/
  (Exists (fun row => ~ row_good names feats row) (window c k) /\ exists r', row_loop pf pd k r cols count = (Thrown, r')).
Proof.
  induction k as [| k IH]; intros r c w0 cols count Hf Hl Hh Hs Hc Hcn Ha HC.
  - left. split; [constructor|]. exists cols, (inp r), (line r). cbn. rewrite !Nat.add_0_r, app_nil_r.
    split; [|split; [assumption|split; [assumption|lia]]]. f_equal. rewrite <- Hc. now destruct r.
  - cbn [row_loop]. destruct (nth_error rws c) as [row|] eqn:Er.
    + destruct (next_line_row r c row Hf Hl Ha Er) as (s & t & -> & Ha'). rewrite (window_S _ _ _ Er).
      cbn [headers with_inp]. rewrite Hh.
      destruct (Nat.eqb_spec (length row) (length names)) as [El | El]; cbn [negb].
      2:{ right. split; [left; intros (X & _); contradiction|]. eauto. }
      cbn [cur with_inp selected with_cur]. rewrite Hs, Hc.
      destruct (parse_row_cases names feats sel row El Hsel) as [(cells & -> & E) | (-> & E)].
      2:{ right. split; [left; now apply Exists_not_good|]. eauto. }
      assert (c < n) by (apply nth_error_Some; congruence).
      edestruct (IH (with_cur (S c) (with_inp s t r)) (S c) (w0 ++ [row]) (map (fun p => fst p ++ [snd p]) (combine cols cells)) (S count))
        as [(HG & cols' & s' & t' & Erow & HC' & Ha'' & He) | (HB & r' & Erow)]; try assumption; try reflexivity.
      * now apply columns_push.
      * left. split.
        { constructor; [|assumption]. split; [assumption|]. rewrite Forall_forall. intros g Hg X.
          apply (in_map (value_of names row)) in Hg. rewrite E, X in Hg. apply in_map_iff in Hg as (y & Hy & _). discriminate. }
        exists cols', s', t'. rewrite Erow. cbn [length]. rewrite !Nat.add_succ_r. cbn [Nat.add].
        split; [reflexivity|]. rewrite <- app_assoc in HC'. split; [exact HC'|]. split; [exact Ha''|]. intros; apply He; lia.
      * right. split; [now right|]. exists r'. exact Erow.
    + apply nth_error_None in Er. assert (c = n) by lia. subst c. rewrite H in *.
      destruct (next_line_end r Hl Ha) as (s & t & -> & Ha' & He). rewrite (window_end n (S k)) by lia.
      left. split; [constructor|]. exists cols, s, t. cbn [length]. rewrite !Nat.add_0_r, app_nil_r.
      split; [|auto]. f_equal. rewrite <- H. now destruct r.
Qed.
End Rows.
