(** C82, C83: the CSV reader returns the table in the file, whatever the history of calls, and the writer
    writes files that the reader reads back. *)
From Coq Require Import NArith List Bool Arith Ascii Lia.
From Verif Require Import LinCodeModel PrgModel CsvModel CsvProof CsvProof2 CsvProof3 CsvProof4 CsvProof5 CsvProof6.
Import ListNotations.
Open Scope nat_scope.

(** ** C82: the reader *)

(** Every text but the empty one is the document of a table. *)
Theorem csv_every_file : forall f l t, f <> l -> t <> [] ->
  exists header rws tr, table_ok f l header rws tr /\ t = doc f l header rws tr.
Proof.
  intros f l t Hfl Ht. destruct (file_of_text l t Ht) as (ls & tr & -> & Hne & Hc & Hl).
  destruct ls as [| h ls]; [congruence|].
  assert (Hj : forall ws, map (join f) (map (split f) ws) = ws).
  { induction ws as [| w ws IH]; cbn; [reflexivity|]. now rewrite IH, (proj1 (join_split f w)). }
  assert (Hclean : forall w, ~ In l w -> Forall (clean f l) (split f w)).
  { intros w Hw. destruct (join_split f w) as (E & Hn & HF). rewrite Forall_forall in *. intros x Hx. split; [now apply HF|].
    intros X. apply Hw. rewrite <- E. revert Hx X. clear. induction (split f w) as [| y ys IH]; [intros []|].
    intros Hx X. destruct Hx as [-> | Hx].
    - destruct ys; cbn; [assumption|]. apply in_or_app. now left.
    - destruct ys as [| z ys]; [destruct Hx|]. cbn. apply in_or_app. right. right. exact (IH Hx X). }
  exists (split f h), (map (split f) ls), tr.
  change (split f h :: map (split f) ls) with (map (split f) (h :: ls)).
  split; [|unfold doc, lines_of; change (split f h :: map (split f) ls) with (map (split f) (h :: ls)); now rewrite Hj].
  inversion Hc; subst. split; [assumption|]. split; [now destruct (join_split f h) as (_ & X & _)|].
  split; [now apply Hclean|]. split.
  - apply Forall_map. eapply Forall_impl; [|eassumption]. intros w Hw. split; [now destruct (join_split f w) as (_ & X & _)|now apply Hclean].
  - change (split f h :: map (split f) ls) with (map (split f) (h :: ls)). rewrite Hj.
    destruct Hl as [Hl | Hl]; [now left|right]. clear -Hl.
    revert h Hl. induction ls as [| a ls IH]; intros h Hl; [exact Hl|]. apply (IH a). exact Hl.
Qed.

(** The row reader: after Init, any history of calls shows the rows of the table. *)
Theorem csv_row_reader : forall {F D} (pf : text -> option F) df ef (pd : text -> option D) dd ed f l header rws tr o,
  table_ok f l header rws tr -> names_ok header ->
  length (o_names o) = length (o_types o) -> incl (o_names o) (map strip header) ->
  o_column o = false -> 0 < o_batch o -> (o_count o = true -> rws <> []) ->
  exists r, init pf ef pd ed (open o (doc f l header rws tr) f l) = Val r /\ headers r = map strip header /\
    forall ops, row_history pf pd header rws (features header o) (o_batch o) (Some (0, o_count o)) ops (run pf df pd dd ops r).
Proof.
  intros F D pf df ef pd dd ed f l header rws tr o OK Hn Hl Hi Hc Hb Hcnt.
  destruct (init_row pf pd ef ed f l header rws tr OK o Hn Hl Hi Hc) as (sel & r & E & HF & Hs); [auto|].
  exists r. split; [exact E|]. split; [apply Hs|]. intros ops. eapply run_history; eassumption.
Qed.

(** The column reader: a bad row anywhere stops Init, otherwise any history shows the columns of the same table. *)
Theorem csv_column_reader : forall {F D} (pf : text -> option F) df ef (pd : text -> option D) dd ed f l header rws tr o,
  (forall x, length (ef x) = 4 /\ df (ef x) = x) -> (forall x, length (ed x) = 8 /\ dd (ed x) = x) ->
  table_ok f l header rws tr -> names_ok header -> rws <> [] ->
  Forall (Forall (fun t : text => (N.of_nat (length t) < 2 ^ 32)%N)) rws ->
  length (o_names o) = length (o_types o) -> incl (o_names o) (map strip header) -> o_names o <> [] -> o_column o = true ->
  (Forall (row_good pf pd (map strip header) (features header o)) rws /\
   exists r, init pf ef pd ed (open o (doc f l header rws tr) f l) = Val r /\ headers r = map strip header /\
     forall ops, col_history pf pd header rws (features header o) 0 ops (run pf df pd dd ops r)) \/
  (Exists (fun row => ~ row_good pf pd (map strip header) (features header o) row) rws /\
   init pf ef pd ed (open o (doc f l header rws tr) f l) = Thrown).
Proof.
  intros F D pf df ef pd dd ed f l header rws tr o Hef Hed OK Hn Hne Hsm Hl Hi Hnn Hc.
  destruct (init_col pf ef pd ed f l header rws tr OK o Hc Hn Hl Hi Hnn) as [(HG & sel & r & E & HF & Hs) | (HB & E)]; [left|right; auto].
  split; [assumption|]. exists r. split; [exact E|]. split; [apply Hs|]. intros ops. eapply col_run_history; eassumption.
Qed.

(** Init refuses an empty file, an empty or repeated name, a feature that is not in the header, and a schema
    with names and types of different numbers. *)
Theorem csv_init_rejects : forall {F D} (pf : text -> option F) ef (pd : text -> option D) ed f l o,
  init pf ef pd ed (open o [] f l) = Thrown /\
  forall header rws tr, table_ok f l header rws tr ->
  ~ (names_ok header /\ length (o_names o) = length (o_types o) /\ incl (o_names o) (map strip header) /\ (o_column o = true -> o_names o <> [])) ->
  init pf ef pd ed (open o (doc f l header rws tr) f l) = Thrown.
Proof.
  intros F D pf ef pd ed f l o. split; [reflexivity|]. intros header rws tr OK H. now apply init_rejects.
Qed.

(** Reading by batches of k until the end returns every row once, in order. *)
Fixpoint drain {F D} (pf : text -> option F) df (pd : text -> option D) dd (k fuel : nat) (r : reader) : outcome (list (@batch F D)) :=
  match fuel with
  | O => Hangs
  | S n => match next_size pf df pd dd k r with
           | (Val (true, b), r') => bind (drain pf df pd dd k n r') (fun bs => Val (b :: bs))
           | (Val (false, _), _) => Val []
           | (Thrown, _) => Thrown
           | (OutOfBounds, _) => OutOfBounds
           | (Hangs, _) => Hangs
           end
  end.
Lemma skipn_skip {A} k c : forall l : list A, skipn k (skipn c l) = skipn (c + k) l.
Proof. induction c as [| c IH]; intros l; [reflexivity|]. destruct l; cbn; [now rewrite skipn_nil|apply IH]. Qed.
Lemma drain_stands {F D} (pf : text -> option F) df (pd : text -> option D) dd f l header rws tr o feats sel
  (OK : table_ok f l header rws tr) (Hsel : Forall2 (selects (map strip header)) feats sel) k :
  o_column o = false -> 0 < k -> Forall (row_good pf pd (map strip header) feats) rws ->
  forall fuel c known r, length rws - c < fuel -> stands f l header rws tr o sel c known r ->
  exists bs ws, drain pf df pd dd k fuel r = Val bs /\ concat ws = skipn c rws /\ Forall2 (batch_of pf pd header feats) ws bs.
Proof.
  intros Hc Hk HG. induction fuel as [| fuel IH]; intros c known r Hf Hs; [lia|]. cbn [drain].
  pose proof Hs as ((Ho & _) & Hin & _ & Hcn & _). unfold next_size.
  destruct (Nat.eqb_spec k 0) as [X | _]; [lia|]. cbn [orb]. rewrite Hin, Ho, Hc. cbn [negb].
  destruct (next_row_ok pf pd f l header rws tr OK o feats sel Hsel c known r k Hs Hk) as [(_ & b & r' & kn' & E & Hs' & _ & Hb1 & _) | (HB & _)].
  - rewrite E. pose proof (window_length rws c k) as Hw.
    destruct (Nat.eqb_spec (length (window rws c k)) 0) as [E0 | E0]; cbn [negb].
    + exists [], []. split; [reflexivity|]. split; [|constructor]. rewrite skipn_all2 by lia. reflexivity.
    + destruct (IH (Nat.min (c + k) (length rws)) kn' r') as (bs & ws & Ed & Ec & HF); [lia|assumption|].
      rewrite Ed. cbn [bind]. exists (b :: bs), (window rws c k :: ws). split; [reflexivity|]. split.
      * cbn [concat]. rewrite Ec. unfold window.
        destruct (Nat.leb_spec (c + k) (length rws)).
        -- rewrite Nat.min_l by assumption. rewrite <- skipn_skip. apply firstn_skipn.
        -- rewrite Nat.min_r, skipn_all, app_nil_r by lia. apply firstn_all2. rewrite skipn_length. lia.
      * constructor; [|assumption]. apply Hb1. intros X. apply E0. now rewrite X.
  - exfalso. apply Exists_exists in HB as (row & Hr & Hbad). apply Hbad. rewrite Forall_forall in HG. apply HG.
    unfold window in Hr. rewrite <- (firstn_skipn c rws). apply in_or_app. right.
    rewrite <- (firstn_skipn k (skipn c rws)). apply in_or_app. now left.
Qed.
Theorem csv_drain : forall {F D} (pf : text -> option F) df ef (pd : text -> option D) dd ed f l header rws tr o k,
  table_ok f l header rws tr -> names_ok header ->
  length (o_names o) = length (o_types o) -> incl (o_names o) (map strip header) ->
  o_column o = false -> o_count o = false -> 0 < k -> Forall (row_good pf pd (map strip header) (features header o)) rws ->
  exists bs ws, bind (init pf ef pd ed (open o (doc f l header rws tr) f l)) (fun r => drain pf df pd dd k (S (length rws)) r) = Val bs /\
    concat ws = rws /\ Forall2 (batch_of pf pd header (features header o)) ws bs.
Proof.
  intros F D pf df ef pd dd ed f l header rws tr o k OK Hn Hl Hi Hc Hct Hk HG.
  destruct (init_row pf pd ef ed f l header rws tr OK o Hn Hl Hi Hc) as (sel & r & E & HF & Hs); [congruence|].
  rewrite E. cbn [bind].
  destruct (drain_stands pf df pd dd f l header rws tr o _ sel OK HF k Hc Hk HG (S (length rws)) 0 (o_count o) r) as (bs & ws & E1 & E2 & E3); [lia|assumption|].
  exists bs, ws. auto.
Qed.

(** ** C83: the writer *)
(** What the writer writes: the document of the names and the rows of the batches. *)
Theorem csv_writer_output : forall {F D} (sf : F -> text) (sd : D -> text) names types f l (bs : list (@batch F D)),
  names <> [] -> length names = length types -> Forall (batch_wf types) bs ->
  exists w0 w1 w2, open_writer names types f l = Val w0 /\ init_writer w0 = Val w1 /\ add_all sf sd bs w1 = (Val tt, w2) /\
    w_out w2 = doc f l names (map (map (show sf sd)) (flat_map rows_of bs)) true.
Proof.
  intros F D sf sd names types f l bs Hne Hl HF. unfold open_writer.
  destruct (Nat.eqb_spec (length names) 0) as [E | _]; [destruct names; [congruence|discriminate]|].
  rewrite Hl, Nat.eqb_refl. cbn [orb negb]. eexists _, _, _. split; [reflexivity|]. split; [reflexivity|].
  rewrite add_all_ok; cbn [w_inited w_types w_names w_fd w_ld write]; try assumption; try reflexivity.
  2:{ destruct types; [destruct names; [congruence|discriminate]|congruence]. }
  split; [reflexivity|]. cbn [w_out write]. unfold doc, lines_of. rewrite file_true. cbn [map concat app].
  f_equal. f_equal. rewrite !map_map. reflexivity.
Qed.

Definition cell_ok {F D} (pf : text -> option F) (pd : text -> option D) sf sd (f l : ascii) (c : @cell F D) : Prop :=
  clean f l (show sf sd c) /\ match c with CStr _ => True | CFlt x => pf (sf x) = Some x | CDbl x => pd (sd x) = Some x end.
Definition batch_typed {F D} (types : list stype) (b : @batch F D) : Prop :=
  Forall2 (fun ty col => fst col = ty /\ length (snd col) = b_rows b /\
    Forall (fun c => match ty, c with STRING, CStr _ | FLOAT, CFlt _ | DOUBLE, CDbl _ => True | _, _ => False end) (snd col)) types (b_cols b).

Lemma rows_of_typed {F D} (pf : text -> option F) (pd : text -> option D) sf sd f l types b : batch_typed types b ->
  Forall (fun col => Forall (cell_ok pf pd sf sd f l) (snd col)) (b_cols b) ->
  Forall (fun row => Forall2 (fun ty c => field_value pf pd ty (show sf sd c) = Some c) types row /\ Forall (fun c => clean f l (show sf sd c)) row) (rows_of b).
Proof.
  unfold batch_typed, rows_of. intros HT HC. rewrite Forall_forall. intros row Hr. apply in_map_iff in Hr as (r & <- & Hr). apply in_seq in Hr.
  unfold row_of. revert HC. induction HT as [| ty col types cols (Hty & Hlen & Htc) HT IH]; intros HC; [split; constructor|].
  inversion HC; subst. destruct (IH H2) as (I1 & I2). cbn [flat_map].
  destruct (nth_error (snd col) r) as [c|] eqn:Ec; [|apply nth_error_None in Ec; lia]. cbn [app].
  apply nth_error_In in Ec. rewrite Forall_forall in Htc, H1. specialize (Htc c Ec). destruct (H1 c Ec) as (Hcl & Hv).
  split; constructor; auto. destruct (fst col), c; cbn in *; try contradiction; [reflexivity| |]; now rewrite Hv.
Qed.

Lemma cols_wf {F D} (val : text * stype -> list (option (@cell F D))) m : forall names types cols, length names = length types ->
  (forall g, length (val g) = m) -> Forall2 (fun g col => fst col = snd g /\ map Some (snd col) = val g) (combine names types) cols ->
  Forall2 (fun (ty : stype) (col : column) => fst col = ty /\ length (snd col) = m) types cols.
Proof.
  induction names as [| n names IH]; intros [| ty types] cols Hl Hm HF; try discriminate; inversion HF as [| g col gs cs (A & B) HF']; subst; constructor.
  - split; [exact A|]. apply (f_equal (@length _)) in B. now rewrite map_length, Hm in B.
  - apply IH; [now injection Hl|assumption|assumption].
Qed.
(** Writing batches and reading the file back: the rows come back, in batches of k. *)
Theorem csv_round_trip : forall {F D} (pf : text -> option F) df ef (pd : text -> option D) dd ed sf sd names types f l (bs : list (@batch F D)) k bsize,
  f <> l -> names <> [] -> length names = length types -> NoDup names ->
  Forall (fun n => n <> [] /\ strip n = n /\ clean f l n) names ->
  Forall (batch_typed types) bs -> Forall (fun b => Forall (fun col => Forall (cell_ok pf pd sf sd f l) (snd col)) (b_cols b)) bs -> 0 < k ->
  exists w0 w1 w2, open_writer names types f l = Val w0 /\ init_writer w0 = Val w1 /\ add_all sf sd bs w1 = (Val tt, w2) /\
  exists back, bind (init pf ef pd ed (open (mkOptions names types bsize false false false) (w_out w2) f l))
                    (fun r => drain pf df pd dd k (S (length (flat_map rows_of bs))) r) = Val back /\
    flat_map rows_of back = flat_map rows_of bs /\ Forall (batch_wf types) back.
Proof.
  intros F D pf df ef pd dd ed sf sd names types f l bs k bsize Hfl Hne Hl Hnd Hnames Hbt Hbc Hk.
  assert (Hwf : Forall (batch_wf types) bs).
  { eapply Forall_impl; [|exact Hbt]. intros b Hb. unfold batch_wf, batch_typed in *.
    revert Hb. clear. generalize (b_rows b). intros m Hb. induction Hb as [| ty col ts cs (A & B & _) Hb IH]; constructor; [split; assumption|assumption]. }
  destruct (csv_writer_output sf sd names types f l bs Hne Hl Hwf) as (w0 & w1 & w2 & E0 & E1 & E2 & Eo).
  exists w0, w1, w2. split; [exact E0|]. split; [exact E1|]. split; [exact E2|]. rewrite Eo.
  set (W := flat_map rows_of bs) in *.
  assert (HW : Forall (fun row => Forall2 (fun ty c => field_value pf pd ty (show sf sd c) = Some c) types row /\ Forall (fun c => clean f l (show sf sd c)) row) W).
  { unfold W. rewrite Forall_forall. intros row Hr. apply in_flat_map in Hr as (b & Hb & Hr).
    rewrite Forall_forall in Hbt, Hbc. pose proof (rows_of_typed pf pd sf sd f l types b (Hbt b Hb) (Hbc b Hb)) as X.
    rewrite Forall_forall in X. now apply X. }
  assert (Hstrip : map strip names = names).
  { clear -Hnames. induction Hnames as [| n ns (_ & H & _) HF IH]; cbn [map]; [reflexivity|]. now rewrite H, IH. }
  assert (Htab : table_ok f l names (map (map (show sf sd)) W) true).
  { split; [assumption|]. split; [assumption|]. split; [eapply Forall_impl; [|exact Hnames]; now intros n (_ & _ & H)|].
    split; [|now left]. apply Forall_map. eapply Forall_impl; [|exact HW]. intros row (HR & HC). split.
    - apply Forall2_len in HR. destruct row; [destruct names; [congruence|]; cbn in *; lia|discriminate].
    - apply Forall_map. exact HC. }
  set (o := mkOptions names types bsize false false false).
  assert (Hfeat : features names o = combine names types) by reflexivity.
  assert (Hvals : Forall2 (fun row cells => map (value_of pf pd (map strip names) row) (combine names types) = map Some cells) (map (map (show sf sd)) W) W).
  { clear -HW Hstrip Hnd Hl. rewrite Hstrip. induction HW as [| row W' (HR & HC) HW IH]; cbn; constructor; [|assumption]. now apply values_shown. }
  destruct (csv_drain pf df ef pd dd ed f l names (map (map (show sf sd)) W) true o k) as (back & ws & E & Ec & HB); try assumption; try reflexivity.
  - split; [|now rewrite Hstrip]. rewrite Hstrip. intros X. rewrite Forall_forall in Hnames. now destruct (Hnames [] X) as (Y & _).
  - cbn. rewrite Hstrip. apply incl_refl.
  - rewrite Hfeat. apply Forall_map. clear -HW Hvals Hstrip Hl Hnd. rewrite Forall_forall in *. intros row Hr. destruct (HW row Hr) as (HR & _).
    split; [rewrite !map_length; transitivity (length types); [symmetry; exact (Forall2_len _ _ _ HR)|now symmetry]|].
    rewrite Forall_forall. intros g Hg X. rewrite Hstrip in X.
    pose proof (values_shown pf pd sf sd names types row Hnd Hl HR) as V.
    assert (In (value_of pf pd names (map (show sf sd) row) g) (map Some row)) as Y by (rewrite <- V; apply in_map; exact Hg).
    apply in_map_iff in Y as (y & Hy & _). rewrite X in Hy. discriminate.
  - rewrite map_length in E. exists back. split; [exact E|]. rewrite Hfeat in HB. split.
    + rewrite <- Ec in Hvals. clear -HB Hvals. revert Hvals. generalize W. induction HB as [| w b ws back Hb HB IH]; intros V HV; cbn [concat flat_map] in *.
      * now inversion HV.
      * apply Forall2_app_inv_l in HV as (V1 & V2 & H1 & H2 & ->). f_equal; [|now apply IH]. eapply rows_of_batch; eassumption.
    + clear -HB Hl. induction HB as [| w b ws back (Hr & Hb) HB IH]; constructor; [|assumption].
      unfold batch_wf. rewrite Hr. eapply cols_wf; [exact Hl| |exact Hb]. intros g. cbn. apply map_length.
Qed.

(** ** Examples and refutations *)
(** Numbers of one character stand for the floating-point numbers. *)
From Coq Require Import String.
Definition tx (s : String.string) : text := String.list_ascii_of_string s.
Definition p1 (t : text) : option ascii := match t with [c] => Some c | _ => None end.
Definition s1 (c : ascii) : text := [c].
Definition e4 (c : ascii) : text := [c; c; c; c].
Definition e8 (c : ascii) : text := [c; c; c; c; c; c; c; c].
Definition d1 (t : text) : ascii := hd "0"%char t.
Definition comma : ascii := ","%char.
Definition nl : ascii := "010"%char.
Definition cr : ascii := "013"%char.
Notation xinit := (init p1 e4 p1 e8).
Notation xrun := (run p1 d1 p1 d1).
Definition T1 : list (list text) := [[tx "ab"%string; tx "1"%string; tx "x"%string]; [tx ""%string; tx "2"%string; tx "y"%string]; [tx "cd"%string; tx "3"%string; tx "z"%string]].
Definition H1 : list text := [tx " id "%string; tx "v"%string; tx "w"%string].
Definition O1 (column order count : bool) : options := mkOptions [tx "w"%string; tx "id"%string; tx "v"%string] [STRING; STRING; FLOAT] 2 column order count.

Lemma T1_ok tr : table_ok comma nl H1 T1 tr.
Proof.
  split; [discriminate|]. split; [discriminate|].
  assert (forall t : text, forallb (fun c => negb (Ascii.eqb c comma) && negb (Ascii.eqb c nl)) t = true -> clean comma nl t) as X.
  { intros t H. rewrite forallb_forall in H. split; intros Hi; specialize (H _ Hi); vm_compute in H; discriminate. }
  split; [repeat constructor; apply X; reflexivity|].
  split; [repeat constructor; try discriminate; apply X; reflexivity|].
  right. discriminate.
Qed.
Lemma H1_ok : names_ok H1.
Proof.
  split; [vm_compute; intros [H | [H | [H | []]]]; discriminate|].
  vm_compute. repeat constructor; cbn; intuition discriminate.
Qed.
Lemma O1_incl a b c : incl (o_names (O1 a b c)) (map strip H1).
Proof. intros x [<- | [<- | [<- | []]]]; vm_compute; auto. Qed.
Example csv_row_reader_applies : exists r, xinit (open (O1 false true true) (doc comma nl H1 T1 false) comma nl) = Val r /\
  xrun [ONext; OTell; ONext; ONext; OSeek 1; OSpawn; ONextK 1; ORows; OSeek 3] r =
  [RBatch true (mkBatch [(STRING, [CStr (tx "ab"%string); CStr (tx ""%string)]); (FLOAT, [CFlt "1"%char; CFlt "2"%char]); (STRING, [CStr (tx "x"%string); CStr (tx "y"%string)])] 2);
   RNat 2; RBatch true (mkBatch [(STRING, [CStr (tx "cd"%string)]); (FLOAT, [CFlt "3"%char]); (STRING, [CStr (tx "z"%string)])] 1);
   RBatch false empty_batch; RUnit; RUnit;
   RBatch true (mkBatch [(STRING, [CStr (tx ""%string)]); (FLOAT, [CFlt "2"%char]); (STRING, [CStr (tx "y"%string)])] 1); RRows (Some 3); RThrow].
Proof. eexists. split; vm_compute; reflexivity. Qed.
Example csv_row_reader_hypotheses : exists r, xinit (open (O1 false false true) (doc comma nl H1 T1 true) comma nl) = Val r /\
  forall ops, row_history p1 p1 H1 T1 (features H1 (O1 false false true)) 2 (Some (0, true)) ops (xrun ops r).
Proof.
  destruct (csv_row_reader p1 d1 e4 p1 d1 e8 comma nl H1 T1 true (O1 false false true) (T1_ok true) H1_ok eq_refl (O1_incl _ _ _) eq_refl ltac:(cbn; lia) ltac:(discriminate)) as (r & E & _ & H).
  exists r. split; [exact E|exact H].
Qed.
Example csv_column_reader_applies : exists r, xinit (open (O1 true false false) (doc comma nl H1 T1 true) comma nl) = Val r /\
  xrun [ONext; ONextK 5; ONext; OSeek 2; OTell; ORows; ONext; OSeek 3] r =
  [RBatch true (mkBatch [(STRING, [CStr (tx "x"%string); CStr (tx "y"%string); CStr (tx "z"%string)])] 3);
   RBatch true (mkBatch [(STRING, [CStr (tx "ab"%string); CStr (tx ""%string); CStr (tx "cd"%string)]); (FLOAT, [CFlt "1"%char; CFlt "2"%char; CFlt "3"%char])] 3);
   RBatch false empty_batch; RUnit; RNat 2; RRows (Some 3);
   RBatch true (mkBatch [(FLOAT, [CFlt "1"%char; CFlt "2"%char; CFlt "3"%char])] 3); RThrow].
Proof. eexists. split; vm_compute; reflexivity. Qed.
Definition B1 : @batch ascii ascii := mkBatch [(STRING, [CStr (tx "ab"%string); CStr (tx ""%string)]); (DOUBLE, [CDbl "7"%char; CDbl "8"%char])] 2.
Example csv_round_trip_applies : exists w0 w1 w2, open_writer [tx "k"%string; tx "v"%string] [STRING; DOUBLE] comma nl = Val w0 /\ init_writer w0 = Val w1 /\
  add_all s1 s1 [B1; B1] w1 = (Val tt, w2) /\ w_out w2 = tx "k,v"%string ++ [nl] ++ tx "ab,7"%string ++ [nl] ++ tx ",8"%string ++ [nl] ++ tx "ab,7"%string ++ [nl] ++ tx ",8"%string ++ [nl].
Proof. eexists _, _, _. repeat (split; [vm_compute; reflexivity|]); vm_compute; reflexivity. Qed.
Example csv_round_trip_hypotheses : batch_typed [STRING; DOUBLE] B1 /\ Forall (fun col => Forall (cell_ok p1 p1 s1 s1 comma nl) (snd col)) (b_cols B1).
Proof.
  split; [repeat constructor|]. repeat constructor; cbn; intuition discriminate.
Qed.

(** Counting the lines of a file without rows fails: Seek(0) of Init finds row 0 out of range. *)
Theorem csv_count_empty_refuted : exists header o, table_ok comma nl header [] true /\ names_ok header /\
  o_names o = map strip header /\ o_count o = true /\ xinit (open o (doc comma nl header [] true) comma nl) = Thrown /\
  exists r, xinit (open (mkOptions (o_names o) (o_types o) (o_batch o) false false false) (doc comma nl header [] true) comma nl) = Val r.
Proof.
  exists [tx "a"%string], (mkOptions [tx "a"%string] [STRING] 2000 false false true).
  split; [|split; [|repeat (split; [vm_compute; reflexivity|]); eexists; vm_compute; reflexivity]].
  - split; [discriminate|]. split; [discriminate|]. split; [|split; [constructor|now left]]. repeat constructor; cbn; intuition discriminate.
  - split; [intros [X | []]; discriminate|]. repeat constructor. intros [].
Qed.
(** The column reader takes a file without rows, then every Next throws. *)
Theorem csv_column_empty_refuted : exists o r, o_column o = true /\ xinit (open o (doc comma nl [tx "a"%string] [] true) comma nl) = Val r /\
  xrun [ORows; ONext; OSeek 0; ONext] r = [RRows (Some 0); RThrow; RUnit; RThrow].
Proof. eexists (mkOptions [tx "a"%string] [STRING] 2000 true false false), _. split; [reflexivity|]. split; vm_compute; reflexivity. Qed.
(** After a row with a wrong number of fields the reader has lost count: Tell still names the bad row although
    the next row comes next, and in the end Rows is one too few and Seek refuses the last row. *)
Theorem csv_bad_row_refuted : exists o r, xinit (open o (doc comma nl [tx "a"%string] [[tx "0"%string]; [tx "1"%string; tx "1"%string]; [tx "2"%string]] true) comma nl) = Val r /\
  xrun [ONext; ONext; OTell; ONext; OTell; ONext; ORows; OSeek 2] r =
  [RBatch true (mkBatch [(STRING, [CStr (tx "0"%string)])] 1); RThrow; RNat 1; RBatch true (mkBatch [(STRING, [CStr (tx "2"%string)])] 1); RNat 2;
   RBatch false (mkBatch [(STRING, [])] 0); RRows (Some 2); RThrow].
Proof. eexists (mkOptions [tx "a"%string] [STRING] 1 false false false), _. split; vm_compute; reflexivity. Qed.
(** With a batch size of zero Next reports the end at once, and counting the lines divides by zero. *)
Theorem csv_batch_zero_refuted : exists o r, o_batch o = 0 /\ xinit (open o (doc comma nl [tx "a"%string] [[tx "0"%string]] true) comma nl) = Val r /\
  xrun [ONext; ONextK 1] r = [RBatch false (mkBatch [(STRING, [])] 0); RBatch true (mkBatch [(STRING, [CStr (tx "0"%string)])] 1)] /\
  xinit (open (mkOptions (o_names o) (o_types o) 0 false false true) (doc comma nl [tx "a"%string] [[tx "0"%string]] true) comma nl) = OutOfBounds.
Proof. eexists (mkOptions [tx "a"%string] [STRING] 0 false false false), _. repeat (split; [vm_compute; reflexivity|]); vm_compute; reflexivity. Qed.
(** Seek to the number of rows is taken before a full scan and refused after it; and a scan that starts there
    ends without Rows being known, when the file does not end in a newline. *)
Theorem csv_seek_end_refuted : exists o r, xinit (open o (doc comma nl [tx "a"%string] [[tx "0"%string]] false) comma nl) = Val r /\
  xrun [OSeek 1; ONext; ORows; OSeek 0; ONext; ORows; OSeek 1] r =
  [RUnit; RBatch false empty_batch; RRows None; RUnit; RBatch true (mkBatch [(STRING, [CStr (tx "0"%string)])] 1); RRows (Some 1); RThrow].
Proof. eexists (mkOptions [tx "a"%string] [STRING] 5 false false false), _. split; vm_compute; reflexivity. Qed.
(** Lines that end in CR LF: the names are stripped, the last field of a row keeps the CR. *)
Theorem csv_crlf_refuted : exists o r, xinit (open o (tx "a,b"%string ++ [cr; nl] ++ tx "1,2"%string ++ [cr; nl]) comma nl) = Val r /\
  headers r = [tx "a"%string; tx "b"%string] /\ xrun [ONext] r = [RBatch true (mkBatch [(STRING, [CStr (tx "2"%string ++ [cr])])] 1)].
Proof. eexists (mkOptions [tx "b"%string] [STRING] 5 false false false), _. repeat (split; [vm_compute; reflexivity|]); vm_compute; reflexivity. Qed.
(** A string that contains a delimiter does not come back: the writer neither refuses nor quotes it. *)
Theorem csv_delimiter_refuted : exists (b : @batch ascii ascii) w0 w1 w2 r,
  batch_typed [STRING] b /\ open_writer [tx "a"%string] [STRING] comma nl = Val w0 /\ init_writer w0 = Val w1 /\ add s1 s1 b w1 = (Val tt, w2) /\
  xinit (open (mkOptions [tx "a"%string] [STRING] 5 false false false) (w_out w2) comma nl) = Val r /\
  b_rows b = 1 /\ xrun [ONext] r = [RBatch true (mkBatch [(STRING, [CStr (tx "0"%string); CStr (tx "1"%string)])] 2)].
Proof.
  eexists (mkBatch [(STRING, [CStr (tx "0"%string ++ [nl] ++ tx "1"%string)])] 1), _, _, _, _.
  split; [repeat constructor|]. repeat (split; [vm_compute; reflexivity|]); vm_compute; reflexivity.
Qed.
(** A batch with a column of another type is refused after part of a row has been written. *)
Theorem csv_partial_row_refuted : exists (b : @batch ascii ascii) w0 w1 w2,
  open_writer [tx "a"%string; tx "b"%string] [STRING; FLOAT] comma nl = Val w0 /\ init_writer w0 = Val w1 /\ add s1 s1 b w1 = (Thrown, w2) /\
  w_out w2 = w_out w1 ++ tx "0,"%string.
Proof. eexists (mkBatch [(STRING, [CStr (tx "0"%string)]); (STRING, [CStr (tx "1"%string)])] 1), _, _, _. repeat (split; [vm_compute; reflexivity|]); vm_compute; reflexivity. Qed.
(** A batch may be given columns of different lengths, when the first is empty; adding it reads past the end. *)
Theorem csv_ragged_refuted : exists (b : @batch ascii ascii) w0 w1 w2,
  append_cols [(STRING, []); (STRING, [CStr (tx "1"%string)])] empty_batch = Val b /\
  open_writer [tx "a"%string; tx "b"%string] [STRING; STRING] comma nl = Val w0 /\ init_writer w0 = Val w1 /\ add s1 s1 b w1 = (OutOfBounds, w2).
Proof. eexists _, _, _, _. repeat (split; [vm_compute; reflexivity|]); vm_compute; reflexivity. Qed.

Print Assumptions csv_every_file.
Print Assumptions csv_row_reader.
Print Assumptions csv_column_reader.
Print Assumptions csv_init_rejects.
Print Assumptions csv_drain.
Print Assumptions csv_writer_output.
Print Assumptions csv_round_trip.
Print Assumptions csv_count_empty_refuted.
Print Assumptions csv_column_empty_refuted.
Print Assumptions csv_bad_row_refuted.
Print Assumptions csv_batch_zero_refuted.
Print Assumptions csv_seek_end_refuted.
Print Assumptions csv_crlf_refuted.
Print Assumptions csv_delimiter_refuted.
Print Assumptions csv_partial_row_refuted.
Print Assumptions csv_ragged_refuted.

(** A writer needs at least one feature, and a type for each. *)
Theorem csv_open_refuses names types f l : open_writer names types f l <> Thrown <-> names <> [] /\ List.length names = List.length types.
Proof.
  unfold open_writer. destruct names as [|n names]; cbn [List.length Nat.eqb orb].
  - split; [intros H; contradiction H; reflexivity|intros [H _]; contradiction H; reflexivity].
  - destruct types as [|t types]; cbn [List.length Nat.eqb negb]; [split; [intros H; contradiction H; reflexivity|intros [_ H]; discriminate]|].
    destruct (List.length names =? List.length types) eqn:E; cbn [negb].
    + apply Nat.eqb_eq in E. split; [intros _; split; [discriminate|lia]|intros _; discriminate].
    + apply Nat.eqb_neq in E. split; [intros H; contradiction H; reflexivity|intros [_ H]; lia].
Qed.
Print Assumptions csv_open_refuses.
