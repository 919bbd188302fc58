(** Histories of the column reader, and the writer: lemmas. *)
From Coq Require Import NArith List Bool Arith Ascii Lia.
From Verif Require Import LinCodeModel PrgModel PrgProof CsvModel CsvProof CsvProof2 CsvProof3 CsvProof4 CsvProof5.
Import ListNotations.
Open Scope nat_scope.

Section AbstractColumns.
Context {F D : Type}.
Variable pf : text -> option F.
Variable pd : text -> option D.
Variables (header : list text) (rws : list (list text)) (feats : list (text * stype)).
Notation n := (length rws).
Notation m := (length feats).
Inductive cnext_allowed (k : nat) : nat -> @out F D -> nat -> Prop :=
  | cnext_some c b : 0 < k -> c < m -> batch_of pf pd header (firstn k (skipn c feats)) rws b -> cnext_allowed k c (RBatch true b) (Nat.min (c + k) m)
  | cnext_end b : 0 < k -> b = empty_batch -> cnext_allowed k m (RBatch false b) m
  | cnext_zero c : k = 0 -> cnext_allowed k c RThrow c.
Inductive col_allowed : nat -> op -> @out F D -> nat -> Prop :=
  | ca_next c x c' : cnext_allowed 1 c x c' -> col_allowed c ONext x c'
  | ca_nextk c k x c' : cnext_allowed k c x c' -> col_allowed c (ONextK k) x c'
  | ca_seek c i : i < m -> col_allowed c (OSeek i) RUnit i
  | ca_seek_far c i : m <= i -> col_allowed c (OSeek i) RThrow c
  | ca_tell c : col_allowed c OTell (RNat c) c
  | ca_rows c : col_allowed c ORows (RRows (Some n)) c
  | ca_cols c : col_allowed c OCols (RNat m) c
  | ca_spawn c : col_allowed c OSpawn RUnit c.
Inductive col_history : nat -> list op -> list (@out F D) -> Prop :=
  | ch_nil c : col_history c [] []
  | ch_cons c a x c' ops xs : col_allowed c a x c' -> col_history c' ops xs -> col_history c (a :: ops) (x :: xs).
End AbstractColumns.

Section ColumnRun.
Context {F D : Type}.
Variable pf : text -> option F.
Variable df : text -> F.
Variable ef : F -> text.
Variable pd : text -> option D.
Variable dd : text -> D.
Variable ed : D -> text.
Hypothesis Hef : forall x, length (ef x) = 4 /\ df (ef x) = x.
Hypothesis Hed : forall x, length (ed x) = 8 /\ dd (ed x) = x.
Variables (f l : ascii) (header : list text) (rws : list (list text)) (tr : bool).
Hypothesis OK : table_ok f l header rws tr.
Hypothesis Hsmall : Forall (Forall (fun t : text => (N.of_nat (length t) < 2 ^ 32)%N)) rws.
Variable o : options.
Notation names := (map strip header).
Notation n := (length rws).
Hypothesis Hcol : o_column o = true.
Hypothesis Hne : rws <> [].

Section Run.
Variables (feats : list (text * stype)) (sel : list (nat * stype)).
Hypothesis Hsel : Forall2 (selects names) feats sel.
Notation cstands := (cstands pf ef pd ed f l header rws o feats sel).
Lemma next_cols_allowed k c r : 0 < k -> cstands c r ->
  let (x, r') := next_cols df dd k r empty_batch 0 in
  exists c', cnext_allowed pf pd header rws feats k c (out_of (fun p => RBatch (fst p) (snd p)) x) c' /\ cstands c' r'.
Proof.
  intros Hk Hs. pose proof Hs as (_ & _ & _ & Hm & _).
  destruct (next_cols_ok pf df ef pd dd ed Hef Hed f l header rws tr OK Hsmall o feats sel Hsel Hcol k r c empty_batch 0 Hs Hne (or_introl eq_refl))
    as (new & r' & -> & Hs' & HF).
  exists (c + Nat.min k (length feats - c)). split; [|exact Hs']. cbn [out_of fst snd Nat.add app empty_batch b_cols b_rows].
  destruct (Nat.eq_dec c (length feats)) as [-> | Hc].
  - rewrite Nat.sub_diag, Nat.min_0_r, Nat.add_0_r. cbn. constructor; [assumption|].
    rewrite skipn_all in HF. destruct k; inversion HF; reflexivity.
  - destruct (Nat.min k (length feats - c)) as [| d'] eqn:Ed; [lia|]. cbn.
    replace (c + S d') with (Nat.min (c + k) (length feats)) by lia. constructor; [assumption|lia|]. split; [reflexivity|exact HF].
Qed.
Lemma next_cols_1 r : next_cols df dd 1 r empty_batch 0 = next_col df dd r (@empty_batch F D).
Proof.
  cbn [next_cols]. unfold next_col. destruct (total r) as [k|]; [|reflexivity]. destruct (cur r =? _); [reflexivity|].
  destruct (nth_error (selected r) (cur r)) as [(i, ty)|]; [|reflexivity].
  destruct (nth_error (files r) (cur r)) as [t|]; [|reflexivity]. destruct t as [| a t]; [reflexivity|].
  destruct (decode_column df dd ty k (a :: t)) as [col| | |]; reflexivity.
Qed.
Lemma col_run_op a c r : cstands c r ->
  let (x, r') := run_op pf df pd dd a r in exists c', col_allowed pf pd header rws feats c a x c' /\ cstands c' r'.
Proof.
  intros Hs. pose proof Hs as ((Ho & Hf & Hl & Hh & Hsl) & Hin & Hc & Hm & Ht & Hfi).
  destruct a as [| k | i | | | |]; cbn [run_op].
  - unfold next. rewrite Hin, Ho, Hcol. cbn [negb]. rewrite <- next_cols_1.
    pose proof (next_cols_allowed 1 c r ltac:(lia) Hs) as H. destruct (next_cols _ _ _ _ _ _) as (x, r').
    destruct H as (c' & H1 & H2). exists c'. split; [now constructor|assumption].
  - unfold next_size. destruct (Nat.eqb_spec k 0) as [-> | Hk]; cbn [orb].
    + exists c. split; [constructor; now constructor|assumption].
    + rewrite Hin, Ho, Hcol. cbn [negb].
      pose proof (next_cols_allowed k c r ltac:(lia) Hs) as H. destruct (next_cols _ _ _ _ _ _) as (x, r').
      destruct H as (c' & H1 & H2). exists c'. split; [now constructor|assumption].
  - unfold seek. rewrite Hin, Ho, Hcol, Hsl, <- (Forall2_len _ _ _ Hsel). cbn [negb].
    destruct (Nat.ltb_spec i (length feats)) as [Hi | Hi].
    + exists i. split; [now constructor|]. repeat split; cbn; try assumption; lia.
    + exists c. split; [now constructor|assumption].
  - unfold tell. rewrite Hin, Hc. exists c. split; [constructor|assumption].
  - unfold rows. rewrite Hin, Ht. exists c. split; [constructor|assumption].
  - unfold cols. rewrite Hin, Hsl, <- (Forall2_len _ _ _ Hsel). exists c. split; [constructor|assumption].
  - unfold spawn. rewrite Hin. exists c. split; [constructor|]. repeat split; cbn; assumption.
Qed.
Lemma col_run_history ops : forall c r, cstands c r -> col_history pf pd header rws feats c ops (run pf df pd dd ops r).
Proof.
  induction ops as [| a ops IH]; intros c r Hs; cbn [run]; [constructor|].
  pose proof (col_run_op a c r Hs) as H. destruct (run_op _ _ _ _ a r) as (x, r'). destruct H as (c' & H1 & H2).
  econstructor; [exact H1|]. now apply IH.
Qed.
End Run.

Lemma features_nonempty : length (o_names o) = length (o_types o) -> incl (o_names o) names -> o_names o <> [] -> 0 < length (features header o).
Proof.
  intros Hl Hi Hn. unfold features. destruct (o_names o) as [| a ns]; [congruence|]. destruct (o_types o) as [| t ts]; [discriminate|].
  destruct (o_order o); [|cbn; lia].
  assert (In (a, t) (header_order names (combine (a :: ns) (t :: ts)))) as H.
  { unfold header_order. apply in_flat_map. exists a. split; [apply Hi; now left|]. apply filter_In. split; [now left|apply text_eqb_refl]. }
  destruct (header_order _ _); [destruct H|cbn; lia].
Qed.
Lemma init_col : names_ok header -> length (o_names o) = length (o_types o) -> incl (o_names o) names -> o_names o <> [] ->
  (Forall (row_good pf pd names (features header o)) rws /\
   exists sel r, CsvModel.init pf ef pd ed (open o (doc f l header rws tr) f l) = Val r /\ Forall2 (selects names) (features header o) sel /\
     cstands pf ef pd ed f l header rws o (features header o) sel 0 r) \/
  (Exists (fun row => ~ row_good pf pd names (features header o) row) rws /\
   CsvModel.init pf ef pd ed (open o (doc f l header rws tr) f l) = Thrown).
Proof.
  intros Hn Hl Hi Hnn.
  destruct (init_select pf pd ef ed f l header rws tr OK o) as (sel & r2 & HF & Hst & Hin & Hc & Ha & Ht & Hm & E); try assumption; [auto|].
  rewrite E, Hcol. clear E.
  pose proof (rows_fuel f l header rws tr OK _ _ Ha) as Hfuel.
  pose proof (build_files_ok pf ef pd ed f l header rws tr OK o (features header o) sel HF
    (S (S (length (sdata (inp r2))))) r2 0 (map (fun _ => []) (selected r2)) ltac:(lia) ltac:(lia) Hst Ha) as H.
  cbn [firstn skipn] in H. unfold pack in H at 1. rewrite map_map in H.
  assert (Hlen : length (selected r2) = length (features header o)).
  { destruct Hst as (_ & _ & _ & _ & ->). symmetry. exact (Forall2_len _ _ _ HF). }
  cbn [concat map] in H.
  destruct H as [(HG & s & t & cols & Eb & HC) | (HB & Eb)].
  { now apply columns_nil. }
  - left. split; [assumption|]. rewrite Eb. cbn [bind]. pose proof Hst as (Ho & Hf & Hll & Hh & Hsl).
    unfold seek. cbn [inited with_inited opts with_files with_total with_inp negb selected]. rewrite Ho, Hcol.
    pose proof (features_nonempty Hl Hi Hnn) as Hpos.
    destruct (Nat.ltb_spec 0 (length (selected r2))); [|lia]. cbn [bind].
    eexists sel, _. split; [reflexivity|]. split; [exact HF|].
    repeat split; cbn; try assumption; try lia. exists cols. auto.
  - right. split; [assumption|]. unfold pack in Eb. rewrite map_map in Eb. cbn [concat map] in Eb. rewrite Eb. reflexivity.
Qed.
End ColumnRun.

(** ** The writer *)
Section Writer.
Context {F D : Type}.
Variable sf : F -> text.
Variable sd : D -> text.
Notation show := (show sf sd).
Notation cell := (@cell F D).
Notation batch := (@batch F D).
(** Row r of a batch, and all its rows. *)
Definition row_of (b : batch) (r : nat) : list cell :=
  flat_map (fun col => match nth_error (snd col) r with Some x => [x] | None => [] end) (b_cols b).
Definition rows_of (b : batch) : list (list cell) := map (row_of b) (seq 0 (b_rows b)).
(** The columns have the types of the schema and the same number of elements. *)
Definition batch_wf (types : list stype) (b : batch) : Prop :=
  Forall2 (fun ty col => fst col = ty /\ length (snd col) = b_rows b) types (b_cols b).

Lemma stype_eqb_refl t : stype_eqb t t = true.
Proof. now destruct t. Qed.
Lemma add_row_ok (b : batch) r : r < b_rows b -> forall ts c (w : writer) cs, b_cols b = firstn c (b_cols b) ++ cs -> c + length cs = length (b_cols b) ->
  Forall2 (fun ty col => fst col = ty /\ length (snd col) = b_rows b) ts cs -> cs <> [] ->
  add_row sf sd b r ts c (length (b_cols b)) w =
    (Val tt, write (join (w_fd w) (map show (flat_map (fun col => match nth_error (snd col) r with Some x => [x] | None => [] end) cs)) ++ [w_ld w]) w).
Proof.
  intros Hr. induction ts as [| ty ts IH]; intros c w cs Hcs Hlen HF Hne; inversion HF as [| ty' col ts' cs' (Hty & Hcl) HF']; subst; [now destruct Hne|].
  cbn [add_row]. unfold at_cell. cbn [length] in Hlen.
  assert (Hn : nth_error (b_cols b) c = Some col).
  { rewrite Hcs. rewrite nth_error_app2; rewrite firstn_length, Nat.min_l by lia; [|lia]. now rewrite Nat.sub_diag. }
  rewrite Hn. destruct col as (ty0, col). cbn [fst snd] in *. rewrite stype_eqb_refl.
  destruct (nth_error col r) as [x|] eqn:Ex; [|apply nth_error_None in Ex; lia].
  cbn [flat_map snd app map]. rewrite Ex. cbn [map app].
  destruct cs' as [| col' cs'].
  - inversion HF'; subst. cbn [flat_map map join length] in *. destruct (Nat.eqb_spec (c + 1) (length (b_cols b))); [|lia].
    cbn [negb add_row]. unfold write. cbn. now rewrite <- app_assoc.
  - destruct (Nat.eqb_spec (c + 1) (length (b_cols b))) as [X | X]; [cbn [length] in Hlen; lia|]. cbn [negb].
    rewrite (IH (S c) _ (col' :: cs')); [|..].
    + inversion HF' as [| ? ? ? ? (Ht' & Hcl') _]; subst.
      destruct (nth_error (snd col') r) as [x'|] eqn:Ex'; [|apply nth_error_None in Ex'; lia].
      cbn [flat_map]. rewrite Ex'. cbn [app map].
      set (tl := map show _). unfold write. cbn [w_fd w_ld w_names w_types w_inited w_out].
      change (join (w_fd w) (show x :: show x' :: tl)) with (show x ++ w_fd w :: join (w_fd w) (show x' :: tl)).
      repeat rewrite <- app_assoc. cbn [app]. repeat rewrite <- app_assoc. reflexivity.
    + rewrite Hcs at 1. rewrite (firstn_S_nth _ _ _ Hn), <- app_assoc. reflexivity.
    + cbn [length] in *. lia.
    + assumption.
    + congruence.
Qed.
Lemma write_nil (w : writer) : write [] w = w.
Proof. unfold write. rewrite app_nil_r. now destruct w. Qed.
Lemma write_app t u (w : writer) : write u (write t w) = write (t ++ u) w.
Proof. unfold write. cbn. now rewrite app_assoc. Qed.
Definition row_text (f l : ascii) (row : list cell) : text := join f (map show row) ++ [l].
Lemma add_ok (b : batch) (w : writer) : w_inited w = true -> w_types w <> [] -> length (w_names w) = length (w_types w) -> batch_wf (w_types w) b ->
  add sf sd b w = (Val tt, write (concat (map (row_text (w_fd w) (w_ld w)) (rows_of b))) w).
Proof.
  intros Hin Hne Hl HF. unfold add. rewrite Hin. cbn [negb].
  match goal with |- context [length ?x =? length (w_names w)] => assert (length x = length (w_names w)) as L by (rewrite Hl; symmetry; exact (Forall2_len _ _ _ HF)) end.
  rewrite L, Nat.eqb_refl. cbn [negb]. clear L.
  unfold rows_of. assert (forall k a (v : writer), a + k <= b_rows b -> w_types v = w_types w -> w_fd v = w_fd w -> w_ld v = w_ld w ->
    add_rows sf sd b (seq a k) v = (Val tt, write (concat (map (row_text (w_fd w) (w_ld w)) (map (row_of b) (seq a k)))) v)) as X.
  { induction k as [| k IH]; intros a v Ha H1 H2 H3; cbn [seq add_rows map concat]; [now rewrite write_nil|].
    rewrite H1. rewrite (add_row_ok b a ltac:(lia) (w_types w) 0 v (b_cols b)); try assumption; try reflexivity.
    2:{ intros E. pose proof (Forall2_len _ _ _ HF) as L. rewrite E in L. destruct (w_types w); [congruence|discriminate]. }
    rewrite IH; [|lia|assumption|assumption|assumption]. rewrite write_app, H2, H3. reflexivity. }
  apply X; [lia|reflexivity|reflexivity|reflexivity].
Qed.
Lemma file_true d : forall ls : list text, file d ls true = concat (map (fun t => t ++ [d]) ls).
Proof.
  induction ls as [| a ls IH]; [reflexivity|]. destruct ls as [| b ls]; [cbn; now rewrite app_nil_r|].
  rewrite file_cons2, IH. cbn [map concat]. rewrite <- !app_assoc. reflexivity.
Qed.
End Writer.

Fixpoint add_all {F D} sf sd (bs : list (@batch F D)) (w : writer) : outcome unit * writer :=
  match bs with [] => (Val tt, w) | b :: t => match add sf sd b w with (Val _, w') => add_all sf sd t w' | x => x end end.
Lemma add_all_ok {F D} sf sd (bs : list (@batch F D)) : forall w : writer, w_inited w = true -> w_types w <> [] ->
  length (w_names w) = length (w_types w) -> Forall (batch_wf (w_types w)) bs ->
  add_all sf sd bs w = (Val tt, write (concat (map (row_text sf sd (w_fd w) (w_ld w)) (flat_map rows_of bs))) w).
Proof.
  induction bs as [| b bs IH]; intros w Hin Hne Hl HF; cbn [add_all flat_map map concat]; [now rewrite write_nil|].
  inversion HF; subst. rewrite add_ok by assumption. rewrite IH by assumption. rewrite write_app. cbn [w_fd w_ld write].
  now rewrite map_app, concat_app.
Qed.

Section RoundTrip.
Context {F D : Type}.
Variable pf : text -> option F.
Variable pd : text -> option D.
Variable sf : F -> text.
Variable sd : D -> text.
Lemma values_shown (names : list text) : forall types (cells : list (@cell F D)), NoDup names -> length names = length types ->
  Forall2 (fun ty c => field_value pf pd ty (show sf sd c) = Some c) types cells ->
  map (value_of pf pd names (map (show sf sd) cells)) (combine names types) = map Some cells.
Proof.
  induction names as [| nm names IH]; intros types cells Hnd Hl HF; (destruct types as [| ty types]; [|try discriminate]).
  - inversion HF; subst. reflexivity.
  - discriminate.
  - inversion HF as [| ? c ? cs H1 HF']; subst. inversion Hnd as [| ? ? Hnot Hnd']; subst. cbn [combine map]. f_equal.
    + unfold value_of, field_of. cbn. rewrite text_eqb_refl. exact H1.
    + rewrite <- (IH types cs); [|assumption|now injection Hl|assumption]. apply map_ext_in. intros (m, t) Hin.
      apply in_combine_l in Hin. unfold value_of, field_of. cbn.
      rewrite text_eqb_neq; [reflexivity|]. intros ->. contradiction.
Qed.
Lemma rows_of_batch header feats w (W : list (list (@cell F D))) b : batch_of pf pd header feats w b ->
  Forall2 (fun row cells => map (value_of pf pd (map strip header) row) feats = map Some cells) w W -> rows_of b = W.
Proof.
  intros (Hr & HF) HW. unfold rows_of. rewrite Hr.
  apply (nth_ext _ _ [] []); rewrite map_length, seq_length; [exact (Forall2_len _ _ _ HW)|]. intros i Hi.
  rewrite (nth_indep _ [] (row_of b 0)) by (now rewrite map_length, seq_length). rewrite map_nth, seq_nth by assumption. cbn [Nat.add].
  destruct (nth_error w i) as [row|] eqn:Er; [|apply nth_error_None in Er; lia].
  destruct (Forall2_nth _ _ _ _ _ HW Er) as (cells & Ec & Hv).
  rewrite (nth_error_nth _ _ _ Ec). clear Hr HW Ec. unfold row_of.
  revert cells Hv. induction HF as [| g col feats cols (Hty & Hcol) HF IH]; intros cells Hv.
  - destruct cells; [reflexivity|discriminate].
  - destruct cells as [| c cells]; [discriminate|]. cbn [map] in Hv. injection Hv as Hv1 Hv2. cbn [flat_map].
    assert (nth_error (snd col) i = Some c) as ->.
    { apply (f_equal (fun q => nth_error q i)) in Hcol. rewrite !nth_error_map, Er in Hcol. cbn in Hcol. rewrite Hv1 in Hcol.
      destruct (nth_error (snd col) i); cbn in Hcol; congruence. }
    cbn [app]. f_equal. now apply IH.
Qed.
End RoundTrip.
