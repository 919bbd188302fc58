(** The column reader and the writer: lemmas. *)
From Coq Require Import NArith List Bool Arith Ascii Lia.
From Verif Require Import LinCodeModel PrgModel PrgProof CsvModel CsvProof CsvProof2 CsvProof3 CsvProof4.
Import ListNotations.
Open Scope nat_scope.

Lemma len_value_bytes (k : nat) : (N.of_nat k < 2 ^ 32)%N -> len_value (len_bytes k) = k.
Proof.
  intros H. unfold len_value, len_bytes. rewrite map_map.
  rewrite (map_ext_in _ (fun x => x)).
  - rewrite map_id, le_val_bytes. change (8 * N.of_nat 4)%N with 32%N. rewrite N.mod_small by assumption. apply Nat2N.id.
  - intros b Hb. apply N_ascii_embedding. pose proof (le_bytes_lt 4 (N.of_nat k)) as X. rewrite Forall_forall in X. now apply X.
Qed.
Lemma len_bytes_length k : length (len_bytes k) = 4.
Proof. unfold len_bytes. now rewrite map_length, le_bytes_length. Qed.

Section Columns.
Context {F D : Type}.
Variable pf : text -> option F.
Variable df : text -> F.
Variable ef : F -> text.
Variable pd : text -> option D.
Variable dd : text -> D.
Variable ed : D -> text.
Hypothesis Hef : forall x, length (ef x) = 4 /\ df (ef x) = x.
Hypothesis Hed : forall x, length (ed x) = 8 /\ dd (ed x) = x.
Notation encode := (CsvModel.encode ef ed).

Definition typed (ty : stype) (c : @cell F D) : Prop :=
  match ty, c with
  | STRING, CStr t => (N.of_nat (length t) < 2 ^ 32)%N
  | FLOAT, CFlt _ | DOUBLE, CDbl _ => True
  | _, _ => False
  end.
Lemma typed_value ty t c : (N.of_nat (length t) < 2 ^ 32)%N -> field_value pf pd ty t = Some c -> typed ty c.
Proof.
  intros H. destruct ty; cbn; [intros [= <-]; exact H| |]; [destruct (pf t)|destruct (pd t)]; cbn; intros [= <-]; exact I.
Qed.
Lemma encode_str t : (N.of_nat (length t) < 2 ^ 32)%N -> encode (CStr t) = len_bytes (length t) ++ t.
Proof. intros H. cbn [CsvModel.encode]. rewrite N.mod_small, Nat2N.id, firstn_all by assumption. reflexivity. Qed.

Lemma decode_strings_ok (col : list cell) : Forall (typed STRING) col -> forall fuel, length col < fuel ->
  decode_strings fuel (concat (map encode col)) = Val col.
Proof.
  induction 1 as [| c col Hc Hcol IH]; intros [| fuel] Hf; cbn [length] in Hf; try lia; [reflexivity|].
  destruct c as [t| |]; cbn in Hc; try contradiction.
  cbn [map concat]. rewrite encode_str by assumption. rewrite <- app_assoc.
  set (u := t ++ concat (map encode col)).
  pose proof (len_bytes_length (length t)) as H4.
  destruct (len_bytes (length t) ++ u) as [| a b] eqn:E.
  { destruct (len_bytes (length t)); [discriminate H4|discriminate E]. }
  cbn [decode_strings]. rewrite <- E. clear a b E.
  destruct (Nat.ltb_spec (length (len_bytes (length t) ++ u)) 4) as [X | _]; [rewrite app_length in X; lia|].
  assert (Ef : firstn 4 (len_bytes (length t) ++ u) = len_bytes (length t)).
  { rewrite <- H4 at 1. rewrite firstn_app, Nat.sub_diag, firstn_O, firstn_all. apply app_nil_r. }
  assert (Es : skipn 4 (len_bytes (length t) ++ u) = u).
  { rewrite <- H4 at 1. rewrite skipn_app, Nat.sub_diag, skipn_all. reflexivity. }
  cbv zeta. rewrite Ef, Es, len_value_bytes by assumption.
  destruct (Nat.ltb_spec (length u) (length t)) as [X | _]; [unfold u in X; rewrite app_length in X; lia|].
  assert (skipn (length t) u = concat (map encode col)) as -> by (unfold u; rewrite skipn_app, Nat.sub_diag, skipn_all; reflexivity).
  assert (firstn (length t) u = t) as -> by (unfold u; rewrite firstn_app, Nat.sub_diag, firstn_O, firstn_all; apply app_nil_r).
  rewrite IH by lia. reflexivity.
Qed.
Lemma decode_numbers_ok sz (dec : text -> cell) (col : list cell) : Forall (fun c => length (encode c) = sz /\ dec (encode c) = c) col ->
  length (concat (map encode col)) = length col * sz /\ decode_numbers sz dec (length col) (concat (map encode col)) = col.
Proof.
  induction 1 as [| c col (H1 & H2) Hcol (IH1 & IH2)]; cbn [map concat length decode_numbers]; [auto|].
  rewrite app_length, H1, IH1. split; [lia|].
  assert (skipn sz (encode c ++ concat (map encode col)) = concat (map encode col)) as -> by (rewrite <- H1, skipn_app, Nat.sub_diag, skipn_all; reflexivity).
  assert (firstn sz (encode c ++ concat (map encode col)) = encode c) as -> by (rewrite <- H1, firstn_app, Nat.sub_diag, firstn_O, firstn_all; apply app_nil_r).
  now rewrite H2, IH2.
Qed.
Lemma decode_column_ok ty col : Forall (typed ty) col -> decode_column df dd ty (length col) (concat (map encode col)) = Val (ty, col).
Proof.
  intros H. destruct ty; cbn [decode_column].
  - rewrite decode_strings_ok; [cbn [bind]; now rewrite Nat.eqb_refl|assumption|].
    clear -H. induction H as [| c col Hc Hcol IH]; [cbn; lia|]. destruct c as [t| |]; cbn in Hc; try contradiction.
    cbn [map concat length]. rewrite encode_str, !app_length, len_bytes_length by assumption. lia.
  - destruct (decode_numbers_ok 4 (fun b => CFlt (df b)) col) as (E1 & E2).
    { eapply Forall_impl; [|exact H]. intros [t|x|x] Hx; cbn in Hx; try contradiction. cbn. destruct (Hef x) as (A & ->). auto. }
    now rewrite E1, Nat.eqb_refl, E2.
  - destruct (decode_numbers_ok 8 (fun b => CDbl (dd b)) col) as (E1 & E2).
    { eapply Forall_impl; [|exact H]. intros [t|x|x] Hx; cbn in Hx; try contradiction. cbn. destruct (Hed x) as (A & ->). auto. }
    now rewrite E1, Nat.eqb_refl, E2.
Qed.
Lemma encode_not_nil ty c : typed ty c -> encode c <> [].
Proof.
  intros H E. apply (f_equal (@length _)) in E. destruct ty, c as [t|x|x]; cbn in H; try contradiction.
  - rewrite encode_str, app_length, len_bytes_length in E by assumption. discriminate.
  - cbn [CsvModel.encode] in E. rewrite (proj1 (Hef x)) in E. discriminate.
  - cbn [CsvModel.encode] in E. rewrite (proj1 (Hed x)) in E. discriminate.
Qed.

Variables (f l : ascii) (header : list text) (rws : list (list text)) (tr : bool).
Hypothesis OK : table_ok f l header rws tr.
Hypothesis Hsmall : Forall (Forall (fun t : text => (N.of_nat (length t) < 2 ^ 32)%N)) rws.
Variables (o : options) (feats : list (text * stype)) (sel : list (nat * stype)).
Notation names := (map strip header).
Notation n := (length rws).
Hypothesis Hsel : Forall2 (selects names) feats sel.
Hypothesis Hcol : o_column o = true.
Notation at_line := (at_line l (lines_of f header rws) tr).
Notation columns_of := (columns_of pf pd names feats).
Definition pack (cols : list (list cell)) : list text := map (fun col => concat (map encode col)) cols.

Lemma pack_push : forall (cols : list (list cell)) cells,
  map (fun p => fst p ++ encode (snd p)) (combine (pack cols) cells) = pack (map (fun p => fst p ++ [snd p]) (combine cols cells)).
Proof.
  unfold pack. induction cols as [| c cols IH]; intros [| x cells]; cbn; try reflexivity. rewrite IH. f_equal.
  rewrite map_app, concat_app. cbn. now rewrite app_nil_r.
Qed.
Lemma firstn_S_nth {A} (xs : list A) c x : nth_error xs c = Some x -> firstn (S c) xs = firstn c xs ++ [x].
Proof. revert xs. induction c; intros [| y xs] H; cbn in H; try discriminate; [injection H as ->; reflexivity|]. cbn [firstn app]. now rewrite <- (IHc _ H). Qed.

Lemma build_files_ok fuel : forall (r : CsvModel.reader) c cols, n - c < fuel -> c <= n -> statics f l header o sel r -> at_line (S c) (inp r) ->
  columns_of (firstn c rws) cols ->
  (Forall (row_good pf pd names feats) (skipn c rws) /\
   exists s t cols', build_files pf ef pd ed fuel r (pack cols) c = Val (with_files (pack cols') (with_total (Some n) (with_inp s t r))) /\ columns_of rws cols') \/
  (Exists (fun row => ~ row_good pf pd names feats row) (skipn c rws) /\ build_files pf ef pd ed fuel r (pack cols) c = Thrown).
Proof.
  induction fuel as [| fuel IH]; intros r c cols Hfu Hn Hst Ha HC; [lia|]. cbn [build_files].
  pose proof Hst as (Ho & Hf & Hl & Hh & Hs).
  destruct (nth_error rws c) as [row|] eqn:Er.
  - destruct (next_line_row f l header rws tr OK r c row Hf Hl Ha Er) as (s & t & -> & Ha').
    assert (c < n) by (apply nth_error_Some; congruence). rewrite (skipn_cons _ _ _ Er).
    cbn [headers selected with_inp]. rewrite Hh, Hs.
    destruct (Nat.eqb_spec (length row) (length names)) as [El | El]; cbn [negb].
    2:{ right. split; [left; intros (X & _); contradiction|reflexivity]. }
    destruct (parse_row_cases pf pd names feats sel row El Hsel) as [(cells & -> & E) | (-> & E)]; cbn [bind].
    2:{ right. split; [left; now apply Exists_not_good|reflexivity]. }
    rewrite pack_push.
    edestruct (IH (with_inp s t r) (S c) (map (fun p => fst p ++ [snd p]) (combine cols cells))) as [(HG & s' & t' & cols' & Eb & HC') | (HB & Eb)]; try assumption; try lia.
    + rewrite (firstn_S_nth _ _ _ Er). now apply columns_push.
    + left. split.
      { constructor; [|assumption]. split; [assumption|]. rewrite Forall_forall. intros g Hg X.
        apply (in_map (value_of pf pd names row)) in Hg. rewrite E, X in Hg. apply in_map_iff in Hg as (y & Hy & _). discriminate. }
      exists s', t', cols'. split; [exact Eb|exact HC'].
    + right. split; [now right|exact Eb].
  - apply nth_error_None in Er. assert (c = n) as -> by lia.
    destruct (next_line_end f l header rws tr r Hl Ha) as (s & t & -> & Ha' & He).
    left. rewrite skipn_all. split; [constructor|]. exists s, t, cols. rewrite firstn_all in HC. split; [reflexivity|assumption].
Qed.

(** The reader stands at column c. *)
Definition cstands (c : nat) (r : CsvModel.reader) : Prop :=
  statics f l header o sel r /\ inited r = true /\ cur r = c /\ c <= length feats /\ total r = Some n /\
  exists cols, columns_of rws cols /\ files r = pack cols.

Lemma field_in nm row g t : field_of nm row g = Some t -> In t row.
Proof.
  unfold field_of. destruct (find _ _) as [(a, b)|] eqn:E; [|discriminate]. intros [= <-]. apply find_some in E as (E & _). cbn.
  eapply in_combine_r; eassumption.
Qed.
Lemma column_typed g col : map Some col = map (fun row => value_of pf pd names row g) rws -> length col = n /\ Forall (typed (snd g)) col.
Proof.
  intros E. split; [apply (f_equal (@length _)) in E; now rewrite !map_length in E|].
  rewrite Forall_forall. intros c Hc. apply (in_map Some) in Hc. rewrite E in Hc. apply in_map_iff in Hc as (row & Hv & Hr).
  unfold value_of in Hv. destruct (field_of names row (fst g)) as [t|] eqn:Ef; [|discriminate].
  eapply typed_value; [|exact Hv]. rewrite Forall_forall in Hsmall. specialize (Hsmall row Hr). rewrite Forall_forall in Hsmall.
  apply Hsmall. eapply field_in; eassumption.
Qed.
Lemma Forall2_nth {A B} (R : A -> B -> Prop) : forall la lb i a, Forall2 R la lb -> nth_error la i = Some a -> exists b, nth_error lb i = Some b /\ R a b.
Proof.
  intros la lb i a H. revert i. induction H as [| x y la lb Hxy H IH]; intros [| i] E; cbn in *; try discriminate; [injection E as <-; eauto|].
  now apply IH.
Qed.

Definition one_column (g : text * stype) (col : column) : Prop :=
  fst col = snd g /\ map Some (snd col) = map (fun row => value_of pf pd names row g) rws.

Lemma next_col_ok c r (b : batch) : cstands c r -> rws <> [] -> (b_rows b = 0 \/ b_rows b = n) ->
  match nth_error feats c with
  | None => next_col df dd r b = (Val (false, b), r)
  | Some g => exists col r', next_col df dd r b = (Val (true, mkBatch (b_cols b ++ [col]) n), r') /\ cstands (S c) r' /\ one_column g col
  end.
Proof.
  intros ((Ho & Hf & Hl & Hh & Hs) & Hin & Hc & Hm & Ht & cols & HC & Hfi) Hne Hb.
  unfold next_col. rewrite Ht, Hc, Hs, <- (Forall2_len _ _ _ Hsel).
  destruct (nth_error feats c) as [g|] eqn:Eg.
  - assert (c < length feats) as Hlt by (apply nth_error_Some; congruence).
    destruct (Nat.eqb_spec c (length feats)) as [Hcl | Hcl]; [lia|].
    destruct (Forall2_nth _ _ _ _ _ Hsel Eg) as ((i, ty) & -> & (_ & Ety)). cbn in Ety.
    destruct (Forall2_nth _ _ _ _ _ HC Eg) as (col & Ecol & Hcolv). cbn beta in Hcolv.
    rewrite Hfi. unfold pack. rewrite nth_error_map, Ecol. cbn [option_map].
    destruct (column_typed g col Hcolv) as (Hlen & Htyp).
    destruct (concat (map encode col)) as [| a u] eqn:E.
    { exfalso. destruct col as [| x col]; [destruct rws; [congruence|discriminate Hlen]|].
      cbn in E. apply app_eq_nil in E as (E & _). inversion Htyp; subst. eapply encode_not_nil; eassumption. }
    rewrite <- E. clear a u E. rewrite <- Hlen, <- Ety, decode_column_ok by assumption. cbn [bind].
    unfold append_col. cbn [snd]. rewrite Hlen.
    assert ((b_rows b =? 0) || (b_rows b =? n) = true) as ->.
    { apply orb_true_iff. rewrite !Nat.eqb_eq. exact Hb. }
    cbn [bind]. eexists _, _. split; [reflexivity|]. split; [|split; [reflexivity|exact Hcolv]].
    repeat split; cbn; try assumption. exists cols. auto.
  - apply nth_error_None in Eg. assert (c = length feats) as -> by lia. now rewrite Nat.eqb_refl.
Qed.

Lemma next_cols_ok k : forall r c (b : batch) count, cstands c r -> rws <> [] -> (b_rows b = 0 \/ b_rows b = n) ->
  let m := Nat.min k (length feats - c) in
  exists new r', next_cols df dd k r b count = (Val (negb (count + m =? 0), mkBatch (b_cols b ++ new) (match m with O => b_rows b | _ => n end)), r') /\
    cstands (c + m) r' /\ Forall2 one_column (firstn k (skipn c feats)) new.
Proof.
  induction k as [| k IH]; intros r c b count Hs Hne Hb; cbn [next_cols Nat.min].
  - cbv zeta. exists [], r. rewrite !Nat.add_0_r, app_nil_r. split; [now destruct b|]. split; [assumption|constructor].
  - cbv zeta. pose proof (next_col_ok c r b Hs Hne Hb) as H. pose proof Hs as (_ & _ & _ & Hm & _).
    destruct (nth_error feats c) as [g|] eqn:Eg.
    + destruct H as (col & r' & -> & Hs' & H1).
      assert (c < length feats) as Hlt by (apply nth_error_Some; congruence).
      edestruct (IH r' (S c) (mkBatch (b_cols b ++ [col]) n) (S count)) as (new & r'' & E & Hs'' & HF); [assumption|assumption|now right|].
      exists (col :: new), r''. destruct (length feats - c) as [| d'] eqn:Ed; [lia|].
      replace (length feats - S c) with d' in * by lia. cbn [Nat.min].
      split; [|split].
      * rewrite E. cbn [b_cols b_rows]. rewrite <- app_assoc. cbn [app]. do 3 f_equal.
        { now rewrite Nat.add_succ_r. } { f_equal. now destruct (Nat.min k d'). }
      * rewrite Nat.add_succ_r. exact Hs''.
      * rewrite (skipn_cons _ _ _ Eg). cbn [firstn]. constructor; assumption.
    + apply nth_error_None in Eg. assert (c = length feats) as -> by lia. rewrite H, Nat.sub_diag.
      exists [], r. rewrite !Nat.add_0_r, app_nil_r, skipn_all. split; [now destruct b|]. split; [assumption|constructor].
Qed.
End Columns.
