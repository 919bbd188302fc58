(** The CSV reader: Init, Spawn, the column reader and histories. *)
From Coq Require Import NArith List ListDec Bool Arith Ascii Lia.
From Verif Require Import LinCodeModel PrgModel PrgProof CsvModel CsvProof CsvProof2 CsvProof3.
Import ListNotations.
Open Scope nat_scope.

Lemma file_length d tr : forall ls : list text, (tr = true \/ last ls [d] <> []) -> length ls <= length (file d ls tr).
Proof.
  induction ls as [| a ls IH]; intros H; [cbn; lia|].
  destruct ls as [| b ls].
  - cbn [file length]. destruct tr.
    + rewrite app_length. cbn [length]. lia.
    + destruct H as [H | H]; [discriminate|]. cbn in H. destruct a; [congruence|cbn [length]; lia].
  - specialize (IH H). rewrite file_cons2, app_length. remember (file d (b :: ls) tr) as u. cbn [length] in *. lia.
Qed.

(** ** Histories *)
Inductive op := ONext | ONextK (k : nat) | OSeek (i : nat) | OTell | ORows | OCols | OSpawn.
Section Run.
Context {F D : Type}.
Inductive out := RBatch (more : bool) (b : @batch F D) | RUnit | RNat (i : nat) | RRows (m : option nat) | RThrow | RUndefined.
Definition out_of {A} (g : A -> out) (x : outcome A) : out :=
  match x with Val a => g a | Thrown => RThrow | _ => RUndefined end.
Variable pf : text -> option F.
Variable df : text -> F.
Variable pd : text -> option D.
Variable dd : text -> D.
(** OSpawn goes on with the spawned reader. *)
Definition run_op (a : op) (r : CsvModel.reader) : out * CsvModel.reader :=
  match a with
  | ONext => let (x, r') := next pf df pd dd r in (out_of (fun p => RBatch (fst p) (snd p)) x, r')
  | ONextK k => let (x, r') := next_size pf df pd dd k r in (out_of (fun p => RBatch (fst p) (snd p)) x, r')
  | OSeek i => let (x, r') := seek i r in (out_of (fun _ => RUnit) x, r')
  | OTell => (out_of RNat (tell r), r)
  | ORows => (out_of RRows (rows r), r)
  | OCols => (out_of RNat (cols r), r)
  | OSpawn => match spawn r with Val r' => (RUnit, r') | x => (out_of (fun _ => RUnit) x, r) end
  end.
Fixpoint run (ops : list op) (r : CsvModel.reader) : list out :=
  match ops with [] => [] | a :: t => let (x, r') := run_op a r in x :: run t r' end.
End Run.

Section Init.
Context {F D : Type}.
Variable pf : text -> option F.
Variable pd : text -> option D.
Variable ef : F -> text.
Variable ed : D -> text.
Variables (f l : ascii) (header : list text) (rws : list (list text)) (tr : bool).
Hypothesis OK : table_ok f l header rws tr.
Variable o : options.
Notation names := (map strip header).
Notation n := (length rws).
Notation at_line := (at_line l (lines_of f header rws) tr).
Notation init := (CsvModel.init pf ef pd ed).

Definition names_ok : Prop := ~ In [] names /\ NoDup names.
Definition features : list (text * stype) :=
  let fs := combine (o_names o) (o_types o) in if o_order o then header_order names fs else fs.

Lemma header_line (r : CsvModel.reader) : fd r = f -> ld r = l -> at_line 0 (inp r) ->
  exists s t, next_line r = (Some header, with_inp s t r) /\ at_line 1 s.
Proof.
  intros Hf Hl Ha. unfold next_line. rewrite Hl.
  destruct (get_line_some l (lines_of f header rws) tr (lines_clean _ _ _ _ _ OK) (lines_last _ _ _ _ _ OK) 0 (inp r) (line r) (join f header) Ha) as (s & -> & Hs & Ha' & _); [reflexivity|].
  rewrite Hs. exists s, (join f header). split; [|assumption]. do 2 f_equal. rewrite Hf.
  destruct OK as (_ & Hne & Hc & _). apply split_join; [assumption|]. eapply Forall_impl; [|exact Hc]. now intros t (H & _).
Qed.
Lemma open_at : at_line 0 (inp (open o (doc f l header rws tr) f l)).
Proof. apply open_line. Qed.

Lemma count_lines_ok sel fuel : forall (r : CsvModel.reader) c, n - c < fuel ->
  0 < o_batch o -> statics f l header o sel r -> cur r = c -> c <= n -> at_line (S c) (inp r) -> map_ok f l header rws tr (rmap r) ->
  exists r', count_lines fuel r = Val r' /\ statics f l header o sel r' /\ inited r' = inited r /\ at_line (S n) (inp r') /\
             total r' = Some n /\ cur r' = n /\ map_ok f l header rws tr (rmap r').
Proof.
  induction fuel as [| fuel IH]; intros r c Hfu Hb Hst Hc Hn Ha Hm; [lia|]. cbn [count_lines].
  pose proof Hst as (Ho & Hf & Hl & Hh & Hs).
  destruct (nth_error rws c) as [row|] eqn:Er.
  - destruct (next_line_row f l header rws tr OK r c row Hf Hl Ha Er) as (s & t & -> & Ha').
    assert (c < n) by (apply nth_error_Some; congruence).
    cbn [opts with_cur with_inp cur]. rewrite Ho, Hc.
    destruct (Nat.eqb_spec (o_batch o) 0); [lia|].
    destruct (S c mod o_batch o =? 0).
    + destruct (update_map_ok f l header rws tr (with_cur (S c) (with_inp s t r)) (S c)) as (m & -> & Hm');
        [reflexivity|lia|exact Ha'|now left|].
      edestruct (IH (with_rmap m (with_cur (S c) (with_inp s t r))) (S c)) as (r' & E & H'); try assumption; try reflexivity; try lia.
      exists r'. split; [exact E|exact H'].
    + edestruct (IH (with_cur (S c) (with_inp s t r)) (S c)) as (r' & E & H'); try assumption; try reflexivity; try lia.
      exists r'. split; [exact E|exact H'].
  - apply nth_error_None in Er. assert (c = n) as -> by lia.
    destruct (next_line_end f l header rws tr r Hl Ha) as (s & t & -> & Ha' & He).
    eexists. split; [reflexivity|]. cbn. rewrite Hc. repeat split; try assumption; try apply Ha'; apply Hm.
Qed.

(** The part of Init before the modes differ. *)
Lemma init_select : names_ok -> length (o_names o) = length (o_types o) -> incl (o_names o) names ->
  (o_column o = true -> o_names o <> []) ->
  exists sel r2, Forall2 (selects names) features sel /\ statics f l header o sel r2 /\ inited r2 = false /\ cur r2 = 0 /\
    at_line 1 (inp r2) /\ total r2 = None /\ rmap r2 = [] /\
    init (open o (doc f l header rws tr) f l) =
      bind (if o_column o then build_files pf ef pd ed (S (S (length (sdata (inp r2))))) r2 (map (fun _ => []) (selected r2)) 0
            else let r3 := update_row_map r2 in if o_count o then count_lines (S (S (length (sdata (inp r2))))) r3 else Val r3)
           (fun r4 => let (u, r5) := seek 0 (with_inited true r4) in bind u (fun _ => Val r5)).
Proof.
  intros (Hne & Hnd) Hlen Hincl Hcol.
  destruct (header_line (open o (doc f l header rws tr) f l) eq_refl eq_refl open_at) as (s & t & E & Ha).
  destruct (select_ok names (o_names o) (o_types o) Hlen Hincl) as (sel0 & Esel & HF0).
  set (sel := if o_order o then sort_features sel0 else sel0).
  assert (HF : Forall2 (selects names) features sel).
  { unfold features, sel. destruct (o_order o); [now apply header_order_ok|assumption]. }
  set (r1 := with_headers names (with_inp s t (open o (doc f l header rws tr) f l))).
  exists sel, (with_selected sel r1). split; [exact HF|].
  split; [repeat split|]. split; [reflexivity|]. split; [reflexivity|]. split; [exact Ha|]. split; [reflexivity|]. split; [reflexivity|].
  unfold CsvModel.init, parse_header. cbn [inited open]. rewrite E.
  rewrite add_headers_ok by (cbn [app]; assumption). cbn [app bind]. fold r1. cbn [opts r1 with_headers with_inp open headers].
  rewrite (proj2 (Nat.eqb_eq _ _) Hlen). cbn [negb].
  destruct (o_column o && (length (o_names o) =? 0)) eqn:Ec.
  { apply andb_true_iff in Ec as (E1 & E2). apply Nat.eqb_eq in E2. destruct (o_names o); [now destruct (Hcol E1)|discriminate]. }
  rewrite Esel. cbn [bind]. fold sel. reflexivity.
Qed.
Lemma rows_fuel i s : at_line i s -> n < S (S (length (sdata s))).
Proof.
  intros Ha. rewrite (data_at f l header rws tr i s Ha). unfold doc.
  pose proof (file_length l tr (lines_of f header rws) (lines_last _ _ _ _ _ OK)) as H. rewrite lines_length in H. lia.
Qed.

Lemma init_row : names_ok -> length (o_names o) = length (o_types o) -> incl (o_names o) names ->
  o_column o = false -> (o_count o = true -> 0 < o_batch o /\ rws <> []) ->
  exists sel r, init (open o (doc f l header rws tr) f l) = Val r /\ Forall2 (selects names) features sel /\
    stands f l header rws tr o sel 0 (o_count o) r.
Proof.
  intros Hn Hl Hi Hcol Hcnt.
  destruct init_select as (sel & r2 & HF & Hst & Hin & Hc & Ha & Ht & Hm & E); try assumption; [congruence|].
  rewrite E, Hcol. clear E.
  destruct (update_map_ok f l header rws tr r2 0) as (m & Em & Hm'); [assumption|lia|assumption|right; auto|].
  cbv zeta. rewrite Em. destruct (o_count o) eqn:Ecnt.
  - destruct (Hcnt eq_refl) as (Hb & Hne).
    destruct (count_lines_ok sel (S (S (length (sdata (inp r2))))) (with_rmap m r2) 0) as (r4 & E4 & Hst4 & Hin4 & Ha4 & Ht4 & Hc4 & Hm4);
      try assumption; try lia.
    { pose proof (rows_fuel _ _ Ha). lia. }
    rewrite E4. cbn [bind].
    assert (Hs : stands f l header rws tr o sel n true (with_inited true r4)).
    { repeat split; cbn; try assumption; try lia; try apply Hst4; try apply Ha4; try apply Hm4. }
    pose proof (seek_ok f l header rws tr OK o sel Hcol _ _ _ 0 Hs) as Hk. cbn [Nat.ltb] in Hk.
    destruct (Nat.ltb_spec 0 n) as [Hlt | Hge]; [|destruct rws; [congruence|cbn in Hge; lia]].
    destruct Hk as (r' & Ek & Hs'). rewrite Ek. exists sel, r'. split; [reflexivity|]. split; assumption.
  - cbn [bind].
    assert (Hs : stands f l header rws tr o sel 0 false (with_inited true (with_rmap m r2))).
    { repeat split; cbn; try assumption; try lia; try apply Hst; try apply Ha; try apply Hm'. }
    pose proof (seek_ok f l header rws tr OK o sel Hcol _ _ _ 0 Hs) as Hk. cbn [Nat.leb] in Hk.
    destruct Hk as (r' & Ek & Hs'). rewrite Ek. exists sel, r'. split; [reflexivity|]. split; assumption.
Qed.

(** What Init refuses. *)
Lemma init_rejects : ~ (names_ok /\ length (o_names o) = length (o_types o) /\ incl (o_names o) names /\ (o_column o = true -> o_names o <> [])) ->
  init (open o (doc f l header rws tr) f l) = Thrown.
Proof.
  intros H. destruct (header_line (open o (doc f l header rws tr) f l) eq_refl eq_refl open_at) as (s & t & E & Ha).
  unfold CsvModel.init, parse_header. cbn [inited open]. rewrite E.
  destruct (in_dec (list_eq_dec ascii_dec) [] names) as [Hin | Hin].
  { rewrite add_headers_bad; [reflexivity|now left|constructor]. }
  destruct (NoDup_dec (list_eq_dec ascii_dec) names) as [Hnd | Hnd].
  2:{ rewrite add_headers_bad; [reflexivity|right; exact Hnd|constructor]. }
  rewrite add_headers_ok by (cbn [app]; assumption). cbn [app bind opts with_headers with_inp open headers].
  destruct (Nat.eqb_spec (length (o_names o)) (length (o_types o))) as [Hl | Hl]; [|reflexivity]. cbn [negb].
  destruct (o_column o && (length (o_names o) =? 0)) eqn:Ec; [reflexivity|].
  rewrite select_bad; [reflexivity|assumption|]. intros Hi. apply H.
  split; [split; assumption|]. split; [assumption|]. split; [assumption|].
  intros Hc Hnil. rewrite Hc, Hnil in Ec. discriminate.
Qed.

Lemma spawn_ok sel c known (r : CsvModel.reader) : stands f l header rws tr o sel c known r ->
  exists r', spawn r = Val r' /\ stands f l header rws tr o sel c known r'.
Proof.
  intros (Hst & Hin & Hc & Hn & Ha & Ht & Hm). unfold spawn. rewrite Hin. eexists. split; [reflexivity|].
  pose proof (spawn_line _ _ _ _ _ Ha) as Ha'.
  repeat split; cbn; try assumption; try apply Hst; try apply Ha'; apply Hm.
Qed.
End Init.

(** ** The row reader as rows *)
Section Abstract.
Context {F D : Type}.
Variable pf : text -> option F.
Variable pd : text -> option D.
Variables (header : list text) (rws : list (list text)) (feats : list (text * stype)) (bsize : nat).
Notation names := (map strip header).
Notation n := (length rws).
(** A position and whether the number of rows is known; None after an exception out of Next. *)
Definition rstate : Type := option (nat * bool).
(** The rows from c, at most k. *)
Definition ahead (c k : nat) : list (list text) := firstn k (skipn c rws).
Inductive next_allowed (k : nat) : rstate -> @out F D -> rstate -> Prop :=
  | next_some c kn b kn' : 0 < k -> c < n -> Forall (row_good pf pd names feats) (ahead c k) ->
      batch_of pf pd header feats (ahead c k) b -> (kn = true -> kn' = true) -> (n < c + k -> kn' = true) ->
      next_allowed k (Some (c, kn)) (RBatch true b) (Some (Nat.min (c + k) n, kn'))
  | next_end kn b kn' : 0 < k -> b_rows b = 0 -> (kn = true -> kn' = true) -> next_allowed k (Some (n, kn)) (RBatch false b) (Some (n, kn'))
  | next_bad c kn : 0 < k -> Exists (fun row => ~ row_good pf pd names feats row) (ahead c k) -> next_allowed k (Some (c, kn)) RThrow None
  | next_zero s : k = 0 -> next_allowed k (Some s) RThrow (Some s).
Inductive row_allowed : rstate -> op -> @out F D -> rstate -> Prop :=
  | ra_next s x s' : next_allowed bsize s x s' -> row_allowed s ONext x s'
  | ra_nextk s k x s' : next_allowed k s x s' -> row_allowed s (ONextK k) x s'
  | ra_seek c kn i : i < n -> row_allowed (Some (c, kn)) (OSeek i) RUnit (Some (i, kn))
  | ra_seek_end c : row_allowed (Some (c, false)) (OSeek n) RUnit (Some (n, false))
  | ra_seek_known c i : n <= i -> row_allowed (Some (c, true)) (OSeek i) RThrow (Some (c, true))
  | ra_seek_far c i : n < i -> row_allowed (Some (c, false)) (OSeek i) RThrow (Some (n, false))
  | ra_tell c kn : row_allowed (Some (c, kn)) OTell (RNat c) (Some (c, kn))
  | ra_rows c kn : row_allowed (Some (c, kn)) ORows (RRows (if kn then Some n else None)) (Some (c, kn))
  | ra_cols c kn : row_allowed (Some (c, kn)) OCols (RNat (length feats)) (Some (c, kn))
  | ra_spawn c kn : row_allowed (Some (c, kn)) OSpawn RUnit (Some (c, kn))
  | ra_lost a x : row_allowed None a x None.
Inductive row_history : rstate -> list op -> list (@out F D) -> Prop :=
  | rh_nil s : row_history s [] []
  | rh_cons s a x s' ops xs : row_allowed s a x s' -> row_history s' ops xs -> row_history s (a :: ops) (x :: xs).
End Abstract.

Section RowRun.
Context {F D : Type}.
Variable pf : text -> option F.
Variable df : text -> F.
Variable pd : text -> option D.
Variable dd : text -> D.
Variables (f l : ascii) (header : list text) (rws : list (list text)) (tr : bool).
Hypothesis OK : table_ok f l header rws tr.
Variables (o : options) (feats : list (text * stype)) (sel : list (nat * stype)).
Hypothesis Hsel : Forall2 (selects (map strip header)) feats sel.
Hypothesis Hcol : o_column o = false.
Hypothesis Hb : 0 < o_batch o.
Notation stands := (stands f l header rws tr o sel).
Notation allowed := (row_allowed pf pd header rws feats (o_batch o)).

Lemma next_row_allowed c known r k : stands c known r -> 0 < k ->
  let (x, r') := next_row pf pd k r empty_batch in
  (exists c' known', next_allowed pf pd header rws feats k (Some (c, known)) (out_of (fun p => RBatch (fst p) (snd p)) x) (Some (c', known')) /\ stands c' known' r') \/
  next_allowed pf pd header rws feats k (Some (c, known)) (out_of (fun p => RBatch (fst p) (snd p)) x) None.
Proof.
  intros Hs Hk. pose proof Hs as (_ & _ & _ & Hcn & _).
  destruct (next_row_ok pf pd f l header rws tr OK o feats sel Hsel c known r k Hs Hk) as [(HG & b & r' & kn' & E & Hs' & Hb0 & Hb1 & Hk1 & Hk2) | (HB & r' & E)].
  - rewrite E. left. exists (Nat.min (c + k) (length rws)), kn'. split; [|assumption]. cbn [out_of fst snd].
    pose proof (window_length rws c k) as Hw.
    destruct (Nat.eqb_spec (length (window rws c k)) 0) as [E0 | E0]; cbn [negb].
    + assert (c = length rws) as -> by lia. rewrite Nat.min_r by lia. constructor; try assumption.
      apply Hb0. now destruct (window rws (length rws) k).
    + constructor; try assumption; [lia| |].
      * apply Hb1. intros X. apply E0. now rewrite X.
      * intros. apply Hk2. lia.
  - rewrite E. right. constructor; assumption.
Qed.

Lemma run_op_allowed a c known r : stands c known r ->
  let (x, r') := run_op pf df pd dd a r in
  (exists c' known', allowed (Some (c, known)) a x (Some (c', known')) /\ stands c' known' r') \/ allowed (Some (c, known)) a x None.
Proof.
  intros Hs. pose proof Hs as ((Ho & _ & _ & _ & Hsl) & Hin & Hc & Hcn & _ & Ht & _).
  destruct a as [| k | i | | | |]; cbn [run_op].
  - unfold next. rewrite Hin, Ho, Hcol. cbn [negb].
    pose proof (next_row_allowed c known r (o_batch o) Hs Hb) as H. destruct (next_row _ _ _ _ _) as (x, r').
    destruct H as [(c' & kn' & H1 & H2) | H]; [left; exists c', kn'|right]; [split; [now constructor|assumption]|now constructor].
  - unfold next_size. destruct (Nat.eqb_spec k 0) as [-> | Hk]; cbn [orb].
    + left. exists c, known. split; [constructor; now constructor|assumption].
    + rewrite Hin, Ho, Hcol. cbn [negb].
      pose proof (next_row_allowed c known r k Hs ltac:(lia)) as H. destruct (next_row _ _ _ _ _) as (x, r').
      destruct H as [(c' & kn' & H1 & H2) | H]; [left; exists c', kn'|right]; [split; [now constructor|assumption]|now constructor].
  - pose proof (seek_ok f l header rws tr OK o sel Hcol c known r i Hs) as H. destruct known.
    + destruct (Nat.ltb_spec i (length rws)) as [Hi | Hi].
      * destruct H as (r' & -> & Hs'). left. exists i, true. split; [now constructor|assumption].
      * rewrite H. left. exists c, true. split; [now constructor|assumption].
    + destruct (Nat.leb_spec i (length rws)) as [Hi | Hi]; destruct H as (r' & -> & Hs'); left.
      * exists i, false. split; [|assumption]. destruct (Nat.eq_dec i (length rws)) as [-> | X]; [apply ra_seek_end|apply ra_seek; lia].
      * exists (length rws), false. split; [now constructor|assumption].
  - left. exists c, known. unfold tell. rewrite Hin, Hc. split; [constructor|assumption].
  - left. exists c, known. unfold rows. rewrite Hin, Ht. split; [constructor|assumption].
  - left. exists c, known. unfold cols. rewrite Hin, Hsl. cbn [out_of].
    rewrite <- (Forall2_len _ _ _ Hsel). split; [constructor|assumption].
  - destruct (spawn_ok f l header rws tr o sel c known r Hs) as (r' & -> & Hs'). left. exists c, known. split; [constructor|assumption].
Qed.
Lemma run_lost ops : forall xs, length xs = length ops -> row_history pf pd header rws feats (o_batch o) None ops xs.
Proof.
  induction ops as [| a ops IH]; intros [| x xs] H; try discriminate; [constructor|].
  econstructor; [constructor|]. apply IH. now injection H.
Qed.
Lemma run_length ops : forall r, length (run pf df pd dd ops r) = length ops.
Proof. induction ops as [| a ops IH]; intros r; cbn; [reflexivity|]. destruct (run_op _ _ _ _ a r). cbn. now rewrite IH. Qed.
Lemma run_history ops : forall c known r, stands c known r -> row_history pf pd header rws feats (o_batch o) (Some (c, known)) ops (run pf df pd dd ops r).
Proof.
  induction ops as [| a ops IH]; intros c known r Hs; cbn [run]; [constructor|].
  pose proof (run_op_allowed a c known r Hs) as H. destruct (run_op _ _ _ _ a r) as (x, r').
  destruct H as [(c' & kn' & H1 & H2) | H].
  - econstructor; [exact H1|]. now apply IH.
  - econstructor; [exact H|]. apply run_lost, run_length.
Qed.
End RowRun.
