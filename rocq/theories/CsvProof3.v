(** The row reader: invariant, Seek, Next, Init and histories. *)
From Coq Require Import NArith List Bool Arith Ascii Lia.
From Verif Require Import LinCodeModel PrgModel CsvModel CsvProof CsvProof2.
Import ListNotations.
Open Scope nat_scope.

Lemma Forall2_len {A B} (R : A -> B -> Prop) l m : Forall2 R l m -> length l = length m.
Proof. induction 1; cbn; congruence. Qed.

Section Reader.
Context {F D : Type}.
Variable pf : text -> option F.
Variable pd : text -> option D.
Variables (f l : ascii) (header : list text) (rws : list (list text)) (tr : bool).
Hypothesis OK : table_ok f l header rws tr.
Variables (o : options) (feats : list (text * stype)) (sel : list (nat * stype)).
Notation names := (map strip header).
Notation n := (length rws).
Hypothesis Hsel : Forall2 (selects names) feats sel.
Hypothesis Hcol : o_column o = false.
Notation at_line := (at_line l (lines_of f header rws) tr).
Notation lpos := (pos l (lines_of f header rws) tr).
Notation reader := CsvModel.reader.
Notation window := (window rws).

Definition statics (r : reader) : Prop := opts r = o /\ fd r = f /\ ld r = l /\ headers r = names /\ selected r = sel.
Definition map_ok (m : list (nat * nat)) : Prop :=
  Forall (fun e => fst e <= n /\ snd e = lpos (S (fst e))) m /\ Exists (fun e => fst e = 0) m.
(** The reader stands at row c; whether it knows the number of rows. *)
Definition stands (c : nat) (known : bool) (r : reader) : Prop :=
  statics r /\ inited r = true /\ cur r = c /\ c <= n /\ at_line (S c) (inp r) /\
  total r = (if known then Some n else None) /\ map_ok (rmap r).

Lemma data_at i s : at_line i s -> sdata s = doc f l header rws tr.
Proof. intros (H & _). exact H. Qed.
Lemma tellg_at i s : at_line i s -> tellg s = lpos i.
Proof. intros (_ & H & _). exact H. Qed.

Lemma update_map_ok r c : cur r = c -> c <= n -> at_line (S c) (inp r) ->
  (map_ok (rmap r) \/ (rmap r = [] /\ c = 0)) ->
  exists m, update_row_map r = with_rmap m r /\ map_ok m.
Proof.
  intros Hc Hn Ha Hm. unfold update_row_map.
  assert (Hsame : r = with_rmap (rmap r) r) by now destruct r.
  destruct Hm as [Hm | (Hm & H0)].
  - destruct (existsb _ _); [eauto|]. destruct (existsb _ _); [eauto|].
    eexists. split; [reflexivity|]. destruct Hm as (H1 & H2). split.
    + apply Forall_app. split; [assumption|]. constructor; [|constructor]. cbn [fst snd]. rewrite Hc. split; [assumption|]. exact (tellg_at _ _ Ha).
    + apply Exists_app. now left.
  - rewrite Hm. cbn [existsb]. eexists. split; [reflexivity|]. cbn. split.
    + constructor; [|constructor]. cbn [fst snd]. rewrite Hc. split; [assumption|]. exact (tellg_at _ _ Ha).
    + left. cbn. congruence.
Qed.

Lemma skip_lines_ok k : forall r c, fd r = f -> ld r = l -> cur r = c -> c <= n -> at_line (S c) (inp r) ->
  exists s t, skip_lines k r = with_cur (Nat.min (c + k) n) (with_inp s t r) /\ at_line (S (Nat.min (c + k) n)) s.
Proof.
  induction k as [| k IH]; intros r c Hf Hl Hc Hn Ha; cbn [skip_lines].
  - exists (inp r), (line r). rewrite Nat.add_0_r, Nat.min_l by assumption. split; [|assumption]. rewrite <- Hc. now destruct r.
  - destruct (nth_error rws c) as [row|] eqn:Er.
    + destruct (next_line_row f l header rws tr OK r c row Hf Hl Ha Er) as (s & t & -> & Ha').
      assert (c < n) by (apply nth_error_Some; congruence).
      edestruct (IH (with_cur (S c) (with_inp s t r)) (S c)) as (s' & t' & E & Ha''); try assumption; try reflexivity.
      exists s', t'. cbn [cur with_inp]. rewrite Hc. rewrite E. replace (c + S k) with (S c + k) by lia. split; [reflexivity|assumption].
    + apply nth_error_None in Er. assert (c = n) by lia. subst c. rewrite H in Ha.
      destruct (next_line_end f l header rws tr r Hl Ha) as (s & t & -> & Ha' & He).
      exists s, t. rewrite H, Nat.min_r by lia. split; [|assumption]. rewrite <- H. now destruct r.
Qed.

Lemma seek_ok c known r i : stands c known r ->
  match known with
  | true => if i <? n then exists r', seek i r = (Val tt, r') /\ stands i true r' else seek i r = (Thrown, r)
  | false => if i <=? n then exists r', seek i r = (Val tt, r') /\ stands i false r'
             else exists r', seek i r = (Thrown, r') /\ stands n false r'
  end.
Proof.
  intros ((Ho & Hf & Hl & Hh & Hs) & Hin & Hc & Hn & Ha & Ht & Hm).
  assert (G : match total r with None => true | Some m => i <? m end = true ->
    exists r', seek i r = ((if i <=? n then Val tt else Thrown), r') /\ stands (Nat.min i n) known r').
  { intros Hg. unfold seek. rewrite Hin, Ho, Hcol, Hg. cbn [negb].
    destruct Hm as (H1 & H2).
    destruct (find (fun e => fst e <=? i) (rev (rmap r))) as [(k, p)|] eqn:Ef.
    2:{ exfalso. apply Exists_exists in H2 as (e & He & E0). apply in_rev in He.
        pose proof (find_none _ _ Ef _ He) as X. cbn in X. rewrite E0 in X. cbn in X. discriminate. }
    apply find_some in Ef as (Hin' & Hle). cbn in Hle. apply Nat.leb_le in Hle. apply in_rev in Hin'.
    pose proof H1 as H1'. rewrite Forall_forall in H1'. destruct (H1' _ Hin') as (Hk & Hp). cbn [fst snd] in Hk, Hp. subst p.
    edestruct (skip_lines_ok (i - k) (with_cur k (with_inp (seekg (lpos (S k)) (inp r)) (line r) r)) k) as (s & t & E & Ha'); try assumption; try reflexivity.
    { apply seekg_line; [exact (data_at _ _ Ha)|]. rewrite lines_length. lia. }
    rewrite E. cbn [cur with_cur]. replace (k + (i - k)) with i in * by lia. eexists. split.
    { f_equal. destruct (Nat.leb_spec i n), (Nat.eqb_spec (Nat.min i n) i); try reflexivity; lia. }
    repeat split; cbn; try assumption; try lia; apply Ha'. }
  destruct known.
  - destruct (Nat.ltb_spec i n) as [Hi | Hi].
    + destruct G as (r' & E & Hst); [rewrite Ht; now apply Nat.ltb_lt|].
      rewrite (proj2 (Nat.leb_le i n)) in E by lia. rewrite Nat.min_l in Hst by lia. eauto.
    + unfold seek. rewrite Hin, Ho, Hcol, Ht. cbn [negb]. rewrite (proj2 (Nat.ltb_ge i n)) by assumption. reflexivity.
  - destruct G as (r' & E & Hst); [now rewrite Ht|].
    destruct (Nat.leb_spec i n); [rewrite Nat.min_l in Hst by assumption|rewrite Nat.min_r in Hst by lia]; eauto.
Qed.

(** ** Next *)
(** What a batch shows of the rows w. *)
Definition batch_of (w : list (list text)) (b : batch) : Prop :=
  b_rows b = length w /\
  Forall2 (fun g col => fst col = snd g /\ map Some (snd col) = map (fun row => value_of pf pd names row g) w) feats (b_cols b).

Lemma window_length c k : length (window c k) = Nat.min k (n - c).
Proof. unfold CsvProof2.window. now rewrite firstn_length, skipn_length. Qed.

Lemma append_cols_ok m (cs : list (@column F D)) : forall b, Forall (fun c => length (snd c) = m) cs ->
  (b_rows b = 0 /\ b_cols b = [] \/ b_rows b = m) ->
  exists b', append_cols cs b = Val b' /\ b_cols b' = b_cols b ++ cs /\ b_rows b' = (match cs with [] => b_rows b | _ => m end).
Proof.
  induction cs as [| c cs IH]; intros b H Hb; cbn [append_cols].
  - exists b. rewrite app_nil_r. auto.
  - inversion H; subst. unfold append_col.
    destruct ((b_rows b =? 0) || (b_rows b =? length (snd c))) eqn:E.
    + cbn [bind]. edestruct (IH (mkBatch (b_cols b ++ [c]) (length (snd c)))) as (b' & E' & Hc & Hr); [assumption|now right|].
      exists b'. split; [exact E'|]. cbn in Hc, Hr. rewrite Hc, <- app_assoc. split; [reflexivity|]. now rewrite Hr; destruct cs.
    + exfalso. apply orb_false_iff in E as (E1 & E2). apply Nat.eqb_neq in E1, E2. destruct Hb as [(X & _) | X]; congruence.
Qed.

Lemma columns_batch w cols : columns_of pf pd names feats w cols ->
  Forall2 (fun g col => fst col = snd g /\ map Some (snd col) = map (fun row => value_of pf pd names row g) w) feats (combine (map snd sel) cols)
  /\ Forall (fun c => length (snd c) = length w) (combine (map snd sel) cols).
Proof.
  unfold columns_of. clear OK. revert cols. induction Hsel as [| g s gs ss (H1 & H2) HF IH]; intros cols HC; inversion HC as [| g' col gs' cols' E1 E2]; subst; cbn; [auto|].
  destruct (IH HF _ E2) as (I1 & I2). split; constructor; auto; cbn.
  apply (f_equal (@length _)) in E1. now rewrite !map_length in E1.
Qed.

Lemma next_row_ok c known r k : stands c known r -> 0 < k ->
  (Forall (row_good pf pd names feats) (window c k) /\
   exists b r' known', next_row pf pd k r empty_batch = (Val (negb (length (window c k) =? 0), b), r') /\
     stands (Nat.min (c + k) n) known' r' /\ (window c k = [] -> b_rows b = 0) /\ (window c k <> [] -> batch_of (window c k) b) /\
     (known = true -> known' = true) /\ (0 < length (window c k) < k -> known' = true)) \/
  (Exists (fun row => ~ row_good pf pd names feats row) (window c k) /\ exists r', next_row pf pd k r empty_batch = (Thrown, r')).
Proof.
  intros ((Ho & Hf & Hl & Hh & Hs) & Hin & Hc & Hn & Ha & Ht & Hm) Hk. unfold next_row.
  pose proof (window_length c k) as Hw.
  destruct (seof (inp r)) eqn:Eeof.
  - assert (c = n) as E. { destruct Ha as (_ & _ & _ & He & _). specialize (He Eeof). rewrite lines_length in He. lia. }
    left. rewrite (window_end rws c k) by lia. split; [constructor|].
    exists empty_batch, r, known. cbn. rewrite Nat.min_r by lia.
    split; [reflexivity|]. split; [|repeat split; try reflexivity; try congruence; lia].
    rewrite <- E. repeat split; auto; apply Ha || apply Hm.
  - edestruct (row_loop_cases pf pd f l header rws tr OK feats sel Hsel k r c [] (map (fun _ => []) (selected r)) 0)
      as [(HG & cols & s & t & E & HC & Ha' & He) | (HB & r' & E)]; try assumption.
    { apply columns_nil. rewrite Hs. symmetry. exact (Forall2_len _ _ _ Hsel). }
    2:{ right. split; [assumption|]. rewrite E. eauto. }
    left. split; [assumption|]. rewrite E. cbn [Nat.add app] in *.
    set (m := length (window c k)) in *. set (r1 := with_cur (c + m) (with_inp s t r)) in *.
    assert (Hmin : Nat.min (c + k) n = c + m) by lia.
    assert (exists rm, (if m =? k then update_row_map r1 else r1) = with_rmap rm r1 /\ map_ok rm) as (rm & Erm & Hrm).
    { destruct (m =? k); [|exists (rmap r1); split; [reflexivity|exact Hm]].
      apply (update_map_ok r1 (c + m)); cbn; [reflexivity|lia|assumption|now left]. }
    rewrite Erm. clear Erm.
    set (r2 := with_rmap rm r1). assert (Einp : seof (inp r2) = seof s) by reflexivity. rewrite Einp.
    assert (exists known' r3, (if seof s then with_total (Some (cur r2)) r2 else r2) = r3 /\ stands (c + m) known' r3 /\
      (known = true -> known' = true) /\ (m < k -> known' = true) /\ selected r3 = sel) as (known' & r3 & E3 & Hst & Hk1 & Hk2 & Hs3).
    { destruct (seof s) eqn:Es.
      - exists true. eexists. split; [reflexivity|].
        assert (c + m = n). { destruct Ha' as (_ & _ & _ & X & _). specialize (X Es). rewrite lines_length in X. lia. }
        repeat split; cbn; auto; try lia; try apply Ha'; try apply Hrm.
      - exists known, r2. split; [reflexivity|]. repeat split; cbn; auto; try lia; try apply Ha'; try apply Hrm; try congruence.
    }
    rewrite E3. rewrite Hs3.
    destruct (columns_batch _ _ HC) as (HB1 & HB2).
    destruct (append_cols_ok m (combine (map snd sel) cols) empty_batch HB2) as (b & Eb & Hbc & Hbr); [left; auto|].
    rewrite Hmin. destruct sel as [| s0 sel'] eqn:Esel.
    + eexists _, r3, known'. split; [reflexivity|]. cbn [b_rows b_cols]. split; [assumption|].
      split; [intros X; unfold m; now rewrite X|]. split; [|split; [assumption|intros; apply Hk2; lia]].
      intros _. split; [reflexivity|]. inversion Hsel; subst. constructor.
    + assert (Hbr' : b_rows b = m).
      { rewrite Hbr. apply Forall2_len in HB1. rewrite (Forall2_len _ _ _ Hsel) in HB1.
        destruct (combine (map snd (s0 :: sel')) cols); [discriminate HB1|reflexivity]. }
      rewrite Eb. cbn [bind]. exists b, r3, known'. split; [reflexivity|]. split; [assumption|].
      split; [intros X; rewrite Hbr'; unfold m; now rewrite X|]. split; [|split; [assumption|intros; apply Hk2; lia]].
      intros _. split; [exact Hbr'|]. rewrite Hbc. exact HB1.
Qed.
End Reader.
