(** C42: Buffer is an independent byte string, for every program. *)
From Coq Require Import NArith ZArith List Bool Arith Lia Permutation.
From Verif Require Import BufferModel BufferProof.
Import ListNotations.
Open Scope nat_scope.

(** ** Specification
    A buffer is a value: the visible bytes and the spare bytes behind them, both
    possibly uninitialised.  There is no memory and no sharing. *)
Notation value := (list (option N) * list (option N))%type (only parsing).
Definition v_resize (n : nat) (v : value) : value :=
  let all := fst v ++ snd v in
  if n <=? length all then (firstn n all, skipn n all) else (fst v ++ repeat None (n - length (fst v)), []).
Definition v_reserve (n : nat) (v : value) : value :=
  if n <=? length (fst v ++ snd v) then v else (fst v, repeat None (n - length (fst v))).
Definition v_copy (dst src : value) : value := (fst src, skipn (length (fst src)) (fst dst ++ snd dst)).
Definition v_get (vs : list value) (i : nat) : value := nth i vs ([], []).
(** None: the program itself is wrong (a variable that does not exist, a
    negative size given to resize, a write behind the end). *)
Definition spec_step (vs : list value) (o : op) : option (list value) :=
  let ok i v := if i <? length vs then Some (upd vs i v) else None in
  match o with
  | Make i sz cp => ok i (if ((0 <=? sz) && (sz <=? cp))%Z then (repeat None (Z.to_nat sz), repeat None (Z.to_nat (cp - sz))) else v_get vs i)
  | MakeFrom i l => ok i (l, [])
  | Adopt i l d => ok i (l, [])
  | Copy i j => if j <? length vs then ok i (if i =? j then v_get vs i else v_copy (v_get vs i) (v_get vs j)) else None
  | Move i j => if (i <? length vs) && (j <? length vs) then Some (upd (upd vs i (v_get vs j)) j (v_get vs i)) else None
  | Resize i n => if (0 <=? n)%Z then ok i (v_resize (Z.to_nat n) (v_get vs i)) else None
  | Reserve i n => ok i (if (Z.of_nat (length (fst (v_get vs i))) <=? n)%Z then v_reserve (Z.to_nat n) (v_get vs i) else v_get vs i)
  | Release i => ok i ([], [])
  | Reset i => ok i ([], [])
  | Write i off b => if off <? length (fst (v_get vs i)) then ok i (upd (fst (v_get vs i)) off (Some b), snd (v_get vs i)) else None
  end.
Fixpoint spec_run (vs : list value) (os : list op) : option (list value) :=
  match os with
  | [] => Some vs
  | o :: os' => match spec_step vs o with Some vs' => spec_run vs' os' | None => None end
  end.

(** ** The invariant *)
Definition abs (v : nat * list (option N)) : value := (firstn (fst v) (snd v), skipn (fst v) (snd v)).
Definition ptr1 (b : buf) : list nat := match ptr b with Some a => [a] | None => [] end.
Definition ptrs (l : list buf) : list nat := flat_map ptr1 l.
Record inv (s : st) (vs : list value) : Prop := {
  i_len : length (vars s) = length vs;
  i_rep : forall i, i < length vs -> exists v, rep (sm s) (get s i) v /\ abs v = v_get vs i;
  i_nodup : NoDup (ptrs (vars s) ++ given s);
  i_alive : forall a, alive (sm s) a <-> In a (ptrs (vars s) ++ given s);
  i_calls : calls_ok (sm s) }.
Lemma ptrs_split l i b : i < length l -> Permutation (ptrs (upd l i b)) (ptr1 b ++ ptrs (upd l i empty_buf)).
Proof.
  revert i. induction l as [|x l IH]; intros [|i] H; cbn [length] in H; try lia; cbn [upd].
  - unfold ptrs. cbn [flat_map ptr1 empty_buf ptr app]. reflexivity.
  - unfold ptrs in *. cbn [flat_map]. rewrite (IH i) by lia. rewrite !app_assoc. apply Permutation_app_tail. apply Permutation_app_comm.
Qed.
Lemma upd_same {A} (l : list A) i d : i < length l -> upd l i (nth i l d) = l.
Proof. revert i. induction l as [|x l IH]; intros [|i] H; cbn [length] in H; try lia; cbn [upd nth]; auto. f_equal. apply IH. lia. Qed.
Lemma ptrs_get l i : i < length l -> Permutation (ptrs l) (ptr1 (nth i l empty_buf) ++ ptrs (upd l i empty_buf)).
Proof. intros H. rewrite <- (upd_same l i empty_buf H) at 1. apply ptrs_split. exact H. Qed.
Lemma ptrs_in l i a : i < length l -> ptr (nth i l empty_buf) = Some a -> In a (ptrs l).
Proof. intros H P. rewrite (ptrs_get l i H). apply in_app_iff. left. unfold ptr1. rewrite P. left. reflexivity. Qed.
Lemma ptrs_rest_in l i j a : i < length l -> j < length l -> i <> j -> ptr (nth j l empty_buf) = Some a -> In a (ptrs (upd l i empty_buf)).
Proof.
  intros Hi Hj N P. apply (ptrs_in _ j); [rewrite upd_length; auto|]. rewrite upd_nth by auto. destruct (Nat.eqb_spec j i); [lia|auto].
Qed.
Lemma nodup_tail {A} (l m : list A) : NoDup (l ++ m) -> NoDup m.
Proof. induction l as [|a l IH]; cbn [app]; intros H; [exact H|]. inversion_clear H. auto. Qed.
Lemma ptr1_in b a : In a (ptr1 b) <-> ptr b = Some a.
Proof.
  unfold ptr1. destruct (ptr b) as [x|]; cbn [In]; split.
  - intros [->|[]]. reflexivity.
  - intros H. injection H. auto.
  - intros [].
  - discriminate.
Qed.
(** One buffer variable changes. *)
Lemma inv_put s vs i m' b' v' : inv s vs -> i < length vs -> eff (sm s) (get s i) m' b' -> rep m' b' v' ->
  inv {| sm := m'; vars := upd (vars s) i b'; given := given s |} (upd vs i (abs v')).
Proof.
  intros [L R ND AL CO] Hi [F [A C]] RB. assert (Hi' : i < length (vars s)) by lia.
  pose proof (ptrs_get (vars s) i Hi') as PG. fold (get s i) in PG.
  assert (ND2 : NoDup (ptr1 (get s i) ++ ptrs (upd (vars s) i empty_buf) ++ given s)).
  { rewrite app_assoc. eapply Permutation_NoDup; [|exact ND]. apply Permutation_app_tail. exact PG. }
  assert (AL2 : forall a, alive (sm s) a <-> In a (ptr1 (get s i)) \/ In a (ptrs (upd (vars s) i empty_buf) ++ given s)).
  { intros a. rewrite AL. rewrite (Permutation_app_tail (given s) PG). rewrite <- app_assoc, in_app_iff. reflexivity. }
  assert (DISJ : forall a, In a (ptrs (upd (vars s) i empty_buf) ++ given s) -> ptr (get s i) <> Some a).
  { intros a H P. unfold ptr1 in ND2. rewrite P in ND2. cbn [app] in ND2. inversion_clear ND2. contradiction. }
  assert (P1 : forall a, In a (ptr1 (get s i)) <-> ptr (get s i) = Some a).
  { intros a. apply ptr1_in. }
  split; cbn [sm vars given].
  - rewrite !upd_length. exact L.
  - intros j Hj. rewrite upd_length in Hj. unfold get, v_get. cbn [vars]. rewrite !upd_nth by lia. destruct (Nat.eqb_spec j i) as [->|N].
    + exists v'. auto.
    + destruct (R j Hj) as [v [Rv E]]. exists v. split; [|exact E]. eapply rep_frame; [exact Rv|]. intros a P. apply F.
      * apply DISJ. apply in_app_iff. left. eapply (ptrs_rest_in (vars s) i j); auto; lia.
      * eapply rep_alive; eauto.
  - assert (Q : Permutation (ptrs (upd (vars s) i b') ++ given s) (ptr1 b' ++ (ptrs (upd (vars s) i empty_buf) ++ given s))).
    { rewrite app_assoc. apply Permutation_app_tail. apply ptrs_split. exact Hi'. }
    eapply Permutation_NoDup; [symmetry; exact Q|]. apply nodup_tail in ND2. unfold ptr1. destruct (ptr b') as [a|] eqn:P; [|exact ND2].
    cbn [app]. constructor; [|exact ND2]. intros H. destruct (F a) as [_ N]; [apply DISJ; auto|apply AL2; auto|]. auto.
  - intros a. assert (Q : In a (ptrs (upd (vars s) i b') ++ given s) <-> ptr b' = Some a \/ In a (ptrs (upd (vars s) i empty_buf) ++ given s)).
    { rewrite (Permutation_app_tail (given s) (ptrs_split (vars s) i b' Hi')). rewrite <- app_assoc, in_app_iff.
      rewrite ptr1_in. reflexivity. }
    rewrite Q, A, AL2, P1. split.
    + intros [[[H|H] N]|H]; auto. contradiction.
    + intros [H|H]; [auto|]. left. split; [auto|]. apply DISJ. exact H.
  - auto.
Qed.
Lemma inv_same s vs i : inv s vs -> i < length vs -> inv s (upd vs i (v_get vs i)).
Proof. intros H Hi. unfold v_get. rewrite upd_same by auto. exact H. Qed.
Lemma inv_temp s vs i m1 bt vt v' : inv s vs -> i < length vs -> eff (sm s) empty_buf m1 bt -> rep m1 bt vt -> abs vt = v' ->
  exists s', assign_temp s i (m1, bt) = Ok s' /\ inv s' (upd vs i v') /\ given s' = given s.
Proof.
  intros I Hi E R <-. destruct (i_rep _ _ I i Hi) as [v [Rv _]]. unfold assign_temp. cbn [fst snd].
  destruct (replace_spec (sm s) m1 (get s i) v bt vt Rv E R) as [m2 [E2 [F2 R2]]]. rewrite E2. cbn [bind put fst snd].
  eexists. split; [reflexivity|]. split; [|reflexivity]. eapply inv_put; eauto.
Qed.

(** ** Each statement *)
Lemma abs_all v : fst (abs v) ++ snd (abs v) = snd v.
Proof. unfold abs. cbn [fst snd]. apply firstn_skipn. Qed.
Lemma abs_len v : fst v <= length (snd v) -> length (fst (abs v)) = fst v.
Proof. intros H. unfold abs. cbn [fst]. rewrite firstn_length. lia. Qed.
Lemma abs_resized v n : fst v <= length (snd v) -> abs (resized v n) = v_resize n (abs v).
Proof.
  intros H. unfold v_resize. rewrite abs_all, abs_len by auto. unfold resized. destruct (Nat.leb_spec n (length (snd v))) as [L|L]; [reflexivity|].
  unfold abs. cbn [fst snd]. assert (LL : length (firstn (fst v) (snd v) ++ repeat None (n - fst v)) = n) by (rewrite app_length, firstn_length, repeat_length; lia).
  rewrite firstn_all2 by lia. rewrite skipn_all2 by lia. reflexivity.
Qed.
Lemma abs_reserved v n : fst v <= length (snd v) -> abs (reserved v n) = v_reserve n (abs v).
Proof.
  intros H. unfold v_reserve. rewrite abs_all, abs_len by auto. unfold reserved. destruct (Nat.leb_spec n (length (snd v))) as [L|L]; [reflexivity|].
  unfold abs. cbn [fst snd]. rewrite firstn_app, firstn_firstn, Nat.min_id, firstn_length, Nat.min_l, Nat.sub_diag, firstn_O, app_nil_r by auto.
  rewrite skipn_app, firstn_length, Nat.min_l, Nat.sub_diag by auto. rewrite skipn_all2 by (rewrite firstn_length; lia). reflexivity.
Qed.
Lemma abs_copied v sv : fst v <= length (snd v) -> fst sv <= length (snd sv) -> abs (copied v sv) = v_copy (abs v) (abs sv).
Proof.
  intros H H2. unfold v_copy. rewrite abs_all, abs_len by auto. unfold copied. unfold abs at 1. cbn [fst snd].
  rewrite firstn_app, firstn_firstn, Nat.min_id, firstn_length, Nat.min_l, Nat.sub_diag, firstn_O, app_nil_r by auto.
  rewrite skipn_app, firstn_length, Nat.min_l, Nat.sub_diag by auto. rewrite (skipn_all2 (firstn (fst sv) (snd sv))) by (rewrite firstn_length; lia).
  cbn [app skipn]. unfold abs. cbn [fst]. f_equal. unfold resized. destruct (Nat.leb_spec (fst sv) (length (snd v))) as [L|L]; cbn [snd]; [reflexivity|].
  rewrite !skipn_all2; [reflexivity|lia|]. rewrite app_length, firstn_length, repeat_length. lia.
Qed.
Lemma upd_split {A} (l : list A) off x : off < length l -> upd l off x = firstn off l ++ [x] ++ skipn (off + 1) l.
Proof. revert off. induction l as [|a l IH]; intros [|off] H; cbn [length] in H; try lia; cbn [upd firstn skipn app Nat.add]; auto. f_equal. apply IH. lia. Qed.
Lemma abs_written v off x : off < fst v -> fst v <= length (snd v) -> abs (fst v, upd (snd v) off x) = (upd (fst (abs v)) off x, snd (abs v)).
Proof.
  destruct v as [k l]. unfold abs. cbn [fst snd]. revert k l. induction off as [|off IH]; intros k l H H2; destruct k as [|k], l as [|a l]; cbn [length] in H2; try lia; cbn [upd firstn skipn].
  - reflexivity.
  - specialize (IH k l ltac:(lia) ltac:(lia)). injection IH. intros -> ->. reflexivity.
Qed.
Lemma step_ok s vs o vs' : inv s vs -> spec_step vs o = Some vs' ->
  match step s o with Ok s' => inv s' vs' | Thrown => inv s vs' | UB => False end.
Proof.
  intros I H. assert (TK : forall (i : nat) v, (if i <? length vs then Some (upd vs i v) else None) = Some vs' -> i < length vs /\ vs' = upd vs i v).
  { intros i v K. destruct (Nat.ltb_spec i (length vs)); [|discriminate]. split; [auto|congruence]. }
  destruct o as [i sz cp|i l|i l d|i j|i j|i n|i n|i|i|i off b]; cbn [spec_step] in H; cbn [step].
  - apply TK in H. destruct H as [Hi ->]. unfold make. destruct ((0 <=? sz) && (sz <=? cp))%Z eqn:C; [|cbn [bind]; apply inv_same; auto].
    apply andb_true_iff in C. destruct C as [C1 C2]. apply Z.leb_le in C1, C2.
    destruct (alloc_spec (sm s) cp ltac:(lia)) as [EA RA]. destruct (alloc (sm s) cp) as [np m1]. cbn [fst snd] in EA, RA. cbn [bind].
    destruct (inv_temp s vs i m1 {| ptr := Some np; size := sz; cap := cp; del := None |} (Z.to_nat sz, repeat None (Z.to_nat cp))
      (repeat None (Z.to_nat sz), repeat None (Z.to_nat (cp - sz))) I Hi) as [s' [E [I' _]]].
    + eapply eff_ptr; [exact EA|reflexivity].
    + eapply (rep_size _ _ _ _ (Z.to_nat sz)) in RA; [|rewrite repeat_length; lia]. rewrite Z2Nat.id in RA by auto. exact RA.
    + unfold abs. cbn [fst snd]. replace (Z.to_nat cp) with (Z.to_nat sz + Z.to_nat (cp - sz)) by lia. rewrite repeat_app.
      rewrite firstn_app, repeat_length, Nat.sub_diag, firstn_O, app_nil_r. rewrite firstn_all2 by (rewrite repeat_length; lia).
      rewrite skipn_app, repeat_length, Nat.sub_diag. rewrite skipn_all2 by (rewrite repeat_length; lia). reflexivity.
    + rewrite E. exact I'.
  - apply TK in H. destruct H as [Hi ->]. unfold make_from.
    destruct (resize_spec (sm s) empty_buf (0, []) (length l) (rep_empty _)) as [m1 [b1 [E1 [F1 R1]]]]. rewrite E1. cbn [bind].
    destruct (resized_len (0, []) (length l)) as [L1 L2]; [cbn; lia|].
    destruct (store_spec m1 b1 _ 0 l R1) as [m2 [E2 [F2 R2]]]; [lia|]. rewrite E2. cbn [bind].
    assert (SN : snd (resized (0, []) (length l)) = repeat None (length l)).
    { unfold resized. cbn [snd fst length]. destruct (Nat.leb_spec (length l) 0) as [Z0|Z0]; cbn [snd].
      - replace (length l) with 0 by lia. reflexivity.
      - rewrite Nat.sub_0_r. reflexivity. }
    rewrite SN, L2 in R2. cbn [firstn app Nat.add] in R2. rewrite skipn_all2, app_nil_r in R2 by (rewrite repeat_length; lia).
    destruct (inv_temp s vs i m2 b1 (length l, l) (l, []) I Hi) as [s' [E [I' _]]].
    + eapply eff_store; eauto.
    + exact R2.
    + unfold abs. cbn [fst snd]. rewrite firstn_all, skipn_all. reflexivity.
    + rewrite E. exact I'.
  - apply TK in H. destruct H as [Hi ->]. cbn [adopt bind].
    set (bk := {| bytes := l; how := Ext d; live := true |}).
    assert (HX : nth_error (heap (sm s) ++ [bk]) (length (heap (sm s))) = Some bk) by (rewrite nth_error_app2, Nat.sub_diag by lia; reflexivity).
    assert (OLD : forall a, a < length (heap (sm s)) -> nth_error (heap (sm s) ++ [bk]) a = nth_error (heap (sm s)) a) by (intros; apply nth_error_app1; auto).
    destruct (inv_temp s vs i {| heap := heap (sm s) ++ [bk]; calls := calls (sm s) |}
      {| ptr := Some (length (heap (sm s))); size := Z.of_nat (length l); cap := Z.of_nat (length l); del := Some d |} (length l, l) (l, []) I Hi) as [s' [E [I' _]]].
    + split; [|split].
      * intros a _ [blk [E L]]. assert (a < length (heap (sm s))) by (apply nth_error_Some; congruence). split; [apply OLD; auto|]. cbn. intros C. injection C. lia.
      * intros a. unfold alive. cbn [heap ptr]. split.
        { intros [blk [E L]]. destruct (Nat.lt_ge_cases a (length (heap (sm s)))) as [H|H].
          - left. rewrite OLD in E by auto. split; [exists blk; auto|discriminate].
          - right. f_equal. assert (a < length (heap (sm s) ++ [bk])) by (apply nth_error_Some; congruence). rewrite app_length in H0. cbn in H0. lia. }
        { intros [[[blk [E L]] _]|E].
          - exists blk. rewrite OLD by (apply nth_error_Some; congruence). auto.
          - injection E. intros <-. eexists. split; [exact HX|reflexivity]. }
      * intros [ND C]. split; [exact ND|]. cbn [calls heap]. intros a d'. rewrite C. split.
        { intros [blk [E [H L]]]. exists blk. rewrite OLD by (apply nth_error_Some; congruence). auto. }
        { intros [blk [E [H L]]]. destruct (Nat.lt_ge_cases a (length (heap (sm s)))) as [K|K]; [exists blk; rewrite OLD in E by auto; auto|].
          rewrite nth_error_app2 in E by auto. destruct (a - length (heap (sm s))) as [|q]; cbn in E; [injection E; intros <-; discriminate|destruct q; discriminate]. }
    + split; [reflexivity|]. split; [reflexivity|]. split; [cbn; lia|]. cbn [ptr]. exists bk. split; [exact HX|]. repeat split.
    + unfold abs. cbn [fst snd]. rewrite firstn_all, skipn_all. reflexivity.
    + rewrite E. exact I'.
  - destruct (Nat.ltb_spec j (length vs)) as [Hj|]; [|discriminate]. apply TK in H. destruct H as [Hi ->]. destruct (Nat.eqb_spec i j) as [->|N]; [apply inv_same; auto|].
    destruct (i_rep _ _ I i Hi) as [v [R E]]. destruct (i_rep _ _ I j Hj) as [sv [RS ES]].
    destruct (copy_spec (sm s) (get s i) v (get s j) sv R RS) as [m' [b' [EC [F RC]]]].
    + intros a P1 P2. pose proof (i_nodup _ _ I) as ND. pose proof (i_len _ _ I) as LL.
      eapply Permutation_NoDup in ND; [|apply Permutation_app_tail; apply (ptrs_get (vars s) i); lia]. fold (get s i) in ND. unfold ptr1 in ND. rewrite P1 in ND. cbn [app] in ND.
      inversion_clear ND as [|? ? NI _]. apply NI. apply in_app_iff. left. eapply (ptrs_rest_in (vars s) i j); auto; lia.
    + rewrite EC. cbn [bind put fst snd]. rewrite <- E, <- ES. rewrite <- abs_copied; [|apply R|apply RS]. eapply inv_put; eauto.
  - destruct (Nat.ltb_spec i (length vs)) as [Hi|]; [|discriminate]. destruct (Nat.ltb_spec j (length vs)) as [Hj|]; [|discriminate]. cbn [andb] in H. injection H. intros <-.
    destruct (Nat.eqb_spec i j) as [->|N].
    { replace (upd (upd vs j (v_get vs j)) j (v_get vs j)) with vs; [exact I|]. unfold v_get. rewrite !upd_same by (rewrite ?upd_length; auto). reflexivity. }
    destruct I as [L R ND AL CO]. set (l2 := upd (upd (vars s) i (get s j)) j (get s i)).
    assert (PP : Permutation (ptrs l2) (ptrs (vars s))).
    { unfold l2. rewrite ptrs_split by (rewrite upd_length; lia).
      assert (Q : upd (upd (vars s) i (get s j)) j empty_buf = upd (upd (vars s) j empty_buf) i (get s j)).
      { apply nth_ext with (d := empty_buf) (d' := empty_buf); [rewrite !upd_length; reflexivity|]. intros k Hk.
        rewrite !upd_nth by (rewrite ?upd_length; lia). destruct (Nat.eqb_spec k j), (Nat.eqb_spec k i); auto; lia. }
      rewrite Q. rewrite (ptrs_split _ i) by (rewrite upd_length; lia). rewrite (ptrs_get (vars s) j) by lia. fold (get s j).
      rewrite (ptrs_get (upd (vars s) j empty_buf) i) by (rewrite upd_length; lia). rewrite upd_nth by lia. destruct (Nat.eqb_spec i j); [lia|]. fold (get s i).
      rewrite !app_assoc. apply Permutation_app_tail. apply Permutation_app_comm. }
    split; cbn [sm vars given].
    + unfold l2. rewrite !upd_length. exact L.
    + intros k Hk. rewrite !upd_length in Hk. unfold l2, get, v_get. cbn [vars]. rewrite !upd_nth by (rewrite ?upd_length; lia).
      destruct (Nat.eqb_spec k j) as [->|N1]; [apply R; auto|]. destruct (Nat.eqb_spec k i) as [->|N2]; [apply R; auto|]. apply R; auto.
    + eapply Permutation_NoDup; [|exact ND]. apply Permutation_app_tail. symmetry. exact PP.
    + intros a. rewrite AL. fold l2. rewrite (Permutation_app_tail (given s) PP). reflexivity.
    + exact CO.
  - destruct (Z.leb_spec 0 n) as [Hn|]; [|discriminate]. apply TK in H. destruct H as [Hi ->].
    destruct (i_rep _ _ I i Hi) as [v [R E]]. destruct (resize_spec (sm s) (get s i) v (Z.to_nat n) R) as [m' [b' [ER [F RR]]]].
    rewrite Z2Nat.id in ER by auto. rewrite ER. cbn [bind put fst snd]. rewrite <- E. rewrite <- abs_resized by apply R. eapply inv_put; eauto.
  - apply TK in H. destruct H as [Hi ->]. destruct (i_rep _ _ I i Hi) as [v [R E]]. rewrite <- E. rewrite abs_len by apply R.
    destruct (Z.leb_spec (Z.of_nat (fst v)) n) as [Hn|Hn].
    + destruct (reserve_spec (sm s) (get s i) v (Z.to_nat n) R) as [m' [b' [ER [F RR]]]]; [lia|].
      rewrite Z2Nat.id in ER by lia. rewrite ER. cbn [bind put fst snd]. rewrite <- abs_reserved by apply R. eapply inv_put; eauto.
    + unfold reserve. destruct R as [R1 _]. rewrite R1. destruct (Z.leb_spec (Z.of_nat (fst v)) n); [lia|]. cbn [bind]. rewrite E. apply inv_same; auto.
  - apply TK in H. destruct H as [Hi ->]. cbn [release]. destruct (i_rep _ _ I i Hi) as [v [R E]]. destruct I as [L RR ND AL CO].
    set (b := {| ptr := None; size := 0; cap := 0; del := del (get s i) |}).
    assert (Hi' : i < length (vars s)) by lia.
    assert (PP : Permutation (ptrs (upd (vars s) i b) ++ match ptr (get s i) with Some a => a :: given s | None => given s end) (ptrs (vars s) ++ given s)).
    { rewrite (Permutation_app_tail (given s) (ptrs_get (vars s) i Hi')). fold (get s i). rewrite (ptrs_split (vars s) i b Hi'). unfold ptr1 at 1. cbn [b ptr app].
      unfold ptr1. destruct (ptr (get s i)) as [a|]; cbn [app]; [|reflexivity]. symmetry. apply Permutation_middle. }
    split; cbn [sm vars given].
    + rewrite !upd_length. exact L.
    + intros k Hk. rewrite upd_length in Hk. unfold get, v_get. cbn [vars]. rewrite !upd_nth by lia. destruct (Nat.eqb_spec k i) as [->|N]; [|apply RR; auto].
      exists (0, []). split; [|reflexivity]. repeat split. cbn. lia.
    + eapply Permutation_NoDup; [symmetry; exact PP|exact ND].
    + intros a. rewrite AL. rewrite PP. reflexivity.
    + exact CO.
  - apply TK in H. destruct H as [Hi ->]. destruct (i_rep _ _ I i Hi) as [v [R E]]. destruct (reset_spec (sm s) (get s i) v R) as [m' [ER F]]. rewrite ER. cbn [bind put fst snd].
    apply (inv_put s vs i m' empty_buf (0, [])); auto. apply rep_empty.
  - destruct (Nat.ltb_spec off (length (fst (v_get vs i)))) as [Ho|]; [|discriminate]. apply TK in H. destruct H as [Hi ->]. destruct (i_rep _ _ I i Hi) as [v [R E]].
    rewrite <- E in *. rewrite abs_len in Ho by apply R. pose proof R as [R1 [_ [R3 _]]].
    rewrite R1. destruct (Z.ltb_spec (Z.of_nat off) (Z.of_nat (fst v))); [|lia].
    destruct (store_spec (sm s) (get s i) v off [Some b] R) as [m' [ES [F RS]]]; [cbn; lia|]. rewrite ES. cbn [bind put fst snd].
    cbn [length] in RS. rewrite <- upd_split in RS by lia. rewrite <- abs_written by auto. eapply inv_put; eauto.
Qed.
Lemma inv_start k : inv (start k) (repeat ([], []) k).
Proof.
  assert (P0 : ptrs (repeat empty_buf k) = []) by (induction k as [|k IH]; [reflexivity|exact IH]).
  split; cbn [start sm vars given heap].
  - rewrite !repeat_length. reflexivity.
  - intros i Hi. rewrite repeat_length in Hi. exists (0, []). unfold get, v_get. cbn [start vars]. rewrite !nth_repeat. split; [apply rep_empty|reflexivity].
  - rewrite P0. constructor.
  - intros a. rewrite P0. unfold alive. cbn. split; [intros [blk [E _]]; destruct a; discriminate|intros []].
  - split; [constructor|]. cbn. intros a d. split; [intros []|]. intros [blk [E _]]. destruct a; discriminate.
Qed.
Lemma run_ok os : forall s vs vs', inv s vs -> spec_run vs os = Some vs' -> exists s', run s os = Ok s' /\ inv s' vs'.
Proof.
  induction os as [|o os IH]; intros s vs vs' I H; cbn [spec_run run] in *.
  - injection H. intros <-. exists s. auto.
  - destruct (spec_step vs o) as [vs1|] eqn:E; [|discriminate]. pose proof (step_ok s vs o vs1 I E) as K. destruct (step s o) as [s1| |]; [|eapply IH; eauto|destruct K].
    eapply IH; eauto.
Qed.

(** C42: every program that uses existing variables, does not resize below zero
    and writes inside the visible bytes runs without touching memory it does
    not own, and at its end every buffer shows exactly the bytes, the size and
    the capacity of the value semantics: no other buffer's content ever changes,
    growing keeps the content, and size is between 0 and capacity. *)
Theorem buffer_values : forall k os vs, spec_run (repeat ([], []) k) os = Some vs ->
  exists s, run (start k) os = Ok s /\ forall i, i < k ->
    contents s i = Ok (fst (v_get vs i)) /\
    size (get s i) = Z.of_nat (length (fst (v_get vs i))) /\
    cap (get s i) = Z.of_nat (length (fst (v_get vs i) ++ snd (v_get vs i))) /\
    (0 <= size (get s i) <= cap (get s i))%Z.
Proof.
  intros k os vs H. destruct (run_ok os _ _ _ (inv_start k) H) as [s [E I]]. exists s. split; [exact E|].
  assert (LV : length vs = k).
  { clear E I. revert H. replace k with (length (repeat (@nil (option N), @nil (option N)) k)) at 2 by apply repeat_length. generalize (repeat (@nil (option N), @nil (option N)) k). clear.
    induction os as [|o os IH]; intros vs0 H; cbn [spec_run] in H; [injection H; intros <-; reflexivity|].
    destruct (spec_step vs0 o) as [vs1|] eqn:E; [|discriminate]. rewrite (IH vs1 H).
    destruct o; cbn [spec_step] in E; repeat match type of E with context [if ?c then _ else _] => destruct c; try discriminate end;
      injection E; intros <-; rewrite ?upd_length; reflexivity. }
  intros i Hi. destruct (i_rep _ _ I i ltac:(lia)) as [v [R EV]]. rewrite <- EV. pose proof R as [R1 [R2 [R3 _]]]. rewrite abs_len, abs_all by auto.
  split; [|split; [exact R1|split; [exact R2|lia]]]. unfold contents. rewrite R1. exact (load_spec _ _ _ _ R R3).
Qed.
Print Assumptions buffer_values.

Lemma finish_ok s vs : inv s vs -> exists s', finish s = Ok s' /\ inv s' (repeat ([], []) (length vs)) /\ given s' = given s /\ Forall (fun b => ptr b = None) (vars s').
Proof.
  intros I. unfold finish.
  assert (G : forall n s i, inv s (repeat ([], []) i ++ skipn i vs) -> i + n = length vs -> Forall (fun b => ptr b = None) (firstn i (vars s)) ->
    exists s', run s (map Reset (seq i n)) = Ok s' /\ inv s' (repeat ([], []) (length vs)) /\ given s' = given s /\ Forall (fun b => ptr b = None) (vars s')).
  { clear s I. induction n as [|n IH]; intros s i I E F; cbn [seq map run].
    - exists s. split; [reflexivity|]. replace (length vs) with i by lia. rewrite skipn_all2, app_nil_r in I by lia. split; [exact I|]. split; [reflexivity|].
      rewrite firstn_all2 in F; [exact F|]. rewrite (i_len _ _ I), repeat_length. lia.
    - pose proof (i_len _ _ I) as LL. rewrite app_length, repeat_length, skipn_length in LL.
      assert (SP : spec_step (repeat ([], []) i ++ skipn i vs) (Reset i) = Some (repeat ([], []) (S i) ++ skipn (S i) vs)).
      { cbn [spec_step]. rewrite app_length, repeat_length, skipn_length. destruct (Nat.ltb_spec i (i + (length vs - i))); [|lia]. f_equal.
        apply nth_ext with (d := ([], [])) (d' := ([], [])); [rewrite upd_length, !app_length, !repeat_length, !skipn_length; lia|]. intros j Hj.
        rewrite upd_nth by (rewrite app_length, repeat_length, skipn_length; lia). destruct (Nat.eqb_spec j i) as [->|N].
        - rewrite app_nth1 by (rewrite repeat_length; lia). symmetry. apply nth_repeat.
        - destruct (Nat.lt_ge_cases j i).
          + rewrite !app_nth1 by (rewrite repeat_length; lia). rewrite !nth_repeat. reflexivity.
          + rewrite !app_nth2 by (rewrite repeat_length; lia). rewrite !repeat_length.
            assert (NS : forall q (l : list value) w, nth w (skipn q l) ([], []) = nth (q + w) l ([], [])).
            { induction q as [|q IHq]; intros [|a l] w; cbn [skipn Nat.add]; auto; [destruct w; reflexivity|]. rewrite IHq. reflexivity. }
            rewrite !NS. f_equal. lia. }
      pose proof (step_ok s _ _ _ I SP) as K.
      assert (Q : exists m', step s (Reset i) = Ok {| sm := m'; vars := upd (vars s) i empty_buf; given := given s |}).
      { destruct (i_rep _ _ I i) as [v [R _]]; [rewrite app_length, repeat_length, skipn_length; lia|]. cbn [step].
        destruct (reset_spec _ _ _ R) as [m' [ER _]]. rewrite ER. eexists. reflexivity. }
      destruct Q as [m' Q]. rewrite Q in *. destruct (IH _ (S i) K) as [s' [R1 [R2 [R3 R4]]]]; [lia| |exists s'; auto].
      cbn [vars]. apply Forall_forall. intros b Hb. apply In_nth with (d := empty_buf) in Hb. destruct Hb as [j [Hj <-]].
      rewrite firstn_length, upd_length in Hj.
      assert (NF : forall q (l : list buf) w, w < q -> nth w (firstn q l) empty_buf = nth w l empty_buf).
      { induction q as [|q IHq]; intros [|a l] [|w] HH; cbn [firstn nth]; auto; try lia. apply IHq. lia. }
      rewrite NF by lia. rewrite upd_nth by lia. destruct (Nat.eqb_spec j i) as [->|N]; [reflexivity|].
      rewrite Forall_forall in F. apply F. rewrite <- (NF i) by lia. apply nth_In. rewrite firstn_length. lia. }
  rewrite (i_len _ _ I). apply (G (length vs) s 0); auto. constructor.
Qed.
(** Blocks of memory ever handed to or allocated by a buffer. *)
Definition block_at (s : st) (a : nat) (b : block) : Prop := nth_error (heap (sm s)) a = Some b.
(** C42: once all buffers are gone, the live blocks are exactly those handed
    out by release, each handed out once, and every adopted block was passed to
    its own deleter exactly once unless it was handed out. *)
Theorem buffer_memory : forall k os vs, spec_run (repeat ([], []) k) os = Some vs ->
  exists s s', run (start k) os = Ok s /\ finish s = Ok s' /\ NoDup (given s) /\
    (forall a b, block_at s' a b -> (live b = true <-> In a (given s))) /\
    (forall a b d, block_at s' a b -> how b = Ext d ->
       count_occ Nat.eq_dec (callptrs (calls (sm s'))) a = (if live b then 0 else 1) /\ (live b = false -> In (d, Some a) (calls (sm s')))) /\
    (forall a b, block_at s' a b -> how b = ByNew -> ~ In a (callptrs (calls (sm s')))).
Proof.
  intros k os vs H. destruct (run_ok os _ _ _ (inv_start k) H) as [s [E I]]. destruct (finish_ok s vs I) as [s' [EF [I' [G F]]]].
  exists s, s'. split; [exact E|]. split; [exact EF|]. pose proof (i_nodup _ _ I') as ND. pose proof (i_alive _ _ I') as AL. destruct (i_calls _ _ I') as [CN CC].
  assert (P0 : ptrs (vars s') = []).
  { clear - F. induction F as [|b l Hb _ IH]; [reflexivity|]. unfold ptrs in *. cbn [flat_map]. unfold ptr1 at 1. rewrite Hb. exact IH. }
  rewrite P0, G in *. cbn [app] in ND, AL. split; [exact ND|]. split; [|split].
  - intros a b B. rewrite <- AL. unfold alive. unfold block_at in B. rewrite B. split; [intros L; exists b; auto|]. intros [b' [Q L]]. injection Q. intros <-. exact L.
  - intros a b d B HB. unfold block_at in B. destruct (live b) eqn:L.
    + split; [|discriminate]. apply count_occ_not_In. intros C. apply callptrs_in in C. destruct C as [d' C]. apply CC in C. destruct C as [b' [Q [_ L']]].
      rewrite B in Q. injection Q. intros <-. congruence.
    + assert (C : called d a (calls (sm s'))) by (apply CC; exists b; auto). split; [|auto].
      apply NoDup_count_occ'; [exact CN|]. apply callptrs_in. exists d. exact C.
  - intros a b B HB C. unfold block_at in B. apply callptrs_in in C. destruct C as [d C]. apply CC in C. destruct C as [b' [Q [H' _]]].
    rewrite B in Q. injection Q. intros <-. congruence.
Qed.
Print Assumptions buffer_memory.

(** C42, first part of the statement: growing, shrinking and reserving keep the
    common bytes of every buffer, whatever was done before. *)
Theorem buffer_resize_keeps : forall k os i n vs, spec_run (repeat ([], []) k) (os ++ [Resize i (Z.of_nat n)]) = Some vs ->
  exists s s' c c', run (start k) os = Ok s /\ step s (Resize i (Z.of_nat n)) = Ok s' /\ contents s i = Ok c /\ contents s' i = Ok c' /\
    length c' = n /\ firstn (Nat.min n (length c)) c' = firstn (Nat.min n (length c)) c.
Proof.
  intros k os i n vs H.
  assert (SP : exists vs0, spec_run (repeat ([], []) k) os = Some vs0 /\ spec_step vs0 (Resize i (Z.of_nat n)) = Some vs).
  { revert H. generalize (repeat (@nil (option N), @nil (option N)) k). clear. induction os as [|o os IH]; intros v H; cbn [app spec_run] in *.
    - exists v. split; [reflexivity|]. destruct (spec_step v (Resize i (Z.of_nat n))); [exact H|discriminate].
    - destruct (spec_step v o); [apply IH; auto|discriminate]. }
  destruct SP as [vs0 [H0 H1]]. destruct (run_ok os _ _ _ (inv_start k) H0) as [s [E I]]. pose proof (step_ok s vs0 _ vs I H1) as K.
  cbn [spec_step] in H1. destruct (Z.leb_spec 0 (Z.of_nat n)); [|lia]. destruct (Nat.ltb_spec i (length vs0)) as [Hi|]; [|discriminate].
  rewrite Nat2Z.id in H1. injection H1. intros EV. destruct (step s (Resize i (Z.of_nat n))) as [s'| |] eqn:ES; [| |destruct K].
  - destruct (i_rep _ _ I i Hi) as [v [R A]]. destruct (i_rep _ _ K i) as [v' [R' A']]; [rewrite <- EV, upd_length; auto|].
    exists s, s', (fst (abs v)), (fst (abs v')). split; [exact E|]. split; [exact ES|].
    pose proof R as [R1 [_ [R3 _]]]. pose proof R' as [R1' [_ [R3' _]]].
    split; [unfold contents; rewrite R1; exact (load_spec _ _ _ _ R R3)|]. split; [unfold contents; rewrite R1'; exact (load_spec _ _ _ _ R' R3')|].
    assert (AV : abs v' = v_resize n (abs v)).
    { rewrite A', <- EV, A. unfold v_get at 1. rewrite upd_nth, Nat.eqb_refl by auto. reflexivity. }
    rewrite AV. clear AV A A' EV H1 H ES.
    unfold v_resize. rewrite abs_all, abs_len by auto. destruct (Nat.leb_spec n (length (snd v))) as [L|L]; cbn [fst].
    + split; [rewrite firstn_length; lia|]. unfold abs. cbn [fst]. rewrite !firstn_firstn. f_equal. lia.
    + split; [rewrite app_length, abs_len, repeat_length by auto; lia|]. rewrite firstn_app, abs_len by auto.
      replace (Nat.min n (fst v) - fst v) with 0 by lia. rewrite firstn_O, app_nil_r. reflexivity.
  - exfalso. cbn [step] in ES. destruct (i_rep _ _ I i Hi) as [v [R A]]. destruct (resize_spec _ _ _ n R) as [m' [b' [ER _]]]. rewrite ER in ES. discriminate.
Qed.
Print Assumptions buffer_resize_keeps.

(** release() keeps the deleter: it is called again later, on a null pointer, so
    "the deleter runs at most once" is false for an adopted and released buffer. *)
Theorem buffer_release_deleter_refuted : exists os s s', run (start 1) os = Ok s /\ finish s = Ok s' /\
  os = [Adopt 0 [Some 7%N] 3; Release 0; Make 0 2 2; Reset 0] /\ calls (sm s') = [(3, None)].
Proof.
  exists [Adopt 0 [Some 7%N] 3; Release 0; Make 0 2 2; Reset 0]. eexists. eexists. split; [vm_compute; reflexivity|]. split; [vm_compute; reflexivity|].
  split; reflexivity.
Qed.
(** A negative size is accepted by resize and then reported by size(). *)
Theorem buffer_negative_resize_refuted : exists s, run (start 1) [Make 0 4 4; Resize 0 (-1)] = Ok s /\ size (get s 0) = (-1)%Z.
Proof. eexists. split; vm_compute; reflexivity. Qed.
(** Non-vacuity: a program with every kind of statement, its values and calls. *)
Example ex_buffer :
  spec_run (repeat ([], []) 3) [MakeFrom 0 [Some 1%N; Some 2%N; Some 3%N]; Adopt 1 [Some 9%N] 5; Copy 1 0; Resize 0 2; Write 0 1 8; Resize 0 3;
     Move 2 0; Reserve 2 10; Make 0 5 4; Release 1] =
  Some [([], []); ([], []); ([Some 1%N; Some 8%N; Some 3%N], repeat None 7)].
Proof. vm_compute. reflexivity. Qed.
Example ex_buffer_calls :
  match run (start 3) [MakeFrom 0 [Some 1%N; Some 2%N; Some 3%N]; Adopt 1 [Some 9%N] 5; Copy 1 0] with
  | Ok s => calls (sm s) = [(5, Some 1)] | _ => False end.
Proof. vm_compute. reflexivity. Qed.
