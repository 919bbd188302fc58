(** C41: what TSetRetrieve finds after TSetSetup. *)
From Coq Require Import NArith List Bool Arith Lia Permutation.
From Verif Require Import TSetModel TSetProof.
Import ListNotations.
Open Scope nat_scope.

Section Statement.
Variable hmac : list N -> list N -> list N.
Variables sm3 sha : list N -> list N.
Variable p : params.
Notation tuple := (list N * list N)%type (only parsing).
Notation database := (list (list N * list tuple)) (only parsing).

(** Where attempt a of the setup puts the i-th tuple of keyword w: the bucket
    and the label in it. *)
Definition spot (tp : tape) (a : nat) (w : list N) (i : nat) : nat * list N := place hmac sm3 p (stag_of hmac (t_key tp a) w) i.
(** (w, i) is a tuple of the database. *)
Definition stored (db : database) (ws : list (list N)) (w : list N) (i : nat) : Prop :=
  exists ts, In w ws /\ lookup db w = Some ts /\ 1 <= i <= length ts.
(** The hash does not map the i-th tuple of w, in attempt a, to the same spot as
    another stored tuple, a tuple of an earlier attempt or an all-zero label. *)
Definition clear (tp : tape) (a : nat) (db : database) (ws : list (list N)) (w : list N) (i : nat) : Prop :=
  snd (spot tp a w i) <> repeat 0%N (label_size p) /\
  (forall w' i', stored db ws w' i' -> spot tp a w' i' = spot tp a w i -> w' = w /\ i' = i) /\
  (forall a' w' i', a' < a -> stored db ws w' i' -> spot tp a' w' i' <> spot tp a w i).
Definition wellformed (t : tuple) : Prop := length (fst t) = 9 /\ (N.of_nat (length (snd t)) < 2 ^ 32)%N.
(** The number of tuples that key kt sends to bucket b. *)
Definition load (kt : N) (db : database) (ws : list (list N)) (b : nat) : nat :=
  list_sum (map (fun w => match lookup db w with None => 0 | Some ts =>
    length (filter (fun i => fst (place hmac sm3 p (stag_of hmac kt w) i) =? b) (seq 1 (length ts))) end) ws).
Definition roomy (kt : N) db ws : Prop := forall b, b < nb p -> load kt db ws b <= ns p.

Lemma items_count g n b ts : forall i, length (filter (fun d => fst (place_of hmac sm3 p d) =? b) (items g n i ts)) =
  length (filter (fun i => fst (place hmac sm3 p g i) =? b) (seq i (length ts))).
Proof.
  induction ts as [|t ts IH]; intros i; [reflexivity|]. cbn [items length seq filter place_of].
  destruct (fst (place hmac sm3 p g i) =? b); cbn [length]; rewrite IH; reflexivity.
Qed.
Lemma load_count kt db ws b : load kt db ws b = length (filter (fun d => fst (place_of hmac sm3 p d) =? b) (flat_map (kw_items hmac kt db) ws)).
Proof.
  unfold load. induction ws as [|w ws IH]; [reflexivity|]. cbn [map list_sum fold_right flat_map]. rewrite filter_app, app_length, <- IH. unfold list_sum. f_equal.
  unfold kw_items. destruct (lookup db w); [|reflexivity]. symmetry. apply items_count.
Qed.
Lemma roomy_fits kt db ws : roomy kt db ws <-> fits hmac sm3 p kt db ws.
Proof. unfold roomy, fits. split; intros H b HB; specialize (H b HB); rewrite load_count in *; exact H. Qed.
Lemma items_len g n ts : forall i, length (items g n i ts) = length ts.
Proof. induction ts as [|t ts IH]; intros i; [reflexivity|]. cbn [items length]. rewrite IH. reflexivity. Qed.

(** Setup ends in the first attempt whose key overloads no bucket, and in no
    other way when every keyword has an entry. *)
Theorem tset_setup_ends tp db ws fuel : 0 < nb p -> (forall x, length (sm3 x) = 32) -> label_size p <= 32 ->
  (forall w, In w ws -> lookup db w <> None) ->
  (exists s a, setup hmac sm3 sha p fuel tp db ws = Done (t_key tp a) s a /\ a < fuel /\ roomy (t_key tp a) db ws /\ forall k, k < a -> ~ roomy (t_key tp k) db ws) \/
  (setup hmac sm3 sha p fuel tp db ws = StillRunning /\ forall k, k < fuel -> ~ roomy (t_key tp k) db ws).
Proof.
  intros HB S3 HL K. destruct (setup_outcome hmac sm3 sha p S3 HB HL tp db ws fuel K) as [[s [a [E [RA [F U]]]]]|[E U]].
  - left. exists s, a. split; [exact E|]. split; [exact RA|]. split; [apply roomy_fits; exact F|]. intros k Hk C. apply (U k Hk). apply roomy_fits. exact C.
  - right. split; [exact E|]. intros k Hk C. apply (U k Hk). apply roomy_fits. exact C.
Qed.
(** More tuples than slots: setup never returns, whatever keys are drawn. *)
Theorem tset_setup_overfull tp db ws fuel : 0 < nb p -> (forall x, length (sm3 x) = 32) -> label_size p <= 32 ->
  (forall w, In w ws -> lookup db w <> None) ->
  nb p * ns p < list_sum (map (fun w => match lookup db w with Some ts => length ts | None => 0 end) ws) ->
  setup hmac sm3 sha p fuel tp db ws = StillRunning.
Proof.
  intros HB S3 HL K O. destruct (setup_outcome hmac sm3 sha p S3 HB HL tp db ws fuel K) as [[s [a [E [RA [F U]]]]]|[E U]]; [|exact E].
  exfalso. apply (fits_total hmac sm3 p HB HL) in F. assert (X : length (flat_map (kw_items hmac (t_key tp a) db) ws) = list_sum (map (fun w => match lookup db w with Some ts => length ts | None => 0 end) ws)).
  { clear. induction ws as [|w ws IH]; [reflexivity|]. cbn [flat_map map list_sum fold_right]. unfold list_sum in IH. rewrite app_length, IH. f_equal. unfold kw_items. destruct (lookup db w); [apply items_len|reflexivity]. }
  lia.
Qed.
(** A keyword without an entry in the database is undefined behaviour. *)
Theorem tset_setup_missing tp db ws fuel w : In w ws -> lookup db w = None -> setup hmac sm3 sha p (S fuel) tp db ws = Undefined.
Proof.
  intros I L. unfold setup. cbn [setup_loop]. destruct (put_keywords hmac sm3 sha p (t_draw tp 0) (t_key tp 0) db ws (initialize p (fresh p)) false) as [[s r]|] eqn:E; [|reflexivity].
  exfalso. destruct (put_keywords_known hmac sm3 sha p (t_draw tp 0) (t_key tp 0) db ws (initialize p (fresh p)) false) as [_ X].
  apply (X ltac:(congruence) w I L).
Qed.

Lemma stored_in tp a db ws d : In d (flat_map (kw_items hmac (t_key tp a) db) ws) ->
  exists w ts i t, In w ws /\ lookup db w = Some ts /\ 1 <= i <= length ts /\ nth_error ts (i - 1) = Some t /\ d = (stag_of hmac (t_key tp a) w, i, length ts, t).
Proof.
  intros H. apply in_flat_map in H. destruct H as [w [Hw Hd]]. unfold kw_items in Hd. destruct (lookup db w) as [ts|] eqn:L; [|destruct Hd].
  apply items_in in Hd. destruct Hd as [i [t [-> [R E]]]]. exists w, ts, i, t. split; [exact Hw|]. split; [exact L|]. split; [lia|]. split; [exact E|reflexivity].
Qed.
Lemma clear_old tp a db ws w i : clear tp a db ws w i -> ~ known hmac sm3 p db ws tp a (fst (spot tp a w i)) (snd (spot tp a w i)).
Proof.
  intros [C0 [_ C2]] [Z|[a' [w' [ts [i' [A [I [L [R P]]]]]]]]]; [auto|].
  apply (C2 a' w' i' A). { exists ts. auto. } unfold spot at 1. rewrite P. symmetry. apply surjective_pairing.
Qed.
(** The tuples of a keyword come back complete and in order, up to the hundredth. *)
Theorem tset_retrieve tp db ws fuel kt s a : 0 < nb p -> (forall x, length (sm3 x) = 32) -> (forall x, length (sha x) = 32) -> label_size p <= 32 ->
  NoDup ws -> (forall w ts, In w ws -> lookup db w = Some ts -> Forall wellformed ts) ->
  setup hmac sm3 sha p fuel tp db ws = Done kt s a ->
  (forall w i, stored db ws w i -> clear tp a db ws w i) ->
  forall w ts, In w ws -> lookup db w = Some ts -> ts <> [] ->
  retrieve hmac sm3 sha p (tab s) (get_tag hmac kt w) = Some (firstn 100 ts).
Proof.
  intros HB S3 SH HL ND WF E CL w ts IW LW NE.
  destruct (setup_done hmac sm3 sha p S3 HB HL tp db ws fuel kt s a E) as [-> [D [I PM]]].
  assert (INJ : forall d d', In d D -> In d' D -> place_of hmac sm3 p d = place_of hmac sm3 p d' -> d = d').
  { intros d d' Hd Hd' P. apply (Permutation_in _ PM) in Hd. apply (Permutation_in _ PM) in Hd'. apply stored_in in Hd. apply stored_in in Hd'.
    destruct Hd as [w1 [t1 [i1 [x1 [A1 [B1 [C1 [D1 ->]]]]]]]]. destruct Hd' as [w2 [t2 [i2 [x2 [A2 [B2 [C2 [D2 ->]]]]]]]]. cbn [place_of] in P.
    destruct (CL w2 i2 ltac:(exists t2; auto)) as [_ [U _]]. destruct (U w1 i1 ltac:(exists t1; auto) P) as [-> ->]. congruence. }
  assert (NDD : NoDup D).
  { apply (Permutation_NoDup (Permutation_sym PM)). clear - ND CL. 
    assert (G : forall l, NoDup l -> incl l ws -> NoDup (flat_map (kw_items hmac (t_key tp a) db) l)); [|apply G; [exact ND|apply incl_refl]].
    induction 1 as [|x l Hx Hl IH]; intros IN; [constructor|]. cbn [flat_map].
    assert (GI : forall g n ts i, NoDup (items g n i ts)).
    { intros g n. induction ts as [|t ts IHt]; intros i; cbn [items]; constructor; [|apply IHt]. intros C. apply items_in in C. destruct C as [j [t' [C [R _]]]]. injection C. intros. lia. }
    assert (AP : forall l1 l2 : list (list N * nat * nat * (list N * list N)), NoDup l1 -> NoDup l2 -> (forall x, In x l1 -> ~ In x l2) -> NoDup (l1 ++ l2)).
    { induction l1 as [|y l1 IH1]; intros l2 N1 N2 DJ; [exact N2|]. inversion N1 as [|? ? Y1 Y2]. cbn [app]. constructor.
      - rewrite in_app_iff. intros [C|C]; [auto|]. apply (DJ y); [left; auto|exact C].
      - apply IH1; auto. intros z Hz. apply DJ. right. exact Hz. }
    apply AP; [unfold kw_items; destruct (lookup db x); [apply GI|constructor]|apply IH; intros y Hy; apply IN; right; exact Hy|].
    intros d Hd Hd2. assert (Hd1 : In d (flat_map (kw_items hmac (t_key tp a) db) [x])) by (cbn [flat_map]; rewrite app_nil_r; exact Hd).
    apply stored_in in Hd1. apply stored_in in Hd2. destruct Hd1 as [w1 [t1 [i1 [x1 [A1 [B1 [C1 [D1 ->]]]]]]]]. destruct Hd2 as [w2 [t2 [i2 [x2 [A2 [B2 [C2 [D2 Q]]]]]]]].
    injection Q as Q1 Q2 Q3 Q4. destruct A1 as [<-|[]]. subst i2.
    destruct (CL w2 i1) as [_ [U _]]. { exists t2. split; [apply IN; right; exact A2|]. auto. }
    destruct (U x i1) as [-> _]; [exists t1; split; [apply IN; left; reflexivity|auto]|unfold spot; rewrite Q1; reflexivity|]. contradiction. }
  assert (SUB : incl (items (stag_of hmac (t_key tp a) w) (length ts) 1 ts) D).
  { intros d Hd. apply (Permutation_in _ (Permutation_sym PM)). apply in_flat_map. exists w. split; [exact IW|]. unfold kw_items. rewrite LW. exact Hd. }
  unfold retrieve. change (get_tag hmac (t_key tp a) w) with (stag_of hmac (t_key tp a) w).
  rewrite (retrieve_from hmac sm3 sha p SH HB HL (known hmac sm3 p db ws tp a) D s _ ts I NDD SUB).
  - rewrite skipn_O. reflexivity.
  - apply (WF w ts IW LW).
  - destruct ts; [contradiction|cbn [length]; lia].
  - intros i Hi _. apply (clear_old tp a db ws w i). apply CL. exists ts. auto.
  - intros d i n t Hd Ht _ _ P. apply INJ; auto.
Qed.
Corollary tset_retrieve_all tp db ws fuel kt s a : 0 < nb p -> (forall x, length (sm3 x) = 32) -> (forall x, length (sha x) = 32) -> label_size p <= 32 ->
  NoDup ws -> (forall w ts, In w ws -> lookup db w = Some ts -> Forall wellformed ts) ->
  setup hmac sm3 sha p fuel tp db ws = Done kt s a ->
  (forall w i, stored db ws w i -> clear tp a db ws w i) ->
  forall w ts, In w ws -> lookup db w = Some ts -> 1 <= length ts <= 100 ->
  retrieve hmac sm3 sha p (tab s) (get_tag hmac kt w) = Some ts.
Proof.
  intros HB S3 SH HL ND WF E CL w ts IW LW L. rewrite (tset_retrieve tp db ws fuel kt s a HB S3 SH HL ND WF E CL w ts IW LW).
  - rewrite firstn_all2 by lia. reflexivity.
  - intros ->. cbn [length] in L. lia.
Qed.
(** The claim without the bound is false of every such database with a keyword
    of more than a hundred tuples: the rest is dropped silently. *)
Corollary tset_retrieve_over_100_refuted tp db ws fuel kt s a : 0 < nb p -> (forall x, length (sm3 x) = 32) -> (forall x, length (sha x) = 32) -> label_size p <= 32 ->
  NoDup ws -> (forall w ts, In w ws -> lookup db w = Some ts -> Forall wellformed ts) ->
  setup hmac sm3 sha p fuel tp db ws = Done kt s a ->
  (forall w i, stored db ws w i -> clear tp a db ws w i) ->
  forall w ts, In w ws -> lookup db w = Some ts -> 100 < length ts ->
  exists r, retrieve hmac sm3 sha p (tab s) (get_tag hmac kt w) = Some r /\ length r = 100 /\ r <> ts.
Proof.
  intros HB S3 SH HL ND WF E CL w ts IW LW L. exists (firstn 100 ts). split.
  - apply (tset_retrieve tp db ws fuel kt s a HB S3 SH HL ND WF E CL w ts IW LW). intros ->. cbn [length] in L. lia.
  - assert (X : length (firstn 100 ts) = 100) by (rewrite firstn_length; lia). split; [exact X|]. intros C. rewrite C in X. lia.
Qed.
(** A keyword that is absent, or has no tuples, yields nothing. *)
Theorem tset_retrieve_absent tp db ws fuel kt s a : 0 < nb p -> (forall x, length (sm3 x) = 32) -> label_size p <= 32 ->
  setup hmac sm3 sha p fuel tp db ws = Done kt s a ->
  forall w, ~ In w ws \/ lookup db w = Some [] -> (forall i, 1 <= i <= 100 -> clear tp a db ws w i) ->
  retrieve hmac sm3 sha p (tab s) (get_tag hmac kt w) = Some [].
Proof.
  intros HB S3 HL E w AB CL. destruct (setup_done hmac sm3 sha p S3 HB HL tp db ws fuel kt s a E) as [-> [D [I PM]]].
  unfold retrieve. change (get_tag hmac (t_key tp a) w) with (stag_of hmac (t_key tp a) w).
  apply (retrieve_none hmac sm3 sha p S3 HB HL (known hmac sm3 p db ws tp a) D s _ I).
  - intros b l [->|[a1 [w1 [ts [i [_ [_ [_ [_ PL]]]]]]]]]; [apply repeat_length|]. pose proof (place_label hmac sm3 p S3 HB HL (stag_of hmac (t_key tp a1) w1) i) as PL2. rewrite PL in PL2. exact PL2.
  - intros i Hi. specialize (CL i ltac:(lia)). split; [apply (clear_old tp a db ws w i CL)|].
    intros d Hd P. apply (Permutation_in _ PM) in Hd. apply stored_in in Hd. destruct Hd as [w1 [t1 [i1 [x1 [A1 [B1 [C1 [D1 ->]]]]]]]]. cbn [place_of] in P.
    destruct CL as [_ [U _]]. destruct (U w1 i1 ltac:(exists t1; auto) P) as [-> ->]. destruct AB as [AB|AB]; [contradiction|]. rewrite AB in B1. injection B1 as <-. cbn [length] in C1. lia.
Qed.
End Statement.
(** Packing is undone by unpacking for nine-byte identifiers only. *)
Theorem tset_unpack_pack t : wellformed t -> unpack (pack t) = Some t.
Proof. intros [A B]. apply unpack_pack; auto. Qed.
Theorem tset_unpack_10_bytes_refuted : exists t : list N * list N, length (fst t) = 10 /\ unpack (pack t) <> Some t.
Proof. exists (repeat 1%N 10, [7; 8; 9]%N). split; [reflexivity|]. vm_compute. discriminate. Qed.
(** The string of a byte vector does not determine it, so hashes that differ can
    give the same tag. *)
Theorem tset_vector_to_string_injective_refuted : exists v w : list N, length v = length w /\ v <> w /\ vec_to_string v = vec_to_string w.
Proof. exists [1; 11]%N, [11; 1]%N. split; [reflexivity|]. split; [discriminate|reflexivity]. Qed.

(** ** Example
    Key 0 sends all tuples to one bucket, so the setup starts again. *)
Definition toy_hmac (k m : list N) : list N := match k with [] => [] | [48]%N => [] | _ => k ++ m end.
Definition toy_hash (x : list N) : list N := firstn 32 (x ++ repeat 0%N 32).
Definition toy_p : params := {| nb := 3; ns := 2; lambda := 128 |}.
Definition toy_db : list (list N * list (list N * list N)) := [([97], [(repeat 1 9%nat, [10]); (repeat 2 9%nat, [20; 21])]); ([98], [(repeat 3 9%nat, [])])]%N.
Definition toy_ws : list (list N) := [[97]; [98]]%N.
Definition toy_tape : tape := {| t_key := N.of_nat; t_draw := fun _ _ => 1%N |}.
Lemma toy_hash_length x : length (toy_hash x) = 32.
Proof. unfold toy_hash. rewrite firstn_length, app_length, repeat_length. lia. Qed.
Lemma toy_stored w i : stored toy_db toy_ws w i -> (w, i) = ([97]%N, 1) \/ (w, i) = ([97]%N, 2) \/ (w, i) = ([98]%N, 1).
Proof.
  intros [ts [I [L R]]]. destruct I as [<-|[<-|[]]]; injection L as <-; cbn [length] in R.
  - destruct i as [|[|[|i]]]; try lia; auto.
  - destruct i as [|[|i]]; try lia; auto.
Qed.
Lemma toy_clear w i : stored toy_db toy_ws w i -> clear toy_hmac toy_hash toy_p toy_tape 1 toy_db toy_ws w i.
Proof.
  intros H. apply toy_stored in H. split; [|split].
  - destruct H as [E|[E|E]]; injection E as -> ->; vm_compute; discriminate.
  - intros w' i' H' Q. apply toy_stored in H'. destruct H as [E|[E|E]]; injection E as -> ->; destruct H' as [E|[E|E]]; injection E as -> ->; vm_compute in Q; try discriminate; auto.
  - intros a' w' i' A H'. destruct a' as [|a']; [|lia]. apply toy_stored in H'. destruct H as [E|[E|E]]; injection E as -> ->; destruct H' as [E|[E|E]]; injection E as -> ->; vm_compute; discriminate.
Qed.
Example toy_setup : exists s, setup toy_hmac toy_hash toy_hash toy_p 5 toy_tape toy_db toy_ws = Done 1 s 1.
Proof. eexists. vm_compute. reflexivity. Qed.
Example toy_retrieve : exists s, setup toy_hmac toy_hash toy_hash toy_p 5 toy_tape toy_db toy_ws = Done 1 s 1 /\
  retrieve toy_hmac toy_hash toy_hash toy_p (tab s) (get_tag toy_hmac 1 [97]%N) = Some [(repeat 1%N 9, [10]%N); (repeat 2%N 9, [20; 21]%N)].
Proof.
  destruct toy_setup as [s E]. exists s. split; [exact E|]. apply (tset_retrieve_all toy_hmac toy_hash toy_hash toy_p toy_tape toy_db toy_ws 5 1 s 1).
  - cbn; lia.
  - exact toy_hash_length.
  - exact toy_hash_length.
  - cbn; lia.
  - repeat constructor; cbn; intuition discriminate.
  - intros w ts I L. destruct I as [<-|[<-|[]]]; injection L as <-; repeat constructor.
  - exact E.
  - exact toy_clear.
  - left; reflexivity.
  - reflexivity.
  - cbn; lia.
Qed.
(** Seven tuples do not fit in three buckets of two. *)
Example toy_overfull tp fuel : setup toy_hmac toy_hash toy_hash toy_p fuel tp [([97]%N, repeat (repeat 1%N 9, []) 7)] [[97]%N] = StillRunning.
Proof.
  apply tset_setup_overfull; [cbn; lia|exact toy_hash_length|cbn; lia|intros w [<-|[]]; discriminate|cbn; lia].
Qed.

Print Assumptions tset_setup_ends.
Print Assumptions tset_setup_overfull.
Print Assumptions tset_setup_missing.
Print Assumptions tset_retrieve.
Print Assumptions tset_retrieve_all.
Print Assumptions tset_retrieve_over_100_refuted.
Print Assumptions tset_retrieve_absent.
Print Assumptions tset_unpack_pack.
Print Assumptions tset_unpack_10_bytes_refuted.
Print Assumptions tset_vector_to_string_injective_refuted.
