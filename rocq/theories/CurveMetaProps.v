(* Properties of curve lookup and of the choice of the elliptic curve library:
   CurveMetaModel. *)
From Coq Require Import ZArith Ascii String List Arith Bool Lia.
From Verif Require Import LinCodeModel SpiModel SpiProps CurveMetaModel.
Import ListNotations.
Local Open Scope nat_scope.

(* ---- Spelling ---- *)

(* Two bytes that are equal or the two cases of one ASCII letter. *)
Definition same_char (c d : ascii) : Prop :=
  c = d \/
  exists n, (65 <= n <= 90)%N /\
    ((N_of_ascii c = n /\ N_of_ascii d = n + 32) \/
     (N_of_ascii d = n /\ N_of_ascii c = n + 32))%N.
Fixpoint same_spelling (s t : string) : Prop :=
  match s, t with
  | EmptyString, EmptyString => True
  | String c s', String d t' => same_char c d /\ same_spelling s' t'
  | _, _ => False
  end.

Lemma code_inj c d : N_of_ascii c = N_of_ascii d -> c = d.
Proof.
  intros H. rewrite <- (ascii_N_embedding c), <- (ascii_N_embedding d), H. reflexivity.
Qed.

Lemma lower_code c :
  N_of_ascii (CurveMetaModel.lower_char c) =
  (if ((65 <=? N_of_ascii c) && (N_of_ascii c <=? 90))%N
   then N_of_ascii c + 32 else N_of_ascii c)%N.
Proof.
  unfold CurveMetaModel.lower_char. cbv zeta.
  destruct ((65 <=? N_of_ascii c)%N && (N_of_ascii c <=? 90)%N) eqn:E; [|reflexivity].
  apply andb_prop in E. destruct E as [_ E]. apply N.leb_le in E.
  apply N_ascii_embedding. lia.
Qed.

Lemma lower_char_same c d :
  CurveMetaModel.lower_char c = CurveMetaModel.lower_char d <-> same_char c d.
Proof.
  split.
  - intros H. assert (E := f_equal N_of_ascii H). rewrite !lower_code in E.
    unfold same_char.
    destruct ((65 <=? N_of_ascii c)%N && (N_of_ascii c <=? 90)%N) eqn:C;
    destruct ((65 <=? N_of_ascii d)%N && (N_of_ascii d <=? 90)%N) eqn:D;
    rewrite ?andb_true_iff, ?andb_false_iff, ?N.leb_le, ?N.leb_gt in C;
    rewrite ?andb_true_iff, ?andb_false_iff, ?N.leb_le, ?N.leb_gt in D.
    + left. apply code_inj. lia.
    + right. exists (N_of_ascii c). lia.
    + right. exists (N_of_ascii d). lia.
    + left. apply code_inj. exact E.
  - intros [-> | (n & Hn & H)]; [reflexivity|].
    apply code_inj. rewrite !lower_code.
    destruct ((65 <=? N_of_ascii c)%N && (N_of_ascii c <=? 90)%N) eqn:C;
    destruct ((65 <=? N_of_ascii d)%N && (N_of_ascii d <=? 90)%N) eqn:D;
    rewrite ?andb_true_iff, ?andb_false_iff, ?N.leb_le, ?N.leb_gt in C;
    rewrite ?andb_true_iff, ?andb_false_iff, ?N.leb_le, ?N.leb_gt in D; lia.
Qed.

Lemma lower_same s : forall t, lower_str s = lower_str t <-> same_spelling s t.
Proof.
  induction s as [|c s IH]; intros [|d t]; cbn [lower_str same_spelling];
    try (split; [discriminate|tauto]); [tauto|].
  rewrite <- lower_char_same, <- IH. split.
  - intros H. injection H as H1 H2. auto.
  - intros [-> ->]. reflexivity.
Qed.

(* ---- The map ---- *)

Definition names (m : meta) : list string := m_name m :: m_aliases m.
Definition lists (m : meta) (n : string) : Prop :=
  exists k, In k (names m) /\ same_spelling k n.
Definition first_listing (tbl : list meta) (n : string) (m : meta) : Prop :=
  exists l1 l2, tbl = l1 ++ m :: l2 /\ lists m n /\
                Forall (fun m' => ~ lists m' n) l1.
Definition agree (a b : meta) : Prop :=
  m_form a = m_form b /\ m_field a = m_field b /\ m_bits a = m_bits b.
Definition consistent (tbl : list meta) : Prop :=
  forall a b n, In a tbl -> In b tbl -> lists a n -> lists b n -> agree a b.

Lemma equivalent_iff a b : is_equivalent a b = true <-> agree a b.
Proof.
  unfold is_equivalent, agree. rewrite !andb_true_iff, N.eqb_eq.
  assert (F : form_eqb (m_form a) (m_form b) = true <-> m_form a = m_form b).
  { destruct (m_form a), (m_form b); cbn; split; congruence. }
  assert (G : field_eqb (m_field a) (m_field b) = true <-> m_field a = m_field b).
  { destruct (m_field a), (m_field b); cbn; split; congruence. }
  tauto.
Qed.

Lemma agree_refl a : agree a a.
Proof. unfold agree. auto. Qed.

Definition keys_of (m : meta) : cmap := map (fun n => (lower_str n, m)) (names m).
Definition flat (tbl : list meta) : cmap := flat_map keys_of tbl.

Fixpoint ins_flat (res l : cmap) : outcome cmap :=
  match l with
  | [] => Val res
  | (k, m) :: l' =>
      bind (match cfind k res with
            | None => Val (res ++ [(k, m)])
            | Some m' => if is_equivalent m' m then Val res else Thrown
            end) (fun res' => ins_flat res' l')
  end.

Lemma ins_flat_app l1 : forall res l2,
  ins_flat res (l1 ++ l2) = bind (ins_flat res l1) (fun r => ins_flat r l2).
Proof.
  induction l1 as [|[k m] l1 IH]; intros res l2; [reflexivity|].
  cbn [app ins_flat].
  destruct (cfind k res) as [m'|].
  - destruct (is_equivalent m' m); cbn [bind]; [apply IH|reflexivity].
  - cbn [bind]. apply IH.
Qed.

Lemma insert_all_flat ns m : forall res,
  insert_all res ns m = ins_flat res (map (fun n => (lower_str n, m)) ns).
Proof.
  induction ns as [|n ns IH]; intros res; [reflexivity|].
  cbn [insert_all map ins_flat]. unfold insert_name. cbv zeta.
  destruct (cfind (lower_str n) res) as [m'|].
  - destruct (is_equivalent m' m); cbn [bind]; [apply IH|reflexivity].
  - cbn [bind]. apply IH.
Qed.

Lemma build_flat tbl : forall res, build_from res tbl = ins_flat res (flat tbl).
Proof.
  induction tbl as [|m tbl IH]; intros res; [reflexivity|].
  cbn [build_from flat flat_map]. rewrite ins_flat_app.
  change (keys_of m)
    with ((lower_str (m_name m), m) :: map (fun n => (lower_str n, m)) (m_aliases m)).
  cbn [ins_flat]. unfold insert_name. cbv zeta.
  assert (K : forall r, bind (insert_all r (m_aliases m) m) (fun res2 => build_from res2 tbl)
              = bind (ins_flat r (map (fun n => (lower_str n, m)) (m_aliases m)))
                     (fun r' => ins_flat r' (flat tbl))).
  { intros r. rewrite insert_all_flat.
    destruct (ins_flat r _); cbn [bind]; [apply IH|reflexivity..]. }
  destruct (cfind (lower_str (m_name m)) res) as [m'|]; cbn [bind].
  - destruct (is_equivalent m' m); cbn [bind]; [apply K|reflexivity].
  - apply K.
Qed.

Lemma cfind_app k a b :
  cfind k (a ++ b) = match cfind k a with Some m => Some m | None => cfind k b end.
Proof.
  induction a as [|[k' m] a IH]; [reflexivity|].
  cbn [app cfind]. destruct (String.eqb k k'); [reflexivity|exact IH].
Qed.

Lemma ins_flat_spec l : forall res,
  (exists res', ins_flat res l = Val res' /\
     (forall k, cfind k res' = cfind k (res ++ l)) /\
     (forall k m, In (k, m) l -> exists m', cfind k (res ++ l) = Some m' /\ agree m' m)) \/
  (ins_flat res l = Thrown /\
     exists k m m', In (k, m) l /\ cfind k (res ++ l) = Some m' /\ ~ agree m' m).
Proof.
  induction l as [|[k m] l IH]; intros res.
  - left. exists res. split; [reflexivity|].
    split; [intros k; rewrite app_nil_r; reflexivity|intros k m []].
  - cbn [ins_flat]. destruct (cfind k res) as [m'|] eqn:F.
    + assert (Same : forall k', cfind k' (res ++ (k, m) :: l) = cfind k' (res ++ l)).
      { intros k'. rewrite !cfind_app. destruct (cfind k' res) eqn:F'; [reflexivity|].
        cbn [cfind]. destruct (String.eqb k' k) eqn:E; [|reflexivity].
        apply String.eqb_eq in E. congruence. }
      destruct (is_equivalent m' m) eqn:Q; cbn [bind].
      * apply equivalent_iff in Q.
        destruct (IH res) as [(res' & R & C & A) | (R & k0 & m0 & m1 & H1 & H2 & H3)].
        { left. exists res'. split; [exact R|]. split.
          - intros k'. rewrite Same. apply C.
          - intros k' m0 [E | H].
            + injection E as <- <-. exists m'. rewrite cfind_app, F. auto.
            + rewrite Same. apply A. exact H. }
        { right. split; [exact R|]. exists k0, m0, m1. rewrite Same.
          split; [right; exact H1|auto]. }
      * right. split; [reflexivity|]. exists k, m, m'.
        split; [left; reflexivity|]. rewrite cfind_app, F.
        split; [reflexivity|]. rewrite <- equivalent_iff, Q. discriminate.
    + cbn [bind].
      assert (Same : (res ++ [(k, m)]) ++ l = res ++ (k, m) :: l)
        by (rewrite <- app_assoc; reflexivity).
      destruct (IH (res ++ [(k, m)])) as [(res' & R & C & A) | (R & k0 & m0 & m1 & H1 & H2 & H3)];
        rewrite Same in *.
      * left. exists res'. split; [exact R|]. split; [exact C|].
        intros k' m0 [E | H]; [|apply A; exact H].
        injection E as <- <-. exists m. rewrite cfind_app, F. cbn [cfind].
        rewrite String.eqb_refl. split; [reflexivity|apply agree_refl].
      * right. split; [exact R|]. exists k0, m0, m1. split; [right; exact H1|auto].
Qed.

Lemma in_keys k m m' : In (k, m') (keys_of m) <->
  m' = m /\ exists n, In n (names m) /\ lower_str n = k.
Proof.
  unfold keys_of. rewrite in_map_iff. split.
  - intros (n & E & H). injection E as <- <-. eauto.
  - intros (-> & n & H & <-). eauto.
Qed.

Lemma in_flat k m tbl : In (k, m) (flat tbl) <->
  In m tbl /\ exists n, In n (names m) /\ lower_str n = k.
Proof.
  unfold flat. rewrite in_flat_map. split.
  - intros (m' & H & K). apply in_keys in K. destruct K as (<- & K). auto.
  - intros (H & K). exists m. rewrite in_keys. auto.
Qed.

Lemma cfind_in k l m : cfind k l = Some m -> In (k, m) l.
Proof.
  induction l as [|[k' m'] l IH]; cbn [cfind]; [discriminate|].
  destruct (String.eqb k k') eqn:E.
  - apply String.eqb_eq in E. intros H. injection H as <-. left. congruence.
  - intros H. right. apply IH. exact H.
Qed.

Lemma cfind_none k l : cfind k l = None <-> forall m, ~ In (k, m) l.
Proof.
  induction l as [|[k' m'] l IH]; cbn [cfind In]; [split; [auto|reflexivity]|].
  destruct (String.eqb k k') eqn:E.
  - apply String.eqb_eq in E. subst k'. split; [discriminate|].
    intros H. exfalso. apply (H m'). auto.
  - apply String.eqb_neq in E. rewrite IH. split.
    + intros H m [Q | Q]; [congruence|exact (H _ Q)].
    + intros H m Q. apply (H m). auto.
Qed.

Lemma lists_key m n : lists m n <-> exists k, In k (names m) /\ lower_str k = lower_str n.
Proof.
  unfold lists. split; intros (k & H & E); exists k; (split; [exact H|]);
    apply lower_same; exact E.
Qed.

(* The map answers with the first entry that lists the name. *)
Lemma cfind_flat tbl n m :
  cfind (lower_str n) (flat tbl) = Some m <-> first_listing tbl n m.
Proof.
  induction tbl as [|a tbl IH]; unfold flat; cbn [flat_map].
  - split; [discriminate|]. intros (l1 & l2 & E & _). destruct l1; discriminate.
  - fold (flat tbl). rewrite cfind_app.
    destruct (cfind (lower_str n) (keys_of a)) as [m'|] eqn:F.
    + assert (L : lists a n /\ m' = a).
      { apply cfind_in, in_keys in F. destruct F as (-> & k & H & E).
        split; [|reflexivity]. apply lists_key. eauto. }
      destruct L as [L ->]. split.
      * intros H. injection H as <-. exists [], tbl. auto.
      * intros (l1 & l2 & E & Hm & Hf). destruct l1 as [|b l1].
        { injection E as <- _. reflexivity. }
        injection E as <- _. inversion Hf as [|x y Hx Hy]; subst. contradiction.
    + assert (L : ~ lists a n).
      { rewrite cfind_none in F. intros H. apply lists_key in H.
        destruct H as (k & H & E). apply (F a). rewrite in_keys. eauto. }
      rewrite IH. split.
      * intros (l1 & l2 & -> & Hm & Hf). exists (a :: l1), l2.
        split; [reflexivity|]. split; [exact Hm|constructor; assumption].
      * intros (l1 & l2 & E & Hm & Hf). destruct l1 as [|b l1].
        { injection E as -> _. contradiction. }
        injection E as <- ->. inversion Hf as [|x y Hx Hy]; subst.
        exists l1, l2. auto.
Qed.

Lemma cfind_flat_none tbl n :
  cfind (lower_str n) (flat tbl) = None <-> forall m, In m tbl -> ~ lists m n.
Proof.
  rewrite cfind_none. split.
  - intros H m Hm L. apply lists_key in L. apply (H m). apply in_flat. auto.
  - intros H m Q. apply in_flat in Q. destruct Q as (Hm & K).
    apply (H m Hm). apply lists_key. exact K.
Qed.

(* The map can be built exactly when entries that share a name agree. *)
Theorem build_map_iff tbl :
  (exists mp, build_map tbl = Val mp) <-> consistent tbl.
Proof.
  unfold build_map. rewrite build_flat. split.
  - intros (mp & E).
    destruct (ins_flat_spec (flat tbl) []) as [(res' & R & C & A) | (R & _)];
      [|rewrite R in E; discriminate].
    cbn [app] in A. intros a b n Ha Hb La Lb.
    apply lists_key in La. apply lists_key in Lb.
    destruct (A (lower_str n) a) as (m1 & F1 & A1); [apply in_flat; auto|].
    destruct (A (lower_str n) b) as (m2 & F2 & A2); [apply in_flat; auto|].
    assert (m1 = m2) by congruence. subst m2.
    unfold agree in *. destruct A1 as (? & ? & ?), A2 as (? & ? & ?).
    repeat split; congruence.
  - intros HC.
    destruct (ins_flat_spec (flat tbl) []) as [(res' & R & _) | (R & k & m & m' & H1 & H2 & H3)];
      [eauto|]. exfalso. apply H3. cbn [app] in H2.
    apply cfind_in in H2. apply in_flat in H1, H2.
    destruct H1 as (I1 & n1 & N1 & E1), H2 as (I2 & n2 & N2 & E2).
    apply (HC m' m n1); [assumption..| |]; apply lists_key; [exists n2|exists n1];
      (split; [assumption|congruence]).
Qed.

(* What a lookup answers, on any table. *)
Theorem get_meta_correct tbl n :
  (consistent tbl ->
     (forall m, get_meta_by_name tbl n = Val m <-> first_listing tbl n m) /\
     (get_meta_by_name tbl n = Thrown <-> forall m, In m tbl -> ~ lists m n)) /\
  (~ consistent tbl -> get_meta_by_name tbl n = Thrown).
Proof.
  assert (B := build_map_iff tbl). revert B.
  unfold get_meta_by_name, build_map. rewrite build_flat.
  destruct (ins_flat_spec (flat tbl) []) as [(res' & R & C & _) | (R & _)]; rewrite R; intros B.
  - cbn [bind]. rewrite C. cbn [app]. split; [intros _|].
    + split.
      * intros m. rewrite <- cfind_flat.
        destruct (cfind (lower_str n) (flat tbl)); split; congruence.
      * rewrite <- cfind_flat_none.
        destruct (cfind (lower_str n) (flat tbl)); split; congruence.
    + intros H. exfalso. apply H. apply B. eauto.
  - cbn [bind]. split; [|reflexivity].
    intros H. apply B in H. destruct H as (mp & H). discriminate.
Qed.

(* The case of the letters does not matter. *)
Theorem get_meta_spelling tbl n n' :
  same_spelling n n' -> get_meta_by_name tbl n = get_meta_by_name tbl n'.
Proof.
  intros H. unfold get_meta_by_name. apply lower_same in H. rewrite H. reflexivity.
Qed.

(* ---- The table of the repository ---- *)

Definition meta_eqb (a b : meta) : bool :=
  String.eqb (m_name a) (m_name b)
  && (if list_eq_dec String.string_dec (m_aliases a) (m_aliases b) then true else false)
  && is_equivalent a b.
Lemma meta_eqb_eq a b : meta_eqb a b = true -> a = b.
Proof.
  unfold meta_eqb. rewrite !andb_true_iff, String.eqb_eq, equivalent_iff.
  destruct (list_eq_dec _ _ _) as [E|]; [|intros [[_ H] _]; discriminate].
  intros [[H _] (F & G & B)]. destruct a, b; cbn in *; congruence.
Qed.

Definition resolves_to (mp : cmap) (r : meta) (n : string) : bool :=
  match cfind (lower_str n) mp with Some r' => meta_eqb r r' | None => false end.
Definition entry_ok (mp : cmap) (m : meta) : bool :=
  match cfind (lower_str (m_name m)) mp with
  | Some r => resolves_to mp r (m_name r) && forallb (resolves_to mp r) (m_aliases m)
  | None => false
  end.
Definition openssl_misses : list string :=
  ["c2pnb176v1"; "Oakley Group 3"; "Oakley Group 4"]%string.
Definition served (mp : cmap) (keys : list string) (k : string) : bool :=
  match cfind (lower_str k) mp with Some r => mem (lower_name r) keys | None => false end.

Definition table_ok (tbl : list meta) : bool :=
  match build_map tbl with
  | Val mp =>
      forallb (entry_ok mp) tbl
      && forallb (fun k => mem k openssl_misses || served mp openssl_curves k) openssl_curves
      && forallb (served mp mcl_curves) mcl_curves
      && forallb (served mp sodium_curves) sodium_curves
      && forallb (served mp lib25519_curves) lib25519_curves
      && forallb (served mp toy_curves) toy_curves
      && forallb (served mp ["fourq"]%string) ["fourq"]%string
      && forallb (fun m => implb (mem (lower_name m) toy_curves)
           (Bool.eqb (form_eqb (m_form m) Montgomery)
                     (String.eqb (lower_name m) "curve25519"))) tbl
  | _ => false
  end.
Lemma table_ok_true : table_ok predefined_curves = true.
Proof. vm_compute. reflexivity. Qed.

Lemma table_parts_of tbl : table_ok tbl = true -> exists mp,
  build_map tbl = Val mp /\
  forallb (entry_ok mp) tbl = true /\
  forallb (fun k => mem k openssl_misses || served mp openssl_curves k) openssl_curves = true /\
  forallb (served mp mcl_curves) mcl_curves = true /\
  forallb (served mp sodium_curves) sodium_curves = true /\
  forallb (served mp lib25519_curves) lib25519_curves = true /\
  forallb (served mp toy_curves) toy_curves = true /\
  forallb (served mp ["fourq"]%string) ["fourq"]%string = true /\
  forallb (fun m => implb (mem (lower_name m) toy_curves)
           (Bool.eqb (form_eqb (m_form m) Montgomery)
                     (String.eqb (lower_name m) "curve25519"))) tbl = true.
Proof.
  unfold table_ok. intros T.
  destruct (build_map tbl) as [mp| | |]; [|discriminate T..].
  exists mp. split; [reflexivity|].
  rewrite !andb_true_iff in T.
  destruct T as [[[[[[[T1 T2] T3] T4] T5] T6] T7] T8].
  exact (conj T1 (conj T2 (conj T3 (conj T4 (conj T5 (conj T6 (conj T7 T8))))))).
Qed.

Lemma table_parts : exists mp,
  build_map predefined_curves = Val mp /\
  forallb (entry_ok mp) predefined_curves = true /\
  forallb (fun k => mem k openssl_misses || served mp openssl_curves k) openssl_curves = true /\
  forallb (served mp mcl_curves) mcl_curves = true /\
  forallb (served mp sodium_curves) sodium_curves = true /\
  forallb (served mp lib25519_curves) lib25519_curves = true /\
  forallb (served mp toy_curves) toy_curves = true /\
  forallb (served mp ["fourq"]%string) ["fourq"]%string = true /\
  forallb (fun m => implb (mem (lower_name m) toy_curves)
           (Bool.eqb (form_eqb (m_form m) Montgomery)
                     (String.eqb (lower_name m) "curve25519"))) predefined_curves = true.
Proof. exact (table_parts_of _ table_ok_true). Qed.

(* Building the map never throws: the lookups answer as [get_meta_correct]
   says. *)
Theorem predefined_consistent : consistent predefined_curves.
Proof.
  apply build_map_iff. destruct table_parts as (mp & E & _). eauto.
Qed.

Lemma get_meta_mp mp n m :
  build_map predefined_curves = Val mp ->
  get_meta_by_name predefined_curves n = Val m <-> cfind (lower_str n) mp = Some m.
Proof.
  intros E. unfold get_meta_by_name. rewrite E. cbn [bind].
  destruct (cfind (lower_str n) mp); split; congruence.
Qed.

Lemma resolves_get mp r n :
  build_map predefined_curves = Val mp -> resolves_to mp r n = true ->
  get_meta_by_name predefined_curves n = Val r.
Proof.
  intros E H. rewrite (get_meta_mp mp) by exact E. unfold resolves_to in H.
  destruct (cfind (lower_str n) mp) as [r'|]; [|discriminate].
  apply meta_eqb_eq in H. congruence.
Qed.

(* All the names of one entry, in any spelling, give one answer; and the name in
   the answer is a name of that same answer. *)
Theorem aliases_agree m n n' :
  In m predefined_curves -> lists m n -> lists m n' ->
  exists r, get_meta_by_name predefined_curves n = Val r /\
            get_meta_by_name predefined_curves n' = Val r /\
            get_meta_by_name predefined_curves (m_name r) = Val r /\ agree r m.
Proof.
  intros Hm Hn Hn'. destruct table_parts as (mp & E & T & _).
  rewrite forallb_forall in T. specialize (T m Hm). unfold entry_ok in T.
  destruct (cfind (lower_str (m_name m)) mp) as [r|] eqn:F; [|discriminate].
  apply andb_prop in T. destruct T as [T1 T2]. rewrite forallb_forall in T2.
  assert (All : forall x, lists m x -> get_meta_by_name predefined_curves x = Val r).
  { intros x (k & [<- | Hk] & S).
    - rewrite <- (get_meta_spelling _ _ _ S). apply (get_meta_mp mp); assumption.
    - rewrite <- (get_meta_spelling _ _ _ S). apply (resolves_get mp); auto. }
  exists r. split; [auto|]. split; [auto|]. split; [apply (resolves_get mp); auto|].
  specialize (All n Hn).
  apply (proj1 (proj1 (get_meta_correct _ n) predefined_consistent)) in All.
  destruct All as (l1 & l2 & El & Lr & _).
  apply (predefined_consistent r m n); auto. rewrite El. apply in_elt.
Qed.

Lemma mem_in s l : mem s l = true <-> In s l.
Proof.
  induction l as [|x l IH]; cbn [mem In]; [split; [discriminate|tauto]|].
  rewrite orb_true_iff, String.eqb_eq, IH. intuition congruence.
Qed.

Lemma served_get mp keys k :
  build_map predefined_curves = Val mp -> served mp keys k = true ->
  exists m, get_meta_by_name predefined_curves k = Val m /\ mem (lower_name m) keys = true.
Proof.
  intros E H. unfold served in H.
  destruct (cfind (lower_str k) mp) as [r|] eqn:F; [|discriminate].
  exists r. split; [apply (get_meta_mp mp); assumption|exact H].
Qed.

(* ---- The libraries ---- *)

(* A library that says it supports a curve builds it, with that metadata; only
   OpenSSL's own constructor may still fail. *)
Theorem supported_creates gpu ok l m :
  In l (ec_libs gpu ok) -> l_supported l m = true ->
  (l_name l = "OpenSSL"%string -> ok (lower_name m) = true) ->
  exists g, l_create l m = Val g /\ g_meta g = m.
Proof.
  intros Hl Hs Ho. cbn [ec_libs In] in Hl.
  destruct Hl as [<- | [<- | [<- | [<- | [<- | [<- | [<- | []]]]]]]];
    cbn [l_supported l_create fourq_lib lib25519_lib sodium_lib cuda_lib mcl_lib
         openssl_lib toy_lib l_name] in *; rewrite ?Hs.
  - eexists; split; reflexivity.
  - unfold lib25519_curves in Hs. cbn [mem] in Hs. rewrite orb_false_r in Hs.
    rewrite Hs. eexists; split; reflexivity.
  - unfold sodium_curves in Hs. cbn [mem] in Hs. rewrite orb_false_r in Hs.
    destruct (String.eqb (lower_name m) "ed25519"); [eexists; split; reflexivity|].
    destruct (String.eqb (lower_name m) "curve25519"); [eexists; split; reflexivity|].
    destruct (String.eqb (lower_name m) "ristretto255"); [|discriminate].
    eexists; split; reflexivity.
  - eexists; split; reflexivity.
  - assert (C : mem (lower_name m) mcl_cases = true).
    { apply mem_in in Hs. apply mem_in. unfold mcl_curves, mcl_cases in *.
      cbn [In] in *. tauto. }
    rewrite C. eexists; split; reflexivity.
  - rewrite (Ho eq_refl). eexists; split; reflexivity.
  - eexists; split; reflexivity.
Qed.

(* A library never builds a curve it does not support, except the one on the
   GPU, whose constructor does not look. *)
Theorem creates_supported gpu ok l m g :
  In l (ec_libs gpu ok) -> l_create l m = Val g ->
  l_supported l m = true \/ l_name l = "CUDA_SM2"%string.
Proof.
  intros Hl Hs. cbn [ec_libs In] in Hl.
  destruct Hl as [<- | [<- | [<- | [<- | [<- | [<- | [<- | []]]]]]]];
    cbn [l_supported l_create fourq_lib lib25519_lib sodium_lib cuda_lib mcl_lib
         openssl_lib toy_lib l_name] in *; auto; left.
  - destruct (String.eqb (lower_name m) "fourq"); [reflexivity|discriminate].
  - destruct (mem (lower_name m) lib25519_curves); [reflexivity|discriminate].
  - destruct (mem (lower_name m) sodium_curves); [reflexivity|discriminate].
  - destruct (mem (lower_name m) mcl_curves); [reflexivity|discriminate].
  - destruct (mem (lower_name m) openssl_curves); [reflexivity|discriminate].
  - destruct (mem (lower_name m) toy_curves); [reflexivity|discriminate].
Qed.

Lemma ec_names_distinct gpu ok l l' :
  In l (ec_libs gpu ok) -> In l' (ec_libs gpu ok) ->
  (lower (bytes_of (l_name l)) = lower (bytes_of (l_name l')) \/ l_perf l = l_perf l') ->
  l = l'.
Proof.
  intros Hl Hl'. cbn [ec_libs In] in Hl, Hl'.
  destruct Hl as [<- | [<- | [<- | [<- | [<- | [<- | [<- | []]]]]]]];
  destruct Hl' as [<- | [<- | [<- | [<- | [<- | [<- | [<- | []]]]]]]];
  try reflexivity; (intros [H|H]; vm_compute in H; discriminate H).
Qed.

Lemma ec_perf_range gpu ok l : In l (ec_libs gpu ok) -> (0 <= l_perf l < 2 ^ 63)%Z.
Proof.
  intros Hl. cbn [ec_libs In] in Hl.
  destruct Hl as [<- | [<- | [<- | [<- | [<- | [<- | [<- | []]]]]]]]; cbn; lia.
Qed.

(* Every registration of libraries of the repository, each once, is accepted. *)
Lemma ec_accepted gpu ok tbl ls i r :
  NoDup ls -> incl ls (ec_libs gpu ok) ->
  (accepted_at (map (ec_registration tbl) ls) i r <->
   exists l, nth_error ls i = Some l /\ r = ec_registration tbl l).
Proof.
  intros ND HI. unfold accepted_at. rewrite nth_error_map. split.
  - intros [H _]. destruct (nth_error ls i) as [l|]; [|discriminate].
    injection H as <-. eauto.
  - intros (l & H & ->). rewrite H. split; [reflexivity|].
    intros j r' Hj H' E. rewrite nth_error_map in H'.
    destruct (nth_error ls j) as [l'|] eqn:N; [|discriminate]. injection H' as <-.
    assert (l' = l).
    { apply (ec_names_distinct gpu ok); [apply HI; eapply nth_error_In; eassumption..|].
      left. exact E. }
    subst l'. assert (i = j); [|lia].
    apply (proj1 (NoDup_nth_error ls) ND); [apply nth_error_Some; congruence|congruence].
Qed.

(* Create without a library: the fastest registered library that supports the
   curve named. *)
Theorem ec_create_best gpu ok tbl ls feature a :
  NoDup ls -> incl ls (ec_libs gpu ok) -> lookup arg_lib a = None ->
  (exists l m, In l ls /\ get_meta_by_name tbl (str_of feature) = Val m /\
     l_supported l m = true /\
     (forall l', In l' ls -> l_supported l' m = true -> l' = l \/ (l_perf l' < l_perf l)%Z) /\
     ec_create tbl ls feature a = l_create l m) \/
  ((forall l m, In l ls -> get_meta_by_name tbl (str_of feature) = Val m ->
      l_supported l m = false) /\
   ec_create tbl ls feature a = Thrown).
Proof.
  intros ND HI Ha. unfold ec_create.
  destruct (spi_create_best (map (ec_registration tbl) ls) feature a Ha)
    as [(i & r & Hi & Hc & Hb & E) | (Hn & E)].
  - apply Forall_forall. intros r Hr. apply in_map_iff in Hr.
    destruct Hr as (l & <- & Hl). cbn [r_perf ec_registration].
    apply (ec_perf_range gpu ok). apply HI. exact Hl.
  - left. apply (ec_accepted gpu ok) in Hi; [|assumption..].
    destruct Hi as (l & Hl & ->). cbn [r_check r_create r_perf ec_registration] in *.
    destruct (get_meta_by_name tbl (str_of feature)) as [m| | |] eqn:G; try discriminate Hc.
    exists l, m. split; [eapply nth_error_In; exact Hl|]. split; [reflexivity|].
    split; [exact Hc|]. split; [|exact E].
    intros l' Hl' Hs'. destruct (In_nth_error _ _ Hl') as (j & Hj).
    destruct (Hb j (ec_registration tbl l')) as [H | [H _]].
    + apply (ec_accepted gpu ok); eauto.
    + cbn [r_check ec_registration]. rewrite G. exact Hs'.
    + right. exact H.
    + left. apply (ec_names_distinct gpu ok); [apply HI; exact Hl'| |right; exact H].
      apply HI. eapply nth_error_In. exact Hl.
  - right. split; [|exact E]. intros l m Hl G.
    destruct (In_nth_error _ _ Hl) as (j & Hj).
    assert (Q : r_check (ec_registration tbl l) feature a = false).
    { apply (Hn j). apply (ec_accepted gpu ok); eauto. }
    cbn [r_check ec_registration] in Q. rewrite G in Q. exact Q.
Qed.

(* The order in which the libraries were registered does not matter. *)
Theorem ec_create_order gpu ok tbl ls ls' feature a :
  NoDup ls -> NoDup ls' -> incl ls (ec_libs gpu ok) ->
  (forall l, In l ls <-> In l ls') -> lookup arg_lib a = None ->
  ec_create tbl ls feature a = ec_create tbl ls' feature a.
Proof.
  intros ND ND' HI HE Ha.
  assert (HI' : incl ls' (ec_libs gpu ok)) by (intros l Hl; apply HI, HE; exact Hl).
  destruct (ec_create_best gpu ok tbl ls feature a ND HI Ha)
    as [(l & m & Hl & G & S & B & ->) | (N & ->)];
  destruct (ec_create_best gpu ok tbl ls' feature a ND' HI' Ha)
    as [(l' & m' & Hl' & G' & S' & B' & ->) | (N' & ->)].
  - assert (m' = m) by congruence. subst m'.
    destruct (B l') as [-> | H]; [apply HE; exact Hl'|exact S'|reflexivity|].
    destruct (B' l) as [-> | H']; [apply HE; exact Hl|exact S|reflexivity|lia].
  - rewrite (N' l m) in S; [discriminate|apply HE; exact Hl|exact G].
  - rewrite (N l' m') in S'; [discriminate|apply HE; exact Hl'|exact G'].
  - reflexivity.
Qed.

(* Create with a library named, in any spelling of its name. *)
Theorem ec_create_named gpu ok tbl ls feature a s :
  NoDup ls -> incl ls (ec_libs gpu ok) -> lookup arg_lib a = Some (VStr (lower s)) ->
  (forall l, In l ls -> lower (bytes_of (l_name l)) = lower s ->
     ec_create tbl ls feature a =
     match get_meta_by_name tbl (str_of feature) with
     | Val m => if l_supported l m then l_create l m else Thrown
     | _ => Thrown
     end) /\
  ((forall l, In l ls -> lower (bytes_of (l_name l)) <> lower s) ->
     ec_create tbl ls feature a = Thrown).
Proof.
  intros ND HI Ha.
  destruct (spi_create_named (map (ec_registration tbl) ls) feature a s Ha) as [H1 H2].
  split.
  - intros l Hl E. destruct (In_nth_error _ _ Hl) as (j & Hj). unfold ec_create.
    rewrite (H1 j (ec_registration tbl l)).
    + cbn [r_check r_create ec_registration].
      destruct (get_meta_by_name tbl (str_of feature)); reflexivity.
    + apply (ec_accepted gpu ok); eauto.
    + exact E.
  - intros H. apply H2. intros r Hr. apply in_map_iff in Hr.
    destruct Hr as (l & <- & Hl). cbn [r_name ec_registration]. apply H. exact Hl.
Qed.

(* The spelling of the curve, with or without a library named. *)
Theorem ec_create_spelling gpu ok tbl ls feature feature' a :
  NoDup ls -> incl ls (ec_libs gpu ok) ->
  same_spelling (str_of feature) (str_of feature') ->
  ec_create tbl ls feature a = ec_create tbl ls feature' a.
Proof.
  intros ND HI HS. assert (G := get_meta_spelling tbl _ _ HS).
  assert (HC : forall l, In l (libs (run (map (ec_registration tbl) ls))) ->
    r_check (snd l) feature a = r_check (snd l) feature' a /\
    r_create (snd l) feature a = r_create (snd l) feature' a).
  { assert (R : forall rs f, (forall l, In l (libs f) -> exists e, snd l = ec_registration tbl e) ->
      (forall r, In r rs -> exists e, r = ec_registration tbl e) ->
      forall l, In l (libs (fold_left register_step rs f)) ->
        exists e, snd l = ec_registration tbl e).
    { induction rs as [|r rs IH]; intros f Hf Hr l Hl; [apply Hf; exact Hl|].
      cbn [fold_left] in Hl. eapply IH; [| |exact Hl].
      - intros l0 H0. unfold register_step, register in H0.
        destruct (lookup (lower (r_name r)) (libs f)); [apply Hf; exact H0|].
        cbn [libs] in H0.
        assert (MI : forall (k : name) (v : registration group) (q : list (name * registration group)) x,
          In x (map_insert k v q) -> In x q \/ x = (k, v)).
        { induction q as [|[k' v'] q IHq]; cbn [map_insert In]; intros x; [intuition|].
          destruct (name_cmp k k'); cbn [In]; try (intuition; fail).
          intros [H|H]; [auto|]. apply IHq in H. tauto. }
        apply MI in H0. destruct H0 as [H0 | ->]; [apply Hf; exact H0|].
        apply Hr. left. reflexivity.
      - intros r0 H0. apply Hr. right. exact H0. }
    intros l Hl. destruct (R (map (ec_registration tbl) ls) empty_factory) with (l := l)
      as (e & ->).
    - intros l0 [].
    - intros r Hr. apply in_map_iff in Hr. destruct Hr as (e & <- & _). eauto.
    - exact Hl.
    - cbn [r_check r_create ec_registration]. rewrite G. auto. }
  unfold ec_create. generalize dependent (run (map (ec_registration tbl) ls)).
  intros f HC.
  assert (LK : forall n r, lookup n (libs f) = Some r ->
    r_check r feature a = r_check r feature' a /\
    r_create r feature a = r_create r feature' a).
  { intros n r H. assert (I : In (n, r) (libs f)).
    { revert H. generalize (libs f). induction l as [|[k v] l IH]; cbn [lookup]; [discriminate|].
      unfold name_eqb. destruct (list_eq_dec Nat.eq_dec n k) as [->|].
      - intros H. injection H as <-. left. reflexivity.
      - intros H. right. apply IH. exact H. }
    apply (HC (n, r) I). }
  assert (AS : forall es, auto_select f feature a es = auto_select f feature' a es).
  { induction es as [|[k n] es IH]; cbn [auto_select]; [reflexivity|].
    destruct (lookup n (libs f)) as [r|] eqn:L; [|reflexivity].
    destruct (LK _ _ L) as [-> _]. rewrite IH. reflexivity. }
  unfold create. rewrite AS.
  destruct (get_optional a arg_lib) as [lib| | |]; cbn [bind]; try reflexivity.
  assert (F : forall n, match lookup n (libs f) with
                        | None => Thrown | Some r => r_create r feature a end =
                        match lookup n (libs f) with
                        | None => Thrown | Some r => r_create r feature' a end).
  { intros n. destruct (lookup n (libs f)) as [r|] eqn:L; [|reflexivity].
    apply (LK _ _ L). }
  destruct lib as [n|].
  - destruct (lookup n (libs f)) as [r|] eqn:L; [|reflexivity].
    destruct (LK _ _ L) as [-> _].
    destruct (r_check r feature' a); cbn [bind]; [apply F|reflexivity].
  - destruct (auto_select f feature' a (perf f)) as [[n|]| | |]; cbn [bind]; auto.
Qed.

(* Every curve a library lists can be reached under the name it lists, apart
   from three of OpenSSL's. *)
Theorem listed_curves_served k :
  (In k openssl_curves -> ~ In k openssl_misses ->
     exists m, get_meta_by_name predefined_curves k = Val m /\
               forall ok, l_supported (openssl_lib ok) m = true) /\
  (In k mcl_curves -> exists m, get_meta_by_name predefined_curves k = Val m /\
                                l_supported mcl_lib m = true) /\
  (In k sodium_curves -> exists m, get_meta_by_name predefined_curves k = Val m /\
                                   l_supported sodium_lib m = true) /\
  (In k lib25519_curves -> exists m, get_meta_by_name predefined_curves k = Val m /\
                                     l_supported lib25519_lib m = true) /\
  (In k toy_curves -> exists m, get_meta_by_name predefined_curves k = Val m /\
                                l_supported toy_lib m = true) /\
  (k = "fourq"%string -> exists m, get_meta_by_name predefined_curves k = Val m /\
                                   l_supported fourq_lib m = true).
Proof.
  destruct table_parts as (mp & E & _ & T1 & T2 & T3 & T4 & T5 & T6 & _).
  rewrite forallb_forall in T1, T2, T3, T4, T5, T6.
  split; [|split; [|split; [|split; [|split]]]].
  - intros H NM. specialize (T1 k H). apply orb_prop in T1.
    destruct T1 as [T1 | T1]; [apply mem_in in T1; contradiction|].
    destruct (served_get mp _ _ E T1) as (m & G & Q). exists m. split; [exact G|].
    intros ok. exact Q.
  - intros H. exact (served_get mp _ _ E (T2 k H)).
  - intros H. exact (served_get mp _ _ E (T3 k H)).
  - intros H. exact (served_get mp _ _ E (T4 k H)).
  - intros H. exact (served_get mp _ _ E (T5 k H)).
  - intros ->. destruct (served_get mp _ _ E (T6 "fourq"%string (or_introl eq_refl)))
      as (m & G & Q). exists m. split; [exact G|].
    cbn [mem] in Q. rewrite orb_false_r in Q. exact Q.
Qed.

(* The toy library gives the Montgomery class its Montgomery curve and only
   that. *)
Theorem toy_class_fits n m g :
  get_meta_by_name predefined_curves n = Val m -> l_create toy_lib m = Val g ->
  (g_class g = CToyX <-> lower_name m = "curve25519"%string) /\
  (g_class g = CToyWeierstrass <-> lower_name m <> "curve25519"%string).
Proof.
  intros G C. destruct table_parts as (mp & E & _ & _ & _ & _ & _ & _ & _ & T).
  rewrite forallb_forall in T.
  apply (proj1 (proj1 (get_meta_correct _ n) predefined_consistent)) in G.
  destruct G as (l1 & l2 & El & _).
  assert (Hm : In m predefined_curves) by (rewrite El; apply in_elt).
  specialize (T m Hm). cbn [l_create toy_lib] in C.
  destruct (mem (lower_name m) toy_curves); [|discriminate C].
  injection C as <-. cbn [implb g_class] in *. apply eqb_prop in T. rewrite T.
  destruct (String.eqb (lower_name m) "curve25519") eqn:Q.
  - apply String.eqb_eq in Q. split; split; intros; congruence.
  - apply String.eqb_neq in Q. split; split; intros; congruence.
Qed.

(* Nobody serves a curve whose metadata no library supports. *)
Lemma ec_create_none gpu ok tbl ls feature m :
  NoDup ls -> incl ls (ec_libs gpu ok) ->
  get_meta_by_name tbl (str_of feature) = Val m ->
  forallb (fun l => negb (l_supported l m)) (ec_libs true (fun _ => true)) = true ->
  ec_create tbl ls feature [] = Thrown.
Proof.
  intros ND HI G HF.
  destruct (ec_create_best gpu ok tbl ls feature [] ND HI eq_refl)
    as [(l & m' & Hl & G' & S & _) | (_ & ->)]; [|reflexivity].
  assert (m' = m) by congruence. subst m'. exfalso.
  cbn [ec_libs forallb] in HF. repeat rewrite andb_true_iff in HF.
  rewrite !negb_true_iff in HF. destruct HF as (F1 & F2 & F3 & F4 & F5 & F6 & F7 & _).
  specialize (HI l Hl). cbn [ec_libs In] in HI.
  destruct HI as [<- | [<- | [<- | [<- | [<- | [<- | [<- | []]]]]]]]; try congruence.
  - cbn [cuda_lib l_supported] in F4, S.
    destruct (negb _ && negb _); [discriminate S|discriminate F4].
  - cbn [openssl_lib l_supported] in F6, S. congruence.
Qed.

(* "A name that OpenSSL's table lists and that the curve table knows can be
   created" is false: the key "Oakley Group 3" is not in lower case, and it is
   compared with a name in lower case. *)
Theorem openssl_listed_refuted :
  exists k m, In k openssl_curves /\ get_meta_by_name predefined_curves k = Val m /\
    forall gpu ok ls, NoDup ls -> incl ls (ec_libs gpu ok) ->
      ec_create predefined_curves ls (bytes_of k) [] = Thrown.
Proof.
  exists "Oakley Group 3"%string.
  exists (mk "Oakley Group 3" [] Weierstrass Binary 77).
  assert (G : get_meta_by_name predefined_curves "Oakley Group 3" =
              Val (mk "Oakley Group 3" [] Weierstrass Binary 77))
    by (vm_compute; reflexivity).
  split; [apply mem_in; vm_compute; reflexivity|]. split; [exact G|].
  intros gpu ok ls ND HI.
  apply (ec_create_none gpu ok _ _ _ (mk "Oakley Group 3" [] Weierstrass Binary 77));
    [exact ND|exact HI|exact G|vm_compute; reflexivity].
Qed.

(* Nor is a listed name always a known curve: the curve table calls it
   c2pnb176w1, OpenSSL's c2pnb176v1, and neither can be created. *)
Theorem openssl_name_mismatch_refuted :
  In "c2pnb176v1"%string openssl_curves /\
  get_meta_by_name predefined_curves "c2pnb176v1" = Thrown /\
  (exists m, get_meta_by_name predefined_curves "c2pnb176w1" = Val m) /\
  forall gpu ok ls, NoDup ls -> incl ls (ec_libs gpu ok) ->
    ec_create predefined_curves ls (bytes_of "c2pnb176w1") [] = Thrown.
Proof.
  assert (G : get_meta_by_name predefined_curves "c2pnb176w1" =
              Val (mk "c2pnb176w1" [] Weierstrass Binary 88))
    by (vm_compute; reflexivity).
  split; [apply mem_in; vm_compute; reflexivity|].
  split; [vm_compute; reflexivity|]. split; [eauto|].
  intros gpu ok ls ND HI.
  apply (ec_create_none gpu ok _ _ _ (mk "c2pnb176w1" [] Weierstrass Binary 88));
    [exact ND|exact HI|exact G|vm_compute; reflexivity].
Qed.

(* The library that serves the curves several libraries or only one of them
   list, when all are registered. *)
Lemma ec_create_is gpu ok tbl ls feature m l :
  NoDup ls -> (forall x, In x ls <-> In x (ec_libs gpu ok)) ->
  get_meta_by_name tbl (str_of feature) = Val m ->
  In l (ec_libs gpu ok) -> l_supported l m = true ->
  forallb (fun l' => negb (l_supported l' m) || (l_perf l' <=? l_perf l)%Z)
    (ec_libs gpu ok) = true ->
  ec_create tbl ls feature [] = l_create l m.
Proof.
  intros ND HE G Hl Hs HB.
  assert (HI : incl ls (ec_libs gpu ok)) by (intros x Hx; apply HE; exact Hx).
  rewrite forallb_forall in HB.
  destruct (ec_create_best gpu ok tbl ls feature [] ND HI eq_refl)
    as [(l1 & m' & Hl1 & G' & S & B & ->) | (N & _)].
  - assert (m' = m) by congruence. subst m'.
    destruct (B l) as [-> | H]; [apply HE; exact Hl|exact Hs|reflexivity|].
    specialize (HB l1 (HI _ Hl1)). rewrite S in HB. cbn [negb orb] in HB.
    apply Z.leb_le in HB. lia.
  - rewrite (N l m) in Hs; [discriminate|apply HE; exact Hl|exact G].
Qed.

Theorem default_libraries gpu ok ls :
  NoDup ls -> (forall x, In x ls <-> In x (ec_libs gpu ok)) ->
  (forall n, ok n = true) ->
  let made n c := exists m, get_meta_by_name predefined_curves n = Val m /\
    ec_create predefined_curves ls (bytes_of n) [] = Val {| g_class := c; g_meta := m |} in
  made "FourQ"%string CFourQ /\
  made "ed25519"%string CLib25519Ed /\
  made "Curve25519"%string CSodiumX /\
  made "ristretto255"%string CSodiumRistretto /\
  made "sm2"%string (if gpu then CCudaSm2 else COpenssl "sm2") /\
  made "secp256k1"%string (CMcl "secp256k1") /\
  made "P-256"%string (CMcl "secp256r1") /\
  made "secp521r1"%string (COpenssl "secp521r1").
Proof.
  intros ND HE Hok made.
  assert (M : forall n m c l,
    get_meta_by_name predefined_curves (str_of (bytes_of n)) = Val m ->
    str_of (bytes_of n) = n ->
    In l (ec_libs gpu ok) -> l_supported l m = true ->
    forallb (fun l' => negb (l_supported l' m) || (l_perf l' <=? l_perf l)%Z)
      (ec_libs gpu ok) = true ->
    l_create l m = Val {| g_class := c; g_meta := m |} -> made n c).
  { intros n m c l G Q Hl Hs HB HC. exists m. split; [rewrite Q in G; exact G|].
    rewrite <- HC. apply (ec_create_is gpu ok); assumption. }
  split; [|split; [|split; [|split; [|split; [|split; [|split]]]]]].
  - apply (M _ (mk "FourQ" [] TwistedEdwards Extension 128) _ fourq_lib);
      [vm_compute; reflexivity|reflexivity|cbn [In ec_libs]; auto 10|
       vm_compute; reflexivity|destruct gpu; vm_compute; reflexivity|
       vm_compute; reflexivity].
  - apply (M _ (mk "Ed25519" [] TwistedEdwards Prime 127) _ lib25519_lib);
      [vm_compute; reflexivity|reflexivity|cbn [In ec_libs]; auto 10|
       vm_compute; reflexivity|destruct gpu; vm_compute; reflexivity|
       vm_compute; reflexivity].
  - apply (M _ (mk "Curve25519" [] Montgomery Prime 127) _ sodium_lib);
      [vm_compute; reflexivity|reflexivity|cbn [In ec_libs]; auto 10|
       vm_compute; reflexivity|destruct gpu; vm_compute; reflexivity|
       vm_compute; reflexivity].
  - apply (M _ (mk "Ristretto255" [] TwistedEdwards Prime 127) _ sodium_lib);
      [vm_compute; reflexivity|reflexivity|cbn [In ec_libs]; auto 10|
       vm_compute; reflexivity|destruct gpu; vm_compute; reflexivity|
       vm_compute; reflexivity].
  - destruct gpu.
    + apply (M _ (mk "SM2" [] Weierstrass Prime 128) _ (cuda_lib true));
        [vm_compute; reflexivity|reflexivity|cbn [In ec_libs]; auto 10|
         vm_compute; reflexivity..].
    + apply (M _ (mk "SM2" [] Weierstrass Prime 128) _ (openssl_lib ok));
        [vm_compute; reflexivity|reflexivity|cbn [In ec_libs]; auto 10|
         vm_compute; reflexivity|vm_compute; reflexivity|].
      cbn [l_create openssl_lib]. rewrite Hok. vm_compute. reflexivity.
  - apply (M _ (mk "secp256k1" ["ansip256k1"]%string Weierstrass Prime 128) _ mcl_lib);
      [vm_compute; reflexivity|reflexivity|cbn [In ec_libs]; auto 10|
       vm_compute; reflexivity|destruct gpu; vm_compute; reflexivity|
       vm_compute; reflexivity].
  - apply (M _ (mk "secp256r1" ["P-256"; "prime256v1"]%string Weierstrass Prime 128) _ mcl_lib);
      [vm_compute; reflexivity|reflexivity|cbn [In ec_libs]; auto 10|
       vm_compute; reflexivity|destruct gpu; vm_compute; reflexivity|
       vm_compute; reflexivity].
  - apply (M _ (mk "secp521r1" ["P-521"; "ansip521r1"]%string Weierstrass Prime 260) _ (openssl_lib ok));
      [vm_compute; reflexivity|reflexivity|cbn [In ec_libs]; auto 10|
       vm_compute; reflexivity|destruct gpu; vm_compute; reflexivity|].
    cbn [l_create openssl_lib]. rewrite Hok. vm_compute. reflexivity.
Qed.

(* ---- Concrete cases ---- *)

Example lookup_alias :
  get_meta_by_name predefined_curves "Prime256V1" =
  Val (mk "secp256r1" ["P-256"; "prime256v1"]%string Weierstrass Prime 128).
Proof. vm_compute. reflexivity. Qed.
Example spelling_case : same_spelling "Prime256V1" "prime256v1".
Proof. apply lower_same. reflexivity. Qed.
Example inconsistent_throws :
  get_meta_by_name [mk "a" ["b"%string] Weierstrass Prime 1; mk "B" [] Weierstrass Prime 2] "a"
  = Thrown.
Proof. reflexivity. Qed.
Example libs_distinct : NoDup (map l_name (ec_libs true (fun _ => true))).
Proof.
  repeat constructor; cbn [map l_name ec_libs In]; intuition discriminate.
Qed.
Lemma ec_libs_nodup gpu ok : NoDup (ec_libs gpu ok).
Proof.
  apply (NoDup_map_inv l_name).
  repeat constructor; cbn [map l_name ec_libs In]; intuition discriminate.
Qed.
Definition small_table : list meta :=
  [mk "secp256k1" [] Weierstrass Prime 128; mk "sm2" [] Weierstrass Prime 128].
Example create_default :
  ec_create small_table [toy_lib; openssl_lib (fun _ => true); mcl_lib]
    (bytes_of "Secp256K1") [] =
  Val {| g_class := CMcl "secp256k1"; g_meta := mk "secp256k1" [] Weierstrass Prime 128 |}.
Proof. vm_compute. reflexivity. Qed.
Example create_named :
  ec_create small_table [toy_lib; openssl_lib (fun _ => true); mcl_lib]
    (bytes_of "sm2") [(arg_lib, VStr (lower (bytes_of "TOY")))] =
  Val {| g_class := CToyWeierstrass; g_meta := mk "sm2" [] Weierstrass Prime 128 |}.
Proof. vm_compute. reflexivity. Qed.

Print Assumptions build_map_iff.
Print Assumptions get_meta_correct.
Print Assumptions get_meta_spelling.
Print Assumptions predefined_consistent.
Print Assumptions aliases_agree.
Print Assumptions supported_creates.
Print Assumptions creates_supported.
Print Assumptions ec_create_best.
Print Assumptions ec_create_order.
Print Assumptions ec_create_named.
Print Assumptions ec_create_spelling.
Print Assumptions listed_curves_served.
Print Assumptions toy_class_fits.
Print Assumptions openssl_listed_refuted.
Print Assumptions openssl_name_mismatch_refuted.
Print Assumptions default_libraries.
