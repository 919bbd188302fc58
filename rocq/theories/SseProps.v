(** C58: searchable encryption finds the matching identifiers. *)
From Coq Require Import NArith List Bool Arith Lia Permutation.
From Verif Require Import TSetModel TSetProof TSetProps SseModel SseProof.
Import ListNotations.
Open Scope nat_scope.

Section Statement.
Variable hmac : list N -> list N -> list N.
Variables sm3 sha : list N -> list N.
Variable p : params.
Variable G : Type.
Variable q : N.
Variable mul_base : N -> G.
Variable mul : G -> N -> G.
Variable point_eqb : G -> G -> bool.
Variable inv : N -> N.
Variables enc dec_ctr : N -> N -> list N -> list N.
(** A group of order q generated by mul_base 1. *)
Definition group_laws : Prop :=
  (forall a b, mul (mul_base a) b = mul_base ((a * b) mod q)%N) /\
  (forall a b, point_eqb (mul_base a) (mul_base b) = true <-> (a mod q = b mod q)%N) /\
  (forall a, (a mod q <> 0 -> (a * inv a) mod q = 1 mod q)%N) /\ q <> 0%N /\ (N.size q + 1 < 2 ^ 32)%N.
Definition cipher_laws : Prop := (forall k v m, dec_ctr k v (enc k v m) = m) /\ (forall k v m, length (enc k v m) = length m).
Notation sc := (scalar hmac q).

(** ** Specification *)
Definition has (pairs : list (list N * list N)) (ind w : list N) : bool := existsb (fun e : list N * list N => str_eqb (fst e) ind && str_eqb (snd e) w) pairs.
(** The identifiers of the first keyword, in the order of the data, that satisfy P. *)
Definition matches (pairs : list (list N * list N)) (w1 : list N) (P : list N -> bool) : list (list N) :=
  filter P (map fst (filter (fun e : list N * list N => str_eqb (snd e) w1) pairs)).
(** ws lists the keywords that occur, each once. *)
Definition keyword_list (pairs : list (list N * list N)) (ws : list (list N)) : Prop := NoDup ws /\ forall w, In w ws <-> In w (map snd pairs).
(** What must not happen by accident: label collisions in the table, a zero z,
    equal ciphertexts, equal tags of different (keyword, identifier) pairs. *)
Definition no_accident (tp : tape) (a : nat) (ks : keys) (iv : list N -> nat -> N) pairs ws : Prop :=
  (forall w i, stored (t_table hmac q inv enc ks iv pairs ws) ws w i -> clear hmac sm3 p tp a (t_table hmac q inv enc ks iv pairs ws) ws w i) /\
  (forall w c, In w ws -> 1 <= c <= length (inds pairs w) -> z_of hmac q ks w c <> 0%N) /\
  NoDup (map fst (ivs hmac enc ks iv pairs ws)).
Definition no_false_hit (ks : keys) (pairs : list (list N * list N)) (w ind : list N) : Prop :=
  forall w' ind', In (ind', w') pairs ->
    ((sc (k_x ks) w' * sc (k_i ks) ind') mod q = (sc (k_x ks) w * sc (k_i ks) ind) mod q)%N -> w' = w /\ ind' = ind.

Lemma has_in pairs ind w : has pairs ind w = true <-> In (ind, w) pairs.
Proof.
  unfold has. rewrite existsb_exists. split.
  - intros [[a b] [I E]]. apply andb_true_iff in E. destruct E as [E1 E2]. apply str_eqb_eq in E1, E2. cbn [fst snd] in *. subst. exact I.
  - intros I. exists (ind, w). split; [exact I|]. cbn [fst snd]. rewrite !str_eqb_refl. reflexivity.
Qed.
Lemma inds_in pairs ind w : In ind (inds pairs w) <-> In (ind, w) pairs.
Proof.
  unfold inds. rewrite in_map_iff. split.
  - intros [[a b] [<- I]]. apply filter_In in I. destruct I as [I E]. apply str_eqb_eq in E. cbn [fst snd] in *. subst. exact I.
  - intros I. exists (ind, w). split; [reflexivity|]. apply filter_In. split; [exact I|apply str_eqb_refl].
Qed.

Section Fixed.
Variable ks : keys.
Variable iv : list N -> nat -> N.
Variable pairs : list (list N * list N).
Variable ws : list (list N).
Hypothesis GL : group_laws.
Hypothesis CL : cipher_laws.
Hypothesis KW : keyword_list pairs ws.
Notation T := (t_table hmac q inv enc ks iv pairs ws).

Lemma token_tag w1 c ind w : z_of hmac q ks w1 c <> 0%N ->
  mul (xtoken hmac G q mul_base ks w1 c w) (y_of hmac q inv ks w1 (c, ind)) = xtag_of hmac G q mul_base ks w ind.
Proof.
  destruct GL as [G1 [_ [G3 [Q _]]]]. intros Z. unfold xtoken, xtag_of, y_of. cbn [fst snd]. rewrite G1. f_equal.
  assert (ZM : (z_of hmac q ks w1 c mod q = z_of hmac q ks w1 c)%N) by (unfold z_of, scalar; apply N.mod_mod; exact Q).
  specialize (G3 (z_of hmac q ks w1 c)). rewrite ZM in G3. specialize (G3 Z).
  rewrite <- N.mul_mod by exact Q. set (x := sc (k_x ks) w). set (i := sc (k_i ks) ind). set (z := z_of hmac q ks w1 c) in *.
  replace (x * z * (i * inv z))%N with (x * i * (z * inv z))%N by lia.
  rewrite N.mul_mod, G3 by exact Q. rewrite <- N.mul_mod by exact Q. rewrite N.mul_1_r. reflexivity.
Qed.
Lemma tag_member w ind : (forall w' ind', In (ind', w') pairs ->
    ((sc (k_x ks) w' * sc (k_i ks) ind') mod q = (sc (k_x ks) w * sc (k_i ks) ind) mod q)%N -> w' = w /\ ind' = ind) ->
  in_xset G point_eqb (xtag_of hmac G q mul_base ks w ind) (x_set hmac G q mul_base ks pairs ws) = has pairs ind w.
Proof.
  intros NF. destruct GL as [_ [G2 [_ [Q _]]]]. apply eq_true_iff_eq. unfold in_xset. rewrite existsb_exists, has_in. split.
  - intros [x [I E]]. unfold x_set in I. apply in_flat_map in I. destruct I as [w' [W I]]. apply in_map_iff in I. destruct I as [ind' [<- I]]. apply inds_in in I.
    unfold xtag_of in E. apply G2 in E. rewrite !N.mod_mod in E by exact Q. destruct (NF w' ind' I (eq_sym E)) as [-> ->]. exact I.
  - intros I. exists (xtag_of hmac G q mul_base ks w ind). split.
    + unfold x_set. apply in_flat_map. exists w. split; [apply KW; apply in_map_iff; exists (ind, w); auto|]. apply in_map. apply inds_in. exact I.
    + unfold xtag_of. apply G2. reflexivity.
Qed.
Lemma lookup_table w : In w ws -> lookup T w = Some (map (fun ci => (e_of hmac enc ks iv w ci, dec (y_of hmac q inv ks w ci))) (indexed (inds pairs w))).
Proof.
  clear KW. unfold lookup, t_table. induction ws as [|u l IH]; intros I; [destruct I|]. cbn [map find fst]. destruct (list_eq_dec N.eq_dec u w) as [->|N]; [reflexivity|].
  apply IH. destruct I as [I|I]; [contradiction|exact I].
Qed.
Lemma lookup_stored w c : stored T ws w c <-> In w ws /\ 1 <= c <= length (inds pairs w).
Proof.
  assert (LE : forall l, length (indexed l) = length l) by (intros l; unfold indexed; rewrite combine_length, seq_length; lia).
  split.
  - intros [ts [I [L R]]]. rewrite lookup_table in L by exact I. injection L as <-. rewrite map_length, LE in R. auto.
  - intros [I R]. eexists. split; [exact I|]. split; [apply lookup_table; exact I|]. rewrite map_length, LE. exact R.
Qed.
Lemma indexed_in l c ind : In (c, ind) (indexed l) -> 1 <= c <= length l /\ In ind l.
Proof.
  intros H. unfold indexed in H. split; [|apply in_combine_r in H; exact H]. apply in_combine_l in H. apply in_seq in H. lia.
Qed.
Lemma table_wellformed w ts : Forall (fun e : list N * list N => length (fst e) = 9) pairs -> In w ws -> lookup T w = Some ts -> Forall wellformed ts.
Proof.
  intros F I L. rewrite lookup_table in L by exact I. injection L as <-. apply Forall_forall. intros t Ht. apply in_map_iff in Ht. destruct Ht as [[c ind] [<- Hc]].
  apply indexed_in in Hc. destruct Hc as [_ Hi]. apply inds_in in Hi. rewrite Forall_forall in F. specialize (F _ Hi). cbn [fst] in F. split; cbn [fst snd].
  - unfold e_of. cbn [fst snd]. destruct CL as [_ C2]. rewrite C2. exact F.
  - destruct GL as [_ [_ [_ [Q SZ]]]]. destruct (dec_spec (y_of hmac q inv ks w (c, ind))) as [_ [[_ D] _]].
    assert (Y : (y_of hmac q inv ks w (c, ind) < q)%N) by (unfold y_of; apply N.mod_upper_bound; exact Q).
    set (y := y_of hmac q inv ks w (c, ind)) in *.
    assert (S1 : (N.of_nat (N.size_nat y) <= N.size q)%N).
    { clear - Y Q. assert (E : forall n, N.of_nat (N.size_nat n) = N.size n).
      { intros [|x]; [reflexivity|]. cbn [N.size_nat N.size]. induction x as [x IHx|x IHx|]; cbn [Pos.size_nat Pos.size]; [rewrite Nat2N.inj_succ, IHx; lia|rewrite Nat2N.inj_succ, IHx; lia|reflexivity]. }
      rewrite E. destruct (N.eq_dec y 0) as [->|NZ]; [cbn; lia|]. rewrite !N.size_log2 by assumption. pose proof (N.log2_le_mono y q ltac:(lia)). lia. }
    lia.
Qed.
Lemma iv_found w c ind : NoDup (map fst (ivs hmac enc ks iv pairs ws)) -> In w ws -> In (c, ind) (indexed (inds pairs w)) ->
  iv_for (ivs hmac enc ks iv pairs ws) (e_of hmac enc ks iv w (c, ind)) = Some (iv w c).
Proof.
  intros ND I Hc. assert (M : In (e_of hmac enc ks iv w (c, ind), iv w c) (ivs hmac enc ks iv pairs ws)).
  { unfold ivs. apply in_flat_map. exists w. split; [exact I|]. apply in_map_iff. exists (c, ind). auto. }
  generalize dependent (ivs hmac enc ks iv pairs ws). generalize (e_of hmac enc ks iv w (c, ind)), (iv w c). clear. intros e v l ND M.
  unfold iv_for. induction l as [|[e' v'] l IH]; [destruct M|]. cbn [find fst]. cbn [map fst] in ND. inversion ND as [|? ? N1 N2]. destruct (str_eqb e' e) eqn:E.
  - apply str_eqb_eq in E. subst e'. destruct M as [M|M]; [cbn [snd]; congruence|]. exfalso. apply N1. apply in_map_iff. exists (e, v). auto.
  - apply IH; [exact N2|]. destruct M as [M|M]; [|exact M]. injection M as -> ->. rewrite str_eqb_refl in E. discriminate.
Qed.
Variable ord : list (nat * bool) -> list (nat * bool).
Variable phi : list N.
Variable P : list N -> bool.
Lemma search_found fuel tp d w1 rest : 0 < nb p -> (forall x, length (sm3 x) = 32) -> (forall x, length (sha x) = 32) -> label_size p <= 32 ->
  Forall (fun e : list N * list N => length (fst e) = 9) pairs ->
  (forall kt s a, setup hmac sm3 sha p fuel tp T ws = Done kt s a -> no_accident tp a ks iv pairs ws) ->
  edb_setup hmac sm3 sha p G q mul_base inv enc fuel tp ks iv pairs ws = Some d ->
  (forall w ind, In w rest -> In ind (inds pairs w1) -> no_false_hit ks pairs w ind) ->
  (forall ind, In ind (inds pairs w1) -> accept ord phi (map (fun iw : nat * list N => (fst iw, has pairs ind (snd iw))) (combine (seq 2 (length rest)) rest)) = Some (P ind)) ->
  In w1 ws -> length (inds pairs w1) <= 100 ->
  search hmac sm3 sha p G q mul_base mul point_eqb dec_ctr ord d (w1 :: rest) phi = Some (matches pairs w1 P).
Proof.
  intros HB S3 SH HL F9 NA ES NF AC I1 L100. unfold edb_setup in ES. destruct (setup hmac sm3 sha p fuel tp T ws) as [kt s a| |] eqn:E; try discriminate. injection ES as <-.
  destruct (NA kt s a eq_refl) as [CLR [ZN NDI]]. destruct KW as [NDW KWI]. unfold search. cbn [d_tset d_kt d_keys].
  assert (NE : inds pairs w1 <> []). { apply KWI in I1. apply in_map_iff in I1. destruct I1 as [[ind w] [EQ I1]]. cbn [snd] in EQ. subst w. apply inds_in in I1. intros C. rewrite C in I1. destruct I1. }
  assert (LE : forall l, length (indexed l) = length l) by (intros l; unfold indexed; rewrite combine_length, seq_length; lia).
  rewrite (tset_retrieve_all hmac sm3 sha p tp T ws fuel kt s a HB S3 SH HL NDW (fun w ts => table_wellformed w ts F9) E CLR w1 _ I1 (lookup_table w1 I1)).
  2:{ rewrite map_length, LE. destruct (inds pairs w1); [contradiction|cbn [length] in *; lia]. }
  set (d := {| d_tset := tab s; d_xset := x_set hmac G q mul_base ks pairs ws; d_ivs := ivs hmac enc ks iv pairs ws; d_kt := kt; d_keys := ks |}).
  assert (SEL : forall l c, (forall ci, In ci (combine (seq c (length l)) l) -> In ci (indexed (inds pairs w1))) ->
    select hmac G q mul_base mul point_eqb ord d w1 rest phi c (map (fun ci => (e_of hmac enc ks iv w1 ci, dec (y_of hmac q inv ks w1 ci))) (combine (seq c (length l)) l)) =
    Some (map (e_of hmac enc ks iv w1) (filter (fun ci => P (snd ci)) (combine (seq c (length l)) l)))).
  { induction l as [|ind l IH]; intros c SUB; [reflexivity|]. cbn [length seq combine map select filter snd] in *.
    destruct (dec_spec (y_of hmac q inv ks w1 (c, ind))) as [DS _]. rewrite DS.
    destruct (indexed_in _ _ _ (SUB (c, ind) (or_introl eq_refl))) as [RC II].
    assert (V : values_of hmac G q mul_base mul point_eqb d w1 rest c (y_of hmac q inv ks w1 (c, ind)) = map (fun iw : nat * list N => (fst iw, has pairs ind (snd iw))) (combine (seq 2 (length rest)) rest)).
    { unfold values_of. cbn [d_keys d_xset d]. apply map_ext_in. intros [i w] Hiw. cbn [fst snd]. f_equal. rewrite token_tag by (apply ZN; auto). apply tag_member. apply NF; [apply in_combine_r in Hiw; exact Hiw|exact II]. }
    rewrite V, AC by exact II. rewrite (IH (S c)) by (intros ci Hci; apply SUB; right; exact Hci). destruct (P ind); reflexivity. }
  unfold indexed at 1. rewrite (SEL (inds pairs w1) 1) by (intros ci Hci; exact Hci). fold (indexed (inds pairs w1)).
  assert (DEC : forall l, (forall ci, In ci l -> In ci (indexed (inds pairs w1))) -> decrypt_all G dec_ctr d (to_u128 (hmac (k_s ks) w1)) (map (e_of hmac enc ks iv w1) l) = Some (map snd l)).
  { induction l as [|[c ind] l IH]; intros SUB; [reflexivity|]. cbn [map decrypt_all]. cbn [d_ivs d]. rewrite (iv_found w1 c ind NDI I1) by (apply SUB; left; reflexivity).
    rewrite IH by (intros ci Hci; apply SUB; right; exact Hci). unfold e_of at 1. cbn [fst snd]. destruct CL as [C1 _]. rewrite C1. reflexivity. }
  rewrite DEC by (intros ci Hci; apply filter_In in Hci; apply Hci). f_equal. unfold matches. fold (inds pairs w1). generalize (inds pairs w1). clear. intros l. unfold indexed. generalize 1.
  induction l as [|ind l IH]; intros c; [reflexivity|]. cbn [length seq combine filter snd]. destruct (P ind); cbn [map snd]; rewrite IH; reflexivity.
Qed.
End Fixed.
Lemma numbered_fst (r : list (list N)) : forall k, map (fun iw : nat * list N => fst iw) (combine (seq k (length r)) r) = seq k (length r).
Proof. induction r as [|w r IH]; intros k; [reflexivity|]. cbn [length seq combine map fst]. f_equal. apply IH. Qed.
Lemma numbered_in (r : list (list N)) i w : forall k, In (i, w) (combine (seq k (length r)) r) -> k <= i < k + length r /\ w = nth (i - k) r [].
Proof.
  induction r as [|u r IH]; intros k H; [destruct H|]. cbn [length seq combine In] in *. destruct H as [H|H].
  - injection H as <- <-. rewrite Nat.sub_diag. split; [lia|reflexivity].
  - apply IH in H. destruct H as [R ->]. split; [lia|]. replace (i - k) with (S (i - S k)) by lia. reflexivity.
Qed.
Notation ready fuel tp ks iv pairs ws := (
  group_laws /\ cipher_laws /\ keyword_list pairs ws /\ 0 < nb p /\ (forall x, length (sm3 x) = 32) /\ (forall x, length (sha x) = 32) /\ label_size p <= 32 /\
  Forall (fun e : list N * list N => length (fst e) = 9) pairs /\
  (forall kt s a, setup hmac sm3 sha p fuel tp (t_table hmac q inv enc ks iv pairs ws) ws = Done kt s a -> no_accident tp a ks iv pairs ws)) (only parsing).

(** Conjunctive search. *)
Theorem sse_search_all fuel tp ks iv pairs ws ord d w1 rest : ready fuel tp ks iv pairs ws ->
  edb_setup hmac sm3 sha p G q mul_base inv enc fuel tp ks iv pairs ws = Some d ->
  (forall w ind, In w rest -> In (ind, w1) pairs -> no_false_hit ks pairs w ind) ->
  In w1 ws -> length (inds pairs w1) <= 100 ->
  search hmac sm3 sha p G q mul_base mul point_eqb dec_ctr ord d (w1 :: rest) [] = Some (matches pairs w1 (fun ind => forallb (has pairs ind) rest)).
Proof.
  intros [GL [CL [KW [HB [S3 [SH [HL [F9 NA]]]]]]]] ES NF I1 L. apply (search_found ks iv pairs ws GL CL KW ord [] _ fuel tp d); auto.
  - intros w ind Hw Hi. apply NF; [exact Hw|]. apply inds_in. exact Hi.
  - intros ind _. cbn [accept]. f_equal. generalize 2. induction rest as [|w r IH]; intros c; [reflexivity|]. cbn [length seq combine map forallb snd]. rewrite IH; [reflexivity|]. intros w' i' W. apply NF. right. exact W.
Qed.
(** Search with an expression over v2 .. vn: it is read from the right, without
    precedence: what stands behind an operator is its whole right operand. *)
Theorem sse_search_expression fuel tp ks iv pairs ws ord d w1 rest e : ready fuel tp ks iv pairs ws ->
  edb_setup hmac sm3 sha p G q mul_base inv enc fuel tp ks iv pairs ws = Some d ->
  (forall w ind, In w rest -> In (ind, w1) pairs -> no_false_hit ks pairs w ind) ->
  In w1 ws -> length (inds pairs w1) <= 100 ->
  (forall l, Permutation (ord l) l) -> length rest <= 18 -> (forall i, In i (evars e) -> 2 <= i < 2 + length rest) ->
  search hmac sm3 sha p G q mul_base mul point_eqb dec_ctr ord d (w1 :: rest) (show_expr e) =
    Some (matches pairs w1 (fun ind => meaning (fun i => has pairs ind (nth (i - 2) rest [])) e)).
Proof.
  intros [GL [CL [KW [HB [S3 [SH [HL [F9 NA]]]]]]]] ES NF I1 L OP LR EV. apply (search_found ks iv pairs ws GL CL KW ord (show_expr e) _ fuel tp d); auto.
  - intros w ind Hw Hi. apply NF; [exact Hw|]. apply inds_in. exact Hi.
  - intros ind _. assert (NE : exists c r, show_expr e = c :: r).
    { unfold show_expr. destruct e; cbn [toks map]; [|destruct (toks e)|destruct (toks e)|destruct (toks e)]; cbn [join map]; eexists; eexists; reflexivity. }
    destruct NE as [c0 [r0 NE]]. unfold accept. rewrite NE. rewrite <- NE. set (vs := map (fun iw : nat * list N => (fst iw, has pairs ind (snd iw))) (combine (seq 2 (length rest)) rest)).
    assert (MF : map fst vs = seq 2 (length rest)) by (unfold vs; rewrite map_map; cbn [fst]; apply numbered_fst).
    apply evaluate_expr.
    + apply (Permutation_NoDup (l := map fst vs)); [apply Permutation_map; symmetry; apply OP|]. rewrite MF. apply seq_NoDup.
    + intros v Hv. apply (Permutation_in _ (OP vs)) in Hv. unfold vs in Hv. apply in_map_iff in Hv. destruct Hv as [[i w] [<- Hv]]. cbn [fst snd].
      apply numbered_in in Hv. destruct Hv as [R ->]. split; [|reflexivity]. unfold vars. apply in_seq. lia.
    + intros i Hi. apply EV in Hi. apply (Permutation_in (l := map fst vs)); [apply Permutation_map; symmetry; apply OP|]. rewrite MF. apply in_seq. lia.
Qed.
(** A keyword that does not occur is not found, and an empty query finds nothing. *)
Theorem sse_search_absent fuel tp ks iv pairs ws ord d w1 rest phi : 0 < nb p -> (forall x, length (sm3 x) = 32) -> label_size p <= 32 ->
  edb_setup hmac sm3 sha p G q mul_base inv enc fuel tp ks iv pairs ws = Some d -> ~ In w1 ws ->
  (forall kt s a i, setup hmac sm3 sha p fuel tp (t_table hmac q inv enc ks iv pairs ws) ws = Done kt s a -> 1 <= i <= 100 ->
     clear hmac sm3 p tp a (t_table hmac q inv enc ks iv pairs ws) ws w1 i) ->
  search hmac sm3 sha p G q mul_base mul point_eqb dec_ctr ord d (w1 :: rest) phi = Some [].
Proof.
  intros HB S3 HL ES NI C. unfold edb_setup in ES. destruct (setup hmac sm3 sha p fuel tp _ ws) as [kt s a| |] eqn:E; try discriminate. injection ES as <-.
  unfold search. cbn [d_tset d_kt d_keys]. rewrite (tset_retrieve_absent hmac sm3 sha p tp _ ws fuel kt s a HB S3 HL E w1 (or_introl NI)); [reflexivity|].
  intros i Hi. apply (C kt s a i eq_refl Hi).
Qed.
(** After LoadEDB of a saved database no search finds anything, because the
    labels are not written. *)
Theorem sse_loaded_search_empty_refuted (d d' : edb G) fuel ord w1 rest phi : (forall x, length (sm3 x) = 32) -> 1 <= label_size p <= 32 ->
  length (d_tset d) <= fuel -> Forall (fun b => small (length b) /\ Forall (fun x => small (length (value x))) b) (d_tset d) ->
  load_tset fuel (save_tset (d_tset d)) = Some (d_tset d') ->
  search hmac sm3 sha p G q mul_base mul point_eqb dec_ctr ord d' (w1 :: rest) phi = Some [].
Proof.
  intros S3 HL LF FS LD. rewrite load_save_tset in LD by assumption. injection LD as LD. unfold search, retrieve. rewrite <- LD.
  assert (RN : forall n i acc, retrieve_loop hmac sm3 sha p n (map (map (fun x => {| label := []; value := value x |})) (d_tset d)) (get_tag hmac (d_kt d') w1) i acc = Some acc).
  { induction n as [|n IH]; intros i acc; [reflexivity|]. cbn [retrieve_loop]. rewrite scan_filter, filter_nil.
    - cbn [scan]. rewrite N.eqb_refl. apply IH.
    - intros r Hr. assert (LE : label r = []).
      { assert (Hr2 : In r (nth (fst (place hmac sm3 p (get_tag hmac (d_kt d') w1) i)) (map (map (fun x => {| label := []; value := value x |})) (d_tset d)) [])).
        { rewrite <- (firstn_skipn (ns p)). apply in_app_iff. left. exact Hr. }
        change (@nil rec) with (map (fun x => {| label := []; value := value x |}) []) in Hr2. rewrite map_nth in Hr2. apply in_map_iff in Hr2. destruct Hr2 as [x [<- _]]. reflexivity. }
      unfold labb. rewrite LE. destruct (list_eq_dec N.eq_dec [] _) as [C|]; [|reflexivity]. exfalso. apply (f_equal (@length N)) in C. unfold place in C. cbn [snd length] in C. rewrite firstn_length, S3 in C. lia. }
  rewrite RN. reflexivity.
Qed.
End Statement.
(** The two files read back. *)
Theorem sse_keys_file m fuel : length m <= fuel -> Forall (fun e : list N * list N => small (length (fst e)) /\ small (length (snd e))) m -> NoDup (map fst m) ->
  load_keys fuel (save_keys m) = Some m.
Proof. intros L F ND. apply load_save_keys; assumption. Qed.
Theorem sse_tset_file t fuel : length t <= fuel -> Forall (fun b => small (length b) /\ Forall (fun x => small (length (value x))) b) t ->
  exists t', load_tset fuel (save_tset t) = Some t' /\ map (map value) t' = map (map value) t /\ Forall (Forall (fun r => label r = [])) t'.
Proof.
  intros L F. exists (map (map (fun x => {| label := []; value := value x |})) t). split; [apply load_save_tset; assumption|]. split.
  - rewrite map_map. apply map_ext. intros b. rewrite map_map. reflexivity.
  - apply Forall_forall. intros b Hb. apply in_map_iff in Hb. destruct Hb as [b0 [<- _]]. apply Forall_forall. intros r Hr. apply in_map_iff in Hr. destruct Hr as [x [<- _]]. reflexivity.
Qed.
(** ** What the expressions do not mean
    "v2 AND v3 OR v4" with v2 false and v4 true is rejected; "NOT v2 AND v3" with
    both false is accepted; with twenty keywords "v20" can be read as "v2" and a 0. *)
Theorem sse_expression_precedence_refuted :
  let v2 := false in let v3 := false in let v4 := true in
  evaluate (join [var_name 2; s_AND; var_name 3; s_OR; var_name 4]) [(2, v2); (3, v3); (4, v4)] = Some false /\ (v2 && v3) || v4 = true.
Proof. vm_compute. auto. Qed.
Theorem sse_expression_not_refuted :
  let v2 := false in let v3 := false in
  evaluate (join [s_NOT; var_name 2; s_AND; var_name 3]) [(2, v2); (3, v3)] = Some true /\ negb v2 && v3 = false.
Proof. vm_compute. auto. Qed.
Theorem sse_expression_v20_refuted :
  evaluate (var_name 20) [(2, true); (20, true)] = Some false /\ evaluate (var_name 20) [(20, true); (2, true)] = Some true.
Proof. vm_compute. auto. Qed.
Theorem sse_expression_parenthesis_refuted :
  evaluate ([40]%N ++ var_name 2 ++ [41]%N) [(2, true)] = Some false.
Proof. vm_compute. reflexivity. Qed.

(** ** Example: two identifiers, two keywords, a group of order 11. *)
Definition ex_id1 : list N := repeat 49%N 9.
Definition ex_id2 : list N := repeat 50%N 9.
Definition ex_a : list N := [97]%N.
Definition ex_b : list N := [98]%N.
Definition ex_pairs : list (list N * list N) := [(ex_id1, ex_a); (ex_id1, ex_b); (ex_id2, ex_a)].
Definition ex_ws : list (list N) := [ex_a; ex_b].
Definition ex_keys : keys := {| k_s := [50]; k_x := [51]; k_i := [52]; k_z := [53] |}%N.
Definition ex_iv (w : list N) (c : nat) : N := (N.of_nat c + 16 * hd 0 w)%N.
Definition ex_enc (k v : N) (m : list N) : list N := map (N.lxor (k + v)) m.
Definition ex_inv (a : N) : N := nth (N.to_nat (a mod 11)) [0; 1; 6; 4; 3; 9; 2; 8; 7; 5; 10]%N 0%N.
Definition ex_mul (a b : N) : N := ((a * b) mod 11)%N.
Definition ex_base (a : N) : N := (a mod 11)%N.
Lemma ex_group : group_laws N 11 ex_base ex_mul N.eqb ex_inv.
Proof.
  split; [|split; [|split; [|split; [discriminate|reflexivity]]]].
  - intros a b. unfold ex_mul, ex_base. rewrite N.mul_mod_idemp_l, N.mod_mod by discriminate. reflexivity.
  - intros a b. unfold ex_base. apply N.eqb_eq.
  - intros a NZ. unfold ex_inv. rewrite <- N.mul_mod_idemp_l by discriminate. pose proof (N.mod_upper_bound a 11 ltac:(discriminate)) as B. set (r := (a mod 11)%N) in *. clearbody r.
    destruct r as [|x]; [contradiction|]. assert (X : In (N.pos x) [1; 2; 3; 4; 5; 6; 7; 8; 9; 10]%N) by (cbn [In]; lia).
    cbn [In] in X. repeat (destruct X as [<-|X]; [reflexivity|]). destruct X.
Qed.
Lemma ex_cipher : cipher_laws ex_enc ex_enc.
Proof.
  split; intros k v m; unfold ex_enc; [|apply map_length]. rewrite map_map. rewrite <- (map_id m) at 2. apply map_ext. intros x. rewrite <- N.lxor_assoc, N.lxor_nilpotent. apply N.lxor_0_l.
Qed.
Notation ex_table := (t_table toy_hmac 11 ex_inv ex_enc ex_keys ex_iv ex_pairs ex_ws).
Lemma ex_kw : keyword_list ex_pairs ex_ws.
Proof.
  split; [repeat constructor; cbn; intuition discriminate|]. intros w. cbn [ex_ws ex_pairs map snd In]. tauto.
Qed.
Lemma ex_stored w i : stored ex_table ex_ws w i -> stored toy_db toy_ws w i.
Proof.
  intros H. apply (lookup_stored toy_hmac 11 ex_inv ex_enc ex_keys ex_iv ex_pairs ex_ws) in H. destruct H as [[<-|[<-|[]]] R]; cbn in R.
  - exists [(repeat 1%N 9, [10]%N); (repeat 2%N 9, [20; 21]%N)]. split; [left; reflexivity|]. split; [reflexivity|exact R].
  - exists [(repeat 3%N 9, [])]. split; [right; left; reflexivity|]. split; [reflexivity|exact R].
Qed.
Lemma ex_clear w i : stored ex_table ex_ws w i -> clear toy_hmac toy_hash toy_p toy_tape 1 ex_table ex_ws w i.
Proof.
  intros H. apply ex_stored in H. destruct (toy_clear w i H) as [C1 [C2 C3]]. split; [exact C1|]. split.
  - intros w' i' H' Q. apply C2; [apply ex_stored; exact H'|exact Q].
  - intros a' w' i' A H'. apply C3; [exact A|apply ex_stored; exact H'].
Qed.
Lemma ex_done : match setup toy_hmac toy_hash toy_hash toy_p 5 toy_tape ex_table ex_ws with Done 1 _ 1 => true | _ => false end = true.
Proof. vm_compute. reflexivity. Qed.
Lemma ex_accident kt s a : setup toy_hmac toy_hash toy_hash toy_p 5 toy_tape ex_table ex_ws = Done kt s a ->
  no_accident toy_hmac toy_hash toy_p 11 ex_inv ex_enc toy_tape a ex_keys ex_iv ex_pairs ex_ws.
Proof.
  intros E. pose proof ex_done as D. rewrite E in D. clear E. destruct kt as [|[x|x|]]; try discriminate D; destruct a as [|[|a]]; try discriminate D. clear D. split; [exact ex_clear|]. split.
  - intros w c [<-|[<-|[]]] R; cbn in R; destruct c as [|[|[|c]]]; try lia; vm_compute; discriminate.
  - vm_compute. repeat constructor; cbn; intuition discriminate.
Qed.
Lemma ex_nofalse w ind : In w [ex_b] -> In (ind, ex_a) ex_pairs -> no_false_hit toy_hmac 11 ex_keys ex_pairs w ind.
Proof.
  assert (B : forall ind w' ind', In ind [ex_id1; ex_id2] -> In (ind', w') ex_pairs -> (w' = ex_b /\ ind' = ind) \/
    ((scalar toy_hmac 11 (k_x ex_keys) w' * scalar toy_hmac 11 (k_i ex_keys) ind') mod 11 <> (scalar toy_hmac 11 (k_x ex_keys) ex_b * scalar toy_hmac 11 (k_i ex_keys) ind) mod 11)%N).
  { intros i w' i' [<-|[<-|[]]] [H|[H|[H|[]]]]; injection H as <- <-; try (left; split; reflexivity); right; vm_compute; discriminate. }
  intros [<-|[]] I w' ind' I' Q.
  assert (II : In ind [ex_id1; ex_id2]). { destruct I as [I|[I|[I|[]]]]; apply (f_equal fst) in I; cbn [fst] in I; subst ind; [left|left|right; left]; reflexivity. }
  destruct (B ind w' ind' II I') as [R|R]; [exact R|contradiction].
Qed.
Example ex_search ord : exists d, edb_setup toy_hmac toy_hash toy_hash toy_p N 11 ex_base ex_inv ex_enc 5 toy_tape ex_keys ex_iv ex_pairs ex_ws = Some d /\
  search toy_hmac toy_hash toy_hash toy_p N 11 ex_base ex_mul N.eqb ex_enc ord d [ex_a; ex_b] [] = Some [ex_id1] /\
  ((forall l, Permutation (ord l) l) -> search toy_hmac toy_hash toy_hash toy_p N 11 ex_base ex_mul N.eqb ex_enc ord d [ex_a; ex_b] (show_expr (Neg (Lit 2))) = Some [ex_id2]).
Proof.
  assert (R : group_laws N 11 ex_base ex_mul N.eqb ex_inv /\ cipher_laws ex_enc ex_enc /\ keyword_list ex_pairs ex_ws /\ 0 < nb toy_p /\ (forall x, length (toy_hash x) = 32) /\ (forall x, length (toy_hash x) = 32) /\ label_size toy_p <= 32 /\
    Forall (fun e : list N * list N => length (fst e) = 9) ex_pairs /\
    (forall kt s a, setup toy_hmac toy_hash toy_hash toy_p 5 toy_tape ex_table ex_ws = Done kt s a -> no_accident toy_hmac toy_hash toy_p 11 ex_inv ex_enc toy_tape a ex_keys ex_iv ex_pairs ex_ws)).
  { split; [exact ex_group|]. split; [exact ex_cipher|]. split; [exact ex_kw|]. split; [cbn; lia|]. split; [exact toy_hash_length|]. split; [exact toy_hash_length|]. split; [cbn; lia|]. split; [repeat constructor|exact ex_accident]. }
  pose proof ex_nofalse as NF.
  pose proof ex_done as D. destruct (edb_setup toy_hmac toy_hash toy_hash toy_p N 11 ex_base ex_inv ex_enc 5 toy_tape ex_keys ex_iv ex_pairs ex_ws) as [d|] eqn:ES.
  2:{ exfalso. unfold edb_setup in ES. destruct (setup toy_hmac toy_hash toy_hash toy_p 5 toy_tape ex_table ex_ws); [discriminate ES|discriminate D|discriminate D]. }
  clear D.
  exists d. split; [reflexivity|]. split.
  - exact (sse_search_all toy_hmac toy_hash toy_hash toy_p N 11 ex_base ex_mul N.eqb ex_inv ex_enc ex_enc 5 toy_tape ex_keys ex_iv ex_pairs ex_ws ord d ex_a [ex_b] R ES NF (or_introl eq_refl) ltac:(cbn; lia)).
  - intros OP. refine (sse_search_expression toy_hmac toy_hash toy_hash toy_p N 11 ex_base ex_mul N.eqb ex_inv ex_enc ex_enc 5 toy_tape ex_keys ex_iv ex_pairs ex_ws ord d ex_a [ex_b] (Neg (Lit 2)) R ES NF (or_introl eq_refl) _ OP _ _); [cbn; lia|cbn; lia|].
    intros i [<-|[]]. cbn. lia.
Qed.

Print Assumptions sse_search_all.
Print Assumptions sse_search_expression.
Print Assumptions sse_search_absent.
Print Assumptions sse_loaded_search_empty_refuted.
Print Assumptions sse_keys_file.
Print Assumptions sse_tset_file.
Print Assumptions sse_expression_precedence_refuted.
Print Assumptions sse_expression_not_refuted.
Print Assumptions sse_expression_v20_refuted.
Print Assumptions sse_expression_parenthesis_refuted.
