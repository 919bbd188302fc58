(** Lemmas about the searchable encryption model. *)
From Coq Require Import NArith List Bool Arith Lia Permutation.
From Verif Require Import TSetModel TSetProof SseModel.
Import ListNotations.
Open Scope nat_scope.

Lemma str_eqb_eq a b : str_eqb a b = true <-> a = b.
Proof. unfold str_eqb. destruct (list_eq_dec N.eq_dec a b); split; auto; discriminate. Qed.
Lemma str_eqb_refl a : str_eqb a a = true.
Proof. apply str_eqb_eq. reflexivity. Qed.

(** ** Decimal strings *)
Lemma size_nat_gt n : (n < 2 ^ N.of_nat (N.size_nat n))%N.
Proof.
  destruct n as [|x]; [reflexivity|]. cbn [N.size_nat].
  induction x as [x IH|x IH|]; cbn [Pos.size_nat]; [| |reflexivity]; rewrite Nat2N.inj_succ, N.pow_succ_r'; lia.
Qed.
Definition digitb (c : N) : bool := ((48 <=? c) && (c <=? 57))%N.
Lemma dec_aux_spec : forall fuel n acc, (n < 10 ^ N.of_nat fuel)%N -> 0 < fuel ->
  exists ds, dec_aux fuel n acc = ds ++ acc /\ of_dec ds = n /\ 1 <= length ds <= fuel /\ forallb digitb ds = true.
Proof.
  induction fuel as [|f IH]; intros n acc H F; [lia|]. cbn [dec_aux].
  pose proof (N.div_mod n 10 ltac:(discriminate)) as DM. pose proof (N.mod_upper_bound n 10 ltac:(discriminate)) as MB.
  assert (NS : (n / 10 <> 0)%N -> (10 <= n)%N). { intros NZ. destruct (N.le_gt_cases 10 n) as [|C]; [assumption|]. exfalso. apply NZ. apply N.div_small. exact C. }
  assert (UB : f <> 0 -> (n / 10 < 10 ^ N.of_nat f)%N). { intros _. rewrite Nat2N.inj_succ, N.pow_succ_r' in H. apply N.div_lt_upper_bound; [discriminate|exact H]. }
  set (r := (n mod 10)%N) in *. set (d := (n / 10)%N) in *.
  assert (DG : digitb (48 + r) = true). { unfold digitb. apply andb_true_iff. split; apply N.leb_le; lia. }
  destruct (N.eqb_spec d 0) as [Z|NZ].
  - exists [(48 + r)%N]. split; [reflexivity|]. split; [|split; [cbn [length]; lia|cbn [forallb]; rewrite DG; reflexivity]]. unfold of_dec. cbn [fold_left]. lia.
  - destruct f as [|f].
    + exfalso. change (10 ^ N.of_nat 1)%N with 10%N in H. specialize (NS NZ). lia.
    + destruct (IH d ((48 + r)%N :: acc)) as [ds [E [V [L D]]]]; [apply UB; lia|lia|].
      exists (ds ++ [(48 + r)%N]). split; [rewrite E, <- app_assoc; reflexivity|]. split; [|split].
      * unfold of_dec in *. rewrite fold_left_app, V. cbn [fold_left]. lia.
      * rewrite app_length. cbn [length]. lia.
      * rewrite forallb_app, D. cbn [forallb]. rewrite DG. reflexivity.
Qed.
Lemma dec_spec n : of_dec (dec n) = n /\ 1 <= length (dec n) <= S (N.size_nat n) /\ forallb digitb (dec n) = true.
Proof.
  unfold dec. destruct (dec_aux_spec (S (N.size_nat n)) n []) as [ds [E [V [L D]]]]; [|lia|].
  - pose proof (size_nat_gt n) as G. rewrite Nat2N.inj_succ, N.pow_succ_r'.
    assert (X : (2 ^ N.of_nat (N.size_nat n) <= 10 ^ N.of_nat (N.size_nat n))%N) by (apply N.pow_le_mono_l; lia). lia.
  - rewrite E, app_nil_r. auto.
Qed.

(** ** Expressions *)
Lemma prefixb_app pat : forall s r, ~ In 32%N pat -> prefixb pat (s ++ 32%N :: r) = prefixb pat s.
Proof.
  induction pat as [|a pat IH]; intros s r H; [reflexivity|]. destruct s as [|b s]; cbn [app prefixb].
  - destruct (N.eqb_spec a 32) as [->|]; [exfalso; apply H; left; reflexivity|reflexivity].
  - rewrite IH; [reflexivity|]. intros C. apply H. right. exact C.
Qed.
Lemma prefixb_length pat : forall s, prefixb pat s = true -> length pat <= length s.
Proof.
  induction pat as [|a pat IH]; intros [|b s] H; cbn [prefixb length] in *; try discriminate; try lia. apply andb_true_iff in H. destruct H as [_ H]. apply IH in H. lia.
Qed.
Lemma replace_app a pat rep : ~ In 32%N (a :: pat) -> forall s r k, k <= length s ->
  replace (a :: pat) rep (s ++ 32%N :: r) k = replace (a :: pat) rep s k ++ 32%N :: replace (a :: pat) rep r 0.
Proof.
  intros H. induction s as [|c s IH]; intros r k Hk.
  - cbn [length] in Hk. assert (k = 0) by lia. subst k. cbn [app replace]. pose proof (prefixb_app (a :: pat) [] r H) as P. cbn [app] in P. rewrite P. reflexivity.
  - destruct k as [|k]; cbn [app replace].
    + pose proof (prefixb_app (a :: pat) (c :: s) r H) as P. cbn [app] in P. rewrite P. destruct (prefixb (a :: pat) (c :: s)) eqn:E.
      * apply prefixb_length in E. cbn [length] in E. rewrite IH by (cbn [length]; lia). rewrite app_assoc. reflexivity.
      * rewrite IH by lia. reflexivity.
    + cbn [length] in Hk. rewrite IH by lia. reflexivity.
Qed.
Fixpoint join (ts : list (list N)) : list N :=
  match ts with [] => [] | [t] => t | t :: ts' => t ++ 32%N :: join ts' end.
Lemma replace_join a pat rep ts : ~ In 32%N (a :: pat) -> replace (a :: pat) rep (join ts) 0 = join (map (fun t => replace (a :: pat) rep t 0) ts).
Proof.
  intros H. induction ts as [|t ts IH]; [reflexivity|]. destruct ts as [|u ts]; [reflexivity|].
  change (join (t :: u :: ts)) with (t ++ 32%N :: join (u :: ts)). rewrite replace_app by (auto; lia). rewrite IH. reflexivity.
Qed.
Lemma words_app s : forall r cur, forallb (fun c => negb (spaceb c)) s = true -> words (s ++ 32%N :: r) cur = flush (cur ++ s) ++ words r [].
Proof.
  induction s as [|c s IH]; intros r cur H; cbn [app words forallb] in *.
  - rewrite app_nil_r. reflexivity.
  - apply andb_true_iff in H. destruct H as [H1 H2]. apply negb_true_iff in H1. rewrite H1, IH by exact H2. rewrite <- app_assoc. reflexivity.
Qed.
Lemma words_last s : forall cur, forallb (fun c => negb (spaceb c)) s = true -> words s cur = flush (cur ++ s).
Proof.
  induction s as [|c s IH]; intros cur H; cbn [words forallb] in *; [rewrite app_nil_r; reflexivity|].
  apply andb_true_iff in H. destruct H as [H1 H2]. apply negb_true_iff in H1. rewrite H1, IH by exact H2. rewrite <- app_assoc. reflexivity.
Qed.
Lemma words_join ts : Forall (fun t => t <> [] /\ forallb (fun c => negb (spaceb c)) t = true) ts -> words (join ts) [] = ts.
Proof.
  induction 1 as [|t ts [NE SP] F IH]; [reflexivity|]. destruct ts as [|u ts].
  - cbn [join]. rewrite words_last by exact SP. destruct t; [contradiction|reflexivity].
  - change (join (t :: u :: ts)) with (t ++ 32%N :: join (u :: ts)). rewrite words_app by exact SP. rewrite IH. destruct t; [contradiction|reflexivity].
Qed.
(** The tokens of an expression before and after substitution. *)
Inductive tok := TVar (i : nat) | TAnd | TOr | TNot.
Definition show (t : tok) : list N := match t with TVar i => var_name i | TAnd => s_AND | TOr => s_OR | TNot => s_NOT end.
Definition shown (env : nat -> bool) (t : tok) : list N :=
  match t with TVar i => if env i then s_true else s_false | TAnd => s_and | TOr => s_or | TNot => s_not end.
(** Variables 2..19: no name is a prefix of another. *)
Definition vars : list nat := seq 2 18.
Lemma vars_alone : forallb (fun i => forallb (fun j => if i =? j then true else
    str_eqb (replace (var_name i) s_true (var_name j) 0) (var_name j) && str_eqb (replace (var_name i) s_false (var_name j) 0) (var_name j)) vars) vars = true.
Proof. vm_compute. reflexivity. Qed.
Lemma vars_hit : forallb (fun i => str_eqb (replace (var_name i) s_true (var_name i) 0) s_true && str_eqb (replace (var_name i) s_false (var_name i) 0) s_false) vars = true.
Proof. vm_compute. reflexivity. Qed.
Lemma vars_others : forallb (fun i => forallb (fun rep => forallb (fun t => str_eqb (replace (var_name i) rep t 0) t) [s_true; s_false; s_and; s_or; s_not]) [s_true; s_false]) vars = true.
Proof. vm_compute. reflexivity. Qed.
Lemma vars_ops : forallb (fun i => str_eqb (replace s_NOT s_not (replace s_OR s_or (replace s_AND s_and (var_name i) 0) 0) 0) (var_name i)) vars = true.
Proof. vm_compute. reflexivity. Qed.
Lemma vars_nospace : forallb (fun i => forallb (fun c => negb (spaceb c)) (var_name i)) vars = true.
Proof. vm_compute. reflexivity. Qed.
Definition opsub (t : list N) : list N := replace s_NOT s_not (replace s_OR s_or (replace s_AND s_and t 0) 0) 0.
Lemma opsub_join ts : opsub (join ts) = join (map opsub ts).
Proof.
  unfold opsub. unfold s_AND, s_OR, s_NOT. rewrite !replace_join by (cbn; intuition discriminate). rewrite !map_map. reflexivity.
Qed.
Definition tok_in (t : tok) : Prop := match t with TVar i => In i vars | _ => True end.
Definition half (t : tok) : list N := match t with TVar i => var_name i | TAnd => s_and | TOr => s_or | TNot => s_not end.
Lemma opsub_show t : tok_in t -> opsub (show t) = half t.
Proof.
  destruct t as [i| | |]; intros H; try reflexivity. cbn [show half]. pose proof vars_ops as V. rewrite forallb_forall in V. apply str_eqb_eq. apply (V i H).
Qed.
Lemma substitute_join vs ts : substitute vs (join ts) = join (map (substitute vs) ts).
Proof.
  unfold substitute. revert ts. induction vs as [|[i b] vs IH]; intros ts; cbn [fold_left].
  - rewrite map_id. reflexivity.
  - cbn [fst snd]. assert (R : replace (var_name i) (if b then s_true else s_false) (join ts) 0 = join (map (fun t => replace (var_name i) (if b then s_true else s_false) t 0) ts)).
    { unfold var_name. apply replace_join. intros C. cbn [In] in C. destruct C as [C|C]; [discriminate|].
      destruct (dec_spec (N.of_nat i)) as [_ [_ D]]. rewrite forallb_forall in D. specialize (D _ C). discriminate. }
    rewrite R, IH, map_map. reflexivity.
Qed.
Definition fixedb (i : nat) (t : list N) : Prop := forall b : bool, replace (var_name i) (if b then s_true else s_false) t 0 = t.
Lemma substitute_fixed vs t : (forall v, In v vs -> fixedb (fst v) t) -> substitute vs t = t.
Proof.
  unfold substitute. induction vs as [|[i b] vs IH]; intros H; [reflexivity|]. cbn [fold_left fst snd]. rewrite (H (i, b)) by (left; reflexivity). apply IH. intros; apply H; right; auto.
Qed.
Lemma fixed_const i t : In i vars -> In t [s_true; s_false; s_and; s_or; s_not] -> fixedb i t.
Proof.
  intros H T b. pose proof vars_others as V. rewrite forallb_forall in V. specialize (V i H). rewrite forallb_forall in V.
  assert (B : In (if b then s_true else s_false) [s_true; s_false]) by (destruct b; cbn; auto). specialize (V _ B). rewrite forallb_forall in V. apply str_eqb_eq. apply V. exact T.
Qed.
Lemma fixed_var i j : In i vars -> In j vars -> i <> j -> fixedb i (var_name j).
Proof.
  intros H K N b. pose proof vars_alone as V. rewrite forallb_forall in V. specialize (V i H). rewrite forallb_forall in V. specialize (V j K). cbv beta in V.
  destruct (Nat.eqb_spec i j); [contradiction|]. apply andb_true_iff in V. destruct V as [V1 V2]. destruct b; apply str_eqb_eq; assumption.
Qed.
Lemma hit_var i (b : bool) : In i vars -> replace (var_name i) (if b then s_true else s_false) (var_name i) 0 = if b then s_true else s_false.
Proof.
  intros H. pose proof vars_hit as V. rewrite forallb_forall in V. specialize (V i H). apply andb_true_iff in V. destruct V. destruct b; apply str_eqb_eq; assumption.
Qed.
Lemma substitute_half vs env t : NoDup (map fst vs) -> (forall v, In v vs -> In (fst v) vars /\ env (fst v) = snd v) ->
  tok_in t -> (forall i, t = TVar i -> In i (map fst vs)) -> substitute vs (half t) = shown env t.
Proof.
  intros ND HV TI C. destruct t as [i| | |]; try (apply substitute_fixed; intros v Hv; apply fixed_const; [apply HV; exact Hv|cbn; tauto]).
  cbn [half shown]. specialize (C i eq_refl). cbn [tok_in] in TI. clear - ND HV C TI. induction vs as [|[j b] vs IH]; [destruct C|].
  unfold substitute. cbn [fold_left fst snd]. cbn [map fst] in ND, C. inversion ND as [|? ? N1 N2]. destruct (HV (j, b) (or_introl eq_refl)) as [J1 J2]. cbn [fst snd] in J1, J2.
  destruct (Nat.eq_dec j i) as [->|NE].
  - rewrite hit_var by exact TI. fold (substitute vs (if b then s_true else s_false)). rewrite J2. apply substitute_fixed. intros v Hv.
    apply fixed_const; [apply HV; right; exact Hv|destruct b; cbn; tauto].
  - rewrite (fixed_var j i J1 TI NE b). apply IH; [exact N2|intros v Hv; apply HV; right; exact Hv|]. destruct C as [C|C]; [contradiction|exact C].
Qed.
(** Right-nested expressions. *)
Inductive expr := Lit (i : nat) | Conj (i : nat) (e : expr) | Disj (i : nat) (e : expr) | Neg (e : expr).
Fixpoint toks (e : expr) : list tok :=
  match e with
  | Lit i => [TVar i]
  | Conj i e' => TVar i :: TAnd :: toks e'
  | Disj i e' => TVar i :: TOr :: toks e'
  | Neg e' => TNot :: toks e'
  end.
Fixpoint meaning (env : nat -> bool) (e : expr) : bool :=
  match e with
  | Lit i => env i
  | Conj i e' => env i && meaning env e'
  | Disj i e' => env i || meaning env e'
  | Neg e' => negb (meaning env e')
  end.
Fixpoint pvals (env : nat -> bool) (e : expr) : list bool :=
  match e with Lit i => [env i] | Conj i e' | Disj i e' => pvals env e' ++ [env i] | Neg e' => pvals env e' end.
Fixpoint pops (e : expr) : list bop :=
  match e with Lit i => [] | Conj i e' => pops e' ++ [OpAnd] | Disj i e' => pops e' ++ [OpOr] | Neg e' => pops e' ++ [OpNot] end.
Lemma collect_expr env e : forall vals ops, collect (map (shown env) (toks e)) vals ops = Some (pvals env e ++ vals, pops e ++ ops).
Proof.
  assert (V : forall i ts vals ops, collect ((if env i then s_true else s_false) :: ts) vals ops = collect ts (env i :: vals) ops) by (intros i ts vals ops; destruct (env i); reflexivity).
  induction e as [i|i e IH|i e IH|e IH]; intros vals ops; cbn [toks map shown pvals pops].
  - rewrite V. reflexivity.
  - rewrite V. change (collect (s_and :: ?t) ?v ?o) with (collect t v (OpAnd :: o)) || idtac. cbn [collect]. change (str_eqb s_and s_true) with false. change (str_eqb s_and s_false) with false. change (str_eqb s_and s_and) with true. cbv iota.
    rewrite IH, <- !app_assoc. reflexivity.
  - rewrite V. cbn [collect]. change (str_eqb s_or s_true) with false. change (str_eqb s_or s_false) with false. change (str_eqb s_or s_and) with false. change (str_eqb s_or s_or) with true. cbv iota.
    rewrite IH, <- !app_assoc. reflexivity.
  - cbn [collect]. change (str_eqb s_not s_true) with false. change (str_eqb s_not s_false) with false. change (str_eqb s_not s_and) with false. change (str_eqb s_not s_or) with false. change (str_eqb s_not s_not) with true. cbv iota.
    rewrite IH, <- !app_assoc. reflexivity.
Qed.
Lemma reduce_expr env e : forall vals ops, reduce (pops e ++ ops) (pvals env e ++ vals) = reduce ops (meaning env e :: vals).
Proof.
  induction e as [i|i e IH|i e IH|e IH]; intros vals ops; cbn [pvals pops meaning]; [reflexivity| | |]; rewrite <- !app_assoc; rewrite IH; reflexivity.
Qed.
Fixpoint evars (e : expr) : list nat := match e with Lit i => [i] | Conj i e' | Disj i e' => i :: evars e' | Neg e' => evars e' end.
Lemma toks_var e i : In (TVar i) (toks e) -> In i (evars e).
Proof.
  induction e as [j|j e IH|j e IH|e IH]; cbn [toks evars In]; intros H.
  - destruct H as [H|[]]. injection H. auto.
  - destruct H as [H|[H|H]]; [injection H; auto|discriminate|auto].
  - destruct H as [H|[H|H]]; [injection H; auto|discriminate|auto].
  - destruct H as [H|H]; [discriminate|auto].
Qed.
Definition show_expr (e : expr) : list N := join (map show (toks e)).
Lemma evaluate_expr e vs env : NoDup (map fst vs) -> (forall v, In v vs -> In (fst v) vars /\ env (fst v) = snd v) ->
  (forall i, In i (evars e) -> In i (map fst vs)) -> evaluate (show_expr e) vs = Some (meaning env e).
Proof.
  intros ND HV HE. unfold evaluate. fold (opsub (show_expr e)). unfold show_expr. rewrite opsub_join, substitute_join, !map_map.
  assert (TI : forall t, In t (toks e) -> tok_in t /\ forall i, t = TVar i -> In i (map fst vs)).
  { intros t Ht. split.
    - destruct t as [i| | |]; cbn [tok_in]; auto. apply toks_var in Ht. apply HE in Ht. apply in_map_iff in Ht. destruct Ht as [v [<- Hv]]. apply HV. exact Hv.
    - intros i ->. apply HE. apply toks_var. exact Ht. }
  rewrite (map_ext_in _ (shown env) (toks e)).
  2:{ intros t Ht. destruct (TI t Ht) as [T1 T2]. rewrite opsub_show by exact T1. apply substitute_half; auto. }
  rewrite words_join.
  - rewrite collect_expr. rewrite !app_nil_r. pose proof (reduce_expr env e [] []) as R. rewrite !app_nil_r in R. rewrite R. reflexivity.
  - apply Forall_forall. intros s Hs. apply in_map_iff in Hs. destruct Hs as [t [<- _]]. destruct t as [i| | |]; cbn [shown]; [destruct (env i)| | |]; split; try discriminate; reflexivity.
Qed.

(** ** Files *)
Lemma le8_length n : length (le8 n) = 8.
Proof. reflexivity. Qed.
Lemma of_le8 n : (N.of_nat n < 2 ^ 64)%N -> of_le (le8 n) = N.of_nat n.
Proof.
  intros H. unfold le8. generalize (N.of_nat n), H. clear. intros n H. unfold of_le. cbn [map fold_right].
  change (8 * 0)%N with 0%N. change (8 * 1)%N with 8%N. change (8 * 2)%N with (8 + 8)%N. change (8 * 3)%N with (8 + (8 + 8))%N. change (8 * 4)%N with (8 + (8 + (8 + 8)))%N.
  change (8 * 5)%N with (8 + (8 + (8 + (8 + 8))))%N. change (8 * 6)%N with (8 + (8 + (8 + (8 + (8 + 8)))))%N. change (8 * 7)%N with (8 + (8 + (8 + (8 + (8 + (8 + 8))))))%N.
  rewrite !N.pow_add_r, N.pow_0_r, N.div_1_r. change (2 ^ 8)%N with 256%N.
  rewrite <- !N.div_div by (discriminate || (apply N.neq_mul_0; repeat split; try discriminate)).
  assert (ST : forall a, (a = a mod 256 + 256 * (a / 256))%N) by (intros a; rewrite N.add_comm; apply N.div_mod; discriminate).
  set (a1 := (n / 256)%N). set (a2 := (a1 / 256)%N). set (a3 := (a2 / 256)%N). set (a4 := (a3 / 256)%N). set (a5 := (a4 / 256)%N). set (a6 := (a5 / 256)%N). set (a7 := (a6 / 256)%N).
  assert (C : (a7 / 256 = 0)%N). { unfold a7, a6, a5, a4, a3, a2, a1. rewrite !N.div_div by discriminate. apply N.div_small. exact H. }
  assert (E7 : (a7 mod 256 + 256 * 0 = a7)%N) by (rewrite (ST a7) at 2; rewrite C; reflexivity).
  rewrite E7. unfold a7 at 1. rewrite <- (ST a6). unfold a6 at 1. rewrite <- (ST a5). unfold a5 at 1. rewrite <- (ST a4). unfold a4 at 1. rewrite <- (ST a3).
  unfold a3 at 1. rewrite <- (ST a2). unfold a2 at 1. rewrite <- (ST a1). unfold a1 at 1. rewrite <- (ST n). reflexivity.
Qed.
Definition small (l : nat) : Prop := (N.of_nat l < 2 ^ 64)%N.
Lemma read_size_le8 n r : small n -> read_size (le8 n ++ r) = Some (n, r).
Proof.
  intros H. unfold read_size. rewrite app_length, le8_length. destruct (Nat.ltb_spec (8 + length r) 8); [lia|].
  assert (F : firstn 8 (le8 n ++ r) = le8 n) by reflexivity. assert (K : skipn 8 (le8 n ++ r) = r) by reflexivity. rewrite F, K, of_le8 by exact H. rewrite Nat2N.id. reflexivity.
Qed.
Lemma read_chunk_chunk v r : small (length v) -> read_chunk (chunk v ++ r) = Some (v, r).
Proof.
  intros H. unfold read_chunk, chunk. rewrite <- app_assoc, read_size_le8 by exact H. rewrite app_length. destruct (Nat.ltb_spec (length v + length r) (length v)); [lia|].
  rewrite firstn_app, Nat.sub_diag, firstn_all, firstn_O, app_nil_r. rewrite skipn_app, Nat.sub_diag, skipn_all. reflexivity.
Qed.
Lemma load_entries_spec b : forall r, Forall (fun x => small (length (value x))) b ->
  load_entries (length b) (flat_map (fun x => chunk (value x)) b ++ r) = Some (map (fun x => {| label := []; value := value x |}) b, r).
Proof.
  induction b as [|x b IH]; intros r F; [reflexivity|]. inversion F. cbn [length load_entries flat_map map]. rewrite <- app_assoc, read_chunk_chunk by assumption. rewrite IH by assumption. reflexivity.
Qed.
Lemma load_save_tset t : forall fuel, length t <= fuel -> Forall (fun b => small (length b) /\ Forall (fun x => small (length (value x))) b) t ->
  load_tset fuel (save_tset t) = Some (map (map (fun x => {| label := []; value := value x |})) t).
Proof.
  induction t as [|b t IH]; intros fuel L F.
  - destruct fuel; reflexivity.
  - inversion F as [|? ? [F1 F2] F3]. destruct fuel as [|f]; [cbn [length] in L; lia|]. unfold save_tset. cbn [flat_map]. rewrite <- app_assoc.
    assert (NE : exists c x, le8 (length b) ++ flat_map (fun r => chunk (value r)) b ++ flat_map (fun b => le8 (length b) ++ flat_map (fun r => chunk (value r)) b) t = c :: x) by (eexists; eexists; reflexivity).
    destruct NE as [c0 [y0 NE]]. rewrite NE. cbn [load_tset]. rewrite <- NE. rewrite read_size_le8 by exact F1. rewrite load_entries_spec by exact F2.
    fold (save_tset t). rewrite IH by (cbn [length] in L; auto; lia). reflexivity.
Qed.
Lemma load_save_keys m : forall fuel, length m <= fuel -> Forall (fun e : list N * list N => small (length (fst e)) /\ small (length (snd e))) m -> NoDup (map fst m) ->
  load_keys fuel (save_keys m) = Some m.
Proof.
  induction m as [|[k v] m IH]; intros fuel L F ND.
  - destruct fuel; reflexivity.
  - inversion F as [|? ? [F1 F2] F3]. inversion ND as [|? ? N1 N2]. destruct fuel as [|f]; [cbn [length] in L; lia|]. unfold save_keys. cbn [flat_map fst snd]. rewrite <- app_assoc.
    assert (NE : exists c x, chunk k ++ chunk v ++ flat_map (fun e : list N * list N => chunk (fst e) ++ chunk (snd e)) m = c :: x) by (eexists; eexists; reflexivity).
    destruct NE as [c0 [y0 NE]]. rewrite NE. cbn [load_keys]. rewrite <- NE. rewrite read_chunk_chunk by exact F1. rewrite read_chunk_chunk by exact F2.
    fold (save_keys m). rewrite IH by (cbn [length] in L; auto; lia). f_equal. f_equal. cbn [map fst] in N1. clear - N1.
    induction m as [|[k' v'] m IHm]; [reflexivity|]. cbn [map fst In] in N1. cbn [filter fst]. destruct (str_eqb k' k) eqn:E; [apply str_eqb_eq in E; exfalso; apply N1; left; exact E|].
    cbn [negb]. f_equal. apply IHm. intros C. apply N1. right. exact C.
Qed.
