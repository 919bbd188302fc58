(** Lemmas about MPFSS and multi-point VOLE. *)
From Coq Require Import List NArith Bool Arith Lia.
From Verif Require Import GfModel GfProof GfProps SpcotModel SpcotProof SpcotProps MpfssModel.
Import ListNotations.
Open Scope nat_scope.

(** ** Lists *)
Lemma length_sub {A} off n (l : list A) : off + n <= length l -> length (sub off n l) = n.
Proof. intros H. unfold sub. rewrite firstn_length, skipn_length. lia. Qed.
Lemma nth_sub {A} off n (l : list A) j d : j < n -> nth j (sub off n l) d = nth (off + j) l d.
Proof. intros H. unfold sub. rewrite nth_firstn_d by auto. apply nth_skipn_d. Qed.
Lemma length_write off vals out : off + length vals <= length out -> length (write off vals out) = length out.
Proof. intros H. unfold write. rewrite !app_length, firstn_length, skipn_length. lia. Qed.
Lemma nth_write off vals out k : off + length vals <= length out ->
  nth k (write off vals out) 0%N = if (off <=? k) && (k <? off + length vals) then nth (k - off) vals 0%N else nth k out 0%N.
Proof.
  intros H. unfold write. assert (L : length (firstn off out) = off) by (rewrite firstn_length; lia).
  destruct (Nat.leb_spec off k) as [K|K]; cbn [andb].
  - rewrite app_nth2, L by lia. destruct (Nat.ltb_spec k (off + length vals)) as [J|J].
    + rewrite app_nth1 by lia. reflexivity.
    + rewrite app_nth2 by lia. rewrite nth_skipn_d. f_equal. lia.
  - rewrite app_nth1 by lia. rewrite nth_firstn_d by lia. reflexivity.
Qed.
Lemma all_some_map {A B} (f : A -> option B) g l : (forall x, In x l -> f x = Some (g x)) -> all_some (map f l) = Some (map g l).
Proof.
  induction l as [|x l IH]; intros H; cbn [map all_some]; auto.
  rewrite (H x) by (left; auto). rewrite IH; auto. intros y Hy. apply H. right. auto.
Qed.
Lemma all_some_none {A B} (f : A -> option B) x l : In x l -> f x = None -> all_some (map f l) = None.
Proof.
  induction l as [|y l IH]; intros Hi H; [destruct Hi|]. cbn [map all_some]. destruct Hi as [<-|Hi].
  - rewrite H. auto.
  - rewrite IH by auto. destruct (f y); auto.
Qed.
Lemma length_concat_map {A} (f : nat -> list A) a m : length (concat (map f (seq a m))) = list_sum (map (fun i => length (f i)) (seq a m)).
Proof. revert a. induction m as [|m IH]; intros a; cbn [seq map concat list_sum fold_right]; auto. rewrite app_length, IH. reflexivity. Qed.
Lemma list_sum_const (f : nat -> nat) c a m : (forall i, a <= i < a + m -> f i = c) -> list_sum (map f (seq a m)) = m * c.
Proof.
  revert a. induction m as [|m IH]; intros a H; cbn [seq map list_sum fold_right]; auto.
  rewrite H by lia. change (fold_right Nat.add 0 (map f (seq (S a) m))) with (list_sum (map f (seq (S a) m))).
  rewrite IH by (intros; apply H; lia). lia.
Qed.
Lemma concat_sub {A} (f : nat -> list A) c k : forall a m, k < m -> (forall j, j < k -> length (f (a + j)) = c) ->
  sub (k * c) (length (f (a + k))) (concat (map f (seq a m))) = f (a + k).
Proof.
  induction k as [|k IH]; intros a m Hk Hc; (destruct m as [|m]; [lia|]); cbn [seq map concat].
  - rewrite Nat.add_0_r. cbn [Nat.mul]. unfold sub. cbn [skipn]. rewrite firstn_app, Nat.sub_diag, firstn_all. cbn [firstn]. apply app_nil_r.
  - unfold sub. assert (E0 : length (f a) = c) by (rewrite <- (Nat.add_0_r a); apply Hc; lia).
    rewrite skipn_app, skipn_all2 by (rewrite E0; lia). cbn [app].
    replace (S k * c - length (f a)) with (k * c) by (rewrite E0; lia).
    replace (a + S k) with (S a + k) by lia. apply IH; [lia|]. intros j Hj. replace (S a + j) with (a + S j) by lia. apply Hc. lia.
Qed.
Lemma sub_sub {A} a n b m (l : list A) : b + m <= n -> sub b m (sub a n l) = sub (a + b) m l.
Proof.
  intros H. unfold sub. rewrite skipn_firstn_comm, firstn_firstn, Nat.min_l by lia. f_equal.
  clear. revert l. induction a as [|a IH]; intros l; auto. destruct l; [cbn; apply skipn_nil|]. apply IH.
Qed.

(** ** Parameters *)
Record good (p : param) : Prop := { g_noise : 0 < noise p; g_sp : 1 < sp p }.
Lemma make_param_good nn sz m p : make_param nn sz m = Some p -> good p /\ noise p = nn /\ mp p = sz /\ mal p = m.
Proof.
  unfold make_param. destruct (Nat.eqb_spec nn 0); cbn [orb]; [discriminate|].
  destruct (Nat.leb_spec (sp (mkParam nn sz m)) 1); [discriminate|]. intros E. injection E as <-. repeat split; cbn; auto; lia.
Qed.
Section Params.
Variable p : param.
Hypothesis G : good p.
Lemma sp_mp : (noise p - 1) * sp p + last_sp p = mp p /\ sp p <= last_sp p.
Proof.
  destruct G as [A B]. unfold last_sp. assert (noise p * sp p <= mp p) by (apply Nat.mul_div_le; lia). nia.
Qed.
Lemma size_ge i : sp p <= size p i.
Proof. destruct sp_mp as [_ L]. unfold size. destruct (i =? noise p - 1); lia. Qed.
Lemma size_gt1 i : 1 < size p i.
Proof. pose proof (size_ge i). pose proof (g_sp _ G). lia. Qed.
Lemma size_inner i : S i < noise p -> size p i = sp p.
Proof. intros H. unfold size. destruct (Nat.eqb_spec i (noise p - 1)); auto. lia. Qed.
Lemma size_last : size p (noise p - 1) = last_sp p.
Proof. unfold size. rewrite Nat.eqb_refl. auto. Qed.
Lemma block_end i : i < noise p -> i * sp p + size p i <= mp p.
Proof.
  intros H. destruct sp_mp as [E L]. destruct (Nat.eq_dec i (noise p - 1)) as [->|D].
  - rewrite size_last. lia.
  - rewrite size_inner by lia. assert ((i + 1) * sp p <= (noise p - 1) * sp p) by (apply Nat.mul_le_mono_r; lia). lia.
Qed.
Lemma block_disjoint i j : i < j -> j < noise p -> i * sp p + size p i <= j * sp p.
Proof.
  intros H Hj. rewrite size_inner by lia. assert ((i + 1) * sp p <= j * sp p) by (apply Nat.mul_le_mono_r; lia). lia.
Qed.
(** Every position lies in one block. *)
Lemma block_of k : k < mp p -> exists i j, i < noise p /\ j < size p i /\ k = i * sp p + j.
Proof.
  intros H. destruct G as [A B]. destruct sp_mp as [E L].
  destruct (Nat.lt_ge_cases k ((noise p - 1) * sp p)) as [C|C].
  - exists (k / sp p), (k mod sp p). assert (k / sp p < noise p - 1) by (apply Nat.div_lt_upper_bound; lia).
    split; [lia|]. rewrite size_inner by lia. split; [apply Nat.mod_upper_bound; lia|].
    rewrite Nat.mul_comm. apply Nat.div_mod. lia.
  - exists (noise p - 1), (k - (noise p - 1) * sp p). rewrite size_last. split; [lia|]. split; lia.
Qed.
Lemma len_inner i : S i < noise p -> len p i = batch_len p.
Proof. intros H. unfold len. rewrite size_inner by auto. auto. Qed.
Lemma len_last : len p (noise p - 1) = log2ceil (last_sp p).
Proof. unfold len. rewrite size_last. auto. Qed.
Lemma len_end i : i < noise p -> i * batch_len p + len p i <= require_ot p.
Proof.
  intros H. unfold require_ot. destruct (Nat.eq_dec i (noise p - 1)) as [->|D].
  - rewrite len_last. lia.
  - rewrite len_inner by lia. assert ((i + 1) * batch_len p <= (noise p - 1) * batch_len p) by (apply Nat.mul_le_mono_r; lia). lia.
Qed.
Lemma len_pos i : 0 < len p i.
Proof. unfold len. apply (log2ceil_spec (size p i)). apply size_gt1. Qed.
Lemma len_sum : list_sum (map (len p) (seq 0 (noise p))) = require_ot p.
Proof.
  destruct G as [A B]. unfold require_ot. replace (noise p) with (S (noise p - 1)) at 1 by lia. rewrite seq_S, map_app, list_sum_app.
  rewrite (list_sum_const _ (batch_len p)) by (intros; apply len_inner; lia). cbn [map list_sum fold_right Nat.add]. rewrite len_last. lia.
Qed.

(** ** Loops over the blocks *)
Section Updates.
Variable pos : nat -> nat.
Variable f : nat -> N -> N.
Lemma update_points m out : (forall i, i < m -> pos i < length out) -> (forall i j, i < m -> j < m -> pos i = pos j -> i = j) ->
  let r := fold_left (fun out i => set_nth (pos i) (f i (nth (pos i) out 0%N)) out) (seq 0 m) out in
  length r = length out /\ (forall i, i < m -> nth (pos i) r 0%N = f i (nth (pos i) out 0%N)) /\
  (forall k, (forall i, i < m -> k <> pos i) -> nth k r 0%N = nth k out 0%N).
Proof.
  induction m as [|m IH]; intros Hp Hi.
  - cbn. repeat split; intros; auto. lia.
  - rewrite seq_S, fold_left_app. cbn [fold_left Nat.add].
    destruct (IH ltac:(intros; apply Hp; lia) ltac:(intros i j ? ? ?; apply Hi; auto; lia)) as (L & P & Q).
    set (r := fold_left _ (seq 0 m) out) in *. cbn zeta in *. split; [rewrite set_nth_length; auto|]. split.
    + intros i Him. rewrite nth_set_nth by (rewrite L; apply Hp; lia).
      destruct (Nat.eqb_spec (pos i) (pos m)) as [E|E].
      * apply Hi in E; [|lia..]. subst i. f_equal. apply Q. intros j Hj E. apply Hi in E; lia.
      * apply P. assert (i <> m) by (intros ->; auto). lia.
    + intros k Hk. rewrite nth_set_nth by (rewrite L; apply Hp; lia).
      destruct (Nat.eqb_spec k (pos m)) as [E|E]; [exfalso; apply (Hk m); auto|]. apply Q. intros i Him. apply Hk. lia.
Qed.
End Updates.
Lemma fill_spec crh wide os out : (forall i, i < noise p -> size p i <= length (os i)) -> mp p <= length out ->
  let r := fill crh wide p os out in
  length r = length out /\
  (forall i j, i < noise p -> j < size p i -> nth (i * sp p + j) r 0%N = ktrunc wide (crh (nth j (os i) 0%N))) /\
  (forall k, mp p <= k -> nth k r 0%N = nth k out 0%N).
Proof.
  intros Ho Hm. unfold fill.
  assert (K : forall m, m <= noise p ->
    let r := fold_left (fun out i => write (i * sp p) (leaves crh wide p (os i) i) out) (seq 0 m) out in
    length r = length out /\
    (forall i j, i < m -> j < size p i -> nth (i * sp p + j) r 0%N = ktrunc wide (crh (nth j (os i) 0%N))) /\
    (forall k, mp p <= k -> nth k r 0%N = nth k out 0%N)).
  { induction m as [|m IH]; intros Hle.
    - cbn. repeat split; intros; auto. lia.
    - rewrite seq_S, fold_left_app. cbn [fold_left Nat.add]. destruct (IH ltac:(lia)) as (L & P & Q). clear IH.
      set (r := fold_left _ (seq 0 m) out) in *. cbn zeta in *.
      assert (Ll : length (leaves crh wide p (os m) m) = size p m).
      { unfold leaves. rewrite map_length, firstn_length. pose proof (Ho m ltac:(lia)). lia. }
      pose proof (block_end m ltac:(lia)) as Be.
      split; [rewrite length_write; auto; rewrite L, Ll; lia|]. split.
      + intros i j Hi Hj. rewrite nth_write by (rewrite L, Ll; lia). rewrite Ll.
        destruct (Nat.eq_dec i m) as [->|D].
        * rewrite (proj2 (Nat.leb_le _ _)), (proj2 (Nat.ltb_lt _ _)) by lia. cbn [andb].
          replace (m * sp p + j - m * sp p) with j by lia. unfold leaves.
          rewrite (nth_map_d _ _ _ 0%N) by (rewrite firstn_length; pose proof (Ho m ltac:(lia)); lia).
          rewrite nth_firstn_d by auto. reflexivity.
        * pose proof (block_disjoint i m ltac:(lia) ltac:(lia)). rewrite (proj2 (Nat.leb_gt _ _)) by lia. cbn [andb]. apply P; auto. lia.
      + intros k Hk. rewrite nth_write by (rewrite L, Ll; lia). rewrite Ll, (proj2 (Nat.ltb_ge _ _)) by lia. rewrite andb_false_r. apply Q. auto. }
  apply (K (noise p)). auto.
Qed.
End Params.

(** ** Sums in a group *)
Section Group.
Variable w : N.
Variables add sub_op : N -> N -> N.
Notation word a := (a < 2 ^ w)%N.
Hypothesis add_word : forall a b, word a -> word b -> word (add a b).
Hypothesis add_comm : forall a b, word a -> word b -> add a b = add b a.
Hypothesis add_assoc : forall a b c, word a -> word b -> word c -> add a (add b c) = add (add a b) c.
Hypothesis add_0 : forall a, word a -> add 0%N a = a.
Hypothesis sub_word : forall a b, word a -> word b -> word (sub_op a b).
Hypothesis sub_add : forall a b, word a -> word b -> add (sub_op a b) b = a.
Lemma word0 : word 0%N. Proof. apply N.neq_0_lt_0, N.pow_nonzero. lia. Qed.
Lemma cancel a b c : word a -> word b -> word c -> add a c = add b c -> a = b.
Proof.
  intros A B C E. pose proof word0 as Z. assert (Hn : word (sub_op 0%N c)) by auto.
  assert (K : forall x, word x -> add (add x c) (sub_op 0%N c) = x).
  { intros x X. rewrite <- add_assoc, (add_comm c), sub_add, add_comm, add_0 by auto. auto. }
  rewrite <- (K a), <- (K b), E; auto.
Qed.
Definition gsum (l : list N) : N := fold_right add 0%N l.
Lemma gsum_word l : Forall (fun a => word a) l -> word (gsum l).
Proof. induction 1; cbn; auto using word0. Qed.
Lemma fold_gsum l : Forall (fun a => word a) l -> forall i, word i -> fold_left add l i = add i (gsum l).
Proof.
  induction 1 as [|a l A F IH]; intros i I; cbn [fold_left gsum fold_right].
  - rewrite add_comm, add_0 by auto using word0. auto.
  - fold (gsum l). rewrite IH by auto. rewrite add_assoc; auto. apply gsum_word. auto.
Qed.
(** Two lists that agree but at one place. *)
Lemma gsum_differ k : forall l l', Forall (fun a => word a) l -> Forall (fun a => word a) l' -> length l = length l' -> k < length l ->
  (forall j, j <> k -> nth j l 0%N = nth j l' 0%N) -> add (gsum l) (nth k l' 0%N) = add (gsum l') (nth k l 0%N).
Proof.
  induction k as [|k IH]; intros l l' F F' L Hk He; destruct F as [|a l A F]; cbn [length] in *; try lia; destruct F' as [|a' l' A' F']; cbn [length] in *; try lia.
  - assert (l = l') as ->. { apply (nth_ext _ _ 0%N 0%N); [lia|]. intros n _. apply (He (S n)). lia. }
    cbn [gsum fold_right nth]. fold (gsum l'). pose proof (gsum_word l' F') as S'.
    rewrite (add_comm a (gsum l')), (add_comm a' (gsum l')) by auto. rewrite <- !add_assoc by auto. f_equal. apply add_comm; auto.
  - pose proof (He 0 ltac:(lia)) as E0. cbn [nth] in E0. subst a'. cbn [gsum fold_right nth]. fold (gsum l) (gsum l').
    assert (W : forall m (q : list N), Forall (fun x => word x) q -> word (nth m q 0%N)).
    { intros m q Q. destruct (nth_in_or_default m q 0%N) as [I| ->]; [|apply word0]. rewrite Forall_forall in Q. auto. }
    rewrite <- !add_assoc by auto using gsum_word. f_equal. apply IH; auto; [lia..|]. intros j Hj. apply (He (S j)). lia.
Qed.
(** What the receiver's correction gives. *)
Lemma correction l l' k v : Forall (fun a => word a) l -> Forall (fun a => word a) l' -> length l = length l' -> k < length l ->
  (forall j, j <> k -> nth j l 0%N = nth j l' 0%N) -> word v ->
  nth k l 0%N = add (add (nth k l' 0%N) (sub_op (fold_left add l (sub_op 0%N v)) (fold_left add l' 0%N))) v.
Proof.
  intros F F' L Hk He V. pose proof word0 as Z. rewrite !fold_gsum by auto. rewrite add_0 by (apply gsum_word; auto).
  pose proof (gsum_differ k l l' F F' L Hk He) as D.
  assert (W : forall m (q : list N), Forall (fun x => word x) q -> word (nth m q 0%N)).
  { intros m q Q. destruct (nth_in_or_default m q 0%N) as [I| ->]; [|apply word0]. rewrite Forall_forall in Q. auto. }
  pose proof (W k l F) as Wl. pose proof (W k l' F') as Wl'. pose proof (gsum_word l F) as Sl. pose proof (gsum_word l' F') as Sl'.
  set (s := nth k l 0%N) in *. set (r := nth k l' 0%N) in *. set (A := gsum l) in *. set (B := gsum l') in *.
  set (m := add (sub_op 0%N v) A). assert (M : word m) by (unfold m; auto).
  assert (Dw : word (sub_op m B)) by auto.
  apply (cancel _ _ B); auto.
  rewrite <- (add_assoc (add r _)), (add_comm v B) by auto. rewrite (add_assoc (add r _)), <- (add_assoc r), sub_add by auto.
  unfold m. rewrite (add_comm (sub_op 0%N v)) by auto. rewrite <- !add_assoc, sub_add by auto.
  rewrite (add_comm A 0%N), add_0, (add_comm r A), D by auto. apply add_comm; auto.
Qed.
End Group.

(** ** The consistency check *)
Section Field.
Variable n : N.
Variable mu : N -> N -> N.
Hypothesis Hn : (1 < n)%N.
Hypothesis HF : is_field n mu.
Notation wd a := (a < 2 ^ n)%N.
Lemma fw0 : wd 0%N. Proof. apply N.neq_0_lt_0, N.pow_nonzero. lia. Qed.
Lemma fw1 : wd 1%N. Proof. change 1%N with (2 ^ 0)%N. apply N.pow_lt_mono_r; lia. Qed.
Lemma fxor a b : wd a -> wd b -> wd (N.lxor a b). Proof. apply GfProof.xor_lt. Qed.
Lemma fmul a b : wd a -> wd b -> wd (mu a b). Proof. destruct HF as (F & _). apply F. Qed.
Lemma fmul_0_r a : wd a -> mu a 0%N = 0%N.
Proof.
  intros A. destruct HF as (_ & _ & _ & F & _). pose proof (F a 0%N 0%N A fw0 fw0) as E. rewrite N.lxor_0_r, N.lxor_nilpotent in E. auto.
Qed.
Lemma fmul_0_l a : wd a -> mu 0%N a = 0%N.
Proof. intros A. destruct HF as (_ & C & _). rewrite C by first [exact fw0|exact A]. apply fmul_0_r. auto. Qed.
Lemma fmul_xor_l a b c : wd a -> wd b -> wd c -> mu (N.lxor a b) c = N.lxor (mu a c) (mu b c).
Proof. intros A B C. destruct HF as (_ & Co & _ & F & _). rewrite (Co (N.lxor a b)), (Co a), (Co b) by first [assumption|apply fxor; assumption]. apply F; assumption. Qed.
Lemma fpower s k : wd s -> wd (power mu s k).
Proof. intros H. unfold power. induction k as [|k IH] using N.peano_ind; [apply fw1|]. rewrite N.iter_succ. apply fmul; auto. Qed.

Lemma xsum_xor f g l : xsum (fun k => N.lxor (f k) (g k)) l = N.lxor (xsum f l) (xsum g l).
Proof.
  unfold xsum. induction l as [|a l IH]; cbn [fold_right]; [rewrite N.lxor_0_r; auto|]. rewrite IH.
  apply N.bits_inj. intros b. rewrite !N.lxor_spec.
  destruct (N.testbit (f a) b), (N.testbit (g a) b), (N.testbit (fold_right (fun j acc => N.lxor (f j) acc) 0%N l) b),
    (N.testbit (fold_right (fun j acc => N.lxor (g j) acc) 0%N l) b); reflexivity.
Qed.
Lemma xsum_app f l l' : xsum f (l ++ l') = N.lxor (xsum f l) (xsum f l').
Proof. induction l as [|a l IH]; [rewrite N.lxor_0_l; auto|]. cbn [app]. rewrite !xsum_cons, IH, N.lxor_assoc. auto. Qed.
Lemma xsum_zero f l : (forall k, In k l -> f k = 0%N) -> xsum f l = 0%N.
Proof. intros H. rewrite (xsum_ext f (fun _ => 0%N)) by auto. clear. induction l as [|a l IH]; [reflexivity|]. rewrite xsum_cons, IH. reflexivity. Qed.
Lemma xsum_point f q l : NoDup l -> In q l -> (forall k, In k l -> k <> q -> f k = 0%N) -> xsum f l = f q.
Proof.
  intros D I H. rewrite (xsum_split f q l D I), (xsum_zero f), N.lxor_0_r; auto.
  intros k Hk. apply filter_In in Hk as [Hk E]. apply H; auto. destruct (Nat.eqb_spec k q); [discriminate|auto].
Qed.
Lemma xsum_word f l : (forall k, In k l -> wd (f k)) -> wd (xsum f l).
Proof. induction l as [|a l IH]; intros H; [apply fw0|]. rewrite xsum_cons. apply fxor; [apply H; left; auto|apply IH; intros; apply H; right; auto]. Qed.
Lemma xsum_mul f c l : wd c -> (forall k, In k l -> wd (f k)) -> xsum (fun k => mu (f k) c) l = mu (xsum f l) c.
Proof.
  intros C. induction l as [|a l IH]; intros H; [cbn; symmetry; apply fmul_0_l; auto|]. rewrite !xsum_cons, IH by (intros; apply H; right; auto).
  symmetry. apply fmul_xor_l; auto; [apply H; left; auto|]. apply xsum_word. intros; apply H; right; auto.
Qed.
(** The universal hash as a sum over the positions. *)
Lemma hash_xsum s d : wd s -> Forall (fun a => wd a) d ->
  universal_hash mu s d = xsum (fun k => mu (nth k d 0%N) (power mu s (N.of_nat k + 1))) (seq 0 (length d)).
Proof.
  intros Hs Hd. rewrite (hash_sum n mu Hn HF s d Hs Hd). unfold hash_spec, indexed.
  enough (K : forall a, sum (map (fun p => mu (snd p) (power mu s (N.of_nat (fst p) + 1))) (combine (seq a (length d)) d))
    = xsum (fun k => mu (nth (k - a) d 0%N) (power mu s (N.of_nat k + 1))) (seq a (length d))).
  { rewrite (K 0). apply xsum_ext. intros j _. rewrite Nat.sub_0_r. auto. }
  clear Hd. induction d as [|x d IH]; intros a; auto. cbn [length seq combine map fst snd]. rewrite xsum_cons.
  change (sum (?u :: ?v)) with (N.lxor u (sum v)). rewrite Nat.sub_diag. cbn [nth]. f_equal. rewrite IH. apply xsum_ext.
  intros j Hj. apply in_seq in Hj. replace (j - a) with (S (j - S a)) by lia. reflexivity.
Qed.
(** ... of a vector with few nonzero entries. *)
Lemma sparse_xsum (P : nat -> N) (pos : nat -> nat) (v : nat -> N) sz m (a : nat -> N) :
  (forall k, wd (P k)) -> (forall i, i < m -> wd (v i)) -> (forall i, i < m -> pos i < sz) ->
  (forall i j, i < m -> j < m -> pos i = pos j -> i = j) ->
  (forall i, i < m -> a (pos i) = v i) -> (forall k, k < sz -> (forall i, i < m -> k <> pos i) -> a k = 0%N) ->
  xsum (fun k => mu (a k) (P k)) (seq 0 sz) = xsum (fun i => mu (v i) (P (pos i))) (seq 0 m).
Proof.
  intros HP. revert a. induction m as [|m IH]; intros a Hv Hp Hi Ha Hz.
  - cbn [seq]. apply xsum_zero. intros k Hk. apply in_seq in Hk. rewrite Hz by (auto; lia). apply fmul_0_l. auto.
  - rewrite seq_S, xsum_app. cbn [Nat.add].
    rewrite <- (IH (fun k => if k =? pos m then 0%N else a k)).
    + rewrite (xsum_ext _ (fun k => N.lxor (mu (if k =? pos m then 0%N else a k) (P k)) (if k =? pos m then mu (v m) (P k) else 0%N))).
      * rewrite xsum_xor. f_equal. cbn [xsum fold_right]. rewrite N.lxor_0_r.
        rewrite (xsum_point _ (pos m)); [rewrite Nat.eqb_refl; auto|apply seq_NoDup|apply in_seq; pose proof (Hp m); lia|].
        intros k _ Hk. destruct (Nat.eqb_spec k (pos m)); [contradiction|auto].
      * intros k _. destruct (Nat.eqb_spec k (pos m)) as [->|].
        -- rewrite fmul_0_l, N.lxor_0_l by auto. rewrite Ha by lia. auto.
        -- rewrite N.lxor_0_r. auto.
    + intros; apply Hv; lia.
    + intros; apply Hp; lia.
    + intros i j ? ? ?. apply Hi; auto; lia.
    + intros i Him. destruct (Nat.eqb_spec (pos i) (pos m)) as [E|E]; [apply Hi in E; lia|]. apply Ha. lia.
    + intros k Hk Hki. destruct (Nat.eqb_spec k (pos m)); auto. apply Hz; auto. intros i Him.
      destruct (Nat.eq_dec i m) as [->|]; auto. apply Hki. lia.
Qed.
End Field.
