(** Properties C85 (SVoleKernel::eval_multithread) and C86 (eval_streaming, the malicious flag). *)
From Coq Require Import List NArith ZArith Bool Arith Lia Permutation.
From Verif Require Import LinCodeModel GfModel GfProof GfProps MpfssModel MpfssProof MpfssProps SilverModel SilentVoleModel SilentVoleProof SilentVoleProps.
From Verif Require Import OtExtModel SoftModel SoftProof SoftProps SoftProps2 KernelModel KernelProof.
Import ListNotations.
Open Scope nat_scope.

(** ** Specification *)
(** A list cut for [threads] threads: all pieces but the last have the same length. *)
Definition cut (threads : nat) (l : list N) (ps : list (list N)) : Prop :=
  length ps = threads /\ concat ps = l /\ (forall i, i < threads - 1 -> length (nth i ps []) = length l / threads).

(** ** Lemmas *)
Lemma concat_length_const {A} (l : list (list A)) k : (forall i, i < length l -> length (nth i l []) = k) -> length (concat l) = k * length l.
Proof.
  induction l as [|x l IH]; intros H; cbn [concat length]; [lia|]. rewrite app_length, IH by (intros i Hi; apply (H (S i)); cbn [length]; lia).
  specialize (H 0 ltac:(cbn [length]; lia)). cbn [nth] in H. lia.
Qed.
Lemma concat_split {A} (l : list (list A)) i : i < length l ->
  concat l = concat (firstn i l) ++ nth i l [] ++ concat (skipn (S i) l).
Proof.
  revert i. induction l as [|x l IH]; intros i Hi; cbn [length] in Hi; [lia|]. destruct i as [|i]; [reflexivity|].
  cbn [concat firstn nth]. rewrite (IH i) by lia. change (skipn (S (S i)) (x :: l)) with (skipn (S i) l). rewrite app_assoc. reflexivity.
Qed.
Lemma nth_firstn' {A} (l : list A) i j d : j < i -> nth j (firstn i l) d = nth j l d.
Proof. revert i j. induction l as [|x l IH]; intros [|i] [|j] H; cbn; try lia; auto. apply IH. lia. Qed.
Lemma put_split {A} (l : list A) i x : i < length l -> put l i x = firstn i l ++ x :: skipn (S i) l.
Proof. revert i. induction l as [|y l IH]; intros i H; cbn [length] in H; [lia|]. destruct i as [|i]; [reflexivity|]. cbn [put firstn app]. rewrite IH by lia. reflexivity. Qed.

Section Cut.
Variables (threads : nat) (l : list N) (ps : list (list N)).
Hypothesis HT : 1 <= threads.
Hypothesis HC : cut threads l ps.
Let n := length l.
Lemma cut_offset i : i < threads -> length (concat (firstn i ps)) = n / threads * i.
Proof.
  destruct HC as (L & E & H). intros Hi. rewrite (concat_length_const _ (n / threads)).
  - rewrite firstn_length, L. f_equal. lia.
  - rewrite firstn_length, L. intros j Hj. rewrite nth_firstn' by lia. apply H. lia.
Qed.
Lemma cut_size i : i < threads -> length (nth i ps []) = snd (thread_span n threads i).
Proof.
  destruct HC as (L & E & H). intros Hi. unfold thread_span. cbn [snd]. destruct (i =? threads - 1) eqn:Q.
  - apply Nat.eqb_eq in Q. pose proof (concat_split ps i ltac:(lia)) as S. apply (f_equal (@length N)) in S. rewrite E, !app_length, cut_offset in S by lia.
    rewrite (skipn_all2 ps) in S by lia. cbn [concat length] in S. fold n in S. subst i. lia.
  - apply Nat.eqb_neq in Q. apply H. lia.
Qed.
Lemma cut_window i : i < threads -> window l (thread_span n threads i) = nth i ps [].
Proof.
  intros Hi. pose proof (cut_size i Hi) as S. destruct HC as (L & E & H). unfold window. rewrite <- E at 1. rewrite (concat_split ps i) by lia.
  rewrite <- S. unfold thread_span. cbn [fst]. rewrite <- (cut_offset i Hi). rewrite skipn_app, skipn_all, Nat.sub_diag, app_nil_l, skipn_O.
  rewrite firstn_app, firstn_all, Nat.sub_diag, firstn_O, app_nil_r. reflexivity.
Qed.
Lemma cut_write i v : i < threads -> length v = length (nth i ps []) ->
  length (write_window l (thread_span n threads i) v) = n /\ cut threads (write_window l (thread_span n threads i) v) (put ps i v).
Proof.
  intros Hi Hv. pose proof (cut_size i Hi) as S. destruct HC as (L & E & H).
  assert (W : write_window l (thread_span n threads i) v = concat (put ps i v)).
  { unfold write_window. rewrite <- E at 1 2. rewrite (concat_split ps i) by lia. rewrite put_split by lia. rewrite concat_app. cbn [concat].
    unfold thread_span. cbn [fst]. rewrite <- (cut_offset i Hi), Hv. rewrite firstn_app, firstn_all, Nat.sub_diag, firstn_O, app_nil_r. f_equal. f_equal.
    rewrite app_assoc, <- app_length, skipn_app, skipn_all, Nat.sub_diag. reflexivity. }
  assert (Ln : length (write_window l (thread_span n threads i) v) = n).
  { rewrite W, put_split by lia. rewrite concat_app. cbn [concat]. rewrite !app_length, Hv. pose proof (f_equal (@length N) (concat_split ps i ltac:(lia))) as Q.
    rewrite !app_length, E in Q. fold n in Q. lia. }
  split; [exact Ln|]. split; [rewrite put_length; exact L|]. split; [symmetry; exact W|]. intros j Hj. rewrite Ln. fold n in H. rewrite put_nth by lia.
  destruct (j =? i) eqn:Q; [apply Nat.eqb_eq in Q; subst j; rewrite Hv|]; apply H; lia.
Qed.
End Cut.
(** Every list can be cut. *)
Lemma cut_exists threads l : 1 <= threads -> exists ps, cut threads l ps.
Proof.
  intros HT. exists (map (fun i => window l (thread_span (length l) threads i)) (seq 0 threads)). set (n := length l).
  assert (D : n / threads * (threads - 1) <= n). { pose proof (Nat.mul_div_le n threads ltac:(lia)). nia. }
  assert (Z : forall k, k < threads -> concat (map (fun i => window l (thread_span n threads i)) (seq 0 k)) = firstn (n / threads * k) l).
  { induction k as [|k IH]; intros Hk; [rewrite Nat.mul_0_r; reflexivity|]. rewrite seq_S, map_app, concat_app, IH by lia. cbn [map concat]. rewrite app_nil_r.
    unfold window, thread_span. cbn [fst snd]. cbn [Nat.add]. rewrite (proj2 (Nat.eqb_neq _ _)) by lia.
    rewrite <- (firstn_skipn (n / threads * k) (firstn (n / threads * S k) l)) at 1.
    rewrite firstn_firstn, Nat.min_l by nia. rewrite skipn_firstn_comm. f_equal. f_equal. lia. }
  split; [rewrite map_length, seq_length; reflexivity|]. split.
  - destruct threads as [|t]; [lia|]. rewrite seq_S, map_app, concat_app, Z by lia. cbn [map concat Nat.add]. rewrite app_nil_r. unfold window, thread_span. cbn [fst snd].
    cbn [Nat.sub] in D |- *. rewrite Nat.sub_0_r in D |- *. rewrite Nat.eqb_refl. rewrite (firstn_all2 (skipn _ _)) by (rewrite skipn_length; fold n; lia).
    apply firstn_skipn.
  - intros i Hi. rewrite SpcotProof.nth_map_seq by lia. unfold window, thread_span. cbn [fst snd]. fold n. rewrite (proj2 (Nat.eqb_neq _ _)) by lia.
    rewrite firstn_length, skipn_length. fold n. apply Nat.min_l. nia.
Qed.

(** ** C85: any number of threads, any schedule *)
(** Each task either returns values of the right lengths, or throws; then its pieces stay. *)
Definition task_gives (r : outcome (list N * list N * list N)) (x y z x' y' z' : list N) : Prop :=
  (r = Val (x', y', z') \/ (r = Thrown /\ x' = x /\ y' = y /\ z' = z)) /\
  length x' = length x /\ length y' = length y /\ length z' = length z.

Lemma tasks_ok core threads (HT : 1 <= threads) pa pb pc qa qb qc : forall order a b c ra rb rc,
  cut threads a ra -> cut threads b rb -> cut threads c rc -> length a = length b ->
  NoDup order -> (forall i, In i order -> i < threads) ->
  (forall i, In i order -> nth i ra [] = nth i pa [] /\ nth i rb [] = nth i pb [] /\ nth i rc [] = nth i pc []) ->
  (forall i, i < threads -> task_gives (core i (nth i pa []) (nth i pb []) (nth i pc [])) (nth i pa []) (nth i pb []) (nth i pc []) (nth i qa []) (nth i qb []) (nth i qc [])) ->
  exists a' b' c' sa sb sc, run_tasks core threads order (a, b, c) = Val (a', b', c') /\ cut threads a' sa /\ cut threads b' sb /\ cut threads c' sc /\
    length a' = length a /\ length b' = length b /\ length c' = length c /\
    forall i, i < threads -> if in_dec Nat.eq_dec i order then nth i sa [] = nth i qa [] /\ nth i sb [] = nth i qb [] /\ nth i sc [] = nth i qc []
      else nth i sa [] = nth i ra [] /\ nth i sb [] = nth i rb [] /\ nth i sc [] = nth i rc [].
Proof.
  induction order as [|i order IH]; intros a b c ra rb rc Ca Cb Cc Lab ND Hin Hp HG.
  { exists a, b, c, ra, rb, rc. repeat (split; auto). }
  inversion ND as [|x l N1 N2]; subst. pose proof (Hin i (or_introl eq_refl)) as Hi. destruct (Hp i (or_introl eq_refl)) as (Pa & Pb & Pc).
  destruct (HG i Hi) as (G & L1 & L2 & L3).
  assert (R : exists a1 b1 c1 ra1 rb1 rc1, run_task core threads i (a, b, c) = Val (a1, b1, c1) /\ cut threads a1 ra1 /\ cut threads b1 rb1 /\ cut threads c1 rc1 /\
    length a1 = length a /\ length b1 = length b /\ length c1 = length c /\
    forall j, j < threads -> if j =? i then nth j ra1 [] = nth i qa [] /\ nth j rb1 [] = nth i qb [] /\ nth j rc1 [] = nth i qc []
       else nth j ra1 [] = nth j ra [] /\ nth j rb1 [] = nth j rb [] /\ nth j rc1 [] = nth j rc []).
  { unfold run_task. rewrite (cut_window threads a ra HT Ca i Hi), (cut_window threads c rc HT Cc i Hi). rewrite Lab, (cut_window threads b rb HT Cb i Hi).
    rewrite Pa, Pb, Pc. destruct G as [-> | (-> & G1 & G2 & G3)].
    - eexists _, _, _, (put ra i _), (put rb i _), (put rc i _). split; [reflexivity|].
      destruct (cut_write threads a ra HT Ca i (nth i qa []) Hi ltac:(congruence)) as [A1 A2].
      destruct (cut_write threads b rb HT Cb i (nth i qb []) Hi ltac:(congruence)) as [B1 B2].
      destruct (cut_write threads c rc HT Cc i (nth i qc []) Hi ltac:(congruence)) as [C1 C2]. rewrite Lab in A1, A2.
      split; [exact A2|]. split; [exact B2|]. split; [exact C2|]. split; [exact A1|]. split; [exact B1|]. split; [exact C1|].
      intros j Hj. destruct Ca as (La & _), Cb as (Lb & _), Cc as (Lc & _). rewrite !put_nth by lia. destruct (j =? i); auto.
    - exists a, b, c, ra, rb, rc. repeat (split; [auto|]). intros j Hj. destruct (j =? i) eqn:Q; [|auto]. apply Nat.eqb_eq in Q. subst j.
      rewrite Pa, Pb, Pc, G1, G2, G3. auto. }
  destruct R as (a1 & b1 & c1 & ra1 & rb1 & rc1 & R & Ca1 & Cb1 & Cc1 & La1 & Lb1 & Lc1 & Q1).
  destruct (IH a1 b1 c1 ra1 rb1 rc1 Ca1 Cb1 Cc1 ltac:(lia) N2) as (a' & b' & c' & sa & sb & sc & E & Ca' & Cb' & Cc' & La' & Lb' & Lc' & Q2).
  - intros j Hj. apply Hin. right. exact Hj.
  - intros j Hj. specialize (Q1 j (Hin j (or_intror Hj))). rewrite (proj2 (Nat.eqb_neq j i)) in Q1 by (intros ->; contradiction).
    destruct Q1 as (-> & -> & ->). apply Hp. right. exact Hj.
  - exact HG.
  - exists a', b', c', sa, sb, sc. cbn [run_tasks]. rewrite R. cbn [bind]. split; [exact E|]. split; [exact Ca'|]. split; [exact Cb'|]. split; [exact Cc'|].
    split; [lia|]. split; [lia|]. split; [lia|]. intros j Hj. specialize (Q2 j Hj). specialize (Q1 j Hj).
    destruct (in_dec Nat.eq_dec j order) as [I|I].
    + destruct (in_dec Nat.eq_dec j (i :: order)) as [I'|I']; [exact Q2|]. exfalso. apply I'. right. exact I.
    + destruct (j =? i) eqn:Q.
      * apply Nat.eqb_eq in Q. subst j. destruct (in_dec Nat.eq_dec i (i :: order)) as [I'|I']; [|exfalso; apply I'; left; reflexivity].
        destruct Q2 as (-> & -> & ->). exact Q1.
      * apply Nat.eqb_neq in Q. destruct (in_dec Nat.eq_dec j (i :: order)) as [I'|I']; [exfalso; destruct I' as [->|]; auto|].
        destruct Q2 as (-> & -> & ->). exact Q1.
Qed.
Lemma list_ext {A} (d : A) (l l' : list A) : length l = length l' -> (forall i, i < length l -> nth i l d = nth i l' d) -> l = l'.
Proof. intros L H. apply (nth_ext _ _ d d L). intros i Hi. apply H. exact Hi. Qed.

(** The outputs are the tasks' outputs one after the other, in every order of the tasks; a task
    that throws leaves its part of the spans as it was and the call returns all the same. *)
Theorem svole_threads core threads order a b c pa pb pc qa qb qc :
  1 <= threads -> length a = length b -> Permutation order (seq 0 threads) ->
  cut threads a pa -> cut threads b pb -> cut threads c pc -> length qa = threads -> length qb = threads -> length qc = threads ->
  (forall i, i < threads -> task_gives (core i (nth i pa []) (nth i pb []) (nth i pc [])) (nth i pa []) (nth i pb []) (nth i pc []) (nth i qa []) (nth i qb []) (nth i qc [])) ->
  eval_multithread core threads order a b c = Val (concat qa, concat qb, concat qc).
Proof.
  intros HT Lab HP Ca Cb Cc Lqa Lqb Lqc HG. unfold eval_multithread. rewrite Lab, Nat.eqb_refl, (proj2 (Nat.leb_le 1 threads) HT). cbn [negb].
  destruct (tasks_ok core threads HT pa pb pc qa qb qc order a b c pa pb pc Ca Cb Cc Lab) as (a' & b' & c' & sa & sb & sc & E & Ca' & Cb' & Cc' & _ & _ & _ & Q).
  - apply (Permutation_NoDup (Permutation_sym HP)). apply seq_NoDup.
  - intros i Hi. apply (Permutation_in _ HP) in Hi. apply in_seq in Hi. lia.
  - auto.
  - exact HG.
  - rewrite E. destruct Ca' as (L1 & <- & _), Cb' as (L2 & <- & _), Cc' as (L3 & <- & _).
    assert (K : forall i, i < threads -> nth i sa [] = nth i qa [] /\ nth i sb [] = nth i qb [] /\ nth i sc [] = nth i qc []).
    { intros i Hi. specialize (Q i Hi). destruct (in_dec Nat.eq_dec i order) as [I|I]; [exact Q|]. exfalso. apply I.
      apply (Permutation_in _ (Permutation_sym HP)). apply in_seq. lia. }
    f_equal. f_equal; [f_equal|]; f_equal; apply (list_ext []); try lia; intros i Hi; apply K; lia.
Qed.
Print Assumptions svole_threads.

(** What a task runs: silent VOLE on 64-bit a and 128-bit b, c (SVoleKernel), with its own
    randomness. *)
Record task := mkTask { t_rp : N -> N; t_raw5 : list nat; t_raw11 : list nat; t_nn : nat; t_v : vparam; t_base : list (N * N); t_bits : list bool; t_blks : list N;
  t_r : list nat; t_choices : list bool; t_seeds : nat -> N; t_sp1 : nat -> list N; t_sp2 : nat -> list N; t_seed : N; t_noise : list N; t_outr : list N; t_outs : list N }.
Definition vole_task (blake3 h crh : N -> N) (code : code_type) (m : bool) (delta : N) (t : nat -> task) (i : nat) (a b c : list N) : outcome (list N * list N * list N) :=
  silent_vole (t_rp (t i)) (t_raw5 (t i)) (t_raw11 (t i)) blake3 h crh false true code (t_nn (t i)) m delta (t_base (t i)) (t_bits (t i)) (t_blks (t i)) (t_r (t i))
    (t_seeds (t i)) (t_sp1 (t i)) (t_sp2 (t i)) (t_seed (t i)) (t_noise (t i)) (t_outr (t i)) (t_outs (t i)) a b c.
Definition vole_task_ok (crh : N -> N) (code : code_type) (m : bool) (delta : N) (t : task) (a b c : list N) : Prop :=
  run_ok (t_raw5 t) (t_raw11 t) crh false true code (t_nn t) m (t_v t) delta (t_base t) (t_bits t) (t_blks t) (t_r t) (t_choices t)
    (t_sp1 t) (t_sp2 t) (t_seed t) (t_noise t) (t_outr t) (t_outs t) a b c.

Lemma cut_position threads l ps : 1 <= threads -> cut threads l ps -> forall k, k < length l -> exists i j, i < threads /\ j < length (nth i ps []) /\ k = length (concat (firstn i ps)) + j.
Proof.
  intros HT (L & E & _) k Hk. rewrite <- E in Hk. rewrite <- L. clear - Hk. revert k Hk. induction ps as [|p ps IH]; intros k Hk; cbn [concat] in Hk; [cbn in Hk; lia|].
  rewrite app_length in Hk. destruct (Nat.lt_ge_cases k (length p)) as [Q|Q].
  - exists 0, k. cbn [length nth firstn concat]. repeat split; lia.
  - destruct (IH (k - length p) ltac:(lia)) as (i & j & A & B & C). exists (S i), j. cbn [length nth firstn concat]. rewrite app_length. repeat split; lia.
Qed.
Lemma nth_concat_at (ps : list (list N)) i j d : i < length ps -> j < length (nth i ps []) -> nth (length (concat (firstn i ps)) + j) (concat ps) d = nth j (nth i ps []) d.
Proof.
  intros Hi Hj. rewrite (concat_split ps i Hi) at 1. rewrite app_nth2_plus. apply app_nth1. exact Hj.
Qed.
Lemma firstn_lengths (ps qs : list (list N)) i : length ps = length qs -> (forall j, j < length ps -> length (nth j ps []) = length (nth j qs [])) ->
  length (concat (firstn i ps)) = length (concat (firstn i qs)).
Proof.
  revert qs i. induction ps as [|p ps IH]; intros [|q qs] i L H; cbn [length] in L; try lia.
  destruct i as [|i]; [reflexivity|]. cbn [firstn concat]. rewrite !app_length. pose proof (H 0 ltac:(cbn; lia)) as H0. cbn [nth] in H0. rewrite H0. f_equal.
  apply IH; [lia|]. intros j Hj. apply (H (S j)). cbn; lia.
Qed.
Lemma vole_concat wide delta (pa pb pc : list (list N)) (threads : nat) : length pa = threads -> length pb = threads -> length pc = threads ->
  (forall i, i < threads -> length (nth i pb []) = length (nth i pa []) /\ length (nth i pc []) = length (nth i pa []) /\
     vole wide (length (nth i pa [])) delta (nth i pa []) (nth i pb []) (nth i pc [])) ->
  vole wide (length (concat pa)) delta (concat pa) (concat pb) (concat pc).
Proof.
  intros La Lb Lc H k Hk.
  assert (P : exists i j, i < threads /\ j < length (nth i pa []) /\ k = length (concat (firstn i pa)) + j).
  { clear H. rewrite <- La. clear - Hk. revert k Hk. induction pa as [|p ps IH]; intros k Hk; cbn [concat] in Hk; [cbn in Hk; lia|].
    rewrite app_length in Hk. destruct (Nat.lt_ge_cases k (length p)) as [Q|Q].
    - exists 0, k. cbn [length nth firstn concat]. repeat split; lia.
    - destruct (IH (k - length p) ltac:(lia)) as (i & j & A & B & C). exists (S i), j. cbn [length nth firstn concat]. rewrite app_length. repeat split; lia. }
  destruct P as (i & j & Hi & Hj & ->). destruct (H i Hi) as (Ab & Ac & V).
  rewrite (nth_concat_at pa) by lia.
  assert (Eb : length (concat (firstn i pa)) = length (concat (firstn i pb))) by (apply firstn_lengths; [lia|]; intros q Hq; symmetry; apply H; lia).
  assert (Ec : length (concat (firstn i pa)) = length (concat (firstn i pc))) by (apply firstn_lengths; [lia|]; intros q Hq; symmetry; apply H; lia).
  rewrite Eb at 2. rewrite (nth_concat_at pb) by lia. rewrite Ec. rewrite (nth_concat_at pc) by lia. apply V. exact Hj.
Qed.
Lemma pieces_choose (P : nat -> list N * list N * list N -> Prop) n : (forall i, i < n -> exists x, P i x) ->
  exists qa qb qc, length qa = n /\ length qb = n /\ length qc = n /\ forall i, i < n -> P i (nth i qa [], nth i qb [], nth i qc []).
Proof.
  induction n as [|n IH]; intros H; [exists [], [], []; repeat (split; auto); intros i Hi; lia|].
  destruct IH as (qa & qb & qc & L1 & L2 & L3 & Q); [intros i Hi; apply H; lia|]. destruct (H n ltac:(lia)) as ([[x y] z] & Px).
  exists (qa ++ [x]), (qb ++ [y]), (qc ++ [z]). rewrite !app_length. cbn [length]. split; [lia|]. split; [lia|]. split; [lia|]. intros i Hi.
  destruct (Nat.eq_dec i n) as [->|Ne].
  - rewrite !app_nth2 by lia. rewrite L1, L2, L3, Nat.sub_diag. exact Px.
  - rewrite !app_nth1 by lia. apply Q. lia.
Qed.

(** C85: with any number of threads and any schedule, c = a * delta + b over the whole spans.
    (Expand-accumulate codes add to the spans, see silent_vole_spans: these must hold a VOLE,
    such as zeros.) *)
Theorem svole_threads_correct blake3 h crh code m delta t threads order a b c pa pb pc :
  1 <= threads -> length b = length a -> length c = length a -> Permutation order (seq 0 threads) ->
  cut threads a pa -> cut threads b pb -> cut threads c pc ->
  (forall i, i < threads -> vole_task_ok crh code m delta (t i) (nth i pa []) (nth i pb []) (nth i pc [])) ->
  (code = Silver5 \/ code = Silver11 \/ vole true (length a) delta a b c) ->
  exists a' b' c', eval_multithread (vole_task blake3 h crh code m delta t) threads order a b c = Val (a', b', c') /\
    length a' = length a /\ length b' = length a /\ length c' = length a /\ vole true (length a) delta a' b' c'.
Proof.
  intros HT Lb Lc HP Ca Cb Cc Ok Hcode.
  destruct (pieces_choose (fun i '(x, y, z) => vole_task blake3 h crh code m delta t i (nth i pa []) (nth i pb []) (nth i pc []) = Val (x, y, z) /\
      length x = length (nth i pa []) /\ length y = length (nth i pa []) /\ length z = length (nth i pa []) /\ vole true (length (nth i pa [])) delta x y z) threads)
    as (qa & qb & qc & La & Lqb & Lqc & Q).
  { intros i Hi. specialize (Ok i Hi). unfold vole_task_ok in Ok. unfold vole_task.
    assert (C : (code = Silver5 \/ code = Silver11) \/ vole true (length (nth i pa [])) delta (nth i pa []) (nth i pb []) (nth i pc [])).
    { destruct Hcode as [C|[C|C]]; [left; left; exact C|left; right; exact C|right]. intros j Hj.
      assert (Z : forall x px, cut threads x px -> length x = length a -> length (concat (firstn i px)) = length a / threads * i) by (intros x px Cx Lx; rewrite <- Lx; apply (cut_offset threads x px); auto).
      specialize (C (length (concat (firstn i pa)) + j)).
      assert (Lk : length (concat (firstn i pa)) + j < length a). { destruct Ca as (L & E & _). pose proof (f_equal (@length N) (concat_split pa i ltac:(lia))) as F. rewrite E, !app_length in F. lia. }
      specialize (C Lk). destruct Ok as (_ & _ & _ & _ & _ & Ob & Oc & _).
      pose proof Ca as (Lpa & Ea & _). pose proof Cb as (Lpb & Eb & _). pose proof Cc as (Lpc & Ec & _).
      rewrite <- Ea, <- Eb, <- Ec in C. rewrite (nth_concat_at pa) in C by lia.
      rewrite (Z a pa Ca eq_refl) in C. rewrite <- (Z b pb Cb Lb) in C at 2. rewrite (nth_concat_at pb) in C by lia.
      rewrite <- (Z c pc Cc Lc) in C. rewrite (nth_concat_at pc) in C by lia. exact C. }
    assert (F : exists x y z, silent_vole (t_rp (t i)) (t_raw5 (t i)) (t_raw11 (t i)) blake3 h crh false true code (t_nn (t i)) m delta (t_base (t i)) (t_bits (t i)) (t_blks (t i)) (t_r (t i))
       (t_seeds (t i)) (t_sp1 (t i)) (t_sp2 (t i)) (t_seed (t i)) (t_noise (t i)) (t_outr (t i)) (t_outs (t i)) (nth i pa []) (nth i pb []) (nth i pc []) = Val (x, y, z) /\
       length x = length (nth i pa []) /\ length y = length (nth i pa []) /\ length z = length (nth i pa []) /\ vole true (length (nth i pa [])) (field_delta true delta) x y z).
    { destruct C as [C|C]; [eapply silent_vole_silver; eassumption|eapply silent_vole_accumulates; eassumption]. }
    destruct F as (x & y & z & F). exists (x, y, z). exact F. }
  assert (Lp : forall i, i < threads -> length (nth i pb []) = length (nth i pa []) /\ length (nth i pc []) = length (nth i pa [])).
  { intros i Hi. destruct (Ok i Hi) as (_ & _ & _ & _ & _ & Ob & Oc & _). auto. }
  exists (concat qa), (concat qb), (concat qc). split.
  { eapply svole_threads; eauto. intros i Hi. destruct (Q i Hi) as (E & L1 & L2 & L3 & _). destruct (Lp i Hi) as [P1 P2]. split; [left; exact E|]. lia. }
  assert (S : forall q : list (list N), length q = threads -> (forall i, i < threads -> length (nth i q []) = length (nth i pa [])) -> length (concat q) = length a).
  { intros q Lq Hq. pose proof Ca as (L & E & _). rewrite <- E. rewrite <- (firstn_all q), <- (firstn_all pa). rewrite Lq, L. apply firstn_lengths; [lia|]. intros j Hj. apply Hq. lia. }
  assert (Sa : length (concat qa) = length a) by (apply S; [auto|]; intros i Hi; apply Q; auto).
  split; [exact Sa|]. split; [apply S; [auto|]; intros i Hi; apply Q; auto|]. split; [apply S; [auto|]; intros i Hi; apply Q; auto|].
  rewrite <- Sa. apply (vole_concat true delta qa qb qc threads); auto. intros i Hi. destruct (Q i Hi) as (_ & L1 & L2 & L3 & V). rewrite L1. auto.
Qed.
Print Assumptions svole_threads_correct.

(** A call that cannot run is reported by no one: an expand-accumulate code needs more outputs
    than its degree, so with many threads every task throws; the futures of the pool are
    dropped, the call returns, and the spans are as the caller left them. *)
Lemma short_throws rp raw5 raw11 blake3 h crh tw wide code nn m delta base bits blks r seeds sp1 sp2 seed noise0 outr0 outs0 a0 b0 c0 d :
  degree code = Some d -> length c0 <= d ->
  silent_vole rp raw5 raw11 blake3 h crh tw wide code nn m delta base bits blks r seeds sp1 sp2 seed noise0 outr0 outs0 a0 b0 c0 = Thrown.
Proof.
  intros Hd Hl. unfold silent_vole. destruct (negb _); [reflexivity|].
  assert (V : forall n, (exists v, make_vparam tw code n nn m = Val v) \/ make_vparam tw code n nn m = Thrown).
  { intros n. unfold make_vparam. destruct (has_ratio code); [|right; reflexivity]. cbn zeta. destruct (make_param _ _ _); [left; eexists; reflexivity|right; reflexivity]. }
  destruct (V (length a0)) as [[v ->] | ->]; [|reflexivity]. cbn [bind]. destruct (V (length c0)) as [[v' E']|E']; rewrite E'; [|reflexivity]. cbn [bind].
  repeat (match goal with |- bind (or_throw ?x) _ = _ => destruct x; [|reflexivity] end; cbn [bind or_throw]).
  rewrite (silent_vole_too_short rp raw5 raw11 tw code d (length c0) nn m v' _ c0 Hd Hl E'). reflexivity.
Qed.
Theorem svole_threads_swallow_refuted blake3 h crh code m delta t threads order a b c d :
  1 <= threads -> length b = length a -> length c = length a -> Permutation order (seq 0 threads) ->
  degree code = Some d -> length a - length a / threads * (threads - 1) <= d ->
  eval_multithread (vole_task blake3 h crh code m delta t) threads order a b c = Val (a, b, c).
Proof.
  intros HT Lb Lc HP Hd Hs. destruct (cut_exists threads a HT) as (pa & Ca). destruct (cut_exists threads b HT) as (pb & Cb). destruct (cut_exists threads c HT) as (pc & Cc).
  pose proof Ca as (La & Ea & _). pose proof Cb as (Lb' & Eb & _). pose proof Cc as (Lc' & Ec & _).
  rewrite <- Ea at 2. rewrite <- Eb at 2. rewrite <- Ec at 2. apply (svole_threads _ threads order a b c pa pb pc pa pb pc); auto.
  intros i Hi. split; [|auto]. right. split; [|auto]. unfold vole_task. apply short_throws with d; [exact Hd|].
  rewrite (cut_size threads c pc HT Cc i Hi). unfold thread_span. cbn [snd]. rewrite Lc. destruct (i =? threads - 1); [exact Hs|].
  pose proof (Nat.mul_div_le (length a) threads ltac:(lia)). nia.
Qed.
Print Assumptions svole_threads_swallow_refuted.

(** ** C86: streaming *)
(** A run that returns keeps the lengths of the spans. *)
Definition in_place (core : nat -> list N -> list N -> list N -> outcome (list N * list N * list N)) : Prop :=
  forall i x y z x' y' z', core i x y z = Val (x', y', z') -> length x' = length x /\ length y' = length y /\ length z' = length z.
Lemma write_len (l : list N) w v : fst w + snd w <= length l -> length v = length (window l w) -> length (write_window l w v) = length l.
Proof. intros H Hv. unfold write_window. rewrite !app_length, firstn_length, skipn_length. unfold window in Hv. rewrite firstn_length, skipn_length in Hv. lia. Qed.
Lemma span_in n threads i : 1 <= threads -> i < threads -> fst (thread_span n threads i) + snd (thread_span n threads i) <= n.
Proof.
  intros HT Hi. unfold thread_span. cbn [fst snd]. pose proof (Nat.mul_div_le n threads ltac:(lia)) as D. destruct (i =? threads - 1) eqn:Q.
  - apply Nat.eqb_eq in Q. subst i. nia.
  - apply Nat.eqb_neq in Q. nia.
Qed.
Lemma tasks_len core threads : in_place core -> 1 <= threads -> forall order a b c a' b' c', (forall i, In i order -> i < threads) -> length b = length a ->
  run_tasks core threads order (a, b, c) = Val (a', b', c') -> length a' = length a /\ length b' = length a /\ length c' = length c.
Proof.
  intros HI HT. induction order as [|i order IH]; intros a b c a' b' c' Hin L E; cbn [run_tasks] in E.
  { injection E as <- <- <-. auto. }
  unfold run_task in E. destruct (core i (window a (thread_span (length a) threads i)) (window b (thread_span (length a) threads i)) (window c (thread_span (length c) threads i))) as [[[x y] z]| | |] eqn:F;
    cbn [bind] in E; try discriminate E.
  - destruct (HI _ _ _ _ _ _ _ F) as (X & Y & Z). pose proof (Hin i (or_introl eq_refl)) as Hi.
    pose proof (write_len a _ x (span_in _ threads i HT Hi) X) as A. pose proof (write_len b (thread_span (length a) threads i) y ltac:(rewrite L; apply span_in; auto) Y) as B.
    pose proof (write_len c _ z (span_in _ threads i HT Hi) Z) as C.
    apply IH in E; [|intros j Hj; apply Hin; right; exact Hj|lia]. lia.
  - apply IH in E; auto. intros j Hj. apply Hin. right. exact Hj.
Qed.
Lemma threads_len core threads order a b c a' b' c' : in_place core -> (forall i, In i order -> i < threads) ->
  eval_multithread core threads order a b c = Val (a', b', c') -> length a' = length a /\ length b' = length b /\ length c' = length c.
Proof.
  intros HI Hin E. unfold eval_multithread in E. destruct (length a =? length b) eqn:Q; cbn [negb] in E; [|discriminate]. apply Nat.eqb_eq in Q.
  destruct (1 <=? threads) eqn:T; cbn [negb] in E; [|discriminate]. apply Nat.leb_le in T.
  destruct (tasks_len core threads HI T order a b c a' b' c' Hin (eq_sym Q) E). lia.
Qed.
Lemma perm_below order threads : Permutation order (seq 0 threads) -> forall i, In i order -> i < threads.
Proof. intros HP i Hi. apply (Permutation_in _ HP) in Hi. apply in_seq in Hi. lia. Qed.

(** With one step the call is the multi-threaded one. *)
Theorem svole_streaming_one core threads step order a b c :
  in_place (core 0) -> Permutation (order 0) (seq 0 threads) -> length b = length a -> length c = length a -> 1 <= length a <= step ->
  eval_streaming core threads step order a b c = eval_multithread (core 0) threads (order 0) a b c.
Proof.
  intros HI HP Lb Lc Hs. unfold eval_streaming. rewrite (proj2 (Nat.eqb_neq step 0)) by lia. rewrite Lb, Nat.eqb_refl. cbn [negb].
  assert (K : step_num (length a) step = 1).
  { unfold step_num. replace (length a + step - 1) with (1 * step + (length a - 1)) by lia. rewrite Nat.div_add_l by lia. rewrite Nat.div_small by lia. lia. }
  rewrite K. cbn [for_range]. unfold run_step, subspan, send_pos, recv_pos, local_size. rewrite Lc, K. cbn [Nat.sub Nat.eqb]. rewrite Nat.mul_0_r, Nat.sub_0_r.
  cbn [Nat.ltb Nat.leb bind]. rewrite Nat.min_id. unfold window. cbn [fst snd skipn]. rewrite (firstn_all2 a), (firstn_all2 b), (firstn_all2 c) by lia.
  destruct (eval_multithread (core 0) threads (order 0) a b c) as [[[x y] z]| | |] eqn:E; cbn [bind]; try reflexivity.
  destruct (threads_len _ _ _ _ _ _ _ _ _ HI (perm_below _ _ HP) E) as (X & Y & Z).
  unfold write_window. cbn [fst firstn app Nat.add]. rewrite !skipn_all2, !app_nil_r by lia. reflexivity.
Qed.
(** With more than one step nothing before the last step's part of c is ever written. *)
Theorem svole_streaming_refuted core threads step order a b c a' b' c' :
  (forall s, in_place (core s)) -> (forall s, Permutation (order s) (seq 0 threads)) -> length b = length a -> length c = length a -> 1 <= step < length a ->
  eval_streaming core threads step order a b c = Val (a', b', c') ->
  length c' = length c /\ step <= step * ((length a - 1) / step) /\
  forall k, k < step * ((length a - 1) / step) -> nth k c' 0%N = nth k c 0%N.
Proof.
  intros HI HP Lb Lc Hs E. unfold eval_streaming in E. rewrite (proj2 (Nat.eqb_neq step 0)) in E by lia. rewrite Lb, Nat.eqb_refl in E. cbn [negb] in E.
  set (n := length a) in *. set (q := step_num n step) in *.
  assert (Hq : q - 1 = (n - 1) / step).
  { unfold q, step_num. replace (n + step - 1) with (1 * step + (n - 1)) by lia. rewrite Nat.div_add_l by lia. lia. }
  assert (H1 : step * ((n - 1) / step) < n). { pose proof (Nat.mul_div_le (n - 1) step ltac:(lia)). lia. }
  assert (H2 : 1 <= (n - 1) / step). { apply Nat.div_le_lower_bound; lia. }
  assert (G : forall k beg x y z x' y' z', length x = n -> length y = n -> length z = n ->
      for_range k beg (run_step core threads step order) (x, y, z) = Val (x', y', z') ->
      length z' = n /\ forall j, j < step * ((n - 1) / step) -> nth j z' 0%N = nth j z 0%N).
  { induction k as [|k IH]; intros beg x y z x' y' z' Lx Ly Lz F; cbn [for_range] in F; [injection F as <- <- <-; auto|].
    unfold run_step at 1 in F. unfold subspan in F. rewrite Lx, Lz in F.
    destruct (n <? send_pos n step beg) eqn:Q1; cbn [bind] in F; [discriminate|]. destruct (n <? recv_pos n step beg) eqn:Q2; cbn [bind] in F; [discriminate|].
    apply Nat.ltb_ge in Q1, Q2.
    destruct (eval_multithread _ _ _ _ _ _) as [[[u v] w]| | |] eqn:M in F; cbn [bind] in F; try discriminate F.
    destruct (threads_len _ _ _ _ _ _ _ _ _ (HI beg) (perm_below _ _ (HP beg)) M) as (U & V & W).
    pose proof (fun H => write_len x _ u H U) as LU. pose proof (fun H => write_len y _ v H V) as LV. pose proof (fun H => write_len z _ w H W) as LW.
    cbn [fst snd] in LU, LV, LW. specialize (LU ltac:(lia)). specialize (LV ltac:(lia)). specialize (LW ltac:(lia)).
    destruct (IH _ _ _ _ _ _ _ ltac:(rewrite LU; exact Lx) ltac:(rewrite LV; exact Ly) ltac:(rewrite LW; exact Lz) F) as [G1 G2]. split; [exact G1|].
    intros j Hj. rewrite G2 by exact Hj. unfold write_window. cbn [fst]. unfold send_pos. fold q. rewrite Hq. rewrite app_nth1 by (rewrite firstn_length; lia).
    apply nth_firstn'. exact Hj. }
  destruct (G _ _ _ _ _ _ _ _ eq_refl Lb Lc E) as [G1 G2]. split; [lia|]. split; [nia|]. exact G2.
Qed.
Print Assumptions svole_streaming_one.
Print Assumptions svole_streaming_refuted.
(** So even with an ideal VOLE for every run, two steps give no VOLE; and when the step does not
    divide the size, the two parties call with spans of different sizes. *)
Definition ideal (delta : N) (s i : nat) (x y z : list N) : outcome (list N * list N * list N) :=
  if length x =? length z then Val (map (fun k => 1%N) x, map (fun k => 0%N) y, map (fun k => delta) z) else Hangs.
Lemma nth_const {A} (l : list A) (v d : N) k : k < length l -> nth k (map (fun _ => v) l) d = v.
Proof. revert k. induction l as [|x l IH]; intros [|k] H; cbn in *; try lia; auto. apply IH. lia. Qed.
Lemma ideal_vole delta s i n x y z : (delta < 2 ^ 128)%N -> length x = n -> length y = n -> length z = n ->
  exists a b c, ideal delta s i x y z = Val (a, b, c) /\ length a = n /\ length b = n /\ length c = n /\ vole true n delta a b c.
Proof.
  intros HD Lx Ly Lz. unfold ideal. rewrite Lx, Lz, Nat.eqb_refl. eexists _, _, _. split; [reflexivity|]. rewrite !map_length. repeat (split; [assumption|]).
  intros k Hk. rewrite !nth_const by lia. rewrite N.lxor_0_r. symmetry. apply (proj1 (proj2 (proj2 (proj2 (proj2 (kfield true)))))). exact HD.
Qed.
Theorem svole_streaming_ideal_refuted delta : (0 < delta < 2 ^ 128)%N ->
  exists a b c, eval_streaming (ideal delta) 1 2 (fun _ => [0]) (repeat 0%N 4) (repeat 0%N 4) (repeat 0%N 4) = Val (a, b, c) /\
    (forall k, k < 4 -> nth k a 0%N = 1%N /\ nth k b 0%N = 0%N) /\ ~ vole true 4 delta a b c.
Proof.
  intros HD. eexists _, _, _. split; [reflexivity|]. split; [intros k Hk; do 4 (destruct k as [|k]; [split; reflexivity|]); lia|].
  intros V. specialize (V 0 ltac:(lia)). change (0%N = N.lxor (kmul true 1 delta) 0) in V. rewrite N.lxor_0_r in V.
  rewrite (proj1 (proj2 (proj2 (proj2 (proj2 (kfield true))))) delta) in V by (apply HD). lia.
Qed.
Theorem svole_streaming_sizes_refuted delta :
  eval_streaming (ideal delta) 1 3 (fun _ => [0]) (repeat 0%N 4) (repeat 0%N 4) (repeat 0%N 4) = Hangs.
Proof. reflexivity. Qed.
Print Assumptions svole_streaming_ideal_refuted.
Print Assumptions svole_streaming_sizes_refuted.

(** ** The malicious flag of silent VOLE *)
(** The OT extension of silent VOLE gets the flag as its step: whatever the flag, the sender
    takes every message of the right size with every check message. *)
Theorem svole_malicious_refuted crh tr prg64 mal so n cot msgs seed us :
  let '(k, step, mal', compact) := silent_vole_ote mal in
  unpack (step_of k step) (pprf_num k) n msgs = Some us ->
  forall check, soft_send crh tr prg64 k step mal' compact so n cot msgs seed check <> None.
Proof. unfold silent_vole_ote. intros EU check. eapply soft_semi_honest_accepts. exact EU. Qed.
Print Assumptions svole_malicious_refuted.

(** ** A case *)
(** Eight outputs of a task, as SilentVoleProps.ex_run but with 128-bit b and c. *)
Example ex_run128 (crh : N -> N) code delta z r base_choices a0 b0 c0 : code = ExAcc7 \/ code = Silver5 ->
  (forall x, word 128 (crh x)) -> (delta < 2 ^ 128)%N -> (forall i, word 128 (z i)) -> length base_choices = 128 ->
  length a0 = 8 -> length b0 = 8 -> length c0 = 8 -> words 128 a0 ->
  let v := ex_param code in let bits := ex_bits8 r base_choices v in let q := repeat 0%N 64 in let buf := repeat 0%N (mp (v_mp v)) in
  run_ok (seq 0 5) (seq 0 11) crh false true code 2 false v delta
    (honest_base delta z (ot_count v)) bits (honest_blks delta z bits (ot_count v)) r base_choices (fun _ => q) (fun _ => q) 1%N buf buf buf a0 b0 c0.
Proof.
  intros Hco Hc Hd Hz Lbc La Lb Lc Wa v bits q buf.
  assert (Hv : make_vparam false code 8 2 false = Val v) by (destruct Hco as [-> | ->]; reflexivity).
  destruct (vparam_spec _ _ _ _ _ _ Hv) as (_ & _ & _ & _ & _ & Vp & _ & _ & _ & Vb & _ & Vmo).
  destruct (mpfss_gen_indexes 2 (mp (v_mp v)) false (v_mp v) r Vp) as (Ir & Il).
  destruct (mpfss_choices 2 (mp (v_mp v)) false (v_mp v) (gen_indexes (v_mp v) r) base_choices Vp Il Ir) as (ch & Ech & Lch & _).
  assert (Ea : all_choices v r base_choices = Some bits).
  { unfold bits, ex_bits8. unfold all_choices. rewrite Ech. reflexivity. }
  assert (Lbits : length bits = ot_count v).
  { unfold all_choices in Ea. rewrite Ech in Ea. injection Ea as <-. rewrite app_length, Lch, Lbc. unfold ot_count. rewrite Vb, Vmo. reflexivity. }
  assert (Lq : length q = 64) by apply repeat_length.
  unfold run_ok. rewrite La.
  split; [reflexivity|]. split; [reflexivity|]. split; [exact Hc|]. split; [discriminate|]. split; [lia|]. split; [exact Lb|]. split; [exact Lc|].
  split; [exact Hv|]. split; [destruct Hco as [-> | ->]; vm_compute; reflexivity|].
  split; [intros d; destruct Hco as [-> | ->]; cbn; [injection 1 as <-; lia|discriminate]|].
  split; [exact Ea|]. split; [apply honest_store; auto; lia|].
  split.
  { intros i Hi. unfold honest_base. rewrite (SpcotProof.nth_map_seq (fun i => (z i, N.lxor (z i) delta)) (ot_count v) i (0, 0)%N Hi). apply Hz. }
  split; [apply repeat_length|]. split; [apply repeat_length|]. split; [apply repeat_length|].
  split; [apply Forall_forall; intros x Hx; apply repeat_spec in Hx; subst x; reflexivity|]. split; [exact Wa|]. split; [reflexivity|].
  intros i Hi. cbn [negb]. rewrite Lq.
  assert (B : block_size 2 (mp (v_mp v)) i <= 64).
  { destruct Hco as [-> | ->]; unfold v; destruct i as [|[|i]]; try lia; vm_compute; lia. }
  assert (2 ^ Nat.log2_up (block_size 2 (mp (v_mp v)) i) <= 64).
  { apply Nat.log2_up_le_mono in B. apply (Nat.pow_le_mono_r 2) in B; [exact B|lia]. }
  lia.
Qed.
(** Two threads on sixteen outputs, for every delta, every point and all random bits. *)
Definition ex_task (code : code_type) (delta : N) (z : nat -> N) (r : list nat) (base_choices : list bool) : task :=
  let v := ex_param code in let bits := ex_bits8 r base_choices v in let q := repeat 0%N 64 in let buf := repeat 0%N (mp (v_mp v)) in
  mkTask (fun x => x) (seq 0 5) (seq 0 11) 2 v (honest_base delta z (ot_count v)) bits (honest_blks delta z bits (ot_count v)) r base_choices
    (fun i => N.of_nat i) (fun _ => q) (fun _ => q) 1 buf buf buf.
Example ex_two (blake3 h crh : N -> N) delta z r bc order : (forall x, word 128 (crh x)) -> (delta < 2 ^ 128)%N -> (forall i j, word 128 (z i j)) -> (forall i, length (bc i) = 128) ->
  order = [0; 1] \/ order = [1; 0] ->
  exists a' b' c', eval_multithread (vole_task blake3 h crh Silver5 false delta (fun i => ex_task Silver5 delta (z i) (r i) (bc i))) 2 order
      (repeat 0%N 16) (repeat 0%N 16) (repeat 0%N 16) = Val (a', b', c') /\ length a' = 16 /\ length b' = 16 /\ length c' = 16 /\ vole true 16 delta a' b' c'.
Proof.
  intros Hc Hd Hz Hb Ho. pose (ps := [repeat 0%N 8; repeat 0%N 8]).
  assert (C : cut 2 (repeat 0%N 16) ps) by (split; [reflexivity|]; split; [reflexivity|]; intros i Hi; destruct i; [reflexivity|lia]).
  apply (svole_threads_correct blake3 h crh Silver5 false delta (fun i => ex_task Silver5 delta (z i) (r i) (bc i)) 2 order (repeat 0%N 16) (repeat 0%N 16) (repeat 0%N 16) ps ps ps); auto.
  - destruct Ho as [-> | ->]; [apply Permutation_refl|apply perm_swap].
  - intros i Hi. unfold vole_task_ok, ex_task. cbn [t_raw5 t_raw11 t_nn t_v t_base t_bits t_blks t_r t_choices t_sp1 t_sp2 t_seed t_noise t_outr t_outs].
    assert (P : nth i ps [] = repeat 0%N 8) by (destruct i as [|[|i]]; [reflexivity|reflexivity|lia]). rewrite P.
    apply ex_run128; auto; try reflexivity. apply Forall_forall. intros x Hx. apply repeat_spec in Hx. subst x. reflexivity.
Qed.
Print Assumptions ex_two.
Example ex_cut : cut 2 (map N.of_nat (seq 0 17)) [map N.of_nat (seq 0 8); map N.of_nat (seq 8 9)].
Proof. split; [reflexivity|]. split; [reflexivity|]. intros i Hi. destruct i; [reflexivity|lia]. Qed.
Example ex_threads delta :
  eval_multithread (ideal delta 0) 3 [2; 0; 1] (repeat 0%N 7) (repeat 5%N 7) (repeat 0%N 7) = Val (repeat 1%N 7, repeat 0%N 7, repeat delta 7).
Proof. reflexivity. Qed.
