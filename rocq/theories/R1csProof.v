(** Proofs about the R1CS model. *)
From Coq Require Import Ascii String.
From Coq Require Import ZArith List Bool Arith Lia Znumtheory Setoid.
From Verif Require Import ZpLib VssModel VssProps LinCodeModel BpModel BpProof BpRange R1csModel.
Import ListNotations.
Open Scope Z_scope.
Local Arguments commit : simpl never.

(** ** Two programs that differ in assignments only *)
Section Run.
Variable e : curve.
Notation q := (order e).
Notation pt := (point (grp e)).
Notation bs := (bs e).
Variables (B B_bl : pt).

(** The prover's and the verifier's client make the same calls: assignments may
    be missing on the verifier's side, commitments are the prover's points. *)
Inductive shape : prog (Z * Z) -> prog pt -> Prop :=
| sh_done : shape Done Done
| sh_fail : shape Fail Fail
| sh_commit v r V k k' : commit e B B_bl v r = Val V -> (forall x, shape (k x) (k' x)) -> shape (Commit (v, r) k) (Commit V k')
| sh_mul l r k k' : (forall a b c, shape (k a b c) (k' a b c)) -> shape (Multiply l r k) (Multiply l r k')
| sh_alloc a a' k k' : (forall x, shape (k x) (k' x)) -> shape (Allocate a k) (Allocate a' k')
| sh_allocm a a' k k' : (forall x y z, shape (k x y z) (k' x y z)) -> shape (AllocateMultiplier a k) (AllocateMultiplier a' k')
| sh_con l k k' : shape k k' -> shape (Constrain l k) (Constrain l k')
| sh_chal lb k k' : (forall x, shape (k x) (k' x)) -> shape (ChallengeScalar lb k) (ChallengeScalar lb k')
| sh_msg lb m k k' : shape k k' -> shape (AppendMessage lb m k) (AppendMessage lb m k')
| sh_rand cb cb' k k' : shape cb cb' -> shape k k' -> shape (Randomized cb k) (Randomized cb' k').

Definition commitments (v vb : list Z) : list (outcome pt) := map (fun p => commit e B B_bl (fst p) (snd p)) (combine v vb).
Record sim (s : prover) (x : verifier e) : Prop := {
  m_tr : x_tr e x = s_tr s;
  m_V : map Val (x_V e x) = commitments (s_v s) (s_vb s);
  m_n : x_n e x = length (s_aL s);
  m_cons : x_cons e x = s_cons s;
  m_def : Forall2 shape (s_def s) (x_def e x);
  m_pend : x_pend e x = s_pend s }.
Record inv (s : prover) : Prop := {
  n_R : length (s_aR s) = length (s_aL s);
  n_O : length (s_aO s) = length (s_aL s);
  n_vb : length (s_vb s) = length (s_v s);
  n_pend : forall i, s_pend s = Some i -> (i < length (s_aL s))%nat;
  n_mul : forall i, nth i (s_aO s) 0 = nth i (s_aL s) 0 * nth i (s_aR s) 0 }.

Lemma set_nth_length l : forall i x, length (set_nth l i x) = length l.
Proof. induction l as [|y l IH]; intros [|i] x; cbn [set_nth length]; auto. Qed.
Lemma nth_set_nth l : forall i j x, (i < length l)%nat -> nth j (set_nth l i x) 0 = if Nat.eqb i j then x else nth j l 0.
Proof.
  induction l as [|y l IH]; intros [|i] [|j] x L; cbn [length] in L; try lia; cbn [set_nth nth]; try reflexivity.
  rewrite IH by lia. reflexivity.
Qed.
Lemma nth_snoc (l : list Z) x i : nth i (l ++ [x]) 0 = if Nat.eqb i (length l) then x else nth i l 0.
Proof.
  destruct (Nat.eqb_spec i (length l)) as [->|N]; [apply nth_middle|].
  destruct (Nat.lt_ge_cases i (length l)) as [L|L]; [apply app_nth1; exact L|].
  rewrite !nth_overflow; [reflexivity|exact L|rewrite app_length; cbn [length]; lia].
Qed.
Lemma inv_mul s a b p cs : inv s -> (forall i, p = Some i -> (i <= length (s_aL s))%nat) ->
  inv (with_con (with_mul s a b (a * b) p) cs).
Proof.
  intros [IR IO IV IP IM] HP. constructor; cbn; rewrite ?app_length; cbn [length]; try lia.
  - intros i E. specialize (HP i E). lia.
  - intros i. rewrite !nth_snoc, IR, IO. destruct (Nat.eqb i (length (s_aL s))); [reflexivity|apply IM].
Qed.
Lemma run_inv late p : forall s s', run_prover e B B_bl late p s = Val s' -> inv s -> inv s'.
Proof.
  induction p as [| |[v r] k IH|l r k IH|a k IH|a k IH|l k IH|lb k IH|lb m k IH|cb _ k IH]; intros s s' E I; cbn [run_prover] in E.
  - congruence.
  - discriminate.
  - destruct late; [discriminate|]. destruct (commit e B B_bl v r) as [V| | |]; try discriminate. cbn [bind] in E. apply IH in E; [exact E|].
    destruct I as [IR IO IV IP IM]. constructor; cbn; rewrite ?app_length; cbn [length]; try assumption. lia.
  - destruct (eval s l) as [a| | |]; try discriminate. destruct (eval s r) as [b| | |]; try discriminate. cbn [bind] in E.
    apply IH in E; [exact E|]. apply inv_mul; [exact I|]. intros i Ei. pose proof (n_pend s I i Ei). lia.
  - destruct a as [a|]; [|discriminate]. destruct (s_pend s) as [i|] eqn:P; apply IH in E; try exact E.
    + pose proof (n_pend s I i P) as L. destruct I as [IR IO IV IP IM]. constructor; cbn; rewrite ?set_nth_length; try assumption; [discriminate|].
      intros j. rewrite !nth_set_nth by lia. destruct (Nat.eqb_spec i j) as [->|]; [reflexivity|apply IM].
    + destruct I as [IR IO IV IP IM]. constructor; cbn; rewrite ?app_length; cbn [length]; try lia.
      * intros i [= <-]. lia.
      * intros i. rewrite !nth_snoc, IR, IO. destruct (Nat.eqb i (length (s_aL s))); [lia|apply IM].
  - destruct a as [[a b]|]; [|discriminate]. destruct late; [discriminate|]. apply IH in E; [exact E|].
    replace (with_mul s a b (a * b) (s_pend s)) with (with_con (with_mul s a b (a * b) (s_pend s)) []).
    + apply inv_mul; [exact I|]. intros i Ei. pose proof (n_pend s I i Ei). lia.
    + unfold with_con, with_mul. cbn. rewrite app_nil_r. reflexivity.
  - apply IH in E; [exact E|]. destruct I as [IR IO IV IP IM]. constructor; assumption.
  - destruct (challenge_scalar e (s_tr s) lb) as [st x]. apply IH in E; [exact E|]. destruct I as [IR IO IV IP IM]. constructor; assumption.
  - apply IH in E; [exact E|]. destruct I as [IR IO IV IP IM]. constructor; assumption.
  - destruct late; [discriminate|]. apply IH in E; [exact E|]. destruct I as [IR IO IV IP IM]. constructor; assumption.
Qed.

(** What the second phase leaves alone. *)
Record keeps (n1 : nat) (s s' : prover) : Prop := {
  k_v : s_v s' = s_v s; k_vb : s_vb s' = s_vb s; k_def : s_def s' = s_def s;
  k_len : (length (s_aL s) <= length (s_aL s'))%nat;
  k_L : forall i, (i < n1)%nat -> nth i (s_aL s') 0 = nth i (s_aL s) 0;
  k_R : forall i, (i < n1)%nat -> nth i (s_aR s') 0 = nth i (s_aR s) 0;
  k_O : forall i, (i < n1)%nat -> nth i (s_aO s') 0 = nth i (s_aO s) 0;
  k_pend : forall i, s_pend s' = Some i -> (n1 <= i)%nat }.
Lemma keeps_trans n1 a b c : keeps n1 a b -> keeps n1 b c -> keeps n1 a c.
Proof.
  intros [A1 A2 A3 A4 A5 A6 A7 A8] [C1 C2 C3 C4 C5 C6 C7 C8].
  constructor; try congruence; try lia; intros i I; rewrite ?C5, ?C6, ?C7 by exact I; auto.
Qed.
Lemma run_keeps n1 p : forall s s', run_prover e B B_bl true p s = Val s' -> inv s -> (n1 <= length (s_aL s))%nat ->
  (forall i, s_pend s = Some i -> (n1 <= i)%nat) -> keeps n1 s s'.
Proof.
  induction p as [| |[v r] k IH|l r k IH|a k IH|a k IH|l k IH|lb k IH|lb m k IH|cb _ k IH]; intros s s' E I L P; cbn [run_prover] in E.
  - injection E as <-. constructor; auto.
  - discriminate.
  - discriminate.
  - destruct (eval s l) as [a| | |]; try discriminate. destruct (eval s r) as [b| | |]; try discriminate. cbn [bind] in E.
    apply IH in E.
    + eapply keeps_trans; [|exact E]. constructor; cbn; rewrite ?app_length; auto; try lia;
        intros i Hi; rewrite nth_snoc; rewrite ?(n_R s I), ?(n_O s I); (destruct (Nat.eqb_spec i (length (s_aL s))); [lia|reflexivity]).
    + apply inv_mul; [exact I|]. intros i Ei. pose proof (n_pend s I i Ei). lia.
    + cbn. rewrite app_length. cbn. lia.
    + exact P.
  - destruct a as [a|]; [|discriminate]. destruct (s_pend s) as [i|] eqn:PE.
    + pose proof (n_pend s I i PE) as Li. pose proof (P i eq_refl) as Pi.
      assert (I2 : inv {| s_tr := s_tr s; s_v := s_v s; s_vb := s_vb s; s_aL := s_aL s; s_aR := set_nth (s_aR s) i a;
               s_aO := set_nth (s_aO s) i (nth i (s_aL s) 0 * a); s_cons := s_cons s; s_def := s_def s; s_pend := None |}).
      { destruct I as [IR IO IV IP IM]. constructor; cbn; rewrite ?set_nth_length; try assumption; [discriminate|].
        intros j. rewrite !nth_set_nth by lia. destruct (Nat.eqb_spec i j) as [->|]; [reflexivity|apply IM]. }
      apply IH in E; [|exact I2|exact L|discriminate].
      eapply keeps_trans; [|exact E]. constructor; cbn; auto; try discriminate;
        intros j Hj; rewrite nth_set_nth by (rewrite ?(n_R s I), ?(n_O s I); lia); (destruct (Nat.eqb_spec i j); [lia|reflexivity]).
    + assert (I2 : inv (with_mul s a 0 0 (Some (length (s_aL s))))).
      { destruct I as [IR IO IV IP IM]. constructor; cbn; rewrite ?app_length; cbn [length]; try lia.
        - intros i [= <-]. lia.
        - intros i. rewrite !nth_snoc, IR, IO. destruct (Nat.eqb i (length (s_aL s))); [lia|apply IM]. }
      apply IH in E; [|exact I2|cbn; rewrite app_length; lia|cbn; intros i [= <-]; exact L].
      eapply keeps_trans; [|exact E]. constructor; cbn; rewrite ?app_length; auto; try lia;
        try (intros i Hi; rewrite nth_snoc; rewrite ?(n_R s I), ?(n_O s I); (destruct (Nat.eqb_spec i (length (s_aL s))); [lia|reflexivity])).
      intros i [= <-]. exact L.
  - destruct a as [[a b]|]; discriminate.
  - apply IH in E; [|destruct I; constructor; assumption|exact L|exact P].
    eapply keeps_trans; [|exact E]. constructor; auto.
  - destruct (challenge_scalar e (s_tr s) lb) as [st x].
    apply IH in E; [|destruct I; constructor; assumption|exact L|exact P].
    eapply keeps_trans; [|exact E]. constructor; auto.
  - apply IH in E; [|destruct I; constructor; assumption|exact L|exact P].
    eapply keeps_trans; [|exact E]. constructor; auto.
  - discriminate.
Qed.

Lemma combine_snoc {A C} (a : list A) (b : list C) x y : length a = length b -> combine (a ++ [x]) (b ++ [y]) = combine a b ++ [(x, y)].
Proof. revert b. induction a as [|z a IH]; intros [|w b] L; try discriminate; [reflexivity|]. cbn in *. rewrite IH by lia. reflexivity. Qed.
Lemma sim_len s x : inv s -> sim s x -> length (x_V e x) = length (s_v s).
Proof.
  intros I M. pose proof (f_equal (@length _) (m_V s x M)) as H. unfold commitments in H. rewrite !map_length, combine_length, (n_vb s I) in H. lia.
Qed.
Lemma lockstep late p p' : shape p p' -> forall s s' x, run_prover e B B_bl late p s = Val s' -> inv s -> sim s x ->
  exists x', run_verifier e late p' x = Val x' /\ sim s' x'.
Proof.
  induction 1 as [| |v r V k k' EV _ IH|l r k k' _ IH|a a' k k' _ IH|a a' k k' _ IH|l k k' _ IH|lb k k' _ IH|lb m k k' _ IH|cb cb' k k' SC _ _ IH];
    intros s s' x E I M; cbn [run_prover run_verifier] in *.
  - injection E as <-. exists x. split; [reflexivity|exact M].
  - discriminate.
  - destruct late; [discriminate|]. rewrite EV in E. cbn [bind] in E.
    rewrite (sim_len s x I M). eapply IH; [exact E| |].
    + destruct I as [IR IO IV IP IM]. constructor; cbn; rewrite ?app_length; cbn [length]; try assumption. lia.
    + pose proof (n_vb s I) as LV. destruct M as [Mt MV Mn Mc Md Mp]. constructor; cbn; try assumption; [rewrite Mt; reflexivity|].
      unfold commitments. rewrite combine_snoc by congruence. rewrite !map_app, MV. cbn [map fst snd]. rewrite EV. reflexivity.
  - destruct (eval s l) as [a| | |]; try discriminate. destruct (eval s r) as [b| | |]; try discriminate. cbn [bind] in E.
    rewrite (m_n s x M). eapply IH; [exact E| |].
    + apply inv_mul; [exact I|]. intros i Ei. pose proof (n_pend s I i Ei). lia.
    + destruct M as [Mt MV Mn Mc Md Mp]. constructor; cbn; try assumption; [rewrite app_length; cbn; lia|rewrite Mc; reflexivity].
  - destruct a as [a|]; [|discriminate]. rewrite (m_pend s x M). destruct (s_pend s) as [i|] eqn:PE.
    + eapply IH; [exact E| |].
      * pose proof (n_pend s I i PE) as L. destruct I as [IR IO IV IP IM]. constructor; cbn; rewrite ?set_nth_length; try assumption; [discriminate|].
        intros j. rewrite !nth_set_nth by lia. destruct (Nat.eqb_spec i j) as [->|]; [reflexivity|apply IM].
      * destruct M as [Mt MV Mn Mc Md Mp]. constructor; cbn; rewrite ?app_nil_r; try assumption. reflexivity.
    + rewrite (m_n s x M). eapply IH; [exact E| |].
      * destruct I as [IR IO IV IP IM]. constructor; cbn; rewrite ?app_length; cbn [length]; try lia.
        -- intros i [= <-]. lia.
        -- intros i. rewrite !nth_snoc, IR, IO. destruct (Nat.eqb i (length (s_aL s))); [lia|apply IM].
      * destruct M as [Mt MV Mn Mc Md Mp]. constructor; cbn; rewrite ?app_nil_r; try assumption; [rewrite app_length; cbn; lia|reflexivity].
  - destruct a as [[a b]|]; [|discriminate]. destruct late; [discriminate|]. rewrite (m_n s x M). eapply IH; [exact E| |].
    + replace (with_mul s a b (a * b) (s_pend s)) with (with_con (with_mul s a b (a * b) (s_pend s)) []).
      * apply inv_mul; [exact I|]. intros i Ei. pose proof (n_pend s I i Ei). lia.
      * unfold with_con, with_mul. cbn. rewrite app_nil_r. reflexivity.
    + destruct M as [Mt MV Mn Mc Md Mp]. constructor; cbn; rewrite ?app_nil_r; try assumption. rewrite app_length; cbn; lia.
  - eapply IH; [exact E| |].
    + destruct I as [IR IO IV IP IM]. constructor; assumption.
    + destruct M as [Mt MV Mn Mc Md Mp]. constructor; cbn; try assumption. rewrite Mc. reflexivity.
  - rewrite (m_tr s x M). destruct (challenge_scalar e (s_tr s) lb) as [st c]. eapply IH; [exact E| |].
    + destruct I as [IR IO IV IP IM]. constructor; assumption.
    + destruct M as [Mt MV Mn Mc Md Mp]. constructor; cbn; rewrite ?app_nil_r; try assumption. reflexivity.
  - eapply IH; [exact E| |].
    + destruct I as [IR IO IV IP IM]. constructor; assumption.
    + destruct M as [Mt MV Mn Mc Md Mp]. constructor; cbn; rewrite ?app_nil_r; try assumption. rewrite Mt. reflexivity.
  - destruct late; [discriminate|]. eapply IH; [exact E| |].
    + destruct I as [IR IO IV IP IM]. constructor; assumption.
    + destruct M as [Mt MV Mn Mc Md Mp]. constructor; cbn; try assumption. apply Forall2_app; [exact Md|]. constructor; [exact SC|constructor].
Qed.
Lemma fold_thrown {A} (f : prog A -> prover -> outcome prover) ds (o : outcome prover) : (forall s, o <> Val s) ->
  forall s, fold_left (fun acc cb => bind acc (f cb)) ds o <> Val s.
Proof.
  revert o. induction ds as [|d ds IH]; intros o N s; cbn [fold_left]; [apply N|]. apply IH. intros s0.
  destruct o as [x| | |]; cbn [bind]; try discriminate. exfalso. exact (N x eq_refl).
Qed.
Lemma deferred_lockstep n1 ds ds' : Forall2 shape ds ds' -> forall s s' x,
  fold_left (fun acc cb => bind acc (run_prover e B B_bl true cb)) ds (Val s) = Val s' -> inv s -> sim s x ->
  (n1 <= length (s_aL s))%nat -> (forall i, s_pend s = Some i -> (n1 <= i)%nat) ->
  (exists x', fold_left (fun acc cb => bind acc (run_verifier e true cb)) ds' (Val x) = Val x' /\ sim s' x') /\ inv s' /\ keeps n1 s s'.
Proof.
  induction 1 as [|d d' ds ds' SD _ IH]; intros s s' x E I M L P; cbn [fold_left] in *.
  - injection E as <-. split; [exists x; split; [reflexivity|exact M]|]. split; [exact I|]. constructor; auto.
  - cbn [bind] in E. destruct (run_prover e B B_bl true d s) as [s1| | |] eqn:E1;
      try (exfalso; revert E; apply (fold_thrown (fun cb => run_prover e B B_bl true cb)); intros; discriminate).
    destruct (lockstep true d d' SD s s1 x E1 I M) as [x1 [EX M1]]. pose proof (run_inv true d s s1 E1 I) as I1.
    pose proof (run_keeps n1 d s s1 E1 I L P) as K1.
    destruct (IH s1 s' x1 E I1 M1 ltac:(pose proof (k_len n1 s s1 K1); lia) (k_pend n1 s s1 K1)) as [HX [I2 K2]].
    cbn [bind]. rewrite EX. split; [exact HX|]. split; [exact I2|]. eapply keeps_trans; eassumption.
Qed.
Lemma randomize_lockstep s s' x : randomize_prover e B B_bl s = Val s' -> inv s -> sim s x ->
  (exists x', randomize_verifier e x = Val x' /\ sim s' x') /\ inv s' /\
  s_v s' = s_v s /\ s_vb s' = s_vb s /\ (length (s_aL s) <= length (s_aL s'))%nat /\
  (forall i, (i < length (s_aL s))%nat -> nth i (s_aL s') 0 = nth i (s_aL s) 0 /\ nth i (s_aR s') 0 = nth i (s_aR s) 0 /\ nth i (s_aO s') 0 = nth i (s_aO s) 0).
Proof.
  intros E I M. unfold randomize_prover, randomize_verifier in *.
  assert (EN : is_nil (x_def e x) = is_nil (s_def s)) by (destruct (m_def s x M); reflexivity).
  rewrite EN, (m_tr s x M).
  eapply (deferred_lockstep (length (s_aL s)) _ _ (m_def s x M)) in E as [HX [I2 K]].
  - split; [exact HX|]. split; [exact I2|]. destruct K as [K1 K2 K3 K4 K5 K6 K7 K8]. cbn in *.
    repeat (split; [assumption|]). intros i Hi. auto.
  - destruct I as [IR IO IV IP IM]. constructor; cbn; try assumption. discriminate.
  - destruct M as [Mt MV Mn Mc Md Mp]. constructor; cbn; try assumption; [reflexivity|constructor|reflexivity].
  - reflexivity.
  - discriminate.
Qed.
Lemma new_sim st : sim (new_prover e st) (new_verifier e st) /\ inv (new_prover e st).
Proof.
  split; constructor; cbn; try reflexivity; try constructor; try discriminate. intros i. destruct i; reflexivity.
Qed.
End Run.

(** ** Flattened constraints *)
(** The value of a linear combination under an assignment. *)
Definition value_of (v aL aR aO : list Z) (x : var) : Z :=
  match x with Committed i => nth i v 0 | MulLeft i => nth i aL 0 | MulRight i => nth i aR 0 | MulOut i => nth i aO 0 | One => 1 end.
Fixpoint lc_value (v aL aR aO : list Z) (l : lc) : Z :=
  match l with [] => 0 | (x, c) :: l' => c * value_of v aL aR aO x + lc_value v aL aR aO l' end.
(** z c_1 + z^2 c_2 + ... *)
Fixpoint batch (v aL aR aO : list Z) (z ez : Z) (cs : list lc) : Z :=
  match cs with [] => 0 | c :: cs' => ez * lc_value v aL aR aO c + batch v aL aR aO z (ez * z) cs' end.

Section Flat.
Variables (v aL aR aO : list Z) (z : Z).
Definition total (w : weights) : Z := dot (w_L w) aL + dot (w_R w) aR + dot (w_O w) aO - dot (w_V w) v - w_c w.
Definition sizes (n m : nat) (w : weights) : Prop :=
  length (w_L w) = n /\ length (w_R w) = n /\ length (w_O w) = n /\ length (w_V w) = m.
Lemma add_at_spec l i x l' : add_at l i x = Val l' -> length l' = length l /\ forall k, length k = length l -> dot l' k = dot l k + x * nth i k 0.
Proof.
  unfold add_at. destruct (Nat.ltb_spec i (length l)) as [L|]; [|discriminate]. intros [= <-]. split; [apply set_nth_length|].
  revert i L. induction l as [|y l IH]; intros i L [|k ks] E; try discriminate; cbn [length] in *; [lia|].
  destruct i as [|i]; cbn [set_nth nth dot]; [ring|]. rewrite IH by lia. ring.
Qed.
Lemma flat_term_spec n m ez w t w' : flat_term ez w t = Val w' -> sizes n m w ->
  length aL = n -> length aR = n -> length aO = n -> length v = m ->
  sizes n m w' /\ total w' = total w + ez * (snd t * value_of v aL aR aO (fst t)).
Proof.
  intros E [S1 [S2 [S3 S4]]] L1 L2 L3 L4. unfold flat_term in E. destruct t as [[i|i|i|i|] c]; cbn [fst snd value_of] in *.
  - destruct (add_at (w_V w) i (- (ez * c))) as [l| | |] eqn:A; try discriminate. injection E as <-. apply add_at_spec in A as [AL AD].
    split; [unfold sizes; cbn; repeat split; congruence|]. unfold total. cbn. rewrite AD by congruence. ring.
  - destruct (add_at (w_L w) i (ez * c)) as [l| | |] eqn:A; try discriminate. injection E as <-. apply add_at_spec in A as [AL AD].
    split; [unfold sizes; cbn; repeat split; congruence|]. unfold total. cbn. rewrite AD by congruence. ring.
  - destruct (add_at (w_R w) i (ez * c)) as [l| | |] eqn:A; try discriminate. injection E as <-. apply add_at_spec in A as [AL AD].
    split; [unfold sizes; cbn; repeat split; congruence|]. unfold total. cbn. rewrite AD by congruence. ring.
  - destruct (add_at (w_O w) i (ez * c)) as [l| | |] eqn:A; try discriminate. injection E as <-. apply add_at_spec in A as [AL AD].
    split; [unfold sizes; cbn; repeat split; congruence|]. unfold total. cbn. rewrite AD by congruence. ring.
  - injection E as <-. split; [unfold sizes; cbn; repeat split; congruence|]. unfold total. cbn. ring.
Qed.
Lemma flat_fold_stuck ez c : forall o, (forall w, o <> Val w) -> forall w, fold_left (fun acc t => bind acc (fun w => flat_term ez w t)) c o <> Val w.
Proof.
  induction c as [|t c IH]; intros o N w; cbn [fold_left]; [apply N|]. apply IH. intros w0.
  destruct o as [x| | |]; cbn [bind]; try discriminate. exfalso. exact (N x eq_refl).
Qed.
Lemma flat_lc_spec n m ez c : length aL = n -> length aR = n -> length aO = n -> length v = m -> forall w w',
  fold_left (fun acc t => bind acc (fun w => flat_term ez w t)) c (Val w) = Val w' -> sizes n m w ->
  sizes n m w' /\ total w' = total w + ez * lc_value v aL aR aO c.
Proof.
  intros L1 L2 L3 L4. induction c as [|[x k] c IH]; intros w w' E S; cbn [fold_left] in E.
  - injection E as <-. split; [exact S|]. cbn [lc_value]. ring.
  - cbn [bind] in E. destruct (flat_term ez w (x, k)) as [w1| | |] eqn:E1; try (exfalso; revert E; apply flat_fold_stuck; intros; discriminate).
    destruct (flat_term_spec n m ez w (x, k) w1 E1 S L1 L2 L3 L4) as [S1 T1].
    destruct (IH w1 w' E S1) as [S2 T2]. split; [exact S2|]. rewrite T2, T1. cbn [lc_value fst snd]. ring.
Qed.
Lemma flat_loop_spec n m cs : length aL = n -> length aR = n -> length aO = n -> length v = m -> forall ez w w',
  flat_loop z ez cs w = Val w' -> sizes n m w -> sizes n m w' /\ total w' = total w + batch v aL aR aO z ez cs.
Proof.
  intros L1 L2 L3 L4. induction cs as [|c cs IH]; intros ez w w' E S; cbn [flat_loop batch] in *.
  - injection E as <-. split; [exact S|]. ring.
  - destruct (fold_left (fun acc t => bind acc (fun w => flat_term ez w t)) c (Val w)) as [w1| | |] eqn:E1; try discriminate. cbn [bind] in E.
    destruct (flat_lc_spec n m ez c L1 L2 L3 L4 w w1 E1 S) as [S1 T1]. destruct (IH _ _ _ E S1) as [S2 T2].
    split; [exact S2|]. rewrite T2, T1. ring.
Qed.
Lemma dot_repeat0 k : forall l, dot (repeat 0 k) l = 0.
Proof. induction k as [|k IH]; intros [|x l]; cbn [repeat dot]; try reflexivity. rewrite IH. ring. Qed.
Lemma flattened_spec n m cs w : length aL = n -> length aR = n -> length aO = n -> length v = m ->
  flattened z n m cs = Val w -> sizes n m w /\ total w = batch v aL aR aO z z cs.
Proof.
  intros L1 L2 L3 L4 E. unfold flattened in E. apply (flat_loop_spec n m cs L1 L2 L3 L4) in E as [S T].
  - split; [exact S|]. rewrite T. unfold total. cbn [w_L w_R w_O w_V w_c]. rewrite !dot_repeat0. ring.
  - unfold sizes. cbn. rewrite !repeat_length. auto.
Qed.
End Flat.

(** ** The check *)
Lemma sm_tail n N f : (n <= N)%nat -> (forall i, (n <= i)%nat -> f i = 0) -> sm N f = sm n f.
Proof.
  intros L Z0. replace N with (n + (N - n))%nat by lia. rewrite sm_plus. rewrite (sm_ext (N - n) (fun i => f (n + i)%nat) (fun _ => 0)) by (intros; apply Z0; lia).
  assert (K : forall k, sm k (fun _ => 0) = 0) by (induction k as [|k IH]; [reflexivity|cbn [sm]; rewrite IH; reflexivity]). rewrite K. ring.
Qed.
Lemma nth_firstn_lt (l : list Z) k i : (i < k)%nat -> nth i (firstn k l) 0 = nth i l 0.
Proof. revert k i. induction l as [|x l IH]; intros [|k] [|i] L; try lia; try reflexivity. cbn. apply IH. lia. Qed.
Lemma nth_skipn0 (l : list Z) k i : nth i (skipn k l) 0 = nth (k + i) l 0.
Proof. revert k. induction l as [|x l IH]; intros [|k]; try reflexivity. - destruct i; reflexivity. - apply IH. Qed.
Lemma eqms_nth q a b : Forall2 (eqm q) a b -> forall i, eqm q (nth i a 0) (nth i b 0).
Proof. induction 1 as [|x y a b E _ IH]; intros [|i]; cbn [nth]; try reflexivity; auto. Qed.
Lemma next_pow_le n : (n <= next_power_of_two n)%nat.
Proof.
  unfold next_power_of_two. destruct (Nat.eqb_spec n 0) as [->|N]; [lia|].
  destruct (Nat.eq_dec n 1) as [->|N1]; [cbn; lia|]. apply Nat.log2_up_spec. lia.
Qed.
Lemma VI {A} (a b : A) : Val a = Val b -> a = b.
Proof. congruence. Qed.
Lemma map_Val_inj {A} (a : list A) : forall b, map Val a = map Val b -> a = b.
Proof. induction a as [|x a IH]; intros [|y b] E; try discriminate; [reflexivity|]. cbn in E. injection E as -> E. rewrite (IH b E). reflexivity. Qed.

Section Algebra.
Variables (q : Z) (N : nat) (g h uf y Y aL aR aO sL sR wL wR wO s s' l r : nat -> Z) (x a b w : Z).
Hypothesis HY : forall i, (i < N)%nat -> eqm q (Y i * y i) 1.
Hypothesis HO : forall i, (i < N)%nat -> aO i = aL i * aR i.
Hypothesis Hl : forall i, (i < N)%nat -> eqm q (l i) (x * (aL i + Y i * wR i) + x ^ 2 * aO i + x ^ 3 * sL i).
Hypothesis Hr : forall i, (i < N)%nat -> eqm q (r i) (wO i - y i + x * (y i * aR i + wL i) + x ^ 3 * (y i * sR i)).
Lemma gens_algebra :
  eqm q (x * sm N (fun i => uf i * (aL i * g i + aR i * h i)) + x ^ 2 * sm N (fun i => uf i * (aO i * g i)) + x ^ 3 * sm N (fun i => uf i * (sL i * g i + sR i * h i))
         + sm N (fun i => uf i * (x * (wR i * Y i) - a * s i) * g i) + sm N (fun i => uf i * (Y i * (x * wL i + wO i - b * s' i) - 1) * h i))
        (sm N (fun i => l i * (uf i * g i)) + sm N (fun i => r i * (Y i * uf i * h i)) - a * sm N (fun i => s i * (uf i * g i)) - b * sm N (fun i => s' i * (Y i * uf i * h i))).
Proof.
  rewrite <- !sm_scale, <- !sm_add, <- !sm_sub. apply sm_eqm. intros i I. rewrite (Hl i I), (Hr i I).
  assert (K : eqm q (x * aR i + x ^ 3 * sR i - 1) (Y i * y i * (x * aR i + x ^ 3 * sR i - 1))) by (rewrite (HY i I); mring).
  apply eqm_sub0 in K. apply eqm_sub0.
  transitivity (uf i * h i * (x * aR i + x ^ 3 * sR i - 1 - Y i * y i * (x * aR i + x ^ 3 * sR i - 1))); [mring|]. rewrite K. mring.
Qed.
Lemma poly_algebra :
  eqm q (sm N (fun i => l i * r i))
    (x * sm N (fun i => (aL i + Y i * wR i) * (wO i - y i))
     + x ^ 2 * sm N (fun i => (aL i + Y i * wR i) * (y i * aR i + wL i) + aO i * (wO i - y i))
     + x ^ 3 * sm N (fun i => aO i * (y i * aR i + wL i) + sL i * (wO i - y i))
     + x ^ 4 * sm N (fun i => (aL i + Y i * wR i) * (y i * sR i) + sL i * (y i * aR i + wL i))
     + x ^ 5 * sm N (fun i => aO i * (y i * sR i))
     + x ^ 6 * sm N (fun i => sL i * (y i * sR i))).
Proof. rewrite <- !sm_scale, <- !sm_add. apply sm_eqm. intros i I. rewrite (Hl i I), (Hr i I). mring. Qed.
Lemma t2_algebra :
  eqm q (sm N (fun i => (aL i + Y i * wR i) * (y i * aR i + wL i) + aO i * (wO i - y i)))
    (sm N (fun i => wL i * aL i) + sm N (fun i => wR i * aR i) + sm N (fun i => wO i * aO i) + sm N (fun i => wL i * (wR i * Y i))).
Proof.
  rewrite <- !sm_add. apply sm_eqm. intros i I. rewrite (HO i I).
  transitivity (Y i * y i * (wR i * aR i) + aL i * wL i + aL i * aR i * wO i + wL i * (wR i * Y i)); [mring|]. rewrite (HY i I). mring.
Qed.
End Algebra.

Section Equation.
Variable e : curve.
Hypothesis W : lawful e.
Notation q := (order e).
Notation pt := (point (grp e)).
Notation bs := (bs e).

Lemma x_pow_eqm x k : eqm q (x_pow e x k) (x ^ Z.of_nat k).
Proof.
  unfold x_pow. induction k as [|k IH]; [reflexivity|]. cbn [Nat.iter nat_rect]. fold (Nat.iter k (fun a => mul_mod a x q) 1).
  rewrite mulm, IH, Nat2Z.inj_succ, Z.pow_succ_r by lia. mring.
Qed.
Lemma poly6_spec p x : eqm q (poly6_eval e p x) (t0 p + t1 p * x + t2 p * x ^ 2 + t3 p * x ^ 3 + t4 p * x ^ 4 + t5 p * x ^ 5 + t6 p * x ^ 6).
Proof.
  unfold poly6_eval. rewrite !addm, !mulm, !x_pow_eqm. change (Z.of_nat 1) with 1. change (Z.of_nat 2) with 2. change (Z.of_nat 3) with 3.
  change (Z.of_nat 4) with 4. change (Z.of_nat 5) with 5. change (Z.of_nat 6) with 6. mring.
Qed.
Lemma vecpoly3_nth p x i : (i < length (v0 p))%nat ->
  eqm q (nth i (vecpoly3_eval e p x) 0) (nth i (v0 p) 0 + nth i (v1 p) 0 * x + nth i (v2 p) 0 * x ^ 2 + nth i (v3 p) 0 * x ^ 3).
Proof.
  intros I. unfold vecpoly3_eval. rewrite nth_map_seq by exact I. rewrite !addm. rewrite (mulm e _ x), (mulm e _ (mul_mod x x q)), (mulm e _ (mul_mod (mul_mod x x q) x q)).
  rewrite (mulm e (mul_mod x x q) x), (mulm e x x). mring.
Qed.

Variables (n1 n N m : nat) (beta : Z).
Hypothesis L1 : (n1 <= n)%nat.
Hypothesis L2 : (n <= N)%nat.

Definition uf (u : Z) (i : nat) : Z := if Nat.ltb i n1 then 1 else u.
Lemma uf_split u f : (forall i, (n <= i)%nat -> f i = 0) ->
  sm N (fun i => uf u i * f i) = sm n1 f + u * sm (n - n1) (fun i => f (n1 + i)%nat).
Proof.
  intros F. rewrite (sm_tail n N) by (try exact L2; intros i I; rewrite F by exact I; ring).
  replace n with (n1 + (n - n1))%nat at 1 by lia. rewrite sm_plus. f_equal.
  - apply sm_ext. intros i I. unfold uf. rewrite (proj2 (Nat.ltb_lt i n1) I). ring.
  - rewrite <- sm_scale. apply sm_ext. intros i I. unfold uf. rewrite (proj2 (Nat.ltb_ge (n1 + i) n1)) by lia. ring.
Qed.

Lemma r1_check (w : weights) aL aR aO (sL sR : nat -> Z) v vb gk hk y y_inv u x ww r z cs
    i1 o1 s1 i2 o2 s2 b1 b3 b4 b5 b6 T1 T2 T3 T4 T5 T6 tx txb lv rv a b us vs lk rk s AI1 AO1 S1 AI2 AO2 S2 :
  sizes n m w -> total v aL aR aO w = batch v aL aR aO z z cs ->
  length aL = n -> length aR = n -> length aO = n -> length v = m -> length vb = m -> length gk = N -> length hk = N ->
  (forall i, nth i aO 0 = nth i aL 0 * nth i aR 0) ->
  (forall i, (n <= i)%nat -> sL i = 0) -> (forall i, (n <= i)%nat -> sR i = 0) ->
  eqm q (y * y_inv) 1 ->
  let yp i := nth i (exp_iter_vector e y N) 0 in let Yp i := nth i (exp_iter_vector e y_inv N) 0 in
  let A i := nth i aL 0 in let R i := nth i aR 0 in let O i := nth i aO 0 in
  let wl i := nth i (w_L w) 0 in let wr i := nth i (w_R w) 0 in let wo i := nth i (w_O w) 0 in
  let g i := nth i gk 0 in let h i := nth i hk 0 in
  AI1 = beta * i1 + sm n1 (fun i => A i * g i + R i * h i) -> AI2 = beta * i2 + sm (n - n1) (fun i => A (n1 + i)%nat * g (n1 + i)%nat + R (n1 + i)%nat * h (n1 + i)%nat) ->
  AO1 = beta * o1 + sm n1 (fun i => O i * g i) -> AO2 = beta * o2 + sm (n - n1) (fun i => O (n1 + i)%nat * g (n1 + i)%nat) ->
  S1 = beta * s1 + sm n1 (fun i => sL i * g i + sR i * h i) -> S2 = beta * s2 + sm (n - n1) (fun i => sL (n1 + i)%nat * g (n1 + i)%nat + sR (n1 + i)%nat * h (n1 + i)%nat) ->
  eqm q T1 (sm n (fun i => (A i + Yp i * wr i) * (wo i - yp i))) ->
  eqm q T2 (sm n (fun i => (A i + Yp i * wr i) * (yp i * R i + wl i) + O i * (wo i - yp i))) ->
  eqm q T3 (sm n (fun i => O i * (yp i * R i + wl i) + sL i * (wo i - yp i))) ->
  eqm q T4 (sm n (fun i => (A i + Yp i * wr i) * (yp i * sR i) + sL i * (yp i * R i + wl i))) ->
  eqm q T5 (sm n (fun i => O i * (yp i * sR i))) ->
  eqm q T6 (sm n (fun i => sL i * (yp i * sR i))) ->
  eqm q tx (T1 * x + T2 * x ^ 2 + T3 * x ^ 3 + T4 * x ^ 4 + T5 * x ^ 5 + T6 * x ^ 6) ->
  eqm q txb (b1 * x + dot (w_V w) vb * x ^ 2 + b3 * x ^ 3 + b4 * x ^ 4 + b5 * x ^ 5 + b6 * x ^ 6) ->
  length lv = N -> length rv = N ->
  (forall i, (i < N)%nat -> eqm q (nth i lv 0) (x * (A i + Yp i * wr i) + x ^ 2 * O i + x ^ 3 * sL i)) ->
  (forall i, (i < N)%nat -> eqm q (nth i rv 0) (wo i - yp i + x * (yp i * R i + wl i) + x ^ 3 * (yp i * sR i))) ->
  length us = length lk -> length vs = length rk -> length us = length vs -> length s = N ->
  Forall2 (eqm q) s (svec us vs) ->
  let gf := map (fun i => if Nat.leb n1 i then u else 1) (seq 0 N) in
  let hf := map (fun i => nth i (exp_iter_vector e y_inv N) 0 * nth i gf 0) (seq 0 N) in
  eqm q (dot lv (had gf gk) + dot rv (had hf hk) + ww * dot lv rv + dot (sq us) lk + dot (sq vs) rk)
        (a * dot (svec us vs) (had gf gk) + b * dot (svec vs us) (had hf hk) + ww * (a * b)) ->
  let x_sq := mul_mod x x q in let x_3 := mul_mod x_sq x q in let r_x_sq := mul_mod r x_sq q in
  let x_4 := mul_mod x_sq x_sq q in let x_5 := mul_mod x_4 x q in let x_6 := mul_mod x_3 x_3 q in
  let e_bl := x * ((i1 + u * i2) + x * ((o1 + u * o2) + x * (s1 + u * s2))) in
  let yneg := map (fun i => mul_mod (nth i (w_R w) 0) (nth i (exp_iter_vector e y_inv N) 0) q) (seq 0 n) in
  let delta := inner_product e (w_L w) yneg in
  let term1 := mul_mod ww (sub_mod tx (mul_mod a b q) q) q in
  let term2 := mul_mod r (sub_mod (mul_mod x_sq (add_mod (w_c w) delta q) q) tx q) q in
  let term3 := sub_mod (- e_bl) (mul_mod r txb q) q mod q in
  let u_for_g := map (fun i => if Nat.ltb i n1 then 1 else u) (seq 0 N) in
  let g_scalars := map (fun i =>
    let wR_i := if Nat.ltb i n then nth i yneg 0 else 0 in
    mul_mod (nth i u_for_g 0) (sub_mod (mul_mod x wR_i q) (mul_mod a (nth i s 0) q) q) q) (seq 0 N) in
  let h_scalars := map (fun i =>
    let wL_i := if Nat.ltb i n then nth i (w_L w) 0 else 0 in
    let wO_i := if Nat.ltb i n then nth i (w_O w) 0 else 0 in
    let h := sub_mod (add_mod (mul_mod x wL_i q) wO_i q) (mul_mod b (nth i (rev s) 0) q) q in
    mul_mod (nth i u_for_g 0) (sub_mod (mul_mod (nth i (exp_iter_vector e y_inv N) 0) h q) 1 q) q) (seq 0 N) in
  eqm q (dot ([x; x_sq; x_3; mul_mod u x q; mul_mod u x_sq q; mul_mod u x_3 q] ++ map (fun wV => mul_mod r_x_sq wV q) (w_V w) ++
         [mul_mod r x q; mul_mod r x_3 q; mul_mod r x_4 q; mul_mod r x_5 q; mul_mod r x_6 q] ++
         [add_mod term1 term2 q; term3] ++ g_scalars ++ h_scalars ++ map (fun u => mul_mod u u q) us ++ map (fun u => mul_mod u u q) vs)
        ([AI1; AO1; S1; AI2; AO2; S2] ++ map (fun p => fst p + snd p * beta) (combine v vb) ++
         [T1 + b1 * beta; T3 + b3 * beta; T4 + b4 * beta; T5 + b5 * beta; T6 + b6 * beta] ++ [1; beta] ++ gk ++ hk ++ lk ++ rk))
     (- (r * x ^ 2 * batch v aL aR aO z z cs)).
Proof.
  intros SZ TT La Lr Lo Lv Lvb Lg Lh HO SL SR YI yp Yp A R O wl wr wo g h EI1 EI2 EO1 EO2 ES1 ES2 ET1 ET2 ET3 ET4 ET5 ET6 TX EB Llv Lrv Hl Hr Lu Lw Luv Ls FS gf hf EQ.
  intros x_sq x_3 r_x_sq x_4 x_5 x_6 e_bl yneg delta term1 term2 term3 u_for_g g_scalars h_scalars.
  destruct SZ as [ZL [ZR [ZO ZV]]].
  assert (OV : forall (l : list Z) i, length l = n -> (n <= i)%nat -> nth i l 0 = 0) by (intros l i E K; apply nth_overflow; rewrite E; exact K).
  assert (FR : Forall2 (eqm q) (rev s) (svec vs us)).
  { rewrite <- svec_rev by exact Luv. clear -FS. induction FS as [|x0 y0 s t E _ IH]; [constructor|]. cbn [rev]. apply eqms_app; [exact IH|]. constructor; [exact E|constructor]. }
  assert (Lgf : length gf = N) by (unfold gf; rewrite map_length, seq_length; reflexivity).
  assert (Lhf : length hf = N) by (unfold hf; rewrite map_length, seq_length; reflexivity).
  assert (Lsv : length (svec us vs) = N) by (rewrite <- (eqms_length FS); exact Ls).
  assert (Lsw : length (svec vs us) = N) by (rewrite <- (eqms_length FR), rev_length; exact Ls).
  assert (GF : forall i, (i < N)%nat -> nth i gf 0 = uf u i).
  { intros i I. unfold gf. rewrite nth_map_seq by exact I. unfold uf. destruct (Nat.leb_spec n1 i), (Nat.ltb_spec i n1); try lia; reflexivity. }
  assert (HF : forall i, (i < N)%nat -> nth i hf 0 = Yp i * uf u i).
  { intros i I. unfold hf. rewrite nth_map_seq by exact I. rewrite GF by exact I. reflexivity. }
  assert (HY : forall i, (i < N)%nat -> eqm q (Yp i * yp i) 1).
  { intros i I. unfold Yp, yp. rewrite !powers_nth by exact I. rewrite Z.mul_comm. apply pow_inv. exact YI. }
  set (S' := fun i => nth i (svec us vs) 0). set (S'' := fun i => nth i (svec vs us) 0).
  set (lf := fun i => nth i lv 0) in *. set (rf := fun i => nth i rv 0) in *.
  (* the inner product equation *)
  assert (Lhg : length (had gf gk) = N) by (rewrite had_length, Lgf, Lg; apply Nat.min_id).
  assert (Lhh : length (had hf hk) = N) by (rewrite had_length, Lhf, Lh; apply Nat.min_id).
  rewrite (dot_sm lv (had gf gk) N), (dot_sm rv (had hf hk) N), (dot_sm lv rv N), (dot_sm (svec us vs) (had gf gk) N), (dot_sm (svec vs us) (had hf hk) N) in EQ
    by assumption.
  rewrite (sm_ext N (fun i => nth i lv 0 * nth i (had gf gk) 0) (fun i => lf i * (uf u i * g i))) in EQ
    by (intros i I; rewrite had_nth by congruence; rewrite GF by exact I; reflexivity).
  rewrite (sm_ext N (fun i => nth i rv 0 * nth i (had hf hk) 0) (fun i => rf i * (Yp i * uf u i * h i))) in EQ
    by (intros i I; rewrite had_nth by congruence; rewrite HF by exact I; reflexivity).
  rewrite (sm_ext N (fun i => nth i (svec us vs) 0 * nth i (had gf gk) 0) (fun i => S' i * (uf u i * g i))) in EQ
    by (intros i I; rewrite had_nth by congruence; rewrite GF by exact I; reflexivity).
  rewrite (sm_ext N (fun i => nth i (svec vs us) 0 * nth i (had hf hk) 0) (fun i => S'' i * (Yp i * uf u i * h i))) in EQ
    by (intros i I; rewrite had_nth by congruence; rewrite HF by exact I; reflexivity).
  change (sm N (fun i => nth i lv 0 * nth i rv 0)) with (sm N (fun i => lf i * rf i)) in EQ.
  pose proof (gens_algebra q N g h (uf u) yp Yp A R O sL sR wl wr wo S' S'' lf rf x a b HY Hl Hr) as GA.
  pose proof (poly_algebra q N yp Yp A R O sL sR wl wr wo lf rf x Hl Hr) as PA.
  pose proof (t2_algebra q N yp Yp A R O wl wr wo HY (fun i _ => HO i)) as TA.
  assert (ZA : forall i, (n <= i)%nat -> A i = 0) by (intros; apply OV; assumption).
  assert (ZRR : forall i, (n <= i)%nat -> R i = 0) by (intros; apply OV; assumption).
  assert (ZOO : forall i, (n <= i)%nat -> O i = 0) by (intros; apply OV; assumption).
  assert (Zwl : forall i, (n <= i)%nat -> wl i = 0) by (intros; apply OV; assumption).
  assert (Zwr : forall i, (n <= i)%nat -> wr i = 0) by (intros; apply OV; assumption).
  assert (Zwo : forall i, (n <= i)%nat -> wo i = 0) by (intros; apply OV; assumption).
  rewrite !(sm_tail n N) with (1 := L2) in TA by (intros i I; rewrite ?ZA, ?ZRR, ?ZOO, ?Zwl, ?Zwr, ?Zwo by exact I; ring).
  rewrite (uf_split u (fun i => A i * g i + R i * h i)), (uf_split u (fun i => O i * g i)), (uf_split u (fun i => sL i * g i + sR i * h i)) in GA
    by (intros i I; rewrite ?ZA, ?ZRR, ?ZOO, ?SL, ?SR by exact I; ring).
  rewrite (sm_tail n N (fun i => (A i + Yp i * wr i) * (wo i - yp i))) in PA by (try exact L2; intros i I; rewrite ZA, Zwr by exact I; ring).
  rewrite (sm_tail n N (fun i => (A i + Yp i * wr i) * (yp i * R i + wl i) + O i * (wo i - yp i))) in PA by (try exact L2; intros i I; rewrite ZA, Zwr, ZOO by exact I; ring).
  rewrite (sm_tail n N (fun i => O i * (yp i * R i + wl i) + sL i * (wo i - yp i))) in PA by (try exact L2; intros i I; rewrite SL, ZOO by exact I; ring).
  rewrite (sm_tail n N (fun i => (A i + Yp i * wr i) * (yp i * sR i) + sL i * (yp i * R i + wl i))) in PA by (try exact L2; intros i I; rewrite ZA, Zwr, SL by exact I; ring).
  rewrite (sm_tail n N (fun i => O i * (yp i * sR i))) in PA by (try exact L2; intros i I; rewrite ZOO by exact I; ring).
  rewrite (sm_tail n N (fun i => sL i * (yp i * sR i))) in PA by (try exact L2; intros i I; rewrite SL by exact I; ring).
  rewrite <- ET1, <- ET2, <- ET3, <- ET4, <- ET5, <- ET6 in PA. rewrite <- ET2 in TA.
  assert (DL : eqm q delta (sm n (fun i => wl i * (wr i * Yp i)))).
  { unfold delta. assert (LY : length yneg = n) by (unfold yneg; rewrite map_length, seq_length; reflexivity).
    rewrite inner_spec by congruence. rewrite (dot_sm _ _ n ZL LY). apply sm_eqm. intros i I. unfold yneg. rewrite nth_map_seq by exact I. rewrite mulm. reflexivity. }
  assert (YN : forall i, (i < N)%nat -> eqm q (if Nat.ltb i n then nth i yneg 0 else 0) (wr i * Yp i)).
  { intros i I. destruct (Nat.ltb_spec i n) as [K|K].
    - unfold yneg. rewrite nth_map_seq by exact K. apply mulm.
    - rewrite Zwr by exact K. mring. }
  assert (UG : forall i, (i < N)%nat -> nth i u_for_g 0 = uf u i).
  { intros i I. unfold u_for_g. rewrite nth_map_seq by exact I. reflexivity. }
  assert (GS : eqm q (dot g_scalars gk) (sm N (fun i => uf u i * (x * (wr i * Yp i) - a * S' i) * g i))).
  { rewrite (dot_sm _ _ N) by (try exact Lg; unfold g_scalars; rewrite map_length, seq_length; reflexivity).
    apply sm_eqm. intros i I. unfold g_scalars. rewrite nth_map_seq by exact I. cbv zeta.
    rewrite mulm, UG, subm, !mulm, (YN i I), (eqms_nth q _ _ FS i) by exact I. reflexivity. }
  assert (HS : eqm q (dot h_scalars hk) (sm N (fun i => uf u i * (Yp i * (x * wl i + wo i - b * S'' i) - 1) * h i))).
  { rewrite (dot_sm _ _ N) by (try exact Lh; unfold h_scalars; rewrite map_length, seq_length; reflexivity).
    apply sm_eqm. intros i I. unfold h_scalars. rewrite nth_map_seq by exact I. cbv zeta.
    replace (if Nat.ltb i n then nth i (w_L w) 0 else 0) with (wl i) by (destruct (Nat.ltb_spec i n); [reflexivity|apply Zwl; assumption]).
    replace (if Nat.ltb i n then nth i (w_O w) 0 else 0) with (wo i) by (destruct (Nat.ltb_spec i n); [reflexivity|apply Zwo; assumption]).
    rewrite mulm, UG by exact I. rewrite subm. rewrite (mulm e (nth i (exp_iter_vector e y_inv N) 0)). rewrite (subm e (add_mod _ _ q)), addm, (mulm e x), (mulm e b), (eqms_nth q _ _ FR i). reflexivity. }
  assert (VS : eqm q (dot (map (fun wV => mul_mod r_x_sq wV q) (w_V w)) (map (fun p => fst p + snd p * beta) (combine v vb)))
                     (r * x ^ 2 * (dot (w_V w) v + beta * dot (w_V w) vb))).
  { assert (RX : eqm q r_x_sq (r * x ^ 2)) by (unfold r_x_sq, x_sq; rewrite mulm, (mulm e x x); mring).
    clear -RX ZV Lv Lvb. revert v vb Lv Lvb. revert ZV. generalize m. induction (w_V w) as [|c l IH]; intros k E v vb E1 E2; cbn [length] in E; subst k.
    - cbn [map dot]. mring.
    - destruct v as [|a v], vb as [|b vb]; try discriminate. cbn [map combine dot fst snd].
      rewrite (IH _ eq_refl v vb) by (cbn in *; lia). rewrite mulm, RX. mring. }
  assert (LG1 : length g_scalars = length gk) by (unfold g_scalars; rewrite map_length, seq_length, Lg; reflexivity).
  assert (LH1 : length h_scalars = length hk) by (unfold h_scalars; rewrite map_length, seq_length, Lh; reflexivity).
  assert (LV1 : length (map (fun wV => mul_mod r_x_sq wV q) (w_V w)) = length (map (fun p => fst p + snd p * beta) (combine v vb)))
    by (rewrite !map_length, combine_length, ZV, Lv, Lvb, Nat.min_id; reflexivity).
  assert (LU1 : length (map (fun u => mul_mod u u q) us) = length lk) by (rewrite map_length; exact Lu).
  rewrite !dot_app by (first [exact LG1|exact LH1|exact LV1|exact LU1|reflexivity]).
  rewrite VS, GS, HS, !sq_dot. cbn [dot].
  assert (QS : eqm q x_sq (x ^ 2)) by (unfold x_sq; rewrite mulm; mring).
  assert (Q3 : eqm q x_3 (x ^ 3)) by (unfold x_3; rewrite mulm, QS; mring).
  assert (Q4 : eqm q x_4 (x ^ 4)) by (unfold x_4; rewrite mulm, QS; mring).
  assert (Q5 : eqm q x_5 (x ^ 5)) by (unfold x_5; rewrite mulm, Q4; mring).
  assert (Q6 : eqm q x_6 (x ^ 6)) by (unfold x_6; rewrite mulm, Q3; mring).
  assert (E1 : eqm q term1 (ww * (tx - a * b))) by (unfold term1; rewrite mulm, subm, (mulm e a b); reflexivity).
  assert (E2 : eqm q term2 (r * (x ^ 2 * (w_c w + delta) - tx))) by (unfold term2; rewrite mulm, subm, (mulm e x_sq), addm, QS; reflexivity).
  assert (E3 : eqm q term3 (- e_bl - r * txb)) by (unfold term3; rewrite eqm_mod, subm, (mulm e r txb); reflexivity).
  rewrite addm, E1, E2, E3, !(mulm e u), !(mulm e r), QS, Q3, Q4, Q5, Q6.
  unfold total in TT.
  assert (DW : dot (w_L w) aL = sm n (fun i => wl i * A i)) by (apply dot_sm; assumption).
  assert (DR : dot (w_R w) aR = sm n (fun i => wr i * R i)) by (apply dot_sm; assumption).
  assert (DO : dot (w_O w) aO = sm n (fun i => wo i * O i)) by (apply dot_sm; assumption).
  rewrite <- DW, <- DR, <- DO in TA. rewrite <- DL in TA.
  set (GX := sm N (fun i => uf u i * (x * (wr i * Yp i) - a * S' i) * g i)) in *.
  set (HX := sm N (fun i => uf u i * (Yp i * (x * wl i + wo i - b * S'' i) - 1) * h i)) in *.
  set (P1 := sm n1 (fun i => A i * g i + R i * h i)) in *.
  set (P2 := sm (n - n1) (fun i => A (n1 + i)%nat * g (n1 + i)%nat + R (n1 + i)%nat * h (n1 + i)%nat)) in *.
  set (P3 := sm n1 (fun i => O i * g i)) in *. set (P4 := sm (n - n1) (fun i => O (n1 + i)%nat * g (n1 + i)%nat)) in *.
  set (P5 := sm n1 (fun i => sL i * g i + sR i * h i)) in *.
  set (P6 := sm (n - n1) (fun i => sL (n1 + i)%nat * g (n1 + i)%nat + sR (n1 + i)%nat * h (n1 + i)%nat)) in *.
  set (X1 := sm N (fun i => lf i * (uf u i * g i))) in *. set (X2 := sm N (fun i => rf i * (Yp i * uf u i * h i))) in *.
  set (X3 := sm N (fun i => S' i * (uf u i * g i))) in *. set (X4 := sm N (fun i => S'' i * (Yp i * uf u i * h i))) in *.
  set (X5 := sm N (fun i => lf i * rf i)) in *.
  set (DU := dot (sq us) lk) in *. set (DV := dot (sq vs) rk) in *.
  rewrite <- TT, EI1, EI2, EO1, EO2, ES1, ES2, EB. unfold e_bl.
  assert (GA' : eqm q (GX + HX) (X1 + X2 - a * X3 - b * X4 - x * (P1 + u * P2) - x ^ 2 * (P3 + u * P4) - x ^ 3 * (P5 + u * P6))).
  { apply eqm_sub0. apply eqm_sub0 in GA. rewrite <- GA. mring. }
  assert (EQ' : eqm q (DU + DV) (a * X3 + b * X4 + ww * (a * b) - X1 - X2 - ww * X5)).
  { apply eqm_sub0. apply eqm_sub0 in EQ. rewrite <- EQ. mring. }
  assert (D2 : eqm q delta (T2 - dot (w_L w) aL - dot (w_R w) aR - dot (w_O w) aO)).
  { apply eqm_sub0. apply eqm_sub0 in TA. transitivity (- (T2 - (dot (w_L w) aL + dot (w_R w) aR + dot (w_O w) aO + delta))); [mring|]. rewrite TA. mring. }
  rewrite D2. rewrite TX.
  transitivity ((GX + HX) + (DU + DV)
     + x * (P1 + u * P2) + x ^ 2 * (P3 + u * P4) + x ^ 3 * (P5 + u * P6)
     + ww * (T1 * x + T2 * x ^ 2 + T3 * x ^ 3 + T4 * x ^ 4 + T5 * x ^ 5 + T6 * x ^ 6 - a * b)
     + r * x ^ 2 * (dot (w_V w) v + w_c w - dot (w_L w) aL - dot (w_R w) aR - dot (w_O w) aO)).
  { mring. }
  rewrite GA', EQ', PA. mring.
Qed.
End Equation.

Section Main.
Variable e : curve.
Hypothesis W : lawful e.
Notation q := (order e).
Notation pt := (point (grp e)).
Notation bs := (bs e).

Lemma share0_spec gs (K : list (list Z)) k l : length K = g_parties gs ->
  share0 e gs (map (map bs) K) k = Val l -> l = map bs (firstn k (nth 0 K [])) /\ (0 < g_parties gs)%nat /\ (k <= g_cap gs)%nat.
Proof.
  intros LK. unfold share0. destruct (Nat.ltb_spec 0 (g_parties gs)) as [P|]; [|discriminate].
  destruct (Nat.leb_spec k (g_cap gs)) as [L|]; [|discriminate]. cbn [andb]. intros E. apply VI in E. subst l.
  change (@nil pt) with (map bs []). rewrite map_nth, firstn_map. auto.
Qed.
Lemma share0_ok gs (K : list (list Z)) k : (0 < g_parties gs)%nat -> (k <= g_cap gs)%nat ->
  share0 e gs (map (map bs) K) k = Val (map bs (firstn k (nth 0 K []))).
Proof.
  intros P L. unfold share0. rewrite (proj2 (Nat.ltb_lt 0 _) P), (proj2 (Nat.leb_le k _) L). cbn [andb].
  change (@nil pt) with (map bs []). rewrite map_nth, firstn_map. reflexivity.
Qed.
Lemma two_dots beta c (a b g h : list Z) k : length a = k -> length b = k -> length g = k -> length h = k ->
  msm e ([c] ++ a ++ b) ([bs beta] ++ map bs g ++ map bs h) =
  Val (bs (beta * c + sm k (fun i => nth i a 0 * nth i g 0 + nth i b 0 * nth i h 0))).
Proof.
  intros La Lb Lg Lh. change [bs beta] with (map bs [beta]). rewrite <- !(map_app bs). rewrite (msm_spec e W) by (rewrite !app_length, La, Lb, Lg, Lh; reflexivity).
  do 2 f_equal. rewrite !dot_app by (first [reflexivity|congruence]). rewrite (dot_sm a g k La Lg), (dot_sm b h k Lb Lh), sm_add. cbn [dot]. ring.
Qed.
Lemma one_dot beta c (a g : list Z) k : length a = k -> length g = k ->
  msm e ([c] ++ a) ([bs beta] ++ map bs g) = Val (bs (beta * c + sm k (fun i => nth i a 0 * nth i g 0))).
Proof.
  intros La Lg. change [bs beta] with (map bs [beta]). rewrite <- !(map_app bs). rewrite (msm_spec e W) by (rewrite !app_length, La, Lg; reflexivity).
  do 2 f_equal. rewrite !dot_app by reflexivity. rewrite (dot_sm a g k La Lg). cbn [dot]. ring.
Qed.
Lemma ip_sm n a b : length a = n -> length b = n -> eqm q (inner_product e a b) (sm n (fun i => nth i a 0 * nth i b 0)).
Proof. intros La Lb. rewrite inner_spec by congruence. rewrite (dot_sm a b n La Lb). reflexivity. Qed.

Lemma poly_coeffs n (l1 l2 l3 r0 r1 r3 : nat -> Z) :
  let P := special_inner_product e {| v0 := repeat 0 n; v1 := map l1 (seq 0 n); v2 := map l2 (seq 0 n); v3 := map l3 (seq 0 n) |}
                                   {| v0 := map r0 (seq 0 n); v1 := map r1 (seq 0 n); v2 := repeat 0 n; v3 := map r3 (seq 0 n) |} in
  eqm q (t0 P) 0 /\ eqm q (t1 P) (sm n (fun i => l1 i * r0 i)) /\ eqm q (t2 P) (sm n (fun i => l1 i * r1 i + l2 i * r0 i)) /\
  eqm q (t3 P) (sm n (fun i => l2 i * r1 i + l3 i * r0 i)) /\ eqm q (t4 P) (sm n (fun i => l1 i * r3 i + l3 i * r1 i)) /\
  eqm q (t5 P) (sm n (fun i => l2 i * r3 i)) /\ eqm q (t6 P) (sm n (fun i => l3 i * r3 i)).
Proof.
  intros P. unfold P, special_inner_product. cbn [t0 t1 t2 t3 t4 t5 t6 v0 v1 v2 v3].
  assert (LM : forall f : nat -> Z, length (map f (seq 0 n)) = n) by (intros; rewrite map_length, seq_length; reflexivity).
  assert (LR : length (repeat 0 n) = n) by apply repeat_length.
  assert (MM : forall f g : nat -> Z, eqm q (inner_product e (map f (seq 0 n)) (map g (seq 0 n))) (sm n (fun i => f i * g i))).
  { intros f g. rewrite (ip_sm n) by apply LM. apply sm_eqm. intros i I. rewrite !nth_map_seq by exact I. reflexivity. }
  assert (RM : forall l, length l = n -> eqm q (inner_product e (repeat 0 n) l) 0).
  { intros l L. rewrite inner_spec by congruence. rewrite dot_repeat0. reflexivity. }
  assert (MR : forall l, length l = n -> eqm q (inner_product e l (repeat 0 n)) 0).
  { intros l L. rewrite inner_spec by congruence. rewrite dot_comm, dot_repeat0. reflexivity. }
  split; [|split; [|split; [|split; [|split; [|split]]]]]; rewrite ?sm_add, ?(RM (repeat 0 n) LR); rewrite ?MM, ?RM, ?MR by (first [apply LM|exact LR]); mring.
Qed.

Theorem r1cs_equation beta gs GK HK p p' st tp s s' pr :
  g_G gs = map (map bs) GK -> g_H gs = map (map bs) HK -> length GK = g_parties gs -> length HK = g_parties gs ->
  Forall (fun l => length l = g_cap gs) GK -> Forall (fun l => length l = g_cap gs) HK -> Z.of_nat (g_cap gs) < 2 ^ 32 ->
  shape e (bs 1) (bs beta) p p' ->
  run_prover e (bs 1) (bs beta) false p (new_prover e st) = Val s ->
  prove e (bs 1) (bs beta) gs tp s = Val (s', pr) ->
  exists x, run_verifier e false p' (new_verifier e st) = Val x /\
    map Val (x_V e x) = commitments e (bs 1) (bs beta) (s_v s') (s_vb s') /\
    inv s' /\
    if existsb (c_inf e) (i_L (r_ipp e pr) ++ i_R (r_ipp e pr)) then verify_r1cs e (bs 1) (bs beta) gs pr x = Thrown
    else exists x' c, replay e gs pr x = Val (x', c) /\ x_cons e x' = s_cons s' /\ x_n e x' = length (s_aL s') /\
      verify_r1cs e (bs 1) (bs beta) gs pr x =
        Val (c_inf e (bs (- (h_r c * h_x c ^ 2 * batch (s_v s') (s_aL s') (s_aR s') (s_aO s') (h_z c) (h_z c) (s_cons s'))))).
Proof.
  intros EG EH LG LH FG FH CAP SH RUN PR.
  destruct (new_sim e (bs 1) (bs beta) st) as [M0 I0].
  destruct (lockstep e (bs 1) (bs beta) false p p' SH _ _ _ RUN I0 M0) as [x [RV M]].
  pose proof (run_inv e (bs 1) (bs beta) false p _ _ RUN I0) as I. clear RUN M0 I0 SH.
  exists x. split; [exact RV|]. clear RV.
  unfold prove in PR. set (n1 := length (s_aL s)) in *.
  destruct (Nat.leb_spec n1 (g_cap gs)) as [C1|]; cbn [negb] in PR; [|discriminate].
  rewrite EG, EH in PR.
  destruct (share0 e gs (map (map bs) GK) n1) as [G1| | |] eqn:EG1; try discriminate. cbn [bind] in PR.
  destruct (share0 e gs (map (map bs) HK) n1) as [H1| | |] eqn:EH1; try discriminate. cbn [bind] in PR.
  apply (share0_spec gs GK n1 G1 LG) in EG1 as [-> [PP _]]. apply (share0_spec gs HK n1 H1 LH) in EH1 as [-> _].
  set (gk := nth 0 GK []) in *. set (hk := nth 0 HK []) in *.
  assert (Lgk : length gk = g_cap gs) by (rewrite Forall_forall in FG; apply FG, nth_In; lia).
  assert (Lhk : length hk = g_cap gs) by (rewrite Forall_forall in FH; apply FH, nth_In; lia).
  assert (FN : forall (l : list Z) k, length l = g_cap gs -> (k <= g_cap gs)%nat -> length (firstn k l) = k) by (intros; rewrite firstn_length; lia).
  rewrite (two_dots beta (k_i1 tp) _ _ _ _ n1 eq_refl (n_R s I)) in PR by (apply FN; assumption). cbn [bind] in PR.
  rewrite (one_dot beta (k_o1 tp) _ _ n1 (n_O s I)) in PR by (apply FN; assumption). cbn [bind] in PR.
  rewrite (two_dots beta (k_s1 tp) _ _ _ _ n1) in PR by (first [apply FN; assumption|rewrite map_length, seq_length; reflexivity]). cbn [bind] in PR.
  match type of PR with context [append_point e (append_u64 e (s_tr s) (text "m") _) (text "A_I1") (bs ?v)] => set (AI1 := v) in * end.
  match type of PR with context [append_point e _ (text "A_O1") (bs ?v)] => set (AO1 := v) in * end.
  match type of PR with context [append_point e _ (text "S1") (bs ?v)] => set (S1 := v) in * end.
  set (st1 := append_point e (append_point e (append_point e (append_u64 e (s_tr s) (text "m") (Z.of_nat (length (s_v s)))) (text "A_I1") (bs AI1)) (text "A_O1") (bs AO1)) (text "S1") (bs S1)) in *.
  destruct (randomize_prover e (bs 1) (bs beta) (with_tr s st1)) as [s2| | |] eqn:RP; try discriminate. cbn [bind] in PR.
  assert (IT : inv (with_tr s st1)) by (destruct I; constructor; assumption).
  set (x1 := vwith e x st1 (x_n e x) [] (x_pend e x)).
  assert (MT : sim e (bs 1) (bs beta) (with_tr s st1) x1).
  { destruct M as [Mt MV Mn Mc Md Mp]. constructor; cbn; rewrite ?app_nil_r; try assumption. reflexivity. }
  destruct (randomize_lockstep e (bs 1) (bs beta) _ s2 x1 RP IT MT) as [[x2 [RV M2]] [I2 [KV [KVB [KL KN]]]]].
  cbn [with_tr s_v s_vb s_aL s_aR s_aO] in KV, KVB, KL, KN. fold n1 in KL, KN.
  set (n := length (s_aL s2)) in *. set (N := next_power_of_two n) in *.
  destruct (Nat.leb_spec N (g_cap gs)) as [C2|]; cbn [negb] in PR; [|discriminate].
  pose proof (next_pow_le n) as NN. fold N in NN.
  rewrite (share0_ok gs GK n PP), (share0_ok gs HK n PP), (share0_ok gs GK N PP), (share0_ok gs HK N PP) in PR by lia. cbn [bind] in PR. fold gk hk in PR.
  (* the second phase *)
  set (A := fun i => nth i (s_aL s2) 0). set (R := fun i => nth i (s_aR s2) 0). set (O := fun i => nth i (s_aO s2) 0).
  set (g := fun i => nth i gk 0). set (h := fun i => nth i hk 0).
  assert (SK : forall (l : list Z) i, length l = g_cap gs -> (i < n - n1)%nat -> nth i (skipn n1 (firstn n l)) 0 = nth (n1 + i) l 0).
  { intros l i L Hi. rewrite nth_skipn0, nth_firstn_lt by lia. reflexivity. }
  assert (SKL : forall (l : list Z), length l = g_cap gs -> length (skipn n1 (firstn n l)) = (n - n1)%nat) by (intros; rewrite skipn_length, FN by lia; reflexivity).
  assert (P2 : exists i2 o2 s2',
    (if Nat.ltb 0 (n - n1)
     then bind (msm e ([k_i2 tp] ++ skipn n1 (s_aL s2) ++ skipn n1 (s_aR s2)) ([bs beta] ++ skipn n1 (map bs (firstn n gk)) ++ skipn n1 (map bs (firstn n hk)))) (fun A_I2 =>
          bind (msm e ([k_o2 tp] ++ skipn n1 (s_aO s2)) ([bs beta] ++ skipn n1 (map bs (firstn n gk)))) (fun A_O2 =>
          bind (msm e ([k_s2 tp] ++ map (k_sL tp) (seq n1 (n - n1)) ++ map (k_sR tp) (seq n1 (n - n1))) ([bs beta] ++ skipn n1 (map bs (firstn n gk)) ++ skipn n1 (map bs (firstn n hk)))) (fun S2 =>
          Val (A_I2, A_O2, S2, (k_i2 tp, k_o2 tp, k_s2 tp)))))
     else Val (identity e, identity e, identity e, (0, 0, 0))) =
    Val (bs (beta * i2 + sm (n - n1) (fun i => A (n1 + i)%nat * g (n1 + i)%nat + R (n1 + i)%nat * h (n1 + i)%nat)),
         bs (beta * o2 + sm (n - n1) (fun i => O (n1 + i)%nat * g (n1 + i)%nat)),
         bs (beta * s2' + sm (n - n1) (fun i => k_sL tp (n1 + i)%nat * g (n1 + i)%nat + k_sR tp (n1 + i)%nat * h (n1 + i)%nat)), (i2, o2, s2'))).
  { destruct (Nat.ltb_spec 0 (n - n1)) as [Pn|Pn].
    - exists (k_i2 tp), (k_o2 tp), (k_s2 tp). rewrite !skipn_map.
      rewrite (two_dots beta (k_i2 tp) _ _ _ _ (n - n1)) by (first [apply SKL; assumption|rewrite skipn_length; rewrite ?(n_R s2 I2); reflexivity]).
      rewrite (one_dot beta (k_o2 tp) _ _ (n - n1)) by (first [apply SKL; assumption|rewrite skipn_length; rewrite ?(n_O s2 I2); reflexivity]).
      rewrite (two_dots beta (k_s2 tp) _ _ _ _ (n - n1)) by (first [apply SKL; assumption|rewrite map_length, seq_length; reflexivity]).
      cbn [bind]. f_equal. f_equal. f_equal; [f_equal|].
      + f_equal. f_equal. apply sm_ext. intros i Hi. rewrite !SK by assumption. rewrite !nth_skipn0. reflexivity.
      + f_equal. f_equal. apply sm_ext. intros i Hi. rewrite !SK by assumption. rewrite !nth_skipn0. reflexivity.
      + f_equal. f_equal. apply sm_ext. intros i Hi. rewrite !SK by assumption.
        assert (NM : forall f : nat -> Z, nth i (map f (seq n1 (n - n1))) 0 = f (n1 + i)%nat).
        { intros f. rewrite (nth_indep _ 0 (f 0%nat)) by (rewrite map_length, seq_length; exact Hi). rewrite map_nth, seq_nth by exact Hi. reflexivity. }
        rewrite !NM. reflexivity.
    - exists 0, 0, 0. replace (n - n1)%nat with 0%nat by lia. cbn [sm]. rewrite Z.mul_0_r. reflexivity. }
  destruct P2 as [i2 [o2 [s2' P2]]]. rewrite P2 in PR. cbn [bind] in PR. clear P2.
  match type of PR with context [append_point e (s_tr s2) (text "A_I2") (bs ?v)] => set (AI2 := v) in * end.
  match type of PR with context [append_point e _ (text "A_O2") (bs ?v)] => set (AO2 := v) in * end.
  match type of PR with context [append_point e _ (text "S2") (bs ?v)] => set (S2 := v) in * end.
  set (st2 := append_point e (append_point e (append_point e (s_tr s2) (text "A_I2") (bs AI2)) (text "A_O2") (bs AO2)) (text "S2") (bs S2)) in *.
  destruct (challenge_scalar e st2 (text "y")) as [st3 y] eqn:Cy.
  destruct (challenge_scalar e st3 (text "z")) as [st4 z] eqn:Cz.
  destruct (flattened z n (length (s_v s2)) (s_cons s2)) as [w| | |] eqn:FL; try discriminate. cbn [bind] in PR.
  destruct (flattened_spec (s_v s2) (s_aL s2) (s_aR s2) (s_aO s2) z n (length (s_v s2)) (s_cons s2) w eq_refl (n_R s2 I2) (n_O s2 I2) eq_refl FL) as [SW TW].
  destruct (invert_mod y q) as [y_inv|] eqn:Iy; [|discriminate].
  destruct (invert_mod_some _ _ _ Iy) as [_ YI].
  set (yp := fun i => nth i (exp_iter_vector e y N) 0) in *. set (Yp := fun i => nth i (exp_iter_vector e y_inv N) 0) in *.
  set (l_poly := {| v0 := repeat 0 n; v1 := map (fun i => nth i (s_aL s2) 0 + nth i (exp_iter_vector e y_inv N) 0 * nth i (w_R w) 0) (seq 0 n);
                    v2 := map (fun i => nth i (s_aO s2) 0) (seq 0 n); v3 := map (k_sL tp) (seq 0 n) |}) in *.
  set (r_poly := {| v0 := map (fun i => nth i (w_O w) 0 - nth i (exp_iter_vector e y N) 0) (seq 0 n);
                    v1 := map (fun i => nth i (exp_iter_vector e y N) 0 * nth i (s_aR s2) 0 + nth i (w_L w) 0) (seq 0 n);
                    v2 := repeat 0 n; v3 := map (fun i => nth i (exp_iter_vector e y N) 0 * k_sR tp i) (seq 0 n) |}) in *.
  pose proof (poly_coeffs n (fun i => nth i (s_aL s2) 0 + nth i (exp_iter_vector e y_inv N) 0 * nth i (w_R w) 0) (fun i => nth i (s_aO s2) 0) (k_sL tp)
     (fun i => nth i (w_O w) 0 - nth i (exp_iter_vector e y N) 0) (fun i => nth i (exp_iter_vector e y N) 0 * nth i (s_aR s2) 0 + nth i (w_L w) 0)
     (fun i => nth i (exp_iter_vector e y N) 0 * k_sR tp i)) as PC. cbv zeta in PC. fold l_poly r_poly in PC.
  set (tt := special_inner_product e l_poly r_poly) in *.
  rewrite !(commit_spec e W) in PR. cbn [bind] in PR.
  set (st5 := append_point e (append_point e (append_point e (append_point e (append_point e st4
      (text "T_1") (bs (t1 tt + k_t1 tp * beta))) (text "T_3") (bs (t3 tt + k_t3 tp * beta))) (text "T_4") (bs (t4 tt + k_t4 tp * beta)))
      (text "T_5") (bs (t5 tt + k_t5 tp * beta))) (text "T_6") (bs (t6 tt + k_t6 tp * beta))) in *.
  destruct (challenge_scalar e st5 (text "u")) as [st6 u] eqn:Cu.
  destruct (challenge_scalar e st6 (text "x")) as [st7 xx] eqn:Cx.
  set (txb := poly6_eval e {| t0 := 0; t1 := k_t1 tp; t2 := inner_product e (w_V w) (s_vb s2); t3 := k_t3 tp; t4 := k_t4 tp; t5 := k_t5 tp; t6 := k_t6 tp |} xx) in *.
  set (tx := poly6_eval e tt xx) in *.
  set (eb := xx * (k_i1 tp + u * i2 + xx * (k_o1 tp + u * o2 + xx * (k_s1 tp + u * s2')))) in *.
  set (st8 := append_scalar e (append_scalar e (append_scalar e st7 (text "t_x") tx) (text "t_x_blinding") txb) (text "e_blinding") eb) in *.
  destruct (challenge_scalar e st8 (text "w")) as [st9 ww] eqn:Cw.
  rewrite (bs_mul e W) in PR. replace (1 * ww) with ww in PR by ring.
  match type of PR with bind ?c _ = _ => destruct c as [[st10 ip]| | |] eqn:EC; try discriminate end.
  cbn [bind] in PR. apply VI in PR.
  assert (ES : s' = with_tr s2 st10) by (injection PR; auto). 
  match type of PR with (_, ?r) = _ => assert (EP : pr = r) by (injection PR; auto) end. clear PR. subst s' pr.
  cbn [with_tr s_v s_vb s_aL s_aR s_aO s_cons r_ipp].
  split; [rewrite (m_V _ _ _ _ _ M), KV, KVB; reflexivity|].
  split; [destruct I2; constructor; assumption|].
  assert (LgN : length (firstn N gk) = N) by (apply FN; assumption). assert (LhN : length (firstn N hk) = N) by (apply FN; assumption).
  destruct (ipa_core e W st9 ww _ _ _ _ _ _ _ _ ltac:(rewrite LgN; lia) EC)
    as [lg [lk [rk [vs [K [L [_ [_ [_ [_ [_ [E1 [E2 [Ll [Lr [IV [LU EQ]]]]]]]]]]]]]]]]].
  rewrite LgN in K, IV, LU, EQ.
  set (us := run_challenges e (ipp_sep e st9 N) (combine (i_L ip) (i_R ip))) in *.
  pose proof (pairs_of e us vs IV) as IP. assert (LVs : length vs = lg) by (rewrite <- LU; clear -IP; induction IP; cbn; congruence).
  (* the verifier *)
  assert (LXV : length (x_V e x) = length (s_v s)) by (apply (sim_len e (bs 1) (bs beta)); assumption).
  assert (XN : x_n e x2 = n) by (apply (m_n _ _ _ _ _ M2)).
  unfold verify_r1cs, replay. cbn [r_AI1 r_AO1 r_S1 r_AI2 r_AO2 r_S2 r_T1 r_T3 r_T4 r_T5 r_T6 r_tx r_txb r_eb r_ipp].
  rewrite LXV, (m_tr _ _ _ _ _ M). fold st1. change (vwith e x st1 (x_n e x) [] (x_pend e x)) with x1. rewrite RV. cbn [bind].
  rewrite XN. fold N. rewrite (proj2 (Nat.leb_le N _) C2), (proj2 (Nat.ltb_lt 0 _) PP). cbn [negb].
  rewrite (m_tr _ _ _ _ _ M2). fold st2. rewrite Cy, Cz. fold st5. rewrite Cu, Cx. fold st8. rewrite Cw.
  pose proof (scalars_spec e ip st9 lg vs ltac:(rewrite E1, map_length; exact Ll) ltac:(rewrite E2, map_length; exact Lr) L) as SC.
  rewrite <- K in SC. fold us in SC. specialize (SC IV).
  destruct (existsb (c_inf e) (i_L ip ++ i_R ip)); [rewrite SC; reflexivity|].
  destruct SC as [st11 [ss [SC FS]]]. rewrite SC. cbn [bind].
  destruct (challenge_scalar e st11 (text "r")) as [st12 r] eqn:Cr. cbn [bind].
  cbn [h_y h_z h_u h_x h_w h_r h_usq h_vsq h_s]. cbn [vwith x_n x_V x_cons].
  rewrite app_nil_r.
  eexists. eexists. split; [reflexivity|]. cbn [vwith x_n x_V x_cons h_y h_z h_u h_x h_w h_r h_usq h_vsq h_s].
  rewrite ?app_nil_r, ?XN. split; [apply (m_cons _ _ _ _ _ M2)|]. split; [reflexivity|].
  assert (LXV2 : length (x_V e x2) = length (s_v s2)) by (apply (sim_len e (bs 1) (bs beta)); assumption).
  rewrite LXV2, (m_cons _ _ _ _ _ M2), FL. cbn [bind]. rewrite Iy. fold N.
  rewrite EG, EH, (share0_ok gs GK N PP C2), (share0_ok gs HK N PP C2). cbn [bind]. fold gk hk.
  assert (XV : x_V e x2 = map bs (map (fun p => fst p + snd p * beta) (combine (s_v s2) (s_vb s2)))).
  { apply map_Val_inj. rewrite (m_V _ _ _ _ _ M2). unfold commitments. rewrite !map_map. apply map_ext. intros [a b]. apply (commit_spec e W). }
  rewrite XV, E1, E2. rewrite (m_n _ _ _ _ _ M). fold n1.
  match goal with |- bind (msm e ?ss ?pp) _ = _ => set (ss0 := ss);
    set (pp0 := [AI1; AO1; S1; AI2; AO2; S2] ++ map (fun p => fst p + snd p * beta) (combine (s_v s2) (s_vb s2)) ++
         [t1 tt + k_t1 tp * beta; t3 tt + k_t3 tp * beta; t4 tt + k_t4 tp * beta; t5 tt + k_t5 tp * beta; t6 tt + k_t6 tp * beta] ++
         [1; beta] ++ firstn N gk ++ firstn N hk ++ lk ++ rk);
    replace pp with (map bs pp0) by (unfold pp0; rewrite !map_app; reflexivity) end.
  assert (LSS : length ss = N) by (rewrite (eqms_length FS), svec_length, LU; congruence).
  assert (LP : length ss0 = length pp0).
  { unfold ss0, pp0. destruct SW as [_ [_ [_ SV]]]. pose proof (n_vb s2 I2) as NV. clear - SV LgN LhN LU LVs Ll Lr NV.
    repeat (rewrite ?app_length, ?map_length, ?seq_length, ?LgN, ?LhN, ?combine_length; cbn [length]). lia. }
  rewrite (msm_spec e W _ _ LP). cbn [bind]. do 2 f_equal. apply (bs_eqm e W).
  destruct PC as [PC0 [PC1 [PC2 [PC3 [PC4 [PC5 PC6]]]]]].
  set (sL := fun i => if Nat.ltb i n then k_sL tp i else 0). set (sR := fun i => if Nat.ltb i n then k_sR tp i else 0).
  assert (sLn : forall i, (i < n)%nat -> sL i = k_sL tp i) by (intros i Hi; unfold sL; rewrite (proj2 (Nat.ltb_lt i n) Hi); reflexivity).
  assert (sRn : forall i, (i < n)%nat -> sR i = k_sR tp i) by (intros i Hi; unfold sR; rewrite (proj2 (Nat.ltb_lt i n) Hi); reflexivity).
  assert (gN : forall i, (i < N)%nat -> nth i (firstn N gk) 0 = g i) by (intros; apply nth_firstn_lt; assumption).
  assert (hN : forall i, (i < N)%nat -> nth i (firstn N hk) 0 = h i) by (intros; apply nth_firstn_lt; assumption).
  assert (LE : forall b k, length (exp_iter_vector e b k) = k) by (intros; apply exp_iter_length).
  unfold ss0, pp0.
  apply (r1_check e n1 n N (length (s_v s2)) beta KL NN w (s_aL s2) (s_aR s2) (s_aO s2) sL sR (s_v s2) (s_vb s2) (firstn N gk) (firstn N hk)
    y y_inv u xx ww r z (s_cons s2) (k_i1 tp) (k_o1 tp) (k_s1 tp) i2 o2 s2' (k_t1 tp) (k_t3 tp) (k_t4 tp) (k_t5 tp) (k_t6 tp)
    (t1 tt) (t2 tt) (t3 tt) (t4 tt) (t5 tt) (t6 tt) tx txb
    (vecpoly3_eval e l_poly xx ++ repeat 0 (N - n)) (vecpoly3_eval e r_poly xx ++ map (fun i => - nth i (exp_iter_vector e y N) 0) (seq n (N - n)))
    (i_a ip) (i_b ip) us vs lk rk ss AI1 AO1 S1 AI2 AO2 S2).
  - exact SW.
  - exact TW.
  - reflexivity.
  - apply (n_R s2 I2).
  - apply (n_O s2 I2).
  - reflexivity.
  - apply (n_vb s2 I2).
  - exact LgN.
  - exact LhN.
  - apply (n_mul s2 I2).
  - intros i Hi. unfold sL. rewrite (proj2 (Nat.ltb_ge i n) Hi). reflexivity.
  - intros i Hi. unfold sR. rewrite (proj2 (Nat.ltb_ge i n) Hi). reflexivity.
  - exact YI.
  - unfold AI1. f_equal. apply sm_ext. intros i Hi. destruct (KN i Hi) as [-> [-> _]]. rewrite !nth_firstn_lt by lia. reflexivity.
  - unfold AI2. f_equal. apply sm_ext. intros i Hi. rewrite !nth_firstn_lt by lia. reflexivity.
  - unfold AO1. f_equal. apply sm_ext. intros i Hi. destruct (KN i Hi) as [_ [_ ->]]. rewrite !nth_firstn_lt by lia. reflexivity.
  - unfold AO2. f_equal. apply sm_ext. intros i Hi. rewrite !nth_firstn_lt by lia. reflexivity.
  - unfold S1. f_equal. apply sm_ext. intros i Hi. rewrite !nth_map_seq by lia. rewrite sLn, sRn by lia. rewrite !nth_firstn_lt by lia. reflexivity.
  - unfold S2. f_equal. apply sm_ext. intros i Hi. rewrite sLn, sRn by lia. rewrite !nth_firstn_lt by lia. reflexivity.
  - exact PC1.
  - exact PC2.
  - rewrite PC3. apply sm_eqm. intros i Hi. rewrite sLn by exact Hi. reflexivity.
  - rewrite PC4. apply sm_eqm. intros i Hi. rewrite sLn, sRn by exact Hi. reflexivity.
  - rewrite PC5. apply sm_eqm. intros i Hi. rewrite sRn by exact Hi. reflexivity.
  - rewrite PC6. apply sm_eqm. intros i Hi. rewrite sLn, sRn by exact Hi. reflexivity.
  - unfold tx. rewrite poly6_spec, PC0. mring.
  - unfold txb. rewrite poly6_spec. cbn [t0 t1 t2 t3 t4 t5 t6]. rewrite inner_spec by (rewrite (n_vb s2 I2); apply SW). mring.
  - rewrite app_length, repeat_length. unfold vecpoly3_eval. rewrite map_length, seq_length. unfold l_poly. cbn [v0]. rewrite repeat_length. lia.
  - rewrite app_length, map_length, seq_length. unfold vecpoly3_eval. rewrite map_length, seq_length. unfold r_poly. cbn [v0]. rewrite map_length, seq_length. lia.
  - intros i Hi.
    assert (LV : length (vecpoly3_eval e l_poly xx) = n) by (unfold vecpoly3_eval; rewrite map_length, seq_length; apply repeat_length).
    destruct (Nat.lt_ge_cases i n) as [In|In].
    + rewrite app_nth1 by lia. rewrite vecpoly3_nth by (unfold l_poly; cbn [v0]; rewrite repeat_length; exact In).
      unfold l_poly. cbn [v0 v1 v2 v3]. rewrite !nth_map_seq by exact In. rewrite nth_repeat, sLn by exact In. mring.
    + rewrite app_nth2 by lia. rewrite nth_repeat. unfold sL. rewrite (proj2 (Nat.ltb_ge i n) In).
      rewrite (nth_overflow (s_aL s2)) by exact In. rewrite (nth_overflow (s_aO s2)) by (rewrite (n_O s2 I2); exact In).
      rewrite (nth_overflow (w_R w)) by (destruct SW as [_ [-> _]]; exact In). mring.
  - intros i Hi.
    assert (LV : length (vecpoly3_eval e r_poly xx) = n) by (unfold vecpoly3_eval; rewrite map_length, seq_length; unfold r_poly; cbn [v0]; rewrite map_length; apply seq_length).
    destruct (Nat.lt_ge_cases i n) as [In|In].
    + rewrite app_nth1 by lia. rewrite vecpoly3_nth by (unfold r_poly; cbn [v0]; rewrite map_length, seq_length; exact In).
      unfold r_poly. cbn [v0 v1 v2 v3]. rewrite !nth_map_seq by exact In. rewrite nth_repeat, sRn by exact In. mring.
    + rewrite app_nth2 by lia. rewrite LV.
      rewrite (nth_indep _ 0 ((fun i => - nth i (exp_iter_vector e y N) 0) 0%nat)) by (rewrite map_length, seq_length; lia).
      rewrite (map_nth (fun i => - nth i (exp_iter_vector e y N) 0)), seq_nth by lia. replace (n + (i - n))%nat with i by lia.
      unfold sR. rewrite (proj2 (Nat.ltb_ge i n) In). rewrite (nth_overflow (s_aR s2)) by (rewrite (n_R s2 I2); exact In).
      rewrite (nth_overflow (w_L w)) by (destruct SW as [-> _]; exact In).
      rewrite (nth_overflow (w_O w)) by (destruct SW as [_ [_ [-> _]]]; exact In). mring.
  - congruence.
  - congruence.
  - congruence.
  - exact LSS.
  - exact FS.
  - exact EQ.
Qed.
End Main.
