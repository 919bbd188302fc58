(** C57: the Silver code (yacl/kernel/code/silver_code.cc). *)
From Coq Require Import NArith ZArith List Bool Arith Lia Permutation Sorted.
From Verif Require Import LinCodeModel LinCodeProof LinCodeProps SilverModel SilverProof.
Import ListNotations.
Open Scope nat_scope.

(** ** Specification
    Two n x n bit matrices.  L has a one at (i, j) when j + e = i modulo n for
    one of the w offsets e drawn by the constructor.  R has ones on the
    diagonal, at gap + 5 and gap + 31 below it, and in the band of the gap
    columns below it, where row i of the band is row (i mod gap) of the table.
    Vectors of blocks multiply a matrix from the left. *)
Definition mat_L (n : nat) (offs : list nat) (i j : nat) : bool := existsb (fun e => (e + j) mod n =? i) offs.
Definition mat_R (gap : nat) (table : list (list nat)) (i j : nat) : bool :=
  (i =? j) || (j + gap + 5 =? i) || (j + gap + 31 =? i) || existsb (fun d => j + gap =? i + d) (nth (i mod gap) table []).
Definition vmul (n : nat) (M : nat -> nat -> bool) (z : list N) (j : nat) : N :=
  xors (map (fun i => if M i j then nth i z 0%N else 0%N) (seq 0 n)).
Definition gap_of (w : nat) : nat := if w =? 5 then 16 else 32.
Definition table_of (w : nat) : list (list nat) := if w =? 5 then diag5 else diag11.

(** Facts of the two tables, by computation. *)
Fixpoint sortedb (l : list nat) : bool :=
  match l with a :: ((b :: _) as l') => (a <? b) && sortedb l' | _ => true end.
Lemma sortedb_ok l : sortedb l = true -> StronglySorted lt l.
Proof.
  intros H. apply Sorted_StronglySorted; [intros x y z; apply Nat.lt_trans|].
  induction l as [|a l IH]; [constructor|]. destruct l as [|b l]; [repeat constructor|].
  cbn [sortedb] in H. apply andb_true_iff in H. destruct H as [H1 H2]. apply Nat.ltb_lt in H1. constructor; [apply IH; exact H2|]. constructor. exact H1.
Qed.
Lemma table_ok g t : (0 <? g) && (g <=? 32) && forallb (fun r => sortedb r && forallb (fun d => d <? g) r) t = true -> wf_diag g t.
Proof.
  intros H. apply andb_true_iff in H. destruct H as [H H3]. apply andb_true_iff in H. destruct H as [H1 H2].
  apply Nat.ltb_lt in H1. apply Nat.leb_le in H2. split; [exact H1|]. split; [exact H2|]. apply Forall_forall. intros r Hr.
  rewrite forallb_forall in H3. apply H3 in Hr. apply andb_true_iff in Hr. destruct Hr as [A B]. split; [apply sortedb_ok; auto|].
  apply Forall_forall. intros d Hd. rewrite forallb_forall in B. apply B in Hd. apply Nat.ltb_lt. exact Hd.
Qed.
Lemma wf5 : wf_diag 16 diag5. Proof. apply table_ok. vm_compute. reflexivity. Qed.
Lemma wf11 : wf_diag 32 diag11. Proof. apply table_ok. vm_compute. reflexivity. Qed.
Lemma wf_of w : wf_diag (gap_of w) (table_of w).
Proof. unfold gap_of, table_of. destruct (w =? 5); [exact wf5|exact wf11]. Qed.

(** A code as the constructor leaves it. *)
Definition built (c : silver) : Prop :=
  (s_weight c = 5 \/ s_weight c = 11) /\ s_gap c = gap_of (s_weight c) /\ s_diag c = table_of (s_weight c) /\
  s_weight c <= s_n c /\ length (s_left c) = s_weight c /\ StronglySorted lt (s_left c) /\ Forall (fun e => e < s_n c) (s_left c).

(** C57: whatever the drawn values, the constructor succeeds for the weights 5
    and 11 as soon as n is at least the weight, and then holds exactly weight
    different offsets below n; every other request throws. *)
Theorem silver_construct : forall n w raw5 raw11, length raw5 = 5 -> length raw11 = 11 ->
  (((w = 5 \/ w = 11) /\ w <= n) ->
    exists c, make_silver n w raw5 raw11 = Val c /\ s_n c = n /\ s_weight c = w /\ length (s_left c) = w /\ NoDup (s_left c) /\
      Forall (fun e => e < n) (s_left c)) /\
  (~ ((w = 5 \/ w = 11) /\ w <= n) -> make_silver n w raw5 raw11 = Thrown).
Proof.
  intros n w raw5 raw11 L5 L11. split.
  - intros [[->| ->] Hn]; cbn [make_silver].
    + destruct (Nat.leb_spec 5 n); [|lia]. destruct (init_left_some n raw5) as [l [E [P1 [P2 P3]]]]; try lia. rewrite E. cbn [bind].
      eexists. split; [reflexivity|]. cbn [s_n s_weight s_left]. repeat split; auto; [lia|apply sorted_nodup; auto].
    + destruct (Nat.leb_spec 11 n); [|lia]. destruct (init_left_some n raw11) as [l [E [P1 [P2 P3]]]]; try lia. rewrite E. cbn [bind].
      eexists. split; [reflexivity|]. cbn [s_n s_weight s_left]. repeat split; auto; [lia|apply sorted_nodup; auto].
  - intros H. destruct (Nat.eq_dec w 5) as [->|N5].
    { cbn [make_silver]. destruct (Nat.leb_spec 5 n); [exfalso; apply H; auto|reflexivity]. }
    destruct (Nat.eq_dec w 11) as [->|N11].
    { cbn [make_silver]. destruct (Nat.leb_spec 11 n); [exfalso; apply H; auto|reflexivity]. }
    do 12 (destruct w as [|w]; [try reflexivity; lia|]). reflexivity.
Qed.
Lemma construct_built n w raw5 raw11 c : length raw5 = 5 -> length raw11 = 11 -> make_silver n w raw5 raw11 = Val c -> built c.
Proof.
  intros L5 L11 E. destruct (Nat.eq_dec w 5) as [->|N5].
  { cbn [make_silver] in E. destruct (Nat.leb_spec 5 n); [|discriminate]. destruct (init_left_some n raw5) as [l [E1 [P1 [P2 P3]]]]; try lia.
    rewrite E1 in E. cbn [bind] in E. injection E. intros <-. unfold built. cbn [s_weight s_gap s_diag s_n s_left]. repeat split; auto; lia. }
  destruct (Nat.eq_dec w 11) as [->|N11].
  { cbn [make_silver] in E. destruct (Nat.leb_spec 11 n); [|discriminate]. destruct (init_left_some n raw11) as [l [E1 [P1 [P2 P3]]]]; try lia.
    rewrite E1 in E. cbn [bind] in E. injection E. intros <-. unfold built. cbn [s_weight s_gap s_diag s_n s_left]. repeat split; auto; lia. }
  exfalso. do 12 (destruct w as [|w]; [try discriminate; lia|]). discriminate.
Qed.

(** ** The two products *)
Lemma nth_skipn {A} (l : list A) d : forall n i, nth i (skipn n l) d = nth (n + i) l d.
Proof. induction l as [|a l IH]; intros [|n] i; cbn [skipn Nat.add]; auto; [destruct i; reflexivity|]. rewrite IH. reflexivity. Qed.
Lemma nth_firstn_lt {A} (l : list A) d : forall n i, i < n -> nth i (firstn n l) d = nth i l d.
Proof. induction l as [|a l IH]; intros [|n] [|i] H; cbn [firstn nth]; auto; try lia. apply IH. lia. Qed.
Lemma vmul_L n offs z j : 0 < n -> NoDup offs -> Forall (fun e => e < n) offs -> vmul n (mat_L n offs) z j = left_row n offs z j.
Proof.
  intros Hn. induction offs as [|e offs IH]; intros ND F.
  - unfold vmul, left_row. cbn [map]. apply xors_zero. intros i _. reflexivity.
  - inversion_clear ND as [|? ? Ne ND']. inversion_clear F as [|? ? Fe F']. unfold left_row. cbn [map]. rewrite xors_cons. fold (left_row n offs z j).
    rewrite <- IH by auto. unfold vmul.
    rewrite <- (xors_pick (nth ((e + j) mod n) z 0%N) ((e + j) mod n) n) by (apply Nat.mod_upper_bound; lia). rewrite <- xors_add.
    apply xors_ext. intros i _. unfold mat_L. cbn [existsb]. destruct (Nat.eqb_spec ((e + j) mod n) i) as [<-|N].
    + rewrite Nat.eqb_refl. cbn [orb]. replace (existsb (fun e0 => (e0 + j) mod n =? (e + j) mod n) offs) with false; [rewrite N.lxor_0_r; reflexivity|].
      symmetry. apply not_true_is_false. intros C. apply existsb_exists in C. destruct C as [e' [He' E]]. apply Nat.eqb_eq in E. apply Ne.
      rewrite Forall_forall in F'. pose proof (F' e' He') as Fe'. replace e with e'; auto.
      assert (Q : forall x, x < n -> (x + j) mod n = if x + j mod n <? n then x + j mod n else x + j mod n - n).
      { intros x Hx. rewrite <- Nat.add_mod_idemp_r by lia. pose proof (Nat.mod_upper_bound j n ltac:(lia)).
        destruct (Nat.ltb_spec (x + j mod n) n); [apply Nat.mod_small; auto|].
        replace (x + j mod n) with ((x + j mod n - n) + 1 * n) at 1 by lia. rewrite Nat.mod_add by lia. apply Nat.mod_small. lia. }
      rewrite !Q in E by lia. pose proof (Nat.mod_upper_bound j n ltac:(lia)).
      destruct (Nat.ltb_spec (e' + j mod n) n), (Nat.ltb_spec (e + j mod n) n); lia.
    + cbn [orb]. destruct (Nat.eqb_spec i ((e + j) mod n)); [congruence|]. rewrite N.lxor_0_l. reflexivity.
Qed.
Lemma vmul_R n g t z j : wf_diag g t -> j < n ->
  vmul n (mat_R g t) z j = N.lxor (nth j z 0%N) (xors (map (fun i => if offdiag g t i j then nth i z 0%N else 0%N) (seq 0 n))).
Proof.
  intros W Hj. unfold vmul. rewrite <- (xors_pick (nth j z 0%N) j n Hj) at 1. rewrite <- xors_add. apply xors_ext. intros i _.
  unfold mat_R. destruct (Nat.eqb_spec i j) as [->|N].
  - cbn [orb]. destruct (offdiag g t j j) eqn:D; [apply offdiag_lt in D; auto; lia|]. rewrite N.lxor_0_r. reflexivity.
  - cbn [orb]. rewrite N.lxor_0_l. unfold offdiag.
    destruct (existsb (fun d => j + g =? i + d) (nth (i mod g) t [])), (j + g + 5 =? i), (j + g + 31 =? i); reflexivity.
Qed.
(** R is triangular with ones on the diagonal, so z R determines z. *)
Lemma R_injective n g t z1 z2 : wf_diag g t -> (forall j, j < n -> vmul n (mat_R g t) z1 j = vmul n (mat_R g t) z2 j) ->
  forall j, j < n -> nth j z1 0%N = nth j z2 0%N.
Proof.
  intros W H. assert (G : forall k j, n - j <= k -> j < n -> nth j z1 0%N = nth j z2 0%N).
  { induction k as [|k IH]; intros j Hk Hj; [lia|]. specialize (H j Hj). rewrite !vmul_R in H by auto.
    rewrite (xors_ext (fun i => if offdiag g t i j then nth i z1 0%N else 0%N) (fun i => if offdiag g t i j then nth i z2 0%N else 0%N)) in H.
    - apply (f_equal (fun v => N.lxor v (xors (map (fun i => if offdiag g t i j then nth i z2 0%N else 0%N) (seq 0 n))))) in H.
      rewrite !N.lxor_assoc, N.lxor_nilpotent, !N.lxor_0_r in H. exact H.
    - intros i Hi. apply in_seq in Hi. destruct (offdiag g t i j) eqn:D; [|reflexivity]. apply offdiag_lt in D; auto. apply IH; lia. }
  intros j Hj. apply (G (n - j)); lia.
Qed.
Lemma vmul_lxor n M a b j : length a = length b ->
  vmul n M (vxor a b) j = N.lxor (vmul n M a j) (vmul n M b j).
Proof.
  intros L. unfold vmul. rewrite <- xors_add. apply xors_ext. intros i _. destruct (M i j); [|reflexivity].
  rewrite vxor_nth by auto. reflexivity.
Qed.

Section Built.
Variable c : silver.
Hypothesis B : built c.
Hypothesis Hn : (Z.of_nat (s_n c) < 2 ^ 31)%Z.
Let n := s_n c. Let w := s_weight c.
Let RM := mat_R (gap_of w) (table_of w). Let LM := mat_L n (s_left c).
Let pos : 0 < n.
Proof. destruct B as [Hw [_ [_ [H _]]]]. unfold n. lia. Qed.
Let wfd : wf_diag (s_gap c) (s_diag c).
Proof. destruct B as [_ [-> [-> _]]]. apply wf_of. Qed.
Lemma right_encode_R y : length y = n -> exists z, right_encode c y = Val z /\ length z = n /\ forall j, j < n -> vmul n RM z j = nth j y 0%N.
Proof.
  intros Ly. destruct (right_encode_solves c ltac:(fold n in Hn |- *; lia) wfd y) as [z [E [L [_ K]]]]; [exact pos|fold n; lia|].
  exists z. split; [exact E|]. split; [lia|]. intros j Hj. rewrite (K j Hj).
  destruct B as [_ [E1 [E2 _]]]. unfold RM. fold w in E1, E2. rewrite <- E1, <- E2. apply vmul_R; auto.
Qed.
Lemma left_encode_L z x : length z = n -> length x = n -> exists o, left_encode c z x = Val o /\ length o = n /\
  forall j, j < n -> nth j o 0%N = N.lxor (nth j x 0%N) (vmul n LM z j).
Proof.
  intros Lz Lx. destruct B as [Hw [_ [_ [Hwn [LL [SL FL]]]]]]. unfold left_encode. fold n w in LL |- *. rewrite Lz, Lx, Nat.leb_refl, LL, Nat.eqb_refl. cbn [andb].
  fold n w in Hw. destruct (left_loop_some n z (s_left c)) with (fuel := n) (i := 0) (oe := s_left c) (out := x) as [o [E [L K]]]; auto; try lia.
  - intros C. rewrite C in LL. cbn in LL. lia.
  - apply Permutation_refl'. symmetry. etransitivity; [|apply map_id]. apply map_ext_in. intros e He. rewrite Forall_forall in FL. apply FL in He.
    rewrite Nat.add_0_r, Nat.mod_small; auto.
  - exists o. split; [exact E|]. split; [lia|]. intros j Hj. rewrite K. cbn [Nat.leb]. destruct (Nat.ltb_spec j n); [|lia]. cbn [andb].
    unfold LM. rewrite vmul_L; auto. apply sorted_nodup. exact SL.
Qed.
End Built.

(** C57: for every built code and every input, the output is x1 + z L, where
    the input is x1 followed by x2 and z is the one vector with z R = x2.  The
    rest of the output buffer is left alone; short buffers are refused. *)
Theorem silver_dual_encode : forall n w raw5 raw11 c, length raw5 = 5 -> length raw11 = 11 ->
  make_silver n w raw5 raw11 = Val c -> (Z.of_nat n < 2 ^ 31)%Z ->
  forall inp out, 
  (2 * n <= length inp -> n <= length out -> exists o z, sv_dual_encode c inp out = Val o /\ length z = n /\
    (forall j, j < n -> vmul n (mat_R (gap_of w) (table_of w)) z j = nth (n + j) inp 0%N) /\
    (forall z', length z' = n -> (forall j, j < n -> vmul n (mat_R (gap_of w) (table_of w)) z' j = nth (n + j) inp 0%N) -> z' = z) /\
    length o = length out /\
    (forall j, j < n -> nth j o 0%N = N.lxor (nth j inp 0%N) (vmul n (mat_L n (s_left c)) z j)) /\
    (forall j, n <= j -> nth j o 0%N = nth j out 0%N)) /\
  (length inp < 2 * n \/ length out < n -> sv_dual_encode c inp out = Thrown).
Proof.
  intros n w raw5 raw11 c L5 L11 E Hn inp out. pose proof (construct_built n w raw5 raw11 c L5 L11 E) as B.
  assert (NW : s_n c = n /\ s_weight c = w).
  { destruct (silver_construct n w raw5 raw11 L5 L11) as [P1 P2].
    destruct (Nat.eq_dec w 5) as [H5|H5]; [|destruct (Nat.eq_dec w 11) as [H11|H11]].
    - destruct (le_lt_dec w n); [destruct P1 as [c' [E' [K1 [K2 _]]]]; auto; rewrite E in E'; injection E'; intros ->; auto|rewrite P2 in E by lia; discriminate].
    - destruct (le_lt_dec w n); [destruct P1 as [c' [E' [K1 [K2 _]]]]; auto; rewrite E in E'; injection E'; intros ->; auto|rewrite P2 in E by lia; discriminate].
    - rewrite P2 in E by lia. discriminate. }
  destruct NW as [<- <-]. set (n := s_n c) in *. unfold sv_dual_encode. fold n. split.
  - intros HI HO. destruct (Nat.leb_spec (2 * n) (length inp)); [|lia]. destruct (Nat.leb_spec n (length out)); [|lia]. cbn [andb].
    assert (LF : length (firstn n inp) = n) by (rewrite firstn_length; lia).
    assert (LS : length (firstn n (skipn n inp)) = n) by (rewrite firstn_length, skipn_length; lia).
    destruct (right_encode_R c B Hn _ LS) as [z [ER [LZ KR]]]. rewrite ER. cbn [bind].
    destruct (left_encode_L c B z _ LZ LF) as [o [EL [LO KL]]]. rewrite EL. cbn [bind]. fold n in KR, KL, LZ, LO.
    assert (XS : forall j, j < n -> nth j (firstn n (skipn n inp)) 0%N = nth (n + j) inp 0%N).
    { intros j Hj. rewrite nth_firstn_lt, nth_skipn by auto. f_equal. }
    exists (o ++ skipn n out), z. split; [reflexivity|]. split; [exact LZ|]. split; [|split; [|split; [|split]]].
    + intros j Hj. rewrite KR, XS by auto. reflexivity.
    + intros z' LZ' KZ'. apply nth_ext with (d := 0%N) (d' := 0%N); [lia|]. intros j Hj.
      eapply (R_injective n _ _ z' z (wf_of (s_weight c))); [|lia]. intros k Hk. rewrite KZ', KR, XS by auto. reflexivity.
    + rewrite app_length, skipn_length. lia.
    + intros j Hj. rewrite app_nth1 by lia. rewrite KL by auto. rewrite nth_firstn_lt by auto. reflexivity.
    + intros j Hj. rewrite app_nth2 by lia. rewrite nth_skipn. f_equal. lia.
  - intros HS. destruct (Nat.leb_spec (2 * n) (length inp)), (Nat.leb_spec n (length out)); try reflexivity. lia.
Qed.
Print Assumptions silver_dual_encode.

(** C57: in place, the first half of the buffer gets the same result and the
    second half gets z; nothing behind the two halves changes. *)
Theorem silver_dual_encode_inplace : forall n w raw5 raw11 c, length raw5 = 5 -> length raw11 = 11 ->
  make_silver n w raw5 raw11 = Val c -> (Z.of_nat n < 2 ^ 31)%Z ->
  forall inout, 2 * n <= length inout ->
  exists o z, sv_dual_encode_inplace c inout = Val o /\ length o = length inout /\
    sv_dual_encode c inout (repeat 0%N n) = Val (firstn n o) /\ firstn n (skipn n o) = z /\
    (forall j, j < n -> vmul n (mat_R (gap_of w) (table_of w)) z j = nth (n + j) inout 0%N) /\
    skipn (2 * n) o = skipn (2 * n) inout.
Proof.
  intros n w raw5 raw11 c L5 L11 E Hn inout HL.
  destruct (silver_dual_encode n w raw5 raw11 c L5 L11 E Hn inout (repeat 0%N n)) as [P _].
  destruct P as [o [z [ED [LZ [KZ [UZ [LO [KO _]]]]]]]]; [exact HL|rewrite repeat_length; lia|].
  rewrite repeat_length in LO. pose proof (construct_built n w raw5 raw11 c L5 L11 E) as B.
  assert (SN : s_n c = n).
  { destruct (silver_construct n w raw5 raw11 L5 L11) as [P1 P2].
    destruct (le_lt_dec w n); [|rewrite P2 in E by lia; discriminate].
    destruct (Nat.eq_dec w 5); [|destruct (Nat.eq_dec w 11)]; [| |rewrite P2 in E by lia; discriminate];
      (destruct P1 as [c' [E' [K1 _]]]; [auto|]; rewrite E in E'; injection E'; intros ->; auto). }
  rewrite ED. unfold sv_dual_encode in ED. unfold sv_dual_encode_inplace. rewrite SN in *.
  destruct (Nat.leb_spec (2 * n) (length inout)); [|lia]. rewrite repeat_length, Nat.leb_refl in ED. cbn [andb] in ED.
  assert (LS : length (firstn n (skipn n inout)) = s_n c) by (rewrite SN, firstn_length, skipn_length; lia).
  rewrite <- SN in Hn. destruct (right_encode_R c B Hn _ LS) as [z1 [ER [LZ1 KR]]]. rewrite SN in KR, LZ1. rewrite ER in ED |- *. cbn [bind] in ED |- *.
  destruct (left_encode c z1 (firstn n inout)) as [o1| | |] eqn:EL; try discriminate. cbn [bind] in ED |- *.
  assert (SK : skipn n (repeat 0%N n) = []) by (apply skipn_all2; rewrite repeat_length; lia). rewrite SK, app_nil_r in ED. injection ED. intros ->.
  assert (FO : firstn n (o ++ z1 ++ skipn (2 * n) inout) = o) by (rewrite <- LO at 1; rewrite firstn_app, Nat.sub_diag, firstn_all, firstn_O, app_nil_r; reflexivity).
  assert (SO : skipn n (o ++ z1 ++ skipn (2 * n) inout) = z1 ++ skipn (2 * n) inout).
  { rewrite <- LO at 1. rewrite skipn_app, Nat.sub_diag, skipn_all. reflexivity. }
  exists (o ++ z1 ++ skipn (2 * n) inout), z1. split; [reflexivity|]. split; [rewrite !app_length, skipn_length; lia|]. split; [rewrite FO; reflexivity|].
  split; [rewrite SO; rewrite <- LZ1 at 1; rewrite firstn_app, Nat.sub_diag, firstn_all, firstn_O, app_nil_r; reflexivity|]. split.
  - intros j Hj. 
    assert (W1 : s_weight c = w).
    { destruct (silver_construct n w raw5 raw11 L5 L11) as [P1 P2].
      destruct (le_lt_dec w n); [|rewrite P2 in E by lia; discriminate].
      destruct (Nat.eq_dec w 5); [|destruct (Nat.eq_dec w 11)]; [| |rewrite P2 in E by lia; discriminate];
      (destruct P1 as [c' [E' [K1 [K2 _]]]]; [auto|]; rewrite E in E'; injection E'; intros ->; auto). }
    rewrite <- W1. rewrite KR by auto. rewrite nth_firstn_lt, nth_skipn by auto. f_equal.
  - replace (2 * n) with (length (o ++ z1)) at 1 by (rewrite app_length; lia). rewrite app_assoc, skipn_app, Nat.sub_diag, skipn_all. reflexivity.
Qed.
Print Assumptions silver_dual_encode_inplace.

(** C57: DualEncode is the syndrome map of the parity check matrix [L | R]: the
    output is all zero exactly on the row space, that is on the inputs z [L | R]. *)
Theorem silver_kernel : forall n w raw5 raw11 c, length raw5 = 5 -> length raw11 = 11 ->
  make_silver n w raw5 raw11 = Val c -> (Z.of_nat n < 2 ^ 31)%Z ->
  forall inp out, length inp = 2 * n -> length out = n ->
  (sv_dual_encode c inp out = Val (repeat 0%N n) <->
   exists z, length z = n /\ forall j, j < n ->
     nth j inp 0%N = vmul n (mat_L n (s_left c)) z j /\ nth (n + j) inp 0%N = vmul n (mat_R (gap_of w) (table_of w)) z j).
Proof.
  intros n w raw5 raw11 c L5 L11 E Hn inp out LI LO.
  destruct (silver_dual_encode n w raw5 raw11 c L5 L11 E Hn inp out) as [P _].
  destruct P as [o [z [ED [LZ [KZ [UZ [LL [KO _]]]]]]]]; [lia|lia|]. rewrite ED. split.
  - intros H. injection H. intros HO. exists z. split; [exact LZ|]. intros j Hj. split; [|rewrite KZ by auto; reflexivity].
    specialize (KO j Hj). rewrite HO, nth_repeat in KO. symmetry in KO. apply N.lxor_eq in KO. exact KO.
  - intros [z' [LZ' KZ']]. assert (z' = z) by (apply UZ; [auto|]; intros j Hj; destruct (KZ' j Hj) as [_ ->]; reflexivity). subst z'.
    f_equal. apply nth_ext with (d := 0%N) (d' := 0%N); [rewrite repeat_length; lia|]. intros j Hj. rewrite nth_repeat.
    rewrite KO by lia. destruct (KZ' j ltac:(lia)) as [-> _]. apply N.lxor_nilpotent.
Qed.
Print Assumptions silver_kernel.

(** C57: the encoding is linear. *)
Theorem silver_linear : forall n w raw5 raw11 c, length raw5 = 5 -> length raw11 = 11 ->
  make_silver n w raw5 raw11 = Val c -> (Z.of_nat n < 2 ^ 31)%Z ->
  forall a b out oa ob, length a = 2 * n -> length b = 2 * n -> length out = n ->
  sv_dual_encode c a out = Val oa -> sv_dual_encode c b out = Val ob -> sv_dual_encode c (vxor a b) out = Val (vxor oa ob).
Proof.
  intros n w raw5 raw11 c L5 L11 E Hn a b out oa ob LA LB LO EA EB.
  pose proof (silver_dual_encode n w raw5 raw11 c L5 L11 E Hn) as D.
  destruct (D a out) as [PA _]. destruct PA as [o1 [za [E1 [LZA [KZA [_ [LL1 [KO1 _]]]]]]]]; [lia|lia|]. rewrite EA in E1. injection E1. intros ->.
  destruct (D b out) as [PB _]. destruct PB as [o2 [zb [E2 [LZB [KZB [_ [LL2 [KO2 _]]]]]]]]; [lia|lia|]. rewrite EB in E2. injection E2. intros ->.
  assert (LAB : length (vxor a b) = 2 * n) by (rewrite vxor_length; lia).
  destruct (D (vxor a b) out) as [PC _]. destruct PC as [o3 [zc [E3 [LZC [KZC [UC [LL3 [KO3 _]]]]]]]]; [lia|lia|]. rewrite E3. f_equal.
  assert (zc = vxor za zb) as ->.
  { symmetry. apply UC; [rewrite vxor_length; lia|]. intros j Hj. rewrite vmul_lxor, KZA, KZB, vxor_nth by lia. reflexivity. }
  apply nth_ext with (d := 0%N) (d' := 0%N); [rewrite vxor_length; lia|]. intros j Hj.
  rewrite KO3, (vxor_nth o1 o2), KO1, KO2, vmul_lxor, vxor_nth by lia. apply lxor4.
Qed.
Print Assumptions silver_linear.

(** Non-vacuity: a code of the least size with colliding draws, and an encoding. *)
Definition ex_silver : outcome silver := make_silver 6 5 [2; 2; 2; 5; 5] (repeat 0 11).
Example ex_silver_left : bind ex_silver (fun c => Val (map N.of_nat (s_left c))) = Val [0; 2; 3; 4; 5]%N.
Proof. vm_compute. reflexivity. Qed.
Example ex_silver_encode : bind ex_silver (fun c => sv_dual_encode c (map N.of_nat (seq 1 12)) (repeat 0%N 6)) <> Thrown.
Proof. vm_compute. discriminate. Qed.
Example ex_silver_big : exists o, bind (make_silver 80 11 (repeat 0 5) (seq 3 11)) (fun c => sv_dual_encode c (repeat 1%N 160) (repeat 0%N 81)) = Val o.
Proof.
  assert (H : exists c, make_silver 80 11 (repeat 0 5) (seq 3 11) = Val c).
  { destruct (silver_construct 80 11 (repeat 0 5) (seq 3 11) eq_refl eq_refl) as [P _]. destruct P as [c [E _]]; [lia|]. eauto. }
  destruct H as [c E]. rewrite E. cbn [bind].
  destruct (silver_dual_encode 80 11 (repeat 0 5) (seq 3 11) c eq_refl eq_refl E ltac:(lia) (repeat 1%N 160) (repeat 0%N 81)) as [P _].
  destruct P as [o [z [R _]]]; [rewrite repeat_length; lia|rewrite repeat_length; lia|]. eauto.
Qed.
Print Assumptions silver_construct.
