(** Lemmas for SilentVoleProps. *)
From Coq Require Import List NArith ZArith Bool Arith Lia.
From Verif Require Import LinCodeModel LinCodeProof LinCodeProps SilverModel SilverProof SilverProps GfModel GfProof GfProps
  MpfssModel MpfssProof MpfssProps SilentVoleModel.
Import ListNotations.
Open Scope nat_scope.

(** ** Maps that respect xor *)
Definition additive (phi : N -> N) : Prop := forall x y, phi (N.lxor x y) = N.lxor (phi x) (phi y).
Lemma additive_0 phi : additive phi -> phi 0%N = 0%N.
Proof. intros H. specialize (H 0%N 0%N). rewrite N.lxor_nilpotent in H. rewrite H. apply N.lxor_nilpotent. Qed.
Definition comb (phi : N -> N) (a b c : list N) : Prop :=
  length a = length c /\ length b = length c /\ forall k, nth k c 0%N = N.lxor (phi (nth k a 0%N)) (nth k b 0%N).
Lemma xor4 a b c d : N.lxor (N.lxor a b) (N.lxor c d) = N.lxor (N.lxor a c) (N.lxor b d).
Proof. apply N.bits_inj. intros i. rewrite !N.lxor_spec. destruct (N.testbit a i), (N.testbit b i), (N.testbit c i), (N.testbit d i); reflexivity. Qed.
Lemma xors_comb {A} phi (f g h : A -> N) l : additive phi -> (forall i, In i l -> h i = N.lxor (phi (f i)) (g i)) ->
  xors (map h l) = N.lxor (phi (xors (map f l))) (xors (map g l)).
Proof.
  intros P. induction l as [|a l IH]; intros H; [cbn; rewrite (additive_0 phi P); reflexivity|].
  cbn [map]. rewrite !xors_cons, IH, P by (intros; apply H; right; auto). rewrite H by (left; auto). apply xor4.
Qed.
Lemma xors_firstn_comb phi : additive phi -> forall c a b k, comb phi a b c ->
  xors (firstn k c) = N.lxor (phi (xors (firstn k a))) (xors (firstn k b)).
Proof.
  intros P. induction c as [|x c IH]; intros a b k (La & Lb & H).
  - destruct a, b; try discriminate. rewrite !firstn_nil. cbn. rewrite (additive_0 phi P). reflexivity.
  - destruct a as [|y a], b as [|z b]; try discriminate. destruct k as [|k]; [cbn; rewrite (additive_0 phi P); reflexivity|].
    cbn [firstn]. rewrite !xors_cons, P. rewrite (IH a b).
    + pose proof (H 0) as H0. cbn [nth] in H0. rewrite H0. apply xor4.
    + split; [cbn in La; lia|]. split; [cbn in Lb; lia|]. intros j. exact (H (S j)).
Qed.
Lemma exacc_comb phi rp m d r n a b c : additive phi -> comb phi a b c -> length c = n ->
  lc_row rp m d r (map (prefix_xor c) (seq 0 n)) =
  N.lxor (phi (lc_row rp m d r (map (prefix_xor a) (seq 0 n)))) (lc_row rp m d r (map (prefix_xor b) (seq 0 n))).
Proof.
  intros P C Ln. unfold lc_row. apply xors_comb; auto. intros t _. set (i := lc_index _ _ _ _ _).
  destruct (Nat.lt_ge_cases i n) as [H|H].
  - rewrite (SpcotProof.nth_map_seq (prefix_xor a) n i 0%N H), (SpcotProof.nth_map_seq (prefix_xor b) n i 0%N H), (SpcotProof.nth_map_seq (prefix_xor c) n i 0%N H).
    apply xors_firstn_comb; auto.
  - rewrite !nth_overflow by (rewrite map_length, seq_length; auto). rewrite (additive_0 phi P). reflexivity.
Qed.
Lemma vmul_comb phi n M a b c j : additive phi -> comb phi a b c -> vmul n M c j = N.lxor (phi (vmul n M a j)) (vmul n M b j).
Proof.
  intros P (_ & _ & H). unfold vmul. apply xors_comb; auto. intros i _. destruct (M i j); auto. rewrite (additive_0 phi P). reflexivity.
Qed.
Definition sv_row (c : silver) (x : list N) (j : nat) : N :=
  match sv_dual_encode c x (repeat 0%N (s_n c)) with Val o => nth j o 0%N | _ => 0%N end.
Lemma silver_comb phi n w raw5 raw11 e a b c j : length raw5 = 5 -> length raw11 = 11 ->
  make_silver n w raw5 raw11 = Val e -> s_n e = n -> (Z.of_nat n < 2 ^ 31)%Z -> additive phi -> comb phi a b c -> 2 * n <= length c -> j < n ->
  sv_row e c j = N.lxor (phi (sv_row e a j)) (sv_row e b j).
Proof.
  intros L5 L11 E En Hn P C Hl Hj. destruct C as (La & Lb & H). unfold sv_row. rewrite En.
  pose proof (fun x => proj1 (silver_dual_encode n w raw5 raw11 e L5 L11 E Hn x (repeat 0%N n))) as D.
  destruct (D a) as (oa & za & Ea & Lza & Ka & _ & _ & Oa & _); [lia|rewrite repeat_length; auto|].
  destruct (D b) as (ob & zb & Eb & Lzb & Kb & _ & _ & Ob & _); [lia|rewrite repeat_length; auto|].
  destruct (D c) as (oc & zc & Ec & Lzc & Kc & U & _ & Oc & _); [lia|rewrite repeat_length; auto|].
  rewrite Ea, Eb, Ec, Oa, Ob, Oc by auto.
  set (z := map (fun i => N.lxor (phi (nth i za 0%N)) (nth i zb 0%N)) (seq 0 n)).
  assert (Cz : comb phi za zb z).
  { unfold z. split; [rewrite map_length, seq_length; auto|]. split; [rewrite map_length, seq_length; auto|]. intros k.
    destruct (Nat.lt_ge_cases k n) as [Q|Q]; [exact (SpcotProof.nth_map_seq (fun i => N.lxor (phi (nth i za 0%N)) (nth i zb 0%N)) n k 0%N Q)|].
    rewrite !nth_overflow by (rewrite ?map_length, ?seq_length; lia). rewrite (additive_0 phi P). reflexivity. }
  assert (z = zc) as <-.
  { apply U; [unfold z; rewrite map_length, seq_length; auto|]. intros i Hi. rewrite (vmul_comb phi n _ za zb z i P Cz), Ka, Kb, H by auto. reflexivity. }
  rewrite (vmul_comb phi n _ za zb z j P Cz), H, P. apply xor4.
Qed.

(** ** The parameters *)
Lemma div_ceil_mul x y : 0 < y -> x <= div_ceil x y * y.
Proof.
  intros Hy. unfold div_ceil. pose proof (Nat.div_mod (x + y - 1) y ltac:(lia)). pose proof (Nat.mod_upper_bound (x + y - 1) y ltac:(lia)). nia.
Qed.
Lemma vparam_spec tw code num nn m v : make_vparam tw code num nn m = Val v ->
  has_ratio code = true /\ v_num v = num /\ v_code v = code /\ v_code_size v = mp (v_mp v) / 2 /\
  noise (v_mp v) = nn /\ make_param nn (mp (v_mp v)) m = Some (v_mp v) /\ 1 <= nn /\
  2 * num + gap_size code <= mp (v_mp v) /\ 2 * nn + gap_size code <= mp (v_mp v) /\
  v_base_ot v = (if m then nn + 1 else nn) * tbits tw /\ base_num (v_mp v) = (if m then nn + 1 else nn) /\ v_mp_ot v = require_ot (v_mp v).
Proof.
  unfold make_vparam. destruct (has_ratio code); [|discriminate]. set (sz := Nat.max _ _ * nn + gap_size code).
  destruct (make_param nn sz m) as [p|] eqn:E; [|discriminate]. injection 1 as <-. cbn [v_num v_code v_code_size v_mp v_base_ot v_mp_ot].
  unfold make_param in E. destruct (Nat.eqb_spec nn 0) as [Z|Z]; [discriminate|]. cbn [orb] in E.
  destruct (MpfssModel.sp (mkParam nn sz m) <=? 1) eqn:E1; [discriminate|]. injection E as <-. cbn [noise mp mal base_num].
  unfold make_param, base_num. cbn [noise mp mal]. rewrite (proj2 (Nat.eqb_neq nn 0)) by auto. cbn [orb]. rewrite E1.
  pose proof (div_ceil_mul (num * 2) nn ltac:(lia)). subst sz. repeat (split; [solve [reflexivity|lia|nia]|]). reflexivity.
Qed.
Lemma vparam_some tw code num nn m : has_ratio code = true -> 1 <= nn -> exists v, make_vparam tw code num nn m = Val v.
Proof.
  intros Hc Hn. unfold make_vparam. rewrite Hc. set (k := Nat.max _ _). unfold make_param. rewrite (proj2 (Nat.eqb_neq nn 0)) by lia. cbn [orb].
  destruct (Nat.leb_spec (MpfssModel.sp (mkParam nn (k * nn + gap_size code) m)) 1) as [H|H]; [|eexists; reflexivity].
  exfalso. unfold MpfssModel.sp in H. cbn [noise mp] in H. assert (2 <= k) by lia. rewrite Nat.div_add_l in H by lia. lia.
Qed.

(** ** The encoders *)
Definition exacc_degree (c : code_type) : option nat :=
  match c with ExAcc7 => Some 7 | ExAcc11 => Some 11 | ExAcc21 => Some 21 | ExAcc40 => Some 40 | _ => None end.
Definition adds (c : code_type) : bool := match exacc_degree c with Some _ => true | None => false end.
Definition wide_enough (c : code_type) (num : nat) : Prop := match exacc_degree c with Some d => d < num | None => True end.

Lemma lpn_spec rp raw5 raw11 tw code num nn m v : length raw5 = 5 -> length raw11 = 11 ->
  make_vparam tw code num nn m = Val v -> (N.of_nat (mp (v_mp v)) < 2 ^ 31)%N -> wide_enough code num ->
  exists E : list N -> nat -> N,
    (forall phi a b c j, additive phi -> comb phi a b c -> length c = mp (v_mp v) -> j < num -> E c j = N.lxor (phi (E a j)) (E b j)) /\
    (forall x o, length x = mp (v_mp v) -> length o = num -> exists y, dual_lpn_encode rp raw5 raw11 v x o = Val y /\
       length y = num /\ forall k, k < num -> nth k y 0%N = N.lxor (if adds code then nth k o 0%N else 0%N) (E x k)) /\
    (forall x0 o0 x1 o1, length x0 = mp (v_mp v) -> length o0 = num -> length x1 = mp (v_mp v) -> length o1 = num ->
       exists y0 y1, dual_lpn_encode rp raw5 raw11 v x0 o0 = Val y0 /\ dual_lpn_encode rp raw5 raw11 v x1 o1 = Val y1 /\
         dual_lpn_encode2 rp raw5 raw11 v x0 o0 x1 o1 = Val (y0, y1)).
Proof.
  intros L5 L11 Hv Hsz Hd. destruct (vparam_spec _ _ _ _ _ _ Hv) as (Hr & Vn & Vc & Vs & Vnn & Vp & Hnn & H1 & H2 & _).
  set (M := mp (v_mp v)) in *.
  destruct (exacc_degree code) as [d|] eqn:Ed.
  - assert (Ha : adds code = true) by (unfold adds; rewrite Ed; reflexivity).
    assert (Hd' : d < num) by (unfold wide_enough in Hd; rewrite Ed in Hd; exact Hd). clear Hd.
    assert (Ge : get_encoder raw5 raw11 v = bind (make_ecode d (N.of_nat num) (N.of_nat M)) (fun e => Val (Some (EExAcc d e)))).
    { unfold get_encoder. rewrite Vc, Vn. fold M. destruct code; try discriminate Ed; injection Ed as <-; reflexivity. }
    assert (D : forall x o, length x = M -> length o = num -> exists e o', make_ecode d (N.of_nat num) (N.of_nat M) = Val e /\
      dual_encode rp d e x o = Val (map (prefix_xor x) (seq 0 M), o') /\ length o' = num /\
      forall k, k < num -> nth k o' 0%N = N.lxor (nth k o 0%N) (lc_row rp (N.of_nat M) d k (map (prefix_xor x) (seq 0 M)))).
    { intros x o Lx Lo. destruct (exacc_dual_encode rp d (N.of_nat num) (N.of_nat M) x o) as (e & o' & E1 & E2 & E3 & E4);
        [lia|lia|exact Hsz|lia|lia|rewrite Lo; cbn in *; lia|].
      rewrite Lx in *. exists e, o'. split; [exact E1|]. split; [exact E2|]. split; [congruence|]. intros k Hk. apply E4. lia. }
    exists (fun x k => lc_row rp (N.of_nat M) d k (map (prefix_xor x) (seq 0 M))). split; [|split].
    + intros phi a b c j P C Lc _. apply exacc_comb; auto.
    + intros x o Lx Lo. destruct (D x o Lx Lo) as (e & o' & E1 & E2 & E3 & E4). exists o'. unfold dual_lpn_encode. rewrite Ge, E1. cbn [bind].
      rewrite E2. cbn [bind snd]. rewrite Ha. auto.
    + intros x0 o0 x1 o1 Lx0 Lo0 Lx1 Lo1.
      destruct (exacc_dual_encode2 rp d (N.of_nat num) (N.of_nat M) x0 o0 x1 o1) as (e & r0 & r1 & E1 & E2 & E3 & E4);
        [lia|lia|exact Hsz|lia|lia|lia|rewrite Lo0; cbn in *; lia|lia|].
      exists (snd r0), (snd r1). unfold dual_lpn_encode, dual_lpn_encode2. rewrite Ge, E1. cbn [bind]. rewrite E2, E3, E4. cbn [bind fst snd]. auto.
  - assert (Ha : adds code = false) by (unfold adds; rewrite Ed; reflexivity).
    assert (Sv : exists w e, (w = 5 \/ w = 11) /\ get_encoder raw5 raw11 v = Val (Some (ESilver e)) /\ make_silver (M / 2) w raw5 raw11 = Val e /\ s_n e = M / 2).
    { destruct code; try discriminate Ed; try discriminate Hr; cbn [gap_size] in H2.
      - destruct (proj1 (silver_construct (M / 2) 5 raw5 raw11 L5 L11)) as (e & E & En & _).
        { split; [auto|]. apply Nat.div_le_lower_bound; lia. }
        exists 5, e. unfold get_encoder. rewrite Vc, Vs, E. auto.
      - destruct (proj1 (silver_construct (M / 2) 11 raw5 raw11 L5 L11)) as (e & E & En & _).
        { split; [auto|]. apply Nat.div_le_lower_bound; lia. }
        exists 11, e. unfold get_encoder. rewrite Vc, Vs, E. auto. }
    destruct Sv as (w & e & Hw & Ge & Es & En). set (n := M / 2) in *.
    assert (Hn : num <= n) by (apply Nat.div_le_lower_bound; lia).
    assert (Hm : 2 * n <= M) by (apply Nat.mul_div_le; lia).
    assert (Hz : (Z.of_nat n < 2 ^ 31)%Z) by (cbn in *; lia).
    assert (D : forall x, length x = M -> exists o, sv_dual_encode_inplace e x = Val o /\ length o = M /\ forall k, k < n -> nth k o 0%N = sv_row e x k).
    { intros x Lx. destruct (silver_dual_encode_inplace n w raw5 raw11 e L5 L11 Es Hz x) as (o & z & E1 & E2 & E3 & _); [lia|].
      exists o. split; [exact E1|]. split; [lia|]. intros k Hk. unfold sv_row. rewrite En, E3. symmetry. apply SilverProps.nth_firstn_lt; auto. }
    assert (Cp : forall r o, length r = M -> length o = num -> copy num r o = Val (firstn num r)).
    { intros r o Lr Lo. unfold copy. rewrite (proj2 (Nat.leb_le _ _)), (proj2 (Nat.leb_le _ _)) by lia. cbn [andb].
      rewrite skipn_all2, app_nil_r by lia. reflexivity. }
    exists (sv_row e). split; [|split].
    + intros phi a b c j P C Lc Hj. apply (silver_comb phi n w raw5 raw11); auto; lia.
    + intros x o Lx Lo. destruct (D x Lx) as (r & E1 & E2 & E3). exists (firstn num r). unfold dual_lpn_encode. rewrite Ge. cbn [bind]. rewrite E1. cbn [bind].
      rewrite Vn. split; [apply Cp; auto|]. split; [rewrite firstn_length; lia|]. intros k Hk. rewrite Ha, N.lxor_0_l, <- E3 by lia.
      apply SilverProps.nth_firstn_lt; auto.
    + intros x0 o0 x1 o1 Lx0 Lo0 Lx1 Lo1. destruct (D x0 Lx0) as (r0 & E0 & L0 & _). destruct (D x1 Lx1) as (r1 & E1 & L1 & _).
      exists (firstn num r0), (firstn num r1). unfold dual_lpn_encode, dual_lpn_encode2. rewrite Ge. cbn [bind]. rewrite E0, E1. cbn [bind]. rewrite Vn.
      rewrite !Cp by auto. cbn [bind]. auto.
Qed.

(** ** Multiplying by delta *)
Lemma additive_trunc n : additive (fun x => N.land x (N.ones n)).
Proof.
  intros x y. apply N.bits_inj. intros i. rewrite !N.lxor_spec, !N.land_spec, N.lxor_spec. destruct (N.testbit x i), (N.testbit y i), (N.testbit (N.ones n) i); reflexivity.
Qed.
Lemma trunc_lt n x : word n (N.land x (N.ones n)).
Proof. rewrite N.land_ones. apply N.mod_lt. apply N.pow_nonzero. discriminate. Qed.
Lemma trunc_id n x : word n x -> N.land x (N.ones n) = x.
Proof. intros H. rewrite N.land_ones. apply N.mod_small. exact H. Qed.
Definition times (wide : bool) (delta x : N) : N := kmul wide (N.land x (N.ones (kbits wide))) delta.
Lemma additive_times wide delta : word (kbits wide) delta -> additive (times wide delta).
Proof.
  intros Hd x y. unfold times. rewrite (additive_trunc (kbits wide) x y). apply (fmul_xor_l _ _ (kfield wide)); first [exact Hd|apply trunc_lt].
Qed.
Lemma times_word wide delta x : word (kbits wide) x -> times wide delta x = kmul wide x delta.
Proof. intros H. unfold times. rewrite trunc_id by exact H. reflexivity. Qed.
