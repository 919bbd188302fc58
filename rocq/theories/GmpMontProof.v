(** * Lemmas for GmpMontModel *)
From Coq Require Import ZArith List Bool Lia.
From Verif Require Import LinCodeModel MpxModel MpxProof ExpTableModel GmpMontModel.
Import ListNotations.
Open Scope Z_scope.

Notation LV := limbs_value.
Definition ok (l : list Z) : Prop := Forall (fun d => 0 <= d < base) l.
Definition p (i : nat) : Z := base ^ Z.of_nat i.
Lemma base_pos : 0 < base. Proof. reflexivity. Qed.
Lemma p_pos i : 0 < p i. Proof. apply Z.pow_pos_nonneg; [reflexivity|lia]. Qed.
Lemma p_0 : p 0 = 1. Proof. reflexivity. Qed.
Lemma p_S i : p (S i) = base * p i.
Proof. unfold p. rewrite Nat2Z.inj_succ, Z.pow_succ_r by lia. reflexivity. Qed.
Lemma p_add i j : p (i + j) = p i * p j.
Proof. unfold p. rewrite Nat2Z.inj_add, Z.pow_add_r by lia. reflexivity. Qed.
Lemma p_2 i : p i = 2 ^ (64 * Z.of_nat i).
Proof. unfold p, base. rewrite <- Z.pow_mul_r by lia. reflexivity. Qed.

Lemma LV_cons d l : LV (d :: l) = d + base * LV l. Proof. reflexivity. Qed.
Lemma LV_app a b : LV (a ++ b) = LV a + p (length a) * LV b.
Proof.
  induction a as [|d a IH]; cbn [app length]; [rewrite p_0; cbn [limbs_value]; ring|].
  rewrite !LV_cons, IH, p_S. ring.
Qed.
Lemma LV_zeros k : LV (repeat 0 k) = 0.
Proof. induction k as [|k IH]; [reflexivity|]. cbn [repeat]. rewrite LV_cons, IH. ring. Qed.
Lemma LV_bound l : ok l -> 0 <= LV l < p (length l).
Proof.
  induction 1 as [|d l Hd _ IH]; [cbn [limbs_value length]; rewrite p_0; lia|].
  rewrite LV_cons. cbn [length]. rewrite p_S. pose proof base_pos. nia.
Qed.
Lemma LV_set l i v : (i < length l)%nat -> LV (set_at l i v) = LV l + (v - nth i l 0) * p i.
Proof.
  revert i. induction l as [|d l IH]; intros i H; cbn [length] in H; [lia|].
  destruct i as [|i]; cbn [set_at nth]; rewrite !LV_cons.
  - rewrite p_0. ring.
  - rewrite IH by lia. rewrite p_S. ring.
Qed.
Lemma LV_firstn l k : ok l -> LV (firstn k l) = LV l mod p k.
Proof.
  revert k. induction l as [|d l IH]; intros k H; inversion H as [|? ? Hd Hl]; subst.
  - rewrite firstn_nil. cbn [limbs_value]. rewrite Z.mod_0_l; [reflexivity|pose proof (p_pos k); lia].
  - destruct k as [|k]; cbn [firstn].
    + rewrite p_0, Z.mod_1_r. reflexivity.
    + rewrite !LV_cons, IH by exact Hl. rewrite p_S. pose proof base_pos. pose proof (p_pos k).
      apply Z.mod_unique_pos with (q := LV l / p k).
      * pose proof (Z.mod_pos_bound (LV l) (p k) ltac:(lia)). nia.
      * pose proof (Z.div_mod (LV l) (p k) ltac:(lia)) as D. rewrite D at 1. ring.
Qed.
Lemma LV_nth l i : ok l -> (i < length l)%nat -> nth i l 0 = (LV l / p i) mod base.
Proof.
  revert i. induction l as [|d l IH]; intros i H L; cbn [length] in L; [lia|].
  inversion H as [|? ? Hd Hl]; subst. destruct i as [|i]; cbn [nth].
  - rewrite p_0, Z.div_1_r, LV_cons, (Z.mul_comm base), Z.mod_add by (pose proof base_pos; lia).
    now rewrite Z.mod_small by exact Hd.
  - rewrite IH by (auto; lia). rewrite LV_cons, p_S. pose proof base_pos. pose proof (p_pos i).
    rewrite <- Z.div_div by lia. rewrite (Z.mul_comm base), Z.div_add by lia.
    now rewrite (Z.div_small d) by exact Hd.
Qed.
Lemma limbs_of_length k v : length (limbs_of k v) = k.
Proof. revert v. induction k as [|k IH]; intros v; cbn [limbs_of length]; [reflexivity|]. now rewrite IH. Qed.
Lemma limbs_of_ok k v : ok (limbs_of k v).
Proof.
  revert v. induction k as [|k IH]; intros v; cbn [limbs_of]; constructor; [|apply IH].
  apply Z.mod_pos_bound, base_pos.
Qed.
Lemma LV_limbs_of k v : LV (limbs_of k v) = v mod p k.
Proof.
  revert v. induction k as [|k IH]; intros v; cbn [limbs_of].
  - now rewrite p_0, Z.mod_1_r.
  - rewrite LV_cons, IH, p_S. pose proof base_pos. pose proof (p_pos k).
    rewrite Z.rem_mul_r by lia. reflexivity.
Qed.
Lemma size_bound z : Z.abs z < p (mpz_size z).
Proof.
  unfold mpz_size. destruct (Z.eqb_spec z 0) as [->|N]; [reflexivity|].
  rewrite p_2. pose proof (Z.log2_nonneg (Z.abs z)).
  pose proof (Z.log2_spec (Z.abs z) ltac:(lia)) as [_ U].
  pose proof (Z.div_mod (Z.log2 (Z.abs z)) 64 ltac:(lia)). pose proof (Z.mod_pos_bound (Z.log2 (Z.abs z)) 64 ltac:(lia)).
  assert (0 <= Z.log2 (Z.abs z) / 64) by (apply Z.div_pos; lia).
  eapply Z.lt_le_trans; [exact U|]. apply Z.pow_le_mono_r; lia.
Qed.
Lemma size_low z : z <> 0 -> exists k, mpz_size z = S k /\ p k <= Z.abs z.
Proof.
  intros N. unfold mpz_size. destruct (Z.eqb_spec z 0) as [|_]; [contradiction|].
  eexists. split; [reflexivity|]. rewrite p_2.
  pose proof (Z.log2_nonneg (Z.abs z)). pose proof (Z.log2_spec (Z.abs z) ltac:(lia)) as [D _].
  pose proof (Z.mul_div_le (Z.log2 (Z.abs z)) 64 ltac:(lia)).
  assert (0 <= Z.log2 (Z.abs z) / 64) by (apply Z.div_pos; lia).
  rewrite Z2Nat.id by lia.
  eapply Z.le_trans; [|exact D]. apply Z.pow_le_mono_r; lia.
Qed.
Lemma p_mono i j : (i <= j)%nat -> p i <= p j.
Proof. intros H. unfold p. apply Z.pow_le_mono_r; [reflexivity|lia]. Qed.
Lemma size_le z k : Z.abs z < p k -> (mpz_size z <= k)%nat.
Proof.
  intros H. destruct (Z.eq_dec z 0) as [->|N]; [cbn; lia|].
  destruct (size_low z N) as (j & -> & L). destruct (Nat.lt_ge_cases j k) as [|G]; [lia|].
  pose proof (p_mono k j G). lia.
Qed.

Lemma get_in l i : (i < length l)%nat -> get l i = Val (nth i l 0).
Proof. intros H. unfold get. now rewrite (nth_error_nth' l 0) by exact H. Qed.
Lemma put_in l i v : (i < length l)%nat -> put l i v = Val (set_at l i v).
Proof.
  intros H. unfold put, store.
  destruct (Z.leb_spec 0 (Z.of_nat i)); [|lia]. destruct (Z.ltb_spec (Z.of_nat i) (Z.of_nat (length l))); [|lia].
  cbn [andb]. now rewrite Nat2Z.id.
Qed.
Lemma ok_nth l i : ok l -> (i < length l)%nat -> 0 <= nth i l 0 < base.
Proof. intros H L. unfold ok in H. rewrite Forall_forall in H. apply H, nth_In, L. Qed.
Lemma ok_set l i v : ok l -> 0 <= v < base -> ok (set_at l i v).
Proof. intros H1 H2. now apply set_at_Forall. Qed.

(** the store of a double word [r] at limb [k] and the carry it leaves *)
Lemma split_word l k r : ok l -> (k < length l)%nat -> 0 <= r < base * base ->
  let l' := set_at l k (Z.land (r mod 2 ^ 128) (Z.ones 64)) in
  let u := limb (Z.shiftr (r mod 2 ^ 128) numb_bits) in
  length l' = length l /\ ok l' /\ 0 <= u < base /\
  LV l' + u * p (S k) = LV l + (r - nth k l 0) * p k.
Proof.
  intros O K R. cbv zeta. rewrite (Z.mod_small r) by (change (2 ^ 128) with (base * base); lia).
  rewrite Z.land_ones by lia. change (2 ^ 64) with base. unfold numb_bits. rewrite Z.shiftr_div_pow2 by lia.
  change (2 ^ 64) with base. unfold limb.
  assert (0 <= r / base < base) as Q.
  { split; [apply Z.div_pos; [lia|reflexivity]|]. apply Z.div_lt_upper_bound; [reflexivity|lia]. }
  rewrite (Z.mod_small (r / base)) by exact Q.
  pose proof (Z.mod_pos_bound r base base_pos) as M. pose proof (Z.div_mod r base ltac:(discriminate)) as D.
  split; [apply set_at_length|]. split; [now apply ok_set|]. split; [exact Q|].
  rewrite LV_set by exact K. rewrite p_S.
  set (q := r / base) in *. set (m := r mod base) in *. clearbody q m. rewrite D. ring.
Qed.

Lemma mac_spec n mu ix iy x u : ok n -> ok x -> (iy < length n)%nat -> (ix + iy < length x)%nat ->
  0 <= mu < base -> 0 <= u < base ->
  exists x' u', mac n mu ix iy x u = Val (x', u') /\ length x' = length x /\ ok x' /\ 0 <= u' < base /\
    LV x' + u' * p (S (ix + iy)) = LV x + (mu * nth iy n 0 + u) * p (ix + iy).
Proof.
  intros On Ox Hn Hx Hm Hu. unfold mac. rewrite get_in by exact Hn. cbn [bind]. rewrite get_in by exact Hx. cbn [bind].
  pose proof (ok_nth n iy On Hn) as Bn. pose proof (ok_nth x (ix + iy) Ox Hx) as Bx.
  set (r := mu * nth iy n 0 + u + nth (ix + iy) x 0).
  assert (0 <= r < base * base) as R by (unfold r; nia).
  rewrite put_in by exact Hx. cbn [bind]. eexists. eexists. split; [reflexivity|].
  destruct (split_word x (ix + iy) r Ox Hx R) as (A & B & C & D).
  split; [exact A|]. split; [exact B|]. split; [exact C|]. rewrite D. unfold r. ring.
Qed.

Lemma LV_firstn_S (n : list Z) iy : (iy < length n)%nat -> LV (firstn (S iy) n) = LV (firstn iy n) + nth iy n 0 * p iy.
Proof.
  revert iy. induction n as [|d n IH]; intros iy H; cbn [length] in H; [lia|].
  destruct iy as [|iy].
  - cbn [firstn nth]. rewrite LV_cons, p_0. cbn [limbs_value]. ring.
  - rewrite firstn_cons. cbn [nth]. rewrite (firstn_cons iy), !LV_cons, IH by lia. rewrite p_S. ring.
Qed.

(** what a stretch of the row has done *)
Definition added (n : list Z) (mu : Z) (ix : nat) (x : list Z) (u : Z) (iy : nat) (x' : list Z) (u' : Z) (iy' : nat) : Prop :=
  length x' = length x /\ ok x' /\ 0 <= u' < base /\
  LV x' + u' * p (ix + iy') + mu * LV (firstn iy n) * p ix =
  LV x + u * p (ix + iy) + mu * LV (firstn iy' n) * p ix.
Lemma added_mac n mu ix iy x u : ok n -> ok x -> (iy < length n)%nat -> (ix + iy < length x)%nat ->
  0 <= mu < base -> 0 <= u < base ->
  exists x' u', mac n mu ix iy x u = Val (x', u') /\ added n mu ix x u iy x' u' (S iy).
Proof.
  intros On Ox Hn Hx Hm Hu. destruct (mac_spec n mu ix iy x u On Ox Hn Hx Hm Hu) as (x' & u' & E & A & B & C & D).
  exists x', u'. split; [exact E|]. split; [exact A|]. split; [exact B|]. split; [exact C|].
  rewrite LV_firstn_S by exact Hn. replace (ix + S iy)%nat with (S (ix + iy)) by lia.
  rewrite p_add in D |- *. lia.
Qed.
Lemma added_trans n mu ix x u iy x1 u1 i1 x2 u2 i2 :
  added n mu ix x u iy x1 u1 i1 -> added n mu ix x1 u1 i1 x2 u2 i2 -> added n mu ix x u iy x2 u2 i2.
Proof.
  intros (A & B & C & D) (A' & B' & C' & D'). split; [congruence|]. split; [exact B'|]. split; [exact C'|]. lia.
Qed.
Lemma by4_spec fuel n mu ix iy x u : ok n -> ok x -> (iy <= length n)%nat -> (ix + length n <= length x)%nat ->
  0 <= mu < base -> 0 <= u < base -> (length n - iy <= fuel)%nat ->
  exists x' u' iy', by4 fuel (length n) n mu ix iy x u = Val (x', u', iy') /\
    (iy <= iy' <= length n)%nat /\ added n mu ix x u iy x' u' iy'.
Proof.
  intros On. revert iy x u. induction fuel as [|fuel IH]; intros iy x u Ox Hn Hx Hm Hu Hf.
  - cbn [by4]. destruct (Nat.ltb_spec (iy + 3) (length n)); [lia|].
    exists x, u, iy. split; [reflexivity|]. split; [lia|]. split; [reflexivity|]. split; [exact Ox|]. split; [exact Hu|reflexivity].
  - cbn [by4]. destruct (Nat.ltb_spec (iy + 3) (length n)) as [G|G].
    + destruct (added_mac n mu ix iy x u) as (x1 & u1 & E1 & S1); auto; try lia. rewrite E1. cbn [bind].
      pose proof S1 as (L1 & O1 & U1 & _).
      replace (iy + 1)%nat with (S iy) by lia.
      destruct (added_mac n mu ix (S iy) x1 u1) as (x2 & u2 & E2 & S2); auto; try lia. rewrite E2. cbn [bind].
      pose proof S2 as (L2 & O2 & U2 & _).
      replace (iy + 2)%nat with (S (S iy)) by lia.
      destruct (added_mac n mu ix (S (S iy)) x2 u2) as (x3 & u3 & E3 & S3); auto; try lia. rewrite E3. cbn [bind].
      pose proof S3 as (L3 & O3 & U3 & _).
      replace (iy + 3)%nat with (S (S (S iy))) by lia.
      destruct (added_mac n mu ix (S (S (S iy))) x3 u3) as (x4 & u4 & E4 & S4); auto; try lia. rewrite E4. cbn [bind].
      pose proof S4 as (L4 & O4 & U4 & _).
      replace (iy + 4)%nat with (S (S (S (S iy)))) by lia.
      destruct (IH (S (S (S (S iy)))) x4 u4) as (x' & u' & iy' & E & B & S'); auto; try lia.
      exists x', u', iy'. split; [exact E|]. split; [lia|].
      eapply added_trans; [exact S1|]. eapply added_trans; [exact S2|]. eapply added_trans; [exact S3|].
      eapply added_trans; [exact S4|exact S'].
    + exists x, u, iy. split; [reflexivity|]. split; [lia|]. split; [reflexivity|]. split; [exact Ox|]. split; [exact Hu|reflexivity].
Qed.
Lemma by1_spec fuel n mu ix iy x u : ok n -> ok x -> (iy <= length n)%nat -> (ix + length n <= length x)%nat ->
  0 <= mu < base -> 0 <= u < base -> (length n - iy <= fuel)%nat ->
  exists x' u', by1 fuel (length n) n mu ix iy x u = Val (x', u', length n) /\
    added n mu ix x u iy x' u' (length n).
Proof.
  intros On. revert iy x u. induction fuel as [|fuel IH]; intros iy x u Ox Hn Hx Hm Hu Hf.
  - cbn [by1]. destruct (Nat.ltb_spec iy (length n)); [lia|]. assert (iy = length n) as -> by lia.
    exists x, u. split; [reflexivity|]. split; [reflexivity|]. split; [exact Ox|]. split; [exact Hu|reflexivity].
  - cbn [by1]. destruct (Nat.ltb_spec iy (length n)) as [G|G].
    + destruct (added_mac n mu ix iy x u) as (x1 & u1 & E1 & S1); auto; try lia. rewrite E1. cbn [bind].
      pose proof S1 as (L1 & O1 & U1 & _). replace (iy + 1)%nat with (S iy) by lia.
      destruct (IH (S iy) x1 u1) as (x' & u' & E & S'); auto; try lia.
      exists x', u'. split; [exact E|]. eapply added_trans; [exact S1|exact S'].
    + assert (iy = length n) as -> by lia.
      exists x, u. split; [reflexivity|]. split; [reflexivity|]. split; [exact Ox|]. split; [exact Hu|reflexivity].
Qed.
Lemma propagate_spec fuel limbs idx x u : ok x -> (limbs <= length x)%nat -> 0 <= u < base ->
  (limbs - idx <= fuel)%nat -> (idx <= limbs)%nat -> LV x + u * p idx < p limbs ->
  exists x', propagate fuel limbs idx x u = Val x' /\ length x' = length x /\ ok x' /\
    LV x' = LV x + u * p idx.
Proof.
  revert idx x u. induction fuel as [|fuel IH]; intros idx x u Ox HL Hu Hf Hi Hb.
  - assert (idx = limbs) as -> by lia. pose proof (p_pos limbs). destruct (LV_bound x Ox) as [B0 _].
    assert (u = 0) as -> by nia. exists x. cbn [propagate Z.eqb negb andb].
    split; [reflexivity|]. split; [reflexivity|]. split; [exact Ox|]. ring.
  - cbn [propagate]. destruct (Z.eqb_spec u 0) as [->|N]; cbn [negb andb].
    + exists x. split; [reflexivity|]. split; [reflexivity|]. split; [exact Ox|]. ring.
    + destruct (Nat.ltb_spec idx limbs) as [G|G].
      * rewrite get_in by lia. cbn [bind]. pose proof (ok_nth x idx Ox ltac:(lia)) as Bx.
        assert (0 <= nth idx x 0 + u < base * base) as R by (unfold base in *; lia).
        destruct (split_word x idx (nth idx x 0 + u) Ox ltac:(lia) R) as (A & B & C & D).
        rewrite put_in by lia. cbn [bind]. replace (idx + 1)%nat with (S idx) by lia.
        replace ((nth idx x 0 + u - nth idx x 0) * p idx) with (u * p idx) in D by ring.
        destruct (IH (S idx) _ _ B ltac:(rewrite A; exact HL) C ltac:(lia) ltac:(lia) ltac:(rewrite D; exact Hb)) as (x' & E & L' & O' & V').
        exists x'. split; [exact E|]. split; [congruence|]. split; [exact O'|]. now rewrite V', D.
      * assert (idx = limbs) as -> by lia. pose proof (p_pos limbs). destruct (LV_bound x Ox) as [B0 _]. nia.
Qed.

Lemma row_spec limbs n rho ix x : ok n -> ok x -> (limbs <= length x)%nat -> (ix + length n <= limbs)%nat ->
  (ix < limbs)%nat ->
  let mu := limb (nth ix x 0 * rho) in
  LV x + mu * LV n * p ix < p limbs ->
  exists x', row (length n) limbs n rho ix x = Val x' /\ length x' = length x /\ ok x' /\
    LV x' = LV x + mu * LV n * p ix.
Proof.
  intros On Ox HL Hi Hix mu Hb. unfold row. rewrite get_in by lia. cbn [bind]. fold mu.
  assert (0 <= mu < base) as Hm by (apply Z.mod_pos_bound, base_pos).
  destruct (by4_spec (length n) n mu ix 0 x 0) as (x1 & u1 & i1 & E1 & B1 & S1); auto; try lia; try (unfold base; lia).
  rewrite E1. cbn [bind]. pose proof S1 as (L1 & O1 & U1 & _).
  destruct (by1_spec (length n) n mu ix i1 x1 u1) as (x2 & u2 & E2 & S2); auto; try lia.
  rewrite E2. cbn [bind]. pose proof (added_trans _ _ _ _ _ _ _ _ _ _ _ _ S1 S2) as (L2 & O2 & U2 & V2).
  cbn [firstn limbs_value] in V2. rewrite firstn_all in V2.
  assert (LV x2 + u2 * p (ix + length n) = LV x + mu * LV n * p ix) as V by lia.
  destruct (propagate_spec limbs limbs (ix + length n) x2 u2) as (x' & E & L' & O' & V'); auto; try lia.
  exists x'. split; [exact E|]. split; [congruence|]. split; [exact O'|]. lia.
Qed.

(** all rows: a multiple of the modulus is added and the low limbs become zero *)
Lemma rows_spec count limbs n rho ix x m : ok n -> ok x -> (limbs <= length x)%nat ->
  (ix + count = length n)%nat -> (length n + length n <= limbs)%nat -> LV n = m -> 0 < m ->
  (rho * m) mod base = base - 1 -> LV x mod p ix = 0 ->
  LV x + (p (length n) - p ix) * m <= p limbs - 1 ->
  exists x' k, rows count (length n) limbs n rho ix x = Val x' /\ length x' = length x /\ ok x' /\
    LV x' = LV x + k * m /\ 0 <= k <= p (length n) - p ix /\ LV x' mod p (length n) = 0.
Proof.
  intros On. revert ix x. induction count as [|count IH]; intros ix x Ox HL HC Hlim Hm Hp Hr Hz Hb.
  - assert (ix = length n) as -> by lia. exists x, 0. cbn [rows]. split; [reflexivity|]. split; [reflexivity|].
    split; [exact Ox|]. split; [ring|]. split; [lia|exact Hz].
  - cbn [rows]. set (mu := limb (nth ix x 0 * rho)).
    assert (0 <= mu < base) as Bm by (apply Z.mod_pos_bound, base_pos).
    pose proof (p_pos ix) as Pix. pose proof (p_S ix) as PS. pose proof base_pos as Bp.
    assert (p (S ix) <= p (length n)) as Mono by (apply p_mono; lia).
    assert (mu * m * p ix <= (p (S ix) - p ix) * m) as G.
    { replace ((p (S ix) - p ix) * m) with ((base - 1) * (m * p ix)) by (rewrite PS; ring).
      replace (mu * m * p ix) with (mu * (m * p ix)) by ring. apply Z.mul_le_mono_nonneg_r; [nia|lia]. }
    assert (LV x + mu * m * p ix < p limbs) as Hb1.
    { assert ((p (S ix) - p ix) * m <= (p (length n) - p ix) * m) by (apply Z.mul_le_mono_nonneg_r; lia). lia. }
    destruct (row_spec limbs n rho ix x On Ox HL ltac:(lia) ltac:(lia)) as (x1 & E1 & L1 & O1 & V1).
    { fold mu. rewrite Hm. exact Hb1. }
    fold mu in V1. rewrite Hm in V1. rewrite E1. cbn [bind].
    assert (LV x1 mod p (S ix) = 0) as Hz1.
    { rewrite V1, PS. apply Z.mod_divide; [lia|].
      apply Z.mod_divide in Hz; [|lia]. destruct Hz as [q Hq].
      assert (nth ix x 0 = q mod base) as Nq.
      { rewrite LV_nth by (auto; lia). rewrite Hq, Z.div_mul by lia. reflexivity. }
      assert ((q + mu * m) mod base = 0) as Z0.
      { unfold mu, limb. rewrite Nq. rewrite Z.add_mod, Z.mul_mod_idemp_l by lia.
        replace (q mod base * rho * m) with (q mod base * (rho * m)) by ring.
        rewrite Z.mul_mod, Z.mod_mod, Hr, <- Z.mul_mod_idemp_l, Z.mod_mod by lia.
        rewrite (Z.mul_mod_idemp_l q) by lia.
        rewrite <- Z.add_mod by lia. replace (q + q * (base - 1)) with (q * base) by ring. apply Z.mod_mul. lia. }
      apply Z.mod_divide in Z0; [|lia]. destruct Z0 as [w Hw].
      exists w. rewrite Hq. replace (q * p ix + mu * m * p ix) with ((q + mu * m) * p ix) by ring. rewrite Hw. ring. }
    destruct (IH (S ix) x1 O1 ltac:(congruence) ltac:(lia) Hlim Hm Hp Hr Hz1) as (x' & k & E & L' & O' & V' & Bk & Z').
    { rewrite V1. lia. }
    exists x', (k + mu * p ix). split; [exact E|]. split; [congruence|]. split; [exact O'|].
    split; [rewrite V', V1; ring|]. split; [|exact Z'].
    assert (mu * p ix <= p (S ix) - p ix) by (rewrite PS; nia). assert (0 <= mu * p ix) by nia. lia.
Qed.

Lemma strip_value x limbs : ok x -> (limbs <= length x)%nat -> LV (firstn (strip x limbs) x) = LV (firstn limbs x).
Proof.
  intros O. induction limbs as [|k IH]; intros H; [reflexivity|]. cbn [strip].
  destruct (Z.eqb_spec (nth k x 0) 0) as [E|]; [|reflexivity].
  rewrite IH by lia. rewrite (LV_firstn_S x k) by lia. rewrite E. lia.
Qed.

(** MontgomeryReduce *)
Lemma reduce_spec z m rho : 0 < m -> (rho * m) mod base = base - 1 ->
  Z.abs z + p (mpz_size m) * m < p (mpz_size m * 2 + 1) ->
  exists k y, 0 <= k < p (mpz_size m) /\ Z.abs z + k * m = y * p (mpz_size m) /\ 0 <= y /\
    montgomery_reduce z m rho = Val ((if z <? 0 then -1 else 1) * (if m <=? y then y - m else y)).
Proof.
  intros Hm Hr Hb. set (nn := mpz_size m) in *. unfold montgomery_reduce. fold nn.
  set (limbs := (nn * 2 + 1)%nat) in *.
  pose proof (p_pos nn) as Pn. pose proof (p_pos limbs) as Pl.
  assert (Z.abs z < p limbs) as Bz by nia.
  pose proof (size_le z limbs Bz) as Sz.
  set (n := limbs_of nn (Z.abs m)). set (x := limbs_of (mpz_size z) (Z.abs z) ++ repeat 0 (limbs - mpz_size z)).
  assert (length n = nn) as Ln by apply limbs_of_length.
  assert (LV n = m) as Vn.
  { unfold n. rewrite LV_limbs_of, Z.mod_small; [lia|]. pose proof (size_bound m). fold nn in H. lia. }
  assert (ok n) as On by apply limbs_of_ok.
  assert (length x = limbs) as Lx by (unfold x; rewrite app_length, limbs_of_length, repeat_length; lia).
  assert (ok x) as Ox.
  { unfold x. apply Forall_app. split; [apply limbs_of_ok|].
    apply Forall_forall. intros d Hd. apply repeat_spec in Hd. subst d. unfold base. lia. }
  assert (LV x = Z.abs z) as Vx.
  { unfold x. rewrite LV_app, LV_zeros, LV_limbs_of, Z.mod_small; [ring|]. pose proof (size_bound z). lia. }
  destruct (rows_spec nn limbs n rho 0 x m On Ox) as (x' & k & E & L' & O' & V' & Bk & Z'); auto; try lia.
  - now rewrite p_0, Z.mod_1_r.
  - rewrite Ln, Vx, p_0. lia.
  - rewrite Ln in *. rewrite E. cbn [bind]. rewrite p_0 in Bk.
    rewrite strip_value by (auto; lia). rewrite firstn_all2 by lia. rewrite V', Vx.
    rewrite V', Vx in Z'. apply Z.mod_divide in Z'; [|lia]. destruct Z' as [y Hy].
    assert (0 <= y) as Py by nia.
    exists k, y. split; [lia|]. split; [exact Hy|]. split; [exact Py|].
    rewrite Hy. unfold numb_bits. rewrite (Z.mul_comm (Z.of_nat nn)), <- p_2.
    rewrite Z.quot_mul by lia. f_equal. destruct (z <? 0); lia.
Qed.

(** MontgomerySetup *)
Lemma odd_limb m : 0 < m -> Z.odd m = true -> exists a, limb (Z.abs m) = a /\ 0 <= a < base /\ Z.odd a = true /\ a = m mod base.
Proof.
  intros Hm Ho. eexists. split; [reflexivity|]. unfold limb. rewrite Z.abs_eq by lia.
  split; [apply Z.mod_pos_bound, base_pos|]. split; [|reflexivity].
  rewrite <- Z.bit0_odd in Ho |- *. unfold base. rewrite Z.mod_pow2_bits_low by lia. exact Ho.
Qed.
Lemma newton_spec a x k : 0 <= k -> 2 * k <= 64 -> (a * x) mod 2 ^ k = 1 mod 2 ^ k ->
  (a * newton a x) mod 2 ^ (2 * k) = 1 mod 2 ^ (2 * k).
Proof.
  intros Hk H64 H. unfold newton, limb.
  assert (0 < 2 ^ k) as P by (apply Z.pow_pos_nonneg; lia).
  assert (0 < 2 ^ (2 * k)) as P2 by (apply Z.pow_pos_nonneg; lia).
  assert (exists w, base = w * 2 ^ (2 * k)) as [w Hw].
  { exists (2 ^ (64 - 2 * k)). unfold base. rewrite <- Z.pow_add_r by lia. f_equal. lia. }
  assert (forall v, exists c, v mod base = v + c * 2 ^ (2 * k)) as Md.
  { intros v. exists (- (v / base) * w). pose proof (Z.div_mod v base ltac:(discriminate)) as D.
    rewrite Z.mod_eq by discriminate. rewrite Hw at 1. ring. }
  destruct (Md (a * x)) as [c1 E1]. rewrite E1.
  destruct (Md (2 - (a * x + c1 * 2 ^ (2 * k)))) as [c2 E2]. rewrite E2.
  destruct (Md (x * (2 - (a * x + c1 * 2 ^ (2 * k)) + c2 * 2 ^ (2 * k)))) as [c3 E3]. rewrite E3.
  assert (exists e, a * x = 1 + e * 2 ^ k) as [e He].
  { pose proof (Z.div_mod (a * x) (2 ^ k) ltac:(lia)) as D1. rewrite H in D1.
    pose proof (Z.div_mod 1 (2 ^ k) ltac:(lia)) as D2.
    exists (a * x / 2 ^ k - 1 / 2 ^ k). rewrite D1 at 1. nia. }
  replace (a * (x * (2 - (a * x + c1 * 2 ^ (2 * k)) + c2 * 2 ^ (2 * k)) + c3 * 2 ^ (2 * k)))
    with (1 + (- (e * e) + (a * x) * (c2 - c1) + a * c3) * 2 ^ (2 * k)).
  - now rewrite Z.mod_add by lia.
  - replace (a * (x * (2 - (a * x + c1 * 2 ^ (2 * k)) + c2 * 2 ^ (2 * k)) + c3 * 2 ^ (2 * k)))
      with ((a * x) * (2 - a * x) + ((a * x) * (c2 - c1) + a * c3) * 2 ^ (2 * k)) by ring.
    rewrite He. replace (2 ^ (2 * k)) with (2 ^ k * 2 ^ k) by (rewrite <- Z.pow_add_r by lia; f_equal; lia). ring.
Qed.
Lemma setup_start a : 0 <= a < base -> Z.odd a = true ->
  (a * limb (limb (Z.shiftl (Z.land (limb (a + 2)) 4) 1) + a)) mod 2 ^ 4 = 1 mod 2 ^ 4.
Proof.
  intros Ha Ho. change (2 ^ 4) with 16. change (1 mod 16) with 1.
  assert (forall v, limb v mod 16 = v mod 16) as M16.
  { intros v. unfold limb, base. change (2 ^ 64) with (16 * 2 ^ 60). rewrite Z.rem_mul_r by lia.
    rewrite (Z.mul_comm 16), Z.mod_add by lia. apply Z.mod_mod. lia. }
  assert (Z.land (limb (a + 2)) 4 = Z.land (a mod 16 + 2) 4) as L4.
  { apply Z.bits_inj'. intros i Hi. rewrite !Z.land_spec.
    destruct (Z.eq_dec i 2) as [->|N].
    - f_equal. unfold limb, base. rewrite Z.mod_pow2_bits_low by lia.
      assert (forall v, Z.testbit v 2 = Z.testbit (v mod 16) 2) as T.
      { intros v. change 16 with (2 ^ 4). now rewrite Z.mod_pow2_bits_low by lia. }
      rewrite (T (a + 2)), (T (a mod 16 + 2)). f_equal. now rewrite Z.add_mod_idemp_l by lia.
    - assert (Z.testbit 4 i = false) as ->; [|now rewrite !andb_false_r].
      change 4 with (2 ^ 2). apply Z.pow2_bits_false. lia. }
  rewrite L4. rewrite <- Z.mul_mod_idemp_l, <- Z.mul_mod_idemp_r by lia. rewrite M16.
  rewrite Z.add_mod, M16 by lia.
  assert (Z.odd (a mod 16) = true) as Ho16.
  { rewrite <- Z.bit0_odd in Ho |- *. change 16 with (2 ^ 4). now rewrite Z.mod_pow2_bits_low by lia. }
  pose proof (Z.mod_pos_bound a 16 ltac:(lia)) as B. set (c := a mod 16) in *. clearbody c. clear L4 M16 Ha Ho a.
  assert (c = 1 \/ c = 3 \/ c = 5 \/ c = 7 \/ c = 9 \/ c = 11 \/ c = 13 \/ c = 15) as C.
  { rewrite Z.odd_spec in Ho16. destruct Ho16 as [j Hj]. lia. }
  destruct C as [-> | [-> | [-> | [-> | [-> | [-> | [-> | ->]]]]]]]; reflexivity.
Qed.
Lemma setup_spec m : 0 < m -> Z.odd m = true ->
  exists rho, montgomery_setup m = Val rho /\ 0 <= rho < base /\ (rho * m) mod base = base - 1.
Proof.
  intros Hm Ho. unfold montgomery_setup. destruct (odd_limb m Hm Ho) as (a & -> & Ba & Oa & Ea).
  replace (Z.land a 1) with 1.
  2:{ change 1 with (Z.ones 1) at 2. rewrite Z.land_ones by lia. change (2 ^ 1) with 2. now rewrite Zmod_odd, Oa. }
  change (1 =? 0) with false. cbv iota zeta.
  pose proof (setup_start a Ba Oa) as S0. set (x0 := limb (limb (Z.shiftl (Z.land (limb (a + 2)) 4) 1) + a)) in *.
  pose proof (newton_spec a x0 4 ltac:(lia) ltac:(lia) S0) as S1. set (x1 := newton a x0) in *.
  pose proof (newton_spec a x1 8 ltac:(lia) ltac:(lia) S1) as S2. set (x2 := newton a x1) in *.
  pose proof (newton_spec a x2 16 ltac:(lia) ltac:(lia) S2) as S3. set (x3 := newton a x2) in *.
  pose proof (newton_spec a x3 32 ltac:(lia) ltac:(lia) S3) as S4. set (x4 := newton a x3) in *.
  change (2 ^ (2 * 32)) with base in S4. change (1 mod base) with 1 in S4. clearbody x4. clear S0 S1 S2 S3 x3 x2 x1 x0.
  eexists. split; [reflexivity|]. rewrite Z.land_ones by lia. change (2 ^ 64) with base.
  change (Z.shiftl 1 numb_bits) with base. split; [apply Z.mod_pos_bound, base_pos|].
  rewrite Z.mul_mod_idemp_l by discriminate.
  rewrite <- Z.mul_mod_idemp_r, <- Ea by discriminate.
  replace ((base - x4) * a) with (- (a * x4) + a * base) by ring. rewrite Z.mod_add by discriminate.
  rewrite Z.mod_opp_l_nz; [now rewrite S4|discriminate|rewrite S4; discriminate].
Qed.
