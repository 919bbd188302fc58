From Coq Require Import ZArith Bool List Lia Eqdep_dec.
From Verif Require Import LinCodeModel BaseOtModel BaseOtProof.
Import ListNotations.
Open Scope Z_scope.

(** What the theorems ask of the group of the library: scalar multiples add up
    and compose, q is a period of the base point, subtraction undoes addition,
    and every element is read back from its 32 bytes. *)
Record ot_group (pt : Type) (add sub : pt -> pt -> pt) (mul : Z -> pt -> pt) (base : pt)
    (pack : pt -> list Z) (unpack : list Z -> option pt) (q : Z) : Prop := {
  og_q : 0 < q;
  og_comp : forall x y, mul x (mul y base) = mul (x * y) base;
  og_dist : forall x p r, mul x (add p r) = add (mul x p) (mul x r);
  og_plus : forall x y, add (mul x base) (mul y base) = mul (x + y) base;
  og_mod : forall x, mul (x mod q) base = mul x base;
  og_sub : forall p r, sub (add p r) p = r;
  og_unpack : forall p, unpack (pack p) = Some p;
  og_len : forall p, length (pack p) = 32%nat
}.

(** The number of encodings exchanged for n OTs in batches of k. *)
Definition padded (n k : nat) : nat := div_ceil n k * k.

(** ** C100: the base OT *)

(** Sender and receiver agree: for every number of OTs of the receiver and of the
    sender, all choices, secrets and scalars, and whichever library (batch size)
    each of them has, the session succeeds exactly when both count the same number
    of encodings, and then block i of the receiver is block choice_i of pair i of
    the sender, for every i both sides have. *)
Theorem base_ot_session_correct :
  forall pt add sub mul base pack unpack q, ot_group pt add sub mul base pack unpack q ->
  forall keyhash digest kr ks n y choices rnd,
  (0 < kr)%nat -> (0 < ks)%nat -> (0 < n)%nat -> choices <> [] ->
  (padded (length choices) kr <> padded n ks ->
     ot_session pt add sub mul base pack unpack keyhash digest kr ks n y choices rnd = Thrown) /\
  (padded (length choices) kr = padded n ks ->
     exists rb sb,
     ot_session pt add sub mul base pack unpack keyhash digest kr ks n y choices rnd = Val (rb, sb) /\
     length rb = length choices /\ length sb = n /\
     forall i c m0 m1, nth_error choices i = Some c -> nth_error sb i = Some (m0, m1) ->
       nth_error rb i = Some (if c then m1 else m0)).
Proof.
  intros pt add sub mul base pack unpack q G keyhash digest kr ks n y choices rnd Hkr Hks Hn Hc.
  pose proof (og_unpack _ _ _ _ _ _ _ _ G) as Hup. pose proof (og_len _ _ _ _ _ _ _ _ G) as Hlen.
  assert (Hl : length choices <> 0%nat) by (destruct choices; [congruence|cbn; lia]).
  unfold ot_session, base_ot_recv. rewrite !Nat.eqb_refl. cbn [andb].
  apply Nat.eqb_neq in Hl. rewrite Hl. cbn [negb]. apply Nat.eqb_neq in Hl. unfold ot_send_first.
  rewrite (ot_recv_ok pt add mul base pack unpack keyhash digest kr Hkr Hup Hlen). cbn [bind fst snd].
  unfold base_ot_send. replace (Nat.eqb n 0) with false by (symmetry; apply Nat.eqb_neq; lia).
  split; intros Hp; unfold padded in Hp.
  - unfold ot_send. rewrite concat_packs_length by (intros; apply Hlen).
    replace (Nat.eqb _ _) with false; [reflexivity|]. symmetry. apply Nat.eqb_neq.
    unfold PACKBYTES. nia.
  - rewrite Hp. unfold rpack at 1.
    rewrite (ot_send_ok pt sub mul base pack unpack keyhash digest ks Hks Hup Hlen n y
      (fun i => if nth i choices false then add (mul y base) (mul (rnd i) base) else mul (rnd i) base)).
    cbn [bind]. eexists; eexists; split; [reflexivity|].
    split; [now rewrite map_length, seq_length|]. split; [now rewrite map_length, seq_length|].
    intros i c m0 m1 Hi Hs.
    assert (Hil : (i < length choices)%nat) by (apply nth_error_Some; congruence).
    assert (Hin : (i < n)%nat).
    { assert (H : nth_error (map (fun i => i) (seq 0 n)) i <> None).
      { rewrite nth_error_map in Hs |- *. destruct (nth_error (seq 0 n) i); [discriminate|cbn in Hs; congruence]. }
      apply nth_error_Some in H. now rewrite map_length, seq_length in H. }
    assert (Hseq : forall a m, (a < m)%nat -> nth_error (seq 0 m) a = Some a).
    { intros a m H. rewrite (nth_error_nth' _ 0%nat) by (rewrite seq_length; lia). now rewrite seq_nth by lia. }
    rewrite nth_error_map, Hseq in Hs by lia. cbn [option_map] in Hs. injection Hs as E0 E1.
    rewrite nth_error_map, Hseq by lia. cbn [option_map]. f_equal.
    rewrite (nth_error_nth _ _ false Hi) in E0, E1.
    unfold rpack. rewrite (nth_error_nth _ _ false Hi).
    pose proof (og_comp _ _ _ _ _ _ _ _ G) as Hcomp.
    destruct c.
    + rewrite <- E1. f_equal. f_equal. f_equal. f_equal.
      rewrite (og_dist _ _ _ _ _ _ _ _ G), (og_sub _ _ _ _ _ _ _ _ G), !Hcomp. f_equal. ring.
    + rewrite <- E0. f_equal. f_equal. f_equal. rewrite !Hcomp. f_equal. ring.
Qed.

(** The case of the headers: both parties run the same library and ask for the
    same number of OTs. *)
Corollary base_ot_delivers :
  forall pt add sub mul base pack unpack q, ot_group pt add sub mul base pack unpack q ->
  forall keyhash digest k y choices rnd, (0 < k)%nat -> choices <> [] ->
  exists rb sb,
    ot_session pt add sub mul base pack unpack keyhash digest k k (length choices) y choices rnd = Val (rb, sb) /\
    length rb = length choices /\ length sb = length choices /\
    forall i, (i < length choices)%nat ->
      nth i rb 0 = (if nth i choices false then snd else fst) (nth i sb (0, 0)).
Proof.
  intros pt add sub mul base pack unpack q G keyhash digest k y choices rnd Hk Hc.
  assert (Hl : (0 < length choices)%nat) by (destruct choices; [congruence|cbn; lia]).
  destruct (base_ot_session_correct pt add sub mul base pack unpack q G keyhash digest k k (length choices) y choices rnd
              Hk Hk Hl Hc) as [_ H].
  destruct (H eq_refl) as (rb & sb & E & L1 & L2 & Hi). exists rb, sb. repeat split; auto.
  intros i Hil.
  destruct (nth_error choices i) as [c|] eqn:E1; [|apply nth_error_None in E1; lia].
  destruct (nth_error sb i) as [[m0 m1]|] eqn:E2; [|apply nth_error_None in E2; lia].
  pose proof (Hi _ _ _ _ E1 E2) as E3.
  rewrite (nth_error_nth _ _ 0 E3), (nth_error_nth _ _ false E1), (nth_error_nth _ _ (0, 0) E2). now destruct c.
Qed.

(** The portable library refuses any disagreement on the number of OTs... *)
Theorem base_ot_portable_counts_agree :
  forall pt add sub mul base pack unpack q, ot_group pt add sub mul base pack unpack q ->
  forall keyhash digest n y choices rnd, choices <> [] -> length choices <> n ->
  ot_session pt add sub mul base pack unpack keyhash digest 1 1 n y choices rnd = Thrown.
Proof.
  intros pt add sub mul base pack unpack q G keyhash digest n y choices rnd Hc Hn.
  destruct n as [|n].
  - assert (Hl : length choices <> 0%nat) by (destruct choices; [congruence|cbn; lia]).
    unfold ot_session, base_ot_recv. rewrite !Nat.eqb_refl. cbn [andb].
    apply Nat.eqb_neq in Hl. rewrite Hl. cbn [negb]. unfold ot_send_first.
    rewrite (ot_recv_ok pt add mul base pack unpack keyhash digest 1 ltac:(lia)
               (og_unpack _ _ _ _ _ _ _ _ G) (og_len _ _ _ _ _ _ _ _ G)). reflexivity.
  - apply (base_ot_session_correct pt add sub mul base pack unpack q G); try lia; auto.
    unfold padded, div_ceil. rewrite !Nat.div_1_r. lia.
Qed.

(** A portable party and an x86 party understand each other exactly when the
    number of OTs is a multiple of four. *)
Theorem base_ot_mixed_libraries :
  forall pt add sub mul base pack unpack q, ot_group pt add sub mul base pack unpack q ->
  forall keyhash digest kr ks y choices rnd, choices <> [] ->
  (kr = 1%nat /\ ks = 4%nat) \/ (kr = 4%nat /\ ks = 1%nat) ->
  (ot_session pt add sub mul base pack unpack keyhash digest kr ks (length choices) y choices rnd = Thrown <->
   (length choices mod 4 <> 0)%nat).
Proof.
  intros pt add sub mul base pack unpack q G keyhash digest kr ks y choices rnd Hc Hk.
  assert (Hl : (0 < length choices)%nat) by (destruct choices; [congruence|cbn; lia]).
  assert (Hp : padded (length choices) kr = padded (length choices) ks <-> (length choices mod 4 = 0)%nat).
  { unfold padded, div_ceil.
    pose proof (Nat.div_mod (length choices + 4 - 1) 4 ltac:(lia)) as E1.
    pose proof (Nat.mod_upper_bound (length choices + 4 - 1) 4 ltac:(lia)) as B1.
    pose proof (Nat.div_mod (length choices) 4 ltac:(lia)) as E2.
    pose proof (Nat.mod_upper_bound (length choices) 4 ltac:(lia)) as B2.
    destruct Hk as [[-> ->]|[-> ->]]; rewrite ?Nat.div_1_r; lia. }
  destruct (base_ot_session_correct pt add sub mul base pack unpack q G keyhash digest kr ks (length choices) y choices rnd
              ltac:(lia) ltac:(lia) Hl Hc) as [H1 H2].
  split.
  - intros E H0. apply Hp in H0. destruct (H2 H0) as (rb & sb & E' & _). congruence.
  - intros H0. apply H1. tauto.
Qed.

(** What each side refuses. *)
Theorem base_ot_recv_refuses :
  forall pt add mul base pack unpack keyhash digest k world nblocks choices rnd s_pack,
  world <> 2%nat \/ length choices <> nblocks \/ choices = [] \/ length s_pack <> 32%nat \/ unpack s_pack = None ->
  base_ot_recv pt add mul base pack unpack keyhash digest k world nblocks choices rnd s_pack = Thrown.
Proof.
  intros pt add mul base pack unpack keyhash digest k world nblocks choices rnd s_pack H.
  unfold base_ot_recv.
  destruct (Nat.eqb_spec world 2) as [Ew|]; [|reflexivity].
  destruct (Nat.eqb_spec (length choices) nblocks) as [En|]; [|reflexivity].
  destruct (Nat.eqb_spec (length choices) 0) as [|El]; [reflexivity|]. cbn [andb negb].
  unfold ot_recv. destruct (Nat.eqb_spec (length s_pack) PACKBYTES) as [Es|]; [|reflexivity].
  destruct (unpack s_pack) eqn:Eu; [|reflexivity].
  unfold PACKBYTES in Es. destruct H as [H|[H|[H|[H|H]]]]; try congruence. subst choices. now cbn in El.
Qed.

Lemma all_some_none A B (f : A -> option B) l a : In a l -> f a = None -> all_some (map f l) = None.
Proof.
  induction l as [|b l IH]; intros Hin H0; [easy|]. cbn. destruct Hin as [E|Hin].
  - subst b. now rewrite H0.
  - rewrite IH; auto. now destruct (f b).
Qed.
Lemma all_of_thrown A B (f : A -> outcome B) l a :
  (forall b, In b l -> (exists v, f b = Val v) \/ f b = Thrown) -> In a l -> f a = Thrown -> all_of (map f l) = Thrown.
Proof.
  induction l as [|b l IH]; intros Hv Hin H0; [easy|]. cbn.
  destruct (Hv b (or_introl eq_refl)) as [[v Ev]|Ev]; rewrite Ev; cbn; [|reflexivity].
  destruct Hin as [->|Hin]; [congruence|].
  rewrite IH; auto. intros c Hc. apply Hv. now right.
Qed.

Theorem base_ot_send_refuses :
  forall pt sub mul base pack unpack keyhash digest k n y msg, (0 < k)%nat ->
  n = 0%nat \/ length msg <> (padded n k * 32)%nat \/
  (exists i, (i < padded n k)%nat /\ unpack (firstn 32 (skipn (i * 32) msg)) = None) ->
  base_ot_send pt sub mul base pack unpack keyhash digest k n y msg = Thrown.
Proof.
  intros pt sub mul base pack unpack keyhash digest k n y msg Hk H. unfold base_ot_send.
  destruct (Nat.eqb_spec n 0) as [|Hn]; [reflexivity|]. unfold ot_send.
  destruct (Nat.eqb_spec (length msg) (div_ceil n k * k * PACKBYTES)) as [El|]; [|reflexivity].
  destruct H as [H|[H|[i [Hi Hu]]]]; [easy|now unfold padded, PACKBYTES in *|].
  rewrite (all_of_thrown _ _ _ _ (i / k * k)%nat); [reflexivity| | |].
  - intros b _. unfold batch_send. destruct (all_some _) as [keys|]; [|now right]. left.
    eexists. erewrite all_of_ext; [reflexivity|]. intros j _. cbn beta. rewrite !block_of_val. cbn [bind]. reflexivity.
  - unfold starts. apply in_map_iff. exists (i / k)%nat. split; [reflexivity|]. apply in_seq. unfold padded in Hi.
    split; [lia|]. cbn [Nat.add]. apply Nat.div_lt_upper_bound; lia.
  - unfold batch_send.
    rewrite (all_some_none _ _ _ _ (i mod k)%nat); [reflexivity| |].
    + apply in_seq. pose proof (Nat.mod_upper_bound i k ltac:(lia)). lia.
    + replace (i / k * k + i mod k)%nat with i by (pose proof (Nat.div_mod i k ltac:(lia)); lia).
      unfold skey1, slot, PACKBYTES. now rewrite Hu.
Qed.

(** The receiver's message does not depend on its choices: for a sender's element
    s * base and any two choice vectors of the same length there is, for every
    slot, a bijection of the scalars below q which turns the message for one into
    the message for the other.  With uniform scalars both messages have the same
    distribution, so the sender learns nothing. *)
Theorem base_ot_choices_hidden :
  forall pt add sub mul base pack unpack q, ot_group pt add sub mul base pack unpack q ->
  forall keyhash digest k s c c', (0 < k)%nat -> length c = length c' ->
  exists f g : nat -> Z -> Z,
    (forall i x, 0 <= x < q -> 0 <= f i x < q /\ 0 <= g i x < q /\ g i (f i x) = x /\ f i (g i x) = x) /\
    forall rnd, exists m b b',
      ot_recv pt add mul base pack unpack keyhash digest k c rnd (pack (mul s base)) = Val (m, b) /\
      ot_recv pt add mul base pack unpack keyhash digest k c' (fun i => f i (rnd i)) (pack (mul s base)) = Val (m, b').
Proof.
  intros pt add sub mul base pack unpack q G keyhash digest k s c c' Hk Hl.
  pose proof (og_q _ _ _ _ _ _ _ _ G) as Hq.
  set (v := fun (l : list bool) (i : nat) => if nth i l false then s else 0).
  exists (fun i x => (x + (v c i - v c' i)) mod q), (fun i x => (x - (v c i - v c' i)) mod q).
  split.
  - intros i x Hx. repeat match goal with |- _ /\ _ => split end; try (apply Z.mod_pos_bound; lia);
      try (apply Z.mod_pos_bound; exact Hq).
    + rewrite Zminus_mod_idemp_l. replace (x + (v c i - v c' i) - (v c i - v c' i)) with x by ring. now apply Z.mod_small.
    + rewrite Zplus_mod_idemp_l. replace (x - (v c i - v c' i) + (v c i - v c' i)) with x by ring. now apply Z.mod_small.
  - intros rnd. rewrite !(ot_recv_ok pt add mul base pack unpack keyhash digest k Hk
                           (og_unpack _ _ _ _ _ _ _ _ G) (og_len _ _ _ _ _ _ _ _ G)).
    rewrite <- Hl. eexists; eexists; eexists; split; [reflexivity|]. f_equal. f_equal.
    f_equal. apply map_ext. intros i. unfold rpack. f_equal.
    pose proof (og_plus _ _ _ _ _ _ _ _ G) as Hp. pose proof (og_mod _ _ _ _ _ _ _ _ G) as Hm.
    unfold v. destruct (nth i c false), (nth i c' false); rewrite ?Hm, ?Hp; f_equal; ring.
Qed.

(** The hashed inputs of two blocks differ unless both the index and the 16 key
    bytes are the same: keys are separated by the number of the OT. *)
Lemma le_of_inj k x y : 0 <= x < 256 ^ Z.of_nat k -> 0 <= y < 256 ^ Z.of_nat k -> le_of k x = le_of k y -> x = y.
Proof.
  revert x y. induction k as [|k IH]; intros x y Hx Hy E; [rewrite Z.pow_0_r in *; lia|].
  cbn [le_of] in E. injection E as E0 E1.
  rewrite Nat2Z.inj_succ, Z.pow_succ_r in Hx, Hy by lia.
  assert (x / 256 = y / 256).
  { apply IH; [split; [apply Z.div_pos; lia|apply Z.div_lt_upper_bound; lia]..|exact E1]. }
  rewrite (Z.div_mod x 256), (Z.div_mod y 256) by lia. congruence.
Qed.
Lemma le_of_length k x : length (le_of k x) = k.
Proof. revert x. induction k as [|k IH]; intros x; cbn; [reflexivity|]. now rewrite IH. Qed.
Lemma app_inj_len A (a b c d : list A) : length b = length d -> a ++ b = c ++ d -> a = c /\ b = d.
Proof.
  revert c. induction a as [|x a IH]; intros [|z c] L E; cbn in *; auto.
  - subst b. cbn in L. rewrite app_length in L. lia.
  - subst d. cbn in L. rewrite app_length in L. lia.
  - injection E as -> E. destruct (IH _ L E) as [-> ->]. auto.
Qed.
Theorem random_oracle_index_separates :
  forall x y x' y', 0 <= y < 2 ^ 64 -> 0 <= y' < 2 ^ 64 ->
  ro_input x y = ro_input x' y' -> x = x' /\ y = y'.
Proof.
  intros x y x' y' Hy Hy' E. unfold ro_input in E.
  apply app_inj_len in E as [-> E']; [|now rewrite !le_of_length].
  split; [reflexivity|]. revert E'. now apply le_of_inj.
Qed.

(** Typed outputs: exactly the types of at most 32 bytes with a supported hash. *)
Theorem random_oracle_gen_defined :
  forall digest a size x, ro_gen digest a size x = Thrown <-> a = OtherHash \/ 32 < size.
Proof.
  intros digest a size x. unfold ro_gen, ro_apply.
  destruct (Z.leb_spec size 32); destruct a; cbn; split; intros; try discriminate; try tauto; try lia;
    destruct H0; try discriminate; lia.
Qed.
(** A constructed oracle always answers, with the number of bytes it was asked for. *)
Theorem random_oracle_sane_answers :
  forall digest a outlen x, (forall m, length (digest a m) = 32%nat) -> ro_sane a outlen = true ->
  exists b, ro_apply digest a x outlen = Val b /\ Z.of_nat (length b) = outlen /\ 0 < outlen <= 32.
Proof.
  intros digest a outlen x Hd Hs. unfold ro_sane in Hs. apply andb_prop in Hs as [Hs H3]. apply andb_prop in Hs as [H1 H2].
  apply Z.ltb_lt in H1. apply Z.leb_le in H3. unfold ro_apply. rewrite H2. replace (outlen <=? 32) with true by lia.
  eexists; split; [reflexivity|]. rewrite firstn_length, Hd. lia.
Qed.

(** The two forms of Gen are not separated from each other: appending the eight
    bytes by hand gives the same value, whatever the hash. *)
Theorem random_oracle_forms_separate_refuted :
  exists x x' y, x <> x' /\ forall digest a size, ro_gen digest a size x' = ro_gen_idx digest a size x y.
Proof. exists [7], [7; 1; 0; 0; 0; 0; 0; 0; 0], 1. split; [discriminate|]. reflexivity. Qed.

(** ** Instances *)
(** The integers modulo 101, encoded in 32 bytes. *)
Definition z101 := {z : Z | (0 <=? z) && (z <? 101) = true}.
Lemma z101_ok z : (0 <=? z mod 101) && (z mod 101 <? 101) = true.
Proof. pose proof (Z.mod_pos_bound z 101 ltac:(lia)). apply andb_true_iff. split; lia. Qed.
Definition m101 (z : Z) : z101 := exist _ (z mod 101) (z101_ok z).
Lemma z101_eq (a b : z101) : proj1_sig a = proj1_sig b -> a = b.
Proof. destruct a as [a Ha], b as [b Hb]. cbn. intros ->. f_equal. apply UIP_dec. apply bool_dec. Qed.
Definition add101 (a b : z101) := m101 (proj1_sig a + proj1_sig b).
Definition sub101 (a b : z101) := m101 (proj1_sig a - proj1_sig b).
Definition mul101 (x : Z) (a : z101) := m101 (x * proj1_sig a).
Definition pack101 (a : z101) : list Z := proj1_sig a :: repeat 0 31.
Definition unpack101 (l : list Z) : option z101 :=
  match l with b :: _ => if (0 <=? b) && (b <? 101) then Some (m101 b) else None | [] => None end.
Lemma group101 : ot_group z101 add101 sub101 mul101 (m101 1) pack101 unpack101 101.
Proof.
  constructor; try lia.
  - intros x y. apply z101_eq. cbn [proj1_sig mul101 m101]. rewrite Zmult_mod_idemp_r. f_equal.
    change (1 mod 101) with 1. ring.
  - intros x p r. apply z101_eq. cbn [proj1_sig mul101 add101 m101]. rewrite Zmult_mod_idemp_r, <- Zplus_mod. f_equal. ring.
  - intros x y. apply z101_eq. cbn [proj1_sig mul101 add101 m101]. rewrite <- Zplus_mod. f_equal. ring.
  - intros x. apply z101_eq. cbn [proj1_sig mul101 m101]. rewrite Zmult_mod_idemp_l. reflexivity.
  - intros p r. apply z101_eq. cbn [proj1_sig sub101 add101 m101]. rewrite Zminus_mod_idemp_l.
    replace (proj1_sig p + proj1_sig r - proj1_sig p) with (proj1_sig r) by ring.
    destruct r as [r Hr]. cbn. apply andb_prop in Hr as [H1 H2]. apply Z.mod_small. lia.
  - intros p. unfold unpack101, pack101. destruct (andb_prop _ _ (proj2_sig p)) as [H1 H2].
    rewrite (proj2_sig p). f_equal. apply z101_eq. cbn [proj1_sig m101]. apply Z.mod_small. lia.
  - reflexivity.
Qed.
(** A key hash and a digest that depend on every byte they are given. *)
Definition mix (l : list Z) : Z := fold_left (fun h b => (h * 31 + b + 7) mod 251) l 5.
Definition keyhash_ex (a b c : list Z) : list Z := map (fun i => mix (i :: a ++ b ++ c)) [1;2;3;4;5;6;7;8;9;10;11;12;13;14;15;16;17;18;19;20].
Definition digest_ex (a : hash_alg) (m : list Z) : list Z :=
  map (fun i => mix (Z.of_nat i :: m)) (seq 0 32).

Definition session101 (kr ks n : nat) := ot_session z101 add101 sub101 mul101 (m101 1) pack101 unpack101 keyhash_ex digest_ex
  kr ks n 17 [true; false; true; true; false] (fun i => Z.of_nat i * 3 + 2).
(** Five OTs with the x86 library: the receiver has the chosen blocks, and the
    other blocks are different. *)
Example base_ot_delivers_example :
  match session101 4 4 5 with
  | Val (rb, sb) => forallb (fun p : bool * Z * (Z * Z) => let '(c, b, m) := p in ((if c then snd m else fst m) =? b) && negb ((if c then fst m else snd m) =? b))
                      (combine (combine [true; false; true; true; false] rb) sb) = true /\ length sb = 5%nat
  | _ => False
  end.
Proof. vm_compute. split; reflexivity. Qed.

(** With batches of four a disagreement on the number of OTs can go unnoticed:
    the receiver has five blocks, the sender seven pairs, and nobody complains. *)
Theorem base_ot_counts_agree_refuted :
  exists pt add sub mul base pack unpack q, ot_group pt add sub mul base pack unpack q /\
  exists keyhash digest y choices rnd rb sb,
    ot_session pt add sub mul base pack unpack keyhash digest 4 4 7 y choices rnd = Val (rb, sb) /\
    length choices = 5%nat /\ length rb = 5%nat /\ length sb = 7%nat.
Proof.
  exists z101, add101, sub101, mul101, (m101 1), pack101, unpack101, 101. split; [exact group101|].
  exists keyhash_ex, digest_ex, 17, [true; false; true; true; false], (fun i => Z.of_nat i * 3 + 2).
  destruct (base_ot_session_correct _ _ _ _ _ _ _ _ group101 keyhash_ex digest_ex 4 4 7 17
     [true; false; true; true; false] (fun i => Z.of_nat i * 3 + 2)) as [_ H]; try lia; [discriminate|].
  destruct (H eq_refl) as (rb & sb & E & L1 & L2 & _). exists rb, sb. auto.
Qed.

(** A message of the right length whose padding encodes no element is refused. *)
Example base_ot_send_refuses_example :
  base_ot_send z101 sub101 mul101 (m101 1) pack101 unpack101 keyhash_ex digest_ex 4 3 17
    (concat [pack101 (m101 3); pack101 (m101 4); pack101 (m101 5); repeat 255 32]) = Thrown.
Proof. apply base_ot_send_refuses; [lia|]. right. right. exists 3%nat. split; [vm_compute; lia|reflexivity]. Qed.
Example random_oracle_example : ro_sane SM3 16 = true /\ ro_sane OtherHash 16 = false /\ ro_sane SHA256 33 = false.
Proof. repeat split. Qed.

Print Assumptions base_ot_session_correct.
Print Assumptions base_ot_delivers.
Print Assumptions base_ot_portable_counts_agree.
Print Assumptions base_ot_mixed_libraries.
Print Assumptions base_ot_recv_refuses.
Print Assumptions base_ot_send_refuses.
Print Assumptions base_ot_choices_hidden.
Print Assumptions base_ot_counts_agree_refuted.
Print Assumptions random_oracle_index_separates.
Print Assumptions random_oracle_gen_defined.
Print Assumptions random_oracle_sane_answers.
Print Assumptions random_oracle_forms_separate_refuted.
