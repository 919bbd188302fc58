From Coq Require Import ZArith Arith Bool List Lia.
From Verif Require Import LinCodeModel SymModel.
Import ListNotations.
Open Scope Z_scope.

(** Property C108, for the model of SymModel.v. *)

(** A block cipher: blocks stay blocks, and decryption inverts encryption. *)
Definition lawful (E D : cipher -> list Z -> list Z -> list Z) : Prop :=
  forall c k b, length b = 16%nat -> length (E c k b) = 16%nat /\ D c k (E c k b) = b.

(** ** Lists *)

Lemma xor_length : forall a b, length (xor_block a b) = Nat.min (length a) (length b).
Proof. intros a b. unfold xor_block. rewrite map_length, combine_length. reflexivity. Qed.

Lemma xor_twice : forall a b, (length a <= length b)%nat -> xor_block (xor_block a b) b = a.
Proof.
  induction a as [|x a IH]; intros [|y b] H; cbn [length] in H; try reflexivity; try lia.
  unfold xor_block in *. cbn [combine map fst snd].
  rewrite Z.lxor_assoc, Z.lxor_nilpotent, Z.lxor_0_r. f_equal. apply IH. lia.
Qed.

Lemma div16_app : forall (a b : list Z), (length a mod 16 = 0)%nat ->
  (length (a ++ b) / 16 = length a / 16 + length b / 16)%nat.
Proof.
  intros a b H. rewrite app_length. pose proof (Nat.div_mod_eq (length a) 16) as E. rewrite H, Nat.add_0_r in E.
  rewrite E at 1. rewrite (Nat.mul_comm 16), Nat.div_add_l by lia. reflexivity.
Qed.

Lemma skip_app16 : forall (a b : list Z), (16 <= length a)%nat -> firstn 16 (a ++ b) = firstn 16 a /\ skipn 16 (a ++ b) = skipn 16 a ++ b.
Proof.
  intros a b H. rewrite firstn_app, skipn_app. replace (16 - length a)%nat with 0%nat by lia.
  rewrite firstn_O, skipn_O, app_nil_r. auto.
Qed.

(** Induction over whole blocks. *)
Lemma blocks_ind (P : nat -> list Z -> Prop) :
  P 0%nat [] -> (forall n l, (16 <= length l)%nat -> length l = (16 * S n)%nat -> P n (skipn 16 l) -> P (S n) l) ->
  forall l, (length l mod 16 = 0)%nat -> P (length l / 16)%nat l.
Proof.
  intros H0 HS l Hl. pose proof (Nat.div_mod_eq (length l) 16) as E. rewrite Hl, Nat.add_0_r in E.
  generalize dependent (length l / 16)%nat. intros n E. clear Hl. revert l E. induction n as [|n IH]; intros l E.
  - destruct l; [exact H0|discriminate E].
  - apply HS; [lia|exact E|]. apply IH. rewrite skipn_length. lia.
Qed.

Section Proofs.
  Variable E D : cipher -> list Z -> list Z -> list Z.

  Lemma ecb_app f : forall a b, (length a mod 16 = 0)%nat -> forall m,
    ecb_blocks f (length a / 16 + m) (a ++ b) = ecb_blocks f (length a / 16) a ++ ecb_blocks f m b.
  Proof using.
    intros a b Ha m. revert a Ha. refine (blocks_ind (fun n a => ecb_blocks f (n + m) (a ++ b) = ecb_blocks f n a ++ ecb_blocks f m b) _ _); [reflexivity|].
    intros n l H16 Hl IH. cbn [Nat.add ecb_blocks]. destruct (skip_app16 l b H16) as [-> ->]. rewrite IH, app_assoc. reflexivity.
  Qed.
  Lemma cbc_enc_app f : forall a b, (length a mod 16 = 0)%nat -> forall m ch,
    cbc_enc f (length a / 16 + m) (a ++ b) ch =
    (fst (cbc_enc f (length a / 16) a ch) ++ fst (cbc_enc f m b (snd (cbc_enc f (length a / 16) a ch))),
     snd (cbc_enc f m b (snd (cbc_enc f (length a / 16) a ch)))).
  Proof using.
    intros a b Ha m. revert a Ha. refine (blocks_ind (fun n a => forall ch, cbc_enc f (n + m) (a ++ b) ch = (fst (cbc_enc f n a ch) ++ fst (cbc_enc f m b (snd (cbc_enc f n a ch))), snd (cbc_enc f m b (snd (cbc_enc f n a ch))))) _ _).
    { intro ch. cbn [length Nat.add cbc_enc app fst snd]. destruct (cbc_enc f m b ch); reflexivity. }
    intros n l H16 Hl IH ch. cbn [Nat.add cbc_enc]. destruct (skip_app16 l b H16) as [-> ->]. rewrite IH. cbn [fst snd].
    rewrite app_assoc. reflexivity.
  Qed.
  Lemma cbc_dec_app f : forall a b, (length a mod 16 = 0)%nat -> forall m ch,
    cbc_dec f (length a / 16 + m) (a ++ b) ch =
    (fst (cbc_dec f (length a / 16) a ch) ++ fst (cbc_dec f m b (snd (cbc_dec f (length a / 16) a ch))),
     snd (cbc_dec f m b (snd (cbc_dec f (length a / 16) a ch)))).
  Proof using.
    intros a b Ha m. revert a Ha. refine (blocks_ind (fun n a => forall ch, cbc_dec f (n + m) (a ++ b) ch = (fst (cbc_dec f n a ch) ++ fst (cbc_dec f m b (snd (cbc_dec f n a ch))), snd (cbc_dec f m b (snd (cbc_dec f n a ch))))) _ _).
    { intro ch. cbn [length Nat.add cbc_dec app fst snd]. destruct (cbc_dec f m b ch); reflexivity. }
    intros n l H16 Hl IH ch. cbn [Nat.add cbc_dec]. destruct (skip_app16 l b H16) as [-> ->]. rewrite IH. cbn [fst snd].
    rewrite app_assoc. reflexivity.
  Qed.

  (** An input that a context takes. *)
  Definition fits (m : mode) (l : list Z) : Prop := m = CTR \/ (length l mod 16 = 0)%nat.

  Lemma combine_app_eq : forall (a b c d : list Z), length a = length c ->
    combine (a ++ b) (c ++ d) = combine a c ++ combine b d.
  Proof using.
    induction a as [|x a IH]; intros b [|y c] d H; try discriminate H; [reflexivity|].
    cbn [app combine]. rewrite IH by (injection H; auto). reflexivity.
  Qed.

  Lemma stream_same k k' : cip k = cip k' -> ckey k = ckey k' -> civ k = civ k' -> forall i, stream_byte E k i = stream_byte E k' i.
  Proof using. intros H1 H2 H3 i. unfold stream_byte. rewrite H1, H2, H3. reflexivity. Qed.

  Lemma update_app k a b : fits (cmode k) a ->
    update E D k (a ++ b) =
    (fst (update E D (fst (update E D k a)) b), snd (update E D k a) ++ snd (update E D (fst (update E D k a)) b)).
  Proof using.
    intro Hf. unfold update. destruct (cmode k) eqn:Em; cbn [fst snd]; rewrite ?Em; cbn [fst snd cmode encrypting cip ckey chain civ pos].
    - destruct Hf as [Hf|Hf]; [discriminate Hf|]. rewrite div16_app by exact Hf. rewrite ecb_app by exact Hf. reflexivity.
    - destruct Hf as [Hf|Hf]; [discriminate Hf|]. rewrite div16_app by exact Hf.
      destruct (encrypting k); [rewrite cbc_enc_app by exact Hf|rewrite cbc_dec_app by exact Hf]; reflexivity.
    - f_equal.
      + f_equal. rewrite app_length. lia.
      + rewrite app_length, seq_app, map_app, combine_app_eq, map_app by (rewrite map_length, seq_length; reflexivity).
        f_equal.
  Qed.

  Lemma update_mode k l : cmode (fst (update E D k l)) = cmode k.
  Proof using. unfold update. destruct (cmode k) eqn:Em; cbn [fst cmode]; congruence. Qed.

  Lemma update_nil k : update E D k [] = (k, []).
  Proof using.
    unfold update. destruct k as [en c m kk v ch ps]. cbn [cmode encrypting cip ckey civ chain pos length].
    destruct m; [reflexivity| |].
    - change (0 / 16)%nat with 0%nat. destruct en; reflexivity.
    - rewrite Nat.add_0_r. reflexivity.
  Qed.

  Lemma update_loop_eq limit : (0 < limit)%nat -> (limit mod 16 = 0)%nat ->
    forall fuel k inp, (length inp <= fuel)%nat -> update_loop E D fuel limit k inp = update E D k inp.
  Proof using.
    intros H0 Hm. induction fuel as [|fuel IH]; intros k inp Hl.
    - destruct inp; [|cbn [length] in Hl; lia]. rewrite update_nil. reflexivity.
    - cbn [update_loop]. destruct inp as [|x inp0] eqn:Ei; [rewrite update_nil; reflexivity|]. rewrite <- Ei in *.
      assert (Hn : (0 < length inp)%nat) by (rewrite Ei; cbn [length]; lia). clear Ei x inp0.
      rewrite IH by (rewrite skipn_length; lia).
      destruct (le_lt_dec (length inp) limit) as [Hs|Hs].
      + rewrite (firstn_all2 inp) by exact Hs. rewrite (skipn_all2 inp) by exact Hs. rewrite update_nil. cbn [fst snd].
        rewrite app_nil_r. destruct (update E D k inp); reflexivity.
      + transitivity (update E D k (firstn limit inp ++ skipn limit inp)); [|rewrite firstn_skipn; reflexivity].
        rewrite update_app; [reflexivity|].
        right. rewrite firstn_length, Nat.min_l by lia. exact Hm.
  Qed.

  Lemma kLimit_ok : (0 < kLimit)%nat /\ (kLimit mod 16 = 0)%nat.
  Proof using.
    assert (H : kLimit = (N.to_nat 134217727 * 16)%nat).
    { unfold kLimit. change (2 ^ 31 - 16)%N with (134217727 * 16)%N. rewrite Nnat.N2Nat.inj_mul. reflexivity. }
    rewrite H. split; [lia|]. apply Nat.mod_mul. lia.
  Qed.
  Opaque kLimit.

  (** ** Inverses *)

  Hypothesis Hlaw : lawful E D.

  Definition sync (ke kd : ctx) : Prop :=
    encrypting ke = true /\ encrypting kd = false /\ cip ke = cip kd /\ cmode ke = cmode kd /\ ckey ke = ckey kd /\
    civ ke = civ kd /\ chain ke = chain kd /\ pos ke = pos kd /\ length (chain ke) = 16%nat.

  Lemma ecb_inv c kk : forall l, (length l mod 16 = 0)%nat ->
    length (ecb_blocks (E c kk) (length l / 16) l) = length l /\
    ecb_blocks (D c kk) (length l / 16) (ecb_blocks (E c kk) (length l / 16) l) = l.
  Proof using Hlaw.
    refine (blocks_ind (fun n l => length (ecb_blocks (E c kk) n l) = length l /\ ecb_blocks (D c kk) n (ecb_blocks (E c kk) n l) = l) _ _); [split; reflexivity|].
    intros n l H16 Hl [IH1 IH2]. cbn [ecb_blocks].
    assert (Hb : length (firstn 16 l) = 16%nat) by (rewrite firstn_length; lia).
    destruct (Hlaw c kk (firstn 16 l) Hb) as [HE HD].
    split; [rewrite app_length, HE, IH1, skipn_length; lia|].
    rewrite firstn_app, skipn_app, HE, Nat.sub_diag, firstn_O, skipn_O, app_nil_r.
    rewrite (firstn_all2 (E c kk (firstn 16 l))), (skipn_all2 (E c kk (firstn 16 l))) by lia.
    cbn [app]. rewrite HD, IH2. apply firstn_skipn.
  Qed.

  Lemma cbc_inv c kk : forall l, (length l mod 16 = 0)%nat -> forall ch, length ch = 16%nat ->
    let r := cbc_enc (E c kk) (length l / 16) l ch in
    length (fst r) = length l /\ length (snd r) = 16%nat /\
    cbc_dec (D c kk) (length l / 16) (fst r) ch = (l, snd r).
  Proof using Hlaw.
    refine (blocks_ind (fun n l => forall ch, length ch = 16%nat -> let r := cbc_enc (E c kk) n l ch in length (fst r) = length l /\ length (snd r) = 16%nat /\ cbc_dec (D c kk) n (fst r) ch = (l, snd r)) _ _).
    { intros ch Hc. cbn [cbc_enc cbc_dec length fst snd]. auto. }
    intros n l H16 Hl IH ch Hc. cbn [cbc_enc].
    assert (Hb : length (firstn 16 l) = 16%nat) by (rewrite firstn_length; lia).
    assert (Hx : length (xor_block (firstn 16 l) ch) = 16%nat) by (rewrite xor_length; lia).
    destruct (Hlaw c kk (xor_block (firstn 16 l) ch) Hx) as [HE HD].
    destruct (IH (E c kk (xor_block (firstn 16 l) ch)) HE) as (I1 & I2 & I3). cbn [fst snd].
    split; [rewrite app_length, HE, I1, skipn_length; lia|]. split; [exact I2|].
    cbn [cbc_dec]. rewrite firstn_app, skipn_app, HE, Nat.sub_diag, firstn_O, skipn_O, app_nil_r.
    rewrite (firstn_all2 (E c kk (xor_block (firstn 16 l) ch))), (skipn_all2 (E c kk (xor_block (firstn 16 l) ch))) by lia.
    cbn [app]. rewrite I3. cbn [fst snd]. rewrite HD, xor_twice by lia. rewrite firstn_skipn. reflexivity.
  Qed.

  Lemma update_inv ke kd l : sync ke kd -> fits (cmode ke) l ->
    let r := update E D ke l in let r' := update E D kd (snd r) in
    length (snd r) = length l /\ snd r' = l /\ sync (fst r) (fst r').
  Proof using Hlaw.
    intros (H1 & H2 & H3 & H4 & H5 & H6 & H7 & H8 & H9) Hf. cbv zeta. unfold update.
    rewrite <- H4. destruct (cmode ke) eqn:Em; rewrite ?H1, ?H2.
    - destruct Hf as [Hf|Hf]; [discriminate Hf|]. cbn [fst snd]. rewrite <- H3, <- H5.
      destruct (ecb_inv (cip ke) (ckey ke) l Hf) as [I1 I2]. rewrite I1. split; [reflexivity|]. split; [exact I2|].
      repeat split; congruence.
    - destruct Hf as [Hf|Hf]; [discriminate Hf|]. cbn [fst snd]. rewrite <- H3, <- H5, <- H7.
      destruct (cbc_inv (cip ke) (ckey ke) l Hf (chain ke) H9) as (I1 & I2 & I3). rewrite I1, I3. cbn [fst snd].
      split; [reflexivity|]. split; [reflexivity|].
      unfold sync; repeat match goal with |- _ /\ _ => split end; cbn [encrypting cip cmode ckey civ chain pos]; congruence.
    - cbn [fst snd].
      assert (Hl : forall (u : list Z) (g : nat -> Z), length (map (fun p => Z.lxor (fst p) (snd p)) (combine u (map g (seq (pos ke) (length u))))) = length u)
        by (intros u g; rewrite map_length, combine_length, map_length, seq_length; lia).
      rewrite !Hl. split; [reflexivity|]. split.
      + rewrite <- H8. rewrite (map_ext _ _ (stream_same kd ke (eq_sym H3) (eq_sym H5) (eq_sym H6))).
        apply xor_twice. rewrite map_length, seq_length. lia.
      + unfold sync; repeat match goal with |- _ /\ _ => split end; cbn [encrypting cip cmode ckey civ chain pos]; congruence.
  Qed.

  Lemma encrypt_val s p : fits (snd (type s)) p ->
    encrypt E D s p (length p) =
    Val ({| type := type s; key := key s; iv := iv s; enc_ctx := fst (update E D (enc_ctx s) p); dec_ctx := dec_ctx s |},
         snd (update E D (enc_ctx s) p)).
  Proof using.
    intro Hf. unfold encrypt, encrypt_lim, is_ctr, kBlock. rewrite Nat.eqb_refl.
    destruct kLimit_ok as [K1 K2]. rewrite update_loop_eq by (assumption || lia).
    destruct (snd (type s)) eqn:Em; cbn [negb andb]; try reflexivity;
      (destruct Hf as [Hf|Hf]; [discriminate Hf|]; rewrite Hf; reflexivity).
  Qed.
  Lemma decrypt_val s c : fits (snd (type s)) c ->
    decrypt E D s c (length c) =
    Val ({| type := type s; key := key s; iv := iv s; enc_ctx := enc_ctx s; dec_ctx := fst (update E D (dec_ctx s) c) |},
         snd (update E D (dec_ctx s) c)).
  Proof using.
    intro Hf. unfold decrypt, decrypt_lim, is_ctr, kBlock. rewrite Nat.eqb_refl.
    destruct kLimit_ok as [K1 K2]. rewrite update_loop_eq by (assumption || lia).
    destruct (snd (type s)) eqn:Em; cbn [negb andb]; try reflexivity;
      (destruct Hf as [Hf|Hf]; [discriminate Hf|]; rewrite Hf; reflexivity).
  Qed.

  Lemma make_val c m k v s : make c m k v = Val s ->
    type s = (c, m) /\ key s = firstn 16 k /\ iv s = firstn 16 v /\ length (iv s) = 16%nat /\
    enc_ctx s = setup c m (key s) (iv s) true /\ dec_ctx s = setup c m (key s) (iv s) false.
  Proof using.
    unfold make. destruct (Nat.leb_spec 16 (length k)), (Nat.leb_spec 16 (length v)); cbn [andb]; try discriminate.
    intro Hs. match type of Hs with Val ?r = Val s => assert (Hr : s = r) by congruence end. clear Hs. subst s.
    cbn [type key iv enc_ctx dec_ctx]. repeat split. rewrite firstn_length. lia.
  Qed.

  Lemma history_inv : forall ps a b, type a = type b -> cmode (enc_ctx a) = snd (type a) -> sync (enc_ctx a) (dec_ctx b) ->
    Forall (fits (snd (type a))) ps ->
    exists a' b' cs, encrypts E D a ps = Val (a', cs) /\ decrypts E D b cs = Val (b', ps) /\
      map (@length Z) cs = map (@length Z) ps.
  Proof using Hlaw.
    induction ps as [|p ps IH]; intros a b Ht Hm Hs Hf.
    - exists a, b, []. auto.
    - inversion Hf as [|x y Hp Hps]; subst. cbn [encrypts]. rewrite (encrypt_val a p Hp). cbn [bind fst snd].
      assert (Hp' := Hp). rewrite <- Hm in Hp'. destruct (update_inv _ _ p Hs Hp') as (I1 & I2 & I3).
      assert (Hc : fits (snd (type b)) (snd (update E D (enc_ctx a) p))).
      { rewrite <- Ht. destruct Hp as [Hp|Hp]; [left; exact Hp|right; rewrite I1; exact Hp]. }
      set (c := snd (update E D (enc_ctx a) p)) in *.
      destruct (IH {| type := type a; key := key a; iv := iv a; enc_ctx := fst (update E D (enc_ctx a) p); dec_ctx := dec_ctx a |}
                   {| type := type b; key := key b; iv := iv b; enc_ctx := enc_ctx b; dec_ctx := fst (update E D (dec_ctx b) c) |})
        as (a' & b' & cs & H1 & H2 & H3).
      + exact Ht.
      + cbn [enc_ctx type]. rewrite update_mode. exact Hm.
      + exact I3.
      + exact Hps.
      + exists a', b', (c :: cs). rewrite H1. cbn [bind fst snd]. split; [reflexivity|].
        cbn [decrypts]. rewrite (decrypt_val b c Hc). cbn [bind fst snd]. rewrite H2. cbn [bind fst snd].
        rewrite I2. split; [reflexivity|]. cbn [map]. rewrite H3, I1. reflexivity.
  Qed.
End Proofs.

(** C108: what a history of Encrypt calls produced, Decrypt calls in the same order, on an
    object with the same key and initial vector, turn back; ciphertexts have the lengths of
    the plaintexts. *)
Theorem sym_round_trip :
  forall E D, lawful E D -> forall c m k v s, make c m k v = Val s ->
  forall ps, m = CTR \/ Forall (fun p => length p mod 16 = 0)%nat ps ->
  exists s1 s2 cs, encrypts E D s ps = Val (s1, cs) /\ decrypts E D s cs = Val (s2, ps) /\
    map (@length Z) cs = map (@length Z) ps.
Proof.
  intros E D HL c m k v s Hs ps Hp. destruct (make_val c m k v s Hs) as (H1 & H2 & H3 & H4 & H5 & H6).
  apply (history_inv E D HL ps s s); rewrite ?H5, ?H6, ?H1; try reflexivity.
  - unfold sync; repeat match goal with |- _ /\ _ => split end; try reflexivity. exact H4.
  - cbn [snd]. destruct Hp as [->|Hp].
    + apply Forall_forall. intros p _. left. reflexivity.
    + eapply Forall_impl; [|exact Hp]. intros p Hl. right. exact Hl.
Qed.

(** C108: how the data is split over calls (and over the passes of 2^31 - 16 bytes inside
    a call) does not matter. *)
Theorem sym_split :
  forall E D s p1 p2, snd (type s) = cmode (enc_ctx s) -> snd (type s) = CTR \/ (length p1 mod 16 = 0 /\ length p2 mod 16 = 0)%nat ->
  exists s1 s2 c1 c2, encrypt E D s p1 (length p1) = Val (s1, c1) /\ encrypt E D s1 p2 (length p2) = Val (s2, c2) /\
    encrypt E D s (p1 ++ p2) (length (p1 ++ p2)) = Val (s2, c1 ++ c2).
Proof.
  intros E D s p1 p2 Hm Hp.
  assert (F1 : fits (snd (type s)) p1) by (destruct Hp as [Hp|[Hp _]]; [left; exact Hp|right; exact Hp]).
  assert (F2 : fits (snd (type s)) p2) by (destruct Hp as [Hp|[_ Hp]]; [left; exact Hp|right; exact Hp]).
  assert (F3 : fits (snd (type s)) (p1 ++ p2)).
  { destruct Hp as [Hp|[P1 P2]]; [left; exact Hp|right]. rewrite app_length, Nat.add_mod, P1, P2 by lia. reflexivity. }
  eexists. eexists. eexists. eexists. split; [apply (encrypt_val E D s p1 F1)|]. split; [apply encrypt_val; exact F2|].
  rewrite (encrypt_val E D s _ F3). cbn [enc_ctx type key iv dec_ctx].
  rewrite update_app by (rewrite <- Hm; exact F1). reflexivity.
Qed.

(** C108: the sizes that are refused: buffers of different sizes, and in ECB and CBC
    anything but whole blocks. *)
Theorem sym_sizes :
  forall E D s p out,
  (encrypt E D s p out = Thrown <-> length p <> out \/ (snd (type s) <> CTR /\ length p mod 16 <> 0)%nat) /\
  (decrypt E D s p out = Thrown <-> length p <> out \/ (snd (type s) <> CTR /\ length p mod 16 <> 0)%nat) /\
  encrypt E D s p out <> OutOfBounds /\ decrypt E D s p out <> OutOfBounds.
Proof.
  intros E D s p out. unfold encrypt, decrypt, encrypt_lim, decrypt_lim, is_ctr, kBlock.
  destruct (Nat.eqb_spec (length p) out) as [<-|Hn].
  - rewrite Nat.eqb_refl.
    destruct (Nat.eqb_spec (length p mod 16) 0) as [Hz|Hz]; destruct (snd (type s)); cbn [negb andb];
      repeat match goal with |- _ /\ _ => split | |- _ <-> _ => split end; intros; try discriminate; try reflexivity; intuition congruence.
  - destruct (Nat.eqb_spec out (length p)) as [He|_]; [congruence|].
    destruct (Nat.eqb_spec (length p mod 16) 0) as [Hz|Hz]; destruct (Nat.eqb_spec (out mod 16) 0) as [Hz'|Hz'];
    destruct (snd (type s)); cbn [negb andb];
      repeat match goal with |- _ /\ _ => split | |- _ <-> _ => split end; intros; try discriminate; try reflexivity; left; exact Hn.
Qed.

(** *** What the first call computes *)

Definition blk (i : nat) (l : list Z) : list Z := firstn 16 (skipn (16 * i) l).

Lemma blk_S : forall i l, blk (S i) l = blk i (skipn 16 l).
Proof.
  intros i l. unfold blk. f_equal. replace (16 * S i)%nat with (16 + 16 * i)%nat by lia.
  generalize (16 * i)%nat as j. generalize 16%nat as q. intros q j. revert l. induction q as [|q IH]; intro l; [reflexivity|].
  destruct l; [rewrite !skipn_nil; reflexivity|]. cbn [skipn Nat.add]. apply IH.
Qed.
Lemma blk_S_app : forall i a b, length a = 16%nat -> blk (S i) (a ++ b) = blk i b.
Proof. intros i a b H. rewrite blk_S, skipn_app, H, Nat.sub_diag, skipn_O, skipn_all2 by lia. reflexivity. Qed.
Lemma blk_0_app : forall a b, length a = 16%nat -> blk 0 (a ++ b) = a.
Proof. intros a b H. unfold blk. rewrite Nat.mul_0_r, skipn_O. rewrite firstn_app, H, Nat.sub_diag, firstn_O, app_nil_r, firstn_all2 by lia. reflexivity. Qed.

Lemma ecb_spec : forall E D, lawful E D -> forall c kk l, (length l mod 16 = 0)%nat ->
  forall i, (16 * i < length l)%nat -> blk i (ecb_blocks (E c kk) (length l / 16) l) = E c kk (blk i l).
Proof.
  intros E D HL c kk. refine (blocks_ind (fun n l => forall i, (16 * i < length l)%nat -> blk i (ecb_blocks (E c kk) n l) = E c kk (blk i l)) _ _); [intros i Hi; cbn [length] in Hi; lia|].
  intros n l H16 Hl IH i Hi. cbn [ecb_blocks].
  assert (Hb : length (firstn 16 l) = 16%nat) by (rewrite firstn_length; lia).
  destruct (HL c kk (firstn 16 l) Hb) as [HE _]. destruct i as [|i].
  - rewrite blk_0_app by exact HE. reflexivity.
  - rewrite blk_S_app by exact HE. rewrite IH by (rewrite skipn_length; lia). rewrite blk_S. reflexivity.
Qed.

Lemma cbc_spec : forall E D, lawful E D -> forall c kk l, (length l mod 16 = 0)%nat -> forall ch, length ch = 16%nat ->
  let ct := fst (cbc_enc (E c kk) (length l / 16) l ch) in
  forall i, (16 * i < length l)%nat ->
  blk i ct = E c kk (xor_block (blk i l) (match i with O => ch | S j => blk j ct end)).
Proof.
  intros E D HL c kk. refine (blocks_ind (fun n l => forall ch, length ch = 16%nat -> let ct := fst (cbc_enc (E c kk) n l ch) in forall i, (16 * i < length l)%nat -> blk i ct = E c kk (xor_block (blk i l) (match i with O => ch | S j => blk j ct end))) _ _); [intros ch _ ct i Hi; cbn [length] in Hi; lia|].
  intros n l H16 Hl IH ch Hc ct i Hi. subst ct. cbn [cbc_enc fst].
  assert (Hb : length (firstn 16 l) = 16%nat) by (rewrite firstn_length; lia).
  assert (Hx : length (xor_block (firstn 16 l) ch) = 16%nat) by (rewrite xor_length; lia).
  destruct (HL c kk (xor_block (firstn 16 l) ch) Hx) as [HE _].
  destruct i as [|i].
  - rewrite blk_0_app by exact HE. reflexivity.
  - rewrite blk_S_app by exact HE. rewrite IH by (rewrite ?skipn_length; lia || exact HE). rewrite blk_S.
    destruct i as [|j]; [rewrite blk_0_app by exact HE; reflexivity|rewrite blk_S_app by exact HE; reflexivity].
Qed.

(** C108: the first Encrypt of an object, block by block (byte by byte in counter mode). *)
Theorem sym_modes :
  forall E D, lawful E D -> forall c m k v s, make c m k v = Val s -> forall p, m = CTR \/ (length p mod 16 = 0)%nat ->
  exists s' ct, encrypt E D s p (length p) = Val (s', ct) /\ length ct = length p /\
  let key := firstn 16 k in let iv := firstn 16 v in
  match m with
  | ECB => forall i, (16 * i < length p)%nat -> blk i ct = E c key (blk i p)
  | CBC => forall i, (16 * i < length p)%nat ->
           blk i ct = E c key (xor_block (blk i p) (match i with O => iv | S j => blk j ct end))
  | CTR => forall i, (i < length p)%nat ->
           nth i ct 0 = Z.lxor (nth i p 0)
             (nth (i mod 16)%nat (E c key (be_bytes 16 ((be_value iv + Z.of_nat (i / 16)) mod 2 ^ 128))) 0)
  end.
Proof.
  intros E D HL c m k v s Hs p Hp. destruct (make_val c m k v s Hs) as (H1 & H2 & H3 & H4 & H5 & H6).
  assert (Hf : fits (snd (type s)) p) by (rewrite H1; exact Hp).
  rewrite (encrypt_val E D s p Hf). eexists. eexists. split; [reflexivity|]. rewrite H5. rewrite <- H2, <- H3.
  unfold update, setup. cbn [cmode encrypting cip ckey civ chain pos].
  destruct m; cbn [snd fst].
  - destruct Hp as [Hp|Hp]; [discriminate Hp|]. split; [apply (ecb_inv E D HL); exact Hp|]. apply (ecb_spec E D HL). exact Hp.
  - destruct Hp as [Hp|Hp]; [discriminate Hp|]. split; [apply (cbc_inv E D HL); assumption|]. apply (cbc_spec E D HL); assumption.
  - split; [rewrite map_length, combine_length, map_length, seq_length; lia|].
    intros i Hi. set (g := stream_byte E _).
    rewrite (nth_indep _ 0 ((fun p => Z.lxor (fst p) (snd p)) (0, 0))) by (rewrite map_length, combine_length, map_length, seq_length; lia).
    rewrite (map_nth (fun p => Z.lxor (fst p) (snd p))), combine_nth by (rewrite map_length, seq_length; reflexivity). cbn [fst snd]. f_equal.
    rewrite (nth_indep _ 0 (g 0%nat)) by (rewrite map_length, seq_length; exact Hi).
    rewrite map_nth, seq_nth by exact Hi. reflexivity.
Qed.

(** C108: the numbers and exclusive ors in [sym_modes] are the usual ones: byte [i] of the
    counter block is the byte of weight 256^(15-i), the initial vector is read with its
    first byte most significant, blocks are combined byte by byte. *)
Lemma be_bytes_nth : forall k x i, (i < k)%nat -> nth i (be_bytes k x) 0 = x / 256 ^ Z.of_nat (k - 1 - i) mod 256 /\ length (be_bytes k x) = k.
Proof.
  assert (L : forall k x, length (be_bytes k x) = k).
  { induction k as [|k IH]; intro x; [reflexivity|]. cbn [be_bytes]. rewrite app_length, IH. cbn [length]. lia. }
  induction k as [|k IH]; intros x i Hi; [lia|]. split; [|apply L]. cbn [be_bytes].
  destruct (Nat.eq_dec i k) as [->|Hn].
  - rewrite app_nth2 by (rewrite L; lia). rewrite L, Nat.sub_diag. replace (S k - 1 - k)%nat with 0%nat by lia.
    cbn [nth]. change (256 ^ Z.of_nat 0) with 1. rewrite Z.div_1_r. reflexivity.
  - rewrite app_nth1 by (rewrite L; lia). destruct (IH (x / 256) i ltac:(lia)) as [-> _].
    rewrite Z.div_div by (try apply Z.pow_nonneg; try apply Z.pow_pos_nonneg; lia).
    replace (S k - 1 - i)%nat with (S (k - 1 - i)) by lia. rewrite Nat2Z.inj_succ, Z.pow_succ_r by lia. reflexivity.
Qed.
Theorem sym_arithmetic :
  (forall x i, (i < 16)%nat -> nth i (be_bytes 16 x) 0 = x / 256 ^ Z.of_nat (15 - i) mod 256) /\
  (forall x, length (be_bytes 16 x) = 16%nat) /\
  (be_value [] = 0 /\ forall l b, be_value (l ++ [b]) = be_value l * 256 + b) /\
  (forall a b i, (i < length a)%nat -> (i < length b)%nat -> nth i (xor_block a b) 0 = Z.lxor (nth i a 0) (nth i b 0)) /\
  (forall a b, length (xor_block a b) = Nat.min (length a) (length b)).
Proof.
  split; [intros x i Hi; apply (be_bytes_nth 16 x i Hi)|]. split; [intro x; apply (be_bytes_nth 16 x 0); lia|].
  split; [split; [reflexivity|intros l b; unfold be_value; rewrite fold_left_app; reflexivity]|].
  split; [|apply xor_length].
  induction a as [|x a IH]; intros [|y b] [|i] Ha Hb; cbn [length] in *; try lia; [reflexivity|].
  unfold xor_block in *. cbn [combine map nth]. apply IH; lia.
Qed.

(** C108: Reset brings the object back to where its constructor left it. *)
Lemma encrypts_keep : forall E D ps s s' cs, encrypts E D s ps = Val (s', cs) -> type s' = type s /\ key s' = key s /\ iv s' = iv s.
Proof.
  intros E D. induction ps as [|p ps IH]; intros s s' cs H; cbn [encrypts] in H; [injection H as <- _; auto|].
  unfold encrypt, encrypt_lim in H. destruct (_ && _); [discriminate H|]. rewrite Nat.eqb_refl in H. cbn [bind fst snd] in H.
  set (s1 := {| type := type s |}) in H. destruct (encrypts E D s1 ps) as [[s2 cs2]| | |] eqn:Ee; cbn [bind fst snd] in H; try discriminate H.
  injection H as <- _. apply (IH s1 s2 cs2) in Ee. exact Ee.
Qed.
Lemma decrypts_keep : forall E D ps s s' cs, decrypts E D s ps = Val (s', cs) -> type s' = type s /\ key s' = key s /\ iv s' = iv s.
Proof.
  intros E D. induction ps as [|p ps IH]; intros s s' cs H; cbn [decrypts] in H; [injection H as <- _; auto|].
  unfold decrypt, decrypt_lim in H. destruct (_ && _); [discriminate H|]. rewrite Nat.eqb_refl in H. cbn [bind fst snd] in H.
  set (s1 := {| type := type s |}) in H. destruct (decrypts E D s1 ps) as [[s2 cs2]| | |] eqn:Ee; cbn [bind fst snd] in H; try discriminate H.
  injection H as <- _. apply (IH s1 s2 cs2) in Ee. exact Ee.
Qed.

Theorem sym_reset :
  forall E D c m k v s, make c m k v = Val s -> forall ps cs s1 s2 r1 r2,
  encrypts E D s ps = Val (s1, r1) -> decrypts E D s1 cs = Val (s2, r2) -> reset s2 = s.
Proof.
  intros E D c m k v s Hs ps cs s1 s2 r1 r2 He Hd. destruct (make_val c m k v s Hs) as (H1 & H2 & H3 & H4 & H5 & H6).
  apply encrypts_keep in He. apply decrypts_keep in Hd. destruct He as (E1 & E2 & E3), Hd as (D1 & D2 & D3).
  unfold reset. rewrite D1, E1, H1, D2, E2, D3, E3. rewrite <- H5, <- H6, <- H1. destruct s; reflexivity.
Qed.

(** C108: of keys and initial vectors only the first 16 bytes count; shorter ones are read
    out of bounds. *)
Theorem sym_key_sizes :
  forall c m k v,
  ((16 <= length k)%nat -> (16 <= length v)%nat -> exists s, make c m k v = Val s /\ make c m (firstn 16 k) (firstn 16 v) = Val s) /\
  ((length k < 16)%nat \/ (length v < 16)%nat -> make c m k v = OutOfBounds).
Proof.
  intros c m k v. split.
  - intros Hk Hv. unfold make. rewrite !firstn_length, !firstn_firstn, !Nat.min_l by lia.
    destruct (Nat.leb_spec 16 (length k)); [|lia]. destruct (Nat.leb_spec 16 (length v)); [|lia].
    eexists. split; reflexivity.
  - intros H. unfold make. destruct (Nat.leb_spec 16 (length k)), (Nat.leb_spec 16 (length v)); cbn [andb]; lia || reflexivity.
Qed.

(** C108: in ECB mode calls do not influence each other. *)
Theorem sym_ecb_stateless :
  forall E D c k v s, make c ECB k v = Val s -> forall p, (length p mod 16 = 0)%nat ->
  exists ct, encrypt E D s p (length p) = Val (s, ct) /\
  exists pt, decrypt E D s p (length p) = Val (s, pt).
Proof.
  intros E D c k v s Hs p Hp. destruct (make_val c ECB k v s Hs) as (H1 & H2 & H3 & H4 & H5 & H6).
  assert (Hf : fits (snd (type s)) p) by (right; exact Hp).
  rewrite (encrypt_val E D s p Hf), (decrypt_val E D s p Hf). rewrite H5, H6. unfold update, setup. cbn [cmode fst snd].
  destruct s as [t kk vv e d]. cbn [type key iv enc_ctx dec_ctx] in *. subst. eexists. split; [reflexivity|]. eexists. reflexivity.
Qed.

(** ** A concrete cipher, for witnesses *)

Definition toy (c : cipher) (k b : list Z) : list Z := rev (xor_block b (k ++ repeat 0 16)).
Definition untoy (c : cipher) (k b : list Z) : list Z := xor_block (rev b) (k ++ repeat 0 16).

Lemma toy_lawful : lawful toy untoy.
Proof.
  intros c k b H. unfold toy, untoy. rewrite rev_involutive. split.
  - rewrite rev_length, xor_length, app_length, repeat_length. lia.
  - apply xor_twice. rewrite app_length, repeat_length. lia.
Qed.

Definition toy_key : list Z := map Z.of_nat (seq 1 16).
Definition toy_iv : list Z := repeat 7 16.
Definition toy_sym (m : mode) : outcome sym := make AES128 m toy_key toy_iv.

(** C108: in CBC and counter mode an object remembers the calls before: the same plaintext
    encrypts differently the second time, and ciphertexts decrypted out of order give other
    data, without any error. *)
Theorem sym_call_independent_refuted :
  forall m, m <> ECB ->
  exists s p s1 c1 s2 c2, toy_sym m = Val s /\
    encrypt toy untoy s p (length p) = Val (s1, c1) /\ encrypt toy untoy s1 p (length p) = Val (s2, c2) /\ c1 <> c2.
Proof.
  intros m Hm. destruct (toy_sym m) as [s| | |] eqn:Hs;
    try (destruct m; discriminate Hs).
  destruct (make_val _ _ _ _ _ Hs) as (H1 & H2 & H3 & H4 & H5 & H6).
  exists s, (repeat 0 16).
  rewrite (encrypt_val toy untoy s (repeat 0 16)) by (right; reflexivity). eexists. eexists. eexists. eexists.
  split; [reflexivity|]. split; [reflexivity|]. rewrite encrypt_val by (right; reflexivity). split; [reflexivity|].
  cbn [enc_ctx]. rewrite H5, H2, H3.
  destruct m; [congruence| |]; vm_compute; discriminate.
Qed.

Theorem sym_decrypt_out_of_order_refuted :
  forall m, m <> ECB ->
  exists s ps s1 cs s2 qs, toy_sym m = Val s /\ encrypts toy untoy s ps = Val (s1, cs) /\
    decrypts toy untoy s (rev cs) = Val (s2, qs) /\ qs <> rev ps.
Proof.
  intros m Hm. destruct (toy_sym m) as [s| | |] eqn:Hs;
    try (destruct m; discriminate Hs).
  destruct (make_val _ _ _ _ _ Hs) as (H1 & H2 & H3 & H4 & H5 & H6).
  exists s, [repeat 0 16; repeat 1 16]. cbn [encrypts].
  rewrite (encrypt_val toy untoy s (repeat 0 16)) by (right; reflexivity). cbn [bind fst snd].
  rewrite encrypt_val by (right; reflexivity). cbn [bind fst snd enc_ctx]. eexists. eexists. eexists. eexists.
  split; [reflexivity|]. split; [reflexivity|]. rewrite H5. cbn [rev app decrypts].
  rewrite (decrypt_val toy untoy s) by (destruct m; [congruence|right|left]; [rewrite H2, H3; reflexivity|rewrite H1; reflexivity]).
  cbn [bind fst snd].
  rewrite decrypt_val by (destruct m; [congruence|right|left]; [rewrite H2, H3; reflexivity|cbn [type]; rewrite H1; reflexivity]).
  cbn [bind fst snd dec_ctx]. split; [reflexivity|]. rewrite H6, H2, H3.
  destruct m; [congruence| |]; vm_compute; discriminate.
Qed.

(** ** Instances *)

Example sym_made : exists s, make SM4 CTR (toy_key ++ [9]) toy_iv = Val s /\ length (iv s) = 16%nat.
Proof. eexists. split; [reflexivity|reflexivity]. Qed.

Example sym_sample :
  exists s s' ct, toy_sym CBC = Val s /\ encrypt toy untoy s (repeat 5 32) 32 = Val (s', ct) /\
  blk 1 ct = toy AES128 toy_key (xor_block (repeat 5 16) (blk 0 ct)) /\ blk 0 ct <> blk 1 ct.
Proof.
  destruct (toy_sym CBC) as [s| | |] eqn:Hs; try discriminate Hs.
  destruct (make_val _ _ _ _ _ Hs) as (H1 & H2 & H3 & H4 & H5 & H6). exists s.
  change 32%nat with (length (repeat 5 32)) at 2. rewrite encrypt_val by (right; reflexivity).
  eexists. eexists. split; [reflexivity|]. split; [reflexivity|]. rewrite H5, H2, H3. vm_compute. split; [reflexivity|discriminate].
Qed.

Print Assumptions sym_round_trip.
Print Assumptions sym_split.
Print Assumptions sym_sizes.
Print Assumptions sym_modes.
Print Assumptions sym_arithmetic.
Print Assumptions sym_reset.
Print Assumptions sym_key_sizes.
Print Assumptions sym_ecb_stateless.
Print Assumptions sym_call_independent_refuted.
Print Assumptions sym_decrypt_out_of_order_refuted.
