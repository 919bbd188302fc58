From Coq Require Import ZArith Bool Arith List Lia.
From Verif Require Import LinCodeModel SymModel SymProps AeadModel.
Import ListNotations.
Open Scope Z_scope.

(** Properties C109 and C110, for the model of AeadModel.v. *)

(** What is assumed of GCM: it keeps lengths, the same function decrypts, tags have
    16 bytes. *)
Definition gcm_ok (crypt : schema -> list Z -> list Z -> list Z -> list Z)
  (tag : schema -> list Z -> list Z -> list Z -> list Z -> list Z) : Prop :=
  (forall s k v l, length (crypt s k v l) = length l) /\
  (forall s k v l, crypt s k v (crypt s k v l) = l) /\
  (forall s k v a c, length (tag s k v a c) = 16%nat).
(** Of SM3 and HMAC-SM3: 32 bytes. *)
Definition mac_ok (sm3 : list Z -> list Z) (hmac : list Z -> list Z -> list Z) : Prop :=
  (forall m, length (sm3 m) = 32%nat) /\ (forall k m, length (hmac k m) = 32%nat).
(** Sizes that fit an int. *)
Definition small (l : list Z) : Prop := Z.of_nat (length l) < 2 ^ 31.

Lemma int_of_small : forall n, Z.of_nat n < 2 ^ 31 -> int_of n = Z.of_nat n.
Proof.
  intros n H. unfold int_of. assert (2 ^ 31 < 2 ^ 32) by reflexivity. rewrite Z.mod_small by lia.
  destruct (Z.ltb_spec (Z.of_nat n) (2 ^ 31)); [reflexivity|lia].
Qed.
Lemma seen_small : forall l, small l -> seen l = l.
Proof. intros l H. unfold seen. rewrite int_of_small by exact H. rewrite Nat2Z.id. apply firstn_all. Qed.
Lemma bytes_eqb_eq : forall a b, bytes_eqb a b = true <-> a = b.
Proof. intros a b. unfold bytes_eqb. destruct (list_eq_dec Z.eq_dec a b); split; congruence. Qed.
Lemma skip_all : forall (l : list Z) n, length l = n -> skipn n l = [].
Proof. intros l n H. apply skipn_all2. lia. Qed.

Section Gcm.
  Variable crypt : schema -> list Z -> list Z -> list Z -> list Z.
  Variable tag : schema -> list Z -> list Z -> list Z -> list Z -> list Z.
  Hypothesis Hok : gcm_ok crypt tag.

  Lemma gcm_encrypt_val s key iv p aad ct mac :
    small p -> small aad -> length key = gcm_key_size s -> length iv = 12%nat -> length ct = length p ->
    (16 <= length mac)%nat ->
    gcm_encrypt crypt tag s key iv p aad ct mac =
      Val (crypt s key iv p, tag s key iv aad (crypt s key iv p) ++ skipn 16 mac).
  Proof using.
    intros Hp Ha Hk Hv Hc Hm. unfold gcm_encrypt, gcm_iv_size, gcm_mac_size.
    rewrite Hc, Hk, Hv, !Nat.eqb_refl. cbn [negb]. rewrite !int_of_small by assumption.
    destruct (Z.ltb_spec (Z.of_nat (length aad)) 0); [lia|]. destruct (Z.ltb_spec (Z.of_nat (length p)) 0); [lia|].
    rewrite !seen_small by assumption. destruct (Nat.leb_spec 16 (length mac)); [|lia].
    rewrite (skip_all ct) by exact Hc. rewrite app_nil_r. reflexivity.
  Qed.
  Lemma gcm_decrypt_val s key iv ct aad mac buf :
    small ct -> small aad -> length key = gcm_key_size s -> length iv = 12%nat -> length ct = length buf ->
    gcm_decrypt crypt tag s key iv ct aad mac buf =
      (crypt s key iv ct,
       if Nat.leb 16 (length mac) then
         if bytes_eqb (tag s key iv aad ct) (firstn 16 mac) then Val tt else Thrown
       else OutOfBounds).
  Proof using.
    intros Hp Ha Hk Hv Hc. unfold gcm_decrypt, gcm_iv_size, gcm_mac_size.
    rewrite Hk, Hv. rewrite <- Hc at 1. rewrite !Nat.eqb_refl. cbn [negb]. rewrite !int_of_small by assumption.
    destruct (Z.ltb_spec (Z.of_nat (length aad)) 0); [lia|]. destruct (Z.ltb_spec (Z.of_nat (length ct)) 0); [lia|].
    rewrite !seen_small by assumption. rewrite (skip_all buf) by (symmetry; exact Hc). rewrite app_nil_r.
    destruct (Nat.leb 16 (length mac)); reflexivity.
  Qed.
End Gcm.

(** C109: GCM Decrypt accepts exactly what Encrypt makes: buffer [p] and no exception
    if and only if encrypting [p] with the same key, nonce and additional data gives this
    ciphertext and the first 16 bytes of this tag; everything else is refused. *)
Theorem gcm_decrypt_exact :
  forall crypt tag, gcm_ok crypt tag ->
  forall s key iv ct aad mac buf p,
  small ct -> small aad -> length key = gcm_key_size s -> length iv = 12%nat -> length ct = length buf -> (16 <= length mac)%nat ->
  (gcm_decrypt crypt tag s key iv ct aad mac buf = (p, Val tt) <->
   length p = length ct /\
   forall cbuf mbuf, length cbuf = length p -> length mbuf = 16%nat ->
     gcm_encrypt crypt tag s key iv p aad cbuf mbuf = Val (ct, firstn 16 mac)) /\
  (snd (gcm_decrypt crypt tag s key iv ct aad mac buf) = Val tt \/ snd (gcm_decrypt crypt tag s key iv ct aad mac buf) = Thrown).
Proof.
  intros crypt tag Hok s key iv ct aad mac buf p Hc Ha Hk Hv Hb Hm. destruct Hok as (O1 & O2 & O3).
  rewrite (gcm_decrypt_val crypt tag) by assumption. destruct (Nat.leb_spec 16 (length mac)); [|lia]. cbn [snd]. split.
  - split.
    + intro HE. destruct (bytes_eqb _ _) eqn:Eb; [|discriminate HE]. apply bytes_eqb_eq in Eb. injection HE as <-.
      split; [apply O1|]. intros cbuf mbuf L1 L2.
      assert (small (crypt s key iv ct)) by (unfold small; rewrite O1; exact Hc).
      rewrite gcm_encrypt_val by (assumption || lia). rewrite O2, Eb, (skip_all mbuf) by exact L2. rewrite app_nil_r. reflexivity.
    + intros [L HE]. specialize (HE (repeat 0 (length p)) (repeat 0 16)). rewrite !repeat_length in HE. specialize (HE eq_refl eq_refl).
      assert (small p) by (unfold small; rewrite L; exact Hc).
      rewrite gcm_encrypt_val in HE by (assumption || rewrite ?repeat_length; lia).
      rewrite (skip_all (repeat 0 16)), app_nil_r in HE by reflexivity. injection HE as E1 E2.
      rewrite <- E1 . rewrite O2.
      destruct (bytes_eqb _ _) eqn:Eb; [reflexivity|]. exfalso.
      assert (bytes_eqb (tag s key iv aad (crypt s key iv p)) (firstn 16 mac) = true) by (apply bytes_eqb_eq; exact E2). congruence.
  - destruct (bytes_eqb _ _); auto.
Qed.

(** C109: a ciphertext is decrypted before its tag is looked at: with a wrong tag Decrypt
    throws, and the caller's buffer holds the whole plaintext. *)
Theorem gcm_unverified_plaintext_refuted :
  forall crypt tag, gcm_ok crypt tag ->
  forall s key iv p aad, small p -> small aad -> length key = gcm_key_size s -> length iv = 12%nat ->
  exists c m, gcm_encrypt crypt tag s key iv p aad (repeat 0 (length p)) (repeat 0 16) = Val (c, m) /\
  forall m' buf, length m' = 16%nat -> m' <> m -> length buf = length p ->
    gcm_decrypt crypt tag s key iv c aad m' buf = (p, Thrown).
Proof.
  intros crypt tag Hok s key iv p aad Hp Ha Hk Hv. destruct Hok as (O1 & O2 & O3).
  eexists. eexists. split.
  - apply gcm_encrypt_val; rewrite ?repeat_length; auto.
  - intros m' buf L N B. rewrite (skip_all (repeat 0 16)), app_nil_r in N by reflexivity.
    assert (small (crypt s key iv p)) by (unfold small; rewrite O1; exact Hp).
    rewrite gcm_decrypt_val by (assumption || rewrite O1; symmetry; exact B). rewrite L. cbn [Nat.leb].
    rewrite O2. rewrite firstn_all2 by lia.
    destruct (bytes_eqb _ m') eqn:Eb; [|reflexivity]. apply bytes_eqb_eq in Eb. congruence.
Qed.

(** C109: the size of the tag is not checked: shorter buffers are read and written out of
    bounds, of longer ones only 16 bytes are written and compared. *)
Theorem gcm_tag_sizes :
  forall crypt tag, gcm_ok crypt tag ->
  forall s key iv p aad mac, small p -> small aad -> length key = gcm_key_size s -> length iv = 12%nat ->
  let enc := gcm_encrypt crypt tag s key iv p aad (repeat 0 (length p)) mac in
  ((length mac < 16)%nat -> enc = OutOfBounds /\
     forall buf, length buf = length p -> snd (gcm_decrypt crypt tag s key iv p aad mac buf) = OutOfBounds) /\
  ((16 <= length mac)%nat -> exists c m, enc = Val (c, m) /\ length c = length p /\ length m = length mac /\
     skipn 16 m = skipn 16 mac /\
     forall rest buf, length buf = length p -> gcm_decrypt crypt tag s key iv c aad (firstn 16 m ++ rest) buf = (p, Val tt)).
Proof.
  intros crypt tag Hok s key iv p aad mac Hp Ha Hk Hv. destruct Hok as (O1 & O2 & O3). cbv zeta. split; intro Hm.
  - split.
    + unfold gcm_encrypt, gcm_iv_size, gcm_mac_size. rewrite repeat_length, Hk, Hv, !Nat.eqb_refl. cbn [negb].
      rewrite !int_of_small by assumption.
      destruct (Z.ltb_spec (Z.of_nat (length aad)) 0); [lia|]. destruct (Z.ltb_spec (Z.of_nat (length p)) 0); [lia|].
      destruct (Nat.leb_spec 16 (length mac)); [lia|reflexivity].
    + intros buf Hb. rewrite gcm_decrypt_val by (assumption || symmetry; assumption). cbn [snd].
      destruct (Nat.leb_spec 16 (length mac)); [lia|reflexivity].
  - rewrite gcm_encrypt_val by (assumption || rewrite ?repeat_length; reflexivity || assumption).
    eexists. eexists. split; [reflexivity|]. split; [apply O1|]. split; [rewrite app_length, O3, skipn_length; lia|].
    split; [rewrite skipn_app, O3, Nat.sub_diag, skipn_O, skipn_all2 by (rewrite O3; lia); reflexivity|].
    intros rest buf Hb. assert (small (crypt s key iv p)) by (unfold small; rewrite O1; exact Hp).
    rewrite gcm_decrypt_val by (assumption || rewrite O1; symmetry; exact Hb).
    assert (F : firstn 16 (tag s key iv aad (crypt s key iv p) ++ skipn 16 mac) = tag s key iv aad (crypt s key iv p)).
    { rewrite firstn_app, O3, Nat.sub_diag, firstn_O, app_nil_r. apply firstn_all2. rewrite O3. lia. }
    rewrite F. rewrite app_length, O3. destruct (Nat.leb_spec 16 (16 + length rest)); [|lia].
    rewrite firstn_app, O3, Nat.sub_diag, firstn_O, app_nil_r, firstn_all2 by (rewrite O3; lia). rewrite O2.
    destruct (bytes_eqb _ _) eqn:Eb; [reflexivity|]. exfalso.
    assert (X : bytes_eqb (tag s key iv aad (crypt s key iv p)) (tag s key iv aad (crypt s key iv p)) = true) by (apply bytes_eqb_eq; reflexivity).
    congruence.
Qed.

(** C109: buffers, keys and nonces of a wrong size are refused before anything is written. *)
Theorem gcm_refuses :
  forall crypt tag s key iv p aad ct mac,
  length ct <> length p \/ length key <> gcm_key_size s \/ length iv <> 12%nat ->
  gcm_encrypt crypt tag s key iv p aad ct mac = Thrown /\
  gcm_decrypt crypt tag s key iv p aad mac ct = (ct, Thrown).
Proof.
  intros crypt tag s key iv p aad ct mac H. unfold gcm_encrypt, gcm_decrypt, gcm_iv_size.
  destruct (Nat.eqb_spec (length ct) (length p)) as [E1|E1];
  destruct (Nat.eqb_spec (length p) (length ct)) as [E1'|E1']; try congruence; cbn [negb]; auto.
  destruct (Nat.eqb_spec (length key) (gcm_key_size s)) as [E2|E2]; cbn [negb]; auto.
  destruct (Nat.eqb_spec (length iv) 12) as [E3|E3]; cbn [negb]; auto. lia.
Qed.

(** C109: sizes are converted to int.  A plaintext of 4 GiB is not encrypted at all: the
    call succeeds, leaves the ciphertext buffer as it was, and its tag is the same for
    every plaintext of that size. *)
Theorem gcm_huge_plaintext_refuted :
  forall crypt tag, gcm_ok crypt tag ->
  forall s key iv aad mac, small aad -> length key = gcm_key_size s -> length iv = 12%nat -> (16 <= length mac)%nat ->
  exists n : nat, exists m, forall p buf, length p = n -> length buf = n ->
    gcm_encrypt crypt tag s key iv p aad buf mac = Val (buf, m).
Proof.
  intros crypt tag (O1 & O2 & O3) s key iv aad mac Ha Hk Hv Hm. exists (N.to_nat (2 ^ 32)).
  assert (Hn : int_of (N.to_nat (2 ^ 32)) = 0) by (unfold int_of; rewrite N_nat_Z; reflexivity).
  revert Hn. generalize (N.to_nat (2 ^ 32)) as n. intros n Hn.
  exists (tag s key iv aad [] ++ skipn 16 mac). intros p buf Hp Hb.
  unfold gcm_encrypt, gcm_iv_size, gcm_mac_size. rewrite Hp, Hb, Hk, Hv, !Nat.eqb_refl. cbn [negb].
  rewrite Hn. rewrite int_of_small by exact Ha. destruct (Z.ltb_spec (Z.of_nat (length aad)) 0); [lia|].
  cbn [Z.ltb Z.compare]. rewrite (seen_small aad) by exact Ha.
  assert (Hs : seen p = []) by (unfold seen; rewrite Hp, Hn; reflexivity). rewrite Hs.
  assert (Hc : crypt s key iv [] = []) by (apply length_zero_iff_nil; rewrite O1; reflexivity). rewrite Hc.
  destruct (Nat.leb_spec 16 (length mac)); [|lia]. reflexivity.
Qed.

(** ** Mac-then-encrypt *)

Section Mte.
  Variable E D : cipher -> list Z -> list Z -> list Z.
  Variable sm3 : list Z -> list Z.
  Variable hmac : list Z -> list Z -> list Z.
  Hypothesis Hm : mac_ok sm3 hmac.

  Lemma ctr_same c k v s : make c CTR k v = Val s -> exists f : nat -> list Z,
    (forall n, length (f n) = n) /\ forall p,
    (exists s1, encrypt E D s p (length p) = Val (s1, xor_block p (f (length p)))) /\
    (exists s2, decrypt E D s p (length p) = Val (s2, xor_block p (f (length p)))).
  Proof using.
    intro Hs. destruct (make_val c CTR k v s Hs) as (H1 & H2 & H3 & H4 & H5 & H6).
    exists (fun n => map (stream_byte E (enc_ctx s)) (seq 0 n)).
    split; [intro n; rewrite map_length, seq_length; reflexivity|].
    intro p. assert (Hf : fits (snd (type s)) p) by (left; rewrite H1; reflexivity).
    rewrite (encrypt_val E D s p Hf), (decrypt_val E D s p Hf).
    split; eexists; f_equal; f_equal; unfold update; rewrite ?H5, ?H6; reflexivity.
  Qed.

  Lemma mte_val key iv : (16 <= length key)%nat -> (16 <= length iv)%nat -> exists f : nat -> list Z,
    (forall n, length (f n) = n) /\
    (forall p, mte_encrypt E D sm3 hmac key iv p = Val (xor_block (mte_mac sm3 hmac key iv p ++ p) (f (32 + length p)%nat))) /\
    (forall c, mte_decrypt E D sm3 hmac key iv c =
       let hp := xor_block c (f (length c)) in
       if Nat.ltb 32 (length c) then
         if bytes_eqb (mte_mac sm3 hmac key iv (skipn 32 hp)) (firstn 32 hp) then Val (skipn 32 hp) else Thrown
       else Thrown).
  Proof using Hm.
    intros Hk Hv. destruct Hm as [_ Hh]. destruct (make SM4 CTR key iv) as [s| | |] eqn:Hs.
    2-4: destruct (proj1 (sym_key_sizes SM4 CTR key iv) Hk Hv) as (s' & Hs' & _); rewrite Hs in Hs'; discriminate Hs'.
    destruct (ctr_same SM4 key iv s Hs) as (f & Hf & Hp). exists f. split; [exact Hf|]. split.
    - intro p. unfold mte_encrypt. rewrite Hs. cbn [bind].
      destruct (Hp (mte_mac sm3 hmac key iv p ++ p)) as [[s1 Hs1] _]. rewrite Hs1. cbn [bind snd]. f_equal. f_equal. f_equal.
      rewrite app_length. unfold mte_mac. rewrite Hh. reflexivity.
    - intro c. unfold mte_decrypt. rewrite Hs. cbn [bind].
      destruct (Hp c) as [_ [s2 Hs2]]. rewrite Hs2. cbn [bind snd]. unfold kMacCipherSize.
      rewrite xor_length, Hf, Nat.min_id. reflexivity.
  Qed.

  Lemma mte_exact key iv c p : (16 <= length key)%nat -> (16 <= length iv)%nat ->
    mte_decrypt E D sm3 hmac key iv c = Val p <-> p <> [] /\ mte_encrypt E D sm3 hmac key iv p = Val c.
  Proof using Hm.
    intros Hk Hv. destruct (mte_val key iv Hk Hv) as (f & Hf & He & Hd). rewrite He, Hd. cbv zeta.
    assert (Hmac : forall q, length (mte_mac sm3 hmac key iv q) = 32%nat) by (intro q; apply Hm).
    split.
    - destruct (Nat.ltb_spec 32 (length c)) as [L|L]; [|discriminate]. set (hp := xor_block c (f (length c))).
      assert (Lh : length hp = length c) by (unfold hp; rewrite xor_length, Hf; lia).
      destruct (bytes_eqb _ _) eqn:Eb; [|discriminate]. apply bytes_eqb_eq in Eb. intro Hx0. assert (Hx : skipn 32 hp = p) by congruence. clear Hx0.
      split; [intro Hn; rewrite Hn in Hx; apply (f_equal (@length Z)) in Hx; rewrite skipn_length, Lh in Hx; cbn [length] in Hx; lia|].
      rewrite <- Hx, Eb, firstn_skipn. rewrite skipn_length, Lh. replace (32 + (length c - 32))%nat with (length c) by lia.
      unfold hp. rewrite xor_twice by (rewrite Hf; lia). reflexivity.
    - intros [Hn Hx0]. match type of Hx0 with Val ?r = Val c => assert (Hx : r = c) by congruence end. clear Hx0.
      assert (Lc : length c = (32 + length p)%nat) by (rewrite <- Hx, xor_length, app_length, Hmac, Hf; lia).
      destruct (Nat.ltb_spec 32 (length c)) as [L|L]; [|destruct p; [congruence|cbn [length] in Lc; lia]].
      assert (Hhp : xor_block c (f (length c)) = mte_mac sm3 hmac key iv p ++ p).
      { rewrite Lc, <- Hx. apply xor_twice. rewrite app_length, Hmac, Hf. lia. }
      rewrite Hhp. rewrite firstn_app, skipn_app, Hmac, Nat.sub_diag, firstn_O, skipn_O, app_nil_r.
      rewrite firstn_all2, skipn_all2 by (rewrite Hmac; lia). cbn [app].
      destruct (bytes_eqb _ _) eqn:Eb; [reflexivity|]. exfalso.
      assert (X : bytes_eqb (mte_mac sm3 hmac key iv p) (mte_mac sm3 hmac key iv p) = true) by (apply bytes_eqb_eq; reflexivity).
      congruence.
  Qed.
End Mte.

(** C109: Decrypt of mac-then-encrypt accepts exactly what Encrypt makes of a non-empty
    plaintext; the ciphertext is 32 bytes longer. *)
Theorem mte_decrypt_accepts :
  forall E D sm3 hmac, mac_ok sm3 hmac ->
  forall key iv, (16 <= length key)%nat -> (16 <= length iv)%nat ->
  (forall p, exists c, mte_encrypt E D sm3 hmac key iv p = Val c /\ length c = (length p + 32)%nat) /\
  (forall c p, mte_decrypt E D sm3 hmac key iv c = Val p <-> p <> [] /\ mte_encrypt E D sm3 hmac key iv p = Val c) /\
  (forall c, exists p, mte_decrypt E D sm3 hmac key iv c = Val p \/ mte_decrypt E D sm3 hmac key iv c = Thrown).
Proof.
  intros E D sm3 hmac Hm key iv Hk Hv. destruct (mte_val E D sm3 hmac Hm key iv Hk Hv) as (f & Hf & He & Hd).
  split; [|split].
  - intro p. rewrite He. eexists. split; [reflexivity|]. rewrite xor_length, app_length, Hf. unfold mte_mac. rewrite (proj2 Hm). lia.
  - intros c p. apply mte_exact; assumption.
  - intro c. rewrite Hd. cbv zeta. eexists. destruct (Nat.ltb _ _); [|auto]. destruct (bytes_eqb _ _); [left; reflexivity|auto].
Qed.

(** C109: the empty plaintext can be encrypted but not decrypted. *)
Theorem mte_empty_plaintext_refuted :
  forall E D sm3 hmac, mac_ok sm3 hmac ->
  forall key iv, (16 <= length key)%nat -> (16 <= length iv)%nat ->
  exists c, mte_encrypt E D sm3 hmac key iv [] = Val c /\ mte_decrypt E D sm3 hmac key iv c = Thrown.
Proof.
  intros E D sm3 hmac Hm key iv Hk Hv. destruct (mte_val E D sm3 hmac Hm key iv Hk Hv) as (f & Hf & He & Hd).
  rewrite He. eexists. split; [reflexivity|]. rewrite Hd. cbv zeta.
  assert (L : length (xor_block (mte_mac sm3 hmac key iv [] ++ []) (f (32 + @length Z [])%nat)) = 32%nat).
  { rewrite xor_length, app_length, Hf. unfold mte_mac. rewrite (proj2 Hm). reflexivity. }
  rewrite L. reflexivity.
Qed.

(** C109: keys and initial vectors shorter than 16 bytes are read out of bounds. *)
Theorem mte_short_key :
  forall E D sm3 hmac key iv, (length key < 16)%nat \/ (length iv < 16)%nat ->
  forall x, mte_encrypt E D sm3 hmac key iv x = OutOfBounds /\ mte_decrypt E D sm3 hmac key iv x = OutOfBounds.
Proof.
  intros E D sm3 hmac key iv H x. unfold mte_encrypt, mte_decrypt.
  rewrite (proj2 (sym_key_sizes SM4 CTR key iv) H). split; reflexivity.
Qed.

(** ** The AEAD interface *)

(** C109: the round trip through AeadCtx, for every algorithm: a key of GetKeySize bytes,
    buffers of the right sizes with any contents. *)
Theorem aead_round_trip :
  forall crypt tag E D sm3 hmac, gcm_ok crypt tag -> mac_ok sm3 hmac ->
  forall a key iv p aad ct mac,
  get_key_size a = Val (length key) -> small p -> small aad -> (16 <= length mac)%nat ->
  (match a with
   | SM4_MTE_HMAC_SM3 => p <> [] /\ (16 <= length iv)%nat /\ length ct = (length p + 32)%nat
   | _ => length iv = 12%nat /\ length ct = length p
   end) ->
  exists c m, aead_encrypt crypt tag E D sm3 hmac a p key iv ct mac aad = Val (c, m) /\
  length c = length ct /\ length m = length mac /\
  forall buf, length buf = length p -> aead_decrypt crypt tag E D sm3 hmac a c m key iv buf aad = (p, Val tt).
Proof.
  intros crypt tag E D sm3 hmac Hg Hm a key iv p aad ct mac Hk Hp Ha Hmac Hs. destruct a as [|s|]; [discriminate Hk| |].
  - cbn [get_key_size] in Hk. injection Hk as Hk. destruct Hs as [Hv Hc]. cbn [aead_encrypt aead_decrypt].
    destruct (gcm_tag_sizes crypt tag Hg s key iv p aad mac Hp Ha (eq_sym Hk) Hv) as [_ HT].
    destruct (HT Hmac) as (c & m & H1 & H2 & H3 & H4 & H5). exists c, m.
    split; [|split; [congruence|split; [exact H3|]]].
    + rewrite gcm_encrypt_val in H1 |- * by (assumption || rewrite ?repeat_length; auto). exact H1.
    + intros buf Hb. rewrite <- (firstn_skipn 16 m). apply H5. exact Hb.
  - cbn [get_key_size] in Hk. injection Hk as Hk. destruct Hs as (Hn & Hv & Hc). cbn [aead_encrypt aead_decrypt].
    assert (K : (16 <= length key)%nat) by (unfold kMteKeySize in Hk; lia).
    destruct (mte_decrypt_accepts E D sm3 hmac Hm key iv K Hv) as (He & Hd & _). destruct (He p) as (c & Hc1 & Hc2).
    exists c, mac. rewrite Hc1. cbn [bind]. rewrite Hc2, <- Hc, Nat.eqb_refl. split; [reflexivity|]. split; [congruence|]. split; [reflexivity|].
    intros buf Hb. rewrite (proj2 (Hd c p)) by auto. rewrite Hb, Nat.eqb_refl. reflexivity.
Qed.

(** C109: GetMacSize answers the key size: with AES-256 a tag buffer of that size is only
    half written. *)
Theorem aead_mac_size_refuted :
  forall crypt tag E D sm3 hmac, gcm_ok crypt tag ->
  exists a n, get_mac_size a = Val n /\
  forall key iv p aad mac, length key = 32%nat -> length iv = 12%nat -> small p -> small aad -> length mac = n ->
  exists c m, aead_encrypt crypt tag E D sm3 hmac a p key iv (repeat 0 (length p)) mac aad = Val (c, m) /\
    skipn 16 m = skipn 16 mac /\ length (skipn 16 m) = 16%nat.
Proof.
  intros crypt tag E D sm3 hmac Hg. exists (Gcm AES256_GCM), 32%nat. split; [reflexivity|].
  intros key iv p aad mac Hk Hv Hp Ha Hm. cbn [aead_encrypt].
  destruct (gcm_tag_sizes crypt tag Hg AES256_GCM key iv p aad mac Hp Ha Hk Hv) as [_ HT].
  destruct (HT ltac:(lia)) as (c & m & H1 & H2 & H3 & H4 & H5). exists c, m. split; [exact H1|]. split; [exact H4|].
  rewrite skipn_length. lia.
Qed.

(** C109: with mac-then-encrypt the additional data and the tag are ignored: neither is
    authenticated. *)
Theorem aead_mte_additional_data_refuted :
  forall crypt tag E D sm3 hmac p key iv ct mac mac' aad aad' buf,
  aead_encrypt crypt tag E D sm3 hmac SM4_MTE_HMAC_SM3 p key iv ct mac aad = aead_encrypt crypt tag E D sm3 hmac SM4_MTE_HMAC_SM3 p key iv ct mac aad' /\
  aead_decrypt crypt tag E D sm3 hmac SM4_MTE_HMAC_SM3 ct mac key iv buf aad = aead_decrypt crypt tag E D sm3 hmac SM4_MTE_HMAC_SM3 ct mac' key iv buf aad'.
Proof. intros. split; reflexivity. Qed.

(** C109: with mac-then-encrypt nothing is released before the check: whenever Decrypt
    fails the caller's buffer is as it was. *)
Theorem aead_mte_no_release :
  forall crypt tag E D sm3 hmac key iv ct mac buf aad,
  let r := aead_decrypt crypt tag E D sm3 hmac SM4_MTE_HMAC_SM3 ct mac key iv buf aad in
  snd r <> Val tt -> fst r = buf.
Proof.
  intros. subst r. cbn [aead_decrypt] in *. destruct (mte_decrypt _ _ _ _ _ _ _); try reflexivity.
  destruct (Nat.eqb _ _); [|reflexivity]. cbn [snd] in H. congruence.
Qed.

(** ** Digital envelopes *)

(** A key pair of a public key cipher: what is encrypted with one key is decrypted by the
    other, for the sizes it takes. *)
Definition key_pair (enc : list Z -> list Z -> list Z -> outcome (list Z)) (dec : list Z -> list Z -> outcome (list Z)) (pub pri : list Z) : Prop :=
  forall r m, (length m <= 32)%nat -> exists c, enc pub r m = Val c /\ dec pri c = Val m.

Lemma resize_length : forall l n, length (resize l n) = n.
Proof. intros l n. unfold resize. rewrite app_length, firstn_length, repeat_length. lia. Qed.

(** C110: what SmEnvSeal and RsaEnvSeal close, SmEnvOpen and RsaEnvOpen open, whatever the
    output vectors held before. *)
Theorem sm_envelope_round_trip :
  forall E D sm3 hmac enc dec pub pri, mac_ok sm3 hmac -> key_pair enc dec pub pri ->
  forall iv p k r, (16 <= length iv)%nat -> length k = 16%nat -> p <> [] ->
  exists ek c, sm_env_seal E D sm3 hmac enc pub iv p k r = Val (ek, c) /\
    length c = (length p + 32)%nat /\ sm_env_open E D sm3 hmac dec pri iv ek c = Val p.
Proof.
  intros E D sm3 hmac enc dec pub pri Hm Hp iv p k r Hv Hk Hn. unfold sm_env_seal, sm_env_open.
  destruct (mte_decrypt_accepts E D sm3 hmac Hm k iv ltac:(lia) Hv) as (He & Hd & _). destruct (He p) as (c & Hc1 & Hc2).
  destruct (Hp r k ltac:(lia)) as (ek & H1 & H2). exists ek, c. rewrite Hc1. cbn [bind]. rewrite H1. cbn [bind].
  split; [reflexivity|]. split; [exact Hc2|]. rewrite H2. cbn [bind]. apply Hd. auto.
Qed.

Theorem rsa_envelope_round_trip :
  forall crypt tag enc dec pub pri, gcm_ok crypt tag -> key_pair enc dec pub pri ->
  forall iv p k r co mo, length iv = 12%nat -> length k = 16%nat -> small p ->
  exists ek c m, rsa_env_seal crypt tag enc pub iv p k r co mo = Val (ek, c, m) /\
    length c = length p /\ length m = 16%nat /\
    forall po, rsa_env_open crypt tag dec pri iv ek c m po = (p, Val tt).
Proof.
  intros crypt tag enc dec pub pri Hg Hp iv p k r co mo Hv Hk Hs. unfold rsa_env_seal, rsa_env_open.
  assert (Ha : small []) by reflexivity.
  destruct (gcm_tag_sizes crypt tag Hg AES128_GCM k iv p [] (resize mo 16) Hs Ha Hk Hv) as [_ HT].
  destruct (HT ltac:(rewrite resize_length; lia)) as (c & m & H1 & H2 & H3 & H4 & H5).
  destruct (Hp r k ltac:(lia)) as (ek & P1 & P2). exists ek, c, m.
  rewrite gcm_encrypt_val in H1 |- * by (assumption || rewrite ?repeat_length, ?resize_length; auto). rewrite H1.
  cbn [bind fst snd]. rewrite P1. cbn [bind]. rewrite resize_length in H3. split; [reflexivity|]. split; [exact H2|]. split; [exact H3|].
  intro po. rewrite P2. rewrite <- (firstn_skipn 16 m). apply H5. rewrite resize_length. exact H2.
Qed.

(** C110: an envelope that opens is one that sealing makes: same key, and a ciphertext
    (with its tag) that encryption of the result gives. *)
Theorem sm_envelope_open_exact :
  forall E D sm3 hmac dec pri, mac_ok sm3 hmac ->
  forall iv ek c p, (16 <= length iv)%nat ->
  sm_env_open E D sm3 hmac dec pri iv ek c = Val p <->
  exists k, dec pri ek = Val k /\ (16 <= length k)%nat /\ p <> [] /\ mte_encrypt E D sm3 hmac k iv p = Val c.
Proof.
  intros E D sm3 hmac dec pri Hm iv ek c p Hv. unfold sm_env_open. split.
  - destruct (dec pri ek) as [k| | |]; cbn [bind]; try discriminate. intro H. exists k. split; [reflexivity|].
    destruct (le_lt_dec 16 (length k)) as [Hk|Hk].
    + split; [exact Hk|]. apply (mte_exact E D sm3 hmac Hm k iv c p Hk Hv). exact H.
    + rewrite (proj2 (mte_short_key E D sm3 hmac k iv (or_introl Hk) c)) in H. discriminate H.
  - intros (k & H1 & H2 & H3 & H4). rewrite H1. cbn [bind]. apply (mte_exact E D sm3 hmac Hm k iv c p H2 Hv). auto.
Qed.

Theorem rsa_envelope_open_exact :
  forall crypt tag dec pri, gcm_ok crypt tag ->
  forall iv ek c m po p, length iv = 12%nat -> small c -> length m = 16%nat ->
  rsa_env_open crypt tag dec pri iv ek c m po = (p, Val tt) <->
  exists k, dec pri ek = Val k /\ length k = 16%nat /\ length p = length c /\
    gcm_encrypt crypt tag AES128_GCM k iv p [] (repeat 0 (length p)) (repeat 0 16) = Val (c, m).
Proof.
  intros crypt tag dec pri Hg iv ek c m po p Hv Hc Hm. unfold rsa_env_open.
  assert (Ha : small []) by reflexivity.
  assert (X : forall k, length k = 16%nat ->
    gcm_decrypt crypt tag AES128_GCM k iv c [] m (resize po (length c)) = (p, Val tt) <->
    length p = length c /\ gcm_encrypt crypt tag AES128_GCM k iv p [] (repeat 0 (length p)) (repeat 0 16) = Val (c, m)).
  { intros k Hk. destruct (gcm_decrypt_exact crypt tag Hg AES128_GCM k iv c [] m (resize po (length c)) p Hc Ha Hk Hv
      ltac:(rewrite resize_length; reflexivity) ltac:(lia)) as [HX _]. rewrite HX.
    rewrite (firstn_all2 m) by lia. split; intros [L H]; (split; [exact L|]).
    - apply H; rewrite repeat_length; reflexivity.
    - intros cbuf mbuf L1 L2. assert (small p) by (unfold small; rewrite L; exact Hc).
      rewrite gcm_encrypt_val in H |- * by (assumption || rewrite ?repeat_length; auto; lia).
      rewrite (skip_all mbuf) by exact L2. exact H. }
  split.
  - destruct (dec pri ek) as [k| | |]; try discriminate. intro H. exists k. split; [reflexivity|].
    destruct (Nat.eq_dec (length k) 16) as [Hk|Hk].
    + split; [exact Hk|]. apply X; assumption.
    + rewrite (proj2 (gcm_refuses crypt tag AES128_GCM k iv c [] (resize po (length c)) m (or_intror (or_introl Hk)))) in H.
      discriminate H.
  - intros (k & H1 & H2 & H3 & H4). rewrite H1. apply X; auto.
Qed.

(** C110: anyone can seal a short key; SmEnvOpen then reads out of bounds, for every
    ciphertext.  RsaEnvOpen throws. *)
Theorem sm_envelope_short_key_refuted :
  forall E D sm3 hmac enc dec pub pri, key_pair enc dec pub pri ->
  exists ek, forall iv c, sm_env_open E D sm3 hmac dec pri iv ek c = OutOfBounds.
Proof.
  intros E D sm3 hmac enc dec pub pri Hp. destruct (Hp [] [1] ltac:(cbn [length]; lia)) as (ek & _ & H). exists ek.
  intros iv c. unfold sm_env_open. rewrite H. cbn [bind].
  apply (mte_short_key E D sm3 hmac [1] iv). left. cbn [length]. lia.
Qed.
Theorem rsa_envelope_key_size :
  forall crypt tag dec pri iv ek c m po k, dec pri ek = Val k -> length k <> 16%nat ->
  snd (rsa_env_open crypt tag dec pri iv ek c m po) = Thrown.
Proof.
  intros crypt tag dec pri iv ek c m po k H Hk. unfold rsa_env_open. rewrite H.
  rewrite (proj2 (gcm_refuses crypt tag AES128_GCM k iv c [] (resize po (length c)) m (or_intror (or_introl Hk)))). reflexivity.
Qed.

(** ** Instances *)

Definition toy_crypt (s : schema) (k v l : list Z) : list Z := map (Z.lxor (nth 0 k 0 + nth 0 v 0)) l.
Definition toy_tag (s : schema) (k v a c : list Z) : list Z := firstn 16 (rev c ++ a ++ repeat 0 16).
Definition toy_sm3 (m : list Z) : list Z := firstn 32 (m ++ repeat 0 32).
Definition toy_hmac (k m : list Z) : list Z := firstn 32 (m ++ k ++ repeat 0 32).
Definition toy_dec (pri c : list Z) : outcome (list Z) :=
  (fix go (l : list Z) := match l with [] => Thrown | x :: l' => if x =? 77 then Val (rev l') else go l' end) c.

Lemma toy_gcm_ok : gcm_ok toy_crypt toy_tag.
Proof.
  repeat split; intros.
  - apply map_length.
  - unfold toy_crypt. rewrite map_map. transitivity (map (fun x => x) l); [|apply map_id].
    apply map_ext. intro x. rewrite <- Z.lxor_assoc, Z.lxor_nilpotent. apply Z.lxor_0_l.
  - unfold toy_tag. rewrite firstn_length, !app_length, repeat_length. lia.
Qed.
Lemma toy_mac_ok : mac_ok toy_sm3 toy_hmac.
Proof.
  split; intros; unfold toy_sm3, toy_hmac; rewrite firstn_length, !app_length, repeat_length; lia.
Qed.
Definition toy_enc0 (pub r m : list Z) : outcome (list Z) := Val (77 :: rev m).
Lemma toy_pair : key_pair toy_enc0 toy_dec [1] [2].
Proof. intros r m _. exists (77 :: rev m). split; [reflexivity|]. cbn. rewrite rev_involutive. reflexivity. Qed.

Example aead_sample :
  let key := repeat 3 32 in let iv := repeat 4 12 in
  exists c m, aead_encrypt toy_crypt toy_tag toy untoy toy_sm3 toy_hmac (Gcm AES256_GCM) [5; 6; 7] key iv [0; 0; 0] (repeat 9 32) [1] = Val (c, m) /\
  c <> [5; 6; 7] /\ aead_decrypt toy_crypt toy_tag toy untoy toy_sm3 toy_hmac (Gcm AES256_GCM) c m key iv [0; 0; 0] [1] = ([5; 6; 7], Val tt) /\
  snd (aead_decrypt toy_crypt toy_tag toy untoy toy_sm3 toy_hmac (Gcm AES256_GCM) c m key iv [0; 0; 0] [2]) = Thrown.
Proof. eexists. eexists. split; [lazy; reflexivity|]. lazy. repeat split. discriminate. Qed.

Print Assumptions gcm_decrypt_exact.
Print Assumptions gcm_unverified_plaintext_refuted.
Print Assumptions gcm_tag_sizes.
Print Assumptions gcm_refuses.
Print Assumptions gcm_huge_plaintext_refuted.
Print Assumptions mte_decrypt_accepts.
Print Assumptions mte_empty_plaintext_refuted.
Print Assumptions mte_short_key.
Print Assumptions aead_round_trip.
Print Assumptions aead_mac_size_refuted.
Print Assumptions aead_mte_additional_data_refuted.
Print Assumptions aead_mte_no_release.
Print Assumptions sm_envelope_round_trip.
Print Assumptions rsa_envelope_round_trip.
Print Assumptions sm_envelope_open_exact.
Print Assumptions rsa_envelope_open_exact.
Print Assumptions sm_envelope_short_key_refuted.
Print Assumptions rsa_envelope_key_size.
