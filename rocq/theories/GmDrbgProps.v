From Coq Require Import ZArith Bool List Lia.
From Verif Require Import LinCodeModel GmDrbgModel.
Import ListNotations.
Open Scope Z_scope.

Section Proofs.
  Variable sm4 : list Z -> list Z -> list Z.
  Variable blake3_128 : list Z -> Z.
  Hypothesis Hsm4 : forall k b, length (sm4 k b) = 16%nat.

  Lemma le_of_length k x : length (le_of k x) = k.
  Proof. revert x. induction k as [|k IH]; intros x; cbn; [reflexivity|]. now rewrite IH. Qed.

  (** The derivation function returns 32 zero bytes, whatever it is given. *)
  Lemma derive_zero buf : (32 <= length buf)%nat -> exists k, derive sm4 buf = Val (k, repeat 0 32).
  Proof.
    intros H. unfold derive.
    set (s0 := be32 _ ++ be32 _ ++ buf ++ [0]).
    assert (L : length s0 = (9 + length buf)%nat) by (unfold s0; rewrite !app_length; cbn [length be32]; lia).
    replace (Nat.ltb (8 + kSeedlen) (length s0)) with true by (symmetry; apply Nat.ltb_lt; rewrite L; unfold kSeedlen; lia).
    cbv zeta. generalize (temp_loop sm4 3 0 (resize (set_byte s0 (8 + kSeedlen) 128) kSeedlen) []). intros temp.
    eexists. cbn. reflexivity.
  Qed.

  Lemma xor_zero l n : length l = n -> xor_bytes l (repeat 0 n) = l.
  Proof.
    intros <-. unfold xor_bytes. induction l as [|a l IH]; cbn; [reflexivity|]. now rewrite Z.lxor_0_r, IH.
  Qed.

  (** SM4 on 128 bit numbers. *)
  Definition enc (k b : Z) : Z := le_to (sm4 (le_of 16 k) (le_of 16 b)).
  Definition inc (x : Z) : Z := (x + 1) mod 2 ^ 128.

  Lemma rng_update_zero st :
    rng_update sm4 (repeat 0 32) st =
    Val {| ctx_key := le_of 16 (key st); key := enc (key st) (v st); v := enc (key st) (inc (v st)); reseed_ctr := reseed_ctr st |}.
  Proof.
    unfold rng_update, kSeedlen. rewrite repeat_length. cbn [Nat.leb].
    change (firstn 32 (repeat 0 32)) with (repeat 0 32).
    rewrite xor_zero by (rewrite app_length, !Hsm4; reflexivity).
    assert (F : forall a b : list Z, length a = 16%nat -> firstn 16 (a ++ b) = a).
    { intros a b L. rewrite firstn_app, L, Nat.sub_diag, firstn_O, app_nil_r. apply firstn_all2. lia. }
    rewrite F by apply Hsm4.
    rewrite skipn_app, Hsm4, Nat.sub_diag, skipn_all2 by (rewrite Hsm4; lia). cbn [app].
    rewrite skipn_O, firstn_all2 by (rewrite Hsm4; lia). reflexivity.
  Qed.

  Lemma evp_one k x : evp_update sm4 true k (le_of 16 x) = Some (sm4 k (le_of 16 x)).
  Proof.
    unfold evp_update. rewrite le_of_length. change (Nat.div 16 16) with 1%nat. cbn [ecb].
    rewrite app_nil_r, firstn_all2 by (rewrite le_of_length; lia). reflexivity.
  Qed.

  (** The sequence of states with no seed in it: the key of the context, the key and
      the counter block before each output. *)
  Definition start : Z * Z * Z := (0, enc 0 0, enc 0 1).
  Definition next (s : Z * Z * Z) : Z * Z * Z :=
    let '(_, k, b) := s in (k, enc k (inc b), enc k (inc (inc b))).
  Definition nth_state (n : nat) : Z * Z * Z := Nat.iter n next start.
  (** The n-th output block. *)
  Definition block (n : nat) : list Z :=
    let '(ck, _, b) := nth_state n in sm4 (le_of 16 ck) (le_of 16 (inc b)).

  (** What a history of Fill calls returns, if n calls have succeeded before. *)
  Fixpoint expected (n : nat) (lens : list Z) : list (outcome (list Z)) :=
    match lens with
    | [] => []
    | len :: lens' =>
        if (len <=? 16) && Nat.ltb n 1024
        then Val (firstn (Z.to_nat len) (block n)) :: expected (S n) lens'
        else Thrown :: expected n lens'
    end.

  Definition at_step (n : nat) (st : state) : Prop :=
    (n <= 1024)%nat /\ reseed_ctr st = Z.of_nat n + 1 /\
    ((n < 1024)%nat -> let '(ck, k, b) := nth_state n in ctx_key st = le_of 16 ck /\ key st = k /\ v st = b).

  Definition seed_ok (e : list Z) : Prop := (32 < length e)%nat.

  Lemma fill_step n st len e : at_step n st -> seed_ok e ->
    exists st' o, fill sm4 len e st = (st', o) /\
      if (len <=? 16) && Nat.ltb n 1024
      then o = Val (firstn (Z.to_nat len) (block n)) /\ at_step (S n) st'
      else o = Thrown /\ at_step n st'.
  Proof.
    intros (Hn & Hc & Hs) He. unfold fill, generate.
    change (Z.of_nat kBlockSize) with 16.
    destruct (Z.leb_spec len 16) as [Hl|Hl]; cbn [andb].
    2:{ eexists; eexists; split; [reflexivity|]. split; [reflexivity|]. repeat split; auto. }
    unfold reseed_interval. rewrite Hc.
    destruct (Nat.ltb_spec n 1024) as [Hn1|Hn1].
    - replace (1024 <? Z.of_nat n + 1) with false by (symmetry; apply Z.ltb_ge; lia).
      cbv beta iota zeta. cbn [ctx_key key v reseed_ctr]. rewrite evp_one.
      change (repeat 0 kSeedlen) with (repeat 0 32). rewrite rng_update_zero.
      cbn [key v reseed_ctr ctx_key].
      eexists; eexists; split; [reflexivity|].
      specialize (Hs Hn1). unfold block, at_step. change (nth_state (S n)) with (next (nth_state n)).
      destruct (nth_state n) as [[ck k] b]. destruct Hs as (Hck & Hk & Hb). cbn [next ctx_key key v reseed_ctr].
      rewrite Hck, Hk, Hb. repeat split; auto; lia.
    - replace (1024 <? Z.of_nat n + 1) with true by (symmetry; apply Z.ltb_lt; lia).
      unfold reseed. destruct (derive_zero e) as [k ->]; [unfold seed_ok in He; lia|].
      replace (Nat.eqb (length e) kSeedlen) with false
        by (symmetry; apply Nat.eqb_neq; unfold seed_ok, kSeedlen in *; lia).
      eexists; eexists; split; [reflexivity|]. split; [reflexivity|].
      unfold at_step. cbn [reseed_ctr]. repeat split; auto. intros; lia.
  Qed.

  Lemma fills_ok calls : forall n st, at_step n st -> Forall (fun c => seed_ok (snd c)) calls ->
    fst (fills sm4 calls st) = expected n (map fst calls).
  Proof.
    induction calls as [|[len e] calls IH]; intros n st Hst Hc; [reflexivity|].
    inversion Hc as [|? ? He Hc']; subst. cbn [snd] in He. cbn [fills map fst expected].
    destruct (fill_step n st len e Hst He) as (st' & o & -> & H).
    destruct ((len <=? 16) && Nat.ltb n 1024); destruct H as [-> Hst'];
      specialize (IH _ _ Hst' Hc'); destruct (fills sm4 calls st') as [os st'']; cbn [fst] in *; now rewrite IH.
  Qed.

  Lemma xor128_length buf off x : (off + 16 <= length buf)%nat -> length (xor128 buf off x) = length buf.
  Proof.
    intros H. unfold xor128, xor_bytes. rewrite !app_length, map_length, combine_length, !firstn_length, !skipn_length, le_of_length. lia.
  Qed.
  Lemma new_ok entropy nonce : (32 <= length entropy)%nat ->
    exists st, native_new sm4 blake3_128 entropy nonce = Val st /\ at_step 0 st.
  Proof.
    intros H. unfold native_new, instantiate.
    replace (Nat.leb 32 (length entropy)) with true by (symmetry; apply Nat.leb_le; lia).
    destruct (derive_zero (xor128 (xor128 entropy 0 (blake3_128 nonce)) 16 (blake3_128 []))) as [k ->].
    { rewrite !xor128_length; rewrite ?xor128_length; lia. }
    cbn [bind snd fst]. rewrite rng_update_zero. cbn [bind key v ctx_key].
    eexists; split; [reflexivity|]. unfold at_step. cbn. repeat split; lia.
  Qed.
End Proofs.

(** ** C103: GM-DRBG *)
Section Theorems.
  Variable sm4 : list Z -> list Z -> list Z.
  Variable blake3_128 : list Z -> Z.
  Hypothesis Hsm4 : forall k b, length (sm4 k b) = 16%nat.

  (** The entropy sources never return 32 bytes for a request of 256. *)
  Lemma source_len s : 32 < entropy_len s kMinEntropyBits.
  Proof. destruct s; vm_compute; reflexivity. Qed.
  (** A history with real entropy sources: every buffer has the size its source returns. *)
  Definition from_sources (calls : list (Z * list Z)) : Prop :=
    Forall (fun c => exists s, Z.of_nat (length (snd c)) = entropy_len s kMinEntropyBits) calls.
  Definition from_source (e : list Z) : Prop := exists s, Z.of_nat (length e) = entropy_len s kMinEntropyBits.

  (** What every history of Fill calls returns: a call succeeds exactly if it asks for
      at most 16 bytes and fewer than 1024 calls have succeeded before; the n-th
      successful call returns a prefix of [block n], in which neither the entropy
      nor the nonce occurs. *)
  Theorem gm_drbg_history :
    forall entropy nonce calls, from_source entropy -> from_sources calls ->
    session sm4 blake3_128 entropy nonce calls = Val (expected sm4 0 (map fst calls)).
  Proof.
    intros entropy nonce calls [s Hs] Hc. pose proof (source_len s) as L.
    unfold session. destruct (new_ok sm4 blake3_128 Hsm4 entropy nonce) as (st & -> & Hst); [lia|].
    cbn [bind]. f_equal. apply fills_ok; [exact Hsm4|exact Hst|].
    eapply Forall_impl; [|exact Hc]. intros c [s' Hs']. unfold seed_ok. pose proof (source_len s'). lia.
  Qed.

  (** Any two generators return the same bytes, whatever entropy they were given. *)
  Theorem gm_drbg_ignores_entropy :
    forall e1 n1 calls1 e2 n2 calls2, from_source e1 -> from_source e2 -> from_sources calls1 -> from_sources calls2 ->
    map fst calls1 = map fst calls2 ->
    session sm4 blake3_128 e1 n1 calls1 = session sm4 blake3_128 e2 n2 calls2.
  Proof. intros e1 n1 calls1 e2 n2 calls2 H1 H2 H3 H4 E. rewrite !gm_drbg_history by assumption. now rewrite E. Qed.

  (** Asking for a reseed always fails and changes neither key nor counter. *)
  Theorem gm_drbg_reseed_fails :
    forall e st, from_source e ->
    snd (native_reseed sm4 e st) = Thrown /\
    key (fst (native_reseed sm4 e st)) = key st /\ v (fst (native_reseed sm4 e st)) = v st /\
    reseed_ctr (fst (native_reseed sm4 e st)) = reseed_ctr st.
  Proof.
    intros e st [s Hs]. pose proof (source_len s) as L. unfold native_reseed, reseed.
    destruct (derive_zero sm4 e) as [k ->]; [lia|].
    replace (Nat.eqb (length e) kSeedlen) with false by (symmetry; apply Nat.eqb_neq; unfold kSeedlen; lia).
    repeat split.
  Qed.

  (** Additional input of 1 to 31 bytes is read beyond its end. *)
  Theorem gm_drbg_short_additional_input :
    forall len e a st, len <= 16 -> a <> [] -> (length a < 32)%nat -> reseed_ctr st <= 1024 ->
    snd (generate sm4 len e a st) = OutOfBounds.
  Proof.
    intros len e a st Hl Ha Hs Hc. unfold generate. change (Z.of_nat kBlockSize) with 16.
    replace (len <=? 16) with true by (symmetry; apply Z.leb_le; lia).
    unfold reseed_interval. replace (1024 <? reseed_ctr st) with false by (symmetry; apply Z.ltb_ge; lia).
    destruct a as [|b a]; [congruence|]. unfold derive.
    replace (Nat.ltb (8 + kSeedlen) _) with false; [reflexivity|].
    symmetry. apply Nat.ltb_ge. rewrite !app_length. cbn [length be32] in *. unfold kSeedlen. lia.
  Qed.

  (** Within its limits the generator does answer, with as many bytes as asked for. *)
  Theorem gm_drbg_fill_length :
    forall lens, (length lens <= 1024)%nat -> Forall (fun l => 0 <= l <= 16) lens ->
    Forall2 (fun l o => exists b, o = Val b /\ Z.of_nat (length b) = l) lens (expected sm4 0 lens).
  Proof.
    intros lens Hl Hlens. assert (H : forall n, (n + length lens <= 1024)%nat ->
      Forall2 (fun l o => exists b, o = Val b /\ Z.of_nat (length b) = l) lens (expected sm4 n lens)); [|now apply H].
    clear Hl. induction lens as [|l lens IH]; intros n Hn; [constructor|]. cbn [expected length] in *.
    inversion Hlens as [|? ? Hb Hlens']; subst.
    replace (l <=? 16) with true by (symmetry; apply Z.leb_le; lia).
    replace (Nat.ltb n 1024) with true by (symmetry; apply Nat.ltb_lt; lia). cbn [andb].
    constructor; [|apply IH; [assumption|lia]].
    eexists; split; [reflexivity|]. unfold block. destruct (nth_state sm4 n) as [[ck k] b].
    rewrite firstn_length, Hsm4. lia.
  Qed.
End Theorems.

(** ** What users expect and does not hold *)
(** A toy cipher in place of SM4 (16 bytes in, 16 bytes out, key dependent). *)
Definition toy (k b : list Z) : list Z :=
  map (fun i => (7 * nth i b 0 + 5 * nth (15 - i) k 0 + 3 * nth (Nat.modulo (i + 1) 16) b 0 + Z.of_nat i + 1) mod 256) (seq 0 16).
Lemma toy_length k b : length (toy k b) = 16%nat.
Proof. unfold toy. now rewrite map_length, seq_length. Qed.

(** Different entropy, different output: false. *)
Theorem gm_drbg_depends_on_entropy_refuted :
  forall sm4 blake3_128, (forall k b, length (sm4 k b) = 16%nat) ->
  exists e1 e2, e1 <> e2 /\ from_source e1 /\ from_source e2 /\
    forall n calls, from_sources calls -> session sm4 blake3_128 e1 n calls = session sm4 blake3_128 e2 n calls.
Proof.
  intros sm4 blake3_128 H. exists (repeat 1 54), (repeat 2 54).
  assert (F : forall x, from_source (repeat x 54)) by (intros x; exists RdseedIntel; now rewrite repeat_length).
  split; [discriminate|]. split; [apply F|]. split; [apply F|].
  intros n calls Hc. apply gm_drbg_ignores_entropy; auto.
Qed.
(** Every history of requests is served: false for one byte too many, and for the 1025th request. *)
Lemma expected_app sm4 n l1 l2 : Forall (fun l => 0 <= l <= 16) l1 -> (n + length l1 <= 1024)%nat ->
  expected sm4 n (l1 ++ l2) = expected sm4 n l1 ++ expected sm4 (n + length l1) l2.
Proof.
  revert n. induction l1 as [|l l1 IH]; intros n Hl Hn; cbn [app expected length] in *; [now rewrite Nat.add_0_r|].
  inversion Hl as [|? ? Hb Hl']; subst.
  replace (l <=? 16) with true by (symmetry; apply Z.leb_le; lia).
  replace (Nat.ltb n 1024) with true by (symmetry; apply Nat.ltb_lt; lia). cbn [andb app].
  f_equal. rewrite IH by (try assumption; lia). f_equal. f_equal. lia.
Qed.
Theorem gm_drbg_serves_refuted :
  forall sm4 blake3_128, (forall k b, length (sm4 k b) = 16%nat) ->
  (forall e n e', from_source e -> from_source e' ->
     session sm4 blake3_128 e n [(17, e')] = Val [Thrown]) /\
  (forall e n e', from_source e -> from_source e' ->
     exists l, session sm4 blake3_128 e n (repeat (8, e') 1025) = Val (l ++ [Thrown]) /\ length l = 1024%nat).
Proof.
  intros sm4 blake3_128 H. split; intros e n e' He He'.
  - rewrite gm_drbg_history; [reflexivity|assumption..|]. repeat constructor. exact He'.
  - rewrite gm_drbg_history; [|assumption..|apply Forall_forall; intros c Hc; apply repeat_spec in Hc; subst c; exact He'].
    assert (M : map fst (repeat (8, e') 1025) = repeat 8 1024 ++ [8]).
    { assert (G : forall m, map fst (repeat (8, e') (S m)) = repeat 8 m ++ [8]).
      { induction m as [|m IH]; [reflexivity|]. change (8 :: map fst (repeat (8, e') (S m)) = 8 :: (repeat 8 m ++ [8])). now rewrite IH. }
      exact (G 1024%nat). }
    rewrite M. assert (F : Forall (fun l => 0 <= l <= 16) (repeat 8 1024)).
    { apply Forall_forall. intros x Hx. apply repeat_spec in Hx. lia. }
    rewrite expected_app by (try exact F; rewrite repeat_length; lia).
    eexists; split; [f_equal; f_equal; reflexivity|].
    pose proof (gm_drbg_fill_length sm4 H (repeat 8 1024) ltac:(rewrite repeat_length; lia) F) as F2.
    clear - F2. assert (G : forall A B (R : A -> B -> Prop) a b, Forall2 R a b -> length a = length b)
      by (intros A B R a b; induction 1; cbn; congruence).
    apply G in F2. now rewrite repeat_length in F2.
Qed.

(** ** Instances *)
Example gm_drbg_example :
  from_source (repeat 3 256) /\
  match session toy (fun l => Z.of_nat (length l)) (repeat 3 54) (repeat 9 32) [(8, repeat 1 54); (17, repeat 1 54); (4, repeat 1 54)] with
  | Val [Val a; Thrown; Val b] => length a = 8%nat /\ length b = 4%nat /\ firstn 4 a <> b
  | _ => False
  end.
Proof. split; [exists Urandom; now rewrite repeat_length|]. vm_compute. repeat split. discriminate. Qed.

(** The RDSEED sources return just enough bytes for the bits asked for, at the entropy
    rates of the vendors' reports (0.6 per bit for Intel, 0.3 for AMD), as long as the
    32-bit products do not wrap: 8 bits times rate times bytes reaches n, one byte less
    does not. *)
Theorem rdseed_sizes :
  forall n, 0 < n -> 10 * n + 2 < 2 ^ 32 ->
  n * 10 <= entropy_len RdseedIntel n * 8 * 6 /\ (entropy_len RdseedIntel n - 1) * 8 * 6 < n * 10 /\
  n * 10 <= entropy_len RdseedAmd n * 8 * 3 /\ (entropy_len RdseedAmd n - 1) * 8 * 3 < n * 10.
Proof.
  intros n H1 H2. cbn [entropy_len].
  pose proof (Z.div_mod (n * 5 + 2) 3 ltac:(lia)). pose proof (Z.mod_pos_bound (n * 5 + 2) 3 ltac:(lia)).
  pose proof (Z.div_mod (n * 10 + 2) 3 ltac:(lia)). pose proof (Z.mod_pos_bound (n * 10 + 2) 3 ltac:(lia)).
  set (a := (n * 5 + 2) / 3) in *. set (b := (n * 10 + 2) / 3) in *.
  pose proof (Z.div_mod (a + 7) 8 ltac:(lia)). pose proof (Z.mod_pos_bound (a + 7) 8 ltac:(lia)).
  pose proof (Z.div_mod (b + 7) 8 ltac:(lia)). pose proof (Z.mod_pos_bound (b + 7) 8 ltac:(lia)).
  lia.
Qed.
Example rdseed_sizes_used : entropy_len RdseedIntel kMinEntropyBits = 54 /\ entropy_len RdseedAmd kMinEntropyBits = 107.
Proof. split; reflexivity. Qed.

Print Assumptions gm_drbg_history.
Print Assumptions gm_drbg_ignores_entropy.
Print Assumptions gm_drbg_reseed_fails.
Print Assumptions gm_drbg_short_additional_input.
Print Assumptions gm_drbg_fill_length.
Print Assumptions gm_drbg_depends_on_entropy_refuted.
Print Assumptions gm_drbg_serves_refuted.
Print Assumptions rdseed_sizes.
