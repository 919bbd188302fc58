(** * C99: bytes of big integers and the library behind them *)
From Coq Require Import ZArith List Bool Lia.
From Verif Require Import LinCodeModel MpxModel MpxProof MpxProps BigModel BigProof.
Import ListNotations.
Open Scope Z_scope.

(** [holder a z]: the MPInt [a] holds the integer [z] (one for every z: C64). *)
Definition holder (a : mp) (z : Z) : Prop := wf a /\ value a = z.

(** ToBytes: the same n bytes in every library, the two's complement of z modulo 2^(8n),
    whatever n and the byte order. *)
Theorem to_bytes_agree : forall z n e, exists bytes,
  ossl_to_bytes z n e = Val bytes /\ gmp_to_bytes z n e = Val bytes /\
  (forall a fresh, holder a z -> length fresh = n -> ToBytes a fresh e = Val bytes) /\
  length bytes = n /\ bytes_ok bytes /\ le_value (in_order e bytes) = z mod 2 ^ (8 * Z.of_nat n).
Proof.
  intros z n e. exists (in_order e (le_bytes n z)). repeat match goal with |- _ /\ _ => split end.
  - apply ossl_to_bytes_correct.
  - apply gmp_to_bytes_correct.
  - intros a fresh (W & <-) <-. now apply to_bytes_correct.
  - rewrite in_order_length. apply le_bytes_length.
  - pose proof (le_bytes_range n z) as R. destruct e; [exact R|]. cbn [in_order]. unfold bytes_ok. now apply Forall_rev.
  - rewrite in_order_invol. apply le_value_le_bytes.
Qed.

(** OpenSSL's &, | and ^, which go through bytes, are those of two's complement
    integers of unbounded width, as GMP's and libtommath's are documented to be. *)
Theorem bitwise_unbounded : forall a b, exists x y z,
  ossl_and a b = Val x /\ ossl_or a b = Val y /\ ossl_xor a b = Val z /\
  forall n, 0 <= n ->
    Z.testbit x n = Z.testbit a n && Z.testbit b n /\
    Z.testbit y n = Z.testbit a n || Z.testbit b n /\
    Z.testbit z n = xorb (Z.testbit a n) (Z.testbit b n).
Proof.
  intros a b. exists (Z.land a b), (Z.lor a b), (Z.lxor a b). unfold ossl_and, ossl_or, ossl_xor.
  rewrite (ossl_bitwise_correct _ a b land_bitwise), (ossl_bitwise_correct _ a b lor_bitwise),
    (ossl_bitwise_correct _ a b lxor_bitwise). do 3 (split; [reflexivity|]). intros n Hn.
  split; [apply Z.land_spec|]. split; [apply Z.lor_spec|apply Z.lxor_spec].
Qed.

(** Serialize: the same size and the same bytes in every library; a buffer below that
    size throws.  GMP and libtommath leave the rest of a larger buffer alone. *)
Theorem serialize_agree : forall z, exists bytes,
  let n := bit_length (Z.abs z) / 8 + 1 in
  Z.of_nat (length bytes) = n /\ bytes_ok bytes /\
  forall buf,
    (Z.of_nat (length buf) < n ->
       ossl_serialize z buf = Thrown /\ gmp_serialize z buf = Thrown /\ forall a, holder a z -> serialize a buf = Thrown) /\
    (n <= Z.of_nat (length buf) ->
       ossl_serialize z buf = Val (bytes ++ repeat 0 (length buf - length bytes), n) /\
       gmp_serialize z buf = Val (bytes ++ skipn (length bytes) buf, n) /\
       forall a, holder a z -> serialize a buf = Val (bytes ++ skipn (length bytes) buf, n)).
Proof.
  intros z. exists (ser_bytes z). cbv zeta. fold (ser_size z). split; [apply ser_bytes_length|].
  split; [apply ser_bytes_ok|]. intros buf. assert (length (ser_bytes z) = Z.to_nat (ser_size z)) as L.
  { pose proof (ser_bytes_length z). lia. }
  split; intros H.
  - repeat match goal with |- _ /\ _ => split end.
    + unfold ossl_serialize. fold (ser_size z). now destruct (Z.ltb_spec (Z.of_nat (length buf)) (ser_size z)); [|lia].
    + unfold gmp_serialize. rewrite gmp_ser_size. now destruct (Z.ltb_spec (Z.of_nat (length buf)) (ser_size z)); [|lia].
    + intros a (W & <-). destruct (serialize_round_trip a buf W) as [T _]. apply T. exact H.
  - rewrite L. split; [now apply ossl_serialize_correct|]. split; [now apply gmp_serialize_correct|].
    intros a (W & <-). now apply tom_serialize_correct.
Qed.
(** OpenSSL's does not: it clears the caller's bytes after the serialized number. *)
Theorem ossl_serialize_writes_beyond_refuted : exists z buf l n,
  ossl_serialize z buf = Val (l, n) /\ skipn (Z.to_nat n) l <> skipn (Z.to_nat n) buf.
Proof. exists 5, [1; 2; 3], [5; 0; 0], 1. split; [reflexivity|]. vm_compute. discriminate. Qed.

(** Deserialize: every library reads the same integer from every non-empty buffer (also
    one no library wrote), and refuses the empty one. *)
Theorem deserialize_agree : forall buf, bytes_ok buf ->
  (buf = [] -> ossl_deserialize buf = Thrown /\ gmp_deserialize buf = Thrown /\ deserialize buf = Thrown) /\
  (buf <> [] -> exists z, ossl_deserialize buf = Val z /\ gmp_deserialize buf = Val z /\
     (exists a, deserialize buf = Val a /\ holder a z) /\
     Z.abs z = le_value buf mod 2 ^ (8 * Z.of_nat (length buf) - 1) /\
     (z < 0 -> 128 <= last buf 0) /\ (0 < z -> last buf 0 < 128)).
Proof.
  intros buf F. split; [intros ->; repeat split|]. intros N. exists (decoded buf).
  split; [now apply ossl_deserialize_correct|]. split; [now apply gmp_deserialize_correct|].
  split. { destruct (deserialize_correct buf N F) as (a & E & W & Ev). exists a. split; [exact E|]. split; [exact W|exact Ev]. }
  unfold decoded. assert (0 <= le_value buf mod 2 ^ (8 * Z.of_nat (length buf) - 1)).
  { apply Z.mod_pos_bound, Z.pow_pos_nonneg; [lia|]. destruct buf; [easy|cbn [length]; lia]. }
  destruct (Z.leb_spec 128 (last buf 0)); repeat split; lia.
Qed.

(** What one library serializes, every library reads back. *)
Definition writes (k : backend) (z : Z) (l : list Z) : Prop :=
  match k with
  | Tom => exists a, holder a z /\ exists fresh n, Z.of_nat (length fresh) = n /\ serialize a fresh = Val (l, n)
  | Ossl => exists fresh n, Z.of_nat (length fresh) = n /\ ossl_serialize z fresh = Val (l, n)
  | Gmp => exists fresh n, Z.of_nat (length fresh) = n /\ gmp_serialize z fresh = Val (l, n)
  end.
Definition reads (k : backend) (l : list Z) (z : Z) : Prop :=
  match k with
  | Tom => exists a, deserialize l = Val a /\ holder a z
  | Ossl => ossl_deserialize l = Val z
  | Gmp => gmp_deserialize l = Val z
  end.
Theorem cross_library_round_trip : forall z,
  (forall j, exists l, writes j z l) /\ (forall j k l, writes j z l -> reads k l z).
Proof.
  intros z. destruct (serialize_agree z) as (bytes & L & OK & S). cbv zeta in *.
  set (n := bit_length (Z.abs z) / 8 + 1) in *.
  assert (forall fresh : list Z, Z.of_nat (length fresh) = n -> skipn (length bytes) fresh = [] /\ (length fresh - length bytes = 0)%nat) as K.
  { intros fresh E. split; [apply skipn_all2|]; lia. }
  split.
  - intros j. exists bytes.
    assert (Z.of_nat (length (repeat 0 (length bytes))) = n) as R by (rewrite repeat_length; exact L).
    destruct (S (repeat 0 (length bytes))) as (_ & S2). destruct (S2 ltac:(lia)) as (S3 & S4 & S5).
    destruct (K _ R) as (K1 & K2). rewrite K1, app_nil_r in *. rewrite K2 in S3. cbn [repeat] in S3. rewrite app_nil_r in S3.
    destruct j; cbn [writes].
    + destruct (one_per_integer z) as (a & (W & Ev) & _). exists a. split; [split; assumption|].
      exists (repeat 0 (length bytes)), n. split; [exact R|]. apply S5. split; assumption.
    + eauto.
    + eauto.
  - intros j k l Wr.
    assert (l = bytes) as ->.
    { destruct j; cbn [writes] in Wr.
      - destruct Wr as (a & Ha & fresh & m & E & Sr). destruct (S fresh) as (S1 & S2).
        destruct (Z.ltb_spec (Z.of_nat (length fresh)) n) as [Lt|Ge].
        + destruct (S1 Lt) as (_ & _ & T). rewrite (T a Ha) in Sr. discriminate.
        + destruct (S2 Ge) as (_ & _ & T). rewrite (T a Ha) in Sr. injection Sr as <- En.
          destruct (K fresh ltac:(lia)) as (-> & _). now rewrite app_nil_r.
      - destruct Wr as (fresh & m & E & Sr). destruct (S fresh) as (S1 & S2).
        destruct (Z.ltb_spec (Z.of_nat (length fresh)) n) as [Lt|Ge].
        + destruct (S1 Lt) as (T & _). rewrite T in Sr. discriminate.
        + destruct (S2 Ge) as (T & _). rewrite T in Sr. injection Sr as <- En.
          destruct (K fresh ltac:(lia)) as (_ & ->). cbn [repeat]. now rewrite app_nil_r.
      - destruct Wr as (fresh & m & E & Sr). destruct (S fresh) as (S1 & S2).
        destruct (Z.ltb_spec (Z.of_nat (length fresh)) n) as [Lt|Ge].
        + destruct (S1 Lt) as (_ & T & _). rewrite T in Sr. discriminate.
        + destruct (S2 Ge) as (_ & T & _). rewrite T in Sr. injection Sr as <- En.
          destruct (K fresh ltac:(lia)) as (-> & _). now rewrite app_nil_r. }
    assert (bytes = ser_bytes z) as ->.
    { destruct (S (repeat 0 (length bytes))) as (_ & S2). rewrite repeat_length in S2. destruct (S2 ltac:(lia)) as (_ & S4 & _).
      rewrite gmp_serialize_correct in S4 by (rewrite repeat_length; unfold ser_size; fold n; lia).
      injection S4 as S4. rewrite !skipn_all2 in S4; rewrite ?repeat_length; unfold ser_size; fold n; try lia.
      rewrite !app_nil_r in S4. now symmetry. }
    destruct k; cbn [reads].
    + destruct (deserialize_correct (ser_bytes z) (ser_bytes_nonempty z) (ser_bytes_ok z)) as (a & E & W & Ev).
      exists a. split; [exact E|]. split; [exact W|]. rewrite Ev. apply decoded_ser.
    + rewrite ossl_deserialize_correct by (try apply ser_bytes_nonempty; apply ser_bytes_ok). now rewrite decoded_ser.
    + rewrite gmp_deserialize_correct by (try apply ser_bytes_nonempty; apply ser_bytes_ok). now rewrite decoded_ser.
Qed.

(** ToMagBytes: the same bytes, as few as possible, in every library for every number
    but zero; FromMagBytes reads them back as the magnitude. *)
Theorem mag_bytes_agree : forall z e, z <> 0 -> exists bytes,
  let n := (bit_length (Z.abs z) + 7) / 8 in
  Z.of_nat (length bytes) = n /\ bytes_ok bytes /\ le_value (in_order e bytes) = Z.abs z /\
  ossl_mag_size z = n /\ gmp_mag_size z = n /\ (forall a, holder a z -> mag_bytes_size a = n) /\
  ossl_from_mag_bytes bytes e = Z.abs z /\ gmp_from_mag_bytes bytes e = Z.abs z /\
  holder (from_mag_bytes bytes e) (Z.abs z) /\
  forall buf,
    (Z.of_nat (length buf) < n ->
       ossl_to_mag_bytes z buf e = Thrown /\ gmp_to_mag_bytes z buf e = Thrown /\ forall a, holder a z -> to_mag_bytes a buf e = Thrown) /\
    (n <= Z.of_nat (length buf) ->
       ossl_to_mag_bytes z buf e = Val (bytes ++ skipn (length bytes) buf, n) /\
       gmp_to_mag_bytes z buf e = Val (bytes ++ skipn (length bytes) buf, n) /\
       forall a, holder a z -> to_mag_bytes a buf e = Val (bytes ++ skipn (length bytes) buf, n)).
Proof.
  intros z e Nz. destruct (num_bytes_spec z) as (N0 & N1). exists (mpz_export z e). cbv zeta. fold (bn_num_bytes z).
  assert (bytes_ok (mpz_export z e)) as OK.
  { unfold mpz_export. pose proof (le_bytes_range (Z.to_nat (bn_num_bytes z)) (Z.abs z)) as R.
    destruct e; [exact R|]. cbn [in_order]. unfold bytes_ok. now apply Forall_rev. }
  assert (le_value (in_order e (mpz_export z e)) = Z.abs z) as LV.
  { unfold mpz_export. rewrite in_order_invol, le_value_le_bytes, Z2Nat.id by lia. apply Z.mod_small. lia. }
  assert (forall a, holder a z -> mag_bytes_size a = bn_num_bytes z) as MS.
  { intros a (W & Ev). destruct (mag_size_spec a W) as (_ & _ & _ & M). rewrite <- value_abs in M by exact W. rewrite Ev in M. exact M. }
  split; [rewrite export_length; lia|]. split; [exact OK|]. split; [exact LV|]. split; [reflexivity|].
  split; [now apply gmp_num|]. split; [exact MS|]. split; [exact LV|]. split; [exact LV|].
  split. { destruct (from_mag_bytes_exact (mpz_export z e) e OK) as (W & Ev). split; [exact W|]. now rewrite Ev. }
  intros buf. split; intros H.
  - unfold ossl_to_mag_bytes, gmp_to_mag_bytes. rewrite (gmp_num z Nz).
    destruct (Z.ltb_spec (Z.of_nat (length buf)) (bn_num_bytes z)); [|lia]. split; [reflexivity|]. split; [reflexivity|].
    intros a (W & Ev). destruct (to_mag_bytes_exact a buf e W) as (T & _). apply T. rewrite Ev. exact H.
  - rewrite export_length. split; [|split].
    + unfold ossl_to_mag_bytes, bn2pad. destruct (Z.ltb_spec (Z.of_nat (length buf)) (bn_num_bytes z)); [lia|].
      destruct (Z.ltb_spec (Z.of_nat (Z.to_nat (bn_num_bytes z))) (bn_num_bytes z)); [lia|]. reflexivity.
    + unfold gmp_to_mag_bytes. rewrite (gmp_num z Nz). destruct (Z.ltb_spec (Z.of_nat (length buf)) (bn_num_bytes z)); [lia|].
      rewrite export_length. rewrite Z2Nat.id by lia. reflexivity.
    + intros a (W & Ev). destruct (to_mag_bytes_exact a buf e W) as (_ & T). rewrite Ev in T. fold (bn_num_bytes z) in T.
      destruct (T H) as (bytes & E & L & OKb & V). rewrite E. do 3 f_equal.
      rewrite <- (in_order_invol e bytes). unfold mpz_export. f_equal. apply le_bytes_unique.
      * rewrite in_order_length. lia.
      * destruct e; [exact OKb|]. cbn [in_order]. unfold bytes_ok. now apply Forall_rev.
      * rewrite V. rewrite Z2Nat.id by lia. symmetry. apply Z.mod_small. lia.
Qed.
(** For zero GMP asks for one byte, refuses an empty buffer and then writes nothing;
    the other two ask for none. *)
Theorem zero_mag_bytes_refuted : forall e,
  ossl_mag_size 0 = 0 /\ gmp_mag_size 0 = 1 /\
  ossl_to_mag_bytes 0 [] e = Val ([], 0) /\ gmp_to_mag_bytes 0 [] e = Thrown /\ gmp_to_mag_bytes 0 [7] e = Val ([7], 0).
Proof. intros []; repeat split. Qed.

(** ** Concrete cases *)
Example ex_to_bytes : ossl_to_bytes (-2) 3 Big = Val [255; 255; 254] /\ gmp_to_bytes (-256) 3 Little = Val [0; 255; 255] /\
  ossl_to_bytes (-65537) 2 Big = Val [255; 255] /\ gmp_to_bytes 0 0 Big = Val [] /\ gmp_to_bytes 0 2 Big = Val [0; 0].
Proof. repeat split; vm_compute; reflexivity. Qed.
Example ex_bitwise : ossl_and (-2) 255 = Val 254 /\ ossl_or (-256) 1 = Val (-255) /\ ossl_xor (-1) 128 = Val (-129).
Proof. repeat split; vm_compute; reflexivity. Qed.
Example ex_serialize : ossl_serialize (-255) [9; 9; 9] = Val ([255; 128; 0], 2) /\ gmp_serialize (-255) [9; 9; 9] = Val ([255; 128; 9], 2) /\
  gmp_deserialize [255; 128] = Val (-255) /\ ossl_deserialize [0; 128] = Val 0.
Proof. repeat split; vm_compute; reflexivity. Qed.
Example ex_writes : writes Ossl (-255) [255; 128]. Proof. exists [0; 0], 2. split; vm_compute; reflexivity. Qed.
Example ex_holder : holder (Mp true [255]) (-255).
Proof. split; [|reflexivity]. repeat split; [constructor; [lia|constructor]|discriminate]. Qed.

Print Assumptions to_bytes_agree.
Print Assumptions bitwise_unbounded.
Print Assumptions serialize_agree.
Print Assumptions ossl_serialize_writes_beyond_refuted.
Print Assumptions deserialize_agree.
Print Assumptions cross_library_round_trip.
Print Assumptions mag_bytes_agree.
Print Assumptions zero_mag_bytes_refuted.
