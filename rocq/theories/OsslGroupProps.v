(* Properties of points and hashing in the OpenSSL groups. *)
From Coq Require Import ZArith List Bool Lia.
From Verif Require Import LinCodeModel OsslGroupModel.
Import ListNotations.
Local Open Scope Z_scope.

Lemma le_bytes_len n x : length (le_bytes n x) = n.
Proof. revert x. induction n as [|n IH]; intros x; cbn [le_bytes length]; auto. Qed.

Lemma le_roundtrip n x : 0 <= x < 256 ^ Z.of_nat n -> le_value (le_bytes n x) = x.
Proof.
  revert x. induction n as [|n IH]; intros x H.
  - cbn in *. lia.
  - cbn [le_bytes le_value]. rewrite IH.
    + rewrite (Z.div_mod x 256) at 3 by lia. lia.
    + rewrite Nat2Z.inj_succ, Z.pow_succ_r in H by lia.
      split; [apply Z.div_pos; lia|apply Z.div_lt_upper_bound; lia].
Qed.

Lemma be_len n x : length (be_bytes n x) = n.
Proof. unfold be_bytes. rewrite rev_length. apply le_bytes_len. Qed.
Lemma be_roundtrip n x : 0 <= x < 256 ^ Z.of_nat n -> be_value (be_bytes n x) = x.
Proof. intros H. unfold be_value, be_bytes. rewrite rev_involutive. apply le_roundtrip. exact H. Qed.

Section Curve.
Variable p : Z.
Variable flen : nat.
Variable on_curve : Z -> Z -> bool.
Variable lift : Z -> bool -> option Z.
Variable gx gy : Z.
Definition coords (x y : Z) : Prop := 0 <= x < p /\ 0 <= y < p /\ on_curve x y = true.
Definition valid (pt : point) : Prop :=
  match pt with Inf => True | Aff x y => coords x y end.
Hypothesis p_fits : 0 < p <= 256 ^ Z.of_nat flen.
Hypothesis lift_sound : forall x b y, 0 <= x < p -> lift x b = Some y -> coords x y.
Hypothesis lift_complete : forall x y, coords x y -> lift x (Z.odd y) = Some y.

Notation point2oct := (point2oct flen).
Notation oct2point := (oct2point p flen on_curve lift).
Notation serialize := (serialize flen).
Notation serialize_raw := (serialize_raw flen).
Notation serialize_length := (serialize_length flen (Aff gx gy)).
Notation deserialize := (deserialize p flen on_curve lift).

Lemma point2oct_len x y f :
  length (point2oct (Aff x y) f) =
  match f with Compressed => S flen | _ => S (flen + flen) end.
Proof. destruct f; cbn [OsslGroupModel.point2oct length]; rewrite ?app_length, ?be_len; reflexivity. Qed.

Lemma tag_nonzero x y f : exists t r, point2oct (Aff x y) f = t :: r /\ t <> 0.
Proof.
  destruct f; cbn [OsslGroupModel.point2oct]; do 2 eexists; (split; [reflexivity|]);
    destruct (Z.odd y); lia.
Qed.

Lemma oct_roundtrip pt f : valid pt -> oct2point (point2oct pt f) = Some pt.
Proof.
  destruct pt as [|x y]; [reflexivity|]. intros (Hx & Hy & Hc).
  assert (Rx : be_value (be_bytes flen x) = x) by (apply be_roundtrip; lia).
  assert (Ry : be_value (be_bytes flen y) = y) by (apply be_roundtrip; lia).
  assert (Lx : x <? p = true) by (apply Z.ltb_lt; lia).
  assert (Ly : y <? p = true) by (apply Z.ltb_lt; lia).
  assert (F : firstn flen (be_bytes flen x ++ be_bytes flen y) = be_bytes flen x).
  { rewrite firstn_app, be_len, Nat.sub_diag. cbn [firstn]. rewrite app_nil_r.
    apply firstn_all2. rewrite be_len. lia. }
  assert (S : skipn flen (be_bytes flen x ++ be_bytes flen y) = be_bytes flen y).
  { rewrite skipn_app, be_len, Nat.sub_diag, skipn_all2 by (rewrite be_len; lia). reflexivity. }
  assert (C := lift_complete x y (conj Hx (conj Hy Hc))).
  unfold OsslGroupModel.oct2point, OsslGroupModel.point2oct.
  destruct f.
  - destruct (Z.odd y) eqn:O; cbn [Z.add Z.odd Z.sub Z.eqb Z.opp Pos.add Pos.eqb Z.pos_sub Pos.succ Pos.pred_double];
      rewrite be_len, Nat.eqb_refl, Rx, Lx; cbv zeta; rewrite ?C; reflexivity.
  - change (Z.odd 4) with false. cbv iota. change (4 =? 0) with false. change (4 =? 2) with false.
    change (4 =? 4) with true. change (4 =? 6) with false. cbn [orb andb].
    rewrite app_length, !be_len, Nat.eqb_refl, F, S, Rx, Ry, Lx, Ly, Hc. reflexivity.
  - destruct (Z.odd y) eqn:O.
    + change (6 + 1) with 7. change (Z.odd 7) with true. cbv iota. change (7 - 1) with 6.
      change (6 =? 0) with false. change (6 =? 2) with false. change (6 =? 4) with false.
      change (6 =? 6) with true. cbn [orb andb].
      rewrite app_length, !be_len, Nat.eqb_refl, F, S, Rx, Ry, Lx, Ly, Hc, O. reflexivity.
    + change (6 + 0) with 6. change (Z.odd 6) with false. cbv iota.
      change (6 =? 0) with false. change (6 =? 2) with false. change (6 =? 4) with false.
      change (6 =? 6) with true. cbn [orb andb].
      rewrite app_length, !be_len, Nat.eqb_refl, F, S, Rx, Ry, Lx, Ly, Hc, O. reflexivity.
Qed.

Lemma deserialize_whole t r : t <> 0 ->
  deserialize (t :: r) = match oct2point (t :: r) with Some q => Val q | None => Thrown end.
Proof.
  intros H. unfold OsslGroupModel.deserialize. apply Z.eqb_neq in H. rewrite H.
  rewrite Nat.ltb_irrefl, firstn_all. reflexivity.
Qed.

Lemma deserialize_zero r : deserialize (0 :: r) = Val Inf.
Proof. reflexivity. Qed.

(* A point written to a Buffer reads back, in every format. *)
Theorem buffer_roundtrip pt f : valid pt -> deserialize (serialize pt f) = Val pt.
Proof.
  intros H. unfold OsslGroupModel.serialize. destruct pt as [|x y]; [reflexivity|].
  destruct (tag_nonzero x y (form_of f)) as (t & r & E & N).
  rewrite E, deserialize_whole, <- E, oct_roundtrip by assumption. reflexivity.
Qed.

(* The formats: the tag byte and the length. *)
Theorem serialize_format x y f :
  let out := serialize (Aff x y) f in
  match f with
  | X962Uncompressed => hd 0 out = 4 /\ length out = (1 + 2 * flen)%nat
  | X962Hybrid => hd 0 out = (if Z.odd y then 7 else 6) /\ length out = (1 + 2 * flen)%nat
  | _ => hd 0 out = (if Z.odd y then 3 else 2) /\ length out = (1 + flen)%nat
  end /\ serialize Inf f = [0].
Proof.
  cbv zeta. unfold OsslGroupModel.serialize. split; [|reflexivity].
  destruct f; cbn [form_of]; rewrite point2oct_len;
    (split; [cbn [OsslGroupModel.point2oct hd]; destruct (Z.odd y); reflexivity|lia]).
Qed.

(* Different points are written differently. *)
Theorem serialize_injective pt pt' f :
  valid pt -> valid pt' -> serialize pt f = serialize pt' f -> pt = pt'.
Proof.
  intros H H' E. assert (A := buffer_roundtrip pt f H). rewrite E in A.
  rewrite buffer_roundtrip in A by exact H'. congruence.
Qed.

(* In a fixed width of GetSerializeLength bytes, every point fits, infinity too,
   and reads back: so records of points can be laid out at that width. *)
Theorem fixed_width_roundtrip pt f buf :
  valid pt -> length buf = serialize_length f ->
  exists out, serialize_raw pt f buf = Val out /\ length out = serialize_length f /\
              deserialize out = Val pt.
Proof.
  intros H L. unfold OsslGroupModel.serialize_raw.
  assert (B : (length (point2oct pt (form_of f)) <= serialize_length f)%nat).
  { unfold OsslGroupModel.serialize_length. rewrite point2oct_len. destruct pt as [|x y].
    - cbn [OsslGroupModel.point2oct length]. destruct (form_of f); lia.
    - rewrite point2oct_len. lia. }
  destruct (Nat.ltb_spec (length buf) (length (point2oct pt (form_of f)))); [lia|].
  eexists. split; [reflexivity|].
  split; [rewrite app_length, repeat_length; lia|].
  destruct pt as [|x y].
  - apply deserialize_zero.
  - assert (E : length (point2oct (Aff x y) (form_of f)) = length buf).
    { rewrite L. unfold OsslGroupModel.serialize_length. rewrite !point2oct_len. reflexivity. }
    rewrite E, Nat.sub_diag. cbn [repeat]. rewrite app_nil_r.
    apply (buffer_roundtrip (Aff x y) f H).
Qed.

(* A buffer that is too small is refused. *)
Theorem serialize_raw_short pt f buf :
  (length buf < length (serialize pt f))%nat -> serialize_raw pt f buf = Thrown.
Proof.
  intros H. unfold OsslGroupModel.serialize_raw, OsslGroupModel.serialize in *.
  destruct (Nat.ltb_spec (length buf) (length (point2oct pt (form_of f)))); [reflexivity|lia].
Qed.

(* "A point written into a buffer that is large enough reads back from it" is
   false: with one byte to spare every finite point in compressed form is
   refused. *)
Theorem larger_buffer_refuted x y buf :
  coords x y -> length buf = S (S flen) ->
  exists out, serialize_raw (Aff x y) Autonomous buf = Val out /\ deserialize out = Thrown.
Proof.
  intros H L. unfold OsslGroupModel.serialize_raw. cbn [form_of].
  rewrite point2oct_len, L.
  destruct (Nat.ltb_spec (S (S flen)) (S flen)); [lia|].
  replace (S (S flen) - S flen)%nat with 1%nat by lia. eexists. split; [reflexivity|].
  assert (N : Nat.eqb (length (be_bytes flen x ++ [0])) flen = false).
  { apply Nat.eqb_neq. rewrite app_length, be_len. cbn [length]. lia. }
  cbn [OsslGroupModel.point2oct repeat app].
  rewrite deserialize_whole by (destruct (Z.odd y); lia).
  unfold OsslGroupModel.oct2point. rewrite N.
  destruct (Z.odd y); reflexivity.
Qed.

(* Everything accepted is a point of the curve. *)
Theorem deserialize_valid buf pt :
  Forall (fun b => 0 <= b) buf -> deserialize buf = Val pt -> valid pt.
Proof.
  intros Hb. unfold OsslGroupModel.deserialize.
  set (n := match buf with [] => 1%nat | b :: _ => if b =? 0 then 1%nat else length buf end).
  destruct (Nat.ltb (length buf) n); [discriminate|].
  assert (V : forall l, Forall (fun b => 0 <= b) l -> 0 <= be_value l).
  { intros l Hl. unfold be_value. apply Forall_rev in Hl.
    induction Hl as [|a l' Ha _ IH]; cbn [le_value]; lia. }
  assert (Hf : Forall (fun b => 0 <= b) (firstn n buf)).
  { rewrite <- (firstn_skipn n buf) in Hb. apply Forall_app in Hb. apply Hb. }
  revert Hf. generalize (firstn n buf). clear Hb n. intros l Hl.
  unfold OsslGroupModel.oct2point. destruct l as [|tag body]; [discriminate|].
  inversion_clear Hl as [|? ? _ Hbody].
  set (form := if Z.odd tag then tag - 1 else tag).
  destruct (form =? 0).
  { destruct (Z.odd tag); [discriminate|]. destruct body; [|discriminate].
    intros Q. injection Q as <-. exact I. }
  destruct (form =? 2).
  { destruct (Nat.eqb (length body) flen); [|discriminate]. cbv zeta.
    destruct (Z.ltb_spec (be_value body) p) as [B|B]; [|discriminate].
    destruct (lift (be_value body) (Z.odd tag)) as [y|] eqn:E; [|discriminate].
    intros Q. injection Q as <-. apply lift_sound in E; [exact E|]. split; [auto|exact B]. }
  destruct ((form =? 4) || (form =? 6)); [|discriminate].
  destruct ((form =? 4) && Z.odd tag); [discriminate|].
  destruct (Nat.eqb (length body) (flen + flen)); [|discriminate]. cbv zeta.
  assert (Hs : Forall (fun b => 0 <= b) (firstn flen body) /\
               Forall (fun b => 0 <= b) (skipn flen body)).
  { apply Forall_app. rewrite firstn_skipn. exact Hbody. }
  destruct (Z.ltb_spec (be_value (firstn flen body)) p) as [B|B]; [|discriminate].
  destruct (Z.ltb_spec (be_value (skipn flen body)) p) as [B'|B']; [|discriminate].
  cbn [andb].
  destruct ((form =? 6) && negb (Bool.eqb (Z.odd tag) (Z.odd (be_value (skipn flen body)))));
    [discriminate|].
  destruct (on_curve (be_value (firstn flen body)) (be_value (skipn flen body))) eqn:O;
    [|discriminate].
  intros Q. injection Q as <-. destruct Hs as (H1 & H2).
  split; [split; [auto|exact B]|]. split; [split; [auto|exact B']|exact O].
Qed.

(* An empty buffer is read out of bounds. *)
Theorem deserialize_empty_refuted : exists buf, deserialize buf = OutOfBounds.
Proof. exists []. reflexivity. Qed.
(* Only the empty one. *)
Theorem deserialize_bounds b buf : deserialize (b :: buf) <> OutOfBounds.
Proof.
  destruct (Z.eq_dec b 0) as [->|H]; [rewrite deserialize_zero; discriminate|].
  rewrite deserialize_whole by exact H. destruct (oct2point (b :: buf)); discriminate.
Qed.
(* "A point has one encoding in a format" is false: whatever follows a zero byte
   is ignored. *)
Theorem deserialize_malleable_refuted :
  exists buf buf', length buf = length buf' /\ buf <> buf' /\
    deserialize buf = Val Inf /\ deserialize buf' = Val Inf.
Proof. exists [0; 1], [0; 2]. split; [reflexivity|]. split; [discriminate|]. split; reflexivity. Qed.

(* ---- Hashing ---- *)
Variable bits : Z.
Variable is_sm2 : bool.
Variable hash_xof : algo -> Z -> bytes -> bytes.
Variable hash_sm3 : bytes -> bytes.
Variable guard : nat.
Notation select := (select bits is_sm2).
Notation rehash := (rehash bits hash_xof hash_sm3).
Notation hash_to_curve := (hash_to_curve p lift bits is_sm2 hash_xof hash_sm3 guard).

(* The t-th candidate: the text hashed t+1 times, as an integer modulo p. *)
Definition candidate (a : algo) (str : bytes) (t : nat) : Z :=
  be_value (Nat.iter (S t) (rehash a) str) mod p.

Lemma iter_shift (a : algo) t b :
  Nat.iter t (rehash a) (rehash a b) = rehash a (Nat.iter t (rehash a) b).
Proof. induction t as [|t IH]; [reflexivity|]. cbn [Nat.iter nat_rect]. f_equal. exact IH. Qed.

Lemma try_spec a g : forall str,
  match try p lift bits hash_xof hash_sm3 a g (rehash a str) with
  | Val q => exists t x y, (t < g)%nat /\ x = candidate a str t /\ q = Aff x y /\
               lift x false = Some y /\
               forall u, (u < t)%nat -> lift (candidate a str u) false = None
  | Thrown => forall u, (u < g)%nat -> lift (candidate a str u) false = None
  | _ => False
  end.
Proof.
  induction g as [|g IH]; intros str; cbn [try].
  - intros u Hu. lia.
  - cbv zeta. destruct (lift (be_value (rehash a str) mod p) false) as [y|] eqn:E.
    + exists 0%nat, (be_value (rehash a str) mod p), y.
      split; [lia|]. split; [reflexivity|]. split; [reflexivity|]. split; [exact E|].
      intros u Hu. lia.
    + assert (Sh : forall u, candidate a (rehash a str) u = candidate a str (S u)).
      { intros u. unfold candidate. do 2 f_equal. rewrite iter_shift. reflexivity. }
      specialize (IH (rehash a str)).
      destruct (try p lift bits hash_xof hash_sm3 a g (rehash a (rehash a str))) as [q| | |];
        try exact IH.
      * destruct IH as (t & x & y & Ht & Hx & Hq & Hl & Hn).
        exists (S t), x, y. split; [lia|]. split; [rewrite Hx; apply Sh|].
        split; [exact Hq|]. split; [exact Hl|].
        intros [|u] Hu; [exact E|]. rewrite <- Sh. apply Hn. lia.
      * intros [|u] Hu; [exact E|]. rewrite <- Sh. apply IH. lia.
Qed.

(* HashToCurve gives the first candidate that is an x-coordinate, with the y
   chosen by parity: a point of the curve. *)
Theorem hash_to_curve_correct st str dst q :
  hash_to_curve st str dst = Val q ->
  valid q /\ exists a t x y, select st = Val a /\ (t < guard)%nat /\
    x = candidate a str t /\ q = Aff x y /\ lift x false = Some y /\
    forall u, (u < t)%nat -> lift (candidate a str u) false = None.
Proof.
  unfold OsslGroupModel.hash_to_curve. destruct (select st) as [a| | |]; try discriminate.
  cbn [bind]. intros H. assert (T := try_spec a guard str). rewrite H in T.
  destruct T as (t & x & y & Ht & Hx & Hq & Hl & Hn). split.
  - subst q. cbn [valid]. apply (lift_sound x false); [|exact Hl].
    subst x. unfold candidate. apply Z.mod_pos_bound. lia.
  - exists a, t, x, y. auto 10.
Qed.

(* It throws exactly for a refused strategy or when no candidate is good. *)
Theorem hash_to_curve_throws st str dst :
  hash_to_curve st str dst = Thrown <->
  match select st with
  | Val a => forall u, (u < guard)%nat -> lift (candidate a str u) false = None
  | _ => True
  end.
Proof.
  unfold OsslGroupModel.hash_to_curve.
  destruct (select st) as [a| | |] eqn:S; cbn [bind].
  - assert (T := try_spec a guard str).
    destruct (try p lift bits hash_xof hash_sm3 a guard (rehash a str)) as [q| | |].
    + split; [discriminate|]. intros H. destruct T as (t & x & y & Ht & -> & _ & Hl & _).
      rewrite H in Hl by exact Ht. discriminate.
    + split; auto.
    + contradiction.
    + contradiction.
  - split; auto.
  - destruct st; cbn in S; destruct (bits <=? 256), is_sm2; discriminate.
  - destruct st; cbn in S; destruct (bits <=? 256), is_sm2; discriminate.
Qed.

(* Which strategies are refused, and what the others hash with. *)
Theorem hash_strategies str dst :
  hash_to_curve TryRehash_SHA2 str dst = Thrown /\
  (is_sm2 = false -> hash_to_curve TryRehash_SM str dst = Thrown) /\
  hash_to_curve StrAutonomous str dst = hash_to_curve TryRehash_BLAKE3 str dst /\
  forall st q, hash_to_curve st str dst = Val q ->
    exists t y, q = Aff (be_value (Nat.iter (S t)
      (match st with
       | TryRehash_SM => hash_sm3
       | TryRehash_SHA3 => hash_xof SHAKE128 ((bits + 7) / 8)
       | _ => hash_xof BLAKE3 ((bits + 7) / 8)
       end) str) mod p) y /\ (t < guard)%nat.
Proof.
  split; [reflexivity|]. split.
  { intros H. unfold OsslGroupModel.hash_to_curve, OsslGroupModel.select. rewrite H. reflexivity. }
  split; [reflexivity|]. intros st q H.
  apply hash_to_curve_correct in H.
  destruct H as (_ & a & t & x & y & S & Ht & Hx & Hq & _). exists t, y.
  split; [|exact Ht]. rewrite Hq, Hx. unfold candidate, OsslGroupModel.select in *.
  destruct st; try discriminate.
  - destruct (bits <=? 256); injection S as <-; reflexivity.
  - destruct is_sm2; [|discriminate]. injection S as <-. reflexivity.
  - injection S as <-. reflexivity.
  - injection S as <-. reflexivity.
Qed.

(* "Different domain tags separate" is false: the tag is not used. *)
Theorem hash_tag_refuted st str dst dst' :
  hash_to_curve st str dst = hash_to_curve st str dst'.
Proof. reflexivity. Qed.

End Curve.

(* "For curves over 256 bits the SHA-3 strategy hashes with SHAKE256" is false:
   SHAKE256 is selected and SHAKE128 is run. *)
Theorem shake256_refuted :
  exists bits st a, select bits false st = Val SHAKE256 /\ a = SHAKE256 /\
    forall xof xof' sm3 b, (forall n m, xof SHAKE128 n m = xof' SHAKE128 n m) ->
      rehash bits xof sm3 a b = rehash bits xof' sm3 a b.
Proof.
  exists 384, TryRehash_SHA3, SHAKE256. split; [reflexivity|]. split; [reflexivity|].
  intros xof xof' sm3 b H. cbn [rehash]. apply H.
Qed.

(* ---- The hypotheses can be met: y^2 = x^3 + x + 1 modulo 23 ---- *)
Definition on23 (x y : Z) : bool := (y * y - (x * x * x + x + 1)) mod 23 =? 0.
Definition range23 : list Z := map Z.of_nat (seq 0 23).
Definition lift23 (x : Z) (b : bool) : option Z :=
  find (fun y => on23 x y && Bool.eqb (Z.odd y) b) range23.
Lemma range23_in z : 0 <= z < 23 -> In z range23.
Proof.
  intros H. unfold range23. apply in_map_iff. exists (Z.to_nat z).
  split; [lia|]. apply in_seq. lia.
Qed.
Example lift23_sound x b y : 0 <= x < 23 -> lift23 x b = Some y -> coords 23 on23 x y.
Proof.
  intros Hx H. apply find_some in H. destruct H as (H & C). apply andb_prop in C.
  split; [exact Hx|]. split; [|apply C].
  unfold range23 in H. apply in_map_iff in H. destruct H as (n & <- & H).
  apply in_seq in H. lia.
Qed.
Example lift23_complete x y : coords 23 on23 x y -> lift23 x (Z.odd y) = Some y.
Proof.
  intros (Hx & Hy & Hc).
  assert (K : forallb (fun x => forallb (fun y => negb (on23 x y) ||
     match lift23 x (Z.odd y) with Some z => z =? y | None => false end) range23) range23 = true)
    by (vm_compute; reflexivity).
  rewrite forallb_forall in K. specialize (K x (range23_in x Hx)).
  rewrite forallb_forall in K. specialize (K y (range23_in y Hy)).
  rewrite Hc in K. cbn [negb orb] in K.
  destruct (lift23 x (Z.odd y)); [|discriminate]. apply Z.eqb_eq in K. congruence.
Qed.
Example roundtrip23 :
  coords 23 on23 3 10 /\
  deserialize 23 2 on23 lift23 (serialize 2 (Aff 3 10) Autonomous) = Val (Aff 3 10) /\
  serialize 2 (Aff 3 10) X962Hybrid = [6; 0; 3; 0; 10] /\
  hash_to_curve 23 lift23 256 false (fun _ _ b => 1 :: b) (fun b => b) 5 StrAutonomous [1] [] =
    Val (Aff 4 0).
Proof. split; [repeat split; lia|]. repeat split; vm_compute; reflexivity. Qed.

Print Assumptions buffer_roundtrip.
Print Assumptions serialize_format.
Print Assumptions serialize_injective.
Print Assumptions fixed_width_roundtrip.
Print Assumptions serialize_raw_short.
Print Assumptions larger_buffer_refuted.
Print Assumptions deserialize_valid.
Print Assumptions deserialize_empty_refuted.
Print Assumptions deserialize_bounds.
Print Assumptions deserialize_malleable_refuted.
Print Assumptions hash_to_curve_correct.
Print Assumptions hash_to_curve_throws.
Print Assumptions hash_strategies.
Print Assumptions hash_tag_refuted.
Print Assumptions shake256_refuted.
