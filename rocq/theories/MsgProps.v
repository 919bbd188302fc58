From Coq Require Import ZArith Arith Bool List Lia.
From Verif Require Import LinCodeModel MsgModel MsgProof.
Import ListNotations.
Open Scope Z_scope.

(** Property C105, for the model of MsgModel.v. *)

(** A value the C++ type can hold, with containers of fewer than 2^32 elements; see [ok]. *)
Definition good (v : var) : Prop := ok (projT1 v) (projT2 v).

Definition bytes_of (vs : list var) : list Z := cat (flat_map var_writes vs).

Lemma writable_vars : forall vs, Forall good vs -> writable (flat_map var_writes vs).
Proof.
  intros vs H. induction H as [|v vs Hv H IH]; cbn [flat_map]; [constructor|].
  apply Forall_app. split; [|exact IH]. apply writable_writes. apply (value_ok _ _ Hv).
Qed.

Lemma bytes_cons : forall v vs, bytes_of (v :: vs) = enc (to_obj (projT1 v) (projT2 v)) ++ bytes_of vs.
Proof. intros v vs. unfold bytes_of. cbn [flat_map]. rewrite cat_app. reflexivity. Qed.

Lemma deserialize_bytes : forall vs extra, Forall good vs ->
  deserialize_from (map (@projT1 ty den) vs) (bytes_of vs ++ extra) = Some (vs, extra).
Proof.
  intros vs extra H. induction H as [|[t v] vs Hv H IH]; [reflexivity|].
  rewrite bytes_cons, <- app_assoc. destruct (value_ok t v Hv) as [Hw Hc].
  cbn [map deserialize_from projT1 projT2].
  rewrite unpack_enc by exact Hw. rewrite Hc, IH. reflexivity.
Qed.

(** C105: what SerializeVars writes, DeserializeVars and DeserializeVarsTo read back: any
    number of variables of any supported types, whatever follows in the buffer; the
    offset DeserializeVarsTo returns is the number of bytes written. *)
Theorem serializer_round_trip :
  forall vs, Forall good vs ->
  exists bytes, serialize_vars vs = Val bytes /\
    forall extra,
      deserialize_vars (map (@projT1 ty den) vs) (bytes ++ extra) = Some vs /\
      deserialize_vars_to (map (@projT1 ty den) vs) (bytes ++ extra) = Some (vs, len bytes).
Proof.
  intros vs H. exists (bytes_of vs). split.
  - unfold serialize_vars. rewrite stream_write_val by (apply writable_vars; exact H). reflexivity.
  - intro extra. unfold deserialize_vars, deserialize_vars_to. rewrite deserialize_bytes by exact H.
    rewrite len_app. split; [reflexivity|]. do 2 f_equal. lia.
Qed.

(** C105: the single variable form. *)
Theorem serializer_round_trip_one :
  forall t (v : den t) extra, ok t v ->
  exists bytes, serialize_vars [existT den t v] = Val bytes /\ deserialize_var t (bytes ++ extra) = Some v.
Proof.
  intros t v extra H. exists (enc (to_obj t v)). destruct (value_ok t v H) as [Hw Hc]. split.
  - unfold serialize_vars. rewrite stream_write_val.
    + cbn [flat_map]. rewrite app_nil_r. reflexivity.
    + cbn [flat_map]. rewrite app_nil_r. apply writable_writes. exact Hw.
  - unfold deserialize_var. rewrite unpack_enc by exact Hw. exact Hc.
Qed.

(** C105: SerializeVarsTo: the size it announces for a null buffer is the size of what
    SerializeVars writes; with a buffer at least that large it writes the same bytes at
    its beginning, returns their number and leaves the rest alone; with a smaller one it
    throws, and never writes outside the buffer. *)
Theorem serializer_sizes :
  forall vs, Forall good vs ->
  exists bytes, serialize_vars vs = Val bytes /\ serialize_size vs = Val (len bytes) /\
    (forall buf, (length bytes <= length buf)%nat ->
       serialize_vars_to buf vs = (bytes ++ skipn (length bytes) buf, Val (length bytes))) /\
    (forall buf, (length buf < length bytes)%nat ->
       snd (serialize_vars_to buf vs) = Thrown /\ length (fst (serialize_vars_to buf vs)) = length buf).
Proof.
  intros vs H. pose proof (writable_vars vs H) as Hw. exists (bytes_of vs).
  split; [unfold serialize_vars; rewrite stream_write_val by exact Hw; reflexivity|].
  split; [unfold serialize_size; rewrite shadow_write_val by exact Hw; f_equal; lia|].
  split.
  - intros buf Hl. unfold serialize_vars_to.
    change buf with ([] ++ buf) at 1. change 0%nat with (length (@nil Z)).
    rewrite fixed_write_fits by assumption. reflexivity.
  - intros buf Hl. unfold serialize_vars_to. split.
    + apply fixed_write_short; [exact Hw|lia|]. unfold bytes_of in Hl. lia.
    + apply fixed_write_length. lia.
Qed.

(** C105: writing into a caller's buffer stays inside it for every value, good or not. *)
Theorem serializer_never_overflows :
  forall buf vs, length (fst (serialize_vars_to buf vs)) = length buf.
Proof. intros buf vs. apply fixed_write_length. lia. Qed.

(** C105: a serialisation that was cut short anywhere is rejected. *)
Theorem serializer_truncated :
  forall vs bytes p x, Forall good vs -> serialize_vars vs = Val bytes -> bytes = p ++ x -> x <> [] ->
  deserialize_vars (map (@projT1 ty den) vs) p = None.
Proof.
  intros vs bytes p x H Hs Hp Hx.
  assert (Hb : bytes = bytes_of vs).
  { unfold serialize_vars in Hs. rewrite stream_write_val in Hs by (apply writable_vars; exact H).
    injection Hs as <-. reflexivity. }
  rewrite Hb in Hp. clear Hs Hb bytes.
  unfold deserialize_vars. enough (deserialize_from (map (@projT1 ty den) vs) p = None) as -> by reflexivity.
  revert p Hp. induction H as [|[t v] vs Hv H IH]; intros p Hp.
  - unfold bytes_of in Hp. cbn [flat_map cat] in Hp. symmetry in Hp. apply app_eq_nil in Hp. tauto.
  - rewrite bytes_cons in Hp. destruct (value_ok t v Hv) as [Hw Hc].
    cbn [map deserialize_from projT1 projT2] in *.
    apply app_eq_app in Hp. destruct Hp as [l [[He Hx']|[He Hx']]].
    + destruct l as [|b l].
      * rewrite app_nil_r in He. subst p. rewrite <- (app_nil_r (enc _)). rewrite unpack_enc by exact Hw. rewrite Hc.
        rewrite IH; [reflexivity|]. cbn [app] in Hx'. symmetry. exact Hx'.
      * rewrite (unpack_prefix _ p (b :: l) Hw He); [reflexivity|discriminate].
    + rewrite He, unpack_enc by exact Hw. rewrite Hc, IH; [reflexivity|exact Hx'].
Qed.

(** C105: two lists of values of the same types with the same serialisation, or one a
    prefix of the other's, are equal. *)
Theorem serializer_injective :
  forall vs ws bytes extra, Forall good vs -> Forall good ws -> map (@projT1 ty den) vs = map (@projT1 ty den) ws ->
  serialize_vars vs = Val bytes -> serialize_vars ws = Val (bytes ++ extra) -> vs = ws /\ extra = [].
Proof.
  intros vs ws bytes extra Hv Hw Ht Hs1 Hs2.
  unfold serialize_vars in *. rewrite stream_write_val in Hs1, Hs2 by (apply writable_vars; assumption).
  injection Hs1 as Hs1. injection Hs2 as Hs2. cbn [app] in *.
  pose proof (deserialize_bytes vs extra Hv) as D1. pose proof (deserialize_bytes ws [] Hw) as D2.
  unfold bytes_of in D1, D2. rewrite Hs1 in D1. rewrite Hs2, app_nil_r in D2. rewrite Ht in D1.
  rewrite D1 in D2. injection D2 as -> ->. split; reflexivity.
Qed.

(** C105: an integer read back as a type it does not fit is refused, never truncated. *)
Theorem serializer_no_truncation :
  forall t bits (z : Z) bytes, t = TU bits \/ t = TI bits ->
  forall v : den t, ok t v -> z = (match t return den t -> Z with TU _ => fun v => v | TI _ => fun v => v | _ => fun _ => 0 end) v ->
  serialize_vars [existT den t v] = Val bytes ->
  forall k extra,
    deserialize_var (TU k) (bytes ++ extra) = (if (0 <=? z) && (z <? 2 ^ k) then Some z else None) /\
    deserialize_var (TI k) (bytes ++ extra) = (if (- 2 ^ (k - 1) <=? z) && (z <? 2 ^ (k - 1)) then Some z else None).
Proof.
  intros t bits z bytes Ht v Hv Hz Hs k extra. destruct (value_ok t v Hv) as [Hw _].
  assert (Ho : to_obj t v = OInt z) by (destruct Ht; subst t z; reflexivity).
  unfold serialize_vars in Hs. rewrite stream_write_val in Hs.
  - cbn [flat_map app] in Hs. rewrite app_nil_r in Hs. injection Hs as <-.
    unfold deserialize_var, var_writes. cbn [projT1 projT2]. fold (enc (to_obj t v)).
    rewrite unpack_enc by exact Hw. rewrite Ho. split; reflexivity.
  - cbn [flat_map]. rewrite app_nil_r. apply writable_writes. exact Hw.
Qed.

(** C105: a buffer of 2^32 bytes or more is refused by all three forms. *)
Theorem serializer_too_large :
  forall l buf, 2 ^ 32 <= len l ->
  serialize_vars [existT den TBuffer l] = Thrown /\ serialize_size [existT den TBuffer l] = Thrown /\
  serialize_vars_to buf [existT den TBuffer l] = (buf, Thrown).
Proof.
  intros l buf H. unfold serialize_vars, serialize_size, serialize_vars_to, var_writes.
  cbn [flat_map projT1 projT2 to_obj writes]. apply Z.ltb_ge in H. rewrite H. repeat split.
Qed.

(** C105: HeadSizeOfStr and HeadSizeOfArray are the sizes of the headers written. *)
Theorem serializer_head_sizes :
  forall n, 0 <= n < 2 ^ 32 ->
  len (str_head n) = head_size_of_str n /\ len (arr_head n) = head_size_of_array n.
Proof.
  intros n Hn. unfold str_head, head_size_of_str, arr_head, head_size_of_array, len. split;
  repeat match goal with |- context [if ?c then _ else _] => destruct c end; reflexivity.
Qed.

(** C105: the halves of a 128 bit integer, DecomposeInt128 then MakeInt128. *)
Theorem int128_halves :
  (forall z, - 2 ^ 127 <= z < 2 ^ 127 -> make_int128 (fst (decompose z)) (snd (decompose z)) = z) /\
  (forall z, 0 <= z < 2 ^ 128 -> make_uint128 (fst (decompose z)) (snd (decompose z)) = z).
Proof.
  split; intros z Hz; cbn [decompose fst snd].
  - rewrite make_int128_ok; [|apply halves_i; exact Hz|apply Z.mod_pos_bound; reflexivity].
    rewrite Z.mul_comm. symmetry. apply Z.div_mod. discriminate.
  - rewrite make_uint128_ok; [|apply halves_u; exact Hz|apply Z.mod_pos_bound; reflexivity].
    rewrite Z.mul_comm. symmetry. apply Z.div_mod. discriminate.
Qed.

(** ** A concrete case *)

Definition demo : list var :=
  [existT den (TI 64) (-12345); existT den TBool true; existT den TString [104; 105];
   existT den (TVec (TPair TI128 (TU 16))) [(- 2 ^ 100 - 7, 300); (5, 2)]; existT den TBuffer [1; 2; 3]].

Example demo_good : Forall good demo.
Proof.
  assert (Hl : forall z, 0 <= z < 1000 -> z < 2 ^ 32) by (intros z Hz; change (2 ^ 32) with 4294967296; lia).
  unfold demo. constructor; [|constructor; [|constructor; [|constructor; [|constructor; [|constructor]]]]];
    unfold good; cbn [projT1 projT2].
  - unfold ok. change (2 ^ (64 - 1)) with 9223372036854775808. lia.
  - exact I.
  - unfold ok. apply Hl. unfold len. cbn [length]. lia.
  - cbn [ok]. split; [apply Hl; unfold len; cbn [length]; lia|].
    constructor; [|constructor; [|constructor]]; cbn [fst snd];
    change (2 ^ 127) with 170141183460469231731687303715884105728; change (2 ^ 16) with 65536;
    change (2 ^ 100) with 1267650600228229401496703205376; lia.
  - unfold ok. apply Hl. unfold len. cbn [length]. lia.
Qed.

Example demo_bytes :
  serialize_vars demo
  = Val [209; 207; 199; 195; 162; 104; 105; 146; 146; 146; 211; 255; 255; 255; 239; 255; 255; 255; 255;
         207; 255; 255; 255; 255; 255; 255; 255; 249; 205; 1; 44; 146; 146; 0; 5; 2; 196; 3; 1; 2; 3].
Proof. vm_compute. reflexivity. Qed.

Example demo_back :
  exists bytes, serialize_vars demo = Val bytes /\ deserialize_vars (map (@projT1 ty den) demo) (bytes ++ [9]) = Some demo.
Proof.
  destruct (serializer_round_trip demo demo_good) as [bytes [H1 H2]]. exists bytes. split; [exact H1|apply H2].
Qed.

Print Assumptions serializer_round_trip.
Print Assumptions serializer_round_trip_one.
Print Assumptions serializer_sizes.
Print Assumptions serializer_never_overflows.
Print Assumptions serializer_truncated.
Print Assumptions serializer_injective.
Print Assumptions serializer_no_truncation.
Print Assumptions serializer_too_large.
Print Assumptions serializer_head_sizes.
Print Assumptions int128_halves.
