(* Properties of the Ristretto255 group. *)
From Coq Require Import ZArith List Bool Lia.
From Verif Require Import LinCodeModel EcMul RistrettoModel.
Import ListNotations.
Local Open Scope Z_scope.

Section Group.
Variable G : Type.
Variable on : G -> Prop.
Variables (e : G) (op : G -> G -> G) (iv : G -> G).
Hypothesis on_e : on e.
Hypothesis on_op : forall x y, on x -> on y -> on (op x y).
Hypothesis on_iv : forall x, on x -> on (iv x).
Hypothesis e_l : forall x, on x -> op e x = x.
Hypothesis comm : forall x y, on x -> on y -> op x y = op y x.
Hypothesis assoc : forall x y z, on x -> on y -> on z -> op (op x y) z = op x (op y z).
Hypothesis iv_r : forall x, on x -> op x (iv x) = e.
Notation zmul := (zmul G e op iv).
Variable order : Z.
Hypothesis order_range : 0 < order <= 2 ^ 255.
Hypothesis order_kills : forall g, on g -> zmul order g = e.
Variable base : G.
Hypothesis base_on : on base.

(* The encoding: every element has one, of 32 bytes, and no other bytes are
   accepted; the neutral element's is zero. *)
Variable enc : G -> bytes.
Hypothesis enc_len : forall g, on g -> length (enc g) = 32%nat.
Hypothesis enc_inj : forall g h, on g -> on h -> enc g = enc h -> g = h.
Hypothesis enc_e : enc e = zeros.
Definition encodes (b : bytes) (g : G) : Prop := on g /\ b = enc g.
Definition invalid (b : bytes) : Prop := forall g, ~ encodes b g.

(* The library's contract. *)
Variable L : library.
Notation lib_add := (lib_add L).
Notation lib_sub := (lib_sub L).
Notation lib_valid := (lib_valid L).
Notation lib_mul := (lib_mul L).
Notation lib_mul_base := (lib_mul_base L).
Hypothesis add_ok : forall p q g h, encodes p g -> encodes q h -> lib_add p q = Some (enc (op g h)).
Hypothesis add_bad : forall p q, invalid p \/ invalid q -> lib_add p q = None.
Hypothesis sub_ok : forall p q g h, encodes p g -> encodes q h ->
  lib_sub p q = Some (enc (op g (iv h))).
Hypothesis sub_bad : forall p q, invalid p \/ invalid q -> lib_sub p q = None.
Hypothesis valid_ok : forall b, lib_valid b = true <-> exists g, encodes b g.
Hypothesis mul_ok : forall k p g, 0 <= k < 2 ^ 255 -> encodes p g -> zmul k g <> e ->
  lib_mul k p = Some (enc (zmul k g)).
Hypothesis mul_neutral : forall k p g, 0 <= k < 2 ^ 255 -> encodes p g -> zmul k g = e ->
  lib_mul k p = None.
Hypothesis mul_bad : forall k p, invalid p -> lib_mul k p = None.
Hypothesis mul_base_ok : forall k, 0 <= k < 2 ^ 255 -> lib_mul_base k = enc (zmul k base).

Notation add := (add L).
Notation add_inplace := (add_inplace L).
Notation sub := (sub L).
Notation sub_inplace := (sub_inplace L).
Notation double := (double L).
Notation double_inplace := (double_inplace L).
Notation mul := (mul L order).
Notation mul_inplace := (mul_inplace L order).
Notation mul_base := (mul_base L order).
Notation mul_double_base := (mul_double_base L order).
Notation negate := (negate L).
Notation negate_inplace := (negate_inplace L).
Notation deserialize := (deserialize L).

Lemma zeros_of b : length b = 32%nat -> is_infinity b = true -> b = zeros.
Proof.
  unfold is_infinity, zeros. intros <-. induction b as [|x b IH]; [reflexivity|].
  cbn [forallb length repeat]. rewrite andb_true_iff, Z.eqb_eq. intros [-> H].
  f_equal. apply IH. exact H.
Qed.

Lemma encodes_zeros : encodes zeros e.
Proof. split; [exact on_e|symmetry; exact enc_e]. Qed.

Lemma infinity_e p g : encodes p g -> is_infinity p = true -> p = zeros /\ g = e.
Proof.
  intros (Hg & ->) I. assert (Z := zeros_of _ (enc_len g Hg) I). split; [exact Z|].
  apply enc_inj; auto. rewrite enc_e. exact Z.
Qed.

(* IsInfinity is the neutral element. *)
Theorem is_infinity_iff p g : encodes p g -> (is_infinity p = true <-> g = e).
Proof.
  intros H. split.
  - intros I. apply (infinity_e p g H I).
  - intros ->. destruct H as (_ & ->). rewrite enc_e. reflexivity.
Qed.

(* Add, Sub, Double and the in-place forms. *)
Theorem rist_group_ops p q g h :
  encodes p g -> encodes q h ->
  (exists r, add p q = Val r /\ add_inplace p q = Val r /\ encodes r (op g h)) /\
  (exists r, sub p q = Val r /\ sub_inplace p q = Val r /\ encodes r (op g (iv h))) /\
  (exists r, double p = Val r /\ double_inplace p = Val r /\ encodes r (zmul 2 g)).
Proof.
  intros Hp Hq. assert (Hg := proj1 Hp). assert (Hh := proj1 Hq).
  unfold RistrettoModel.add, RistrettoModel.add_inplace, RistrettoModel.sub,
    RistrettoModel.sub_inplace, RistrettoModel.double, RistrettoModel.double_inplace,
    RistrettoModel.add.
  rewrite (add_ok _ _ _ _ Hp Hq), (sub_ok _ _ _ _ Hp Hq), (add_ok _ _ _ _ Hp Hp).
  cbn [enforce].
  split; [eexists; repeat split; auto|]. split; [eexists; repeat split; auto|].
  eexists. split; [reflexivity|]. split; [reflexivity|].
  replace 2 with (1 + 1) by lia.
  rewrite (zmul_add G on e op iv) by auto. rewrite !(zmul_1 G on e op iv) by auto.
  split; auto.
Qed.

(* They refuse bytes that encode nothing. *)
Theorem group_ops_invalid p q :
  invalid p \/ invalid q ->
  add p q = Thrown /\ add_inplace p q = Thrown /\ sub p q = Thrown /\ sub_inplace p q = Thrown.
Proof.
  intros H. unfold RistrettoModel.add, RistrettoModel.add_inplace, RistrettoModel.sub,
    RistrettoModel.sub_inplace.
  rewrite add_bad, sub_bad by exact H. repeat split.
Qed.

Theorem rist_negate_correct p g :
  encodes p g ->
  exists r, negate p = Val r /\ negate_inplace p = Val r /\ encodes r (iv g).
Proof.
  intros H. assert (Hg := proj1 H).
  unfold RistrettoModel.negate, RistrettoModel.negate_inplace, RistrettoModel.sub.
  destruct (is_infinity p) eqn:I.
  - destruct (infinity_e p g H I) as (-> & ->). exists zeros.
    split; [reflexivity|]. split; [reflexivity|].
    replace (iv e) with e; [exact encodes_zeros|].
    rewrite <- (e_l (iv e)) by auto. symmetry. apply iv_r. exact on_e.
  - rewrite (sub_ok _ _ _ _ encodes_zeros H). eexists.
    split; [reflexivity|]. split; [reflexivity|].
    rewrite e_l by auto. split; auto.
Qed.

(* Multiplication by every integer. *)
Theorem rist_mul_correct p g s :
  encodes p g -> encodes (mul p s) (zmul s g) /\ mul_inplace p s = mul p s.
Proof.
  intros H. assert (Hg := proj1 H).
  assert (M : zmul (s mod order) g = zmul s g) by (apply (zmul_mod G on); auto; lia).
  assert (B : 0 <= s mod order < order) by (apply Z.mod_pos_bound; lia).
  unfold RistrettoModel.mul, RistrettoModel.mul_inplace.
  destruct (is_infinity p) eqn:I.
  - destruct (infinity_e p g H I) as (-> & ->).
    rewrite (zmul_e G on e op iv) by auto. split; [exact encodes_zeros|reflexivity].
  - split; [|destruct (lib_mul (s mod order) p); reflexivity].
    assert (D : zmul (s mod order) g = e \/ zmul (s mod order) g <> e).
    { assert (Hz : on (zmul (s mod order) g)) by (apply (zmul_on G on); auto).
      destruct (list_eq_dec Z.eq_dec (enc (zmul (s mod order) g)) (enc e)) as [E|E].
      - left. apply enc_inj; auto.
      - right. intros Q. apply E. rewrite Q. reflexivity. }
    rewrite <- M. destruct D as [D|D].
    + rewrite (mul_neutral _ _ g) by (auto; lia). rewrite D. exact encodes_zeros.
    + rewrite (mul_ok _ _ g) by (auto; lia). split; [|reflexivity].
      apply (zmul_on G on); auto.
Qed.

Theorem rist_mul_base_correct s : encodes (mul_base s) (zmul s base).
Proof.
  assert (B : 0 <= s mod order < order) by (apply Z.mod_pos_bound; lia).
  unfold RistrettoModel.mul_base. rewrite mul_base_ok by lia.
  rewrite (zmul_mod G on e op iv) by (auto; lia).
  split; [apply (zmul_on G on); auto|reflexivity].
Qed.

Theorem mul_double_base_correct s1 s2 p g :
  encodes p g ->
  exists r, mul_double_base s1 s2 p = Val r /\ encodes r (op (zmul s1 base) (zmul s2 g)).
Proof.
  intros H. unfold RistrettoModel.mul_double_base, RistrettoModel.add_inplace.
  assert (A := rist_mul_base_correct s1). destruct (rist_mul_correct p g s2 H) as (B & _).
  rewrite (add_ok _ _ _ _ A B). eexists. split; [reflexivity|].
  split; [|reflexivity]. apply on_op; [apply A|apply B].
Qed.

(* "Bytes that encode nothing are refused" is false of Mul and MulInplace: they
   answer infinity, for every scalar.  CopyPoint lets such bytes in. *)
Theorem mul_invalid_refuted p s :
  length p = 32%nat -> invalid p ->
  mul p s = zeros /\ encodes (mul p s) e /\ mul_inplace (copy_point p) s = zeros.
Proof.
  intros Hl H. assert (I : is_infinity p = false).
  { destruct (is_infinity p) eqn:I; [|reflexivity]. apply zeros_of in I; [|exact Hl].
    subst p. destruct (H e encodes_zeros). }
  unfold RistrettoModel.mul, RistrettoModel.mul_inplace, copy_point. rewrite I.
  rewrite mul_bad by exact H.
  split; [reflexivity|]. split; [exact encodes_zeros|reflexivity].
Qed.

(* Equality of bytes is equality of elements. *)
Theorem point_equal_iff p q g h :
  encodes p g -> encodes q h -> (point_equal p q = true <-> g = h).
Proof.
  intros (Hg & ->) (Hh & ->). unfold point_equal.
  destruct (list_eq_dec Z.eq_dec (enc g) (enc h)) as [E|E]; split; intros Q; auto.
  - discriminate.
  - subst. contradiction.
Qed.

(* DeserializePoint: never out of bounds, and accepts exactly the buffers that
   start with an encoding. *)
Theorem deserialize_iff buf p :
  deserialize buf = Val p <->
  (32 <= length buf)%nat /\ p = firstn 32 buf /\ exists g, encodes p g.
Proof.
  unfold RistrettoModel.deserialize, in_curve_group.
  destruct (Nat.ltb_spec (length buf) 32) as [Hl|Hl].
  - split; [discriminate|]. intros (H & _). lia.
  - split.
    + destruct (is_infinity (firstn 32 buf)) eqn:I.
      * cbn [orb]. cbv zeta. intros Q. assert (p = firstn 32 buf) as -> by congruence.
        split; [exact Hl|]. split; [reflexivity|].
        exists e. rewrite (zeros_of (firstn 32 buf)); [exact encodes_zeros| |exact I].
        rewrite firstn_length. lia.
      * cbn [orb]. destruct (lib_valid (firstn 32 buf)) eqn:V; [|discriminate].
        cbv zeta. intros Q. assert (p = firstn 32 buf) as -> by congruence.
        split; [exact Hl|]. split; [reflexivity|].
        apply valid_ok. exact V.
    + intros (_ & -> & E). apply valid_ok in E. rewrite E, orb_true_r. reflexivity.
Qed.

Theorem deserialize_total buf :
  deserialize buf = Thrown \/ exists p, deserialize buf = Val p.
Proof.
  unfold RistrettoModel.deserialize. destruct (Nat.ltb (length buf) 32); [auto|].
  destruct (in_curve_group L (firstn 32 buf)); eauto.
Qed.

(* Serialised into any buffer that is long enough, a point reads back, and the
   bytes after it are untouched. *)
Theorem serialize_roundtrip p g buf :
  encodes p g -> (32 <= length buf)%nat ->
  exists out, serialize_into p buf = Val out /\ length out = length buf /\
              skipn 32 out = skipn 32 buf /\ deserialize out = Val p.
Proof.
  intros H Hl. assert (Lp : length p = 32%nat).
  { destruct H as (Hg & ->). apply enc_len. exact Hg. }
  unfold serialize_into. destruct (Nat.ltb_spec (length buf) 32); [lia|].
  eexists. split; [reflexivity|].
  split; [rewrite app_length, skipn_length, Lp; lia|].
  split.
  - rewrite skipn_app, Lp, skipn_all2 by lia. reflexivity.
  - apply deserialize_iff. rewrite app_length, Lp. split; [lia|].
    split; [|exists g; exact H].
    rewrite firstn_app, Lp, firstn_all2 by lia. rewrite Nat.sub_diag.
    cbn [firstn]. rewrite app_nil_r. reflexivity.
Qed.

Theorem serialize_short p buf : (length buf < 32)%nat -> serialize_into p buf = Thrown.
Proof.
  intros H. unfold serialize_into. destruct (Nat.ltb_spec (length buf) 32); [reflexivity|lia].
Qed.

End Group.

(* ---- Hashing ---- *)

(* "Different domain tags separate" is false of the default strategy, for every
   hash function: the tag and the text are joined without a mark. *)
Theorem hash_domain_refuted :
  exists str dst str' dst', dst <> dst' /\ str <> str' /\
    forall sha from_hash reduce ro nu sc d1 d2 d3,
      hash_to_curve sha from_hash ro nu d1 d2 Other str dst =
      hash_to_curve sha from_hash ro nu d1 d2 Other str' dst' /\
      hash_to_scalar sha reduce sc d3 Other str dst =
      hash_to_scalar sha reduce sc d3 Other str' dst'.
Proof.
  exists [2; 3], [1], [3], [1; 2].
  split; [discriminate|]. split; [discriminate|]. intros. split; reflexivity.
Qed.

(* With tags of one length it holds if the hash is injective on the inputs. *)
Theorem hash_domain_same_length sha from_hash ro nu d1 d2 str dst str' dst' :
  (forall x y, from_hash (sha x) = from_hash (sha y) -> x = y) ->
  length dst = length dst' ->
  hash_to_curve sha from_hash ro nu d1 d2 Other str dst =
  hash_to_curve sha from_hash ro nu d1 d2 Other str' dst' ->
  dst = dst' /\ str = str'.
Proof.
  intros Inj L H. cbn [hash_to_curve] in H. apply Inj in H.
  revert dst' L H. induction dst as [|x dst IH]; intros [|y dst'] L H; try discriminate.
  - split; [reflexivity|exact H].
  - cbn [app length] in *. injection L as L. injection H as -> H.
    destruct (IH dst' L H) as (-> & ->). split; reflexivity.
Qed.

(* The named strategies use the tag given, or the default one if it is empty. *)
Theorem hash_named sha from_hash ro nu d1 d2 str dst :
  dst <> [] ->
  hash_to_curve sha from_hash ro nu d1 d2 StrRO str dst = ro str dst /\
  hash_to_curve sha from_hash ro nu d1 d2 StrNU str dst = nu str dst /\
  hash_to_curve sha from_hash ro nu d1 d2 StrRO str [] = ro str d1 /\
  hash_to_curve sha from_hash ro nu d1 d2 StrNU str [] = nu str d2.
Proof. intros H. destruct dst; [contradiction|]. repeat split. Qed.

Theorem hash_scalar_named sha reduce sc d3 str dst :
  dst <> [] ->
  hash_to_scalar sha reduce sc d3 StrScalar str dst = sc str dst /\
  hash_to_scalar sha reduce sc d3 StrScalar str [] = sc str d3.
Proof. intros H. destruct dst; [contradiction|]. split; reflexivity. Qed.

(* ---- The hypotheses can be met: the integers modulo 7, one byte and padding ---- *)

Definition op7 (a b : Z) : Z := (a + b) mod 7.
Definition iv7 (a : Z) : Z := (- a) mod 7.
Definition enc7 (a : Z) : bytes := a :: repeat 0 31.
Definition dec7 (b : bytes) : option Z :=
  match b with
  | x :: r => if (0 <=? x) && (x <? 7) then
                if list_eq_dec Z.eq_dec r (repeat 0 31) then Some x else None
              else None
  | [] => None
  end.
Definition lmul7 (k : Z) (p : bytes) : option bytes :=
  match dec7 p with
  | Some g => if (k * g) mod 7 =? 0 then None else Some (enc7 ((k * g) mod 7))
  | None => None
  end.

Definition bin7 (f : Z -> Z -> Z) (p q : bytes) : option bytes :=
  match dec7 p, dec7 q with Some g, Some h => Some (enc7 (f g h)) | _, _ => None end.
Definition lib7 : library :=
  {| lib_add := bin7 op7; lib_sub := bin7 (fun a b => op7 a (iv7 b));
     lib_valid := fun b => match dec7 b with Some _ => true | None => false end;
     lib_mul := lmul7; lib_mul_base := fun k => enc7 (k mod 7) |}.

Lemma zmul7 k a : 0 <= a < 7 -> zmul Z 0 op7 iv7 k a = (k * a) mod 7.
Proof.
  intros Ha.
  assert (N : forall n, nmul Z 0 op7 n a = (Z.of_nat n * a) mod 7).
  { induction n as [|n IH]; [reflexivity|].
    cbn [nmul]. rewrite IH. unfold op7.
    rewrite Z.add_mod_idemp_l by lia. f_equal. lia. }
  unfold zmul. rewrite N, N. destruct (Z.ltb_spec k 0).
  - unfold iv7. rewrite !Z2Nat.id by lia.
    rewrite <- Z.sub_0_l, Zminus_mod_idemp_r. f_equal. lia.
  - rewrite Z2Nat.id by lia. reflexivity.
Qed.

Lemma dec7_enc a : 0 <= a < 7 -> dec7 (enc7 a) = Some a.
Proof.
  intros H. unfold dec7, enc7.
  destruct (Z.leb_spec 0 a); [|lia]. destruct (Z.ltb_spec a 7); [|lia]. cbn [andb].
  destruct (list_eq_dec Z.eq_dec (repeat 0 31) (repeat 0 31)); [reflexivity|contradiction].
Qed.

Lemma dec7_some b a : dec7 b = Some a -> 0 <= a < 7 /\ b = enc7 a.
Proof.
  unfold dec7, enc7. destruct b as [|x r]; [discriminate|].
  destruct (Z.leb_spec 0 x); [|discriminate]. destruct (Z.ltb_spec x 7); [|discriminate].
  cbn [andb]. destruct (list_eq_dec Z.eq_dec r (repeat 0 31)) as [->|]; [|discriminate].
  intros Q. injection Q as <-. split; [lia|reflexivity].
Qed.

Example mul_instance s a :
  0 <= a < 7 -> mul lib7 7 (enc7 a) s = enc7 ((s * a) mod 7).
Proof.
  intros Ha.
  destruct (rist_mul_correct Z (fun g => 0 <= g < 7) 0 op7 iv7) with
    (order := 7) (enc := enc7) (L := lib7) (p := enc7 a) (g := a) (s := s)
    as ((_ & E) & _);
    try (unfold op7, iv7; intros; apply Z.mod_pos_bound; lia).
  - lia.
  - intros x Hx. unfold op7. apply Z.mod_small. lia.
  - intros x y _ _. unfold op7. f_equal. lia.
  - intros x y z _ _ _. unfold op7.
    rewrite Z.add_mod_idemp_l, Z.add_mod_idemp_r by lia. f_equal. lia.
  - intros x _. unfold op7, iv7. rewrite Z.add_mod_idemp_r by lia.
    replace (x + - x) with 0 by lia. reflexivity.
  - lia.
  - intros g Hg. rewrite zmul7 by exact Hg. rewrite Z.mul_comm. apply Z.mod_mul. lia.
  - reflexivity.
  - intros g h _ _ Q. unfold enc7 in Q. congruence.
  - reflexivity.
  - intros k p g _ H N. destruct H as (Hg & ->). rewrite zmul7 in * by exact Hg.
    cbn [RistrettoModel.lib_mul lib7]. unfold lmul7. rewrite dec7_enc by exact Hg.
    destruct (Z.eqb_spec ((k * g) mod 7) 0); [contradiction|reflexivity].
  - intros k p g _ H N. destruct H as (Hg & ->). rewrite zmul7 in * by exact Hg.
    cbn [RistrettoModel.lib_mul lib7]. unfold lmul7. rewrite dec7_enc by exact Hg. rewrite N. reflexivity.
  - split; [exact Ha|reflexivity].
  - rewrite E, zmul7 by exact Ha. reflexivity.
Qed.

(* Bytes that encode nothing there. *)
Example invalid_instance : dec7 (repeat 9 32) = None /\ mul lib7 7 (repeat 9 32) 3 = zeros.
Proof. split; vm_compute; reflexivity. Qed.

Print Assumptions is_infinity_iff.
Print Assumptions rist_group_ops.
Print Assumptions group_ops_invalid.
Print Assumptions rist_negate_correct.
Print Assumptions rist_mul_correct.
Print Assumptions rist_mul_base_correct.
Print Assumptions mul_double_base_correct.
Print Assumptions mul_invalid_refuted.
Print Assumptions point_equal_iff.
Print Assumptions deserialize_iff.
Print Assumptions deserialize_total.
Print Assumptions serialize_roundtrip.
Print Assumptions serialize_short.
Print Assumptions hash_domain_refuted.
Print Assumptions hash_domain_same_length.
Print Assumptions hash_named.
Print Assumptions hash_scalar_named.
