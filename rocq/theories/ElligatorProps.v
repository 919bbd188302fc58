(** C95: the map to Curve25519 is RFC 9380's Elligator 2.
    C96: EncodeToCurve and HashToCurve of Curve25519. *)
From Coq Require Import ZArith List Bool Lia Znumtheory PeanoNat.
From Verif Require Import LinCodeModel ZpLib SafePrimeModel SafePrimeProps EcField EcGroup ToyEcModel HashCurveModel HashFieldProof HashFieldProps SswuProof SswuProps ElligatorProof MontHashProof.
Import ListNotations.
Open Scope Z_scope.

(** ** RFC 9380, 6.7.1 with Z = 2 and J = A, K = 1: x1 = -A / (1 + 2 u^2); if g(x1) is a square then
    x = x1 and y is odd, else x = -x1 - A and y is even. *)
Definition mont_g (c : hctx) (x : Z) : Z := x * x * x + h_a c * (x * x) + x.
Definition elligator_spec (c : hctx) (u : Z) (P : point) : Prop :=
  let p := h_p c in let '(x, y) := P in
  0 <= x < p /\ 0 <= y < p /\ eqm p (y * y) (mont_g c x) /\
  exists x1, eqm p (x1 * (1 + 2 * u * u)) (- h_a c) /\
    (square p (mont_g c x1) /\ eqm p x x1 /\ (y = 0 \/ Z.odd y = true) \/ ~ square p (mont_g c x1) /\ eqm p x (- x1 - h_a c) /\ Z.odd y = false).

Theorem elligator_map c ubuf : g2_good c -> h_p c <= 256 ^ Z.of_nat (h_key c) -> ubuf <> [] -> Forall (fun z => 0 <= z < 256) ubuf ->
  exists x y, map_g2 c ubuf = Val (be_bytes (h_key c) x, be_bytes (h_key c) y) /\ elligator_spec c (be_value ubuf) (x, y).
Proof.
  intros G S N B. destruct (g2_ok c G (be_value ubuf) (be_value_nonneg _ B)) as (x & y & x1 & E & X & Y & X1 & C & D). exists x, y. split.
  - unfold map_g2. destruct ubuf as [|z l]; [congruence|]. cbn [length Nat.eqb]. rewrite E. cbn [bind]. unfold write_point. cbn [fst snd]. rewrite !pad_bytes_ok by lia. reflexivity.
  - cbn. split; [exact X|]. split; [exact Y|]. split; [exact C|]. exists x1. split; [exact X1|exact D].
Qed.
Theorem elligator_unique c u P Q : g2_good c -> elligator_spec c u P -> elligator_spec c u Q -> P = Q.
Proof.
  intros G SP SQ. pose proof G as (Hp & P8 & _). set (p := h_p c) in *. pose proof (prime_ge_2 p Hp) as P2.
  destruct P as [x y], Q as [x' y']. cbn in SP, SQ. fold p in SP, SQ.
  destruct SP as (X & Y & C & x1 & S1 & S2). destruct SQ as (X' & Y' & C' & x1' & S1' & S2').
  assert (E1 : eqm p x1 x1').
  { apply (eqm_prime_cancel p _ _ (1 + 2 * u * u) Hp); [|rewrite S1, S1'; reflexivity]. intros K. apply (xd_ne c G u). fold p. rewrite <- K. mring. }
  assert (SS : square p (mont_g c x1) <-> square p (mont_g c x1')).
  { assert (ER : eqm p (mont_g c x1) (mont_g c x1')) by (unfold mont_g; rewrite E1; reflexivity). unfold square. split; intros [w W]; exists w; rewrite W; [exact ER|symmetry; exact ER]. }
  assert (EX : x = x').
  { apply (small_eq p); auto. destruct S2 as [(Q & S2 & _)|(Q & S2 & _)], S2' as [(Q' & S2' & _)|(Q' & S2' & _)]; try tauto; rewrite S2, S2', E1; reflexivity. }
  subst x'. f_equal.
  assert (K : eqm p ((y - y') * (y + y')) 0) by (replace ((y - y') * (y + y')) with (y * y - y' * y') by ring; rewrite C, C'; apply eqm_eq; ring).
  assert (D : y = y' \/ y + y' = 0 \/ y + y' = p).
  { assert (M : (p | (y - y') * (y + y'))). { destruct K as [K]. rewrite Z.mod_0_l in K by lia. apply Z.mod_divide; [lia|exact K]. }
    destruct (prime_mult p Hp _ _ M) as [[k K1]|[k K1]]; clear - K1 Y Y'; [left|right].
    - assert (k = 0) as -> by nia. lia.
    - assert (k = 0 \/ k = 1) as [-> | ->] by nia; lia. }
  destruct D as [D|[D|D]]; [exact D|lia|]. exfalso.
  assert (PO : Z.odd p = true). { rewrite (Z.div_mod p 8) by lia. rewrite P8. rewrite Z.odd_add, Z.odd_mul. reflexivity. }
  assert (SO : Z.odd y = Z.odd y'). { destruct S2 as [(Q & _ & [O|O])|(Q & _ & O)], S2' as [(Q' & _ & [O'|O'])|(Q' & _ & O')]; try tauto; try congruence; lia. }
  rewrite <- D, Z.odd_add, SO, xorb_nilpotent in PO. discriminate.
Qed.

(** ** EncodeToCurve and HashToCurve *)
Section Mont.
Variable H : list Z -> list Z.
Variable b : nat.
Hypothesis bpos : (0 < b)%nat.
Hypothesis Hlen : forall l, length (H l) = b.
Variable c : hctx.
Hypothesis good : g2_good c.
Hypothesis key : (0 < h_key c)%nat.
Hypothesis size : h_p c <= 256 ^ Z.of_nat (h_key c).
Hypothesis disc : ~ eqm (h_p c) (h_a c * h_a c) 4.
Let Hp : prime (h_p c) := proj1 good.
Notation p := (h_p c).
(** Group elements: infinity or a pair of residues; [mont_sum] and [mont_times] are the chord and
    tangent law of y^2 = x^3 + A x^2 + x and the multiples in that group. *)
Definition mont_pt (P : point) : pt (E p) := Aff _ (mk p Hp (fst P)) (mk p Hp (snd P)).
Definition mont_sum (P Q : pt (E p)) : pt (E p) :=
  EcGroup.padd (E p) (mk p Hp 1) (eadd p Hp) (emul p Hp) (esub p Hp) (eopp p Hp) (ediv p Hp) (e_dec p) (mk p Hp 1) (mk p Hp (h_a c)) (mk p Hp 1) P Q.
Definition mont_times (k : Z) (P : pt (E p)) : pt (E p) := EcMul.zmul (pt (E p)) (Inf _) mont_sum (EcGroup.neg (E p) (eopp p Hp)) k P.
(** The result of the functions: the affine coordinates; they throw at infinity. *)
Definition affine (P : pt (E p)) : outcome point := match P with Inf _ => Thrown | Aff _ x y => Val (v p x, v p y) end.
Definition rfc_u (msg dst : list Z) (n i : nat) : Z := be_value (firstn 48 (skipn (48 * i) (rfc_uniform H (h_s c) msg dst (n * 48) ((n * 48 + b - 1) / b)))) mod p.

Lemma m_odd : p <> 2. Proof. pose proof good as GD. destruct GD as (_ & P8 & _). intros K. rewrite K in P8. discriminate. Qed.
Lemma u_maps msg dst n : xmd_sizes b dst (n * 48) -> exists us, hash_to_field H b c msg n 48 dst = Val us /\
  forall i, (i < n)%nat -> exists x y, map_g2 c (nth i us []) = Val (be_bytes (h_key c) x, be_bytes (h_key c) y) /\ elligator_spec c (rfc_u msg dst n i) (x, y).
Proof.
  intros S. pose proof (prime_ge_2 p Hp). destruct (field_elements H b bpos Hlen c msg n 48 dst S) as (us & E & _ & A); [lia|]. exists us. split; [exact E|].
  intros i I. destruct (A i I) as (L & B & V). fold (rfc_u msg dst n i) in V. rewrite <- V. apply elligator_map; auto. intros K. rewrite K in L. cbn in L. lia.
Qed.
Lemma spec_wire u x y : elligator_spec c u (x, y) ->
  (be_bytes (h_key c) x, be_bytes (h_key c) y) = wire c (mont_pt (x, y)) /\
  EcGroup.on (E p) (eadd p Hp) (emul p Hp) (mk p Hp 1) (mk p Hp (h_a c)) (mk p Hp 1) (mk p Hp 0) (mont_pt (x, y)).
Proof.
  intros (X & Y & C & _). destruct (on_of c Hp x y X Y C) as (O & V1 & V2). split; [|exact O]. unfold mont_pt. cbn [fst snd wire]. rewrite V1, V2. reflexivity.
Qed.
Lemma clear_affine P : EcGroup.on (E p) (eadd p Hp) (emul p Hp) (mk p Hp 1) (mk p Hp (h_a c)) (mk p Hp 1) (mk p Hp 0) P -> P <> Inf _ ->
  bind (clear_cofactor c (wire c P)) (read_point c) = affine (mont_times 8 P).
Proof.
  intros O N. rewrite (clear_val c Hp m_odd disc size P O) by (destruct P; [congruence|reflexivity]).
  change (times c Hp 8 P) with (mont_times 8 P). destruct (mont_times 8 P) as [|x y]; cbn [is_inf bind affine]; [reflexivity|]. apply (read_wire c size).
Qed.

(** EncodeToCurve is eight times the image; it fails only if that is infinity. *)
Theorem mont_encode_ok msg dst : xmd_sizes b dst (1 * 48) ->
  exists P, elligator_spec c (rfc_u msg dst 1 0) P /\ mont_encode H b c msg dst = affine (mont_times 8 (mont_pt P)).
Proof.
  intros S. unfold mont_encode. rewrite (dst_sizes b bpos c key _ _ S). cbn [negb]. destruct (u_maps msg dst 1 S) as (us & E & A). rewrite E. cbn [bind].
  destruct (A 0%nat ltac:(lia)) as (x & y & EP & SP). exists (x, y). split; [exact SP|]. rewrite EP. cbn [bind].
  destruct (spec_wire _ _ _ SP) as (W & O). rewrite W. apply clear_affine; [exact O|discriminate].
Qed.
(** HashToCurve is eight times the sum of the images; it fails only if that is infinity or the two
    images have the same abscissa. *)
Theorem mont_hash_ok msg dst : xmd_sizes b dst (2 * 48) ->
  exists P Q, elligator_spec c (rfc_u msg dst 2 0) P /\ elligator_spec c (rfc_u msg dst 2 1) Q /\
    mont_hash H b c msg dst = (if fst P =? fst Q then Thrown else affine (mont_times 8 (mont_sum (mont_pt P) (mont_pt Q)))).
Proof.
  intros S. unfold mont_hash. rewrite (dst_sizes b bpos c key _ _ S). cbn [negb]. destruct (u_maps msg dst 2 S) as (us & E & A). rewrite E. cbn [bind].
  destruct (A 0%nat ltac:(lia)) as (x & y & EP & SP). destruct (A 1%nat ltac:(lia)) as (x' & y' & EQ & SQ). exists (x, y), (x', y'). split; [exact SP|]. split; [exact SQ|]. rewrite EP, EQ. cbn [bind].
  destruct (spec_wire _ _ _ SP) as (W & O). destruct (spec_wire _ _ _ SQ) as (W' & O'). rewrite W, W'. cbn [fst].
  unfold mont_pt at 1 2. cbn [fst snd]. rewrite (add_val c Hp m_odd size).
  assert (XX : forall z, 0 <= z < p -> v p (mk p Hp z) = z) by (intros z Z0; rewrite v_mk; apply Z.mod_small; exact Z0).
  destruct SP as (X & _). destruct SQ as (X' & _).
  destruct (e_dec p (mk p Hp x) (mk p Hp x')) as [D|D].
  - assert (x = x') as -> by (rewrite <- (XX x X), <- (XX x' X'), D; reflexivity). rewrite Z.eqb_refl. reflexivity.
  - destruct (Z.eqb_spec x x') as [K|K]; [subst x'; congruence|]. cbn [bind].
    change (EcGroup.padd _ _ _ _ _ _ _ _ _ _ _ _ _) with (mont_sum (mont_pt (x, y)) (mont_pt (x', y'))).
    apply clear_affine; [apply (h_on c Hp m_odd); assumption|]. unfold mont_sum, mont_pt. cbn [fst snd EcGroup.padd]. destruct (e_dec p (mk p Hp x) (mk p Hp x')) as [?|_]; [contradiction|discriminate].
Qed.
(** Every result is a point of the curve. *)
Theorem mont_affine_on P x y : EcGroup.on (E p) (eadd p Hp) (emul p Hp) (mk p Hp 1) (mk p Hp (h_a c)) (mk p Hp 1) (mk p Hp 0) P ->
  affine (mont_times 8 P) = Val (x, y) -> 0 <= x < p /\ 0 <= y < p /\ eqm p (y * y) (mont_g c x).
Proof.
  intros O K. pose proof (times_on c Hp m_odd 8 P O) as O8. change (times c Hp 8 P) with (mont_times 8 P) in O8. destruct (mont_times 8 P) as [|x' y']; [discriminate|].
  cbn [affine] in K. injection K as <- <-. split; [apply v_range|]. split; [apply v_range|]. apply (on_back c Hp _ _ O8).
Qed.
Theorem mont_on_curve msg dst x y : (xmd_sizes b dst (1 * 48) /\ mont_encode H b c msg dst = Val (x, y)) \/ (xmd_sizes b dst (2 * 48) /\ mont_hash H b c msg dst = Val (x, y)) ->
  0 <= x < p /\ 0 <= y < p /\ eqm p (y * y) (mont_g c x).
Proof.
  intros [[S E]|[S E]].
  - destruct (mont_encode_ok msg dst S) as ([x1 y1] & SP & K). rewrite K in E. apply (mont_affine_on (mont_pt (x1, y1))); [apply (spec_wire _ _ _ SP)|exact E].
  - destruct (mont_hash_ok msg dst S) as ([x1 y1] & [x2 y2] & SP & SQ & K). rewrite K in E. destruct (_ =? _); [discriminate|].
    apply (mont_affine_on (mont_sum (mont_pt (x1, y1)) (mont_pt (x2, y2)))); [|exact E]. apply (h_on c Hp m_odd); [apply (spec_wire _ _ _ SP)|apply (spec_wire _ _ _ SQ)].
Qed.
(** The field element 0 has the image (0, 0) of order two if -A is no square: EncodeToCurve then fails. *)
Theorem mont_encode_zero msg dst : xmd_sizes b dst (1 * 48) -> ~ square p (- h_a c) -> rfc_u msg dst 1 0 = 0 -> mont_encode H b c msg dst = Thrown.
Proof.
  intros S NS U. destruct (mont_encode_ok msg dst S) as (P & SP & ->). rewrite U in SP.
  assert (Z0 : elligator_spec c 0 (0, 0)).
  { pose proof (prime_ge_2 p Hp). cbn. split; [lia|]. split; [lia|]. split; [unfold mont_g; apply eqm_eq; ring|]. exists (- h_a c). split; [apply eqm_eq; ring|]. right.
    assert (G : eqm p (mont_g c (- h_a c)) (- h_a c)) by (unfold mont_g; apply eqm_eq; ring).
    split; [|split; [apply eqm_eq; ring|reflexivity]]. intros [w W]. apply NS. exists w. rewrite W. exact G. }
  rewrite (elligator_unique c 0 _ _ good SP Z0). destruct (spec_wire _ _ _ Z0) as (_ & O).
  change (mont_times 8 (mont_pt (0, 0))) with (times c Hp 8 (mont_pt (0, 0))). rewrite (times_8 c Hp m_odd disc _ O).
  replace (EcGroup.padd _ _ _ _ _ _ _ _ _ _ _ (mont_pt (0, 0)) (mont_pt (0, 0))) with (Inf (E p)); [reflexivity|]. symmetry. apply (twice_inf c Hp m_odd). reflexivity.
Qed.
End Mont.

(** ** Curve25519, if 2^255 - 19 is prime *)
Definition mont_ready (c : hctx) : Prop :=
  g2_good c /\ (0 < h_key c)%nat /\ h_p c <= 256 ^ Z.of_nat (h_key c) /\ ~ eqm (h_p c) (h_a c * h_a c) 4 /\ ~ square (h_p c) (- h_a c).
Lemma mont_ready_by c w : prime (h_p c) -> h_p c mod 8 = 5 -> h_c4 c = (h_p c - 5) / 8 -> (h_a c mod h_p c =? 0) = false ->
  (h_i c * h_i c) mod h_p c = (-1) mod h_p c -> (h_c2 c * h_c2 c) mod h_p c = (-2 * h_i c) mod h_p c -> (0 <? h_key c)%nat = true -> (h_p c <=? 256 ^ Z.of_nat (h_key c)) = true ->
  ((h_a c * h_a c) mod h_p c =? 4 mod h_p c) = false -> (w * w) mod h_p c = (-2 * h_a c) mod h_p c -> mont_ready c.
Proof.
  intros Hp P8 C4 A I C2 K S D W. pose proof (prime_ge_2 _ Hp) as P2.
  assert (NA : ~ eqm (h_p c) (h_a c) 0). { apply ne_by. rewrite Z.mod_0_l by lia. apply Z.eqb_neq. exact A. }
  assert (G : g2_good c) by (split; [exact Hp|]; split; [exact P8|]; split; [exact C4|]; split; [exact NA|]; split; apply eqm_by; assumption).
  split; [exact G|]. split; [apply Nat.ltb_lt; exact K|]. split; [apply Z.leb_le; exact S|]. split; [apply ne_by, Z.eqb_neq, D|].
  intros (z & Z0). assert (W' : eqm (h_p c) (w * w) (-2 * h_a c)) by (apply eqm_by; exact W).
  assert (NZ : ~ eqm (h_p c) z 0). { intros Q. apply NA. transitivity (- (z * z)); [rewrite Z0; mring|]. rewrite Q. mring. }
  destruct (invert_mod_prime z (h_p c) Hp NZ) as (j & J). destruct (invert_mod_some _ _ _ J) as [_ J'].
  apply (two_nonsquare c G). exists (w * j). transitivity (w * w * (j * j)); [mring|]. rewrite W'. transitivity (2 * - h_a c * (j * j)); [mring|]. rewrite <- Z0.
  transitivity (2 * ((z * j) * (z * j))); [mring|]. rewrite J'. mring.
Qed.
Theorem ready_25519 : prime (h_p ctx_25519) -> mont_ready ctx_25519.
Proof. intros Hp. apply (mont_ready_by _ 0x4fea6c8a2c4843d23600e10335d7d58b8640744e2f080f7c06ed7a209978ad8d); [exact Hp|vm_compute; reflexivity ..]. Qed.

(** ** A case: y^2 = x^3 + 6 x^2 + x over the integers modulo 61 *)
Definition ex_mont : hctx := mkH 1 4 61 6 0 0 0 10 11 7 None.
Lemma prime_61 : prime 61.
Proof.
  apply prime_alt. split; [lia|]. intros n Hn D. destruct D as [q D].
  assert (C : (2 <= n <= 7) \/ (2 <= q <= 7)) by nia.
  destruct C as [C|C]; [assert (K : n = 2 \/ n = 3 \/ n = 4 \/ n = 5 \/ n = 6 \/ n = 7) by lia|assert (K : q = 2 \/ q = 3 \/ q = 4 \/ q = 5 \/ q = 6 \/ q = 7) by lia];
    destruct K as [K|[K|[K|[K|[K|K]]]]]; subst; lia.
Qed.
Example ex_mont_ready : mont_ready ex_mont.
Proof. apply (mont_ready_by _ 7); [exact prime_61|vm_compute; reflexivity ..]. Qed.
Example ex_mont_maps : map (fun u => map_g2_val ex_mont u) [0; 1; 2; 3; 4] = [Val (0, 0); Val (59, 21); Val (40, 47); Val (35, 39); Val (33, 32)].
Proof. vm_compute. reflexivity. Qed.
Example ex_mont_hash : map (fun m => mont_hash ex_hash 2 ex_mont [m] ex_dst) [0; 1; 2; 3; 4; 5; 6] = [Thrown; Val (34, 55); Val (46, 20); Thrown; Val (39, 15); Val (34, 6); Val (39, 15)].
Proof. vm_compute. reflexivity. Qed.
Example ex_mont_sizes : xmd_sizes 2 ex_dst (2 * 48) /\ xmd_sizes 2 ex_dst (1 * 48).
Proof. unfold xmd_sizes. cbn. lia. Qed.

(** ** Not for every hash: with field elements 0 and 0 both functions of Curve25519 fail, where RFC 9380 returns the identity. *)
Definition zero_hash (l : list Z) : list Z := repeat 0 64.
Theorem mont_total_refuted : prime (h_p ctx_25519) -> exists H b msg dst, (forall l, length (H l) = b) /\ xmd_sizes b dst (2 * 48) /\ xmd_sizes b dst (1 * 48) /\
  mont_hash H b ctx_25519 msg dst = Thrown /\ mont_encode H b ctx_25519 msg dst = Thrown.
Proof.
  intros Hp. exists zero_hash, 64%nat, [1], ex_dst. split; [intros l; apply repeat_length|].
  assert (S2 : xmd_sizes 64 ex_dst (2 * 48)) by (unfold xmd_sizes; cbn; lia). assert (S1 : xmd_sizes 64 ex_dst (1 * 48)) by (unfold xmd_sizes; cbn; lia).
  split; [exact S2|]. split; [exact S1|]. destruct (ready_25519 Hp) as (G & K & S & D & NS). split.
  - destruct (mont_hash_ok zero_hash 64 ltac:(lia) (fun l => repeat_length 0 64) ctx_25519 G K S D [1] ex_dst S2) as (P & Q & SP & SQ & ->).
    assert (E : rfc_u zero_hash 64 ctx_25519 [1] ex_dst 2 0 = 0 /\ rfc_u zero_hash 64 ctx_25519 [1] ex_dst 2 1 = 0) by (vm_compute; auto).
    destruct E as [E0 E1]. rewrite E0 in SP. rewrite E1 in SQ. rewrite (elligator_unique _ _ _ _ G SP SQ), Z.eqb_refl. reflexivity.
  - apply (mont_encode_zero zero_hash 64 ltac:(lia) (fun l => repeat_length 0 64) ctx_25519 G K S D [1] ex_dst S1 NS). vm_compute. reflexivity.
Qed.

Print Assumptions elligator_map.
Print Assumptions elligator_unique.
Print Assumptions mont_encode_ok.
Print Assumptions mont_hash_ok.
Print Assumptions mont_on_curve.
Print Assumptions mont_encode_zero.
Print Assumptions ready_25519.
Print Assumptions mont_total_refuted.
