(** C93: MapToCurveSSWU is the simplified SWU map of RFC 9380, and its result is on the curve.
    C94: EncodeToCurve and HashToCurve of P-256, P-384 and P-521. *)
From Coq Require Import ZArith List Bool Lia Znumtheory PeanoNat.
From Verif Require Import LinCodeModel ZpLib SafePrimeModel SafePrimeProps EcField EcGroup ToyEcModel HashCurveModel HashFieldProof HashFieldProps SswuProof NistAddProof.
Import ListNotations.
Open Scope Z_scope.

(** ** RFC 9380, 6.6.2: with t = Z u^2, x1 = (-B / A) (1 + 1 / (t^2 + t)), or B / (Z A) when
    t^2 + t = 0; x = x1 if g(x1) is a square and t x1 otherwise; y is a root of g(x) with the parity of u. *)
Definition curve_rhs (c : hctx) (x : Z) : Z := x * x * x + h_a c * x + h_b c.
Definition sswu_spec (c : hctx) (u : Z) (P : point) : Prop :=
  let p := h_p c in let t := h_z c * u * u in let '(x, y) := P in
  0 <= x < p /\ 0 <= y < p /\ eqm p (y * y) (curve_rhs c x) /\ (y = 0 \/ Z.odd y = Z.odd u) /\
  exists x1, (eqm p (t * t + t) 0 /\ eqm p (x1 * h_z c * h_a c) (h_b c) \/
              ~ eqm p (t * t + t) 0 /\ eqm p (x1 * h_a c * (t * t + t)) (- h_b c * (t * t + t + 1))) /\
             (square p (curve_rhs c x1) /\ eqm p x x1 \/ ~ square p (curve_rhs c x1) /\ eqm p x (t * x1)).
Lemma rhs_same c x : rhs c x = curve_rhs c x. Proof. unfold rhs, curve_rhs. ring. Qed.

Theorem sswu_map c ubuf : sswu_good c -> ubuf <> [] -> Forall (fun z => 0 <= z < 256) ubuf ->
  exists P, map_sswu c ubuf = Val P /\ sswu_spec c (be_value ubuf) P.
Proof.
  intros G N B. destruct (sswu_ok c G ubuf N B) as (x & y & x1 & E & X & Y & (S1 & S2) & S3 & S4).
  exists (x, y). split; [exact E|]. do 4 (split; [assumption|]). exists x1. split; [exact S1|exact S2].
Qed.
Lemma sswu_nonempty c : map_sswu c [] = Thrown. Proof. reflexivity. Qed.

(** The specification leaves no choice. *)
Lemma small_eq p x y : 0 <= x < p -> 0 <= y < p -> eqm p x y -> x = y.
Proof. intros X Y [E]. rewrite !Z.mod_small in E by assumption. exact E. Qed.
Theorem sswu_unique c u P Q : sswu_good c -> sswu_spec c u P -> sswu_spec c u Q -> P = Q.
Proof.
  intros G SP SQ. pose proof G as (Hp & P4 & _ & NA & NZ & _). set (p := h_p c) in *. pose proof (prime_ge_2 p Hp) as P2.
  assert (NZ0 : ~ eqm p (h_z c) 0) by (intros K; apply NZ; exists 0; rewrite K; mring).
  destruct P as [x y], Q as [x' y']. cbn in SP, SQ. fold p in SP, SQ.
  destruct SP as (X & Y & C & PY & x1 & S1 & S2). destruct SQ as (X' & Y' & C' & PY' & x1' & S1' & S2').
  set (t := h_z c * u * u) in *. set (d := t * t + t) in *.
  assert (E1 : eqm p x1 x1').
  { destruct S1 as [[D S1]|[D S1]], S1' as [[D' S1']|[D' S1']]; try contradiction.
    - apply (eqm_prime_cancel p x1 x1' (h_z c * h_a c) Hp).
      + intros K. apply NA. apply (eqm_prime_cancel p _ _ (h_z c) Hp NZ0). transitivity (h_z c * h_a c); [mring|]. rewrite K. mring.
      + transitivity (h_b c); [rewrite <- S1; mring|rewrite <- S1'; mring].
    - apply (eqm_prime_cancel p x1 x1' (h_a c * d) Hp).
      + intros K. apply D. apply (eqm_prime_cancel p _ _ (h_a c) Hp NA). transitivity (h_a c * d); [mring|]. rewrite K. mring.
      + transitivity (- h_b c * (d + 1)); [rewrite <- S1; mring|rewrite <- S1'; mring]. }
  assert (ER : eqm p (curve_rhs c x1) (curve_rhs c x1')) by (unfold curve_rhs; rewrite E1; reflexivity).
  assert (SS : square p (curve_rhs c x1) <-> square p (curve_rhs c x1')).
  { unfold square. split; intros [w W]; exists w; rewrite W; [exact ER|symmetry; exact ER]. }
  assert (EX : x = x').
  { apply (small_eq p); auto. destruct S2 as [[Q S2]|[Q S2]], S2' as [[Q' S2']|[Q' S2']]; try tauto; rewrite S2, S2', E1; reflexivity. }
  subst x'. f_equal.
  assert (K : eqm p ((y - y') * (y + y')) 0) by (replace ((y - y') * (y + y')) with (y * y - y' * y') by ring; rewrite C, C'; apply eqm_eq; ring).
  assert (D : y = y' \/ y + y' = 0 \/ y + y' = p).
  { assert (M : (p | (y - y') * (y + y'))). { destruct K as [K]. rewrite Z.mod_0_l in K by lia. apply Z.mod_divide; [lia|exact K]. }
    destruct (prime_mult p Hp _ _ M) as [[k K1]|[k K1]]; clear - K1 Y Y'; [left|right].
    - assert (k = 0) as -> by nia. lia.
    - assert (k = 0 \/ k = 1) as [-> | ->] by nia; lia. }
  destruct D as [D|[D|D]]; [exact D|lia|]. exfalso.
  assert (PO : Z.odd p = true). { rewrite (Z.div_mod p 4) by lia. rewrite P4. rewrite Z.odd_add, Z.odd_mul. reflexivity. }
  destruct PY as [PY|PY]; [lia|]. destruct PY' as [PY'|PY']; [lia|]. rewrite <- D, Z.odd_add, PY, PY', xorb_nilpotent in PO. discriminate.
Qed.

(** ** EncodeToCurve and HashToCurve *)
Section Nist.
Variable H : list Z -> list Z.
Variable b : nat.
Hypothesis bpos : (0 < b)%nat.
Hypothesis Hlen : forall l, length (H l) = b.
Variable c : hctx.
Hypothesis good : sswu_good c.
Hypothesis key : (0 < h_key c)%nat.
Hypothesis size : h_p c <= 256 ^ Z.of_nat (h_key c).
(** Field element [i] of [n], from RFC 9380's uniform bytes. *)
Definition rfc_field (msg dst : list Z) (n l i : nat) : Z :=
  be_value (firstn l (skipn (l * i) (rfc_uniform H (h_s c) msg dst (n * l) ((n * l + b - 1) / b)))) mod h_p c.
Lemma dst_sizes dst len : xmd_sizes b dst len -> dst_ok dst = true.
Proof. intros (D & _). unfold dst_ok. apply andb_true_intro. split; apply Nat.leb_le; lia. Qed.
Lemma p_bound : 0 < h_p c. Proof. pose proof good as GD. destruct GD as (Hp & _). pose proof (prime_ge_2 _ Hp). lia. Qed.
Lemma field_maps msg dst n l : xmd_sizes b dst (n * l) -> exists us, hash_to_field H b c msg n l dst = Val us /\
  forall i, (i < n)%nat -> exists P, map_sswu c (nth i us []) = Val P /\ sswu_spec c (rfc_field msg dst n l i) P.
Proof.
  intros S. pose proof p_bound. destruct (field_elements H b bpos Hlen c msg n l dst S) as (us & E & _ & A); [lia|]. exists us. split; [exact E|].
  intros i I. destruct (A i I) as (L & B & V). fold (rfc_field msg dst n l i) in V. rewrite <- V. apply sswu_map; auto. intros K. rewrite K in L. cbn in L. lia.
Qed.

Theorem nist_encode_ok l msg dst : xmd_sizes b dst (1 * l) ->
  exists P, nist_encode H b c l msg dst = Val P /\ sswu_spec c (rfc_field msg dst 1 l 0) P.
Proof.
  intros S. unfold nist_encode. rewrite (dst_sizes _ _ S). cbn [negb]. destruct (field_maps msg dst 1 l S) as (us & E & A). rewrite E. cbn [bind].
  destruct (A 0%nat ltac:(lia)) as (P & EP & SP). exists P. auto.
Qed.

Hypothesis a3 : eqm (h_p c) (h_a c) (-3).
Hypothesis bne : ~ eqm (h_p c) (h_b c) 0.
Let Hp : prime (h_p c) := proj1 good.
(** The chord and tangent sum of the curve group (EcGroup), with (0, 0) for the neutral element. *)
Definition curve_sum (P Q : point) : point :=
  let m := mk (h_p c) Hp in
  nrep (h_p c) (EcGroup.padd (E (h_p c)) (m 1) (eadd (h_p c) Hp) (emul (h_p c) Hp) (esub (h_p c) Hp) (eopp (h_p c) Hp) (ediv (h_p c) Hp) (e_dec (h_p c)) (m 1) (m 0) (m (h_a c))
    (Aff _ (m (fst P)) (m (snd P))) (Aff _ (m (fst Q)) (m (snd Q)))).
Lemma p_odd : h_p c <> 2. Proof. pose proof good as GD. destruct GD as (_ & P4 & _). intros K. rewrite K in P4. discriminate. Qed.
Lemma spec_on u P : sswu_spec c u P -> 0 <= fst P < h_p c /\ 0 <= snd P < h_p c /\ eqm (h_p c) (snd P * snd P) (fst P * fst P * fst P + h_a c * fst P + h_b c).
Proof. destruct P as [x y]. cbn. unfold curve_rhs. tauto. Qed.

Theorem nist_hash_ok l msg dst : xmd_sizes b dst (2 * l) -> exists P Q,
  sswu_spec c (rfc_field msg dst 2 l 0) P /\ sswu_spec c (rfc_field msg dst 2 l 1) Q /\
  nist_hash H b c l msg dst = (if (fst P =? fst Q) && (snd P =? 0) then Thrown else Val (curve_sum P Q)) /\
  let '(x, y) := curve_sum P Q in (x = 0 /\ y = 0) \/ 0 <= x < h_p c /\ 0 <= y < h_p c /\ eqm (h_p c) (y * y) (curve_rhs c x).
Proof.
  intros S. unfold nist_hash. rewrite (dst_sizes _ _ S). cbn [negb]. destruct (field_maps msg dst 2 l S) as (us & E & A). rewrite E. cbn [bind].
  destruct (A 0%nat ltac:(lia)) as (P & EP & SP). destruct (A 1%nat ltac:(lia)) as (Q & EQ & SQ). exists P, Q. split; [exact SP|]. split; [exact SQ|].
  rewrite EP. cbn [bind]. rewrite EQ. cbn [bind].
  destruct (spec_on _ _ SP) as (X1 & Y1 & C1). destruct (spec_on _ _ SQ) as (X2 & Y2 & C2). destruct P as [x1 y1], Q as [x2 y2]. cbn [fst snd] in *.
  destruct (on_z (h_p c) (h_a c) (h_b c) Hp x1 y1 X1 Y1 C1) as (O1 & V1 & W1). destruct (on_z (h_p c) (h_a c) (h_b c) Hp x2 y2 X2 Y2 C2) as (O2 & V2 & W2).
  split.
  - destruct (Z.eqb_spec x1 x2) as [EX|EX]; [destruct (Z.eqb_spec y1 0) as [EY|EY]|]; cbn [andb].
    + subst x2 y1. assert (y2 = 0).
      { assert (K : eqm (h_p c) (y2 * y2) 0) by (rewrite C2, <- C1; mring). apply (small_eq (h_p c)); [lia| lia|].
        assert (D : (h_p c | y2 * y2)) by (destruct K as [K]; rewrite Z.mod_0_l in K by lia; apply Z.mod_divide; [lia|exact K]).
        pose proof (prime_mult (h_p c) Hp _ _ D) as D'. constructor. rewrite Z.mod_0_l by lia. apply Z.mod_divide; [lia|tauto]. }
      subst y2. pose proof (nist_thrown (h_p c) (h_a c) (h_b c) Hp p_odd bne _ _ O1 eq_refl) as T. rewrite V1, W1 in T. exact T.
    + pose proof (nist_val (h_p c) (h_a c) (h_b c) Hp p_odd a3 bne _ _ _ _ O1 O2) as T. rewrite V1, W1, V2, W2 in T. apply T.
      intros (_ & _ & K). apply EY. rewrite <- W1, K, v_mk. apply Z.mod_0_l. lia.
    + pose proof (nist_val (h_p c) (h_a c) (h_b c) Hp p_odd a3 bne _ _ _ _ O1 O2) as T. rewrite V1, W1, V2, W2 in T. apply T.
      intros (K & _). apply EX. rewrite <- V1, <- V2, K. reflexivity.
  - pose proof (padd_on' (h_p c) (h_a c) (h_b c) Hp p_odd _ _ O1 O2) as O3. apply nrep_on in O3. unfold curve_sum. cbn [fst snd].
    destruct O3 as [O3|(x & y & O3 & X & Y & C)]; fold Hp; rewrite O3; [left; split; reflexivity|right; auto].
Qed.
End Nist.

Theorem nist_refuses H b c l msg dst : (0 < b)%nat ->
  (~ xmd_sizes b dst (1 * l) -> nist_encode H b c l msg dst = Thrown) /\ (~ xmd_sizes b dst (2 * l) -> nist_hash H b c l msg dst = Thrown).
Proof.
  intros B. split; intros N; [unfold nist_encode|unfold nist_hash]; destruct (dst_ok dst); [|reflexivity| |reflexivity]; cbn [negb]; unfold hash_to_field; rewrite (xmd_refuses H b B) by exact N; reflexivity.
Qed.

(** ** The three curves of the table, if their moduli are prime *)
Lemma eqm_by p x y : x mod p = y mod p -> eqm p x y. Proof. intros K. constructor. exact K. Qed.
Lemma ne_by p x y : x mod p <> y mod p -> ~ eqm p x y. Proof. intros N [K]. exact (N K). Qed.
Definition nist_ready (c : hctx) : Prop :=
  sswu_good c /\ (0 < h_key c)%nat /\ h_p c <= 256 ^ Z.of_nat (h_key c) /\ eqm (h_p c) (h_a c) (-3) /\ ~ eqm (h_p c) (h_b c) 0.
Lemma ready_by c x w t : prime (h_p c) -> h_p c mod 4 = 3 -> h_c1 c = (h_p c + 1) / 4 -> h_a c mod h_p c = -3 mod h_p c -> (3 mod h_p c =? 0) = false -> (h_b c mod h_p c =? 0) = false ->
  (t * t) mod h_p c = (- h_z c) mod h_p c -> (t mod h_p c =? 0) = false -> (x * h_z c * h_a c) mod h_p c = h_b c mod h_p c -> (w * w) mod h_p c = curve_rhs c x mod h_p c ->
  (0 <? h_key c)%nat = true -> (h_p c <=? 256 ^ Z.of_nat (h_key c)) = true -> nist_ready c.
Proof.
  intros Hp P4 C1 A N3 B T T0 X W K S. pose proof (prime_ge_2 _ Hp) as P2.
  assert (NE : forall z, (z mod h_p c =? 0) = false -> ~ eqm (h_p c) z 0). { intros z Z0. apply ne_by. rewrite Z.mod_0_l by lia. apply Z.eqb_neq. exact Z0. }
  assert (A3 : eqm (h_p c) (h_a c) (-3)) by (apply eqm_by; exact A).
  split; [|split; [apply Nat.ltb_lt; exact K|split; [apply Z.leb_le; exact S|split; [exact A3|apply NE; exact B]]]].
  split; [exact Hp|]. split; [exact P4|]. split; [exact C1|]. split.
  - intros Q. apply (NE 3 N3). transitivity (- h_a c); [rewrite A3; mring|rewrite Q; mring].
  - split.
    + apply (neg_nonsquare (h_p c) Hp) with (t := t); [intros Q; rewrite Q in P4; discriminate|exact P4|apply eqm_by; exact T|apply NE; exact T0].
    + exists x. split; [apply eqm_by; exact X|]. exists w. apply eqm_by. rewrite rhs_same. exact W.
Qed.
Theorem ready_p256 : prime (h_p ctx_p256) -> nist_ready ctx_p256.
Proof.
  intros Hp. apply (ready_by _ 0xa528bd8696bdaf996c65b982d94959d3146fe6a020693090bdba13132375f224 0xe5fb73d16791ce358fb5adb2d33668a3b24099fd8d401f6685e0e994fb4d756
    0xda538e3be1d89b99c978fc675180aab27b8d1ff84c55d5b62ccd3427e433c47f); [exact Hp|vm_compute; reflexivity ..].
Qed.
Theorem ready_p384 : prime (h_p ctx_p384) -> nist_ready ctx_p384.
Proof.
  intros Hp. apply (ready_by _ 0x533324e11b9e311baee780268d718f799600d2914e2e41ceb8f97203fb1cfca5c58265272e814cef084ad3ce05e30131
    0xf409ff49f8f12c68e973c9b47a385ac1cd9bb39c9a6f4c77137597adac5618d1b0be26d5f19a079aaac7bf09e36a5463
    0x2accb4a656b0249c71f0500e83da2fdd7f98e383d68b53871f872fcb9ccb80c53c0de1f8a80f7e1914e2ec69f5a626b3); [exact Hp|vm_compute; reflexivity ..].
Qed.
Theorem ready_p521 : prime (h_p ctx_p521) -> nist_ready ctx_p521.
Proof.
  intros Hp. apply (ready_by _ 0xb1771a8f72cbd7b782a18cd822b9e07013e2e78987a22441d44f6460cc213ec0d2c72cc4c6d3b536f4ec86e5651a4ecfeb447452a0afc3af142945c2a708f15a95
    0x1386c4faab4b9b73ecf30fe24c43a7626603ea9ac33ef6a2456332501e77d10f589f08f8a82959f40b2dd9132b2f24046121095b8eb1b71bd9749bd5aed3e0a14f5 2); [exact Hp|vm_compute; reflexivity ..].
Qed.
(** The three suites with SHA-256, SHA-384 and SHA-512 and any tag of 16 to 255 bytes are within the sizes. *)
Lemma suite_sizes dst : (16 <= length dst <= 255)%nat -> xmd_sizes 32 dst (2 * 48) /\ xmd_sizes 48 dst (2 * 72) /\ xmd_sizes 64 dst (2 * 98) /\ xmd_sizes 32 dst (1 * 48) /\ xmd_sizes 48 dst (1 * 72) /\ xmd_sizes 64 dst (1 * 98).
Proof. intros D. unfold xmd_sizes. cbn. lia. Qed.

(** ** A case: y^2 = x^3 - 3 x + 7 over the integers modulo 19 *)
Definition ex_ctx : hctx := mkH 1 4 19 16 7 2 5 0 0 0 None.
Lemma prime_19 : prime 19.
Proof. apply prime_intro; [lia|]. intros n Hn. apply Zgcd_1_rel_prime. assert (C : n = 1 \/ n = 2 \/ n = 3 \/ n = 4 \/ n = 5 \/ n = 6 \/ n = 7 \/ n = 8 \/ n = 9 \/ n = 10 \/ n = 11 \/ n = 12 \/ n = 13 \/ n = 14 \/ n = 15 \/ n = 16 \/ n = 17 \/ n = 18) by lia.
  repeat (destruct C as [-> |C]; [reflexivity|]). subst n. reflexivity. Qed.
Example ex_ready : nist_ready ex_ctx.
Proof. apply (ready_by _ 2 3 6); [exact prime_19|vm_compute; reflexivity ..]. Qed.
Example ex_maps : map (fun u => map_sswu ex_ctx [u]) [0; 1; 2; 3; 4] = [Val (2, 16); Val (8, 1); Val (14, 12); Val (2, 3); Val (2, 16)].
Proof. vm_compute. reflexivity. Qed.
Example ex_hash_sizes : xmd_sizes 2 ex_dst (2 * 3) /\ (forall l, length (ex_hash l) = 2%nat).
Proof. split; [unfold xmd_sizes; cbn; lia|exact ex_len]. Qed.
Example ex_nist : nist_hash ex_hash 2 ex_ctx 3 [1] ex_dst = Val (3, 14).
Proof. vm_compute. reflexivity. Qed.

Print Assumptions sswu_map.
Print Assumptions sswu_unique.
Print Assumptions nist_encode_ok.
Print Assumptions nist_hash_ok.
Print Assumptions nist_refuses.
Print Assumptions ready_p256.
Print Assumptions ready_p384.
Print Assumptions ready_p521.
