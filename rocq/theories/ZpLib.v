(** Arithmetic modulo m over Z, modular inverses and polynomials given by
    coefficient lists.  Shared by the secret-sharing and sumcheck models. *)
From Coq Require Import ZArith List Bool Lia Zdiv Znumtheory Setoid Morphisms.
Import ListNotations.
Open Scope Z_scope.

(** ** Congruence modulo m *)
Inductive eqm (m a b : Z) : Prop := Eqm : a mod m = b mod m -> eqm m a b.
Global Instance eqm_equiv m : Equivalence (eqm m).
Proof.
  split; [intros a; constructor; auto|intros a b [H]; constructor; auto|intros a b c [H] [K]; constructor; congruence].
Qed.
Global Instance eqm_add m : Proper (eqm m ==> eqm m ==> eqm m) Z.add.
Proof. intros a b [H] c d [K]. constructor. exact (Zplus_eqm m a b H c d K). Qed.
Global Instance eqm_sub m : Proper (eqm m ==> eqm m ==> eqm m) Z.sub.
Proof. intros a b [H] c d [K]. constructor. exact (Zminus_eqm m a b H c d K). Qed.
Global Instance eqm_mul m : Proper (eqm m ==> eqm m ==> eqm m) Z.mul.
Proof. intros a b [H] c d [K]. constructor. exact (Zmult_eqm m a b H c d K). Qed.
Global Instance eqm_opp m : Proper (eqm m ==> eqm m) Z.opp.
Proof. intros a b [H]. constructor. exact (Zopp_eqm m a b H). Qed.
Lemma eqm_eq m a b : a = b -> eqm m a b.
Proof. intros ->. reflexivity. Qed.
Ltac mring := apply eqm_eq; ring.
Lemma eqm_mod m a : eqm m (a mod m) a.
Proof. constructor. apply Zmod_mod. Qed.
Lemma eqm_sub0 m a b : eqm m (a - b) 0 <-> eqm m a b.
Proof.
  split; intros H.
  - transitivity (a - b + b); [mring|]. rewrite H. mring.
  - rewrite H. mring.
Qed.
Lemma eqm_small m a b : 0 <= a < m -> 0 <= b < m -> eqm m a b -> a = b.
Proof. intros Ha Hb [H]. rewrite !Z.mod_small in H by lia. exact H. Qed.
Lemma eqm_dec m a b : {eqm m a b} + {~ eqm m a b}.
Proof.
  destruct (Z.eq_dec (a mod m) (b mod m)) as [e|e]; [left; constructor; exact e|right; intros [K]; contradiction].
Qed.
Lemma eqm0_divide m a : m <> 0 -> (eqm m a 0 <-> (m | a)).
Proof.
  intros Hm. split.
  - intros [H]. rewrite Zmod_0_l in H. apply Z.mod_divide; auto.
  - intros H. constructor. rewrite Zmod_0_l. apply Z.mod_divide; auto.
Qed.
Lemma prime_pos p : prime p -> 1 < p.
Proof. intros [H _]. exact H. Qed.
Lemma eqm_prime_mul p a b : prime p -> eqm p (a * b) 0 -> eqm p a 0 \/ eqm p b 0.
Proof.
  intros Hp H. pose proof (prime_pos p Hp). rewrite !eqm0_divide in * by lia. apply prime_mult; auto.
Qed.
Lemma eqm_prime_cancel p a b c : prime p -> ~ eqm p c 0 -> eqm p (a * c) (b * c) -> eqm p a b.
Proof.
  intros Hp Hc H. apply eqm_sub0. apply eqm_sub0 in H.
  destruct (eqm_prime_mul p (a - b) c Hp) as [K|K]; [rewrite <- H; mring|exact K|contradiction].
Qed.

(** ** MPInt::InvertMod
    yacl/math/mpint/mp_int.cc:724-732, mp_invmod of libtommath: the extended
    Euclidean algorithm; throws (None) unless the gcd is one. *)
Fixpoint egcd (fuel : nat) (a b : Z) : Z * Z * Z :=
  match fuel with
  | O => (a, 1, 0)
  | S f => if b =? 0 then (a, 1, 0)
           else let '(g, x, y) := egcd f b (a mod b) in (g, y, x - (a / b) * y)
  end.
Definition inv_fuel (m : Z) : nat := S (S (2 * S (Z.to_nat (Z.log2 m)))).
Definition invert_mod (a m : Z) : option Z :=
  if m <=? 0 then None
  else let '(g, x, _) := egcd (inv_fuel m) (a mod m) m in
       if g =? 1 then Some (x mod m) else None.

Lemma egcd_bezout f : forall a b g x y, egcd f a b = (g, x, y) -> a * x + b * y = g.
Proof.
  induction f as [|f IH]; intros a b g x y; cbn [egcd].
  - intros [= <- <- <-]. ring.
  - destruct (Z.eqb_spec b 0) as [->|Hb]; [intros [= <- <- <-]; ring|].
    destruct (egcd f b (a mod b)) as [[g' x'] y'] eqn:E. intros [= <- <- <-].
    apply IH in E. rewrite <- E. rewrite (Z.div_mod a b Hb) at 1. ring.
Qed.
Lemma egcd_gcd f : forall a b, 0 <= b < 2 ^ Z.of_nat f -> 0 <= a ->
  fst (fst (egcd (S (2 * f)) a b)) = Z.gcd a b.
Proof.
  induction f as [|f IH]; intros a b Hb Ha.
  - change (2 ^ Z.of_nat 0) with 1 in Hb. assert (b = 0) as -> by lia. cbn. rewrite Z.gcd_0_r. lia.
  - replace (S (2 * S f)) with (S (S (S (2 * f)))) by lia.
    change (egcd (S (S (S (2 * f)))) a b) with
      (if b =? 0 then (a, 1, 0) else let '(g, x, y) := egcd (S (S (2 * f))) b (a mod b) in (g, y, x - (a / b) * y)).
    destruct (Z.eqb_spec b 0) as [->|Hb0]; [cbn [fst]; rewrite Z.gcd_0_r; lia|].
    assert (G : fst (fst (egcd (S (S (2 * f))) b (a mod b))) = Z.gcd a b).
    { pose proof (Z.mod_pos_bound a b ltac:(lia)) as Hr.
      change (egcd (S (S (2 * f))) b (a mod b)) with
        (if a mod b =? 0 then (b, 1, 0) else let '(g, x, y) := egcd (S (2 * f)) (a mod b) (b mod (a mod b)) in (g, y, x - (b / (a mod b)) * y)).
      rewrite (Z.gcd_comm a b), <- (Z.gcd_mod a b) by lia. rewrite (Z.gcd_comm (a mod b) b).
      destruct (Z.eqb_spec (a mod b) 0) as [E|E]; [cbn [fst]; rewrite E, Z.gcd_0_r; lia|].
      set (r := a mod b) in *.
      pose proof (Z.mod_pos_bound b r ltac:(lia)) as Hs.
      specialize (IH r (b mod r)).
      destruct (egcd (S (2 * f)) r (b mod r)) as [[g x] y]. cbn [fst] in *.
      rewrite IH.
      - rewrite (Z.gcd_comm r (b mod r)), Z.gcd_mod by lia. apply Z.gcd_comm.
      - split; [lia|]. rewrite Nat2Z.inj_succ, Z.pow_succ_r in Hb by lia.
        assert (b / r >= 1).
        { pose proof (Z.div_str_pos b r ltac:(lia)). lia. }
        pose proof (Z.div_mod b r ltac:(lia)) as D. nia.
      - lia. }
    destruct (egcd (S (S (2 * f))) b (a mod b)) as [[g x] y]. cbn [fst] in *. exact G.
Qed.
Lemma egcd_gcd_ge f : forall n a b, (n >= S (2 * f))%nat -> 0 <= b < 2 ^ Z.of_nat f -> 0 <= a ->
  fst (fst (egcd n a b)) = Z.gcd a b.
Proof.
  induction n as [n IHn] using lt_wf_ind. intros a b Hn Hb Ha.
  destruct n as [|n]; [lia|].
  destruct (Nat.eq_dec (S n) (S (2 * f))) as [E|E].
  - rewrite E. apply egcd_gcd; auto.
  - cbn [egcd]. destruct (Z.eqb_spec b 0) as [->|Hb0]; [cbn [fst]; rewrite Z.gcd_0_r; lia|].
    pose proof (Z.mod_pos_bound a b ltac:(lia)) as Hr.
    specialize (IHn n ltac:(lia) b (a mod b) ltac:(lia) ltac:(lia) ltac:(lia)).
    destruct (egcd n b (a mod b)) as [[g x] y]. cbn [fst] in *. rewrite IHn.
    rewrite Z.gcd_comm, Z.gcd_mod by lia. apply Z.gcd_comm.
Qed.
Lemma inv_gcd a m : 0 < m -> fst (fst (egcd (inv_fuel m) (a mod m) m)) = Z.gcd a m.
Proof.
  intros Hm. rewrite (egcd_gcd_ge (S (Z.to_nat (Z.log2 m)))).
  - rewrite Z.gcd_mod by lia. apply Z.gcd_comm.
  - unfold inv_fuel. lia.
  - split; [lia|]. rewrite Nat2Z.inj_succ, Z2Nat.id by apply Z.log2_nonneg.
    apply Z.log2_spec. lia.
  - apply Z.mod_pos_bound. lia.
Qed.
Lemma invert_mod_some a m r : invert_mod a m = Some r -> 0 <= r < m /\ eqm m (a * r) 1.
Proof.
  unfold invert_mod. destruct (Z.leb_spec m 0) as [|Hm]; [discriminate|].
  destruct (egcd (inv_fuel m) (a mod m) m) as [[g x] y] eqn:E.
  destruct (Z.eqb_spec g 1) as [->|]; [|discriminate]. intros [= <-].
  split; [apply Z.mod_pos_bound; lia|]. apply egcd_bezout in E.
  rewrite eqm_mod. rewrite <- E. rewrite eqm_mod.
  transitivity (a * x + 0 * y); [mring|]. apply eqm_add; [reflexivity|]. apply eqm_mul; [|reflexivity].
  constructor. rewrite Z_mod_same_full, Zmod_0_l. reflexivity.
Qed.
Lemma invert_mod_coprime a m : 0 < m -> (Z.gcd a m = 1 <-> exists r, invert_mod a m = Some r).
Proof.
  intros Hm. pose proof (inv_gcd a m Hm) as G. unfold invert_mod.
  destruct (Z.leb_spec m 0) as [|_]; [lia|].
  destruct (egcd (inv_fuel m) (a mod m) m) as [[g x] y]. cbn [fst] in G. rewrite G.
  destruct (Z.eqb_spec (Z.gcd a m) 1) as [E|E]; split; try tauto; eauto. intros [r K]. discriminate.
Qed.
Lemma invert_mod_prime a p : prime p -> ~ eqm p a 0 -> exists r, invert_mod a p = Some r.
Proof.
  intros Hp Ha. pose proof (prime_pos p Hp). apply invert_mod_coprime; [lia|].
  apply Zgcd_1_rel_prime. apply rel_prime_sym. apply prime_rel_prime; auto.
  intros D. apply Ha. apply eqm0_divide; [lia|auto].
Qed.
Lemma invert_mod_zero a p : prime p -> eqm p a 0 -> invert_mod a p = None.
Proof.
  intros Hp Ha. destruct (invert_mod a p) as [r|] eqn:E; auto.
  apply invert_mod_some in E. destruct E as [_ E]. exfalso.
  rewrite Ha in E. assert (K : eqm p 0 1) by (rewrite <- E; mring). destruct K as [K].
  pose proof (prime_pos p Hp). rewrite Zmod_0_l, Z.mod_small in K by lia. discriminate.
Qed.

(** ** Polynomials as coefficient lists, constant term first *)
Fixpoint peval (c : list Z) (x : Z) : Z :=
  match c with [] => 0 | a :: c' => a + x * peval c' x end.
Fixpoint padd (c d : list Z) : list Z :=
  match c, d with [], _ => d | _, [] => c | a :: c', b :: d' => (a + b) :: padd c' d' end.
Definition pscale (k : Z) (c : list Z) : list Z := map (Z.mul k) c.
(** (a - X) c *)
Definition plin (a : Z) (c : list Z) : list Z := padd (pscale a c) (0 :: pscale (-1) c).

Lemma peval_add c : forall d x, peval (padd c d) x = peval c x + peval d x.
Proof. induction c as [|a c IH]; intros [|b d] x; cbn; try ring. rewrite IH. ring. Qed.
Lemma peval_scale k c x : peval (pscale k c) x = k * peval c x.
Proof. induction c as [|a c IH]; cbn; [ring|]. unfold pscale in IH. rewrite IH. ring. Qed.
Lemma peval_lin a c x : peval (plin a c) x = (a - x) * peval c x.
Proof. unfold plin. rewrite peval_add. cbn [peval]. rewrite !peval_scale. ring. Qed.
Lemma padd_length c : forall d, length (padd c d) = Nat.max (length c) (length d).
Proof. induction c as [|a c IH]; intros [|b d]; cbn; auto. Qed.
Lemma pscale_length k c : length (pscale k c) = length c.
Proof. apply map_length. Qed.
Lemma plin_length a c : length (plin a c) = S (length c).
Proof. unfold plin. rewrite padd_length. cbn [length]. rewrite !pscale_length. lia. Qed.
Lemma peval_eqm p c x y : eqm p x y -> eqm p (peval c x) (peval c y).
Proof. intros H. induction c as [|a c IH]; cbn; [reflexivity|]. rewrite IH, H. reflexivity. Qed.
Lemma peval_coef_eqm p c : forall d x, Forall2 (eqm p) c d -> eqm p (peval c x) (peval d x).
Proof.
  induction c as [|a c IH]; intros d x H; inversion H; subst; [reflexivity|]. cbn.
  rewrite (IH l') by auto. rewrite H2. reflexivity.
Qed.
Lemma peval_zero p c x : Forall (fun a => eqm p a 0) c -> eqm p (peval c x) 0.
Proof. induction 1 as [|a c Ha Hc IH]; cbn; [reflexivity|]. rewrite Ha, IH. mring. Qed.
Lemma peval_app c d x : peval (c ++ d) x = peval c x + x ^ Z.of_nat (length c) * peval d x.
Proof.
  induction c as [|a c IH]; cbn [app peval length].
  - change (Z.of_nat 0) with 0. ring.
  - rewrite IH, Nat2Z.inj_succ, Z.pow_succ_r by lia. ring.
Qed.

(** Division by X - a *)
Fixpoint pdiv (a : Z) (c : list Z) : list Z :=
  match c with
  | [] => []
  | _ :: c' => match c' with [] => [] | _ => peval c' a :: pdiv a c' end
  end.
Lemma pdiv_eval a c x : peval c x = (x - a) * peval (pdiv a c) x + peval c a.
Proof.
  induction c as [|b c IH]; cbn [pdiv peval]; [ring|].
  destruct c as [|b' c]; [cbn; ring|]. cbn [peval] in *. rewrite IH at 1. ring.
Qed.
Lemma pdiv_length a c : length (pdiv a c) = pred (length c).
Proof.
  induction c as [|b c IH]; [reflexivity|]. cbn [pdiv]. destruct c as [|b' c]; [reflexivity|].
  cbn [length] in *. rewrite IH. reflexivity.
Qed.
Lemma pdiv_zero p a c : Forall (fun z => eqm p z 0) (pdiv a c) -> eqm p (peval c a) 0 ->
  Forall (fun z => eqm p z 0) c.
Proof.
  induction c as [|b c IH]; intros H E; constructor.
  - cbn [peval] in E. destruct c as [|b' c].
    + cbn in E. rewrite <- E. mring.
    + cbn [pdiv] in H. inversion H as [|? ? H1 H2]; subst.
      transitivity (b + a * peval (b' :: c) a - a * peval (b' :: c) a); [mring|].
      rewrite E, H1. mring.
  - destruct c as [|b' c]; [constructor|]. cbn [pdiv] in H.
    inversion H as [|? ? H1 H2]; subst. apply IH; auto.
Qed.

(** Pairwise incongruent values *)
Fixpoint distinct (p : Z) (l : list Z) : Prop :=
  match l with [] => True | a :: l' => Forall (fun b => ~ eqm p a b) l' /\ distinct p l' end.

(** A polynomial with as many pairwise incongruent roots as coefficients
    vanishes modulo a prime. *)
Lemma roots_zero p : prime p -> forall rs c, distinct p rs -> (length c <= length rs)%nat ->
  Forall (fun r => eqm p (peval c r) 0) rs -> Forall (fun a => eqm p a 0) c.
Proof.
  intros Hp. induction rs as [|r rs IH]; intros c D L R.
  - destruct c; [constructor|cbn in L; lia].
  - destruct D as [D1 D2]. inversion R as [|? ? R1 R2]; subst.
    apply (pdiv_zero p r); auto. apply IH; auto.
    + rewrite pdiv_length. cbn in L. lia.
    + rewrite Forall_forall in *. intros s Hs.
      pose proof (R2 s Hs) as E. rewrite (pdiv_eval r c s), R1 in E.
      destruct (eqm_prime_mul p (s - r) (peval (pdiv r c) s) Hp) as [K|K]; auto.
      * rewrite <- E. mring.
      * exfalso. apply (D1 s Hs). symmetry. apply eqm_sub0. exact K.
Qed.
Lemma poly_unique p rs c d : prime p -> distinct p rs -> length c = length d ->
  (length c <= length rs)%nat ->
  Forall (fun r => eqm p (peval c r) (peval d r)) rs -> Forall2 (eqm p) c d.
Proof.
  intros Hp D E L R.
  assert (Z0 : Forall (fun a => eqm p a 0) (padd c (pscale (-1) d))).
  { apply (roots_zero p Hp rs); auto.
    - rewrite padd_length, pscale_length. lia.
    - rewrite Forall_forall in *. intros r Hr. rewrite peval_add, peval_scale, (R r Hr). mring. }
  clear - E Z0. revert d E Z0. induction c as [|a c IH]; intros [|b d] E Z0; try discriminate; constructor.
  - cbn [padd pscale map] in Z0. inversion Z0 as [|? ? H1 H2]; subst. apply eqm_sub0. transitivity (a + -1 * b); [mring|exact H1].
  - apply IH; [cbn in E; lia|]. cbn [padd pscale map] in Z0. inversion Z0; auto.
Qed.
