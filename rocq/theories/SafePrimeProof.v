(** Lemmas for C67: Fermat and Pocklington, a sieve bound, and the bytes of q. *)
From Coq Require Import ZArith Znumtheory List Bool Lia Permutation.
From Verif Require Import LinCodeModel MpxModel ZpLib SafePrimeModel.
Import ListNotations.
Open Scope Z_scope.

(** ** Fermat's little theorem *)
Definition zprod (l : list Z) : Z := fold_right Z.mul 1 l.
Lemma zprod_perm l l' : Permutation l l' -> zprod l = zprod l'.
Proof. unfold zprod. induction 1; cbn [fold_right] in *; try lia; congruence. Qed.
Lemma zprod_scale r a l : eqm r (zprod (map (fun x => (a * x) mod r) l)) (a ^ Z.of_nat (length l) * zprod l).
Proof.
  induction l as [|x l IH]; [reflexivity|].
  cbn [map zprod fold_right length]. fold (zprod l) (zprod (map (fun x => (a * x) mod r) l)).
  rewrite IH, eqm_mod. rewrite Nat2Z.inj_succ, Z.pow_succ_r by lia. mring.
Qed.
Lemma zprod_unit r l : prime r -> (forall x, In x l -> ~ eqm r x 0) -> ~ eqm r (zprod l) 0.
Proof.
  intros Hr. induction l as [|x l IH]; intros H.
  - cbn. intros E. apply eqm_small in E; pose proof (prime_pos r Hr); lia.
  - cbn [zprod fold_right]. fold (zprod l). intros E. apply eqm_prime_mul in E as [E|E]; auto.
    + apply (H x); [now left|exact E].
    + apply IH; auto. intros y Hy. apply H. now right.
Qed.
Lemma fermat_little r a : prime r -> ~ eqm r a 0 -> eqm r (a ^ (r - 1)) 1.
Proof.
  intros Hr Ha. pose proof (prime_pos r Hr) as P.
  set (l := map Z.of_nat (seq 1 (Z.to_nat (r - 1)))).
  assert (forall x, In x l <-> 1 <= x < r) as HI.
  { intros x. unfold l. rewrite in_map_iff. split.
    - intros (n & <- & Hn). apply in_seq in Hn. lia.
    - intros Hx. exists (Z.to_nat x). split; [lia|]. apply in_seq. lia. }
  assert (NoDup l) as ND.
  { apply FinFun.Injective_map_NoDup; [intros x y; lia|apply seq_NoDup]. }
  assert (forall x, In x l -> ~ eqm r x 0) as NZ.
  { intros x Hx E. apply HI in Hx. apply eqm_small in E; lia. }
  assert (length l = Z.to_nat (r - 1)) as L by (unfold l; now rewrite map_length, seq_length).
  assert (Permutation (map (fun x => (a * x) mod r) l) l) as PM.
  { apply NoDup_Permutation_bis.
    - assert (forall l', (forall x, In x l' -> In x l) -> NoDup l' -> NoDup (map (fun x => (a * x) mod r) l')) as G.
      { induction l' as [|x l' IH]; intros HS HN; [constructor|]. inversion HN as [|? ? N1 N2]; subst. cbn [map]. constructor.
        - intros K. apply in_map_iff in K as (y & Ey & Hy). apply N1.
          assert (In y l) as Iy by (apply HS; now right). assert (In x l) as Ix by (apply HS; now left).
          apply HI in Iy, Ix.
          assert (y = x) as <-; [|exact Hy].
          apply (eqm_small r); [lia|lia|]. apply (eqm_prime_cancel r y x a Hr Ha).
          constructor. rewrite !(Z.mul_comm _ a). exact Ey.
        - apply IH; auto. intros y Hy. apply HS. now right. }
      apply G; auto.
    - rewrite map_length. lia.
    - intros y Hy. apply in_map_iff in Hy as (x & <- & Hx). apply HI.
      pose proof (Z.mod_pos_bound (a * x) r ltac:(lia)) as B.
      assert ((a * x) mod r <> 0); [|lia]. intros E.
      assert (eqm r (a * x) 0) as E' by (constructor; rewrite E, Z.mod_0_l; lia).
      apply eqm_prime_mul in E' as [E'|E']; auto. exact (NZ x Hx E'). }
  pose proof (zprod_scale r a l) as Sc. rewrite (zprod_perm _ _ PM), L, Z2Nat.id in Sc by lia.
  apply (eqm_prime_cancel r _ _ (zprod l) Hr (zprod_unit r l Hr NZ)).
  rewrite <- Sc. mring.
Qed.

(** ** Pocklington's criterion as the code uses it *)
Lemma prime_divisor_nat (k : nat) : forall n, 1 < n -> n < Z.of_nat k -> exists r, prime r /\ (r | n).
Proof.
  induction k as [|k IH]; intros n Hn Hk; [lia|].
  destruct (prime_dec n) as [P|NP]; [exists n; split; [exact P|apply Z.divide_refl]|].
  destruct (not_prime_divide n Hn NP) as (d & Hd & D).
  destruct (IH d ltac:(lia) ltac:(lia)) as (r & Pr & Dr). exists r. split; [exact Pr|]. now apply Z.divide_trans with d.
Qed.
Lemma prime_divisor n : 1 < n -> exists r, prime r /\ (r | n).
Proof. intros Hn. apply (prime_divisor_nat (Z.to_nat (n + 1))); lia. Qed.

Lemma eqm_divide r p a b : p <> 0 -> (r | p) -> r <> 0 -> eqm p a b -> eqm r a b.
Proof.
  intros Hp D Hr E. apply eqm_sub0 in E. apply eqm_sub0. apply eqm0_divide in E; auto. apply eqm0_divide; auto.
  now apply Z.divide_trans with p.
Qed.
Lemma eqm_pow m a b n : 0 <= n -> eqm m a b -> eqm m (a ^ n) (b ^ n).
Proof.
  intros Hn E. pattern n. apply natlike_ind; auto; [reflexivity|].
  intros k Hk IH. rewrite !Z.pow_succ_r by auto. now rewrite IH, E.
Qed.
Lemma pocklington q : prime q -> (2 * q + 1) mod 3 <> 0 -> (2 ^ (2 * q)) mod (2 * q + 1) = 1 -> prime (2 * q + 1).
Proof.
  intros Hq H3 HF. pose proof (prime_pos q Hq) as Pq. set (p := 2 * q + 1) in *.
  destruct (prime_divisor p ltac:(lia)) as (r & Hr & Dr). pose proof (prime_pos r Hr) as Pr.
  assert (eqm r (2 ^ (2 * q)) 1) as E1.
  { apply (eqm_divide r p); auto; try lia. constructor. rewrite HF. symmetry. apply Z.mod_small. lia. }
  assert (~ eqm r 2 0) as N2.
  { intros E. apply eqm0_divide in E; [|lia]. apply Z.divide_pos_le in E as L; [|lia].
    assert (r = 2) as -> by lia. destruct Dr as [k Hk]. unfold p in Hk. lia. }
  pose proof (fermat_little r 2 Hr N2) as E2.
  destruct (Zdivide_dec q (r - 1)) as [D|ND].
  - (* r >= q + 1 *)
    assert (q <= r - 1) by (apply Z.divide_pos_le; auto; lia).
    destruct Dr as [k Hk]. assert (k = 1) as -> by (unfold p in Hk; nia).
    rewrite Z.mul_1_l in Hk. rewrite Hk. exact Hr.
  - (* gcd (r - 1, q) = 1, so 2^2 = 1 modulo r *)
    exfalso.
    assert (rel_prime q (r - 1)) as RP by now apply prime_rel_prime.
    destruct (rel_prime_bezout _ _ RP) as [u v Huv].
    (* u q + v (r-1) = 1; make the exponents non-negative *)
    assert (exists u' v', 0 <= u' /\ 0 <= v' /\ v' * (r - 1) = u' * q + 1) as (u' & v' & Hu & Hv & Euv).
    { set (k := Z.abs u + Z.abs v). exists (k * (r - 1) - u), (v + k * q). repeat split; unfold k; try nia. }
    assert (eqm r (2 ^ (v' * (r - 1) * 2)) 1) as F1.
    { replace (v' * (r - 1) * 2) with ((r - 1) * (2 * v')) by ring. rewrite Z.pow_mul_r by lia.
      rewrite (eqm_pow r _ 1) by (auto; lia). now rewrite Z.pow_1_l by lia. }
    assert (eqm r (2 ^ (v' * (r - 1) * 2)) (2 ^ 2)) as F2.
    { rewrite Euv. replace ((u' * q + 1) * 2) with (2 * q * u' + 2) by ring. rewrite Z.pow_add_r by nia.
      rewrite Z.pow_mul_r by lia. rewrite (eqm_pow r (2 ^ (2 * q)) 1) by (auto; lia). rewrite Z.pow_1_l by lia. mring. }
    assert (eqm r 3 0) as E3.
    { transitivity (2 ^ 2 - 1); [mring|]. rewrite <- F2, F1. mring. }
    apply eqm0_divide in E3; [|lia]. apply Z.divide_pos_le in E3 as L; [|lia].
    assert (r = 3) as -> by (destruct (Z.eq_dec r 2) as [->|]; [destruct E3; lia|lia]).
    apply H3. apply Z.mod_divide; [lia|exact Dr].
Qed.

(** ** A sieve bound: numbers of a progression that avoid zero modulo each prime *)
Definition avoids (l : list Z) (x : Z) : bool := forallb (fun s => negb (x mod s =? 0)) l.
Fixpoint count (l : list Z) (c s : Z) (n : nat) : Z :=
  match n with O => 0 | S n' => count l c s n' + (if avoids l (c + s * Z.of_nat n') then 1 else 0) end.
(** those of the progression that are zero modulo p *)
Fixpoint count0 (p : Z) (l : list Z) (c s : Z) (n : nat) : Z :=
  match n with O => 0 | S n' => count0 p l c s n' + (if avoids l (c + s * Z.of_nat n') && ((c + s * Z.of_nat n') mod p =? 0) then 1 else 0) end.
Lemma count_cons p l c s n : count (p :: l) c s n = count l c s n - count0 p l c s n.
Proof.
  induction n as [|n IH]; [reflexivity|]. cbn [count count0]. rewrite IH. cbn [avoids forallb].
  fold (avoids l (c + s * Z.of_nat n)).
  destruct ((c + s * Z.of_nat n) mod p =? 0), (avoids l (c + s * Z.of_nat n)); cbn [negb andb]; lia.
Qed.
Lemma count0_sub p l c s i0 n : 0 <= i0 < p -> rel_prime s p -> (c + s * i0) mod p = 0 ->
  count0 p l c s n = count l (c + s * i0) (s * p) (Z.to_nat ((Z.of_nat n + p - 1 - i0) / p)).
Proof.
  intros Hi RP H0. induction n as [|n IH].
  - cbn [count0]. rewrite Z.div_small by lia. reflexivity.
  - cbn [count0]. rewrite IH. set (N := Z.of_nat n).
    assert ((c + s * N) mod p = 0 <-> exists k, N = i0 + p * k) as EQ.
    { split.
      - intros H. assert ((p | s * (N - i0))) as D.
        { replace (s * (N - i0)) with ((c + s * N) - (c + s * i0)) by ring.
          apply Z.divide_sub_r; apply Z.mod_divide; auto; lia. }
        apply Gauss in D; [|now apply rel_prime_sym]. destruct D as [k Hk]. exists k. lia.
      - intros (k & ->). replace (c + s * (i0 + p * k)) with (c + s * i0 + (s * k) * p) by ring. now rewrite Z.mod_add by lia. }
    replace (Z.of_nat (S n)) with (N + 1) by lia.
    pose proof (Z.div_mod (N + p - 1 - i0) p ltac:(lia)) as D1. pose proof (Z.mod_pos_bound (N + p - 1 - i0) p ltac:(lia)) as M1.
    pose proof (Z.div_mod (N + 1 + p - 1 - i0) p ltac:(lia)) as D2. pose proof (Z.mod_pos_bound (N + 1 + p - 1 - i0) p ltac:(lia)) as M2.
    set (a := (N + p - 1 - i0) / p) in *. set (b := (N + 1 + p - 1 - i0) / p) in *.
    assert (0 <= a) by (apply Z.div_pos; lia).
    destruct (Z.eqb_spec ((c + s * N) mod p) 0) as [E|NE].
    + rewrite andb_true_r. apply EQ in E as (k & E).
      assert (a = k) as Ea by nia. assert (b = k + 1) as Eb by nia. rewrite Ea, Eb in *.
      replace (Z.to_nat (k + 1)) with (S (Z.to_nat k)) by lia. cbn [count].
      rewrite Z2Nat.id by lia. replace (c + s * i0 + s * p * k) with (c + s * N) by (rewrite E; ring). reflexivity.
    + rewrite andb_false_r, Z.add_0_r. f_equal. f_equal.
      destruct (Z.eq_dec a b) as [|G]; [auto|exfalso]. apply NE, EQ. exists a. nia.
Qed.
Lemma count_bound l : forall c s n, (forall p, In p l -> 1 < p /\ rel_prime s p) -> ForallOrdPairs rel_prime l ->
  Z.abs (zprod l * count l c s n - Z.of_nat n * zprod (map Z.pred l)) <= (2 ^ Z.of_nat (length l) - 1) * zprod l.
Proof.
  induction l as [|p l IH]; intros c s n Hl Hp.
  - assert (count [] c s n = Z.of_nat n) as ->.
    2:{ change (zprod (map Z.pred [])) with 1. change (zprod []) with 1. change (2 ^ Z.of_nat (length (@nil Z))) with 1. lia. }
    induction n as [|n IHn]; [reflexivity|]. cbn [count avoids forallb]. rewrite IHn. lia.
  - inversion Hp as [|? ? F1 F2]; subst. rewrite Forall_forall in F1.
    destruct (Hl p (or_introl eq_refl)) as [Pp RP].
    (* where the progression meets zero modulo p *)
    destruct (rel_prime_bezout _ _ RP) as [u v Huv].
    set (i0 := (- c * u) mod p). assert (0 <= i0 < p) as Hi by (apply Z.mod_pos_bound; lia).
    assert ((c + s * i0) mod p = 0) as H0.
    { unfold i0. rewrite <- Z.add_mod_idemp_r, Z.mul_mod_idemp_r, Z.add_mod_idemp_r by lia.
      replace (c + s * (- c * u)) with (c * (1 - u * s)) by ring. replace (1 - u * s) with (v * p) by lia.
      rewrite Z.mul_assoc. apply Z.mod_mul. lia. }
    rewrite count_cons, (count0_sub p l c s i0 n Hi RP H0).
    set (n' := (Z.of_nat n + p - 1 - i0) / p).
    pose proof (Z.div_mod (Z.of_nat n + p - 1 - i0) p ltac:(lia)) as D1. pose proof (Z.mod_pos_bound (Z.of_nat n + p - 1 - i0) p ltac:(lia)) as M1.
    fold n' in D1. assert (0 <= n') as Hn' by (apply Z.div_pos; lia).
    assert (forall x, In x l -> 1 < x /\ rel_prime s x) as Hl' by (intros x Hx; apply Hl; now right).
    pose proof (IH c s n Hl' F2) as B1.
    assert (forall x, In x l -> 1 < x /\ rel_prime (s * p) x) as Hl''.
    { intros x Hx. split; [apply Hl'; auto|]. apply rel_prime_sym, rel_prime_mult; apply rel_prime_sym; [apply Hl'; auto|auto]. }
    pose proof (IH (c + s * i0) (s * p) (Z.to_nat n') Hl'' F2) as B2. rewrite Z2Nat.id in B2 by lia.
    cbn [map length zprod fold_right]. fold (zprod l) (zprod (map Z.pred l)).
    rewrite Nat2Z.inj_succ, Z.pow_succ_r by lia.
    assert (0 <= zprod (map Z.pred l) <= zprod l) as BF.
    { clear - Hl'. induction l as [|x l IH]; [cbn; lia|]. cbn [map zprod fold_right]. fold (zprod l) (zprod (map Z.pred l)).
      destruct (Hl' x (or_introl eq_refl)). specialize (IH (fun y Hy => Hl' y (or_intror Hy))). nia. }
    set (P := zprod l) in *. set (F := zprod (map Z.pred l)) in *. set (K := 2 ^ Z.of_nat (length l)) in *.
    set (A := count l c s n) in *. set (B := count l (c + s * i0) (s * p) (Z.to_nat n')) in *.
    assert (- p < Z.of_nat n - p * n' < p) as BN by lia.
    assert (Z.abs (p * (P * A - Z.of_nat n * F)) <= p * ((K - 1) * P)) as C1 by (rewrite Z.abs_mul, (Z.abs_eq p) by lia; apply Z.mul_le_mono_nonneg_l; lia).
    assert (Z.abs (p * (P * B - n' * F)) <= p * ((K - 1) * P)) as C2 by (rewrite Z.abs_mul, (Z.abs_eq p) by lia; apply Z.mul_le_mono_nonneg_l; lia).
    assert (Z.abs ((Z.of_nat n - p * n') * F) <= p * P) as C3.
    { rewrite Z.abs_mul, (Z.abs_eq F) by lia. apply Z.mul_le_mono_nonneg; lia. }
    replace (p * P * (A - B) - Z.of_nat n * (Z.pred p * F))
      with (p * (P * A - Z.of_nat n * F) - p * (P * B - n' * F) + (Z.of_nat n - p * n') * F).
    2:{ rewrite <- Z.sub_1_r. ring. }
    replace ((2 * K - 1) * (p * P)) with (p * ((K - 1) * P) + p * ((K - 1) * P) + p * P) by ring. lia.
Qed.
Lemma count_witness l c s n : 0 < count l c s n -> exists i, (i < n)%nat /\ avoids l (c + s * Z.of_nat i) = true.
Proof.
  induction n as [|n IH]; cbn [count]; [lia|]. intros H.
  destruct (avoids l (c + s * Z.of_nat n)) eqn:E; [exists n; auto|].
  destruct IH as (i & Hi & E'); [lia|]. exists i. auto.
Qed.

(** The search loop always finds a candidate. *)
Definition big_primes : list Z := [5; 7; 11; 13; 17; 19; 23; 29; 31; 37; 41; 43; 47; 53].
Lemma small_gcd x p : Z.gcd x p = 1 -> rel_prime x p. Proof. intros H. now apply Zgcd_1_rel_prime. Qed.
Lemma ord_pairs (l : list Z) : forallb (fun x => forallb (fun y => (Z.gcd x y =? 1) || (x =? y)) l) l = true ->
  NoDup l -> ForallOrdPairs rel_prime l.
Proof.
  intros H ND. rewrite forallb_forall in H.
  assert (forall l', (forall x, In x l' -> In x l) -> NoDup l' -> ForallOrdPairs rel_prime l') as G.
  { induction l' as [|x l' IH]; intros HS HN; [constructor|]. inversion HN as [|? ? N1 N2]; subst. constructor.
    - apply Forall_forall. intros y Hy. assert (In x l) as Ix by (apply HS; now left). assert (In y l) as Iy by (apply HS; now right).
      specialize (H x Ix). rewrite forallb_forall in H. specialize (H y Iy). apply orb_true_iff in H as [H|H].
      + apply small_gcd. now apply Z.eqb_eq.
      + apply Z.eqb_eq in H as ->. contradiction.
    - apply IH; auto. intros y Hy. apply HS. now right. }
  apply G; auto.
Qed.
Lemma candidate_exists m : exists i, (i < search_rounds)%nat /\
  (m + 2 * Z.of_nat i) mod 3 = 2 /\ avoids big_primes (m + 2 * Z.of_nat i) = true.
Proof.
  (* m + 2 i0 = 2 modulo 3 *)
  set (i0 := (m + 1) mod 3). pose proof (Z.mod_pos_bound (m + 1) 3 ltac:(lia)) as B. fold i0 in B.
  assert (forall j, (m + 2 * (i0 + 3 * j)) mod 3 = 2) as H3.
  { intros j. replace (m + 2 * (i0 + 3 * j)) with ((m + 2 * i0) + (2 * j) * 3) by ring. rewrite Z.mod_add by lia.
    unfold i0. pose proof (Z.div_mod (m + 1) 3 ltac:(lia)) as D. fold i0 in D.
    symmetry. apply Z.mod_unique_pos with (q := (m + 1) / 3 + i0 - 1); fold i0; lia. }
  assert (0 < count big_primes (m + 2 * i0) 6 (Z.to_nat 174762)) as C.
  { pose proof (count_bound big_primes (m + 2 * i0) 6 (Z.to_nat 174762)) as CB.
    rewrite Z2Nat.id in CB by lia.
    assert (forall p, In p big_primes -> 1 < p /\ rel_prime 6 p) as H1.
    { intros p Hp. cbn [In big_primes] in Hp.
      assert (1 < p /\ Z.gcd 6 p = 1) as [? ?]; [|split; [auto|now apply small_gcd]].
      repeat (destruct Hp as [<-|Hp]; [split; [lia|reflexivity]|]). destruct Hp. }
    assert (ForallOrdPairs rel_prime big_primes) as H2.
    { apply ord_pairs; [vm_compute; reflexivity|]. unfold big_primes. repeat constructor; cbn [In]; lia. }
    specialize (CB H1 H2).
    set (x := count big_primes (m + 2 * i0) 6 (Z.to_nat 174762)) in *. clearbody x.
    change (length big_primes) with 14%nat in CB.
    assert (0 < zprod big_primes) by (vm_compute; reflexivity).
    assert ((2 ^ Z.of_nat 14 - 1) * zprod big_primes < 174762 * zprod (map Z.pred big_primes)) by (vm_compute; reflexivity).
    nia. }
  apply count_witness in C as (j & Hj & Aj).
  exists (Z.to_nat (i0 + 3 * Z.of_nat j)). split.
  - unfold search_rounds. apply Z2Nat.inj_lt; [lia|lia|]. change (2 ^ 19) with 524288. lia.
  - rewrite Z2Nat.id by lia. split; [apply H3|].
    replace (m + 2 * (i0 + 3 * Z.of_nat j)) with (m + 2 * i0 + 6 * Z.of_nat j) by ring. exact Aj.
Qed.
