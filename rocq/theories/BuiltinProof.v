(** From checked certificates to claims about runs of the built-in circuits. *)
From Coq Require Import ZArith NArith List Bool Arith Lia FMapPositive.
From Verif Require Import LinCodeModel CircuitModel CircuitProof CircuitProps CircuitCheck.
Import ListNotations.
Open Scope nat_scope.

Definition nsum (l : list N) : N := fold_right N.add 0%N l.
Definition runnable_b (c : circuit) : bool :=
  (nsum (niw c) <=? nw c)%N && (nsum (now c) <=? nw c)%N && wf_map (nw c) (nsum (niw c)) (PositiveMap.empty unit) (gates c).
Lemma runnable_sound : forall c, runnable_b c = true -> runnable c.
Proof.
  intros c H. unfold runnable_b in H. repeat rewrite andb_true_iff in H. destruct H as [[H1 H2] H3].
  apply N.leb_le in H1, H2. unfold runnable, total. fold (nsum (niw c)) (nsum (now c)).
  split; [lia|]. split; [lia|]. rewrite N2Nat.id. apply wf_check. exact H3.
Qed.
Lemma out_wires_from : forall c, (nsum (now c) <= nw c)%N -> out_wires c = wires_from (nw c - nsum (now c)) (N.to_nat (nsum (now c))).
Proof.
  intros c H. unfold out_wires, wires_from, total. fold (nsum (now c)).
  apply (nth_ext _ _ 0%N 0%N); [rewrite !map_length, !seq_length; reflexivity|].
  intros i Hi. rewrite map_length, seq_length in Hi.
  rewrite (nth_indep (map N.of_nat _) 0%N (N.of_nat 0)) by (rewrite map_length, seq_length; lia).
  rewrite map_nth, seq_nth by lia.
  rewrite (nth_indep (map _ (seq 0 _)) 0%N ((fun k => (nw c - nsum (now c) + N.of_nat k)%N) 0)) by (rewrite map_length, seq_length; lia).
  rewrite (map_nth (fun k => (nw c - nsum (now c) + N.of_nat k)%N)), seq_nth by lia. lia.
Qed.

(** The number input [j] puts on its wires. *)
Lemma input_number : forall (v : N -> bool) bits j x,
  (forall k, k < bits -> v (N.of_nat (j * bits + k)) = N.testbit x (N.of_nat k)) -> (x < 2 ^ N.of_nat bits)%N ->
  number (map v (wires_from (N.of_nat (j * bits)) bits)) = x.
Proof.
  intros v bits j x H Hx. rewrite <- (N.mod_small x (2 ^ N.of_nat bits)) by exact Hx. rewrite <- number_bits. f_equal.
  unfold wires_from. rewrite map_map. apply map_ext_in. intros k Hk. apply in_seq in Hk.
  rewrite <- H by lia. f_equal. lia.
Qed.

(** One output of [w] bits, inputs of 64 bits: a relation between the numbers on the wires, proved
    from the gates, is a relation between inputs and result of a run. *)
Lemma run_one : forall c inputs o (R : N -> Prop) w, runnable_b c = true -> forallb (fun n => n =? 64)%N (niw c) = true ->
  length inputs = length (niw c) -> now c = [w] -> (0 < w <= 64)%N -> Forall (fun x => x < 2 ^ 64)%N inputs ->
  (forall v, Forall (holds v) (gates c) ->
     (forall j, j < length inputs -> number (map v (wires_from (N.of_nat (j * 64)) 64)) = nth j inputs 0%N) ->
     R (number (map v (wires_from (nw c - w) (N.to_nat w))))) ->
  exists r, run_span 64 c inputs [o] = Val [r] /\ R r.
Proof.
  intros c inputs o R w Hr Hn Hlen Hnow Hw Hin HR.
  destruct (run_span_correct 64 c inputs [o] (runnable_sound c Hr) Hlen) as [v [Hv [Hg E]]].
  - rewrite forallb_forall in Hn. apply Forall_forall. intros x Hx. apply N.eqb_eq. exact (Hn x Hx).
  - rewrite Hnow. constructor; [lia|constructor].
  - rewrite Hnow. reflexivity.
  - rewrite Hnow. cbn [length]. lia.
  - exists (number (map v (wires_from (nw c - w) (N.to_nat w)))). split.
    + rewrite E. unfold out_values. rewrite Hnow. cbn [length skipn map pieces app].
      unfold runnable_b in Hr. repeat rewrite andb_true_iff in Hr. destruct Hr as [[_ Hs] _]. apply N.leb_le in Hs.
      rewrite out_wires_from by exact Hs. rewrite Hnow. unfold nsum. cbn [fold_right]. rewrite N.add_0_r. do 4 f_equal.
      rewrite firstn_all2; [reflexivity|]. unfold wires_from. rewrite map_length, seq_length. lia.
    + apply HR; [exact Hg|]. intros j Hj. apply input_number.
      * intros k Hk. apply Hv; assumption.
      * rewrite Forall_forall in Hin. apply Hin. apply nth_In. exact Hj.
Qed.

(** [weights] as in [lin]: the claims of the linear certificates, back in N. *)
Definition M64 : Z := (2 ^ 64)%Z.
Lemma mod64 : forall x y, (x < 2 ^ 64)%N -> (Z.of_N x mod M64 = y mod M64)%Z -> Z.of_N x = (y mod M64)%Z.
Proof. intros x y Hx H. rewrite <- H. symmetry. apply Z.mod_small. unfold M64. change (2 ^ 64)%Z with (Z.of_N (2 ^ 64)). lia. Qed.
Lemma wires_bound : forall v from, (number (map v (wires_from from 64)) < 2 ^ 64)%N.
Proof.
  intros v from. pose proof (number_bound (map v (wires_from from 64))) as B. unfold wires_from in *.
  rewrite !map_length, seq_length in B. exact B.
Qed.

(** ** Certificates *)
(** A full adder at bit [k]: s and the carry c from x, y, z. *)
Definition fa (k : nat) (x y z s c : N) : step :=
  Step (2 ^ Z.of_nat k) [x; y; z] [(1, x); (1, y); (1, z); (-1, s); (-2, c)]%Z 0.
Definition ha (k : nat) (x y s c : N) : step :=
  Step (2 ^ Z.of_nat k) [x; y] [(1, x); (1, y); (-1, s); (-2, c)]%Z 0.
(** The highest bit, whose carry is lost. *)
Definition fa_top (k : nat) (x y z s : N) : step := Step (2 ^ Z.of_nat k) [x; y; z] [(1, x); (1, y); (1, z); (-1, s)]%Z 0.
Definition ha_top (k : nat) (x y s : N) : step := Step (2 ^ Z.of_nat k) [x; y] [(1, x); (1, y); (-1, s)]%Z 0.
(** A full subtractor: x - y - z = s - 2 c. *)
Definition fs (k : nat) (x y z s c : N) : step :=
  Step (2 ^ Z.of_nat k) [x; y; z] [(1, x); (-1, y); (-1, z); (-1, s); (2, c)]%Z 0.

(** ** All bits zero *)
Section Zeros.
  (** Wires below [n] are the input bits; [m] gives for a wire the bits it says are all zero. *)
  Variable n : N.
  Fixpoint zeros (gs : list gate) (m : PositiveMap.t N) : PositiveMap.t N :=
    match gs with
    | [] => m
    | g :: gs' =>
        match g_op g with
        | INV => if (arg g 0 <? n)%N then zeros gs' (PositiveMap.add (key (out g)) (2 ^ arg g 0)%N m) else m
        | AND => match PositiveMap.find (key (arg g 0)) m, PositiveMap.find (key (arg g 1)) m with
                 | Some a, Some b => zeros gs' (PositiveMap.add (key (out g)) (N.lor a b) m) | _, _ => m end
        | _ => m
        end
    end.
  Lemma zeros_sound : forall v x, (forall i, (i < n)%N -> v i = N.testbit x i) ->
    forall gs m, Forall (holds v) gs -> (forall i k, PositiveMap.find (key i) m = Some k -> v i = (N.land x k =? 0)%N) ->
    forall i k, PositiveMap.find (key i) (zeros gs m) = Some k -> v i = (N.land x k =? 0)%N.
  Proof.
    intros v x Hx. induction gs as [|g gs IH]; intros m H Hm i k F; [exact (Hm i k F)|].
    inversion H as [|? ? Hg Hgs]; subst. cbn [zeros] in F. unfold holds, gate_value in Hg.
    assert (Hadd : forall K, v (out g) = (N.land x K =? 0)%N ->
       forall i k, PositiveMap.find (key i) (PositiveMap.add (key (out g)) K m) = Some k -> v i = (N.land x k =? 0)%N).
    { intros K HK j l Hf. destruct (N.eq_dec j (out g)) as [->|Hn].
      - rewrite PositiveMap.gss in Hf. injection Hf as <-. exact HK.
      - rewrite PositiveMap.gso in Hf by (intro E; apply Hn, key_inj; exact E). exact (Hm j l Hf). }
    destruct (g_op g); try exact (Hm i k F).
    - destruct (PositiveMap.find (key (arg g 0)) m) as [a|] eqn:Ea; [|exact (Hm i k F)].
      destruct (PositiveMap.find (key (arg g 1)) m) as [b|] eqn:Eb; [|exact (Hm i k F)].
      refine (IH _ Hgs (Hadd _ _) i k F). rewrite Hg, (Hm _ _ Ea), (Hm _ _ Eb).
      rewrite N.land_lor_distr_r. apply Bool.eq_iff_eq_true. rewrite andb_true_iff, !N.eqb_eq. symmetry. apply N.lor_eq_0_iff.
    - destruct (N.ltb_spec (arg g 0) n) as [Hl|]; [|exact (Hm i k F)].
      refine (IH _ Hgs (Hadd _ _) i k F). rewrite Hg, Hx by exact Hl.
      destruct (N.testbit x (arg g 0)) eqn:T; cbn [negb]; symmetry.
      + apply N.eqb_neq. intro E. assert (B : N.testbit (N.land x (2 ^ arg g 0)) (arg g 0) = false) by (rewrite E; apply N.bits_0).
        rewrite N.land_spec, N.pow2_bits_true, T in B. discriminate.
      + apply N.eqb_eq. apply N.bits_inj_0. intro j. rewrite N.land_spec, N.pow2_bits_eqb.
        destruct (N.eqb_spec (arg g 0) j) as [<-|]; [rewrite T|rewrite andb_false_r]; reflexivity.
  Qed.
End Zeros.

(** ** Products *)
(** [p] is the AND of two wires. *)
Definition is_and (gm : PositiveMap.t gate) (a b p : N) : bool :=
  match table gm [a; b] 1 p with Some t => (N.land t 15 =? 8)%N | None => false end.
Lemma is_and_sound : forall gs v, Forall (holds v) gs -> forall a b p, is_and (gate_map gs) a b p = true -> v p = v a && v b.
Proof.
  intros gs v H a b p E. unfold is_and in E. destruct (table (gate_map gs) [a; b] 1 p) as [t|] eqn:T; [|discriminate].
  apply N.eqb_eq in E. rewrite (table_sound gs v H [a; b] ltac:(cbn; lia) 1 p t T). unfold point. cbn [map number].
  assert (B : forall k, (k < 4)%N -> N.testbit t k = N.testbit 8 k).
  { intros k Hk. rewrite <- E, N.land_spec. assert (k = 0 \/ k = 1 \/ k = 2 \/ k = 3)%N as [-> |[-> |[-> | ->]]] by lia; rewrite andb_true_r; reflexivity. }
  destruct (v a), (v b); cbn [andb]; apply B; lia.
Qed.
(** Row [i]: the products of bit [i] of the first number with the lowest bits of the second. *)
Fixpoint row_check (gm : PositiveMap.t gate) (a b : N) (row : list N) : bool :=
  match row with [] => true | p :: row' => is_and gm a b p && row_check gm a (b + 1)%N row' end.
Fixpoint row_terms (m : Z) (row : list N) : list (Z * N) :=
  match row with [] => [] | p :: row' => (m, p) :: row_terms (2 * m) row' end.
Lemma row_sound : forall gs v, Forall (holds v) gs -> forall row a b m, row_check (gate_map gs) a b row = true ->
  lin v (row_terms m row) = (m * b2z (v a) * Z.of_N (number (map v (wires_from b (length row)))))%Z.
Proof.
  intros gs v H. induction row as [|p row IH]; intros a b m E; [cbn; lia|].
  cbn [row_check] in E. apply andb_true_iff in E. destruct E as [E1 E2].
  cbn [row_terms]. unfold lin. cbn [fold_right fst snd]. fold (lin v (row_terms (2 * m) row)). rewrite (IH a _ _ E2).
  rewrite (is_and_sound gs v H _ _ _ E1). unfold wires_from. cbn [length seq map]. rewrite N.add_0_r. cbn [number].
  rewrite <- seq_shift, !map_map.
  rewrite (map_ext (fun x => v (b + 1 + N.of_nat x)%N) (fun x => v (b + N.of_nat (S x))%N)) by (intro x; f_equal; lia).
  set (q := number _). destruct (v a), (v b); cbn [andb b2z]; lia.
Qed.
Fixpoint rows_check (gm : PositiveMap.t gate) (a b : N) (n : nat) (rows : list (list N)) : bool :=
  match n, rows with
  | O, [] => true
  | S n', r :: rows' => (length r =? n) && row_check gm a b r && rows_check gm (a + 1)%N b n' rows'
  | _, _ => false
  end.
Fixpoint rows_terms (m : Z) (rows : list (list N)) : list (Z * N) :=
  match rows with [] => [] | r :: rows' => row_terms m r ++ rows_terms (2 * m) rows' end.
Lemma number_low : forall v b n m, m <= n ->
  number (map v (wires_from b m)) = (number (map v (wires_from b n)) mod 2 ^ N.of_nat m)%N.
Proof.
  intros v b n m H. replace n with (m + (n - m)) by lia. unfold wires_from. rewrite seq_app, !map_app, number_app, !map_length, seq_length.
  rewrite (N.mul_comm (2 ^ _)), N.mod_add by (apply N.pow_nonzero; lia). symmetry. apply N.mod_small.
  pose proof (number_bound (map v (map (fun k => (b + N.of_nat k)%N) (seq 0 m)))) as B. rewrite !map_length, seq_length in B. exact B.
Qed.
Lemma Zmod_divides_eq : forall x y m k, m <> 0%Z -> (x = y + k * m)%Z -> (x mod m = y mod m)%Z.
Proof. intros x y m k Hm ->. apply Z.mod_add. exact Hm. Qed.
Lemma rows_sound : forall gs v, Forall (holds v) gs -> forall rows a b n e total, rows_check (gate_map gs) a b n rows = true -> n + e = total ->
  (lin v (rows_terms (2 ^ Z.of_nat e) rows) mod 2 ^ Z.of_nat total =
   (2 ^ Z.of_nat e * Z.of_N (number (map v (wires_from a n))) * Z.of_N (number (map v (wires_from b total)))) mod 2 ^ Z.of_nat total)%Z.
Proof.
  intros gs v H. induction rows as [|r rows IH]; intros a b n e tot E Ht; destruct n as [|n]; cbn [rows_check rows_terms] in *; try discriminate.
  - f_equal. cbn [wires_from seq map number]. change (lin v []) with 0%Z. lia.
  - repeat rewrite andb_true_iff in E. destruct E as [[E1 E2] E3]. apply Nat.eqb_eq in E1.
    rewrite lin_app, (row_sound gs v H _ _ _ _ E2), E1.
    replace (2 * 2 ^ Z.of_nat e)%Z with (2 ^ Z.of_nat (S e))%Z by (rewrite Nat2Z.inj_succ, Z.pow_succ_r by lia; reflexivity).
    assert (HM : (2 ^ Z.of_nat tot <> 0)%Z) by (apply Z.pow_nonzero; lia).
    rewrite Z.add_mod, (IH _ _ _ (S e) tot E3) by (exact HM || lia). rewrite <- Z.add_mod by exact HM.
    rewrite (number_low v b tot (S n)) by lia.
    set (B := number (map v (wires_from b tot))).
    assert (EA : number (map v (wires_from a (S n))) = ((if v a then 1 else 0) + 2 * number (map v (wires_from (a + 1) n)))%N).
    { unfold wires_from. cbn [seq map]. rewrite N.add_0_r. cbn [number]. f_equal. f_equal. rewrite <- seq_shift, !map_map.
      f_equal. apply map_ext. intro x. f_equal. lia. }
    rewrite EA. set (A := number (map v (wires_from (a + 1) n))).
    pose proof (N.div_mod B (2 ^ N.of_nat (S n)) ltac:(apply N.pow_nonzero; lia)) as D.
    set (q := (B / 2 ^ N.of_nat (S n))%N) in *. set (lo := (B mod 2 ^ N.of_nat (S n))%N) in *.
    apply Zmod_divides_eq with (k := (- Z.of_N (if v a then 1 else 0) * Z.of_N q)%Z); [exact HM|].
    rewrite D at 1 2. rewrite !N2Z.inj_add, !N2Z.inj_mul, N2Z.inj_pow, nat_N_Z.
    replace (2 ^ Z.of_nat tot)%Z with (2 ^ Z.of_nat (S n) * 2 ^ Z.of_nat e)%Z by (rewrite <- Z.pow_add_r by lia; f_equal; lia).
    rewrite (Nat2Z.inj_succ e), Z.pow_succ_r by lia.
    set (P := (2 ^ Z.of_nat e)%Z). set (Q := (Z.of_N 2 ^ Z.of_nat (S n))%Z). change (2 ^ Z.of_nat (S n))%Z with Q.
    destruct (v a); cbn [b2z]; nia.
Qed.

(** The end of the argument for a result of 64 bits that is [y] modulo 2^64. *)
Lemma finish64 : forall (v : N -> bool) from y d, ((Z.of_N (number (map v (wires_from from 64))) + d) mod M64 = 0)%Z ->
  ((y + d) mod M64 = 0)%Z -> Z.of_N (number (map v (wires_from from 64))) = (y mod M64)%Z.
Proof.
  intros v from y d H1 H2. apply mod64; [apply wires_bound|].
  apply Z.mod_divide in H1; [|discriminate]. apply Z.mod_divide in H2; [|discriminate].
  destruct H1 as [p Hp]. destruct H2 as [q Hq]. apply (Zmod_divides_eq _ _ _ (p - q)); [discriminate|lia].
Qed.
