(** C60: running a circuit with the plaintext executor. *)
From Coq Require Import List NArith Bool Arith Lia.
From Verif Require Import LinCodeModel CircuitModel CircuitProof.
Import ListNotations.
Open Scope nat_scope.

(** A run on a fresh executor: set up the inputs, execute, read the outputs. *)
Definition run_span (bits : nat) (c : circuit) (inputs outputs : list N) : outcome (list N) :=
  bind (setup_span bits c inputs []) (fun w => bind (exec (gates c) w) (fun w' => finalize_span bits c w' outputs)).
Definition run_bytes (c : circuit) (bytes : list N) : outcome (list N) :=
  bind (setup_bytes c bytes []) (fun w => bind (exec (gates c) w) (finalize_bytes c)).

(** The wires of the output values: the last ones, value after value. *)
Definition out_wires (c : circuit) : list N := map N.of_nat (seq (N.to_nat (nw c) - total (now c)) (total (now c))).
Definition out_values (c : circuit) : list (list N) := pieces (map N.to_nat (now c)) (out_wires c).

(** The part of the code's circuits the theorem is about: gates in order, on wires that exist. *)
Definition runnable (c : circuit) : Prop :=
  total (niw c) <= N.to_nat (nw c) /\ total (now c) <= N.to_nat (nw c) /\
  wf (nw c) (fun i => (i < N.of_nat (total (niw c)))%N) (gates c).

(** Whatever the wires held before, executing keeps the inputs, satisfies every gate, and does
    not leave the wires. *)
Theorem exec_gates : forall c w, runnable c -> length w = N.to_nat (nw c) ->
  exists w', exec (gates c) w = Val w' /\ length w' = N.to_nat (nw c) /\
    (forall i, (i < N.of_nat (total (niw c)))%N -> wire w' i = wire w i) /\ Forall (holds (wire w')) (gates c).
Proof.
  intros c w [Hi [Ho Hwf]] Hl. apply (exec_inv (gates c) (nw c) _ w Hwf Hl). intros i H. lia.
Qed.
(** The gates determine every wire they write from the inputs: there is only one outcome. *)
Theorem wires_determined : forall c v v', runnable c ->
  (forall i, (i < N.of_nat (total (niw c)))%N -> v i = v' i) -> Forall (holds v) (gates c) -> Forall (holds v') (gates c) ->
  forall i, (i < N.of_nat (total (niw c)))%N \/ In i (map out (gates c)) -> v i = v' i.
Proof.
  intros c v v' [Hi [Ho Hwf]] Hd H H' i Hw. apply (unique (gates c) (nw c) _ v v' Hwf Hd H H' i). apply written_iff. exact Hw.
Qed.

Lemma total_uniform : forall l b, Forall (fun n => n = N.of_nat b) l -> total l = b * length l.
Proof.
  intros l b H. unfold total. induction H as [|x l Hx H IH]; cbn [fold_right length]; [lia|]. subst x. lia.
Qed.

(** Values in, values out: with inputs of exactly the width of T, and outputs whose widths read
    the same from both ends (in particular equal widths), the executor returns, for every input,
    the outputs of the valuation of the circuit on these inputs. *)
Theorem run_span_correct : forall bits c inputs outputs, runnable c ->
  length inputs = length (niw c) -> Forall (fun n => n = N.of_nat bits) (niw c) ->
  Forall (fun n => (0 < n <= N.of_nat bits)%N) (now c) -> rev (now c) = now c -> length (now c) <= length outputs ->
  exists v, (forall j k, j < length inputs -> k < bits -> v (N.of_nat (j * bits + k)) = N.testbit (nth j inputs 0%N) (N.of_nat k)) /\
    Forall (holds v) (gates c) /\
    run_span bits c inputs outputs =
      Val (map (fun ws => number (map v ws)) (out_values c) ++ skipn (length (now c)) outputs).
Proof.
  intros bits c inputs outputs Hr Hlen Hw Hn Hpal Ho. pose proof Hr as [Hi [Hout Hwf]].
  unfold run_span, setup_span. rewrite Hlen, Nat.eqb_refl. cbn [bind app].
  set (w := resize (N.to_nat (nw c)) (image bits inputs)).
  destruct (exec_gates c w Hr ltac:(unfold w; apply length_resize)) as [w' [E [L [K F]]]]. rewrite E. cbn [bind].
  exists (wire w'). pose proof (total_uniform _ _ Hw) as Ht. rewrite Ht in K. split; [|split; [exact F|]].
  - intros j k Hj Hk.
    assert (j * bits + k < bits * length (niw c)) by nia.
    rewrite K by lia. unfold wire, w. rewrite Nat2N.id, nth_resize by lia. apply nth_image; [lia|exact Hk].
  - unfold finalize_span. apply Nat.leb_le in Ho. rewrite Ho. apply Nat.leb_le in Ho.
    assert (Hf : forallb (fun n => (n <=? N.of_nat bits)%N) (now c) = true).
    { apply forallb_forall. intros n Hin. rewrite Forall_forall in Hn. apply N.leb_le. destruct (Hn n Hin). assumption. }
    rewrite Hf. cbn [andb]. rewrite total_sum in Hout.
    rewrite final_span_ok; [|lia|assumption|lia|lia|].
    2:{ apply Forall_impl with (2 := Hn). intros n Hx. lia. }
    f_equal. f_equal. rewrite <- map_rev, Hpal. unfold out_values, out_wires. rewrite total_sum.
    rewrite tail_wires by lia. rewrite L.
    rewrite pieces_map, map_map. reflexivity.
Qed.

(** Bytes in, bytes out: bit [k] of byte [j] is wire [8 j + k]; the result is the output number
    (output wires, lowest first) in big endian bytes, provided it has whole bytes. *)
Theorem run_bytes_correct : forall c bytes, runnable c ->
  total (niw c) = 8 * length bytes -> (N.of_nat (total (niw c)) < 2 ^ 32)%N -> total (now c) mod 8 = 0 ->
  exists v, (forall j k, j < length bytes -> k < 8 -> v (N.of_nat (8 * j + k)) = N.testbit (nth j bytes 0%N) (N.of_nat k)) /\
    Forall (holds v) (gates c) /\
    run_bytes c bytes =
      Val (rev (map (fun ws => number (map v ws)) (pieces (repeat 8 (total (now c) / 8)) (out_wires c)))).
Proof.
  intros c bytes Hr Hlen Hsmall Hm. pose proof Hr as [Hi [Hout Hwf]].
  assert (Hsum : sum32 (niw c) = N.of_nat (total (niw c))).
  { unfold sum32, total in *. clear - Hsmall. rewrite N2Nat.id in *.
    assert (G : forall l a, (a + fold_right N.add 0 l < 2 ^ 32)%N ->
      fold_left (fun a x => ((a + x) mod 2 ^ 32)%N) l a = (a + fold_right N.add 0 l)%N).
    { induction l as [|x l IH]; intros a Ha; cbn [fold_left fold_right] in *; [lia|].
      rewrite N.mod_small by lia. rewrite IH by lia. lia. }
    rewrite G by lia. lia. }
  unfold run_bytes, setup_bytes. rewrite Hsum, Hlen.
  destruct (N.eqb_spec (N.of_nat (8 * length bytes)) (8 * N.of_nat (length bytes))) as [_|]; [|lia].
  destruct (Nat.leb_spec (length bytes) ((N.to_nat (nw c) + 7) / 8)) as [_|Hbad].
  2:{ exfalso. assert (length bytes * 8 <= N.to_nat (nw c) + 7) by lia.
      apply (Nat.div_le_mono _ _ 8) in H; [|lia]. rewrite Nat.div_mul in H; lia. }
  cbn [bind]. assert (Limg := length_image 8 bytes). rewrite firstn_all2 by lia.
  set (w := image 8 bytes ++ skipn (length (image 8 bytes)) (resize (N.to_nat (nw c)) [])).
  assert (Lw : length w = N.to_nat (nw c)).
  { unfold w. rewrite app_length, skipn_length, length_resize. lia. }
  destruct (exec_gates c w Hr Lw) as [w' [E [L [K F]]]]. rewrite E. cbn [bind].
  exists (wire w'). split; [|split; [exact F|]].
  - intros j k Hj Hk. rewrite K by lia. unfold wire, w. rewrite Nat2N.id, app_nth1 by lia.
    rewrite (Nat.mul_comm 8 j). apply nth_image; assumption.
  - unfold finalize_bytes. pose proof (Nat.div_mod (total (now c)) 8 ltac:(lia)) as Hd. rewrite Hm, Nat.add_0_r in Hd.
    assert (Hk : (total (now c) + 7) / 8 = total (now c) / 8).
    { rewrite Hd at 1. rewrite Nat.mul_comm, Nat.div_add_l by lia. replace (7 / 8) with 0 by reflexivity. lia. }
    rewrite Hk. rewrite final_bytes_ok by lia. cbn [bind]. rewrite !rev_involutive. f_equal. f_equal.
    rewrite <- Hd. rewrite tail_wires by lia. rewrite L.
    unfold out_wires. rewrite pieces_map, map_map. reflexivity.
Qed.

(** A test for circuits whose gates write the wires in order. *)
Fixpoint wf_b (n : N) (defined : N) (gs : list gate) : bool :=
  match gs with
  | [] => true
  | g :: gs' => (match g_op g with MAND => false | _ => true end) && (arity (g_op g) <=? length (iw g)) && (1 <=? length (ow g)) &&
      forallb (fun i => (i <? defined)%N) (reads g) && (out g =? defined)%N && (defined <? n)%N && wf_b n (defined + 1)%N gs'
  end.
Lemma wf_b_sound : forall gs n d (P : N -> Prop), (forall i, P i <-> (i < d)%N) -> wf_b n d gs = true -> wf n P gs.
Proof.
  induction gs as [|g gs IH]; intros n d P HP H; [exact I|]. cbn [wf_b wf] in *.
  repeat rewrite andb_true_iff in H. destruct H as [[[[[[H1 H2] H3] H4] H5] H6] H7].
  apply Nat.leb_le in H2, H3. apply N.eqb_eq in H5. apply N.ltb_lt in H6. rewrite forallb_forall in H4.
  split; [|split; [|split; [|split]]].
  - split; [intro E; rewrite E in H1; discriminate|]. auto.
  - apply Forall_forall. intros i Hi. apply HP. apply N.ltb_lt. apply H4. exact Hi.
  - rewrite HP. lia.
  - lia.
  - apply (IH n (d + 1)%N); [|exact H7]. intro i. rewrite HP. lia.
Qed.

(** ** What the executor does not do *)

(** Setting up values on an executor that has been used for this circuit changes nothing: the
    wires still hold the previous run, so the next run returns the previous result. *)
Theorem setup_span_reuse : forall bits c inputs w, length inputs = length (niw c) -> length w = N.to_nat (nw c) ->
  setup_span bits c inputs w = Val w.
Proof.
  intros bits c inputs w H L. unfold setup_span. rewrite H, Nat.eqb_refl. f_equal. unfold resize.
  rewrite app_length. replace (N.to_nat (nw c) - (length w + length (image bits inputs))) with 0 by lia. cbn [repeat].
  rewrite app_nil_r, firstn_app. replace (N.to_nat (nw c) - length w) with 0 by lia. cbn [firstn].
  rewrite app_nil_r. rewrite <- L. apply firstn_all.
Qed.

(** Four input bits, outputs of one and two bits. *)
Definition two_widths : circuit :=
  mkCircuit 3 7 [4%N] [1; 2]%N
   [mkGate [0%N] [4%N] EQW; mkGate [1%N] [5%N] EQW; mkGate [0%N] [6%N] INV].
(** Outputs of different widths are cut at the wrong places: the circuit's outputs on input 0
    are wire 4 (0) and wires 5,6 (2); the executor returns wires 4,5 (0) and wire 6 (1). *)
Theorem finalize_widths_refuted : exists c inputs, runnable c /\ length inputs = length (niw c) /\
  exists v, (forall i, (i < 4)%N -> v i = N.testbit (nth 0 inputs 0%N) i) /\ Forall (holds v) (gates c) /\
  run_span 64 c inputs [0; 0]%N <> Val (map (fun ws => number (map v ws)) (out_values c)).
Proof.
  exists two_widths, [0%N]. split; [|split; [reflexivity|]].
  - split; [cbv; lia|]. split; [cbv; lia|].
    apply (wf_b_sound _ _ 4%N); [intro i; reflexivity|reflexivity].
  - exists (fun i => match i with 6 => true | _ => false end)%N.
    split; [|split].
    + intros i Hi. assert (i = 0 \/ i = 1 \/ i = 2 \/ i = 3)%N as [-> |[-> |[-> | ->]]] by lia; reflexivity.
    + repeat constructor.
    + vm_compute. discriminate.
Qed.

(** One output wire, as in the library's zero-equal circuit: the byte returned mixes in seven
    wires that are no outputs. *)
Definition one_bit : circuit :=
  mkCircuit 1 9 [8%N] [1%N] [mkGate [0%N; 1%N] [8%N] AND].
Theorem finalize_bits_refuted : exists c a b, runnable c /\
  (forall v, Forall (holds v) (gates c) -> number (map v (out_wires c)) = if v 0%N && v 1%N then 1%N else 0%N) /\
  run_bytes c [a] = Val [0x78%N] /\ run_bytes c [b] = Val [0x0%N] /\
  N.testbit a 0 && N.testbit a 1 = false /\ N.testbit b 0 && N.testbit b 1 = false.
Proof.
  exists one_bit, 0xf0%N, 0%N. split.
  - split; [cbv; lia|]. split; [cbv; lia|].
    apply (wf_b_sound _ _ 8%N); [intro i; reflexivity|reflexivity].
  - split; [|vm_compute; repeat split; reflexivity].
    intros v H. inversion H as [|? ? Hg _]; subst. unfold holds, gate_value, out in Hg. cbn in Hg.
    change (out_wires one_bit) with [8%N]. cbn [map number]. rewrite Hg. unfold arg. cbn [nth iw].
    destruct (v 0%N && v 1%N); reflexivity.
Qed.

(** A gate on a wire the circuit does not have is not refused: the executor leaves its memory. *)
Theorem exec_range_refuted : forall bits a b o c x, gates c = [mkGate [a; b] [o] XOR] -> length x = length (niw c) ->
  (nw c <= a)%N \/ (nw c <= b)%N \/ (nw c <= o)%N ->
  bind (setup_span bits c x []) (exec (gates c)) = OutOfBounds.
Proof.
  intros bits a b o c x -> Hx H. unfold setup_span. rewrite Hx, Nat.eqb_refl. cbn [bind app exec].
  set (w := resize _ _). assert (L : length w = N.to_nat (nw c)) by apply length_resize.
  unfold exec_gate. cbn [g_op iw ow at_ nth_error bind].
  assert (Hg : forall i, get w i = OutOfBounds \/ (i < nw c)%N /\ exists b, get w i = Val b).
  { intro i. unfold get. destruct (nth_error w (N.to_nat i)) eqn:E; [right|left; reflexivity].
    split; [|exists b0; reflexivity]. assert (nth_error w (N.to_nat i) <> None) as N0 by congruence.
    apply nth_error_Some in N0. lia. }
  destruct (Hg a) as [->|[Ha [xa ->]]]; [reflexivity|]. cbn [bind].
  destruct (Hg b) as [->|[Hb [xb ->]]]; [reflexivity|]. cbn [bind].
  unfold set. destruct (Nat.ltb_spec (N.to_nat o) (length w)); [lia|reflexivity].
Qed.
(** Circuits with a multiple-AND gate are read but never run to the end. *)
Theorem exec_mand : forall c w, runnable (mkCircuit (ng c) (nw c) (niw c) (now c) (gates c)) -> length w = N.to_nat (nw c) ->
  forall g gs, g_op g = MAND -> exec (gates c ++ g :: gs) w = Thrown.
Proof.
  intros c w Hr Hl g gs Hg. destruct (exec_gates _ w Hr Hl) as [w' [E _]]. cbn [gates] in E.
  assert (G : forall l w0 w1, exec l w0 = Val w1 -> exec (l ++ g :: gs) w0 = exec (g :: gs) w1).
  { induction l as [|h l IH]; intros w0 w1 H; [injection H as ->; reflexivity|]. cbn [app exec] in *.
    destruct (exec_gate w0 h) as [w2| | |]; cbn [bind] in *; try discriminate. apply IH. exact H. }
  rewrite (G _ _ _ E). cbn [exec]. unfold exec_gate. rewrite Hg. reflexivity.
Qed.

(** ** The input of the SHA-256 circuit *)
(** FIPS 180-4, 5.1.1 and 5.3.3: the padded message block and the initial hash value. *)
Definition be64 (x : N) : list N := map (fun i => ((x / 256 ^ N.of_nat i) mod 256)%N) [7; 6; 5; 4; 3; 2; 1; 0].
Definition sha256_block (m : list N) : list N := m ++ [0x80%N] ++ repeat 0%N (55 - length m) ++ be64 (8 * N.of_nat (length m)).
Definition sha256_h0 : list N :=
  concat (map (fun h => map (fun i => ((h / 256 ^ i) mod 256)%N) [3; 2; 1; 0]%N)
    [0x6a09e667; 0xbb67ae85; 0x3c6ef372; 0xa54ff53a; 0x510e527f; 0x9b05688c; 0x1f83d9ab; 0x5be0cd19]%N).
Theorem sha256_input : forall m, length m <= 55 -> prepare_sha256 m = Val (rev (sha256_block m) ++ rev sha256_h0).
Proof.
  intros m H. unfold prepare_sha256. set (n := length m) in *.
  assert (Hz : (if (n + 1 + 8) mod 64 =? 0 then 0 else 64 - (n + 1 + 8) mod 64) = 55 - n).
  { destruct (Nat.eq_dec n 55) as [->|Hne]; [reflexivity|]. rewrite Nat.mod_small by lia.
    destruct (Nat.eqb_spec (n + 1 + 8) 0); lia. }
  rewrite Hz. destruct (Nat.eqb_spec (n + 1 + (55 - n) + 8) 64) as [_|]; [|lia]. f_equal.
  unfold sha256_block. fold n. rewrite !rev_app_distr. rewrite <- !app_assoc, rev_repeat.
  f_equal.
Qed.
Theorem sha256_input_long : forall m, 55 < length m -> prepare_sha256 m = Thrown.
Proof.
  intros m H. unfold prepare_sha256. set (n := length m) in *.
  match goal with |- context [n + 1 + ?z + 8 =? 64] => destruct (Nat.eqb_spec (n + 1 + z + 8) 64) as [E|]; [|reflexivity] end.
  exfalso. lia.
Qed.

(** A half adder on two 64 bit inputs of which it uses the lowest bits, so that the theorems
    apply and say something: 1 + 1 = 2. *)
Definition half_adder : circuit :=
  mkCircuit 3 192 [64; 64]%N [64%N]
   ([mkGate [0; 64]%N [128%N] XOR; mkGate [0; 64]%N [129%N] AND] ++
    map (fun i => mkGate [0%N] [N.of_nat i] EQ) (seq 130 62)).
Example half_adder_runnable : runnable half_adder.
Proof. split; [cbv; lia|]. split; [cbv; lia|]. apply (wf_b_sound _ _ 128%N); [intro i; reflexivity|reflexivity]. Qed.
Example half_adder_run : run_span 64 half_adder [1; 1]%N [7; 8]%N = Val [2; 8]%N.
Proof. vm_compute. reflexivity. Qed.
Example half_adder_bytes :
  run_bytes half_adder (1%N :: repeat 0%N 7 ++ 1%N :: repeat 0%N 7) = Val [0; 0; 0; 0; 0; 0; 0; 2]%N.
Proof. vm_compute. reflexivity. Qed.

Print Assumptions exec_gates.
Print Assumptions wires_determined.
Print Assumptions run_span_correct.
Print Assumptions run_bytes_correct.
Print Assumptions setup_span_reuse.
Print Assumptions finalize_widths_refuted.
Print Assumptions finalize_bits_refuted.
Print Assumptions exec_range_refuted.
Print Assumptions exec_mand.
Print Assumptions sha256_input.
Print Assumptions sha256_input_long.
