(** C40 and C56: the local linear code and the expand-accumulate code. *)
From Coq Require Import NArith ZArith List Bool Arith Lia.
From Verif Require Import LinCodeModel LinCodeProof.
Import ListNotations.
Open Scope N_scope.
Local Opaque N.pow.

(** The xor of a list of blocks, and of two vectors. *)
Definition xors (l : list N) : N := fold_right N.lxor 0 l.
Definition vxor (a b : list N) : list N := map (fun p => N.lxor (fst p) (snd p)) (combine a b).

(** The code's matrix, row by row: entry t of row r is a 32-bit word of the
    permutation applied to a counter made of the row's batch and the block
    number, cut to the bits of k and reduced once by k. *)
Definition lc_word (rp : N -> N) (d r t : nat) : N :=
  let pos := (r mod 1024 * d + t)%nat in
  let blk := rp (N.of_nat (r / 1024 * 1024) * 2 ^ 96 + N.of_nat (pos / 4) * 2 ^ 32) in
  (blk / 2 ^ (32 * N.of_nat (pos mod 4))) mod 2 ^ 32.
Definition lc_index (rp : N -> N) (k : N) (d r t : nat) : nat :=
  let m := lc_word rp d r t mod 2 ^ N.size k in N.to_nat (if k <=? m then m - k else m).
Definition lc_row (rp : N -> N) (k : N) (d r : nat) (inp : list N) : N :=
  xors (map (fun t => nth (lc_index rp k d r t) inp 0) (seq 0 d)).

Lemma xor_at_xors inp idxs : forall v, xor_at inp idxs v = N.lxor v (xors (map (fun k => nth (N.to_nat k) inp 0) idxs)).
Proof.
  unfold xor_at, xors. induction idxs as [|k idxs IH]; intros v; cbn [fold_left map fold_right]; [rewrite N.lxor_0_r; reflexivity|].
  rewrite IH, N.lxor_assoc. reflexivity.
Qed.
Lemma row_value_lc rp k d inp r v : row_value rp k d inp r v = N.lxor v (lc_row rp k d r inp).
Proof. unfold row_value. rewrite xor_at_xors, map_map. reflexivity. Qed.

(** Every index is inside the input. *)
Theorem lc_index_range rp k d r t : 1 <= k -> (lc_index rp k d r t < N.to_nat k)%nat.
Proof. intros H. pose proof (batch_index_lt rp k d r t H) as B. unfold batch_index, reduce, stream_word, batch in B. unfold lc_index, lc_word. lia. Qed.

(** Encode never leaves its spans, ends, and adds to every output row the xor of
    that row's entries of the input. *)
Theorem linear_code_encode rp k d inp out : 1 <= k -> k < 2 ^ 31 ->
  N.of_nat (length inp) = k -> N.of_nat (length out) <= 2 ^ 32 - 1024 ->
  exists c out', make_lcode k = Val c /\ encode rp c d inp out = Val out' /\ length out' = length out /\
    forall r, (r < length out)%nat -> nth r out' 0 = N.lxor (nth r out 0) (lc_row rp k d r inp).
Proof.
  intros H1 H2 H3 H4. destruct (encode_some rp k d inp out H1 H2 H3 H4) as [o [E [L K]]].
  exists {| mask := N.ones (N.max 1 (N.size k)); dim := k |}, o. split.
  { apply make_lcode_some. eapply N.lt_trans; [exact H2|reflexivity]. }
  split; [exact E|]. split; [exact L|]. intros r Hr. rewrite K by auto. apply row_value_lc.
Qed.
Lemma vxor_length a b : length a = length b -> length (vxor a b) = length a.
Proof. intros H. unfold vxor. rewrite map_length, combine_length. lia. Qed.
Lemma vxor_nth a b : length a = length b -> forall i, nth i (vxor a b) 0 = N.lxor (nth i a 0) (nth i b 0).
Proof.
  unfold vxor. revert b. induction a as [|x a IH]; intros [|y b] H [|i]; try discriminate; cbn [combine map nth fst snd]; try reflexivity.
  apply IH. injection H. auto.
Qed.
Lemma lxor4 a b c d : N.lxor (N.lxor a b) (N.lxor c d) = N.lxor (N.lxor a c) (N.lxor b d).
Proof. apply N.bits_inj. intros n. rewrite !N.lxor_spec. destruct (N.testbit a n), (N.testbit b n), (N.testbit c n), (N.testbit d n); reflexivity. Qed.
Lemma lc_row_linear rp k d r x y : length x = length y -> lc_row rp k d r (vxor x y) = N.lxor (lc_row rp k d r x) (lc_row rp k d r y).
Proof.
  intros H. unfold lc_row, xors. induction (seq 0 d) as [|t l IH]; [reflexivity|]. cbn [map fold_right].
  rewrite IH, vxor_nth by auto. apply lxor4.
Qed.
(** Encode is linear. *)
Theorem linear_code_linear rp k d x y u v c a b : 1 <= k -> k < 2 ^ 31 ->
  N.of_nat (length x) = k -> length y = length x -> N.of_nat (length u) <= 2 ^ 32 - 1024 -> length v = length u ->
  make_lcode k = Val c -> encode rp c d x u = Val a -> encode rp c d y v = Val b ->
  encode rp c d (vxor x y) (vxor u v) = Val (vxor a b).
Proof.
  intros H1 H2 Hx Hy Hu Hv Hc Ha Hb.
  destruct (linear_code_encode rp k d x u H1 H2 Hx Hu) as [c1 [a1 [C1 [A1 [LA KA]]]]].
  destruct (linear_code_encode rp k d y v H1 H2 ltac:(rewrite Hy; auto) ltac:(rewrite Hv; auto)) as [c2 [b1 [C2 [B1 [LB KB]]]]].
  destruct (linear_code_encode rp k d (vxor x y) (vxor u v) H1 H2) as [c3 [o [C3 [O1 [LO KO]]]]].
  { rewrite vxor_length by auto. auto. }
  { rewrite vxor_length by auto. auto. }
  rewrite Hc in C1, C2, C3. injection C1. intros <-. injection C2. intros <-. injection C3. intros <-.
  rewrite Ha in A1. injection A1. intros <-. rewrite Hb in B1. injection B1. intros <-. rewrite O1. f_equal.
  rewrite vxor_length in LO, KO by auto.
  apply (nth_ext _ _ 0 0); [rewrite vxor_length; lia|]. intros r Hr. rewrite LO in Hr.
  rewrite KO by auto. rewrite !vxor_nth by lia. rewrite lc_row_linear by auto. rewrite KA by auto. rewrite KB by lia. apply lxor4.
Qed.
(** Encode2 gives both outputs the same code on the common prefix and leaves the
    rest alone. *)
Theorem linear_code_encode2 rp k d in0 in1 out0 out1 : 1 <= k -> k < 2 ^ 31 ->
  N.of_nat (length in0) = k -> N.of_nat (length in1) = k ->
  N.of_nat (Nat.min (length out0) (length out1)) <= 2 ^ 32 - 1024 ->
  exists c o0 o1, make_lcode k = Val c /\ encode2 rp c d in0 out0 in1 out1 = Val (o0, o1) /\
    length o0 = length out0 /\ length o1 = length out1 /\
    (forall r, (r < Nat.min (length out0) (length out1))%nat ->
       nth r o0 0 = N.lxor (nth r out0 0) (lc_row rp k d r in0) /\ nth r o1 0 = N.lxor (nth r out1 0) (lc_row rp k d r in1)) /\
    (forall r, (Nat.min (length out0) (length out1) <= r)%nat -> nth r o0 0 = nth r out0 0 /\ nth r o1 0 = nth r out1 0).
Proof.
  intros H1 H2 H3 H4 H5. set (s := Nat.min (length out0) (length out1)) in *.
  destruct (encode2_loop_some rp k d in0 in1 H1 H2 H3 H4 (S (s / batch)) 0 out0 out1) as [o0 [o1 [E [L0 [L1 K]]]]]; auto.
  { fold s. pose proof (Nat.div_mod s batch ltac:(unfold batch; lia)). pose proof (Nat.mod_upper_bound s batch ltac:(unfold batch; lia)). nia. }
  exists {| mask := N.ones (N.max 1 (N.size k)); dim := k |}, o0, o1. split.
  { apply make_lcode_some. eapply N.lt_trans; [exact H2|reflexivity]. }
  split. { unfold encode2. cbn [dim]. rewrite H3, H4, N.eqb_refl. cbn [andb]. exact E. }
  split; [exact L0|]. split; [exact L1|]. split.
  - intros r Hr. destruct (K r) as [-> ->]. fold s. destruct (Nat.ltb_spec r s); [|lia]. cbn [Nat.mul Nat.leb andb]. rewrite !row_value_lc. auto.
  - intros r Hr. destruct (K r) as [-> ->]. fold s. destruct (Nat.ltb_spec r s); [lia|]. rewrite andb_false_r. auto.
Qed.
(** A wrong input size is refused. *)
Theorem linear_code_size rp k d c inp out : make_lcode k = Val c -> N.of_nat (length inp) <> k mod 2 ^ 32 -> encode rp c d inp out = Thrown.
Proof.
  unfold make_lcode, encode. destruct (mask_loop 32 1 k) as [m| | |]; try discriminate. cbn [bind]. intros H. injection H. intros <-. cbn [dim].
  intros N. destruct (N.eqb_spec (N.of_nat (length inp)) (k mod 2 ^ 32)); [contradiction|reflexivity].
Qed.

Lemma encode_one rp c d inp v : N.of_nat (length inp) = dim c ->
  encode rp c d inp [v] = bind (xor_entries inp (firstn d (gen_indexes rp c 0 (div_ceil4 d))) v) (fun w => Val [w]).
Proof.
  intros H. unfold encode. rewrite H, N.eqb_refl. assert (Q : S (length [v] / batch) = 1%nat) by (vm_compute; reflexivity). rewrite Q.
  cbn [encode_loop]. assert (A : (N.of_nat (length [v]) <=? 0) = false) by reflexivity. rewrite A.
  assert (B : N.to_nat (N.min (N.of_nat batch) ((N.of_nat (length [v]) mod 2 ^ 32 + 2 ^ 32 - 0) mod 2 ^ 32)) = 1%nat) by (vm_compute; reflexivity).
  rewrite B, Nat.mul_1_l. cbn [encode_rows Nat.mul skipn].
  assert (C : read [v] (0 + N.of_nat 0) = Val v) by reflexivity. rewrite C. cbn [bind].
  destruct (xor_entries _ _ v) as [w| | |]; cbn [bind]; try reflexivity.
Qed.
(** Outside these bounds the claim is false: dimension 2^31 (the comparison is
    signed), dimension 0, dimension 2^32 or more (the constructor never
    returns), and outputs of more than 2^32 - 1024 rows (Encode never
    returns). *)
Theorem linear_code_dimension_refuted : exists c rp, make_lcode (2 ^ 31) = Val c /\
  forall inp, N.of_nat (length inp) = 2 ^ 31 -> encode rp c 1 inp [0] = OutOfBounds.
Proof.
  exists {| mask := N.ones (N.max 1 (N.size (2 ^ 31))); dim := 2 ^ 31 |}, (fun _ => 2 ^ 32 - 1). split.
  { apply make_lcode_some. reflexivity. }
  intros inp H. rewrite encode_one by exact H.
  assert (G : forall c, c = {| mask := N.ones (N.max 1 (N.size (2 ^ 31))); dim := 2 ^ 31 |} ->
    gen_indexes (fun _ => 2 ^ 32 - 1) c 0 (div_ceil4 1) = [2 ^ 32 - 1; 0; 0; 0]) by (intros c ->; vm_compute; reflexivity).
  rewrite (G _ eq_refl). cbn [firstn xor_entries].
  rewrite read_none; [reflexivity|].
  assert (2 ^ 31 <= 2 ^ 32 - 1) by (vm_compute; discriminate). lia.
Qed.
Theorem linear_code_dimension_zero_refuted rp d : exists c, make_lcode 0 = Val c /\ encode rp c (S d) [] [0] = OutOfBounds.
Proof.
  eexists. split; [apply make_lcode_some; reflexivity|]. rewrite encode_one by reflexivity.
  assert (NE : forall c, exists w l, gen_indexes rp c 0 (div_ceil4 (S d)) = w :: l).
  { intros c. assert (D : (S d <= 4 * div_ceil4 (S d))%nat) by apply div_ceil4_le.
    pose proof (gen_indexes_length rp c 0 (div_ceil4 (S d))) as L. destruct (gen_indexes rp c 0 (div_ceil4 (S d))) as [|w l]; [cbn [length] in L; lia|eauto]. }
  destruct (NE {| mask := N.ones (N.max 1 (N.size 0)); dim := 0 |}) as [w [l ->]].
  cbn [firstn xor_entries].
  rewrite read_none by (cbn [length]; lia). reflexivity.
Qed.
Theorem linear_code_large_dimension_refuted k : 2 ^ 32 <= k -> make_lcode k = Hangs.
Proof. apply make_lcode_hangs. Qed.
Theorem linear_code_long_output_refuted rp c d inp out : 2 ^ 32 - 1024 < N.of_nat (length out) ->
  forall fuel out', encode_loop fuel rp c d inp 0 out <> Val out'.
Proof. intros H fuel out'. apply (encode_loop_endless rp c d inp fuel 0 out out' H). reflexivity. Qed.

Definition ex_rp (x : N) : N := (x * 1103515245 + 12345) mod 2 ^ 128.
Example linear_code_ex : exists c, make_lcode 5 = Val c /\
  map (lc_index ex_rp 5 3 0) [0; 1; 2]%nat = [1; 0; 0]%nat /\ map (lc_index ex_rp 5 3 2) [0; 1; 2]%nat = [0; 0; 1]%nat /\
  encode ex_rp c 3 [1; 2; 4; 8; 16] [100; 200; 300] = Val [102; 202; 302].
Proof. eexists. split; [apply make_lcode_some; reflexivity|]. vm_compute. auto. Qed.

(** ** C56: expand-accumulate *)
(** y[i] is the xor of the inputs up to i. *)
Definition prefix_xor (l : list N) (i : nat) : N := xors (firstn (S i) l).
Lemma accumulate_from_length l : forall a, length (accumulate_from a l) = length l.
Proof. induction l as [|x l IH]; intros a; cbn [accumulate_from length]; auto. Qed.
Lemma accumulate_from_nth l : forall a i, (i < length l)%nat -> nth i (accumulate_from a l) 0 = N.lxor a (xors (firstn (S i) l)).
Proof.
  induction l as [|x l IH]; intros a [|i] H; cbn [length] in H; try lia; cbn [accumulate_from nth].
  - cbn [firstn]. unfold xors. cbn [fold_right]. rewrite N.lxor_0_r. reflexivity.
  - rewrite IH by lia. change (firstn (S (S i)) (x :: l)) with (x :: firstn (S i) l).
    change (xors (x :: firstn (S i) l)) with (N.lxor x (xors (firstn (S i) l))). rewrite N.lxor_assoc. reflexivity.
Qed.
Lemma accumulate_eq l : accumulate l = map (prefix_xor l) (seq 0 (length l)).
Proof.
  apply (nth_ext _ _ 0 0).
  - unfold accumulate. rewrite accumulate_from_length, map_length, seq_length. reflexivity.
  - unfold accumulate. rewrite accumulate_from_length. intros i Hi. rewrite accumulate_from_nth by auto. rewrite map_seq_nth by auto. reflexivity.
Qed.
Theorem exacc_dual_encode rp d n m inp out : N.of_nat d < n -> n <= m -> m < 2 ^ 31 ->
  N.of_nat (length inp) = m -> n <= N.of_nat (length out) -> N.of_nat (length out) <= 2 ^ 32 - 1024 ->
  exists e o, make_ecode d n m = Val e /\
    dual_encode rp d e inp out = Val (map (prefix_xor inp) (seq 0 (length inp)), o) /\ length o = length out /\
    forall r, (r < length out)%nat -> nth r o 0 = N.lxor (nth r out 0) (lc_row rp m d r (map (prefix_xor inp) (seq 0 (length inp)))).
Proof.
  intros H1 H2 H3 H4 H5 H6. exists {| e_n := n; e_m := m |}.
  destruct (linear_code_encode rp m d (accumulate inp) out) as [c [o [C [E [L K]]]]]; auto; [lia|unfold accumulate; rewrite accumulate_from_length; auto|].
  exists o. split.
  { unfold make_ecode. destruct (N.leb_spec n m); [|lia]. destruct (N.ltb_spec (N.of_nat d) n); [|lia]. reflexivity. }
  split.
  { unfold dual_encode. cbn [e_m e_n]. rewrite H4. rewrite N.leb_refl. destruct (N.leb_spec n (N.of_nat (length out))); [|lia]. cbn [andb].
    rewrite C. cbn [bind]. rewrite E. cbn [bind]. rewrite accumulate_eq. reflexivity. }
  split; [exact L|]. intros r Hr. rewrite K by auto. rewrite accumulate_eq. reflexivity.
Qed.
Lemma accumulate_linear x : forall y a b, length x = length y ->
  accumulate_from (N.lxor a b) (vxor x y) = vxor (accumulate_from a x) (accumulate_from b y).
Proof.
  unfold vxor. induction x as [|p x IH]; intros [|q y] a b H; try discriminate; cbn [combine map accumulate_from fst snd]; [reflexivity|].
  rewrite <- IH by (injection H; auto). rewrite lxor4. reflexivity.
Qed.
Theorem exacc_linear rp d n m e x y u v rx ry : N.of_nat d < n -> n <= m -> m < 2 ^ 31 ->
  N.of_nat (length x) = m -> length y = length x -> n <= N.of_nat (length u) -> N.of_nat (length u) <= 2 ^ 32 - 1024 -> length v = length u ->
  make_ecode d n m = Val e -> dual_encode rp d e x u = Val rx -> dual_encode rp d e y v = Val ry ->
  dual_encode rp d e (vxor x y) (vxor u v) = Val (vxor (fst rx) (fst ry), vxor (snd rx) (snd ry)).
Proof.
  intros H1 H2 H3 Hx Hy Hu Hu2 Hv He Ex Ey. unfold make_ecode in He.
  destruct ((n <=? m) && (N.of_nat d <? n)); [|discriminate]. injection He. intros <-. clear He.
  unfold dual_encode in *. cbn [e_m e_n] in *. rewrite !vxor_length by auto. rewrite Hy, Hv in Ey. rewrite Hx in *.
  destruct ((m <=? m) && (n <=? N.of_nat (length u))); [|discriminate].
  destruct (make_lcode m) as [c| | |] eqn:C; try discriminate. cbn [bind] in *.
  destruct (encode rp c d (accumulate x) u) as [a| | |] eqn:A; try discriminate.
  destruct (encode rp c d (accumulate y) v) as [b| | |] eqn:B; try discriminate. cbn [bind] in *.
  injection Ex. injection Ey. intros <- <-. cbn [fst snd].
  assert (AL : accumulate (vxor x y) = vxor (accumulate x) (accumulate y)) by (apply (accumulate_linear x y 0 0); auto).
  rewrite AL. rewrite (linear_code_linear rp m d (accumulate x) (accumulate y) u v c a b); auto; try lia.
  - unfold accumulate. rewrite accumulate_from_length. auto.
  - unfold accumulate. rewrite !accumulate_from_length. auto.
Qed.
(** The one-argument constructor takes m = 2n and refuses n from 2^31 on. *)
Theorem exacc_default d n : N.of_nat d < n -> n < 2 ^ 31 -> make_ecode1 d n = Val {| e_n := n; e_m := 2 * n |}.
Proof.
  intros H1 H2. unfold make_ecode1. assert (2 ^ 32 = 2 * 2 ^ 31) by reflexivity. rewrite N.mod_small by lia. unfold make_ecode.
  destruct (N.leb_spec n (2 * n)); [|lia]. destruct (N.ltb_spec (N.of_nat d) n); [|lia]. reflexivity.
Qed.
(** The size check admits longer inputs, but the encoder then refuses them. *)
Theorem exacc_longer_input_refuted rp d n m e inp out : make_ecode d n m = Val e -> 1 <= m -> m < 2 ^ 31 ->
  m < N.of_nat (length inp) -> n <= N.of_nat (length out) -> dual_encode rp d e inp out = Thrown.
Proof.
  intros He H1 H2 H3 H4. unfold make_ecode in He. destruct ((n <=? m) && (N.of_nat d <? n)); [|discriminate]. injection He. intros <-.
  unfold dual_encode. cbn [e_m e_n]. destruct (N.leb_spec m (N.of_nat (length inp))); [|lia]. destruct (N.leb_spec n (N.of_nat (length out))); [|lia]. cbn [andb].
  assert (M : m < 2 ^ 32) by (eapply N.lt_trans; [exact H2|reflexivity]).
  pose proof (make_lcode_some m M) as C. rewrite C. cbn [bind]. rewrite (linear_code_size rp m); [reflexivity|exact C|].
  unfold accumulate. rewrite accumulate_from_length, N.mod_small by auto. lia.
Qed.
Example exacc_ex : exists e, make_ecode1 2 4 = Val e /\
  dual_encode ex_rp 2 e [1; 2; 4; 8; 16; 32; 64; 128] [0; 0; 0; 7] =
    Val ([1; 3; 7; 15; 31; 63; 127; 255], map (fun r => N.lxor (nth r [0; 0; 0; 7] 0) (lc_row ex_rp 8 2 r [1; 3; 7; 15; 31; 63; 127; 255])) [0; 1; 2; 3]%nat) /\
  exists e2, make_ecode 2 3 3 = Val e2 /\ dual_encode ex_rp 2 e2 [1; 2; 4; 8] [0; 0; 0] = Thrown.
Proof. eexists. split; [reflexivity|]. split; [vm_compute; reflexivity|]. eexists. split; [reflexivity|]. vm_compute. reflexivity. Qed.
(** DualEncode2 encodes both inputs as DualEncode would, on the common length. *)
Theorem exacc_dual_encode2 rp d n m in0 out0 in1 out1 : N.of_nat d < n -> n <= m -> m < 2 ^ 31 ->
  N.of_nat (length in0) = m -> length in1 = length in0 -> n <= N.of_nat (length out0) -> N.of_nat (length out0) <= 2 ^ 32 - 1024 ->
  length out1 = length out0 ->
  exists e r0 r1, make_ecode d n m = Val e /\ dual_encode rp d e in0 out0 = Val r0 /\ dual_encode rp d e in1 out1 = Val r1 /\
    dual_encode2 rp d e in0 out0 in1 out1 = Val (r0, r1).
Proof.
  intros H1 H2 H3 H4 H5 H6 H7 H8.
  destruct (exacc_dual_encode rp d n m in0 out0 H1 H2 H3 H4 H6 H7) as [e [o0 [E [D0 [L0 K0]]]]].
  destruct (exacc_dual_encode rp d n m in1 out1 H1 H2 H3) as [e' [o1 [E' [D1 [L1 K1]]]]]; try (rewrite ?H5, ?H8; auto).
  rewrite E in E'. injection E'. intros <-. clear E'.
  exists e, (map (prefix_xor in0) (seq 0 (length in0)), o0), (map (prefix_xor in1) (seq 0 (length in1)), o1).
  split; [exact E|]. split; [exact D0|]. split; [exact D1|].
  unfold make_ecode in E. destruct ((n <=? m) && (N.of_nat d <? n)); [|discriminate]. injection E. intros <-.
  unfold dual_encode2. cbn [e_m e_n]. rewrite H5, H8, H4, N.leb_refl. destruct (N.leb_spec n (N.of_nat (length out0))); [|lia]. cbn [andb].
  destruct (linear_code_encode2 rp m d (accumulate in0) (accumulate in1) out0 out1) as [c [p0 [p1 [C [P [M0 [M1 [K _]]]]]]]];
    try (unfold accumulate; rewrite ?accumulate_from_length, ?H5, ?H8); auto; try lia.
  rewrite C. cbn [bind]. unfold accumulate in P. rewrite P. cbn [bind fst snd].
  rewrite !accumulate_eq in K.
  assert (P0 : p0 = o0) by (apply (nth_ext _ _ 0 0); [lia|]; intros r Hr; rewrite K0 by lia; apply K; lia).
  assert (P1 : p1 = o1) by (apply (nth_ext _ _ 0 0); [lia|]; intros r Hr; rewrite K1 by lia; apply K; lia).
  subst p0 p1. rewrite <- !accumulate_eq. rewrite <- H5, <- accumulate_eq. reflexivity.
Qed.

Print Assumptions lc_index_range.
Print Assumptions linear_code_encode.
Print Assumptions linear_code_linear.
Print Assumptions linear_code_encode2.
Print Assumptions linear_code_size.
Print Assumptions linear_code_dimension_refuted.
Print Assumptions linear_code_dimension_zero_refuted.
Print Assumptions linear_code_large_dimension_refuted.
Print Assumptions linear_code_long_output_refuted.
Print Assumptions exacc_dual_encode.
Print Assumptions exacc_linear.
Print Assumptions exacc_default.
Print Assumptions exacc_longer_input_refuted.
Print Assumptions exacc_dual_encode2.
