(** C69: the KKRT OT extension is an oblivious PRF.

    Whatever the inputs, the choices and the seeds of the base OTs: the
    receiver's output for its input number i is what the sender's function
    number i gives at that input, whatever memory the message carried along;
    at another input the sender's value differs by the code difference masked
    with the sender's choices and by nothing else.  The classes do the same for
    every history of Encode, ZeroEncode and SendCorrection in which an index is
    encoded once before its correction is sent; what an index encoded twice,
    never, or not sent gives is stated exactly. *)
From Coq Require Import List NArith ZArith Bool Lia Arith Btauto.
From Verif Require Import TransModel TransProps OtExtModel OtExtProof LinCodeModel KkrtModel KkrtProof.
Import ListNotations.
Open Scope nat_scope.

(** What 512 base OTs leave: the sender of the extension holds, for each k, the
    seed its choice selects out of the receiver's pair. *)
Definition base_ots (choices : list bool) (ks k0 k1 : list N) : Prop :=
  length choices = 512 /\ length ks = 512 /\ length k0 = 512 /\ length k1 = 512 /\
  forall k, k < 512 -> nth k ks 0%N = if nth k choices false then nth k k1 0%N else nth k k0 0%N.

Section Kkrt.
Variable stream : N -> nat -> N.
Variable expand : N -> list N.
Variable aes : N -> N -> N.
Variable ro : list N -> nat -> list N.
Variable ro128 : list N -> N.
(** Prg<uint128_t> yields 128-bit words; the joint seed expands to four keys. *)
Hypothesis HS : forall s i, w128 (stream s i).
Hypothesis HE : forall s, length (expand s) = width.

Lemma prc_length keys x : length keys = width -> length (prc aes keys x) = width.
Proof. intros H. unfold prc. rewrite map_length. exact H. Qed.
Lemma keys_length a b : length (prc_init expand a b) = width.
Proof. apply HE. Qed.

(** The parties derive the same keys although each passes its own seed first. *)
Theorem prc_keys_agree a b : prc_init expand a b = prc_init expand b a.
Proof. unfold prc_init. rewrite N.lxor_comm. reflexivity. Qed.

Section OneShot.
Variables (choices : list bool) (ks k0 k1 : list N) (seed_r seed_s : N) (inputs : list N) (mem : nat -> nat -> list N).
Hypothesis HB : base_ots choices ks k0 k1.
Let n := length inputs.
Let keys := prc_init expand seed_s seed_r.
Let s := choice_row choices.
Let R (j : nat) : list N :=
  row_xor (spec_row stream ks j)
    (row_and (row_xor (row_xor (spec_row stream k1 j) (spec_row stream k0 j)) (prc aes keys (nth j inputs 0%N))) s).
Let msg := recv_message stream aes k0 k1 keys inputs mem.

Lemma msg_row b i : i < this_batch 128 n b ->
  nth i (msg b) no_row = row_xor (row_xor (spec_row stream k1 (b * 128 + i)) (spec_row stream k0 (b * 128 + i))) (prc aes keys (nth (b * 128 + i) inputs 0%N)).
Proof.
  intros Hi. unfold msg, recv_message. fold n. rewrite app_nth1 by (rewrite map_length, seq_length; auto).
  rewrite nth_map_seq0 by auto. assert (this_batch 128 n b <= 128) by (unfold this_batch; lia).
  rewrite !batch_rows_spec by auto. rewrite !nth_map_seq0 by auto. reflexivity.
Qed.
Lemma msg_length b : length (msg b) = 128.
Proof.
  unfold msg, recv_message. fold n. rewrite app_length, !map_length, !seq_length. unfold this_batch. lia.
Qed.
Lemma batch_lt b : b < batch_num n -> b * 128 < n.
Proof. apply batch_num_range. Qed.
Lemma send_ok : forall m b p, b + m = batch_num n -> length (g_q p) = n ->
  firstn (Nat.min n (b * 128)) (g_q p) = map R (seq 0 (Nat.min n (b * 128))) ->
  exists p', send_batches stream ks s n (seq b m) (map msg (seq b m)) p = Val p' /\
    g_q p' = map R (seq 0 n) /\ g_s p' = g_s p /\ g_keys p' = g_keys p.
Proof.
  induction m as [|m IH]; intros b p Hb HL HF.
  - exists p. split; [reflexivity|]. split; [|auto].
    assert (n <= b * 128). { replace b with (batch_num n) by lia. apply (batch_cover 128 n). lia. }
    rewrite (Nat.min_l n) in HF by lia. rewrite <- HF. symmetry. apply firstn_all2. lia.
  - cbn [seq map send_batches]. rewrite msg_length, Nat.eqb_refl.
    assert (B : b * 128 < n) by (apply batch_lt; lia).
    set (num := this_batch 128 n b). assert (Hnum : num <= 128 /\ b * 128 + num = Nat.min n (S b * 128)) by (unfold num, this_batch; lia).
    assert (Q : map (fun i => row_xor (nth i (batch_rows stream ks b num) no_row) (row_and (nth i (msg b) no_row) s)) (seq 0 num)
                = map R (seq (b * 128) num)).
    { transitivity (map (fun i => R (b * 128 + i)) (seq 0 num)).
      - apply map_ext_in. intros i Hi. apply in_seq in Hi. rewrite msg_row by (fold num; lia).
        rewrite batch_rows_spec, nth_map_seq0 by (auto; lia). reflexivity.
      - clear. induction num as [|c IHc]; [reflexivity|]. rewrite !seq_S, !map_app, IHc. reflexivity. }
    rewrite Q. unfold set_q at 1. rewrite map_length, seq_length, Nat.leb_refl. unfold g_size. rewrite HL.
    replace (b * 128 + num <=? n) with true by (symmetry; apply Nat.leb_le; lia). cbn [andb bind].
    rewrite (Nat.min_r n) in HF by lia.
    destruct (splice_ok R (g_q p) (b * 128) num) as [L1 L2]; [lia|exact HF|].
    rewrite firstn_all2 by (rewrite map_length, seq_length; auto).
    destruct (IH (S b) {| g_q := splice (g_q p) (b * 128) (map R (seq (b * 128) num)); g_s := g_s p; g_keys := g_keys p |})
      as (p' & E & Q' & S' & K'); cbn [g_q g_s g_keys] in *; [lia|congruence| |].
    + replace (Nat.min n (S b * 128)) with (b * 128 + num) by lia. exact L2.
    + exists p'. auto.
Qed.

(** ** The one-shot functions *)
Theorem kkrt_oneshot : inputs <> [] ->
  exists msgs prf,
    kkrt_recv stream expand aes ro128 k0 k1 seed_r seed_s inputs (length inputs) mem =
      Val (msgs, map (fun i => ro128 (spec_row stream k0 i)) (seq 0 (length inputs))) /\
    kkrt_send stream expand choices ks seed_s seed_r (length inputs) msgs = Val prf /\
    g_size prf = length inputs /\
    (forall i x, i < length inputs ->
       eval128 aes ro128 prf i x =
         Val (ro128 (row_xor (spec_row stream k0 i)
                       (row_and (row_xor (prc aes keys x) (prc aes keys (nth i inputs 0%N))) (choice_row choices)))) /\
       forall size, eval aes ro prf i x size =
         Val (ro (row_xor (spec_row stream k0 i)
                    (row_and (row_xor (prc aes keys x) (prc aes keys (nth i inputs 0%N))) (choice_row choices))) size)) /\
    (forall i x, length inputs <= i -> eval128 aes ro128 prf i x = Thrown) /\
    (forall b i, b < batch_num (length inputs) -> i < 128 ->
       nth i (nth b msgs []) no_row =
         if b * 128 + i <? length inputs then
           row_xor (row_xor (spec_row stream k1 (b * 128 + i)) (spec_row stream k0 (b * 128 + i)))
                   (prc aes keys (nth (b * 128 + i) inputs 0%N))
         else mem b i).
Proof.
  intros NE. fold n. assert (Hn : n <> 0) by (unfold n; destruct inputs; [congruence|discriminate]).
  destruct HB as (HLc & HLs & HL0 & HL1 & HK).
  set (p0 := {| g_q := repeat no_row n; g_s := s; g_keys := keys |}).
  destruct (send_ok (batch_num n) 0 p0) as (p & E & Q & S1 & K1); [reflexivity|apply repeat_length|rewrite Nat.min_0_r; reflexivity|].
  assert (EV : forall i x, i < n -> eval_row aes p i x =
    row_xor (spec_row stream k0 i) (row_and (row_xor (prc aes keys x) (prc aes keys (nth i inputs 0%N))) (choice_row choices))).
  { intros i x Hi. unfold eval_row. rewrite Q, nth_map_seq0 by auto. rewrite S1, K1. cbn [g_s g_keys p0]. unfold R.
    rewrite (mix_row stream choices k0 k1 ks HK i). fold s.
    apply eval_identity; try apply spec_row_length; try apply choice_row_length; apply prc_length, keys_length. }
  assert (SZ : g_size p = n) by (unfold g_size; rewrite Q, map_length, seq_length; reflexivity).
  exists (map msg (seq 0 (batch_num n))), p. split; [|split; [|split; [|split; [|split]]]].
  - unfold kkrt_recv. rewrite HL0, Nat.eqb_refl. fold n. rewrite Nat.eqb_refl. destruct (Nat.eqb_spec n 0); [congruence|]. cbn [andb negb].
    f_equal. f_equal.
    + unfold msg, keys. rewrite (prc_keys_agree seed_s seed_r). reflexivity.
    + transitivity (map (fun i => ro128 (spec_row stream k0 i)) (seq 0 (Nat.min n (batch_num n * 128))));
        [|f_equal; f_equal; apply Nat.min_l; apply (batch_cover 128 n); lia].
      rewrite <- (flat_batches (fun b i => ro128 (spec_row stream k0 (b * 128 + i)))) by (auto; lia).
      apply flat_map_ext. intros b. rewrite batch_rows_spec by (auto; unfold this_batch; lia). apply map_map.
  - unfold kkrt_send. rewrite HLs, Nat.eqb_refl. destruct (Nat.eqb_spec n 0); [congruence|]. exact E.
  - exact SZ.
  - intros i x Hi. unfold eval128, eval. rewrite SZ. destruct (Nat.ltb_spec i n); [|lia]. rewrite EV by auto. auto.
  - intros i x Hi. unfold eval128. rewrite SZ. destruct (Nat.ltb_spec i n); [lia|reflexivity].
  - intros b i Hb Hi. rewrite nth_map_seq0 by auto.
    assert (C : this_batch 128 n b = Nat.min (n - b * 128) 128) by reflexivity.
    destruct (Nat.ltb_spec (b * 128 + i) n).
    + apply msg_row. lia.
    + unfold msg, recv_message. fold n. rewrite app_nth2 by (rewrite map_length, seq_length; lia).
      rewrite map_length, seq_length.
      rewrite (nth_indep _ no_row (mem b 0)) by (rewrite map_length, seq_length; lia).
      rewrite map_nth, seq_nth by lia. f_equal. lia.
Qed.
End OneShot.

(** At the receiver's own input the two agree: the PRF property a user relies
    on, stated without any row. *)
Theorem kkrt_agree choices ks k0 k1 seed_r seed_s inputs mem : base_ots choices ks k0 k1 -> inputs <> [] ->
  exists msgs out prf,
    kkrt_recv stream expand aes ro128 k0 k1 seed_r seed_s inputs (length inputs) mem = Val (msgs, out) /\
    kkrt_send stream expand choices ks seed_s seed_r (length inputs) msgs = Val prf /\
    length out = length inputs /\
    forall i, i < length inputs -> eval128 aes ro128 prf i (nth i inputs 0%N) = Val (nth i out 0%N).
Proof.
  intros HB NE. destruct (kkrt_oneshot choices ks k0 k1 seed_r seed_s inputs mem HB NE) as (msgs & prf & E1 & E2 & _ & EV & _).
  exists msgs, (map (fun i => ro128 (spec_row stream k0 i)) (seq 0 (length inputs))), prf.
  split; [exact E1|]. split; [exact E2|]. split; [rewrite map_length, seq_length; reflexivity|].
  intros i Hi. destruct (EV i (nth i inputs 0%N) Hi) as [-> _]. rewrite nth_map_seq0 by auto. f_equal. f_equal.
  apply (list_eq_nth 0%N).
  - rewrite row_xor_length, row_and_length, row_xor_length, spec_row_length, choice_row_length, !prc_length by apply keys_length. reflexivity.
  - intros w Hw. assert (LW : w < width).
    { rewrite row_xor_length, spec_row_length in Hw. lia. }
    assert (LP : forall x, w < length (prc aes (prc_init expand seed_s seed_r) x)) by (intros; rewrite prc_length by apply keys_length; auto).
    assert (LC : w < length (choice_row choices)) by (rewrite choice_row_length; auto).
    assert (LX : w < length (row_xor (prc aes (prc_init expand seed_s seed_r) (nth i inputs 0%N)) (prc aes (prc_init expand seed_s seed_r) (nth i inputs 0%N))))
      by (rewrite row_xor_length; apply Nat.min_glb_lt; apply LP).
    rewrite nth_row_xor, nth_row_and, nth_row_xor; auto; rewrite ?row_and_length, ?spec_row_length; auto;
      [|apply Nat.min_glb_lt; auto].
    rewrite N.lxor_nilpotent, N.land_0_l, N.lxor_0_r. reflexivity.
Qed.

(** An input different from the receiver's: the sender's value is the
    receiver's output exactly if the codes agree on the positions chosen by the
    sender (the random oracle being injective on rows). *)
Theorem other_input_exact choices ks k0 k1 seed_r seed_s inputs mem msgs out prf i x :
  base_ots choices ks k0 k1 -> i < length inputs -> (forall a b, length a = width -> length b = width -> ro128 a = ro128 b -> a = b) ->
  kkrt_recv stream expand aes ro128 k0 k1 seed_r seed_s inputs (length inputs) mem = Val (msgs, out) ->
  kkrt_send stream expand choices ks seed_s seed_r (length inputs) msgs = Val prf ->
  (eval128 aes ro128 prf i x = Val (nth i out 0%N) <->
   forall k, k < 512 -> nth k choices false = true ->
     N.testbit (nth (k / 128) (prc aes (prc_init expand seed_s seed_r) x) 0%N) (N.of_nat (k mod 128)) =
     N.testbit (nth (k / 128) (prc aes (prc_init expand seed_s seed_r) (nth i inputs 0%N)) 0%N) (N.of_nat (k mod 128))).
Proof.
  intros HB Hi Inj E1 E2. assert (NE : inputs <> []) by (destruct inputs; [cbn in Hi; lia|discriminate]).
  destruct (kkrt_oneshot choices ks k0 k1 seed_r seed_s inputs mem HB NE) as (msgs' & prf' & F1 & F2 & _ & EV & _).
  rewrite E1 in F1. injection F1 as <- ->. rewrite E2 in F2. injection F2 as <-.
  destruct (EV i x Hi) as [-> _]. rewrite nth_map_seq0 by auto.
  set (P := prc aes (prc_init expand seed_s seed_r)). set (t := spec_row stream k0 i).
  assert (LP : forall y, length (P y) = width) by (intro; apply prc_length, keys_length).
  assert (LT : length t = width) by apply spec_row_length.
  assert (LC := choice_row_length choices).
  assert (LX : forall y z, length (row_xor (P y) (P z)) = width) by (intros; rewrite row_xor_length, !LP; reflexivity).
  assert (LA : forall y z, length (row_and (row_xor (P y) (P z)) (choice_row choices)) = width) by (intros; rewrite row_and_length, LX, LC; reflexivity).
  assert (W : forall w, w < width -> nth w (row_xor t (row_and (row_xor (P x) (P (nth i inputs 0%N))) (choice_row choices))) 0%N =
    N.lxor (nth w t 0%N) (N.land (N.lxor (nth w (P x) 0%N) (nth w (P (nth i inputs 0%N)) 0%N)) (nth w (choice_row choices) 0%N))).
  { intros w Hw. rewrite nth_row_xor, nth_row_and, nth_row_xor; rewrite ?LX, ?LA, ?LC, ?LT, ?LP; auto. }
  split.
  - intros E k Hk Ck. assert (E' : row_xor t (row_and (row_xor (P x) (P (nth i inputs 0%N))) (choice_row choices)) = t).
    { apply Inj; [rewrite row_xor_length, LA, LT; reflexivity|exact LT|congruence]. }
    assert (Hw : k / 128 < width) by (apply Nat.div_lt_upper_bound; unfold width; lia).
    assert (Hm : k mod 128 < 128) by (apply Nat.mod_upper_bound; lia).
    specialize (W (k / 128) Hw). rewrite E' in W.
    assert (B : forall q, N.testbit (nth (k / 128) t 0%N) q = N.testbit (N.lxor (nth (k / 128) t 0%N) (N.land (N.lxor (nth (k / 128) (P x) 0%N) (nth (k / 128) (P (nth i inputs 0%N)) 0%N)) (nth (k / 128) (choice_row choices) 0%N))) q) by (intro; rewrite <- W; reflexivity).
    specialize (B (N.of_nat (k mod 128))). rewrite N.lxor_spec, N.land_spec, N.lxor_spec, choice_row_bit in B by auto.
    assert (DM : k / 128 * 128 + k mod 128 = k) by (pose proof (Nat.div_mod k 128 ltac:(lia)); lia).
    rewrite DM, Ck in B.
    destruct (N.testbit (nth (k / 128) (P x) 0%N) (N.of_nat (k mod 128))), (N.testbit (nth (k / 128) (P (nth i inputs 0%N)) 0%N) (N.of_nat (k mod 128))),
      (N.testbit (nth (k / 128) t 0%N) (N.of_nat (k mod 128))); cbn in B; congruence.
  - intros H. f_equal. f_equal. apply (list_eq_nth 0%N); [rewrite row_xor_length, LA, LT; reflexivity|].
    intros w Hw. rewrite row_xor_length, LA, LT in Hw. rewrite W by (rewrite Nat.min_id in Hw; auto).
    assert (Hw' : w < 4) by (rewrite Nat.min_id in Hw; exact Hw).
    replace (N.land _ _) with 0%N; [apply N.lxor_0_r|]. symmetry. apply N.bits_inj. intro q. rewrite N.bits_0, N.land_spec, N.lxor_spec.
    destruct (N.lt_ge_cases q 128) as [Hq|Hq].
    + rewrite <- (N2Nat.id q). assert (Hq' : N.to_nat q < 128) by lia. rewrite choice_row_bit by auto.
      destruct (nth (w * 128 + N.to_nat q) choices false) eqn:C; [|btauto].
      assert (D : (w * 128 + N.to_nat q) / 128 = w) by (rewrite Nat.div_add_l, (Nat.div_small (N.to_nat q)) by lia; lia).
      assert (M : (w * 128 + N.to_nat q) mod 128 = N.to_nat q) by (rewrite Nat.add_comm, Nat.mod_add, Nat.mod_small by lia; reflexivity).
      specialize (H (w * 128 + N.to_nat q) ltac:(lia) C). rewrite D, M in H. fold P in H. rewrite H. btauto.
    + rewrite (high_bits (nth w (choice_row choices) 0%N)) by (auto; apply choice_row_lt; auto). btauto.
Qed.

(** ** The classes *)
(** What a history does to index j before the SendCorrection that covers it, if
    there is one; cur rows have been sent already.  [Some x] is an Encode of x,
    [None] a ZeroEncode. *)
Fixpoint before (ops : list rop) (cur j : nat) : option (list (option N)) :=
  match ops with
  | [] => None
  | REncode i x _ :: o => if i =? j then option_map (cons (Some x)) (before o cur j) else before o cur j
  | RZero i :: o => if i =? j then option_map (cons None) (before o cur j) else before o cur j
  | RSend c :: o => if (cur <=? j) && (j <? cur + c) then Some [] else before o (cur + c) j
  end.
(** The calls stay within the object: indices below num_ot, buffers of at most
    16 bytes, and no more corrections than OTs. *)
Fixpoint within (n : nat) (ops : list rop) (cur : nat) : Prop :=
  match ops with
  | [] => True
  | REncode i _ sz :: o => i < n /\ sz <= 16 /\ within n o cur
  | RZero i :: o => i < n /\ within n o cur
  | RSend c :: o => cur + c <= n /\ within n o (cur + c)
  end.
Definition outputs (T : nat -> list N) (ops : list rop) : list (list N) :=
  flat_map (fun o => match o with REncode i _ sz => [ro (T i) sz] | _ => [] end) ops.
Definition code (keys : list N) (e : option N) : list N := match e with Some x => prc aes keys x | None => no_row end.
Definition applied (keys : list N) (t : list N) (l : list (option N)) (u : list N) : list N :=
  fold_left (fun u e => row_xor (row_xor u t) (code keys e)) l u.

Lemma before_done : forall ops cur j, j < cur -> before ops cur j = None.
Proof.
  induction ops as [|[i x sz|i|c] ops IH]; intros cur j H; cbn [before]; auto.
  - destruct (i =? j); rewrite IH by auto; reflexivity.
  - destruct (i =? j); rewrite IH by auto; reflexivity.
  - destruct (Nat.leb_spec cur j); [lia|]. cbn [andb]. apply IH. lia.
Qed.
Lemma set_row_length l i r : length (set_row l i r) = length l.
Proof. revert i. induction l as [|x l IH]; intros [|i]; cbn [set_row length]; auto. Qed.
Lemma set_row_nth l i r j d : i < length l -> nth j (set_row l i r) d = if i =? j then r else nth j l d.
Proof. revert i j. induction l as [|x l IH]; intros [|i] [|j] H; cbn [set_row length nth Nat.eqb] in *; try lia; auto. apply IH. lia. Qed.
Lemma row_xor_zero u : length u = width -> row_xor u no_row = u.
Proof. intros H. apply row4 in H as (a & b & c & d & ->). unfold row_xor, no_row. cbn. rewrite !N.lxor_0_r. reflexivity. Qed.
Lemma set_row_ok (l : list (list N)) i r : Forall (fun u => length u = width) l -> length r = width -> Forall (fun u => length u = width) (set_row l i r).
Proof.
  intros H Hr. revert i. induction H as [|x l Hx Hl IH]; intros [|i]; cbn [set_row]; auto.
Qed.

Lemma history_ok n keys s (T : nat -> list N) : length keys = width -> length s = width -> (forall j, length (T j) = width) ->
  forall ops rt st,
  r_t rt = map T (seq 0 n) -> length (r_u rt) = n -> Forall (fun u => length u = width) (r_u rt) ->
  r_idx rt = s_idx st -> r_keys rt = keys -> g_size (s_prf st) = n -> g_s (s_prf st) = s -> within n ops (r_idx rt) ->
  exists rt' msgs st',
    run_receiver aes ro rt ops = Val (rt', outputs T ops, msgs) /\
    set_corrections st msgs = Val st' /\
    g_size (s_prf st') = n /\ g_s (s_prf st') = s /\ g_keys (s_prf st') = g_keys (s_prf st) /\
    forall j, j < n -> nth j (g_q (s_prf st')) no_row =
      match before ops (r_idx rt) j with
      | None => nth j (g_q (s_prf st)) no_row
      | Some l => row_xor (nth j (g_q (s_prf st)) no_row) (row_and (applied keys (T j) l (nth j (r_u rt) no_row)) s)
      end.
Proof.
  intros LK LS LT. induction ops as [|o ops IH]; intros rt st HT HU HF HI HK HG HSs HW.
  - exists rt, [], st. cbn. auto 10.
  - assert (Tn : forall i, i < n -> nth i (r_t rt) no_row = T i) by (intros; rewrite HT; apply nth_map_seq0; auto).
    assert (Un : forall i, i < n -> length (nth i (r_u rt) no_row) = width).
    { intros i Hi. rewrite Forall_forall in HF. apply HF, nth_In. lia. }
    destruct o as [i x sz|i|c]; cbn [within] in HW.
    + destruct HW as (Hi & Hz & HW). cbn [run_receiver]. unfold receiver_encode.
      destruct (Nat.leb_spec sz 16); [|lia]. rewrite HU. destruct (Nat.ltb_spec i n); [|lia]. cbn [bind]. rewrite Tn by auto.
      set (u := row_xor (row_xor (nth i (r_u rt) no_row) (T i)) (prc aes (r_keys rt) x)).
      assert (Lu : length u = width). { unfold u. rewrite !row_xor_length, Un, LT, prc_length by congruence. reflexivity. }
      destruct (IH {| r_t := r_t rt; r_u := set_row (r_u rt) i u; r_idx := r_idx rt; r_keys := r_keys rt |} st)
        as (rt' & msgs & st' & E1 & E2 & E3 & E4 & E5 & E6); cbn [r_t r_u r_idx r_keys] in *; auto.
      { rewrite set_row_length. auto. } { apply set_row_ok; auto. }
      exists rt', msgs, st'. rewrite E1. cbn [bind]. split; [reflexivity|]. do 4 (split; [assumption|]).
      intros j Hj. rewrite E6 by auto. cbn [before]. rewrite set_row_nth by lia.
      destruct (Nat.eqb_spec i j) as [->|]; [|reflexivity]. destruct (before ops (r_idx rt) j); [|reflexivity].
      cbn [option_map applied fold_left code]. unfold u. rewrite HK. reflexivity.
    + destruct HW as (Hi & HW). cbn [run_receiver]. unfold receiver_zero.
      rewrite HU. destruct (Nat.ltb_spec i n); [|lia]. cbn [bind]. rewrite Tn by auto.
      set (u := row_xor (nth i (r_u rt) no_row) (T i)).
      assert (Lu : length u = width). { unfold u. rewrite row_xor_length, Un, LT by auto. reflexivity. }
      destruct (IH {| r_t := r_t rt; r_u := set_row (r_u rt) i u; r_idx := r_idx rt; r_keys := r_keys rt |} st)
        as (rt' & msgs & st' & E1 & E2 & E3 & E4 & E5 & E6); cbn [r_t r_u r_idx r_keys] in *; auto.
      { rewrite set_row_length. auto. } { apply set_row_ok; auto. }
      exists rt', msgs, st'. rewrite E1. split; [reflexivity|]. do 4 (split; [assumption|]).
      intros j Hj. rewrite E6 by auto. cbn [before]. rewrite set_row_nth by lia.
      destruct (Nat.eqb_spec i j) as [->|]; [|reflexivity]. destruct (before ops (r_idx rt) j); [|reflexivity].
      cbn [option_map applied fold_left code]. rewrite row_xor_zero by (rewrite row_xor_length, Un, LT by auto; reflexivity). reflexivity.
    + destruct HW as (Hc & HW). cbn [run_receiver]. unfold send_correction. rewrite HU.
      destruct (Nat.leb_spec (r_idx rt + c) n); [|lia]. cbn [bind].
      set (m := firstn c (skipn (r_idx rt) (r_u rt))).
      assert (Lm : length m = c) by (unfold m; rewrite firstn_length, skipn_length; lia).
      set (q' := splice (g_q (s_prf st)) (s_idx st)
                   (map (fun i => row_xor (nth (s_idx st + i) (g_q (s_prf st)) no_row) (row_and (nth i m no_row) (g_s (s_prf st)))) (seq 0 c))).
      assert (Lq : length q' = n).
      { unfold q', splice. rewrite !app_length, firstn_length, skipn_length, map_length, seq_length. unfold g_size in HG. lia. }
      set (st1 := {| s_prf := {| g_q := q'; g_s := g_s (s_prf st); g_keys := g_keys (s_prf st) |}; s_idx := s_idx st + c |}).
      destruct (IH {| r_t := r_t rt; r_u := r_u rt; r_idx := r_idx rt + c; r_keys := r_keys rt |} st1)
        as (rt' & msgs & st' & E1 & E2 & E3 & E4 & E5 & E6); cbn [r_t r_u r_idx r_keys s_prf s_idx g_q g_s g_keys st1] in *; auto.
      exists rt', (m :: msgs), st'. rewrite E1. cbn [bind]. split; [reflexivity|].
      split.
      { cbn [set_corrections]. unfold set_correction. rewrite Nat.eqb_refl. unfold calc_q. rewrite Lm, Nat.leb_refl, HG, <- HI.
        destruct (Nat.leb_spec (r_idx rt + c) n); [|lia]. cbn [andb bind]. rewrite HI. exact E2. }
      do 3 (split; [assumption|]).
      intros j Hj. rewrite E6 by auto. cbn [before].
      assert (Q : nth j q' no_row = if (r_idx rt <=? j) && (j <? r_idx rt + c) then row_xor (nth j (g_q (s_prf st)) no_row) (row_and (nth j (r_u rt) no_row) s)
                                    else nth j (g_q (s_prf st)) no_row).
      { assert (LF : length (firstn (r_idx rt) (g_q (s_prf st))) = r_idx rt) by (rewrite firstn_length; unfold g_size in HG; lia).
        unfold q', splice. rewrite <- HI, map_length, seq_length. destruct (Nat.leb_spec (r_idx rt) j) as [H1|H1]; cbn [andb].
        - rewrite app_nth2 by lia. rewrite LF. destruct (Nat.ltb_spec j (r_idx rt + c)) as [H2|H2].
          + rewrite app_nth1 by (rewrite map_length, seq_length; lia). rewrite nth_map_seq0 by lia.
            replace (r_idx rt + (j - r_idx rt)) with j by lia. rewrite HSs. unfold m. rewrite nth_firstn, nth_skipn by lia.
            replace (r_idx rt + (j - r_idx rt)) with j by lia. reflexivity.
          + rewrite app_nth2 by (rewrite map_length, seq_length; lia). rewrite map_length, seq_length, nth_skipn. f_equal. lia.
        - rewrite app_nth1 by lia. apply nth_firstn. auto. }
      rewrite Q. destruct (Nat.leb_spec (r_idx rt) j) as [H1|H1]; cbn [andb].
      * destruct (Nat.ltb_spec j (r_idx rt + c)) as [H2|H2]; [|reflexivity]. rewrite before_done by auto. reflexivity.
      * rewrite before_done by lia. reflexivity.
Qed.

Lemma init_batches_ok ks n : forall m b p, b + m = batch_num_x n -> length (g_q p) = n ->
  firstn (Nat.min n (b * 1024)) (g_q p) = map (spec_row stream ks) (seq 0 (Nat.min n (b * 1024))) ->
  init_batches stream ks n (seq b m) p = Val {| g_q := map (spec_row stream ks) (seq 0 n); g_s := g_s p; g_keys := g_keys p |}.
Proof.
  induction m as [|m IH]; intros b p Hb HL HF.
  - cbn [seq init_batches]. assert (n <= b * 1024). { replace b with (batch_num_x n) by lia. apply (batch_cover 1024 n). lia. }
    rewrite (Nat.min_l n) in HF by lia. rewrite <- HF, firstn_all2 by lia. destruct p; reflexivity.
  - cbn [seq init_batches]. assert (B : b * 1024 < n).
    { assert (b < batch_num_x n) by lia. unfold batch_num_x in *.
      pose proof (Nat.div_mod (n + 1023) 1024 ltac:(lia)). pose proof (Nat.mod_upper_bound (n + 1023) 1024 ltac:(lia)). nia. }
    set (num := this_batch 1024 n b). assert (Hnum : num <= 1024 /\ b * 1024 + num = Nat.min n (S b * 1024)) by (unfold num, this_batch; lia).
    assert (Q : rows_x stream ks b num = map (spec_row stream ks) (seq (b * 1024) num)).
    { rewrite rows_x_spec by (auto; lia). clear. induction num as [|c IHc]; [reflexivity|]. rewrite !seq_S, !map_app, IHc. reflexivity. }
    rewrite Q. unfold set_q at 1. rewrite map_length, seq_length, Nat.leb_refl. unfold g_size. rewrite HL.
    replace (b * 1024 + num <=? n) with true by (symmetry; apply Nat.leb_le; lia). cbn [andb bind].
    rewrite (Nat.min_r n) in HF by lia.
    destruct (splice_ok (spec_row stream ks) (g_q p) (b * 1024) num) as [L1 L2]; [lia|exact HF|].
    rewrite firstn_all2 by (rewrite map_length, seq_length; auto).
    rewrite IH; cbn [g_q g_s g_keys]; [reflexivity|lia|congruence|].
    replace (Nat.min n (S b * 1024)) with (b * 1024 + num) by lia. exact L2.
Qed.
Lemma init_rows ks n : flat_map (fun b => rows_x stream ks b (this_batch 1024 n b)) (seq 0 (batch_num_x n)) = map (spec_row stream ks) (seq 0 n).
Proof.
  transitivity (map (spec_row stream ks) (seq 0 (Nat.min n (batch_num_x n * 1024))));
    [|f_equal; f_equal; apply Nat.min_l; apply (batch_cover 1024 n); lia].
  rewrite <- (flat_batches (fun b i => spec_row stream ks (b * 1024 + i))) by (auto; lia).
  apply flat_map_ext. intros b. apply rows_x_spec; auto. unfold this_batch. lia.
Qed.

(** The parity of the encodings decides whether the receiver's own row is
    cancelled. *)
Definition odd_row (l : list (option N)) (t : list N) : list N := if Nat.odd (length l) then no_row else t.
Definition codes (keys : list N) (l : list (option N)) : list N := fold_left (fun c e => row_xor c (code keys e)) l no_row.

Theorem kkrt_classes choices ks k0 k1 seed_r seed_s n ops : base_ots choices ks k0 k1 -> n <> 0 -> within n ops 0 ->
  let keys := prc_init expand seed_s seed_r in
  let T := spec_row stream k0 in
  let V := spec_row stream k1 in
  exists rt msgs st0 st,
    run_receiver aes ro (receiver_init stream expand k0 k1 seed_r seed_s n) ops = Val (rt, outputs T ops, msgs) /\
    sender_init stream expand choices ks seed_s seed_r n = Val st0 /\
    set_corrections st0 msgs = Val st /\
    forall j y sz, j < n -> sender_encode aes ro st j y sz = Val (ro
      match before ops 0 j with
      | Some l => row_xor (T j) (row_and (row_xor (row_xor (prc aes keys y) (codes keys l)) (odd_row l (T j))) (choice_row choices))
      | None => row_xor (T j) (row_and (row_xor (prc aes keys y) (row_xor (T j) (V j))) (choice_row choices))
      end sz).
Proof.
  intros (HLc & HLs & HL0 & HL1 & HK) Hn HW keys T V.
  set (p0 := {| g_q := repeat no_row n; g_s := choice_row choices; g_keys := keys |}).
  assert (IB := init_batches_ok ks n (batch_num_x n) 0 p0 eq_refl (repeat_length _ _)).
  rewrite Nat.min_0_r in IB. specialize (IB eq_refl). cbn [g_s g_keys p0] in IB.
  set (p1 := {| g_q := map (spec_row stream ks) (seq 0 n); g_s := choice_row choices; g_keys := keys |}) in *.
  set (rt0 := receiver_init stream expand k0 k1 seed_r seed_s n).
  assert (R1 : r_t rt0 = map T (seq 0 n)) by apply init_rows.
  assert (R2 : r_u rt0 = map V (seq 0 n)) by apply init_rows.
  assert (LT : forall j, length (T j) = width) by (intro; apply spec_row_length).
  assert (LV : forall j, length (V j) = width) by (intro; apply spec_row_length).
  assert (LKs : length keys = width) by apply keys_length.
  assert (LC := choice_row_length choices).
  destruct (history_ok n keys (choice_row choices) T LKs LC LT ops rt0 {| s_prf := p1; s_idx := 0 |})
    as (rt & msgs & st & E1 & E2 & E3 & E4 & E5 & E6); auto.
  { rewrite R2, map_length, seq_length. reflexivity. }
  { rewrite R2. apply Forall_forall. intros u Hu. apply in_map_iff in Hu as (j & <- & _). apply LV. }
  { cbn. unfold keys. apply prc_keys_agree. }
  { unfold g_size. cbn [s_prf g_q p1]. rewrite map_length, seq_length. reflexivity. }
  exists rt, msgs, {| s_prf := p1; s_idx := 0 |}, st. split; [exact E1|]. split.
  { unfold sender_init. rewrite HLs, Nat.eqb_refl. destruct (Nat.eqb_spec n 0); [congruence|]. fold keys. unfold p0 in IB. rewrite IB. reflexivity. }
  split; [exact E2|]. intros j y sz Hj. unfold sender_encode, eval. rewrite E3. destruct (Nat.ltb_spec j n); [|lia].
  f_equal. f_equal. unfold eval_row. rewrite E6, E4, E5 by auto. cbn [s_prf g_q g_keys p1]. rewrite nth_map_seq0 by auto.
  cbn [r_idx rt0 receiver_init]. rewrite (mix_row stream choices k0 k1 ks HK j). fold T V.
  assert (LP := prc_length keys y LKs). set (P := prc aes keys y) in *.
  destruct (before ops 0 j) as [l|].
  - assert (A : applied keys (T j) l (nth j (r_u rt0) no_row) = row_xor (row_xor (V j) (if Nat.odd (length l) then T j else no_row)) (codes keys l) /\
                length (codes keys l) = width).
    { rewrite R2, nth_map_seq0 by auto. unfold applied, codes. 
      induction l as [|e l IH] using rev_ind.
      - cbn [fold_left length Nat.odd Nat.even negb]. split; [|reflexivity]. rewrite row_xor_zero; rewrite ?row_xor_zero; auto.
      - rewrite !fold_left_app. cbn [fold_left]. destruct IH as [-> LL].
        set (c := fold_left (fun c e0 => row_xor c (code keys e0)) l no_row) in *.
        assert (Lc : length (code keys e) = width) by (destruct e; [apply prc_length; auto|reflexivity]).
        split; [|rewrite row_xor_length, LL, Lc; reflexivity].
        rewrite app_length, Nat.add_comm. cbn [length Nat.add]. rewrite Nat.odd_succ, <- Nat.negb_odd.
        generalize (LT j), (LV j). generalize (T j), (V j). intros t v Lt Lv. apply row4 in Lt as (? & ? & ? & ? & ->). apply row4 in Lv as (? & ? & ? & ? & ->).
        apply row4 in LL as (? & ? & ? & ? & ->). apply row4 in Lc as (? & ? & ? & ? & ->).
        destruct (Nat.odd (length l)); unfold no_row; cbn [negb row_xor combine map fst snd repeat width]; unfold row_xor; cbn [combine map fst snd]; rewrite ?N.lxor_0_r; rowbits. }
    destruct A as [-> LL]. unfold odd_row.
    generalize (LT j), (LV j). generalize (T j), (V j). intros t v Lt Lv. apply row4 in Lt as (? & ? & ? & ? & ->). apply row4 in Lv as (? & ? & ? & ? & ->).
    apply row4 in LL as (? & ? & ? & ? & ->). apply row4 in LC as (? & ? & ? & ? & ->). apply row4 in LP as (? & ? & ? & ? & ->).
    destruct (Nat.odd (length l)); unfold no_row, width; cbn [repeat]; unfold row_xor, row_and; cbn [combine map fst snd]; rewrite ?N.lxor_0_r; rowbits.
  - generalize (LT j), (LV j). generalize (T j), (V j). intros t v Lt Lv. apply row4 in Lt as (? & ? & ? & ? & ->). apply row4 in Lv as (? & ? & ? & ? & ->).
    apply row4 in LC as (? & ? & ? & ? & ->). apply row4 in LP as (? & ? & ? & ? & ->).
    unfold row_xor, row_and; cbn [combine map fst snd]; rowbits.
Qed.

Lemma outputs_split T a j x sz b : nth_error (outputs T (a ++ REncode j x sz :: b)) (length (outputs T a)) = Some (ro (T j) sz).
Proof.
  unfold outputs. rewrite flat_map_app. cbn [flat_map app]. rewrite nth_error_app2, Nat.sub_diag by auto. reflexivity.
Qed.
(** An index encoded once before its correction is sent: the output of that
    Encode is the sender's value at the same input. *)
Theorem classes_agree choices ks k0 k1 seed_r seed_s n a j x sz b : base_ots choices ks k0 k1 -> n <> 0 ->
  within n (a ++ REncode j x sz :: b) 0 -> before (a ++ REncode j x sz :: b) 0 j = Some [Some x] ->
  exists rt outs msgs st0 st o,
    run_receiver aes ro (receiver_init stream expand k0 k1 seed_r seed_s n) (a ++ REncode j x sz :: b) = Val (rt, outs, msgs) /\
    sender_init stream expand choices ks seed_s seed_r n = Val st0 /\
    set_corrections st0 msgs = Val st /\
    nth_error outs (length (filter (fun o => match o with REncode _ _ _ => true | _ => false end) a)) = Some o /\
    sender_encode aes ro st j x sz = Val o /\
    (forall y, sender_encode aes ro st j y sz = Val (ro (row_xor (spec_row stream k0 j)
       (row_and (row_xor (prc aes (prc_init expand seed_s seed_r) y) (prc aes (prc_init expand seed_s seed_r) x)) (choice_row choices))) sz)).
Proof.
  intros HB Hn HW Hb. destruct (kkrt_classes choices ks k0 k1 seed_r seed_s n _ HB Hn HW) as (rt & msgs & st0 & st & E1 & E2 & E3 & EV).
  assert (Hj : j < n).
  { clear - HW. revert HW. generalize 0 as cur. induction a as [|[i y s|i|c] a IH]; intros cur; cbn [app within]; [tauto|..]; intros H;
      [destruct H as (_ & _ & H)|destruct H as (_ & H)|destruct H as (_ & H)]; exact (IH _ H). }
  set (keys := prc_init expand seed_s seed_r) in *. set (T := spec_row stream k0) in *.
  assert (LP : forall y, length (prc aes keys y) = width) by (intro; apply prc_length, keys_length).
  assert (LT : length (T j) = width) by apply spec_row_length. assert (LC := choice_row_length choices).
  assert (F : forall y, sender_encode aes ro st j y sz = Val (ro (row_xor (T j) (row_and (row_xor (prc aes keys y) (prc aes keys x)) (choice_row choices))) sz)).
  { intros y. rewrite EV by auto. rewrite Hb. f_equal. f_equal. f_equal. f_equal. unfold codes, odd_row. cbn [fold_left length Nat.odd Nat.even negb code].
    rewrite row_xor_zero.
    - f_equal. generalize (LP x). intros L. apply row4 in L as (? & ? & ? & ? & ->). unfold row_xor, no_row. cbn. rewrite ?N.lxor_0_l. reflexivity.
    - rewrite !row_xor_length, !LP. reflexivity. }
  exists rt, (outputs T (a ++ REncode j x sz :: b)), msgs, st0, st, (ro (T j) sz). repeat (split; [assumption|]).
  split; [|split; [|exact F]].
  - rewrite <- (outputs_split T a j x sz b). f_equal. clear. unfold outputs. induction a as [|[i y s|i|c] a IH]; cbn [flat_map app length filter]; rewrite ?IH; reflexivity.
  - rewrite F. f_equal. f_equal. generalize (LP x), LT. generalize (prc aes keys x), (T j). intros c t L Lt.
    apply row4 in L as (? & ? & ? & ? & ->). apply row4 in Lt as (? & ? & ? & ? & ->). apply row4 in LC as (? & ? & ? & ? & ->).
    unfold row_xor, row_and. cbn [combine map fst snd]. rowbits.
Qed.

(** The calls that succeed are exactly those within the object. *)
Theorem receiver_succeeds_exact : forall n ops rt, length (r_u rt) = n ->
  (exists r, run_receiver aes ro rt ops = Val r) <-> within n ops (r_idx rt).
Proof.
  intros n. induction ops as [|[i x sz|i|c] ops IH]; intros rt L; cbn [run_receiver within].
  - split; [auto|]. intros _. eexists. reflexivity.
  - unfold receiver_encode. rewrite L. destruct (Nat.leb_spec sz 16); [|split; [intros (r & E); discriminate|lia]].
    destruct (Nat.ltb_spec i n); [|split; [intros (r & E); discriminate|lia]]. cbn [bind].
    set (rt1 := {| r_t := _ |}). specialize (IH rt1). cbn [r_u r_idx rt1] in IH. rewrite set_row_length in IH. specialize (IH L).
    fold rt1. rewrite <- (and_iff_compat_l (i < n) (and_iff_compat_l (sz <= 16) IH)). split.
    + intros (r & E). destruct (run_receiver aes ro rt1 ops) as [[[r1 r2] r3]| | |]; try discriminate. eauto.
    + intros (_ & _ & [[r1 r2] r3] & ->). cbn [bind]. eauto.
  - unfold receiver_zero. rewrite L. destruct (Nat.ltb_spec i n); [|split; [intros (r & E); discriminate|lia]]. cbn [bind].
    set (rt1 := {| r_t := _ |}). specialize (IH rt1). cbn [r_u r_idx rt1] in IH. rewrite set_row_length in IH. specialize (IH L).
    rewrite <- (and_iff_compat_l (i < n) IH). tauto.
  - unfold send_correction. rewrite L. destruct (Nat.leb_spec (r_idx rt + c) n); [|split; [intros (r & E); discriminate|lia]]. cbn [bind].
    set (rt1 := {| r_t := _ |}). specialize (IH rt1). cbn [r_u r_idx rt1] in IH. specialize (IH L).
    fold rt1. rewrite <- (and_iff_compat_l (r_idx rt + c <= n) IH). split.
    + intros (r & E). destruct (run_receiver aes ro rt1 ops) as [[[r1 r2] r3]| | |]; try discriminate. eauto.
    + intros (_ & [[r1 r2] r3] & ->). cbn [bind]. eauto.
Qed.

(** The sender's side of a wrong call: a count that is not the message's, more
    corrections than OTs, and an index past the end all throw. *)
Theorem correction_refused st u c : set_correction st u c = Thrown <-> (length u <> c \/ g_size (s_prf st) < s_idx st + c).
Proof.
  unfold set_correction, calc_q. destruct (Nat.eqb_spec (length u) c) as [<-|]; [|tauto]. rewrite Nat.leb_refl. cbn [andb].
  destruct (Nat.leb_spec (s_idx st + length u) (g_size (s_prf st))); cbn [bind]; split; intros; try discriminate; try lia; auto.
Qed.
Theorem sender_index_refused st i x sz : sender_encode aes ro st i x sz = Thrown <-> g_size (s_prf st) <= i.
Proof. unfold sender_encode, eval. destruct (Nat.ltb_spec i (g_size (s_prf st))); split; intros; try discriminate; try lia; auto. Qed.
End Kkrt.

(** ** Witnesses *)
Definition ex_stream (s : N) (i : nat) : N := ((s * 7 + N.of_nat i * 3 + 1) mod 2 ^ 128)%N.
Definition ex_expand (s : N) : list N := [s; N.succ s; N.double s; 5%N].
Definition ex_aes (k x : N) : N := (k * x + k)%N.
Definition ex_ro (r : list N) (sz : nat) : list N := firstn sz r.
Definition ex_ro128 (r : list N) : N := fold_left (fun a w => (a * 2 ^ 128 + w)%N) r 0%N.
Definition ex_choices : list bool := map Nat.odd (seq 0 512).
Definition ex_k0 : list N := map N.of_nat (seq 0 512).
Definition ex_k1 : list N := map N.of_nat (seq 1000 512).
Definition ex_ks : list N := map (fun k => if Nat.odd k then N.of_nat (1000 + k) else N.of_nat k) (seq 0 512).
Lemma ex_stream_lt s i : w128 (ex_stream s i).
Proof. apply N.mod_lt. discriminate. Qed.
Lemma ex_base : base_ots ex_choices ex_ks ex_k0 ex_k1.
Proof.
  unfold base_ots, ex_choices, ex_ks, ex_k0, ex_k1. rewrite !map_length, !seq_length. do 4 (split; [reflexivity|]).
  intros k Hk. rewrite !nth_map_seq0 by auto. rewrite (nth_indep _ 0%N (N.of_nat 0)) by (rewrite map_length, seq_length; auto).
  rewrite map_nth, seq_nth by auto. reflexivity.
Qed.
Example kkrt_agree_applies : exists msgs out prf,
  kkrt_recv ex_stream ex_expand ex_aes ex_ro128 ex_k0 ex_k1 9%N 12%N [5; 7; 5]%N 3 (fun _ _ => [1; 2; 3; 4]%N) = Val (msgs, out) /\
  kkrt_send ex_stream ex_expand ex_choices ex_ks 12%N 9%N 3 msgs = Val prf /\ length out = 3 /\
  forall i, i < 3 -> eval128 ex_aes ex_ro128 prf i (nth i [5; 7; 5]%N 0%N) = Val (nth i out 0%N).
Proof.
  apply (kkrt_agree ex_stream ex_expand ex_aes ex_ro ex_ro128 ex_stream_lt (fun _ => eq_refl) ex_choices ex_ks ex_k0 ex_k1 9%N 12%N [5; 7; 5]%N (fun _ _ => [1; 2; 3; 4]%N) ex_base).
  discriminate.
Qed.
(** A history in which index 2 is encoded once before the send covering it. *)
Definition ex_ops : list rop := [RZero 0; REncode 1 8%N 16; RSend 2; REncode 2 5%N 4; RSend 1].
Example classes_agree_applies : within 3 ex_ops 0 /\ before ex_ops 0 2 = Some [Some 5%N] /\ before ex_ops 0 0 = Some [None].
Proof. cbn. repeat split; lia. Qed.

(** The message reveals memory: with one OT, 127 of the 128 rows sent are what
    the stack held. *)
Theorem kkrt_message_leaks_memory_refuted :
  exists stream expand aes ro128 k0 k1 inputs mem mem' msgs msgs' out,
    kkrt_recv stream expand aes ro128 k0 k1 0%N 0%N inputs (length inputs) mem = Val (msgs, out) /\
    kkrt_recv stream expand aes ro128 k0 k1 0%N 0%N inputs (length inputs) mem' = Val (msgs', out) /\
    nth 127 (nth 0 msgs []) no_row = [1; 2; 3; 4]%N /\ nth 127 (nth 0 msgs' []) no_row = [5; 6; 7; 8]%N.
Proof.
  destruct (kkrt_oneshot ex_stream ex_expand ex_aes ex_ro ex_ro128 ex_stream_lt (fun _ => eq_refl) ex_choices ex_ks ex_k0 ex_k1 0%N 0%N [5]%N
              (fun _ _ => [1; 2; 3; 4]%N) ex_base) as (m1 & _ & A1 & _ & _ & _ & _ & M1); [discriminate|].
  destruct (kkrt_oneshot ex_stream ex_expand ex_aes ex_ro ex_ro128 ex_stream_lt (fun _ => eq_refl) ex_choices ex_ks ex_k0 ex_k1 0%N 0%N [5]%N
              (fun _ _ => [5; 6; 7; 8]%N) ex_base) as (m2 & _ & A2 & _ & _ & _ & _ & M2); [discriminate|].
  exists ex_stream, ex_expand, ex_aes, ex_ro128, ex_k0, ex_k1, [5]%N, (fun _ _ => [1; 2; 3; 4]%N), (fun _ _ => [5; 6; 7; 8]%N), m1, m2.
  eexists. split; [exact A1|]. split; [exact A2|]. split.
  - rewrite M1 by (cbn; lia). reflexivity.
  - rewrite M2 by (cbn; lia). reflexivity.
Qed.

(** Encoding an index twice, even with the same input, breaks it: the value the
    sender computes is not the one the receiver got. *)
Theorem kkrt_encode_twice_refuted :
  exists stream expand aes ro choices ks k0 k1 x sz rt o msgs st0 st,
    (forall s i, w128 (stream s i)) /\ base_ots choices ks k0 k1 /\
    run_receiver aes ro (receiver_init stream expand k0 k1 0%N 0%N 1) [REncode 0 x sz; REncode 0 x sz; RSend 1] = Val (rt, [o; o], msgs) /\
    sender_init stream expand choices ks 0%N 0%N 1 = Val st0 /\
    set_corrections st0 msgs = Val st /\ sender_encode aes ro st 0 x sz <> Val o.
Proof.
  pose (stream := fun (_ : N) (_ : nat) => N.ones 128). pose (aes := fun (_ x : N) => x). pose (expand := fun _ : N => repeat 0%N 4).
  assert (HS : forall s i, w128 (stream s i)) by (intros; reflexivity).
  pose (choices := repeat true 512). pose (ks := repeat 0%N 512).
  assert (HB : base_ots choices ks ks ks).
  { unfold base_ots, choices, ks. rewrite !repeat_length. do 4 (split; [reflexivity|]). intros k Hk. destruct (nth k (repeat true 512) false); reflexivity. }
  destruct (kkrt_classes stream expand aes ex_ro HS (fun _ => eq_refl) choices ks ks ks 0%N 0%N 1 [REncode 0 5%N 16; REncode 0 5%N 16; RSend 1] HB)
    as (rt & msgs & st0 & st & E1 & E2 & E3 & EV); [discriminate|cbn; lia|].
  exists stream, expand, aes, ex_ro, choices, ks, ks, ks, 5%N, 16, rt, (ex_ro (spec_row stream ks 0) 16), msgs, st0, st.
  split; [exact HS|]. split; [exact HB|]. split; [exact E1|]. split; [exact E2|]. split; [exact E3|].
  rewrite EV by lia. vm_compute. discriminate.
Qed.

Print Assumptions prc_keys_agree.
Print Assumptions kkrt_oneshot.
Print Assumptions kkrt_agree.
Print Assumptions other_input_exact.
Print Assumptions kkrt_classes.
Print Assumptions classes_agree.
Print Assumptions receiver_succeeds_exact.
Print Assumptions correction_refused.
Print Assumptions sender_index_refused.
Print Assumptions kkrt_message_leaks_memory_refuted.
Print Assumptions kkrt_encode_twice_refuted.
