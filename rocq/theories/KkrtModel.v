(** Model of the KKRT OT extension (an oblivious PRF):
    yacl/kernel/algorithms/kkrt_ote.{h,cc}, both the one-shot functions
    KkrtOtExtSend / KkrtOtExtRecv and the classes KkrtOtExtSender /
    KkrtOtExtReceiver.

    Blocks are [N]; a KkrtRow is a list of four blocks.  [stream seed i] is the
    i-th value of Prg<uint128_t, n>(seed); by prg_calls (C48) it does not depend
    on the batch size n, which differs between the classes of the two parties.
    The AES key expansion and encryption (AES_opt_key_schedule, ParaEnc), the
    expansion of the joint seed (PrgAesCtr) and the random oracle (Blake3) are
    arguments.  The transposes are those of TransModel.  Sizes are far below
    2^64.  Messages are delivered in order (ChanProps). *)
From Coq Require Import List NArith ZArith Bool.
From Verif Require Import TransModel OtExtModel LinCodeModel.
Import ListNotations.
Open Scope nat_scope.

Notation row := (list N) (only parsing).
(** kKkrtWidth, kkrt_ote.h:40. *)
Definition width : nat := 4.
Definition row_xor (a b : list N) : list N := map (fun p => N.lxor (fst p) (snd p)) (combine a b).
Definition row_and (a b : list N) : list N := map (fun p => N.land (fst p) (snd p)) (combine a b).
Definition no_row : list N := repeat 0%N width.

Section Kkrt.
Variable stream : N -> nat -> N.
(** PrgAesCtr into kKkrtWidth keys, and AES encryption under a key. *)
Variable expand : N -> list N.
Variable aes : N -> N -> N.
(** RandomOracle::GetBlake3()(row, outlen), RO_Blake3_128. *)
Variable ro : list N -> nat -> list N.
Variable ro128 : list N -> N.

(** PrcInit, kkrt_ote.cc:42-51: the keys from both seeds. *)
Definition prc_init (my_seed peer_seed : N) : list N := expand (N.lxor my_seed peer_seed).
(** Prc, kkrt_ote.cc:54-62. *)
Definition prc (keys : list N) (input : N) : list N := map (fun k => N.lxor (aes k input) input) keys.

(** KkrtGroupPRF, kkrt_ote.cc:66-152. *)
Record group_prf := { g_q : list (list N); g_s : list N; g_keys : list N }.
Definition g_size (p : group_prf) : nat := length (g_q p).
Definition eval_row (p : group_prf) (idx : nat) (input : N) : list N :=
  row_xor (row_and (prc (g_keys p) input) (g_s p)) (nth idx (g_q p) no_row).
(** Eval :78-91 and :95-112. *)
Definition eval128 (p : group_prf) (idx : nat) (input : N) : outcome N :=
  if idx <? g_size p then Val (ro128 (eval_row p idx input)) else Thrown.
Definition eval (p : group_prf) (idx : nat) (input : N) (bufsize : nat) : outcome (list N) :=
  if idx <? g_size p then Val (ro (eval_row p idx input) bufsize) else Thrown.
(** SetQ :114-120; CalcQ :122-145 (both overloads compute the same). *)
Definition splice (l : list (list N)) (offset : nat) (rows : list (list N)) : list (list N) :=
  firstn offset l ++ rows ++ skipn (offset + length rows) l.
Definition set_q (p : group_prf) (q : list (list N)) (offset num_valid : nat) : outcome group_prf :=
  if (num_valid <=? length q) && (offset + num_valid <=? g_size p) then
    Val {| g_q := splice (g_q p) offset (firstn num_valid q); g_s := g_s p; g_keys := g_keys p |}
  else Thrown.
Definition calc_q (p : group_prf) (u : list (list N)) (offset num_valid : nat) : outcome group_prf :=
  if (num_valid <=? length u) && (offset + num_valid <=? g_size p) then
    Val {| g_q := splice (g_q p) offset
                    (map (fun i => row_xor (nth (offset + i) (g_q p) no_row) (row_and (nth i u no_row) (g_s p)))
                         (seq 0 num_valid));
           g_s := g_s p; g_keys := g_keys p |}
  else Thrown.

(** S, kkrt_ote.cc:162-167 and 279-285: choice w * 128 + k is bit k of word w. *)
Definition choice_row (choices : list bool) : list N :=
  map (fun w => bits_word (firstn 128 (skipn (w * 128) choices))) (seq 0 width).

(** ** The one-shot protocol *)
(** The 128 words of one batch for word w, before the transpose (:186-192,
    240-247; kNumBlockPerBatch is 1), and after it: the rows i < num
    (:193-196, 249-254). *)
Definition batch_column (seeds : list N) (batch w : nat) : list N :=
  map (fun k => stream (nth (w * 128 + k) seeds 0%N) batch) (seq 0 128).
Definition batch_rows (seeds : list N) (batch num : nat) : list (list N) :=
  map (fun i => map (fun w => nth i (transpose sse_transpose128 (batch_column seeds batch w)) 0%N) (seq 0 width)) (seq 0 num).
(** num_this_batch. *)
Definition this_batch (size n batch : nat) : nat := Nat.min (n - batch * size) size.

(** The loop of KkrtOtExtSend, :178-215.  A message is the 128 rows of U; one of
    another size makes :202 throw. *)
Fixpoint send_batches (ks s : list N) (n : nat) (batches : list nat) (msgs : list (list (list N))) (p : group_prf) : outcome group_prf :=
  match batches with
  | [] => Val p
  | b :: batches' =>
      let num := this_batch 128 n b in
      let q := batch_rows ks b num in
      match msgs with
      | [] => Hangs
      | u :: msgs' =>
          if Nat.eqb (length u) 128 then
            let q := map (fun i => row_xor (nth i q no_row) (row_and (nth i u no_row) s)) (seq 0 num) in
            bind (set_q p q (b * 128) num) (send_batches ks s n batches' msgs')
          else Thrown
      end
  end.
(** KkrtOtExtSend, :155-219. *)
Definition kkrt_send (choices : list bool) (ks : list N) (my_seed peer_seed : N) (num_ot : nat) (msgs : list (list (list N))) : outcome group_prf :=
  if Nat.eqb (length ks) 512 then
    if Nat.eqb num_ot 0 then Thrown
    else
      let s := choice_row choices in
      let p := {| g_q := repeat no_row num_ot; g_s := s; g_keys := prc_init my_seed peer_seed |} in
      send_batches ks s num_ot (seq 0 (batch_num num_ot)) msgs p
  else Thrown.

(** KkrtOtExtRecv, :221-284.  The rows of U from num_this_batch on are sent
    although nothing was stored there: [mem b i] is what the memory held. *)
Definition recv_message (k0 k1 keys inputs : list N) (mem : nat -> nat -> list N) (b : nat) : list (list N) :=
  let num := this_batch 128 (length inputs) b in
  let t := batch_rows k0 b num in
  let u := batch_rows k1 b num in
  map (fun i => row_xor (row_xor (nth i u no_row) (nth i t no_row)) (prc keys (nth (b * 128 + i) inputs 0%N))) (seq 0 num) ++
  map (mem b) (seq num (128 - num)).
Definition kkrt_recv (k0 k1 : list N) (my_seed peer_seed : N) (inputs : list N) (out_size : nat) (mem : nat -> nat -> list N)
  : outcome (list (list (list N)) * list N) :=
  if Nat.eqb (length k0) 512 then
    if Nat.eqb (length inputs) out_size && negb (Nat.eqb (length inputs) 0) then
      let keys := prc_init my_seed peer_seed in
      let batches := seq 0 (batch_num (length inputs)) in
      Val (map (recv_message k0 k1 keys inputs mem) batches,
           flat_map (fun b => map ro128 (batch_rows k0 b (this_batch 128 (length inputs) b))) batches)
    else Thrown
  else Thrown.

(** ** The classes *)
(** Word w of a batch of 1024 rows, before and after SseTranspose128x1024
    (:297-306, 411-418). *)
Definition batch_x (seeds : list N) (batch w : nat) : list (list N) :=
  map (map Z.to_N) (sse_transpose128x1024
    (map (fun k => map (fun j => Z.of_N (stream (nth (w * 128 + k) seeds 0%N) (batch * 8 + j))) (seq 0 8)) (seq 0 128))).
(** The loop over i, :308-318 and 420-434: the words of rows 128 i, 128 i + 1, ...
    until a block is not full.  num - 128 i does not wrap: it is reached only
    after i full blocks. *)
Fixpoint fill_words (fuel i num : nat) (m : list (list N)) : list N :=
  match fuel with
  | O => []
  | S f =>
      let cnt := Nat.min 128 (num - 128 * i) in
      map (fun j => nth i (nth j m []) 0%N) (seq 0 cnt) ++ (if cnt <? 128 then [] else fill_words f (S i) num m)
  end.
Definition rows_x (seeds : list N) (batch num : nat) : list (list N) :=
  let ws := map (fun w => fill_words 8 0 num (batch_x seeds batch w)) (seq 0 width) in
  map (fun r => map (fun w => nth r w 0%N) ws) (seq 0 num).
Definition batch_num_x (n : nat) : nat := (n + 1023) / 1024.

Record sender := { s_prf : group_prf; s_idx : nat }.
Fixpoint init_batches (ks : list N) (n : nat) (batches : list nat) (p : group_prf) : outcome group_prf :=
  match batches with
  | [] => Val p
  | b :: batches' =>
      let num := this_batch 1024 n b in
      bind (set_q p (rows_x ks b num) (b * 1024) num) (init_batches ks n batches')
  end.
(** KkrtOtExtSender::Init, :270-324. *)
Definition sender_init (choices : list bool) (ks : list N) (my_seed peer_seed : N) (num_ot : nat) : outcome sender :=
  if Nat.eqb (length ks) 512 then
    if Nat.eqb num_ot 0 then Thrown
    else
      let p := {| g_q := repeat no_row num_ot; g_s := choice_row choices; g_keys := prc_init my_seed peer_seed |} in
      bind (init_batches ks num_ot (seq 0 (batch_num_x num_ot)) p) (fun p => Val {| s_prf := p; s_idx := 0 |})
  else Thrown.
(** RecvCorrection :326-345 and SetCorrection :347-363, the rows in hand. *)
Definition set_correction (st : sender) (u : list (list N)) (recv_count : nat) : outcome sender :=
  if Nat.eqb (length u) recv_count then
    bind (calc_q (s_prf st) u (s_idx st) recv_count) (fun p => Val {| s_prf := p; s_idx := s_idx st + recv_count |})
  else Thrown.
Fixpoint set_corrections (st : sender) (msgs : list (list (list N))) : outcome sender :=
  match msgs with
  | [] => Val st
  | u :: msgs' => bind (set_correction st u (length u)) (fun st => set_corrections st msgs')
  end.
(** Encode :365-368. *)
Definition sender_encode (st : sender) (idx : nat) (input : N) (size : nat) : outcome (list N) := eval (s_prf st) idx input size.

Record receiver := { r_t : list (list N); r_u : list (list N); r_idx : nat; r_keys : list N }.
(** KkrtOtExtReceiver::Init, :370-437.  The base OT store is not measured. *)
Definition receiver_init (k0 k1 : list N) (my_seed peer_seed : N) (num_ot : nat) : receiver :=
  let batches := seq 0 (batch_num_x num_ot) in
  {| r_t := flat_map (fun b => rows_x k0 b (this_batch 1024 num_ot b)) batches;
     r_u := flat_map (fun b => rows_x k1 b (this_batch 1024 num_ot b)) batches;
     r_idx := 0; r_keys := prc_init my_seed peer_seed |}.
Fixpoint set_row (l : list (list N)) (i : nat) (r : list N) : list (list N) :=
  match l, i with
  | [], _ => []
  | _ :: l', O => r :: l'
  | x :: l', S i' => x :: set_row l' i' r
  end.
(** Encode :439-477 (both overloads), ZeroEncode :479-483: U_[ot_idx] is not
    checked, an index past the end is [OutOfBounds]. *)
Definition receiver_encode (st : receiver) (idx : nat) (input : N) (size : nat) : outcome (receiver * list N) :=
  if size <=? 16 then
    if idx <? length (r_u st) then
      let u := row_xor (row_xor (nth idx (r_u st) no_row) (nth idx (r_t st) no_row)) (prc (r_keys st) input) in
      Val ({| r_t := r_t st; r_u := set_row (r_u st) idx u; r_idx := r_idx st; r_keys := r_keys st |},
           ro (nth idx (r_t st) no_row) size)
    else OutOfBounds
  else Thrown.
Definition receiver_zero (st : receiver) (idx : nat) : outcome receiver :=
  if idx <? length (r_u st) then
    let u := row_xor (nth idx (r_u st) no_row) (nth idx (r_t st) no_row) in
    Val {| r_t := r_t st; r_u := set_row (r_u st) idx u; r_idx := r_idx st; r_keys := r_keys st |}
  else OutOfBounds.
(** SendCorrection :485-494, ShiftCorrection :496-502. *)
Definition send_correction (st : receiver) (count : nat) : outcome (receiver * list (list N)) :=
  if r_idx st + count <=? length (r_u st) then
    Val ({| r_t := r_t st; r_u := r_u st; r_idx := r_idx st + count; r_keys := r_keys st |},
         firstn count (skipn (r_idx st) (r_u st)))
  else OutOfBounds.
(** A history of the receiver: its outputs and the corrections it sends. *)
Inductive rop := REncode (idx : nat) (input : N) (size : nat) | RZero (idx : nat) | RSend (count : nat).
Fixpoint run_receiver (st : receiver) (ops : list rop) : outcome (receiver * list (list N) * list (list (list N))) :=
  match ops with
  | [] => Val (st, [], [])
  | REncode i x sz :: ops' =>
      bind (receiver_encode st i x sz) (fun '(st, o) =>
      bind (run_receiver st ops') (fun '(st, outs, msgs) => Val (st, o :: outs, msgs)))
  | RZero i :: ops' =>
      bind (receiver_zero st i) (fun st => run_receiver st ops')
  | RSend c :: ops' =>
      bind (send_correction st c) (fun '(st, m) =>
      bind (run_receiver st ops') (fun '(st, outs, msgs) => Val (st, outs, m :: msgs)))
  end.
End Kkrt.
