(** Model of the SoftSpoken OT extension, yacl/kernel/algorithms/softspoken_ote.cc
    (line numbers below refer to it) on top of the fixed index SGRR OT of SpcotModel
    (sgrr_ote.cc:251-388).  Blocks are [N], indices [nat].  Each party is a function of
    its inputs, of its randomness and of the messages received.  AES under the two SGRR
    keys, the digests, CrHash_128 (applied blockwise by ParaCrHashInplace_128), PrgAesCtr
    and the transpose of the platform are arguments.  The theorems assume 1 <= k <= 31, so
    that no shift of an int ([1 << j], 192, 223, 295) overflows and 2^k is a uint32_t. *)
From Coq Require Import List NArith ZArith Bool Arith.
From Verif Require Import GfModel SpcotModel OtExtModel.
Import ListNotations.
Open Scope nat_scope.

(** ** Buffers *)
(** A span that is updated in place, by index; the size is kept apart.  The indices of
    every access are below the size (SoftProof.reduce_in_range for XorReduce). *)
Definition mem := nat -> N.
Definition upd (m : mem) (p : nat) (v : N) : mem := fun x => if x =? p then v else m x.

(** One step of XorReduce at [depth], stride = 2^(depth-1), for the block at [i] (123-136, 104-118). *)
Definition reduce_block (depth i : nat) (m : mem) : mem :=
  let stride := 2 ^ (depth - 1) in
  let m := fold_left (fun m j => upd m (i + j) (N.lxor (m (i + j)) (m (i + j + stride)))) (seq 0 depth) m in
  upd m (i + depth) (m (i + stride)).
(** for (i = 0; i < buf_size; i += 2 * stride) *)
Definition reduce_depth (size depth : nat) (m : mem) : mem :=
  let two := 2 * 2 ^ (depth - 1) in
  fold_left (fun m b => reduce_block depth (b * two) m) (seq 0 ((size + two - 1) / two)) m.
(** XorReduce, both the template (104-118) and the loop (123-136), dispatched by
    XorReduceImpl (138-158): depths 1 to k in this order. *)
Definition xor_reduce (size k : nat) (m : mem) : mem :=
  fold_left (fun m depth => reduce_depth size depth m) (seq 1 k) m.

(** ** Parameters: constructors (182-237) *)
Definition pprf_num (k : nat) : nat := (128 + k - 1) / k.
(** k_limit (277, 346, 557, 602) and the number of leaves of tree i. *)
Definition k_limit (k i : nat) : nat := Nat.min k (128 - i * k).
(** step_ == 0 selects the default. *)
Definition step_of (k step : nat) : nat := if step =? 0 then if k <=? 2 then 64 else if k <=? 4 then 32 else 16 else step.
(** NextSlice(k_limit), called once per tree. *)
Definition slice {A} (k i : nat) (l : list A) : list A := firstn (k_limit k i) (skipn (i * k) l).

(** The receiver's object after OneTimeSetup and the sender's. *)
Record recv_obj := { ro_leaves : list N; ro_counter : N }.
Record send_obj := { so_compress : list N; so_idx : list nat; so_mask : list bool; so_delta : N; so_counter : N }.

Section Soft.
Variables e0 e1 : N -> N.
Variable digest : N -> N.
Variable digest_all : list N -> N.
Variable crhash : N -> N.
Variable tr : list Z -> list Z.
Variable prg64 : N -> nat -> list N.

(** The part of the set-up message that belongs to one tree: [k_limit] pairs of blocks and
    in malicious mode 64 bytes of proof.  The parts are adjacent in the buffer and have
    SgrrOtExtHelper bytes each, which only the last tree has fewer of (268, 273, 288-289, 339, 342, 354-355);
    the buffer is the list of its parts. *)
Notation part := (list (N * N) * option (N * N))%type (only parsing).

(** SoftspokenOtExtReceiver::OneTimeSetup (326-361).  [seeds]: SecureRandSeed of each
    tree, [junk]: the uninitialized all_leaves_. *)
Definition base_send (compact : bool) (base : list (N * N)) : list (N * N) :=
  if compact then (0, 0)%N :: tl base else base.
Definition recv_tree (k : nat) (mal : bool) (base : list (N * N)) (seeds junk : mem) (i : nat) : option (list N * part) :=
  let range := 2 ^ k_limit k i in
  match sgrr_send_fixed e0 e1 digest digest_all crhash (slice k i base) range (seeds i) mal (map (fun j => junk (i * 2 ^ k + j)) (seq 0 range)) with
  | Some (leaves, msgs, proof) => Some (leaves, (msgs, proof))
  | None => None
  end.
Definition recv_setup (k : nat) (mal compact : bool) (base : list (N * N)) (seeds junk : mem) : option (recv_obj * list part) :=
  if negb (length base =? 128) then None else
  match all_some (map (recv_tree k mal (base_send compact base) seeds junk) (seq 0 (pprf_num k))) with
  | Some trees => Some ({| ro_leaves := flat_map fst trees; ro_counter := 0 |}, map snd trees)
  | None => None
  end.

(** SoftspokenOtExtSender::OneTimeSetup (252-313): the base OTs are [bits] and [blks]. *)
Definition base_bits (compact : bool) (bits : list bool) : list bool := if compact then true :: tl bits else bits.
Definition base_blks (compact : bool) (blks : list N) : list N := if compact then 0%N :: tl blks else blks.
Definition send_tree (k : nat) (mal : bool) (bits : list bool) (blks : list N) (junk : mem) (parts : list part) (i : nat) : option (list N) :=
  let range := 2 ^ k_limit k i in
  let sub := slice k i bits in
  let p := nth i parts ([], None) in
  match sgrr_recv_fixed e0 e1 digest digest_all crhash sub (slice k i blks) range mal (fst p) (snd p)
          (map (fun j => junk (i * 2 ^ k + j)) (seq 0 range)) with
  | Some leaves => Some (tl (set_nth (bits_nat sub) (nth 0 leaves 0%N) leaves))
  | None => None
  end.
Definition send_setup (k : nat) (mal compact : bool) (bits : list bool) (blks : list N) (junk : mem) (parts : list part) : option send_obj :=
  if negb (length bits =? 128) || negb (length parts =? pprf_num k) then None else
  let bits := base_bits compact bits in
  match all_some (map (send_tree k mal bits (base_blks compact blks) junk parts) (seq 0 (pprf_num k))) with
  | Some trees => Some {| so_compress := concat trees;
                          so_idx := map (fun i => bits_nat (slice k i bits)) (seq 0 (pprf_num k));
                          so_mask := flat_map (fun i => map (fun j => Nat.testbit (bits_nat (slice k i bits)) j) (seq 0 (k_limit k i))) (seq 0 (pprf_num k));
                          so_delta := bits_word bits; so_counter := 0 |}
  | None => None
  end.

(** ** One batch of small field VOLE *)
(** Receiver's GenSfVole (576-613): the masked choices u and W. *)
Definition gen_recv (k : nat) (compact : bool) (leaves : list N) (counter : N) (choice : N) (xb : mem) : list N * list N * mem :=
  let num := pprf_num k in
  let range := 2 ^ k in
  let xb := fun p => if p <? length leaves then crhash (N.lxor (nth p leaves 0%N) counter) else xb p in
  let xb := xor_reduce (num * range) k xb in
  let u := map (fun i => N.lxor choice (xb (i * range))) (seq 0 num) in
  let w := flat_map (fun i => map (fun j => xb (i * range + 1 + j)) (seq 0 (k_limit k i))) (seq 0 num) in
  (u, if compact then choice :: tl w else w, xb).

(** Sender's GenSfVole (512-571).  Step 3: the hashes of tree i are moved to their place
    with a zero at the punctured index (528-545). *)
Definition place_tree (k : nat) (hash : list N) (idx : list nat) (m : mem) (i : nat) : mem :=
  let range := 2 ^ k - 1 in
  let ho := i * range in
  let xo := i * 2 ^ k in
  let m := fold_left (fun m j => upd m (xo + 1 + j) (nth (ho + j) hash 0%N)) (seq 0 (Nat.min range (length hash - ho))) m in
  let m := upd m xo 0%N in
  let a := m xo in
  let b := m (xo + nth i idx 0) in
  upd (upd m xo b) (xo + nth i idx 0) a.
Definition gen_send (k : nat) (compact : bool) (o : send_obj) (counter : N) (u : list N) (xb : mem) : list N * mem :=
  let num := pprf_num k in
  let range := 2 ^ k in
  let hash := map (fun l => crhash (N.lxor l counter)) (so_compress o) in
  let xb := fold_left (place_tree k hash (so_idx o)) (seq 0 num) xb in
  let xb := xor_reduce (num * range) k xb in
  let v := flat_map (fun i =>
             let ui := N.lxor (nth i u 0%N) (xb (i * range)) in
             map (fun j => N.lxor (xb (i * range + 1 + j)) (if nth (i * k + j) (so_mask o) false then ui else 0%N)) (seq 0 (k_limit k i)))
           (seq 0 num) in
  (if compact then 0%N :: tl v else v, xb).

(** ** Send and Recv (616-749, 989-1108; the store versions 751-872, 874-986 are the
    cot = true case without the second block) *)
(** The layout of the batches (622-636). *)
Definition super_num (step n : nat) : nat := n / (step * 128).
Definition expand (n : nat) : nat := (n + 64 + 128 - 1) / 128 * 128.
Definition single_num (step n : nat) : nat := (expand n - super_num step n * (step * 128) + 128 - 1) / 128.
Definition all_num (step n : nat) : nat := super_num step n * step + single_num step n.

(** ExtendChoice (73-90): [rnd] are the random bits, the rest is zero. *)
Definition ext_choice (choices rnd : list bool) : list bool := choices ++ firstn 64 rnd.

(** The receiver's calls of GenSfVole for consecutive words of the choices. *)
Fixpoint recv_gens (k : nat) (compact : bool) (leaves : list N) (counter : N) (words : list N) (xb : mem) : list (list N * list N) :=
  match words with
  | [] => []
  | c :: r => let '(u, w, xb) := gen_recv k compact leaves counter c xb in
              (u, w) :: recv_gens k compact leaves (counter + 1)%N r xb
  end.
Fixpoint send_gens (k : nat) (compact : bool) (o : send_obj) (counter : N) (us : list (list N)) (xb : mem) : list (list N) :=
  match us with
  | [] => []
  | u :: r => let '(v, xb) := gen_send k compact o counter u xb in
              v :: send_gens k compact o (counter + 1)%N r xb
  end.

(** The messages: one with [step] batches for each super batch, then one for each batch. *)
Definition pack (step n : nat) (us : list (list N)) : list (list N) :=
  map (fun t => concat (firstn step (skipn (t * step) us))) (seq 0 (super_num step n))
  ++ skipn (super_num step n * step) us.
(** recv_U, with the two enforces (656, 691). *)
Definition unpack (step num n : nat) (msgs : list (list N)) : option (list (list N)) :=
  let sup := firstn (super_num step n) msgs in
  let sgl := skipn (super_num step n) msgs in
  if negb (length msgs =? super_num step n + single_num step n) then None else
  if forallb (fun m => length m =? step * num) sup && forallb (fun m => length m =? num) sgl
  then Some (flat_map (fun m => map (fun s => firstn num (skipn (s * num) m)) (seq 0 step)) sup ++ sgl)
  else None.

(** The 128 blocks of each batch that are copied out (677-684, 712-718, 1043-1049, 1073-1079). *)
Definition rows (n : nat) (ms : list (list N)) : list N :=
  flat_map (fun b => firstn (Nat.min 128 (n - b * 128)) (transpose tr (nth b ms []))) (seq 0 (length ms)).

(** The accumulation of Gf64ClMul over the batches, then Gf64Reduce (721-748, 1080-1106). *)
Definition check_val (samples : list N) (col : list N) : N :=
  gf64_reduce (fold_left (fun acc i => N.lxor acc (gf64_clmul_span (firstn 2 (skipn (i * 2) samples)) (as_u64 [nth i col 0%N]) 0%N))
                         (seq 0 (length col)) 0%N).
Definition col (k : nat) (ms : list (list N)) : list N := map (fun m => nth k m 0%N) ms.
(** The check message (1080-1106): x and the t[k], 64-bit words. *)
Definition recv_check (words : list N) (ws : list (list N)) (seed : N) : N * list N :=
  let samples := prg64 seed (length words * 2) in
  (gf64_reduce (gf64_clmul_span samples (as_u64 words) 0%N), map (fun k => check_val samples (col k ws)) (seq 0 128)).
(** The sender's check (721-748).  Unpack reads 129 words whatever the size of the
    message; here the message is its 129 words. *)
Definition send_check (mask : list bool) (vs : list (list N)) (seed : N) (c : N * list N) : bool :=
  let samples := prg64 seed (length vs * 2) in
  forallb (fun k => N.eqb (N.lxor (nth k (snd c) 0%N) (if nth k mask false then fst c else 0%N)) (check_val samples (col k vs))) (seq 0 128).

Definition fin (cot : bool) (b : N) : N := if cot then b else crhash b.

(** One call of Recv, first part: new object, messages, blocks and what the check needs. *)
Definition soft_recv (k step : nat) (compact : bool) (o : recv_obj) (choices rnd : list bool) (cot : bool)
  : recv_obj * list (list N) * list N * (list N * list (list N)) :=
  let n := length choices in
  let st := step_of k step in
  let words := map (choice_word (ext_choice choices rnd)) (seq 0 (all_num st n)) in
  let g := recv_gens k compact (ro_leaves o) (ro_counter o) words (fun _ => 0%N) in
  ({| ro_leaves := ro_leaves o; ro_counter := ro_counter o + N.of_nat (length words) |},
   pack st n (map fst g), map (fin cot) (rows n (map snd g)), (words, map snd g)).
(** One call of Send: [None] when an enforce fails; [c]: the received check message. *)
Definition soft_send (k step : nat) (mal compact : bool) (o : send_obj) (n : nat) (cot : bool) (msgs : list (list N)) (seed : N) (c : N * list N)
  : option (send_obj * list (N * N)) :=
  let st := step_of k step in
  if negb (all_num st n * 128 =? expand n) then None else
  match unpack st (pprf_num k) n msgs with
  | None => None
  | Some us =>
      let vs := send_gens k compact o (so_counter o) us (fun _ => 0%N) in
      if mal && negb (send_check (so_mask o) vs seed c) then None else
      Some ({| so_compress := so_compress o; so_idx := so_idx o; so_mask := so_mask o; so_delta := so_delta o;
               so_counter := so_counter o + N.of_nat (length us) |},
            map (fun b => (fin cot b, fin cot (N.lxor b (so_delta o)))) (rows n vs))
  end.

(** ** Two honest parties: a set-up, then any calls *)
(** A call: choices, the random bits of ExtendChoice, cot, the seed of the check. *)
Definition call := (list bool * list bool * bool * N)%type.
Definition run_call (k step : nat) (mal compact : bool) (so : send_obj) (ro : recv_obj) (c : call)
  : option (send_obj * recv_obj * list (N * N) * list N) :=
  let '(choices, rnd, cot, seed) := c in
  let '(ro', msgs, out, (words, ws)) := soft_recv k step compact ro choices rnd cot in
  match soft_send k step mal compact so (length choices) cot msgs seed (recv_check words ws seed) with
  | Some (so', sent) => Some (so', ro', sent, out)
  | None => None
  end.
Fixpoint run_calls (k step : nat) (mal compact : bool) (so : send_obj) (ro : recv_obj) (cs : list call) : option (list (list (N * N) * list N)) :=
  match cs with
  | [] => Some []
  | c :: r =>
      match run_call k step mal compact so ro c with
      | Some (so, ro, sent, got) =>
          match run_calls k step mal compact so ro r with Some l => Some ((sent, got) :: l) | None => None end
      | None => None
      end
  end.
Definition run_soft (k step : nat) (mal compact : bool) (base : list (N * N)) (bits : list bool) (blks : list N)
    (seeds junk junk' : mem) (cs : list call) : option (N * list (list (N * N) * list N)) :=
  match recv_setup k mal compact base seeds junk with
  | Some (ro, parts) =>
      match send_setup k mal compact bits blks junk' parts with
      | Some so => match run_calls k step mal compact so ro cs with Some l => Some (so_delta so, l) | None => None end
      | None => None
      end
  | None => None
  end.
End Soft.
