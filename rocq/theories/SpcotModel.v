(** Model of the tree based OTs: SGRR (n-1)-out-of-n OT,
    yacl/kernel/algorithms/sgrr_ote.cc, and GYWZ single point COT,
    yacl/kernel/algorithms/gywz_ote.cc.  Blocks are [N]; a span is a list.  Each party
    is a function of its inputs and of the messages received.  AES under the two fixed
    keys, Blake3, CrHash_128 and CcrHash_128 (applied blockwise by their Para...Inplace
    versions, crhash.cc) are arguments.  Indices are [nat]: the theorems assume
    n <= 2^31, so that no uint32_t computation wraps ([2 * iter_num] does for larger n). *)
From Coq Require Import List NArith Bool Arith.
Import ListNotations.
Open Scope nat_scope.

(** [out[k] = v]; out of range does not happen, the spans have at least n elements. *)
Definition set_nth (k : nat) (v : N) (l : list N) : list N := firstn k l ++ match skipn k l with [] => [] | _ :: t => v :: t end.
(** memcpy of [vals] to the front of [out]. *)
Definition overwrite (out vals : list N) : list N := vals ++ skipn (length vals) out.
(** Accumulation with ^= over the indices of a loop. *)
Definition xsum (f : nat -> N) (l : list nat) : N := fold_right (fun j acc => N.lxor (f j) acc) 0%N l.
(** math::Log2Ceil, math/gadget.h:24-27 (0 for n <= 1). *)
Definition log2ceil (n : nat) : nat := Nat.log2_up n.

(** The word of a bit set, least significant bit first. *)
Fixpoint bits_nat (l : list bool) : nat :=
  match l with [] => 0 | b :: t => (if b then 1 else 0) + 2 * bits_nat t end.
(** MakeDynamicBitset, sgrr_ote.cc:48-55; also gywz_ote.cc:145-147. *)
Definition make_bits (index bits : nat) : list bool := map (Nat.testbit index) (seq 0 bits).

(** A base OT store of the sender: GetBlock(i, c); of the receiver: GetChoice(i), GetBlock(i). *)
Definition send_block (b : list (N * N)) (i : nat) (c : bool) : N :=
  let p := nth i b (0%N, 0%N) in if c then snd p else fst p.

Section Sgrr.
(** AES under kPrfKey[0], kPrfKey[1] (sgrr_ote.cc:35-36). *)
Variables e0 e1 : N -> N.

(** GetPuncturedIndex (57-62) and GetInsertedIndex (64-70). *)
Definition punctured_index (choice : list bool) (level : nat) : nat := bits_nat (firstn (S level) choice).
Definition inserted_index (choice : list bool) (level : nat) : nat :=
  bits_nat (firstn level choice ++ [negb (nth level choice false)]).

(** SplitAllSeeds (72-83) on output[0 .. iter_num), then the loop over j that adds the
    seed to both halves for the j that are not skipped (166-173, 212-217). *)
Definition splits (out : list N) (iter : nat) (active : nat -> bool) : list N :=
  map (fun j => let s := nth (j mod iter) out 0%N in
                N.lxor (if j <? iter then e0 s else e1 s) (if active (j mod iter) then s else 0%N))
      (seq 0 (2 * iter)).

(** One level of the sender (209-220): the new contents and the two sums. *)
Definition send_level (n i : nat) (out : list N) : list N * (N * N) :=
  let iter := 2 ^ i in
  let sp := splits out iter (fun j => j <? Nat.min iter n) in
  let js := seq 0 (Nat.min iter n) in
  (overwrite out (firstn (Nat.min (2 * iter) n) sp),
   (xsum (fun j => nth j sp 0%N) js, xsum (fun j => nth (j + iter) sp 0%N) js)).
Fixpoint send_levels (n i todo : nat) (out : list N) : list N * list (N * N) :=
  match todo with
  | O => (out, [])
  | S t => let (o, m) := send_level n i out in
           let (o', ms) := send_levels n (S i) t o in (o', m :: ms)
  end.

(** One level of the receiver (155-183; fixed index 301-329, where line 323 guards the
    punctured position too). *)
Definition recv_level (fixed : bool) (n i : nat) (choice : list bool) (msg : N * N) (blk : N) (out : list N) : list N :=
  let b := nth i choice false in
  let p := punctured_index choice i in
  let q := inserted_index choice i in
  let iter := 2 ^ i in
  let v0 := N.lxor (if b then fst msg else snd msg) blk in
  let active j := (j <? Nat.min iter n) && negb (j =? p) && negb (j =? q) in
  let sp := splits out iter active in
  let v := if i =? 0 then v0
           else N.lxor v0 (xsum (fun j => if b then nth j sp 0%N else nth (j + iter) sp 0%N)
                                (filter active (seq 0 (Nat.min iter n)))) in
  let out := if i =? 0 then out else overwrite out (firstn (Nat.min (2 * iter) n) sp) in
  let out := if fixed && negb (p <? n) then out else set_nth p 0%N out in
  if q <? n then set_nth q v out else out.
Fixpoint recv_levels (fixed : bool) (n i : nat) (choice : list bool) (msgs : list (N * N)) (blks : list N) (out : list N) : list N :=
  match msgs with
  | [] => out
  | m :: ms => recv_levels fixed n (S i) choice ms blks (recv_level fixed n i choice m (nth i blks 0%N) out)
  end.

(** The consistency check of the malicious mode (107-138); digests are [N]. *)
Variable digest : N -> N.
Variable digest_all : list N -> N.
Definition gen_check (n : nat) (out : list N) : N * N :=
  let tmp := map digest (firstn n out) in
  (fold_right N.lxor 0%N tmp, digest_all tmp).
Definition verify_check (n index : nat) (out : list N) (proof : N * N) : bool :=
  let tmp := map digest (firstn n out) in
  let t := N.lxor (fst proof) (fold_right N.lxor 0%N tmp) in
  let tmp := set_nth index (N.lxor t (nth index tmp 0%N)) tmp in
  N.eqb (digest_all tmp) (snd proof).

Variable crhash : N -> N.
(** ParaCrHashInplace_128(output.subspan(0, n)). *)
Definition refresh (n : nat) (out : list N) : list N := overwrite out (map crhash (firstn n out)).

(** SgrrOtExtRecv up to the message it sends (143-165): [~choice ^ base choice]. *)
Definition sgrr_masked_choice (bits : list bool) (n index : nat) : list bool :=
  map (fun i => xorb (negb (Nat.testbit index i)) (nth i bits false)) (seq 0 (log2ceil n)).
(** SgrrOtExtSend (203-249): output, masked messages, proof; None: an enforce fails. *)
Definition sgrr_send (base : list (N * N)) (n : nat) (seed : N) (mal : bool) (masked : list bool) (out : list N)
  : option (list N * list (N * N) * option (N * N)) :=
  let k := log2ceil n in
  if (length base <? k) || (n <=? 1) then None else
  let (o, ms) := send_levels n 0 k (set_nth 0 seed out) in
  let msgs := map (fun i => let m := nth i ms (0%N, 0%N) in let c := nth i masked false in
                            (N.lxor (fst m) (send_block base i c), N.lxor (snd m) (send_block base i (negb c)))) (seq 0 k) in
  Some (if mal then refresh n o else o, msgs, if mal then Some (gen_check n o) else None).
(** The receiver's remainder (166-201). *)
Definition sgrr_recv (bits : list bool) (blks : list N) (n index : nat) (mal : bool)
    (msgs : list (N * N)) (proof : option (N * N)) (out : list N) : option (list N) :=
  let k := log2ceil n in
  if (n <=? 1) || (128 <? length blks) || (length blks <? k) || (n <=? index) || (length msgs <? k) then None else
  let o := recv_levels false n 0 (make_bits index k) (firstn k msgs) blks out in
  if mal then
    match proof with
    | Some pr => if verify_check n index o pr then Some (set_nth index 0%N (refresh n o)) else None
    | None => None
    end
  else Some o.
Definition run_sgrr (base : list (N * N)) (bits : list bool) (blks : list N) (n index : nat) (seed : N) (mal : bool)
    (outs outr : list N) : option (list N * list N) :=
  match sgrr_send base n seed mal (sgrr_masked_choice bits n index) outs with
  | None => None
  | Some (o, msgs, proof) =>
      match sgrr_recv bits blks n index mal msgs proof outr with Some r => Some (o, r) | None => None end
  end.

(** The fixed index versions (251-388): no choice is sent, the index is given by the base choices. *)
Definition sgrr_send_fixed (base : list (N * N)) (n : nat) (seed : N) (mal : bool) (out : list N)
  : option (list N * list (N * N) * option (N * N)) :=
  let k := log2ceil n in
  if (length base <? k) || (n <=? 1) then None else
  let (o, ms) := send_levels n 0 k (set_nth 0 seed out) in
  let msgs := map (fun i => let m := nth i ms (0%N, 0%N) in
                            (N.lxor (send_block base i true) (fst m), N.lxor (send_block base i false) (snd m))) (seq 0 k) in
  Some (if mal then refresh n o else o, msgs, if mal then Some (gen_check n o) else None).
Definition sgrr_recv_fixed (bits : list bool) (blks : list N) (n : nat) (mal : bool)
    (msgs : list (N * N)) (proof : option (N * N)) (out : list N) : option (list N) :=
  let k := log2ceil n in
  if (n <=? 1) || (128 <? length blks) || (length blks <? k) || negb (length msgs =? k) then None else
  let index := punctured_index bits (k - 1) in
  if n <=? index then None else
  let o := recv_levels true n 0 bits msgs blks out in
  if mal then
    match proof with
    | Some pr => if verify_check n index o pr then Some (set_nth index 0%N (refresh n o)) else None
    | None => None
    end
  else Some o.
Definition run_sgrr_fixed (base : list (N * N)) (bits : list bool) (blks : list N) (n : nat) (seed : N) (mal : bool)
    (outs outr : list N) : option (list N * list N) :=
  match sgrr_send_fixed base n seed mal outs with
  | None => None
  | Some (o, msgs, proof) =>
      match sgrr_recv_fixed bits blks n mal msgs proof outr with Some r => Some (o, r) | None => None end
  end.
End Sgrr.

Section Gywz.
(** CcrHash_128, blockwise. *)
Variable h : N -> N.
(** The mask [one]: all ones, or all ones but the lowest bit (gywz_ote.cc:31, 221, 247). *)
Variable one : N.

(** The two sides of the next level (52-70, 103-122); when n is not a power of two, the
    last level's right side goes to an extra buffer of which n - prev_size blocks are kept. *)
Definition side_left (out : list N) (prev : nat) : list N := map (fun s => N.land (h s) one) (firstn prev out).
Definition side_right (out : list N) (prev : nat) : list N := map (fun s => N.lxor s (N.land (h s) one)) (firstn prev out).
Definition put_sides (n height level : nat) (out l r : list N) : list N :=
  let prev := 2 ^ level in
  overwrite out (l ++ if negb (n =? 2 ^ height) && (level =? height - 1) then firstn (n - prev) r else r).
Definition lsum (l : list N) : N := fold_right N.lxor 0%N l.

(** CggmFullEval (29-78). *)
Fixpoint full_levels (n height level todo : nat) (out : list N) : list N * list N :=
  match todo with
  | O => (out, [])
  | S t =>
      let l := side_left out (2 ^ level) in
      let r := side_right out (2 ^ level) in
      let (o, sums) := full_levels n height (S level) t (put_sides n height level out l r) in
      (o, lsum l :: sums)
  end.
Definition full_eval (delta seed : N) (n : nat) (out : list N) : list N * list N :=
  let height := log2ceil n in
  let seed := N.land seed one in
  let delta := N.land delta one in
  let (o, sums) := full_levels n height 1 (height - 1) (set_nth 1 (N.lxor seed delta) (set_nth 0 seed out)) in
  (o, seed :: sums).

(** CggmPuncFullEval (80-134). *)
Definition add_nth (k : nat) (v : N) (l : list N) : list N := set_nth k (N.lxor (nth k l 0%N) v) l.
Fixpoint punc_levels (index n height level todo p : nat) (sib : list N) (out : list N) : list N :=
  match todo with
  | O => out
  | S t =>
      let l := side_left out (2 ^ level) in
      let r := side_right out (2 ^ level) in
      let v := N.lxor (nth level sib 0%N) (lsum l) in
      punc_levels index n height (S level) t (Nat.lor p (Nat.land index (2 ^ level))) sib
        (put_sides n height level out (add_nth p v l) (add_nth p v r))
  end.
Definition punc_eval (index : nat) (sib : list N) (n : nat) (out : list N) : list N :=
  let height := length sib in
  let w := N.land (nth 0 sib 0%N) one in
  punc_levels index n height 1 (height - 1) (Nat.land index 1) sib (set_nth 1 w (set_nth 0 w out)).
End Gywz.

(** Uint128Max, and MakeUint128(0xffffffffffffffff, 0xfffffffffffffffe). *)
Definition all_ones : N := N.ones 128.
Definition but_lsb : N := N.lxor (N.ones 128) 1.

Section GywzProtocol.
Variable h : N -> N.

(** GywzOtExtRecv, the message sent (143-158). *)
Definition gywz_masked_choice (bits : list bool) (n index : nat) : list bool :=
  map (fun i => xorb (Nat.testbit index i) (nth i bits false)) (seq 0 (log2ceil n)).
(** GywzOtExtSend (171-197). *)
Definition gywz_send (delta : N) (base : list (N * N)) (n : nat) (seed : N) (masked : list bool) (out : list N)
  : option (list N * list N) :=
  if negb (length base =? log2ceil n) || (n <=? 1) then None else
  let (o, sums) := full_eval h all_ones delta seed n out in
  Some (o, map (fun i => N.lxor (nth i sums 0%N) (send_block base i (negb (nth i masked false)))) (seq 0 (log2ceil n))).
(** GywzOtExtRecv, the remainder (160-169). *)
Definition gywz_recv (blks : list N) (n index : nat) (msgs : list N) (out : list N) : option (list N) :=
  if negb (length blks =? log2ceil n) || (n <=? 1) || (n <=? index) then None else
  let sib := map (fun i => N.lxor (nth i msgs 0%N) (nth i blks 0%N)) (seq 0 (log2ceil n)) in
  Some (punc_eval h all_ones index sib n out).
Definition run_gywz (delta : N) (base : list (N * N)) (bits : list bool) (blks : list N) (n index : nat) (seed : N)
    (outs outr : list N) : option (list N * list N) :=
  match gywz_send delta base n seed (gywz_masked_choice bits n index) outs with
  | None => None
  | Some (o, msgs) => match gywz_recv blks n index msgs outr with Some r => Some (o, r) | None => None end
  end.

(** GywzOtExtSend_fixed_index and GywzOtExtRecv_fixed_index (264-334). *)
Definition run_gywz_fixed (delta : N) (base : list (N * N)) (bits : list bool) (blks : list N) (n : nat) (seed : N)
    (outs outr : list N) : option (list N * list N) :=
  let k := log2ceil n in
  if negb (length base =? k) || negb (length blks =? k) || (n <=? 1) then None else
  let (o, sums) := full_eval h all_ones delta seed n outs in
  let msgs := map (fun i => N.lxor (nth i sums 0%N) (send_block base i true)) (seq 0 k) in
  let index := bits_nat (firstn k bits) in
  let sib := map (fun i => N.lxor (nth i msgs 0%N) (nth i blks 0%N)) (seq 0 k) in
  Some (o, punc_eval h all_ones index sib n outr).

(** GywzOtExtSend_ferret and GywzOtExtRecv_ferret (199-262): compact stores, the choice
    is the lowest bit of the block. *)
Definition run_gywz_ferret (delta : N) (base : list (N * N)) (blks : list N) (n : nat) (seed : N)
    (outs outr : list N) : option (list N * list N) :=
  let k := log2ceil n in
  if negb (length base =? k) || negb (length blks =? k) || (n <=? 1) then None else
  let (o, sums) := full_eval h but_lsb (N.land delta but_lsb) (N.land seed but_lsb) n outs in
  let msgs := map (fun i => N.lxor (nth i sums 0%N) (N.land (send_block base i true) but_lsb)) (seq 0 k) in
  let index := bits_nat (map N.odd (firstn k blks)) in
  let sib := map (fun i => N.lxor (nth i msgs 0%N) (N.land (nth i blks 0%N) but_lsb)) (seq 0 k) in
  let r := punc_eval h but_lsb index sib n outr in
  Some (o, if index <? n then set_nth index (N.lor (nth index r 0%N) 1) r else r).
End GywzProtocol.
