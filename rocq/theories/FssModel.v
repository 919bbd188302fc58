(** Model of the function secret sharing code: yacl/crypto/experimental/dpf/dpf.cc
    (point functions), dcf.cc (comparison functions), pprf.cc (puncturable PRF) and
    ge2n.h.  uint128_t values are [Z] modulo 2^128.  The PRGs are arguments: every
    function of the seed. *)
From Coq Require Import ZArith List Bool.
Import ListNotations.
Open Scope Z_scope.

(** ** GE2n<N>, ge2n.h:33-101: the 128-bit store is not truncated by + or the constructor. *)
Definition u128 (z : Z) : Z := z mod 2 ^ 128.
(** kMask_ (97-98), GetVal (43), GetReverse (62-64), operator + (67-70), += (76). *)
Definition ge_mask (N : Z) : Z := if N =? 128 then 2 ^ 128 - 1 else u128 (2 ^ N - 1).
Definition ge_val (N s : Z) : Z := Z.land s (ge_mask N).
Definition ge_rev (N s : Z) : Z := u128 (ge_mask N - ge_val N s + 1).
Definition ge_add (a b : Z) : Z := u128 (a + b).
(** GetBit (52-55). *)
Definition ge_bit (s : Z) (i : nat) : bool := Z.testbit s (Z.of_nat i).
Definition pick {A} (b : bool) (x y : A) : A := if b then x else y.

(** ** DPF *)
(** A correction word: seed, left and right control bits (dpf.h:42-76). *)
Notation cw := (Z * bool * bool)%type (only parsing).

Section Dpf.
(** SplitDpfSeed (34-51): left seed and bit, right seed and bit. *)
Variable split : Z -> (Z * bool) * (Z * bool).
(** The first block of Prg<uint128_t>(seed), DpfPRG before truncation (28-31). *)
Variable prg : Z -> Z.
Variable N : Z.
Variable M : nat.

(** The loop of DpfKeyGen (136-180): the words, and the two seeds and bits at the end. *)
Fixpoint dpf_words (alpha : Z) (i todo : nat) (s0 s1 : Z) (t0 t1 : bool) : list cw * (Z * bool) * (Z * bool) :=
  match todo with
  | O => ([], (s0, t0), (s1, t1))
  | S todo =>
      let a := ge_bit alpha i in
      let '((l0, tl0), (r0, tr0)) := split s0 in
      let '((l1, tl1), (r1, tr1)) := split s1 in
      let cw_seed := Z.lxor (pick a l0 r0) (pick a l1 r1) in
      let cw_l := xorb (xorb (xorb tl0 tl1) a) true in
      let cw_r := xorb (xorb tr0 tr1) a in
      let cw_keep := pick a cw_r cw_l in
      let s0' := if t0 then Z.lxor (pick a r0 l0) cw_seed else pick a r0 l0 in
      let s1' := if t1 then Z.lxor (pick a r1 l1) cw_seed else pick a r1 l1 in
      let t0' := xorb (pick a tr0 tl0) (t0 && cw_keep) in
      let t1' := xorb (pick a tr1 tl1) (t1 && cw_keep) in
      let '(cws, e0, e1) := dpf_words alpha (S i) todo s0' s1' t0' t1' in
      ((cw_seed, cw_l, cw_r) :: cws, e0, e1)
  end.

(** A key: rank, master seed, correction words, final words (both keys hold the same words). *)
Record dpf_key : Set := { rank : bool; mseed : Z; evalall : bool; cws : list cw; last_cw : list Z }.

(** The final words (193-223): one, or one per position above the terminal level. *)
Definition final_word (t1 : bool) (w : Z) : Z := ge_val N (if t1 then ge_rev N w else w).
Fixpoint final_words (apos : Z) (beta : Z) (t1 : bool) (i : Z) (todo : nat) (p0 p1 : Z) : list Z :=
  match todo with
  | O => []
  | S todo =>
      let w := if i =? apos then ge_add (ge_add beta (ge_rev N p0)) p1 else ge_add (ge_rev N p0) p1 in
      final_word t1 w :: final_words apos beta t1 (i + 1) todo (prg (ge_val N p0)) (prg (ge_val N p1))
  end.

(** DpfKeyGen (110-224).  [term] is GetTerminateLevel (53-60), M when full-domain
    evaluation is off. *)
Definition dpf_gen (alpha beta mk0 mk1 : Z) (all : bool) (term : nat) : dpf_key * dpf_key :=
  let term := if all then term else M in
  let '(ws, (s0, _), (s1, t1)) := dpf_words alpha 0 term mk0 mk1 false true in
  let p0 := prg s0 in let p1 := prg s1 in
  let last :=
    if all then final_words ((ge_val (Z.of_nat M) alpha / 2 ^ Z.of_nat term) mod 2 ^ 32) beta t1 0 (2 ^ (M - term)) p0 p1
    else [ (let v := ge_val N (ge_add (ge_add beta (ge_rev N p0)) p1) in if t1 then ge_val N (ge_rev N v) else v) ] in
  ({| rank := false; mseed := mk0; evalall := all; cws := ws; last_cw := last |},
   {| rank := true; mseed := mk1; evalall := all; cws := ws; last_cw := last |}).

(** One step down the tree (238-256; Traverse 75-83). *)
Definition dpf_step (w : cw) (st : Z * bool) : (Z * bool) * (Z * bool) :=
  let '(cs, cl, cr) := w in
  let '((l, tl), (r, tr)) := split (fst st) in
  let t := snd st in
  ((if t then Z.lxor l cs else l, xorb tl (t && cl)), (if t then Z.lxor r cs else r, xorb tr (t && cr))).

(** DpfEval (226-267); None: the enforce. *)
Fixpoint dpf_walk (ws : list cw) (i : nat) (x : Z) (st : Z * bool) : Z * bool :=
  match ws with
  | [] => st
  | w :: ws => let '(l, r) := dpf_step w st in dpf_walk ws (S i) x (if ge_bit x i then r else l)
  end.
Definition dpf_out (rk : bool) (p : Z) (t : bool) (w : Z) : Z :=
  let tmp := if t then w else 0 in
  if rk then ge_rev N (ge_add p tmp) else ge_add p tmp.
Definition dpf_eval (k : dpf_key) (x : Z) : option Z :=
  if evalall k then None else
  let '(s, t) := dpf_walk (firstn M (cws k)) 0 x (mseed k, rank k) in
  Some (ge_val N (dpf_out (rank k) (prg s) t (nth 0 (last_cw k) 0))).

(** Traverse (62-102); the output span is a function of the position. *)
Definition store (mem : Z -> Z) (p v : Z) : Z -> Z := fun q => if q =? p then v else mem q.
Fixpoint leaf_loop (k : dpf_key) (term : nat) (pos : Z) (t : bool) (i todo : nat) (p : Z) (mem : Z -> Z) : Z -> Z :=
  match todo with
  | O => mem
  | S todo =>
      leaf_loop k term pos t (S i) todo (prg (ge_val N p))
        (store mem (pos + Z.of_nat i * 2 ^ Z.of_nat term) (dpf_out (rank k) p t (nth i (last_cw k) 0)))
  end.
Fixpoint traverse (k : dpf_key) (term : nat) (ws : list cw) (level : nat) (pos : Z) (st : Z * bool) (mem : Z -> Z) : Z -> Z :=
  match ws with
  | w :: ws =>
      let '(l, r) := dpf_step w st in
      let mem := traverse k term ws (S level) pos l mem in
      traverse k term ws (S level) (2 ^ Z.of_nat level + pos) r mem
  | [] => leaf_loop k term pos (snd st) 0 (2 ^ (M - term)) (prg (fst st)) mem
  end.
(** DpfEvalAll (269-285). *)
Definition dpf_eval_all (k : dpf_key) (term : nat) (mem : Z -> Z) : option (Z -> Z) :=
  if evalall k then Some (traverse k term (firstn term (cws k)) 0 0 (mseed k, rank k) mem) else None.
End Dpf.

(** ** DCF *)
(** Correction word: seed, bits, value (dcf.h). *)
Notation dcw := (Z * bool * bool * Z)%type (only parsing).
Section Dcf.
(** SplitDcfSeed (34-56): (seed, value seed, bit) left and right. *)
Variable split : Z -> (Z * Z * bool) * (Z * Z * bool).
Variable prg : Z -> Z.
Variable N : Z.
Variable M : nat.

(** The loop of DcfKeyGen (86-160); bit M-i-1 of alpha at level i. *)
Fixpoint dcf_words (alpha beta : Z) (i todo : nat) (s0 s1 : Z) (t0 t1 : bool) (v : Z) : list dcw * (Z * bool) * (Z * bool) * Z :=
  match todo with
  | O => ([], (s0, t0), (s1, t1), v)
  | S todo =>
      let a := ge_bit alpha (M - i - 1) in
      let '((l0, vl0, tl0), (r0, vr0, tr0)) := split s0 in
      let '((l1, vl1, tl1), (r1, vr1, tr1)) := split s1 in
      let cw_seed := Z.lxor (pick a l0 r0) (pick a l1 r1) in
      let lose0 := prg (pick a vl0 vr0) in
      let lose1 := prg (pick a vl1 vr1) in
      let keep0 := prg (pick a vr0 vl0) in
      let keep1 := prg (pick a vr1 vl1) in
      let c := ge_add (ge_add lose1 (ge_rev N lose0)) (ge_rev N v) in
      let c := if t1 then (if a then ge_add (ge_rev N c) (ge_rev N beta) else ge_rev N c)
               else (if a then ge_add c beta else c) in
      let v' := ge_add v (ge_add (ge_add (ge_rev N keep1) keep0) (if t1 then ge_rev N c else c)) in
      let cw_l := xorb (xorb (xorb tl0 tl1) a) true in
      let cw_r := xorb (xorb tr0 tr1) a in
      let cw_keep := pick a cw_r cw_l in
      let s0' := if t0 then Z.lxor (pick a r0 l0) cw_seed else pick a r0 l0 in
      let s1' := if t1 then Z.lxor (pick a r1 l1) cw_seed else pick a r1 l1 in
      let t0' := xorb (pick a tr0 tl0) (t0 && cw_keep) in
      let t1' := xorb (pick a tr1 tl1) (t1 && cw_keep) in
      let '(ws, e0, e1, ve) := dcf_words alpha beta (S i) todo s0' s1' t0' t1' v' in
      ((cw_seed, cw_l, cw_r, ge_val N c) :: ws, e0, e1, ve)
  end.
Record dcf_key : Set := { drank : bool; dmseed : Z; dcws : list dcw; dlast : Z }.
(** DcfKeyGen (64-185). *)
Definition dcf_gen (alpha beta mk0 mk1 : Z) : dcf_key * dcf_key :=
  let '(ws, (s0, _), (s1, t1), v) := dcf_words alpha beta 0 M mk0 mk1 false true 0 in
  let w := ge_add (ge_add (ge_rev N (prg s0)) (prg s1)) (ge_rev N v) in
  let w := ge_val N (if t1 then ge_rev N w else w) in
  ({| drank := false; dmseed := mk0; dcws := ws; dlast := w |}, {| drank := true; dmseed := mk1; dcws := ws; dlast := w |}).

(** DcfEval (187-239). *)
Definition signed (rk : bool) (x : Z) : Z := if rk then ge_rev N x else x.
Fixpoint dcf_walk (rk : bool) (ws : list dcw) (i : nat) (x : Z) (s : Z) (t : bool) (out : Z) : Z * bool * Z :=
  match ws with
  | [] => (s, t, out)
  | (cs, cl, cr, cv) :: ws =>
      let '((l, vl, tl), (r, vr, tr)) := split s in
      let l := if t then Z.lxor l cs else l in
      let tl := xorb tl (t && cl) in
      let r := if t then Z.lxor r cs else r in
      let tr := xorb tr (t && cr) in
      let b := ge_bit x (M - i - 1) in
      let p := prg (pick b vr vl) in
      let out := ge_add out (signed rk (if t then ge_add p cv else p)) in
      dcf_walk rk ws (S i) x (pick b r l) (pick b tr tl) out
  end.
Definition dcf_eval (k : dcf_key) (x : Z) : Z :=
  let '(s, t, out) := dcf_walk (drank k) (firstn M (dcws k)) 0 x (dmseed k) (drank k) 0 in
  let p := prg s in
  ge_val N (ge_add out (signed (drank k) (if t then ge_add p (dlast k) else p))).
End Dcf.

(** ** Puncturable PRF *)
Section Pprf.
(** GgmPrg (29-38): left and right halves. *)
Variables gl gr : Z -> Z.
Variable N : Z.
Variable M : nat.

(** PprfEval (116-129). *)
Definition pprf_eval (key x : Z) : Z :=
  ge_val N (fold_left (fun s i => if ge_bit x i then gr s else gl s) (seq 0 M) key).

(** PprfPuncKey: the punctured point and the map level -> seed; insert does not
    overwrite (unordered_map::insert). *)
Notation punc_key := (Z * list (nat * Z))%type (only parsing).
Definition find (m : list (nat * Z)) (i : nat) : option Z :=
  option_map snd (List.find (fun p => Nat.eqb (fst p) i) m).
Definition insert (m : list (nat * Z)) (i : nat) (v : Z) : list (nat * Z) :=
  match find m i with Some _ => m | None => m ++ [(i, v)] end.
(** GgmExpandAndPunc (52-69): each call reads working_span[0], writes the two children
    and recurses on one half, so only the seed at the front is kept here; [i] is the level. *)
Fixpoint ggm_punc (i todo : nat) (s : Z) (p : Z) (m : list (nat * Z)) : list (nat * Z) :=
  match todo with
  | O => m
  | S todo =>
      if ge_bit p i then ggm_punc (S i) todo (gr s) p (insert m i (gl s))
      else insert (ggm_punc (S i) todo (gl s) p m) i (gr s)
  end.
(** PprfPunc (73-84): a vector of 2^M blocks (2^64 - 1 for M = 64); std::length_error
    (None) when that exceeds max_size(), PTRDIFF_MAX / 16 elements. *)
Definition pprf_punc (key p : Z) (out : punc_key) : option punc_key :=
  let num := if Nat.eqb M 64 then 2 ^ 64 - 1 else 2 ^ Z.of_nat M in
  if (2 ^ 63 - 1) / 16 <? num then None
  else Some (ge_val (Z.of_nat M) p, ggm_punc 0 M key p (snd out)).
(** PprfPuncEval (86-114); None: the enforce, or seeds.at() throws. *)
Fixpoint punc_walk (k : punc_key) (x : Z) (i todo : nat) (cur : option Z) : option (option Z) :=
  match todo with
  | O => Some cur
  | S todo =>
      match cur with
      | Some s => punc_walk k x (S i) todo (Some (if ge_bit x i then gr s else gl s))
      | None => if Bool.eqb (ge_bit x i) (ge_bit (fst k) i) then punc_walk k x (S i) todo None
                else match find (snd k) i with
                     | Some s => punc_walk k x (S i) todo (Some s)
                     | None => None
                     end
      end
  end.
Definition pprf_punc_eval (k : punc_key) (x : Z) : option Z :=
  if ge_val (Z.of_nat M) (fst k) =? ge_val (Z.of_nat M) x then None else
  match punc_walk k x 0 M None with
  | Some cur => Some (ge_val N (match cur with Some s => s | None => 0 end))
  | None => None
  end.
End Pprf.
