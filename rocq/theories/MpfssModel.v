(** Model of multi-point FSS and VOLE: yacl/kernel/algorithms/mpfss.h and mpfss.cc,
    mp_vole.h and base_vole.h.  Blocks are [N], spans are lists, sizes and indexes are
    [nat] (the theorems assume block sizes of at most 2^31).  CcrHash_128 [h] (inside the
    GYWZ trees), CrHash_128 [crh], Blake3 and the random seeds are arguments.  An OT store
    is given by its whole buffer: [Slice(b, e)] takes OTs b..e-1 of the buffer. *)
From Coq Require Import List NArith Bool Arith.
From Verif Require Import GfModel SpcotModel.
Import ListNotations.
Open Scope nat_scope.

(** MpFssParam (mpfss.h:44-84); [None]: thrown. *)
Record param := mkParam { noise : nat; mp : nat; mal : bool }.
Definition sp (p : param) : nat := mp p / noise p.
Definition last_sp (p : param) : nat := mp p - (noise p - 1) * sp p.
Definition base_num (p : param) : nat := if mal p then noise p + 1 else noise p.
Definition make_param (nn sz : nat) (m : bool) : option param :=
  let p := mkParam nn sz m in
  if (nn =? 0) || (sp p <=? 1) then None else Some p.
(** The size of block i and its number of OTs (mpfss.cc:53, 61-63 and the like). *)
Definition size (p : param) (i : nat) : nat := if i =? noise p - 1 then last_sp p else sp p.
Definition len (p : param) (i : nat) : nat := log2ceil (size p i).
Definition batch_len (p : param) : nat := log2ceil (sp p).
Definition require_ot (p : param) : nat := batch_len p * (noise p - 1) + log2ceil (last_sp p).

(** GenIndexes (mpfss.h:87-93), [r] the random words. *)
Definition gen_indexes (p : param) (r : list nat) : list nat :=
  map (fun i => nth i r 0 mod size p i) (seq 0 (noise p)).
(** SetIndexes (95-101): writes into [indexes_]; [None]: throws or touches memory outside it. *)
Definition set_indexes (p : param) (old given : list nat) : option (list nat) :=
  if length given <? noise p then None else
  if length old <? noise p then None else
  Some (map (fun i => if i =? noise p - 1 then nth i old 0 mod last_sp p else nth i given 0 mod sp p) (seq 0 (noise p))
        ++ skipn (noise p) old).
(** GenChoices (104-122). *)
Definition gen_choices (p : param) (indexes : list nat) : option (list bool) :=
  if length indexes =? noise p
  then Some (concat (map (fun i => map (Nat.testbit (nth i indexes 0)) (seq 0 (len p i))) (seq 0 (noise p)))) else None.

(** span::subspan, and writing to a part of a span. *)
Definition sub {A} (off n : nat) (l : list A) : list A := firstn n (skipn off l).
Definition write (off : nat) (vals out : list N) : list N :=
  firstn off out ++ vals ++ skipn (off + length vals) out.

(** GfMul, the span version, and the element type K: uint128_t ([wide]) or uint64_t. *)
Definition kmul (wide : bool) : N -> N -> N := if wide then gf128_mul else gf64_mul.
Definition kspan (wide : bool) : list N -> list N -> option N := if wide then gf128_mul_span else gf64_mul_span.
Definition ktrunc (wide : bool) (x : N) : N := if wide then x else N.land x (N.ones 64).

Section Mpfss.
Variables h crh : N -> N.
(** MpfssOp (mpfss.h:125-139). *)
Variables add sub_op : N -> N -> N.
Variable wide : bool.
Variable p : param.

(** The OTs of block i (mpfss.cc:61-63, 100-102 and the like). *)
Definition ot_slice {A} (l : list A) (i : nat) : list A := sub (i * batch_len p) (len p i) l.
(** The n given to GYWZ: the 64-bit fixed index version rounds up (443, 537). *)
Definition tree_size (fixed : bool) (i : nat) : nat := if fixed && negb wide then 2 ^ len p i else size p i.

(** Blocks with the index given (mpfss.cc:52-65 with 91-103, 146-159 with 196-208): [spans]
    and [spanr] are the contents of the spans the trees are expanded in. *)
Definition run_blocks (delta : N) (base : list (N * N)) (bits : list bool) (blks : list N) (indexes : list nat)
    (seeds : nat -> N) (spans spanr : nat -> list N) : list (option (list N * list N)) :=
  map (fun i => run_gywz h delta (ot_slice base i) (ot_slice bits i) (ot_slice blks i)
                         (tree_size false i) (nth i indexes 0) (seeds i) (spans i) (spanr i)) (seq 0 (noise p)).

(** Fixed index: the sender's side of one block (gywz_ote.cc:307-321). *)
Definition fixed_send (delta : N) (base : list (N * N)) (seeds : nat -> N) (spans : nat -> list N) (i : nat)
  : option (list N * list N) :=
  let n := tree_size true i in
  if negb (length (ot_slice base i) =? log2ceil n) || (n <=? 1) then None else
  let (o, sums) := full_eval h all_ones delta (seeds i) n (spans i) in
  Some (o, map (fun j => N.lxor (nth j sums 0%N) (SpcotModel.send_block (ot_slice base i) j true)) (seq 0 (log2ceil n))).
(** Its receiver's side (gywz_ote.cc:286-305; the index, mpfss.cc:362-371, 547-556). *)
Definition real_index (bits : list bool) (i : nat) : nat := bits_nat (ot_slice bits i).
Definition fixed_recv (bits : list bool) (blks : list N) (spanr : nat -> list N) (msgs : list N) (i : nat) : option (list N) :=
  let n := tree_size true i in
  if negb (length (ot_slice blks i) =? log2ceil n) || (n <=? 1) || (length msgs <? log2ceil n) then None else
  let sib := map (fun j => N.lxor (nth j msgs 0%N) (nth j (ot_slice blks i) 0%N)) (seq 0 (log2ceil n)) in
  Some (punc_eval h all_ones (real_index bits i) sib n (spanr i)).
(** The messages of all blocks: one buffer (uint128_t, 253-298) or one buffer for every
    kSuperBatch blocks (uint64_t, 426-478). *)
Definition super : nat := 16.
Definition super_num : nat := if noise p =? 0 then 0 else S ((noise p - 1) / super).
Definition super_blocks (s : nat) : list nat := seq (s * super) (Nat.min super (noise p - s * super)).
Definition send_buffers (msgs : nat -> list N) : list (list N) :=
  if wide then [concat (map msgs (seq 0 (noise p)))]
  else map (fun s => concat (map msgs (super_blocks s))) (seq 0 super_num).
(** The length the receiver expects for super batch s (336-339, 518-521). *)
Definition msg_length (s : nat) : nat :=
  if s =? super_num - 1 then (length (super_blocks s) - 1) * batch_len p + log2ceil (last_sp p) else super * batch_len p.
(** What the receiver checks of the buffers' sizes (323-324, 524-525). *)
Definition buffers_ok (bufs : list (list N)) : bool :=
  if wide then match bufs with [b] => length b =? require_ot p | _ => false end
  else (length bufs =? super_num) && forallb (fun s => length (nth s bufs []) =? msg_length s) (seq 0 super_num).
(** Where it looks for block i (341-342, 359-360; 526-527, 558-559): [ot_msg_offset] is the
    sum of the previous msg_length. *)
Definition recv_span (bufs : list (list N)) (i : nat) : list N :=
  let s := i / super in let k := i mod super in
  if wide then sub (k * batch_len p) (len p i) (sub (list_sum (map msg_length (seq 0 s))) (msg_length s) (nth 0 bufs []))
  else sub (k * batch_len p) (len p i) (nth s bufs []).

(** The n outputs of block i, hashed (and truncated) (67, 160-165, 287, 458-462). *)
Definition leaves (o : list N) (i : nat) : list N := map (fun x => ktrunc wide (crh x)) (firstn (size p i) o).
(** Writing them to the output. *)
Definition fill (os : nat -> list N) (out : list N) : list N :=
  fold_left (fun out i => write (i * sp p) (leaves (os i) i) out) (seq 0 (noise p)) out.
(** The sender's message (48-50, 68-69): std::reduce, in order ([add] is associative and
    commutative in the theorems, so any order gives the same). *)
Definition sent_msg (w : list N) (os : nat -> list N) (i : nat) : N :=
  fold_left add (leaves (os i) i) (sub_op 0%N (nth i w 0%N)).
Definition recv_sum (os : nat -> list N) (i : nat) : N := fold_left add (leaves (os i) i) 0%N.
(** The receiver's last loop (115-119, 225-229, 390-394, 582-586). *)
Definition adjust (indexes : list nat) (msgs sums : nat -> N) (out : list N) : list N :=
  fold_left (fun out i => let k := i * sp p + nth i indexes 0 in
               set_nth k (add (nth k out 0%N) (sub_op (msgs i) (sums i))) out) (seq 0 (noise p)) out.

(** The checks at the entry of both (39-42, 80-82). *)
Definition entry_ok (base : list (N * N)) (blks w outs outr : list N) : bool :=
  (mp p <=? length outs) && (noise p <=? length w) && (require_ot p <=? length base) &&
  (mp p <=? length outr) && (require_ot p <=? length blks).

Fixpoint all_some {A} (l : list (option A)) : option (list A) :=
  match l with
  | [] => Some []
  | None :: _ => None
  | Some x :: t => match all_some t with Some r => Some (x :: r) | None => None end
  end.

(** The steps after the trees, on both sides. *)
Definition outputs (os rs : list (list N)) (indexes : list nat) (w outs outr : list N) : list N * list N :=
  let o := fun i => nth i os [] in let r := fun i => nth i rs [] in
  (fill o outs, adjust indexes (sent_msg w o) (recv_sum r) (fill r outr)).

(** MpfssSend with MpfssRecv (35-120, 122-230).  [None]: thrown by one of them, or memory
    outside a buffer is touched. *)
Definition mpfss (delta : N) (base : list (N * N)) (bits : list bool) (blks : list N) (indexes : list nat)
    (seeds : nat -> N) (spans spanr : nat -> list N) (w outs outr : list N) : option (list N * list N) :=
  if negb (entry_ok base blks w outs outr) || (length indexes <? noise p) then None else
  match all_some (run_blocks delta base bits blks indexes seeds spans spanr) with
  | None => None
  | Some l => Some (outputs (map fst l) (map snd l) indexes w outs outr)
  end.

(** MpfssSend_fixed_index with MpfssRecv_fixed_index (232-395, 397-587); also returns the
    receiver's new [indexes_]. *)
Definition mpfss_fixed (delta : N) (base : list (N * N)) (bits : list bool) (blks : list N) (indexes : list nat)
    (seeds : nat -> N) (spans spanr : nat -> list N) (w outs outr : list N) : option (list N * list N * list nat) :=
  if negb (entry_ok base blks w outs outr) || (length indexes <? noise p) then None else
  match all_some (map (fixed_send delta base seeds spans) (seq 0 (noise p))) with
  | None => None
  | Some sent =>
      let bufs := send_buffers (fun i => snd (nth i sent ([], []))) in
      if negb (buffers_ok bufs) then None else
      match all_some (map (fun i => fixed_recv bits blks spanr (recv_span bufs i) i) (seq 0 (noise p))) with
      | None => None
      | Some rs =>
          let idx := map (real_index bits) (seq 0 (noise p)) ++ skipn (noise p) indexes in
          let pos := fun i => i * sp p + nth i idx 0 in
          if forallb (fun i => pos i <? length outr) (seq 0 (noise p))
          then let '(o, r) := outputs (map fst sent) rs idx w outs outr in Some (o, r, idx) else None
      end
  end.
End Mpfss.

(** ** mp_vole.h: xor as addition *)
Section MpVole.
Variable wide : bool.
Variable p : param.

(** The receiver's a and b after MPFSS (mp_vole.h:178-187): [a0] is the given span. *)
Definition place_a (indexes : list nat) (pre_a a0 : list N) : list N :=
  fold_left (fun a i => set_nth (i * sp p + nth i indexes 0) (nth i pre_a 0%N) a) (seq 0 (noise p)) (map (fun _ => 0%N) a0).
Definition place_b (indexes : list nat) (pre_b b : list N) : list N :=
  fold_left (fun b i => add_nth (i * sp p + nth i indexes 0) (nth i pre_b 0%N) b) (seq 0 (noise p)) b.

(** The consistency check (104-119, 189-209): payload, and the two hashed values. *)
Definition payload (seed : N) (indexes : list nat) (pre_a : list N) : option N :=
  match extract_hash_coef (kmul wide) seed (map (fun i => N.of_nat (i * sp p + nth i indexes 0)) (seq 0 (noise p))) with
  | None => None
  | Some coef => match kspan wide coef (firstn (noise p) pre_a) with
                 | None => None
                 | Some v => Some (N.lxor v (nth (base_num p - 1) pre_a 0%N))
                 end
  end.
Definition recv_check (seed : N) (pre_b b : list N) : N :=
  N.lxor (universal_hash (kmul wide) seed (firstn (mp p) b)) (nth (base_num p - 1) pre_b 0%N).
Definition send_check (seed pay delta : N) (pre_c c : list N) : N :=
  N.lxor (N.lxor (universal_hash (kmul wide) seed (firstn (mp p) c)) (kmul wide pay delta)) (nth (base_num p - 1) pre_c 0%N).
Variable blake3 : N -> N.
Definition consistent (seed delta : N) (indexes : list nat) (pre_a pre_b pre_c b c : list N) : bool :=
  match payload seed indexes pre_a with
  | None => false
  | Some pay => N.eqb (blake3 (recv_check seed pre_b b)) (blake3 (send_check seed pay delta pre_c c))
  end.

(** Send and Recv after OneTimeSetup (91-121, 164-212): c for the sender, a and b for the
    receiver; [None]: thrown. *)
Definition mp_vole (h crh : N -> N) (fixed : bool) (delta : N) (otdelta : N) (base : list (N * N)) (bits : list bool) (blks : list N)
    (indexes : list nat) (seeds : nat -> N) (spans spanr : nat -> list N) (check_seed : N)
    (pre_a pre_b pre_c a0 b0 c0 : list N) : option (list N * list N * list N) :=
  if negb (length pre_a =? base_num p) || negb (length pre_b =? base_num p) || negb (length pre_c =? base_num p) ||
     (length a0 <? mp p) then None else
  match (if fixed then mpfss_fixed h crh N.lxor N.lxor wide p otdelta base bits blks indexes seeds spans spanr pre_c c0 b0
         else match mpfss h crh N.lxor N.lxor wide p otdelta base bits blks indexes seeds spans spanr pre_c c0 b0 with
              | Some (s, r) => Some (s, r, indexes) | None => None end) with
  | None => None
  | Some (c, r, idx) =>
      let a := place_a idx pre_a a0 in
      let b := place_b idx pre_b r in
      if mal p && negb (consistent check_seed delta idx pre_a pre_b pre_c b c) then None else Some (a, b, c)
  end.
End MpVole.

(** The flags of one object: setup done, finished (71-87, 94-95, 120; 143-159, 167-168, 211). *)
Record flags := mkFlags { setup : bool; finished : bool }.
Definition send_setup (f : flags) : flags := mkFlags true false.
Definition recv_setup (f : flags) : flags := mkFlags true (finished f).
Definition use (f : flags) : option flags := if setup f && negb (finished f) then Some (mkFlags (setup f) true) else None.

(** ** base_vole.h *)
(** kGf64Basis, kGf128Basis (gf_intrinsic.h:46-62). *)
Definition kbasis (tbits : nat) : list N := basis tbits.
Fixpoint bits_N (l : list bool) : N :=
  match l with [] => 0%N | b :: t => ((if b then 1 else 0) + 2 * bits_N t)%N end.
(** Ot2VoleSend (base_vole.h:43-67): [tw]: T is uint128_t, [wide]: K is. *)
Definition tbits (tw : bool) : nat := if tw then 128 else 64.
Definition ot2vole_send (tw wide : bool) (base : list (N * N)) (sz : nat) : option (list N) :=
  if length base <? sz * tbits tw then None else
  all_some (map (fun i => kspan wide (map (fun j => ktrunc wide (SpcotModel.send_block base (i * tbits tw + j) false)) (seq 0 (tbits tw)))
                                     (kbasis (tbits tw))) (seq 0 sz)).
(** Ot2VoleRecv (69-98): the choice bits are copied into u, little endian. *)
Definition ot2vole_recv (tw wide : bool) (bits : list bool) (blks : list N) (sz : nat) : option (list N * list N) :=
  if length blks <? sz * tbits tw then None else
  match all_some (map (fun i => kspan wide (map (fun j => ktrunc wide (nth (i * tbits tw + j) blks 0%N)) (seq 0 (tbits tw)))
                                           (kbasis (tbits tw))) (seq 0 sz)) with
  | None => None
  | Some v => Some (map (fun i => bits_N (sub (i * tbits tw) (tbits tw) bits)) (seq 0 sz), v)
  end.
