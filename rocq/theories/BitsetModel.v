(** Model of yacl/base/dynamic_bitset.h, for blocks of any width.

    A bitset is the vector of blocks and the number of bits.  Blocks are numbers below
    2^width; every store into a block truncates, as the casts to block_type do.  The
    asserts are those of a release build, that is none: an access past the vector is
    [OutOfBounds].  The compiler intrinsics for counting bits are modelled by the portable
    loops of the same functions.  Allocators, capacity and references (operator[], which
    read and write one bit like test and set) are left out; sizes stay below 2^64. *)
From Coq Require Import ZArith NArith List Bool Arith.
From Verif Require Import LinCodeModel.
Import ListNotations.
Open Scope nat_scope.

Record bitset := mkBits { blocks : list N; bits : nat }.
Definition rd (m : list N) (i : nat) : outcome N := match nth_error m i with Some x => Val x | None => OutOfBounds end.
Definition wr (m : list N) (i : nat) (x : N) : outcome (list N) :=
  if i <? length m then Val (firstn i m ++ x :: skipn (S i) m) else OutOfBounds.
(** A for loop over the given indices. *)
Fixpoint for_each {A} (f : nat -> A -> outcome A) (is : list nat) (m : A) : outcome A :=
  match is with [] => Val m | i :: r => bind (f i m) (for_each f r) end.

Section Bitset.
Variable B : nat.   (* bits_per_block *)
Definition one_block : N := N.ones (N.of_nat B).
Definition cast (x : N) : N := N.land x one_block.
(** ~ on a block, truncated. *)
Definition inv (x : N) : N := N.ldiff one_block x.
Definition shl (x : N) (k : nat) : N := cast (N.shiftl x (N.of_nat k)).
Definition shr (x : N) (k : nat) : N := N.shiftr x (N.of_nat k).

(** blocks_required, block_index, bit_index 3110-3127; bit_mask 3129-3146. *)
Definition blocks_required (n : nat) : nat := n / B + (if 0 <? n mod B then 1 else 0).
Definition block_index (p : nat) : nat := p / B.
Definition bit_index (p : nat) : nat := p mod B.
Definition bit_mask (p : nat) : N := shl 1 (bit_index p).
Definition bit_mask2 (first last : nat) : N :=
  let first := bit_index first in
  let last := bit_index last in
  if last =? B - 1 then shl one_block first
  else cast (N.lxor (N.shiftl 1 (N.of_nat (last + 1)) - 1) (N.shiftl 1 (N.of_nat first) - 1)).
(** set_block_bits, flip_block_bits 3148-3163. *)
Definition set_block_bits (block : N) (first last : nat) (v : bool) : N :=
  if v then N.lor block (bit_mask2 first last) else N.land block (inv (bit_mask2 first last)).
Definition flip_block_bits (block : N) (first last : nat) : N := N.lxor block (bit_mask2 first last).
(** block_count 3165-3260, count_block_trailing_zero 3262-3334. *)
Definition block_count (block : N) (n : nat) : nat :=
  length (filter (fun i => N.testbit block (N.of_nat i)) (seq 0 n)).
Fixpoint ctz_from (block : N) (i fuel : nat) : nat :=
  match fuel with O => i | S f => if N.testbit block (N.of_nat i) then i else ctz_from block (S i) f end.
Definition trailing_zero (block : N) : nat := ctz_from block 0 B.
(** extra_bits_number, unused_bits_number 3383-3393. *)
Definition extra_bits (s : bitset) : nat := bit_index (bits s).
Definition unused_bits (s : bitset) : nat := B - extra_bits s.
(** sanitize 3475-3481; last_block 3371-3381. *)
Definition sanitize (s : bitset) : outcome bitset :=
  let shift := bits s mod B in
  if 0 <? shift then
    bind (rd (blocks s) (length (blocks s) - 1)) (fun x =>
    bind (wr (blocks s) (length (blocks s) - 1) (N.land x (inv (shl one_block shift)))) (fun m => Val (mkBits m (bits s))))
  else Val s.

(** ** Constructors and changes of size *)
Definition empty_set : bitset := mkBits [] 0.
(** dynamic_bitset(nbits, init_val) 2287-2309; uint128_t holds 128 / B blocks. *)
Definition of_value (n : nat) (v : N) : outcome bitset :=
  let m := repeat 0%N (blocks_required n) in
  if (n =? 0) || (v =? 0)%N then Val (mkBits m n) else
  bind (if 128 / B =? 1 then wr m 0 (cast v)
        else for_each (fun i m => wr m i (cast (N.land (N.shiftr v (N.of_nat (i * B))) one_block)))
                      (seq 0 (Nat.min (length m) (128 / B))) m) (fun m' => sanitize (mkBits m' n)).
(** resize 2354-2382; std::vector::resize. *)
Definition vec_resize (m : list N) (n : nat) (x : N) : list N := firstn n m ++ repeat x (n - length m).
Definition resize (s : bitset) (n : nat) (v : bool) : outcome bitset :=
  if n =? bits s then Val s else
  let old := length (blocks s) in
  let new := blocks_required n in
  let init := if v then one_block else 0%N in
  let m := if new =? old then blocks s else vec_resize (blocks s) new init in
  bind (if v && (bits s <? n) && (0 <? old) then
          if 0 <? extra_bits s then bind (rd m (old - 1)) (fun x => wr m (old - 1) (N.lor x (shl init (extra_bits s)))) else Val m
        else Val m) (fun m' =>
  sanitize (mkBits m' n)).
(** clear 2384-2388. *)
Definition clear (s : bitset) : bitset := empty_set.
(** set(pos, value) 2642-2654. *)
Definition set_bit (s : bitset) (p : nat) (v : bool) : outcome bitset :=
  bind (rd (blocks s) (block_index p)) (fun x =>
  bind (wr (blocks s) (block_index p) (if v then N.lor x (bit_mask p) else N.land x (inv (bit_mask p)))) (fun m =>
  Val (mkBits m (bits s)))).
(** push_back 2390-2402, pop_back 2404-2419. *)
Definition push_back (s : bitset) (v : bool) : outcome bitset :=
  let s' := mkBits (blocks s) (bits s + 1) in
  if bits s + 1 <=? length (blocks s) * B then (if v then set_bit s' (bits s) v else Val s')
  else Val (mkBits (blocks s ++ [if v then 1%N else 0%N]) (bits s + 1)).
Definition pop_back (s : bitset) : outcome bitset :=
  if bits s =? 0 then Val s else
  let n := bits s - 1 in
  if blocks_required n <? length (blocks s) then Val (mkBits (removelast (blocks s)) n)
  else sanitize (mkBits (blocks s) n).
(** append(block) 2421-2432. *)
Definition append_block (s : bitset) (b : N) : outcome bitset :=
  let e := extra_bits s in
  bind (if e =? 0 then Val (blocks s ++ [b]) else
        bind (rd (blocks s) (length (blocks s) - 1)) (fun x =>
        bind (wr (blocks s) (length (blocks s) - 1) (N.lor x (shl b e))) (fun m => Val (m ++ [shr b (B - e)])))) (fun m =>
  Val (mkBits m (bits s + B))).
(** append(first, last) 2444-2485 with the blocks of the range. *)
Fixpoint append_rest (e u : nat) (m : list N) (block : N) (l : list N) : list N :=
  match l with
  | [] => m ++ [block]
  | x :: l' => append_rest e u (m ++ [N.lor block (shl x e)]) (shr x u) l'
  end.
Definition append_blocks (s : bitset) (l : list N) : outcome bitset :=
  match l with
  | [] => Val s
  | x :: l' =>
      let e := extra_bits s in
      let u := unused_bits s in
      bind (if e =? 0 then Val (blocks s ++ l) else
            bind (rd (blocks s) (length (blocks s) - 1)) (fun y =>
            bind (wr (blocks s) (length (blocks s) - 1) (N.lor y (shl x e))) (fun m => Val (append_rest e u m (shr x u) l')))) (fun m =>
      Val (mkBits m (bits s + length l * B)))
  end.
(** append(other) 2487-2502, for another object and for the object itself. *)
Definition append (s t : bitset) : outcome bitset :=
  bind (append_blocks s (blocks t)) (fun r => resize r (bits s + bits t) false).
Definition append_self (s : bitset) : outcome bitset :=
  bind (for_each (fun i r => bind (rd (blocks r) i) (append_block r)) (seq 0 (length (blocks s))) s) (fun r =>
  resize r (bits s + bits s) false).

(** ** Bitwise operators 2504-2550 *)
Definition combine_blocks (f : N -> N -> N) (s t : bitset) : outcome bitset :=
  bind (for_each (fun i m => bind (rd m i) (fun x => bind (rd (blocks t) i) (fun y => wr m i (f x y))))
                 (seq 0 (length (blocks s))) (blocks s)) (fun m =>
  Val (mkBits m (bits s))).
Definition and_eq := combine_blocks N.land.
Definition or_eq := combine_blocks N.lor.
Definition xor_eq := combine_blocks N.lxor.
Definition sub_eq := combine_blocks (fun x y => N.land x (inv y)).
(** reset() 2677-2682, set() 2657-2663, flip() 2731-2738. *)
Definition reset_all (s : bitset) : bitset := mkBits (map (fun _ => 0%N) (blocks s)) (bits s).
Definition set_all (s : bitset) : outcome bitset := sanitize (mkBits (map (fun _ => one_block) (blocks s)) (bits s)).
Definition flip_all (s : bitset) : outcome bitset := sanitize (mkBits (map inv (blocks s)) (bits s)).

(** apply_left_shift 3412-3441 and operator<<= 2553-2565: in place, from the top. *)
Definition left_shift (s : bitset) (k : nat) : outcome bitset :=
  if k =? 0 then Val s else if bits s <=? k then Val (reset_all s) else
  let bs := k / B in
  let off := k mod B in
  let n := length (blocks s) in
  bind (if off =? 0 then
          for_each (fun i m => bind (rd m (i - bs)) (fun x => wr m i x)) (rev (seq bs (n - bs))) (blocks s)
        else
          bind (for_each (fun i m => bind (rd m (i - bs)) (fun x => bind (rd m (i - bs - 1)) (fun y =>
                  wr m i (cast (N.lor (N.shiftl x (N.of_nat off)) (shr y (B - off)))))))
                (rev (seq (S bs) (n - S bs))) (blocks s)) (fun m =>
          bind (rd m 0) (fun x => wr m bs (shl x off)))) (fun m =>
  bind (for_each (fun i m => wr m i 0%N) (seq 0 bs) m) (fun m' =>
  sanitize (mkBits m' (bits s)))).
(** apply_right_shift 3443-3473 and operator>>= 2567-2578: in place, from the bottom. *)
Definition right_shift (s : bitset) (k : nat) : outcome bitset :=
  if k =? 0 then Val s else if bits s <=? k then Val (reset_all s) else
  let bs := k / B in
  let off := k mod B in
  let n := length (blocks s) in
  let last := n - bs - 1 in
  bind (if off =? 0 then
          for_each (fun i m => bind (rd m (i + bs)) (fun x => wr m i x)) (seq 0 (last + 1)) (blocks s)
        else
          bind (for_each (fun i m => bind (rd m (i + bs)) (fun x => bind (rd m (i + bs + 1)) (fun y =>
                  wr m i (N.lor (shr x off) (shl y (B - off))))))
                (seq 0 last) (blocks s)) (fun m =>
          bind (rd m (n - 1)) (fun x => wr m last (shr x off)))) (fun m =>
  bind (for_each (fun i m => wr m i 0%N) (seq (last + 1) (n - (last + 1))) m) (fun m' =>
  Val (mkBits m' (bits s)))).

(** ** Ranges: set(pos, len, value) 2601-2641 and flip(pos, len) 2684-2721 *)
Definition on_range (part : N -> nat -> nat -> N) (full : N -> N) (s : bitset) (p len : nat) : outcome bitset :=
  if len =? 0 then Val s else
  let fb := block_index p in
  let lb := block_index (p + len - 1) in
  let fi := bit_index p in
  let li := bit_index (p + len - 1) in
  let change i g m := bind (rd m i) (fun x => wr m i (g x)) in
  bind (if fb =? lb then change fb (fun x => part x fi li) (blocks s)
        else
          bind (if fi =? 0 then Val (blocks s) else change fb (fun x => part x fi (B - 1)) (blocks s)) (fun m =>
          bind (if li =? B - 1 then Val m else change lb (fun x => part x 0 li) m) (fun m' =>
          let ff := if fi =? 0 then fb else fb + 1 in
          let lf := if li =? B - 1 then lb else lb - 1 in
          for_each (fun i => change i full) (seq ff (lf + 1 - ff)) m'))) (fun m =>
  Val (mkBits m (bits s))).
Definition set_range (s : bitset) (p len : nat) (v : bool) : outcome bitset :=
  on_range (fun x a b => set_block_bits x a b v) (fun _ => if v then one_block else 0%N) s p len.
Definition flip_range (s : bitset) (p len : nat) : outcome bitset := on_range flip_block_bits inv s p len.
(** flip(pos) 2723-2729. *)
Definition flip_bit (s : bitset) (p : nat) : outcome bitset :=
  bind (rd (blocks s) (block_index p)) (fun x =>
  bind (wr (blocks s) (block_index p) (N.lxor x (bit_mask p))) (fun m => Val (mkBits m (bits s)))).

(** ** Observers *)
(** test 2740-2743, test_set 2745-2753. *)
Definition test (s : bitset) (p : nat) : outcome bool :=
  bind (rd (blocks s) (block_index p)) (fun x => Val (negb (N.land x (bit_mask p) =? 0)%N)).
Definition test_set (s : bitset) (p : nat) (v : bool) : outcome (bitset * bool) :=
  bind (test s p) (fun r => if Bool.eqb r v then Val (s, r) else bind (set_bit s p v) (fun s' => Val (s', r))).
(** all 2755-2779, any, none 2781-2794, count 2796-2824. *)
Definition all (s : bitset) : outcome bool :=
  if bits s =? 0 then Val true else
  if extra_bits s =? 0 then Val (forallb (fun x => x =? one_block)%N (blocks s)) else
  if negb (forallb (fun x => x =? one_block)%N (firstn (length (blocks s) - 1) (blocks s))) then Val false else
  bind (rd (blocks s) (length (blocks s) - 1)) (fun x => Val (x =? shr one_block (unused_bits s))%N).
Definition any (s : bitset) : bool := existsb (fun x => negb (x =? 0)%N) (blocks s).
Definition none (s : bitset) : bool := negb (any s).
Definition count (s : bitset) : outcome nat :=
  if bits s =? 0 then Val 0 else
  bind (rd (blocks s) (length (blocks s) - 1)) (fun x =>
  Val (list_sum (map (fun y => block_count y B) (firstn (length (blocks s) - 1) (blocks s))) +
       block_count x (if extra_bits s =? 0 then B else extra_bits s))).
(** is_subset_of 2872-2882, is_proper_subset_of 2884-2901, intersects 2903-2914. *)
Fixpoint subset_blocks (a b : list N) : outcome bool :=
  match a, b with
  | [], _ => Val true
  | x :: a', y :: b' => if negb (N.land x (inv y) =? 0)%N then Val false else subset_blocks a' b'
  | _ :: _, [] => OutOfBounds
  end.
Definition is_subset_of (s t : bitset) : outcome bool := subset_blocks (blocks s) (blocks t).
Fixpoint proper_blocks (p : bool) (a b : list N) : outcome bool :=
  match a, b with
  | [], _ => Val p
  | x :: a', y :: b' => if negb (N.land x (inv y) =? 0)%N then Val false else
                        proper_blocks (if negb (N.land (inv x) y =? 0)%N then true else p) a' b'
  | _ :: _, [] => OutOfBounds
  end.
Definition is_proper_subset_of (s t : bitset) : outcome bool := proper_blocks false (blocks s) (blocks t).
Definition intersects (s t : bitset) : bool :=
  existsb (fun p => negb (N.land (fst p) (snd p) =? 0)%N) (combine (blocks s) (blocks t)).
(** find_first 2916-2925, find_next 2927-2950; npos is None. *)
Fixpoint find_block (i : nat) (m : list N) : option nat :=
  match m with [] => None | x :: m' => if (x =? 0)%N then find_block (S i) m' else Some (i * B + trailing_zero x) end.
Definition find_first (s : bitset) : option nat := find_block 0 (blocks s).
Definition find_next (s : bitset) (prev : nat) : outcome (option nat) :=
  if (bits s =? 0) || (bits s - 1 <=? prev) then Val None else
  let first := prev + 1 in
  let fb := block_index first in
  bind (rd (blocks s) fb) (fun x =>
  let y := shr x (bit_index first) in
  if negb (y =? 0)%N then Val (Some (first + trailing_zero y))
  else Val (find_block (fb + 1) (skipn (fb + 1) (blocks s)))).
(** iterate_bits_on 2992-3027: the positions the function is called with. *)
Fixpoint iterate_from (fuel : nat) (s : bitset) (p : option nat) : outcome (list nat) :=
  match fuel, p with
  | _, None => Val []
  | O, Some _ => Hangs
  | S f, Some i => bind (find_next s i) (fun q => bind (iterate_from f s q) (fun r => Val (i :: r)))
  end.
Definition iterate (fuel : nat) (s : bitset) : outcome (list nat) := iterate_from fuel s (find_first s).
(** operator== 3041-3047. *)
Fixpoint eq_blocks (a b : list N) : bool :=
  match a, b with [], [] => true | x :: a', y :: b' => (x =? y)%N && eq_blocks a' b' | _, _ => false end.
Definition eq (s t : bitset) : bool := (bits s =? bits t) && eq_blocks (blocks s) (blocks t).
(** operator< 3049-3108.  [first_diff] compares blocks i, i - 1, ..., 0. *)
Fixpoint first_diff (a b : list N) (i : nat) : outcome (option bool) :=
  bind (rd a i) (fun x => bind (rd b i) (fun y =>
  if (x =? y)%N then match i with O => Val None | S j => first_diff a b j end else Val (Some (x <? y)%N))).
Fixpoint any_above (m : list N) (lo i fuel : nat) : outcome bool :=
  match fuel with
  | O => Val false
  | S f => if lo <=? i then bind (rd m i) (fun x => if negb (x =? 0)%N then Val true else any_above m lo (i - 1) f) else Val false
  end.
Definition less (s t : bitset) : outcome bool :=
  let a := blocks s in
  let b := blocks t in
  if bits s =? bits t then
    if bits s =? 0 then Val false
    else bind (first_diff a b (length a - 1)) (fun r => Val (match r with Some x => x | None => false end))
  else if bits s =? 0 then Val true
  else if bits t =? 0 then Val false
  else
    let longer := bits s <? bits t in
    let lo := Nat.min (length a) (length b) in
    let hi := Nat.max (length a) (length b) in
    bind (any_above (if longer then b else a) lo (hi - 1) hi) (fun above =>
    if above then Val longer else
    bind (first_diff a b (lo - 1)) (fun r => Val (match r with Some x => x | None => bits s <? bits t end))).

(** ** Strings *)
Section Char.
Context {char : Type}.
Variable eqc : char -> char -> bool.
Variables zero one : char.
(** to_string 2965-2990.  The mask is shifted out to 0 in the rounds after the block's. *)
Definition put_char (l : list char) (i : nat) (c : char) : outcome (list char) :=
  if i <? length l then Val (firstn i l ++ c :: skipn (S i) l) else OutOfBounds.
Definition to_string (s : bitset) : outcome (list char) :=
  let len := bits s in
  for_each (fun ib str =>
    bind (rd (blocks s) ib) (fun x =>
    if (x =? 0)%N then Val str else
    let limit := if ib * B <? len then len - ib * B else B in
    for_each (fun i str =>
      if negb (N.land x (shl 1 i) =? 0)%N then
        if len <? ib * B + i + 1 then OutOfBounds else put_char str (len - (ib * B + i + 1)) one
      else Val str) (seq 0 limit) str)) (seq 0 (length (blocks s))) (repeat zero len).
(** init_from_string 3336-3357 without its asserts: str.size() - pos wraps around when pos is past the string
    (the minimum is then n), and any character but [one] reads as 0. *)
Definition of_string (str : list char) (pos n : nat) : outcome bitset :=
  let size := if pos <=? length str then Nat.min n (length str - pos) else n in
  for_each (fun i s =>
    match nth_error str (pos + size - 1 - i) with
    | None => OutOfBounds
    | Some c => if eqc c one then set_bit s i true else Val s
    end) (seq 0 size) (mkBits (repeat 0%N (blocks_required size)) size).
(** operator>> 3572-3610 after the leading white space: the bitset and the rest. *)
Fixpoint read_rev (s : bitset) (input : list char) : outcome (bitset * list char) :=
  match input with
  | [] => Val (s, [])
  | c :: r => if eqc c one then bind (push_back s true) (fun s' => read_rev s' r)
              else if eqc c zero then bind (push_back s false) (fun s' => read_rev s' r)
              else Val (s, input)
  end.
Definition read (input : list char) : outcome (bitset * list char) :=
  bind (read_rev empty_set input) (fun sr =>
  let (r, rest) := sr in
  bind (for_each (fun i s => bind (test r i) (push_back s)) (rev (seq 0 (bits r))) empty_set) (fun s => Val (s, rest))).
End Char.
End Bitset.
