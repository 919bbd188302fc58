(** Model of yacl/utils/matrix_utils.{h,cc}: the bit-matrix transposes.
    A word is a uint128_t as a [Z]; [shl] drops what leaves 128 bits. *)
From Coq Require Import List ZArith Bool.
Import ListNotations.

Notation W := Z (only parsing).
Definition zero : W := 0%Z.
Definition xor : W -> W -> W := Z.lxor.
Definition andm (m w : Z) : W := Z.land w m.
Definition shl (n : nat) (w : W) : W := Z.land (Z.shiftl w (Z.of_nat n)) (Z.ones 128).
Definition shr (n : nat) (w : W) : W := Z.shiftr w (Z.of_nat n).

Fixpoint upd {A} (l : list A) (i : nat) (x : A) : list A :=
  match l, i with
  | [], _ => []
  | _ :: r, O => x :: r
  | y :: r, S j => y :: upd r j x
  end.
Definition get (m : list W) (i : nat) : W := nth i m zero.
Definition loop {S} (n : nat) (f : nat -> S -> S) (s : S) : S := fold_left (fun s i => f i s) (seq 0 n) s.

(** GetBit and NaiveTranspose<1> (matrix_utils.h:27-45); the [|=] of a fresh bit is an xor. *)
Definition get_bit (w : W) (pos : nat) : W := andm 1 (shr pos w).
Definition naive_transpose128 (m : list W) : list W :=
  loop 128 (fun i out => upd out i (loop 128 (fun j t => xor t (shl j (get_bit (get m j) i))) zero)) m.

(** trans_mask, trans_mask_inv (matrix_utils.cc:48-64). *)
Definition mk (hi lo : Z) : Z := (hi * 2 ^ 64 + lo)%Z.
Definition trans_mask (i : nat) : Z :=
  nth i [mk 0x0000000000000000 0xffffffffffffffff; mk 0x00000000ffffffff 0x00000000ffffffff;
         mk 0x0000ffff0000ffff 0x0000ffff0000ffff; mk 0x00ff00ff00ff00ff 0x00ff00ff00ff00ff;
         mk 0x0f0f0f0f0f0f0f0f 0x0f0f0f0f0f0f0f0f; mk 0x3333333333333333 0x3333333333333333;
         mk 0x5555555555555555 0x5555555555555555] 0%Z.
Definition trans_mask_inv (i : nat) : Z :=
  nth i [mk 0xffffffffffffffff 0x0000000000000000; mk 0xffffffff00000000 0xffffffff00000000;
         mk 0xffff0000ffff0000 0xffff0000ffff0000; mk 0xff00ff00ff00ff00 0xff00ff00ff00ff00;
         mk 0xf0f0f0f0f0f0f0f0 0xf0f0f0f0f0f0f0f0; mk 0xcccccccccccccccc 0xcccccccccccccccc;
         mk 0xaaaaaaaaaaaaaaaa 0xaaaaaaaaaaaaaaaa] 0%Z.

(** EklundhTranspose128 (67-94): state (width, nswaps, matrix). *)
Definition ek_swap (i width j k : nat) (m : list W) : list W :=
  let mask := trans_mask i in
  let inv_mask := trans_mask_inv i in
  let i1 := k + 2 * width * j in
  let i2 := k + width + 2 * width * j in
  let t := get m i1 in
  let tt := get m i2 in
  let m := upd m i1 (xor (andm mask t) (shl width (andm mask tt))) in
  upd m i2 (xor (andm inv_mask tt) (shr width (andm inv_mask t))).
Definition ek_round (i : nat) (s : nat * nat * list W) : nat * nat * list W :=
  let '(width, nswaps, m) := s in
  (Nat.div width 2, nswaps * 2, loop nswaps (fun j m => loop width (fun k m => ek_swap i width j k m) m) m).
Definition eklundh_transpose128 (m : list W) : list W := snd (loop 7 ek_round (64, 1, m)).

(** Byte and 16-bit views of a word (the reinterpret_casts, little endian). *)
Definition byte_at (w : W) (b : nat) : W := andm 255 (shr (8 * b) w).
Definition set_u16 (w : W) (y : nat) (v : W) : W :=
  xor (andm (Z.lxor (2 ^ 128 - 1) (Z.shiftl 65535 (Z.of_nat (16 * y)))) w) (shl (16 * y) v).
(** _mm_movemask_epi8: bit l is the top bit of byte l. *)
Definition movemask (b : W) : W := loop 16 (fun l r => xor r (shl l (get_bit b (8 * l + 7)))) zero.
(** _mm_slli_epi64 / epi16 and srli: shifts inside lanes of [w] bits. *)
Definition lanes (w : nat) (keep : nat -> bool) : Z :=
  fold_left (fun z c => if keep (Nat.modulo c w) then Z.setbit z (Z.of_nat c) else z) (seq 0 128) 0%Z.
Definition slli (w n : nat) (b : W) : W := andm (lanes w (fun c => Nat.leb n c)) (shl n b).
Definition srli (w n : nat) (b : W) : W := andm (lanes w (fun c => Nat.ltb c (w - n))) (shr n b).

(** sse_loadSubSquare (103-119): bytes 2y and 2y+1 of rows 16x..16x+15. *)
Definition sse_load (m : list W) (x y : nat) : W * W :=
  loop 16 (fun l out => (xor (fst out) (shl (8 * l) (byte_at (get m (16 * x + l)) (2 * y))),
                         xor (snd out) (shl (8 * l) (byte_at (get m (16 * x + l)) (2 * y + 1))))) (zero, zero).
(** sse_transposeSubSquare (123-138); [block << 1] is _mm_slli_epi64 (block.h:83). *)
Definition sse_store (m : list W) (a : W * W) (x y : nat) : list W :=
  snd (loop 8 (fun j s =>
    let '(a, m) := s in
    let r0 := 16 * x + 7 - j in
    let m := upd m r0 (set_u16 (get m r0) y (movemask (fst a))) in
    let r1 := 16 * x + 15 - j in
    let m := upd m r1 (set_u16 (get m r1) y (movemask (snd a))) in
    ((slli 64 1 (fst a), slli 64 1 (snd a)), m)) (a, m)).
(** SseTranspose128 (140-162). *)
Definition sse_transpose128 (m : list W) : list W :=
  loop 8 (fun j m =>
    let m := sse_store m (sse_load m j j) j j in
    loop j (fun k m =>
      let a := sse_load m k j in
      let b := sse_load m j k in
      sse_store (sse_store m a j k) b k j) m) m.

(** 128 rows of eight 128-bit words. *)
Definition get2 (m : list (list W)) (r i : nat) : W := nth i (nth r m []) zero.
Definition set2 (m : list (list W)) (r i : nat) (w : W) : list (list W) := upd m r (upd (nth r m []) i w).
(** EklundhTranspose128x1024 (164-196). *)
Definition column (m : list (list W)) (i : nat) : list W := map (fun j => get2 m j i) (seq 0 128).
Definition set_column (m : list (list W)) (i : nat) (sub : list W) : list (list W) :=
  loop 128 (fun j m => set2 m j i (get sub j)) m.
Definition eklundh_transpose128x1024 (m : list (list W)) : list (list W) :=
  loop 8 (fun i m => set_column m i (eklundh_transpose128 (column m i))) m.
(** SseLoadSubSquarex (198-250): byte i*16+2y of a 128-byte row is byte 2y of word i. *)
Definition sse_load_x (m : list (list W)) (x y i : nat) : W * W :=
  loop 16 (fun l out => (xor (fst out) (shl (8 * l) (byte_at (get2 m (x * 16 + l) i) (2 * y))),
                         xor (snd out) (shl (8 * l) (byte_at (get2 m (x * 16 + l) i) (2 * y + 1))))) (zero, zero).
(** SseTransposeSubSquarex (252-302), its sixteen unrolled stores as two loops. *)
Definition sse_store_x (m : list (list W)) (a : W * W) (x y i : nat) : list (list W) :=
  let m := loop 8 (fun n m => let r := x * 16 + 7 - n in
                              set2 m r i (set_u16 (get2 m r i) y (movemask (slli 64 n (fst a))))) m in
  loop 8 (fun n m => let r := x * 16 + 15 - n in
                     set2 m r i (set_u16 (get2 m r i) y (movemask (slli 64 n (snd a))))) m.
(** SseTranspose128x1024 (305-341). *)
Definition sse_transpose128x1024 (m : list (list W)) : list (list W) :=
  loop 8 (fun i m =>
    loop 8 (fun j m =>
      let m := sse_store_x m (sse_load_x m j j i) j j i in
      loop j (fun k m =>
        let a := sse_load_x m k j i in
        let b := sse_load_x m j k i in
        sse_store_x (sse_store_x m a j k i) b k j i) m) m) m.

(** The AVX2 version (361-520).  A __m256i at index q is rows 2q (low) and 2q+1
    (high); every intrinsic used works on the two 128-bit halves separately
    except permute2x128. *)
Definition unpacklo (x y : W) : W := xor (andm (2 ^ 64 - 1) x) (shl 64 (andm (2 ^ 64 - 1) y)).
Definition unpackhi (x y : W) : W := xor (shr 64 x) (shl 64 (shr 64 y)).
Fixpoint avx_mask_aux (n k : nat) (m : Z) : Z :=
  match n with
  | O => m
  | S n' => avx_mask_aux n' (k - 1) (Z.lxor m (Z.shiftr m (Z.of_nat (2 ^ k))))
  end.
(** mask: k from 4 down to blockSizeShift; both 64-bit halves (set1_epi64x). *)
Definition avx_mask (bs : nat) : Z :=
  let m := avx_mask_aux (5 - bs) 4 (2 ^ 64 - 2 ^ 32)%Z in mk m m.
(** _mm256_set1_epi16(0xaaaa). *)
Definition mask_aaaa : Z := mk 0xaaaaaaaaaaaaaaaa 0xaaaaaaaaaaaaaaaa.
Definition diff_step (lane n : nat) (mask : Z) (x y : W) : W * W :=
  let diff := andm mask (xor x (slli lane n y)) in
  (xor x diff, xor y (srli lane n diff)).

(** One activation of avx_transpose_block_iter1 (377-434) at row pair offset [q0]. *)
Definition avx_iter1_body (bs q0 j : nat) (m : list W) : list W :=
  let qx := q0 + Nat.div j 2 in
  let qy := q0 + Nat.div j 2 + 2 ^ (bs - 1) in
  let '(xl, xh, yl, yh) := (get m (2 * qx), get m (2 * qx + 1), get m (2 * qy), get m (2 * qy + 1)) in
  let '(xl, xh, yl, yh) :=
    if Nat.eqb bs 6 then (unpacklo xl yl, unpacklo xh yh, unpackhi xl yl, unpackhi xh yh)
    else
      let '(xl, xh, yl, yh) :=
        if Nat.eqb bs 1 then
          (** u = (xl, yl), v = (xh, yh) by permute2x128 0x20 / 0x31, and back. *)
          let '(ul, vl) := diff_step 16 1 mask_aaaa xl xh in
          let '(uh, vh) := diff_step 16 1 mask_aaaa yl yh in
          (ul, vl, uh, vh)
        else (xl, xh, yl, yh) in
      let '(xl, yl) := diff_step 64 (2 ^ bs) (avx_mask bs) xl yl in
      let '(xh, yh) := diff_step 64 (2 ^ bs) (avx_mask bs) xh yh in
      (xl, xh, yl, yh) in
  upd (upd (upd (upd m (2 * qx) xl) (2 * qx + 1) xh) (2 * qy) yl) (2 * qy + 1) yh.
(** The recursion on j runs the larger j first. *)
Fixpoint avx_iter1 (fuel bs br q0 j : nat) (m : list W) : list W :=
  match fuel with
  | O => m
  | S f => if Nat.eqb j (2 ^ bs) then m
           else avx_iter1_body bs q0 j (avx_iter1 f bs br q0 (j + 2 ^ br) m)
  end.
(** avx_transpose_block_iter2 (436-462). *)
Fixpoint avx_iter2 (fuel bs br nrows q0 : nat) (m : list W) : list W :=
  match fuel with
  | O => m
  | S f => if Nat.eqb nrows 0 then m
           else let i := nrows - 2 ^ (bs + 1) in
                avx_iter1 65 bs br (q0 + Nat.div i 2) 0 (avx_iter2 f bs br i q0 m)
  end.
(** avx_transpose_block (464-486). *)
Fixpoint avx_block (fuel bs ms br mr q0 : nat) (m : list W) : list W :=
  match fuel with
  | O => m
  | S f => if Nat.eqb bs ms then m
           else avx_block f (bs + 1) ms br mr q0 (avx_iter2 65 bs br (2 ^ (mr + ms)) q0 m)
  end.
(** avx_transpose<7> (488-520): avx_transpose<3>, then the pass for iter = 7. *)
Definition avx_transpose128 (m : list W) : list W :=
  let m := loop 4 (fun i m => avx_block 8 1 3 1 (4 + 1 - 3) (16 * i) m) m in
  loop 4 (fun i m => avx_block 8 3 7 3 0 i m) m.
