(** * The multi-precision integer's byte formats and bit access
    (/repo/yacl/math/mpint/tommath_ext_features.cc, tommath_ext_types.cc, mp_int.cc)

    An mp_int of libtommath is its sign and its used digits, least significant
    first, MP_DIGIT_BIT = 60 bits each (mp_int.h:283).  The digits between [used]
    and [alloc] are not represented: libtommath keeps them at 0, and the functions
    below that enlarge [used] without writing (mpx_set_bit) rely on that; here the
    new digits are 0.  Allocation (mp_grow) never fails here.  libtommath itself
    is outside the model: mp_clamp, mp_zero and mp_isneg are transcribed from
    their documented behaviour. *)
From Coq Require Import ZArith List Bool.
From Verif Require Import LinCodeModel.
Import ListNotations.
Open Scope Z_scope.

Record mp := Mp { neg : bool; dp : list Z }.

(** MP_DIGIT_BIT and MP_MASK. *)
Definition digit_bit : Z := 60.
Definition mp_mask : Z := Z.ones 60.
Definition mp_zero : mp := Mp false [].

(** mp_clamp: drop the leading zero digits; zero is not negative. *)
Fixpoint clamp_digits (l : list Z) : list Z :=
  match l with
  | [] => []
  | d :: t => match clamp_digits t with
              | [] => if d =? 0 then [] else [d]
              | t' => d :: t'
              end
  end.
Definition clamp (a : mp) : mp :=
  let l := clamp_digits (dp a) in
  Mp (match l with [] => false | _ => neg a end) l.

(** [store l i v]: the C assignment buf[i] = v on an array of |l| entries. *)
Fixpoint set_at (l : list Z) (i : nat) (v : Z) : list Z :=
  match l, i with
  | [], _ => []
  | _ :: l', O => v :: l'
  | a :: l', S i' => a :: set_at l' i' v
  end.
Definition store (l : list Z) (i : Z) (v : Z) : outcome (list Z) :=
  if (0 <=? i) && (i <? Z.of_nat (length l)) then Val (set_at l (Z.to_nat i) v)
  else OutOfBounds.

(** ** Counting bits, tommath_ext_features.cc:256-295 *)
Definition bit_pattern_to_log2 : list Z :=
  [0;  48; -1; -1; 31; -1; 15; 51; -1; 63; 5;  -1; -1; -1; 19; -1;
   23; 28; -1; -1; -1; 40; 36; 46; -1; 13; -1; -1; -1; 34; -1; 58;
   -1; 60; 2;  43; 55; -1; -1; -1; 50; 62; 4;  -1; 18; 27; -1; 39;
   45; -1; -1; 33; 57; -1; 1;  54; -1; 49; -1; 17; -1; -1; 32; -1;
   53; -1; 16; -1; -1; 52; -1; -1; -1; 64; 6;  7;  8;  -1; 9;  -1;
   -1; -1; 20; 10; -1; -1; 24; -1; 29; -1; -1; 21; -1; 11; -1; -1;
   41; -1; 25; 37; -1; 47; -1; 30; 14; -1; -1; -1; -1; 22; -1; -1;
   35; 12; -1; -1; -1; 59; 42; -1; -1; 61; 3;  26; 38; 44; -1; 56].
(** v |= v >> k *)
Definition smear (k v : Z) : Z := Z.lor v (Z.shiftr v k).
Definition count_bits_debruijn (v : Z) : Z :=
  let v := smear 32 (smear 16 (smear 8 (smear 4 (smear 2 (smear 1 v))))) in
  nth (Z.to_nat (Z.shiftr ((v * 0x6c04f118e9966f6b) mod 2 ^ 64) 57)) bit_pattern_to_log2 (-1).
(** mpx_count_bits_fast, :289-295 *)
Definition count_bits (a : mp) : Z :=
  match dp a with
  | [] => 0
  | _ => (Z.of_nat (length (dp a)) - 1) * digit_bit + count_bits_debruijn (last (dp a) 0)
  end.

(** ** Two's complement bytes, mpx_to_bytes :297-341 *)
Inductive endian := Little | Big.
(** Where byte [pos], counted from the least significant, goes in [n] bytes. *)
Definition at_pos (e : endian) (n pos : Z) : Z :=
  match e with Little => pos | Big => n - 1 - pos end.

(** The loop :322-330.  [fuel] bounds its rounds: cache_remain is at most 64. *)
Fixpoint emit (fuel : nat) (e : endian) (len : Z) (buf : list Z) (pos cache remain : Z)
  : outcome (list Z * Z * Z * Z) :=
  if (8 <=? remain) && (pos <? len) then
    match fuel with
    | O => Hangs
    | S fuel' =>
      bind (store buf (at_pos e len pos) (Z.land cache 255)) (fun buf =>
        emit fuel' e len buf (pos + 1) (Z.shiftr cache 8) (remain - 8))
    end
  else Val (buf, pos, cache, remain).

(** The loop :307-340 from digit [i] on; [ac] is the carry of the complement. *)
Fixpoint to_bytes_loop (fuel : nat) (num : mp) (e : endian) (len : Z)
  (buf : list Z) (i : nat) (pos ac cache remain : Z) : outcome (list Z) :=
  if pos <? len then
    match fuel with
    | O => Hangs
    | S fuel' =>
      (* :311-317 *)
      let d := nth_error (dp num) i in
      let ac1 := (ac + match d with
                       | None => mp_mask
                       | Some v => Z.land (Z.lnot v) mp_mask
                       end) mod 2 ^ 64 in
      let x := if neg num then Z.land ac1 mp_mask
               else match d with None => 0 | Some v => v end in
      let ac' := if neg num then Z.shiftr ac1 digit_bit else ac in
      (* :320-321 *)
      let cache := Z.lor cache (Z.shiftl x remain mod 2 ^ 64) in
      let remain := remain + digit_bit in
      bind (emit 8 e len buf pos cache remain) (fun '(buf, pos, cache, remain) =>
      (* :333-339 *)
      bind (if (0 <? cache) && (pos <? len)
            then store buf (at_pos e len pos) (Z.land cache 255)
            else Val buf) (fun buf =>
      to_bytes_loop fuel' num e len buf (S i) pos ac' cache remain))
    end
  else Val buf.
(** [buf] holds whatever the allocation held.  Every round writes a byte. *)
Definition to_bytes (num : mp) (buf : list Z) (len : Z) (e : endian) : outcome (list Z) :=
  to_bytes_loop (Z.to_nat len) num e len buf 0 0 1 0 0.
(** MPInt::ToBytes, mp_int.cc:843-847, on a fresh buffer *)
Definition ToBytes (num : mp) (fresh : list Z) (e : endian) : outcome (list Z) :=
  to_bytes num fresh (Z.of_nat (length fresh)) e.

(** ** Magnitude bytes, :343-431 *)
Definition mag_bytes_size (num : mp) : Z := (count_bits num + 8 - 1) / 8.

(** The loop :368-376. *)
Fixpoint emit_all (fuel : nat) (e : endian) (n : Z) (buf : list Z) (pos cache remain : Z)
  : outcome (list Z * Z * Z * Z) :=
  if 8 <=? remain then
    match fuel with
    | O => Hangs
    | S fuel' =>
      bind (store buf (at_pos e n pos) (Z.land cache 255)) (fun buf =>
        emit_all fuel' e n buf (pos + 1) (Z.shiftr cache 8) (remain - 8))
    end
  else Val (buf, pos, cache, remain).
(** The loop :381-389; cache has 64 bits. *)
Fixpoint emit_rest (fuel : nat) (e : endian) (n : Z) (buf : list Z) (pos cache : Z)
  : outcome (list Z * Z) :=
  if 0 <? cache then
    match fuel with
    | O => Hangs
    | S fuel' =>
      bind (store buf (at_pos e n pos) (Z.land cache 255)) (fun buf =>
        emit_rest fuel' e n buf (pos + 1) (Z.shiftr cache 8))
    end
  else Val (buf, pos).
(** :363-391 over the remaining digits (the last one is treated apart). *)
Fixpoint mag_loop (ds : list Z) (e : endian) (n : Z) (buf : list Z) (pos cache remain : Z)
  : outcome (list Z * Z) :=
  match ds with
  | [] => Val (buf, pos)
  | [d] => emit_rest 8 e n buf pos (Z.lor cache (Z.shiftl d remain mod 2 ^ 64))
  | d :: ds' =>
    bind (emit_all 8 e n buf pos (Z.lor cache (Z.shiftl d remain mod 2 ^ 64))
            (remain + digit_bit)) (fun '(buf, pos, cache, remain) =>
    mag_loop ds' e n buf pos cache remain)
  end.
(** mpx_to_mag_bytes :347-392, into a caller's buffer; the bytes written and the
    returned count. *)
Definition to_mag_bytes (num : mp) (buf : list Z) (e : endian) : outcome (list Z * Z) :=
  match dp num with
  | [] => Val (buf, 0)
  | _ =>
    let n := mag_bytes_size num in
    if n <=? Z.of_nat (length buf) then mag_loop (dp num) e n buf 0 0 0
    else Thrown
  end.

(** mpx_from_mag_bytes :394-431.  [bytes] are taken least significant first. *)
Fixpoint from_loop (bytes : list Z) (cache bits : Z) (ds : list Z) : list Z :=
  match bytes with
  | [] => if 0 <? cache then ds ++ [Z.land cache mp_mask] else ds
  | b :: t =>
    let cache := Z.lor cache (Z.shiftl b bits mod 2 ^ 64) in
    let bits := bits + 8 in
    if digit_bit <=? bits
    then from_loop t (Z.shiftr cache digit_bit) (bits - digit_bit) (ds ++ [Z.land cache mp_mask])
    else from_loop t cache bits ds
  end.
Definition from_mag_bytes (buf : list Z) (e : endian) : mp :=
  clamp (Mp false (from_loop (match e with Little => buf | Big => rev buf end) 0 0 [])).

(** ** Single bits, :473-498.  The index is an int; a negative one is outside the
    model (it reads before the digits). *)
Definition get_bit (a : mp) (index : Z) : Z :=
  match nth_error (dp a) (Z.to_nat (index / digit_bit)) with
  | None => 0
  | Some d => Z.land (Z.shiftr d (index mod digit_bit)) 1
  end.
(** used = limb + 1 over zeroed digits *)
Definition extend_to (l : list Z) (n : nat) : list Z := l ++ repeat 0 (n - length l).
Definition set_bit (a : mp) (index : Z) (value : Z) : mp :=
  let limb := Z.to_nat (index / digit_bit) in
  let l := extend_to (dp a) (S limb) in
  let loc := Z.shiftl 1 (index mod digit_bit) in
  let d := nth limb l 0 in
  clamp (Mp (neg a) (set_at l limb (if value =? 0 then Z.land d (Z.lnot loc) else Z.lor d loc))).

(** ** The serialized form, :433-471 *)
Definition serialize_size (num : mp) : Z := count_bits num / 8 + 1.
(** mpx_serialize into a caller's buffer: the buffer and the returned size. *)
Definition serialize (num : mp) (buf : list Z) : outcome (list Z * Z) :=
  let total := serialize_size num in
  if total <=? Z.of_nat (length buf) then
    bind (store buf (total - 1) 0) (fun buf =>
    bind (to_mag_bytes num buf Little) (fun '(buf, value_buf) =>
    if (total =? value_buf) || (total =? value_buf + 1) then
      let sign := if neg num then 128 else 0 in
      bind (store buf (total - 1) (Z.lor (nth (Z.to_nat (total - 1)) buf 0) sign)) (fun buf =>
      Val (buf, total))
    else Thrown))
  else Thrown.
(** MPInt::Serialize, mp_int.cc:824-829: [fresh] is the new buffer of that size. *)
Definition Serialize (num : mp) (fresh : list Z) : outcome (list Z) :=
  bind (serialize num fresh) (fun '(buf, _) => Val buf).
(** mpx_deserialize :465-471.  buf_len * CHAR_BIT - 1 is passed as an int: buffers
    of 2^28 bytes and more are outside the model. *)
Definition deserialize (buf : list Z) : outcome mp :=
  match buf with
  | [] => Thrown
  | _ =>
    let a := from_mag_bytes buf Little in
    let a := Mp (Z.shiftr (last buf 0) 7 =? 1) (dp a) in
    Val (set_bit a (Z.of_nat (length buf) * 8 - 1) 0)
  end.

(** ** Random numbers, mpx_rand_bits :227-254.  [raw] is the 64-bit words the
    random source delivers: as many as digits are needed. *)
Fixpoint mask_last (l : list Z) (m : Z) : list Z :=
  match l with
  | [] => []
  | [d] => [Z.land d m]
  | d :: t => d :: mask_last t m
  end.
Definition rand_digits (bits : Z) : Z := (bits + digit_bit - 1) / digit_bit.
Definition rand_bits (bits : Z) (raw : list Z) : mp :=
  if bits <=? 0 then mp_zero
  else
    let l := map (fun d => Z.land d mp_mask) raw in
    let remain := bits mod digit_bit in
    clamp (Mp false (if 0 <? remain then mask_last l (Z.shiftl 1 remain - 1) else l)).
(** MPInt::RandomLtN mp_int.cc:777-781: [draws i] is what the source delivers in
    round [i]; the loop has no bound, [fuel] only limits how far we look. *)
Definition value_of_digits (l : list Z) : Z := fold_right (fun d v => d + 2 ^ 60 * v) 0 l.
Definition value (a : mp) : Z :=
  if neg a then - value_of_digits (dp a) else value_of_digits (dp a).
Fixpoint random_lt (fuel : nat) (n : mp) (draws : nat -> list Z) (i : nat) : outcome mp :=
  match fuel with
  | O => Hangs
  | S fuel' =>
    let r := rand_bits (count_bits n) (draws i) in
    if neg r || (value n <=? value r) then random_lt fuel' n draws (S i) else Val r
  end.

(** ** Machine integers, tommath_ext_types.cc:48-93, for a type of [w] bits.
    MPX_SET_UNSIGNED: types of at most 60 bits take one digit (the loop breaks). *)
Fixpoint set_loop (fuel : nat) (w b : Z) : outcome (list Z) :=
  if b =? 0 then Val []
  else match fuel with
       | O => Hangs
       | S fuel' =>
         let d := Z.land b mp_mask in
         if w <=? digit_bit then Val [d]
         else bind (set_loop fuel' w (Z.shiftr b digit_bit)) (fun l => Val (d :: l))
       end.
Definition set_unsigned (w b : Z) : outcome mp :=
  bind (set_loop 3 w b) (fun l => Val (Mp false l)).
(** MPX_SET_SIGNED: -(utype)b *)
Definition set_signed (w b : Z) : outcome mp :=
  bind (set_unsigned w ((if b <? 0 then - b else b) mod 2 ^ w)) (fun a =>
  Val (if b <? 0 then Mp true (dp a) else a)).
(** MPX_GET_MAG: the highest of the digits that matter first. *)
Fixpoint get_loop (w : Z) (ds : list Z) (res : Z) : Z :=
  match ds with
  | [] => res
  | d :: ds' =>
    let res := Z.lor (if w <=? digit_bit then res else Z.shiftl res digit_bit mod 2 ^ w) (d mod 2 ^ w) in
    if w <=? digit_bit then res else get_loop w ds' res
  end.
Definition get_mag (w : Z) (a : mp) : Z :=
  get_loop w (rev (firstn (Z.to_nat ((w + digit_bit - 1) / digit_bit)) (dp a))) 0.
(** MPX_GET_SIGNED: the conversion to a signed type is modulo 2^w (gcc, clang);
    the negation of the least value of a 32 bit or wider type is undefined
    behaviour in C, here it wraps. *)
Definition to_signed (w x : Z) : Z :=
  let r := x mod 2 ^ w in if r <? 2 ^ (w - 1) then r else r - 2 ^ w.
Definition get_signed (w : Z) (a : mp) : Z :=
  let res := to_signed w (get_mag w a) in
  if neg a then to_signed w (- res) else res.
