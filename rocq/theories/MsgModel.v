From Coq Require Import ZArith Bool List Lia.
From Verif Require Import LinCodeModel.
Import ListNotations.
Open Scope Z_scope.

(** Model of the serializer: yacl/utils/serializer.h, yacl/utils/serializer_adapter.h,
    yacl/io/msgpack/buffer.h, yacl/io/msgpack/spec_traits.cc, and the halves of 128 bit
    integers of yacl/base/int128.{h,cc}.

    The msgpack-c library is outside the repository: its packer, unpacker and standard
    converters are transcribed from the msgpack specification (the layouts the comments
    of spec_traits.cc quote).  Bytes are numbers 0..255.  Maps, floats and extension
    types are left out: a message that contains one is not parsed here. *)

(** ** Objects and the packer *)

Inductive obj := ONil | OBool (b : bool) | OInt (z : Z) | OBin (l : list Z) | OStr (l : list Z) | OArr (l : list obj).

(** The k byte big endian form. *)
Fixpoint be (k : nat) (x : Z) : list Z :=
  match k with O => [] | S k' => (x / 256 ^ Z.of_nat k') mod 256 :: be k' x end.
Definition unbe (l : list Z) : Z := fold_left (fun acc b => acc * 256 + b) l 0.
(** The signed number with the k byte two's complement form x. *)
Definition sgn (k : nat) (x : Z) : Z := if x <? 2 ^ (8 * Z.of_nat k - 1) then x else x - 2 ^ (8 * Z.of_nat k).

(** packer::pack of an integer of any width: the shortest form. *)
Definition int_bytes (z : Z) : list Z :=
  if z <? - 2 ^ 31 then 211 :: be 8 z
  else if z <? - 2 ^ 15 then 210 :: be 4 z
  else if z <? - 2 ^ 7 then 209 :: be 2 z
  else if z <? - 2 ^ 5 then 208 :: be 1 z
  else if z <? 0 then [z + 256]
  else if z <? 2 ^ 7 then [z]
  else if z <? 2 ^ 8 then 204 :: be 1 z
  else if z <? 2 ^ 16 then 205 :: be 2 z
  else if z <? 2 ^ 32 then 206 :: be 4 z
  else 207 :: be 8 z.
(** pack_bin, pack_str, pack_array of a 32 bit count. *)
Definition bin_head (n : Z) : list Z :=
  if n <? 256 then 196 :: be 1 n else if n <? 65536 then 197 :: be 2 n else 198 :: be 4 n.
Definition str_head (n : Z) : list Z :=
  if n <? 32 then [160 + n] else if n <? 256 then 217 :: be 1 n
  else if n <? 65536 then 218 :: be 2 n else 219 :: be 4 n.
Definition arr_head (n : Z) : list Z :=
  if n <? 16 then [144 + n] else if n <? 65536 then 220 :: be 2 n else 221 :: be 4 n.

(** HeadSizeOfStr and HeadSizeOfArray, spec_traits.cc:19-76. *)
Definition head_size_of_str (n : Z) : Z :=
  if n <? 32 then 1 else if n <? 256 then 2 else if n <? 65536 then 3 else 5.
Definition head_size_of_array (n : Z) : Z :=
  if n <? 16 then 1 else if n <? 65536 then 3 else 5.

Definition len {A} (l : list A) : Z := Z.of_nat (length l).

(** The calls of Stream::write that packing an object makes, in order; None is the
    exception of checked_get_container_size for a container of 2^32 elements or more
    (serializer_adapter.h:79, 108 for buffers). *)
Fixpoint writes (o : obj) : list (option (list Z)) :=
  match o with
  | ONil => [Some [192]]
  | OBool b => [Some [if b then 195 else 194]]
  | OInt z => [Some (int_bytes z)]
  | OBin l => if len l <? 2 ^ 32 then [Some (bin_head (len l)); Some l] else [None]
  | OStr l => if len l <? 2 ^ 32 then [Some (str_head (len l)); Some l] else [None]
  | OArr l => if len l <? 2 ^ 32 then Some (arr_head (len l)) :: flat_map writes l else [None]
  end.

(** ** The streams, buffer.h *)

(** StreamBuffer, buffer.h:21-49, on an empty buffer: what write calls leave in it. *)
Fixpoint stream_write (ws : list (option (list Z))) (buf : list Z) : outcome (list Z) :=
  match ws with
  | [] => Val buf
  | None :: _ => Thrown
  | Some c :: ws' => stream_write ws' (buf ++ c)
  end.
(** ShadowBuffer, buffer.h:87-95: it only counts. *)
Fixpoint shadow_write (ws : list (option (list Z))) (size : Z) : outcome Z :=
  match ws with
  | [] => Val size
  | None :: _ => Thrown
  | Some c :: ws' => shadow_write ws' (size + len c)
  end.
(** FixedBuffer, buffer.h:51-63: the caller's buffer afterwards, and the final position. *)
Fixpoint fixed_write (ws : list (option (list Z))) (buf : list Z) (pos : nat) : list Z * outcome nat :=
  match ws with
  | [] => (buf, Val pos)
  | None :: _ => (buf, Thrown)
  | Some c :: ws' =>
      if Nat.leb (pos + length c) (length buf)
      then fixed_write ws' (firstn pos buf ++ c ++ skipn (pos + length c) buf) (pos + length c)
      else (buf, Thrown)
  end.

(** ** The unpacker *)

Definition take (n : Z) (l : list Z) : option (list Z * list Z) :=
  if n <=? len l then Some (firstn (Z.to_nat n) l, skipn (Z.to_nat n) l) else None.
Definition take_be (k : nat) (l : list Z) : option (Z * list Z) :=
  match take (Z.of_nat k) l with Some (b, r) => Some (unbe b, r) | None => None end.
Fixpoint many (p : list Z -> option (obj * list Z)) (n : nat) (l : list Z) : option (list obj * list Z) :=
  match n with
  | O => Some ([], l)
  | S n' => match p l with
            | Some (o, r) => match many p n' r with Some (os, r') => Some (o :: os, r') | None => None end
            | None => None
            end
  end.

Definition p_int (k : nat) (l : list Z) : option (obj * list Z) :=
  match take_be k l with Some (n, r) => Some (OInt n, r) | None => None end.
Definition p_sint (k : nat) (l : list Z) : option (obj * list Z) :=
  match take_be k l with Some (n, r) => Some (OInt (sgn k n), r) | None => None end.
Definition p_body (c : list Z -> obj) (n : Z) (l : list Z) : option (obj * list Z) :=
  match take n l with Some (b, r) => Some (c b, r) | None => None end.
Definition p_sized (c : list Z -> obj) (k : nat) (l : list Z) : option (obj * list Z) :=
  match take_be k l with Some (n, r) => p_body c n r | None => None end.
Definition p_arr (p : list Z -> option (obj * list Z)) (n : Z) (l : list Z) : option (obj * list Z) :=
  match many p (Z.to_nat n) l with Some (os, r) => Some (OArr os, r) | None => None end.
Definition p_arr_sized (p : list Z -> option (obj * list Z)) (k : nat) (l : list Z) : option (obj * list Z) :=
  match take_be k l with Some (n, r) => p_arr p n r | None => None end.

(** One object at the front of l, and what follows it; None is the exception for a
    message that ends too early or is not msgpack.  fuel bounds the nesting. *)
Fixpoint parse (fuel : nat) (l : list Z) : option (obj * list Z) :=
  match fuel with
  | O => None
  | S f =>
      match l with
      | [] => None
      | b :: r =>
          if b <? 128 then Some (OInt b, r)
          else if b <? 144 then None
          else if b <? 160 then p_arr (parse f) (b - 144) r
          else if b <? 192 then p_body OStr (b - 160) r
          else if b =? 192 then Some (ONil, r)
          else if b =? 194 then Some (OBool false, r)
          else if b =? 195 then Some (OBool true, r)
          else if b =? 196 then p_sized OBin 1 r
          else if b =? 197 then p_sized OBin 2 r
          else if b =? 198 then p_sized OBin 4 r
          else if b =? 204 then p_int 1 r
          else if b =? 205 then p_int 2 r
          else if b =? 206 then p_int 4 r
          else if b =? 207 then p_int 8 r
          else if b =? 208 then p_sint 1 r
          else if b =? 209 then p_sint 2 r
          else if b =? 210 then p_sint 4 r
          else if b =? 211 then p_sint 8 r
          else if b =? 217 then p_sized OStr 1 r
          else if b =? 218 then p_sized OStr 2 r
          else if b =? 219 then p_sized OStr 4 r
          else if b =? 220 then p_arr_sized (parse f) 2 r
          else if b =? 221 then p_arr_sized (parse f) 4 r
          else if b <? 224 then None
          else Some (OInt (b - 256), r)
      end
  end.
(** msgpack::unpack at an offset: nesting is bounded by the number of bytes. *)
Definition unpack (l : list Z) : option (obj * list Z) := parse (S (length l)) l.

(** ** 128 bit integers, int128.h:37-58, int128.cc:36-44 *)

(** absl's High64 (signed for int128) and Low64. *)
Definition decompose (v : Z) : Z * Z := (v / 2 ^ 64, v mod 2 ^ 64).
Definition bit_cast_signed (v : Z) : Z := if Z.testbit v 127 then v - 2 ^ 128 else v.
Definition make_int128 (hi lo : Z) : Z :=
  Z.lor (bit_cast_signed (Z.shiftl (hi mod 2 ^ 128) 64 mod 2 ^ 128)) lo.
Definition make_uint128 (hi lo : Z) : Z := Z.lor (Z.shiftl hi 64 mod 2 ^ 128) lo.

(** ** C++ types and their converters *)

(** bool, (u)intN_t, (u)int128_t, yacl::Buffer and ByteContainerView, std::string,
    std::vector<uint8_t> (which msgpack-c packs as binary), other vectors, pairs. *)
Inductive ty := TBool | TU (bits : Z) | TI (bits : Z) | TU128 | TI128 | TBuffer | TString | TByteVec
              | TVec (t : ty) | TPair (a b : ty).
Fixpoint den (t : ty) : Type :=
  match t with
  | TBool => bool
  | TU _ | TI _ | TU128 | TI128 => Z
  | TBuffer | TString | TByteVec => list Z
  | TVec t => list (den t)
  | TPair a b => (den a * den b)%type
  end.

(** What pack makes of a value; 128 bit integers are pairs of halves
    (serializer_adapter.h:28-37, 51-60), buffers are binary (:74-84, :103-113). *)
Fixpoint to_obj (t : ty) : den t -> obj :=
  match t return den t -> obj with
  | TBool => fun b => OBool b
  | TU _ => fun z => OInt z
  | TI _ => fun z => OInt z
  | TU128 => fun z => OArr [OInt (fst (decompose z)); OInt (snd (decompose z))]
  | TI128 => fun z => OArr [OInt (fst (decompose z)); OInt (snd (decompose z))]
  | TBuffer => fun l => OBin l
  | TString => fun l => OStr l
  | TByteVec => fun l => OBin l
  | TVec t => fun l => OArr (map (to_obj t) l)
  | TPair a b => fun p => OArr [to_obj a (fst p); to_obj b (snd p)]
  end.

(** convert_integer: the value must fit the target type. *)
Definition conv_u (bits : Z) (o : obj) : option Z :=
  match o with OInt z => if (0 <=? z) && (z <? 2 ^ bits) then Some z else None | _ => None end.
Definition conv_i (bits : Z) (o : obj) : option Z :=
  match o with OInt z => if (- 2 ^ (bits - 1) <=? z) && (z <? 2 ^ (bits - 1)) then Some z else None | _ => None end.
Fixpoint all_some {A} (l : list (option A)) : option (list A) :=
  match l with
  | [] => Some []
  | Some a :: l' => match all_some l' with Some r => Some (a :: r) | None => None end
  | None :: _ => None
  end.
(** convert; None is type_error or a failed YACL_ENFORCE
    (serializer_adapter.h:39-47, 62-70, 88-98, 115-125).  A pair wants an array of
    exactly two; strings and byte vectors accept both STR and BIN. *)
Fixpoint convert (t : ty) : obj -> option (den t) :=
  match t return obj -> option (den t) with
  | TBool => fun o => match o with OBool b => Some b | _ => None end
  | TU k => conv_u k
  | TI k => conv_i k
  | TU128 => fun o =>
      match o with
      | OArr [a; b] => match conv_u 64 a, conv_u 64 b with Some h, Some l => Some (make_uint128 h l) | _, _ => None end
      | _ => None
      end
  | TI128 => fun o =>
      match o with
      | OArr [a; b] => match conv_i 64 a, conv_u 64 b with Some h, Some l => Some (make_int128 h l) | _, _ => None end
      | _ => None
      end
  | TBuffer => fun o => match o with OBin l => Some l | _ => None end
  | TString => fun o => match o with OBin l => Some l | OStr l => Some l | _ => None end
  | TByteVec => fun o => match o with OBin l => Some l | OStr l => Some l | _ => None end
  | TVec t => fun o => match o with OArr l => all_some (map (convert t) l) | _ => None end
  | TPair a b => fun o =>
      match o with
      | OArr [x; y] => match convert a x, convert b y with Some u, Some v => Some (u, v) | _, _ => None end
      | _ => None
      end
  end.

(** ** The API, serializer.h *)

(** Variables of any types. *)
Definition var := {t : ty & den t}.
Definition var_writes (v : var) : list (option (list Z)) := writes (to_obj (projT1 v) (projT2 v)).

(** SerializeVars, serializer.h:70-76. *)
Definition serialize_vars (vs : list var) : outcome (list Z) := stream_write (flat_map var_writes vs) [].
(** SerializeVarsTo, serializer.h:80-91: with a null buffer, and with a caller's buffer. *)
Definition serialize_size (vs : list var) : outcome Z := shadow_write (flat_map var_writes vs) 0.
Definition serialize_vars_to (buf : list Z) (vs : list var) : list Z * outcome nat :=
  fixed_write (flat_map var_writes vs) buf 0.
(** DeserializeVars for several types, serializer.h:100-110, and DeserializeVarsTo,
    :134-141: the variables and the input that follows. *)
Fixpoint deserialize_from (ts : list ty) (l : list Z) : option (list var * list Z) :=
  match ts with
  | [] => Some ([], l)
  | t :: ts' =>
      match unpack l with
      | Some (o, r) =>
          match convert t o with
          | Some v => match deserialize_from ts' r with
                      | Some (vs, r') => Some (existT den t v :: vs, r')
                      | None => None
                      end
          | None => None
          end
      | None => None
      end
  end.
Definition deserialize_vars (ts : list ty) (l : list Z) : option (list var) :=
  match deserialize_from ts l with Some (vs, _) => Some vs | None => None end.
Definition deserialize_vars_to (ts : list ty) (l : list Z) : option (list var * Z) :=
  match deserialize_from ts l with Some (vs, r) => Some (vs, len l - len r) | None => None end.
(** DeserializeVars for one type, serializer.h:121-127: bytes after the object are ignored. *)
Definition deserialize_var (t : ty) (l : list Z) : option (den t) :=
  match unpack l with Some (o, _) => convert t o | None => None end.
