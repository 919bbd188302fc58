(** Model of the hash-to-curve functions: yacl/crypto/ecc/hash_to_curve/{hash_to_curve_util,p256,p384,p521,curve25519}.cc.

    MPInt values are integers; MulMod, AddMod, SubMod, PowMod and operator%= reduce into [0, p)
    (mp_mulmod, ..., mp_mod); InvertMod is ZpLib.invert_mod on any representative and throws unless
    the gcd is one.  Bytes are integers in [0, 256).  The hash is an argument: [H] maps the bytes
    given to Update since the last Reset to the digest, [b] is its DigestSize.
    ToMagBytes followed by the padding is [pad_bytes] (C64 covers ToMagBytes and FromMagBytes).
    Left out: the Ristretto functions, which call libsodium. *)
From Coq Require Import ZArith List Bool.
From Verif Require Import LinCodeModel ZpLib SafePrimeModel ToyEcModel ToyXModel.
Import ListNotations.
Open Scope Z_scope.

(** HashToCurveCtx (hash_to_curve_util.h:27-33); the auxiliary map as fields, "n" may be missing. *)
Record hctx := mkH { h_key : nat; h_s : nat; h_p : Z; h_a : Z; h_b : Z; h_z : Z; h_c1 : Z; h_c2 : Z; h_i : Z; h_c4 : Z; h_n : option Z }.

(** I2OSP (hash_to_curve_util.cc:186-199): the low [xlen] bytes of a little-endian size_t, reversed;
    more than eight bytes would be read behind the variable. *)
Definition low_byte (x : Z) (k : nat) : Z := (x / 256 ^ Z.of_nat k) mod 256.
Definition i2osp (x : Z) (xlen : nat) : outcome (list Z) :=
  if negb (x <? 256 ^ Z.of_nat xlen) then Thrown else
  if (8 <? xlen)%nat then OutOfBounds else
  let ret := map (low_byte x) (seq 0 xlen) in
  Val (if (1 <? xlen)%nat then rev ret else ret).

Definition xor_bytes (a b : list Z) : list Z := map (fun '(x, y) => Z.lxor x y) (combine a b).
(** The loop of ExpandMessageXmd (247-258): [n] rounds from counter [i]; z1[0] is a byte. *)
Fixpoint xmd_loop (H : list Z -> list Z) (b0 dstp : list Z) (n : nat) (i : Z) (bi ret : list Z) : list Z :=
  match n with
  | O => ret
  | S n => let bi := H (xor_bytes bi b0 ++ [i mod 256] ++ dstp) in xmd_loop H b0 dstp n (i + 1) bi (ret ++ bi)
  end.
(** ret.resize(n). *)
Definition resize (n : nat) (l : list Z) : list Z := firstn n l ++ repeat 0 (n - length l).
(** ExpandMessageXmd (201-262); ceil of a double quotient is the integer ceiling for such sizes. *)
Definition expand_xmd (H : list Z -> list Z) (b : nat) (c : hctx) (msg dst : list Z) (len : nat) : outcome (list Z) :=
  let ell := ((len + b - 1) / b)%nat in
  if negb (ell <=? 255)%nat then Thrown else
  if negb (Z.of_nat len <=? 65535) then Thrown else
  if negb (16 <=? length dst)%nat then Thrown else
  if negb (length dst <=? 255)%nat then Thrown else
  bind (i2osp (Z.of_nat (length dst)) 1) (fun dlen =>
  let dstp := dst ++ dlen in
  bind (i2osp (Z.of_nat len) 2) (fun lib =>
  let b0 := H (repeat 0 (h_s c) ++ msg ++ lib ++ [0] ++ dstp) in
  let b1 := H (b0 ++ [1] ++ dstp) in
  Val (resize len (xmd_loop H b0 dstp (ell - 1) 2 b1 b1)))).

(** MPIntToBytesWithPad (168-178): the magnitude, big-endian, on the right of zero bytes. *)
Definition be_bytes (n : nat) (v : Z) : list Z := rev (map (low_byte v) (seq 0 n)).
Definition pad_bytes (key : nat) (v : Z) : outcome (list Z) :=
  if Z.abs v <? 256 ^ Z.of_nat key then Val (be_bytes key (Z.abs v)) else Thrown.
(** DeserializeMPInt (158-166). *)
Definition deserialize (key : nat) (l : list Z) : outcome Z := if (length l =? key)%nat then Val (be_value l) else Thrown.

Fixpoint traverse {A B} (f : A -> outcome B) (l : list A) : outcome (list B) :=
  match l with [] => Val [] | a :: l => bind (f a) (fun b => bind (traverse f l) (fun r => Val (b :: r))) end.
(** HashToField (264-290). *)
Definition hash_to_field H b (c : hctx) (msg : list Z) (count l : nat) (dst : list Z) : outcome (list (list Z)) :=
  bind (expand_xmd H b c msg dst (count * l)) (fun uniform =>
  traverse (fun i => pad_bytes (h_key c) (be_value (firstn l (skipn (l * i) uniform)) mod h_p c)) (seq 0 count)).
(** HashToScalar (292-304): aux.at("n") throws std::out_of_range. *)
Definition hash_to_scalar H b (c : hctx) (msg : list Z) (l : nat) (dst : list Z) : outcome Z :=
  bind (expand_xmd H b c msg dst l) (fun uniform =>
  match h_n c with Some n => Val (be_value uniform mod n) | None => Thrown end).

(** IsSquare (306-318). *)
Definition is_square_c (v m : Z) : outcome bool :=
  bind (invert 2 m) (fun i =>
  let t4 := pow_mod v (((m - 1) mod m * i) mod m) m in
  Val ((t4 =? 1) || (t4 =? 0))).
(** Sgn0 (320-331): the remainder of a truncating division. *)
Definition sgn0 (v : Z) : bool := negb (Z.rem v 2 =? 0).
(** SqrtRatio (368-390) with Sqrt3m4 (334-343). *)
Definition sqrt_ratio (c : hctx) (u v : Z) : outcome (bool * Z) :=
  bind (invert v (h_p c)) (fun i =>
  let r := (i * u) mod h_p c in
  bind (is_square_c r (h_p c)) (fun s =>
  Val (s, pow_mod (if s then r else (r * h_z c) mod h_p c) (h_c1 c) (h_p c)))).
(** MapToCurveSSWU (392-474). *)
Definition map_sswu (c : hctx) (ubuf : list Z) : outcome (Z * Z) :=
  let p := h_p c in
  if (length ubuf =? 0)%nat then Thrown else
  let u := be_value ubuf in
  let tv1 := (u * u) mod p in
  let tv1 := (tv1 * h_z c) mod p in
  let tv2 := (tv1 * tv1) mod p in
  let tv2 := (tv2 + tv1) mod p in
  let tv3 := (tv2 + 1) mod p in
  let tv3 := (tv3 * h_b c) mod p in
  let tv4 := if negb (tv2 =? 0) then (p - tv2) mod p else h_z c in
  let tv4 := (tv4 * h_a c) mod p in
  let tv2 := (tv3 * tv3) mod p in
  let tv6 := (tv4 * tv4) mod p in
  let tv5 := (h_a c * tv6) mod p in
  let tv2 := (tv2 + tv5) mod p in
  let tv2 := (tv2 * tv3) mod p in
  let tv6 := (tv6 * tv4) mod p in
  let tv5 := (h_b c * tv6) mod p in
  let tv2 := (tv2 + tv5) mod p in
  let x := (tv1 * tv3) mod p in
  bind (sqrt_ratio c tv2 tv6) (fun '(sq, y1) =>
  let y := (tv1 * u) mod p in
  let y := (y * y1) mod p in
  let x := if sq then tv3 else x in
  let y := if sq then y1 else y in
  let y := if negb (Bool.eqb (sgn0 u) (sgn0 y)) then (p - y) mod p else y in
  bind (invert tv4 p) (fun r => Val ((x * r) mod p, y))).

(** AffinePointAddNIST (481-551). *)
Definition nist_add (P Q : point) (p : Z) : outcome point :=
  let '(x1, y1) := P in let '(x2, y2) := Q in
  if (x1 =? 0) && (y1 =? 0) then Val Q else
  if (x2 =? 0) && (y2 =? 0) then Val P else
  let fin lambda :=
    let x3 := (lambda * lambda - x1 - x2) mod p in
    let x3 := if x3 <? 0 then x3 + p else x3 in
    let y3 := (lambda * (x1 - x3) - y1) mod p in
    let y3 := if y3 <? 0 then y3 + p else y3 in
    Val (x3, y3) in
  if (x1 =? x2) && (y1 =? y2)
  then bind (invert (y1 * 2) p) (fun i => fin (((x1 * x1 * 3 - 3) * i) mod p))
  else if x2 - x1 =? 0 then Val (0, 0)
  else bind (invert (x2 - x1) p) (fun i => fin (((y2 - y1) * i) mod p)).

(** EncodeToCurveP256/P384/P521 (p256.cc:30-46, p384.cc:34-53, p521.cc:28-45): [l] is 48, 72 or 98. *)
Definition dst_ok (dst : list Z) : bool := (16 <=? length dst)%nat && (length dst <=? 255)%nat.
Definition nist_encode H b (c : hctx) (l : nat) (msg dst : list Z) : outcome point :=
  if negb (dst_ok dst) then Thrown else
  bind (hash_to_field H b c msg 1 l dst) (fun u => map_sswu c (nth 0 u [])).
(** HashToCurveP256/P384/P521 (p256.cc:72-88, p384.cc:56-72, p521.cc:48-64). *)
Definition nist_hash H b (c : hctx) (l : nat) (msg dst : list Z) : outcome point :=
  if negb (dst_ok dst) then Thrown else
  bind (hash_to_field H b c msg 2 l dst) (fun u =>
  bind (map_sswu c (nth 0 u [])) (fun Q =>
  bind (map_sswu c (nth 1 u [])) (fun R => nist_add Q R (h_p c)))).
(** HashToScalarP256/P384/P521 (p256.cc:93-99, p384.cc:74-80, p521.cc:66-72). *)
Definition nist_scalar H b (c : hctx) (l : nat) (msg dst : list Z) : outcome Z :=
  if negb (dst_ok dst) then Thrown else hash_to_scalar H b c msg l dst.

(** MapToCurveG2 (curve25519.cc:30-148), before the coordinates are written out. *)
Definition map_g2_val (c : hctx) (u : Z) : outcome (Z * Z) :=
  let p := h_p c in
  let tv1 := (u * u) mod p in
  let tv1 := (tv1 * 2) mod p in
  let xd := (tv1 + 1) mod p in
  let x1n := - h_a c in
  let tv2 := (xd * xd) mod p in
  let gxd := (tv2 * xd) mod p in
  let gx1 := (h_a c * tv1) mod p in
  let gx1 := (gx1 * x1n) mod p in
  let gx1 := (gx1 + tv2) mod p in
  let gx1 := (gx1 * x1n) mod p in
  let tv3 := (gxd * gxd) mod p in
  let tv2 := (tv3 * tv3) mod p in
  let tv3 := (tv3 * gxd) mod p in
  let tv3 := (tv3 * gx1) mod p in
  let tv2 := (tv2 * tv3) mod p in
  let y11 := pow_mod tv2 (h_c4 c) p in
  let y11 := (y11 * tv3) mod p in
  let y12 := (y11 * h_i c) mod p in
  let tv2 := (y11 * y11) mod p in
  let tv2 := (tv2 * gxd) mod p in
  let e1 := tv2 =? gx1 in
  let y1 := if e1 then y11 else y12 in
  let x2n := (x1n * tv1) mod p in
  let y21 := (y11 * u) mod p in
  let y21 := (y21 * h_c2 c) mod p in
  let y22 := (y21 * h_i c) mod p in
  let gx2 := (gx1 * tv1) mod p in
  let tv2 := (y21 * y21) mod p in
  let tv2 := (tv2 * gxd) mod p in
  let e2 := tv2 =? gx2 in
  let y2 := if e2 then y21 else y22 in
  let tv2 := (y1 * y1) mod p in
  let tv2 := (tv2 * gxd) mod p in
  let e3 := tv2 =? gx1 in
  let xn := if e3 then x1n else x2n in
  let y := if e3 then y1 else y2 in
  let e4 := sgn0 y in
  let y := if xorb e3 e4 then - y else y in
  let y := if y <? 0 then (y + p) mod p else y in
  bind (invert xd p) (fun xd1 => Val ((xn * xd1) mod p, y)).
Definition write_point (c : hctx) (P : Z * Z) : outcome (list Z * list Z) :=
  bind (pad_bytes (h_key c) (fst P)) (fun x => bind (pad_bytes (h_key c) (snd P)) (fun y => Val (x, y))).
Definition map_g2 (c : hctx) (ubuf : list Z) : outcome (list Z * list Z) :=
  if (length ubuf =? 0)%nat then Thrown else bind (map_g2_val c (be_value ubuf)) (write_point c).
(** memcmp of two buffers of key_size bytes. *)
Fixpoint same_bytes (a b : list Z) : bool :=
  match a, b with [], _ => true | x :: a, y :: b => (x =? y) && same_bytes a b | _ :: _, [] => false end.
(** PointAdd (159-215). *)
Definition mont_add (c : hctx) (P Q : list Z * list Z) : outcome (list Z * list Z) :=
  let p := h_p c in
  if same_bytes (fst P) (fst Q) && same_bytes (snd P) (snd Q) then Thrown else
  let px := be_value (fst P) in let py := be_value (snd P) in
  let qx := be_value (fst Q) in let qy := be_value (snd Q) in
  let s1 := (qx - px) mod p in
  let s2 := (qy - py) mod p in
  bind (invert s1 p) (fun d =>
  let l := (s2 * d) mod p in
  let l2 := (l * l) mod p in
  let t1 := (l2 - h_a c) mod p in
  let t2 := (t1 - px) mod p in
  let tx := (t2 - qx) mod p in
  let tx := if tx <? 0 then (tx + p) mod p else tx in
  let l3 := (l2 * l) mod p in
  let t1 := (px * 2) mod p in
  let t2 := (t1 + qx) mod p in
  let t1 := (t2 + h_a c) mod p in
  let t2 := (t1 * l) mod p in
  let t1 := (t2 - l3) mod p in
  let ty := (t1 - py) mod p in
  let ty := if ty <? 0 then (ty + p) mod p else ty in
  write_point c (tx, ty)).
(** PointDbl (218-260). *)
Definition mont_dbl (c : hctx) (P : list Z * list Z) : outcome (list Z * list Z) :=
  let p := h_p c in
  let px := be_value (fst P) in let py := be_value (snd P) in
  let px2 := (px * px) mod p in
  let px3 := (px2 * 3) mod p in
  let ax := (px * h_a c) mod p in
  let ax2 := (ax * 2) mod p in
  let px2 := (px3 + ax2) mod p in
  let ax := (px2 + 1) mod p in
  let y2 := (py * 2) mod p in
  bind (invert y2 p) (fun d =>
  let l := (ax * d) mod p in
  let l2 := pow_mod l 2 p in
  let l3 := pow_mod l 3 p in
  let xt1 := (l2 - h_a c) mod p in
  let x2 := (px * 2) mod p in
  let tx := (xt1 - x2) mod p in
  let x3 := (px * 3) mod p in
  let xt1 := (x3 + h_a c) mod p in
  let d := (xt1 * l) mod p in
  let xt1 := (d - l3) mod p in
  let ty := (xt1 - py) mod p in
  write_point c (tx, ty)).
(** PointClearCofactor (262-284). *)
Definition clear_cofactor (c : hctx) (P : list Z * list Z) : outcome (list Z * list Z) :=
  bind (mont_dbl c P) (fun P => bind (mont_dbl c P) (fun P => mont_dbl c P)).
Definition read_point (c : hctx) (P : list Z * list Z) : outcome point :=
  bind (deserialize (h_key c) (fst P)) (fun x => bind (deserialize (h_key c) (snd P)) (fun y => Val (x, y))).
(** HashToCurveCurve25519 (286-315) and EncodeToCurveCurve25519 (317-336). *)
Definition mont_hash H b (c : hctx) (msg dst : list Z) : outcome point :=
  if negb (dst_ok dst) then Thrown else
  bind (hash_to_field H b c msg 2 48 dst) (fun u =>
  bind (map_g2 c (nth 0 u [])) (fun q0 =>
  bind (map_g2 c (nth 1 u [])) (fun q1 =>
  bind (mont_add c q0 q1) (fun P =>
  bind (clear_cofactor c P) (read_point c))))).
Definition mont_encode H b (c : hctx) (msg dst : list Z) : outcome point :=
  if negb (dst_ok dst) then Thrown else
  bind (hash_to_field H b c msg 1 48 dst) (fun u =>
  bind (map_g2 c (nth 0 u [])) (fun q =>
  bind (clear_cofactor c q) (read_point c))).

(** kPredefinedCurveCtxs (hash_to_curve_util.cc:28-151). *)
Definition ctx_p256 : hctx := mkH 32 64
  0xffffffff00000001000000000000000000000000ffffffffffffffffffffffff
  0xffffffff00000001000000000000000000000000fffffffffffffffffffffffc
  0x5ac635d8aa3a93e7b3ebbd55769886bc651d06b0cc53b0f63bce3c3e27d2604b
  0xffffffff00000001000000000000000000000000fffffffffffffffffffffff5
  0x3fffffffc0000000400000000000000000000000400000000000000000000000 0 0 0
  (Some 0xffffffff00000000ffffffffffffffffbce6faada7179e84f3b9cac2fc632551).
Definition ctx_p384 : hctx := mkH 48 128
  0xfffffffffffffffffffffffffffffffffffffffffffffffffffffffffffffffeffffffff0000000000000000ffffffff
  0xfffffffffffffffffffffffffffffffffffffffffffffffffffffffffffffffeffffffff0000000000000000fffffffc
  0xb3312fa7e23ee7e4988e056be3f82d19181d9c6efe8141120314088f5013875ac656398d8a2ed19d2a85c8edd3ec2aef
  0xfffffffffffffffffffffffffffffffffffffffffffffffffffffffffffffffeffffffff0000000000000000fffffff3
  0x3fffffffffffffffffffffffffffffffffffffffffffffffffffffffffffffffbfffffffc00000000000000040000000 0 0 0 None.
Definition ctx_p521 : hctx := mkH 66 128
  0x01ffffffffffffffffffffffffffffffffffffffffffffffffffffffffffffffffffffffffffffffffffffffffffffffffffffffffffffffffffffffffffffffffff
  0x01fffffffffffffffffffffffffffffffffffffffffffffffffffffffffffffffffffffffffffffffffffffffffffffffffffffffffffffffffffffffffffffffffc
  0x0051953eb9618e1c9a1f929a21a0b68540eea2da725b99b315f3b8b489918ef109e156193951ec7e937b1652c0bd3bb1bf073573df883d2c34f1ef451fd46b503f00
  0x01fffffffffffffffffffffffffffffffffffffffffffffffffffffffffffffffffffffffffffffffffffffffffffffffffffffffffffffffffffffffffffffffffb
  0x008000000000000000000000000000000000000000000000000000000000000000000000000000000000000000000000000000000000000000000000000000000000 0 0 0 None.
Definition ctx_25519 : hctx := mkH 32 128
  0x7fffffffffffffffffffffffffffffffffffffffffffffffffffffffffffffed 0x76d06 0 0 0
  0x2b8324804fc1df0b2b4d00993dfbd7a72f431806ad2fe478c4ee1b274a0ea0b1
  0x547cdb7fb03e20f4d4b2ff66c2042858d0bce7f952d01b873b11e4d8b5f15f3d
  0xffffffffffffffffffffffffffffffffffffffffffffffffffffffffffffffd None.
