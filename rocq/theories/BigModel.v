(** * The three big integer back ends
      (/repo/yacl/math/bigint/bigint.cc, openssl/bignum.{h,cc}, gmp/gmp_int.{h,cc},
       mpint/mp_int.cc)

    A number is the integer it holds; where a back end goes through bytes (the
    serialized form, ToBytes, ToMagBytes, OpenSSL's bitwise operators) so does the
    model, every byte a Z in [0, 256).  The libraries themselves (libtommath, OpenSSL,
    GMP) are outside the model and taken by their documentation, restated next to each
    definition.  YACL_ENFORCE, OSSL_RET_1, OSSL_RET_NOT_NULL and MPINT_ENFORCE_OK throw:
    outcome Thrown.  OutOfBounds stands for undefined behaviour and for GMP's abort on
    a division by zero.  Memory is unlimited.  Digits and bytes of MPInt are in
    MpxModel, its division operators in MpDivModel.  Not modelled: ToString,
    ToHexString, SetFloatingPoint, IsPrime, the random generators. *)
From Coq Require Import ZArith List Bool.
From Verif Require Import LinCodeModel MpxModel MpxProof MpDivModel ZpLib.
Import ListNotations.
Open Scope Z_scope.

Inductive backend : Set := Tom | Ossl | Gmp.

(** ** Narrowing conversions *)
(** The implicit conversion of a size_t to int *)
Definition to_int (k : Z) : Z := (k + 2 ^ 31) mod 2 ^ 32 - 2 ^ 31.
Definition int_max : Z := 2 ^ 31 - 1.

(** ** Quotient and remainder *)
(** BigNum operator/ and /=, bignum.cc:128-137 and :585-596.  BN_div truncates the
    quotient and gives the remainder the dividend's sign; a zero is never negative. *)
Definition ossl_div (a b : Z) : outcome Z :=
  if b =? 0 then Thrown
  else let q := Z.quot a b in
       let r := Z.rem a b in
       Val (if (q <? 0) && negb (r =? 0) then q - 1 else q).
(** BigNum operator%, bignum.cc:598-612.  BN_mod is the remainder of BN_div; BN_nnmod
    adds the magnitude of the modulus to it when it is negative. *)
Definition bn_nnmod (a m : Z) : outcome Z :=
  if m =? 0 then Thrown
  else let r := Z.rem a m in Val (if r <? 0 then r + Z.abs m else r).
Definition ossl_mod (a b : Z) : outcome Z :=
  if b =? 0 then Thrown
  else if b <? 0 then
         let r := Z.rem a b in
         Val (if negb (r <? 0) && negb (r =? 0) then r + b else r)
       else bn_nnmod a b.
(** BigNum operator%=, bignum.cc:139-151: no check, but a zero modulus takes the else
    branch, where BN_nnmod fails. *)
Definition ossl_mod_assign (a b : Z) : outcome Z :=
  if b <? 0 then
    let r := Z.rem a b in
    Val (if negb (r <? 0) && negb (r =? 0) then r + b else r)
  else bn_nnmod a b.
(** operator/ and /= with a uint64_t, bignum.cc:168-175 and :632-640.  BN_div_word
    divides the magnitude in place, keeps the sign and returns the remainder of the
    magnitude. *)
Definition ossl_div_u (a b : Z) : outcome Z :=
  if b =? 0 then Thrown
  else let q := Z.sgn a * (Z.abs a / b) in
       let r := Z.abs a mod b in
       Val (if (q <? 0) && negb (r =? 0) then q - 1 else q).
(** operator% with a uint64_t, bignum.cc:642-649.  BN_mod_word is the remainder of the
    magnitude. *)
Definition ossl_mod_u (a b : Z) : outcome Z :=
  if b =? 0 then Thrown
  else let r := Z.abs a mod b in
       Val (if (a <? 0) && negb (r =? 0) then b - r else r).
(** GMPInt: mpz_fdiv_q, mpz_fdiv_r, mpz_fdiv_q_ui, mpz_fdiv_ui round down,
    gmp_int.cc:118-128, :145-149, :672-684, :704-714. *)
Definition gmp_div (a b : Z) : outcome Z := if b =? 0 then Thrown else Val (a / b).
Definition gmp_mod (a b : Z) : outcome Z := if b =? 0 then Thrown else Val (a mod b).

Definition div_k (k : backend) (a b : Z) : outcome Z :=
  match k with Tom => div a b | Ossl => ossl_div a b | Gmp => gmp_div a b end.
Definition mod_k (k : backend) (a b : Z) : outcome Z :=
  match k with Tom => mod_ a b | Ossl => ossl_mod a b | Gmp => gmp_mod a b end.
Definition mod_assign_k (k : backend) (a b : Z) : outcome Z :=
  match k with Tom => mod_ a b | Ossl => ossl_mod_assign a b | Gmp => gmp_mod a b end.
Definition div_u_k (k : backend) (a b : Z) : outcome Z :=
  match k with Tom => div_u a b | Ossl => ossl_div_u a b | Gmp => gmp_div a b end.
Definition mod_u_k (k : backend) (a b : Z) : outcome Z :=
  match k with Tom => mod_u a b | Ossl => ossl_mod_u a b | Gmp => gmp_mod a b end.

(** ** Modular arithmetic *)
(** bignum.cc:276-295 (BN_mod_add, BN_mod_sub, BN_mod_mul reduce with BN_nnmod),
    gmp_int.cc:237-247 (operator%), mp_int.cc:612-653 (mp_addmod, mp_submod and
    mp_mulmod reduce with mp_mod). *)
Definition reduce_k (k : backend) (x m : Z) : outcome Z :=
  match k with Tom => tm_mod x m | Ossl => bn_nnmod x m | Gmp => gmp_mod x m end.
Definition add_mod_k (k : backend) (a b m : Z) : outcome Z := reduce_k k (a + b) m.
Definition sub_mod_k (k : backend) (a b m : Z) : outcome Z := reduce_k k (a - b) m.
Definition mul_mod_k (k : backend) (a b m : Z) : outcome Z := reduce_k k (a * b) m.
(** InvMod for a modulus above 1.  BN_mod_inverse returns NULL and mp_invmod an error
    when there is no inverse (bignum.cc:297-302, mp_int.cc:724-732).  mpz_invert returns
    0 and leaves its result undefined; gmp_int.cc:249-253 does not look: [junk]. *)
Definition inv_mod_k (junk : Z) (k : backend) (a m : Z) : outcome Z :=
  match invert_mod a m, k with
  | Some r, _ => Val r
  | None, Gmp => Val junk
  | None, _ => Thrown
  end.
(** PowMod for a modulus above 1, bignum.cc:304-316, gmp_int.cc:255-259 (mpz_powm: a
    negative exponent without inverse divides by zero), mp_int.cc:683-691 (mp_exptmod
    inverts the base for a negative exponent). *)
Definition pow_mod_k (k : backend) (a e m : Z) : outcome Z :=
  if e <? 0 then
    match invert_mod a m, k with
    | Some r, _ => Val (r ^ Z.abs e mod m)
    | None, Gmp => OutOfBounds
    | None, _ => Thrown
    end
  else Val (a ^ e mod m).
(** Pow, bignum.cc:238-243, gmp_int.cc:76-80, mp_int.cc:669-679 *)
Definition pow_k (k : backend) (a e : Z) : outcome Z :=
  match k with
  | Tom => if e =? 0 then if a =? 0 then Thrown else Val 1 else Val (a ^ e)
  | _ => Val (a ^ e)
  end.
(** PowInplace, bignum.cc:245-248, gmp_int.cc:82, mp_int.cc:681 *)
Definition pow_inplace_k (k : backend) (a e : Z) : outcome Z := Val (a ^ e).
(** Gcd, bignum.cc:326-331, gmp_int.cc:267-271, mp_int.cc:703-711 *)
Definition gcd_k (k : backend) (a b : Z) : Z := Z.gcd a b.
(** Lcm, bignum.cc:318-324; mpz_lcm, gmp_int.cc:261-265; mp_lcm divides the smaller
    magnitude by the gcd, mp_int.cc:693-701. *)
Definition ossl_lcm (a b : Z) : outcome Z :=
  bind (ossl_div (a * b) (gcd_k Ossl a b)) (fun r => Val (if r <? 0 then - r else r)).
Definition tom_lcm (a b : Z) : outcome Z :=
  bind (tm_div (if Z.abs a <? Z.abs b then a else b) (gcd_k Tom a b)) (fun '(q, _) =>
  Val (Z.abs ((if Z.abs a <? Z.abs b then b else a) * q))).
Definition lcm_k (k : backend) (a b : Z) : outcome Z :=
  match k with Tom => tom_lcm a b | Ossl => ossl_lcm a b | Gmp => Val (Z.lcm a b) end.

(** ** Shifts and single bits; [n], [i] are size_t *)
(** bignum.cc:192-204 and :750-764; gmp_int.cc:166-186 (mpz_mul_2exp,
    mpz_tdiv_q_2exp); mp_int.cc:349-359 and :523-531: mp_mul_2d and mp_div_2d take an
    int (negative counts are an error). *)
Definition shl_k (k : backend) (a n : Z) : outcome Z :=
  match k with
  | Tom => if to_int n <? 0 then Thrown else Val (a * 2 ^ to_int n)
  | Ossl => if n <=? int_max then Val (a * 2 ^ n) else Thrown
  | Gmp => Val (a * 2 ^ n)
  end.
Definition shr_k (k : backend) (a n : Z) : outcome Z :=
  match k with
  | Tom => if to_int n <? 0 then Thrown else Val (shr a (to_int n))
  | Ossl => if n <=? int_max then Val (Z.sgn a * (Z.abs a / 2 ^ n)) else Thrown
  | Gmp => Val (Z.quot a (2 ^ n))
  end.
(** GetBit, bignum.cc:412-414 (BN_is_bit_set takes an int; 0 for a negative one);
    gmp_int.cc:487-494 (limb of the magnitude, or mpz_tstbit); mp_int.cc:285 takes an
    int and mpx_get_bit reads the magnitude (C65; negative indices not modelled). *)
Definition mag_bit (a i : Z) : Z := Z.b2z (Z.testbit (Z.abs a) i).
Definition get_bit_k (k : backend) (a i : Z) : Z :=
  match k with
  | Tom => mag_bit a (to_int i)
  | Ossl => if to_int i <? 0 then 0 else mag_bit a (to_int i)
  | Gmp => if a <? 0
           then Z.land (Z.shiftr (Z.abs a / 2 ^ (64 * (i / 64)) mod 2 ^ 64) (i mod 64)) 1
           else Z.b2z (Z.testbit a i)
  end.
(** SetBit, bignum.cc:416-424, gmp_int.cc:496-518, mp_int.cc:287.  BN_set_bit and
    BN_clear_bit work on the magnitude, keep the sign and fail for a negative index;
    the int narrowing is as for GetBit. *)
Definition with_sign (a mag : Z) : Z := if a <? 0 then - mag else mag.
Definition set_bit_k (k : backend) (a i bit : Z) : outcome Z :=
  match k with
  | Gmp => Val (if a <? 0
                then - (if bit =? 0 then Z.clearbit (- a) i else Z.setbit (- a) i)
                else if bit =? 0 then Z.clearbit a i else Z.setbit a i)
  | Ossl => if bit =? 0
            then if i <? bit_length (Z.abs a)
                 then if to_int i <? 0 then Thrown
                      else Val (with_sign a (Z.clearbit (Z.abs a) (to_int i)))
                 else Val a
            else if to_int i <? 0 then Thrown
                 else Val (with_sign a (Z.setbit (Z.abs a) (to_int i)))
  | Tom => if to_int i <? 0 then OutOfBounds
           else Val (with_sign a (if bit =? 0 then Z.clearbit (Z.abs a) (to_int i)
                                  else Z.setbit (Z.abs a) (to_int i)))
  end.
(** CompareAbs with an int64_t, bignum.cc:272-274, gmp_int.cc:233-235 (std::abs of the
    smallest int64_t is undefined), mp_int.cc:318 *)
Definition compare_abs_i64_k (k : backend) (a b : Z) : outcome comparison :=
  match k with
  | Gmp => if b =? - 2 ^ 63 then OutOfBounds else Val (Z.compare (Z.abs a) (Z.abs b))
  | _ => Val (Z.compare (Z.abs a) (Z.abs b))
  end.

(** ** Two's complement bytes *)
(** BN_num_bytes = (BN_num_bits + 7) / 8; mpz_sizeinbase(z, 2) is 1 for zero. *)
Definition bn_num_bytes (z : Z) : Z := (bit_length (Z.abs z) + 7) / 8.
Definition sizeinbase2 (z : Z) : Z := if z =? 0 then 1 else bit_length (Z.abs z).
Definition gmp_num_bytes (z : Z) : Z := (sizeinbase2 z + 7) / 8.
(** BN_bn2lebinpad, BN_bn2binpad: the magnitude in exactly [n] bytes, -1 (an exception)
    if it does not fit.  *)
Definition bn2pad (z : Z) (n : nat) (e : endian) : outcome (list Z) :=
  if Z.of_nat n <? bn_num_bytes z then Thrown
  else Val (in_order e (le_bytes n (Z.abs z))).
(** mpz_export with one-byte words, no nails: the magnitude in as few bytes as
    possible, none for zero. *)
Definition mpz_export (z : Z) (e : endian) : list Z :=
  in_order e (le_bytes (Z.to_nat (bn_num_bytes z)) (Z.abs z)).
(** The complement and the carry loops of ToBytes, bignum.cc:521-537 and
    gmp_int.cc:616-632.  [incr] is the little endian loop. *)
Fixpoint incr (l : list Z) : list Z :=
  match l with
  | [] => []
  | b :: t => let c := (b + 1) mod 256 in
              if c =? 0 then c :: incr t else c :: t
  end.
Definition negate_bytes (e : endian) (l : list Z) : list Z :=
  let l := map (fun b => 255 - b) l in
  in_order e (incr (in_order e l)).
(** ToBytes when the buffer is large enough, bignum.cc:511-537, gmp_int.cc:607-632 *)
Definition ossl_bytes_fit (z : Z) (n : nat) (e : endian) : outcome (list Z) :=
  bind (bn2pad z n e) (fun l => Val (if z <? 0 then negate_bytes e l else l)).
(** memset, then mpz_export at the start of the buffer or at buf_len - byte_count *)
Definition gmp_bytes_fit (z : Z) (n : nat) (e : endian) : outcome (list Z) :=
  let ex := mpz_export z e in
  let start := match e with Little => 0 | Big => Z.of_nat n - gmp_num_bytes z end in
  if (start <? 0) || (Z.of_nat n <? start + Z.of_nat (length ex)) then OutOfBounds
  else
    let l := repeat 0 (Z.to_nat start) ++ ex ++
             repeat 0 (n - Z.to_nat start - length ex) in
    Val (if z <? 0 then negate_bytes e l else l).
(** ToBytes, bignum.cc:499-537, gmp_int.cc:595-633: a buffer that is too small gets the
    low bytes of a sufficient one. *)
Definition low_bytes (e : endian) (n : nat) (l : list Z) : list Z :=
  match e with Little => firstn n l | Big => skipn (length l - n) l end.
Definition ossl_to_bytes (z : Z) (n : nat) (e : endian) : outcome (list Z) :=
  let c := Z.to_nat (bn_num_bytes z) in
  if (n <? c)%nat then bind (ossl_bytes_fit z c e) (fun tmp => Val (low_bytes e n tmp))
  else ossl_bytes_fit z n e.
Definition gmp_to_bytes (z : Z) (n : nat) (e : endian) : outcome (list Z) :=
  let c := Z.to_nat (gmp_num_bytes z) in
  if (n <? c)%nat then bind (gmp_bytes_fit z c e) (fun tmp => Val (low_bytes e n tmp))
  else gmp_bytes_fit z n e.

(** ** OpenSSL's bitwise operators, bignum.cc:651-700 *)
Definition map2 (f : Z -> Z -> Z) (l m : list Z) : list Z :=
  map (fun '(x, y) => f x y) (combine l m).
(** BN_signed_lebin2bn: the two's complement value of the bytes *)
Definition signed_lebin2bn (l : list Z) : Z :=
  let n := 8 * Z.of_nat (length l) in
  let v := le_value l in
  if (0 <? n) && (2 ^ (n - 1) <=? v) then v - 2 ^ n else v.
Definition ossl_bitwise (f : Z -> Z -> Z) (a b : Z) : outcome Z :=
  let max_bits := Z.max (bit_length (Z.abs a)) (bit_length (Z.abs b)) in
  let n := Z.to_nat ((max_bits + 7) / 8 + 1) in
  bind (ossl_to_bytes a n Little) (fun l =>
  bind (ossl_to_bytes b n Little) (fun m =>
  Val (signed_lebin2bn (map2 f l m)))).
Definition ossl_and := ossl_bitwise Z.land.
Definition ossl_or := ossl_bitwise Z.lor.
Definition ossl_xor := ossl_bitwise Z.lxor.

(** ** The serialized form: into a caller's buffer, the buffer and the size returned *)
(** buf[i] |= s *)
Definition or_at (l : list Z) (i : Z) (s : Z) : outcome (list Z) :=
  if (i <? 0) || (Z.of_nat (length l) <=? i) then OutOfBounds
  else Val (set_at l (Z.to_nat i) (Z.lor (nth (Z.to_nat i) l 0) s)).
Definition sign_byte (z : Z) : Z := if z <? 0 then 128 else 0.
(** bignum.cc:437-465 *)
Definition ossl_serialize (z : Z) (buf : list Z) : outcome (list Z * Z) :=
  let total := bit_length (Z.abs z) / 8 + 1 in
  if Z.of_nat (length buf) <? total then Thrown
  else bind (bn2pad z (length buf) Little) (fun l =>
       bind (or_at l (total - 1) (sign_byte z)) (fun l => Val (l, total))).
(** gmp_int.cc:530-562 *)
Definition gmp_serialize (z : Z) (buf : list Z) : outcome (list Z * Z) :=
  let total := sizeinbase2 z / 8 + 1 in
  if Z.of_nat (length buf) <? total then Thrown
  else bind (store buf (total - 1) 0) (fun buf =>
       let ex := mpz_export z Little in
       let count := Z.of_nat (length ex) in
       if Z.of_nat (length buf) <? count then OutOfBounds
       else
       let buf := ex ++ skipn (length ex) buf in
       if negb ((total =? count) || (total =? count + 1)) then Thrown
       else bind (or_at buf (total - 1) (sign_byte z)) (fun l => Val (l, total))).
(** Deserialize, bignum.cc:467-475.  BN_lebin2bn gives a non-negative number.  The
    index is an int: buffers below 2^28 bytes. *)
Definition ossl_deserialize (buf : list Z) : outcome Z :=
  match buf with
  | [] => Thrown
  | _ =>
    let v := le_value buf in
    let i := 8 * Z.of_nat (length buf) - 1 in
    Val (if Z.testbit v i then - Z.clearbit v i else v)
  end.
(** gmp_int.cc:564-573: mpz_import, mpz_tstbit, mpz_clrbit, then the sign *)
Definition gmp_deserialize (buf : list Z) : outcome Z :=
  match buf with
  | [] => Thrown
  | _ =>
    let v := le_value buf in
    let i := 8 * Z.of_nat (length buf) - 1 in
    Val (if negb (Z.b2z (Z.testbit v i) =? 0) then - Z.clearbit v i else v)
  end.

(** ** Magnitude bytes *)
(** ToMagBytes with a buffer, bignum.cc:539-554: BN_bn2bin and BN_bn2lebinpad into
    num_bytes bytes. *)
Definition ossl_to_mag_bytes (z : Z) (buf : list Z) (e : endian) : outcome (list Z * Z) :=
  let c := bn_num_bytes z in
  if Z.of_nat (length buf) <? c then Thrown
  else bind (bn2pad z (Z.to_nat c) e) (fun l => Val (l ++ skipn (Z.to_nat c) buf, c)).
(** gmp_int.cc:635-646: byte_count is overwritten with what mpz_export wrote *)
Definition gmp_to_mag_bytes (z : Z) (buf : list Z) (e : endian) : outcome (list Z * Z) :=
  let c := gmp_num_bytes z in
  if Z.of_nat (length buf) <? c then Thrown
  else let ex := mpz_export z e in
       Val (ex ++ skipn (length ex) buf, Z.of_nat (length ex)).
(** The size query (buf == nullptr) *)
Definition ossl_mag_size (z : Z) : Z := bn_num_bytes z.
Definition gmp_mag_size (z : Z) : Z := gmp_num_bytes z.
(** FromMagBytes, bignum.cc:556-564 and gmp_int.cc:648-652 *)
Definition ossl_from_mag_bytes (buf : list Z) (e : endian) : Z := le_value (in_order e buf).
Definition gmp_from_mag_bytes (buf : list Z) (e : endian) : Z := le_value (in_order e buf).

(** ** BigInt: a number tagged with the library that holds it *)
(** bigint.h keeps a std::variant; ApplyBinaryOp, ApplyCompAssignOp and ApplyTernaryOp
    throw when the alternatives differ, bigint.cc. *)
Definition big : Type := backend * Z.
Definition backend_eqb (j k : backend) : bool :=
  match j, k with Tom, Tom | Ossl, Ossl | Gmp, Gmp => true | _, _ => false end.
Definition apply2 {A} (op : backend -> Z -> Z -> outcome A) (x y : big) : outcome A :=
  if backend_eqb (fst x) (fst y) then op (fst x) (snd x) (snd y) else Thrown.
Definition apply3 {A} (op : backend -> Z -> Z -> Z -> outcome A) (x y z : big) : outcome A :=
  if backend_eqb (fst x) (fst y) && backend_eqb (fst x) (fst z)
  then op (fst x) (snd x) (snd y) (snd z) else Thrown.
Definition tagged (k : backend) (o : outcome Z) : outcome big := bind o (fun z => Val (k, z)).
(** operator/, operator%, AddMod, SubMod, MulMod, InvMod, PowMod *)
Definition big_div (x y : big) : outcome big := tagged (fst x) (apply2 div_k x y).
Definition big_mod (x y : big) : outcome big := tagged (fst x) (apply2 mod_k x y).
Definition big_add_mod (x y m : big) : outcome big := tagged (fst x) (apply3 add_mod_k x y m).
Definition big_sub_mod (x y m : big) : outcome big := tagged (fst x) (apply3 sub_mod_k x y m).
Definition big_mul_mod (x y m : big) : outcome big := tagged (fst x) (apply3 mul_mod_k x y m).
Definition big_pow_mod (x y m : big) : outcome big := tagged (fst x) (apply3 pow_mod_k x y m).
