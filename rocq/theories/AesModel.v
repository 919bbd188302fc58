(* Model of AES-128 on processor instructions:
   yacl/crypto/aes/aes_intrinsics.h and yacl/crypto/aes/aes_opt.h.

   A register (__m128i) is sixteen bytes in memory order, kept as four columns
   of four bytes: byte i is row i mod 4 of column i / 4, and a column is also
   the i-th 32-bit lane, lowest byte first.  The instructions follow Intel's
   description; sse2neon implements the same on ARM.  uint128_t values are the
   same sixteen bytes: reinterpret_cast and memcpy change nothing, and
   uint128_cast_m128i (aes_intrinsics.h:76-79) puts the low half first. *)
From Coq Require Import NArith List Bool Arith Lia.
From Verif Require Import LinCodeModel.
Import ListNotations.
Local Open Scope N_scope.

Inductive col : Type := C (b0 b1 b2 b3 : N).
Inductive vec : Type := V (c0 c1 c2 c3 : col).

(* FIPS-197 figure 7, the S-box, and figure 14, its inverse.  A byte is below
   256; the functions leave other numbers, which never occur, as they are. *)
Definition sbox_table : list N :=
  [
   99; 124; 119; 123; 242; 107; 111; 197; 48; 1; 103; 43; 254; 215; 171; 118;
   202; 130; 201; 125; 250; 89; 71; 240; 173; 212; 162; 175; 156; 164; 114; 192;
   183; 253; 147; 38; 54; 63; 247; 204; 52; 165; 229; 241; 113; 216; 49; 21;
   4; 199; 35; 195; 24; 150; 5; 154; 7; 18; 128; 226; 235; 39; 178; 117;
   9; 131; 44; 26; 27; 110; 90; 160; 82; 59; 214; 179; 41; 227; 47; 132;
   83; 209; 0; 237; 32; 252; 177; 91; 106; 203; 190; 57; 74; 76; 88; 207;
   208; 239; 170; 251; 67; 77; 51; 133; 69; 249; 2; 127; 80; 60; 159; 168;
   81; 163; 64; 143; 146; 157; 56; 245; 188; 182; 218; 33; 16; 255; 243; 210;
   205; 12; 19; 236; 95; 151; 68; 23; 196; 167; 126; 61; 100; 93; 25; 115;
   96; 129; 79; 220; 34; 42; 144; 136; 70; 238; 184; 20; 222; 94; 11; 219;
   224; 50; 58; 10; 73; 6; 36; 92; 194; 211; 172; 98; 145; 149; 228; 121;
   231; 200; 55; 109; 141; 213; 78; 169; 108; 86; 244; 234; 101; 122; 174; 8;
   186; 120; 37; 46; 28; 166; 180; 198; 232; 221; 116; 31; 75; 189; 139; 138;
   112; 62; 181; 102; 72; 3; 246; 14; 97; 53; 87; 185; 134; 193; 29; 158;
   225; 248; 152; 17; 105; 217; 142; 148; 155; 30; 135; 233; 206; 85; 40; 223;
   140; 161; 137; 13; 191; 230; 66; 104; 65; 153; 45; 15; 176; 84; 187; 22].

Definition inv_sbox_table : list N :=
  [
   82; 9; 106; 213; 48; 54; 165; 56; 191; 64; 163; 158; 129; 243; 215; 251;
   124; 227; 57; 130; 155; 47; 255; 135; 52; 142; 67; 68; 196; 222; 233; 203;
   84; 123; 148; 50; 166; 194; 35; 61; 238; 76; 149; 11; 66; 250; 195; 78;
   8; 46; 161; 102; 40; 217; 36; 178; 118; 91; 162; 73; 109; 139; 209; 37;
   114; 248; 246; 100; 134; 104; 152; 22; 212; 164; 92; 204; 93; 101; 182; 146;
   108; 112; 72; 80; 253; 237; 185; 218; 94; 21; 70; 87; 167; 141; 157; 132;
   144; 216; 171; 0; 140; 188; 211; 10; 247; 228; 88; 5; 184; 179; 69; 6;
   208; 44; 30; 143; 202; 63; 15; 2; 193; 175; 189; 3; 1; 19; 138; 107;
   58; 145; 17; 65; 79; 103; 220; 234; 151; 242; 207; 206; 240; 180; 230; 115;
   150; 172; 116; 34; 231; 173; 53; 133; 226; 249; 55; 232; 28; 117; 223; 110;
   71; 241; 26; 113; 29; 41; 197; 137; 111; 183; 98; 14; 170; 24; 190; 27;
   252; 86; 62; 75; 198; 210; 121; 32; 154; 219; 192; 254; 120; 205; 90; 244;
   31; 221; 168; 51; 136; 7; 199; 49; 177; 18; 16; 89; 39; 128; 236; 95;
   96; 81; 127; 169; 25; 181; 74; 13; 45; 229; 122; 159; 147; 201; 156; 239;
   160; 224; 59; 77; 174; 42; 245; 176; 200; 235; 187; 60; 131; 83; 153; 97;
   23; 43; 4; 126; 186; 119; 214; 38; 225; 105; 20; 99; 85; 33; 12; 125].

Definition sbox (b : N) : N := nth (N.to_nat b) sbox_table b.
Definition inv_sbox (b : N) : N := nth (N.to_nat b) inv_sbox_table b.

(* FIPS-197 4.2.1: multiplication by x modulo x^8 + x^4 + x^3 + x + 1. *)
Definition xtime (b : N) : N :=
  N.lxor (N.shiftl b 1) (if N.testbit b 7 then 283 else 0).

Definition xor_col (x y : col) : col :=
  match x, y with C a b c d, C a' b' c' d' =>
    C (N.lxor a a') (N.lxor b b') (N.lxor c c') (N.lxor d d') end.

(* _mm_xor_si128 *)
Definition xor_vec (x y : vec) : vec :=
  match x, y with V a b c d, V a' b' c' d' =>
    V (xor_col a a') (xor_col b b') (xor_col c c') (xor_col d d') end.

Definition map_col (f : N -> N) (x : col) : col :=
  match x with C a b c d => C (f a) (f b) (f c) (f d) end.
Definition map_vec (f : col -> col) (x : vec) : vec :=
  match x with V a b c d => V (f a) (f b) (f c) (f d) end.

(* FIPS-197 5.1.1, 5.3.2 *)
Definition sub_bytes (x : vec) : vec := map_vec (map_col sbox) x.
Definition inv_sub_bytes (x : vec) : vec := map_vec (map_col inv_sbox) x.

(* FIPS-197 5.1.2, 5.3.1: row r moves left, or right, by r columns. *)
Definition shift_rows (x : vec) : vec :=
  match x with V (C a0 a1 a2 a3) (C b0 b1 b2 b3) (C c0 c1 c2 c3) (C d0 d1 d2 d3) =>
    V (C a0 b1 c2 d3) (C b0 c1 d2 a3) (C c0 d1 a2 b3) (C d0 a1 b2 c3) end.
Definition inv_shift_rows (x : vec) : vec :=
  match x with V (C a0 a1 a2 a3) (C b0 b1 b2 b3) (C c0 c1 c2 c3) (C d0 d1 d2 d3) =>
    V (C a0 d1 c2 b3) (C b0 a1 d2 c3) (C c0 b1 a2 d3) (C d0 c1 b2 a3) end.

Definition m2 (b : N) : N := xtime b.
Definition m3 (b : N) : N := N.lxor (xtime b) b.
Definition m9 (b : N) : N := N.lxor (xtime (xtime (xtime b))) b.
Definition m11 (b : N) : N :=
  N.lxor (N.lxor (xtime (xtime (xtime b))) (xtime b)) b.
Definition m13 (b : N) : N :=
  N.lxor (N.lxor (xtime (xtime (xtime b))) (xtime (xtime b))) b.
Definition m14 (b : N) : N :=
  N.lxor (N.lxor (xtime (xtime (xtime b))) (xtime (xtime b))) (xtime b).

Definition xor4 (a b c d : N) : N := N.lxor (N.lxor (N.lxor a b) c) d.

(* FIPS-197 5.1.3, 5.3.3 *)
Definition mix_col (x : col) : col :=
  match x with C a b c d =>
    C (xor4 (m2 a) (m3 b) c d) (xor4 a (m2 b) (m3 c) d)
      (xor4 a b (m2 c) (m3 d)) (xor4 (m3 a) b c (m2 d)) end.
Definition inv_mix_col (x : col) : col :=
  match x with C a b c d =>
    C (xor4 (m14 a) (m11 b) (m13 c) (m9 d)) (xor4 (m9 a) (m14 b) (m11 c) (m13 d))
      (xor4 (m13 a) (m9 b) (m14 c) (m11 d)) (xor4 (m11 a) (m13 b) (m9 c) (m14 d)) end.
Definition mix_columns (x : vec) : vec := map_vec mix_col x.
Definition inv_mix_columns (x : vec) : vec := map_vec inv_mix_col x.

(* The instructions, in the order of Intel's description. *)
Definition aesenc (s k : vec) : vec := xor_vec (mix_columns (sub_bytes (shift_rows s))) k.
Definition aesenclast (s k : vec) : vec := xor_vec (sub_bytes (shift_rows s)) k.
Definition aesdec (s k : vec) : vec :=
  xor_vec (inv_mix_columns (inv_sub_bytes (inv_shift_rows s))) k.
Definition aesdeclast (s k : vec) : vec :=
  xor_vec (inv_sub_bytes (inv_shift_rows s)) k.
Definition aesimc (k : vec) : vec := inv_mix_columns k.

Definition sub_word (x : col) : col := map_col sbox x.
Definition rot_word (x : col) : col := match x with C a b c d => C b c d a end.

(* _mm_aeskeygenassist_si128 *)
Definition aeskeygenassist (x : vec) (rcon : N) : vec :=
  match x with V _ x1 _ x3 =>
    V (sub_word x1) (xor_col (rot_word (sub_word x1)) (C rcon 0 0 0))
      (sub_word x3) (xor_col (rot_word (sub_word x3)) (C rcon 0 0 0)) end.

Definition lanes (x : vec) : list col := match x with V a b c d => [a; b; c; d] end.
Definition bytes (x : vec) : list N :=
  flat_map (fun c => match c with C a b c d => [a; b; c; d] end) (lanes x).
Definition zero_col : col := C 0 0 0 0.
Definition zero_vec : vec := V zero_col zero_col zero_col zero_col.
Definition lane (x : vec) (i : N) : col := nth (N.to_nat i) (lanes x) zero_col.

(* Two bits of an immediate, as a lane number. *)
Definition sel (imm k : N) : N := N.land (N.shiftr imm k) 3.

(* _mm_shuffle_ps, _mm_shuffle_epi32 *)
Definition shuffle_ps (a b : vec) (imm : N) : vec :=
  V (lane a (sel imm 0)) (lane a (sel imm 2)) (lane b (sel imm 4)) (lane b (sel imm 6)).
Definition shuffle_epi32 (a : vec) (imm : N) : vec :=
  V (lane a (sel imm 0)) (lane a (sel imm 2)) (lane a (sel imm 4)) (lane a (sel imm 6)).

(* _mm_shuffle_epi8 *)
Definition pick (x : vec) (m : N) : N :=
  if N.testbit m 7 then 0 else nth (N.to_nat (N.land m 15)) (bytes x) 0.
Definition shuffle_epi8 (x m : vec) : vec := map_vec (map_col (pick x)) m.

(* _mm_slli_epi64(x, 32): in each 64-bit half the low lane moves up. *)
Definition slli_epi64_32 (x : vec) : vec :=
  match x with V a _ c _ => V zero_col a zero_col c end.

(* A 32-bit number as a lane, and back. *)
Definition lane_of (n : N) : col :=
  C (N.land n 255) (N.land (N.shiftr n 8) 255) (N.land (N.shiftr n 16) 255)
    (N.land (N.shiftr n 24) 255).
Definition number_of (x : col) : N :=
  match x with C a b c d => a + 256 * b + 65536 * c + 16777216 * d end.

(* _mm_set_epi32 *)
Definition set_epi32 (e3 e2 e1 e0 : N) : vec :=
  V (lane_of e0) (lane_of e1) (lane_of e2) (lane_of e3).

(* _mm_slli_epi32(x, n) *)
Definition slli_epi32 (x : vec) (n : N) : vec :=
  map_vec (fun c => lane_of (N.shiftl (number_of c) n)) x.

(* aes_intrinsics.h:88-91 *)
Record aes_key := { rd_key : list vec; rounds : nat }.

Definition get {A} (l : list A) (i : nat) : outcome A :=
  match nth_error l i with Some v => Val v | None => OutOfBounds end.
Fixpoint set {A} (l : list A) (i : nat) (v : A) : outcome (list A) :=
  match l, i with
  | [], _ => OutOfBounds
  | _ :: l', O => Val (v :: l')
  | x :: l', S i' => bind (set l' i' v) (fun l'' => Val (x :: l''))
  end.

(* aes_intrinsics.h:94-103, AES_EXPAND_ASSIST with v4 = v1: the new v1 and v3. *)
Definition expand_assist (v1 v3 : vec) (shuff_const aes_const : N) : vec * vec :=
  let v2 := aeskeygenassist v1 aes_const in
  let v3 := shuffle_ps v3 v1 16 in
  let v1 := xor_vec v1 v3 in
  let v3 := shuffle_ps v3 v1 140 in
  let v1 := xor_vec v1 v3 in
  let v2 := shuffle_epi32 v2 shuff_const in
  let v1 := xor_vec v1 v2 in
  (v1, v3).

(* aes_intrinsics.h:116-135: the ten calls and the stores. *)
Fixpoint expand (x0 x2 : vec) (consts : list N) : list vec :=
  match consts with
  | [] => []
  | c :: cs =>
      let '(x0', x2') := expand_assist x0 x2 255 c in
      x0' :: expand x0' x2' cs
  end.

(* aes_intrinsics.h:105-137, AES_set_encrypt_key. *)
Definition set_encrypt_key (userkey : vec) : aes_key :=
  {| rd_key := userkey :: expand userkey zero_vec [1; 2; 4; 8; 16; 32; 64; 128; 27; 54];
     rounds := 10 |}.

(* aes_intrinsics.h:148-150, 211-213: for (j = 1; j < rounds; ++j). *)
Fixpoint round_loop (f : vec -> vec -> vec) (rd : list vec) (n j : nat) (s : vec)
  : outcome vec :=
  match n with
  | O => Val s
  | S n' => bind (get rd j) (fun k => round_loop f rd n' (S j) (f s k))
  end.

(* aes_intrinsics.h:147-151: one block. *)
Definition encrypt_block (key : aes_key) (b : vec) : outcome vec :=
  bind (get (rd_key key) 0) (fun k0 =>
  bind (round_loop aesenc (rd_key key) (rounds key - 1) 1 (xor_vec b k0)) (fun s =>
  bind (get (rd_key key) (rounds key)) (fun k => Val (aesenclast s k)))).

(* aes_intrinsics.h:210-214: one block; j is at least 1 after the loop. *)
Definition decrypt_block (key : aes_key) (b : vec) : outcome vec :=
  bind (get (rd_key key) 0) (fun k0 =>
  bind (round_loop aesdec (rd_key key) (rounds key - 1) 1 (xor_vec b k0)) (fun s =>
  bind (get (rd_key key) (Nat.max 1 (rounds key))) (fun k => Val (aesdeclast s k)))).

(* The loops over blocks (146, 209): block i of the output is written from block
   i of the input, the other blocks of the output stay. *)
Fixpoint blocks_loop (f : vec -> outcome vec) (ins : list vec) (n i : nat)
  (out : list vec) : outcome (list vec) :=
  match n with
  | O => Val out
  | S n' =>
      bind (get ins i) (fun b =>
      bind (f b) (fun c =>
      bind (set out i c) (fun out' => blocks_loop f ins n' (S i) out')))
  end.

(* aes_intrinsics.h:140-153, AES_ecb_encrypt_blks on pointers, with in_blks and
   out_blks disjoint. *)
Definition ecb_encrypt_ptr (ins : list vec) (out : list vec) (nblks : nat) (key : aes_key)
  : outcome (list vec) := blocks_loop (encrypt_block key) ins nblks 0 out.

(* aes_intrinsics.h:200-216, AES_ecb_decrypt_blks: nblks is unsigned, 32 bits. *)
Definition ecb_decrypt_ptr (ins : list vec) (out : list vec) (nblks : N) (key : aes_key)
  : outcome (list vec) :=
  blocks_loop (decrypt_block key) ins (N.to_nat (nblks mod 2 ^ 32)) 0 out.

(* The same with in_blks = out_blks. *)
Fixpoint blocks_in_place (f : vec -> outcome vec) (n i : nat) (buf : list vec)
  : outcome (list vec) :=
  match n with
  | O => Val buf
  | S n' =>
      bind (get buf i) (fun b =>
      bind (f b) (fun c =>
      bind (set buf i c) (fun buf' => blocks_in_place f n' (S i) buf')))
  end.

(* aes_intrinsics.h:173-188, AES_set_decrypt_key_fast: i counts down from
   rounds, j up from 0.  The loop with i = 0 at the start runs past the array. *)
Fixpoint dec_loop (ek : list vec) (i j : nat) (dk : list vec) : outcome (list vec) :=
  match i with
  | O => bind (get ek j) (fun k => set dk 0 k)
  | S i' => bind (get ek j) (fun k => bind (set dk i (aesimc k)) (dec_loop ek i' (S j)))
  end.

Definition set_decrypt_key_fast (dkey ekey : aes_key) : outcome aes_key :=
  match rounds ekey with
  | O => OutOfBounds
  | S i =>
      bind (get (rd_key ekey) 0) (fun k =>
      bind (set (rd_key dkey) (S i) k) (fun dk =>
      bind (dec_loop (rd_key ekey) i 1 dk) (fun dk' =>
        Val {| rd_key := dk'; rounds := rounds ekey |})))
  end.

(* aes_intrinsics.h:190-198, AES_set_decrypt_key into [key]. *)
Definition set_decrypt_key (userkey : vec) (key : aes_key) : outcome aes_key :=
  set_decrypt_key_fast key (set_encrypt_key userkey).

(* aes_intrinsics.h:243-250, 267-274, on spans. *)
Definition ecb_encrypt (key : aes_key) (ins out : list vec) : outcome (list vec) :=
  if Nat.eqb (length ins) (length out)
  then ecb_encrypt_ptr ins out (length ins) key else Thrown.
Definition ecb_decrypt (key : aes_key) (ins out : list vec) : outcome (list vec) :=
  if Nat.eqb (length ins) (length out)
  then ecb_decrypt_ptr ins out (N.of_nat (length ins)) key else Thrown.

(* aes_intrinsics.h:252-257, 276-281, returning a vector. *)
Definition ecb_encrypt_vector (key : aes_key) (ins : list vec) : outcome (list vec) :=
  ecb_encrypt key ins (repeat zero_vec (length ins)).
Definition ecb_decrypt_vector (key : aes_key) (ins : list vec) : outcome (list vec) :=
  ecb_decrypt key ins (repeat zero_vec (length ins)).

(* ------------------------------------------------------------------ *)
(* aes_opt.h                                                           *)

(* aes_opt.h:38-46: the body of ks_rounds for one key. *)
Definition ks_round (key con con3 mask : vec) : vec :=
  let x2 := shuffle_epi8 key mask in
  let aux := aesenclast x2 con in
  let globAux := slli_epi64_32 key in
  let key := xor_vec globAux key in
  let globAux := shuffle_epi8 key con3 in
  let key := xor_vec globAux key in
  xor_vec aux key.

(* aes_opt.h:34-48, ks_rounds<NumKeys>. *)
Fixpoint ks_rounds (n i : nat) (keys : list aes_key) (con con3 mask : vec) (r : nat)
  : outcome (list aes_key) :=
  match n with
  | O => Val keys
  | S n' =>
      bind (get keys i) (fun k =>
      bind (get (rd_key k) (r - 1)) (fun v =>
      bind (set (rd_key k) r (ks_round v con con3 mask)) (fun rd =>
      bind (set keys i {| rd_key := rd; rounds := rounds k |}) (fun keys' =>
        ks_rounds n' (S i) keys' con con3 mask r))))
  end.

(* aes_opt.h:62-65 *)
Fixpoint ks_init (n i : nat) (user_key : list vec) (keys : list aes_key)
  : outcome (list aes_key) :=
  match n with
  | O => Val keys
  | S n' =>
      bind (get user_key i) (fun u =>
      bind (get keys i) (fun k =>
      bind (set (rd_key k) 0 u) (fun rd =>
      bind (set keys i {| rd_key := rd; rounds := 10 |}) (fun keys' =>
        ks_init n' (S i) user_key keys'))))
  end.

Definition con3_const : vec := set_epi32 0x07060504 0x07060504 0xffffffff 0xffffffff.
Definition mask_const : vec := set_epi32 0x0c0f0e0d 0x0c0f0e0d 0x0c0f0e0d 0x0c0f0e0d.

(* aes_opt.h:67-84: the calls of ks_rounds; con doubles before each of the calls
   2 to 8, con2 before call 10. *)
Fixpoint ks_calls (n : nat) (keys : list aes_key) (con : vec) (r count : nat)
  : outcome (list aes_key) :=
  match count with
  | O => Val keys
  | S c' =>
      bind (ks_rounds n 0 keys con con3_const mask_const r) (fun keys' =>
        ks_calls n keys' (slli_epi32 con 1) (S r) c')
  end.

(* aes_opt.h:54-85, AES_opt_key_schedule<NumKeys>. *)
Definition opt_key_schedule (n : nat) (user_key : list vec) (keys : list aes_key)
  : outcome (list aes_key) :=
  bind (ks_init n 0 user_key keys) (fun keys =>
  bind (ks_calls n keys (set_epi32 1 1 1 1) 1 8) (fun keys =>
    ks_calls n keys (set_epi32 0x1b 0x1b 0x1b 0x1b) 9 2)).

(* aes_opt.h:94-99, 103-109, 113-119: one pass of ParaEnc over the blocks with
   the round keys r; the pointer is [pos]. *)
Fixpoint pass_blocks (f : vec -> vec -> vec) (K : vec) (n pos : nat) (blks : list vec)
  : outcome (list vec) :=
  match n with
  | O => Val blks
  | S n' =>
      bind (get blks pos) (fun b =>
      bind (set blks pos (f b K)) (fun blks' => pass_blocks f K n' (S pos) blks'))
  end.

Fixpoint pass_keys (f : vec -> vec -> vec) (keys : list aes_key) (r : nat)
  (num_keys i num_encs pos : nat) (blks : list vec) : outcome (list vec) :=
  match num_keys with
  | O => Val blks
  | S k' =>
      bind (get keys i) (fun key =>
      bind (get (rd_key key) r) (fun K =>
      bind (pass_blocks f K num_encs pos blks) (fun blks' =>
        pass_keys f keys r k' (S i) num_encs (pos + num_encs) blks')))
  end.

Fixpoint pass_rounds (keys : list aes_key) (num_keys num_encs : nat) (count r : nat)
  (blks : list vec) : outcome (list vec) :=
  match count with
  | O => Val blks
  | S c' =>
      bind (pass_keys aesenc keys r num_keys 0 num_encs 0 blks) (fun blks' =>
        pass_rounds keys num_keys num_encs c' (S r) blks')
  end.

(* aes_opt.h:90-120 and 125-154, ParaEnc: the number of blocks per key is a
   template argument in one and a parameter in the other. *)
Definition para_enc (num_keys num_encs : nat) (blks : list vec) (keys : list aes_key)
  : outcome (list vec) :=
  bind (pass_keys xor_vec keys 0 num_keys 0 num_encs 0 blks) (fun blks =>
  bind (pass_rounds keys num_keys num_encs 9 1 blks) (fun blks =>
    pass_keys aesenclast keys 10 num_keys 0 num_encs 0 blks)).
