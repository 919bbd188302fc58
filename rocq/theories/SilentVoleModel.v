(** Model of silent VOLE: yacl/kernel/algorithms/silent_vole.h and silent_vole.cc, on top of
    the models of MpVole and the base VOLE (MpfssModel), the expand-accumulate code
    (LinCodeModel) and the Silver code (SilverModel).

    Simplified: both parties are run together.  SoftspokenOtExtSender/Receiver::GenCot is not
    modelled: its result is given (base: the sender's pairs, bits and blks: the receiver's
    store, delta: GetDelta()).  Random words, the permutation rp of the linear code, the
    offsets drawn by SilverCode, Blake3 and the tree hashes are arguments. *)
From Coq Require Import List NArith Bool Arith.
From Verif Require Import LinCodeModel SilverModel MpfssModel.
Import ListNotations.
Open Scope nat_scope.

(** CodeType (silent_vole.h:71-83). *)
Inductive code_type := Silver5 | Silver11 | ExAcc7 | ExAcc11 | ExAcc21 | ExAcc40 | ExConv7x24 | ExConv21x24.
(** The keys of kMinDistanceRatio (silent_vole.cc:29-32). *)
Definition has_ratio (c : code_type) : bool := match c with ExConv7x24 | ExConv21x24 => false | _ => true end.

(** VoleParam (34-98).  [noise_num] is the result of GenRegNoiseWeight (secparam.h:175-184,
    floating point).  [tw]: T is uint128_t. *)
Record vparam := mkVParam { v_num : nat; v_code_size : nat; v_code : code_type; v_mp : param; v_base_ot : nat; v_mp_ot : nat }.
Definition gap_size (c : code_type) : nat := match c with Silver5 => 16 | Silver11 => 32 | _ => 0 end.
Definition div_ceil (x y : nat) : nat := (x + y - 1) / y.
Definition make_vparam (tw : bool) (c : code_type) (num noise_num : nat) (m : bool) : outcome vparam :=
  if has_ratio c then
    let sp_size := Nat.max (div_ceil (num * 2) noise_num) 2 in
    let mp_size := sp_size * noise_num + gap_size c in
    match make_param noise_num mp_size m with
    | None => Thrown
    | Some p => Val (mkVParam num (mp_size / 2) c p (base_num p * tbits tw) (require_ot p))
    end
  else Thrown.

(** GetEncoder (101-137); [None]: the null pointer. *)
Inductive encoder := ESilver (c : silver) | EExAcc (d : nat) (e : ecode).
Definition get_encoder (raw5 raw11 : list nat) (v : vparam) : outcome (option encoder) :=
  let exacc d := bind (make_ecode d (N.of_nat (v_num v)) (N.of_nat (mp (v_mp v)))) (fun e => Val (Some (EExAcc d e))) in
  match v_code v with
  | Silver5 => bind (make_silver (v_code_size v) 5 raw5 raw11) (fun c => Val (Some (ESilver c)))
  | Silver11 => bind (make_silver (v_code_size v) 11 raw5 raw11) (fun c => Val (Some (ESilver c)))
  | ExAcc7 => exacc 7 | ExAcc11 => exacc 11 | ExAcc21 => exacc 21 | ExAcc40 => exacc 40
  | _ => Val None
  end.
(** memcpy of the first [n] elements. *)
Definition copy (n : nat) (src dst : list N) : outcome (list N) :=
  if (n <=? length src) && (n <=? length dst) then Val (firstn n src ++ skipn n dst) else OutOfBounds.
(** DualLpnEncode (139-154): the new content of [out]. *)
Definition dual_lpn_encode (rp : N -> N) (raw5 raw11 : list nat) (v : vparam) (inp out : list N) : outcome (list N) :=
  bind (get_encoder raw5 raw11 v) (fun e =>
  match e with
  | Some (ESilver c) => bind (sv_dual_encode_inplace c inp) (fun r => copy (v_num v) r out)
  | Some (EExAcc d e) => bind (dual_encode rp d e inp out) (fun r => Val (snd r))
  | None => Thrown
  end).
(** DualLpnEncode2 (156-174).  DualEncodeInplace2 (silver_code.cc:162-175 with LeftEncode2 and
    RightEncode2) repeats the code of DualEncodeInplace for two buffers; it is modelled as two
    calls. *)
Definition dual_lpn_encode2 (rp : N -> N) (raw5 raw11 : list nat) (v : vparam) (in0 out0 in1 out1 : list N) : outcome (list N * list N) :=
  bind (get_encoder raw5 raw11 v) (fun e =>
  match e with
  | Some (ESilver c) =>
      bind (sv_dual_encode_inplace c in0) (fun r0 => bind (sv_dual_encode_inplace c in1) (fun r1 =>
      bind (copy (v_num v) r0 out0) (fun o0 => bind (copy (v_num v) r1 out1) (fun o1 => Val (o0, o1)))))
  | Some (EExAcc d e) => bind (dual_encode2 rp d e in0 out0 in1 out1) (fun r => Val (snd (fst r), snd (snd r)))
  | None => Thrown
  end).

(** The receiver's choices (254-263): those of the points, then the random base choices. *)
Definition all_choices (v : vparam) (r : list nat) (base_choices : list bool) : option (list bool) :=
  match gen_choices (v_mp v) (gen_indexes (v_mp v) r) with None => None | Some ch => Some (ch ++ base_choices) end.
Definition or_throw {A} (x : option A) : outcome A := match x with Some a => Val a | None => Thrown end.

(** SendImpl (203-238) with RecvImpl (240-291): returns a and b of the receiver and c of the
    sender.  NextSlice(n) twice: the first v_mp_ot OTs, then the next v_base_ot.  A slice of
    the first part is again a slice of the whole buffer.  [noise0], [outr0], [outs0]: the
    uninitialised buffers; [a0], [b0], [c0]: the caller's spans. *)
Definition silent_vole (rp : N -> N) (raw5 raw11 : list nat) (blake3 h crh : N -> N) (tw wide : bool) (code : code_type)
    (noise_num : nat) (m : bool) (delta : N) (base : list (N * N)) (bits : list bool) (blks : list N) (r : list nat)
    (seeds : nat -> N) (spans spanr : nat -> list N) (check_seed : N) (noise0 outr0 outs0 a0 b0 c0 : list N)
    : outcome (list N * list N * list N) :=
  if negb (length a0 =? length b0) then Thrown else
  bind (make_vparam tw code (length a0) noise_num m) (fun v =>
  bind (make_vparam tw code (length c0) noise_num m) (fun v' =>
  bind (or_throw (ot2vole_send tw wide (sub (v_mp_ot v') (v_base_ot v') base) (base_num (v_mp v')))) (fun w =>
  bind (or_throw (ot2vole_recv tw wide (sub (v_mp_ot v) (v_base_ot v) bits) (sub (v_mp_ot v) (v_base_ot v) blks) (base_num (v_mp v)))) (fun uv =>
  bind (or_throw (mp_vole wide (v_mp v) blake3 h crh true (ktrunc wide delta) delta base bits blks (gen_indexes (v_mp v) r)
                    seeds spans spanr check_seed (fst uv) (snd uv) w noise0 outr0 outs0)) (fun abc =>
  bind (dual_lpn_encode rp raw5 raw11 v' (snd abc) c0) (fun c =>
  bind (dual_lpn_encode2 rp raw5 raw11 v (fst (fst abc)) a0 (snd (fst abc)) b0) (fun ab =>
  Val (fst ab, snd ab, c)))))))).
