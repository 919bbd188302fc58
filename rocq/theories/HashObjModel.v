(* The hash and MAC objects: yacl/crypto/hash/{ssl_hash,ssl_hash_xof,blake3,
   hash_utils}.{h,cc}, hash/hash_interface.h and hmac/hmac.{h,cc}.

   OpenSSL and BLAKE3 are libraries: what is modelled of a context is the
   algorithm set in it, the bytes absorbed and whether it was finalised, with the
   calls failing where their manual pages say so.  The functions they compute are
   arguments: [digest], [stream] (the output bytes of an extendable function, by
   position), [hmac].  [fetch] says which algorithms the provider has.  Not
   modelled: allocation failures, destructors, threads. *)
From Coq Require Import List Arith Bool Lia.
From Verif Require Import LinCodeModel.
Import ListNotations.
Local Open Scope nat_scope.

Definition bytes := list nat.

(* hash_interface.h:28-48. *)
Inductive algo :=
| UNKNOWN | SHA224 | SHA256 | SHA384 | SHA512 | SM3 | BLAKE2B | BLAKE3
| SHAKE128 | SHAKE256.

(* What a user does with an object. *)
Inductive op :=
| OReset
| OUpdate (d : bytes)
| OCumulative.

Section Objects.
Variable fetch : algo -> bool.
Variable md_size : algo -> nat.
Variable digest : algo -> bytes -> bytes.
Variable stream : algo -> bytes -> nat -> nat.
Variable hmac : algo -> bytes -> bytes -> bytes.
Variable is_xof : algo -> bool.

(* ---- EVP_MD_CTX ---- *)

Record md_ctx := { c_md : option algo; c_data : bytes; c_final : bool }.

Definition md_ctx_new : md_ctx := {| c_md := None; c_data := []; c_final := false |}.
(* EVP_MD_CTX_reset. *)
Definition md_ctx_reset (c : md_ctx) : md_ctx := md_ctx_new.

(* openssl_wrappers.h:102-104, FetchEvpMd: a null pointer if the provider does
   not have it. *)
Definition fetch_md (a : algo) : option algo := if fetch a then Some a else None.

(* EVP_DigestInit_ex; a null type is refused unless the context has one. *)
Definition digest_init (c : md_ctx) (md : option algo) : outcome md_ctx :=
  match md, c_md c with
  | Some a, _ | None, Some a =>
      Val {| c_md := Some a; c_data := []; c_final := false |}
  | None, None => Thrown
  end.

(* EVP_DigestUpdate: not on a context that was not initialised, nor after it was
   finalised. *)
Definition digest_update (c : md_ctx) (d : bytes) : outcome md_ctx :=
  match c_md c with
  | None => Thrown
  | Some a =>
      if c_final c then Thrown
      else Val {| c_md := Some a; c_data := c_data c ++ d; c_final := false |}
  end.

(* EVP_MD_CTX_copy_ex. *)
Definition md_ctx_copy (c : md_ctx) : outcome md_ctx :=
  match c_md c with None => Thrown | Some _ => Val c end.

(* EVP_DigestFinal_ex: the context afterwards, and the digest. *)
Definition digest_final (c : md_ctx) : outcome (md_ctx * bytes) :=
  match c_md c with
  | None => Thrown
  | Some a =>
      if c_final c then Thrown
      else Val ({| c_md := Some a; c_data := c_data c; c_final := true |},
                digest a (c_data c))
  end.

(* EVP_DigestFinalXOF. *)
Definition digest_final_xof (c : md_ctx) (len : nat) : outcome (md_ctx * bytes) :=
  match c_md c with
  | None => Thrown
  | Some a =>
      if c_final c || negb (is_xof a) then Thrown
      else Val ({| c_md := Some a; c_data := c_data c; c_final := true |},
                map (stream a (c_data c)) (seq 0 len))
  end.

(* ---- SslHash ---- *)

Record ssl_hash := { s_algo : algo; s_ctx : md_ctx; s_size : nat }.

(* ssl_hash.cc:35-43, Reset. *)
Definition ssl_reset (h : ssl_hash) : outcome ssl_hash :=
  let c := md_ctx_reset (s_ctx h) in
  bind (digest_init c (fetch_md (s_algo h))) (fun c' =>
    Val {| s_algo := s_algo h; s_ctx := c'; s_size := s_size h |}).

(* ssl_hash.cc:23-29, the constructor. *)
Definition ssl_new (a : algo) : outcome ssl_hash :=
  ssl_reset {| s_algo := a; s_ctx := md_ctx_new; s_size := md_size a |}.

(* ssl_hash.cc:45-48, Update. *)
Definition ssl_update (h : ssl_hash) (d : bytes) : outcome ssl_hash :=
  bind (digest_update (s_ctx h) d) (fun c =>
    Val {| s_algo := s_algo h; s_ctx := c; s_size := s_size h |}).

(* ssl_hash.cc:50-67, CumulativeHash: a copy of the context is finalised.  The
   object after the call comes first. *)
Definition ssl_cumulative (h : ssl_hash) : outcome (ssl_hash * bytes) :=
  bind (md_ctx_copy (s_ctx h)) (fun snapshot =>
  bind (digest_final snapshot) (fun r =>
    if length (snd r) =? s_size h then Val (h, snd r) else Thrown)).

(* ---- SslHashXof ---- *)

(* ssl_hash_xof.cc:22-40, the constructor. *)
Definition xof_new (a : algo) : outcome ssl_hash :=
  bind (digest_init md_ctx_new (fetch_md a)) (fun c =>
    match a with
    | SHAKE128 => Val {| s_algo := a; s_ctx := c; s_size := 32 |}
    | SHAKE256 => Val {| s_algo := a; s_ctx := c; s_size := 64 |}
    | _ => Thrown
    end).

(* ssl_hash_xof.cc:42-45, Reset: md_ was fetched by the constructor. *)
Definition xof_reset (h : ssl_hash) : outcome ssl_hash :=
  bind (digest_init (s_ctx h) (fetch_md (s_algo h))) (fun c =>
    Val {| s_algo := s_algo h; s_ctx := c; s_size := s_size h |}).

(* ssl_hash_xof.cc:47-50, Update. *)
Definition xof_update (h : ssl_hash) (d : bytes) : outcome ssl_hash := ssl_update h d.

(* ssl_hash_xof.cc:56-67, CumulativeHash(output_length). *)
Definition xof_cumulative_len (h : ssl_hash) (len : nat) : outcome (ssl_hash * bytes) :=
  bind (md_ctx_copy (s_ctx h)) (fun snapshot =>
  bind (digest_final_xof snapshot len) (fun r => Val (h, snd r))).

(* ssl_hash_xof.cc:52-54, CumulativeHash(). *)
Definition xof_cumulative (h : ssl_hash) : outcome (ssl_hash * bytes) :=
  xof_cumulative_len h (s_size h).

(* ---- Blake3Hash ---- *)

(* blake3_hasher_init, _update, _finalize: the hasher is the bytes absorbed;
   finalize does not change it. *)
Record blake3_hash := { b_data : bytes; b_size : nat }.

(* blake3.cc:22-36, the constructors; BLAKE3_OUT_LEN is 32. *)
Definition blake3_new_len (output_len : nat) : blake3_hash :=
  {| b_data := []; b_size := output_len |}.
Definition blake3_new : blake3_hash := blake3_new_len 32.
(* blake3.cc:44-48, Reset. *)
Definition blake3_reset (h : blake3_hash) : blake3_hash :=
  {| b_data := []; b_size := b_size h |}.
(* blake3.cc:50-53, Update. *)
Definition blake3_update (h : blake3_hash) (d : bytes) : blake3_hash :=
  {| b_data := b_data h ++ d; b_size := b_size h |}.
(* blake3.cc:55-65, CumulativeHash. *)
Definition blake3_cumulative (h : blake3_hash) : blake3_hash * bytes :=
  let snapshot := b_data h in
  (h, map (stream BLAKE3 snapshot) (seq 0 (b_size h))).

(* ---- Hmac ---- *)

(* EVP_MAC_CTX with the HMAC method. *)
Record mac_ctx := {
  k_digest : option algo; k_key : option bytes; k_data : bytes; k_final : bool }.
Definition mac_ctx_new : mac_ctx :=
  {| k_digest := None; k_key := None; k_data := []; k_final := false |}.

(* The OSSL_PARAM arrays: the one of the constructor carries the name of the
   digest; the one Reset passes is the table of the parameters that can be read
   ("size", "block-size"), which HMAC's init does not look at. *)
Inductive param := PDigest (a : algo) | PSize | PBlockSize.
Definition gettable_params : list param := [PSize; PBlockSize].

Fixpoint set_params (d : option algo) (ps : list param) : outcome (option algo) :=
  match ps with
  | [] => Val d
  | PDigest a :: ps' => if fetch a then set_params (Some a) ps' else Thrown
  | _ :: ps' => set_params d ps'
  end.

(* EVP_MAC_init.  The data() of an empty vector is a null pointer: then the key
   already set is used again, and without one the call fails. *)
Definition mac_init (c : mac_ctx) (key : bytes) (ps : list param) : outcome mac_ctx :=
  bind (set_params (k_digest c) ps) (fun d =>
    match d, (match key with [] => k_key c | _ => Some key end) with
    | Some a, Some k => Val {| k_digest := Some a; k_key := Some k;
                               k_data := []; k_final := false |}
    | _, _ => Thrown
    end).

(* EVP_MAC_update. *)
Definition mac_update (c : mac_ctx) (d : bytes) : outcome mac_ctx :=
  match k_key c with
  | None => Thrown
  | Some _ =>
      if k_final c then Thrown
      else Val {| k_digest := k_digest c; k_key := k_key c;
                  k_data := k_data c ++ d; k_final := false |}
  end.

(* EVP_MAC_final with a null buffer: only the size. *)
Definition mac_final_size (c : mac_ctx) : outcome nat :=
  match k_digest c with None => Thrown | Some a => Val (md_size a) end.
(* EVP_MAC_final with a buffer of [cap] bytes. *)
Definition mac_final (c : mac_ctx) (cap : nat) : outcome (mac_ctx * bytes) :=
  match k_digest c, k_key c with
  | Some a, Some k =>
      if k_final c || (cap <? md_size a) then Thrown
      else Val ({| k_digest := k_digest c; k_key := k_key c;
                   k_data := k_data c; k_final := true |},
                hmac a k (k_data c))
  | _, _ => Thrown
  end.

Record hmac_obj := { h_algo : algo; h_key : bytes; h_ctx : mac_ctx }.

(* hmac.cc:22-38, the constructor. *)
Definition hmac_new (a : algo) (key : bytes) : outcome hmac_obj :=
  bind (mac_init mac_ctx_new key [PDigest a]) (fun c =>
    Val {| h_algo := a; h_key := key; h_ctx := c |}).

(* hmac.cc:42-51, Reset. *)
Definition hmac_reset (h : hmac_obj) : outcome hmac_obj :=
  bind (mac_init (h_ctx h) (h_key h) gettable_params) (fun c =>
    Val {| h_algo := h_algo h; h_key := h_key h; h_ctx := c |}).

(* hmac.cc:53-57, Update. *)
Definition hmac_update (h : hmac_obj) (d : bytes) : outcome hmac_obj :=
  bind (mac_update (h_ctx h) d) (fun c =>
    Val {| h_algo := h_algo h; h_key := h_key h; h_ctx := c |}).

(* hmac.cc:59-76, CumulativeMac, on a copy. *)
Definition hmac_cumulative (h : hmac_obj) : outcome (hmac_obj * bytes) :=
  let copy := h_ctx h in
  bind (mac_final_size copy) (fun outlen =>
  bind (mac_final copy outlen) (fun r => Val (h, firstn outlen (snd r)))).

(* ---- Histories ---- *)

(* The results of the calls of Cumulative in a history; a call that throws ends
   it. *)
Fixpoint run_ops {S : Type} (reset : S -> outcome S) (update : S -> bytes -> outcome S)
  (cumulative : S -> outcome (S * bytes)) (s : S) (ops : list op)
  : outcome (S * list bytes) :=
  match ops with
  | [] => Val (s, [])
  | OReset :: ops' =>
      bind (reset s) (fun s' => run_ops reset update cumulative s' ops')
  | OUpdate d :: ops' =>
      bind (update s d) (fun s' => run_ops reset update cumulative s' ops')
  | OCumulative :: ops' =>
      bind (cumulative s) (fun r =>
      bind (run_ops reset update cumulative (fst r) ops') (fun r' =>
        Val (fst r', snd r :: snd r')))
  end.

Definition outputs {S : Type} (r : outcome (S * list bytes)) : outcome (list bytes) :=
  bind r (fun x => Val (snd x)).

Definition ssl_history (a : algo) (ops : list op) : outcome (list bytes) :=
  outputs (bind (ssl_new a) (fun h => run_ops ssl_reset ssl_update ssl_cumulative h ops)).
Definition xof_history (a : algo) (ops : list op) : outcome (list bytes) :=
  outputs (bind (xof_new a) (fun h => run_ops xof_reset xof_update xof_cumulative h ops)).
Definition blake3_history (len : nat) (ops : list op) : outcome (list bytes) :=
  outputs (run_ops (fun h => Val (blake3_reset h)) (fun h d => Val (blake3_update h d))
             (fun h => Val (blake3_cumulative h)) (blake3_new_len len) ops).
Definition hmac_history (a : algo) (key : bytes) (ops : list op) : outcome (list bytes) :=
  outputs (bind (hmac_new a key) (fun h =>
    run_ops hmac_reset hmac_update hmac_cumulative h ops)).

(* ---- hash_utils.cc ---- *)

(* hash_utils.cc:30-44 and 63-69: Sha256, Sm3, Blake2 of [n] bytes. *)
Definition one_shot (a : algo) (n : nat) (d : bytes) : outcome bytes :=
  bind (ssl_new a) (fun h =>
  bind (ssl_update h d) (fun h' =>
  bind (ssl_cumulative h') (fun r =>
    if n <=? length (snd r) then Val (firstn n (snd r)) else Thrown))).
Definition sha256 := one_shot SHA256 32.
Definition sm3 := one_shot SM3 32.
Definition blake2 := one_shot BLAKE2B 64.

(* hash_utils.cc:46-60: Shake128 and Shake256. *)
Definition shake (a : algo) (d : bytes) (len : nat) : outcome bytes :=
  if 0 <? len then
    bind (xof_new a) (fun h =>
    bind (xof_update h d) (fun h' =>
    bind (xof_cumulative_len h' len) (fun r => Val (snd r))))
  else Thrown.

(* hash_utils.cc:72-80: Blake3. *)
Definition blake3 (d : bytes) : bytes :=
  map (stream BLAKE3 ([] ++ d)) (seq 0 32).

End Objects.
