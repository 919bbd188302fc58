(* Properties of the hash and MAC objects over every history of calls. *)
From Coq Require Import List Arith Bool Lia.
From Verif Require Import LinCodeModel HashObjModel.
Import ListNotations.
Local Open Scope nat_scope.

(* What a history should return: [f] of the bytes given since the start or the
   last reset, once per call of Cumulative. *)
Fixpoint last_segment (acc : bytes) (ops : list op) : bytes :=
  match ops with
  | [] => acc
  | OReset :: ops' => last_segment [] ops'
  | OUpdate d :: ops' => last_segment (acc ++ d) ops'
  | OCumulative :: ops' => last_segment acc ops'
  end.
Fixpoint prefixes_at (before ops : list op) : list (list op) :=
  match ops with
  | [] => []
  | o :: ops' =>
      (match o with OCumulative => [before] | _ => [] end)
      ++ prefixes_at (before ++ [o]) ops'
  end.
(* One answer per call, each from the calls before it. *)
Definition expected (f : bytes -> bytes) (ops : list op) : list bytes :=
  map (fun before => f (last_segment [] before)) (prefixes_at [] ops).

Lemma last_segment_app ops1 : forall acc ops2,
  last_segment acc (ops1 ++ ops2) = last_segment (last_segment acc ops1) ops2.
Proof.
  induction ops1 as [|[|d|] ops1 IH]; intros acc ops2; cbn [app last_segment];
    [reflexivity|apply IH..].
Qed.

Section Generic.
Context {S : Type}.
Variable reset : S -> outcome S.
Variable update : S -> bytes -> outcome S.
Variable cumulative : S -> outcome (S * bytes).
Variable inv : S -> bytes -> Prop.
Variable f : bytes -> bytes.
Hypothesis Hreset : forall s d, inv s d -> exists s', reset s = Val s' /\ inv s' [].
Hypothesis Hupdate : forall s d e, inv s d -> exists s', update s e = Val s' /\ inv s' (d ++ e).
Hypothesis Hcum : forall s d, inv s d -> exists s', cumulative s = Val (s', f d) /\ inv s' d.

Lemma run_ops_spec ops : forall before s,
  inv s (last_segment [] before) ->
  exists s', run_ops reset update cumulative s ops =
             Val (s', map (fun b => f (last_segment [] b)) (prefixes_at before ops)) /\
             inv s' (last_segment [] (before ++ ops)).
Proof.
  induction ops as [|o ops IH]; intros before s Hs.
  - exists s. cbn. rewrite app_nil_r. auto.
  - assert (E : before ++ o :: ops = (before ++ [o]) ++ ops)
      by (rewrite <- app_assoc; reflexivity).
    destruct o as [|d|]; cbn [run_ops prefixes_at].
    + destruct (Hreset _ _ Hs) as (s1 & -> & H1). cbn [bind app].
      rewrite E. apply IH. rewrite last_segment_app. exact H1.
    + destruct (Hupdate _ _ d Hs) as (s1 & -> & H1). cbn [bind app].
      rewrite E. apply IH. rewrite last_segment_app. exact H1.
    + destruct (Hcum _ _ Hs) as (s1 & -> & H1). cbn [bind app fst snd map].
      destruct (IH (before ++ [OCumulative]) s1) as (s2 & -> & H2).
      { rewrite last_segment_app. exact H1. }
      exists s2. cbn [bind fst snd]. rewrite E. auto.
Qed.
End Generic.

Section Objects.
Variable fetch : algo -> bool.
Variable md_size : algo -> nat.
Variable digest : algo -> bytes -> bytes.
Variable stream : algo -> bytes -> nat -> nat.
Variable hmac : algo -> bytes -> bytes -> bytes.
Variable is_xof : algo -> bool.
(* The libraries: a digest and a MAC have the size the library states. *)
Hypothesis digest_len : forall a d, length (digest a d) = md_size a.
Hypothesis hmac_len : forall a k d, length (hmac a k d) = md_size a.
Hypothesis shakes : is_xof SHAKE128 = true /\ is_xof SHAKE256 = true.

Notation ssl_history := (ssl_history fetch md_size digest).
Notation xof_history := (xof_history fetch stream is_xof).
Notation blake3_history := (blake3_history stream).
Notation hmac_history := (hmac_history fetch md_size hmac).

Definition ssl_inv (a : algo) (h : ssl_hash) (d : bytes) : Prop :=
  h = {| s_algo := a; s_size := md_size a;
         s_ctx := {| c_md := Some a; c_data := d; c_final := false |} |}.

(* SslHash: every answer is the digest of what was added since the construction
   or the last Reset, of DigestSize bytes; asking changes nothing. *)
Theorem ssl_hash_history a ops :
  fetch a = true ->
  ssl_history a ops = Val (expected (digest a) ops) /\
  Forall (fun o => length o = md_size a) (expected (digest a) ops).
Proof.
  intros Hf. split.
  - assert (N : ssl_new fetch md_size a =
      Val {| s_algo := a; s_size := md_size a;
             s_ctx := {| c_md := Some a; c_data := []; c_final := false |} |}).
    { unfold ssl_new, ssl_reset, fetch_md. cbn [s_algo]. rewrite Hf. reflexivity. }
    unfold HashObjModel.ssl_history. rewrite N. cbn [bind].
    destruct (run_ops_spec (ssl_reset fetch) ssl_update (ssl_cumulative digest)
                (ssl_inv a) (digest a)) with (ops := ops) (before := @nil op)
      (s := {| s_algo := a; s_size := md_size a;
               s_ctx := {| c_md := Some a; c_data := []; c_final := false |} |})
      as (s' & E & _).
    + intros s d ->. unfold ssl_reset, fetch_md. cbn [s_algo]. rewrite Hf.
      eexists. split; [reflexivity|reflexivity].
    + intros s d e ->. eexists. split; reflexivity.
    + intros s d ->. unfold ssl_cumulative.
      cbn [s_ctx md_ctx_copy c_md bind digest_final c_final c_data snd s_size].
      rewrite digest_len, Nat.eqb_refl. eexists. split; reflexivity.
    + reflexivity.
    + unfold outputs. rewrite E. reflexivity.
  - unfold expected. rewrite Forall_map. apply Forall_forall. intros b _. apply digest_len.
Qed.

(* An algorithm the provider lacks is refused by the constructor. *)
Theorem ssl_hash_refused a ops : fetch a = false -> ssl_history a ops = Thrown.
Proof.
  intros Hf. assert (N : ssl_new fetch md_size a = Thrown).
  { unfold ssl_new, ssl_reset, fetch_md. cbn [s_algo]. rewrite Hf. reflexivity. }
  unfold HashObjModel.ssl_history. rewrite N. reflexivity.
Qed.

Definition xof_size (a : algo) : option nat :=
  match a with SHAKE128 => Some 32 | SHAKE256 => Some 64 | _ => None end.
Definition xof_state (a : algo) (n : nat) (d : bytes) : ssl_hash :=
  {| s_algo := a; s_size := n;
     s_ctx := {| c_md := Some a; c_data := d; c_final := false |} |}.

(* SslHashXof. *)
Theorem xof_hash_history a n ops :
  xof_size a = Some n -> fetch a = true ->
  xof_history a ops =
    Val (expected (fun d => map (stream a d) (seq 0 n)) ops).
Proof.
  intros Hn Hf.
  assert (Hx : is_xof a = true) by (destruct shakes, a; try discriminate Hn; assumption).
  assert (N : xof_new fetch a = Val (xof_state a n [])).
  { unfold xof_new, fetch_md. rewrite Hf. cbn [digest_init bind].
    destruct a; try discriminate Hn; injection Hn as <-; reflexivity. }
  unfold HashObjModel.xof_history. rewrite N. cbn [bind].
  destruct (run_ops_spec (xof_reset fetch) xof_update (xof_cumulative stream is_xof)
              (fun h d => h = xof_state a n d) (fun d => map (stream a d) (seq 0 n)))
    with (ops := ops) (before := @nil op) (s := xof_state a n []) as (s' & E & _).
  - intros s d ->. unfold xof_reset, fetch_md. cbn [s_algo xof_state]. rewrite Hf.
    eexists. split; reflexivity.
  - intros s d e ->. eexists. split; reflexivity.
  - intros s d ->. unfold xof_cumulative, xof_cumulative_len, xof_state.
    cbn [s_ctx s_size md_ctx_copy c_md bind digest_final_xof c_final c_data snd].
    rewrite Hx. eexists. split; reflexivity.
  - reflexivity.
  - unfold outputs. rewrite E. reflexivity.
Qed.

(* Only the two SHAKE functions have such an object. *)
Theorem xof_hash_refused a ops :
  xof_size a = None \/ fetch a = false -> xof_history a ops = Thrown.
Proof.
  unfold HashObjModel.xof_history, xof_new, fetch_md. intros [H|H].
  - destruct (fetch a); [|reflexivity]. cbn [digest_init bind].
    destruct a; try discriminate H; reflexivity.
  - rewrite H. reflexivity.
Qed.

(* A longer answer begins with the shorter one, and asking for either leaves the
   object as it was. *)
Theorem xof_lengths a n d m len :
  xof_size a = Some n -> m <= len ->
  exists short long,
    xof_cumulative_len stream is_xof (xof_state a n d) m = Val (xof_state a n d, short) /\
    xof_cumulative_len stream is_xof (xof_state a n d) len = Val (xof_state a n d, long) /\
    length short = m /\ length long = len /\ firstn m long = short.
Proof.
  intros Hn Hm.
  assert (Hx : is_xof a = true) by (destruct shakes, a; try discriminate Hn; assumption).
  unfold xof_cumulative_len, xof_state.
  cbn [s_ctx md_ctx_copy c_md bind digest_final_xof c_final c_data snd].
  rewrite Hx. cbn [orb negb bind snd].
  eexists _, _. split; [reflexivity|]. split; [reflexivity|].
  rewrite !map_length, !seq_length, firstn_map. split; [reflexivity|].
  split; [reflexivity|]. f_equal.
  replace len with (m + (len - m)) by lia.
  rewrite seq_app, firstn_app, seq_length, Nat.sub_diag, firstn_O, app_nil_r.
  rewrite firstn_all2; [reflexivity|rewrite seq_length; lia].
Qed.

(* Blake3Hash, with any output length. *)
Theorem blake3_hash_history len ops :
  blake3_history len ops =
    Val (expected (fun d => map (stream BLAKE3 d) (seq 0 len)) ops).
Proof.
  unfold HashObjModel.blake3_history.
  destruct (run_ops_spec (fun h => Val (blake3_reset h)) (fun h d => Val (blake3_update h d))
              (fun h => Val (blake3_cumulative stream h))
              (fun h d => h = {| b_data := d; b_size := len |})
              (fun d => map (stream BLAKE3 d) (seq 0 len)))
    with (ops := ops) (before := @nil op) (s := blake3_new_len len) as (s' & E & _).
  - intros s d ->. eexists. split; reflexivity.
  - intros s d e ->. eexists. split; reflexivity.
  - intros s d ->. eexists. split; reflexivity.
  - reflexivity.
  - unfold outputs. rewrite E. reflexivity.
Qed.

(* Hmac, with a key that is not empty: every answer is the MAC, under the key of
   the constructor, of what was added since the construction or the last Reset. *)
Theorem hmac_obj_history a key ops :
  fetch a = true -> key <> [] ->
  hmac_history a key ops = Val (expected (hmac a key) ops).
Proof.
  intros Hf Hk.
  assert (K : forall c : option bytes, match key with [] => c | _ => Some key end = Some key)
    by (intros c; destruct key; [contradiction|reflexivity]).
  set (st := fun d => {| h_algo := a; h_key := key;
                h_ctx := {| k_digest := Some a; k_key := Some key;
                            k_data := d; k_final := false |} |}).
  assert (N : hmac_new fetch a key = Val (st [])).
  { unfold hmac_new, mac_init. cbn [set_params]. rewrite Hf.
    cbn [bind k_key mac_ctx_new]. rewrite K. reflexivity. }
  unfold HashObjModel.hmac_history. rewrite N. cbn [bind].
  destruct (run_ops_spec (hmac_reset fetch) hmac_update (hmac_cumulative md_size hmac)
              (fun h d => h = st d) (hmac a key))
    with (ops := ops) (before := @nil op) (s := st []) as (s' & E & _).
  - intros s d ->. unfold hmac_reset, mac_init, gettable_params, st.
    cbn [set_params bind h_ctx h_key h_algo k_digest k_key]. rewrite K.
    eexists. split; reflexivity.
  - intros s d e ->. eexists. split; reflexivity.
  - intros s d ->. unfold hmac_cumulative, mac_final_size, mac_final, st.
    cbn [h_ctx bind k_digest k_key k_final k_data orb].
    rewrite Nat.ltb_irrefl. cbn [bind snd]. eexists.
    rewrite firstn_all2 by (rewrite hmac_len; lia). split; reflexivity.
  - reflexivity.
  - unfold outputs. rewrite E. reflexivity.
Qed.

(* An empty key, which HMAC allows, is refused: its data pointer is null. *)
Theorem hmac_empty_key_refuted :
  (forall a, fetch a = true) ->
  exists a key, forall ops, hmac_history a key ops = Thrown.
Proof.
  intros Hf. exists SHA256, []. intros ops.
  unfold HashObjModel.hmac_history, hmac_new, mac_init. cbn [set_params].
  rewrite Hf. reflexivity.
Qed.

(* How the data is cut into updates, and how often the value is asked for
   before, does not matter. *)
Theorem expected_chunking f pre chunks :
  Forall (fun o => match o with OUpdate _ | OCumulative => True | OReset => False end) chunks ->
  last (expected f (pre ++ OReset :: chunks ++ [OCumulative])) [] =
  f (concat (map (fun o => match o with OUpdate d => d | _ => [] end) chunks)).
Proof.
  intros HC.
  assert (P : forall ops before,
    prefixes_at before (ops ++ [OCumulative]) = prefixes_at before ops ++ [before ++ ops]).
  { induction ops as [|o ops IH]; intros before; cbn [app prefixes_at].
    - rewrite app_nil_r. reflexivity.
    - rewrite IH, <- !app_assoc. reflexivity. }
  unfold expected.
  replace (pre ++ OReset :: chunks ++ [OCumulative])
    with ((pre ++ OReset :: chunks) ++ [OCumulative]) by (rewrite <- app_assoc; reflexivity).
  rewrite P, map_app. cbn [map app]. rewrite last_last.
  f_equal. rewrite last_segment_app. cbn [last_segment].
  assert (L : forall acc, last_segment acc chunks =
    acc ++ concat (map (fun o => match o with OUpdate d => d | _ => [] end) chunks)).
  { induction HC as [|o l Ho Hl IH]; intros acc; cbn [last_segment map concat];
      [rewrite app_nil_r; reflexivity|].
    destruct o as [|d|]; [contradiction|rewrite IH, app_assoc; reflexivity|apply IH]. }
  apply L.
Qed.

(* ---- The one-shot functions ---- *)

Theorem one_shot_correct a n d :
  fetch a = true ->
  one_shot fetch md_size digest a n d =
    if n <=? md_size a then Val (firstn n (digest a d)) else Thrown.
Proof.
  intros Hf. unfold one_shot, ssl_new, ssl_reset, fetch_md. cbn [s_algo]. rewrite Hf.
  unfold ssl_update, ssl_cumulative.
  cbn [digest_init bind s_ctx digest_update c_md c_final c_data md_ctx_copy digest_final snd
       s_size app].
  rewrite digest_len, Nat.eqb_refl. cbn [bind snd]. rewrite digest_len. reflexivity.
Qed.

(* With the sizes of the standards: the whole digest. *)
Theorem one_shots d :
  (fetch SHA256 = true -> md_size SHA256 = 32 ->
     sha256 fetch md_size digest d = Val (digest SHA256 d)) /\
  (fetch SM3 = true -> md_size SM3 = 32 ->
     sm3 fetch md_size digest d = Val (digest SM3 d)) /\
  (fetch BLAKE2B = true -> md_size BLAKE2B = 64 ->
     blake2 fetch md_size digest d = Val (digest BLAKE2B d)) /\
  blake3_history 32 [OUpdate d; OCumulative] = Val [blake3 stream d].
Proof.
  unfold sha256, sm3, blake2.
  split; [|split; [|split]]; [intros Hf Hs; rewrite one_shot_correct by exact Hf; rewrite Hs;
    cbn [Nat.leb]; f_equal; apply firstn_all2; rewrite digest_len, Hs; lia..|].
  rewrite blake3_hash_history. reflexivity.
Qed.

Theorem shake_correct a n d len :
  xof_size a = Some n -> fetch a = true ->
  shake fetch stream is_xof a d len =
    if len =? 0 then Thrown else Val (map (stream a d) (seq 0 len)).
Proof.
  intros Hn Hf.
  assert (Hx : is_xof a = true) by (destruct shakes, a; try discriminate Hn; assumption).
  unfold shake. destruct len as [|len]; [reflexivity|].
  cbn [Nat.ltb Nat.leb Nat.eqb].
  assert (N : xof_new fetch a = Val (xof_state a n [])).
  { unfold xof_new, fetch_md. rewrite Hf. cbn [digest_init bind].
    destruct a; try discriminate Hn; injection Hn as <-; reflexivity. }
  rewrite N. cbn [bind]. unfold xof_update, ssl_update, xof_state, xof_cumulative_len.
  cbn [s_ctx digest_update c_md c_final c_data bind md_ctx_copy digest_final_xof app].
  rewrite Hx. reflexivity.
Qed.

End Objects.

(* ---- Concrete cases ---- *)

Definition toy_size (a : algo) : nat := match a with BLAKE2B => 64 | _ => 32 end.
Definition toy_digest (a : algo) (d : bytes) : bytes :=
  repeat (list_sum d) (toy_size a).
Example toy_digest_len : forall a d, length (toy_digest a d) = toy_size a.
Proof. intros a d. apply repeat_length. Qed.
Example ssl_case :
  ssl_history (fun _ => true) toy_size toy_digest SHA256
    [OUpdate [1; 2]; OCumulative; OUpdate [3]; OCumulative; OReset; OCumulative]
  = Val [repeat 3 32; repeat 6 32; repeat 0 32].
Proof. reflexivity. Qed.
Example expected_case :
  expected (fun d => d) [OUpdate [1; 2]; OCumulative; OUpdate [3]; OCumulative; OReset; OCumulative]
  = [[1; 2]; [1; 2; 3]; []].
Proof. reflexivity. Qed.
Example hmac_case :
  hmac_history (fun _ => true) toy_size (fun a k d => toy_digest a (k ++ d)) SHA256 [7]
    [OUpdate [1]; OReset; OUpdate [2]; OCumulative; OCumulative]
  = Val [repeat 9 32; repeat 9 32].
Proof. reflexivity. Qed.
Example xof_case :
  xof_history (fun _ => true) (fun _ d i => list_sum d + i)
    (fun a => match a with SHAKE128 | SHAKE256 => true | _ => false end) SHAKE128
    [OUpdate [1]; OCumulative] = Val [seq 1 32].
Proof. reflexivity. Qed.

Print Assumptions ssl_hash_history.
Print Assumptions ssl_hash_refused.
Print Assumptions xof_hash_history.
Print Assumptions xof_hash_refused.
Print Assumptions xof_lengths.
Print Assumptions blake3_hash_history.
Print Assumptions hmac_obj_history.
Print Assumptions hmac_empty_key_refuted.
Print Assumptions expected_chunking.
Print Assumptions one_shot_correct.
Print Assumptions one_shots.
Print Assumptions shake_correct.
