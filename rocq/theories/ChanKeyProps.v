(** C02: wire keys are unambiguous. *)
From Coq Require Import List ZArith.
From Verif Require Import ChanKeyModel ChanKeyProof.
Import ListNotations.
Open Scope Z_scope.

(** A key is accepted exactly when it is non-empty and free of the separator. *)
Theorem key_accepted_iff : forall k,
  normal_key_ok k = true <-> k <> [] /\ ~ exists p s, k = p ++ [1; 2] ++ s.
Proof. exact normal_key_ok_spec. Qed.
Print Assumptions key_accepted_iff.

Theorem wire_key_round_trip : forall k n,
  k <> [] -> ~ (exists p s, k = p ++ [1; 2] ++ s) -> 0 <= n < 2 ^ 64 ->
  split_channel_key (build_channel_key k n) = Some (k, n).
Proof. exact (fun k n H1 H2 => split_build k n (proj2 (normal_key_ok_spec k) (conj H1 H2))). Qed.
Print Assumptions wire_key_round_trip.

Theorem wire_key_injective : forall k k' n n',
  normal_key_ok k = true -> normal_key_ok k' = true ->
  0 <= n < 2 ^ 64 -> 0 <= n' < 2 ^ 64 ->
  build_channel_key k n = build_channel_key k' n' -> k = k' /\ n = n'.
Proof. exact build_inj. Qed.
Print Assumptions wire_key_injective.

Theorem wire_key_not_control : forall k n,
  normal_key_ok k = true -> 0 <= n < 2 ^ 64 ->
  build_channel_key k n <> kAckKey /\ build_channel_key k n <> kFinKey.
Proof. exact build_not_ctl. Qed.
Print Assumptions wire_key_not_control.

(** The ids carried by ACK and FIN messages survive printing and parsing. *)
Theorem size_text_round_trip : forall n,
  0 <= n < 2 ^ 64 -> view_to_size_t (to_string n) = Some n.
Proof. exact view_to_string. Qed.
Print Assumptions size_text_round_trip.

(** With sequence ids switched off the key travels as it is and is read back with id 0. *)
Theorem plain_key_round_trip : forall k,
  normal_key_ok k = true ->
  split_channel_key k = Some (k, 0) /\ k <> kAckKey /\ k <> kFinKey.
Proof. exact (fun k H => conj (plain_key_split k H) (plain_key_not_ctl k H)). Qed.
Print Assumptions plain_key_round_trip.

(** Non-vacuity: a legal key that ends in the first separator byte, a key equal
    to the text of a control key, and the largest id. *)
Example keys_concrete :
  normal_key_ok [65; 67; 75; 1] = true /\ normal_key_ok [65; 67; 75] = true /\
  build_channel_key [65; 67; 75; 1] (2 ^ 64 - 1) =
    [65; 67; 75; 1; 1; 2; 49; 56; 52; 52; 54; 55; 52; 52; 48; 55; 51; 55; 48; 57; 53; 53; 49; 54; 49; 53] /\
  split_channel_key (build_channel_key [65; 67; 75; 1] (2 ^ 64 - 1)) = Some ([65; 67; 75; 1], 2 ^ 64 - 1).
Proof. vm_compute. repeat split; reflexivity. Qed.
