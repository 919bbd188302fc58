(** Model of the wire keys of yacl/link/transport/channel.cc:30-69.
    A byte is a [Z]; a std::string / std::string_view is a list of bytes. *)
From Coq Require Import List ZArith Bool.
Import ListNotations.
Open Scope Z_scope.

Notation byte := Z (only parsing).
Notation bytes := (list Z) (only parsing).

Fixpoint bytes_eqb (a b : bytes) : bool :=
  match a, b with
  | [], [] => true
  | x :: a', y :: b' => (x =? y) && bytes_eqb a' b'
  | _, _ => false
  end.

(** channel.cc:34-36: kAckKey = "ACK\x01\x02", kFinKey = "FIN\x01\x02",
    kSeqKey = "\x01\x02". *)
Definition kAckKey : bytes := [65; 67; 75; 1; 2].
Definition kFinKey : bytes := [70; 73; 78; 1; 2].
Definition kSeqKey : bytes := [1; 2].

(** [std::string_view::find(kSeqKey)]: the part before and the part after the
    first occurrence of the separator; [None] is npos. *)
Fixpoint find_sep (k : bytes) : option (bytes * bytes) :=
  match k with
  | [] => None
  | c :: r =>
      match r with
      | d :: r' =>
          if (c =? 1) && (d =? 2) then Some ([], r')
          else match find_sep r with
               | None => None
               | Some (p, s) => Some (c :: p, s)
               end
      | [] => None
      end
  end.

(** channel.cc:38-42: NormalMessageKeyEnforce; [false] is a thrown exception. *)
Definition normal_key_ok (k : bytes) : bool :=
  match k with
  | [] => false
  | _ => match find_sep k with None => true | Some _ => false end
  end.

(** [std::to_string] on a non-negative integer below 10^20 (which covers size_t):
    decimal digits, most significant first. *)
Fixpoint dec_fuel (fuel : nat) (n : Z) (acc : bytes) : bytes :=
  match fuel with
  | O => acc
  | S f => let acc' := (48 + n mod 10) :: acc in
           if n <? 10 then acc' else dec_fuel f (n / 10) acc'
  end.
Definition to_string (n : Z) : bytes := dec_fuel 20 n [].

(** [absl::SimpleAtoi] into size_t (channel.cc:44-51, ViewToSizeT): strip ASCII
    white space at both ends, optional sign, decimal digits, fail on an empty
    number, a minus sign, a foreign character or a value of 2^64 or more.
    [None] is a failing YACL_ENFORCE.  (absl itself is not part of /repo.) *)
Definition is_space (c : byte) : bool := (c =? 32) || ((9 <=? c) && (c <=? 13)).
Fixpoint drop_space (s : bytes) : bytes :=
  match s with
  | c :: r => if is_space c then drop_space r else s
  | [] => []
  end.
Definition strip (s : bytes) : bytes := rev (drop_space (rev (drop_space s))).
Fixpoint digits_val (acc : Z) (s : bytes) : option Z :=
  match s with
  | [] => Some acc
  | c :: r => if (48 <=? c) && (c <=? 57) then
                let acc' := 10 * acc + (c - 48) in
                if acc' <? 2 ^ 64 then digits_val acc' r else None
              else None
  end.
Definition view_to_size_t (s : bytes) : option Z :=
  match strip s with
  | [] => None
  | c :: r => if c =? 45 then None
              else if c =? 43 then match r with [] => None | _ => digits_val 0 r end
              else digits_val 0 (c :: r)
  end.

(** channel.cc:53-55: BuildChannelKey. *)
Definition build_channel_key (msg_key : bytes) (seq_id : Z) : bytes :=
  msg_key ++ kSeqKey ++ to_string seq_id.

(** channel.cc:57-69: SplitChannelKey; [None] is an exception from ViewToSizeT. *)
Definition split_channel_key (key : bytes) : option (bytes * Z) :=
  match find_sep key with
  | None => Some (key, 0)
  | Some (p, s) => match view_to_size_t s with
                   | None => None
                   | Some n => Some (p, n)
                   end
  end.
