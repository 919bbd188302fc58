(** Model of message chunking: yacl/link/transport/channel.cc:281-312 (sender)
    and 476-540 (receiver). *)
From Coq Require Import List ZArith Bool.
From Verif Require Import ChanKeyModel.
Import ListNotations.
Open Scope Z_scope.

(** Outcome of a call: normal return, a thrown exception, undefined behaviour
    (here always an out-of-bounds memory write). *)
Inductive res (A : Type) : Type :=
| Ok (a : A)
| Throw
| UB.
Arguments Ok {A} a.
Arguments Throw {A}.
Arguments UB {A}.

(** A chunk request: key, payload slice, offset and total length, the two last
    as the size_t values found in the request (channel.cc:293-298, 788-792). *)
Record chunk := mkChunk { c_key : bytes; c_data : bytes; c_offset : Z; c_total : Z }.

(** channel.cc:285: number of chunks. *)
Definition num_chunks (n b : nat) : nat := Nat.div (n + b - 1) b.

(** channel.cc:291-298: the chunk with index [idx] of [value], chunk size [b]. *)
Definition chunk_at (key value : bytes) (b idx : nat) : chunk :=
  let off := (idx * b)%nat in
  mkChunk key
    (firstn (Nat.min b (length value - off)) (skipn off value))
    (Z.of_nat off) (Z.of_nat (length value)).

(** channel.cc:290-310: all requests issued by SendChunked (the order in which
    the background tasks really send them is left to the network model). *)
Definition send_chunked (key value : bytes) (b : nat) : list chunk :=
  map (chunk_at key value b) (seq 0 (num_chunks (length value) b)).

(** channel.cc:476-505: class ChunkedMessage. *)
Record cmsg := mkCmsg { received : list Z; bytes_written : Z; message : bytes }.

(** channel.cc:478: a fresh buffer of [message_length] bytes; its contents are
    whatever malloc returned, i.e. an arbitrary function [junk].  A size_t of
    2^63 or more becomes negative in the int64_t parameter and the allocation fails. *)
Definition new_cmsg (junk : nat -> byte) (total : Z) : res cmsg :=
  if total <? 2 ^ 63 then Ok (mkCmsg [] 0 (map junk (seq 0 (Z.to_nat total)))) else Throw.

(** memcpy of [data] to [buf + off]. *)
Definition write_at (off : nat) (data buf : bytes) : bytes :=
  firstn off buf ++ data ++ skipn (off + length data) buf.

Definition zlen (s : bytes) : Z := Z.of_nat (length s).

(** channel.cc:480-487: AddChunk. *)
Definition add_chunk (m : cmsg) (offset : Z) (data : bytes) : res cmsg :=
  if existsb (Z.eqb offset) (received m) then Ok m
  else if (0 <=? offset) && (offset + zlen data <=? zlen (message m)) then
    Ok (mkCmsg (offset :: received m) (bytes_written m + zlen data)
               (write_at (Z.to_nat offset) data (message m)))
  else UB.

(** channel.cc:489-492: IsFullyFilled. *)
Definition is_fully_filled (m : cmsg) : bool := bytes_written m =? zlen (message m).

(** chunked_values_ (channel.h:339): map from wire key to partial message. *)
Definition table := list (bytes * cmsg).

Fixpoint tab_find (k : bytes) (t : table) : option cmsg :=
  match t with
  | [] => None
  | (k', m) :: r => if bytes_eqb k k' then Some m else tab_find k r
  end.

Definition tab_erase (k : bytes) (t : table) : table :=
  filter (fun e => negb (bytes_eqb k (fst e))) t.

(** size_t to int64_t conversion (argument of AddChunk). *)
Definition to_int64 (z : Z) : Z := if z <? 2 ^ 63 then z else z - 2 ^ 64.

(** channel.cc:507-540: OnChunkedMessage.  Returns the new table and, when the
    message is complete, the reassembled value handed to OnMessage. *)
Definition on_chunk (junk : nat -> byte) (t : table) (c : chunk) : res (table * option bytes) :=
  if c_total c <? (c_offset c + zlen (c_data c)) mod 2 ^ 64 then Throw
  else
    let entry := match tab_find (c_key c) t with
                 | Some m => Ok m
                 | None => new_cmsg junk (c_total c)
                 end in
    match entry with
    | Throw => Throw
    | UB => UB
    | Ok m =>
        match add_chunk m (to_int64 (c_offset c)) (c_data c) with
        | Throw => Throw
        | UB => UB
        | Ok m' =>
            if is_fully_filled m' then Ok (tab_erase (c_key c) t, Some (message m'))
            else Ok ((c_key c, m') :: tab_erase (c_key c) t, None)
        end
    end.

(** A sequence of arrivals; the list of outputs has one entry per arrival. *)
Fixpoint on_chunks (junk : nat -> byte) (t : table) (cs : list chunk)
  : res (table * list (option bytes)) :=
  match cs with
  | [] => Ok (t, [])
  | c :: r =>
      match on_chunk junk t c with
      | Throw => Throw
      | UB => UB
      | Ok (t', o) =>
          match on_chunks junk t' r with
          | Throw => Throw
          | UB => UB
          | Ok (t'', os) => Ok (t'', o :: os)
          end
      end
  end.
