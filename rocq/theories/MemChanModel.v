(** Model of yacl/link/transport/channel_mem.cc (the in-memory link) and of the
    retry loop of yacl/link/transport/channel.cc:321-371 with its options
    (yacl/link/retry_options.h). *)
From Coq Require Import List ZArith Bool.
From Verif Require Import ChanKeyModel.
Import ListNotations.
Open Scope Z_scope.

(** * In-memory channel: the receive map of one direction.
    Threads are interleaved at the lock [msg_mutex_]: one event is one critical
    section of OnMessage or the successful / unsuccessful predicate of Recv. *)
Inductive mev :=
| MSend (k v : bytes)     (* peer: SendImpl -> OnMessage *)
| MRecv (k : bytes).      (* Recv: one evaluation of stop_waiting *)

(** recv_msgs_: std::map<std::string, Buffer> (channel_mem.h). *)
Fixpoint mem_find (k : bytes) (m : list (bytes * bytes)) : option bytes :=
  match m with
  | [] => None
  | (k', v) :: r => if bytes_eqb k' k then Some v else mem_find k r
  end.
Fixpoint mem_erase (k : bytes) (m : list (bytes * bytes)) : list (bytes * bytes) :=
  match m with
  | [] => []
  | (k', v) :: r => if bytes_eqb k' k then r else (k', v) :: mem_erase k r
  end.

(** OnMessage (60-67): [emplace] does nothing when the key is present.
    Recv (38-58): find, move out, erase; [None]: keeps waiting. *)
Definition mem_step (e : mev) (m : list (bytes * bytes)) : list (bytes * bytes) * list (bytes * option bytes) :=
  match e with
  | MSend k v => (match mem_find k m with Some _ => m | None => m ++ [(k, v)] end, [])
  | MRecv k => match mem_find k m with
               | Some v => (mem_erase k m, [(k, Some v)])
               | None => (m, [(k, None)])
               end
  end.
(** What the receivers see: for every Recv attempt its key and what it returned. *)
Fixpoint mem_run (es : list mev) (m : list (bytes * bytes)) : list (bytes * option bytes) :=
  match es with
  | [] => []
  | e :: r => let (m', o) := mem_step e m in o ++ mem_run r m'
  end.

(** * Retry options (retry_options.h:24-70); all fields are uint32. *)
Record retry_opts := mkRetry {
  max_retry : Z; interval_ms : Z; incr_ms : Z; max_interval_ms : Z;
  error_codes : list Z; http_codes : list Z; aggressive : bool
}.
(** The protobuf message has the same fields; 0 means "not given". *)
Record retry_proto := mkProto {
  p_max_retry : Z; p_interval : Z; p_incr : Z; p_max_interval : Z;
  p_error_codes : list Z; p_http_codes : list Z; p_aggressive : bool
}.
(** retry_options.h:53-70, with the increment taken from [retry_interval_ms] as
    in the source (line 57-59). *)
Definition of_proto (pb : retry_proto) : retry_opts :=
  mkRetry (if p_max_retry pb =? 0 then 3 else p_max_retry pb)
          (if p_interval pb =? 0 then 1000 else p_interval pb)
          (if p_incr pb =? 0 then 2000 else p_interval pb)
          (if p_max_interval pb =? 0 then 10000 else p_max_interval pb)
          (p_error_codes pb) (p_http_codes pb) (p_aggressive pb).

(** What one pass of the loop meets. *)
Inductive attempt :=
| AOk                           (* SendRequest returns *)
| ALinkError (code http : Z)    (* it throws LinkError *)
| AOtherError                   (* any other exception: not caught *)
| AAborting.                    (* aborting_ is set when the pass starts *)
Inductive send_result := RSent | RThrowLink (code http : Z) | RThrowOther | RAborted | RStillTrying.

(** channel.cc:333-347. *)
Definition should_retry (o : retry_opts) (code http : Z) : bool :=
  if aggressive o then true
  else if (match error_codes o with [] => true | l => existsb (Z.eqb code) l end) then true
  else negb (http =? 0) && match http_codes o with [] => true | l => existsb (Z.eqb http) l end.

(** channel.cc:357-360 in uint32 arithmetic. *)
Definition wait_ms (o : retry_opts) (count : Z) : Z :=
  Z.min ((interval_ms o + (count * incr_ms o) mod 2 ^ 32) mod 2 ^ 32) (max_interval_ms o).

(** channel.cc:321-371: the waits in order and how the call ends.  One list
    element per pass of the loop. *)
Fixpoint send_retry (o : retry_opts) (count : Z) (tries : list attempt) : list Z * send_result :=
  match tries with
  | [] => ([], RStillTrying)
  | AAborting :: _ => ([], RAborted)
  | AOk :: _ => ([], RSent)
  | AOtherError :: _ => ([], RThrowOther)
  | ALinkError c h :: r =>
      if should_retry o c h then
        if max_retry o <=? count then ([], RThrowLink c h)
        else let (ws, res) := send_retry o (count + 1) r in (wait_ms o count :: ws, res)
      else ([], RThrowLink c h)
  end.
