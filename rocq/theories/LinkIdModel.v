(** Model of the identifiers and ranks of a link context:
    yacl/link/context.cc:102-112 (ranks), 338-400 (Spawn, SubWorld), 402-411
    (NextId, NextP2PId), context.h:330-332 (counters), and of the event names
    of yacl/link/algorithm/*.cc.
    Strings are lists of bytes; integers are printed as by fmt (decimal). *)
From Coq Require Import List ZArith Bool.
From Verif Require Import ChanKeyModel.
Import ListNotations.
Open Scope Z_scope.

(** context.cc:106-108 in size_t arithmetic. *)
Definition prev_rank (n rank stride : Z) : Z := ((rank - stride + n) mod 2 ^ 64) mod n.
(** context.cc:110-112 in size_t arithmetic. *)
Definition next_rank (n rank stride : Z) : Z := ((rank + stride) mod 2 ^ 64) mod n.

(** The kType constants: allgather.cc:25, barrier.cc:24, broadcast.cc:26,
    gather.cc:25, scatter.cc:24. *)
Inductive coll := AllGather | Barrier | Broadcast | Gather | Scatter.
Definition coll_name (c : coll) : bytes :=
  match c with
  | AllGather => [65; 76; 76; 71; 65; 84; 72; 69; 82]
  | Barrier => [66; 65; 82; 82; 73; 69; 82]
  | Broadcast => [66; 67; 65; 83; 84]
  | Gather => [71; 65; 84; 72; 69; 82]
  | Scatter => [83; 67; 65; 84; 84; 69; 82]
  end.

(** fmt::format("{}:{}", id, counter) then fmt::format("{}:{}", _, kType)
    (context.cc:402-404, e.g. allgather.cc:31). *)
Definition coll_key (id : bytes) (counter : Z) (c : coll) : bytes :=
  id ++ [58] ++ to_string counter ++ [58] ++ coll_name c.

(** fmt::format("{}:P2P-{}:{}->{}", id, counter, src, dst) (context.cc:406-411). *)
Definition p2p_key (id : bytes) (counter src dst : Z) : bytes :=
  id ++ [58; 80; 50; 80; 45] ++ to_string counter ++ [58] ++ to_string src ++ [45; 62] ++ to_string dst.

(** The state of a Context that matters for identifiers: counter_ (size_t),
    p2p_counter_ (map to int), child_counter_ (size_t), is_sub_world_. *)
Record context := mkCtx {
  ctx_id : bytes;
  ctx_rank : Z;
  counter : Z;
  p2p_counter : Z -> Z -> Z;
  child_counter : Z;
  is_sub_world : bool
}.

(** context.cc:66-92. *)
Definition new_context (id : bytes) (rank : Z) (sub : bool) : context :=
  mkCtx id rank 0 (fun _ _ => 0) 0 sub.

(** Operations of one party that draw a message key. *)
Inductive comm :=
| CColl (c : coll)        (* any collective *)
| CSend (dst : Z)         (* Send, SendAsync, SendAsyncThrottled: context.cc:213-253 *)
| CRecv (src : Z).        (* Recv: context.cc:255-261 *)

Definition upd2 (f : Z -> Z -> Z) (a b v : Z) : Z -> Z -> Z :=
  fun x y => if (x =? a) && (y =? b) then v else f x y.

(** NextP2PId; [None]: the increment of the int counter overflows (undefined). *)
Definition next_p2p (ctx : context) (src dst : Z) : option (bytes * context) :=
  let v := p2p_counter ctx src dst + 1 in
  if v <? 2 ^ 31 then
    Some (p2p_key (ctx_id ctx) v src dst,
          mkCtx (ctx_id ctx) (ctx_rank ctx) (counter ctx) (upd2 (p2p_counter ctx) src dst v)
                (child_counter ctx) (is_sub_world ctx))
  else None.

Definition next_coll (ctx : context) (c : coll) : bytes * context :=
  let v := (counter ctx + 1) mod 2 ^ 64 in
  (coll_key (ctx_id ctx) v c,
   mkCtx (ctx_id ctx) (ctx_rank ctx) v (p2p_counter ctx) (child_counter ctx) (is_sub_world ctx)).

Definition next_key (ctx : context) (o : comm) : option (bytes * context) :=
  match o with
  | CColl c => Some (next_coll ctx c)
  | CSend d => next_p2p ctx (ctx_rank ctx) d
  | CRecv s => next_p2p ctx s (ctx_rank ctx)
  end.

(** The keys drawn by a sequence of operations. *)
Fixpoint keys_of (ctx : context) (ops : list comm) : option (list bytes) :=
  match ops with
  | [] => Some []
  | o :: r => match next_key ctx o with
              | None => None
              | Some (k, ctx') => match keys_of ctx' r with
                                  | None => None
                                  | Some ks => Some (k :: ks)
                                  end
              end
  end.

(** Spawn, context.cc:338-354: the child's context (always created with the
    default is_sub_world = false) and the parent's new state. *)
Definition spawn (ctx : context) (id : bytes) : context * context :=
  match id with
  | [] => (new_context (ctx_id ctx ++ [45] ++ to_string (child_counter ctx)) (ctx_rank ctx) false,
           mkCtx (ctx_id ctx) (ctx_rank ctx) (counter ctx) (p2p_counter ctx)
                 ((child_counter ctx + 1) mod 2 ^ 64) (is_sub_world ctx))
  | _ => (new_context (ctx_id ctx ++ [45] ++ id) (ctx_rank ctx) false, ctx)
  end.

(** SubWorld, context.cc:356-400 (id and flag; [new_rank] is the caller's
    position in the list of parties, computed at 358-376). *)
Definition sub_world (ctx : context) (suffix : bytes) (new_rank : Z) : context :=
  new_context (ctx_id ctx ++ [45] ++ suffix) new_rank true.

(** The ids of the children created by a sequence of Spawn calls. *)
Fixpoint spawn_ids (ctx : context) (ids : list bytes) : list bytes :=
  match ids with
  | [] => []
  | i :: r => let (child, ctx') := spawn ctx i in ctx_id child :: spawn_ids ctx' r
  end.

(** WaitLinkTaskFinish and AbortLink refuse to work on a sub world
    (context.cc:130-148): they close channels shared with the parent. *)
Definition may_close (ctx : context) : bool := negb (is_sub_world ctx).

(** SubWorld's rank search, context.cc:358-380: the map keeps, for each party id,
    the last rank with this id; [None] is a thrown exception. *)
Fixpoint last_rank (parties : list bytes) (i : Z) (p : bytes) : option Z :=
  match parties with
  | [] => None
  | q :: r => match last_rank r (i + 1) p with
              | Some k => Some k
              | None => if bytes_eqb p q then Some i else None
              end
  end.
Fixpoint orig_ranks (parties : list bytes) (sub : list bytes) : option (list Z) :=
  match sub with
  | [] => Some []
  | p :: r => match last_rank parties 0 p, orig_ranks parties r with
              | Some k, Some l => Some (k :: l)
              | _, _ => None
              end
  end.
(** context.cc:370-372: the last position whose original rank is the caller's. *)
Fixpoint last_pos (l : list Z) (i : Z) (rank : Z) : option Z :=
  match l with
  | [] => None
  | k :: r => match last_pos r (i + 1) rank with
              | Some j => Some j
              | None => if k =? rank then Some i else None
              end
  end.
(** The original ranks in the order of the sub world, and the caller's new rank. *)
Definition sub_world_ranks (parties : list bytes) (rank : Z) (sub : list bytes) : option (list Z * Z) :=
  match orig_ranks parties sub with
  | None => None
  | Some l => match last_pos l 0 rank with
              | None => None
              | Some j => Some (l, j)
              end
  end.
