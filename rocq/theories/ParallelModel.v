(** Model of yacl/utils/parallel.h and parallel.cc: splitting a range into tasks,
    parallel_for and parallel_reduce.  int64_t / size_t arithmetic is modelled with
    wrap-around where C++ defines it and with [UB] where it does not. *)
From Coq Require Import List ZArith Bool.
Import ListNotations.
Open Scope Z_scope.

Definition i64_max : Z := 2 ^ 63 - 1.
Definition in_i64 (z : Z) : bool := (- 2 ^ 63 <=? z) && (z <=? i64_max).
(** conversion of a size_t (or a sum modulo 2^64) to int64_t. *)
Definition wrap64 (z : Z) : Z := (z + 2 ^ 63) mod 2 ^ 64 - 2 ^ 63.

(** parallel.h:21: divup in int64_t; [None]: signed overflow. *)
Definition divup (x y : Z) : option Z :=
  if in_i64 (x + y) && in_i64 (x + y - 1) then Some (Z.quot (x + y - 1) y) else None.

(** parallel.h:39-50; [None]: undefined behaviour. *)
Definition calc (begin_ end_ grain threads : Z) : option (Z * Z) :=
  let d := end_ - begin_ in
  if negb (in_i64 d) then None
  else if d <? grain then Some (1, Z.max 0 d)
  else match divup d threads with
       | None => None
       | Some c0 => let c := Z.max grain c0 in
                    match divup d c with
                    | None => None
                    | Some n => Some (n, c)
                    end
       end.

(** parallel.cc:119-130: the sub-range passed to f by task [id], if any. *)
Definition task_range (begin_ end_ chunk : Z) (id : nat) : option (Z * Z) :=
  let local_start := wrap64 (begin_ + Z.of_nat id * chunk) in
  if local_start <? end_ then Some (local_start, Z.min end_ (wrap64 (chunk + local_start))) else None.

Inductive outcome (A : Type) := Ok (a : A) | Throw | UB.
Arguments Ok {A} a. Arguments Throw {A}. Arguments UB {A}.

(** The calls made by _parallel_run (parallel.cc:111-162), by task id. *)
Definition run_calls (begin_ end_ grain threads : Z) : outcome (list (option (Z * Z))) :=
  match calc begin_ end_ grain threads with
  | None => UB
  | Some (n, c) => Ok (map (task_range begin_ end_ c) (seq 0 (Z.to_nat n)))
  end.

(** parallel.h:74-93. *)
Definition parallel_for (begin_ end_ grain threads : Z) (in_region : bool) : outcome (list (option (Z * Z))) :=
  if grain <=? 0 then Throw
  else if end_ <=? begin_ then Ok []
  else if negb (in_i64 (end_ - begin_)) then UB
  else if (end_ - begin_ <? grain) || in_region then Ok [Some (begin_, end_)]
  else run_calls begin_ end_ grain threads.

(** parallel.cc:132-162: [fails i] is the exception thrown by task i; every task
    is run (task 0 here, the others in the pool) and waited for before the last
    exception seen is rethrown. *)
Definition rethrown {E} (fails : nat -> option E) (n : nat) : option E :=
  fold_left (fun e i => match fails i with Some x => Some x | None => e end) (seq 1 (n - 1)) (fails 0%nat).

Section Reduce.
Context {A : Type}.
Variable reduce_f : Z -> Z -> A.
Variable combine_f : A -> A -> A.
Variable init : A.      (* value-initialised scalar_t in the results vector *)

(** results[task_id] = reduce_f(fstart, fend); outside the vector: UB. *)
Fixpoint set_nth (l : list A) (i : nat) (v : A) : option (list A) :=
  match l, i with
  | [], _ => None
  | _ :: r, O => Some (v :: r)
  | x :: r, S j => match set_nth r j v with None => None | Some r' => Some (x :: r') end
  end.
Definition run_one (begin_ end_ chunk : Z) (res : option (list A)) (id : nat) : option (list A) :=
  match res with
  | None => None
  | Some l => match task_range begin_ end_ chunk id with
              | None => Some l
              | Some (a, b) => set_nth l id (reduce_f a b)
              end
  end.
(** parallel.h:127-152.  [t1], [t2]: get_num_threads() as seen by the two calls of
    calc_num_tasks_and_chunk_size; [sched]: the order in which the tasks happen
    to write their results. *)
Definition parallel_reduce (begin_ end_ grain t1 t2 : Z) (in_region : bool) (sched : list nat) : outcome A :=
  if grain <=? 0 then Throw
  else if end_ <=? begin_ then Throw
  else if negb (in_i64 (end_ - begin_)) then UB
  else if (end_ - begin_ <? grain) || in_region then Ok (reduce_f begin_ end_)
  else match calc begin_ end_ grain t1, calc begin_ end_ grain t2 with
       | Some (n1, _), Some (_, c2) =>
           match fold_left (run_one begin_ end_ c2) sched (Some (repeat init (Z.to_nat n1))) with
           | Some (r0 :: rs) => Ok (fold_left combine_f rs r0)
           | _ => UB
           end
       | _, _ => UB
       end.
End Reduce.

(** The thread count (parallel.cc:63-96, 167-207): NOT_SET, a value set by the
    user, or CONSUMED by a pool of [k] workers. *)
Inductive count_state := NotSet | UserSet (n : Z) | Consumed (pool : Z).
(** get_num_threads, [dflt] = intraop_default_num_threads(). *)
Definition get_num_threads (dflt : Z) (s : count_state) : Z :=
  match s with NotSet => dflt | UserSet n => n | Consumed k => k + 1 end.
(** set_num_threads; the final YACL_ENFORCE is given only a message string and never fails, so a
    conflicting request is silently ignored. [None]: thrown. *)
Definition set_num_threads (n : Z) (s : count_state) : option count_state :=
  if n <=? 0 then None else match s with NotSet => Some (UserSet n) | _ => Some s end.
(** first use of the pool (_get_intraop_pool): ThreadPool(0) throws. *)
Definition consume (dflt : Z) (s : count_state) : option count_state :=
  match s with
  | Consumed k => Some (Consumed k)
  | _ => if get_num_threads dflt s - 1 <=? 0 then None else Some (Consumed (get_num_threads dflt s - 1))
  end.
