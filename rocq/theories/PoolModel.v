(** Model of yacl/utils/thread_pool.{h,cc}.  One event is one critical section of
    [queue_mutex_], one condition-variable notification, or the end of a task;
    any interleaving of events is possible.  Tasks are numbered in the order in
    which Submit accepted them.  A task is an opaque job that terminates; its
    exceptions are caught by std::packaged_task (thread_pool.cc:52-54). *)
From Coq Require Import List Arith Bool.
Import ListNotations.

(** Where a worker is in WorkLoop (thread_pool.cc:38-57). *)
Inductive wstate :=
| WCheck            (* about to evaluate the wait predicate under the lock *)
| WWait             (* blocked in condition_.wait *)
| WRun (t : nat)    (* running task() *)
| WExit.            (* returned *)

Record pool := mkPool {
  workers : list wstate;
  queue : list nat;
  stop : bool;
  pending : nat;            (* Submit calls that have not yet called notify_one *)
  nall : bool;              (* the destructor has not yet called notify_all *)
  joining : bool; joined : bool;   (* destructor: waiting in join / returned *)
  (* history *)
  accepted : nat;           (* number of accepted tasks: ids 0 .. accepted-1 *)
  rejected : nat;
  started : list nat;       (* in order *)
  finished : list nat       (* in order *)
}.

(** thread_pool.cc:28-36. *)
Definition new_pool (k : nat) : pool := mkPool (repeat WCheck k) [] false 0 false false false 0 0 [] [].

Inductive pev :=
| PSubmit                    (* thread_pool.h:84-94 *)
| PNotify (w : option nat)   (* notify_one of a Submit: wakes waiter w, or nobody waits *)
| PSpurious (w : nat)        (* spurious wake-up *)
| PCheck (w : nat)           (* thread_pool.cc:43-50 *)
| PFinish (w : nat)          (* task() returns *)
| PStop                      (* thread_pool.cc:61-64 *)
| PNotifyAll                 (* 66 *)
| PJoin.                     (* 67-69 complete *)

Fixpoint upd {A} (l : list A) (i : nat) (x : A) : list A :=
  match l, i with
  | [], _ => []
  | _ :: r, O => x :: r
  | y :: r, S j => y :: upd r j x
  end.
Definition is_wait (w : wstate) : bool := match w with WWait => true | _ => false end.
Definition is_exit (w : wstate) : bool := match w with WExit => true | _ => false end.
Definition wake (w : wstate) : wstate := match w with WWait => WCheck | x => x end.

(** [None]: the event cannot happen in this state. *)
Definition pstep (e : pev) (s : pool) : option pool :=
  let '(mkPool ws q st p na jg jd ac rj sa fi) := s in
  match e with
  | PSubmit =>
      if st then Some (mkPool ws q st p na jg jd ac (S rj) sa fi)
      else Some (mkPool ws (q ++ [ac]) st (S p) na jg jd (S ac) rj sa fi)
  | PNotify (Some w) =>
      match p, nth_error ws w with
      | S p', Some WWait => Some (mkPool (upd ws w WCheck) q st p' na jg jd ac rj sa fi)
      | _, _ => None
      end
  | PNotify None =>
      match p with
      | S p' => if existsb is_wait ws then None else Some (mkPool ws q st p' na jg jd ac rj sa fi)
      | O => None
      end
  | PSpurious w =>
      match nth_error ws w with
      | Some WWait => Some (mkPool (upd ws w WCheck) q st p na jg jd ac rj sa fi)
      | _ => None
      end
  | PCheck w =>
      match nth_error ws w with
      | Some WCheck =>
          match q with
          | [] => if st then Some (mkPool (upd ws w WExit) q st p na jg jd ac rj sa fi)
                  else Some (mkPool (upd ws w WWait) q st p na jg jd ac rj sa fi)
          | t :: q' => Some (mkPool (upd ws w (WRun t)) q' st p na jg jd ac rj (sa ++ [t]) fi)
          end
      | _ => None
      end
  | PFinish w =>
      match nth_error ws w with
      | Some (WRun t) => Some (mkPool (upd ws w WCheck) q st p na jg jd ac rj sa (fi ++ [t]))
      | _ => None
      end
  | PStop => if st then None else Some (mkPool ws q true p true jg jd ac rj sa fi)
  | PNotifyAll => if na then Some (mkPool (map wake ws) q st p false true jd ac rj sa fi) else None
  | PJoin => if jg && negb jd && forallb is_exit ws
             then Some (mkPool ws q st p na jg true ac rj sa fi) else None
  end.

Fixpoint prun (es : list pev) (s : pool) : option pool :=
  match es with
  | [] => Some s
  | e :: r => match pstep e s with None => None | Some s' => prun r s' end
  end.
