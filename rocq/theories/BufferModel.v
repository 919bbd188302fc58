(** Model of yacl::Buffer, yacl/base/buffer.h.

    Memory is a list of blocks indexed by address; a block is either the result
    of new std::byte[] or memory handed over with a deleter.  Uninitialised bytes
    are None.  Freeing a block twice, with the wrong function, or touching freed
    memory is the outcome UB.  Allocation never fails (std::bad_alloc is not
    modelled).  A program holds a fixed number of buffer variables; constructing
    into a variable is `b = Buffer(...)`: the temporary is built, moved into the
    variable and destroyed. *)
From Coq Require Import NArith ZArith List Bool Arith.
Import ListNotations.
Open Scope Z_scope.

Inductive kind := ByNew | Ext (deleter : nat).
Record block := { bytes : list (option N); how : kind; live : bool }.
(** ptr_, size_, capacity_ and deleter_, buffer.h:31-34. *)
Record buf := { ptr : option nat; size : Z; cap : Z; del : option nat }.
Definition empty_buf : buf := {| ptr := None; size := 0; cap := 0; del := None |}.
(** calls: the deleter calls so far with their argument, newest first. *)
Record mem := { heap : list block; calls : list (nat * option nat) }.

Inductive outcome (A : Type) := Ok (a : A) | Thrown | UB.
Arguments Ok {A} a. Arguments Thrown {A}. Arguments UB {A}.
Definition bind {A B} (x : outcome A) (f : A -> outcome B) : outcome B :=
  match x with Ok a => f a | Thrown => Thrown | UB => UB end.

Fixpoint upd {A} (l : list A) (i : nat) (v : A) : list A :=
  match l, i with
  | [], _ => []
  | _ :: l', O => v :: l'
  | a :: l', S i' => a :: upd l' i' v
  end.
(** new std::byte[n] *)
Definition alloc (m : mem) (n : Z) : nat * mem :=
  (length (heap m), {| heap := heap m ++ [{| bytes := repeat None (Z.to_nat n); how := ByNew; live := true |}]; calls := calls m |}).
(** delete[] p *)
Definition delete_array (m : mem) (p : option nat) : outcome mem :=
  match p with
  | None => Ok m
  | Some a =>
      match nth_error (heap m) a with
      | Some b => match live b, how b with
                  | true, ByNew => Ok {| heap := upd (heap m) a {| bytes := bytes b; how := how b; live := false |}; calls := calls m |}
                  | _, _ => UB
                  end
      | None => UB
      end
  end.
(** deleter_(p): a deleter frees its own memory and accepts a null pointer. *)
Definition call_deleter (m : mem) (d : nat) (p : option nat) : outcome mem :=
  match p with
  | None => Ok {| heap := heap m; calls := (d, None) :: calls m |}
  | Some a =>
      match nth_error (heap m) a with
      | Some b => match live b, how b with
                  | true, Ext d' => if Nat.eqb d d'
                      then Ok {| heap := upd (heap m) a {| bytes := bytes b; how := how b; live := false |}; calls := (d, Some a) :: calls m |}
                      else UB
                  | _, _ => UB
                  end
      | None => UB
      end
  end.
(** reset(), buffer.h:177-187. *)
Definition reset (m : mem) (b : buf) : outcome (mem * buf) :=
  bind (match del b with
        | Some d => call_deleter m d (ptr b)
        | None => delete_array m (ptr b)
        end) (fun m' => Ok (m', empty_buf)).
(** n bytes read from p; a null p is fine for no bytes. *)
Definition load (m : mem) (p : option nat) (n : Z) : outcome (list (option N)) :=
  if n <=? 0 then Ok []
  else match p with
       | None => UB
       | Some a =>
           match nth_error (heap m) a with
           | Some b => if live b && (n <=? Z.of_nat (length (bytes b))) then Ok (firstn (Z.to_nat n) (bytes b)) else UB
           | None => UB
           end
       end.
(** The bytes vs written at offset off of p. *)
Definition store (m : mem) (p : option nat) (off : nat) (vs : list (option N)) : outcome mem :=
  match vs with
  | [] => Ok m
  | _ => match p with
         | None => UB
         | Some a =>
             match nth_error (heap m) a with
             | Some b => if live b && (Nat.leb (off + length vs) (length (bytes b)))
                 then Ok {| heap := upd (heap m) a {| bytes := firstn off (bytes b) ++ vs ++ skipn (off + length vs) (bytes b); how := how b; live := live b |};
                            calls := calls m |}
                 else UB
             | None => UB
             end
         end
  end.
(** resize(), buffer.h:125-147. *)
Definition resize (m : mem) (b : buf) (new_size : Z) : outcome (mem * buf) :=
  if new_size <=? cap b then Ok (m, {| ptr := ptr b; size := new_size; cap := cap b; del := del b |})
  else
    bind (if 0 <? new_size
          then let '(np, m1) := alloc m new_size in
               match ptr b with
               | None => Ok (Some np, m1)
               | Some _ => bind (load m1 (ptr b) (Z.min new_size (size b))) (fun vs =>
                           bind (store m1 (Some np) 0 vs) (fun m2 => Ok (Some np, m2)))
               end
          else Ok (None, m)) (fun '(np, m2) =>
    bind (reset m2 b) (fun '(m3, _) =>
    let b' := {| ptr := np; size := new_size; cap := new_size; del := None |} in
    if (new_size =? 0) || match np with Some _ => true | None => false end then Ok (m3, b') else Thrown)).
(** reserve(), buffer.h:149-167. *)
Definition reserve (m : mem) (b : buf) (new_cap : Z) : outcome (mem * buf) :=
  if size b <=? new_cap then
    if new_cap <=? cap b then Ok (m, b)
    else
      let '(np, m1) := alloc m new_cap in
      bind (match ptr b with
            | Some _ => if 0 <? size b then bind (load m1 (ptr b) (size b)) (fun vs => store m1 (Some np) 0 vs) else Ok m1
            | None => Ok m1
            end) (fun m2 =>
      bind (reset m2 b) (fun '(m3, _) =>
      Ok (m3, {| ptr := Some np; size := size b; cap := new_cap; del := None |})))
  else Thrown.
(** release(), buffer.h:169-175: deleter_ is left as it is. *)
Definition release (b : buf) : option nat * buf := (ptr b, {| ptr := None; size := 0; cap := 0; del := del b |}).
(** operator=(const Buffer&) for two different objects, buffer.h:79-85. *)
Definition copy_assign (m : mem) (dst src : buf) : outcome (mem * buf) :=
  bind (resize m dst (size src)) (fun '(m1, b) =>
  bind (load m1 (ptr src) (size src)) (fun vs =>
  bind (store m1 (ptr b) 0 vs) (fun m2 => Ok (m2, b)))).
(** The constructors: (size) and (size, cap), buffer.h:42-55. *)
Definition make (m : mem) (sz cp : Z) : outcome (mem * buf) :=
  if (0 <=? sz) && (sz <=? cp)
  then let '(np, m1) := alloc m cp in Ok (m1, {| ptr := Some np; size := sz; cap := cp; del := None |})
  else Thrown.
(** (ptr, size), buffer.h:63-68. *)
Definition make_from (m : mem) (vs : list (option N)) : outcome (mem * buf) :=
  bind (resize m empty_buf (Z.of_nat (length vs))) (fun '(m1, b) =>
  bind (store m1 (ptr b) 0 vs) (fun m2 => Ok (m2, b))).
(** (ptr, size, deleter), buffer.h:72-81: the caller's memory holds vs. *)
Definition adopt (m : mem) (vs : list (option N)) (d : nat) (aligned : bool) : outcome (mem * buf) :=
  if aligned
  then Ok ({| heap := heap m ++ [{| bytes := vs; how := Ext d; live := true |}]; calls := calls m |},
           {| ptr := Some (length (heap m)); size := Z.of_nat (length vs); cap := Z.of_nat (length vs); del := Some d |})
  else Thrown.

(** ** Programs *)
Inductive op :=
| Make (i : nat) (sz cp : Z) | MakeFrom (i : nat) (vs : list (option N)) | Adopt (i : nat) (vs : list (option N)) (d : nat)
| Copy (i j : nat) | Move (i j : nat) | Resize (i : nat) (n : Z) | Reserve (i : nat) (n : Z)
| Release (i : nat) | Reset (i : nat) | Write (i : nat) (off : nat) (v : N).
(** mem, the variables, and the pointers given away by release(). *)
Record st := { sm : mem; vars : list buf; given : list nat }.
Definition get (s : st) (i : nat) : buf := nth i (vars s) empty_buf.
Definition put (s : st) (i : nat) (mb : mem * buf) : outcome st :=
  Ok {| sm := fst mb; vars := upd (vars s) i (snd mb); given := given s |}.
(** var i = temporary: swap (buffer.h:88-96), then the temporary is destroyed. *)
Definition assign_temp (s : st) (i : nat) (mb : mem * buf) : outcome st :=
  bind (reset (fst mb) (get s i)) (fun r => put s i (fst r, snd mb)).
Definition step (s : st) (o : op) : outcome st :=
  match o with
  | Make i sz cp => bind (make (sm s) sz cp) (assign_temp s i)
  | MakeFrom i vs => bind (make_from (sm s) vs) (assign_temp s i)
  | Adopt i vs d => bind (adopt (sm s) vs d true) (assign_temp s i)
  | Copy i j => if Nat.eqb i j then Ok s else bind (copy_assign (sm s) (get s i) (get s j)) (put s i)
  | Move i j => if Nat.eqb i j then Ok s else Ok {| sm := sm s; vars := upd (upd (vars s) i (get s j)) j (get s i); given := given s |}
  | Resize i n => bind (resize (sm s) (get s i) n) (put s i)
  | Reserve i n => bind (reserve (sm s) (get s i) n) (put s i)
  | Release i => let '(p, b) := release (get s i) in
                 Ok {| sm := sm s; vars := upd (vars s) i b; given := match p with Some a => a :: given s | None => given s end |}
  | Reset i => bind (reset (sm s) (get s i)) (put s i)
  | Write i off v => if Z.of_nat off <? size (get s i) then bind (store (sm s) (ptr (get s i)) off [Some v]) (fun m => put s i (m, get s i)) else UB
  end.
(** A throwing statement leaves the state as it was (only Make and Reserve
    throw here, before any effect). *)
Fixpoint run (s : st) (os : list op) : outcome st :=
  match os with
  | [] => Ok s
  | o :: os' => match step s o with Ok s' => run s' os' | Thrown => run s os' | UB => UB end
  end.
Definition start (k : nat) : st := {| sm := {| heap := []; calls := [] |}; vars := repeat empty_buf k; given := [] |}.
(** size() bytes at data(). *)
Definition contents (s : st) (i : nat) : outcome (list (option N)) := load (sm s) (ptr (get s i)) (size (get s i)).
(** All variables go out of scope. *)
Definition finish (s : st) : outcome st := run s (map Reset (seq 0 (length (vars s)))).
