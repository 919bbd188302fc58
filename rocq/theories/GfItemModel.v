From Coq Require Import ZArith Bool List Lia.
From Verif Require Import LinCodeModel ZpLib MsgModel.
Import ListNotations.
Open Scope Z_scope.

(** Model of items and of the prime field library on them: yacl/utils/spi/item.h,
    yacl/utils/spi/sketch/{scalar_call,scalar_define,scalar_tools}.h,
    yacl/math/galois_field/factory/{gf_scalar.h,mpint_factory.cc}.

    The memory that views refer to maps an array and an index to an element; an item
    that owns its vector carries it.  Views of vectors owned by another item are views
    of an array of the memory.  Views are inside live arrays. *)

Section Items.
  Context {T : Type}.

  Definition memory := nat -> nat -> T.

  (** Item, item.h:93-131, 453-462, for elements of type T: a scalar, an owned vector, a
      view (array, offset, length, read-only); or something of another element type. *)
  Inductive item := Scalar (t : T) | Owned (l : list T) | View (arr off n : nat) (ro : bool)
                  | WrongScalar | WrongArray.

  Definition is_array (x : item) : bool :=
    match x with Scalar _ | WrongScalar => false | _ => true end.

  Definition read_view (m : memory) (arr off n : nat) : list T := map (fun i => m arr (off + i)%nat) (seq 0 n).

  (** AsSpan, item.h:224-248: the elements; the cast throws for another type. *)
  Definition elements (m : memory) (x : item) : outcome (list T) :=
    match x with
    | Scalar t => Val [t]
    | Owned l => Val l
    | View a off n _ => Val (read_view m a off n)
    | WrongScalar | WrongArray => Thrown
    end.

  (** SubItem, item.h:428-445, 487-522; subspan throws if pos is past the end and clips
      the length.  The view of an owned vector is made by giving the vector a place in
      the memory first; scalars throw. *)
  Definition sub_item (x : item) (pos : nat) (len : option nat) (const : bool) : outcome item :=
    match x with
    | View a off n ro =>
        if Nat.leb pos n
        then Val (View a (off + pos) (match len with Some k => Nat.min k (n - pos) | None => (n - pos)%nat end) (ro || const))
        else Thrown
    | _ => Thrown
    end.

  Definition set_cell (m : memory) (a k : nat) (t : T) : memory :=
    fun a' k' => if Nat.eqb a a' && Nat.eqb k k' then t else m a' k'.
End Items.
Arguments item : clear implicits.
Arguments memory : clear implicits.

Fixpoint map_outcome {A B} (f : A -> outcome B) (l : list A) : outcome (list B) :=
  match l with
  | [] => Val []
  | a :: l' => bind (f a) (fun b => bind (map_outcome f l') (fun r => Val (b :: r)))
  end.

Section Calls.
  Context {T R : Type}.

  (** CallUnaryFunc, scalar_call.h:24-41, and DefineBoolUnaryFunc, scalar_define.h:23-43. *)
  Definition call_unary (f : T -> outcome R) (m : memory T) (x : item T) : outcome (item R) :=
    if is_array x then
      bind (elements m x) (fun l => bind (map_outcome f l) (fun r => Val (Owned r)))
    else
      match x with
      | Scalar t => bind (f t) (fun r => Val (Scalar r))
      | _ => Thrown
      end.

  (** CallBinaryFunc, scalar_call.h:62-92. *)
  Definition call_binary (f : T -> T -> outcome R) (m : memory T) (x y : item T) : outcome (item R) :=
    match is_array x, is_array y with
    | false, false =>
        match x, y with
        | Scalar a, Scalar b => bind (f a b) (fun r => Val (Scalar r))
        | _, _ => Thrown
        end
    | true, true =>
        bind (elements m x) (fun l => bind (elements m y) (fun k =>
        if Nat.eqb (length l) (length k)
        then bind (map_outcome (fun p => f (fst p) (snd p)) (combine l k)) (fun r => Val (Owned r))
        else Thrown))
    | _, _ => Thrown
    end.
End Calls.

Section Inplace.
  Context {T : Type}.

  (** The loop of an in-place call over a view, in the order given by the scheduler of
      parallel_for: element i of the view becomes f of itself and of what [other] reads
      from the memory at that moment. *)
  Fixpoint inplace_loop (f : T -> T -> outcome T) (other : memory T -> nat -> T) (a off : nat)
    (order : list nat) (m : memory T) : outcome (memory T) :=
    match order with
    | [] => Val m
    | i :: rest =>
        bind (f (m a (off + i)%nat) (other m i)) (fun t =>
        inplace_loop f other a off rest (set_cell m a (off + i)%nat t))
    end.

  (** CallUnaryInplaceFunc, scalar_call.h:46-58.  As<T*>() of a scalar of another type is
      a null pointer (item.h:175-186: any_cast on a pointer does not throw). *)
  Definition inplace_unary (f : T -> outcome T) (order : list nat) (m : memory T) (x : item T)
    : outcome (item T * memory T) :=
    match x with
    | Scalar t => bind (f t) (fun r => Val (Scalar r, m))
    | Owned l => bind (map_outcome f l) (fun r => Val (Owned r, m))
    | View a off n ro =>
        if ro then Thrown
        else bind (inplace_loop (fun t _ => f t) (fun m i => m a (off + i)%nat) a off order m) (fun m' =>
             Val (x, m'))
    | WrongScalar => OutOfBounds
    | WrongArray => Thrown
    end.

  (** CallBinaryInplaceFunc, scalar_call.h:96-121.  An owned vector or a view as the
      second operand. *)
  Definition inplace_binary (f : T -> T -> outcome T) (order : list nat) (m : memory T) (x y : item T)
    : outcome (item T * memory T) :=
    match x, y with
    | Scalar a, Scalar b => bind (f a b) (fun r => Val (Scalar r, m))
    | WrongScalar, Scalar _ => OutOfBounds
    | Owned l, Owned _ | Owned l, View _ _ _ _ =>
        bind (elements m y) (fun k =>
        if Nat.eqb (length l) (length k)
        then bind (map_outcome (fun p => f (fst p) (snd p)) (combine l k)) (fun r => Val (Owned r, m))
        else Thrown)
    | View a off n ro, Owned k =>
        if ro then Thrown
        else if Nat.eqb n (length k)
        then bind (inplace_loop f (fun m i => nth i k (m a (off + i)%nat)) a off order m) (fun m' => Val (x, m'))
        else Thrown
    | View a off n ro, View b off' n' _ =>
        if ro then Thrown
        else if Nat.eqb n n'
        then bind (inplace_loop f (fun m i => m b (off' + i)%nat) a off order m) (fun m' => Val (x, m'))
        else Thrown
    | _, _ => Thrown
    end.
End Inplace.

(** ** The prime field, mpint_factory.cc *)

Section Field.
  Variable p : Z.        (* the modulus, a prime (:26-28) *)
  Variable debug : bool. (* WEAK_ENFORCE does something (exception.h:396-400) *)

  Definition in_field (x : Z) : bool := (0 <=? x) && (x <? p).                 (* :57-59 *)
  Definition is_zero (x : Z) : bool := x =? 0.                                 (* :55 *)
  Definition is_one (x : Z) : bool := x =? 1.                                  (* :53 *)
  Definition gf_add (x y : Z) : outcome Z := Val ((x + y) mod p).              (* :67-73 *)
  Definition gf_sub (x y : Z) : outcome Z := Val ((x - y) mod p).              (* :98-104 *)
  Definition gf_mul (x y : Z) : outcome Z := Val ((x * y) mod p).              (* :106-112 *)
  (** Neg, :75-82, and NegInplace, :84-92. *)
  Definition gf_neg (x : Z) : outcome Z :=
    if x =? 0 then Val x else if debug && negb (in_field x) then Thrown else Val (p - x).
  Definition gf_neg_inplace (x : Z) : outcome Z :=
    if x =? 0 then Val x else if debug && negb (in_field x) then Thrown else gf_add (- x) p.
  (** mp_invmod throws if there is no inverse; Inv, :94-96; Div, :114-120. *)
  Definition gf_inv (x : Z) : outcome Z :=
    match invert_mod x p with Some r => Val r | None => Thrown end.
  Definition gf_div (x y : Z) : outcome Z := bind (gf_inv y) (fun i => gf_mul x i).
  (** mp_exptmod, also for negative exponents; Pow, :122-128. *)
  Definition gf_pow (e x : Z) : outcome Z :=
    if e <? 0 then bind (gf_inv x) (fun i => Val (i ^ (- e) mod p)) else Val (x ^ e mod p).

  (** Equal on items, gf_scalar.h:93-125. *)
  Definition gf_equal (m : memory Z) (x y : item Z) : outcome bool :=
    match is_array x, is_array y with
    | false, false => match x, y with Scalar a, Scalar b => Val (a =? b) | _, _ => Thrown end
    | true, true =>
        bind (elements m x) (fun l => bind (elements m y) (fun k =>
        Val (Nat.eqb (length l) (length k) && forallb (fun q => fst q =? snd q) (combine l k))))
    | _, _ => Val false
    end.
End Field.

(** ** Items as bytes, scalar_tools.h *)

Section Bytes.
  Context {T : Type}.
  (** What the library does with one element: size, serialisation into a caller's buffer
      (the buffer and the bytes written), and back. *)
  Variable size : T -> Z.
  Variable ser : T -> list Z -> outcome (list Z * Z).
  Variable des : list Z -> outcome T.

  (** packer.pack_str and pack_array take a uint32_t; the header byte is 0..127. *)
  Definition pack_str (n : Z) : list Z := str_head (n mod 2 ^ 32).
  Definition pack_array (n : Z) : list Z := arr_head (n mod 2 ^ 32).
  Definition pack_header (h : Z) : list Z := if 0 <=? h then [h] else [].

  (** StreamBuffer, buffer.h:21-49: contents, and the bytes reserved behind them (their
      values do not matter: they are given to the element as they are). *)
  Definition sbuf := (list Z * list Z)%type.
  Definition s_write (c : list Z) (b : sbuf) : sbuf := (fst b ++ c, skipn (length c) (snd b)).
  Definition s_expand (extra : Z) (b : sbuf) : sbuf :=
    (fst b, snd b ++ repeat 0 (Z.to_nat extra - length (snd b))).
  (** Serialize one element at PosLoc, then IncPos (scalar_tools.h:73-75, 88-90). *)
  Definition s_element (t : T) (b : sbuf) : outcome sbuf :=
    bind (ser t (snd b)) (fun r =>
    Val (fst b ++ firstn (Z.to_nat (snd r)) (fst r), skipn (Z.to_nat (snd r)) (fst r))).

  (** The element loop, :65-76: [i] elements done, [total] bytes in them, [n] in all. *)
  Fixpoint s_loop (l : list T) (i n total : Z) (b : sbuf) : outcome sbuf :=
    match l with
    | [] => Val b
    | t :: l' =>
        let body := size t in
        let total := total + body in
        let b := s_write (pack_str body) b in
        let b := if len (snd b) <? body
                 then s_expand (Z.max ((total / (i + 1) + 5) * (n - i)) body) b else b in
        bind (s_element t b) (s_loop l' (i + 1) n total)
    end.
  (** Serialize to a new buffer, :38-93; [reserve] stands for the estimate with the
      factor 1.1. *)
  Definition serialize_item (reserve header : Z) (m : memory T) (x : item T) : outcome (list Z) :=
    if is_array x then
      bind (elements m x) (fun l =>
      match l with
      | [] => Val (pack_header header ++ pack_array 0)
      | _ =>
          let b := s_write (pack_array (len l)) (s_write (pack_header header) (s_expand reserve ([], []))) in
          bind (s_loop l 0 (len l) 0 b) (fun b => Val (fst b))
      end)
    else
      match x with
      | Scalar t =>
          let sz := size t in
          let b := s_expand (sz + head_size_of_str sz + 1) ([], []) in
          bind (s_element t (s_write (pack_str sz) (s_write (pack_header header) b))) (fun b => Val (fst b))
      | _ => Thrown
      end.

  (** The size only, :102-122. *)
  Definition item_size (header : Z) (m : memory T) (x : item T) : outcome Z :=
    let header_len := if 0 <=? header then 1 else 0 in
    if is_array x then
      bind (elements m x) (fun l =>
      Val (head_size_of_array (len l) + fold_right (fun t acc => size t + head_size_of_str (size t) + acc) 0 l
           + header_len))
    else
      match x with
      | Scalar t => Val (size t + head_size_of_str (size t) + header_len)
      | _ => Thrown
      end.

  (** FixedBuffer: the part written and the part that is free (buffer.h:51-82). *)
  Definition f_write (c : list Z) (b : sbuf) : outcome sbuf :=
    if Nat.leb (length c) (length (snd b)) then Val (fst b ++ c, skipn (length c) (snd b)) else Thrown.
  Definition f_element (t : T) (b : sbuf) : outcome sbuf :=
    bind (ser t (snd b)) (fun r =>
    if snd r <=? len (fst r)
    then Val (fst b ++ firstn (Z.to_nat (snd r)) (fst r), skipn (Z.to_nat (snd r)) (fst r)) else Thrown).
  Fixpoint f_loop (l : list T) (b : sbuf) : outcome sbuf :=
    match l with
    | [] => Val b
    | t :: l' => bind (f_write (pack_str (size t)) b) (fun b => bind (f_element t b) (f_loop l'))
    end.
  (** Serialize into a caller's buffer, :124-151: the buffer afterwards and the size
      returned. *)
  Definition serialize_item_to (header : Z) (m : memory T) (x : item T) (buf : list Z) : outcome (list Z * Z) :=
    bind (f_write (pack_header header) ([], buf)) (fun b =>
    bind
      (if is_array x then
         bind (elements m x) (fun l => bind (f_write (pack_array (len l)) b) (f_loop l))
       else
         match x with
         | Scalar t => bind (f_write (pack_str (size t)) b) (f_element t)
         | _ => Thrown
         end)
      (fun b => Val (fst b ++ snd b, len (fst b)))).

  (** Deserialize, gf_scalar.h:210-238. *)
  Definition deserialize_item (l : list Z) : outcome (item T) :=
    match unpack l with
    | Some (OStr s, _) => bind (des s) (fun t => Val (Scalar t))
    | Some (OArr os, _) =>
        bind (map_outcome (fun o => match o with OStr s => des s | _ => Thrown end) os) (fun r => Val (Owned r))
    | _ => Thrown
    end.
End Bytes.
