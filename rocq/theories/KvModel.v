From Coq Require Import ZArith Bool List Lia.
Import ListNotations.
Open Scope Z_scope.

(** Model of the key-value stores, yacl/io/kv/{kvstore.h,memory_kvstore.cc,
    leveldb_kvstore.cc}.  Keys and values are lists of bytes (0..255), of any
    content and length. *)
Definition bytes := list Z.
Definition bytes_eqb (a b : bytes) : bool := if list_eq_dec Z.eq_dec a b then true else false.

(** ** MemoryKVStore *)
(** std::map<std::string, Buffer> (memory_kvstore.h:33), sorted by key: an
    association list sorted by the order of std::string, which compares the
    characters as unsigned char, the shorter of two first on a common prefix. *)
Fixpoint key_ltb (a b : bytes) : bool :=
  match a, b with
  | _, [] => false
  | [], _ :: _ => true
  | x :: a', y :: b' => (x <? y) || ((x =? y) && key_ltb a' b')
  end.
Definition kv_map := list (bytes * bytes).
(** std::map::insert: does nothing if the key is present. *)
Fixpoint map_insert (m : kv_map) (k v : bytes) : kv_map :=
  match m with
  | [] => [(k, v)]
  | (k', v') :: m' =>
      if key_ltb k k' then (k, v) :: m
      else if key_ltb k' k then (k', v') :: map_insert m' k v
      else m
  end.
(** std::map::find. *)
Fixpoint map_find (m : kv_map) (k : bytes) : option bytes :=
  match m with
  | [] => None
  | (k', v') :: m' =>
      if key_ltb k k' then None else if key_ltb k' k then map_find m' k else Some v'
  end.
(** Put, memory_kvstore.cc:21-26: the value is copied into a Buffer, then kv_map.insert. *)
Definition mem_put (m : kv_map) (k v : bytes) : kv_map := map_insert m k v.
(** Get into a string, memory_kvstore.cc:28-37; [old] is the caller's string, which
    keeps its content if the key is absent. *)
Definition mem_get (m : kv_map) (k old : bytes) : bool * bytes :=
  match map_find m k with Some v => (true, v) | None => (false, old) end.
(** Count, memory_kvstore.cc:39. *)
Definition mem_count (m : kv_map) : nat := length m.

(** ** LeveldbKVStore *)
(** leveldb::DB by its documentation: Put sets the entry, Get finds the entry, an
    iterator visits every entry once.  I/O errors are not modelled (Put throws,
    Get returns false).  The database keeps its entries sorted. *)
Fixpoint ldb_set (m : kv_map) (k v : bytes) : kv_map :=
  match m with
  | [] => [(k, v)]
  | (k', v') :: m' =>
      if key_ltb k k' then (k, v) :: m
      else if key_ltb k' k then (k', v') :: ldb_set m' k v
      else (k, v) :: m'
  end.
(** Put, leveldb_kvstore.cc:66-76. *)
Definition ldb_put (m : kv_map) (k v : bytes) : kv_map := ldb_set m k v.
(** Get, leveldb_kvstore.cc:78-92. *)
Definition ldb_get (m : kv_map) (k old : bytes) : bool * bytes :=
  match map_find m k with Some v => (true, v) | None => (false, old) end.
(** Count, leveldb_kvstore.cc:94-108: the loop over the iterator. *)
Definition ldb_count (m : kv_map) : nat := fold_left (fun c _ => S c) m 0%nat.

(** ** The interface, kvstore.h:27-51 *)
Inductive store := Memory (m : kv_map) | Leveldb (m : kv_map).
Definition put (s : store) (k v : bytes) : store :=
  match s with Memory m => Memory (mem_put m k v) | Leveldb m => Leveldb (ldb_put m k v) end.
Definition get (s : store) (k old : bytes) : bool * bytes :=
  match s with Memory m => mem_get m k old | Leveldb m => ldb_get m k old end.
Definition count (s : store) : nat :=
  match s with Memory m => mem_count m | Leveldb m => ldb_count m end.
(** Get into a Buffer, kvstore.h:39-47: through a local, empty string; the buffer
    takes its length and bytes, whatever Get returned. *)
Definition get_buffer (s : store) (k old : bytes) : bool * bytes := get s k [].

(** ** IndexStore, kvstore.h:54-77 *)
(** std::to_string(size_t): decimal digits, most significant first. *)
Fixpoint digits (fuel : nat) (n : Z) (acc : bytes) : bytes :=
  match fuel with
  | O => acc
  | S f => let acc' := (48 + n mod 10) :: acc in
           if n / 10 =? 0 then acc' else digits f (n / 10) acc'
  end.
(** Twenty digits are enough for every size_t. *)
Definition to_string (n : Z) : bytes := digits 20 n [].
Definition iput (s : store) (i : Z) (v : bytes) : store := put s (to_string i) v.
Definition iget (s : store) (i : Z) (old : bytes) : bool * bytes := get s (to_string i) old.
Definition iget_buffer (s : store) (i : Z) (old : bytes) : bool * bytes := get_buffer s (to_string i) old.
Definition icount (s : store) : nat := count s.
