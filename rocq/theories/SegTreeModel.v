(** Model of yacl/utils/segment_tree.h (class template SegmentTree<T>, T = size_t). *)
From Coq Require Import List ZArith Bool.
Import ListNotations.
Open Scope Z_scope.

(** A segment [key, value) of the std::map<T,T> segments_ (segment_tree.h:110-111). *)
Definition seg := (Z * Z)%type.

(** The object: segments_ (a std::map, i.e. a list sorted by strictly increasing
    key) and count_ (segment_tree.h:110-112).  count_ is kept as an unbounded
    integer: it is incremented at most once per distinct item, so it cannot
    reach 2^64. *)
Record segtree := mkSegTree { segments : list seg; count : Z }.

(** segment_tree.h:26 and 111-112: default construction. *)
Definition empty : segtree := mkSegTree [] 0.

(** The C++ expression [item + 1] for T = size_t: wraps modulo 2^64. *)
Definition inc (x : Z) : Z := (x + 1) mod 2 ^ 64.

(** [segments_.upper_bound(item)] (segment_tree.h:37, 80): splits the sorted map in the
    entries with key <= item and the entries with key > item. *)
Fixpoint split_upper (item : Z) (l : list seg) : list seg * list seg :=
  match l with
  | [] => ([], [])
  | s :: r => if fst s <=? item
              then let (a, b) := split_upper item r in (s :: a, b)
              else ([], l)
  end.

(** Last element of a list together with what precedes it ([std::prev] of an
    iterator that is not begin(), segment_tree.h:41, 57). *)
Fixpoint unsnoc {A} (l : list A) : option (list A * A) :=
  match l with
  | [] => None
  | x :: r => match unsnoc r with
              | None => Some ([], x)
              | Some (p, y) => Some (x :: p, y)
              end
  end.

(** The map seen from an iterator: entries before it, the entry, entries after. *)
Definition cursor := (list seg * seg * list seg)%type.

(** segment_tree.h:55-63, "try merge segment" with the previous one. *)
Definition merge_prev (c : cursor) : cursor :=
  let '(lft, cur, rgt) := c in
  match unsnoc lft with
  | None => c
  | Some (lft', prev) =>
      if snd prev =? fst cur then (lft', (fst prev, snd cur), rgt) else c
  end.

(** segment_tree.h:65-69, merge with the next one. *)
Definition merge_next (c : cursor) : cursor :=
  let '(lft, cur, rgt) := c in
  match rgt with
  | [] => c
  | next :: rgt' =>
      if fst next =? snd cur then (lft, (fst cur, snd next), rgt') else c
  end.

Definition cursor_list (c : cursor) : list seg :=
  let '(lft, cur, rgt) := c in lft ++ cur :: rgt.

(** segment_tree.h:36-53: find the place of the item; [None] is the early
    [return false].  When the key is already present std::map::insert leaves the
    map as it is and returns the existing entry (line 46). *)
Definition locate (item : Z) (l : list seg) : option cursor :=
  let (pre, post) := split_upper item l in
  match unsnoc pre with
  | None => Some ([], (item, inc item), post)
  | Some (pre', cur) =>
      if snd cur <? item then
        if fst cur =? item then Some (pre', cur, post)
        else Some (pre, (item, inc item), post)
      else if item =? snd cur then Some (pre', (fst cur, inc item), post)
      else None
  end.

(** segment_tree.h:29-72: Insert. *)
Definition insert (t : segtree) (item : Z) : segtree * bool :=
  match segments t with
  | [] => (mkSegTree [(item, inc item)] (count t + 1), true)
  | _ =>
      match locate item (segments t) with
      | None => (t, false)
      | Some c => (mkSegTree (cursor_list (merge_next (merge_prev c))) (count t + 1), true)
      end
  end.

(** segment_tree.h:74-92: Contains. *)
Definition contains (t : segtree) (item : Z) : bool :=
  let (pre, _) := split_upper item (segments t) in
  match unsnoc pre with
  | None => false
  | Some (_, cur) => negb (snd cur <=? item)
  end.

(** segment_tree.h:94: SegmentsCount. *)
Definition segments_count (t : segtree) : Z := Z.of_nat (length (segments t)).

(** segment_tree.h:98-107: GetSegments returns the map's entries in key order. *)
Definition get_segments (t : segtree) : list seg := segments t.

(** A history: a sequence of Insert calls on a fresh object. *)
Definition insert_all (xs : list Z) : segtree :=
  fold_left (fun t x => fst (insert t x)) xs empty.
