(** Model of yacl/utils/cuckoo_index.{h,cc}.  Bins are the encoded 64-bit words;
    hash codes are the 128-bit inputs of Insert.  The number of bins is a
    parameter (Options::NumBins computes it in floating point). *)
From Coq Require Import List ZArith Bool.
Import ListNotations.
Open Scope Z_scope.

(** cuckoo_index.h:49-76: Bin. *)
Definition kEmpty : Z := 2 ^ 64 - 1.
Definition hash_idx (e : Z) : Z := Z.shiftr e 56.
Definition input_idx (e : Z) : Z := Z.land e (2 ^ 56 - 1).
Definition encode (i h : Z) : Z := Z.lor i (Z.shiftl h 56) mod 2 ^ 64.
(** cuckoo_index.h:84-93: eight bytes of the little-endian code at byte offset 2*idx. *)
Definition get_hash (code : Z) (idx : Z) : Z := Z.shiftr code (16 * idx) mod 2 ^ 64.

Record opts := mkOpts { num_input : Z; num_stash : nat; num_hash : Z; max_try : nat; num_bins : nat }.
Record table := mkTable { bins : list Z; stash : list Z; hashes : list Z }.

(** cuckoo_index.cc:22-30; the check is in size_t arithmetic.  [None]: thrown. *)
Definition new_table (o : opts) : option table :=
  if ((num_hash o - 1) * 2 + 8) mod 2 ^ 64 <=? 16
  then Some (mkTable (repeat kEmpty (num_bins o)) (repeat kEmpty (num_stash o)) []) else None.

Fixpoint upd (l : list Z) (i : nat) (x : Z) : list Z :=
  match l, i with
  | [], _ => []
  | _ :: r, O => x :: r
  | y :: r, S j => y :: upd r j x
  end.

(** One pass over the candidates (cuckoo_index.cc:53-67).  The array [arr] is
    read at [i] and overwritten at [w]; [n] candidates are left.
    [None]: out-of-bounds access or division by zero. *)
Fixpoint pass (o : opts) (hs : list Z) (n i w : nat) (bs arr : list Z) : option (list Z * list Z) :=
  match n with
  | O => Some (bs, firstn w arr)
  | S n' =>
      match nth_error arr i with
      | None => None
      | Some candid =>
          match nth_error hs (Z.to_nat (input_idx candid)) with
          | None => None
          | Some code =>
              if (num_bins o =? 0)%nat then None
              else
                let b := Z.to_nat (get_hash code (hash_idx candid) mod Z.of_nat (num_bins o)) in
                match nth_error bs b with
                | None => None
                | Some old =>
                    let bs' := upd bs b candid in
                    if old =? kEmpty then pass o hs n' (S i) w bs' arr
                    else if num_hash o =? 0 then None
                    else let next := encode (input_idx old) ((hash_idx old + 1) mod num_hash o) in
                         pass o hs n' (S i) (S w) bs' (upd arr w next)
                end
          end
      end
  end.

(** The while loop (cuckoo_index.cc:52): at most [tries] passes. *)
Fixpoint passes (o : opts) (hs : list Z) (tries : nat) (bs cands : list Z) : option (list Z * list Z) :=
  match tries with
  | O => Some (bs, cands)
  | S t => match cands with
           | [] => Some (bs, [])
           | _ => match pass o hs (length cands) 0 0 bs cands with
                  | None => None
                  | Some (bs', cands') => passes o hs t bs' cands'
                  end
           end
  end.

(** PutToStash (cuckoo_index.cc:75-84); [None]: thrown. *)
Fixpoint put_stash (st : list Z) (x : Z) : option (list Z) :=
  match st with
  | [] => None
  | y :: r => if y =? kEmpty then Some (x :: r)
              else match put_stash r x with None => None | Some r' => Some (y :: r') end
  end.
(** The loop 70-72: stops at the first throw, keeping what was stored. *)
Fixpoint put_all (st : list Z) (cands : list Z) : list Z * list Z :=
  match cands with
  | [] => (st, [])
  | c :: r => match put_stash st (input_idx c) with
              | None => (st, cands)
              | Some st' => put_all st' r
              end
  end.

Inductive result := Done (t : table) | Threw (t : table) (lost : list Z) | UB.

(** CuckooIndex::Insert (32-73).  [Threw t lost]: an exception left the table in
    state [t]; [lost] are the inputs that are in neither bins nor stash. *)
Definition insert (o : opts) (t : table) (codes : list Z) : result :=
  let offset := length (hashes t) in
  let hs := hashes t ++ codes in
  if num_input o <? Z.of_nat (length hs) then Threw (mkTable (bins t) (stash t) hs) (map Z.of_nat (seq offset (length codes)))
  else match passes o hs (max_try o) (bins t) (map Z.of_nat (seq offset (length codes))) with
       | None => UB
       | Some (bs, cands) =>
           match put_all (stash t) cands with
           | (st, []) => Done (mkTable bs st hs)
           | (st, rest) => Threw (mkTable bs st hs) (map input_idx rest)
           end
       end.

Fixpoint insert_all (o : opts) (t : table) (batches : list (list Z)) : result :=
  match batches with
  | [] => Done t
  | b :: r => match insert o t b with
              | Done t' => insert_all o t' r
              | x => x
              end
  end.

(** MinCollidingHashIdx (136-148) for an in-range bin; -1 as uint8_t is 255. *)
Fixpoint min_hash (o : opts) (code : Z) (b : Z) (n : nat) (i : Z) : Z :=
  match n with
  | O => 255
  | S n' => if get_hash code i mod Z.of_nat (num_bins o) =? b then i else min_hash o code b n' (i + 1)
  end.
Definition min_colliding (o : opts) (t : table) (b : nat) : option Z :=
  match nth_error (bins t) b with
  | None => None
  | Some e => match nth_error (hashes t) (Z.to_nat (input_idx e)) with
              | None => None
              | Some code => Some (min_hash o code (Z.of_nat b) (Z.to_nat (num_hash o)) 0)
              end
  end.

(** SanityCheck (86-109).  [None]: a duplicate was found (thrown); the std::set is
    kept as a strictly increasing list. *)
Fixpoint set_insert (x : Z) (l : list Z) : option (list Z) :=
  match l with
  | [] => Some [x]
  | y :: r => if x <? y then Some (x :: l)
              else if x =? y then None
              else match set_insert x r with None => None | Some r' => Some (y :: r') end
  end.
Fixpoint collect (slots : list Z) (s : list Z) : option (list Z) :=
  match slots with
  | [] => Some s
  | e :: r => if e =? kEmpty then collect r s
              else match set_insert (input_idx e) s with None => None | Some s' => collect r s' end
  end.
Fixpoint is_range (l : list Z) (i : Z) : bool :=
  match l with [] => true | x :: r => (i =? x) && is_range r (i + 1) end.
Definition sanity_check (o : opts) (t : table) : bool :=
  match collect (bins t ++ stash t) [] with
  | None => false
  | Some s => (Z.of_nat (length s) =? num_input o) && is_range s 0
  end.
