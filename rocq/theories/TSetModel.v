(** Model of TSet, yacl/crypto/experimental/sse/tset.cc.

    Bytes and characters are N, strings and byte vectors lists of them.  The
    keyed hash (HMAC-SHA256), SM3 and SHA-256 are arguments; the random keys and
    slot choices are read from a tape.  None stands for undefined behaviour
    (dereferencing the end iterator, reading behind a vector). *)
From Coq Require Import NArith List Bool Arith.
Import ListNotations.
Open Scope nat_scope.

Notation bytes := (list N) (only parsing).
(** A tuple: the encrypted identifier and a string. *)
Notation tuple := (list N * list N)%type (only parsing).
(** Record, tset.h:32-35. *)
Record rec := { label : list N; value : list N }.
(** b_, s_ and lambda_. *)
Record params := { nb : nat; ns : nat; lambda : nat }.
Definition label_size (p : params) : nat := lambda p / 8.
Definition value_size (p : params) : nat := lambda p / 4 + 1.

(** std::to_string and Uint128ToString (tset.cc:212-220): decimal digits. *)
Fixpoint dec_aux (fuel : nat) (n : N) (acc : list N) : list N :=
  match fuel with
  | O => acc
  | S f => let acc' := (48 + n mod 10)%N :: acc in
           if (n / 10 =? 0)%N then acc' else dec_aux f (n / 10)%N acc'
  end.
Definition dec (n : N) : list N := dec_aux (S (N.size_nat n)) n [].
(** VectorToString, tset.cc:204-210. *)
Definition vec_to_string (v : list N) : list N := flat_map dec v.

(** Pack, tset.cc:227-247: the length as four little endian bytes. *)
Definition le4 (n : N) : list N := map (fun k => (n / 2 ^ (8 * k)) mod 256)%N [0; 1; 2; 3]%N.
Definition of_le (l : list N) : N := fold_right (fun b acc => b + 256 * acc)%N 0%N l.
Definition pack (d : tuple) : list N := fst d ++ le4 (N.of_nat (length (snd d)) mod 2 ^ 32)%N ++ snd d.
(** UnPack, tset.cc:249-264. *)
Definition unpack (d : list N) : option tuple :=
  if length d <? 13 then None
  else let n := N.to_nat (of_le (firstn 4 (skipn 9 d))) in
       if length d <? 13 + n then None else Some (firstn 9 d, firstn n (skipn 13 d)).

Definition resize (l : list N) (n : nat) : list N := firstn n l ++ repeat 0%N (n - length l).
Fixpoint upd {A} (l : list A) (i : nat) (v : A) : list A :=
  match l, i with
  | [], _ => []
  | _ :: l', O => v :: l'
  | a :: l', S i' => a :: upd l' i' v
  end.

Section Hashes.
Variable hmac : list N -> list N -> list N.   (* key, message *)
Variables sm3 sha : list N -> list N.
Variable p : params.

(** The bucket of a hash, tset.cc:78-82 and 163-167. *)
Definition bucket (h : list N) : nat :=
  N.to_nat (fold_left (fun acc x => (acc * 256 + x) mod N.of_nat (nb p))%N h 0%N mod N.of_nat (nb p)).
(** mac_str for the i-th tuple of a tag, tset.cc:70-73 and 157-160. *)
Definition mac_str (stag : list N) (i : nat) : list N := vec_to_string (hmac stag (dec (N.of_nat i))).
Definition place (stag : list N) (i : nat) : nat * list N :=
  let h := sm3 (mac_str stag i) in (bucket h, firstn (label_size p) h).
(** K, tset.cc:106-115 and 176-183. *)
Definition keystream (m : list N) (len : nat) : list N :=
  flat_map (fun n => sha (m ++ dec (N.of_nat n))) (seq 0 ((len + 31) / 32)).
Definition xor_with (l k : list N) : list N := map (fun q : N * N => N.lxor (fst q) (snd q)) (combine l k).
(** beta and the packed tuple, encrypted, tset.cc:97-119. *)
Definition seal (m : list N) (beta : N) (t : tuple) : list N :=
  let b := beta :: pack t in xor_with b (keystream m (length b)).
(** The record of the i-th of n tuples. *)
Definition record (stag : list N) (i n : nat) (t : tuple) : rec :=
  {| label := snd (place stag i); value := seal (mac_str stag i) (if i <? n then 1%N else 0%N) t |}.

(** tset_, free_ and the number of slots drawn so far. *)
Record state := { tab : list (list rec); free : list (list nat); drawn : nat }.
Definition row (s : state) (b : nat) : list rec := nth b (tab s) [].
(** Initialize, tset.cc:23-40.  tset_.resize does nothing when the table is
    there already, so old records stay, with resized label and value. *)
Definition all_free : list (list nat) := repeat (seq 1 (ns p)) (nb p).
Definition fresh : state :=
  {| tab := repeat (repeat {| label := repeat 0%N (label_size p); value := repeat 0%N (value_size p) |} (ns p)) (nb p); free := all_free; drawn := 0 |}.
Definition initialize (s : state) : state :=
  {| tab := map (map (fun r => {| label := resize (label r) (label_size p); value := resize (value r) (value_size p) |})) (tab s);
     free := all_free; drawn := 0 |}.

(** free_[b].erase(j) *)
Definition erase (j : nat) (l : list nat) : list nat := filter (fun x => negb (x =? j)) l.
(** The loop over the tuples of one keyword, tset.cc:68-121, from the i-th on;
    true: no free slot, the loop was left. *)
Fixpoint put_tuples (rnd : nat -> N) (stag : list N) (n i : nat) (ts : list tuple) (s : state) : state * bool :=
  match ts with
  | [] => (s, false)
  | t :: ts' =>
      let b := fst (place stag i) in
      match nth b (free s) [] with
      | [] => (s, true)
      | f0 :: fs =>
          let j := nth (N.to_nat (rnd (drawn s) mod N.of_nat (length (f0 :: fs)))) (f0 :: fs) 0 in
          let s' := {| tab := upd (tab s) b (upd (row s b) ((j - 1) mod ns p) (record stag i n t));
                       free := upd (free s) b (erase j (f0 :: fs)); drawn := S (drawn s) |} in
          put_tuples rnd stag n (S i) ts' s'
      end
  end.
(** T.find(keyword)->second *)
Definition lookup (db : list (list N * list tuple)) (w : list N) : option (list tuple) :=
  match find (fun e : list N * list tuple => if list_eq_dec N.eq_dec (fst e) w then true else false) db with
  | Some e => Some (snd e) | None => None end.
Definition stag_of (kt : N) (w : list N) : list N := vec_to_string (hmac (dec kt) w).
(** The loop over the keywords, tset.cc:60-122: a keyword without room does not
    stop the following ones. *)
Fixpoint put_keywords (rnd : nat -> N) (kt : N) (db : list (list N * list tuple)) (ws : list (list N)) (s : state) (restart : bool) : option (state * bool) :=
  match ws with
  | [] => Some (s, restart)
  | w :: ws' =>
      match lookup db w with
      | None => None
      | Some ts => let '(s', r) := put_tuples rnd (stag_of kt w) (length ts) 1 ts s in
                   put_keywords rnd kt db ws' s' (restart || r)
      end
  end.
(** What RandU128 returns in attempt a: the key, then the draws. *)
Record tape := { t_key : nat -> N; t_draw : nat -> nat -> N }.
Inductive outcome := Done (kt : N) (s : state) (attempts : nat) | Undefined | StillRunning.
(** TSetSetup, tset.cc:42-127, at most fuel attempts from attempt a on. *)
Fixpoint setup_loop (fuel : nat) (tp : tape) (db : list (list N * list tuple)) (ws : list (list N)) (a : nat) (s : state) : outcome :=
  match fuel with
  | O => StillRunning
  | S f =>
      match put_keywords (t_draw tp a) (t_key tp a) db ws (initialize s) false with
      | None => Undefined
      | Some (s', false) => Done (t_key tp a) s' a
      | Some (s', true) => setup_loop f tp db ws (S a) s'
      end
  end.
Definition setup (fuel : nat) (tp : tape) db ws : outcome := setup_loop fuel tp db ws 0 fresh.

(** TSetGetTag, tset.cc:129-136, with the caller's VectorToString. *)
Definition get_tag (kt : N) (w : list N) : list N := vec_to_string (hmac (dec kt) w).
(** The scan of a bucket, tset.cc:172-195. *)
Fixpoint scan (m l : list N) (rs : list rec) (beta : N) (t : list tuple) : option (N * list tuple) :=
  match rs with
  | [] => Some (beta, t)
  | r :: rs' =>
      if list_eq_dec N.eq_dec (label r) l
      then match xor_with (value r) (keystream m (length (value r))) with
           | [] => None
           | b :: rest => match unpack rest with None => None | Some x => scan m l rs' b (t ++ [x]) end
           end
      else scan m l rs' beta t
  end.
(** TSetRetrieve, tset.cc:138-202: at most kMaxIterations = 100 rounds. *)
Fixpoint retrieve_loop (fuel : nat) (tb : list (list rec)) (stag : list N) (i : nat) (t : list tuple) : option (list tuple) :=
  match fuel with
  | O => Some t
  | S f =>
      match scan (mac_str stag i) (snd (place stag i)) (firstn (ns p) (nth (fst (place stag i)) tb [])) 1 t with
      | None => None
      | Some (beta, t') => if (beta =? 1)%N then retrieve_loop f tb stag (S i) t' else Some t'
      end
  end.
Definition retrieve (tb : list (list rec)) (stag : list N) : option (list tuple) := retrieve_loop 100 tb stag 1 [].
End Hashes.
