(** Model of searchable encryption, yacl/crypto/experimental/sse/sse.cc, on top
    of TSetModel.  Strings are lists of character codes.  The group, AES-CTR,
    the modular inverse and the hashes are arguments.

    Not modelled: reading the CSV file (sse.cc:331-390: the (id, keyword) pairs
    and the sorted list of distinct keywords are arguments) and SaveXSet and
    LoadXSet. *)
From Coq Require Import NArith List Bool Arith.
From Verif Require Import TSetModel.
Import ListNotations.
Open Scope nat_scope.

Definition str_eqb (a b : list N) : bool := if list_eq_dec N.eq_dec a b then true else false.

(** ** EvaluateExpression, sse.cc:148-218 *)
Definition c_space : N := 32.
Definition s_AND : list N := [65; 78; 68]%N.
Definition s_OR : list N := [79; 82]%N.
Definition s_NOT : list N := [78; 79; 84]%N.
Definition s_and : list N := [38; 38]%N.
Definition s_or : list N := [124; 124]%N.
Definition s_not : list N := [33]%N.
Definition s_true : list N := [116; 114; 117; 101]%N.
Definition s_false : list N := [102; 97; 108; 115; 101]%N.
(** "v" + std::to_string(i) *)
Definition var_name (i : nat) : list N := 118%N :: dec (N.of_nat i).
Fixpoint prefixb (pat s : list N) : bool :=
  match pat, s with
  | [], _ => true
  | a :: pat', b :: s' => N.eqb a b && prefixb pat' s'
  | _, [] => false
  end.
(** The find/replace loops, sse.cc:151-176: left to right, going on behind the
    inserted text. *)
Fixpoint replace (pat rep s : list N) (skip : nat) : list N :=
  match s with
  | [] => []
  | c :: s' => match skip with
               | S k => replace pat rep s' k
               | O => if prefixb pat s then rep ++ replace pat rep s' (length pat - 1) else c :: replace pat rep s' 0
               end
  end.
(** iss >> token *)
Definition spaceb (c : N) : bool := ((c =? 32) || ((9 <=? c) && (c <=? 13)))%N.
Definition flush (cur : list N) : list (list N) := match cur with [] => [] | _ => [cur] end.
Fixpoint words (s cur : list N) : list (list N) :=
  match s with
  | [] => flush cur
  | c :: s' => if spaceb c then flush cur ++ words s' [] else words s' (cur ++ [c])
  end.
Inductive bop := OpAnd | OpOr | OpNot.
(** sse.cc:183-192; None: unexpected token. *)
Fixpoint collect (ts : list (list N)) (vals : list bool) (ops : list bop) : option (list bool * list bop) :=
  match ts with
  | [] => Some (vals, ops)
  | t :: ts' =>
      if str_eqb t s_true then collect ts' (true :: vals) ops
      else if str_eqb t s_false then collect ts' (false :: vals) ops
      else if str_eqb t s_and then collect ts' vals (OpAnd :: ops)
      else if str_eqb t s_or then collect ts' vals (OpOr :: ops)
      else if str_eqb t s_not then collect ts' vals (OpNot :: ops)
      else None
  end.
(** sse.cc:194-217; None: top() or pop() of an empty stack. *)
Fixpoint reduce (ops : list bop) (vals : list bool) : option bool :=
  match ops with
  | [] => match vals with v :: _ => Some v | [] => None end
  | o :: ops' =>
      match o, vals with
      | OpAnd, rhs :: lhs :: vals' => reduce ops' (lhs && rhs :: vals')
      | OpOr, rhs :: lhs :: vals' => reduce ops' (lhs || rhs :: vals')
      | OpNot, rhs :: vals' => reduce ops' (negb rhs :: vals')
      | _, _ => None
      end
  end.
(** values lists the variables in the order the unordered_map yields them. *)
Definition substitute (values : list (nat * bool)) (s : list N) : list N :=
  fold_left (fun s (v : nat * bool) => replace (var_name (fst v)) (if snd v then s_true else s_false) s 0) values s.
Definition evaluate (expr : list N) (values : list (nat * bool)) : option bool :=
  let s := replace s_NOT s_not (replace s_OR s_or (replace s_AND s_and expr 0) 0) 0 in
  match collect (words (substitute values s) []) [] [] with
  | None => Some false
  | Some (vals, ops) => reduce ops vals
  end.

(** ** Setup and search *)
(** MPInt(string, 10) *)
Definition of_dec (s : list N) : N := fold_left (fun a c => 10 * a + (c - 48))%N s 0%N.

Section Sse.
Variable hmac : list N -> list N -> list N.
Variables sm3 sha : list N -> list N.
Variable p : params.
Variable G : Type.
Variable q : N.                            (* the order of the group *)
Variable mul_base : N -> G.
Variable mul : G -> N -> G.
Variable point_eqb : G -> G -> bool.
Variable inv : N -> N.                     (* InvertMod by the order *)
Variables enc dec_ctr : N -> N -> list N -> list N.   (* AES-CTR: key, iv, text *)

Record keys := { k_s : list N; k_x : list N; k_i : list N; k_z : list N }.
(** A hash value as a scalar, sse.cc:70-83 and 284-305. *)
Definition scalar (k m : list N) : N := of_dec (vec_to_string (hmac k m)) mod q.
(** ConvertToUint128, sse.cc:392-396. *)
Definition to_u128 (mac : list N) : N := of_le (firstn 16 mac).
(** reverseIndex_ and FetchKeysByValue, sse.cc:376-383 and 406-420. *)
Definition inds (pairs : list (list N * list N)) (w : list N) : list (list N) :=
  map fst (filter (fun e : list N * list N => str_eqb (snd e) w) pairs).
Definition indexed (l : list (list N)) : list (nat * list N) := combine (seq 1 (length l)) l.
(** ProcessAndUpdateTAndXSet, sse.cc:273-326; iv is what RandU128 returns for
    the c-th identifier of a keyword. *)
Section Setup.
Variable ks : keys.
Variable iv : list N -> nat -> N.
Variable pairs : list (list N * list N).
Definition e_of (w : list N) (ci : nat * list N) : list N := enc (to_u128 (hmac (k_s ks) w)) (iv w (fst ci)) (snd ci).
Definition z_of (w : list N) (c : nat) : N := scalar (k_z ks) (w ++ dec (N.of_nat c)).
Definition y_of (w : list N) (ci : nat * list N) : N := (scalar (k_i ks) (snd ci) * inv (z_of w (fst ci))) mod q.
Definition xtag_of (w ind : list N) : G := mul_base ((scalar (k_x ks) w * scalar (k_i ks) ind) mod q).
Definition t_table (ws : list (list N)) : list (list N * list (list N * list N)) :=
  map (fun w => (w, map (fun ci => (e_of w ci, dec (y_of w ci))) (indexed (inds pairs w)))) ws.
Definition x_set (ws : list (list N)) : list G := flat_map (fun w => map (xtag_of w) (inds pairs w)) ws.
Definition ivs (ws : list (list N)) : list (list N * N) := flat_map (fun w => map (fun ci => (e_of w ci, iv w (fst ci))) (indexed (inds pairs w))) ws.
End Setup.
(** The encrypted database and what the client keeps. *)
Record edb := { d_tset : list (list rec); d_xset : list G; d_ivs : list (list N * N); d_kt : N; d_keys : keys }.
(** EDBSetup, sse.cc:24-31; None: TSetSetup has not returned a table. *)
Definition edb_setup (fuel : nat) (tp : tape) (ks : keys) (iv : list N -> nat -> N) (pairs : list (list N * list N)) (ws : list (list N)) : option edb :=
  match setup hmac sm3 sha p fuel tp (t_table ks iv pairs ws) ws with
  | Done kt s _ => Some {| d_tset := tab s; d_xset := x_set ks pairs ws; d_ivs := ivs ks iv pairs ws; d_kt := kt; d_keys := ks |}
  | _ => None
  end.
(** GetIVForE, sse.cc:230-237; None: throws. *)
Definition iv_for (l : list (list N * N)) (e : list N) : option N :=
  match find (fun x : list N * N => str_eqb (fst x) e) l with Some x => Some (snd x) | None => None end.
Definition in_xset (x : G) (l : list G) : bool := existsb (point_eqb x) l.
(** xtoken[c][i], sse.cc:63-88. *)
Definition xtoken (ks : keys) (w1 : list N) (c : nat) (w : list N) : G := mul_base ((scalar (k_x ks) w * z_of ks w1 c) mod q).
(** The values of the variables for the c-th tuple, sse.cc:94-102. *)
Definition values_of (d : edb) (w1 : list N) (rest : list (list N)) (c : nat) (y : N) : list (nat * bool) :=
  map (fun iw : nat * list N => (fst iw, in_xset (mul (xtoken (d_keys d) w1 c (snd iw)) y) (d_xset d))) (combine (seq 2 (length rest)) rest).
(** sse.cc:103-120; ord is the order in which the unordered_map is walked. *)
Definition accept (ord : list (nat * bool) -> list (nat * bool)) (phi : list N) (values : list (nat * bool)) : option bool :=
  match phi with
  | [] => Some (forallb snd values)
  | _ => evaluate phi (ord values)
  end.
Fixpoint select (ord : list (nat * bool) -> list (nat * bool)) (d : edb) (w1 : list N) (rest : list (list N)) (phi : list N) (c : nat) (t : list (list N * list N)) : option (list (list N)) :=
  match t with
  | [] => Some []
  | (e, y) :: t' =>
      match accept ord phi (values_of d w1 rest c (of_dec y)) with
      | None => None
      | Some b => match select ord d w1 rest phi (S c) t' with
                  | None => None
                  | Some es => Some (if b then e :: es else es)
                  end
      end
  end.
Fixpoint decrypt_all (d : edb) (ke : N) (es : list (list N)) : option (list (list N)) :=
  match es with
  | [] => Some []
  | e :: es' => match iv_for (d_ivs d) e, decrypt_all d ke es' with
                | Some v, Some r => Some (dec_ctr ke v e :: r)
                | _, _ => None
                end
  end.
(** SearchProtocol, sse.cc:47-143. *)
Definition search (ord : list (nat * bool) -> list (nat * bool)) (d : edb) (query : list (list N)) (phi : list N) : option (list (list N)) :=
  match query with
  | [] => Some []
  | w1 :: rest =>
      match retrieve hmac sm3 sha p (d_tset d) (get_tag hmac (d_kt d) w1) with
      | None => None
      | Some t => match select ord d w1 rest phi 1 t with
                  | None => None
                  | Some es => decrypt_all d (to_u128 (hmac (k_s (d_keys d)) w1)) es
                  end
      end
  end.
End Sse.
Arguments d_tset {G} _. Arguments d_xset {G} _. Arguments d_ivs {G} _. Arguments d_kt {G} _. Arguments d_keys {G} _.

(** ** Files *)
(** A size_t as eight little endian bytes. *)
Definition le8 (n : nat) : list N := map (fun k => (N.of_nat n / 2 ^ (8 * k)) mod 256)%N [0; 1; 2; 3; 4; 5; 6; 7]%N.
Definition chunk (l : list N) : list N := le8 (length l) ++ l.
(** Reading a size and that many bytes; None: the stream ends before. *)
Definition read_size (l : list N) : option (nat * list N) :=
  if length l <? 8 then None else Some (N.to_nat (of_le (firstn 8 l)), skipn 8 l).
Definition read_chunk (l : list N) : option (list N * list N) :=
  match read_size l with
  | None => None
  | Some (n, l') => if length l' <? n then None else Some (firstn n l', skipn n l')
  end.
(** SaveKeys, sse.cc:442-459, of the (sorted) entries of the map. *)
Definition save_keys (m : list (list N * list N)) : list N := flat_map (fun e : list N * list N => chunk (fst e) ++ chunk (snd e)) m.
(** LoadKeys, sse.cc:519-545; emplace keeps the first of equal keys. *)
Fixpoint load_keys (fuel : nat) (l : list N) : option (list (list N * list N)) :=
  match l, fuel with
  | [], _ => Some []
  | _, O => None
  | _, S f =>
      match read_chunk l with
      | None => None
      | Some (k, l1) => match read_chunk l1 with
                        | None => None
                        | Some (v, l2) => match load_keys f l2 with
                                          | None => None
                                          | Some m => Some ((k, v) :: filter (fun e : list N * list N => negb (str_eqb (fst e) k)) m)
                                          end
                        end
      end
  end.
(** SaveTSet, sse.cc:461-486: only the values are written. *)
Definition save_tset (t : list (list rec)) : list N :=
  flat_map (fun b => le8 (length b) ++ flat_map (fun r => chunk (value r)) b) t.
(** LoadTSet, sse.cc:547-568: the labels stay empty. *)
Fixpoint load_entries (n : nat) (l : list N) : option (list rec * list N) :=
  match n with
  | O => Some ([], l)
  | S n' => match read_chunk l with
            | None => None
            | Some (v, l1) => match load_entries n' l1 with
                              | None => None
                              | Some (rs, l2) => Some ({| label := []; value := v |} :: rs, l2)
                              end
            end
  end.
Fixpoint load_tset (fuel : nat) (l : list N) : option (list (list rec)) :=
  match l, fuel with
  | [], _ => Some []
  | _, O => None
  | _, S f =>
      match read_size l with
      | None => None
      | Some (n, l1) => match load_entries n l1 with
                        | None => None
                        | Some (b, l2) => match load_tset f l2 with None => None | Some t => Some (b :: t) end
                        end
      end
  end.
