(** Model of the circuit file reader: CircuitReader of yacl/io/circuit/bristol_fashion.{h,cc},
    reading through FileInputStream (yacl/io/stream/file_io.cc).

    The file is a list of characters.  Simplified: allocation always succeeds (gates.resize(ng),
    niw.resize(niv) with hostile counts may throw std::bad_alloc before anything else happens),
    and the file is opened and read without I/O errors. *)
From Coq Require Import NArith List Bool Arith Ascii.
From Verif Require Import LinCodeModel CircuitModel.
Import ListNotations.
Open Scope nat_scope.

Definition text := list ascii.
Definition nl : ascii := "010"%char.
Definition sp : ascii := " "%char.

(** The stream: what is left, and eofbit. *)
Record stream := mkStream { rest : text; eof : bool }.
(** Up to the first newline, if there is one. *)
Fixpoint cut (t : text) : option (text * text) :=
  match t with
  | [] => None
  | c :: t' => if Ascii.eqb c nl then Some ([], t') else match cut t' with Some (a, b) => Some (c :: a, b) | None => None end
  end.
(** FileInputStream::GetLine (file_io.cc:57-67) on top of std::getline: with eofbit set the
    sentry fails and the string keeps its old value [old]; at the end of the file the string is
    erased; a last line without newline is returned and sets eofbit.  The exceptions for failbit
    are swallowed because eofbit is set. *)
Definition get_line (s : stream) (old : text) : text * stream :=
  if eof s then (old, s)
  else match cut (rest s) with
       | Some (a, b) => (a, mkStream b false)
       | None => (rest s, mkStream [] true)
       end.

(** absl::StrSplit(ret, ' '). *)
Fixpoint split (t : text) : list text :=
  match t with
  | [] => [[]]
  | c :: t' => if Ascii.eqb c sp then [] :: split t'
               else match split t' with w :: ws => (c :: w) :: ws | [] => [[c]] end
  end.

(** absl::SimpleAtoi into a uint32_t: white space around is dropped, one '+' is allowed, then one
    or more digits; false on overflow. *)
Definition is_space (c : ascii) : bool := let n := N_of_ascii c in ((n =? 32) || ((9 <=? n) && (n <=? 13)))%N.
Fixpoint strip (t : text) : text := match t with c :: t' => if is_space c then strip t' else t | [] => [] end.
Definition digit (c : ascii) : option N :=
  let n := N_of_ascii c in if ((48 <=? n) && (n <=? 57))%N then Some (n - 48)%N else None.
Fixpoint digits (acc : N) (t : text) : option N :=
  match t with
  | [] => Some acc
  | c :: t' => match digit c with
               | None => None
               | Some d => let a := (acc * 10 + d)%N in if (a <? 2 ^ 32)%N then digits a t' else None
               end
  end.
Definition atoi (t : text) : option N :=
  match rev (strip (rev (strip t))) with
  | [] => None
  | c :: t' => if Ascii.eqb c "+"%char then match t' with [] => None | _ => digits 0 t' end else digits 0 (c :: t')
  end.
(** YACL_ENFORCE(absl::SimpleAtoi(...)). *)
Definition must (o : option N) : outcome N := match o with Some n => Val n | None => Thrown end.
Definition enforce (b : bool) : outcome unit := if b then Val tt else Thrown.
(** splits[i]. *)
Definition tok (ws : list text) (i : N) : outcome text := match nth_error ws (N.to_nat i) with Some w => Val w | None => OutOfBounds end.
(** for (j < n) SimpleAtoi(splits[start + j], &v[j]), [ws] being splits from start on. *)
Fixpoint nums (ws : list text) (n : N) : outcome (list N) :=
  if (n =? 0)%N then Val []
  else match ws with
       | [] => OutOfBounds
       | w :: ws' => bind (must (atoi w)) (fun x => bind (nums ws' (n - 1)) (fun r => Val (x :: r)))
       end.

(** The second and third line (bristol_fashion.cc:57-84): a count, then that many widths.  The
    sum niv + 1 is computed in uint32_t. *)
Definition read_widths (line : text) : outcome (list N) :=
  let ws := split line in
  bind (tok ws 0) (fun t => bind (must (atoi t)) (fun n =>
  bind (enforce ((n + 1) mod 2 ^ 32 <=? N.of_nat (length ws))%N) (fun _ => nums (skipn 1 ws) n))).

Fixpoint same (a b : text) : bool :=
  match a, b with [], [] => true | x :: a', y :: b' => Ascii.eqb x y && same a' b' | _, _ => false end.
Definition w_XOR : text := ["X"; "O"; "R"]%char.
Definition w_AND : text := ["A"; "N"; "D"]%char.
Definition w_INV : text := ["I"; "N"; "V"]%char.
Definition w_EQ : text := ["E"; "Q"]%char.
Definition w_EQW : text := ["E"; "Q"; "W"]%char.
Definition w_MAND : text := ["M"; "A"; "N"; "D"]%char.
(** One gate line (103-151). *)
Definition read_gate (line : text) : outcome gate :=
  let ws := split line in
  bind (tok ws 0) (fun t0 => bind (must (atoi t0)) (fun ni =>
  bind (tok ws 1) (fun t1 => bind (must (atoi t1)) (fun no =>
  let k := ((ni + no + 2) mod 2 ^ 32)%N in
  bind (enforce (k <? N.of_nat (length ws))%N) (fun _ =>
  bind (nums (skipn 2 ws) ni) (fun i =>
  bind (nums (skipn (N.to_nat ((2 + ni) mod 2 ^ 32)) ws) no) (fun o =>
  bind (tok ws k) (fun op =>
  if same op w_XOR then bind (enforce ((no =? 1) && (ni =? 2))%N) (fun _ => Val (mkGate i o XOR))
  else if same op w_AND then bind (enforce ((no =? 1) && (ni =? 2))%N) (fun _ => Val (mkGate i o AND))
  else if same op w_INV then bind (enforce ((no =? 1) && (ni =? 1))%N) (fun _ => Val (mkGate i o INV))
  else if same op w_EQ then bind (enforce ((no =? 1) && (ni =? 1))%N) (fun _ => Val (mkGate i o EQ))
  else if same op w_EQW then bind (enforce ((no =? 1) && (ni =? 1))%N) (fun _ => Val (mkGate i o EQW))
  else if same op w_MAND then bind (enforce (ni =? (no * 2) mod 2 ^ 32)%N) (fun _ => Val (mkGate i o MAND))
  else Thrown)))))))).

(** The loop of ReadAllGates; [old] is the string GetLine writes to. *)
Fixpoint read_gates (n : nat) (s : stream) (old : text) : outcome (list gate) :=
  match n with
  | O => Val []
  | S n' => let (line, s') := get_line s old in
            bind (read_gate line) (fun g => bind (read_gates n' s' line) (fun r => Val (g :: r)))
  end.

(** ReadMeta (40-87) and ReadAllGates (89-152) on a fresh reader of the file [t].  Between the
    two the position is saved and restored, which clears eofbit. *)
Definition read_file (t : text) : outcome circuit :=
  let (l1, s1) := get_line (mkStream t false) [] in
  let ws := split l1 in
  bind (enforce (length ws =? 2)) (fun _ =>
  bind (tok ws 0) (fun a => bind (must (atoi a)) (fun ngates =>
  bind (tok ws 1) (fun b => bind (must (atoi b)) (fun nwires =>
  let (l2, s2) := get_line s1 l1 in
  bind (read_widths l2) (fun ins =>
  let (l3, s3) := get_line s2 l2 in
  bind (read_widths l3) (fun outs =>
  let (l4, s4) := get_line (mkStream (rest s3) false) [] in
  bind (read_gates (N.to_nat ngates) s4 l4) (fun gs => Val (mkCircuit ngates nwires ins outs gs))))))))).
