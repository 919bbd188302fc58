(** Model of the CSV reader and writer: yacl/io/rw/{csv_reader,csv_writer}.{h,cc}, schema.h,
    mmapped_file.cc, on top of the streams of yacl/io/stream/{mem_io,file_io}.cc.

    A file is a list of characters; I/O errors and allocation failures do not happen.
    Numbers in floating point and their conversions (float.h) are arguments: [pf] is
    FloatFromString for float (None when it returns false), [sf] is FloatToString with the
    precision of the options, [ef] and [df] are the four bytes of a float in memory and
    back; [pd], [sd], [ed], [dd] the same for double.  std::sort is a stable sort.
    Every operation returns its outcome and the object it leaves behind. *)
From Coq Require Import NArith List Bool Arith Ascii.
From Verif Require Import LinCodeModel PrgModel.
Import ListNotations.
Open Scope nat_scope.

Definition text := list ascii.
Definition text_eqb (a b : text) : bool := if list_eq_dec ascii_dec a b then true else false.
(** absl::ascii_isspace, absl::StripAsciiWhitespace. *)
Definition is_space (c : ascii) : bool := let n := N_of_ascii c in ((n =? 32) || ((9 <=? n) && (n <=? 13)))%N.
Fixpoint strip_left (t : text) : text := match t with c :: t' => if is_space c then strip_left t' else t | [] => [] end.
Definition strip (t : text) : text := rev (strip_left (rev (strip_left t))).

(** ** Input streams *)
(** data, position, eofbit, failbit. *)
Record stream := mkStream { sdata : text; spos : nat; seof : bool; sfail : bool }.
Fixpoint cut (d : ascii) (t : text) : option (text * text) :=
  match t with
  | [] => None
  | c :: t' => if Ascii.eqb c d then Some ([], t') else match cut d t' with Some (a, b) => Some (c :: a, b) | None => None end
  end.
(** std::getline (mem_io.cc:36-39, file_io.cc:58-68; the exceptions of the file stream are swallowed at the
    end of the file): in a bad state the string is not touched. *)
Definition get_line (d : ascii) (old : text) (s : stream) : text * stream :=
  if seof s || sfail s then (old, mkStream (sdata s) (spos s) (seof s) true)
  else let t := skipn (spos s) (sdata s) in
       match cut d t with
       | Some (a, _) => (a, mkStream (sdata s) (spos s + length a + 1) false false)
       | None => (t, mkStream (sdata s) (length (sdata s)) true (match t with [] => true | _ => false end))
       end.
(** Seekg (mem_io.cc:46-51, file_io.cc:79-88), Tellg (53-60, 90-104), Spawn (101-105, 119-123). *)
Definition seekg (p : nat) (s : stream) : stream := mkStream (sdata s) p false (length (sdata s) <? p).
Definition tellg (s : stream) : nat := spos s.
Definition stream_spawn (s : stream) : stream := seekg (tellg s) (mkStream (sdata s) 0 false false).
(** absl::StrSplit(line, delimiter). *)
Fixpoint split (d : ascii) (t : text) : list text :=
  match t with
  | [] => [[]]
  | c :: t' => if Ascii.eqb c d then [] :: split d t'
               else match split d t' with w :: ws => (c :: w) :: ws | [] => [[c]] end
  end.

(** ** Schema, columns and batches (schema.h) *)
Inductive stype := STRING | FLOAT | DOUBLE.
Definition stype_eqb (a b : stype) : bool :=
  match a, b with STRING, STRING | FLOAT, FLOAT | DOUBLE, DOUBLE => true | _, _ => false end.

Section Csv.
Context {F D : Type}.
Inductive cell := CStr (t : text) | CFlt (x : F) | CDbl (x : D).
(** ColumnType: the alternative held, and the elements. *)
Definition column : Type := stype * list cell.
(** ColumnVectorBatch (schema.h:41-115). *)
Record batch := mkBatch { b_cols : list column; b_rows : nat }.
Definition empty_batch : batch := mkBatch [] 0.
(** AppendCol (92-103). *)
Definition append_col (c : column) (b : batch) : outcome batch :=
  if (b_rows b =? 0) || (b_rows b =? length (snd c)) then Val (mkBatch (b_cols b ++ [c]) (length (snd c))) else Thrown.
Fixpoint append_cols (cs : list column) (b : batch) : outcome batch :=
  match cs with [] => Val b | c :: r => bind (append_col c b) (append_cols r) end.
(** At<S>(row, col) (78-82): data_[col] and [row] are not checked. *)
Definition at_cell (ty : stype) (b : batch) (r c : nat) : outcome cell :=
  match nth_error (b_cols b) c with
  | None => OutOfBounds
  | Some (t, l) => if stype_eqb t ty then match nth_error l r with Some x => Val x | None => OutOfBounds end else Thrown
  end.

Variable pf : text -> option F.
Variable sf : F -> text.
Variable ef : F -> text.
Variable df : text -> F.
Variable pd : text -> option D.
Variable sd : D -> text.
Variable ed : D -> text.
Variable dd : text -> D.

(** ** The reader *)
(** ReaderOptions (reader.h:24-39). *)
Record options := mkOptions { o_names : list text; o_types : list stype; o_batch : nat; o_column : bool; o_order : bool; o_count : bool }.
(** The members of CsvReader (csv_reader.h:119-138).  [total] is None for kUnknowTotalRow; [rmap] lists the map
    in the order of its keys; [files] are the contents of the mapped files. *)
Record reader := mkReader {
  opts : options; fd : ascii; ld : ascii; inited : bool; inp : stream; headers : list text;
  selected : list (nat * stype); line : text; cur : nat; total : option nat; rmap : list (nat * nat); files : list text }.
Definition with_inp s l r := mkReader (opts r) (fd r) (ld r) (inited r) s (headers r) (selected r) l (cur r) (total r) (rmap r) (files r).
Definition with_cur c r := mkReader (opts r) (fd r) (ld r) (inited r) (inp r) (headers r) (selected r) (line r) c (total r) (rmap r) (files r).
Definition with_total t r := mkReader (opts r) (fd r) (ld r) (inited r) (inp r) (headers r) (selected r) (line r) (cur r) t (rmap r) (files r).
Definition with_rmap m r := mkReader (opts r) (fd r) (ld r) (inited r) (inp r) (headers r) (selected r) (line r) (cur r) (total r) m (files r).
Definition with_files f r := mkReader (opts r) (fd r) (ld r) (inited r) (inp r) (headers r) (selected r) (line r) (cur r) (total r) (rmap r) f.
Definition with_inited b r := mkReader (opts r) (fd r) (ld r) b (inp r) (headers r) (selected r) (line r) (cur r) (total r) (rmap r) (files r).
Definition with_headers h r := mkReader (opts r) (fd r) (ld r) (inited r) (inp r) h (selected r) (line r) (cur r) (total r) (rmap r) (files r).
Definition with_selected s r := mkReader (opts r) (fd r) (ld r) (inited r) (inp r) (headers r) s (line r) (cur r) (total r) (rmap r) (files r).
(** The constructor (csv_reader.cc:41-49) on a fresh stream. *)
Definition open (o : options) (data : text) (f l : ascii) : reader :=
  mkReader o f l false (mkStream data 0 false false) [] [] [] 0 None [] [].

(** NextLine (117-125): None for false; the fields of the line. *)
Definition next_line (r : reader) : option (list text) * reader :=
  let (t, s) := get_line (ld r) (line r) (inp r) in
  let r' := with_inp s t r in
  if sfail s then (None, r') else (Some (split (fd r) t), r').
(** ParseHeader (127-151). *)
Fixpoint add_headers (acc : list text) (hs : list text) : outcome (list text) :=
  match hs with
  | [] => Val acc
  | h :: t => let w := strip h in
              if text_eqb w [] then Thrown else if existsb (text_eqb w) acc then Thrown else add_headers (acc ++ [w]) t
  end.
Definition parse_header (r : reader) : outcome reader :=
  match next_line r with
  | (None, _) => Thrown
  | (Some hs, r') => bind (add_headers [] hs) (fun h => Val (with_headers h r'))
  end.
(** std::find and std::distance (75-86). *)
Fixpoint find_index (x : text) (l : list text) : option nat :=
  match l with [] => None | y :: t => if text_eqb y x then Some 0 else match find_index x t with Some i => Some (S i) | None => None end end.
Fixpoint select (hs : list text) (ns : list text) (ts : list stype) : outcome (list (nat * stype)) :=
  match ns, ts with
  | n :: ns', t :: ts' => match find_index n hs with
                          | None => Thrown
                          | Some i => bind (select hs ns' ts') (fun s => Val ((i, t) :: s))
                          end
  | _, _ => Val []
  end.
Fixpoint insert_feature (x : nat * stype) (l : list (nat * stype)) : list (nat * stype) :=
  match l with [] => [x] | y :: t => if fst y <=? fst x then y :: insert_feature x t else x :: l end.
Definition sort_features (l : list (nat * stype)) : list (nat * stype) := fold_left (fun acc x => insert_feature x acc) l [].
(** UpdateRowMap (153-160): insert does not replace. *)
Definition update_row_map (r : reader) : reader :=
  if existsb (fun e => cur r <? fst e) (rmap r) then r
  else if existsb (fun e => cur r =? fst e) (rmap r) then r
  else with_rmap (rmap r ++ [(cur r, tellg (inp r))]) r.
(** CountLines (107-115); % 0 is undefined. [fuel] exceeds the number of lines. *)
Fixpoint count_lines (fuel : nat) (r : reader) : outcome reader :=
  match fuel with
  | O => Hangs
  | S f =>
      match next_line r with
      | (None, r') => Val (with_total (Some (cur r')) r')
      | (Some _, r') =>
          let r1 := with_cur (S (cur r')) r' in
          if o_batch (opts r1) =? 0 then OutOfBounds
          else count_lines f (if cur r1 mod o_batch (opts r1) =? 0 then update_row_map r1 else r1)
      end
  end.
(** One field, as converted in NextRow (411-447) and BuildMmapFiles (190-235). *)
Definition convert (ty : stype) (t : text) : outcome cell :=
  match ty with
  | STRING => Val (CStr t)
  | FLOAT => match pf t with Some x => Val (CFlt x) | None => Thrown end
  | DOUBLE => match pd t with Some x => Val (CDbl x) | None => Thrown end
  end.
Fixpoint parse_row (sel : list (nat * stype)) (fields : list text) : outcome (list cell) :=
  match sel with
  | [] => Val []
  | (i, ty) :: s => match nth_error fields i with
                    | None => OutOfBounds
                    | Some t => bind (convert ty t) (fun c => bind (parse_row s fields) (fun r => Val (c :: r)))
                    end
  end.
(** The mapped files: a string is its length in four bytes and its characters (the length is truncated to 32
    bits), a number is its bytes. *)
Definition len_bytes (n : nat) : text := map ascii_of_N (le_bytes 4 (N.of_nat n)).
Definition len_value (t : text) : nat := N.to_nat (le_val (map N_of_ascii t)).
Definition encode (c : cell) : text :=
  match c with
  | CStr t => let n := N.to_nat (N.of_nat (length t) mod 2 ^ 32) in len_bytes n ++ firstn n t
  | CFlt x => ef x
  | CDbl x => ed x
  end.
(** BuildMmapFiles (162-254). *)
Fixpoint build_files (fuel : nat) (r : reader) (fs : list text) (rows : nat) : outcome reader :=
  match fuel with
  | O => Hangs
  | S f =>
      match next_line r with
      | (None, r') => Val (with_files fs (with_total (Some rows) r'))
      | (Some fields, r') =>
          if negb (length fields =? length (headers r')) then Thrown
          else bind (parse_row (selected r') fields) (fun cells =>
               build_files f r' (map (fun p => fst p ++ encode (snd p)) (combine fs cells)) (S rows))
      end
  end.
(** The loop of Seek (488-490). *)
Fixpoint skip_lines (k : nat) (r : reader) : reader :=
  match k with
  | O => r
  | S k' => match next_line r with (None, r') => r' | (Some _, r') => skip_lines k' (with_cur (S (cur r')) r') end
  end.
(** Seek (472-495). *)
Definition seek (i : nat) (r : reader) : outcome unit * reader :=
  if negb (inited r) then (Thrown, r)
  else if o_column (opts r) then if i <? length (selected r) then (Val tt, with_cur i r) else (Thrown, r)
  else if match total r with None => true | Some n => i <? n end then
    match find (fun e => fst e <=? i) (rev (rmap r)) with
    | None => (Thrown, r)
    | Some (k, p) =>
        let r1 := skip_lines (i - k) (with_cur k (with_inp (seekg p (inp r)) (line r) r)) in
        (if cur r1 =? i then Val tt else Thrown, r1)
    end
  else (Thrown, r).
(** Init (62-105). *)
Definition init (r : reader) : outcome reader :=
  if inited r then Thrown else
  bind (parse_header r) (fun r1 =>
  let o := opts r1 in
  if negb (length (o_names o) =? length (o_types o)) then Thrown
  else if o_column o && (length (o_names o) =? 0) then Thrown
  else bind (select (headers r1) (o_names o) (o_types o)) (fun sel =>
  let r2 := with_selected (if o_order o then sort_features sel else sel) r1 in
  let fuel := S (S (length (sdata (inp r2)))) in
  bind (if o_column o then build_files fuel r2 (map (fun _ => []) (selected r2)) 0
        else let r3 := update_row_map r2 in if o_count o then count_lines fuel r3 else Val r3) (fun r4 =>
  let (u, r5) := seek 0 (with_inited true r4) in bind u (fun _ => Val r5)))).

(** NextRow (385-470): the loop, with the columns so far. *)
Fixpoint row_loop (k : nat) (r : reader) (cols : list (list cell)) (count : nat) : outcome (list (list cell) * nat) * reader :=
  match k with
  | O => (Val (cols, count), r)
  | S k' =>
      match next_line r with
      | (None, r') => (Val (cols, count), r')
      | (Some fields, r') =>
          if negb (length fields =? length (headers r')) then (Thrown, r')
          else let r1 := with_cur (S (cur r')) r' in
               match parse_row (selected r1) fields with
               | Val cells => row_loop k' r1 (map (fun p => fst p ++ [snd p]) (combine cols cells)) (S count)
               | Thrown => (Thrown, r1)
               | OutOfBounds => (OutOfBounds, r1)
               | Hangs => (Hangs, r1)
               end
      end
  end.
Definition next_row (k : nat) (r : reader) (data : batch) : outcome (bool * batch) * reader :=
  if seof (inp r) then (Val (false, data), r)
  else match row_loop k r (map (fun _ => []) (selected r)) 0 with
       | (Val (cols, count), r1) =>
           let r2 := if count =? k then update_row_map r1 else r1 in
           let r3 := if seof (inp r2) then with_total (Some (cur r2)) r2 else r2 in
           (match selected r3 with
            | [] => Val (negb (count =? 0), mkBatch [] count)
            | _ => bind (append_cols (combine (map snd (selected r3)) cols) data) (fun b => Val (negb (count =? 0), b))
            end, r3)
       | (Thrown, r1) => (Thrown, r1)
       | (OutOfBounds, r1) => (OutOfBounds, r1)
       | (Hangs, r1) => (Hangs, r1)
       end.
(** NextCol (284-353); mapping an empty file fails (mmapped_file.cc:46-51). *)
Fixpoint decode_strings (fuel : nat) (t : text) : outcome (list cell) :=
  match fuel with
  | O => Hangs
  | S f => match t with
           | [] => Val []
           | _ => if length t <? 4 then Thrown else
                  let n := len_value (firstn 4 t) in
                  let u := skipn 4 t in
                  if length u <? n then Thrown else bind (decode_strings f (skipn n u)) (fun l => Val (CStr (firstn n u) :: l))
           end
  end.
Fixpoint decode_numbers (sz : nat) (dec : text -> cell) (n : nat) (t : text) : list cell :=
  match n with O => [] | S n' => dec (firstn sz t) :: decode_numbers sz dec n' (skipn sz t) end.
Definition decode_column (ty : stype) (rows : nat) (t : text) : outcome column :=
  match ty with
  | STRING => bind (decode_strings (S (length t)) t) (fun l => if length l =? rows then Val (STRING, l) else Thrown)
  | FLOAT => if length t =? rows * 4 then Val (FLOAT, decode_numbers 4 (fun b => CFlt (df b)) rows t) else Thrown
  | DOUBLE => if length t =? rows * 8 then Val (DOUBLE, decode_numbers 8 (fun b => CDbl (dd b)) rows t) else Thrown
  end.
Definition next_col (r : reader) (data : batch) : outcome (bool * batch) * reader :=
  match total r with
  | None => (Thrown, r)
  | Some rows =>
      if cur r =? length (selected r) then (Val (false, data), r)
      else let r1 := with_cur (S (cur r)) r in
           match nth_error (selected r) (cur r), nth_error (files r) (cur r) with
           | Some (_, ty), Some t =>
               (match t with
                | [] => Thrown
                | _ => bind (decode_column ty rows t) (fun c => bind (append_col c data) (fun b => Val (true, b)))
                end, r1)
           | _, _ => (OutOfBounds, r1)
           end
  end.
Fixpoint next_cols (k : nat) (r : reader) (data : batch) (count : nat) : outcome (bool * batch) * reader :=
  match k with
  | O => (Val (negb (count =? 0), data), r)
  | S k' => match next_col r data with
            | (Val (true, d), r') => next_cols k' r' d (S count)
            | (Val (false, d), r') => (Val (negb (count =? 0), d), r')
            | (x, r') => (x, r')
            end
  end.
(** Next(data) (256-264) and Next(size, data) (266-282). *)
Definition next (r : reader) : outcome (bool * batch) * reader :=
  if negb (inited r) then (Thrown, r)
  else if o_column (opts r) then next_col r empty_batch else next_row (o_batch (opts r)) r empty_batch.
Definition next_size (k : nat) (r : reader) : outcome (bool * batch) * reader :=
  if (k =? 0) || negb (inited r) then (Thrown, r)
  else if o_column (opts r) then next_cols k r empty_batch 0 else next_row k r empty_batch.
(** Tell, Rows, Cols (csv_reader.h:74-92). *)
Definition tell (r : reader) : outcome nat := if inited r then Val (cur r) else Thrown.
Definition rows (r : reader) : outcome (option nat) := if inited r then Val (total r) else Thrown.
Definition cols (r : reader) : outcome nat := if inited r then Val (length (selected r)) else Thrown.
(** Spawn (497-513): the new reader; the member current_line_ starts empty. *)
Definition spawn (r : reader) : outcome reader :=
  if inited r then Val (with_inp (stream_spawn (inp r)) [] r) else Thrown.

(** ** The writer (csv_writer.cc) *)
Record writer := mkWriter { w_names : list text; w_types : list stype; w_fd : ascii; w_ld : ascii; w_inited : bool; w_out : text }.
(** The constructor (29-43), without the check of the precision. *)
Definition open_writer (names : list text) (types : list stype) (f l : ascii) : outcome writer :=
  if (length names =? 0) || negb (length names =? length types) then Thrown else Val (mkWriter names types f l false []).
Definition write (t : text) (w : writer) : writer := mkWriter (w_names w) (w_types w) (w_fd w) (w_ld w) (w_inited w) (w_out w ++ t).
(** fmt::join. *)
Fixpoint join (d : ascii) (l : list text) : text := match l with [] => [] | [x] => x | x :: r => x ++ d :: join d r end.
(** Init (49-58). *)
Definition init_writer (w : writer) : outcome writer :=
  if w_inited w then Thrown
  else let w' := write [w_ld w] (write (join (w_fd w) (w_names w)) w) in Val (mkWriter (w_names w') (w_types w') (w_fd w') (w_ld w') true (w_out w')).
(** Add (60-97). *)
Definition show (c : cell) : text := match c with CStr t => t | CFlt x => sf x | CDbl x => sd x end.
Fixpoint add_row (data : batch) (r : nat) (ts : list stype) (c ncols : nat) (w : writer) : outcome unit * writer :=
  match ts with
  | [] => (Val tt, write [w_ld w] w)
  | ty :: ts' =>
      match at_cell ty data r c with
      | Val x => let w1 := write (show x) w in add_row data r ts' (S c) ncols (if negb (c + 1 =? ncols) then write [w_fd w1] w1 else w1)
      | Thrown => (Thrown, w)
      | OutOfBounds => (OutOfBounds, w)
      | Hangs => (Hangs, w)
      end
  end.
Fixpoint add_rows (data : batch) (rs : list nat) (w : writer) : outcome unit * writer :=
  match rs with
  | [] => (Val tt, w)
  | r :: rs' => match add_row data r (w_types w) 0 (length (b_cols data)) w with
                | (Val _, w') => add_rows data rs' w'
                | x => x
                end
  end.
Definition add (data : batch) (w : writer) : outcome unit * writer :=
  if negb (w_inited w) then (Thrown, w)
  else if negb (length (b_cols data) =? length (w_names w)) then (Thrown, w)
  else add_rows data (seq 0 (b_rows data)) w.
End Csv.
