(* Model of the SPI factory and its arguments:
   yacl/utils/spi/spi_factory.h, yacl/utils/spi/argument/{util.cc,arg_k.h,
   arg_kv.h,arg_kv.cc,arg_set.h,arg_set.cc,argument.h}.

   Strings are lists of byte values.  The checker and the creator that a library
   registers are arguments; a checker answers (the checkers of the repository
   catch their own exceptions), a creator may throw. *)
From Coq Require Import ZArith List Bool Arith Lia.
From Verif Require Import LinCodeModel.
Import ListNotations.
Local Open Scope nat_scope.

Definition name := list nat.

Definition name_eqb (a b : name) : bool :=
  if list_eq_dec Nat.eq_dec a b then true else false.

(* std::string::operator<, which orders by unsigned char (the key order of
   std::map<std::string, ...>). *)
Fixpoint name_cmp (a b : name) : comparison :=
  match a, b with
  | [], [] => Eq
  | [], _ :: _ => Lt
  | _ :: _, [] => Gt
  | x :: a', y :: b' =>
      match Nat.compare x y with Eq => name_cmp a' b' | c => c end
  end.

Definition is_upper (c : nat) : bool := (65 <=? c) && (c <=? 90).
(* [a-z0-9] *)
Definition is_tail (c : nat) : bool :=
  ((97 <=? c) && (c <=? 122)) || ((48 <=? c) && (c <=? 57)).

(* absl::ascii_tolower, absl::AsciiStrToLower. *)
Definition lower_char (c : nat) : nat := if is_upper c then c + 32 else c.
Definition lower (s : name) : name := map lower_char s.

(* util.cc:25-35, ToSnakeCase.  The regular expression [A-Z]?[a-z0-9]* with
   match_not_null: the search finds the leftmost place where it matches at least
   one character, takes the longest match there, and goes on after it.
   [words cur s]: [cur] is the match being built, in reverse, empty when none
   is. *)
Definition flush (cur : name) (ws : list name) : list name :=
  match cur with [] => ws | _ => rev cur :: ws end.

Fixpoint words (cur : name) (s : name) : list name :=
  match s with
  | [] => flush cur []
  | c :: s' =>
      if is_upper c then flush cur (words [c] s')
      else if is_tail c then words (c :: cur) s'
      else flush cur (words [] s')
  end.

Definition underscore : nat := 95.

(* absl::StrJoin(words, "_"). *)
Fixpoint join (ws : list name) : name :=
  match ws with
  | [] => []
  | [w] => w
  | w :: ws' => w ++ underscore :: join ws'
  end.

Definition snake (s : name) : name := join (map lower (words [] s)).

(* arg_kv.h:33-76: the value of an SpiArg is a std::any: a string, a value of
   another type, or nothing. *)
Inductive value : Type :=
| VStr (s : name)
| VOther (tag : nat)
| VNone.

(* arg_kv.cc:25-33, operator=: a string is lower-cased. *)
Definition store_value (v : value) : value :=
  match v with VStr s => VStr (lower s) | _ => v end.

(* arg_kv.h:35-46, the constructors: the key is put in snake case and must not
   be empty. *)
Definition spi_arg (key : name) (v : value) : outcome (name * value) :=
  match snake key with
  | [] => Thrown
  | k => Val (k, store_value v)
  end.

Definition args := list (name * value).

Fixpoint lookup {A : Type} (k : name) (l : list (name * A)) : option A :=
  match l with
  | [] => None
  | (k', v) :: l' => if name_eqb k k' then Some v else lookup k l'
  end.

(* std::map::insert keeps the element that is there.  The map is kept in key
   order. *)
Fixpoint map_insert {A : Type} (k : name) (v : A) (l : list (name * A))
  : list (name * A) :=
  match l with
  | [] => [(k, v)]
  | (k', v') :: l' =>
      match name_cmp k k' with
      | Lt => (k, v) :: l
      | Eq => l
      | Gt => (k', v') :: map_insert k v l'
      end
  end.

(* arg_set.cc:36-42, SpiArgs(initializer_list) and Insert. *)
Definition args_insert (a : args) (kv : name * value) : args :=
  map_insert (fst kv) (snd kv) a.
Definition spi_args (l : list (name * value)) : args := fold_left args_insert l [].

(* arg_kv.h:60-68, Value<std::string>(). *)
Definition as_string (v : value) : outcome name :=
  match v with VStr s => Val s | _ => Thrown end.

(* arg_set.h:62-73, GetOptional<std::string>(key): [key] is already in snake
   case (arg_k.h:30-33). *)
Definition get_optional (a : args) (key : name) : outcome (option name) :=
  match lookup key a with
  | None => Val None
  | Some v => bind (as_string v) (fun s => Val (Some s))
  end.

(* arg_set.h:36-49, GetOrDefault. *)
Definition get_or_default (a : args) (key dflt : name) : outcome name :=
  match lookup key a with None => Val dflt | Some v => as_string v end.

(* arg_set.h:51-60, GetRequired. *)
Definition get_required (a : args) (key : name) : outcome name :=
  match lookup key a with None => Thrown | Some v => as_string v end.

(* argument.h:27, ArgLib: the key "Lib" in snake case. *)
Definition arg_lib : name := snake [76; 105; 98].

Section Factory.
Context {V : Type}.

(* What a caller hands to Register (spi_factory.h:167-168). *)
Record registration := {
  r_name : name;
  r_perf : Z;
  r_check : name -> args -> bool;
  r_create : name -> args -> outcome V;
}.

(* spi_factory.h:181-185.  [perf]: performance_map_ in iteration order.
   [libs]: libs_map_ in key order; its value is the registration, whose three
   fields besides the name are SpiLibMeta (44-52). *)
Record factory := {
  perf : list (Z * name);
  libs : list (name * registration);
}.

Definition empty_factory : factory := {| perf := []; libs := [] |}.

(* The int64_t performance is the uint64_t key of the multimap. *)
Definition perf_key (p : Z) : Z := (p mod 2 ^ 64)%Z.

(* std::multimap<uint64_t, ..., std::greater<>>::insert: after the elements that
   are not smaller. *)
Fixpoint perf_insert (k : Z) (n : name) (l : list (Z * name)) : list (Z * name) :=
  match l with
  | [] => [(k, n)]
  | (k', n') :: l' =>
      if (k' <? k)%Z then (k, n) :: l else (k', n') :: perf_insert k n l'
  end.

(* spi_factory.h:167-176, Register. *)
Definition register (f : factory) (r : registration) : outcome factory :=
  let key := lower (r_name r) in
  match lookup key (libs f) with
  | Some _ => Thrown
  | None =>
      Val {| perf := perf_insert (perf_key (r_perf r)) key (perf f);
             libs := map_insert key r (libs f) |}
  end.

(* A history of calls of Register; a call that throws changes nothing. *)
Definition register_step (f : factory) (r : registration) : factory :=
  match register f r with Val f' => f' | _ => f end.
Definition run (l : list registration) : factory :=
  fold_left register_step l empty_factory.

(* spi_factory.h:91-98: the first library in the performance map that supports
   the feature; at() throws on a name that is not there. *)
Fixpoint auto_select (f : factory) (feature : name) (a : args)
  (l : list (Z * name)) : outcome (option name) :=
  match l with
  | [] => Val None
  | (_, n) :: l' =>
      match lookup n (libs f) with
      | None => Thrown
      | Some r => if r_check r feature a then Val (Some n)
                  else auto_select f feature a l'
      end
  end.

(* spi_factory.h:86-122, CreateFromArgPkg. *)
Definition create (f : factory) (feature : name) (a : args) : outcome V :=
  bind (get_optional a arg_lib) (fun lib =>
  bind (match lib with
        | None =>
            bind (auto_select f feature a (perf f)) (fun o =>
              match o with None => Thrown | Some n => Val n end)
        | Some n =>
            match lookup n (libs f) with
            | None => Thrown
            | Some r => if r_check r feature a then Val n else Thrown
            end
        end)
       (fun n => match lookup n (libs f) with
                 | None => Thrown
                 | Some r => r_create r feature a
                 end)).

(* spi_factory.h:124-132, ListLibraries(). *)
Definition list_libraries (f : factory) : list name := map fst (libs f).

(* spi_factory.h:149-165, ListLibrariesFromArgPkg. *)
Definition list_libraries_for (f : factory) (feature : name) (a : args)
  : outcome (list name) :=
  bind (get_optional a arg_lib) (fun lib =>
    Val (map fst (filter (fun kr =>
           (match lib with None => true | Some n => name_eqb n (fst kr) end)
           && r_check (snd kr) feature a) (libs f)))).

End Factory.
Arguments registration : clear implicits.
Arguments factory : clear implicits.
