(** Python runtime notions shared by every model file: exceptions as values,
    strings (Latin-1 code points), dictionaries in insertion order, stable sort. *)
From Coq Require Import String Ascii List Bool Arith NArith Lia.
Import ListNotations.
Open Scope string_scope.

(** Exception classes raised by the modelled code (Python builtins). *)
Inductive exn : Type :=
| ValueError | KeyError | IndexError | StopIteration | AttributeError
| NotImplementedError | TypeError | RecursionError | OverflowError | OSError | UnboundLocalError
| NameInUse  (* not a Python exception: a creation method met a name in use (IrSem.store) *).

(** Outcome of a Python call: a value or a raised exception. *)
Inductive res (A : Type) : Type :=
| Ok (a : A)
| Raise (e : exn).
Arguments Ok {A} a.
Arguments Raise {A} e.

Definition bind {A B} (r : res A) (f : A -> res B) : res B :=
  match r with Ok a => f a | Raise e => Raise e end.

Notation "'let*' x ':=' r 'in' k" := (bind r (fun x => k))
  (at level 200, x pattern, right associativity).

(** ** Characters *)

Definition code (c : ascii) : N := N_of_ascii c.

Definition in_range (lo hi : N) (c : ascii) : bool :=
  (N.leb lo (code c) && N.leb (code c) hi)%bool.

(** [0-9]; also Python's [\d] restricted to code points below 256. *)
Definition is_digit (c : ascii) : bool := in_range 48 57 c.
(** [0-9a-fA-F], i.e. [0-9a-f] under re.I *)
Definition is_hex (c : ascii) : bool :=
  (is_digit c || in_range 97 102 c || in_range 65 70 c)%bool.
Definition is_lower (c : ascii) : bool := in_range 97 122 c.
Definition is_upper (c : ascii) : bool := in_range 65 90 c.
(** str.isspace on code points below 256: what strip() and int() remove. *)
Definition is_space (c : ascii) : bool :=
  (in_range 9 13 c || in_range 28 32 c || N.eqb (code c) 133 || N.eqb (code c) 160)%bool.
(** [\w] on code points below 256 (alphanumeric in the Unicode sense, or '_'). *)
Definition is_word (c : ascii) : bool :=
  (is_digit c || is_lower c || is_upper c || N.eqb (code c) 95
   || N.eqb (code c) 170 || N.eqb (code c) 178 || N.eqb (code c) 179
   || N.eqb (code c) 181 || N.eqb (code c) 185 || N.eqb (code c) 186
   || in_range 188 190 c || in_range 192 214 c || in_range 216 246 c
   || in_range 248 255 c)%bool.

(** str.lower on one code point below 256. *)
Definition lower_char (c : ascii) : ascii :=
  if (is_upper c || in_range 192 214 c || in_range 216 222 c)%bool
  then ascii_of_N (code c + 32) else c.

Fixpoint lower (s : string) : string :=
  match s with
  | EmptyString => EmptyString
  | String c s' => String (lower_char c) (lower s')
  end.

(** ** Strings *)

(** Longest prefix satisfying [p], and the rest. *)
Fixpoint span (p : ascii -> bool) (s : string) : string * string :=
  match s with
  | EmptyString => (EmptyString, EmptyString)
  | String c s' =>
      if p c then let (a, b) := span p s' in (String c a, b)
      else (EmptyString, s)
  end.

Fixpoint all_chars (p : ascii -> bool) (s : string) : bool :=
  match s with
  | EmptyString => true
  | String c s' => (p c && all_chars p s')%bool
  end.

Definition is_empty (s : string) : bool :=
  match s with EmptyString => true | _ => false end.

(** lstrip / rstrip / strip of Python, whitespace version. *)
Definition lstrip (s : string) : string := snd (span is_space s).
Fixpoint rstrip (s : string) : string :=
  match s with
  | EmptyString => EmptyString
  | String c s' =>
      let r := rstrip s' in
      if (is_space c && is_empty r)%bool then EmptyString else String c r
  end.
Definition strip (s : string) : string := rstrip (lstrip s).

(** str.split(sep) for a one-character separator: always at least one piece. *)
Fixpoint split_char (sep : ascii) (s : string) : list string :=
  match s with
  | EmptyString => [EmptyString]
  | String c s' =>
      if Ascii.eqb c sep then EmptyString :: split_char sep s'
      else match split_char sep s' with
           | [] => [String c EmptyString]
           | w :: ws => String c w :: ws
           end
  end.

(** ** Dictionaries: association lists in insertion order. *)
Section Dict.
Context {A : Type}.
Definition dict := list (string * A).

Fixpoint dget (d : dict) (k : string) : option A :=
  match d with
  | [] => None
  | (k', v) :: d' => if String.eqb k k' then Some v else dget d' k
  end.

Definition dmem (d : dict) (k : string) : bool :=
  match dget d k with Some _ => true | None => false end.

(** d[k] = v: replaces in place, or appends. *)
Fixpoint dset (d : dict) (k : string) (v : A) : dict :=
  match d with
  | [] => [(k, v)]
  | (k', v') :: d' => if String.eqb k k' then (k', v) :: d' else (k', v') :: dset d' k v
  end.

Definition dkeys (d : dict) : list string := map fst d.
Definition dvalues (d : dict) : list A := map snd d.
End Dict.
Arguments dict : clear implicits.

(** ** sorted(xs, key=...) : a stable insertion sort on string keys. *)

(** Code-point order on strings, the order Python compares str with. *)
Fixpoint str_leb (a b : string) : bool :=
  match a, b with
  | EmptyString, _ => true
  | String _ _, EmptyString => false
  | String c a', String d b' =>
      if N.ltb (code c) (code d) then true
      else if N.eqb (code c) (code d) then str_leb a' b' else false
  end.

Section Sort.
Context {A : Type} (key : A -> string).
Fixpoint sort_insert (x : A) (l : list A) : list A :=
  match l with
  | [] => [x]
  | y :: l' => if str_leb (key x) (key y) then x :: y :: l' else y :: sort_insert x l'
  end.
Definition py_sorted (l : list A) : list A := fold_right sort_insert [] l.
End Sort.
