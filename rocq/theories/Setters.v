(** Calling the methods of SetterTable.v: method resolution order and statement semantics. *)
From Coq Require Import String List Bool.
From Verif Require Import PyBase ClassTable SetterTable.
Import ListNotations.
Open Scope string_scope.
Open Scope list_scope.

(** Python's method resolution order (C3 linearisation, class __mro__) over the base lists of
    ClassTable.v; [n] bounds the recursion ([mro_enough] in SetterProps.v: 20 and 200 suffice). *)
Definition in_tail (h : string) (s : list string) : bool :=
  match s with [] => false | _ :: t => existsb (String.eqb h) t end.
Fixpoint good_head (cands all : list (list string)) : option string :=
  match cands with
  | [] => None
  | [] :: r => good_head r all
  | (h :: _) :: r => if existsb (in_tail h) all then good_head r all else Some h
  end.
Fixpoint c3_merge (n : nat) (seqs : list (list string)) : list string :=
  match n with
  | O => []
  | S n' => match good_head seqs seqs with
            | None => []
            | Some h => h :: c3_merge n' (map (filter (fun x => negb (String.eqb x h))) seqs)
            end
  end.
Fixpoint mro (n : nat) (c : string) : list string :=
  match n with
  | O => [c]
  | S n' => c :: c3_merge 200 (map (mro n') (bases c) ++ [bases c])
  end.

Fixpoint lookup {A} (k : string) (l : list (string * A)) : option A :=
  match l with [] => None | (k', a) :: r => if String.eqb k k' then Some a else lookup k r end.

(** the body found for method [m] in the classes [cs], searched in order *)
Fixpoint first_body (cs : list string) (m : string) : option (list mstmt) :=
  match cs with
  | [] => None
  | c :: r => match lookup c method_table with
              | Some t => match lookup m t with Some b => Some b | None => first_body r m end
              | None => first_body r m
              end
  end.
(** getattr(c, m) for a class c *)
Definition resolve (c m : string) : option (list mstmt) := first_body (mro 20 c) m.

Section Call.
(** [V]: the Python values other than None; [name]: getShortName of a value.
    An object is its attribute dictionary; None is [None]. *)
Context {V : Type} (name : V -> string).
Definition attrs := list (string * option V).

Inductive mret := RetSelf | RetVal (v : option V).
(** outcome: end of the block reached, returned, exception, or not described *)
Inductive mout := Fall (o : attrs) | Ret (o : attrs) (r : mret) | Err (e : exn) | Unknown.

(** self.a as a value; [None] if the attribute is missing or None *)
Definition attr (o : attrs) (a : string) : option V :=
  match dget o a with Some v => v | None => None end.

Fixpoint mrun1 (s : mstmt) (value : option V) (o : attrs) {struct s} : mout :=
  let fix block (b : list mstmt) (o : attrs) {struct b} : mout :=
    match b with
    | [] => Fall o
    | s :: r => match mrun1 s value o with Fall o' => block r o' | x => x end
    end in
  match s with
  | MAssign a => Fall (dset o a value)
  | MIfSome b => match value with Some _ => block b o | None => Fall o end
  | MIfAttr a b c => match dget o a with
                     | Some (Some _) => block b o
                     | Some None => block c o
                     | None => Err AttributeError
                     end
  | MIfOtherName a b => match value, dget o a with
                        | Some v, Some (Some w) => if String.eqb (name v) (name w) then Fall o else block b o
                        | _, _ => Err AttributeError
                        end
  | MRaise => Err ValueError
  | MReturnSelf => Ret o RetSelf
  | MReturnAttr a => match dget o a with Some v => Ret o (RetVal v) | None => Err AttributeError end
  | MOther => Unknown
  end.
Fixpoint mrun (b : list mstmt) (value : option V) (o : attrs) : mout :=
  match b with
  | [] => Fall o
  | s :: r => match mrun1 s value o with Fall o' => mrun r value o' | x => x end
  end.

(** object.m(value) and object.m() for an object of class c *)
Definition call (c m : string) (value : option V) (o : attrs) : mout :=
  match resolve c m with Some b => mrun b value o | None => Err AttributeError end.
End Call.
Arguments Fall {V}. Arguments Ret {V}. Arguments Err {V}. Arguments Unknown {V}.
Arguments RetSelf {V}. Arguments RetVal {V}.
