(** Constructing objects and adding to their lists: the statements of ObjectTable.v. *)
From Coq Require Import String List Bool.
From Verif Require Import PyBase ClassTable SetterTable Setters ObjectTable.
Import ListNotations.
Open Scope string_scope.
Open Scope list_scope.

(** first class of [cs] that defines __init__: number of parameters, body, and the classes after it *)
Fixpoint next_ctor (cs : list string) : option (nat * list cstmt * list string) :=
  match cs with
  | [] => None
  | c :: r => match lookup c ctor_table with Some (k, b) => Some (k, b, r) | None => next_ctor r end
  end.
Fixpoint from_class (d : string) (cs : list string) : list string :=
  match cs with [] => [] | c :: r => if String.eqb c d then cs else from_class d r end.
(** the class that defines the __init__ found by B.__init__ *)
Fixpoint ctor_owner (cs : list string) : option string :=
  match cs with [] => None | c :: r => match lookup c ctor_table with Some _ => Some c | None => ctor_owner r end end.
Fixpoint first_clear (cs : list string) : option (list cstmt) :=
  match cs with [] => None | c :: r => match lookup c clear_table with Some b => Some b | None => first_clear r end end.

Section Construct.
(** [order]: the method resolution order of a class (class __mro__) *)
Context (order : string -> list string).
(** the class constant C.A, also inherited *)
Definition const_known (p : string * string) : bool :=
  existsb (fun c => match lookup c const_table with Some l => existsb (String.eqb (snd p)) l | None => false end) (order (fst p)).

(** [T]: the Python values; [none]: None, [empty]: a new empty list, [fresh c]: a new object of class c
    or of one of the built-in classes dict, list, str *)
Context {T : Type} (none empty : T) (fresh : string -> T).
Definition ceval (args : list T) (v : cval) : T :=
  match v with
  | CNone => none
  | CList => empty
  | CArg i => nth i args none
  | CFresh c => fresh c
  end.

(** running [b], part of the __init__ of a class, for an object of class [own]: [rest] are the classes
    after that class in the method resolution order of [own] (where super() goes on), [args] the
    arguments; [n] bounds the recursion.  object.__init__ takes no argument. *)
Fixpoint crun (n : nat) (own : string) (rest : list string) (args : list T) (b : list cstmt) (o : list (string * T)) : res (list (string * T)) :=
  match n with
  | O => Raise RecursionError
  | S n' =>
    let enter cs vs o :=
      match next_ctor cs with
      | Some (k, body, rest') => if Nat.eqb (List.length vs) k then crun n' own rest' vs body o else Raise TypeError
      | None => match vs with [] => Ok o | _ => Raise TypeError end
      end in
    match b with
    | [] => Ok o
    | s :: r =>
      match (match s with
             | CSet a v => Ok (dset o a (ceval args v))
             | CSuper vs consts => if forallb const_known consts then enter rest (map (ceval args) vs) o else Raise AttributeError
             | CBase c vs => match ctor_owner (order c) with
                             | Some d => enter (from_class d (order own)) (map (ceval args) vs) o
                             | None => enter [] (map (ceval args) vs) o
                             end
             | CAbstract c => if String.eqb own c then Raise TypeError else Ok o
             | CClear => match first_clear (order own) with Some body => crun n' own [] [] body o | None => Raise AttributeError end
             | CSingleton => Ok o
             | COther => Raise NotImplementedError
             end) with
      | Ok o' => crun n' own rest args r o'
      | Raise e => Raise e
      end
    end
  end.
(** C(args) for a class C: the attribute dictionary of the new object *)
Definition construct (c : string) (args : list T) : res (list (string * T)) :=
  match next_ctor (order c) with
  | Some (k, body, rest) => if Nat.eqb (List.length args) k then crun 200 c rest args body [] else Raise TypeError
  | None => match args with [] => Ok [] | _ => Raise TypeError end
  end.
End Construct.

(** values of attributes: an object or a plain value, a list (None may be in it), something made by a
    constructor; None itself is [None : option (slot A)] *)
Inductive slot (A : Type) := One (a : A) | Many (l : list (option A)) | Fresh (c : string).
Arguments One {A}. Arguments Many {A}. Arguments Fresh {A}.
Definition new {A} (c : string) (args : list (option (slot A))) : res (@attrs (slot A)) :=
  construct (mro 20) None (Some (Many [])) (fun c => Some (Fresh c)) c args.

(** ** add methods *)
Fixpoint first_add (cs : list string) (m : string) : option (list astmt) :=
  match cs with
  | [] => None
  | c :: r => match lookup c add_table with
              | Some t => match lookup m t with Some b => Some b | None => first_add r m end
              | None => first_add r m
              end
  end.
Definition resolve_add (c m : string) : option (list astmt) := first_add (mro 20 c) m.

Section Add.
(** [eqb]: == on values (identity for the classes of the package: none defines __eq__) *)
Context {A : Type} (eqb : A -> A -> bool).
Definition oeqb (v w : option A) : bool :=
  match v, w with None, None => true | Some v, Some w => eqb v w | _, _ => false end.

Fixpoint arun1 (s : astmt) (value : option A) (o : @attrs (slot A)) {struct s} : @mout (slot A) :=
  let fix block (b : list astmt) (o : @attrs (slot A)) {struct b} : mout :=
    match b with
    | [] => Fall o
    | s :: r => match arun1 s value o with Fall o' => block r o' | x => x end
    end in
  match s with
  | AAppend a => match dget o a with
                 | Some (Some (Many l)) => Fall (dset o a (Some (Many (l ++ [value]))))
                 | Some (Some (Fresh _)) => Unknown
                 | _ => Err AttributeError
                 end
  | AAssign a => Fall (dset o a (match value with Some v => Some (One v) | None => None end))
  | AIfSome b => match value with Some _ => block b o | None => Fall o end
  | AIfNew a b => match dget o a with
                  | Some (Some (Many l)) => if existsb (oeqb value) l then Fall o else block b o
                  | Some (Some (Fresh _)) => Unknown
                  | Some _ => Err TypeError
                  | None => Err AttributeError
                  end
  | AReturnSelf => Ret o RetSelf
  | AOther => Unknown
  end.
Fixpoint arun (b : list astmt) (value : option A) (o : @attrs (slot A)) : @mout (slot A) :=
  match b with
  | [] => Fall o
  | s :: r => match arun1 s value o with Fall o' => arun r value o' | x => x end
  end.
(** object.m(value) for an object of class c and an add method m *)
Definition add (c m : string) (value : option A) (o : @attrs (slot A)) : @mout (slot A) :=
  match resolve_add c m with Some b => arun b value o | None => Err AttributeError end.
End Add.
