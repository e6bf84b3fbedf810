(** Model of reading packages into a document that may already have content
    (/repo/src/armodel/parser/arxml_parser.py:9403-9424 load and readARPackages, 9395-9402
    readARPackage, 9023-9394 readARPackageElements and the element readers it calls): for each named part of the file the
    reader calls createARPackage or a createX method on the object it is filling, and then
    reads the content of the part into the object returned.
    Simplification: only the creation calls are kept, in file order; attribute values, which
    take no part in creation and lookup, are modelled in ReaderCode.v. *)
From Coq Require Import String List Bool Arith.
From Verif Require Import PyBase ClassTable Collection ObjHeap Creators.
Import ListNotations.
Open Scope string_scope.
Open Scope list_scope.

(** A named part of a file: a package ([None]) or what is read by the creation method
    [Some (class, method)], its short name, and the named parts inside it. *)
Inductive part := Part (what : option (string * string)) (name : string) (inside : list part).

(** the creation method of that name in the table of Creators.v *)
Definition method (c m : string) : option creator :=
  match List.find (fun r => (String.eqb (fst (fst r)) c && String.eqb (snd (fst r)) m)%bool) creators with
  | Some r => Some (snd r)
  | None => None
  end.

(** parent.createARPackage(name) (arxml_parser.py:9407) or parent.createX(name); an object of
    another class has no such method (AttributeError) *)
Definition call (h : heap) (i : nat) (w : option (string * string)) (n : string) : heap * res (option nat) :=
  match w with
  | None => create_package h i n
  | Some (c, m) =>
      if isinst (cls_of h i) c then
        match method c m with
        | Some k => create h i k n
        | None => (h, Raise AttributeError)
        end
      else (h, Raise AttributeError)
  end.

(** arxml_parser.py:9404-9410: one part after the other; an exception ends the reading.
    Reading into None raises AttributeError. *)
Fixpoint load_part (h : heap) (i : nat) (p : part) {struct p} : heap * res unit :=
  match p with
  | Part w n ps =>
      match call h i w n with
      | (h1, Ok (Some j)) =>
          (fix go (h : heap) (ps : list part) : heap * res unit :=
             match ps with
             | [] => (h, Ok tt)
             | p :: ps' => match load_part h j p with
                           | (h', Ok _) => go h' ps'
                           | (h', Raise e) => (h', Raise e)
                           end
             end) h1 ps
      | (h1, Ok None) => (h1, Raise AttributeError)
      | (h1, Raise e) => (h1, Raise e)
      end
  end.
Fixpoint load_parts (h : heap) (i : nat) (ps : list part) : heap * res unit :=
  match ps with
  | [] => (h, Ok tt)
  | p :: ps' => match load_part h i p with
                | (h', Ok _) => load_parts h' i ps'
                | (h', Raise e) => (h', Raise e)
                end
  end.
