(** Model of the element collections: CollectableElement and Identifiable in
    /repo/src/armodel/models/M2/AUTOSARTemplates/GenericStructure/GeneralTemplateClasses/Identifiable.py
    (lines 229-342 and 373-483, the same code twice).

    Objects are identifiers (nat); [nm] gives the short name and [ty] the class of an object.
    Simplification: short names do not change after creation (the shortName setter, line 53,
    does not update the containing collection). *)
From Coq Require Import String List Bool Arith.
From Verif Require Import PyBase ClassTable.
Import ListNotations.
Open Scope string_scope.
Open Scope list_scope.

(** lines 250-251: self.elements and self.element_mappings *)
Record coll : Type := mkColl { elems : list nat; mapp : dict (list nat) }.
Definition coll_empty : coll := mkColl [] [].

(** list.remove: removes the first equal item; None = ValueError.  No model class defines
    __eq__, so equality is identity. *)
Fixpoint py_remove (x : nat) (l : list nat) : option (list nat) :=
  match l with
  | [] => None
  | y :: l' => if Nat.eqb x y then Some l' else option_map (cons y) (py_remove x l')
  end.

Section Coll.
Variable nm : nat -> string.
Variable ty : nat -> string.

(** isinstance(a, type) *)
Definition inst (t : string) (a : nat) : bool := isinst (ty a) t.

(** Identifiable.py:327-342 IsElementExists *)
Definition coll_exists (c : coll) (n : string) (t : option string) : bool :=
  match t with
  | None => dmem (mapp c) n
  | Some t => match dget (mapp c) n with
              | Some l => existsb (inst t) l
              | None => false
              end
  end.

(** Identifiable.py:307-325 getElement; [None] is Python's None, indexing an empty list raises *)
Definition coll_get (c : coll) (n : string) (t : option string) : res (option nat) :=
  match dget (mapp c) n with
  | None => Ok None
  | Some l =>
      match t with
      | Some t => match filter (inst t) l with [] => Ok None | x :: _ => Ok (Some x) end
      | None => match l with [] => Raise IndexError | x :: _ => Ok (Some x) end
      end
  end.

(** Identifiable.py:290-305 addElement *)
Definition coll_add (c : coll) (e : nat) : coll :=
  let n := nm e in
  if coll_exists c n (Some (ty e)) then c
  else mkColl (elems c ++ [e])
         (dset (mapp c) n (match dget (mapp c) n with Some l => l | None => [] end ++ [e])).

(** Identifiable.py:263-279 removeElement *)
Definition coll_remove (c : coll) (n : string) (t : option string) : coll * option exn :=
  match dget (mapp c) n with
  | None => (c, Some KeyError)
  | Some l =>
      let item := match t with
                  | None => match l with [] => inr IndexError | x :: _ => inl x end
                  | Some t => match filter (inst t) l with [] => inr StopIteration | x :: _ => inl x end
                  end in
      match item with
      | inr e => (c, Some e)
      | inl x =>
          match py_remove x (elems c) with
          | None => (c, Some ValueError)
          | Some es =>
              let c1 := mkColl es (mapp c) in
              match py_remove x l with
              | None => (c1, Some ValueError)
              | Some l' => (mkColl es (dset (mapp c) n l'), None)
              end
          end
      end
  end.

(** Histories of public calls *)
Inductive coll_op := CAdd (e : nat) | CRemove (n : string) (t : option string).
Definition coll_step (c : coll) (o : coll_op) : coll :=
  match o with
  | CAdd e => coll_add c e
  | CRemove n t => fst (coll_remove c n t)
  end.
Definition coll_run (c : coll) (os : list coll_op) : coll := fold_left coll_step os c.
End Coll.
