(** Specification of an element collection: a plain list of objects in insertion order.
    Nothing here uses the model's name index. *)
From Coq Require Import String List Bool Arith.
From Verif Require Import PyBase ClassTable Collection.
Import ListNotations.
Open Scope string_scope.
Open Scope list_scope.

Section Spec.
Variable nm : nat -> string.
Variable ty : nat -> string.

(** does element [e] answer to name [n] (and, if given, class [t] or a subclass)? *)
Definition answers (n : string) (t : option string) (e : nat) : bool :=
  (String.eqb (nm e) n && match t with Some t => isinst (ty e) t | None => true end)%bool.

(** add at the end, unless an element of this name and class is listed *)
Definition spec_add (l : list nat) (e : nat) : list nat :=
  if existsb (answers (nm e) (Some (ty e))) l then l else l ++ [e].

(** drop the first element answering to the name and class *)
Fixpoint spec_remove (l : list nat) (n : string) (t : option string) : list nat :=
  match l with
  | [] => []
  | e :: l' => if answers n t e then l' else e :: spec_remove l' n t
  end.

Definition spec_step (l : list nat) (o : coll_op) : list nat :=
  match o with
  | CAdd e => spec_add l e
  | CRemove n t => spec_remove l n t
  end.
Definition spec_run (os : list coll_op) : list nat := fold_left spec_step os [].
End Spec.
