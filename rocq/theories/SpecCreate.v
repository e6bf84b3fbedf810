(** Vocabulary for C08 and C09. *)
From Coq Require Import String Ascii List Bool Arith.
From Verif Require Import PyBase ClassTable Collection ObjHeap SpecHeap Creators.
Import ListNotations.
Open Scope string_scope.
Open Scope list_scope.

(** a package p with an object c of class [d] in it: object 2 *)
Definition base_ops (d : string) : list hop :=
  if String.eqb d CPackage then [HPackage root "p"; HPackage 1 "c"]
  else [HPackage root "p"; HCreate 1 (mkCreator d GAlways true None None RNew) "c"].

(** [x] is an element, a sub-package, a member of a child list or an attribute value of [i] *)
Definition registered (h : heap) (i x : nat) : Prop :=
  child_of h i x \/ exists nd, nth_error h i = Some nd /\
    ((exists l, In x (node_list nd l)) \/ exists a, dget (nattrs nd) a = Some x).
(** the outcome promised for createX(n) on [i]: an object of class [d] with that name, registered *)
Definition good_result (h : heap) (i : nat) (d n : string) (r : res (option nat)) : Prop :=
  exists x, r = Ok (Some x) /\ isinst (cls_of h x) d = true /\ name_of h x = n /\ registered h i x.

(** Documents built by createARPackage and the createX methods of the table, each called on
    an object of its container class. *)
Definition creation_call (h : heap) (o : hop) : Prop :=
  match o with
  | HPackage _ _ => True
  | HCreate i k _ => exists c m, In (c, m, k) creators /\ isinst (cls_of h i) c = true
  | HRemove _ _ _ => False
  end.
Inductive built : heap -> Prop :=
| built_fresh : built fresh_doc
| built_step : forall h o, built h -> creation_call h o -> built (hstep h o).

