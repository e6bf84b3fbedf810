(** Vocabulary for C44. *)
From Coq Require Import String List Bool Arith.
From Verif Require Import PyBase Collection ObjHeap SpecHeap SpecCreators Merge.
Import ListNotations.
Open Scope string_scope.
Open Scope list_scope.

(** Nothing of [h] is missing in [h']: every object is still there with its class, name and
    parent, its elements and members of child lists come first and in the old order, and its
    sub-packages are the same objects. *)
Definition kept (h h' : heap) : Prop :=
  forall i nd, nth_error h i = Some nd -> exists nd', nth_error h' i = Some nd' /\
    ncls nd' = ncls nd /\ nname nd' = nname nd /\ nparent nd' = nparent nd /\
    (exists more, elems (ncoll nd') = elems (ncoll nd) ++ more) /\
    (forall l, exists more, node_list nd' l = node_list nd l ++ more) /\
    (forall n p, dget (npkgs nd) n = Some p -> dget (npkgs nd') n = Some p).

(** The objects of [h] are all in [h'], unchanged. *)
Definition untouched (h h' : heap) : Prop :=
  forall i nd, nth_error h i = Some nd -> nth_error h' i = Some nd.

(** No part is read by a method on the list [non_idempotent] of SpecCreators.v. *)
Inductive repeatable : part -> Prop :=
| repeatable_part : forall w n ps,
    (forall c m, w = Some (c, m) -> ~ In (c, m) non_idempotent) ->
    (forall p, In p ps -> repeatable p) ->
    repeatable (Part w n ps).

(** [x] is a sub-package of [p] *)
Definition package_of (h : heap) (p x : nat) : Prop :=
  exists nd, nth_error h p = Some nd /\ In x (map snd (npkgs nd)).

(** The object [i] holds [j] as what was read for a part of that name: a sub-package, an element
    or a member of one of its lists with that name, or an attribute.  (An attribute that is
    already set keeps its object, whose name may differ.) *)
Definition holds (h : heap) (i : nat) (w : option (string * string)) (n : string) (j : nat) : Prop :=
  exists nd, nth_error h i = Some nd /\
    match w with
    | None => package_of h i j /\ name_of h j = n
    | Some _ => In j (elems (ncoll nd)) /\ name_of h j = n \/
                (exists l, In j (node_list nd l)) /\ name_of h j = n \/
                exists a, dget (nattrs nd) a = Some j
    end.
(** [i] holds an object for the part, and that object one for each part inside. *)
Inductive present (h : heap) : nat -> part -> Prop :=
| present_part : forall i w n ps j, holds h i w n j -> (forall p, In p ps -> present h j p) -> present h i (Part w n ps).
