(** Where the objects of a loaded document live (C58). *)
From Coq Require Import String Ascii List Bool.
From Verif Require Import PyBase Primitives ClassTable Ir Access IrSem ObjHeap Creators.
Import ListNotations.
Open Scope string_scope.
Open Scope list_scope.

(** attribute [f] of the objects of class [c] holds objects that were made by a creation method
    which also enters them in the collection of their owner *)
Inductive entered (c f : string) : Prop :=
| entered_package : f = "arPackages" -> isinst c "AbstractAUTOSAR" = true \/ isinst c "ARPackage" = true -> entered c f
| entered_created : forall k m cr d named p, In (k, m, cr) creators -> k_add cr = true -> isinst c k = true ->
    access_of k m = Some (ANew d named p) -> p = PList f \/ p = PSlot f -> entered c f.

(** [w] is such an object of [o] *)
Inductive member : val -> val -> Prop :=
| member_list : forall c fs f l w, In (f, VList l) fs -> entered c f -> In w l -> member (VObj c fs) w
| member_one : forall c fs f d gs, In (f, VObj d gs) fs -> entered c f -> member (VObj c fs) (VObj d gs).

Definition named (w : val) (n : string) : Prop := field w "short_name" = Some (VStr n).

(** [v] is reached from [u] by following the short names [ns] *)
Inductive lives : val -> list string -> val -> Prop :=
| lives_here : forall u, lives u [] u
| lives_below : forall u n w ns v, member u w -> named w n -> lives w ns v -> lives u (n :: ns) v.

(** the tags of package elements that a reference may carry as DEST *)
Definition conform_tags : list string :=
  ["IMPLEMENTATION-DATA-TYPE"; "COMPOSITION-SW-COMPONENT-TYPE"; "SYSTEM-SIGNAL"; "SYSTEM-SIGNAL-GROUP"; "BSW-MODULE-ENTRY"].
