(** Vocabulary for C53. *)
From Coq Require Import String List Bool.
From Verif Require Import PyBase ClassTable Collection Composition SpecComposition.
Import ListNotations.
Open Scope string_scope.

(** an assembly or delegation connector is listed by the composition *)
Definition connected (s : comp) : Prop :=
  exists x, In x (k_connectors s) /\ (isinst (k_ty (k_objs s) x) "AssemblySwConnector" = true \/ isinst (k_ty (k_objs s) x) "DelegationSwConnector" = true).
(** a delegation row naming one pair of ports, provided or required *)
Definition one_pair (r : row) : Prop :=
  match r with
  | RowAssembly _ _ _ _ _ => True
  | RowDelegation _ _ ip ir op orr =>
      (ip <> None /\ op <> None /\ ir = None /\ orr = None) \/ (ir <> None /\ orr <> None /\ ip = None /\ op = None)
  end.
Definition is_assembly (r : row) : bool := match r with RowAssembly _ _ _ _ _ => true | _ => false end.
