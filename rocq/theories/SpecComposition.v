(** Vocabulary for C31 and C32. *)
From Coq Require Import String Ascii List Bool Arith.
From Verif Require Import PyBase ClassTable Collection Composition.
Import ListNotations.
Open Scope string_scope.
Open Scope list_scope.

Definition is_comp (s : comp) (x : nat) : bool := isinst (k_ty (k_objs s) x) "SwComponentPrototype".
Definition is_conn (s : comp) (x : nat) : bool := isinst (k_ty (k_objs s) x) "SwConnector".
Definition is_pass (s : comp) (x : nat) : bool := isinst (k_ty (k_objs s) x) "PassThroughSwConnector".

(** Components and connectors are made by their own create methods, not by the others. *)
Definition proper (o : kop) : Prop :=
  match o with
  | KOther c _ => isinst c "SwComponentPrototype" = false /\ isinst c "SwConnector" = false
  | _ => True
  end.

(** short names this history ever gave to a child of the composition *)
Definition names_used (os : list kop) : list string :=
  flat_map (fun o => match o with KCreate _ n => [n] | KOther _ n => [n] | _ => [] end) os.

(** a row with all the cells it needs *)
Definition complete (r : row) : Prop :=
  match r with
  | RowAssembly _ _ _ _ _ => True
  | RowDelegation _ _ ip ir op orr => (ip <> None /\ op <> None) \/ (ir <> None /\ orr <> None)
  end.
(** the ports named by the row *)
Definition sheet_ports (r : row) : ports :=
  match r with
  | RowAssembly _ ps pp rs rp => mkPorts ps pp rs rp None
  | RowDelegation _ sw (Some ip) _ (Some op) _ => mkPorts sw (Some ip) None (Some op) (Some "P-PORT-PROTOTYPE")
  | RowDelegation _ sw _ ir _ orr => mkPorts sw ir None orr (Some "R-PORT-PROTOTYPE")
  end.
Definition row_class (r : row) : string :=
  match r with RowAssembly _ _ _ _ _ => "AssemblySwConnector" | RowDelegation _ _ _ _ _ _ => "DelegationSwConnector" end.
