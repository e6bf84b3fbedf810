(** connector2xlsx.  REP stands for /repo/src/armodel/report/connector_xls_report.py. *)
From Coq Require Import String Ascii List Bool Arith.
From Verif Require Import PyBase ClassTable Collection Composition.
Import ListNotations.
Open Scope string_scope.
Open Scope list_scope.

(** REP:34-42: one row of the sheet "... - AC".  The attributes read are provider_iref and
    requester_iref; a connector without them raises AttributeError. *)
Definition assembly_row (s : comp) (x : nat) : res row :=
  match stored (k_snake s) x with
  | None => Raise AttributeError
  | Some p => Ok (RowAssembly (k_nm (k_objs s) x) (p_swc p) (p_port p) (r_swc p) (r_port p))
  end.
(** REP:53-73: one row of the sheet "... - DC", from inner_port_iref and outer_port_ref *)
Definition delegation_row (s : comp) (x : nat) : res row :=
  match stored (k_snake s) x with
  | None => Raise AttributeError
  | Some p =>
      match p_dest p with
      | Some d =>
          if String.eqb d "P-PORT-PROTOTYPE" then Ok (RowDelegation (k_nm (k_objs s) x) (p_swc p) (p_port p) None (r_port p) None)
          else if String.eqb d "R-PORT-PROTOTYPE" then Ok (RowDelegation (k_nm (k_objs s) x) (p_swc p) None (p_port p) None (r_port p))
          else Raise ValueError
      | None => Raise ValueError
      end
  end.
Fixpoint rows_of (f : nat -> res row) (xs : list nat) : res (list row) :=
  match xs with
  | [] => Ok []
  | x :: xs' => match f x with
                | Raise e => Raise e
                | Ok r => match rows_of f xs' with Raise e => Raise e | Ok rs => Ok (r :: rs) end
                end
  end.
(** REP:28-75 *)
Definition assembly_sheet (s : comp) : res (list row) := rows_of (assembly_row s) (k_get s Assembly).
Definition delegation_sheet (s : comp) : res (list row) := rows_of (delegation_row s) (k_get s Delegation).

(** REP:77-88 write: the compositions of the document with their short names; the titles, kinds and
    rows of the sheets in order.  Simplifications: the default sheet, the title rows, column widths, and the
    renaming of a second sheet of the same title (all openpyxl) are left out. *)
Fixpoint sheets (l : list (string * comp)) : res (list (string * kind * list row)) :=
  match l with
  | [] => Ok []
  | (n, s) :: l' =>
      match assembly_sheet s with
      | Raise e => Raise e
      | Ok a => match delegation_sheet s with
                | Raise e => Raise e
                | Ok d => match sheets l' with
                          | Raise e => Raise e
                          | Ok w => Ok (((n ++ " - AC")%string, Assembly, a) :: ((n ++ " - DC")%string, Delegation, d) :: w)
                          end
                end
      end
  end.
Definition connector_report (l : list (string * comp)) : res (list (string * kind * list row)) := sheets (py_sorted fst l).
