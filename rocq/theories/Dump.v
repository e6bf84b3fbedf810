(** arxml-dump: /repo/src/armodel/cli/arxml_dump_cli.py. *)
From Coq Require Import String List Bool Arith.
From Verif Require Import PyBase ClassTable Collection ObjHeap Doc.
Import ListNotations.
Open Scope string_scope.
Open Scope list_scope.

(** a printed line: of a package ([indent] blanks, then "-name (Pkg)"), or one printed for an
    interface or a module description *)
Inductive line := PkgLine (indent : nat) (pkg : nat) | TextLine (text : string).

(** GTC/ARPackage.py:1495-1496 getClientServerInterfaces, 1504-1505 getBswModuleDescriptions *)
Definition interfaces (h : heap) (nd : node) : list nat :=
  py_sorted (name_of h) (filter (fun e => isinst (cls_of h e) "ClientServerInterface") (elems (ncoll nd))).
Definition descriptions (h : heap) (nd : node) : list nat :=
  filter (fun e => isinst (cls_of h e) "BswModuleDescription") (elems (ncoll nd)).

(** arxml_dump_cli.py:133-152 show_ar_package.  [cs], [bsw]: the lines of show_client_server_interface
    and show_bsw_module_description (indentation, object); simplification: these do not raise.
    Recursion depth is bounded by [fuel]; callers pass the number of objects. *)
Fixpoint show_package (cs bsw : nat -> nat -> list string) (fuel : nat) (h : heap) (indent : nat) (i : nat) : list line :=
  match fuel with
  | O => []
  | S f =>
      match nth_error h i with
      | None => []
      | Some nd =>
          PkgLine indent i ::
          flat_map (show_package cs bsw f h (indent + 2)) (sorted_packages h i) ++
          flat_map (fun e => map TextLine (cs (indent + 2) e)) (interfaces h nd) ++
          flat_map (show_package cs bsw f h (indent + 2)) (sorted_packages h i) ++
          flat_map (fun e => map TextLine (bsw (indent + 2) e)) (descriptions h nd)
      end
  end.
(** arxml_dump_cli.py:196-197 *)
Definition dump (cs bsw : nat -> nat -> list string) (h : heap) : list line :=
  flat_map (show_package cs bsw (List.length h) h 0) (sorted_packages h root).
