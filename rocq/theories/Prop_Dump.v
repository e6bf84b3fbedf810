(** C52: the packages printed by arxml-dump.  [dump] is the tool (Dump.v), for documents built by any
    history of API calls ([hrun], ObjHeap.v); the lines of interfaces and module descriptions are
    parameters. *)
From Coq Require Import String List Bool Arith.
From Verif Require Import PyBase ClassTable Collection ObjHeap Dump SpecDump DumpProps.
Import ListNotations.
Open Scope string_scope.
Open Scope list_scope.

(** every package is printed, two blanks further in per level, and only packages are *)
Theorem C52_listed : forall cs bsw os k p,
  In (PkgLine k p) (dump cs bsw (hrun os)) <-> exists d, package_at (hrun os) p d /\ k = 2 * d.
Proof. exact dump_iff. Qed.
Print Assumptions C52_listed.

(** but a package at depth d is printed 2^d times: the loop over the sub-packages is there twice *)
Theorem C52_count : forall cs bsw os p d, package_at (hrun os) p d ->
  length (lines_of p (dump cs bsw (hrun os))) = 2 ^ d.
Proof. exact dump_count. Qed.
Print Assumptions C52_count.

Theorem C52_once_refuted : exists os p, (exists d, package_at (hrun os) p d) /\
  length (lines_of p (dump (fun _ _ => []) (fun _ _ => []) (hrun os))) = 4.
Proof. exact dump_twice. Qed.
Print Assumptions C52_once_refuted.

Example C52_case : map (fun l => match l with PkgLine k p => (k, name_of (hrun dump_ops) p) | TextLine s => (0, s) end)
    (dump (fun _ e => ["cs"]) (fun _ _ => []) (hrun dump_ops)) =
  [(0, "p"); (2, "q"); (4, "r"); (0, "cs"); (4, "r"); (2, "q"); (4, "r"); (0, "cs"); (4, "r"); (0, "s")].
Proof. vm_compute. reflexivity. Qed.
