(** C34: unknown elements; C45: the warning option.  Vocabulary: SpecTolerant.v, SpecRoundTrip.v. *)
From Coq Require Import String List.
From Verif Require Import PyBase Xml Ir IrSem SpecRoundTrip SpecTolerant Tolerant TolerantCases.
Import ListNotations.
Open Scope string_scope.

(** In warning mode the result is that of the document without its unknown elements. *)
Theorem C34_warning_result : forall x u, loaded true x u <-> loaded true (clean x) u.
Proof. exact warning_same. Qed.
Print Assumptions C34_warning_result.

(** So are the exceptions. *)
Theorem C34_warning_errors : forall x e, load_raises true x e <-> load_raises true (clean x) e.
Proof. exact warning_same_error. Qed.
Print Assumptions C34_warning_errors.

(** In warning mode no content at all, unknown at whatever place, raises NotImplementedError. *)
Theorem C34_warning_quiet : forall x, ~ load_raises true x NotImplementedError.
Proof. exact load_quiet. Qed.
Print Assumptions C34_warning_quiet.

(** Otherwise a document with an unknown element is never loaded, *)
Theorem C34_strict_stops : forall x u, unknown_in_root x -> ~ loaded false x u.
Proof. exact strict_stops. Qed.
Print Assumptions C34_strict_stops.

(** and if its remainder is fine the load raises NotImplementedError. *)
Theorem C34_strict_raises : forall x u, unknown_in_root x -> loaded false (clean x) u -> load_raises false x NotImplementedError.
Proof. exact strict_raises. Qed.
Print Assumptions C34_strict_raises.

Example C34_case : exists u,
  clean (strange [stray; stray]) = strange [] /\ unknown_in_root (strange [stray; stray]) /\
  loaded false (strange []) u /\ loaded true (strange [stray; stray]) u /\
  load_raises false (strange [stray; stray]) NotImplementedError /\ field u "arPackages" <> Some (VList []).
Proof. exact strange_cases. Qed.
Example C34_deep : unknown_in_root deep.
Proof. exact deep_unknown. Qed.

(** What loads without the warning option loads with it, to the same document; likewise for saving. *)
Theorem C45_load : forall x u, loaded false x u -> loaded true x u.
Proof. exact load_modes. Qed.
Print Assumptions C45_load.
Theorem C45_save : forall repr u x, saved repr false u x -> saved repr true u x.
Proof. exact save_modes. Qed.
Print Assumptions C45_save.
Theorem C45_save_quiet : forall repr u, ~ saving_raises repr true u NotImplementedError.
Proof. exact save_quiet. Qed.
Print Assumptions C45_save_quiet.
Example C45_case : forall repr, exists u x, loaded false (strange []) u /\ saved repr false u x.
Proof. exact strange_saved. Qed.
