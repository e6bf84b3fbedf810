(** Property C59: the elements of a file are found again in the loaded document.
    [loaded warn x u]: loading root element [x] gives document [u]; [kept_rows] (SpecKeep.v): for a
    class and an attribute, where the elements are that the attribute's objects stand for. *)
From Coq Require Import String List Bool.
From Verif Require Import PyBase Primitives Xml Leaf ClassTable Ir IrSem SpecRoundTrip SpecKeep KeepSound KeepCases.
Import ListNotations.
Open Scope string_scope.
Open Scope list_scope.

(** Packages and package elements: every AR-PACKAGE and every element of a readable kind, in the
    order of the file, with its name and class; nothing else is there.
    Missing here and below: documents in which a creation method meets a name already in use (the
    reader run of the model ends there). *)
Theorem C59_packages_partial : forall warn x u, loaded warn x u -> exists ps, field u "arPackages" = Some ps /\
  Forall2 package_kept (filter (with_tag "AR-PACKAGE") (findall "AR-PACKAGES/*" x)) (items ps).
Proof. exact c59_packages. Qed.
Print Assumptions C59_packages_partial.

(** The whole document.  Missing besides: attributes without a row (texts, and the few objects that
    are made under other conditions than the tag). *)
Theorem C59_all_partial : forall warn x u, loaded warn x u -> kept_in x u.
Proof. exact kept_loaded. Qed.
Print Assumptions C59_all_partial.

(** For each single element: its object is at the same place. *)
Theorem C59_place_partial : forall warn x u way c y, loaded warn x u -> Forall (fun p => In (fst p) kept_rows) way ->
  element_at "AUTOSAR" way x = Some (c, y) ->
  exists o, object_at way u = Some o /\ class_name o = Some c /\ (has_name c = true -> named_after y o).
Proof. exact c59_at. Qed.
Print Assumptions C59_place_partial.

Example C59_case : loaded false kept_doc kept_u /\ Forall (fun p => In (fst p) kept_rows) way /\
  element_at "AUTOSAR" way kept_doc = Some ("RunnableEntity", named_xml "RUNNABLE-ENTITY" "q" []) /\ has_name "RunnableEntity" = true /\
  exists o, object_at way kept_u = Some o /\ field o "short_name" = Some (VStr "q").
Proof. split; [exact kept_doc_loaded|]. split; [exact way_rows|]. split; [exact way_element|]. split; [vm_compute; reflexivity|exact way_object]. Qed.
Example C59_rows : length kept_rows = 505 /\ length bare = 27.
Proof. split; vm_compute; reflexivity. Qed.

(** Not all content of identifiable objects is kept: for 27 classes LONG-NAME, DESC, INTRODUCTION and
    ADMIN-DATA are dropped from every file. *)
Theorem C59_bare_classes : forall warn x u way c y, loaded warn x u -> Forall (fun p => In (fst p) kept_rows) way ->
  element_at "AUTOSAR" way x = Some (c, y) -> In c bare ->
  exists o, object_at way u = Some o /\ class_name o = Some c /\ forall a, In a unread -> field o a = Some VNone.
Proof. exact c59_bare. Qed.
Print Assumptions C59_bare_classes.

Theorem C59_description_refuted : forall warn, exists x u way c y d o, loaded warn x u /\ Forall (fun p => In (fst p) kept_rows) way /\
  element_at "AUTOSAR" way x = Some (c, y) /\ isinst c "Identifiable" = true /\ find "DESC" y = Some d /\
  object_at way u = Some o /\ named_after y o /\ field o "desc" = Some VNone.
Proof. exact mode_case. Qed.
Print Assumptions C59_description_refuted.

Example C59_bare_case : In "ModeDeclaration" bare /\ Forall (fun p => In (fst p) kept_rows) mode_way /\
  exists y, element_at "AUTOSAR" mode_way mode_doc = Some ("ModeDeclaration", y).
Proof. split; [vm_compute; tauto|]. split; [exact mode_rows|]. eexists. vm_compute. reflexivity. Qed.
