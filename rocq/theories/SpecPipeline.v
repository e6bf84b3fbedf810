(** What C57 says about arxml-format --remove-admin-data: how the document that is saved relates to
    the one that was read. *)
From Coq Require Import String List Floats.SpecFloat.
From Verif Require Import PyBase Xml Ir ClassTable Access IrSem SpecRun SpecRoundTrip SpecTolerant.
Import ListNotations.
Open Scope string_scope.
Open Scope list_scope.

(** same class, same attributes with the same values, except those named *)
Definition same_but (names : list string) (u v : val) : Prop :=
  exists c fs gs, u = VObj c fs /\ v = VObj c gs /\ map fst fs = map fst gs /\ (forall f, ~ In f names -> assoc f gs = assoc f fs).
Definition no_admin (v : val) : Prop := forall w, field v "adminData" = Some w -> w = VNone.

(** an element of a package: no administrative data of its own any more, the rest as before *)
Definition element_cleared (u v : val) : Prop := same_but ["adminData"] u v /\ no_admin v.
(** a package: the same for itself, its elements and the packages below *)
Inductive package_cleared : val -> val -> Prop :=
| package_clear : forall u v ps qs es ds,
    same_but ["adminData"; "arPackages"; "elements"] u v -> no_admin v ->
    field u "arPackages" = Some (VList ps) -> field v "arPackages" = Some (VList qs) -> Forall2 package_cleared ps qs ->
    field u "elements" = Some (VList es) -> field v "elements" = Some (VList ds) -> Forall2 element_cleared es ds ->
    package_cleared u v.
Definition document_cleared (u v : val) : Prop :=
  same_but ["adminData"; "arPackages"] u v /\ no_admin v /\
  exists ps qs, field u "arPackages" = Some (VList ps) /\ field v "arPackages" = Some (VList qs) /\ Forall2 package_cleared ps qs.

(** a value collection: not saved in strict mode *)
Definition value_text : string :=
  "<AUTOSAR><AR-PACKAGES><AR-PACKAGE><SHORT-NAME>P</SHORT-NAME><ELEMENTS><ECUC-VALUE-COLLECTION><SHORT-NAME>v</SHORT-NAME></ECUC-VALUE-COLLECTION></ELEMENTS></AR-PACKAGE></AR-PACKAGES></AUTOSAR>".
(** administrative data of the document, a package, a component and a port *)
Definition data_text : string :=
  "<AUTOSAR><ADMIN-DATA><SDGS><SDG GID=""d""></SDG></SDGS></ADMIN-DATA><AR-PACKAGES><AR-PACKAGE><SHORT-NAME>P</SHORT-NAME><ADMIN-DATA><SDGS><SDG GID=""p""></SDG></SDGS></ADMIN-DATA><ELEMENTS><APPLICATION-SW-COMPONENT-TYPE><SHORT-NAME>a</SHORT-NAME><ADMIN-DATA><SDGS><SDG GID=""a""></SDG></SDGS></ADMIN-DATA><PORTS><P-PORT-PROTOTYPE><SHORT-NAME>q</SHORT-NAME><ADMIN-DATA><SDGS><SDG GID=""q""></SDG></SDGS></ADMIN-DATA></P-PORT-PROTOTYPE></PORTS></APPLICATION-SW-COMPONENT-TYPE></ELEMENTS></AR-PACKAGE></AR-PACKAGES></AUTOSAR>".
