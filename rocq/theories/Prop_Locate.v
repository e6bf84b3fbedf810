(** Property C58: looking up the elements of a loaded document by their path.
    [loaded warn x u]: loading root element [x] gives document [u]; [lives u ns v]: object [v] is
    reached from [u] along the short names [ns], through attributes whose objects are entered in
    the collection of their owner; [doc_find_path], [doc_find_ref]: AUTOSAR.find. *)
From Coq Require Import String List Bool.
From Verif Require Import PyBase Primitives Xml Leaf ClassTable Ir IrSem ObjHeap SpecHeap Creators SpecRoundTrip Locate SpecLocate LocateProps LocateCases.
Import ListNotations.
Open Scope string_scope.
Open Scope list_scope.

(** Missing: documents in which a creation method meets a name already in use (the reader run of
    the model ends there), see C08 and C09 for what these methods do. *)
Theorem C58_find_partial : forall warn x u path ws v, loaded warn x u -> components path ws ->
  (doc_find_path u path = Done (Some v) <-> lives u (nonempty_names ws) v).
Proof. exact c58_find. Qed.
Print Assumptions C58_find_partial.

Theorem C58_own_path_partial : forall warn x u ns v, loaded warn x u -> lives u ns v ->
  Forall (fun n => n <> "" /\ slash_free n) ns -> doc_find_path u (slash_path ns) = Done (Some v).
Proof. exact c58_path. Qed.
Print Assumptions C58_own_path_partial.

Theorem C58_one_name_partial : forall warn x u ns o w w' n, loaded warn x u -> lives u ns o ->
  member o w -> member o w' -> named w n -> named w' n -> w = w'.
Proof. exact c58_one. Qed.
Print Assumptions C58_one_name_partial.

(** References: without DEST as for the path; with DEST only for ten kinds ([xml_name]: the XML
    spelling of a class). *)
Theorem C58_no_dest : forall u b d path, d = None \/ d = Some "" ->
  doc_find_ref u (mkRef b d (Some path)) = doc_find_path u path.
Proof. exact c58_ref_plain. Qed.
Print Assumptions C58_no_dest.

Theorem C58_dest : forall u b d path v, d <> "" -> doc_find_path u path = Done (Some v) ->
  (doc_find_ref u (mkRef b (Some d) (Some path)) = Done (Some v) <->
   exists k, In k dest_kinds /\ xml_name k = d /\ isinst (class_name v) k = true).
Proof. exact c58_ref. Qed.
Print Assumptions C58_dest.

(** A reference with the tag of the element it points to as DEST, as AUTOSAR files have it: of the
    kinds of package elements only the five in [conform_tags] are found. *)
Theorem C58_own_tag : forall u b t c path v, In (t, c) readable_elements ->
  doc_find_path u path = Done (Some v) -> class_name v = c ->
  (doc_find_ref u (mkRef b (Some t) (Some path)) = Done (Some v) <-> In t conform_tags).
Proof. exact c58_conform. Qed.
Print Assumptions C58_own_tag.

Theorem C58_own_tag_refuted : forall warn, exists x u v w, loaded warn x u /\
  doc_find_path u "/P/a" = Done (Some v) /\ class_name v = "ApplicationSwComponentType" /\
  doc_find_ref u (mkRef None (Some "APPLICATION-SW-COMPONENT-TYPE") (Some "/P/a")) = Exc ValueError /\
  doc_find_path u "/P/t" = Done (Some w) /\ class_name w = "SwBaseType" /\
  doc_find_ref u (mkRef None (Some "SW-BASE-TYPE") (Some "/P/t")) = Exc NotImplementedError.
Proof. exact dest_case. Qed.
Print Assumptions C58_own_tag_refuted.

(** Not every identifiable object is found: the RAM block of an NvBlockDescriptor is in no
    collection.  Below a hardware element find raises.  A short name with '/' hides its element. *)
Theorem C58_every_object_refuted : forall warn, exists x u ns n o f v, loaded warn x u /\ lives u ns o /\ field o f = Some v /\
  isinst (class_name v) "Identifiable" = true /\ named v n /\ doc_find_path u (slash_path (ns ++ [n])) = Done None.
Proof. exact hidden_case. Qed.
Print Assumptions C58_every_object_refuted.

Theorem C58_no_raise_refuted : forall warn, exists x u path, loaded warn x u /\ doc_find_path u path = Exc AttributeError.
Proof. exact hw_case. Qed.
Print Assumptions C58_no_raise_refuted.

Theorem C58_slash_refuted : forall warn, exists x u ns v, loaded warn x u /\ lives u ns v /\ ~ In "" ns /\
  doc_find_path u (slash_path ns) = Done None.
Proof. exact slash_case. Qed.
Print Assumptions C58_slash_refuted.

(** A loaded document with a runnable at /P/a/b/r. *)
Example C58_case : loaded false located_doc located_u /\ lives located_u ["P"; "a"; "b"; "r"] located_v /\
  class_name located_v = "RunnableEntity" /\ doc_find_path located_u "/P/a/b/r" = Done (Some located_v) /\
  doc_find_ref located_u (mkRef None (Some "RUNNABLE-ENTITY") (Some "P/a//b/r/")) = Done (Some located_v) /\
  doc_find_path located_u "/P/a/r" = Done None.
Proof.
  exact (conj located_loaded (conj located_lives (conj located_class (conj located_path (conj located_ref located_not))))).
Qed.
