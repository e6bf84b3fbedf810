(** Property C60: the texts, references and XML attributes of a file are found again in the loaded
    document.  [loaded warn x u]: loading root element [x] gives document [u]; [element_at] and
    [object_at] (SpecKeep.v) go down the same way in file and document; [text_rows] (SpecText.v): for a
    class and an attribute, where in the element the value of the attribute stands. *)
From Coq Require Import String Ascii List Bool.
From Verif Require Import PyBase Primitives Xml Leaf ClassTable Ir IrSem SpecRoundTrip SpecKeep SpecText KeepSound KeepCases KeepTextSound KeepTextCases.
Import ListNotations.
Open Scope string_scope.
Open Scope list_scope.

(** Missing here and below: documents in which a creation method meets a name already in use (the
    reader run of the model ends there), and the attributes without a row (short name fragments,
    annotations, variation points, start positions of signal mappings and some others). *)
Theorem C60_values_partial : forall warn x u way c y, loaded warn x u -> Forall (fun p => In (fst p) kept_rows) way ->
  element_at "AUTOSAR" way x = Some (c, y) -> forall t, In t text_rows -> t_applies t c = true ->
  exists o w, object_at way u = Some o /\ class_name o = Some c /\ field o (t_attr t) = Some w /\ held (t_path t) (t_source t) y w.
Proof. exact c60_at. Qed.
Print Assumptions C60_values_partial.

(** A reference: BASE, DEST and text of the element, None if there is no such element. *)
Theorem C60_reference_partial : forall warn x u way c y, loaded warn x u -> Forall (fun p => In (fst p) kept_rows) way ->
  element_at "AUTOSAR" way x = Some (c, y) ->
  forall b ex f p, In (mkText b ex f [] (SText RRef p)) text_rows -> t_applies (mkText b ex f [] (SText RRef p)) c = true ->
  exists o, object_at way u = Some o /\ field o f = Some (match find p y with
    | Some e => VLeaf (LRef (mkRef (xattr "BASE" e) (xattr "DEST" e) (xtext e)))
    | None => VNone end).
Proof. exact c60_reference. Qed.
Print Assumptions C60_reference_partial.

Example C60_reference_case : loaded false signal_doc signal_u /\ Forall (fun p => In (fst p) kept_rows) element_way /\
  element_at "AUTOSAR" element_way signal_doc = Some ("ISignal", signal_xml) /\
  In (mkText "ISignal" [] "systemSignalRef" [] (SText RRef "SYSTEM-SIGNAL-REF")) text_rows /\
  exists o, object_at element_way signal_u = Some o /\ field o "systemSignalRef" = Some (VLeaf (LRef (mkRef None (Some "SYSTEM-SIGNAL") (Some "/P/sig")))).
Proof. split; [exact signal_loaded|]. split; [exact element_rows|]. split; [exact signal_at|]. split; [exact signal_ref_in|exact signal_object]. Qed.

(** A list of references: one for each element, in the order of the file. *)
Theorem C60_references_partial : forall warn x u way c y, loaded warn x u -> Forall (fun p => In (fst p) kept_rows) way ->
  element_at "AUTOSAR" way x = Some (c, y) ->
  forall b ex f p, In (mkText b ex f [] (STexts RRef p)) text_rows -> t_applies (mkText b ex f [] (STexts RRef p)) c = true ->
  exists o, object_at way u = Some o /\
    field o f = Some (VList (map (fun e => VLeaf (LRef (mkRef (xattr "BASE" e) (xattr "DEST" e) (xtext e)))) (findall p y))).
Proof. exact c60_references. Qed.
Print Assumptions C60_references_partial.

Example C60_references_case : loaded true coll_doc coll_u /\ Forall (fun p => In (fst p) kept_rows) second_way /\
  element_at "AUTOSAR" second_way coll_doc = Some ("Collection", coll_xml) /\
  In (mkText "Collection" [] "elementRefs" [] (STexts RRef "ELEMENT-REFS/ELEMENT-REF")) text_rows /\
  exists o, object_at second_way coll_u = Some o /\
    field o "elementRefs" = Some (VList [VLeaf (LRef (mkRef None (Some "I-SIGNAL") (Some "/P/b"))); VLeaf (LRef (mkRef None (Some "I-SIGNAL") (Some "/P/a")))]).
Proof. split; [exact coll_loaded|]. split; [exact second_rows|]. split; [exact coll_at|]. split; [exact coll_in|exact coll_object]. Qed.

(** A literal: the text with its T and UUID. *)
Theorem C60_literal_partial : forall warn x u way c y, loaded warn x u -> Forall (fun p => In (fst p) kept_rows) way ->
  element_at "AUTOSAR" way x = Some (c, y) ->
  forall b ex f p, In (mkText b ex f [] (SText RLiteral p)) text_rows -> t_applies (mkText b ex f [] (SText RLiteral p)) c = true ->
  exists o, object_at way u = Some o /\ field o f = Some (match find p y with
    | Some e => VLeaf (LLit "ARLiteral" (mkLit (xattr "T" e) (xattr "UUID" e) (Some (match xtext e with Some s => s | None => "" end))))
    | None => VNone end).
Proof. exact c60_literal. Qed.
Print Assumptions C60_literal_partial.

Example C60_literal_case : In (mkText "ISignal" [] "iSignalType" [] (SText RLiteral "I-SIGNAL-TYPE")) text_rows /\
  exists o, object_at element_way signal_u = Some o /\ field o "iSignalType" = Some (VLeaf (LLit "ARLiteral" (mkLit None None (Some "PRIMITIVE")))).
Proof. split; [exact signal_type_in|]. eexists. split; vm_compute; reflexivity. Qed.

(** The table follows the names: an attribute is filled from the element called like it, with the
    listed exceptions. *)
Theorem C60_names : forall t, In t text_rows -> ~ In (t_class t, t_attr t) renamed -> same_name t = true.
Proof. exact c60_names. Qed.
Print Assumptions C60_names.

Example C60_names_case : ~ In ("ISignal", "systemSignalRef") renamed /\ squeeze "systemSignalRef" = "SYSTEMSIGNALREF" /\
  squeeze "SYSTEM-SIGNAL-REF" = "SYSTEMSIGNALREF" /\ same_name (mkText "ISignal" [] "networkRepresentationProps" [] (SText RRef "SYSTEM-SIGNAL-REF")) = false.
Proof. split; [vm_compute; intuition discriminate|]. repeat split; vm_compute; reflexivity. Qed.
Example C60_rows : length text_rows = 1054 /\ length renamed = 22 /\ length stampless = 157.
Proof. repeat split; vm_compute; reflexivity. Qed.

(** Not kept: CATEGORY of 27 identifiable classes, the XML attributes T and UUID of the classes that do
    not read them. *)
Theorem C60_category_lost : forall warn x u way c y, loaded warn x u -> Forall (fun p => In (fst p) kept_rows) way ->
  element_at "AUTOSAR" way x = Some (c, y) -> In c bare ->
  exists o, object_at way u = Some o /\ class_name o = Some c /\ field o "category" = Some VNone.
Proof. exact c60_category. Qed.
Print Assumptions C60_category_lost.

Theorem C60_stamps_lost : forall warn x u way c y, loaded warn x u -> Forall (fun p => In (fst p) kept_rows) way ->
  element_at "AUTOSAR" way x = Some (c, y) -> In c stampless ->
  exists o, object_at way u = Some o /\ class_name o = Some c /\ field o "timestamp" = Some VNone /\ field o "uuid" = Some VNone.
Proof. exact c60_stamps. Qed.
Print Assumptions C60_stamps_lost.

Theorem C60_uuid_refuted : forall warn, exists x u way c y i k o, loaded warn x u /\ Forall (fun p => In (fst p) kept_rows) way /\
  element_at "AUTOSAR" way x = Some (c, y) /\ isinst c "Identifiable" = true /\ xattr "UUID" y = Some i /\ find "CATEGORY" y = Some k /\
  object_at way u = Some o /\ field o "uuid" = Some VNone /\ field o "category" = Some VNone.
Proof. exact uri_case. Qed.
Print Assumptions C60_uuid_refuted.

Example C60_lost_case : In "EcucDestinationUriDefSet" bare /\ In "EcucDestinationUriDefSet" stampless /\
  loaded true uri_doc uri_u /\ element_at "AUTOSAR" element_way uri_doc = Some ("EcucDestinationUriDefSet", uri_xml).
Proof. split; [vm_compute; tauto|]. split; [vm_compute; tauto|]. split; [apply uri_loaded|vm_compute; reflexivity]. Qed.

(** The same TRANSFORMATION-COM-SPEC-PROPSS content is kept in a CLIENT-COM-SPEC and lost in a receiver
    communication specification. *)
Theorem C60_receiver_props_refuted : forall warn, exists x u w1 w2 y1 y2 o1 o2 v, loaded warn x u /\
  Forall (fun p => In (fst p) kept_rows) w1 /\ Forall (fun p => In (fst p) kept_rows) w2 /\
  element_at "AUTOSAR" w1 x = Some ("ClientComSpec", y1) /\ element_at "AUTOSAR" w2 x = Some ("NonqueuedReceiverComSpec", y2) /\
  findall "TRANSFORMATION-COM-SPEC-PROPSS/*" y1 <> [] /\ findall "TRANSFORMATION-COM-SPEC-PROPSS/*" y2 = findall "TRANSFORMATION-COM-SPEC-PROPSS/*" y1 /\
  object_at w1 u = Some o1 /\ object_at w2 u = Some o2 /\
  field o1 "transformationComSpecProps" = Some (VList [v]) /\ field o2 "transformationComSpecProps" = Some (VList []).
Proof. exact spec_case. Qed.
Print Assumptions C60_receiver_props_refuted.
