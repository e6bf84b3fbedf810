(** C35 to C38: writing and reading back.

    Written and read here are the trees of XML elements; [reload] is what the saved text becomes
    when it is parsed again (Xml.v; its relation to the text: Prop_Serial.v).  [ok] (SpecDomain.v)
    says which objects are meant: objects of the 595 classes listed in Domain.v, any number and
    nesting, with the attributes listed there and no others set.  Attributes that are not listed
    are those the code does not carry from writer to reader; C36_..._refuted shows examples.
    Missing from C35 and C36: those attributes; objects with two children of one short name
    (createX reuses the first, see C04); attributes of the root element; the identity of objects
    (two references to one object in two lists).  [repr] is float.__repr__, [warn] the warning
    option; both are arbitrary. *)
From Coq Require Import String List Floats.SpecFloat.
From Verif Require Import PyBase Xml Leaf Ir IrSem Domain SpecDomain SpecRoundTrip RoundTripParts RoundTripProps RoundTripElems
  RoundTripRead RoundTripTags RoundTripLoss Samples RoundTripCases.
Import ListNotations.
Open Scope string_scope.
Open Scope list_scope.

(** ** C35 *)
(** A document is saved without an error, and what is saved loads back to the same document. *)
Theorem C35_document_partial : forall repr warn u, ok u -> class_of u = Some "AUTOSAR" ->
  exists x, saved repr warn u x /\ forall d, loaded warn (reload d x) u.
Proof. exact document_round_trip. Qed.
Print Assumptions C35_document_partial.
(** It loads back to nothing else. *)
Theorem C35_unique_partial : forall repr warn u, ok u -> class_of u = Some "AUTOSAR" ->
  forall x, saved repr warn u x -> forall d u', loaded warn (reload d x) u' -> u' = u.
Proof. exact document_unique. Qed.
Print Assumptions C35_unique_partial.
(** Trees of packages of any depth and width, with elements at every level. *)
Theorem C35_forest_partial : forall repr warn ts,
  Forall tree_good ts -> py_sorted tree_name ts = ts -> NoDup (map tree_name ts) ->
  exists x, saved repr warn (document VNone (map tree_val ts)) x /\
    forall d, loaded warn (reload d x) (document VNone (map tree_val ts)).
Proof. exact forest_round_trip. Qed.
Print Assumptions C35_forest_partial.
(** One package: its name is found and reading it restores it. *)
Theorem C35_package_partial : forall repr warn p, ok p -> class_of p = Some "ARPackage" -> exists x nm,
  written repr warn write_package p (mkElem [] None [x]) /\ xtag x = "AR-PACKAGE" /\
  field p "short_name" = Some (VStr nm) /\
  forall d, short_name (reload d x) = Ok (Some nm) /\ read warn read_package (reload d x) (named_init "ARPackage" (VStr nm)) p.
Proof. exact package_round_trip. Qed.
Print Assumptions C35_package_partial.

(** packages in packages, all 94 kinds of elements in two of them *)
Example C35_case : tree_good sample_tree /\ length sample_elements = 94.
Proof. split; [exact sample_tree_good|exact sample_count]. Qed.

(** ** C36 *)
(** Elements of a package, any number and order: each is written as one element with the tag of
    its class; reading an ELEMENTS element with these as its content appends the same objects. *)
Theorem C36_elements_partial : forall repr warn us, elements_ok us -> exists xs,
  Forall2 (fun u x => exists t c, class_of u = Some c /\ In (t, c) package_elements /\
                      written repr warn write_element u (mkElem [] None [x]) /\ xtag x = t) us xs /\
  forall y d fs l, findall "ELEMENTS/*" y = map (reload d) xs -> assoc "elements" fs = Some (VList l) ->
    NoDup (names_below (VObj "ARPackage" fs) ++ flat_map name_of us) ->
    read warn read_elements y (VObj "ARPackage" fs) (set_field (VObj "ARPackage" fs) "elements" (VList (l ++ us))).
Proof. exact elements_round_trip. Qed.
Print Assumptions C36_elements_partial.

(** for each of the 94 kinds: an object with every attribute of the domain set *)
Example C36_case : forall t c, In (t, c) package_elements ->
  exists u, sample 12 1 "name" c = Some u /\ elements_ok [u] /\ class_of u = Some c.
Proof. exact element_sample. Qed.
(** for each of the 595 classes likewise *)
Example C36_each_class : forall c, In c (map fst domain) ->
  exists v, sample 12 1 "name" c = Some v /\ ok v /\ class_of v = Some c.
Proof. exact sample_each. Qed.
(** and each of them occurs in documents *)
Example C36_reachable :
  length domain = 595 /\ (let l := reachable (90 * 90) ["AUTOSAR"] [] in
                           forallb (fun d => existsb (String.eqb (fst d)) l) domain) = true.
Proof. split; vm_compute; reflexivity. Qed.

(** IS-GLOBAL of a reference base is written from IS-DEFAULT (arxml_writer.py, writeReferenceBases) *)
Theorem C36_reference_base_refuted : forall repr warn, altered repr warn reference_base.
Proof. exact reference_base_altered. Qed.
Print Assumptions C36_reference_base_refuted.
(** CONTAINED-I-PDU-PROPS of an N-PDU is read and not written *)
Theorem C36_contained_props_refuted : forall repr warn, altered repr warn contained_props.
Proof. exact contained_props_altered. Qed.
Print Assumptions C36_contained_props_refuted.
(** MAPPING-REF of a delegation connector *)
Theorem C36_connector_mapping_refuted : forall repr warn, altered repr warn connector_mapping.
Proof. exact connector_mapping_altered. Qed.
Print Assumptions C36_connector_mapping_refuted.
(** REQUIRED-TRIGGERS of a BSW module description *)
Theorem C36_required_trigger_refuted : forall repr warn, altered repr warn required_trigger.
Proof. exact required_trigger_altered. Qed.
Print Assumptions C36_required_trigger_refuted.
(** INTERNAL-TRIGGERING-POINTS of a runnable *)
Theorem C36_triggering_point_refuted : forall repr warn, altered repr warn triggering_point.
Proof. exact triggering_point_altered. Qed.
Print Assumptions C36_triggering_point_refuted.
(** INTERNAL-TRIGGER-OCCURRED-EVENT *)
Theorem C36_trigger_event_refuted : forall repr warn, altered repr warn trigger_event.
Proof. exact trigger_event_altered. Qed.
Print Assumptions C36_trigger_event_refuted.
(** INIT-VALUE of a RAM-BLOCK *)
Theorem C36_ram_block_refuted : forall repr warn, altered repr warn ram_block.
Proof. exact ram_block_altered. Qed.
Print Assumptions C36_ram_block_refuted.
(** a COMPU-SCALE without content loads and can not be saved *)
Theorem C36_empty_scale_refuted : forall repr, save_raises repr false empty_scale PyBase.NotImplementedError.
Proof. exact empty_scale_raises. Qed.
Print Assumptions C36_empty_scale_refuted.

(** ** C37 *)
(** Reading an element of one of the 97 accepted kinds appends one object of the class of that kind; *)
Theorem C37_created : forall warn t c y x fs o', In (t, c) readable_elements -> xtag x = t -> findall "ELEMENTS/*" y = [x] ->
  read warn read_elements y (VObj "ARPackage" fs) o' ->
  exists u l, class_of u = Some c /\ assoc "elements" fs = Some (VList l) /\
    o' = set_field (VObj "ARPackage" fs) "elements" (VList (l ++ [u])).
Proof. exact element_created. Qed.
Print Assumptions C37_created.
(** an object of that class, in any state, is written as one element with the same tag, for 94 of
    the 97 kinds, if the writer does not raise; *)
Theorem C37_written_partial : forall repr warn t c fs e, In (t, c) package_elements ->
  written repr warn write_element (VObj c fs) e -> exists x, e = mkElem [] None [x] /\ xtag x = t.
Proof. exact written_tag. Qed.
Print Assumptions C37_written_partial.
(** it does not raise for objects of the domain. *)
Theorem C37_no_error_partial : forall repr warn t c u, In (t, c) package_elements -> ok u -> class_of u = Some c ->
  exists x, written repr warn write_element u (mkElem [] None [x]) /\ xtag x = t.
Proof. exact element_written. Qed.
Print Assumptions C37_no_error_partial.
(** The other three kinds: TRIGGER-INTERFACE is read and vanishes, *)
Theorem C37_trigger_interface_refuted : forall repr warn, altered repr warn trigger_interface.
Proof. exact trigger_interface_altered. Qed.
Print Assumptions C37_trigger_interface_refuted.
(** ECUC-VALUE-COLLECTION is read and makes save raise, *)
Theorem C37_value_collection_refuted : forall repr, save_raises repr false value_collection PyBase.NotImplementedError.
Proof. exact value_collection_raises. Qed.
Print Assumptions C37_value_collection_refuted.
(** MODE-DECLARATION-MAPPING-SET is written with its content beside it: the saved file does not load. *)
Theorem C37_mapping_set_refuted : forall repr, reload_raises repr false mapping_set PyBase.NotImplementedError.
Proof. exact mapping_set_raises. Qed.
Print Assumptions C37_mapping_set_refuted.

Example C37_case : forall t c, In (t, c) package_elements -> exists u, ok u /\ class_of u = Some c.
Proof.
  intros t c I. destruct (element_sample t c I) as (u & _ & E & C). exists u. split; [|exact C].
  inversion E as [|? ? [O _] _]; subst. exact O.
Qed.
Example C37_created_case : exists o', read true read_elements (tagged "AR-PACKAGE" [tagged "ELEMENTS" [named_xml "UNIT" "u" []]])
  (named_init "ARPackage" (VStr "P")) o'.
Proof.
  exists (set_field (named_init "ARPackage" (VStr "P")) "elements" (VList [named_init "Unit" (VStr "u")])).
  exists 400. vm_compute. reflexivity.
Qed.
Example C37_kinds : length package_elements = 94 /\ length readable_elements = 97.
Proof. split; vm_compute; reflexivity. Qed.

(** ** C38 *)
(** Administrative data: languages, revisions, modifications, special data groups nested to any depth.
    Not covered: XML:SPACE and blank text of SD, the value of SDF, attributes of SDG-CAPTION. *)
Theorem C38_admin_data_partial : forall repr warn a, ok a -> class_of a = Some "AdminData" ->
  exists x, saved repr warn (document a []) x /\ forall d, loaded warn (reload d x) (document a []).
Proof. exact admin_round_trip. Qed.
Print Assumptions C38_admin_data_partial.
(** XML:SPACE of an SD is written and not read, *)
Theorem C38_xml_space_refuted : forall repr warn, changed repr warn sd_space.
Proof. exact sd_space_changed. Qed.
Print Assumptions C38_xml_space_refuted.
(** blank text of an SD is dropped by the reader. *)
Theorem C38_blank_refuted : forall repr warn, changed repr warn sd_blank.
Proof. exact sd_blank_changed. Qed.
Print Assumptions C38_blank_refuted.

(** groups in groups, to any depth *)
Example C38_case : forall n, ok (admin_data [nested_group n]) /\ class_of (admin_data [nested_group n]) = Some "AdminData".
Proof. intros n. destruct (nested_ok n) as [O C]. apply admin_ok; constructor; auto. Qed.
