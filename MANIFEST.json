{
 "claims": [
  {
   "property": "C01",
   "status": "proved",
   "theorems": [
    "C01_find_inverts_full_name"
   ],
   "note": "All histories of createARPackage/createX/removeElement; lives_clear says nothing on the way is shadowed by an equally named sibling."
  },
  {
   "property": "C02",
   "status": "proved",
   "theorems": [
    "C02_found_lives_there",
    "C02_nothing_there",
    "C02_every_path"
   ],
   "note": "Soundness for every path string, and None-or-raise when nothing lives at the path."
  },
  {
   "property": "C03",
   "status": "partial",
   "theorems": [
    "C03_singleton_partial",
    "C03_refuted"
   ],
   "note": "False: find always starts at the singleton (witness C03_refuted); holds only when the receiver is the singleton."
  },
  {
   "property": "C04",
   "status": "proved",
   "theorems": [
    "C04_dest_enforced",
    "C04_mismatch_raises",
    "C04_missing",
    "C04_no_dest"
   ],
   "note": "Exact characterisation over the class hierarchy table; a reference without value raises AttributeError (model find_ref)."
  },
  {
   "property": "C05",
   "status": "proved",
   "theorems": [
    "C05_unique",
    "C05_refused",
    "C05_accepted",
    "C05_exists",
    "C05_get",
    "C05_get_total",
    "C05_get_untyped"
   ],
   "note": "All histories of addElement/removeElement, short names fixed after creation."
  },
  {
   "property": "C06",
   "status": "proved",
   "theorems": [
    "C06_insertion_order"
   ],
   "note": "Refinement to a plain list."
  },
  {
   "property": "C07",
   "status": "partial",
   "theorems": [
    "C07_typed_queries_partial",
    "C07_name_usable_again",
    "C07_untyped_partial",
    "C07_second_removal_partial",
    "C07_refuted"
   ],
   "note": "Refuted for the untyped queries (the name index keeps an empty list); typed queries, re-adding and the exact untyped behaviour proved."
  },
  {
   "property": "C08",
   "status": "partial",
   "theorems": [
    "C08_package",
    "C08_partial",
    "C08_refuted"
   ],
   "note": "295 of the 366 table methods and createARPackage proved idempotent; the other 71 refuted one by one. 5 further create methods do not fit the table (listed in Creators.v)."
  },
  {
   "property": "C09",
   "status": "partial",
   "theorems": [
    "C09_typed_methods",
    "C09_sole_methods_partial",
    "C09_refuted",
    "C09_all_methods_covered"
   ],
   "note": "126 methods proved in every document, 40 in documents built by creation methods only, 200 refuted by a collision witness each."
  },
  {
   "property": "C10",
   "status": "proved",
   "theorems": [
    "C10_clear_is_fresh"
   ],
   "note": "Every query of the document API after any history; clear() modelled field by field."
  },
  {
   "property": "C11",
   "status": "proved",
   "theorems": [
    "C11_known",
    "C11_unknown",
    "C11_distinct"
   ],
   "note": "All strings, all reachable documents; the sixteen releases are listed in SpecDoc.v."
  },
  {
   "property": "C12",
   "status": "proved",
   "theorems": [
    "C12_text_survives"
   ],
   "note": ""
  },
  {
   "property": "C13",
   "status": "partial",
   "theorems": [
    "C13_decimal_partial",
    "C13_hexadecimal",
    "C13_binary",
    "C13_refuted"
   ],
   "note": "Hex and binary notations fully proved, decimals up to 2^53. The full claim is false: decimal texts go through float(), witness 9007199254740993 (C13_refuted)."
  },
  {
   "property": "C14",
   "status": "partial",
   "theorems": [
    "C14_partial",
    "C14_wellformed_accepted",
    "C14_refuted"
   ],
   "note": "Accepted texts are exactly the literals, except hex/binary literals followed by junk, which are accepted too (C14_refuted: 0x1G)."
  },
  {
   "property": "C15",
   "status": "partial",
   "theorems": [
    "C15_boolean",
    "C15_value_partial",
    "C15_nonstring_partial",
    "C15_refuted"
   ],
   "note": "Holds for booleans. For numericals the value survives but a rejected string replaces the text (C15_refuted)."
  },
  {
   "property": "C16",
   "status": "partial",
   "theorems": [
    "C16_string_partial",
    "C16_ints_partial",
    "C16_refuted"
   ],
   "note": "String assignments and int-only histories proved. False for a string followed by an int: stale text (C16_refuted)."
  },
  {
   "property": "C17",
   "status": "partial",
   "theorems": [
    "C17_accepts_exactly",
    "C17_rejects_rest",
    "C17_text_denotes_value_partial",
    "C17_bools_partial",
    "C17_refuted"
   ],
   "note": "Acceptance and denoted value proved exactly. Last clause false when a bool follows a text: stale text (C17_refuted)."
  },
  {
   "property": "C18",
   "status": "partial",
   "theorems": [
    "C18_read_never_negative",
    "C18_read_rejects",
    "C18_no_strings_partial",
    "C18_refuted"
   ],
   "note": "Proved for assignments from ints; false for setValue(\"-5\") (C18_refuted). Reader half fully proved; setValue of a negative text is accepted (refuted)."
  },
  {
   "property": "C19",
   "status": "partial",
   "theorems": [
    "C19_none_kept",
    "C19_value_returned",
    "C19_root_composition_refuted"
   ],
   "note": "All 4678 set/get/is methods of the model classes transcribed, C3 method resolution. Proved for every class and guarded setter; one setter is an exception (C19_root_composition_refuted); values of primitive types are the subject of C12 to C18."
  },
  {
   "property": "C20",
   "status": "partial",
   "theorems": [
    "C20_partial",
    "C20_unset",
    "C20_never_empty",
    "C20_refuted"
   ],
   "note": "Proved for two or more components; false for one-component references (C20_refuted)."
  },
  {
   "property": "C21",
   "status": "proved",
   "theorems": [
    "C21_full_names_unique"
   ],
   "note": "Siblings with distinct names on the way (lives_clear), slash-free names."
  },
  {
   "property": "C22",
   "status": "proved",
   "theorems": [
    "C22_exact"
   ],
   "note": "All histories of registrations and clears."
  },
  {
   "property": "C23",
   "status": "partial",
   "theorems": [
    "C23_listed_partial",
    "C23_report_partial",
    "C23_refuted",
    "C23_report_refuted"
   ],
   "note": "getDuplicateUUIDs lists every registered UUID (C23_refuted). The checker's report is exactly the UUIDs registered at least twice (all objects Referrable), but one object registered twice counts as two (C23_report_refuted)."
  },
  {
   "property": "C24",
   "status": "partial",
   "theorems": [
    "C24_to_implementation",
    "C24_to_application",
    "C24_incomplete",
    "C24_inverse_partial",
    "C24_refuted"
   ],
   "note": "Conversions characterised exactly; inverse only on one-to-one histories (C24_refuted for many-to-one)."
  },
  {
   "property": "C25",
   "status": "proved",
   "theorems": [
    "C25_behavior",
    "C25_implementation",
    "C25_inverse"
   ],
   "note": "All histories."
  },
  {
   "property": "C26",
   "status": "proved",
   "theorems": [
    "C26_first_set",
    "C26_fixed"
   ],
   "note": "All histories; the refused call changes nothing."
  },
  {
   "property": "C27",
   "status": "proved",
   "theorems": [
    "C27_first_kept",
    "C27_names_once",
    "C27_ascending",
    "C27_composition"
   ],
   "note": "All histories."
  },
  {
   "property": "C28",
   "status": "partial",
   "theorems": [
    "C28_chain_partial",
    "C28_api_partial",
    "C28_other_class",
    "C28_refuted"
   ],
   "note": "Chains followed for plain-string categories only; for categories set by setCategory or the parser no reference is followed (C28_refuted), because the comparison is between an object and a str."
  },
  {
   "property": "C29",
   "status": "partial",
   "theorems": [
    "C29_removed_partial",
    "C29_rest_unchanged",
    "C29_refuted"
   ],
   "note": "Document, packages and direct elements cleared, everything else kept; elements of elements keep their admin data (C29_refuted)."
  },
  {
   "property": "C30",
   "status": "proved",
   "theorems": [
    "C30_components",
    "C30_signals"
   ],
   "note": "All documents built by creation/removal histories; elements of packages."
  },
  {
   "property": "C31",
   "status": "partial",
   "theorems": [
    "C31_update_partial",
    "C31_written_ports_empty",
    "C31_written_ports_refuted",
    "C31_reused_name_refuted"
   ],
   "note": "Proved for sheets whose connector names the composition has never used: connectors are exactly the kept pass-through ones plus the sheet's, in order. False otherwise (C31_reused_name_refuted: the connector silently disappears), and the ports the writer reads stay empty on every connector made from a sheet (C31_written_ports_empty, C31_written_ports_refuted)."
  },
  {
   "property": "C32",
   "status": "proved",
   "theorems": [
    "C32_children_in_step"
   ],
   "note": "Proved for every history, including removals and removeAllX."
  },
  {
   "property": "C33",
   "status": "partial",
   "theorems": [
    "C33_absent",
    "C33_literal",
    "C33_revision_partial",
    "C33_revision_unreadable",
    "C33_reference_partial",
    "C33_limit_partial",
    "C33_numerical_text",
    "C33_number_text_partial",
    "C33_int_partial",
    "C33_float_partial",
    "C33_number_unset",
    "C33_boolean_partial",
    "C33_boolean_uuid_refuted",
    "C33_boolean_unset_refuted",
    "C33_time_refuted",
    "C33_float_unset_refuted",
    "C33_bool_number_refuted",
    "C33_integer_label_refuted"
   ],
   "note": "Proved for every leaf kind over every value and surrounding document, up to the defects refuted alongside: Boolean uuid, unset Boolean, TimeValue T/UUID, unset ARFloat, bool stored in a number, Integer short label; ints beyond 2^53 (C13)."
  },
  {
   "property": "C34",
   "status": "proved",
   "theorems": [
    "C34_warning_result",
    "C34_warning_errors",
    "C34_warning_quiet",
    "C34_strict_stops",
    "C34_strict_raises"
   ],
   "note": "Unknown children of ELEMENTS and AR-PACKAGES at any depth are ignored in warning mode (same result, same exceptions as without them) and stop the load otherwise; no unknown content anywhere raises NotImplementedError in warning mode. Loading is the code of readARPackages and everything below it; log output is not modelled."
  },
  {
   "property": "C35",
   "status": "partial",
   "theorems": [
    "C35_file_partial",
    "C35_file_unique_partial",
    "C35_file_stable_partial",
    "C35_document_partial",
    "C35_unique_partial",
    "C35_forest_partial",
    "C35_package_partial"
   ],
   "note": "Proved for every document of the domain (595 classes, any depth and width), for XML trees and for the text of the file including the root attributes and the schema location; missing: attributes outside the domain (C36 witnesses), two children with one name, non-printable and non-ASCII texts in files, object identity."
  },
  {
   "property": "C36",
   "status": "partial",
   "theorems": [
    "C36_elements_partial",
    "C36_reference_base_refuted",
    "C36_contained_props_refuted",
    "C36_connector_mapping_refuted",
    "C36_required_trigger_refuted",
    "C36_triggering_point_refuted",
    "C36_trigger_event_refuted",
    "C36_ram_block_refuted",
    "C36_empty_scale_refuted"
   ],
   "note": "Proved for the 94 package element kinds and all classes below them (595), for every object with the attributes of Domain.v; false for attributes the writer drops or alters (seven witnesses) and for an empty COMPU-SCALE, which loads and cannot be saved."
  },
  {
   "property": "C37",
   "status": "partial",
   "theorems": [
    "C37_created",
    "C37_written_partial",
    "C37_no_error_partial",
    "C37_trigger_interface_refuted",
    "C37_value_collection_refuted",
    "C37_mapping_set_refuted"
   ],
   "note": "Proved for 94 of 97 kinds in any state of the object; refuted for TRIGGER-INTERFACE, ECUC-VALUE-COLLECTION and MODE-DECLARATION-MAPPING-SET."
  },
  {
   "property": "C38",
   "status": "partial",
   "theorems": [
    "C38_admin_data_partial",
    "C38_xml_space_refuted",
    "C38_blank_refuted"
   ],
   "note": "Proved for every AdminData of the domain with groups nested to any depth; refuted for XML:SPACE and blank text of SD; SDF values and captions' attributes are outside the domain."
  },
  {
   "property": "C39",
   "status": "proved",
   "theorems": [
    "C39_expand",
    "C39_none_left",
    "C39_idempotent",
    "C39_unchanged",
    "C39_same_tree"
   ],
   "note": "For every text: patch_xml is exactly the expansion relation of SpecSerial.v, leaves no such tag, is idempotent, changes nothing else, and the parser gives the same tree (or fails on both). The parser modelled covers elements, attributes, character data and references; comments, CDATA, processing instructions and DOCTYPE are not modelled (never written)."
  },
  {
   "property": "C40",
   "status": "partial",
   "theorems": [
    "C40_unescape_partial",
    "C40_unescape_refuted",
    "C40_injection_refuted"
   ],
   "note": "Proved for trees whose attribute values have no double quote; refuted with two witnesses otherwise: the file does not parse, or parses with other attributes. minidom of Python 3.11 is modelled."
  },
  {
   "property": "C41",
   "status": "partial",
   "theorems": [
    "C41_round_trip_partial",
    "C41_layout_partial",
    "C41_return_refuted",
    "C41_attribute_refuted",
    "C41_control_refuted"
   ],
   "note": "Proved for ASCII names, printable text with tabs and line feeds, printable attribute values; refuted for carriage returns in text, line feeds in attribute values, control characters. Code points below 256; minidom of Python 3.11 is modelled; namespaces are not expanded."
  },
  {
   "property": "C42",
   "status": "proved",
   "theorems": [
    "C42_in_order",
    "C42_list_parser_in_order",
    "C42_directory",
    "C42_directory_once",
    "C42_list_file",
    "C42_plain_file"
   ],
   "note": "Directories, list files, plain files, argument order; OS listing order is an input."
  },
  {
   "property": "C43",
   "status": "partial",
   "theorems": [
    "C43_leaf_readers_partial",
    "C43_load",
    "C43_errors",
    "C43_every_order",
    "C43_lists_refuted"
   ],
   "note": "Whole documents: any reordering of differently tagged siblings outside the listed container elements (list_tags in SpecOrder.v, all those the reader goes through with '*') gives the same document or the same exception, in both modes; every order that keeps equally tagged siblings in their order is reachable. Inside the container elements the order is the list order of the result, so the unrestricted statement is refuted."
  },
  {
   "property": "C44",
   "status": "partial",
   "theorems": [
    "C44_nothing_lost",
    "C44_packages_once",
    "C44_again_partial",
    "C44_present_partial",
    "C44_methods_refuted",
    "C44_twice_refuted",
    "C44_replaced_refuted"
   ],
   "note": "Nothing is lost and packages stay unique for every file, document and creation method. For files whose parts are read by idempotent methods, every part is held by the document afterwards, also after reading another such file (C44_present_partial), and a second reading changes no object; for each of the 71 other methods a second reading is visible (C44_methods_refuted), with two whole files as witnesses: a parameter listed twice, a root composition replaced by an unlisted object. Only the creation calls of the reader are modelled here, not the attribute values."
  },
  {
   "property": "C45",
   "status": "proved",
   "theorems": [
    "C45_load",
    "C45_save",
    "C45_save_quiet"
   ],
   "note": "For every input tree and every document object, over all transcribed reader and writer methods."
  },
  {
   "property": "C46",
   "status": "partial",
   "theorems": [
    "C46_constructed_partial",
    "C46_interrupt_event_refuted",
    "C46_enums_refuted"
   ],
   "note": "Proved for all classes but four; BswInterruptEvent can never be constructed, two enumerations demand an argument (refuted); AREnum itself takes its values."
  },
  {
   "property": "C47",
   "status": "partial",
   "theorems": [
    "C47_getters_partial",
    "C47_instance_reference_refuted"
   ],
   "note": "Proved for every getter that returns an attribute, in every reachable state, but one (EcucInstanceReferenceValue.getValueIRef, refuted); computing getters are not described."
  },
  {
   "property": "C48",
   "status": "partial",
   "theorems": [
    "C48_append_partial",
    "C48_none_ignored",
    "C48_none_refuted",
    "C48_replaced_refuted"
   ],
   "note": "Proved for all described add methods (384 of 394) but three; refuted: addDefaultValueElements replaces the list, unguarded methods append None."
  },
  {
   "property": "C49",
   "status": "proved",
   "theorems": [
    "C49_stored",
    "C49_kinds"
   ],
   "note": "Proved for every class and every plain setter (607 definitions); C49_kinds: setters that are neither guarded nor plain have one of three names (setARRelease, setCategory, setJ1939SharedAddressClusters), whose bodies are not described."
  },
  {
   "property": "C50",
   "status": "partial",
   "theorems": [
    "C50_format_partial",
    "C50_normal_form_partial",
    "C50_blank_line_refuted",
    "C50_next_line_refuted",
    "C50_attribute_refuted",
    "C50_mixed_refuted"
   ],
   "note": "Proved for files of elements, attributes and texts below code point 256 where every element holds text or child elements; refuted for blank lines and U+0085 in texts, line feeds in attribute values and text next to child elements. Comments, processing instructions, CDATA sections and DOCTYPE are outside the modelled parser."
  },
  {
   "property": "C51",
   "status": "partial",
   "theorems": [
    "C51_same_attributes_partial",
    "C51_instance_reference_refuted"
   ],
   "note": "Proved for every class but EcucInstanceReferenceValue (setValueIRef creates valueRef, refuted), over all described set and add methods; the setters of three names (C49) and ten add methods are not described."
  },
  {
   "property": "C52",
   "status": "partial",
   "theorems": [
    "C52_listed",
    "C52_count",
    "C52_once_refuted"
   ],
   "note": "Every package is printed with its indentation and nothing else is; but 2^d times at depth d (refuted as 'once'): the loop over sub-packages is there twice. The lines of interfaces and modules are parameters."
  },
  {
   "property": "C53",
   "status": "partial",
   "theorems": [
    "C53_updated_partial",
    "C53_always_fails",
    "C53_report_refuted"
   ],
   "note": "Proved for compositions just updated from a spreadsheet. Refuted for all loaded documents: every document with an assembly or delegation connector makes the report stop with AttributeError (C53_always_fails), because it reads attributes the model classes do not have (C51_case). openpyxl is not modelled."
  },
  {
   "property": "C54",
   "status": "partial",
   "theorems": [
    "C54_read_partial",
    "C54_exact",
    "C54_missing_column_partial",
    "C54_missing_column_refuted",
    "C54_report_read"
   ],
   "note": "Proved for workbooks whose connector sheets have every title once; a missing title is refused in the first sheet of its kind, but accepted in a later one, which is then read at the positions of the earlier sheet (refuted). Cells are strings; openpyxl is not modelled."
  },
  {
   "property": "C55",
   "status": "partial",
   "theorems": [
    "C55_load_ends_partial",
    "C55_load_errors_partial",
    "C55_load_once",
    "C55_load_either",
    "C55_attribute_error",
    "C55_type_error_partial",
    "C55_empty_name_refuted",
    "C55_signal_mapping_refuted",
    "C55_objects_complete",
    "C55_warning_option_refuted"
   ],
   "note": "Termination, the list of exceptions and completeness of objects hold for every XML tree. Partial: when one parent gets two children of the same short name the code goes on with the existing object; the model stops with the pseudo-exception NameInUse there; TypeError is traced to an empty SHORT-NAME except in documents with one of the tags of SpecRun.faulty_tags. Refuted: the warning option does not help against unknown kinds of values (UnboundLocalError); a package, an implementation with BEHAVIOR-REF or a BSW behaviour with an empty SHORT-NAME stops loading with TypeError in both modes (getFullName in a log call or a registry call), a sender-receiver signal mapping without SYSTEM-SIGNAL-REF with AttributeError (argument of a log call)."
  },
  {
   "property": "C56",
   "status": "partial",
   "theorems": [
    "C56_save_warning_partial",
    "C56_save_strict_partial",
    "C56_save_errors_partial",
    "C56_save_once",
    "C56_empty_name_refuted",
    "C56_mode_switch_point_refuted"
   ],
   "note": "Proved for documents without the tags of SpecRun.faulty_tags and without an empty SHORT-NAME (and without name clashes, as C55). Refuted for an empty SHORT-NAME (TypeError, shown for a mode declaration) and for MODE-SWITCH-POINT (AttributeError). For SW-RECORD-LAYOUT and ECUC-INSTANCE-REFERENCE-VALUE nothing is shown either way."
  },
  {
   "property": "C57",
   "status": "partial",
   "theorems": [
    "C57_format_partial",
    "C57_one_output",
    "C57_again_partial",
    "C57_same_text_partial",
    "C57_unescape_partial",
    "C57_warning_refuted",
    "C57_remove_all_refuted"
   ],
   "note": "Proved for files that load to a document of the C36 domain with printable texts (uniqueness of the output for all files). Refuted: -w does not reach the writer, so saving raises NotImplementedError; --remove-admin-data leaves the data of objects inside elements, e.g. ports."
  },
  {
   "property": "C58",
   "status": "partial",
   "theorems": [
    "C58_find_partial",
    "C58_own_path_partial",
    "C58_one_name_partial",
    "C58_no_dest",
    "C58_dest",
    "C58_own_tag",
    "C58_own_tag_refuted",
    "C58_every_object_refuted",
    "C58_no_raise_refuted",
    "C58_slash_refuted"
   ],
   "note": "Proved for every document that the reader code loads without meeting a name in use (the model of the reader stops there; C08 and C09 describe the methods), with AUTOSAR.getInstance() as the document (C03 refutes find on others). Refuted: a reference with the tag of its target as DEST is resolved for five kinds of package elements only, other kinds raise ValueError or NotImplementedError; the RAM block of an NvBlockDescriptor is named but not found; find below a hardware element raises AttributeError; short names with '/' hide their element."
  },
  {
   "property": "C59",
   "status": "partial",
   "theorems": [
    "C59_packages_partial",
    "C59_all_partial",
    "C59_place_partial",
    "C59_bare_classes",
    "C59_description_refuted"
   ],
   "note": "Proved for every document that the reader code loads without meeting a name in use (the model of the reader stops there), for the 505 attributes of the table in SpecKeep.v and for the package tree without the table; texts and references (leaf values) are not in the table, C33 and C36 speak about them. Refuted and characterised: 27 identifiable classes (modes, BSW events, rapid prototyping classes and others) lose LONG-NAME, DESC, INTRODUCTION and ADMIN-DATA on loading."
  },
  {
   "property": "C60",
   "status": "partial",
   "theorems": [
    "C60_values_partial",
    "C60_reference_partial",
    "C60_references_partial",
    "C60_literal_partial",
    "C60_names",
    "C60_category_lost",
    "C60_stamps_lost",
    "C60_uuid_refuted",
    "C60_receiver_props_refuted"
   ],
   "note": "Proved for every document that the reader code loads without meeting a name in use (the model of the reader stops there), for the 1054 attributes of the table in SpecText.v; C60_names checks the table against the naming rule (22 exceptions, listed there). Not in the table: short name fragments, annotations, variation points, ISignalToIPduMapping.startPosition, VariableAccess.scope, RModeInAtomicSwcInstanceRef.baseRef, the texts of EndToEndTransformationComSpecProps (read at some places only) and some others. Refuted and characterised: CATEGORY lost for 27 classes, T and UUID lost for 157 classes; TRANSFORMATION-COM-SPEC-PROPSS of receiver communication specifications not found (parser looks for a TRANSFORMATION-COM-SPEC-PROPS element in between)."
  },
  {
   "property": "C61",
   "status": "partial",
   "theorems": [
    "C61_components_partial",
    "C61_signals_partial",
    "C61_elements",
    "C61_memory_section",
    "C61_memory_long_refuted",
    "C61_parameter_refuted"
   ],
   "note": "Proved for one file that the reader code loads without meeting a name in use, whose packages and listed elements have names; the heading line is not modelled. memory-section is shown to print the system signals in short form whatever the options (C61_memory_section); PARAMETER-SW-COMPONENT-TYPE is not listed (no class in the reader)."
  },
  {
   "property": "C62",
   "status": "partial",
   "theorems": [
    "C62_to_implementation_partial",
    "C62_to_application_partial",
    "C62_behavior_partial",
    "C62_implementation_partial",
    "C62_unmapped_partial",
    "C62_no_behavior_partial",
    "C62_lists",
    "C62_systems_partial",
    "C62_compositions_partial",
    "C62_root_partial",
    "C62_several_partial",
    "C62_inverse_refuted",
    "C62_second_root_refuted"
   ],
   "note": "Proved for files read into a new document without name clashes (C58): lookups through type maps and behaviours for one file, names of systems and compositions and the root composition for any list of files. Refuted: with two application types mapped to one implementation type the way back finds only the last; the root composition of a second system is dropped without an exception. The objects in the registries of systems and compositions are known by name only."
  },
  {
   "property": "C63",
   "status": "partial",
   "theorems": [
    "C63_reference_partial",
    "C63_destination_partial",
    "C63_text_partial",
    "C63_string_partial",
    "C63_number_partial",
    "C63_boolean_partial",
    "C63_limit_partial",
    "C63_name_partial",
    "C63_uuid_partial",
    "C63_timestamp_partial",
    "C63_value_uuid_partial",
    "C63_value_timestamp_partial",
    "C63_saved_partial",
    "C63_empty_value_refuted"
   ],
   "note": "Proved for files that load without name clashes (C58, where the model stops): references, texts, numbers, booleans, limits, short names, UUIDs and timestamps of the document, and the texts of the file saved from it. Refuted: an empty <V/> in SW-VALUES-PHYS is saved as the text None, and the saved file no longer loads."
  }
 ]
}