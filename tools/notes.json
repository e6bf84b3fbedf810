{
 "C13": "Hex and binary notations fully proved, decimals up to 2^53. The full claim is false: decimal texts go through float(), witness 9007199254740993 (C13_refuted).",
 "C14": "Accepted texts are exactly the literals, except hex/binary literals followed by junk, which are accepted too (C14_refuted: 0x1G).",
 "C15": "Holds for booleans. For numericals the value survives but a rejected string replaces the text (C15_refuted).",
 "C16": "String assignments and int-only histories proved. False for a string followed by an int: stale text (C16_refuted).",
 "C17": "Acceptance and denoted value proved exactly. Last clause false when a bool follows a text: stale text (C17_refuted).",
 "C18": "Proved for assignments from ints; false for setValue(\"-5\") (C18_refuted). Reader half fully proved; setValue of a negative text is accepted (refuted).",
 "C20": "Proved for two or more components; false for one-component references (C20_refuted).",
 "C01": "All histories of createARPackage/createX/removeElement; lives_clear says nothing on the way is shadowed by an equally named sibling.",
 "C02": "Soundness for every path string, and None-or-raise when nothing lives at the path.",
 "C03": {
  "status": "partial",
  "note": "False: find always starts at the singleton (witness C03_refuted); holds only when the receiver is the singleton."
 },
 "C04": "Exact characterisation over the class hierarchy table; a reference without value raises AttributeError (model find_ref).",
 "C05": "All histories of addElement/removeElement, short names fixed after creation.",
 "C06": "Refinement to a plain list.",
 "C07": "Refuted for the untyped queries (the name index keeps an empty list); typed queries, re-adding and the exact untyped behaviour proved.",
 "C08": "295 of the 366 table methods and createARPackage proved idempotent; the other 71 refuted one by one. 5 further create methods do not fit the table (listed in Creators.v).",
 "C09": "126 methods proved in every document, 40 in documents built by creation methods only, 200 refuted by a collision witness each.",
 "C21": "Siblings with distinct names on the way (lives_clear), slash-free names.",
 "C10": "Every query of the document API after any history; clear() modelled field by field.",
 "C11": "All strings, all reachable documents; the sixteen releases are listed in SpecDoc.v.",
 "C22": "All histories of registrations and clears.",
 "C23": "getDuplicateUUIDs lists every registered UUID (C23_refuted). The checker's report is exactly the UUIDs registered at least twice (all objects Referrable), but one object registered twice counts as two (C23_report_refuted).",
 "C24": "Conversions characterised exactly; inverse only on one-to-one histories (C24_refuted for many-to-one).",
 "C25": "All histories.",
 "C26": "All histories; the refused call changes nothing.",
 "C27": "All histories.",
 "C28": "Chains followed for plain-string categories only; for categories set by setCategory or the parser no reference is followed (C28_refuted), because the comparison is between an object and a str.",
 "C29": "Document, packages and direct elements cleared, everything else kept; elements of elements keep their admin data (C29_refuted).",
 "C30": "All documents built by creation/removal histories; elements of packages.",
 "C42": "Directories, list files, plain files, argument order; OS listing order is an input.",
 "C31": "Proved for sheets whose connector names the composition has never used: connectors are exactly the kept pass-through ones plus the sheet's, in order. False otherwise (C31_reused_name_refuted: the connector silently disappears), and the ports the writer reads stay empty on every connector made from a sheet (C31_written_ports_empty, C31_written_ports_refuted).",
 "C32": "Proved for every history, including removals and removeAllX.",
 "C33": "Proved for every leaf kind over every value and surrounding document, up to the defects refuted alongside: Boolean uuid, unset Boolean, TimeValue T/UUID, unset ARFloat, bool stored in a number, Integer short label; ints beyond 2^53 (C13).",
 "C43": "Whole documents: any reordering of differently tagged siblings outside the listed container elements (list_tags in SpecOrder.v, all those the reader goes through with '*') gives the same document or the same exception, in both modes; every order that keeps equally tagged siblings in their order is reachable. Inside the container elements the order is the list order of the result, so the unrestricted statement is refuted.",
 "C19": "All 4678 set/get/is methods of the model classes transcribed, C3 method resolution. Proved for every class and guarded setter; one setter is an exception (C19_root_composition_refuted); values of primitive types are the subject of C12 to C18.",
 "C35": "Proved for every document of the domain (595 classes, any depth and width), for XML trees and for the text of the file including the root attributes and the schema location; missing: attributes outside the domain (C36 witnesses), two children with one name, non-printable and non-ASCII texts in files, object identity.",
 "C36": "Proved for the 94 package element kinds and all classes below them (595), for every object with the attributes of Domain.v; false for attributes the writer drops or alters (seven witnesses) and for an empty COMPU-SCALE, which loads and cannot be saved.",
 "C37": "Proved for 94 of 97 kinds in any state of the object; refuted for TRIGGER-INTERFACE, ECUC-VALUE-COLLECTION and MODE-DECLARATION-MAPPING-SET.",
 "C38": "Proved for every AdminData of the domain with groups nested to any depth; refuted for XML:SPACE and blank text of SD; SDF values and captions' attributes are outside the domain.",
 "C34": "Unknown children of ELEMENTS and AR-PACKAGES at any depth are ignored in warning mode (same result, same exceptions as without them) and stop the load otherwise; no unknown content anywhere raises NotImplementedError in warning mode. Loading is the code of readARPackages and everything below it; log output is not modelled.",
 "C45": "For every input tree and every document object, over all transcribed reader and writer methods.",
 "C39": "For every text: patch_xml is exactly the expansion relation of SpecSerial.v, leaves no such tag, is idempotent, changes nothing else, and the parser gives the same tree (or fails on both). The parser modelled covers elements, attributes, character data and references; comments, CDATA, processing instructions and DOCTYPE are not modelled (never written).",
 "C40": "Proved for trees whose attribute values have no double quote; refuted with two witnesses otherwise: the file does not parse, or parses with other attributes. minidom of Python 3.11 is modelled.",
 "C41": "Proved for ASCII names, printable text with tabs and line feeds, printable attribute values; refuted for carriage returns in text, line feeds in attribute values, control characters. Code points below 256; minidom of Python 3.11 is modelled; namespaces are not expanded.",
 "C44": "Nothing is lost and packages stay unique for every file, document and creation method. For files whose parts are read by idempotent methods, every part is held by the document afterwards, also after reading another such file (C44_present_partial), and a second reading changes no object; for each of the 71 other methods a second reading is visible (C44_methods_refuted), with two whole files as witnesses: a parameter listed twice, a root composition replaced by an unlisted object. Only the creation calls of the reader are modelled here, not the attribute values.",
 "C46": "Proved for all classes but four; BswInterruptEvent can never be constructed, two enumerations demand an argument (refuted); AREnum itself takes its values.",
 "C47": "Proved for every getter that returns an attribute, in every reachable state, but one (EcucInstanceReferenceValue.getValueIRef, refuted); computing getters are not described.",
 "C48": "Proved for all described add methods (384 of 394) but three; refuted: addDefaultValueElements replaces the list, unguarded methods append None.",
 "C49": "Proved for every class and every plain setter (607 definitions); C49_kinds: setters that are neither guarded nor plain have one of three names (setARRelease, setCategory, setJ1939SharedAddressClusters), whose bodies are not described.",
 "C50": "Proved for files of elements, attributes and texts below code point 256 where every element holds text or child elements; refuted for blank lines and U+0085 in texts, line feeds in attribute values and text next to child elements. Comments, processing instructions, CDATA sections and DOCTYPE are outside the modelled parser.",
 "C51": "Proved for every class but EcucInstanceReferenceValue (setValueIRef creates valueRef, refuted), over all described set and add methods; the setters of three names (C49) and ten add methods are not described.",
 "C52": "Every package is printed with its indentation and nothing else is; but 2^d times at depth d (refuted as 'once'): the loop over sub-packages is there twice. The lines of interfaces and modules are parameters.",
 "C53": "Proved for compositions just updated from a spreadsheet. Refuted for all loaded documents: every document with an assembly or delegation connector makes the report stop with AttributeError (C53_always_fails), because it reads attributes the model classes do not have (C51_case). openpyxl is not modelled.",
 "C54": "Proved for workbooks whose connector sheets have every title once; a missing title is refused in the first sheet of its kind, but accepted in a later one, which is then read at the positions of the earlier sheet (refuted). Cells are strings; openpyxl is not modelled.",
 "C55": "Termination, the list of exceptions and completeness of objects hold for every XML tree. Partial: when one parent gets two children of the same short name the code goes on with the existing object; the model stops with the pseudo-exception NameInUse there; TypeError is traced to an empty SHORT-NAME except in documents with one of the tags of SpecRun.faulty_tags. Refuted: the warning option does not help against unknown kinds of values (UnboundLocalError); a package, an implementation with BEHAVIOR-REF or a BSW behaviour with an empty SHORT-NAME stops loading with TypeError in both modes (getFullName in a log call or a registry call), a sender-receiver signal mapping without SYSTEM-SIGNAL-REF with AttributeError (argument of a log call).",
 "C56": "Proved for documents without the tags of SpecRun.faulty_tags and without an empty SHORT-NAME (and without name clashes, as C55). Refuted for an empty SHORT-NAME (TypeError, shown for a mode declaration) and for MODE-SWITCH-POINT (AttributeError). For SW-RECORD-LAYOUT and ECUC-INSTANCE-REFERENCE-VALUE nothing is shown either way.",
 "C57": "Proved for files that load to a document of the C36 domain with printable texts (uniqueness of the output for all files). Refuted: -w does not reach the writer, so saving raises NotImplementedError; --remove-admin-data leaves the data of objects inside elements, e.g. ports.",
 "C58": "Proved for every document that the reader code loads without meeting a name in use (the model of the reader stops there; C08 and C09 describe the methods), with AUTOSAR.getInstance() as the document (C03 refutes find on others). Refuted: a reference with the tag of its target as DEST is resolved for five kinds of package elements only, other kinds raise ValueError or NotImplementedError; the RAM block of an NvBlockDescriptor is named but not found; find below a hardware element raises AttributeError; short names with '/' hide their element.",
 "C59": "Proved for every document that the reader code loads without meeting a name in use (the model of the reader stops there), for the 505 attributes of the table in SpecKeep.v and for the package tree without the table; texts and references (leaf values) are not in the table, C33 and C36 speak about them. Refuted and characterised: 27 identifiable classes (modes, BSW events, rapid prototyping classes and others) lose LONG-NAME, DESC, INTRODUCTION and ADMIN-DATA on loading.",
 "C60": "Proved for every document that the reader code loads without meeting a name in use (the model of the reader stops there), for the 1054 attributes of the table in SpecText.v; C60_names checks the table against the naming rule (22 exceptions, listed there). Not in the table: short name fragments, annotations, variation points, ISignalToIPduMapping.startPosition, VariableAccess.scope, RModeInAtomicSwcInstanceRef.baseRef, the texts of EndToEndTransformationComSpecProps (read at some places only) and some others. Refuted and characterised: CATEGORY lost for 27 classes, T and UUID lost for 157 classes; TRANSFORMATION-COM-SPEC-PROPSS of receiver communication specifications not found (parser looks for a TRANSFORMATION-COM-SPEC-PROPS element in between).",
 "C61": "Proved for one file that the reader code loads without meeting a name in use, whose packages and listed elements have names; the heading line is not modelled. memory-section is shown to print the system signals in short form whatever the options (C61_memory_section); PARAMETER-SW-COMPONENT-TYPE is not listed (no class in the reader).",
 "C62": "Proved for files read into a new document without name clashes (C58): lookups through type maps and behaviours for one file, names of systems and compositions and the root composition for any list of files. Refuted: with two application types mapped to one implementation type the way back finds only the last; the root composition of a second system is dropped without an exception. The objects in the registries of systems and compositions are known by name only.",
 "C63": "Proved for files that load without name clashes (C58, where the model stops): references, texts, numbers, booleans, limits, short names, UUIDs and timestamps of the document, and the texts of the file saved from it. Refuted: an empty <V/> in SW-VALUES-PHYS is saved as the text None, and the saved file no longer loads."
}
