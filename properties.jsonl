{"id": "C01", "title": "Path lookup inverts full names", "statement": "In any document built through the public creation API (createARPackage, createX), AUTOSAR.find(x.full_name) returns the very object x, for every package or element x whose ancestors have distinct, non-empty, slash-free short names and are not shadowed by a sub-package or sibling of another type with the same name.", "quantifier": "every finite history of creations on the singleton document, every object in the result", "why_tests_cant": "the tree shape, depth, naming and creation order are unbounded; a test visits one tree", "anchors": ["src/armodel/models/M2/AUTOSARTemplates/AutosarTopLevelStructure/__init__.py:AbstractAUTOSAR.find", "src/armodel/models/M2/AUTOSARTemplates/GenericStructure/GeneralTemplateClasses/Identifiable.py:Referrable.full_name", "src/armodel/models/M2/AUTOSARTemplates/GenericStructure/GeneralTemplateClasses/ARPackage.py:ARPackage.getElement", "src/armodel/models/M2/AUTOSARTemplates/GenericStructure/GeneralTemplateClasses/ARPackage.py:ARPackage.full_name"]}
{"id": "C02", "title": "Lookup never returns an object that does not live at that path", "statement": "If AUTOSAR.find(path) on a document built through the public creation API returns an object, then the short names on the way from the document to that object are exactly the non-empty '/'-separated components of path; if no object lives at that path it returns None or raises, never a different object.", "quantifier": "every reachable document and every path string", "why_tests_cant": "needs all path strings (double slashes, missing leading slash, prefixes) against all trees", "anchors": ["src/armodel/models/M2/AUTOSARTemplates/AutosarTopLevelStructure/__init__.py:AbstractAUTOSAR.find", "src/armodel/models/M2/AUTOSARTemplates/GenericStructure/GeneralTemplateClasses/Identifiable.py:CollectableElement.getElement"]}
{"id": "C03", "title": "find searches the document it is called on", "statement": "doc.find(path) resolves path in doc itself, for every document object (AUTOSAR singleton or AUTOSARDoc).", "quantifier": "every pair (singleton contents, receiver contents) and every path", "why_tests_cant": "tests use one global singleton so the receiver and the singleton always coincide", "anchors": ["src/armodel/models/M2/AUTOSARTemplates/AutosarTopLevelStructure/__init__.py:AbstractAUTOSAR.find", "src/armodel/models/M2/AUTOSARTemplates/AutosarTopLevelStructure/__init__.py:AUTOSARDoc"]}
{"id": "C04", "title": "DEST of a reference is enforced", "statement": "find(ref) with a non-empty DEST returns an object only if the object's kind is the one named by DEST; a missing object yields None; a kind mismatch or a kind with no DEST name raises and returns nothing. With empty or absent DEST the result is the same as for the plain path.", "quantifier": "every document, every reference (BASE, DEST, value)", "why_tests_cant": "the product of object kinds, DEST values and paths is unbounded", "anchors": ["src/armodel/models/M2/AUTOSARTemplates/AutosarTopLevelStructure/__init__.py:AbstractAUTOSAR.find", "src/armodel/models/M2/AUTOSARTemplates/AutosarTopLevelStructure/__init__.py:AbstractAUTOSAR.getDestType"]}
{"id": "C05", "title": "An element collection never holds two elements of the same name and type", "statement": "After any history of addElement/removeElement calls on a collection, no two entries have the same short name and the same type, an entry refused by addElement leaves the collection unchanged, and getElement(name, type)/IsElementExists(name, type) answer exactly according to the entries listed by getElements().", "quantifier": "every finite sequence of addElement/removeElement calls with arbitrary names and types", "why_tests_cant": "invariant over unbounded histories", "anchors": ["src/armodel/models/M2/AUTOSARTemplates/GenericStructure/GeneralTemplateClasses/Identifiable.py:CollectableElement.addElement", "src/armodel/models/M2/AUTOSARTemplates/GenericStructure/GeneralTemplateClasses/Identifiable.py:CollectableElement.removeElement", "src/armodel/models/M2/AUTOSARTemplates/GenericStructure/GeneralTemplateClasses/Identifiable.py:CollectableElement.getElement", "src/armodel/models/M2/AUTOSARTemplates/GenericStructure/GeneralTemplateClasses/Identifiable.py:CollectableElement.IsElementExists", "src/armodel/models/M2/AUTOSARTemplates/GenericStructure/GeneralTemplateClasses/Identifiable.py:Identifiable.addElement"]}
{"id": "C06", "title": "Element order is insertion order", "statement": "getElements() lists the surviving elements in the order in which they were first added; adding appends at the end, removing keeps the order of the others.", "quantifier": "every finite sequence of addElement/removeElement calls", "why_tests_cant": "unbounded histories", "anchors": ["src/armodel/models/M2/AUTOSARTemplates/GenericStructure/GeneralTemplateClasses/Identifiable.py:CollectableElement.addElement", "src/armodel/models/M2/AUTOSARTemplates/GenericStructure/GeneralTemplateClasses/Identifiable.py:CollectableElement.removeElement", "src/armodel/models/M2/AUTOSARTemplates/GenericStructure/GeneralTemplateClasses/Identifiable.py:CollectableElement.getElements"]}
{"id": "C07", "title": "A removed name is really gone", "statement": "After removeElement(name) removed the last element of that name, IsElementExists(name) is False, getElement(name) is None, and a second removeElement(name) raises KeyError, exactly as if the name had never been added.", "quantifier": "every collection history ending in a removal", "why_tests_cant": "depends on the whole history of the name, not on one call", "anchors": ["src/armodel/models/M2/AUTOSARTemplates/GenericStructure/GeneralTemplateClasses/Identifiable.py:CollectableElement.removeElement", "src/armodel/models/M2/AUTOSARTemplates/GenericStructure/GeneralTemplateClasses/Identifiable.py:CollectableElement.getElement", "src/armodel/models/M2/AUTOSARTemplates/GenericStructure/GeneralTemplateClasses/Identifiable.py:CollectableElement.IsElementExists"]}
{"id": "C08", "title": "createX is idempotent", "statement": "Calling a createX(name) method again with the same name returns the same object and adds nothing to the container: element list, typed child lists and counts stay the same.", "quantifier": "every container state reachable by the creation API, every name, every createX method shape in the code base", "why_tests_cant": "the code base has several hundred createX methods in four guard shapes; tests call a few of them once", "anchors": ["src/armodel/models/M2/AUTOSARTemplates/GenericStructure/GeneralTemplateClasses/ARPackage.py:ARPackage.createARPackage", "src/armodel/models/M2/AUTOSARTemplates/GenericStructure/GeneralTemplateClasses/ARPackage.py:ARPackage.createNmPdu", "src/armodel/models/M2/AUTOSARTemplates/SWComponentTemplate/Composition/__init__.py:CompositionSwComponentType.createAssemblySwConnector", "src/armodel/models/M2/AUTOSARTemplates/SystemTemplate/Fibex/FibexCore/CoreTopology.py:CommunicationCluster.createCanPhysicalChannel", "src/armodel/models/M2/AUTOSARTemplates/CommonStructure/ImplementationDataTypes.py:ImplementationDataType.createSymbolProps"]}
{"id": "C09", "title": "createX always returns an object of its own type", "statement": "createX(name) never returns None and the returned object is an X with that short name registered in the container, whatever other elements share the name.", "quantifier": "every reachable container state and every name", "why_tests_cant": "needs name collisions between arbitrary element types", "anchors": ["src/armodel/models/M2/AUTOSARTemplates/GenericStructure/GeneralTemplateClasses/ARPackage.py:ARPackage", "src/armodel/models/M2/AUTOSARTemplates/SWComponentTemplate/Composition/__init__.py:CompositionSwComponentType.createSwComponentPrototype"]}
{"id": "C10", "title": "clear() equals a fresh document", "statement": "After clear() (or AUTOSAR.new()) every observable query on the document (packages, elements, lookups, type maps, behaviour maps, systems, compositions, root prototype, UUIDs, admin data, schema location) answers as on a newly constructed document, whatever happened before.", "quantifier": "every history of document operations before clear()", "why_tests_cant": "a forgotten field only shows after a history that touched it", "anchors": ["src/armodel/models/M2/AUTOSARTemplates/AutosarTopLevelStructure/__init__.py:AbstractAUTOSAR.clear", "src/armodel/models/M2/AUTOSARTemplates/AutosarTopLevelStructure/__init__.py:AUTOSAR.new"]}
{"id": "C11", "title": "setARRelease accepts exactly the known releases and is atomic", "statement": "setARRelease(r) succeeds exactly for the sixteen supported release names, then the schema location is 'http://autosar.org/schema/r4.0 ' followed by that release's XSD; for any other string it raises ValueError and the document is unchanged; distinct releases give distinct schema locations.", "quantifier": "every string r and every document state", "why_tests_cant": "ranges over all strings", "anchors": ["src/armodel/models/M2/AUTOSARTemplates/AutosarTopLevelStructure/__init__.py:AbstractAUTOSAR.setARRelease"]}
{"id": "C12", "title": "Numeric text survives unchanged", "statement": "Whenever a numerical value is set from a string s without error, its text (what the writer emits) is exactly s, until it is set again.", "quantifier": "every string accepted by setValue and every later sequence of reads", "why_tests_cant": "ranges over all strings", "anchors": ["src/armodel/models/M2/AUTOSARTemplates/GenericStructure/GeneralTemplateClasses/PrimitiveTypes.py:ARNumerical.value", "src/armodel/models/M2/AUTOSARTemplates/GenericStructure/GeneralTemplateClasses/PrimitiveTypes.py:ARNumerical.__str__", "src/armodel/writer/abstract_arxml_writer.py:setChildElementOptionalNumericalValue"]}
{"id": "C13", "title": "Numeric value equals what the text denotes", "statement": "When a numerical value is set from a text denoting an integer (decimal with optional sign, 0x hex, 0b binary) getValue() equals that integer.", "quantifier": "every integer, in each of the three notations", "why_tests_cant": "needs all magnitudes; float conversion is only wrong beyond 2^53", "anchors": ["src/armodel/models/M2/AUTOSARTemplates/GenericStructure/GeneralTemplateClasses/PrimitiveTypes.py:ARNumerical._convertStringToNumberValue"]}
{"id": "C14", "title": "Malformed numbers are rejected", "statement": "setValue(s) raises ValueError for every string s that is not (after trimming) 'true', 'false', a hex, binary, decimal integer or decimal floating-point literal.", "quantifier": "every string", "why_tests_cant": "ranges over all malformed strings", "anchors": ["src/armodel/models/M2/AUTOSARTemplates/GenericStructure/GeneralTemplateClasses/PrimitiveTypes.py:ARNumerical._convertStringToNumberValue"]}
{"id": "C15", "title": "A rejected assignment leaves the value untouched", "statement": "If setValue raises, then getValue() and getText() are the same as before the call.", "quantifier": "every prior state of a numerical, float, positive-integer or boolean value and every rejected argument", "why_tests_cant": "needs each prior state combined with each rejected argument", "anchors": ["src/armodel/models/M2/AUTOSARTemplates/GenericStructure/GeneralTemplateClasses/PrimitiveTypes.py:ARNumerical.value", "src/armodel/models/M2/AUTOSARTemplates/GenericStructure/GeneralTemplateClasses/PrimitiveTypes.py:ARFloat.value", "src/armodel/models/M2/AUTOSARTemplates/GenericStructure/GeneralTemplateClasses/PrimitiveTypes.py:ARPositiveInteger.value", "src/armodel/models/M2/AUTOSARTemplates/GenericStructure/GeneralTemplateClasses/PrimitiveTypes.py:ARBoolean.value"]}
{"id": "C16", "title": "Last assignment wins for numbers", "statement": "After setValue(v) succeeded, text and value both reflect v: the writer emits a text that denotes getValue(), whatever was assigned before.", "quantifier": "every sequence of setValue calls mixing ints and strings", "why_tests_cant": "history dependent", "anchors": ["src/armodel/models/M2/AUTOSARTemplates/GenericStructure/GeneralTemplateClasses/PrimitiveTypes.py:ARNumerical.value", "src/armodel/models/M2/AUTOSARTemplates/GenericStructure/GeneralTemplateClasses/PrimitiveTypes.py:ARNumerical.__str__", "src/armodel/writer/abstract_arxml_writer.py:setChildElementOptionalNumericalValue"]}
{"id": "C17", "title": "Boolean parse and print", "statement": "Setting a boolean from text accepts exactly true/false (any case), and integers, ignoring surrounding blanks; getValue() is then the denoted truth value, getText() the trimmed text; after any successful assignment the emitted text denotes getValue().", "quantifier": "every string, int, bool and every sequence of assignments", "why_tests_cant": "ranges over all strings and histories", "anchors": ["src/armodel/models/M2/AUTOSARTemplates/GenericStructure/GeneralTemplateClasses/PrimitiveTypes.py:ARBoolean"]}
{"id": "C18", "title": "Positive integers are never negative", "statement": "A PositiveInteger never holds a negative value, however it is set, and reading a document with a negative value fails instead of producing one.", "quantifier": "every assignment history and every element text", "why_tests_cant": "ranges over all numbers and notations", "anchors": ["src/armodel/models/M2/AUTOSARTemplates/GenericStructure/GeneralTemplateClasses/PrimitiveTypes.py:ARPositiveInteger.value", "src/armodel/parser/abstract_arxml_parser.py:getChildElementOptionalPositiveInteger"]}
{"id": "C19", "title": "None never overwrites", "statement": "For every None-guarded setter, passing None leaves the object as it was and passing a non-None value makes the getter return exactly this value; no other attribute changes.", "quantifier": "every attribute of every model class whose setter is None-guarded, every prior object state", "why_tests_cant": "about 1400 setters times all states", "anchors": ["src/armodel/models:set* methods", "src/armodel/models/M2/AUTOSARTemplates/GenericStructure/GeneralTemplateClasses/PrimitiveTypes.py:ARType.setValue"]}
{"id": "C20", "title": "Short value of a reference is its last component", "statement": "RefType.getShortValue() returns the last path component of an absolute reference '/a/b/.../z' made of identifier characters, and raises ValueError when the value is unset.", "quantifier": "every reference string", "why_tests_cant": "ranges over all paths", "anchors": ["src/armodel/models/M2/AUTOSARTemplates/GenericStructure/GeneralTemplateClasses/PrimitiveTypes.py:RefType.getShortValue"]}
{"id": "C21", "title": "Full names are unique addresses", "statement": "Two different packages/elements of a document built through the creation API have different full names, provided short names contain no '/' and siblings of different type do not share a name.", "quantifier": "every reachable document, every pair of objects", "why_tests_cant": "pairs over unbounded trees", "anchors": ["src/armodel/models/M2/AUTOSARTemplates/GenericStructure/GeneralTemplateClasses/Identifiable.py:Referrable.full_name", "src/armodel/models/M2/AUTOSARTemplates/GenericStructure/GeneralTemplateClasses/ARPackage.py:ARPackage.full_name"]}
{"id": "C22", "title": "UUID registry is exact", "statement": "getARObjectByUUID(u) returns exactly the objects registered with that UUID, in registration order, with repetitions, and objects without UUID are never listed.", "quantifier": "every sequence of registrations and every UUID", "why_tests_cant": "unbounded histories", "anchors": ["src/armodel/models/utils/uuid_mgr.py:UUIDMgr", "src/armodel/models/M2/AUTOSARTemplates/AutosarTopLevelStructure/__init__.py:AbstractAUTOSAR.addARObject"]}
{"id": "C23", "title": "Duplicate UUID report", "statement": "getDuplicateUUIDs() returns exactly the UUIDs shared by two or more objects; the uuid checker prints exactly the objects sharing such a UUID.", "quantifier": "every sequence of registrations", "why_tests_cant": "unbounded histories", "anchors": ["src/armodel/models/utils/uuid_mgr.py:UUIDMgr.getDuplicateUUIDs", "src/armodel/cli/uuid_checker_cli.py"]}
{"id": "C24", "title": "Data type maps are consistent", "statement": "After any sequence of addDataTypeMap calls, convertToImplementationDataType(a) resolves the implementation type most recently mapped to a, convertToApplicationDataType(i) the application type most recently mapped to i, unmapped names raise IndexError, incomplete maps change nothing, and the two conversions are inverse to each other.", "quantifier": "every sequence of map registrations", "why_tests_cant": "needs many-to-one and re-mapped histories", "anchors": ["src/armodel/models/M2/AUTOSARTemplates/AutosarTopLevelStructure/__init__.py:AbstractAUTOSAR.addDataTypeMap", "src/armodel/models/M2/AUTOSARTemplates/AutosarTopLevelStructure/__init__.py:AbstractAUTOSAR.convertToImplementationDataType", "src/armodel/models/M2/AUTOSARTemplates/AutosarTopLevelStructure/__init__.py:AbstractAUTOSAR.convertToApplicationDataType"]}
{"id": "C25", "title": "Implementation/behaviour maps are consistent", "statement": "After any sequence of addImplementationBehaviorMap calls, getBehavior/getImplementation resolve the most recent partner, return None for unmapped references, and are inverse on one-to-one histories.", "quantifier": "every sequence of registrations", "why_tests_cant": "unbounded histories", "anchors": ["src/armodel/models/M2/AUTOSARTemplates/AutosarTopLevelStructure/__init__.py:AbstractAUTOSAR.addImplementationBehaviorMap", "src/armodel/models/M2/AUTOSARTemplates/AutosarTopLevelStructure/__init__.py:AbstractAUTOSAR.getBehavior", "src/armodel/models/M2/AUTOSARTemplates/AutosarTopLevelStructure/__init__.py:AbstractAUTOSAR.getImplementation"]}
{"id": "C26", "title": "Root composition is set once", "statement": "Once a root software composition is set on a document it never changes until clear(): None and same-named values are ignored, a differently named value raises ValueError; the stored object is the first one set.", "quantifier": "every sequence of setRootSwCompositionPrototype calls", "why_tests_cant": "history dependent", "anchors": ["src/armodel/models/M2/AUTOSARTemplates/AutosarTopLevelStructure/__init__.py:AbstractAUTOSAR.setRootSwCompositionPrototype"]}
{"id": "C27", "title": "System and composition registries keep the first and list sorted", "statement": "addSystem/addCompositionSwComponentType keep the first object registered per short name; getSystems() lists every registered name once, in ascending short-name order.", "quantifier": "every sequence of registrations", "why_tests_cant": "unbounded histories and orders", "anchors": ["src/armodel/models/M2/AUTOSARTemplates/AutosarTopLevelStructure/__init__.py:AbstractAUTOSAR.addSystem", "src/armodel/models/M2/AUTOSARTemplates/AutosarTopLevelStructure/__init__.py:AbstractAUTOSAR.getSystems", "src/armodel/models/M2/AUTOSARTemplates/AutosarTopLevelStructure/__init__.py:AbstractAUTOSAR.addCompositionSwComponentType"]}
{"id": "C28", "title": "getDataType resolves references and terminates", "statement": "getDataType(t) follows TYPE_REFERENCE (and VALUE data references) to the first type that is not a reference; it terminates for every document whose reference chain is finite.", "quantifier": "every document, every chain length, every way of setting the category", "why_tests_cant": "chains of any length; the parsed category differs from the one tests assign", "anchors": ["src/armodel/models/M2/AUTOSARTemplates/AutosarTopLevelStructure/__init__.py:AbstractAUTOSAR.getDataType", "src/armodel/models/M2/AUTOSARTemplates/GenericStructure/GeneralTemplateClasses/Identifiable.py:Identifiable.setCategory"]}
{"id": "C29", "title": "AdminData removal", "statement": "AdminDataTransformer.remove(document) leaves no admin data anywhere in the document and changes nothing else.", "quantifier": "every document tree", "why_tests_cant": "unbounded trees; nested elements", "anchors": ["src/armodel/transformer/admin_data.py:AdminDataTransformer"]}
{"id": "C30", "title": "Software component and signal listings are complete and sorted", "statement": "The swc-list and system-signal listings print exactly one line per matching element of the document (no omission, no duplicate), in ascending short-name order, and the composition filter keeps exactly the compositions.", "quantifier": "every document tree", "why_tests_cant": "unbounded trees", "anchors": ["src/armodel/lib/sw_component.py:SwComponentAnalyzer", "src/armodel/lib/system_signal.py:SystemSignalAnalyzer", "src/armodel/models/M2/AUTOSARTemplates/GenericStructure/GeneralTemplateClasses/ARPackage.py:ARPackage.getSwComponentTypes"]}
{"id": "C31", "title": "Spreadsheet update replaces the connectors", "statement": "Updating a document from a connector spreadsheet leaves each named composition with exactly the assembly and delegation connectors of the sheet, carrying the sheet's provider/requester/inner/outer ports, and these are what gets written.", "quantifier": "every composition state and every sheet content", "why_tests_cant": "sheet rows and previous connectors are unbounded; the failure needs a re-used connector name", "anchors": ["src/armodel/parser/connector_xlsx_parser.py:ConnectorXlsReader", "src/armodel/models/M2/AUTOSARTemplates/SWComponentTemplate/Composition/__init__.py:CompositionSwComponentType.removeAllAssemblySwConnector"]}
{"id": "C32", "title": "Composition child lists stay in step with the element registry", "statement": "After any history of createX/removeElement/removeAllX calls on a composition, getComponents()+getSwConnectors() hold exactly the elements listed by getElements(), and each is found by getElement(name, type).", "quantifier": "every finite history of calls", "why_tests_cant": "unbounded histories", "anchors": ["src/armodel/models/M2/AUTOSARTemplates/SWComponentTemplate/Composition/__init__.py:CompositionSwComponentType"]}
{"id": "C33", "title": "Leaf values round-trip through XML", "statement": "For every leaf kind (literal, identifier, revision label, float, time, boolean, numerical, integer, positive integer, limit, reference) writing an optional value under a tag and reading that tag back yields an equal value (text, timestamp, UUID, labels); an absent value stays absent.", "quantifier": "every value of every leaf kind, every tag, in the middle of any other children", "why_tests_cant": "ranges over all values and surrounding documents", "anchors": ["src/armodel/parser/abstract_arxml_parser.py:getChildElementOptional*", "src/armodel/writer/abstract_arxml_writer.py:setChildElementOptional*"]}
{"id": "C34", "title": "Unknown content is tolerated in warning mode and rejected otherwise", "statement": "With the warning option, loading never raises NotImplementedError for an unknown element tag: the result is the same as if the unknown element were absent; without the option the load raises NotImplementedError.", "quantifier": "every document with unknown package elements at any position", "why_tests_cant": "position and number of unknown elements unbounded", "anchors": ["src/armodel/parser/abstract_arxml_parser.py:notImplemented", "src/armodel/parser/arxml_parser.py:readARPackageElements"]}
{"id": "C35", "title": "Package trees round-trip", "statement": "Writing a document's package tree and loading it into a fresh document yields the same packages (names, nesting, attributes) and elements.", "quantifier": "every package tree", "why_tests_cant": "unbounded depth and width", "anchors": ["src/armodel/parser/arxml_parser.py:readARPackages", "src/armodel/parser/arxml_parser.py:readARPackage", "src/armodel/writer/arxml_writer.py:writeARPackages", "src/armodel/writer/arxml_writer.py:writeARPackage"]}
{"id": "C36", "title": "Element classes round-trip", "statement": "For each modelled AUTOSAR class: write an object to XML and read it back gives an equal object; no attribute the reader can fill is dropped or altered by the writer.", "quantifier": "every object of every class pair (reader, writer) covered", "why_tests_cant": "hundreds of classes times all attribute combinations", "anchors": ["src/armodel/parser/arxml_parser.py:read*/get*", "src/armodel/writer/arxml_writer.py:write*/set*"]}
{"id": "C37", "title": "Reader and writer agree on the element dispatch", "statement": "Every element tag accepted inside a package is written back under the same tag: the object the reader creates for a tag is dispatched by the writer to a function that emits this tag.", "quantifier": "every package element kind", "why_tests_cant": "isinstance chains depend on class hierarchy and order; each kind needs its own document", "anchors": ["src/armodel/parser/arxml_parser.py:readARPackageElements", "src/armodel/writer/arxml_writer.py:writeARPackageElement"]}
{"id": "C38", "title": "AdminData and special data groups round-trip", "statement": "AdminData (language, used languages, document revisions, modifications, nested SDGs of any depth) written and read back is equal.", "quantifier": "every AdminData value with SDGs nested to any depth", "why_tests_cant": "recursive structure", "anchors": ["src/armodel/parser/arxml_parser.py:getAdminData", "src/armodel/parser/arxml_parser.py:getSdg", "src/armodel/writer/arxml_writer.py:writeAdminData", "src/armodel/writer/arxml_writer.py:setSdg"]}
{"id": "C39", "title": "Self-closing expansion keeps the document", "statement": "patch_xml expands attribute-less self-closing tags to open/close pairs, is idempotent, leaves texts without such tags unchanged, and (without unescaping) the patched text parses to the same tree.", "quantifier": "every string, every serialised tree", "why_tests_cant": "ranges over all texts", "anchors": ["src/armodel/writer/abstract_arxml_writer.py:patch_xml"]}
{"id": "C40", "title": "Unescaping entities keeps the file loadable", "statement": "With the unescape_entities option the saved file still parses to the same tree.", "quantifier": "every tree, including attribute values with quotes", "why_tests_cant": "needs quotes in attribute values", "anchors": ["src/armodel/writer/abstract_arxml_writer.py:patch_xml", "src/armodel/writer/abstract_arxml_writer.py:saveToFile"]}
{"id": "C41", "title": "Saved files load back to the same tree", "statement": "The text produced by saveToFile for a tree parses back to the same tree (same tags, attributes, text), ignoring blank text between elements.", "quantifier": "every tree with valid names and characters", "why_tests_cant": "ranges over all trees and texts", "anchors": ["src/armodel/writer/abstract_arxml_writer.py:saveToFile"]}
{"id": "C42", "title": "File-list arguments", "statement": "Input arguments resolve to exactly the .arxml files below a directory, the lines of an @list file, or the file itself, in order.", "quantifier": "every argument list, directory tree and list file", "why_tests_cant": "unbounded inputs", "anchors": ["src/armodel/lib/cli_args_parser.py:InputFileParser", "src/armodel/parser/file_parser.py:FileListParser"]}
{"id": "C43", "title": "Loading is insensitive to sibling order of optional attributes", "statement": "Reordering the differently-tagged children of an element does not change the values read from it.", "quantifier": "every element and every permutation of differently tagged children", "why_tests_cant": "permutations", "anchors": ["src/armodel/parser/abstract_arxml_parser.py:find", "src/armodel/parser/abstract_arxml_parser.py:findall"]}
{"id": "C44", "title": "Loading a file again merges without loss", "statement": "Loading the same package tree twice into a document keeps each package once and loses nothing: createARPackage merges equal names and elements keep their identity. Afterwards the document holds an object for every named part of the file, at every depth.", "quantifier": "every package tree", "why_tests_cant": "unbounded trees", "anchors": ["src/armodel/parser/arxml_parser.py:readARPackages", "src/armodel/models/M2/AUTOSARTemplates/GenericStructure/GeneralTemplateClasses/ARPackage.py:ARPackage.createARPackage"]}
{"id": "C45", "title": "The warning option only turns failures into results", "statement": "A document that loads without the warning option loads with it to the same document, a document that is saved without it is saved with it to the same tree, and with the option neither load nor save raises NotImplementedError.", "quantifier": "every input tree, every document object", "why_tests_cant": "ranges over all documents and the 300 places that consult the option", "anchors": ["src/armodel/parser/abstract_arxml_parser.py:notImplemented", "src/armodel/parser/abstract_arxml_parser.py:raiseError", "src/armodel/writer/abstract_arxml_writer.py:notImplemented"]}
{"id": "C46", "title": "Every concrete class can be constructed", "statement": "Calling a model class with (parent, short_name) for named classes, without arguments for all others, either raises TypeError because the class declares itself abstract, or yields an object whose parent and short name are the ones given; no constructor fails half-way through its chain of base class constructors.", "quantifier": "every class of armodel.models, every argument", "why_tests_cant": "1064 classes with cooperative multiple inheritance; a constructor that passes the wrong number of arguments on fails only when that class is used", "anchors": ["src/armodel/models/M2/AUTOSARTemplates/GenericStructure/GeneralTemplateClasses/Identifiable.py:Referrable.__init__", "src/armodel/models/M2/AUTOSARTemplates/BswModuleTemplate/BswBehavior/BswInterruptEvent.py:BswInterruptEvent.__init__"]}
{"id": "C47", "title": "Getters always answer", "statement": "On an object that was constructed and then changed by any sequence of setter and add calls, every getter that returns an attribute answers with the current value of this attribute and never raises AttributeError.", "quantifier": "every class, every getter, every history of calls", "why_tests_cant": "an attribute that a getter reads but no constructor of the class chain sets is only noticed when that getter is called first", "anchors": ["src/armodel/models/M2/AUTOSARTemplates/ECUCDescriptionTemplate.py:EcucInstanceReferenceValue", "src/armodel/models/M2/AUTOSARTemplates/GenericStructure/GeneralTemplateClasses/Identifiable.py"]}
{"id": "C48", "title": "addX appends to the list returned by getXs", "statement": "On any reachable object, addX(v) with v not None makes getXs() return the previous list with v appended at the end (a few methods skip a value already listed) and changes no other attribute; None is ignored.", "quantifier": "every class, every add method, every history of calls", "why_tests_cant": "394 methods on objects with arbitrary histories; appending to a wrong list is invisible in a test that only looks at one attribute", "anchors": ["src/armodel/models/M2/AUTOSARTemplates/SystemTemplate/Fibex/Fibex4Multiplatform.py:PduMappingDefaultValue.addDefaultValueElements", "src/armodel/models/M2/AUTOSARTemplates/ECUCDescriptionTemplate.py:EcucValueCollection.addEcucValueRef"]}
{"id": "C49", "title": "A setter stores what its getter returns", "statement": "Every setX that does not guard against None stores its argument, None included, so that getX of the same object returns exactly it; no other attribute changes. Together with C19 this covers every setter of every class but three names.", "quantifier": "every class, every setter, every value, every prior object state", "why_tests_cant": "607 setters inherited into more than two thousand (class, setter) pairs; a getter returning another attribute with the same default is invisible in most tests", "anchors": ["src/armodel/models:set* and get* methods", "src/armodel/models/M2/AUTOSARTemplates/ECUCDescriptionTemplate.py:EcucParameterValue.setDefinitionRef"]}
{"id": "C50", "title": "format-xml keeps the content and gives a normal form", "statement": "For every file whose elements hold either text or child elements, format-xml writes a file with the same tags, attributes (namespace declarations first), child elements in order and texts; formatting its output again changes nothing; two files are formatted to the same text exactly when they have the same content.", "quantifier": "every well-formed input text within the described domain, whatever its layout", "why_tests_cant": "layouts, escapes and lines to drop are unbounded; a line dropped or kept wrongly shows only for particular texts", "anchors": ["src/armodel/cli/format_xml_cli.py:perform_format", "src/armodel/cli/format_xml_cli.py:patch_xml"]}
{"id": "C51", "title": "An object keeps the attributes its constructor gave it", "statement": "Whatever set and add methods are called, an object has exactly the attributes a new object of its class has: no method forgets to declare one, creates one or deletes one.", "quantifier": "every class, every constructor argument, every sequence of set and add calls", "why_tests_cant": "a setter assigning a misspelt attribute succeeds silently in Python; call sequences over all classes are unbounded", "anchors": ["src/armodel/models:__init__, set* and add* methods", "src/armodel/models/M2/AUTOSARTemplates/ECUCDescriptionTemplate.py:EcucInstanceReferenceValue"]}
{"id": "C52", "title": "arxml-dump lists every package", "statement": "arxml-dump prints a line for every package of the document, indented by two blanks per level, and for nothing else, once each.", "quantifier": "every document built by any history of API calls", "why_tests_cant": "package trees are unbounded in depth and width; repetition grows with the depth", "anchors": ["src/armodel/cli/arxml_dump_cli.py:dump_ar_package"]}
{"id": "C53", "title": "connector2xlsx reports the connectors", "statement": "For every composition of a document, connector2xlsx writes one row per assembly connector and one per delegation connector with the components and ports it joins, sorted by name.", "quantifier": "every composition reached by API calls or by a spreadsheet update", "why_tests_cant": "the attributes read by the report and those set by the reader differ; only a document with connectors shows it, and which documents fail is a statement about all of them", "anchors": ["src/armodel/report/connector_xls_report.py:ConnectorXlsReport", "src/armodel/parser/connector_xlsx_parser.py:_updateCompositionSwComponent"]}
{"id": "C54", "title": "Connector spreadsheets are read by column titles", "statement": "connector-update takes the rows of every sheet named '<composition> - AC' or '- DC' to that composition, finds the columns by their titles whatever their order, refuses a sheet that lacks a column, ignores all other sheets, and reads back exactly the rows connector2xlsx writes.", "quantifier": "every workbook, any number of sheets, rows, columns and column orders", "why_tests_cant": "column orders, sheet names and sheet sequences are unbounded; state kept from one sheet to the next shows only for particular sequences", "anchors": ["src/armodel/parser/excel_parser.py:getColumnTitles", "src/armodel/parser/excel_parser.py:checkColumnTitles", "src/armodel/parser/connector_xlsx_parser.py:ConnectorXlsReader.read", "src/armodel/report/connector_xls_report.py:ConnectorXlsReport"]}
{"id": "C55", "title": "Loading ends, and only in known ways", "statement": "Loading any well-formed XML tree terminates: the result is a document all of whose objects have all attributes of their classes, or one of ValueError, AttributeError, TypeError, NotImplementedError (without the warning option) and UnboundLocalError (with it); never KeyError or an endless recursion. AttributeError occurs only for documents with HW-ATTRIBUTE-LITERAL-DEF, BULK-NV-BLOCK or SENDER-RECEIVER-TO-SIGNAL-MAPPING elements, TypeError only for documents with an empty SHORT-NAME.", "quantifier": "every XML tree of any depth, width, tags, attributes and texts; both modes", "why_tests_cant": "absence of an exception over all documents is a statement about every path through some 950 reader functions and every value they pass to each other", "anchors": ["src/armodel/parser/arxml_parser.py:ARXMLParser.load", "src/armodel/parser/arxml_parser.py:getValueSpecification", "src/armodel/parser/arxml_parser.py:readHwAttributeLiteralDef", "src/armodel/parser/arxml_parser.py:readBulkNvDataDescriptor"]}
{"id": "C56", "title": "What was loaded can be saved", "statement": "Saving a document that was loaded terminates and succeeds with the warning option; without it the only exception is NotImplementedError. Exceptions to this: documents with an empty SHORT-NAME (TypeError while sorting), with MODE-SWITCH-POINT elements without MODE-GROUP-IREF (AttributeError).", "quantifier": "every XML tree that loads, both modes of loading and of saving, every formatting of floats", "why_tests_cant": "needs every combination of present and absent optional content in every class; a writer that forgets one None test fails only for documents lacking that one element", "anchors": ["src/armodel/writer/arxml_writer.py:ARXMLWriter.save", "src/armodel/writer/arxml_writer.py:writeModeSwitchPointModeGroupIRef", "src/armodel/models/M2/AUTOSARTemplates/GenericStructure/GeneralTemplateClasses/ARPackage.py:getARPackages"]}
{"id": "C57", "title": "arxml-format keeps the document", "statement": "arxml-format writes, for every file it can read, exactly one output, which loads to the same document; with --remove-admin-data to the same document without the administrative data of the document, its packages and their elements, everything else unchanged; formatting the output again, or a file the library saved, changes nothing; --unescape-entities does not change what the output loads to when no attribute value contains a double quote; -w makes the command go on where content is not supported.", "quantifier": "every input text that loads to a document of the round-trip domain with printable texts, all options", "why_tests_cant": "documents and layouts are unbounded; data left behind or removed in the wrong place shows only for particular nestings of packages and elements", "anchors": ["src/armodel/cli/arxml_format_cli.py:perform_format", "src/armodel/transformer/admin_data.py:AdminDataTransformer"]}
{"id": "C58", "title": "Loaded elements are found by their path", "statement": "After loading a file, AUTOSAR.find with an AUTOSAR path returns an object exactly when the object is reached in the document along the short names of the path, and then that object and no other: two objects kept by the same parent never share a short name. With a DEST, find returns the object exactly when the DEST is the kind of the object; a reference whose DEST is the tag of the element it points to is resolved.", "quantifier": "every document that loads, every path, every reference", "why_tests_cant": "documents and paths are unbounded, and whether an object is entered in the index of its parent depends on which of the 366 creation methods the reader used for it", "anchors": ["src/armodel/models/M2/AUTOSARTemplates/AutosarTopLevelStructure/__init__.py:AbstractAUTOSAR.find", "src/armodel/models/M2/AUTOSARTemplates/AutosarTopLevelStructure/__init__.py:AbstractAUTOSAR.getDestType", "src/armodel/models/M2/AUTOSARTemplates/GenericStructure/GeneralTemplateClasses/Identifiable.py:CollectableElement.addElement"]}
{"id": "C59", "title": "The elements of a file are in the loaded document", "statement": "After loading, every AR-PACKAGE and every element of a readable kind is represented by exactly one object: in the attribute for it, in the order of the file, with its SHORT-NAME and the class for its tag, and the same holds for the elements below it wherever the reader has a class for them; the attributes hold no other objects. General content (LONG-NAME, DESC, INTRODUCTION, ADMIN-DATA) of every identifiable element is kept.", "quantifier": "every document that loads, every element in it, every depth", "why_tests_cant": "the reader has over 500 places where elements become objects; a forgotten branch, find instead of findall, or a wrong path loses elements silently and only in files that contain them", "anchors": ["src/armodel/parser/arxml_parser.py:ARXMLParser.load", "src/armodel/parser/arxml_parser.py:readARPackageElements", "src/armodel/parser/arxml_parser.py:readIdentifiable", "src/armodel/parser/arxml_parser.py:readModeDeclarationGroupModeDeclaration"]}
{"id": "C60", "title": "The texts and references of a file are in the loaded document", "statement": "After loading, each object holds what its element says: every attribute for a text, number, time, boolean or reference is the value of the element called like the attribute (a reference with BASE, DEST and text, a literal with T and UUID), None when the file has no such element; every attribute for a list has one value per element in the order of the file; T and UUID of the element become timestamp and uuid; CATEGORY of every identifiable element is kept; the same content gives the same values wherever it stands.", "quantifier": "every document that loads, every element in it, every depth, 1054 (class, attribute) pairs", "why_tests_cant": "the reader has over a thousand lines each naming one tag for one attribute; a misspelt or copied tag, or a line left out, gives None for that attribute only and no error", "anchors": ["src/armodel/parser/arxml_parser.py:ARXMLParser", "src/armodel/parser/abstract_arxml_parser.py:readARObjectAttributes", "src/armodel/parser/abstract_arxml_parser.py:getChildElementOptionalRefType", "src/armodel/parser/arxml_parser.py:getTransformationComSpecProps", "src/armodel/parser/arxml_parser.py:readEcucDestinationUriDefSet"]}
{"id": "C61", "title": "The listing tools print each element of the file once, sorted by name", "statement": "swc-list prints for a file exactly one line for each software component type in any of its packages, at any depth (only the compositions when --filter CompositionSwComponent is given), sorted by short name, as short name or (--format long) as the path of the element; system-signal does so for the system signals (--format full); memory-section is to print memory sections.", "quantifier": "every file that loads, every nesting of packages, every combination of the options", "why_tests_cant": "a file in the tests has one arrangement of packages; a recursion that stops at one depth, skips the elements of packages with sub-packages, or a class missing from the hierarchy drops lines only for other arrangements", "anchors": ["src/armodel/lib/sw_component.py:SwComponentAnalyzer", "src/armodel/lib/system_signal.py:SystemSignalAnalyzer", "src/armodel/cli/swc_list_cli.py:main", "src/armodel/cli/system_signal_cli.py:main", "src/armodel/cli/memory_section_cli.py:main"]}
{"id": "C62", "title": "The registries know what a file declares", "statement": "After a file is loaded into a new document: convertToImplementationDataType and convertToApplicationDataType lead from a type to the object at the path named by its last DATA-TYPE-MAP in file order, getBehavior and getImplementation from an implementation to its behaviour and back; an unmapped type raises IndexError, an implementation without BEHAVIOR-REF has no behaviour; getSystems lists one system for each SYSTEM name, sorted; the composition registry has exactly the names of the COMPOSITION-SW-COMPONENT-TYPE elements; the root composition is the first of the file. The last three also hold for several files loaded one after the other.", "quantifier": "every XML tree that loads, at any depth of packages, in both modes", "why_tests_cant": "the registries are filled as a side effect of reading functions spread over the parser, in file order, across all packages; a test sees one arrangement of maps and elements", "anchors": ["src/armodel/parser/arxml_parser.py:readDataTypeMaps", "src/armodel/parser/arxml_parser.py:readSwcImplementation", "src/armodel/parser/arxml_parser.py:readBswImplementation", "src/armodel/parser/arxml_parser.py:readCompositionSwComponentType", "src/armodel/parser/arxml_parser.py:readSystem", "src/armodel/parser/arxml_parser.py:readRootSwCompositionPrototype", "src/armodel/models/M2/AUTOSARTemplates/AutosarTopLevelStructure/__init__.py:AbstractAUTOSAR"]}
{"id": "C63", "title": "Loading invents nothing", "statement": "Everything a loaded document holds stands in the file: every reference has the text, DEST and BASE of one element; every text is a text or an attribute value of the file (or the word the reader keeps for a BINDING-TIME or INTERVAL-TYPE value, or empty); every number and boolean has the value setValue gives for a text of the file; every limit has the text and INTERVAL-TYPE of one element; every short name is the text of a SHORT-NAME element, every UUID and timestamp an attribute UUID or T. Saving the document again writes no text of its own (but for the word None, which is refuted by an empty value).", "quantifier": "every XML tree that loads, every value held anywhere in the document, in both modes", "why_tests_cant": "a reader that leaks a value between elements, keeps a default or a stale variable shows only for particular combinations of elements in the 9000 lines of readers; the absence of foreign values is a statement about all files", "anchors": ["src/armodel/parser/arxml_parser.py:load", "src/armodel/parser/abstract_arxml_parser.py:getChildElementOptionalRefType", "src/armodel/parser/abstract_arxml_parser.py:readARObjectAttributes", "src/armodel/parser/abstract_arxml_parser.py:getChildElementFloatValueList", "src/armodel/writer/abstract_arxml_writer.py:setChildElementOptionalFloatValue", "src/armodel/models/M2/AUTOSARTemplates/GenericStructure/GeneralTemplateClasses/PrimitiveTypes.py:ARFloat.__str__"]}
