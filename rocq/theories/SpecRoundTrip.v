(** What the round-trip theorems C35-C38 say: saving, loading, single elements of a package. *)
From Coq Require Import String Ascii List Bool Floats.SpecFloat.
From Verif Require Import PyBase Primitives Xml Leaf Ir Access WriterCode ReaderCode IrSem Domain SpecDomain.
Import ListNotations.
Open Scope string_scope.
Open Scope list_scope.

(** arxml_writer.py:9630-9631 save: the children of the root element.  The attributes of the
    root (xmlns, schema location, 9623-9628) are not part of this model. *)
Definition save_code : list wi :=
  [WCall "setAdminData" None [GM "getAdminData"]; WCall "writeARPackages" None [GM "getARPackages"]].
(** arxml_parser.py:9421-9422 load, on the root element.  getAUTOSARInfo (9420) reads the schema
    location only and document.reload() (9424) rebuilds the index of C01-C03; both are left out. *)
Definition load_code : list ri :=
  [RPut "setAdminData" (VGetX "getAdminData" (Some (TLit "ADMIN-DATA"))); RCall "readARPackages" None].

Section Runs.
Context (repr : spec_float -> string) (warn : bool).
(** [written code u e]: running writer code for object [u] on an empty element ends normally in [e] *)
Definition written (code : list wi) (u : val) (e : elem) : Prop := exists n, wrun repr warn n code "" u elem0 = Done e.
(** [read code x o u]: running reader code on element [x] ends normally, turning object [o] into [u] *)
Definition read (code : list ri) (x : xml) (o u : val) : Prop := exists n, rrun warn n code "" x VNone o = Done u.

(** the root element that [save] serialises for document [u] *)
Definition saved (u : val) (x : xml) : Prop := exists e, written save_code u e /\ x = to_xml "AUTOSAR" e.
(** [load] of root element [x] into a new document *)
Definition loaded (x : xml) (u : val) : Prop := read load_code x (init "AUTOSAR") u.
End Runs.

(** a document with given administrative data and packages *)
Definition document (a : val) (ps : list val) : val :=
  set_field (set_field (init "AUTOSAR") "adminData" a) "arPackages" (VList ps).
(** a package with a name and elements, everything else as constructed *)
Definition package (nm : string) (els : list val) : val :=
  set_field (named_init "ARPackage" (VStr nm)) "elements" (VList els).

(** a tree of packages: name, packages below, elements *)
Inductive tree := Tree (nm : string) (subs : list tree) (els : list val).
Fixpoint tree_val (t : tree) : val :=
  match t with Tree nm subs els => set_field (package nm els) "arPackages" (VList (map tree_val subs)) end.

(** administrative data with one special data group; a group with a GID and groups inside *)
Definition literal (c s : string) : val := VLeaf (LLit c (mkLit None None (Some s))).
Definition group (gid : string) (inner : list val) : val :=
  set_field (set_field (init "Sdg") "gid" (literal "NameToken" gid))
            "sdgContentsType" match inner with [] => VNone | _ => set_field (init "SdgContents") "sdg" (VList inner) end.
Definition admin_data (groups : list val) : val := set_field (init "AdminData") "sdgs" (VList groups).
Fixpoint nested_group (n : nat) : val :=
  match n with 0 => group "innermost" [] | S n => group "outer" [nested_group n; group "other" []] end.

(** the element kinds of a package for which C36 and C37 are shown: tag and class, in the order
    of arxml_parser.py:9023-9383 readARPackageElements.  Not in the list although readable:
    TRIGGER-INTERFACE, ECUC-VALUE-COLLECTION, MODE-DECLARATION-MAPPING-SET. *)
Definition package_elements : list (string * string) := [
  ("COMPOSITION-SW-COMPONENT-TYPE", "CompositionSwComponentType");
  ("DATA-PROTOTYPE-GROUP", "DataPrototypeGroup");
  ("RUNNABLE-ENTITY-GROUP", "RunnableEntityGroup");
  ("CONSISTENCY-NEEDS", "ConsistencyNeeds");
  ("COMPLEX-DEVICE-DRIVER-SW-COMPONENT-TYPE", "ComplexDeviceDriverSwComponentType");
  ("SWC-IMPLEMENTATION", "SwcImplementation");
  ("APPLICATION-PRIMITIVE-DATA-TYPE", "ApplicationPrimitiveDataType");
  ("APPLICATION-RECORD-DATA-TYPE", "ApplicationRecordDataType");
  ("SW-BASE-TYPE", "SwBaseType");
  ("COMPU-METHOD", "CompuMethod");
  ("CONSTANT-SPECIFICATION", "ConstantSpecification");
  ("DATA-CONSTR", "DataConstr");
  ("END-TO-END-PROTECTION-SET", "EndToEndProtectionSet");
  ("SENDER-RECEIVER-INTERFACE", "SenderReceiverInterface");
  ("UNIT", "Unit");
  ("BSW-MODULE-DESCRIPTION", "BswModuleDescription");
  ("BSW-MODULE-ENTRY", "BswModuleEntry");
  ("SWC-BSW-MAPPING", "SwcBswMapping");
  ("BSW-IMPLEMENTATION", "BswImplementation");
  ("IMPLEMENTATION-DATA-TYPE", "ImplementationDataType");
  ("CLIENT-SERVER-INTERFACE", "ClientServerInterface");
  ("APPLICATION-SW-COMPONENT-TYPE", "ApplicationSwComponentType");
  ("ECU-ABSTRACTION-SW-COMPONENT-TYPE", "EcuAbstractionSwComponentType");
  ("APPLICATION-ARRAY-DATA-TYPE", "ApplicationArrayDataType");
  ("SW-RECORD-LAYOUT", "SwRecordLayout");
  ("SW-ADDR-METHOD", "SwAddrMethod");
  ("SERVICE-SW-COMPONENT-TYPE", "ServiceSwComponentType");
  ("SENSOR-ACTUATOR-SW-COMPONENT-TYPE", "SensorActuatorSwComponentType");
  ("NV-BLOCK-SW-COMPONENT-TYPE", "NvBlockSwComponentType");
  ("SERVICE-PROXY-SW-COMPONENT-TYPE", "ServiceProxySwComponentType");
  ("DATA-TYPE-MAPPING-SET", "DataTypeMappingSet");
  ("MODE-DECLARATION-GROUP", "ModeDeclarationGroup");
  ("MODE-SWITCH-INTERFACE", "ModeSwitchInterface");
  ("SWC-TIMING", "SwcTiming");
  ("LIN-CLUSTER", "LinCluster");
  ("LIN-UNCONDITIONAL-FRAME", "LinUnconditionalFrame");
  ("NM-PDU", "NmPdu");
  ("N-PDU", "NPdu");
  ("DCM-I-PDU", "DcmIPdu");
  ("SECURED-I-PDU", "SecuredIPdu");
  ("NM-CONFIG", "NmConfig");
  ("CAN-TP-CONFIG", "CanTpConfig");
  ("LIN-TP-CONFIG", "LinTpConfig");
  ("SYSTEM", "System");
  ("ECU-INSTANCE", "EcuInstance");
  ("GATEWAY", "Gateway");
  ("I-SIGNAL-I-PDU-GROUP", "ISignalIPduGroup");
  ("CAN-CLUSTER", "CanCluster");
  ("CAN-FRAME", "CanFrame");
  ("I-SIGNAL", "ISignal");
  ("I-SIGNAL-GROUP", "ISignalGroup");
  ("I-SIGNAL-I-PDU", "ISignalIPdu");
  ("SYSTEM-SIGNAL", "SystemSignal");
  ("SYSTEM-SIGNAL-GROUP", "SystemSignalGroup");
  ("SIGNAL-SERVICE-TRANSLATION-PROPS-SET", "SignalServiceTranslationPropsSet");
  ("ECUC-MODULE-CONFIGURATION-VALUES", "EcucModuleConfigurationValues");
  ("PHYSICAL-DIMENSION", "PhysicalDimension");
  ("PARAMETER-INTERFACE", "ParameterInterface");
  ("ETHERNET-FRAME", "GenericEthernetFrame");
  ("LIFE-CYCLE-INFO-SET", "LifeCycleInfoSet");
  ("FLAT-MAP", "FlatMap");
  ("PORT-INTERFACE-MAPPING-SET", "PortInterfaceMappingSet");
  ("ETHERNET-CLUSTER", "EthernetCluster");
  ("DIAGNOSTIC-CONNECTION", "DiagnosticConnection");
  ("DIAGNOSTIC-SERVICE-TABLE", "DiagnosticServiceTable");
  ("DOCUMENTATION", "Documentation");
  ("MULTIPLEXED-I-PDU", "MultiplexedIPdu");
  ("USER-DEFINED-I-PDU", "UserDefinedIPdu");
  ("USER-DEFINED-PDU", "UserDefinedPdu");
  ("GENERAL-PURPOSE-PDU", "GeneralPurposePdu");
  ("GENERAL-PURPOSE-I-PDU", "GeneralPurposeIPdu");
  ("SECURE-COMMUNICATION-PROPS-SET", "SecureCommunicationPropsSet");
  ("SO-AD-ROUTING-GROUP", "SoAdRoutingGroup");
  ("DO-IP-TP-CONFIG", "DoIpTpConfig");
  ("HW-ELEMENT", "HwElement");
  ("HW-CATEGORY", "HwCategory");
  ("HW-TYPE", "HwType");
  ("FLEXRAY-FRAME", "FlexrayFrame");
  ("FLEXRAY-CLUSTER", "FlexrayCluster");
  ("DATA-TRANSFORMATION-SET", "DataTransformationSet");
  ("E-2-E-PROFILE-COMPATIBILITY-PROPS", "E2EProfileCompatibilityProps");
  ("COLLECTION", "Collection");
  ("KEYWORD-SET", "KeywordSet");
  ("PORT-PROTOTYPE-BLUEPRINT", "PortPrototypeBlueprint");
  ("ECUC-MODULE-DEF", "EcucModuleDef");
  ("ECUC-DEFINITION-COLLECTION", "EcucDefinitionCollection");
  ("ECUC-DESTINATION-URI-DEF-SET", "EcucDestinationUriDefSet");
  ("SW-SYSTEMCONST", "SwSystemconst");
  ("SW-SYSTEMCONSTANT-VALUE-SET", "SwSystemconstantValueSet");
  ("PREDEFINED-VARIANT", "PredefinedVariant");
  ("POST-BUILD-VARIANT-CRITERION", "PostBuildVariantCriterion");
  ("NV-DATA-INTERFACE", "NvDataInterface");
  ("MC-FUNCTION", "McFunction");
  ("MC-GROUP", "McGroup")].

(** all element kinds accepted by the reader *)
Definition readable_elements : list (string * string) :=
  package_elements ++ [("TRIGGER-INTERFACE", "TriggerInterface"); ("ECUC-VALUE-COLLECTION", "EcucValueCollection");
                       ("MODE-DECLARATION-MAPPING-SET", "ModeDeclarationMappingSet")].

(** objects of these kinds *)
Definition elements_ok (us : list val) : Prop :=
  Forall (fun u => ok u /\ exists t c, class_of u = Some c /\ In (t, c) package_elements) us.

(** names are not empty, sibling packages are in the order of their names, no name is used twice
    below a package *)
Definition tree_name (t : tree) : string := match t with Tree nm _ _ => nm end.
Inductive tree_good : tree -> Prop :=
| tree_good_node : forall nm subs els, nm <> "" -> Forall tree_good subs -> elements_ok els ->
    py_sorted tree_name subs = subs -> NoDup (map tree_name subs ++ flat_map name_of els) ->
    tree_good (Tree nm subs els).

(** arxml_writer.py:9594-9601 writeARPackage, 9312-9510 writeARPackageElement;
    arxml_parser.py:9395-9401 readARPackage, 9023-9383 readARPackageElements *)
Definition write_package : list wi := [WCall "writeARPackage" None []].
Definition read_package : list ri := [RCall "readARPackage" None].
Definition write_element : list wi := [WCall "writeARPackageElement" None []].
Definition read_elements : list ri := [RCall "readARPackageElements" None].

(** ** Small documents *)
Definition tagged (tag : string) (kids : list xml) : xml := El tag [] None kids.
Definition text_of (tag text : string) : xml := El tag [] (Some text) [].
Definition ref_to (tag dest path : string) : xml := El tag [("DEST", dest)] (Some path) [].
Definition named_xml (tag nm : string) (kids : list xml) : xml := tagged tag (text_of "SHORT-NAME" nm :: kids).
(** a root element with one package P *)
Definition package_xml (kids : list xml) : xml := tagged "AUTOSAR" [tagged "AR-PACKAGES" [named_xml "AR-PACKAGE" "P" kids]].
Definition elements_xml (kids : list xml) : xml := package_xml [tagged "ELEMENTS" kids].

Section Loss.
Context (repr : spec_float -> string) (warn : bool).
(** the document loads, is saved, loads again, and is not the same *)
Definition altered (x : xml) : Prop := exists u y u',
  loaded warn x u /\ saved repr warn u y /\ loaded warn (reload 0 y) u' /\ u' <> u.
(** document [u] is saved and loads again, and is not the same *)
Definition changed (u : val) : Prop := exists y u',
  saved repr warn u y /\ loaded warn (reload 0 y) u' /\ u' <> u.
(** the document loads, saving raises [e] *)
Definition save_raises (x : xml) (e : exn) : Prop := exists u n,
  loaded warn x u /\ wrun repr warn n save_code "" u elem0 = Exc e.
(** the document loads and is saved, loading again raises [e] *)
Definition reload_raises (x : xml) (e : exn) : Prop := exists u y n,
  loaded warn x u /\ saved repr warn u y /\ rrun warn n load_code "" (reload 0 y) VNone (init "AUTOSAR") = Exc e.
End Loss.

Definition reference_base : xml :=
  package_xml [tagged "REFERENCE-BASES" [tagged "REFERENCE-BASE" [text_of "SHORT-LABEL" "b"; text_of "IS-DEFAULT" "false"; text_of "IS-GLOBAL" "true"]]].
Definition contained_props : xml :=
  elements_xml [named_xml "N-PDU" "n" [tagged "CONTAINED-I-PDU-PROPS" [text_of "TRIGGER" "ALWAYS"]]].
Definition connector_mapping : xml :=
  elements_xml [named_xml "COMPOSITION-SW-COMPONENT-TYPE" "c" [tagged "CONNECTORS" [named_xml "DELEGATION-SW-CONNECTOR" "d" [
    ref_to "MAPPING-REF" "PORT-INTERFACE-MAPPING" "/m";
    tagged "INNER-PORT-IREF" [tagged "P-PORT-IN-COMPOSITION-INSTANCE-REF" [ref_to "TARGET-P-PORT-REF" "P-PORT-PROTOTYPE" "/p"]];
    ref_to "OUTER-PORT-REF" "P-PORT-PROTOTYPE" "/o"]]]].
Definition required_trigger : xml :=
  elements_xml [named_xml "BSW-MODULE-DESCRIPTION" "m" [tagged "REQUIRED-TRIGGERS" [named_xml "TRIGGER" "t" []]]].
Definition behavior (kids : list xml) : xml :=
  elements_xml [named_xml "APPLICATION-SW-COMPONENT-TYPE" "a" [tagged "INTERNAL-BEHAVIORS" [named_xml "SWC-INTERNAL-BEHAVIOR" "b" kids]]].
Definition triggering_point : xml :=
  behavior [tagged "RUNNABLES" [named_xml "RUNNABLE-ENTITY" "r" [tagged "INTERNAL-TRIGGERING-POINTS" [named_xml "INTERNAL-TRIGGERING-POINT" "t" []]]]].
Definition trigger_event : xml := behavior [tagged "EVENTS" [named_xml "INTERNAL-TRIGGER-OCCURRED-EVENT" "e" []]].
Definition ram_block : xml :=
  elements_xml [named_xml "NV-BLOCK-SW-COMPONENT-TYPE" "a" [tagged "NV-BLOCK-DESCRIPTORS" [named_xml "NV-BLOCK-DESCRIPTOR" "b" [
    named_xml "RAM-BLOCK" "r" [tagged "INIT-VALUE" [tagged "NUMERICAL-VALUE-SPECIFICATION" [text_of "VALUE" "0x1"]]]]]]].
Definition empty_scale : xml :=
  elements_xml [named_xml "COMPU-METHOD" "c" [tagged "COMPU-INTERNAL-TO-PHYS" [tagged "COMPU-SCALES" [tagged "COMPU-SCALE" []]]]].
Definition trigger_interface : xml := elements_xml [named_xml "TRIGGER-INTERFACE" "t" []].
Definition value_collection : xml := elements_xml [named_xml "ECUC-VALUE-COLLECTION" "v" []].
Definition mapping_set : xml :=
  elements_xml [named_xml "MODE-DECLARATION-MAPPING-SET" "s" [tagged "MODE-DECLARATION-MAPPINGS" [named_xml "MODE-DECLARATION-MAPPING" "m" []]]].

(** administrative data with a group that holds one SD element *)
Definition sd_in_group (fields : list (string * val)) : val :=
  document (admin_data [set_field (group "g" []) "sdgContentsType"
    (set_field (init "SdgContents") "sd" (VList [fold_left (fun o p => set_field o (fst p) (snd p)) fields (init "Sd")]))]) [].
Definition sd_space : val := sd_in_group [("value", literal "VerbatimStringPlain" "text"); ("xmlSpace", literal "XmlSpaceEnum" "preserve")].
Definition sd_blank : val := sd_in_group [("value", literal "VerbatimStringPlain" " ")].
