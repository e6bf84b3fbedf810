(** What C59 says: which elements of a file must be found again in the loaded document. *)
From Coq Require Import String List Bool.
From Verif Require Import PyBase Primitives Xml Leaf ClassTable Ir IrSem SpecRoundTrip.
Import ListNotations.
Open Scope string_scope.
Open Scope list_scope.

(** a way from an element to elements below it: all at a path, or the first one *)
Inductive step := All (path : string) | First (path : string).
Fixpoint select (st : list step) (x : xml) : list xml :=
  match st with
  | [] => [x]
  | All p :: r => flat_map (select r) (findall p x)
  | First p :: r => match find p x with Some y => select r y | None => [] end
  end.

(** tags and the classes they stand for; "*" is any tag *)
Definition kinds := list (string * string).
Fixpoint pick {A} (ks : list (string * A)) (t : string) : option A :=
  match ks with
  | [] => None
  | (k, a) :: r => if String.eqb k t || String.eqb k "*" then Some a else pick r t
  end.
Definition picked {A} (st : list step) (ks : list (string * A)) (x : xml) : list xml :=
  filter (fun y => match pick ks (xtag y) with Some _ => true | None => false end) (select st x).

(** objects of class [r_class] (or of a class derived from it, except the classes of [r_except]) hold
    in attribute [r_attr] one object for every element at [r_path] with a tag of [r_kinds] *)
Record row := mkRow { r_class : string; r_except : list string; r_attr : string; r_path : list step; r_kinds : kinds }.
Definition applies (r : row) (c : string) : bool := isinst c (r_class r) && negb (existsb (String.eqb c) (r_except r)).

(** classes of named objects whose reader methods never call readIdentifiable (armodel/parser/arxml_parser.py) *)
Definition bare : list string :=
  ["ApplicationEndpoint"; "BswAsynchronousServerCallReturnsEvent"; "BswBackgroundEvent"; "BswDataReceivedEvent"; "BswExternalTriggerOccurredEvent";
   "BswInternalTriggerOccurredEvent"; "BswModeManagerErrorEvent"; "BswModeSwitchEvent"; "BswModeSwitchedAckEvent"; "BswModuleDependency";
   "BswOperationInvokedEvent"; "BswServiceDependencyIdent"; "BswTimingEvent"; "EcucDestinationUriDefSet"; "ExclusiveArea";
   "ExternalTriggeringPointIdent"; "InternalTriggeringPoint"; "McDataInstance"; "ModeDeclaration"; "ModeSwitchPoint"; "ModeTransition";
   "RptComponent"; "RptExecutableEntity"; "RptExecutableEntityEvent"; "RptExecutionContext"; "RptServicePoint"; "VlanConfig"].

Definition unread : list string := ["longName"; "desc"; "introduction"; "adminData"].

(** The elements the library reads into objects. The attribute "elements/K" of a class stands for the
    objects of kind K in [self.elements] (Ir.v). *)
Definition kept_rows : list row := [
  mkRow "ARPackage" [] "adminData" [First "ADMIN-DATA"]
    [("*", "AdminData")];
  mkRow "ARPackage" [] "arPackages" [All "AR-PACKAGES/*"]
    [("AR-PACKAGE", "ARPackage")];
  mkRow "ARPackage" [] "desc" [First "DESC"]
    [("*", "MultiLanguageOverviewParagraph")];
  mkRow "ARPackage" [] "elements" [All "ELEMENTS/*"]
        [("COMPOSITION-SW-COMPONENT-TYPE", "CompositionSwComponentType"); ("DATA-PROTOTYPE-GROUP", "DataPrototypeGroup"); ("RUNNABLE-ENTITY-GROUP",
     "RunnableEntityGroup"); ("CONSISTENCY-NEEDS", "ConsistencyNeeds"); ("COMPLEX-DEVICE-DRIVER-SW-COMPONENT-TYPE",
     "ComplexDeviceDriverSwComponentType"); ("SWC-IMPLEMENTATION", "SwcImplementation"); ("APPLICATION-PRIMITIVE-DATA-TYPE",
     "ApplicationPrimitiveDataType"); ("APPLICATION-RECORD-DATA-TYPE", "ApplicationRecordDataType"); ("SW-BASE-TYPE", "SwBaseType"); ("COMPU-METHOD",
     "CompuMethod"); ("CONSTANT-SPECIFICATION", "ConstantSpecification"); ("DATA-CONSTR", "DataConstr"); ("END-TO-END-PROTECTION-SET",
     "EndToEndProtectionSet"); ("SENDER-RECEIVER-INTERFACE", "SenderReceiverInterface"); ("UNIT", "Unit"); ("BSW-MODULE-DESCRIPTION",
     "BswModuleDescription"); ("BSW-MODULE-ENTRY", "BswModuleEntry"); ("SWC-BSW-MAPPING", "SwcBswMapping"); ("BSW-IMPLEMENTATION",
     "BswImplementation"); ("IMPLEMENTATION-DATA-TYPE", "ImplementationDataType"); ("CLIENT-SERVER-INTERFACE", "ClientServerInterface");
     ("APPLICATION-SW-COMPONENT-TYPE", "ApplicationSwComponentType"); ("ECU-ABSTRACTION-SW-COMPONENT-TYPE", "EcuAbstractionSwComponentType");
     ("APPLICATION-ARRAY-DATA-TYPE", "ApplicationArrayDataType"); ("SW-RECORD-LAYOUT", "SwRecordLayout"); ("SW-ADDR-METHOD", "SwAddrMethod");
     ("TRIGGER-INTERFACE", "TriggerInterface"); ("SERVICE-SW-COMPONENT-TYPE", "ServiceSwComponentType"); ("SENSOR-ACTUATOR-SW-COMPONENT-TYPE",
     "SensorActuatorSwComponentType"); ("NV-BLOCK-SW-COMPONENT-TYPE", "NvBlockSwComponentType"); ("SERVICE-PROXY-SW-COMPONENT-TYPE",
     "ServiceProxySwComponentType"); ("DATA-TYPE-MAPPING-SET", "DataTypeMappingSet"); ("MODE-DECLARATION-GROUP", "ModeDeclarationGroup");
     ("MODE-SWITCH-INTERFACE", "ModeSwitchInterface"); ("SWC-TIMING", "SwcTiming"); ("LIN-CLUSTER", "LinCluster"); ("LIN-UNCONDITIONAL-FRAME",
     "LinUnconditionalFrame"); ("NM-PDU", "NmPdu"); ("N-PDU", "NPdu"); ("DCM-I-PDU", "DcmIPdu"); ("SECURED-I-PDU", "SecuredIPdu"); ("NM-CONFIG",
     "NmConfig"); ("CAN-TP-CONFIG", "CanTpConfig"); ("LIN-TP-CONFIG", "LinTpConfig"); ("SYSTEM", "System"); ("ECU-INSTANCE", "EcuInstance");
     ("GATEWAY", "Gateway"); ("I-SIGNAL-I-PDU-GROUP", "ISignalIPduGroup"); ("CAN-CLUSTER", "CanCluster"); ("CAN-FRAME", "CanFrame"); ("I-SIGNAL",
     "ISignal"); ("I-SIGNAL-GROUP", "ISignalGroup"); ("I-SIGNAL-I-PDU", "ISignalIPdu"); ("SYSTEM-SIGNAL", "SystemSignal"); ("SYSTEM-SIGNAL-GROUP",
     "SystemSignalGroup"); ("SIGNAL-SERVICE-TRANSLATION-PROPS-SET", "SignalServiceTranslationPropsSet"); ("ECUC-VALUE-COLLECTION",
     "EcucValueCollection"); ("ECUC-MODULE-CONFIGURATION-VALUES", "EcucModuleConfigurationValues"); ("PHYSICAL-DIMENSION", "PhysicalDimension");
     ("PARAMETER-INTERFACE", "ParameterInterface"); ("ETHERNET-FRAME", "GenericEthernetFrame"); ("LIFE-CYCLE-INFO-SET", "LifeCycleInfoSet");
     ("FLAT-MAP", "FlatMap"); ("PORT-INTERFACE-MAPPING-SET", "PortInterfaceMappingSet"); ("ETHERNET-CLUSTER", "EthernetCluster");
     ("DIAGNOSTIC-CONNECTION", "DiagnosticConnection"); ("DIAGNOSTIC-SERVICE-TABLE", "DiagnosticServiceTable"); ("DOCUMENTATION", "Documentation");
     ("MULTIPLEXED-I-PDU", "MultiplexedIPdu"); ("USER-DEFINED-I-PDU", "UserDefinedIPdu"); ("USER-DEFINED-PDU", "UserDefinedPdu");
     ("GENERAL-PURPOSE-PDU", "GeneralPurposePdu"); ("GENERAL-PURPOSE-I-PDU", "GeneralPurposeIPdu"); ("SECURE-COMMUNICATION-PROPS-SET",
     "SecureCommunicationPropsSet"); ("SO-AD-ROUTING-GROUP", "SoAdRoutingGroup"); ("DO-IP-TP-CONFIG", "DoIpTpConfig"); ("HW-ELEMENT", "HwElement");
     ("HW-CATEGORY", "HwCategory"); ("HW-TYPE", "HwType"); ("FLEXRAY-FRAME", "FlexrayFrame"); ("FLEXRAY-CLUSTER", "FlexrayCluster");
     ("DATA-TRANSFORMATION-SET", "DataTransformationSet"); ("E-2-E-PROFILE-COMPATIBILITY-PROPS", "E2EProfileCompatibilityProps"); ("COLLECTION",
     "Collection"); ("KEYWORD-SET", "KeywordSet"); ("PORT-PROTOTYPE-BLUEPRINT", "PortPrototypeBlueprint"); ("MODE-DECLARATION-MAPPING-SET",
     "ModeDeclarationMappingSet"); ("ECUC-MODULE-DEF", "EcucModuleDef"); ("ECUC-DEFINITION-COLLECTION", "EcucDefinitionCollection");
     ("ECUC-DESTINATION-URI-DEF-SET", "EcucDestinationUriDefSet"); ("SW-SYSTEMCONST", "SwSystemconst"); ("SW-SYSTEMCONSTANT-VALUE-SET",
     "SwSystemconstantValueSet"); ("PREDEFINED-VARIANT", "PredefinedVariant"); ("POST-BUILD-VARIANT-CRITERION", "PostBuildVariantCriterion");
     ("NV-DATA-INTERFACE", "NvDataInterface"); ("MC-FUNCTION", "McFunction"); ("MC-GROUP", "McGroup")];
  mkRow "ARPackage" [] "introduction" [First "INTRODUCTION"]
    [("*", "DocumentationBlock")];
  mkRow "ARPackage" [] "longName" [First "LONG-NAME"]
    [("*", "MultilanguageLongName")];
  mkRow "ARPackage" [] "referenceBases" [All "REFERENCE-BASES/REFERENCE-BASE"]
    [("*", "ReferenceBase")];
  mkRow "AUTOSAR" [] "adminData" [First "ADMIN-DATA"]
    [("*", "AdminData")];
  mkRow "AUTOSAR" [] "arPackages" [All "AR-PACKAGES/*"]
    [("AR-PACKAGE", "ARPackage")];
  mkRow "AccessCountSet" [] "accessCounts" [All "ACCESS-COUNTS/ACCESS-COUNT"]
    [("*", "AccessCount")];
  mkRow "AdminData" [] "DocRevisions" [All "DOC-REVISIONS/*"]
    [("DOC-REVISION", "DocRevision")];
  mkRow "AdminData" [] "sdgs" [All "SDGS/*"]
    [("SDG", "Sdg")];
  mkRow "AdminData" [] "usedLanguages" [First "USED-LANGUAGES"]
    [("*", "MultiLanguagePlainText")];
  mkRow "AnalyzedExecutionTime" [] "bestCaseExecutionTime" [First "BEST-CASE-EXECUTION-TIME"]
    [("*", "MultidimensionalTime")];
  mkRow "AnalyzedExecutionTime" [] "worstCaseExecutionTime" [First "WORST-CASE-EXECUTION-TIME"]
    [("*", "MultidimensionalTime")];
  mkRow "ApplicationArrayDataType" [] "element" [First "ELEMENT"]
    [("*", "ApplicationArrayElement")];
  mkRow "ApplicationEndpoint" [] "consumedServiceInstances" [All "CONSUMED-SERVICE-INSTANCES/*"]
    [("CONSUMED-SERVICE-INSTANCE", "ConsumedServiceInstance")];
  mkRow "ApplicationEndpoint" [] "providedServiceInstances" [All "PROVIDED-SERVICE-INSTANCES/*"]
    [("PROVIDED-SERVICE-INSTANCE", "ProvidedServiceInstance")];
  mkRow "ApplicationEndpoint" [] "tpConfiguration" [First "TP-CONFIGURATION/*"]
    [("UDP-TP", "UdpTp"); ("TCP-TP", "TcpTp"); ("GENERIC-TP", "GenericTp")];
  mkRow "ApplicationRecordDataType" [] "record_elements" [All "ELEMENTS/*"]
    [("APPLICATION-RECORD-ELEMENT", "ApplicationRecordElement")];
  mkRow "AssemblySwConnector" [] "providerIRef" [First "PROVIDER-IREF"]
    [("*", "PPortInCompositionInstanceRef")];
  mkRow "AssemblySwConnector" [] "requesterIRef" [First "REQUESTER-IREF"]
    [("*", "RPortInCompositionInstanceRef")];
  mkRow "AtomicSwComponentType" [] "internalBehavior" [All "INTERNAL-BEHAVIORS/*"]
    [("SWC-INTERNAL-BEHAVIOR", "SwcInternalBehavior")];
  mkRow "AtomicSwComponentType" [] "symbolProps" [First "SYMBOL-PROPS"]
    [("*", "SymbolProps")];
  mkRow "AutosarParameterRef" [] "autosarParameterIRef" [First "AUTOSAR-PARAMETER-IREF"]
    [("*", "ParameterInAtomicSWCTypeInstanceRef")];
  mkRow "AutosarVariableRef" [] "autosarVariableIRef" [First "AUTOSAR-VARIABLE-IREF"]
    [("*", "VariableInAtomicSWCTypeInstanceRef")];
  mkRow "BswEvent" [] "disabledInModeIRefs" [All "DISABLED-IN-MODE-IREFS/DISABLED-IN-MODE-IREF"]
    [("*", "ModeInBswModuleDescriptionInstanceRef")];
  mkRow "BswInternalBehavior" [] "elements/BswEvent" [All "EVENTS/*"]
        [("BSW-MODE-SWITCH-EVENT", "BswModeSwitchEvent"); ("BSW-MODE-MANAGER-ERROR-EVENT", "BswModeManagerErrorEvent");
     ("BSW-MODE-SWITCHED-ACK-EVENT", "BswModeSwitchedAckEvent"); ("BSW-TIMING-EVENT", "BswTimingEvent"); ("BSW-DATA-RECEIVED-EVENT",
     "BswDataReceivedEvent"); ("BSW-INTERNAL-TRIGGER-OCCURRED-EVENT", "BswInternalTriggerOccurredEvent"); ("BSW-BACKGROUND-EVENT",
     "BswBackgroundEvent"); ("BSW-EXTERNAL-TRIGGER-OCCURRED-EVENT", "BswExternalTriggerOccurredEvent"); ("BSW-OPERATION-INVOKED-EVENT",
     "BswOperationInvokedEvent"); ("BSW-ASYNCHRONOUS-SERVER-CALL-RETURNS-EVENT", "BswAsynchronousServerCallReturnsEvent")];
  mkRow "BswInternalBehavior" [] "elements/BswModuleEntity" [All "ENTITYS/*"]
    [("BSW-CALLED-ENTITY", "BswCalledEntity"); ("BSW-SCHEDULABLE-ENTITY", "BswSchedulableEntity"); ("BSW-INTERRUPT-ENTITY", "BswInterruptEntity")];
  mkRow "BswInternalBehavior" [] "internalTriggeringPoints" [All "INTERNAL-TRIGGERING-POINTS/*"]
    [("BSW-INTERNAL-TRIGGERING-POINT", "BswInternalTriggeringPoint")];
  mkRow "BswInternalBehavior" [] "modeSenderPolicies" [All "MODE-SENDER-POLICYS/*"]
    [("BSW-MODE-SENDER-POLICY", "BswModeSenderPolicy")];
  mkRow "BswInternalBehavior" [] "receptionPolicies" [All "RECEPTION-POLICYS/*"]
    [("BSW-QUEUED-DATA-RECEPTION-POLICY", "BswQueuedDataReceptionPolicy")];
  mkRow "BswInternalBehavior" [] "serviceDependencies" [All "SERVICE-DEPENDENCYS/*"]
    [("BSW-SERVICE-DEPENDENCY", "BswServiceDependency")];
  mkRow "BswModeSenderPolicy" [] "ackRequest" [First "ACK-REQUEST"]
    [("*", "BswModeSwitchAckRequest")];
  mkRow "BswModeSwitchEvent" [] "modeIRefs" [All "MODE-IREFS/MODE-IREF"]
    [("*", "ModeInBswModuleDescriptionInstanceRef")];
  mkRow "BswModuleDescription" [] "bswModuleDependencies" [All "BSW-MODULE-DEPENDENCYS/*"]
    [("BSW-MODULE-DEPENDENCY", "BswModuleDependency")];
  mkRow "BswModuleDescription" [] "bswModuleDocumentation" [First "BSW-MODULE-DOCUMENTATIONS"; First "SW-COMPONENT-DOCUMENTATION"]
    [("*", "SwComponentDocumentation")];
  mkRow "BswModuleDescription" [] "internalBehaviors" [All "INTERNAL-BEHAVIORS/*"]
    [("BSW-INTERNAL-BEHAVIOR", "BswInternalBehavior")];
  mkRow "BswModuleDescription" [] "providedClientServerEntries" [All "PROVIDED-CLIENT-SERVER-ENTRYS/*"]
    [("BSW-MODULE-CLIENT-SERVER-ENTRY", "BswModuleClientServerEntry")];
  mkRow "BswModuleDescription" [] "providedDatas" [All "PROVIDED-DATAS/*"]
    [("VARIABLE-DATA-PROTOTYPE", "VariableDataPrototype")];
  mkRow "BswModuleDescription" [] "providedModeGroups" [All "PROVIDED-MODE-GROUPS/*"]
    [("MODE-DECLARATION-GROUP-PROTOTYPE", "ModeDeclarationGroupPrototype")];
  mkRow "BswModuleDescription" [] "requiredClientServerEntries" [All "REQUIRED-CLIENT-SERVER-ENTRYS/*"]
    [("BSW-MODULE-CLIENT-SERVER-ENTRY", "BswModuleClientServerEntry")];
  mkRow "BswModuleDescription" [] "requiredDatas" [All "REQUIRED-DATAS/*"]
    [("VARIABLE-DATA-PROTOTYPE", "VariableDataPrototype")];
  mkRow "BswModuleDescription" [] "requiredModeGroups" [All "REQUIRED-MODE-GROUPS/*"]
    [("MODE-DECLARATION-GROUP-PROTOTYPE", "ModeDeclarationGroupPrototype")];
  mkRow "BswModuleDescription" [] "requiredTriggers" [All "REQUIRED-TRIGGERS/*"]
    [("TRIGGER", "Trigger")];
  mkRow "BswModuleEntity" [] "callPoints" [All "CALL-POINTS/*"]
        [("BSW-ASYNCHRONOUS-SERVER-CALL-POINT", "BswAsynchronousServerCallPoint"); ("BSW-SYNCHRONOUS-SERVER-CALL-POINT",
     "BswSynchronousServerCallPoint")];
  mkRow "BswModuleEntity" [] "dataReceivePoints" [All "DATA-RECEIVE-POINTS/*"]
    [("BSW-VARIABLE-ACCESS", "BswVariableAccess")];
  mkRow "BswModuleEntity" [] "dataSendPoints" [All "DATA-SEND-POINTS/*"]
    [("BSW-VARIABLE-ACCESS", "BswVariableAccess")];
  mkRow "BswModuleEntry" [] "arguments" [All "ARGUMENTS/*"]
    [("SW-SERVICE-ARG", "SwServiceArg")];
  mkRow "BswModuleEntry" [] "returnType" [First "RETURN-TYPE"]
    [("*", "SwServiceArg")];
  mkRow "BswServiceDependency" [] "assignedEntryRole" [All "ASSIGNED-ENTRY-ROLES/*"]
    [("ROLE-BASED-BSW-MODULE-ENTRY-ASSIGNMENT", "RoleBasedBswModuleEntryAssignment")];
  mkRow "BswServiceDependency" [] "ident" [First "IDENT"]
    [("*", "BswServiceDependencyIdent")];
  mkRow "BulkNvDataDescriptor" [] "bulkNvBlock" [First "BULK-NV-BLOCK"; First "VARIABLE-DATA-PROTOTYPE"]
    [("*", "VariableDataPrototype")];
  mkRow "BulkNvDataDescriptor" [] "nvBlockDataMappings" [All "NV-BLOCK-DATA-MAPPINGS/NV-BLOCK-DATA-MAPPING"]
    [("*", "NvBlockDataMapping")];
  mkRow "CanCluster" [] "busOffRecovery" [First "CAN-CLUSTER-VARIANTS/CAN-CLUSTER-CONDITIONAL"; First "BUS-OFF-RECOVERY"]
    [("*", "CanClusterBusOffRecovery")];
  mkRow "CanCluster" [] "physicalChannel" [First "CAN-CLUSTER-VARIANTS/CAN-CLUSTER-CONDITIONAL"; All "PHYSICAL-CHANNELS/*"]
        [("CAN-PHYSICAL-CHANNEL", "CanPhysicalChannel"); ("LIN-PHYSICAL-CHANNEL", "LinPhysicalChannel"); ("ETHERNET-PHYSICAL-CHANNEL",
     "EthernetPhysicalChannel"); ("FLEXRAY-PHYSICAL-CHANNEL", "FlexrayPhysicalChannel")];
  mkRow "CanFrameTriggering" [] "rxIdentifierRange" [First "RX-IDENTIFIER-RANGE"]
    [("*", "RxIdentifierRange")];
  mkRow "CanNmNode" [] "nmRangeConfig" [First "NM-RANGE-CONFIG"]
    [("*", "RxIdentifierRange")];
  mkRow "CanTpConfig" [] "tpAddresses" [All "TP-ADDRESSS/*"]
    [("CAN-TP-ADDRESS", "CanTpAddress")];
  mkRow "CanTpConfig" [] "tpChannels" [All "TP-CHANNELS/*"]
    [("CAN-TP-CHANNEL", "CanTpChannel")];
  mkRow "CanTpConfig" [] "tpConnections" [All "TP-CONNECTIONS/*"]
    [("CAN-TP-CONNECTION", "CanTpConnection")];
  mkRow "CanTpConfig" [] "tpEcus" [All "TP-ECUS/*"]
    [("CAN-TP-ECU", "CanTpEcu")];
  mkRow "CanTpConfig" [] "tpNodes" [All "TP-NODES/*"]
    [("CAN-TP-NODE", "CanTpNode")];
  mkRow "Caption" [] "desc" [First "DESC"]
    [("*", "MultiLanguageOverviewParagraph")];
  mkRow "Chapter" [] "chapterModel" [First "CHAPTER-MODEL"]
    [("*", "ChapterModel")];
  mkRow "ChapterModel" [] "chapterContent" [First "CHAPTER-CONTENT"]
    [("*", "ChapterContent")];
  mkRow "ClientComSpec" [] "transformationComSpecProps" [All "TRANSFORMATION-COM-SPEC-PROPSS/*"]
        [("END-TO-END-TRANSFORMATION-COM-SPEC-PROPS", "EndToEndTransformationComSpecProps"); ("USER-DEFINED-TRANSFORMATION-COM-SPEC-PROPS",
     "UserDefinedTransformationComSpecProps")];
  mkRow "ClientServerInterface" [] "operations" [All "OPERATIONS/*"]
    [("CLIENT-SERVER-OPERATION", "ClientServerOperation")];
  mkRow "ClientServerInterface" [] "possibleErrors" [All "POSSIBLE-ERRORS/APPLICATION-ERROR"]
    [("*", "ApplicationError")];
  mkRow "ClientServerInterfaceMapping" [] "operationMappings" [All "OPERATION-MAPPINGS/*"]
    [("CLIENT-SERVER-OPERATION-MAPPING", "ClientServerOperationMapping")];
  mkRow "ClientServerOperation" [] "arguments" [All "ARGUMENTS/*"]
    [("ARGUMENT-DATA-PROTOTYPE", "ArgumentDataPrototype")];
  mkRow "Code" [] "artifactDescriptors" [All "ARTIFACT-DESCRIPTORS/*"]
    [("AUTOSAR-ENGINEERING-OBJECT", "AutosarEngineeringObject")];
  mkRow "CommunicationConnector" [] "elements/CommConnectorPort" [All "ECU-COMM-PORT-INSTANCES/*"]
    [("FRAME-PORT", "FramePort"); ("I-PDU-PORT", "IPduPort"); ("I-SIGNAL-PORT", "ISignalPort")];
  mkRow "CompositeNetworkRepresentation" [] "leafElementIRef" [First "LEAF-ELEMENT-IREF"]
    [("*", "ApplicationCompositeElementInPortInterfaceInstanceRef")];
  mkRow "CompositionSwComponentType" [] "components" [All "COMPONENTS/*"]
    [("SW-COMPONENT-PROTOTYPE", "SwComponentPrototype")];
  mkRow "CompositionSwComponentType" [] "connectors" [All "CONNECTORS/*"]
        [("ASSEMBLY-SW-CONNECTOR", "AssemblySwConnector"); ("DELEGATION-SW-CONNECTOR", "DelegationSwConnector"); ("PASS-THROUGH-SW-CONNECTOR",
     "PassThroughSwConnector")];
  mkRow "CompositionSwComponentType" [] "instantiationRTEEventProps" [First "INSTANTIATION-RTE-EVENT-PROPSS"; All "INSTANTIATION-TIMING-EVENT-PROPS"]
    [("*", "InstantiationTimingEventProps")];
  mkRow "Compu" [] "compuContent" [First "COMPU-SCALES"]
    [("*", "CompuScales")];
  mkRow "Compu" [] "compuDefaultValue" [First "COMPU-DEFAULT-VALUE"]
    [("*", "CompuConst")];
  mkRow "CompuMethod" [] "compuInternalToPhys" [First "COMPU-INTERNAL-TO-PHYS"]
    [("*", "Compu")];
  mkRow "CompuMethod" [] "compuPhysToInternal" [First "COMPU-PHYS-TO-INTERNAL"]
    [("*", "Compu")];
  mkRow "CompuScale" [] "desc" [First "DESC"]
    [("*", "MultiLanguageOverviewParagraph")];
  mkRow "CompuScales" [] "compuScales" [All "COMPU-SCALE"]
    [("*", "CompuScale")];
  mkRow "ConsistencyNeeds" [] "dpgDoesNotRequireCoherency" [All "DPG-DOES-NOT-REQUIRE-COHERENCYS/DATA-PROTOTYPE-GROUP"]
    [("*", "DataPrototypeGroup")];
  mkRow "ConsistencyNeeds" [] "dpgRequiresCoherency" [All "DPG-REQUIRES-COHERENCYS/DATA-PROTOTYPE-GROUP"]
    [("*", "DataPrototypeGroup")];
  mkRow "ConsistencyNeeds" [] "regDoesNotRequireStability" [All "REG-DOES-NOT-REQUIRE-STABILITYS/RUNNABLE-ENTITY-GROUP"]
    [("*", "RunnableEntityGroup")];
  mkRow "ConsistencyNeeds" [] "regRequiresStability" [All "REG-REQUIRES-STABILITYS/RUNNABLE-ENTITY-GROUP"]
    [("*", "RunnableEntityGroup")];
  mkRow "ConsumedEventGroup" [] "sdClientConfig" [First "SD-CLIENT-CONFIG"]
    [("*", "SdClientConfig")];
  mkRow "ConsumedServiceInstance" [] "consumedEventGroups" [All "CONSUMED-EVENT-GROUPS/*"]
    [("CONSUMED-EVENT-GROUP", "ConsumedEventGroup")];
  mkRow "ConsumedServiceInstance" [] "sdClientConfig" [First "SD-CLIENT-CONFIG"]
    [("*", "SdClientConfig")];
  mkRow "CouplingPort" [] "couplingPortDetails" [First "COUPLING-PORT-DETAILS"]
    [("*", "CouplingPortDetails")];
  mkRow "CouplingPort" [] "vlanMemberships" [All "VLAN-MEMBERSHIPS/*"]
    [("VLAN-MEMBERSHIP", "VlanMembership")];
  mkRow "CouplingPortDetails" [] "couplingPortStructuralElements" [All "COUPLING-PORT-STRUCTURAL-ELEMENTS/*"]
    [("COUPLING-PORT-FIFO", "CouplingPortFifo"); ("COUPLING-PORT-SCHEDULER", "CouplingPortScheduler")];
  mkRow "CouplingPortDetails" [] "ethernetPriorityRegenerations" [All "ETHERNET-PRIORITY-REGENERATIONS/*"]
    [("ETHERNET-PRIORITY-REGENERATION", "EthernetPriorityRegeneration")];
  mkRow "CyclicTiming" [] "timeOffset" [First "TIME-OFFSET"]
    [("*", "TimeRangeType")];
  mkRow "CyclicTiming" [] "timePeriod" [First "TIME-PERIOD"]
    [("*", "TimeRangeType")];
  mkRow "DataConstr" [] "data_constr_rule" [All "DATA-CONSTR-RULES/DATA-CONSTR-RULE"]
    [("*", "DataConstrRule")];
  mkRow "DataConstrRule" [] "internalConstrs" [First "INTERNAL-CONSTRS"]
    [("*", "InternalConstrs")];
  mkRow "DataConstrRule" [] "physConstrs" [First "PHYS-CONSTRS"]
    [("*", "PhysConstrs")];
  mkRow "DataMapping" [] "dataElementIRef" [First "DATA-ELEMENT-IREF"]
    [("*", "VariableDataPrototypeInSystemInstanceRef")];
  mkRow "DataPrototypeGroup" [] "dataPrototypeGroupIRefs" [All "DATA-PROTOTYPE-GROUP-IREFS/DATA-PROTOTYPE-GROUP-IREF"]
    [("*", "InnerDataPrototypeGroupInCompositionInstanceRef")];
  mkRow "DataPrototypeGroup" [] "implicitDataAccessIRefs" [All "IMPLICIT-DATA-ACCESS-IREFS/IMPLICIT-DATA-ACCESS-IREF"]
    [("*", "VariableDataPrototypeInCompositionInstanceRef")];
    mkRow "DataPrototypeInPortInterfaceRef" ["DataPrototypeInClientServerInterfaceInstanceRef"] "dataPrototypeInClientServerInterface" [First
     "DATA-PROTOTYPE-IN-CLIENT-SERVER-INTERFACE-REF"]
    [("*", "DataPrototypeInClientServerInterfaceInstanceRef")];
  mkRow "DataPrototypeTransformationProps" [] "dataPrototypeInPortInterfaceRef" [First "DATA-PROTOTYPE-IN-PORT-INTERFACE-REF"]
    [("*", "DataPrototypeInPortInterfaceRef")];
  mkRow "DataReceivedEvent" [] "dataIRef" [First "DATA-IREF"]
    [("*", "RVariableInAtomicSwcInstanceRef")];
  mkRow "DataTransformationSet" [] "dataTransformations" [All "DATA-TRANSFORMATIONS/*"]
    [("DATA-TRANSFORMATION", "DataTransformation")];
  mkRow "DataTransformationSet" [] "transformationTechnologies" [All "TRANSFORMATION-TECHNOLOGYS/*"]
    [("TRANSFORMATION-TECHNOLOGY", "TransformationTechnology")];
  mkRow "DataTypeMappingSet" [] "dataTypeMaps" [All "DATA-TYPE-MAPS/DATA-TYPE-MAP"]
    [("*", "DataTypeMap")];
  mkRow "DataTypeMappingSet" [] "modeRequestTypeMaps" [All "MODE-REQUEST-TYPE-MAPS/MODE-REQUEST-TYPE-MAP"]
    [("*", "ModeRequestTypeMap")];
  mkRow "DcmIPdu" [] "containedIPduProps" [First "CONTAINED-I-PDU-PROPS"]
    [("*", "ContainedIPduProps")];
  mkRow "DefItem" [] "def_doc" [First "DEF"]
    [("*", "DocumentationBlock")];
  mkRow "DefList" [] "defItems" [All "DEF-ITEM"]
    [("*", "DefItem")];
  mkRow "DependencyOnArtifact" [] "artifactDescriptor" [First "ARTIFACT-DESCRIPTOR"]
    [("*", "AutosarEngineeringObject")];
  mkRow "DiagnosticEventNeeds" [] "diagEventDebounceAlgorithm" [All "DIAG-EVENT-DEBOUNCE-ALGORITHM/*"]
        [("DIAG-EVENT-DEBOUNCE-COUNTER-BASED", "DiagEventDebounceCounterBased"); ("DIAG-EVENT-DEBOUNCE-MONITOR-INTERNAL",
     "DiagEventDebounceMonitorInternal"); ("DIAG-EVENT-DEBOUNCE-TIME-BASED", "DiagEventDebounceTimeBased")];
  mkRow "DoIpTpConfig" [] "doIpLogicAddresses" [All "DO-IP-LOGIC-ADDRESSS/*"]
    [("DO-IP-LOGIC-ADDRESS", "DoIpLogicAddress")];
  mkRow "DoIpTpConfig" [] "tpConnections" [All "TP-CONNECTIONS/*"]
    [("DO-IP-TP-CONNECTION", "DoIpTpConnection")];
  mkRow "DocRevision" [] "modifications" [All "MODIFICATIONS/*"]
    [("MODIFICATION", "Modification")];
  mkRow "Documentation" [] "contexts" [All "CONTEXTS/DOCUMENTATION-CONTEXT"]
    [("*", "DocumentationContext")];
  mkRow "Documentation" [] "documentationContent" [First "DOCUMENTATION-CONTENT"]
    [("*", "PredefinedChapter")];
  mkRow "DocumentationBlock" [] "defList" [First "DEF-LIST"]
    [("*", "DefList")];
  mkRow "DocumentationBlock" [] "formula" [First "FORMULA"]
    [("*", "MlFormula")];
  mkRow "DocumentationBlock" [] "labeledList" [First "LABELED-LIST"]
    [("*", "LabeledList")];
  mkRow "DocumentationBlock" [] "msrQueryP2" [First "MSR-QUERY-P2"]
    [("*", "MsrQueryP2")];
  mkRow "DocumentationBlock" [] "note" [First "NOTE"]
    [("*", "Note")];
  mkRow "DocumentationBlock" [] "structuredReq" [First "STRUCTURED-REQ"]
    [("*", "StructuredReq")];
  mkRow "DocumentationBlock" [] "trace" [First "TRACE"]
    [("*", "TraceableText")];
  mkRow "DocumentationBlock" [] "verbatim" [First "VERBATIM"]
    [("*", "MultiLanguageVerbatim")];
  mkRow "DocumentationContext" [] "featureIRef" [First "FEATURE-IREF"]
    [("*", "AnyInstanceRef")];
  mkRow "EcuInstance" [] "elements/CommunicationConnector" [All "CONNECTORS/*"]
        [("CAN-COMMUNICATION-CONNECTOR", "CanCommunicationConnector"); ("ETHERNET-COMMUNICATION-CONNECTOR", "EthernetCommunicationConnector");
     ("LIN-COMMUNICATION-CONNECTOR", "LinCommunicationConnector"); ("FLEXRAY-COMMUNICATION-CONNECTOR", "FlexrayCommunicationConnector")];
  mkRow "EcuInstance" [] "elements/CommunicationController" [All "COMM-CONTROLLERS/*"]
        [("CAN-COMMUNICATION-CONTROLLER", "CanCommunicationController"); ("ETHERNET-COMMUNICATION-CONTROLLER", "EthernetCommunicationController");
     ("LIN-MASTER", "LinMaster"); ("FLEXRAY-COMMUNICATION-CONTROLLER", "FlexrayCommunicationController")];
  mkRow "EcucChoiceContainerDef" [] "choices" [All "CHOICES/*"]
    [("ECUC-PARAM-CONF-CONTAINER-DEF", "EcucParamConfContainerDef")];
  mkRow "EcucConditionSpecification" [] "conditionFormula" [First "CONDITION-FORMULA"]
    [("*", "EcucConditionFormula")];
  mkRow "EcucConditionSpecification" [] "ecucQueries" [All "ECUC-QUERYS/ECUC-QUERY"]
    [("*", "EcucQuery")];
  mkRow "EcucConditionSpecification" [] "informalFormula" [First "INFORMAL-FORMULA"]
    [("*", "MlFormula")];
  mkRow "EcucContainerValue" [] "parameterValues" [All "PARAMETER-VALUES/*"]
    [("ECUC-TEXTUAL-PARAM-VALUE", "EcucTextualParamValue"); ("ECUC-NUMERICAL-PARAM-VALUE", "EcucNumericalParamValue")];
  mkRow "EcucContainerValue" [] "referenceValues" [All "REFERENCE-VALUES/*"]
    [("ECUC-REFERENCE-VALUE", "EcucReferenceValue"); ("ECUC-INSTANCE-REFERENCE-VALUE", "EcucInstanceReferenceValue")];
  mkRow "EcucContainerValue" [] "subContainers" [All "SUB-CONTAINERS/*"]
    [("ECUC-CONTAINER-VALUE", "EcucContainerValue")];
  mkRow "EcucDefinitionElement" [] "ecucCond" [First "ECUC-COND"]
    [("*", "EcucConditionSpecification")];
  mkRow "EcucDefinitionElement" [] "ecucValidationConds" [All "ECUC-VALIDATION-CONDS/ECUC-VALIDATION-CONDITION"]
    [("*", "EcucValidationCondition")];
  mkRow "EcucDerivationSpecification" [] "calculationFormula" [First "CALCULATION-FORMULA"]
    [("*", "EcucParameterDerivationFormula")];
  mkRow "EcucDerivationSpecification" [] "ecucQueries" [All "ECUC-QUERYS/ECUC-QUERY"]
    [("*", "EcucQuery")];
  mkRow "EcucDerivationSpecification" [] "informalFormula" [First "INFORMAL-FORMULA"]
    [("*", "MlFormula")];
  mkRow "EcucDestinationUriDef" [] "destinationUriPolicy" [First "DESTINATION-URI-POLICY"]
    [("*", "EcucDestinationUriPolicy")];
  mkRow "EcucDestinationUriDefSet" [] "destinationUriDefs" [All "DESTINATION-URI-DEFS/*"]
    [("ECUC-DESTINATION-URI-DEF", "EcucDestinationUriDef")];
  mkRow "EcucDestinationUriPolicy" [] "containers" [All "CONTAINERS/*"]
    [("ECUC-PARAM-CONF-CONTAINER-DEF", "EcucParamConfContainerDef"); ("ECUC-CHOICE-CONTAINER-DEF", "EcucChoiceContainerDef")];
  mkRow "EcucDestinationUriPolicy" [] "parameters" [All "PARAMETERS/*"]
        [("ECUC-BOOLEAN-PARAM-DEF", "EcucBooleanParamDef"); ("ECUC-STRING-PARAM-DEF", "EcucStringParamDef"); ("ECUC-INTEGER-PARAM-DEF",
     "EcucIntegerParamDef"); ("ECUC-FLOAT-PARAM-DEF", "EcucFloatParamDef"); ("ECUC-ENUMERATION-PARAM-DEF", "EcucEnumerationParamDef");
     ("ECUC-FUNCTION-NAME-DEF", "EcucFunctionNameDef"); ("ECUC-MULTILINE-STRING-PARAM-DEF", "EcucMultilineStringParamDef")];
  mkRow "EcucDestinationUriPolicy" [] "references" [All "REFERENCES/*"]
        [("ECUC-SYMBOLIC-NAME-REFERENCE-DEF", "EcucSymbolicNameReferenceDef"); ("ECUC-REFERENCE-DEF", "EcucReferenceDef");
     ("ECUC-CHOICE-REFERENCE-DEF", "EcucChoiceReferenceDef"); ("ECUC-INSTANCE-REFERENCE-DEF", "EcucInstanceReferenceDef")];
  mkRow "EcucEnumerationParamDef" [] "literals" [All "LITERALS/*"]
    [("ECUC-ENUMERATION-LITERAL-DEF", "EcucEnumerationLiteralDef")];
  mkRow "EcucModuleConfigurationValues" [] "elements/EcucContainerValue" [All "CONTAINERS/*"]
    [("ECUC-CONTAINER-VALUE", "EcucContainerValue")];
  mkRow "EcucModuleDef" [] "containers" [All "CONTAINERS/*"]
    [("ECUC-PARAM-CONF-CONTAINER-DEF", "EcucParamConfContainerDef"); ("ECUC-CHOICE-CONTAINER-DEF", "EcucChoiceContainerDef")];
  mkRow "EcucParamConfContainerDef" [] "parameters" [All "PARAMETERS/*"]
        [("ECUC-BOOLEAN-PARAM-DEF", "EcucBooleanParamDef"); ("ECUC-STRING-PARAM-DEF", "EcucStringParamDef"); ("ECUC-INTEGER-PARAM-DEF",
     "EcucIntegerParamDef"); ("ECUC-FLOAT-PARAM-DEF", "EcucFloatParamDef"); ("ECUC-ENUMERATION-PARAM-DEF", "EcucEnumerationParamDef");
     ("ECUC-FUNCTION-NAME-DEF", "EcucFunctionNameDef"); ("ECUC-MULTILINE-STRING-PARAM-DEF", "EcucMultilineStringParamDef")];
  mkRow "EcucParamConfContainerDef" [] "references" [All "REFERENCES/*"]
        [("ECUC-SYMBOLIC-NAME-REFERENCE-DEF", "EcucSymbolicNameReferenceDef"); ("ECUC-REFERENCE-DEF", "EcucReferenceDef");
     ("ECUC-CHOICE-REFERENCE-DEF", "EcucChoiceReferenceDef"); ("ECUC-INSTANCE-REFERENCE-DEF", "EcucInstanceReferenceDef")];
  mkRow "EcucParamConfContainerDef" [] "subContainers" [All "SUB-CONTAINERS/*"]
    [("ECUC-PARAM-CONF-CONTAINER-DEF", "EcucParamConfContainerDef"); ("ECUC-CHOICE-CONTAINER-DEF", "EcucChoiceContainerDef")];
  mkRow "EcucParameterDef" [] "derivation" [First "DERIVATION"]
    [("*", "EcucDerivationSpecification")];
  mkRow "EcucQuery" [] "ecucQueryExpression" [First "ECUC-QUERY-EXPRESSION"]
    [("*", "EcucQueryExpression")];
  mkRow "EcucValidationCondition" [] "ecucQueries" [All "ECUC-QUERYS/ECUC-QUERY"]
    [("*", "EcucQuery")];
  mkRow "EcucValidationCondition" [] "validationFormula" [First "VALIDATION-FORMULA"]
    [("*", "EcucConditionFormula")];
  mkRow "EndToEndProtection" [] "endToEndProfile" [First "END-TO-END-PROFILE"]
    [("*", "EndToEndDescription")];
  mkRow "EndToEndProtection" [] "endToEndProtectionISignalIPdus" [All "END-TO-END-PROTECTION-I-SIGNAL-I-PDUS/*"]
    [("END-TO-END-PROTECTION-I-SIGNAL-I-PDU", "EndToEndProtectionISignalIPdu")];
  mkRow "EndToEndProtection" [] "endToEndProtectionVariablePrototypes" [All "END-TO-END-PROTECTION-VARIABLE-PROTOTYPES/*"]
    [("END-TO-END-PROTECTION-VARIABLE-PROTOTYPE", "EndToEndProtectionVariablePrototype")];
  mkRow "EndToEndProtectionSet" [] "elements/EndToEndProtection" [All "END-TO-END-PROTECTIONS/*"]
    [("END-TO-END-PROTECTION", "EndToEndProtection")];
  mkRow "EndToEndProtectionVariablePrototype" [] "_receiverIRefs" [All "RECEIVER-IREFS/RECEIVER-IREF"]
    [("*", "VariableDataPrototypeInSystemInstanceRef")];
  mkRow "EndToEndProtectionVariablePrototype" [] "senderIRef" [First "SENDER-IREF"]
    [("*", "VariableDataPrototypeInSystemInstanceRef")];
    mkRow "EndToEndTransformationISignalProps" [] "adminData" [First
     "END-TO-END-TRANSFORMATION-I-SIGNAL-PROPS-VARIANTS/END-TO-END-TRANSFORMATION-I-SIGNAL-PROPS-CONDITIONAL"; First "ADMIN-DATA"]
    [("*", "AdminData")];
    mkRow "EndToEndTransformationISignalProps" [] "dataPrototypeTransformationProps" [First
     "END-TO-END-TRANSFORMATION-I-SIGNAL-PROPS-VARIANTS/END-TO-END-TRANSFORMATION-I-SIGNAL-PROPS-CONDITIONAL"; All
     "DATA-PROTOTYPE-TRANSFORMATION-PROPSS/*"]
    [("DATA-PROTOTYPE-TRANSFORMATION-PROPS", "DataPrototypeTransformationProps")];
    mkRow "EndToEndTransformationISignalProps" [] "desc" [First
     "END-TO-END-TRANSFORMATION-I-SIGNAL-PROPS-VARIANTS/END-TO-END-TRANSFORMATION-I-SIGNAL-PROPS-CONDITIONAL"; First "DESC"]
    [("*", "MultiLanguageOverviewParagraph")];
    mkRow "EndToEndTransformationISignalProps" [] "introduction" [First
     "END-TO-END-TRANSFORMATION-I-SIGNAL-PROPS-VARIANTS/END-TO-END-TRANSFORMATION-I-SIGNAL-PROPS-CONDITIONAL"; First "INTRODUCTION"]
    [("*", "DocumentationBlock")];
  mkRow "ErrorTracerNeeds" [] "tracedFailures" [All "TRACED-FAILURES/*"]
    [("DEVELOPMENT-ERROR", "DevelopmentError"); ("RUNTIME-ERROR", "RuntimeError"); ("TRANSIENT-FAULT", "TransientFault")];
  mkRow "EthernetCluster" [] "macMulticastGroups" [First "ETHERNET-CLUSTER-VARIANTS/ETHERNET-CLUSTER-CONDITIONAL"; All "MAC-MULTICAST-GROUPS/*"]
    [("MAC-MULTICAST-GROUP", "MacMulticastGroup")];
  mkRow "EthernetCluster" [] "physicalChannel" [First "ETHERNET-CLUSTER-VARIANTS/ETHERNET-CLUSTER-CONDITIONAL"; All "PHYSICAL-CHANNELS/*"]
        [("CAN-PHYSICAL-CHANNEL", "CanPhysicalChannel"); ("LIN-PHYSICAL-CHANNEL", "LinPhysicalChannel"); ("ETHERNET-PHYSICAL-CHANNEL",
     "EthernetPhysicalChannel"); ("FLEXRAY-PHYSICAL-CHANNEL", "FlexrayPhysicalChannel")];
    mkRow "EthernetCommunicationController" [] "couplingPorts" [First
     "ETHERNET-COMMUNICATION-CONTROLLER-VARIANTS/ETHERNET-COMMUNICATION-CONTROLLER-CONDITIONAL"; All "COUPLING-PORTS/*"]
    [("COUPLING-PORT", "CouplingPort")];
  mkRow "EthernetPhysicalChannel" [] "networkEndpoints" [All "NETWORK-ENDPOINTS/NETWORK-ENDPOINT"]
    [("*", "NetworkEndpoint")];
  mkRow "EthernetPhysicalChannel" [] "soAdConfig" [First "SO-AD-CONFIG"]
    [("*", "SoAdConfig")];
  mkRow "EthernetPhysicalChannel" [] "vlan" [First "VLAN"]
    [("*", "VlanConfig")];
  mkRow "EventControlledTiming" [] "repetitionPeriod" [First "REPETITION-PERIOD"]
    [("*", "TimeRangeType")];
  mkRow "EventHandler" [] "sdServerConfig" [First "SD-SERVER-CONFIG"]
    [("*", "SdServerConfig")];
  mkRow "ExecutableEntity" [] "activationReasons" [All "ACTIVATION-REASONS/EXECUTABLE-ENTITY-ACTIVATION-REASON"]
    [("*", "ExecutableEntityActivationReason")];
  mkRow "ExecutionOrderConstraint" [] "ordered_elements" [All "ORDERED-ELEMENTS/*"]
    [("EOC-EXECUTABLE-ENTITY-REF", "EOCExecutableEntityRef")];
  mkRow "ExecutionTime" [] "hardwareConfiguration" [First "HARDWARE-CONFIGURATION"]
    [("*", "HardwareConfiguration")];
  mkRow "ExecutionTime" [] "memorySectionLocations" [All "MEMORY-SECTION-LOCATIONS/MEMORY-SECTION-LOCATION"]
    [("*", "MemorySectionLocation")];
  mkRow "ExecutionTime" [] "softwareContext" [First "SOFTWARE-CONTEXT"]
    [("*", "SoftwareContext")];
  mkRow "ExternalTriggeringPoint" [] "ident" [First "IDENT"]
    [("*", "ExternalTriggeringPointIdent")];
  mkRow "ExternalTriggeringPoint" [] "trigger" [First "TRIGGER-IREF"]
    [("*", "PTriggerInAtomicSwcTypeInstanceRef")];
  mkRow "FlatInstanceDescriptor" [] "ecuExtractReferenceIRef" [First "ECU-EXTRACT-REFERENCE-IREF"]
    [("*", "AnyInstanceRef")];
  mkRow "FlatInstanceDescriptor" [] "upstreamReferenceIRef" [First "UPSTREAM-REFERENCE-IREF"]
    [("*", "AnyInstanceRef")];
  mkRow "FlatMap" [] "elements/FlatInstanceDescriptor" [All "INSTANCES/*"]
    [("FLAT-INSTANCE-DESCRIPTOR", "FlatInstanceDescriptor")];
  mkRow "FlexrayCluster" [] "physicalChannel" [First "FLEXRAY-CLUSTER-VARIANTS/FLEXRAY-CLUSTER-CONDITIONAL"; All "PHYSICAL-CHANNELS/*"]
        [("CAN-PHYSICAL-CHANNEL", "CanPhysicalChannel"); ("LIN-PHYSICAL-CHANNEL", "LinPhysicalChannel"); ("ETHERNET-PHYSICAL-CHANNEL",
     "EthernetPhysicalChannel"); ("FLEXRAY-PHYSICAL-CHANNEL", "FlexrayPhysicalChannel")];
    mkRow "FlexrayCommunicationController" [] "flexrayFifos" [First
     "FLEXRAY-COMMUNICATION-CONTROLLER-VARIANTS/FLEXRAY-COMMUNICATION-CONTROLLER-CONDITIONAL"; All "FLEXRAY-FIFOS/FLEXRAY-FIFO-CONFIGURATION"]
    [("*", "FlexrayFifoConfiguration")];
  mkRow "FlexrayFifoConfiguration" [] "fifoRange" [All "FLEXRAY-FIFO-RANGE"]
    [("*", "FlexrayFifoRange")];
  mkRow "FlexrayFrameTriggering" [] "absolutelyScheduledTimings" [All "ABSOLUTELY-SCHEDULED-TIMINGS/*"]
    [("FLEXRAY-ABSOLUTELY-SCHEDULED-TIMING", "FlexrayAbsolutelyScheduledTiming")];
  mkRow "Frame" [] "elements/PduToFrameMapping" [All "PDU-TO-FRAME-MAPPINGS/PDU-TO-FRAME-MAPPING"]
    [("*", "PduToFrameMapping")];
  mkRow "GeneralPurposeIPdu" [] "containedIPduProps" [First "CONTAINED-I-PDU-PROPS"]
    [("*", "ContainedIPduProps")];
  mkRow "HeapUsage" [] "hardwareConfiguration" [First "HARDWARE-CONFIGURATION"]
    [("*", "HardwareConfiguration")];
  mkRow "HeapUsage" [] "softwareContext" [First "SOFTWARE-CONTEXT"]
    [("*", "SoftwareContext")];
  mkRow "HwAttributeDef" [] "hwAttributeLiterals" [All "HW-ATTRIBUTE-LITERALS/HW-ATTRIBUTE-LITERAL-DEF"]
    [("*", "HwAttributeLiteralDef")];
  mkRow "HwCategory" [] "hwAttributeDefs" [All "HW-ATTRIBUTE-DEFS/*"]
    [("HW-ATTRIBUTE-DEF", "HwAttributeDef")];
  mkRow "HwElement" [] "hwAttributeValues" [All "HW-ATTRIBUTE-VALUES/HW-ATTRIBUTE-VALUE"]
    [("*", "HwAttributeValue")];
  mkRow "HwElement" [] "hwElementConnections" [All "HW-ELEMENT-CONNECTIONS/HW-ELEMENT-CONNECTOR"]
    [("*", "HwElementConnector")];
  mkRow "HwElement" [] "hwPinGroups" [All "HW-PIN-GROUPS/*"]
    [("HW-PIN-GROUP", "HwPinGroup")];
  mkRow "HwElementConnector" [] "adminData" [First "ADMIN-DATA"]
    [("*", "AdminData")];
  mkRow "HwElementConnector" [] "desc" [First "DESC"]
    [("*", "MultiLanguageOverviewParagraph")];
  mkRow "HwElementConnector" [] "hwPinConnections" [All "HW-PIN-CONNECTION"]
    [("*", "HwPinConnector")];
  mkRow "HwElementConnector" [] "hwPinGroupConnections" [All "HW-PIN-GROUP-CONNECTION"]
    [("*", "HwPinGroupConnector")];
  mkRow "HwElementConnector" [] "introduction" [First "INTRODUCTION"]
    [("*", "DocumentationBlock")];
  mkRow "HwPinConnector" [] "adminData" [First "ADMIN-DATA"]
    [("*", "AdminData")];
  mkRow "HwPinConnector" [] "desc" [First "DESC"]
    [("*", "MultiLanguageOverviewParagraph")];
  mkRow "HwPinConnector" [] "introduction" [First "INTRODUCTION"]
    [("*", "DocumentationBlock")];
  mkRow "HwPinGroup" [] "hwAttributeValues" [All "HW-ATTRIBUTE-VALUES/HW-ATTRIBUTE-VALUE"]
    [("*", "HwAttributeValue")];
  mkRow "HwPinGroupConnector" [] "adminData" [First "ADMIN-DATA"]
    [("*", "AdminData")];
  mkRow "HwPinGroupConnector" [] "desc" [First "DESC"]
    [("*", "MultiLanguageOverviewParagraph")];
  mkRow "HwPinGroupConnector" [] "hwPinConnections" [All "HW-PIN-CONNECTION"]
    [("*", "HwPinConnector")];
  mkRow "HwPinGroupConnector" [] "introduction" [First "INTRODUCTION"]
    [("*", "DocumentationBlock")];
  mkRow "IPduTiming" [] "transmissionModeDeclaration" [First "TRANSMISSION-MODE-DECLARATION"]
    [("*", "TransmissionModeDeclaration")];
  mkRow "ISignal" [] "iSignalProps" [First "I-SIGNAL-PROPS"]
    [("*", "ISignalProps")];
  mkRow "ISignal" [] "transformationISignalProps" [All "TRANSFORMATION-I-SIGNAL-PROPSS/*"]
    [("END-TO-END-TRANSFORMATION-I-SIGNAL-PROPS", "EndToEndTransformationISignalProps")];
  mkRow "ISignalGroup" [] "transformationISignalProps" [All "TRANSFORMATION-I-SIGNAL-PROPSS/*"]
    [("END-TO-END-TRANSFORMATION-I-SIGNAL-PROPS", "EndToEndTransformationISignalProps")];
  mkRow "ISignalIPdu" [] "iPduTimingSpecification" [First "I-PDU-TIMING-SPECIFICATIONS/I-PDU-TIMING"]
    [("*", "IPduTiming")];
  mkRow "ISignalIPdu" [] "iSignalToPduMappings" [All "I-SIGNAL-TO-PDU-MAPPINGS/I-SIGNAL-TO-I-PDU-MAPPING"]
    [("*", "ISignalToIPduMapping")];
  mkRow "Identifiable" bare "adminData" [First "ADMIN-DATA"]
    [("*", "AdminData")];
  mkRow "Identifiable" bare "desc" [First "DESC"]
    [("*", "MultiLanguageOverviewParagraph")];
  mkRow "Identifiable" bare "introduction" [First "INTRODUCTION"]
    [("*", "DocumentationBlock")];
  mkRow "Implementation" [] "compilers" [First "COMPILERS"; All "COMPILER"]
    [("*", "Compiler")];
  mkRow "Implementation" [] "elements/Code" [All "CODE-DESCRIPTORS/CODE"]
    [("*", "Code")];
  mkRow "Implementation" [] "generatedArtifacts" [First "GENERATED-ARTIFACTS"; All "DEPENDENCY-ON-ARTIFACT"]
    [("*", "DependencyOnArtifact")];
  mkRow "Implementation" [] "linkers" [First "LINKERS"; All "LINKER"]
    [("*", "Linker")];
  mkRow "Implementation" [] "mcSupport" [First "MC-SUPPORT"]
    [("*", "McSupportData")];
  mkRow "Implementation" [] "requiredArtifacts" [First "REQUIRED-ARTIFACTS"; All "DEPENDENCY-ON-ARTIFACT"]
    [("*", "DependencyOnArtifact")];
  mkRow "Implementation" [] "requiredGeneratorTools" [First "REQUIRED-GENERATOR-TOOLS"; All "DEPENDENCY-ON-ARTIFACT"]
    [("*", "DependencyOnArtifact")];
  mkRow "Implementation" [] "resourceConsumption" [First "RESOURCE-CONSUMPTION"]
    [("*", "ResourceConsumption")];
  mkRow "ImplementationDataType" [] "subElements" [All "SUB-ELEMENTS/*"]
    [("IMPLEMENTATION-DATA-TYPE-ELEMENT", "ImplementationDataTypeElement")];
  mkRow "ImplementationDataType" [] "symbolProps" [First "SYMBOL-PROPS"]
    [("*", "SymbolProps")];
  mkRow "ImplementationDataTypeElement" [] "subElements" [All "SUB-ELEMENTS/*"]
    [("IMPLEMENTATION-DATA-TYPE-ELEMENT", "ImplementationDataTypeElement")];
  mkRow "InfrastructureServices" [] "doIpEntity" [First "DO-IP-ENTITY"]
    [("*", "DoIpEntity")];
  mkRow "InstantiationDataDefProps" [] "parameterInstance" [First "PARAMETER-INSTANCE"]
    [("*", "AutosarParameterRef")];
  mkRow "InstantiationDataDefProps" [] "variableInstance" [First "VARIABLE-INSTANCE"]
    [("*", "AutosarVariableRef")];
  mkRow "InstantiationTimingEventProps" [] "refinedEventIRef" [First "REFINED-EVENT-IREF"]
    [("*", "InstanceEventInCompositionInstanceRef")];
  mkRow "InternalBehavior" [] "constantMemories" [All "CONSTANT-MEMORYS/*"]
    [("PARAMETER-DATA-PROTOTYPE", "ParameterDataPrototype")];
  mkRow "InternalBehavior" [] "elements/ExclusiveArea" [All "EXCLUSIVE-AREAS/EXCLUSIVE-AREA"]
    [("*", "ExclusiveArea")];
  mkRow "InternalBehavior" [] "elements/ExclusiveAreaNestingOrder" [All "EXCLUSIVE-AREA-NESTING-ORDERS/EXCLUSIVE-AREA-NESTING-ORDER"]
    [("*", "ExclusiveAreaNestingOrder")];
  mkRow "InternalBehavior" [] "staticMemories" [All "STATIC-MEMORYS/*"]
    [("VARIABLE-DATA-PROTOTYPE", "VariableDataPrototype")];
  mkRow "InternalConstrs" [] "scaleConstrs" [All "SCALE-CONSTRS/SCALE-CONSTR"]
    [("*", "ScaleConstr")];
  mkRow "J1939NmNode" [] "nodeName" [First "NODE-NAME"]
    [("*", "J1939NodeName")];
  mkRow "KeywordSet" [] "keywords" [All "KEYWORDS/*"]
    [("KEYWORD", "Keyword")];
  mkRow "LGraphic" [] "graphic" [First "GRAPHIC"]
    [("*", "Graphic")];
  mkRow "LabeledItem" [] "itemContents" [First "ITEM-CONTENTS"]
    [("*", "DocumentationBlock")];
  mkRow "LabeledItem" [] "itemLabel" [First "ITEM-LABEL"]
    [("*", "MultiLanguageOverviewParagraph")];
  mkRow "LabeledList" [] "indentSample" [First "INDENT-SAMPLE"]
    [("*", "IndentSample")];
  mkRow "LabeledList" [] "labeledItems" [All "LABELED-ITEM"]
    [("*", "LabeledItem")];
  mkRow "LifeCycleInfo" [] "periodBegin" [First "PERIOD-BEGIN"]
    [("*", "LifeCyclePeriod")];
  mkRow "LifeCycleInfo" [] "remark" [First "REMARK"]
    [("*", "DocumentationBlock")];
  mkRow "LifeCycleInfoSet" [] "lifeCycleInfos" [All "LIFE-CYCLE-INFOS/*"]
    [("LIFE-CYCLE-INFO", "LifeCycleInfo")];
  mkRow "LinCluster" [] "physicalChannel" [First "LIN-CLUSTER-VARIANTS/LIN-CLUSTER-CONDITIONAL"; All "PHYSICAL-CHANNELS/*"]
        [("CAN-PHYSICAL-CHANNEL", "CanPhysicalChannel"); ("LIN-PHYSICAL-CHANNEL", "LinPhysicalChannel"); ("ETHERNET-PHYSICAL-CHANNEL",
     "EthernetPhysicalChannel"); ("FLEXRAY-PHYSICAL-CHANNEL", "FlexrayPhysicalChannel")];
  mkRow "LinPhysicalChannel" [] "scheduleTables" [All "SCHEDULE-TABLES/*"]
    [("LIN-SCHEDULE-TABLE", "LinScheduleTable")];
  mkRow "LinScheduleTable" [] "tableEntries" [All "TABLE-ENTRYS/*"]
    [("APPLICATION-ENTRY", "ApplicationEntry")];
  mkRow "LinTpConfig" [] "tpAddresses" [All "TP-ADDRESSS/*"]
    [("TP-ADDRESS", "TpAddress")];
  mkRow "LinTpConfig" [] "tpConnections" [All "TP-CONNECTIONS/*"]
    [("LIN-TP-CONNECTION", "LinTpConnection")];
  mkRow "LinTpConfig" [] "tpNodes" [All "TP-NODES/*"]
    [("LIN-TP-NODE", "LinTpNode")];
  mkRow "McDataAccessDetails" [] "rteEventIRefs" [All "RTE-EVENT-IREFS/RTE-EVENT-IREF"]
    [("*", "RteEventInEcuInstanceRef")];
  mkRow "McDataAccessDetails" [] "variableAccessIRefs" [All "VARIABLE-ACCESS-IREFS/VARIABLE-ACCESS-IREF"]
    [("*", "VariableAccessInEcuInstanceRef")];
  mkRow "McDataInstance" [] "instanceInMemory" [First "INSTANCE-IN-MEMORY"]
    [("*", "ImplementationElementInParameterInstanceRef")];
  mkRow "McDataInstance" [] "mcDataAccessDetails" [First "MC-DATA-ACCESS-DETAILS"]
    [("*", "McDataAccessDetails")];
  mkRow "McDataInstance" [] "mcDataAssignments" [All "MC-DATA-ASSIGNMENTS/ROLE-BASED-MC-DATA-ASSIGNMENT"]
    [("*", "RoleBasedMcDataAssignment")];
  mkRow "McDataInstance" [] "resultingProperties" [First "RESULTING-PROPERTIES"]
    [("*", "SwDataDefProps")];
  mkRow "McDataInstance" [] "resultingRptSwPrototypingAccess" [First "RESULTING-RPT-SW-PROTOTYPING-ACCESS"]
    [("*", "RptSwPrototypingAccess")];
  mkRow "McDataInstance" [] "rptImplPolicy" [First "RPT-IMPL-POLICY"]
    [("*", "RptImplPolicy")];
  mkRow "McDataInstance" [] "subElements" [All "SUB-ELEMENTS/MC-DATA-INSTANCE"]
    [("*", "McDataInstance")];
  mkRow "McFunction" [] "defCalprmSet" [First "DEF-CALPRM-SET"]
    [("*", "McFunctionDataRefSet")];
  mkRow "McFunction" [] "inMeasurementSet" [First "IN-MEASUREMENT-SET"]
    [("*", "McFunctionDataRefSet")];
  mkRow "McFunction" [] "locMeasurementSet" [First "LOC-MEASUREMENT-SET"]
    [("*", "McFunctionDataRefSet")];
  mkRow "McFunction" [] "outMeasurementSet" [First "OUT-MEASUREMENT-SET"]
    [("*", "McFunctionDataRefSet")];
  mkRow "McFunction" [] "refCalprmSet" [First "REF-CALPRM-SET"]
    [("*", "McFunctionDataRefSet")];
  mkRow "McGroup" [] "refCalprmSet" [First "REF-CALPRM-SET"]
    [("*", "McGroupDataRefSet")];
  mkRow "McGroup" [] "refMeasurementSet" [First "REF-MEASUREMENT-SET"]
    [("*", "McGroupDataRefSet")];
  mkRow "McSupportData" [] "emulationSupports" [All "EMULATION-SUPPORTS/MC-SW-EMULATION-METHOD-SUPPORT"]
    [("*", "McSwEmulationMethodSupport")];
  mkRow "McSupportData" [] "mcParameterInstances" [All "MC-PARAMETER-INSTANCES/MC-DATA-INSTANCE"]
    [("*", "McDataInstance")];
  mkRow "McSupportData" [] "mcVariableInstances" [All "MC-VARIABLE-INSTANCES/MC-DATA-INSTANCE"]
    [("*", "McDataInstance")];
  mkRow "McSupportData" [] "rptSupportData" [First "RPT-SUPPORT-DATA"]
    [("*", "RptSupportData")];
  mkRow "McSwEmulationMethodSupport" [] "elementGroups" [All "ELEMENT-GROUPS/MC-PARAMETER-ELEMENT-GROUP"]
    [("*", "McParameterElementGroup")];
  mkRow "MeasuredExecutionTime" [] "maximumExecutionTime" [First "MAXIMUM-EXECUTION-TIME"]
    [("*", "MultidimensionalTime")];
  mkRow "MeasuredExecutionTime" [] "minimumExecutionTime" [First "MINIMUM-EXECUTION-TIME"]
    [("*", "MultidimensionalTime")];
  mkRow "MeasuredExecutionTime" [] "nominalExecutionTime" [First "NOMINAL-EXECUTION-TIME"]
    [("*", "MultidimensionalTime")];
  mkRow "MlFormula" [] "formulaCaption" [First "FORMULA-CAPTION"]
    [("*", "Caption")];
  mkRow "MlFormula" [] "genericMath" [First "GENERIC-MATH"]
    [("*", "MultiLanguagePlainText")];
  mkRow "MlFormula" [] "lGraphics" [All "L-GRAPHIC"]
    [("*", "LGraphic")];
  mkRow "MlFormula" [] "texMath" [First "TEX-MATH"]
    [("*", "MultiLanguagePlainText")];
  mkRow "MlFormula" [] "verbatim" [First "VERBATIM"]
    [("*", "MultiLanguageVerbatim")];
  mkRow "ModeDeclarationGroup" [] "elements/ModeDeclaration" [All "MODE-DECLARATIONS/MODE-DECLARATION"]
    [("*", "ModeDeclaration")];
  mkRow "ModeDeclarationGroup" [] "modeManagerErrorBehavior" [First "MODE-MANAGER-ERROR-BEHAVIOR"]
    [("*", "ModeErrorBehavior")];
  mkRow "ModeDeclarationGroup" [] "modeTransitions" [All "MODE-TRANSITIONS/MODE-TRANSITION"]
    [("*", "ModeTransition")];
  mkRow "ModeDeclarationGroup" [] "modeUserErrorBehavior" [First "MODE-USER-ERROR-BEHAVIOR"]
    [("*", "ModeErrorBehavior")];
  mkRow "ModeDeclarationMappingSet" [] "modeDeclarationMappings" [All "MODE-DECLARATION-MAPPINGS/*"]
    [("MODE-DECLARATION-MAPPING", "ModeDeclarationMapping")];
  mkRow "ModeInterfaceMapping" [] "modeMapping" [First "MODE-MAPPING"]
    [("*", "ModeDeclarationGroupPrototypeMapping")];
  mkRow "ModeSwitchInterface" [] "modeGroup" [First "MODE-GROUP"]
    [("*", "ModeDeclarationGroupPrototype")];
  mkRow "ModeSwitchPoint" [] "modeGroupIRef" [First "MODE-GROUP-IREF"]
    [("*", "PModeGroupInAtomicSwcInstanceRef")];
  mkRow "ModeSwitchSenderComSpec" [] "modeSwitchedAck" [First "MODE-SWITCHED-ACK"]
    [("*", "ModeSwitchedAckRequest")];
  mkRow "Modification" [] "change" [First "CHANGE"]
    [("*", "MultiLanguageOverviewParagraph")];
  mkRow "Modification" [] "reason" [First "REASON"]
    [("*", "MultiLanguageOverviewParagraph")];
  mkRow "MsrQueryP2" [] "msrQueryProps" [First "MSR-QUERY-PROPS"]
    [("*", "MsrQueryProps")];
  mkRow "MsrQueryP2" [] "msrQueryResultP2" [First "MSR-QUERY-RESULT-P2"]
    [("*", "DocumentationBlock")];
  mkRow "MsrQueryProps" [] "msrQueryArgs" [All "MSR-QUERY-ARG"]
    [("*", "MsrQueryArg")];
  mkRow "MultiLanguageOverviewParagraph" [] "l2" [All "L-2"]
    [("*", "LOverviewParagraph")];
  mkRow "MultiLanguageVerbatim" [] "l5s" [All "L-5"]
    [("*", "LVerbatim")];
  mkRow "MultilanguageLongName" [] "l4" [All "L-4"]
    [("*", "LLongName")];
  mkRow "MultilanguageReferrable" ("SdgCaption" :: bare) "longName" [First "LONG-NAME"]
    [("*", "MultilanguageLongName")];
  mkRow "MultiplexedIPdu" [] "containedIPduProps" [First "CONTAINED-I-PDU-PROPS"]
    [("*", "ContainedIPduProps")];
  mkRow "NPdu" [] "containedIPduProps" [First "CONTAINED-I-PDU-PROPS"]
    [("*", "ContainedIPduProps")];
  mkRow "NetworkEndpoint" [] "infrastructureServices" [First "INFRASTRUCTURE-SERVICES"]
    [("*", "InfrastructureServices")];
  mkRow "NetworkEndpoint" [] "networkEndpointAddresses" [All "NETWORK-ENDPOINT-ADDRESSES/*"]
    [("IPV-6-CONFIGURATION", "Ipv6Configuration")];
  mkRow "NmCluster" [] "elements/NmNode" [All "NM-NODES/*"]
    [("CAN-NM-NODE", "CanNmNode"); ("UDP-NM-NODE", "UdpNmNode"); ("J-1939-NM-NODE", "J1939NmNode")];
  mkRow "NmConfig" [] "elements/NmCluster" [All "NM-CLUSTERS/*"]
    [("CAN-NM-CLUSTER", "CanNmCluster"); ("UDP-NM-CLUSTER", "UdpNmCluster")];
  mkRow "NmConfig" [] "nmClusterCouplings" [All "NM-CLUSTER-COUPLINGS/*"]
    [("CAN-NM-CLUSTER-COUPLING", "CanNmClusterCoupling"); ("UDP-NM-CLUSTER-COUPLING", "UdpNmClusterCoupling")];
  mkRow "NmConfig" [] "nmIfEcus" [All "NM-IF-ECUS/*"]
    [("NM-ECU", "NmEcu")];
  mkRow "NmEcu" [] "busDependentNmEcus" [All "BUS-DEPENDENT-NM-ECUS/*"]
    [("UDP-NM-ECU", "UdpNmEcu")];
  mkRow "NmPdu" [] "iSignalToIPduMappings" [All "I-SIGNAL-TO-I-PDU-MAPPINGS/*"]
    [("I-SIGNAL-TO-I-PDU-MAPPING", "ISignalToIPduMapping")];
  mkRow "NonqueuedReceiverComSpec" [] "filter" [First "FILTER"]
    [("*", "DataFilter")];
  mkRow "NonqueuedSenderComSpec" [] "dataFilter" [First "DATA-FILTER"]
    [("*", "DataFilter")];
  mkRow "Note" [] "label" [First "LABEL"]
    [("*", "MultilanguageLongName")];
  mkRow "Note" [] "noteText" [First "NOTE-TEXT"]
    [("*", "DocumentationBlock")];
  mkRow "NvBlockDataMapping" [] "nvRamBlockElement" [First "NV-RAM-BLOCK-ELEMENT"]
    [("*", "AutosarVariableRef")];
  mkRow "NvBlockDataMapping" [] "readNvData" [First "READ-NV-DATA"]
    [("*", "AutosarVariableRef")];
  mkRow "NvBlockDataMapping" [] "writtenNvData" [First "WRITTEN-NV-DATA"]
    [("*", "AutosarVariableRef")];
  mkRow "NvBlockDataMapping" [] "writtenReadNvData" [First "WRITTEN-READ-NV-DATA"]
    [("*", "AutosarVariableRef")];
  mkRow "NvBlockDescriptor" [] "clientServerPorts" [All "CLIENT-SERVER-PORTS/*"]
    [("ROLE-BASED-PORT-ASSIGNMENT", "RoleBasedPortAssignment")];
  mkRow "NvBlockDescriptor" [] "instantiationDataDefPropss" [All "INSTANTIATION-DATA-DEF-PROPSS/INSTANTIATION-DATA-DEF-PROPS"]
    [("*", "InstantiationDataDefProps")];
  mkRow "NvBlockDescriptor" [] "modeSwitchEventTriggeredActivitys" [All "MODE-SWITCH-EVENT-TRIGGERED-ACTIVITYS/*"]
    [("MODE-SWITCH-EVENT-TRIGGERED-ACTIVITY", "ModeSwitchEventTriggeredActivity")];
  mkRow "NvBlockDescriptor" [] "nvBlockDataMappings" [All "NV-BLOCK-DATA-MAPPINGS/NV-BLOCK-DATA-MAPPING"]
    [("*", "NvBlockDataMapping")];
  mkRow "NvBlockDescriptor" [] "nvBlockNeeds" [First "NV-BLOCK-NEEDS"]
    [("*", "NvBlockNeeds")];
  mkRow "NvBlockDescriptor" [] "ramBlock" [First "RAM-BLOCK"]
    [("*", "VariableDataPrototype")];
  mkRow "NvBlockDescriptor" [] "romBlock" [First "ROM-BLOCK"]
    [("*", "ParameterDataPrototype")];
  mkRow "NvBlockDescriptor" [] "writingStrategies" [All "WRITING-STRATEGYS/*"]
    [("ROLE-BASED-DATA-ASSIGNMENT", "RoleBasedDataAssignment")];
  mkRow "NvBlockSwComponentType" [] "bulkNvDataDescriptors" [All "BULK-NV-DATA-DESCRIPTORS/BULK-NV-DATA-DESCRIPTOR"]
    [("*", "BulkNvDataDescriptor")];
  mkRow "NvBlockSwComponentType" [] "nvBlockDescriptors" [All "NV-BLOCK-DESCRIPTORS/NV-BLOCK-DESCRIPTOR"]
    [("*", "NvBlockDescriptor")];
  mkRow "NvDataInterface" [] "elements/VariableDataPrototype" [All "NV-DATAS/*"]
    [("VARIABLE-DATA-PROTOTYPE", "VariableDataPrototype")];
  mkRow "OperationInvokedEvent" [] "operationIRef" [First "OPERATION-IREF"]
    [("*", "POperationInAtomicSwcInstanceRef")];
  mkRow "PPortPrototype" [] "providedComSpecs" [All "PROVIDED-COM-SPECS/*"]
        [("NONQUEUED-SENDER-COM-SPEC", "NonqueuedSenderComSpec"); ("SERVER-COM-SPEC", "ServerComSpec"); ("QUEUED-SENDER-COM-SPEC",
     "QueuedSenderComSpec"); ("MODE-SWITCH-SENDER-COM-SPEC", "ModeSwitchSenderComSpec"); ("NV-PROVIDE-COM-SPEC", "NvProvideComSpec");
     ("PARAMETER-PROVIDE-COM-SPEC", "ParameterProvideComSpec")];
  mkRow "PRPortPrototype" [] "providedComSpecs" [All "PROVIDED-COM-SPECS/*"]
        [("NONQUEUED-SENDER-COM-SPEC", "NonqueuedSenderComSpec"); ("SERVER-COM-SPEC", "ServerComSpec"); ("QUEUED-SENDER-COM-SPEC",
     "QueuedSenderComSpec"); ("MODE-SWITCH-SENDER-COM-SPEC", "ModeSwitchSenderComSpec"); ("NV-PROVIDE-COM-SPEC", "NvProvideComSpec");
     ("PARAMETER-PROVIDE-COM-SPEC", "ParameterProvideComSpec")];
  mkRow "PRPortPrototype" [] "requiredComSpecs" [All "REQUIRED-COM-SPECS/*"]
        [("NONQUEUED-RECEIVER-COM-SPEC", "NonqueuedReceiverComSpec"); ("CLIENT-COM-SPEC", "ClientComSpec"); ("QUEUED-RECEIVER-COM-SPEC",
     "QueuedReceiverComSpec"); ("MODE-SWITCH-RECEIVER-COM-SPEC", "ModeSwitchReceiverComSpec"); ("PARAMETER-REQUIRE-COM-SPEC",
     "ParameterRequireComSpec"); ("NV-REQUIRE-COM-SPEC", "NvRequireComSpec")];
  mkRow "ParameterAccess" [] "accessedParameter" [First "ACCESSED-PARAMETER"]
    [("*", "AutosarParameterRef")];
  mkRow "ParameterInterface" [] "parameters" [All "PARAMETERS/*"]
    [("PARAMETER-DATA-PROTOTYPE", "ParameterDataPrototype")];
  mkRow "PhysConstrs" [] "scaleConstrs" [All "SCALE-CONSTRS/SCALE-CONSTR"]
    [("*", "ScaleConstr")];
  mkRow "PhysicalChannel" [] "elements/FrameTriggering" [All "FRAME-TRIGGERINGS/*"]
        [("CAN-FRAME-TRIGGERING", "CanFrameTriggering"); ("LIN-FRAME-TRIGGERING", "LinFrameTriggering"); ("FLEXRAY-FRAME-TRIGGERING",
     "FlexrayFrameTriggering")];
  mkRow "PhysicalChannel" [] "elements/ISignalTriggering" [All "I-SIGNAL-TRIGGERINGS/*"]
    [("I-SIGNAL-TRIGGERING", "ISignalTriggering")];
  mkRow "PhysicalChannel" [] "elements/PduTriggering" [All "PDU-TRIGGERINGS/*"]
    [("PDU-TRIGGERING", "PduTriggering")];
  mkRow "PortAPIOption" [] "portArgValues" [All "PORT-ARG-VALUES/PORT-DEFINED-ARGUMENT-VALUE"]
    [("*", "PortDefinedArgumentValue")];
  mkRow "PortGroup" [] "_inner_group_iref" [All "INNER-GROUP-IREFS/INNER-GROUP-IREF"]
    [("*", "InnerPortGroupInCompositionInstanceRef")];
  mkRow "PortInterfaceMappingSet" [] "portInterfaceMappings" [All "PORT-INTERFACE-MAPPINGS/*"]
        [("VARIABLE-AND-PARAMETER-INTERFACE-MAPPING", "VariableAndParameterInterfaceMapping"); ("CLIENT-SERVER-INTERFACE-MAPPING",
     "ClientServerInterfaceMapping"); ("MODE-INTERFACE-MAPPING", "ModeInterfaceMapping")];
  mkRow "PortPrototype" [] "clientServerAnnotations" [All "CLIENT-SERVER-ANNOTATIONS/CLIENT-SERVER-ANNOTATION"]
    [("*", "ClientServerAnnotation")];
  mkRow "PortPrototype" [] "delegatedPortAnnotation" [First "DELEGATED-PORT-ANNOTATION"]
    [("*", "DelegatedPortAnnotation")];
  mkRow "PortPrototype" [] "ioHwAbstractionServerAnnotations" [All "IO-HW-ABSTRACTION-SERVER-ANNOTATIONS/IO-HW-ABSTRACTION-SERVER-ANNOTATION"]
    [("*", "IoHwAbstractionServerAnnotation")];
  mkRow "PortPrototype" [] "modePortAnnotations" [All "MODE-PORT-ANNOTATIONS/MODE-PORT-ANNOTATION"]
    [("*", "ModePortAnnotation")];
  mkRow "PortPrototype" [] "nvDataPortAnnotations" [All "NV-DATA-PORT-ANNOTATIONS/NV-DATA-PORT-ANNOTATION"]
    [("*", "NvDataPortAnnotation")];
  mkRow "PortPrototype" [] "parameterPortAnnotations" [All "PARAMETER-PORT-ANNOTATIONS/PARAMETER-PORT-ANNOTATION"]
    [("*", "ParameterPortAnnotation")];
  mkRow "PortPrototype" [] "senderReceiverAnnotations" [All "SENDER-RECEIVER-ANNOTATIONS/SENDER-RECEIVER-ANNOTATION"]
    [("*", "SenderReceiverAnnotation")];
  mkRow "PortPrototype" [] "triggerPortAnnotations" [All "TRIGGER-PORT-ANNOTATIONS/TRIGGER-PORT-ANNOTATION"]
    [("*", "TriggerPortAnnotation")];
  mkRow "PredefinedChapter" [] "chapterModel" [First "CHAPTER-MODEL"]
    [("*", "ChapterModel")];
  mkRow "ProvidedServiceInstance" [] "eventHandlers" [All "EVENT-HANDLERS/*"]
    [("EVENT-HANDLER", "EventHandler")];
  mkRow "ProvidedServiceInstance" [] "sdServerConfig" [First "SD-SERVER-CONFIG"]
    [("*", "SdServerConfig")];
  mkRow "RPortPrototype" [] "requiredComSpecs" [All "REQUIRED-COM-SPECS/*"]
        [("NONQUEUED-RECEIVER-COM-SPEC", "NonqueuedReceiverComSpec"); ("CLIENT-COM-SPEC", "ClientComSpec"); ("QUEUED-RECEIVER-COM-SPEC",
     "QueuedReceiverComSpec"); ("MODE-SWITCH-RECEIVER-COM-SPEC", "ModeSwitchReceiverComSpec"); ("PARAMETER-REQUIRE-COM-SPEC",
     "ParameterRequireComSpec"); ("NV-REQUIRE-COM-SPEC", "NvRequireComSpec")];
  mkRow "RTEEvent" [] "disabledModeIRefs" [All "DISABLED-MODE-IREFS/DISABLED-MODE-IREF"]
    [("*", "RModeInAtomicSwcInstanceRef")];
  mkRow "ReceiverComSpec" [] "compositeNetworkRepresentations" [All "COMPOSITE-NETWORK-REPRESENTATIONS/COMPOSITE-NETWORK-REPRESENTATION"]
    [("*", "CompositeNetworkRepresentation")];
  mkRow "ReceiverComSpec" [] "replaceWith" [First "REPLACE-WITH"]
    [("*", "VariableAccess")];
  mkRow "ReceiverComSpec" [] "transformationComSpecProps" [All "TRANSFORMATION-COM-SPEC-PROPSS/TRANSFORMATION-COM-SPEC-PROPS"; First "*"]
        [("END-TO-END-TRANSFORMATION-COM-SPEC-PROPS", "EndToEndTransformationComSpecProps"); ("USER-DEFINED-TRANSFORMATION-COM-SPEC-PROPS",
     "UserDefinedTransformationComSpecProps")];
  mkRow "ResourceConsumption" [] "accessCountSets" [All "ACCESS-COUNT-SETS/ACCESS-COUNT-SET"]
    [("*", "AccessCountSet")];
    mkRow "ResourceConsumption" [] "elements/AnalyzedExecutionTime+MeasuredExecutionTime+RoughEstimateOfExecutionTime+SimulatedExecutionTime" [All
     "EXECUTION-TIMES/*"]
        [("ANALYZED-EXECUTION-TIME", "AnalyzedExecutionTime"); ("MEASURED-EXECUTION-TIME", "MeasuredExecutionTime");
     ("ROUGH-ESTIMATE-OF-EXECUTION-TIME", "RoughEstimateOfExecutionTime"); ("SIMULATED-EXECUTION-TIME", "SimulatedExecutionTime")];
  mkRow "ResourceConsumption" [] "elements/HeapUsage" [All "HEAP-USAGES/*"]
        [("MEASURED-HEAP-USAGE", "MeasuredHeapUsage"); ("ROUGH-ESTIMATE-HEAP-USAGE", "RoughEstimateHeapUsage"); ("WORST-CASE-HEAP-USAGE",
     "WorstCaseHeapUsage")];
  mkRow "ResourceConsumption" [] "elements/MemorySection" [All "MEMORY-SECTIONS/MEMORY-SECTION"]
    [("*", "MemorySection")];
  mkRow "ResourceConsumption" [] "elements/SectionNamePrefix" [All "SECTION-NAME-PREFIXS/SECTION-NAME-PREFIX"]
    [("*", "SectionNamePrefix")];
  mkRow "ResourceConsumption" [] "elements/StackUsage" [All "STACK-USAGES/*"]
        [("ROUGH-ESTIMATE-STACK-USAGE", "RoughEstimateStackUsage"); ("MEASURED-STACK-USAGE", "MeasuredStackUsage"); ("WORST-CASE-STACK-USAGE",
     "WorstCaseStackUsage")];
  mkRow "RoleBasedDataAssignment" [] "usedDataElement" [First "USED-DATA-ELEMENT"]
    [("*", "AutosarVariableRef")];
  mkRow "RoleBasedDataAssignment" [] "usedParameterElement" [First "USED-PARAMETER-ELEMENT"]
    [("*", "AutosarParameterRef")];
  mkRow "RoughEstimateOfExecutionTime" [] "estimatedExecutionTime" [First "ESTIMATED-EXECUTION-TIME"]
    [("*", "MultidimensionalTime")];
  mkRow "RptComponent" [] "mcDataAssignments" [All "MC-DATA-ASSIGNMENTS/ROLE-BASED-MC-DATA-ASSIGNMENT"]
    [("*", "RoleBasedMcDataAssignment")];
  mkRow "RptComponent" [] "rpImplPolicy" [First "RP-IMPL-POLICY"]
    [("*", "RptImplPolicy")];
  mkRow "RptComponent" [] "rptExecutableEntities" [All "RPT-EXECUTABLE-ENTITYS/RPT-EXECUTABLE-ENTITY"]
    [("*", "RptExecutableEntity")];
  mkRow "RptExecutableEntity" [] "rptExecutableEntityEvents" [All "RPT-EXECUTABLE-ENTITY-EVENTS/RPT-EXECUTABLE-ENTITY-EVENT"]
    [("*", "RptExecutableEntityEvent")];
  mkRow "RptExecutableEntity" [] "rptReads" [All "RPT-READS/ROLE-BASED-MC-DATA-ASSIGNMENT"]
    [("*", "RoleBasedMcDataAssignment")];
  mkRow "RptExecutableEntity" [] "rptWrites" [All "RPT-WRITES/ROLE-BASED-MC-DATA-ASSIGNMENT"]
    [("*", "RoleBasedMcDataAssignment")];
  mkRow "RptExecutableEntityEvent" [] "mcDataAssignments" [All "MC-DATA-ASSIGNMENTS/ROLE-BASED-MC-DATA-ASSIGNMENT"]
    [("*", "RoleBasedMcDataAssignment")];
  mkRow "RptExecutableEntityEvent" [] "rptExecutableEntityProperties" [First "RPT-EXECUTABLE-ENTITY-PROPERTIES"]
    [("*", "RptExecutableEntityProperties")];
  mkRow "RptExecutableEntityEvent" [] "rptImplPolicy" [First "RPT-IMPL-POLICY"]
    [("*", "RptImplPolicy")];
  mkRow "RptSupportData" [] "executionContexts" [All "EXECUTION-CONTEXTS/RPT-EXECUTION-CONTEXT"]
    [("*", "RptExecutionContext")];
  mkRow "RptSupportData" [] "rptComponents" [All "RPT-COMPONENTS/RPT-COMPONENT"]
    [("*", "RptComponent")];
  mkRow "RptSupportData" [] "rptServicePoints" [All "RPT-SERVICE-POINTS/RPT-SERVICE-POINT"]
    [("*", "RptServicePoint")];
  mkRow "RunnableEntity" [] "arguments" [All "ARGUMENTS/*"]
    [("RUNNABLE-ENTITY-ARGUMENT", "RunnableEntityArgument")];
  mkRow "RunnableEntity" [] "dataReadAccesses" [All "DATA-READ-ACCESSS/VARIABLE-ACCESS"]
    [("*", "VariableAccess")];
  mkRow "RunnableEntity" [] "dataReceivePointByArguments" [All "DATA-RECEIVE-POINT-BY-ARGUMENTS/VARIABLE-ACCESS"]
    [("*", "VariableAccess")];
  mkRow "RunnableEntity" [] "dataReceivePointByValues" [All "DATA-RECEIVE-POINT-BY-VALUES/VARIABLE-ACCESS"]
    [("*", "VariableAccess")];
  mkRow "RunnableEntity" [] "dataSendPoints" [All "DATA-SEND-POINTS/VARIABLE-ACCESS"]
    [("*", "VariableAccess")];
  mkRow "RunnableEntity" [] "dataWriteAccesses" [All "DATA-WRITE-ACCESSS/VARIABLE-ACCESS"]
    [("*", "VariableAccess")];
    mkRow "RunnableEntity" [] "elements/AsynchronousServerCallResultPoint" [All
     "ASYNCHRONOUS-SERVER-CALL-RESULT-POINTS/ASYNCHRONOUS-SERVER-CALL-RESULT-POINT"]
    [("*", "AsynchronousServerCallResultPoint")];
  mkRow "RunnableEntity" [] "elements/InternalTriggeringPoint" [All "INTERNAL-TRIGGERING-POINTS/INTERNAL-TRIGGERING-POINT"]
    [("*", "InternalTriggeringPoint")];
  mkRow "RunnableEntity" [] "elements/ModeSwitchPoint" [All "MODE-SWITCH-POINTS/*"]
    [("MODE-SWITCH-POINT", "ModeSwitchPoint")];
  mkRow "RunnableEntity" [] "elements/ParameterAccess" [All "PARAMETER-ACCESSS/PARAMETER-ACCESS"]
    [("*", "ParameterAccess")];
  mkRow "RunnableEntity" [] "elements/ServerCallPoint" [All "SERVER-CALL-POINTS/*"]
    [("SYNCHRONOUS-SERVER-CALL-POINT", "SynchronousServerCallPoint"); ("ASYNCHRONOUS-SERVER-CALL-POINT", "AsynchronousServerCallPoint")];
  mkRow "RunnableEntity" [] "externalTriggeringPoints" [All "EXTERNAL-TRIGGERING-POINTS/EXTERNAL-TRIGGERING-POINT"]
    [("*", "ExternalTriggeringPoint")];
  mkRow "RunnableEntity" [] "modeAccessPoints" [All "MODE-ACCESS-POINTS/*"]
    [("MODE-ACCESS-POINT", "ModeAccessPoint")];
  mkRow "RunnableEntity" [] "readLocalVariables" [All "READ-LOCAL-VARIABLES/VARIABLE-ACCESS"]
    [("*", "VariableAccess")];
  mkRow "RunnableEntity" [] "waitPoints" [All "WAIT-POINTS/WAIT-POINT"]
    [("*", "WaitPoint")];
  mkRow "RunnableEntity" [] "writtenLocalVariables" [All "WRITTEN-LOCAL-VARIABLES/VARIABLE-ACCESS"]
    [("*", "VariableAccess")];
  mkRow "RunnableEntityGroup" [] "runnableEntityGroupIRefs" [All "RUNNABLE-ENTITY-GROUP-IREFS/RUNNABLE-ENTITY-GROUP-IREF"]
    [("*", "InnerRunnableEntityGroupInCompositionInstanceRef")];
  mkRow "RunnableEntityGroup" [] "runnableEntityIRefs" [All "RUNNABLE-ENTITY-IREFS/RUNNABLE-ENTITY-IREF"]
    [("*", "RunnableEntityInCompositionInstanceRef")];
  mkRow "ScaleConstr" [] "desc" [First "DESC"]
    [("*", "MultiLanguageOverviewParagraph")];
  mkRow "SdClientConfig" [] "initialFindBehavior" [First "INITIAL-FIND-BEHAVIOR"]
    [("*", "InitialSdDelayConfig")];
  mkRow "SdClientConfig" [] "requestResponseDelay" [First "REQUEST-RESPONSE-DELAY"]
    [("*", "RequestResponseDelay")];
  mkRow "SdServerConfig" [] "initialOfferBehavior" [First "INITIAL-OFFER-BEHAVIOR"]
    [("*", "InitialSdDelayConfig")];
  mkRow "SdServerConfig" [] "requestResponseDelay" [First "REQUEST-RESPONSE-DELAY"]
    [("*", "RequestResponseDelay")];
  mkRow "Sdg" [] "sdgCaption" [First "SDG-CAPTION"]
    [("*", "SdgCaption")];
  mkRow "SecureCommunicationPropsSet" [] "authenticationProps" [All "AUTHENTICATION-PROPSS/*"]
    [("SECURE-COMMUNICATION-AUTHENTICATION-PROPS", "SecureCommunicationAuthenticationProps")];
  mkRow "SecureCommunicationPropsSet" [] "freshnessProps" [All "FRESHNESS-PROPSS/*"]
    [("SECURE-COMMUNICATION-FRESHNESS-PROPS", "SecureCommunicationFreshnessProps")];
  mkRow "SecuredIPdu" [] "containedIPduProps" [First "CONTAINED-I-PDU-PROPS"]
    [("*", "ContainedIPduProps")];
  mkRow "SecuredIPdu" [] "secureCommunicationProps" [First "SECURE-COMMUNICATION-PROPS"]
    [("*", "SecureCommunicationProps")];
  mkRow "SenderComSpec" [] "compositeNetworkRepresentations" [All "COMPOSITE-NETWORK-REPRESENTATIONS/COMPOSITE-NETWORK-REPRESENTATION"]
    [("*", "CompositeNetworkRepresentation")];
  mkRow "SenderComSpec" [] "transmissionAcknowledge" [First "TRANSMISSION-ACKNOWLEDGE"]
    [("*", "TransmissionAcknowledgementRequest")];
  mkRow "SenderComSpec" [] "transmissionProps" [First "TRANSMISSION-PROPS"]
    [("*", "TransmissionComSpecProps")];
  mkRow "SenderRecRecordTypeMapping" [] "recordElementMappings" [All "RECORD-ELEMENT-MAPPINGS/*"]
    [("SENDER-REC-RECORD-ELEMENT-MAPPING", "SenderRecRecordElementMapping")];
  mkRow "SenderReceiverInterface" [] "elements/VariableDataPrototype" [All "DATA-ELEMENTS/*"]
    [("VARIABLE-DATA-PROTOTYPE", "VariableDataPrototype")];
  mkRow "SenderReceiverInterface" [] "invalidationPolicies" [All "INVALIDATION-POLICYS/INVALIDATION-POLICY"]
    [("*", "InvalidationPolicy")];
  mkRow "SenderReceiverToSignalGroupMapping" [] "typeMapping" [First "TYPE-MAPPING/*"]
    [("SENDER-REC-RECORD-TYPE-MAPPING", "SenderRecRecordTypeMapping")];
  mkRow "ServerCallPoint" [] "operationIRef" [First "OPERATION-IREF"]
    [("*", "ROperationInAtomicSwcInstanceRef")];
  mkRow "ServerComSpec" [] "transformationComSpecProps" [All "TRANSFORMATION-COM-SPEC-PROPSS/*"]
        [("END-TO-END-TRANSFORMATION-COM-SPEC-PROPS", "EndToEndTransformationComSpecProps"); ("USER-DEFINED-TRANSFORMATION-COM-SPEC-PROPS",
     "UserDefinedTransformationComSpecProps")];
  mkRow "ServiceDependency" [] "assignedData" [All "ASSIGNED-DATAS/*"]
    [("ROLE-BASED-DATA-ASSIGNMENT", "RoleBasedDataAssignment")];
  mkRow "ServiceDependency" [] "assignedDataTypes" [All "ASSIGNED-DATA-TYPES/*"]
    [("ROLE-BASED-DATA-TYPE-ASSIGNMENT", "RoleBasedDataTypeAssignment")];
  mkRow "ServiceDependency" [] "symbolicNameProps" [First "SYMBOLIC-NAME-PROPS"]
    [("*", "SymbolicNameProps")];
  mkRow "SignalServiceTranslationElementProps" [] "filter" [First "FILTER"]
    [("*", "DataFilter")];
  mkRow "SignalServiceTranslationEventProps" [] "elementProps" [All "SIGNAL-SERVICE-TRANSLATION-ELEMENT-PROPS"]
    [("*", "SignalServiceTranslationElementProps")];
  mkRow "SignalServiceTranslationEventProps" [] "translationTarget" [First "TRANSLATION-TARGET"]
    [("*", "VariableDataPrototypeInSystemInstanceRef")];
  mkRow "SignalServiceTranslationProps" [] "signalServiceTranslationEventProps" [All "SIGNAL-SERVICE-TRANSLATION-EVENT-PROPS"]
    [("*", "SignalServiceTranslationEventProps")];
  mkRow "SignalServiceTranslationPropsSet" [] "signalServiceTranslationProps" [All "SIGNAL-SERVICE-TRANSLATION-PROPS"]
    [("*", "SignalServiceTranslationProps")];
  mkRow "SimulatedExecutionTime" [] "maximumExecutionTime" [First "MAXIMUM-EXECUTION-TIME"]
    [("*", "MultidimensionalTime")];
  mkRow "SimulatedExecutionTime" [] "minimumExecutionTime" [First "MINIMUM-EXECUTION-TIME"]
    [("*", "MultidimensionalTime")];
  mkRow "SimulatedExecutionTime" [] "nominalExecutionTime" [First "NOMINAL-EXECUTION-TIME"]
    [("*", "MultidimensionalTime")];
  mkRow "SoAdConfig" [] "connectionBundles" [All "CONNECTION-BUNDLES/*"]
    [("SOCKET-CONNECTION-BUNDLE", "SocketConnectionBundle")];
  mkRow "SoAdConfig" [] "socketAddresses" [All "SOCKET-ADDRESSS/*"]
    [("SOCKET-ADDRESS", "SocketAddress")];
  mkRow "SocketAddress" [] "applicationEndpoint" [First "APPLICATION-ENDPOINT"]
    [("*", "ApplicationEndpoint")];
  mkRow "SocketConnectionBundle" [] "bundledConnections" [All "BUNDLED-CONNECTIONS/*"]
    [("SOCKET-CONNECTION", "SocketConnection")];
  mkRow "StackUsage" [] "hardwareConfiguration" [First "HARDWARE-CONFIGURATION"]
    [("*", "HardwareConfiguration")];
  mkRow "StackUsage" [] "softwareContext" [First "SOFTWARE-CONTEXT"]
    [("*", "SoftwareContext")];
  mkRow "StructuredReq" [] "conflicts" [First "CONFLICTS"]
    [("*", "DocumentationBlock")];
  mkRow "StructuredReq" [] "dependencies" [First "DEPENDENCIES"]
    [("*", "DocumentationBlock")];
  mkRow "StructuredReq" [] "description" [First "DESCRIPTION"]
    [("*", "DocumentationBlock")];
  mkRow "StructuredReq" [] "rationale" [First "RATIONALE"]
    [("*", "DocumentationBlock")];
  mkRow "StructuredReq" [] "remark" [First "REMARK"]
    [("*", "DocumentationBlock")];
  mkRow "StructuredReq" [] "supportingMaterial" [First "SUPPORTING-MATERIAL"]
    [("*", "DocumentationBlock")];
  mkRow "StructuredReq" [] "useCase" [First "USE-CASE"]
    [("*", "DocumentationBlock")];
  mkRow "SwComponentDocumentation" [] "chapters" [All "CHAPTER"]
    [("*", "Chapter")];
  mkRow "SwComponentDocumentation" [] "swCalibrationNotes" [First "SW-CALIBRATION-NOTES"]
    [("*", "Chapter")];
  mkRow "SwComponentDocumentation" [] "swCarbDoc" [First "SW-CARB-DOC"]
    [("*", "Chapter")];
  mkRow "SwComponentDocumentation" [] "swDiagnosticsNotes" [First "SW-DIAGNOSTICS-NOTES"]
    [("*", "Chapter")];
  mkRow "SwComponentDocumentation" [] "swFeatureDef" [First "SW-FEATURE-DEF"]
    [("*", "Chapter")];
  mkRow "SwComponentDocumentation" [] "swFeatureDesc" [First "SW-FEATURE-DESC"]
    [("*", "Chapter")];
  mkRow "SwComponentDocumentation" [] "swMaintenanceNotes" [First "SW-MAINTENANCE-NOTES"]
    [("*", "Chapter")];
  mkRow "SwComponentDocumentation" [] "swTestDesc" [First "SW-TEST-DESC"]
    [("*", "Chapter")];
  mkRow "SwComponentType" [] "consistencyNeeds" [All "CONSISTENCY-NEEDSS/CONSISTENCY-NEEDS"]
    [("*", "ConsistencyNeeds")];
  mkRow "SwComponentType" [] "portGroups" [All "PORT-GROUPS/*"]
    [("PORT-GROUP", "PortGroup")];
  mkRow "SwComponentType" [] "ports" [All "PORTS/*"]
    [("P-PORT-PROTOTYPE", "PPortPrototype"); ("R-PORT-PROTOTYPE", "RPortPrototype"); ("PR-PORT-PROTOTYPE", "PRPortPrototype")];
  mkRow "SwComponentType" [] "swComponentDocumentation" [First "SW-COMPONENT-DOCUMENTATION"]
    [("*", "SwComponentDocumentation")];
  mkRow "SwRecordLayout" [] "swRecordLayoutGroup" [First "SW-RECORD-LAYOUT-GROUP"]
    [("*", "SwRecordLayoutGroup")];
  mkRow "SwRecordLayoutGroupContent" [] "swRecordLayoutGroup" [First "SW-RECORD-LAYOUT-GROUP"]
    [("*", "SwRecordLayoutGroup")];
  mkRow "SwRecordLayoutGroupContent" [] "swRecordLayoutV" [First "SW-RECORD-LAYOUT-V"]
    [("*", "SwRecordLayoutV")];
  mkRow "SwServiceArg" [] "swArraysize" [First "SW-ARRAYSIZE"]
    [("*", "ValueList")];
  mkRow "SwSystemconstantValueSet" [] "swSystemconstantValues" [All "SW-SYSTEMCONSTANT-VALUES/*"]
    [("SW-SYSTEMCONST-VALUE", "SwSystemconstValue")];
  mkRow "SwcBswMapping" [] "runnableMappings" [All "RUNNABLE-MAPPINGS/SWC-BSW-RUNNABLE-MAPPING"]
    [("*", "SwcBswRunnableMapping")];
  mkRow "SwcBswMapping" [] "synchronizedModeGroups" [All "SYNCHRONIZED-MODE-GROUPS/SWC-BSW-SYNCHRONIZED-MODE-GROUP-PROTOTYPE"]
    [("*", "SwcBswSynchronizedModeGroupPrototype")];
  mkRow "SwcBswMapping" [] "synchronizedTriggers" [All "SYNCHRONIZED-TRIGGERS/SWC-BSW-SYNCHRONIZED-TRIGGER"]
    [("*", "SwcBswSynchronizedTrigger")];
  mkRow "SwcBswSynchronizedModeGroupPrototype" [] "swcModeGroupIRef" [First "SWC-MODE-GROUP-IREF"]
    [("*", "PModeGroupInAtomicSwcInstanceRef")];
  mkRow "SwcBswSynchronizedTrigger" [] "swcTriggerIRef" [First "SWC-TRIGGER-IREF"]
    [("*", "PTriggerInAtomicSwcTypeInstanceRef")];
  mkRow "SwcInternalBehavior" [] "arTypedPerInstanceMemories" [All "AR-TYPED-PER-INSTANCE-MEMORYS/VARIABLE-DATA-PROTOTYPE"]
    [("*", "VariableDataPrototype")];
  mkRow "SwcInternalBehavior" [] "elements/RTEEvent" [All "EVENTS/*"]
        [("TIMING-EVENT", "TimingEvent"); ("SWC-MODE-SWITCH-EVENT", "SwcModeSwitchEvent"); ("OPERATION-INVOKED-EVENT", "OperationInvokedEvent");
     ("DATA-RECEIVED-EVENT", "DataReceivedEvent"); ("INTERNAL-TRIGGER-OCCURRED-EVENT", "InternalTriggerOccurredEvent"); ("INIT-EVENT", "InitEvent");
     ("ASYNCHRONOUS-SERVER-CALL-RETURNS-EVENT", "AsynchronousServerCallReturnsEvent"); ("MODE-SWITCHED-ACK-EVENT", "ModeSwitchedAckEvent");
     ("BACKGROUND-EVENT", "BackgroundEvent"); ("DATA-SEND-COMPLETED-EVENT", "DataSendCompletedEvent")];
  mkRow "SwcInternalBehavior" [] "elements/RunnableEntity" [All "RUNNABLES/*"]
    [("RUNNABLE-ENTITY", "RunnableEntity")];
  mkRow "SwcInternalBehavior" [] "elements/SwcServiceDependency" [All "SERVICE-DEPENDENCYS/*"]
    [("SWC-SERVICE-DEPENDENCY", "SwcServiceDependency")];
  mkRow "SwcInternalBehavior" [] "exclusiveAreaPolicies" [All "EXCLUSIVE-AREA-POLICYS/SWC-EXCLUSIVE-AREA-POLICY"]
    [("*", "SwcExclusiveAreaPolicy")];
  mkRow "SwcInternalBehavior" [] "explicitInterRunnableVariables" [All "EXPLICIT-INTER-RUNNABLE-VARIABLES/VARIABLE-DATA-PROTOTYPE"]
    [("*", "VariableDataPrototype")];
  mkRow "SwcInternalBehavior" [] "includedModeDeclarationGroupSets" [All "INCLUDED-MODE-DECLARATION-GROUP-SETS/*"]
    [("INCLUDED-MODE-DECLARATION-GROUP-SET", "IncludedModeDeclarationGroupSet")];
  mkRow "SwcInternalBehavior" [] "instantiationDataDefProps" [All "INSTANTIATION-DATA-DEF-PROPSS/INSTANTIATION-DATA-DEF-PROPS"]
    [("*", "InstantiationDataDefProps")];
  mkRow "SwcInternalBehavior" [] "perInstanceMemories" [All "PER-INSTANCE-MEMORYS/PER-INSTANCE-MEMORY"]
    [("*", "PerInstanceMemory")];
  mkRow "SwcInternalBehavior" [] "perInstanceParameters" [All "PER-INSTANCE-PARAMETERS/PARAMETER-DATA-PROTOTYPE"]
    [("*", "ParameterDataPrototype")];
  mkRow "SwcInternalBehavior" [] "portAPIOptions" [All "PORT-API-OPTIONS/PORT-API-OPTION"]
    [("*", "PortAPIOption")];
  mkRow "SwcInternalBehavior" [] "sharedParameters" [All "SHARED-PARAMETERS/PARAMETER-DATA-PROTOTYPE"]
    [("*", "ParameterDataPrototype")];
  mkRow "SwcInternalBehavior" [] "variationPointProxies" [All "VARIATION-POINT-PROXYS/VARIATION-POINT-PROXY"]
    [("*", "VariationPointProxy")];
  mkRow "SwcModeSwitchEvent" [] "modeIRefs" [All "MODE-IREFS/MODE-IREF"]
    [("*", "RModeInAtomicSwcInstanceRef")];
  mkRow "SwcServiceDependency" [] "assignedPort" [All "ASSIGNED-PORTS/*"]
    [("ROLE-BASED-PORT-ASSIGNMENT", "RoleBasedPortAssignment")];
  mkRow "SwcServiceDependency" [] "elements/ServiceNeeds" [All "SERVICE-NEEDS/*"]
        [("NV-BLOCK-NEEDS", "NvBlockNeeds"); ("DIAGNOSTIC-COMMUNICATION-MANAGER-NEEDS", "DiagnosticCommunicationManagerNeeds");
     ("DIAGNOSTIC-ROUTINE-NEEDS", "DiagnosticRoutineNeeds"); ("DIAGNOSTIC-VALUE-NEEDS", "DiagnosticValueNeeds"); ("DIAGNOSTIC-EVENT-NEEDS",
     "DiagnosticEventNeeds"); ("DIAGNOSTIC-EVENT-INFO-NEEDS", "DiagnosticEventInfoNeeds"); ("DIAGNOSTIC-IO-CONTROL-NEEDS",
     "DiagnosticIoControlNeeds"); ("CRYPTO-SERVICE-NEEDS", "CryptoServiceNeeds"); ("ECU-STATE-MGR-USER-NEEDS", "EcuStateMgrUserNeeds");
     ("DTC-STATUS-CHANGE-NOTIFICATION-NEEDS", "DtcStatusChangeNotificationNeeds"); ("DLT-USER-NEEDS", "DltUserNeeds"); ("COM-MGR-USER-NEEDS",
     "ComMgrUserNeeds"); ("ERROR-TRACER-NEEDS", "ErrorTracerNeeds"); ("DIAGNOSTIC-ENABLE-CONDITION-NEEDS", "DiagnosticEnableConditionNeeds");
     ("DIAGNOSTIC-OPERATION-CYCLE-NEEDS", "DiagnosticOperationCycleNeeds"); ("DIAGNOSTIC-STORAGE-CONDITION-NEEDS", "DiagnosticStorageConditionNeeds");
     ("INDICATOR-STATUS-NEEDS", "IndicatorStatusNeeds"); ("FUNCTION-INHIBITION-AVAILABILITY-NEEDS", "FunctionInhibitionAvailabilityNeeds");
     ("OBD-INFO-SERVICE-NEEDS", "ObdInfoServiceNeeds"); ("OBD-MONITOR-SERVICE-NEEDS", "ObdMonitorServiceNeeds"); ("OBD-PID-SERVICE-NEEDS",
     "ObdPidServiceNeeds"); ("OBD-CONTROL-SERVICE-NEEDS", "ObdControlServiceNeeds"); ("OBD-RATIO-SERVICE-NEEDS", "ObdRatioServiceNeeds");
     ("OBD-RATIO-DENOMINATOR-NEEDS", "ObdRatioDenominatorNeeds"); ("DO-IP-ROUTING-ACTIVATION-AUTHENTICATION-NEEDS",
     "DoIpRoutingActivationAuthenticationNeeds"); ("DO-IP-ROUTING-ACTIVATION-CONFIRMATION-NEEDS", "DoIpRoutingActivationConfirmationNeeds");
     ("SECURE-ON-BOARD-COMMUNICATION-NEEDS", "SecureOnBoardCommunicationNeeds"); ("IDS-MGR-NEEDS", "IdsMgrNeeds")];
  mkRow "SwcTiming" [] "timing_requirements" [All "TIMING-REQUIREMENTS/*"]
    [("EXECUTION-ORDER-CONSTRAINT", "ExecutionOrderConstraint")];
  mkRow "SwcToEcuMapping" [] "componentIRefs" [All "COMPONENT-IREFS/COMPONENT-IREF"]
    [("*", "ComponentInSystemInstanceRef")];
  mkRow "SwcToImplMapping" [] "componentIRefs" [All "COMPONENT-IREFS/COMPONENT-IREF"]
    [("*", "ComponentInSystemInstanceRef")];
  mkRow "System" [] "elements/SystemMapping" [All "MAPPINGS/*"]
    [("SYSTEM-MAPPING", "SystemMapping")];
  mkRow "System" [] "rootSoftwareComposition" [First "ROOT-SOFTWARE-COMPOSITIONS/ROOT-SW-COMPOSITION-PROTOTYPE"]
    [("*", "RootSwCompositionPrototype")];
  mkRow "SystemMapping" [] "dataMappings" [All "DATA-MAPPINGS/*"]
        [("SENDER-RECEIVER-TO-SIGNAL-MAPPING", "SenderReceiverToSignalMapping"); ("SENDER-RECEIVER-TO-SIGNAL-GROUP-MAPPING",
     "SenderReceiverToSignalGroupMapping")];
  mkRow "SystemMapping" [] "ecuResourceMappings" [All "ECU-RESOURCE-MAPPINGS/*"]
    [("ECU-MAPPING", "ECUMapping")];
  mkRow "SystemMapping" [] "swImplMappings" [All "SW-IMPL-MAPPINGS/*"]
    [("SWC-TO-IMPL-MAPPING", "SwcToImplMapping")];
  mkRow "SystemMapping" [] "swMappings" [All "SW-MAPPINGS/*"]
    [("SWC-TO-ECU-MAPPING", "SwcToEcuMapping")];
  mkRow "TcpTp" [] "tcpTpPort" [First "TCP-TP-PORT"]
    [("*", "TpPort")];
  mkRow "TpConnection" [] "ident" [First "IDENT"]
    [("*", "TpConnectionIdent")];
  mkRow "TraceableText" [] "text" [First "TEXT"]
    [("*", "DocumentationBlock")];
  mkRow "TransformationTechnology" [] "bufferProperties" [First "BUFFER-PROPERTIES"]
    [("*", "BufferProperties")];
  mkRow "TransientFault" [] "possibleErrorReactions" [All "POSSIBLE-ERROR-REACTIONS/*"]
    [("POSSIBLE-ERROR-REACTION", "PossibleErrorReaction")];
  mkRow "TransmissionModeDeclaration" [] "transmissionModeFalseTiming" [First "TRANSMISSION-MODE-FALSE-TIMING"]
    [("*", "TransmissionModeTiming")];
  mkRow "TransmissionModeDeclaration" [] "transmissionModeTrueTiming" [First "TRANSMISSION-MODE-TRUE-TIMING"]
    [("*", "TransmissionModeTiming")];
  mkRow "TransmissionModeTiming" [] "cyclicTiming" [First "CYCLIC-TIMING"]
    [("*", "CyclicTiming")];
  mkRow "TransmissionModeTiming" [] "eventControlledTiming" [First "EVENT-CONTROLLED-TIMING"]
    [("*", "EventControlledTiming")];
  mkRow "UdpTp" [] "udpTpPort" [First "UDP-TP-PORT"]
    [("*", "TpPort")];
  mkRow "UserDefinedIPdu" [] "containedIPduProps" [First "CONTAINED-I-PDU-PROPS"]
    [("*", "ContainedIPduProps")];
  mkRow "VariableAccess" [] "accessedVariableRef" [First "ACCESSED-VARIABLE"]
    [("*", "AutosarVariableRef")];
  mkRow "VariationPointProxy" [] "conditionAccess" [First "CONDITION-ACCESS"]
    [("*", "ConditionByFormula")];
  mkRow "VariationPointProxy" [] "postBuildVariantConditions" [All "POST-BUILD-VARIANT-CONDITIONS/POST-BUILD-VARIANT-CONDITION"]
    [("*", "PostBuildVariantCondition")]].

(** the objects an attribute holds *)
Definition items (w : val) : list val := match w with VList l => l | VObj _ _ => [w] | _ => [] end.
Definition class_name (w : val) : option string := match w with VObj c _ => Some c | _ => None end.
Definition has_name (c : string) : bool := match assoc "short_name" (attrs_of c) with Some _ => true | None => false end.

(** [kept_in x v]: object [v] has the SHORT-NAME of element [x], and for every row of the table the
    elements below [x] that the row speaks about and the objects in the attribute correspond one to one,
    in order, each object with the class for its tag and itself [kept_in]; objects of the classes of
    [bare] never have one of the [unread] attributes *)
Inductive kept_in : xml -> val -> Prop :=
| kept_obj : forall x c fs,
    (has_name c = true -> exists n, short_name x = Ok n /\ assoc "short_name" fs = Some (of_opt_str n)) ->
    (forall r, In r kept_rows -> applies r c = true -> exists w, assoc (r_attr r) fs = Some w /\
       Forall2 (fun y v => class_name v = pick (r_kinds r) (xtag y) /\ kept_in y v)
               (picked (r_path r) (r_kinds r) x) (items w)) ->
    (In c bare -> forall a, In a unread -> assoc a fs = Some VNone) ->
    kept_in x (VObj c fs).

(** *** what follows for the package tree, without the table *)
Definition named_after (y : xml) (v : val) : Prop :=
  exists n, short_name y = Ok n /\ field v "short_name" = Some (of_opt_str n).
Definition with_tag (t : string) (y : xml) : bool := String.eqb (xtag y) t.
Definition readable (y : xml) : bool := match assoc (xtag y) readable_elements with Some _ => true | None => false end.
Inductive package_kept : xml -> val -> Prop :=
| package_kept_intro : forall x v subs els, class_name v = Some "ARPackage" -> named_after x v ->
    field v "arPackages" = Some subs -> Forall2 package_kept (filter (with_tag "AR-PACKAGE") (findall "AR-PACKAGES/*" x)) (items subs) ->
    field v "elements" = Some els ->
    Forall2 (fun y w => class_name w = assoc (xtag y) readable_elements /\ named_after y w)
            (filter readable (findall "ELEMENTS/*" x)) (items els) ->
    package_kept x v.

(** *** places in a file and in a document: which row, which of its elements *)
Fixpoint element_at (c : string) (way : list (row * nat)) (x : xml) : option (string * xml) :=
  match way with
  | [] => Some (c, x)
  | (r, i) :: rest =>
      if applies r c then
        match nth_error (picked (r_path r) (r_kinds r) x) i with
        | Some y => match pick (r_kinds r) (xtag y) with Some c' => element_at c' rest y | None => None end
        | None => None
        end
      else None
  end.
Fixpoint object_at (way : list (row * nat)) (v : val) : option val :=
  match way with
  | [] => Some v
  | (r, i) :: rest =>
      match field v (r_attr r) with
      | Some w => match nth_error (items w) i with Some o => object_at rest o | None => None end
      | None => None
      end
  end.
