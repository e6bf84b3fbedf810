(** What C60 says: which texts, references and XML attributes of a file must be found again in the
    loaded document. *)
From Coq Require Import String Ascii List Bool Arith.
From Verif Require Import PyBase Primitives Xml Leaf ClassTable Ir IrSem SpecRoundTrip SpecKeep.
Import ListNotations.
Open Scope string_scope.
Open Scope list_scope.

(** where the value of an attribute comes from: the element at a path read as a value of some kind
    (Leaf.v), all elements at a path, an XML attribute *)
Inductive source := SText (k : rkind) (path : string) | STexts (k : rkind) (path : string) | SAttr (name : string).

(** objects of class [t_class] (or of a class derived from it, except the classes of [t_except]) hold
    in attribute [t_attr] what [t_source] describes, seen from the element reached by the paths [t_path] *)
Record trow := mkText { t_class : string; t_except : list string; t_attr : string; t_path : list string; t_source : source }.
Definition t_applies (t : trow) (c : string) : bool := isinst c (t_class t) && negb (existsb (String.eqb c) (t_except t)).

(** the value of an attribute nothing was read into *)
Definition nothing (s : source) : val := match s with STexts _ _ => VList [] | _ => VNone end.
(** [held ps s x w]: value [w] is what the file says at paths [ps] below element [x] *)
Fixpoint held (ps : list string) (s : source) (x : xml) (w : val) : Prop :=
  match ps with
  | p :: r => match find p x with Some y => held r s y w | None => w = nothing s end
  | [] =>
      match s with
      | SText k p => exists l, leaf_read k p x = Ok l /\ w = of_leaf l
      | STexts k p => exists l, leaf_list k p x = Ok l /\ w = VList (map VLeaf l)
      | SAttr a => w = of_opt_str (xattr a x)
      end
  end.

(** classes whose reader methods never look at the XML attributes T and UUID of the element
    (readARObjectAttributes, armodel/parser/abstract_arxml_parser.py:314-319, is not called).
    The classes of [mixed] take them at some places, or from another element. *)
Definition mixed : list string := ["EndToEndTransformationISignalProps"; "NonqueuedReceiverComSpec"; "QueuedReceiverComSpec"].
Definition stampless : list string :=
  ["AUTOSAR"; "AccessCount"; "AccessCountSet"; "AnyInstanceRef"; "ApplicationCompositeElementInPortInterfaceInstanceRef"; "ApplicationEndpoint";
   "ApplicationEntry"; "AutosarParameterRef"; "BswAsynchronousServerCallReturnsEvent"; "BswBackgroundEvent"; "BswDataReceivedEvent";
   "BswExternalTriggerOccurredEvent"; "BswInternalTriggerOccurredEvent"; "BswModeManagerErrorEvent"; "BswModeSenderPolicy"; "BswModeSwitchAckRequest";
   "BswModeSwitchEvent"; "BswModeSwitchedAckEvent"; "BswModuleDependency"; "BswOperationInvokedEvent"; "BswServiceDependencyIdent"; "BswTimingEvent";
   "BufferProperties"; "CanClusterBusOffRecovery"; "CanNmClusterCoupling"; "CanTpEcu"; "ChapterContent"; "ChapterModel"; "ClientServerAnnotation";
   "ClientServerOperationMapping"; "CompositeNetworkRepresentation"; "CompuScales"; "ContainedIPduProps"; "CouplingPortDetails"; "CyclicTiming";
   "DataFilter"; "DelegatedPortAnnotation"; "DoIpEntity"; "DocRevision"; "EcucConditionFormula"; "EcucConditionSpecification";
   "EcucDerivationSpecification"; "EcucDestinationUriDefSet"; "EcucInstanceReferenceValue"; "EcucNumericalParamValue";
   "EcucParameterDerivationFormula"; "EcucQueryExpression"; "EcucReferenceValue"; "EcucTextualParamValue"; "EndToEndProtectionISignalIPdu";
   "EthernetPriorityRegeneration"; "EventControlledTiming"; "ExclusiveArea"; "ExclusiveAreaNestingOrder"; "ExternalTriggeringPoint";
   "ExternalTriggeringPointIdent"; "FlexrayFifoConfiguration"; "FlexrayFifoRange"; "GenericTp"; "Graphic"; "HardwareConfiguration"; "IPduTiming";
   "ISignalProps"; "ImplementationElementInParameterInstanceRef"; "IncludedModeDeclarationGroupSet"; "InfrastructureServices"; "InitialSdDelayConfig";
   "InnerDataPrototypeGroupInCompositionInstanceRef"; "InnerPortGroupInCompositionInstanceRef"; "InnerRunnableEntityGroupInCompositionInstanceRef";
   "InternalTriggeringPoint"; "InvalidationPolicy"; "IoHwAbstractionServerAnnotation"; "Ipv6Configuration"; "J1939NodeName"; "LGraphic";
   "LifeCyclePeriod"; "McDataAccessDetails"; "McDataInstance"; "McFunctionDataRefSet"; "McGroupDataRefSet"; "McParameterElementGroup";
   "McSupportData"; "McSwEmulationMethodSupport"; "MemorySectionLocation"; "ModeDeclarationGroupPrototypeMapping"; "ModePortAnnotation";
   "ModeSwitchEventTriggeredActivity"; "ModeSwitchSenderComSpec"; "ModeSwitchedAckRequest"; "Modification"; "MultidimensionalTime";
   "NvBlockDataMapping"; "NvDataPortAnnotation"; "PModeGroupInAtomicSwcInstanceRef"; "PTriggerInAtomicSwcTypeInstanceRef";
   "ParameterInAtomicSWCTypeInstanceRef"; "ParameterPortAnnotation"; "PortAPIOption"; "PortDefinedArgumentValue"; "PredefinedChapter";
   "RModeInAtomicSwcInstanceRef"; "RVariableInAtomicSwcInstanceRef"; "ReferenceBase"; "RequestResponseDelay"; "RoleBasedBswModuleEntryAssignment";
   "RoleBasedDataAssignment"; "RoleBasedDataTypeAssignment"; "RoleBasedMcDataAssignment"; "RptComponent"; "RptExecutableEntity";
   "RptExecutableEntityEvent"; "RptExecutableEntityProperties"; "RptExecutionContext"; "RptImplPolicy"; "RptServicePoint"; "RptSupportData";
   "RptSwPrototypingAccess"; "RteEventInEcuInstanceRef"; "RunnableEntityArgument"; "RunnableEntityInCompositionInstanceRef"; "RxIdentifierRange";
   "SdClientConfig"; "SdServerConfig"; "SdgCaption"; "SecureCommunicationProps"; "SenderReceiverAnnotation"; "SenderReceiverToSignalGroupMapping";
   "SenderReceiverToSignalMapping"; "SoAdConfig"; "SocketConnection"; "SocketConnectionBundle"; "SoftwareContext"; "SwComponentDocumentation";
   "SwDataDefProps"; "SwRecordLayoutGroup"; "SwRecordLayoutGroupContent"; "SwRecordLayoutV"; "SwSystemconstValue"; "SwcBswRunnableMapping";
   "SwcBswSynchronizedModeGroupPrototype"; "SwcBswSynchronizedTrigger"; "SwcExclusiveAreaPolicy"; "TcpTp"; "TimeRangeType"; "TpPort";
   "TransmissionModeDeclaration"; "TransmissionModeTiming"; "TriggerPortAnnotation"; "UdpNmClusterCoupling"; "UdpNmEcu"; "UdpTp";
   "VariableAccessInEcuInstanceRef"; "VariableDataPrototypeInCompositionInstanceRef"; "VariableDataPrototypeInSystemInstanceRef"; "VlanConfig";
   "VlanMembership"].

(** The texts, references and XML attributes the library reads. *)
Definition text_rows : list trow := [
  mkText "ARPackage" [] "category" [] (SText RLiteral "CATEGORY");
  mkText "ARObject" (mixed ++ stampless) "timestamp" [] (SAttr "T");
  mkText "ARObject" (mixed ++ stampless) "uuid" [] (SAttr "UUID");
  mkText "AccessCount" [] "accessPointRef" [] (SText RRef "ACCESS-POINT-REF");
  mkText "AccessCount" [] "value" [] (SText RPositive "VALUE");
  mkText "AccessCountSet" [] "countProfile" [] (SText RLiteral "COUNT-PROFILE");
  mkText "AdminData" [] "language" [] (SText RLiteral "LANGUAGE");
  mkText "AnyInstanceRef" [] "baseRef" [] (SText RRef "BASE-REF");
  mkText "AnyInstanceRef" [] "contextElementRefs" [] (STexts RRef "CONTEXT-ELEMENT-REF");
  mkText "AnyInstanceRef" [] "targetRef" [] (SText RRef "TARGET-REF");
  mkText "ApplicationArrayDataType" [] "dynamicArraySizeProfile" [] (SText RLiteral "DYNAMIC-ARRAY-SIZE-PROFILE");
  mkText "ApplicationArrayElement" [] "arraySizeHandling" [] (SText RLiteral "ARRAY-SIZE-HANDLING");
  mkText "ApplicationArrayElement" [] "arraySizeSemantics" [] (SText RLiteral "ARRAY-SIZE-SEMANTICS");
  mkText "ApplicationArrayElement" [] "indexDataTypeRef" [] (SText RRef "INDEX-DATA-TYPE-REF");
  mkText "ApplicationArrayElement" [] "maxNumberOfElements" [] (SText RNumerical "MAX-NUMBER-OF-ELEMENTS");
  mkText "ApplicationCompositeElementInPortInterfaceInstanceRef" [] "rootDataPrototypeRef" [] (SText RRef "ROOT-DATA-PROTOTYPE-REF");
  mkText "ApplicationCompositeElementInPortInterfaceInstanceRef" [] "targetDataPrototypeRef" [] (SText RRef "TARGET-DATA-PROTOTYPE-REF");
  mkText "ApplicationEndpoint" [] "networkEndpointRef" [] (SText RRef "NETWORK-ENDPOINT-REF");
  mkText "ApplicationEndpoint" [] "priority" [] (SText RPositive "PRIORITY");
  mkText "ApplicationEntry" [] "delay" [] (SText RTime "DELAY");
  mkText "ApplicationEntry" [] "frameTriggeringRef" [] (SText RRef "FRAME-TRIGGERING-REF");
  mkText "ApplicationEntry" [] "positionInTable" [] (SText RInteger "POSITION-IN-TABLE");
  mkText "ApplicationError" [] "errorCode" [] (SText RInteger "ERROR-CODE");
  mkText "ArgumentDataPrototype" [] "direction" [] (SText RLiteral "DIRECTION");
  mkText "ArgumentDataPrototype" [] "serverArgumentImplPolicy" [] (SText RLiteral "SERVER-ARGUMENT-IMPL-POLICY");
  mkText "AsynchronousServerCallResultPoint" [] "asynchronousServerCallPointRef" [] (SText RRef "ASYNCHRONOUS-SERVER-CALL-POINT-REF");
  mkText "AsynchronousServerCallReturnsEvent" [] "eventSourceRef" [] (SText RRef "EVENT-SOURCE-REF");
  mkText "AutosarDataPrototype" [] "typeTRef" [] (SText RRef "TYPE-TREF");
  mkText "AutosarEngineeringObject" [] "category" [] (SText RLiteral "CATEGORY");
  mkText "AutosarEngineeringObject" [] "domain" [] (SText RLiteral "DOMAIN");
  mkText "AutosarEngineeringObject" [] "shortLabel" [] (SText RLiteral "SHORT-LABEL");
  mkText "AutosarParameterRef" [] "localParameterRef" [] (SText RRef "LOCAL-PARAMETER-REF");
  mkText "AutosarVariableRef" [] "localVariableRef" [] (SText RRef "LOCAL-VARIABLE-REF");
  mkText "BswAsynchronousServerCallReturnsEvent" [] "eventSourceRef" [] (SText RRef "EVENT-SOURCE-REF");
  mkText "BswDataReceivedEvent" [] "dataRef" [] (SText RRef "DATA-REF");
  mkText "BswEvent" [] "contextLimitationRefs" [] (STexts RRef "CONTEXT-LIMITATION-REFS/CONTEXT-LIMITATION-REF");
  mkText "BswEvent" [] "startsOnEventRef" [] (SText RRef "STARTS-ON-EVENT-REF");
  mkText "BswExternalTriggerOccurredEvent" [] "triggerRef" [] (SText RRef "TRIGGER-REF");
  mkText "BswImplementation" [] "arReleaseVersion" [] (SText RLiteral "AR-RELEASE-VERSION");
  mkText "BswImplementation" [] "preconfiguredConfigurationRefs" ["PRECONFIGURED-CONFIGURATION-REFS"] (STexts RRef "PRECONFIGURED-CONFIGURATION-REF");
  mkText "BswImplementation" [] "recommendedConfigurationRefs" ["RECOMMENDED-CONFIGURATION-REFS"] (STexts RRef "RECOMMENDED-CONFIGURATION-REF");
  mkText "BswImplementation" [] "vendorApiInfix" [] (SText RLiteral "VENDOR-API-INFIX");
  mkText "BswImplementation" [] "vendorSpecificModuleDefRefs" ["VENDOR-SPECIFIC-MODULE-DEF-REFS"] (STexts RRef "VENDOR-SPECIFIC-MODULE-DEF-REF");
  mkText "BswInternalTriggerOccurredEvent" [] "eventSourceRef" [] (SText RRef "EVENT-SOURCE-REF");
  mkText "BswInterruptEntity" [] "interruptCategory" [] (SText RLiteral "INTERRUPT-CATEGORY");
  mkText "BswInterruptEntity" [] "interruptSource" [] (SText RLiteral "INTERRUPT-SOURCE");
  mkText "BswModeManagerErrorEvent" [] "modeGroupRef" [] (SText RRef "MODE-GROUP-REF");
  mkText "BswModeSenderPolicy" [] "enhancedModeApi" [] (SText RBool "ENHANCED-MODE-API");
  mkText "BswModeSenderPolicy" [] "providedModeGroupRef" [] (SText RRef "PROVIDED-MODE-GROUP-REF");
  mkText "BswModeSenderPolicy" [] "queueLength" [] (SText RPositive "QUEUE-LENGTH");
  mkText "BswModeSwitchAckRequest" [] "timeout" [] (SText RTime "TIMEOUT");
  mkText "BswModeSwitchEvent" [] "activation" [] (SText RLiteral "ACTIVATION");
  mkText "BswModeSwitchedAckEvent" [] "modeGroupRef" [] (SText RRef "MODE-GROUP-REF");
  mkText "BswModuleCallPoint" [] "calledEntryRef" [] (SText RRef "CALLED-ENTRY-REF");
  mkText "BswModuleClientServerEntry" [] "encapsulatedEntryRef" [] (SText RRef "ENCAPSULATED-ENTRY-REF");
  mkText "BswModuleClientServerEntry" [] "isReentrant" [] (SText RBool "IS-REENTRANT");
  mkText "BswModuleClientServerEntry" [] "isSynchronous" [] (SText RBool "IS-SYNCHRONOUS");
  mkText "BswModuleDependency" [] "targetModuleId" [] (SText RNumerical "TARGET-MODULE-ID");
  mkText "BswModuleDependency" [] "targetModuleRef" [] (SText RRef "TARGET-MODULE-REF");
  mkText "BswModuleDescription" [] "moduleId" [] (SText RNumerical "MODULE-ID");
  mkText "BswModuleEntity" [] "activationPointRefs" [] (STexts RRef "ACTIVATION-POINTS/BSW-INTERNAL-TRIGGERING-POINT-REF-CONDITIONAL/BSW-INTERNAL-TRIGGERING-POINT-REF");
  mkText "BswModuleEntity" [] "implementedEntryRef" [] (SText RRef "IMPLEMENTED-ENTRY-REF");
  mkText "BswModuleEntity" [] "issuedTriggerRefs" [] (STexts RRef "ISSUED-TRIGGERS/TRIGGER-REF-CONDITIONAL/TRIGGER-REF");
  mkText "BswModuleEntity" [] "schedulerNamePrefixRef" [] (SText RRef "SCHEDULER-NAME-PREFIX-REF");
  mkText "BswModuleEntry" [] "bswEntryKind" [] (SText RLiteral "BSW-ENTRY-KIND");
  mkText "BswModuleEntry" [] "callType" [] (SText RLiteral "CALL-TYPE");
  mkText "BswModuleEntry" [] "executionContext" [] (SText RLiteral "EXECUTION-CONTEXT");
  mkText "BswModuleEntry" [] "functionPrototypeEmitter" [] (SText RLiteral "FUNCTION-PROTOTYPE-EMITTER");
  mkText "BswModuleEntry" [] "isReentrant" [] (SText RBool "IS-REENTRANT");
  mkText "BswModuleEntry" [] "isSynchronous" [] (SText RBool "IS-SYNCHRONOUS");
  mkText "BswModuleEntry" [] "role" [] (SText RLiteral "ROLE");
  mkText "BswModuleEntry" [] "serviceId" [] (SText RNumerical "SERVICE-ID");
  mkText "BswModuleEntry" [] "swServiceImplPolicy" [] (SText RLiteral "SW-SERVICE-IMPL-POLICY");
  mkText "BswOperationInvokedEvent" [] "entryRef" [] (SText RRef "ENTRY-REF");
  mkText "BswQueuedDataReceptionPolicy" [] "enableTakeAddress" [] (SText RBool "ENABLE-TAKE-ADDRESS");
  mkText "BswQueuedDataReceptionPolicy" [] "queueLength" [] (SText RPositive "QUEUE-LENGTH");
  mkText "BswQueuedDataReceptionPolicy" [] "receivedDataRef" [] (SText RRef "RECEIVED-DATA-REF");
  mkText "BswTimingEvent" [] "period" [] (SText RTime "PERIOD");
  mkText "BswVariableAccess" [] "accessedVariableRef" [] (SText RRef "ACCESSED-VARIABLE-REF");
  mkText "BufferProperties" [] "headerLength" [] (SText RInteger "HEADER-LENGTH");
  mkText "BufferProperties" [] "inPlace" [] (SText RBool "IN-PLACE");
  mkText "CanCluster" [] "baudrate" ["CAN-CLUSTER-VARIANTS/CAN-CLUSTER-CONDITIONAL"] (SText RNumerical "BAUDRATE");
  mkText "CanCluster" [] "canFdBaudrate" ["CAN-CLUSTER-VARIANTS/CAN-CLUSTER-CONDITIONAL"] (SText RNumerical "CAN-FD-BAUDRATE");
  mkText "CanCluster" [] "canXlBaudrate" ["CAN-CLUSTER-VARIANTS/CAN-CLUSTER-CONDITIONAL"] (SText RNumerical "CAN-XL-BAUDRATE");
  mkText "CanCluster" [] "protocolName" ["CAN-CLUSTER-VARIANTS/CAN-CLUSTER-CONDITIONAL"] (SText RLiteral "PROTOCOL-NAME");
  mkText "CanCluster" [] "protocolVersion" ["CAN-CLUSTER-VARIANTS/CAN-CLUSTER-CONDITIONAL"] (SText RLiteral "PROTOCOL-VERSION");
  mkText "CanClusterBusOffRecovery" [] "borCounterL1ToL2" [] (SText RPositive "BOR-COUNTER-L-1-TO-L-2");
  mkText "CanClusterBusOffRecovery" [] "borTimeL1" [] (SText RTime "BOR-TIME-L-1");
  mkText "CanClusterBusOffRecovery" [] "borTimeL2" [] (SText RTime "BOR-TIME-L-2");
  mkText "CanCommunicationController" [] "wakeUpByControllerSupported" ["CAN-COMMUNICATION-CONTROLLER-VARIANTS/CAN-COMMUNICATION-CONTROLLER-CONDITIONAL"] (SText RBool "WAKE-UP-BY-CONTROLLER-SUPPORTED");
  mkText "CanFrameTriggering" [] "canAddressingMode" [] (SText RLiteral "CAN-ADDRESSING-MODE");
  mkText "CanFrameTriggering" [] "canFdFrameSupport" [] (SText RBool "CAN-FD-FRAME-SUPPORT");
  mkText "CanFrameTriggering" [] "canFrameRxBehavior" [] (SText RLiteral "CAN-FRAME-RX-BEHAVIOR");
  mkText "CanFrameTriggering" [] "canFrameTxBehavior" [] (SText RLiteral "CAN-FRAME-TX-BEHAVIOR");
  mkText "CanFrameTriggering" [] "identifier" [] (SText RNumerical "IDENTIFIER");
  mkText "CanNmCluster" [] "nmBusloadReductionActive" [] (SText RBool "NM-BUSLOAD-REDUCTION-ACTIVE");
  mkText "CanNmCluster" [] "nmCarWakeUpRxEnabled" [] (SText RBool "NM-CAR-WAKE-UP-RX-ENABLED");
  mkText "CanNmCluster" [] "nmCbvPosition" [] (SText RNumerical "NM-CBV-POSITION");
  mkText "CanNmCluster" [] "nmImmediateNmCycleTime" [] (SText RFloat "NM-IMMEDIATE-NM-CYCLE-TIME");
  mkText "CanNmCluster" [] "nmImmediateNmTransmissions" [] (SText RNumerical "NM-IMMEDIATE-NM-TRANSMISSIONS");
  mkText "CanNmCluster" [] "nmMessageTimeoutTime" [] (SText RFloat "NM-MESSAGE-TIMEOUT-TIME");
  mkText "CanNmCluster" [] "nmMsgCycleTime" [] (SText RFloat "NM-MSG-CYCLE-TIME");
  mkText "CanNmCluster" [] "nmNetworkTimeout" [] (SText RFloat "NM-NETWORK-TIMEOUT");
  mkText "CanNmCluster" [] "nmNidPosition" [] (SText RNumerical "NM-NID-POSITION");
  mkText "CanNmCluster" [] "nmRemoteSleepIndicationTime" [] (SText RFloat "NM-REMOTE-SLEEP-INDICATION-TIME");
  mkText "CanNmCluster" [] "nmRepeatMessageTime" [] (SText RFloat "NM-REPEAT-MESSAGE-TIME");
  mkText "CanNmCluster" [] "nmUserDataLength" [] (SText RNumerical "NM-USER-DATA-LENGTH");
  mkText "CanNmCluster" [] "nmWaitBusSleepTime" [] (SText RFloat "NM-WAIT-BUS-SLEEP-TIME");
  mkText "CanNmClusterCoupling" [] "nmBusloadReductionEnabled" [] (SText RBool "NM-BUSLOAD-REDUCTION-ENABLED");
  mkText "CanNmNode" [] "nmCarWakeUpRxEnabled" [] (SText RBool "NM-CAR-WAKE-UP-RX-ENABLED");
  mkText "CanNmNode" [] "nmMsgCycleOffset" [] (SText RFloat "NM-MSG-CYCLE-OFFSET");
  mkText "CanNmNode" [] "nmMsgReducedTime" [] (SText RFloat "NM-MSG-REDUCED-TIME");
  mkText "CanTpAddress" [] "tpAddress" [] (SText RInteger "TP-ADDRESS");
  mkText "CanTpAddress" [] "tpAddressExtensionValue" [] (SText RInteger "TP-ADDRESS-EXTENSION-VALUE");
  mkText "CanTpChannel" [] "channelId" [] (SText RPositive "CHANNEL-ID");
  mkText "CanTpChannel" [] "channelMode" [] (SText RLiteral "CHANNEL-MODE");
  mkText "CanTpConnection" [] "addressingFormat" [] (SText RLiteral "ADDRESSING-FORMAT");
  mkText "CanTpConnection" [] "canTpChannelRef" [] (SText RRef "CAN-TP-CHANNEL-REF");
  mkText "CanTpConnection" [] "cancellation" [] (SText RBool "CANCELLATION");
  mkText "CanTpConnection" [] "dataPduRef" [] (SText RRef "DATA-PDU-REF");
  mkText "CanTpConnection" [] "flowControlPduRef" [] (SText RRef "FLOW-CONTROL-PDU-REF");
  mkText "CanTpConnection" [] "maxBlockSize" [] (SText RInteger "MAX-BLOCK-SIZE");
  mkText "CanTpConnection" [] "multicastRef" [] (SText RRef "MULTICAST-REF");
  mkText "CanTpConnection" [] "paddingActivation" [] (SText RBool "PADDING-ACTIVATION");
  mkText "CanTpConnection" [] "receiverRefs" [] (STexts RRef "RECEIVER-REFS/RECEIVER-REF");
  mkText "CanTpConnection" [] "taType" [] (SText RLiteral "TA-TYPE");
  mkText "CanTpConnection" [] "timeoutBr" [] (SText RTime "TIMEOUT-BR");
  mkText "CanTpConnection" [] "timeoutBs" [] (SText RTime "TIMEOUT-BS");
  mkText "CanTpConnection" [] "timeoutCr" [] (SText RTime "TIMEOUT-CR");
  mkText "CanTpConnection" [] "timeoutCs" [] (SText RTime "TIMEOUT-CS");
  mkText "CanTpConnection" [] "tpSduRef" [] (SText RRef "TP-SDU-REF");
  mkText "CanTpConnection" [] "transmitterRef" [] (SText RRef "TRANSMITTER-REF");
  mkText "CanTpEcu" [] "cycleTimeMainFunction" [] (SText RTime "CYCLE-TIME-MAIN-FUNCTION");
  mkText "CanTpEcu" [] "ecuInstanceRef" [] (SText RRef "ECU-INSTANCE-REF");
  mkText "CanTpNode" [] "connectorRef" [] (SText RRef "CONNECTOR-REF");
  mkText "CanTpNode" [] "maxFcWait" [] (SText RInteger "MAX-FC-WAIT");
  mkText "CanTpNode" [] "stMin" [] (SText RTime "ST-MIN");
  mkText "CanTpNode" [] "timeoutAr" [] (SText RTime "TIMEOUT-AR");
  mkText "CanTpNode" [] "timeoutAs" [] (SText RTime "TIMEOUT-AS");
  mkText "CanTpNode" [] "tpAddressRef" [] (SText RRef "TP-ADDRESS-REF");
  mkText "ClientComSpec" [] "endToEndCallResponseTimeout" [] (SText RTime "END-TO-END-CALL-RESPONSE-TIMEOUT");
  mkText "ClientComSpec" [] "operationRef" [] (SText RRef "OPERATION-REF");
  mkText "ClientServerAnnotation" [] "operationRef" [] (SText RRef "OPERATION-REF");
  mkText "ClientServerInterface" [] "isService" [] (SText RBool "IS-SERVICE");
  mkText "ClientServerInterface" [] "serviceKind" [] (SText RLiteral "SERVICE-KIND");
  mkText "ClientServerOperation" [] "diagArgIntegrity" [] (SText RBool "DIAG-ARG-INTEGRITY");
  mkText "ClientServerOperation" [] "possibleErrorRefs" ["POSSIBLE-ERROR-REFS"] (STexts RRef "POSSIBLE-ERROR-REF");
  mkText "ClientServerOperationMapping" [] "firstOperationRef" [] (SText RRef "FIRST-OPERATION-REF");
  mkText "ClientServerOperationMapping" [] "secondOperationRef" [] (SText RRef "SECOND-OPERATION-REF");
  mkText "Code" [] "callbackHeaderRefs" ["CALLBACK-HEADER-REFS"] (STexts RRef "CALLBACK-HEADER-REF");
  mkText "Collection" [] "autoCollect" [] (SText RLiteral "AUTO-COLLECT");
  mkText "Collection" [] "elementRefs" [] (STexts RRef "ELEMENT-REFS/ELEMENT-REF");
  mkText "Collection" [] "elementRole" [] (SText RLiteral "ELEMENT-ROLE");
  mkText "Collection" [] "sourceElementRefs" [] (STexts RRef "SOURCE-ELEMENT-REFS/SOURCE-ELEMENT-REF");
  mkText "ComMgrUserNeeds" [] "maxCommMode" [] (SText RLiteral "MAX-COMM-MODE");
  mkText "CommConnectorPort" [] "communicationDirection" [] (SText RLiteral "COMMUNICATION-DIRECTION");
  mkText "CommunicationConnector" [] "commControllerRef" [] (SText RRef "COMM-CONTROLLER-REF");
  mkText "CommunicationConnector" [] "pncGatewayType" [] (SText RLiteral "PNC-GATEWAY-TYPE");
  mkText "Compiler" [] "name" [] (SText RLiteral "NAME");
  mkText "Compiler" [] "options" [] (SText RLiteral "OPTIONS");
  mkText "Compiler" [] "vendor" [] (SText RLiteral "VENDOR");
  mkText "Compiler" [] "version" [] (SText RLiteral "VERSION");
  mkText "ComplexDeviceDriverSwComponentType" [] "hardwareElementRefs" [] (STexts RRef "HARDWARE-ELEMENT-REFS/HARDWARE-ELEMENT-REF");
  mkText "ComponentInSystemInstanceRef" [] "baseRef" [] (SText RRef "BASE-REF");
  mkText "ComponentInSystemInstanceRef" [] "contextCompositionRef" [] (SText RRef "CONTEXT-COMPOSITION-REF");
  mkText "ComponentInSystemInstanceRef" [] "targetComponentRef" [] (SText RRef "TARGET-COMPONENT-REF");
  mkText "CompositionSwComponentType" [] "constantValueMappingRefs" ["CONSTANT-VALUE-MAPPING-REFS"] (STexts RRef "CONSTANT-VALUE-MAPPING-REF");
  mkText "CompositionSwComponentType" [] "dataTypeMappingRefs" ["DATA-TYPE-MAPPING-REFS"] (STexts RRef "DATA-TYPE-MAPPING-REF");
  mkText "CompuMethod" [] "unitRef" [] (SText RRef "UNIT-REF");
  mkText "CompuScale" [] "lowerLimit" [] (SText RLimit "LOWER-LIMIT");
  mkText "CompuScale" [] "mask" [] (SText RPositive "MASK");
  mkText "CompuScale" [] "shortLabel" [] (SText RLiteral "SHORT-LABEL");
  mkText "CompuScale" [] "symbol" [] (SText RLiteral "SYMBOL");
  mkText "CompuScale" [] "upperLimit" [] (SText RLimit "UPPER-LIMIT");
  mkText "ConsumedEventGroup" [] "applicationEndpointRef" [] (SText RRef "APPLICATION-ENDPOINT-REF");
  mkText "ConsumedEventGroup" [] "eventGroupIdentifier" [] (SText RPositive "EVENT-GROUP-IDENTIFIER");
  mkText "ConsumedEventGroup" [] "routingGroupRefs" [] (STexts RRef "ROUTING-GROUP-REFS/ROUTING-GROUP-REF");
  mkText "ConsumedServiceInstance" [] "providedServiceInstanceRef" [] (SText RRef "PROVIDED-SERVICE-INSTANCE-REF");
  mkText "ContainedIPduProps" [] "collectionSemantics" [] (SText RLiteral "COLLECTION-SEMANTICS");
  mkText "ContainedIPduProps" [] "headerIdLongHeader" [] (SText RPositive "HEADER-ID-LONG-HEADER");
  mkText "ContainedIPduProps" [] "headerIdShortHeader" [] (SText RPositive "HEADER-ID-SHORT-HEADER");
  mkText "ContainedIPduProps" [] "offset" [] (SText RNumerical "OFFSET");
  mkText "ContainedIPduProps" [] "timeout" [] (SText RNumerical "TIMEOUT");
  mkText "ContainedIPduProps" [] "trigger" [] (SText RLiteral "TRIGGER");
  mkText "ContainedIPduProps" [] "updateIndicationBitPosition" [] (SText RNumerical "UPDATE-INDICATION-BIT-POSITION");
  mkText "CouplingPort" [] "macLayerType" [] (SText RLiteral "MAC-LAYER-TYPE");
  mkText "CouplingPortDetails" [] "lastEgressSchedulerRef" [] (SText RRef "LAST-EGRESS-SCHEDULER-REF");
  mkText "CouplingPortScheduler" [] "portScheduler" [] (SText RLiteral "PORT-SCHEDULER");
  mkText "CryptoServiceNeeds" [] "maximumKeyLength" [] (SText RPositive "MAXIMUM-KEY-LENGTH");
  mkText "DataFilter" [] "dataFilterType" [] (SText RLiteral "DATA-FILTER-TYPE");
  mkText "DataFilter" [] "mask" [] (SText RInteger "MASK");
  mkText "DataFilter" [] "x" [] (SText RInteger "X");
  mkText "DataInterface" [] "isService" [] (SText RBool "IS-SERVICE");
  mkText "DataPrototypeInClientServerInterfaceInstanceRef" [] "baseRef" [] (SText RRef "BASE");
  mkText "DataPrototypeInClientServerInterfaceInstanceRef" [] "rootDataPrototypeInCsRef" [] (SText RRef "ROOT-DATA-PROTOTYPE-IN-CS");
  mkText "DataPrototypeInClientServerInterfaceInstanceRef" [] "targetDataPrototypeInCsRef" [] (SText RRef "TARGET-DATA-PROTOTYPE-IN-CS");
  mkText "DataPrototypeInPortInterfaceRef" ["DataPrototypeInClientServerInterfaceInstanceRef"] "tagId" [] (SText RPositive "TAG-ID");
  mkText "DataPrototypeTransformationProps" [] "transformationProps" [] (SText RRef "TRANSFORMATION-PROPS");
  mkText "DataSendCompletedEvent" [] "eventSourceRef" [] (SText RRef "EVENT-SOURCE-REF");
  mkText "DataTransformation" [] "dataTransformationKind" [] (SText RLiteral "DATA-TRANSFORMATION-KIND");
  mkText "DataTransformation" [] "executeDespiteDataUnavailability" [] (SText RBool "EXECUTE-DESPITE-DATA-UNAVAILABILITY");
  mkText "DataTransformation" [] "transformerChainRefs" [] (STexts RRef "TRANSFORMER-CHAIN-REFS/TRANSFORMER-CHAIN-REF");
  mkText "DcmIPdu" [] "diagPduType" [] (SText RLiteral "DIAG-PDU-TYPE");
  mkText "DelegationSwConnector" [] "outerPortRef" [] (SText RRef "OUTER-PORT-REF");
  mkText "DiagnosticCommunicationManagerNeeds" [] "serviceRequestCallbackType" [] (SText RLiteral "SERVICE-REQUEST-CALLBACK-TYPE");
  mkText "DiagnosticConnection" [] "functionalRequestRefs" [] (STexts RRef "FUNCTIONAL-REQUEST-REFS/FUNCTIONAL-REQUEST-REF");
  mkText "DiagnosticConnection" [] "physicalRequestRef" [] (SText RRef "PHYSICAL-REQUEST-REF");
  mkText "DiagnosticConnection" [] "responseOnEventRef" [] (SText RRef "RESPONSE-REF");
  mkText "DiagnosticEnableConditionNeeds" [] "initialStatus" [] (SText RLiteral "INITIAL-STATUS");
  mkText "DiagnosticEventInfoNeeds" [] "dtcKind" [] (SText RLiteral "DTC-KIND");
  mkText "DiagnosticEventInfoNeeds" [] "udsDtcNumber" [] (SText RPositive "UDS-DTC-NUMBER");
  mkText "DiagnosticEventNeeds" [] "deferringFidRefs" [] (STexts RRef "DEFERRING-FID-REFS/DEFERRING-FID-REF");
  mkText "DiagnosticEventNeeds" [] "inhibitingFidRef" [] (SText RRef "INHIBITING-FID-REF");
  mkText "DiagnosticEventNeeds" [] "inhibitingSecondaryFidRefs" [] (STexts RRef "INHIBITING-SECONDARY-FID-REFS/INHIBITING-SECONDARY-FID-REF");
  mkText "DiagnosticEventNeeds" [] "prestoredFreezeframeStoredInNvm" [] (SText RBool "PRESTORED-FREEZEFRAME-STORED-IN-NVM");
  mkText "DiagnosticEventNeeds" [] "usesMonitorData" [] (SText RBool "USES-MONITOR-DATA");
  mkText "DiagnosticIoControlNeeds" [] "currentValueRef" [] (SText RRef "CURRENT-VALUE-REF");
  mkText "DiagnosticIoControlNeeds" [] "freezeCurrentStateSupported" [] (SText RBool "FREEZE-CURRENT-STATE-SUPPORTED");
  mkText "DiagnosticIoControlNeeds" [] "resetToDefaultSupported" [] (SText RBool "RESET-TO-DEFAULT-SUPPORTED");
  mkText "DiagnosticIoControlNeeds" [] "shortTermAdjustmentSupported" [] (SText RBool "SHORT-TERM-ADJUSTMENT-SUPPORTED");
  mkText "DiagnosticOperationCycleNeeds" [] "operationCycle" [] (SText RLiteral "OPERATION-CYCLE");
  mkText "DiagnosticRoutineNeeds" [] "RidNumber" [] (SText RInteger "RID-NUMBER");
  mkText "DiagnosticRoutineNeeds" [] "diagRoutineType" [] (SText RLiteral "DIAG-ROUTINE-TYPE");
  mkText "DiagnosticServiceTable" [] "diagnosticConnectionRefs" [] (STexts RRef "DIAGNOSTIC-CONNECTIONS/DIAGNOSTIC-CONNECTION-REF-CONDITIONAL/DIAGNOSTIC-CONNECTION-REF");
  mkText "DiagnosticServiceTable" [] "ecuInstanceRef" [] (SText RRef "ECU-INSTANCE-REF");
  mkText "DiagnosticStorageConditionNeeds" [] "initialStatus" [] (SText RLiteral "INITIAL-STATUS");
  mkText "DiagnosticValueNeeds" [] "DidNumber" [] (SText RInteger "DID-NUMBER");
  mkText "DiagnosticValueNeeds" [] "dataLength" [] (SText RPositive "DATA-LENGTH");
  mkText "DiagnosticValueNeeds" [] "diagnosticValueAccess" [] (SText RLiteral "DIAGNOSTIC-VALUE-ACCESS");
  mkText "DiagnosticValueNeeds" [] "fixedLength" [] (SText RBool "FIXED-LENGTH");
  mkText "DiagnosticValueNeeds" [] "processingStyle" [] (SText RLiteral "PROCESSING-STYLE");
  mkText "DoIpEntity" [] "doIpEntityRole" [] (SText RLiteral "DO-IP-ENTITY-ROLE");
  mkText "DoIpLogicAddress" [] "address" [] (SText RInteger "ADDRESS");
  mkText "DoIpServiceNeeds" [] "dataLengthRequest" [] (SText RPositive "DATA-LENGTH-REQUEST");
  mkText "DoIpServiceNeeds" [] "dataLengthResponse" [] (SText RPositive "DATA-LENGTH-RESPONSE");
  mkText "DoIpTpConnection" [] "doIpSourceAddressRef" [] (SText RRef "DO-IP-SOURCE-ADDRESS-REF");
  mkText "DoIpTpConnection" [] "doIpTargetAddressRef" [] (SText RRef "DO-IP-TARGET-ADDRESS-REF");
  mkText "DoIpTpConnection" [] "tpSduRef" [] (SText RRef "TP-SDU-REF");
  mkText "DocRevision" [] "date" [] (SText RLiteral "DATE");
  mkText "DocRevision" [] "issuedBy" [] (SText RLiteral "ISSUED-BY");
  mkText "DocRevision" [] "revisionLabel" [] (SText RRevision "REVISION-LABEL");
  mkText "DocRevision" [] "state" [] (SText RLiteral "STATE");
  mkText "DocumentationContext" [] "identifiableRef" [] (SText RRef "IDENTIFIABLE-REF");
  mkText "DtcStatusChangeNotificationNeeds" [] "dtcFormatType" [] (SText RLiteral "DTC-FORMAT-TYPE");
  mkText "E2EProfileCompatibilityProps" [] "transitToInvalidExtended" [] (SText RBool "TRANSIT-TO-INVALID-EXTENDED");
  mkText "ECUMapping" [] "ecuInstanceRef" [] (SText RRef "ECU-INSTANCE-REF");
  mkText "ECUMapping" [] "ecuRef" [] (SText RRef "ECU-REF");
  mkText "EOCExecutableEntityRef" [] "successor_refs" [] (STexts RRef "SUCCESSOR-REFS/SUCCESSOR-REF");
  mkText "EcuAbstractionSwComponentType" [] "hardwareElementRefs" [] (STexts RRef "HARDWARE-ELEMENT-REFS/HARDWARE-ELEMENT-REF");
  mkText "EcuInstance" [] "associatedComIPduGroupRefs" [] (STexts RRef "ASSOCIATED-COM-I-PDU-GROUP-REFS/ASSOCIATED-COM-I-PDU-GROUP-REF");
  mkText "EcuInstance" [] "associatedConsumedProvidedServiceInstanceGroupRefs" [] (STexts RRef "ASSOCIATED-CONSUMED-PROVIDED-SERVICE-INSTANCE-GROUP-REFS/ASSOCIATED-CONSUMED-PROVIDED-SERVICE-INSTANCE-GROUP-REF");
  mkText "EcuInstance" [] "associatedPdurIPduGroupRefs" [] (STexts RRef "ASSOCIATED-PDUR-I-PDU-GROUP-REFS/ASSOCIATED-PDUR-I-PDU-GROUP-REF");
  mkText "EcuInstance" [] "channelSynchronousWakeup" [] (SText RBool "CHANNEL-SYNCHRONOUS-WAKEUP");
  mkText "EcuInstance" [] "comConfigurationGwTimeBase" [] (SText RTime "COM-CONFIGURATION-GW-TIME-BASE");
  mkText "EcuInstance" [] "comConfigurationRxTimeBase" [] (SText RTime "COM-CONFIGURATION-RX-TIME-BASE");
  mkText "EcuInstance" [] "comConfigurationTxTimeBase" [] (SText RTime "COM-CONFIGURATION-TX-TIME-BASE");
  mkText "EcuInstance" [] "comEnableMDTForCyclicTransmission" [] (SText RBool "COM-ENABLE-MDT-FOR-CYCLIC-TRANSMISSION");
  mkText "EcuInstance" [] "ecuTaskProxyRefs" [] (STexts RRef "ECU-TASK-PROXY-REFS/ECU-TASK-PROXY-REF");
  mkText "EcuInstance" [] "ethSwitchPortGroupDerivation" [] (SText RBool "ETH-SWITCH-PORT-GROUP-DERIVATION");
  mkText "EcuInstance" [] "firewallRuleRefs" [] (STexts RRef "FIREWALL-RULE-REFS/FIREWALL-RULE-REF");
  mkText "EcuInstance" [] "pnResetTime" [] (SText RTime "PN-RESET-TIME");
  mkText "EcuInstance" [] "pncNmRequest" [] (SText RBool "PNC-NM-REQUEST");
  mkText "EcuInstance" [] "pncPrepareSleepTimer" [] (SText RTime "PNC-PREPARE-SLEEP-TIMER");
  mkText "EcuInstance" [] "pncSynchronousWakeup" [] (SText RBool "PNC-SYNCHRONOUS-WAKEUP");
  mkText "EcuInstance" [] "sleepModeSupported" [] (SText RBool "SLEEP-MODE-SUPPORTED");
  mkText "EcuInstance" [] "tcpIpIcmpPropsRef" [] (SText RRef "TCP-IP-ICMP-PROPS");
  mkText "EcuInstance" [] "tcpIpPropsRef" [] (SText RRef "TCP-IP-PROPS");
  mkText "EcuInstance" [] "v2xSupported" [] (SText RLiteral "V-2-X-SUPPORTED");
  mkText "EcuInstance" [] "wakeUpOverBusSupported" [] (SText RBool "WAKE-UP-OVER-BUS-SUPPORTED");
  mkText "EcucAbstractInternalReferenceDef" [] "requiresSymbolicNameValue" [] (SText RBool "REQUIRES-SYMBOLIC-NAME-VALUE");
  mkText "EcucBooleanParamDef" [] "defaultValue" [] (SText RBool "DEFAULT-VALUE");
  mkText "EcucChoiceReferenceDef" [] "destinationRefs" [] (STexts RRef "DESTINATION-REFS/DESTINATION-REF");
  mkText "EcucCommonAttributes" [] "origin" [] (SText RLiteral "ORIGIN");
  mkText "EcucCommonAttributes" [] "postBuildVariantMultiplicity" [] (SText RBool "POST-BUILD-VARIANT-MULTIPLICITY");
  mkText "EcucCommonAttributes" [] "postBuildVariantValue" [] (SText RBool "POST-BUILD-VARIANT-VALUE");
  mkText "EcucCommonAttributes" [] "requiresIndex" [] (SText RBool "REQUIRES-INDEX");
  mkText "EcucCommonAttributes" [] "withAuto" [] (SText RBool "WITH-AUTO");
  mkText "EcucConditionFormula" [] "ecucQueryRef" [] (SText RRef "ECUC-QUERY-REF");
  mkText "EcucConditionFormula" [] "ecucQueryStringRef" [] (SText RRef "ECUC-QUERY-STRING-REF");
  mkText "EcucContainerDef" [] "postBuildVariantMultiplicity" [] (SText RBool "POST-BUILD-VARIANT-MULTIPLICITY");
  mkText "EcucContainerDef" [] "requiresIndex" [] (SText RBool "REQUIRES-INDEX");
  mkText "EcucDefinitionCollection" [] "moduleRefs" [] (STexts RRef "MODULE-REFS/MODULE-REF");
  mkText "EcucDefinitionElement" [] "lowerMultiplicity" [] (SText RPositive "LOWER-MULTIPLICITY");
  mkText "EcucDefinitionElement" [] "scope" [] (SText RLiteral "SCOPE");
  mkText "EcucDefinitionElement" [] "upperMultiplicity" [] (SText RPositive "UPPER-MULTIPLICITY");
  mkText "EcucEnumerationLiteralDef" [] "origin" [] (SText RLiteral "ORIGIN");
  mkText "EcucEnumerationParamDef" [] "defaultValue" [] (SText RLiteral "DEFAULT-VALUE");
  mkText "EcucFloatParamDef" [] "defaultValue" [] (SText RFloat "DEFAULT-VALUE");
  mkText "EcucFloatParamDef" [] "max" [] (SText RLimit "MAX");
  mkText "EcucFloatParamDef" [] "min" [] (SText RLimit "MIN");
  mkText "EcucFunctionNameDef" [] "defaultValue" ["ECUC-FUNCTION-NAME-DEF-VARIANTS/ECUC-FUNCTION-NAME-DEF-CONDITIONAL"] (SText RLiteral "DEFAULT-VALUE");
  mkText "EcucFunctionNameDef" [] "maxLength" ["ECUC-FUNCTION-NAME-DEF-VARIANTS/ECUC-FUNCTION-NAME-DEF-CONDITIONAL"] (SText RInteger "MAX-LENGTH");
  mkText "EcucFunctionNameDef" [] "minLength" ["ECUC-FUNCTION-NAME-DEF-VARIANTS/ECUC-FUNCTION-NAME-DEF-CONDITIONAL"] (SText RInteger "MIN-LENGTH");
  mkText "EcucFunctionNameDef" [] "regularExpression" ["ECUC-FUNCTION-NAME-DEF-VARIANTS/ECUC-FUNCTION-NAME-DEF-CONDITIONAL"] (SText RLiteral "REGULAR-EXPRESSION");
  mkText "EcucIndexableValue" [] "definitionRef" [] (SText RRef "DEFINITION-REF");
  mkText "EcucIndexableValue" [] "index" [] (SText RPositive "INDEX");
  mkText "EcucInstanceReferenceDef" [] "destinationContext" [] (SText RLiteral "DESTINATION-CONTEXT");
  mkText "EcucInstanceReferenceDef" [] "destinationType" [] (SText RLiteral "DESTINATION-TYPE");
  mkText "EcucIntegerParamDef" [] "defaultValue" [] (SText RInteger "DEFAULT-VALUE");
  mkText "EcucIntegerParamDef" [] "max" [] (SText RInteger "MAX");
  mkText "EcucIntegerParamDef" [] "min" [] (SText RInteger "MIN");
  mkText "EcucModuleConfigurationValues" [] "definitionRef" [] (SText RRef "DEFINITION-REF");
  mkText "EcucModuleConfigurationValues" [] "ecucDefEdition" [] (SText RLiteral "ECUC-DEF-EDITION");
  mkText "EcucModuleConfigurationValues" [] "implementationConfigVariant" [] (SText RLiteral "IMPLEMENTATION-CONFIG-VARIANT");
  mkText "EcucModuleConfigurationValues" [] "moduleDescriptionRef" [] (SText RRef "MODULE-DESCRIPTION-REF");
  mkText "EcucModuleConfigurationValues" [] "postBuildVariantUsed" [] (SText RBool "POST-BUILD-VARIANT-USED");
  mkText "EcucModuleDef" [] "apiServicePrefix" [] (SText RLiteral "API-SERVICE-PREFIX");
  mkText "EcucModuleDef" [] "postBuildVariantSupport" [] (SText RBool "POST-BUILD-VARIANT-SUPPORT");
  mkText "EcucModuleDef" [] "refinedModuleDefRef" [] (SText RRef "REFINED-MODULE-DEF-REF");
  mkText "EcucModuleDef" [] "supportedConfigVariants" [] (STexts RLitItem "SUPPORTED-CONFIG-VARIANTS/SUPPORTED-CONFIG-VARIANT");
  mkText "EcucMultilineStringParamDef" [] "defaultValue" ["ECUC-MULTILINE-STRING-PARAM-DEF-VARIANTS/ECUC-MULTILINE-STRING-PARAM-DEF-CONDITIONAL"] (SText RLiteral "DEFAULT-VALUE");
  mkText "EcucMultilineStringParamDef" [] "maxLength" ["ECUC-MULTILINE-STRING-PARAM-DEF-VARIANTS/ECUC-MULTILINE-STRING-PARAM-DEF-CONDITIONAL"] (SText RInteger "MAX-LENGTH");
  mkText "EcucMultilineStringParamDef" [] "minLength" ["ECUC-MULTILINE-STRING-PARAM-DEF-VARIANTS/ECUC-MULTILINE-STRING-PARAM-DEF-CONDITIONAL"] (SText RInteger "MIN-LENGTH");
  mkText "EcucMultilineStringParamDef" [] "regularExpression" ["ECUC-MULTILINE-STRING-PARAM-DEF-VARIANTS/ECUC-MULTILINE-STRING-PARAM-DEF-CONDITIONAL"] (SText RLiteral "REGULAR-EXPRESSION");
  mkText "EcucNumericalParamValue" [] "value" [] (SText RNumerical "VALUE");
  mkText "EcucParameterDef" [] "symbolicNameValue" [] (SText RBool "SYMBOLIC-NAME-VALUE");
  mkText "EcucParameterDerivationFormula" [] "ecucQueryRef" [] (SText RRef "ECUC-QUERY-REF");
  mkText "EcucParameterDerivationFormula" [] "ecucQueryStringRef" [] (SText RRef "ECUC-QUERY-STRING-REF");
  mkText "EcucQueryExpression" [] "configElementDefGlobalRef" [] (SText RRef "CONFIG-ELEMENT-DEF-GLOBAL-REF");
  mkText "EcucQueryExpression" [] "configElementDefLocalRef" [] (SText RRef "CONFIG-ELEMENT-DEF-LOCAL-REF");
  mkText "EcucReferenceDef" [] "destinationRef" [] (SText RRef "DESTINATION-REF");
  mkText "EcucReferenceValue" [] "valueRef" [] (SText RRef "VALUE-REF");
  mkText "EcucStringParamDef" [] "defaultValue" ["ECUC-STRING-PARAM-DEF-VARIANTS/ECUC-STRING-PARAM-DEF-CONDITIONAL"] (SText RLiteral "DEFAULT-VALUE");
  mkText "EcucStringParamDef" [] "maxLength" ["ECUC-STRING-PARAM-DEF-VARIANTS/ECUC-STRING-PARAM-DEF-CONDITIONAL"] (SText RInteger "MAX-LENGTH");
  mkText "EcucStringParamDef" [] "minLength" ["ECUC-STRING-PARAM-DEF-VARIANTS/ECUC-STRING-PARAM-DEF-CONDITIONAL"] (SText RInteger "MIN-LENGTH");
  mkText "EcucStringParamDef" [] "regularExpression" ["ECUC-STRING-PARAM-DEF-VARIANTS/ECUC-STRING-PARAM-DEF-CONDITIONAL"] (SText RLiteral "REGULAR-EXPRESSION");
  mkText "EcucSymbolicNameReferenceDef" [] "destinationRef" [] (SText RRef "DESTINATION-REF");
  mkText "EcucTextualParamValue" [] "value" [] (SText RLiteral "VALUE");
  mkText "EcucValueCollection" [] "ecuExtractRef" [] (SText RRef "ECU-EXTRACT-REF");
  mkText "EndToEndDescription" [] "category" [] (SText RLiteral "CATEGORY");
  mkText "EndToEndDescription" [] "counterOffset" [] (SText RPositive "COUNTER-OFFSET");
  mkText "EndToEndDescription" [] "crcOffset" [] (SText RPositive "CRC-OFFSET");
  mkText "EndToEndDescription" [] "dataIdMode" [] (SText RPositive "DATA-ID-MODE");
  mkText "EndToEndDescription" [] "dataIds" ["DATA-IDS"] (STexts RNumItem "DATA-ID");
  mkText "EndToEndDescription" [] "dataLength" [] (SText RPositive "DATA-LENGTH");
  mkText "EndToEndDescription" [] "maxDeltaCounterInit" [] (SText RPositive "MAX-DELTA-COUNTER-INIT");
  mkText "EndToEndProtectionISignalIPdu" [] "dataOffset" [] (SText RInteger "DATA-OFFSET");
  mkText "EndToEndProtectionISignalIPdu" [] "iSignalGroupRef" [] (SText RRef "I-SIGNAL-GROUP-REF");
  mkText "EndToEndProtectionISignalIPdu" [] "iSignalIPduRef" [] (SText RRef "I-SIGNAL-I-PDU-REF");
  mkText "EndToEndTransformationISignalProps" [] "category" ["END-TO-END-TRANSFORMATION-I-SIGNAL-PROPS-VARIANTS/END-TO-END-TRANSFORMATION-I-SIGNAL-PROPS-CONDITIONAL"] (SText RLiteral "CATEGORY");
  mkText "EndToEndTransformationISignalProps" [] "csErrorReaction" ["END-TO-END-TRANSFORMATION-I-SIGNAL-PROPS-VARIANTS/END-TO-END-TRANSFORMATION-I-SIGNAL-PROPS-CONDITIONAL"] (SText RLiteral "CS-ERROR-REACTION");
  mkText "EndToEndTransformationISignalProps" [] "dataLength" ["END-TO-END-TRANSFORMATION-I-SIGNAL-PROPS-VARIANTS/END-TO-END-TRANSFORMATION-I-SIGNAL-PROPS-CONDITIONAL"] (SText RPositive "DATA-LENGTH");
  mkText "EndToEndTransformationISignalProps" [] "timestamp" ["END-TO-END-TRANSFORMATION-I-SIGNAL-PROPS-VARIANTS/END-TO-END-TRANSFORMATION-I-SIGNAL-PROPS-CONDITIONAL"] (SAttr "T");
  mkText "EndToEndTransformationISignalProps" [] "transformerRef" ["END-TO-END-TRANSFORMATION-I-SIGNAL-PROPS-VARIANTS/END-TO-END-TRANSFORMATION-I-SIGNAL-PROPS-CONDITIONAL"] (SText RRef "TRANSFORMER-REF");
  mkText "EndToEndTransformationISignalProps" [] "uuid" ["END-TO-END-TRANSFORMATION-I-SIGNAL-PROPS-VARIANTS/END-TO-END-TRANSFORMATION-I-SIGNAL-PROPS-CONDITIONAL"] (SAttr "UUID");
  mkText "EthernetCluster" [] "baudrate" ["ETHERNET-CLUSTER-VARIANTS/ETHERNET-CLUSTER-CONDITIONAL"] (SText RNumerical "BAUDRATE");
  mkText "EthernetCluster" [] "protocolName" ["ETHERNET-CLUSTER-VARIANTS/ETHERNET-CLUSTER-CONDITIONAL"] (SText RLiteral "PROTOCOL-NAME");
  mkText "EthernetCluster" [] "protocolVersion" ["ETHERNET-CLUSTER-VARIANTS/ETHERNET-CLUSTER-CONDITIONAL"] (SText RLiteral "PROTOCOL-VERSION");
  mkText "EthernetCommunicationConnector" [] "maximumTransmissionUnit" [] (SText RPositive "MAXIMUM-TRANSMISSION-UNIT");
  mkText "EthernetCommunicationConnector" [] "networkEndpointRefs" [] (STexts RRef "NETWORK-ENDPOINT-REFS/NETWORK-ENDPOINT-REF");
  mkText "EthernetCommunicationController" [] "wakeUpByControllerSupported" ["ETHERNET-COMMUNICATION-CONTROLLER-VARIANTS/ETHERNET-COMMUNICATION-CONTROLLER-CONDITIONAL"] (SText RBool "WAKE-UP-BY-CONTROLLER-SUPPORTED");
  mkText "EthernetPriorityRegeneration" [] "ingressPriority" [] (SText RPositive "INGRESS-PRIORITY");
  mkText "EthernetPriorityRegeneration" [] "regeneratedPriority" [] (SText RPositive "REGENERATED-PRIORITY");
  mkText "EventControlledTiming" [] "numberOfRepetitions" [] (SText RInteger "NUMBER-OF-REPETITIONS");
  mkText "EventHandler" [] "applicationEndpointRef" [] (SText RRef "APPLICATION-ENDPOINT-REF");
  mkText "EventHandler" [] "consumedEventGroupRefs" [] (STexts RRef "CONSUMED-EVENT-GROUP-REFS/CONSUMED-EVENT-GROUP-REF");
  mkText "EventHandler" [] "multicastThreshold" [] (SText RPositive "MULTICAST-THRESHOLD");
  mkText "EventHandler" [] "routingGroupRefs" [] (STexts RRef "ROUTING-GROUP-REFS/ROUTING-GROUP-REF");
  mkText "ExclusiveAreaNestingOrder" [] "exclusiveAreaRefs" [] (STexts RRef "EXCLUSIVE-AREA-REFS/EXCLUSIVE-AREA-REF");
  mkText "ExecutableEntity" [] "canEnterRefs" [] (STexts RRef "CAN-ENTER-EXCLUSIVE-AREA-REFS/CAN-ENTER-EXCLUSIVE-AREA-REF");
  mkText "ExecutableEntity" [] "exclusiveAreaNestingOrderRefs" [] (STexts RRef "EXCLUSIVE-AREA-NESTING-ORDER-REFS/EXCLUSIVE-AREA-NESTING-ORDER-REF");
  mkText "ExecutableEntity" [] "minimumStartInterval" [] (SText RTime "MINIMUM-START-INTERVAL");
  mkText "ExecutableEntity" [] "reentrancyLevel" [] (SText RLiteral "REENTRANCY-LEVEL");
  mkText "ExecutableEntity" [] "runsInsideRefs" [] (STexts RRef "RUNS-INSIDE-EXCLUSIVE-AREA-REFS/RUNS-INSIDE-EXCLUSIVE-AREA-REF");
  mkText "ExecutableEntity" [] "swAddrMethodRef" [] (SText RRef "SW-ADDR-METHOD-REF");
  mkText "ExecutableEntityActivationReason" [] "bitPosition" [] (SText RPositive "BIT-POSITION");
  mkText "ExecutableEntityActivationReason" [] "symbol" [] (SText RLiteral "SYMBOL");
  mkText "ExecutionTime" [] "exclusiveAreaRef" [] (SText RRef "EXCLUSIVE-AREA-REF");
  mkText "ExecutionTime" [] "executableEntityRef" [] (SText RRef "EXECUTABLE-ENTITY-REF");
  mkText "ExecutionTime" [] "hwElementRef" [] (SText RRef "HW-ELEMENT-REF");
  mkText "ExecutionTime" [] "includedLibraryRefs" [] (STexts RRef "INCLUDED-LIBRARY-REFS/INCLUDED-LIBRARY-REF");
  mkText "FlexrayAbsolutelyScheduledTiming" [] "slotID" [] (SText RPositive "SLOT-ID");
  mkText "FlexrayCluster" [] "actionPointOffset" ["FLEXRAY-CLUSTER-VARIANTS/FLEXRAY-CLUSTER-CONDITIONAL"] (SText RInteger "ACTION-POINT-OFFSET");
  mkText "FlexrayCluster" [] "baudrate" ["FLEXRAY-CLUSTER-VARIANTS/FLEXRAY-CLUSTER-CONDITIONAL"] (SText RNumerical "BAUDRATE");
  mkText "FlexrayCluster" [] "bit" ["FLEXRAY-CLUSTER-VARIANTS/FLEXRAY-CLUSTER-CONDITIONAL"] (SText RTime "BIT");
  mkText "FlexrayCluster" [] "casRxLowMax" ["FLEXRAY-CLUSTER-VARIANTS/FLEXRAY-CLUSTER-CONDITIONAL"] (SText RInteger "CAS-RX-LOW-MAX");
  mkText "FlexrayCluster" [] "coldStartAttempts" ["FLEXRAY-CLUSTER-VARIANTS/FLEXRAY-CLUSTER-CONDITIONAL"] (SText RInteger "COLD-START-ATTEMPTS");
  mkText "FlexrayCluster" [] "cycle" ["FLEXRAY-CLUSTER-VARIANTS/FLEXRAY-CLUSTER-CONDITIONAL"] (SText RTime "CYCLE");
  mkText "FlexrayCluster" [] "cycleCountMax" ["FLEXRAY-CLUSTER-VARIANTS/FLEXRAY-CLUSTER-CONDITIONAL"] (SText RInteger "CYCLE-COUNT-MAX");
  mkText "FlexrayCluster" [] "detectNitError" ["FLEXRAY-CLUSTER-VARIANTS/FLEXRAY-CLUSTER-CONDITIONAL"] (SText RBool "DETECT-NIT-ERROR");
  mkText "FlexrayCluster" [] "dynamicSlotIdlePhase" ["FLEXRAY-CLUSTER-VARIANTS/FLEXRAY-CLUSTER-CONDITIONAL"] (SText RInteger "DYNAMIC-SLOT-IDLE-PHASE");
  mkText "FlexrayCluster" [] "ignoreAfterTx" ["FLEXRAY-CLUSTER-VARIANTS/FLEXRAY-CLUSTER-CONDITIONAL"] (SText RInteger "IGNORE-AFTER-TX");
  mkText "FlexrayCluster" [] "listenNoise" ["FLEXRAY-CLUSTER-VARIANTS/FLEXRAY-CLUSTER-CONDITIONAL"] (SText RInteger "LISTEN-NOISE");
  mkText "FlexrayCluster" [] "macroPerCycle" ["FLEXRAY-CLUSTER-VARIANTS/FLEXRAY-CLUSTER-CONDITIONAL"] (SText RInteger "MACRO-PER-CYCLE");
  mkText "FlexrayCluster" [] "macrotickDuration" ["FLEXRAY-CLUSTER-VARIANTS/FLEXRAY-CLUSTER-CONDITIONAL"] (SText RTime "MACROTICK-DURATION");
  mkText "FlexrayCluster" [] "maxWithoutClockCorrectionFatal" ["FLEXRAY-CLUSTER-VARIANTS/FLEXRAY-CLUSTER-CONDITIONAL"] (SText RInteger "MAX-WITHOUT-CLOCK-CORRECTION-FATAL");
  mkText "FlexrayCluster" [] "maxWithoutClockCorrectionPassive" ["FLEXRAY-CLUSTER-VARIANTS/FLEXRAY-CLUSTER-CONDITIONAL"] (SText RInteger "MAX-WITHOUT-CLOCK-CORRECTION-PASSIVE");
  mkText "FlexrayCluster" [] "minislotActionPointOffset" ["FLEXRAY-CLUSTER-VARIANTS/FLEXRAY-CLUSTER-CONDITIONAL"] (SText RInteger "MINISLOT-ACTION-POINT-OFFSET");
  mkText "FlexrayCluster" [] "minislotDuration" ["FLEXRAY-CLUSTER-VARIANTS/FLEXRAY-CLUSTER-CONDITIONAL"] (SText RInteger "MINISLOT-DURATION");
  mkText "FlexrayCluster" [] "networkIdleTime" ["FLEXRAY-CLUSTER-VARIANTS/FLEXRAY-CLUSTER-CONDITIONAL"] (SText RInteger "NETWORK-IDLE-TIME");
  mkText "FlexrayCluster" [] "networkManagementVectorLength" ["FLEXRAY-CLUSTER-VARIANTS/FLEXRAY-CLUSTER-CONDITIONAL"] (SText RInteger "NETWORK-MANAGEMENT-VECTOR-LENGTH");
  mkText "FlexrayCluster" [] "numberOfMinislots" ["FLEXRAY-CLUSTER-VARIANTS/FLEXRAY-CLUSTER-CONDITIONAL"] (SText RInteger "NUMBER-OF-MINISLOTS");
  mkText "FlexrayCluster" [] "numberOfStaticSlots" ["FLEXRAY-CLUSTER-VARIANTS/FLEXRAY-CLUSTER-CONDITIONAL"] (SText RInteger "NUMBER-OF-STATIC-SLOTS");
  mkText "FlexrayCluster" [] "offsetCorrectionStart" ["FLEXRAY-CLUSTER-VARIANTS/FLEXRAY-CLUSTER-CONDITIONAL"] (SText RInteger "OFFSET-CORRECTION-START");
  mkText "FlexrayCluster" [] "payloadLengthStatic" ["FLEXRAY-CLUSTER-VARIANTS/FLEXRAY-CLUSTER-CONDITIONAL"] (SText RInteger "PAYLOAD-LENGTH-STATIC");
  mkText "FlexrayCluster" [] "protocolName" ["FLEXRAY-CLUSTER-VARIANTS/FLEXRAY-CLUSTER-CONDITIONAL"] (SText RLiteral "PROTOCOL-NAME");
  mkText "FlexrayCluster" [] "protocolVersion" ["FLEXRAY-CLUSTER-VARIANTS/FLEXRAY-CLUSTER-CONDITIONAL"] (SText RLiteral "PROTOCOL-VERSION");
  mkText "FlexrayCluster" [] "safetyMargin" ["FLEXRAY-CLUSTER-VARIANTS/FLEXRAY-CLUSTER-CONDITIONAL"] (SText RInteger "SAFETY-MARGIN");
  mkText "FlexrayCluster" [] "sampleClockPeriod" ["FLEXRAY-CLUSTER-VARIANTS/FLEXRAY-CLUSTER-CONDITIONAL"] (SText RTime "SAMPLE-CLOCK-PERIOD");
  mkText "FlexrayCluster" [] "staticSlotDuration" ["FLEXRAY-CLUSTER-VARIANTS/FLEXRAY-CLUSTER-CONDITIONAL"] (SText RInteger "STATIC-SLOT-DURATION");
  mkText "FlexrayCluster" [] "symbolWindow" ["FLEXRAY-CLUSTER-VARIANTS/FLEXRAY-CLUSTER-CONDITIONAL"] (SText RInteger "SYMBOL-WINDOW");
  mkText "FlexrayCluster" [] "symbolWindowActionPointOffset" ["FLEXRAY-CLUSTER-VARIANTS/FLEXRAY-CLUSTER-CONDITIONAL"] (SText RInteger "SYMBOL-WINDOW-ACTION-POINT-OFFSET");
  mkText "FlexrayCluster" [] "syncFrameIdCountMax" ["FLEXRAY-CLUSTER-VARIANTS/FLEXRAY-CLUSTER-CONDITIONAL"] (SText RInteger "SYNC-FRAME-ID-COUNT-MAX");
  mkText "FlexrayCluster" [] "tranceiverStandbyDelay" ["FLEXRAY-CLUSTER-VARIANTS/FLEXRAY-CLUSTER-CONDITIONAL"] (SText RFloat "TRANCEIVER-STANDBY-DELAY");
  mkText "FlexrayCluster" [] "transmissionStartSequenceDuration" ["FLEXRAY-CLUSTER-VARIANTS/FLEXRAY-CLUSTER-CONDITIONAL"] (SText RInteger "TRANSMISSION-START-SEQUENCE-DURATION");
  mkText "FlexrayCluster" [] "wakeupRxIdle" ["FLEXRAY-CLUSTER-VARIANTS/FLEXRAY-CLUSTER-CONDITIONAL"] (SText RInteger "WAKEUP-RX-IDLE");
  mkText "FlexrayCluster" [] "wakeupRxLow" ["FLEXRAY-CLUSTER-VARIANTS/FLEXRAY-CLUSTER-CONDITIONAL"] (SText RInteger "WAKEUP-RX-LOW");
  mkText "FlexrayCluster" [] "wakeupRxWindow" ["FLEXRAY-CLUSTER-VARIANTS/FLEXRAY-CLUSTER-CONDITIONAL"] (SText RInteger "WAKEUP-RX-WINDOW");
  mkText "FlexrayCluster" [] "wakeupTxActive" ["FLEXRAY-CLUSTER-VARIANTS/FLEXRAY-CLUSTER-CONDITIONAL"] (SText RInteger "WAKEUP-TX-ACTIVE");
  mkText "FlexrayCluster" [] "wakeupTxIdle" ["FLEXRAY-CLUSTER-VARIANTS/FLEXRAY-CLUSTER-CONDITIONAL"] (SText RInteger "WAKEUP-TX-IDLE");
  mkText "FlexrayCommunicationController" [] "acceptedStartupRange" ["FLEXRAY-COMMUNICATION-CONTROLLER-VARIANTS/FLEXRAY-COMMUNICATION-CONTROLLER-CONDITIONAL"] (SText RInteger "ACCEPTED-STARTUP-RANGE");
  mkText "FlexrayCommunicationController" [] "allowHaltDueToClock" ["FLEXRAY-COMMUNICATION-CONTROLLER-VARIANTS/FLEXRAY-COMMUNICATION-CONTROLLER-CONDITIONAL"] (SText RBool "ALLOW-HALT-DUE-TO-CLOCK");
  mkText "FlexrayCommunicationController" [] "allowPassiveToActive" ["FLEXRAY-COMMUNICATION-CONTROLLER-VARIANTS/FLEXRAY-COMMUNICATION-CONTROLLER-CONDITIONAL"] (SText RInteger "ALLOW-PASSIVE-TO-ACTIVE");
  mkText "FlexrayCommunicationController" [] "clusterDriftDamping" ["FLEXRAY-COMMUNICATION-CONTROLLER-VARIANTS/FLEXRAY-COMMUNICATION-CONTROLLER-CONDITIONAL"] (SText RInteger "CLUSTER-DRIFT-DAMPING");
  mkText "FlexrayCommunicationController" [] "decodingCorrection" ["FLEXRAY-COMMUNICATION-CONTROLLER-VARIANTS/FLEXRAY-COMMUNICATION-CONTROLLER-CONDITIONAL"] (SText RInteger "DECODING-CORRECTION");
  mkText "FlexrayCommunicationController" [] "delayCompensationA" ["FLEXRAY-COMMUNICATION-CONTROLLER-VARIANTS/FLEXRAY-COMMUNICATION-CONTROLLER-CONDITIONAL"] (SText RInteger "DELAY-COMPENSATION-A");
  mkText "FlexrayCommunicationController" [] "delayCompensationB" ["FLEXRAY-COMMUNICATION-CONTROLLER-VARIANTS/FLEXRAY-COMMUNICATION-CONTROLLER-CONDITIONAL"] (SText RInteger "DELAY-COMPENSATION-B");
  mkText "FlexrayCommunicationController" [] "externOffsetCorrection" ["FLEXRAY-COMMUNICATION-CONTROLLER-VARIANTS/FLEXRAY-COMMUNICATION-CONTROLLER-CONDITIONAL"] (SText RInteger "EXTERN-OFFSET-CORRECTION");
  mkText "FlexrayCommunicationController" [] "externRateCorrection" ["FLEXRAY-COMMUNICATION-CONTROLLER-VARIANTS/FLEXRAY-COMMUNICATION-CONTROLLER-CONDITIONAL"] (SText RInteger "EXTERN-RATE-CORRECTION");
  mkText "FlexrayCommunicationController" [] "externalSync" ["FLEXRAY-COMMUNICATION-CONTROLLER-VARIANTS/FLEXRAY-COMMUNICATION-CONTROLLER-CONDITIONAL"] (SText RBool "EXTERNAL-SYNC");
  mkText "FlexrayCommunicationController" [] "fallBackInternal" ["FLEXRAY-COMMUNICATION-CONTROLLER-VARIANTS/FLEXRAY-COMMUNICATION-CONTROLLER-CONDITIONAL"] (SText RBool "FALL-BACK-INTERNAL");
  mkText "FlexrayCommunicationController" [] "keySlotID" ["FLEXRAY-COMMUNICATION-CONTROLLER-VARIANTS/FLEXRAY-COMMUNICATION-CONTROLLER-CONDITIONAL"] (SText RInteger "KEY-SLOT-ID");
  mkText "FlexrayCommunicationController" [] "keySlotOnlyEnabled" ["FLEXRAY-COMMUNICATION-CONTROLLER-VARIANTS/FLEXRAY-COMMUNICATION-CONTROLLER-CONDITIONAL"] (SText RBool "KEY-SLOT-ONLY-ENABLED");
  mkText "FlexrayCommunicationController" [] "keySlotUsedForStartUp" ["FLEXRAY-COMMUNICATION-CONTROLLER-VARIANTS/FLEXRAY-COMMUNICATION-CONTROLLER-CONDITIONAL"] (SText RBool "KEY-SLOT-USED-FOR-START-UP");
  mkText "FlexrayCommunicationController" [] "keySlotUsedForSync" ["FLEXRAY-COMMUNICATION-CONTROLLER-VARIANTS/FLEXRAY-COMMUNICATION-CONTROLLER-CONDITIONAL"] (SText RBool "KEY-SLOT-USED-FOR-SYNC");
  mkText "FlexrayCommunicationController" [] "latestTX" ["FLEXRAY-COMMUNICATION-CONTROLLER-VARIANTS/FLEXRAY-COMMUNICATION-CONTROLLER-CONDITIONAL"] (SText RInteger "LATEST-TX");
  mkText "FlexrayCommunicationController" [] "listenTimeout" ["FLEXRAY-COMMUNICATION-CONTROLLER-VARIANTS/FLEXRAY-COMMUNICATION-CONTROLLER-CONDITIONAL"] (SText RInteger "LISTEN-TIMEOUT");
  mkText "FlexrayCommunicationController" [] "macroInitialOffsetA" ["FLEXRAY-COMMUNICATION-CONTROLLER-VARIANTS/FLEXRAY-COMMUNICATION-CONTROLLER-CONDITIONAL"] (SText RInteger "MACRO-INITIAL-OFFSET-A");
  mkText "FlexrayCommunicationController" [] "macroInitialOffsetB" ["FLEXRAY-COMMUNICATION-CONTROLLER-VARIANTS/FLEXRAY-COMMUNICATION-CONTROLLER-CONDITIONAL"] (SText RInteger "MACRO-INITIAL-OFFSET-B");
  mkText "FlexrayCommunicationController" [] "maximumDynamicPayloadLength" ["FLEXRAY-COMMUNICATION-CONTROLLER-VARIANTS/FLEXRAY-COMMUNICATION-CONTROLLER-CONDITIONAL"] (SText RInteger "MAXIMUM-DYNAMIC-PAYLOAD-LENGTH");
  mkText "FlexrayCommunicationController" [] "microInitialOffsetA" ["FLEXRAY-COMMUNICATION-CONTROLLER-VARIANTS/FLEXRAY-COMMUNICATION-CONTROLLER-CONDITIONAL"] (SText RInteger "MICRO-INITIAL-OFFSET-A");
  mkText "FlexrayCommunicationController" [] "microInitialOffsetB" ["FLEXRAY-COMMUNICATION-CONTROLLER-VARIANTS/FLEXRAY-COMMUNICATION-CONTROLLER-CONDITIONAL"] (SText RInteger "MICRO-INITIAL-OFFSET-B");
  mkText "FlexrayCommunicationController" [] "microPerCycle" ["FLEXRAY-COMMUNICATION-CONTROLLER-VARIANTS/FLEXRAY-COMMUNICATION-CONTROLLER-CONDITIONAL"] (SText RInteger "MICRO-PER-CYCLE");
  mkText "FlexrayCommunicationController" [] "microtickDuration" ["FLEXRAY-COMMUNICATION-CONTROLLER-VARIANTS/FLEXRAY-COMMUNICATION-CONTROLLER-CONDITIONAL"] (SText RTime "MICROTICK-DURATION");
  mkText "FlexrayCommunicationController" [] "nmVectorEarlyUpdate" ["FLEXRAY-COMMUNICATION-CONTROLLER-VARIANTS/FLEXRAY-COMMUNICATION-CONTROLLER-CONDITIONAL"] (SText RBool "NM-VECTOR-EARLY-UPDATE");
  mkText "FlexrayCommunicationController" [] "offsetCorrectionOut" ["FLEXRAY-COMMUNICATION-CONTROLLER-VARIANTS/FLEXRAY-COMMUNICATION-CONTROLLER-CONDITIONAL"] (SText RInteger "OFFSET-CORRECTION-OUT");
  mkText "FlexrayCommunicationController" [] "rateCorrectionOut" ["FLEXRAY-COMMUNICATION-CONTROLLER-VARIANTS/FLEXRAY-COMMUNICATION-CONTROLLER-CONDITIONAL"] (SText RInteger "RATE-CORRECTION-OUT");
  mkText "FlexrayCommunicationController" [] "samplesPerMicrotick" ["FLEXRAY-COMMUNICATION-CONTROLLER-VARIANTS/FLEXRAY-COMMUNICATION-CONTROLLER-CONDITIONAL"] (SText RInteger "SAMPLES-PER-MICROTICK");
  mkText "FlexrayCommunicationController" [] "secondKeySlotId" ["FLEXRAY-COMMUNICATION-CONTROLLER-VARIANTS/FLEXRAY-COMMUNICATION-CONTROLLER-CONDITIONAL"] (SText RInteger "SECOND-KEY-SLOT-ID");
  mkText "FlexrayCommunicationController" [] "twoKeySlotMode" ["FLEXRAY-COMMUNICATION-CONTROLLER-VARIANTS/FLEXRAY-COMMUNICATION-CONTROLLER-CONDITIONAL"] (SText RBool "TWO-KEY-SLOT-MODE");
  mkText "FlexrayCommunicationController" [] "wakeUpPattern" ["FLEXRAY-COMMUNICATION-CONTROLLER-VARIANTS/FLEXRAY-COMMUNICATION-CONTROLLER-CONDITIONAL"] (SText RInteger "WAKE-UP-PATTERN");
  mkText "FlexrayFifoConfiguration" [] "admitWithoutMessageId" [] (SText RBool "ADMIT-WITHOUT-MESSAGE-ID");
  mkText "FlexrayFifoConfiguration" [] "baseCycle" [] (SText RInteger "BASE-CYCLE");
  mkText "FlexrayFifoConfiguration" [] "channelRef" [] (SText RRef "CHANNEL-REF");
  mkText "FlexrayFifoConfiguration" [] "cycleRepetition" [] (SText RInteger "CYCLE-REPETITION");
  mkText "FlexrayFifoConfiguration" [] "fifoDepth" [] (SText RInteger "FIFO-DEPTH");
  mkText "FlexrayFifoConfiguration" [] "msgIdMask" [] (SText RInteger "MSG-ID-MASK");
  mkText "FlexrayFifoConfiguration" [] "msgIdMatch" [] (SText RInteger "MSG-ID-MATCH");
  mkText "FlexrayFifoRange" [] "rangeMax" [] (SText RInteger "RANGE-MAX");
  mkText "FlexrayFifoRange" [] "rangeMin" [] (SText RInteger "RANGE-MIN");
  mkText "FlexrayFrameTriggering" [] "allowDynamicLSduLength" [] (SText RBool "ALLOW-DYNAMIC-L-SDU-LENGTH");
  mkText "FlexrayFrameTriggering" [] "messageId" [] (SText RPositive "MESSAGE-ID");
  mkText "FlexrayFrameTriggering" [] "payloadPreambleIndicator" [] (SText RBool "PAYLOAD-PREAMBLE-INDICATOR");
  mkText "FlexrayPhysicalChannel" [] "channelName" [] (SText RLiteral "CHANNEL-NAME");
  mkText "FrameTriggering" [] "framePortRefs" [] (STexts RRef "FRAME-PORT-REFS/FRAME-PORT-REF");
  mkText "FrameTriggering" [] "frameRef" [] (SText RRef "FRAME-REF");
  mkText "FunctionInhibitionAvailabilityNeeds" [] "controlledFidRef" [] (SText RRef "CONTROLLED-FID-REF");
  mkText "Gateway" [] "ecuRef" [] (SText RRef "ECU-REF");
  mkText "GenericTp" [] "tpAddress" [] (SText RLiteral "TP-ADDRESS");
  mkText "GenericTp" [] "tpTechnology" [] (SText RLiteral "TP-TECHNOLOGY");
  mkText "HardwareConfiguration" [] "additionalInformation" [] (SText RLiteral "ADDITIONAL-INFORMATION");
  mkText "HardwareConfiguration" [] "processorMode" [] (SText RLiteral "PROCESSOR-MODE");
  mkText "HardwareConfiguration" [] "processorSpeed" [] (SText RLiteral "PROCESSOR-SPEED");
  mkText "HeapUsage" [] "hwElementRef" [] (SText RRef "HW-ELEMENT-REF");
  mkText "HwAttributeDef" [] "isRequired" [] (SText RBool "IS-REQUIRED");
  mkText "HwAttributeDef" [] "unitRef" [] (SText RRef "UNIT-REF");
  mkText "HwAttributeValue" [] "hwAttributeDefRef" [] (SText RRef "HW-ATTRIBUTE-DEF-REF");
  mkText "HwElement" [] "hwCategoryRefs" [] (STexts RRef "HW-CATEGORY-REFS/HW-CATEGORY-REF");
  mkText "HwElement" [] "hwTypeRef" [] (SText RRef "HW-TYPE-REF");
  mkText "HwElementConnector" [] "category" [] (SText RLiteral "CATEGORY");
  mkText "HwElementConnector" [] "hwElementRefs" [] (STexts RRef "HW-ELEMENT-REF");
  mkText "HwPinConnector" [] "category" [] (SText RLiteral "CATEGORY");
  mkText "HwPinConnector" [] "hwPinRefs" [] (STexts RRef "HW-PIN-REF");
  mkText "HwPinGroup" [] "hwCategoryRefs" [] (STexts RRef "HW-CATEGORY-REFS/HW-CATEGORY-REF");
  mkText "HwPinGroup" [] "hwTypeRef" [] (SText RRef "HW-TYPE-REF");
  mkText "HwPinGroupConnector" [] "category" [] (SText RLiteral "CATEGORY");
  mkText "HwPinGroupConnector" [] "hwPinGroupRefs" [] (STexts RRef "HW-PIN-GROUP-REF");
  mkText "IPduPort" [] "keyId" [] (SText RPositive "KEY-ID");
  mkText "IPduPort" [] "rxSecurityVerification" [] (SText RBool "RX-SECURITY-VERIFICATION");
  mkText "IPduPort" [] "useAuthDataFreshness" [] (SText RBool "USE-AUTH-DATA-FRESHNESS");
  mkText "IPduTiming" [] "minimumDelay" [] (SText RTime "MINIMUM-DELAY");
  mkText "ISignal" [] "dataTransformationRef" [] (SText RRef "DATA-TRANSFORMATIONS/DATA-TRANSFORMATION-REF-CONDITIONAL/DATA-TRANSFORMATION-REF");
  mkText "ISignal" [] "dataTypePolicy" [] (SText RLiteral "DATA-TYPE-POLICY");
  mkText "ISignal" [] "iSignalType" [] (SText RLiteral "I-SIGNAL-TYPE");
  mkText "ISignal" [] "length" [] (SText RNumerical "LENGTH");
  mkText "ISignal" [] "systemSignalRef" [] (SText RRef "SYSTEM-SIGNAL-REF");
  mkText "ISignalGroup" [] "comBasedSignalGroupTransformationRef" [] (SText RRef "COM-BASED-SIGNAL-GROUP-TRANSFORMATIONS/DATA-TRANSFORMATION-REF-CONDITIONAL/DATA-TRANSFORMATION-REF");
  mkText "ISignalGroup" [] "iSignalRefs" [] (STexts RRef "I-SIGNAL-REFS/I-SIGNAL-REF");
  mkText "ISignalGroup" [] "systemSignalGroupRef" [] (SText RRef "SYSTEM-SIGNAL-GROUP-REF");
  mkText "ISignalIPdu" [] "unusedBitPattern" [] (SText RInteger "UNUSED-BIT-PATTERN");
  mkText "ISignalIPduGroup" [] "communicationDirection" [] (SText RLiteral "COMMUNICATION-DIRECTION");
  mkText "ISignalIPduGroup" [] "communicationMode" [] (SText RLiteral "COMMUNICATION-MODE");
  mkText "ISignalIPduGroup" [] "containedISignalIPduGroupRefs" [] (STexts RRef "CONTAINED-I-SIGNAL-I-PDU-GROUP-REFS/CONTAINED-I-SIGNAL-I-PDU-GROUP-REF");
  mkText "ISignalPort" [] "timeout" [] (SText RTime "TIMEOUT");
  mkText "ISignalProps" [] "handleOutOfRange" [] (SText RLiteral "HANDLE-OUT-OF-RANGE");
  mkText "ISignalToIPduMapping" [] "iSignalGroupRef" [] (SText RRef "I-SIGNAL-GROUP-REF");
  mkText "ISignalToIPduMapping" [] "iSignalRef" [] (SText RRef "I-SIGNAL-REF");
  mkText "ISignalToIPduMapping" [] "packingByteOrder" [] (SText RLiteral "PACKING-BYTE-ORDER");
  mkText "ISignalToIPduMapping" [] "transferProperty" [] (SText RLiteral "TRANSFER-PROPERTY");
  mkText "ISignalToIPduMapping" [] "updateIndicationBitPosition" [] (SText RNumerical "UPDATE-INDICATION-BIT-POSITION");
  mkText "ISignalTriggering" [] "iSignalGroupRef" [] (SText RRef "I-SIGNAL-GROUP-REF");
  mkText "ISignalTriggering" [] "iSignalPortRefs" [] (STexts RRef "I-SIGNAL-PORT-REFS/I-SIGNAL-PORT-REF");
  mkText "ISignalTriggering" [] "iSignalRef" [] (SText RRef "I-SIGNAL-REF");
  mkText "Identifiable" bare "category" [] (SText RLiteral "CATEGORY");
  mkText "IdsMgrNeeds" [] "useSmartSensorApi" [] (SText RBool "USE-SMART-SENSOR-API");
  mkText "Implementation" [] "behaviorRef" [] (SText RRef "BEHAVIOR-REF");
  mkText "Implementation" [] "hwElementRefs" [] (STexts RRef "HW-ELEMENT-REFS/HW-ELEMENT-REF");
  mkText "Implementation" [] "programmingLanguage" [] (SText RLiteral "PROGRAMMING-LANGUAGE");
  mkText "Implementation" [] "swVersion" [] (SText RLiteral "SW-VERSION");
  mkText "Implementation" [] "swcBswMappingRef" [] (SText RRef "SWC-BSW-MAPPING-REF");
  mkText "Implementation" [] "usedCodeGenerator" [] (SText RLiteral "USED-CODE-GENERATOR");
  mkText "Implementation" [] "vendorId" [] (SText RPositive "VENDOR-ID");
  mkText "ImplementationDataType" [] "dynamicArraySizeProfile" [] (SText RLiteral "DYNAMIC-ARRAY-SIZE-PROFILE");
  mkText "ImplementationDataType" [] "isStructWithOptionalElement" [] (SText RBool "IS-STRUCT-WITH-OPTIONAL-ELEMENT");
  mkText "ImplementationDataType" [] "typeEmitter" [] (SText RLiteral "TYPE-EMITTER");
  mkText "ImplementationDataTypeElement" [] "arraySize" [] (SText RPositive "ARRAY-SIZE");
  mkText "ImplementationDataTypeElement" [] "arraySizeHandling" [] (SText RLiteral "ARRAY-SIZE-HANDLING");
  mkText "ImplementationDataTypeElement" [] "arraySizeSemantics" [] (SText RLiteral "ARRAY-SIZE-SEMANTICS");
  mkText "ImplementationElementInParameterInstanceRef" [] "contextRef" [] (SText RRef "CONTEXT-REF");
  mkText "ImplementationElementInParameterInstanceRef" [] "targetRef" [] (SText RRef "TARGET-REF");
  mkText "IncludedModeDeclarationGroupSet" [] "mode_declaration_group_refs" [] (STexts RRef "MODE-DECLARATION-GROUP-REFS/MODE-DECLARATION-GROUP-REF");
  mkText "IncludedModeDeclarationGroupSet" [] "prefix" [] (SText RLiteral "PREFIX");
  mkText "IndicatorStatusNeeds" [] "type" [] (SText RLiteral "TYPE");
  mkText "InitialSdDelayConfig" [] "initialDelayMaxValue" [] (SText RTime "INITIAL-DELAY-MAX-VALUE");
  mkText "InitialSdDelayConfig" [] "initialDelayMinValue" [] (SText RTime "INITIAL-DELAY-MIN-VALUE");
  mkText "InitialSdDelayConfig" [] "initialRepetitionsBaseDelay" [] (SText RTime "INITIAL-REPETITIONS-BASE-DELAY");
  mkText "InitialSdDelayConfig" [] "initialRepetitionsMax" [] (SText RPositive "INITIAL-REPETITIONS-MAX");
  mkText "InnerDataPrototypeGroupInCompositionInstanceRef" [] "contextSwComponentPrototypeRefs" [] (STexts RRef "CONTEXT-SW-COMPONENT-PROTOTYPE-REF");
  mkText "InnerDataPrototypeGroupInCompositionInstanceRef" [] "targetDataPrototypeGroupRef" [] (SText RRef "TARGET-DATA-PROTOTYPE-GROUP-REF");
  mkText "InnerPortGroupInCompositionInstanceRef" [] "targetRef" [] (SText RRef "TARGET-REF");
  mkText "InnerRunnableEntityGroupInCompositionInstanceRef" [] "contextSwComponentPrototypeRefs" [] (STexts RRef "CONTEXT-SW-COMPONENT-PROTOTYPE-REF");
  mkText "InnerRunnableEntityGroupInCompositionInstanceRef" [] "targetRunnableEntityGroupRef" [] (SText RRef "TARGET-RUNNABLE-ENTITY-GROUP-REF");
  mkText "InstanceEventInCompositionInstanceRef" [] "contextComponentPrototypeRefs" [] (STexts RRef "CONTEXT-COMPONENT-PROTOTYPE-REF");
  mkText "InstanceEventInCompositionInstanceRef" [] "targetEventRef" [] (SText RRef "TARGET-EVENT-REF");
  mkText "InstantiationTimingEventProps" [] "period" [] (SText RTime "PERIOD");
  mkText "InstantiationTimingEventProps" [] "shortLabel" [] (SText RLiteral "SHORT-LABEL");
  mkText "InternalBehavior" [] "dataTypeMappingRefs" ["DATA-TYPE-MAPPING-REFS"] (STexts RRef "DATA-TYPE-MAPPING-REF");
  mkText "InternalConstrs" [] "lowerLimit" [] (SText RLimit "LOWER-LIMIT");
  mkText "InternalConstrs" [] "maxDiff" [] (SText RNumerical "MAX-DIFF");
  mkText "InternalConstrs" [] "maxGradient" [] (SText RNumerical "MAX-GRADIENT");
  mkText "InternalConstrs" [] "monotony" [] (SText RLiteral "MONOTONY");
  mkText "InternalConstrs" [] "upperLimit" [] (SText RLimit "UPPER-LIMIT");
  mkText "InternalTriggerOccurredEvent" [] "eventSourceRef" [] (SText RRef "EVENT-SOURCE-REF");
  mkText "InvalidationPolicy" [] "dataElementRef" [] (SText RRef "DATA-ELEMENT-REF");
  mkText "InvalidationPolicy" [] "handleInvalid" [] (SText RLiteral "HANDLE-INVALID");
  mkText "IoHwAbstractionServerAnnotation" [] "triggerRef" [] (SText RRef "TRIGGER-REF");
  mkText "Ipv6Configuration" [] "assignmentPriority" [] (SText RPositive "ASSIGNMENT-PRIORITY");
  mkText "Ipv6Configuration" [] "defaultRouter" [] (SText RLiteral "DEFAULT-ROUTER");
  mkText "Ipv6Configuration" [] "enableAnycast" [] (SText RBool "ENABLE-ANYCAST");
  mkText "Ipv6Configuration" [] "hopCount" [] (SText RPositive "HOP-COUNT");
  mkText "Ipv6Configuration" [] "ipAddressPrefixLength" [] (SText RPositive "IP-ADDRESS-PREFIX-LENGTH");
  mkText "Ipv6Configuration" [] "ipv6Address" [] (SText RLiteral "IPV-6-ADDRESS");
  mkText "Ipv6Configuration" [] "ipv6AddressSource" [] (SText RLiteral "IPV-6-ADDRESS-SOURCE");
  mkText "J1939NmNode" [] "addressConfigurationCapability" [] (SText RLiteral "ADDRESS-CONFIGURATION-CAPABILITY");
  mkText "J1939NodeName" [] "arbitraryAddressCapable" [] (SText RBool "ARBITRARY-ADDRESS-CAPABLE");
  mkText "J1939NodeName" [] "ecuInstance" [] (SText RInteger "ECU-INSTANCE");
  mkText "J1939NodeName" [] "function" [] (SText RInteger "FUNCTION");
  mkText "J1939NodeName" [] "functionInstance" [] (SText RInteger "FUNCTION-INSTANCE");
  mkText "J1939NodeName" [] "identitiyNumber" [] (SText RInteger "IDENTITIY-NUMBER");
  mkText "J1939NodeName" [] "industryGroup" [] (SText RInteger "INDUSTRY-GROUP");
  mkText "J1939NodeName" [] "manufacturerCode" [] (SText RInteger "MANUFACTURER-CODE");
  mkText "J1939NodeName" [] "vehicleSystem" [] (SText RInteger "VEHICLE-SYSTEM");
  mkText "J1939NodeName" [] "vehicleSystemInstance" [] (SText RInteger "VEHICLE-SYSTEM-INSTANCE");
  mkText "Keyword" [] "abbrName" [] (SText RLiteral "ABBR-NAME");
  mkText "Keyword" [] "classifications" [] (STexts RLitItem "CLASSIFICATIONS/CLASSIFICATION");
  mkText "LifeCycleInfo" [] "lcObjectRef" [] (SText RRef "LC-OBJECT-REF");
  mkText "LifeCycleInfo" [] "lcStateRef" [] (SText RRef "LC-STATE-REF");
  mkText "LifeCycleInfo" [] "useInsteadRefs" [] (STexts RRef "USE-INSTEAD-REFS/USE-INSTEAD-REF");
  mkText "LifeCycleInfoSet" [] "defaultLcStateRef" [] (SText RRef "DEFAULT-LC-STATE-REF");
  mkText "LifeCycleInfoSet" [] "usedLifeCycleStateDefinitionGroupRef" [] (SText RRef "USED-LIFE-CYCLE-STATE-DEFINITION-GROUP-REF");
  mkText "LifeCyclePeriod" [] "arReleaseVersion" [] (SText RRevision "AR-RELEASE-VERSION");
  mkText "LinCluster" [] "baudrate" ["LIN-CLUSTER-VARIANTS/LIN-CLUSTER-CONDITIONAL"] (SText RNumerical "BAUDRATE");
  mkText "LinCluster" [] "protocolName" ["LIN-CLUSTER-VARIANTS/LIN-CLUSTER-CONDITIONAL"] (SText RLiteral "PROTOCOL-NAME");
  mkText "LinCluster" [] "protocolVersion" ["LIN-CLUSTER-VARIANTS/LIN-CLUSTER-CONDITIONAL"] (SText RLiteral "PROTOCOL-VERSION");
  mkText "LinFrameTriggering" [] "identifier" [] (SText RNumerical "IDENTIFIER");
  mkText "LinFrameTriggering" [] "linChecksum" [] (SText RLiteral "LIN-CHECKSUM");
  mkText "LinMaster" [] "protocolVersion" ["LIN-MASTER-VARIANTS/LIN-MASTER-CONDITIONAL"] (SText RLiteral "PROTOCOL-VERSION");
  mkText "LinMaster" [] "timeBase" ["LIN-MASTER-VARIANTS/LIN-MASTER-CONDITIONAL"] (SText RTime "TIME-BASE");
  mkText "LinMaster" [] "timeBaseJitter" ["LIN-MASTER-VARIANTS/LIN-MASTER-CONDITIONAL"] (SText RTime "TIME-BASE-JITTER");
  mkText "LinMaster" [] "wakeUpByControllerSupported" ["LIN-MASTER-VARIANTS/LIN-MASTER-CONDITIONAL"] (SText RBool "WAKE-UP-BY-CONTROLLER-SUPPORTED");
  mkText "LinScheduleTable" [] "resumePosition" [] (SText RLiteral "RESUME-POSITION");
  mkText "LinScheduleTable" [] "runMode" [] (SText RLiteral "RUN-MODE");
  mkText "LinTpConnection" [] "dataPduRef" [] (SText RRef "DATA-PDU-REF");
  mkText "LinTpConnection" [] "flowControlRef" [] (SText RRef "FLOW-CONTROL-REF");
  mkText "LinTpConnection" [] "linTpNSduRef" [] (SText RRef "LIN-TP-N-SDU-REF");
  mkText "LinTpConnection" [] "receiverRefs" [] (STexts RRef "RECEIVER-REFS/RECEIVER-REF");
  mkText "LinTpConnection" [] "timeoutAs" [] (SText RTime "TIMEOUT-AS");
  mkText "LinTpConnection" [] "timeoutCr" [] (SText RTime "TIMEOUT-CR");
  mkText "LinTpConnection" [] "timeoutCs" [] (SText RTime "TIMEOUT-CS");
  mkText "LinTpConnection" [] "transmitterRef" [] (SText RRef "TRANSMITTER-REF");
  mkText "LinTpNode" [] "connectorRef" [] (SText RRef "CONNECTOR-REF");
  mkText "LinTpNode" [] "dropNotRequestedNad" [] (SText RBool "DROP-NOT-REQUESTED-NAD");
  mkText "LinTpNode" [] "p2Max" [] (SText RTime "P-2-MAX");
  mkText "LinTpNode" [] "p2Timing" [] (SText RTime "P-2-TIMING");
  mkText "LinTpNode" [] "tpAddressRef" [] (SText RRef "TP-ADDRESS-REF");
  mkText "Linker" [] "name" [] (SText RLiteral "NAME");
  mkText "Linker" [] "options" [] (SText RLiteral "OPTIONS");
  mkText "Linker" [] "vendor" [] (SText RLiteral "VENDOR");
  mkText "Linker" [] "version" [] (SText RLiteral "VERSION");
  mkText "MacMulticastGroup" [] "macMulticastAddress" [] (SText RLiteral "MAC-MULTICAST-ADDRESS");
  mkText "McDataInstance" [] "arraySize" [] (SText RPositive "ARRAY-SIZE");
  mkText "McDataInstance" [] "displayIdentifier" [] (SText RLiteral "DISPLAY-IDENTIFIER");
  mkText "McDataInstance" [] "flatMapEntryRef" [] (SText RRef "FLAT-MAP-ENTRY-REF");
  mkText "McDataInstance" [] "role" [] (SText RLiteral "ROLE");
  mkText "McDataInstance" [] "symbol" [] (SText RLiteral "SYMBOL");
  mkText "McFunction" [] "subFunctionRefs" [] (STexts RRef "SUB-FUNCTION-REFS/SUB-FUNCTION-REF");
  mkText "McFunctionDataRefSet" [] "flatMapEntryRefs" ["MC-FUNCTION-DATA-REF-SET-VARIANTS/MC-FUNCTION-DATA-REF-SET-CONDITIONAL"] (STexts RRef "FLAT-MAP-ENTRY-REFS/FLAT-MAP-ENTRY-REF");
  mkText "McFunctionDataRefSet" [] "mcDataInstanceRefs" ["MC-FUNCTION-DATA-REF-SET-VARIANTS/MC-FUNCTION-DATA-REF-SET-CONDITIONAL"] (STexts RRef "MC-DATA-INSTANCE-REFS/MC-DATA-INSTANCE-REF");
  mkText "McGroup" [] "mcFunctionRefs" [] (STexts RRef "MC-FUNCTION-REFS/MC-FUNCTION-REF");
  mkText "McGroup" [] "subGroupRefs" [] (STexts RRef "SUB-GROUP-REFS/SUB-GROUP-REF");
  mkText "McGroupDataRefSet" [] "flatMapEntryRefs" ["MC-GROUP-DATA-REF-SET-VARIANTS/MC-GROUP-DATA-REF-SET-CONDITIONAL"] (STexts RRef "FLAT-MAP-ENTRY-REFS/FLAT-MAP-ENTRY-REF");
  mkText "McGroupDataRefSet" [] "mcDataInstanceRefs" ["MC-GROUP-DATA-REF-SET-VARIANTS/MC-GROUP-DATA-REF-SET-CONDITIONAL"] (STexts RRef "MC-DATA-INSTANCE-REFS/MC-DATA-INSTANCE-REF");
  mkText "McParameterElementGroup" [] "ramLocationRef" [] (SText RRef "RAM-LOCATION-REF");
  mkText "McParameterElementGroup" [] "romLocationRef" [] (SText RRef "ROM-LOCATION-REF");
  mkText "McParameterElementGroup" [] "shortLabel" [] (SText RLiteral "SHORT-LABEL");
  mkText "McSupportData" [] "measurableSystemConstantValuesRefs" [] (STexts RRef "MEASURABLE-SYSTEM-CONSTANT-VALUES-REFS/MEASURABLE-SYSTEM-CONSTANT-VALUES-REF");
  mkText "McSwEmulationMethodSupport" [] "baseReferenceRef" [] (SText RRef "BASE-REFERENCE-REF");
  mkText "McSwEmulationMethodSupport" [] "category" [] (SText RLiteral "CATEGORY");
  mkText "McSwEmulationMethodSupport" [] "referenceTableRef" [] (SText RRef "REFERENCE-TABLE-REF");
  mkText "McSwEmulationMethodSupport" [] "shortLabel" [] (SText RLiteral "SHORT-LABEL");
  mkText "MeasuredHeapUsage" [] "averageMemoryConsumption" [] (SText RPositive "AVERAGE-MEMORY-CONSUMPTION");
  mkText "MeasuredHeapUsage" [] "maximumMemoryConsumption" [] (SText RPositive "MAXIMUM-MEMORY-CONSUMPTION");
  mkText "MeasuredHeapUsage" [] "minimumMemoryConsumption" [] (SText RPositive "MINIMUM-MEMORY-CONSUMPTION");
  mkText "MeasuredHeapUsage" [] "testPattern" [] (SText RLiteral "TEST-PATTERN");
  mkText "MeasuredStackUsage" [] "averageMemoryConsumption" [] (SText RPositive "AVERAGE-MEMORY-CONSUMPTION");
  mkText "MeasuredStackUsage" [] "maximumMemoryConsumption" [] (SText RPositive "MAXIMUM-MEMORY-CONSUMPTION");
  mkText "MeasuredStackUsage" [] "minimumMemoryConsumption" [] (SText RPositive "MINIMUM-MEMORY-CONSUMPTION");
  mkText "MeasuredStackUsage" [] "testPattern" [] (SText RLiteral "TEST-PATTERN");
  mkText "MemorySection" [] "alignment" [] (SText RLiteral "ALIGNMENT");
  mkText "MemorySection" [] "executableEntityRefs" [] (STexts RRef "EXECUTABLE-ENTITY-REFS/EXECUTABLE-ENTITY-REF");
  mkText "MemorySection" [] "memClassSymbol" [] (SText RLiteral "MEM-CLASS-SYMBOL");
  mkText "MemorySection" [] "options" ["OPTIONS"] (STexts RLitItem "OPTION");
  mkText "MemorySection" [] "prefixRef" [] (SText RRef "PREFIX-REF");
  mkText "MemorySection" [] "size" [] (SText RPositive "SIZE");
  mkText "MemorySection" [] "swAddrMethodRef" [] (SText RRef "SW-ADDRMETHOD-REF");
  mkText "MemorySection" [] "symbol" [] (SText RLiteral "SYMBOL");
  mkText "MemorySectionLocation" [] "providedMemoryRef" [] (SText RRef "PROVIDED-MEMORY-REF");
  mkText "MemorySectionLocation" [] "softwareMemorySectionRef" [] (SText RRef "SOFTWARE-MEMORY-SECTION-REF");
  mkText "ModeDeclaration" [] "value" [] (SText RPositive "VALUE");
  mkText "ModeDeclarationGroup" [] "initialModeRef" [] (SText RRef "INITIAL-MODE-REF");
  mkText "ModeDeclarationGroup" [] "onTransitionValue" [] (SText RPositive "ON-TRANSITION-VALUE");
  mkText "ModeDeclarationGroupPrototype" [] "typeTRef" [] (SText RRef "TYPE-TREF");
  mkText "ModeDeclarationGroupPrototypeMapping" [] "firstModeGroupRef" [] (SText RRef "FIRST-MODE-GROUP-REF");
  mkText "ModeDeclarationGroupPrototypeMapping" [] "modeDeclarationMappingSetRef" [] (SText RRef "MODE-DECLARATION-MAPPING-SET-REF");
  mkText "ModeDeclarationGroupPrototypeMapping" [] "secondModeGroupRef" [] (SText RRef "SECOND-MODE-GROUP-REF");
  mkText "ModeDeclarationMapping" [] "firstModeRefs" [] (STexts RRef "FIRST-MODE-REFS/FIRST-MODE-REF");
  mkText "ModeDeclarationMapping" [] "secondModeRef" [] (SText RRef "SECOND-MODE-REF");
  mkText "ModeErrorBehavior" [] "defaultModeRef" [] (SText RRef "DEFAULT-MODE-REF");
  mkText "ModeInBswModuleDescriptionInstanceRef" [] "contextModeDeclarationGroupRef" [] (SText RRef "CONTEXT-MODE-DECLARATION-GROUP-REF");
  mkText "ModeInBswModuleDescriptionInstanceRef" [] "targetModeRef" [] (SText RRef "TARGET-MODE-REF");
  mkText "ModePortAnnotation" [] "modeGroupRef" [] (SText RRef "MODE-GROUP-REF");
  mkText "ModeSwitchEventTriggeredActivity" [] "role" [] (SText RLiteral "ROLE");
  mkText "ModeSwitchEventTriggeredActivity" [] "swcModeSwitchEventRef" [] (SText RRef "SWC-MODE-SWITCH-EVENT-REF");
  mkText "ModeSwitchInterface" [] "isService" [] (SText RBool "IS-SERVICE");
  mkText "ModeSwitchInterface" [] "serviceKind" [] (SText RLiteral "SERVICE-KIND");
  mkText "ModeSwitchReceiverComSpec" [] "enhancedModeApi" [] (SText RBool "ENHANCED-MODE-API");
  mkText "ModeSwitchReceiverComSpec" [] "modeGroupRef" [] (SText RRef "MODE-GROUP-REF");
  mkText "ModeSwitchReceiverComSpec" [] "supportsAsynchronousModeSwitch" [] (SText RBool "SUPPORTS-ASYNCHRONOUS-MODE-SWITCH");
  mkText "ModeSwitchSenderComSpec" [] "modeGroupRef" [] (SText RRef "MODE-GROUP-REF");
  mkText "ModeSwitchSenderComSpec" [] "queueLength" [] (SText RNumerical "QUEUE-LENGTH");
  mkText "ModeSwitchedAckEvent" [] "eventSourceRef" [] (SText RRef "EVENT-SOURCE-REF");
  mkText "ModeSwitchedAckRequest" [] "timeout" [] (SText RTime "TIMEOUT");
  mkText "ModeTransition" [] "enteredModeRef" [] (SText RRef "ENTERED-MODE-REF");
  mkText "ModeTransition" [] "exitedModeRef" [] (SText RRef "EXITED-MODE-REF");
  mkText "MsrQueryArg" [] "arg" [] (SText RLiteral "ARG");
  mkText "MsrQueryProps" [] "comment" [] (SText RLiteral "COMMENT");
  mkText "MsrQueryProps" [] "msrQueryName" [] (SText RLiteral "MSR-QUERY-NAME");
  mkText "MultidimensionalTime" [] "cseCode" [] (SText RLiteral "CSE-CODE");
  mkText "MultidimensionalTime" [] "cseCodeFactor" [] (SText RInteger "CSE-CODE-FACTOR");
  mkText "MultiplexedIPdu" [] "selectorFieldByteOrder" [] (SText RLiteral "SELECTOR-FIELD-BYTE-ORDER");
  mkText "MultiplexedIPdu" [] "selectorFieldLength" [] (SText RInteger "SELECTOR-FIELD-LENGTH");
  mkText "MultiplexedIPdu" [] "selectorFieldStartPosition" [] (SText RInteger "SELECTOR-FIELD-START-POSITION");
  mkText "MultiplexedIPdu" [] "triggerMode" [] (SText RLiteral "TRIGGER-MODE");
  mkText "MultiplexedIPdu" [] "unusedBitPattern" [] (SText RInteger "UNUSED-BIT-PATTERN");
  mkText "NetworkEndpoint" [] "priority" [] (SText RPositive "PRIORITY");
  mkText "NmCluster" [] "_nmSynchronizingNetwork" [] (SText RBool "NM-SYNCHRONIZING-NETWORK");
  mkText "NmCluster" [] "communicationClusterRef" [] (SText RRef "COMMUNICATION-CLUSTER-REF");
  mkText "NmCluster" [] "nmChannelActive" [] (SText RBool "NM-CHANNEL-ACTIVE");
  mkText "NmCluster" [] "nmChannelId" [] (SText RNumerical "NM-CHANNEL-ID");
  mkText "NmCluster" [] "nmChannelSleepMaster" [] (SText RBool "NM-CHANNEL-SLEEP-MASTER");
  mkText "NmClusterCoupling" [] "coupledClusterRefs" [] (STexts RRef "COUPLED-CLUSTER-REFS/COUPLED-CLUSTER-REF");
  mkText "NmClusterCoupling" [] "nmImmediateRestartEnabled" [] (SText RBool "NM-IMMEDIATE-RESTART-ENABLED");
  mkText "NmEcu" [] "ecuInstanceRef" [] (SText RRef "ECU-INSTANCE-REF");
  mkText "NmEcu" [] "nmBusSynchronizationEnabled" [] (SText RBool "NM-BUS-SYNCHRONIZATION-ENABLED");
  mkText "NmEcu" [] "nmComControlEnabled" [] (SText RBool "NM-COM-CONTROL-ENABLED");
  mkText "NmEcu" [] "nmNodeDetectionEnabled" [] (SText RBool "NM-NODE-DETECTION-ENABLED");
  mkText "NmEcu" [] "nmNodeIdEnabled" [] (SText RBool "NM-NODE-ID-ENABLED");
  mkText "NmEcu" [] "nmPduRxIndicationEnabled" [] (SText RBool "NM-PDU-RX-INDICATION-ENABLED");
  mkText "NmEcu" [] "nmRemoteSleepIndEnabled" [] (SText RBool "NM-REMOTE-SLEEP-IND-ENABLED");
  mkText "NmEcu" [] "nmRepeatMsgIndEnabled" [] (SText RBool "NM-REPEAT-MSG-IND-ENABLED");
  mkText "NmEcu" [] "nmStateChangeIndEnabled" [] (SText RBool "NM-STATE-CHANGE-IND-ENABLED");
  mkText "NmEcu" [] "nmUserDataEnabled" [] (SText RBool "NM-USER-DATA-ENABLED");
  mkText "NmNode" [] "controllerRef" [] (SText RRef "CONTROLLER-REF");
  mkText "NmNode" [] "nmCoordCluster" [] (SText RPositive "NM-COORD-CLUSTER");
  mkText "NmNode" [] "nmCoordinatorRole" [] (SText RLiteral "NM-COORDINATOR-ROLE");
  mkText "NmNode" [] "nmIfEcuRef" [] (SText RRef "NM-IF-ECU-REF");
  mkText "NmNode" [] "nmNodeId" [] (SText RInteger "NM-NODE-ID");
  mkText "NmNode" [] "nmPassiveModeEnabled" [] (SText RBool "NM-PASSIVE-MODE-ENABLED");
  mkText "NmNode" [] "rxNmPduRefs" [] (STexts RRef "RX-NM-PDU-REFS/RX-NM-PDU-REF");
  mkText "NmNode" [] "txNmPduRefs" [] (STexts RRef "TX-NM-PDU-REFS/TX-NM-PDU-REF");
  mkText "NmPdu" [] "unusedBitPattern" [] (SText RInteger "UNUSED-BIT-PATTERN");
  mkText "NonqueuedReceiverComSpec" [] "aliveTimeout" [] (SText RFloat "ALIVE-TIMEOUT");
  mkText "NonqueuedReceiverComSpec" [] "enableUpdate" [] (SText RBool "ENABLE-UPDATE");
  mkText "NonqueuedReceiverComSpec" [] "handleDataStatus" [] (SText RBool "HANDLE-DATA-STATUS");
  mkText "NonqueuedReceiverComSpec" [] "handleNeverReceived" [] (SText RBool "HANDLE-NEVER-RECEIVED");
  mkText "NonqueuedReceiverComSpec" [] "handleTimeoutType" [] (SText RLiteral "HANDLE-TIMEOUT-TYPE");
  mkText "NvBlockDataMapping" [] "bitfieldTextTableMaskNvBlockDescriptor" [] (SText RPositive "BITFIELD-TEXT-TABLE-MASK-NV-BLOCK-DESCRIPTOR");
  mkText "NvBlockDataMapping" [] "bitfieldTextTableMaskPortPrototype" [] (SText RPositive "BITFIELD-TEXT-TABLE-MASK-PORT-PROTOTYPE");
  mkText "NvBlockDescriptor" [] "constantValueMappingRefs" [] (STexts RRef "CONSTANT-VALUE-MAPPING-REFS/CONSTANT-VALUE-MAPPING-REF");
  mkText "NvBlockDescriptor" [] "dataTypeMappingRefs" [] (STexts RRef "DATA-TYPE-MAPPING-REFS/DATA-TYPE-MAPPING-REF");
  mkText "NvBlockDescriptor" [] "supportDirtyFlag" [] (SText RBool "SUPPORT-DIRTY-FLAG");
  mkText "NvBlockDescriptor" [] "timingEventRef" [] (SText RRef "TIMING-EVENT-REF");
  mkText "NvBlockNeeds" [] "calcRamBlockCrc" [] (SText RBool "CALC-RAM-BLOCK-CRC");
  mkText "NvBlockNeeds" [] "checkStaticBlockId" [] (SText RBool "CHECK-STATIC-BLOCK-ID");
  mkText "NvBlockNeeds" [] "nDataSets" [] (SText RNumerical "N-DATA-SETS");
  mkText "NvBlockNeeds" [] "nRomBlocks" [] (SText RNumerical "N-ROM-BLOCKS");
  mkText "NvBlockNeeds" [] "ramBlockStatusControl" [] (SText RLiteral "RAM-BLOCK-STATUS-CONTROL");
  mkText "NvBlockNeeds" [] "readonly" [] (SText RBool "READONLY");
  mkText "NvBlockNeeds" [] "reliability" [] (SText RLiteral "RELIABILITY");
  mkText "NvBlockNeeds" [] "resistantToChangedSw" [] (SText RBool "RESISTANT-TO-CHANGED-SW");
  mkText "NvBlockNeeds" [] "restoreAtStart" [] (SText RBool "RESTORE-AT-START");
  mkText "NvBlockNeeds" [] "storeAtShutdown" [] (SText RBool "STORE-AT-SHUTDOWN");
  mkText "NvBlockNeeds" [] "storeCyclic" [] (SText RBool "STORE-CYCLIC");
  mkText "NvBlockNeeds" [] "storeEmergency" [] (SText RBool "STORE-EMERGENCY");
  mkText "NvBlockNeeds" [] "storeImmediate" [] (SText RBool "STORE-IMMEDIATE");
  mkText "NvBlockNeeds" [] "useAutoValidationAtShutDown" [] (SText RBool "USE-AUTO-VALIDATION-AT-SHUT-DOWN");
  mkText "NvBlockNeeds" [] "useCRCCompMechanism" [] (SText RBool "USE-CRC-COMP-MECHANISM");
  mkText "NvBlockNeeds" [] "writeOnlyOnce" [] (SText RBool "WRITE-ONLY-ONCE");
  mkText "NvBlockNeeds" [] "writeVerification" [] (SText RBool "WRITE-VERIFICATION");
  mkText "NvBlockNeeds" [] "writingFrequency" [] (SText RPositive "WRITING-FREQUENCY");
  mkText "NvBlockNeeds" [] "writingPriority" [] (SText RLiteral "WRITING-PRIORITY");
  mkText "NvDataInterface" [] "serviceKind" [] (SText RLiteral "SERVICE-KIND");
  mkText "NvDataPortAnnotation" [] "variableRef" [] (SText RRef "VARIABLE-REF");
  mkText "NvProvideComSpec" [] "variableRef" [] (SText RRef "VARIABLE-REF");
  mkText "NvRequireComSpec" [] "variableRef" [] (SText RRef "VARIABLE-REF");
  mkText "ObdMonitorServiceNeeds" [] "applicationDataTypeRef" [] (SText RRef "APPLICATION-DATA-TYPE-REF");
  mkText "ObdMonitorServiceNeeds" [] "eventNeedsRef" [] (SText RRef "EVENT-NEEDS-REF");
  mkText "ObdMonitorServiceNeeds" [] "unitAndScalingId" [] (SText RPositive "UNIT-AND-SCALING-ID");
  mkText "ObdMonitorServiceNeeds" [] "updateKind" [] (SText RLiteral "UPDATE-KIND");
  mkText "ObdRatioDenominatorNeeds" [] "denominatorCondition" [] (SText RLiteral "DENOMINATOR-CONDITION");
  mkText "ObdRatioServiceNeeds" [] "connectionType" [] (SText RLiteral "CONNECTION-TYPE");
  mkText "ObdRatioServiceNeeds" [] "rateBasedMonitoredEventRef" [] (SText RRef "RATE-BASED-MONITORED-EVENT-REF");
  mkText "ObdRatioServiceNeeds" [] "usedFidRef" [] (SText RRef "USED-FID-REF");
  mkText "PModeGroupInAtomicSwcInstanceRef" [] "baseRef" [] (SText RRef "BASE-REF");
  mkText "PModeGroupInAtomicSwcInstanceRef" [] "contextPPortRef" [] (SText RRef "CONTEXT-P-PORT-REF");
  mkText "PModeGroupInAtomicSwcInstanceRef" [] "contextPortRef" [] (SText RRef "CONTEXT-PORT-REF");
  mkText "PModeGroupInAtomicSwcInstanceRef" [] "targetModeGroupRef" [] (SText RRef "TARGET-MODE-GROUP-REF");
  mkText "POperationInAtomicSwcInstanceRef" [] "contextPPortRef" [] (SText RRef "CONTEXT-P-PORT-REF");
  mkText "POperationInAtomicSwcInstanceRef" [] "targetProvidedOperationRef" [] (SText RRef "TARGET-PROVIDED-OPERATION-REF");
  mkText "PPortInCompositionInstanceRef" [] "targetPPortRef" [] (SText RRef "TARGET-P-PORT-REF");
  mkText "PPortPrototype" [] "providedInterfaceTRef" [] (SText RRef "PROVIDED-INTERFACE-TREF");
  mkText "PRPortPrototype" [] "providedRequiredInterface" [] (SText RRef "PROVIDED-REQUIRED-INTERFACE-TREF");
  mkText "PTriggerInAtomicSwcTypeInstanceRef" [] "contextPPortRef" [] (SText RRef "CONTEXT-P-PORT-REF");
  mkText "PTriggerInAtomicSwcTypeInstanceRef" [] "targetTriggerRef" [] (SText RRef "TARGET-TRIGGER-REF");
  mkText "ParameterInAtomicSWCTypeInstanceRef" [] "contextDataPrototypeRefs" [] (STexts RRef "CONTEXT-DATA-PROTOTYPE-REF");
  mkText "ParameterInAtomicSWCTypeInstanceRef" [] "portPrototypeRef" [] (SText RRef "PORT-PROTOTYPE-REF");
  mkText "ParameterInAtomicSWCTypeInstanceRef" [] "rootParameterDataPrototypeRef" [] (SText RRef "ROOT-PARAMETER-DATA-PROTOTYPE-REF");
  mkText "ParameterInAtomicSWCTypeInstanceRef" [] "targetDataPrototypeRef" [] (SText RRef "TARGET-DATA-PROTOTYPE-REF");
  mkText "ParameterInterface" [] "serviceKind" [] (SText RLiteral "SERVICE-KIND");
  mkText "ParameterPortAnnotation" [] "parameterRef" [] (SText RRef "PARAMETER-REF");
  mkText "ParameterProvideComSpec" [] "parameterRef" [] (SText RRef "PARAMETER-REF");
  mkText "ParameterRequireComSpec" [] "parameterRef" [] (SText RRef "PARAMETER-REF");
  mkText "PassThroughSwConnector" [] "providedOuterPortRef" [] (SText RRef "PROVIDED-OUTER-PORT-REF");
  mkText "PassThroughSwConnector" [] "requiredOuterPortRef" [] (SText RRef "REQUIRED-OUTER-PORT-REF");
  mkText "Pdu" ["ISignalIPdu"] "hasDynamicLength" [] (SText RBool "HAS-DYNAMIC-LENGTH");
  mkText "Pdu" [] "length" [] (SText RNumerical "LENGTH");
  mkText "PduTriggering" [] "iPduPortRefs" [] (STexts RRef "I-PDU-PORT-REFS/I-PDU-PORT-REF");
  mkText "PduTriggering" [] "iPduRef" [] (SText RRef "I-PDU-REF");
  mkText "PerInstanceMemory" [] "initValue" [] (SText RLiteral "INIT-VALUE");
  mkText "PerInstanceMemory" [] "type" [] (SText RLiteral "TYPE");
  mkText "PerInstanceMemory" [] "typeDefinition" [] (SText RLiteral "TYPE-DEFINITION");
  mkText "PhysConstrs" [] "lowerLimit" [] (SText RLimit "LOWER-LIMIT");
  mkText "PhysConstrs" [] "maxDiff" [] (SText RNumerical "MAX-DIFF");
  mkText "PhysConstrs" [] "maxGradient" [] (SText RNumerical "MAX-GRADIENT");
  mkText "PhysConstrs" [] "monotony" [] (SText RLiteral "MONOTONY");
  mkText "PhysConstrs" [] "unitRef" [] (SText RRef "UNIT-REF");
  mkText "PhysConstrs" [] "upperLimit" [] (SText RLimit "UPPER-LIMIT");
  mkText "PhysicalDimension" [] "currentExp" [] (SText RNumerical "CURRENT-EXP");
  mkText "PhysicalDimension" [] "lengthExp" [] (SText RNumerical "LENGTH-EXP");
  mkText "PhysicalDimension" [] "luminousIntensityExp" [] (SText RNumerical "LUMINOUS-INTENSITY-EXP");
  mkText "PhysicalDimension" [] "massExp" [] (SText RNumerical "MASS-EXP");
  mkText "PhysicalDimension" [] "molarAmountExp" [] (SText RNumerical "MOLAR-AMOUNT-EXP");
  mkText "PhysicalDimension" [] "temperatureExp" [] (SText RNumerical "TEMPERATURE-EXP");
  mkText "PhysicalDimension" [] "timeExp" [] (SText RNumerical "TIME-EXP");
  mkText "PortAPIOption" [] "enableTakeAddress" [] (SText RBool "ENABLE-TAKE-ADDRESS");
  mkText "PortAPIOption" [] "errorHandling" [] (SText RLiteral "ERROR-HANDLING");
  mkText "PortAPIOption" [] "indirectAPI" [] (SText RBool "INDIRECT-API");
  mkText "PortAPIOption" [] "portRef" [] (SText RRef "PORT-REF");
  mkText "PortDefinedArgumentValue" [] "valueTypeTRef" [] (SText RRef "VALUE-TYPE-TREF");
  mkText "PortInCompositionTypeInstanceRef" [] "contextComponentRef" [] (SText RRef "CONTEXT-COMPONENT-REF");
  mkText "PortPrototypeBlueprint" [] "interfaceRef" [] (SText RRef "INTERFACE-REF");
  mkText "PossibleErrorReaction" [] "reactionCode" [] (SText RPositive "REACTION-CODE");
  mkText "PostBuildVariantCondition" [] "matchingCriterionRef" [] (SText RRef "MATCHING-CRITERION-REF");
  mkText "PostBuildVariantCondition" [] "value" [] (SText RInteger "VALUE");
  mkText "PostBuildVariantCriterion" [] "compuMethodRef" [] (SText RRef "COMPU-METHOD-REF");
  mkText "PredefinedVariant" [] "includedVariantRefs" [] (STexts RRef "INCLUDED-VARIANT-REFS/INCLUDED-VARIANT-REF");
  mkText "PredefinedVariant" [] "postBuildVariantCriterionValueSetRefs" [] (STexts RRef "POST-BUILD-VARIANT-CRITERION-VALUE-SET-REFS/POST-BUILD-VARIANT-CRITERION-VALUE-SET-REF");
  mkText "PredefinedVariant" [] "swSystemconstantValueSetRefs" [] (STexts RRef "SW-SYSTEMCONSTANT-VALUE-SET-REFS/SW-SYSTEMCONSTANT-VALUE-SET-REF");
  mkText "ProvidedServiceInstance" [] "allowedServiceConsumerRefs" [] (STexts RRef "ALLOWED-SERVICE-CONSUMERS/NETWORK-ENDPOINT-REF-CONDITIONAL/NETWORK-ENDPOINT-REF");
  mkText "ProvidedServiceInstance" [] "autoAvailable" [] (SText RBool "AUTO-AVAILABLE");
  mkText "ProvidedServiceInstance" [] "instanceIdentifier" [] (SText RPositive "INSTANCE-IDENTIFIER");
  mkText "ProvidedServiceInstance" [] "loadBalancingPriority" [] (SText RPositive "LOAD-BALANCING-PRIORITY");
  mkText "ProvidedServiceInstance" [] "loadBalancingWeight" [] (SText RPositive "LOAD-BALANCING-WEIGHT");
  mkText "ProvidedServiceInstance" [] "localUnicastAddressRefs" [] (STexts RRef "LOCAL-UNICAST-ADDRESSS/APPLICATION-ENDPOINT-REF-CONDITIONAL/APPLICATION-ENDPOINT-REF");
  mkText "ProvidedServiceInstance" [] "minorVersion" [] (SText RPositive "MINOR-VERSION");
  mkText "ProvidedServiceInstance" [] "priority" [] (SText RPositive "PRIORITY");
  mkText "ProvidedServiceInstance" [] "remoteMulticastSubscriptionAddressRefs" [] (STexts RRef "REMOTE-MULTICAST-SUBSCRIPTION-ADDRESSS/APPLICATION-ENDPOINT-REF-CONDITIONAL/APPLICATION-ENDPOINT-REF");
  mkText "ProvidedServiceInstance" [] "remoteUnicastAddressRefs" [] (STexts RRef "REMOTE-UNICAST-ADDRESSS/APPLICATION-ENDPOINT-REF-CONDITIONAL/APPLICATION-ENDPOINT-REF");
  mkText "ProvidedServiceInstance" [] "sdServerTimerConfigRef" [] (SText RRef "SD-SERVER-TIMER-CONFIGS/SOMEIP-SD-SERVER-SERVICE-INSTANCE-CONFIG-REF-CONDITIONAL/SOMEIP-SD-SERVER-SERVICE-INSTANCE-CONFIG-REF");
  mkText "ProvidedServiceInstance" [] "serviceIdentifier" [] (SText RPositive "SERVICE-IDENTIFIER");
  mkText "RModeInAtomicSwcInstanceRef" [] "contextModeDeclarationGroupPrototypeRef" [] (SText RRef "CONTEXT-MODE-DECLARATION-GROUP-PROTOTYPE-REF");
  mkText "RModeInAtomicSwcInstanceRef" [] "contextPortRef" [] (SText RRef "CONTEXT-PORT-REF");
  mkText "RModeInAtomicSwcInstanceRef" [] "targetModeDeclarationRef" [] (SText RRef "TARGET-MODE-DECLARATION-REF");
  mkText "ROperationInAtomicSwcInstanceRef" [] "contextRPortRef" [] (SText RRef "CONTEXT-R-PORT-REF");
  mkText "ROperationInAtomicSwcInstanceRef" [] "targetRequiredOperationRef" [] (SText RRef "TARGET-REQUIRED-OPERATION-REF");
  mkText "RPortInCompositionInstanceRef" [] "targetRPortRef" [] (SText RRef "TARGET-R-PORT-REF");
  mkText "RPortPrototype" [] "requiredInterfaceTRef" [] (SText RRef "REQUIRED-INTERFACE-TREF");
  mkText "RVariableInAtomicSwcInstanceRef" [] "contextRPortRef" [] (SText RRef "CONTEXT-R-PORT-REF");
  mkText "RVariableInAtomicSwcInstanceRef" [] "targetDataElementRef" [] (SText RRef "TARGET-DATA-ELEMENT-REF");
  mkText "ReceiverComSpec" [] "dataElementRef" [] (SText RRef "DATA-ELEMENT-REF");
  mkText "ReceiverComSpec" [] "handleOutOfRange" [] (SText RLiteral "HANDLE-OUT-OF-RANGE");
  mkText "ReceiverComSpec" [] "handleOutOfRangeStatus" [] (SText RLiteral "HANDLE-OUT-OF-RANGE-STATUS");
  mkText "ReceiverComSpec" [] "maxDeltaCounterInit" [] (SText RPositive "MAX-DELTA-COUNTER-INIT");
  mkText "ReceiverComSpec" [] "maxNoNewOrRepeatedData" [] (SText RPositive "MAX-NO-NEW-OR-REPEATED-DATA");
  mkText "ReceiverComSpec" [] "syncCounterInit" [] (SText RPositive "SYNC-COUNTER-INIT");
  mkText "ReceiverComSpec" [] "usesEndToEndProtection" [] (SText RBool "USES-END-TO-END-PROTECTION");
  mkText "ReferenceBase" [] "BaseIsThisPackage" [] (SText RBool "BASE-IS-THIS-PACKAGE");
  mkText "ReferenceBase" [] "isDefault" [] (SText RBool "IS-DEFAULT");
  mkText "ReferenceBase" [] "isGlobal" [] (SText RBool "IS-GLOBAL");
  mkText "ReferenceBase" [] "packageRef" [] (SText RRef "PACKAGE-REF");
  mkText "ReferenceBase" [] "shortLabel" [] (SText RLiteral "SHORT-LABEL");
  mkText "RequestResponseDelay" [] "maxValue" [] (SText RTime "MAX-VALUE");
  mkText "RequestResponseDelay" [] "minValue" [] (SText RTime "MIN-VALUE");
  mkText "RoleBasedBswModuleEntryAssignment" [] "assignedEntryRef" [] (SText RRef "ASSIGNED-ENTRY-REF");
  mkText "RoleBasedBswModuleEntryAssignment" [] "role" [] (SText RLiteral "ROLE");
  mkText "RoleBasedDataAssignment" [] "role" [] (SText RLiteral "ROLE");
  mkText "RoleBasedDataAssignment" [] "usedPimRef" [] (SText RRef "USED-PIM-REF");
  mkText "RoleBasedDataTypeAssignment" [] "role" [] (SText RLiteral "ROLE");
  mkText "RoleBasedDataTypeAssignment" [] "usedImplementationDataTypeRef" [] (SText RRef "USED-IMPLEMENTATION-DATA-TYPE-REF");
  mkText "RoleBasedMcDataAssignment" [] "executionContextRefs" [] (STexts RRef "EXECUTION-CONTEXT-REFS/EXECUTION-CONTEXT-REF");
  mkText "RoleBasedMcDataAssignment" [] "mcDataInstanceRefs" [] (STexts RRef "MC-DATA-INSTANCE-REFS/MC-DATA-INSTANCE-REF");
  mkText "RoleBasedMcDataAssignment" [] "role" [] (SText RIdentifier "ROLE");
  mkText "RootSwCompositionPrototype" [] "calibrationParameterValueSetRefs" [] (STexts RRef "CALIBRATION-PARAMETER-VALUE-SET-REFS/CALIBRATION-PARAMETER-VALUE-SET-REF");
  mkText "RootSwCompositionPrototype" [] "flatMapRef" [] (SText RRef "FLAT-MAP-REF");
  mkText "RootSwCompositionPrototype" [] "softwareCompositionTRef" [] (SText RRef "SOFTWARE-COMPOSITION-TREF");
  mkText "RoughEstimateHeapUsage" [] "memoryConsumption" [] (SText RPositive "MEMORY-CONSUMPTION");
  mkText "RoughEstimateOfExecutionTime" [] "additionalInformation" [] (SText RLiteral "ADDITIONAL-INFORMATION");
  mkText "RoughEstimateStackUsage" [] "memoryConsumption" [] (SText RPositive "MEMORY-CONSUMPTION");
  mkText "RptExecutableEntity" [] "symbol" [] (SText RLiteral "SYMBOL");
  mkText "RptExecutableEntityEvent" [] "executionContextRefs" [] (STexts RRef "EXECUTION-CONTEXT-REFS/EXECUTION-CONTEXT-REF");
  mkText "RptExecutableEntityEvent" [] "rptEventId" [] (SText RPositive "RPT-EVENT-ID");
  mkText "RptExecutableEntityEvent" [] "rptServicePointPostRefs" [] (STexts RRef "RPT-SERVICE-POINT-POST-REFS/RPT-SERVICE-POINT-POST-REF");
  mkText "RptExecutableEntityEvent" [] "rptServicePointPreRefs" [] (STexts RRef "RPT-SERVICE-POINT-PRE-REFS/RPT-SERVICE-POINT-PRE-REF");
  mkText "RptExecutableEntityProperties" [] "maxRptEventId" [] (SText RPositive "MAX-RPT-EVENT-ID");
  mkText "RptExecutableEntityProperties" [] "minRptEventId" [] (SText RPositive "MIN-RPT-EVENT-ID");
  mkText "RptExecutableEntityProperties" [] "rptExecutionControl" [] (SText RLiteral "RPT-EXECUTION-CONTROL");
  mkText "RptExecutableEntityProperties" [] "rptServicePoint" [] (SText RLiteral "RPT-SERVICE-POINT");
  mkText "RptImplPolicy" [] "rptEnablerImplType" [] (SText RLiteral "RPT-ENABLER-IMPL-TYPE");
  mkText "RptImplPolicy" [] "rptPreparationLevel" [] (SText RLiteral "RPT-PREPARATION-LEVEL");
  mkText "RptServicePoint" [] "serviceId" [] (SText RPositive "SERVICE-ID");
  mkText "RptServicePoint" [] "symbol" [] (SText RLiteral "SYMBOL");
  mkText "RptSwPrototypingAccess" [] "rptHookAccess" [] (SText RLiteral "RPT-HOOK-ACCESS");
  mkText "RptSwPrototypingAccess" [] "rptReadAccess" [] (SText RLiteral "RPT-READ-ACCESS");
  mkText "RptSwPrototypingAccess" [] "rptWriteAccess" [] (SText RLiteral "RPT-WRITE-ACCESS");
  mkText "RteEventInEcuInstanceRef" [] "contextAtomicComponentRef" [] (SText RRef "CONTEXT-ATOMIC-COMPONENT-REF");
  mkText "RteEventInEcuInstanceRef" [] "contextRootCompositionRef" [] (SText RRef "CONTEXT-ROOT-COMPOSITION-REF");
  mkText "RteEventInEcuInstanceRef" [] "targetRteEventRef" [] (SText RRef "TARGET-RTE-EVENT-REF");
  mkText "RunnableEntity" [] "canBeInvokedConcurrently" [] (SText RBool "CAN-BE-INVOKED-CONCURRENTLY");
  mkText "RunnableEntity" [] "symbol" [] (SText RLiteral "SYMBOL");
  mkText "RunnableEntityArgument" [] "symbol" [] (SText RLiteral "SYMBOL");
  mkText "RunnableEntityInCompositionInstanceRef" [] "contextSwComponentPrototypeRefs" [] (STexts RRef "CONTEXT-SW-COMPONENT-PROTOTYPE-REF");
  mkText "RunnableEntityInCompositionInstanceRef" [] "targetRunnableEntityRef" [] (SText RRef "TARGET-RUNNABLE-ENTITY-REF");
  mkText "RxIdentifierRange" [] "lowerCanId" [] (SText RNumerical "LOWER-CAN-ID");
  mkText "RxIdentifierRange" [] "upperCanId" [] (SText RNumerical "UPPER-CAN-ID");
  mkText "ScaleConstr" [] "lowerLimit" [] (SText RLimit "LOWER-LIMIT");
  mkText "ScaleConstr" [] "shortLabel" [] (SText RIdentifier "SHORT-LABEL");
  mkText "ScaleConstr" [] "upperLimit" [] (SText RLimit "UPPER-LIMIT");
  mkText "SdClientConfig" [] "clientServiceMajorVersion" [] (SText RPositive "CLIENT-SERVICE-MAJOR-VERSION");
  mkText "SdClientConfig" [] "clientServiceMinorVersion" [] (SText RPositive "CLIENT-SERVICE-MINOR-VERSION");
  mkText "SdClientConfig" [] "ttl" [] (SText RPositive "TTL");
  mkText "SdServerConfig" [] "offerCyclicDelay" [] (SText RTime "OFFER-CYCLIC-DELAY");
  mkText "SdServerConfig" [] "serverServiceMajorVersion" [] (SText RPositive "SERVER-SERVICE-MAJOR-VERSION");
  mkText "SdServerConfig" [] "serverServiceMinorVersion" [] (SText RPositive "SERVER-SERVICE-MINOR-VERSION");
  mkText "SdServerConfig" [] "ttl" [] (SText RPositive "TTL");
  mkText "SectionNamePrefix" [] "implementedInRef" [] (SText RRef "IMPLEMENTED-IN-REF");
  mkText "SecureCommunicationAuthenticationProps" [] "authInfoTxLength" [] (SText RPositive "AUTH-INFO-TX-LENGTH");
  mkText "SecureCommunicationFreshnessProps" [] "freshnessCounterSyncAttempts" [] (SText RPositive "FRESHNESS-COUNTER-SYNC-ATTEMPTS");
  mkText "SecureCommunicationFreshnessProps" [] "freshnessTimestampTimePeriodFactor" [] (SText RPositive "FRESHNESS-TIMESTAMP-TIME-PERIOD-FACTOR");
  mkText "SecureCommunicationFreshnessProps" [] "freshnessValueLength" [] (SText RPositive "FRESHNESS-VALUE-LENGTH");
  mkText "SecureCommunicationFreshnessProps" [] "freshnessValueTxLength" [] (SText RPositive "FRESHNESS-VALUE-TX-LENGTH");
  mkText "SecureCommunicationFreshnessProps" [] "useFreshnessTimestamp" [] (SText RBool "USE-FRESHNESS-TIMESTAMP");
  mkText "SecureCommunicationProps" [] "authDataFreshnessLength" [] (SText RPositive "AUTH-DATA-FRESHNESS-LENGTH");
  mkText "SecureCommunicationProps" [] "authDataFreshnessStartPosition" [] (SText RPositive "AUTH-DATA-FRESHNESS-START-POSITION");
  mkText "SecureCommunicationProps" [] "authenticationBuildAttempts" [] (SText RPositive "AUTHENTICATION-BUILD-ATTEMPTS");
  mkText "SecureCommunicationProps" [] "authenticationRetries" [] (SText RPositive "AUTHENTICATION-RETRIES");
  mkText "SecureCommunicationProps" [] "dataId" [] (SText RPositive "DATA-ID");
  mkText "SecureCommunicationProps" [] "freshnessValueId" [] (SText RPositive "FRESHNESS-VALUE-ID");
  mkText "SecureCommunicationProps" [] "messageLinkLength" [] (SText RPositive "MESSAGE-LINK-LENGTH");
  mkText "SecureCommunicationProps" [] "messageLinkPosition" [] (SText RPositive "MESSAGE-LINK-POSITION");
  mkText "SecureCommunicationProps" [] "secondaryFreshnessValueId" [] (SText RPositive "SECONDARY-FRESHNESS-VALUE-ID");
  mkText "SecureCommunicationProps" [] "securedAreaLength" [] (SText RPositive "SECURED-AREA-LENGTH");
  mkText "SecureCommunicationProps" [] "securedAreaOffset" [] (SText RPositive "SECURED-AREA-OFFSET");
  mkText "SecureOnBoardCommunicationNeeds" [] "verificationStatusIndicationMode" [] (SText RLiteral "VERIFICATION-STATUS-INDICATION-MODE");
  mkText "SecuredIPdu" [] "authenticationPropsRef" [] (SText RRef "AUTHENTICATION-PROPS-REF");
  mkText "SecuredIPdu" [] "freshnessPropsRef" [] (SText RRef "FRESHNESS-PROPS-REF");
  mkText "SecuredIPdu" [] "payloadRef" [] (SText RRef "PAYLOAD-REF");
  mkText "SecuredIPdu" [] "useAsCryptographicIPdu" [] (SText RBool "USE-AS-CRYPTOGRAPHIC-I-PDU");
  mkText "SenderComSpec" [] "dataElementRef" [] (SText RRef "DATA-ELEMENT-REF");
  mkText "SenderComSpec" [] "handleOutOfRange" [] (SText RLiteral "HANDLE-OUT-OF-RANGE");
  mkText "SenderComSpec" [] "usesEndToEndProtection" [] (SText RBool "USES-END-TO-END-PROTECTION");
  mkText "SenderRecRecordElementMapping" [] "applicationRecordElementRef" [] (SText RRef "APPLICATION-RECORD-ELEMENT-REF");
  mkText "SenderRecRecordElementMapping" [] "implementationRecordElementRef" [] (SText RRef "IMPLEMENTATION-RECORD-ELEMENT-REF");
  mkText "SenderRecRecordElementMapping" [] "systemSignalRef" [] (SText RRef "SYSTEM-SIGNAL-REF");
  mkText "SenderReceiverAnnotation" [] "computed" [] (SText RBool "COMPUTED");
  mkText "SenderReceiverAnnotation" [] "dataElementRef" [] (SText RRef "DATA-ELEMENT-REF");
  mkText "SenderReceiverToSignalGroupMapping" [] "signalGroupRef" [] (SText RRef "SIGNAL-GROUP-REF");
  mkText "SenderReceiverToSignalMapping" [] "communicationDirection" [] (SText RLiteral "COMMUNICATION-DIRECTION");
  mkText "SenderReceiverToSignalMapping" [] "systemSignalRef" [] (SText RRef "SYSTEM-SIGNAL-REF");
  mkText "SensorActuatorSwComponentType" [] "sensorActuatorRef" [] (SText RRef "SENSOR-ACTUATOR-REF");
  mkText "ServerCallPoint" [] "timeout" [] (SText RFloat "TIMEOUT");
  mkText "ServerComSpec" [] "operationRef" [] (SText RRef "OPERATION-REF");
  mkText "ServerComSpec" [] "queueLength" [] (SText RPositive "QUEUE-LENGTH");
  mkText "SignalServiceTranslationElementProps" [] "transmissionTrigger" [] (SText RBool "TRANSMISSION-TRIGGER");
  mkText "SignalServiceTranslationEventProps" [] "safeTranslation" [] (SText RBool "SAFE-TRANSLATION");
  mkText "SignalServiceTranslationEventProps" [] "secureTranslation" [] (SText RBool "SECURE-TRANSLATION");
  mkText "SignalServiceTranslationProps" [] "controlConsumedEventGroupRefs" [] (STexts RRef "CONTROL-CONSUMED-EVENT-GROUP-REFS/CONTROL-CONSUMED-EVENT-GROUP-REF");
  mkText "SignalServiceTranslationProps" [] "controlPncRefs" [] (STexts RRef "CONTROL-PNC-REFS/CONTROL-PNC-REF");
  mkText "SignalServiceTranslationProps" [] "controlProvidedEventGroupRefs" [] (STexts RRef "CONTROL-PROVIDED-EVENT-GROUP-REFS/CONTROL-PROVIDED-EVENT-GROUP-REF");
  mkText "SignalServiceTranslationProps" [] "serviceControl" [] (SText RLiteral "SERVICE-CONTROL");
  mkText "SoAdRoutingGroup" [] "eventGroupControlType" [] (SText RLiteral "EVENT-GROUP-CONTROL-TYPE");
  mkText "SocketAddress" [] "connectorRef" [] (SText RRef "CONNECTOR-REF");
  mkText "SocketAddress" [] "multicastConnectorRefs" [] (STexts RRef "MULTICAST-CONNECTOR-REFS/MULTICAST-CONNECTOR-REF");
  mkText "SocketAddress" [] "portAddress" [] (SText RPositive "PORT-ADDRESS");
  mkText "SocketConnection" [] "clientIpAddrFromConnectionRequest" [] (SText RBool "CLIENT-IP-ADDR-FROM-CONNECTION-REQUEST");
  mkText "SocketConnection" [] "clientPortFromConnectionRequest" [] (SText RBool "CLIENT-PORT-FROM-CONNECTION-REQUEST");
  mkText "SocketConnection" [] "clientPortRef" [] (SText RRef "CLIENT-PORT-REF");
  mkText "SocketConnection" [] "pduCollectionMaxBufferSize" [] (SText RPositive "PDU-COLLECTION-MAX-BUFFER-SIZE");
  mkText "SocketConnection" [] "pduCollectionTimeout" [] (SText RTime "PDU-COLLECTION-TIMEOUT");
  mkText "SocketConnection" [] "runtimeIpAddressConfiguration" [] (SText RLiteral "RUNTIME-IP-ADDRESS-CONFIGURATION");
  mkText "SocketConnection" [] "runtimePortConfiguration" [] (SText RLiteral "RUNTIME-PORT-CONFIGURATION");
  mkText "SocketConnection" [] "shortLabel" [] (SText RLiteral "SHORT-LABEL");
  mkText "SocketConnectionBundle" [] "serverPortRef" [] (SText RRef "SERVER-PORT-REF");
  mkText "SoftwareContext" [] "input" [] (SText RLiteral "INPUT");
  mkText "SoftwareContext" [] "state" [] (SText RLiteral "STATE");
  mkText "StackUsage" [] "executableEntityRef" [] (SText RRef "EXECUTABLE-ENTITY-REF");
  mkText "StackUsage" [] "hwElementRef" [] (SText RRef "HW-ELEMENT-REF");
  mkText "StructuredReq" [] "date" [] (SText RLiteral "DATE");
  mkText "StructuredReq" [] "importance" [] (SText RLiteral "IMPORTANCE");
  mkText "StructuredReq" [] "issuedBy" [] (SText RLiteral "ISSUED-BY");
  mkText "StructuredReq" [] "type" [] (SText RLiteral "TYPE");
  mkText "SwAddrMethod" [] "options" [] (STexts RLitItem "OPTIONS/OPTION");
  mkText "SwComponentPrototype" [] "typeTRef" [] (SText RRef "TYPE-TREF");
  mkText "SwComponentType" [] "swcMappingConstraintsRefs" [] (STexts RRef "SWC-MAPPING-CONSTRAINT-REFS/SWC-MAPPING-CONSTRAINT-REF");
  mkText "SwComponentType" [] "unitGroupRefs" [] (STexts RRef "UNIT-GROUP-REFS/UNIT-GROUP-REF");
  mkText "SwConnector" [] "mappingRef" [] (SText RRef "MAPPING-REF");
  mkText "SwRecordLayoutGroup" [] "category" [] (SText RLiteral "CATEGORY");
  mkText "SwRecordLayoutGroup" [] "shortLabel" [] (SText RLiteral "SHORT-LABEL");
  mkText "SwRecordLayoutGroup" [] "swRecordLayoutGroupAxis" [] (SText RLiteral "SW-RECORD-LAYOUT-GROUP-AXIS");
  mkText "SwRecordLayoutGroup" [] "swRecordLayoutGroupFrom" [] (SText RLiteral "SW-RECORD-LAYOUT-GROUP-FROM");
  mkText "SwRecordLayoutGroup" [] "swRecordLayoutGroupIndex" [] (SText RLiteral "SW-RECORD-LAYOUT-GROUP-INDEX");
  mkText "SwRecordLayoutGroup" [] "swRecordLayoutGroupStep" [] (SText RInteger "SW-RECORD-LAYOUT-GROUP-STEP");
  mkText "SwRecordLayoutGroup" [] "swRecordLayoutGroupTo" [] (SText RLiteral "SW-RECORD-LAYOUT-GROUP-TO");
  mkText "SwRecordLayoutV" [] "baseTypeRef" [] (SText RRef "BASE-TYPE-REF");
  mkText "SwRecordLayoutV" [] "shortLabel" [] (SText RLiteral "SHORT-LABEL");
  mkText "SwRecordLayoutV" [] "swRecordLayoutVAxis" [] (SText RLiteral "SW-RECORD-LAYOUT-V-AXIS");
  mkText "SwRecordLayoutV" [] "swRecordLayoutVIndex" [] (SText RLiteral "SW-RECORD-LAYOUT-V-INDEX");
  mkText "SwRecordLayoutV" [] "swRecordLayoutVProp" [] (SText RLiteral "SW-RECORD-LAYOUT-V-PROP");
  mkText "SwServiceArg" [] "direction" [] (SText RLiteral "DIRECTION");
  mkText "SwSystemconstValue" [] "swSystemconstRef" [] (SText RRef "SW-SYSTEMCONST-REF");
  mkText "SwSystemconstValue" [] "value" [] (SText RNumerical "VALUE");
  mkText "SwcBswMapping" [] "bswBehaviorRef" [] (SText RRef "BSW-BEHAVIOR-REF");
  mkText "SwcBswMapping" [] "swcBehaviorRef" [] (SText RRef "SWC-BEHAVIOR-REF");
  mkText "SwcBswRunnableMapping" [] "bswEntityRef" [] (SText RRef "BSW-ENTITY-REF");
  mkText "SwcBswRunnableMapping" [] "swcRunnableRef" [] (SText RRef "SWC-RUNNABLE-REF");
  mkText "SwcBswSynchronizedModeGroupPrototype" [] "bswModeGroupRef" [] (SText RRef "BSW-MODE-GROUP-REF");
  mkText "SwcBswSynchronizedTrigger" [] "bswTriggerRef" [] (SText RRef "BSW-TRIGGER-REF");
  mkText "SwcExclusiveAreaPolicy" [] "apiPrinciple" [] (SText RLiteral "API-PRINCIPLE");
  mkText "SwcExclusiveAreaPolicy" [] "exclusiveAreaRef" [] (SText RRef "EXCLUSIVE-AREA-REF");
  mkText "SwcInternalBehavior" [] "handleTerminationAndRestart" [] (SText RLiteral "HANDLE-TERMINATION-AND-RESTART");
  mkText "SwcInternalBehavior" [] "supportsMultipleInstantiation" [] (SText RBool "SUPPORTS-MULTIPLE-INSTANTIATION");
  mkText "SwcToEcuMapping" [] "ecuInstanceRef" [] (SText RRef "ECU-INSTANCE-REF");
  mkText "SwcToImplMapping" [] "componentImplementationRef" [] (SText RRef "COMPONENT-IMPLEMENTATION-REF");
  mkText "SymbolProps" [] "symbol" [] (SText RLiteral "SYMBOL");
  mkText "SymbolicNameProps" [] "symbol" [] (SText RLiteral "SYMBOL");
  mkText "System" [] "ecuExtractVersion" [] (SText RLiteral "ECU-EXTRACT-VERSION");
  mkText "System" [] "fibexElements" [] (STexts RRef "FIBEX-ELEMENTS/FIBEX-ELEMENT-REF-CONDITIONAL/FIBEX-ELEMENT-REF");
  mkText "System" [] "systemVersion" [] (SText RRevision "SYSTEM-VERSION");
  mkText "SystemSignal" [] "dynamicLength" [] (SText RBool "DYNAMIC-LENGTH");
  mkText "SystemSignalGroup" [] "systemSignalRefs" [] (STexts RRef "SYSTEM-SIGNAL-REFS/SYSTEM-SIGNAL-REF");
  mkText "SystemSignalGroup" [] "transformingSystemSignalRef" [] (SText RRef "TRANSFORMING-SYSTEM-SIGNAL-REF");
  mkText "TcpTp" [] "keepAliveInterval" [] (SText RTime "KEEP-ALIVE-INTERVAL");
  mkText "TcpTp" [] "keepAliveProbesMax" [] (SText RPositive "KEEP-ALIVE-PROBES-MAX");
  mkText "TcpTp" [] "keepAliveTime" [] (SText RTime "KEEP-ALIVE-TIME");
  mkText "TcpTp" [] "keepAlives" [] (SText RBool "KEEP-ALIVES");
  mkText "TcpTp" [] "naglesAlgorithm" [] (SText RLiteral "NAGLES-ALGORITHM");
  mkText "TimeRangeType" [] "value" [] (SText RTime "VALUE");
  mkText "TimingEvent" [] "offset" [] (SText RTime "OFFSET");
  mkText "TimingEvent" [] "period" [] (SText RTime "PERIOD");
  mkText "TpAddress" [] "tpAddress" [] (SText RInteger "TP-ADDRESS");
  mkText "TpConfig" [] "communicationClusterRef" [] (SText RRef "COMMUNICATION-CLUSTER-REF");
  mkText "TpPort" [] "dynamicallyAssigned" [] (SText RBool "DYNAMICALLY-ASSIGNED");
  mkText "TpPort" [] "portNumber" [] (SText RPositive "PORT-NUMBER");
  mkText "TracedFailure" [] "id" [] (SText RPositive "ID");
  mkText "TransformationTechnology" [] "hasInternalState" [] (SText RBool "HAS-INTERNAL-STATE");
  mkText "TransformationTechnology" [] "needsOriginalData" [] (SText RBool "NEEDS-ORIGINAL-DATA");
  mkText "TransformationTechnology" [] "protocol" [] (SText RLiteral "PROTOCOL");
  mkText "TransformationTechnology" [] "transformerClass" [] (SText RLiteral "TRANSFORMER-CLASS");
  mkText "TransformationTechnology" [] "version" [] (SText RLiteral "VERSION");
  mkText "TransmissionAcknowledgementRequest" [] "timeout" [] (SText RTime "TIMEOUT");
  mkText "TransmissionComSpecProps" [] "dataUpdatePeriod" [] (SText RTime "DATA-UPDATE-PERIOD");
  mkText "TransmissionComSpecProps" [] "minimumSendInterval" [] (SText RTime "MINIMUM-SEND-INTERVAL");
  mkText "TransmissionComSpecProps" [] "transmissionMode" [] (SText RLiteral "TRANSMISSION-MODE");
  mkText "TriggerPortAnnotation" [] "triggerRef" [] (SText RRef "TRIGGER-REF");
  mkText "UdpNmCluster" [] "nmCbvPosition" [] (SText RInteger "NM-CBV-POSITION");
  mkText "UdpNmCluster" [] "nmImmediateNmCycleTime" [] (SText RTime "NM-IMMEDIATE-NM-CYCLE-TIME");
  mkText "UdpNmCluster" [] "nmImmediateNmTransmissions" [] (SText RPositive "NM-IMMEDIATE-NM-TRANSMISSIONS");
  mkText "UdpNmCluster" [] "nmMessageTimeoutTime" [] (SText RTime "NM-MESSAGE-TIMEOUT-TIME");
  mkText "UdpNmCluster" [] "nmMsgCycleTime" [] (SText RTime "NM-MSG-CYCLE-TIME");
  mkText "UdpNmCluster" [] "nmNetworkTimeout" [] (SText RTime "NM-NETWORK-TIMEOUT");
  mkText "UdpNmCluster" [] "nmNidPosition" [] (SText RInteger "NM-NID-POSITION");
  mkText "UdpNmCluster" [] "nmRemoteSleepIndicationTime" [] (SText RTime "NM-REMOTE-SLEEP-INDICATION-TIME");
  mkText "UdpNmCluster" [] "nmRepeatMessageTime" [] (SText RTime "NM-REPEAT-MESSAGE-TIME");
  mkText "UdpNmCluster" [] "nmWaitBusSleepTime" [] (SText RTime "NM-WAIT-BUS-SLEEP-TIME");
  mkText "UdpNmCluster" [] "vlanRef" [] (SText RRef "VLAN-REF");
  mkText "UdpNmEcu" [] "nmSynchronizationPointEnabled" [] (SText RBool "NM-SYNCHRONIZATION-POINT-ENABLED");
  mkText "UdpNmNode" [] "nmMsgCycleOffset" [] (SText RTime "NM-MSG-CYCLE-OFFSET");
  mkText "Unit" [] "displayName" [] (SText RLiteral "DISPLAY-NAME");
  mkText "Unit" [] "factorSiToUnit" [] (SText RFloat "FACTOR-SI-TO-UNIT");
  mkText "Unit" [] "offsetSiToUnit" [] (SText RFloat "OFFSET-SI-TO-UNIT");
  mkText "Unit" [] "physicalDimensionRef" [] (SText RRef "PHYSICAL-DIMENSION-REF");
  mkText "UserDefinedIPdu" [] "cddType" [] (SText RLiteral "CDD-TYPE");
  mkText "UserDefinedPdu" [] "cddType" [] (SText RLiteral "CDD-TYPE");
  mkText "ValueList" [] "v" [] (SText RFloat "V");
  mkText "VariableAccessInEcuInstanceRef" [] "contextAtomicComponentRef" [] (SText RRef "CONTEXT-ATOMIC-COMPONENT-REF");
  mkText "VariableAccessInEcuInstanceRef" [] "contextRootCompositionRef" [] (SText RRef "CONTEXT-ROOT-COMPOSITION-REF");
  mkText "VariableAccessInEcuInstanceRef" [] "targetVariableAccessRef" [] (SText RRef "TARGET-VARIABLE-ACCESS-REF");
  mkText "VariableDataPrototypeInCompositionInstanceRef" [] "contextPortPrototypeRef" [] (SText RRef "CONTEXT-PORT-PROTOTYPE-REF");
  mkText "VariableDataPrototypeInCompositionInstanceRef" [] "contextSwComponentPrototypeRefs" [] (STexts RRef "CONTEXT-SW-COMPONENT-PROTOTYPE-REF");
  mkText "VariableDataPrototypeInCompositionInstanceRef" [] "targetVariableDataPrototypeRef" [] (SText RRef "TARGET-VARIABLE-DATA-PROTOTYPE-REF");
  mkText "VariableDataPrototypeInSystemInstanceRef" [] "contextComponentRefs" [] (STexts RRef "CONTEXT-COMPONENT-REF");
  mkText "VariableDataPrototypeInSystemInstanceRef" [] "contextCompositionRef" [] (SText RRef "CONTEXT-COMPOSITION-REF");
  mkText "VariableDataPrototypeInSystemInstanceRef" [] "contextPortRef" [] (SText RRef "CONTEXT-PORT-REF");
  mkText "VariableDataPrototypeInSystemInstanceRef" [] "targetDataPrototypeRef" [] (SText RRef "TARGET-DATA-PROTOTYPE-REF");
  mkText "VariableInAtomicSWCTypeInstanceRef" [] "portPrototypeRef" [] (SText RRef "PORT-PROTOTYPE-REF");
  mkText "VariableInAtomicSWCTypeInstanceRef" [] "targetDataPrototypeRef" [] (SText RRef "TARGET-DATA-PROTOTYPE-REF");
  mkText "VariationPointProxy" [] "implementationDataTypeRef" [] (SText RRef "IMPLEMENTATION-DATA-TYPE-REF");
  mkText "VariationPointProxy" [] "postBuildValueAccessRef" [] (SText RRef "POST-BUILD-VALUE-ACCESS-REF");
  mkText "VlanConfig" [] "vlanIdentifier" [] (SText RPositive "VLAN-IDENTIFIER");
  mkText "VlanMembership" [] "sendActivity" [] (SText RLiteral "SEND-ACTIVITY");
  mkText "VlanMembership" [] "vlanRef" [] (SText RRef "VLAN-REF");
  mkText "WaitPoint" [] "timeout" [] (SText RTime "TIMEOUT");
  mkText "WaitPoint" [] "triggerRef" [] (SText RRef "TRIGGER");
  mkText "WorstCaseHeapUsage" [] "memoryConsumption" [] (SText RPositive "MEMORY-CONSUMPTION");
  mkText "WorstCaseStackUsage" [] "memoryConsumption" [] (SText RPositive "MEMORY-CONSUMPTION")].

(** *** the rule behind the table: attribute and tag have the same name *)
Definition capital (a : ascii) : ascii := let n := nat_of_ascii a in if Nat.leb 97 n && Nat.leb n 122 then ascii_of_nat (n - 32) else a.
(** a name without its separators, in capitals *)
Fixpoint squeeze (s : string) : string :=
  match s with
  | EmptyString => ""
  | String a r => if Ascii.eqb a "-" || Ascii.eqb a "_" then squeeze r else String (capital a) (squeeze r)
  end.
(** the tags of a path *)
Fixpoint tags (s : string) : list string :=
  match s with
  | EmptyString => [""]
  | String a r => if Ascii.eqb a "/" then "" :: tags r else match tags r with t :: l => String a t :: l | [] => [] end
  end.
Definition source_path (s : source) : string := match s with SText _ p => p | STexts _ p => p | SAttr a => a end.
Definition row_tags (t : trow) : list string := flat_map tags (t_path t ++ [source_path (t_source t)]).
(** the attribute is called like the last tag; a list also like the plural of it *)
Definition same_name (t : trow) : bool :=
  let g := squeeze (last (row_tags t) "") in
  String.eqb (squeeze (t_attr t)) g || match t_source t with STexts _ _ => String.eqb (squeeze (t_attr t)) (g ++ "S")%string | _ => false end.
(** the attributes with another name than their tag *)
Definition renamed : list (string * string) := 
  [("ARObject", "timestamp"); ("EndToEndTransformationISignalProps", "timestamp"); ("BswModuleEntity", "activationPointRefs"); ("BswModuleEntity", "issuedTriggerRefs");
   ("DataPrototypeInClientServerInterfaceInstanceRef", "baseRef"); ("DataPrototypeInClientServerInterfaceInstanceRef", "rootDataPrototypeInCsRef");
   ("DataPrototypeInClientServerInterfaceInstanceRef", "targetDataPrototypeInCsRef"); ("DiagnosticConnection", "responseOnEventRef");
   ("EcuInstance", "tcpIpIcmpPropsRef"); ("EcuInstance", "tcpIpPropsRef"); ("ExecutableEntity", "canEnterRefs"); ("ExecutableEntity", "runsInsideRefs");
   ("ISignalGroup", "comBasedSignalGroupTransformationRef"); ("PRPortPrototype", "providedRequiredInterface");
   ("ProvidedServiceInstance", "allowedServiceConsumerRefs"); ("ProvidedServiceInstance", "localUnicastAddressRefs");
   ("ProvidedServiceInstance", "remoteMulticastSubscriptionAddressRefs"); ("ProvidedServiceInstance", "remoteUnicastAddressRefs");
   ("ProvidedServiceInstance", "sdServerTimerConfigRef"); ("SwComponentType", "swcMappingConstraintsRefs"); ("System", "fibexElements");
   ("WaitPoint", "triggerRef")].
