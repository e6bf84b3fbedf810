(** Lists of createX methods, by container class and method name, used to state C08 and C09.
    The theorems in Prop_Heap.v show that every method of the table in Creators.v is on the
    right list. *)
From Coq Require Import String List.
Import ListNotations.
Open Scope string_scope.

(** Methods for which a second call with the same name changes the container or the result. *)
Definition non_idempotent : list (string * string) := [
  ("EcucDestinationUriDefSet", "createEcucDestinationUriDef");
  ("CryptoKeySlot", "createKeySlotContent");
  ("BswModuleEntry", "createArgument");
  ("BswModuleEntry", "createReturnType");
  ("FlatMap", "createFlatInstanceDescriptor");
  ("Implementation", "createCodeDescriptor");
  ("Implementation", "createCompiler");
  ("Implementation", "createGeneratedArtifact");
  ("Implementation", "createLinker");
  ("Implementation", "createRequiredArtifact");
  ("Implementation", "createRequiredGeneratorTool");
  ("Implementation", "createResourceConsumption");
  ("ImplementationDataType", "createSymbolProps");
  ("InternalBehavior", "createConstantMemory");
  ("InternalBehavior", "createExclusiveArea");
  ("InternalBehavior", "createExclusiveAreaNestingOrder");
  ("InternalBehavior", "createStaticMemory");
  ("DiagnosticEventNeeds", "createDiagEventDebounceCounterBased");
  ("DiagnosticEventNeeds", "createDiagEventDebounceMonitorInternal");
  ("DiagnosticEventNeeds", "createDiagEventDebounceTimeBased");
  ("SignalServiceTranslationEventProps", "createSignalServiceTranslationElementProps");
  ("SignalServiceTranslationProps", "createSignalServiceTranslationEventProps");
  ("SignalServiceTranslationPropsSet", "createSignalServiceTranslationProps");
  ("ResourceConsumption", "createAnalyzedExecutionTime");
  ("ResourceConsumption", "createMeasuredExecutionTime");
  ("ResourceConsumption", "createRoughEstimateOfExecutionTime");
  ("ResourceConsumption", "createSimulatedExecutionTime");
  ("ResourceConsumption", "createMeasuredHeapUsage");
  ("ResourceConsumption", "createRoughEstimateHeapUsage");
  ("ResourceConsumption", "createWorstCaseHeapUsage");
  ("ResourceConsumption", "createMemorySection");
  ("ResourceConsumption", "createSectionNamePrefix");
  ("ResourceConsumption", "createMeasuredStackUsage");
  ("ResourceConsumption", "createRoughEstimateStackUsage");
  ("ResourceConsumption", "createWorstCaseStackUsage");
  ("HwPinGroupContent", "createHwPin");
  ("ParameterInterface", "createParameterDataPrototype");
  ("NmConfig", "createNmEcu");
  ("NmCluster", "createCanNmNode");
  ("NmCluster", "createJ1939NmNode");
  ("TpConnection", "createTpConnectionIdent");
  ("SystemMapping", "createECUMapping");
  ("SystemMapping", "createSwcToImplMapping");
  ("SystemMapping", "createSwcToEcuMapping");
  ("System", "createRootSoftwareComposition");
  ("EthernetCluster", "createMacMulticastGroup");
  ("CouplingPortDetails", "createCouplingPortFifo");
  ("CouplingPortDetails", "createCouplingPortScheduler");
  ("CouplingPortDetails", "createEthernetPriorityRegeneration");
  ("EthernetCommunicationController", "createCouplingPort");
  ("ConsumedServiceInstance", "createConsumedEventGroup");
  ("ProvidedServiceInstance", "createEventHandler");
  ("ApplicationEndpoint", "createConsumedServiceInstance");
  ("ApplicationEndpoint", "createProvidedServiceInstance");
  ("SocketAddress", "createApplicationEndpoint");
  ("SoAdConfig", "createSocketConnectionBundle");
  ("SoAdConfig", "createSocketAddress");
  ("PhysicalChannel", "createCanFrameTriggering");
  ("PhysicalChannel", "createLinFrameTriggering");
  ("PhysicalChannel", "createFlexrayFrameTriggering");
  ("LinPhysicalChannel", "createLinScheduleTable");
  ("EthernetPhysicalChannel", "createNetworkEndPoint");
  ("EthernetPhysicalChannel", "createVlanConfig");
  ("CommunicationCluster", "createCanPhysicalChannel");
  ("CommunicationCluster", "createLinPhysicalChannel");
  ("CommunicationCluster", "createEthernetPhysicalChannel");
  ("CommunicationCluster", "createFlexrayPhysicalChannel");
  ("CommunicationConnector", "createFramePort");
  ("CommunicationConnector", "createIPduPort");
  ("CommunicationConnector", "createISignalPort");
  ("Sdg", "createSdgCaption")
].

(** Methods that return an object of their own type in every document. *)
Definition typed_methods : list (string * string) := [
  ("EcucDestinationUriDefSet", "createEcucDestinationUriDef");
  ("CryptoKeySlot", "createKeySlotContent");
  ("ImplementationDataType", "createSymbolProps");
  ("SignalServiceTranslationEventProps", "createSignalServiceTranslationElementProps");
  ("SignalServiceTranslationProps", "createSignalServiceTranslationEventProps");
  ("SignalServiceTranslationPropsSet", "createSignalServiceTranslationProps");
  ("HwPinGroupContent", "createHwPin");
  ("ARPackage", "createEcuAbstractionSwComponentType");
  ("ARPackage", "createApplicationSwComponentType");
  ("ARPackage", "createComplexDeviceDriverSwComponentType");
  ("ARPackage", "createServiceSwComponentType");
  ("ARPackage", "createSensorActuatorSwComponentType");
  ("ARPackage", "createNvBlockSwComponentType");
  ("ARPackage", "createServiceProxySwComponentType");
  ("ARPackage", "createCompositionSwComponentType");
  ("ARPackage", "createSenderReceiverInterface");
  ("ARPackage", "createParameterInterface");
  ("ARPackage", "createNvDataInterface");
  ("ARPackage", "createGenericEthernetFrame");
  ("ARPackage", "createLifeCycleInfoSet");
  ("ARPackage", "createDocumentation");
  ("ARPackage", "createClientServerInterface");
  ("ARPackage", "createApplicationPrimitiveDataType");
  ("ARPackage", "createApplicationRecordDataType");
  ("ARPackage", "createImplementationDataType");
  ("ARPackage", "createSwBaseType");
  ("ARPackage", "createDataTypeMappingSet");
  ("ARPackage", "createCompuMethod");
  ("ARPackage", "createBswModuleDescription");
  ("ARPackage", "createBswModuleEntry");
  ("ARPackage", "createBswImplementation");
  ("ARPackage", "createSwcImplementation");
  ("ARPackage", "createSwcBswMapping");
  ("ARPackage", "createMcFunction");
  ("ARPackage", "createMcGroup");
  ("ARPackage", "createConstantSpecification");
  ("ARPackage", "createDataConstr");
  ("ARPackage", "createUnit");
  ("ARPackage", "createEndToEndProtectionSet");
  ("ARPackage", "createApplicationArrayDataType");
  ("ARPackage", "createSwRecordLayout");
  ("ARPackage", "createSwAddrMethod");
  ("ARPackage", "createTriggerInterface");
  ("ARPackage", "createDataPrototypeGroup");
  ("ARPackage", "createRunnableEntityGroup");
  ("ARPackage", "createConsistencyNeeds");
  ("ARPackage", "createModeDeclarationGroup");
  ("ARPackage", "createModeSwitchInterface");
  ("ARPackage", "createSwcTiming");
  ("ARPackage", "createLinCluster");
  ("ARPackage", "createCanCluster");
  ("ARPackage", "createLinUnconditionalFrame");
  ("ARPackage", "createNmPdu");
  ("ARPackage", "createNPdu");
  ("ARPackage", "createDcmIPdu");
  ("ARPackage", "createSecuredIPdu");
  ("ARPackage", "createNmConfig");
  ("ARPackage", "createCanTpConfig");
  ("ARPackage", "createLinTpConfig");
  ("ARPackage", "createCanFrame");
  ("ARPackage", "createEcuInstance");
  ("ARPackage", "createGateway");
  ("ARPackage", "createISignal");
  ("ARPackage", "createSystemSignal");
  ("ARPackage", "createSystemSignalGroup");
  ("ARPackage", "createSignalServiceTranslationPropsSet");
  ("ARPackage", "createISignalIPdu");
  ("ARPackage", "createEcucValueCollection");
  ("ARPackage", "createEcucModuleConfigurationValues");
  ("ARPackage", "createEcucModuleDef");
  ("ARPackage", "createEcucDefinitionCollection");
  ("ARPackage", "createEcucDestinationUriDefSet");
  ("ARPackage", "createSwSystemConst");
  ("ARPackage", "createSwSystemconstantValueSet");
  ("ARPackage", "createPredefinedVariant");
  ("ARPackage", "createPostBuildVariantCriterion");
  ("ARPackage", "createPhysicalDimension");
  ("ARPackage", "createISignalGroup");
  ("ARPackage", "createISignalIPduGroup");
  ("ARPackage", "createSystem");
  ("ARPackage", "createFlatMap");
  ("ARPackage", "createPortInterfaceMappingSet");
  ("ARPackage", "createEthernetCluster");
  ("ARPackage", "createDiagnosticConnection");
  ("ARPackage", "createDiagnosticServiceTable");
  ("ARPackage", "createMultiplexedIPdu");
  ("ARPackage", "createUserDefinedIPdu");
  ("ARPackage", "createUserDefinedPdu");
  ("ARPackage", "createGeneralPurposeIPdu");
  ("ARPackage", "createGeneralPurposePdu");
  ("ARPackage", "createSecureCommunicationPropsSet");
  ("ARPackage", "createSoAdRoutingGroup");
  ("ARPackage", "createDoIpTpConfig");
  ("ARPackage", "createHwElement");
  ("ARPackage", "createHwCategory");
  ("ARPackage", "createHwType");
  ("ARPackage", "createFlexrayFrame");
  ("ARPackage", "createFlexrayCluster");
  ("ARPackage", "createDataTransformationSet");
  ("ARPackage", "createE2EProfileCompatibilityProps");
  ("ARPackage", "createCollection");
  ("ARPackage", "createKeywordSet");
  ("ARPackage", "createPortPrototypeBlueprint");
  ("ARPackage", "createModeDeclarationMappingSet");
  ("SwComponentType", "createConsistencyNeeds");
  ("SwComponentType", "createPPortPrototype");
  ("SwComponentType", "createRPortPrototype");
  ("SwComponentType", "createPRPortPrototype");
  ("SwComponentType", "createPortGroup");
  ("AtomicSwComponentType", "createSwcInternalBehavior");
  ("AtomicSwComponentType", "createSymbolProps");
  ("NvBlockSwComponentType", "createBulkNvDataDescriptor");
  ("NvBlockSwComponentType", "createNvBlockDescriptor");
  ("NvDataInterface", "createNvData");
  ("ParameterInterface", "createParameterDataPrototype");
  ("RunnableEntity", "createAsynchronousServerCallPoint");
  ("TpConnection", "createTpConnectionIdent");
  ("CouplingPortDetails", "createCouplingPortFifo");
  ("CouplingPortDetails", "createCouplingPortScheduler");
  ("CouplingPortDetails", "createEthernetPriorityRegeneration");
  ("SocketAddress", "createApplicationEndpoint");
  ("SoAdConfig", "createSocketConnectionBundle");
  ("SoAdConfig", "createSocketAddress");
  ("SecureCommunicationPropsSet", "createSecureCommunicationAuthenticationProps");
  ("SecureCommunicationPropsSet", "createSecureCommunicationFreshnessProps");
  ("Sdg", "createSdgCaption")
].

(** Methods that return an object of their own type in documents built by the creation methods
    alone (no removeElement, no addElement of foreign objects). *)
Definition sole_methods : list (string * string) := [
  ("EcucContainerValue", "createSubContainer");
  ("EcucModuleConfigurationValues", "createContainer");
  ("EcucConditionSpecification", "createEcucQuery");
  ("EcucValidationCondition", "createEcucQuery");
  ("EcucDerivationSpecification", "createEcucQuery");
  ("EcucEnumerationParamDef", "createLiteral");
  ("EcucChoiceContainerDef", "createEcucParamConfContainerDef");
  ("BswModuleEntry", "createArgument");
  ("BswModuleEntry", "createReturnType");
  ("FlatMap", "createFlatInstanceDescriptor");
  ("ImplementationDataTypeElement", "createImplementationDataTypeElement");
  ("TransientFault", "createPossibleErrorReaction");
  ("McDataInstance", "createSubElement");
  ("McSupportData", "createMcParameterInstance");
  ("McSupportData", "createMcVariableInstance");
  ("RptExecutableEntity", "createRptExecutableEntityEvent");
  ("RptComponent", "createRptExecutableEntity");
  ("RptSupportData", "createExecutionContext");
  ("RptSupportData", "createRptComponent");
  ("RptSupportData", "createRptServicePoint");
  ("KeywordSet", "createKeyword");
  ("ExecutionOrderConstraint", "createEOCExecutableEntityRef");
  ("TimingExtension", "createExecutionOrderConstraint");
  ("HwAttributeDef", "createHwAttributeLiteral");
  ("HwCategory", "createHwAttributeDef");
  ("HwElement", "createHwPinGroup");
  ("EndToEndProtectionSet", "createEndToEndProtection");
  ("SwComponentDocumentation", "createChapter");
  ("ApplicationArrayDataType", "createApplicationArrayElement");
  ("ApplicationRecordDataType", "createApplicationRecordElement");
  ("SenderReceiverInterface", "createDataElement");
  ("ClientServerOperation", "createArgumentDataPrototype");
  ("ModeDeclarationMappingSet", "createModeDeclarationMapping");
  ("DoIpTpConfig", "createDoIpLogicAddress");
  ("EthernetCommunicationController", "createCouplingPort");
  ("ConsumedServiceInstance", "createConsumedEventGroup");
  ("ProvidedServiceInstance", "createEventHandler");
  ("Frame", "createPduToFrameMapping");
  ("NmPdu", "createISignalToIPduMapping");
  ("ISignalIPdu", "createISignalToPduMappings")
].

(** Methods that can return None or an object of another type or name: with a class of
    container, and the creation method and name to call first. *)
Definition colliding_methods : list ((string * string) * (string * (string * string) * string)) := [
  (("EcucParamConfContainerDef", "createEcucBooleanParamDef"), ("EcucParamConfContainerDef", ("EcucParamConfContainerDef", "createEcucStringParamDef"), "x"));
  (("EcucParamConfContainerDef", "createEcucStringParamDef"), ("EcucParamConfContainerDef", ("EcucParamConfContainerDef", "createEcucBooleanParamDef"), "x"));
  (("EcucParamConfContainerDef", "createEcucIntegerParamDef"), ("EcucParamConfContainerDef", ("EcucParamConfContainerDef", "createEcucBooleanParamDef"), "x"));
  (("EcucParamConfContainerDef", "createEcucFloatParamDef"), ("EcucParamConfContainerDef", ("EcucParamConfContainerDef", "createEcucBooleanParamDef"), "x"));
  (("EcucParamConfContainerDef", "createEcucEnumerationParamDef"), ("EcucParamConfContainerDef", ("EcucParamConfContainerDef", "createEcucBooleanParamDef"), "x"));
  (("EcucParamConfContainerDef", "createEcucFunctionNameDef"), ("EcucParamConfContainerDef", ("EcucParamConfContainerDef", "createEcucBooleanParamDef"), "x"));
  (("EcucParamConfContainerDef", "createEcucMultilineStringParamDef"), ("EcucParamConfContainerDef", ("EcucParamConfContainerDef", "createEcucBooleanParamDef"), "x"));
  (("EcucParamConfContainerDef", "createEcucSymbolicNameReferenceDef"), ("EcucParamConfContainerDef", ("EcucParamConfContainerDef", "createEcucBooleanParamDef"), "x"));
  (("EcucParamConfContainerDef", "createEcucReferenceDef"), ("EcucParamConfContainerDef", ("EcucParamConfContainerDef", "createEcucBooleanParamDef"), "x"));
  (("EcucParamConfContainerDef", "createEcucChoiceReferenceDef"), ("EcucParamConfContainerDef", ("EcucParamConfContainerDef", "createEcucBooleanParamDef"), "x"));
  (("EcucParamConfContainerDef", "createEcucInstanceReferenceDef"), ("EcucParamConfContainerDef", ("EcucParamConfContainerDef", "createEcucBooleanParamDef"), "x"));
  (("EcucParamConfContainerDef", "createEcucChoiceContainerDef"), ("EcucParamConfContainerDef", ("EcucParamConfContainerDef", "createEcucBooleanParamDef"), "x"));
  (("EcucParamConfContainerDef", "createEcucParamConfContainerDef"), ("EcucParamConfContainerDef", ("EcucParamConfContainerDef", "createEcucBooleanParamDef"), "x"));
  (("EcucModuleDef", "createEcucParamConfContainerDef"), ("EcucModuleDef", ("EcucModuleDef", "createEcucChoiceContainerDef"), "x"));
  (("EcucModuleDef", "createEcucChoiceContainerDef"), ("EcucModuleDef", ("EcucModuleDef", "createEcucParamConfContainerDef"), "x"));
  (("BswModuleEntity", "createBswAsynchronousServerCallPoint"), ("BswModuleEntity", ("BswModuleEntity", "createBswSynchronousServerCallPoint"), "x"));
  (("BswModuleEntity", "createBswSynchronousServerCallPoint"), ("BswModuleEntity", ("BswModuleEntity", "createBswAsynchronousServerCallPoint"), "x"));
  (("BswModuleEntity", "createDataReceivePoint"), ("BswModuleEntity", ("BswModuleEntity", "createBswAsynchronousServerCallPoint"), "x"));
  (("BswModuleEntity", "createDataSendPoint"), ("BswModuleEntity", ("BswModuleEntity", "createBswAsynchronousServerCallPoint"), "x"));
  (("BswInternalBehavior", "createBswInternalTriggeringPoint"), ("BswInternalBehavior", ("BswInternalBehavior", "createBswCalledEntity"), "x"));
  (("BswInternalBehavior", "createBswCalledEntity"), ("BswInternalBehavior", ("BswInternalBehavior", "createBswInternalTriggeringPoint"), "x"));
  (("BswInternalBehavior", "createBswSchedulableEntity"), ("BswInternalBehavior", ("BswInternalBehavior", "createBswInternalTriggeringPoint"), "x"));
  (("BswInternalBehavior", "createBswInterruptEntity"), ("BswInternalBehavior", ("BswInternalBehavior", "createBswInternalTriggeringPoint"), "x"));
  (("BswInternalBehavior", "createBswModeSwitchEvent"), ("BswInternalBehavior", ("BswInternalBehavior", "createBswInternalTriggeringPoint"), "x"));
  (("BswInternalBehavior", "createBswTimingEvent"), ("BswInternalBehavior", ("BswInternalBehavior", "createBswInternalTriggeringPoint"), "x"));
  (("BswInternalBehavior", "createBswDataReceivedEvent"), ("BswInternalBehavior", ("BswInternalBehavior", "createBswInternalTriggeringPoint"), "x"));
  (("BswInternalBehavior", "createBswInternalTriggerOccurredEvent"), ("BswInternalBehavior", ("BswInternalBehavior", "createBswInternalTriggeringPoint"), "x"));
  (("BswInternalBehavior", "createBswExternalTriggerOccurredEvent"), ("BswInternalBehavior", ("BswInternalBehavior", "createBswInternalTriggeringPoint"), "x"));
  (("BswInternalBehavior", "createBswOperationInvokedEvent"), ("BswInternalBehavior", ("BswInternalBehavior", "createBswInternalTriggeringPoint"), "x"));
  (("BswInternalBehavior", "createBswBackgroundEvent"), ("BswInternalBehavior", ("BswInternalBehavior", "createBswInternalTriggeringPoint"), "x"));
  (("BswInternalBehavior", "createBswModeManagerErrorEvent"), ("BswInternalBehavior", ("BswInternalBehavior", "createBswInternalTriggeringPoint"), "x"));
  (("BswInternalBehavior", "createBswModeSwitchedAckEvent"), ("BswInternalBehavior", ("BswInternalBehavior", "createBswInternalTriggeringPoint"), "x"));
  (("BswInternalBehavior", "createBswAsynchronousServerCallReturnsEvent"), ("BswInternalBehavior", ("BswInternalBehavior", "createBswInternalTriggeringPoint"), "x"));
  (("BswModuleDescription", "createBswModuleDependency"), ("BswModuleDescription", ("BswModuleDescription", "createBswInternalBehavior"), "x"));
  (("BswModuleDescription", "createBswInternalBehavior"), ("BswModuleDescription", ("BswModuleDescription", "createBswModuleDependency"), "x"));
  (("BswModuleDescription", "createProvidedClientServerEntry"), ("BswModuleDescription", ("BswModuleDescription", "createBswModuleDependency"), "x"));
  (("BswModuleDescription", "createProvidedData"), ("BswModuleDescription", ("BswModuleDescription", "createBswModuleDependency"), "x"));
  (("BswModuleDescription", "createProvidedModeGroup"), ("BswModuleDescription", ("BswModuleDescription", "createBswModuleDependency"), "x"));
  (("BswModuleDescription", "createReleasedTrigger"), ("BswModuleDescription", ("BswModuleDescription", "createBswModuleDependency"), "x"));
  (("BswModuleDescription", "createRequiredClientServerEntry"), ("BswModuleDescription", ("BswModuleDescription", "createBswModuleDependency"), "x"));
  (("BswModuleDescription", "createRequiredData"), ("BswModuleDescription", ("BswModuleDescription", "createBswModuleDependency"), "x"));
  (("BswModuleDescription", "createRequiredModeGroup"), ("BswModuleDescription", ("BswModuleDescription", "createBswModuleDependency"), "x"));
  (("BswModuleDescription", "createRequiredTrigger"), ("BswModuleDescription", ("BswModuleDescription", "createBswModuleDependency"), "x"));
  (("Implementation", "createCodeDescriptor"), ("Implementation", ("Implementation", "createCompiler"), "x"));
  (("Implementation", "createCompiler"), ("Implementation", ("Implementation", "createCodeDescriptor"), "x"));
  (("Implementation", "createGeneratedArtifact"), ("Implementation", ("Implementation", "createCodeDescriptor"), "x"));
  (("Implementation", "createLinker"), ("Implementation", ("Implementation", "createCodeDescriptor"), "x"));
  (("Implementation", "createRequiredArtifact"), ("Implementation", ("Implementation", "createCodeDescriptor"), "x"));
  (("Implementation", "createRequiredGeneratorTool"), ("Implementation", ("Implementation", "createCodeDescriptor"), "x"));
  (("Implementation", "createResourceConsumption"), ("Implementation", ("Implementation", "createCodeDescriptor"), "x"));
  (("ImplementationDataType", "createImplementationDataTypeElement"), ("ImplementationDataType", ("ImplementationDataType", "createSymbolProps"), "x"));
  (("ExecutableEntity", "createActivationReason"), ("BswModuleEntity", ("BswModuleEntity", "createBswAsynchronousServerCallPoint"), "x"));
  (("InternalBehavior", "createConstantMemory"), ("BswInternalBehavior", ("BswInternalBehavior", "createBswInternalTriggeringPoint"), "x"));
  (("InternalBehavior", "createExclusiveArea"), ("BswInternalBehavior", ("BswInternalBehavior", "createBswInternalTriggeringPoint"), "x"));
  (("InternalBehavior", "createExclusiveAreaNestingOrder"), ("BswInternalBehavior", ("BswInternalBehavior", "createBswInternalTriggeringPoint"), "x"));
  (("InternalBehavior", "createStaticMemory"), ("BswInternalBehavior", ("BswInternalBehavior", "createBswInternalTriggeringPoint"), "x"));
  (("ModeDeclarationGroup", "createModeDeclaration"), ("ModeDeclarationGroup", ("ModeDeclarationGroup", "createModeTransition"), "x"));
  (("ModeDeclarationGroup", "createModeTransition"), ("ModeDeclarationGroup", ("ModeDeclarationGroup", "createModeDeclaration"), "x"));
  (("DiagnosticEventNeeds", "createDiagEventDebounceCounterBased"), ("DiagnosticEventNeeds", ("DiagnosticEventNeeds", "createDiagEventDebounceMonitorInternal"), "x"));
  (("DiagnosticEventNeeds", "createDiagEventDebounceMonitorInternal"), ("DiagnosticEventNeeds", ("DiagnosticEventNeeds", "createDiagEventDebounceCounterBased"), "x"));
  (("DiagnosticEventNeeds", "createDiagEventDebounceTimeBased"), ("DiagnosticEventNeeds", ("DiagnosticEventNeeds", "createDiagEventDebounceCounterBased"), "x"));
  (("ErrorTracerNeeds", "createDevelopmentError"), ("ErrorTracerNeeds", ("ErrorTracerNeeds", "createRuntimeError"), "x"));
  (("ErrorTracerNeeds", "createRuntimeError"), ("ErrorTracerNeeds", ("ErrorTracerNeeds", "createDevelopmentError"), "x"));
  (("ErrorTracerNeeds", "createTransientFault"), ("ErrorTracerNeeds", ("ErrorTracerNeeds", "createDevelopmentError"), "x"));
  (("ResourceConsumption", "createAnalyzedExecutionTime"), ("ResourceConsumption", ("ResourceConsumption", "createMeasuredExecutionTime"), "x"));
  (("ResourceConsumption", "createMeasuredExecutionTime"), ("ResourceConsumption", ("ResourceConsumption", "createAnalyzedExecutionTime"), "x"));
  (("ResourceConsumption", "createRoughEstimateOfExecutionTime"), ("ResourceConsumption", ("ResourceConsumption", "createAnalyzedExecutionTime"), "x"));
  (("ResourceConsumption", "createSimulatedExecutionTime"), ("ResourceConsumption", ("ResourceConsumption", "createAnalyzedExecutionTime"), "x"));
  (("ResourceConsumption", "createMeasuredHeapUsage"), ("ResourceConsumption", ("ResourceConsumption", "createAnalyzedExecutionTime"), "x"));
  (("ResourceConsumption", "createRoughEstimateHeapUsage"), ("ResourceConsumption", ("ResourceConsumption", "createAnalyzedExecutionTime"), "x"));
  (("ResourceConsumption", "createWorstCaseHeapUsage"), ("ResourceConsumption", ("ResourceConsumption", "createAnalyzedExecutionTime"), "x"));
  (("ResourceConsumption", "createMemorySection"), ("ResourceConsumption", ("ResourceConsumption", "createAnalyzedExecutionTime"), "x"));
  (("ResourceConsumption", "createSectionNamePrefix"), ("ResourceConsumption", ("ResourceConsumption", "createAnalyzedExecutionTime"), "x"));
  (("ResourceConsumption", "createMeasuredStackUsage"), ("ResourceConsumption", ("ResourceConsumption", "createAnalyzedExecutionTime"), "x"));
  (("ResourceConsumption", "createRoughEstimateStackUsage"), ("ResourceConsumption", ("ResourceConsumption", "createAnalyzedExecutionTime"), "x"));
  (("ResourceConsumption", "createWorstCaseStackUsage"), ("ResourceConsumption", ("ResourceConsumption", "createAnalyzedExecutionTime"), "x"));
  (("SwComponentDocumentation", "createSwCalibrationNotes"), ("SwComponentDocumentation", ("SwComponentDocumentation", "createSwCalibrationNotes"), "y"));
  (("SwComponentDocumentation", "createSwCarbDoc"), ("SwComponentDocumentation", ("SwComponentDocumentation", "createSwCarbDoc"), "y"));
  (("SwComponentDocumentation", "createSwDiagnosticsNotes"), ("SwComponentDocumentation", ("SwComponentDocumentation", "createSwDiagnosticsNotes"), "y"));
  (("SwComponentDocumentation", "createSwFeatureDef"), ("SwComponentDocumentation", ("SwComponentDocumentation", "createSwFeatureDef"), "y"));
  (("SwComponentDocumentation", "createSwFeatureDesc"), ("SwComponentDocumentation", ("SwComponentDocumentation", "createSwFeatureDesc"), "y"));
  (("SwComponentDocumentation", "createSwMaintenanceNotes"), ("SwComponentDocumentation", ("SwComponentDocumentation", "createSwMaintenanceNotes"), "y"));
  (("SwComponentDocumentation", "createSwTestDesc"), ("SwComponentDocumentation", ("SwComponentDocumentation", "createSwTestDesc"), "y"));
  (("CompositionSwComponentType", "createSwComponentPrototype"), ("CompositionSwComponentType", ("SwComponentType", "createConsistencyNeeds"), "x"));
  (("CompositionSwComponentType", "createAssemblySwConnector"), ("CompositionSwComponentType", ("SwComponentType", "createConsistencyNeeds"), "x"));
  (("CompositionSwComponentType", "createDelegationSwConnector"), ("CompositionSwComponentType", ("SwComponentType", "createConsistencyNeeds"), "x"));
  (("CompositionSwComponentType", "createPassThroughSwConnector"), ("CompositionSwComponentType", ("SwComponentType", "createConsistencyNeeds"), "x"));
  (("ConsistencyNeeds", "createDpgDoesNotRequireCoherency"), ("ConsistencyNeeds", ("ConsistencyNeeds", "createRegDoesNotRequireStability"), "x"));
  (("ConsistencyNeeds", "createDpgRequiresCoherency"), ("ConsistencyNeeds", ("ConsistencyNeeds", "createRegDoesNotRequireStability"), "x"));
  (("ConsistencyNeeds", "createRegDoesNotRequireStability"), ("ConsistencyNeeds", ("ConsistencyNeeds", "createDpgDoesNotRequireCoherency"), "x"));
  (("ConsistencyNeeds", "createRegRequiresStability"), ("ConsistencyNeeds", ("ConsistencyNeeds", "createDpgDoesNotRequireCoherency"), "x"));
  (("ClientServerInterface", "createOperation"), ("ClientServerInterface", ("ClientServerInterface", "createApplicationError"), "x"));
  (("ClientServerInterface", "createApplicationError"), ("ClientServerInterface", ("ClientServerInterface", "createOperation"), "x"));
  (("PortInterfaceMappingSet", "createVariableAndParameterInterfaceMapping"), ("PortInterfaceMappingSet", ("PortInterfaceMappingSet", "createClientServerInterfaceMapping"), "x"));
  (("PortInterfaceMappingSet", "createClientServerInterfaceMapping"), ("PortInterfaceMappingSet", ("PortInterfaceMappingSet", "createVariableAndParameterInterfaceMapping"), "x"));
  (("PortInterfaceMappingSet", "createModeInterfaceMapping"), ("PortInterfaceMappingSet", ("PortInterfaceMappingSet", "createVariableAndParameterInterfaceMapping"), "x"));
  (("PortInterfaceMappingSet", "createTriggerInterfaceMapping"), ("PortInterfaceMappingSet", ("PortInterfaceMappingSet", "createVariableAndParameterInterfaceMapping"), "x"));
  (("SwcServiceDependency", "createNvBlockNeeds"), ("SwcServiceDependency", ("SwcServiceDependency", "createDiagnosticCommunicationManagerNeeds"), "x"));
  (("SwcServiceDependency", "createDiagnosticCommunicationManagerNeeds"), ("SwcServiceDependency", ("SwcServiceDependency", "createNvBlockNeeds"), "x"));
  (("SwcServiceDependency", "createDiagnosticRoutineNeeds"), ("SwcServiceDependency", ("SwcServiceDependency", "createNvBlockNeeds"), "x"));
  (("SwcServiceDependency", "createDiagnosticValueNeeds"), ("SwcServiceDependency", ("SwcServiceDependency", "createNvBlockNeeds"), "x"));
  (("SwcServiceDependency", "createDiagnosticEventNeeds"), ("SwcServiceDependency", ("SwcServiceDependency", "createNvBlockNeeds"), "x"));
  (("SwcServiceDependency", "createDiagnosticEventInfoNeeds"), ("SwcServiceDependency", ("SwcServiceDependency", "createNvBlockNeeds"), "x"));
  (("SwcServiceDependency", "createCryptoServiceNeeds"), ("SwcServiceDependency", ("SwcServiceDependency", "createNvBlockNeeds"), "x"));
  (("SwcServiceDependency", "createEcuStateMgrUserNeeds"), ("SwcServiceDependency", ("SwcServiceDependency", "createNvBlockNeeds"), "x"));
  (("SwcServiceDependency", "createDtcStatusChangeNotificationNeeds"), ("SwcServiceDependency", ("SwcServiceDependency", "createNvBlockNeeds"), "x"));
  (("SwcServiceDependency", "createDiagnosticIoControlNeeds"), ("SwcServiceDependency", ("SwcServiceDependency", "createNvBlockNeeds"), "x"));
  (("SwcServiceDependency", "createDiagnosticEnableConditionNeeds"), ("SwcServiceDependency", ("SwcServiceDependency", "createNvBlockNeeds"), "x"));
  (("SwcServiceDependency", "createDiagnosticOperationCycleNeeds"), ("SwcServiceDependency", ("SwcServiceDependency", "createNvBlockNeeds"), "x"));
  (("SwcServiceDependency", "createDiagnosticStorageConditionNeeds"), ("SwcServiceDependency", ("SwcServiceDependency", "createNvBlockNeeds"), "x"));
  (("SwcServiceDependency", "createFunctionInhibitionAvailabilityNeeds"), ("SwcServiceDependency", ("SwcServiceDependency", "createNvBlockNeeds"), "x"));
  (("SwcServiceDependency", "createIndicatorStatusNeeds"), ("SwcServiceDependency", ("SwcServiceDependency", "createNvBlockNeeds"), "x"));
  (("SwcServiceDependency", "createDltUserNeeds"), ("SwcServiceDependency", ("SwcServiceDependency", "createNvBlockNeeds"), "x"));
  (("SwcServiceDependency", "createComMgrUserNeeds"), ("SwcServiceDependency", ("SwcServiceDependency", "createNvBlockNeeds"), "x"));
  (("SwcServiceDependency", "createErrorTracerNeeds"), ("SwcServiceDependency", ("SwcServiceDependency", "createNvBlockNeeds"), "x"));
  (("SwcServiceDependency", "createObdInfoServiceNeeds"), ("SwcServiceDependency", ("SwcServiceDependency", "createNvBlockNeeds"), "x"));
  (("SwcServiceDependency", "createObdMonitorServiceNeeds"), ("SwcServiceDependency", ("SwcServiceDependency", "createNvBlockNeeds"), "x"));
  (("SwcServiceDependency", "createObdPidServiceNeeds"), ("SwcServiceDependency", ("SwcServiceDependency", "createNvBlockNeeds"), "x"));
  (("SwcServiceDependency", "createObdControlServiceNeeds"), ("SwcServiceDependency", ("SwcServiceDependency", "createNvBlockNeeds"), "x"));
  (("SwcServiceDependency", "createObdRatioServiceNeeds"), ("SwcServiceDependency", ("SwcServiceDependency", "createNvBlockNeeds"), "x"));
  (("SwcServiceDependency", "createObdRatioDenominatorNeeds"), ("SwcServiceDependency", ("SwcServiceDependency", "createNvBlockNeeds"), "x"));
  (("SwcServiceDependency", "createDoIpRoutingActivationAuthenticationNeeds"), ("SwcServiceDependency", ("SwcServiceDependency", "createNvBlockNeeds"), "x"));
  (("SwcServiceDependency", "createDoIpRoutingActivationConfirmationNeeds"), ("SwcServiceDependency", ("SwcServiceDependency", "createNvBlockNeeds"), "x"));
  (("SwcServiceDependency", "createSecureOnBoardCommunicationNeeds"), ("SwcServiceDependency", ("SwcServiceDependency", "createNvBlockNeeds"), "x"));
  (("SwcServiceDependency", "createIdsMgrNeeds"), ("SwcServiceDependency", ("SwcServiceDependency", "createNvBlockNeeds"), "x"));
  (("ExternalTriggeringPoint", "createIdent"), ("ExternalTriggeringPoint", ("ExternalTriggeringPoint", "createIdent"), "y"));
  (("RunnableEntity", "createDataReadAccess"), ("RunnableEntity", ("ExecutableEntity", "createActivationReason"), "x"));
  (("RunnableEntity", "createDataWriteAccess"), ("RunnableEntity", ("ExecutableEntity", "createActivationReason"), "x"));
  (("RunnableEntity", "createDataReceivePointByArgument"), ("RunnableEntity", ("ExecutableEntity", "createActivationReason"), "x"));
  (("RunnableEntity", "createDataReceivePointByValue"), ("RunnableEntity", ("ExecutableEntity", "createActivationReason"), "x"));
  (("RunnableEntity", "createDataSendPoint"), ("RunnableEntity", ("ExecutableEntity", "createActivationReason"), "x"));
  (("RunnableEntity", "createReadLocalVariable"), ("RunnableEntity", ("ExecutableEntity", "createActivationReason"), "x"));
  (("RunnableEntity", "createWrittenLocalVariable"), ("RunnableEntity", ("ExecutableEntity", "createActivationReason"), "x"));
  (("RunnableEntity", "createParameterAccess"), ("RunnableEntity", ("ExecutableEntity", "createActivationReason"), "x"));
  (("RunnableEntity", "createSynchronousServerCallPoint"), ("RunnableEntity", ("ExecutableEntity", "createActivationReason"), "x"));
  (("RunnableEntity", "createAsynchronousServerCallResultPoint"), ("RunnableEntity", ("ExecutableEntity", "createActivationReason"), "x"));
  (("RunnableEntity", "createInternalTriggeringPoint"), ("RunnableEntity", ("ExecutableEntity", "createActivationReason"), "x"));
  (("RunnableEntity", "createModeSwitchPoint"), ("RunnableEntity", ("ExecutableEntity", "createActivationReason"), "x"));
  (("RunnableEntity", "createWaitPoint"), ("RunnableEntity", ("ExecutableEntity", "createActivationReason"), "x"));
  (("SwcInternalBehavior", "createArTypedPerInstanceMemory"), ("SwcInternalBehavior", ("InternalBehavior", "createConstantMemory"), "x"));
  (("SwcInternalBehavior", "createExplicitInterRunnableVariable"), ("SwcInternalBehavior", ("InternalBehavior", "createConstantMemory"), "x"));
  (("SwcInternalBehavior", "createImplicitInterRunnableVariable"), ("SwcInternalBehavior", ("InternalBehavior", "createConstantMemory"), "x"));
  (("SwcInternalBehavior", "createPerInstanceMemory"), ("SwcInternalBehavior", ("InternalBehavior", "createConstantMemory"), "x"));
  (("SwcInternalBehavior", "createPerInstanceParameter"), ("SwcInternalBehavior", ("InternalBehavior", "createExclusiveArea"), "x"));
  (("SwcInternalBehavior", "createSharedParameter"), ("SwcInternalBehavior", ("InternalBehavior", "createExclusiveArea"), "x"));
  (("SwcInternalBehavior", "createOperationInvokedEvent"), ("SwcInternalBehavior", ("InternalBehavior", "createConstantMemory"), "x"));
  (("SwcInternalBehavior", "createTimingEvent"), ("SwcInternalBehavior", ("InternalBehavior", "createConstantMemory"), "x"));
  (("SwcInternalBehavior", "createInitEvent"), ("SwcInternalBehavior", ("InternalBehavior", "createConstantMemory"), "x"));
  (("SwcInternalBehavior", "createAsynchronousServerCallReturnsEvent"), ("SwcInternalBehavior", ("InternalBehavior", "createConstantMemory"), "x"));
  (("SwcInternalBehavior", "createDataReceivedEvent"), ("SwcInternalBehavior", ("InternalBehavior", "createConstantMemory"), "x"));
  (("SwcInternalBehavior", "createSwcModeSwitchEvent"), ("SwcInternalBehavior", ("InternalBehavior", "createConstantMemory"), "x"));
  (("SwcInternalBehavior", "createInternalTriggerOccurredEvent"), ("SwcInternalBehavior", ("InternalBehavior", "createConstantMemory"), "x"));
  (("SwcInternalBehavior", "createModeSwitchedAckEvent"), ("SwcInternalBehavior", ("InternalBehavior", "createConstantMemory"), "x"));
  (("SwcInternalBehavior", "createBackgroundEvent"), ("SwcInternalBehavior", ("InternalBehavior", "createConstantMemory"), "x"));
  (("SwcInternalBehavior", "createDataSendCompletedEvent"), ("SwcInternalBehavior", ("InternalBehavior", "createConstantMemory"), "x"));
  (("SwcInternalBehavior", "createSwcServiceDependency"), ("SwcInternalBehavior", ("InternalBehavior", "createConstantMemory"), "x"));
  (("SwcInternalBehavior", "createRunnableEntity"), ("SwcInternalBehavior", ("InternalBehavior", "createConstantMemory"), "x"));
  (("NmConfig", "createCanNmCluster"), ("NmConfig", ("NmConfig", "createUdpNmCluster"), "x"));
  (("NmConfig", "createUdpNmCluster"), ("NmConfig", ("NmConfig", "createCanNmCluster"), "x"));
  (("NmConfig", "createNmEcu"), ("NmConfig", ("NmConfig", "createCanNmCluster"), "x"));
  (("NmCluster", "createCanNmNode"), ("NmCluster", ("NmCluster", "createJ1939NmNode"), "x"));
  (("NmCluster", "createJ1939NmNode"), ("NmCluster", ("NmCluster", "createCanNmNode"), "x"));
  (("CanTpConfig", "createCanTpAddress"), ("CanTpConfig", ("CanTpConfig", "createCanTpChannel"), "x"));
  (("CanTpConfig", "createCanTpChannel"), ("CanTpConfig", ("CanTpConfig", "createCanTpAddress"), "x"));
  (("CanTpConfig", "createCanTpNode"), ("CanTpConfig", ("CanTpConfig", "createCanTpAddress"), "x"));
  (("LinTpConfig", "createTpAddress"), ("LinTpConfig", ("LinTpConfig", "createLinTpNode"), "x"));
  (("LinTpConfig", "createLinTpNode"), ("LinTpConfig", ("LinTpConfig", "createTpAddress"), "x"));
  (("SystemMapping", "createECUMapping"), ("SystemMapping", ("SystemMapping", "createSwcToImplMapping"), "x"));
  (("SystemMapping", "createSwcToImplMapping"), ("SystemMapping", ("SystemMapping", "createECUMapping"), "x"));
  (("SystemMapping", "createSwcToEcuMapping"), ("SystemMapping", ("SystemMapping", "createECUMapping"), "x"));
  (("System", "createSystemMapping"), ("System", ("System", "createRootSoftwareComposition"), "x"));
  (("System", "createRootSoftwareComposition"), ("System", ("System", "createSystemMapping"), "x"));
  (("EthernetCluster", "createMacMulticastGroup"), ("EthernetCluster", ("CommunicationCluster", "createCanPhysicalChannel"), "x"));
  (("ApplicationEndpoint", "createConsumedServiceInstance"), ("ApplicationEndpoint", ("ApplicationEndpoint", "createProvidedServiceInstance"), "x"));
  (("ApplicationEndpoint", "createProvidedServiceInstance"), ("ApplicationEndpoint", ("ApplicationEndpoint", "createConsumedServiceInstance"), "x"));
  (("PhysicalChannel", "createCanFrameTriggering"), ("PhysicalChannel", ("PhysicalChannel", "createLinFrameTriggering"), "x"));
  (("PhysicalChannel", "createLinFrameTriggering"), ("PhysicalChannel", ("PhysicalChannel", "createCanFrameTriggering"), "x"));
  (("PhysicalChannel", "createFlexrayFrameTriggering"), ("PhysicalChannel", ("PhysicalChannel", "createCanFrameTriggering"), "x"));
  (("PhysicalChannel", "createISignalTriggering"), ("PhysicalChannel", ("PhysicalChannel", "createCanFrameTriggering"), "x"));
  (("PhysicalChannel", "createPduTriggering"), ("PhysicalChannel", ("PhysicalChannel", "createCanFrameTriggering"), "x"));
  (("LinPhysicalChannel", "createLinScheduleTable"), ("LinPhysicalChannel", ("PhysicalChannel", "createCanFrameTriggering"), "x"));
  (("EthernetPhysicalChannel", "createNetworkEndPoint"), ("EthernetPhysicalChannel", ("PhysicalChannel", "createCanFrameTriggering"), "x"));
  (("EthernetPhysicalChannel", "createVlanConfig"), ("EthernetPhysicalChannel", ("PhysicalChannel", "createCanFrameTriggering"), "x"));
  (("CommunicationCluster", "createCanPhysicalChannel"), ("EthernetCluster", ("EthernetCluster", "createMacMulticastGroup"), "x"));
  (("CommunicationCluster", "createLinPhysicalChannel"), ("EthernetCluster", ("EthernetCluster", "createMacMulticastGroup"), "x"));
  (("CommunicationCluster", "createEthernetPhysicalChannel"), ("EthernetCluster", ("EthernetCluster", "createMacMulticastGroup"), "x"));
  (("CommunicationCluster", "createFlexrayPhysicalChannel"), ("EthernetCluster", ("EthernetCluster", "createMacMulticastGroup"), "x"));
  (("CommunicationConnector", "createFramePort"), ("CommunicationConnector", ("CommunicationConnector", "createIPduPort"), "x"));
  (("CommunicationConnector", "createIPduPort"), ("CommunicationConnector", ("CommunicationConnector", "createFramePort"), "x"));
  (("CommunicationConnector", "createISignalPort"), ("CommunicationConnector", ("CommunicationConnector", "createFramePort"), "x"));
  (("EcuInstance", "createCanCommunicationController"), ("EcuInstance", ("EcuInstance", "createEthernetCommunicationController"), "x"));
  (("EcuInstance", "createEthernetCommunicationController"), ("EcuInstance", ("EcuInstance", "createCanCommunicationController"), "x"));
  (("EcuInstance", "createLinMaster"), ("EcuInstance", ("EcuInstance", "createCanCommunicationController"), "x"));
  (("EcuInstance", "createFlexrayCommunicationController"), ("EcuInstance", ("EcuInstance", "createCanCommunicationController"), "x"));
  (("EcuInstance", "createCanCommunicationConnector"), ("EcuInstance", ("EcuInstance", "createCanCommunicationController"), "x"));
  (("EcuInstance", "createEthernetCommunicationConnector"), ("EcuInstance", ("EcuInstance", "createCanCommunicationController"), "x"));
  (("EcuInstance", "createLinCommunicationConnector"), ("EcuInstance", ("EcuInstance", "createCanCommunicationController"), "x"));
  (("EcuInstance", "createFlexrayCommunicationConnector"), ("EcuInstance", ("EcuInstance", "createCanCommunicationController"), "x"));
  (("DataTransformationSet", "createDataTransformation"), ("DataTransformationSet", ("DataTransformationSet", "createTransformationTechnology"), "x"));
  (("DataTransformationSet", "createTransformationTechnology"), ("DataTransformationSet", ("DataTransformationSet", "createDataTransformation"), "x"))
].
