(** Generated by tools/gen_creators.py from the createX methods of /repo/src/armodel/models
    (paths relative to /repo/src/armodel).  Each row: container class, method, creator.
    Methods that do not fit the [creator] form and are not in the table:
      models/M2/AUTOSARTemplates/AutosarTopLevelStructure/__init__.py:185 AbstractAUTOSAR.createARPackage
      models/M2/AUTOSARTemplates/EcuResourceTemplate/__init__.py:145 HwPin.createFunctionName
      models/M2/AUTOSARTemplates/GenericStructure/GeneralTemplateClasses/ARPackage.py:716 ARPackage.createARPackage
      models/M2/AUTOSARTemplates/SWComponentTemplate/PortInterface/__init__.py:337 SenderReceiverInterface.createInvalidationPolicy
      models/M2/AUTOSARTemplates/SWComponentTemplate/PortInterface/__init__.py:760 ModeSwitchInterface.createModeGroup
      models/M2/AUTOSARTemplates/SystemTemplate/Fibex/Fibex4Flexray/FlexrayTopology.py:303 FlexrayCommunicationController.createFlexrayFifo
      models/M2/AUTOSARTemplates/SystemTemplate/Fibex/Fibex4Flexray/FlexrayTopology.py:1311 FlexrayFifoConfiguration.createFlexrayFifoRange
*)
From Coq Require Import String List.
From Verif Require Import PyBase ObjHeap.
Import ListNotations.
Open Scope string_scope.

Definition creators : list (string * string * creator) := [
  (* models/M2/AUTOSARTemplates/ECUCDescriptionTemplate.py *)
  ("EcucContainerValue", "createSubContainer", mkCreator "EcucContainerValue" GUntyped true (Some "subContainers") None RGetTyped); (* line 349 *)
  ("EcucModuleConfigurationValues", "createContainer", mkCreator "EcucContainerValue" GUntyped true (Some "containers") None RGetTyped); (* line 390 *)
  (* models/M2/AUTOSARTemplates/ECUCParameterDefTemplate.py *)
  ("EcucConditionSpecification", "createEcucQuery", mkCreator "EcucQuery" (GScan "ecucQueries") false (Some "ecucQueries") None RNew); (* line 63 *)
  ("EcucValidationCondition", "createEcucQuery", mkCreator "EcucQuery" (GScan "ecucQueries") false (Some "ecucQueries") None RNew); (* line 131 *)
  ("EcucDerivationSpecification", "createEcucQuery", mkCreator "EcucQuery" (GScan "ecucQueries") false (Some "ecucQueries") None RNew); (* line 818 *)
  ("EcucEnumerationParamDef", "createLiteral", mkCreator "EcucEnumerationLiteralDef" GUntyped true (Some "literals") None RGet); (* line 1511 *)
  ("EcucChoiceContainerDef", "createEcucParamConfContainerDef", mkCreator "EcucParamConfContainerDef" GUntyped true (Some "choices") None RGet); (* line 1588 *)
  ("EcucParamConfContainerDef", "createEcucBooleanParamDef", mkCreator "EcucBooleanParamDef" GUntyped true (Some "parameters") None RGet); (* line 1647 *)
  ("EcucParamConfContainerDef", "createEcucStringParamDef", mkCreator "EcucStringParamDef" GUntyped true (Some "parameters") None RGet); (* line 1663 *)
  ("EcucParamConfContainerDef", "createEcucIntegerParamDef", mkCreator "EcucIntegerParamDef" GUntyped true (Some "parameters") None RGet); (* line 1680 *)
  ("EcucParamConfContainerDef", "createEcucFloatParamDef", mkCreator "EcucFloatParamDef" GUntyped true (Some "parameters") None RGet); (* line 1697 *)
  ("EcucParamConfContainerDef", "createEcucEnumerationParamDef", mkCreator "EcucEnumerationParamDef" GUntyped true (Some "parameters") None RGet); (* line 1714 *)
  ("EcucParamConfContainerDef", "createEcucFunctionNameDef", mkCreator "EcucFunctionNameDef" GUntyped true (Some "parameters") None RGet); (* line 1731 *)
  ("EcucParamConfContainerDef", "createEcucMultilineStringParamDef", mkCreator "EcucMultilineStringParamDef" GUntyped true (Some "parameters") None RGet); (* line 1747 *)
  ("EcucParamConfContainerDef", "createEcucSymbolicNameReferenceDef", mkCreator "EcucSymbolicNameReferenceDef" GUntyped true (Some "references") None RGet); (* line 1772 *)
  ("EcucParamConfContainerDef", "createEcucReferenceDef", mkCreator "EcucReferenceDef" GUntyped true (Some "references") None RGet); (* line 1788 *)
  ("EcucParamConfContainerDef", "createEcucChoiceReferenceDef", mkCreator "EcucChoiceReferenceDef" GUntyped true (Some "references") None RGet); (* line 1804 *)
  ("EcucParamConfContainerDef", "createEcucInstanceReferenceDef", mkCreator "EcucInstanceReferenceDef" GUntyped true (Some "references") None RGet); (* line 1820 *)
  ("EcucParamConfContainerDef", "createEcucChoiceContainerDef", mkCreator "EcucChoiceContainerDef" GUntyped true (Some "subContainers") None RGet); (* line 1845 *)
  ("EcucParamConfContainerDef", "createEcucParamConfContainerDef", mkCreator "EcucParamConfContainerDef" GUntyped true (Some "subContainers") None RGet); (* line 1861 *)
  ("EcucDestinationUriDefSet", "createEcucDestinationUriDef", mkCreator "EcucDestinationUriDef" GAlways false (Some "destinationUriDefs") None RNew); (* line 2038 *)
  ("EcucModuleDef", "createEcucParamConfContainerDef", mkCreator "EcucParamConfContainerDef" GUntyped true (Some "containers") None RGet); (* line 2408 *)
  ("EcucModuleDef", "createEcucChoiceContainerDef", mkCreator "EcucChoiceContainerDef" GUntyped true (Some "containers") None RGet); (* line 2418 *)
  (* models/M2/AUTOSARTemplates/AdaptivePlatform/PlatformModuleDeployment/CryptoDeployment/CryptoKeySlot.py *)
  ("CryptoKeySlot", "createKeySlotContent", mkCreator "CryptoKeySlotContent" GAlways true (Some "keySlotContents") None RNew); (* line 124 *)
  (* models/M2/AUTOSARTemplates/BswModuleTemplate/BswInterfaces.py *)
  ("BswModuleEntry", "createArgument", mkCreator "SwServiceArg" GAlways true (Some "arguments") None RGet); (* line 283 *)
  ("BswModuleEntry", "createReturnType", mkCreator "SwServiceArg" GAlways true None (Some "returnType") RGet); (* line 395 *)
  (* models/M2/AUTOSARTemplates/BswModuleTemplate/BswBehavior/__init__.py *)
  ("BswModuleEntity", "createBswAsynchronousServerCallPoint", mkCreator "BswAsynchronousServerCallPoint" GUntyped true (Some "callPoints") None RGetTyped); (* line 527 *)
  ("BswModuleEntity", "createBswSynchronousServerCallPoint", mkCreator "BswSynchronousServerCallPoint" GUntyped true (Some "callPoints") None RGetTyped); (* line 545 *)
  ("BswModuleEntity", "createDataReceivePoint", mkCreator "BswVariableAccess" GUntyped true (Some "dataReceivePoints") None RGetTyped); (* line 572 *)
  ("BswModuleEntity", "createDataSendPoint", mkCreator "BswVariableAccess" GUntyped true (Some "dataSendPoints") None RGetTyped); (* line 599 *)
  ("BswInternalBehavior", "createBswInternalTriggeringPoint", mkCreator "BswInternalTriggeringPoint" GUntyped true (Some "internalTriggeringPoints") None RGet); (* line 2599 *)
  ("BswInternalBehavior", "createBswCalledEntity", mkCreator "BswCalledEntity" GUntyped true (Some "entities") None RGet); (* line 2910 *)
  ("BswInternalBehavior", "createBswSchedulableEntity", mkCreator "BswSchedulableEntity" GUntyped true (Some "entities") None RGet); (* line 2935 *)
  ("BswInternalBehavior", "createBswInterruptEntity", mkCreator "BswInterruptEntity" GUntyped true (Some "entities") None RGet); (* line 2960 *)
  ("BswInternalBehavior", "createBswModeSwitchEvent", mkCreator "BswModeSwitchEvent" GUntyped true (Some "events") None RGet); (* line 2994 *)
  ("BswInternalBehavior", "createBswTimingEvent", mkCreator "BswTimingEvent" GUntyped true (Some "events") None RGet); (* line 3019 *)
  ("BswInternalBehavior", "createBswDataReceivedEvent", mkCreator "BswDataReceivedEvent" GUntyped true (Some "events") None RGet); (* line 3044 *)
  ("BswInternalBehavior", "createBswInternalTriggerOccurredEvent", mkCreator "BswInternalTriggerOccurredEvent" GUntyped true (Some "events") None RGet); (* line 3069 *)
  ("BswInternalBehavior", "createBswExternalTriggerOccurredEvent", mkCreator "BswExternalTriggerOccurredEvent" GUntyped true (Some "events") None RGet); (* line 3094 *)
  ("BswInternalBehavior", "createBswOperationInvokedEvent", mkCreator "BswOperationInvokedEvent" GUntyped true (Some "events") None RGet); (* line 3119 *)
  ("BswInternalBehavior", "createBswBackgroundEvent", mkCreator "BswBackgroundEvent" GUntyped true (Some "events") None RGet); (* line 3144 *)
  ("BswInternalBehavior", "createBswModeManagerErrorEvent", mkCreator "BswModeManagerErrorEvent" GUntyped true (Some "events") None RGet); (* line 3169 *)
  ("BswInternalBehavior", "createBswModeSwitchedAckEvent", mkCreator "BswModeSwitchedAckEvent" GUntyped true (Some "events") None RGet); (* line 3194 *)
  ("BswInternalBehavior", "createBswAsynchronousServerCallReturnsEvent", mkCreator "BswAsynchronousServerCallReturnsEvent" GUntyped true (Some "events") None RGet); (* line 3219 *)
  (* models/M2/AUTOSARTemplates/BswModuleTemplate/BswOverview/__init__.py *)
  ("BswModuleDescription", "createBswModuleDependency", mkCreator "BswModuleDependency" GUntyped true (Some "bswModuleDependencies") None RGet); (* line 112 *)
  ("BswModuleDescription", "createBswInternalBehavior", mkCreator "BswInternalBehavior" GUntyped true (Some "internalBehaviors") None RGet); (* line 242 *)
  ("BswModuleDescription", "createProvidedClientServerEntry", mkCreator "BswModuleClientServerEntry" GUntyped true (Some "providedClientServerEntries") None RGet); (* line 285 *)
  ("BswModuleDescription", "createProvidedData", mkCreator "VariableDataPrototype" GUntyped true (Some "providedDatas") None RGet); (* line 307 *)
  ("BswModuleDescription", "createProvidedModeGroup", mkCreator "ModeDeclarationGroupPrototype" GUntyped true (Some "providedModeGroups") None RGet); (* line 329 *)
  ("BswModuleDescription", "createReleasedTrigger", mkCreator "Trigger" GUntyped true (Some "releasedTriggers") None RGet); (* line 351 *)
  ("BswModuleDescription", "createRequiredClientServerEntry", mkCreator "BswModuleClientServerEntry" GUntyped true (Some "requiredClientServerEntries") None RGet); (* line 373 *)
  ("BswModuleDescription", "createRequiredData", mkCreator "VariableDataPrototype" GUntyped true (Some "requiredDatas") None RGet); (* line 395 *)
  ("BswModuleDescription", "createRequiredModeGroup", mkCreator "ModeDeclarationGroupPrototype" GUntyped true (Some "requiredModeGroups") None RGet); (* line 417 *)
  ("BswModuleDescription", "createRequiredTrigger", mkCreator "Trigger" GUntyped true (Some "requiredTriggers") None RGet); (* line 439 *)
  (* models/M2/AUTOSARTemplates/CommonStructure/FlatMap.py *)
  ("FlatMap", "createFlatInstanceDescriptor", mkCreator "FlatInstanceDescriptor" GAlways true (Some "instances") None RGet); (* line 201 *)
  (* models/M2/AUTOSARTemplates/CommonStructure/Implementation.py *)
  ("Implementation", "createCodeDescriptor", mkCreator "Code" GAlways true (Some "codeDescriptors") None RGet); (* line 727 *)
  ("Implementation", "createCompiler", mkCreator "Compiler" GAlways true (Some "compilers") None RGet); (* line 752 *)
  ("Implementation", "createGeneratedArtifact", mkCreator "DependencyOnArtifact" GAlways true (Some "generatedArtifacts") None RGet); (* line 778 *)
  ("Implementation", "createLinker", mkCreator "Linker" GAlways true (Some "linkers") None RGet); (* line 828 *)
  ("Implementation", "createRequiredArtifact", mkCreator "DependencyOnArtifact" GAlways true (Some "requiredArtifacts") None RGet); (* line 901 *)
  ("Implementation", "createRequiredGeneratorTool", mkCreator "DependencyOnArtifact" GAlways true (Some "requiredGeneratorTools") None RGet); (* line 927 *)
  ("Implementation", "createResourceConsumption", mkCreator "ResourceConsumption" GAlways true None (Some "resourceConsumption") RGet); (* line 953 *)
  (* models/M2/AUTOSARTemplates/CommonStructure/ImplementationDataTypes.py *)
  ("ImplementationDataTypeElement", "createImplementationDataTypeElement", mkCreator "ImplementationDataTypeElement" GUntyped true (Some "subElements") None RGetTyped); (* line 110 *)
  ("ImplementationDataType", "createImplementationDataTypeElement", mkCreator "ImplementationDataTypeElement" GUntyped true (Some "subElements") None RGetTyped); (* line 248 *)
  ("ImplementationDataType", "createSymbolProps", mkCreator "SymbolProps" GAlways true None (Some "symbolProps") (RAttr "symbolProps")); (* line 276 *)
  (* models/M2/AUTOSARTemplates/CommonStructure/InternalBehavior.py *)
  ("ExecutableEntity", "createActivationReason", mkCreator "ExecutableEntityActivationReason" GUntyped true (Some "activationReasons") None RGet); (* line 127 *)
  ("InternalBehavior", "createConstantMemory", mkCreator "ParameterDataPrototype" GAlways true (Some "constantMemories") None RGet); (* line 372 *)
  ("InternalBehavior", "createExclusiveArea", mkCreator "ExclusiveArea" GAlways true (Some "exclusiveAreas") None RGet); (* line 415 *)
  ("InternalBehavior", "createExclusiveAreaNestingOrder", mkCreator "ExclusiveAreaNestingOrder" GAlways true (Some "exclusiveAreaNestingOrders") None RGet); (* line 440 *)
  ("InternalBehavior", "createStaticMemory", mkCreator "VariableDataPrototype" GAlways true (Some "staticMemories") None RGet); (* line 475 *)
  (* models/M2/AUTOSARTemplates/CommonStructure/ModeDeclaration.py *)
  ("ModeDeclarationGroup", "createModeDeclaration", mkCreator "ModeDeclaration" GUntyped true None None RGetTyped); (* line 310 *)
  ("ModeDeclarationGroup", "createModeTransition", mkCreator "ModeTransition" GUntyped true (Some "modeTransitions") None RGetTyped); (* line 382 *)
  (* models/M2/AUTOSARTemplates/CommonStructure/ServiceNeeds.py *)
  ("DiagnosticEventNeeds", "createDiagEventDebounceCounterBased", mkCreator "DiagEventDebounceCounterBased" GAlways true None (Some "diagEventDebounceAlgorithm") RGet); (* line 1775 *)
  ("DiagnosticEventNeeds", "createDiagEventDebounceMonitorInternal", mkCreator "DiagEventDebounceMonitorInternal" GAlways true None (Some "diagEventDebounceAlgorithm") RGet); (* line 1791 *)
  ("DiagnosticEventNeeds", "createDiagEventDebounceTimeBased", mkCreator "DiagEventDebounceTimeBased" GAlways true None (Some "diagEventDebounceAlgorithm") RGet); (* line 1807 *)
  ("ErrorTracerNeeds", "createDevelopmentError", mkCreator "DevelopmentError" GUntyped true (Some "tracedFailures") None RGet); (* line 3081 *)
  ("ErrorTracerNeeds", "createRuntimeError", mkCreator "RuntimeError" GUntyped true (Some "tracedFailures") None RGet); (* line 3097 *)
  ("ErrorTracerNeeds", "createTransientFault", mkCreator "TransientFault" GUntyped true (Some "tracedFailures") None RGet); (* line 3113 *)
  ("TransientFault", "createPossibleErrorReaction", mkCreator "PossibleErrorReaction" GUntyped true (Some "possibleErrorReactions") None RGet); (* line 4484 *)
  (* models/M2/AUTOSARTemplates/CommonStructure/SignalServiceTranslation.py *)
  ("SignalServiceTranslationEventProps", "createSignalServiceTranslationElementProps", mkCreator "SignalServiceTranslationElementProps" GAlways true (Some "elementProps") None RNew); (* line 160 *)
  ("SignalServiceTranslationProps", "createSignalServiceTranslationEventProps", mkCreator "SignalServiceTranslationEventProps" GAlways true (Some "signalServiceTranslationEventProps") None RNew); (* line 320 *)
  ("SignalServiceTranslationPropsSet", "createSignalServiceTranslationProps", mkCreator "SignalServiceTranslationProps" GAlways true (Some "signalServiceTranslationProps") None RNew); (* line 355 *)
  (* models/M2/AUTOSARTemplates/CommonStructure/MeasurementCalibrationSupport/__init__.py *)
  ("McDataInstance", "createSubElement", mkCreator "McDataInstance" (GScan "subElements") false (Some "subElements") None RNew); (* line 1330 *)
  ("McSupportData", "createMcParameterInstance", mkCreator "McDataInstance" (GScan "mcParameterInstances") false (Some "mcParameterInstances") None RNew); (* line 1447 *)
  ("McSupportData", "createMcVariableInstance", mkCreator "McDataInstance" (GScan "mcVariableInstances") false (Some "mcVariableInstances") None RNew); (* line 1474 *)
  (* models/M2/AUTOSARTemplates/CommonStructure/MeasurementCalibrationSupport/RptSupport/__init__.py *)
  ("RptExecutableEntity", "createRptExecutableEntityEvent", mkCreator "RptExecutableEntityEvent" (GScan "rptExecutableEntityEvents") false (Some "rptExecutableEntityEvents") None RNew); (* line 681 *)
  ("RptComponent", "createRptExecutableEntity", mkCreator "RptExecutableEntity" (GScan "rptExecutableEntities") false (Some "rptExecutableEntities") None RNew); (* line 864 *)
  ("RptSupportData", "createExecutionContext", mkCreator "RptExecutionContext" (GScan "executionContexts") false (Some "executionContexts") None RNew); (* line 923 *)
  ("RptSupportData", "createRptComponent", mkCreator "RptComponent" (GScan "rptComponents") false (Some "rptComponents") None RNew); (* line 950 *)
  ("RptSupportData", "createRptServicePoint", mkCreator "RptServicePoint" (GScan "rptServicePoints") false (Some "rptServicePoints") None RNew); (* line 977 *)
  (* models/M2/AUTOSARTemplates/CommonStructure/ResourceConsumption/__init__.py *)
  ("ResourceConsumption", "createAnalyzedExecutionTime", mkCreator "AnalyzedExecutionTime" GAlways true (Some "executionTimes") None RGet); (* line 300 *)
  ("ResourceConsumption", "createMeasuredExecutionTime", mkCreator "MeasuredExecutionTime" GAlways true (Some "executionTimes") None RGet); (* line 316 *)
  ("ResourceConsumption", "createRoughEstimateOfExecutionTime", mkCreator "RoughEstimateOfExecutionTime" GAlways true (Some "executionTimes") None RGet); (* line 332 *)
  ("ResourceConsumption", "createSimulatedExecutionTime", mkCreator "SimulatedExecutionTime" GAlways true (Some "executionTimes") None RGet); (* line 348 *)
  ("ResourceConsumption", "createMeasuredHeapUsage", mkCreator "MeasuredHeapUsage" GAlways true (Some "heapUsages") None RGet); (* line 375 *)
  ("ResourceConsumption", "createRoughEstimateHeapUsage", mkCreator "RoughEstimateHeapUsage" GAlways true (Some "heapUsages") None RGet); (* line 391 *)
  ("ResourceConsumption", "createWorstCaseHeapUsage", mkCreator "WorstCaseHeapUsage" GAlways true (Some "heapUsages") None RGet); (* line 407 *)
  ("ResourceConsumption", "createMemorySection", mkCreator "MemorySection" GAlways true (Some "memorySections") None RGet); (* line 432 *)
  ("ResourceConsumption", "createSectionNamePrefix", mkCreator "SectionNamePrefix" GAlways true (Some "sectionNamePrefixes") None RGet); (* line 469 *)
  ("ResourceConsumption", "createMeasuredStackUsage", mkCreator "MeasuredStackUsage" GAlways true (Some "stackUsages") None RGet); (* line 494 *)
  ("ResourceConsumption", "createRoughEstimateStackUsage", mkCreator "RoughEstimateStackUsage" GAlways true (Some "stackUsages") None RGet); (* line 510 *)
  ("ResourceConsumption", "createWorstCaseStackUsage", mkCreator "WorstCaseStackUsage" GAlways true (Some "stackUsages") None RGet); (* line 526 *)
  (* models/M2/AUTOSARTemplates/CommonStructure/StandardizationTemplate/Keyword.py *)
  ("KeywordSet", "createKeyword", mkCreator "Keyword" GUntyped true (Some "keywords") None RGet); (* line 124 *)
  (* models/M2/AUTOSARTemplates/CommonStructure/Timing/TimingConstraint/ExecutionOrderConstraint.py *)
  ("ExecutionOrderConstraint", "createEOCExecutableEntityRef", mkCreator "EOCExecutableEntityRef" GUntyped true (Some "ordered_elements") None RGetTyped); (* line 90 *)
  (* models/M2/AUTOSARTemplates/CommonStructure/Timing/TimingConstraint/TimingExtensions.py *)
  ("TimingExtension", "createExecutionOrderConstraint", mkCreator "ExecutionOrderConstraint" GUntyped true (Some "timing_requirements") None RGetTyped); (* line 43 *)
  (* models/M2/AUTOSARTemplates/EcuResourceTemplate/HwElementCategory.py *)
  ("HwAttributeDef", "createHwAttributeLiteral", mkCreator "HwAttributeLiteralDef" GUntyped true (Some "hwAttributeLiterals") None RGet); (* line 86 *)
  ("HwCategory", "createHwAttributeDef", mkCreator "HwAttributeDef" GUntyped true (Some "hwAttributeDefs") None RGet); (* line 154 *)
  (* models/M2/AUTOSARTemplates/EcuResourceTemplate/__init__.py *)
  ("HwPinGroupContent", "createHwPin", mkCreator "HwPin" GAlways false None (Some "hwPin") RNew); (* line 225 *)
  ("HwElement", "createHwPinGroup", mkCreator "HwPinGroup" (GScan "hwPinGroups") false (Some "hwPinGroups") None RNew); (* line 592 *)
  (* models/M2/AUTOSARTemplates/GenericStructure/GeneralTemplateClasses/ARPackage.py *)
  ("ARPackage", "createEcuAbstractionSwComponentType", mkCreator "EcuAbstractionSwComponentType" GTyped true None None RGetTyped); (* line 749 *)
  ("ARPackage", "createApplicationSwComponentType", mkCreator "ApplicationSwComponentType" GTyped true None None RGetTyped); (* line 755 *)
  ("ARPackage", "createComplexDeviceDriverSwComponentType", mkCreator "ComplexDeviceDriverSwComponentType" GTyped true None None RGetTyped); (* line 775 *)
  ("ARPackage", "createServiceSwComponentType", mkCreator "ServiceSwComponentType" GTyped true None None RGetTyped); (* line 781 *)
  ("ARPackage", "createSensorActuatorSwComponentType", mkCreator "SensorActuatorSwComponentType" GTyped true None None RGetTyped); (* line 787 *)
  ("ARPackage", "createNvBlockSwComponentType", mkCreator "NvBlockSwComponentType" GTyped true None None RGetTyped); (* line 793 *)
  ("ARPackage", "createServiceProxySwComponentType", mkCreator "ServiceProxySwComponentType" GTyped true None None RGetTyped); (* line 799 *)
  ("ARPackage", "createCompositionSwComponentType", mkCreator "CompositionSwComponentType" GTyped true None None RGetTyped); (* line 805 *)
  ("ARPackage", "createSenderReceiverInterface", mkCreator "SenderReceiverInterface" GTyped true None None RGetTyped); (* line 811 *)
  ("ARPackage", "createParameterInterface", mkCreator "ParameterInterface" GTyped true None None RGetTyped); (* line 831 *)
  ("ARPackage", "createNvDataInterface", mkCreator "NvDataInterface" GTyped true None None RGetTyped); (* line 837 *)
  ("ARPackage", "createGenericEthernetFrame", mkCreator "GenericEthernetFrame" GTyped true None None RGetTyped); (* line 843 *)
  ("ARPackage", "createLifeCycleInfoSet", mkCreator "LifeCycleInfoSet" GTyped true None None RGetTyped); (* line 849 *)
  ("ARPackage", "createDocumentation", mkCreator "Documentation" GTyped true None None RGetTyped); (* line 855 *)
  ("ARPackage", "createClientServerInterface", mkCreator "ClientServerInterface" GTyped true None None RGetTyped); (* line 861 *)
  ("ARPackage", "createApplicationPrimitiveDataType", mkCreator "ApplicationPrimitiveDataType" GTyped true None None RGetTyped); (* line 867 *)
  ("ARPackage", "createApplicationRecordDataType", mkCreator "ApplicationRecordDataType" GTyped true None None RGetTyped); (* line 873 *)
  ("ARPackage", "createImplementationDataType", mkCreator "ImplementationDataType" GTyped true None None RGetTyped); (* line 879 *)
  ("ARPackage", "createSwBaseType", mkCreator "SwBaseType" GTyped true None None RGetTyped); (* line 899 *)
  ("ARPackage", "createDataTypeMappingSet", mkCreator "DataTypeMappingSet" GTyped true None None RGetTyped); (* line 905 *)
  ("ARPackage", "createCompuMethod", mkCreator "CompuMethod" GTyped true None None RGetTyped); (* line 911 *)
  ("ARPackage", "createBswModuleDescription", mkCreator "BswModuleDescription" GTyped true None None RGetTyped); (* line 917 *)
  ("ARPackage", "createBswModuleEntry", mkCreator "BswModuleEntry" GTyped true None None RGetTyped); (* line 937 *)
  ("ARPackage", "createBswImplementation", mkCreator "BswImplementation" GTyped true None None RGetTyped); (* line 943 *)
  ("ARPackage", "createSwcImplementation", mkCreator "SwcImplementation" GTyped true None None RGetTyped); (* line 949 *)
  ("ARPackage", "createSwcBswMapping", mkCreator "SwcBswMapping" GTyped true None None RGetTyped); (* line 955 *)
  ("ARPackage", "createMcFunction", mkCreator "McFunction" GTyped true None None RGetTyped); (* line 961 *)
  ("ARPackage", "createMcGroup", mkCreator "McGroup" GTyped true None None RGetTyped); (* line 977 *)
  ("ARPackage", "createConstantSpecification", mkCreator "ConstantSpecification" GTyped true None None RGetTyped); (* line 993 *)
  ("ARPackage", "createDataConstr", mkCreator "DataConstr" GTyped true None None RGetTyped); (* line 999 *)
  ("ARPackage", "createUnit", mkCreator "Unit" GTyped true None None RGetTyped); (* line 1005 *)
  ("ARPackage", "createEndToEndProtectionSet", mkCreator "EndToEndProtectionSet" GTyped true None None RGetTyped); (* line 1011 *)
  ("ARPackage", "createApplicationArrayDataType", mkCreator "ApplicationArrayDataType" GTyped true None None RGetTyped); (* line 1017 *)
  ("ARPackage", "createSwRecordLayout", mkCreator "SwRecordLayout" GTyped true None None RGetTyped); (* line 1023 *)
  ("ARPackage", "createSwAddrMethod", mkCreator "SwAddrMethod" GTyped true None None RGetTyped); (* line 1029 *)
  ("ARPackage", "createTriggerInterface", mkCreator "TriggerInterface" GTyped true None None RGetTyped); (* line 1035 *)
  ("ARPackage", "createDataPrototypeGroup", mkCreator "DataPrototypeGroup" GTyped true None None RGetTyped); (* line 1041 *)
  ("ARPackage", "createRunnableEntityGroup", mkCreator "RunnableEntityGroup" GTyped true None None RGetTyped); (* line 1047 *)
  ("ARPackage", "createConsistencyNeeds", mkCreator "ConsistencyNeeds" GTyped true None None RGetTyped); (* line 1053 *)
  ("ARPackage", "createModeDeclarationGroup", mkCreator "ModeDeclarationGroup" GTyped true None None RGetTyped); (* line 1059 *)
  ("ARPackage", "createModeSwitchInterface", mkCreator "ModeSwitchInterface" GTyped true None None RGetTyped); (* line 1065 *)
  ("ARPackage", "createSwcTiming", mkCreator "SwcTiming" GTyped true None None RGetTyped); (* line 1071 *)
  ("ARPackage", "createLinCluster", mkCreator "LinCluster" GTyped true None None RGetTyped); (* line 1077 *)
  ("ARPackage", "createCanCluster", mkCreator "CanCluster" GTyped true None None RGetTyped); (* line 1083 *)
  ("ARPackage", "createLinUnconditionalFrame", mkCreator "LinUnconditionalFrame" GTyped true None None RGetTyped); (* line 1089 *)
  ("ARPackage", "createNmPdu", mkCreator "NmPdu" GTyped true None None RGetTyped); (* line 1095 *)
  ("ARPackage", "createNPdu", mkCreator "NPdu" GTyped true None None RGetTyped); (* line 1101 *)
  ("ARPackage", "createDcmIPdu", mkCreator "DcmIPdu" GTyped true None None RGetTyped); (* line 1107 *)
  ("ARPackage", "createSecuredIPdu", mkCreator "SecuredIPdu" GTyped true None None RGetTyped); (* line 1113 *)
  ("ARPackage", "createNmConfig", mkCreator "NmConfig" GTyped true None None RGetTyped); (* line 1119 *)
  ("ARPackage", "createCanTpConfig", mkCreator "CanTpConfig" GTyped true None None RGetTyped); (* line 1125 *)
  ("ARPackage", "createLinTpConfig", mkCreator "LinTpConfig" GTyped true None None RGetTyped); (* line 1131 *)
  ("ARPackage", "createCanFrame", mkCreator "CanFrame" GTyped true None None RGetTyped); (* line 1137 *)
  ("ARPackage", "createEcuInstance", mkCreator "EcuInstance" GTyped true None None RGetTyped); (* line 1156 *)
  ("ARPackage", "createGateway", mkCreator "Gateway" GTyped true None None RGetTyped); (* line 1176 *)
  ("ARPackage", "createISignal", mkCreator "ISignal" GTyped true None None RGetTyped); (* line 1182 *)
  ("ARPackage", "createSystemSignal", mkCreator "SystemSignal" GTyped true None None RGetTyped); (* line 1188 *)
  ("ARPackage", "createSystemSignalGroup", mkCreator "SystemSignalGroup" GTyped true None None RGetTyped); (* line 1208 *)
  ("ARPackage", "createSignalServiceTranslationPropsSet", mkCreator "SignalServiceTranslationPropsSet" GTyped true None None RGetTyped); (* line 1214 *)
  ("ARPackage", "createISignalIPdu", mkCreator "ISignalIPdu" GTyped true None None RGetTyped); (* line 1220 *)
  ("ARPackage", "createEcucValueCollection", mkCreator "EcucValueCollection" GTyped true None None RGetTyped); (* line 1226 *)
  ("ARPackage", "createEcucModuleConfigurationValues", mkCreator "EcucModuleConfigurationValues" GTyped true None None RGetTyped); (* line 1232 *)
  ("ARPackage", "createEcucModuleDef", mkCreator "EcucModuleDef" GTyped true None None RGetTyped); (* line 1238 *)
  ("ARPackage", "createEcucDefinitionCollection", mkCreator "EcucDefinitionCollection" GTyped true None None RGetTyped); (* line 1244 *)
  ("ARPackage", "createEcucDestinationUriDefSet", mkCreator "EcucDestinationUriDefSet" GTyped true None None RGetTyped); (* line 1250 *)
  ("ARPackage", "createSwSystemConst", mkCreator "SwSystemconst" GTyped true None None RGetTyped); (* line 1256 *)
  ("ARPackage", "createSwSystemconstantValueSet", mkCreator "SwSystemconstantValueSet" GTyped true None None RGetTyped); (* line 1262 *)
  ("ARPackage", "createPredefinedVariant", mkCreator "PredefinedVariant" GTyped true None None RGetTyped); (* line 1268 *)
  ("ARPackage", "createPostBuildVariantCriterion", mkCreator "PostBuildVariantCriterion" GTyped true None None RGetTyped); (* line 1274 *)
  ("ARPackage", "createPhysicalDimension", mkCreator "PhysicalDimension" GTyped true None None RGetTyped); (* line 1280 *)
  ("ARPackage", "createISignalGroup", mkCreator "ISignalGroup" GTyped true None None RGetTyped); (* line 1286 *)
  ("ARPackage", "createISignalIPduGroup", mkCreator "ISignalIPduGroup" GTyped true None None RGetTyped); (* line 1292 *)
  ("ARPackage", "createSystem", mkCreator "System" GTyped true None None RGetTyped); (* line 1298 *)
  ("ARPackage", "createFlatMap", mkCreator "FlatMap" GTyped true None None RGetTyped); (* line 1304 *)
  ("ARPackage", "createPortInterfaceMappingSet", mkCreator "PortInterfaceMappingSet" GTyped true None None RGetTyped); (* line 1310 *)
  ("ARPackage", "createEthernetCluster", mkCreator "EthernetCluster" GTyped true None None RGetTyped); (* line 1316 *)
  ("ARPackage", "createDiagnosticConnection", mkCreator "DiagnosticConnection" GTyped true None None RGetTyped); (* line 1322 *)
  ("ARPackage", "createDiagnosticServiceTable", mkCreator "DiagnosticServiceTable" GTyped true None None RGetTyped); (* line 1328 *)
  ("ARPackage", "createMultiplexedIPdu", mkCreator "MultiplexedIPdu" GTyped true None None RGetTyped); (* line 1348 *)
  ("ARPackage", "createUserDefinedIPdu", mkCreator "UserDefinedIPdu" GTyped true None None RGetTyped); (* line 1354 *)
  ("ARPackage", "createUserDefinedPdu", mkCreator "UserDefinedPdu" GTyped true None None RGetTyped); (* line 1360 *)
  ("ARPackage", "createGeneralPurposeIPdu", mkCreator "GeneralPurposeIPdu" GTyped true None None RGetTyped); (* line 1366 *)
  ("ARPackage", "createGeneralPurposePdu", mkCreator "GeneralPurposePdu" GTyped true None None RGetTyped); (* line 1372 *)
  ("ARPackage", "createSecureCommunicationPropsSet", mkCreator "SecureCommunicationPropsSet" GTyped true None None RGetTyped); (* line 1378 *)
  ("ARPackage", "createSoAdRoutingGroup", mkCreator "SoAdRoutingGroup" GTyped true None None RGetTyped); (* line 1384 *)
  ("ARPackage", "createDoIpTpConfig", mkCreator "DoIpTpConfig" GTyped true None None RGetTyped); (* line 1390 *)
  ("ARPackage", "createHwElement", mkCreator "HwElement" GTyped true None None RGetTyped); (* line 1396 *)
  ("ARPackage", "createHwCategory", mkCreator "HwCategory" GTyped true None None RGetTyped); (* line 1402 *)
  ("ARPackage", "createHwType", mkCreator "HwType" GTyped true None None RGetTyped); (* line 1408 *)
  ("ARPackage", "createFlexrayFrame", mkCreator "FlexrayFrame" GTyped true None None RGetTyped); (* line 1414 *)
  ("ARPackage", "createFlexrayCluster", mkCreator "FlexrayCluster" GTyped true None None RGetTyped); (* line 1420 *)
  ("ARPackage", "createDataTransformationSet", mkCreator "DataTransformationSet" GTyped true None None RGetTyped); (* line 1426 *)
  ("ARPackage", "createE2EProfileCompatibilityProps", mkCreator "E2EProfileCompatibilityProps" GTyped true None None RGetTyped); (* line 1432 *)
  ("ARPackage", "createCollection", mkCreator "Collection" GTyped true None None RGetTyped); (* line 1438 *)
  ("ARPackage", "createKeywordSet", mkCreator "KeywordSet" GTyped true None None RGetTyped); (* line 1444 *)
  ("ARPackage", "createPortPrototypeBlueprint", mkCreator "PortPrototypeBlueprint" GTyped true None None RGetTyped); (* line 1450 *)
  ("ARPackage", "createModeDeclarationMappingSet", mkCreator "ModeDeclarationMappingSet" GTyped true None None RGetTyped); (* line 1456 *)
  (* models/M2/AUTOSARTemplates/SWComponentTemplate/EndToEndProtection.py *)
  ("EndToEndProtectionSet", "createEndToEndProtection", mkCreator "EndToEndProtection" GUntyped true None None RGetTyped); (* line 513 *)
  (* models/M2/AUTOSARTemplates/SWComponentTemplate/SoftwareComponentDocumentation.py *)
  ("SwComponentDocumentation", "createChapter", mkCreator "Chapter" (GScan "chapters") false (Some "chapters") None RNew); (* line 72 *)
  ("SwComponentDocumentation", "createSwCalibrationNotes", mkCreator "Chapter" (GUnset "swCalibrationNotes") false None (Some "swCalibrationNotes") (RAttr "swCalibrationNotes")); (* line 100 *)
  ("SwComponentDocumentation", "createSwCarbDoc", mkCreator "Chapter" (GUnset "swCarbDoc") false None (Some "swCarbDoc") (RAttr "swCarbDoc")); (* line 125 *)
  ("SwComponentDocumentation", "createSwDiagnosticsNotes", mkCreator "Chapter" (GUnset "swDiagnosticsNotes") false None (Some "swDiagnosticsNotes") (RAttr "swDiagnosticsNotes")); (* line 150 *)
  ("SwComponentDocumentation", "createSwFeatureDef", mkCreator "Chapter" (GUnset "swFeatureDef") false None (Some "swFeatureDef") (RAttr "swFeatureDef")); (* line 175 *)
  ("SwComponentDocumentation", "createSwFeatureDesc", mkCreator "Chapter" (GUnset "swFeatureDesc") false None (Some "swFeatureDesc") (RAttr "swFeatureDesc")); (* line 200 *)
  ("SwComponentDocumentation", "createSwMaintenanceNotes", mkCreator "Chapter" (GUnset "swMaintenanceNotes") false None (Some "swMaintenanceNotes") (RAttr "swMaintenanceNotes")); (* line 225 *)
  ("SwComponentDocumentation", "createSwTestDesc", mkCreator "Chapter" (GUnset "swTestDesc") false None (Some "swTestDesc") (RAttr "swTestDesc")); (* line 250 *)
  (* models/M2/AUTOSARTemplates/SWComponentTemplate/SwComponentType.py *)
  ("SwComponentType", "createConsistencyNeeds", mkCreator "ConsistencyNeeds" GTyped true (Some "consistencyNeeds") None RGetTyped); (* line 81 *)
  ("SwComponentType", "createPPortPrototype", mkCreator "PPortPrototype" GTyped true (Some "ports") None RGetTyped); (* line 109 *)
  ("SwComponentType", "createRPortPrototype", mkCreator "RPortPrototype" GTyped true (Some "ports") None RGetTyped); (* line 128 *)
  ("SwComponentType", "createPRPortPrototype", mkCreator "PRPortPrototype" GTyped true (Some "ports") None RGetTyped); (* line 147 *)
  ("SwComponentType", "createPortGroup", mkCreator "PortGroup" GTyped true (Some "portGroups") None RGetTyped); (* line 219 *)
  (* models/M2/AUTOSARTemplates/SWComponentTemplate/Components/__init__.py *)
  ("AtomicSwComponentType", "createSwcInternalBehavior", mkCreator "SwcInternalBehavior" GTyped true None (Some "internalBehavior") RGetTyped); (* line 542 *)
  ("AtomicSwComponentType", "createSymbolProps", mkCreator "SymbolProps" GTyped true None (Some "symbolProps") RGetTyped); (* line 569 *)
  ("NvBlockSwComponentType", "createBulkNvDataDescriptor", mkCreator "BulkNvDataDescriptor" GTyped true (Some "bulkNvDataDescriptors") None RGetTyped); (* line 725 *)
  ("NvBlockSwComponentType", "createNvBlockDescriptor", mkCreator "NvBlockDescriptor" GTyped true (Some "nvBlockDescriptors") None RGetTyped); (* line 755 *)
  (* models/M2/AUTOSARTemplates/SWComponentTemplate/Composition/__init__.py *)
  ("CompositionSwComponentType", "createSwComponentPrototype", mkCreator "SwComponentPrototype" GUntyped true (Some "components") None RGetTyped); (* line 386 *)
  ("CompositionSwComponentType", "createAssemblySwConnector", mkCreator "AssemblySwConnector" GUntyped true (Some "connectors") None RGetTyped); (* line 412 *)
  ("CompositionSwComponentType", "createDelegationSwConnector", mkCreator "DelegationSwConnector" GUntyped true (Some "connectors") None RGetTyped); (* line 429 *)
  ("CompositionSwComponentType", "createPassThroughSwConnector", mkCreator "PassThroughSwConnector" GUntyped true (Some "connectors") None RGetTyped); (* line 446 *)
  (* models/M2/AUTOSARTemplates/SWComponentTemplate/Datatype/Datatypes.py *)
  ("ApplicationArrayDataType", "createApplicationArrayElement", mkCreator "ApplicationArrayElement" GUntyped true None (Some "element") RGetTyped); (* line 176 *)
  ("ApplicationRecordDataType", "createApplicationRecordElement", mkCreator "ApplicationRecordElement" GUntyped true (Some "record_elements") None RGetTyped); (* line 209 *)
  (* models/M2/AUTOSARTemplates/SWComponentTemplate/ImplicitCommunicationBehavior/__init__.py *)
  ("ConsistencyNeeds", "createDpgDoesNotRequireCoherency", mkCreator "DataPrototypeGroup" GUntyped true (Some "dpgDoesNotRequireCoherency") None RGetTyped); (* line 238 *)
  ("ConsistencyNeeds", "createDpgRequiresCoherency", mkCreator "DataPrototypeGroup" GUntyped true (Some "dpgRequiresCoherency") None RGetTyped); (* line 267 *)
  ("ConsistencyNeeds", "createRegDoesNotRequireStability", mkCreator "RunnableEntityGroup" GUntyped true (Some "regDoesNotRequireStability") None RGetTyped); (* line 302 *)
  ("ConsistencyNeeds", "createRegRequiresStability", mkCreator "RunnableEntityGroup" GUntyped true (Some "regRequiresStability") None RGetTyped); (* line 331 *)
  (* models/M2/AUTOSARTemplates/SWComponentTemplate/PortInterface/__init__.py *)
  ("NvDataInterface", "createNvData", mkCreator "VariableDataPrototype" GTyped true None None RGetTyped); (* line 172 *)
  ("ParameterInterface", "createParameterDataPrototype", mkCreator "ParameterDataPrototype" GAlways true (Some "parameters") None RNew); (* line 198 *)
  ("SenderReceiverInterface", "createDataElement", mkCreator "VariableDataPrototype" GUntyped true None None RGetTyped); (* line 325 *)
  ("ClientServerOperation", "createArgumentDataPrototype", mkCreator "ArgumentDataPrototype" GUntyped true (Some "arguments") None RGetTyped); (* line 560 *)
  ("ClientServerInterface", "createOperation", mkCreator "ClientServerOperation" GUntyped true (Some "operations") None RGetTyped); (* line 678 *)
  ("ClientServerInterface", "createApplicationError", mkCreator "ApplicationError" GUntyped true (Some "possibleErrors") None RGetTyped); (* line 704 *)
  ("ModeDeclarationMappingSet", "createModeDeclarationMapping", mkCreator "ModeDeclarationMapping" GUntyped true (Some "modeDeclarationMappings") None RGet); (* line 1287 *)
  ("PortInterfaceMappingSet", "createVariableAndParameterInterfaceMapping", mkCreator "VariableAndParameterInterfaceMapping" GUntyped true (Some "portInterfaceMappings") None RGet); (* line 1312 *)
  ("PortInterfaceMappingSet", "createClientServerInterfaceMapping", mkCreator "ClientServerInterfaceMapping" GUntyped true (Some "portInterfaceMappings") None RGet); (* line 1319 *)
  ("PortInterfaceMappingSet", "createModeInterfaceMapping", mkCreator "ModeInterfaceMapping" GUntyped true (Some "portInterfaceMappings") None RGet); (* line 1326 *)
  ("PortInterfaceMappingSet", "createTriggerInterfaceMapping", mkCreator "TriggerInterfaceMapping" GUntyped true (Some "portInterfaceMappings") None RGet); (* line 1333 *)
  (* models/M2/AUTOSARTemplates/SWComponentTemplate/SwcInternalBehavior/ServiceMapping.py *)
  ("SwcServiceDependency", "createNvBlockNeeds", mkCreator "NvBlockNeeds" GUntyped true None (Some "serviceNeeds") RGet); (* line 218 *)
  ("SwcServiceDependency", "createDiagnosticCommunicationManagerNeeds", mkCreator "DiagnosticCommunicationManagerNeeds" GUntyped true None (Some "serviceNeeds") RGet); (* line 234 *)
  ("SwcServiceDependency", "createDiagnosticRoutineNeeds", mkCreator "DiagnosticRoutineNeeds" GUntyped true None (Some "serviceNeeds") RGet); (* line 251 *)
  ("SwcServiceDependency", "createDiagnosticValueNeeds", mkCreator "DiagnosticValueNeeds" GUntyped true None (Some "serviceNeeds") RGet); (* line 267 *)
  ("SwcServiceDependency", "createDiagnosticEventNeeds", mkCreator "DiagnosticEventNeeds" GUntyped true None (Some "serviceNeeds") RGet); (* line 283 *)
  ("SwcServiceDependency", "createDiagnosticEventInfoNeeds", mkCreator "DiagnosticEventInfoNeeds" GUntyped true None (Some "serviceNeeds") RGet); (* line 299 *)
  ("SwcServiceDependency", "createCryptoServiceNeeds", mkCreator "CryptoServiceNeeds" GUntyped true None (Some "serviceNeeds") RGet); (* line 315 *)
  ("SwcServiceDependency", "createEcuStateMgrUserNeeds", mkCreator "EcuStateMgrUserNeeds" GUntyped true None (Some "serviceNeeds") RGet); (* line 331 *)
  ("SwcServiceDependency", "createDtcStatusChangeNotificationNeeds", mkCreator "DtcStatusChangeNotificationNeeds" GUntyped true None (Some "serviceNeeds") RGet); (* line 347 *)
  ("SwcServiceDependency", "createDiagnosticIoControlNeeds", mkCreator "DiagnosticIoControlNeeds" GUntyped true None (Some "serviceNeeds") RGet); (* line 364 *)
  ("SwcServiceDependency", "createDiagnosticEnableConditionNeeds", mkCreator "DiagnosticEnableConditionNeeds" GUntyped true None (Some "serviceNeeds") RGet); (* line 380 *)
  ("SwcServiceDependency", "createDiagnosticOperationCycleNeeds", mkCreator "DiagnosticOperationCycleNeeds" GUntyped true None (Some "serviceNeeds") RGet); (* line 396 *)
  ("SwcServiceDependency", "createDiagnosticStorageConditionNeeds", mkCreator "DiagnosticStorageConditionNeeds" GUntyped true None (Some "serviceNeeds") RGet); (* line 412 *)
  ("SwcServiceDependency", "createFunctionInhibitionAvailabilityNeeds", mkCreator "FunctionInhibitionAvailabilityNeeds" GUntyped true None (Some "serviceNeeds") RGet); (* line 428 *)
  ("SwcServiceDependency", "createIndicatorStatusNeeds", mkCreator "IndicatorStatusNeeds" GUntyped true None (Some "serviceNeeds") RGet); (* line 444 *)
  ("SwcServiceDependency", "createDltUserNeeds", mkCreator "DltUserNeeds" GUntyped true None (Some "serviceNeeds") RGet); (* line 460 *)
  ("SwcServiceDependency", "createComMgrUserNeeds", mkCreator "ComMgrUserNeeds" GUntyped true None (Some "serviceNeeds") RGet); (* line 476 *)
  ("SwcServiceDependency", "createErrorTracerNeeds", mkCreator "ErrorTracerNeeds" GUntyped true None (Some "serviceNeeds") RGet); (* line 492 *)
  ("SwcServiceDependency", "createObdInfoServiceNeeds", mkCreator "ObdInfoServiceNeeds" GUntyped true None (Some "serviceNeeds") RGet); (* line 508 *)
  ("SwcServiceDependency", "createObdMonitorServiceNeeds", mkCreator "ObdMonitorServiceNeeds" GUntyped true None (Some "serviceNeeds") RGet); (* line 524 *)
  ("SwcServiceDependency", "createObdPidServiceNeeds", mkCreator "ObdPidServiceNeeds" GUntyped true None (Some "serviceNeeds") RGet); (* line 540 *)
  ("SwcServiceDependency", "createObdControlServiceNeeds", mkCreator "ObdControlServiceNeeds" GUntyped true None (Some "serviceNeeds") RGet); (* line 556 *)
  ("SwcServiceDependency", "createObdRatioServiceNeeds", mkCreator "ObdRatioServiceNeeds" GUntyped true None (Some "serviceNeeds") RGet); (* line 572 *)
  ("SwcServiceDependency", "createObdRatioDenominatorNeeds", mkCreator "ObdRatioDenominatorNeeds" GUntyped true None (Some "serviceNeeds") RGet); (* line 588 *)
  ("SwcServiceDependency", "createDoIpRoutingActivationAuthenticationNeeds", mkCreator "DoIpRoutingActivationAuthenticationNeeds" GUntyped true None (Some "serviceNeeds") RGet); (* line 604 *)
  ("SwcServiceDependency", "createDoIpRoutingActivationConfirmationNeeds", mkCreator "DoIpRoutingActivationConfirmationNeeds" GUntyped true None (Some "serviceNeeds") RGet); (* line 620 *)
  ("SwcServiceDependency", "createSecureOnBoardCommunicationNeeds", mkCreator "SecureOnBoardCommunicationNeeds" GUntyped true None (Some "serviceNeeds") RGet); (* line 636 *)
  ("SwcServiceDependency", "createIdsMgrNeeds", mkCreator "IdsMgrNeeds" GUntyped true None (Some "serviceNeeds") RGet); (* line 652 *)
  (* models/M2/AUTOSARTemplates/SWComponentTemplate/SwcInternalBehavior/Trigger.py *)
  ("ExternalTriggeringPoint", "createIdent", mkCreator "ExternalTriggeringPointIdent" (GUnset "ident") false None (Some "ident") (RAttr "ident")); (* line 100 *)
  (* models/M2/AUTOSARTemplates/SWComponentTemplate/SwcInternalBehavior/__init__.py *)
  ("RunnableEntity", "createDataReadAccess", mkCreator "VariableAccess" GUntyped true (Some "dataReadAccesses") None RGetTyped); (* line 284 *)
  ("RunnableEntity", "createDataWriteAccess", mkCreator "VariableAccess" GUntyped true (Some "dataWriteAccesses") None RGetTyped); (* line 307 *)
  ("RunnableEntity", "createDataReceivePointByArgument", mkCreator "VariableAccess" GUntyped true (Some "dataReceivePointByArguments") None RGetTyped); (* line 330 *)
  ("RunnableEntity", "createDataReceivePointByValue", mkCreator "VariableAccess" GUntyped true (Some "dataReceivePointByValues") None RGetTyped); (* line 355 *)
  ("RunnableEntity", "createDataSendPoint", mkCreator "VariableAccess" GUntyped true (Some "dataSendPoints") None RGetTyped); (* line 380 *)
  ("RunnableEntity", "createReadLocalVariable", mkCreator "VariableAccess" GUntyped true (Some "readLocalVariables") None RGetTyped); (* line 403 *)
  ("RunnableEntity", "createWrittenLocalVariable", mkCreator "VariableAccess" GUntyped true (Some "writtenLocalVariables") None RGetTyped); (* line 426 *)
  ("RunnableEntity", "createParameterAccess", mkCreator "ParameterAccess" GUntyped true None None RGet); (* line 459 *)
  ("RunnableEntity", "createSynchronousServerCallPoint", mkCreator "SynchronousServerCallPoint" GAlways true None None RGet); (* line 475 *)
  ("RunnableEntity", "createAsynchronousServerCallPoint", mkCreator "AsynchronousServerCallPoint" GAlways true None None RGetTyped); (* line 491 *)
  ("RunnableEntity", "createAsynchronousServerCallResultPoint", mkCreator "AsynchronousServerCallResultPoint" GAlways true None None RGet); (* line 507 *)
  ("RunnableEntity", "createInternalTriggeringPoint", mkCreator "InternalTriggeringPoint" GUntyped true None None RGetTyped); (* line 563 *)
  ("RunnableEntity", "createModeSwitchPoint", mkCreator "ModeSwitchPoint" GUntyped true (Some "modeSwitchPoints") None RGetTyped); (* line 647 *)
  ("RunnableEntity", "createWaitPoint", mkCreator "WaitPoint" GUntyped true (Some "waitPoints") None RGetTyped); (* line 688 *)
  ("SwcInternalBehavior", "createArTypedPerInstanceMemory", mkCreator "VariableDataPrototype" GUntyped true (Some "arTypedPerInstanceMemories") None RGet); (* line 913 *)
  ("SwcInternalBehavior", "createExplicitInterRunnableVariable", mkCreator "VariableDataPrototype" GUntyped true (Some "explicitInterRunnableVariables") None RGet); (* line 925 *)
  ("SwcInternalBehavior", "createImplicitInterRunnableVariable", mkCreator "VariableDataPrototype" GUntyped true (Some "implicitInterRunnableVariables") None RGet); (* line 951 *)
  ("SwcInternalBehavior", "createPerInstanceMemory", mkCreator "PerInstanceMemory" GUntyped true (Some "perInstanceMemories") None RGet); (* line 963 *)
  ("SwcInternalBehavior", "createPerInstanceParameter", mkCreator "ParameterDataPrototype" GUntyped true (Some "perInstanceParameters") None RGet); (* line 975 *)
  ("SwcInternalBehavior", "createSharedParameter", mkCreator "ParameterDataPrototype" GUntyped true (Some "sharedParameters") None RGet); (* line 987 *)
  ("SwcInternalBehavior", "createOperationInvokedEvent", mkCreator "OperationInvokedEvent" GUntyped true None None RGetTyped); (* line 1050 *)
  ("SwcInternalBehavior", "createTimingEvent", mkCreator "TimingEvent" GUntyped true None None RGetTyped); (* line 1057 *)
  ("SwcInternalBehavior", "createInitEvent", mkCreator "InitEvent" GUntyped true None None RGetTyped); (* line 1064 *)
  ("SwcInternalBehavior", "createAsynchronousServerCallReturnsEvent", mkCreator "AsynchronousServerCallReturnsEvent" GUntyped true None None RGetTyped); (* line 1071 *)
  ("SwcInternalBehavior", "createDataReceivedEvent", mkCreator "DataReceivedEvent" GUntyped true None None RGetTyped); (* line 1078 *)
  ("SwcInternalBehavior", "createSwcModeSwitchEvent", mkCreator "SwcModeSwitchEvent" GUntyped true None None RGetTyped); (* line 1085 *)
  ("SwcInternalBehavior", "createInternalTriggerOccurredEvent", mkCreator "InternalTriggerOccurredEvent" GUntyped true None None RGetTyped); (* line 1092 *)
  ("SwcInternalBehavior", "createModeSwitchedAckEvent", mkCreator "ModeSwitchedAckEvent" GUntyped true None None RGetTyped); (* line 1099 *)
  ("SwcInternalBehavior", "createBackgroundEvent", mkCreator "BackgroundEvent" GUntyped true None None RGetTyped); (* line 1106 *)
  ("SwcInternalBehavior", "createDataSendCompletedEvent", mkCreator "DataSendCompletedEvent" GUntyped true None None RGetTyped); (* line 1113 *)
  ("SwcInternalBehavior", "createSwcServiceDependency", mkCreator "SwcServiceDependency" GUntyped true None None RGetTyped); (* line 1120 *)
  ("SwcInternalBehavior", "createRunnableEntity", mkCreator "RunnableEntity" GUntyped true None None RGet); (* line 1179 *)
  (* models/M2/AUTOSARTemplates/SystemTemplate/NetworkManagement.py *)
  ("NmConfig", "createCanNmCluster", mkCreator "CanNmCluster" GAlways true None None RGet); (* line 985 *)
  ("NmConfig", "createUdpNmCluster", mkCreator "UdpNmCluster" GAlways true None None RGet); (* line 991 *)
  ("NmConfig", "createNmEcu", mkCreator "NmEcu" GAlways true (Some "nmIfEcus") None RGet); (* line 1016 *)
  ("NmCluster", "createCanNmNode", mkCreator "CanNmNode" GAlways true (Some "nmNodes") None RGet); (* line 1094 *)
  ("NmCluster", "createJ1939NmNode", mkCreator "J1939NmNode" GAlways true (Some "nmNodes") None RGet); (* line 1108 *)
  (* models/M2/AUTOSARTemplates/SystemTemplate/TransportProtocols.py *)
  ("TpConnection", "createTpConnectionIdent", mkCreator "TpConnectionIdent" GAlways false None (Some "ident") RNew); (* line 153 *)
  ("CanTpConfig", "createCanTpAddress", mkCreator "CanTpAddress" GUntyped true (Some "tpAddresses") None RGet); (* line 500 *)
  ("CanTpConfig", "createCanTpChannel", mkCreator "CanTpChannel" GUntyped true (Some "tpChannels") None RGet); (* line 510 *)
  ("CanTpConfig", "createCanTpNode", mkCreator "CanTpNode" GUntyped true (Some "tpNodes") None RGet); (* line 536 *)
  ("DoIpTpConfig", "createDoIpLogicAddress", mkCreator "DoIpLogicAddress" GUntyped true (Some "doIpLogicAddresses") None RGet); (* line 652 *)
  ("LinTpConfig", "createTpAddress", mkCreator "TpAddress" GUntyped true (Some "tpAddresses") None RGet); (* line 914 *)
  ("LinTpConfig", "createLinTpNode", mkCreator "LinTpNode" GUntyped true (Some "tpNodes") None RGet); (* line 932 *)
  (* models/M2/AUTOSARTemplates/SystemTemplate/__init__.py *)
  ("SystemMapping", "createECUMapping", mkCreator "ECUMapping" GAlways true (Some "ecuResourceMappings") None RGet); (* line 259 *)
  ("SystemMapping", "createSwcToImplMapping", mkCreator "SwcToImplMapping" GAlways true (Some "swImplMappings") None RGet); (* line 360 *)
  ("SystemMapping", "createSwcToEcuMapping", mkCreator "SwcToEcuMapping" GAlways true (Some "swMappings") None RGet); (* line 373 *)
  ("System", "createSystemMapping", mkCreator "SystemMapping" GUntyped true None None RGetTyped); (* line 600 *)
  ("System", "createRootSoftwareComposition", mkCreator "RootSwCompositionPrototype" GAlways true None (Some "rootSoftwareComposition") RGet); (* line 623 *)
  (* models/M2/AUTOSARTemplates/SystemTemplate/Fibex/Fibex4Ethernet/EthernetTopology.py *)
  ("EthernetCluster", "createMacMulticastGroup", mkCreator "MacMulticastGroup" GAlways true (Some "macMulticastGroups") None RGet); (* line 88 *)
  ("CouplingPortDetails", "createCouplingPortFifo", mkCreator "CouplingPortFifo" GAlways false (Some "couplingPortStructuralElements") None RNew); (* line 292 *)
  ("CouplingPortDetails", "createCouplingPortScheduler", mkCreator "CouplingPortScheduler" GAlways false (Some "couplingPortStructuralElements") None RNew); (* line 297 *)
  ("CouplingPortDetails", "createEthernetPriorityRegeneration", mkCreator "EthernetPriorityRegeneration" GAlways false (Some "ethernetPriorityRegenerations") None RNew); (* line 302 *)
  ("EthernetCommunicationController", "createCouplingPort", mkCreator "CouplingPort" GAlways true (Some "couplingPorts") None RGet); (* line 648 *)
  (* models/M2/AUTOSARTemplates/SystemTemplate/Fibex/Fibex4Ethernet/ServiceInstances.py *)
  ("ConsumedServiceInstance", "createConsumedEventGroup", mkCreator "ConsumedEventGroup" GAlways true (Some "consumedEventGroups") None RGet); (* line 497 *)
  ("ProvidedServiceInstance", "createEventHandler", mkCreator "EventHandler" GAlways true (Some "eventHandlers") None RGet); (* line 936 *)
  ("ApplicationEndpoint", "createConsumedServiceInstance", mkCreator "ConsumedServiceInstance" GAlways true (Some "consumedServiceInstances") None RGet); (* line 1163 *)
  ("ApplicationEndpoint", "createProvidedServiceInstance", mkCreator "ProvidedServiceInstance" GAlways true (Some "providedServiceInstances") None RGet); (* line 1194 *)
  ("SocketAddress", "createApplicationEndpoint", mkCreator "ApplicationEndpoint" GAlways false None (Some "applicationEndpoint") RNew); (* line 1286 *)
  ("SoAdConfig", "createSocketConnectionBundle", mkCreator "SocketConnectionBundle" GAlways false (Some "connectionBundles") None RNew); (* line 1396 *)
  ("SoAdConfig", "createSocketAddress", mkCreator "SocketAddress" GAlways false (Some "socketAddresses") None RNew); (* line 1408 *)
  (* models/M2/AUTOSARTemplates/SystemTemplate/Fibex/FibexCore/CoreCommunication.py *)
  ("Frame", "createPduToFrameMapping", mkCreator "PduToFrameMapping" GUntyped true (Some "pduToFrameMappings") None RGetTyped); (* line 123 *)
  ("NmPdu", "createISignalToIPduMapping", mkCreator "ISignalToIPduMapping" GUntyped true (Some "iSignalToIPduMappings") None RGetTyped); (* line 1001 *)
  ("ISignalIPdu", "createISignalToPduMappings", mkCreator "ISignalToIPduMapping" GUntyped true (Some "iSignalToPduMappings") None RGetTyped); (* line 1175 *)
  ("SecureCommunicationPropsSet", "createSecureCommunicationAuthenticationProps", mkCreator "SecureCommunicationAuthenticationProps" GTyped true (Some "authenticationProps") None RGetTyped); (* line 2050 *)
  ("SecureCommunicationPropsSet", "createSecureCommunicationFreshnessProps", mkCreator "SecureCommunicationFreshnessProps" GTyped true (Some "freshnessProps") None RGetTyped); (* line 2066 *)
  (* models/M2/AUTOSARTemplates/SystemTemplate/Fibex/FibexCore/CoreTopology.py *)
  ("PhysicalChannel", "createCanFrameTriggering", mkCreator "CanFrameTriggering" GAlways true (Some "frameTriggerings") None RGet); (* line 152 *)
  ("PhysicalChannel", "createLinFrameTriggering", mkCreator "LinFrameTriggering" GAlways true (Some "frameTriggerings") None RGet); (* line 159 *)
  ("PhysicalChannel", "createFlexrayFrameTriggering", mkCreator "FlexrayFrameTriggering" GAlways true (Some "frameTriggerings") None RGet); (* line 166 *)
  ("PhysicalChannel", "createISignalTriggering", mkCreator "ISignalTriggering" GAlways true None None RGet); (* line 176 *)
  ("PhysicalChannel", "createPduTriggering", mkCreator "PduTriggering" GAlways true None None RGet); (* line 192 *)
  ("LinPhysicalChannel", "createLinScheduleTable", mkCreator "LinScheduleTable" GAlways true (Some "scheduleTables") None RGet); (* line 261 *)
  ("EthernetPhysicalChannel", "createNetworkEndPoint", mkCreator "NetworkEndpoint" GAlways true (Some "networkEndpoints") None RGet); (* line 321 *)
  ("EthernetPhysicalChannel", "createVlanConfig", mkCreator "VlanConfig" GAlways true None (Some "vlan") RGet); (* line 338 *)
  ("CommunicationCluster", "createCanPhysicalChannel", mkCreator "CanPhysicalChannel" GAlways true (Some "physicalChannel") None RGet); (* line 469 *)
  ("CommunicationCluster", "createLinPhysicalChannel", mkCreator "LinPhysicalChannel" GAlways true (Some "physicalChannel") None RGet); (* line 479 *)
  ("CommunicationCluster", "createEthernetPhysicalChannel", mkCreator "EthernetPhysicalChannel" GAlways true (Some "physicalChannel") None RGet); (* line 489 *)
  ("CommunicationCluster", "createFlexrayPhysicalChannel", mkCreator "FlexrayPhysicalChannel" GAlways true (Some "physicalChannel") None RGet); (* line 499 *)
  ("CommunicationConnector", "createFramePort", mkCreator "FramePort" GAlways true (Some "ecuCommPortInstances") None RGet); (* line 1040 *)
  ("CommunicationConnector", "createIPduPort", mkCreator "IPduPort" GAlways true (Some "ecuCommPortInstances") None RGet); (* line 1047 *)
  ("CommunicationConnector", "createISignalPort", mkCreator "ISignalPort" GAlways true (Some "ecuCommPortInstances") None RGet); (* line 1054 *)
  (* models/M2/AUTOSARTemplates/SystemTemplate/Fibex/FibexCore/EcuInstance.py *)
  ("EcuInstance", "createCanCommunicationController", mkCreator "CanCommunicationController" GUntyped true None None RGet); (* line 176 *)
  ("EcuInstance", "createEthernetCommunicationController", mkCreator "EthernetCommunicationController" GUntyped true None None RGet); (* line 182 *)
  ("EcuInstance", "createLinMaster", mkCreator "LinMaster" GUntyped true None None RGet); (* line 188 *)
  ("EcuInstance", "createFlexrayCommunicationController", mkCreator "FlexrayCommunicationController" GUntyped true None None RGet); (* line 194 *)
  ("EcuInstance", "createCanCommunicationConnector", mkCreator "CanCommunicationConnector" GUntyped true None None RGet); (* line 203 *)
  ("EcuInstance", "createEthernetCommunicationConnector", mkCreator "EthernetCommunicationConnector" GUntyped true None None RGet); (* line 209 *)
  ("EcuInstance", "createLinCommunicationConnector", mkCreator "LinCommunicationConnector" GUntyped true None None RGet); (* line 215 *)
  ("EcuInstance", "createFlexrayCommunicationConnector", mkCreator "FlexrayCommunicationConnector" GUntyped true None None RGet); (* line 221 *)
  (* models/M2/AUTOSARTemplates/SystemTemplate/Transformer/__init__.py *)
  ("DataTransformationSet", "createDataTransformation", mkCreator "DataTransformation" GUntyped true (Some "dataTransformations") None RGet); (* line 970 *)
  ("DataTransformationSet", "createTransformationTechnology", mkCreator "TransformationTechnology" GUntyped true (Some "transformationTechnologies") None RGet); (* line 980 *)
  (* models/M2/MSR/AsamHdo/SpecialData.py *)
  ("Sdg", "createSdgCaption", mkCreator "SdgCaption" GAlways false None (Some "sdgCaption") RNew) (* line 327 *)
].
