(** Generated by tools/gen_objects.py: the constructors and the add* methods of every class of
    /repo/src/armodel/models (paths below are relative to /repo/src/armodel), statement by
    statement.  [COther] and [AOther] stand for statements that are none of the forms below. *)
From Coq Require Import String List.
Import ListNotations.
Open Scope string_scope.

(** values in constructors: None, [], a parameter of the constructor, or an object made on the spot
    (a non-empty list or dictionary display, a string, an object of a class) *)
Inductive cval := CNone | CList | CArg (i : nat) | CFresh (c : string).
Inductive cstmt :=
| CSet (a : string) (v : cval)                                (* self.a = v *)
| CSuper (args : list cval) (consts : list (string * string)) (* super().__init__(args); consts: the class
                                                                 constants C.A mentioned in the arguments *)
| CBase (b : string) (args : list cval)                       (* B.__init__(self, args) *)
| CAbstract (c : string)                                      (* if type(self) is C: raise TypeError(...) *)
| CClear                                                      (* self.clear() *)
| CSingleton                                                  (* AUTOSAR.__instance: test and assignment; not modelled, the
                                                                 first construction of the singleton is meant *)
| COther.

(** class, number of parameters, body of __init__ *)
Definition ctor_table : list (string * (nat * list cstmt)) := [
  (* models/M2/AUTOSARTemplates/ECUCDescriptionTemplate.py *)
  ("EcucValueCollection", (2, [CSuper [CArg 0; CArg 1] []; CSet "ecucValueRefs" (CList); CSet "ecuExtractRef" (CNone)])) (* line 31 *);
  ("EcucIndexableValue", (0, [CAbstract "EcucIndexableValue"; CSuper [] []; CSet "index" (CNone)])) (* line 65 *);
  ("EcucParameterValue", (0, [CAbstract "EcucParameterValue"; CSuper [] []; CSet "annotations" (CList); CSet "definitionRef" (CNone); CSet "isAutoValue" (CNone)])) (* line 106 *);
  ("EcucAddInfoParamValue", (0, [CSuper [] []; CSet "value" (CNone)])) (* line 149 *);
  ("EcucTextualParamValue", (0, [CSuper [] []; CSet "value" (CNone)])) (* line 171 *);
  ("EcucNumericalParamValue", (0, [CSuper [] []; CSet "value" (CNone)])) (* line 193 *);
  ("EcucAbstractReferenceValue", (0, [CAbstract "EcucAbstractReferenceValue"; CSuper [] []; CSet "annotations" (CList); CSet "definitionRef" (CNone); CSet "isAutoValue" (CNone)])) (* line 220 *);
  ("EcucInstanceReferenceValue", (0, [CSuper [] []; CSet "valueIRef" (CNone)])) (* line 263 *);
  ("EcucReferenceValue", (0, [CSuper [] []; CSet "valueRef" (CNone)])) (* line 286 *);
  ("EcucContainerValue", (2, [CBase "EcucIndexableValue" []; CBase "Identifiable" [CArg 0; CArg 1]; CSet "definitionRef" (CNone); CSet "parameterValues" (CList); CSet "referenceValues" (CList); CSet "subContainers" (CList)])) (* line 316 *);
  ("EcucModuleConfigurationValues", (2, [CSuper [CArg 0; CArg 1] []; CSet "containers" (CList); CSet "definitionRef" (CNone); CSet "ecucDefEdition" (CNone); CSet "implementationConfigVariant" (CNone); CSet "moduleDescriptionRef" (CNone); CSet "postBuildVariantUsed" (CNone)])) (* line 380 *);
  ("EcucConfigurationVariantEnum", (0, [CSuper [CList] []])) (* line 444 *);
  (* models/M2/AUTOSARTemplates/ECUCParameterDefTemplate.py *)
  ("EcucConditionSpecification", (0, [CSuper [] []; CSet "conditionFormula" (CNone); CSet "ecucQueries" (CList); CSet "informalFormula" (CNone)])) (* line 30 *);
  ("EcucValidationCondition", (2, [CSuper [CArg 0; CArg 1] []; CSet "ecucQueries" (CList); CSet "validationFormula" (CNone)])) (* line 116 *);
  ("EcucScopeEnum", (0, [CSuper [CFresh "list"] [("EcucScopeEnum", "ECU"); ("EcucScopeEnum", "LOCAL")]])) (* line 184 *);
  ("EcucDefinitionElement", (2, [CAbstract "EcucDefinitionElement"; CSuper [CArg 0; CArg 1] []; CSet "ecucCond" (CNone); CSet "ecucValidationConds" (CList); CSet "lowerMultiplicity" (CNone); CSet "relatedTraceItemRef" (CNone); CSet "scope" (CNone); CSet "upperMultiplicity" (CNone); CSet "upperMultiplicityInfinite" (CNone)])) (* line 217 *);
  ("EcucDestinationUriDefRefType", (0, [CSuper [] []])) (* line 361 *);
  ("EcucConfigurationClassEnum", (0, [CSuper [CFresh "list"] [("EcucConfigurationClassEnum", "LINK"); ("EcucConfigurationClassEnum", "POST_BUILD"); ("EcucConfigurationClassEnum", "PRE_COMPILE"); ("EcucConfigurationClassEnum", "PUBLISHED_INFORMATION")]])) (* line 386 *);
  ("EcucAbstractConfigurationClass", (0, [CAbstract "EcucAbstractConfigurationClass"; CSuper [] []; CSet "configClass" (CNone); CSet "configVariant" (CNone)])) (* line 444 *);
  ("EcucMultiplicityConfigurationClass", (0, [CSuper [] []])) (* line 496 *);
  ("EcucContainerDef", (2, [CAbstract "EcucContainerDef"; CSuper [CArg 0; CArg 1] []; CSet "destinationUriRefs" (CList); CSet "multiplicityConfigClasses" (CList); CSet "origin" (CNone); CSet "postBuildVariantMultiplicity" (CNone); CSet "requiresIndex" (CNone)])) (* line 520 *);
  ("EcucValueConfigurationClass", (0, [CSuper [] []])) (* line 625 *);
  ("EcucCommonAttributes", (2, [CAbstract "EcucCommonAttributes"; CSuper [CArg 0; CArg 1] []; CSet "multiplicityConfigClasses" (CList); CSet "origin" (CNone); CSet "postBuildVariantMultiplicity" (CNone); CSet "postBuildVariantValue" (CNone); CSet "requiresIndex" (CNone); CSet "valueConfigClasses" (CList)])) (* line 651 *);
  ("EcucDerivationSpecification", (0, [CSuper [] []; CSet "calculationFormula" (CNone); CSet "ecucQueries" (CList); CSet "informalFormula" (CNone)])) (* line 785 *);
  ("EcucParameterDef", (2, [CAbstract "EcucParameterDef"; CSuper [CArg 0; CArg 1] []; CSet "derivation" (CNone); CSet "symbolicNameValue" (CNone); CSet "withAuto" (CNone)])) (* line 871 *);
  ("EcucBooleanParamDef", (2, [CSuper [CArg 0; CArg 1] []; CSet "defaultValue" (CNone)])) (* line 916 *);
  ("EcucAbstractReferenceDef", (2, [CAbstract "EcucAbstractReferenceDef"; CSuper [CArg 0; CArg 1] []; CSet "withAuto" (CNone)])) (* line 942 *);
  ("EcucAbstractInternalReferenceDef", (2, [CAbstract "EcucAbstractInternalReferenceDef"; CSuper [CArg 0; CArg 1] []; CSet "requiresSymbolicNameValue" (CNone)])) (* line 980 *);
  ("EcucAbstractExternalReferenceDef", (2, [CAbstract "EcucAbstractExternalReferenceDef"; CSuper [CArg 0; CArg 1] []])) (* line 1016 *);
  ("EcucSymbolicNameReferenceDef", (2, [CSuper [CArg 0; CArg 1] []; CSet "destinationRef" (CNone)])) (* line 1034 *);
  ("EcucChoiceReferenceDef", (2, [CSuper [CArg 0; CArg 1] []; CSet "destinationRefs" (CList)])) (* line 1068 *);
  ("EcucReferenceDef", (2, [CSuper [CArg 0; CArg 1] []; CSet "destinationRef" (CNone)])) (* line 1102 *);
  ("EcucUriReferenceDef", (2, [CSuper [CArg 0; CArg 1] []; CSet "destinationUriRef" (CNone)])) (* line 1135 *);
  ("EcucForeignReferenceDef", (2, [CSuper [CArg 0; CArg 1] []; CSet "destinationType" (CNone)])) (* line 1168 *);
  ("EcucInstanceReferenceDef", (2, [CSuper [CArg 0; CArg 1] []; CSet "destinationContext" (CNone); CSet "destinationType" (CNone)])) (* line 1205 *);
  ("EcucAbstractStringParamDef", (2, [CAbstract "EcucAbstractStringParamDef"; CSuper [CArg 0; CArg 1] []; CSet "defaultValue" (CNone); CSet "maxLength" (CNone); CSet "minLength" (CNone); CSet "regularExpression" (CNone)])) (* line 1263 *);
  ("EcucStringParamDef", (2, [CSuper [CArg 0; CArg 1] []])) (* line 1356 *);
  ("EcucFunctionNameDef", (2, [CSuper [CArg 0; CArg 1] []])) (* line 1370 *);
  ("EcucIntegerParamDef", (2, [CSuper [CArg 0; CArg 1] []; CSet "defaultValue" (CNone); CSet "max" (CNone); CSet "min" (CNone)])) (* line 1389 *);
  ("EcucEnumerationLiteralDef", (2, [CSuper [CArg 0; CArg 1] []; CSet "ecucCond" (CNone); CSet "origin" (CNone)])) (* line 1434 *);
  ("EcucEnumerationParamDef", (2, [CSuper [CArg 0; CArg 1] []; CSet "defaultValue" (CNone); CSet "literals" (CList)])) (* line 1484 *);
  ("EcucFloatParamDef", (2, [CSuper [CArg 0; CArg 1] []; CSet "defaultValue" (CNone); CSet "max" (CNone); CSet "min" (CNone)])) (* line 1537 *);
  ("EcucChoiceContainerDef", (2, [CSuper [CArg 0; CArg 1] []; CSet "choices" (CList)])) (* line 1580 *);
  ("EcucParamConfContainerDef", (2, [CSuper [CArg 0; CArg 1] []; CSet "parameters" (CList); CSet "references" (CList); CSet "subContainers" (CList)])) (* line 1621 *);
  ("EcucAddInfoParamDef", (2, [CSuper [CArg 0; CArg 1] []])) (* line 1887 *);
  ("EcucConditionFormula", (0, [CSuper [] []; CSet "ecucQueryRef" (CNone); CSet "ecucQueryStringRef" (CNone)])) (* line 1905 *);
  ("EcucDefinitionCollection", (2, [CSuper [CArg 0; CArg 1] []; CSet "moduleRefs" (CList)])) (* line 1957 *);
  ("EcucDestinationUriDef", (2, [CSuper [CArg 0; CArg 1] []; CSet "destinationUriPolicy" (CNone)])) (* line 1991 *);
  ("EcucDestinationUriDefSet", (2, [CSuper [CArg 0; CArg 1] []; CSet "destinationUriDefs" (CList)])) (* line 2026 *);
  ("EcucDestinationUriPolicy", (0, [CSuper [] []; CSet "containers" (CList); CSet "destinationUriNestingContract" (CNone); CSet "parameters" (CList); CSet "references" (CList)])) (* line 2074 *);
  ("EcucDestinationUriNestingContractEnum", (0, [CSuper [CFresh "list"] [("EcucDestinationUriNestingContractEnum", "LEAF_OF_TARGET_CONTAINER"); ("EcucDestinationUriNestingContractEnum", "TARGET_CONTAINER"); ("EcucDestinationUriNestingContractEnum", "VERTEX_OF_TARGET_CONTAINER")]])) (* line 2169 *);
  ("EcucLinkerSymbolDef", (2, [CSuper [CArg 0; CArg 1] []])) (* line 2188 *);
  ("EcucMultilineStringParamDef", (2, [CSuper [CArg 0; CArg 1] []])) (* line 2202 *);
  ("EcucParameterDerivationFormula", (0, [CSuper [] []; CSet "ecucQueryRef" (CNone); CSet "ecucQueryStringRef" (CNone)])) (* line 2221 *);
  ("EcucQuery", (2, [CSuper [CArg 0; CArg 1] []; CSet "ecucQueryExpression" (CNone)])) (* line 2273 *);
  ("EcucQueryExpression", (0, [CSuper [] []; CSet "configElementDefGlobalRef" (CNone); CSet "configElementDefLocalRef" (CNone)])) (* line 2309 *);
  ("EcucModuleDef", (2, [CSuper [CArg 0; CArg 1] []; CSet "apiServicePrefix" (CNone); CSet "containers" (CList); CSet "postBuildVariantSupport" (CNone); CSet "refinedModuleDefRef" (CNone); CSet "supportedConfigVariants" (CList)])) (* line 2369 *);
  (* models/M2/AUTOSARTemplates/AbstractPlatform/ApplicationDeferredDataType.py *)
  ("ApplicationDeferredDataType", (2, [CSuper [CArg 0; CArg 1] []])) (* line 23 *);
  (* models/M2/AUTOSARTemplates/AbstractPlatform/ApplicationInterface.py *)
  ("ApplicationInterface", (2, [CSuper [CArg 0; CArg 1] []; CSet "attributes" (CList); CSet "commands" (CList); CSet "indications" (CList)])) (* line 42 *);
  (* models/M2/AUTOSARTemplates/AdaptivePlatform/ApplicationDesign/PortInterface/Field.py *)
  ("Field", (2, [CSuper [CArg 0; CArg 1] []; CSet "hasGetter" (CNone); CSet "hasNotifier" (CNone); CSet "hasSetter" (CNone)])) (* line 27 *);
  (* models/M2/AUTOSARTemplates/AdaptivePlatform/PlatformModuleDeployment/AdaptiveModule/PlatformModuleEthernetEndpointConfiguration.py *)
  ("PlatformModuleEthernetEndpointConfiguration", (2, [CSuper [CArg 0; CArg 1] []; CSet "communications" (CNone); CSet "ipv4MulticastIps" (CNone); CSet "ipv6MulticastIps" (CNone)])) (* line 35 *);
  (* models/M2/AUTOSARTemplates/AdaptivePlatform/PlatformModuleDeployment/CryptoDeployment/CryptoKeySlot.py *)
  ("CryptoKeySlot", (2, [CSuper [CArg 0; CArg 1] []; CSet "allocateShadows" (CNone); CSet "cryptoAlgIds" (CNone); CSet "cryptoObjects" (CNone); CSet "keySlotAlloweds" (CNone); CSet "keySlotContents" (CList); CSet "slotCapacitys" (CNone); CSet "slotTypes" (CNone)])) (* line 49 *);
  (* models/M2/AUTOSARTemplates/AdaptivePlatform/PlatformModuleDeployment/CryptoDeployment/CryptoKeySlotContent.py *)
  ("CryptoKeySlotContent", (2, [CSuper [CArg 0; CArg 1] []])) (* line 21 *);
  (* models/M2/AUTOSARTemplates/AdaptivePlatform/PlatformModuleDeployment/Firewall/FirewallRule.py *)
  ("FirewallRule", (0, [CSuper [] []; CSet "destRefs" (CList); CSet "srcRefs" (CList)])) (* line 19 *);
  (* models/M2/AUTOSARTemplates/AdaptivePlatform/PlatformModuleDeployment/Firewall/FirewallRuleProps.py *)
  ("FirewallRuleProps", (0, [CSuper [] []; CSet "allowAny" (CNone); CSet "direction" (CNone); CSet "protocol" (CNone)])) (* line 19 *);
  (* models/M2/AUTOSARTemplates/AdaptivePlatform/PlatformModuleDeployment/Firewall/StateDependentFirewall.py *)
  ("StateDependentFirewall", (0, [CSuper [] []; CSet "firewallRules" (CList); CSet "stateRef" (CNone)])) (* line 19 *);
  (* models/M2/AUTOSARTemplates/AdaptivePlatform/PlatformModuleDeployment/IntrusionDetectionSystem/IdsPlatformInstantiation.py *)
  ("IdsPlatformInstantiation", (2, [CAbstract "IdsPlatformInstantiation"; CSuper [CArg 0; CArg 1] []; CSet "networks" (CList); CSet "timeBases" (CNone)])) (* line 28 *);
  (* models/M2/AUTOSARTemplates/AdaptivePlatform/PlatformModuleDeployment/IntrusionDetectionSystem/IdsmModuleInstantiation.py *)
  ("IdsmModuleInstantiation", (2, [CSuper [CArg 0; CArg 1] []])) (* line 21 *);
  (* models/M2/AUTOSARTemplates/AutosarTopLevelStructure/__init__.py *)
  ("FileInfoComment", (0, [CSuper [] []; CSet "sdgs" (CList)])) (* line 37 *);
  ("AbstractAUTOSAR", (0, [CSuper [] []; CSet "release_xsd_mappings" (CFresh "dict"); CClear])) (* line 99 *);
  ("AUTOSAR", (0, [CSingleton; CSingleton; CSuper [] []])) (* line 377 *);
  ("AUTOSARDoc", (0, [CSuper [] []])) (* line 394 *);
  (* models/M2/AUTOSARTemplates/BswModuleTemplate/BswImplementation.py *)
  ("BswImplementation", (2, [CSuper [CArg 0; CArg 1] []; CSet "arReleaseVersion" (CNone); CSet "behaviorRef" (CNone); CSet "preconfiguredConfigurationRefs" (CList); CSet "recommendedConfigurationRefs" (CList); CSet "vendorApiInfix" (CNone); CSet "vendorSpecificModuleDefRefs" (CList)])) (* line 34 *);
  (* models/M2/AUTOSARTemplates/BswModuleTemplate/BswInterfaces.py *)
  ("BswEntryKindEnum", (0, [CSuper [CFresh "list"] [("BswEntryKindEnum", "ABSTRACT"); ("BswEntryKindEnum", "CONCRETE")]])) (* line 35 *);
  ("BswCallType", (0, [CSuper [CFresh "list"] [("BswCallType", "CALLBACK"); ("BswCallType", "CALLOUT"); ("BswCallType", "INTERRUPT"); ("BswCallType", "REGULAR"); ("BswCallType", "SCHEDULED")]])) (* line 66 *);
  ("BswExecutionContext", (0, [CSuper [CFresh "list"] [("BswExecutionContext", "HOOK"); ("BswExecutionContext", "INTERRUPT_CAT_1"); ("BswExecutionContext", "INTERRUPT_CAT_2"); ("BswExecutionContext", "TASK"); ("BswExecutionContext", "UNSPECIFIED")]])) (* line 97 *);
  ("SwServiceImplPolicyEnum", (0, [CSuper [CFresh "list"] [("SwServiceImplPolicyEnum", "INLINE"); ("SwServiceImplPolicyEnum", "INLINE_CONDITIONAL"); ("SwServiceImplPolicyEnum", "MACRO"); ("SwServiceImplPolicyEnum", "STANDARD")]])) (* line 125 *);
  ("BswModuleDependency", (2, [CSuper [CArg 0; CArg 1] []; CSet "targetModuleId" (CNone); CSet "targetModuleRef" (CNone)])) (* line 142 *);
  ("BswModuleEntry", (2, [CSuper [CArg 0; CArg 1] []; CSet "arguments" (CList); CSet "bswEntryKind" (CNone); CSet "callType" (CNone); CSet "executionContext" (CNone); CSet "functionPrototypeEmitter" (CNone); CSet "isReentrant" (CNone); CSet "isSynchronous" (CNone); CSet "returnType" (CNone); CSet "role" (CNone); CSet "serviceId" (CNone); CSet "swServiceImplPolicy" (CNone)])) (* line 241 *);
  ("BswModuleClientServerEntry", (2, [CSuper [CArg 0; CArg 1] []; CSet "encapsulatedEntryRef" (CNone); CSet "isReentrant" (CNone); CSet "isSynchronous" (CNone)])) (* line 475 *);
  ("BswEntryRelationship", (0, [CSuper [] []; CSet "bswEntryRelationshipType" (CNone); CSet "fromRef" (CNone); CSet "toRef" (CNone)])) (* line 595 *);
  ("BswEntryRelationshipSet", (2, [CSuper [CArg 0; CArg 1] []; CSet "bswEntryRelationships" (CList)])) (* line 675 *);
  (* models/M2/AUTOSARTemplates/BswModuleTemplate/BswBehavior/BswInterruptEvent.py *)
  ("BswInterruptEvent", (0, [CSuper [] []])) (* line 17 *);
  (* models/M2/AUTOSARTemplates/BswModuleTemplate/BswBehavior/BswSchedulerNamePrefix.py *)
  ("BswSchedulerNamePrefix", (0, [CSuper [] []; CSet "prefix" (CNone)])) (* line 19 *);
  (* models/M2/AUTOSARTemplates/BswModuleTemplate/BswBehavior/__init__.py *)
  ("BswModuleCallPoint", (2, [CAbstract "BswModuleCallPoint"; CSuper [CArg 0; CArg 1] []; CSet "contextLimitationRefs" (CList)])) (* line 47 *);
  ("BswAsynchronousServerCallPoint", (2, [CSuper [CArg 0; CArg 1] []; CSet "calledEntryRef" (CNone)])) (* line 97 *);
  ("BswDirectCallPoint", (2, [CSuper [CArg 0; CArg 1] []; CSet "calledEntryRef" (CNone); CSet "calledFromWithinExclusiveAreaRef" (CNone)])) (* line 148 *);
  ("BswSynchronousServerCallPoint", (2, [CSuper [CArg 0; CArg 1] []; CSet "calledEntryRef" (CNone); CSet "calledFromWithinExclusiveAreaRef" (CNone)])) (* line 225 *);
  ("BswAsynchronousServerCallResultPoint", (2, [CSuper [CArg 0; CArg 1] []; CSet "asynchronousServerCallPointRef" (CNone)])) (* line 298 *);
  ("BswVariableAccess", (2, [CSuper [CArg 0; CArg 1] []; CSet "accessedVariableRef" (CNone); CSet "contextLimitationRefs" (CList)])) (* line 325 *);
  ("BswDistinguishedPartition", (2, [CSuper [CArg 0; CArg 1] []])) (* line 397 *);
  ("BswModuleEntity", (2, [CAbstract "BswModuleEntity"; CSuper [CArg 0; CArg 1] []; CSet "accessedModeGroupRefs" (CList); CSet "activationPointRefs" (CList); CSet "callPoints" (CList); CSet "dataReceivePoints" (CList); CSet "dataSendPoints" (CList); CSet "implementedEntryRef" (CNone); CSet "issuedTriggerRefs" (CList); CSet "managedModeGroupRefs" (CList); CSet "schedulerNamePrefixRef" (CNone)])) (* line 438 *);
  ("BswCalledEntity", (2, [CSuper [CArg 0; CArg 1] []])) (* line 723 *);
  ("BswSchedulableEntity", (2, [CSuper [CArg 0; CArg 1] []])) (* line 743 *);
  ("BswInterruptCategory", (0, [CSuper [CFresh "list"] [("BswInterruptCategory", "CAT1"); ("BswInterruptCategory", "CAT2")]])) (* line 768 *);
  ("BswInterruptEntity", (2, [CSuper [CArg 0; CArg 1] []; CSet "interruptCategory" (CNone); CSet "interruptSource" (CNone)])) (* line 793 *);
  ("BswEvent", (2, [CAbstract "BswEvent"; CSuper [CArg 0; CArg 1] []; CSet "contextLimitationRefs" (CList); CSet "disabledInModeIRefs" (CList); CSet "startsOnEventRef" (CNone)])) (* line 870 *);
  ("BswOperationInvokedEvent", (2, [CSuper [CArg 0; CArg 1] []; CSet "entryRef" (CNone)])) (* line 969 *);
  ("BswScheduleEvent", (2, [CAbstract "BswScheduleEvent"; CSuper [CArg 0; CArg 1] []])) (* line 1018 *);
  ("BswAsynchronousServerCallReturnsEvent", (2, [CSuper [CArg 0; CArg 1] []; CSet "eventSourceRef" (CNone)])) (* line 1046 *);
  ("BswModeSwitchEvent", (2, [CSuper [CArg 0; CArg 1] []; CSet "activation" (CNone); CSet "modeIRefs" (CList)])) (* line 1102 *);
  ("BswModeSwitchedAckEvent", (2, [CSuper [CArg 0; CArg 1] []; CSet "modeGroupRef" (CNone)])) (* line 1175 *);
  ("BswModeManagerErrorEvent", (2, [CSuper [CArg 0; CArg 1] []; CSet "modeGroupRef" (CNone)])) (* line 1232 *);
  ("BswTimingEvent", (2, [CSuper [CArg 0; CArg 1] []; CSet "period" (CNone)])) (* line 1287 *);
  ("BswDataReceivedEvent", (2, [CSuper [CArg 0; CArg 1] []; CSet "dataRef" (CNone)])) (* line 1350 *);
  ("BswInternalTriggerOccurredEvent", (2, [CSuper [CArg 0; CArg 1] []; CSet "eventSourceRef" (CNone)])) (* line 1397 *);
  ("BswModeSwitchAckRequest", (0, [CSuper [] []; CSet "timeout" (CNone)])) (* line 1444 *);
  ("BswModeSenderPolicy", (0, [CSuper [] []; CSet "ackRequest" (CNone); CSet "enhancedModeApi" (CNone); CSet "providedModeGroupRef" (CNone); CSet "queueLength" (CNone)])) (* line 1494 *);
  ("BswModeReceiverPolicy", (0, [CSuper [] []; CSet "enhancedModeApi" (CNone); CSet "requiredModeGroupRef" (CNone); CSet "supportsAsynchronousModeSwitch" (CNone)])) (* line 1633 *);
  ("BswBackgroundEvent", (2, [CSuper [CArg 0; CArg 1] []])) (* line 1717 *);
  ("BswOsTaskExecutionEvent", (2, [CSuper [CArg 0; CArg 1] []])) (* line 1737 *);
  ("BswExternalTriggerOccurredEvent", (2, [CSuper [CArg 0; CArg 1] []; CSet "triggerRef" (CNone)])) (* line 1759 *);
  ("BswApiOptions", (0, [CAbstract "BswApiOptions"; CSuper [] []; CSet "enableTakeAddress" (CNone)])) (* line 1808 *);
  ("BswExclusiveAreaPolicy", (0, [CSuper [] []; CSet "apiPrinciple" (CNone); CSet "exclusiveAreaRef" (CNone)])) (* line 1859 *);
  ("BswDataReceptionPolicy", (0, [CAbstract "BswDataReceptionPolicy"; CSuper [] []; CSet "receivedDataRef" (CNone)])) (* line 1934 *);
  ("BswQueuedDataReceptionPolicy", (0, [CSuper [] []; CSet "queueLength" (CNone)])) (* line 1983 *);
  ("BswInternalTriggeringPoint", (2, [CSuper [CArg 0; CArg 1] []; CSet "swImplPolicy" (CNone)])) (* line 2028 *);
  ("BswServiceDependencyIdent", (2, [CSuper [CArg 0; CArg 1] []])) (* line 2077 *);
  ("RoleBasedBswModuleEntryAssignment", (0, [CSuper [] []; CSet "assignedEntryRef" (CNone); CSet "role" (CNone)])) (* line 2105 *);
  ("BswServiceDependency", (0, [CSuper [] []; CSet "assignedData" (CList); CSet "assignedEntryRole" (CList); CSet "ident" (CNone); CSet "serviceNeeds" (CNone)])) (* line 2207 *);
  ("BswInternalBehavior", (2, [CSuper [CArg 0; CArg 1] []; CSet "arTypedPerInstanceMemories" (CList); CSet "bswPerInstanceMemoryPolicies" (CList); CSet "clientPolicies" (CList); CSet "distinguishedPartitions" (CList); CSet "entities" (CList); CSet "events" (CList); CSet "exclusiveAreaPolicies" (CList); CSet "includedDataTypeSets" (CList); CSet "includedModeDeclarationGroupSets" (CList); CSet "internalTriggeringPoints" (CList); CSet "internalTriggeringPointPolicies" (CList); CSet "modeReceiverPolicies" (CList); CSet "modeSenderPolicies" (CList); CSet "parameterPolicies" (CList); CSet "perInstanceParameters" (CList); CSet "receptionPolicies" (CList); CSet "releasedTriggerPolicies" (CList); CSet "schedulerNamePrefixes" (CList); CSet "sendPolicies" (CList); CSet "serviceDependencies" (CList); CSet "triggerDirectImplementations" (CList); CSet "variationPointProxies" (CList)])) (* line 2415 *);
  ("BswTriggerDirectImplementation", (0, [CSuper [] []; CSet "cat2Isr" (CNone); CSet "masteredTriggerRef" (CNone); CSet "task" (CNone)])) (* line 3306 *);
  (* models/M2/AUTOSARTemplates/BswModuleTemplate/BswOverview/__init__.py *)
  ("BswModuleDescription", (2, [CSuper [CArg 0; CArg 1] []; CSet "bswModuleDependencies" (CList); CSet "bswModuleDocumentation" (CNone); CSet "expectedEntryRefs" (CList); CSet "implementedEntryRefs" (CList); CSet "internalBehaviors" (CList); CSet "moduleId" (CNone); CSet "providedClientServerEntries" (CList); CSet "providedDatas" (CList); CSet "providedModeGroups" (CList); CSet "releasedTriggers" (CList); CSet "requiredClientServerEntries" (CList); CSet "requiredDatas" (CList); CSet "requiredModeGroups" (CList); CSet "requiredTriggers" (CList)])) (* line 61 *);
  (* models/M2/AUTOSARTemplates/BswModuleTemplate/BswOverview/InstanceRefs/__init__.py *)
  ("ModeInBswModuleDescriptionInstanceRef", (0, [CSuper [] []; CSet "baseRef" (CNone); CSet "contextModeDeclarationGroupRef" (CNone); CSet "targetModeRef" (CNone)])) (* line 30 *);
  (* models/M2/AUTOSARTemplates/CommonStructure/Filter.py *)
  ("DataFilterTypeEnum", (0, [CSuper [CFresh "list"] [("DataFilterTypeEnum", "MASKED_NEW_DIFFERS_MASKED_OLD"); ("DataFilterTypeEnum", "MASKED_NEW_DIFFERS_X"); ("DataFilterTypeEnum", "MASKED_NEW_EQUALS_X"); ("DataFilterTypeEnum", "NEVER"); ("DataFilterTypeEnum", "NEW_IS_OUTSIDE"); ("DataFilterTypeEnum", "NEW_IS_WITHIN"); ("DataFilterTypeEnum", "ONE_EVERY_N")]])) (* line 35 *);
  ("DataFilter", (0, [CSuper [] []; CSet "dataFilterType" (CNone); CSet "mask" (CNone); CSet "max" (CNone); CSet "min" (CNone); CSet "offset" (CNone); CSet "period" (CNone); CSet "x" (CNone)])) (* line 76 *);
  (* models/M2/AUTOSARTemplates/CommonStructure/FlatMap.py *)
  ("FlatInstanceDescriptor", (2, [CSuper [CArg 0; CArg 1] []; CSet "ecuExtractReferenceIRef" (CNone); CSet "role" (CNone); CSet "rtePluginProps" (CNone); CSet "swDataDefProps" (CNone); CSet "upstreamReferenceIRef" (CNone)])) (* line 36 *);
  ("FlatMap", (2, [CSuper [CArg 0; CArg 1] []; CSet "instances" (CList)])) (* line 179 *);
  ("AliasNameAssignment", (0, [CSuper [] []; CSet "flatInstanceRef" (CNone); CSet "identifiableRef" (CNone); CSet "label" (CNone); CSet "shortLabel" (CNone)])) (* line 238 *);
  ("AliasNameSet", (2, [CSuper [CArg 0; CArg 1] []; CSet "aliasNames" (CList)])) (* line 368 *);
  ("RtePluginProps", (0, [CSuper [] []; CSet "pluginName" (CNone); CSet "pluginVersion" (CNone)])) (* line 420 *);
  (* models/M2/AUTOSARTemplates/CommonStructure/Implementation.py *)
  ("DependencyUsageEnum", (0, [CSuper [CFresh "list"] [("DependencyUsageEnum", "BUILD"); ("DependencyUsageEnum", "CODEGENERATION"); ("DependencyUsageEnum", "COMPILE"); ("DependencyUsageEnum", "EXECUTE"); ("DependencyUsageEnum", "LINK")]])) (* line 45 *);
  ("ProgramminglanguageEnum", (0, [CSuper [CFresh "list"] [("ProgramminglanguageEnum", "C"); ("ProgramminglanguageEnum", "CPP"); ("ProgramminglanguageEnum", "JAVA")]])) (* line 75 *);
  ("ImplementationProps", (2, [CAbstract "ImplementationProps"; CSuper [CArg 0; CArg 1] []; CSet "symbol" (CNone)])) (* line 97 *);
  ("Code", (2, [CSuper [CArg 0; CArg 1] []; CSet "artifactDescriptors" (CList); CSet "callbackHeaderRefs" (CList)])) (* line 157 *);
  ("Compiler", (2, [CSuper [CArg 0; CArg 1] []; CSet "name" (CNone); CSet "options" (CNone); CSet "vendor" (CNone); CSet "version" (CNone)])) (* line 251 *);
  ("DependencyOnArtifact", (2, [CSuper [CArg 0; CArg 1] []; CSet "artifactDescriptor" (CNone); CSet "usages" (CList)])) (* line 383 *);
  ("Linker", (2, [CSuper [CArg 0; CArg 1] []; CSet "name" (CNone); CSet "options" (CNone); CSet "vendor" (CNone); CSet "version" (CNone)])) (* line 466 *);
  ("Implementation", (2, [CAbstract "Implementation"; CSuper [CArg 0; CArg 1] []; CSet "buildActionManifestRef" (CNone); CSet "codeDescriptors" (CList); CSet "compilers" (CList); CSet "generatedArtifacts" (CList); CSet "hwElementRefs" (CList); CSet "linkers" (CList); CSet "mcSupport" (CNone); CSet "programmingLanguage" (CNone); CSet "requiredArtifacts" (CList); CSet "requiredGeneratorTools" (CList); CSet "resourceConsumption" (CNone); CSet "swcBswMappingRef" (CNone); CSet "swVersion" (CNone); CSet "usedCodeGenerator" (CNone); CSet "vendorId" (CNone)])) (* line 626 *);
  (* models/M2/AUTOSARTemplates/CommonStructure/ImplementationDataTypes.py *)
  ("AbstractImplementationDataTypeElement", (2, [CAbstract "AbstractImplementationDataTypeElement"; CSuper [CArg 0; CArg 1] []])) (* line 19 *);
  ("ImplementationDataTypeElement", (2, [CSuper [CArg 0; CArg 1] []; CSet "arrayImplPolicy" (CNone); CSet "arraySize" (CNone); CSet "arraySizeHandling" (CNone); CSet "arraySizeSemantics" (CNone); CSet "isOptional" (CNone); CSet "subElements" (CList); CSet "swDataDefProps" (CNone)])) (* line 51 *);
  ("AbstractImplementationDataType", (2, [CAbstract "AbstractImplementationDataType"; CSuper [CArg 0; CArg 1] []])) (* line 129 *);
  ("ImplementationDataType", (2, [CSuper [CArg 0; CArg 1] []; CSet "dynamicArraySizeProfile" (CNone); CSet "isStructWithOptionalElement" (CNone); CSet "subElements" (CList); CSet "symbolProps" (CNone); CSet "typeEmitter" (CNone)])) (* line 169 *);
  ("ArrayImplPolicyEnum", (0, [CSuper [CFresh "list"] [("ArrayImplPolicyEnum", "DYNAMIC"); ("ArrayImplPolicyEnum", "STATIC")]])) (* line 337 *);
  ("ArraySizeSemanticsEnum", (0, [CSuper [CFresh "list"] [("ArraySizeSemanticsEnum", "FIXED_SIZE"); ("ArraySizeSemanticsEnum", "VARIABLE_SIZE")]])) (* line 364 *);
  (* models/M2/AUTOSARTemplates/CommonStructure/InternalBehavior.py *)
  ("ReentrancyLevelEnum", (0, [CSuper [CFresh "list"] [("ReentrancyLevelEnum", "MULTICORE_REENTRANT"); ("ReentrancyLevelEnum", "NON_REENTRANT"); ("ReentrancyLevelEnum", "SINGLE_CORE_REENTRANT")]])) (* line 39 *);
  ("ExclusiveArea", (2, [CSuper [CArg 0; CArg 1] []])) (* line 62 *);
  ("ExecutableEntity", (2, [CAbstract "ExecutableEntity"; CSuper [CArg 0; CArg 1] []; CSet "activationReasons" (CList); CSet "canEnterRefs" (CList); CSet "exclusiveAreaNestingOrderRefs" (CList); CSet "minimumStartInterval" (CNone); CSet "reentrancyLevel" (CNone); CSet "runsInsideRefs" (CList); CSet "swAddrMethodRef" (CNone)])) (* line 100 *);
  ("InternalBehavior", (2, [CAbstract "InternalBehavior"; CSuper [CArg 0; CArg 1] []; CSet "constantMemories" (CList); CSet "constantValueMappingRefs" (CList); CSet "dataTypeMappingRefs" (CList); CSet "exclusiveAreas" (CList); CSet "exclusiveAreaNestingOrders" (CList); CSet "staticMemories" (CList)])) (* line 346 *);
  ("AbstractEvent", (2, [CAbstract "AbstractEvent"; CSuper [CArg 0; CArg 1] []; CSet "activationReasonRepresentationRef" (CNone)])) (* line 505 *);
  ("ApiPrincipleEnum", (0, [CSuper [CFresh "list"] [("ApiPrincipleEnum", "COMMON"); ("ApiPrincipleEnum", "PER_EXECUTABLE")]])) (* line 544 *);
  ("ExclusiveAreaNestingOrder", (2, [CSuper [CArg 0; CArg 1] []; CSet "exclusiveAreaRefs" (CList)])) (* line 569 *);
  ("ExecutableEntityActivationReason", (2, [CSuper [CArg 0; CArg 1] []; CSet "bitPosition" (CNone)])) (* line 614 *);
  (* models/M2/AUTOSARTemplates/CommonStructure/McGroups.py *)
  ("McGroup", (2, [CSuper [CArg 0; CArg 1] []; CSet "mcFunctionRefs" (CList); CSet "refCalprmSet" (CNone); CSet "refMeasurementSet" (CNone); CSet "subGroupRefs" (CList)])) (* line 32 *);
  ("McGroupDataRefSet", (0, [CSuper [] []; CSet "flatMapEntryRefs" (CList); CSet "mcDataInstanceRefs" (CList)])) (* line 165 *);
  (* models/M2/AUTOSARTemplates/CommonStructure/ModeDeclaration.py *)
  ("ModeActivationKind", (0, [CSuper [CFresh "list"] [("ModeActivationKind", "ON_ENTRY"); ("ModeActivationKind", "ON_EXIT"); ("ModeActivationKind", "ON_TRANSITION")]])) (* line 37 *);
  ("ModeDeclarationGroupPrototypeMapping", (0, [CSuper [] []; CSet "firstModeGroupRef" (CNone); CSet "modeDeclarationMappingSetRef" (CNone); CSet "secondModeGroupRef" (CNone)])) (* line 65 *);
  ("ModeDeclaration", (2, [CSuper [CArg 0; CArg 1] []; CSet "value" (CNone)])) (* line 164 *);
  ("ModeRequestTypeMap", (0, [CSuper [] []; CSet "implementationDataTypeRef" (CNone); CSet "modeGroupRef" (CNone)])) (* line 208 *);
  ("ModeDeclarationGroup", (2, [CSuper [CArg 0; CArg 1] []; CSet "initialModeRef" (CNone); CSet "modeDeclarations" (CList); CSet "modeManagerErrorBehavior" (CNone); CSet "modeTransitions" (CList); CSet "modeUserErrorBehavior" (CNone); CSet "onTransitionValue" (CNone)])) (* line 289 *);
  ("ModeDeclarationGroupPrototype", (2, [CSuper [CArg 0; CArg 1] []; CSet "swCalibrationAccess" (CNone); CSet "typeTRef" (CNone)])) (* line 471 *);
  ("ModeTransition", (2, [CSuper [CArg 0; CArg 1] []; CSet "enteredModeRef" (CNone); CSet "exitedModeRef" (CNone)])) (* line 552 *);
  ("ModeErrorBehavior", (0, [CSuper [] []; CSet "defaultModeRef" (CNone); CSet "errorReactionPolicy" (CNone)])) (* line 625 *);
  ("ModeErrorReactionPolicyEnum", (0, [CSuper [CFresh "list"] [("ModeErrorReactionPolicyEnum", "DEFAULT_MODE"); ("ModeErrorReactionPolicyEnum", "LAST_MODE")]])) (* line 701 *);
  (* models/M2/AUTOSARTemplates/CommonStructure/ServiceNeeds.py *)
  ("RoleBasedDataAssignment", (0, [CSuper [] []; CSet "role" (CNone); CSet "usedDataElement" (CNone); CSet "usedParameterElement" (CNone); CSet "usedPimRef" (CNone)])) (* line 39 *);
  ("ServiceNeeds", (2, [CAbstract "ServiceNeeds"; CSuper [CArg 0; CArg 1] []])) (* line 156 *);
  ("RamBlockStatusControlEnum", (0, [CSuper [CFresh "list"] [("RamBlockStatusControlEnum", "API"); ("RamBlockStatusControlEnum", "NV_RAM_MANAGER")]])) (* line 185 *);
  ("NvBlockNeedsReliabilityEnum", (0, [CSuper [CFresh "list"] [("NvBlockNeedsReliabilityEnum", "ERROR_CORRECTION"); ("NvBlockNeedsReliabilityEnum", "ERROR_DETECTION"); ("NvBlockNeedsReliabilityEnum", "NO_PROTECTION")]])) (* line 213 *);
  ("NvBlockNeedsWritingPriorityEnum", (0, [CSuper [CFresh "list"] [("NvBlockNeedsWritingPriorityEnum", "HIGH"); ("NvBlockNeedsWritingPriorityEnum", "LOW"); ("NvBlockNeedsWritingPriorityEnum", "MEDIUM")]])) (* line 242 *);
  ("NvBlockNeeds", (2, [CSuper [CArg 0; CArg 1] []; CSet "calcRamBlockCrc" (CNone); CSet "checkStaticBlockId" (CNone); CSet "cyclicWritingPeriod" (CNone); CSet "nDataSets" (CNone); CSet "nRomBlocks" (CNone); CSet "ramBlockStatusControl" (CNone); CSet "readonly" (CNone); CSet "reliability" (CNone); CSet "resistantToChangedSw" (CNone); CSet "restoreAtStart" (CNone); CSet "selectBlockForFirstInitAll" (CNone); CSet "storeAtShutdown" (CNone); CSet "storeCyclic" (CNone); CSet "storeEmergency" (CNone); CSet "storeImmediate" (CNone); CSet "storeOnChange" (CNone); CSet "useAutoValidationAtShutDown" (CNone); CSet "useCRCCompMechanism" (CNone); CSet "writeOnlyOnce" (CNone); CSet "writeVerification" (CNone); CSet "writingFrequency" (CNone); CSet "writingPriority" (CNone)])) (* line 309 *);
  ("RoleBasedDataTypeAssignment", (0, [CSuper [] []; CSet "role" (CNone); CSet "usedImplementationDataTypeRef" (CNone)])) (* line 532 *);
  ("ServiceDiagnosticRelevanceEnum", (0, [CSuper [CList] []])) (* line 599 *);
  ("ServiceDependency", (0, [CAbstract "ServiceDependency"; CSuper [] []; CSet "assignedDataTypes" (CList); CSet "diagnosticRelevance" (CNone); CSet "symbolicNameProps" (CNone)])) (* line 621 *);
  ("DiagnosticAudienceEnum", (0, [CSuper [CFresh "list"] [("DiagnosticAudienceEnum", "AFTER_MARKET"); ("DiagnosticAudienceEnum", "AFTER_SALES"); ("DiagnosticAudienceEnum", "DEVELOPMENT"); ("DiagnosticAudienceEnum", "MANUFACTURING"); ("DiagnosticAudienceEnum", "SUPPLIER")]])) (* line 732 *);
  ("DiagnosticServiceRequestCallbackTypeEnum", (0, [CSuper [CFresh "list"] [("DiagnosticServiceRequestCallbackTypeEnum", "REQUEST_CALLBACK_TYPE_MANUFACTURER"); ("DiagnosticServiceRequestCallbackTypeEnum", "REQUEST_CALLBACK_TYPE_SUPPLIER")]])) (* line 761 *);
  ("DiagnosticCapabilityElement", (2, [CAbstract "DiagnosticCapabilityElement"; CSuper [CArg 0; CArg 1] []; CSet "audiences" (CList); CSet "diagRequirement" (CNone); CSet "securityAccessLevel" (CNone)])) (* line 788 *);
  ("DiagnosticRoutineTypeEnum", (0, [CSuper [CFresh "list"] [("DiagnosticRoutineTypeEnum", "ASYNCHRONOUS"); ("DiagnosticRoutineTypeEnum", "SYNCHRONOUS")]])) (* line 892 *);
  ("DiagnosticCommunicationManagerNeeds", (2, [CSuper [CArg 0; CArg 1] []; CSet "serviceRequestCallbackType" (CNone)])) (* line 915 *);
  ("DiagnosticRoutineNeeds", (2, [CSuper [CArg 0; CArg 1] []; CSet "diagRoutineType" (CNone); CSet "RidNumber" (CNone)])) (* line 965 *);
  ("DiagnosticValueAccessEnum", (0, [CSuper [CFresh "list"] [("DiagnosticValueAccessEnum", "READ_ONLY"); ("DiagnosticValueAccessEnum", "READ_WRITE"); ("DiagnosticValueAccessEnum", "WRITE_ONLY")]])) (* line 1043 *);
  ("DiagnosticProcessingStyleEnum", (0, [CSuper [CFresh "list"] [("DiagnosticProcessingStyleEnum", "PROCESSING_STYLE_ASYNCHRONOUS"); ("DiagnosticProcessingStyleEnum", "PROCESSING_STYLE_ASYNCHRONOUS_WITH_ERROR"); ("DiagnosticProcessingStyleEnum", "PROCESSING_STYLE_SYNCHRONOUS")]])) (* line 1072 *);
  ("DiagnosticValueNeeds", (2, [CSuper [CArg 0; CArg 1] []; CSet "dataLength" (CNone); CSet "diagnosticValueAccess" (CNone); CSet "DidNumber" (CNone); CSet "fixedLength" (CNone); CSet "processingStyle" (CNone)])) (* line 1104 *);
  ("DiagEventDebounceAlgorithm", (2, [CAbstract "DiagEventDebounceAlgorithm"; CSuper [CArg 0; CArg 1] []])) (* line 1250 *);
  ("DiagEventDebounceCounterBased", (2, [CSuper [CArg 0; CArg 1] []; CSet "counterBasedFdcThresholdStorageValue" (CNone); CSet "counterDecrementStepSize" (CNone); CSet "counterFailedThreshold" (CNone); CSet "counterIncrementStepSize" (CNone); CSet "counterJumpDown" (CNone); CSet "counterJumpDownValue" (CNone); CSet "counterJumpUp" (CNone); CSet "counterJumpUpValue" (CNone); CSet "counterPassedThreshold" (CNone)])) (* line 1292 *);
  ("DiagEventDebounceMonitorInternal", (2, [CSuper [CArg 0; CArg 1] []])) (* line 1394 *);
  ("DiagEventDebounceTimeBased", (2, [CSuper [CArg 0; CArg 1] []; CSet "timeBasedFdcThresholdStorageValue" (CNone); CSet "timeFailedThreshold" (CNone); CSet "timePassedThreshold" (CNone)])) (* line 1420 *);
  ("DtcKindEnum", (0, [CSuper [CList] []])) (* line 1468 *);
  ("DiagnosticEventInfoNeeds", (2, [CSuper [CArg 0; CArg 1] []; CSet "dtcKind" (CNone); CSet "obdDtcNumber" (CNone); CSet "udsDtcNumber" (CNone)])) (* line 1490 *);
  ("DiagnosticClearDtcNotificationEnum", (0, [CSuper [CList] []])) (* line 1589 *);
  ("DtcFormatTypeEnum", (0, [CSuper [CList] []])) (* line 1605 *);
  ("DtcStatusChangeNotificationNeeds", (2, [CSuper [CArg 0; CArg 1] []; CSet "dtcFormatType" (CNone); CSet "notificationTime" (CNone)])) (* line 1625 *);
  ("DiagnosticEventNeeds", (2, [CSuper [CArg 0; CArg 1] []; CSet "deferringFidRefs" (CList); CSet "diagEventDebounceAlgorithm" (CNone); CSet "inhibitingFidRef" (CNone); CSet "inhibitingSecondaryFidRefs" (CList); CSet "prestoredFreezeframeStoredInNvm" (CNone); CSet "usesMonitorData" (CNone)])) (* line 1714 *);
  ("CryptoServiceNeeds", (2, [CSuper [CArg 0; CArg 1] []; CSet "algorithmFamily" (CNone); CSet "algorithmMode" (CNone); CSet "cryptoKeyDescription" (CNone); CSet "maximumKeyLength" (CNone)])) (* line 1937 *);
  ("EcuStateMgrUserNeeds", (2, [CSuper [CArg 0; CArg 1] []])) (* line 2058 *);
  ("DltUserNeeds", (2, [CSuper [CArg 0; CArg 1] []])) (* line 2078 *);
  ("BswMgrNeeds", (2, [CSuper [CArg 0; CArg 1] []])) (* line 2098 *);
  ("ComMgrUserNeeds", (2, [CSuper [CArg 0; CArg 1] []; CSet "maxCommMode" (CNone)])) (* line 2121 *);
  ("CryptoKeyManagementNeeds", (2, [CSuper [CArg 0; CArg 1] []])) (* line 2168 *);
  ("CryptoServiceJobNeeds", (2, [CSuper [CArg 0; CArg 1] []])) (* line 2188 *);
  ("TracedFailure", (2, [CAbstract "TracedFailure"; CSuper [CArg 0; CArg 1] []; CSet "id" (CNone)])) (* line 2211 *);
  ("DevelopmentError", (2, [CSuper [CArg 0; CArg 1] []])) (* line 2263 *);
  ("DiagnosticComponentNeeds", (2, [CSuper [CArg 0; CArg 1] []])) (* line 2283 *);
  ("DiagnosticControlNeeds", (2, [CSuper [CArg 0; CArg 1] []])) (* line 2303 *);
  ("DiagnosticDenominatorConditionEnum", (0, [CSuper [CFresh "list"] [("DiagnosticDenominatorConditionEnum", "_500MILES"); ("DiagnosticDenominatorConditionEnum", "COLDSTART"); ("DiagnosticDenominatorConditionEnum", "CSERS"); ("DiagnosticDenominatorConditionEnum", "EVAP"); ("DiagnosticDenominatorConditionEnum", "EVAPPURGEFLOW"); ("DiagnosticDenominatorConditionEnum", "INDIVIDUAL"); ("DiagnosticDenominatorConditionEnum", "OBD")]])) (* line 2339 *);
  ("DiagnosticEnableConditionNeeds", (2, [CSuper [CArg 0; CArg 1] []; CSet "initialStatus" (CNone)])) (* line 2365 *);
  ("DiagnosticEventManagerNeeds", (2, [CSuper [CArg 0; CArg 1] []])) (* line 2411 *);
  ("DiagnosticIoControlNeeds", (2, [CSuper [CArg 0; CArg 1] []; CSet "currentValueRef" (CNone); CSet "freezeCurrentStateSupported" (CNone); CSet "resetToDefaultSupported" (CNone); CSet "shortTermAdjustmentSupported" (CNone)])) (* line 2440 *);
  ("DiagnosticMonitorUpdateKindEnum", (0, [CSuper [CFresh "list"] [("DiagnosticMonitorUpdateKindEnum", "ALWAYS"); ("DiagnosticMonitorUpdateKindEnum", "STEADY")]])) (* line 2575 *);
  ("DiagnosticOperationCycleNeeds", (2, [CSuper [CArg 0; CArg 1] []; CSet "operationCycle" (CNone)])) (* line 2599 *);
  ("DiagnosticRequestFileTransferNeeds", (2, [CSuper [CArg 0; CArg 1] []])) (* line 2646 *);
  ("DiagnosticStorageConditionNeeds", (2, [CSuper [CArg 0; CArg 1] []; CSet "initialStatus" (CNone)])) (* line 2669 *);
  ("DiagnosticUploadDownloadNeeds", (2, [CSuper [CArg 0; CArg 1] []])) (* line 2715 *);
  ("DiagnosticsCommunicationSecurityNeeds", (2, [CSuper [CArg 0; CArg 1] []])) (* line 2735 *);
  ("DoIpActivationLineNeeds", (2, [CSuper [CArg 0; CArg 1] []])) (* line 2755 *);
  ("DoIpGidNeeds", (2, [CSuper [CArg 0; CArg 1] []])) (* line 2775 *);
  ("DoIpGidSynchronizationNeeds", (2, [CSuper [CArg 0; CArg 1] []])) (* line 2795 *);
  ("DoIpPowerModeStatusNeeds", (2, [CSuper [CArg 0; CArg 1] []])) (* line 2815 *);
  ("DoIpServiceNeeds", (2, [CAbstract "DoIpServiceNeeds"; CSuper [CArg 0; CArg 1] []])) (* line 2836 *);
  ("DoIpRoutingActivationAuthenticationNeeds", (2, [CSuper [CArg 0; CArg 1] []; CSet "dataLengthRequest" (CNone); CSet "dataLengthResponse" (CNone); CSet "routingActivationType" (CNone)])) (* line 2859 *);
  ("DoIpRoutingActivationConfirmationNeeds", (2, [CSuper [CArg 0; CArg 1] []; CSet "dataLengthRequest" (CNone); CSet "dataLengthResponse" (CNone); CSet "routingActivationType" (CNone)])) (* line 2960 *);
  ("ErrorTracerNeeds", (2, [CSuper [CArg 0; CArg 1] []; CSet "tracedFailures" (CList)])) (* line 3059 *);
  ("EventAcceptanceStatusEnum", (0, [CSuper [CFresh "list"] [("EventAcceptanceStatusEnum", "EVENT_ACCEPTANCE_DISABLED"); ("EventAcceptanceStatusEnum", "EVENT_ACCEPTANCE_ENABLED")]])) (* line 3143 *);
  ("FunctionInhibitionAvailabilityNeeds", (2, [CSuper [CArg 0; CArg 1] []; CSet "controlledFidRef" (CNone)])) (* line 3164 *);
  ("FunctionInhibitionNeeds", (2, [CSuper [CArg 0; CArg 1] []])) (* line 3211 *);
  ("FurtherActionByteNeeds", (2, [CSuper [CArg 0; CArg 1] []])) (* line 3231 *);
  ("GlobalSupervisionNeeds", (2, [CSuper [CArg 0; CArg 1] []])) (* line 3251 *);
  ("HardwareTestNeeds", (2, [CSuper [CArg 0; CArg 1] []])) (* line 3271 *);
  ("IdsMgrCustomTimestampNeeds", (2, [CSuper [CArg 0; CArg 1] []])) (* line 3291 *);
  ("IdsMgrNeeds", (2, [CSuper [CArg 0; CArg 1] []; CSet "useSmartSensorApi" (CNone)])) (* line 3314 *);
  ("DiagnosticIndicatorTypeEnum", (0, [CSuper [CFresh "list"] [("DiagnosticIndicatorTypeEnum", "AMBER_WARNING"); ("DiagnosticIndicatorTypeEnum", "MALFUNCTION"); ("DiagnosticIndicatorTypeEnum", "PROTECT_LAMP"); ("DiagnosticIndicatorTypeEnum", "RED_STOP_LAMP"); ("DiagnosticIndicatorTypeEnum", "WARNING")]])) (* line 3370 *);
  ("IndicatorStatusNeeds", (2, [CSuper [CArg 0; CArg 1] []; CSet "type" (CNone)])) (* line 3397 *);
  ("J1939DcmDm19Support", (2, [CSuper [CArg 0; CArg 1] []])) (* line 3444 *);
  ("J1939RmIncomingRequestServiceNeeds", (2, [CSuper [CArg 0; CArg 1] []])) (* line 3464 *);
  ("J1939RmOutgoingRequestServiceNeeds", (2, [CSuper [CArg 0; CArg 1] []])) (* line 3484 *);
  ("MaxCommModeEnum", (0, [CSuper [CFresh "list"] [("MaxCommModeEnum", "FULL"); ("MaxCommModeEnum", "NONE"); ("MaxCommModeEnum", "SILENT")]])) (* line 3514 *);
  ("ObdControlServiceNeeds", (2, [CSuper [CArg 0; CArg 1] []])) (* line 3537 *);
  ("ObdInfoServiceNeeds", (2, [CSuper [CArg 0; CArg 1] []])) (* line 3558 *);
  ("ObdMonitorServiceNeeds", (2, [CSuper [CArg 0; CArg 1] []; CSet "applicationDataTypeRef" (CNone); CSet "eventNeedsRef" (CNone); CSet "unitAndScalingId" (CNone); CSet "updateKind" (CNone)])) (* line 3587 *);
  ("ObdPidServiceNeeds", (2, [CSuper [CArg 0; CArg 1] []])) (* line 3716 *);
  ("ObdRatioConnectionKindEnum", (0, [CSuper [CFresh "list"] [("ObdRatioConnectionKindEnum", "API_USE"); ("ObdRatioConnectionKindEnum", "OBSERVER")]])) (* line 3742 *);
  ("ObdRatioDenominatorNeeds", (2, [CSuper [CArg 0; CArg 1] []; CSet "denominatorCondition" (CNone)])) (* line 3763 *);
  ("ObdRatioServiceNeeds", (2, [CSuper [CArg 0; CArg 1] []; CSet "connectionType" (CNone); CSet "rateBasedMonitoredEventRef" (CNone); CSet "usedFidRef" (CNone)])) (* line 3810 *);
  ("OperationCycleTypeEnum", (0, [CSuper [CFresh "list"] [("OperationCycleTypeEnum", "IGNITION"); ("OperationCycleTypeEnum", "OBD_DCY"); ("OperationCycleTypeEnum", "OTHER"); ("OperationCycleTypeEnum", "POWER"); ("OperationCycleTypeEnum", "TIME"); ("OperationCycleTypeEnum", "WARMUP")]])) (* line 3912 *);
  ("RuntimeError", (2, [CSuper [CArg 0; CArg 1] []])) (* line 3935 *);
  ("SecureOnBoardCommunicationNeeds", (2, [CSuper [CArg 0; CArg 1] []; CSet "verificationStatusIndicationMode" (CNone)])) (* line 3958 *);
  ("ServiceProviderEnum", (0, [CSuper [CFresh "list"] [("ServiceProviderEnum", "ANY_STANDARDIZED"); ("ServiceProviderEnum", "BASIC_SOFTWARE_MODE_MANAGER"); ("ServiceProviderEnum", "COM_MANAGER"); ("ServiceProviderEnum", "CRYPTO_KEY_MANAGEMENT"); ("ServiceProviderEnum", "CRYPTO_SERVICE_MANAGER"); ("ServiceProviderEnum", "DEFAULT_ERROR_TRACER"); ("ServiceProviderEnum", "DIAGNOSTIC_COMMUNICATION_MANAGER"); ("ServiceProviderEnum", "DIAGNOSTIC_EVENT_MANAGER"); ("ServiceProviderEnum", "DIAGNOSTIC_LOG_AND_TRACE"); ("ServiceProviderEnum", "ECU_MANAGER"); ("ServiceProviderEnum", "ERROR_TRACER"); ("ServiceProviderEnum", "FUNCTION_INHIBITION_MANAGER"); ("ServiceProviderEnum", "HARDWARE_TEST_MANAGER"); ("ServiceProviderEnum", "INTRUSION_DETECTION_SECURITY_MANAGEMENT"); ("ServiceProviderEnum", "J1939_DCM"); ("ServiceProviderEnum", "J1939_REQUEST_MANAGER"); ("ServiceProviderEnum", "NON_VOLATILE_RAM_MANAGER"); ("ServiceProviderEnum", "OPERATING_SYSTEM"); ("ServiceProviderEnum", "SECURE_ON_BOARD_COMMUNICATION"); ("ServiceProviderEnum", "SYNC_BASE_TIME_MANAGER"); ("ServiceProviderEnum", "V2X_FACILITIES"); ("ServiceProviderEnum", "V2X_MANAGEMENT"); ("ServiceProviderEnum", "VENDOR_SPECIFIC")]])) (* line 4069 *);
  ("StorageConditionStatusEnum", (0, [CSuper [CFresh "list"] [("StorageConditionStatusEnum", "EVENT_STORAGE_DISABLE"); ("StorageConditionStatusEnum", "EVENT_STORAGE_ENABLE")]])) (* line 4115 *);
  ("SupervisedEntityCheckpointNeeds", (2, [CSuper [CArg 0; CArg 1] []])) (* line 4133 *);
  ("SupervisedEntityNeeds", (2, [CSuper [CArg 0; CArg 1] []; CSet "activateAtStart" (CNone); CSet "checkpointsRefs" (CList); CSet "enableDeactivation" (CNone); CSet "expectedAliveCycle" (CNone); CSet "maxAliveCycle" (CNone); CSet "minAliveCycle" (CNone); CSet "toleratedFailedCycles" (CNone)])) (* line 4168 *);
  ("SymbolicNameProps", (2, [CSuper [CArg 0; CArg 1] []])) (* line 4380 *);
  ("SyncTimeBaseMgrUserNeeds", (2, [CSuper [CArg 0; CArg 1] []])) (* line 4400 *);
  ("PossibleErrorReaction", (2, [CSuper [CArg 0; CArg 1] []; CSet "reactionCode" (CNone)])) (* line 4421 *);
  ("TransientFault", (2, [CSuper [CArg 0; CArg 1] []; CSet "possibleErrorReactions" (CList)])) (* line 4471 *);
  ("V2xDataManagerNeeds", (2, [CSuper [CArg 0; CArg 1] []])) (* line 4519 *);
  ("V2xFacUserNeeds", (2, [CSuper [CArg 0; CArg 1] []])) (* line 4539 *);
  ("V2xMUserNeeds", (2, [CSuper [CArg 0; CArg 1] []])) (* line 4559 *);
  ("VendorSpecificServiceNeeds", (2, [CSuper [CArg 0; CArg 1] []])) (* line 4579 *);
  ("VerificationStatusIndicationModeEnum", (0, [CSuper [CFresh "list"] [("VerificationStatusIndicationModeEnum", "FAILURE_AND_SUCCESS"); ("VerificationStatusIndicationModeEnum", "FAILURE_ONLY")]])) (* line 4605 *);
  ("WarningIndicatorRequestedBitNeeds", (2, [CSuper [CArg 0; CArg 1] []])) (* line 4623 *);
  (* models/M2/AUTOSARTemplates/CommonStructure/SignalServiceTranslation.py *)
  ("SignalServiceTranslationControlEnum", (0, [CSuper [CFresh "list"] [("SignalServiceTranslationControlEnum", "ALL_PARTIAL_NETWORKS_ACTIVE"); ("SignalServiceTranslationControlEnum", "ANY_PARTIAL_NETWORK_ACTIVE"); ("SignalServiceTranslationControlEnum", "PARTIAL_NETWORK"); ("SignalServiceTranslationControlEnum", "SERVICE_DISCOVERY"); ("SignalServiceTranslationControlEnum", "TRANSLATION_START")]])) (* line 38 *);
  ("SignalServiceTranslationElementProps", (2, [CSuper [CArg 0; CArg 1] []; CSet "element" (CNone); CSet "filter" (CNone); CSet "transmissionTrigger" (CNone)])) (* line 67 *);
  ("SignalServiceTranslationEventProps", (2, [CSuper [CArg 0; CArg 1] []; CSet "elementProps" (CList); CSet "safeTranslation" (CNone); CSet "secureTranslation" (CNone); CSet "translationTarget" (CNone)])) (* line 145 *);
  ("SignalServiceTranslationProps", (2, [CSuper [CArg 0; CArg 1] []; CSet "controlConsumedEventGroupRefs" (CList); CSet "controlPncRefs" (CList); CSet "controlProvidedEventGroupRefs" (CList); CSet "serviceControl" (CNone); CSet "signalServiceTranslationEventProps" (CList)])) (* line 242 *);
  ("SignalServiceTranslationPropsSet", (2, [CSuper [CArg 0; CArg 1] []; CSet "signalServiceTranslationProps" (CList)])) (* line 349 *);
  (* models/M2/AUTOSARTemplates/CommonStructure/SwcBswMapping.py *)
  ("SwcBswRunnableMapping", (0, [CSuper [] []; CSet "bswEntityRef" (CNone); CSet "swcRunnableRef" (CNone)])) (* line 35 *);
  ("SwcBswMapping", (2, [CSuper [CArg 0; CArg 1] []; CSet "bswBehaviorRef" (CNone); CSet "runnableMappings" (CList); CSet "swcBehaviorRef" (CNone); CSet "synchronizedModeGroups" (CList); CSet "synchronizedTriggers" (CList)])) (* line 114 *);
  ("SwcBswSynchronizedModeGroupPrototype", (0, [CSuper [] []; CSet "bswModeGroupRef" (CNone); CSet "swcModeGroupIRef" (CNone)])) (* line 293 *);
  ("SwcBswSynchronizedTrigger", (0, [CSuper [] []; CSet "bswTriggerRef" (CNone); CSet "swcTriggerIRef" (CNone)])) (* line 367 *);
  (* models/M2/AUTOSARTemplates/CommonStructure/TriggerDeclaration.py *)
  ("Trigger", (2, [CSuper [CArg 0; CArg 1] []; CSet "swImplPolicy" (CNone); CSet "triggerPeriod" (CNone)])) (* line 26 *);
  ("TriggerMapping", (0, [CSuper [] []; CSet "firstTriggerRef" (CNone); CSet "secondTriggerRef" (CNone)])) (* line 103 *);
  (* models/M2/AUTOSARTemplates/CommonStructure/Constants/__init__.py *)
  ("ValueSpecification", (0, [CAbstract "ValueSpecification"; CSuper [] []; CSet "shortLabel" (CNone)])) (* line 39 *);
  ("CompositeValueSpecification", (0, [CAbstract "CompositeValueSpecification"; CSuper [] []])) (* line 74 *);
  ("AbstractRuleBasedValueSpecification", (0, [CAbstract "AbstractRuleBasedValueSpecification"; CSuper [] []])) (* line 94 *);
  ("CompositeRuleBasedValueArgument", (0, [CAbstract "CompositeRuleBasedValueArgument"; CSuper [] []])) (* line 110 *);
  ("ApplicationValueSpecification", (0, [CBase "CompositeRuleBasedValueArgument" []; CBase "ValueSpecification" []; CSet "category" (CNone); CSet "swAxisCont" (CList); CSet "swValueCont" (CNone)])) (* line 138 *);
  ("RecordValueSpecification", (0, [CSuper [] []; CSet "fields" (CList)])) (* line 234 *);
  ("TextValueSpecification", (0, [CSuper [] []; CSet "value" (CNone)])) (* line 273 *);
  ("NumericalValueSpecification", (0, [CSuper [] []; CSet "value" (CNone)])) (* line 317 *);
  ("ArrayValueSpecification", (0, [CSuper [] []; CSet "element" (CList); CSet "intendedPartialInitializationCount" (CNone)])) (* line 364 *);
  ("ConstantSpecification", (2, [CSuper [CArg 0; CArg 1] []; CSet "valueSpec" (CNone)])) (* line 428 *);
  ("ConstantReference", (0, [CSuper [] []; CSet "constantRef" (CNone)])) (* line 476 *);
  ("ApplicationRuleBasedValueSpecification", (0, [CSuper [] []; CSet "category" (CNone); CSet "swAxisConts" (CList); CSet "swValueCont" (CNone)])) (* line 527 *);
  ("CompositeRuleBasedValueSpecification", (0, [CSuper [] []; CSet "arguments" (CList); CSet "compoundPrimitiveArguments" (CList); CSet "maxSizeToFill" (CNone); CSet "rule" (CNone)])) (* line 651 *);
  ("ConstantSpecificationMapping", (0, [CSuper [] []; CSet "sourceRef" (CNone); CSet "targetRef" (CNone)])) (* line 739 *);
  ("ConstantSpecificationMappingSet", (0, [CSuper [] []; CSet "mappings" (CList)])) (* line 769 *);
  ("NotAvailableValueSpecification", (0, [CSuper [] []; CSet "reason" (CNone)])) (* line 790 *);
  ("NumericalOrText", (0, [CSuper [] []; CSet "vf" (CNone); CSet "vt" (CNone)])) (* line 821 *);
  ("NumericalRuleBasedValueSpecification", (0, [CSuper [] []; CSet "ruleBasedValues" (CNone)])) (* line 892 *);
  ("ReferenceValueSpecification", (0, [CSuper [] []; CSet "valueSpecRef" (CNone)])) (* line 914 *);
  ("RuleArguments", (0, [CSuper [] []; CSet "v" (CNone); CSet "vf" (CNone); CSet "vt" (CNone); CSet "vtf" (CNone)])) (* line 945 *);
  ("RuleBasedAxisCont", (0, [CSuper [] []; CSet "category" (CNone); CSet "unitRef" (CNone); CSet "swArraysize" (CNone); CSet "swAxisIndex" (CNone); CSet "ruleBasedValues" (CNone)])) (* line 1080 *);
  ("RuleBasedValueCont", (0, [CSuper [] []; CSet "ruleBasedValues" (CNone); CSet "swArraysize" (CNone); CSet "unitRef" (CNone)])) (* line 1141 *);
  ("RuleBasedValueSpecification", (0, [CSuper [] []; CSet "arguments" (CList); CSet "maxSizeToFill" (CNone); CSet "rule" (CNone)])) (* line 1246 *);
  (* models/M2/AUTOSARTemplates/CommonStructure/MeasurementCalibrationSupport/__init__.py *)
  ("RteEventInEcuInstanceRef", (0, [CSuper [] []; CSet "baseRef" (CNone); CSet "contextRootCompositionRef" (CNone); CSet "contextAtomicComponentRef" (CNone); CSet "targetRteEventRef" (CNone)])) (* line 39 *);
  ("VariableAccessInEcuInstanceRef", (0, [CSuper [] []; CSet "baseRef" (CNone); CSet "contextRootCompositionRef" (CNone); CSet "contextAtomicComponentRef" (CNone); CSet "targetVariableAccessRef" (CNone)])) (* line 173 *);
  ("McDataAccessDetails", (0, [CSuper [] []; CSet "rteEventIRefs" (CList); CSet "variableAccessIRefs" (CList)])) (* line 303 *);
  ("McParameterElementGroup", (0, [CSuper [] []; CSet "ramLocationRef" (CNone); CSet "romLocationRef" (CNone); CSet "shortLabel" (CNone)])) (* line 382 *);
  ("McSwEmulationMethodSupport", (0, [CSuper [] []; CSet "baseReferenceRef" (CNone); CSet "category" (CNone); CSet "elementGroups" (CList); CSet "referenceTableRef" (CNone); CSet "shortLabel" (CNone)])) (* line 490 *);
  ("ImplementationElementInParameterInstanceRef", (0, [CSuper [] []; CSet "contextRef" (CNone); CSet "targetRef" (CNone)])) (* line 648 *);
  ("McFunction", (2, [CSuper [CArg 0; CArg 1] []; CSet "defCalprmSet" (CNone); CSet "inMeasurementSet" (CNone); CSet "locMeasurementSet" (CNone); CSet "outMeasurementSet" (CNone); CSet "refCalprmSet" (CNone); CSet "subFunctionRefs" (CList)])) (* line 733 *);
  ("RoleBasedMcDataAssignment", (0, [CSuper [] []; CSet "executionContextRefs" (CList); CSet "mcDataInstanceRefs" (CList); CSet "role" (CNone)])) (* line 922 *);
  ("McDataInstance", (2, [CSuper [CArg 0; CArg 1] []; CSet "arraySize" (CNone); CSet "displayIdentifier" (CNone); CSet "flatMapEntryRef" (CNone); CSet "instanceInMemory" (CNone); CSet "mcDataAccessDetails" (CNone); CSet "mcDataAssignments" (CList); CSet "resultingProperties" (CNone); CSet "resultingRptSwPrototypingAccess" (CNone); CSet "role" (CNone); CSet "rptImplPolicy" (CNone); CSet "subElements" (CList); CSet "symbol" (CNone)])) (* line 1044 *);
  ("McSupportData", (0, [CSuper [] []; CSet "emulationSupports" (CList); CSet "mcParameterInstances" (CList); CSet "mcVariableInstances" (CList); CSet "measurableSystemConstantValuesRefs" (CList); CSet "rptSupportData" (CNone)])) (* line 1402 *);
  (* models/M2/AUTOSARTemplates/CommonStructure/MeasurementCalibrationSupport/RptSupport/__init__.py *)
  ("RptAccessEnum", (0, [CSuper [CFresh "list"] [("RptAccessEnum", "ENABLED"); ("RptAccessEnum", "NONE"); ("RptAccessEnum", "PROTECTED")]])) (* line 37 *);
  ("RptEnablerImplTypeEnum", (0, [CSuper [CFresh "list"] [("RptEnablerImplTypeEnum", "NONE"); ("RptEnablerImplTypeEnum", "RPT_ENABLER_RAM"); ("RptEnablerImplTypeEnum", "RPT_ENABLER_ROM"); ("RptEnablerImplTypeEnum", "RPT_ENABLER_RAM_AND_ROM")]])) (* line 69 *);
  ("RptExecutionControlEnum", (0, [CSuper [CFresh "list"] [("RptExecutionControlEnum", "CONDITIONAL"); ("RptExecutionControlEnum", "NONE")]])) (* line 96 *);
  ("RptPreparationEnum", (0, [CSuper [CFresh "list"] [("RptPreparationEnum", "NONE"); ("RptPreparationEnum", "RPT_LEVEL_1"); ("RptPreparationEnum", "RPT_LEVEL_2"); ("RptPreparationEnum", "RPT_LEVEL_3")]])) (* line 127 *);
  ("RptExecutionContext", (2, [CSuper [CArg 0; CArg 1] []])) (* line 148 *);
  ("RptSwPrototypingAccess", (0, [CSuper [] []; CSet "rptHookAccess" (CNone); CSet "rptReadAccess" (CNone); CSet "rptWriteAccess" (CNone)])) (* line 175 *);
  ("RptServicePoint", (2, [CSuper [CArg 0; CArg 1] []; CSet "serviceId" (CNone); CSet "symbol" (CNone)])) (* line 277 *);
  ("McFunctionDataRefSet", (0, [CSuper [] []; CSet "flatMapEntryRefs" (CList); CSet "mcDataInstanceRefs" (CList)])) (* line 356 *);
  ("RptExecutableEntityEvent", (2, [CSuper [CArg 0; CArg 1] []; CSet "executionContextRefs" (CList); CSet "mcDataAssignments" (CList); CSet "rptEventId" (CNone); CSet "rptExecutableEntityProperties" (CNone); CSet "rptImplPolicy" (CNone); CSet "rptServicePointPostRefs" (CList); CSet "rptServicePointPreRefs" (CList)])) (* line 441 *);
  ("RptExecutableEntity", (2, [CSuper [CArg 0; CArg 1] []; CSet "rptExecutableEntityEvents" (CList); CSet "rptReads" (CList); CSet "rptWrites" (CList); CSet "symbol" (CNone)])) (* line 659 *);
  ("RptComponent", (2, [CSuper [CArg 0; CArg 1] []; CSet "mcDataAssignments" (CList); CSet "rpImplPolicy" (CNone); CSet "rptExecutableEntities" (CList)])) (* line 797 *);
  ("RptSupportData", (0, [CSuper [] []; CSet "executionContexts" (CList); CSet "rptComponents" (CList); CSet "rptServicePoints" (CList)])) (* line 908 *);
  (* models/M2/AUTOSARTemplates/CommonStructure/ResourceConsumption/HeapUsage.py *)
  ("HeapUsage", (2, [CAbstract "HeapUsage"; CSuper [CArg 0; CArg 1] []; CSet "hardwareConfiguration" (CNone); CSet "hwElementRef" (CNone); CSet "softwareContext" (CNone)])) (* line 35 *);
  ("MeasuredHeapUsage", (2, [CSuper [CArg 0; CArg 1] []; CSet "averageMemoryConsumption" (CNone); CSet "maximumMemoryConsumption" (CNone); CSet "minimumMemoryConsumption" (CNone); CSet "testPattern" (CNone)])) (* line 149 *);
  ("RoughEstimateHeapUsage", (2, [CSuper [CArg 0; CArg 1] []; CSet "memoryConsumption" (CNone)])) (* line 280 *);
  ("WorstCaseHeapUsage", (2, [CSuper [CArg 0; CArg 1] []; CSet "memoryConsumption" (CNone)])) (* line 330 *);
  (* models/M2/AUTOSARTemplates/CommonStructure/ResourceConsumption/MemorySectionUsage.py *)
  ("MemorySection", (2, [CSuper [CArg 0; CArg 1] []; CSet "alignment" (CNone); CSet "executableEntityRefs" (CList); CSet "memClassSymbol" (CNone); CSet "options" (CList); CSet "prefixRef" (CNone); CSet "size" (CNone); CSet "swAddrMethodRef" (CNone); CSet "symbol" (CNone)])) (* line 40 *);
  ("SectionNamePrefix", (2, [CSuper [CArg 0; CArg 1] []; CSet "implementedInRef" (CNone)])) (* line 325 *);
  (* models/M2/AUTOSARTemplates/CommonStructure/ResourceConsumption/StackUsage.py *)
  ("StackUsage", (2, [CAbstract "StackUsage"; CSuper [CArg 0; CArg 1] []; CSet "executableEntityRef" (CNone); CSet "hardwareConfiguration" (CNone); CSet "hwElementRef" (CNone); CSet "softwareContext" (CNone)])) (* line 36 *);
  ("MeasuredStackUsage", (2, [CSuper [CArg 0; CArg 1] []; CSet "averageMemoryConsumption" (CNone); CSet "maximumMemoryConsumption" (CNone); CSet "minimumMemoryConsumption" (CNone); CSet "testPattern" (CNone)])) (* line 179 *);
  ("RoughEstimateStackUsage", (2, [CSuper [CArg 0; CArg 1] []; CSet "memoryConsumption" (CNone)])) (* line 310 *);
  ("WorstCaseStackUsage", (2, [CSuper [CArg 0; CArg 1] []; CSet "memoryConsumption" (CNone)])) (* line 360 *);
  (* models/M2/AUTOSARTemplates/CommonStructure/ResourceConsumption/__init__.py *)
  ("HardwareConfiguration", (0, [CSuper [] []; CSet "additionalInformation" (CNone); CSet "processorMode" (CNone); CSet "processorSpeed" (CNone)])) (* line 42 *);
  ("SoftwareContext", (0, [CSuper [] []; CSet "input" (CNone); CSet "state" (CNone)])) (* line 157 *);
  ("ResourceConsumption", (2, [CSuper [CArg 0; CArg 1] []; CSet "accessCountSets" (CList); CSet "executionTimes" (CList); CSet "heapUsages" (CList); CSet "memorySections" (CList); CSet "sectionNamePrefixes" (CList); CSet "stackUsages" (CList)])) (* line 249 *);
  (* models/M2/AUTOSARTemplates/CommonStructure/ResourceConsumption/ExecutionTime/__init__.py *)
  ("ExecutionTime", (2, [CAbstract "ExecutionTime"; CSuper [CArg 0; CArg 1] []; CSet "exclusiveAreaRef" (CNone); CSet "executableEntityRef" (CNone); CSet "hardwareConfiguration" (CNone); CSet "hwElementRef" (CNone); CSet "includedLibraryRefs" (CList); CSet "memorySectionLocations" (CList); CSet "softwareContext" (CNone)])) (* line 44 *);
  ("MemorySectionLocation", (0, [CSuper [] []; CSet "providedMemoryRef" (CNone); CSet "softwareMemorySectionRef" (CNone)])) (* line 276 *);
  ("AnalyzedExecutionTime", (2, [CSuper [CArg 0; CArg 1] []; CSet "bestCaseExecutionTime" (CNone); CSet "worstCaseExecutionTime" (CNone)])) (* line 356 *);
  ("MeasuredExecutionTime", (2, [CSuper [CArg 0; CArg 1] []; CSet "maximumExecutionTime" (CNone); CSet "minimumExecutionTime" (CNone); CSet "nominalExecutionTime" (CNone)])) (* line 443 *);
  ("SimulatedExecutionTime", (2, [CSuper [CArg 0; CArg 1] []; CSet "maximumExecutionTime" (CNone); CSet "minimumExecutionTime" (CNone); CSet "nominalExecutionTime" (CNone)])) (* line 553 *);
  ("RoughEstimateOfExecutionTime", (2, [CSuper [CArg 0; CArg 1] []; CSet "additionalInformation" (CNone); CSet "estimatedExecutionTime" (CNone)])) (* line 659 *);
  (* models/M2/AUTOSARTemplates/CommonStructure/StandardizationTemplate/Keyword.py *)
  ("Keyword", (2, [CSuper [CArg 0; CArg 1] []; CSet "abbrName" (CNone); CSet "classifications" (CList)])) (* line 27 *);
  ("KeywordSet", (2, [CSuper [CArg 0; CArg 1] []; CSet "keywords" (CList)])) (* line 102 *);
  (* models/M2/AUTOSARTemplates/CommonStructure/StandardizationTemplate/AbstractBlueprintStructure/AtpBlueprint.py *)
  ("AtpBlueprint", (2, [CAbstract "AtpBlueprint"; CSuper [CArg 0; CArg 1] []; CSet "blueprintPolicys" (CList)])) (* line 26 *);
  (* models/M2/AUTOSARTemplates/CommonStructure/StandardizationTemplate/BlueprintDedicated/PortPrototypeBlueprint.py *)
  ("PortPrototypeBlueprintInitValue", (0, [CSuper [] []; CSet "dataPrototypeRef" (CNone); CSet "value" (CNone)])) (* line 36 *);
  ("PortPrototypeBlueprint", (2, [CSuper [CArg 0; CArg 1] []; CSet "initValues" (CList); CSet "interfaceRef" (CNone); CSet "providedComSpecs" (CList); CSet "requiredComSpecs" (CList)])) (* line 107 *);
  (* models/M2/AUTOSARTemplates/CommonStructure/StandardizationTemplate/BlueprintGenerator/BlueprintGenerator.py *)
  ("BlueprintGenerator", (0, [CSuper [] []; CSet "expression" (CNone); CSet "introduction" (CNone)])) (* line 33 *);
  (* models/M2/AUTOSARTemplates/CommonStructure/StandardizationTemplate/BlueprintMapping/BlueprintMappingSet.py *)
  ("BlueprintMappingSet", (0, [CSuper [] []; CSet "mappings" (CList)])) (* line 16 *);
  (* models/M2/AUTOSARTemplates/CommonStructure/Timing/Traceable.py *)
  ("Traceable", (2, [CAbstract "Traceable"; CSuper [CArg 0; CArg 1] []])) (* line 15 *);
  (* models/M2/AUTOSARTemplates/CommonStructure/Timing/TimingClock/TDLETZoneClock.py *)
  ("TDLETZoneClock", (0, [CSuper [] []; CSet "clockRef" (CNone); CSet "zoneRef" (CNone)])) (* line 18 *);
  (* models/M2/AUTOSARTemplates/CommonStructure/Timing/TimingClock/TimingClock.py *)
  ("TimingClock", (0, [CSuper [] []; CSet "clockName" (CNone); CSet "clockType" (CNone)])) (* line 17 *);
  (* models/M2/AUTOSARTemplates/CommonStructure/Timing/TimingClock/TimingClockSyncAccuracy.py *)
  ("TimingClockSyncAccuracy", (0, [CSuper [] []; CSet "accuracy" (CNone); CSet "unit" (CNone)])) (* line 17 *);
  (* models/M2/AUTOSARTemplates/CommonStructure/Timing/TimingCondition/ModeInBswInstanceRef.py *)
  ("ModeInBswInstanceRef", (0, [CSuper [] []])) (* line 13 *);
  (* models/M2/AUTOSARTemplates/CommonStructure/Timing/TimingCondition/ModeInSwcInstanceRef.py *)
  ("ModeInSwcInstanceRef", (0, [CSuper [] []])) (* line 13 *);
  (* models/M2/AUTOSARTemplates/CommonStructure/Timing/TimingCondition/TimingCondition.py *)
  ("TimingCondition", (0, [CSuper [] []; CSet "conditionFormula" (CNone); CSet "modeInstances" (CList)])) (* line 18 *);
  (* models/M2/AUTOSARTemplates/CommonStructure/Timing/TimingCondition/TimingConditionFormula.py *)
  ("TimingConditionFormula", (0, [CSuper [] []; CSet "expression" (CNone)])) (* line 15 *);
  (* models/M2/AUTOSARTemplates/CommonStructure/Timing/TimingCondition/TimingExtensionResource.py *)
  ("TimingExtensionResource", (0, [CSuper [] []; CSet "resourceName" (CNone); CSet "resourceType" (CNone)])) (* line 17 *);
  (* models/M2/AUTOSARTemplates/CommonStructure/Timing/TimingCondition/TimingModeInstance.py *)
  ("TimingModeInstance", (0, [CSuper [] []; CSet "modeRef" (CNone); CSet "modeValue" (CNone)])) (* line 18 *);
  (* models/M2/AUTOSARTemplates/CommonStructure/Timing/TimingConstraint/AgeConstraint.py *)
  ("AgeConstraint", (2, [CSuper [CArg 0; CArg 1] []; CSet "age" (CNone)])) (* line 29 *);
  (* models/M2/AUTOSARTemplates/CommonStructure/Timing/TimingConstraint/EventTriggeringConstraint.py *)
  ("EventTriggeringConstraint", (2, [CAbstract "EventTriggeringConstraint"; CSuper [CArg 0; CArg 1] []])) (* line 36 *);
  ("PeriodicEventTriggering", (2, [CSuper [CArg 0; CArg 1] []; CSet "period" (CNone)])) (* line 54 *);
  ("SporadicEventTriggering", (2, [CSuper [CArg 0; CArg 1] []; CSet "min_inter_arrival_time" (CNone)])) (* line 86 *);
  ("ArbitraryEventTriggering", (2, [CSuper [CArg 0; CArg 1] []])) (* line 116 *);
  ("BurstPatternEventTriggering", (2, [CSuper [CArg 0; CArg 1] []; CSet "burst_size" (CNone); CSet "burst_interval" (CNone)])) (* line 140 *);
  ("ConcretePatternEventTriggering", (2, [CSuper [CArg 0; CArg 1] []])) (* line 179 *);
  ("ConfidenceInterval", (0, [CSuper [] []; CSet "confidence_level" (CNone); CSet "lower_bound" (CNone); CSet "upper_bound" (CNone)])) (* line 206 *);
  (* models/M2/AUTOSARTemplates/CommonStructure/Timing/TimingConstraint/ExecutionOrderConstraint.py *)
  ("EOCExecutableEntityRefAbstract", (2, [CAbstract "EOCExecutableEntityRefAbstract"; CSuper [CArg 0; CArg 1] []])) (* line 31 *);
  ("EOCExecutableEntityRef", (2, [CSuper [CArg 0; CArg 1] []; CSet "successor_refs" (CList)])) (* line 49 *);
  ("ExecutionOrderConstraint", (2, [CSuper [CArg 0; CArg 1] []; CSet "ordered_elements" (CList)])) (* line 85 *);
  ("EOCEventRef", (0, [CSuper [] []; CSet "eventRef" (CNone)])) (* line 127 *);
  ("EOCExecutableEntityRefGroup", (0, [CSuper [] []; CSet "entityRefs" (CList)])) (* line 168 *);
  (* models/M2/AUTOSARTemplates/CommonStructure/Timing/TimingConstraint/ExecutionTimeConstraint.py *)
  ("ExecutionTimeTypeEnum", (0, [CSuper [CFresh "list"] [("ExecutionTimeTypeEnum", "BEST_CASE"); ("ExecutionTimeTypeEnum", "WORST_CASE"); ("ExecutionTimeTypeEnum", "AVERAGE_CASE")]])) (* line 31 *);
  ("ExecutionTimeConstraint", (2, [CSuper [CArg 0; CArg 1] []; CSet "execution_type" (CNone); CSet "execution_time" (CNone)])) (* line 55 *);
  (* models/M2/AUTOSARTemplates/CommonStructure/Timing/TimingConstraint/LatencyTimingConstraint.py *)
  ("LatencyConstraintTypeEnum", (0, [CSuper [CFresh "list"] [("LatencyConstraintTypeEnum", "RESPONSE_TIME"); ("LatencyConstraintTypeEnum", "REACTION_TIME"); ("LatencyConstraintTypeEnum", "END_TO_END_LATENCY")]])) (* line 31 *);
  ("LatencyTimingConstraint", (2, [CSuper [CArg 0; CArg 1] []; CSet "latency_type" (CNone); CSet "latency" (CNone)])) (* line 55 *);
  (* models/M2/AUTOSARTemplates/CommonStructure/Timing/TimingConstraint/OffsetConstraint.py *)
  ("OffsetTimingConstraint", (2, [CSuper [CArg 0; CArg 1] []; CSet "offset" (CNone)])) (* line 28 *);
  (* models/M2/AUTOSARTemplates/CommonStructure/Timing/TimingConstraint/SynchronizationPointConstraint.py *)
  ("SynchronizationPointConstraint", (2, [CSuper [CArg 0; CArg 1] []; CSet "synchronization_point" (CNone)])) (* line 29 *);
  (* models/M2/AUTOSARTemplates/CommonStructure/Timing/TimingConstraint/SynchronizationTiming.py *)
  ("SynchronizationTypeEnum", (0, [CSuper [CFresh "list"] [("SynchronizationTypeEnum", "HARD_SYNCHRONIZATION"); ("SynchronizationTypeEnum", "SOFT_SYNCHRONIZATION"); ("SynchronizationTypeEnum", "NO_SYNCHRONIZATION")]])) (* line 31 *);
  ("EventOccurrenceKindEnum", (0, [CSuper [CFresh "list"] [("EventOccurrenceKindEnum", "START"); ("EventOccurrenceKindEnum", "END"); ("EventOccurrenceKindEnum", "START_AND_END")]])) (* line 53 *);
  ("SynchronizationTimingConstraint", (2, [CSuper [CArg 0; CArg 1] []; CSet "synchronization_type" (CNone); CSet "event_occurrence_kind" (CNone)])) (* line 77 *);
  (* models/M2/AUTOSARTemplates/CommonStructure/Timing/TimingConstraint/TimingConstraint.py *)
  ("TimingConstraint", (2, [CAbstract "TimingConstraint"; CSuper [CArg 0; CArg 1] []; CSet "timing_condition_ref" (CNone)])) (* line 35 *);
  (* models/M2/AUTOSARTemplates/CommonStructure/Timing/TimingConstraint/TimingExtensions.py *)
  ("TimingExtension", (2, [CAbstract "TimingExtension"; CSuper [CArg 0; CArg 1] []; CSet "timing_requirements" (CList)])) (* line 35 *);
  ("SwcTiming", (2, [CSuper [CArg 0; CArg 1] []])) (* line 79 *);
  (* models/M2/AUTOSARTemplates/DiagnosticExtract/DiagnosticCommonElement.py *)
  ("DiagnosticCommonElement", (2, [CAbstract "DiagnosticCommonElement"; CSuper [CArg 0; CArg 1] []])) (* line 16 *);
  (* models/M2/AUTOSARTemplates/DiagnosticExtract/DiagnosticContribution.py *)
  ("DiagnosticServiceTable", (2, [CSuper [CArg 0; CArg 1] []; CSet "diagnosticConnectionRefs" (CList); CSet "diagnosticServiceInstanceRefs" (CList); CSet "ecuInstanceRef" (CNone); CSet "protocolKind" (CNone)])) (* line 36 *);
  (* models/M2/AUTOSARTemplates/EcuResourceTemplate/HwAttributeValue.py *)
  ("HwAttributeValue", (0, [CSuper [] []; CSet "hwAttributeDefRef" (CNone); CSet "value" (CNone)])) (* line 26 *);
  ("HwAttributeLiteralDef", (2, [CSuper [CArg 0; CArg 1] []; CSet "value" (CNone)])) (* line 95 *);
  (* models/M2/AUTOSARTemplates/EcuResourceTemplate/HwElementCategory.py *)
  ("HwType", (2, [CSuper [CArg 0; CArg 1] []])) (* line 34 *);
  ("HwAttributeDef", (2, [CSuper [CArg 0; CArg 1] []; CSet "hwAttributeLiterals" (CList); CSet "isRequired" (CNone); CSet "unitRef" (CNone)])) (* line 64 *);
  ("HwCategory", (2, [CBase "PackageableElement" [CArg 0; CArg 1]; CBase "AtpDefinition" [CArg 0; CArg 1]; CSet "hwAttributeDefs" (CList)])) (* line 132 *);
  (* models/M2/AUTOSARTemplates/EcuResourceTemplate/__init__.py *)
  ("HwDescriptionEntity", (2, [CAbstract "HwDescriptionEntity"; CSuper [CArg 0; CArg 1] []; CSet "hwAttributeValues" (CList); CSet "hwCategoryRefs" (CList); CSet "hwTypeRef" (CNone)])) (* line 33 *);
  ("HwPin", (2, [CSuper [CArg 0; CArg 1] []; CSet "functionNames" (CList); CSet "packagingPinName" (CNone); CSet "pinNumber" (CNone)])) (* line 133 *);
  ("HwPinGroupContent", (0, [CSuper [] []; CSet "hwPin" (CNone); CSet "hwPinGroup" (CNone)])) (* line 207 *);
  ("HwPinGroup", (2, [CSuper [CArg 0; CArg 1] []; CSet "hwPinGroupContent" (CNone)])) (* line 281 *);
  ("HwPinConnector", (0, [CSuper [] []; CSet "hwPinRefs" (CList)])) (* line 333 *);
  ("HwPinGroupConnector", (0, [CSuper [] []; CSet "hwPinConnections" (CList); CSet "hwPinGroupRefs" (CList)])) (* line 379 *);
  ("HwElementConnector", (0, [CSuper [] []; CSet "hwElementRefs" (CList); CSet "hwPinConnections" (CList); CSet "hwPinGroupConnections" (CList)])) (* line 452 *);
  ("HwElement", (2, [CSuper [CArg 0; CArg 1] []; CSet "hwElementConnections" (CList); CSet "hwPinGroups" (CList); CSet "nestedElementRefs" (CList)])) (* line 549 *);
  (* models/M2/AUTOSARTemplates/GenericStructure/AbstractStructure.py *)
  ("AtpInstanceRef", (0, [CAbstract "AtpInstanceRef"; CSuper [] []; CSet "atpBaseRef" (CNone); CSet "atpContextElementRefs" (CList); CSet "atpTargetRef" (CNone)])) (* line 28 *);
  ("AtpBlueprintable", (2, [CAbstract "AtpBlueprintable"; CSuper [CArg 0; CArg 1] []])) (* line 125 *);
  ("AtpClassifier", (2, [CAbstract "AtpClassifier"; CSuper [CArg 0; CArg 1] []])) (* line 151 *);
  ("AtpFeature", (2, [CAbstract "AtpFeature"; CSuper [CArg 0; CArg 1] []])) (* line 183 *);
  ("AtpType", (2, [CAbstract "AtpType"; CSuper [CArg 0; CArg 1] []])) (* line 212 *);
  ("AtpPrototype", (2, [CAbstract "AtpPrototype"; CSuper [CArg 0; CArg 1] []])) (* line 244 *);
  ("AtpStructureElement", (2, [CAbstract "AtpStructureElement"; CSuper [CArg 0; CArg 1] []])) (* line 289 *);
  ("AtpBlueprintMapping", (0, [CAbstract "AtpBlueprintMapping"; CSuper [] []])) (* line 319 *);
  (* models/M2/AUTOSARTemplates/GenericStructure/LifeCycles.py *)
  ("LifeCyclePeriod", (0, [CSuper [] []; CSet "arReleaseVersion" (CNone); CSet "date" (CNone); CSet "productRelease" (CNone)])) (* line 30 *);
  ("LifeCycleInfo", (0, [CSuper [] []; CSet "lcObjectRef" (CNone); CSet "lcStateRef" (CNone); CSet "periodBegin" (CNone); CSet "periodEnd" (CNone); CSet "remark" (CNone); CSet "useInsteadRefs" (CList)])) (* line 131 *);
  ("LifeCycleInfoSet", (2, [CSuper [CArg 0; CArg 1] []; CSet "defaultLcStateRef" (CNone); CSet "defaultPeriodBegin" (CNone); CSet "defaultPeriodEnd" (CNone); CSet "lifeCycleInfos" (CList); CSet "usedLifeCycleStateDefinitionGroupRef" (CNone)])) (* line 305 *);
  (* models/M2/AUTOSARTemplates/GenericStructure/DocumentationOnM1/__init__.py *)
  ("Documentation", (2, [CSuper [CArg 0; CArg 1] []; CSet "contexts" (CList); CSet "documentationContent" (CNone)])) (* line 27 *);
  ("DocumentationContext", (2, [CSuper [CArg 0; CArg 1] []; CSet "featureIRef" (CNone); CSet "identifiableRef" (CNone)])) (* line 96 *);
  (* models/M2/AUTOSARTemplates/GenericStructure/GeneralTemplateClasses/ARPackage.py *)
  ("ReferenceBase", (0, [CSuper [] []; CSet "globalElements" (CList); CSet "globalInPackageRefs" (CList); CSet "isDefault" (CNone); CSet "isGlobal" (CNone); CSet "BaseIsThisPackage" (CNone); CSet "packageRef" (CNone); CSet "shortLabel" (CNone)])) (* line 122 *);
  ("ARPackage", (2, [CBase "CollectableElement" []; CBase "ARObject" []; CSet "parent" (CArg 0); CSet "short_name" (CArg 1); CSet "longName" (CNone); CSet "annotations" (CList); CSet "adminData" (CNone); CSet "category" (CNone); CSet "introduction" (CNone); CSet "desc" (CNone); CSet "arPackages" (CFresh "dict"); CSet "referenceBases" (CList)])) (* line 488 *);
  (* models/M2/AUTOSARTemplates/GenericStructure/GeneralTemplateClasses/AnyInstanceRef.py *)
  ("AnyInstanceRef", (0, [CSuper [] []; CSet "baseRef" (CNone); CSet "contextElementRefs" (CList); CSet "targetRef" (CNone)])) (* line 26 *);
  (* models/M2/AUTOSARTemplates/GenericStructure/GeneralTemplateClasses/ArObject.py *)
  ("ARObject", (0, [CAbstract "ARObject"; CSet "parent" (CNone); CSet "checksum" (CNone); CSet "timestamp" (CNone); CSet "uuid" (CNone)])) (* line 20 *);
  (* models/M2/AUTOSARTemplates/GenericStructure/GeneralTemplateClasses/ElementCollection.py *)
  ("Collection", (2, [CSuper [CArg 0; CArg 1] []; CSet "autoCollect" (CNone); CSet "collectedInstances" (CList); CSet "collectionSemantics" (CNone); CSet "elementRefs" (CList); CSet "elementRole" (CNone); CSet "sourceElementRefs" (CList); CSet "sourceInstances" (CList)])) (* line 37 *);
  (* models/M2/AUTOSARTemplates/GenericStructure/GeneralTemplateClasses/EngineeringObject.py *)
  ("EngineeringObject", (0, [CAbstract "EngineeringObject"; CSuper [] []; CSet "category" (CNone); CSet "domain" (CNone); CSet "revisionLabels" (CList); CSet "shortLabel" (CNone)])) (* line 34 *);
  ("AutosarEngineeringObject", (0, [CSuper [] []])) (* line 186 *);
  (* models/M2/AUTOSARTemplates/GenericStructure/GeneralTemplateClasses/Enumerations.py *)
  ("BindingTimeEnum", (0, [CSuper [CFresh "list"] []])) (* line 40 *);
  ("XmlSpaceEnum", (0, [CSuper [CFresh "list"] [("XmlSpaceEnum", "DEFAULT"); ("XmlSpaceEnum", "PRESERVE")]])) (* line 60 *);
  (* models/M2/AUTOSARTemplates/GenericStructure/GeneralTemplateClasses/Identifiable.py *)
  ("Referrable", (2, [CAbstract "Referrable"; CBase "ARObject" []; CSet "parent" (CArg 0); CSet "short_name" (CArg 1); CSet "shortNameFragments" (CList)])) (* line 36 *);
  ("ShortNameFragment", (0, [CSuper [] []; CSet "role" (CNone); CSet "fragment" (CNone)])) (* line 128 *);
  ("MultilanguageReferrable", (2, [CAbstract "MultilanguageReferrable"; CSuper [CArg 0; CArg 1] []; CSet "longName" (CNone)])) (* line 197 *);
  ("CollectableElement", (0, [CAbstract "CollectableElement"; CSuper [] []; CSet "elements" (CList); CSet "element_mappings" (CFresh "dict")])) (* line 244 *);
  ("Identifiable", (2, [CAbstract "Identifiable"; CBase "MultilanguageReferrable" [CArg 0; CArg 1]; CSet "elements" (CList); CSet "element_mappings" (CFresh "dict"); CSet "annotations" (CList); CSet "adminData" (CNone); CSet "category" (CNone); CSet "introduction" (CNone); CSet "desc" (CNone); CSet "variationPoint" (CNone)])) (* line 373 *);
  ("PackageableElement", (2, [CAbstract "PackageableElement"; CSuper [CArg 0; CArg 1] []])) (* line 633 *);
  ("ARElement", (2, [CAbstract "ARElement"; CSuper [CArg 0; CArg 1] []])) (* line 648 *);
  ("Describable", (0, [CAbstract "Describable"; CSuper [] []; CSet "adminData" (CNone); CSet "category" (CNone); CSet "desc" (CNone); CSet "introduction" (CNone)])) (* line 674 *);
  (* models/M2/AUTOSARTemplates/GenericStructure/GeneralTemplateClasses/MultidimensionalTime.py *)
  ("MultidimensionalTime", (0, [CSuper [] []; CSet "cseCode" (CNone); CSet "cseCodeFactor" (CNone)])) (* line 33 *);
  (* models/M2/AUTOSARTemplates/GenericStructure/GeneralTemplateClasses/PrimitiveTypes.py *)
  ("ARType", (0, [CSet "timestamp" (CNone); CSet "uuid" (CNone); CSet "_value" (CNone)])) (* line 26 *);
  ("ARNumerical", (0, [CSuper [] []; CSet "shortLabel" (CNone); CSet "_text" (CNone)])) (* line 90 *);
  ("ARFloat", (0, [CSuper [] []; CSet "_text" (CNone)])) (* line 195 *);
  ("Float", (0, [CSuper [] []])) (* line 235 *);
  ("TimeValue", (0, [CSuper [] []])) (* line 251 *);
  ("ARLiteral", (0, [CSuper [] []])) (* line 268 *);
  ("AREnum", (1, [CSuper [] []; CSet "enumValues" (CArg 0)])) (* line 310 *);
  ("String", (0, [CSuper [] []])) (* line 367 *);
  ("AlignmentType", (0, [CSuper [] []])) (* line 386 *);
  ("SectionInitializationPolicyType", (0, [CSuper [] []])) (* line 418 *);
  ("CseCodeType", (0, [CSuper [] []])) (* line 436 *);
  ("DisplayFormatString", (0, [CSuper [] []])) (* line 455 *);
  ("NativeDeclarationString", (0, [CSuper [] []])) (* line 475 *);
  ("BaseTypeEncodingString", (0, [CSuper [] []])) (* line 494 *);
  ("PrimitiveIdentifier", (0, [CSuper [] []])) (* line 515 *);
  ("ReferrableSubtypesEnum", (0, [CSuper [] []])) (* line 527 *);
  ("ARPositiveInteger", (0, [CSuper [] []])) (* line 542 *);
  ("ARBoolean", (0, [CSuper [] []; CSet "_text" (CNone)])) (* line 577 *);
  ("NameToken", (0, [CSuper [] []])) (* line 659 *);
  ("PositiveInteger", (0, [CSuper [] []])) (* line 678 *);
  ("Integer", (0, [CSuper [] []])) (* line 712 *);
  ("UnlimitedInteger", (0, [CSuper [] []])) (* line 732 *);
  ("Boolean", (0, [CSuper [] []])) (* line 750 *);
  ("Identifier", (0, [CSuper [] []; CSet "blueprintValue" (CNone); CSet "namePattern" (CNone)])) (* line 769 *);
  ("CIdentifier", (0, [CSuper [] []; CSet "blueprintValue" (CNone); CSet "namePattern" (CNone)])) (* line 840 *);
  ("IntervalTypeEnum", (0, [CSuper [CFresh "list"] [("IntervalTypeEnum", "CLOSED"); ("IntervalTypeEnum", "OPEN")]])) (* line 929 *);
  ("Limit", (0, [CSuper [] []; CSet "intervalType" (CNone); CSet "value" (CNone)])) (* line 955 *);
  ("RefType", (0, [CSuper [] []; CSet "base" (CNone); CSet "dest" (CNone); CSet "value" (CNone)])) (* line 1025 *);
  ("TRefType", (0, [CSuper [] []])) (* line 1125 *);
  ("DiagRequirementIdString", (0, [CSuper [] []])) (* line 1142 *);
  ("ArgumentDirectionEnum", (0, [CSuper [CFresh "list"] [("ArgumentDirectionEnum", "IN"); ("ArgumentDirectionEnum", "INOUT"); ("ArgumentDirectionEnum", "OUT")]])) (* line 1170 *);
  ("Ip4AddressString", (0, [CSuper [] []])) (* line 1190 *);
  ("Ip6AddressString", (0, [CSuper [] []])) (* line 1209 *);
  ("MacAddressString", (0, [CSuper [] []])) (* line 1227 *);
  ("CategoryString", (0, [CSuper [] []])) (* line 1246 *);
  ("ByteOrderEnum", (0, [CSuper [CFresh "list"] [("ByteOrderEnum", "MOST_SIGNIFICANT_BYTE_FIRST"); ("ByteOrderEnum", "MOST_SIGNIFICANT_BYTE_LAST"); ("ByteOrderEnum", "OPAQUE")]])) (* line 1269 *);
  ("MonotonyEnum", (0, [CSuper [CFresh "list"] [("MonotonyEnum", "DECREASING"); ("MonotonyEnum", "INCREASING"); ("MonotonyEnum", "MONOTONOUS"); ("MonotonyEnum", "NO_MONOTONY"); ("MonotonyEnum", "STRICTLY_DECREASING"); ("MonotonyEnum", "STRICTLY_INCREASING"); ("MonotonyEnum", "STRICT_MONOTONOUS")]])) (* line 1312 *);
  ("DateTime", (0, [CSuper [] []])) (* line 1346 *);
  ("VerbatimString", (0, [CSuper [] []])) (* line 1369 *);
  ("VerbatimStringPlain", (0, [CSuper [] []])) (* line 1386 *);
  ("RegularExpression", (0, [CSuper [] []])) (* line 1399 *);
  ("SymbolString", (0, [CSuper [] []])) (* line 1415 *);
  ("McdIdentifier", (0, [CSuper [] []])) (* line 1435 *);
  ("Numerical", (0, [CSuper [] []])) (* line 1455 *);
  (* models/M2/AUTOSARTemplates/GenericStructure/RolesAndRights/AtpDefinition.py *)
  ("AtpDefinition", (2, [CAbstract "AtpDefinition"; CSuper [CArg 0; CArg 1] []])) (* line 36 *);
  (* models/M2/AUTOSARTemplates/GenericStructure/VariantHandling/__init__.py *)
  ("PostBuildVariantCriterion", (2, [CSuper [CArg 0; CArg 1] []; CSet "compuMethodRef" (CNone)])) (* line 41 *);
  ("PostBuildVariantCriterionValue", (0, [CSuper [] []; CSet "annotations" (CList); CSet "value" (CNone); CSet "variantCriterionRef" (CNone)])) (* line 95 *);
  ("PredefinedVariant", (2, [CSuper [CArg 0; CArg 1] []; CSet "includedVariantRefs" (CList); CSet "postBuildVariantCriterionValueSetRefs" (CList); CSet "swSystemconstantValueSetRefs" (CList)])) (* line 177 *);
  ("SwSystemconstValue", (0, [CSuper [] []; CSet "annotations" (CList); CSet "swSystemconstRef" (CNone); CSet "value" (CNone)])) (* line 243 *);
  ("SwSystemconstantValueSet", (2, [CSuper [CArg 0; CArg 1] []; CSet "swSystemconstantValues" (CList)])) (* line 286 *);
  ("PostBuildVariantCondition", (0, [CSuper [] []; CSet "matchingCriterionRef" (CNone); CSet "value" (CNone)])) (* line 342 *);
  ("ConditionByFormula", (0, [CSuper [] []; CSet "bindingTime" (CNone)])) (* line 409 *);
  ("VariationPoint", (0, [CSuper [] []; CSet "blueprintCondition" (CNone); CSet "desc" (CNone); CSet "formalBlueprintGenerator" (CNone); CSet "postBuildVariantConditions" (CList); CSet "sdg" (CNone); CSet "shortLabel" (CNone); CSet "swSyscond" (CNone)])) (* line 493 *);
  (* models/M2/AUTOSARTemplates/GenericStructure/VariantHandling/AttributeValueVariationPoints/__init__.py *)
  ("AttributeValueVariationPoint", (0, [CAbstract "AttributeValueVariationPoint"; CSuper [] []; CSet "bindingTime" (CNone); CSet "blueprintValue" (CNone); CSet "sd" (CNone); CSet "shortLabel" (CNone); CSet "_text" (CNone)])) (* line 46 *);
  ("AbstractNumericalVariationPoint", (0, [CAbstract "AbstractNumericalVariationPoint"; CSuper [] []])) (* line 148 *);
  ("NumericalValueVariationPoint", (0, [CSuper [] []])) (* line 170 *);
  ("LimitValueVariationPoint", (0, [CSuper [] []; CSet "intervalType" (CNone)])) (* line 191 *);
  ("BooleanValueVariationPoint", (0, [CSuper [] []])) (* line 223 *);
  ("FloatValueVariationPoint", (0, [CSuper [] []])) (* line 242 *);
  ("IntegerValueVariationPoint", (0, [CSuper [] []])) (* line 261 *);
  ("PositiveIntegerValueVariationPoint", (0, [CSuper [] []])) (* line 281 *);
  ("UnlimitedIntegerValueVariationPoint", (0, [CSuper [] []])) (* line 300 *);
  ("TimeValueValueVariationPoint", (0, [CSuper [] []])) (* line 319 *);
  (* models/M2/AUTOSARTemplates/SWComponentTemplate/Communication.py *)
  ("HandleInvalidEnum", (0, [CSuper [CFresh "list"] [("HandleInvalidEnum", "DONT_INVALIDATE"); ("HandleInvalidEnum", "EXTERNAL_REPLACEMENT"); ("HandleInvalidEnum", "KEEP"); ("HandleInvalidEnum", "REPLACE")]])) (* line 37 *);
  ("PPortComSpec", (0, [CAbstract "PPortComSpec"; CSuper [] []])) (* line 52 *);
  ("RPortComSpec", (0, [CAbstract "RPortComSpec"; CSuper [] []])) (* line 69 *);
  ("ReceptionComSpecProps", (0, [CSuper [] []; CSet "dataUpdatePeriod" (CNone); CSet "timeout" (CNone)])) (* line 90 *);
  ("CompositeNetworkRepresentation", (0, [CSuper [] []; CSet "leafElementIRef" (CNone); CSet "networkRepresentation" (CNone)])) (* line 170 *);
  ("TransmissionModeDefinitionEnum", (0, [CSuper [CFresh "list"] [("TransmissionModeDefinitionEnum", "CYCLIC"); ("TransmissionModeDefinitionEnum", "CYCLIC_AND_ON_CHANGE"); ("TransmissionModeDefinitionEnum", "TRIGGERED")]])) (* line 259 *);
  ("TransmissionComSpecProps", (0, [CSuper [] []; CSet "dataUpdatePeriod" (CNone); CSet "minimumSendInterval" (CNone); CSet "transmissionMode" (CNone)])) (* line 286 *);
  ("TransmissionAcknowledgementRequest", (0, [CSuper [] []; CSet "timeout" (CNone)])) (* line 357 *);
  ("SenderComSpec", (0, [CAbstract "SenderComSpec"; CSuper [] []; CSet "compositeNetworkRepresentations" (CList); CSet "dataElementRef" (CNone); CSet "handleOutOfRange" (CNone); CSet "networkRepresentation" (CNone); CSet "transmissionAcknowledge" (CNone); CSet "transmissionProps" (CNone); CSet "usesEndToEndProtection" (CNone)])) (* line 404 *);
  ("QueuedSenderComSpec", (0, [CSuper [] []])) (* line 546 *);
  ("NonqueuedSenderComSpec", (0, [CSuper [] []; CSet "dataFilter" (CNone); CSet "initValue" (CNone)])) (* line 565 *);
  ("ClientComSpec", (0, [CSuper [] []; CSet "endToEndCallResponseTimeout" (CNone); CSet "operationRef" (CNone); CSet "transformationComSpecProps" (CList)])) (* line 622 *);
  ("ModeSwitchReceiverComSpec", (0, [CSuper [] []; CSet "enhancedModeApi" (CNone); CSet "modeGroupRef" (CNone); CSet "supportsAsynchronousModeSwitch" (CNone)])) (* line 694 *);
  ("NvRequireComSpec", (0, [CSuper [] []; CSet "initValue" (CNone); CSet "variableRef" (CNone)])) (* line 784 *);
  ("ParameterRequireComSpec", (0, [CSuper [] []; CSet "initValue" (CNone); CSet "parameterRef" (CNone)])) (* line 852 *);
  ("ReceiverComSpec", (0, [CAbstract "ReceiverComSpec"; CSuper [] []; CSet "compositeNetworkRepresentations" (CList); CSet "dataElementRef" (CNone); CSet "handleOutOfRange" (CNone); CSet "handleOutOfRangeStatus" (CNone); CSet "maxDeltaCounterInit" (CNone); CSet "maxNoNewOrRepeatedData" (CNone); CSet "networkRepresentation" (CNone); CSet "receptionProps" (CNone); CSet "replaceWith" (CNone); CSet "syncCounterInit" (CNone); CSet "transformationComSpecProps" (CList); CSet "usesEndToEndProtection" (CNone)])) (* line 940 *);
  ("ModeSwitchedAckRequest", (0, [CSuper [] []; CSet "timeout" (CNone)])) (* line 1172 *);
  ("ModeSwitchSenderComSpec", (0, [CSuper [] []; CSet "enhancedModeApi" (CNone); CSet "modeGroupRef" (CNone); CSet "modeSwitchedAck" (CNone); CSet "queueLength" (CNone)])) (* line 1218 *);
  ("ParameterProvideComSpec", (0, [CSuper [] []; CSet "initValue" (CNone); CSet "parameterRef" (CNone)])) (* line 1334 *);
  ("TransformationComSpecProps", (0, [CAbstract "TransformationComSpecProps"; CSuper [] []])) (* line 1385 *);
  ("UserDefinedTransformationComSpecProps", (0, [CSuper [] []])) (* line 1401 *);
  ("ServerComSpec", (0, [CSuper [] []; CSet "operationRef" (CNone); CSet "queueLength" (CNone); CSet "transformationComSpecProps" (CList)])) (* line 1422 *);
  ("NvProvideComSpec", (0, [CSuper [] []; CSet "ramBlockInitValue" (CNone); CSet "romBlockInitValue" (CNone); CSet "variableRef" (CNone)])) (* line 1495 *);
  ("NonqueuedReceiverComSpec", (0, [CSuper [] []; CSet "aliveTimeout" (CNone); CSet "enableUpdate" (CNone); CSet "filter" (CNone); CSet "handleDataStatus" (CNone); CSet "handleNeverReceived" (CNone); CSet "handleTimeoutType" (CNone); CSet "initValue" (CNone); CSet "timeoutSubstitutionValue" (CNone)])) (* line 1602 *);
  ("QueuedReceiverComSpec", (0, [CSuper [] []; CSet "queueLength" (CNone)])) (* line 1760 *);
  ("HandleOutOfRangeEnum", (0, [CSuper [CFresh "list"] [("HandleOutOfRangeEnum", "DEFAULT"); ("HandleOutOfRangeEnum", "EXTERNAL_REPLACEMENT"); ("HandleOutOfRangeEnum", "IGNORE"); ("HandleOutOfRangeEnum", "INVALID"); ("HandleOutOfRangeEnum", "NONE"); ("HandleOutOfRangeEnum", "SATURATE")]])) (* line 1817 *);
  ("HandleOutOfRangeStatusEnum", (0, [CSuper [CFresh "list"] [("HandleOutOfRangeStatusEnum", "INDICATE"); ("HandleOutOfRangeStatusEnum", "SILENT")]])) (* line 1848 *);
  ("HandleTimeoutEnum", (0, [CSuper [CFresh "list"] [("HandleTimeoutEnum", "NONE"); ("HandleTimeoutEnum", "REPLACE"); ("HandleTimeoutEnum", "REPLACE_BY_TIMEOUT_SUBSTITUTION_VALUE")]])) (* line 1878 *);
  (* models/M2/AUTOSARTemplates/SWComponentTemplate/EndToEndProtection.py *)
  ("EndToEndDescription", (0, [CSuper [] []; CSet "category" (CNone); CSet "counterOffset" (CNone); CSet "crcOffset" (CNone); CSet "dataIds" (CList); CSet "dataIdMode" (CNone); CSet "dataIdNibbleOffset" (CNone); CSet "dataLength" (CNone); CSet "maxDeltaCounterInit" (CNone); CSet "maxNoNewOrRepeatedData" (CNone); CSet "syncCounterInit" (CNone)])) (* line 44 *);
  ("EndToEndProtectionVariablePrototype", (0, [CSuper [] []; CSet "_receiverIRefs" (CList); CSet "senderIRef" (CNone); CSet "shortLabel" (CNone)])) (* line 291 *);
  ("EndToEndProtectionISignalIPdu", (0, [CSuper [] []; CSet "dataOffset" (CNone); CSet "iSignalGroupRef" (CNone); CSet "iSignalIPduRef" (CNone)])) (* line 333 *);
  ("EndToEndProtection", (2, [CSuper [CArg 0; CArg 1] []; CSet "endToEndProfile" (CNone); CSet "endToEndProtectionISignalIPdus" (CList); CSet "endToEndProtectionVariablePrototypes" (CList)])) (* line 422 *);
  ("EndToEndProtectionSet", (2, [CSuper [CArg 0; CArg 1] []])) (* line 510 *);
  (* models/M2/AUTOSARTemplates/SWComponentTemplate/NvBlockComponent.py *)
  ("NvBlockDataMapping", (0, [CSuper [] []; CSet "bitfieldTextTableMaskNvBlockDescriptor" (CNone); CSet "bitfieldTextTableMaskPortPrototype" (CNone); CSet "nvRamBlockElement" (CNone); CSet "readNvData" (CNone); CSet "writtenNvData" (CNone); CSet "writtenReadNvData" (CNone)])) (* line 35 *);
  ("BulkNvDataDescriptor", (2, [CSuper [CArg 0; CArg 1] []; CSet "bulkNvBlock" (CNone); CSet "nvBlockDataMappings" (CList)])) (* line 239 *);
  ("NvBlockDescriptor", (2, [CSuper [CArg 0; CArg 1] []; CSet "clientServerPorts" (CList); CSet "constantValueMappingRefs" (CList); CSet "dataTypeMappingRefs" (CList); CSet "instantiationDataDefPropss" (CList); CSet "modeSwitchEventTriggeredActivitys" (CList); CSet "nvBlockDataMappings" (CList); CSet "nvBlockNeeds" (CNone); CSet "ramBlock" (CNone); CSet "romBlock" (CNone); CSet "supportDirtyFlag" (CNone); CSet "timingEventRef" (CNone); CSet "writingStrategies" (CList)])) (* line 339 *);
  ("ModeSwitchEventTriggeredActivity", (0, [CSuper [] []; CSet "role" (CNone); CSet "swcModeSwitchEventRef" (CNone)])) (* line 729 *);
  (* models/M2/AUTOSARTemplates/SWComponentTemplate/RPTScenario.py *)
  ("IdentCaption", (2, [CAbstract "IdentCaption"; CSuper [CArg 0; CArg 1] []])) (* line 22 *);
  ("ModeAccessPointIdent", (2, [CSuper [CArg 0; CArg 1] []])) (* line 38 *);
  ("RptServicePointEnum", (0, [CSuper [CFresh "list"] [("RptServicePointEnum", "ENABLED"); ("RptServicePointEnum", "NONE")]])) (* line 58 *);
  ("RptImplPolicy", (0, [CSuper [] []; CSet "rptEnablerImplType" (CNone); CSet "rptPreparationLevel" (CNone)])) (* line 81 *);
  ("RptExecutableEntityProperties", (0, [CSuper [] []; CSet "maxRptEventId" (CNone); CSet "minRptEventId" (CNone); CSet "rptExecutionControl" (CNone); CSet "rptServicePoint" (CNone)])) (* line 160 *);
  (* models/M2/AUTOSARTemplates/SWComponentTemplate/SoftwareComponentDocumentation.py *)
  ("SwComponentDocumentation", (0, [CSuper [] []; CSet "chapters" (CList); CSet "swCalibrationNotes" (CNone); CSet "swCarbDoc" (CNone); CSet "swDiagnosticsNotes" (CNone); CSet "swFeatureDef" (CNone); CSet "swFeatureDesc" (CNone); CSet "swMaintenanceNotes" (CNone); CSet "swTestDesc" (CNone)])) (* line 45 *);
  (* models/M2/AUTOSARTemplates/SWComponentTemplate/SwComponentType.py *)
  ("SwComponentType", (2, [CAbstract "SwComponentType"; CSuper [CArg 0; CArg 1] []; CSet "consistencyNeeds" (CList); CSet "ports" (CList); CSet "portGroups" (CList); CSet "swcMappingConstraintsRefs" (CList); CSet "swComponentDocumentation" (CNone); CSet "unitGroupRefs" (CList)])) (* line 58 *);
  (* models/M2/AUTOSARTemplates/SWComponentTemplate/SwcImplementation.py *)
  ("SwcImplementation", (2, [CSuper [CArg 0; CArg 1] []; CSet "behaviorRef" (CNone); CSet "perInstanceMemorySizes" (CList); CSet "requiredRTEVendor" (CNone)])) (* line 26 *);
  (* models/M2/AUTOSARTemplates/SWComponentTemplate/ApplicationAttributes/__init__.py *)
  ("DataLimitKindEnum", (0, [CSuper [CFresh "list"] [("DataLimitKindEnum", "MAX"); ("DataLimitKindEnum", "MIN"); ("DataLimitKindEnum", "NONE")]])) (* line 30 *);
  ("FilterDebouncingEnum", (0, [CSuper [CFresh "list"] [("FilterDebouncingEnum", "DEBOUNCE_DATA"); ("FilterDebouncingEnum", "RAW_DATA"); ("FilterDebouncingEnum", "WAIT_TIME_DATE")]])) (* line 59 *);
  ("ProcessingKindEnum", (0, [CSuper [CFresh "list"] [("ProcessingKindEnum", "FILTERED"); ("ProcessingKindEnum", "NONE"); ("ProcessingKindEnum", "RAW")]])) (* line 88 *);
  ("PulseTestEnum", (0, [CSuper [CFresh "list"] [("PulseTestEnum", "DISABLE"); ("PulseTestEnum", "ENABLE")]])) (* line 114 *);
  ("SignalFanEnum", (0, [CSuper [CFresh "list"] [("SignalFanEnum", "NFOLD"); ("SignalFanEnum", "SINGLE")]])) (* line 139 *);
  ("SenderReceiverAnnotation", (0, [CSuper [] []; CSet "computed" (CNone); CSet "dataElementRef" (CNone); CSet "limitKind" (CNone); CSet "processingKind" (CNone)])) (* line 166 *);
  ("ClientServerAnnotation", (0, [CSuper [] []; CSet "operationRef" (CNone)])) (* line 290 *);
  ("IoHwAbstractionServerAnnotation", (0, [CSuper [] []; CSet "filteringDebouncing" (CNone); CSet "pulseTest" (CNone); CSet "triggerRef" (CNone)])) (* line 337 *);
  ("ModePortAnnotation", (0, [CSuper [] []; CSet "modeGroupRef" (CNone)])) (* line 434 *);
  ("NvDataPortAnnotation", (0, [CSuper [] []; CSet "variableRef" (CNone)])) (* line 477 *);
  ("ParameterPortAnnotation", (0, [CSuper [] []; CSet "parameterRef" (CNone)])) (* line 520 *);
  ("TriggerPortAnnotation", (0, [CSuper [] []; CSet "triggerRef" (CNone)])) (* line 563 *);
  ("DelegatedPortAnnotation", (0, [CSuper [] []; CSet "signalFan" (CNone)])) (* line 606 *);
  (* models/M2/AUTOSARTemplates/SWComponentTemplate/Components/InstanceRefs.py *)
  ("ModeGroupInAtomicSwcInstanceRef", (0, [CAbstract "ModeGroupInAtomicSwcInstanceRef"; CSuper [] []; CSet "baseRef" (CNone); CSet "contextPortRef" (CNone); CSet "targetRef" (CNone)])) (* line 29 *);
  ("PModeGroupInAtomicSwcInstanceRef", (0, [CSuper [] []; CSet "contextPPortRef" (CNone); CSet "targetModeGroupRef" (CNone)])) (* line 75 *);
  ("RModeGroupInAtomicSWCInstanceRef", (0, [CSuper [] []; CSet "contextRPortRef" (CNone); CSet "targetModeGroupRef" (CNone)])) (* line 109 *);
  ("RModeInAtomicSwcInstanceRef", (0, [CSuper [] []; CSet "baseRef" (CNone); CSet "contextModeDeclarationGroupPrototypeRef" (CNone); CSet "contextPortRef" (CNone); CSet "targetModeDeclarationRef" (CNone)])) (* line 147 *);
  ("TriggerInAtomicSwcInstanceRef", (0, [CAbstract "TriggerInAtomicSwcInstanceRef"; CSuper [] []; CSet "baseRef" (CNone); CSet "contextPortRef" (CNone); CSet "targetRef" (CNone)])) (* line 202 *);
  ("PTriggerInAtomicSwcTypeInstanceRef", (0, [CSuper [] []; CSet "contextPPortRef" (CNone); CSet "targetTriggerRef" (CNone)])) (* line 316 *);
  ("VariableInAtomicSwcInstanceRef", (0, [CAbstract "VariableInAtomicSwcInstanceRef"; CSuper [] []; CSet "abstractTargetDataElementRef" (CNone); CSet "baseRef" (CNone); CSet "contextPortRef" (CNone)])) (* line 388 *);
  ("RVariableInAtomicSwcInstanceRef", (0, [CSuper [] []; CSet "contextRPortRef" (CNone); CSet "targetDataElementRef" (CNone)])) (* line 412 *);
  ("InnerPortGroupInCompositionInstanceRef", (0, [CSuper [] []; CSet "baseRef" (CNone); CSet "contextRefs" (CList); CSet "targetRef" (CNone)])) (* line 448 *);
  (* models/M2/AUTOSARTemplates/SWComponentTemplate/Components/__init__.py *)
  ("SymbolProps", (2, [CSuper [CArg 0; CArg 1] []])) (* line 45 *);
  ("PortPrototype", (2, [CAbstract "PortPrototype"; CSuper [CArg 0; CArg 1] []; CSet "clientServerAnnotations" (CList); CSet "delegatedPortAnnotation" (CNone); CSet "ioHwAbstractionServerAnnotations" (CList); CSet "modePortAnnotations" (CList); CSet "nvDataPortAnnotations" (CList); CSet "parameterPortAnnotations" (CList); CSet "senderReceiverAnnotations" (CList); CSet "triggerPortAnnotations" (CList)])) (* line 75 *);
  ("AbstractProvidedPortPrototype", (2, [CAbstract "AbstractProvidedPortPrototype"; CSuper [CArg 0; CArg 1] []; CSet "providedComSpecs" (CList)])) (* line 305 *);
  ("AbstractRequiredPortPrototype", (2, [CAbstract "AbstractRequiredPortPrototype"; CSuper [CArg 0; CArg 1] []; CSet "requiredComSpecs" (CList)])) (* line 351 *);
  ("PPortPrototype", (2, [CSuper [CArg 0; CArg 1] []; CSet "providedInterfaceTRef" (CNone)])) (* line 398 *);
  ("RPortPrototype", (2, [CSuper [CArg 0; CArg 1] []; CSet "mayBeUnconnected" (CNone); CSet "requiredInterfaceTRef" (CNone)])) (* line 419 *);
  ("PRPortPrototype", (2, [CSuper [CArg 0; CArg 1] []; CSet "providedComSpecs" (CList); CSet "requiredComSpecs" (CList); CSet "providedRequiredInterface" (CNone)])) (* line 450 *);
  ("PortGroup", (2, [CSuper [CArg 0; CArg 1] []; CSet "_inner_group_iref" (CList); CSet "_outer_port_ref" (CList)])) (* line 487 *);
  ("AtomicSwComponentType", (2, [CSuper [CArg 0; CArg 1] []; CSet "internalBehavior" (CNone); CSet "symbolProps" (CNone)])) (* line 521 *);
  ("EcuAbstractionSwComponentType", (2, [CSuper [CArg 0; CArg 1] []; CSet "hardwareElementRefs" (CList)])) (* line 598 *);
  ("ApplicationSwComponentType", (2, [CSuper [CArg 0; CArg 1] []])) (* line 642 *);
  ("ComplexDeviceDriverSwComponentType", (2, [CSuper [CArg 0; CArg 1] []; CSet "hardwareElementRefs" (CList)])) (* line 657 *);
  ("NvBlockSwComponentType", (2, [CSuper [CArg 0; CArg 1] []; CSet "bulkNvDataDescriptors" (CList); CSet "nvBlockDescriptors" (CList)])) (* line 705 *);
  ("SensorActuatorSwComponentType", (2, [CSuper [CArg 0; CArg 1] []; CSet "sensorActuatorRef" (CNone)])) (* line 786 *);
  ("ServiceProxySwComponentType", (2, [CSuper [CArg 0; CArg 1] []])) (* line 838 *);
  ("ServiceSwComponentType", (2, [CSuper [CArg 0; CArg 1] []])) (* line 851 *);
  (* models/M2/AUTOSARTemplates/SWComponentTemplate/Composition/InstanceRefs.py *)
  ("PortInCompositionTypeInstanceRef", (0, [CAbstract "PortInCompositionTypeInstanceRef"; CSuper [] []; CSet "abstractContextComponentRef" (CNone); CSet "baseRef" (CNone); CSet "targetPortRef" (CNone)])) (* line 29 *);
  ("PPortInCompositionInstanceRef", (0, [CSuper [] []; CSet "contextComponentRef" (CNone); CSet "targetPPortRef" (CNone)])) (* line 74 *);
  ("RPortInCompositionInstanceRef", (0, [CSuper [] []; CSet "contextComponentRef" (CNone); CSet "targetRPortRef" (CNone)])) (* line 108 *);
  ("OperationInAtomicSwcInstanceRef", (0, [CAbstract "OperationInAtomicSwcInstanceRef"; CSuper [] []; CSet "baseRef" (CNone); CSet "contextPortRef" (CNone); CSet "targetOperationRef" (CNone)])) (* line 144 *);
  ("POperationInAtomicSwcInstanceRef", (0, [CSuper [] []; CSet "contextPPortRef" (CNone); CSet "targetProvidedOperationRef" (CNone)])) (* line 189 *);
  ("ROperationInAtomicSwcInstanceRef", (0, [CSuper [] []; CSet "contextRPortRef" (CNone); CSet "targetRequiredOperationRef" (CNone)])) (* line 223 *);
  ("InstanceEventInCompositionInstanceRef", (0, [CSuper [] []; CSet "baseRef" (CNone); CSet "contextComponentPrototypeRefs" (CList); CSet "targetEventRef" (CNone)])) (* line 262 *);
  (* models/M2/AUTOSARTemplates/SWComponentTemplate/Composition/__init__.py *)
  ("SwComponentPrototype", (2, [CSuper [CArg 0; CArg 1] []; CSet "typeTRef" (CNone)])) (* line 25 *);
  ("SwConnector", (2, [CAbstract "SwConnector"; CSuper [CArg 0; CArg 1] []; CSet "mappingRef" (CNone)])) (* line 51 *);
  ("AssemblySwConnector", (2, [CSuper [CArg 0; CArg 1] []; CSet "providerIRef" (CNone); CSet "requesterIRef" (CNone)])) (* line 92 *);
  ("DelegationSwConnector", (2, [CSuper [CArg 0; CArg 1] []; CSet "innerPortIRref" (CNone); CSet "outerPortRef" (CNone)])) (* line 121 *);
  ("PassThroughSwConnector", (2, [CSuper [CArg 0; CArg 1] []; CSet "providedOuterPortRef" (CNone); CSet "requiredOuterPortRef" (CNone)])) (* line 157 *);
  ("InstantiationRTEEventProps", (0, [CAbstract "InstantiationRTEEventProps"; CSuper [] []; CSet "refinedEventIRef" (CNone); CSet "shortLabel" (CNone)])) (* line 230 *);
  ("InstantiationTimingEventProps", (0, [CSuper [] []; CSet "period" (CNone)])) (* line 304 *);
  ("CompositionSwComponentType", (2, [CSuper [CArg 0; CArg 1] []; CSet "components" (CList); CSet "connectors" (CList); CSet "constantValueMappingRefs" (CList); CSet "dataTypeMappingRefs" (CList); CSet "instantiationRTEEventProps" (CList); CSet "physicalDimensionMappingRef" (CNone)])) (* line 365 *);
  (* models/M2/AUTOSARTemplates/SWComponentTemplate/Datatype/DataPrototypes.py *)
  ("DataPrototype", (2, [CAbstract "DataPrototype"; CSuper [CArg 0; CArg 1] []; CSet "swDataDefProps" (CNone)])) (* line 37 *);
  ("AutosarDataPrototype", (2, [CAbstract "AutosarDataPrototype"; CSuper [CArg 0; CArg 1] []; CSet "typeTRef" (CNone)])) (* line 82 *);
  ("VariableDataPrototype", (2, [CSuper [CArg 0; CArg 1] []; CSet "initValue" (CNone)])) (* line 126 *);
  ("ApplicationCompositeElementDataPrototype", (2, [CAbstract "ApplicationCompositeElementDataPrototype"; CSuper [CArg 0; CArg 1] []; CSet "typeTRef" (CNone)])) (* line 165 *);
  ("ApplicationArrayElement", (2, [CSuper [CArg 0; CArg 1] []; CSet "arraySizeHandling" (CNone); CSet "arraySizeSemantics" (CNone); CSet "indexDataTypeRef" (CNone); CSet "maxNumberOfElements" (CNone)])) (* line 200 *);
  ("ApplicationRecordElement", (2, [CSuper [CArg 0; CArg 1] []; CSet "isOptional" (CNone)])) (* line 319 *);
  ("ParameterDataPrototype", (2, [CSuper [CArg 0; CArg 1] []; CSet "initValue" (CNone)])) (* line 360 *);
  (* models/M2/AUTOSARTemplates/SWComponentTemplate/Datatype/Datatypes.py *)
  ("AutosarDataType", (2, [CAbstract "AutosarDataType"; CSuper [CArg 0; CArg 1] []; CSet "swDataDefProps" (CNone)])) (* line 29 *);
  ("ApplicationDataType", (2, [CAbstract "ApplicationDataType"; CSuper [CArg 0; CArg 1] []])) (* line 53 *);
  ("ApplicationPrimitiveDataType", (2, [CSuper [CArg 0; CArg 1] []])) (* line 69 *);
  ("ApplicationCompositeDataType", (2, [CAbstract "ApplicationCompositeDataType"; CSuper [CArg 0; CArg 1] []])) (* line 82 *);
  ("ArraySizeHandlingEnum", (0, [CSuper [CFresh "list"] [("ArraySizeHandlingEnum", "ALL_INDICES_DIFFERENT_ARRAY_SIZE"); ("ArraySizeHandlingEnum", "ALL_INDICES_SAME_ARRAY_SIZE"); ("ArraySizeHandlingEnum", "INHERITED_FROM_ARRAY_ELEMENT_TYPE_SIZE")]])) (* line 110 *);
  ("ApplicationArrayDataType", (2, [CSuper [CArg 0; CArg 1] []; CSet "dynamicArraySizeProfile" (CNone); CSet "element" (CNone)])) (* line 135 *);
  ("ApplicationRecordDataType", (2, [CSuper [CArg 0; CArg 1] []; CSet "record_elements" (CList)])) (* line 204 *);
  ("DataTypeMap", (0, [CSet "applicationDataTypeRef" (CNone); CSet "implementationDataTypeRef" (CNone)])) (* line 232 *);
  ("DataTypeMappingSet", (2, [CSuper [CArg 0; CArg 1] []; CSet "dataTypeMaps" (CList); CSet "modeRequestTypeMaps" (CList)])) (* line 265 *);
  (* models/M2/AUTOSARTemplates/SWComponentTemplate/ImplicitCommunicationBehavior/InstanceRefs.py *)
  ("InnerDataPrototypeGroupInCompositionInstanceRef", (0, [CSuper [] []; CSet "baseRef" (CNone); CSet "contextSwComponentPrototypeRefs" (CList); CSet "targetDataPrototypeGroupRef" (CNone)])) (* line 33 *);
  ("InnerRunnableEntityGroupInCompositionInstanceRef", (0, [CSuper [] []; CSet "baseRef" (CNone); CSet "contextSwComponentPrototypeRefs" (CList); CSet "targetRunnableEntityGroupRef" (CNone)])) (* line 139 *);
  ("RunnableEntityInCompositionInstanceRef", (0, [CSuper [] []; CSet "baseRef" (CNone); CSet "contextSwComponentPrototypeRefs" (CList); CSet "targetRunnableEntityRef" (CNone)])) (* line 245 *);
  ("VariableDataPrototypeInCompositionInstanceRef", (0, [CSuper [] []; CSet "baseRef" (CNone); CSet "contextPortPrototypeRef" (CNone); CSet "contextSwComponentPrototypeRefs" (CList); CSet "targetVariableDataPrototypeRef" (CNone)])) (* line 353 *);
  (* models/M2/AUTOSARTemplates/SWComponentTemplate/ImplicitCommunicationBehavior/__init__.py *)
  ("DataPrototypeGroup", (2, [CSuper [CArg 0; CArg 1] []; CSet "dataPrototypeGroupIRefs" (CList); CSet "implicitDataAccessIRefs" (CList)])) (* line 37 *);
  ("RunnableEntityGroup", (2, [CSuper [CArg 0; CArg 1] []; CSet "runnableEntityIRefs" (CList); CSet "runnableEntityGroupIRefs" (CList)])) (* line 122 *);
  ("ConsistencyNeeds", (2, [CSuper [CArg 0; CArg 1] []; CSet "dpgDoesNotRequireCoherency" (CList); CSet "dpgRequiresCoherency" (CList); CSet "regDoesNotRequireStability" (CList); CSet "regRequiresStability" (CList)])) (* line 210 *);
  (* models/M2/AUTOSARTemplates/SWComponentTemplate/PortInterface/InstanceRefs.py *)
  ("ApplicationCompositeElementInPortInterfaceInstanceRef", (0, [CSuper [] []; CSet "baseRef" (CNone); CSet "contextDataPrototypeRef" (CNone); CSet "rootDataPrototypeRef" (CNone); CSet "targetDataPrototypeRef" (CNone)])) (* line 28 *);
  (* models/M2/AUTOSARTemplates/SWComponentTemplate/PortInterface/__init__.py *)
  ("PortInterface", (2, [CAbstract "PortInterface"; CSuper [CArg 0; CArg 1] []; CSet "isService" (CNone); CSet "serviceKind" (CNone)])) (* line 46 *);
  ("DataInterface", (2, [CAbstract "DataInterface"; CSuper [CArg 0; CArg 1] []])) (* line 127 *);
  ("NvDataInterface", (2, [CSuper [CArg 0; CArg 1] []])) (* line 160 *);
  ("ParameterInterface", (2, [CSuper [CArg 0; CArg 1] []; CSet "parameters" (CList)])) (* line 190 *);
  ("InvalidationPolicy", (0, [CSuper [] []; CSet "dataElementRef" (CNone); CSet "handleInvalid" (CNone)])) (* line 213 *);
  ("MetaDataItem", (0, [CSuper [] []; CSet "length" (CNone); CSet "metaDataItemType" (CNone)])) (* line 242 *);
  ("MetaDataItemSet", (0, [CSuper [] []; CSet "dataElementRefs" (CList); CSet "metaDataItems" (CList)])) (* line 271 *);
  ("SenderReceiverInterface", (2, [CSuper [CArg 0; CArg 1] []; CSet "invalidationPolicies" (CList); CSet "metaDataItemSets" (CList)])) (* line 305 *);
  ("ServerArgumentImplPolicyEnum", (0, [CSuper [CFresh "list"] [("ServerArgumentImplPolicyEnum", "USE_ARGUMENT_TYPE"); ("ServerArgumentImplPolicyEnum", "USE_VOID")]])) (* line 363 *);
  ("ArgumentDataPrototype", (2, [CSuper [CArg 0; CArg 1] []; CSet "direction" (CNone); CSet "serverArgumentImplPolicy" (CNone)])) (* line 387 *);
  ("ApplicationError", (2, [CSuper [CArg 0; CArg 1] []; CSet "errorCode" (CNone)])) (* line 487 *);
  ("ClientServerOperation", (2, [CSuper [CArg 0; CArg 1] []; CSet "arguments" (CList); CSet "diagArgIntegrity" (CNone); CSet "possibleErrorRefs" (CList)])) (* line 536 *);
  ("ClientServerInterface", (2, [CSuper [CArg 0; CArg 1] []; CSet "operations" (CList); CSet "possibleErrors" (CList)])) (* line 669 *);
  ("TriggerInterface", (2, [CSuper [CArg 0; CArg 1] []; CSet "_triggers" (CList)])) (* line 735 *);
  ("ModeSwitchInterface", (2, [CSuper [CArg 0; CArg 1] []; CSet "modeGroup" (CNone)])) (* line 754 *);
  ("PortInterfaceMapping", (2, [CAbstract "PortInterfaceMapping"; CSuper [CArg 0; CArg 1] []])) (* line 796 *);
  ("ClientServerApplicationErrorMapping", (0, [CSuper [] []; CSet "firstApplicationErrorRef" (CNone); CSet "secondApplicationErrorRef" (CNone)])) (* line 810 *);
  ("ClientServerOperationMapping", (0, [CSuper [] []; CSet "argumentMappings" (CList); CSet "firstOperationRef" (CNone); CSet "firstToSecondDataTransformationRef" (CNone); CSet "secondOperationRef" (CNone)])) (* line 843 *);
  ("SubElementMapping", (0, [CSuper [] []; CSet "firstElement" (CNone); CSet "secondElement" (CNone); CSet "textTableMappings" (CList)])) (* line 896 *);
  ("DataPrototypeMapping", (0, [CSuper [] []; CSet "firstDataPrototypeRef" (CNone); CSet "firstToSecondDataTransformationRef" (CNone); CSet "secondDataPrototypeRef" (CNone); CSet "secondToFirstDataTransformationRef" (CNone); CSet "subElementMappings" (CList); CSet "textTableMappings" (CList)])) (* line 1016 *);
  ("ClientServerInterfaceMapping", (2, [CSuper [CArg 0; CArg 1] []; CSet "errorMappings" (CList); CSet "operationMappings" (CList)])) (* line 1136 *);
  ("VariableAndParameterInterfaceMapping", (2, [CSuper [CArg 0; CArg 1] []; CSet "dataMappings" (CList)])) (* line 1165 *);
  ("ModeInterfaceMapping", (2, [CSuper [CArg 0; CArg 1] []; CSet "modeMapping" (CNone)])) (* line 1184 *);
  ("TriggerInterfaceMapping", (2, [CSuper [CArg 0; CArg 1] []; CSet "triggerMapping" (CList)])) (* line 1204 *);
  ("ModeDeclarationMapping", (2, [CSuper [CArg 0; CArg 1] []; CSet "firstModeRefs" (CList); CSet "secondModeRef" (CNone)])) (* line 1233 *);
  ("ModeDeclarationMappingSet", (2, [CSuper [CArg 0; CArg 1] []; CSet "modeDeclarationMappings" (CList)])) (* line 1279 *);
  ("PortInterfaceMappingSet", (2, [CSuper [CArg 0; CArg 1] []; CSet "portInterfaceMappings" (CList)])) (* line 1304 *);
  ("TextTableMapping", (0, [CSuper [] []; CSet "bitfieldTextTableMaskFirst" (CNone); CSet "bitfieldTextTableMaskSecond" (CNone); CSet "identicalMapping" (CNone); CSet "mappingDirection" (CNone); CSet "valuePairs" (CList)])) (* line 1361 *);
  (* models/M2/AUTOSARTemplates/SWComponentTemplate/SwcInternalBehavior/AccessCount.py *)
  ("RteApiReturnValueProvisionEnum", (0, [CSuper [CFresh "list"] [("RteApiReturnValueProvisionEnum", "NO_RETURN_VALUE_PROVIDED"); ("RteApiReturnValueProvisionEnum", "RETURN_VALUE_PROVIDED")]])) (* line 30 *);
  ("AbstractAccessPoint", (2, [CAbstract "AbstractAccessPoint"; CSuper [CArg 0; CArg 1] []; CSet "returnValueProvision" (CNone)])) (* line 51 *);
  ("AccessCount", (0, [CSuper [] []; CSet "accessPointRef" (CNone); CSet "value" (CNone)])) (* line 102 *);
  ("AccessCountSet", (0, [CSuper [] []; CSet "accessCounts" (CList); CSet "countProfile" (CNone)])) (* line 180 *);
  (* models/M2/AUTOSARTemplates/SWComponentTemplate/SwcInternalBehavior/AutosarVariableRef.py *)
  ("AutosarVariableRef", (0, [CSuper [] []; CSet "autosarVariableIRef" (CNone); CSet "autosarVariableInImplDatatype" (CNone); CSet "localVariableRef" (CNone)])) (* line 26 *);
  (* models/M2/AUTOSARTemplates/SWComponentTemplate/SwcInternalBehavior/DataElements.py *)
  ("ParameterAccess", (2, [CSuper [CArg 0; CArg 1] []; CSet "accessedParameter" (CNone); CSet "swDataDefProps" (CNone)])) (* line 28 *);
  ("VariableAccess", (2, [CSuper [CArg 0; CArg 1] []; CSet "accessedVariableRef" (CNone); CSet "scope" (CNone)])) (* line 93 *);
  (* models/M2/AUTOSARTemplates/SWComponentTemplate/SwcInternalBehavior/IncludedDataTypes.py *)
  ("IncludedDataTypeSet", (0, [CSuper [] []; CSet "dataTypeRefs" (CList); CSet "literalPrefix" (CNone)])) (* line 25 *);
  (* models/M2/AUTOSARTemplates/SWComponentTemplate/SwcInternalBehavior/InstanceRefsUsage.py *)
  ("ArVariableInImplementationDataInstanceRef", (0, [CSuper [] []; CSet "contextDataPrototypeRefs" (CList); CSet "portPrototypeRef" (CNone); CSet "rootVariableDataPrototypeRef" (CNone); CSet "targetDataPrototypeRef" (CNone)])) (* line 30 *);
  ("VariableInAtomicSWCTypeInstanceRef", (0, [CSuper [] []; CSet "baseRef" (CNone); CSet "contextDataPrototypeRefs" (CList); CSet "portPrototypeRef" (CNone); CSet "rootVariableDataPrototypeRef" (CNone); CSet "targetDataPrototypeRef" (CNone)])) (* line 146 *);
  ("ParameterInAtomicSWCTypeInstanceRef", (0, [CSuper [] []; CSet "baseRef" (CNone); CSet "contextDataPrototypeRefs" (CList); CSet "portPrototypeRef" (CNone); CSet "rootParameterDataPrototypeRef" (CNone); CSet "targetDataPrototypeRef" (CNone)])) (* line 287 *);
  ("AutosarParameterRef", (0, [CSuper [] []; CSet "autosarParameterIRef" (CNone); CSet "localParameterRef" (CNone)])) (* line 428 *);
  (* models/M2/AUTOSARTemplates/SWComponentTemplate/SwcInternalBehavior/InstantiationDataDefProps.py *)
  ("InstantiationDataDefProps", (0, [CSuper [] []; CSet "parameterInstance" (CNone); CSet "swDataDefProps" (CNone); CSet "variableInstance" (CNone)])) (* line 38 *);
  (* models/M2/AUTOSARTemplates/SWComponentTemplate/SwcInternalBehavior/ModeDeclarationGroup.py *)
  ("ModeAccessPoint", (0, [CSuper [] []; CSet "ident" (CNone); CSet "modeGroupIRef" (CNone)])) (* line 28 *);
  ("ModeSwitchPoint", (2, [CSuper [CArg 0; CArg 1] []; CSet "modeGroupIRef" (CNone)])) (* line 90 *);
  ("IncludedModeDeclarationGroupSet", (0, [CSuper [] []; CSet "mode_declaration_group_refs" (CList); CSet "prefix" (CNone)])) (* line 131 *);
  (* models/M2/AUTOSARTemplates/SWComponentTemplate/SwcInternalBehavior/PerInstanceMemory.py *)
  ("PerInstanceMemory", (2, [CSuper [CArg 0; CArg 1] []; CSet "initValue" (CNone); CSet "swDataDefProps" (CNone); CSet "type" (CNone); CSet "typeDefinition" (CNone)])) (* line 29 *);
  (* models/M2/AUTOSARTemplates/SWComponentTemplate/SwcInternalBehavior/PortAPIOptions.py *)
  ("PortDefinedArgumentValue", (0, [CSuper [] []; CSet "value" (CNone); CSet "valueTypeTRef" (CNone)])) (* line 24 *);
  ("PortAPIOption", (0, [CSuper [] []; CSet "enableTakeAddress" (CNone); CSet "errorHandling" (CNone); CSet "indirectAPI" (CNone); CSet "portRef" (CNone); CSet "portArgValues" (CList); CSet "supportedFeatures" (CList); CSet "transformerStatusForwarding" (CNone)])) (* line 98 *);
  (* models/M2/AUTOSARTemplates/SWComponentTemplate/SwcInternalBehavior/RTEEvents.py *)
  ("RTEEvent", (2, [CAbstract "RTEEvent"; CSuper [CArg 0; CArg 1] []; CSet "disabledModeIRefs" (CList); CSet "startOnEventRef" (CNone)])) (* line 30 *);
  ("AsynchronousServerCallReturnsEvent", (2, [CSuper [CArg 0; CArg 1] []; CSet "eventSourceRef" (CNone)])) (* line 93 *);
  ("DataSendCompletedEvent", (2, [CSuper [CArg 0; CArg 1] []; CSet "eventSourceRef" (CNone)])) (* line 132 *);
  ("DataWriteCompletedEvent", (2, [CSuper [CArg 0; CArg 1] []; CSet "eventSourceRef" (CNone)])) (* line 171 *);
  ("DataReceivedEvent", (2, [CSuper [CArg 0; CArg 1] []; CSet "dataIRef" (CNone)])) (* line 209 *);
  ("SwcModeSwitchEvent", (2, [CSuper [CArg 0; CArg 1] []; CSet "activation" (CNone); CSet "modeIRefs" (CList)])) (* line 252 *);
  ("DataReceiveErrorEvent", (2, [CSuper [CArg 0; CArg 1] []; CSet "dataIRef" (CNone)])) (* line 303 *);
  ("OperationInvokedEvent", (2, [CSuper [CArg 0; CArg 1] []; CSet "operationIRef" (CNone)])) (* line 342 *);
  ("InitEvent", (2, [CSuper [CArg 0; CArg 1] []])) (* line 382 *);
  ("TimingEvent", (2, [CSuper [CArg 0; CArg 1] []; CSet "offset" (CNone); CSet "period" (CNone)])) (* line 400 *);
  ("InternalTriggerOccurredEvent", (2, [CSuper [CArg 0; CArg 1] []; CSet "eventSourceRef" (CNone)])) (* line 475 *);
  ("BackgroundEvent", (2, [CSuper [CArg 0; CArg 1] []])) (* line 513 *);
  ("ModeSwitchedAckEvent", (2, [CSuper [CArg 0; CArg 1] []; CSet "eventSourceRef" (CNone)])) (* line 528 *);
  ("WaitPoint", (2, [CSuper [CArg 0; CArg 1] []; CSet "timeout" (CNone); CSet "triggerRef" (CNone)])) (* line 572 *);
  (* models/M2/AUTOSARTemplates/SWComponentTemplate/SwcInternalBehavior/ServerCall.py *)
  ("ServerCallPoint", (2, [CAbstract "ServerCallPoint"; CSuper [CArg 0; CArg 1] []; CSet "operationIRef" (CNone); CSet "timeout" (CNone)])) (* line 26 *);
  (* models/M2/AUTOSARTemplates/SWComponentTemplate/SwcInternalBehavior/ServiceMapping.py *)
  ("RoleBasedPortAssignment", (0, [CSuper [] []; CSet "portPrototypeRef" (CNone); CSet "role" (CNone)])) (* line 60 *);
  ("SwcServiceDependency", (2, [CBase "ServiceDependency" []; CBase "Identifiable" [CArg 0; CArg 1]; CSet "assignedData" (CList); CSet "assignedPort" (CList); CSet "representedPortGroup" (CNone); CSet "serviceNeeds" (CNone)])) (* line 166 *);
  (* models/M2/AUTOSARTemplates/SWComponentTemplate/SwcInternalBehavior/Trigger.py *)
  ("InternalTriggeringPoint", (2, [CSuper [CArg 0; CArg 1] []; CSet "swImplPolicy" (CNone)])) (* line 30 *);
  ("ExternalTriggeringPointIdent", (2, [CSuper [CArg 0; CArg 1] []])) (* line 67 *);
  ("ExternalTriggeringPoint", (0, [CSuper [] []; CSet "ident" (CNone); CSet "trigger" (CNone)])) (* line 87 *);
  (* models/M2/AUTOSARTemplates/SWComponentTemplate/SwcInternalBehavior/VariantHandling.py *)
  ("VariationPointProxy", (2, [CSuper [CArg 0; CArg 1] []; CSet "conditionAccess" (CNone); CSet "implementationDataTypeRef" (CNone); CSet "postBuildValueAccessRef" (CNone); CSet "postBuildVariantConditions" (CList); CSet "valueAccess" (CNone)])) (* line 31 *);
  (* models/M2/AUTOSARTemplates/SWComponentTemplate/SwcInternalBehavior/__init__.py *)
  ("RunnableEntityArgument", (0, [CSuper [] []; CSet "symbol" (CNone)])) (* line 45 *);
  ("AsynchronousServerCallResultPoint", (2, [CSuper [CArg 0; CArg 1] []; CSet "asynchronousServerCallPointRef" (CNone)])) (* line 64 *);
  ("AsynchronousServerCallPoint", (2, [CSuper [CArg 0; CArg 1] []])) (* line 81 *);
  ("SynchronousServerCallPoint", (2, [CSuper [CArg 0; CArg 1] []; CSet "calledFromWithinExclusiveAreaRef" (CNone)])) (* line 91 *);
  ("RunnableEntity", (2, [CSuper [CArg 0; CArg 1] []; CSet "arguments" (CList); CSet "asynchronousServerCallResultPoints" (CList); CSet "canBeInvokedConcurrently" (CNone); CSet "dataReadAccesses" (CList); CSet "dataReceivePointByArguments" (CList); CSet "dataReceivePointByValues" (CList); CSet "dataSendPoints" (CList); CSet "dataWriteAccesses" (CList); CSet "externalTriggeringPoints" (CList); CSet "internalTriggeringPoints" (CList); CSet "modeAccessPoints" (CList); CSet "modeSwitchPoints" (CList); CSet "parameterAccesses" (CList); CSet "readLocalVariables" (CList); CSet "serverCallPoints" (CList); CSet "symbol" (CNone); CSet "waitPoints" (CList); CSet "writtenLocalVariables" (CList)])) (* line 155 *);
  ("SwcExclusiveAreaPolicy", (0, [CSuper [] []; CSet "apiPrinciple" (CNone); CSet "exclusiveAreaRef" (CNone)])) (* line 730 *);
  ("SwcInternalBehavior", (2, [CSuper [CArg 0; CArg 1] []; CSet "arTypedPerInstanceMemories" (CList); CSet "events" (CList); CSet "exclusiveAreaPolicies" (CList); CSet "explicitInterRunnableVariables" (CList); CSet "handleTerminationAndRestart" (CNone); CSet "implicitInterRunnableVariables" (CList); CSet "includedDataTypeSets" (CList); CSet "includedModeDeclarationGroupSets" (CList); CSet "instantiationDataDefProps" (CList); CSet "perInstanceMemories" (CList); CSet "perInstanceParameters" (CList); CSet "portAPIOptions" (CList); CSet "runnables" (CList); CSet "serviceDependencies" (CList); CSet "sharedParameters" (CList); CSet "supportsMultipleInstantiation" (CNone); CSet "variationPointProxies" (CList)])) (* line 838 *);
  (* models/M2/AUTOSARTemplates/SystemTemplate/DataMapping.py *)
  ("DataMapping", (0, [CAbstract "DataMapping"; CSuper [] []; CSet "introduction" (CNone)])) (* line 27 *);
  ("SenderReceiverToSignalMapping", (0, [CSuper [] []; CSet "communicationDirection" (CNone); CSet "dataElementIRef" (CNone); CSet "senderToSignalTextTableMapping" (CNone); CSet "signalToReceiverTextTableMapping" (CNone); CSet "systemSignalRef" (CNone)])) (* line 64 *);
  ("SenderRecCompositeTypeMapping", (0, [CAbstract "SenderRecCompositeTypeMapping"; CSuper [] []])) (* line 119 *);
  ("SenderRecRecordElementMapping", (0, [CSuper [] []; CSet "applicationRecordElementRef" (CNone); CSet "complexTypeMapping" (CNone); CSet "implementationRecordElementRef" (CNone); CSet "senderToSignalTextTableMapping" (CNone); CSet "signalToReceiverTextTableMapping" (CNone); CSet "systemSignalRef" (CNone)])) (* line 149 *);
  ("SenderRecRecordTypeMapping", (0, [CSuper [] []; CSet "recordElementMappings" (CList)])) (* line 220 *);
  ("IndexedArrayElement", (0, [CSuper [] []; CSet "applicationArrayElementRef" (CNone); CSet "implementationArrayElementRef" (CNone); CSet "index" (CNone)])) (* line 250 *);
  ("SenderRecArrayElementMapping", (0, [CSuper [] []; CSet "complexTypeMapping" (CNone); CSet "indexedArrayElement" (CNone); CSet "systemSignalRef" (CNone)])) (* line 298 *);
  ("SenderRecArrayTypeMapping", (0, [CSuper [] []; CSet "arrayElementMappings" (CList); CSet "senderToSignal" (CNone); CSet "signalToReceiverTextTableMapping" (CNone)])) (* line 346 *);
  ("SenderReceiverToSignalGroupMapping", (0, [CSuper [] []; CSet "dataElementIRef" (CNone); CSet "signalGroupRef" (CNone); CSet "typeMapping" (CNone)])) (* line 394 *);
  ("DataTypePolicyEnum", (0, [CSuper [CFresh "list"] [("DataTypePolicyEnum", "DDS_SERVICE"); ("DataTypePolicyEnum", "DDS_SIGNAL"); ("DataTypePolicyEnum", "LEGACY"); ("DataTypePolicyEnum", "NETWORK_REPRESENTATION_FROM_COM_SPEC"); ("DataTypePolicyEnum", "OVERRIDE"); ("DataTypePolicyEnum", "TRANSFORMING_I_SIGNAL")]])) (* line 451 *);
  (* models/M2/AUTOSARTemplates/SystemTemplate/DiagnosticConnection.py *)
  ("DiagnosticConnection", (2, [CSuper [CArg 0; CArg 1] []; CSet "functionalRequestRefs" (CList); CSet "periodicResponseUudtRefs" (CList); CSet "physicalRequestRef" (CNone); CSet "responseRef" (CNone); CSet "responseOnEventRef" (CNone)])) (* line 30 *);
  (* models/M2/AUTOSARTemplates/SystemTemplate/DoIp.py *)
  ("AbstractDoIpLogicAddressProps", (2, [CAbstract "AbstractDoIpLogicAddressProps"; CSuper [CArg 0; CArg 1] []])) (* line 21 *);
  ("DoIpLogicTargetAddressProps", (2, [CSuper [CArg 0; CArg 1] []])) (* line 38 *);
  ("DoIpLogicTesterAddressProps", (2, [CSuper [CArg 0; CArg 1] []; CSet "doIpTesterRoutingActivationRef" (CNone)])) (* line 54 *);
  (* models/M2/AUTOSARTemplates/SystemTemplate/ECUResourceMapping.py *)
  ("ECUMapping", (2, [CSuper [CArg 0; CArg 1] []; CSet "commControllerMappings" (CList); CSet "ecuRef" (CNone); CSet "ecuInstanceRef" (CNone); CSet "hwPortMappings" (CList)])) (* line 22 *);
  (* models/M2/AUTOSARTemplates/SystemTemplate/InstanceRefs.py *)
  ("VariableDataPrototypeInSystemInstanceRef", (0, [CSuper [] []; CSet "baseRef" (CNone); CSet "contextComponentRefs" (CList); CSet "contextCompositionRef" (CNone); CSet "contextPortRef" (CNone); CSet "targetDataPrototypeRef" (CNone)])) (* line 28 *);
  ("ComponentInSystemInstanceRef", (0, [CSuper [] []; CSet "baseRef" (CNone); CSet "contextComponentRefs" (CList); CSet "contextCompositionRef" (CNone); CSet "targetComponentRef" (CNone)])) (* line 89 *);
  (* models/M2/AUTOSARTemplates/SystemTemplate/NetworkManagement.py *)
  ("NmClusterCoupling", (0, [CAbstract "NmClusterCoupling"; CSuper [] []])) (* line 23 *);
  ("CanNmClusterCoupling", (0, [CSuper [] []; CSet "coupledClusterRefs" (CList); CSet "nmBusloadReductionEnabled" (CNone); CSet "nmImmediateRestartEnabled" (CNone)])) (* line 46 *);
  ("FlexrayNmClusterCoupling", (0, [CSuper [] []; CSet "coupledClusterRefs" (CList); CSet "nmScheduleVariant" (CNone)])) (* line 89 *);
  ("NmCoordinatorRoleEnum", (0, [CSuper [CFresh "list"] [("NmCoordinatorRoleEnum", "ACTIVE"); ("NmCoordinatorRoleEnum", "PASSIVE")]])) (* line 126 *);
  ("NmNode", (2, [CAbstract "NmNode"; CSuper [CArg 0; CArg 1] []; CSet "controllerRef" (CNone); CSet "nmCoordCluster" (CNone); CSet "nmCoordinatorRole" (CNone); CSet "nmIfEcuRef" (CNone); CSet "nmNodeId" (CNone); CSet "nmPassiveModeEnabled" (CNone); CSet "rxNmPduRefs" (CList); CSet "txNmPduRefs" (CList)])) (* line 162 *);
  ("CanNmNode", (2, [CSuper [CArg 0; CArg 1] []; CSet "allNmMessagesKeepAwake" (CNone); CSet "nmCarWakeUpFilterEnabled" (CNone); CSet "nmCarWakeUpRxEnabled" (CNone); CSet "nmMsgCycleOffset" (CNone); CSet "nmMsgReducedTime" (CNone); CSet "nmRangeConfig" (CNone)])) (* line 331 *);
  ("FlexrayNmNode", (2, [CSuper [CArg 0; CArg 1] []])) (* line 393 *);
  ("J1939NmAddressConfigurationCapabilityEnum", (0, [CSuper [CFresh "list"] [("J1939NmAddressConfigurationCapabilityEnum", "J1939NM_AAC"); ("J1939NmAddressConfigurationCapabilityEnum", "J1939NM_CCA"); ("J1939NmAddressConfigurationCapabilityEnum", "J1939NM_NCA"); ("J1939NmAddressConfigurationCapabilityEnum", "J1939NM_SCA"); ("J1939NmAddressConfigurationCapabilityEnum", "J1939NM_SVCA")]])) (* line 422 *);
  ("J1939NodeName", (0, [CSuper [] []; CSet "arbitraryAddressCapable" (CNone); CSet "ecuInstance" (CNone); CSet "function" (CNone); CSet "functionInstance" (CNone); CSet "identitiyNumber" (CNone); CSet "industryGroup" (CNone); CSet "manufacturerCode" (CNone); CSet "vehicleSystem" (CNone); CSet "vehicleSystemInstance" (CNone)])) (* line 463 *);
  ("J1939NmNode", (2, [CSuper [CArg 0; CArg 1] []; CSet "addressConfigurationCapability" (CNone); CSet "nodeName" (CNone)])) (* line 644 *);
  ("UdpNmNode", (2, [CSuper [CArg 0; CArg 1] []; CSet "allNmMessagesKeepAwake" (CNone); CSet "nmMsgCycleOffset" (CNone)])) (* line 698 *);
  ("BusspecificNmEcu", (0, [CAbstract "BusspecificNmEcu"; CSuper [] []])) (* line 731 *);
  ("CanNmEcu", (0, [CSuper [] []])) (* line 746 *);
  ("FlexrayNmEcu", (0, [CSuper [] []])) (* line 759 *);
  ("J1939NmEcu", (0, [CSuper [] []])) (* line 772 *);
  ("UdpNmEcu", (0, [CSuper [] []; CSet "nmSynchronizationPointEnabled" (CNone)])) (* line 788 *);
  ("NmEcu", (2, [CSuper [CArg 0; CArg 1] []; CSet "busDependentNmEcus" (CList); CSet "ecuInstanceRef" (CNone); CSet "nmBusSynchronizationEnabled" (CNone); CSet "nmComControlEnabled" (CNone); CSet "nmCoordinator" (CNone); CSet "nmCycletimeMainFunction" (CNone); CSet "nmNodeDetectionEnabled" (CNone); CSet "nmNodeIdEnabled" (CNone); CSet "nmPduRxIndicationEnabled" (CNone); CSet "nmRemoteSleepIndEnabled" (CNone); CSet "nmRepeatMsgIndEnabled" (CNone); CSet "nmStateChangeIndEnabled" (CNone); CSet "nmUserDataEnabled" (CNone)])) (* line 838 *);
  ("NmConfig", (2, [CSuper [CArg 0; CArg 1] []; CSet "nmClusterCouplings" (CList); CSet "nmIfEcus" (CList)])) (* line 979 *);
  ("NmCluster", (2, [CAbstract "NmCluster"; CSuper [CArg 0; CArg 1] []; CSet "communicationClusterRef" (CNone); CSet "nmChannelId" (CNone); CSet "nmChannelSleepMaster" (CNone); CSet "nmNodes" (CList); CSet "nmNodeDetectionEnabled" (CNone); CSet "nmNodeIdEnabled" (CNone); CSet "nmPncParticipation" (CNone); CSet "nmRepeatMsgIndEnabled" (CNone); CSet "_nmSynchronizingNetwork" (CNone)])) (* line 1058 *);
  ("CanNmCluster", (2, [CSuper [CArg 0; CArg 1] []; CSet "nmBusloadReductionActive" (CNone); CSet "nmCarWakeUpBitPosition" (CNone); CSet "nmCarWakeUpFilterNodeId" (CNone); CSet "nmCarWakeUpRxEnabled" (CNone); CSet "nmCbvPosition" (CNone); CSet "nmChannelActive" (CNone); CSet "nmImmediateNmCycleTime" (CNone); CSet "nmImmediateNmTransmissions" (CNone); CSet "nmMessageTimeoutTime" (CNone); CSet "nmMsgCycleTime" (CNone); CSet "nmNetworkTimeout" (CNone); CSet "nmNidPosition" (CNone); CSet "nmRemoteSleepIndicationTime" (CNone); CSet "nmRepeatMessageTime" (CNone); CSet "nmUserDataLength" (CNone); CSet "nmWaitBusSleepTime" (CNone)])) (* line 1205 *);
  ("FlexrayNmCluster", (2, [CSuper [CArg 0; CArg 1] []])) (* line 1348 *);
  ("J1939NmCluster", (2, [CSuper [CArg 0; CArg 1] []])) (* line 1362 *);
  ("UdpNmClusterCoupling", (0, [CSuper [] []; CSet "coupledClusterRefs" (CList); CSet "nmImmediateRestartEnabled" (CNone)])) (* line 1380 *);
  ("UdpNmCluster", (2, [CSuper [CArg 0; CArg 1] []; CSet "nmCbvPosition" (CNone); CSet "nmChannelActive" (CNone); CSet "nmImmediateNmCycleTime" (CNone); CSet "nmImmediateNmTransmissions" (CNone); CSet "nmMessageTimeoutTime" (CNone); CSet "nmMsgCycleTime" (CNone); CSet "nmNetworkTimeout" (CNone); CSet "nmNidPosition" (CNone); CSet "nmRemoteSleepIndicationTime" (CNone); CSet "nmRepeatMessageTime" (CNone); CSet "nmWaitBusSleepTime" (CNone); CSet "vlanRef" (CNone)])) (* line 1437 *);
  (* models/M2/AUTOSARTemplates/SystemTemplate/RteEventToOsTaskMapping.py *)
  ("AppOsTaskProxyToEcuTaskProxyMapping", (2, [CSuper [CArg 0; CArg 1] []; CSet "appTaskProxyRef" (CNone); CSet "ecuTaskProxyRef" (CNone); CSet "offset" (CNone)])) (* line 24 *);
  (* models/M2/AUTOSARTemplates/SystemTemplate/SWmapping.py *)
  ("SwcToImplMapping", (2, [CSuper [CArg 0; CArg 1] []; CSet "componentIRefs" (CList); CSet "componentImplementationRef" (CNone)])) (* line 24 *);
  ("ApplicationPartitionToEcuPartitionMapping", (2, [CSuper [CArg 0; CArg 1] []; CSet "applicationPartitionRefs" (CList); CSet "ecuPartitionRef" (CNone)])) (* line 61 *);
  (* models/M2/AUTOSARTemplates/SystemTemplate/SecureCommunication.py *)
  ("CryptoServiceMapping", (2, [CAbstract "CryptoServiceMapping"; CSuper [CArg 0; CArg 1] []])) (* line 20 *);
  ("SecOcCryptoServiceMapping", (2, [CSuper [CArg 0; CArg 1] []; CSet "authenticationRef" (CNone); CSet "cryptoServiceKeyRef" (CNone); CSet "cryptoServiceQueueRef" (CNone)])) (* line 42 *);
  ("TlsCryptoServiceMapping", (2, [CSuper [CArg 0; CArg 1] []; CSet "keyExchangeRef" (CNone); CSet "tlsCipherSuites" (CList); CSet "useClientAuthenticationRequest" (CNone); CSet "useSecurityExtensionRecordSizeLimit" (CNone)])) (* line 92 *);
  (* models/M2/AUTOSARTemplates/SystemTemplate/TransportProtocols.py *)
  ("TpConfig", (2, [CAbstract "TpConfig"; CSuper [CArg 0; CArg 1] []; CSet "communicationClusterRef" (CNone)])) (* line 26 *);
  ("CanTpAddress", (2, [CSuper [CArg 0; CArg 1] []; CSet "tpAddress" (CNone); CSet "tpAddressExtensionValue" (CNone)])) (* line 57 *);
  ("CanTpChannel", (2, [CSuper [CArg 0; CArg 1] []; CSet "channelId" (CNone); CSet "channelMode" (CNone)])) (* line 93 *);
  ("TpConnectionIdent", (2, [CSuper [CArg 0; CArg 1] []])) (* line 126 *);
  ("TpConnection", (0, [CAbstract "TpConnection"; CSuper [] []; CSet "ident" (CNone)])) (* line 142 *);
  ("CanTpConnection", (0, [CSuper [] []; CSet "addressingFormat" (CNone); CSet "cancellation" (CNone); CSet "canTpChannelRef" (CNone); CSet "dataPduRef" (CNone); CSet "flowControlPduRef" (CNone); CSet "maxBlockSize" (CNone); CSet "multicastRef" (CNone); CSet "paddingActivation" (CNone); CSet "receiverRefs" (CList); CSet "taType" (CNone); CSet "timeoutBr" (CNone); CSet "timeoutBs" (CNone); CSet "timeoutCr" (CNone); CSet "timeoutCs" (CNone); CSet "tpSduRef" (CNone); CSet "transmitterRef" (CNone)])) (* line 201 *);
  ("CanTpEcu", (0, [CSuper [] []; CSet "cycleTimeMainFunction" (CNone); CSet "ecuInstanceRef" (CNone)])) (* line 364 *);
  ("CanTpNode", (2, [CSuper [CArg 0; CArg 1] []; CSet "connectorRef" (CNone); CSet "maxFcWait" (CNone); CSet "stMin" (CNone); CSet "timeoutAr" (CNone); CSet "timeoutAs" (CNone); CSet "tpAddressRef" (CNone)])) (* line 409 *);
  ("CanTpConfig", (2, [CSuper [CArg 0; CArg 1] []; CSet "tpAddresses" (CList); CSet "tpChannels" (CList); CSet "tpConnections" (CList); CSet "tpEcus" (CList); CSet "tpNodes" (CList)])) (* line 488 *);
  ("DoIpLogicAddress", (2, [CSuper [CArg 0; CArg 1] []; CSet "address" (CNone); CSet "doIpLogicAddressProps" (CNone)])) (* line 558 *);
  ("DoIpTpConnection", (0, [CSuper [] []; CSet "doIpSourceAddressRef" (CNone); CSet "doIpTargetAddressRef" (CNone); CSet "tpSduRef" (CNone)])) (* line 597 *);
  ("DoIpTpConfig", (2, [CSuper [CArg 0; CArg 1] []; CSet "doIpLogicAddresses" (CList); CSet "tpConnections" (CList)])) (* line 643 *);
  ("TpAddress", (2, [CSuper [CArg 0; CArg 1] []; CSet "tpAddress" (CNone)])) (* line 679 *);
  ("LinTpConnection", (0, [CSuper [] []; CSet "dataPduRef" (CNone); CSet "flowControlRef" (CNone); CSet "linTpNSduRef" (CNone); CSet "multicastRef" (CNone); CSet "receiverRefs" (CList); CSet "timeoutAs" (CNone); CSet "timeoutCr" (CNone); CSet "timeoutCs" (CNone); CSet "transmitterRef" (CNone)])) (* line 721 *);
  ("LinTpNode", (2, [CSuper [CArg 0; CArg 1] []; CSet "connectorRef" (CNone); CSet "dropNotRequestedNad" (CNone); CSet "maxNumberOfRespPendingFrames" (CNone); CSet "p2Max" (CNone); CSet "p2Timing" (CNone); CSet "tpAddressRef" (CNone)])) (* line 829 *);
  ("LinTpConfig", (2, [CSuper [CArg 0; CArg 1] []; CSet "tpAddresses" (CList); CSet "tpConnections" (CList); CSet "tpNodes" (CList)])) (* line 904 *);
  (* models/M2/AUTOSARTemplates/SystemTemplate/__init__.py *)
  ("SwcToEcuMapping", (2, [CSuper [CArg 0; CArg 1] []; CSet "componentIRefs" (CList); CSet "controlledHwElementRef" (CNone); CSet "ecuInstanceRef" (CNone); CSet "processingUnitRef" (CNone)])) (* line 41 *);
  ("ComManagementMapping", (2, [CSuper [CArg 0; CArg 1] []; CSet "comManagementGroupRefs" (CList); CSet "comManagementPortGroupRefs" (CList); CSet "physicalChannelRef" (CNone)])) (* line 94 *);
  ("SystemMapping", (2, [CSuper [CArg 0; CArg 1] []; CSet "applicationPartitionToEcuPartitionMappings" (CList); CSet "appOsTaskProxyToEcuTaskProxyMappings" (CList); CSet "comManagementMappings" (CList); CSet "cryptoServiceMappings" (CList); CSet "dataMappings" (CList); CSet "ddsISignalToTopicMappings" (CList); CSet "ecuResourceMappings" (CList); CSet "j1939ControllerApplicationToJ1939NmNodeMappings" (CList); CSet "mappingConstraints" (CList); CSet "pncMappings" (CList); CSet "portElementToComResourceMappings" (CList); CSet "resourceEstimations" (CList); CSet "resourceToApplicationPartitionMappings" (CList); CSet "rteEventSeparations" (CList); CSet "rteEventToOsTaskProxyMappings" (CList); CSet "signalPathConstraints" (CList); CSet "softwareClusterToApplicationPartitionMappings" (CList); CSet "softwareClusterToResourceMappings" (CList); CSet "swClusterMappings" (CList); CSet "swcToApplicationPartitionMappings" (CList); CSet "swImplMappings" (CList); CSet "swMappings" (CList); CSet "systemSignalGroupToComResourceMappings" (CList); CSet "systemSignalToComResourceMappings" (CList)])) (* line 186 *);
  ("RootSwCompositionPrototype", (2, [CSuper [CArg 0; CArg 1] []; CSet "calibrationParameterValueSetRefs" (CList); CSet "flatMapRef" (CNone); CSet "softwareCompositionTRef" (CNone)])) (* line 412 *);
  ("J1939SharedAddressCluster", (2, [CSuper [CArg 0; CArg 1] []; CSet "participatingJ1939ClusterRefs" (CList)])) (* line 482 *);
  ("System", (2, [CSuper [CArg 0; CArg 1] []; CSet "clientIdDefinitionSetRefs" (CList); CSet "containerIPduHeaderByteOrder" (CNone); CSet "ecuExtractVersion" (CNone); CSet "fibexElements" (CList); CSet "interpolationRoutineMappingSetRefs" (CList); CSet "j1939SharedAddressClusters" (CList); CSet "mappings" (CList); CSet "pncVectorLength" (CNone); CSet "pncVectorOffset" (CNone); CSet "rootSoftwareComposition" (CNone); CSet "swClusterRefs" (CList); CSet "systemDocumentation" (CList); CSet "systemVersion" (CNone)])) (* line 533 *);
  (* models/M2/AUTOSARTemplates/SystemTemplate/Fibex/Fibex4Multiplatform.py *)
  ("FrameMapping", (0, [CSuper [] []; CSet "introduction" (CNone); CSet "sourceFrameRef" (CNone); CSet "targetFrameRef" (CNone)])) (* line 24 *);
  ("ISignalMapping", (0, [CSuper [] []; CSet "introduction" (CNone); CSet "sourceSignalRef" (CNone); CSet "targetSignalRef" (CNone)])) (* line 68 *);
  ("DefaultValueElement", (0, [CSuper [] []; CSet "elementByteValue" (CNone); CSet "elementPosition" (CNone)])) (* line 110 *);
  ("PduMappingDefaultValue", (0, [CSuper [] []; CSet "defaultValueElements" (CList)])) (* line 144 *);
  ("TargetIPduRef", (0, [CSuper [] []; CSet "defaultValue" (CNone); CSet "targetIPdu" (CNone)])) (* line 170 *);
  ("IPduMapping", (0, [CSuper [] []; CSet "introduction" (CNone); CSet "pdurTpChunkSize" (CNone); CSet "sourceIpduRef" (CNone); CSet "targetIPdu" (CNone)])) (* line 210 *);
  ("Gateway", (2, [CSuper [CArg 0; CArg 1] []; CSet "ecuRef" (CNone); CSet "frameMappings" (CList); CSet "iPduMappings" (CList); CSet "signalMappings" (CList)])) (* line 268 *);
  (* models/M2/AUTOSARTemplates/SystemTemplate/Fibex/Fibex4Can/CanCommunication.py *)
  ("RxIdentifierRange", (0, [CSuper [] []; CSet "lowerCanId" (CNone); CSet "upperCanId" (CNone)])) (* line 23 *);
  ("CanFrame", (2, [CSuper [CArg 0; CArg 1] []])) (* line 54 *);
  ("CanFrameTriggering", (2, [CSuper [CArg 0; CArg 1] []; CSet "absolutelyScheduledTimings" (CList); CSet "canAddressingMode" (CNone); CSet "canFdFrameSupport" (CNone); CSet "canFrameRxBehavior" (CNone); CSet "canFrameTxBehavior" (CNone); CSet "canXlFrameTriggeringProps" (CNone); CSet "identifier" (CNone); CSet "j1939requestable" (CNone); CSet "rxIdentifierRange" (CNone); CSet "rxMask" (CNone); CSet "txMask" (CNone)])) (* line 90 *);
  (* models/M2/AUTOSARTemplates/SystemTemplate/Fibex/Fibex4Can/CanTopology.py *)
  ("CanControllerFdConfiguration", (0, [CSuper [] []; CSet "paddingValue" (CNone); CSet "propSeg" (CNone); CSet "sspOffset" (CNone); CSet "syncJumpWidth" (CNone); CSet "timeSeg1" (CNone); CSet "timeSeg2" (CNone); CSet "txBitRateSwitch" (CNone)])) (* line 36 *);
  ("CanControllerFdConfigurationRequirements", (0, [CSuper [] []; CSet "maxNumberOfTimeQuantaPerBit" (CNone); CSet "maxSamplePoint" (CNone); CSet "maxSyncJumpWidth" (CNone); CSet "maxTrcvDelayCompensationOffset" (CNone); CSet "minNumberOfTimeQuantaPerBit" (CNone); CSet "minSamplePoint" (CNone); CSet "minSyncJumpWidth" (CNone); CSet "minTrcvDelayCompensationOffset" (CNone); CSet "paddingValue" (CNone); CSet "txBitRateSwitch" (CNone)])) (* line 196 *);
  ("CanControllerXlConfiguration", (0, [CSuper [] []; CSet "errorSignalingEnabled" (CNone); CSet "propSeg" (CNone); CSet "pwmL" (CNone); CSet "pwmO" (CNone); CSet "pwmS" (CNone); CSet "sspOffset" (CNone); CSet "syncJumpWidth" (CNone); CSet "timeSeg1" (CNone); CSet "timeSeg2" (CNone); CSet "trcvPwmModeEnabled" (CNone)])) (* line 320 *);
  ("CanControllerXlConfigurationRequirements", (0, [CSuper [] []; CSet "errorSignalingEnabled" (CNone); CSet "maxNumberOfTimeQuantaPerBit" (CNone); CSet "maxPwmL" (CNone); CSet "maxPwmO" (CNone); CSet "maxPwmS" (CNone); CSet "maxSamplePoint" (CNone); CSet "maxSyncJumpWidth" (CNone); CSet "maxTrcvDelayCompensationOffset" (CNone); CSet "minNumberOfTimeQuantaPerBit" (CNone); CSet "minPwmL" (CNone); CSet "minPwmO" (CNone); CSet "minPwmS" (CNone); CSet "minSamplePoint" (CNone); CSet "minSyncJumpWidth" (CNone); CSet "minTrcvDelayCompensationOffset" (CNone); CSet "trcvPwmModeEnabled" (CNone)])) (* line 505 *);
  ("AbstractCanCommunicationControllerAttributes", (0, [CAbstract "AbstractCanCommunicationControllerAttributes"; CSuper [] []; CSet "canControllerFdAttributes" (CNone); CSet "canControllerFdRequirements" (CNone); CSet "canControllerXlAttributes" (CNone); CSet "canControllerXlRequirements" (CNone)])) (* line 750 *);
  ("CanControllerConfigurationRequirements", (0, [CSuper [] []; CSet "maxNumberOfTimeQuantaPerBit" (CNone); CSet "maxSamplePoint" (CNone); CSet "maxSyncJumpWidth" (CNone); CSet "minNumberOfTimeQuantaPerBit" (CNone); CSet "minSamplePoint" (CNone); CSet "minSyncJumpWidth" (CNone)])) (* line 835 *);
  ("AbstractCanCommunicationController", (2, [CAbstract "AbstractCanCommunicationController"; CSuper [CArg 0; CArg 1] []; CSet "canControllerAttributes" (CNone)])) (* line 899 *);
  ("CanCommunicationController", (2, [CSuper [CArg 0; CArg 1] []])) (* line 933 *);
  ("AbstractCanCommunicationConnector", (2, [CAbstract "AbstractCanCommunicationConnector"; CSuper [CArg 0; CArg 1] []])) (* line 947 *);
  ("CanCommunicationConnector", (2, [CSuper [CArg 0; CArg 1] []; CSet "pncWakeupCanId" (CNone); CSet "pncWakeupCanIdExtended" (CNone); CSet "pncWakeupCanIdMask" (CNone); CSet "pncWakeupDataMask" (CNone); CSet "pncWakeupDlc" (CNone)])) (* line 974 *);
  (* models/M2/AUTOSARTemplates/SystemTemplate/Fibex/Fibex4Ethernet/EthernetCommunication.py *)
  ("SocketConnection", (0, [CSuper [] []; CSet "allowedIPv6ExtHeadersRef" (CNone); CSet "allowedTcpOptionsRef" (CNone); CSet "clientIpAddrFromConnectionRequest" (CNone); CSet "clientPortRef" (CNone); CSet "clientPortFromConnectionRequest" (CNone); CSet "pdus" (CList); CSet "pduSocketConnectionIpdus" (CList); CSet "pduCollectionMaxBufferSize" (CNone); CSet "pduCollectionTimeout" (CNone); CSet "runtimeIpAddressConfiguration" (CNone); CSet "runtimePortConfiguration" (CNone); CSet "shortLabel" (CNone)])) (* line 45 *);
  ("SocketConnectionIpduIdentifier", (0, [CSuper [] []; CSet "headerId" (CNone); CSet "pduCollectionPduTimeout" (CNone); CSet "pduCollectionSemantics" (CNone); CSet "pduCollectionTrigger" (CNone); CSet "PduRef" (CNone); CSet "pduTriggeringRef" (CNone); CSet "routingGroupRefs" (CList)])) (* line 170 *);
  ("SocketConnectionBundle", (2, [CSuper [CArg 0; CArg 1] []; CSet "bundledConnections" (CList); CSet "differentiatedServiceField" (CNone); CSet "flowLabel" (CNone); CSet "pathMtuDiscoveryEnabled" (CNone); CSet "pdus" (CList); CSet "serverPortRef" (CNone); CSet "udpChecksumHandling" (CNone)])) (* line 255 *);
  ("SoAdRoutingGroup", (2, [CSuper [CArg 0; CArg 1] []; CSet "eventGroupControlType" (CNone)])) (* line 328 *);
  (* models/M2/AUTOSARTemplates/SystemTemplate/Fibex/Fibex4Ethernet/EthernetFrame.py *)
  ("AbstractEthernetFrame", (2, [CAbstract "AbstractEthernetFrame"; CSuper [CArg 0; CArg 1] []])) (* line 20 *);
  ("GenericEthernetFrame", (2, [CSuper [CArg 0; CArg 1] []])) (* line 37 *);
  (* models/M2/AUTOSARTemplates/SystemTemplate/Fibex/Fibex4Ethernet/EthernetTopology.py *)
  ("MacMulticastGroup", (2, [CSuper [CArg 0; CArg 1] []; CSet "macMulticastAddress" (CNone)])) (* line 21 *);
  ("EthernetCluster", (2, [CSuper [CArg 0; CArg 1] []; CSet "couplingPorts" (CList); CSet "couplingPortStartupActiveTime" (CNone); CSet "couplingPortSwitchoffDelay" (CNone); CSet "macMulticastGroups" (CList)])) (* line 53 *);
  ("CouplingPortStructuralElement", (2, [CAbstract "CouplingPortStructuralElement"; CSuper [CArg 0; CArg 1] []])) (* line 106 *);
  ("CouplingPortFifo", (2, [CSuper [CArg 0; CArg 1] []; CSet "assignedTrafficClasses" (CList); CSet "minimumFifoLength" (CNone); CSet "shaper" (CNone); CSet "trafficClassPreemptionSupport" (CNone)])) (* line 131 *);
  ("CouplingPortScheduler", (2, [CSuper [CArg 0; CArg 1] []; CSet "portScheduler" (CNone); CSet "predecessorRefs" (CList)])) (* line 186 *);
  ("EthernetPriorityRegeneration", (2, [CSuper [CArg 0; CArg 1] []; CSet "ingressPriority" (CNone); CSet "regeneratedPriority" (CNone)])) (* line 223 *);
  ("CouplingPortDetails", (0, [CSuper [] []; CSet "couplingPortStructuralElements" (CList); CSet "defaultTrafficClass" (CNone); CSet "ethernetPriorityRegenerations" (CList); CSet "ethernetTrafficClassAssignments" (CList); CSet "framePreemptionSupport" (CNone); CSet "globalTimeProps" (CNone); CSet "lastEgressSchedulerRef" (CNone); CSet "ratePolicies" (CList); CSet "vlanTranslationTables" (CList)])) (* line 276 *);
  ("VlanMembership", (0, [CSuper [] []; CSet "defaultPriority" (CNone); CSet "dhcpAddressAssignment" (CNone); CSet "sendActivity" (CNone); CSet "vlanRef" (CNone)])) (* line 390 *);
  ("CouplingPort", (2, [CSuper [CArg 0; CArg 1] []; CSet "connectionNegotiationBehavior" (CNone); CSet "couplingPortDetails" (CNone); CSet "couplingPortRole" (CNone); CSet "defaultVlanRef" (CNone); CSet "macAddressVlanAssignments" (CList); CSet "macLayerType" (CNone); CSet "macMulticastAddressRefs" (CList); CSet "macSecProps" (CList); CSet "physicalLayerType" (CNone); CSet "plcaProps" (CNone); CSet "pncMappingRefs" (CList); CSet "receiveActivity" (CNone); CSet "vlanMemberships" (CList); CSet "wakeupSleepOnDatalineConfigRef" (CNone)])) (* line 469 *);
  ("EthernetCommunicationController", (2, [CSuper [CArg 0; CArg 1] []; CSet "canXlConfigRef" (CNone); CSet "couplingPorts" (CList); CSet "macLayerType" (CNone); CSet "macUnicastAddress" (CNone); CSet "maximumReceiveBufferLength" (CNone); CSet "maximumTransmitBufferLength" (CNone); CSet "slaveActAsPassiveCommunicationSlave" (CNone); CSet "slaveQualifiedUnexpectedLinkDownTime" (CNone)])) (* line 626 *);
  ("EthernetCommunicationConnector", (2, [CSuper [CArg 0; CArg 1] []; CSet "ethIpPropsRef" (CNone); CSet "maximumTransmissionUnit" (CNone); CSet "neighborCacheSize" (CNone); CSet "networkEndpointRefs" (CList); CSet "pathMtuEnabled" (CNone); CSet "pathMtuTimeout" (CNone)])) (* line 720 *);
  ("RequestResponseDelay", (0, [CSuper [] []; CSet "maxValue" (CNone); CSet "minValue" (CNone)])) (* line 788 *);
  ("InitialSdDelayConfig", (0, [CSuper [] []; CSet "initialDelayMaxValue" (CNone); CSet "initialDelayMinValue" (CNone); CSet "initialRepetitionsBaseDelay" (CNone); CSet "initialRepetitionsMax" (CNone)])) (* line 829 *);
  ("SdClientConfig", (0, [CSuper [] []; CSet "capabilityRecord" (CNone); CSet "clientServiceMajorVersion" (CNone); CSet "clientServiceMinorVersion" (CNone); CSet "initialFindBehavior" (CNone); CSet "requestResponseDelay" (CNone); CSet "ttl" (CNone)])) (* line 890 *);
  (* models/M2/AUTOSARTemplates/SystemTemplate/Fibex/Fibex4Ethernet/NetworkEndpoint.py *)
  ("NetworkEndpointAddress", (0, [CAbstract "NetworkEndpointAddress"; CSuper [] []])) (* line 21 *);
  ("Ipv4Configuration", (0, [CSuper [] []; CSet "assignmentPriority" (CNone); CSet "defaultGateway" (CNone); CSet "dnsServerAddresses" (CList); CSet "ipAddressKeepBehavior" (CNone); CSet "ipv4Address" (CNone); CSet "ipv4AddressSource" (CNone); CSet "networkMask" (CNone); CSet "ttl" (CNone)])) (* line 54 *);
  ("Ipv6Configuration", (0, [CSuper [] []; CSet "assignmentPriority" (CNone); CSet "defaultRouter" (CNone); CSet "dnsServerAddresses" (CList); CSet "enableAnycast" (CNone); CSet "hopCount" (CNone); CSet "ipAddressKeepBehavior" (CNone); CSet "ipAddressPrefixLength" (CNone); CSet "ipv6Address" (CNone); CSet "ipv6AddressSource" (CNone)])) (* line 151 *);
  ("DoIpEntity", (0, [CSuper [] []; CSet "doIpEntityRole" (CNone)])) (* line 240 *);
  ("TimeSyncClientConfiguration", (0, [CSuper [] []; CSet "orderedMasters" (CList); CSet "timeSyncTechnology" (CNone)])) (* line 268 *);
  ("TimeSyncServerConfiguration", (2, [CSuper [CArg 0; CArg 1] []; CSet "priority" (CNone); CSet "syncInterval" (CNone); CSet "timeSyncServerIdentifier" (CNone); CSet "timeSyncTechnology" (CNone)])) (* line 309 *);
  ("TimeSynchronization", (0, [CSuper [] []; CSet "timeSyncClient" (CNone); CSet "timeSyncServer" (CNone)])) (* line 364 *);
  ("InfrastructureServices", (0, [CSuper [] []; CSet "doIpEntity" (CNone); CSet "timeSynchronization" (CNone)])) (* line 401 *);
  ("NetworkEndpoint", (2, [CSuper [CArg 0; CArg 1] []; CSet "fullyQualifiedDomainName" (CNone); CSet "infrastructureServices" (CNone); CSet "ipSecConfig" (CNone); CSet "networkEndpointAddresses" (CList); CSet "priority" (CNone)])) (* line 442 *);
  (* models/M2/AUTOSARTemplates/SystemTemplate/Fibex/Fibex4Ethernet/ServiceInstances.py *)
  ("TransportProtocolConfiguration", (0, [CAbstract "TransportProtocolConfiguration"; CSuper [] []])) (* line 24 *);
  ("GenericTp", (0, [CSuper [] []; CSet "tpAddress" (CNone); CSet "tpTechnology" (CNone)])) (* line 45 *);
  ("TcpUdpConfig", (0, [CAbstract "TcpUdpConfig"; CSuper [] []])) (* line 76 *);
  ("TpPort", (0, [CSuper [] []; CSet "dynamicallyAssigned" (CNone); CSet "portNumber" (CNone)])) (* line 97 *);
  ("UdpTp", (0, [CSuper [] []; CSet "udpTpPort" (CNone)])) (* line 130 *);
  ("TcpTp", (0, [CSuper [] []; CSet "keepAliveInterval" (CNone); CSet "keepAliveProbesMax" (CNone); CSet "keepAlives" (CNone); CSet "keepAliveTime" (CNone); CSet "naglesAlgorithm" (CNone); CSet "receiveWindowMin" (CNone); CSet "tcpRetransmissionTimeout" (CNone); CSet "tcpTpPort" (CNone)])) (* line 169 *);
  ("AbstractServiceInstance", (2, [CAbstract "AbstractServiceInstance"; CSuper [CArg 0; CArg 1] []; CSet "capabilityRecords" (CList); CSet "majorVersion" (CNone); CSet "methodActivationRoutingGroup" (CNone); CSet "routingGroupRefs" (CList)])) (* line 256 *);
  ("ConsumedEventGroup", (2, [CSuper [CArg 0; CArg 1] []; CSet "applicationEndpointRef" (CNone); CSet "autoRequire" (CNone); CSet "eventGroupIdentifier" (CNone); CSet "eventMulticastAddressRefs" (CList); CSet "pduActivationRoutingGroups" (CList); CSet "priority" (CNone); CSet "routingGroupRefs" (CList); CSet "sdClientConfig" (CNone); CSet "sdClientTimerConfigRef" (CNone)])) (* line 328 *);
  ("ConsumedServiceInstance", (2, [CSuper [CArg 0; CArg 1] []; CSet "allowedServiceProviderRefs" (CList); CSet "autoRequire" (CNone); CSet "blocklistedVersions" (CList); CSet "consumedEventGroups" (CList); CSet "eventMulticastSubscriptionAddressRef" (CNone); CSet "instanceIdentifier" (CNone); CSet "localUnicastAddressRefs" (CList); CSet "minorVersion" (CNone); CSet "providedServiceInstanceRef" (CNone); CSet "remoteUnicastAddressRefs" (CList); CSet "sdClientConfig" (CNone); CSet "sdClientTimerConfigRef" (CNone); CSet "serviceIdentifier" (CNone); CSet "versionDrivenFindBehavior" (CNone)])) (* line 452 *);
  ("SdServerConfig", (0, [CSuper [] []; CSet "capabilityRecords" (CList); CSet "initialOfferBehavior" (CNone); CSet "offerCyclicDelay" (CNone); CSet "requestResponseDelay" (CNone); CSet "serverServiceMajorVersion" (CNone); CSet "serverServiceMinorVersion" (CNone); CSet "ttl" (CNone)])) (* line 668 *);
  ("EventHandler", (2, [CSuper [CArg 0; CArg 1] []; CSet "applicationEndpointRef" (CNone); CSet "consumedEventGroupRefs" (CList); CSet "multicastThreshold" (CNone); CSet "routingGroupRefs" (CList); CSet "sdServerConfig" (CNone)])) (* line 756 *);
  ("ProvidedServiceInstance", (2, [CSuper [CArg 0; CArg 1] []; CSet "allowedServiceConsumerRefs" (CList); CSet "autoAvailable" (CNone); CSet "eventHandlers" (CList); CSet "instanceIdentifier" (CNone); CSet "loadBalancingPriority" (CNone); CSet "loadBalancingWeight" (CNone); CSet "localUnicastAddressRefs" (CList); CSet "minorVersion" (CNone); CSet "priority" (CNone); CSet "remoteMulticastSubscriptionAddressRefs" (CList); CSet "remoteUnicastAddressRefs" (CList); CSet "sdServerConfig" (CNone); CSet "sdServerTimerConfigRef" (CNone); CSet "serviceIdentifier" (CNone)])) (* line 849 *);
  ("ApplicationEndpoint", (2, [CSuper [CArg 0; CArg 1] []; CSet "consumedServiceInstances" (CList); CSet "maxNumberOfConnections" (CNone); CSet "networkEndpointRef" (CNone); CSet "priority" (CNone); CSet "providedServiceInstances" (CList); CSet "tlsCryptoMappingRef" (CNone); CSet "tpConfiguration" (CNone)])) (* line 1149 *);
  ("SocketAddress", (2, [CSuper [CArg 0; CArg 1] []; CSet "allowedIPv6ExtHeadersRef" (CNone); CSet "allowedTcpOptionsRef" (CNone); CSet "applicationEndpoint" (CNone); CSet "connectorRef" (CNone); CSet "differentiatedServiceField" (CNone); CSet "flowLabel" (CNone); CSet "multicastConnectorRefs" (CList); CSet "pathMtuDiscoveryEnabled" (CNone); CSet "pduCollectionMaxBufferSize" (CNone); CSet "pduCollectionTimeout" (CNone); CSet "portAddress" (CNone); CSet "staticSocketConnections" (CList); CSet "udpChecksumHandling" (CNone)])) (* line 1252 *);
  ("SoAdConfig", (0, [CSuper [] []; CSet "connections" (CList); CSet "connectionBundles" (CList); CSet "socketAddresses" (CList)])) (* line 1379 *);
  (* models/M2/AUTOSARTemplates/SystemTemplate/Fibex/Fibex4Flexray/FlexrayCommunication.py *)
  ("FlexrayFrame", (2, [CSuper [CArg 0; CArg 1] []])) (* line 19 *);
  ("FlexrayAbsolutelyScheduledTiming", (0, [CSuper [] []; CSet "communicationCycle" (CNone); CSet "slotID" (CNone)])) (* line 37 *);
  ("FlexrayFrameTriggering", (2, [CSuper [CArg 0; CArg 1] []; CSet "absolutelyScheduledTimings" (CList); CSet "allowDynamicLSduLength" (CNone); CSet "messageId" (CNone); CSet "payloadPreambleIndicator" (CNone)])) (* line 78 *);
  (* models/M2/AUTOSARTemplates/SystemTemplate/Fibex/Fibex4Flexray/FlexrayTopology.py *)
  ("FlexrayCommunicationController", (2, [CSuper [CArg 0; CArg 1] []; CSet "acceptedStartupRange" (CNone); CSet "allowHaltDueToClock" (CNone); CSet "allowPassiveToActive" (CNone); CSet "clusterDriftDamping" (CNone); CSet "decodingCorrection" (CNone); CSet "delayCompensationA" (CNone); CSet "delayCompensationB" (CNone); CSet "externalSync" (CNone); CSet "externOffsetCorrection" (CNone); CSet "externRateCorrection" (CNone); CSet "fallBackInternal" (CNone); CSet "flexrayFifos" (CList); CSet "keySlotID" (CNone); CSet "keySlotOnlyEnabled" (CNone); CSet "keySlotUsedForStartUp" (CNone); CSet "keySlotUsedForSync" (CNone); CSet "latestTX" (CNone); CSet "listenTimeout" (CNone); CSet "macroInitialOffsetA" (CNone); CSet "macroInitialOffsetB" (CNone); CSet "maximumDynamicPayloadLength" (CNone); CSet "microInitialOffsetA" (CNone); CSet "microInitialOffsetB" (CNone); CSet "microPerCycle" (CNone); CSet "microtickDuration" (CNone); CSet "nmVectorEarlyUpdate" (CNone); CSet "offsetCorrectionOut" (CNone); CSet "rateCorrectionOut" (CNone); CSet "samplesPerMicrotick" (CNone); CSet "secondKeySlotId" (CNone); CSet "twoKeySlotMode" (CNone); CSet "wakeUpPattern" (CNone)])) (* line 82 *);
  ("FlexrayCommunicationConnector", (2, [CSuper [CArg 0; CArg 1] []; CSet "nmReadySleepTime" (CNone); CSet "pncFilterDataMask" (CNone); CSet "wakeUpChannel" (CNone)])) (* line 550 *);
  ("FlexrayCluster", (2, [CSuper [CArg 0; CArg 1] []; CSet "actionPointOffset" (CNone); CSet "bit" (CNone); CSet "casRxLowMax" (CNone); CSet "coldStartAttempts" (CNone); CSet "cycle" (CNone); CSet "cycleCountMax" (CNone); CSet "detectNitError" (CNone); CSet "dynamicSlotIdlePhase" (CNone); CSet "ignoreAfterTx" (CNone); CSet "listenNoise" (CNone); CSet "macroPerCycle" (CNone); CSet "macrotickDuration" (CNone); CSet "maxWithoutClockCorrectionFatal" (CNone); CSet "maxWithoutClockCorrectionPassive" (CNone); CSet "minislotActionPointOffset" (CNone); CSet "minislotDuration" (CNone); CSet "networkIdleTime" (CNone); CSet "networkManagementVectorLength" (CNone); CSet "numberOfMinislots" (CNone); CSet "numberOfStaticSlots" (CNone); CSet "offsetCorrectionStart" (CNone); CSet "payloadLengthStatic" (CNone); CSet "safetyMargin" (CNone); CSet "sampleClockPeriod" (CNone); CSet "staticSlotDuration" (CNone); CSet "symbolWindow" (CNone); CSet "symbolWindowActionPointOffset" (CNone); CSet "syncFrameIdCountMax" (CNone); CSet "tranceiverStandbyDelay" (CNone); CSet "transmissionStartSequenceDuration" (CNone); CSet "wakeupRxIdle" (CNone); CSet "wakeupRxLow" (CNone); CSet "wakeupRxWindow" (CNone); CSet "wakeupTxActive" (CNone); CSet "wakeupTxIdle" (CNone)])) (* line 661 *);
  ("FlexrayFifoRange", (0, [CSuper [] []; CSet "rangeMax" (CNone); CSet "rangeMin" (CNone)])) (* line 1168 *);
  ("FlexrayFifoConfiguration", (0, [CSuper [] []; CSet "admitWithoutMessageId" (CNone); CSet "baseCycle" (CNone); CSet "channelRef" (CNone); CSet "cycleRepetition" (CNone); CSet "fifoDepth" (CNone); CSet "fifoRange" (CList); CSet "msgIdMask" (CNone); CSet "msgIdMatch" (CNone)])) (* line 1225 *);
  (* models/M2/AUTOSARTemplates/SystemTemplate/Fibex/Fibex4Lin/LinCommunication.py *)
  ("LinFrame", (2, [CAbstract "LinFrame"; CSuper [CArg 0; CArg 1] []])) (* line 21 *);
  ("LinUnconditionalFrame", (2, [CSuper [CArg 0; CArg 1] []])) (* line 38 *);
  ("LinFrameTriggering", (2, [CSuper [CArg 0; CArg 1] []; CSet "identifier" (CNone); CSet "linChecksum" (CNone)])) (* line 56 *);
  ("ResumePosition", (0, [CSuper [CFresh "list"] [("ResumePosition", "CONTINUE_AT_IT_POSITION"); ("ResumePosition", "START_FROM_BEGINNING")]])) (* line 91 *);
  ("ScheduleTableEntry", (0, [CAbstract "ScheduleTableEntry"; CSuper [] []; CSet "delay" (CNone); CSet "introduction" (CNone); CSet "positionInTable" (CNone)])) (* line 111 *);
  ("ApplicationEntry", (0, [CSuper [] []; CSet "frameTriggeringRef" (CNone)])) (* line 159 *);
  ("FreeFormatEntry", (0, [CAbstract "FreeFormatEntry"; CSuper [] []])) (* line 183 *);
  ("LinConfigurationEntry", (0, [CAbstract "LinConfigurationEntry"; CSuper [] []])) (* line 198 *);
  ("LinScheduleTable", (2, [CSuper [CArg 0; CArg 1] []; CSet "resumePosition" (CNone); CSet "runMode" (CNone); CSet "tableEntries" (CList)])) (* line 222 *);
  (* models/M2/AUTOSARTemplates/SystemTemplate/Fibex/Fibex4Lin/LinTopology.py *)
  ("LinCommunicationController", (2, [CAbstract "LinCommunicationController"; CSuper [CArg 0; CArg 1] []; CSet "protocolVersion" (CNone)])) (* line 19 *);
  ("LinMaster", (2, [CSuper [CArg 0; CArg 1] []; CSet "linSlaves" (CList); CSet "timeBase" (CNone); CSet "timeBaseJitter" (CNone)])) (* line 51 *);
  ("LinCommunicationConnector", (2, [CSuper [CArg 0; CArg 1] []; CSet "initialNad" (CNone); CSet "linConfigurableFrames" (CList); CSet "linOrderedConfigurableFrames" (CList); CSet "scheduleChangeNextTimeBase" (CNone)])) (* line 101 *);
  (* models/M2/AUTOSARTemplates/SystemTemplate/Fibex/FibexCore/CoreCommunication.py *)
  ("FibexElement", (2, [CAbstract "FibexElement"; CSuper [CArg 0; CArg 1] []])) (* line 31 *);
  ("PduToFrameMapping", (2, [CSuper [CArg 0; CArg 1] []; CSet "packingByteOrder" (CNone); CSet "pduRef" (CNone); CSet "startPosition" (CNone); CSet "updateIndicationBitPosition" (CNone)])) (* line 56 *);
  ("Frame", (2, [CAbstract "Frame"; CSuper [CArg 0; CArg 1] []; CSet "frameLength" (CNone); CSet "pduToFrameMappings" (CList)])) (* line 107 *);
  ("ContainedIPduProps", (0, [CSuper [] []; CSet "collectionSemantics" (CNone); CSet "headerIdLongHeader" (CNone); CSet "headerIdShortHeader" (CNone); CSet "offset" (CNone); CSet "timeout" (CNone); CSet "trigger" (CNone); CSet "updateIndicationBitPosition" (CNone)])) (* line 158 *);
  ("ISignalGroup", (2, [CSuper [CArg 0; CArg 1] []; CSet "comBasedSignalGroupTransformationRef" (CNone); CSet "iSignalRefs" (CList); CSet "systemSignalGroupRef" (CNone); CSet "transformationISignalProps" (CList)])) (* line 238 *);
  ("ISignalIPduGroup", (2, [CSuper [CArg 0; CArg 1] []; CSet "communicationDirection" (CNone); CSet "communicationMode" (CNone); CSet "containedISignalIPduGroupRefs" (CList); CSet "iSignalIPduRefs" (CList); CSet "nmPduRefs" (CList)])) (* line 330 *);
  ("Pdu", (2, [CAbstract "Pdu"; CSuper [CArg 0; CArg 1] []; CSet "hasDynamicLength" (CNone); CSet "length" (CNone)])) (* line 390 *);
  ("IPdu", (2, [CAbstract "IPdu"; CSuper [CArg 0; CArg 1] []; CSet "containedIPduProps" (CNone)])) (* line 446 *);
  ("SecureCommunicationProps", (0, [CSuper [] []; CSet "authDataFreshnessLength" (CNone); CSet "authDataFreshnessStartPosition" (CNone); CSet "authenticationBuildAttempts" (CNone); CSet "authenticationRetries" (CNone); CSet "dataId" (CNone); CSet "freshnessValueId" (CNone); CSet "messageLinkLength" (CNone); CSet "messageLinkPosition" (CNone); CSet "secondaryFreshnessValueId" (CNone); CSet "securedAreaLength" (CNone); CSet "securedAreaOffset" (CNone)])) (* line 504 *);
  ("SecuredIPdu", (2, [CSuper [CArg 0; CArg 1] []; CSet "authenticationPropsRef" (CNone); CSet "dynamicRuntimeLengthHandling" (CNone); CSet "freshnessPropsRef" (CNone); CSet "payloadRef" (CNone); CSet "secureCommunicationProps" (CNone); CSet "useAsCryptographicIPdu" (CNone); CSet "useSecuredPduHeader" (CNone)])) (* line 733 *);
  ("TransferPropertyEnum", (0, [CSuper [CFresh "list"] [("TransferPropertyEnum", "PENDING"); ("TransferPropertyEnum", "TRIGGERED"); ("TransferPropertyEnum", "TRIGGERED_ON_CHANGE"); ("TransferPropertyEnum", "TRIGGERED_ON_CHANGE_WITHOUT_REPETITION"); ("TransferPropertyEnum", "TRIGGERED_WITHOUT_REPETITION")]])) (* line 825 *);
  ("ISignalToIPduMapping", (2, [CSuper [CArg 0; CArg 1] []; CSet "iSignalRef" (CNone); CSet "iSignalGroupRef" (CNone); CSet "packingByteOrder" (CNone); CSet "startPosition" (CNone); CSet "transferProperty" (CNone); CSet "updateIndicationBitPosition" (CNone)])) (* line 860 *);
  ("NmPdu", (2, [CSuper [CArg 0; CArg 1] []; CSet "iSignalToIPduMappings" (CList); CSet "nmDataInformation" (CNone); CSet "nmVoteInformation" (CNone); CSet "unusedBitPattern" (CNone)])) (* line 990 *);
  ("NPdu", (2, [CSuper [CArg 0; CArg 1] []])) (* line 1042 *);
  ("DcmIPdu", (2, [CSuper [CArg 0; CArg 1] []; CSet "diagPduType" (CNone)])) (* line 1057 *);
  ("IPduTiming", (0, [CSuper [] []; CSet "minimumDelay" (CNone); CSet "transmissionModeDeclaration" (CNone)])) (* line 1085 *);
  ("ISignalIPdu", (2, [CSuper [CArg 0; CArg 1] []; CSet "iPduTimingSpecification" (CNone); CSet "iSignalToPduMappings" (CList); CSet "unusedBitPattern" (CNone)])) (* line 1142 *);
  ("ISignalTypeEnum", (0, [CSuper [CFresh "list"] [("ISignalTypeEnum", "ARRAY"); ("ISignalTypeEnum", "PRIMITIVE")]])) (* line 1217 *);
  ("ISignalProps", (0, [CSuper [] []; CSet "handleOutOfRange" (CNone)])) (* line 1239 *);
  ("ISignal", (2, [CSuper [CArg 0; CArg 1] []; CSet "dataTransformationRef" (CNone); CSet "dataTypePolicy" (CNone); CSet "initValue" (CNone); CSet "iSignalProps" (CNone); CSet "iSignalType" (CNone); CSet "length" (CNone); CSet "networkRepresentationProps" (CNone); CSet "systemSignalRef" (CNone); CSet "timeoutSubstitutionValue" (CNone); CSet "transformationISignalProps" (CList)])) (* line 1295 *);
  ("PduTriggering", (2, [CSuper [CArg 0; CArg 1] []; CSet "iPduRef" (CNone); CSet "iPduPortRefs" (CList); CSet "iSignalTriggeringRefs" (CList); CSet "secOcCryptoMappingRef" (CNone); CSet "triggerIPduSendConditions" (CList)])) (* line 1501 *);
  ("FrameTriggering", (2, [CAbstract "FrameTriggering"; CSuper [CArg 0; CArg 1] []; CSet "frameRef" (CNone); CSet "framePortRefs" (CList); CSet "pduTriggeringRefs" (CList)])) (* line 1563 *);
  ("SystemSignal", (2, [CSuper [CArg 0; CArg 1] []; CSet "dynamicLength" (CNone); CSet "physicalProps" (CNone)])) (* line 1609 *);
  ("SystemSignalGroup", (2, [CSuper [CArg 0; CArg 1] []; CSet "systemSignalRefs" (CList); CSet "transformingSystemSignalRef" (CNone)])) (* line 1645 *);
  ("ISignalTriggering", (2, [CSuper [CArg 0; CArg 1] []; CSet "iSignalRef" (CNone); CSet "iSignalGroupRef" (CNone); CSet "iSignalPortRefs" (CList)])) (* line 1699 *);
  ("SegmentPosition", (0, [CSuper [] []; CSet "segmentByteOrder" (CNone); CSet "segmentLength" (CNone); CSet "segmentPosition" (CNone)])) (* line 1744 *);
  ("MultiplexedPart", (0, [CAbstract "MultiplexedPart"; CSuper [] []; CSet "segmentPositions" (CList)])) (* line 1788 *);
  ("StaticPart", (0, [CSuper [] []; CSet "iPduRef" (CNone)])) (* line 1817 *);
  ("DynamicPartAlternative", (0, [CSuper [] []; CSet "initialDynamicPart" (CNone); CSet "iPduRef" (CNone); CSet "selectorFieldCode" (CNone)])) (* line 1847 *);
  ("DynamicPart", (0, [CSuper [] []; CSet "dynamicPartAlternatives" (CList)])) (* line 1891 *);
  ("MultiplexedIPdu", (2, [CSuper [CArg 0; CArg 1] []; CSet "dynamicPart" (CNone); CSet "selectorFieldByteOrder" (CNone); CSet "selectorFieldLength" (CNone); CSet "selectorFieldStartPosition" (CNone); CSet "staticPart" (CNone); CSet "triggerMode" (CNone); CSet "unusedBitPattern" (CNone)])) (* line 1929 *);
  ("GeneralPurposePdu", (2, [CSuper [CArg 0; CArg 1] []])) (* line 2006 *);
  ("GeneralPurposeIPdu", (2, [CSuper [CArg 0; CArg 1] []])) (* line 2019 *);
  ("SecureCommunicationPropsSet", (2, [CSuper [CArg 0; CArg 1] []; CSet "authenticationProps" (CList); CSet "freshnessProps" (CList)])) (* line 2038 *);
  ("UserDefinedPdu", (2, [CSuper [CArg 0; CArg 1] []; CSet "cddType" (CNone)])) (* line 2104 *);
  ("UserDefinedIPdu", (2, [CSuper [CArg 0; CArg 1] []; CSet "cddType" (CNone)])) (* line 2127 *);
  ("SecureCommunicationAuthenticationProps", (2, [CSuper [CArg 0; CArg 1] []; CSet "authInfoTxLength" (CNone)])) (* line 2152 *);
  ("SecureCommunicationFreshnessProps", (2, [CSuper [CArg 0; CArg 1] []; CSet "freshnessCounterSyncAttempts" (CNone); CSet "freshnessTimestampTimePeriodFactor" (CNone); CSet "freshnessValueLength" (CNone); CSet "freshnessValueTxLength" (CNone); CSet "useFreshnessTimestamp" (CNone)])) (* line 2198 *);
  (* models/M2/AUTOSARTemplates/SystemTemplate/Fibex/FibexCore/CoreTopology.py *)
  ("CommunicationCycle", (0, [CAbstract "CommunicationCycle"; CSuper [] []])) (* line 27 *);
  ("CycleCounter", (0, [CSuper [] []; CSet "CycleCounter" (CNone)])) (* line 44 *);
  ("CycleRepetitionType", (0, [CSuper [CList] []])) (* line 68 *);
  ("CycleRepetition", (0, [CSuper [] []; CSet "BaseCycle" (CNone); CSet "CycleRepetition" (CNone)])) (* line 86 *);
  ("PhysicalChannel", (2, [CAbstract "PhysicalChannel"; CSuper [CArg 0; CArg 1] []; CSet "commConnectorRefs" (CList); CSet "frameTriggerings" (CList); CSet "managedPhysicalChannelRefs" (CList)])) (* line 132 *);
  ("AbstractCanPhysicalChannel", (2, [CAbstract "AbstractCanPhysicalChannel"; CSuper [CArg 0; CArg 1] []])) (* line 209 *);
  ("CanPhysicalChannel", (2, [CSuper [CArg 0; CArg 1] []])) (* line 226 *);
  ("LinPhysicalChannel", (2, [CSuper [CArg 0; CArg 1] []; CSet "busIdleTimeoutPeriod" (CNone); CSet "scheduleTables" (CList)])) (* line 244 *);
  ("VlanConfig", (2, [CSuper [CArg 0; CArg 1] []; CSet "vlanIdentifier" (CNone)])) (* line 281 *);
  ("EthernetPhysicalChannel", (2, [CSuper [CArg 0; CArg 1] []; CSet "networkEndpoints" (CList); CSet "soAdConfig" (CNone); CSet "vlan" (CNone)])) (* line 311 *);
  ("FlexrayChannelName", (0, [CSuper [CFresh "list"] [("FlexrayChannelName", "CHANNEL_A"); ("FlexrayChannelName", "channel_B")]])) (* line 359 *);
  ("FlexrayPhysicalChannel", (2, [CSuper [CArg 0; CArg 1] []; CSet "channelName" (CNone)])) (* line 375 *);
  ("CommunicationCluster", (2, [CAbstract "CommunicationCluster"; CSuper [CArg 0; CArg 1] []; CSet "baudrate" (CNone); CSet "physicalChannel" (CList); CSet "protocolName" (CNone); CSet "protocolVersion" (CNone)])) (* line 412 *);
  ("CanClusterBusOffRecovery", (0, [CSuper [] []; CSet "borCounterL1ToL2" (CNone); CSet "borTimeL1" (CNone); CSet "borTimeL2" (CNone); CSet "borTimeTxEnsured" (CNone); CSet "mainFunctionPeriod" (CNone)])) (* line 560 *);
  ("AbstractCanCluster", (2, [CAbstract "AbstractCanCluster"; CSuper [CArg 0; CArg 1] []; CSet "busOffRecovery" (CNone); CSet "canFdBaudrate" (CNone); CSet "canXlBaudrate" (CNone)])) (* line 625 *);
  ("CanCluster", (2, [CSuper [CArg 0; CArg 1] []])) (* line 695 *);
  ("LinCluster", (2, [CSuper [CArg 0; CArg 1] []])) (* line 709 *);
  ("CommunicationController", (2, [CAbstract "CommunicationController"; CSuper [CArg 0; CArg 1] []; CSet "wakeUpByControllerSupported" (CNone)])) (* line 724 *);
  ("PncGatewayTypeEnum", (0, [CSuper [CFresh "list"] [("PncGatewayTypeEnum", "ENUM_ACTIVE"); ("PncGatewayTypeEnum", "ENUM_NONE"); ("PncGatewayTypeEnum", "ENUM_PASSIVE")]])) (* line 763 *);
  ("CommunicationDirectionType", (0, [CSuper [CFresh "list"] [("CommunicationDirectionType", "ENUM_IN"); ("CommunicationDirectionType", "ENUM_OUT")]])) (* line 779 *);
  ("CommConnectorPort", (2, [CAbstract "CommConnectorPort"; CSuper [CArg 0; CArg 1] []; CSet "communicationDirection" (CNone)])) (* line 795 *);
  ("FramePort", (2, [CSuper [CArg 0; CArg 1] []])) (* line 821 *);
  ("IPduPort", (2, [CSuper [CArg 0; CArg 1] []; CSet "iPduSignalProcessing" (CNone); CSet "keyId" (CNone); CSet "rxSecurityVerification" (CNone); CSet "timestampRxAcceptanceWindow" (CNone); CSet "useAuthDataFreshness" (CNone)])) (* line 858 *);
  ("ISignalPort", (2, [CSuper [CArg 0; CArg 1] []; CSet "dataFilter" (CNone); CSet "ddsQosProfileRef" (CNone); CSet "firstTimeout" (CNone); CSet "handleInvalid" (CNone); CSet "timeout" (CNone)])) (* line 928 *);
  ("CommunicationConnector", (2, [CAbstract "CommunicationConnector"; CSuper [CArg 0; CArg 1] []; CSet "commControllerRef" (CNone); CSet "createEcuWakeupSource" (CNone); CSet "dynamicPncToChannelMappingEnabled" (CNone); CSet "ecuCommPortInstances" (CList); CSet "pncFilterArrayMasks" (CList); CSet "pncGatewayType" (CNone)])) (* line 1003 *);
  (* models/M2/AUTOSARTemplates/SystemTemplate/Fibex/FibexCore/EcuInstance.py *)
  ("EcuInstance", (2, [CSuper [CArg 0; CArg 1] []; CSet "associatedComIPduGroupRefs" (CList); CSet "associatedConsumedProvidedServiceInstanceGroupRefs" (CList); CSet "associatedPdurIPduGroupRefs" (CList); CSet "channelSynchronousWakeup" (CNone); CSet "clientIdRange" (CNone); CSet "comConfigurationGwTimeBase" (CNone); CSet "comConfigurationRxTimeBase" (CNone); CSet "comConfigurationTxTimeBase" (CNone); CSet "comEnableMDTForCyclicTransmission" (CNone); CSet "commControllers" (CList); CSet "connectors" (CList); CSet "dltConfig" (CNone); CSet "doIpConfig" (CNone); CSet "ecuTaskProxyRefs" (CList); CSet "ethSwitchPortGroupDerivation" (CNone); CSet "firewallRuleRefs" (CList); CSet "partitions" (CList); CSet "pncNmRequest" (CNone); CSet "pncPrepareSleepTimer" (CNone); CSet "pncSynchronousWakeup" (CNone); CSet "pnResetTime" (CNone); CSet "sleepModeSupported" (CNone); CSet "tcpIpIcmpPropsRef" (CNone); CSet "tcpIpPropsRef" (CNone); CSet "v2xSupported" (CNone); CSet "wakeUpOverBusSupported" (CNone)])) (* line 80 *);
  (* models/M2/AUTOSARTemplates/SystemTemplate/Fibex/FibexCore/Timing.py *)
  ("ModeDrivenTransmissionModeCondition", (0, [CSuper [] []; CSet "modeDeclarationRef" (CNone)])) (* line 19 *);
  ("TransmissionModeCondition", (0, [CSuper [] []; CSet "dataFilter" (CNone); CSet "iSignalInIPduRef" (CNone)])) (* line 46 *);
  ("TimeRangeType", (0, [CSuper [] []; CSet "tolerance" (CNone); CSet "value" (CNone)])) (* line 80 *);
  ("CyclicTiming", (0, [CSuper [] []; CSet "timeOffset" (CNone); CSet "timePeriod" (CNone)])) (* line 113 *);
  ("EventControlledTiming", (0, [CSuper [] []; CSet "numberOfRepetitions" (CNone); CSet "repetitionPeriod" (CNone)])) (* line 147 *);
  ("TransmissionModeTiming", (0, [CSuper [] []; CSet "cyclicTiming" (CNone); CSet "eventControlledTiming" (CNone)])) (* line 182 *);
  ("TransmissionModeDeclaration", (0, [CSuper [] []; CSet "modeDrivenFalseConditions" (CList); CSet "modeDrivenTrueConditions" (CList); CSet "transmissionModeConditions" (CList); CSet "transmissionModeFalseTiming" (CNone); CSet "transmissionModeTrueTiming" (CNone)])) (* line 222 *);
  (* models/M2/AUTOSARTemplates/SystemTemplate/Transformer/__init__.py *)
  ("DataTransformationKindEnum", (0, [CSuper [CFresh "list"] [("DataTransformationKindEnum", "ASYMMETRIC_FROM_BYTE_ARRAY"); ("DataTransformationKindEnum", "ASYMMETRIC_TO_BYTE_ARRAY"); ("DataTransformationKindEnum", "SYMMETRIC")]])) (* line 35 *);
  ("DataTransformation", (2, [CSuper [CArg 0; CArg 1] []; CSet "dataTransformationKind" (CNone); CSet "executeDespiteDataUnavailability" (CNone); CSet "transformerChainRefs" (CList)])) (* line 62 *);
  ("BufferProperties", (0, [CSuper [] []; CSet "headerLength" (CNone); CSet "inPlace" (CNone)])) (* line 138 *);
  ("TransformationDescription", (0, [CAbstract "TransformationDescription"; CSuper [] []])) (* line 189 *);
  ("DataIdModeEnum", (0, [CSuper [CFresh "list"] [("DataIdModeEnum", "ALL_16_BIT"); ("DataIdModeEnum", "ALTERNATING_8_BIT"); ("DataIdModeEnum", "LOWER_12_BIT"); ("DataIdModeEnum", "LOWER_8_BIT")]])) (* line 217 *);
  ("EndToEndProfileBehaviorEnum", (0, [CSuper [CFresh "list"] [("EndToEndProfileBehaviorEnum", "PRE_R4_2"); ("EndToEndProfileBehaviorEnum", "R4_2")]])) (* line 244 *);
  ("E2EProfileCompatibilityProps", (2, [CSuper [CArg 0; CArg 1] []; CSet "transitToInvalidExtended" (CNone)])) (* line 266 *);
  ("EndToEndTransformationDescription", (0, [CSuper [] []; CSet "clearFromValidToInvalid" (CNone); CSet "counterOffset" (CNone); CSet "crcOffset" (CNone); CSet "dataIdMode" (CNone); CSet "dataIdNibbleOffset" (CNone); CSet "e2eProfileCompatibilityPropsRef" (CNone); CSet "maxDeltaCounter" (CNone); CSet "maxErrorStateInit" (CNone); CSet "maxErrorStateInvalid" (CNone); CSet "maxErrorStateValid" (CNone); CSet "maxNoNewOrRepeatedData" (CNone); CSet "minOkStateInit" (CNone); CSet "minOkStateInvalid" (CNone); CSet "minOkStateValid" (CNone); CSet "offset" (CNone); CSet "profileBehavior" (CNone); CSet "profileName" (CNone); CSet "syncCounterInit" (CNone); CSet "upperHeaderBitsToShift" (CNone); CSet "windowSizeInit" (CNone); CSet "windowSizeInvalid" (CNone); CSet "windowSizeValid" (CNone)])) (* line 344 *);
  ("TransformerClassEnum", (0, [CSuper [CFresh "list"] [("TransformerClassEnum", "CUSTOM"); ("TransformerClassEnum", "SAFETY"); ("TransformerClassEnum", "SECURITY"); ("TransformerClassEnum", "SERIALIZER")]])) (* line 788 *);
  ("TransformationTechnology", (2, [CSuper [CArg 0; CArg 1] []; CSet "bufferProperties" (CNone); CSet "hasInternalState" (CNone); CSet "needsOriginalData" (CNone); CSet "protocol" (CNone); CSet "transformationDescription" (CNone); CSet "transformerClass" (CNone); CSet "version" (CNone)])) (* line 817 *);
  ("DataTransformationSet", (2, [CSuper [CArg 0; CArg 1] []; CSet "dataTransformations" (CList); CSet "transformationTechnologies" (CList)])) (* line 961 *);
  ("CSTransformerErrorReactionEnum", (0, [CSuper [CFresh "list"] [("CSTransformerErrorReactionEnum", "APPLICATION_ONLY"); ("CSTransformerErrorReactionEnum", "AUTONOMOUS")]])) (* line 1004 *);
  ("TransformationISignalProps", (0, [CAbstract "TransformationISignalProps"; CSuper [] []; CSet "csErrorReaction" (CNone); CSet "dataPrototypeTransformationProps" (CList); CSet "transformerRef" (CNone)])) (* line 1024 *);
  ("DataPrototypeReference", (0, [CAbstract "DataPrototypeReference"; CSuper [] []; CSet "tagId" (CNone)])) (* line 1106 *);
  ("DataPrototypeInPortInterfaceRef", (0, [CSuper [] []; CSet "dataPrototypeInClientServerInterface" (CNone)])) (* line 1143 *);
  ("DataPrototypeInSenderReceiverInterfaceInstanceRef", (0, [CSuper [] []; CSet "baseRef" (CNone); CSet "contextDataPrototypeInSrRefs" (CList); CSet "rootDataPrototypeInSrRef" (CNone); CSet "targetDataPrototypeInSrRef" (CNone)])) (* line 1184 *);
  ("DataPrototypeInClientServerInterfaceInstanceRef", (0, [CSuper [] []; CSet "baseRef" (CNone); CSet "contextDataPrototypeInCsRefs" (CList); CSet "rootDataPrototypeInCsRef" (CNone); CSet "targetDataPrototypeInCsRef" (CNone)])) (* line 1279 *);
  ("ImplementationDataTypeElementInPortInterfaceRef", (0, [CSuper [] []; CSet "contextImplementationDataElementRefs" (CList); CSet "rootDataPrototypeRef" (CNone); CSet "targetImplementationDataTypeElementRef" (CNone)])) (* line 1372 *);
  ("DataPrototypeTransformationProps", (0, [CSuper [] []; CSet "dataPrototypeInPortInterfaceRef" (CNone); CSet "networkRepresentationProps" (CNone); CSet "transformationProps" (CNone)])) (* line 1447 *);
  ("EndToEndTransformationISignalProps", (0, [CSuper [] []; CSet "dataIds" (CList); CSet "dataLength" (CNone); CSet "maxDataLength" (CNone); CSet "minDataLength" (CNone); CSet "sourceId" (CNone)])) (* line 1525 *);
  ("EndToEndTransformationComSpecProps", (0, [CSuper [] []; CSet "clearFromValidToInvalid" (CNone); CSet "disableEndToEndCheck" (CNone); CSet "disableEndToEndStateMachine" (CNone); CSet "e2eProfileCompatibilityPropsRef" (CNone); CSet "maxDeltaCounter" (CNone); CSet "maxErrorStateInit" (CNone); CSet "maxErrorStateInvalid" (CNone); CSet "maxErrorStateValid" (CNone); CSet "maxNoNewOrRepeatedData" (CNone); CSet "minOkStateInit" (CNone); CSet "minOkStateInvalid" (CNone); CSet "minOkStateValid" (CNone); CSet "syncCounterInit" (CNone); CSet "windowSizeInit" (CNone); CSet "windowSizeInvalid" (CNone); CSet "windowSizeValid" (CNone)])) (* line 1618 *);
  (* models/M2/MSR/AsamHdo/AdminData.py *)
  ("Modification", (0, [CSuper [] []; CSet "change" (CNone); CSet "reason" (CNone)])) (* line 22 *);
  ("DocRevision", (0, [CSuper [] []; CSet "date" (CNone); CSet "issuedBy" (CNone); CSet "modifications" (CList); CSet "revisionLabel" (CNone); CSet "revisionLabelP1" (CNone); CSet "revisionLabelP2" (CNone); CSet "state" (CNone)])) (* line 69 *);
  ("AdminData", (0, [CSuper [] []; CSet "DocRevisions" (CList); CSet "language" (CNone); CSet "sdgs" (CList); CSet "usedLanguages" (CNone)])) (* line 154 *);
  (* models/M2/MSR/AsamHdo/BaseTypes.py *)
  ("BaseTypeDefinition", (0, [CAbstract "BaseTypeDefinition"; CSuper [] []])) (* line 25 *);
  ("BaseTypeDirectDefinition", (0, [CSuper [] []; CSet "baseTypeEncoding" (CNone); CSet "baseTypeSize" (CNone); CSet "byteOrder" (CNone); CSet "memAlignment" (CNone); CSet "nativeDeclaration" (CNone)])) (* line 52 *);
  ("BaseType", (2, [CAbstract "BaseType"; CSuper [CArg 0; CArg 1] []; CSet "baseTypeDefinition" (CFresh "BaseTypeDirectDefinition")])) (* line 164 *);
  ("SwBaseType", (2, [CSuper [CArg 0; CArg 1] []])) (* line 201 *);
  (* models/M2/MSR/AsamHdo/ComputationMethod.py *)
  ("CompuContent", (0, [CAbstract "CompuContent"; CSuper [] []])) (* line 21 *);
  ("CompuConst", (0, [CSuper [] []; CSet "compuConstContentType" (CNone)])) (* line 40 *);
  ("Compu", (0, [CSuper [] []; CSet "compuContent" (CNone); CSet "compuDefaultValue" (CNone)])) (* line 66 *);
  ("CompuConstContent", (0, [CAbstract "CompuConstContent"; CSuper [] []])) (* line 98 *);
  ("CompuConstTextContent", (0, [CSuper [] []; CSet "vt" (CNone)])) (* line 117 *);
  ("CompuConstNumericContent", (0, [CSuper [] []; CSet "v" (CNone)])) (* line 141 *);
  ("CompuConstFormulaContent", (0, [CSuper [] []; CSet "vf" (CNone)])) (* line 165 *);
  ("CompuScaleContents", (0, [CAbstract "CompuScaleContents"; CSuper [] []])) (* line 187 *);
  ("CompuScaleConstantContents", (0, [CSuper [] []; CSet "compuConst" (CNone)])) (* line 205 *);
  ("CompuRationalCoeffs", (0, [CSuper [] []; CSet "compuDenominator" (CNone); CSet "compuNumerator" (CNone)])) (* line 232 *);
  ("CompuScaleRationalFormula", (0, [CSuper [] []; CSet "compuRationalCoeffs" (CNone)])) (* line 264 *);
  ("CompuNominatorDenominator", (0, [CSuper [] []; CSet "v" (CList)])) (* line 289 *);
  ("CompuScale", (0, [CSuper [] []; CSet "a2lDisplayText" (CNone); CSet "compuInverseValue" (CNone); CSet "compuScaleContents" (CNone); CSet "desc" (CNone); CSet "lowerLimit" (CNone); CSet "mask" (CNone); CSet "shortLabel" (CNone); CSet "symbol" (CNone); CSet "upperLimit" (CNone)])) (* line 328 *);
  ("CompuScales", (0, [CSuper [] []; CSet "compuScales" (CList)])) (* line 417 *);
  ("CompuMethod", (2, [CSuper [CArg 0; CArg 1] []; CSet "compuInternalToPhys" (CNone); CSet "compuPhysToInternal" (CNone); CSet "displayFormat" (CNone); CSet "unitRef" (CNone)])) (* line 448 *);
  (* models/M2/MSR/AsamHdo/SpecialData.py *)
  ("Sd", (0, [CSuper [] []; CSet "gid" (CNone); CSet "value" (CNone); CSet "xmlSpace" (CNone)])) (* line 26 *);
  ("SdgCaption", (2, [CSuper [CArg 0; CArg 1] []; CSet "desc" (CNone)])) (* line 94 *);
  ("Sdf", (0, [CSuper [] []; CSet "gid" (CNone); CSet "value" (CNone)])) (* line 130 *);
  ("SdgContents", (0, [CSuper [] []; CSet "sd" (CList); CSet "sdf" (CList); CSet "sdg" (CList); CSet "sdxRefs" (CList); CSet "sdxfRefs" (CList)])) (* line 189 *);
  ("Sdg", (0, [CSuper [] []; CSet "gid" (CNone); CSet "sdgCaption" (CNone); CSet "sdgContentsType" (CNone)])) (* line 295 *);
  (* models/M2/MSR/AsamHdo/Units.py *)
  ("PhysicalDimension", (2, [CSuper [CArg 0; CArg 1] []; CSet "currentExp" (CNone); CSet "lengthExp" (CNone); CSet "luminousIntensityExp" (CNone); CSet "massExp" (CNone); CSet "molarAmountExp" (CNone); CSet "temperatureExp" (CNone); CSet "timeExp" (CNone)])) (* line 41 *);
  ("SingleLanguageUnitNames", (0, [CSuper [] []])) (* line 175 *);
  ("Unit", (2, [CSuper [CArg 0; CArg 1] []; CSet "displayName" (CNone); CSet "factorSiToUnit" (CNone); CSet "offsetSiToUnit" (CNone); CSet "physicalDimensionRef" (CNone)])) (* line 198 *);
  ("UnitGroup", (2, [CSuper [CArg 0; CArg 1] []; CSet "units" (CList)])) (* line 287 *);
  (* models/M2/MSR/AsamHdo/Constraints/GlobalConstraints.py *)
  ("InternalConstrs", (0, [CSuper [] []; CSet "lowerLimit" (CNone); CSet "maxDiff" (CNone); CSet "maxGradient" (CNone); CSet "monotony" (CNone); CSet "scaleConstrs" (CList); CSet "upperLimit" (CNone)])) (* line 41 *);
  ("ScaleConstrValidityEnum", (0, [CSuper [CFresh "list"] [("ScaleConstrValidityEnum", "NOT_AVAILABLE"); ("ScaleConstrValidityEnum", "NOT_DEFINED"); ("ScaleConstrValidityEnum", "NOT_VALID"); ("ScaleConstrValidityEnum", "VALID")]])) (* line 173 *);
  ("ScaleConstr", (0, [CSuper [] []; CSet "desc" (CNone); CSet "lowerLimit" (CNone); CSet "shortLabel" (CNone); CSet "upperLimit" (CNone); CSet "validity" (CNone)])) (* line 205 *);
  ("PhysConstrs", (0, [CSuper [] []; CSet "lowerLimit" (CNone); CSet "maxDiff" (CNone); CSet "maxGradient" (CNone); CSet "monotony" (CNone); CSet "scaleConstrs" (CList); CSet "unitRef" (CNone); CSet "upperLimit" (CNone)])) (* line 319 *);
  ("DataConstrRule", (0, [CSuper [] []; CSet "constrLevel" (CNone); CSet "internalConstrs" (CNone); CSet "physConstrs" (CNone)])) (* line 451 *);
  ("DataConstr", (2, [CSuper [CArg 0; CArg 1] []; CSet "data_constr_rule" (CList)])) (* line 470 *);
  (* models/M2/MSR/CalibrationData/CalibrationValue.py *)
  ("SwValues", (0, [CSuper [] []; CSet "_v" (CList); CSet "vt" (CNone)])) (* line 17 *);
  ("SwValueCont", (0, [CSuper [] []; CSet "swArraysize" (CNone); CSet "swValuesPhys" (CNone); CSet "unitRef" (CNone); CSet "unitDisplayName" (CNone)])) (* line 47 *);
  (* models/M2/MSR/DataDictionary/AuxillaryObjects.py *)
  ("MemoryAllocationKeywordPolicyType", (0, [CSuper [CFresh "list"] [("MemoryAllocationKeywordPolicyType", "ADDR_METHOD_SHORT_NAME"); ("MemoryAllocationKeywordPolicyType", "ADDR_METHOD_SHORT_NAME_AND_ALIGNMENT")]])) (* line 25 *);
  ("MemorySectionType", (0, [CSuper [CFresh "list"] [("MemorySectionType", "CALIBRATION_VARIABLES"); ("MemorySectionType", "CALPRM"); ("MemorySectionType", "CODE"); ("MemorySectionType", "CONFIG_DATA"); ("MemorySectionType", "CONST"); ("MemorySectionType", "EXCLUDE_FROM_FLASH"); ("MemorySectionType", "VAR")]])) (* line 66 *);
  ("SwAddrMethod", (2, [CSuper [CArg 0; CArg 1] []; CSet "memoryAllocationKeywordPolicy" (CNone); CSet "options" (CList); CSet "sectionInitializationPolicy" (CNone); CSet "sectionType" (CNone)])) (* line 99 *);
  (* models/M2/MSR/DataDictionary/Axis.py *)
  ("SwGenericAxisParam", (0, [CSuper [] []; CSet "swGenericAxisParamTypeRef" (CNone); CSet "vfs" (CList)])) (* line 22 *);
  ("SwAxisGeneric", (0, [CSuper [] []; CSet "swAxisTypeRef" (CNone); CSet "swGenericAxisParams" (CList)])) (* line 77 *);
  ("SwAxisIndividual", (0, [CSuper [] []; CSet "compuMethodRef" (CNone); CSet "dataConstrRef" (CNone); CSet "inputVariableTypeRef" (CNone); CSet "swAxisGeneric" (CNone); CSet "swMaxAxisPoints" (CNone); CSet "swMinAxisPoints" (CNone); CSet "swVariableRefs" (CList); CSet "unitRef" (CNone)])) (* line 142 *);
  ("SwAxisGrouped", (0, [CSuper [] []; CSet "sharedAxisTypeRef" (CNone); CSet "swAxisIndex" (CNone); CSet "swCalprmRef" (CNone)])) (* line 226 *);
  (* models/M2/MSR/DataDictionary/CalibrationParameter.py *)
  ("CalprmAxisCategoryEnum", (0, [CSuper [CFresh "list"] [("CalprmAxisCategoryEnum", "COM_AXIS"); ("CalprmAxisCategoryEnum", "FIX_AXIS"); ("CalprmAxisCategoryEnum", "RES_AXIS"); ("CalprmAxisCategoryEnum", "STD_AXIS")]])) (* line 37 *);
  ("SwCalprmAxisTypeProps", (0, [CAbstract "SwCalprmAxisTypeProps"; CSuper [] []; CSet "maxGradient" (CNone); CSet "monotony" (CNone)])) (* line 57 *);
  ("SwCalprmAxis", (0, [CSuper [] []; CSet "category" (CNone); CSet "displayFormat" (CNone); CSet "swAxisIndex" (CNone); CSet "swCalibrationAccess" (CNone); CSet "swCalprmAxisTypeProps" (CNone)])) (* line 120 *);
  ("SwCalprmAxisSet", (0, [CSuper [] []; CSet "_swCalprmAxis" (CList)])) (* line 219 *);
  (* models/M2/MSR/DataDictionary/DataDefProperties.py *)
  ("SwImplPolicyEnum", (0, [CSuper [CFresh "list"] [("SwImplPolicyEnum", "CONST"); ("SwImplPolicyEnum", "FIXED"); ("SwImplPolicyEnum", "MEASUREMENT_POINT"); ("SwImplPolicyEnum", "QUEUED"); ("SwImplPolicyEnum", "STANDARD")]])) (* line 65 *);
  ("SwCalibrationAccessEnum", (0, [CSuper [CFresh "list"] [("SwCalibrationAccessEnum", "NOT_ACCESSIBLE"); ("SwCalibrationAccessEnum", "READ_ONLY"); ("SwCalibrationAccessEnum", "READ_WRITE")]])) (* line 90 *);
  ("DisplayPresentationEnum", (0, [CSuper [CFresh "list"] [("DisplayPresentationEnum", "PRESENTATION_CONTINUOUS"); ("DisplayPresentationEnum", "PRESENTATION_DISCRETE")]])) (* line 112 *);
  ("SwBitRepresentation", (0, [CSuper [] []; CSet "bitPosition" (CNone); CSet "numberOfBits" (CNone)])) (* line 131 *);
  ("SwVariableRefProxy", (0, [CSuper [] []; CSet "autosarVariable" (CNone); CSet "mcDataInstanceVarRef" (CNone)])) (* line 184 *);
  ("SwCalprmRefProxy", (0, [CSuper [] []; CSet "arParameter" (CNone); CSet "mcDataInstanceRef" (CNone)])) (* line 237 *);
  ("SwDataDependencyArgs", (0, [CSuper [] []; CSet "swCalprmRef" (CNone); CSet "swVariable" (CNone)])) (* line 290 *);
  ("CompuGenericMath", (0, [CSuper [] []; CSet "level" (CNone)])) (* line 341 *);
  ("SwDataDependency", (0, [CSuper [] []; CSet "swDataDependencyFormula" (CNone); CSet "swDataDependencyArgs" (CNone)])) (* line 377 *);
  ("SwDataDefProps", (0, [CSuper [] []; CSet "displayPresentation" (CNone); CSet "stepSize" (CNone); CSet "swValueBlockSizeMults" (CList); CSet "annotations" (CList); CSet "swAddrMethodRef" (CNone); CSet "swAlignment" (CNone); CSet "baseTypeRef" (CNone); CSet "swBitRepresentation" (CNone); CSet "swCalibrationAccess" (CNone); CSet "swValueBlockSize" (CNone); CSet "swCalprmAxisSet" (CNone); CSet "swTextProps" (CNone); CSet "swComparisonVariables" (CList); CSet "compuMethodRef" (CNone); CSet "dataConstrRef" (CNone); CSet "swDataDependency" (CNone); CSet "displayFormat" (CNone); CSet "implementationDataTypeRef" (CNone); CSet "swHostVariable" (CNone); CSet "swImplPolicy" (CNone); CSet "additionalNativeTypeQualifier" (CNone); CSet "swIntendedResolution" (CNone); CSet "swInterpolationMethod" (CNone); CSet "invalidValue" (CNone); CSet "swIsVirtual" (CNone); CSet "swPointerTargetProps" (CNone); CSet "swRecordLayoutRef" (CNone); CSet "swRefreshTiming" (CNone); CSet "unitRef" (CNone); CSet "valueAxisDataTypeRef" (CNone)])) (* line 486 *);
  ("SwPointerTargetProps", (0, [CSuper [] []; CSet "functionPointerSignatureRef" (CNone); CSet "swDataDefProps" (CNone); CSet "targetCategory" (CNone)])) (* line 1017 *);
  ("ValueList", (0, [CSuper [] []; CSet "v" (CNone); CSet "_vf" (CList)])) (* line 1084 *);
  ("SwTextProps", (0, [CSuper [] []; CSet "arraySizeSemantics" (CNone); CSet "baseTypeRef" (CNone); CSet "swFillCharacter" (CNone); CSet "swMaxTextSize" (CNone)])) (* line 1124 *);
  (* models/M2/MSR/DataDictionary/RecordLayout.py *)
  ("SwRecordLayoutV", (0, [CSuper [] []; CSet "baseTypeRef" (CNone); CSet "desc" (CNone); CSet "shortLabel" (CNone); CSet "swGenericAxisParamTypeRef" (CNone); CSet "swRecordLayoutVAxis" (CNone); CSet "swRecordLayoutVFixValue" (CNone); CSet "swRecordLayoutVIndex" (CNone); CSet "swRecordLayoutVProp" (CNone)])) (* line 49 *);
  ("SwRecordLayoutGroupContent", (0, [CSuper [] []; CSet "swRecordLayoutRef" (CNone); CSet "swRecordLayoutGroup" (CNone); CSet "swRecordLayoutV" (CNone)])) (* line 133 *);
  ("SwRecordLayoutGroup", (0, [CSuper [] []; CSet "category" (CNone); CSet "desc" (CNone); CSet "shortLabel" (CNone); CSet "swGenericAxisParamTypeRef" (CNone); CSet "swRecordLayoutComponent" (CNone); CSet "swRecordLayoutGroupAxis" (CNone); CSet "swRecordLayoutGroupContentType" (CNone); CSet "swRecordLayoutGroupFrom" (CNone); CSet "swRecordLayoutGroupIndex" (CNone); CSet "swRecordLayoutGroupStep" (CNone); CSet "swRecordLayoutGroupTo" (CNone)])) (* line 193 *);
  ("SwRecordLayout", (2, [CSuper [CArg 0; CArg 1] []; CSet "swRecordLayoutGroup" (CNone)])) (* line 297 *);
  (* models/M2/MSR/DataDictionary/ServiceProcessTask.py *)
  ("SwServiceArg", (2, [CSuper [CArg 0; CArg 1] []; CSet "direction" (CNone); CSet "swArraysize" (CNone); CSet "swDataDefProps" (CNone)])) (* line 26 *);
  (* models/M2/MSR/DataDictionary/SystemConstant.py *)
  ("SwSystemconst", (2, [CSuper [CArg 0; CArg 1] []; CSet "swDataDefProps" (CNone)])) (* line 22 *);
  (* models/M2/MSR/Documentation/Annotation.py *)
  ("GeneralAnnotation", (0, [CAbstract "GeneralAnnotation"; CSuper [] []; CSet "annotationOrigin" (CNone); CSet "annotationText" (CNone); CSet "label" (CNone)])) (* line 22 *);
  ("Annotation", (0, [CSuper [] []])) (* line 64 *);
  (* models/M2/MSR/Documentation/Chapters.py *)
  ("Chapter", (2, [CSuper [CArg 0; CArg 1] []; CSet "chapterModel" (CNone); CSet "helpEntry" (CNone)])) (* line 38 *);
  ("PredefinedChapter", (0, [CSuper [] []; CSet "chapterModel" (CNone)])) (* line 105 *);
  ("ChapterModel", (0, [CSuper [] []; CSet "chapter" (CNone); CSet "chapterContent" (CNone); CSet "topic1" (CNone)])) (* line 159 *);
  ("ChapterContent", (0, [CSuper [] []; CSet "topicContent" (CNone)])) (* line 255 *);
  ("ChapterOrMsrQuery", (0, [CSuper [] []; CSet "chapters" (CList); CSet "msrQueryChapter" (CNone)])) (* line 299 *);
  ("TopicOrMsrQuery", (0, [CSuper [] []; CSet "msrQueryTopic1" (CNone); CSet "topic1" (CList)])) (* line 368 *);
  ("Topic1", (2, [CSuper [CArg 0; CArg 1] []; CSet "helpEntry" (CNone); CSet "topicContent" (CNone)])) (* line 439 *);
  ("MsrQueryChapter", (0, [CSuper [] []; CSet "msrQueryProps" (CNone)])) (* line 511 *);
  ("MsrQueryTopic1", (0, [CSuper [] []; CSet "msrQueryProps" (CNone)])) (* line 558 *);
  ("TopicContent", (0, [CSuper [] []; CSet "blockLevelContent" (CNone)])) (* line 607 *);
  ("TopicContentOrMsrQuery", (0, [CSuper [] []; CSet "msrQueryP1" (CNone); CSet "topicContent" (CNone)])) (* line 653 *);
  (* models/M2/MSR/Documentation/BlockElements/Figure.py *)
  ("GraphicFitEnum", (1, [CSuper [CList] []])) (* line 16 *);
  ("Graphic", (0, [CSuper [] []; CSet "editfit" (CNone); CSet "editHeight" (CNone); CSet "editscale" (CNone); CSet "editWidth" (CNone); CSet "filename" (CNone); CSet "fit" (CNone)])) (* line 40 *);
  ("Map", (0, [CSuper [] []])) (* line 107 *);
  ("LGraphic", (0, [CSuper [] []; CSet "graphic" (CNone); CSet "map" (CNone)])) (* line 125 *);
  ("MlFigure", (0, [CSuper [] []; CSet "figureCaption" (CNone); CSet "helpEntry" (CNone); CSet "lGraphics" (CList); CSet "pgwide" (CNone); CSet "verbatim" (CNone)])) (* line 194 *);
  (* models/M2/MSR/Documentation/BlockElements/Formula.py *)
  ("MlFormula", (0, [CSuper [] []; CSet "formulaCaption" (CNone); CSet "genericMath" (CNone); CSet "lGraphics" (CList); CSet "texMath" (CNone); CSet "verbatim" (CNone)])) (* line 31 *);
  (* models/M2/MSR/Documentation/BlockElements/OasisExchangeTable.py *)
  ("FloatEnum", (0, [CSuper [CFresh "list"] [("FloatEnum", "FLOAT"); ("FloatEnum", "NO_FLOAT")]])) (* line 24 *);
  ("PgwideEnum", (0, [CSuper [CFresh "list"] [("PgwideEnum", "NO_PGWIDE"); ("PgwideEnum", "PGWIDE")]])) (* line 51 *);
  (* models/M2/MSR/Documentation/BlockElements/__init__.py *)
  ("Caption", (2, [CSuper [CArg 0; CArg 1] []; CSet "desc" (CNone)])) (* line 25 *);
  (* models/M2/MSR/Documentation/TextModel/InlineTextElements.py *)
  ("Superscript", (0, [CSuper [] []])) (* line 20 *);
  ("Tt", (0, [CSuper [] []; CSet "value" (CNone); CSet "texRender" (CNone); CSet "type" (CNone)])) (* line 41 *);
  ("IndexEntry", (0, [CSuper [] []; CSet "value" (CNone); CSet "sub" (CNone); CSet "sup" (CNone)])) (* line 131 *);
  ("EmphasisText", (0, [CSuper [] []; CSet "value" (CNone); CSet "color" (CNone); CSet "font" (CNone); CSet "sub" (CNone); CSet "sup" (CNone); CSet "tt" (CNone); CSet "type" (CNone)])) (* line 229 *);
  (* models/M2/MSR/Documentation/TextModel/LanguageDataModel.py *)
  ("LEnum", (0, [CSuper [CFresh "list"] [("LEnum", "AA"); ("LEnum", "AB"); ("LEnum", "AF"); ("LEnum", "AM"); ("LEnum", "AR"); ("LEnum", "AS"); ("LEnum", "AY"); ("LEnum", "AZ"); ("LEnum", "BA"); ("LEnum", "BE"); ("LEnum", "BG"); ("LEnum", "BH"); ("LEnum", "BI"); ("LEnum", "BN"); ("LEnum", "BO"); ("LEnum", "BR"); ("LEnum", "CA"); ("LEnum", "CO"); ("LEnum", "CS"); ("LEnum", "CY"); ("LEnum", "DA"); ("LEnum", "DE"); ("LEnum", "DZ"); ("LEnum", "EL"); ("LEnum", "EN"); ("LEnum", "EO"); ("LEnum", "ES"); ("LEnum", "ET"); ("LEnum", "EU"); ("LEnum", "FA"); ("LEnum", "FI"); ("LEnum", "FJ"); ("LEnum", "FO"); ("LEnum", "FOR_ALL")]])) (* line 98 *);
  ("LanguageSpecific", (0, [CAbstract "LanguageSpecific"; CSuper [] []; CSet "l" (CNone); CSet "value" (CFresh "str")])) (* line 154 *);
  ("LOverviewParagraph", (0, [CSuper [] []])) (* line 203 *);
  ("LParagraph", (0, [CSuper [] []])) (* line 215 *);
  ("MixedContentForLongName", (0, [CAbstract "MixedContentForLongName"; CSuper [] []; CSet "e" (CNone); CSet "ie" (CNone); CSet "sub" (CNone); CSet "sup" (CNone); CSet "tt" (CNone)])) (* line 240 *);
  ("LLongName", (0, [CSuper [] []; CSet "blueprintValue" (CNone)])) (* line 345 *);
  ("LPlainText", (0, [CSuper [] []])) (* line 374 *);
  ("LVerbatim", (0, [CSuper [] []])) (* line 386 *);
  (* models/M2/MSR/Documentation/TextModel/MsrQuery.py *)
  ("MsrQueryArg", (0, [CSuper [] []; CSet "arg" (CNone); CSet "si" (CNone)])) (* line 27 *);
  ("MsrQueryProps", (0, [CSuper [] []; CSet "comment" (CNone); CSet "msrQueryName" (CNone); CSet "msrQueryArgs" (CList)])) (* line 94 *);
  ("MsrQueryP2", (0, [CSuper [] []; CSet "msrQueryProps" (CNone); CSet "msrQueryResultP2" (CNone)])) (* line 182 *);
  ("MsrQueryP1", (0, [CSuper [] []])) (* line 245 *);
  (* models/M2/MSR/Documentation/TextModel/MultilanguageData.py *)
  ("MultiLanguageParagraph", (0, [CSuper [] []; CSet "l1" (CList)])) (* line 24 *);
  ("MultiLanguageOverviewParagraph", (0, [CSuper [] []; CSet "l2" (CList)])) (* line 50 *);
  ("MultilanguageLongName", (0, [CSuper [] []; CSet "l4" (CList)])) (* line 83 *);
  ("MultiLanguagePlainText", (0, [CSuper [] []; CSet "l10s" (CList)])) (* line 109 *);
  ("MultiLanguageVerbatim", (0, [CSuper [] []; CSet "allowBreak" (CNone); CSet "float" (CNone); CSet "helpEntry" (CNone); CSet "l5s" (CList); CSet "pgwide" (CNone)])) (* line 157 *);
  (* models/M2/MSR/Documentation/TextModel/BlockElements/ListElements.py *)
  ("ListEnum", (0, [CSuper [CFresh "list"] [("ListEnum", "NUMBER"); ("ListEnum", "UNNUMBER")]])) (* line 26 *);
  ("Item", (0, [CSuper [] []; CSet "itemContents" (CNone)])) (* line 42 *);
  ("ARList", (0, [CSuper [] []; CSet "items" (CList); CSet "type" (CNone)])) (* line 68 *);
  ("ItemLabelPosEnum", (0, [CSuper [CFresh "list"] [("ItemLabelPosEnum", "NEWLINE"); ("ItemLabelPosEnum", "NEWLINE_IF_NECESSARY"); ("ItemLabelPosEnum", "NO_NEWLINE")]])) (* line 108 *);
  ("IndentSample", (0, [CSuper [] []; CSet "itemLabelPos" (CNone); CSet "l2s" (CList)])) (* line 133 *);
  ("LabeledItem", (0, [CSuper [] []; CSet "helpEntry" (CNone); CSet "itemContents" (CNone); CSet "itemLabel" (CNone)])) (* line 200 *);
  ("LabeledList", (0, [CSuper [] []; CSet "indentSample" (CNone); CSet "labeledItems" (CList)])) (* line 288 *);
  ("DefItem", (0, [CSuper [] []; CSet "def_doc" (CNone); CSet "helpEntry" (CNone)])) (* line 353 *);
  ("DefList", (0, [CSuper [] []; CSet "defItems" (CList)])) (* line 404 *);
  (* models/M2/MSR/Documentation/TextModel/BlockElements/Note.py *)
  ("NoteTypeEnum", (0, [CSuper [CFresh "list"] [("NoteTypeEnum", "CAUTION"); ("NoteTypeEnum", "EXAMPLE"); ("NoteTypeEnum", "EXERCISE"); ("NoteTypeEnum", "HINT"); ("NoteTypeEnum", "INSTRUCTION"); ("NoteTypeEnum", "OTHER"); ("NoteTypeEnum", "TIP")]])) (* line 40 *);
  ("Note", (0, [CSuper [] []; CSet "label" (CNone); CSet "noteText" (CNone); CSet "noteType" (CNone)])) (* line 71 *);
  (* models/M2/MSR/Documentation/TextModel/BlockElements/PaginationAndView.py *)
  ("DocumentViewSelectable", (0, [CAbstract "DocumentViewSelectable"; CSuper [] []])) (* line 14 *);
  ("Paginateable", (0, [CAbstract "Paginateable"; CSuper [] []; CSet "chapterBreak" (CNone); CSet "keepWithPrevious" (CNone)])) (* line 33 *);
  (* models/M2/MSR/Documentation/TextModel/BlockElements/RequirementsTracing.py *)
  ("TraceableText", (0, [CSuper [] []; CSet "text" (CNone); CSet "traceRefs" (CList)])) (* line 27 *);
  ("StructuredReq", (0, [CSuper [] []; CSet "date" (CNone); CSet "importance" (CNone); CSet "issuedBy" (CNone); CSet "type" (CNone); CSet "description" (CNone); CSet "rationale" (CNone); CSet "dependencies" (CNone); CSet "useCase" (CNone); CSet "conflicts" (CNone); CSet "supportingMaterial" (CNone); CSet "remark" (CNone); CSet "testedItemRefs" (CList)])) (* line 112 *);
  (* models/M2/MSR/Documentation/TextModel/BlockElements/__init__.py *)
  ("DocumentationBlock", (0, [CSuper [] []; CSet "defList" (CNone); CSet "figures" (CList); CSet "formula" (CNone); CSet "labeledList" (CNone); CSet "lists" (CList); CSet "msrQueryP2" (CNone); CSet "note" (CNone); CSet "ps" (CList); CSet "structuredReq" (CNone); CSet "trace" (CNone); CSet "verbatim" (CNone)])) (* line 55 *);
  (* models/utils/uuid_mgr.py *)
  ("UUIDMgr", (0, [CSet "uuid_object_mappings" (CFresh "dict")])) (* line 16 *)
].

(** the method clear *)
Definition clear_table : list (string * list cstmt) := [
  (* models/M2/AUTOSARTemplates/AutosarTopLevelStructure/__init__.py *)
  ("AbstractAUTOSAR", [CBase "CollectableElement" []; CSet "schema_location" (CNone); CSet "_appl_impl_type_maps" (CFresh "dict"); CSet "_impl_appl_type_maps" (CFresh "dict"); CSet "_behavior_impl_maps" (CFresh "dict"); CSet "_impl_behavior_maps" (CFresh "dict"); CSet "uuid_mgr" (CFresh "UUIDMgr"); CSet "systems" (CFresh "dict"); CSet "compositionSwComponentTypes" (CFresh "dict"); CSet "rootSwCompositionPrototype" (CNone); CSet "adminData" (CNone); CSet "arPackages" (CFresh "dict"); CSet "fileInfoComment" (CNone); CSet "introduction" (CNone)]) (* line 155 *)
].

(** class constants mentioned in the constructors *)
Definition const_table : list (string * list string) := [
  (* models/M2/AUTOSARTemplates/ECUCParameterDefTemplate.py *)
  ("EcucScopeEnum", ["ECU"; "LOCAL"]);
  ("EcucConfigurationClassEnum", ["LINK"; "POST_BUILD"; "PRE_COMPILE"; "PUBLISHED_INFORMATION"]);
  ("EcucDestinationUriNestingContractEnum", ["LEAF_OF_TARGET_CONTAINER"; "TARGET_CONTAINER"; "VERTEX_OF_TARGET_CONTAINER"]);
  (* models/M2/AUTOSARTemplates/BswModuleTemplate/BswInterfaces.py *)
  ("BswEntryKindEnum", ["ABSTRACT"; "CONCRETE"]);
  ("BswCallType", ["CALLBACK"; "CALLOUT"; "INTERRUPT"; "REGULAR"; "SCHEDULED"]);
  ("BswExecutionContext", ["HOOK"; "INTERRUPT_CAT_1"; "INTERRUPT_CAT_2"; "TASK"; "UNSPECIFIED"]);
  ("SwServiceImplPolicyEnum", ["INLINE"; "INLINE_CONDITIONAL"; "MACRO"; "STANDARD"]);
  (* models/M2/AUTOSARTemplates/BswModuleTemplate/BswBehavior/__init__.py *)
  ("BswInterruptCategory", ["CAT1"; "CAT2"]);
  (* models/M2/AUTOSARTemplates/CommonStructure/Filter.py *)
  ("DataFilterTypeEnum", ["MASKED_NEW_DIFFERS_MASKED_OLD"; "MASKED_NEW_DIFFERS_X"; "MASKED_NEW_EQUALS_X"; "NEVER"; "NEW_IS_OUTSIDE"; "NEW_IS_WITHIN"; "ONE_EVERY_N"]);
  (* models/M2/AUTOSARTemplates/CommonStructure/Implementation.py *)
  ("DependencyUsageEnum", ["BUILD"; "CODEGENERATION"; "COMPILE"; "EXECUTE"; "LINK"]);
  ("ProgramminglanguageEnum", ["C"; "CPP"; "JAVA"]);
  (* models/M2/AUTOSARTemplates/CommonStructure/ImplementationDataTypes.py *)
  ("ArrayImplPolicyEnum", ["DYNAMIC"; "STATIC"]);
  ("ArraySizeSemanticsEnum", ["FIXED_SIZE"; "VARIABLE_SIZE"]);
  (* models/M2/AUTOSARTemplates/CommonStructure/InternalBehavior.py *)
  ("ReentrancyLevelEnum", ["MULTICORE_REENTRANT"; "NON_REENTRANT"; "SINGLE_CORE_REENTRANT"]);
  ("ApiPrincipleEnum", ["COMMON"; "PER_EXECUTABLE"]);
  (* models/M2/AUTOSARTemplates/CommonStructure/ModeDeclaration.py *)
  ("ModeActivationKind", ["ON_ENTRY"; "ON_EXIT"; "ON_TRANSITION"]);
  ("ModeErrorReactionPolicyEnum", ["DEFAULT_MODE"; "LAST_MODE"]);
  (* models/M2/AUTOSARTemplates/CommonStructure/ServiceNeeds.py *)
  ("RamBlockStatusControlEnum", ["API"; "NV_RAM_MANAGER"]);
  ("NvBlockNeedsReliabilityEnum", ["ERROR_CORRECTION"; "ERROR_DETECTION"; "NO_PROTECTION"]);
  ("NvBlockNeedsWritingPriorityEnum", ["HIGH"; "LOW"; "MEDIUM"]);
  ("DiagnosticAudienceEnum", ["AFTER_MARKET"; "AFTER_SALES"; "DEVELOPMENT"; "MANUFACTURING"; "SUPPLIER"]);
  ("DiagnosticServiceRequestCallbackTypeEnum", ["REQUEST_CALLBACK_TYPE_MANUFACTURER"; "REQUEST_CALLBACK_TYPE_SUPPLIER"]);
  ("DiagnosticRoutineTypeEnum", ["ASYNCHRONOUS"; "SYNCHRONOUS"]);
  ("DiagnosticValueAccessEnum", ["READ_ONLY"; "READ_WRITE"; "WRITE_ONLY"]);
  ("DiagnosticProcessingStyleEnum", ["PROCESSING_STYLE_ASYNCHRONOUS"; "PROCESSING_STYLE_ASYNCHRONOUS_WITH_ERROR"; "PROCESSING_STYLE_SYNCHRONOUS"]);
  ("DiagnosticDenominatorConditionEnum", ["_500MILES"; "COLDSTART"; "CSERS"; "EVAP"; "EVAPPURGEFLOW"; "INDIVIDUAL"; "OBD"]);
  ("DiagnosticMonitorUpdateKindEnum", ["ALWAYS"; "STEADY"]);
  ("EventAcceptanceStatusEnum", ["EVENT_ACCEPTANCE_DISABLED"; "EVENT_ACCEPTANCE_ENABLED"]);
  ("DiagnosticIndicatorTypeEnum", ["AMBER_WARNING"; "MALFUNCTION"; "PROTECT_LAMP"; "RED_STOP_LAMP"; "WARNING"]);
  ("MaxCommModeEnum", ["FULL"; "NONE"; "SILENT"]);
  ("ObdRatioConnectionKindEnum", ["API_USE"; "OBSERVER"]);
  ("OperationCycleTypeEnum", ["IGNITION"; "OBD_DCY"; "OTHER"; "POWER"; "TIME"; "WARMUP"]);
  ("ServiceProviderEnum", ["ANY_STANDARDIZED"; "BASIC_SOFTWARE_MODE_MANAGER"; "COM_MANAGER"; "CRYPTO_KEY_MANAGEMENT"; "CRYPTO_SERVICE_MANAGER"; "DEFAULT_ERROR_TRACER"; "DIAGNOSTIC_COMMUNICATION_MANAGER"; "DIAGNOSTIC_EVENT_MANAGER"; "DIAGNOSTIC_LOG_AND_TRACE"; "ECU_MANAGER"; "ERROR_TRACER"; "FUNCTION_INHIBITION_MANAGER"; "HARDWARE_TEST_MANAGER"; "INTRUSION_DETECTION_SECURITY_MANAGEMENT"; "J1939_DCM"; "J1939_REQUEST_MANAGER"; "NON_VOLATILE_RAM_MANAGER"; "OPERATING_SYSTEM"; "SECURE_ON_BOARD_COMMUNICATION"; "SYNC_BASE_TIME_MANAGER"; "V2X_FACILITIES"; "V2X_MANAGEMENT"; "VENDOR_SPECIFIC"]);
  ("StorageConditionStatusEnum", ["EVENT_STORAGE_DISABLE"; "EVENT_STORAGE_ENABLE"]);
  ("VerificationStatusIndicationModeEnum", ["FAILURE_AND_SUCCESS"; "FAILURE_ONLY"]);
  (* models/M2/AUTOSARTemplates/CommonStructure/SignalServiceTranslation.py *)
  ("SignalServiceTranslationControlEnum", ["ALL_PARTIAL_NETWORKS_ACTIVE"; "ANY_PARTIAL_NETWORK_ACTIVE"; "PARTIAL_NETWORK"; "SERVICE_DISCOVERY"; "TRANSLATION_START"]);
  (* models/M2/AUTOSARTemplates/CommonStructure/MeasurementCalibrationSupport/RptSupport/__init__.py *)
  ("RptAccessEnum", ["ENABLED"; "NONE"; "PROTECTED"]);
  ("RptEnablerImplTypeEnum", ["NONE"; "RPT_ENABLER_RAM"; "RPT_ENABLER_ROM"; "RPT_ENABLER_RAM_AND_ROM"]);
  ("RptExecutionControlEnum", ["CONDITIONAL"; "NONE"]);
  ("RptPreparationEnum", ["NONE"; "RPT_LEVEL_1"; "RPT_LEVEL_2"; "RPT_LEVEL_3"]);
  (* models/M2/AUTOSARTemplates/CommonStructure/Timing/TimingConstraint/ExecutionTimeConstraint.py *)
  ("ExecutionTimeTypeEnum", ["BEST_CASE"; "WORST_CASE"; "AVERAGE_CASE"]);
  (* models/M2/AUTOSARTemplates/CommonStructure/Timing/TimingConstraint/LatencyTimingConstraint.py *)
  ("LatencyConstraintTypeEnum", ["RESPONSE_TIME"; "REACTION_TIME"; "END_TO_END_LATENCY"]);
  (* models/M2/AUTOSARTemplates/CommonStructure/Timing/TimingConstraint/SynchronizationTiming.py *)
  ("SynchronizationTypeEnum", ["HARD_SYNCHRONIZATION"; "SOFT_SYNCHRONIZATION"; "NO_SYNCHRONIZATION"]);
  ("EventOccurrenceKindEnum", ["START"; "END"; "START_AND_END"]);
  (* models/M2/AUTOSARTemplates/GenericStructure/GeneralTemplateClasses/Enumerations.py *)
  ("XmlSpaceEnum", ["DEFAULT"; "PRESERVE"]);
  (* models/M2/AUTOSARTemplates/GenericStructure/GeneralTemplateClasses/PrimitiveTypes.py *)
  ("IntervalTypeEnum", ["CLOSED"; "OPEN"]);
  ("ArgumentDirectionEnum", ["IN"; "INOUT"; "OUT"]);
  ("ByteOrderEnum", ["MOST_SIGNIFICANT_BYTE_FIRST"; "MOST_SIGNIFICANT_BYTE_LAST"; "OPAQUE"]);
  ("MonotonyEnum", ["DECREASING"; "INCREASING"; "MONOTONOUS"; "NO_MONOTONY"; "STRICTLY_DECREASING"; "STRICTLY_INCREASING"; "STRICT_MONOTONOUS"]);
  (* models/M2/AUTOSARTemplates/SWComponentTemplate/Communication.py *)
  ("HandleInvalidEnum", ["DONT_INVALIDATE"; "EXTERNAL_REPLACEMENT"; "KEEP"; "REPLACE"]);
  ("TransmissionModeDefinitionEnum", ["CYCLIC"; "CYCLIC_AND_ON_CHANGE"; "TRIGGERED"]);
  ("HandleOutOfRangeEnum", ["DEFAULT"; "EXTERNAL_REPLACEMENT"; "IGNORE"; "INVALID"; "NONE"; "SATURATE"]);
  ("HandleOutOfRangeStatusEnum", ["INDICATE"; "SILENT"]);
  ("HandleTimeoutEnum", ["NONE"; "REPLACE"; "REPLACE_BY_TIMEOUT_SUBSTITUTION_VALUE"]);
  (* models/M2/AUTOSARTemplates/SWComponentTemplate/RPTScenario.py *)
  ("RptServicePointEnum", ["ENABLED"; "NONE"]);
  (* models/M2/AUTOSARTemplates/SWComponentTemplate/ApplicationAttributes/__init__.py *)
  ("DataLimitKindEnum", ["MAX"; "MIN"; "NONE"]);
  ("FilterDebouncingEnum", ["DEBOUNCE_DATA"; "RAW_DATA"; "WAIT_TIME_DATE"]);
  ("ProcessingKindEnum", ["FILTERED"; "NONE"; "RAW"]);
  ("PulseTestEnum", ["DISABLE"; "ENABLE"]);
  ("SignalFanEnum", ["NFOLD"; "SINGLE"]);
  (* models/M2/AUTOSARTemplates/SWComponentTemplate/Datatype/Datatypes.py *)
  ("ArraySizeHandlingEnum", ["ALL_INDICES_DIFFERENT_ARRAY_SIZE"; "ALL_INDICES_SAME_ARRAY_SIZE"; "INHERITED_FROM_ARRAY_ELEMENT_TYPE_SIZE"]);
  (* models/M2/AUTOSARTemplates/SWComponentTemplate/PortInterface/__init__.py *)
  ("ServerArgumentImplPolicyEnum", ["USE_ARGUMENT_TYPE"; "USE_VOID"]);
  (* models/M2/AUTOSARTemplates/SWComponentTemplate/SwcInternalBehavior/AccessCount.py *)
  ("RteApiReturnValueProvisionEnum", ["NO_RETURN_VALUE_PROVIDED"; "RETURN_VALUE_PROVIDED"]);
  (* models/M2/AUTOSARTemplates/SystemTemplate/DataMapping.py *)
  ("DataTypePolicyEnum", ["DDS_SERVICE"; "DDS_SIGNAL"; "LEGACY"; "NETWORK_REPRESENTATION_FROM_COM_SPEC"; "OVERRIDE"; "TRANSFORMING_I_SIGNAL"]);
  (* models/M2/AUTOSARTemplates/SystemTemplate/NetworkManagement.py *)
  ("NmCoordinatorRoleEnum", ["ACTIVE"; "PASSIVE"]);
  ("J1939NmAddressConfigurationCapabilityEnum", ["J1939NM_AAC"; "J1939NM_CCA"; "J1939NM_NCA"; "J1939NM_SCA"; "J1939NM_SVCA"]);
  (* models/M2/AUTOSARTemplates/SystemTemplate/Fibex/Fibex4Lin/LinCommunication.py *)
  ("ResumePosition", ["CONTINUE_AT_IT_POSITION"; "START_FROM_BEGINNING"]);
  (* models/M2/AUTOSARTemplates/SystemTemplate/Fibex/FibexCore/CoreCommunication.py *)
  ("TransferPropertyEnum", ["PENDING"; "TRIGGERED"; "TRIGGERED_ON_CHANGE"; "TRIGGERED_ON_CHANGE_WITHOUT_REPETITION"; "TRIGGERED_WITHOUT_REPETITION"]);
  ("ISignalTypeEnum", ["ARRAY"; "PRIMITIVE"]);
  (* models/M2/AUTOSARTemplates/SystemTemplate/Fibex/FibexCore/CoreTopology.py *)
  ("FlexrayChannelName", ["CHANNEL_A"; "channel_B"]);
  ("PncGatewayTypeEnum", ["ENUM_ACTIVE"; "ENUM_NONE"; "ENUM_PASSIVE"]);
  ("CommunicationDirectionType", ["ENUM_IN"; "ENUM_OUT"]);
  (* models/M2/AUTOSARTemplates/SystemTemplate/Transformer/__init__.py *)
  ("DataTransformationKindEnum", ["ASYMMETRIC_FROM_BYTE_ARRAY"; "ASYMMETRIC_TO_BYTE_ARRAY"; "SYMMETRIC"]);
  ("DataIdModeEnum", ["ALL_16_BIT"; "ALTERNATING_8_BIT"; "LOWER_12_BIT"; "LOWER_8_BIT"]);
  ("EndToEndProfileBehaviorEnum", ["PRE_R4_2"; "R4_2"]);
  ("TransformerClassEnum", ["CUSTOM"; "SAFETY"; "SECURITY"; "SERIALIZER"]);
  ("CSTransformerErrorReactionEnum", ["APPLICATION_ONLY"; "AUTONOMOUS"]);
  (* models/M2/MSR/AsamHdo/Constraints/GlobalConstraints.py *)
  ("ScaleConstrValidityEnum", ["NOT_AVAILABLE"; "NOT_DEFINED"; "NOT_VALID"; "VALID"]);
  (* models/M2/MSR/DataDictionary/AuxillaryObjects.py *)
  ("MemoryAllocationKeywordPolicyType", ["ADDR_METHOD_SHORT_NAME"; "ADDR_METHOD_SHORT_NAME_AND_ALIGNMENT"]);
  ("MemorySectionType", ["CALIBRATION_VARIABLES"; "CALPRM"; "CODE"; "CONFIG_DATA"; "CONST"; "EXCLUDE_FROM_FLASH"; "VAR"]);
  (* models/M2/MSR/DataDictionary/CalibrationParameter.py *)
  ("CalprmAxisCategoryEnum", ["COM_AXIS"; "FIX_AXIS"; "RES_AXIS"; "STD_AXIS"]);
  (* models/M2/MSR/DataDictionary/DataDefProperties.py *)
  ("SwImplPolicyEnum", ["CONST"; "FIXED"; "MEASUREMENT_POINT"; "QUEUED"; "STANDARD"]);
  ("SwCalibrationAccessEnum", ["NOT_ACCESSIBLE"; "READ_ONLY"; "READ_WRITE"]);
  ("DisplayPresentationEnum", ["PRESENTATION_CONTINUOUS"; "PRESENTATION_DISCRETE"]);
  (* models/M2/MSR/Documentation/BlockElements/OasisExchangeTable.py *)
  ("FloatEnum", ["FLOAT"; "NO_FLOAT"]);
  ("PgwideEnum", ["NO_PGWIDE"; "PGWIDE"]);
  (* models/M2/MSR/Documentation/TextModel/LanguageDataModel.py *)
  ("LEnum", ["AA"; "AB"; "AF"; "AM"; "AR"; "AS"; "AY"; "AZ"; "BA"; "BE"; "BG"; "BH"; "BI"; "BN"; "BO"; "BR"; "CA"; "CO"; "CS"; "CY"; "DA"; "DE"; "DZ"; "EL"; "EN"; "EO"; "ES"; "ET"; "EU"; "FA"; "FI"; "FJ"; "FO"; "FOR_ALL"]);
  (* models/M2/MSR/Documentation/TextModel/BlockElements/ListElements.py *)
  ("ListEnum", ["NUMBER"; "UNNUMBER"]);
  ("ItemLabelPosEnum", ["NEWLINE"; "NEWLINE_IF_NECESSARY"; "NO_NEWLINE"]);
  (* models/M2/MSR/Documentation/TextModel/BlockElements/Note.py *)
  ("NoteTypeEnum", ["CAUTION"; "EXAMPLE"; "EXERCISE"; "HINT"; "INSTRUCTION"; "OTHER"; "TIP"])
].

Inductive astmt :=
| AAppend (a : string)                  (* self.a.append(value) *)
| AAssign (a : string)                  (* self.a = value *)
| AIfSome (b : list astmt)              (* if value is not None: b *)
| AIfNew (a : string) (b : list astmt)  (* if value not in self.a: b *)
| AReturnSelf                           (* return self *)
| AOther.

Definition add_table : list (string * list (string * list astmt)) := [
  (* models/M2/AUTOSARTemplates/ECUCDescriptionTemplate.py *)
  ("EcucValueCollection", [ (* line 19 *)
    ("addEcucValueRef", [AAppend "ecucValueRefs"; AReturnSelf])]);
  ("EcucParameterValue", [ (* line 91 *)
    ("addAnnotation", [AAppend "annotations"; AReturnSelf])]);
  ("EcucAbstractReferenceValue", [ (* line 205 *)
    ("addAnnotation", [AAppend "annotations"; AReturnSelf])]);
  ("EcucContainerValue", [ (* line 299 *)
    ("addParameterValue", [AAppend "parameterValues"; AReturnSelf]);
    ("addReferenceValue", [AAppend "referenceValues"; AReturnSelf])]);
  (* models/M2/AUTOSARTemplates/ECUCParameterDefTemplate.py *)
  ("EcucDefinitionElement", [ (* line 193 *)
    ("addEcucValidationCond", [AIfSome [AAppend "ecucValidationConds"]; AReturnSelf])]);
  ("EcucContainerDef", [ (* line 500 *)
    ("addDestinationUriRef", [AIfSome [AAppend "destinationUriRefs"]; AReturnSelf]);
    ("addMultiplicityConfigClass", [AIfSome [AAppend "multiplicityConfigClasses"]; AReturnSelf])]);
  ("EcucCommonAttributes", [ (* line 629 *)
    ("addMultiplicityConfigClass", [AIfSome [AAppend "multiplicityConfigClasses"]; AReturnSelf]);
    ("addValueConfigClass", [AIfSome [AAppend "valueConfigClasses"]; AReturnSelf])]);
  ("EcucChoiceReferenceDef", [ (* line 1055 *)
    ("addDestinationRef", [AIfSome [AAppend "destinationRefs"]; AReturnSelf])]);
  ("EcucDefinitionCollection", [ (* line 1945 *)
    ("addModuleRef", [AIfSome [AAppend "moduleRefs"]; AReturnSelf])]);
  ("EcucDestinationUriDefSet", [ (* line 2013 *)
    ("addDestinationUriDef", [AIfSome [AAppend "destinationUriDefs"]; AReturnSelf])]);
  ("EcucDestinationUriPolicy", [ (* line 2056 *)
    ("addContainer", [AIfSome [AAppend "containers"]; AReturnSelf]);
    ("addParameter", [AIfSome [AAppend "parameters"]; AReturnSelf]);
    ("addReference", [AIfSome [AAppend "references"]; AReturnSelf])]);
  ("EcucModuleDef", [ (* line 2349 *)
    ("addSupportedConfigVariant", [AIfSome [AAppend "supportedConfigVariants"]; AReturnSelf])]);
  (* models/M2/AUTOSARTemplates/AbstractPlatform/ApplicationInterface.py *)
  ("ApplicationInterface", [ (* line 19 *)
    ("addAttribute", [AAppend "attributes"; AReturnSelf]);
    ("addCommand", [AAppend "commands"; AReturnSelf]);
    ("addIndication", [AAppend "indications"; AReturnSelf])]);
  (* models/M2/AUTOSARTemplates/AdaptivePlatform/PlatformModuleDeployment/Firewall/FirewallRule.py *)
  ("FirewallRule", [ (* line 6 *)
    ("addDestRef", [AAppend "destRefs"; AReturnSelf]);
    ("addSrcRef", [AAppend "srcRefs"; AReturnSelf])]);
  (* models/M2/AUTOSARTemplates/AdaptivePlatform/PlatformModuleDeployment/Firewall/StateDependentFirewall.py *)
  ("StateDependentFirewall", [ (* line 6 *)
    ("addFirewallRule", [AAppend "firewallRules"; AReturnSelf])]);
  (* models/M2/AUTOSARTemplates/AdaptivePlatform/PlatformModuleDeployment/IntrusionDetectionSystem/IdsPlatformInstantiation.py *)
  ("IdsPlatformInstantiation", [ (* line 11 *)
    ("addNetwork", [AAppend "networks"; AReturnSelf])]);
  (* models/M2/AUTOSARTemplates/AutosarTopLevelStructure/__init__.py *)
  ("AbstractAUTOSAR", [ (* line 50 *)
    ("addDataTypeMap", [AOther; AOther; AOther]);
    ("addImplementationBehaviorMap", [AOther]);
    ("addSystem", [AOther; AOther]);
    ("addCompositionSwComponentType", [AIfSome [AOther; AOther]; AReturnSelf]);
    ("addARObject", [AIfSome [AOther]; AReturnSelf])]);
  (* models/M2/AUTOSARTemplates/BswModuleTemplate/BswImplementation.py *)
  ("BswImplementation", [ (* line 13 *)
    ("addPreconfiguredConfigurationRef", [AIfSome [AAppend "preconfiguredConfigurationRefs"]; AReturnSelf]);
    ("addRecommendedConfigurationRef", [AIfSome [AAppend "recommendedConfigurationRefs"]; AReturnSelf]);
    ("addVendorSpecificModuleDefRef", [AIfSome [AAppend "vendorSpecificModuleDefRefs"]; AReturnSelf])]);
  (* models/M2/AUTOSARTemplates/BswModuleTemplate/BswInterfaces.py *)
  ("BswEntryRelationshipSet", [ (* line 664 *)
    ("addBswEntryRelationship", [AIfSome [AAppend "bswEntryRelationships"]; AReturnSelf])]);
  (* models/M2/AUTOSARTemplates/BswModuleTemplate/BswBehavior/__init__.py *)
  ("BswModuleCallPoint", [ (* line 36 *)
    ("addContextLimitationRef", [AAppend "contextLimitationRefs"; AReturnSelf])]);
  ("BswVariableAccess", [ (* line 312 *)
    ("addContextLimitationRef", [AAppend "contextLimitationRefs"; AReturnSelf])]);
  ("BswModuleEntity", [ (* line 408 *)
    ("addAccessedModeGroupRef", [AIfSome [AAppend "accessedModeGroupRefs"]; AReturnSelf]);
    ("addActivationPointRef", [AIfSome [AAppend "activationPointRefs"]; AReturnSelf]);
    ("addIssuedTriggerRef", [AIfSome [AAppend "issuedTriggerRefs"]; AReturnSelf]);
    ("addManagedModeGroupRef", [AIfSome [AAppend "managedModeGroupRefs"]; AReturnSelf])]);
  ("BswEvent", [ (* line 853 *)
    ("addContextLimitationRef", [AIfSome [AAppend "contextLimitationRefs"]; AReturnSelf]);
    ("addDisabledInModeIRef", [AIfSome [AAppend "disabledInModeIRefs"]; AReturnSelf])]);
  ("BswModeSwitchEvent", [ (* line 1087 *)
    ("addModeIRef", [AIfSome [AAppend "modeIRefs"]; AReturnSelf])]);
  ("BswServiceDependency", [ (* line 2187 *)
    ("addAssignedData", [AIfSome [AAppend "assignedData"]; AReturnSelf]);
    ("addAssignedEntryRole", [AIfSome [AAppend "assignedEntryRole"]; AReturnSelf])]);
  ("BswInternalBehavior", [ (* line 2334 *)
    ("addReceptionPolicy", [AIfSome [AAppend "receptionPolicies"]; AReturnSelf]);
    ("addServiceDependency", [AAppend "serviceDependencies"; AReturnSelf]);
    ("addModeSenderPolicy", [AAppend "modeSenderPolicies"]);
    ("addIncludedModeDeclarationGroupSet", [AAppend "includedModeDeclarationGroupSets"]);
    ("addIncludedDataTypeSet", [AAppend "includedDataTypeSets"])]);
  (* models/M2/AUTOSARTemplates/BswModuleTemplate/BswOverview/__init__.py *)
  ("BswModuleDescription", [ (* line 19 *)
    ("addBswModuleDependency", [AIfSome [AAppend "bswModuleDependencies"]; AReturnSelf]);
    ("addExpectedEntryRef", [AIfSome [AAppend "expectedEntryRefs"]; AReturnSelf]);
    ("addImplementedEntryRef", [AIfSome [AAppend "implementedEntryRefs"]; AReturnSelf])]);
  (* models/M2/AUTOSARTemplates/CommonStructure/FlatMap.py *)
  ("AliasNameSet", [ (* line 354 *)
    ("addAliasName", [AIfSome [AAppend "aliasNames"]; AReturnSelf])]);
  (* models/M2/AUTOSARTemplates/CommonStructure/Implementation.py *)
  ("Code", [ (* line 142 *)
    ("addArtifactDescriptor", [AIfSome [AAppend "artifactDescriptors"]; AReturnSelf]);
    ("addCallbackHeaderRef", [AIfSome [AAppend "callbackHeaderRefs"]; AReturnSelf])]);
  ("DependencyOnArtifact", [ (* line 370 *)
    ("addUsage", [AIfSome [AAppend "usages"]; AReturnSelf])]);
  ("Implementation", [ (* line 585 *)
    ("addHwElementRef", [AIfSome [AAppend "hwElementRefs"]; AReturnSelf])]);
  (* models/M2/AUTOSARTemplates/CommonStructure/InternalBehavior.py *)
  ("ExecutableEntity", [ (* line 73 *)
    ("addActivationReason", [AIfSome [AAppend "activationReasons"]; AReturnSelf]);
    ("addCanEnterRef", [AIfSome [AAppend "canEnterRefs"]; AReturnSelf]);
    ("addExclusiveAreaNestingOrderRef", [AIfSome [AAppend "exclusiveAreaNestingOrderRefs"]; AReturnSelf]);
    ("addRunsInsideRef", [AIfSome [AAppend "runsInsideRefs"]; AReturnSelf])]);
  ("InternalBehavior", [ (* line 324 *)
    ("addDataTypeMappingRef", [AAppend "dataTypeMappingRefs"])]);
  ("ExclusiveAreaNestingOrder", [ (* line 556 *)
    ("addExclusiveAreaRef", [AIfSome [AAppend "exclusiveAreaRefs"]; AReturnSelf])]);
  (* models/M2/AUTOSARTemplates/CommonStructure/McGroups.py *)
  ("McGroup", [ (* line 14 *)
    ("addMcFunctionRef", [AIfSome [AAppend "mcFunctionRefs"]; AReturnSelf]);
    ("addSubGroupRef", [AIfSome [AAppend "subGroupRefs"]; AReturnSelf])]);
  ("McGroupDataRefSet", [ (* line 151 *)
    ("addFlatMapEntryRef", [AIfSome [AAppend "flatMapEntryRefs"]; AReturnSelf]);
    ("addMcDataInstanceRef", [AIfSome [AAppend "mcDataInstanceRefs"]; AReturnSelf])]);
  (* models/M2/AUTOSARTemplates/CommonStructure/ServiceNeeds.py *)
  ("ServiceDependency", [ (* line 606 *)
    ("addAssignedDataType", [AIfSome [AAppend "assignedDataTypes"]; AReturnSelf])]);
  ("DiagnosticCapabilityElement", [ (* line 773 *)
    ("addAudience", [AAppend "audiences"; AReturnSelf])]);
  ("DiagnosticEventNeeds", [ (* line 1690 *)
    ("addDeferringFidRef", [AIfSome [AAppend "deferringFidRefs"]; AReturnSelf]);
    ("addInhibitingSecondaryFidRef", [AIfSome [AAppend "inhibitingSecondaryFidRefs"]; AReturnSelf])]);
  ("SupervisedEntityNeeds", [ (* line 4144 *)
    ("addCheckpointsRef", [AIfSome [AAppend "checkpointsRefs"]; AReturnSelf])]);
  (* models/M2/AUTOSARTemplates/CommonStructure/SignalServiceTranslation.py *)
  ("SignalServiceTranslationProps", [ (* line 221 *)
    ("addControlConsumedEventGroupRef", [AIfSome [AAppend "controlConsumedEventGroupRefs"]; AReturnSelf]);
    ("addControlPncRef", [AIfSome [AAppend "controlPncRefs"]; AReturnSelf]);
    ("addControlProvidedEventGroupRef", [AIfSome [AAppend "controlProvidedEventGroupRefs"]; AReturnSelf])]);
  (* models/M2/AUTOSARTemplates/CommonStructure/SwcBswMapping.py *)
  ("SwcBswMapping", [ (* line 93 *)
    ("addRunnableMapping", [AAppend "runnableMappings"; AReturnSelf]);
    ("addSynchronizedModeGroup", [AIfSome [AAppend "synchronizedModeGroups"]; AReturnSelf]);
    ("addSynchronizedTrigger", [AIfSome [AAppend "synchronizedTriggers"]; AReturnSelf])]);
  (* models/M2/AUTOSARTemplates/CommonStructure/Constants/__init__.py *)
  ("RecordValueSpecification", [ (* line 222 *)
    ("addField", [AAppend "fields"])]);
  ("ArrayValueSpecification", [ (* line 351 *)
    ("addElement", [AAppend "element"])]);
  ("ApplicationRuleBasedValueSpecification", [ (* line 509 *)
    ("addSwAxisCont", [AIfSome [AAppend "swAxisConts"]; AReturnSelf])]);
  ("CompositeRuleBasedValueSpecification", [ (* line 633 *)
    ("addArgument", [AIfSome [AAppend "arguments"]; AReturnSelf]);
    ("addCompoundPrimitiveArgument", [AIfSome [AAppend "compoundPrimitiveArguments"]; AReturnSelf])]);
  ("ConstantSpecificationMappingSet", [ (* line 759 *)
    ("addMapping", [AAppend "mappings"])]);
  ("RuleBasedValueSpecification", [ (* line 1229 *)
    ("addArgument", [AIfSome [AAppend "arguments"]; AReturnSelf])]);
  (* models/M2/AUTOSARTemplates/CommonStructure/MeasurementCalibrationSupport/__init__.py *)
  ("McDataAccessDetails", [ (* line 288 *)
    ("addRteEventIRef", [AIfSome [AAppend "rteEventIRefs"]; AReturnSelf]);
    ("addVariableAccessIRef", [AIfSome [AAppend "variableAccessIRefs"]; AReturnSelf])]);
  ("McSwEmulationMethodSupport", [ (* line 470 *)
    ("addElementGroup", [AIfSome [AAppend "elementGroups"]; AReturnSelf])]);
  ("McFunction", [ (* line 711 *)
    ("addSubFunctionRef", [AIfSome [AAppend "subFunctionRefs"]; AReturnSelf])]);
  ("RoleBasedMcDataAssignment", [ (* line 906 *)
    ("addExecutionContextRef", [AIfSome [AAppend "executionContextRefs"]; AReturnSelf]);
    ("addMcDataInstanceRef", [AIfSome [AAppend "mcDataInstanceRefs"]; AReturnSelf])]);
  ("McDataInstance", [ (* line 1010 *)
    ("addMcDataAssignment", [AIfSome [AAppend "mcDataAssignments"]; AReturnSelf])]);
  ("McSupportData", [ (* line 1382 *)
    ("addEmulationSupport", [AIfSome [AAppend "emulationSupports"]; AReturnSelf]);
    ("addMeasurableSystemConstantValuesRef", [AIfSome [AAppend "measurableSystemConstantValuesRefs"]; AReturnSelf])]);
  (* models/M2/AUTOSARTemplates/CommonStructure/MeasurementCalibrationSupport/RptSupport/__init__.py *)
  ("McFunctionDataRefSet", [ (* line 342 *)
    ("addFlatMapEntryRef", [AIfSome [AAppend "flatMapEntryRefs"]; AReturnSelf]);
    ("addMcDataInstanceRef", [AIfSome [AAppend "mcDataInstanceRefs"]; AReturnSelf])]);
  ("RptExecutableEntityEvent", [ (* line 417 *)
    ("addExecutionContextRef", [AIfSome [AAppend "executionContextRefs"]; AReturnSelf]);
    ("addMcDataAssignment", [AIfSome [AAppend "mcDataAssignments"]; AReturnSelf]);
    ("addRptServicePointPostRef", [AIfSome [AAppend "rptServicePointPostRefs"]; AReturnSelf]);
    ("addRptServicePointPreRef", [AIfSome [AAppend "rptServicePointPreRefs"]; AReturnSelf])]);
  ("RptExecutableEntity", [ (* line 641 *)
    ("addRptRead", [AIfSome [AAppend "rptReads"]; AReturnSelf]);
    ("addRptWrite", [AIfSome [AAppend "rptWrites"]; AReturnSelf])]);
  ("RptComponent", [ (* line 781 *)
    ("addMcDataAssignment", [AIfSome [AAppend "mcDataAssignments"]; AReturnSelf])]);
  (* models/M2/AUTOSARTemplates/CommonStructure/ResourceConsumption/MemorySectionUsage.py *)
  ("MemorySection", [ (* line 13 *)
    ("addExecutableEntityRef", [AIfSome [AAppend "executableEntityRefs"]; AReturnSelf]);
    ("addOption", [AIfSome [AAppend "options"]; AReturnSelf])]);
  (* models/M2/AUTOSARTemplates/CommonStructure/ResourceConsumption/__init__.py *)
  ("ResourceConsumption", [ (* line 218 *)
    ("addAccessCountSet", [AIfSome [AAppend "accessCountSets"]; AReturnSelf])]);
  (* models/M2/AUTOSARTemplates/CommonStructure/ResourceConsumption/ExecutionTime/__init__.py *)
  ("ExecutionTime", [ (* line 19 *)
    ("addIncludedLibraryRef", [AIfSome [AAppend "includedLibraryRefs"]; AReturnSelf]);
    ("addMemorySectionLocation", [AIfSome [AAppend "memorySectionLocations"]; AReturnSelf])]);
  (* models/M2/AUTOSARTemplates/CommonStructure/StandardizationTemplate/Keyword.py *)
  ("Keyword", [ (* line 14 *)
    ("addClassification", [AIfSome [AAppend "classifications"]; AReturnSelf])]);
  (* models/M2/AUTOSARTemplates/CommonStructure/StandardizationTemplate/AbstractBlueprintStructure/AtpBlueprint.py *)
  ("AtpBlueprint", [ (* line 13 *)
    ("addBlueprintPolicy", [AIfSome [AAppend "blueprintPolicys"]; AReturnSelf])]);
  (* models/M2/AUTOSARTemplates/CommonStructure/StandardizationTemplate/BlueprintMapping/BlueprintMappingSet.py *)
  ("BlueprintMappingSet", [ (* line 5 *)
    ("addMapping", [AAppend "mappings"; AReturnSelf])]);
  (* models/M2/AUTOSARTemplates/CommonStructure/Timing/TimingCondition/TimingCondition.py *)
  ("TimingCondition", [ (* line 5 *)
    ("addModeInstance", [AAppend "modeInstances"; AReturnSelf])]);
  (* models/M2/AUTOSARTemplates/CommonStructure/Timing/TimingConstraint/ExecutionOrderConstraint.py *)
  ("EOCExecutableEntityRef", [ (* line 38 *)
    ("addSuccessorRef", [AAppend "successor_refs"])]);
  ("EOCExecutableEntityRefGroup", [ (* line 157 *)
    ("addEntityRef", [AAppend "entityRefs"; AReturnSelf])]);
  (* models/M2/AUTOSARTemplates/DiagnosticExtract/DiagnosticContribution.py *)
  ("DiagnosticServiceTable", [ (* line 18 *)
    ("addDiagnosticConnectionRef", [AIfSome [AAppend "diagnosticConnectionRefs"]; AReturnSelf]);
    ("addDiagnosticServiceInstanceRef", [AIfSome [AAppend "diagnosticServiceInstanceRefs"]; AReturnSelf])]);
  (* models/M2/AUTOSARTemplates/EcuResourceTemplate/HwElementCategory.py *)
  ("HwAttributeDef", [ (* line 45 *)
    ("addHwAttributeLiteral", [AIfNew "hwAttributeLiterals" [AAppend "hwAttributeLiterals"]; AReturnSelf])]);
  (* models/M2/AUTOSARTemplates/EcuResourceTemplate/__init__.py *)
  ("HwDescriptionEntity", [ (* line 17 *)
    ("addHwAttributeValue", [AIfSome [AAppend "hwAttributeValues"]; AReturnSelf]);
    ("addHwCategoryRef", [AIfSome [AAppend "hwCategoryRefs"]; AReturnSelf])]);
  ("HwPin", [ (* line 114 *)
    ("addFunctionName", [AIfNew "functionNames" [AAppend "functionNames"]; AReturnSelf])]);
  ("HwPinConnector", [ (* line 318 *)
    ("addHwPinRef", [AIfSome [AAppend "hwPinRefs"]; AReturnSelf])]);
  ("HwPinGroupConnector", [ (* line 362 *)
    ("addHwPinConnection", [AIfSome [AAppend "hwPinConnections"]; AReturnSelf]);
    ("addHwPinGroupRef", [AIfSome [AAppend "hwPinGroupRefs"]; AReturnSelf])]);
  ("HwElementConnector", [ (* line 433 *)
    ("addHwElementRef", [AIfSome [AAppend "hwElementRefs"]; AReturnSelf]);
    ("addHwPinConnection", [AIfSome [AAppend "hwPinConnections"]; AReturnSelf]);
    ("addHwPinGroupConnection", [AIfSome [AAppend "hwPinGroupConnections"]; AReturnSelf])]);
  ("HwElement", [ (* line 531 *)
    ("addHwElementConnection", [AIfSome [AAppend "hwElementConnections"]; AReturnSelf]);
    ("addNestedElementRef", [AIfSome [AAppend "nestedElementRefs"]; AReturnSelf])]);
  (* models/M2/AUTOSARTemplates/GenericStructure/AbstractStructure.py *)
  ("AtpInstanceRef", [ (* line 13 *)
    ("addAtpContextElementRef", [AAppend "atpContextElementRefs"; AReturnSelf])]);
  (* models/M2/AUTOSARTemplates/GenericStructure/LifeCycles.py *)
  ("LifeCycleInfo", [ (* line 110 *)
    ("addUseInsteadRef", [AIfSome [AAppend "useInsteadRefs"]; AReturnSelf])]);
  ("LifeCycleInfoSet", [ (* line 286 *)
    ("addLifeCycleInfo", [AIfSome [AAppend "lifeCycleInfos"]; AReturnSelf])]);
  (* models/M2/AUTOSARTemplates/GenericStructure/DocumentationOnM1/__init__.py *)
  ("Documentation", [ (* line 12 *)
    ("addContext", [AIfSome [AAppend "contexts"]; AReturnSelf])]);
  (* models/M2/AUTOSARTemplates/GenericStructure/GeneralTemplateClasses/ARPackage.py *)
  ("ReferenceBase", [ (* line 98 *)
    ("addGlobalElement", [AAppend "globalElements"; AReturnSelf]);
    ("addGlobalInPackageRef", [AAppend "globalInPackageRefs"; AReturnSelf])]);
  ("ARPackage", [ (* line 299 *)
    ("addAnnotation", [AAppend "annotations"; AReturnSelf]);
    ("addReferenceBase", [AAppend "referenceBases"; AReturnSelf])]);
  (* models/M2/AUTOSARTemplates/GenericStructure/GeneralTemplateClasses/AnyInstanceRef.py *)
  ("AnyInstanceRef", [ (* line 11 *)
    ("addContextElementRef", [AAppend "contextElementRefs"; AReturnSelf])]);
  (* models/M2/AUTOSARTemplates/GenericStructure/GeneralTemplateClasses/ElementCollection.py *)
  ("Collection", [ (* line 14 *)
    ("addElementRef", [AIfSome [AAppend "elementRefs"]; AReturnSelf]);
    ("addSourceElementRef", [AIfSome [AAppend "sourceElementRefs"]; AReturnSelf])]);
  (* models/M2/AUTOSARTemplates/GenericStructure/GeneralTemplateClasses/EngineeringObject.py *)
  ("EngineeringObject", [ (* line 12 *)
    ("addRevisionLabel", [AIfSome [AAppend "revisionLabels"]; AReturnSelf])]);
  (* models/M2/AUTOSARTemplates/GenericStructure/GeneralTemplateClasses/Identifiable.py *)
  ("Referrable", [ (* line 21 *)
    ("addShortNameFragment", [AIfSome [AAppend "shortNameFragments"]; AReturnSelf])]);
  ("CollectableElement", [ (* line 229 *)
    ("addElement", [AOther; AOther])]);
  ("Identifiable", [ (* line 345 *)
    ("addElement", [AOther; AOther]);
    ("addAnnotation", [AAppend "annotations"; AReturnSelf])]);
  (* models/M2/AUTOSARTemplates/GenericStructure/VariantHandling/__init__.py *)
  ("PostBuildVariantCriterionValue", [ (* line 65 *)
    ("addAnnotation", [AIfSome [AAppend "annotations"]; AReturnSelf])]);
  ("PredefinedVariant", [ (* line 153 *)
    ("addIncludedVariantRef", [AIfSome [AAppend "includedVariantRefs"]; AReturnSelf]);
    ("addPostBuildVariantCriterionValueSetRef", [AIfSome [AAppend "postBuildVariantCriterionValueSetRefs"]; AReturnSelf]);
    ("addSwSystemconstantValueSetRef", [AIfSome [AAppend "swSystemconstantValueSetRefs"]; AReturnSelf])]);
  ("SwSystemconstValue", [ (* line 209 *)
    ("addAnnotation", [AIfSome [AAppend "annotations"]; AReturnSelf])]);
  ("SwSystemconstantValueSet", [ (* line 275 *)
    ("addSwSystemconstantValue", [AIfSome [AAppend "swSystemconstantValues"]; AReturnSelf])]);
  ("VariationPoint", [ (* line 434 *)
    ("addPostBuildVariantCondition", [AIfSome [AAppend "postBuildVariantConditions"]; AReturnSelf])]);
  (* models/M2/AUTOSARTemplates/SWComponentTemplate/Communication.py *)
  ("SenderComSpec", [ (* line 379 *)
    ("addCompositeNetworkRepresentation", [AIfSome [AAppend "compositeNetworkRepresentations"]; AReturnSelf])]);
  ("ClientComSpec", [ (* line 605 *)
    ("addTransformationComSpecProps", [AIfSome [AAppend "transformationComSpecProps"]; AReturnSelf])]);
  ("ReceiverComSpec", [ (* line 905 *)
    ("addCompositeNetworkRepresentation", [AIfSome [AAppend "compositeNetworkRepresentations"]; AReturnSelf]);
    ("addTransformationComSpecProps", [AIfSome [AAppend "transformationComSpecProps"]; AReturnSelf])]);
  ("ServerComSpec", [ (* line 1405 *)
    ("addTransformationComSpecProps", [AIfSome [AAppend "transformationComSpecProps"]; AReturnSelf])]);
  (* models/M2/AUTOSARTemplates/SWComponentTemplate/EndToEndProtection.py *)
  ("EndToEndDescription", [ (* line 15 *)
    ("addDataId", [AAppend "dataIds"; AReturnSelf])]);
  ("EndToEndProtectionVariablePrototype", [ (* line 280 *)
    ("addReceiverIref", [AAppend "_receiverIRefs"])]);
  ("EndToEndProtection", [ (* line 407 *)
    ("addEndToEndProtectionISignalIPdu", [AIfSome [AAppend "endToEndProtectionISignalIPdus"]; AReturnSelf]);
    ("addEndToEndProtectionVariablePrototype", [AIfSome [AAppend "endToEndProtectionVariablePrototypes"]; AReturnSelf])]);
  (* models/M2/AUTOSARTemplates/SWComponentTemplate/NvBlockComponent.py *)
  ("BulkNvDataDescriptor", [ (* line 225 *)
    ("addNvBlockDataMapping", [AIfSome [AIfNew "nvBlockDataMappings" [AAppend "nvBlockDataMappings"]]; AReturnSelf])]);
  ("NvBlockDescriptor", [ (* line 305 *)
    ("addClientServerPort", [AIfSome [AIfNew "clientServerPorts" [AAppend "clientServerPorts"]]; AReturnSelf]);
    ("addConstantValueMappingRef", [AIfSome [AIfNew "constantValueMappingRefs" [AAppend "constantValueMappingRefs"]]; AReturnSelf]);
    ("addDataTypeMappingRef", [AIfSome [AIfNew "dataTypeMappingRefs" [AAppend "dataTypeMappingRefs"]]; AReturnSelf]);
    ("addInstantiationDataDefProps", [AIfSome [AIfNew "instantiationDataDefPropss" [AAppend "instantiationDataDefPropss"]]; AReturnSelf]);
    ("addModeSwitchEventTriggeredActivity", [AIfSome [AIfNew "modeSwitchEventTriggeredActivitys" [AAppend "modeSwitchEventTriggeredActivitys"]]; AReturnSelf]);
    ("addNvBlockDataMapping", [AIfSome [AIfNew "nvBlockDataMappings" [AAppend "nvBlockDataMappings"]]; AReturnSelf]);
    ("addWritingStrategy", [AIfSome [AIfNew "writingStrategies" [AAppend "writingStrategies"]]; AReturnSelf])]);
  (* models/M2/AUTOSARTemplates/SWComponentTemplate/SwComponentType.py *)
  ("SwComponentType", [ (* line 30 *)
    ("addSwcMappingConstraintRef", [AIfSome [AAppend "swcMappingConstraintsRefs"]; AReturnSelf]);
    ("addUnitGroupRef", [AIfSome [AAppend "unitGroupRefs"]; AReturnSelf])]);
  (* models/M2/AUTOSARTemplates/SWComponentTemplate/SwcImplementation.py *)
  ("SwcImplementation", [ (* line 11 *)
    ("addPerInstanceMemorySize", [AAppend "perInstanceMemorySizes"; AReturnSelf])]);
  (* models/M2/AUTOSARTemplates/SWComponentTemplate/Components/InstanceRefs.py *)
  ("InnerPortGroupInCompositionInstanceRef", [ (* line 433 *)
    ("addContextRefs", [AAppend "contextRefs"; AReturnSelf])]);
  (* models/M2/AUTOSARTemplates/SWComponentTemplate/Components/__init__.py *)
  ("PortPrototype", [ (* line 49 *)
    ("addClientServerAnnotation", [AIfSome [AAppend "clientServerAnnotations"]; AReturnSelf]);
    ("addIoHwAbstractionServerAnnotation", [AIfSome [AAppend "ioHwAbstractionServerAnnotations"]; AReturnSelf]);
    ("addModePortAnnotation", [AIfSome [AAppend "modePortAnnotations"]; AReturnSelf]);
    ("addNvDataPortAnnotation", [AIfSome [AAppend "nvDataPortAnnotations"]; AReturnSelf]);
    ("addParameterPortAnnotation", [AIfSome [AAppend "parameterPortAnnotations"]; AReturnSelf]);
    ("addSenderReceiverAnnotation", [AIfSome [AAppend "senderReceiverAnnotations"]; AReturnSelf]);
    ("addTriggerPortAnnotation", [AIfSome [AAppend "triggerPortAnnotations"]; AReturnSelf])]);
  ("AbstractProvidedPortPrototype", [ (* line 297 *)
    ("addProvidedComSpec", [AOther; AAppend "providedComSpecs"])]);
  ("AbstractRequiredPortPrototype", [ (* line 342 *)
    ("addRequiredComSpec", [AOther; AAppend "requiredComSpecs"])]);
  ("PRPortPrototype", [ (* line 440 *)
    ("addProvidedComSpec", [AAppend "providedComSpecs"; AReturnSelf]);
    ("addRequiredComSpec", [AAppend "requiredComSpecs"; AReturnSelf])]);
  ("PortGroup", [ (* line 479 *)
    ("addInnerGroupIRef", [AAppend "_inner_group_iref"]);
    ("addOuterPortRef", [AAppend "_outer_port_ref"])]);
  ("EcuAbstractionSwComponentType", [ (* line 587 *)
    ("addHardwareElementRef", [AIfSome [AAppend "hardwareElementRefs"]; AReturnSelf])]);
  ("ComplexDeviceDriverSwComponentType", [ (* line 646 *)
    ("addHardwareElementRef", [AIfSome [AAppend "hardwareElementRefs"]; AReturnSelf])]);
  (* models/M2/AUTOSARTemplates/SWComponentTemplate/Composition/InstanceRefs.py *)
  ("InstanceEventInCompositionInstanceRef", [ (* line 244 *)
    ("addContextComponentPrototypeRef", [AIfSome [AAppend "contextComponentPrototypeRefs"]; AReturnSelf])]);
  (* models/M2/AUTOSARTemplates/SWComponentTemplate/Composition/__init__.py *)
  ("CompositionSwComponentType", [ (* line 335 *)
    ("addConstantValueMappingRef", [AIfSome [AAppend "constantValueMappingRefs"]; AReturnSelf]);
    ("addDataTypeMappingRef", [AIfSome [AAppend "dataTypeMappingRefs"]; AReturnSelf]);
    ("addInstantiationRTEEventProps", [AIfSome [AAppend "instantiationRTEEventProps"]; AReturnSelf])]);
  (* models/M2/AUTOSARTemplates/SWComponentTemplate/Datatype/Datatypes.py *)
  ("DataTypeMappingSet", [ (* line 252 *)
    ("addDataTypeMap", [AAppend "dataTypeMaps"; AReturnSelf]);
    ("addModeRequestTypeMap", [AAppend "modeRequestTypeMaps"; AReturnSelf])]);
  (* models/M2/AUTOSARTemplates/SWComponentTemplate/ImplicitCommunicationBehavior/InstanceRefs.py *)
  ("InnerDataPrototypeGroupInCompositionInstanceRef", [ (* line 15 *)
    ("addContextSwComponentPrototypeRef", [AAppend "contextSwComponentPrototypeRefs"; AReturnSelf])]);
  ("InnerRunnableEntityGroupInCompositionInstanceRef", [ (* line 121 *)
    ("addContextSwComponentPrototypeRef", [AAppend "contextSwComponentPrototypeRefs"; AReturnSelf])]);
  ("RunnableEntityInCompositionInstanceRef", [ (* line 227 *)
    ("addContextSwComponentPrototypeRef", [AAppend "contextSwComponentPrototypeRefs"; AReturnSelf])]);
  ("VariableDataPrototypeInCompositionInstanceRef", [ (* line 333 *)
    ("addContextSwComponentPrototypeRef", [AAppend "contextSwComponentPrototypeRefs"; AReturnSelf])]);
  (* models/M2/AUTOSARTemplates/SWComponentTemplate/ImplicitCommunicationBehavior/__init__.py *)
  ("DataPrototypeGroup", [ (* line 20 *)
    ("addDataPrototypeGroupIRef", [AIfSome [AAppend "dataPrototypeGroupIRefs"]; AReturnSelf]);
    ("addImplicitDataAccessIRef", [AIfSome [AAppend "implicitDataAccessIRefs"]; AReturnSelf])]);
  ("RunnableEntityGroup", [ (* line 106 *)
    ("addRunnableEntityIRef", [AIfSome [AAppend "runnableEntityIRefs"]; AReturnSelf]);
    ("addRunnableEntityGroupIRef", [AIfSome [AAppend "runnableEntityGroupIRefs"]; AReturnSelf])]);
  (* models/M2/AUTOSARTemplates/SWComponentTemplate/PortInterface/__init__.py *)
  ("MetaDataItemSet", [ (* line 263 *)
    ("addDataElementRef", [AAppend "dataElementRefs"; AReturnSelf]);
    ("addMetaDataItem", [AAppend "metaDataItems"; AReturnSelf])]);
  ("SenderReceiverInterface", [ (* line 292 *)
    ("addInvalidationPolicy", [AAppend "invalidationPolicies"; AReturnSelf]);
    ("addMetaDataItemSet", [AAppend "metaDataItemSets"; AReturnSelf])]);
  ("ClientServerOperation", [ (* line 520 *)
    ("addPossibleErrorRef", [AIfSome [AAppend "possibleErrorRefs"]; AReturnSelf])]);
  ("ClientServerOperationMapping", [ (* line 831 *)
    ("addArgumentMapping", [AAppend "argumentMappings"; AReturnSelf])]);
  ("SubElementMapping", [ (* line 880 *)
    ("addTextTableMapping", [AIfSome [AAppend "textTableMappings"]; AReturnSelf])]);
  ("DataPrototypeMapping", [ (* line 993 *)
    ("addSubElementMapping", [AIfSome [AAppend "subElementMappings"]; AReturnSelf]);
    ("addTextTableMapping", [AIfSome [AAppend "textTableMappings"]; AReturnSelf])]);
  ("ClientServerInterfaceMapping", [ (* line 1128 *)
    ("addErrorMapping", [AIfSome [AAppend "errorMappings"]; AReturnSelf]);
    ("addOperationMapping", [AIfSome [AAppend "operationMappings"]; AReturnSelf])]);
  ("VariableAndParameterInterfaceMapping", [ (* line 1159 *)
    ("addDataMapping", [AAppend "dataMappings"; AReturnSelf])]);
  ("ModeDeclarationMapping", [ (* line 1218 *)
    ("addFirstModeRef", [AIfSome [AAppend "firstModeRefs"]; AReturnSelf])]);
  ("TextTableMapping", [ (* line 1341 *)
    ("addValuePair", [AIfSome [AAppend "valuePairs"]; AReturnSelf])]);
  (* models/M2/AUTOSARTemplates/SWComponentTemplate/SwcInternalBehavior/AccessCount.py *)
  ("AccessCountSet", [ (* line 165 *)
    ("addAccessCount", [AIfSome [AAppend "accessCounts"]; AReturnSelf])]);
  (* models/M2/AUTOSARTemplates/SWComponentTemplate/SwcInternalBehavior/IncludedDataTypes.py *)
  ("IncludedDataTypeSet", [ (* line 12 *)
    ("addDataTypeRef", [AIfSome [AAppend "dataTypeRefs"]; AReturnSelf])]);
  (* models/M2/AUTOSARTemplates/SWComponentTemplate/SwcInternalBehavior/InstanceRefsUsage.py *)
  ("VariableInAtomicSWCTypeInstanceRef", [ (* line 127 *)
    ("addContextDataPrototypeRef", [AAppend "contextDataPrototypeRefs"; AReturnSelf])]);
  ("ParameterInAtomicSWCTypeInstanceRef", [ (* line 266 *)
    ("addContextDataPrototypeRef", [AIfSome [AAppend "contextDataPrototypeRefs"]; AReturnSelf])]);
  (* models/M2/AUTOSARTemplates/SWComponentTemplate/SwcInternalBehavior/ModeDeclarationGroup.py *)
  ("IncludedModeDeclarationGroupSet", [ (* line 118 *)
    ("addModeDeclarationGroupRef", [AAppend "mode_declaration_group_refs"; AReturnSelf])]);
  (* models/M2/AUTOSARTemplates/SWComponentTemplate/SwcInternalBehavior/PortAPIOptions.py *)
  ("PortAPIOption", [ (* line 75 *)
    ("addPortArgValue", [AAppend "portArgValues"; AReturnSelf]);
    ("addSupportedFeature", [AAppend "supportedFeatures"; AReturnSelf])]);
  (* models/M2/AUTOSARTemplates/SWComponentTemplate/SwcInternalBehavior/RTEEvents.py *)
  ("RTEEvent", [ (* line 18 *)
    ("addDisabledModeIRef", [AAppend "disabledModeIRefs"; AReturnSelf])]);
  ("SwcModeSwitchEvent", [ (* line 237 *)
    ("addModeIRef", [AIfSome [AAppend "modeIRefs"]; AReturnSelf])]);
  (* models/M2/AUTOSARTemplates/SWComponentTemplate/SwcInternalBehavior/ServiceMapping.py *)
  ("SwcServiceDependency", [ (* line 111 *)
    ("AddAssignedData", [AAppend "assignedData"]);
    ("AddAssignedPort", [AAppend "assignedPort"])]);
  (* models/M2/AUTOSARTemplates/SWComponentTemplate/SwcInternalBehavior/VariantHandling.py *)
  ("VariationPointProxy", [ (* line 10 *)
    ("addPostBuildVariantCondition", [AIfSome [AAppend "postBuildVariantConditions"]; AReturnSelf])]);
  (* models/M2/AUTOSARTemplates/SWComponentTemplate/SwcInternalBehavior/__init__.py *)
  ("RunnableEntity", [ (* line 104 *)
    ("addArgument", [AIfSome [AAppend "arguments"]; AReturnSelf]);
    ("addExternalTriggeringPoint", [AIfSome [AAppend "externalTriggeringPoints"]; AReturnSelf]);
    ("addModeAccessPoint", [AIfSome [AAppend "modeAccessPoints"]; AReturnSelf])]);
  ("SwcInternalBehavior", [ (* line 772 *)
    ("addPortAPIOption", [AIfSome [AAppend "portAPIOptions"]; AReturnSelf]);
    ("addIncludedDataTypeSet", [AIfSome [AAppend "includedDataTypeSets"]; AReturnSelf]);
    ("addIncludedModeDeclarationGroupSet", [AIfSome [AAppend "includedModeDeclarationGroupSets"]; AReturnSelf]);
    ("addExclusiveAreaPolicy", [AIfSome [AAppend "exclusiveAreaPolicies"]; AReturnSelf]);
    ("addInstantiationDataDefProps", [AIfSome [AAppend "instantiationDataDefProps"]; AReturnSelf]);
    ("addVariationPointProxy", [AIfSome [AAppend "variationPointProxies"]; AReturnSelf])]);
  (* models/M2/AUTOSARTemplates/SystemTemplate/DataMapping.py *)
  ("SenderRecRecordTypeMapping", [ (* line 208 *)
    ("addRecordElementMapping", [AIfSome [AAppend "recordElementMappings"]; AReturnSelf])]);
  (* models/M2/AUTOSARTemplates/SystemTemplate/DiagnosticConnection.py *)
  ("DiagnosticConnection", [ (* line 9 *)
    ("addFunctionalRequestRef", [AIfSome [AAppend "functionalRequestRefs"]; AReturnSelf]);
    ("addPeriodicResponseUudtRef", [AIfSome [AAppend "periodicResponseUudtRefs"]; AReturnSelf])]);
  (* models/M2/AUTOSARTemplates/SystemTemplate/InstanceRefs.py *)
  ("VariableDataPrototypeInSystemInstanceRef", [ (* line 9 *)
    ("addContextComponentRef", [AAppend "contextComponentRefs"; AReturnSelf])]);
  ("ComponentInSystemInstanceRef", [ (* line 73 *)
    ("addContextComponentRef", [AAppend "contextComponentRefs"; AReturnSelf])]);
  (* models/M2/AUTOSARTemplates/SystemTemplate/NetworkManagement.py *)
  ("CanNmClusterCoupling", [ (* line 30 *)
    ("addCoupledClusterRef", [AAppend "coupledClusterRefs"; AReturnSelf])]);
  ("FlexrayNmClusterCoupling", [ (* line 75 *)
    ("addCoupledClusterRef", [AAppend "coupledClusterRefs"; AReturnSelf])]);
  ("NmNode", [ (* line 135 *)
    ("addRxNmPduRef", [AAppend "rxNmPduRefs"; AReturnSelf]);
    ("addTxNmPduRef", [AAppend "txNmPduRefs"; AReturnSelf])]);
  ("NmEcu", [ (* line 802 *)
    ("addBusDependentNmEcu", [AIfSome [AAppend "busDependentNmEcus"]; AReturnSelf])]);
  ("NmConfig", [ (* line 960 *)
    ("addNmClusterCouplings", [AAppend "nmClusterCouplings"; AReturnSelf])]);
  ("UdpNmClusterCoupling", [ (* line 1366 *)
    ("addCoupledClusterRef", [AIfSome [AAppend "coupledClusterRefs"]; AReturnSelf])]);
  (* models/M2/AUTOSARTemplates/SystemTemplate/SWmapping.py *)
  ("SwcToImplMapping", [ (* line 10 *)
    ("addComponentIRef", [AIfSome [AAppend "componentIRefs"]; AReturnSelf])]);
  ("ApplicationPartitionToEcuPartitionMapping", [ (* line 47 *)
    ("addApplicationPartitionRef", [AIfSome [AAppend "applicationPartitionRefs"]; AReturnSelf])]);
  (* models/M2/AUTOSARTemplates/SystemTemplate/SecureCommunication.py *)
  ("TlsCryptoServiceMapping", [ (* line 74 *)
    ("addTlsCipherSuite", [AIfSome [AAppend "tlsCipherSuites"]; AReturnSelf])]);
  (* models/M2/AUTOSARTemplates/SystemTemplate/TransportProtocols.py *)
  ("CanTpConnection", [ (* line 159 *)
    ("addReceiverRef", [AIfSome [AAppend "receiverRefs"]; AReturnSelf])]);
  ("CanTpConfig", [ (* line 468 *)
    ("addTpConnection", [AIfSome [AAppend "tpConnections"]; AReturnSelf]);
    ("addTpEcu", [AIfSome [AAppend "tpEcus"]; AReturnSelf])]);
  ("DoIpTpConfig", [ (* line 629 *)
    ("addTpConnection", [AIfSome [AAppend "tpConnections"]; AReturnSelf])]);
  ("LinTpConnection", [ (* line 693 *)
    ("addReceiverRef", [AIfSome [AAppend "receiverRefs"]; AReturnSelf])]);
  ("LinTpConfig", [ (* line 888 *)
    ("addTpConnection", [AIfSome [AAppend "tpConnections"]; AReturnSelf])]);
  (* models/M2/AUTOSARTemplates/SystemTemplate/__init__.py *)
  ("SwcToEcuMapping", [ (* line 23 *)
    ("addComponentIRef", [AAppend "componentIRefs"; AReturnSelf])]);
  ("ComManagementMapping", [ (* line 78 *)
    ("addComManagementGroupRef", [AIfSome [AAppend "comManagementGroupRefs"]; AReturnSelf]);
    ("addComManagementPortGroupRef", [AIfSome [AAppend "comManagementPortGroupRefs"]; AReturnSelf])]);
  ("SystemMapping", [ (* line 126 *)
    ("addApplicationPartitionToEcuPartitionMapping", [AAppend "applicationPartitionToEcuPartitionMappings"; AReturnSelf]);
    ("addAppOsTaskProxyToEcuTaskProxyMapping", [AAppend "appOsTaskProxyToEcuTaskProxyMappings"; AReturnSelf]);
    ("addComManagementMapping", [AAppend "comManagementMappings"; AReturnSelf]);
    ("addCryptoServiceMapping", [AAppend "cryptoServiceMappings"; AReturnSelf]);
    ("addDataMapping", [AAppend "dataMappings"; AReturnSelf]);
    ("addDdsISignalToTopicMapping", [AAppend "ddsISignalToTopicMappings"; AReturnSelf]);
    ("addJ1939ControllerApplicationToJ1939NmNodeMapping", [AAppend "j1939ControllerApplicationToJ1939NmNodeMappings"; AReturnSelf]);
    ("addMappingConstraint", [AAppend "mappingConstraints"; AReturnSelf]);
    ("addPncMapping", [AAppend "pncMappings"; AReturnSelf]);
    ("addPortElementToComResourceMapping", [AAppend "portElementToComResourceMappings"; AReturnSelf]);
    ("addResourceEstimation", [AAppend "resourceEstimations"; AReturnSelf]);
    ("addResourceToApplicationPartitionMapping", [AAppend "resourceToApplicationPartitionMappings"; AReturnSelf]);
    ("addRteEventSeparation", [AAppend "rteEventSeparations"; AReturnSelf]);
    ("addRteEventToOsTaskProxyMapping", [AAppend "rteEventToOsTaskProxyMappings"; AReturnSelf]);
    ("addSignalPathConstraint", [AAppend "signalPathConstraints"; AReturnSelf]);
    ("addSoftwareClusterToApplicationPartitionMapping", [AAppend "softwareClusterToApplicationPartitionMappings"; AReturnSelf]);
    ("addSoftwareClusterToResourceMapping", [AAppend "softwareClusterToResourceMappings"; AReturnSelf]);
    ("addSwClusterMapping", [AAppend "swClusterMappings"; AReturnSelf]);
    ("addSwcToApplicationPartitionMappings", [AAppend "swcToApplicationPartitionMappings"; AReturnSelf]);
    ("addSystemSignalGroupToComResourceMapping", [AAppend "systemSignalGroupToComResourceMappings"; AReturnSelf]);
    ("addSystemSignalToComResourceMapping", [AAppend "systemSignalToComResourceMappings"; AReturnSelf])]);
  ("RootSwCompositionPrototype", [ (* line 395 *)
    ("addCalibrationParameterValueSetRef", [AIfSome [AAppend "calibrationParameterValueSetRefs"]; AReturnSelf])]);
  ("J1939SharedAddressCluster", [ (* line 470 *)
    ("addParticipatingJ1939ClusterRef", [AIfSome [AAppend "participatingJ1939ClusterRefs"]; AReturnSelf])]);
  ("System", [ (* line 496 *)
    ("addClientIdDefinitionSetRefs", [AAppend "clientIdDefinitionSetRefs"; AReturnSelf]);
    ("addFibexElementRef", [AIfSome [AAppend "fibexElements"]; AReturnSelf]);
    ("addInterpolationRoutineMappingSetRefs", [AAppend "interpolationRoutineMappingSetRefs"; AReturnSelf]);
    ("addSwClusterRef", [AAppend "swClusterRefs"; AReturnSelf])]);
  (* models/M2/AUTOSARTemplates/SystemTemplate/Fibex/Fibex4Multiplatform.py *)
  ("PduMappingDefaultValue", [ (* line 133 *)
    ("addDefaultValueElements", [AIfSome [AAssign "defaultValueElements"]; AReturnSelf])]);
  ("Gateway", [ (* line 251 *)
    ("addFrameMapping", [AAppend "frameMappings"; AReturnSelf]);
    ("addIPduMapping", [AAppend "iPduMappings"; AReturnSelf]);
    ("addSignalMapping", [AAppend "signalMappings"; AReturnSelf])]);
  (* models/M2/AUTOSARTemplates/SystemTemplate/Fibex/Fibex4Ethernet/EthernetCommunication.py *)
  ("SocketConnection", [ (* line 11 *)
    ("addPdu", [AAppend "pdus"; AReturnSelf]);
    ("addPduSocketConnectionIpdu", [AAppend "pduSocketConnectionIpdus"; AReturnSelf])]);
  ("SocketConnectionBundle", [ (* line 231 *)
    ("addBundledConnection", [AAppend "bundledConnections"; AReturnSelf])]);
  (* models/M2/AUTOSARTemplates/SystemTemplate/Fibex/Fibex4Ethernet/EthernetTopology.py *)
  ("EthernetCluster", [ (* line 35 *)
    ("addCouplingPort", [AIfSome [AAppend "couplingPorts"]; AReturnSelf])]);
  ("CouplingPortFifo", [ (* line 113 *)
    ("addAssignedTrafficClass", [AIfSome [AAppend "assignedTrafficClasses"]; AReturnSelf])]);
  ("CouplingPortScheduler", [ (* line 172 *)
    ("addPredecessorRef", [AIfSome [AAppend "predecessorRefs"]; AReturnSelf])]);
  ("CouplingPort", [ (* line 431 *)
    ("addVlanMembership", [AIfSome [AAppend "vlanMemberships"]; AReturnSelf])]);
  ("EthernetCommunicationConnector", [ (* line 698 *)
    ("addNetworkEndpointRef", [AIfSome [AAppend "networkEndpointRefs"]; AReturnSelf])]);
  (* models/M2/AUTOSARTemplates/SystemTemplate/Fibex/Fibex4Ethernet/NetworkEndpoint.py *)
  ("Ipv4Configuration", [ (* line 28 *)
    ("addDnsServerAddress", [AAppend "dnsServerAddresses"; AReturnSelf])]);
  ("TimeSyncClientConfiguration", [ (* line 254 *)
    ("addOrderedMaster", [AIfSome [AAppend "orderedMasters"]; AReturnSelf])]);
  ("NetworkEndpoint", [ (* line 422 *)
    ("addNetworkEndpointAddress", [AAppend "networkEndpointAddresses"; AReturnSelf])]);
  (* models/M2/AUTOSARTemplates/SystemTemplate/Fibex/Fibex4Ethernet/ServiceInstances.py *)
  ("AbstractServiceInstance", [ (* line 238 *)
    ("addCapabilityRecord", [AIfSome [AAppend "capabilityRecords"]; AReturnSelf]);
    ("addRoutingGroupRef", [AIfSome [AAppend "routingGroupRefs"]; AReturnSelf])]);
  ("ConsumedEventGroup", [ (* line 300 *)
    ("addEventMulticastAddressRef", [AIfSome [AAppend "eventMulticastAddressRefs"]; AReturnSelf]);
    ("addRoutingGroupRef", [AIfSome [AAppend "routingGroupRefs"]; AReturnSelf])]);
  ("EventHandler", [ (* line 736 *)
    ("addConsumedEventGroupRef", [AIfSome [AAppend "consumedEventGroupRefs"]; AReturnSelf]);
    ("addRoutingGroupRef", [AIfSome [AAppend "routingGroupRefs"]; AReturnSelf])]);
  ("ProvidedServiceInstance", [ (* line 806 *)
    ("addAllowedServiceConsumerRef", [AIfSome [AAppend "allowedServiceConsumerRefs"]; AReturnSelf]);
    ("addLocalUnicastAddressRef", [AIfSome [AAppend "localUnicastAddressRefs"]; AReturnSelf]);
    ("addRemoteMulticastSubscriptionAddressRef", [AIfSome [AAppend "remoteMulticastSubscriptionAddressRefs"]; AReturnSelf]);
    ("addRemoteUnicastAddressRef", [AIfSome [AAppend "remoteUnicastAddressRefs"]; AReturnSelf])]);
  ("SocketAddress", [ (* line 1216 *)
    ("addMulticastConnectorRef", [AAppend "multicastConnectorRefs"; AReturnSelf]);
    ("addStaticSocketConnection", [AAppend "staticSocketConnections"; AReturnSelf])]);
  (* models/M2/AUTOSARTemplates/SystemTemplate/Fibex/Fibex4Flexray/FlexrayCommunication.py *)
  ("FlexrayFrameTriggering", [ (* line 60 *)
    ("addAbsolutelyScheduledTiming", [AIfSome [AAppend "absolutelyScheduledTimings"]; AReturnSelf])]);
  (* models/M2/AUTOSARTemplates/SystemTemplate/Fibex/Fibex4Lin/LinCommunication.py *)
  ("LinScheduleTable", [ (* line 206 *)
    ("addTableEntry", [AIfSome [AAppend "tableEntries"]; AReturnSelf])]);
  (* models/M2/AUTOSARTemplates/SystemTemplate/Fibex/Fibex4Lin/LinTopology.py *)
  ("LinMaster", [ (* line 35 *)
    ("addLinSlaves", [AIfSome [AAppend "linSlaves"]; AReturnSelf])]);
  ("LinCommunicationConnector", [ (* line 83 *)
    ("addLinConfigurableFrame", [AIfSome [AAppend "linConfigurableFrames"]; AReturnSelf]);
    ("addLinOrderedConfigurableFrame", [AIfSome [AAppend "linOrderedConfigurableFrames"]; AReturnSelf])]);
  (* models/M2/AUTOSARTemplates/SystemTemplate/Fibex/FibexCore/CoreCommunication.py *)
  ("ISignalGroup", [ (* line 219 *)
    ("addISignalRef", [AAppend "iSignalRefs"; AReturnSelf]);
    ("addTransformationISignalProps", [AAppend "transformationISignalProps"; AReturnSelf])]);
  ("ISignalIPduGroup", [ (* line 310 *)
    ("addContainedISignalIPduGroupRef", [AAppend "containedISignalIPduGroupRefs"; AReturnSelf]);
    ("addISignalIPduRef", [AAppend "iSignalIPduRefs"; AReturnSelf]);
    ("addNmPduRef", [AAppend "nmPduRefs"; AReturnSelf])]);
  ("ISignal", [ (* line 1264 *)
    ("addTransformationISignalProps", [AIfSome [AAppend "transformationISignalProps"]; AReturnSelf])]);
  ("PduTriggering", [ (* line 1481 *)
    ("addIPduPortRef", [AAppend "iPduPortRefs"; AReturnSelf]);
    ("addISignalTriggeringRef", [AAppend "iSignalTriggeringRefs"; AReturnSelf]);
    ("addTriggerIPduSendCondition", [AAppend "triggerIPduSendConditions"; AReturnSelf])]);
  ("FrameTriggering", [ (* line 1547 *)
    ("addFramePortRef", [AAppend "framePortRefs"; AReturnSelf]);
    ("addPduTriggeringRef", [AAppend "pduTriggeringRefs"; AReturnSelf])]);
  ("SystemSignalGroup", [ (* line 1630 *)
    ("addSystemSignalRef", [AAppend "systemSignalRefs"; AReturnSelf])]);
  ("ISignalTriggering", [ (* line 1683 *)
    ("addISignalPortRef", [AAppend "iSignalPortRefs"; AReturnSelf])]);
  ("MultiplexedPart", [ (* line 1776 *)
    ("addSegmentPosition", [AIfSome [AAppend "segmentPositions"]; AReturnSelf])]);
  ("DynamicPart", [ (* line 1879 *)
    ("addDynamicPartAlternative", [AIfSome [AAppend "dynamicPartAlternatives"]; AReturnSelf])]);
  (* models/M2/AUTOSARTemplates/SystemTemplate/Fibex/FibexCore/CoreTopology.py *)
  ("PhysicalChannel", [ (* line 109 *)
    ("addCommConnectorRef", [AAppend "commConnectorRefs"; AReturnSelf]);
    ("addManagedPhysicalChannelRef", [AAppend "managedPhysicalChannelRefs"; AReturnSelf])]);
  ("CommunicationConnector", [ (* line 978 *)
    ("addPncFilterArrayMask", [AAppend "pncFilterArrayMasks"; AReturnSelf])]);
  (* models/M2/AUTOSARTemplates/SystemTemplate/Fibex/FibexCore/EcuInstance.py *)
  ("EcuInstance", [ (* line 11 *)
    ("addAssociatedComIPduGroupRef", [AAppend "associatedComIPduGroupRefs"; AReturnSelf]);
    ("addAssociatedConsumedProvidedServiceInstanceGroupRef", [AAppend "associatedConsumedProvidedServiceInstanceGroupRefs"; AReturnSelf]);
    ("addAssociatedPdurIPduGroupRef", [AAppend "associatedPdurIPduGroupRefs"; AReturnSelf]);
    ("addEcuTaskProxyRef", [AAppend "ecuTaskProxyRefs"; AReturnSelf]);
    ("addFirewallRuleRef", [AAppend "firewallRuleRefs"; AReturnSelf]);
    ("addPartition", [AAppend "partitions"; AReturnSelf])]);
  (* models/M2/AUTOSARTemplates/SystemTemplate/Fibex/FibexCore/Timing.py *)
  ("TransmissionModeDeclaration", [ (* line 203 *)
    ("addModeDrivenFalseCondition", [AAppend "modeDrivenFalseConditions"; AReturnSelf]);
    ("addModeDrivenTrueCondition", [AAppend "modeDrivenTrueConditions"; AReturnSelf]);
    ("addTransmissionModeCondition", [AAppend "transmissionModeConditions"; AReturnSelf])]);
  (* models/M2/AUTOSARTemplates/SystemTemplate/Transformer/__init__.py *)
  ("DataTransformation", [ (* line 45 *)
    ("addTransformerChainRef", [AIfSome [AAppend "transformerChainRefs"]; AReturnSelf])]);
  ("TransformationISignalProps", [ (* line 1008 *)
    ("addDataPrototypeTransformationProps", [AIfSome [AAppend "dataPrototypeTransformationProps"]; AReturnSelf])]);
  ("DataPrototypeInSenderReceiverInterfaceInstanceRef", [ (* line 1165 *)
    ("addContextDataPrototypeInSrRefs", [AIfSome [AAppend "contextDataPrototypeInSrRefs"]; AReturnSelf])]);
  ("DataPrototypeInClientServerInterfaceInstanceRef", [ (* line 1260 *)
    ("addContextDataPrototypeInCsRefs", [AIfSome [AAppend "contextDataPrototypeInCsRefs"]; AReturnSelf])]);
  ("ImplementationDataTypeElementInPortInterfaceRef", [ (* line 1355 *)
    ("addContextImplementationDataElementRefs", [AIfSome [AAppend "contextImplementationDataElementRefs"]; AReturnSelf])]);
  ("EndToEndTransformationISignalProps", [ (* line 1505 *)
    ("addDataId", [AIfSome [AAppend "dataIds"]; AReturnSelf])]);
  (* models/M2/MSR/AsamHdo/AdminData.py *)
  ("DocRevision", [ (* line 45 *)
    ("addModification", [AIfSome [AAppend "modifications"]; AReturnSelf])]);
  ("AdminData", [ (* line 137 *)
    ("addDocRevision", [AAppend "DocRevisions"; AReturnSelf]);
    ("addSdg", [AAppend "sdgs"; AReturnSelf])]);
  (* models/M2/MSR/AsamHdo/ComputationMethod.py *)
  ("CompuScales", [ (* line 406 *)
    ("addCompuScale", [AAppend "compuScales"])]);
  (* models/M2/MSR/AsamHdo/SpecialData.py *)
  ("SdgContents", [ (* line 168 *)
    ("addSd", [AIfSome [AAppend "sd"]; AReturnSelf]);
    ("addSdf", [AIfSome [AAppend "sdf"]; AReturnSelf]);
    ("addSdg", [AIfSome [AAppend "sdg"]; AReturnSelf]);
    ("addSdxRef", [AIfSome [AAppend "sdxRefs"]; AReturnSelf]);
    ("addSdxfRef", [AIfSome [AAppend "sdxfRefs"]; AReturnSelf])]);
  (* models/M2/MSR/AsamHdo/Units.py *)
  ("UnitGroup", [ (* line 270 *)
    ("addUnit", [AIfSome [AAppend "units"]; AReturnSelf])]);
  (* models/M2/MSR/AsamHdo/Constraints/GlobalConstraints.py *)
  ("InternalConstrs", [ (* line 18 *)
    ("addScaleConstr", [AIfSome [AAppend "scaleConstrs"]; AReturnSelf])]);
  ("PhysConstrs", [ (* line 294 *)
    ("addScaleConstr", [AIfSome [AAppend "scaleConstrs"]; AReturnSelf])]);
  ("DataConstr", [ (* line 459 *)
    ("addDataConstrRule", [AAppend "data_constr_rule"])]);
  (* models/M2/MSR/CalibrationData/CalibrationValue.py *)
  ("SwValues", [ (* line 7 *)
    ("addV", [AAppend "_v"])]);
  (* models/M2/MSR/DataDictionary/AuxillaryObjects.py *)
  ("SwAddrMethod", [ (* line 80 *)
    ("addOption", [AAppend "options"; AReturnSelf])]);
  (* models/M2/MSR/DataDictionary/Axis.py *)
  ("SwGenericAxisParam", [ (* line 7 *)
    ("addVf", [AIfSome [AAppend "vfs"]; AReturnSelf])]);
  ("SwAxisGeneric", [ (* line 62 *)
    ("addSwGenericAxisParam", [AIfSome [AAppend "swGenericAxisParams"]; AReturnSelf])]);
  (* models/M2/MSR/DataDictionary/CalibrationParameter.py *)
  ("SwCalprmAxisSet", [ (* line 209 *)
    ("addSwCalprmAxis", [AAppend "_swCalprmAxis"])]);
  (* models/M2/MSR/DataDictionary/DataDefProperties.py *)
  ("SwDataDefProps", [ (* line 415 *)
    ("addSwValueBlockSizeMult", [AIfSome [AAppend "swValueBlockSizeMults"]; AReturnSelf]);
    ("addAnnotation", [AIfSome [AAppend "annotations"]; AReturnSelf]);
    ("addSwComparisonVariable", [AIfSome [AAppend "swComparisonVariables"]; AReturnSelf])]);
  ("ValueList", [ (* line 1072 *)
    ("addVf", [AAppend "_vf"])]);
  (* models/M2/MSR/Documentation/Chapters.py *)
  ("ChapterOrMsrQuery", [ (* line 284 *)
    ("addChapter", [AIfSome [AAppend "chapters"]; AReturnSelf])]);
  ("TopicOrMsrQuery", [ (* line 353 *)
    ("addTopic1", [AIfSome [AAppend "topic1"]; AReturnSelf])]);
  (* models/M2/MSR/Documentation/BlockElements/Figure.py *)
  ("MlFigure", [ (* line 175 *)
    ("addLGraphics", [AIfSome [AAppend "lGraphics"]; AReturnSelf])]);
  (* models/M2/MSR/Documentation/BlockElements/Formula.py *)
  ("MlFormula", [ (* line 9 *)
    ("addLGraphic", [AIfSome [AAppend "lGraphics"]; AReturnSelf])]);
  (* models/M2/MSR/Documentation/TextModel/MsrQuery.py *)
  ("MsrQueryProps", [ (* line 77 *)
    ("addMsrQueryArg", [AIfSome [AAppend "msrQueryArgs"]; AReturnSelf])]);
  (* models/M2/MSR/Documentation/TextModel/MultilanguageData.py *)
  ("MultiLanguageParagraph", [ (* line 13 *)
    ("addL1", [AAppend "l1"; AReturnSelf])]);
  ("MultiLanguageOverviewParagraph", [ (* line 37 *)
    ("addL2", [AIfSome [AAppend "l2"]; AReturnSelf])]);
  ("MultilanguageLongName", [ (* line 72 *)
    ("addL4", [AAppend "l4"; AReturnSelf])]);
  ("MultiLanguagePlainText", [ (* line 96 *)
    ("addL10", [AIfSome [AAppend "l10s"]; AReturnSelf])]);
  ("MultiLanguageVerbatim", [ (* line 136 *)
    ("addL5", [AIfSome [AAppend "l5s"]; AReturnSelf])]);
  (* models/M2/MSR/Documentation/TextModel/BlockElements/ListElements.py *)
  ("ARList", [ (* line 55 *)
    ("addItem", [AAppend "items"; AReturnSelf])]);
  ("IndentSample", [ (* line 118 *)
    ("addL2", [AIfSome [AAppend "l2s"]; AReturnSelf])]);
  ("LabeledList", [ (* line 273 *)
    ("addLabeledItem", [AIfSome [AAppend "labeledItems"]; AReturnSelf])]);
  ("DefList", [ (* line 391 *)
    ("addDefItem", [AIfSome [AAppend "defItems"]; AReturnSelf])]);
  (* models/M2/MSR/Documentation/TextModel/BlockElements/RequirementsTracing.py *)
  ("TraceableText", [ (* line 12 *)
    ("addTraceRef", [AIfSome [AAppend "traceRefs"]; AReturnSelf])]);
  ("StructuredReq", [ (* line 77 *)
    ("addTestedItemRef", [AIfSome [AAppend "testedItemRefs"]; AReturnSelf])]);
  (* models/M2/MSR/Documentation/TextModel/BlockElements/__init__.py *)
  ("DocumentationBlock", [ (* line 22 *)
    ("addFigure", [AIfSome [AAppend "figures"]; AReturnSelf]);
    ("addList", [AIfSome [AAppend "lists"]; AReturnSelf]);
    ("addP", [AIfSome [AAppend "ps"]; AReturnSelf])]);
  (* models/utils/uuid_mgr.py *)
  ("UUIDMgr", [ (* line 4 *)
    ("addObject", [AOther; AOther; AOther; AOther])])
].
