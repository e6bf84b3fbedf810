(** Generated by tools/gen_ir.py from /repo/src/armodel/models: the attributes set by the constructors
    and the accessor methods that ARXMLParser and ARXMLWriter call, class by class (a class inherits
    the rest).  Methods in use that have no entry: AbstractAUTOSAR.addDataTypeMap, CollectableElement.addElement, Identifiable.addElement, ARType.getText, ValueList.getVfs.
    Simplifications.  A getter that filters a list by class reads its own list "list/Class" and the
    creation methods of that class append there: the order between objects of different such
    lists of one container is not represented.  A creation method stores the new object once, in
    the place the getter used by the writer reads.  setCategory is taken with a literal argument. *)
From Coq Require Import String List.
From Verif Require Import PyBase Ir.
Import ListNotations.
Open Scope string_scope.

Definition attr_table : list (string * list (string * dflt)) := [
  (* M2/AUTOSARTemplates/ECUCDescriptionTemplate.py:19 *)
  ("EcucValueCollection", [("ecucValueRefs", DList); ("ecuExtractRef", DNone)]);
  (* M2/AUTOSARTemplates/ECUCDescriptionTemplate.py:52 *)
  ("EcucIndexableValue", [("index", DNone)]);
  (* M2/AUTOSARTemplates/ECUCDescriptionTemplate.py:91 *)
  ("EcucParameterValue", [("annotations", DList); ("definitionRef", DNone); ("isAutoValue", DNone)]);
  (* M2/AUTOSARTemplates/ECUCDescriptionTemplate.py:138 *)
  ("EcucAddInfoParamValue", [("value", DNone)]);
  (* M2/AUTOSARTemplates/ECUCDescriptionTemplate.py:161 *)
  ("EcucTextualParamValue", [("value", DNone)]);
  (* M2/AUTOSARTemplates/ECUCDescriptionTemplate.py:183 *)
  ("EcucNumericalParamValue", [("value", DNone)]);
  (* M2/AUTOSARTemplates/ECUCDescriptionTemplate.py:205 *)
  ("EcucAbstractReferenceValue", [("annotations", DList); ("definitionRef", DNone); ("isAutoValue", DNone)]);
  (* M2/AUTOSARTemplates/ECUCDescriptionTemplate.py:252 *)
  ("EcucInstanceReferenceValue", [("valueIRef", DNone)]);
  (* M2/AUTOSARTemplates/ECUCDescriptionTemplate.py:276 *)
  ("EcucReferenceValue", [("valueRef", DNone)]);
  (* M2/AUTOSARTemplates/ECUCDescriptionTemplate.py:299 *)
  ("EcucContainerValue", [("definitionRef", DNone); ("parameterValues", DList); ("referenceValues", DList); ("subContainers", DList)]);
  (* M2/AUTOSARTemplates/ECUCDescriptionTemplate.py:357 *)
  ("EcucModuleConfigurationValues", [("containers", DList); ("definitionRef", DNone); ("ecucDefEdition", DNone); ("implementationConfigVariant", DNone); ("moduleDescriptionRef", DNone); ("postBuildVariantUsed", DNone); ("elements/EcucContainerValue", DList)]);
  (* M2/AUTOSARTemplates/ECUCParameterDefTemplate.py:13 *)
  ("EcucConditionSpecification", [("conditionFormula", DNone); ("ecucQueries", DList); ("informalFormula", DNone)]);
  (* M2/AUTOSARTemplates/ECUCParameterDefTemplate.py:101 *)
  ("EcucValidationCondition", [("ecucQueries", DList); ("validationFormula", DNone)]);
  (* M2/AUTOSARTemplates/ECUCParameterDefTemplate.py:193 *)
  ("EcucDefinitionElement", [("ecucCond", DNone); ("ecucValidationConds", DList); ("lowerMultiplicity", DNone); ("relatedTraceItemRef", DNone); ("scope", DNone); ("upperMultiplicity", DNone); ("upperMultiplicityInfinite", DNone)]);
  (* M2/AUTOSARTemplates/ECUCParameterDefTemplate.py:430 *)
  ("EcucAbstractConfigurationClass", [("configClass", DNone); ("configVariant", DNone)]);
  (* M2/AUTOSARTemplates/ECUCParameterDefTemplate.py:500 *)
  ("EcucContainerDef", [("destinationUriRefs", DList); ("multiplicityConfigClasses", DList); ("origin", DNone); ("postBuildVariantMultiplicity", DNone); ("requiresIndex", DNone)]);
  (* M2/AUTOSARTemplates/ECUCParameterDefTemplate.py:629 *)
  ("EcucCommonAttributes", [("multiplicityConfigClasses", DList); ("origin", DNone); ("postBuildVariantMultiplicity", DNone); ("postBuildVariantValue", DNone); ("requiresIndex", DNone); ("valueConfigClasses", DList)]);
  (* M2/AUTOSARTemplates/ECUCParameterDefTemplate.py:766 *)
  ("EcucDerivationSpecification", [("calculationFormula", DNone); ("ecucQueries", DList); ("informalFormula", DNone)]);
  (* M2/AUTOSARTemplates/ECUCParameterDefTemplate.py:856 *)
  ("EcucParameterDef", [("derivation", DNone); ("symbolicNameValue", DNone); ("withAuto", DNone)]);
  (* M2/AUTOSARTemplates/ECUCParameterDefTemplate.py:905 *)
  ("EcucBooleanParamDef", [("defaultValue", DNone)]);
  (* M2/AUTOSARTemplates/ECUCParameterDefTemplate.py:930 *)
  ("EcucAbstractReferenceDef", [("withAuto", DNone)]);
  (* M2/AUTOSARTemplates/ECUCParameterDefTemplate.py:967 *)
  ("EcucAbstractInternalReferenceDef", [("requiresSymbolicNameValue", DNone)]);
  (* M2/AUTOSARTemplates/ECUCParameterDefTemplate.py:1023 *)
  ("EcucSymbolicNameReferenceDef", [("destinationRef", DNone)]);
  (* M2/AUTOSARTemplates/ECUCParameterDefTemplate.py:1055 *)
  ("EcucChoiceReferenceDef", [("destinationRefs", DList)]);
  (* M2/AUTOSARTemplates/ECUCParameterDefTemplate.py:1090 *)
  ("EcucReferenceDef", [("destinationRef", DNone)]);
  (* M2/AUTOSARTemplates/ECUCParameterDefTemplate.py:1124 *)
  ("EcucUriReferenceDef", [("destinationUriRef", DNone)]);
  (* M2/AUTOSARTemplates/ECUCParameterDefTemplate.py:1156 *)
  ("EcucForeignReferenceDef", [("destinationType", DNone)]);
  (* M2/AUTOSARTemplates/ECUCParameterDefTemplate.py:1190 *)
  ("EcucInstanceReferenceDef", [("destinationContext", DNone); ("destinationType", DNone)]);
  (* M2/AUTOSARTemplates/ECUCParameterDefTemplate.py:1245 *)
  ("EcucAbstractStringParamDef", [("defaultValue", DNone); ("maxLength", DNone); ("minLength", DNone); ("regularExpression", DNone)]);
  (* M2/AUTOSARTemplates/ECUCParameterDefTemplate.py:1374 *)
  ("EcucIntegerParamDef", [("defaultValue", DNone); ("max", DNone); ("min", DNone)]);
  (* M2/AUTOSARTemplates/ECUCParameterDefTemplate.py:1421 *)
  ("EcucEnumerationLiteralDef", [("ecucCond", DNone); ("origin", DNone)]);
  (* M2/AUTOSARTemplates/ECUCParameterDefTemplate.py:1471 *)
  ("EcucEnumerationParamDef", [("defaultValue", DNone); ("literals", DList)]);
  (* M2/AUTOSARTemplates/ECUCParameterDefTemplate.py:1522 *)
  ("EcucFloatParamDef", [("defaultValue", DNone); ("max", DNone); ("min", DNone)]);
  (* M2/AUTOSARTemplates/ECUCParameterDefTemplate.py:1569 *)
  ("EcucChoiceContainerDef", [("choices", DList)]);
  (* M2/AUTOSARTemplates/ECUCParameterDefTemplate.py:1596 *)
  ("EcucParamConfContainerDef", [("parameters", DList); ("references", DList); ("subContainers", DList)]);
  (* M2/AUTOSARTemplates/ECUCParameterDefTemplate.py:1891 *)
  ("EcucConditionFormula", [("ecucQueryRef", DNone); ("ecucQueryStringRef", DNone)]);
  (* M2/AUTOSARTemplates/ECUCParameterDefTemplate.py:1945 *)
  ("EcucDefinitionCollection", [("moduleRefs", DList)]);
  (* M2/AUTOSARTemplates/ECUCParameterDefTemplate.py:1979 *)
  ("EcucDestinationUriDef", [("destinationUriPolicy", DNone)]);
  (* M2/AUTOSARTemplates/ECUCParameterDefTemplate.py:2013 *)
  ("EcucDestinationUriDefSet", [("destinationUriDefs", DList)]);
  (* M2/AUTOSARTemplates/ECUCParameterDefTemplate.py:2056 *)
  ("EcucDestinationUriPolicy", [("containers", DList); ("destinationUriNestingContract", DNone); ("parameters", DList); ("references", DList)]);
  (* M2/AUTOSARTemplates/ECUCParameterDefTemplate.py:2206 *)
  ("EcucParameterDerivationFormula", [("ecucQueryRef", DNone); ("ecucQueryStringRef", DNone)]);
  (* M2/AUTOSARTemplates/ECUCParameterDefTemplate.py:2261 *)
  ("EcucQuery", [("ecucQueryExpression", DNone)]);
  (* M2/AUTOSARTemplates/ECUCParameterDefTemplate.py:2295 *)
  ("EcucQueryExpression", [("configElementDefGlobalRef", DNone); ("configElementDefLocalRef", DNone)]);
  (* M2/AUTOSARTemplates/ECUCParameterDefTemplate.py:2349 *)
  ("EcucModuleDef", [("apiServicePrefix", DNone); ("containers", DList); ("postBuildVariantSupport", DNone); ("refinedModuleDefRef", DNone); ("supportedConfigVariants", DList)]);
  (* M2/AUTOSARTemplates/AbstractPlatform/ApplicationInterface.py:19 *)
  ("ApplicationInterface", [("attributes", DList); ("commands", DList); ("indications", DList)]);
  (* M2/AUTOSARTemplates/AdaptivePlatform/ApplicationDesign/PortInterface/Field.py:7 *)
  ("Field", [("hasGetter", DNone); ("hasNotifier", DNone); ("hasSetter", DNone)]);
  (* M2/AUTOSARTemplates/AdaptivePlatform/PlatformModuleDeployment/AdaptiveModule/PlatformModuleEthernetEndpointConfiguration.py:16 *)
  ("PlatformModuleEthernetEndpointConfiguration", [("communications", DNone); ("ipv4MulticastIps", DNone); ("ipv6MulticastIps", DNone)]);
  (* M2/AUTOSARTemplates/AdaptivePlatform/PlatformModuleDeployment/CryptoDeployment/CryptoKeySlot.py:22 *)
  ("CryptoKeySlot", [("allocateShadows", DNone); ("cryptoAlgIds", DNone); ("cryptoObjects", DNone); ("keySlotAlloweds", DNone); ("keySlotContents", DList); ("slotCapacitys", DNone); ("slotTypes", DNone)]);
  (* M2/AUTOSARTemplates/AdaptivePlatform/PlatformModuleDeployment/Firewall/FirewallRule.py:6 *)
  ("FirewallRule", [("destRefs", DList); ("srcRefs", DList)]);
  (* M2/AUTOSARTemplates/AdaptivePlatform/PlatformModuleDeployment/Firewall/FirewallRuleProps.py:4 *)
  ("FirewallRuleProps", [("allowAny", DNone); ("direction", DNone); ("protocol", DNone)]);
  (* M2/AUTOSARTemplates/AdaptivePlatform/PlatformModuleDeployment/Firewall/StateDependentFirewall.py:6 *)
  ("StateDependentFirewall", [("firewallRules", DList); ("stateRef", DNone)]);
  (* M2/AUTOSARTemplates/AdaptivePlatform/PlatformModuleDeployment/IntrusionDetectionSystem/IdsPlatformInstantiation.py:11 *)
  ("IdsPlatformInstantiation", [("networks", DList); ("timeBases", DNone)]);
  (* M2/AUTOSARTemplates/AutosarTopLevelStructure/__init__.py:26 *)
  ("FileInfoComment", [("sdgs", DList)]);
  (* M2/AUTOSARTemplates/AutosarTopLevelStructure/__init__.py:50 *)
  ("AbstractAUTOSAR", [("schema_location", DNone); ("_appl_impl_type_maps", DList); ("_impl_appl_type_maps", DList); ("_behavior_impl_maps", DList); ("_impl_behavior_maps", DList); ("systems", DList); ("compositionSwComponentTypes", DList); ("rootSwCompositionPrototype", DNone); ("adminData", DNone); ("arPackages", DList); ("fileInfoComment", DNone); ("introduction", DNone)]);
  (* M2/AUTOSARTemplates/BswModuleTemplate/BswImplementation.py:13 *)
  ("BswImplementation", [("arReleaseVersion", DNone); ("behaviorRef", DNone); ("preconfiguredConfigurationRefs", DList); ("recommendedConfigurationRefs", DList); ("vendorApiInfix", DNone); ("vendorSpecificModuleDefRefs", DList)]);
  (* M2/AUTOSARTemplates/BswModuleTemplate/BswInterfaces.py:129 *)
  ("BswModuleDependency", [("targetModuleId", DNone); ("targetModuleRef", DNone)]);
  (* M2/AUTOSARTemplates/BswModuleTemplate/BswInterfaces.py:208 *)
  ("BswModuleEntry", [("arguments", DList); ("bswEntryKind", DNone); ("callType", DNone); ("executionContext", DNone); ("functionPrototypeEmitter", DNone); ("isReentrant", DNone); ("isSynchronous", DNone); ("returnType", DNone); ("role", DNone); ("serviceId", DNone); ("swServiceImplPolicy", DNone)]);
  (* M2/AUTOSARTemplates/BswModuleTemplate/BswInterfaces.py:460 *)
  ("BswModuleClientServerEntry", [("encapsulatedEntryRef", DNone); ("isReentrant", DNone); ("isSynchronous", DNone)]);
  (* M2/AUTOSARTemplates/BswModuleTemplate/BswInterfaces.py:580 *)
  ("BswEntryRelationship", [("bswEntryRelationshipType", DNone); ("fromRef", DNone); ("toRef", DNone)]);
  (* M2/AUTOSARTemplates/BswModuleTemplate/BswInterfaces.py:664 *)
  ("BswEntryRelationshipSet", [("bswEntryRelationships", DList)]);
  (* M2/AUTOSARTemplates/BswModuleTemplate/BswBehavior/BswSchedulerNamePrefix.py:8 *)
  ("BswSchedulerNamePrefix", [("prefix", DNone)]);
  (* M2/AUTOSARTemplates/BswModuleTemplate/BswBehavior/__init__.py:36 *)
  ("BswModuleCallPoint", [("contextLimitationRefs", DList)]);
  (* M2/AUTOSARTemplates/BswModuleTemplate/BswBehavior/__init__.py:86 *)
  ("BswAsynchronousServerCallPoint", [("calledEntryRef", DNone)]);
  (* M2/AUTOSARTemplates/BswModuleTemplate/BswBehavior/__init__.py:135 *)
  ("BswDirectCallPoint", [("calledEntryRef", DNone); ("calledFromWithinExclusiveAreaRef", DNone)]);
  (* M2/AUTOSARTemplates/BswModuleTemplate/BswBehavior/__init__.py:212 *)
  ("BswSynchronousServerCallPoint", [("calledEntryRef", DNone); ("calledFromWithinExclusiveAreaRef", DNone)]);
  (* M2/AUTOSARTemplates/BswModuleTemplate/BswBehavior/__init__.py:289 *)
  ("BswAsynchronousServerCallResultPoint", [("asynchronousServerCallPointRef", DNone)]);
  (* M2/AUTOSARTemplates/BswModuleTemplate/BswBehavior/__init__.py:312 *)
  ("BswVariableAccess", [("accessedVariableRef", DNone); ("contextLimitationRefs", DList)]);
  (* M2/AUTOSARTemplates/BswModuleTemplate/BswBehavior/__init__.py:408 *)
  ("BswModuleEntity", [("accessedModeGroupRefs", DList); ("activationPointRefs", DList); ("callPoints", DList); ("dataReceivePoints", DList); ("dataSendPoints", DList); ("implementedEntryRef", DNone); ("issuedTriggerRefs", DList); ("managedModeGroupRefs", DList); ("schedulerNamePrefixRef", DNone)]);
  (* M2/AUTOSARTemplates/BswModuleTemplate/BswBehavior/__init__.py:780 *)
  ("BswInterruptEntity", [("interruptCategory", DNone); ("interruptSource", DNone)]);
  (* M2/AUTOSARTemplates/BswModuleTemplate/BswBehavior/__init__.py:853 *)
  ("BswEvent", [("contextLimitationRefs", DList); ("disabledInModeIRefs", DList); ("startsOnEventRef", DNone)]);
  (* M2/AUTOSARTemplates/BswModuleTemplate/BswBehavior/__init__.py:958 *)
  ("BswOperationInvokedEvent", [("entryRef", DNone)]);
  (* M2/AUTOSARTemplates/BswModuleTemplate/BswBehavior/__init__.py:1032 *)
  ("BswAsynchronousServerCallReturnsEvent", [("eventSourceRef", DNone)]);
  (* M2/AUTOSARTemplates/BswModuleTemplate/BswBehavior/__init__.py:1087 *)
  ("BswModeSwitchEvent", [("activation", DNone); ("modeIRefs", DList)]);
  (* M2/AUTOSARTemplates/BswModuleTemplate/BswBehavior/__init__.py:1160 *)
  ("BswModeSwitchedAckEvent", [("modeGroupRef", DNone)]);
  (* M2/AUTOSARTemplates/BswModuleTemplate/BswBehavior/__init__.py:1217 *)
  ("BswModeManagerErrorEvent", [("modeGroupRef", DNone)]);
  (* M2/AUTOSARTemplates/BswModuleTemplate/BswBehavior/__init__.py:1274 *)
  ("BswTimingEvent", [("period", DNone)]);
  (* M2/AUTOSARTemplates/BswModuleTemplate/BswBehavior/__init__.py:1339 *)
  ("BswDataReceivedEvent", [("dataRef", DNone)]);
  (* M2/AUTOSARTemplates/BswModuleTemplate/BswBehavior/__init__.py:1386 *)
  ("BswInternalTriggerOccurredEvent", [("eventSourceRef", DNone)]);
  (* M2/AUTOSARTemplates/BswModuleTemplate/BswBehavior/__init__.py:1433 *)
  ("BswModeSwitchAckRequest", [("timeout", DNone)]);
  (* M2/AUTOSARTemplates/BswModuleTemplate/BswBehavior/__init__.py:1476 *)
  ("BswModeSenderPolicy", [("ackRequest", DNone); ("enhancedModeApi", DNone); ("providedModeGroupRef", DNone); ("queueLength", DNone)]);
  (* M2/AUTOSARTemplates/BswModuleTemplate/BswBehavior/__init__.py:1618 *)
  ("BswModeReceiverPolicy", [("enhancedModeApi", DNone); ("requiredModeGroupRef", DNone); ("supportsAsynchronousModeSwitch", DNone)]);
  (* M2/AUTOSARTemplates/BswModuleTemplate/BswBehavior/__init__.py:1748 *)
  ("BswExternalTriggerOccurredEvent", [("triggerRef", DNone)]);
  (* M2/AUTOSARTemplates/BswModuleTemplate/BswBehavior/__init__.py:1797 *)
  ("BswApiOptions", [("enableTakeAddress", DNone)]);
  (* M2/AUTOSARTemplates/BswModuleTemplate/BswBehavior/__init__.py:1846 *)
  ("BswExclusiveAreaPolicy", [("apiPrinciple", DNone); ("exclusiveAreaRef", DNone)]);
  (* M2/AUTOSARTemplates/BswModuleTemplate/BswBehavior/__init__.py:1923 *)
  ("BswDataReceptionPolicy", [("receivedDataRef", DNone)]);
  (* M2/AUTOSARTemplates/BswModuleTemplate/BswBehavior/__init__.py:1972 *)
  ("BswQueuedDataReceptionPolicy", [("queueLength", DNone)]);
  (* M2/AUTOSARTemplates/BswModuleTemplate/BswBehavior/__init__.py:2017 *)
  ("BswInternalTriggeringPoint", [("swImplPolicy", DNone)]);
  (* M2/AUTOSARTemplates/BswModuleTemplate/BswBehavior/__init__.py:2088 *)
  ("RoleBasedBswModuleEntryAssignment", [("assignedEntryRef", DNone); ("role", DNone)]);
  (* M2/AUTOSARTemplates/BswModuleTemplate/BswBehavior/__init__.py:2187 *)
  ("BswServiceDependency", [("assignedData", DList); ("assignedEntryRole", DList); ("ident", DNone); ("serviceNeeds", DNone)]);
  (* M2/AUTOSARTemplates/BswModuleTemplate/BswBehavior/__init__.py:2334 *)
  ("BswInternalBehavior", [("arTypedPerInstanceMemories", DList); ("bswPerInstanceMemoryPolicies", DList); ("clientPolicies", DList); ("distinguishedPartitions", DList); ("entities", DList); ("events", DList); ("exclusiveAreaPolicies", DList); ("includedDataTypeSets", DList); ("includedModeDeclarationGroupSets", DList); ("internalTriggeringPoints", DList); ("internalTriggeringPointPolicies", DList); ("modeReceiverPolicies", DList); ("modeSenderPolicies", DList); ("parameterPolicies", DList); ("perInstanceParameters", DList); ("receptionPolicies", DList); ("releasedTriggerPolicies", DList); ("schedulerNamePrefixes", DList); ("sendPolicies", DList); ("serviceDependencies", DList); ("triggerDirectImplementations", DList); ("variationPointProxies", DList); ("elements/BswModuleEntity", DList); ("elements/BswEvent", DList)]);
  (* M2/AUTOSARTemplates/BswModuleTemplate/BswBehavior/__init__.py:3290 *)
  ("BswTriggerDirectImplementation", [("cat2Isr", DNone); ("masteredTriggerRef", DNone); ("task", DNone)]);
  (* M2/AUTOSARTemplates/BswModuleTemplate/BswOverview/__init__.py:19 *)
  ("BswModuleDescription", [("bswModuleDependencies", DList); ("bswModuleDocumentation", DNone); ("expectedEntryRefs", DList); ("implementedEntryRefs", DList); ("internalBehaviors", DList); ("moduleId", DNone); ("providedClientServerEntries", DList); ("providedDatas", DList); ("providedModeGroups", DList); ("releasedTriggers", DList); ("requiredClientServerEntries", DList); ("requiredDatas", DList); ("requiredModeGroups", DList); ("requiredTriggers", DList)]);
  (* M2/AUTOSARTemplates/BswModuleTemplate/BswOverview/InstanceRefs/__init__.py:10 *)
  ("ModeInBswModuleDescriptionInstanceRef", [("baseRef", DNone); ("contextModeDeclarationGroupRef", DNone); ("targetModeRef", DNone)]);
  (* M2/AUTOSARTemplates/CommonStructure/Filter.py:52 *)
  ("DataFilter", [("dataFilterType", DNone); ("mask", DNone); ("max", DNone); ("min", DNone); ("offset", DNone); ("period", DNone); ("x", DNone)]);
  (* M2/AUTOSARTemplates/CommonStructure/FlatMap.py:17 *)
  ("FlatInstanceDescriptor", [("ecuExtractReferenceIRef", DNone); ("role", DNone); ("rtePluginProps", DNone); ("swDataDefProps", DNone); ("upstreamReferenceIRef", DNone)]);
  (* M2/AUTOSARTemplates/CommonStructure/FlatMap.py:168 *)
  ("FlatMap", [("instances", DList); ("elements/FlatInstanceDescriptor", DList)]);
  (* M2/AUTOSARTemplates/CommonStructure/FlatMap.py:218 *)
  ("AliasNameAssignment", [("flatInstanceRef", DNone); ("identifiableRef", DNone); ("label", DNone); ("shortLabel", DNone)]);
  (* M2/AUTOSARTemplates/CommonStructure/FlatMap.py:354 *)
  ("AliasNameSet", [("aliasNames", DList)]);
  (* M2/AUTOSARTemplates/CommonStructure/FlatMap.py:407 *)
  ("RtePluginProps", [("pluginName", DNone); ("pluginVersion", DNone)]);
  (* M2/AUTOSARTemplates/CommonStructure/Implementation.py:85 *)
  ("ImplementationProps", [("symbol", DNone)]);
  (* M2/AUTOSARTemplates/CommonStructure/Implementation.py:142 *)
  ("Code", [("artifactDescriptors", DList); ("callbackHeaderRefs", DList)]);
  (* M2/AUTOSARTemplates/CommonStructure/Implementation.py:232 *)
  ("Compiler", [("name", DNone); ("options", DNone); ("vendor", DNone); ("version", DNone)]);
  (* M2/AUTOSARTemplates/CommonStructure/Implementation.py:370 *)
  ("DependencyOnArtifact", [("artifactDescriptor", DNone); ("usages", DList)]);
  (* M2/AUTOSARTemplates/CommonStructure/Implementation.py:449 *)
  ("Linker", [("name", DNone); ("options", DNone); ("vendor", DNone); ("version", DNone)]);
  (* M2/AUTOSARTemplates/CommonStructure/Implementation.py:585 *)
  ("Implementation", [("buildActionManifestRef", DNone); ("codeDescriptors", DList); ("compilers", DList); ("generatedArtifacts", DList); ("hwElementRefs", DList); ("linkers", DList); ("mcSupport", DNone); ("programmingLanguage", DNone); ("requiredArtifacts", DList); ("requiredGeneratorTools", DList); ("resourceConsumption", DNone); ("swcBswMappingRef", DNone); ("swVersion", DNone); ("usedCodeGenerator", DNone); ("vendorId", DNone); ("elements/Code", DList)]);
  (* M2/AUTOSARTemplates/CommonStructure/ImplementationDataTypes.py:25 *)
  ("ImplementationDataTypeElement", [("arrayImplPolicy", DNone); ("arraySize", DNone); ("arraySizeHandling", DNone); ("arraySizeSemantics", DNone); ("isOptional", DNone); ("subElements", DList); ("swDataDefProps", DNone)]);
  (* M2/AUTOSARTemplates/CommonStructure/ImplementationDataTypes.py:136 *)
  ("ImplementationDataType", [("dynamicArraySizeProfile", DNone); ("isStructWithOptionalElement", DNone); ("subElements", DList); ("symbolProps", DNone); ("typeEmitter", DNone)]);
  (* M2/AUTOSARTemplates/CommonStructure/InternalBehavior.py:73 *)
  ("ExecutableEntity", [("activationReasons", DList); ("canEnterRefs", DList); ("exclusiveAreaNestingOrderRefs", DList); ("minimumStartInterval", DNone); ("reentrancyLevel", DNone); ("runsInsideRefs", DList); ("swAddrMethodRef", DNone)]);
  (* M2/AUTOSARTemplates/CommonStructure/InternalBehavior.py:324 *)
  ("InternalBehavior", [("constantMemories", DList); ("constantValueMappingRefs", DList); ("dataTypeMappingRefs", DList); ("exclusiveAreas", DList); ("exclusiveAreaNestingOrders", DList); ("staticMemories", DList); ("elements/ExclusiveArea", DList); ("elements/ExclusiveAreaNestingOrder", DList)]);
  (* M2/AUTOSARTemplates/CommonStructure/InternalBehavior.py:492 *)
  ("AbstractEvent", [("activationReasonRepresentationRef", DNone)]);
  (* M2/AUTOSARTemplates/CommonStructure/InternalBehavior.py:556 *)
  ("ExclusiveAreaNestingOrder", [("exclusiveAreaRefs", DList)]);
  (* M2/AUTOSARTemplates/CommonStructure/InternalBehavior.py:600 *)
  ("ExecutableEntityActivationReason", [("bitPosition", DNone)]);
  (* M2/AUTOSARTemplates/CommonStructure/McGroups.py:14 *)
  ("McGroup", [("mcFunctionRefs", DList); ("refCalprmSet", DNone); ("refMeasurementSet", DNone); ("subGroupRefs", DList)]);
  (* M2/AUTOSARTemplates/CommonStructure/McGroups.py:151 *)
  ("McGroupDataRefSet", [("flatMapEntryRefs", DList); ("mcDataInstanceRefs", DList)]);
  (* M2/AUTOSARTemplates/CommonStructure/ModeDeclaration.py:50 *)
  ("ModeDeclarationGroupPrototypeMapping", [("firstModeGroupRef", DNone); ("modeDeclarationMappingSetRef", DNone); ("secondModeGroupRef", DNone)]);
  (* M2/AUTOSARTemplates/CommonStructure/ModeDeclaration.py:151 *)
  ("ModeDeclaration", [("value", DNone)]);
  (* M2/AUTOSARTemplates/CommonStructure/ModeDeclaration.py:195 *)
  ("ModeRequestTypeMap", [("implementationDataTypeRef", DNone); ("modeGroupRef", DNone)]);
  (* M2/AUTOSARTemplates/CommonStructure/ModeDeclaration.py:266 *)
  ("ModeDeclarationGroup", [("initialModeRef", DNone); ("modeDeclarations", DList); ("modeManagerErrorBehavior", DNone); ("modeTransitions", DList); ("modeUserErrorBehavior", DNone); ("onTransitionValue", DNone); ("elements/ModeDeclaration", DList)]);
  (* M2/AUTOSARTemplates/CommonStructure/ModeDeclaration.py:456 *)
  ("ModeDeclarationGroupPrototype", [("swCalibrationAccess", DNone); ("typeTRef", DNone)]);
  (* M2/AUTOSARTemplates/CommonStructure/ModeDeclaration.py:537 *)
  ("ModeTransition", [("enteredModeRef", DNone); ("exitedModeRef", DNone)]);
  (* M2/AUTOSARTemplates/CommonStructure/ModeDeclaration.py:610 *)
  ("ModeErrorBehavior", [("defaultModeRef", DNone); ("errorReactionPolicy", DNone)]);
  (* M2/AUTOSARTemplates/CommonStructure/ServiceNeeds.py:22 *)
  ("RoleBasedDataAssignment", [("role", DNone); ("usedDataElement", DNone); ("usedParameterElement", DNone); ("usedPimRef", DNone)]);
  (* M2/AUTOSARTemplates/CommonStructure/ServiceNeeds.py:255 *)
  ("NvBlockNeeds", [("calcRamBlockCrc", DNone); ("checkStaticBlockId", DNone); ("cyclicWritingPeriod", DNone); ("nDataSets", DNone); ("nRomBlocks", DNone); ("ramBlockStatusControl", DNone); ("readonly", DNone); ("reliability", DNone); ("resistantToChangedSw", DNone); ("restoreAtStart", DNone); ("selectBlockForFirstInitAll", DNone); ("storeAtShutdown", DNone); ("storeCyclic", DNone); ("storeEmergency", DNone); ("storeImmediate", DNone); ("storeOnChange", DNone); ("useAutoValidationAtShutDown", DNone); ("useCRCCompMechanism", DNone); ("writeOnlyOnce", DNone); ("writeVerification", DNone); ("writingFrequency", DNone); ("writingPriority", DNone)]);
  (* M2/AUTOSARTemplates/CommonStructure/ServiceNeeds.py:519 *)
  ("RoleBasedDataTypeAssignment", [("role", DNone); ("usedImplementationDataTypeRef", DNone)]);
  (* M2/AUTOSARTemplates/CommonStructure/ServiceNeeds.py:606 *)
  ("ServiceDependency", [("assignedDataTypes", DList); ("diagnosticRelevance", DNone); ("symbolicNameProps", DNone)]);
  (* M2/AUTOSARTemplates/CommonStructure/ServiceNeeds.py:773 *)
  ("DiagnosticCapabilityElement", [("audiences", DList); ("diagRequirement", DNone); ("securityAccessLevel", DNone)]);
  (* M2/AUTOSARTemplates/CommonStructure/ServiceNeeds.py:904 *)
  ("DiagnosticCommunicationManagerNeeds", [("serviceRequestCallbackType", DNone)]);
  (* M2/AUTOSARTemplates/CommonStructure/ServiceNeeds.py:952 *)
  ("DiagnosticRoutineNeeds", [("diagRoutineType", DNone); ("RidNumber", DNone)]);
  (* M2/AUTOSARTemplates/CommonStructure/ServiceNeeds.py:1085 *)
  ("DiagnosticValueNeeds", [("dataLength", DNone); ("diagnosticValueAccess", DNone); ("DidNumber", DNone); ("fixedLength", DNone); ("processingStyle", DNone)]);
  (* M2/AUTOSARTemplates/CommonStructure/ServiceNeeds.py:1265 *)
  ("DiagEventDebounceCounterBased", [("counterBasedFdcThresholdStorageValue", DNone); ("counterDecrementStepSize", DNone); ("counterFailedThreshold", DNone); ("counterIncrementStepSize", DNone); ("counterJumpDown", DNone); ("counterJumpDownValue", DNone); ("counterJumpUp", DNone); ("counterJumpUpValue", DNone); ("counterPassedThreshold", DNone)]);
  (* M2/AUTOSARTemplates/CommonStructure/ServiceNeeds.py:1405 *)
  ("DiagEventDebounceTimeBased", [("timeBasedFdcThresholdStorageValue", DNone); ("timeFailedThreshold", DNone); ("timePassedThreshold", DNone)]);
  (* M2/AUTOSARTemplates/CommonStructure/ServiceNeeds.py:1475 *)
  ("DiagnosticEventInfoNeeds", [("dtcKind", DNone); ("obdDtcNumber", DNone); ("udsDtcNumber", DNone)]);
  (* M2/AUTOSARTemplates/CommonStructure/ServiceNeeds.py:1612 *)
  ("DtcStatusChangeNotificationNeeds", [("dtcFormatType", DNone); ("notificationTime", DNone)]);
  (* M2/AUTOSARTemplates/CommonStructure/ServiceNeeds.py:1690 *)
  ("DiagnosticEventNeeds", [("deferringFidRefs", DList); ("diagEventDebounceAlgorithm", DNone); ("inhibitingFidRef", DNone); ("inhibitingSecondaryFidRefs", DList); ("prestoredFreezeframeStoredInNvm", DNone); ("usesMonitorData", DNone)]);
  (* M2/AUTOSARTemplates/CommonStructure/ServiceNeeds.py:1920 *)
  ("CryptoServiceNeeds", [("algorithmFamily", DNone); ("algorithmMode", DNone); ("cryptoKeyDescription", DNone); ("maximumKeyLength", DNone)]);
  (* M2/AUTOSARTemplates/CommonStructure/ServiceNeeds.py:2109 *)
  ("ComMgrUserNeeds", [("maxCommMode", DNone)]);
  (* M2/AUTOSARTemplates/CommonStructure/ServiceNeeds.py:2199 *)
  ("TracedFailure", [("id", DNone)]);
  (* M2/AUTOSARTemplates/CommonStructure/ServiceNeeds.py:2353 *)
  ("DiagnosticEnableConditionNeeds", [("initialStatus", DNone)]);
  (* M2/AUTOSARTemplates/CommonStructure/ServiceNeeds.py:2422 *)
  ("DiagnosticIoControlNeeds", [("currentValueRef", DNone); ("freezeCurrentStateSupported", DNone); ("resetToDefaultSupported", DNone); ("shortTermAdjustmentSupported", DNone)]);
  (* M2/AUTOSARTemplates/CommonStructure/ServiceNeeds.py:2587 *)
  ("DiagnosticOperationCycleNeeds", [("operationCycle", DNone)]);
  (* M2/AUTOSARTemplates/CommonStructure/ServiceNeeds.py:2657 *)
  ("DiagnosticStorageConditionNeeds", [("initialStatus", DNone)]);
  (* M2/AUTOSARTemplates/CommonStructure/ServiceNeeds.py:2843 *)
  ("DoIpRoutingActivationAuthenticationNeeds", [("dataLengthRequest", DNone); ("dataLengthResponse", DNone); ("routingActivationType", DNone)]);
  (* M2/AUTOSARTemplates/CommonStructure/ServiceNeeds.py:2944 *)
  ("DoIpRoutingActivationConfirmationNeeds", [("dataLengthRequest", DNone); ("dataLengthResponse", DNone); ("routingActivationType", DNone)]);
  (* M2/AUTOSARTemplates/CommonStructure/ServiceNeeds.py:3045 *)
  ("ErrorTracerNeeds", [("tracedFailures", DList)]);
  (* M2/AUTOSARTemplates/CommonStructure/ServiceNeeds.py:3152 *)
  ("FunctionInhibitionAvailabilityNeeds", [("controlledFidRef", DNone)]);
  (* M2/AUTOSARTemplates/CommonStructure/ServiceNeeds.py:3302 *)
  ("IdsMgrNeeds", [("useSmartSensorApi", DNone)]);
  (* M2/AUTOSARTemplates/CommonStructure/ServiceNeeds.py:3385 *)
  ("IndicatorStatusNeeds", [("type", DNone)]);
  (* M2/AUTOSARTemplates/CommonStructure/ServiceNeeds.py:3569 *)
  ("ObdMonitorServiceNeeds", [("applicationDataTypeRef", DNone); ("eventNeedsRef", DNone); ("unitAndScalingId", DNone); ("updateKind", DNone)]);
  (* M2/AUTOSARTemplates/CommonStructure/ServiceNeeds.py:3751 *)
  ("ObdRatioDenominatorNeeds", [("denominatorCondition", DNone)]);
  (* M2/AUTOSARTemplates/CommonStructure/ServiceNeeds.py:3794 *)
  ("ObdRatioServiceNeeds", [("connectionType", DNone); ("rateBasedMonitoredEventRef", DNone); ("usedFidRef", DNone)]);
  (* M2/AUTOSARTemplates/CommonStructure/ServiceNeeds.py:3946 *)
  ("SecureOnBoardCommunicationNeeds", [("verificationStatusIndicationMode", DNone)]);
  (* M2/AUTOSARTemplates/CommonStructure/ServiceNeeds.py:4144 *)
  ("SupervisedEntityNeeds", [("activateAtStart", DNone); ("checkpointsRefs", DList); ("enableDeactivation", DNone); ("expectedAliveCycle", DNone); ("maxAliveCycle", DNone); ("minAliveCycle", DNone); ("toleratedFailedCycles", DNone)]);
  (* M2/AUTOSARTemplates/CommonStructure/ServiceNeeds.py:4411 *)
  ("PossibleErrorReaction", [("reactionCode", DNone)]);
  (* M2/AUTOSARTemplates/CommonStructure/ServiceNeeds.py:4459 *)
  ("TransientFault", [("possibleErrorReactions", DList)]);
  (* M2/AUTOSARTemplates/CommonStructure/SignalServiceTranslation.py:50 *)
  ("SignalServiceTranslationElementProps", [("element", DNone); ("filter", DNone); ("transmissionTrigger", DNone)]);
  (* M2/AUTOSARTemplates/CommonStructure/SignalServiceTranslation.py:126 *)
  ("SignalServiceTranslationEventProps", [("elementProps", DList); ("safeTranslation", DNone); ("secureTranslation", DNone); ("translationTarget", DNone)]);
  (* M2/AUTOSARTemplates/CommonStructure/SignalServiceTranslation.py:221 *)
  ("SignalServiceTranslationProps", [("controlConsumedEventGroupRefs", DList); ("controlPncRefs", DList); ("controlProvidedEventGroupRefs", DList); ("serviceControl", DNone); ("signalServiceTranslationEventProps", DList)]);
  (* M2/AUTOSARTemplates/CommonStructure/SignalServiceTranslation.py:336 *)
  ("SignalServiceTranslationPropsSet", [("signalServiceTranslationProps", DList)]);
  (* M2/AUTOSARTemplates/CommonStructure/SwcBswMapping.py:19 *)
  ("SwcBswRunnableMapping", [("bswEntityRef", DNone); ("swcRunnableRef", DNone)]);
  (* M2/AUTOSARTemplates/CommonStructure/SwcBswMapping.py:93 *)
  ("SwcBswMapping", [("bswBehaviorRef", DNone); ("runnableMappings", DList); ("swcBehaviorRef", DNone); ("synchronizedModeGroups", DList); ("synchronizedTriggers", DList)]);
  (* M2/AUTOSARTemplates/CommonStructure/SwcBswMapping.py:280 *)
  ("SwcBswSynchronizedModeGroupPrototype", [("bswModeGroupRef", DNone); ("swcModeGroupIRef", DNone)]);
  (* M2/AUTOSARTemplates/CommonStructure/SwcBswMapping.py:354 *)
  ("SwcBswSynchronizedTrigger", [("bswTriggerRef", DNone); ("swcTriggerIRef", DNone)]);
  (* M2/AUTOSARTemplates/CommonStructure/TriggerDeclaration.py:13 *)
  ("Trigger", [("swImplPolicy", DNone); ("triggerPeriod", DNone)]);
  (* M2/AUTOSARTemplates/CommonStructure/TriggerDeclaration.py:90 *)
  ("TriggerMapping", [("firstTriggerRef", DNone); ("secondTriggerRef", DNone)]);
  (* M2/AUTOSARTemplates/CommonStructure/Constants/__init__.py:26 *)
  ("ValueSpecification", [("shortLabel", DNone)]);
  (* M2/AUTOSARTemplates/CommonStructure/Constants/__init__.py:121 *)
  ("ApplicationValueSpecification", [("category", DNone); ("swAxisCont", DList); ("swValueCont", DNone)]);
  (* M2/AUTOSARTemplates/CommonStructure/Constants/__init__.py:222 *)
  ("RecordValueSpecification", [("fields", DList)]);
  (* M2/AUTOSARTemplates/CommonStructure/Constants/__init__.py:262 *)
  ("TextValueSpecification", [("value", DNone)]);
  (* M2/AUTOSARTemplates/CommonStructure/Constants/__init__.py:306 *)
  ("NumericalValueSpecification", [("value", DNone)]);
  (* M2/AUTOSARTemplates/CommonStructure/Constants/__init__.py:351 *)
  ("ArrayValueSpecification", [("element", DList); ("intendedPartialInitializationCount", DNone)]);
  (* M2/AUTOSARTemplates/CommonStructure/Constants/__init__.py:417 *)
  ("ConstantSpecification", [("valueSpec", DNone)]);
  (* M2/AUTOSARTemplates/CommonStructure/Constants/__init__.py:465 *)
  ("ConstantReference", [("constantRef", DNone)]);
  (* M2/AUTOSARTemplates/CommonStructure/Constants/__init__.py:509 *)
  ("ApplicationRuleBasedValueSpecification", [("category", DNone); ("swAxisConts", DList); ("swValueCont", DNone)]);
  (* M2/AUTOSARTemplates/CommonStructure/Constants/__init__.py:633 *)
  ("CompositeRuleBasedValueSpecification", [("arguments", DList); ("compoundPrimitiveArguments", DList); ("maxSizeToFill", DNone); ("rule", DNone)]);
  (* M2/AUTOSARTemplates/CommonStructure/Constants/__init__.py:727 *)
  ("ConstantSpecificationMapping", [("sourceRef", DNone); ("targetRef", DNone)]);
  (* M2/AUTOSARTemplates/CommonStructure/Constants/__init__.py:759 *)
  ("ConstantSpecificationMappingSet", [("mappings", DList)]);
  (* M2/AUTOSARTemplates/CommonStructure/Constants/__init__.py:780 *)
  ("NotAvailableValueSpecification", [("reason", DNone)]);
  (* M2/AUTOSARTemplates/CommonStructure/Constants/__init__.py:802 *)
  ("NumericalOrText", [("vf", DNone); ("vt", DNone)]);
  (* M2/AUTOSARTemplates/CommonStructure/Constants/__init__.py:882 *)
  ("NumericalRuleBasedValueSpecification", [("ruleBasedValues", DNone)]);
  (* M2/AUTOSARTemplates/CommonStructure/Constants/__init__.py:904 *)
  ("ReferenceValueSpecification", [("valueSpecRef", DNone)]);
  (* M2/AUTOSARTemplates/CommonStructure/Constants/__init__.py:926 *)
  ("RuleArguments", [("v", DNone); ("vf", DNone); ("vt", DNone); ("vtf", DNone)]);
  (* M2/AUTOSARTemplates/CommonStructure/Constants/__init__.py:1060 *)
  ("RuleBasedAxisCont", [("category", DNone); ("unitRef", DNone); ("swArraysize", DNone); ("swAxisIndex", DNone); ("ruleBasedValues", DNone)]);
  (* M2/AUTOSARTemplates/CommonStructure/Constants/__init__.py:1124 *)
  ("RuleBasedValueCont", [("ruleBasedValues", DNone); ("swArraysize", DNone); ("unitRef", DNone)]);
  (* M2/AUTOSARTemplates/CommonStructure/Constants/__init__.py:1229 *)
  ("RuleBasedValueSpecification", [("arguments", DList); ("maxSizeToFill", DNone); ("rule", DNone)]);
  (* M2/AUTOSARTemplates/CommonStructure/MeasurementCalibrationSupport/__init__.py:20 *)
  ("RteEventInEcuInstanceRef", [("baseRef", DNone); ("contextRootCompositionRef", DNone); ("contextAtomicComponentRef", DNone); ("targetRteEventRef", DNone)]);
  (* M2/AUTOSARTemplates/CommonStructure/MeasurementCalibrationSupport/__init__.py:154 *)
  ("VariableAccessInEcuInstanceRef", [("baseRef", DNone); ("contextRootCompositionRef", DNone); ("contextAtomicComponentRef", DNone); ("targetVariableAccessRef", DNone)]);
  (* M2/AUTOSARTemplates/CommonStructure/MeasurementCalibrationSupport/__init__.py:288 *)
  ("McDataAccessDetails", [("rteEventIRefs", DList); ("variableAccessIRefs", DList)]);
  (* M2/AUTOSARTemplates/CommonStructure/MeasurementCalibrationSupport/__init__.py:366 *)
  ("McParameterElementGroup", [("ramLocationRef", DNone); ("romLocationRef", DNone); ("shortLabel", DNone)]);
  (* M2/AUTOSARTemplates/CommonStructure/MeasurementCalibrationSupport/__init__.py:470 *)
  ("McSwEmulationMethodSupport", [("baseReferenceRef", DNone); ("category", DNone); ("elementGroups", DList); ("referenceTableRef", DNone); ("shortLabel", DNone)]);
  (* M2/AUTOSARTemplates/CommonStructure/MeasurementCalibrationSupport/__init__.py:632 *)
  ("ImplementationElementInParameterInstanceRef", [("contextRef", DNone); ("targetRef", DNone)]);
  (* M2/AUTOSARTemplates/CommonStructure/MeasurementCalibrationSupport/__init__.py:711 *)
  ("McFunction", [("defCalprmSet", DNone); ("inMeasurementSet", DNone); ("locMeasurementSet", DNone); ("outMeasurementSet", DNone); ("refCalprmSet", DNone); ("subFunctionRefs", DList)]);
  (* M2/AUTOSARTemplates/CommonStructure/MeasurementCalibrationSupport/__init__.py:906 *)
  ("RoleBasedMcDataAssignment", [("executionContextRefs", DList); ("mcDataInstanceRefs", DList); ("role", DNone)]);
  (* M2/AUTOSARTemplates/CommonStructure/MeasurementCalibrationSupport/__init__.py:1010 *)
  ("McDataInstance", [("arraySize", DNone); ("displayIdentifier", DNone); ("flatMapEntryRef", DNone); ("instanceInMemory", DNone); ("mcDataAccessDetails", DNone); ("mcDataAssignments", DList); ("resultingProperties", DNone); ("resultingRptSwPrototypingAccess", DNone); ("role", DNone); ("rptImplPolicy", DNone); ("subElements", DList); ("symbol", DNone)]);
  (* M2/AUTOSARTemplates/CommonStructure/MeasurementCalibrationSupport/__init__.py:1382 *)
  ("McSupportData", [("emulationSupports", DList); ("mcParameterInstances", DList); ("mcVariableInstances", DList); ("measurableSystemConstantValuesRefs", DList); ("rptSupportData", DNone)]);
  (* M2/AUTOSARTemplates/CommonStructure/MeasurementCalibrationSupport/RptSupport/__init__.py:159 *)
  ("RptSwPrototypingAccess", [("rptHookAccess", DNone); ("rptReadAccess", DNone); ("rptWriteAccess", DNone)]);
  (* M2/AUTOSARTemplates/CommonStructure/MeasurementCalibrationSupport/RptSupport/__init__.py:263 *)
  ("RptServicePoint", [("serviceId", DNone); ("symbol", DNone)]);
  (* M2/AUTOSARTemplates/CommonStructure/MeasurementCalibrationSupport/RptSupport/__init__.py:342 *)
  ("McFunctionDataRefSet", [("flatMapEntryRefs", DList); ("mcDataInstanceRefs", DList)]);
  (* M2/AUTOSARTemplates/CommonStructure/MeasurementCalibrationSupport/RptSupport/__init__.py:417 *)
  ("RptExecutableEntityEvent", [("executionContextRefs", DList); ("mcDataAssignments", DList); ("rptEventId", DNone); ("rptExecutableEntityProperties", DNone); ("rptImplPolicy", DNone); ("rptServicePointPostRefs", DList); ("rptServicePointPreRefs", DList)]);
  (* M2/AUTOSARTemplates/CommonStructure/MeasurementCalibrationSupport/RptSupport/__init__.py:641 *)
  ("RptExecutableEntity", [("rptExecutableEntityEvents", DList); ("rptReads", DList); ("rptWrites", DList); ("symbol", DNone)]);
  (* M2/AUTOSARTemplates/CommonStructure/MeasurementCalibrationSupport/RptSupport/__init__.py:781 *)
  ("RptComponent", [("mcDataAssignments", DList); ("rpImplPolicy", DNone); ("rptExecutableEntities", DList)]);
  (* M2/AUTOSARTemplates/CommonStructure/MeasurementCalibrationSupport/RptSupport/__init__.py:892 *)
  ("RptSupportData", [("executionContexts", DList); ("rptComponents", DList); ("rptServicePoints", DList)]);
  (* M2/AUTOSARTemplates/CommonStructure/ResourceConsumption/HeapUsage.py:19 *)
  ("HeapUsage", [("hardwareConfiguration", DNone); ("hwElementRef", DNone); ("softwareContext", DNone)]);
  (* M2/AUTOSARTemplates/CommonStructure/ResourceConsumption/HeapUsage.py:131 *)
  ("MeasuredHeapUsage", [("averageMemoryConsumption", DNone); ("maximumMemoryConsumption", DNone); ("minimumMemoryConsumption", DNone); ("testPattern", DNone)]);
  (* M2/AUTOSARTemplates/CommonStructure/ResourceConsumption/HeapUsage.py:268 *)
  ("RoughEstimateHeapUsage", [("memoryConsumption", DNone)]);
  (* M2/AUTOSARTemplates/CommonStructure/ResourceConsumption/HeapUsage.py:318 *)
  ("WorstCaseHeapUsage", [("memoryConsumption", DNone)]);
  (* M2/AUTOSARTemplates/CommonStructure/ResourceConsumption/MemorySectionUsage.py:13 *)
  ("MemorySection", [("alignment", DNone); ("executableEntityRefs", DList); ("memClassSymbol", DNone); ("options", DList); ("prefixRef", DNone); ("size", DNone); ("swAddrMethodRef", DNone); ("symbol", DNone)]);
  (* M2/AUTOSARTemplates/CommonStructure/ResourceConsumption/MemorySectionUsage.py:308 *)
  ("SectionNamePrefix", [("implementedInRef", DNone)]);
  (* M2/AUTOSARTemplates/CommonStructure/ResourceConsumption/StackUsage.py:18 *)
  ("StackUsage", [("executableEntityRef", DNone); ("hardwareConfiguration", DNone); ("hwElementRef", DNone); ("softwareContext", DNone)]);
  (* M2/AUTOSARTemplates/CommonStructure/ResourceConsumption/StackUsage.py:161 *)
  ("MeasuredStackUsage", [("averageMemoryConsumption", DNone); ("maximumMemoryConsumption", DNone); ("minimumMemoryConsumption", DNone); ("testPattern", DNone)]);
  (* M2/AUTOSARTemplates/CommonStructure/ResourceConsumption/StackUsage.py:298 *)
  ("RoughEstimateStackUsage", [("memoryConsumption", DNone)]);
  (* M2/AUTOSARTemplates/CommonStructure/ResourceConsumption/StackUsage.py:348 *)
  ("WorstCaseStackUsage", [("memoryConsumption", DNone)]);
  (* M2/AUTOSARTemplates/CommonStructure/ResourceConsumption/__init__.py:26 *)
  ("HardwareConfiguration", [("additionalInformation", DNone); ("processorMode", DNone); ("processorSpeed", DNone)]);
  (* M2/AUTOSARTemplates/CommonStructure/ResourceConsumption/__init__.py:144 *)
  ("SoftwareContext", [("input", DNone); ("state", DNone)]);
  (* M2/AUTOSARTemplates/CommonStructure/ResourceConsumption/__init__.py:218 *)
  ("ResourceConsumption", [("accessCountSets", DList); ("executionTimes", DList); ("heapUsages", DList); ("memorySections", DList); ("sectionNamePrefixes", DList); ("stackUsages", DList); ("elements/AnalyzedExecutionTime+MeasuredExecutionTime+RoughEstimateOfExecutionTime+SimulatedExecutionTime", DList); ("elements/HeapUsage", DList); ("elements/MemorySection", DList); ("elements/SectionNamePrefix", DList); ("elements/StackUsage", DList)]);
  (* M2/AUTOSARTemplates/CommonStructure/ResourceConsumption/ExecutionTime/__init__.py:19 *)
  ("ExecutionTime", [("exclusiveAreaRef", DNone); ("executableEntityRef", DNone); ("hardwareConfiguration", DNone); ("hwElementRef", DNone); ("includedLibraryRefs", DList); ("memorySectionLocations", DList); ("softwareContext", DNone)]);
  (* M2/AUTOSARTemplates/CommonStructure/ResourceConsumption/ExecutionTime/__init__.py:262 *)
  ("MemorySectionLocation", [("providedMemoryRef", DNone); ("softwareMemorySectionRef", DNone)]);
  (* M2/AUTOSARTemplates/CommonStructure/ResourceConsumption/ExecutionTime/__init__.py:339 *)
  ("AnalyzedExecutionTime", [("bestCaseExecutionTime", DNone); ("worstCaseExecutionTime", DNone)]);
  (* M2/AUTOSARTemplates/CommonStructure/ResourceConsumption/ExecutionTime/__init__.py:425 *)
  ("MeasuredExecutionTime", [("maximumExecutionTime", DNone); ("minimumExecutionTime", DNone); ("nominalExecutionTime", DNone)]);
  (* M2/AUTOSARTemplates/CommonStructure/ResourceConsumption/ExecutionTime/__init__.py:535 *)
  ("SimulatedExecutionTime", [("maximumExecutionTime", DNone); ("minimumExecutionTime", DNone); ("nominalExecutionTime", DNone)]);
  (* M2/AUTOSARTemplates/CommonStructure/ResourceConsumption/ExecutionTime/__init__.py:645 *)
  ("RoughEstimateOfExecutionTime", [("additionalInformation", DNone); ("estimatedExecutionTime", DNone)]);
  (* M2/AUTOSARTemplates/CommonStructure/StandardizationTemplate/Keyword.py:14 *)
  ("Keyword", [("abbrName", DNone); ("classifications", DList)]);
  (* M2/AUTOSARTemplates/CommonStructure/StandardizationTemplate/Keyword.py:91 *)
  ("KeywordSet", [("keywords", DList)]);
  (* M2/AUTOSARTemplates/CommonStructure/StandardizationTemplate/AbstractBlueprintStructure/AtpBlueprint.py:13 *)
  ("AtpBlueprint", [("blueprintPolicys", DList)]);
  (* M2/AUTOSARTemplates/CommonStructure/StandardizationTemplate/BlueprintDedicated/PortPrototypeBlueprint.py:22 *)
  ("PortPrototypeBlueprintInitValue", [("dataPrototypeRef", DNone); ("value", DNone)]);
  (* M2/AUTOSARTemplates/CommonStructure/StandardizationTemplate/BlueprintDedicated/PortPrototypeBlueprint.py:89 *)
  ("PortPrototypeBlueprint", [("initValues", DList); ("interfaceRef", DNone); ("providedComSpecs", DList); ("requiredComSpecs", DList)]);
  (* M2/AUTOSARTemplates/CommonStructure/StandardizationTemplate/BlueprintGenerator/BlueprintGenerator.py:7 *)
  ("BlueprintGenerator", [("expression", DNone); ("introduction", DNone)]);
  (* M2/AUTOSARTemplates/CommonStructure/StandardizationTemplate/BlueprintMapping/BlueprintMappingSet.py:5 *)
  ("BlueprintMappingSet", [("mappings", DList)]);
  (* M2/AUTOSARTemplates/CommonStructure/Timing/TimingClock/TDLETZoneClock.py:5 *)
  ("TDLETZoneClock", [("clockRef", DNone); ("zoneRef", DNone)]);
  (* M2/AUTOSARTemplates/CommonStructure/Timing/TimingClock/TimingClock.py:4 *)
  ("TimingClock", [("clockName", DNone); ("clockType", DNone)]);
  (* M2/AUTOSARTemplates/CommonStructure/Timing/TimingClock/TimingClockSyncAccuracy.py:4 *)
  ("TimingClockSyncAccuracy", [("accuracy", DNone); ("unit", DNone)]);
  (* M2/AUTOSARTemplates/CommonStructure/Timing/TimingCondition/TimingCondition.py:5 *)
  ("TimingCondition", [("conditionFormula", DNone); ("modeInstances", DList)]);
  (* M2/AUTOSARTemplates/CommonStructure/Timing/TimingCondition/TimingConditionFormula.py:4 *)
  ("TimingConditionFormula", [("expression", DNone)]);
  (* M2/AUTOSARTemplates/CommonStructure/Timing/TimingCondition/TimingExtensionResource.py:4 *)
  ("TimingExtensionResource", [("resourceName", DNone); ("resourceType", DNone)]);
  (* M2/AUTOSARTemplates/CommonStructure/Timing/TimingCondition/TimingModeInstance.py:5 *)
  ("TimingModeInstance", [("modeRef", DNone); ("modeValue", DNone)]);
  (* M2/AUTOSARTemplates/CommonStructure/Timing/TimingConstraint/AgeConstraint.py:17 *)
  ("AgeConstraint", [("age", DNone)]);
  (* M2/AUTOSARTemplates/CommonStructure/Timing/TimingConstraint/EventTriggeringConstraint.py:43 *)
  ("PeriodicEventTriggering", [("period", DNone)]);
  (* M2/AUTOSARTemplates/CommonStructure/Timing/TimingConstraint/EventTriggeringConstraint.py:75 *)
  ("SporadicEventTriggering", [("min_inter_arrival_time", DNone)]);
  (* M2/AUTOSARTemplates/CommonStructure/Timing/TimingConstraint/EventTriggeringConstraint.py:127 *)
  ("BurstPatternEventTriggering", [("burst_size", DNone); ("burst_interval", DNone)]);
  (* M2/AUTOSARTemplates/CommonStructure/Timing/TimingConstraint/EventTriggeringConstraint.py:190 *)
  ("ConfidenceInterval", [("confidence_level", DNone); ("lower_bound", DNone); ("upper_bound", DNone)]);
  (* M2/AUTOSARTemplates/CommonStructure/Timing/TimingConstraint/ExecutionOrderConstraint.py:38 *)
  ("EOCExecutableEntityRef", [("successor_refs", DList)]);
  (* M2/AUTOSARTemplates/CommonStructure/Timing/TimingConstraint/ExecutionOrderConstraint.py:73 *)
  ("ExecutionOrderConstraint", [("ordered_elements", DList)]);
  (* M2/AUTOSARTemplates/CommonStructure/Timing/TimingConstraint/ExecutionOrderConstraint.py:116 *)
  ("EOCEventRef", [("eventRef", DNone)]);
  (* M2/AUTOSARTemplates/CommonStructure/Timing/TimingConstraint/ExecutionOrderConstraint.py:157 *)
  ("EOCExecutableEntityRefGroup", [("entityRefs", DList)]);
  (* M2/AUTOSARTemplates/CommonStructure/Timing/TimingConstraint/ExecutionTimeConstraint.py:41 *)
  ("ExecutionTimeConstraint", [("execution_type", DNone); ("execution_time", DNone)]);
  (* M2/AUTOSARTemplates/CommonStructure/Timing/TimingConstraint/LatencyTimingConstraint.py:41 *)
  ("LatencyTimingConstraint", [("latency_type", DNone); ("latency", DNone)]);
  (* M2/AUTOSARTemplates/CommonStructure/Timing/TimingConstraint/OffsetConstraint.py:16 *)
  ("OffsetTimingConstraint", [("offset", DNone)]);
  (* M2/AUTOSARTemplates/CommonStructure/Timing/TimingConstraint/SynchronizationPointConstraint.py:17 *)
  ("SynchronizationPointConstraint", [("synchronization_point", DNone)]);
  (* M2/AUTOSARTemplates/CommonStructure/Timing/TimingConstraint/SynchronizationTiming.py:63 *)
  ("SynchronizationTimingConstraint", [("synchronization_type", DNone); ("event_occurrence_kind", DNone)]);
  (* M2/AUTOSARTemplates/CommonStructure/Timing/TimingConstraint/TimingConstraint.py:23 *)
  ("TimingConstraint", [("timing_condition_ref", DNone)]);
  (* M2/AUTOSARTemplates/CommonStructure/Timing/TimingConstraint/TimingExtensions.py:21 *)
  ("TimingExtension", [("timing_requirements", DList)]);
  (* M2/AUTOSARTemplates/DiagnosticExtract/DiagnosticContribution.py:18 *)
  ("DiagnosticServiceTable", [("diagnosticConnectionRefs", DList); ("diagnosticServiceInstanceRefs", DList); ("ecuInstanceRef", DNone); ("protocolKind", DNone)]);
  (* M2/AUTOSARTemplates/EcuResourceTemplate/HwAttributeValue.py:13 *)
  ("HwAttributeValue", [("hwAttributeDefRef", DNone); ("value", DNone)]);
  (* M2/AUTOSARTemplates/EcuResourceTemplate/HwAttributeValue.py:84 *)
  ("HwAttributeLiteralDef", [("value", DNone)]);
  (* M2/AUTOSARTemplates/EcuResourceTemplate/HwElementCategory.py:45 *)
  ("HwAttributeDef", [("hwAttributeLiterals", DList); ("isRequired", DNone); ("unitRef", DNone)]);
  (* M2/AUTOSARTemplates/EcuResourceTemplate/HwElementCategory.py:121 *)
  ("HwCategory", [("hwAttributeDefs", DList)]);
  (* M2/AUTOSARTemplates/EcuResourceTemplate/__init__.py:17 *)
  ("HwDescriptionEntity", [("hwAttributeValues", DList); ("hwCategoryRefs", DList); ("hwTypeRef", DNone)]);
  (* M2/AUTOSARTemplates/EcuResourceTemplate/__init__.py:114 *)
  ("HwPin", [("functionNames", DList); ("packagingPinName", DNone); ("pinNumber", DNone)]);
  (* M2/AUTOSARTemplates/EcuResourceTemplate/__init__.py:188 *)
  ("HwPinGroupContent", [("hwPin", DNone); ("hwPinGroup", DNone)]);
  (* M2/AUTOSARTemplates/EcuResourceTemplate/__init__.py:264 *)
  ("HwPinGroup", [("hwPinGroupContent", DNone)]);
  (* M2/AUTOSARTemplates/EcuResourceTemplate/__init__.py:318 *)
  ("HwPinConnector", [("hwPinRefs", DList)]);
  (* M2/AUTOSARTemplates/EcuResourceTemplate/__init__.py:362 *)
  ("HwPinGroupConnector", [("hwPinConnections", DList); ("hwPinGroupRefs", DList)]);
  (* M2/AUTOSARTemplates/EcuResourceTemplate/__init__.py:433 *)
  ("HwElementConnector", [("hwElementRefs", DList); ("hwPinConnections", DList); ("hwPinGroupConnections", DList)]);
  (* M2/AUTOSARTemplates/EcuResourceTemplate/__init__.py:531 *)
  ("HwElement", [("hwElementConnections", DList); ("hwPinGroups", DList); ("nestedElementRefs", DList)]);
  (* M2/AUTOSARTemplates/GenericStructure/AbstractStructure.py:13 *)
  ("AtpInstanceRef", [("atpBaseRef", DNone); ("atpContextElementRefs", DList); ("atpTargetRef", DNone)]);
  (* M2/AUTOSARTemplates/GenericStructure/LifeCycles.py:15 *)
  ("LifeCyclePeriod", [("arReleaseVersion", DNone); ("date", DNone); ("productRelease", DNone)]);
  (* M2/AUTOSARTemplates/GenericStructure/LifeCycles.py:110 *)
  ("LifeCycleInfo", [("lcObjectRef", DNone); ("lcStateRef", DNone); ("periodBegin", DNone); ("periodEnd", DNone); ("remark", DNone); ("useInsteadRefs", DList)]);
  (* M2/AUTOSARTemplates/GenericStructure/LifeCycles.py:286 *)
  ("LifeCycleInfoSet", [("defaultLcStateRef", DNone); ("defaultPeriodBegin", DNone); ("defaultPeriodEnd", DNone); ("lifeCycleInfos", DList); ("usedLifeCycleStateDefinitionGroupRef", DNone)]);
  (* M2/AUTOSARTemplates/GenericStructure/DocumentationOnM1/__init__.py:12 *)
  ("Documentation", [("contexts", DList); ("documentationContent", DNone)]);
  (* M2/AUTOSARTemplates/GenericStructure/DocumentationOnM1/__init__.py:81 *)
  ("DocumentationContext", [("featureIRef", DNone); ("identifiableRef", DNone)]);
  (* M2/AUTOSARTemplates/GenericStructure/GeneralTemplateClasses/ARPackage.py:98 *)
  ("ReferenceBase", [("globalElements", DList); ("globalInPackageRefs", DList); ("isDefault", DNone); ("isGlobal", DNone); ("BaseIsThisPackage", DNone); ("packageRef", DNone); ("shortLabel", DNone)]);
  (* M2/AUTOSARTemplates/GenericStructure/GeneralTemplateClasses/ARPackage.py:299 *)
  ("ARPackage", [("short_name", DNone); ("longName", DNone); ("annotations", DList); ("adminData", DNone); ("category", DNone); ("introduction", DNone); ("desc", DNone); ("arPackages", DList); ("referenceBases", DList); ("elements/ApplicationDataType", DList); ("elements/CompositionSwComponentType", DList)]);
  (* M2/AUTOSARTemplates/GenericStructure/GeneralTemplateClasses/AnyInstanceRef.py:11 *)
  ("AnyInstanceRef", [("baseRef", DNone); ("contextElementRefs", DList); ("targetRef", DNone)]);
  (* M2/AUTOSARTemplates/GenericStructure/GeneralTemplateClasses/ArObject.py:10 *)
  ("ARObject", [("checksum", DNone); ("timestamp", DNone); ("uuid", DNone)]);
  (* M2/AUTOSARTemplates/GenericStructure/GeneralTemplateClasses/ElementCollection.py:14 *)
  ("Collection", [("autoCollect", DNone); ("collectedInstances", DList); ("collectionSemantics", DNone); ("elementRefs", DList); ("elementRole", DNone); ("sourceElementRefs", DList); ("sourceInstances", DList)]);
  (* M2/AUTOSARTemplates/GenericStructure/GeneralTemplateClasses/EngineeringObject.py:12 *)
  ("EngineeringObject", [("category", DNone); ("domain", DNone); ("revisionLabels", DList); ("shortLabel", DNone)]);
  (* M2/AUTOSARTemplates/GenericStructure/GeneralTemplateClasses/Identifiable.py:21 *)
  ("Referrable", [("short_name", DNone); ("shortNameFragments", DList)]);
  (* M2/AUTOSARTemplates/GenericStructure/GeneralTemplateClasses/Identifiable.py:116 *)
  ("ShortNameFragment", [("role", DNone); ("fragment", DNone)]);
  (* M2/AUTOSARTemplates/GenericStructure/GeneralTemplateClasses/Identifiable.py:186 *)
  ("MultilanguageReferrable", [("longName", DNone)]);
  (* M2/AUTOSARTemplates/GenericStructure/GeneralTemplateClasses/Identifiable.py:229 *)
  ("CollectableElement", [("elements", DList)]);
  (* M2/AUTOSARTemplates/GenericStructure/GeneralTemplateClasses/Identifiable.py:345 *)
  ("Identifiable", [("elements", DList); ("annotations", DList); ("adminData", DNone); ("category", DNone); ("introduction", DNone); ("desc", DNone); ("variationPoint", DNone)]);
  (* M2/AUTOSARTemplates/GenericStructure/GeneralTemplateClasses/Identifiable.py:654 *)
  ("Describable", [("adminData", DNone); ("category", DNone); ("desc", DNone); ("introduction", DNone)]);
  (* M2/AUTOSARTemplates/GenericStructure/GeneralTemplateClasses/MultidimensionalTime.py:11 *)
  ("MultidimensionalTime", [("cseCode", DNone); ("cseCodeFactor", DNone)]);
  (* M2/AUTOSARTemplates/GenericStructure/GeneralTemplateClasses/PrimitiveTypes.py:12 *)
  ("ARType", [("timestamp", DNone); ("uuid", DNone); ("_value", DNone)]);
  (* M2/AUTOSARTemplates/GenericStructure/GeneralTemplateClasses/PrimitiveTypes.py:74 *)
  ("ARNumerical", [("shortLabel", DNone); ("_text", DNone)]);
  (* M2/AUTOSARTemplates/GenericStructure/GeneralTemplateClasses/PrimitiveTypes.py:183 *)
  ("ARFloat", [("_text", DNone)]);
  (* M2/AUTOSARTemplates/GenericStructure/GeneralTemplateClasses/PrimitiveTypes.py:563 *)
  ("ARBoolean", [("_text", DNone)]);
  (* M2/AUTOSARTemplates/GenericStructure/GeneralTemplateClasses/PrimitiveTypes.py:754 *)
  ("Identifier", [("blueprintValue", DNone); ("namePattern", DNone)]);
  (* M2/AUTOSARTemplates/GenericStructure/GeneralTemplateClasses/PrimitiveTypes.py:823 *)
  ("CIdentifier", [("blueprintValue", DNone); ("namePattern", DNone)]);
  (* M2/AUTOSARTemplates/GenericStructure/GeneralTemplateClasses/PrimitiveTypes.py:938 *)
  ("Limit", [("intervalType", DNone); ("value", DNone)]);
  (* M2/AUTOSARTemplates/GenericStructure/GeneralTemplateClasses/PrimitiveTypes.py:1009 *)
  ("RefType", [("base", DNone); ("dest", DNone); ("value", DNone)]);
  (* M2/AUTOSARTemplates/GenericStructure/VariantHandling/__init__.py:18 *)
  ("PostBuildVariantCriterion", [("compuMethodRef", DNone)]);
  (* M2/AUTOSARTemplates/GenericStructure/VariantHandling/__init__.py:65 *)
  ("PostBuildVariantCriterionValue", [("annotations", DList); ("value", DNone); ("variantCriterionRef", DNone)]);
  (* M2/AUTOSARTemplates/GenericStructure/VariantHandling/__init__.py:153 *)
  ("PredefinedVariant", [("includedVariantRefs", DList); ("postBuildVariantCriterionValueSetRefs", DList); ("swSystemconstantValueSetRefs", DList)]);
  (* M2/AUTOSARTemplates/GenericStructure/VariantHandling/__init__.py:209 *)
  ("SwSystemconstValue", [("annotations", DList); ("swSystemconstRef", DNone); ("value", DNone)]);
  (* M2/AUTOSARTemplates/GenericStructure/VariantHandling/__init__.py:275 *)
  ("SwSystemconstantValueSet", [("swSystemconstantValues", DList)]);
  (* M2/AUTOSARTemplates/GenericStructure/VariantHandling/__init__.py:312 *)
  ("PostBuildVariantCondition", [("matchingCriterionRef", DNone); ("value", DNone)]);
  (* M2/AUTOSARTemplates/GenericStructure/VariantHandling/__init__.py:384 *)
  ("ConditionByFormula", [("bindingTime", DNone)]);
  (* M2/AUTOSARTemplates/GenericStructure/VariantHandling/__init__.py:434 *)
  ("VariationPoint", [("blueprintCondition", DNone); ("desc", DNone); ("formalBlueprintGenerator", DNone); ("postBuildVariantConditions", DList); ("sdg", DNone); ("shortLabel", DNone); ("swSyscond", DNone)]);
  (* M2/AUTOSARTemplates/GenericStructure/VariantHandling/AttributeValueVariationPoints/__init__.py:15 *)
  ("AttributeValueVariationPoint", [("bindingTime", DNone); ("blueprintValue", DNone); ("sd", DNone); ("shortLabel", DNone); ("_text", DNone)]);
  (* M2/AUTOSARTemplates/GenericStructure/VariantHandling/AttributeValueVariationPoints/__init__.py:174 *)
  ("LimitValueVariationPoint", [("intervalType", DNone)]);
  (* M2/AUTOSARTemplates/SWComponentTemplate/Communication.py:76 *)
  ("ReceptionComSpecProps", [("dataUpdatePeriod", DNone); ("timeout", DNone)]);
  (* M2/AUTOSARTemplates/SWComponentTemplate/Communication.py:156 *)
  ("CompositeNetworkRepresentation", [("leafElementIRef", DNone); ("networkRepresentation", DNone)]);
  (* M2/AUTOSARTemplates/SWComponentTemplate/Communication.py:269 *)
  ("TransmissionComSpecProps", [("dataUpdatePeriod", DNone); ("minimumSendInterval", DNone); ("transmissionMode", DNone)]);
  (* M2/AUTOSARTemplates/SWComponentTemplate/Communication.py:344 *)
  ("TransmissionAcknowledgementRequest", [("timeout", DNone)]);
  (* M2/AUTOSARTemplates/SWComponentTemplate/Communication.py:379 *)
  ("SenderComSpec", [("compositeNetworkRepresentations", DList); ("dataElementRef", DNone); ("handleOutOfRange", DNone); ("networkRepresentation", DNone); ("transmissionAcknowledge", DNone); ("transmissionProps", DNone); ("usesEndToEndProtection", DNone)]);
  (* M2/AUTOSARTemplates/SWComponentTemplate/Communication.py:550 *)
  ("NonqueuedSenderComSpec", [("dataFilter", DNone); ("initValue", DNone)]);
  (* M2/AUTOSARTemplates/SWComponentTemplate/Communication.py:605 *)
  ("ClientComSpec", [("endToEndCallResponseTimeout", DNone); ("operationRef", DNone); ("transformationComSpecProps", DList)]);
  (* M2/AUTOSARTemplates/SWComponentTemplate/Communication.py:680 *)
  ("ModeSwitchReceiverComSpec", [("enhancedModeApi", DNone); ("modeGroupRef", DNone); ("supportsAsynchronousModeSwitch", DNone)]);
  (* M2/AUTOSARTemplates/SWComponentTemplate/Communication.py:771 *)
  ("NvRequireComSpec", [("initValue", DNone); ("variableRef", DNone)]);
  (* M2/AUTOSARTemplates/SWComponentTemplate/Communication.py:839 *)
  ("ParameterRequireComSpec", [("initValue", DNone); ("parameterRef", DNone)]);
  (* M2/AUTOSARTemplates/SWComponentTemplate/Communication.py:905 *)
  ("ReceiverComSpec", [("compositeNetworkRepresentations", DList); ("dataElementRef", DNone); ("handleOutOfRange", DNone); ("handleOutOfRangeStatus", DNone); ("maxDeltaCounterInit", DNone); ("maxNoNewOrRepeatedData", DNone); ("networkRepresentation", DNone); ("receptionProps", DNone); ("replaceWith", DNone); ("syncCounterInit", DNone); ("transformationComSpecProps", DList); ("usesEndToEndProtection", DNone)]);
  (* M2/AUTOSARTemplates/SWComponentTemplate/Communication.py:1162 *)
  ("ModeSwitchedAckRequest", [("timeout", DNone)]);
  (* M2/AUTOSARTemplates/SWComponentTemplate/Communication.py:1202 *)
  ("ModeSwitchSenderComSpec", [("enhancedModeApi", DNone); ("modeGroupRef", DNone); ("modeSwitchedAck", DNone); ("queueLength", DNone)]);
  (* M2/AUTOSARTemplates/SWComponentTemplate/Communication.py:1319 *)
  ("ParameterProvideComSpec", [("initValue", DNone); ("parameterRef", DNone)]);
  (* M2/AUTOSARTemplates/SWComponentTemplate/Communication.py:1405 *)
  ("ServerComSpec", [("operationRef", DNone); ("queueLength", DNone); ("transformationComSpecProps", DList)]);
  (* M2/AUTOSARTemplates/SWComponentTemplate/Communication.py:1480 *)
  ("NvProvideComSpec", [("ramBlockInitValue", DNone); ("romBlockInitValue", DNone); ("variableRef", DNone)]);
  (* M2/AUTOSARTemplates/SWComponentTemplate/Communication.py:1575 *)
  ("NonqueuedReceiverComSpec", [("aliveTimeout", DNone); ("enableUpdate", DNone); ("filter", DNone); ("handleDataStatus", DNone); ("handleNeverReceived", DNone); ("handleTimeoutType", DNone); ("initValue", DNone); ("timeoutSubstitutionValue", DNone)]);
  (* M2/AUTOSARTemplates/SWComponentTemplate/Communication.py:1750 *)
  ("QueuedReceiverComSpec", [("queueLength", DNone)]);
  (* M2/AUTOSARTemplates/SWComponentTemplate/EndToEndProtection.py:15 *)
  ("EndToEndDescription", [("category", DNone); ("counterOffset", DNone); ("crcOffset", DNone); ("dataIds", DList); ("dataIdMode", DNone); ("dataIdNibbleOffset", DNone); ("dataLength", DNone); ("maxDeltaCounterInit", DNone); ("maxNoNewOrRepeatedData", DNone); ("syncCounterInit", DNone)]);
  (* M2/AUTOSARTemplates/SWComponentTemplate/EndToEndProtection.py:280 *)
  ("EndToEndProtectionVariablePrototype", [("_receiverIRefs", DList); ("senderIRef", DNone); ("shortLabel", DNone)]);
  (* M2/AUTOSARTemplates/SWComponentTemplate/EndToEndProtection.py:318 *)
  ("EndToEndProtectionISignalIPdu", [("dataOffset", DNone); ("iSignalGroupRef", DNone); ("iSignalIPduRef", DNone)]);
  (* M2/AUTOSARTemplates/SWComponentTemplate/EndToEndProtection.py:407 *)
  ("EndToEndProtection", [("endToEndProfile", DNone); ("endToEndProtectionISignalIPdus", DList); ("endToEndProtectionVariablePrototypes", DList)]);
  (* M2/AUTOSARTemplates/SWComponentTemplate/EndToEndProtection.py:499 *)
  ("EndToEndProtectionSet", [("elements/EndToEndProtection", DList)]);
  (* M2/AUTOSARTemplates/SWComponentTemplate/NvBlockComponent.py:13 *)
  ("NvBlockDataMapping", [("bitfieldTextTableMaskNvBlockDescriptor", DNone); ("bitfieldTextTableMaskPortPrototype", DNone); ("nvRamBlockElement", DNone); ("readNvData", DNone); ("writtenNvData", DNone); ("writtenReadNvData", DNone)]);
  (* M2/AUTOSARTemplates/SWComponentTemplate/NvBlockComponent.py:225 *)
  ("BulkNvDataDescriptor", [("bulkNvBlock", DNone); ("nvBlockDataMappings", DList)]);
  (* M2/AUTOSARTemplates/SWComponentTemplate/NvBlockComponent.py:305 *)
  ("NvBlockDescriptor", [("clientServerPorts", DList); ("constantValueMappingRefs", DList); ("dataTypeMappingRefs", DList); ("instantiationDataDefPropss", DList); ("modeSwitchEventTriggeredActivitys", DList); ("nvBlockDataMappings", DList); ("nvBlockNeeds", DNone); ("ramBlock", DNone); ("romBlock", DNone); ("supportDirtyFlag", DNone); ("timingEventRef", DNone); ("writingStrategies", DList)]);
  (* M2/AUTOSARTemplates/SWComponentTemplate/NvBlockComponent.py:715 *)
  ("ModeSwitchEventTriggeredActivity", [("role", DNone); ("swcModeSwitchEventRef", DNone)]);
  (* M2/AUTOSARTemplates/SWComponentTemplate/RPTScenario.py:67 *)
  ("RptImplPolicy", [("rptEnablerImplType", DNone); ("rptPreparationLevel", DNone)]);
  (* M2/AUTOSARTemplates/SWComponentTemplate/RPTScenario.py:142 *)
  ("RptExecutableEntityProperties", [("maxRptEventId", DNone); ("minRptEventId", DNone); ("rptExecutionControl", DNone); ("rptServicePoint", DNone)]);
  (* M2/AUTOSARTemplates/SWComponentTemplate/SoftwareComponentDocumentation.py:18 *)
  ("SwComponentDocumentation", [("chapters", DList); ("swCalibrationNotes", DNone); ("swCarbDoc", DNone); ("swDiagnosticsNotes", DNone); ("swFeatureDef", DNone); ("swFeatureDesc", DNone); ("swMaintenanceNotes", DNone); ("swTestDesc", DNone)]);
  (* M2/AUTOSARTemplates/SWComponentTemplate/SwComponentType.py:30 *)
  ("SwComponentType", [("consistencyNeeds", DList); ("ports", DList); ("portGroups", DList); ("swcMappingConstraintsRefs", DList); ("swComponentDocumentation", DNone); ("unitGroupRefs", DList)]);
  (* M2/AUTOSARTemplates/SWComponentTemplate/SwcImplementation.py:11 *)
  ("SwcImplementation", [("behaviorRef", DNone); ("perInstanceMemorySizes", DList); ("requiredRTEVendor", DNone)]);
  (* M2/AUTOSARTemplates/SWComponentTemplate/ApplicationAttributes/__init__.py:148 *)
  ("SenderReceiverAnnotation", [("computed", DNone); ("dataElementRef", DNone); ("limitKind", DNone); ("processingKind", DNone)]);
  (* M2/AUTOSARTemplates/SWComponentTemplate/ApplicationAttributes/__init__.py:278 *)
  ("ClientServerAnnotation", [("operationRef", DNone)]);
  (* M2/AUTOSARTemplates/SWComponentTemplate/ApplicationAttributes/__init__.py:321 *)
  ("IoHwAbstractionServerAnnotation", [("filteringDebouncing", DNone); ("pulseTest", DNone); ("triggerRef", DNone)]);
  (* M2/AUTOSARTemplates/SWComponentTemplate/ApplicationAttributes/__init__.py:422 *)
  ("ModePortAnnotation", [("modeGroupRef", DNone)]);
  (* M2/AUTOSARTemplates/SWComponentTemplate/ApplicationAttributes/__init__.py:465 *)
  ("NvDataPortAnnotation", [("variableRef", DNone)]);
  (* M2/AUTOSARTemplates/SWComponentTemplate/ApplicationAttributes/__init__.py:508 *)
  ("ParameterPortAnnotation", [("parameterRef", DNone)]);
  (* M2/AUTOSARTemplates/SWComponentTemplate/ApplicationAttributes/__init__.py:551 *)
  ("TriggerPortAnnotation", [("triggerRef", DNone)]);
  (* M2/AUTOSARTemplates/SWComponentTemplate/ApplicationAttributes/__init__.py:594 *)
  ("DelegatedPortAnnotation", [("signalFan", DNone)]);
  (* M2/AUTOSARTemplates/SWComponentTemplate/Components/InstanceRefs.py:14 *)
  ("ModeGroupInAtomicSwcInstanceRef", [("baseRef", DNone); ("contextPortRef", DNone); ("targetRef", DNone)]);
  (* M2/AUTOSARTemplates/SWComponentTemplate/Components/InstanceRefs.py:62 *)
  ("PModeGroupInAtomicSwcInstanceRef", [("contextPPortRef", DNone); ("targetModeGroupRef", DNone)]);
  (* M2/AUTOSARTemplates/SWComponentTemplate/Components/InstanceRefs.py:96 *)
  ("RModeGroupInAtomicSWCInstanceRef", [("contextRPortRef", DNone); ("targetModeGroupRef", DNone)]);
  (* M2/AUTOSARTemplates/SWComponentTemplate/Components/InstanceRefs.py:130 *)
  ("RModeInAtomicSwcInstanceRef", [("baseRef", DNone); ("contextModeDeclarationGroupPrototypeRef", DNone); ("contextPortRef", DNone); ("targetModeDeclarationRef", DNone)]);
  (* M2/AUTOSARTemplates/SWComponentTemplate/Components/InstanceRefs.py:184 *)
  ("TriggerInAtomicSwcInstanceRef", [("baseRef", DNone); ("contextPortRef", DNone); ("targetRef", DNone)]);
  (* M2/AUTOSARTemplates/SWComponentTemplate/Components/InstanceRefs.py:301 *)
  ("PTriggerInAtomicSwcTypeInstanceRef", [("contextPPortRef", DNone); ("targetTriggerRef", DNone)]);
  (* M2/AUTOSARTemplates/SWComponentTemplate/Components/InstanceRefs.py:379 *)
  ("VariableInAtomicSwcInstanceRef", [("abstractTargetDataElementRef", DNone); ("baseRef", DNone); ("contextPortRef", DNone)]);
  (* M2/AUTOSARTemplates/SWComponentTemplate/Components/InstanceRefs.py:399 *)
  ("RVariableInAtomicSwcInstanceRef", [("contextRPortRef", DNone); ("targetDataElementRef", DNone)]);
  (* M2/AUTOSARTemplates/SWComponentTemplate/Components/InstanceRefs.py:433 *)
  ("InnerPortGroupInCompositionInstanceRef", [("baseRef", DNone); ("contextRefs", DList); ("targetRef", DNone)]);
  (* M2/AUTOSARTemplates/SWComponentTemplate/Components/__init__.py:49 *)
  ("PortPrototype", [("clientServerAnnotations", DList); ("delegatedPortAnnotation", DNone); ("ioHwAbstractionServerAnnotations", DList); ("modePortAnnotations", DList); ("nvDataPortAnnotations", DList); ("parameterPortAnnotations", DList); ("senderReceiverAnnotations", DList); ("triggerPortAnnotations", DList)]);
  (* M2/AUTOSARTemplates/SWComponentTemplate/Components/__init__.py:297 *)
  ("AbstractProvidedPortPrototype", [("providedComSpecs", DList)]);
  (* M2/AUTOSARTemplates/SWComponentTemplate/Components/__init__.py:342 *)
  ("AbstractRequiredPortPrototype", [("requiredComSpecs", DList)]);
  (* M2/AUTOSARTemplates/SWComponentTemplate/Components/__init__.py:392 *)
  ("PPortPrototype", [("providedInterfaceTRef", DNone)]);
  (* M2/AUTOSARTemplates/SWComponentTemplate/Components/__init__.py:411 *)
  ("RPortPrototype", [("mayBeUnconnected", DNone); ("requiredInterfaceTRef", DNone)]);
  (* M2/AUTOSARTemplates/SWComponentTemplate/Components/__init__.py:440 *)
  ("PRPortPrototype", [("providedComSpecs", DList); ("requiredComSpecs", DList); ("providedRequiredInterface", DNone)]);
  (* M2/AUTOSARTemplates/SWComponentTemplate/Components/__init__.py:479 *)
  ("PortGroup", [("_inner_group_iref", DList); ("_outer_port_ref", DList)]);
  (* M2/AUTOSARTemplates/SWComponentTemplate/Components/__init__.py:506 *)
  ("AtomicSwComponentType", [("internalBehavior", DNone); ("symbolProps", DNone)]);
  (* M2/AUTOSARTemplates/SWComponentTemplate/Components/__init__.py:587 *)
  ("EcuAbstractionSwComponentType", [("hardwareElementRefs", DList)]);
  (* M2/AUTOSARTemplates/SWComponentTemplate/Components/__init__.py:646 *)
  ("ComplexDeviceDriverSwComponentType", [("hardwareElementRefs", DList)]);
  (* M2/AUTOSARTemplates/SWComponentTemplate/Components/__init__.py:692 *)
  ("NvBlockSwComponentType", [("bulkNvDataDescriptors", DList); ("nvBlockDescriptors", DList)]);
  (* M2/AUTOSARTemplates/SWComponentTemplate/Components/__init__.py:775 *)
  ("SensorActuatorSwComponentType", [("sensorActuatorRef", DNone)]);
  (* M2/AUTOSARTemplates/SWComponentTemplate/Composition/InstanceRefs.py:14 *)
  ("PortInCompositionTypeInstanceRef", [("abstractContextComponentRef", DNone); ("baseRef", DNone); ("targetPortRef", DNone)]);
  (* M2/AUTOSARTemplates/SWComponentTemplate/Composition/InstanceRefs.py:61 *)
  ("PPortInCompositionInstanceRef", [("contextComponentRef", DNone); ("targetPPortRef", DNone)]);
  (* M2/AUTOSARTemplates/SWComponentTemplate/Composition/InstanceRefs.py:95 *)
  ("RPortInCompositionInstanceRef", [("contextComponentRef", DNone); ("targetRPortRef", DNone)]);
  (* M2/AUTOSARTemplates/SWComponentTemplate/Composition/InstanceRefs.py:129 *)
  ("OperationInAtomicSwcInstanceRef", [("baseRef", DNone); ("contextPortRef", DNone); ("targetOperationRef", DNone)]);
  (* M2/AUTOSARTemplates/SWComponentTemplate/Composition/InstanceRefs.py:176 *)
  ("POperationInAtomicSwcInstanceRef", [("contextPPortRef", DNone); ("targetProvidedOperationRef", DNone)]);
  (* M2/AUTOSARTemplates/SWComponentTemplate/Composition/InstanceRefs.py:210 *)
  ("ROperationInAtomicSwcInstanceRef", [("contextRPortRef", DNone); ("targetRequiredOperationRef", DNone)]);
  (* M2/AUTOSARTemplates/SWComponentTemplate/Composition/InstanceRefs.py:244 *)
  ("InstanceEventInCompositionInstanceRef", [("baseRef", DNone); ("contextComponentPrototypeRefs", DList); ("targetEventRef", DNone)]);
  (* M2/AUTOSARTemplates/SWComponentTemplate/Composition/__init__.py:19 *)
  ("SwComponentPrototype", [("typeTRef", DNone)]);
  (* M2/AUTOSARTemplates/SWComponentTemplate/Composition/__init__.py:38 *)
  ("SwConnector", [("mappingRef", DNone)]);
  (* M2/AUTOSARTemplates/SWComponentTemplate/Composition/__init__.py:84 *)
  ("AssemblySwConnector", [("providerIRef", DNone); ("requesterIRef", DNone)]);
  (* M2/AUTOSARTemplates/SWComponentTemplate/Composition/__init__.py:113 *)
  ("DelegationSwConnector", [("innerPortIRref", DNone); ("outerPortRef", DNone)]);
  (* M2/AUTOSARTemplates/SWComponentTemplate/Composition/__init__.py:142 *)
  ("PassThroughSwConnector", [("providedOuterPortRef", DNone); ("requiredOuterPortRef", DNone)]);
  (* M2/AUTOSARTemplates/SWComponentTemplate/Composition/__init__.py:215 *)
  ("InstantiationRTEEventProps", [("refinedEventIRef", DNone); ("shortLabel", DNone)]);
  (* M2/AUTOSARTemplates/SWComponentTemplate/Composition/__init__.py:291 *)
  ("InstantiationTimingEventProps", [("period", DNone)]);
  (* M2/AUTOSARTemplates/SWComponentTemplate/Composition/__init__.py:335 *)
  ("CompositionSwComponentType", [("components", DList); ("connectors", DList); ("constantValueMappingRefs", DList); ("dataTypeMappingRefs", DList); ("instantiationRTEEventProps", DList); ("physicalDimensionMappingRef", DNone)]);
  (* M2/AUTOSARTemplates/SWComponentTemplate/Datatype/DataPrototypes.py:25 *)
  ("DataPrototype", [("swDataDefProps", DNone)]);
  (* M2/AUTOSARTemplates/SWComponentTemplate/Datatype/DataPrototypes.py:70 *)
  ("AutosarDataPrototype", [("typeTRef", DNone)]);
  (* M2/AUTOSARTemplates/SWComponentTemplate/Datatype/DataPrototypes.py:115 *)
  ("VariableDataPrototype", [("initValue", DNone)]);
  (* M2/AUTOSARTemplates/SWComponentTemplate/Datatype/DataPrototypes.py:154 *)
  ("ApplicationCompositeElementDataPrototype", [("typeTRef", DNone)]);
  (* M2/AUTOSARTemplates/SWComponentTemplate/Datatype/DataPrototypes.py:181 *)
  ("ApplicationArrayElement", [("arraySizeHandling", DNone); ("arraySizeSemantics", DNone); ("indexDataTypeRef", DNone); ("maxNumberOfElements", DNone)]);
  (* M2/AUTOSARTemplates/SWComponentTemplate/Datatype/DataPrototypes.py:308 *)
  ("ApplicationRecordElement", [("isOptional", DNone)]);
  (* M2/AUTOSARTemplates/SWComponentTemplate/Datatype/DataPrototypes.py:348 *)
  ("ParameterDataPrototype", [("initValue", DNone)]);
  (* M2/AUTOSARTemplates/SWComponentTemplate/Datatype/Datatypes.py:18 *)
  ("AutosarDataType", [("swDataDefProps", DNone)]);
  (* M2/AUTOSARTemplates/SWComponentTemplate/Datatype/Datatypes.py:120 *)
  ("ApplicationArrayDataType", [("dynamicArraySizeProfile", DNone); ("element", DNone)]);
  (* M2/AUTOSARTemplates/SWComponentTemplate/Datatype/Datatypes.py:193 *)
  ("ApplicationRecordDataType", [("record_elements", DList)]);
  (* M2/AUTOSARTemplates/SWComponentTemplate/Datatype/Datatypes.py:220 *)
  ("DataTypeMap", [("applicationDataTypeRef", DNone); ("implementationDataTypeRef", DNone)]);
  (* M2/AUTOSARTemplates/SWComponentTemplate/Datatype/Datatypes.py:252 *)
  ("DataTypeMappingSet", [("dataTypeMaps", DList); ("modeRequestTypeMaps", DList)]);
  (* M2/AUTOSARTemplates/SWComponentTemplate/ImplicitCommunicationBehavior/InstanceRefs.py:15 *)
  ("InnerDataPrototypeGroupInCompositionInstanceRef", [("baseRef", DNone); ("contextSwComponentPrototypeRefs", DList); ("targetDataPrototypeGroupRef", DNone)]);
  (* M2/AUTOSARTemplates/SWComponentTemplate/ImplicitCommunicationBehavior/InstanceRefs.py:121 *)
  ("InnerRunnableEntityGroupInCompositionInstanceRef", [("baseRef", DNone); ("contextSwComponentPrototypeRefs", DList); ("targetRunnableEntityGroupRef", DNone)]);
  (* M2/AUTOSARTemplates/SWComponentTemplate/ImplicitCommunicationBehavior/InstanceRefs.py:227 *)
  ("RunnableEntityInCompositionInstanceRef", [("baseRef", DNone); ("contextSwComponentPrototypeRefs", DList); ("targetRunnableEntityRef", DNone)]);
  (* M2/AUTOSARTemplates/SWComponentTemplate/ImplicitCommunicationBehavior/InstanceRefs.py:333 *)
  ("VariableDataPrototypeInCompositionInstanceRef", [("baseRef", DNone); ("contextPortPrototypeRef", DNone); ("contextSwComponentPrototypeRefs", DList); ("targetVariableDataPrototypeRef", DNone)]);
  (* M2/AUTOSARTemplates/SWComponentTemplate/ImplicitCommunicationBehavior/__init__.py:20 *)
  ("DataPrototypeGroup", [("dataPrototypeGroupIRefs", DList); ("implicitDataAccessIRefs", DList)]);
  (* M2/AUTOSARTemplates/SWComponentTemplate/ImplicitCommunicationBehavior/__init__.py:106 *)
  ("RunnableEntityGroup", [("runnableEntityIRefs", DList); ("runnableEntityGroupIRefs", DList)]);
  (* M2/AUTOSARTemplates/SWComponentTemplate/ImplicitCommunicationBehavior/__init__.py:190 *)
  ("ConsistencyNeeds", [("dpgDoesNotRequireCoherency", DList); ("dpgRequiresCoherency", DList); ("regDoesNotRequireStability", DList); ("regRequiresStability", DList)]);
  (* M2/AUTOSARTemplates/SWComponentTemplate/PortInterface/InstanceRefs.py:11 *)
  ("ApplicationCompositeElementInPortInterfaceInstanceRef", [("baseRef", DNone); ("contextDataPrototypeRef", DNone); ("rootDataPrototypeRef", DNone); ("targetDataPrototypeRef", DNone)]);
  (* M2/AUTOSARTemplates/SWComponentTemplate/PortInterface/__init__.py:33 *)
  ("PortInterface", [("isService", DNone); ("serviceKind", DNone)]);
  (* M2/AUTOSARTemplates/SWComponentTemplate/PortInterface/__init__.py:133 *)
  ("NvDataInterface", [("elements/VariableDataPrototype", DList)]);
  (* M2/AUTOSARTemplates/SWComponentTemplate/PortInterface/__init__.py:184 *)
  ("ParameterInterface", [("parameters", DList)]);
  (* M2/AUTOSARTemplates/SWComponentTemplate/PortInterface/__init__.py:205 *)
  ("InvalidationPolicy", [("dataElementRef", DNone); ("handleInvalid", DNone)]);
  (* M2/AUTOSARTemplates/SWComponentTemplate/PortInterface/__init__.py:234 *)
  ("MetaDataItem", [("length", DNone); ("metaDataItemType", DNone)]);
  (* M2/AUTOSARTemplates/SWComponentTemplate/PortInterface/__init__.py:263 *)
  ("MetaDataItemSet", [("dataElementRefs", DList); ("metaDataItems", DList)]);
  (* M2/AUTOSARTemplates/SWComponentTemplate/PortInterface/__init__.py:292 *)
  ("SenderReceiverInterface", [("invalidationPolicies", DList); ("metaDataItemSets", DList); ("elements/VariableDataPrototype", DList)]);
  (* M2/AUTOSARTemplates/SWComponentTemplate/PortInterface/__init__.py:370 *)
  ("ArgumentDataPrototype", [("direction", DNone); ("serverArgumentImplPolicy", DNone)]);
  (* M2/AUTOSARTemplates/SWComponentTemplate/PortInterface/__init__.py:474 *)
  ("ApplicationError", [("errorCode", DNone)]);
  (* M2/AUTOSARTemplates/SWComponentTemplate/PortInterface/__init__.py:520 *)
  ("ClientServerOperation", [("arguments", DList); ("diagArgIntegrity", DNone); ("possibleErrorRefs", DList)]);
  (* M2/AUTOSARTemplates/SWComponentTemplate/PortInterface/__init__.py:654 *)
  ("ClientServerInterface", [("operations", DList); ("possibleErrors", DList)]);
  (* M2/AUTOSARTemplates/SWComponentTemplate/PortInterface/__init__.py:731 *)
  ("TriggerInterface", [("_triggers", DList)]);
  (* M2/AUTOSARTemplates/SWComponentTemplate/PortInterface/__init__.py:741 *)
  ("ModeSwitchInterface", [("modeGroup", DNone)]);
  (* M2/AUTOSARTemplates/SWComponentTemplate/PortInterface/__init__.py:802 *)
  ("ClientServerApplicationErrorMapping", [("firstApplicationErrorRef", DNone); ("secondApplicationErrorRef", DNone)]);
  (* M2/AUTOSARTemplates/SWComponentTemplate/PortInterface/__init__.py:831 *)
  ("ClientServerOperationMapping", [("argumentMappings", DList); ("firstOperationRef", DNone); ("firstToSecondDataTransformationRef", DNone); ("secondOperationRef", DNone)]);
  (* M2/AUTOSARTemplates/SWComponentTemplate/PortInterface/__init__.py:880 *)
  ("SubElementMapping", [("firstElement", DNone); ("secondElement", DNone); ("textTableMappings", DList)]);
  (* M2/AUTOSARTemplates/SWComponentTemplate/PortInterface/__init__.py:993 *)
  ("DataPrototypeMapping", [("firstDataPrototypeRef", DNone); ("firstToSecondDataTransformationRef", DNone); ("secondDataPrototypeRef", DNone); ("secondToFirstDataTransformationRef", DNone); ("subElementMappings", DList); ("textTableMappings", DList)]);
  (* M2/AUTOSARTemplates/SWComponentTemplate/PortInterface/__init__.py:1128 *)
  ("ClientServerInterfaceMapping", [("errorMappings", DList); ("operationMappings", DList)]);
  (* M2/AUTOSARTemplates/SWComponentTemplate/PortInterface/__init__.py:1159 *)
  ("VariableAndParameterInterfaceMapping", [("dataMappings", DList)]);
  (* M2/AUTOSARTemplates/SWComponentTemplate/PortInterface/__init__.py:1178 *)
  ("ModeInterfaceMapping", [("modeMapping", DNone)]);
  (* M2/AUTOSARTemplates/SWComponentTemplate/PortInterface/__init__.py:1198 *)
  ("TriggerInterfaceMapping", [("triggerMapping", DList)]);
  (* M2/AUTOSARTemplates/SWComponentTemplate/PortInterface/__init__.py:1218 *)
  ("ModeDeclarationMapping", [("firstModeRefs", DList); ("secondModeRef", DNone)]);
  (* M2/AUTOSARTemplates/SWComponentTemplate/PortInterface/__init__.py:1273 *)
  ("ModeDeclarationMappingSet", [("modeDeclarationMappings", DList)]);
  (* M2/AUTOSARTemplates/SWComponentTemplate/PortInterface/__init__.py:1295 *)
  ("PortInterfaceMappingSet", [("portInterfaceMappings", DList)]);
  (* M2/AUTOSARTemplates/SWComponentTemplate/PortInterface/__init__.py:1341 *)
  ("TextTableMapping", [("bitfieldTextTableMaskFirst", DNone); ("bitfieldTextTableMaskSecond", DNone); ("identicalMapping", DNone); ("mappingDirection", DNone); ("valuePairs", DList)]);
  (* M2/AUTOSARTemplates/SWComponentTemplate/SwcInternalBehavior/AccessCount.py:39 *)
  ("AbstractAccessPoint", [("returnValueProvision", DNone)]);
  (* M2/AUTOSARTemplates/SWComponentTemplate/SwcInternalBehavior/AccessCount.py:88 *)
  ("AccessCount", [("accessPointRef", DNone); ("value", DNone)]);
  (* M2/AUTOSARTemplates/SWComponentTemplate/SwcInternalBehavior/AccessCount.py:165 *)
  ("AccessCountSet", [("accessCounts", DList); ("countProfile", DNone)]);
  (* M2/AUTOSARTemplates/SWComponentTemplate/SwcInternalBehavior/AutosarVariableRef.py:11 *)
  ("AutosarVariableRef", [("autosarVariableIRef", DNone); ("autosarVariableInImplDatatype", DNone); ("localVariableRef", DNone)]);
  (* M2/AUTOSARTemplates/SWComponentTemplate/SwcInternalBehavior/DataElements.py:15 *)
  ("ParameterAccess", [("accessedParameter", DNone); ("swDataDefProps", DNone)]);
  (* M2/AUTOSARTemplates/SWComponentTemplate/SwcInternalBehavior/DataElements.py:79 *)
  ("VariableAccess", [("accessedVariableRef", DNone); ("scope", DNone)]);
  (* M2/AUTOSARTemplates/SWComponentTemplate/SwcInternalBehavior/IncludedDataTypes.py:12 *)
  ("IncludedDataTypeSet", [("dataTypeRefs", DList); ("literalPrefix", DNone)]);
  (* M2/AUTOSARTemplates/SWComponentTemplate/SwcInternalBehavior/InstanceRefsUsage.py:13 *)
  ("ArVariableInImplementationDataInstanceRef", [("contextDataPrototypeRefs", DList); ("portPrototypeRef", DNone); ("rootVariableDataPrototypeRef", DNone); ("targetDataPrototypeRef", DNone)]);
  (* M2/AUTOSARTemplates/SWComponentTemplate/SwcInternalBehavior/InstanceRefsUsage.py:127 *)
  ("VariableInAtomicSWCTypeInstanceRef", [("baseRef", DNone); ("contextDataPrototypeRefs", DList); ("portPrototypeRef", DNone); ("rootVariableDataPrototypeRef", DNone); ("targetDataPrototypeRef", DNone)]);
  (* M2/AUTOSARTemplates/SWComponentTemplate/SwcInternalBehavior/InstanceRefsUsage.py:266 *)
  ("ParameterInAtomicSWCTypeInstanceRef", [("baseRef", DNone); ("contextDataPrototypeRefs", DList); ("portPrototypeRef", DNone); ("rootParameterDataPrototypeRef", DNone); ("targetDataPrototypeRef", DNone)]);
  (* M2/AUTOSARTemplates/SWComponentTemplate/SwcInternalBehavior/InstanceRefsUsage.py:416 *)
  ("AutosarParameterRef", [("autosarParameterIRef", DNone); ("localParameterRef", DNone)]);
  (* M2/AUTOSARTemplates/SWComponentTemplate/SwcInternalBehavior/InstantiationDataDefProps.py:9 *)
  ("InstantiationDataDefProps", [("parameterInstance", DNone); ("swDataDefProps", DNone); ("variableInstance", DNone)]);
  (* M2/AUTOSARTemplates/SWComponentTemplate/SwcInternalBehavior/ModeDeclarationGroup.py:15 *)
  ("ModeAccessPoint", [("ident", DNone); ("modeGroupIRef", DNone)]);
  (* M2/AUTOSARTemplates/SWComponentTemplate/SwcInternalBehavior/ModeDeclarationGroup.py:79 *)
  ("ModeSwitchPoint", [("modeGroupIRef", DNone)]);
  (* M2/AUTOSARTemplates/SWComponentTemplate/SwcInternalBehavior/ModeDeclarationGroup.py:118 *)
  ("IncludedModeDeclarationGroupSet", [("mode_declaration_group_refs", DList); ("prefix", DNone)]);
  (* M2/AUTOSARTemplates/SWComponentTemplate/SwcInternalBehavior/PerInstanceMemory.py:12 *)
  ("PerInstanceMemory", [("initValue", DNone); ("swDataDefProps", DNone); ("type", DNone); ("typeDefinition", DNone)]);
  (* M2/AUTOSARTemplates/SWComponentTemplate/SwcInternalBehavior/PortAPIOptions.py:12 *)
  ("PortDefinedArgumentValue", [("value", DNone); ("valueTypeTRef", DNone)]);
  (* M2/AUTOSARTemplates/SWComponentTemplate/SwcInternalBehavior/PortAPIOptions.py:75 *)
  ("PortAPIOption", [("enableTakeAddress", DNone); ("errorHandling", DNone); ("indirectAPI", DNone); ("portRef", DNone); ("portArgValues", DList); ("supportedFeatures", DList); ("transformerStatusForwarding", DNone)]);
  (* M2/AUTOSARTemplates/SWComponentTemplate/SwcInternalBehavior/RTEEvents.py:18 *)
  ("RTEEvent", [("disabledModeIRefs", DList); ("startOnEventRef", DNone)]);
  (* M2/AUTOSARTemplates/SWComponentTemplate/SwcInternalBehavior/RTEEvents.py:83 *)
  ("AsynchronousServerCallReturnsEvent", [("eventSourceRef", DNone)]);
  (* M2/AUTOSARTemplates/SWComponentTemplate/SwcInternalBehavior/RTEEvents.py:121 *)
  ("DataSendCompletedEvent", [("eventSourceRef", DNone)]);
  (* M2/AUTOSARTemplates/SWComponentTemplate/SwcInternalBehavior/RTEEvents.py:160 *)
  ("DataWriteCompletedEvent", [("eventSourceRef", DNone)]);
  (* M2/AUTOSARTemplates/SWComponentTemplate/SwcInternalBehavior/RTEEvents.py:199 *)
  ("DataReceivedEvent", [("dataIRef", DNone)]);
  (* M2/AUTOSARTemplates/SWComponentTemplate/SwcInternalBehavior/RTEEvents.py:237 *)
  ("SwcModeSwitchEvent", [("activation", DNone); ("modeIRefs", DList)]);
  (* M2/AUTOSARTemplates/SWComponentTemplate/SwcInternalBehavior/RTEEvents.py:292 *)
  ("DataReceiveErrorEvent", [("dataIRef", DNone)]);
  (* M2/AUTOSARTemplates/SWComponentTemplate/SwcInternalBehavior/RTEEvents.py:331 *)
  ("OperationInvokedEvent", [("operationIRef", DNone)]);
  (* M2/AUTOSARTemplates/SWComponentTemplate/SwcInternalBehavior/RTEEvents.py:386 *)
  ("TimingEvent", [("offset", DNone); ("period", DNone)]);
  (* M2/AUTOSARTemplates/SWComponentTemplate/SwcInternalBehavior/RTEEvents.py:464 *)
  ("InternalTriggerOccurredEvent", [("eventSourceRef", DNone)]);
  (* M2/AUTOSARTemplates/SWComponentTemplate/SwcInternalBehavior/RTEEvents.py:517 *)
  ("ModeSwitchedAckEvent", [("eventSourceRef", DNone)]);
  (* M2/AUTOSARTemplates/SWComponentTemplate/SwcInternalBehavior/RTEEvents.py:557 *)
  ("WaitPoint", [("timeout", DNone); ("triggerRef", DNone)]);
  (* M2/AUTOSARTemplates/SWComponentTemplate/SwcInternalBehavior/ServerCall.py:12 *)
  ("ServerCallPoint", [("operationIRef", DNone); ("timeout", DNone)]);
  (* M2/AUTOSARTemplates/SWComponentTemplate/SwcInternalBehavior/ServiceMapping.py:47 *)
  ("RoleBasedPortAssignment", [("portPrototypeRef", DNone); ("role", DNone)]);
  (* M2/AUTOSARTemplates/SWComponentTemplate/SwcInternalBehavior/ServiceMapping.py:111 *)
  ("SwcServiceDependency", [("assignedData", DList); ("assignedPort", DList); ("representedPortGroup", DNone); ("serviceNeeds", DNone); ("elements/NvBlockNeeds", DList); ("elements/ServiceNeeds", DList)]);
  (* M2/AUTOSARTemplates/SWComponentTemplate/SwcInternalBehavior/Trigger.py:19 *)
  ("InternalTriggeringPoint", [("swImplPolicy", DNone)]);
  (* M2/AUTOSARTemplates/SWComponentTemplate/SwcInternalBehavior/Trigger.py:71 *)
  ("ExternalTriggeringPoint", [("ident", DNone); ("trigger", DNone)]);
  (* M2/AUTOSARTemplates/SWComponentTemplate/SwcInternalBehavior/VariantHandling.py:10 *)
  ("VariationPointProxy", [("conditionAccess", DNone); ("implementationDataTypeRef", DNone); ("postBuildValueAccessRef", DNone); ("postBuildVariantConditions", DList); ("valueAccess", DNone)]);
  (* M2/AUTOSARTemplates/SWComponentTemplate/SwcInternalBehavior/__init__.py:39 *)
  ("RunnableEntityArgument", [("symbol", DNone)]);
  (* M2/AUTOSARTemplates/SWComponentTemplate/SwcInternalBehavior/__init__.py:58 *)
  ("AsynchronousServerCallResultPoint", [("asynchronousServerCallPointRef", DNone)]);
  (* M2/AUTOSARTemplates/SWComponentTemplate/SwcInternalBehavior/__init__.py:85 *)
  ("SynchronousServerCallPoint", [("calledFromWithinExclusiveAreaRef", DNone)]);
  (* M2/AUTOSARTemplates/SWComponentTemplate/SwcInternalBehavior/__init__.py:104 *)
  ("RunnableEntity", [("arguments", DList); ("asynchronousServerCallResultPoints", DList); ("canBeInvokedConcurrently", DNone); ("dataReadAccesses", DList); ("dataReceivePointByArguments", DList); ("dataReceivePointByValues", DList); ("dataSendPoints", DList); ("dataWriteAccesses", DList); ("externalTriggeringPoints", DList); ("internalTriggeringPoints", DList); ("modeAccessPoints", DList); ("modeSwitchPoints", DList); ("parameterAccesses", DList); ("readLocalVariables", DList); ("serverCallPoints", DList); ("symbol", DNone); ("waitPoints", DList); ("writtenLocalVariables", DList); ("elements/ParameterAccess", DList); ("elements/AsynchronousServerCallResultPoint", DList); ("elements/ServerCallPoint", DList); ("elements/InternalTriggeringPoint", DList); ("elements/ModeSwitchPoint", DList)]);
  (* M2/AUTOSARTemplates/SWComponentTemplate/SwcInternalBehavior/__init__.py:714 *)
  ("SwcExclusiveAreaPolicy", [("apiPrinciple", DNone); ("exclusiveAreaRef", DNone)]);
  (* M2/AUTOSARTemplates/SWComponentTemplate/SwcInternalBehavior/__init__.py:772 *)
  ("SwcInternalBehavior", [("arTypedPerInstanceMemories", DList); ("events", DList); ("exclusiveAreaPolicies", DList); ("explicitInterRunnableVariables", DList); ("handleTerminationAndRestart", DNone); ("implicitInterRunnableVariables", DList); ("includedDataTypeSets", DList); ("includedModeDeclarationGroupSets", DList); ("instantiationDataDefProps", DList); ("perInstanceMemories", DList); ("perInstanceParameters", DList); ("portAPIOptions", DList); ("runnables", DList); ("serviceDependencies", DList); ("sharedParameters", DList); ("supportsMultipleInstantiation", DNone); ("variationPointProxies", DList); ("elements/RTEEvent", DList); ("elements/SwcServiceDependency", DList); ("elements/RunnableEntity", DList)]);
  (* M2/AUTOSARTemplates/SystemTemplate/DataMapping.py:14 *)
  ("DataMapping", [("introduction", DNone)]);
  (* M2/AUTOSARTemplates/SystemTemplate/DataMapping.py:43 *)
  ("SenderReceiverToSignalMapping", [("communicationDirection", DNone); ("dataElementIRef", DNone); ("senderToSignalTextTableMapping", DNone); ("signalToReceiverTextTableMapping", DNone); ("systemSignalRef", DNone)]);
  (* M2/AUTOSARTemplates/SystemTemplate/DataMapping.py:126 *)
  ("SenderRecRecordElementMapping", [("applicationRecordElementRef", DNone); ("complexTypeMapping", DNone); ("implementationRecordElementRef", DNone); ("senderToSignalTextTableMapping", DNone); ("signalToReceiverTextTableMapping", DNone); ("systemSignalRef", DNone)]);
  (* M2/AUTOSARTemplates/SystemTemplate/DataMapping.py:208 *)
  ("SenderRecRecordTypeMapping", [("recordElementMappings", DList)]);
  (* M2/AUTOSARTemplates/SystemTemplate/DataMapping.py:234 *)
  ("IndexedArrayElement", [("applicationArrayElementRef", DNone); ("implementationArrayElementRef", DNone); ("index", DNone)]);
  (* M2/AUTOSARTemplates/SystemTemplate/DataMapping.py:282 *)
  ("SenderRecArrayElementMapping", [("complexTypeMapping", DNone); ("indexedArrayElement", DNone); ("systemSignalRef", DNone)]);
  (* M2/AUTOSARTemplates/SystemTemplate/DataMapping.py:330 *)
  ("SenderRecArrayTypeMapping", [("arrayElementMappings", DList); ("senderToSignal", DNone); ("signalToReceiverTextTableMapping", DNone)]);
  (* M2/AUTOSARTemplates/SystemTemplate/DataMapping.py:378 *)
  ("SenderReceiverToSignalGroupMapping", [("dataElementIRef", DNone); ("signalGroupRef", DNone); ("typeMapping", DNone)]);
  (* M2/AUTOSARTemplates/SystemTemplate/DiagnosticConnection.py:9 *)
  ("DiagnosticConnection", [("functionalRequestRefs", DList); ("periodicResponseUudtRefs", DList); ("physicalRequestRef", DNone); ("responseRef", DNone); ("responseOnEventRef", DNone)]);
  (* M2/AUTOSARTemplates/SystemTemplate/DoIp.py:42 *)
  ("DoIpLogicTesterAddressProps", [("doIpTesterRoutingActivationRef", DNone)]);
  (* M2/AUTOSARTemplates/SystemTemplate/ECUResourceMapping.py:4 *)
  ("ECUMapping", [("commControllerMappings", DList); ("ecuRef", DNone); ("ecuInstanceRef", DNone); ("hwPortMappings", DList)]);
  (* M2/AUTOSARTemplates/SystemTemplate/InstanceRefs.py:9 *)
  ("VariableDataPrototypeInSystemInstanceRef", [("baseRef", DNone); ("contextComponentRefs", DList); ("contextCompositionRef", DNone); ("contextPortRef", DNone); ("targetDataPrototypeRef", DNone)]);
  (* M2/AUTOSARTemplates/SystemTemplate/InstanceRefs.py:73 *)
  ("ComponentInSystemInstanceRef", [("baseRef", DNone); ("contextComponentRefs", DList); ("contextCompositionRef", DNone); ("targetComponentRef", DNone)]);
  (* M2/AUTOSARTemplates/SystemTemplate/NetworkManagement.py:30 *)
  ("CanNmClusterCoupling", [("coupledClusterRefs", DList); ("nmBusloadReductionEnabled", DNone); ("nmImmediateRestartEnabled", DNone)]);
  (* M2/AUTOSARTemplates/SystemTemplate/NetworkManagement.py:75 *)
  ("FlexrayNmClusterCoupling", [("coupledClusterRefs", DList); ("nmScheduleVariant", DNone)]);
  (* M2/AUTOSARTemplates/SystemTemplate/NetworkManagement.py:135 *)
  ("NmNode", [("controllerRef", DNone); ("nmCoordCluster", DNone); ("nmCoordinatorRole", DNone); ("nmIfEcuRef", DNone); ("nmNodeId", DNone); ("nmPassiveModeEnabled", DNone); ("rxNmPduRefs", DList); ("txNmPduRefs", DList)]);
  (* M2/AUTOSARTemplates/SystemTemplate/NetworkManagement.py:309 *)
  ("CanNmNode", [("allNmMessagesKeepAwake", DNone); ("nmCarWakeUpFilterEnabled", DNone); ("nmCarWakeUpRxEnabled", DNone); ("nmMsgCycleOffset", DNone); ("nmMsgReducedTime", DNone); ("nmRangeConfig", DNone)]);
  (* M2/AUTOSARTemplates/SystemTemplate/NetworkManagement.py:434 *)
  ("J1939NodeName", [("arbitraryAddressCapable", DNone); ("ecuInstance", DNone); ("function", DNone); ("functionInstance", DNone); ("identitiyNumber", DNone); ("industryGroup", DNone); ("manufacturerCode", DNone); ("vehicleSystem", DNone); ("vehicleSystemInstance", DNone)]);
  (* M2/AUTOSARTemplates/SystemTemplate/NetworkManagement.py:629 *)
  ("J1939NmNode", [("addressConfigurationCapability", DNone); ("nodeName", DNone)]);
  (* M2/AUTOSARTemplates/SystemTemplate/NetworkManagement.py:684 *)
  ("UdpNmNode", [("allNmMessagesKeepAwake", DNone); ("nmMsgCycleOffset", DNone)]);
  (* M2/AUTOSARTemplates/SystemTemplate/NetworkManagement.py:776 *)
  ("UdpNmEcu", [("nmSynchronizationPointEnabled", DNone)]);
  (* M2/AUTOSARTemplates/SystemTemplate/NetworkManagement.py:802 *)
  ("NmEcu", [("busDependentNmEcus", DList); ("ecuInstanceRef", DNone); ("nmBusSynchronizationEnabled", DNone); ("nmComControlEnabled", DNone); ("nmCoordinator", DNone); ("nmCycletimeMainFunction", DNone); ("nmNodeDetectionEnabled", DNone); ("nmNodeIdEnabled", DNone); ("nmPduRxIndicationEnabled", DNone); ("nmRemoteSleepIndEnabled", DNone); ("nmRepeatMsgIndEnabled", DNone); ("nmStateChangeIndEnabled", DNone); ("nmUserDataEnabled", DNone)]);
  (* M2/AUTOSARTemplates/SystemTemplate/NetworkManagement.py:960 *)
  ("NmConfig", [("nmClusterCouplings", DList); ("nmIfEcus", DList); ("elements/NmCluster", DList)]);
  (* M2/AUTOSARTemplates/SystemTemplate/NetworkManagement.py:1024 *)
  ("NmCluster", [("communicationClusterRef", DNone); ("nmChannelId", DNone); ("nmChannelSleepMaster", DNone); ("nmNodes", DList); ("nmNodeDetectionEnabled", DNone); ("nmNodeIdEnabled", DNone); ("nmPncParticipation", DNone); ("nmRepeatMsgIndEnabled", DNone); ("_nmSynchronizingNetwork", DNone); ("elements/NmNode", DList)]);
  (* M2/AUTOSARTemplates/SystemTemplate/NetworkManagement.py:1163 *)
  ("CanNmCluster", [("nmBusloadReductionActive", DNone); ("nmCarWakeUpBitPosition", DNone); ("nmCarWakeUpFilterNodeId", DNone); ("nmCarWakeUpRxEnabled", DNone); ("nmCbvPosition", DNone); ("nmChannelActive", DNone); ("nmImmediateNmCycleTime", DNone); ("nmImmediateNmTransmissions", DNone); ("nmMessageTimeoutTime", DNone); ("nmMsgCycleTime", DNone); ("nmNetworkTimeout", DNone); ("nmNidPosition", DNone); ("nmRemoteSleepIndicationTime", DNone); ("nmRepeatMessageTime", DNone); ("nmUserDataLength", DNone); ("nmWaitBusSleepTime", DNone)]);
  (* M2/AUTOSARTemplates/SystemTemplate/NetworkManagement.py:1366 *)
  ("UdpNmClusterCoupling", [("coupledClusterRefs", DList); ("nmImmediateRestartEnabled", DNone)]);
  (* M2/AUTOSARTemplates/SystemTemplate/NetworkManagement.py:1403 *)
  ("UdpNmCluster", [("nmCbvPosition", DNone); ("nmChannelActive", DNone); ("nmImmediateNmCycleTime", DNone); ("nmImmediateNmTransmissions", DNone); ("nmMessageTimeoutTime", DNone); ("nmMsgCycleTime", DNone); ("nmNetworkTimeout", DNone); ("nmNidPosition", DNone); ("nmRemoteSleepIndicationTime", DNone); ("nmRepeatMessageTime", DNone); ("nmWaitBusSleepTime", DNone); ("vlanRef", DNone)]);
  (* M2/AUTOSARTemplates/SystemTemplate/RteEventToOsTaskMapping.py:8 *)
  ("AppOsTaskProxyToEcuTaskProxyMapping", [("appTaskProxyRef", DNone); ("ecuTaskProxyRef", DNone); ("offset", DNone)]);
  (* M2/AUTOSARTemplates/SystemTemplate/SWmapping.py:10 *)
  ("SwcToImplMapping", [("componentIRefs", DList); ("componentImplementationRef", DNone)]);
  (* M2/AUTOSARTemplates/SystemTemplate/SWmapping.py:47 *)
  ("ApplicationPartitionToEcuPartitionMapping", [("applicationPartitionRefs", DList); ("ecuPartitionRef", DNone)]);
  (* M2/AUTOSARTemplates/SystemTemplate/SecureCommunication.py:26 *)
  ("SecOcCryptoServiceMapping", [("authenticationRef", DNone); ("cryptoServiceKeyRef", DNone); ("cryptoServiceQueueRef", DNone)]);
  (* M2/AUTOSARTemplates/SystemTemplate/SecureCommunication.py:74 *)
  ("TlsCryptoServiceMapping", [("keyExchangeRef", DNone); ("tlsCipherSuites", DList); ("useClientAuthenticationRequest", DNone); ("useSecurityExtensionRecordSizeLimit", DNone)]);
  (* M2/AUTOSARTemplates/SystemTemplate/TransportProtocols.py:14 *)
  ("TpConfig", [("communicationClusterRef", DNone)]);
  (* M2/AUTOSARTemplates/SystemTemplate/TransportProtocols.py:43 *)
  ("CanTpAddress", [("tpAddress", DNone); ("tpAddressExtensionValue", DNone)]);
  (* M2/AUTOSARTemplates/SystemTemplate/TransportProtocols.py:80 *)
  ("CanTpChannel", [("channelId", DNone); ("channelMode", DNone)]);
  (* M2/AUTOSARTemplates/SystemTemplate/TransportProtocols.py:130 *)
  ("TpConnection", [("ident", DNone)]);
  (* M2/AUTOSARTemplates/SystemTemplate/TransportProtocols.py:159 *)
  ("CanTpConnection", [("addressingFormat", DNone); ("cancellation", DNone); ("canTpChannelRef", DNone); ("dataPduRef", DNone); ("flowControlPduRef", DNone); ("maxBlockSize", DNone); ("multicastRef", DNone); ("paddingActivation", DNone); ("receiverRefs", DList); ("taType", DNone); ("timeoutBr", DNone); ("timeoutBs", DNone); ("timeoutCr", DNone); ("timeoutCs", DNone); ("tpSduRef", DNone); ("transmitterRef", DNone)]);
  (* M2/AUTOSARTemplates/SystemTemplate/TransportProtocols.py:350 *)
  ("CanTpEcu", [("cycleTimeMainFunction", DNone); ("ecuInstanceRef", DNone)]);
  (* M2/AUTOSARTemplates/SystemTemplate/TransportProtocols.py:387 *)
  ("CanTpNode", [("connectorRef", DNone); ("maxFcWait", DNone); ("stMin", DNone); ("timeoutAr", DNone); ("timeoutAs", DNone); ("tpAddressRef", DNone)]);
  (* M2/AUTOSARTemplates/SystemTemplate/TransportProtocols.py:468 *)
  ("CanTpConfig", [("tpAddresses", DList); ("tpChannels", DList); ("tpConnections", DList); ("tpEcus", DList); ("tpNodes", DList)]);
  (* M2/AUTOSARTemplates/SystemTemplate/TransportProtocols.py:544 *)
  ("DoIpLogicAddress", [("address", DNone); ("doIpLogicAddressProps", DNone)]);
  (* M2/AUTOSARTemplates/SystemTemplate/TransportProtocols.py:581 *)
  ("DoIpTpConnection", [("doIpSourceAddressRef", DNone); ("doIpTargetAddressRef", DNone); ("tpSduRef", DNone)]);
  (* M2/AUTOSARTemplates/SystemTemplate/TransportProtocols.py:629 *)
  ("DoIpTpConfig", [("doIpLogicAddresses", DList); ("tpConnections", DList)]);
  (* M2/AUTOSARTemplates/SystemTemplate/TransportProtocols.py:668 *)
  ("TpAddress", [("tpAddress", DNone)]);
  (* M2/AUTOSARTemplates/SystemTemplate/TransportProtocols.py:693 *)
  ("LinTpConnection", [("dataPduRef", DNone); ("flowControlRef", DNone); ("linTpNSduRef", DNone); ("multicastRef", DNone); ("receiverRefs", DList); ("timeoutAs", DNone); ("timeoutCr", DNone); ("timeoutCs", DNone); ("transmitterRef", DNone)]);
  (* M2/AUTOSARTemplates/SystemTemplate/TransportProtocols.py:807 *)
  ("LinTpNode", [("connectorRef", DNone); ("dropNotRequestedNad", DNone); ("maxNumberOfRespPendingFrames", DNone); ("p2Max", DNone); ("p2Timing", DNone); ("tpAddressRef", DNone)]);
  (* M2/AUTOSARTemplates/SystemTemplate/TransportProtocols.py:888 *)
  ("LinTpConfig", [("tpAddresses", DList); ("tpConnections", DList); ("tpNodes", DList)]);
  (* M2/AUTOSARTemplates/SystemTemplate/__init__.py:23 *)
  ("SwcToEcuMapping", [("componentIRefs", DList); ("controlledHwElementRef", DNone); ("ecuInstanceRef", DNone); ("processingUnitRef", DNone)]);
  (* M2/AUTOSARTemplates/SystemTemplate/__init__.py:78 *)
  ("ComManagementMapping", [("comManagementGroupRefs", DList); ("comManagementPortGroupRefs", DList); ("physicalChannelRef", DNone)]);
  (* M2/AUTOSARTemplates/SystemTemplate/__init__.py:126 *)
  ("SystemMapping", [("applicationPartitionToEcuPartitionMappings", DList); ("appOsTaskProxyToEcuTaskProxyMappings", DList); ("comManagementMappings", DList); ("cryptoServiceMappings", DList); ("dataMappings", DList); ("ddsISignalToTopicMappings", DList); ("ecuResourceMappings", DList); ("j1939ControllerApplicationToJ1939NmNodeMappings", DList); ("mappingConstraints", DList); ("pncMappings", DList); ("portElementToComResourceMappings", DList); ("resourceEstimations", DList); ("resourceToApplicationPartitionMappings", DList); ("rteEventSeparations", DList); ("rteEventToOsTaskProxyMappings", DList); ("signalPathConstraints", DList); ("softwareClusterToApplicationPartitionMappings", DList); ("softwareClusterToResourceMappings", DList); ("swClusterMappings", DList); ("swcToApplicationPartitionMappings", DList); ("swImplMappings", DList); ("swMappings", DList); ("systemSignalGroupToComResourceMappings", DList); ("systemSignalToComResourceMappings", DList)]);
  (* M2/AUTOSARTemplates/SystemTemplate/__init__.py:395 *)
  ("RootSwCompositionPrototype", [("calibrationParameterValueSetRefs", DList); ("flatMapRef", DNone); ("softwareCompositionTRef", DNone)]);
  (* M2/AUTOSARTemplates/SystemTemplate/__init__.py:470 *)
  ("J1939SharedAddressCluster", [("participatingJ1939ClusterRefs", DList)]);
  (* M2/AUTOSARTemplates/SystemTemplate/__init__.py:496 *)
  ("System", [("clientIdDefinitionSetRefs", DList); ("containerIPduHeaderByteOrder", DNone); ("ecuExtractVersion", DNone); ("fibexElements", DList); ("interpolationRoutineMappingSetRefs", DList); ("j1939SharedAddressClusters", DList); ("mappings", DList); ("pncVectorLength", DNone); ("pncVectorOffset", DNone); ("rootSoftwareComposition", DNone); ("swClusterRefs", DList); ("systemDocumentation", DList); ("systemVersion", DNone); ("elements/SystemMapping", DList)]);
  (* M2/AUTOSARTemplates/SystemTemplate/Fibex/Fibex4Multiplatform.py:10 *)
  ("FrameMapping", [("introduction", DNone); ("sourceFrameRef", DNone); ("targetFrameRef", DNone)]);
  (* M2/AUTOSARTemplates/SystemTemplate/Fibex/Fibex4Multiplatform.py:53 *)
  ("ISignalMapping", [("introduction", DNone); ("sourceSignalRef", DNone); ("targetSignalRef", DNone)]);
  (* M2/AUTOSARTemplates/SystemTemplate/Fibex/Fibex4Multiplatform.py:97 *)
  ("DefaultValueElement", [("elementByteValue", DNone); ("elementPosition", DNone)]);
  (* M2/AUTOSARTemplates/SystemTemplate/Fibex/Fibex4Multiplatform.py:133 *)
  ("PduMappingDefaultValue", [("defaultValueElements", DList)]);
  (* M2/AUTOSARTemplates/SystemTemplate/Fibex/Fibex4Multiplatform.py:158 *)
  ("TargetIPduRef", [("defaultValue", DNone); ("targetIPdu", DNone)]);
  (* M2/AUTOSARTemplates/SystemTemplate/Fibex/Fibex4Multiplatform.py:193 *)
  ("IPduMapping", [("introduction", DNone); ("pdurTpChunkSize", DNone); ("sourceIpduRef", DNone); ("targetIPdu", DNone)]);
  (* M2/AUTOSARTemplates/SystemTemplate/Fibex/Fibex4Multiplatform.py:251 *)
  ("Gateway", [("ecuRef", DNone); ("frameMappings", DList); ("iPduMappings", DList); ("signalMappings", DList)]);
  (* M2/AUTOSARTemplates/SystemTemplate/Fibex/Fibex4Can/CanCommunication.py:9 *)
  ("RxIdentifierRange", [("lowerCanId", DNone); ("upperCanId", DNone)]);
  (* M2/AUTOSARTemplates/SystemTemplate/Fibex/Fibex4Can/CanCommunication.py:58 *)
  ("CanFrameTriggering", [("absolutelyScheduledTimings", DList); ("canAddressingMode", DNone); ("canFdFrameSupport", DNone); ("canFrameRxBehavior", DNone); ("canFrameTxBehavior", DNone); ("canXlFrameTriggeringProps", DNone); ("identifier", DNone); ("j1939requestable", DNone); ("rxIdentifierRange", DNone); ("rxMask", DNone); ("txMask", DNone)]);
  (* M2/AUTOSARTemplates/SystemTemplate/Fibex/Fibex4Can/CanTopology.py:13 *)
  ("CanControllerFdConfiguration", [("paddingValue", DNone); ("propSeg", DNone); ("sspOffset", DNone); ("syncJumpWidth", DNone); ("timeSeg1", DNone); ("timeSeg2", DNone); ("txBitRateSwitch", DNone)]);
  (* M2/AUTOSARTemplates/SystemTemplate/Fibex/Fibex4Can/CanTopology.py:166 *)
  ("CanControllerFdConfigurationRequirements", [("maxNumberOfTimeQuantaPerBit", DNone); ("maxSamplePoint", DNone); ("maxSyncJumpWidth", DNone); ("maxTrcvDelayCompensationOffset", DNone); ("minNumberOfTimeQuantaPerBit", DNone); ("minSamplePoint", DNone); ("minSyncJumpWidth", DNone); ("minTrcvDelayCompensationOffset", DNone); ("paddingValue", DNone); ("txBitRateSwitch", DNone)]);
  (* M2/AUTOSARTemplates/SystemTemplate/Fibex/Fibex4Can/CanTopology.py:291 *)
  ("CanControllerXlConfiguration", [("errorSignalingEnabled", DNone); ("propSeg", DNone); ("pwmL", DNone); ("pwmO", DNone); ("pwmS", DNone); ("sspOffset", DNone); ("syncJumpWidth", DNone); ("timeSeg1", DNone); ("timeSeg2", DNone); ("trcvPwmModeEnabled", DNone)]);
  (* M2/AUTOSARTemplates/SystemTemplate/Fibex/Fibex4Can/CanTopology.py:464 *)
  ("CanControllerXlConfigurationRequirements", [("errorSignalingEnabled", DNone); ("maxNumberOfTimeQuantaPerBit", DNone); ("maxPwmL", DNone); ("maxPwmO", DNone); ("maxPwmS", DNone); ("maxSamplePoint", DNone); ("maxSyncJumpWidth", DNone); ("maxTrcvDelayCompensationOffset", DNone); ("minNumberOfTimeQuantaPerBit", DNone); ("minPwmL", DNone); ("minPwmO", DNone); ("minPwmS", DNone); ("minSamplePoint", DNone); ("minSyncJumpWidth", DNone); ("minTrcvDelayCompensationOffset", DNone); ("trcvPwmModeEnabled", DNone)]);
  (* M2/AUTOSARTemplates/SystemTemplate/Fibex/Fibex4Can/CanTopology.py:733 *)
  ("AbstractCanCommunicationControllerAttributes", [("canControllerFdAttributes", DNone); ("canControllerFdRequirements", DNone); ("canControllerXlAttributes", DNone); ("canControllerXlRequirements", DNone)]);
  (* M2/AUTOSARTemplates/SystemTemplate/Fibex/Fibex4Can/CanTopology.py:813 *)
  ("CanControllerConfigurationRequirements", [("maxNumberOfTimeQuantaPerBit", DNone); ("maxSamplePoint", DNone); ("maxSyncJumpWidth", DNone); ("minNumberOfTimeQuantaPerBit", DNone); ("minSamplePoint", DNone); ("minSyncJumpWidth", DNone)]);
  (* M2/AUTOSARTemplates/SystemTemplate/Fibex/Fibex4Can/CanTopology.py:888 *)
  ("AbstractCanCommunicationController", [("canControllerAttributes", DNone)]);
  (* M2/AUTOSARTemplates/SystemTemplate/Fibex/Fibex4Can/CanTopology.py:954 *)
  ("CanCommunicationConnector", [("pncWakeupCanId", DNone); ("pncWakeupCanIdExtended", DNone); ("pncWakeupCanIdMask", DNone); ("pncWakeupDataMask", DNone); ("pncWakeupDlc", DNone)]);
  (* M2/AUTOSARTemplates/SystemTemplate/Fibex/Fibex4Ethernet/EthernetCommunication.py:11 *)
  ("SocketConnection", [("allowedIPv6ExtHeadersRef", DNone); ("allowedTcpOptionsRef", DNone); ("clientIpAddrFromConnectionRequest", DNone); ("clientPortRef", DNone); ("clientPortFromConnectionRequest", DNone); ("pdus", DList); ("pduSocketConnectionIpdus", DList); ("pduCollectionMaxBufferSize", DNone); ("pduCollectionTimeout", DNone); ("runtimeIpAddressConfiguration", DNone); ("runtimePortConfiguration", DNone); ("shortLabel", DNone)]);
  (* M2/AUTOSARTemplates/SystemTemplate/Fibex/Fibex4Ethernet/EthernetCommunication.py:146 *)
  ("SocketConnectionIpduIdentifier", [("headerId", DNone); ("pduCollectionPduTimeout", DNone); ("pduCollectionSemantics", DNone); ("pduCollectionTrigger", DNone); ("PduRef", DNone); ("pduTriggeringRef", DNone); ("routingGroupRefs", DList)]);
  (* M2/AUTOSARTemplates/SystemTemplate/Fibex/Fibex4Ethernet/EthernetCommunication.py:231 *)
  ("SocketConnectionBundle", [("bundledConnections", DList); ("differentiatedServiceField", DNone); ("flowLabel", DNone); ("pathMtuDiscoveryEnabled", DNone); ("pdus", DList); ("serverPortRef", DNone); ("udpChecksumHandling", DNone)]);
  (* M2/AUTOSARTemplates/SystemTemplate/Fibex/Fibex4Ethernet/EthernetCommunication.py:316 *)
  ("SoAdRoutingGroup", [("eventGroupControlType", DNone)]);
  (* M2/AUTOSARTemplates/SystemTemplate/Fibex/Fibex4Ethernet/EthernetTopology.py:9 *)
  ("MacMulticastGroup", [("macMulticastAddress", DNone)]);
  (* M2/AUTOSARTemplates/SystemTemplate/Fibex/Fibex4Ethernet/EthernetTopology.py:35 *)
  ("EthernetCluster", [("couplingPorts", DList); ("couplingPortStartupActiveTime", DNone); ("couplingPortSwitchoffDelay", DNone); ("macMulticastGroups", DList)]);
  (* M2/AUTOSARTemplates/SystemTemplate/Fibex/Fibex4Ethernet/EthernetTopology.py:113 *)
  ("CouplingPortFifo", [("assignedTrafficClasses", DList); ("minimumFifoLength", DNone); ("shaper", DNone); ("trafficClassPreemptionSupport", DNone)]);
  (* M2/AUTOSARTemplates/SystemTemplate/Fibex/Fibex4Ethernet/EthernetTopology.py:172 *)
  ("CouplingPortScheduler", [("portScheduler", DNone); ("predecessorRefs", DList)]);
  (* M2/AUTOSARTemplates/SystemTemplate/Fibex/Fibex4Ethernet/EthernetTopology.py:209 *)
  ("EthernetPriorityRegeneration", [("ingressPriority", DNone); ("regeneratedPriority", DNone)]);
  (* M2/AUTOSARTemplates/SystemTemplate/Fibex/Fibex4Ethernet/EthernetTopology.py:246 *)
  ("CouplingPortDetails", [("couplingPortStructuralElements", DList); ("defaultTrafficClass", DNone); ("ethernetPriorityRegenerations", DList); ("ethernetTrafficClassAssignments", DList); ("framePreemptionSupport", DNone); ("globalTimeProps", DNone); ("lastEgressSchedulerRef", DNone); ("ratePolicies", DList); ("vlanTranslationTables", DList)]);
  (* M2/AUTOSARTemplates/SystemTemplate/Fibex/Fibex4Ethernet/EthernetTopology.py:372 *)
  ("VlanMembership", [("defaultPriority", DNone); ("dhcpAddressAssignment", DNone); ("sendActivity", DNone); ("vlanRef", DNone)]);
  (* M2/AUTOSARTemplates/SystemTemplate/Fibex/Fibex4Ethernet/EthernetTopology.py:431 *)
  ("CouplingPort", [("connectionNegotiationBehavior", DNone); ("couplingPortDetails", DNone); ("couplingPortRole", DNone); ("defaultVlanRef", DNone); ("macAddressVlanAssignments", DList); ("macLayerType", DNone); ("macMulticastAddressRefs", DList); ("macSecProps", DList); ("physicalLayerType", DNone); ("plcaProps", DNone); ("pncMappingRefs", DList); ("receiveActivity", DNone); ("vlanMemberships", DList); ("wakeupSleepOnDatalineConfigRef", DNone)]);
  (* M2/AUTOSARTemplates/SystemTemplate/Fibex/Fibex4Ethernet/EthernetTopology.py:600 *)
  ("EthernetCommunicationController", [("canXlConfigRef", DNone); ("couplingPorts", DList); ("macLayerType", DNone); ("macUnicastAddress", DNone); ("maximumReceiveBufferLength", DNone); ("maximumTransmitBufferLength", DNone); ("slaveActAsPassiveCommunicationSlave", DNone); ("slaveQualifiedUnexpectedLinkDownTime", DNone)]);
  (* M2/AUTOSARTemplates/SystemTemplate/Fibex/Fibex4Ethernet/EthernetTopology.py:698 *)
  ("EthernetCommunicationConnector", [("ethIpPropsRef", DNone); ("maximumTransmissionUnit", DNone); ("neighborCacheSize", DNone); ("networkEndpointRefs", DList); ("pathMtuEnabled", DNone); ("pathMtuTimeout", DNone)]);
  (* M2/AUTOSARTemplates/SystemTemplate/Fibex/Fibex4Ethernet/EthernetTopology.py:774 *)
  ("RequestResponseDelay", [("maxValue", DNone); ("minValue", DNone)]);
  (* M2/AUTOSARTemplates/SystemTemplate/Fibex/Fibex4Ethernet/EthernetTopology.py:811 *)
  ("InitialSdDelayConfig", [("initialDelayMaxValue", DNone); ("initialDelayMinValue", DNone); ("initialRepetitionsBaseDelay", DNone); ("initialRepetitionsMax", DNone)]);
  (* M2/AUTOSARTemplates/SystemTemplate/Fibex/Fibex4Ethernet/EthernetTopology.py:870 *)
  ("SdClientConfig", [("capabilityRecord", DNone); ("clientServiceMajorVersion", DNone); ("clientServiceMinorVersion", DNone); ("initialFindBehavior", DNone); ("requestResponseDelay", DNone); ("ttl", DNone)]);
  (* M2/AUTOSARTemplates/SystemTemplate/Fibex/Fibex4Ethernet/NetworkEndpoint.py:28 *)
  ("Ipv4Configuration", [("assignmentPriority", DNone); ("defaultGateway", DNone); ("dnsServerAddresses", DList); ("ipAddressKeepBehavior", DNone); ("ipv4Address", DNone); ("ipv4AddressSource", DNone); ("networkMask", DNone); ("ttl", DNone)]);
  (* M2/AUTOSARTemplates/SystemTemplate/Fibex/Fibex4Ethernet/NetworkEndpoint.py:123 *)
  ("Ipv6Configuration", [("assignmentPriority", DNone); ("defaultRouter", DNone); ("dnsServerAddresses", DList); ("enableAnycast", DNone); ("hopCount", DNone); ("ipAddressKeepBehavior", DNone); ("ipAddressPrefixLength", DNone); ("ipv6Address", DNone); ("ipv6AddressSource", DNone)]);
  (* M2/AUTOSARTemplates/SystemTemplate/Fibex/Fibex4Ethernet/NetworkEndpoint.py:228 *)
  ("DoIpEntity", [("doIpEntityRole", DNone)]);
  (* M2/AUTOSARTemplates/SystemTemplate/Fibex/Fibex4Ethernet/NetworkEndpoint.py:254 *)
  ("TimeSyncClientConfiguration", [("orderedMasters", DList); ("timeSyncTechnology", DNone)]);
  (* M2/AUTOSARTemplates/SystemTemplate/Fibex/Fibex4Ethernet/NetworkEndpoint.py:291 *)
  ("TimeSyncServerConfiguration", [("priority", DNone); ("syncInterval", DNone); ("timeSyncServerIdentifier", DNone); ("timeSyncTechnology", DNone)]);
  (* M2/AUTOSARTemplates/SystemTemplate/Fibex/Fibex4Ethernet/NetworkEndpoint.py:350 *)
  ("TimeSynchronization", [("timeSyncClient", DNone); ("timeSyncServer", DNone)]);
  (* M2/AUTOSARTemplates/SystemTemplate/Fibex/Fibex4Ethernet/NetworkEndpoint.py:387 *)
  ("InfrastructureServices", [("doIpEntity", DNone); ("timeSynchronization", DNone)]);
  (* M2/AUTOSARTemplates/SystemTemplate/Fibex/Fibex4Ethernet/NetworkEndpoint.py:422 *)
  ("NetworkEndpoint", [("fullyQualifiedDomainName", DNone); ("infrastructureServices", DNone); ("ipSecConfig", DNone); ("networkEndpointAddresses", DList); ("priority", DNone)]);
  (* M2/AUTOSARTemplates/SystemTemplate/Fibex/Fibex4Ethernet/ServiceInstances.py:31 *)
  ("GenericTp", [("tpAddress", DNone); ("tpTechnology", DNone)]);
  (* M2/AUTOSARTemplates/SystemTemplate/Fibex/Fibex4Ethernet/ServiceInstances.py:83 *)
  ("TpPort", [("dynamicallyAssigned", DNone); ("portNumber", DNone)]);
  (* M2/AUTOSARTemplates/SystemTemplate/Fibex/Fibex4Ethernet/ServiceInstances.py:118 *)
  ("UdpTp", [("udpTpPort", DNone)]);
  (* M2/AUTOSARTemplates/SystemTemplate/Fibex/Fibex4Ethernet/ServiceInstances.py:143 *)
  ("TcpTp", [("keepAliveInterval", DNone); ("keepAliveProbesMax", DNone); ("keepAlives", DNone); ("keepAliveTime", DNone); ("naglesAlgorithm", DNone); ("receiveWindowMin", DNone); ("tcpRetransmissionTimeout", DNone); ("tcpTpPort", DNone)]);
  (* M2/AUTOSARTemplates/SystemTemplate/Fibex/Fibex4Ethernet/ServiceInstances.py:238 *)
  ("AbstractServiceInstance", [("capabilityRecords", DList); ("majorVersion", DNone); ("methodActivationRoutingGroup", DNone); ("routingGroupRefs", DList)]);
  (* M2/AUTOSARTemplates/SystemTemplate/Fibex/Fibex4Ethernet/ServiceInstances.py:300 *)
  ("ConsumedEventGroup", [("applicationEndpointRef", DNone); ("autoRequire", DNone); ("eventGroupIdentifier", DNone); ("eventMulticastAddressRefs", DList); ("pduActivationRoutingGroups", DList); ("priority", DNone); ("routingGroupRefs", DList); ("sdClientConfig", DNone); ("sdClientTimerConfigRef", DNone)]);
  (* M2/AUTOSARTemplates/SystemTemplate/Fibex/Fibex4Ethernet/ServiceInstances.py:414 *)
  ("ConsumedServiceInstance", [("allowedServiceProviderRefs", DList); ("autoRequire", DNone); ("blocklistedVersions", DList); ("consumedEventGroups", DList); ("eventMulticastSubscriptionAddressRef", DNone); ("instanceIdentifier", DNone); ("localUnicastAddressRefs", DList); ("minorVersion", DNone); ("providedServiceInstanceRef", DNone); ("remoteUnicastAddressRefs", DList); ("sdClientConfig", DNone); ("sdClientTimerConfigRef", DNone); ("serviceIdentifier", DNone); ("versionDrivenFindBehavior", DNone)]);
  (* M2/AUTOSARTemplates/SystemTemplate/Fibex/Fibex4Ethernet/ServiceInstances.py:644 *)
  ("SdServerConfig", [("capabilityRecords", DList); ("initialOfferBehavior", DNone); ("offerCyclicDelay", DNone); ("requestResponseDelay", DNone); ("serverServiceMajorVersion", DNone); ("serverServiceMinorVersion", DNone); ("ttl", DNone)]);
  (* M2/AUTOSARTemplates/SystemTemplate/Fibex/Fibex4Ethernet/ServiceInstances.py:736 *)
  ("EventHandler", [("applicationEndpointRef", DNone); ("consumedEventGroupRefs", DList); ("multicastThreshold", DNone); ("routingGroupRefs", DList); ("sdServerConfig", DNone)]);
  (* M2/AUTOSARTemplates/SystemTemplate/Fibex/Fibex4Ethernet/ServiceInstances.py:806 *)
  ("ProvidedServiceInstance", [("allowedServiceConsumerRefs", DList); ("autoAvailable", DNone); ("eventHandlers", DList); ("instanceIdentifier", DNone); ("loadBalancingPriority", DNone); ("loadBalancingWeight", DNone); ("localUnicastAddressRefs", DList); ("minorVersion", DNone); ("priority", DNone); ("remoteMulticastSubscriptionAddressRefs", DList); ("remoteUnicastAddressRefs", DList); ("sdServerConfig", DNone); ("sdServerTimerConfigRef", DNone); ("serviceIdentifier", DNone)]);
  (* M2/AUTOSARTemplates/SystemTemplate/Fibex/Fibex4Ethernet/ServiceInstances.py:1125 *)
  ("ApplicationEndpoint", [("consumedServiceInstances", DList); ("maxNumberOfConnections", DNone); ("networkEndpointRef", DNone); ("priority", DNone); ("providedServiceInstances", DList); ("tlsCryptoMappingRef", DNone); ("tpConfiguration", DNone)]);
  (* M2/AUTOSARTemplates/SystemTemplate/Fibex/Fibex4Ethernet/ServiceInstances.py:1216 *)
  ("SocketAddress", [("allowedIPv6ExtHeadersRef", DNone); ("allowedTcpOptionsRef", DNone); ("applicationEndpoint", DNone); ("connectorRef", DNone); ("differentiatedServiceField", DNone); ("flowLabel", DNone); ("multicastConnectorRefs", DList); ("pathMtuDiscoveryEnabled", DNone); ("pduCollectionMaxBufferSize", DNone); ("pduCollectionTimeout", DNone); ("portAddress", DNone); ("staticSocketConnections", DList); ("udpChecksumHandling", DNone)]);
  (* M2/AUTOSARTemplates/SystemTemplate/Fibex/Fibex4Ethernet/ServiceInstances.py:1362 *)
  ("SoAdConfig", [("connections", DList); ("connectionBundles", DList); ("socketAddresses", DList)]);
  (* M2/AUTOSARTemplates/SystemTemplate/Fibex/Fibex4Flexray/FlexrayCommunication.py:23 *)
  ("FlexrayAbsolutelyScheduledTiming", [("communicationCycle", DNone); ("slotID", DNone)]);
  (* M2/AUTOSARTemplates/SystemTemplate/Fibex/Fibex4Flexray/FlexrayCommunication.py:60 *)
  ("FlexrayFrameTriggering", [("absolutelyScheduledTimings", DList); ("allowDynamicLSduLength", DNone); ("messageId", DNone); ("payloadPreambleIndicator", DNone)]);
  (* M2/AUTOSARTemplates/SystemTemplate/Fibex/Fibex4Flexray/FlexrayTopology.py:10 *)
  ("FlexrayCommunicationController", [("acceptedStartupRange", DNone); ("allowHaltDueToClock", DNone); ("allowPassiveToActive", DNone); ("clusterDriftDamping", DNone); ("decodingCorrection", DNone); ("delayCompensationA", DNone); ("delayCompensationB", DNone); ("externalSync", DNone); ("externOffsetCorrection", DNone); ("externRateCorrection", DNone); ("fallBackInternal", DNone); ("flexrayFifos", DList); ("keySlotID", DNone); ("keySlotOnlyEnabled", DNone); ("keySlotUsedForStartUp", DNone); ("keySlotUsedForSync", DNone); ("latestTX", DNone); ("listenTimeout", DNone); ("macroInitialOffsetA", DNone); ("macroInitialOffsetB", DNone); ("maximumDynamicPayloadLength", DNone); ("microInitialOffsetA", DNone); ("microInitialOffsetB", DNone); ("microPerCycle", DNone); ("microtickDuration", DNone); ("nmVectorEarlyUpdate", DNone); ("offsetCorrectionOut", DNone); ("rateCorrectionOut", DNone); ("samplesPerMicrotick", DNone); ("secondKeySlotId", DNone); ("twoKeySlotMode", DNone); ("wakeUpPattern", DNone)]);
  (* M2/AUTOSARTemplates/SystemTemplate/Fibex/Fibex4Flexray/FlexrayTopology.py:534 *)
  ("FlexrayCommunicationConnector", [("nmReadySleepTime", DNone); ("pncFilterDataMask", DNone); ("wakeUpChannel", DNone)]);
  (* M2/AUTOSARTemplates/SystemTemplate/Fibex/Fibex4Flexray/FlexrayTopology.py:582 *)
  ("FlexrayCluster", [("actionPointOffset", DNone); ("bit", DNone); ("casRxLowMax", DNone); ("coldStartAttempts", DNone); ("cycle", DNone); ("cycleCountMax", DNone); ("detectNitError", DNone); ("dynamicSlotIdlePhase", DNone); ("ignoreAfterTx", DNone); ("listenNoise", DNone); ("macroPerCycle", DNone); ("macrotickDuration", DNone); ("maxWithoutClockCorrectionFatal", DNone); ("maxWithoutClockCorrectionPassive", DNone); ("minislotActionPointOffset", DNone); ("minislotDuration", DNone); ("networkIdleTime", DNone); ("networkManagementVectorLength", DNone); ("numberOfMinislots", DNone); ("numberOfStaticSlots", DNone); ("offsetCorrectionStart", DNone); ("payloadLengthStatic", DNone); ("safetyMargin", DNone); ("sampleClockPeriod", DNone); ("staticSlotDuration", DNone); ("symbolWindow", DNone); ("symbolWindowActionPointOffset", DNone); ("syncFrameIdCountMax", DNone); ("tranceiverStandbyDelay", DNone); ("transmissionStartSequenceDuration", DNone); ("wakeupRxIdle", DNone); ("wakeupRxLow", DNone); ("wakeupRxWindow", DNone); ("wakeupTxActive", DNone); ("wakeupTxIdle", DNone)]);
  (* M2/AUTOSARTemplates/SystemTemplate/Fibex/Fibex4Flexray/FlexrayTopology.py:1155 *)
  ("FlexrayFifoRange", [("rangeMax", DNone); ("rangeMin", DNone)]);
  (* M2/AUTOSARTemplates/SystemTemplate/Fibex/Fibex4Flexray/FlexrayTopology.py:1200 *)
  ("FlexrayFifoConfiguration", [("admitWithoutMessageId", DNone); ("baseCycle", DNone); ("channelRef", DNone); ("cycleRepetition", DNone); ("fifoDepth", DNone); ("fifoRange", DList); ("msgIdMask", DNone); ("msgIdMatch", DNone)]);
  (* M2/AUTOSARTemplates/SystemTemplate/Fibex/Fibex4Lin/LinCommunication.py:42 *)
  ("LinFrameTriggering", [("identifier", DNone); ("linChecksum", DNone)]);
  (* M2/AUTOSARTemplates/SystemTemplate/Fibex/Fibex4Lin/LinCommunication.py:95 *)
  ("ScheduleTableEntry", [("delay", DNone); ("introduction", DNone); ("positionInTable", DNone)]);
  (* M2/AUTOSARTemplates/SystemTemplate/Fibex/Fibex4Lin/LinCommunication.py:147 *)
  ("ApplicationEntry", [("frameTriggeringRef", DNone)]);
  (* M2/AUTOSARTemplates/SystemTemplate/Fibex/Fibex4Lin/LinCommunication.py:206 *)
  ("LinScheduleTable", [("resumePosition", DNone); ("runMode", DNone); ("tableEntries", DList)]);
  (* M2/AUTOSARTemplates/SystemTemplate/Fibex/Fibex4Lin/LinTopology.py:7 *)
  ("LinCommunicationController", [("protocolVersion", DNone)]);
  (* M2/AUTOSARTemplates/SystemTemplate/Fibex/Fibex4Lin/LinTopology.py:35 *)
  ("LinMaster", [("linSlaves", DList); ("timeBase", DNone); ("timeBaseJitter", DNone)]);
  (* M2/AUTOSARTemplates/SystemTemplate/Fibex/Fibex4Lin/LinTopology.py:83 *)
  ("LinCommunicationConnector", [("initialNad", DNone); ("linConfigurableFrames", DList); ("linOrderedConfigurableFrames", DList); ("scheduleChangeNextTimeBase", DNone)]);
  (* M2/AUTOSARTemplates/SystemTemplate/Fibex/FibexCore/CoreCommunication.py:38 *)
  ("PduToFrameMapping", [("packingByteOrder", DNone); ("pduRef", DNone); ("startPosition", DNone); ("updateIndicationBitPosition", DNone)]);
  (* M2/AUTOSARTemplates/SystemTemplate/Fibex/FibexCore/CoreCommunication.py:93 *)
  ("Frame", [("frameLength", DNone); ("pduToFrameMappings", DList); ("elements/PduToFrameMapping", DList)]);
  (* M2/AUTOSARTemplates/SystemTemplate/Fibex/FibexCore/CoreCommunication.py:134 *)
  ("ContainedIPduProps", [("collectionSemantics", DNone); ("headerIdLongHeader", DNone); ("headerIdShortHeader", DNone); ("offset", DNone); ("timeout", DNone); ("trigger", DNone); ("updateIndicationBitPosition", DNone)]);
  (* M2/AUTOSARTemplates/SystemTemplate/Fibex/FibexCore/CoreCommunication.py:219 *)
  ("ISignalGroup", [("comBasedSignalGroupTransformationRef", DNone); ("iSignalRefs", DList); ("systemSignalGroupRef", DNone); ("transformationISignalProps", DList)]);
  (* M2/AUTOSARTemplates/SystemTemplate/Fibex/FibexCore/CoreCommunication.py:310 *)
  ("ISignalIPduGroup", [("communicationDirection", DNone); ("communicationMode", DNone); ("containedISignalIPduGroupRefs", DList); ("iSignalIPduRefs", DList); ("nmPduRefs", DList)]);
  (* M2/AUTOSARTemplates/SystemTemplate/Fibex/FibexCore/CoreCommunication.py:375 *)
  ("Pdu", [("hasDynamicLength", DNone); ("length", DNone)]);
  (* M2/AUTOSARTemplates/SystemTemplate/Fibex/FibexCore/CoreCommunication.py:433 *)
  ("IPdu", [("containedIPduProps", DNone)]);
  (* M2/AUTOSARTemplates/SystemTemplate/Fibex/FibexCore/CoreCommunication.py:471 *)
  ("SecureCommunicationProps", [("authDataFreshnessLength", DNone); ("authDataFreshnessStartPosition", DNone); ("authenticationBuildAttempts", DNone); ("authenticationRetries", DNone); ("dataId", DNone); ("freshnessValueId", DNone); ("messageLinkLength", DNone); ("messageLinkPosition", DNone); ("secondaryFreshnessValueId", DNone); ("securedAreaLength", DNone); ("securedAreaOffset", DNone)]);
  (* M2/AUTOSARTemplates/SystemTemplate/Fibex/FibexCore/CoreCommunication.py:709 *)
  ("SecuredIPdu", [("authenticationPropsRef", DNone); ("dynamicRuntimeLengthHandling", DNone); ("freshnessPropsRef", DNone); ("payloadRef", DNone); ("secureCommunicationProps", DNone); ("useAsCryptographicIPdu", DNone); ("useSecuredPduHeader", DNone)]);
  (* M2/AUTOSARTemplates/SystemTemplate/Fibex/FibexCore/CoreCommunication.py:837 *)
  ("ISignalToIPduMapping", [("iSignalRef", DNone); ("iSignalGroupRef", DNone); ("packingByteOrder", DNone); ("startPosition", DNone); ("transferProperty", DNone); ("updateIndicationBitPosition", DNone)]);
  (* M2/AUTOSARTemplates/SystemTemplate/Fibex/FibexCore/CoreCommunication.py:972 *)
  ("NmPdu", [("iSignalToIPduMappings", DList); ("nmDataInformation", DNone); ("nmVoteInformation", DNone); ("unusedBitPattern", DNone)]);
  (* M2/AUTOSARTemplates/SystemTemplate/Fibex/FibexCore/CoreCommunication.py:1046 *)
  ("DcmIPdu", [("diagPduType", DNone)]);
  (* M2/AUTOSARTemplates/SystemTemplate/Fibex/FibexCore/CoreCommunication.py:1070 *)
  ("IPduTiming", [("minimumDelay", DNone); ("transmissionModeDeclaration", DNone)]);
  (* M2/AUTOSARTemplates/SystemTemplate/Fibex/FibexCore/CoreCommunication.py:1125 *)
  ("ISignalIPdu", [("iPduTimingSpecification", DNone); ("iSignalToPduMappings", DList); ("unusedBitPattern", DNone)]);
  (* M2/AUTOSARTemplates/SystemTemplate/Fibex/FibexCore/CoreCommunication.py:1226 *)
  ("ISignalProps", [("handleOutOfRange", DNone)]);
  (* M2/AUTOSARTemplates/SystemTemplate/Fibex/FibexCore/CoreCommunication.py:1264 *)
  ("ISignal", [("dataTransformationRef", DNone); ("dataTypePolicy", DNone); ("initValue", DNone); ("iSignalProps", DNone); ("iSignalType", DNone); ("length", DNone); ("networkRepresentationProps", DNone); ("systemSignalRef", DNone); ("timeoutSubstitutionValue", DNone); ("transformationISignalProps", DList)]);
  (* M2/AUTOSARTemplates/SystemTemplate/Fibex/FibexCore/CoreCommunication.py:1481 *)
  ("PduTriggering", [("iPduRef", DNone); ("iPduPortRefs", DList); ("iSignalTriggeringRefs", DList); ("secOcCryptoMappingRef", DNone); ("triggerIPduSendConditions", DList)]);
  (* M2/AUTOSARTemplates/SystemTemplate/Fibex/FibexCore/CoreCommunication.py:1547 *)
  ("FrameTriggering", [("frameRef", DNone); ("framePortRefs", DList); ("pduTriggeringRefs", DList)]);
  (* M2/AUTOSARTemplates/SystemTemplate/Fibex/FibexCore/CoreCommunication.py:1595 *)
  ("SystemSignal", [("dynamicLength", DNone); ("physicalProps", DNone)]);
  (* M2/AUTOSARTemplates/SystemTemplate/Fibex/FibexCore/CoreCommunication.py:1630 *)
  ("SystemSignalGroup", [("systemSignalRefs", DList); ("transformingSystemSignalRef", DNone)]);
  (* M2/AUTOSARTemplates/SystemTemplate/Fibex/FibexCore/CoreCommunication.py:1683 *)
  ("ISignalTriggering", [("iSignalRef", DNone); ("iSignalGroupRef", DNone); ("iSignalPortRefs", DList)]);
  (* M2/AUTOSARTemplates/SystemTemplate/Fibex/FibexCore/CoreCommunication.py:1728 *)
  ("SegmentPosition", [("segmentByteOrder", DNone); ("segmentLength", DNone); ("segmentPosition", DNone)]);
  (* M2/AUTOSARTemplates/SystemTemplate/Fibex/FibexCore/CoreCommunication.py:1776 *)
  ("MultiplexedPart", [("segmentPositions", DList)]);
  (* M2/AUTOSARTemplates/SystemTemplate/Fibex/FibexCore/CoreCommunication.py:1805 *)
  ("StaticPart", [("iPduRef", DNone)]);
  (* M2/AUTOSARTemplates/SystemTemplate/Fibex/FibexCore/CoreCommunication.py:1831 *)
  ("DynamicPartAlternative", [("initialDynamicPart", DNone); ("iPduRef", DNone); ("selectorFieldCode", DNone)]);
  (* M2/AUTOSARTemplates/SystemTemplate/Fibex/FibexCore/CoreCommunication.py:1879 *)
  ("DynamicPart", [("dynamicPartAlternatives", DList)]);
  (* M2/AUTOSARTemplates/SystemTemplate/Fibex/FibexCore/CoreCommunication.py:1905 *)
  ("MultiplexedIPdu", [("dynamicPart", DNone); ("selectorFieldByteOrder", DNone); ("selectorFieldLength", DNone); ("selectorFieldStartPosition", DNone); ("staticPart", DNone); ("triggerMode", DNone); ("unusedBitPattern", DNone)]);
  (* M2/AUTOSARTemplates/SystemTemplate/Fibex/FibexCore/CoreCommunication.py:2023 *)
  ("SecureCommunicationPropsSet", [("authenticationProps", DList); ("freshnessProps", DList)]);
  (* M2/AUTOSARTemplates/SystemTemplate/Fibex/FibexCore/CoreCommunication.py:2083 *)
  ("UserDefinedPdu", [("cddType", DNone)]);
  (* M2/AUTOSARTemplates/SystemTemplate/Fibex/FibexCore/CoreCommunication.py:2116 *)
  ("UserDefinedIPdu", [("cddType", DNone)]);
  (* M2/AUTOSARTemplates/SystemTemplate/Fibex/FibexCore/CoreCommunication.py:2139 *)
  ("SecureCommunicationAuthenticationProps", [("authInfoTxLength", DNone)]);
  (* M2/AUTOSARTemplates/SystemTemplate/Fibex/FibexCore/CoreCommunication.py:2177 *)
  ("SecureCommunicationFreshnessProps", [("freshnessCounterSyncAttempts", DNone); ("freshnessTimestampTimePeriodFactor", DNone); ("freshnessValueLength", DNone); ("freshnessValueTxLength", DNone); ("useFreshnessTimestamp", DNone)]);
  (* M2/AUTOSARTemplates/SystemTemplate/Fibex/FibexCore/CoreTopology.py:33 *)
  ("CycleCounter", [("CycleCounter", DNone)]);
  (* M2/AUTOSARTemplates/SystemTemplate/Fibex/FibexCore/CoreTopology.py:72 *)
  ("CycleRepetition", [("BaseCycle", DNone); ("CycleRepetition", DNone)]);
  (* M2/AUTOSARTemplates/SystemTemplate/Fibex/FibexCore/CoreTopology.py:109 *)
  ("PhysicalChannel", [("commConnectorRefs", DList); ("frameTriggerings", DList); ("managedPhysicalChannelRefs", DList); ("elements/FrameTriggering", DList); ("elements/ISignalTriggering", DList); ("elements/PduTriggering", DList)]);
  (* M2/AUTOSARTemplates/SystemTemplate/Fibex/FibexCore/CoreTopology.py:230 *)
  ("LinPhysicalChannel", [("busIdleTimeoutPeriod", DNone); ("scheduleTables", DList)]);
  (* M2/AUTOSARTemplates/SystemTemplate/Fibex/FibexCore/CoreTopology.py:269 *)
  ("VlanConfig", [("vlanIdentifier", DNone)]);
  (* M2/AUTOSARTemplates/SystemTemplate/Fibex/FibexCore/CoreTopology.py:295 *)
  ("EthernetPhysicalChannel", [("networkEndpoints", DList); ("soAdConfig", DNone); ("vlan", DNone)]);
  (* M2/AUTOSARTemplates/SystemTemplate/Fibex/FibexCore/CoreTopology.py:363 *)
  ("FlexrayPhysicalChannel", [("channelName", DNone)]);
  (* M2/AUTOSARTemplates/SystemTemplate/Fibex/FibexCore/CoreTopology.py:389 *)
  ("CommunicationCluster", [("baudrate", DNone); ("physicalChannel", DList); ("protocolName", DNone); ("protocolVersion", DNone)]);
  (* M2/AUTOSARTemplates/SystemTemplate/Fibex/FibexCore/CoreTopology.py:540 *)
  ("CanClusterBusOffRecovery", [("borCounterL1ToL2", DNone); ("borTimeL1", DNone); ("borTimeL2", DNone); ("borTimeTxEnsured", DNone); ("mainFunctionPeriod", DNone)]);
  (* M2/AUTOSARTemplates/SystemTemplate/Fibex/FibexCore/CoreTopology.py:610 *)
  ("AbstractCanCluster", [("busOffRecovery", DNone); ("canFdBaudrate", DNone); ("canXlBaudrate", DNone)]);
  (* M2/AUTOSARTemplates/SystemTemplate/Fibex/FibexCore/CoreTopology.py:713 *)
  ("CommunicationController", [("wakeUpByControllerSupported", DNone)]);
  (* M2/AUTOSARTemplates/SystemTemplate/Fibex/FibexCore/CoreTopology.py:783 *)
  ("CommConnectorPort", [("communicationDirection", DNone)]);
  (* M2/AUTOSARTemplates/SystemTemplate/Fibex/FibexCore/CoreTopology.py:838 *)
  ("IPduPort", [("iPduSignalProcessing", DNone); ("keyId", DNone); ("rxSecurityVerification", DNone); ("timestampRxAcceptanceWindow", DNone); ("useAuthDataFreshness", DNone)]);
  (* M2/AUTOSARTemplates/SystemTemplate/Fibex/FibexCore/CoreTopology.py:908 *)
  ("ISignalPort", [("dataFilter", DNone); ("ddsQosProfileRef", DNone); ("firstTimeout", DNone); ("handleInvalid", DNone); ("timeout", DNone)]);
  (* M2/AUTOSARTemplates/SystemTemplate/Fibex/FibexCore/CoreTopology.py:978 *)
  ("CommunicationConnector", [("commControllerRef", DNone); ("createEcuWakeupSource", DNone); ("dynamicPncToChannelMappingEnabled", DNone); ("ecuCommPortInstances", DList); ("pncFilterArrayMasks", DList); ("pncGatewayType", DNone); ("elements/CommConnectorPort", DList)]);
  (* M2/AUTOSARTemplates/SystemTemplate/Fibex/FibexCore/EcuInstance.py:11 *)
  ("EcuInstance", [("associatedComIPduGroupRefs", DList); ("associatedConsumedProvidedServiceInstanceGroupRefs", DList); ("associatedPdurIPduGroupRefs", DList); ("channelSynchronousWakeup", DNone); ("clientIdRange", DNone); ("comConfigurationGwTimeBase", DNone); ("comConfigurationRxTimeBase", DNone); ("comConfigurationTxTimeBase", DNone); ("comEnableMDTForCyclicTransmission", DNone); ("commControllers", DList); ("connectors", DList); ("dltConfig", DNone); ("doIpConfig", DNone); ("ecuTaskProxyRefs", DList); ("ethSwitchPortGroupDerivation", DNone); ("firewallRuleRefs", DList); ("partitions", DList); ("pncNmRequest", DNone); ("pncPrepareSleepTimer", DNone); ("pncSynchronousWakeup", DNone); ("pnResetTime", DNone); ("sleepModeSupported", DNone); ("tcpIpIcmpPropsRef", DNone); ("tcpIpPropsRef", DNone); ("v2xSupported", DNone); ("wakeUpOverBusSupported", DNone); ("elements/CommunicationController", DList); ("elements/CommunicationConnector", DList)]);
  (* M2/AUTOSARTemplates/SystemTemplate/Fibex/FibexCore/Timing.py:8 *)
  ("ModeDrivenTransmissionModeCondition", [("modeDeclarationRef", DNone)]);
  (* M2/AUTOSARTemplates/SystemTemplate/Fibex/FibexCore/Timing.py:32 *)
  ("TransmissionModeCondition", [("dataFilter", DNone); ("iSignalInIPduRef", DNone)]);
  (* M2/AUTOSARTemplates/SystemTemplate/Fibex/FibexCore/Timing.py:67 *)
  ("TimeRangeType", [("tolerance", DNone); ("value", DNone)]);
  (* M2/AUTOSARTemplates/SystemTemplate/Fibex/FibexCore/Timing.py:101 *)
  ("CyclicTiming", [("timeOffset", DNone); ("timePeriod", DNone)]);
  (* M2/AUTOSARTemplates/SystemTemplate/Fibex/FibexCore/Timing.py:134 *)
  ("EventControlledTiming", [("numberOfRepetitions", DNone); ("repetitionPeriod", DNone)]);
  (* M2/AUTOSARTemplates/SystemTemplate/Fibex/FibexCore/Timing.py:168 *)
  ("TransmissionModeTiming", [("cyclicTiming", DNone); ("eventControlledTiming", DNone)]);
  (* M2/AUTOSARTemplates/SystemTemplate/Fibex/FibexCore/Timing.py:203 *)
  ("TransmissionModeDeclaration", [("modeDrivenFalseConditions", DList); ("modeDrivenTrueConditions", DList); ("transmissionModeConditions", DList); ("transmissionModeFalseTiming", DNone); ("transmissionModeTrueTiming", DNone)]);
  (* M2/AUTOSARTemplates/SystemTemplate/Transformer/__init__.py:45 *)
  ("DataTransformation", [("dataTransformationKind", DNone); ("executeDespiteDataUnavailability", DNone); ("transformerChainRefs", DList)]);
  (* M2/AUTOSARTemplates/SystemTemplate/Transformer/__init__.py:120 *)
  ("BufferProperties", [("headerLength", DNone); ("inPlace", DNone)]);
  (* M2/AUTOSARTemplates/SystemTemplate/Transformer/__init__.py:253 *)
  ("E2EProfileCompatibilityProps", [("transitToInvalidExtended", DNone)]);
  (* M2/AUTOSARTemplates/SystemTemplate/Transformer/__init__.py:289 *)
  ("EndToEndTransformationDescription", [("clearFromValidToInvalid", DNone); ("counterOffset", DNone); ("crcOffset", DNone); ("dataIdMode", DNone); ("dataIdNibbleOffset", DNone); ("e2eProfileCompatibilityPropsRef", DNone); ("maxDeltaCounter", DNone); ("maxErrorStateInit", DNone); ("maxErrorStateInvalid", DNone); ("maxErrorStateValid", DNone); ("maxNoNewOrRepeatedData", DNone); ("minOkStateInit", DNone); ("minOkStateInvalid", DNone); ("minOkStateValid", DNone); ("offset", DNone); ("profileBehavior", DNone); ("profileName", DNone); ("syncCounterInit", DNone); ("upperHeaderBitsToShift", DNone); ("windowSizeInit", DNone); ("windowSizeInvalid", DNone); ("windowSizeValid", DNone)]);
  (* M2/AUTOSARTemplates/SystemTemplate/Transformer/__init__.py:792 *)
  ("TransformationTechnology", [("bufferProperties", DNone); ("hasInternalState", DNone); ("needsOriginalData", DNone); ("protocol", DNone); ("transformationDescription", DNone); ("transformerClass", DNone); ("version", DNone)]);
  (* M2/AUTOSARTemplates/SystemTemplate/Transformer/__init__.py:947 *)
  ("DataTransformationSet", [("dataTransformations", DList); ("transformationTechnologies", DList)]);
  (* M2/AUTOSARTemplates/SystemTemplate/Transformer/__init__.py:1008 *)
  ("TransformationISignalProps", [("csErrorReaction", DNone); ("dataPrototypeTransformationProps", DList); ("transformerRef", DNone)]);
  (* M2/AUTOSARTemplates/SystemTemplate/Transformer/__init__.py:1093 *)
  ("DataPrototypeReference", [("tagId", DNone)]);
  (* M2/AUTOSARTemplates/SystemTemplate/Transformer/__init__.py:1130 *)
  ("DataPrototypeInPortInterfaceRef", [("dataPrototypeInClientServerInterface", DNone)]);
  (* M2/AUTOSARTemplates/SystemTemplate/Transformer/__init__.py:1165 *)
  ("DataPrototypeInSenderReceiverInterfaceInstanceRef", [("baseRef", DNone); ("contextDataPrototypeInSrRefs", DList); ("rootDataPrototypeInSrRef", DNone); ("targetDataPrototypeInSrRef", DNone)]);
  (* M2/AUTOSARTemplates/SystemTemplate/Transformer/__init__.py:1260 *)
  ("DataPrototypeInClientServerInterfaceInstanceRef", [("baseRef", DNone); ("contextDataPrototypeInCsRefs", DList); ("rootDataPrototypeInCsRef", DNone); ("targetDataPrototypeInCsRef", DNone)]);
  (* M2/AUTOSARTemplates/SystemTemplate/Transformer/__init__.py:1355 *)
  ("ImplementationDataTypeElementInPortInterfaceRef", [("contextImplementationDataElementRefs", DList); ("rootDataPrototypeRef", DNone); ("targetImplementationDataTypeElementRef", DNone)]);
  (* M2/AUTOSARTemplates/SystemTemplate/Transformer/__init__.py:1430 *)
  ("DataPrototypeTransformationProps", [("dataPrototypeInPortInterfaceRef", DNone); ("networkRepresentationProps", DNone); ("transformationProps", DNone)]);
  (* M2/AUTOSARTemplates/SystemTemplate/Transformer/__init__.py:1505 *)
  ("EndToEndTransformationISignalProps", [("dataIds", DList); ("dataLength", DNone); ("maxDataLength", DNone); ("minDataLength", DNone); ("sourceId", DNone)]);
  (* M2/AUTOSARTemplates/SystemTemplate/Transformer/__init__.py:1575 *)
  ("EndToEndTransformationComSpecProps", [("clearFromValidToInvalid", DNone); ("disableEndToEndCheck", DNone); ("disableEndToEndStateMachine", DNone); ("e2eProfileCompatibilityPropsRef", DNone); ("maxDeltaCounter", DNone); ("maxErrorStateInit", DNone); ("maxErrorStateInvalid", DNone); ("maxErrorStateValid", DNone); ("maxNoNewOrRepeatedData", DNone); ("minOkStateInit", DNone); ("minOkStateInvalid", DNone); ("minOkStateValid", DNone); ("syncCounterInit", DNone); ("windowSizeInit", DNone); ("windowSizeInvalid", DNone); ("windowSizeValid", DNone)]);
  (* M2/MSR/AsamHdo/AdminData.py:8 *)
  ("Modification", [("change", DNone); ("reason", DNone)]);
  (* M2/MSR/AsamHdo/AdminData.py:45 *)
  ("DocRevision", [("date", DNone); ("issuedBy", DNone); ("modifications", DList); ("revisionLabel", DNone); ("revisionLabelP1", DNone); ("revisionLabelP2", DNone); ("state", DNone)]);
  (* M2/MSR/AsamHdo/AdminData.py:137 *)
  ("AdminData", [("DocRevisions", DList); ("language", DNone); ("sdgs", DList); ("usedLanguages", DNone)]);
  (* M2/MSR/AsamHdo/BaseTypes.py:31 *)
  ("BaseTypeDirectDefinition", [("baseTypeEncoding", DNone); ("baseTypeSize", DNone); ("byteOrder", DNone); ("memAlignment", DNone); ("nativeDeclaration", DNone)]);
  (* M2/MSR/AsamHdo/BaseTypes.py:151 *)
  ("BaseType", [("baseTypeDefinition", (DNew "BaseTypeDirectDefinition"))]);
  (* M2/MSR/AsamHdo/ComputationMethod.py:28 *)
  ("CompuConst", [("compuConstContentType", DNone)]);
  (* M2/MSR/AsamHdo/ComputationMethod.py:53 *)
  ("Compu", [("compuContent", DNone); ("compuDefaultValue", DNone)]);
  (* M2/MSR/AsamHdo/ComputationMethod.py:105 *)
  ("CompuConstTextContent", [("vt", DNone)]);
  (* M2/MSR/AsamHdo/ComputationMethod.py:130 *)
  ("CompuConstNumericContent", [("v", DNone)]);
  (* M2/MSR/AsamHdo/ComputationMethod.py:154 *)
  ("CompuConstFormulaContent", [("vf", DNone)]);
  (* M2/MSR/AsamHdo/ComputationMethod.py:194 *)
  ("CompuScaleConstantContents", [("compuConst", DNone)]);
  (* M2/MSR/AsamHdo/ComputationMethod.py:218 *)
  ("CompuRationalCoeffs", [("compuDenominator", DNone); ("compuNumerator", DNone)]);
  (* M2/MSR/AsamHdo/ComputationMethod.py:253 *)
  ("CompuScaleRationalFormula", [("compuRationalCoeffs", DNone)]);
  (* M2/MSR/AsamHdo/ComputationMethod.py:277 *)
  ("CompuNominatorDenominator", [("v", DList)]);
  (* M2/MSR/AsamHdo/ComputationMethod.py:301 *)
  ("CompuScale", [("a2lDisplayText", DNone); ("compuInverseValue", DNone); ("compuScaleContents", DNone); ("desc", DNone); ("lowerLimit", DNone); ("mask", DNone); ("shortLabel", DNone); ("symbol", DNone); ("upperLimit", DNone)]);
  (* M2/MSR/AsamHdo/ComputationMethod.py:406 *)
  ("CompuScales", [("compuScales", DList)]);
  (* M2/MSR/AsamHdo/ComputationMethod.py:429 *)
  ("CompuMethod", [("compuInternalToPhys", DNone); ("compuPhysToInternal", DNone); ("displayFormat", DNone); ("unitRef", DNone)]);
  (* M2/MSR/AsamHdo/SpecialData.py:9 *)
  ("Sd", [("gid", DNone); ("value", DNone); ("xmlSpace", DNone)]);
  (* M2/MSR/AsamHdo/SpecialData.py:81 *)
  ("SdgCaption", [("desc", DNone)]);
  (* M2/MSR/AsamHdo/SpecialData.py:115 *)
  ("Sdf", [("gid", DNone); ("value", DNone)]);
  (* M2/MSR/AsamHdo/SpecialData.py:168 *)
  ("SdgContents", [("sd", DList); ("sdf", DList); ("sdg", DList); ("sdxRefs", DList); ("sdxfRefs", DList)]);
  (* M2/MSR/AsamHdo/SpecialData.py:278 *)
  ("Sdg", [("gid", DNone); ("sdgCaption", DNone); ("sdgContentsType", DNone)]);
  (* M2/MSR/AsamHdo/Units.py:16 *)
  ("PhysicalDimension", [("currentExp", DNone); ("lengthExp", DNone); ("luminousIntensityExp", DNone); ("massExp", DNone); ("molarAmountExp", DNone); ("temperatureExp", DNone); ("timeExp", DNone)]);
  (* M2/MSR/AsamHdo/Units.py:179 *)
  ("Unit", [("displayName", DNone); ("factorSiToUnit", DNone); ("offsetSiToUnit", DNone); ("physicalDimensionRef", DNone)]);
  (* M2/MSR/AsamHdo/Units.py:270 *)
  ("UnitGroup", [("units", DList)]);
  (* M2/MSR/AsamHdo/Constraints/GlobalConstraints.py:18 *)
  ("InternalConstrs", [("lowerLimit", DNone); ("maxDiff", DNone); ("maxGradient", DNone); ("monotony", DNone); ("scaleConstrs", DList); ("upperLimit", DNone)]);
  (* M2/MSR/AsamHdo/Constraints/GlobalConstraints.py:184 *)
  ("ScaleConstr", [("desc", DNone); ("lowerLimit", DNone); ("shortLabel", DNone); ("upperLimit", DNone); ("validity", DNone)]);
  (* M2/MSR/AsamHdo/Constraints/GlobalConstraints.py:294 *)
  ("PhysConstrs", [("lowerLimit", DNone); ("maxDiff", DNone); ("maxGradient", DNone); ("monotony", DNone); ("scaleConstrs", DList); ("unitRef", DNone); ("upperLimit", DNone)]);
  (* M2/MSR/AsamHdo/Constraints/GlobalConstraints.py:442 *)
  ("DataConstrRule", [("constrLevel", DNone); ("internalConstrs", DNone); ("physConstrs", DNone)]);
  (* M2/MSR/AsamHdo/Constraints/GlobalConstraints.py:459 *)
  ("DataConstr", [("data_constr_rule", DList)]);
  (* M2/MSR/CalibrationData/CalibrationValue.py:7 *)
  ("SwValues", [("_v", DList); ("vt", DNone)]);
  (* M2/MSR/CalibrationData/CalibrationValue.py:30 *)
  ("SwValueCont", [("swArraysize", DNone); ("swValuesPhys", DNone); ("unitRef", DNone); ("unitDisplayName", DNone)]);
  (* M2/MSR/DataDictionary/AuxillaryObjects.py:80 *)
  ("SwAddrMethod", [("memoryAllocationKeywordPolicy", DNone); ("options", DList); ("sectionInitializationPolicy", DNone); ("sectionType", DNone)]);
  (* M2/MSR/DataDictionary/Axis.py:7 *)
  ("SwGenericAxisParam", [("swGenericAxisParamTypeRef", DNone); ("vfs", DList)]);
  (* M2/MSR/DataDictionary/Axis.py:62 *)
  ("SwAxisGeneric", [("swAxisTypeRef", DNone); ("swGenericAxisParams", DList)]);
  (* M2/MSR/DataDictionary/Axis.py:117 *)
  ("SwAxisIndividual", [("compuMethodRef", DNone); ("dataConstrRef", DNone); ("inputVariableTypeRef", DNone); ("swAxisGeneric", DNone); ("swMaxAxisPoints", DNone); ("swMinAxisPoints", DNone); ("swVariableRefs", DList); ("unitRef", DNone)]);
  (* M2/MSR/DataDictionary/Axis.py:211 *)
  ("SwAxisGrouped", [("sharedAxisTypeRef", DNone); ("swAxisIndex", DNone); ("swCalprmRef", DNone)]);
  (* M2/MSR/DataDictionary/CalibrationParameter.py:41 *)
  ("SwCalprmAxisTypeProps", [("maxGradient", DNone); ("monotony", DNone)]);
  (* M2/MSR/DataDictionary/CalibrationParameter.py:98 *)
  ("SwCalprmAxis", [("category", DNone); ("displayFormat", DNone); ("swAxisIndex", DNone); ("swCalibrationAccess", DNone); ("swCalprmAxisTypeProps", DNone)]);
  (* M2/MSR/DataDictionary/CalibrationParameter.py:209 *)
  ("SwCalprmAxisSet", [("_swCalprmAxis", DList)]);
  (* M2/MSR/DataDictionary/DataDefProperties.py:116 *)
  ("SwBitRepresentation", [("bitPosition", DNone); ("numberOfBits", DNone)]);
  (* M2/MSR/DataDictionary/DataDefProperties.py:169 *)
  ("SwVariableRefProxy", [("autosarVariable", DNone); ("mcDataInstanceVarRef", DNone)]);
  (* M2/MSR/DataDictionary/DataDefProperties.py:222 *)
  ("SwCalprmRefProxy", [("arParameter", DNone); ("mcDataInstanceRef", DNone)]);
  (* M2/MSR/DataDictionary/DataDefProperties.py:275 *)
  ("SwDataDependencyArgs", [("swCalprmRef", DNone); ("swVariable", DNone)]);
  (* M2/MSR/DataDictionary/DataDefProperties.py:328 *)
  ("CompuGenericMath", [("level", DNone)]);
  (* M2/MSR/DataDictionary/DataDefProperties.py:362 *)
  ("SwDataDependency", [("swDataDependencyFormula", DNone); ("swDataDependencyArgs", DNone)]);
  (* M2/MSR/DataDictionary/DataDefProperties.py:415 *)
  ("SwDataDefProps", [("displayPresentation", DNone); ("stepSize", DNone); ("swValueBlockSizeMults", DList); ("annotations", DList); ("swAddrMethodRef", DNone); ("swAlignment", DNone); ("baseTypeRef", DNone); ("swBitRepresentation", DNone); ("swCalibrationAccess", DNone); ("swValueBlockSize", DNone); ("swCalprmAxisSet", DNone); ("swTextProps", DNone); ("swComparisonVariables", DList); ("compuMethodRef", DNone); ("dataConstrRef", DNone); ("swDataDependency", DNone); ("displayFormat", DNone); ("implementationDataTypeRef", DNone); ("swHostVariable", DNone); ("swImplPolicy", DNone); ("additionalNativeTypeQualifier", DNone); ("swIntendedResolution", DNone); ("swInterpolationMethod", DNone); ("invalidValue", DNone); ("swIsVirtual", DNone); ("swPointerTargetProps", DNone); ("swRecordLayoutRef", DNone); ("swRefreshTiming", DNone); ("unitRef", DNone); ("valueAxisDataTypeRef", DNone)]);
  (* M2/MSR/DataDictionary/DataDefProperties.py:1000 *)
  ("SwPointerTargetProps", [("functionPointerSignatureRef", DNone); ("swDataDefProps", DNone); ("targetCategory", DNone)]);
  (* M2/MSR/DataDictionary/DataDefProperties.py:1072 *)
  ("ValueList", [("v", DNone); ("_vf", DList)]);
  (* M2/MSR/DataDictionary/DataDefProperties.py:1105 *)
  ("SwTextProps", [("arraySizeSemantics", DNone); ("baseTypeRef", DNone); ("swFillCharacter", DNone); ("swMaxTextSize", DNone)]);
  (* M2/MSR/DataDictionary/RecordLayout.py:24 *)
  ("SwRecordLayoutV", [("baseTypeRef", DNone); ("desc", DNone); ("shortLabel", DNone); ("swGenericAxisParamTypeRef", DNone); ("swRecordLayoutVAxis", DNone); ("swRecordLayoutVFixValue", DNone); ("swRecordLayoutVIndex", DNone); ("swRecordLayoutVProp", DNone)]);
  (* M2/MSR/DataDictionary/RecordLayout.py:118 *)
  ("SwRecordLayoutGroupContent", [("swRecordLayoutRef", DNone); ("swRecordLayoutGroup", DNone); ("swRecordLayoutV", DNone)]);
  (* M2/MSR/DataDictionary/RecordLayout.py:162 *)
  ("SwRecordLayoutGroup", [("category", DNone); ("desc", DNone); ("shortLabel", DNone); ("swGenericAxisParamTypeRef", DNone); ("swRecordLayoutComponent", DNone); ("swRecordLayoutGroupAxis", DNone); ("swRecordLayoutGroupContentType", DNone); ("swRecordLayoutGroupFrom", DNone); ("swRecordLayoutGroupIndex", DNone); ("swRecordLayoutGroupStep", DNone); ("swRecordLayoutGroupTo", DNone)]);
  (* M2/MSR/DataDictionary/RecordLayout.py:286 *)
  ("SwRecordLayout", [("swRecordLayoutGroup", DNone)]);
  (* M2/MSR/DataDictionary/ServiceProcessTask.py:9 *)
  ("SwServiceArg", [("direction", DNone); ("swArraysize", DNone); ("swDataDefProps", DNone)]);
  (* M2/MSR/DataDictionary/SystemConstant.py:6 *)
  ("SwSystemconst", [("swDataDefProps", DNone)]);
  (* M2/MSR/Documentation/Annotation.py:8 *)
  ("GeneralAnnotation", [("annotationOrigin", DNone); ("annotationText", DNone); ("label", DNone)]);
  (* M2/MSR/Documentation/Chapters.py:23 *)
  ("Chapter", [("chapterModel", DNone); ("helpEntry", DNone)]);
  (* M2/MSR/Documentation/Chapters.py:92 *)
  ("PredefinedChapter", [("chapterModel", DNone)]);
  (* M2/MSR/Documentation/Chapters.py:134 *)
  ("ChapterModel", [("chapter", DNone); ("chapterContent", DNone); ("topic1", DNone)]);
  (* M2/MSR/Documentation/Chapters.py:238 *)
  ("ChapterContent", [("topicContent", DNone)]);
  (* M2/MSR/Documentation/Chapters.py:284 *)
  ("ChapterOrMsrQuery", [("chapters", DList); ("msrQueryChapter", DNone)]);
  (* M2/MSR/Documentation/Chapters.py:353 *)
  ("TopicOrMsrQuery", [("msrQueryTopic1", DNone); ("topic1", DList)]);
  (* M2/MSR/Documentation/Chapters.py:422 *)
  ("Topic1", [("helpEntry", DNone); ("topicContent", DNone)]);
  (* M2/MSR/Documentation/Chapters.py:493 *)
  ("MsrQueryChapter", [("msrQueryProps", DNone)]);
  (* M2/MSR/Documentation/Chapters.py:540 *)
  ("MsrQueryTopic1", [("msrQueryProps", DNone)]);
  (* M2/MSR/Documentation/Chapters.py:587 *)
  ("TopicContent", [("blockLevelContent", DNone)]);
  (* M2/MSR/Documentation/Chapters.py:636 *)
  ("TopicContentOrMsrQuery", [("msrQueryP1", DNone); ("topicContent", DNone)]);
  (* M2/MSR/Documentation/BlockElements/Figure.py:20 *)
  ("Graphic", [("editfit", DNone); ("editHeight", DNone); ("editscale", DNone); ("editWidth", DNone); ("filename", DNone); ("fit", DNone)]);
  (* M2/MSR/Documentation/BlockElements/Figure.py:111 *)
  ("LGraphic", [("graphic", DNone); ("map", DNone)]);
  (* M2/MSR/Documentation/BlockElements/Figure.py:175 *)
  ("MlFigure", [("figureCaption", DNone); ("helpEntry", DNone); ("lGraphics", DList); ("pgwide", DNone); ("verbatim", DNone)]);
  (* M2/MSR/Documentation/BlockElements/Formula.py:9 *)
  ("MlFormula", [("formulaCaption", DNone); ("genericMath", DNone); ("lGraphics", DList); ("texMath", DNone); ("verbatim", DNone)]);
  (* M2/MSR/Documentation/BlockElements/__init__.py:12 *)
  ("Caption", [("desc", DNone)]);
  (* M2/MSR/Documentation/TextModel/InlineTextElements.py:24 *)
  ("Tt", [("value", DNone); ("texRender", DNone); ("type", DNone)]);
  (* M2/MSR/Documentation/TextModel/InlineTextElements.py:114 *)
  ("IndexEntry", [("value", DNone); ("sub", DNone); ("sup", DNone)]);
  (* M2/MSR/Documentation/TextModel/InlineTextElements.py:204 *)
  ("EmphasisText", [("value", DNone); ("color", DNone); ("font", DNone); ("sub", DNone); ("sup", DNone); ("tt", DNone); ("type", DNone)]);
  (* M2/MSR/Documentation/TextModel/LanguageDataModel.py:139 *)
  ("LanguageSpecific", [("l", DNone); ("value", DEmpty)]);
  (* M2/MSR/Documentation/TextModel/LanguageDataModel.py:219 *)
  ("MixedContentForLongName", [("e", DNone); ("ie", DNone); ("sub", DNone); ("sup", DNone); ("tt", DNone)]);
  (* M2/MSR/Documentation/TextModel/LanguageDataModel.py:332 *)
  ("LLongName", [("blueprintValue", DNone)]);
  (* M2/MSR/Documentation/TextModel/MsrQuery.py:12 *)
  ("MsrQueryArg", [("arg", DNone); ("si", DNone)]);
  (* M2/MSR/Documentation/TextModel/MsrQuery.py:77 *)
  ("MsrQueryProps", [("comment", DNone); ("msrQueryName", DNone); ("msrQueryArgs", DList)]);
  (* M2/MSR/Documentation/TextModel/MsrQuery.py:167 *)
  ("MsrQueryP2", [("msrQueryProps", DNone); ("msrQueryResultP2", DNone)]);
  (* M2/MSR/Documentation/TextModel/MultilanguageData.py:13 *)
  ("MultiLanguageParagraph", [("l1", DList)]);
  (* M2/MSR/Documentation/TextModel/MultilanguageData.py:37 *)
  ("MultiLanguageOverviewParagraph", [("l2", DList)]);
  (* M2/MSR/Documentation/TextModel/MultilanguageData.py:72 *)
  ("MultilanguageLongName", [("l4", DList)]);
  (* M2/MSR/Documentation/TextModel/MultilanguageData.py:96 *)
  ("MultiLanguagePlainText", [("l10s", DList)]);
  (* M2/MSR/Documentation/TextModel/MultilanguageData.py:136 *)
  ("MultiLanguageVerbatim", [("allowBreak", DNone); ("float", DNone); ("helpEntry", DNone); ("l5s", DList); ("pgwide", DNone)]);
  (* M2/MSR/Documentation/TextModel/BlockElements/ListElements.py:32 *)
  ("Item", [("itemContents", DNone)]);
  (* M2/MSR/Documentation/TextModel/BlockElements/ListElements.py:55 *)
  ("ARList", [("items", DList); ("type", DNone)]);
  (* M2/MSR/Documentation/TextModel/BlockElements/ListElements.py:118 *)
  ("IndentSample", [("itemLabelPos", DNone); ("l2s", DList)]);
  (* M2/MSR/Documentation/TextModel/BlockElements/ListElements.py:183 *)
  ("LabeledItem", [("helpEntry", DNone); ("itemContents", DNone); ("itemLabel", DNone)]);
  (* M2/MSR/Documentation/TextModel/BlockElements/ListElements.py:273 *)
  ("LabeledList", [("indentSample", DNone); ("labeledItems", DList)]);
  (* M2/MSR/Documentation/TextModel/BlockElements/ListElements.py:338 *)
  ("DefItem", [("def_doc", DNone); ("helpEntry", DNone)]);
  (* M2/MSR/Documentation/TextModel/BlockElements/ListElements.py:391 *)
  ("DefList", [("defItems", DList)]);
  (* M2/MSR/Documentation/TextModel/BlockElements/Note.py:54 *)
  ("Note", [("label", DNone); ("noteText", DNone); ("noteType", DNone)]);
  (* M2/MSR/Documentation/TextModel/BlockElements/PaginationAndView.py:20 *)
  ("Paginateable", [("chapterBreak", DNone); ("keepWithPrevious", DNone)]);
  (* M2/MSR/Documentation/TextModel/BlockElements/RequirementsTracing.py:12 *)
  ("TraceableText", [("text", DNone); ("traceRefs", DList)]);
  (* M2/MSR/Documentation/TextModel/BlockElements/RequirementsTracing.py:77 *)
  ("StructuredReq", [("date", DNone); ("importance", DNone); ("issuedBy", DNone); ("type", DNone); ("description", DNone); ("rationale", DNone); ("dependencies", DNone); ("useCase", DNone); ("conflicts", DNone); ("supportingMaterial", DNone); ("remark", DNone); ("testedItemRefs", DList)]);
  (* M2/MSR/Documentation/TextModel/BlockElements/__init__.py:22 *)
  ("DocumentationBlock", [("defList", DNone); ("figures", DList); ("formula", DNone); ("labeledList", DNone); ("lists", DList); ("msrQueryP2", DNone); ("note", DNone); ("ps", DList); ("structuredReq", DNone); ("trace", DNone); ("verbatim", DNone)])].

Definition access_table : list (string * list (string * access)) := [
  (* M2/AUTOSARTemplates/ECUCDescriptionTemplate.py *)
  ("EcucValueCollection", [("getEcucValueRefs", AGet "ecucValueRefs") (* 37 *);
    ("addEcucValueRef", AAdd "ecucValueRefs" false) (* 40 *);
    ("getEcuExtractRef", AGet "ecuExtractRef") (* 44 *);
    ("setEcuExtractRef", ASet "ecuExtractRef" false) (* 47 *)]);
  (* M2/AUTOSARTemplates/ECUCDescriptionTemplate.py *)
  ("EcucIndexableValue", [("getIndex", AGet "index") (* 74 *);
    ("setIndex", ASet "index" true) (* 80 *)]);
  (* M2/AUTOSARTemplates/ECUCDescriptionTemplate.py *)
  ("EcucParameterValue", [("getAnnotations", AGet "annotations") (* 116 *);
    ("addAnnotation", AAdd "annotations" false) (* 119 *);
    ("getDefinitionRef", AGet "definitionRef") (* 123 *);
    ("setDefinitionRef", ASet "definitionRef" false) (* 126 *)]);
  (* M2/AUTOSARTemplates/ECUCDescriptionTemplate.py *)
  ("EcucAddInfoParamValue", [("getValue", AGet "value") (* 154 *);
    ("setValue", ASet "value" false) (* 157 *)]);
  (* M2/AUTOSARTemplates/ECUCDescriptionTemplate.py *)
  ("EcucTextualParamValue", [("getValue", AGet "value") (* 176 *);
    ("setValue", ASet "value" false) (* 179 *)]);
  (* M2/AUTOSARTemplates/ECUCDescriptionTemplate.py *)
  ("EcucNumericalParamValue", [("getValue", AGet "value") (* 198 *);
    ("setValue", ASet "value" false) (* 201 *)]);
  (* M2/AUTOSARTemplates/ECUCDescriptionTemplate.py *)
  ("EcucAbstractReferenceValue", [("getAnnotations", AGet "annotations") (* 230 *);
    ("addAnnotation", AAdd "annotations" false) (* 233 *);
    ("getDefinitionRef", AGet "definitionRef") (* 237 *);
    ("setDefinitionRef", ASet "definitionRef" false) (* 240 *)]);
  (* M2/AUTOSARTemplates/ECUCDescriptionTemplate.py *)
  ("EcucInstanceReferenceValue", [("getValueIRef", AGet "valueRef") (* 268 *);
    ("setValueIRef", ASet "valueRef" false) (* 271 *)]);
  (* M2/AUTOSARTemplates/ECUCDescriptionTemplate.py *)
  ("EcucReferenceValue", [("getValueRef", AGet "valueRef") (* 291 *);
    ("setValueRef", ASet "valueRef" false) (* 294 *)]);
  (* M2/AUTOSARTemplates/ECUCDescriptionTemplate.py *)
  ("EcucContainerValue", [("getDefinitionRef", AGet "definitionRef") (* 325 *);
    ("setDefinitionRef", ASet "definitionRef" false) (* 328 *);
    ("getParameterValues", AGet "parameterValues") (* 332 *);
    ("addParameterValue", AAdd "parameterValues" false) (* 335 *);
    ("getReferenceValues", AGet "referenceValues") (* 339 *);
    ("addReferenceValue", AAdd "referenceValues" false) (* 342 *);
    ("getSubContainers", AGet "subContainers") (* 346 *);
    ("createSubContainer", ANew "EcucContainerValue" true (PList "subContainers")) (* 349 *)]);
  (* M2/AUTOSARTemplates/ECUCDescriptionTemplate.py *)
  ("EcucModuleConfigurationValues", [("createContainer", ANew "EcucContainerValue" true (PList "elements/EcucContainerValue")) (* 390 *);
    ("getContainers", AGetSorted "elements/EcucContainerValue") (* 397 *);
    ("getDefinitionRef", AGet "definitionRef") (* 400 *);
    ("setDefinitionRef", ASet "definitionRef" false) (* 403 *);
    ("getEcucDefEdition", AGet "ecucDefEdition") (* 407 *);
    ("setEcucDefEdition", ASet "ecucDefEdition" false) (* 410 *);
    ("getImplementationConfigVariant", AGet "implementationConfigVariant") (* 414 *);
    ("setImplementationConfigVariant", ASet "implementationConfigVariant" false) (* 417 *);
    ("getModuleDescriptionRef", AGet "moduleDescriptionRef") (* 421 *);
    ("setModuleDescriptionRef", ASet "moduleDescriptionRef" false) (* 424 *);
    ("getPostBuildVariantUsed", AGet "postBuildVariantUsed") (* 428 *);
    ("setPostBuildVariantUsed", ASet "postBuildVariantUsed" false) (* 431 *)]);
  (* M2/AUTOSARTemplates/ECUCParameterDefTemplate.py *)
  ("EcucConditionSpecification", [("getConditionFormula", AGet "conditionFormula") (* 42 *);
    ("setConditionFormula", ASet "conditionFormula" true) (* 48 *);
    ("getEcucQueries", AGet "ecucQueries") (* 57 *);
    ("createEcucQuery", ANew "EcucQuery" true (PList "ecucQueries")) (* 63 *);
    ("getInformalFormula", AGet "informalFormula") (* 85 *);
    ("setInformalFormula", ASet "informalFormula" true) (* 91 *)]);
  (* M2/AUTOSARTemplates/ECUCParameterDefTemplate.py *)
  ("EcucValidationCondition", [("getEcucQueries", AGet "ecucQueries") (* 125 *);
    ("createEcucQuery", ANew "EcucQuery" true (PList "ecucQueries")) (* 131 *);
    ("getValidationFormula", AGet "validationFormula") (* 153 *);
    ("setValidationFormula", ASet "validationFormula" true) (* 159 *)]);
  (* M2/AUTOSARTemplates/ECUCParameterDefTemplate.py *)
  ("EcucDefinitionElement", [("getEcucCond", AGet "ecucCond") (* 243 *);
    ("setEcucCond", ASet "ecucCond" true) (* 249 *);
    ("getEcucValidationConds", AGet "ecucValidationConds") (* 258 *);
    ("addEcucValidationCond", AAdd "ecucValidationConds" true) (* 264 *);
    ("getLowerMultiplicity", AGet "lowerMultiplicity") (* 273 *);
    ("setLowerMultiplicity", ASet "lowerMultiplicity" true) (* 279 *);
    ("getScope", AGet "scope") (* 303 *);
    ("setScope", ASet "scope" true) (* 309 *);
    ("getUpperMultiplicity", AGet "upperMultiplicity") (* 318 *);
    ("setUpperMultiplicity", ASet "upperMultiplicity" true) (* 324 *)]);
  (* M2/AUTOSARTemplates/ECUCParameterDefTemplate.py *)
  ("EcucAbstractConfigurationClass", [("getConfigClass", AGet "configClass") (* 455 *);
    ("setConfigClass", ASet "configClass" true) (* 461 *);
    ("getConfigVariant", AGet "configVariant") (* 470 *);
    ("setConfigVariant", ASet "configVariant" true) (* 476 *)]);
  (* M2/AUTOSARTemplates/ECUCParameterDefTemplate.py *)
  ("EcucContainerDef", [("getDestinationUriRefs", AGet "destinationUriRefs") (* 540 *);
    ("addDestinationUriRef", AAdd "destinationUriRefs" true) (* 546 *);
    ("getMultiplicityConfigClasses", AGet "multiplicityConfigClasses") (* 555 *);
    ("addMultiplicityConfigClass", AAdd "multiplicityConfigClasses" true) (* 561 *);
    ("getOrigin", AGet "origin") (* 570 *);
    ("setOrigin", ASet "origin" true) (* 576 *);
    ("getPostBuildVariantMultiplicity", AGet "postBuildVariantMultiplicity") (* 585 *);
    ("setPostBuildVariantMultiplicity", ASet "postBuildVariantMultiplicity" true) (* 591 *);
    ("getRequiresIndex", AGet "requiresIndex") (* 600 *);
    ("setRequiresIndex", ASet "requiresIndex" true) (* 606 *)]);
  (* M2/AUTOSARTemplates/ECUCParameterDefTemplate.py *)
  ("EcucCommonAttributes", [("getMultiplicityConfigClasses", AGet "multiplicityConfigClasses") (* 675 *);
    ("addMultiplicityConfigClass", AAdd "multiplicityConfigClasses" true) (* 681 *);
    ("getOrigin", AGet "origin") (* 690 *);
    ("setOrigin", ASet "origin" true) (* 696 *);
    ("getPostBuildVariantMultiplicity", AGet "postBuildVariantMultiplicity") (* 705 *);
    ("setPostBuildVariantMultiplicity", ASet "postBuildVariantMultiplicity" true) (* 711 *);
    ("getPostBuildVariantValue", AGet "postBuildVariantValue") (* 720 *);
    ("setPostBuildVariantValue", ASet "postBuildVariantValue" true) (* 726 *);
    ("getRequiresIndex", AGet "requiresIndex") (* 735 *);
    ("setRequiresIndex", ASet "requiresIndex" true) (* 741 *);
    ("getValueConfigClasses", AGet "valueConfigClasses") (* 750 *);
    ("addValueConfigClass", AAdd "valueConfigClasses" true) (* 756 *)]);
  (* M2/AUTOSARTemplates/ECUCParameterDefTemplate.py *)
  ("EcucDerivationSpecification", [("getCalculationFormula", AGet "calculationFormula") (* 797 *);
    ("setCalculationFormula", ASet "calculationFormula" true) (* 803 *);
    ("getEcucQueries", AGet "ecucQueries") (* 812 *);
    ("createEcucQuery", ANew "EcucQuery" true (PList "ecucQueries")) (* 818 *);
    ("getInformalFormula", AGet "informalFormula") (* 840 *);
    ("setInformalFormula", ASet "informalFormula" true) (* 846 *)]);
  (* M2/AUTOSARTemplates/ECUCParameterDefTemplate.py *)
  ("EcucParameterDef", [("getDerivation", AGet "derivation") (* 880 *);
    ("setDerivation", ASet "derivation" true) (* 883 *);
    ("getSymbolicNameValue", AGet "symbolicNameValue") (* 888 *);
    ("setSymbolicNameValue", ASet "symbolicNameValue" true) (* 891 *);
    ("getWithAuto", AGet "withAuto") (* 896 *);
    ("setWithAuto", ASet "withAuto" true) (* 899 *)]);
  (* M2/AUTOSARTemplates/ECUCParameterDefTemplate.py *)
  ("EcucBooleanParamDef", [("getDefaultValue", AGet "defaultValue") (* 921 *);
    ("setDefaultValue", ASet "defaultValue" true) (* 924 *)]);
  (* M2/AUTOSARTemplates/ECUCParameterDefTemplate.py *)
  ("EcucAbstractReferenceDef", [("getWithAuto", AGet "withAuto") (* 951 *);
    ("setWithAuto", ASet "withAuto" true) (* 957 *)]);
  (* M2/AUTOSARTemplates/ECUCParameterDefTemplate.py *)
  ("EcucAbstractInternalReferenceDef", [("getRequiresSymbolicNameValue", AGet "requiresSymbolicNameValue") (* 988 *);
    ("setRequiresSymbolicNameValue", ASet "requiresSymbolicNameValue" true) (* 994 *)]);
  (* M2/AUTOSARTemplates/ECUCParameterDefTemplate.py *)
  ("EcucSymbolicNameReferenceDef", [("getDestinationRef", AGet "destinationRef") (* 1039 *);
    ("setDestinationRef", ASet "destinationRef" true) (* 1045 *)]);
  (* M2/AUTOSARTemplates/ECUCParameterDefTemplate.py *)
  ("EcucChoiceReferenceDef", [("getDestinationRefs", AGet "destinationRefs") (* 1074 *);
    ("addDestinationRef", AAdd "destinationRefs" true) (* 1080 *)]);
  (* M2/AUTOSARTemplates/ECUCParameterDefTemplate.py *)
  ("EcucReferenceDef", [("getDestinationRef", AGet "destinationRef") (* 1108 *);
    ("setDestinationRef", ASet "destinationRef" true) (* 1114 *)]);
  (* M2/AUTOSARTemplates/ECUCParameterDefTemplate.py *)
  ("EcucForeignReferenceDef", [("getDestinationType", AGet "destinationType") (* 1174 *);
    ("setDestinationType", ASet "destinationType" true) (* 1180 *)]);
  (* M2/AUTOSARTemplates/ECUCParameterDefTemplate.py *)
  ("EcucInstanceReferenceDef", [("getDestinationContext", AGet "destinationContext") (* 1214 *);
    ("setDestinationContext", ASet "destinationContext" true) (* 1220 *);
    ("getDestinationType", AGet "destinationType") (* 1229 *);
    ("setDestinationType", ASet "destinationType" true) (* 1235 *)]);
  (* M2/AUTOSARTemplates/ECUCParameterDefTemplate.py *)
  ("EcucAbstractStringParamDef", [("getDefaultValue", AGet "defaultValue") (* 1281 *);
    ("setDefaultValue", ASet "defaultValue" true) (* 1287 *);
    ("getMaxLength", AGet "maxLength") (* 1297 *);
    ("setMaxLength", ASet "maxLength" true) (* 1303 *);
    ("getMinLength", AGet "minLength") (* 1313 *);
    ("setMinLength", ASet "minLength" true) (* 1319 *);
    ("getRegularExpression", AGet "regularExpression") (* 1329 *);
    ("setRegularExpression", ASet "regularExpression" true) (* 1335 *)]);
  (* M2/AUTOSARTemplates/ECUCParameterDefTemplate.py *)
  ("EcucIntegerParamDef", [("getDefaultValue", AGet "defaultValue") (* 1396 *);
    ("setDefaultValue", ASet "defaultValue" true) (* 1399 *);
    ("getMax", AGet "max") (* 1404 *);
    ("setMax", ASet "max" true) (* 1407 *);
    ("getMin", AGet "min") (* 1412 *);
    ("setMin", ASet "min" true) (* 1415 *)]);
  (* M2/AUTOSARTemplates/ECUCParameterDefTemplate.py *)
  ("EcucEnumerationLiteralDef", [("getEcucCond", AGet "ecucCond") (* 1440 *);
    ("setEcucCond", ASet "ecucCond" true) (* 1446 *);
    ("getOrigin", AGet "origin") (* 1455 *);
    ("setOrigin", ASet "origin" true) (* 1461 *)]);
  (* M2/AUTOSARTemplates/ECUCParameterDefTemplate.py *)
  ("EcucEnumerationParamDef", [("getDefaultValue", AGet "defaultValue") (* 1490 *);
    ("setDefaultValue", ASet "defaultValue" true) (* 1496 *);
    ("getLiterals", AGet "literals") (* 1505 *);
    ("createLiteral", ANew "EcucEnumerationLiteralDef" true (PList "literals")) (* 1511 *)]);
  (* M2/AUTOSARTemplates/ECUCParameterDefTemplate.py *)
  ("EcucFloatParamDef", [("getDefaultValue", AGet "defaultValue") (* 1544 *);
    ("setDefaultValue", ASet "defaultValue" true) (* 1547 *);
    ("getMax", AGet "max") (* 1552 *);
    ("setMax", ASet "max" true) (* 1555 *);
    ("getMin", AGet "min") (* 1560 *);
    ("setMin", ASet "min" true) (* 1563 *)]);
  (* M2/AUTOSARTemplates/ECUCParameterDefTemplate.py *)
  ("EcucChoiceContainerDef", [("getChoices", AGet "choices") (* 1585 *);
    ("createEcucParamConfContainerDef", ANew "EcucParamConfContainerDef" true (PList "choices")) (* 1588 *)]);
  (* M2/AUTOSARTemplates/ECUCParameterDefTemplate.py *)
  ("EcucParamConfContainerDef", [("getParameters", AGet "parameters") (* 1638 *);
    ("createEcucBooleanParamDef", ANew "EcucBooleanParamDef" true (PList "parameters")) (* 1647 *);
    ("createEcucStringParamDef", ANew "EcucStringParamDef" true (PList "parameters")) (* 1663 *);
    ("createEcucIntegerParamDef", ANew "EcucIntegerParamDef" true (PList "parameters")) (* 1680 *);
    ("createEcucFloatParamDef", ANew "EcucFloatParamDef" true (PList "parameters")) (* 1697 *);
    ("createEcucEnumerationParamDef", ANew "EcucEnumerationParamDef" true (PList "parameters")) (* 1714 *);
    ("createEcucFunctionNameDef", ANew "EcucFunctionNameDef" true (PList "parameters")) (* 1731 *);
    ("createEcucMultilineStringParamDef", ANew "EcucMultilineStringParamDef" true (PList "parameters")) (* 1747 *);
    ("getReferences", AGet "references") (* 1763 *);
    ("createEcucSymbolicNameReferenceDef", ANew "EcucSymbolicNameReferenceDef" true (PList "references")) (* 1772 *);
    ("createEcucReferenceDef", ANew "EcucReferenceDef" true (PList "references")) (* 1788 *);
    ("createEcucChoiceReferenceDef", ANew "EcucChoiceReferenceDef" true (PList "references")) (* 1804 *);
    ("createEcucInstanceReferenceDef", ANew "EcucInstanceReferenceDef" true (PList "references")) (* 1820 *);
    ("getSubContainers", AGet "subContainers") (* 1836 *);
    ("createEcucChoiceContainerDef", ANew "EcucChoiceContainerDef" true (PList "subContainers")) (* 1845 *);
    ("createEcucParamConfContainerDef", ANew "EcucParamConfContainerDef" true (PList "subContainers")) (* 1861 *)]);
  (* M2/AUTOSARTemplates/ECUCParameterDefTemplate.py *)
  ("EcucConditionFormula", [("getEcucQueryRef", AGet "ecucQueryRef") (* 1914 *);
    ("setEcucQueryRef", ASet "ecucQueryRef" true) (* 1920 *);
    ("getEcucQueryStringRef", AGet "ecucQueryStringRef") (* 1929 *);
    ("setEcucQueryStringRef", ASet "ecucQueryStringRef" true) (* 1935 *)]);
  (* M2/AUTOSARTemplates/ECUCParameterDefTemplate.py *)
  ("EcucDefinitionCollection", [("addModuleRef", AAdd "moduleRefs" true) (* 1963 *);
    ("getModuleRefs", AGet "moduleRefs") (* 1972 *)]);
  (* M2/AUTOSARTemplates/ECUCParameterDefTemplate.py *)
  ("EcucDestinationUriDef", [("getDestinationUriPolicy", AGet "destinationUriPolicy") (* 1997 *);
    ("setDestinationUriPolicy", ASet "destinationUriPolicy" true) (* 2003 *)]);
  (* M2/AUTOSARTemplates/ECUCParameterDefTemplate.py *)
  ("EcucDestinationUriDefSet", [("getDestinationUriDefs", AGet "destinationUriDefs") (* 2032 *);
    ("createEcucDestinationUriDef", ANew "EcucDestinationUriDef" true (PList "destinationUriDefs")) (* 2038 *)]);
  (* M2/AUTOSARTemplates/ECUCParameterDefTemplate.py *)
  ("EcucDestinationUriPolicy", [("getContainers", AGet "containers") (* 2089 *);
    ("addContainer", AAdd "containers" true) (* 2095 *);
    ("getDestinationUriNestingContract", AGet "destinationUriNestingContract") (* 2104 *);
    ("setDestinationUriNestingContract", ASet "destinationUriNestingContract" true) (* 2110 *);
    ("getParameters", AGet "parameters") (* 2119 *);
    ("addParameter", AAdd "parameters" true) (* 2125 *);
    ("getReferences", AGet "references") (* 2134 *);
    ("addReference", AAdd "references" true) (* 2140 *)]);
  (* M2/AUTOSARTemplates/ECUCParameterDefTemplate.py *)
  ("EcucParameterDerivationFormula", [("getEcucQueryRef", AGet "ecucQueryRef") (* 2230 *);
    ("setEcucQueryRef", ASet "ecucQueryRef" true) (* 2236 *);
    ("getEcucQueryStringRef", AGet "ecucQueryStringRef") (* 2245 *);
    ("setEcucQueryStringRef", ASet "ecucQueryStringRef" true) (* 2251 *)]);
  (* M2/AUTOSARTemplates/ECUCParameterDefTemplate.py *)
  ("EcucQuery", [("getEcucQueryExpression", AGet "ecucQueryExpression") (* 2279 *);
    ("setEcucQueryExpression", ASet "ecucQueryExpression" true) (* 2285 *)]);
  (* M2/AUTOSARTemplates/ECUCParameterDefTemplate.py *)
  ("EcucQueryExpression", [("getConfigElementDefGlobalRef", AGet "configElementDefGlobalRef") (* 2318 *);
    ("setConfigElementDefGlobalRef", ASet "configElementDefGlobalRef" true) (* 2324 *);
    ("getConfigElementDefLocalRef", AGet "configElementDefLocalRef") (* 2333 *);
    ("setConfigElementDefLocalRef", ASet "configElementDefLocalRef" true) (* 2339 *)]);
  (* M2/AUTOSARTemplates/ECUCParameterDefTemplate.py *)
  ("EcucModuleDef", [("getApiServicePrefix", AGet "apiServicePrefix") (* 2387 *);
    ("setApiServicePrefix", ASet "apiServicePrefix" true) (* 2393 *);
    ("getContainers", AGet "containers") (* 2402 *);
    ("createEcucParamConfContainerDef", ANew "EcucParamConfContainerDef" true (PList "containers")) (* 2408 *);
    ("createEcucChoiceContainerDef", ANew "EcucChoiceContainerDef" true (PList "containers")) (* 2418 *);
    ("getPostBuildVariantSupport", AGet "postBuildVariantSupport") (* 2428 *);
    ("setPostBuildVariantSupport", ASet "postBuildVariantSupport" true) (* 2434 *);
    ("getRefinedModuleDefRef", AGet "refinedModuleDefRef") (* 2443 *);
    ("setRefinedModuleDefRef", ASet "refinedModuleDefRef" true) (* 2449 *);
    ("getSupportedConfigVariants", AGet "supportedConfigVariants") (* 2458 *);
    ("addSupportedConfigVariant", AAdd "supportedConfigVariants" true) (* 2464 *)]);
  (* M2/AUTOSARTemplates/AdaptivePlatform/PlatformModuleDeployment/Firewall/FirewallRuleProps.py *)
  ("FirewallRuleProps", [("getDirection", AGet "direction") (* 50 *);
    ("setDirection", ASet "direction" false) (* 59 *);
    ("getProtocol", AGet "protocol") (* 72 *);
    ("setProtocol", ASet "protocol" false) (* 81 *)]);
  (* M2/AUTOSARTemplates/AutosarTopLevelStructure/__init__.py *)
  ("FileInfoComment", [("getSdgs", AGet "sdgs") (* 42 *)]);
  (* M2/AUTOSARTemplates/AutosarTopLevelStructure/__init__.py *)
  ("AbstractAUTOSAR", [("getAdminData", AGet "adminData") (* 123 *);
    ("setAdminData", ASet "adminData" true) (* 126 *);
    ("getIntroduction", AGet "introduction") (* 141 *);
    ("setIntroduction", ASet "introduction" false) (* 144 *);
    ("getARPackages", AGetSorted "arPackages") (* 182 *);
    ("createARPackage", ANew "ARPackage" true (PList "arPackages")) (* 185 *);
    ("getCompositionSwComponentTypes", AGet "compositionSwComponentTypes") (* 323 *)]);
  (* M2/AUTOSARTemplates/BswModuleTemplate/BswImplementation.py *)
  ("BswImplementation", [("getArReleaseVersion", AGet "arReleaseVersion") (* 55 *);
    ("setArReleaseVersion", ASet "arReleaseVersion" true) (* 59 *);
    ("getBehaviorRef", AGet "behaviorRef") (* 65 *);
    ("setBehaviorRef", ASet "behaviorRef" true) (* 69 *);
    ("getPreconfiguredConfigurationRefs", AGet "preconfiguredConfigurationRefs") (* 75 *);
    ("addPreconfiguredConfigurationRef", AAdd "preconfiguredConfigurationRefs" true) (* 79 *);
    ("getRecommendedConfigurationRefs", AGet "recommendedConfigurationRefs") (* 85 *);
    ("addRecommendedConfigurationRef", AAdd "recommendedConfigurationRefs" true) (* 89 *);
    ("getVendorApiInfix", AGet "vendorApiInfix") (* 95 *);
    ("setVendorApiInfix", ASet "vendorApiInfix" true) (* 99 *);
    ("getVendorSpecificModuleDefRefs", AGet "vendorSpecificModuleDefRefs") (* 105 *);
    ("addVendorSpecificModuleDefRef", AAdd "vendorSpecificModuleDefRefs" true) (* 109 *)]);
  (* M2/AUTOSARTemplates/BswModuleTemplate/BswInterfaces.py *)
  ("BswModuleDependency", [("getTargetModuleId", AGet "targetModuleId") (* 159 *);
    ("setTargetModuleId", ASet "targetModuleId" true) (* 168 *);
    ("getTargetModuleRef", AGet "targetModuleRef") (* 183 *);
    ("setTargetModuleRef", ASet "targetModuleRef" true) (* 192 *)]);
  (* M2/AUTOSARTemplates/BswModuleTemplate/BswInterfaces.py *)
  ("BswModuleEntry", [("getArguments", AGet "arguments") (* 277 *);
    ("createArgument", ANew "SwServiceArg" true (PList "arguments")) (* 283 *);
    ("getBswEntryKind", AGet "bswEntryKind") (* 299 *);
    ("setBswEntryKind", ASet "bswEntryKind" true) (* 305 *);
    ("getCallType", AGet "callType") (* 314 *);
    ("setCallType", ASet "callType" true) (* 320 *);
    ("getExecutionContext", AGet "executionContext") (* 329 *);
    ("setExecutionContext", ASet "executionContext" true) (* 335 *);
    ("getFunctionPrototypeEmitter", AGet "functionPrototypeEmitter") (* 344 *);
    ("setFunctionPrototypeEmitter", ASet "functionPrototypeEmitter" true) (* 350 *);
    ("getIsReentrant", AGet "isReentrant") (* 359 *);
    ("setIsReentrant", ASet "isReentrant" true) (* 365 *);
    ("getIsSynchronous", AGet "isSynchronous") (* 374 *);
    ("setIsSynchronous", ASet "isSynchronous" true) (* 380 *);
    ("getReturnType", AGet "returnType") (* 389 *);
    ("createReturnType", ANew "SwServiceArg" true (PSlot "returnType")) (* 395 *);
    ("getRole", AGet "role") (* 411 *);
    ("setRole", ASet "role" true) (* 417 *);
    ("getServiceId", AGet "serviceId") (* 426 *);
    ("setServiceId", ASet "serviceId" true) (* 432 *);
    ("getSwServiceImplPolicy", AGet "swServiceImplPolicy") (* 441 *);
    ("setSwServiceImplPolicy", ASet "swServiceImplPolicy" true) (* 447 *)]);
  (* M2/AUTOSARTemplates/BswModuleTemplate/BswInterfaces.py *)
  ("BswModuleClientServerEntry", [("getEncapsulatedEntryRef", AGet "encapsulatedEntryRef") (* 492 *);
    ("setEncapsulatedEntryRef", ASet "encapsulatedEntryRef" true) (* 501 *);
    ("getIsReentrant", AGet "isReentrant") (* 516 *);
    ("setIsReentrant", ASet "isReentrant" true) (* 525 *);
    ("getIsSynchronous", AGet "isSynchronous") (* 540 *);
    ("setIsSynchronous", ASet "isSynchronous" true) (* 549 *)]);
  (* M2/AUTOSARTemplates/BswModuleTemplate/BswBehavior/BswSchedulerNamePrefix.py *)
  ("BswSchedulerNamePrefix", [("getPrefix", AGet "prefix") (* 26 *);
    ("setPrefix", ASet "prefix" false) (* 29 *)]);
  (* M2/AUTOSARTemplates/BswModuleTemplate/BswBehavior/__init__.py *)
  ("BswModuleCallPoint", [("getContextLimitationRefs", AGet "contextLimitationRefs") (* 63 *);
    ("addContextLimitationRef", AAdd "contextLimitationRefs" false) (* 72 *)]);
  (* M2/AUTOSARTemplates/BswModuleTemplate/BswBehavior/__init__.py *)
  ("BswAsynchronousServerCallPoint", [("getCalledEntryRef", AGet "calledEntryRef") (* 110 *);
    ("setCalledEntryRef", ASet "calledEntryRef" true) (* 119 *)]);
  (* M2/AUTOSARTemplates/BswModuleTemplate/BswBehavior/__init__.py *)
  ("BswDirectCallPoint", [("getCalledEntryRef", AGet "calledEntryRef") (* 163 *);
    ("setCalledEntryRef", ASet "calledEntryRef" true) (* 172 *)]);
  (* M2/AUTOSARTemplates/BswModuleTemplate/BswBehavior/__init__.py *)
  ("BswSynchronousServerCallPoint", [("getCalledEntryRef", AGet "calledEntryRef") (* 240 *);
    ("setCalledEntryRef", ASet "calledEntryRef" true) (* 249 *)]);
  (* M2/AUTOSARTemplates/BswModuleTemplate/BswBehavior/__init__.py *)
  ("BswVariableAccess", [("getAccessedVariableRef", AGet "accessedVariableRef") (* 340 *);
    ("setAccessedVariableRef", ASet "accessedVariableRef" false) (* 349 *);
    ("getContextLimitationRefs", AGet "contextLimitationRefs") (* 362 *);
    ("addContextLimitationRef", AAdd "contextLimitationRefs" false) (* 371 *)]);
  (* M2/AUTOSARTemplates/BswModuleTemplate/BswBehavior/__init__.py *)
  ("BswModuleEntity", [("getAccessedModeGroupRefs", AGet "accessedModeGroupRefs") (* 470 *);
    ("addAccessedModeGroupRef", AAdd "accessedModeGroupRefs" true) (* 479 *);
    ("getActivationPointRefs", AGet "activationPointRefs") (* 494 *);
    ("addActivationPointRef", AAdd "activationPointRefs" true) (* 503 *);
    ("getCallPoints", AGet "callPoints") (* 518 *);
    ("createBswAsynchronousServerCallPoint", ANew "BswAsynchronousServerCallPoint" true (PList "callPoints")) (* 527 *);
    ("createBswSynchronousServerCallPoint", ANew "BswSynchronousServerCallPoint" true (PList "callPoints")) (* 545 *);
    ("getDataReceivePoints", AGet "dataReceivePoints") (* 563 *);
    ("createDataReceivePoint", ANew "BswVariableAccess" true (PList "dataReceivePoints")) (* 572 *);
    ("getDataSendPoints", AGet "dataSendPoints") (* 590 *);
    ("createDataSendPoint", ANew "BswVariableAccess" true (PList "dataSendPoints")) (* 599 *);
    ("setImplementedEntryRef", ASet "implementedEntryRef" true) (* 626 *);
    ("getIssuedTriggerRefs", AGet "issuedTriggerRefs") (* 641 *);
    ("addIssuedTriggerRef", AAdd "issuedTriggerRefs" true) (* 650 *);
    ("getManagedModeGroupRefs", AGet "managedModeGroupRefs") (* 665 *);
    ("addManagedModeGroupRef", AAdd "managedModeGroupRefs" true) (* 674 *);
    ("getSchedulerNamePrefixRef", AGet "schedulerNamePrefixRef") (* 689 *);
    ("setSchedulerNamePrefixRef", ASet "schedulerNamePrefixRef" true) (* 698 *)]);
  (* M2/AUTOSARTemplates/BswModuleTemplate/BswBehavior/__init__.py *)
  ("BswInterruptEntity", [("getInterruptCategory", AGet "interruptCategory") (* 808 *);
    ("setInterruptCategory", ASet "interruptCategory" false) (* 817 *);
    ("getInterruptSource", AGet "interruptSource") (* 830 *);
    ("setInterruptSource", ASet "interruptSource" false) (* 839 *)]);
  (* M2/AUTOSARTemplates/BswModuleTemplate/BswBehavior/__init__.py *)
  ("BswEvent", [("getContextLimitationRefs", AGet "contextLimitationRefs") (* 885 *);
    ("addContextLimitationRef", AAdd "contextLimitationRefs" true) (* 894 *);
    ("getDisabledInModeIRefs", AGet "disabledInModeIRefs") (* 909 *);
    ("addDisabledInModeIRef", AAdd "disabledInModeIRefs" true) (* 918 *);
    ("getStartsOnEventRef", AGet "startsOnEventRef") (* 933 *);
    ("setStartsOnEventRef", ASet "startsOnEventRef" true) (* 942 *)]);
  (* M2/AUTOSARTemplates/BswModuleTemplate/BswBehavior/__init__.py *)
  ("BswOperationInvokedEvent", [("getEntryRef", AGet "entryRef") (* 982 *);
    ("setEntryRef", ASet "entryRef" true) (* 991 *)]);
  (* M2/AUTOSARTemplates/BswModuleTemplate/BswBehavior/__init__.py *)
  ("BswAsynchronousServerCallReturnsEvent", [("getEventSourceRef", AGet "eventSourceRef") (* 1061 *);
    ("setEventSourceRef", ASet "eventSourceRef" true) (* 1071 *)]);
  (* M2/AUTOSARTemplates/BswModuleTemplate/BswBehavior/__init__.py *)
  ("BswModeSwitchEvent", [("getActivation", AGet "activation") (* 1111 *);
    ("setActivation", ASet "activation" true) (* 1120 *);
    ("getModeIRefs", AGet "modeIRefs") (* 1135 *);
    ("addModeIRef", AAdd "modeIRefs" true) (* 1144 *)]);
  (* M2/AUTOSARTemplates/BswModuleTemplate/BswBehavior/__init__.py *)
  ("BswModeSwitchedAckEvent", [("getModeGroupRef", AGet "modeGroupRef") (* 1191 *);
    ("setModeGroupRef", ASet "modeGroupRef" true) (* 1201 *)]);
  (* M2/AUTOSARTemplates/BswModuleTemplate/BswBehavior/__init__.py *)
  ("BswModeManagerErrorEvent", [("getModeGroupRef", AGet "modeGroupRef") (* 1248 *);
    ("setModeGroupRef", ASet "modeGroupRef" true) (* 1258 *)]);
  (* M2/AUTOSARTemplates/BswModuleTemplate/BswBehavior/__init__.py *)
  ("BswTimingEvent", [("getPeriod", AGet "period") (* 1301 *);
    ("setPeriod", ASet "period" true) (* 1311 *)]);
  (* M2/AUTOSARTemplates/BswModuleTemplate/BswBehavior/__init__.py *)
  ("BswDataReceivedEvent", [("getDataRef", AGet "dataRef") (* 1363 *);
    ("setDataRef", ASet "dataRef" false) (* 1372 *)]);
  (* M2/AUTOSARTemplates/BswModuleTemplate/BswBehavior/__init__.py *)
  ("BswInternalTriggerOccurredEvent", [("getEventSourceRef", AGet "eventSourceRef") (* 1410 *);
    ("setEventSourceRef", ASet "eventSourceRef" false) (* 1419 *)]);
  (* M2/AUTOSARTemplates/BswModuleTemplate/BswBehavior/__init__.py *)
  ("BswModeSwitchAckRequest", [("getTimeout", AGet "timeout") (* 1453 *);
    ("setTimeout", ASet "timeout" false) (* 1462 *)]);
  (* M2/AUTOSARTemplates/BswModuleTemplate/BswBehavior/__init__.py *)
  ("BswModeSenderPolicy", [("getAckRequest", AGet "ackRequest") (* 1521 *);
    ("setAckRequest", ASet "ackRequest" true) (* 1530 *);
    ("getEnhancedModeApi", AGet "enhancedModeApi") (* 1544 *);
    ("setEnhancedModeApi", ASet "enhancedModeApi" true) (* 1554 *);
    ("getProvidedModeGroupRef", AGet "providedModeGroupRef") (* 1569 *);
    ("setProvidedModeGroupRef", ASet "providedModeGroupRef" true) (* 1578 *);
    ("getQueueLength", AGet "queueLength") (* 1593 *);
    ("setQueueLength", ASet "queueLength" true) (* 1602 *)]);
  (* M2/AUTOSARTemplates/BswModuleTemplate/BswBehavior/__init__.py *)
  ("BswModeReceiverPolicy", [("getEnhancedModeApi", AGet "enhancedModeApi") (* 1651 *);
    ("setEnhancedModeApi", ASet "enhancedModeApi" true) (* 1659 *);
    ("getSupportsAsynchronousModeSwitch", AGet "supportsAsynchronousModeSwitch") (* 1688 *);
    ("setSupportsAsynchronousModeSwitch", ASet "supportsAsynchronousModeSwitch" true) (* 1696 *)]);
  (* M2/AUTOSARTemplates/BswModuleTemplate/BswBehavior/__init__.py *)
  ("BswExternalTriggerOccurredEvent", [("getTriggerRef", AGet "triggerRef") (* 1772 *);
    ("setTriggerRef", ASet "triggerRef" true) (* 1781 *)]);
  (* M2/AUTOSARTemplates/BswModuleTemplate/BswBehavior/__init__.py *)
  ("BswApiOptions", [("getEnableTakeAddress", AGet "enableTakeAddress") (* 1821 *);
    ("setEnableTakeAddress", ASet "enableTakeAddress" true) (* 1830 *)]);
  (* M2/AUTOSARTemplates/BswModuleTemplate/BswBehavior/__init__.py *)
  ("BswExclusiveAreaPolicy", [("getApiPrinciple", AGet "apiPrinciple") (* 1874 *);
    ("setApiPrinciple", ASet "apiPrinciple" true) (* 1883 *);
    ("getExclusiveAreaRef", AGet "exclusiveAreaRef") (* 1898 *);
    ("setExclusiveAreaRef", ASet "exclusiveAreaRef" true) (* 1907 *)]);
  (* M2/AUTOSARTemplates/BswModuleTemplate/BswBehavior/__init__.py *)
  ("BswDataReceptionPolicy", [("getReceivedDataRef", AGet "receivedDataRef") (* 1947 *);
    ("setReceivedDataRef", ASet "receivedDataRef" true) (* 1956 *)]);
  (* M2/AUTOSARTemplates/BswModuleTemplate/BswBehavior/__init__.py *)
  ("BswQueuedDataReceptionPolicy", [("getQueueLength", AGet "queueLength") (* 1992 *);
    ("setQueueLength", ASet "queueLength" true) (* 2001 *)]);
  (* M2/AUTOSARTemplates/BswModuleTemplate/BswBehavior/__init__.py *)
  ("BswInternalTriggeringPoint", [("getSwImplPolicy", AGet "swImplPolicy") (* 2041 *);
    ("setSwImplPolicy", ASet "swImplPolicy" true) (* 2050 *)]);
  (* M2/AUTOSARTemplates/BswModuleTemplate/BswBehavior/__init__.py *)
  ("RoleBasedBswModuleEntryAssignment", [("getAssignedEntryRef", AGet "assignedEntryRef") (* 2122 *);
    ("setAssignedEntryRef", ASet "assignedEntryRef" true) (* 2134 *);
    ("getRole", AGet "role") (* 2152 *);
    ("setRole", ASet "role" true) (* 2165 *)]);
  (* M2/AUTOSARTemplates/BswModuleTemplate/BswBehavior/__init__.py *)
  ("BswServiceDependency", [("getAssignedData", AGet "assignedData") (* 2228 *);
    ("addAssignedData", AAdd "assignedData" true) (* 2238 *);
    ("getAssignedEntryRole", AGet "assignedEntryRole") (* 2255 *);
    ("addAssignedEntryRole", AAdd "assignedEntryRole" true) (* 2265 *);
    ("getIdent", AGet "ident") (* 2281 *);
    ("setIdent", ASet "ident" true) (* 2291 *);
    ("getServiceNeeds", AGet "serviceNeeds") (* 2307 *);
    ("setServiceNeeds", ASet "serviceNeeds" true) (* 2317 *)]);
  (* M2/AUTOSARTemplates/BswModuleTemplate/BswBehavior/__init__.py *)
  ("BswInternalBehavior", [("getArTypedPerInstanceMemories", AGet "arTypedPerInstanceMemories") (* 2470 *);
    ("getExclusiveAreaPolicies", AGet "exclusiveAreaPolicies") (* 2566 *);
    ("getInternalTriggeringPoints", AGet "internalTriggeringPoints") (* 2590 *);
    ("createBswInternalTriggeringPoint", ANew "BswInternalTriggeringPoint" true (PList "internalTriggeringPoints")) (* 2599 *);
    ("getPerInstanceParameters", AGet "perInstanceParameters") (* 2687 *);
    ("getReceptionPolicies", AGet "receptionPolicies") (* 2711 *);
    ("addReceptionPolicy", AAdd "receptionPolicies" true) (* 2720 *);
    ("getServiceDependencies", AGet "serviceDependencies") (* 2807 *);
    ("addServiceDependency", AAdd "serviceDependencies" false) (* 2831 *);
    ("getVariationPointProxies", AGet "variationPointProxies") (* 2868 *);
    ("addModeSenderPolicy", AAdd "modeSenderPolicies" false) (* 2892 *);
    ("getModeSenderPolicies", AGet "modeSenderPolicies") (* 2901 *);
    ("createBswCalledEntity", ANew "BswCalledEntity" true (PList "elements/BswModuleEntity")) (* 2910 *);
    ("createBswSchedulableEntity", ANew "BswSchedulableEntity" true (PList "elements/BswModuleEntity")) (* 2935 *);
    ("createBswInterruptEntity", ANew "BswInterruptEntity" true (PList "elements/BswModuleEntity")) (* 2960 *);
    ("getBswModuleEntities", AGet "elements/BswModuleEntity") (* 2985 *);
    ("createBswModeSwitchEvent", ANew "BswModeSwitchEvent" true (PList "elements/BswEvent")) (* 2994 *);
    ("createBswTimingEvent", ANew "BswTimingEvent" true (PList "elements/BswEvent")) (* 3019 *);
    ("createBswDataReceivedEvent", ANew "BswDataReceivedEvent" true (PList "elements/BswEvent")) (* 3044 *);
    ("createBswInternalTriggerOccurredEvent", ANew "BswInternalTriggerOccurredEvent" true (PList "elements/BswEvent")) (* 3069 *);
    ("createBswExternalTriggerOccurredEvent", ANew "BswExternalTriggerOccurredEvent" true (PList "elements/BswEvent")) (* 3094 *);
    ("createBswOperationInvokedEvent", ANew "BswOperationInvokedEvent" true (PList "elements/BswEvent")) (* 3119 *);
    ("createBswBackgroundEvent", ANew "BswBackgroundEvent" true (PList "elements/BswEvent")) (* 3144 *);
    ("createBswModeManagerErrorEvent", ANew "BswModeManagerErrorEvent" true (PList "elements/BswEvent")) (* 3169 *);
    ("createBswModeSwitchedAckEvent", ANew "BswModeSwitchedAckEvent" true (PList "elements/BswEvent")) (* 3194 *);
    ("createBswAsynchronousServerCallReturnsEvent", ANew "BswAsynchronousServerCallReturnsEvent" true (PList "elements/BswEvent")) (* 3219 *);
    ("getBswEvents", AGet "elements/BswEvent") (* 3244 *);
    ("addIncludedModeDeclarationGroupSet", AAdd "includedModeDeclarationGroupSets" false) (* 3253 *);
    ("getIncludedModeDeclarationGroupSets", AGet "includedModeDeclarationGroupSets") (* 3262 *);
    ("getIncludedDataTypeSets", AGet "includedDataTypeSets") (* 3280 *)]);
  (* M2/AUTOSARTemplates/BswModuleTemplate/BswOverview/__init__.py *)
  ("BswModuleDescription", [("getBswModuleDependencies", AGet "bswModuleDependencies") (* 106 *);
    ("createBswModuleDependency", ANew "BswModuleDependency" true (PList "bswModuleDependencies")) (* 112 *);
    ("getBswModuleDocumentation", AGet "bswModuleDocumentation") (* 143 *);
    ("setBswModuleDocumentation", ASet "bswModuleDocumentation" true) (* 149 *);
    ("getExpectedEntryRefs", AGet "expectedEntryRefs") (* 164 *);
    ("addExpectedEntryRef", AAdd "expectedEntryRefs" true) (* 185 *);
    ("getImplementedEntryRefs", AGet "implementedEntryRefs") (* 200 *);
    ("addImplementedEntryRef", AAdd "implementedEntryRefs" true) (* 206 *);
    ("getInternalBehaviors", AGet "internalBehaviors") (* 221 *);
    ("createBswInternalBehavior", ANew "BswInternalBehavior" true (PList "internalBehaviors")) (* 242 *);
    ("getModuleId", AGet "moduleId") (* 258 *);
    ("setModuleId", ASet "moduleId" true) (* 264 *);
    ("getProvidedClientServerEntries", AGet "providedClientServerEntries") (* 279 *);
    ("createProvidedClientServerEntry", ANew "BswModuleClientServerEntry" true (PList "providedClientServerEntries")) (* 285 *);
    ("getProvidedDatas", AGet "providedDatas") (* 301 *);
    ("createProvidedData", ANew "VariableDataPrototype" true (PList "providedDatas")) (* 307 *);
    ("getProvidedModeGroups", AGet "providedModeGroups") (* 323 *);
    ("createProvidedModeGroup", ANew "ModeDeclarationGroupPrototype" true (PList "providedModeGroups")) (* 329 *);
    ("getReleasedTriggers", AGet "releasedTriggers") (* 345 *);
    ("createReleasedTrigger", ANew "Trigger" true (PList "releasedTriggers")) (* 351 *);
    ("getRequiredClientServerEntries", AGet "requiredClientServerEntries") (* 367 *);
    ("createRequiredClientServerEntry", ANew "BswModuleClientServerEntry" true (PList "requiredClientServerEntries")) (* 373 *);
    ("getRequiredDatas", AGet "requiredDatas") (* 389 *);
    ("createRequiredData", ANew "VariableDataPrototype" true (PList "requiredDatas")) (* 395 *);
    ("getRequiredModeGroups", AGet "requiredModeGroups") (* 411 *);
    ("createRequiredModeGroup", ANew "ModeDeclarationGroupPrototype" true (PList "requiredModeGroups")) (* 417 *);
    ("getRequiredTriggers", AGet "requiredTriggers") (* 433 *);
    ("createRequiredTrigger", ANew "Trigger" true (PList "requiredTriggers")) (* 439 *)]);
  (* M2/AUTOSARTemplates/BswModuleTemplate/BswOverview/InstanceRefs/__init__.py *)
  ("ModeInBswModuleDescriptionInstanceRef", [("getBaseRef", AGet "baseRef") (* 43 *);
    ("setBaseRef", ASet "baseRef" true) (* 53 *);
    ("getContextModeDeclarationGroupRef", AGet "contextModeDeclarationGroupRef") (* 62 *);
    ("setContextModeDeclarationGroupRef", ASet "contextModeDeclarationGroupRef" true) (* 71 *);
    ("getTargetModeRef", AGet "targetModeRef") (* 80 *);
    ("setTargetModeRef", ASet "targetModeRef" true) (* 89 *)]);
  (* M2/AUTOSARTemplates/CommonStructure/Filter.py *)
  ("DataFilter", [("getDataFilterType", AGet "dataFilterType") (* 100 *);
    ("setDataFilterType", ASet "dataFilterType" true) (* 106 *);
    ("getMask", AGet "mask") (* 115 *);
    ("setMask", ASet "mask" true) (* 121 *);
    ("getMax", AGet "max") (* 130 *);
    ("setMax", ASet "max" true) (* 136 *);
    ("getMin", AGet "min") (* 145 *);
    ("setMin", ASet "min" true) (* 151 *);
    ("getOffset", AGet "offset") (* 160 *);
    ("setOffset", ASet "offset" true) (* 166 *);
    ("getPeriod", AGet "period") (* 175 *);
    ("setPeriod", ASet "period" true) (* 181 *);
    ("getX", AGet "x") (* 190 *);
    ("setX", ASet "x" true) (* 196 *)]);
  (* M2/AUTOSARTemplates/CommonStructure/FlatMap.py *)
  ("FlatInstanceDescriptor", [("getEcuExtractReferenceIRef", AGet "ecuExtractReferenceIRef") (* 57 *);
    ("setEcuExtractReferenceIRef", ASet "ecuExtractReferenceIRef" false) (* 66 *);
    ("getRole", AGet "role") (* 79 *);
    ("setRole", ASet "role" false) (* 88 *);
    ("getSwDataDefProps", AGet "swDataDefProps") (* 123 *);
    ("setSwDataDefProps", ASet "swDataDefProps" false) (* 132 *);
    ("getUpstreamReferenceIRef", AGet "upstreamReferenceIRef") (* 145 *);
    ("setUpstreamReferenceIRef", ASet "upstreamReferenceIRef" false) (* 154 *)]);
  (* M2/AUTOSARTemplates/CommonStructure/FlatMap.py *)
  ("FlatMap", [("getInstances", AGetSorted "elements/FlatInstanceDescriptor") (* 192 *);
    ("createFlatInstanceDescriptor", ANew "FlatInstanceDescriptor" true (PList "elements/FlatInstanceDescriptor")) (* 201 *)]);
  (* M2/AUTOSARTemplates/CommonStructure/FlatMap.py *)
  ("AliasNameAssignment", [("getIdentifiableRef", AGet "identifiableRef") (* 278 *);
    ("setIdentifiableRef", ASet "identifiableRef" true) (* 287 *);
    ("getLabel", AGet "label") (* 303 *);
    ("setLabel", ASet "label" true) (* 312 *);
    ("getShortLabel", AGet "shortLabel") (* 328 *);
    ("setShortLabel", ASet "shortLabel" true) (* 337 *)]);
  (* M2/AUTOSARTemplates/CommonStructure/Implementation.py *)
  ("ImplementationProps", [("getSymbol", AGet "symbol") (* 115 *);
    ("setSymbol", ASet "symbol" true) (* 125 *)]);
  (* M2/AUTOSARTemplates/CommonStructure/Implementation.py *)
  ("Code", [("addArtifactDescriptor", AAdd "artifactDescriptors" true) (* 174 *);
    ("getArtifactDescriptors", AGet "artifactDescriptors") (* 189 *);
    ("getCallbackHeaderRefs", AGet "callbackHeaderRefs") (* 206 *);
    ("addCallbackHeaderRef", AAdd "callbackHeaderRefs" true) (* 216 *)]);
  (* M2/AUTOSARTemplates/CommonStructure/Implementation.py *)
  ("Compiler", [("getName", AGet "name") (* 273 *);
    ("setName", ASet "name" true) (* 282 *);
    ("getOptions", AGet "options") (* 297 *);
    ("setOptions", ASet "options" true) (* 306 *);
    ("getVendor", AGet "vendor") (* 321 *);
    ("setVendor", ASet "vendor" true) (* 330 *);
    ("getVersion", AGet "version") (* 345 *);
    ("setVersion", ASet "version" true) (* 354 *)]);
  (* M2/AUTOSARTemplates/CommonStructure/Implementation.py *)
  ("DependencyOnArtifact", [("getArtifactDescriptor", AGet "artifactDescriptor") (* 399 *);
    ("setArtifactDescriptor", ASet "artifactDescriptor" true) (* 408 *);
    ("getUsages", AGet "usages") (* 423 *);
    ("addUsage", AAdd "usages" true) (* 433 *)]);
  (* M2/AUTOSARTemplates/CommonStructure/Implementation.py *)
  ("Linker", [("getName", AGet "name") (* 488 *);
    ("setName", ASet "name" true) (* 497 *);
    ("getOptions", AGet "options") (* 512 *);
    ("setOptions", ASet "options" true) (* 521 *);
    ("getVendor", AGet "vendor") (* 536 *);
    ("setVendor", ASet "vendor" true) (* 545 *);
    ("getVersion", AGet "version") (* 560 *);
    ("setVersion", ASet "version" true) (* 569 *)]);
  (* M2/AUTOSARTemplates/CommonStructure/Implementation.py *)
  ("Implementation", [("getBuildActionManifestRef", AGet "buildActionManifestRef") (* 692 *);
    ("setBuildActionManifestRef", ASet "buildActionManifestRef" true) (* 702 *);
    ("getCodeDescriptors", AGet "elements/Code") (* 718 *);
    ("createCodeDescriptor", ANew "Code" true (PList "elements/Code")) (* 727 *);
    ("getCompilers", AGet "compilers") (* 743 *);
    ("createCompiler", ANew "Compiler" true (PList "compilers")) (* 752 *);
    ("getGeneratedArtifacts", AGet "generatedArtifacts") (* 768 *);
    ("createGeneratedArtifact", ANew "DependencyOnArtifact" true (PList "generatedArtifacts")) (* 778 *);
    ("getHwElementRefs", AGet "hwElementRefs") (* 794 *);
    ("addHwElementRef", AAdd "hwElementRefs" true) (* 804 *);
    ("getLinkers", AGet "linkers") (* 819 *);
    ("createLinker", ANew "Linker" true (PList "linkers")) (* 828 *);
    ("getMcSupport", AGet "mcSupport") (* 844 *);
    ("setMcSupport", ASet "mcSupport" true) (* 853 *);
    ("getProgrammingLanguage", AGet "programmingLanguage") (* 868 *);
    ("setProgrammingLanguage", ASet "programmingLanguage" true) (* 877 *);
    ("getRequiredArtifacts", AGet "requiredArtifacts") (* 892 *);
    ("createRequiredArtifact", ANew "DependencyOnArtifact" true (PList "requiredArtifacts")) (* 901 *);
    ("getRequiredGeneratorTools", AGet "requiredGeneratorTools") (* 917 *);
    ("createRequiredGeneratorTool", ANew "DependencyOnArtifact" true (PList "requiredGeneratorTools")) (* 927 *);
    ("getResourceConsumption", AGet "resourceConsumption") (* 943 *);
    ("createResourceConsumption", ANew "ResourceConsumption" true (PSlot "resourceConsumption")) (* 953 *);
    ("getSwcBswMappingRef", AGet "swcBswMappingRef") (* 971 *);
    ("setSwcBswMappingRef", ASet "swcBswMappingRef" true) (* 981 *);
    ("getSwVersion", AGet "swVersion") (* 996 *);
    ("setSwVersion", ASet "swVersion" true) (* 1006 *);
    ("getUsedCodeGenerator", AGet "usedCodeGenerator") (* 1022 *);
    ("setUsedCodeGenerator", ASet "usedCodeGenerator" true) (* 1031 *);
    ("getVendorId", AGet "vendorId") (* 1046 *);
    ("setVendorId", ASet "vendorId" true) (* 1056 *)]);
  (* M2/AUTOSARTemplates/CommonStructure/ImplementationDataTypes.py *)
  ("ImplementationDataTypeElement", [("getArraySize", AGet "arraySize") (* 70 *);
    ("setArraySize", ASet "arraySize" true) (* 73 *);
    ("getArraySizeHandling", AGet "arraySizeHandling") (* 78 *);
    ("setArraySizeHandling", ASet "arraySizeHandling" true) (* 81 *);
    ("getArraySizeSemantics", AGet "arraySizeSemantics") (* 86 *);
    ("setArraySizeSemantics", ASet "arraySizeSemantics" true) (* 89 *);
    ("getSwDataDefProps", AGet "swDataDefProps") (* 102 *);
    ("setSwDataDefProps", ASet "swDataDefProps" true) (* 105 *);
    ("createImplementationDataTypeElement", ANew "ImplementationDataTypeElement" true (PList "subElements")) (* 110 *);
    ("getSubElements", AGet "subElements") (* 117 *)]);
  (* M2/AUTOSARTemplates/CommonStructure/ImplementationDataTypes.py *)
  ("ImplementationDataType", [("getDynamicArraySizeProfile", AGet "dynamicArraySizeProfile") (* 194 *);
    ("setDynamicArraySizeProfile", ASet "dynamicArraySizeProfile" true) (* 204 *);
    ("getIsStructWithOptionalElement", AGet "isStructWithOptionalElement") (* 220 *);
    ("setIsStructWithOptionalElement", ASet "isStructWithOptionalElement" true) (* 231 *);
    ("createImplementationDataTypeElement", ANew "ImplementationDataTypeElement" true (PList "subElements")) (* 248 *);
    ("getSubElements", AGet "subElements") (* 267 *);
    ("createSymbolProps", ANew "SymbolProps" true (PSlot "symbolProps")) (* 276 *);
    ("getSymbolProps", AGet "symbolProps") (* 293 *);
    ("getTypeEmitter", AGet "typeEmitter") (* 302 *);
    ("setTypeEmitter", ASet "typeEmitter" true) (* 312 *)]);
  (* M2/AUTOSARTemplates/CommonStructure/InternalBehavior.py *)
  ("ExecutableEntity", [("createActivationReason", ANew "ExecutableEntityActivationReason" true (PList "activationReasons")) (* 127 *);
    ("getActivationReasons", AGet "activationReasons") (* 144 *);
    ("getCanEnterRefs", AGet "canEnterRefs") (* 167 *);
    ("addCanEnterRef", AAdd "canEnterRefs" true) (* 176 *);
    ("getExclusiveAreaNestingOrderRefs", AGet "exclusiveAreaNestingOrderRefs") (* 191 *);
    ("addExclusiveAreaNestingOrderRef", AAdd "exclusiveAreaNestingOrderRefs" true) (* 200 *);
    ("getMinimumStartInterval", AGet "minimumStartInterval") (* 215 *);
    ("setMinimumStartInterval", ASet "minimumStartInterval" true) (* 224 *);
    ("getReentrancyLevel", AGet "reentrancyLevel") (* 251 *);
    ("setReentrancyLevel", ASet "reentrancyLevel" true) (* 260 *);
    ("getRunsInsideRefs", AGet "runsInsideRefs") (* 275 *);
    ("addRunsInsideRef", AAdd "runsInsideRefs" true) (* 284 *);
    ("getSwAddrMethodRef", AGet "swAddrMethodRef") (* 299 *);
    ("setSwAddrMethodRef", ASet "swAddrMethodRef" true) (* 308 *)]);
  (* M2/AUTOSARTemplates/CommonStructure/InternalBehavior.py *)
  ("InternalBehavior", [("createConstantMemory", ANew "ParameterDataPrototype" true (PList "constantMemories")) (* 372 *);
    ("getConstantMemories", AGet "constantMemories") (* 388 *);
    ("addDataTypeMappingRef", AAdd "dataTypeMappingRefs" false) (* 397 *);
    ("getDataTypeMappingRefs", AGet "dataTypeMappingRefs") (* 406 *);
    ("createExclusiveArea", ANew "ExclusiveArea" true (PList "elements/ExclusiveArea")) (* 415 *);
    ("getExclusiveAreas", AGet "elements/ExclusiveArea") (* 431 *);
    ("createExclusiveAreaNestingOrder", ANew "ExclusiveAreaNestingOrder" true (PList "elements/ExclusiveAreaNestingOrder")) (* 440 *);
    ("getExclusiveAreaNestingOrders", AGet "elements/ExclusiveAreaNestingOrder") (* 457 *);
    ("getStaticMemories", AGet "staticMemories") (* 466 *);
    ("createStaticMemory", ANew "VariableDataPrototype" true (PList "staticMemories")) (* 475 *)]);
  (* M2/AUTOSARTemplates/CommonStructure/InternalBehavior.py *)
  ("AbstractEvent", [("getActivationReasonRepresentationRef", AGet "activationReasonRepresentationRef") (* 513 *)]);
  (* M2/AUTOSARTemplates/CommonStructure/InternalBehavior.py *)
  ("ExclusiveAreaNestingOrder", [("getExclusiveAreaRefs", AGet "exclusiveAreaRefs") (* 575 *);
    ("addExclusiveAreaRef", AAdd "exclusiveAreaRefs" true) (* 584 *)]);
  (* M2/AUTOSARTemplates/CommonStructure/InternalBehavior.py *)
  ("ExecutableEntityActivationReason", [("getBitPosition", AGet "bitPosition") (* 626 *);
    ("setBitPosition", ASet "bitPosition" true) (* 636 *)]);
  (* M2/AUTOSARTemplates/CommonStructure/McGroups.py *)
  ("McGroup", [("addMcFunctionRef", AAdd "mcFunctionRefs" true) (* 54 *);
    ("getMcFunctionRefs", AGet "mcFunctionRefs") (* 69 *);
    ("getRefCalprmSet", AGet "refCalprmSet") (* 78 *);
    ("setRefCalprmSet", ASet "refCalprmSet" true) (* 87 *);
    ("getRefMeasurementSet", AGet "refMeasurementSet") (* 102 *);
    ("setRefMeasurementSet", ASet "refMeasurementSet" true) (* 111 *);
    ("addSubGroupRef", AAdd "subGroupRefs" true) (* 126 *);
    ("getSubGroupRefs", AGet "subGroupRefs") (* 141 *)]);
  (* M2/AUTOSARTemplates/CommonStructure/McGroups.py *)
  ("McGroupDataRefSet", [("addFlatMapEntryRef", AAdd "flatMapEntryRefs" true) (* 177 *);
    ("getFlatMapEntryRefs", AGet "flatMapEntryRefs") (* 192 *);
    ("addMcDataInstanceRef", AAdd "mcDataInstanceRefs" true) (* 201 *);
    ("getMcDataInstanceRefs", AGet "mcDataInstanceRefs") (* 216 *)]);
  (* M2/AUTOSARTemplates/CommonStructure/ModeDeclaration.py *)
  ("ModeDeclarationGroupPrototypeMapping", [("getFirstModeGroupRef", AGet "firstModeGroupRef") (* 78 *);
    ("setFirstModeGroupRef", ASet "firstModeGroupRef" true) (* 87 *);
    ("getModeDeclarationMappingSetRef", AGet "modeDeclarationMappingSetRef") (* 102 *);
    ("setModeDeclarationMappingSetRef", ASet "modeDeclarationMappingSetRef" true) (* 111 *);
    ("getSecondModeGroupRef", AGet "secondModeGroupRef") (* 126 *);
    ("setSecondModeGroupRef", ASet "secondModeGroupRef" true) (* 135 *)]);
  (* M2/AUTOSARTemplates/CommonStructure/ModeDeclaration.py *)
  ("ModeDeclaration", [("getValue", AGet "value") (* 170 *);
    ("setValue", ASet "value" true) (* 179 *)]);
  (* M2/AUTOSARTemplates/CommonStructure/ModeDeclaration.py *)
  ("ModeRequestTypeMap", [("getImplementationDataTypeRef", AGet "implementationDataTypeRef") (* 219 *);
    ("setImplementationDataTypeRef", ASet "implementationDataTypeRef" false) (* 228 *);
    ("getModeGroupRef", AGet "modeGroupRef") (* 242 *);
    ("setModeGroupRef", ASet "modeGroupRef" false) (* 251 *)]);
  (* M2/AUTOSARTemplates/CommonStructure/ModeDeclaration.py *)
  ("ModeDeclarationGroup", [("createModeDeclaration", ANew "ModeDeclaration" true (PList "elements/ModeDeclaration")) (* 310 *);
    ("getModeDeclarations", AGetSorted "elements/ModeDeclaration") (* 325 *);
    ("setInitialModeRef", ASet "initialModeRef" true) (* 334 *);
    ("setOnTransitionValue", ASet "onTransitionValue" true) (* 358 *);
    ("getOnTransitionValue", AGet "onTransitionValue") (* 373 *);
    ("createModeTransition", ANew "ModeTransition" true (PList "modeTransitions")) (* 382 *);
    ("getModeTransitions", AGet "modeTransitions") (* 398 *);
    ("getModeManagerErrorBehavior", AGet "modeManagerErrorBehavior") (* 407 *);
    ("setModeManagerErrorBehavior", ASet "modeManagerErrorBehavior" true) (* 416 *);
    ("getModeUserErrorBehavior", AGet "modeUserErrorBehavior") (* 431 *);
    ("setModeUserErrorBehavior", ASet "modeUserErrorBehavior" true) (* 440 *)]);
  (* M2/AUTOSARTemplates/CommonStructure/ModeDeclaration.py *)
  ("ModeDeclarationGroupPrototype", [("getSwCalibrationAccess", AGet "swCalibrationAccess") (* 480 *);
    ("setSwCalibrationAccess", ASet "swCalibrationAccess" true) (* 491 *);
    ("getTypeTRef", AGet "typeTRef") (* 508 *);
    ("setTypeTRef", ASet "typeTRef" true) (* 519 *)]);
  (* M2/AUTOSARTemplates/CommonStructure/ModeDeclaration.py *)
  ("ModeTransition", [("getEnteredModeRef", AGet "enteredModeRef") (* 561 *);
    ("setEnteredModeRef", ASet "enteredModeRef" true) (* 570 *);
    ("getExitedModeRef", AGet "exitedModeRef") (* 585 *);
    ("setExitedModeRef", ASet "exitedModeRef" true) (* 594 *)]);
  (* M2/AUTOSARTemplates/CommonStructure/ModeDeclaration.py *)
  ("ModeErrorBehavior", [("getDefaultModeRef", AGet "defaultModeRef") (* 634 *);
    ("setDefaultModeRef", ASet "defaultModeRef" true) (* 643 *);
    ("getErrorReactionPolicy", AGet "errorReactionPolicy") (* 658 *);
    ("setErrorReactionPolicy", ASet "errorReactionPolicy" true) (* 667 *)]);
  (* M2/AUTOSARTemplates/CommonStructure/ServiceNeeds.py *)
  ("RoleBasedDataAssignment", [("getRole", AGet "role") (* 54 *);
    ("setRole", ASet "role" false) (* 63 *);
    ("getUsedDataElement", AGet "usedDataElement") (* 77 *);
    ("setUsedDataElement", ASet "usedDataElement" false) (* 86 *);
    ("getUsedParameterElement", AGet "usedParameterElement") (* 100 *);
    ("setUsedParameterElement", ASet "usedParameterElement" false) (* 109 *);
    ("getUsedPimRef", AGet "usedPimRef") (* 123 *);
    ("setUsedPimRef", ASet "usedPimRef" false) (* 132 *)]);
  (* M2/AUTOSARTemplates/CommonStructure/ServiceNeeds.py *)
  ("NvBlockNeeds", [("getCalcRamBlockCrc", AGet "calcRamBlockCrc") (* 364 *);
    ("setCalcRamBlockCrc", ASet "calcRamBlockCrc" false) (* 367 *);
    ("getCheckStaticBlockId", AGet "checkStaticBlockId") (* 371 *);
    ("setCheckStaticBlockId", ASet "checkStaticBlockId" false) (* 374 *);
    ("getNDataSets", AGet "nDataSets") (* 385 *);
    ("setNDataSets", ASet "nDataSets" false) (* 388 *);
    ("getNRomBlocks", AGet "nRomBlocks") (* 392 *);
    ("setNRomBlocks", ASet "nRomBlocks" false) (* 395 *);
    ("getRamBlockStatusControl", AGet "ramBlockStatusControl") (* 399 *);
    ("setRamBlockStatusControl", ASet "ramBlockStatusControl" false) (* 402 *);
    ("getReadonly", AGet "readonly") (* 406 *);
    ("setReadonly", ASet "readonly" false) (* 409 *);
    ("getReliability", AGet "reliability") (* 413 *);
    ("setReliability", ASet "reliability" false) (* 416 *);
    ("getResistantToChangedSw", AGet "resistantToChangedSw") (* 420 *);
    ("setResistantToChangedSw", ASet "resistantToChangedSw" false) (* 423 *);
    ("getRestoreAtStart", AGet "restoreAtStart") (* 427 *);
    ("setRestoreAtStart", ASet "restoreAtStart" false) (* 430 *);
    ("getStoreAtShutdown", AGet "storeAtShutdown") (* 441 *);
    ("setStoreAtShutdown", ASet "storeAtShutdown" false) (* 444 *);
    ("getStoreCyclic", AGet "storeCyclic") (* 448 *);
    ("setStoreCyclic", ASet "storeCyclic" false) (* 451 *);
    ("getStoreEmergency", AGet "storeEmergency") (* 455 *);
    ("setStoreEmergency", ASet "storeEmergency" false) (* 458 *);
    ("getStoreImmediate", AGet "storeImmediate") (* 462 *);
    ("setStoreImmediate", ASet "storeImmediate" false) (* 465 *);
    ("getUseAutoValidationAtShutDown", AGet "useAutoValidationAtShutDown") (* 476 *);
    ("setUseAutoValidationAtShutDown", ASet "useAutoValidationAtShutDown" false) (* 479 *);
    ("getUseCRCCompMechanism", AGet "useCRCCompMechanism") (* 483 *);
    ("setUseCRCCompMechanism", ASet "useCRCCompMechanism" false) (* 486 *);
    ("getWriteOnlyOnce", AGet "writeOnlyOnce") (* 490 *);
    ("setWriteOnlyOnce", ASet "writeOnlyOnce" false) (* 493 *);
    ("getWriteVerification", AGet "writeVerification") (* 497 *);
    ("setWriteVerification", ASet "writeVerification" false) (* 500 *);
    ("getWritingFrequency", AGet "writingFrequency") (* 504 *);
    ("setWritingFrequency", ASet "writingFrequency" false) (* 507 *);
    ("getWritingPriority", AGet "writingPriority") (* 511 *);
    ("setWritingPriority", ASet "writingPriority" false) (* 514 *)]);
  (* M2/AUTOSARTemplates/CommonStructure/ServiceNeeds.py *)
  ("RoleBasedDataTypeAssignment", [("getRole", AGet "role") (* 543 *);
    ("setRole", ASet "role" false) (* 552 *);
    ("setUsedImplementationDataTypeRef", ASet "usedImplementationDataTypeRef" false) (* 575 *)]);
  (* M2/AUTOSARTemplates/CommonStructure/ServiceNeeds.py *)
  ("ServiceDependency", [("getAssignedDataTypes", AGet "assignedDataTypes") (* 639 *);
    ("addAssignedDataType", AAdd "assignedDataTypes" true) (* 648 *);
    ("getSymbolicNameProps", AGet "symbolicNameProps") (* 687 *);
    ("setSymbolicNameProps", ASet "symbolicNameProps" true) (* 696 *)]);
  (* M2/AUTOSARTemplates/CommonStructure/ServiceNeeds.py *)
  ("DiagnosticCommunicationManagerNeeds", [("getServiceRequestCallbackType", AGet "serviceRequestCallbackType") (* 928 *);
    ("setServiceRequestCallbackType", ASet "serviceRequestCallbackType" false) (* 937 *)]);
  (* M2/AUTOSARTemplates/CommonStructure/ServiceNeeds.py *)
  ("DiagnosticRoutineNeeds", [("getDiagRoutineType", AGet "diagRoutineType") (* 980 *);
    ("setDiagRoutineType", ASet "diagRoutineType" false) (* 989 *);
    ("getRidNumber", AGet "RidNumber") (* 1003 *);
    ("setRidNumber", ASet "RidNumber" false) (* 1012 *)]);
  (* M2/AUTOSARTemplates/CommonStructure/ServiceNeeds.py *)
  ("DiagnosticValueNeeds", [("getDataLength", AGet "dataLength") (* 1125 *);
    ("setDataLength", ASet "dataLength" false) (* 1134 *);
    ("getDiagnosticValueAccess", AGet "diagnosticValueAccess") (* 1148 *);
    ("setDiagnosticValueAccess", ASet "diagnosticValueAccess" false) (* 1157 *);
    ("getDidNumber", AGet "DidNumber") (* 1171 *);
    ("setDidNumber", ASet "DidNumber" false) (* 1180 *);
    ("getFixedLength", AGet "fixedLength") (* 1194 *);
    ("setFixedLength", ASet "fixedLength" false) (* 1203 *);
    ("getProcessingStyle", AGet "processingStyle") (* 1217 *);
    ("setProcessingStyle", ASet "processingStyle" false) (* 1226 *)]);
  (* M2/AUTOSARTemplates/CommonStructure/ServiceNeeds.py *)
  ("DiagnosticEventInfoNeeds", [("getDtcKind", AGet "dtcKind") (* 1507 *);
    ("setDtcKind", ASet "dtcKind" true) (* 1516 *);
    ("getUdsDtcNumber", AGet "udsDtcNumber") (* 1555 *);
    ("setUdsDtcNumber", ASet "udsDtcNumber" true) (* 1564 *)]);
  (* M2/AUTOSARTemplates/CommonStructure/ServiceNeeds.py *)
  ("DtcStatusChangeNotificationNeeds", [("getDtcFormatType", AGet "dtcFormatType") (* 1641 *);
    ("setDtcFormatType", ASet "dtcFormatType" true) (* 1650 *)]);
  (* M2/AUTOSARTemplates/CommonStructure/ServiceNeeds.py *)
  ("DiagnosticEventNeeds", [("getDeferringFidRefs", AGet "deferringFidRefs") (* 1742 *);
    ("addDeferringFidRef", AAdd "deferringFidRefs" true) (* 1751 *);
    ("getDiagEventDebounceAlgorithm", AGet "diagEventDebounceAlgorithm") (* 1766 *);
    ("createDiagEventDebounceCounterBased", ANew "DiagEventDebounceCounterBased" true (PSlot "diagEventDebounceAlgorithm")) (* 1775 *);
    ("createDiagEventDebounceMonitorInternal", ANew "DiagEventDebounceMonitorInternal" true (PSlot "diagEventDebounceAlgorithm")) (* 1791 *);
    ("createDiagEventDebounceTimeBased", ANew "DiagEventDebounceTimeBased" true (PSlot "diagEventDebounceAlgorithm")) (* 1807 *);
    ("getInhibitingFidRef", AGet "inhibitingFidRef") (* 1823 *);
    ("setInhibitingFidRef", ASet "inhibitingFidRef" true) (* 1832 *);
    ("getInhibitingSecondaryFidRefs", AGet "inhibitingSecondaryFidRefs") (* 1847 *);
    ("addInhibitingSecondaryFidRef", AAdd "inhibitingSecondaryFidRefs" true) (* 1856 *);
    ("getPrestoredFreezeframeStoredInNvm", AGet "prestoredFreezeframeStoredInNvm") (* 1871 *);
    ("setPrestoredFreezeframeStoredInNvm", ASet "prestoredFreezeframeStoredInNvm" true) (* 1880 *);
    ("getUsesMonitorData", AGet "usesMonitorData") (* 1895 *);
    ("setUsesMonitorData", ASet "usesMonitorData" true) (* 1904 *)]);
  (* M2/AUTOSARTemplates/CommonStructure/ServiceNeeds.py *)
  ("CryptoServiceNeeds", [("getMaximumKeyLength", AGet "maximumKeyLength") (* 2025 *);
    ("setMaximumKeyLength", ASet "maximumKeyLength" false) (* 2034 *)]);
  (* M2/AUTOSARTemplates/CommonStructure/ServiceNeeds.py *)
  ("ComMgrUserNeeds", [("getMaxCommMode", AGet "maxCommMode") (* 2134 *);
    ("setMaxCommMode", ASet "maxCommMode" true) (* 2143 *)]);
  (* M2/AUTOSARTemplates/CommonStructure/ServiceNeeds.py *)
  ("TracedFailure", [("getId", AGet "id") (* 2228 *);
    ("setId", ASet "id" true) (* 2237 *)]);
  (* M2/AUTOSARTemplates/CommonStructure/ServiceNeeds.py *)
  ("DiagnosticEnableConditionNeeds", [("getInitialStatus", AGet "initialStatus") (* 2378 *);
    ("setInitialStatus", ASet "initialStatus" true) (* 2387 *)]);
  (* M2/AUTOSARTemplates/CommonStructure/ServiceNeeds.py *)
  ("DiagnosticIoControlNeeds", [("getCurrentValueRef", AGet "currentValueRef") (* 2462 *);
    ("setCurrentValueRef", ASet "currentValueRef" true) (* 2471 *);
    ("getFreezeCurrentStateSupported", AGet "freezeCurrentStateSupported") (* 2486 *);
    ("setFreezeCurrentStateSupported", ASet "freezeCurrentStateSupported" true) (* 2495 *);
    ("getResetToDefaultSupported", AGet "resetToDefaultSupported") (* 2510 *);
    ("setResetToDefaultSupported", ASet "resetToDefaultSupported" true) (* 2519 *);
    ("getShortTermAdjustmentSupported", AGet "shortTermAdjustmentSupported") (* 2534 *);
    ("setShortTermAdjustmentSupported", ASet "shortTermAdjustmentSupported" true) (* 2543 *)]);
  (* M2/AUTOSARTemplates/CommonStructure/ServiceNeeds.py *)
  ("DiagnosticOperationCycleNeeds", [("getOperationCycle", AGet "operationCycle") (* 2612 *);
    ("setOperationCycle", ASet "operationCycle" true) (* 2621 *)]);
  (* M2/AUTOSARTemplates/CommonStructure/ServiceNeeds.py *)
  ("DiagnosticStorageConditionNeeds", [("getInitialStatus", AGet "initialStatus") (* 2682 *);
    ("setInitialStatus", ASet "initialStatus" true) (* 2691 *)]);
  (* M2/AUTOSARTemplates/CommonStructure/ServiceNeeds.py *)
  ("DoIpRoutingActivationAuthenticationNeeds", [("getDataLengthRequest", AGet "dataLengthRequest") (* 2871 *);
    ("setDataLengthRequest", ASet "dataLengthRequest" true) (* 2880 *);
    ("getDataLengthResponse", AGet "dataLengthResponse") (* 2895 *);
    ("setDataLengthResponse", ASet "dataLengthResponse" true) (* 2904 *);
    ("getRoutingActivationType", AGet "routingActivationType") (* 2919 *);
    ("setRoutingActivationType", ASet "routingActivationType" true) (* 2928 *)]);
  (* M2/AUTOSARTemplates/CommonStructure/ServiceNeeds.py *)
  ("DoIpRoutingActivationConfirmationNeeds", [("getDataLengthRequest", AGet "dataLengthRequest") (* 2972 *);
    ("setDataLengthRequest", ASet "dataLengthRequest" true) (* 2981 *);
    ("getDataLengthResponse", AGet "dataLengthResponse") (* 2996 *);
    ("setDataLengthResponse", ASet "dataLengthResponse" true) (* 3005 *);
    ("getRoutingActivationType", AGet "routingActivationType") (* 3020 *);
    ("setRoutingActivationType", ASet "routingActivationType" true) (* 3029 *)]);
  (* M2/AUTOSARTemplates/CommonStructure/ServiceNeeds.py *)
  ("ErrorTracerNeeds", [("getTracedFailures", AGet "tracedFailures") (* 3072 *);
    ("createDevelopmentError", ANew "DevelopmentError" true (PList "tracedFailures")) (* 3081 *);
    ("createRuntimeError", ANew "RuntimeError" true (PList "tracedFailures")) (* 3097 *);
    ("createTransientFault", ANew "TransientFault" true (PList "tracedFailures")) (* 3113 *)]);
  (* M2/AUTOSARTemplates/CommonStructure/ServiceNeeds.py *)
  ("FunctionInhibitionAvailabilityNeeds", [("getControlledFidRef", AGet "controlledFidRef") (* 3177 *);
    ("setControlledFidRef", ASet "controlledFidRef" true) (* 3186 *)]);
  (* M2/AUTOSARTemplates/CommonStructure/ServiceNeeds.py *)
  ("IdsMgrNeeds", [("getUseSmartSensorApi", AGet "useSmartSensorApi") (* 3320 *);
    ("setUseSmartSensorApi", ASet "useSmartSensorApi" true) (* 3329 *)]);
  (* M2/AUTOSARTemplates/CommonStructure/ServiceNeeds.py *)
  ("IndicatorStatusNeeds", [("getType", AGet "type") (* 3410 *);
    ("setType", ASet "type" true) (* 3419 *)]);
  (* M2/AUTOSARTemplates/CommonStructure/ServiceNeeds.py *)
  ("ObdMonitorServiceNeeds", [("getApplicationDataTypeRef", AGet "applicationDataTypeRef") (* 3609 *);
    ("setApplicationDataTypeRef", ASet "applicationDataTypeRef" true) (* 3618 *);
    ("getEventNeedsRef", AGet "eventNeedsRef") (* 3633 *);
    ("setEventNeedsRef", ASet "eventNeedsRef" true) (* 3642 *);
    ("getUnitAndScalingId", AGet "unitAndScalingId") (* 3657 *);
    ("setUnitAndScalingId", ASet "unitAndScalingId" true) (* 3666 *);
    ("getUpdateKind", AGet "updateKind") (* 3681 *);
    ("setUpdateKind", ASet "updateKind" true) (* 3690 *)]);
  (* M2/AUTOSARTemplates/CommonStructure/ServiceNeeds.py *)
  ("ObdRatioDenominatorNeeds", [("getDenominatorCondition", AGet "denominatorCondition") (* 3769 *);
    ("setDenominatorCondition", ASet "denominatorCondition" true) (* 3778 *)]);
  (* M2/AUTOSARTemplates/CommonStructure/ServiceNeeds.py *)
  ("ObdRatioServiceNeeds", [("getConnectionType", AGet "connectionType") (* 3822 *);
    ("setConnectionType", ASet "connectionType" true) (* 3831 *);
    ("getRateBasedMonitoredEventRef", AGet "rateBasedMonitoredEventRef") (* 3846 *);
    ("setRateBasedMonitoredEventRef", ASet "rateBasedMonitoredEventRef" true) (* 3855 *);
    ("getUsedFidRef", AGet "usedFidRef") (* 3870 *);
    ("setUsedFidRef", ASet "usedFidRef" true) (* 3879 *)]);
  (* M2/AUTOSARTemplates/CommonStructure/ServiceNeeds.py *)
  ("SecureOnBoardCommunicationNeeds", [("getVerificationStatusIndicationMode", AGet "verificationStatusIndicationMode") (* 3964 *);
    ("setVerificationStatusIndicationMode", ASet "verificationStatusIndicationMode" true) (* 3973 *)]);
  (* M2/AUTOSARTemplates/CommonStructure/ServiceNeeds.py *)
  ("SupervisedEntityNeeds", [("getActivateAtStart", AGet "activateAtStart") (* 4199 *);
    ("setActivateAtStart", ASet "activateAtStart" true) (* 4208 *);
    ("addCheckpointsRef", AAdd "checkpointsRefs" true) (* 4223 *);
    ("getCheckpointsRefs", AGet "checkpointsRefs") (* 4238 *);
    ("getEnableDeactivation", AGet "enableDeactivation") (* 4247 *);
    ("setEnableDeactivation", ASet "enableDeactivation" true) (* 4256 *);
    ("getExpectedAliveCycle", AGet "expectedAliveCycle") (* 4271 *);
    ("setExpectedAliveCycle", ASet "expectedAliveCycle" true) (* 4280 *);
    ("getMaxAliveCycle", AGet "maxAliveCycle") (* 4295 *);
    ("setMaxAliveCycle", ASet "maxAliveCycle" true) (* 4304 *);
    ("getMinAliveCycle", AGet "minAliveCycle") (* 4319 *);
    ("setMinAliveCycle", ASet "minAliveCycle" true) (* 4328 *);
    ("getToleratedFailedCycles", AGet "toleratedFailedCycles") (* 4343 *);
    ("setToleratedFailedCycles", ASet "toleratedFailedCycles" true) (* 4352 *)]);
  (* M2/AUTOSARTemplates/CommonStructure/ServiceNeeds.py *)
  ("PossibleErrorReaction", [("getReactionCode", AGet "reactionCode") (* 4434 *);
    ("setReactionCode", ASet "reactionCode" true) (* 4443 *)]);
  (* M2/AUTOSARTemplates/CommonStructure/ServiceNeeds.py *)
  ("TransientFault", [("createPossibleErrorReaction", ANew "PossibleErrorReaction" true (PList "possibleErrorReactions")) (* 4484 *);
    ("getPossibleErrorReactions", AGet "possibleErrorReactions") (* 4500 *)]);
  (* M2/AUTOSARTemplates/CommonStructure/SignalServiceTranslation.py *)
  ("SignalServiceTranslationElementProps", [("getFilter", AGet "filter") (* 95 *);
    ("setFilter", ASet "filter" true) (* 101 *);
    ("getTransmissionTrigger", AGet "transmissionTrigger") (* 110 *);
    ("setTransmissionTrigger", ASet "transmissionTrigger" true) (* 116 *)]);
  (* M2/AUTOSARTemplates/CommonStructure/SignalServiceTranslation.py *)
  ("SignalServiceTranslationEventProps", [("createSignalServiceTranslationElementProps", ANew "SignalServiceTranslationElementProps" true (PList "elementProps")) (* 160 *);
    ("getSignalServiceTranslationElementProps", AGet "elementProps") (* 169 *);
    ("getSafeTranslation", AGet "safeTranslation") (* 175 *);
    ("setSafeTranslation", ASet "safeTranslation" true) (* 181 *);
    ("getSecureTranslation", AGet "secureTranslation") (* 190 *);
    ("setSecureTranslation", ASet "secureTranslation" true) (* 196 *);
    ("getTranslationTarget", AGet "translationTarget") (* 205 *);
    ("setTranslationTarget", ASet "translationTarget" true) (* 211 *)]);
  (* M2/AUTOSARTemplates/CommonStructure/SignalServiceTranslation.py *)
  ("SignalServiceTranslationProps", [("addControlConsumedEventGroupRef", AAdd "controlConsumedEventGroupRefs" true) (* 260 *);
    ("getControlConsumedEventGroupRefs", AGet "controlConsumedEventGroupRefs") (* 269 *);
    ("addControlPncRef", AAdd "controlPncRefs" true) (* 275 *);
    ("getControlPncRefs", AGet "controlPncRefs") (* 284 *);
    ("addControlProvidedEventGroupRef", AAdd "controlProvidedEventGroupRefs" true) (* 290 *);
    ("getControlProvidedEventGroupRefs", AGet "controlProvidedEventGroupRefs") (* 299 *);
    ("getServiceControl", AGet "serviceControl") (* 305 *);
    ("setServiceControl", ASet "serviceControl" true) (* 311 *);
    ("createSignalServiceTranslationEventProps", ANew "SignalServiceTranslationEventProps" true (PList "signalServiceTranslationEventProps")) (* 320 *);
    ("getSignalServiceTranslationEventProps", AGet "signalServiceTranslationEventProps") (* 329 *)]);
  (* M2/AUTOSARTemplates/CommonStructure/SignalServiceTranslation.py *)
  ("SignalServiceTranslationPropsSet", [("createSignalServiceTranslationProps", ANew "SignalServiceTranslationProps" true (PList "signalServiceTranslationProps")) (* 355 *);
    ("getSignalServiceTranslationProps", AGet "signalServiceTranslationProps") (* 364 *)]);
  (* M2/AUTOSARTemplates/CommonStructure/SwcBswMapping.py *)
  ("SwcBswRunnableMapping", [("getBswEntityRef", AGet "bswEntityRef") (* 46 *);
    ("setBswEntityRef", ASet "bswEntityRef" false) (* 55 *);
    ("getSwcRunnableRef", AGet "swcRunnableRef") (* 69 *);
    ("setSwcRunnableRef", ASet "swcRunnableRef" false) (* 78 *)]);
  (* M2/AUTOSARTemplates/CommonStructure/SwcBswMapping.py *)
  ("SwcBswMapping", [("getBswBehaviorRef", AGet "bswBehaviorRef") (* 135 *);
    ("setBswBehaviorRef", ASet "bswBehaviorRef" false) (* 144 *);
    ("getRunnableMappings", AGet "runnableMappings") (* 158 *);
    ("addRunnableMapping", AAdd "runnableMappings" false) (* 167 *);
    ("getSwcBehaviorRef", AGet "swcBehaviorRef") (* 180 *);
    ("setSwcBehaviorRef", ASet "swcBehaviorRef" false) (* 189 *);
    ("getSynchronizedModeGroups", AGet "synchronizedModeGroups") (* 203 *);
    ("addSynchronizedModeGroup", AAdd "synchronizedModeGroups" true) (* 226 *);
    ("getSynchronizedTriggers", AGet "synchronizedTriggers") (* 241 *);
    ("addSynchronizedTrigger", AAdd "synchronizedTriggers" true) (* 264 *)]);
  (* M2/AUTOSARTemplates/CommonStructure/SwcBswMapping.py *)
  ("SwcBswSynchronizedModeGroupPrototype", [("getBswModeGroupRef", AGet "bswModeGroupRef") (* 305 *);
    ("setBswModeGroupRef", ASet "bswModeGroupRef" true) (* 314 *);
    ("getSwcModeGroupIRef", AGet "swcModeGroupIRef") (* 329 *);
    ("setSwcModeGroupIRef", ASet "swcModeGroupIRef" true) (* 338 *)]);
  (* M2/AUTOSARTemplates/CommonStructure/SwcBswMapping.py *)
  ("SwcBswSynchronizedTrigger", [("getBswTriggerRef", AGet "bswTriggerRef") (* 380 *);
    ("setBswTriggerRef", ASet "bswTriggerRef" true) (* 391 *);
    ("getSwcTriggerIRef", AGet "swcTriggerIRef") (* 408 *);
    ("setSwcTriggerIRef", ASet "swcTriggerIRef" true) (* 420 *)]);
  (* M2/AUTOSARTemplates/CommonStructure/TriggerDeclaration.py *)
  ("Trigger", [("getSwImplPolicy", AGet "swImplPolicy") (* 41 *);
    ("setSwImplPolicy", ASet "swImplPolicy" true) (* 50 *)]);
  (* M2/AUTOSARTemplates/CommonStructure/Constants/__init__.py *)
  ("ValueSpecification", [("getShortLabel", AGet "shortLabel") (* 48 *);
    ("setShortLabel", ASet "shortLabel" true) (* 54 *)]);
  (* M2/AUTOSARTemplates/CommonStructure/Constants/__init__.py *)
  ("ApplicationValueSpecification", [("getCategory", AGet "category") (* 152 *);
    ("setCategory", ASet "category" false) (* 161 *);
    ("getSwValueCont", AGet "swValueCont") (* 198 *);
    ("setSwValueCont", ASet "swValueCont" false) (* 207 *)]);
  (* M2/AUTOSARTemplates/CommonStructure/Constants/__init__.py *)
  ("RecordValueSpecification", [("addField", AAdd "fields" false) (* 243 *);
    ("getFields", AGet "fields") (* 252 *)]);
  (* M2/AUTOSARTemplates/CommonStructure/Constants/__init__.py *)
  ("TextValueSpecification", [("getValue", AGet "value") (* 282 *);
    ("setValue", ASet "value" false) (* 291 *)]);
  (* M2/AUTOSARTemplates/CommonStructure/Constants/__init__.py *)
  ("NumericalValueSpecification", [("getValue", AGet "value") (* 326 *);
    ("setValue", ASet "value" true) (* 335 *)]);
  (* M2/AUTOSARTemplates/CommonStructure/Constants/__init__.py *)
  ("ArrayValueSpecification", [("addElement", AAdd "element" false) (* 398 *);
    ("getElements", AGet "element") (* 407 *)]);
  (* M2/AUTOSARTemplates/CommonStructure/Constants/__init__.py *)
  ("ConstantSpecification", [("getValueSpec", AGet "valueSpec") (* 441 *);
    ("setValueSpec", ASet "valueSpec" false) (* 450 *)]);
  (* M2/AUTOSARTemplates/CommonStructure/Constants/__init__.py *)
  ("ConstantReference", [("getConstantRef", AGet "constantRef") (* 485 *);
    ("setConstantRef", ASet "constantRef" false) (* 494 *)]);
  (* M2/AUTOSARTemplates/CommonStructure/Constants/__init__.py *)
  ("ApplicationRuleBasedValueSpecification", [("getCategory", AGet "category") (* 548 *);
    ("setCategory", ASet "category" true) (* 559 *);
    ("addSwAxisCont", AAdd "swAxisConts" true) (* 576 *);
    ("getSwAxisConts", AGet "swAxisConts") (* 595 *);
    ("getSwValueCont", AGet "swValueCont") (* 608 *);
    ("setSwValueCont", ASet "swValueCont" true) (* 617 *)]);
  (* M2/AUTOSARTemplates/CommonStructure/Constants/__init__.py *)
  ("CompositeRuleBasedValueSpecification", [("addArgument", AAdd "arguments" true) (* 666 *);
    ("getArguments", AGet "arguments") (* 675 *);
    ("addCompoundPrimitiveArgument", AAdd "compoundPrimitiveArguments" true) (* 681 *);
    ("getCompoundPrimitiveArguments", AGet "compoundPrimitiveArguments") (* 690 *);
    ("getMaxSizeToFill", AGet "maxSizeToFill") (* 696 *);
    ("setMaxSizeToFill", ASet "maxSizeToFill" true) (* 702 *);
    ("getRule", AGet "rule") (* 711 *);
    ("setRule", ASet "rule" true) (* 717 *)]);
  (* M2/AUTOSARTemplates/CommonStructure/Constants/__init__.py *)
  ("ConstantSpecificationMapping", [("getTargetRef", AGet "targetRef") (* 751 *);
    ("setTargetRef", ASet "targetRef" false) (* 754 *)]);
  (* M2/AUTOSARTemplates/CommonStructure/Constants/__init__.py *)
  ("ConstantSpecificationMappingSet", [("getMappings", AGet "mappings") (* 776 *)]);
  (* M2/AUTOSARTemplates/CommonStructure/Constants/__init__.py *)
  ("NotAvailableValueSpecification", [("getReason", AGet "reason") (* 794 *);
    ("setReason", ASet "reason" false) (* 797 *)]);
  (* M2/AUTOSARTemplates/CommonStructure/Constants/__init__.py *)
  ("NumericalOrText", [("getVf", AGet "vf") (* 831 *);
    ("setVf", ASet "vf" true) (* 841 *);
    ("getVt", AGet "vt") (* 857 *);
    ("setVt", ASet "vt" true) (* 866 *)]);
  (* M2/AUTOSARTemplates/CommonStructure/Constants/__init__.py *)
  ("NumericalRuleBasedValueSpecification", [("getRuleBasedValues", AGet "ruleBasedValues") (* 896 *);
    ("setRuleBasedValues", ASet "ruleBasedValues" false) (* 899 *)]);
  (* M2/AUTOSARTemplates/CommonStructure/Constants/__init__.py *)
  ("RuleArguments", [("getV", AGet "v") (* 961 *);
    ("setV", ASet "v" true) (* 970 *);
    ("getVf", AGet "vf") (* 985 *);
    ("setVf", ASet "vf" true) (* 995 *);
    ("getVt", AGet "vt") (* 1011 *);
    ("setVt", ASet "vt" true) (* 1020 *);
    ("getVtf", AGet "vtf") (* 1035 *);
    ("setVtf", ASet "vtf" true) (* 1044 *)]);
  (* M2/AUTOSARTemplates/CommonStructure/Constants/__init__.py *)
  ("RuleBasedAxisCont", [("getCategory", AGet "category") (* 1088 *);
    ("setCategory", ASet "category" false) (* 1091 *);
    ("getUnitRef", AGet "unitRef") (* 1095 *);
    ("setUnitRef", ASet "unitRef" false) (* 1098 *);
    ("getSwArraysize", AGet "swArraysize") (* 1102 *);
    ("setSwArraysize", ASet "swArraysize" false) (* 1105 *);
    ("getSwAxisIndex", AGet "swAxisIndex") (* 1109 *);
    ("setSwAxisIndex", ASet "swAxisIndex" false) (* 1112 *);
    ("getRuleBasedValues", AGet "ruleBasedValues") (* 1116 *);
    ("setRuleBasedValues", ASet "ruleBasedValues" false) (* 1119 *)]);
  (* M2/AUTOSARTemplates/CommonStructure/Constants/__init__.py *)
  ("RuleBasedValueCont", [("getRuleBasedValues", AGet "ruleBasedValues") (* 1154 *);
    ("setRuleBasedValues", ASet "ruleBasedValues" true) (* 1163 *);
    ("getSwArraysize", AGet "swArraysize") (* 1178 *);
    ("setSwArraysize", ASet "swArraysize" true) (* 1188 *);
    ("getUnitRef", AGet "unitRef") (* 1204 *);
    ("setUnitRef", ASet "unitRef" true) (* 1213 *)]);
  (* M2/AUTOSARTemplates/CommonStructure/Constants/__init__.py *)
  ("RuleBasedValueSpecification", [("addArgument", AAdd "arguments" true) (* 1259 *);
    ("getArguments", AGet "arguments") (* 1273 *);
    ("getMaxSizeToFill", AGet "maxSizeToFill") (* 1282 *);
    ("setMaxSizeToFill", ASet "maxSizeToFill" true) (* 1291 *);
    ("getRule", AGet "rule") (* 1306 *);
    ("setRule", ASet "rule" true) (* 1316 *)]);
  (* M2/AUTOSARTemplates/CommonStructure/MeasurementCalibrationSupport/__init__.py *)
  ("RteEventInEcuInstanceRef", [("getBaseRef", AGet "baseRef") (* 57 *);
    ("setBaseRef", ASet "baseRef" true) (* 66 *);
    ("getContextRootCompositionRef", AGet "contextRootCompositionRef") (* 81 *);
    ("setContextRootCompositionRef", ASet "contextRootCompositionRef" true) (* 90 *);
    ("getContextAtomicComponentRef", AGet "contextAtomicComponentRef") (* 105 *);
    ("setContextAtomicComponentRef", ASet "contextAtomicComponentRef" true) (* 114 *);
    ("getTargetRteEventRef", AGet "targetRteEventRef") (* 129 *);
    ("setTargetRteEventRef", ASet "targetRteEventRef" true) (* 138 *)]);
  (* M2/AUTOSARTemplates/CommonStructure/MeasurementCalibrationSupport/__init__.py *)
  ("VariableAccessInEcuInstanceRef", [("getBaseRef", AGet "baseRef") (* 191 *);
    ("setBaseRef", ASet "baseRef" true) (* 200 *);
    ("getContextRootCompositionRef", AGet "contextRootCompositionRef") (* 215 *);
    ("setContextRootCompositionRef", ASet "contextRootCompositionRef" true) (* 224 *);
    ("getContextAtomicComponentRef", AGet "contextAtomicComponentRef") (* 239 *);
    ("setContextAtomicComponentRef", ASet "contextAtomicComponentRef" true) (* 248 *);
    ("getTargetVariableAccessRef", AGet "targetVariableAccessRef") (* 263 *);
    ("setTargetVariableAccessRef", ASet "targetVariableAccessRef" true) (* 272 *)]);
  (* M2/AUTOSARTemplates/CommonStructure/MeasurementCalibrationSupport/__init__.py *)
  ("McDataAccessDetails", [("addRteEventIRef", AAdd "rteEventIRefs" true) (* 315 *);
    ("getRteEventIRefs", AGet "rteEventIRefs") (* 330 *);
    ("addVariableAccessIRef", AAdd "variableAccessIRefs" true) (* 340 *);
    ("getVariableAccessIRefs", AGet "variableAccessIRefs") (* 355 *)]);
  (* M2/AUTOSARTemplates/CommonStructure/MeasurementCalibrationSupport/__init__.py *)
  ("McParameterElementGroup", [("getRamLocationRef", AGet "ramLocationRef") (* 397 *);
    ("setRamLocationRef", ASet "ramLocationRef" true) (* 406 *);
    ("getRomLocationRef", AGet "romLocationRef") (* 421 *);
    ("setRomLocationRef", ASet "romLocationRef" true) (* 430 *);
    ("getShortLabel", AGet "shortLabel") (* 445 *);
    ("setShortLabel", ASet "shortLabel" true) (* 454 *)]);
  (* M2/AUTOSARTemplates/CommonStructure/MeasurementCalibrationSupport/__init__.py *)
  ("McSwEmulationMethodSupport", [("getBaseReferenceRef", AGet "baseReferenceRef") (* 511 *);
    ("setBaseReferenceRef", ASet "baseReferenceRef" true) (* 520 *);
    ("getCategory", AGet "category") (* 535 *);
    ("setCategory", ASet "category" true) (* 544 *);
    ("addElementGroup", AAdd "elementGroups" true) (* 559 *);
    ("getElementGroups", AGet "elementGroups") (* 574 *);
    ("getReferenceTableRef", AGet "referenceTableRef") (* 583 *);
    ("setReferenceTableRef", ASet "referenceTableRef" true) (* 592 *);
    ("getShortLabel", AGet "shortLabel") (* 607 *);
    ("setShortLabel", ASet "shortLabel" true) (* 616 *)]);
  (* M2/AUTOSARTemplates/CommonStructure/MeasurementCalibrationSupport/__init__.py *)
  ("ImplementationElementInParameterInstanceRef", [("getContextRef", AGet "contextRef") (* 660 *);
    ("setContextRef", ASet "contextRef" true) (* 670 *);
    ("getTargetRef", AGet "targetRef") (* 685 *);
    ("setTargetRef", ASet "targetRef" true) (* 695 *)]);
  (* M2/AUTOSARTemplates/CommonStructure/MeasurementCalibrationSupport/__init__.py *)
  ("McFunction", [("getDefCalprmSet", AGet "defCalprmSet") (* 761 *);
    ("setDefCalprmSet", ASet "defCalprmSet" true) (* 770 *);
    ("getInMeasurementSet", AGet "inMeasurementSet") (* 785 *);
    ("setInMeasurementSet", ASet "inMeasurementSet" true) (* 794 *);
    ("getLocMeasurementSet", AGet "locMeasurementSet") (* 809 *);
    ("setLocMeasurementSet", ASet "locMeasurementSet" true) (* 818 *);
    ("getOutMeasurementSet", AGet "outMeasurementSet") (* 833 *);
    ("setOutMeasurementSet", ASet "outMeasurementSet" true) (* 842 *);
    ("getRefCalprmSet", AGet "refCalprmSet") (* 857 *);
    ("setRefCalprmSet", ASet "refCalprmSet" true) (* 866 *);
    ("addSubFunctionRef", AAdd "subFunctionRefs" true) (* 881 *);
    ("getSubFunctionRefs", AGet "subFunctionRefs") (* 896 *)]);
  (* M2/AUTOSARTemplates/CommonStructure/MeasurementCalibrationSupport/__init__.py *)
  ("RoleBasedMcDataAssignment", [("getExecutionContextRefs", AGet "executionContextRefs") (* 937 *);
    ("addExecutionContextRef", AAdd "executionContextRefs" true) (* 946 *);
    ("getMcDataInstanceRefs", AGet "mcDataInstanceRefs") (* 961 *);
    ("addMcDataInstanceRef", AAdd "mcDataInstanceRefs" true) (* 970 *);
    ("getRole", AGet "role") (* 985 *);
    ("setRole", ASet "role" true) (* 994 *)]);
  (* M2/AUTOSARTemplates/CommonStructure/MeasurementCalibrationSupport/__init__.py *)
  ("McDataInstance", [("getArraySize", AGet "arraySize") (* 1090 *);
    ("setArraySize", ASet "arraySize" true) (* 1099 *);
    ("getDisplayIdentifier", AGet "displayIdentifier") (* 1114 *);
    ("setDisplayIdentifier", ASet "displayIdentifier" true) (* 1123 *);
    ("getFlatMapEntryRef", AGet "flatMapEntryRef") (* 1138 *);
    ("setFlatMapEntryRef", ASet "flatMapEntryRef" true) (* 1147 *);
    ("getInstanceInMemory", AGet "instanceInMemory") (* 1162 *);
    ("setInstanceInMemory", ASet "instanceInMemory" true) (* 1171 *);
    ("getMcDataAccessDetails", AGet "mcDataAccessDetails") (* 1186 *);
    ("setMcDataAccessDetails", ASet "mcDataAccessDetails" true) (* 1195 *);
    ("addMcDataAssignment", AAdd "mcDataAssignments" true) (* 1210 *);
    ("getMcDataAssignments", AGet "mcDataAssignments") (* 1225 *);
    ("getResultingProperties", AGet "resultingProperties") (* 1234 *);
    ("setResultingProperties", ASet "resultingProperties" true) (* 1243 *);
    ("getResultingRptSwPrototypingAccess", AGet "resultingRptSwPrototypingAccess") (* 1258 *);
    ("setResultingRptSwPrototypingAccess", ASet "resultingRptSwPrototypingAccess" true) (* 1267 *);
    ("getRole", AGet "role") (* 1282 *);
    ("setRole", ASet "role" true) (* 1291 *);
    ("getRptImplPolicy", AGet "rptImplPolicy") (* 1306 *);
    ("setRptImplPolicy", ASet "rptImplPolicy" true) (* 1315 *);
    ("createSubElement", ANew "McDataInstance" true (PList "subElements")) (* 1330 *);
    ("getSubElements", AGet "subElements") (* 1348 *);
    ("getSymbol", AGet "symbol") (* 1357 *);
    ("setSymbol", ASet "symbol" true) (* 1366 *)]);
  (* M2/AUTOSARTemplates/CommonStructure/MeasurementCalibrationSupport/__init__.py *)
  ("McSupportData", [("addEmulationSupport", AAdd "emulationSupports" true) (* 1423 *);
    ("getEmulationSupports", AGet "emulationSupports") (* 1438 *);
    ("createMcParameterInstance", ANew "McDataInstance" true (PList "mcParameterInstances")) (* 1447 *);
    ("getMcParameterInstances", AGet "mcParameterInstances") (* 1465 *);
    ("createMcVariableInstance", ANew "McDataInstance" true (PList "mcVariableInstances")) (* 1474 *);
    ("getMcVariableInstances", AGet "mcVariableInstances") (* 1492 *);
    ("addMeasurableSystemConstantValuesRef", AAdd "measurableSystemConstantValuesRefs" true) (* 1501 *);
    ("getMeasurableSystemConstantValuesRefs", AGet "measurableSystemConstantValuesRefs") (* 1516 *);
    ("getRptSupportData", AGet "rptSupportData") (* 1525 *);
    ("setRptSupportData", ASet "rptSupportData" true) (* 1534 *)]);
  (* M2/AUTOSARTemplates/CommonStructure/MeasurementCalibrationSupport/RptSupport/__init__.py *)
  ("RptSwPrototypingAccess", [("getRptHookAccess", AGet "rptHookAccess") (* 190 *);
    ("setRptHookAccess", ASet "rptHookAccess" true) (* 199 *);
    ("getRptReadAccess", AGet "rptReadAccess") (* 214 *);
    ("setRptReadAccess", ASet "rptReadAccess" true) (* 223 *);
    ("getRptWriteAccess", AGet "rptWriteAccess") (* 238 *);
    ("setRptWriteAccess", ASet "rptWriteAccess" true) (* 247 *)]);
  (* M2/AUTOSARTemplates/CommonStructure/MeasurementCalibrationSupport/RptSupport/__init__.py *)
  ("RptServicePoint", [("getServiceId", AGet "serviceId") (* 293 *);
    ("setServiceId", ASet "serviceId" true) (* 302 *);
    ("getSymbol", AGet "symbol") (* 317 *);
    ("setSymbol", ASet "symbol" true) (* 326 *)]);
  (* M2/AUTOSARTemplates/CommonStructure/MeasurementCalibrationSupport/RptSupport/__init__.py *)
  ("McFunctionDataRefSet", [("addFlatMapEntryRef", AAdd "flatMapEntryRefs" true) (* 368 *);
    ("getFlatMapEntryRefs", AGet "flatMapEntryRefs") (* 383 *);
    ("addMcDataInstanceRef", AAdd "mcDataInstanceRefs" true) (* 392 *);
    ("getMcDataInstanceRefs", AGet "mcDataInstanceRefs") (* 407 *)]);
  (* M2/AUTOSARTemplates/CommonStructure/MeasurementCalibrationSupport/RptSupport/__init__.py *)
  ("RptExecutableEntityEvent", [("addExecutionContextRef", AAdd "executionContextRefs" true) (* 472 *);
    ("getExecutionContextRefs", AGet "executionContextRefs") (* 487 *);
    ("addMcDataAssignment", AAdd "mcDataAssignments" true) (* 496 *);
    ("getMcDataAssignments", AGet "mcDataAssignments") (* 511 *);
    ("getRptEventId", AGet "rptEventId") (* 520 *);
    ("setRptEventId", ASet "rptEventId" true) (* 529 *);
    ("getRptExecutableEntityProperties", AGet "rptExecutableEntityProperties") (* 544 *);
    ("setRptExecutableEntityProperties", ASet "rptExecutableEntityProperties" true) (* 553 *);
    ("getRptImplPolicy", AGet "rptImplPolicy") (* 568 *);
    ("setRptImplPolicy", ASet "rptImplPolicy" true) (* 577 *);
    ("addRptServicePointPostRef", AAdd "rptServicePointPostRefs" true) (* 592 *);
    ("getRptServicePointPostRefs", AGet "rptServicePointPostRefs") (* 607 *);
    ("addRptServicePointPreRef", AAdd "rptServicePointPreRefs" true) (* 616 *);
    ("getRptServicePointPreRefs", AGet "rptServicePointPreRefs") (* 631 *)]);
  (* M2/AUTOSARTemplates/CommonStructure/MeasurementCalibrationSupport/RptSupport/__init__.py *)
  ("RptExecutableEntity", [("createRptExecutableEntityEvent", ANew "RptExecutableEntityEvent" true (PList "rptExecutableEntityEvents")) (* 681 *);
    ("getRptExecutableEntityEvents", AGet "rptExecutableEntityEvents") (* 699 *);
    ("addRptRead", AAdd "rptReads" true) (* 708 *);
    ("getRptReads", AGet "rptReads") (* 723 *);
    ("addRptWrite", AAdd "rptWrites" true) (* 732 *);
    ("getRptWrites", AGet "rptWrites") (* 747 *);
    ("getSymbol", AGet "symbol") (* 756 *);
    ("setSymbol", ASet "symbol" true) (* 765 *)]);
  (* M2/AUTOSARTemplates/CommonStructure/MeasurementCalibrationSupport/RptSupport/__init__.py *)
  ("RptComponent", [("addMcDataAssignment", AAdd "mcDataAssignments" true) (* 816 *);
    ("getMcDataAssignments", AGet "mcDataAssignments") (* 831 *);
    ("getRpImplPolicy", AGet "rpImplPolicy") (* 840 *);
    ("setRpImplPolicy", ASet "rpImplPolicy" true) (* 849 *);
    ("createRptExecutableEntity", ANew "RptExecutableEntity" true (PList "rptExecutableEntities")) (* 864 *);
    ("getRptExecutableEntities", AGet "rptExecutableEntities") (* 882 *)]);
  (* M2/AUTOSARTemplates/CommonStructure/MeasurementCalibrationSupport/RptSupport/__init__.py *)
  ("RptSupportData", [("createExecutionContext", ANew "RptExecutionContext" true (PList "executionContexts")) (* 923 *);
    ("getExecutionContexts", AGet "executionContexts") (* 941 *);
    ("createRptComponent", ANew "RptComponent" true (PList "rptComponents")) (* 950 *);
    ("getRptComponents", AGet "rptComponents") (* 968 *);
    ("createRptServicePoint", ANew "RptServicePoint" true (PList "rptServicePoints")) (* 977 *);
    ("getRptServicePoints", AGet "rptServicePoints") (* 995 *)]);
  (* M2/AUTOSARTemplates/CommonStructure/ResourceConsumption/HeapUsage.py *)
  ("HeapUsage", [("getHardwareConfiguration", AGet "hardwareConfiguration") (* 58 *);
    ("setHardwareConfiguration", ASet "hardwareConfiguration" true) (* 67 *);
    ("getHwElementRef", AGet "hwElementRef") (* 82 *);
    ("setHwElementRef", ASet "hwElementRef" true) (* 91 *);
    ("getSoftwareContext", AGet "softwareContext") (* 106 *);
    ("setSoftwareContext", ASet "softwareContext" true) (* 115 *)]);
  (* M2/AUTOSARTemplates/CommonStructure/ResourceConsumption/HeapUsage.py *)
  ("MeasuredHeapUsage", [("getAverageMemoryConsumption", AGet "averageMemoryConsumption") (* 171 *);
    ("setAverageMemoryConsumption", ASet "averageMemoryConsumption" true) (* 180 *);
    ("getMaximumMemoryConsumption", AGet "maximumMemoryConsumption") (* 195 *);
    ("setMaximumMemoryConsumption", ASet "maximumMemoryConsumption" true) (* 204 *);
    ("getMinimumMemoryConsumption", AGet "minimumMemoryConsumption") (* 219 *);
    ("setMinimumMemoryConsumption", ASet "minimumMemoryConsumption" true) (* 228 *);
    ("getTestPattern", AGet "testPattern") (* 243 *);
    ("setTestPattern", ASet "testPattern" true) (* 252 *)]);
  (* M2/AUTOSARTemplates/CommonStructure/ResourceConsumption/HeapUsage.py *)
  ("RoughEstimateHeapUsage", [("getMemoryConsumption", AGet "memoryConsumption") (* 293 *);
    ("setMemoryConsumption", ASet "memoryConsumption" true) (* 302 *)]);
  (* M2/AUTOSARTemplates/CommonStructure/ResourceConsumption/HeapUsage.py *)
  ("WorstCaseHeapUsage", [("getMemoryConsumption", AGet "memoryConsumption") (* 343 *);
    ("setMemoryConsumption", ASet "memoryConsumption" true) (* 352 *)]);
  (* M2/AUTOSARTemplates/CommonStructure/ResourceConsumption/MemorySectionUsage.py *)
  ("MemorySection", [("getAlignment", AGet "alignment") (* 91 *);
    ("setAlignment", ASet "alignment" true) (* 100 *);
    ("addExecutableEntityRef", AAdd "executableEntityRefs" true) (* 115 *);
    ("getExecutableEntityRefs", AGet "executableEntityRefs") (* 130 *);
    ("getMemClassSymbol", AGet "memClassSymbol") (* 141 *);
    ("setMemClassSymbol", ASet "memClassSymbol" true) (* 152 *);
    ("addOption", AAdd "options" true) (* 169 *);
    ("getOptions", AGet "options") (* 186 *);
    ("getPrefixRef", AGet "prefixRef") (* 197 *);
    ("setPrefixRef", ASet "prefixRef" true) (* 208 *);
    ("getSize", AGet "size") (* 225 *);
    ("setSize", ASet "size" true) (* 234 *);
    ("getSwAddrMethodRef", AGet "swAddrMethodRef") (* 249 *);
    ("setSwAddrMethodRef", ASet "swAddrMethodRef" true) (* 261 *);
    ("getSymbol", AGet "symbol") (* 279 *);
    ("setSymbol", ASet "symbol" true) (* 290 *)]);
  (* M2/AUTOSARTemplates/CommonStructure/ResourceConsumption/MemorySectionUsage.py *)
  ("SectionNamePrefix", [("getImplementedInRef", AGet "implementedInRef") (* 345 *);
    ("setImplementedInRef", ASet "implementedInRef" true) (* 357 *)]);
  (* M2/AUTOSARTemplates/CommonStructure/ResourceConsumption/StackUsage.py *)
  ("StackUsage", [("getExecutableEntityRef", AGet "executableEntityRef") (* 62 *);
    ("setExecutableEntityRef", ASet "executableEntityRef" true) (* 71 *);
    ("getHardwareConfiguration", AGet "hardwareConfiguration") (* 86 *);
    ("setHardwareConfiguration", ASet "hardwareConfiguration" true) (* 96 *);
    ("getHwElementRef", AGet "hwElementRef") (* 112 *);
    ("setHwElementRef", ASet "hwElementRef" true) (* 121 *);
    ("getSoftwareContext", AGet "softwareContext") (* 136 *);
    ("setSoftwareContext", ASet "softwareContext" true) (* 145 *)]);
  (* M2/AUTOSARTemplates/CommonStructure/ResourceConsumption/StackUsage.py *)
  ("MeasuredStackUsage", [("getAverageMemoryConsumption", AGet "averageMemoryConsumption") (* 201 *);
    ("setAverageMemoryConsumption", ASet "averageMemoryConsumption" true) (* 210 *);
    ("getMaximumMemoryConsumption", AGet "maximumMemoryConsumption") (* 225 *);
    ("setMaximumMemoryConsumption", ASet "maximumMemoryConsumption" true) (* 234 *);
    ("getMinimumMemoryConsumption", AGet "minimumMemoryConsumption") (* 249 *);
    ("setMinimumMemoryConsumption", ASet "minimumMemoryConsumption" true) (* 258 *);
    ("getTestPattern", AGet "testPattern") (* 273 *);
    ("setTestPattern", ASet "testPattern" true) (* 282 *)]);
  (* M2/AUTOSARTemplates/CommonStructure/ResourceConsumption/StackUsage.py *)
  ("RoughEstimateStackUsage", [("getMemoryConsumption", AGet "memoryConsumption") (* 323 *);
    ("setMemoryConsumption", ASet "memoryConsumption" true) (* 332 *)]);
  (* M2/AUTOSARTemplates/CommonStructure/ResourceConsumption/StackUsage.py *)
  ("WorstCaseStackUsage", [("getMemoryConsumption", AGet "memoryConsumption") (* 373 *);
    ("setMemoryConsumption", ASet "memoryConsumption" true) (* 382 *)]);
  (* M2/AUTOSARTemplates/CommonStructure/ResourceConsumption/__init__.py *)
  ("HardwareConfiguration", [("getAdditionalInformation", AGet "additionalInformation") (* 64 *);
    ("setAdditionalInformation", ASet "additionalInformation" true) (* 74 *);
    ("getProcessorMode", AGet "processorMode") (* 91 *);
    ("setProcessorMode", ASet "processorMode" true) (* 100 *);
    ("getProcessorSpeed", AGet "processorSpeed") (* 117 *);
    ("setProcessorSpeed", ASet "processorSpeed" true) (* 126 *)]);
  (* M2/AUTOSARTemplates/CommonStructure/ResourceConsumption/__init__.py *)
  ("SoftwareContext", [("getInput", AGet "input") (* 169 *);
    ("setInput", ASet "input" true) (* 178 *);
    ("getState", AGet "state") (* 193 *);
    ("setState", ASet "state" true) (* 202 *)]);
  (* M2/AUTOSARTemplates/CommonStructure/ResourceConsumption/__init__.py *)
  ("ResourceConsumption", [("addAccessCountSet", AAdd "accessCountSets" true) (* 277 *);
    ("getAccessCountSets", AGet "accessCountSets") (* 291 *);
    ("createAnalyzedExecutionTime", ANew "AnalyzedExecutionTime" true (PList "elements/AnalyzedExecutionTime+MeasuredExecutionTime+RoughEstimateOfExecutionTime+SimulatedExecutionTime")) (* 300 *);
    ("createMeasuredExecutionTime", ANew "MeasuredExecutionTime" true (PList "elements/AnalyzedExecutionTime+MeasuredExecutionTime+RoughEstimateOfExecutionTime+SimulatedExecutionTime")) (* 316 *);
    ("createRoughEstimateOfExecutionTime", ANew "RoughEstimateOfExecutionTime" true (PList "elements/AnalyzedExecutionTime+MeasuredExecutionTime+RoughEstimateOfExecutionTime+SimulatedExecutionTime")) (* 332 *);
    ("createSimulatedExecutionTime", ANew "SimulatedExecutionTime" true (PList "elements/AnalyzedExecutionTime+MeasuredExecutionTime+RoughEstimateOfExecutionTime+SimulatedExecutionTime")) (* 348 *);
    ("getExecutionTimes", AGetSorted "elements/AnalyzedExecutionTime+MeasuredExecutionTime+RoughEstimateOfExecutionTime+SimulatedExecutionTime") (* 364 *);
    ("createMeasuredHeapUsage", ANew "MeasuredHeapUsage" true (PList "elements/HeapUsage")) (* 375 *);
    ("createRoughEstimateHeapUsage", ANew "RoughEstimateHeapUsage" true (PList "elements/HeapUsage")) (* 391 *);
    ("createWorstCaseHeapUsage", ANew "WorstCaseHeapUsage" true (PList "elements/HeapUsage")) (* 407 *);
    ("getHeapUsages", AGetSorted "elements/HeapUsage") (* 423 *);
    ("createMemorySection", ANew "MemorySection" true (PList "elements/MemorySection")) (* 432 *);
    ("getMemorySections", AGetSorted "elements/MemorySection") (* 448 *);
    ("createSectionNamePrefix", ANew "SectionNamePrefix" true (PList "elements/SectionNamePrefix")) (* 469 *);
    ("getSectionNamePrefixes", AGetSorted "elements/SectionNamePrefix") (* 485 *);
    ("createMeasuredStackUsage", ANew "MeasuredStackUsage" true (PList "elements/StackUsage")) (* 494 *);
    ("createRoughEstimateStackUsage", ANew "RoughEstimateStackUsage" true (PList "elements/StackUsage")) (* 510 *);
    ("createWorstCaseStackUsage", ANew "WorstCaseStackUsage" true (PList "elements/StackUsage")) (* 526 *);
    ("getStackUsages", AGetSorted "elements/StackUsage") (* 542 *)]);
  (* M2/AUTOSARTemplates/CommonStructure/ResourceConsumption/ExecutionTime/__init__.py *)
  ("ExecutionTime", [("getExclusiveAreaRef", AGet "exclusiveAreaRef") (* 85 *);
    ("setExclusiveAreaRef", ASet "exclusiveAreaRef" true) (* 94 *);
    ("getExecutableEntityRef", AGet "executableEntityRef") (* 109 *);
    ("setExecutableEntityRef", ASet "executableEntityRef" true) (* 118 *);
    ("getHardwareConfiguration", AGet "hardwareConfiguration") (* 133 *);
    ("setHardwareConfiguration", ASet "hardwareConfiguration" true) (* 143 *);
    ("getHwElementRef", AGet "hwElementRef") (* 160 *);
    ("setHwElementRef", ASet "hwElementRef" true) (* 169 *);
    ("addIncludedLibraryRef", AAdd "includedLibraryRefs" true) (* 185 *);
    ("getIncludedLibraryRefs", AGet "includedLibraryRefs") (* 201 *);
    ("addMemorySectionLocation", AAdd "memorySectionLocations" true) (* 211 *);
    ("getMemorySectionLocations", AGet "memorySectionLocations") (* 225 *);
    ("getSoftwareContext", AGet "softwareContext") (* 234 *);
    ("setSoftwareContext", ASet "softwareContext" true) (* 244 *)]);
  (* M2/AUTOSARTemplates/CommonStructure/ResourceConsumption/ExecutionTime/__init__.py *)
  ("MemorySectionLocation", [("getProvidedMemoryRef", AGet "providedMemoryRef") (* 292 *);
    ("setProvidedMemoryRef", ASet "providedMemoryRef" true) (* 301 *);
    ("getSoftwareMemorySectionRef", AGet "softwareMemorySectionRef") (* 315 *);
    ("setSoftwareMemorySectionRef", ASet "softwareMemorySectionRef" true) (* 324 *)]);
  (* M2/AUTOSARTemplates/CommonStructure/ResourceConsumption/ExecutionTime/__init__.py *)
  ("AnalyzedExecutionTime", [("getBestCaseExecutionTime", AGet "bestCaseExecutionTime") (* 378 *);
    ("setBestCaseExecutionTime", ASet "bestCaseExecutionTime" true) (* 387 *);
    ("getWorstCaseExecutionTime", AGet "worstCaseExecutionTime") (* 401 *);
    ("setWorstCaseExecutionTime", ASet "worstCaseExecutionTime" true) (* 410 *)]);
  (* M2/AUTOSARTemplates/CommonStructure/ResourceConsumption/ExecutionTime/__init__.py *)
  ("MeasuredExecutionTime", [("getMaximumExecutionTime", AGet "maximumExecutionTime") (* 465 *);
    ("setMaximumExecutionTime", ASet "maximumExecutionTime" true) (* 474 *);
    ("getMinimumExecutionTime", AGet "minimumExecutionTime") (* 488 *);
    ("setMinimumExecutionTime", ASet "minimumExecutionTime" true) (* 497 *);
    ("getNominalExecutionTime", AGet "nominalExecutionTime") (* 511 *);
    ("setNominalExecutionTime", ASet "nominalExecutionTime" true) (* 520 *)]);
  (* M2/AUTOSARTemplates/CommonStructure/ResourceConsumption/ExecutionTime/__init__.py *)
  ("SimulatedExecutionTime", [("getMaximumExecutionTime", AGet "maximumExecutionTime") (* 575 *);
    ("setMaximumExecutionTime", ASet "maximumExecutionTime" true) (* 584 *);
    ("getMinimumExecutionTime", AGet "minimumExecutionTime") (* 598 *);
    ("setMinimumExecutionTime", ASet "minimumExecutionTime" true) (* 607 *);
    ("getNominalExecutionTime", AGet "nominalExecutionTime") (* 621 *);
    ("setNominalExecutionTime", ASet "nominalExecutionTime" true) (* 630 *)]);
  (* M2/AUTOSARTemplates/CommonStructure/ResourceConsumption/ExecutionTime/__init__.py *)
  ("RoughEstimateOfExecutionTime", [("getAdditionalInformation", AGet "additionalInformation") (* 678 *);
    ("setAdditionalInformation", ASet "additionalInformation" true) (* 687 *);
    ("getEstimatedExecutionTime", AGet "estimatedExecutionTime") (* 701 *);
    ("setEstimatedExecutionTime", ASet "estimatedExecutionTime" true) (* 710 *)]);
  (* M2/AUTOSARTemplates/CommonStructure/StandardizationTemplate/Keyword.py *)
  ("Keyword", [("getAbbrName", AGet "abbrName") (* 42 *);
    ("setAbbrName", ASet "abbrName" true) (* 51 *);
    ("getClassifications", AGet "classifications") (* 66 *);
    ("addClassification", AAdd "classifications" true) (* 75 *)]);
  (* M2/AUTOSARTemplates/CommonStructure/StandardizationTemplate/Keyword.py *)
  ("KeywordSet", [("getKeywords", AGet "keywords") (* 115 *);
    ("createKeyword", ANew "Keyword" true (PList "keywords")) (* 124 *)]);
  (* M2/AUTOSARTemplates/CommonStructure/StandardizationTemplate/BlueprintDedicated/PortPrototypeBlueprint.py *)
  ("PortPrototypeBlueprintInitValue", [("getValue", AGet "value") (* 65 *);
    ("setValue", ASet "value" true) (* 74 *)]);
  (* M2/AUTOSARTemplates/CommonStructure/StandardizationTemplate/BlueprintDedicated/PortPrototypeBlueprint.py *)
  ("PortPrototypeBlueprint", [("getInterfaceRef", AGet "interfaceRef") (* 138 *);
    ("setInterfaceRef", ASet "interfaceRef" true) (* 147 *);
    ("getProvidedComSpecs", AGet "providedComSpecs") (* 161 *);
    ("getRequiredComSpecs", AGet "requiredComSpecs") (* 184 *)]);
  (* M2/AUTOSARTemplates/CommonStructure/StandardizationTemplate/BlueprintGenerator/BlueprintGenerator.py *)
  ("BlueprintGenerator", [("getExpression", AGet "expression") (* 42 *);
    ("setExpression", ASet "expression" true) (* 48 *);
    ("getIntroduction", AGet "introduction") (* 57 *);
    ("setIntroduction", ASet "introduction" true) (* 64 *)]);
  (* M2/AUTOSARTemplates/CommonStructure/StandardizationTemplate/BlueprintMapping/BlueprintMappingSet.py *)
  ("BlueprintMappingSet", [("getMappings", AGet "mappings") (* 36 *)]);
  (* M2/AUTOSARTemplates/CommonStructure/Timing/TimingCondition/TimingCondition.py *)
  ("TimingCondition", [("getConditionFormula", AGet "conditionFormula") (* 26 *);
    ("setConditionFormula", ASet "conditionFormula" false) (* 35 *)]);
  (* M2/AUTOSARTemplates/CommonStructure/Timing/TimingCondition/TimingConditionFormula.py *)
  ("TimingConditionFormula", [("getExpression", AGet "expression") (* 22 *);
    ("setExpression", ASet "expression" false) (* 31 *)]);
  (* M2/AUTOSARTemplates/CommonStructure/Timing/TimingConstraint/EventTriggeringConstraint.py *)
  ("PeriodicEventTriggering", [("getPeriod", AGet "period") (* 67 *);
    ("setPeriod", ASet "period" false) (* 70 *)]);
  (* M2/AUTOSARTemplates/CommonStructure/Timing/TimingConstraint/ExecutionOrderConstraint.py *)
  ("EOCExecutableEntityRef", [("addSuccessorRef", AAdd "successor_refs" false) (* 54 *);
    ("getSuccessorRefs", AGet "successor_refs") (* 63 *)]);
  (* M2/AUTOSARTemplates/CommonStructure/Timing/TimingConstraint/ExecutionOrderConstraint.py *)
  ("ExecutionOrderConstraint", [("createEOCExecutableEntityRef", ANew "EOCExecutableEntityRef" true (PList "ordered_elements")) (* 90 *);
    ("getOrderedElements", AGet "ordered_elements") (* 106 *)]);
  (* M2/AUTOSARTemplates/CommonStructure/Timing/TimingConstraint/OffsetConstraint.py *)
  ("OffsetTimingConstraint", [("getOffset", AGet "offset") (* 41 *);
    ("setOffset", ASet "offset" false) (* 50 *)]);
  (* M2/AUTOSARTemplates/CommonStructure/Timing/TimingConstraint/TimingExtensions.py *)
  ("TimingExtension", [("createExecutionOrderConstraint", ANew "ExecutionOrderConstraint" true (PList "timing_requirements")) (* 43 *);
    ("getTimingRequirements", AGet "timing_requirements") (* 59 *)]);
  (* M2/AUTOSARTemplates/DiagnosticExtract/DiagnosticContribution.py *)
  ("DiagnosticServiceTable", [("getDiagnosticConnectionRefs", AGet "diagnosticConnectionRefs") (* 51 *);
    ("addDiagnosticConnectionRef", AAdd "diagnosticConnectionRefs" true) (* 60 *);
    ("getEcuInstanceRef", AGet "ecuInstanceRef") (* 99 *);
    ("setEcuInstanceRef", ASet "ecuInstanceRef" true) (* 108 *)]);
  (* M2/AUTOSARTemplates/EcuResourceTemplate/HwAttributeValue.py *)
  ("HwAttributeValue", [("getHwAttributeDefRef", AGet "hwAttributeDefRef") (* 35 *);
    ("setHwAttributeDefRef", ASet "hwAttributeDefRef" true) (* 44 *);
    ("getValue", AGet "value") (* 59 *);
    ("setValue", ASet "value" true) (* 68 *)]);
  (* M2/AUTOSARTemplates/EcuResourceTemplate/HwAttributeValue.py *)
  ("HwAttributeLiteralDef", [("getValue", AGet "value") (* 107 *);
    ("setValue", ASet "value" true) (* 116 *)]);
  (* M2/AUTOSARTemplates/EcuResourceTemplate/HwElementCategory.py *)
  ("HwAttributeDef", [("getHwAttributeLiterals", AGet "hwAttributeLiterals") (* 76 *);
    ("createHwAttributeLiteral", ANew "HwAttributeLiteralDef" true (PList "hwAttributeLiterals")) (* 86 *);
    ("getIsRequired", AGet "isRequired") (* 100 *);
    ("setIsRequired", ASet "isRequired" true) (* 104 *);
    ("getUnitRef", AGet "unitRef") (* 110 *);
    ("setUnitRef", ASet "unitRef" true) (* 114 *)]);
  (* M2/AUTOSARTemplates/EcuResourceTemplate/HwElementCategory.py *)
  ("HwCategory", [("getHwAttributeDefs", AGet "hwAttributeDefs") (* 145 *);
    ("createHwAttributeDef", ANew "HwAttributeDef" true (PList "hwAttributeDefs")) (* 154 *)]);
  (* M2/AUTOSARTemplates/EcuResourceTemplate/__init__.py *)
  ("HwDescriptionEntity", [("addHwAttributeValue", AAdd "hwAttributeValues" true) (* 47 *);
    ("getHwAttributeValues", AGet "hwAttributeValues") (* 60 *);
    ("addHwCategoryRef", AAdd "hwCategoryRefs" true) (* 69 *);
    ("getHwCategoryRefs", AGet "hwCategoryRefs") (* 82 *);
    ("getHwTypeRef", AGet "hwTypeRef") (* 91 *);
    ("setHwTypeRef", ASet "hwTypeRef" true) (* 100 *)]);
  (* M2/AUTOSARTemplates/EcuResourceTemplate/__init__.py *)
  ("HwPin", [("addFunctionName", AAdd "functionNames" false) (* 151 *);
    ("getFunctionNames", AGet "functionNames") (* 157 *);
    ("getPackagingPinName", AGet "packagingPinName") (* 167 *);
    ("setPackagingPinName", ASet "packagingPinName" true) (* 171 *);
    ("getPinNumber", AGet "pinNumber") (* 177 *);
    ("setPinNumber", ASet "pinNumber" true) (* 181 *)]);
  (* M2/AUTOSARTemplates/EcuResourceTemplate/__init__.py *)
  ("HwPinConnector", [("addHwPinRef", AAdd "hwPinRefs" true) (* 339 *);
    ("getHwPinRefs", AGet "hwPinRefs") (* 352 *)]);
  (* M2/AUTOSARTemplates/EcuResourceTemplate/__init__.py *)
  ("HwPinGroupConnector", [("addHwPinConnection", AAdd "hwPinConnections" true) (* 388 *);
    ("getHwPinConnections", AGet "hwPinConnections") (* 401 *);
    ("addHwPinGroupRef", AAdd "hwPinGroupRefs" true) (* 410 *);
    ("getHwPinGroupRefs", AGet "hwPinGroupRefs") (* 423 *)]);
  (* M2/AUTOSARTemplates/EcuResourceTemplate/__init__.py *)
  ("HwElementConnector", [("addHwElementRef", AAdd "hwElementRefs" true) (* 464 *);
    ("getHwElementRefs", AGet "hwElementRefs") (* 477 *);
    ("addHwPinConnection", AAdd "hwPinConnections" true) (* 486 *);
    ("getHwPinConnections", AGet "hwPinConnections") (* 499 *);
    ("addHwPinGroupConnection", AAdd "hwPinGroupConnections" true) (* 508 *);
    ("getHwPinGroupConnections", AGet "hwPinGroupConnections") (* 521 *)]);
  (* M2/AUTOSARTemplates/EcuResourceTemplate/__init__.py *)
  ("HwElement", [("getHwElementConnections", AGet "hwElementConnections") (* 561 *);
    ("addHwElementConnection", AAdd "hwElementConnections" true) (* 570 *);
    ("getHwPinGroups", AGet "hwPinGroups") (* 583 *);
    ("createHwPinGroup", ANew "HwPinGroup" true (PList "hwPinGroups")) (* 592 *);
    ("getNestedElementRefs", AGet "nestedElementRefs") (* 607 *);
    ("addNestedElementRef", AAdd "nestedElementRefs" true) (* 616 *)]);
  (* M2/AUTOSARTemplates/GenericStructure/LifeCycles.py *)
  ("LifeCyclePeriod", [("getArReleaseVersion", AGet "arReleaseVersion") (* 37 *);
    ("setArReleaseVersion", ASet "arReleaseVersion" true) (* 46 *);
    ("getDate", AGet "date") (* 61 *);
    ("setDate", ASet "date" true) (* 70 *)]);
  (* M2/AUTOSARTemplates/GenericStructure/LifeCycles.py *)
  ("LifeCycleInfo", [("getLcObjectRef", AGet "lcObjectRef") (* 141 *);
    ("setLcObjectRef", ASet "lcObjectRef" true) (* 150 *);
    ("getLcStateRef", AGet "lcStateRef") (* 165 *);
    ("setLcStateRef", ASet "lcStateRef" true) (* 174 *);
    ("getPeriodBegin", AGet "periodBegin") (* 189 *);
    ("setPeriodBegin", ASet "periodBegin" true) (* 198 *);
    ("getRemark", AGet "remark") (* 237 *);
    ("setRemark", ASet "remark" true) (* 246 *);
    ("getUseInsteadRefs", AGet "useInsteadRefs") (* 261 *);
    ("addUseInsteadRef", AAdd "useInsteadRefs" true) (* 270 *)]);
  (* M2/AUTOSARTemplates/GenericStructure/LifeCycles.py *)
  ("LifeCycleInfoSet", [("getDefaultLcStateRef", AGet "defaultLcStateRef") (* 314 *);
    ("setDefaultLcStateRef", ASet "defaultLcStateRef" true) (* 323 *);
    ("getLifeCycleInfos", AGet "lifeCycleInfos") (* 386 *);
    ("addLifeCycleInfo", AAdd "lifeCycleInfos" true) (* 395 *);
    ("getUsedLifeCycleStateDefinitionGroupRef", AGet "usedLifeCycleStateDefinitionGroupRef") (* 410 *);
    ("setUsedLifeCycleStateDefinitionGroupRef", ASet "usedLifeCycleStateDefinitionGroupRef" true) (* 419 *)]);
  (* M2/AUTOSARTemplates/GenericStructure/DocumentationOnM1/__init__.py *)
  ("Documentation", [("addContext", AAdd "contexts" true) (* 36 *);
    ("getContexts", AGet "contexts") (* 49 *);
    ("setDocumentationContent", ASet "documentationContent" true) (* 58 *);
    ("getDocumentationContent", AGet "documentationContent") (* 71 *)]);
  (* M2/AUTOSARTemplates/GenericStructure/DocumentationOnM1/__init__.py *)
  ("DocumentationContext", [("setFeatureIRef", ASet "featureIRef" true) (* 105 *);
    ("getFeatureIRef", AGet "featureIRef") (* 118 *);
    ("setIdentifiableRef", ASet "identifiableRef" true) (* 127 *);
    ("getIdentifiableRef", AGet "identifiableRef") (* 140 *)]);
  (* M2/AUTOSARTemplates/GenericStructure/GeneralTemplateClasses/ARPackage.py *)
  ("ReferenceBase", [("getIsDefault", AGet "isDefault") (* 188 *);
    ("setIsDefault", ASet "isDefault" false) (* 197 *);
    ("setIsGlobal", ASet "isGlobal" false) (* 219 *);
    ("getBaseIsThisPackage", AGet "BaseIsThisPackage") (* 232 *);
    ("setBaseIsThisPackage", ASet "BaseIsThisPackage" false) (* 241 *);
    ("getPackageRef", AGet "packageRef") (* 254 *);
    ("setPackageRef", ASet "packageRef" false) (* 263 *);
    ("getShortLabel", AGet "shortLabel") (* 276 *);
    ("setShortLabel", ASet "shortLabel" false) (* 285 *)]);
  (* M2/AUTOSARTemplates/GenericStructure/GeneralTemplateClasses/ARPackage.py *)
  ("ARPackage", [("getShortName", AGet "short_name") (* 527 *);
    ("setLongName", ASet "longName" false) (* 570 *);
    ("getAdminData", AGet "adminData") (* 583 *);
    ("setAdminData", ASet "adminData" true) (* 592 *);
    ("getDesc", AGet "desc") (* 613 *);
    ("setDesc", ASet "desc" false) (* 622 *);
    ("getCategory", AGet "category") (* 635 *);
    ("setCategory", ASet "category" false) (* 644 *);
    ("getIntroduction", AGet "introduction") (* 661 *);
    ("setIntroduction", ASet "introduction" false) (* 670 *);
    ("addAnnotation", AAdd "annotations" false) (* 683 *);
    ("getAnnotations", AGet "annotations") (* 696 *);
    ("getARPackages", AGetSorted "arPackages") (* 705 *);
    ("createARPackage", ANew "ARPackage" true (PList "arPackages")) (* 716 *);
    ("createEcuAbstractionSwComponentType", ANew "EcuAbstractionSwComponentType" true (PList "elements")) (* 749 *);
    ("createApplicationSwComponentType", ANew "ApplicationSwComponentType" true (PList "elements")) (* 755 *);
    ("createComplexDeviceDriverSwComponentType", ANew "ComplexDeviceDriverSwComponentType" true (PList "elements")) (* 775 *);
    ("createServiceSwComponentType", ANew "ServiceSwComponentType" true (PList "elements")) (* 781 *);
    ("createSensorActuatorSwComponentType", ANew "SensorActuatorSwComponentType" true (PList "elements")) (* 787 *);
    ("createNvBlockSwComponentType", ANew "NvBlockSwComponentType" true (PList "elements")) (* 793 *);
    ("createServiceProxySwComponentType", ANew "ServiceProxySwComponentType" true (PList "elements")) (* 799 *);
    ("createCompositionSwComponentType", ANew "CompositionSwComponentType" true (PList "elements")) (* 805 *);
    ("createSenderReceiverInterface", ANew "SenderReceiverInterface" true (PList "elements")) (* 811 *);
    ("createParameterInterface", ANew "ParameterInterface" true (PList "elements")) (* 831 *);
    ("createNvDataInterface", ANew "NvDataInterface" true (PList "elements")) (* 837 *);
    ("createGenericEthernetFrame", ANew "GenericEthernetFrame" true (PList "elements")) (* 843 *);
    ("createLifeCycleInfoSet", ANew "LifeCycleInfoSet" true (PList "elements")) (* 849 *);
    ("createDocumentation", ANew "Documentation" true (PList "elements")) (* 855 *);
    ("createClientServerInterface", ANew "ClientServerInterface" true (PList "elements")) (* 861 *);
    ("createApplicationPrimitiveDataType", ANew "ApplicationPrimitiveDataType" true (PList "elements")) (* 867 *);
    ("createApplicationRecordDataType", ANew "ApplicationRecordDataType" true (PList "elements")) (* 873 *);
    ("createImplementationDataType", ANew "ImplementationDataType" true (PList "elements")) (* 879 *);
    ("createSwBaseType", ANew "SwBaseType" true (PList "elements")) (* 899 *);
    ("createDataTypeMappingSet", ANew "DataTypeMappingSet" true (PList "elements")) (* 905 *);
    ("createCompuMethod", ANew "CompuMethod" true (PList "elements")) (* 911 *);
    ("createBswModuleDescription", ANew "BswModuleDescription" true (PList "elements")) (* 917 *);
    ("createBswModuleEntry", ANew "BswModuleEntry" true (PList "elements")) (* 937 *);
    ("createBswImplementation", ANew "BswImplementation" true (PList "elements")) (* 943 *);
    ("createSwcImplementation", ANew "SwcImplementation" true (PList "elements")) (* 949 *);
    ("createSwcBswMapping", ANew "SwcBswMapping" true (PList "elements")) (* 955 *);
    ("createMcFunction", ANew "McFunction" true (PList "elements")) (* 961 *);
    ("createMcGroup", ANew "McGroup" true (PList "elements")) (* 977 *);
    ("createConstantSpecification", ANew "ConstantSpecification" true (PList "elements")) (* 993 *);
    ("createDataConstr", ANew "DataConstr" true (PList "elements")) (* 999 *);
    ("createUnit", ANew "Unit" true (PList "elements")) (* 1005 *);
    ("createEndToEndProtectionSet", ANew "EndToEndProtectionSet" true (PList "elements")) (* 1011 *);
    ("createApplicationArrayDataType", ANew "ApplicationArrayDataType" true (PList "elements")) (* 1017 *);
    ("createSwRecordLayout", ANew "SwRecordLayout" true (PList "elements")) (* 1023 *);
    ("createSwAddrMethod", ANew "SwAddrMethod" true (PList "elements")) (* 1029 *);
    ("createTriggerInterface", ANew "TriggerInterface" true (PList "elements")) (* 1035 *);
    ("createDataPrototypeGroup", ANew "DataPrototypeGroup" true (PList "elements")) (* 1041 *);
    ("createRunnableEntityGroup", ANew "RunnableEntityGroup" true (PList "elements")) (* 1047 *);
    ("createConsistencyNeeds", ANew "ConsistencyNeeds" true (PList "elements")) (* 1053 *);
    ("createModeDeclarationGroup", ANew "ModeDeclarationGroup" true (PList "elements")) (* 1059 *);
    ("createModeSwitchInterface", ANew "ModeSwitchInterface" true (PList "elements")) (* 1065 *);
    ("createSwcTiming", ANew "SwcTiming" true (PList "elements")) (* 1071 *);
    ("createLinCluster", ANew "LinCluster" true (PList "elements")) (* 1077 *);
    ("createCanCluster", ANew "CanCluster" true (PList "elements")) (* 1083 *);
    ("createLinUnconditionalFrame", ANew "LinUnconditionalFrame" true (PList "elements")) (* 1089 *);
    ("createNmPdu", ANew "NmPdu" true (PList "elements")) (* 1095 *);
    ("createNPdu", ANew "NPdu" true (PList "elements")) (* 1101 *);
    ("createDcmIPdu", ANew "DcmIPdu" true (PList "elements")) (* 1107 *);
    ("createSecuredIPdu", ANew "SecuredIPdu" true (PList "elements")) (* 1113 *);
    ("createNmConfig", ANew "NmConfig" true (PList "elements")) (* 1119 *);
    ("createCanTpConfig", ANew "CanTpConfig" true (PList "elements")) (* 1125 *);
    ("createLinTpConfig", ANew "LinTpConfig" true (PList "elements")) (* 1131 *);
    ("createCanFrame", ANew "CanFrame" true (PList "elements")) (* 1137 *);
    ("createEcuInstance", ANew "EcuInstance" true (PList "elements")) (* 1156 *);
    ("createGateway", ANew "Gateway" true (PList "elements")) (* 1176 *);
    ("createISignal", ANew "ISignal" true (PList "elements")) (* 1182 *);
    ("createSystemSignal", ANew "SystemSignal" true (PList "elements")) (* 1188 *);
    ("createSystemSignalGroup", ANew "SystemSignalGroup" true (PList "elements")) (* 1208 *);
    ("createSignalServiceTranslationPropsSet", ANew "SignalServiceTranslationPropsSet" true (PList "elements")) (* 1214 *);
    ("createISignalIPdu", ANew "ISignalIPdu" true (PList "elements")) (* 1220 *);
    ("createEcucValueCollection", ANew "EcucValueCollection" true (PList "elements")) (* 1226 *);
    ("createEcucModuleConfigurationValues", ANew "EcucModuleConfigurationValues" true (PList "elements")) (* 1232 *);
    ("createEcucModuleDef", ANew "EcucModuleDef" true (PList "elements")) (* 1238 *);
    ("createEcucDefinitionCollection", ANew "EcucDefinitionCollection" true (PList "elements")) (* 1244 *);
    ("createEcucDestinationUriDefSet", ANew "EcucDestinationUriDefSet" true (PList "elements")) (* 1250 *);
    ("createSwSystemConst", ANew "SwSystemconst" true (PList "elements")) (* 1256 *);
    ("createSwSystemconstantValueSet", ANew "SwSystemconstantValueSet" true (PList "elements")) (* 1262 *);
    ("createPredefinedVariant", ANew "PredefinedVariant" true (PList "elements")) (* 1268 *);
    ("createPostBuildVariantCriterion", ANew "PostBuildVariantCriterion" true (PList "elements")) (* 1274 *);
    ("createPhysicalDimension", ANew "PhysicalDimension" true (PList "elements")) (* 1280 *);
    ("createISignalGroup", ANew "ISignalGroup" true (PList "elements")) (* 1286 *);
    ("createISignalIPduGroup", ANew "ISignalIPduGroup" true (PList "elements")) (* 1292 *);
    ("createSystem", ANew "System" true (PList "elements")) (* 1298 *);
    ("createFlatMap", ANew "FlatMap" true (PList "elements")) (* 1304 *);
    ("createPortInterfaceMappingSet", ANew "PortInterfaceMappingSet" true (PList "elements")) (* 1310 *);
    ("createEthernetCluster", ANew "EthernetCluster" true (PList "elements")) (* 1316 *);
    ("createDiagnosticConnection", ANew "DiagnosticConnection" true (PList "elements")) (* 1322 *);
    ("createDiagnosticServiceTable", ANew "DiagnosticServiceTable" true (PList "elements")) (* 1328 *);
    ("createMultiplexedIPdu", ANew "MultiplexedIPdu" true (PList "elements")) (* 1348 *);
    ("createUserDefinedIPdu", ANew "UserDefinedIPdu" true (PList "elements")) (* 1354 *);
    ("createUserDefinedPdu", ANew "UserDefinedPdu" true (PList "elements")) (* 1360 *);
    ("createGeneralPurposeIPdu", ANew "GeneralPurposeIPdu" true (PList "elements")) (* 1366 *);
    ("createGeneralPurposePdu", ANew "GeneralPurposePdu" true (PList "elements")) (* 1372 *);
    ("createSecureCommunicationPropsSet", ANew "SecureCommunicationPropsSet" true (PList "elements")) (* 1378 *);
    ("createSoAdRoutingGroup", ANew "SoAdRoutingGroup" true (PList "elements")) (* 1384 *);
    ("createDoIpTpConfig", ANew "DoIpTpConfig" true (PList "elements")) (* 1390 *);
    ("createHwElement", ANew "HwElement" true (PList "elements")) (* 1396 *);
    ("createHwCategory", ANew "HwCategory" true (PList "elements")) (* 1402 *);
    ("createHwType", ANew "HwType" true (PList "elements")) (* 1408 *);
    ("createFlexrayFrame", ANew "FlexrayFrame" true (PList "elements")) (* 1414 *);
    ("createFlexrayCluster", ANew "FlexrayCluster" true (PList "elements")) (* 1420 *);
    ("createDataTransformationSet", ANew "DataTransformationSet" true (PList "elements")) (* 1426 *);
    ("createE2EProfileCompatibilityProps", ANew "E2EProfileCompatibilityProps" true (PList "elements")) (* 1432 *);
    ("createCollection", ANew "Collection" true (PList "elements")) (* 1438 *);
    ("createKeywordSet", ANew "KeywordSet" true (PList "elements")) (* 1444 *);
    ("createPortPrototypeBlueprint", ANew "PortPrototypeBlueprint" true (PList "elements")) (* 1450 *);
    ("createModeDeclarationMappingSet", ANew "ModeDeclarationMappingSet" true (PList "elements")) (* 1456 *);
    ("getApplicationDataType", AGetSorted "elements/ApplicationDataType") (* 1465 *);
    ("getCompositionSwComponentTypes", AGet "elements/CompositionSwComponentType") (* 1483 *);
    ("getReferenceBases", AGet "referenceBases") (* 1685 *);
    ("addReferenceBase", AAdd "referenceBases" false) (* 1688 *)]);
  (* M2/AUTOSARTemplates/GenericStructure/GeneralTemplateClasses/AnyInstanceRef.py *)
  ("AnyInstanceRef", [("getBaseRef", AGet "baseRef") (* 33 *);
    ("setBaseRef", ASet "baseRef" false) (* 42 *);
    ("getContextElementRefs", AGet "contextElementRefs") (* 55 *);
    ("addContextElementRef", AAdd "contextElementRefs" false) (* 64 *);
    ("getTargetRef", AGet "targetRef") (* 77 *);
    ("setTargetRef", ASet "targetRef" false) (* 86 *)]);
  (* M2/AUTOSARTemplates/GenericStructure/GeneralTemplateClasses/ElementCollection.py *)
  ("Collection", [("getAutoCollect", AGet "autoCollect") (* 48 *);
    ("setAutoCollect", ASet "autoCollect" true) (* 57 *);
    ("getCollectionSemantics", AGet "collectionSemantics") (* 96 *);
    ("setCollectionSemantics", ASet "collectionSemantics" true) (* 105 *);
    ("getElementRefs", AGet "elementRefs") (* 120 *);
    ("addElementRef", AAdd "elementRefs" true) (* 129 *);
    ("getElementRole", AGet "elementRole") (* 144 *);
    ("setElementRole", ASet "elementRole" true) (* 153 *);
    ("getSourceElementRefs", AGet "sourceElementRefs") (* 168 *);
    ("addSourceElementRef", AAdd "sourceElementRefs" true) (* 177 *)]);
  (* M2/AUTOSARTemplates/GenericStructure/GeneralTemplateClasses/EngineeringObject.py *)
  ("EngineeringObject", [("getCategory", AGet "category") (* 59 *);
    ("setCategory", ASet "category" true) (* 70 *);
    ("getDomain", AGet "domain") (* 88 *);
    ("setDomain", ASet "domain" true) (* 101 *);
    ("addRevisionLabel", AAdd "revisionLabels" true) (* 121 *);
    ("getRevisionLabels", AGet "revisionLabels") (* 137 *);
    ("getShortLabel", AGet "shortLabel") (* 146 *);
    ("setShortLabel", ASet "shortLabel" true) (* 156 *)]);
  (* M2/AUTOSARTemplates/GenericStructure/GeneralTemplateClasses/Identifiable.py *)
  ("Referrable", [("getShortName", AGet "short_name") (* 57 *);
    ("addShortNameFragment", AAdd "shortNameFragments" true) (* 91 *);
    ("getShortNameFragments", AGet "shortNameFragments") (* 106 *)]);
  (* M2/AUTOSARTemplates/GenericStructure/GeneralTemplateClasses/Identifiable.py *)
  ("ShortNameFragment", [("getRole", AGet "role") (* 137 *);
    ("setRole", ASet "role" true) (* 146 *);
    ("getFragment", AGet "fragment") (* 161 *);
    ("setFragment", ASet "fragment" true) (* 170 *)]);
  (* M2/AUTOSARTemplates/GenericStructure/GeneralTemplateClasses/Identifiable.py *)
  ("MultilanguageReferrable", [("setLongName", ASet "longName" false) (* 215 *)]);
  (* M2/AUTOSARTemplates/GenericStructure/GeneralTemplateClasses/Identifiable.py *)
  ("CollectableElement", [("getElements", AGet "elements") (* 281 *)]);
  (* M2/AUTOSARTemplates/GenericStructure/GeneralTemplateClasses/Identifiable.py *)
  ("Identifiable", [("getElements", AGet "elements") (* 421 *);
    ("getAdminData", AGet "adminData") (* 484 *);
    ("setAdminData", ASet "adminData" true) (* 493 *);
    ("getDesc", AGet "desc") (* 514 *);
    ("setDesc", ASet "desc" false) (* 523 *);
    ("getVariationPoint", AGet "variationPoint") (* 536 *);
    ("setVariationPoint", ASet "variationPoint" true) (* 542 *);
    ("getCategory", AGet "category") (* 551 *);
    ("setCategory", ASet "category" false) (* 560 *);
    ("getIntroduction", AGet "introduction") (* 577 *);
    ("setIntroduction", ASet "introduction" false) (* 586 *);
    ("addAnnotation", AAdd "annotations" false) (* 599 *);
    ("getAnnotations", AGet "annotations") (* 612 *)]);
  (* M2/AUTOSARTemplates/GenericStructure/GeneralTemplateClasses/Identifiable.py *)
  ("Describable", [("getAdminData", AGet "adminData") (* 692 *);
    ("setAdminData", ASet "adminData" true) (* 698 *);
    ("getCategory", AGet "category") (* 718 *);
    ("setCategory", ASet "category" true) (* 724 *);
    ("getDesc", AGet "desc") (* 738 *);
    ("setDesc", ASet "desc" true) (* 744 *);
    ("getIntroduction", AGet "introduction") (* 758 *);
    ("setIntroduction", ASet "introduction" true) (* 764 *)]);
  (* M2/AUTOSARTemplates/GenericStructure/GeneralTemplateClasses/MultidimensionalTime.py *)
  ("MultidimensionalTime", [("getCseCode", AGet "cseCode") (* 45 *);
    ("setCseCode", ASet "cseCode" true) (* 56 *);
    ("getCseCodeFactor", AGet "cseCodeFactor") (* 72 *);
    ("setCseCodeFactor", ASet "cseCodeFactor" true) (* 83 *)]);
  (* M2/AUTOSARTemplates/GenericStructure/GeneralTemplateClasses/PrimitiveTypes.py *)
  ("ARType", [("getValue", AGet "value") (* 40 *);
    ("setValue", ASet "value" true) (* 49 *)]);
  (* M2/AUTOSARTemplates/GenericStructure/GeneralTemplateClasses/PrimitiveTypes.py *)
  ("ARNumerical", [("getValue", AGet "value") (* 149 *);
    ("setShortLabel", ASet "shortLabel" true) (* 158 *);
    ("getShortLabel", AGet "shortLabel") (* 173 *)]);
  (* M2/AUTOSARTemplates/GenericStructure/GeneralTemplateClasses/PrimitiveTypes.py *)
  ("Identifier", [("getBlueprintValue", AGet "blueprintValue") (* 778 *);
    ("setBlueprintValue", ASet "blueprintValue" true) (* 787 *)]);
  (* M2/AUTOSARTemplates/GenericStructure/GeneralTemplateClasses/PrimitiveTypes.py *)
  ("CIdentifier", [("getBlueprintValue", AGet "blueprintValue") (* 846 *);
    ("setBlueprintValue", ASet "blueprintValue" false) (* 855 *)]);
  (* M2/AUTOSARTemplates/GenericStructure/GeneralTemplateClasses/PrimitiveTypes.py *)
  ("Limit", [("getIntervalType", AGet "intervalType") (* 964 *);
    ("setIntervalType", ASet "intervalType" true) (* 973 *);
    ("getValue", AGet "value") (* 986 *);
    ("setValue", ASet "value" true) (* 995 *)]);
  (* M2/AUTOSARTemplates/GenericStructure/GeneralTemplateClasses/PrimitiveTypes.py *)
  ("RefType", [("getBase", AGet "base") (* 1032 *);
    ("setBase", ASet "base" false) (* 1041 *);
    ("getDest", AGet "dest") (* 1054 *);
    ("setDest", ASet "dest" false) (* 1063 *);
    ("getValue", AGet "value") (* 1076 *);
    ("setValue", ASet "value" false) (* 1085 *)]);
  (* M2/AUTOSARTemplates/GenericStructure/VariantHandling/__init__.py *)
  ("PostBuildVariantCriterion", [("getCompuMethodRef", AGet "compuMethodRef") (* 47 *);
    ("setCompuMethodRef", ASet "compuMethodRef" true) (* 54 *)]);
  (* M2/AUTOSARTemplates/GenericStructure/VariantHandling/__init__.py *)
  ("PostBuildVariantCriterionValue", [("getAnnotations", AGet "annotations") (* 107 *);
    ("addAnnotation", AAdd "annotations" true) (* 113 *);
    ("getValue", AGet "value") (* 122 *);
    ("setValue", ASet "value" true) (* 128 *)]);
  (* M2/AUTOSARTemplates/GenericStructure/VariantHandling/__init__.py *)
  ("PredefinedVariant", [("getIncludedVariantRefs", AGet "includedVariantRefs") (* 184 *);
    ("addIncludedVariantRef", AAdd "includedVariantRefs" true) (* 187 *);
    ("getPostBuildVariantCriterionValueSetRefs", AGet "postBuildVariantCriterionValueSetRefs") (* 192 *);
    ("addPostBuildVariantCriterionValueSetRef", AAdd "postBuildVariantCriterionValueSetRefs" true) (* 195 *);
    ("getSwSystemconstantValueSetRefs", AGet "swSystemconstantValueSetRefs") (* 200 *);
    ("addSwSystemconstantValueSetRef", AAdd "swSystemconstantValueSetRefs" true) (* 203 *)]);
  (* M2/AUTOSARTemplates/GenericStructure/VariantHandling/__init__.py *)
  ("SwSystemconstValue", [("getAnnotations", AGet "annotations") (* 250 *);
    ("addAnnotation", AAdd "annotations" true) (* 253 *);
    ("getSwSystemconstRef", AGet "swSystemconstRef") (* 258 *);
    ("setSwSystemconstRef", ASet "swSystemconstRef" true) (* 261 *);
    ("getValue", AGet "value") (* 266 *);
    ("setValue", ASet "value" true) (* 269 *)]);
  (* M2/AUTOSARTemplates/GenericStructure/VariantHandling/__init__.py *)
  ("SwSystemconstantValueSet", [("addSwSystemconstantValue", AAdd "swSystemconstantValues" true) (* 291 *);
    ("getSwSystemconstantValues", AGet "swSystemconstantValues") (* 302 *)]);
  (* M2/AUTOSARTemplates/GenericStructure/VariantHandling/__init__.py *)
  ("PostBuildVariantCondition", [("getMatchingCriterionRef", AGet "matchingCriterionRef") (* 351 *);
    ("setMatchingCriterionRef", ASet "matchingCriterionRef" true) (* 358 *);
    ("getValue", AGet "value") (* 368 *);
    ("setValue", ASet "value" true) (* 374 *)]);
  (* M2/AUTOSARTemplates/GenericStructure/VariantHandling/__init__.py *)
  ("ConditionByFormula", [("getBindingTime", AGet "bindingTime") (* 415 *);
    ("setBindingTime", ASet "bindingTime" true) (* 423 *)]);
  (* M2/AUTOSARTemplates/GenericStructure/VariantHandling/__init__.py *)
  ("VariationPoint", [("getBlueprintCondition", AGet "blueprintCondition") (* 517 *);
    ("setBlueprintCondition", ASet "blueprintCondition" true) (* 525 *);
    ("getDesc", AGet "desc") (* 536 *);
    ("setDesc", ASet "desc" true) (* 542 *);
    ("getFormalBlueprintGenerator", AGet "formalBlueprintGenerator") (* 551 *);
    ("setFormalBlueprintGenerator", ASet "formalBlueprintGenerator" true) (* 559 *);
    ("getPostBuildVariantConditions", AGet "postBuildVariantConditions") (* 570 *);
    ("addPostBuildVariantCondition", AAdd "postBuildVariantConditions" true) (* 577 *);
    ("getSdg", AGet "sdg") (* 587 *);
    ("setSdg", ASet "sdg" true) (* 596 *);
    ("getShortLabel", AGet "shortLabel") (* 608 *);
    ("setShortLabel", ASet "shortLabel" true) (* 617 *);
    ("getSwSyscond", AGet "swSyscond") (* 629 *);
    ("setSwSyscond", ASet "swSyscond" true) (* 636 *)]);
  (* M2/AUTOSARTemplates/GenericStructure/VariantHandling/AttributeValueVariationPoints/__init__.py *)
  ("AttributeValueVariationPoint", [("getBindingTime", AGet "bindingTime") (* 66 *);
    ("setBindingTime", ASet "bindingTime" true) (* 72 *);
    ("getBlueprintValue", AGet "blueprintValue") (* 80 *);
    ("setBlueprintValue", ASet "blueprintValue" true) (* 86 *);
    ("getSd", AGet "sd") (* 94 *);
    ("setSd", ASet "sd" true) (* 100 *);
    ("getShortLabel", AGet "shortLabel") (* 108 *);
    ("setShortLabel", ASet "shortLabel" true) (* 114 *);
    ("getText", AGet "_text") (* 122 *);
    ("setText", ASet "_text" true) (* 126 *)]);
  (* M2/AUTOSARTemplates/GenericStructure/VariantHandling/AttributeValueVariationPoints/__init__.py *)
  ("LimitValueVariationPoint", [("getIntervalType", AGet "intervalType") (* 197 *);
    ("setIntervalType", ASet "intervalType" true) (* 201 *)]);
  (* M2/AUTOSARTemplates/SWComponentTemplate/Communication.py *)
  ("ReceptionComSpecProps", [("getDataUpdatePeriod", AGet "dataUpdatePeriod") (* 99 *);
    ("setDataUpdatePeriod", ASet "dataUpdatePeriod" true) (* 110 *);
    ("getTimeout", AGet "timeout") (* 127 *);
    ("setTimeout", ASet "timeout" true) (* 138 *)]);
  (* M2/AUTOSARTemplates/SWComponentTemplate/Communication.py *)
  ("CompositeNetworkRepresentation", [("getLeafElementIRef", AGet "leafElementIRef") (* 179 *);
    ("setLeafElementIRef", ASet "leafElementIRef" true) (* 190 *);
    ("getNetworkRepresentation", AGet "networkRepresentation") (* 207 *);
    ("setNetworkRepresentation", ASet "networkRepresentation" false) (* 218 *)]);
  (* M2/AUTOSARTemplates/SWComponentTemplate/Communication.py *)
  ("TransmissionComSpecProps", [("getDataUpdatePeriod", AGet "dataUpdatePeriod") (* 298 *);
    ("setDataUpdatePeriod", ASet "dataUpdatePeriod" true) (* 304 *);
    ("getMinimumSendInterval", AGet "minimumSendInterval") (* 313 *);
    ("setMinimumSendInterval", ASet "minimumSendInterval" true) (* 319 *);
    ("getTransmissionMode", AGet "transmissionMode") (* 328 *);
    ("setTransmissionMode", ASet "transmissionMode" true) (* 334 *)]);
  (* M2/AUTOSARTemplates/SWComponentTemplate/Communication.py *)
  ("TransmissionAcknowledgementRequest", [("getTimeout", AGet "timeout") (* 363 *);
    ("setTimeout", ASet "timeout" true) (* 369 *)]);
  (* M2/AUTOSARTemplates/SWComponentTemplate/Communication.py *)
  ("SenderComSpec", [("addCompositeNetworkRepresentation", AAdd "compositeNetworkRepresentations" true) (* 431 *);
    ("getCompositeNetworkRepresentations", AGet "compositeNetworkRepresentations") (* 440 *);
    ("getDataElementRef", AGet "dataElementRef") (* 446 *);
    ("setDataElementRef", ASet "dataElementRef" true) (* 452 *);
    ("getHandleOutOfRange", AGet "handleOutOfRange") (* 461 *);
    ("setHandleOutOfRange", ASet "handleOutOfRange" true) (* 467 *);
    ("getNetworkRepresentation", AGet "networkRepresentation") (* 476 *);
    ("setNetworkRepresentation", ASet "networkRepresentation" true) (* 482 *);
    ("getTransmissionAcknowledge", AGet "transmissionAcknowledge") (* 491 *);
    ("setTransmissionAcknowledge", ASet "transmissionAcknowledge" true) (* 497 *);
    ("getTransmissionProps", AGet "transmissionProps") (* 506 *);
    ("setTransmissionProps", ASet "transmissionProps" true) (* 512 *);
    ("getUsesEndToEndProtection", AGet "usesEndToEndProtection") (* 521 *);
    ("setUsesEndToEndProtection", ASet "usesEndToEndProtection" true) (* 527 *)]);
  (* M2/AUTOSARTemplates/SWComponentTemplate/Communication.py *)
  ("NonqueuedSenderComSpec", [("getDataFilter", AGet "dataFilter") (* 574 *);
    ("setDataFilter", ASet "dataFilter" true) (* 580 *);
    ("getInitValue", AGet "initValue") (* 589 *);
    ("setInitValue", ASet "initValue" true) (* 595 *)]);
  (* M2/AUTOSARTemplates/SWComponentTemplate/Communication.py *)
  ("ClientComSpec", [("getEndToEndCallResponseTimeout", AGet "endToEndCallResponseTimeout") (* 634 *);
    ("setEndToEndCallResponseTimeout", ASet "endToEndCallResponseTimeout" true) (* 640 *);
    ("getOperationRef", AGet "operationRef") (* 649 *);
    ("setOperationRef", ASet "operationRef" true) (* 655 *);
    ("addTransformationComSpecProps", AAdd "transformationComSpecProps" true) (* 664 *);
    ("getTransformationComSpecProps", AGet "transformationComSpecProps") (* 673 *)]);
  (* M2/AUTOSARTemplates/SWComponentTemplate/Communication.py *)
  ("ModeSwitchReceiverComSpec", [("getEnhancedModeApi", AGet "enhancedModeApi") (* 701 *);
    ("setEnhancedModeApi", ASet "enhancedModeApi" false) (* 710 *);
    ("getModeGroupRef", AGet "modeGroupRef") (* 724 *);
    ("setModeGroupRef", ASet "modeGroupRef" false) (* 733 *);
    ("getSupportsAsynchronousModeSwitch", AGet "supportsAsynchronousModeSwitch") (* 747 *);
    ("setSupportsAsynchronousModeSwitch", ASet "supportsAsynchronousModeSwitch" false) (* 756 *)]);
  (* M2/AUTOSARTemplates/SWComponentTemplate/Communication.py *)
  ("NvRequireComSpec", [("getInitValue", AGet "initValue") (* 790 *);
    ("setInitValue", ASet "initValue" true) (* 799 *);
    ("getVariableRef", AGet "variableRef") (* 814 *);
    ("setVariableRef", ASet "variableRef" true) (* 823 *)]);
  (* M2/AUTOSARTemplates/SWComponentTemplate/Communication.py *)
  ("ParameterRequireComSpec", [("getInitValue", AGet "initValue") (* 858 *);
    ("setInitValue", ASet "initValue" false) (* 867 *);
    ("getParameterRef", AGet "parameterRef") (* 881 *);
    ("setParameterRef", ASet "parameterRef" false) (* 890 *)]);
  (* M2/AUTOSARTemplates/SWComponentTemplate/Communication.py *)
  ("ReceiverComSpec", [("addCompositeNetworkRepresentation", AAdd "compositeNetworkRepresentations" true) (* 981 *);
    ("getCompositeNetworkRepresentations", AGet "compositeNetworkRepresentations") (* 990 *);
    ("getDataElementRef", AGet "dataElementRef") (* 996 *);
    ("setDataElementRef", ASet "dataElementRef" true) (* 1002 *);
    ("getHandleOutOfRange", AGet "handleOutOfRange") (* 1011 *);
    ("setHandleOutOfRange", ASet "handleOutOfRange" true) (* 1017 *);
    ("getHandleOutOfRangeStatus", AGet "handleOutOfRangeStatus") (* 1026 *);
    ("setHandleOutOfRangeStatus", ASet "handleOutOfRangeStatus" true) (* 1032 *);
    ("getMaxDeltaCounterInit", AGet "maxDeltaCounterInit") (* 1041 *);
    ("setMaxDeltaCounterInit", ASet "maxDeltaCounterInit" true) (* 1047 *);
    ("getMaxNoNewOrRepeatedData", AGet "maxNoNewOrRepeatedData") (* 1056 *);
    ("setMaxNoNewOrRepeatedData", ASet "maxNoNewOrRepeatedData" true) (* 1062 *);
    ("getNetworkRepresentation", AGet "networkRepresentation") (* 1071 *);
    ("setNetworkRepresentation", ASet "networkRepresentation" true) (* 1077 *);
    ("getReceptionProps", AGet "receptionProps") (* 1086 *);
    ("setReceptionProps", ASet "receptionProps" true) (* 1092 *);
    ("getReplaceWith", AGet "replaceWith") (* 1101 *);
    ("setReplaceWith", ASet "replaceWith" true) (* 1107 *);
    ("getSyncCounterInit", AGet "syncCounterInit") (* 1116 *);
    ("setSyncCounterInit", ASet "syncCounterInit" true) (* 1122 *);
    ("addTransformationComSpecProps", AAdd "transformationComSpecProps" true) (* 1131 *);
    ("getTransformationComSpecProps", AGet "transformationComSpecProps") (* 1140 *);
    ("getUsesEndToEndProtection", AGet "usesEndToEndProtection") (* 1146 *);
    ("setUsesEndToEndProtection", ASet "usesEndToEndProtection" true) (* 1152 *)]);
  (* M2/AUTOSARTemplates/SWComponentTemplate/Communication.py *)
  ("ModeSwitchedAckRequest", [("getTimeout", AGet "timeout") (* 1177 *);
    ("setTimeout", ASet "timeout" true) (* 1186 *)]);
  (* M2/AUTOSARTemplates/SWComponentTemplate/Communication.py *)
  ("ModeSwitchSenderComSpec", [("getEnhancedModeApi", AGet "enhancedModeApi") (* 1226 *);
    ("setEnhancedModeApi", ASet "enhancedModeApi" false) (* 1235 *);
    ("getModeGroupRef", AGet "modeGroupRef") (* 1249 *);
    ("setModeGroupRef", ASet "modeGroupRef" false) (* 1258 *);
    ("getModeSwitchedAck", AGet "modeSwitchedAck") (* 1272 *);
    ("setModeSwitchedAck", ASet "modeSwitchedAck" false) (* 1281 *);
    ("getQueueLength", AGet "queueLength") (* 1295 *);
    ("setQueueLength", ASet "queueLength" false) (* 1304 *)]);
  (* M2/AUTOSARTemplates/SWComponentTemplate/Communication.py *)
  ("ParameterProvideComSpec", [("getInitValue", AGet "initValue") (* 1343 *);
    ("setInitValue", ASet "initValue" true) (* 1349 *);
    ("getParameterRef", AGet "parameterRef") (* 1358 *);
    ("setParameterRef", ASet "parameterRef" true) (* 1364 *)]);
  (* M2/AUTOSARTemplates/SWComponentTemplate/Communication.py *)
  ("ServerComSpec", [("getOperationRef", AGet "operationRef") (* 1434 *);
    ("setOperationRef", ASet "operationRef" true) (* 1440 *);
    ("getQueueLength", AGet "queueLength") (* 1449 *);
    ("setQueueLength", ASet "queueLength" true) (* 1455 *);
    ("addTransformationComSpecProps", AAdd "transformationComSpecProps" true) (* 1464 *);
    ("getTransformationComSpecProps", AGet "transformationComSpecProps") (* 1473 *)]);
  (* M2/AUTOSARTemplates/SWComponentTemplate/Communication.py *)
  ("NvProvideComSpec", [("getRamBlockInitValue", AGet "ramBlockInitValue") (* 1502 *);
    ("setRamBlockInitValue", ASet "ramBlockInitValue" true) (* 1511 *);
    ("getRomBlockInitValue", AGet "romBlockInitValue") (* 1526 *);
    ("setRomBlockInitValue", ASet "romBlockInitValue" true) (* 1535 *);
    ("getVariableRef", AGet "variableRef") (* 1550 *);
    ("setVariableRef", ASet "variableRef" true) (* 1559 *)]);
  (* M2/AUTOSARTemplates/SWComponentTemplate/Communication.py *)
  ("NonqueuedReceiverComSpec", [("getAliveTimeout", AGet "aliveTimeout") (* 1629 *);
    ("setAliveTimeout", ASet "aliveTimeout" true) (* 1635 *);
    ("getEnableUpdate", AGet "enableUpdate") (* 1644 *);
    ("setEnableUpdate", ASet "enableUpdate" true) (* 1650 *);
    ("getFilter", AGet "filter") (* 1659 *);
    ("setFilter", ASet "filter" true) (* 1665 *);
    ("getHandleDataStatus", AGet "handleDataStatus") (* 1674 *);
    ("setHandleDataStatus", ASet "handleDataStatus" true) (* 1680 *);
    ("getHandleNeverReceived", AGet "handleNeverReceived") (* 1689 *);
    ("setHandleNeverReceived", ASet "handleNeverReceived" true) (* 1695 *);
    ("getHandleTimeoutType", AGet "handleTimeoutType") (* 1704 *);
    ("setHandleTimeoutType", ASet "handleTimeoutType" true) (* 1710 *);
    ("getInitValue", AGet "initValue") (* 1719 *);
    ("setInitValue", ASet "initValue" true) (* 1725 *);
    ("getTimeoutSubstitutionValue", AGet "timeoutSubstitutionValue") (* 1734 *);
    ("setTimeoutSubstitutionValue", ASet "timeoutSubstitutionValue" true) (* 1740 *)]);
  (* M2/AUTOSARTemplates/SWComponentTemplate/Communication.py *)
  ("QueuedReceiverComSpec", [("getQueueLength", AGet "queueLength") (* 1765 *);
    ("setQueueLength", ASet "queueLength" false) (* 1774 *)]);
  (* M2/AUTOSARTemplates/SWComponentTemplate/EndToEndProtection.py *)
  ("EndToEndDescription", [("getCategory", AGet "category") (* 58 *);
    ("setCategory", ASet "category" false) (* 67 *);
    ("getCounterOffset", AGet "counterOffset") (* 80 *);
    ("setCounterOffset", ASet "counterOffset" false) (* 89 *);
    ("getCrcOffset", AGet "crcOffset") (* 102 *);
    ("setCrcOffset", ASet "crcOffset" false) (* 111 *);
    ("getDataIds", AGet "dataIds") (* 124 *);
    ("addDataId", AAdd "dataIds" false) (* 134 *);
    ("getDataIdMode", AGet "dataIdMode") (* 147 *);
    ("setDataIdMode", ASet "dataIdMode" false) (* 156 *);
    ("getDataIdNibbleOffset", AGet "dataIdNibbleOffset") (* 169 *);
    ("setDataIdNibbleOffset", ASet "dataIdNibbleOffset" false) (* 178 *);
    ("getDataLength", AGet "dataLength") (* 191 *);
    ("setDataLength", ASet "dataLength" false) (* 200 *);
    ("getMaxDeltaCounterInit", AGet "maxDeltaCounterInit") (* 213 *);
    ("setMaxDeltaCounterInit", ASet "maxDeltaCounterInit" false) (* 222 *);
    ("getMaxNoNewOrRepeatedData", AGet "maxNoNewOrRepeatedData") (* 235 *);
    ("setMaxNoNewOrRepeatedData", ASet "maxNoNewOrRepeatedData" false) (* 244 *);
    ("getSyncCounterInit", AGet "syncCounterInit") (* 257 *);
    ("setSyncCounterInit", ASet "syncCounterInit" false) (* 266 *)]);
  (* M2/AUTOSARTemplates/SWComponentTemplate/EndToEndProtection.py *)
  ("EndToEndProtectionVariablePrototype", [("addReceiverIref", AAdd "_receiverIRefs" false) (* 298 *);
    ("getReceiverIrefs", AGet "_receiverIRefs") (* 307 *)]);
  (* M2/AUTOSARTemplates/SWComponentTemplate/EndToEndProtection.py *)
  ("EndToEndProtectionISignalIPdu", [("getDataOffset", AGet "dataOffset") (* 340 *);
    ("setDataOffset", ASet "dataOffset" false) (* 349 *);
    ("getISignalGroupRef", AGet "iSignalGroupRef") (* 362 *);
    ("setISignalGroupRef", ASet "iSignalGroupRef" false) (* 371 *);
    ("getISignalIPduRef", AGet "iSignalIPduRef") (* 384 *);
    ("setISignalIPduRef", ASet "iSignalIPduRef" false) (* 393 *)]);
  (* M2/AUTOSARTemplates/SWComponentTemplate/EndToEndProtection.py *)
  ("EndToEndProtection", [("getEndToEndProfile", AGet "endToEndProfile") (* 429 *);
    ("setEndToEndProfile", ASet "endToEndProfile" true) (* 438 *);
    ("getEndToEndProtectionISignalIPdus", AGet "endToEndProtectionISignalIPdus") (* 452 *);
    ("addEndToEndProtectionISignalIPdu", AAdd "endToEndProtectionISignalIPdus" true) (* 461 *);
    ("getEndToEndProtectionVariablePrototypes", AGet "endToEndProtectionVariablePrototypes") (* 475 *);
    ("addEndToEndProtectionVariablePrototype", AAdd "endToEndProtectionVariablePrototypes" true) (* 484 *)]);
  (* M2/AUTOSARTemplates/SWComponentTemplate/EndToEndProtection.py *)
  ("EndToEndProtectionSet", [("createEndToEndProtection", ANew "EndToEndProtection" true (PList "elements/EndToEndProtection")) (* 513 *);
    ("getEndToEndProtections", AGetSorted "elements/EndToEndProtection") (* 528 *)]);
  (* M2/AUTOSARTemplates/SWComponentTemplate/NvBlockComponent.py *)
  ("NvBlockDataMapping", [("getBitfieldTextTableMaskNvBlockDescriptor", AGet "bitfieldTextTableMaskNvBlockDescriptor") (* 56 *);
    ("setBitfieldTextTableMaskNvBlockDescriptor", ASet "bitfieldTextTableMaskNvBlockDescriptor" true) (* 67 *);
    ("getBitfieldTextTableMaskPortPrototype", AGet "bitfieldTextTableMaskPortPrototype") (* 84 *);
    ("setBitfieldTextTableMaskPortPrototype", ASet "bitfieldTextTableMaskPortPrototype" true) (* 95 *);
    ("getNvRamBlockElement", AGet "nvRamBlockElement") (* 112 *);
    ("setNvRamBlockElement", ASet "nvRamBlockElement" true) (* 123 *);
    ("getReadNvData", AGet "readNvData") (* 140 *);
    ("setReadNvData", ASet "readNvData" true) (* 151 *);
    ("getWrittenNvData", AGet "writtenNvData") (* 168 *);
    ("setWrittenNvData", ASet "writtenNvData" true) (* 179 *);
    ("getWrittenReadNvData", AGet "writtenReadNvData") (* 196 *);
    ("setWrittenReadNvData", ASet "writtenReadNvData" true) (* 207 *)]);
  (* M2/AUTOSARTemplates/SWComponentTemplate/NvBlockComponent.py *)
  ("BulkNvDataDescriptor", [("getBulkNvBlock", AGet "bulkNvBlock") (* 248 *);
    ("setBulkNvBlock", ASet "bulkNvBlock" true) (* 259 *);
    ("getNvBlockDataMappings", AGet "nvBlockDataMappings") (* 276 *);
    ("addNvBlockDataMapping", AAdd "nvBlockDataMappings" true) (* 287 *)]);
  (* M2/AUTOSARTemplates/SWComponentTemplate/NvBlockComponent.py *)
  ("NvBlockDescriptor", [("getClientServerPorts", AGet "clientServerPorts") (* 378 *);
    ("addClientServerPort", AAdd "clientServerPorts" true) (* 389 *);
    ("getConstantValueMappingRefs", AGet "constantValueMappingRefs") (* 406 *);
    ("addConstantValueMappingRef", AAdd "constantValueMappingRefs" true) (* 417 *);
    ("getDataTypeMappingRefs", AGet "dataTypeMappingRefs") (* 434 *);
    ("addDataTypeMappingRef", AAdd "dataTypeMappingRefs" true) (* 445 *);
    ("getInstantiationDataDefPropss", AGet "instantiationDataDefPropss") (* 462 *);
    ("addInstantiationDataDefProps", AAdd "instantiationDataDefPropss" true) (* 473 *);
    ("getModeSwitchEventTriggeredActivitys", AGet "modeSwitchEventTriggeredActivitys") (* 490 *);
    ("addModeSwitchEventTriggeredActivity", AAdd "modeSwitchEventTriggeredActivitys" true) (* 501 *);
    ("getNvBlockDataMappings", AGet "nvBlockDataMappings") (* 518 *);
    ("addNvBlockDataMapping", AAdd "nvBlockDataMappings" true) (* 529 *);
    ("getNvBlockNeeds", AGet "nvBlockNeeds") (* 546 *);
    ("setNvBlockNeeds", ASet "nvBlockNeeds" true) (* 557 *);
    ("getRamBlock", AGet "ramBlock") (* 574 *);
    ("setRamBlock", ASet "ramBlock" true) (* 585 *);
    ("getRomBlock", AGet "romBlock") (* 602 *);
    ("setRomBlock", ASet "romBlock" true) (* 613 *);
    ("getSupportDirtyFlag", AGet "supportDirtyFlag") (* 630 *);
    ("setSupportDirtyFlag", ASet "supportDirtyFlag" true) (* 641 *);
    ("getTimingEventRef", AGet "timingEventRef") (* 658 *);
    ("setTimingEventRef", ASet "timingEventRef" true) (* 669 *);
    ("getWritingStrategies", AGet "writingStrategies") (* 686 *);
    ("addWritingStrategy", AAdd "writingStrategies" true) (* 697 *)]);
  (* M2/AUTOSARTemplates/SWComponentTemplate/NvBlockComponent.py *)
  ("ModeSwitchEventTriggeredActivity", [("getRole", AGet "role") (* 738 *);
    ("setRole", ASet "role" true) (* 749 *);
    ("getSwcModeSwitchEventRef", AGet "swcModeSwitchEventRef") (* 766 *);
    ("setSwcModeSwitchEventRef", ASet "swcModeSwitchEventRef" true) (* 777 *)]);
  (* M2/AUTOSARTemplates/SWComponentTemplate/RPTScenario.py *)
  ("RptImplPolicy", [("getRptEnablerImplType", AGet "rptEnablerImplType") (* 93 *);
    ("setRptEnablerImplType", ASet "rptEnablerImplType" true) (* 102 *);
    ("getRptPreparationLevel", AGet "rptPreparationLevel") (* 117 *);
    ("setRptPreparationLevel", ASet "rptPreparationLevel" true) (* 126 *)]);
  (* M2/AUTOSARTemplates/SWComponentTemplate/RPTScenario.py *)
  ("RptExecutableEntityProperties", [("getMaxRptEventId", AGet "maxRptEventId") (* 178 *);
    ("setMaxRptEventId", ASet "maxRptEventId" true) (* 187 *);
    ("getMinRptEventId", AGet "minRptEventId") (* 202 *);
    ("setMinRptEventId", ASet "minRptEventId" true) (* 211 *);
    ("getRptExecutionControl", AGet "rptExecutionControl") (* 226 *);
    ("setRptExecutionControl", ASet "rptExecutionControl" true) (* 235 *);
    ("getRptServicePoint", AGet "rptServicePoint") (* 250 *);
    ("setRptServicePoint", ASet "rptServicePoint" true) (* 259 *)]);
  (* M2/AUTOSARTemplates/SWComponentTemplate/SoftwareComponentDocumentation.py *)
  ("SwComponentDocumentation", [("createChapter", ANew "Chapter" true (PList "chapters")) (* 72 *);
    ("getChapters", AGet "chapters") (* 91 *);
    ("createSwCalibrationNotes", ANew "Chapter" true (PSlot "swCalibrationNotes")) (* 100 *);
    ("getSwCalibrationNotes", AGet "swCalibrationNotes") (* 116 *);
    ("createSwCarbDoc", ANew "Chapter" true (PSlot "swCarbDoc")) (* 125 *);
    ("getSwCarbDoc", AGet "swCarbDoc") (* 141 *);
    ("createSwDiagnosticsNotes", ANew "Chapter" true (PSlot "swDiagnosticsNotes")) (* 150 *);
    ("getSwDiagnosticsNotes", AGet "swDiagnosticsNotes") (* 166 *);
    ("createSwFeatureDef", ANew "Chapter" true (PSlot "swFeatureDef")) (* 175 *);
    ("getSwFeatureDef", AGet "swFeatureDef") (* 191 *);
    ("createSwFeatureDesc", ANew "Chapter" true (PSlot "swFeatureDesc")) (* 200 *);
    ("getSwFeatureDesc", AGet "swFeatureDesc") (* 216 *);
    ("createSwMaintenanceNotes", ANew "Chapter" true (PSlot "swMaintenanceNotes")) (* 225 *);
    ("getSwMaintenanceNotes", AGet "swMaintenanceNotes") (* 241 *);
    ("createSwTestDesc", ANew "Chapter" true (PSlot "swTestDesc")) (* 250 *);
    ("getSwTestDesc", AGet "swTestDesc") (* 266 *)]);
  (* M2/AUTOSARTemplates/SWComponentTemplate/SwComponentType.py *)
  ("SwComponentType", [("createConsistencyNeeds", ANew "ConsistencyNeeds" true (PList "consistencyNeeds")) (* 81 *);
    ("getConsistencyNeeds", AGet "consistencyNeeds") (* 100 *);
    ("createPPortPrototype", ANew "PPortPrototype" true (PList "ports")) (* 109 *);
    ("createRPortPrototype", ANew "RPortPrototype" true (PList "ports")) (* 128 *);
    ("createPRPortPrototype", ANew "PRPortPrototype" true (PList "ports")) (* 147 *);
    ("getPorts", AGet "ports") (* 166 *);
    ("createPortGroup", ANew "PortGroup" true (PList "portGroups")) (* 219 *);
    ("getPortGroups", AGet "portGroups") (* 238 *);
    ("addSwcMappingConstraintRef", AAdd "swcMappingConstraintsRefs" true) (* 247 *);
    ("getSwcMappingConstraintsRefs", AGet "swcMappingConstraintsRefs") (* 262 *);
    ("getSwComponentDocumentation", AGet "swComponentDocumentation") (* 271 *);
    ("setSwComponentDocumentation", ASet "swComponentDocumentation" true) (* 280 *);
    ("addUnitGroupRef", AAdd "unitGroupRefs" true) (* 295 *);
    ("getUnitGroupRefs", AGet "unitGroupRefs") (* 310 *)]);
  (* M2/AUTOSARTemplates/SWComponentTemplate/SwcImplementation.py *)
  ("SwcImplementation", [("getBehaviorRef", AGet "behaviorRef") (* 33 *);
    ("setBehaviorRef", ASet "behaviorRef" false) (* 42 *)]);
  (* M2/AUTOSARTemplates/SWComponentTemplate/ApplicationAttributes/__init__.py *)
  ("SenderReceiverAnnotation", [("getComputed", AGet "computed") (* 181 *);
    ("setComputed", ASet "computed" true) (* 190 *);
    ("getDataElementRef", AGet "dataElementRef") (* 205 *);
    ("setDataElementRef", ASet "dataElementRef" true) (* 214 *);
    ("getLimitKind", AGet "limitKind") (* 229 *);
    ("setLimitKind", ASet "limitKind" true) (* 238 *);
    ("getProcessingKind", AGet "processingKind") (* 253 *);
    ("setProcessingKind", ASet "processingKind" true) (* 262 *)]);
  (* M2/AUTOSARTemplates/SWComponentTemplate/ApplicationAttributes/__init__.py *)
  ("ClientServerAnnotation", [("getOperationRef", AGet "operationRef") (* 296 *);
    ("setOperationRef", ASet "operationRef" true) (* 305 *)]);
  (* M2/AUTOSARTemplates/SWComponentTemplate/ApplicationAttributes/__init__.py *)
  ("IoHwAbstractionServerAnnotation", [("getFilteringDebouncing", AGet "filteringDebouncing") (* 349 *);
    ("setFilteringDebouncing", ASet "filteringDebouncing" true) (* 358 *);
    ("getPulseTest", AGet "pulseTest") (* 373 *);
    ("setPulseTest", ASet "pulseTest" true) (* 382 *);
    ("getTriggerRef", AGet "triggerRef") (* 397 *);
    ("setTriggerRef", ASet "triggerRef" true) (* 406 *)]);
  (* M2/AUTOSARTemplates/SWComponentTemplate/ApplicationAttributes/__init__.py *)
  ("ModePortAnnotation", [("getModeGroupRef", AGet "modeGroupRef") (* 440 *);
    ("setModeGroupRef", ASet "modeGroupRef" true) (* 449 *)]);
  (* M2/AUTOSARTemplates/SWComponentTemplate/ApplicationAttributes/__init__.py *)
  ("NvDataPortAnnotation", [("getVariableRef", AGet "variableRef") (* 483 *);
    ("setVariableRef", ASet "variableRef" true) (* 492 *)]);
  (* M2/AUTOSARTemplates/SWComponentTemplate/ApplicationAttributes/__init__.py *)
  ("ParameterPortAnnotation", [("getParameterRef", AGet "parameterRef") (* 526 *);
    ("setParameterRef", ASet "parameterRef" true) (* 535 *)]);
  (* M2/AUTOSARTemplates/SWComponentTemplate/ApplicationAttributes/__init__.py *)
  ("TriggerPortAnnotation", [("getTriggerRef", AGet "triggerRef") (* 569 *);
    ("setTriggerRef", ASet "triggerRef" true) (* 578 *)]);
  (* M2/AUTOSARTemplates/SWComponentTemplate/ApplicationAttributes/__init__.py *)
  ("DelegatedPortAnnotation", [("getSignalFan", AGet "signalFan") (* 612 *);
    ("setSignalFan", ASet "signalFan" true) (* 621 *)]);
  (* M2/AUTOSARTemplates/SWComponentTemplate/Components/InstanceRefs.py *)
  ("ModeGroupInAtomicSwcInstanceRef", [("getBaseRef", AGet "baseRef") (* 40 *);
    ("setBaseRef", ASet "baseRef" false) (* 43 *);
    ("getContextPortRef", AGet "contextPortRef") (* 47 *);
    ("setContextPortRef", ASet "contextPortRef" false) (* 50 *);
    ("getTargetRef", AGet "targetRef") (* 54 *);
    ("setTargetRef", ASet "targetRef" false) (* 57 *)]);
  (* M2/AUTOSARTemplates/SWComponentTemplate/Components/InstanceRefs.py *)
  ("PModeGroupInAtomicSwcInstanceRef", [("getContextPPortRef", AGet "contextPPortRef") (* 81 *);
    ("setContextPPortRef", ASet "contextPPortRef" false) (* 84 *);
    ("getTargetModeGroupRef", AGet "targetModeGroupRef") (* 88 *);
    ("setTargetModeGroupRef", ASet "targetModeGroupRef" false) (* 91 *)]);
  (* M2/AUTOSARTemplates/SWComponentTemplate/Components/InstanceRefs.py *)
  ("RModeGroupInAtomicSWCInstanceRef", [("getContextRPortRef", AGet "contextRPortRef") (* 115 *);
    ("setContextRPortRef", ASet "contextRPortRef" false) (* 118 *);
    ("getTargetModeGroupRef", AGet "targetModeGroupRef") (* 122 *);
    ("setTargetModeGroupRef", ASet "targetModeGroupRef" false) (* 125 *)]);
  (* M2/AUTOSARTemplates/SWComponentTemplate/Components/InstanceRefs.py *)
  ("RModeInAtomicSwcInstanceRef", [("getBaseRef", AGet "baseRef") (* 155 *);
    ("setBaseRef", ASet "baseRef" false) (* 158 *);
    ("getContextModeDeclarationGroupPrototypeRef", AGet "contextModeDeclarationGroupPrototypeRef") (* 162 *);
    ("setContextModeDeclarationGroupPrototypeRef", ASet "contextModeDeclarationGroupPrototypeRef" false) (* 165 *);
    ("getContextPortRef", AGet "contextPortRef") (* 169 *);
    ("setContextPortRef", ASet "contextPortRef" false) (* 172 *);
    ("getTargetModeDeclarationRef", AGet "targetModeDeclarationRef") (* 176 *);
    ("setTargetModeDeclarationRef", ASet "targetModeDeclarationRef" false) (* 179 *)]);
  (* M2/AUTOSARTemplates/SWComponentTemplate/Components/InstanceRefs.py *)
  ("TriggerInAtomicSwcInstanceRef", [("getBaseRef", AGet "baseRef") (* 223 *);
    ("setBaseRef", ASet "baseRef" true) (* 233 *);
    ("getContextPortRef", AGet "contextPortRef") (* 249 *);
    ("setContextPortRef", ASet "contextPortRef" true) (* 259 *);
    ("getTargetRef", AGet "targetRef") (* 275 *);
    ("setTargetRef", ASet "targetRef" true) (* 285 *)]);
  (* M2/AUTOSARTemplates/SWComponentTemplate/Components/InstanceRefs.py *)
  ("PTriggerInAtomicSwcTypeInstanceRef", [("getContextPPortRef", AGet "contextPPortRef") (* 328 *);
    ("setContextPPortRef", ASet "contextPPortRef" true) (* 338 *);
    ("getTargetTriggerRef", AGet "targetTriggerRef") (* 354 *);
    ("setTargetTriggerRef", ASet "targetTriggerRef" true) (* 363 *)]);
  (* M2/AUTOSARTemplates/SWComponentTemplate/Components/InstanceRefs.py *)
  ("RVariableInAtomicSwcInstanceRef", [("getContextRPortRef", AGet "contextRPortRef") (* 418 *);
    ("setContextRPortRef", ASet "contextRPortRef" false) (* 421 *);
    ("getTargetDataElementRef", AGet "targetDataElementRef") (* 425 *);
    ("setTargetDataElementRef", ASet "targetDataElementRef" false) (* 428 *)]);
  (* M2/AUTOSARTemplates/SWComponentTemplate/Components/InstanceRefs.py *)
  ("InnerPortGroupInCompositionInstanceRef", [("getBaseRef", AGet "baseRef") (* 455 *);
    ("setBaseRef", ASet "baseRef" false) (* 458 *);
    ("getTargetRef", AGet "targetRef") (* 469 *);
    ("setTargetRef", ASet "targetRef" false) (* 472 *)]);
  (* M2/AUTOSARTemplates/SWComponentTemplate/Components/__init__.py *)
  ("PortPrototype", [("getClientServerAnnotations", AGet "clientServerAnnotations") (* 104 *);
    ("addClientServerAnnotation", AAdd "clientServerAnnotations" true) (* 113 *);
    ("getDelegatedPortAnnotation", AGet "delegatedPortAnnotation") (* 128 *);
    ("setDelegatedPortAnnotation", ASet "delegatedPortAnnotation" true) (* 137 *);
    ("getIoHwAbstractionServerAnnotations", AGet "ioHwAbstractionServerAnnotations") (* 152 *);
    ("addIoHwAbstractionServerAnnotation", AAdd "ioHwAbstractionServerAnnotations" true) (* 161 *);
    ("getModePortAnnotations", AGet "modePortAnnotations") (* 176 *);
    ("addModePortAnnotation", AAdd "modePortAnnotations" true) (* 185 *);
    ("getNvDataPortAnnotations", AGet "nvDataPortAnnotations") (* 200 *);
    ("addNvDataPortAnnotation", AAdd "nvDataPortAnnotations" true) (* 209 *);
    ("getParameterPortAnnotations", AGet "parameterPortAnnotations") (* 224 *);
    ("addParameterPortAnnotation", AAdd "parameterPortAnnotations" true) (* 233 *);
    ("getSenderReceiverAnnotations", AGet "senderReceiverAnnotations") (* 248 *);
    ("addSenderReceiverAnnotation", AAdd "senderReceiverAnnotations" true) (* 257 *);
    ("getTriggerPortAnnotations", AGet "triggerPortAnnotations") (* 272 *);
    ("addTriggerPortAnnotation", AAdd "triggerPortAnnotations" true) (* 281 *)]);
  (* M2/AUTOSARTemplates/SWComponentTemplate/Components/__init__.py *)
  ("AbstractProvidedPortPrototype", [("addProvidedComSpec", AAdd "providedComSpecs" false) (* 331 *);
    ("getProvidedComSpecs", AGet "providedComSpecs") (* 335 *)]);
  (* M2/AUTOSARTemplates/SWComponentTemplate/Components/__init__.py *)
  ("AbstractRequiredPortPrototype", [("addRequiredComSpec", AAdd "requiredComSpecs" false) (* 378 *);
    ("getRequiredComSpecs", AGet "requiredComSpecs") (* 382 *)]);
  (* M2/AUTOSARTemplates/SWComponentTemplate/Components/__init__.py *)
  ("PPortPrototype", [("getProvidedInterfaceTRef", AGet "providedInterfaceTRef") (* 403 *);
    ("setProvidedInterfaceTRef", ASet "providedInterfaceTRef" false) (* 406 *)]);
  (* M2/AUTOSARTemplates/SWComponentTemplate/Components/__init__.py *)
  ("RPortPrototype", [("getRequiredInterfaceTRef", AGet "requiredInterfaceTRef") (* 432 *);
    ("setRequiredInterfaceTRef", ASet "requiredInterfaceTRef" false) (* 435 *)]);
  (* M2/AUTOSARTemplates/SWComponentTemplate/Components/__init__.py *)
  ("PRPortPrototype", [("getProvidedComSpecs", AGet "providedComSpecs") (* 457 *);
    ("addProvidedComSpec", AAdd "providedComSpecs" false) (* 460 *);
    ("getRequiredComSpecs", AGet "requiredComSpecs") (* 464 *);
    ("addRequiredComSpec", AAdd "requiredComSpecs" false) (* 467 *);
    ("getProvidedRequiredInterface", AGet "providedRequiredInterface") (* 471 *);
    ("setProvidedRequiredInterface", ASet "providedRequiredInterface" false) (* 474 *)]);
  (* M2/AUTOSARTemplates/SWComponentTemplate/Components/__init__.py *)
  ("PortGroup", [("addInnerGroupIRef", AAdd "_inner_group_iref" false) (* 493 *);
    ("getInnerGroupIRefs", AGet "_inner_group_iref") (* 496 *);
    ("addOuterPortRef", AAdd "_outer_port_ref" false) (* 499 *);
    ("getOuterPortRefs", AGet "_outer_port_ref") (* 502 *)]);
  (* M2/AUTOSARTemplates/SWComponentTemplate/Components/__init__.py *)
  ("AtomicSwComponentType", [("getInternalBehavior", AGet "internalBehavior") (* 531 *);
    ("createSwcInternalBehavior", ANew "SwcInternalBehavior" true (PSlot "internalBehavior")) (* 542 *);
    ("getSymbolProps", AGet "symbolProps") (* 559 *);
    ("createSymbolProps", ANew "SymbolProps" true (PSlot "symbolProps")) (* 569 *)]);
  (* M2/AUTOSARTemplates/SWComponentTemplate/Components/__init__.py *)
  ("EcuAbstractionSwComponentType", [("getHardwareElementRefs", AGet "hardwareElementRefs") (* 604 *);
    ("addHardwareElementRef", AAdd "hardwareElementRefs" true) (* 615 *)]);
  (* M2/AUTOSARTemplates/SWComponentTemplate/Components/__init__.py *)
  ("ComplexDeviceDriverSwComponentType", [("getHardwareElementRefs", AGet "hardwareElementRefs") (* 663 *);
    ("addHardwareElementRef", AAdd "hardwareElementRefs" true) (* 674 *)]);
  (* M2/AUTOSARTemplates/SWComponentTemplate/Components/__init__.py *)
  ("NvBlockSwComponentType", [("getBulkNvDataDescriptors", AGet "bulkNvDataDescriptors") (* 714 *);
    ("createBulkNvDataDescriptor", ANew "BulkNvDataDescriptor" true (PList "bulkNvDataDescriptors")) (* 725 *);
    ("getNvBlockDescriptors", AGet "nvBlockDescriptors") (* 744 *);
    ("createNvBlockDescriptor", ANew "NvBlockDescriptor" true (PList "nvBlockDescriptors")) (* 755 *)]);
  (* M2/AUTOSARTemplates/SWComponentTemplate/Components/__init__.py *)
  ("SensorActuatorSwComponentType", [("getSensorActuatorRef", AGet "sensorActuatorRef") (* 792 *);
    ("setSensorActuatorRef", ASet "sensorActuatorRef" true) (* 803 *)]);
  (* M2/AUTOSARTemplates/SWComponentTemplate/Composition/InstanceRefs.py *)
  ("PortInCompositionTypeInstanceRef", [("getBaseRef", AGet "baseRef") (* 46 *);
    ("setBaseRef", ASet "baseRef" false) (* 49 *)]);
  (* M2/AUTOSARTemplates/SWComponentTemplate/Composition/InstanceRefs.py *)
  ("PPortInCompositionInstanceRef", [("getContextComponentRef", AGet "contextComponentRef") (* 80 *);
    ("setContextComponentRef", ASet "contextComponentRef" false) (* 83 *);
    ("getTargetPPortRef", AGet "targetPPortRef") (* 87 *);
    ("setTargetPPortRef", ASet "targetPPortRef" false) (* 90 *)]);
  (* M2/AUTOSARTemplates/SWComponentTemplate/Composition/InstanceRefs.py *)
  ("RPortInCompositionInstanceRef", [("getContextComponentRef", AGet "contextComponentRef") (* 114 *);
    ("setContextComponentRef", ASet "contextComponentRef" false) (* 117 *);
    ("getTargetRPortRef", AGet "targetRPortRef") (* 121 *);
    ("setTargetRPortRef", ASet "targetRPortRef" false) (* 124 *)]);
  (* M2/AUTOSARTemplates/SWComponentTemplate/Composition/InstanceRefs.py *)
  ("OperationInAtomicSwcInstanceRef", [("getBaseRef", AGet "baseRef") (* 154 *);
    ("setBaseRef", ASet "baseRef" false) (* 157 *);
    ("getContextPortRef", AGet "contextPortRef") (* 161 *);
    ("setContextPortRef", ASet "contextPortRef" false) (* 164 *)]);
  (* M2/AUTOSARTemplates/SWComponentTemplate/Composition/InstanceRefs.py *)
  ("POperationInAtomicSwcInstanceRef", [("getContextPPortRef", AGet "contextPPortRef") (* 195 *);
    ("setContextPPortRef", ASet "contextPPortRef" false) (* 198 *);
    ("getTargetProvidedOperationRef", AGet "targetProvidedOperationRef") (* 202 *);
    ("setTargetProvidedOperationRef", ASet "targetProvidedOperationRef" false) (* 205 *)]);
  (* M2/AUTOSARTemplates/SWComponentTemplate/Composition/InstanceRefs.py *)
  ("ROperationInAtomicSwcInstanceRef", [("getContextRPortRef", AGet "contextRPortRef") (* 229 *);
    ("setContextRPortRef", ASet "contextRPortRef" false) (* 232 *);
    ("getTargetRequiredOperationRef", AGet "targetRequiredOperationRef") (* 236 *);
    ("setTargetRequiredOperationRef", ASet "targetRequiredOperationRef" false) (* 239 *)]);
  (* M2/AUTOSARTemplates/SWComponentTemplate/Composition/InstanceRefs.py *)
  ("InstanceEventInCompositionInstanceRef", [("getBaseRef", AGet "baseRef") (* 275 *);
    ("setBaseRef", ASet "baseRef" true) (* 285 *);
    ("addContextComponentPrototypeRef", AAdd "contextComponentPrototypeRefs" true) (* 300 *);
    ("getContextComponentPrototypeRefs", AGet "contextComponentPrototypeRefs") (* 315 *);
    ("setTargetEventRef", ASet "targetEventRef" true) (* 324 *);
    ("getTargetEventRef", AGet "targetEventRef") (* 339 *)]);
  (* M2/AUTOSARTemplates/SWComponentTemplate/Composition/__init__.py *)
  ("SwComponentPrototype", [("getTypeTRef", AGet "typeTRef") (* 30 *);
    ("setTypeTRef", ASet "typeTRef" false) (* 33 *)]);
  (* M2/AUTOSARTemplates/SWComponentTemplate/Composition/__init__.py *)
  ("SwConnector", [("getMappingRef", AGet "mappingRef") (* 59 *);
    ("setMappingRef", ASet "mappingRef" true) (* 68 *)]);
  (* M2/AUTOSARTemplates/SWComponentTemplate/Composition/__init__.py *)
  ("AssemblySwConnector", [("getProviderIRef", AGet "providerIRef") (* 98 *);
    ("setProviderIRef", ASet "providerIRef" false) (* 101 *);
    ("getRequesterIRef", AGet "requesterIRef") (* 105 *);
    ("setRequesterIRef", ASet "requesterIRef" false) (* 108 *)]);
  (* M2/AUTOSARTemplates/SWComponentTemplate/Composition/__init__.py *)
  ("DelegationSwConnector", [("getInnerPortIRref", AGet "innerPortIRref") (* 127 *);
    ("setInnerPortIRref", ASet "innerPortIRref" false) (* 130 *);
    ("getOuterPortRef", AGet "outerPortRef") (* 134 *);
    ("setOuterPortRef", ASet "outerPortRef" false) (* 137 *)]);
  (* M2/AUTOSARTemplates/SWComponentTemplate/Composition/__init__.py *)
  ("PassThroughSwConnector", [("getProvidedOuterPortRef", AGet "providedOuterPortRef") (* 166 *);
    ("setProvidedOuterPortRef", ASet "providedOuterPortRef" true) (* 175 *);
    ("getRequiredOuterPortRef", AGet "requiredOuterPortRef") (* 190 *);
    ("setRequiredOuterPortRef", ASet "requiredOuterPortRef" true) (* 199 *)]);
  (* M2/AUTOSARTemplates/SWComponentTemplate/Composition/__init__.py *)
  ("InstantiationRTEEventProps", [("getRefinedEventIRef", AGet "refinedEventIRef") (* 242 *);
    ("setRefinedEventIRef", ASet "refinedEventIRef" true) (* 251 *);
    ("getShortLabel", AGet "shortLabel") (* 266 *);
    ("setShortLabel", ASet "shortLabel" true) (* 275 *)]);
  (* M2/AUTOSARTemplates/SWComponentTemplate/Composition/__init__.py *)
  ("InstantiationTimingEventProps", [("getPeriod", AGet "period") (* 310 *);
    ("setPeriod", ASet "period" true) (* 319 *)]);
  (* M2/AUTOSARTemplates/SWComponentTemplate/Composition/__init__.py *)
  ("CompositionSwComponentType", [("createSwComponentPrototype", ANew "SwComponentPrototype" true (PList "components")) (* 386 *);
    ("getComponents", AGet "components") (* 403 *);
    ("createAssemblySwConnector", ANew "AssemblySwConnector" true (PList "connectors")) (* 412 *);
    ("createDelegationSwConnector", ANew "DelegationSwConnector" true (PList "connectors")) (* 429 *);
    ("createPassThroughSwConnector", ANew "PassThroughSwConnector" true (PList "connectors")) (* 446 *);
    ("getSwConnectors", AGet "connectors") (* 463 *);
    ("addConstantValueMappingRef", AAdd "constantValueMappingRefs" true) (* 523 *);
    ("getConstantValueMappingRefs", AGet "constantValueMappingRefs") (* 538 *);
    ("addDataTypeMappingRef", AAdd "dataTypeMappingRefs" true) (* 547 *);
    ("getDataTypeMappingRefs", AGet "dataTypeMappingRefs") (* 562 *);
    ("addInstantiationRTEEventProps", AAdd "instantiationRTEEventProps" true) (* 571 *);
    ("getInstantiationRTEEventProps", AGet "instantiationRTEEventProps") (* 586 *)]);
  (* M2/AUTOSARTemplates/SWComponentTemplate/Datatype/DataPrototypes.py *)
  ("DataPrototype", [("getSwDataDefProps", AGet "swDataDefProps") (* 46 *);
    ("setSwDataDefProps", ASet "swDataDefProps" true) (* 55 *)]);
  (* M2/AUTOSARTemplates/SWComponentTemplate/Datatype/DataPrototypes.py *)
  ("AutosarDataPrototype", [("getTypeTRef", AGet "typeTRef") (* 91 *);
    ("setTypeTRef", ASet "typeTRef" true) (* 100 *)]);
  (* M2/AUTOSARTemplates/SWComponentTemplate/Datatype/DataPrototypes.py *)
  ("VariableDataPrototype", [("getInitValue", AGet "initValue") (* 131 *);
    ("setInitValue", ASet "initValue" false) (* 140 *)]);
  (* M2/AUTOSARTemplates/SWComponentTemplate/Datatype/DataPrototypes.py *)
  ("ApplicationCompositeElementDataPrototype", [("getTypeTRef", AGet "typeTRef") (* 173 *);
    ("setTypeTRef", ASet "typeTRef" false) (* 176 *)]);
  (* M2/AUTOSARTemplates/SWComponentTemplate/Datatype/DataPrototypes.py *)
  ("ApplicationArrayElement", [("getArraySizeHandling", AGet "arraySizeHandling") (* 215 *);
    ("setArraySizeHandling", ASet "arraySizeHandling" true) (* 224 *);
    ("getArraySizeSemantics", AGet "arraySizeSemantics") (* 238 *);
    ("setArraySizeSemantics", ASet "arraySizeSemantics" true) (* 247 *);
    ("getIndexDataTypeRef", AGet "indexDataTypeRef") (* 261 *);
    ("setIndexDataTypeRef", ASet "indexDataTypeRef" true) (* 270 *);
    ("getMaxNumberOfElements", AGet "maxNumberOfElements") (* 284 *);
    ("setMaxNumberOfElements", ASet "maxNumberOfElements" true) (* 293 *)]);
  (* M2/AUTOSARTemplates/SWComponentTemplate/Datatype/DataPrototypes.py *)
  ("ParameterDataPrototype", [("getInitValue", AGet "initValue") (* 366 *);
    ("setInitValue", ASet "initValue" true) (* 375 *)]);
  (* M2/AUTOSARTemplates/SWComponentTemplate/Datatype/Datatypes.py *)
  ("AutosarDataType", [("getSwDataDefProps", AGet "swDataDefProps") (* 37 *);
    ("setSwDataDefProps", ASet "swDataDefProps" false) (* 40 *)]);
  (* M2/AUTOSARTemplates/SWComponentTemplate/Datatype/Datatypes.py *)
  ("ApplicationArrayDataType", [("getDynamicArraySizeProfile", AGet "dynamicArraySizeProfile") (* 144 *);
    ("setDynamicArraySizeProfile", ASet "dynamicArraySizeProfile" true) (* 153 *);
    ("getApplicationArrayElement", AGet "element") (* 167 *);
    ("createApplicationArrayElement", ANew "ApplicationArrayElement" true (PSlot "element")) (* 176 *)]);
  (* M2/AUTOSARTemplates/SWComponentTemplate/Datatype/Datatypes.py *)
  ("ApplicationRecordDataType", [("createApplicationRecordElement", ANew "ApplicationRecordElement" true (PList "record_elements")) (* 209 *);
    ("getApplicationRecordElements", AGet "record_elements") (* 216 *)]);
  (* M2/AUTOSARTemplates/SWComponentTemplate/Datatype/Datatypes.py *)
  ("DataTypeMap", [("getApplicationDataTypeRef", AGet "applicationDataTypeRef") (* 237 *);
    ("setApplicationDataTypeRef", ASet "applicationDataTypeRef" false) (* 240 *);
    ("getImplementationDataTypeRef", AGet "implementationDataTypeRef") (* 244 *);
    ("setImplementationDataTypeRef", ASet "implementationDataTypeRef" false) (* 247 *)]);
  (* M2/AUTOSARTemplates/SWComponentTemplate/Datatype/Datatypes.py *)
  ("DataTypeMappingSet", [("addDataTypeMap", AAdd "dataTypeMaps" false) (* 271 *);
    ("getDataTypeMaps", AGet "dataTypeMaps") (* 275 *);
    ("addModeRequestTypeMap", AAdd "modeRequestTypeMaps" false) (* 278 *);
    ("getModeRequestTypeMaps", AGet "modeRequestTypeMaps") (* 282 *)]);
  (* M2/AUTOSARTemplates/SWComponentTemplate/ImplicitCommunicationBehavior/InstanceRefs.py *)
  ("InnerDataPrototypeGroupInCompositionInstanceRef", [("getBaseRef", AGet "baseRef") (* 49 *);
    ("setBaseRef", ASet "baseRef" true) (* 58 *);
    ("getContextSwComponentPrototypeRefs", AGet "contextSwComponentPrototypeRefs") (* 73 *);
    ("addContextSwComponentPrototypeRef", AAdd "contextSwComponentPrototypeRefs" false) (* 82 *);
    ("getTargetDataPrototypeGroupRef", AGet "targetDataPrototypeGroupRef") (* 96 *);
    ("setTargetDataPrototypeGroupRef", ASet "targetDataPrototypeGroupRef" true) (* 105 *)]);
  (* M2/AUTOSARTemplates/SWComponentTemplate/ImplicitCommunicationBehavior/InstanceRefs.py *)
  ("InnerRunnableEntityGroupInCompositionInstanceRef", [("getBaseRef", AGet "baseRef") (* 155 *);
    ("setBaseRef", ASet "baseRef" true) (* 164 *);
    ("getContextSwComponentPrototypeRefs", AGet "contextSwComponentPrototypeRefs") (* 179 *);
    ("addContextSwComponentPrototypeRef", AAdd "contextSwComponentPrototypeRefs" false) (* 188 *);
    ("getTargetRunnableEntityGroupRef", AGet "targetRunnableEntityGroupRef") (* 202 *);
    ("setTargetRunnableEntityGroupRef", ASet "targetRunnableEntityGroupRef" true) (* 211 *)]);
  (* M2/AUTOSARTemplates/SWComponentTemplate/ImplicitCommunicationBehavior/InstanceRefs.py *)
  ("RunnableEntityInCompositionInstanceRef", [("getBaseRef", AGet "baseRef") (* 261 *);
    ("setBaseRef", ASet "baseRef" true) (* 270 *);
    ("getContextSwComponentPrototypeRefs", AGet "contextSwComponentPrototypeRefs") (* 285 *);
    ("addContextSwComponentPrototypeRef", AAdd "contextSwComponentPrototypeRefs" false) (* 294 *);
    ("getTargetRunnableEntityRef", AGet "targetRunnableEntityRef") (* 308 *);
    ("setTargetRunnableEntityRef", ASet "targetRunnableEntityRef" true) (* 317 *)]);
  (* M2/AUTOSARTemplates/SWComponentTemplate/ImplicitCommunicationBehavior/InstanceRefs.py *)
  ("VariableDataPrototypeInCompositionInstanceRef", [("getBaseRef", AGet "baseRef") (* 372 *);
    ("setBaseRef", ASet "baseRef" true) (* 381 *);
    ("getContextPortPrototypeRef", AGet "contextPortPrototypeRef") (* 396 *);
    ("setContextPortPrototypeRef", ASet "contextPortPrototypeRef" true) (* 405 *);
    ("getContextSwComponentPrototypeRefs", AGet "contextSwComponentPrototypeRefs") (* 420 *);
    ("addContextSwComponentPrototypeRef", AAdd "contextSwComponentPrototypeRefs" false) (* 429 *);
    ("getTargetVariableDataPrototypeRef", AGet "targetVariableDataPrototypeRef") (* 443 *);
    ("setTargetVariableDataPrototypeRef", ASet "targetVariableDataPrototypeRef" true) (* 452 *)]);
  (* M2/AUTOSARTemplates/SWComponentTemplate/ImplicitCommunicationBehavior/__init__.py *)
  ("DataPrototypeGroup", [("addDataPrototypeGroupIRef", AAdd "dataPrototypeGroupIRefs" true) (* 51 *);
    ("getDataPrototypeGroupIRefs", AGet "dataPrototypeGroupIRefs") (* 67 *);
    ("addImplicitDataAccessIRef", AAdd "implicitDataAccessIRefs" true) (* 78 *);
    ("getImplicitDataAccessIRefs", AGet "implicitDataAccessIRefs") (* 94 *)]);
  (* M2/AUTOSARTemplates/SWComponentTemplate/ImplicitCommunicationBehavior/__init__.py *)
  ("RunnableEntityGroup", [("addRunnableEntityIRef", AAdd "runnableEntityIRefs" true) (* 135 *);
    ("getRunnableEntityIRefs", AGet "runnableEntityIRefs") (* 151 *);
    ("addRunnableEntityGroupIRef", AAdd "runnableEntityGroupIRefs" true) (* 162 *);
    ("getRunnableEntityGroupIRefs", AGet "runnableEntityGroupIRefs") (* 178 *)]);
  (* M2/AUTOSARTemplates/SWComponentTemplate/ImplicitCommunicationBehavior/__init__.py *)
  ("ConsistencyNeeds", [("createDpgDoesNotRequireCoherency", ANew "DataPrototypeGroup" true (PList "dpgDoesNotRequireCoherency")) (* 238 *);
    ("getDpgDoesNotRequireCoherencys", AGet "dpgDoesNotRequireCoherency") (* 257 *);
    ("createDpgRequiresCoherency", ANew "DataPrototypeGroup" true (PList "dpgRequiresCoherency")) (* 267 *);
    ("getDpgRequiresCoherencys", AGet "dpgRequiresCoherency") (* 289 *);
    ("createRegDoesNotRequireStability", ANew "RunnableEntityGroup" true (PList "regDoesNotRequireStability")) (* 302 *);
    ("getRegDoesNotRequireStabilitys", AGet "regDoesNotRequireStability") (* 321 *);
    ("createRegRequiresStability", ANew "RunnableEntityGroup" true (PList "regRequiresStability")) (* 331 *);
    ("getRegRequiresStabilitys", AGet "regRequiresStability") (* 353 *)]);
  (* M2/AUTOSARTemplates/SWComponentTemplate/PortInterface/InstanceRefs.py *)
  ("ApplicationCompositeElementInPortInterfaceInstanceRef", [("getBaseRef", AGet "baseRef") (* 36 *);
    ("setBaseRef", ASet "baseRef" false) (* 39 *);
    ("getRootDataPrototypeRef", AGet "rootDataPrototypeRef") (* 50 *);
    ("setRootDataPrototypeRef", ASet "rootDataPrototypeRef" false) (* 53 *);
    ("getTargetDataPrototypeRef", AGet "targetDataPrototypeRef") (* 57 *);
    ("setTargetDataPrototypeRef", ASet "targetDataPrototypeRef" false) (* 60 *)]);
  (* M2/AUTOSARTemplates/SWComponentTemplate/PortInterface/__init__.py *)
  ("PortInterface", [("getIsService", AGet "isService") (* 60 *);
    ("setIsService", ASet "isService" true) (* 74 *);
    ("setServiceKind", ASet "serviceKind" true) (* 105 *)]);
  (* M2/AUTOSARTemplates/SWComponentTemplate/PortInterface/__init__.py *)
  ("NvDataInterface", [("getNvDatas", AGet "elements/VariableDataPrototype") (* 163 *);
    ("createNvData", ANew "VariableDataPrototype" true (PList "elements/VariableDataPrototype")) (* 172 *)]);
  (* M2/AUTOSARTemplates/SWComponentTemplate/PortInterface/__init__.py *)
  ("ParameterInterface", [("getParameters", AGet "parameters") (* 195 *);
    ("createParameterDataPrototype", ANew "ParameterDataPrototype" true (PList "parameters")) (* 198 *)]);
  (* M2/AUTOSARTemplates/SWComponentTemplate/PortInterface/__init__.py *)
  ("InvalidationPolicy", [("getDataElementRef", AGet "dataElementRef") (* 219 *);
    ("setDataElementRef", ASet "dataElementRef" false) (* 222 *);
    ("getHandleInvalid", AGet "handleInvalid") (* 226 *);
    ("setHandleInvalid", ASet "handleInvalid" false) (* 229 *)]);
  (* M2/AUTOSARTemplates/SWComponentTemplate/PortInterface/__init__.py *)
  ("MetaDataItem", [("getLength", AGet "length") (* 248 *);
    ("setLength", ASet "length" false) (* 251 *)]);
  (* M2/AUTOSARTemplates/SWComponentTemplate/PortInterface/__init__.py *)
  ("SenderReceiverInterface", [("getInvalidationPolicies", AGet "invalidationPolicies") (* 311 *);
    ("addInvalidationPolicy", AAdd "invalidationPolicies" false) (* 314 *);
    ("createDataElement", ANew "VariableDataPrototype" true (PList "elements/VariableDataPrototype")) (* 325 *);
    ("getDataElements", AGet "elements/VariableDataPrototype") (* 331 *);
    ("createInvalidationPolicy", ANew "InvalidationPolicy" false (PList "invalidationPolicies")) (* 337 *)]);
  (* M2/AUTOSARTemplates/SWComponentTemplate/PortInterface/__init__.py *)
  ("ArgumentDataPrototype", [("getDirection", AGet "direction") (* 407 *);
    ("setDirection", ASet "direction" true) (* 419 *);
    ("getServerArgumentImplPolicy", AGet "serverArgumentImplPolicy") (* 437 *);
    ("setServerArgumentImplPolicy", ASet "serverArgumentImplPolicy" true) (* 452 *)]);
  (* M2/AUTOSARTemplates/SWComponentTemplate/PortInterface/__init__.py *)
  ("ApplicationError", [("getErrorCode", AGet "errorCode") (* 493 *);
    ("setErrorCode", ASet "errorCode" true) (* 503 *)]);
  (* M2/AUTOSARTemplates/SWComponentTemplate/PortInterface/__init__.py *)
  ("ClientServerOperation", [("createArgumentDataPrototype", ANew "ArgumentDataPrototype" true (PList "arguments")) (* 560 *);
    ("getArguments", AGet "arguments") (* 579 *);
    ("getDiagArgIntegrity", AGet "diagArgIntegrity") (* 590 *);
    ("setDiagArgIntegrity", ASet "diagArgIntegrity" true) (* 605 *);
    ("addPossibleErrorRef", AAdd "possibleErrorRefs" true) (* 626 *);
    ("getPossibleErrorRefs", AGet "possibleErrorRefs") (* 642 *)]);
  (* M2/AUTOSARTemplates/SWComponentTemplate/PortInterface/__init__.py *)
  ("ClientServerInterface", [("createOperation", ANew "ClientServerOperation" true (PList "operations")) (* 678 *);
    ("getOperations", AGet "operations") (* 695 *);
    ("createApplicationError", ANew "ApplicationError" true (PList "possibleErrors")) (* 704 *);
    ("getPossibleErrors", AGet "possibleErrors") (* 721 *)]);
  (* M2/AUTOSARTemplates/SWComponentTemplate/PortInterface/__init__.py *)
  ("ModeSwitchInterface", [("createModeGroup", ANew "ModeDeclarationGroupPrototype" true (PSlot "modeGroup")) (* 760 *);
    ("getModeGroup", AGet "modeGroup") (* 780 *)]);
  (* M2/AUTOSARTemplates/SWComponentTemplate/PortInterface/__init__.py *)
  ("ClientServerOperationMapping", [("getFirstOperationRef", AGet "firstOperationRef") (* 858 *);
    ("setFirstOperationRef", ASet "firstOperationRef" false) (* 861 *);
    ("getFirstToSecondDataTransformationRef", AGet "firstToSecondDataTransformationRef") (* 865 *);
    ("setFirstToSecondDataTransformationRef", ASet "firstToSecondDataTransformationRef" false) (* 868 *);
    ("getSecondOperationRef", AGet "secondOperationRef") (* 872 *);
    ("setSecondOperationRef", ASet "secondOperationRef" false) (* 875 *)]);
  (* M2/AUTOSARTemplates/SWComponentTemplate/PortInterface/__init__.py *)
  ("SubElementMapping", [("getFirstElement", AGet "firstElement") (* 908 *);
    ("setFirstElement", ASet "firstElement" true) (* 919 *);
    ("getSecondElement", AGet "secondElement") (* 936 *);
    ("setSecondElement", ASet "secondElement" true) (* 947 *);
    ("addTextTableMapping", AAdd "textTableMappings" true) (* 964 *);
    ("getTextTableMappings", AGet "textTableMappings") (* 981 *)]);
  (* M2/AUTOSARTemplates/SWComponentTemplate/PortInterface/__init__.py *)
  ("DataPrototypeMapping", [("getFirstDataPrototypeRef", AGet "firstDataPrototypeRef") (* 1037 *);
    ("setFirstDataPrototypeRef", ASet "firstDataPrototypeRef" true) (* 1043 *);
    ("getFirstToSecondDataTransformationRef", AGet "firstToSecondDataTransformationRef") (* 1052 *);
    ("setFirstToSecondDataTransformationRef", ASet "firstToSecondDataTransformationRef" true) (* 1058 *);
    ("getSecondDataPrototypeRef", AGet "secondDataPrototypeRef") (* 1067 *);
    ("setSecondDataPrototypeRef", ASet "secondDataPrototypeRef" true) (* 1073 *);
    ("getSecondToFirstDataTransformationRef", AGet "secondToFirstDataTransformationRef") (* 1082 *);
    ("setSecondToFirstDataTransformationRef", ASet "secondToFirstDataTransformationRef" true) (* 1088 *);
    ("addSubElementMapping", AAdd "subElementMappings" true) (* 1097 *);
    ("getSubElementMappings", AGet "subElementMappings") (* 1106 *);
    ("addTextTableMapping", AAdd "textTableMappings" true) (* 1112 *);
    ("getTextTableMappings", AGet "textTableMappings") (* 1121 *)]);
  (* M2/AUTOSARTemplates/SWComponentTemplate/PortInterface/__init__.py *)
  ("ClientServerInterfaceMapping", [("getOperationMappings", AGet "operationMappings") (* 1150 *);
    ("addOperationMapping", AAdd "operationMappings" true) (* 1153 *)]);
  (* M2/AUTOSARTemplates/SWComponentTemplate/PortInterface/__init__.py *)
  ("VariableAndParameterInterfaceMapping", [("getDataMappings", AGet "dataMappings") (* 1170 *);
    ("addDataMapping", AAdd "dataMappings" false) (* 1173 *)]);
  (* M2/AUTOSARTemplates/SWComponentTemplate/PortInterface/__init__.py *)
  ("ModeInterfaceMapping", [("getModeMapping", AGet "modeMapping") (* 1189 *);
    ("setModeMapping", ASet "modeMapping" true) (* 1192 *)]);
  (* M2/AUTOSARTemplates/SWComponentTemplate/PortInterface/__init__.py *)
  ("ModeDeclarationMapping", [("getFirstModeRefs", AGet "firstModeRefs") (* 1242 *);
    ("addFirstModeRef", AAdd "firstModeRefs" true) (* 1248 *);
    ("getSecondModeRef", AGet "secondModeRef") (* 1257 *);
    ("setSecondModeRef", ASet "secondModeRef" true) (* 1263 *)]);
  (* M2/AUTOSARTemplates/SWComponentTemplate/PortInterface/__init__.py *)
  ("ModeDeclarationMappingSet", [("getModeDeclarationMappings", AGet "modeDeclarationMappings") (* 1284 *);
    ("createModeDeclarationMapping", ANew "ModeDeclarationMapping" true (PList "modeDeclarationMappings")) (* 1287 *)]);
  (* M2/AUTOSARTemplates/SWComponentTemplate/PortInterface/__init__.py *)
  ("PortInterfaceMappingSet", [("getPortInterfaceMappings", AGet "portInterfaceMappings") (* 1309 *);
    ("createVariableAndParameterInterfaceMapping", ANew "VariableAndParameterInterfaceMapping" true (PList "portInterfaceMappings")) (* 1312 *);
    ("createClientServerInterfaceMapping", ANew "ClientServerInterfaceMapping" true (PList "portInterfaceMappings")) (* 1319 *);
    ("createModeInterfaceMapping", ANew "ModeInterfaceMapping" true (PList "portInterfaceMappings")) (* 1326 *)]);
  (* M2/AUTOSARTemplates/SWComponentTemplate/PortInterface/__init__.py *)
  ("TextTableMapping", [("getBitfieldTextTableMaskFirst", AGet "bitfieldTextTableMaskFirst") (* 1379 *);
    ("setBitfieldTextTableMaskFirst", ASet "bitfieldTextTableMaskFirst" true) (* 1390 *);
    ("getBitfieldTextTableMaskSecond", AGet "bitfieldTextTableMaskSecond") (* 1407 *);
    ("setBitfieldTextTableMaskSecond", ASet "bitfieldTextTableMaskSecond" true) (* 1418 *);
    ("getIdenticalMapping", AGet "identicalMapping") (* 1435 *);
    ("setIdenticalMapping", ASet "identicalMapping" true) (* 1446 *);
    ("getMappingDirection", AGet "mappingDirection") (* 1463 *);
    ("setMappingDirection", ASet "mappingDirection" true) (* 1474 *)]);
  (* M2/AUTOSARTemplates/SWComponentTemplate/SwcInternalBehavior/AccessCount.py *)
  ("AccessCount", [("getAccessPointRef", AGet "accessPointRef") (* 115 *);
    ("setAccessPointRef", ASet "accessPointRef" true) (* 124 *);
    ("getValue", AGet "value") (* 139 *);
    ("setValue", ASet "value" true) (* 148 *)]);
  (* M2/AUTOSARTemplates/SWComponentTemplate/SwcInternalBehavior/AccessCount.py *)
  ("AccessCountSet", [("addAccessCount", AAdd "accessCounts" true) (* 193 *);
    ("getAccessCounts", AGet "accessCounts") (* 208 *);
    ("getCountProfile", AGet "countProfile") (* 217 *);
    ("setCountProfile", ASet "countProfile" true) (* 226 *)]);
  (* M2/AUTOSARTemplates/SWComponentTemplate/SwcInternalBehavior/AutosarVariableRef.py *)
  ("AutosarVariableRef", [("getAutosarVariableIRef", AGet "autosarVariableIRef") (* 33 *);
    ("setAutosarVariableIRef", ASet "autosarVariableIRef" false) (* 42 *);
    ("getLocalVariableRef", AGet "localVariableRef") (* 63 *);
    ("setLocalVariableRef", ASet "localVariableRef" false) (* 72 *)]);
  (* M2/AUTOSARTemplates/SWComponentTemplate/SwcInternalBehavior/DataElements.py *)
  ("ParameterAccess", [("getAccessedParameter", AGet "accessedParameter") (* 34 *);
    ("setAccessedParameter", ASet "accessedParameter" false) (* 43 *);
    ("getSwDataDefProps", AGet "swDataDefProps") (* 56 *);
    ("setSwDataDefProps", ASet "swDataDefProps" false) (* 65 *)]);
  (* M2/AUTOSARTemplates/SWComponentTemplate/SwcInternalBehavior/DataElements.py *)
  ("VariableAccess", [("getAccessedVariableRef", AGet "accessedVariableRef") (* 102 *);
    ("setAccessedVariableRef", ASet "accessedVariableRef" true) (* 113 *);
    ("getScope", AGet "scope") (* 130 *);
    ("setScope", ASet "scope" true) (* 141 *)]);
  (* M2/AUTOSARTemplates/SWComponentTemplate/SwcInternalBehavior/IncludedDataTypes.py *)
  ("IncludedDataTypeSet", [("addDataTypeRef", AAdd "dataTypeRefs" true) (* 34 *);
    ("getDataTypeRefs", AGet "dataTypeRefs") (* 51 *);
    ("getLiteralPrefix", AGet "literalPrefix") (* 62 *);
    ("setLiteralPrefix", ASet "literalPrefix" true) (* 73 *)]);
  (* M2/AUTOSARTemplates/SWComponentTemplate/SwcInternalBehavior/InstanceRefsUsage.py *)
  ("ArVariableInImplementationDataInstanceRef", [("getContextDataPrototypeRefs", AGet "contextDataPrototypeRefs") (* 38 *);
    ("getPortPrototypeRef", AGet "portPrototypeRef") (* 60 *);
    ("setPortPrototypeRef", ASet "portPrototypeRef" false) (* 69 *);
    ("getTargetDataPrototypeRef", AGet "targetDataPrototypeRef") (* 104 *);
    ("setTargetDataPrototypeRef", ASet "targetDataPrototypeRef" false) (* 113 *)]);
  (* M2/AUTOSARTemplates/SWComponentTemplate/SwcInternalBehavior/InstanceRefsUsage.py *)
  ("VariableInAtomicSWCTypeInstanceRef", [("getBaseRef", AGet "baseRef") (* 155 *);
    ("setBaseRef", ASet "baseRef" false) (* 164 *);
    ("getContextDataPrototypeRefs", AGet "contextDataPrototypeRefs") (* 177 *);
    ("addContextDataPrototypeRef", AAdd "contextDataPrototypeRefs" false) (* 186 *);
    ("getPortPrototypeRef", AGet "portPrototypeRef") (* 199 *);
    ("setPortPrototypeRef", ASet "portPrototypeRef" false) (* 208 *);
    ("getTargetDataPrototypeRef", AGet "targetDataPrototypeRef") (* 243 *);
    ("setTargetDataPrototypeRef", ASet "targetDataPrototypeRef" false) (* 252 *)]);
  (* M2/AUTOSARTemplates/SWComponentTemplate/SwcInternalBehavior/InstanceRefsUsage.py *)
  ("ParameterInAtomicSWCTypeInstanceRef", [("setBaseRef", ASet "baseRef" true) (* 305 *);
    ("getBaseRef", AGet "baseRef") (* 318 *);
    ("addContextDataPrototypeRef", AAdd "contextDataPrototypeRefs" true) (* 327 *);
    ("getContextDataPrototypeRefs", AGet "contextDataPrototypeRefs") (* 340 *);
    ("setPortPrototypeRef", ASet "portPrototypeRef" true) (* 349 *);
    ("getPortPrototypeRef", AGet "portPrototypeRef") (* 362 *);
    ("setRootParameterDataPrototypeRef", ASet "rootParameterDataPrototypeRef" true) (* 371 *);
    ("getRootParameterDataPrototypeRef", AGet "rootParameterDataPrototypeRef") (* 384 *);
    ("setTargetDataPrototypeRef", ASet "targetDataPrototypeRef" true) (* 393 *);
    ("getTargetDataPrototypeRef", AGet "targetDataPrototypeRef") (* 406 *)]);
  (* M2/AUTOSARTemplates/SWComponentTemplate/SwcInternalBehavior/InstanceRefsUsage.py *)
  ("AutosarParameterRef", [("getAutosarParameterIRef", AGet "autosarParameterIRef") (* 434 *);
    ("setAutosarParameterIRef", ASet "autosarParameterIRef" false) (* 444 *);
    ("getLocalParameterRef", AGet "localParameterRef") (* 457 *);
    ("setLocalParameterRef", ASet "localParameterRef" false) (* 466 *)]);
  (* M2/AUTOSARTemplates/SWComponentTemplate/SwcInternalBehavior/InstantiationDataDefProps.py *)
  ("InstantiationDataDefProps", [("getParameterInstance", AGet "parameterInstance") (* 55 *);
    ("setParameterInstance", ASet "parameterInstance" true) (* 59 *);
    ("getSwDataDefProps", AGet "swDataDefProps") (* 69 *);
    ("setSwDataDefProps", ASet "swDataDefProps" true) (* 73 *);
    ("getVariableInstance", AGet "variableInstance") (* 83 *);
    ("setVariableInstance", ASet "variableInstance" true) (* 87 *)]);
  (* M2/AUTOSARTemplates/SWComponentTemplate/SwcInternalBehavior/ModeDeclarationGroup.py *)
  ("ModeAccessPoint", [("getIdent", AGet "ident") (* 34 *);
    ("setIdent", ASet "ident" false) (* 43 *);
    ("getModeGroupIRef", AGet "modeGroupIRef") (* 56 *);
    ("setModeGroupIRef", ASet "modeGroupIRef" false) (* 65 *)]);
  (* M2/AUTOSARTemplates/SWComponentTemplate/SwcInternalBehavior/ModeDeclarationGroup.py *)
  ("ModeSwitchPoint", [("getModeGroupIRef", AGet "modeGroupIRef") (* 95 *);
    ("setModeGroupIRef", ASet "modeGroupIRef" false) (* 104 *)]);
  (* M2/AUTOSARTemplates/SWComponentTemplate/SwcInternalBehavior/ModeDeclarationGroup.py *)
  ("IncludedModeDeclarationGroupSet", [("addModeDeclarationGroupRef", AAdd "mode_declaration_group_refs" false) (* 137 *);
    ("getModeDeclarationGroupRefs", AGet "mode_declaration_group_refs") (* 150 *);
    ("setPrefix", ASet "prefix" false) (* 159 *);
    ("getPrefix", AGet "prefix") (* 172 *)]);
  (* M2/AUTOSARTemplates/SWComponentTemplate/SwcInternalBehavior/PerInstanceMemory.py *)
  ("PerInstanceMemory", [("getInitValue", AGet "initValue") (* 37 *);
    ("setInitValue", ASet "initValue" false) (* 46 *);
    ("getSwDataDefProps", AGet "swDataDefProps") (* 59 *);
    ("setSwDataDefProps", ASet "swDataDefProps" false) (* 68 *);
    ("getType", AGet "type") (* 81 *);
    ("setType", ASet "type" false) (* 90 *);
    ("getTypeDefinition", AGet "typeDefinition") (* 103 *);
    ("setTypeDefinition", ASet "typeDefinition" false) (* 112 *)]);
  (* M2/AUTOSARTemplates/SWComponentTemplate/SwcInternalBehavior/PortAPIOptions.py *)
  ("PortDefinedArgumentValue", [("getValue", AGet "value") (* 30 *);
    ("setValue", ASet "value" false) (* 39 *);
    ("getValueTypeTRef", AGet "valueTypeTRef") (* 52 *);
    ("setValueTypeTRef", ASet "valueTypeTRef" false) (* 61 *)]);
  (* M2/AUTOSARTemplates/SWComponentTemplate/SwcInternalBehavior/PortAPIOptions.py *)
  ("PortAPIOption", [("getEnableTakeAddress", AGet "enableTakeAddress") (* 109 *);
    ("setEnableTakeAddress", ASet "enableTakeAddress" false) (* 118 *);
    ("getErrorHandling", AGet "errorHandling") (* 131 *);
    ("setErrorHandling", ASet "errorHandling" false) (* 140 *);
    ("getIndirectAPI", AGet "indirectAPI") (* 153 *);
    ("setIndirectAPI", ASet "indirectAPI" false) (* 162 *);
    ("getPortRef", AGet "portRef") (* 175 *);
    ("setPortRef", ASet "portRef" false) (* 184 *);
    ("getPortArgValues", AGet "portArgValues") (* 197 *);
    ("addPortArgValue", AAdd "portArgValues" false) (* 206 *)]);
  (* M2/AUTOSARTemplates/SWComponentTemplate/SwcInternalBehavior/RTEEvents.py *)
  ("RTEEvent", [("getDisabledModeIRefs", AGet "disabledModeIRefs") (* 38 *);
    ("addDisabledModeIRef", AAdd "disabledModeIRefs" false) (* 47 *)]);
  (* M2/AUTOSARTemplates/SWComponentTemplate/SwcInternalBehavior/RTEEvents.py *)
  ("AsynchronousServerCallReturnsEvent", [("getEventSourceRef", AGet "eventSourceRef") (* 98 *);
    ("setEventSourceRef", ASet "eventSourceRef" false) (* 107 *)]);
  (* M2/AUTOSARTemplates/SWComponentTemplate/SwcInternalBehavior/RTEEvents.py *)
  ("DataSendCompletedEvent", [("getEventSourceRef", AGet "eventSourceRef") (* 137 *);
    ("setEventSourceRef", ASet "eventSourceRef" false) (* 146 *)]);
  (* M2/AUTOSARTemplates/SWComponentTemplate/SwcInternalBehavior/RTEEvents.py *)
  ("DataWriteCompletedEvent", [("getEventSourceRef", AGet "eventSourceRef") (* 176 *);
    ("setEventSourceRef", ASet "eventSourceRef" false) (* 185 *)]);
  (* M2/AUTOSARTemplates/SWComponentTemplate/SwcInternalBehavior/RTEEvents.py *)
  ("DataReceivedEvent", [("setDataIRef", ASet "dataIRef" false) (* 223 *)]);
  (* M2/AUTOSARTemplates/SWComponentTemplate/SwcInternalBehavior/RTEEvents.py *)
  ("SwcModeSwitchEvent", [("getActivation", AGet "activation") (* 261 *);
    ("setActivation", ASet "activation" true) (* 267 *);
    ("addModeIRef", AAdd "modeIRefs" true) (* 276 *);
    ("getModeIRefs", AGet "modeIRefs") (* 285 *)]);
  (* M2/AUTOSARTemplates/SWComponentTemplate/SwcInternalBehavior/RTEEvents.py *)
  ("DataReceiveErrorEvent", [("setDataIRef", ASet "dataIRef" false) (* 317 *)]);
  (* M2/AUTOSARTemplates/SWComponentTemplate/SwcInternalBehavior/RTEEvents.py *)
  ("OperationInvokedEvent", [("getOperationIRef", AGet "operationIRef") (* 347 *);
    ("setOperationIRef", ASet "operationIRef" true) (* 356 *)]);
  (* M2/AUTOSARTemplates/SWComponentTemplate/SwcInternalBehavior/RTEEvents.py *)
  ("TimingEvent", [("getOffset", AGet "offset") (* 417 *);
    ("setOffset", ASet "offset" true) (* 426 *);
    ("getPeriod", AGet "period") (* 440 *);
    ("setPeriod", ASet "period" true) (* 449 *)]);
  (* M2/AUTOSARTemplates/SWComponentTemplate/SwcInternalBehavior/RTEEvents.py *)
  ("InternalTriggerOccurredEvent", [("getEventSourceRef", AGet "eventSourceRef") (* 480 *);
    ("setEventSourceRef", ASet "eventSourceRef" true) (* 489 *)]);
  (* M2/AUTOSARTemplates/SWComponentTemplate/SwcInternalBehavior/RTEEvents.py *)
  ("ModeSwitchedAckEvent", [("getEventSourceRef", AGet "eventSourceRef") (* 533 *);
    ("setEventSourceRef", ASet "eventSourceRef" true) (* 542 *)]);
  (* M2/AUTOSARTemplates/SWComponentTemplate/SwcInternalBehavior/RTEEvents.py *)
  ("WaitPoint", [("getTimeout", AGet "timeout") (* 581 *);
    ("setTimeout", ASet "timeout" true) (* 590 *);
    ("getTriggerRef", AGet "triggerRef") (* 605 *);
    ("setTriggerRef", ASet "triggerRef" true) (* 614 *)]);
  (* M2/AUTOSARTemplates/SWComponentTemplate/SwcInternalBehavior/ServerCall.py *)
  ("ServerCallPoint", [("getOperationIRef", AGet "operationIRef") (* 34 *);
    ("setOperationIRef", ASet "operationIRef" false) (* 43 *);
    ("getTimeout", AGet "timeout") (* 56 *);
    ("setTimeout", ASet "timeout" false) (* 65 *)]);
  (* M2/AUTOSARTemplates/SWComponentTemplate/SwcInternalBehavior/ServiceMapping.py *)
  ("RoleBasedPortAssignment", [("getPortPrototypeRef", AGet "portPrototypeRef") (* 66 *);
    ("setPortPrototypeRef", ASet "portPrototypeRef" false) (* 75 *);
    ("getRole", AGet "role") (* 88 *);
    ("setRole", ASet "role" false) (* 97 *)]);
  (* M2/AUTOSARTemplates/SWComponentTemplate/SwcInternalBehavior/ServiceMapping.py *)
  ("SwcServiceDependency", [("AddAssignedData", AAdd "assignedData" false) (* 182 *);
    ("getAssignedData", AGet "assignedData") (* 191 *);
    ("AddAssignedPort", AAdd "assignedPort" false) (* 200 *);
    ("getAssignedPorts", AGet "assignedPort") (* 209 *);
    ("createNvBlockNeeds", ANew "NvBlockNeeds" true (PList "elements/ServiceNeeds")) (* 218 *);
    ("createDiagnosticCommunicationManagerNeeds", ANew "DiagnosticCommunicationManagerNeeds" true (PList "elements/ServiceNeeds")) (* 234 *);
    ("createDiagnosticRoutineNeeds", ANew "DiagnosticRoutineNeeds" true (PList "elements/ServiceNeeds")) (* 251 *);
    ("createDiagnosticValueNeeds", ANew "DiagnosticValueNeeds" true (PList "elements/ServiceNeeds")) (* 267 *);
    ("createDiagnosticEventNeeds", ANew "DiagnosticEventNeeds" true (PList "elements/ServiceNeeds")) (* 283 *);
    ("createDiagnosticEventInfoNeeds", ANew "DiagnosticEventInfoNeeds" true (PList "elements/ServiceNeeds")) (* 299 *);
    ("createCryptoServiceNeeds", ANew "CryptoServiceNeeds" true (PList "elements/ServiceNeeds")) (* 315 *);
    ("createEcuStateMgrUserNeeds", ANew "EcuStateMgrUserNeeds" true (PList "elements/ServiceNeeds")) (* 331 *);
    ("createDtcStatusChangeNotificationNeeds", ANew "DtcStatusChangeNotificationNeeds" true (PList "elements/ServiceNeeds")) (* 347 *);
    ("createDiagnosticIoControlNeeds", ANew "DiagnosticIoControlNeeds" true (PList "elements/ServiceNeeds")) (* 364 *);
    ("createDiagnosticEnableConditionNeeds", ANew "DiagnosticEnableConditionNeeds" true (PList "elements/ServiceNeeds")) (* 380 *);
    ("createDiagnosticOperationCycleNeeds", ANew "DiagnosticOperationCycleNeeds" true (PList "elements/ServiceNeeds")) (* 396 *);
    ("createDiagnosticStorageConditionNeeds", ANew "DiagnosticStorageConditionNeeds" true (PList "elements/ServiceNeeds")) (* 412 *);
    ("createFunctionInhibitionAvailabilityNeeds", ANew "FunctionInhibitionAvailabilityNeeds" true (PList "elements/ServiceNeeds")) (* 428 *);
    ("createIndicatorStatusNeeds", ANew "IndicatorStatusNeeds" true (PList "elements/ServiceNeeds")) (* 444 *);
    ("createDltUserNeeds", ANew "DltUserNeeds" true (PList "elements/ServiceNeeds")) (* 460 *);
    ("createComMgrUserNeeds", ANew "ComMgrUserNeeds" true (PList "elements/ServiceNeeds")) (* 476 *);
    ("createErrorTracerNeeds", ANew "ErrorTracerNeeds" true (PList "elements/ServiceNeeds")) (* 492 *);
    ("createObdInfoServiceNeeds", ANew "ObdInfoServiceNeeds" true (PList "elements/ServiceNeeds")) (* 508 *);
    ("createObdMonitorServiceNeeds", ANew "ObdMonitorServiceNeeds" true (PList "elements/ServiceNeeds")) (* 524 *);
    ("createObdPidServiceNeeds", ANew "ObdPidServiceNeeds" true (PList "elements/ServiceNeeds")) (* 540 *);
    ("createObdControlServiceNeeds", ANew "ObdControlServiceNeeds" true (PList "elements/ServiceNeeds")) (* 556 *);
    ("createObdRatioServiceNeeds", ANew "ObdRatioServiceNeeds" true (PList "elements/ServiceNeeds")) (* 572 *);
    ("createObdRatioDenominatorNeeds", ANew "ObdRatioDenominatorNeeds" true (PList "elements/ServiceNeeds")) (* 588 *);
    ("createDoIpRoutingActivationAuthenticationNeeds", ANew "DoIpRoutingActivationAuthenticationNeeds" true (PList "elements/ServiceNeeds")) (* 604 *);
    ("createDoIpRoutingActivationConfirmationNeeds", ANew "DoIpRoutingActivationConfirmationNeeds" true (PList "elements/ServiceNeeds")) (* 620 *);
    ("createSecureOnBoardCommunicationNeeds", ANew "SecureOnBoardCommunicationNeeds" true (PList "elements/ServiceNeeds")) (* 636 *);
    ("createIdsMgrNeeds", ANew "IdsMgrNeeds" true (PList "elements/ServiceNeeds")) (* 652 *);
    ("getNvBlockNeeds", AGetSorted "elements/NvBlockNeeds") (* 668 *);
    ("getServiceNeeds", AGetSorted "elements/ServiceNeeds") (* 826 *);
    ("setRepresentedPortGroup", ASet "representedPortGroup" true) (* 835 *);
    ("getRepresentedPortGroup", AGet "representedPortGroup") (* 850 *)]);
  (* M2/AUTOSARTemplates/SWComponentTemplate/SwcInternalBehavior/Trigger.py *)
  ("InternalTriggeringPoint", [("getSwImplPolicy", AGet "swImplPolicy") (* 35 *);
    ("setSwImplPolicy", ASet "swImplPolicy" true) (* 44 *)]);
  (* M2/AUTOSARTemplates/SWComponentTemplate/SwcInternalBehavior/Trigger.py *)
  ("ExternalTriggeringPoint", [("createIdent", ANew "ExternalTriggeringPointIdent" true (PSlot "ident")) (* 100 *);
    ("getIdent", AGet "ident") (* 111 *);
    ("getTrigger", AGet "trigger") (* 120 *);
    ("setTrigger", ASet "trigger" true) (* 130 *)]);
  (* M2/AUTOSARTemplates/SWComponentTemplate/SwcInternalBehavior/VariantHandling.py *)
  ("VariationPointProxy", [("getConditionAccess", AGet "conditionAccess") (* 49 *);
    ("setConditionAccess", ASet "conditionAccess" true) (* 58 *);
    ("getImplementationDataTypeRef", AGet "implementationDataTypeRef") (* 72 *);
    ("setImplementationDataTypeRef", ASet "implementationDataTypeRef" true) (* 81 *);
    ("getPostBuildValueAccessRef", AGet "postBuildValueAccessRef") (* 95 *);
    ("setPostBuildValueAccessRef", ASet "postBuildValueAccessRef" true) (* 104 *);
    ("getPostBuildVariantConditions", AGet "postBuildVariantConditions") (* 118 *);
    ("addPostBuildVariantCondition", AAdd "postBuildVariantConditions" true) (* 127 *);
    ("getValueAccess", AGet "valueAccess") (* 141 *);
    ("setValueAccess", ASet "valueAccess" true) (* 150 *)]);
  (* M2/AUTOSARTemplates/SWComponentTemplate/SwcInternalBehavior/__init__.py *)
  ("RunnableEntityArgument", [("getSymbol", AGet "symbol") (* 50 *);
    ("setSymbol", ASet "symbol" false) (* 53 *)]);
  (* M2/AUTOSARTemplates/SWComponentTemplate/SwcInternalBehavior/__init__.py *)
  ("AsynchronousServerCallResultPoint", [("getAsynchronousServerCallPointRef", AGet "asynchronousServerCallPointRef") (* 69 *);
    ("setAsynchronousServerCallPointRef", ASet "asynchronousServerCallPointRef" false) (* 72 *)]);
  (* M2/AUTOSARTemplates/SWComponentTemplate/SwcInternalBehavior/__init__.py *)
  ("RunnableEntity", [("getArguments", AGet "arguments") (* 234 *);
    ("addArgument", AAdd "arguments" true) (* 243 *);
    ("getCanBeInvokedConcurrently", AGet "canBeInvokedConcurrently") (* 258 *);
    ("setCanBeInvokedConcurrently", ASet "canBeInvokedConcurrently" true) (* 268 *);
    ("createDataReadAccess", ANew "VariableAccess" true (PList "dataReadAccesses")) (* 284 *);
    ("getDataReadAccesses", AGetSorted "dataReadAccesses") (* 297 *);
    ("createDataWriteAccess", ANew "VariableAccess" true (PList "dataWriteAccesses")) (* 307 *);
    ("getDataWriteAccesses", AGetSorted "dataWriteAccesses") (* 320 *);
    ("createDataReceivePointByArgument", ANew "VariableAccess" true (PList "dataReceivePointByArguments")) (* 330 *);
    ("getDataReceivePointByArguments", AGetSorted "dataReceivePointByArguments") (* 344 *);
    ("createDataReceivePointByValue", ANew "VariableAccess" true (PList "dataReceivePointByValues")) (* 355 *);
    ("getDataReceivePointByValues", AGetSorted "dataReceivePointByValues") (* 369 *);
    ("createDataSendPoint", ANew "VariableAccess" true (PList "dataSendPoints")) (* 380 *);
    ("getDataSendPoints", AGet "dataSendPoints") (* 393 *);
    ("createReadLocalVariable", ANew "VariableAccess" true (PList "readLocalVariables")) (* 403 *);
    ("getReadLocalVariables", AGet "readLocalVariables") (* 416 *);
    ("createWrittenLocalVariable", ANew "VariableAccess" true (PList "writtenLocalVariables")) (* 426 *);
    ("getWrittenLocalVariables", AGet "writtenLocalVariables") (* 439 *);
    ("getParameterAccesses", AGetSorted "elements/ParameterAccess") (* 449 *);
    ("createParameterAccess", ANew "ParameterAccess" true (PList "elements/ParameterAccess")) (* 459 *);
    ("createSynchronousServerCallPoint", ANew "SynchronousServerCallPoint" true (PList "elements/ServerCallPoint")) (* 475 *);
    ("createAsynchronousServerCallPoint", ANew "AsynchronousServerCallPoint" true (PList "elements/ServerCallPoint")) (* 491 *);
    ("createAsynchronousServerCallResultPoint", ANew "AsynchronousServerCallResultPoint" true (PList "elements/AsynchronousServerCallResultPoint")) (* 507 *);
    ("getAsynchronousServerCallResultPoints", AGetSorted "elements/AsynchronousServerCallResultPoint") (* 543 *);
    ("getServerCallPoints", AGetSorted "elements/ServerCallPoint") (* 553 *);
    ("createInternalTriggeringPoint", ANew "InternalTriggeringPoint" true (PList "elements/InternalTriggeringPoint")) (* 563 *);
    ("getInternalTriggeringPoints", AGet "elements/InternalTriggeringPoint") (* 578 *);
    ("getExternalTriggeringPoints", AGet "externalTriggeringPoints") (* 587 *);
    ("addExternalTriggeringPoint", AAdd "externalTriggeringPoints" true) (* 596 *);
    ("getModeAccessPoints", AGet "modeAccessPoints") (* 611 *);
    ("addModeAccessPoint", AAdd "modeAccessPoints" true) (* 621 *);
    ("getModeSwitchPoints", AGetSorted "elements/ModeSwitchPoint") (* 637 *);
    ("createModeSwitchPoint", ANew "ModeSwitchPoint" true (PList "elements/ModeSwitchPoint")) (* 647 *);
    ("getSymbol", AGet "symbol") (* 664 *);
    ("setSymbol", ASet "symbol" true) (* 673 *);
    ("createWaitPoint", ANew "WaitPoint" true (PList "waitPoints")) (* 688 *);
    ("getWaitPoints", AGet "waitPoints") (* 704 *)]);
  (* M2/AUTOSARTemplates/SWComponentTemplate/SwcInternalBehavior/__init__.py *)
  ("SwcExclusiveAreaPolicy", [("getApiPrinciple", AGet "apiPrinciple") (* 743 *);
    ("setApiPrinciple", ASet "apiPrinciple" true) (* 747 *);
    ("getExclusiveAreaRef", AGet "exclusiveAreaRef") (* 757 *);
    ("setExclusiveAreaRef", ASet "exclusiveAreaRef" true) (* 761 *)]);
  (* M2/AUTOSARTemplates/SWComponentTemplate/SwcInternalBehavior/__init__.py *)
  ("SwcInternalBehavior", [("getArTypedPerInstanceMemories", AGet "arTypedPerInstanceMemories") (* 909 *);
    ("createArTypedPerInstanceMemory", ANew "VariableDataPrototype" true (PList "arTypedPerInstanceMemories")) (* 913 *);
    ("getExplicitInterRunnableVariables", AGet "explicitInterRunnableVariables") (* 921 *);
    ("createExplicitInterRunnableVariable", ANew "VariableDataPrototype" true (PList "explicitInterRunnableVariables")) (* 925 *);
    ("getHandleTerminationAndRestart", AGet "handleTerminationAndRestart") (* 933 *);
    ("setHandleTerminationAndRestart", ASet "handleTerminationAndRestart" true) (* 937 *);
    ("getPerInstanceMemories", AGet "perInstanceMemories") (* 959 *);
    ("createPerInstanceMemory", ANew "PerInstanceMemory" true (PList "perInstanceMemories")) (* 963 *);
    ("getPerInstanceParameters", AGet "perInstanceParameters") (* 971 *);
    ("createPerInstanceParameter", ANew "ParameterDataPrototype" true (PList "perInstanceParameters")) (* 975 *);
    ("getSharedParameters", AGet "sharedParameters") (* 983 *);
    ("createSharedParameter", ANew "ParameterDataPrototype" true (PList "sharedParameters")) (* 987 *);
    ("addPortAPIOption", AAdd "portAPIOptions" true) (* 995 *);
    ("getPortAPIOptions", AGet "portAPIOptions") (* 1004 *);
    ("getIncludedDataTypeSets", AGet "includedDataTypeSets") (* 1018 *);
    ("addIncludedModeDeclarationGroupSet", AAdd "includedModeDeclarationGroupSets" true) (* 1022 *);
    ("getIncludedModeDeclarationGroupSets", AGet "includedModeDeclarationGroupSets") (* 1032 *);
    ("addExclusiveAreaPolicy", AAdd "exclusiveAreaPolicies" true) (* 1036 *);
    ("getExclusiveAreaPolicies", AGet "exclusiveAreaPolicies") (* 1046 *);
    ("createOperationInvokedEvent", ANew "OperationInvokedEvent" true (PList "elements/RTEEvent")) (* 1050 *);
    ("createTimingEvent", ANew "TimingEvent" true (PList "elements/RTEEvent")) (* 1057 *);
    ("createInitEvent", ANew "InitEvent" true (PList "elements/RTEEvent")) (* 1064 *);
    ("createAsynchronousServerCallReturnsEvent", ANew "AsynchronousServerCallReturnsEvent" true (PList "elements/RTEEvent")) (* 1071 *);
    ("createDataReceivedEvent", ANew "DataReceivedEvent" true (PList "elements/RTEEvent")) (* 1078 *);
    ("createSwcModeSwitchEvent", ANew "SwcModeSwitchEvent" true (PList "elements/RTEEvent")) (* 1085 *);
    ("createInternalTriggerOccurredEvent", ANew "InternalTriggerOccurredEvent" true (PList "elements/RTEEvent")) (* 1092 *);
    ("createModeSwitchedAckEvent", ANew "ModeSwitchedAckEvent" true (PList "elements/RTEEvent")) (* 1099 *);
    ("createBackgroundEvent", ANew "BackgroundEvent" true (PList "elements/RTEEvent")) (* 1106 *);
    ("createDataSendCompletedEvent", ANew "DataSendCompletedEvent" true (PList "elements/RTEEvent")) (* 1113 *);
    ("createSwcServiceDependency", ANew "SwcServiceDependency" true (PList "elements/SwcServiceDependency")) (* 1120 *);
    ("getRteEvents", AGetSorted "elements/RTEEvent") (* 1127 *);
    ("getSwcServiceDependencies", AGetSorted "elements/SwcServiceDependency") (* 1167 *);
    ("createRunnableEntity", ANew "RunnableEntity" true (PList "elements/RunnableEntity")) (* 1179 *);
    ("getRunnableEntities", AGetSorted "elements/RunnableEntity") (* 1186 *);
    ("getSupportsMultipleInstantiation", AGet "supportsMultipleInstantiation") (* 1194 *);
    ("setSupportsMultipleInstantiation", ASet "supportsMultipleInstantiation" true) (* 1201 *);
    ("addInstantiationDataDefProps", AAdd "instantiationDataDefProps" true) (* 1211 *);
    ("getInstantiationDataDefPropss", AGet "instantiationDataDefProps") (* 1221 *);
    ("addVariationPointProxy", AAdd "variationPointProxies" true) (* 1225 *);
    ("getVariationPointProxies", AGet "variationPointProxies") (* 1235 *)]);
  (* M2/AUTOSARTemplates/SystemTemplate/DataMapping.py *)
  ("DataMapping", [("getIntroduction", AGet "introduction") (* 35 *);
    ("setIntroduction", ASet "introduction" false) (* 38 *)]);
  (* M2/AUTOSARTemplates/SystemTemplate/DataMapping.py *)
  ("SenderReceiverToSignalMapping", [("getCommunicationDirection", AGet "communicationDirection") (* 73 *);
    ("setCommunicationDirection", ASet "communicationDirection" false) (* 76 *);
    ("getDataElementIRef", AGet "dataElementIRef") (* 80 *);
    ("setDataElementIRef", ASet "dataElementIRef" false) (* 83 *);
    ("getSystemSignalRef", AGet "systemSignalRef") (* 101 *);
    ("setSystemSignalRef", ASet "systemSignalRef" false) (* 104 *)]);
  (* M2/AUTOSARTemplates/SystemTemplate/DataMapping.py *)
  ("SenderRecRecordElementMapping", [("getApplicationRecordElementRef", AGet "applicationRecordElementRef") (* 159 *);
    ("setApplicationRecordElementRef", ASet "applicationRecordElementRef" true) (* 162 *);
    ("getImplementationRecordElementRef", AGet "implementationRecordElementRef") (* 175 *);
    ("setImplementationRecordElementRef", ASet "implementationRecordElementRef" true) (* 178 *);
    ("getSystemSignalRef", AGet "systemSignalRef") (* 199 *);
    ("setSystemSignalRef", ASet "systemSignalRef" true) (* 202 *)]);
  (* M2/AUTOSARTemplates/SystemTemplate/DataMapping.py *)
  ("SenderRecRecordTypeMapping", [("getRecordElementMappings", AGet "recordElementMappings") (* 225 *);
    ("addRecordElementMapping", AAdd "recordElementMappings" true) (* 228 *)]);
  (* M2/AUTOSARTemplates/SystemTemplate/DataMapping.py *)
  ("IndexedArrayElement", [("getIndex", AGet "index") (* 273 *);
    ("setIndex", ASet "index" true) (* 276 *)]);
  (* M2/AUTOSARTemplates/SystemTemplate/DataMapping.py *)
  ("SenderRecArrayElementMapping", [("getSystemSignalRef", AGet "systemSignalRef") (* 321 *);
    ("setSystemSignalRef", ASet "systemSignalRef" true) (* 324 *)]);
  (* M2/AUTOSARTemplates/SystemTemplate/DataMapping.py *)
  ("SenderReceiverToSignalGroupMapping", [("getDataElementIRef", AGet "dataElementIRef") (* 401 *);
    ("setDataElementIRef", ASet "dataElementIRef" false) (* 404 *);
    ("getSignalGroupRef", AGet "signalGroupRef") (* 408 *);
    ("setSignalGroupRef", ASet "signalGroupRef" false) (* 411 *);
    ("getTypeMapping", AGet "typeMapping") (* 415 *);
    ("setTypeMapping", ASet "typeMapping" false) (* 418 *)]);
  (* M2/AUTOSARTemplates/SystemTemplate/DiagnosticConnection.py *)
  ("DiagnosticConnection", [("getFunctionalRequestRefs", AGet "functionalRequestRefs") (* 39 *);
    ("addFunctionalRequestRef", AAdd "functionalRequestRefs" true) (* 42 *);
    ("getPhysicalRequestRef", AGet "physicalRequestRef") (* 55 *);
    ("setPhysicalRequestRef", ASet "physicalRequestRef" true) (* 58 *);
    ("getResponseOnEventRef", AGet "responseOnEventRef") (* 71 *);
    ("setResponseOnEventRef", ASet "responseOnEventRef" true) (* 74 *)]);
  (* M2/AUTOSARTemplates/SystemTemplate/ECUResourceMapping.py *)
  ("ECUMapping", [("getEcuRef", AGet "ecuRef") (* 38 *);
    ("setEcuRef", ASet "ecuRef" true) (* 41 *);
    ("getEcuInstanceRef", AGet "ecuInstanceRef") (* 46 *);
    ("setEcuInstanceRef", ASet "ecuInstanceRef" true) (* 49 *)]);
  (* M2/AUTOSARTemplates/SystemTemplate/InstanceRefs.py *)
  ("VariableDataPrototypeInSystemInstanceRef", [("getBaseRef", AGet "baseRef") (* 37 *);
    ("setBaseRef", ASet "baseRef" false) (* 40 *);
    ("getContextComponentRefs", AGet "contextComponentRefs") (* 44 *);
    ("addContextComponentRef", AAdd "contextComponentRefs" false) (* 47 *);
    ("getContextCompositionRef", AGet "contextCompositionRef") (* 51 *);
    ("setContextCompositionRef", ASet "contextCompositionRef" false) (* 54 *);
    ("getContextPortRef", AGet "contextPortRef") (* 58 *);
    ("setContextPortRef", ASet "contextPortRef" false) (* 61 *);
    ("getTargetDataPrototypeRef", AGet "targetDataPrototypeRef") (* 65 *);
    ("setTargetDataPrototypeRef", ASet "targetDataPrototypeRef" false) (* 68 *)]);
  (* M2/AUTOSARTemplates/SystemTemplate/InstanceRefs.py *)
  ("ComponentInSystemInstanceRef", [("getBaseRef", AGet "baseRef") (* 97 *);
    ("setBaseRef", ASet "baseRef" false) (* 100 *);
    ("getContextComponentRefs", AGet "contextComponentRefs") (* 104 *);
    ("addContextComponentRef", AAdd "contextComponentRefs" false) (* 107 *);
    ("getContextCompositionRef", AGet "contextCompositionRef") (* 111 *);
    ("setContextCompositionRef", ASet "contextCompositionRef" false) (* 114 *);
    ("getTargetComponentRef", AGet "targetComponentRef") (* 118 *);
    ("setTargetComponentRef", ASet "targetComponentRef" false) (* 121 *)]);
  (* M2/AUTOSARTemplates/SystemTemplate/NetworkManagement.py *)
  ("CanNmClusterCoupling", [("getCoupledClusterRefs", AGet "coupledClusterRefs") (* 53 *);
    ("addCoupledClusterRef", AAdd "coupledClusterRefs" false) (* 56 *);
    ("getNmBusloadReductionEnabled", AGet "nmBusloadReductionEnabled") (* 60 *);
    ("setNmBusloadReductionEnabled", ASet "nmBusloadReductionEnabled" false) (* 63 *);
    ("getNmImmediateRestartEnabled", AGet "nmImmediateRestartEnabled") (* 67 *);
    ("setNmImmediateRestartEnabled", ASet "nmImmediateRestartEnabled" false) (* 70 *)]);
  (* M2/AUTOSARTemplates/SystemTemplate/NetworkManagement.py *)
  ("FlexrayNmClusterCoupling", [("getCoupledClusterRefs", AGet "coupledClusterRefs") (* 95 *);
    ("addCoupledClusterRef", AAdd "coupledClusterRefs" false) (* 98 *)]);
  (* M2/AUTOSARTemplates/SystemTemplate/NetworkManagement.py *)
  ("NmNode", [("getControllerRef", AGet "controllerRef") (* 192 *);
    ("setControllerRef", ASet "controllerRef" true) (* 198 *);
    ("getNmCoordCluster", AGet "nmCoordCluster") (* 207 *);
    ("setNmCoordCluster", ASet "nmCoordCluster" true) (* 213 *);
    ("getNmCoordinatorRole", AGet "nmCoordinatorRole") (* 222 *);
    ("setNmCoordinatorRole", ASet "nmCoordinatorRole" true) (* 228 *);
    ("getNmIfEcuRef", AGet "nmIfEcuRef") (* 237 *);
    ("setNmIfEcuRef", ASet "nmIfEcuRef" true) (* 243 *);
    ("getNmNodeId", AGet "nmNodeId") (* 252 *);
    ("setNmNodeId", ASet "nmNodeId" true) (* 258 *);
    ("getNmPassiveModeEnabled", AGet "nmPassiveModeEnabled") (* 267 *);
    ("setNmPassiveModeEnabled", ASet "nmPassiveModeEnabled" true) (* 273 *);
    ("addRxNmPduRef", AAdd "rxNmPduRefs" false) (* 282 *);
    ("getRxNmPduRefs", AGet "rxNmPduRefs") (* 289 *);
    ("addTxNmPduRef", AAdd "txNmPduRefs" false) (* 295 *);
    ("getTxNmPduRefs", AGet "txNmPduRefs") (* 302 *)]);
  (* M2/AUTOSARTemplates/SystemTemplate/NetworkManagement.py *)
  ("CanNmNode", [("getNmCarWakeUpRxEnabled", AGet "nmCarWakeUpRxEnabled") (* 355 *);
    ("setNmCarWakeUpRxEnabled", ASet "nmCarWakeUpRxEnabled" false) (* 358 *);
    ("getNmMsgCycleOffset", AGet "nmMsgCycleOffset") (* 362 *);
    ("setNmMsgCycleOffset", ASet "nmMsgCycleOffset" false) (* 365 *);
    ("getNmMsgReducedTime", AGet "nmMsgReducedTime") (* 369 *);
    ("setNmMsgReducedTime", ASet "nmMsgReducedTime" false) (* 372 *);
    ("getNmRangeConfig", AGet "nmRangeConfig") (* 376 *);
    ("setNmRangeConfig", ASet "nmRangeConfig" false) (* 379 *)]);
  (* M2/AUTOSARTemplates/SystemTemplate/NetworkManagement.py *)
  ("J1939NodeName", [("getArbitraryAddressCapable", AGet "arbitraryAddressCapable") (* 493 *);
    ("setArbitraryAddressCapable", ASet "arbitraryAddressCapable" true) (* 499 *);
    ("getEcuInstance", AGet "ecuInstance") (* 508 *);
    ("setEcuInstance", ASet "ecuInstance" true) (* 514 *);
    ("getFunction", AGet "function") (* 523 *);
    ("setFunction", ASet "function" true) (* 529 *);
    ("getFunctionInstance", AGet "functionInstance") (* 538 *);
    ("setFunctionInstance", ASet "functionInstance" true) (* 544 *);
    ("getIdentitiyNumber", AGet "identitiyNumber") (* 553 *);
    ("setIdentitiyNumber", ASet "identitiyNumber" true) (* 559 *);
    ("getIndustryGroup", AGet "industryGroup") (* 568 *);
    ("setIndustryGroup", ASet "industryGroup" true) (* 574 *);
    ("getManufacturerCode", AGet "manufacturerCode") (* 583 *);
    ("setManufacturerCode", ASet "manufacturerCode" true) (* 589 *);
    ("getVehicleSystem", AGet "vehicleSystem") (* 598 *);
    ("setVehicleSystem", ASet "vehicleSystem" true) (* 604 *);
    ("getVehicleSystemInstance", AGet "vehicleSystemInstance") (* 613 *);
    ("setVehicleSystemInstance", ASet "vehicleSystemInstance" true) (* 619 *)]);
  (* M2/AUTOSARTemplates/SystemTemplate/NetworkManagement.py *)
  ("J1939NmNode", [("getAddressConfigurationCapability", AGet "addressConfigurationCapability") (* 653 *);
    ("setAddressConfigurationCapability", ASet "addressConfigurationCapability" true) (* 659 *);
    ("getNodeName", AGet "nodeName") (* 668 *);
    ("setNodeName", ASet "nodeName" true) (* 674 *)]);
  (* M2/AUTOSARTemplates/SystemTemplate/NetworkManagement.py *)
  ("UdpNmNode", [("getNmMsgCycleOffset", AGet "nmMsgCycleOffset") (* 712 *);
    ("setNmMsgCycleOffset", ASet "nmMsgCycleOffset" true) (* 715 *)]);
  (* M2/AUTOSARTemplates/SystemTemplate/NetworkManagement.py *)
  ("UdpNmEcu", [("getNmSynchronizationPointEnabled", AGet "nmSynchronizationPointEnabled") (* 793 *);
    ("setNmSynchronizationPointEnabled", ASet "nmSynchronizationPointEnabled" true) (* 796 *)]);
  (* M2/AUTOSARTemplates/SystemTemplate/NetworkManagement.py *)
  ("NmEcu", [("getBusDependentNmEcus", AGet "busDependentNmEcus") (* 855 *);
    ("addBusDependentNmEcu", AAdd "busDependentNmEcus" true) (* 858 *);
    ("getEcuInstanceRef", AGet "ecuInstanceRef") (* 863 *);
    ("setEcuInstanceRef", ASet "ecuInstanceRef" true) (* 866 *);
    ("getNmBusSynchronizationEnabled", AGet "nmBusSynchronizationEnabled") (* 871 *);
    ("setNmBusSynchronizationEnabled", ASet "nmBusSynchronizationEnabled" true) (* 874 *);
    ("getNmComControlEnabled", AGet "nmComControlEnabled") (* 879 *);
    ("setNmComControlEnabled", ASet "nmComControlEnabled" true) (* 882 *);
    ("getNmNodeDetectionEnabled", AGet "nmNodeDetectionEnabled") (* 903 *);
    ("setNmNodeDetectionEnabled", ASet "nmNodeDetectionEnabled" true) (* 906 *);
    ("getNmNodeIdEnabled", AGet "nmNodeIdEnabled") (* 911 *);
    ("setNmNodeIdEnabled", ASet "nmNodeIdEnabled" true) (* 914 *);
    ("getNmPduRxIndicationEnabled", AGet "nmPduRxIndicationEnabled") (* 919 *);
    ("setNmPduRxIndicationEnabled", ASet "nmPduRxIndicationEnabled" true) (* 922 *);
    ("getNmRemoteSleepIndEnabled", AGet "nmRemoteSleepIndEnabled") (* 927 *);
    ("setNmRemoteSleepIndEnabled", ASet "nmRemoteSleepIndEnabled" true) (* 930 *);
    ("getNmRepeatMsgIndEnabled", AGet "nmRepeatMsgIndEnabled") (* 935 *);
    ("setNmRepeatMsgIndEnabled", ASet "nmRepeatMsgIndEnabled" true) (* 938 *);
    ("getNmStateChangeIndEnabled", AGet "nmStateChangeIndEnabled") (* 943 *);
    ("setNmStateChangeIndEnabled", ASet "nmStateChangeIndEnabled" true) (* 946 *);
    ("getNmUserDataEnabled", AGet "nmUserDataEnabled") (* 951 *);
    ("setNmUserDataEnabled", ASet "nmUserDataEnabled" true) (* 954 *)]);
  (* M2/AUTOSARTemplates/SystemTemplate/NetworkManagement.py *)
  ("NmConfig", [("createCanNmCluster", ANew "CanNmCluster" true (PList "elements/NmCluster")) (* 985 *);
    ("createUdpNmCluster", ANew "UdpNmCluster" true (PList "elements/NmCluster")) (* 991 *);
    ("getNmClusters", AGetSorted "elements/NmCluster") (* 1003 *);
    ("getNmClusterCouplings", AGet "nmClusterCouplings") (* 1006 *);
    ("addNmClusterCouplings", AAdd "nmClusterCouplings" false) (* 1009 *);
    ("getNmIfEcus", AGet "nmIfEcus") (* 1013 *);
    ("createNmEcu", ANew "NmEcu" true (PList "nmIfEcus")) (* 1016 *)]);
  (* M2/AUTOSARTemplates/SystemTemplate/NetworkManagement.py *)
  ("NmCluster", [("getCommunicationClusterRef", AGet "communicationClusterRef") (* 1073 *);
    ("setCommunicationClusterRef", ASet "communicationClusterRef" false) (* 1076 *);
    ("setNmChannelId", ASet "nmChannelId" false) (* 1083 *);
    ("setNmChannelSleepMaster", ASet "nmChannelSleepMaster" false) (* 1090 *);
    ("createCanNmNode", ANew "CanNmNode" true (PList "elements/NmNode")) (* 1094 *);
    ("readUdpNmNode", ANew "UdpNmNode" true (PList "elements/NmNode")) (* 1101 *);
    ("createJ1939NmNode", ANew "J1939NmNode" true (PList "elements/NmNode")) (* 1108 *);
    ("getNmNodes", AGetSorted "elements/NmNode") (* 1124 *);
    ("getNmNodeDetectionEnabled", AGet "nmNodeDetectionEnabled") (* 1127 *);
    ("setNmNodeDetectionEnabled", ASet "nmNodeDetectionEnabled" false) (* 1130 *);
    ("getNmNodeIdEnabled", AGet "nmNodeIdEnabled") (* 1134 *);
    ("setNmNodeIdEnabled", ASet "nmNodeIdEnabled" false) (* 1137 *);
    ("getNmRepeatMsgIndEnabled", AGet "nmRepeatMsgIndEnabled") (* 1148 *);
    ("setNmRepeatMsgIndEnabled", ASet "nmRepeatMsgIndEnabled" false) (* 1151 *);
    ("getNmSynchronizingNetwork", AGet "_nmSynchronizingNetwork") (* 1155 *);
    ("setNmSynchronizingNetwork", ASet "_nmSynchronizingNetwork" false) (* 1158 *)]);
  (* M2/AUTOSARTemplates/SystemTemplate/NetworkManagement.py *)
  ("CanNmCluster", [("getNmBusloadReductionActive", AGet "nmBusloadReductionActive") (* 1225 *);
    ("setNmBusloadReductionActive", ASet "nmBusloadReductionActive" false) (* 1228 *);
    ("getNmCarWakeUpRxEnabled", AGet "nmCarWakeUpRxEnabled") (* 1246 *);
    ("setNmCarWakeUpRxEnabled", ASet "nmCarWakeUpRxEnabled" false) (* 1249 *);
    ("getNmCbvPosition", AGet "nmCbvPosition") (* 1253 *);
    ("setNmCbvPosition", ASet "nmCbvPosition" false) (* 1256 *);
    ("getNmChannelActive", AGet "nmChannelActive") (* 1260 *);
    ("setNmChannelActive", ASet "nmChannelActive" false) (* 1263 *);
    ("getNmImmediateNmCycleTime", AGet "nmImmediateNmCycleTime") (* 1267 *);
    ("setNmImmediateNmCycleTime", ASet "nmImmediateNmCycleTime" false) (* 1270 *);
    ("getNmImmediateNmTransmissions", AGet "nmImmediateNmTransmissions") (* 1274 *);
    ("setNmImmediateNmTransmissions", ASet "nmImmediateNmTransmissions" false) (* 1277 *);
    ("getNmMessageTimeoutTime", AGet "nmMessageTimeoutTime") (* 1281 *);
    ("setNmMessageTimeoutTime", ASet "nmMessageTimeoutTime" false) (* 1284 *);
    ("getNmMsgCycleTime", AGet "nmMsgCycleTime") (* 1288 *);
    ("setNmMsgCycleTime", ASet "nmMsgCycleTime" false) (* 1291 *);
    ("getNmNetworkTimeout", AGet "nmNetworkTimeout") (* 1295 *);
    ("setNmNetworkTimeout", ASet "nmNetworkTimeout" false) (* 1298 *);
    ("getNmNidPosition", AGet "nmNidPosition") (* 1302 *);
    ("setNmNidPosition", ASet "nmNidPosition" false) (* 1305 *);
    ("getNmRemoteSleepIndicationTime", AGet "nmRemoteSleepIndicationTime") (* 1309 *);
    ("setNmRemoteSleepIndicationTime", ASet "nmRemoteSleepIndicationTime" false) (* 1312 *);
    ("getNmRepeatMessageTime", AGet "nmRepeatMessageTime") (* 1316 *);
    ("setNmRepeatMessageTime", ASet "nmRepeatMessageTime" false) (* 1319 *);
    ("getNmUserDataLength", AGet "nmUserDataLength") (* 1323 *);
    ("setNmUserDataLength", ASet "nmUserDataLength" false) (* 1326 *);
    ("getNmWaitBusSleepTime", AGet "nmWaitBusSleepTime") (* 1330 *);
    ("setNmWaitBusSleepTime", ASet "nmWaitBusSleepTime" false) (* 1333 *)]);
  (* M2/AUTOSARTemplates/SystemTemplate/NetworkManagement.py *)
  ("UdpNmClusterCoupling", [("getCoupledClusterRefs", AGet "coupledClusterRefs") (* 1386 *);
    ("addCoupledClusterRef", AAdd "coupledClusterRefs" true) (* 1389 *);
    ("getNmImmediateRestartEnabled", AGet "nmImmediateRestartEnabled") (* 1394 *);
    ("setNmImmediateRestartEnabled", ASet "nmImmediateRestartEnabled" true) (* 1397 *)]);
  (* M2/AUTOSARTemplates/SystemTemplate/NetworkManagement.py *)
  ("UdpNmCluster", [("getNmCbvPosition", AGet "nmCbvPosition") (* 1453 *);
    ("setNmCbvPosition", ASet "nmCbvPosition" true) (* 1456 *);
    ("getNmChannelActive", AGet "nmChannelActive") (* 1461 *);
    ("setNmChannelActive", ASet "nmChannelActive" true) (* 1464 *);
    ("getNmImmediateNmCycleTime", AGet "nmImmediateNmCycleTime") (* 1469 *);
    ("setNmImmediateNmCycleTime", ASet "nmImmediateNmCycleTime" true) (* 1472 *);
    ("getNmImmediateNmTransmissions", AGet "nmImmediateNmTransmissions") (* 1477 *);
    ("setNmImmediateNmTransmissions", ASet "nmImmediateNmTransmissions" true) (* 1480 *);
    ("getNmMessageTimeoutTime", AGet "nmMessageTimeoutTime") (* 1485 *);
    ("setNmMessageTimeoutTime", ASet "nmMessageTimeoutTime" true) (* 1488 *);
    ("getNmMsgCycleTime", AGet "nmMsgCycleTime") (* 1493 *);
    ("setNmMsgCycleTime", ASet "nmMsgCycleTime" true) (* 1496 *);
    ("getNmNetworkTimeout", AGet "nmNetworkTimeout") (* 1501 *);
    ("setNmNetworkTimeout", ASet "nmNetworkTimeout" true) (* 1504 *);
    ("getNmNidPosition", AGet "nmNidPosition") (* 1509 *);
    ("setNmNidPosition", ASet "nmNidPosition" true) (* 1512 *);
    ("getNmRemoteSleepIndicationTime", AGet "nmRemoteSleepIndicationTime") (* 1517 *);
    ("setNmRemoteSleepIndicationTime", ASet "nmRemoteSleepIndicationTime" true) (* 1520 *);
    ("getNmRepeatMessageTime", AGet "nmRepeatMessageTime") (* 1525 *);
    ("setNmRepeatMessageTime", ASet "nmRepeatMessageTime" true) (* 1528 *);
    ("getNmWaitBusSleepTime", AGet "nmWaitBusSleepTime") (* 1533 *);
    ("setNmWaitBusSleepTime", ASet "nmWaitBusSleepTime" true) (* 1536 *);
    ("getVlanRef", AGet "vlanRef") (* 1541 *);
    ("setVlanRef", ASet "vlanRef" true) (* 1544 *)]);
  (* M2/AUTOSARTemplates/SystemTemplate/RteEventToOsTaskMapping.py *)
  ("AppOsTaskProxyToEcuTaskProxyMapping", [("getOffset", AGet "offset") (* 47 *);
    ("setOffset", ASet "offset" true) (* 50 *)]);
  (* M2/AUTOSARTemplates/SystemTemplate/SWmapping.py *)
  ("SwcToImplMapping", [("getComponentIRefs", AGet "componentIRefs") (* 30 *);
    ("addComponentIRef", AAdd "componentIRefs" true) (* 33 *);
    ("getComponentImplementationRef", AGet "componentImplementationRef") (* 38 *);
    ("setComponentImplementationRef", ASet "componentImplementationRef" true) (* 41 *)]);
  (* M2/AUTOSARTemplates/SystemTemplate/TransportProtocols.py *)
  ("TpConfig", [("getCommunicationClusterRef", AGet "communicationClusterRef") (* 34 *);
    ("setCommunicationClusterRef", ASet "communicationClusterRef" true) (* 37 *)]);
  (* M2/AUTOSARTemplates/SystemTemplate/TransportProtocols.py *)
  ("CanTpAddress", [("getTpAddress", AGet "tpAddress") (* 63 *);
    ("setTpAddress", ASet "tpAddress" true) (* 66 *);
    ("getTpAddressExtensionValue", AGet "tpAddressExtensionValue") (* 71 *);
    ("setTpAddressExtensionValue", ASet "tpAddressExtensionValue" true) (* 74 *)]);
  (* M2/AUTOSARTemplates/SystemTemplate/TransportProtocols.py *)
  ("CanTpChannel", [("getChannelId", AGet "channelId") (* 99 *);
    ("setChannelId", ASet "channelId" true) (* 102 *);
    ("getChannelMode", AGet "channelMode") (* 107 *);
    ("setChannelMode", ASet "channelMode" true) (* 110 *)]);
  (* M2/AUTOSARTemplates/SystemTemplate/TransportProtocols.py *)
  ("TpConnection", [("getIdent", AGet "ident") (* 150 *);
    ("createTpConnectionIdent", ANew "TpConnectionIdent" true (PSlot "ident")) (* 153 *)]);
  (* M2/AUTOSARTemplates/SystemTemplate/TransportProtocols.py *)
  ("CanTpConnection", [("getAddressingFormat", AGet "addressingFormat") (* 221 *);
    ("setAddressingFormat", ASet "addressingFormat" true) (* 224 *);
    ("getCancellation", AGet "cancellation") (* 229 *);
    ("setCancellation", ASet "cancellation" true) (* 232 *);
    ("getCanTpChannelRef", AGet "canTpChannelRef") (* 237 *);
    ("setCanTpChannelRef", ASet "canTpChannelRef" true) (* 240 *);
    ("getDataPduRef", AGet "dataPduRef") (* 245 *);
    ("setDataPduRef", ASet "dataPduRef" true) (* 248 *);
    ("getFlowControlPduRef", AGet "flowControlPduRef") (* 253 *);
    ("setFlowControlPduRef", ASet "flowControlPduRef" true) (* 256 *);
    ("getMaxBlockSize", AGet "maxBlockSize") (* 261 *);
    ("setMaxBlockSize", ASet "maxBlockSize" true) (* 264 *);
    ("getMulticastRef", AGet "multicastRef") (* 269 *);
    ("setMulticastRef", ASet "multicastRef" true) (* 272 *);
    ("getPaddingActivation", AGet "paddingActivation") (* 277 *);
    ("setPaddingActivation", ASet "paddingActivation" true) (* 280 *);
    ("getReceiverRefs", AGet "receiverRefs") (* 285 *);
    ("addReceiverRef", AAdd "receiverRefs" true) (* 288 *);
    ("getTaType", AGet "taType") (* 293 *);
    ("setTaType", ASet "taType" true) (* 296 *);
    ("getTimeoutBr", AGet "timeoutBr") (* 301 *);
    ("setTimeoutBr", ASet "timeoutBr" true) (* 304 *);
    ("getTimeoutBs", AGet "timeoutBs") (* 309 *);
    ("setTimeoutBs", ASet "timeoutBs" true) (* 312 *);
    ("getTimeoutCr", AGet "timeoutCr") (* 317 *);
    ("setTimeoutCr", ASet "timeoutCr" true) (* 320 *);
    ("getTimeoutCs", AGet "timeoutCs") (* 325 *);
    ("setTimeoutCs", ASet "timeoutCs" true) (* 328 *);
    ("getTpSduRef", AGet "tpSduRef") (* 333 *);
    ("setTpSduRef", ASet "tpSduRef" true) (* 336 *);
    ("getTransmitterRef", AGet "transmitterRef") (* 341 *);
    ("setTransmitterRef", ASet "transmitterRef" true) (* 344 *)]);
  (* M2/AUTOSARTemplates/SystemTemplate/TransportProtocols.py *)
  ("CanTpEcu", [("getCycleTimeMainFunction", AGet "cycleTimeMainFunction") (* 370 *);
    ("setCycleTimeMainFunction", ASet "cycleTimeMainFunction" true) (* 373 *);
    ("getEcuInstanceRef", AGet "ecuInstanceRef") (* 378 *);
    ("setEcuInstanceRef", ASet "ecuInstanceRef" true) (* 381 *)]);
  (* M2/AUTOSARTemplates/SystemTemplate/TransportProtocols.py *)
  ("CanTpNode", [("getConnectorRef", AGet "connectorRef") (* 419 *);
    ("setConnectorRef", ASet "connectorRef" true) (* 422 *);
    ("getMaxFcWait", AGet "maxFcWait") (* 427 *);
    ("setMaxFcWait", ASet "maxFcWait" true) (* 430 *);
    ("getStMin", AGet "stMin") (* 435 *);
    ("setStMin", ASet "stMin" true) (* 438 *);
    ("getTimeoutAr", AGet "timeoutAr") (* 443 *);
    ("setTimeoutAr", ASet "timeoutAr" true) (* 446 *);
    ("getTimeoutAs", AGet "timeoutAs") (* 451 *);
    ("setTimeoutAs", ASet "timeoutAs" true) (* 454 *);
    ("getTpAddressRef", AGet "tpAddressRef") (* 459 *);
    ("setTpAddressRef", ASet "tpAddressRef" true) (* 462 *)]);
  (* M2/AUTOSARTemplates/SystemTemplate/TransportProtocols.py *)
  ("CanTpConfig", [("getTpAddresses", AGet "tpAddresses") (* 497 *);
    ("createCanTpAddress", ANew "CanTpAddress" true (PList "tpAddresses")) (* 500 *);
    ("getTpChannels", AGet "tpChannels") (* 507 *);
    ("createCanTpChannel", ANew "CanTpChannel" true (PList "tpChannels")) (* 510 *);
    ("getTpConnections", AGet "tpConnections") (* 517 *);
    ("addTpConnection", AAdd "tpConnections" true) (* 520 *);
    ("getTpEcus", AGet "tpEcus") (* 525 *);
    ("addTpEcu", AAdd "tpEcus" true) (* 528 *);
    ("getTpNodes", AGet "tpNodes") (* 533 *);
    ("createCanTpNode", ANew "CanTpNode" true (PList "tpNodes")) (* 536 *)]);
  (* M2/AUTOSARTemplates/SystemTemplate/TransportProtocols.py *)
  ("DoIpLogicAddress", [("getAddress", AGet "address") (* 564 *);
    ("setAddress", ASet "address" true) (* 567 *)]);
  (* M2/AUTOSARTemplates/SystemTemplate/TransportProtocols.py *)
  ("DoIpTpConnection", [("getDoIpSourceAddressRef", AGet "doIpSourceAddressRef") (* 604 *);
    ("setDoIpSourceAddressRef", ASet "doIpSourceAddressRef" true) (* 607 *);
    ("getDoIpTargetAddressRef", AGet "doIpTargetAddressRef") (* 612 *);
    ("setDoIpTargetAddressRef", ASet "doIpTargetAddressRef" true) (* 615 *);
    ("getTpSduRef", AGet "tpSduRef") (* 620 *);
    ("setTpSduRef", ASet "tpSduRef" true) (* 623 *)]);
  (* M2/AUTOSARTemplates/SystemTemplate/TransportProtocols.py *)
  ("DoIpTpConfig", [("getDoIpLogicAddresses", AGet "doIpLogicAddresses") (* 649 *);
    ("createDoIpLogicAddress", ANew "DoIpLogicAddress" true (PList "doIpLogicAddresses")) (* 652 *);
    ("getTpConnections", AGet "tpConnections") (* 659 *);
    ("addTpConnection", AAdd "tpConnections" true) (* 662 *)]);
  (* M2/AUTOSARTemplates/SystemTemplate/TransportProtocols.py *)
  ("TpAddress", [("getTpAddress", AGet "tpAddress") (* 684 *);
    ("setTpAddress", ASet "tpAddress" true) (* 687 *)]);
  (* M2/AUTOSARTemplates/SystemTemplate/TransportProtocols.py *)
  ("LinTpConnection", [("getDataPduRef", AGet "dataPduRef") (* 734 *);
    ("setDataPduRef", ASet "dataPduRef" true) (* 737 *);
    ("getFlowControlRef", AGet "flowControlRef") (* 742 *);
    ("setFlowControlRef", ASet "flowControlRef" true) (* 745 *);
    ("getLinTpNSduRef", AGet "linTpNSduRef") (* 750 *);
    ("setLinTpNSduRef", ASet "linTpNSduRef" true) (* 753 *);
    ("getMulticastRef", AGet "multicastRef") (* 758 *);
    ("setMulticastRef", ASet "multicastRef" true) (* 761 *);
    ("getReceiverRefs", AGet "receiverRefs") (* 766 *);
    ("addReceiverRef", AAdd "receiverRefs" true) (* 769 *);
    ("getTimeoutAs", AGet "timeoutAs") (* 774 *);
    ("setTimeoutAs", ASet "timeoutAs" true) (* 777 *);
    ("getTimeoutCr", AGet "timeoutCr") (* 782 *);
    ("setTimeoutCr", ASet "timeoutCr" true) (* 785 *);
    ("getTimeoutCs", AGet "timeoutCs") (* 790 *);
    ("setTimeoutCs", ASet "timeoutCs" true) (* 793 *);
    ("getTransmitterRef", AGet "transmitterRef") (* 798 *);
    ("setTransmitterRef", ASet "transmitterRef" true) (* 801 *)]);
  (* M2/AUTOSARTemplates/SystemTemplate/TransportProtocols.py *)
  ("LinTpNode", [("getConnectorRef", AGet "connectorRef") (* 839 *);
    ("setConnectorRef", ASet "connectorRef" true) (* 842 *);
    ("getDropNotRequestedNad", AGet "dropNotRequestedNad") (* 847 *);
    ("setDropNotRequestedNad", ASet "dropNotRequestedNad" true) (* 850 *);
    ("getP2Max", AGet "p2Max") (* 863 *);
    ("setP2Max", ASet "p2Max" true) (* 866 *);
    ("getP2Timing", AGet "p2Timing") (* 871 *);
    ("setP2Timing", ASet "p2Timing" true) (* 874 *);
    ("getTpAddressRef", AGet "tpAddressRef") (* 879 *);
    ("setTpAddressRef", ASet "tpAddressRef" true) (* 882 *)]);
  (* M2/AUTOSARTemplates/SystemTemplate/TransportProtocols.py *)
  ("LinTpConfig", [("getTpAddresses", AGet "tpAddresses") (* 911 *);
    ("createTpAddress", ANew "TpAddress" true (PList "tpAddresses")) (* 914 *);
    ("getTpConnections", AGet "tpConnections") (* 921 *);
    ("addTpConnection", AAdd "tpConnections" true) (* 924 *);
    ("getTpNodes", AGet "tpNodes") (* 929 *);
    ("createLinTpNode", ANew "LinTpNode" true (PList "tpNodes")) (* 932 *)]);
  (* M2/AUTOSARTemplates/SystemTemplate/__init__.py *)
  ("SwcToEcuMapping", [("getComponentIRefs", AGet "componentIRefs") (* 49 *);
    ("addComponentIRef", AAdd "componentIRefs" false) (* 52 *);
    ("getEcuInstanceRef", AGet "ecuInstanceRef") (* 63 *);
    ("setEcuInstanceRef", ASet "ecuInstanceRef" false) (* 66 *)]);
  (* M2/AUTOSARTemplates/SystemTemplate/__init__.py *)
  ("SystemMapping", [("getDataMappings", AGet "dataMappings") (* 242 *);
    ("addDataMapping", AAdd "dataMappings" false) (* 245 *);
    ("getEcuResourceMappings", AGet "ecuResourceMappings") (* 256 *);
    ("createECUMapping", ANew "ECUMapping" true (PList "ecuResourceMappings")) (* 259 *);
    ("getSwImplMappings", AGet "swImplMappings") (* 357 *);
    ("createSwcToImplMapping", ANew "SwcToImplMapping" true (PList "swImplMappings")) (* 360 *);
    ("getSwMappings", AGet "swMappings") (* 367 *);
    ("createSwcToEcuMapping", ANew "SwcToEcuMapping" true (PList "swMappings")) (* 373 *)]);
  (* M2/AUTOSARTemplates/SystemTemplate/__init__.py *)
  ("RootSwCompositionPrototype", [("getCalibrationParameterValueSetRefs", AGet "calibrationParameterValueSetRefs") (* 424 *);
    ("addCalibrationParameterValueSetRef", AAdd "calibrationParameterValueSetRefs" true) (* 430 *);
    ("getFlatMapRef", AGet "flatMapRef") (* 439 *);
    ("setFlatMapRef", ASet "flatMapRef" true) (* 445 *);
    ("getSoftwareCompositionTRef", AGet "softwareCompositionTRef") (* 454 *);
    ("setSoftwareCompositionTRef", ASet "softwareCompositionTRef" true) (* 460 *)]);
  (* M2/AUTOSARTemplates/SystemTemplate/__init__.py *)
  ("System", [("getEcuExtractVersion", AGet "ecuExtractVersion") (* 564 *);
    ("setEcuExtractVersion", ASet "ecuExtractVersion" false) (* 567 *);
    ("getFibexElementRefs", AGet "fibexElements") (* 571 *);
    ("addFibexElementRef", AAdd "fibexElements" true) (* 575 *);
    ("getMappings", AGetSorted "elements/SystemMapping") (* 594 *);
    ("createSystemMapping", ANew "SystemMapping" true (PList "elements/SystemMapping")) (* 600 *);
    ("getRootSoftwareComposition", AGet "rootSoftwareComposition") (* 620 *);
    ("createRootSoftwareComposition", ANew "RootSwCompositionPrototype" true (PSlot "rootSoftwareComposition")) (* 623 *);
    ("getSystemVersion", AGet "systemVersion") (* 644 *);
    ("setSystemVersion", ASet "systemVersion" false) (* 647 *)]);
  (* M2/AUTOSARTemplates/SystemTemplate/Fibex/Fibex4Multiplatform.py *)
  ("FrameMapping", [("getIntroduction", AGet "introduction") (* 31 *);
    ("setIntroduction", ASet "introduction" false) (* 34 *)]);
  (* M2/AUTOSARTemplates/SystemTemplate/Fibex/Fibex4Multiplatform.py *)
  ("ISignalMapping", [("getIntroduction", AGet "introduction") (* 75 *);
    ("setIntroduction", ASet "introduction" false) (* 78 *);
    ("getSourceSignalRef", AGet "sourceSignalRef") (* 82 *);
    ("getTargetSignalRef", AGet "targetSignalRef") (* 89 *)]);
  (* M2/AUTOSARTemplates/SystemTemplate/Fibex/Fibex4Multiplatform.py *)
  ("TargetIPduRef", [("getDefaultValue", AGet "defaultValue") (* 176 *);
    ("setDefaultValue", ASet "defaultValue" true) (* 179 *);
    ("getTargetIPdu", AGet "targetIPdu") (* 184 *);
    ("setTargetIPdu", ASet "targetIPdu" true) (* 187 *)]);
  (* M2/AUTOSARTemplates/SystemTemplate/Fibex/Fibex4Multiplatform.py *)
  ("IPduMapping", [("getIntroduction", AGet "introduction") (* 218 *);
    ("setIntroduction", ASet "introduction" true) (* 221 *);
    ("getSourceIpduRef", AGet "sourceIpduRef") (* 234 *);
    ("setSourceIpduRef", ASet "sourceIpduRef" true) (* 237 *);
    ("getTargetIPdu", AGet "targetIPdu") (* 242 *);
    ("setTargetIPdu", ASet "targetIPdu" true) (* 245 *)]);
  (* M2/AUTOSARTemplates/SystemTemplate/Fibex/Fibex4Multiplatform.py *)
  ("Gateway", [("getEcuRef", AGet "ecuRef") (* 276 *);
    ("setEcuRef", ASet "ecuRef" false) (* 279 *);
    ("getIPduMappings", AGet "iPduMappings") (* 290 *);
    ("addIPduMapping", AAdd "iPduMappings" false) (* 293 *);
    ("getSignalMappings", AGet "signalMappings") (* 297 *);
    ("addSignalMapping", AAdd "signalMappings" false) (* 300 *)]);
  (* M2/AUTOSARTemplates/SystemTemplate/Fibex/Fibex4Can/CanCommunication.py *)
  ("RxIdentifierRange", [("getLowerCanId", AGet "lowerCanId") (* 29 *);
    ("setLowerCanId", ASet "lowerCanId" false) (* 32 *);
    ("getUpperCanId", AGet "upperCanId") (* 36 *);
    ("setUpperCanId", ASet "upperCanId" false) (* 39 *)]);
  (* M2/AUTOSARTemplates/SystemTemplate/Fibex/Fibex4Can/CanCommunication.py *)
  ("CanFrameTriggering", [("getAbsolutelyScheduledTimings", AGet "absolutelyScheduledTimings") (* 105 *);
    ("getCanAddressingMode", AGet "canAddressingMode") (* 112 *);
    ("setCanAddressingMode", ASet "canAddressingMode" false) (* 115 *);
    ("getCanFdFrameSupport", AGet "canFdFrameSupport") (* 119 *);
    ("setCanFdFrameSupport", ASet "canFdFrameSupport" false) (* 122 *);
    ("getCanFrameRxBehavior", AGet "canFrameRxBehavior") (* 126 *);
    ("setCanFrameRxBehavior", ASet "canFrameRxBehavior" false) (* 129 *);
    ("getCanFrameTxBehavior", AGet "canFrameTxBehavior") (* 133 *);
    ("setCanFrameTxBehavior", ASet "canFrameTxBehavior" false) (* 136 *);
    ("getIdentifier", AGet "identifier") (* 147 *);
    ("setIdentifier", ASet "identifier" false) (* 150 *);
    ("getRxIdentifierRange", AGet "rxIdentifierRange") (* 161 *);
    ("setRxIdentifierRange", ASet "rxIdentifierRange" false) (* 164 *)]);
  (* M2/AUTOSARTemplates/SystemTemplate/Fibex/Fibex4Can/CanTopology.py *)
  ("CanControllerFdConfiguration", [("getPaddingValue", AGet "paddingValue") (* 60 *);
    ("setPaddingValue", ASet "paddingValue" true) (* 66 *);
    ("getPropSeg", AGet "propSeg") (* 75 *);
    ("setPropSeg", ASet "propSeg" true) (* 81 *);
    ("getSspOffset", AGet "sspOffset") (* 90 *);
    ("setSspOffset", ASet "sspOffset" true) (* 96 *);
    ("getSyncJumpWidth", AGet "syncJumpWidth") (* 105 *);
    ("setSyncJumpWidth", ASet "syncJumpWidth" true) (* 111 *);
    ("getTimeSeg1", AGet "timeSeg1") (* 120 *);
    ("setTimeSeg1", ASet "timeSeg1" true) (* 126 *);
    ("getTimeSeg2", AGet "timeSeg2") (* 135 *);
    ("setTimeSeg2", ASet "timeSeg2" true) (* 141 *);
    ("getTxBitRateSwitch", AGet "txBitRateSwitch") (* 150 *);
    ("setTxBitRateSwitch", ASet "txBitRateSwitch" true) (* 156 *)]);
  (* M2/AUTOSARTemplates/SystemTemplate/Fibex/Fibex4Can/CanTopology.py *)
  ("CanControllerFdConfigurationRequirements", [("getMaxNumberOfTimeQuantaPerBit", AGet "maxNumberOfTimeQuantaPerBit") (* 210 *);
    ("setMaxNumberOfTimeQuantaPerBit", ASet "maxNumberOfTimeQuantaPerBit" true) (* 213 *);
    ("getMaxSamplePoint", AGet "maxSamplePoint") (* 218 *);
    ("setMaxSamplePoint", ASet "maxSamplePoint" true) (* 221 *);
    ("getMaxSyncJumpWidth", AGet "maxSyncJumpWidth") (* 226 *);
    ("setMaxSyncJumpWidth", ASet "maxSyncJumpWidth" true) (* 229 *);
    ("getMaxTrcvDelayCompensationOffset", AGet "maxTrcvDelayCompensationOffset") (* 234 *);
    ("setMaxTrcvDelayCompensationOffset", ASet "maxTrcvDelayCompensationOffset" true) (* 237 *);
    ("getMinNumberOfTimeQuantaPerBit", AGet "minNumberOfTimeQuantaPerBit") (* 242 *);
    ("setMinNumberOfTimeQuantaPerBit", ASet "minNumberOfTimeQuantaPerBit" true) (* 245 *);
    ("getMinSamplePoint", AGet "minSamplePoint") (* 250 *);
    ("setMinSamplePoint", ASet "minSamplePoint" true) (* 253 *);
    ("getMinSyncJumpWidth", AGet "minSyncJumpWidth") (* 258 *);
    ("setMinSyncJumpWidth", ASet "minSyncJumpWidth" true) (* 261 *);
    ("getMinTrcvDelayCompensationOffset", AGet "minTrcvDelayCompensationOffset") (* 266 *);
    ("setMinTrcvDelayCompensationOffset", ASet "minTrcvDelayCompensationOffset" true) (* 269 *);
    ("getPaddingValue", AGet "paddingValue") (* 274 *);
    ("setPaddingValue", ASet "paddingValue" true) (* 277 *);
    ("getTxBitRateSwitch", AGet "txBitRateSwitch") (* 282 *);
    ("setTxBitRateSwitch", ASet "txBitRateSwitch" true) (* 285 *)]);
  (* M2/AUTOSARTemplates/SystemTemplate/Fibex/Fibex4Can/CanTopology.py *)
  ("CanControllerXlConfiguration", [("getErrorSignalingEnabled", AGet "errorSignalingEnabled") (* 353 *);
    ("setErrorSignalingEnabled", ASet "errorSignalingEnabled" true) (* 357 *);
    ("getPropSeg", AGet "propSeg") (* 364 *);
    ("setPropSeg", ASet "propSeg" true) (* 368 *);
    ("getPwmL", AGet "pwmL") (* 375 *);
    ("setPwmL", ASet "pwmL" true) (* 379 *);
    ("getPwmO", AGet "pwmO") (* 386 *);
    ("setPwmO", ASet "pwmO" true) (* 390 *);
    ("getPwmS", AGet "pwmS") (* 397 *);
    ("setPwmS", ASet "pwmS" true) (* 401 *);
    ("getSspOffset", AGet "sspOffset") (* 408 *);
    ("setSspOffset", ASet "sspOffset" true) (* 412 *);
    ("getSyncJumpWidth", AGet "syncJumpWidth") (* 419 *);
    ("setSyncJumpWidth", ASet "syncJumpWidth" true) (* 423 *);
    ("getTimeSeg1", AGet "timeSeg1") (* 430 *);
    ("setTimeSeg1", ASet "timeSeg1" true) (* 434 *);
    ("getTimeSeg2", AGet "timeSeg2") (* 441 *);
    ("setTimeSeg2", ASet "timeSeg2" true) (* 445 *);
    ("getTrcvPwmModeEnabled", AGet "trcvPwmModeEnabled") (* 452 *);
    ("setTrcvPwmModeEnabled", ASet "trcvPwmModeEnabled" true) (* 456 *)]);
  (* M2/AUTOSARTemplates/SystemTemplate/Fibex/Fibex4Can/CanTopology.py *)
  ("CanControllerXlConfigurationRequirements", [("getErrorSignalingEnabled", AGet "errorSignalingEnabled") (* 556 *);
    ("setErrorSignalingEnabled", ASet "errorSignalingEnabled" true) (* 560 *);
    ("getMaxNumberOfTimeQuantaPerBit", AGet "maxNumberOfTimeQuantaPerBit") (* 567 *);
    ("setMaxNumberOfTimeQuantaPerBit", ASet "maxNumberOfTimeQuantaPerBit" true) (* 571 *);
    ("getMaxPwmL", AGet "maxPwmL") (* 578 *);
    ("setMaxPwmL", ASet "maxPwmL" true) (* 582 *);
    ("getMaxPwmO", AGet "maxPwmO") (* 589 *);
    ("setMaxPwmO", ASet "maxPwmO" true) (* 593 *);
    ("getMaxPwmS", AGet "maxPwmS") (* 600 *);
    ("setMaxPwmS", ASet "maxPwmS" true) (* 604 *);
    ("getMaxSamplePoint", AGet "maxSamplePoint") (* 611 *);
    ("setMaxSamplePoint", ASet "maxSamplePoint" true) (* 615 *);
    ("getMaxSyncJumpWidth", AGet "maxSyncJumpWidth") (* 622 *);
    ("setMaxSyncJumpWidth", ASet "maxSyncJumpWidth" true) (* 626 *);
    ("getMaxTrcvDelayCompensationOffset", AGet "maxTrcvDelayCompensationOffset") (* 633 *);
    ("setMaxTrcvDelayCompensationOffset", ASet "maxTrcvDelayCompensationOffset" true) (* 637 *);
    ("getMinNumberOfTimeQuantaPerBit", AGet "minNumberOfTimeQuantaPerBit") (* 644 *);
    ("setMinNumberOfTimeQuantaPerBit", ASet "minNumberOfTimeQuantaPerBit" true) (* 648 *);
    ("getMinPwmL", AGet "minPwmL") (* 655 *);
    ("setMinPwmL", ASet "minPwmL" true) (* 659 *);
    ("getMinPwmO", AGet "minPwmO") (* 666 *);
    ("setMinPwmO", ASet "minPwmO" true) (* 670 *);
    ("getMinPwmS", AGet "minPwmS") (* 677 *);
    ("setMinPwmS", ASet "minPwmS" true) (* 681 *);
    ("getMinSamplePoint", AGet "minSamplePoint") (* 688 *);
    ("setMinSamplePoint", ASet "minSamplePoint" true) (* 692 *);
    ("getMinSyncJumpWidth", AGet "minSyncJumpWidth") (* 699 *);
    ("setMinSyncJumpWidth", ASet "minSyncJumpWidth" true) (* 703 *);
    ("getMinTrcvDelayCompensationOffset", AGet "minTrcvDelayCompensationOffset") (* 710 *);
    ("setMinTrcvDelayCompensationOffset", ASet "minTrcvDelayCompensationOffset" true) (* 714 *);
    ("getTrcvPwmModeEnabled", AGet "trcvPwmModeEnabled") (* 721 *);
    ("setTrcvPwmModeEnabled", ASet "trcvPwmModeEnabled" true) (* 725 *)]);
  (* M2/AUTOSARTemplates/SystemTemplate/Fibex/Fibex4Can/CanTopology.py *)
  ("AbstractCanCommunicationControllerAttributes", [("getCanControllerFdAttributes", AGet "canControllerFdAttributes") (* 768 *);
    ("setCanControllerFdAttributes", ASet "canControllerFdAttributes" true) (* 772 *);
    ("getCanControllerFdRequirements", AGet "canControllerFdRequirements") (* 779 *);
    ("setCanControllerFdRequirements", ASet "canControllerFdRequirements" true) (* 783 *);
    ("getCanControllerXlAttributes", AGet "canControllerXlAttributes") (* 790 *);
    ("setCanControllerXlAttributes", ASet "canControllerXlAttributes" true) (* 794 *);
    ("getCanControllerXlRequirements", AGet "canControllerXlRequirements") (* 801 *);
    ("setCanControllerXlRequirements", ASet "canControllerXlRequirements" true) (* 805 *)]);
  (* M2/AUTOSARTemplates/SystemTemplate/Fibex/Fibex4Can/CanTopology.py *)
  ("CanControllerConfigurationRequirements", [("getMaxNumberOfTimeQuantaPerBit", AGet "maxNumberOfTimeQuantaPerBit") (* 845 *);
    ("setMaxNumberOfTimeQuantaPerBit", ASet "maxNumberOfTimeQuantaPerBit" false) (* 848 *);
    ("getMaxSamplePoint", AGet "maxSamplePoint") (* 852 *);
    ("setMaxSamplePoint", ASet "maxSamplePoint" false) (* 855 *);
    ("getMaxSyncJumpWidth", AGet "maxSyncJumpWidth") (* 859 *);
    ("setMaxSyncJumpWidth", ASet "maxSyncJumpWidth" false) (* 862 *);
    ("getMinNumberOfTimeQuantaPerBit", AGet "minNumberOfTimeQuantaPerBit") (* 866 *);
    ("setMinNumberOfTimeQuantaPerBit", ASet "minNumberOfTimeQuantaPerBit" false) (* 869 *);
    ("getMinSamplePoint", AGet "minSamplePoint") (* 873 *);
    ("setMinSamplePoint", ASet "minSamplePoint" false) (* 876 *);
    ("getMinSyncJumpWidth", AGet "minSyncJumpWidth") (* 880 *);
    ("setMinSyncJumpWidth", ASet "minSyncJumpWidth" false) (* 883 *)]);
  (* M2/AUTOSARTemplates/SystemTemplate/Fibex/Fibex4Can/CanTopology.py *)
  ("AbstractCanCommunicationController", [("getCanControllerAttributes", AGet "canControllerAttributes") (* 908 *);
    ("setCanControllerAttributes", ASet "canControllerAttributes" true) (* 914 *)]);
  (* M2/AUTOSARTemplates/SystemTemplate/Fibex/Fibex4Ethernet/EthernetCommunication.py *)
  ("SocketConnection", [("getClientIpAddrFromConnectionRequest", AGet "clientIpAddrFromConnectionRequest") (* 75 *);
    ("setClientIpAddrFromConnectionRequest", ASet "clientIpAddrFromConnectionRequest" false) (* 78 *);
    ("getClientPortRef", AGet "clientPortRef") (* 82 *);
    ("setClientPortRef", ASet "clientPortRef" false) (* 85 *);
    ("getClientPortFromConnectionRequest", AGet "clientPortFromConnectionRequest") (* 89 *);
    ("setClientPortFromConnectionRequest", ASet "clientPortFromConnectionRequest" false) (* 92 *);
    ("getPdus", AGet "pdus") (* 96 *);
    ("addPdu", AAdd "pdus" false) (* 99 *);
    ("getPduCollectionMaxBufferSize", AGet "pduCollectionMaxBufferSize") (* 110 *);
    ("setPduCollectionMaxBufferSize", ASet "pduCollectionMaxBufferSize" false) (* 113 *);
    ("getPduCollectionTimeout", AGet "pduCollectionTimeout") (* 117 *);
    ("setPduCollectionTimeout", ASet "pduCollectionTimeout" false) (* 120 *);
    ("getRuntimeIpAddressConfiguration", AGet "runtimeIpAddressConfiguration") (* 124 *);
    ("setRuntimeIpAddressConfiguration", ASet "runtimeIpAddressConfiguration" false) (* 127 *);
    ("getRuntimePortConfiguration", AGet "runtimePortConfiguration") (* 131 *);
    ("setRuntimePortConfiguration", ASet "runtimePortConfiguration" false) (* 134 *);
    ("getShortLabel", AGet "shortLabel") (* 138 *);
    ("setShortLabel", ASet "shortLabel" false) (* 141 *)]);
  (* M2/AUTOSARTemplates/SystemTemplate/Fibex/Fibex4Ethernet/EthernetCommunication.py *)
  ("SocketConnectionIpduIdentifier", [("getHeaderId", AGet "headerId") (* 181 *);
    ("setHeaderId", ASet "headerId" false) (* 184 *);
    ("getPduCollectionSemantics", AGet "pduCollectionSemantics") (* 195 *);
    ("setPduCollectionSemantics", ASet "pduCollectionSemantics" false) (* 198 *);
    ("getPduCollectionTrigger", AGet "pduCollectionTrigger") (* 202 *);
    ("setPduCollectionTrigger", ASet "pduCollectionTrigger" false) (* 205 *);
    ("getPduRef", AGet "PduRef") (* 209 *);
    ("setPduRef", ASet "PduRef" false) (* 212 *);
    ("getPduTriggeringRef", AGet "pduTriggeringRef") (* 216 *);
    ("setPduTriggeringRef", ASet "pduTriggeringRef" false) (* 219 *);
    ("getRoutingGroupRefs", AGet "routingGroupRefs") (* 223 *)]);
  (* M2/AUTOSARTemplates/SystemTemplate/Fibex/Fibex4Ethernet/EthernetCommunication.py *)
  ("SocketConnectionBundle", [("getBundledConnections", AGet "bundledConnections") (* 266 *);
    ("addBundledConnection", AAdd "bundledConnections" false) (* 269 *);
    ("getPdus", AGet "pdus") (* 294 *);
    ("getServerPortRef", AGet "serverPortRef") (* 301 *);
    ("setServerPortRef", ASet "serverPortRef" false) (* 304 *)]);
  (* M2/AUTOSARTemplates/SystemTemplate/Fibex/Fibex4Ethernet/EthernetCommunication.py *)
  ("SoAdRoutingGroup", [("getEventGroupControlType", AGet "eventGroupControlType") (* 333 *);
    ("setEventGroupControlType", ASet "eventGroupControlType" true) (* 336 *)]);
  (* M2/AUTOSARTemplates/SystemTemplate/Fibex/Fibex4Ethernet/EthernetTopology.py *)
  ("MacMulticastGroup", [("getMacMulticastAddress", AGet "macMulticastAddress") (* 26 *);
    ("setMacMulticastAddress", ASet "macMulticastAddress" true) (* 29 *)]);
  (* M2/AUTOSARTemplates/SystemTemplate/Fibex/Fibex4Ethernet/EthernetTopology.py *)
  ("EthernetCluster", [("getCouplingPorts", AGet "couplingPorts") (* 61 *);
    ("getMacMulticastGroups", AGet "macMulticastGroups") (* 85 *);
    ("createMacMulticastGroup", ANew "MacMulticastGroup" true (PList "macMulticastGroups")) (* 88 *)]);
  (* M2/AUTOSARTemplates/SystemTemplate/Fibex/Fibex4Ethernet/EthernetTopology.py *)
  ("CouplingPortScheduler", [("getPortScheduler", AGet "portScheduler") (* 192 *);
    ("setPortScheduler", ASet "portScheduler" true) (* 195 *)]);
  (* M2/AUTOSARTemplates/SystemTemplate/Fibex/Fibex4Ethernet/EthernetTopology.py *)
  ("EthernetPriorityRegeneration", [("getIngressPriority", AGet "ingressPriority") (* 229 *);
    ("setIngressPriority", ASet "ingressPriority" true) (* 232 *);
    ("getRegeneratedPriority", AGet "regeneratedPriority") (* 237 *);
    ("setRegeneratedPriority", ASet "regeneratedPriority" true) (* 240 *)]);
  (* M2/AUTOSARTemplates/SystemTemplate/Fibex/Fibex4Ethernet/EthernetTopology.py *)
  ("CouplingPortDetails", [("getCouplingPortStructuralElements", AGet "couplingPortStructuralElements") (* 289 *);
    ("createCouplingPortFifo", ANew "CouplingPortFifo" true (PList "couplingPortStructuralElements")) (* 292 *);
    ("createCouplingPortScheduler", ANew "CouplingPortScheduler" true (PList "couplingPortStructuralElements")) (* 297 *);
    ("createEthernetPriorityRegeneration", ANew "EthernetPriorityRegeneration" true (PList "ethernetPriorityRegenerations")) (* 302 *);
    ("getEthernetPriorityRegenerations", AGet "ethernetPriorityRegenerations") (* 315 *);
    ("getLastEgressSchedulerRef", AGet "lastEgressSchedulerRef") (* 347 *);
    ("setLastEgressSchedulerRef", ASet "lastEgressSchedulerRef" true) (* 350 *)]);
  (* M2/AUTOSARTemplates/SystemTemplate/Fibex/Fibex4Ethernet/EthernetTopology.py *)
  ("VlanMembership", [("getSendActivity", AGet "sendActivity") (* 414 *);
    ("setSendActivity", ASet "sendActivity" true) (* 417 *);
    ("getVlanRef", AGet "vlanRef") (* 422 *);
    ("setVlanRef", ASet "vlanRef" true) (* 425 *)]);
  (* M2/AUTOSARTemplates/SystemTemplate/Fibex/Fibex4Ethernet/EthernetTopology.py *)
  ("CouplingPort", [("getCouplingPortDetails", AGet "couplingPortDetails") (* 495 *);
    ("setCouplingPortDetails", ASet "couplingPortDetails" true) (* 498 *);
    ("getMacLayerType", AGet "macLayerType") (* 527 *);
    ("setMacLayerType", ASet "macLayerType" true) (* 530 *);
    ("getVlanMemberships", AGet "vlanMemberships") (* 583 *);
    ("addVlanMembership", AAdd "vlanMemberships" true) (* 586 *)]);
  (* M2/AUTOSARTemplates/SystemTemplate/Fibex/Fibex4Ethernet/EthernetTopology.py *)
  ("EthernetCommunicationController", [("getCouplingPorts", AGet "couplingPorts") (* 645 *);
    ("createCouplingPort", ANew "CouplingPort" true (PList "couplingPorts")) (* 648 *);
    ("getMacLayerType", AGet "macLayerType") (* 655 *);
    ("setMacLayerType", ASet "macLayerType" false) (* 658 *)]);
  (* M2/AUTOSARTemplates/SystemTemplate/Fibex/Fibex4Ethernet/EthernetTopology.py *)
  ("EthernetCommunicationConnector", [("getMaximumTransmissionUnit", AGet "maximumTransmissionUnit") (* 737 *);
    ("setMaximumTransmissionUnit", ASet "maximumTransmissionUnit" false) (* 740 *);
    ("getNetworkEndpointRefs", AGet "networkEndpointRefs") (* 751 *);
    ("addNetworkEndpointRef", AAdd "networkEndpointRefs" true) (* 754 *)]);
  (* M2/AUTOSARTemplates/SystemTemplate/Fibex/Fibex4Ethernet/EthernetTopology.py *)
  ("RequestResponseDelay", [("getMaxValue", AGet "maxValue") (* 794 *);
    ("setMaxValue", ASet "maxValue" true) (* 797 *);
    ("getMinValue", AGet "minValue") (* 802 *);
    ("setMinValue", ASet "minValue" true) (* 805 *)]);
  (* M2/AUTOSARTemplates/SystemTemplate/Fibex/Fibex4Ethernet/EthernetTopology.py *)
  ("InitialSdDelayConfig", [("getInitialDelayMaxValue", AGet "initialDelayMaxValue") (* 837 *);
    ("setInitialDelayMaxValue", ASet "initialDelayMaxValue" true) (* 840 *);
    ("getInitialDelayMinValue", AGet "initialDelayMinValue") (* 845 *);
    ("setInitialDelayMinValue", ASet "initialDelayMinValue" true) (* 848 *);
    ("getInitialRepetitionsBaseDelay", AGet "initialRepetitionsBaseDelay") (* 853 *);
    ("setInitialRepetitionsBaseDelay", ASet "initialRepetitionsBaseDelay" true) (* 856 *);
    ("getInitialRepetitionsMax", AGet "initialRepetitionsMax") (* 861 *);
    ("setInitialRepetitionsMax", ASet "initialRepetitionsMax" true) (* 864 *)]);
  (* M2/AUTOSARTemplates/SystemTemplate/Fibex/Fibex4Ethernet/EthernetTopology.py *)
  ("SdClientConfig", [("getClientServiceMajorVersion", AGet "clientServiceMajorVersion") (* 900 *);
    ("setClientServiceMajorVersion", ASet "clientServiceMajorVersion" true) (* 903 *);
    ("getClientServiceMinorVersion", AGet "clientServiceMinorVersion") (* 908 *);
    ("setClientServiceMinorVersion", ASet "clientServiceMinorVersion" true) (* 911 *);
    ("getInitialFindBehavior", AGet "initialFindBehavior") (* 916 *);
    ("setInitialFindBehavior", ASet "initialFindBehavior" true) (* 919 *);
    ("getRequestResponseDelay", AGet "requestResponseDelay") (* 924 *);
    ("setRequestResponseDelay", ASet "requestResponseDelay" true) (* 927 *);
    ("getTtl", AGet "ttl") (* 932 *);
    ("setTtl", ASet "ttl" true) (* 935 *)]);
  (* M2/AUTOSARTemplates/SystemTemplate/Fibex/Fibex4Ethernet/NetworkEndpoint.py *)
  ("Ipv4Configuration", [("getAssignmentPriority", AGet "assignmentPriority") (* 66 *);
    ("setAssignmentPriority", ASet "assignmentPriority" false) (* 69 *);
    ("getTtl", AGet "ttl") (* 115 *);
    ("setTtl", ASet "ttl" false) (* 118 *)]);
  (* M2/AUTOSARTemplates/SystemTemplate/Fibex/Fibex4Ethernet/NetworkEndpoint.py *)
  ("Ipv6Configuration", [("getAssignmentPriority", AGet "assignmentPriority") (* 164 *);
    ("setAssignmentPriority", ASet "assignmentPriority" false) (* 167 *);
    ("getDefaultRouter", AGet "defaultRouter") (* 171 *);
    ("setDefaultRouter", ASet "defaultRouter" false) (* 174 *);
    ("getEnableAnycast", AGet "enableAnycast") (* 185 *);
    ("setEnableAnycast", ASet "enableAnycast" false) (* 188 *);
    ("getHopCount", AGet "hopCount") (* 192 *);
    ("setHopCount", ASet "hopCount" false) (* 195 *);
    ("getIpAddressPrefixLength", AGet "ipAddressPrefixLength") (* 206 *);
    ("setIpAddressPrefixLength", ASet "ipAddressPrefixLength" false) (* 209 *);
    ("getIpv6Address", AGet "ipv6Address") (* 213 *);
    ("setIpv6Address", ASet "ipv6Address" false) (* 216 *);
    ("getIpv6AddressSource", AGet "ipv6AddressSource") (* 220 *);
    ("setIpv6AddressSource", ASet "ipv6AddressSource" false) (* 223 *)]);
  (* M2/AUTOSARTemplates/SystemTemplate/Fibex/Fibex4Ethernet/NetworkEndpoint.py *)
  ("DoIpEntity", [("getDoIpEntityRole", AGet "doIpEntityRole") (* 245 *);
    ("setDoIpEntityRole", ASet "doIpEntityRole" true) (* 248 *)]);
  (* M2/AUTOSARTemplates/SystemTemplate/Fibex/Fibex4Ethernet/NetworkEndpoint.py *)
  ("TimeSyncServerConfiguration", [("getPriority", AGet "priority") (* 317 *);
    ("setPriority", ASet "priority" true) (* 320 *)]);
  (* M2/AUTOSARTemplates/SystemTemplate/Fibex/Fibex4Ethernet/NetworkEndpoint.py *)
  ("InfrastructureServices", [("getDoIpEntity", AGet "doIpEntity") (* 407 *);
    ("setDoIpEntity", ASet "doIpEntity" false) (* 410 *)]);
  (* M2/AUTOSARTemplates/SystemTemplate/Fibex/Fibex4Ethernet/NetworkEndpoint.py *)
  ("NetworkEndpoint", [("getInfrastructureServices", AGet "infrastructureServices") (* 458 *);
    ("setInfrastructureServices", ASet "infrastructureServices" false) (* 461 *);
    ("getNetworkEndpointAddresses", AGet "networkEndpointAddresses") (* 472 *);
    ("addNetworkEndpointAddress", AAdd "networkEndpointAddresses" false) (* 475 *);
    ("getPriority", AGet "priority") (* 479 *);
    ("setPriority", ASet "priority" false) (* 482 *)]);
  (* M2/AUTOSARTemplates/SystemTemplate/Fibex/Fibex4Ethernet/ServiceInstances.py *)
  ("GenericTp", [("getTpAddress", AGet "tpAddress") (* 51 *);
    ("setTpAddress", ASet "tpAddress" false) (* 54 *);
    ("getTpTechnology", AGet "tpTechnology") (* 58 *);
    ("setTpTechnology", ASet "tpTechnology" false) (* 61 *)]);
  (* M2/AUTOSARTemplates/SystemTemplate/Fibex/Fibex4Ethernet/ServiceInstances.py *)
  ("TpPort", [("getDynamicallyAssigned", AGet "dynamicallyAssigned") (* 103 *);
    ("setDynamicallyAssigned", ASet "dynamicallyAssigned" false) (* 106 *);
    ("getPortNumber", AGet "portNumber") (* 110 *);
    ("setPortNumber", ASet "portNumber" false) (* 113 *)]);
  (* M2/AUTOSARTemplates/SystemTemplate/Fibex/Fibex4Ethernet/ServiceInstances.py *)
  ("UdpTp", [("getUdpTpPort", AGet "udpTpPort") (* 135 *);
    ("setUdpTpPort", ASet "udpTpPort" false) (* 138 *)]);
  (* M2/AUTOSARTemplates/SystemTemplate/Fibex/Fibex4Ethernet/ServiceInstances.py *)
  ("TcpTp", [("getKeepAliveInterval", AGet "keepAliveInterval") (* 181 *);
    ("setKeepAliveInterval", ASet "keepAliveInterval" false) (* 184 *);
    ("getKeepAliveProbesMax", AGet "keepAliveProbesMax") (* 188 *);
    ("setKeepAliveProbesMax", ASet "keepAliveProbesMax" false) (* 191 *);
    ("getKeepAlives", AGet "keepAlives") (* 195 *);
    ("setKeepAlives", ASet "keepAlives" false) (* 198 *);
    ("getKeepAliveTime", AGet "keepAliveTime") (* 202 *);
    ("setKeepAliveTime", ASet "keepAliveTime" false) (* 205 *);
    ("getNaglesAlgorithm", AGet "naglesAlgorithm") (* 209 *);
    ("setNaglesAlgorithm", ASet "naglesAlgorithm" false) (* 212 *);
    ("getTcpTpPort", AGet "tcpTpPort") (* 230 *);
    ("setTcpTpPort", ASet "tcpTpPort" false) (* 233 *)]);
  (* M2/AUTOSARTemplates/SystemTemplate/Fibex/Fibex4Ethernet/ServiceInstances.py *)
  ("AbstractServiceInstance", [("getRoutingGroupRefs", AGet "routingGroupRefs") (* 291 *);
    ("addRoutingGroupRef", AAdd "routingGroupRefs" true) (* 294 *)]);
  (* M2/AUTOSARTemplates/SystemTemplate/Fibex/Fibex4Ethernet/ServiceInstances.py *)
  ("ConsumedEventGroup", [("getApplicationEndpointRef", AGet "applicationEndpointRef") (* 341 *);
    ("setApplicationEndpointRef", ASet "applicationEndpointRef" true) (* 344 *);
    ("getEventGroupIdentifier", AGet "eventGroupIdentifier") (* 357 *);
    ("setEventGroupIdentifier", ASet "eventGroupIdentifier" true) (* 360 *);
    ("getPriority", AGet "priority") (* 381 *);
    ("setPriority", ASet "priority" true) (* 384 *);
    ("getRoutingGroupRefs", AGet "routingGroupRefs") (* 389 *);
    ("addRoutingGroupRef", AAdd "routingGroupRefs" true) (* 392 *);
    ("getSdClientConfig", AGet "sdClientConfig") (* 397 *);
    ("setSdClientConfig", ASet "sdClientConfig" true) (* 400 *)]);
  (* M2/AUTOSARTemplates/SystemTemplate/Fibex/Fibex4Ethernet/ServiceInstances.py *)
  ("ConsumedServiceInstance", [("getConsumedEventGroups", AGet "consumedEventGroups") (* 494 *);
    ("createConsumedEventGroup", ANew "ConsumedEventGroup" true (PList "consumedEventGroups")) (* 497 *);
    ("getInstanceIdentifier", AGet "instanceIdentifier") (* 512 *);
    ("setInstanceIdentifier", ASet "instanceIdentifier" true) (* 515 *);
    ("getLocalUnicastAddressRefs", AGet "localUnicastAddressRefs") (* 520 *);
    ("getMinorVersion", AGet "minorVersion") (* 528 *);
    ("setMinorVersion", ASet "minorVersion" true) (* 531 *);
    ("getProvidedServiceInstanceRef", AGet "providedServiceInstanceRef") (* 536 *);
    ("setProvidedServiceInstanceRef", ASet "providedServiceInstanceRef" true) (* 539 *);
    ("getRemoteUnicastAddressRefs", AGet "remoteUnicastAddressRefs") (* 544 *);
    ("getSdClientConfig", AGet "sdClientConfig") (* 552 *);
    ("setSdClientConfig", ASet "sdClientConfig" true) (* 555 *);
    ("getServiceIdentifier", AGet "serviceIdentifier") (* 568 *);
    ("setServiceIdentifier", ASet "serviceIdentifier" true) (* 571 *)]);
  (* M2/AUTOSARTemplates/SystemTemplate/Fibex/Fibex4Ethernet/ServiceInstances.py *)
  ("SdServerConfig", [("getInitialOfferBehavior", AGet "initialOfferBehavior") (* 687 *);
    ("setInitialOfferBehavior", ASet "initialOfferBehavior" true) (* 690 *);
    ("getOfferCyclicDelay", AGet "offerCyclicDelay") (* 695 *);
    ("setOfferCyclicDelay", ASet "offerCyclicDelay" true) (* 698 *);
    ("getRequestResponseDelay", AGet "requestResponseDelay") (* 703 *);
    ("setRequestResponseDelay", ASet "requestResponseDelay" true) (* 706 *);
    ("getServerServiceMajorVersion", AGet "serverServiceMajorVersion") (* 711 *);
    ("setServerServiceMajorVersion", ASet "serverServiceMajorVersion" true) (* 714 *);
    ("getServerServiceMinorVersion", AGet "serverServiceMinorVersion") (* 719 *);
    ("setServerServiceMinorVersion", ASet "serverServiceMinorVersion" true) (* 722 *);
    ("getTtl", AGet "ttl") (* 727 *);
    ("setTtl", ASet "ttl" true) (* 730 *)]);
  (* M2/AUTOSARTemplates/SystemTemplate/Fibex/Fibex4Ethernet/ServiceInstances.py *)
  ("EventHandler", [("getApplicationEndpointRef", AGet "applicationEndpointRef") (* 765 *);
    ("setApplicationEndpointRef", ASet "applicationEndpointRef" true) (* 768 *);
    ("getConsumedEventGroupRefs", AGet "consumedEventGroupRefs") (* 773 *);
    ("addConsumedEventGroupRef", AAdd "consumedEventGroupRefs" true) (* 776 *);
    ("getMulticastThreshold", AGet "multicastThreshold") (* 781 *);
    ("setMulticastThreshold", ASet "multicastThreshold" true) (* 784 *);
    ("getRoutingGroupRefs", AGet "routingGroupRefs") (* 789 *);
    ("addRoutingGroupRef", AAdd "routingGroupRefs" true) (* 792 *);
    ("getSdServerConfig", AGet "sdServerConfig") (* 797 *);
    ("setSdServerConfig", ASet "sdServerConfig" true) (* 800 *)]);
  (* M2/AUTOSARTemplates/SystemTemplate/Fibex/Fibex4Ethernet/ServiceInstances.py *)
  ("ProvidedServiceInstance", [("getAllowedServiceConsumerRefs", AGet "allowedServiceConsumerRefs") (* 894 *);
    ("addAllowedServiceConsumerRef", AAdd "allowedServiceConsumerRefs" true) (* 900 *);
    ("getAutoAvailable", AGet "autoAvailable") (* 916 *);
    ("setAutoAvailable", ASet "autoAvailable" true) (* 922 *);
    ("getEventHandlers", AGet "eventHandlers") (* 930 *);
    ("createEventHandler", ANew "EventHandler" true (PList "eventHandlers")) (* 936 *);
    ("getInstanceIdentifier", AGet "instanceIdentifier") (* 946 *);
    ("setInstanceIdentifier", ASet "instanceIdentifier" true) (* 952 *);
    ("getLoadBalancingPriority", AGet "loadBalancingPriority") (* 960 *);
    ("setLoadBalancingPriority", ASet "loadBalancingPriority" true) (* 966 *);
    ("getLoadBalancingWeight", AGet "loadBalancingWeight") (* 974 *);
    ("setLoadBalancingWeight", ASet "loadBalancingWeight" true) (* 980 *);
    ("getLocalUnicastAddressRefs", AGet "localUnicastAddressRefs") (* 988 *);
    ("addLocalUnicastAddressRef", AAdd "localUnicastAddressRefs" true) (* 1002 *);
    ("getMinorVersion", AGet "minorVersion") (* 1010 *);
    ("setMinorVersion", ASet "minorVersion" true) (* 1016 *);
    ("getPriority", AGet "priority") (* 1024 *);
    ("setPriority", ASet "priority" true) (* 1030 *);
    ("getRemoteMulticastSubscriptionAddressRefs", AGet "remoteMulticastSubscriptionAddressRefs") (* 1038 *);
    ("addRemoteMulticastSubscriptionAddressRef", AAdd "remoteMulticastSubscriptionAddressRefs" true) (* 1052 *);
    ("getRemoteUnicastAddressRefs", AGet "remoteUnicastAddressRefs") (* 1060 *);
    ("addRemoteUnicastAddressRef", AAdd "remoteUnicastAddressRefs" true) (* 1074 *);
    ("getSdServerConfig", AGet "sdServerConfig") (* 1082 *);
    ("setSdServerConfig", ASet "sdServerConfig" true) (* 1088 *);
    ("getSdServerTimerConfigRef", AGet "sdServerTimerConfigRef") (* 1096 *);
    ("setSdServerTimerConfigRef", ASet "sdServerTimerConfigRef" true) (* 1102 *);
    ("getServiceIdentifier", AGet "serviceIdentifier") (* 1110 *);
    ("setServiceIdentifier", ASet "serviceIdentifier" true) (* 1116 *)]);
  (* M2/AUTOSARTemplates/SystemTemplate/Fibex/Fibex4Ethernet/ServiceInstances.py *)
  ("ApplicationEndpoint", [("getConsumedServiceInstances", AGet "consumedServiceInstances") (* 1160 *);
    ("createConsumedServiceInstance", ANew "ConsumedServiceInstance" true (PList "consumedServiceInstances")) (* 1163 *);
    ("getNetworkEndpointRef", AGet "networkEndpointRef") (* 1177 *);
    ("setNetworkEndpointRef", ASet "networkEndpointRef" false) (* 1180 *);
    ("getPriority", AGet "priority") (* 1184 *);
    ("setPriority", ASet "priority" false) (* 1187 *);
    ("getProvidedServiceInstances", AGet "providedServiceInstances") (* 1191 *);
    ("createProvidedServiceInstance", ANew "ProvidedServiceInstance" true (PList "providedServiceInstances")) (* 1194 *);
    ("getTpConfiguration", AGet "tpConfiguration") (* 1208 *);
    ("setTpConfiguration", ASet "tpConfiguration" false) (* 1211 *)]);
  (* M2/AUTOSARTemplates/SystemTemplate/Fibex/Fibex4Ethernet/ServiceInstances.py *)
  ("SocketAddress", [("getApplicationEndpoint", AGet "applicationEndpoint") (* 1283 *);
    ("createApplicationEndpoint", ANew "ApplicationEndpoint" true (PSlot "applicationEndpoint")) (* 1286 *);
    ("getConnectorRef", AGet "connectorRef") (* 1291 *);
    ("setConnectorRef", ASet "connectorRef" false) (* 1294 *);
    ("getMulticastConnectorRefs", AGet "multicastConnectorRefs") (* 1312 *);
    ("addMulticastConnectorRef", AAdd "multicastConnectorRefs" false) (* 1315 *);
    ("getPduCollectionMaxBufferSize", AGet "pduCollectionMaxBufferSize") (* 1326 *);
    ("setPduCollectionMaxBufferSize", ASet "pduCollectionMaxBufferSize" false) (* 1329 *);
    ("getPduCollectionTimeout", AGet "pduCollectionTimeout") (* 1333 *);
    ("setPduCollectionTimeout", ASet "pduCollectionTimeout" false) (* 1336 *);
    ("getPortAddress", AGet "portAddress") (* 1340 *);
    ("setPortAddress", ASet "portAddress" false) (* 1343 *)]);
  (* M2/AUTOSARTemplates/SystemTemplate/Fibex/Fibex4Ethernet/ServiceInstances.py *)
  ("SoAdConfig", [("getConnectionBundles", AGet "connectionBundles") (* 1393 *);
    ("createSocketConnectionBundle", ANew "SocketConnectionBundle" true (PList "connectionBundles")) (* 1396 *);
    ("getSocketAddresses", AGet "socketAddresses") (* 1405 *);
    ("createSocketAddress", ANew "SocketAddress" true (PList "socketAddresses")) (* 1408 *)]);
  (* M2/AUTOSARTemplates/SystemTemplate/Fibex/Fibex4Flexray/FlexrayCommunication.py *)
  ("FlexrayAbsolutelyScheduledTiming", [("getCommunicationCycle", AGet "communicationCycle") (* 43 *);
    ("setCommunicationCycle", ASet "communicationCycle" true) (* 46 *);
    ("getSlotID", AGet "slotID") (* 51 *);
    ("setSlotID", ASet "slotID" true) (* 54 *)]);
  (* M2/AUTOSARTemplates/SystemTemplate/Fibex/Fibex4Flexray/FlexrayCommunication.py *)
  ("FlexrayFrameTriggering", [("getAbsolutelyScheduledTimings", AGet "absolutelyScheduledTimings") (* 86 *);
    ("addAbsolutelyScheduledTiming", AAdd "absolutelyScheduledTimings" true) (* 89 *);
    ("getAllowDynamicLSduLength", AGet "allowDynamicLSduLength") (* 94 *);
    ("setAllowDynamicLSduLength", ASet "allowDynamicLSduLength" true) (* 97 *);
    ("getMessageId", AGet "messageId") (* 102 *);
    ("setMessageId", ASet "messageId" true) (* 105 *);
    ("getPayloadPreambleIndicator", AGet "payloadPreambleIndicator") (* 110 *);
    ("setPayloadPreambleIndicator", ASet "payloadPreambleIndicator" true) (* 113 *)]);
  (* M2/AUTOSARTemplates/SystemTemplate/Fibex/Fibex4Flexray/FlexrayTopology.py *)
  ("FlexrayCommunicationController", [("getAcceptedStartupRange", AGet "acceptedStartupRange") (* 182 *);
    ("setAcceptedStartupRange", ASet "acceptedStartupRange" true) (* 186 *);
    ("getAllowHaltDueToClock", AGet "allowHaltDueToClock") (* 193 *);
    ("setAllowHaltDueToClock", ASet "allowHaltDueToClock" true) (* 197 *);
    ("getAllowPassiveToActive", AGet "allowPassiveToActive") (* 204 *);
    ("setAllowPassiveToActive", ASet "allowPassiveToActive" true) (* 208 *);
    ("getClusterDriftDamping", AGet "clusterDriftDamping") (* 215 *);
    ("setClusterDriftDamping", ASet "clusterDriftDamping" true) (* 219 *);
    ("getDecodingCorrection", AGet "decodingCorrection") (* 226 *);
    ("setDecodingCorrection", ASet "decodingCorrection" true) (* 230 *);
    ("getDelayCompensationA", AGet "delayCompensationA") (* 237 *);
    ("setDelayCompensationA", ASet "delayCompensationA" true) (* 241 *);
    ("getDelayCompensationB", AGet "delayCompensationB") (* 248 *);
    ("setDelayCompensationB", ASet "delayCompensationB" true) (* 252 *);
    ("getExternalSync", AGet "externalSync") (* 259 *);
    ("setExternalSync", ASet "externalSync" true) (* 263 *);
    ("getExternOffsetCorrection", AGet "externOffsetCorrection") (* 270 *);
    ("setExternOffsetCorrection", ASet "externOffsetCorrection" true) (* 274 *);
    ("getExternRateCorrection", AGet "externRateCorrection") (* 281 *);
    ("setExternRateCorrection", ASet "externRateCorrection" true) (* 285 *);
    ("getFallBackInternal", AGet "fallBackInternal") (* 292 *);
    ("setFallBackInternal", ASet "fallBackInternal" true) (* 296 *);
    ("createFlexrayFifo", ANew "FlexrayFifoConfiguration" false (PList "flexrayFifos")) (* 303 *);
    ("getFlexrayFifos", AGet "flexrayFifos") (* 309 *);
    ("getKeySlotID", AGet "keySlotID") (* 313 *);
    ("setKeySlotID", ASet "keySlotID" true) (* 317 *);
    ("getKeySlotOnlyEnabled", AGet "keySlotOnlyEnabled") (* 324 *);
    ("setKeySlotOnlyEnabled", ASet "keySlotOnlyEnabled" true) (* 328 *);
    ("getKeySlotUsedForStartUp", AGet "keySlotUsedForStartUp") (* 335 *);
    ("setKeySlotUsedForStartUp", ASet "keySlotUsedForStartUp" true) (* 339 *);
    ("getKeySlotUsedForSync", AGet "keySlotUsedForSync") (* 346 *);
    ("setKeySlotUsedForSync", ASet "keySlotUsedForSync" true) (* 350 *);
    ("getLatestTX", AGet "latestTX") (* 357 *);
    ("setLatestTX", ASet "latestTX" true) (* 361 *);
    ("getListenTimeout", AGet "listenTimeout") (* 368 *);
    ("setListenTimeout", ASet "listenTimeout" true) (* 372 *);
    ("getMacroInitialOffsetA", AGet "macroInitialOffsetA") (* 379 *);
    ("setMacroInitialOffsetA", ASet "macroInitialOffsetA" true) (* 383 *);
    ("getMacroInitialOffsetB", AGet "macroInitialOffsetB") (* 390 *);
    ("setMacroInitialOffsetB", ASet "macroInitialOffsetB" true) (* 394 *);
    ("getMaximumDynamicPayloadLength", AGet "maximumDynamicPayloadLength") (* 401 *);
    ("setMaximumDynamicPayloadLength", ASet "maximumDynamicPayloadLength" true) (* 405 *);
    ("getMicroInitialOffsetA", AGet "microInitialOffsetA") (* 412 *);
    ("setMicroInitialOffsetA", ASet "microInitialOffsetA" true) (* 416 *);
    ("getMicroInitialOffsetB", AGet "microInitialOffsetB") (* 423 *);
    ("setMicroInitialOffsetB", ASet "microInitialOffsetB" true) (* 427 *);
    ("getMicroPerCycle", AGet "microPerCycle") (* 434 *);
    ("setMicroPerCycle", ASet "microPerCycle" true) (* 438 *);
    ("getMicrotickDuration", AGet "microtickDuration") (* 445 *);
    ("setMicrotickDuration", ASet "microtickDuration" true) (* 449 *);
    ("getNmVectorEarlyUpdate", AGet "nmVectorEarlyUpdate") (* 456 *);
    ("setNmVectorEarlyUpdate", ASet "nmVectorEarlyUpdate" true) (* 460 *);
    ("getOffsetCorrectionOut", AGet "offsetCorrectionOut") (* 467 *);
    ("setOffsetCorrectionOut", ASet "offsetCorrectionOut" true) (* 471 *);
    ("getRateCorrectionOut", AGet "rateCorrectionOut") (* 478 *);
    ("setRateCorrectionOut", ASet "rateCorrectionOut" true) (* 482 *);
    ("getSamplesPerMicrotick", AGet "samplesPerMicrotick") (* 489 *);
    ("setSamplesPerMicrotick", ASet "samplesPerMicrotick" true) (* 493 *);
    ("getSecondKeySlotId", AGet "secondKeySlotId") (* 500 *);
    ("setSecondKeySlotId", ASet "secondKeySlotId" true) (* 504 *);
    ("getTwoKeySlotMode", AGet "twoKeySlotMode") (* 511 *);
    ("setTwoKeySlotMode", ASet "twoKeySlotMode" true) (* 515 *);
    ("getWakeUpPattern", AGet "wakeUpPattern") (* 522 *);
    ("setWakeUpPattern", ASet "wakeUpPattern" true) (* 526 *)]);
  (* M2/AUTOSARTemplates/SystemTemplate/Fibex/Fibex4Flexray/FlexrayTopology.py *)
  ("FlexrayCluster", [("getActionPointOffset", AGet "actionPointOffset") (* 769 *);
    ("setActionPointOffset", ASet "actionPointOffset" true) (* 773 *);
    ("getBit", AGet "bit") (* 780 *);
    ("setBit", ASet "bit" true) (* 784 *);
    ("getCasRxLowMax", AGet "casRxLowMax") (* 791 *);
    ("setCasRxLowMax", ASet "casRxLowMax" true) (* 795 *);
    ("getColdStartAttempts", AGet "coldStartAttempts") (* 802 *);
    ("setColdStartAttempts", ASet "coldStartAttempts" true) (* 806 *);
    ("getCycle", AGet "cycle") (* 813 *);
    ("setCycle", ASet "cycle" true) (* 817 *);
    ("getCycleCountMax", AGet "cycleCountMax") (* 824 *);
    ("setCycleCountMax", ASet "cycleCountMax" true) (* 828 *);
    ("getDetectNitError", AGet "detectNitError") (* 835 *);
    ("setDetectNitError", ASet "detectNitError" true) (* 839 *);
    ("getDynamicSlotIdlePhase", AGet "dynamicSlotIdlePhase") (* 846 *);
    ("setDynamicSlotIdlePhase", ASet "dynamicSlotIdlePhase" true) (* 850 *);
    ("getIgnoreAfterTx", AGet "ignoreAfterTx") (* 857 *);
    ("setIgnoreAfterTx", ASet "ignoreAfterTx" true) (* 861 *);
    ("getListenNoise", AGet "listenNoise") (* 868 *);
    ("setListenNoise", ASet "listenNoise" true) (* 872 *);
    ("getMacroPerCycle", AGet "macroPerCycle") (* 879 *);
    ("setMacroPerCycle", ASet "macroPerCycle" true) (* 883 *);
    ("getMacrotickDuration", AGet "macrotickDuration") (* 890 *);
    ("setMacrotickDuration", ASet "macrotickDuration" true) (* 894 *);
    ("getMaxWithoutClockCorrectionFatal", AGet "maxWithoutClockCorrectionFatal") (* 901 *);
    ("setMaxWithoutClockCorrectionFatal", ASet "maxWithoutClockCorrectionFatal" true) (* 905 *);
    ("getMaxWithoutClockCorrectionPassive", AGet "maxWithoutClockCorrectionPassive") (* 912 *);
    ("setMaxWithoutClockCorrectionPassive", ASet "maxWithoutClockCorrectionPassive" true) (* 916 *);
    ("getMinislotActionPointOffset", AGet "minislotActionPointOffset") (* 923 *);
    ("setMinislotActionPointOffset", ASet "minislotActionPointOffset" true) (* 927 *);
    ("getMinislotDuration", AGet "minislotDuration") (* 934 *);
    ("setMinislotDuration", ASet "minislotDuration" true) (* 938 *);
    ("getNetworkIdleTime", AGet "networkIdleTime") (* 945 *);
    ("setNetworkIdleTime", ASet "networkIdleTime" true) (* 949 *);
    ("getNetworkManagementVectorLength", AGet "networkManagementVectorLength") (* 956 *);
    ("setNetworkManagementVectorLength", ASet "networkManagementVectorLength" true) (* 960 *);
    ("getNumberOfMinislots", AGet "numberOfMinislots") (* 967 *);
    ("setNumberOfMinislots", ASet "numberOfMinislots" true) (* 971 *);
    ("getNumberOfStaticSlots", AGet "numberOfStaticSlots") (* 978 *);
    ("setNumberOfStaticSlots", ASet "numberOfStaticSlots" true) (* 982 *);
    ("getOffsetCorrectionStart", AGet "offsetCorrectionStart") (* 989 *);
    ("setOffsetCorrectionStart", ASet "offsetCorrectionStart" true) (* 993 *);
    ("getPayloadLengthStatic", AGet "payloadLengthStatic") (* 1000 *);
    ("setPayloadLengthStatic", ASet "payloadLengthStatic" true) (* 1004 *);
    ("getSafetyMargin", AGet "safetyMargin") (* 1011 *);
    ("setSafetyMargin", ASet "safetyMargin" true) (* 1015 *);
    ("getSampleClockPeriod", AGet "sampleClockPeriod") (* 1022 *);
    ("setSampleClockPeriod", ASet "sampleClockPeriod" true) (* 1026 *);
    ("getStaticSlotDuration", AGet "staticSlotDuration") (* 1033 *);
    ("setStaticSlotDuration", ASet "staticSlotDuration" true) (* 1037 *);
    ("getSymbolWindow", AGet "symbolWindow") (* 1044 *);
    ("setSymbolWindow", ASet "symbolWindow" true) (* 1048 *);
    ("getSymbolWindowActionPointOffset", AGet "symbolWindowActionPointOffset") (* 1055 *);
    ("setSymbolWindowActionPointOffset", ASet "symbolWindowActionPointOffset" true) (* 1059 *);
    ("getSyncFrameIdCountMax", AGet "syncFrameIdCountMax") (* 1066 *);
    ("setSyncFrameIdCountMax", ASet "syncFrameIdCountMax" true) (* 1070 *);
    ("getTranceiverStandbyDelay", AGet "tranceiverStandbyDelay") (* 1077 *);
    ("setTranceiverStandbyDelay", ASet "tranceiverStandbyDelay" true) (* 1081 *);
    ("getTransmissionStartSequenceDuration", AGet "transmissionStartSequenceDuration") (* 1088 *);
    ("setTransmissionStartSequenceDuration", ASet "transmissionStartSequenceDuration" true) (* 1092 *);
    ("getWakeupRxIdle", AGet "wakeupRxIdle") (* 1099 *);
    ("setWakeupRxIdle", ASet "wakeupRxIdle" true) (* 1103 *);
    ("getWakeupRxLow", AGet "wakeupRxLow") (* 1110 *);
    ("setWakeupRxLow", ASet "wakeupRxLow" true) (* 1114 *);
    ("getWakeupRxWindow", AGet "wakeupRxWindow") (* 1121 *);
    ("setWakeupRxWindow", ASet "wakeupRxWindow" true) (* 1125 *);
    ("getWakeupTxActive", AGet "wakeupTxActive") (* 1132 *);
    ("setWakeupTxActive", ASet "wakeupTxActive" true) (* 1136 *);
    ("getWakeupTxIdle", AGet "wakeupTxIdle") (* 1143 *);
    ("setWakeupTxIdle", ASet "wakeupTxIdle" true) (* 1147 *)]);
  (* M2/AUTOSARTemplates/SystemTemplate/Fibex/Fibex4Flexray/FlexrayTopology.py *)
  ("FlexrayFifoRange", [("getRangeMax", AGet "rangeMax") (* 1177 *);
    ("setRangeMax", ASet "rangeMax" true) (* 1181 *);
    ("getRangeMin", AGet "rangeMin") (* 1188 *);
    ("setRangeMin", ASet "rangeMin" true) (* 1192 *)]);
  (* M2/AUTOSARTemplates/SystemTemplate/Fibex/Fibex4Flexray/FlexrayTopology.py *)
  ("FlexrayFifoConfiguration", [("getAdmitWithoutMessageId", AGet "admitWithoutMessageId") (* 1252 *);
    ("setAdmitWithoutMessageId", ASet "admitWithoutMessageId" true) (* 1256 *);
    ("getBaseCycle", AGet "baseCycle") (* 1263 *);
    ("setBaseCycle", ASet "baseCycle" true) (* 1267 *);
    ("getChannelRef", AGet "channelRef") (* 1274 *);
    ("setChannelRef", ASet "channelRef" true) (* 1278 *);
    ("getCycleRepetition", AGet "cycleRepetition") (* 1285 *);
    ("setCycleRepetition", ASet "cycleRepetition" true) (* 1289 *);
    ("getFifoDepth", AGet "fifoDepth") (* 1296 *);
    ("setFifoDepth", ASet "fifoDepth" true) (* 1300 *);
    ("getFlexrayFifoRanges", AGet "fifoRange") (* 1307 *);
    ("createFlexrayFifoRange", ANew "FlexrayFifoRange" false (PList "fifoRange")) (* 1311 *);
    ("getMsgIdMask", AGet "msgIdMask") (* 1317 *);
    ("setMsgIdMask", ASet "msgIdMask" true) (* 1321 *);
    ("getMsgIdMatch", AGet "msgIdMatch") (* 1328 *);
    ("setMsgIdMatch", ASet "msgIdMatch" true) (* 1332 *)]);
  (* M2/AUTOSARTemplates/SystemTemplate/Fibex/Fibex4Lin/LinCommunication.py *)
  ("LinFrameTriggering", [("getIdentifier", AGet "identifier") (* 62 *);
    ("setIdentifier", ASet "identifier" true) (* 65 *);
    ("getLinChecksum", AGet "linChecksum") (* 70 *);
    ("setLinChecksum", ASet "linChecksum" true) (* 73 *)]);
  (* M2/AUTOSARTemplates/SystemTemplate/Fibex/Fibex4Lin/LinCommunication.py *)
  ("ScheduleTableEntry", [("getDelay", AGet "delay") (* 122 *);
    ("setDelay", ASet "delay" true) (* 125 *);
    ("getIntroduction", AGet "introduction") (* 130 *);
    ("setIntroduction", ASet "introduction" true) (* 133 *);
    ("getPositionInTable", AGet "positionInTable") (* 138 *);
    ("setPositionInTable", ASet "positionInTable" true) (* 141 *)]);
  (* M2/AUTOSARTemplates/SystemTemplate/Fibex/Fibex4Lin/LinCommunication.py *)
  ("ApplicationEntry", [("getFrameTriggeringRef", AGet "frameTriggeringRef") (* 164 *);
    ("setFrameTriggeringRef", ASet "frameTriggeringRef" true) (* 167 *)]);
  (* M2/AUTOSARTemplates/SystemTemplate/Fibex/Fibex4Lin/LinCommunication.py *)
  ("LinScheduleTable", [("getResumePosition", AGet "resumePosition") (* 229 *);
    ("setResumePosition", ASet "resumePosition" true) (* 232 *);
    ("getRunMode", AGet "runMode") (* 237 *);
    ("setRunMode", ASet "runMode" true) (* 240 *);
    ("getTableEntries", AGet "tableEntries") (* 245 *);
    ("addTableEntry", AAdd "tableEntries" true) (* 248 *)]);
  (* M2/AUTOSARTemplates/SystemTemplate/Fibex/Fibex4Lin/LinTopology.py *)
  ("LinCommunicationController", [("getProtocolVersion", AGet "protocolVersion") (* 26 *);
    ("setProtocolVersion", ASet "protocolVersion" true) (* 29 *)]);
  (* M2/AUTOSARTemplates/SystemTemplate/Fibex/Fibex4Lin/LinTopology.py *)
  ("LinMaster", [("getTimeBase", AGet "timeBase") (* 66 *);
    ("setTimeBase", ASet "timeBase" true) (* 69 *);
    ("getTimeBaseJitter", AGet "timeBaseJitter") (* 74 *);
    ("setTimeBaseJitter", ASet "timeBaseJitter" true) (* 77 *)]);
  (* M2/AUTOSARTemplates/SystemTemplate/Fibex/FibexCore/CoreCommunication.py *)
  ("PduToFrameMapping", [("getPackingByteOrder", AGet "packingByteOrder") (* 64 *);
    ("setPackingByteOrder", ASet "packingByteOrder" false) (* 67 *);
    ("getPduRef", AGet "pduRef") (* 71 *);
    ("setPduRef", ASet "pduRef" false) (* 74 *);
    ("getStartPosition", AGet "startPosition") (* 78 *);
    ("setStartPosition", ASet "startPosition" false) (* 81 *);
    ("getUpdateIndicationBitPosition", AGet "updateIndicationBitPosition") (* 85 *);
    ("setUpdateIndicationBitPosition", ASet "updateIndicationBitPosition" false) (* 88 *)]);
  (* M2/AUTOSARTemplates/SystemTemplate/Fibex/FibexCore/CoreCommunication.py *)
  ("Frame", [("createPduToFrameMapping", ANew "PduToFrameMapping" true (PList "elements/PduToFrameMapping")) (* 123 *);
    ("getPduToFrameMappings", AGetSorted "elements/PduToFrameMapping") (* 130 *)]);
  (* M2/AUTOSARTemplates/SystemTemplate/Fibex/FibexCore/CoreCommunication.py *)
  ("ContainedIPduProps", [("getCollectionSemantics", AGet "collectionSemantics") (* 169 *);
    ("setCollectionSemantics", ASet "collectionSemantics" false) (* 172 *);
    ("getHeaderIdLongHeader", AGet "headerIdLongHeader") (* 176 *);
    ("setHeaderIdLongHeader", ASet "headerIdLongHeader" false) (* 179 *);
    ("getHeaderIdShortHeader", AGet "headerIdShortHeader") (* 183 *);
    ("setHeaderIdShortHeader", ASet "headerIdShortHeader" false) (* 186 *);
    ("getOffset", AGet "offset") (* 190 *);
    ("setOffset", ASet "offset" false) (* 193 *);
    ("getTimeout", AGet "timeout") (* 197 *);
    ("setTimeout", ASet "timeout" false) (* 200 *);
    ("getTrigger", AGet "trigger") (* 204 *);
    ("setTrigger", ASet "trigger" false) (* 207 *);
    ("getUpdateIndicationBitPosition", AGet "updateIndicationBitPosition") (* 211 *);
    ("setUpdateIndicationBitPosition", ASet "updateIndicationBitPosition" false) (* 214 *)]);
  (* M2/AUTOSARTemplates/SystemTemplate/Fibex/FibexCore/CoreCommunication.py *)
  ("ISignalGroup", [("getComBasedSignalGroupTransformationRef", AGet "comBasedSignalGroupTransformationRef") (* 253 *);
    ("setComBasedSignalGroupTransformationRef", ASet "comBasedSignalGroupTransformationRef" true) (* 259 *);
    ("getISignalRefs", AGet "iSignalRefs") (* 268 *);
    ("addISignalRef", AAdd "iSignalRefs" false) (* 274 *);
    ("getSystemSignalGroupRef", AGet "systemSignalGroupRef") (* 281 *);
    ("setSystemSignalGroupRef", ASet "systemSignalGroupRef" true) (* 287 *);
    ("getTransformationISignalProps", AGet "transformationISignalProps") (* 296 *);
    ("addTransformationISignalProps", AAdd "transformationISignalProps" false) (* 302 *)]);
  (* M2/AUTOSARTemplates/SystemTemplate/Fibex/FibexCore/CoreCommunication.py *)
  ("ISignalIPduGroup", [("getCommunicationDirection", AGet "communicationDirection") (* 339 *);
    ("setCommunicationDirection", ASet "communicationDirection" false) (* 342 *);
    ("getCommunicationMode", AGet "communicationMode") (* 346 *);
    ("setCommunicationMode", ASet "communicationMode" false) (* 349 *);
    ("getContainedISignalIPduGroupRefs", AGet "containedISignalIPduGroupRefs") (* 353 *);
    ("addContainedISignalIPduGroupRef", AAdd "containedISignalIPduGroupRefs" false) (* 356 *);
    ("getISignalIPduRefs", AGet "iSignalIPduRefs") (* 360 *);
    ("addISignalIPduRef", AAdd "iSignalIPduRefs" false) (* 363 *)]);
  (* M2/AUTOSARTemplates/SystemTemplate/Fibex/FibexCore/CoreCommunication.py *)
  ("Pdu", [("setHasDynamicLength", ASet "hasDynamicLength" true) (* 402 *);
    ("getHasDynamicLength", AGet "hasDynamicLength") (* 411 *);
    ("setLength", ASet "length" true) (* 417 *);
    ("getLength", AGet "length") (* 426 *)]);
  (* M2/AUTOSARTemplates/SystemTemplate/Fibex/FibexCore/CoreCommunication.py *)
  ("IPdu", [("getContainedIPduProps", AGet "containedIPduProps") (* 455 *);
    ("setContainedIPduProps", ASet "containedIPduProps" true) (* 461 *)]);
  (* M2/AUTOSARTemplates/SystemTemplate/Fibex/FibexCore/CoreCommunication.py *)
  ("SecureCommunicationProps", [("getAuthDataFreshnessLength", AGet "authDataFreshnessLength") (* 543 *);
    ("setAuthDataFreshnessLength", ASet "authDataFreshnessLength" true) (* 549 *);
    ("getAuthDataFreshnessStartPosition", AGet "authDataFreshnessStartPosition") (* 558 *);
    ("setAuthDataFreshnessStartPosition", ASet "authDataFreshnessStartPosition" true) (* 564 *);
    ("getAuthenticationBuildAttempts", AGet "authenticationBuildAttempts") (* 573 *);
    ("setAuthenticationBuildAttempts", ASet "authenticationBuildAttempts" true) (* 579 *);
    ("getAuthenticationRetries", AGet "authenticationRetries") (* 588 *);
    ("setAuthenticationRetries", ASet "authenticationRetries" true) (* 594 *);
    ("getDataId", AGet "dataId") (* 603 *);
    ("setDataId", ASet "dataId" true) (* 609 *);
    ("getFreshnessValueId", AGet "freshnessValueId") (* 618 *);
    ("setFreshnessValueId", ASet "freshnessValueId" true) (* 624 *);
    ("getMessageLinkLength", AGet "messageLinkLength") (* 633 *);
    ("setMessageLinkLength", ASet "messageLinkLength" true) (* 639 *);
    ("getMessageLinkPosition", AGet "messageLinkPosition") (* 648 *);
    ("setMessageLinkPosition", ASet "messageLinkPosition" true) (* 654 *);
    ("getSecondaryFreshnessValueId", AGet "secondaryFreshnessValueId") (* 663 *);
    ("setSecondaryFreshnessValueId", ASet "secondaryFreshnessValueId" true) (* 669 *);
    ("getSecuredAreaLength", AGet "securedAreaLength") (* 678 *);
    ("setSecuredAreaLength", ASet "securedAreaLength" true) (* 684 *);
    ("getSecuredAreaOffset", AGet "securedAreaOffset") (* 693 *);
    ("setSecuredAreaOffset", ASet "securedAreaOffset" true) (* 699 *)]);
  (* M2/AUTOSARTemplates/SystemTemplate/Fibex/FibexCore/CoreCommunication.py *)
  ("SecuredIPdu", [("getAuthenticationPropsRef", AGet "authenticationPropsRef") (* 744 *);
    ("setAuthenticationPropsRef", ASet "authenticationPropsRef" true) (* 747 *);
    ("getFreshnessPropsRef", AGet "freshnessPropsRef") (* 760 *);
    ("setFreshnessPropsRef", ASet "freshnessPropsRef" true) (* 763 *);
    ("getPayloadRef", AGet "payloadRef") (* 768 *);
    ("setPayloadRef", ASet "payloadRef" true) (* 771 *);
    ("getSecureCommunicationProps", AGet "secureCommunicationProps") (* 776 *);
    ("setSecureCommunicationProps", ASet "secureCommunicationProps" true) (* 779 *);
    ("getUseAsCryptographicIPdu", AGet "useAsCryptographicIPdu") (* 784 *);
    ("setUseAsCryptographicIPdu", ASet "useAsCryptographicIPdu" true) (* 787 *)]);
  (* M2/AUTOSARTemplates/SystemTemplate/Fibex/FibexCore/CoreCommunication.py *)
  ("ISignalToIPduMapping", [("getISignalRef", AGet "iSignalRef") (* 881 *);
    ("setISignalRef", ASet "iSignalRef" true) (* 887 *);
    ("getISignalGroupRef", AGet "iSignalGroupRef") (* 896 *);
    ("setISignalGroupRef", ASet "iSignalGroupRef" true) (* 902 *);
    ("getPackingByteOrder", AGet "packingByteOrder") (* 911 *);
    ("setPackingByteOrder", ASet "packingByteOrder" true) (* 917 *);
    ("getStartPosition", AGet "startPosition") (* 926 *);
    ("setStartPosition", ASet "startPosition" true) (* 932 *);
    ("getTransferProperty", AGet "transferProperty") (* 941 *);
    ("setTransferProperty", ASet "transferProperty" true) (* 947 *);
    ("getUpdateIndicationBitPosition", AGet "updateIndicationBitPosition") (* 956 *);
    ("setUpdateIndicationBitPosition", ASet "updateIndicationBitPosition" true) (* 962 *)]);
  (* M2/AUTOSARTemplates/SystemTemplate/Fibex/FibexCore/CoreCommunication.py *)
  ("NmPdu", [("getISignalToIPduMappings", AGet "iSignalToIPduMappings") (* 998 *);
    ("createISignalToIPduMapping", ANew "ISignalToIPduMapping" true (PList "iSignalToIPduMappings")) (* 1001 *);
    ("getUnusedBitPattern", AGet "unusedBitPattern") (* 1024 *);
    ("setUnusedBitPattern", ASet "unusedBitPattern" true) (* 1027 *)]);
  (* M2/AUTOSARTemplates/SystemTemplate/Fibex/FibexCore/CoreCommunication.py *)
  ("DcmIPdu", [("getDiagPduType", AGet "diagPduType") (* 1062 *);
    ("setDiagPduType", ASet "diagPduType" false) (* 1065 *)]);
  (* M2/AUTOSARTemplates/SystemTemplate/Fibex/FibexCore/CoreCommunication.py *)
  ("IPduTiming", [("getMinimumDelay", AGet "minimumDelay") (* 1094 *);
    ("setMinimumDelay", ASet "minimumDelay" true) (* 1100 *);
    ("getTransmissionModeDeclaration", AGet "transmissionModeDeclaration") (* 1109 *);
    ("setTransmissionModeDeclaration", ASet "transmissionModeDeclaration" true) (* 1115 *)]);
  (* M2/AUTOSARTemplates/SystemTemplate/Fibex/FibexCore/CoreCommunication.py *)
  ("ISignalIPdu", [("getIPduTimingSpecification", AGet "iPduTimingSpecification") (* 1154 *);
    ("setIPduTimingSpecification", ASet "iPduTimingSpecification" true) (* 1160 *);
    ("getISignalToPduMappings", AGet "iSignalToPduMappings") (* 1169 *);
    ("createISignalToPduMappings", ANew "ISignalToIPduMapping" true (PList "iSignalToPduMappings")) (* 1175 *);
    ("getUnusedBitPattern", AGet "unusedBitPattern") (* 1185 *);
    ("setUnusedBitPattern", ASet "unusedBitPattern" true) (* 1191 *)]);
  (* M2/AUTOSARTemplates/SystemTemplate/Fibex/FibexCore/CoreCommunication.py *)
  ("ISignalProps", [("getHandleOutOfRange", AGet "handleOutOfRange") (* 1248 *);
    ("setHandleOutOfRange", ASet "handleOutOfRange" true) (* 1254 *)]);
  (* M2/AUTOSARTemplates/SystemTemplate/Fibex/FibexCore/CoreCommunication.py *)
  ("ISignal", [("getDataTransformationRef", AGet "dataTransformationRef") (* 1331 *);
    ("setDataTransformationRef", ASet "dataTransformationRef" true) (* 1337 *);
    ("getDataTypePolicy", AGet "dataTypePolicy") (* 1346 *);
    ("setDataTypePolicy", ASet "dataTypePolicy" true) (* 1352 *);
    ("getInitValue", AGet "initValue") (* 1361 *);
    ("setInitValue", ASet "initValue" true) (* 1367 *);
    ("getISignalProps", AGet "iSignalProps") (* 1376 *);
    ("setISignalProps", ASet "iSignalProps" true) (* 1382 *);
    ("getISignalType", AGet "iSignalType") (* 1391 *);
    ("setISignalType", ASet "iSignalType" true) (* 1397 *);
    ("getLength", AGet "length") (* 1406 *);
    ("setLength", ASet "length" true) (* 1412 *);
    ("getNetworkRepresentationProps", AGet "networkRepresentationProps") (* 1421 *);
    ("setNetworkRepresentationProps", ASet "networkRepresentationProps" true) (* 1427 *);
    ("getSystemSignalRef", AGet "systemSignalRef") (* 1436 *);
    ("setSystemSignalRef", ASet "systemSignalRef" true) (* 1442 *);
    ("getTimeoutSubstitutionValue", AGet "timeoutSubstitutionValue") (* 1451 *);
    ("setTimeoutSubstitutionValue", ASet "timeoutSubstitutionValue" true) (* 1457 *);
    ("addTransformationISignalProps", AAdd "transformationISignalProps" true) (* 1466 *);
    ("getTransformationISignalProps", AGet "transformationISignalProps") (* 1474 *)]);
  (* M2/AUTOSARTemplates/SystemTemplate/Fibex/FibexCore/CoreCommunication.py *)
  ("PduTriggering", [("getIPduRef", AGet "iPduRef") (* 1510 *);
    ("setIPduRef", ASet "iPduRef" false) (* 1513 *);
    ("getIPduPortRefs", AGet "iPduPortRefs") (* 1517 *);
    ("addIPduPortRef", AAdd "iPduPortRefs" false) (* 1520 *);
    ("getISignalTriggeringRefs", AGet "iSignalTriggeringRefs") (* 1524 *);
    ("addISignalTriggeringRef", AAdd "iSignalTriggeringRefs" false) (* 1528 *)]);
  (* M2/AUTOSARTemplates/SystemTemplate/Fibex/FibexCore/CoreCommunication.py *)
  ("FrameTriggering", [("getFrameRef", AGet "frameRef") (* 1573 *);
    ("setFrameRef", ASet "frameRef" false) (* 1576 *);
    ("getFramePortRefs", AGet "framePortRefs") (* 1580 *);
    ("addFramePortRef", AAdd "framePortRefs" false) (* 1583 *);
    ("getPduTriggeringRefs", AGet "pduTriggeringRefs") (* 1587 *);
    ("addPduTriggeringRef", AAdd "pduTriggeringRefs" false) (* 1590 *)]);
  (* M2/AUTOSARTemplates/SystemTemplate/Fibex/FibexCore/CoreCommunication.py *)
  ("SystemSignal", [("getDynamicLength", AGet "dynamicLength") (* 1615 *);
    ("setDynamicLength", ASet "dynamicLength" false) (* 1618 *);
    ("getPhysicalProps", AGet "physicalProps") (* 1622 *);
    ("setPhysicalProps", ASet "physicalProps" false) (* 1625 *)]);
  (* M2/AUTOSARTemplates/SystemTemplate/Fibex/FibexCore/CoreCommunication.py *)
  ("SystemSignalGroup", [("getSystemSignalRefs", AGet "systemSignalRefs") (* 1654 *);
    ("addSystemSignalRef", AAdd "systemSignalRefs" false) (* 1660 *);
    ("getTransformingSystemSignalRef", AGet "transformingSystemSignalRef") (* 1667 *);
    ("setTransformingSystemSignalRef", ASet "transformingSystemSignalRef" true) (* 1673 *)]);
  (* M2/AUTOSARTemplates/SystemTemplate/Fibex/FibexCore/CoreCommunication.py *)
  ("ISignalTriggering", [("getISignalRef", AGet "iSignalRef") (* 1706 *);
    ("setISignalRef", ASet "iSignalRef" false) (* 1709 *);
    ("getISignalGroupRef", AGet "iSignalGroupRef") (* 1713 *);
    ("setISignalGroupRef", ASet "iSignalGroupRef" false) (* 1716 *);
    ("getISignalPortRefs", AGet "iSignalPortRefs") (* 1720 *);
    ("addISignalPortRef", AAdd "iSignalPortRefs" false) (* 1723 *)]);
  (* M2/AUTOSARTemplates/SystemTemplate/Fibex/FibexCore/CoreCommunication.py *)
  ("SegmentPosition", [("getSegmentByteOrder", AGet "segmentByteOrder") (* 1751 *);
    ("setSegmentByteOrder", ASet "segmentByteOrder" true) (* 1754 *);
    ("getSegmentLength", AGet "segmentLength") (* 1759 *);
    ("setSegmentLength", ASet "segmentLength" true) (* 1762 *);
    ("getSegmentPosition", AGet "segmentPosition") (* 1767 *);
    ("setSegmentPosition", ASet "segmentPosition" true) (* 1770 *)]);
  (* M2/AUTOSARTemplates/SystemTemplate/Fibex/FibexCore/CoreCommunication.py *)
  ("MultiplexedPart", [("getSegmentPositions", AGet "segmentPositions") (* 1796 *);
    ("addSegmentPosition", AAdd "segmentPositions" true) (* 1799 *)]);
  (* M2/AUTOSARTemplates/SystemTemplate/Fibex/FibexCore/CoreCommunication.py *)
  ("StaticPart", [("getIPduRef", AGet "iPduRef") (* 1822 *);
    ("setIPduRef", ASet "iPduRef" true) (* 1825 *)]);
  (* M2/AUTOSARTemplates/SystemTemplate/Fibex/FibexCore/CoreCommunication.py *)
  ("DynamicPartAlternative", [("getInitialDynamicPart", AGet "initialDynamicPart") (* 1854 *);
    ("setInitialDynamicPart", ASet "initialDynamicPart" true) (* 1857 *);
    ("getIPduRef", AGet "iPduRef") (* 1862 *);
    ("setIPduRef", ASet "iPduRef" true) (* 1865 *);
    ("getSelectorFieldCode", AGet "selectorFieldCode") (* 1870 *);
    ("setSelectorFieldCode", ASet "selectorFieldCode" true) (* 1873 *)]);
  (* M2/AUTOSARTemplates/SystemTemplate/Fibex/FibexCore/CoreCommunication.py *)
  ("DynamicPart", [("getDynamicPartAlternatives", AGet "dynamicPartAlternatives") (* 1896 *);
    ("addDynamicPartAlternative", AAdd "dynamicPartAlternatives" true) (* 1899 *)]);
  (* M2/AUTOSARTemplates/SystemTemplate/Fibex/FibexCore/CoreCommunication.py *)
  ("MultiplexedIPdu", [("getDynamicPart", AGet "dynamicPart") (* 1940 *);
    ("setDynamicPart", ASet "dynamicPart" true) (* 1943 *);
    ("getSelectorFieldByteOrder", AGet "selectorFieldByteOrder") (* 1948 *);
    ("setSelectorFieldByteOrder", ASet "selectorFieldByteOrder" true) (* 1951 *);
    ("getSelectorFieldLength", AGet "selectorFieldLength") (* 1956 *);
    ("setSelectorFieldLength", ASet "selectorFieldLength" true) (* 1959 *);
    ("getSelectorFieldStartPosition", AGet "selectorFieldStartPosition") (* 1964 *);
    ("setSelectorFieldStartPosition", ASet "selectorFieldStartPosition" true) (* 1967 *);
    ("getStaticPart", AGet "staticPart") (* 1972 *);
    ("setStaticPart", ASet "staticPart" true) (* 1975 *);
    ("getTriggerMode", AGet "triggerMode") (* 1980 *);
    ("setTriggerMode", ASet "triggerMode" true) (* 1983 *);
    ("getUnusedBitPattern", AGet "unusedBitPattern") (* 1988 *);
    ("setUnusedBitPattern", ASet "unusedBitPattern" true) (* 1991 *)]);
  (* M2/AUTOSARTemplates/SystemTemplate/Fibex/FibexCore/CoreCommunication.py *)
  ("SecureCommunicationPropsSet", [("createSecureCommunicationAuthenticationProps", ANew "SecureCommunicationAuthenticationProps" true (PList "authenticationProps")) (* 2050 *);
    ("getAuthenticationProps", AGet "authenticationProps") (* 2060 *);
    ("createSecureCommunicationFreshnessProps", ANew "SecureCommunicationFreshnessProps" true (PList "freshnessProps")) (* 2066 *);
    ("getFreshnessProps", AGet "freshnessProps") (* 2076 *)]);
  (* M2/AUTOSARTemplates/SystemTemplate/Fibex/FibexCore/CoreCommunication.py *)
  ("UserDefinedPdu", [("getCddType", AGet "cddType") (* 2108 *);
    ("setCddType", ASet "cddType" false) (* 2111 *)]);
  (* M2/AUTOSARTemplates/SystemTemplate/Fibex/FibexCore/CoreCommunication.py *)
  ("UserDefinedIPdu", [("getCddType", AGet "cddType") (* 2131 *);
    ("setCddType", ASet "cddType" false) (* 2134 *)]);
  (* M2/AUTOSARTemplates/SystemTemplate/Fibex/FibexCore/CoreCommunication.py *)
  ("SecureCommunicationAuthenticationProps", [("getAuthInfoTxLength", AGet "authInfoTxLength") (* 2161 *);
    ("setAuthInfoTxLength", ASet "authInfoTxLength" true) (* 2167 *)]);
  (* M2/AUTOSARTemplates/SystemTemplate/Fibex/FibexCore/CoreCommunication.py *)
  ("SecureCommunicationFreshnessProps", [("getFreshnessCounterSyncAttempts", AGet "freshnessCounterSyncAttempts") (* 2219 *);
    ("setFreshnessCounterSyncAttempts", ASet "freshnessCounterSyncAttempts" true) (* 2225 *);
    ("getFreshnessTimestampTimePeriodFactor", AGet "freshnessTimestampTimePeriodFactor") (* 2234 *);
    ("setFreshnessTimestampTimePeriodFactor", ASet "freshnessTimestampTimePeriodFactor" true) (* 2240 *);
    ("getFreshnessValueLength", AGet "freshnessValueLength") (* 2249 *);
    ("setFreshnessValueLength", ASet "freshnessValueLength" true) (* 2255 *);
    ("getFreshnessValueTxLength", AGet "freshnessValueTxLength") (* 2264 *);
    ("setFreshnessValueTxLength", ASet "freshnessValueTxLength" true) (* 2270 *);
    ("getUseFreshnessTimestamp", AGet "useFreshnessTimestamp") (* 2279 *);
    ("setUseFreshnessTimestamp", ASet "useFreshnessTimestamp" true) (* 2285 *)]);
  (* M2/AUTOSARTemplates/SystemTemplate/Fibex/FibexCore/CoreTopology.py *)
  ("CycleRepetition", [("getBaseCycle", AGet "BaseCycle") (* 92 *);
    ("setBaseCycle", ASet "BaseCycle" true) (* 95 *);
    ("getCycleRepetition", AGet "CycleRepetition") (* 100 *);
    ("setCycleRepetition", ASet "CycleRepetition" true) (* 103 *)]);
  (* M2/AUTOSARTemplates/SystemTemplate/Fibex/FibexCore/CoreTopology.py *)
  ("PhysicalChannel", [("getCommConnectorRefs", AGet "commConnectorRefs") (* 142 *);
    ("addCommConnectorRef", AAdd "commConnectorRefs" false) (* 145 *);
    ("getFrameTriggerings", AGetSorted "elements/FrameTriggering") (* 149 *);
    ("createCanFrameTriggering", ANew "CanFrameTriggering" true (PList "elements/FrameTriggering")) (* 152 *);
    ("createLinFrameTriggering", ANew "LinFrameTriggering" true (PList "elements/FrameTriggering")) (* 159 *);
    ("createFlexrayFrameTriggering", ANew "FlexrayFrameTriggering" true (PList "elements/FrameTriggering")) (* 166 *);
    ("getISignalTriggerings", AGetSorted "elements/ISignalTriggering") (* 173 *);
    ("createISignalTriggering", ANew "ISignalTriggering" true (PList "elements/ISignalTriggering")) (* 176 *);
    ("getPduTriggerings", AGetSorted "elements/PduTriggering") (* 189 *);
    ("createPduTriggering", ANew "PduTriggering" true (PList "elements/PduTriggering")) (* 192 *)]);
  (* M2/AUTOSARTemplates/SystemTemplate/Fibex/FibexCore/CoreTopology.py *)
  ("LinPhysicalChannel", [("getScheduleTables", AGet "scheduleTables") (* 258 *);
    ("createLinScheduleTable", ANew "LinScheduleTable" true (PList "scheduleTables")) (* 261 *)]);
  (* M2/AUTOSARTemplates/SystemTemplate/Fibex/FibexCore/CoreTopology.py *)
  ("VlanConfig", [("getVlanIdentifier", AGet "vlanIdentifier") (* 286 *);
    ("setVlanIdentifier", ASet "vlanIdentifier" true) (* 289 *)]);
  (* M2/AUTOSARTemplates/SystemTemplate/Fibex/FibexCore/CoreTopology.py *)
  ("EthernetPhysicalChannel", [("getNetworkEndpoints", AGet "networkEndpoints") (* 318 *);
    ("createNetworkEndPoint", ANew "NetworkEndpoint" true (PList "networkEndpoints")) (* 321 *);
    ("getSoAdConfig", AGet "soAdConfig") (* 328 *);
    ("setSoAdConfig", ASet "soAdConfig" false) (* 331 *);
    ("getVlan", AGet "vlan") (* 335 *);
    ("createVlanConfig", ANew "VlanConfig" true (PSlot "vlan")) (* 338 *)]);
  (* M2/AUTOSARTemplates/SystemTemplate/Fibex/FibexCore/CoreTopology.py *)
  ("FlexrayPhysicalChannel", [("getChannelName", AGet "channelName") (* 380 *);
    ("setChannelName", ASet "channelName" true) (* 383 *)]);
  (* M2/AUTOSARTemplates/SystemTemplate/Fibex/FibexCore/CoreTopology.py *)
  ("CommunicationCluster", [("getBaudrate", AGet "baudrate") (* 430 *);
    ("setBaudrate", ASet "baudrate" true) (* 436 *);
    ("getPhysicalChannels", AGetSorted "physicalChannel") (* 445 *);
    ("createCanPhysicalChannel", ANew "CanPhysicalChannel" true (PList "physicalChannel")) (* 469 *);
    ("createLinPhysicalChannel", ANew "LinPhysicalChannel" true (PList "physicalChannel")) (* 479 *);
    ("createEthernetPhysicalChannel", ANew "EthernetPhysicalChannel" true (PList "physicalChannel")) (* 489 *);
    ("createFlexrayPhysicalChannel", ANew "FlexrayPhysicalChannel" true (PList "physicalChannel")) (* 499 *);
    ("getProtocolName", AGet "protocolName") (* 509 *);
    ("setProtocolName", ASet "protocolName" true) (* 515 *);
    ("getProtocolVersion", AGet "protocolVersion") (* 524 *);
    ("setProtocolVersion", ASet "protocolVersion" true) (* 530 *)]);
  (* M2/AUTOSARTemplates/SystemTemplate/Fibex/FibexCore/CoreTopology.py *)
  ("CanClusterBusOffRecovery", [("getBorCounterL1ToL2", AGet "borCounterL1ToL2") (* 569 *);
    ("setBorCounterL1ToL2", ASet "borCounterL1ToL2" true) (* 572 *);
    ("getBorTimeL1", AGet "borTimeL1") (* 577 *);
    ("setBorTimeL1", ASet "borTimeL1" true) (* 580 *);
    ("getBorTimeL2", AGet "borTimeL2") (* 585 *);
    ("setBorTimeL2", ASet "borTimeL2" true) (* 588 *)]);
  (* M2/AUTOSARTemplates/SystemTemplate/Fibex/FibexCore/CoreTopology.py *)
  ("AbstractCanCluster", [("getBusOffRecovery", AGet "busOffRecovery") (* 640 *);
    ("setBusOffRecovery", ASet "busOffRecovery" true) (* 646 *);
    ("getCanFdBaudrate", AGet "canFdBaudrate") (* 655 *);
    ("setCanFdBaudrate", ASet "canFdBaudrate" true) (* 661 *);
    ("getCanXlBaudrate", AGet "canXlBaudrate") (* 670 *);
    ("setCanXlBaudrate", ASet "canXlBaudrate" true) (* 676 *)]);
  (* M2/AUTOSARTemplates/SystemTemplate/Fibex/FibexCore/CoreTopology.py *)
  ("CommunicationController", [("getWakeUpByControllerSupported", AGet "wakeUpByControllerSupported") (* 733 *);
    ("setWakeUpByControllerSupported", ASet "wakeUpByControllerSupported" true) (* 739 *)]);
  (* M2/AUTOSARTemplates/SystemTemplate/Fibex/FibexCore/CoreTopology.py *)
  ("CommConnectorPort", [("getCommunicationDirection", AGet "communicationDirection") (* 803 *);
    ("setCommunicationDirection", ASet "communicationDirection" true) (* 806 *)]);
  (* M2/AUTOSARTemplates/SystemTemplate/Fibex/FibexCore/CoreTopology.py *)
  ("IPduPort", [("getKeyId", AGet "keyId") (* 875 *);
    ("setKeyId", ASet "keyId" true) (* 878 *);
    ("getRxSecurityVerification", AGet "rxSecurityVerification") (* 883 *);
    ("setRxSecurityVerification", ASet "rxSecurityVerification" true) (* 886 *);
    ("getUseAuthDataFreshness", AGet "useAuthDataFreshness") (* 899 *);
    ("setUseAuthDataFreshness", ASet "useAuthDataFreshness" true) (* 902 *)]);
  (* M2/AUTOSARTemplates/SystemTemplate/Fibex/FibexCore/CoreTopology.py *)
  ("ISignalPort", [("getDataFilter", AGet "dataFilter") (* 937 *);
    ("setDataFilter", ASet "dataFilter" true) (* 940 *);
    ("getHandleInvalid", AGet "handleInvalid") (* 961 *);
    ("setHandleInvalid", ASet "handleInvalid" true) (* 964 *);
    ("getTimeout", AGet "timeout") (* 969 *);
    ("setTimeout", ASet "timeout" true) (* 972 *)]);
  (* M2/AUTOSARTemplates/SystemTemplate/Fibex/FibexCore/CoreTopology.py *)
  ("CommunicationConnector", [("getCommControllerRef", AGet "commControllerRef") (* 1016 *);
    ("setCommControllerRef", ASet "commControllerRef" false) (* 1019 *);
    ("getEcuCommPortInstances", AGetSorted "elements/CommConnectorPort") (* 1037 *);
    ("createFramePort", ANew "FramePort" true (PList "elements/CommConnectorPort")) (* 1040 *);
    ("createIPduPort", ANew "IPduPort" true (PList "elements/CommConnectorPort")) (* 1047 *);
    ("createISignalPort", ANew "ISignalPort" true (PList "elements/CommConnectorPort")) (* 1054 *);
    ("getPncGatewayType", AGet "pncGatewayType") (* 1068 *);
    ("setPncGatewayType", ASet "pncGatewayType" false) (* 1071 *)]);
  (* M2/AUTOSARTemplates/SystemTemplate/Fibex/FibexCore/EcuInstance.py *)
  ("EcuInstance", [("getAssociatedComIPduGroupRefs", AGet "associatedComIPduGroupRefs") (* 110 *);
    ("addAssociatedComIPduGroupRef", AAdd "associatedComIPduGroupRefs" false) (* 113 *);
    ("getAssociatedConsumedProvidedServiceInstanceGroupRefs", AGet "associatedConsumedProvidedServiceInstanceGroupRefs") (* 117 *);
    ("addAssociatedConsumedProvidedServiceInstanceGroupRef", AAdd "associatedConsumedProvidedServiceInstanceGroupRefs" false) (* 120 *);
    ("getAssociatedPdurIPduGroupRefs", AGet "associatedPdurIPduGroupRefs") (* 124 *);
    ("addAssociatedPdurIPduGroupRef", AAdd "associatedPdurIPduGroupRefs" false) (* 127 *);
    ("getChannelSynchronousWakeup", AGet "channelSynchronousWakeup") (* 131 *);
    ("setChannelSynchronousWakeup", ASet "channelSynchronousWakeup" false) (* 134 *);
    ("getComConfigurationGwTimeBase", AGet "comConfigurationGwTimeBase") (* 145 *);
    ("setComConfigurationGwTimeBase", ASet "comConfigurationGwTimeBase" false) (* 148 *);
    ("getComConfigurationRxTimeBase", AGet "comConfigurationRxTimeBase") (* 152 *);
    ("setComConfigurationRxTimeBase", ASet "comConfigurationRxTimeBase" false) (* 155 *);
    ("getComConfigurationTxTimeBase", AGet "comConfigurationTxTimeBase") (* 159 *);
    ("setComConfigurationTxTimeBase", ASet "comConfigurationTxTimeBase" false) (* 162 *);
    ("getComEnableMDTForCyclicTransmission", AGet "comEnableMDTForCyclicTransmission") (* 166 *);
    ("setComEnableMDTForCyclicTransmission", ASet "comEnableMDTForCyclicTransmission" false) (* 169 *);
    ("getCommControllers", AGetSorted "elements/CommunicationController") (* 173 *);
    ("createCanCommunicationController", ANew "CanCommunicationController" true (PList "elements/CommunicationController")) (* 176 *);
    ("createEthernetCommunicationController", ANew "EthernetCommunicationController" true (PList "elements/CommunicationController")) (* 182 *);
    ("createLinMaster", ANew "LinMaster" true (PList "elements/CommunicationController")) (* 188 *);
    ("createFlexrayCommunicationController", ANew "FlexrayCommunicationController" true (PList "elements/CommunicationController")) (* 194 *);
    ("getConnectors", AGetSorted "elements/CommunicationConnector") (* 200 *);
    ("createCanCommunicationConnector", ANew "CanCommunicationConnector" true (PList "elements/CommunicationConnector")) (* 203 *);
    ("createEthernetCommunicationConnector", ANew "EthernetCommunicationConnector" true (PList "elements/CommunicationConnector")) (* 209 *);
    ("createLinCommunicationConnector", ANew "LinCommunicationConnector" true (PList "elements/CommunicationConnector")) (* 215 *);
    ("createFlexrayCommunicationConnector", ANew "FlexrayCommunicationConnector" true (PList "elements/CommunicationConnector")) (* 221 *);
    ("getEcuTaskProxyRefs", AGet "ecuTaskProxyRefs") (* 241 *);
    ("addEcuTaskProxyRef", AAdd "ecuTaskProxyRefs" false) (* 244 *);
    ("getEthSwitchPortGroupDerivation", AGet "ethSwitchPortGroupDerivation") (* 248 *);
    ("setEthSwitchPortGroupDerivation", ASet "ethSwitchPortGroupDerivation" false) (* 251 *);
    ("getFirewallRuleRefs", AGet "firewallRuleRefs") (* 255 *);
    ("addFirewallRuleRef", AAdd "firewallRuleRefs" false) (* 258 *);
    ("getPncNmRequest", AGet "pncNmRequest") (* 269 *);
    ("setPncNmRequest", ASet "pncNmRequest" false) (* 272 *);
    ("getPncPrepareSleepTimer", AGet "pncPrepareSleepTimer") (* 276 *);
    ("setPncPrepareSleepTimer", ASet "pncPrepareSleepTimer" false) (* 279 *);
    ("getPncSynchronousWakeup", AGet "pncSynchronousWakeup") (* 283 *);
    ("setPncSynchronousWakeup", ASet "pncSynchronousWakeup" false) (* 286 *);
    ("getPnResetTime", AGet "pnResetTime") (* 290 *);
    ("setPnResetTime", ASet "pnResetTime" false) (* 293 *);
    ("getSleepModeSupported", AGet "sleepModeSupported") (* 297 *);
    ("setSleepModeSupported", ASet "sleepModeSupported" false) (* 300 *);
    ("getTcpIpIcmpPropsRef", AGet "tcpIpIcmpPropsRef") (* 304 *);
    ("setTcpIpIcmpPropsRef", ASet "tcpIpIcmpPropsRef" false) (* 307 *);
    ("getTcpIpPropsRef", AGet "tcpIpPropsRef") (* 311 *);
    ("setTcpIpPropsRef", ASet "tcpIpPropsRef" false) (* 314 *);
    ("getV2xSupported", AGet "v2xSupported") (* 318 *);
    ("setV2xSupported", ASet "v2xSupported" false) (* 321 *);
    ("getWakeUpOverBusSupported", AGet "wakeUpOverBusSupported") (* 325 *);
    ("setWakeUpOverBusSupported", ASet "wakeUpOverBusSupported" false) (* 328 *)]);
  (* M2/AUTOSARTemplates/SystemTemplate/Fibex/FibexCore/Timing.py *)
  ("TransmissionModeCondition", [("getDataFilter", AGet "dataFilter") (* 52 *);
    ("setDataFilter", ASet "dataFilter" false) (* 55 *);
    ("getISignalInIPduRef", AGet "iSignalInIPduRef") (* 59 *);
    ("setISignalInIPduRef", ASet "iSignalInIPduRef" false) (* 62 *)]);
  (* M2/AUTOSARTemplates/SystemTemplate/Fibex/FibexCore/Timing.py *)
  ("TimeRangeType", [("getValue", AGet "value") (* 93 *);
    ("setValue", ASet "value" false) (* 96 *)]);
  (* M2/AUTOSARTemplates/SystemTemplate/Fibex/FibexCore/Timing.py *)
  ("CyclicTiming", [("getTimeOffset", AGet "timeOffset") (* 119 *);
    ("setTimeOffset", ASet "timeOffset" false) (* 122 *);
    ("getTimePeriod", AGet "timePeriod") (* 126 *);
    ("setTimePeriod", ASet "timePeriod" false) (* 129 *)]);
  (* M2/AUTOSARTemplates/SystemTemplate/Fibex/FibexCore/Timing.py *)
  ("EventControlledTiming", [("getNumberOfRepetitions", AGet "numberOfRepetitions") (* 153 *);
    ("setNumberOfRepetitions", ASet "numberOfRepetitions" false) (* 156 *);
    ("getRepetitionPeriod", AGet "repetitionPeriod") (* 160 *);
    ("setRepetitionPeriod", ASet "repetitionPeriod" false) (* 163 *)]);
  (* M2/AUTOSARTemplates/SystemTemplate/Fibex/FibexCore/Timing.py *)
  ("TransmissionModeTiming", [("getCyclicTiming", AGet "cyclicTiming") (* 188 *);
    ("setCyclicTiming", ASet "cyclicTiming" false) (* 191 *);
    ("getEventControlledTiming", AGet "eventControlledTiming") (* 195 *);
    ("setEventControlledTiming", ASet "eventControlledTiming" false) (* 198 *)]);
  (* M2/AUTOSARTemplates/SystemTemplate/Fibex/FibexCore/Timing.py *)
  ("TransmissionModeDeclaration", [("getTransmissionModeConditions", AGet "transmissionModeConditions") (* 245 *);
    ("addTransmissionModeCondition", AAdd "transmissionModeConditions" false) (* 248 *);
    ("getTransmissionModeFalseTiming", AGet "transmissionModeFalseTiming") (* 252 *);
    ("setTransmissionModeFalseTiming", ASet "transmissionModeFalseTiming" false) (* 255 *);
    ("getTransmissionModeTrueTiming", AGet "transmissionModeTrueTiming") (* 259 *);
    ("setTransmissionModeTrueTiming", ASet "transmissionModeTrueTiming" false) (* 262 *)]);
  (* M2/AUTOSARTemplates/SystemTemplate/Transformer/__init__.py *)
  ("DataTransformation", [("getDataTransformationKind", AGet "dataTransformationKind") (* 74 *);
    ("setDataTransformationKind", ASet "dataTransformationKind" true) (* 80 *);
    ("getExecuteDespiteDataUnavailability", AGet "executeDespiteDataUnavailability") (* 89 *);
    ("setExecuteDespiteDataUnavailability", ASet "executeDespiteDataUnavailability" true) (* 95 *);
    ("getTransformerChainRefs", AGet "transformerChainRefs") (* 104 *);
    ("addTransformerChainRef", AAdd "transformerChainRefs" true) (* 110 *)]);
  (* M2/AUTOSARTemplates/SystemTemplate/Transformer/__init__.py *)
  ("BufferProperties", [("getHeaderLength", AGet "headerLength") (* 147 *);
    ("setHeaderLength", ASet "headerLength" true) (* 153 *);
    ("getInPlace", AGet "inPlace") (* 162 *);
    ("setInPlace", ASet "inPlace" true) (* 168 *)]);
  (* M2/AUTOSARTemplates/SystemTemplate/Transformer/__init__.py *)
  ("E2EProfileCompatibilityProps", [("getTransitToInvalidExtended", AGet "transitToInvalidExtended") (* 272 *);
    ("setTransitToInvalidExtended", ASet "transitToInvalidExtended" true) (* 278 *)]);
  (* M2/AUTOSARTemplates/SystemTemplate/Transformer/__init__.py *)
  ("EndToEndTransformationDescription", [("getClearFromValidToInvalid", AGet "clearFromValidToInvalid") (* 413 *);
    ("setClearFromValidToInvalid", ASet "clearFromValidToInvalid" true) (* 419 *);
    ("getCounterOffset", AGet "counterOffset") (* 429 *);
    ("setCounterOffset", ASet "counterOffset" true) (* 435 *);
    ("getCrcOffset", AGet "crcOffset") (* 445 *);
    ("setCrcOffset", ASet "crcOffset" true) (* 451 *);
    ("getDataIdMode", AGet "dataIdMode") (* 461 *);
    ("setDataIdMode", ASet "dataIdMode" true) (* 467 *);
    ("getDataIdNibbleOffset", AGet "dataIdNibbleOffset") (* 477 *);
    ("setDataIdNibbleOffset", ASet "dataIdNibbleOffset" true) (* 483 *);
    ("getE2eProfileCompatibilityPropsRef", AGet "e2eProfileCompatibilityPropsRef") (* 493 *);
    ("setE2eProfileCompatibilityPropsRef", ASet "e2eProfileCompatibilityPropsRef" true) (* 499 *);
    ("getMaxDeltaCounter", AGet "maxDeltaCounter") (* 509 *);
    ("setMaxDeltaCounter", ASet "maxDeltaCounter" true) (* 515 *);
    ("getMaxErrorStateInit", AGet "maxErrorStateInit") (* 525 *);
    ("setMaxErrorStateInit", ASet "maxErrorStateInit" true) (* 531 *);
    ("getMaxErrorStateInvalid", AGet "maxErrorStateInvalid") (* 541 *);
    ("setMaxErrorStateInvalid", ASet "maxErrorStateInvalid" true) (* 547 *);
    ("getMaxErrorStateValid", AGet "maxErrorStateValid") (* 557 *);
    ("setMaxErrorStateValid", ASet "maxErrorStateValid" true) (* 563 *);
    ("getMaxNoNewOrRepeatedData", AGet "maxNoNewOrRepeatedData") (* 573 *);
    ("setMaxNoNewOrRepeatedData", ASet "maxNoNewOrRepeatedData" true) (* 579 *);
    ("getMinOkStateInit", AGet "minOkStateInit") (* 589 *);
    ("setMinOkStateInit", ASet "minOkStateInit" true) (* 595 *);
    ("getMinOkStateInvalid", AGet "minOkStateInvalid") (* 605 *);
    ("setMinOkStateInvalid", ASet "minOkStateInvalid" true) (* 611 *);
    ("getMinOkStateValid", AGet "minOkStateValid") (* 621 *);
    ("setMinOkStateValid", ASet "minOkStateValid" true) (* 627 *);
    ("getOffset", AGet "offset") (* 637 *);
    ("setOffset", ASet "offset" true) (* 643 *);
    ("getProfileBehavior", AGet "profileBehavior") (* 653 *);
    ("setProfileBehavior", ASet "profileBehavior" true) (* 659 *);
    ("getProfileName", AGet "profileName") (* 669 *);
    ("setProfileName", ASet "profileName" true) (* 675 *);
    ("getSyncCounterInit", AGet "syncCounterInit") (* 685 *);
    ("setSyncCounterInit", ASet "syncCounterInit" true) (* 691 *);
    ("getUpperHeaderBitsToShift", AGet "upperHeaderBitsToShift") (* 701 *);
    ("setUpperHeaderBitsToShift", ASet "upperHeaderBitsToShift" true) (* 707 *);
    ("getWindowSizeInit", AGet "windowSizeInit") (* 717 *);
    ("setWindowSizeInit", ASet "windowSizeInit" true) (* 723 *);
    ("getWindowSizeInvalid", AGet "windowSizeInvalid") (* 733 *);
    ("setWindowSizeInvalid", ASet "windowSizeInvalid" true) (* 739 *);
    ("getWindowSizeValid", AGet "windowSizeValid") (* 749 *);
    ("setWindowSizeValid", ASet "windowSizeValid" true) (* 755 *)]);
  (* M2/AUTOSARTemplates/SystemTemplate/Transformer/__init__.py *)
  ("TransformationTechnology", [("setBufferProperties", ASet "bufferProperties" true) (* 841 *);
    ("getBufferProperties", AGet "bufferProperties") (* 850 *);
    ("setHasInternalState", ASet "hasInternalState" true) (* 856 *);
    ("getHasInternalState", AGet "hasInternalState") (* 865 *);
    ("setNeedsOriginalData", ASet "needsOriginalData" true) (* 871 *);
    ("getNeedsOriginalData", AGet "needsOriginalData") (* 880 *);
    ("setProtocol", ASet "protocol" true) (* 886 *);
    ("getProtocol", AGet "protocol") (* 895 *);
    ("setTransformationDescription", ASet "transformationDescription" true) (* 901 *);
    ("getTransformationDescription", AGet "transformationDescription") (* 910 *);
    ("setTransformerClass", ASet "transformerClass" true) (* 916 *);
    ("getTransformerClass", AGet "transformerClass") (* 925 *);
    ("setVersion", ASet "version" true) (* 931 *);
    ("getVersion", AGet "version") (* 940 *)]);
  (* M2/AUTOSARTemplates/SystemTemplate/Transformer/__init__.py *)
  ("DataTransformationSet", [("getDataTransformations", AGet "dataTransformations") (* 967 *);
    ("createDataTransformation", ANew "DataTransformation" true (PList "dataTransformations")) (* 970 *);
    ("getTransformationTechnologies", AGet "transformationTechnologies") (* 977 *);
    ("createTransformationTechnology", ANew "TransformationTechnology" true (PList "transformationTechnologies")) (* 980 *)]);
  (* M2/AUTOSARTemplates/SystemTemplate/Transformer/__init__.py *)
  ("TransformationISignalProps", [("getCsErrorReaction", AGet "csErrorReaction") (* 1038 *);
    ("setCsErrorReaction", ASet "csErrorReaction" true) (* 1044 *);
    ("getDataPrototypeTransformationProps", AGet "dataPrototypeTransformationProps") (* 1053 *);
    ("addDataPrototypeTransformationProps", AAdd "dataPrototypeTransformationProps" true) (* 1068 *);
    ("getTransformerRef", AGet "transformerRef") (* 1077 *);
    ("setTransformerRef", ASet "transformerRef" true) (* 1083 *)]);
  (* M2/AUTOSARTemplates/SystemTemplate/Transformer/__init__.py *)
  ("DataPrototypeReference", [("getTagId", AGet "tagId") (* 1114 *);
    ("setTagId", ASet "tagId" true) (* 1120 *)]);
  (* M2/AUTOSARTemplates/SystemTemplate/Transformer/__init__.py *)
  ("DataPrototypeInPortInterfaceRef", [("getDataPrototypeInClientServerInterface", AGet "dataPrototypeInClientServerInterface") (* 1149 *);
    ("setDataPrototypeInClientServerInterface", ASet "dataPrototypeInClientServerInterface" true) (* 1155 *)]);
  (* M2/AUTOSARTemplates/SystemTemplate/Transformer/__init__.py *)
  ("DataPrototypeInSenderReceiverInterfaceInstanceRef", [("getBaseRef", AGet "baseRef") (* 1199 *);
    ("setBaseRef", ASet "baseRef" true) (* 1205 *);
    ("getContextDataPrototypeInSrRefs", AGet "contextDataPrototypeInSrRefs") (* 1214 *);
    ("addContextDataPrototypeInSrRefs", AAdd "contextDataPrototypeInSrRefs" true) (* 1220 *);
    ("getRootDataPrototypeInSrRef", AGet "rootDataPrototypeInSrRef") (* 1229 *);
    ("setRootDataPrototypeInSrRef", ASet "rootDataPrototypeInSrRef" true) (* 1235 *);
    ("getTargetDataPrototypeInSrRef", AGet "targetDataPrototypeInSrRef") (* 1244 *);
    ("setTargetDataPrototypeInSrRef", ASet "targetDataPrototypeInSrRef" true) (* 1250 *)]);
  (* M2/AUTOSARTemplates/SystemTemplate/Transformer/__init__.py *)
  ("DataPrototypeInClientServerInterfaceInstanceRef", [("getBaseRef", AGet "baseRef") (* 1294 *);
    ("setBaseRef", ASet "baseRef" true) (* 1300 *);
    ("getContextDataPrototypeInCsRefs", AGet "contextDataPrototypeInCsRefs") (* 1309 *);
    ("addContextDataPrototypeInCsRefs", AAdd "contextDataPrototypeInCsRefs" true) (* 1315 *);
    ("getRootDataPrototypeInCsRef", AGet "rootDataPrototypeInCsRef") (* 1324 *);
    ("setRootDataPrototypeInCsRef", ASet "rootDataPrototypeInCsRef" true) (* 1330 *);
    ("getTargetDataPrototypeInCsRef", AGet "targetDataPrototypeInCsRef") (* 1339 *);
    ("setTargetDataPrototypeInCsRef", ASet "targetDataPrototypeInCsRef" true) (* 1345 *)]);
  (* M2/AUTOSARTemplates/SystemTemplate/Transformer/__init__.py *)
  ("ImplementationDataTypeElementInPortInterfaceRef", [("getRootDataPrototypeRef", AGet "rootDataPrototypeRef") (* 1399 *);
    ("setRootDataPrototypeRef", ASet "rootDataPrototypeRef" true) (* 1405 *)]);
  (* M2/AUTOSARTemplates/SystemTemplate/Transformer/__init__.py *)
  ("DataPrototypeTransformationProps", [("getDataPrototypeInPortInterfaceRef", AGet "dataPrototypeInPortInterfaceRef") (* 1459 *);
    ("setDataPrototypeInPortInterfaceRef", ASet "dataPrototypeInPortInterfaceRef" true) (* 1465 *);
    ("getNetworkRepresentationProps", AGet "networkRepresentationProps") (* 1474 *);
    ("setNetworkRepresentationProps", ASet "networkRepresentationProps" true) (* 1480 *);
    ("getTransformationProps", AGet "transformationProps") (* 1489 *);
    ("setTransformationProps", ASet "transformationProps" true) (* 1495 *)]);
  (* M2/AUTOSARTemplates/SystemTemplate/Transformer/__init__.py *)
  ("EndToEndTransformationISignalProps", [("getDataIds", AGet "dataIds") (* 1534 *);
    ("addDataId", AAdd "dataIds" true) (* 1537 *);
    ("getDataLength", AGet "dataLength") (* 1542 *);
    ("setDataLength", ASet "dataLength" true) (* 1545 *)]);
  (* M2/AUTOSARTemplates/SystemTemplate/Transformer/__init__.py *)
  ("EndToEndTransformationComSpecProps", [("getClearFromValidToInvalid", AGet "clearFromValidToInvalid") (* 1669 *);
    ("setClearFromValidToInvalid", ASet "clearFromValidToInvalid" true) (* 1675 *);
    ("getDisableEndToEndCheck", AGet "disableEndToEndCheck") (* 1684 *);
    ("setDisableEndToEndCheck", ASet "disableEndToEndCheck" true) (* 1690 *);
    ("getDisableEndToEndStateMachine", AGet "disableEndToEndStateMachine") (* 1699 *);
    ("setDisableEndToEndStateMachine", ASet "disableEndToEndStateMachine" true) (* 1705 *);
    ("getE2eProfileCompatibilityPropsRef", AGet "e2eProfileCompatibilityPropsRef") (* 1714 *);
    ("setE2eProfileCompatibilityPropsRef", ASet "e2eProfileCompatibilityPropsRef" true) (* 1720 *);
    ("getMaxDeltaCounter", AGet "maxDeltaCounter") (* 1729 *);
    ("setMaxDeltaCounter", ASet "maxDeltaCounter" true) (* 1735 *);
    ("getMaxErrorStateInit", AGet "maxErrorStateInit") (* 1744 *);
    ("setMaxErrorStateInit", ASet "maxErrorStateInit" true) (* 1750 *);
    ("getMaxErrorStateInvalid", AGet "maxErrorStateInvalid") (* 1759 *);
    ("setMaxErrorStateInvalid", ASet "maxErrorStateInvalid" true) (* 1765 *);
    ("getMaxErrorStateValid", AGet "maxErrorStateValid") (* 1774 *);
    ("setMaxErrorStateValid", ASet "maxErrorStateValid" true) (* 1780 *);
    ("getMaxNoNewOrRepeatedData", AGet "maxNoNewOrRepeatedData") (* 1789 *);
    ("setMaxNoNewOrRepeatedData", ASet "maxNoNewOrRepeatedData" true) (* 1795 *);
    ("getMinOkStateInit", AGet "minOkStateInit") (* 1804 *);
    ("setMinOkStateInit", ASet "minOkStateInit" true) (* 1810 *);
    ("getMinOkStateInvalid", AGet "minOkStateInvalid") (* 1819 *);
    ("setMinOkStateInvalid", ASet "minOkStateInvalid" true) (* 1825 *);
    ("getMinOkStateValid", AGet "minOkStateValid") (* 1834 *);
    ("setMinOkStateValid", ASet "minOkStateValid" true) (* 1840 *);
    ("getSyncCounterInit", AGet "syncCounterInit") (* 1849 *);
    ("setSyncCounterInit", ASet "syncCounterInit" true) (* 1855 *);
    ("getWindowSizeInit", AGet "windowSizeInit") (* 1864 *);
    ("setWindowSizeInit", ASet "windowSizeInit" true) (* 1870 *);
    ("getWindowSizeInvalid", AGet "windowSizeInvalid") (* 1879 *);
    ("setWindowSizeInvalid", ASet "windowSizeInvalid" true) (* 1885 *);
    ("getWindowSizeValid", AGet "windowSizeValid") (* 1894 *);
    ("setWindowSizeValid", ASet "windowSizeValid" true) (* 1900 *)]);
  (* M2/MSR/AsamHdo/AdminData.py *)
  ("Modification", [("getChange", AGet "change") (* 28 *);
    ("setChange", ASet "change" true) (* 31 *);
    ("getReason", AGet "reason") (* 36 *);
    ("setReason", ASet "reason" true) (* 39 *)]);
  (* M2/MSR/AsamHdo/AdminData.py *)
  ("DocRevision", [("getDate", AGet "date") (* 80 *);
    ("setDate", ASet "date" true) (* 83 *);
    ("getIssuedBy", AGet "issuedBy") (* 88 *);
    ("setIssuedBy", ASet "issuedBy" true) (* 91 *);
    ("getModifications", AGet "modifications") (* 96 *);
    ("addModification", AAdd "modifications" true) (* 99 *);
    ("getRevisionLabel", AGet "revisionLabel") (* 104 *);
    ("setRevisionLabel", ASet "revisionLabel" true) (* 107 *);
    ("getState", AGet "state") (* 128 *);
    ("setState", ASet "state" true) (* 131 *)]);
  (* M2/MSR/AsamHdo/AdminData.py *)
  ("AdminData", [("getDocRevisions", AGet "DocRevisions") (* 162 *);
    ("addDocRevision", AAdd "DocRevisions" false) (* 165 *);
    ("getLanguage", AGet "language") (* 169 *);
    ("setLanguage", ASet "language" false) (* 172 *);
    ("getSdgs", AGet "sdgs") (* 176 *);
    ("addSdg", AAdd "sdgs" false) (* 179 *);
    ("getUsedLanguages", AGet "usedLanguages") (* 183 *);
    ("setUsedLanguages", ASet "usedLanguages" false) (* 186 *)]);
  (* M2/MSR/AsamHdo/BaseTypes.py *)
  ("BaseTypeDirectDefinition", [("getBaseTypeEncoding", AGet "baseTypeEncoding") (* 70 *);
    ("setBaseTypeEncoding", ASet "baseTypeEncoding" true) (* 76 *);
    ("getBaseTypeSize", AGet "baseTypeSize") (* 86 *);
    ("setBaseTypeSize", ASet "baseTypeSize" true) (* 92 *);
    ("getByteOrder", AGet "byteOrder") (* 102 *);
    ("setByteOrder", ASet "byteOrder" true) (* 108 *);
    ("getMemAlignment", AGet "memAlignment") (* 118 *);
    ("setMemAlignment", ASet "memAlignment" true) (* 124 *);
    ("getNativeDeclaration", AGet "nativeDeclaration") (* 134 *);
    ("setNativeDeclaration", ASet "nativeDeclaration" true) (* 140 *)]);
  (* M2/MSR/AsamHdo/BaseTypes.py *)
  ("BaseType", [("getBaseTypeDefinition", AGet "baseTypeDefinition") (* 173 *)]);
  (* M2/MSR/AsamHdo/ComputationMethod.py *)
  ("CompuConst", [("getCompuConstContentType", AGet "compuConstContentType") (* 45 *);
    ("setCompuConstContentType", ASet "compuConstContentType" false) (* 48 *)]);
  (* M2/MSR/AsamHdo/ComputationMethod.py *)
  ("Compu", [("getCompuContent", AGet "compuContent") (* 72 *);
    ("setCompuContent", ASet "compuContent" false) (* 75 *);
    ("getCompuDefaultValue", AGet "compuDefaultValue") (* 79 *);
    ("setCompuDefaultValue", ASet "compuDefaultValue" false) (* 82 *)]);
  (* M2/MSR/AsamHdo/ComputationMethod.py *)
  ("CompuConstTextContent", [("getVt", AGet "vt") (* 122 *);
    ("setVt", ASet "vt" false) (* 125 *)]);
  (* M2/MSR/AsamHdo/ComputationMethod.py *)
  ("CompuConstNumericContent", [("getV", AGet "v") (* 146 *);
    ("setV", ASet "v" false) (* 149 *)]);
  (* M2/MSR/AsamHdo/ComputationMethod.py *)
  ("CompuConstFormulaContent", [("getVf", AGet "vf") (* 170 *);
    ("setVf", ASet "vf" false) (* 173 *)]);
  (* M2/MSR/AsamHdo/ComputationMethod.py *)
  ("CompuNominatorDenominator", [("add_v", AAdd "v" false) (* 294 *);
    ("get_vs", AGet "v") (* 297 *)]);
  (* M2/MSR/AsamHdo/ComputationMethod.py *)
  ("CompuScale", [("getDesc", AGet "desc") (* 362 *);
    ("setDesc", ASet "desc" false) (* 365 *);
    ("getLowerLimit", AGet "lowerLimit") (* 369 *);
    ("setLowerLimit", ASet "lowerLimit" false) (* 372 *);
    ("getMask", AGet "mask") (* 376 *);
    ("setMask", ASet "mask" true) (* 379 *);
    ("getShortLabel", AGet "shortLabel") (* 384 *);
    ("setShortLabel", ASet "shortLabel" false) (* 387 *);
    ("getSymbol", AGet "symbol") (* 391 *);
    ("setSymbol", ASet "symbol" false) (* 394 *);
    ("getUpperLimit", AGet "upperLimit") (* 398 *);
    ("setUpperLimit", ASet "upperLimit" false) (* 401 *)]);
  (* M2/MSR/AsamHdo/ComputationMethod.py *)
  ("CompuScales", [("addCompuScale", AAdd "compuScales" false) (* 422 *);
    ("getCompuScales", AGet "compuScales") (* 425 *)]);
  (* M2/MSR/AsamHdo/ComputationMethod.py *)
  ("CompuMethod", [("getCompuInternalToPhys", AGet "compuInternalToPhys") (* 456 *);
    ("setCompuInternalToPhys", ASet "compuInternalToPhys" false) (* 459 *);
    ("getCompuPhysToInternal", AGet "compuPhysToInternal") (* 463 *);
    ("setCompuPhysToInternal", ASet "compuPhysToInternal" false) (* 466 *);
    ("getDisplayFormat", AGet "displayFormat") (* 470 *);
    ("setDisplayFormat", ASet "displayFormat" false) (* 473 *);
    ("getUnitRef", AGet "unitRef") (* 477 *);
    ("setUnitRef", ASet "unitRef" false) (* 480 *)]);
  (* M2/MSR/AsamHdo/SpecialData.py *)
  ("Sd", [("getGID", AGet "gid") (* 38 *);
    ("setGID", ASet "gid" true) (* 44 *);
    ("getValue", AGet "value") (* 52 *);
    ("setValue", ASet "value" true) (* 58 *);
    ("getXmlSpace", AGet "xmlSpace") (* 66 *)]);
  (* M2/MSR/AsamHdo/SpecialData.py *)
  ("SdgCaption", [("getDesc", AGet "desc") (* 100 *);
    ("setDesc", ASet "desc" true) (* 106 *)]);
  (* M2/MSR/AsamHdo/SpecialData.py *)
  ("Sdf", [("getGID", AGet "gid") (* 139 *);
    ("setGID", ASet "gid" true) (* 145 *);
    ("getValue", AGet "value") (* 153 *);
    ("setValue", ASet "value" true) (* 159 *)]);
  (* M2/MSR/AsamHdo/SpecialData.py *)
  ("SdgContents", [("addSd", AAdd "sd" true) (* 207 *);
    ("getSds", AGet "sd") (* 215 *);
    ("addSdf", AAdd "sdf" true) (* 221 *);
    ("getSdfs", AGet "sdf") (* 229 *);
    ("addSdg", AAdd "sdg" true) (* 235 *);
    ("getSdgs", AGet "sdg") (* 243 *);
    ("addSdxRef", AAdd "sdxRefs" true) (* 249 *);
    ("getSdxRefs", AGet "sdxRefs") (* 257 *);
    ("addSdxfRef", AAdd "sdxfRefs" true) (* 263 *);
    ("getSdxfRefs", AGet "sdxfRefs") (* 271 *)]);
  (* M2/MSR/AsamHdo/SpecialData.py *)
  ("Sdg", [("getGID", AGet "gid") (* 307 *);
    ("setGID", ASet "gid" true) (* 313 *);
    ("getSdgCaption", AGet "sdgCaption") (* 321 *);
    ("createSdgCaption", ANew "SdgCaption" true (PSlot "sdgCaption")) (* 327 *);
    ("getSdgContentsType", AGet "sdgContentsType") (* 335 *);
    ("setSdgContentsType", ASet "sdgContentsType" true) (* 341 *)]);
  (* M2/MSR/AsamHdo/Units.py *)
  ("PhysicalDimension", [("getCurrentExp", AGet "currentExp") (* 65 *);
    ("setCurrentExp", ASet "currentExp" true) (* 71 *);
    ("getLengthExp", AGet "lengthExp") (* 79 *);
    ("setLengthExp", ASet "lengthExp" true) (* 85 *);
    ("getLuminousIntensityExp", AGet "luminousIntensityExp") (* 93 *);
    ("setLuminousIntensityExp", ASet "luminousIntensityExp" true) (* 99 *);
    ("getMassExp", AGet "massExp") (* 107 *);
    ("setMassExp", ASet "massExp" true) (* 113 *);
    ("getMolarAmountExp", AGet "molarAmountExp") (* 121 *);
    ("setMolarAmountExp", ASet "molarAmountExp" true) (* 127 *);
    ("getTemperatureExp", AGet "temperatureExp") (* 135 *);
    ("setTemperatureExp", ASet "temperatureExp" true) (* 141 *);
    ("getTimeExp", AGet "timeExp") (* 149 *);
    ("setTimeExp", ASet "timeExp" true) (* 155 *)]);
  (* M2/MSR/AsamHdo/Units.py *)
  ("Unit", [("getDisplayName", AGet "displayName") (* 213 *);
    ("setDisplayName", ASet "displayName" true) (* 219 *);
    ("getFactorSiToUnit", AGet "factorSiToUnit") (* 227 *);
    ("setFactorSiToUnit", ASet "factorSiToUnit" true) (* 233 *);
    ("getOffsetSiToUnit", AGet "offsetSiToUnit") (* 241 *);
    ("setOffsetSiToUnit", ASet "offsetSiToUnit" true) (* 247 *);
    ("getPhysicalDimensionRef", AGet "physicalDimensionRef") (* 255 *);
    ("setPhysicalDimensionRef", ASet "physicalDimensionRef" true) (* 261 *)]);
  (* M2/MSR/AsamHdo/Constraints/GlobalConstraints.py *)
  ("InternalConstrs", [("getLowerLimit", AGet "lowerLimit") (* 62 *);
    ("setLowerLimit", ASet "lowerLimit" true) (* 68 *);
    ("getMaxDiff", AGet "maxDiff") (* 76 *);
    ("setMaxDiff", ASet "maxDiff" true) (* 82 *);
    ("getMaxGradient", AGet "maxGradient") (* 90 *);
    ("setMaxGradient", ASet "maxGradient" true) (* 96 *);
    ("getMonotony", AGet "monotony") (* 104 *);
    ("setMonotony", ASet "monotony" true) (* 110 *);
    ("addScaleConstr", AAdd "scaleConstrs" true) (* 118 *);
    ("getScaleConstrs", AGet "scaleConstrs") (* 126 *);
    ("getUpperLimit", AGet "upperLimit") (* 132 *);
    ("setUpperLimit", ASet "upperLimit" true) (* 138 *)]);
  (* M2/MSR/AsamHdo/Constraints/GlobalConstraints.py *)
  ("ScaleConstr", [("getDesc", AGet "desc") (* 223 *);
    ("setDesc", ASet "desc" true) (* 229 *);
    ("getLowerLimit", AGet "lowerLimit") (* 237 *);
    ("setLowerLimit", ASet "lowerLimit" true) (* 243 *);
    ("getShortLabel", AGet "shortLabel") (* 251 *);
    ("setShortLabel", ASet "shortLabel" true) (* 257 *);
    ("getUpperLimit", AGet "upperLimit") (* 265 *);
    ("setUpperLimit", ASet "upperLimit" true) (* 271 *);
    ("getValidity", AGet "validity") (* 279 *);
    ("setValidity", ASet "validity" true) (* 285 *)]);
  (* M2/MSR/AsamHdo/Constraints/GlobalConstraints.py *)
  ("PhysConstrs", [("getLowerLimit", AGet "lowerLimit") (* 343 *);
    ("setLowerLimit", ASet "lowerLimit" true) (* 349 *);
    ("getMaxDiff", AGet "maxDiff") (* 357 *);
    ("setMaxDiff", ASet "maxDiff" true) (* 363 *);
    ("getMaxGradient", AGet "maxGradient") (* 371 *);
    ("setMaxGradient", ASet "maxGradient" true) (* 377 *);
    ("getMonotony", AGet "monotony") (* 385 *);
    ("setMonotony", ASet "monotony" true) (* 391 *);
    ("addScaleConstr", AAdd "scaleConstrs" true) (* 399 *);
    ("getScaleConstrs", AGet "scaleConstrs") (* 407 *);
    ("getUnitRef", AGet "unitRef") (* 413 *);
    ("setUnitRef", ASet "unitRef" true) (* 419 *);
    ("getUpperLimit", AGet "upperLimit") (* 427 *);
    ("setUpperLimit", ASet "upperLimit" true) (* 433 *)]);
  (* M2/MSR/AsamHdo/Constraints/GlobalConstraints.py *)
  ("DataConstr", [("addDataConstrRule", AAdd "data_constr_rule" false) (* 475 *);
    ("getDataConstrRules", AGet "data_constr_rule") (* 478 *)]);
  (* M2/MSR/CalibrationData/CalibrationValue.py *)
  ("SwValues", [("addV", AAdd "_v" false) (* 23 *);
    ("getVs", AGet "_v") (* 26 *)]);
  (* M2/MSR/CalibrationData/CalibrationValue.py *)
  ("SwValueCont", [("getSwArraysize", AGet "swArraysize") (* 55 *);
    ("setSwArraysize", ASet "swArraysize" false) (* 58 *);
    ("setSwValuesPhys", ASet "swValuesPhys" false) (* 65 *);
    ("getUnitRef", AGet "unitRef") (* 69 *);
    ("setUnitRef", ASet "unitRef" false) (* 72 *)]);
  (* M2/MSR/DataDictionary/AuxillaryObjects.py *)
  ("SwAddrMethod", [("getMemoryAllocationKeywordPolicy", AGet "memoryAllocationKeywordPolicy") (* 114 *);
    ("setMemoryAllocationKeywordPolicy", ASet "memoryAllocationKeywordPolicy" true) (* 120 *);
    ("getOptions", AGet "options") (* 128 *);
    ("addOption", AAdd "options" false) (* 134 *);
    ("getSectionInitializationPolicy", AGet "sectionInitializationPolicy") (* 141 *);
    ("setSectionInitializationPolicy", ASet "sectionInitializationPolicy" true) (* 147 *);
    ("getSectionType", AGet "sectionType") (* 155 *);
    ("setSectionType", ASet "sectionType" true) (* 161 *)]);
  (* M2/MSR/DataDictionary/Axis.py *)
  ("SwGenericAxisParam", [("getSwGenericAxisParamTypeRef", AGet "swGenericAxisParamTypeRef") (* 31 *);
    ("setSwGenericAxisParamTypeRef", ASet "swGenericAxisParamTypeRef" true) (* 37 *);
    ("getVfs", AGet "vfs") (* 46 *);
    ("addVf", AAdd "vfs" true) (* 52 *)]);
  (* M2/MSR/DataDictionary/Axis.py *)
  ("SwAxisGeneric", [("getSwAxisTypeRef", AGet "swAxisTypeRef") (* 86 *);
    ("setSwAxisTypeRef", ASet "swAxisTypeRef" true) (* 92 *);
    ("getSwGenericAxisParams", AGet "swGenericAxisParams") (* 101 *);
    ("addSwGenericAxisParam", AAdd "swGenericAxisParams" true) (* 107 *)]);
  (* M2/MSR/DataDictionary/Axis.py *)
  ("SwAxisIndividual", [("getCompuMethodRef", AGet "compuMethodRef") (* 154 *);
    ("setCompuMethodRef", ASet "compuMethodRef" false) (* 157 *);
    ("getDataConstrRef", AGet "dataConstrRef") (* 161 *);
    ("setDataConstrRef", ASet "dataConstrRef" false) (* 164 *);
    ("getInputVariableTypeRef", AGet "inputVariableTypeRef") (* 168 *);
    ("setInputVariableTypeRef", ASet "inputVariableTypeRef" false) (* 171 *);
    ("getSwAxisGeneric", AGet "swAxisGeneric") (* 175 *);
    ("setSwAxisGeneric", ASet "swAxisGeneric" false) (* 178 *);
    ("getSwMaxAxisPoints", AGet "swMaxAxisPoints") (* 182 *);
    ("setSwMaxAxisPoints", ASet "swMaxAxisPoints" false) (* 185 *);
    ("getSwMinAxisPoints", AGet "swMinAxisPoints") (* 189 *);
    ("setSwMinAxisPoints", ASet "swMinAxisPoints" false) (* 192 *);
    ("getUnitRef", AGet "unitRef") (* 203 *);
    ("setUnitRef", ASet "unitRef" false) (* 206 *)]);
  (* M2/MSR/DataDictionary/Axis.py *)
  ("SwAxisGrouped", [("setSharedAxisTypeRef", ASet "sharedAxisTypeRef" false) (* 236 *);
    ("getSwAxisIndex", AGet "swAxisIndex") (* 240 *);
    ("setSwAxisIndex", ASet "swAxisIndex" false) (* 243 *);
    ("getSwCalprmRef", AGet "swCalprmRef") (* 247 *);
    ("setSwCalprmRef", ASet "swCalprmRef" false) (* 250 *)]);
  (* M2/MSR/DataDictionary/CalibrationParameter.py *)
  ("SwCalprmAxisTypeProps", [("getMaxGradient", AGet "maxGradient") (* 69 *);
    ("setMaxGradient", ASet "maxGradient" true) (* 75 *);
    ("getMonotony", AGet "monotony") (* 83 *);
    ("setMonotony", ASet "monotony" true) (* 89 *)]);
  (* M2/MSR/DataDictionary/CalibrationParameter.py *)
  ("SwCalprmAxis", [("getCategory", AGet "category") (* 138 *);
    ("setCategory", ASet "category" true) (* 144 *);
    ("getDisplayFormat", AGet "displayFormat") (* 152 *);
    ("setDisplayFormat", ASet "displayFormat" true) (* 158 *);
    ("getSwAxisIndex", AGet "swAxisIndex") (* 166 *);
    ("setSwAxisIndex", ASet "swAxisIndex" true) (* 172 *);
    ("getSwCalibrationAccess", AGet "swCalibrationAccess") (* 180 *);
    ("setSwCalibrationAccess", ASet "swCalibrationAccess" true) (* 186 *);
    ("getSwCalprmAxisTypeProps", AGet "swCalprmAxisTypeProps") (* 194 *);
    ("setSwCalprmAxisTypeProps", ASet "swCalprmAxisTypeProps" true) (* 200 *)]);
  (* M2/MSR/DataDictionary/CalibrationParameter.py *)
  ("SwCalprmAxisSet", [("addSwCalprmAxis", AAdd "_swCalprmAxis" false) (* 224 *);
    ("getSwCalprmAxises", AGet "_swCalprmAxis") (* 227 *)]);
  (* M2/MSR/DataDictionary/DataDefProperties.py *)
  ("SwBitRepresentation", [("getBitPosition", AGet "bitPosition") (* 140 *);
    ("setBitPosition", ASet "bitPosition" true) (* 146 *);
    ("getNumberOfBits", AGet "numberOfBits") (* 154 *);
    ("setNumberOfBits", ASet "numberOfBits" true) (* 160 *)]);
  (* M2/MSR/DataDictionary/DataDefProperties.py *)
  ("SwVariableRefProxy", [("getAutosarVariable", AGet "autosarVariable") (* 193 *);
    ("setAutosarVariable", ASet "autosarVariable" true) (* 199 *);
    ("getMcDataInstanceVarRef", AGet "mcDataInstanceVarRef") (* 207 *);
    ("setMcDataInstanceVarRef", ASet "mcDataInstanceVarRef" true) (* 213 *)]);
  (* M2/MSR/DataDictionary/DataDefProperties.py *)
  ("SwCalprmRefProxy", [("getArParameter", AGet "arParameter") (* 246 *);
    ("setArParameter", ASet "arParameter" true) (* 252 *);
    ("getMcDataInstanceRef", AGet "mcDataInstanceRef") (* 260 *);
    ("setMcDataInstanceRef", ASet "mcDataInstanceRef" true) (* 266 *)]);
  (* M2/MSR/DataDictionary/DataDefProperties.py *)
  ("SwDataDependencyArgs", [("getSwCalprmRef", AGet "swCalprmRef") (* 299 *);
    ("setSwCalprmRef", ASet "swCalprmRef" true) (* 305 *);
    ("getSwVariable", AGet "swVariable") (* 313 *);
    ("setSwVariable", ASet "swVariable" true) (* 319 *)]);
  (* M2/MSR/DataDictionary/DataDefProperties.py *)
  ("CompuGenericMath", [("getLevel", AGet "level") (* 347 *);
    ("setLevel", ASet "level" true) (* 353 *)]);
  (* M2/MSR/DataDictionary/DataDefProperties.py *)
  ("SwDataDependency", [("getSwDataDependencyFormula", AGet "swDataDependencyFormula") (* 386 *);
    ("setSwDataDependencyFormula", ASet "swDataDependencyFormula" true) (* 392 *);
    ("getSwDataDependencyArgs", AGet "swDataDependencyArgs") (* 400 *);
    ("setSwDataDependencyArgs", ASet "swDataDependencyArgs" true) (* 406 *)]);
  (* M2/MSR/DataDictionary/DataDefProperties.py *)
  ("SwDataDefProps", [("getDisplayPresentation", AGet "displayPresentation") (* 579 *);
    ("setDisplayPresentation", ASet "displayPresentation" true) (* 585 *);
    ("getStepSize", AGet "stepSize") (* 593 *);
    ("setStepSize", ASet "stepSize" true) (* 599 *);
    ("getSwValueBlockSizeMults", AGet "swValueBlockSizeMults") (* 607 *);
    ("addSwValueBlockSizeMult", AAdd "swValueBlockSizeMults" true) (* 613 *);
    ("getAnnotations", AGet "annotations") (* 621 *);
    ("addAnnotation", AAdd "annotations" true) (* 627 *);
    ("getSwAddrMethodRef", AGet "swAddrMethodRef") (* 635 *);
    ("setSwAddrMethodRef", ASet "swAddrMethodRef" true) (* 641 *);
    ("getSwAlignment", AGet "swAlignment") (* 649 *);
    ("setSwAlignment", ASet "swAlignment" true) (* 655 *);
    ("getBaseTypeRef", AGet "baseTypeRef") (* 663 *);
    ("setBaseTypeRef", ASet "baseTypeRef" true) (* 669 *);
    ("getSwBitRepresentation", AGet "swBitRepresentation") (* 677 *);
    ("setSwBitRepresentation", ASet "swBitRepresentation" true) (* 683 *);
    ("getSwCalibrationAccess", AGet "swCalibrationAccess") (* 691 *);
    ("setSwCalibrationAccess", ASet "swCalibrationAccess" true) (* 697 *);
    ("getSwValueBlockSize", AGet "swValueBlockSize") (* 705 *);
    ("setSwValueBlockSize", ASet "swValueBlockSize" true) (* 711 *);
    ("getSwCalprmAxisSet", AGet "swCalprmAxisSet") (* 719 *);
    ("setSwCalprmAxisSet", ASet "swCalprmAxisSet" true) (* 725 *);
    ("getSwTextProps", AGet "swTextProps") (* 733 *);
    ("setSwTextProps", ASet "swTextProps" true) (* 739 *);
    ("getSwComparisonVariables", AGet "swComparisonVariables") (* 747 *);
    ("addSwComparisonVariable", AAdd "swComparisonVariables" true) (* 753 *);
    ("getCompuMethodRef", AGet "compuMethodRef") (* 761 *);
    ("setCompuMethodRef", ASet "compuMethodRef" true) (* 767 *);
    ("getDataConstrRef", AGet "dataConstrRef") (* 775 *);
    ("setDataConstrRef", ASet "dataConstrRef" true) (* 781 *);
    ("getSwDataDependency", AGet "swDataDependency") (* 789 *);
    ("setSwDataDependency", ASet "swDataDependency" true) (* 795 *);
    ("getDisplayFormat", AGet "displayFormat") (* 803 *);
    ("setDisplayFormat", ASet "displayFormat" true) (* 809 *);
    ("getImplementationDataTypeRef", AGet "implementationDataTypeRef") (* 817 *);
    ("setImplementationDataTypeRef", ASet "implementationDataTypeRef" true) (* 823 *);
    ("getSwHostVariable", AGet "swHostVariable") (* 831 *);
    ("setSwHostVariable", ASet "swHostVariable" true) (* 837 *);
    ("getSwImplPolicy", AGet "swImplPolicy") (* 845 *);
    ("setSwImplPolicy", ASet "swImplPolicy" true) (* 851 *);
    ("getAdditionalNativeTypeQualifier", AGet "additionalNativeTypeQualifier") (* 859 *);
    ("setAdditionalNativeTypeQualifier", ASet "additionalNativeTypeQualifier" true) (* 865 *);
    ("getSwIntendedResolution", AGet "swIntendedResolution") (* 873 *);
    ("setSwIntendedResolution", ASet "swIntendedResolution" true) (* 879 *);
    ("getSwInterpolationMethod", AGet "swInterpolationMethod") (* 887 *);
    ("setSwInterpolationMethod", ASet "swInterpolationMethod" true) (* 893 *);
    ("getInvalidValue", AGet "invalidValue") (* 901 *);
    ("setInvalidValue", ASet "invalidValue" true) (* 907 *);
    ("getSwIsVirtual", AGet "swIsVirtual") (* 915 *);
    ("setSwIsVirtual", ASet "swIsVirtual" true) (* 921 *);
    ("getSwPointerTargetProps", AGet "swPointerTargetProps") (* 929 *);
    ("setSwPointerTargetProps", ASet "swPointerTargetProps" true) (* 935 *);
    ("getSwRecordLayoutRef", AGet "swRecordLayoutRef") (* 943 *);
    ("setSwRecordLayoutRef", ASet "swRecordLayoutRef" true) (* 949 *);
    ("getSwRefreshTiming", AGet "swRefreshTiming") (* 957 *);
    ("setSwRefreshTiming", ASet "swRefreshTiming" true) (* 963 *);
    ("getUnitRef", AGet "unitRef") (* 971 *);
    ("setUnitRef", ASet "unitRef" true) (* 977 *);
    ("getValueAxisDataTypeRef", AGet "valueAxisDataTypeRef") (* 985 *);
    ("setValueAxisDataTypeRef", ASet "valueAxisDataTypeRef" true) (* 991 *)]);
  (* M2/MSR/DataDictionary/DataDefProperties.py *)
  ("SwPointerTargetProps", [("getFunctionPointerSignatureRef", AGet "functionPointerSignatureRef") (* 1029 *);
    ("setFunctionPointerSignatureRef", ASet "functionPointerSignatureRef" true) (* 1035 *);
    ("getSwDataDefProps", AGet "swDataDefProps") (* 1043 *);
    ("setSwDataDefProps", ASet "swDataDefProps" true) (* 1049 *);
    ("getTargetCategory", AGet "targetCategory") (* 1057 *);
    ("setTargetCategory", ASet "targetCategory" true) (* 1063 *)]);
  (* M2/MSR/DataDictionary/DataDefProperties.py *)
  ("ValueList", [("getV", AGet "v") (* 1090 *);
    ("setV", ASet "v" true) (* 1093 *);
    ("addVf", AAdd "_vf" false) (* 1098 *)]);
  (* M2/MSR/DataDictionary/DataDefProperties.py *)
  ("SwTextProps", [("getArraySizeSemantics", AGet "arraySizeSemantics") (* 1139 *);
    ("setArraySizeSemantics", ASet "arraySizeSemantics" true) (* 1145 *);
    ("getBaseTypeRef", AGet "baseTypeRef") (* 1153 *);
    ("setBaseTypeRef", ASet "baseTypeRef" true) (* 1159 *);
    ("getSwFillCharacter", AGet "swFillCharacter") (* 1167 *);
    ("setSwFillCharacter", ASet "swFillCharacter" true) (* 1173 *);
    ("getSwMaxTextSize", AGet "swMaxTextSize") (* 1181 *);
    ("setSwMaxTextSize", ASet "swMaxTextSize" true) (* 1187 *)]);
  (* M2/MSR/DataDictionary/RecordLayout.py *)
  ("SwRecordLayoutV", [("getBaseTypeRef", AGet "baseTypeRef") (* 61 *);
    ("setBaseTypeRef", ASet "baseTypeRef" false) (* 64 *);
    ("getDesc", AGet "desc") (* 68 *);
    ("setDesc", ASet "desc" false) (* 71 *);
    ("getShortLabel", AGet "shortLabel") (* 75 *);
    ("setShortLabel", ASet "shortLabel" false) (* 78 *);
    ("getSwGenericAxisParamTypeRef", AGet "swGenericAxisParamTypeRef") (* 82 *);
    ("setSwGenericAxisParamTypeRef", ASet "swGenericAxisParamTypeRef" false) (* 85 *);
    ("getSwRecordLayoutVAxis", AGet "swRecordLayoutVAxis") (* 89 *);
    ("setSwRecordLayoutVAxis", ASet "swRecordLayoutVAxis" false) (* 92 *);
    ("getSwRecordLayoutVIndex", AGet "swRecordLayoutVIndex") (* 103 *);
    ("setSwRecordLayoutVIndex", ASet "swRecordLayoutVIndex" false) (* 106 *);
    ("getSwRecordLayoutVProp", AGet "swRecordLayoutVProp") (* 110 *);
    ("setSwRecordLayoutVProp", ASet "swRecordLayoutVProp" false) (* 113 *)]);
  (* M2/MSR/DataDictionary/RecordLayout.py *)
  ("SwRecordLayoutGroupContent", [("getSwRecordLayoutRef", AGet "swRecordLayoutRef") (* 140 *);
    ("setSwRecordLayoutRef", ASet "swRecordLayoutRef" false) (* 143 *);
    ("getSwRecordLayoutGroup", AGet "swRecordLayoutGroup") (* 147 *);
    ("setSwRecordLayoutGroup", ASet "swRecordLayoutGroup" false) (* 150 *);
    ("getSwRecordLayoutV", AGet "swRecordLayoutV") (* 154 *);
    ("setSwRecordLayoutV", ASet "swRecordLayoutV" false) (* 157 *)]);
  (* M2/MSR/DataDictionary/RecordLayout.py *)
  ("SwRecordLayoutGroup", [("getCategory", AGet "category") (* 208 *);
    ("setCategory", ASet "category" false) (* 211 *);
    ("getDesc", AGet "desc") (* 215 *);
    ("setDesc", ASet "desc" false) (* 218 *);
    ("getShortLabel", AGet "shortLabel") (* 222 *);
    ("setShortLabel", ASet "shortLabel" false) (* 225 *);
    ("getSwGenericAxisParamTypeRef", AGet "swGenericAxisParamTypeRef") (* 229 *);
    ("setSwGenericAxisParamTypeRef", ASet "swGenericAxisParamTypeRef" false) (* 232 *);
    ("getSwRecordLayoutGroupAxis", AGet "swRecordLayoutGroupAxis") (* 243 *);
    ("setSwRecordLayoutGroupAxis", ASet "swRecordLayoutGroupAxis" false) (* 246 *);
    ("getSwRecordLayoutGroupContentType", AGet "swRecordLayoutGroupContentType") (* 250 *);
    ("setSwRecordLayoutGroupContentType", ASet "swRecordLayoutGroupContentType" false) (* 253 *);
    ("getSwRecordLayoutGroupFrom", AGet "swRecordLayoutGroupFrom") (* 257 *);
    ("setSwRecordLayoutGroupFrom", ASet "swRecordLayoutGroupFrom" false) (* 260 *);
    ("getSwRecordLayoutGroupIndex", AGet "swRecordLayoutGroupIndex") (* 264 *);
    ("setSwRecordLayoutGroupIndex", ASet "swRecordLayoutGroupIndex" false) (* 267 *);
    ("getSwRecordLayoutGroupStep", AGet "swRecordLayoutGroupStep") (* 271 *);
    ("setSwRecordLayoutGroupStep", ASet "swRecordLayoutGroupStep" false) (* 274 *);
    ("getSwRecordLayoutGroupTo", AGet "swRecordLayoutGroupTo") (* 278 *);
    ("setSwRecordLayoutGroupTo", ASet "swRecordLayoutGroupTo" false) (* 281 *)]);
  (* M2/MSR/DataDictionary/RecordLayout.py *)
  ("SwRecordLayout", [("getSwRecordLayoutGroup", AGet "swRecordLayoutGroup") (* 302 *);
    ("setSwRecordLayoutGroup", ASet "swRecordLayoutGroup" false) (* 305 *)]);
  (* M2/MSR/DataDictionary/ServiceProcessTask.py *)
  ("SwServiceArg", [("getDirection", AGet "direction") (* 38 *);
    ("setDirection", ASet "direction" true) (* 47 *);
    ("getSwArraysize", AGet "swArraysize") (* 61 *);
    ("setSwArraysize", ASet "swArraysize" true) (* 70 *);
    ("getSwDataDefProps", AGet "swDataDefProps") (* 84 *);
    ("setSwDataDefProps", ASet "swDataDefProps" true) (* 93 *)]);
  (* M2/MSR/DataDictionary/SystemConstant.py *)
  ("SwSystemconst", [("setSwDataDefProps", ASet "swDataDefProps" false) (* 27 *);
    ("getSwDataDefProps", AGet "swDataDefProps") (* 38 *)]);
  (* M2/MSR/Documentation/Annotation.py *)
  ("GeneralAnnotation", [("getAnnotationOrigin", AGet "annotationOrigin") (* 31 *);
    ("setAnnotationOrigin", ASet "annotationOrigin" false) (* 34 *);
    ("getAnnotationText", AGet "annotationText") (* 38 *);
    ("setAnnotationText", ASet "annotationText" false) (* 41 *);
    ("getLabel", AGet "label") (* 45 *);
    ("setLabel", ASet "label" false) (* 48 *)]);
  (* M2/MSR/Documentation/Chapters.py *)
  ("Chapter", [("setHelpEntry", ASet "helpEntry" true) (* 47 *);
    ("getHelpEntry", AGet "helpEntry") (* 60 *);
    ("setChapterModel", ASet "chapterModel" true) (* 69 *);
    ("getChapterModel", AGet "chapterModel") (* 82 *)]);
  (* M2/MSR/Documentation/Chapters.py *)
  ("PredefinedChapter", [("setChapterModel", ASet "chapterModel" true) (* 111 *);
    ("getChapterModel", AGet "chapterModel") (* 124 *)]);
  (* M2/MSR/Documentation/Chapters.py *)
  ("ChapterModel", [("setChapterContent", ASet "chapterContent" true) (* 171 *);
    ("getChapterContent", AGet "chapterContent") (* 184 *);
    ("setTopic1", ASet "topic1" true) (* 193 *);
    ("getTopic1", AGet "topic1") (* 206 *);
    ("setChapter", ASet "chapter" true) (* 215 *);
    ("getChapter", AGet "chapter") (* 228 *)]);
  (* M2/MSR/Documentation/Chapters.py *)
  ("ChapterContent", [("setTopicContent", ASet "topicContent" true) (* 261 *);
    ("getTopicContent", AGet "topicContent") (* 274 *)]);
  (* M2/MSR/Documentation/Chapters.py *)
  ("ChapterOrMsrQuery", [("addChapter", AAdd "chapters" true) (* 308 *);
    ("getChapters", AGet "chapters") (* 321 *);
    ("setMsrQueryChapter", ASet "msrQueryChapter" true) (* 330 *);
    ("getMsrQueryChapter", AGet "msrQueryChapter") (* 343 *)]);
  (* M2/MSR/Documentation/Chapters.py *)
  ("TopicOrMsrQuery", [("addTopic1", AAdd "topic1" true) (* 377 *);
    ("getTopic1s", AGet "topic1") (* 390 *);
    ("setMsrQueryTopic1", ASet "msrQueryTopic1" true) (* 399 *);
    ("getMsrQueryTopic1", AGet "msrQueryTopic1") (* 412 *)]);
  (* M2/MSR/Documentation/Chapters.py *)
  ("Topic1", [("setHelpEntry", ASet "helpEntry" true) (* 448 *);
    ("getHelpEntry", AGet "helpEntry") (* 461 *);
    ("setTopicContent", ASet "topicContent" true) (* 470 *);
    ("getTopicContent", AGet "topicContent") (* 483 *)]);
  (* M2/MSR/Documentation/Chapters.py *)
  ("MsrQueryChapter", [("setMsrQueryProps", ASet "msrQueryProps" true) (* 517 *);
    ("getMsrQueryProps", AGet "msrQueryProps") (* 530 *)]);
  (* M2/MSR/Documentation/Chapters.py *)
  ("MsrQueryTopic1", [("setMsrQueryProps", ASet "msrQueryProps" true) (* 564 *);
    ("getMsrQueryProps", AGet "msrQueryProps") (* 577 *)]);
  (* M2/MSR/Documentation/Chapters.py *)
  ("TopicContent", [("setBlockLevelContent", ASet "blockLevelContent" true) (* 613 *);
    ("getBlockLevelContent", AGet "blockLevelContent") (* 626 *)]);
  (* M2/MSR/Documentation/Chapters.py *)
  ("TopicContentOrMsrQuery", [("setMsrQueryP1", ASet "msrQueryP1" true) (* 662 *);
    ("getMsrQueryP1", AGet "msrQueryP1") (* 675 *);
    ("setTopicContent", ASet "topicContent" true) (* 684 *);
    ("getTopicContent", AGet "topicContent") (* 697 *)]);
  (* M2/MSR/Documentation/BlockElements/Figure.py *)
  ("Graphic", [("getFilename", AGet "filename") (* 82 *);
    ("setFilename", ASet "filename" true) (* 85 *)]);
  (* M2/MSR/Documentation/BlockElements/Figure.py *)
  ("LGraphic", [("getGraphic", AGet "graphic") (* 134 *);
    ("setGraphic", ASet "graphic" true) (* 143 *)]);
  (* M2/MSR/Documentation/BlockElements/Figure.py *)
  ("MlFigure", [("getHelpEntry", AGet "helpEntry") (* 211 *);
    ("setHelpEntry", ASet "helpEntry" true) (* 214 *);
    ("getLGraphics", AGet "lGraphics") (* 219 *);
    ("addLGraphics", AAdd "lGraphics" true) (* 222 *);
    ("getPgwide", AGet "pgwide") (* 227 *);
    ("setPgwide", ASet "pgwide" true) (* 230 *);
    ("getVerbatim", AGet "verbatim") (* 235 *);
    ("setVerbatim", ASet "verbatim" true) (* 238 *)]);
  (* M2/MSR/Documentation/BlockElements/Formula.py *)
  ("MlFormula", [("getFormulaCaption", AGet "formulaCaption") (* 49 *);
    ("setFormulaCaption", ASet "formulaCaption" true) (* 58 *);
    ("getGenericMath", AGet "genericMath") (* 69 *);
    ("setGenericMath", ASet "genericMath" true) (* 78 *);
    ("addLGraphic", AAdd "lGraphics" true) (* 89 *);
    ("getLGraphics", AGet "lGraphics") (* 100 *);
    ("getTexMath", AGet "texMath") (* 109 *);
    ("setTexMath", ASet "texMath" true) (* 118 *);
    ("getVerbatim", AGet "verbatim") (* 129 *);
    ("setVerbatim", ASet "verbatim" true) (* 138 *)]);
  (* M2/MSR/Documentation/BlockElements/__init__.py *)
  ("Caption", [("getDesc", AGet "desc") (* 31 *);
    ("setDesc", ASet "desc" true) (* 40 *)]);
  (* M2/MSR/Documentation/TextModel/InlineTextElements.py *)
  ("Tt", [("getValue", AGet "value") (* 53 *);
    ("setValue", ASet "value" true) (* 62 *);
    ("getTexRender", AGet "texRender") (* 73 *);
    ("setTexRender", ASet "texRender" true) (* 82 *);
    ("getType", AGet "type") (* 93 *);
    ("setType", ASet "type" true) (* 102 *)]);
  (* M2/MSR/Documentation/TextModel/InlineTextElements.py *)
  ("IndexEntry", [("getValue", AGet "value") (* 143 *);
    ("setValue", ASet "value" true) (* 152 *);
    ("getSub", AGet "sub") (* 163 *);
    ("setSub", ASet "sub" true) (* 172 *);
    ("getSup", AGet "sup") (* 183 *);
    ("setSup", ASet "sup" true) (* 192 *)]);
  (* M2/MSR/Documentation/TextModel/InlineTextElements.py *)
  ("EmphasisText", [("getValue", AGet "value") (* 253 *);
    ("setValue", ASet "value" true) (* 262 *);
    ("getColor", AGet "color") (* 273 *);
    ("setColor", ASet "color" true) (* 282 *);
    ("getSub", AGet "sub") (* 313 *);
    ("setSub", ASet "sub" true) (* 322 *);
    ("getSup", AGet "sup") (* 333 *);
    ("setSup", ASet "sup" true) (* 342 *);
    ("getTt", AGet "tt") (* 353 *);
    ("setTt", ASet "tt" true) (* 362 *);
    ("getType", AGet "type") (* 373 *);
    ("setType", ASet "type" true) (* 382 *)]);
  (* M2/MSR/Documentation/TextModel/LanguageDataModel.py *)
  ("LanguageSpecific", [("getL", AGet "l") (* 166 *);
    ("setL", ASet "l" true) (* 172 *);
    ("getValue", AGet "value") (* 180 *);
    ("setValue", ASet "value" true) (* 186 *)]);
  (* M2/MSR/Documentation/TextModel/LanguageDataModel.py *)
  ("MixedContentForLongName", [("getE", AGet "e") (* 261 *);
    ("setE", ASet "e" true) (* 267 *);
    ("getIe", AGet "ie") (* 275 *);
    ("setIe", ASet "ie" true) (* 281 *);
    ("getSub", AGet "sub") (* 289 *);
    ("setSub", ASet "sub" true) (* 295 *);
    ("getSup", AGet "sup") (* 303 *);
    ("setSup", ASet "sup" true) (* 309 *);
    ("getTt", AGet "tt") (* 317 *);
    ("setTt", ASet "tt" true) (* 323 *)]);
  (* M2/MSR/Documentation/TextModel/LanguageDataModel.py *)
  ("LLongName", [("getBlueprintValue", AGet "blueprintValue") (* 351 *);
    ("setBlueprintValue", ASet "blueprintValue" true) (* 357 *)]);
  (* M2/MSR/Documentation/TextModel/MsrQuery.py *)
  ("MsrQueryArg", [("getArg", AGet "arg") (* 36 *);
    ("setArg", ASet "arg" true) (* 45 *);
    ("getSi", AGet "si") (* 56 *);
    ("setSi", ASet "si" true) (* 65 *)]);
  (* M2/MSR/Documentation/TextModel/MsrQuery.py *)
  ("MsrQueryProps", [("getComment", AGet "comment") (* 106 *);
    ("setComment", ASet "comment" true) (* 115 *);
    ("getMsrQueryName", AGet "msrQueryName") (* 126 *);
    ("setMsrQueryName", ASet "msrQueryName" true) (* 135 *);
    ("addMsrQueryArg", AAdd "msrQueryArgs" true) (* 146 *);
    ("getMsrQueryArgs", AGet "msrQueryArgs") (* 157 *)]);
  (* M2/MSR/Documentation/TextModel/MsrQuery.py *)
  ("MsrQueryP2", [("getMsrQueryProps", AGet "msrQueryProps") (* 191 *);
    ("setMsrQueryProps", ASet "msrQueryProps" true) (* 200 *);
    ("getMsrQueryResultP2", AGet "msrQueryResultP2") (* 211 *);
    ("setMsrQueryResultP2", ASet "msrQueryResultP2" true) (* 220 *)]);
  (* M2/MSR/Documentation/TextModel/MultilanguageData.py *)
  ("MultiLanguageParagraph", [("addL1", AAdd "l1" false) (* 29 *);
    ("getL1s", AGet "l1") (* 33 *)]);
  (* M2/MSR/Documentation/TextModel/MultilanguageData.py *)
  ("MultiLanguageOverviewParagraph", [("addL2", AAdd "l2" true) (* 56 *);
    ("getL2s", AGet "l2") (* 65 *)]);
  (* M2/MSR/Documentation/TextModel/MultilanguageData.py *)
  ("MultilanguageLongName", [("addL4", AAdd "l4" false) (* 88 *);
    ("getL4s", AGet "l4") (* 92 *)]);
  (* M2/MSR/Documentation/TextModel/MultilanguageData.py *)
  ("MultiLanguagePlainText", [("getL10s", AGet "l10s") (* 115 *);
    ("addL10", AAdd "l10s" true) (* 124 *)]);
  (* M2/MSR/Documentation/TextModel/MultilanguageData.py *)
  ("MultiLanguageVerbatim", [("getAllowBreak", AGet "allowBreak") (* 175 *);
    ("setAllowBreak", ASet "allowBreak" true) (* 184 *);
    ("getFloat", AGet "float") (* 195 *);
    ("setFloat", ASet "float" true) (* 204 *);
    ("getHelpEntry", AGet "helpEntry") (* 215 *);
    ("setHelpEntry", ASet "helpEntry" true) (* 224 *);
    ("addL5", AAdd "l5s" true) (* 235 *);
    ("getL5s", AGet "l5s") (* 246 *);
    ("getPgwide", AGet "pgwide") (* 255 *);
    ("setPgwide", ASet "pgwide" true) (* 264 *)]);
  (* M2/MSR/Documentation/TextModel/BlockElements/ListElements.py *)
  ("Item", [("getItemContents", AGet "itemContents") (* 47 *);
    ("setItemContents", ASet "itemContents" false) (* 50 *)]);
  (* M2/MSR/Documentation/TextModel/BlockElements/ListElements.py *)
  ("ARList", [("getItems", AGet "items") (* 74 *);
    ("addItem", AAdd "items" false) (* 77 *);
    ("getType", AGet "type") (* 81 *);
    ("setType", ASet "type" false) (* 84 *)]);
  (* M2/MSR/Documentation/TextModel/BlockElements/ListElements.py *)
  ("IndentSample", [("getItemLabelPos", AGet "itemLabelPos") (* 142 *);
    ("setItemLabelPos", ASet "itemLabelPos" true) (* 151 *);
    ("addL2", AAdd "l2s" true) (* 162 *);
    ("getL2s", AGet "l2s") (* 173 *)]);
  (* M2/MSR/Documentation/TextModel/BlockElements/ListElements.py *)
  ("LabeledItem", [("getHelpEntry", AGet "helpEntry") (* 212 *);
    ("setHelpEntry", ASet "helpEntry" true) (* 221 *);
    ("getItemContents", AGet "itemContents") (* 232 *);
    ("setItemContents", ASet "itemContents" true) (* 241 *);
    ("getItemLabel", AGet "itemLabel") (* 252 *);
    ("setItemLabel", ASet "itemLabel" true) (* 261 *)]);
  (* M2/MSR/Documentation/TextModel/BlockElements/ListElements.py *)
  ("LabeledList", [("getIndentSample", AGet "indentSample") (* 297 *);
    ("setIndentSample", ASet "indentSample" true) (* 306 *);
    ("addLabeledItem", AAdd "labeledItems" true) (* 317 *);
    ("getLabeledItems", AGet "labeledItems") (* 328 *)]);
  (* M2/MSR/Documentation/TextModel/BlockElements/ListElements.py *)
  ("DefItem", [("getDef", AGet "def_doc") (* 362 *);
    ("setDef", ASet "def_doc" true) (* 368 *);
    ("getHelpEntry", AGet "helpEntry") (* 376 *);
    ("setHelpEntry", ASet "helpEntry" true) (* 382 *)]);
  (* M2/MSR/Documentation/TextModel/BlockElements/ListElements.py *)
  ("DefList", [("addDefItem", AAdd "defItems" true) (* 410 *);
    ("getDefItems", AGet "defItems") (* 421 *)]);
  (* M2/MSR/Documentation/TextModel/BlockElements/Note.py *)
  ("Note", [("getLabel", AGet "label") (* 83 *);
    ("setLabel", ASet "label" true) (* 92 *);
    ("getNoteText", AGet "noteText") (* 103 *);
    ("setNoteText", ASet "noteText" true) (* 112 *);
    ("getNoteType", AGet "noteType") (* 123 *);
    ("setNoteType", ASet "noteType" true) (* 132 *)]);
  (* M2/MSR/Documentation/TextModel/BlockElements/RequirementsTracing.py *)
  ("TraceableText", [("getText", AGet "text") (* 36 *);
    ("setText", ASet "text" true) (* 45 *);
    ("getTraceRefs", AGet "traceRefs") (* 56 *);
    ("addTraceRef", AAdd "traceRefs" true) (* 65 *)]);
  (* M2/MSR/Documentation/TextModel/BlockElements/RequirementsTracing.py *)
  ("StructuredReq", [("getDate", AGet "date") (* 151 *);
    ("setDate", ASet "date" true) (* 160 *);
    ("getImportance", AGet "importance") (* 171 *);
    ("setImportance", ASet "importance" true) (* 180 *);
    ("getIssuedBy", AGet "issuedBy") (* 191 *);
    ("setIssuedBy", ASet "issuedBy" true) (* 200 *);
    ("getType", AGet "type") (* 211 *);
    ("setType", ASet "type" true) (* 220 *);
    ("getDescription", AGet "description") (* 231 *);
    ("setDescription", ASet "description" true) (* 240 *);
    ("getRationale", AGet "rationale") (* 251 *);
    ("setRationale", ASet "rationale" true) (* 260 *);
    ("getDependencies", AGet "dependencies") (* 271 *);
    ("setDependencies", ASet "dependencies" true) (* 280 *);
    ("getUseCase", AGet "useCase") (* 291 *);
    ("setUseCase", ASet "useCase" true) (* 300 *);
    ("getConflicts", AGet "conflicts") (* 311 *);
    ("setConflicts", ASet "conflicts" true) (* 320 *);
    ("getSupportingMaterial", AGet "supportingMaterial") (* 331 *);
    ("setSupportingMaterial", ASet "supportingMaterial" true) (* 340 *);
    ("getRemark", AGet "remark") (* 351 *);
    ("setRemark", ASet "remark" true) (* 360 *);
    ("getTestedItemRefs", AGet "testedItemRefs") (* 371 *);
    ("addTestedItemRef", AAdd "testedItemRefs" true) (* 380 *)]);
  (* M2/MSR/Documentation/TextModel/BlockElements/__init__.py *)
  ("DocumentationBlock", [("getDefList", AGet "defList") (* 91 *);
    ("setDefList", ASet "defList" true) (* 100 *);
    ("addFigure", AAdd "figures" true) (* 111 *);
    ("getFigures", AGet "figures") (* 122 *);
    ("getFormula", AGet "formula") (* 131 *);
    ("setFormula", ASet "formula" true) (* 140 *);
    ("getLabeledList", AGet "labeledList") (* 151 *);
    ("setLabeledList", ASet "labeledList" true) (* 160 *);
    ("addList", AAdd "lists" true) (* 171 *);
    ("getLists", AGet "lists") (* 182 *);
    ("getMsrQueryP2", AGet "msrQueryP2") (* 191 *);
    ("setMsrQueryP2", ASet "msrQueryP2" true) (* 200 *);
    ("getNote", AGet "note") (* 211 *);
    ("setNote", ASet "note" true) (* 220 *);
    ("addP", AAdd "ps" true) (* 231 *);
    ("getPs", AGet "ps") (* 242 *);
    ("getStructuredReq", AGet "structuredReq") (* 251 *);
    ("setStructuredReq", ASet "structuredReq" true) (* 260 *);
    ("getTrace", AGet "trace") (* 271 *);
    ("setTrace", ASet "trace" true) (* 280 *);
    ("getVerbatim", AGet "verbatim") (* 291 *);
    ("setVerbatim", ASet "verbatim" true) (* 300 *)])].
