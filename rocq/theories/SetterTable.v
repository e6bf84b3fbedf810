(** Generated by tools/gen_setters.py: the bodies of the methods set*, get* and is* of every class
    of /repo/src/armodel/models (paths below are relative to /repo/src/armodel), statement by
    statement.  [MOther] stands for a statement that is none of the forms below; it is also
    used for accesses to attributes that are Python properties (ARType.value and the like). *)
From Coq Require Import String List.
Import ListNotations.
Open Scope string_scope.

Inductive mstmt :=
| MAssign (a : string)          (* self.a = value *)
| MIfSome (b : list mstmt)      (* if value is not None: b *)
| MIfAttr (a : string) (b c : list mstmt)   (* if self.a is not None: b else: c *)
| MIfOtherName (a : string) (b : list mstmt) (* if value.getShortName() != self.a.getShortName(): b *)
| MRaise                        (* raise ValueError(...) *)
| MReturnSelf                   (* return self *)
| MReturnAttr (a : string)      (* return self.a *)
| MOther.

Definition method_table : list (string * list (string * list mstmt)) := [
  (* models/M2/AUTOSARTemplates/ECUCDescriptionTemplate.py *)
  ("EcucValueCollection", [ (* line 19 *)
    ("getEcucValueRefs", [MReturnAttr "ecucValueRefs"]);
    ("getEcuExtractRef", [MReturnAttr "ecuExtractRef"]);
    ("setEcuExtractRef", [MAssign "ecuExtractRef"; MReturnSelf])]);
  ("EcucIndexableValue", [ (* line 52 *)
    ("getIndex", [MReturnAttr "index"]);
    ("setIndex", [MIfSome [MAssign "index"]; MReturnSelf])]);
  ("EcucParameterValue", [ (* line 91 *)
    ("getAnnotations", [MReturnAttr "annotations"]);
    ("getDefinitionRef", [MReturnAttr "definitionRef"]);
    ("setDefinitionRef", [MAssign "definitionRef"; MReturnSelf]);
    ("getIsAutoValue", [MReturnAttr "isAutoValue"]);
    ("setIsAutoValue", [MAssign "isAutoValue"; MReturnSelf])]);
  ("EcucAddInfoParamValue", [ (* line 138 *)
    ("getValue", [MReturnAttr "value"]);
    ("setValue", [MAssign "value"])]);
  ("EcucTextualParamValue", [ (* line 161 *)
    ("getValue", [MReturnAttr "value"]);
    ("setValue", [MAssign "value"])]);
  ("EcucNumericalParamValue", [ (* line 183 *)
    ("getValue", [MReturnAttr "value"]);
    ("setValue", [MAssign "value"])]);
  ("EcucAbstractReferenceValue", [ (* line 205 *)
    ("getAnnotations", [MReturnAttr "annotations"]);
    ("getDefinitionRef", [MReturnAttr "definitionRef"]);
    ("setDefinitionRef", [MAssign "definitionRef"; MReturnSelf]);
    ("getIsAutoValue", [MReturnAttr "isAutoValue"]);
    ("setIsAutoValue", [MAssign "isAutoValue"; MReturnSelf])]);
  ("EcucInstanceReferenceValue", [ (* line 252 *)
    ("getValueIRef", [MReturnAttr "valueRef"]);
    ("setValueIRef", [MAssign "valueRef"; MReturnSelf])]);
  ("EcucReferenceValue", [ (* line 276 *)
    ("getValueRef", [MReturnAttr "valueRef"]);
    ("setValueRef", [MAssign "valueRef"; MReturnSelf])]);
  ("EcucContainerValue", [ (* line 299 *)
    ("getDefinitionRef", [MReturnAttr "definitionRef"]);
    ("setDefinitionRef", [MAssign "definitionRef"; MReturnSelf]);
    ("getParameterValues", [MReturnAttr "parameterValues"]);
    ("getReferenceValues", [MReturnAttr "referenceValues"]);
    ("getSubContainers", [MReturnAttr "subContainers"])]);
  ("EcucModuleConfigurationValues", [ (* line 357 *)
    ("getContainers", [MOther]);
    ("getDefinitionRef", [MReturnAttr "definitionRef"]);
    ("setDefinitionRef", [MAssign "definitionRef"; MReturnSelf]);
    ("getEcucDefEdition", [MReturnAttr "ecucDefEdition"]);
    ("setEcucDefEdition", [MAssign "ecucDefEdition"; MReturnSelf]);
    ("getImplementationConfigVariant", [MReturnAttr "implementationConfigVariant"]);
    ("setImplementationConfigVariant", [MAssign "implementationConfigVariant"; MReturnSelf]);
    ("getModuleDescriptionRef", [MReturnAttr "moduleDescriptionRef"]);
    ("setModuleDescriptionRef", [MAssign "moduleDescriptionRef"; MReturnSelf]);
    ("getPostBuildVariantUsed", [MReturnAttr "postBuildVariantUsed"]);
    ("setPostBuildVariantUsed", [MAssign "postBuildVariantUsed"; MReturnSelf])]);
  (* models/M2/AUTOSARTemplates/ECUCParameterDefTemplate.py *)
  ("EcucConditionSpecification", [ (* line 13 *)
    ("getConditionFormula", [MReturnAttr "conditionFormula"]);
    ("setConditionFormula", [MIfSome [MAssign "conditionFormula"]; MReturnSelf]);
    ("getEcucQueries", [MReturnAttr "ecucQueries"]);
    ("getEcucQuery", [MOther; MOther]);
    ("getInformalFormula", [MReturnAttr "informalFormula"]);
    ("setInformalFormula", [MIfSome [MAssign "informalFormula"]; MReturnSelf])]);
  ("EcucValidationCondition", [ (* line 101 *)
    ("getEcucQueries", [MReturnAttr "ecucQueries"]);
    ("getEcucQuery", [MOther; MOther]);
    ("getValidationFormula", [MReturnAttr "validationFormula"]);
    ("setValidationFormula", [MIfSome [MAssign "validationFormula"]; MReturnSelf])]);
  ("EcucDefinitionElement", [ (* line 193 *)
    ("getEcucCond", [MReturnAttr "ecucCond"]);
    ("setEcucCond", [MIfSome [MAssign "ecucCond"]; MReturnSelf]);
    ("getEcucValidationConds", [MReturnAttr "ecucValidationConds"]);
    ("getLowerMultiplicity", [MReturnAttr "lowerMultiplicity"]);
    ("setLowerMultiplicity", [MIfSome [MAssign "lowerMultiplicity"]; MReturnSelf]);
    ("getRelatedTraceItemRef", [MReturnAttr "relatedTraceItemRef"]);
    ("setRelatedTraceItemRef", [MIfSome [MAssign "relatedTraceItemRef"]; MReturnSelf]);
    ("getScope", [MReturnAttr "scope"]);
    ("setScope", [MIfSome [MAssign "scope"]; MReturnSelf]);
    ("getUpperMultiplicity", [MReturnAttr "upperMultiplicity"]);
    ("setUpperMultiplicity", [MIfSome [MAssign "upperMultiplicity"]; MReturnSelf]);
    ("getUpperMultiplicityInfinite", [MReturnAttr "upperMultiplicityInfinite"]);
    ("setUpperMultiplicityInfinite", [MIfSome [MAssign "upperMultiplicityInfinite"]; MReturnSelf])]);
  ("EcucAbstractConfigurationClass", [ (* line 430 *)
    ("getConfigClass", [MReturnAttr "configClass"]);
    ("setConfigClass", [MIfSome [MAssign "configClass"]; MReturnSelf]);
    ("getConfigVariant", [MReturnAttr "configVariant"]);
    ("setConfigVariant", [MIfSome [MAssign "configVariant"]; MReturnSelf])]);
  ("EcucContainerDef", [ (* line 500 *)
    ("getDestinationUriRefs", [MReturnAttr "destinationUriRefs"]);
    ("getMultiplicityConfigClasses", [MReturnAttr "multiplicityConfigClasses"]);
    ("getOrigin", [MReturnAttr "origin"]);
    ("setOrigin", [MIfSome [MAssign "origin"]; MReturnSelf]);
    ("getPostBuildVariantMultiplicity", [MReturnAttr "postBuildVariantMultiplicity"]);
    ("setPostBuildVariantMultiplicity", [MIfSome [MAssign "postBuildVariantMultiplicity"]; MReturnSelf]);
    ("getRequiresIndex", [MReturnAttr "requiresIndex"]);
    ("setRequiresIndex", [MIfSome [MAssign "requiresIndex"]; MReturnSelf])]);
  ("EcucCommonAttributes", [ (* line 629 *)
    ("getMultiplicityConfigClasses", [MReturnAttr "multiplicityConfigClasses"]);
    ("getOrigin", [MReturnAttr "origin"]);
    ("setOrigin", [MIfSome [MAssign "origin"]; MReturnSelf]);
    ("getPostBuildVariantMultiplicity", [MReturnAttr "postBuildVariantMultiplicity"]);
    ("setPostBuildVariantMultiplicity", [MIfSome [MAssign "postBuildVariantMultiplicity"]; MReturnSelf]);
    ("getPostBuildVariantValue", [MReturnAttr "postBuildVariantValue"]);
    ("setPostBuildVariantValue", [MIfSome [MAssign "postBuildVariantValue"]; MReturnSelf]);
    ("getRequiresIndex", [MReturnAttr "requiresIndex"]);
    ("setRequiresIndex", [MIfSome [MAssign "requiresIndex"]; MReturnSelf]);
    ("getValueConfigClasses", [MReturnAttr "valueConfigClasses"])]);
  ("EcucDerivationSpecification", [ (* line 766 *)
    ("getCalculationFormula", [MReturnAttr "calculationFormula"]);
    ("setCalculationFormula", [MIfSome [MAssign "calculationFormula"]; MReturnSelf]);
    ("getEcucQueries", [MReturnAttr "ecucQueries"]);
    ("getEcucQuery", [MOther; MOther]);
    ("getInformalFormula", [MReturnAttr "informalFormula"]);
    ("setInformalFormula", [MIfSome [MAssign "informalFormula"]; MReturnSelf])]);
  ("EcucParameterDef", [ (* line 856 *)
    ("getDerivation", [MReturnAttr "derivation"]);
    ("setDerivation", [MIfSome [MAssign "derivation"]; MReturnSelf]);
    ("getSymbolicNameValue", [MReturnAttr "symbolicNameValue"]);
    ("setSymbolicNameValue", [MIfSome [MAssign "symbolicNameValue"]; MReturnSelf]);
    ("getWithAuto", [MReturnAttr "withAuto"]);
    ("setWithAuto", [MIfSome [MAssign "withAuto"]; MReturnSelf])]);
  ("EcucBooleanParamDef", [ (* line 905 *)
    ("getDefaultValue", [MReturnAttr "defaultValue"]);
    ("setDefaultValue", [MIfSome [MAssign "defaultValue"]; MReturnSelf])]);
  ("EcucAbstractReferenceDef", [ (* line 930 *)
    ("getWithAuto", [MReturnAttr "withAuto"]);
    ("setWithAuto", [MIfSome [MAssign "withAuto"]; MReturnSelf])]);
  ("EcucAbstractInternalReferenceDef", [ (* line 967 *)
    ("getRequiresSymbolicNameValue", [MReturnAttr "requiresSymbolicNameValue"]);
    ("setRequiresSymbolicNameValue", [MIfSome [MAssign "requiresSymbolicNameValue"]; MReturnSelf])]);
  ("EcucSymbolicNameReferenceDef", [ (* line 1023 *)
    ("getDestinationRef", [MReturnAttr "destinationRef"]);
    ("setDestinationRef", [MIfSome [MAssign "destinationRef"]; MReturnSelf])]);
  ("EcucChoiceReferenceDef", [ (* line 1055 *)
    ("getDestinationRefs", [MReturnAttr "destinationRefs"])]);
  ("EcucReferenceDef", [ (* line 1090 *)
    ("getDestinationRef", [MReturnAttr "destinationRef"]);
    ("setDestinationRef", [MIfSome [MAssign "destinationRef"]; MReturnSelf])]);
  ("EcucUriReferenceDef", [ (* line 1124 *)
    ("getDestinationUriRef", [MReturnAttr "destinationUriRef"]);
    ("setDestinationUriRef", [MIfSome [MAssign "destinationUriRef"]; MReturnSelf])]);
  ("EcucForeignReferenceDef", [ (* line 1156 *)
    ("getDestinationType", [MReturnAttr "destinationType"]);
    ("setDestinationType", [MIfSome [MAssign "destinationType"]; MReturnSelf])]);
  ("EcucInstanceReferenceDef", [ (* line 1190 *)
    ("getDestinationContext", [MReturnAttr "destinationContext"]);
    ("setDestinationContext", [MIfSome [MAssign "destinationContext"]; MReturnSelf]);
    ("getDestinationType", [MReturnAttr "destinationType"]);
    ("setDestinationType", [MIfSome [MAssign "destinationType"]; MReturnSelf])]);
  ("EcucAbstractStringParamDef", [ (* line 1245 *)
    ("getDefaultValue", [MReturnAttr "defaultValue"]);
    ("setDefaultValue", [MIfSome [MAssign "defaultValue"]; MReturnSelf]);
    ("getMaxLength", [MReturnAttr "maxLength"]);
    ("setMaxLength", [MIfSome [MAssign "maxLength"]; MReturnSelf]);
    ("getMinLength", [MReturnAttr "minLength"]);
    ("setMinLength", [MIfSome [MAssign "minLength"]; MReturnSelf]);
    ("getRegularExpression", [MReturnAttr "regularExpression"]);
    ("setRegularExpression", [MIfSome [MAssign "regularExpression"]; MReturnSelf])]);
  ("EcucIntegerParamDef", [ (* line 1374 *)
    ("getDefaultValue", [MReturnAttr "defaultValue"]);
    ("setDefaultValue", [MIfSome [MAssign "defaultValue"]; MReturnSelf]);
    ("getMax", [MReturnAttr "max"]);
    ("setMax", [MIfSome [MAssign "max"]; MReturnSelf]);
    ("getMin", [MReturnAttr "min"]);
    ("setMin", [MIfSome [MAssign "min"]; MReturnSelf])]);
  ("EcucEnumerationLiteralDef", [ (* line 1421 *)
    ("getEcucCond", [MReturnAttr "ecucCond"]);
    ("setEcucCond", [MIfSome [MAssign "ecucCond"]; MReturnSelf]);
    ("getOrigin", [MReturnAttr "origin"]);
    ("setOrigin", [MIfSome [MAssign "origin"]; MReturnSelf])]);
  ("EcucEnumerationParamDef", [ (* line 1471 *)
    ("getDefaultValue", [MReturnAttr "defaultValue"]);
    ("setDefaultValue", [MIfSome [MAssign "defaultValue"]; MReturnSelf]);
    ("getLiterals", [MReturnAttr "literals"])]);
  ("EcucFloatParamDef", [ (* line 1522 *)
    ("getDefaultValue", [MReturnAttr "defaultValue"]);
    ("setDefaultValue", [MIfSome [MAssign "defaultValue"]; MReturnSelf]);
    ("getMax", [MReturnAttr "max"]);
    ("setMax", [MIfSome [MAssign "max"]; MReturnSelf]);
    ("getMin", [MReturnAttr "min"]);
    ("setMin", [MIfSome [MAssign "min"]; MReturnSelf])]);
  ("EcucChoiceContainerDef", [ (* line 1569 *)
    ("getChoices", [MReturnAttr "choices"])]);
  ("EcucParamConfContainerDef", [ (* line 1596 *)
    ("getParameters", [MReturnAttr "parameters"]);
    ("getReferences", [MReturnAttr "references"]);
    ("getSubContainers", [MReturnAttr "subContainers"])]);
  ("EcucConditionFormula", [ (* line 1891 *)
    ("getEcucQueryRef", [MReturnAttr "ecucQueryRef"]);
    ("setEcucQueryRef", [MIfSome [MAssign "ecucQueryRef"]; MReturnSelf]);
    ("getEcucQueryStringRef", [MReturnAttr "ecucQueryStringRef"]);
    ("setEcucQueryStringRef", [MIfSome [MAssign "ecucQueryStringRef"]; MReturnSelf])]);
  ("EcucDefinitionCollection", [ (* line 1945 *)
    ("getModuleRefs", [MReturnAttr "moduleRefs"])]);
  ("EcucDestinationUriDef", [ (* line 1979 *)
    ("getDestinationUriPolicy", [MReturnAttr "destinationUriPolicy"]);
    ("setDestinationUriPolicy", [MIfSome [MAssign "destinationUriPolicy"]; MReturnSelf])]);
  ("EcucDestinationUriDefSet", [ (* line 2013 *)
    ("getDestinationUriDefs", [MReturnAttr "destinationUriDefs"])]);
  ("EcucDestinationUriPolicy", [ (* line 2056 *)
    ("getContainers", [MReturnAttr "containers"]);
    ("getDestinationUriNestingContract", [MReturnAttr "destinationUriNestingContract"]);
    ("setDestinationUriNestingContract", [MIfSome [MAssign "destinationUriNestingContract"]; MReturnSelf]);
    ("getParameters", [MReturnAttr "parameters"]);
    ("getReferences", [MReturnAttr "references"])]);
  ("EcucParameterDerivationFormula", [ (* line 2206 *)
    ("getEcucQueryRef", [MReturnAttr "ecucQueryRef"]);
    ("setEcucQueryRef", [MIfSome [MAssign "ecucQueryRef"]; MReturnSelf]);
    ("getEcucQueryStringRef", [MReturnAttr "ecucQueryStringRef"]);
    ("setEcucQueryStringRef", [MIfSome [MAssign "ecucQueryStringRef"]; MReturnSelf])]);
  ("EcucQuery", [ (* line 2261 *)
    ("getEcucQueryExpression", [MReturnAttr "ecucQueryExpression"]);
    ("setEcucQueryExpression", [MIfSome [MAssign "ecucQueryExpression"]; MReturnSelf])]);
  ("EcucQueryExpression", [ (* line 2295 *)
    ("getConfigElementDefGlobalRef", [MReturnAttr "configElementDefGlobalRef"]);
    ("setConfigElementDefGlobalRef", [MIfSome [MAssign "configElementDefGlobalRef"]; MReturnSelf]);
    ("getConfigElementDefLocalRef", [MReturnAttr "configElementDefLocalRef"]);
    ("setConfigElementDefLocalRef", [MIfSome [MAssign "configElementDefLocalRef"]; MReturnSelf])]);
  ("EcucModuleDef", [ (* line 2349 *)
    ("getApiServicePrefix", [MReturnAttr "apiServicePrefix"]);
    ("setApiServicePrefix", [MIfSome [MAssign "apiServicePrefix"]; MReturnSelf]);
    ("getContainers", [MReturnAttr "containers"]);
    ("getPostBuildVariantSupport", [MReturnAttr "postBuildVariantSupport"]);
    ("setPostBuildVariantSupport", [MIfSome [MAssign "postBuildVariantSupport"]; MReturnSelf]);
    ("getRefinedModuleDefRef", [MReturnAttr "refinedModuleDefRef"]);
    ("setRefinedModuleDefRef", [MIfSome [MAssign "refinedModuleDefRef"]; MReturnSelf]);
    ("getSupportedConfigVariants", [MReturnAttr "supportedConfigVariants"])]);
  (* models/M2/AUTOSARTemplates/AbstractPlatform/ApplicationInterface.py *)
  ("ApplicationInterface", [ (* line 19 *)
    ("getAttributes", [MReturnAttr "attributes"]);
    ("setAttributes", [MAssign "attributes"; MReturnSelf]);
    ("getCommands", [MReturnAttr "commands"]);
    ("setCommands", [MAssign "commands"; MReturnSelf]);
    ("getIndications", [MReturnAttr "indications"]);
    ("setIndications", [MAssign "indications"; MReturnSelf])]);
  (* models/M2/AUTOSARTemplates/AdaptivePlatform/ApplicationDesign/PortInterface/Field.py *)
  ("Field", [ (* line 7 *)
    ("getHasGetter", [MReturnAttr "hasGetter"]);
    ("setHasGetter", [MAssign "hasGetter"; MReturnSelf]);
    ("getHasNotifier", [MReturnAttr "hasNotifier"]);
    ("setHasNotifier", [MAssign "hasNotifier"; MReturnSelf]);
    ("getHasSetter", [MReturnAttr "hasSetter"]);
    ("setHasSetter", [MAssign "hasSetter"; MReturnSelf])]);
  (* models/M2/AUTOSARTemplates/AdaptivePlatform/PlatformModuleDeployment/AdaptiveModule/PlatformModuleEthernetEndpointConfiguration.py *)
  ("PlatformModuleEthernetEndpointConfiguration", [ (* line 16 *)
    ("getCommunications", [MReturnAttr "communications"]);
    ("setCommunications", [MAssign "communications"; MReturnSelf]);
    ("getIpv4MulticastIps", [MReturnAttr "ipv4MulticastIps"]);
    ("setIpv4MulticastIps", [MAssign "ipv4MulticastIps"; MReturnSelf]);
    ("getIpv6MulticastIps", [MReturnAttr "ipv6MulticastIps"]);
    ("setIpv6MulticastIps", [MAssign "ipv6MulticastIps"; MReturnSelf])]);
  (* models/M2/AUTOSARTemplates/AdaptivePlatform/PlatformModuleDeployment/CryptoDeployment/CryptoKeySlot.py *)
  ("CryptoKeySlot", [ (* line 22 *)
    ("getAllocateShadows", [MReturnAttr "allocateShadows"]);
    ("setAllocateShadows", [MAssign "allocateShadows"; MReturnSelf]);
    ("getCryptoAlgIds", [MReturnAttr "cryptoAlgIds"]);
    ("setCryptoAlgIds", [MAssign "cryptoAlgIds"; MReturnSelf]);
    ("getCryptoObjects", [MReturnAttr "cryptoObjects"]);
    ("setCryptoObjects", [MAssign "cryptoObjects"; MReturnSelf]);
    ("getKeySlotAlloweds", [MReturnAttr "keySlotAlloweds"]);
    ("setKeySlotAlloweds", [MAssign "keySlotAlloweds"; MReturnSelf]);
    ("getKeySlotContents", [MReturnAttr "keySlotContents"]);
    ("setKeySlotContents", [MAssign "keySlotContents"; MReturnSelf]);
    ("getSlotCapacitys", [MReturnAttr "slotCapacitys"]);
    ("setSlotCapacitys", [MAssign "slotCapacitys"; MReturnSelf]);
    ("getSlotTypes", [MReturnAttr "slotTypes"]);
    ("setSlotTypes", [MAssign "slotTypes"; MReturnSelf])]);
  (* models/M2/AUTOSARTemplates/AdaptivePlatform/PlatformModuleDeployment/Firewall/FirewallRule.py *)
  ("FirewallRule", [ (* line 6 *)
    ("getDestRefs", [MReturnAttr "destRefs"]);
    ("getSrcRefs", [MReturnAttr "srcRefs"])]);
  (* models/M2/AUTOSARTemplates/AdaptivePlatform/PlatformModuleDeployment/Firewall/FirewallRuleProps.py *)
  ("FirewallRuleProps", [ (* line 4 *)
    ("getAllowAny", [MReturnAttr "allowAny"]);
    ("setAllowAny", [MAssign "allowAny"; MReturnSelf]);
    ("getDirection", [MReturnAttr "direction"]);
    ("setDirection", [MAssign "direction"; MReturnSelf]);
    ("getProtocol", [MReturnAttr "protocol"]);
    ("setProtocol", [MAssign "protocol"; MReturnSelf])]);
  (* models/M2/AUTOSARTemplates/AdaptivePlatform/PlatformModuleDeployment/Firewall/StateDependentFirewall.py *)
  ("StateDependentFirewall", [ (* line 6 *)
    ("getFirewallRules", [MReturnAttr "firewallRules"]);
    ("getStateRef", [MReturnAttr "stateRef"]);
    ("setStateRef", [MAssign "stateRef"; MReturnSelf])]);
  (* models/M2/AUTOSARTemplates/AdaptivePlatform/PlatformModuleDeployment/IntrusionDetectionSystem/IdsPlatformInstantiation.py *)
  ("IdsPlatformInstantiation", [ (* line 11 *)
    ("getNetworks", [MReturnAttr "networks"]);
    ("setNetworks", [MAssign "networks"; MReturnSelf]);
    ("getTimeBases", [MReturnAttr "timeBases"]);
    ("setTimeBases", [MAssign "timeBases"; MReturnSelf])]);
  (* models/M2/AUTOSARTemplates/AutosarTopLevelStructure/__init__.py *)
  ("FileInfoComment", [ (* line 26 *)
    ("getSdgs", [MReturnAttr "sdgs"]);
    ("setSdgs", [MAssign "sdgs"; MReturnSelf])]);
  ("AbstractAUTOSAR", [ (* line 50 *)
    ("getAdminData", [MReturnAttr "adminData"]);
    ("setAdminData", [MIfSome [MAssign "adminData"]; MReturnSelf]);
    ("getFileInfoComment", [MReturnAttr "fileInfoComment"]);
    ("setFileInfoComment", [MAssign "fileInfoComment"; MReturnSelf]);
    ("getIntroduction", [MReturnAttr "introduction"]);
    ("setIntroduction", [MAssign "introduction"; MReturnSelf]);
    ("getElement", [MOther; MOther]);
    ("getARPackages", [MOther]);
    ("getDestType", [MOther; MOther]);
    ("getDataType", [MOther]);
    ("getRootSwCompositionPrototype", [MReturnAttr "rootSwCompositionPrototype"]);
    ("setRootSwCompositionPrototype", [MIfSome [MIfAttr "rootSwCompositionPrototype" [MIfOtherName "rootSwCompositionPrototype" [MRaise]] [MAssign "rootSwCompositionPrototype"]]; MReturnSelf]);
    ("getBehavior", [MOther; MOther]);
    ("getImplementation", [MOther; MOther]);
    ("getSystems", [MOther]);
    ("getCompositionSwComponentTypes", [MReturnAttr "compositionSwComponentTypes"]);
    ("getCompositionSwComponentType", [MOther]);
    ("getARObjectByUUID", [MOther]);
    ("getDuplicateUUIDs", [MOther]);
    ("setARRelease", [MOther; MOther; MReturnSelf])]);
  ("AUTOSAR", [ (* line 354 *)
    ("getInstance", [MOther])]);
  (* models/M2/AUTOSARTemplates/BswModuleTemplate/BswImplementation.py *)
  ("BswImplementation", [ (* line 13 *)
    ("getArReleaseVersion", [MReturnAttr "arReleaseVersion"]);
    ("setArReleaseVersion", [MIfSome [MAssign "arReleaseVersion"]; MReturnSelf]);
    ("getBehaviorRef", [MReturnAttr "behaviorRef"]);
    ("setBehaviorRef", [MIfSome [MAssign "behaviorRef"]; MReturnSelf]);
    ("getPreconfiguredConfigurationRefs", [MReturnAttr "preconfiguredConfigurationRefs"]);
    ("getRecommendedConfigurationRefs", [MReturnAttr "recommendedConfigurationRefs"]);
    ("getVendorApiInfix", [MReturnAttr "vendorApiInfix"]);
    ("setVendorApiInfix", [MIfSome [MAssign "vendorApiInfix"]; MReturnSelf]);
    ("getVendorSpecificModuleDefRefs", [MReturnAttr "vendorSpecificModuleDefRefs"])]);
  (* models/M2/AUTOSARTemplates/BswModuleTemplate/BswInterfaces.py *)
  ("BswModuleDependency", [ (* line 129 *)
    ("getTargetModuleId", [MReturnAttr "targetModuleId"]);
    ("setTargetModuleId", [MIfSome [MAssign "targetModuleId"]; MReturnSelf]);
    ("getTargetModuleRef", [MReturnAttr "targetModuleRef"]);
    ("setTargetModuleRef", [MIfSome [MAssign "targetModuleRef"]; MReturnSelf])]);
  ("BswModuleEntry", [ (* line 208 *)
    ("getArguments", [MReturnAttr "arguments"]);
    ("getBswEntryKind", [MReturnAttr "bswEntryKind"]);
    ("setBswEntryKind", [MIfSome [MAssign "bswEntryKind"]; MReturnSelf]);
    ("getCallType", [MReturnAttr "callType"]);
    ("setCallType", [MIfSome [MAssign "callType"]; MReturnSelf]);
    ("getExecutionContext", [MReturnAttr "executionContext"]);
    ("setExecutionContext", [MIfSome [MAssign "executionContext"]; MReturnSelf]);
    ("getFunctionPrototypeEmitter", [MReturnAttr "functionPrototypeEmitter"]);
    ("setFunctionPrototypeEmitter", [MIfSome [MAssign "functionPrototypeEmitter"]; MReturnSelf]);
    ("getIsReentrant", [MReturnAttr "isReentrant"]);
    ("setIsReentrant", [MIfSome [MAssign "isReentrant"]; MReturnSelf]);
    ("getIsSynchronous", [MReturnAttr "isSynchronous"]);
    ("setIsSynchronous", [MIfSome [MAssign "isSynchronous"]; MReturnSelf]);
    ("getReturnType", [MReturnAttr "returnType"]);
    ("getRole", [MReturnAttr "role"]);
    ("setRole", [MIfSome [MAssign "role"]; MReturnSelf]);
    ("getServiceId", [MReturnAttr "serviceId"]);
    ("setServiceId", [MIfSome [MAssign "serviceId"]; MReturnSelf]);
    ("getSwServiceImplPolicy", [MReturnAttr "swServiceImplPolicy"]);
    ("setSwServiceImplPolicy", [MIfSome [MAssign "swServiceImplPolicy"]; MReturnSelf])]);
  ("BswModuleClientServerEntry", [ (* line 460 *)
    ("getEncapsulatedEntryRef", [MReturnAttr "encapsulatedEntryRef"]);
    ("setEncapsulatedEntryRef", [MIfSome [MAssign "encapsulatedEntryRef"]; MReturnSelf]);
    ("getIsReentrant", [MReturnAttr "isReentrant"]);
    ("setIsReentrant", [MIfSome [MAssign "isReentrant"]; MReturnSelf]);
    ("getIsSynchronous", [MReturnAttr "isSynchronous"]);
    ("setIsSynchronous", [MIfSome [MAssign "isSynchronous"]; MReturnSelf])]);
  ("BswEntryRelationship", [ (* line 580 *)
    ("getBswEntryRelationshipType", [MReturnAttr "bswEntryRelationshipType"]);
    ("setBswEntryRelationshipType", [MIfSome [MAssign "bswEntryRelationshipType"]; MReturnSelf]);
    ("getFromRef", [MReturnAttr "fromRef"]);
    ("setFromRef", [MIfSome [MAssign "fromRef"]; MReturnSelf]);
    ("getToRef", [MReturnAttr "toRef"]);
    ("setToRef", [MIfSome [MAssign "toRef"]; MReturnSelf])]);
  ("BswEntryRelationshipSet", [ (* line 664 *)
    ("getBswEntryRelationships", [MReturnAttr "bswEntryRelationships"])]);
  (* models/M2/AUTOSARTemplates/BswModuleTemplate/BswBehavior/BswSchedulerNamePrefix.py *)
  ("BswSchedulerNamePrefix", [ (* line 8 *)
    ("getPrefix", [MReturnAttr "prefix"]);
    ("setPrefix", [MAssign "prefix"; MReturnSelf])]);
  (* models/M2/AUTOSARTemplates/BswModuleTemplate/BswBehavior/__init__.py *)
  ("BswModuleCallPoint", [ (* line 36 *)
    ("getContextLimitationRefs", [MReturnAttr "contextLimitationRefs"])]);
  ("BswAsynchronousServerCallPoint", [ (* line 86 *)
    ("getCalledEntryRef", [MReturnAttr "calledEntryRef"]);
    ("setCalledEntryRef", [MIfSome [MAssign "calledEntryRef"]; MReturnSelf])]);
  ("BswDirectCallPoint", [ (* line 135 *)
    ("getCalledEntryRef", [MReturnAttr "calledEntryRef"]);
    ("setCalledEntryRef", [MIfSome [MAssign "calledEntryRef"]; MReturnSelf]);
    ("getCalledFromWithinExclusiveAreaRef", [MReturnAttr "calledFromWithinExclusiveAreaRef"]);
    ("setCalledFromWithinExclusiveAreaRef", [MIfSome [MAssign "calledFromWithinExclusiveAreaRef"]; MReturnSelf])]);
  ("BswSynchronousServerCallPoint", [ (* line 212 *)
    ("getCalledEntryRef", [MReturnAttr "calledEntryRef"]);
    ("setCalledEntryRef", [MIfSome [MAssign "calledEntryRef"]; MReturnSelf]);
    ("getCalledFromWithinExclusiveAreaRef", [MReturnAttr "calledFromWithinExclusiveAreaRef"]);
    ("setCalledFromWithinExclusiveAreaRef", [MIfSome [MAssign "calledFromWithinExclusiveAreaRef"]; MReturnSelf])]);
  ("BswVariableAccess", [ (* line 312 *)
    ("getAccessedVariableRef", [MReturnAttr "accessedVariableRef"]);
    ("setAccessedVariableRef", [MAssign "accessedVariableRef"; MReturnSelf]);
    ("getContextLimitationRefs", [MReturnAttr "contextLimitationRefs"])]);
  ("BswModuleEntity", [ (* line 408 *)
    ("getAccessedModeGroupRefs", [MReturnAttr "accessedModeGroupRefs"]);
    ("getActivationPointRefs", [MReturnAttr "activationPointRefs"]);
    ("getCallPoints", [MReturnAttr "callPoints"]);
    ("getDataReceivePoints", [MReturnAttr "dataReceivePoints"]);
    ("getDataSendPoints", [MReturnAttr "dataSendPoints"]);
    ("getImplementedEntryRef", [MReturnAttr "implementedEntryRef"]);
    ("setImplementedEntryRef", [MIfSome [MAssign "implementedEntryRef"]; MReturnSelf]);
    ("getIssuedTriggerRefs", [MReturnAttr "issuedTriggerRefs"]);
    ("getManagedModeGroupRefs", [MReturnAttr "managedModeGroupRefs"]);
    ("getSchedulerNamePrefixRef", [MReturnAttr "schedulerNamePrefixRef"]);
    ("setSchedulerNamePrefixRef", [MIfSome [MAssign "schedulerNamePrefixRef"]; MReturnSelf])]);
  ("BswInterruptEntity", [ (* line 780 *)
    ("getInterruptCategory", [MReturnAttr "interruptCategory"]);
    ("setInterruptCategory", [MAssign "interruptCategory"; MReturnSelf]);
    ("getInterruptSource", [MReturnAttr "interruptSource"]);
    ("setInterruptSource", [MAssign "interruptSource"; MReturnSelf])]);
  ("BswEvent", [ (* line 853 *)
    ("getContextLimitationRefs", [MReturnAttr "contextLimitationRefs"]);
    ("getDisabledInModeIRefs", [MReturnAttr "disabledInModeIRefs"]);
    ("getStartsOnEventRef", [MReturnAttr "startsOnEventRef"]);
    ("setStartsOnEventRef", [MIfSome [MAssign "startsOnEventRef"]; MReturnSelf])]);
  ("BswOperationInvokedEvent", [ (* line 958 *)
    ("getEntryRef", [MReturnAttr "entryRef"]);
    ("setEntryRef", [MIfSome [MAssign "entryRef"]; MReturnSelf])]);
  ("BswAsynchronousServerCallReturnsEvent", [ (* line 1032 *)
    ("getEventSourceRef", [MReturnAttr "eventSourceRef"]);
    ("setEventSourceRef", [MIfSome [MAssign "eventSourceRef"]; MReturnSelf])]);
  ("BswModeSwitchEvent", [ (* line 1087 *)
    ("getActivation", [MReturnAttr "activation"]);
    ("setActivation", [MIfSome [MAssign "activation"]; MReturnSelf]);
    ("getModeIRefs", [MReturnAttr "modeIRefs"])]);
  ("BswModeSwitchedAckEvent", [ (* line 1160 *)
    ("getModeGroupRef", [MReturnAttr "modeGroupRef"]);
    ("setModeGroupRef", [MIfSome [MAssign "modeGroupRef"]; MReturnSelf])]);
  ("BswModeManagerErrorEvent", [ (* line 1217 *)
    ("getModeGroupRef", [MReturnAttr "modeGroupRef"]);
    ("setModeGroupRef", [MIfSome [MAssign "modeGroupRef"]; MReturnSelf])]);
  ("BswTimingEvent", [ (* line 1274 *)
    ("getPeriod", [MReturnAttr "period"]);
    ("setPeriod", [MIfSome [MAssign "period"]; MReturnSelf])]);
  ("BswDataReceivedEvent", [ (* line 1339 *)
    ("getDataRef", [MReturnAttr "dataRef"]);
    ("setDataRef", [MAssign "dataRef"; MReturnSelf])]);
  ("BswInternalTriggerOccurredEvent", [ (* line 1386 *)
    ("getEventSourceRef", [MReturnAttr "eventSourceRef"]);
    ("setEventSourceRef", [MAssign "eventSourceRef"; MReturnSelf])]);
  ("BswModeSwitchAckRequest", [ (* line 1433 *)
    ("getTimeout", [MReturnAttr "timeout"]);
    ("setTimeout", [MAssign "timeout"; MReturnSelf])]);
  ("BswModeSenderPolicy", [ (* line 1476 *)
    ("getAckRequest", [MReturnAttr "ackRequest"]);
    ("setAckRequest", [MIfSome [MAssign "ackRequest"]; MReturnSelf]);
    ("getEnhancedModeApi", [MReturnAttr "enhancedModeApi"]);
    ("setEnhancedModeApi", [MIfSome [MAssign "enhancedModeApi"]; MReturnSelf]);
    ("getProvidedModeGroupRef", [MReturnAttr "providedModeGroupRef"]);
    ("setProvidedModeGroupRef", [MIfSome [MAssign "providedModeGroupRef"]; MReturnSelf]);
    ("getQueueLength", [MReturnAttr "queueLength"]);
    ("setQueueLength", [MIfSome [MAssign "queueLength"]; MReturnSelf])]);
  ("BswModeReceiverPolicy", [ (* line 1618 *)
    ("getEnhancedModeApi", [MReturnAttr "enhancedModeApi"]);
    ("setEnhancedModeApi", [MIfSome [MAssign "enhancedModeApi"]; MReturnSelf]);
    ("getRequiredModeGroupRef", [MReturnAttr "requiredModeGroupRef"]);
    ("setRequiredModeGroupRef", [MIfSome [MAssign "requiredModeGroupRef"]; MReturnSelf]);
    ("getSupportsAsynchronousModeSwitch", [MReturnAttr "supportsAsynchronousModeSwitch"]);
    ("setSupportsAsynchronousModeSwitch", [MIfSome [MAssign "supportsAsynchronousModeSwitch"]; MReturnSelf])]);
  ("BswExternalTriggerOccurredEvent", [ (* line 1748 *)
    ("getTriggerRef", [MReturnAttr "triggerRef"]);
    ("setTriggerRef", [MIfSome [MAssign "triggerRef"]; MReturnSelf])]);
  ("BswApiOptions", [ (* line 1797 *)
    ("getEnableTakeAddress", [MReturnAttr "enableTakeAddress"]);
    ("setEnableTakeAddress", [MIfSome [MAssign "enableTakeAddress"]; MReturnSelf])]);
  ("BswExclusiveAreaPolicy", [ (* line 1846 *)
    ("getApiPrinciple", [MReturnAttr "apiPrinciple"]);
    ("setApiPrinciple", [MIfSome [MAssign "apiPrinciple"]; MReturnSelf]);
    ("getExclusiveAreaRef", [MReturnAttr "exclusiveAreaRef"]);
    ("setExclusiveAreaRef", [MIfSome [MAssign "exclusiveAreaRef"]; MReturnSelf])]);
  ("BswDataReceptionPolicy", [ (* line 1923 *)
    ("getReceivedDataRef", [MReturnAttr "receivedDataRef"]);
    ("setReceivedDataRef", [MIfSome [MAssign "receivedDataRef"]; MReturnSelf])]);
  ("BswQueuedDataReceptionPolicy", [ (* line 1972 *)
    ("getQueueLength", [MReturnAttr "queueLength"]);
    ("setQueueLength", [MIfSome [MAssign "queueLength"]; MReturnSelf])]);
  ("BswInternalTriggeringPoint", [ (* line 2017 *)
    ("getSwImplPolicy", [MReturnAttr "swImplPolicy"]);
    ("setSwImplPolicy", [MIfSome [MAssign "swImplPolicy"]; MReturnSelf])]);
  ("RoleBasedBswModuleEntryAssignment", [ (* line 2088 *)
    ("getAssignedEntryRef", [MReturnAttr "assignedEntryRef"]);
    ("setAssignedEntryRef", [MIfSome [MAssign "assignedEntryRef"]; MReturnSelf]);
    ("getRole", [MReturnAttr "role"]);
    ("setRole", [MIfSome [MAssign "role"]; MReturnSelf])]);
  ("BswServiceDependency", [ (* line 2187 *)
    ("getAssignedData", [MReturnAttr "assignedData"]);
    ("getAssignedEntryRole", [MReturnAttr "assignedEntryRole"]);
    ("getIdent", [MReturnAttr "ident"]);
    ("setIdent", [MIfSome [MAssign "ident"]; MReturnSelf]);
    ("getServiceNeeds", [MReturnAttr "serviceNeeds"]);
    ("setServiceNeeds", [MIfSome [MAssign "serviceNeeds"]; MReturnSelf])]);
  ("BswInternalBehavior", [ (* line 2334 *)
    ("getArTypedPerInstanceMemories", [MReturnAttr "arTypedPerInstanceMemories"]);
    ("setArTypedPerInstanceMemories", [MIfSome [MAssign "arTypedPerInstanceMemories"]; MReturnSelf]);
    ("getBswPerInstanceMemoryPolicies", [MReturnAttr "bswPerInstanceMemoryPolicies"]);
    ("setBswPerInstanceMemoryPolicies", [MIfSome [MAssign "bswPerInstanceMemoryPolicies"]; MReturnSelf]);
    ("getClientPolicies", [MReturnAttr "clientPolicies"]);
    ("setClientPolicies", [MIfSome [MAssign "clientPolicies"]; MReturnSelf]);
    ("getDistinguishedPartitions", [MReturnAttr "distinguishedPartitions"]);
    ("setDistinguishedPartitions", [MIfSome [MAssign "distinguishedPartitions"]; MReturnSelf]);
    ("getExclusiveAreaPolicies", [MReturnAttr "exclusiveAreaPolicies"]);
    ("setExclusiveAreaPolicies", [MIfSome [MAssign "exclusiveAreaPolicies"]; MReturnSelf]);
    ("getInternalTriggeringPoints", [MReturnAttr "internalTriggeringPoints"]);
    ("getInternalTriggeringPointPolicies", [MReturnAttr "internalTriggeringPointPolicies"]);
    ("setInternalTriggeringPointPolicies", [MIfSome [MAssign "internalTriggeringPointPolicies"]; MReturnSelf]);
    ("getModeReceiverPolicies", [MReturnAttr "modeReceiverPolicies"]);
    ("setModeSenderPolicies", [MIfSome [MAssign "modeSenderPolicies"]; MReturnSelf]);
    ("getParameterPolicies", [MReturnAttr "parameterPolicies"]);
    ("setParameterPolicies", [MIfSome [MAssign "parameterPolicies"]; MReturnSelf]);
    ("getPerInstanceParameters", [MReturnAttr "perInstanceParameters"]);
    ("setPerInstanceParameters", [MIfSome [MAssign "perInstanceParameters"]; MReturnSelf]);
    ("getReceptionPolicies", [MReturnAttr "receptionPolicies"]);
    ("getReleasedTriggerPolicies", [MReturnAttr "releasedTriggerPolicies"]);
    ("setReleasedTriggerPolicies", [MIfSome [MAssign "releasedTriggerPolicies"]; MReturnSelf]);
    ("getSchedulerNamePrefixes", [MReturnAttr "schedulerNamePrefixes"]);
    ("setSchedulerNamePrefixes", [MIfSome [MAssign "schedulerNamePrefixes"]; MReturnSelf]);
    ("getSendPolicies", [MReturnAttr "sendPolicies"]);
    ("setSendPolicies", [MIfSome [MAssign "sendPolicies"]; MReturnSelf]);
    ("getServiceDependencies", [MReturnAttr "serviceDependencies"]);
    ("setServiceDependencies", [MIfSome [MAssign "serviceDependencies"]; MReturnSelf]);
    ("getTriggerDirectImplementations", [MReturnAttr "triggerDirectImplementations"]);
    ("setTriggerDirectImplementations", [MIfSome [MAssign "triggerDirectImplementations"]; MReturnSelf]);
    ("getVariationPointProxies", [MReturnAttr "variationPointProxies"]);
    ("setVariationPointProxies", [MIfSome [MAssign "variationPointProxies"]; MReturnSelf]);
    ("getModeSenderPolicies", [MReturnAttr "modeSenderPolicies"]);
    ("getBswCalledEntities", [MOther]);
    ("getBswSchedulableEntities", [MOther]);
    ("getBswInterruptEntities", [MOther]);
    ("getBswModuleEntities", [MOther]);
    ("getBswModeSwitchEvents", [MOther]);
    ("getBswTimingEvents", [MOther]);
    ("getBswDataReceivedEvents", [MOther]);
    ("getBswInternalTriggerOccurredEvents", [MOther]);
    ("getBswOperationInvokedEvents", [MOther]);
    ("getBswExternalTriggerOccurredEvents", [MOther]);
    ("getBswBackgroundEvents", [MOther]);
    ("getBswModeManagerErrorEvents", [MOther]);
    ("getBswModeSwitchedAckEvents", [MOther]);
    ("getBswAsynchronousServerCallReturnsEvents", [MOther]);
    ("getBswEvents", [MOther]);
    ("getIncludedModeDeclarationGroupSets", [MReturnAttr "includedModeDeclarationGroupSets"]);
    ("getIncludedDataTypeSets", [MReturnAttr "includedDataTypeSets"])]);
  ("BswTriggerDirectImplementation", [ (* line 3290 *)
    ("getCat2Isr", [MReturnAttr "cat2Isr"]);
    ("setCat2Isr", [MIfSome [MAssign "cat2Isr"]; MReturnSelf]);
    ("getMasteredTriggerRef", [MReturnAttr "masteredTriggerRef"]);
    ("setMasteredTriggerRef", [MIfSome [MAssign "masteredTriggerRef"]; MReturnSelf]);
    ("getTask", [MReturnAttr "task"]);
    ("setTask", [MIfSome [MAssign "task"]; MReturnSelf])]);
  (* models/M2/AUTOSARTemplates/BswModuleTemplate/BswOverview/__init__.py *)
  ("BswModuleDescription", [ (* line 19 *)
    ("getBswModuleDependencies", [MReturnAttr "bswModuleDependencies"]);
    ("getBswModuleDocumentation", [MReturnAttr "bswModuleDocumentation"]);
    ("setBswModuleDocumentation", [MIfSome [MAssign "bswModuleDocumentation"]; MReturnSelf]);
    ("getExpectedEntryRefs", [MReturnAttr "expectedEntryRefs"]);
    ("setExpectedEntryRefs", [MIfSome [MAssign "expectedEntryRefs"]; MReturnSelf]);
    ("getImplementedEntryRefs", [MReturnAttr "implementedEntryRefs"]);
    ("getInternalBehaviors", [MReturnAttr "internalBehaviors"]);
    ("setInternalBehaviors", [MIfSome [MAssign "internalBehaviors"]; MReturnSelf]);
    ("getModuleId", [MReturnAttr "moduleId"]);
    ("setModuleId", [MIfSome [MAssign "moduleId"]; MReturnSelf]);
    ("getProvidedClientServerEntries", [MReturnAttr "providedClientServerEntries"]);
    ("getProvidedDatas", [MReturnAttr "providedDatas"]);
    ("getProvidedModeGroups", [MReturnAttr "providedModeGroups"]);
    ("getReleasedTriggers", [MReturnAttr "releasedTriggers"]);
    ("getRequiredClientServerEntries", [MReturnAttr "requiredClientServerEntries"]);
    ("getRequiredDatas", [MReturnAttr "requiredDatas"]);
    ("getRequiredModeGroups", [MReturnAttr "requiredModeGroups"]);
    ("getRequiredTriggers", [MReturnAttr "requiredTriggers"])]);
  (* models/M2/AUTOSARTemplates/BswModuleTemplate/BswOverview/InstanceRefs/__init__.py *)
  ("ModeInBswModuleDescriptionInstanceRef", [ (* line 10 *)
    ("getBaseRef", [MReturnAttr "baseRef"]);
    ("setBaseRef", [MIfSome [MAssign "baseRef"]; MReturnSelf]);
    ("getContextModeDeclarationGroupRef", [MReturnAttr "contextModeDeclarationGroupRef"]);
    ("setContextModeDeclarationGroupRef", [MIfSome [MAssign "contextModeDeclarationGroupRef"]; MReturnSelf]);
    ("getTargetModeRef", [MReturnAttr "targetModeRef"]);
    ("setTargetModeRef", [MIfSome [MAssign "targetModeRef"]; MReturnSelf])]);
  (* models/M2/AUTOSARTemplates/CommonStructure/Filter.py *)
  ("DataFilter", [ (* line 52 *)
    ("getDataFilterType", [MReturnAttr "dataFilterType"]);
    ("setDataFilterType", [MIfSome [MAssign "dataFilterType"]; MReturnSelf]);
    ("getMask", [MReturnAttr "mask"]);
    ("setMask", [MIfSome [MAssign "mask"]; MReturnSelf]);
    ("getMax", [MReturnAttr "max"]);
    ("setMax", [MIfSome [MAssign "max"]; MReturnSelf]);
    ("getMin", [MReturnAttr "min"]);
    ("setMin", [MIfSome [MAssign "min"]; MReturnSelf]);
    ("getOffset", [MReturnAttr "offset"]);
    ("setOffset", [MIfSome [MAssign "offset"]; MReturnSelf]);
    ("getPeriod", [MReturnAttr "period"]);
    ("setPeriod", [MIfSome [MAssign "period"]; MReturnSelf]);
    ("getX", [MReturnAttr "x"]);
    ("setX", [MIfSome [MAssign "x"]; MReturnSelf])]);
  (* models/M2/AUTOSARTemplates/CommonStructure/FlatMap.py *)
  ("FlatInstanceDescriptor", [ (* line 17 *)
    ("getEcuExtractReferenceIRef", [MReturnAttr "ecuExtractReferenceIRef"]);
    ("setEcuExtractReferenceIRef", [MAssign "ecuExtractReferenceIRef"; MReturnSelf]);
    ("getRole", [MReturnAttr "role"]);
    ("setRole", [MAssign "role"; MReturnSelf]);
    ("getRtePluginProps", [MReturnAttr "rtePluginProps"]);
    ("setRtePluginProps", [MAssign "rtePluginProps"; MReturnSelf]);
    ("getSwDataDefProps", [MReturnAttr "swDataDefProps"]);
    ("setSwDataDefProps", [MAssign "swDataDefProps"; MReturnSelf]);
    ("getUpstreamReferenceIRef", [MReturnAttr "upstreamReferenceIRef"]);
    ("setUpstreamReferenceIRef", [MAssign "upstreamReferenceIRef"; MReturnSelf])]);
  ("FlatMap", [ (* line 168 *)
    ("getInstances", [MOther])]);
  ("AliasNameAssignment", [ (* line 218 *)
    ("getFlatInstanceRef", [MReturnAttr "flatInstanceRef"]);
    ("setFlatInstanceRef", [MIfSome [MAssign "flatInstanceRef"]; MReturnSelf]);
    ("getIdentifiableRef", [MReturnAttr "identifiableRef"]);
    ("setIdentifiableRef", [MIfSome [MAssign "identifiableRef"]; MReturnSelf]);
    ("getLabel", [MReturnAttr "label"]);
    ("setLabel", [MIfSome [MAssign "label"]; MReturnSelf]);
    ("getShortLabel", [MReturnAttr "shortLabel"]);
    ("setShortLabel", [MIfSome [MAssign "shortLabel"]; MReturnSelf])]);
  ("AliasNameSet", [ (* line 354 *)
    ("getAliasNames", [MReturnAttr "aliasNames"])]);
  ("RtePluginProps", [ (* line 407 *)
    ("getPluginName", [MReturnAttr "pluginName"]);
    ("setPluginName", [MAssign "pluginName"; MReturnSelf]);
    ("getPluginVersion", [MReturnAttr "pluginVersion"]);
    ("setPluginVersion", [MAssign "pluginVersion"; MReturnSelf])]);
  (* models/M2/AUTOSARTemplates/CommonStructure/Implementation.py *)
  ("ImplementationProps", [ (* line 85 *)
    ("getSymbol", [MReturnAttr "symbol"]);
    ("setSymbol", [MIfSome [MAssign "symbol"]; MReturnSelf])]);
  ("Code", [ (* line 142 *)
    ("getArtifactDescriptors", [MOther]);
    ("getCallbackHeaderRefs", [MReturnAttr "callbackHeaderRefs"])]);
  ("Compiler", [ (* line 232 *)
    ("getName", [MReturnAttr "name"]);
    ("setName", [MIfSome [MAssign "name"]; MReturnSelf]);
    ("getOptions", [MReturnAttr "options"]);
    ("setOptions", [MIfSome [MAssign "options"]; MReturnSelf]);
    ("getVendor", [MReturnAttr "vendor"]);
    ("setVendor", [MIfSome [MAssign "vendor"]; MReturnSelf]);
    ("getVersion", [MReturnAttr "version"]);
    ("setVersion", [MIfSome [MAssign "version"]; MReturnSelf])]);
  ("DependencyOnArtifact", [ (* line 370 *)
    ("getArtifactDescriptor", [MReturnAttr "artifactDescriptor"]);
    ("setArtifactDescriptor", [MIfSome [MAssign "artifactDescriptor"]; MReturnSelf]);
    ("getUsages", [MReturnAttr "usages"])]);
  ("Linker", [ (* line 449 *)
    ("getName", [MReturnAttr "name"]);
    ("setName", [MIfSome [MAssign "name"]; MReturnSelf]);
    ("getOptions", [MReturnAttr "options"]);
    ("setOptions", [MIfSome [MAssign "options"]; MReturnSelf]);
    ("getVendor", [MReturnAttr "vendor"]);
    ("setVendor", [MIfSome [MAssign "vendor"]; MReturnSelf]);
    ("getVersion", [MReturnAttr "version"]);
    ("setVersion", [MIfSome [MAssign "version"]; MReturnSelf])]);
  ("Implementation", [ (* line 585 *)
    ("getBuildActionManifestRef", [MReturnAttr "buildActionManifestRef"]);
    ("setBuildActionManifestRef", [MIfSome [MAssign "buildActionManifestRef"]; MReturnSelf]);
    ("getCodeDescriptors", [MOther]);
    ("getCompilers", [MReturnAttr "compilers"]);
    ("getGeneratedArtifacts", [MReturnAttr "generatedArtifacts"]);
    ("getHwElementRefs", [MReturnAttr "hwElementRefs"]);
    ("getLinkers", [MReturnAttr "linkers"]);
    ("getMcSupport", [MReturnAttr "mcSupport"]);
    ("setMcSupport", [MIfSome [MAssign "mcSupport"]; MReturnSelf]);
    ("getProgrammingLanguage", [MReturnAttr "programmingLanguage"]);
    ("setProgrammingLanguage", [MIfSome [MAssign "programmingLanguage"]; MReturnSelf]);
    ("getRequiredArtifacts", [MReturnAttr "requiredArtifacts"]);
    ("getRequiredGeneratorTools", [MReturnAttr "requiredGeneratorTools"]);
    ("getResourceConsumption", [MReturnAttr "resourceConsumption"]);
    ("getSwcBswMappingRef", [MReturnAttr "swcBswMappingRef"]);
    ("setSwcBswMappingRef", [MIfSome [MAssign "swcBswMappingRef"]; MReturnSelf]);
    ("getSwVersion", [MReturnAttr "swVersion"]);
    ("setSwVersion", [MIfSome [MAssign "swVersion"]; MReturnSelf]);
    ("getUsedCodeGenerator", [MReturnAttr "usedCodeGenerator"]);
    ("setUsedCodeGenerator", [MIfSome [MAssign "usedCodeGenerator"]; MReturnSelf]);
    ("getVendorId", [MReturnAttr "vendorId"]);
    ("setVendorId", [MIfSome [MAssign "vendorId"]; MReturnSelf])]);
  (* models/M2/AUTOSARTemplates/CommonStructure/ImplementationDataTypes.py *)
  ("ImplementationDataTypeElement", [ (* line 25 *)
    ("getArrayImplPolicy", [MReturnAttr "arrayImplPolicy"]);
    ("setArrayImplPolicy", [MIfSome [MAssign "arrayImplPolicy"]; MReturnSelf]);
    ("getArraySize", [MReturnAttr "arraySize"]);
    ("setArraySize", [MIfSome [MAssign "arraySize"]; MReturnSelf]);
    ("getArraySizeHandling", [MReturnAttr "arraySizeHandling"]);
    ("setArraySizeHandling", [MIfSome [MAssign "arraySizeHandling"]; MReturnSelf]);
    ("getArraySizeSemantics", [MReturnAttr "arraySizeSemantics"]);
    ("setArraySizeSemantics", [MIfSome [MAssign "arraySizeSemantics"]; MReturnSelf]);
    ("getIsOptional", [MReturnAttr "isOptional"]);
    ("setIsOptional", [MIfSome [MAssign "isOptional"]; MReturnSelf]);
    ("getSwDataDefProps", [MReturnAttr "swDataDefProps"]);
    ("setSwDataDefProps", [MIfSome [MAssign "swDataDefProps"]; MReturnSelf]);
    ("getSubElements", [MReturnAttr "subElements"])]);
  ("ImplementationDataType", [ (* line 136 *)
    ("getDynamicArraySizeProfile", [MReturnAttr "dynamicArraySizeProfile"]);
    ("setDynamicArraySizeProfile", [MIfSome [MAssign "dynamicArraySizeProfile"]; MReturnSelf]);
    ("getIsStructWithOptionalElement", [MReturnAttr "isStructWithOptionalElement"]);
    ("setIsStructWithOptionalElement", [MIfSome [MAssign "isStructWithOptionalElement"]; MReturnSelf]);
    ("getSubElements", [MReturnAttr "subElements"]);
    ("getSymbolProps", [MReturnAttr "symbolProps"]);
    ("getTypeEmitter", [MReturnAttr "typeEmitter"]);
    ("setTypeEmitter", [MIfSome [MAssign "typeEmitter"]; MReturnSelf])]);
  (* models/M2/AUTOSARTemplates/CommonStructure/InternalBehavior.py *)
  ("ExecutableEntity", [ (* line 73 *)
    ("getActivationReasons", [MReturnAttr "activationReasons"]);
    ("getCanEnterRefs", [MReturnAttr "canEnterRefs"]);
    ("getExclusiveAreaNestingOrderRefs", [MReturnAttr "exclusiveAreaNestingOrderRefs"]);
    ("getMinimumStartInterval", [MReturnAttr "minimumStartInterval"]);
    ("setMinimumStartInterval", [MIfSome [MAssign "minimumStartInterval"]; MReturnSelf]);
    ("getReentrancyLevel", [MReturnAttr "reentrancyLevel"]);
    ("setReentrancyLevel", [MIfSome [MAssign "reentrancyLevel"]; MReturnSelf]);
    ("getRunsInsideRefs", [MReturnAttr "runsInsideRefs"]);
    ("getSwAddrMethodRef", [MReturnAttr "swAddrMethodRef"]);
    ("setSwAddrMethodRef", [MIfSome [MAssign "swAddrMethodRef"]; MReturnSelf])]);
  ("InternalBehavior", [ (* line 324 *)
    ("getConstantMemories", [MReturnAttr "constantMemories"]);
    ("getDataTypeMappingRefs", [MReturnAttr "dataTypeMappingRefs"]);
    ("getExclusiveAreas", [MOther]);
    ("getExclusiveAreaNestingOrders", [MOther]);
    ("getStaticMemories", [MReturnAttr "staticMemories"])]);
  ("AbstractEvent", [ (* line 492 *)
    ("getActivationReasonRepresentationRef", [MReturnAttr "activationReasonRepresentationRef"]);
    ("setActivationReasonRepresentationRef", [MAssign "activationReasonRepresentationRef"; MReturnSelf])]);
  ("ExclusiveAreaNestingOrder", [ (* line 556 *)
    ("getExclusiveAreaRefs", [MReturnAttr "exclusiveAreaRefs"])]);
  ("ExecutableEntityActivationReason", [ (* line 600 *)
    ("getBitPosition", [MReturnAttr "bitPosition"]);
    ("setBitPosition", [MIfSome [MAssign "bitPosition"]; MReturnSelf])]);
  (* models/M2/AUTOSARTemplates/CommonStructure/McGroups.py *)
  ("McGroup", [ (* line 14 *)
    ("getMcFunctionRefs", [MReturnAttr "mcFunctionRefs"]);
    ("getRefCalprmSet", [MReturnAttr "refCalprmSet"]);
    ("setRefCalprmSet", [MIfSome [MAssign "refCalprmSet"]; MReturnSelf]);
    ("getRefMeasurementSet", [MReturnAttr "refMeasurementSet"]);
    ("setRefMeasurementSet", [MIfSome [MAssign "refMeasurementSet"]; MReturnSelf]);
    ("getSubGroupRefs", [MReturnAttr "subGroupRefs"])]);
  ("McGroupDataRefSet", [ (* line 151 *)
    ("getFlatMapEntryRefs", [MReturnAttr "flatMapEntryRefs"]);
    ("getMcDataInstanceRefs", [MReturnAttr "mcDataInstanceRefs"])]);
  (* models/M2/AUTOSARTemplates/CommonStructure/ModeDeclaration.py *)
  ("ModeDeclarationGroupPrototypeMapping", [ (* line 50 *)
    ("getFirstModeGroupRef", [MReturnAttr "firstModeGroupRef"]);
    ("setFirstModeGroupRef", [MIfSome [MAssign "firstModeGroupRef"]; MReturnSelf]);
    ("getModeDeclarationMappingSetRef", [MReturnAttr "modeDeclarationMappingSetRef"]);
    ("setModeDeclarationMappingSetRef", [MIfSome [MAssign "modeDeclarationMappingSetRef"]; MReturnSelf]);
    ("getSecondModeGroupRef", [MReturnAttr "secondModeGroupRef"]);
    ("setSecondModeGroupRef", [MIfSome [MAssign "secondModeGroupRef"]; MReturnSelf])]);
  ("ModeDeclaration", [ (* line 151 *)
    ("getValue", [MReturnAttr "value"]);
    ("setValue", [MIfSome [MAssign "value"]; MReturnSelf])]);
  ("ModeRequestTypeMap", [ (* line 195 *)
    ("getImplementationDataTypeRef", [MReturnAttr "implementationDataTypeRef"]);
    ("setImplementationDataTypeRef", [MAssign "implementationDataTypeRef"; MReturnSelf]);
    ("getModeGroupRef", [MReturnAttr "modeGroupRef"]);
    ("setModeGroupRef", [MAssign "modeGroupRef"; MReturnSelf])]);
  ("ModeDeclarationGroup", [ (* line 266 *)
    ("getModeDeclarations", [MOther]);
    ("setInitialModeRef", [MIfSome [MAssign "initialModeRef"]; MReturnSelf]);
    ("getInitialModeRef", [MReturnAttr "initialModeRef"]);
    ("setOnTransitionValue", [MIfSome [MAssign "onTransitionValue"]; MReturnSelf]);
    ("getOnTransitionValue", [MReturnAttr "onTransitionValue"]);
    ("getModeTransitions", [MReturnAttr "modeTransitions"]);
    ("getModeManagerErrorBehavior", [MReturnAttr "modeManagerErrorBehavior"]);
    ("setModeManagerErrorBehavior", [MIfSome [MAssign "modeManagerErrorBehavior"]; MReturnSelf]);
    ("getModeUserErrorBehavior", [MReturnAttr "modeUserErrorBehavior"]);
    ("setModeUserErrorBehavior", [MIfSome [MAssign "modeUserErrorBehavior"]; MReturnSelf])]);
  ("ModeDeclarationGroupPrototype", [ (* line 456 *)
    ("getSwCalibrationAccess", [MReturnAttr "swCalibrationAccess"]);
    ("setSwCalibrationAccess", [MIfSome [MAssign "swCalibrationAccess"]; MReturnSelf]);
    ("getTypeTRef", [MReturnAttr "typeTRef"]);
    ("setTypeTRef", [MIfSome [MAssign "typeTRef"]; MReturnSelf])]);
  ("ModeTransition", [ (* line 537 *)
    ("getEnteredModeRef", [MReturnAttr "enteredModeRef"]);
    ("setEnteredModeRef", [MIfSome [MAssign "enteredModeRef"]; MReturnSelf]);
    ("getExitedModeRef", [MReturnAttr "exitedModeRef"]);
    ("setExitedModeRef", [MIfSome [MAssign "exitedModeRef"]; MReturnSelf])]);
  ("ModeErrorBehavior", [ (* line 610 *)
    ("getDefaultModeRef", [MReturnAttr "defaultModeRef"]);
    ("setDefaultModeRef", [MIfSome [MAssign "defaultModeRef"]; MReturnSelf]);
    ("getErrorReactionPolicy", [MReturnAttr "errorReactionPolicy"]);
    ("setErrorReactionPolicy", [MIfSome [MAssign "errorReactionPolicy"]; MReturnSelf])]);
  (* models/M2/AUTOSARTemplates/CommonStructure/ServiceNeeds.py *)
  ("RoleBasedDataAssignment", [ (* line 22 *)
    ("getRole", [MReturnAttr "role"]);
    ("setRole", [MAssign "role"; MReturnSelf]);
    ("getUsedDataElement", [MReturnAttr "usedDataElement"]);
    ("setUsedDataElement", [MAssign "usedDataElement"; MReturnSelf]);
    ("getUsedParameterElement", [MReturnAttr "usedParameterElement"]);
    ("setUsedParameterElement", [MAssign "usedParameterElement"; MReturnSelf]);
    ("getUsedPimRef", [MReturnAttr "usedPimRef"]);
    ("setUsedPimRef", [MAssign "usedPimRef"; MReturnSelf])]);
  ("NvBlockNeeds", [ (* line 255 *)
    ("getCalcRamBlockCrc", [MReturnAttr "calcRamBlockCrc"]);
    ("setCalcRamBlockCrc", [MAssign "calcRamBlockCrc"; MReturnSelf]);
    ("getCheckStaticBlockId", [MReturnAttr "checkStaticBlockId"]);
    ("setCheckStaticBlockId", [MAssign "checkStaticBlockId"; MReturnSelf]);
    ("getCyclicWritingPeriod", [MReturnAttr "cyclicWritingPeriod"]);
    ("setCyclicWritingPeriod", [MAssign "cyclicWritingPeriod"; MReturnSelf]);
    ("getNDataSets", [MReturnAttr "nDataSets"]);
    ("setNDataSets", [MAssign "nDataSets"; MReturnSelf]);
    ("getNRomBlocks", [MReturnAttr "nRomBlocks"]);
    ("setNRomBlocks", [MAssign "nRomBlocks"; MReturnSelf]);
    ("getRamBlockStatusControl", [MReturnAttr "ramBlockStatusControl"]);
    ("setRamBlockStatusControl", [MAssign "ramBlockStatusControl"; MReturnSelf]);
    ("getReadonly", [MReturnAttr "readonly"]);
    ("setReadonly", [MAssign "readonly"; MReturnSelf]);
    ("getReliability", [MReturnAttr "reliability"]);
    ("setReliability", [MAssign "reliability"; MReturnSelf]);
    ("getResistantToChangedSw", [MReturnAttr "resistantToChangedSw"]);
    ("setResistantToChangedSw", [MAssign "resistantToChangedSw"; MReturnSelf]);
    ("getRestoreAtStart", [MReturnAttr "restoreAtStart"]);
    ("setRestoreAtStart", [MAssign "restoreAtStart"; MReturnSelf]);
    ("getSelectBlockForFirstInitAll", [MReturnAttr "selectBlockForFirstInitAll"]);
    ("setSelectBlockForFirstInitAll", [MAssign "selectBlockForFirstInitAll"; MReturnSelf]);
    ("getStoreAtShutdown", [MReturnAttr "storeAtShutdown"]);
    ("setStoreAtShutdown", [MAssign "storeAtShutdown"; MReturnSelf]);
    ("getStoreCyclic", [MReturnAttr "storeCyclic"]);
    ("setStoreCyclic", [MAssign "storeCyclic"; MReturnSelf]);
    ("getStoreEmergency", [MReturnAttr "storeEmergency"]);
    ("setStoreEmergency", [MAssign "storeEmergency"; MReturnSelf]);
    ("getStoreImmediate", [MReturnAttr "storeImmediate"]);
    ("setStoreImmediate", [MAssign "storeImmediate"; MReturnSelf]);
    ("getStoreOnChange", [MReturnAttr "storeOnChange"]);
    ("setStoreOnChange", [MAssign "storeOnChange"; MReturnSelf]);
    ("getUseAutoValidationAtShutDown", [MReturnAttr "useAutoValidationAtShutDown"]);
    ("setUseAutoValidationAtShutDown", [MAssign "useAutoValidationAtShutDown"; MReturnSelf]);
    ("getUseCRCCompMechanism", [MReturnAttr "useCRCCompMechanism"]);
    ("setUseCRCCompMechanism", [MAssign "useCRCCompMechanism"; MReturnSelf]);
    ("getWriteOnlyOnce", [MReturnAttr "writeOnlyOnce"]);
    ("setWriteOnlyOnce", [MAssign "writeOnlyOnce"; MReturnSelf]);
    ("getWriteVerification", [MReturnAttr "writeVerification"]);
    ("setWriteVerification", [MAssign "writeVerification"; MReturnSelf]);
    ("getWritingFrequency", [MReturnAttr "writingFrequency"]);
    ("setWritingFrequency", [MAssign "writingFrequency"; MReturnSelf]);
    ("getWritingPriority", [MReturnAttr "writingPriority"]);
    ("setWritingPriority", [MAssign "writingPriority"; MReturnSelf])]);
  ("RoleBasedDataTypeAssignment", [ (* line 519 *)
    ("getRole", [MReturnAttr "role"]);
    ("setRole", [MAssign "role"; MReturnSelf]);
    ("getUsedImplementationDataTypeRef", [MReturnAttr "usedImplementationDataTypeRef"]);
    ("setUsedImplementationDataTypeRef", [MAssign "usedImplementationDataTypeRef"; MReturnSelf])]);
  ("ServiceDependency", [ (* line 606 *)
    ("getAssignedDataTypes", [MReturnAttr "assignedDataTypes"]);
    ("getDiagnosticRelevance", [MReturnAttr "diagnosticRelevance"]);
    ("setDiagnosticRelevance", [MIfSome [MAssign "diagnosticRelevance"]; MReturnSelf]);
    ("getSymbolicNameProps", [MReturnAttr "symbolicNameProps"]);
    ("setSymbolicNameProps", [MIfSome [MAssign "symbolicNameProps"]; MReturnSelf])]);
  ("DiagnosticCapabilityElement", [ (* line 773 *)
    ("getAudiences", [MReturnAttr "audiences"]);
    ("getDiagRequirement", [MReturnAttr "diagRequirement"]);
    ("setDiagRequirement", [MAssign "diagRequirement"; MReturnSelf]);
    ("getSecurityAccessLevel", [MReturnAttr "securityAccessLevel"]);
    ("setSecurityAccessLevel", [MAssign "securityAccessLevel"; MReturnSelf])]);
  ("DiagnosticCommunicationManagerNeeds", [ (* line 904 *)
    ("getServiceRequestCallbackType", [MReturnAttr "serviceRequestCallbackType"]);
    ("setServiceRequestCallbackType", [MAssign "serviceRequestCallbackType"; MReturnSelf])]);
  ("DiagnosticRoutineNeeds", [ (* line 952 *)
    ("getDiagRoutineType", [MReturnAttr "diagRoutineType"]);
    ("setDiagRoutineType", [MAssign "diagRoutineType"; MReturnSelf]);
    ("getRidNumber", [MReturnAttr "RidNumber"]);
    ("setRidNumber", [MAssign "RidNumber"; MReturnSelf])]);
  ("DiagnosticValueNeeds", [ (* line 1085 *)
    ("getDataLength", [MReturnAttr "dataLength"]);
    ("setDataLength", [MAssign "dataLength"; MReturnSelf]);
    ("getDiagnosticValueAccess", [MReturnAttr "diagnosticValueAccess"]);
    ("setDiagnosticValueAccess", [MAssign "diagnosticValueAccess"; MReturnSelf]);
    ("getDidNumber", [MReturnAttr "DidNumber"]);
    ("setDidNumber", [MAssign "DidNumber"; MReturnSelf]);
    ("getFixedLength", [MReturnAttr "fixedLength"]);
    ("setFixedLength", [MAssign "fixedLength"; MReturnSelf]);
    ("getProcessingStyle", [MReturnAttr "processingStyle"]);
    ("setProcessingStyle", [MAssign "processingStyle"; MReturnSelf])]);
  ("DiagEventDebounceCounterBased", [ (* line 1265 *)
    ("getCounterBasedFdcThresholdStorageValue", [MReturnAttr "counterBasedFdcThresholdStorageValue"]);
    ("setCounterBasedFdcThresholdStorageValue", [MAssign "counterBasedFdcThresholdStorageValue"; MReturnSelf]);
    ("getCounterDecrementStepSize", [MReturnAttr "counterDecrementStepSize"]);
    ("setCounterDecrementStepSize", [MAssign "counterDecrementStepSize"; MReturnSelf]);
    ("getCounterFailedThreshold", [MReturnAttr "counterFailedThreshold"]);
    ("setCounterFailedThreshold", [MAssign "counterFailedThreshold"; MReturnSelf]);
    ("getCounterIncrementStepSize", [MReturnAttr "counterIncrementStepSize"]);
    ("setCounterIncrementStepSize", [MAssign "counterIncrementStepSize"; MReturnSelf]);
    ("getCounterJumpDown", [MReturnAttr "counterJumpDown"]);
    ("setCounterJumpDown", [MAssign "counterJumpDown"; MReturnSelf]);
    ("getCounterJumpDownValue", [MReturnAttr "counterJumpDownValue"]);
    ("setCounterJumpDownValue", [MAssign "counterJumpDownValue"; MReturnSelf]);
    ("getCounterJumpUp", [MReturnAttr "counterJumpUp"]);
    ("setCounterJumpUp", [MAssign "counterJumpUp"; MReturnSelf]);
    ("getCounterJumpUpValue", [MReturnAttr "counterJumpUpValue"]);
    ("setCounterJumpUpValue", [MAssign "counterJumpUpValue"; MReturnSelf]);
    ("getCounterPassedThreshold", [MReturnAttr "counterPassedThreshold"]);
    ("setCounterPassedThreshold", [MAssign "counterPassedThreshold"; MReturnSelf])]);
  ("DiagEventDebounceTimeBased", [ (* line 1405 *)
    ("getTimeBasedFdcThresholdStorageValue", [MReturnAttr "timeBasedFdcThresholdStorageValue"]);
    ("setTimeBasedFdcThresholdStorageValue", [MAssign "timeBasedFdcThresholdStorageValue"; MReturnSelf]);
    ("getTimeFailedThreshold", [MReturnAttr "timeFailedThreshold"]);
    ("setTimeFailedThreshold", [MAssign "timeFailedThreshold"; MReturnSelf]);
    ("getTimePassedThreshold", [MReturnAttr "timePassedThreshold"]);
    ("setTimePassedThreshold", [MAssign "timePassedThreshold"; MReturnSelf])]);
  ("DiagnosticEventInfoNeeds", [ (* line 1475 *)
    ("getDtcKind", [MReturnAttr "dtcKind"]);
    ("setDtcKind", [MIfSome [MAssign "dtcKind"]; MReturnSelf]);
    ("getObdDtcNumber", [MReturnAttr "obdDtcNumber"]);
    ("setObdDtcNumber", [MIfSome [MAssign "obdDtcNumber"]; MReturnSelf]);
    ("getUdsDtcNumber", [MReturnAttr "udsDtcNumber"]);
    ("setUdsDtcNumber", [MIfSome [MAssign "udsDtcNumber"]; MReturnSelf])]);
  ("DtcStatusChangeNotificationNeeds", [ (* line 1612 *)
    ("getDtcFormatType", [MReturnAttr "dtcFormatType"]);
    ("setDtcFormatType", [MIfSome [MAssign "dtcFormatType"]; MReturnSelf]);
    ("getNotificationTime", [MReturnAttr "notificationTime"]);
    ("setNotificationTime", [MIfSome [MAssign "notificationTime"]; MReturnSelf])]);
  ("DiagnosticEventNeeds", [ (* line 1690 *)
    ("getDeferringFidRefs", [MReturnAttr "deferringFidRefs"]);
    ("getDiagEventDebounceAlgorithm", [MReturnAttr "diagEventDebounceAlgorithm"]);
    ("getInhibitingFidRef", [MReturnAttr "inhibitingFidRef"]);
    ("setInhibitingFidRef", [MIfSome [MAssign "inhibitingFidRef"]; MReturnSelf]);
    ("getInhibitingSecondaryFidRefs", [MReturnAttr "inhibitingSecondaryFidRefs"]);
    ("getPrestoredFreezeframeStoredInNvm", [MReturnAttr "prestoredFreezeframeStoredInNvm"]);
    ("setPrestoredFreezeframeStoredInNvm", [MIfSome [MAssign "prestoredFreezeframeStoredInNvm"]; MReturnSelf]);
    ("getUsesMonitorData", [MReturnAttr "usesMonitorData"]);
    ("setUsesMonitorData", [MIfSome [MAssign "usesMonitorData"]; MReturnSelf])]);
  ("CryptoServiceNeeds", [ (* line 1920 *)
    ("getAlgorithmFamily", [MReturnAttr "algorithmFamily"]);
    ("setAlgorithmFamily", [MAssign "algorithmFamily"; MReturnSelf]);
    ("getAlgorithmMode", [MReturnAttr "algorithmMode"]);
    ("setAlgorithmMode", [MAssign "algorithmMode"; MReturnSelf]);
    ("getCryptoKeyDescription", [MReturnAttr "cryptoKeyDescription"]);
    ("setCryptoKeyDescription", [MAssign "cryptoKeyDescription"; MReturnSelf]);
    ("getMaximumKeyLength", [MReturnAttr "maximumKeyLength"]);
    ("setMaximumKeyLength", [MAssign "maximumKeyLength"; MReturnSelf])]);
  ("ComMgrUserNeeds", [ (* line 2109 *)
    ("getMaxCommMode", [MReturnAttr "maxCommMode"]);
    ("setMaxCommMode", [MIfSome [MAssign "maxCommMode"]; MReturnSelf])]);
  ("TracedFailure", [ (* line 2199 *)
    ("getId", [MReturnAttr "id"]);
    ("setId", [MIfSome [MAssign "id"]; MReturnSelf])]);
  ("DiagnosticEnableConditionNeeds", [ (* line 2353 *)
    ("getInitialStatus", [MReturnAttr "initialStatus"]);
    ("setInitialStatus", [MIfSome [MAssign "initialStatus"]; MReturnSelf])]);
  ("DiagnosticIoControlNeeds", [ (* line 2422 *)
    ("getCurrentValueRef", [MReturnAttr "currentValueRef"]);
    ("setCurrentValueRef", [MIfSome [MAssign "currentValueRef"]; MReturnSelf]);
    ("getFreezeCurrentStateSupported", [MReturnAttr "freezeCurrentStateSupported"]);
    ("setFreezeCurrentStateSupported", [MIfSome [MAssign "freezeCurrentStateSupported"]; MReturnSelf]);
    ("getResetToDefaultSupported", [MReturnAttr "resetToDefaultSupported"]);
    ("setResetToDefaultSupported", [MIfSome [MAssign "resetToDefaultSupported"]; MReturnSelf]);
    ("getShortTermAdjustmentSupported", [MReturnAttr "shortTermAdjustmentSupported"]);
    ("setShortTermAdjustmentSupported", [MIfSome [MAssign "shortTermAdjustmentSupported"]; MReturnSelf])]);
  ("DiagnosticOperationCycleNeeds", [ (* line 2587 *)
    ("getOperationCycle", [MReturnAttr "operationCycle"]);
    ("setOperationCycle", [MIfSome [MAssign "operationCycle"]; MReturnSelf])]);
  ("DiagnosticStorageConditionNeeds", [ (* line 2657 *)
    ("getInitialStatus", [MReturnAttr "initialStatus"]);
    ("setInitialStatus", [MIfSome [MAssign "initialStatus"]; MReturnSelf])]);
  ("DoIpRoutingActivationAuthenticationNeeds", [ (* line 2843 *)
    ("getDataLengthRequest", [MReturnAttr "dataLengthRequest"]);
    ("setDataLengthRequest", [MIfSome [MAssign "dataLengthRequest"]; MReturnSelf]);
    ("getDataLengthResponse", [MReturnAttr "dataLengthResponse"]);
    ("setDataLengthResponse", [MIfSome [MAssign "dataLengthResponse"]; MReturnSelf]);
    ("getRoutingActivationType", [MReturnAttr "routingActivationType"]);
    ("setRoutingActivationType", [MIfSome [MAssign "routingActivationType"]; MReturnSelf])]);
  ("DoIpRoutingActivationConfirmationNeeds", [ (* line 2944 *)
    ("getDataLengthRequest", [MReturnAttr "dataLengthRequest"]);
    ("setDataLengthRequest", [MIfSome [MAssign "dataLengthRequest"]; MReturnSelf]);
    ("getDataLengthResponse", [MReturnAttr "dataLengthResponse"]);
    ("setDataLengthResponse", [MIfSome [MAssign "dataLengthResponse"]; MReturnSelf]);
    ("getRoutingActivationType", [MReturnAttr "routingActivationType"]);
    ("setRoutingActivationType", [MIfSome [MAssign "routingActivationType"]; MReturnSelf])]);
  ("ErrorTracerNeeds", [ (* line 3045 *)
    ("getTracedFailures", [MReturnAttr "tracedFailures"])]);
  ("FunctionInhibitionAvailabilityNeeds", [ (* line 3152 *)
    ("getControlledFidRef", [MReturnAttr "controlledFidRef"]);
    ("setControlledFidRef", [MIfSome [MAssign "controlledFidRef"]; MReturnSelf])]);
  ("IdsMgrNeeds", [ (* line 3302 *)
    ("getUseSmartSensorApi", [MReturnAttr "useSmartSensorApi"]);
    ("setUseSmartSensorApi", [MIfSome [MAssign "useSmartSensorApi"]; MReturnSelf])]);
  ("IndicatorStatusNeeds", [ (* line 3385 *)
    ("getType", [MReturnAttr "type"]);
    ("setType", [MIfSome [MAssign "type"]; MReturnSelf])]);
  ("ObdMonitorServiceNeeds", [ (* line 3569 *)
    ("getApplicationDataTypeRef", [MReturnAttr "applicationDataTypeRef"]);
    ("setApplicationDataTypeRef", [MIfSome [MAssign "applicationDataTypeRef"]; MReturnSelf]);
    ("getEventNeedsRef", [MReturnAttr "eventNeedsRef"]);
    ("setEventNeedsRef", [MIfSome [MAssign "eventNeedsRef"]; MReturnSelf]);
    ("getUnitAndScalingId", [MReturnAttr "unitAndScalingId"]);
    ("setUnitAndScalingId", [MIfSome [MAssign "unitAndScalingId"]; MReturnSelf]);
    ("getUpdateKind", [MReturnAttr "updateKind"]);
    ("setUpdateKind", [MIfSome [MAssign "updateKind"]; MReturnSelf])]);
  ("ObdRatioDenominatorNeeds", [ (* line 3751 *)
    ("getDenominatorCondition", [MReturnAttr "denominatorCondition"]);
    ("setDenominatorCondition", [MIfSome [MAssign "denominatorCondition"]; MReturnSelf])]);
  ("ObdRatioServiceNeeds", [ (* line 3794 *)
    ("getConnectionType", [MReturnAttr "connectionType"]);
    ("setConnectionType", [MIfSome [MAssign "connectionType"]; MReturnSelf]);
    ("getRateBasedMonitoredEventRef", [MReturnAttr "rateBasedMonitoredEventRef"]);
    ("setRateBasedMonitoredEventRef", [MIfSome [MAssign "rateBasedMonitoredEventRef"]; MReturnSelf]);
    ("getUsedFidRef", [MReturnAttr "usedFidRef"]);
    ("setUsedFidRef", [MIfSome [MAssign "usedFidRef"]; MReturnSelf])]);
  ("SecureOnBoardCommunicationNeeds", [ (* line 3946 *)
    ("getVerificationStatusIndicationMode", [MReturnAttr "verificationStatusIndicationMode"]);
    ("setVerificationStatusIndicationMode", [MIfSome [MAssign "verificationStatusIndicationMode"]; MReturnSelf])]);
  ("SupervisedEntityNeeds", [ (* line 4144 *)
    ("getActivateAtStart", [MReturnAttr "activateAtStart"]);
    ("setActivateAtStart", [MIfSome [MAssign "activateAtStart"]; MReturnSelf]);
    ("getCheckpointsRefs", [MReturnAttr "checkpointsRefs"]);
    ("getEnableDeactivation", [MReturnAttr "enableDeactivation"]);
    ("setEnableDeactivation", [MIfSome [MAssign "enableDeactivation"]; MReturnSelf]);
    ("getExpectedAliveCycle", [MReturnAttr "expectedAliveCycle"]);
    ("setExpectedAliveCycle", [MIfSome [MAssign "expectedAliveCycle"]; MReturnSelf]);
    ("getMaxAliveCycle", [MReturnAttr "maxAliveCycle"]);
    ("setMaxAliveCycle", [MIfSome [MAssign "maxAliveCycle"]; MReturnSelf]);
    ("getMinAliveCycle", [MReturnAttr "minAliveCycle"]);
    ("setMinAliveCycle", [MIfSome [MAssign "minAliveCycle"]; MReturnSelf]);
    ("getToleratedFailedCycles", [MReturnAttr "toleratedFailedCycles"]);
    ("setToleratedFailedCycles", [MIfSome [MAssign "toleratedFailedCycles"]; MReturnSelf])]);
  ("PossibleErrorReaction", [ (* line 4411 *)
    ("getReactionCode", [MReturnAttr "reactionCode"]);
    ("setReactionCode", [MIfSome [MAssign "reactionCode"]; MReturnSelf])]);
  ("TransientFault", [ (* line 4459 *)
    ("getPossibleErrorReactions", [MReturnAttr "possibleErrorReactions"])]);
  (* models/M2/AUTOSARTemplates/CommonStructure/SignalServiceTranslation.py *)
  ("SignalServiceTranslationElementProps", [ (* line 50 *)
    ("getElement", [MReturnAttr "element"]);
    ("setElement", [MIfSome [MAssign "element"]; MReturnSelf]);
    ("getFilter", [MReturnAttr "filter"]);
    ("setFilter", [MIfSome [MAssign "filter"]; MReturnSelf]);
    ("getTransmissionTrigger", [MReturnAttr "transmissionTrigger"]);
    ("setTransmissionTrigger", [MIfSome [MAssign "transmissionTrigger"]; MReturnSelf])]);
  ("SignalServiceTranslationEventProps", [ (* line 126 *)
    ("getSignalServiceTranslationElementProps", [MReturnAttr "elementProps"]);
    ("getSafeTranslation", [MReturnAttr "safeTranslation"]);
    ("setSafeTranslation", [MIfSome [MAssign "safeTranslation"]; MReturnSelf]);
    ("getSecureTranslation", [MReturnAttr "secureTranslation"]);
    ("setSecureTranslation", [MIfSome [MAssign "secureTranslation"]; MReturnSelf]);
    ("getTranslationTarget", [MReturnAttr "translationTarget"]);
    ("setTranslationTarget", [MIfSome [MAssign "translationTarget"]; MReturnSelf])]);
  ("SignalServiceTranslationProps", [ (* line 221 *)
    ("getControlConsumedEventGroupRefs", [MReturnAttr "controlConsumedEventGroupRefs"]);
    ("getControlPncRefs", [MReturnAttr "controlPncRefs"]);
    ("getControlProvidedEventGroupRefs", [MReturnAttr "controlProvidedEventGroupRefs"]);
    ("getServiceControl", [MReturnAttr "serviceControl"]);
    ("setServiceControl", [MIfSome [MAssign "serviceControl"]; MReturnSelf]);
    ("getSignalServiceTranslationEventProps", [MReturnAttr "signalServiceTranslationEventProps"])]);
  ("SignalServiceTranslationPropsSet", [ (* line 336 *)
    ("getSignalServiceTranslationProps", [MReturnAttr "signalServiceTranslationProps"])]);
  (* models/M2/AUTOSARTemplates/CommonStructure/SwcBswMapping.py *)
  ("SwcBswRunnableMapping", [ (* line 19 *)
    ("getBswEntityRef", [MReturnAttr "bswEntityRef"]);
    ("setBswEntityRef", [MAssign "bswEntityRef"; MReturnSelf]);
    ("getSwcRunnableRef", [MReturnAttr "swcRunnableRef"]);
    ("setSwcRunnableRef", [MAssign "swcRunnableRef"; MReturnSelf])]);
  ("SwcBswMapping", [ (* line 93 *)
    ("getBswBehaviorRef", [MReturnAttr "bswBehaviorRef"]);
    ("setBswBehaviorRef", [MAssign "bswBehaviorRef"; MReturnSelf]);
    ("getRunnableMappings", [MReturnAttr "runnableMappings"]);
    ("getSwcBehaviorRef", [MReturnAttr "swcBehaviorRef"]);
    ("setSwcBehaviorRef", [MAssign "swcBehaviorRef"; MReturnSelf]);
    ("getSynchronizedModeGroups", [MReturnAttr "synchronizedModeGroups"]);
    ("setSynchronizedModeGroups", [MAssign "synchronizedModeGroups"; MReturnSelf]);
    ("getSynchronizedTriggers", [MReturnAttr "synchronizedTriggers"]);
    ("setSynchronizedTriggers", [MAssign "synchronizedTriggers"; MReturnSelf])]);
  ("SwcBswSynchronizedModeGroupPrototype", [ (* line 280 *)
    ("getBswModeGroupRef", [MReturnAttr "bswModeGroupRef"]);
    ("setBswModeGroupRef", [MIfSome [MAssign "bswModeGroupRef"]; MReturnSelf]);
    ("getSwcModeGroupIRef", [MReturnAttr "swcModeGroupIRef"]);
    ("setSwcModeGroupIRef", [MIfSome [MAssign "swcModeGroupIRef"]; MReturnSelf])]);
  ("SwcBswSynchronizedTrigger", [ (* line 354 *)
    ("getBswTriggerRef", [MReturnAttr "bswTriggerRef"]);
    ("setBswTriggerRef", [MIfSome [MAssign "bswTriggerRef"]; MReturnSelf]);
    ("getSwcTriggerIRef", [MReturnAttr "swcTriggerIRef"]);
    ("setSwcTriggerIRef", [MIfSome [MAssign "swcTriggerIRef"]; MReturnSelf])]);
  (* models/M2/AUTOSARTemplates/CommonStructure/TriggerDeclaration.py *)
  ("Trigger", [ (* line 13 *)
    ("getSwImplPolicy", [MReturnAttr "swImplPolicy"]);
    ("setSwImplPolicy", [MIfSome [MAssign "swImplPolicy"]; MReturnSelf]);
    ("getTriggerPeriod", [MReturnAttr "triggerPeriod"]);
    ("setTriggerPeriod", [MIfSome [MAssign "triggerPeriod"]; MReturnSelf])]);
  ("TriggerMapping", [ (* line 90 *)
    ("getFirstTriggerRef", [MReturnAttr "firstTriggerRef"]);
    ("setFirstTriggerRef", [MIfSome [MAssign "firstTriggerRef"]; MReturnSelf]);
    ("getSecondTriggerRef", [MReturnAttr "secondTriggerRef"]);
    ("setSecondTriggerRef", [MIfSome [MAssign "secondTriggerRef"]; MReturnSelf])]);
  (* models/M2/AUTOSARTemplates/CommonStructure/Constants/__init__.py *)
  ("ValueSpecification", [ (* line 26 *)
    ("getShortLabel", [MReturnAttr "shortLabel"]);
    ("setShortLabel", [MIfSome [MAssign "shortLabel"]; MReturnSelf])]);
  ("ApplicationValueSpecification", [ (* line 121 *)
    ("getCategory", [MReturnAttr "category"]);
    ("setCategory", [MAssign "category"; MReturnSelf]);
    ("getSwAxisCont", [MReturnAttr "swAxisCont"]);
    ("setSwAxisCont", [MAssign "swAxisCont"; MReturnSelf]);
    ("getSwValueCont", [MReturnAttr "swValueCont"]);
    ("setSwValueCont", [MAssign "swValueCont"; MReturnSelf])]);
  ("RecordValueSpecification", [ (* line 222 *)
    ("getFields", [MReturnAttr "fields"])]);
  ("TextValueSpecification", [ (* line 262 *)
    ("getValue", [MReturnAttr "value"]);
    ("setValue", [MAssign "value"; MReturnSelf])]);
  ("NumericalValueSpecification", [ (* line 306 *)
    ("getValue", [MReturnAttr "value"]);
    ("setValue", [MIfSome [MAssign "value"]; MReturnSelf])]);
  ("ArrayValueSpecification", [ (* line 351 *)
    ("getIntendedPartialInitializationCount", [MReturnAttr "intendedPartialInitializationCount"]);
    ("setIntendedPartialInitializationCount", [MAssign "intendedPartialInitializationCount"; MReturnSelf]);
    ("getElements", [MReturnAttr "element"])]);
  ("ConstantSpecification", [ (* line 417 *)
    ("getValueSpec", [MReturnAttr "valueSpec"]);
    ("setValueSpec", [MAssign "valueSpec"; MReturnSelf])]);
  ("ConstantReference", [ (* line 465 *)
    ("getConstantRef", [MReturnAttr "constantRef"]);
    ("setConstantRef", [MAssign "constantRef"; MReturnSelf])]);
  ("ApplicationRuleBasedValueSpecification", [ (* line 509 *)
    ("getCategory", [MReturnAttr "category"]);
    ("setCategory", [MIfSome [MAssign "category"]; MReturnSelf]);
    ("getSwAxisConts", [MReturnAttr "swAxisConts"]);
    ("getSwValueCont", [MReturnAttr "swValueCont"]);
    ("setSwValueCont", [MIfSome [MAssign "swValueCont"]; MReturnSelf])]);
  ("CompositeRuleBasedValueSpecification", [ (* line 633 *)
    ("getArguments", [MReturnAttr "arguments"]);
    ("getCompoundPrimitiveArguments", [MReturnAttr "compoundPrimitiveArguments"]);
    ("getMaxSizeToFill", [MReturnAttr "maxSizeToFill"]);
    ("setMaxSizeToFill", [MIfSome [MAssign "maxSizeToFill"]; MReturnSelf]);
    ("getRule", [MReturnAttr "rule"]);
    ("setRule", [MIfSome [MAssign "rule"]; MReturnSelf])]);
  ("ConstantSpecificationMapping", [ (* line 727 *)
    ("getSourceRef", [MReturnAttr "sourceRef"]);
    ("setSourceRef", [MAssign "sourceRef"; MReturnSelf]);
    ("getTargetRef", [MReturnAttr "targetRef"]);
    ("setTargetRef", [MAssign "targetRef"; MReturnSelf])]);
  ("ConstantSpecificationMappingSet", [ (* line 759 *)
    ("getMappings", [MReturnAttr "mappings"])]);
  ("NotAvailableValueSpecification", [ (* line 780 *)
    ("getReason", [MReturnAttr "reason"]);
    ("setReason", [MAssign "reason"; MReturnSelf])]);
  ("NumericalOrText", [ (* line 802 *)
    ("getVf", [MReturnAttr "vf"]);
    ("setVf", [MIfSome [MAssign "vf"]; MReturnSelf]);
    ("getVt", [MReturnAttr "vt"]);
    ("setVt", [MIfSome [MAssign "vt"]; MReturnSelf])]);
  ("NumericalRuleBasedValueSpecification", [ (* line 882 *)
    ("getRuleBasedValues", [MReturnAttr "ruleBasedValues"]);
    ("setRuleBasedValues", [MAssign "ruleBasedValues"; MReturnSelf])]);
  ("ReferenceValueSpecification", [ (* line 904 *)
    ("getValueSpecRef", [MReturnAttr "valueSpecRef"]);
    ("setValueSpecRef", [MAssign "valueSpecRef"; MReturnSelf])]);
  ("RuleArguments", [ (* line 926 *)
    ("getV", [MReturnAttr "v"]);
    ("setV", [MIfSome [MAssign "v"]; MReturnSelf]);
    ("getVf", [MReturnAttr "vf"]);
    ("setVf", [MIfSome [MAssign "vf"]; MReturnSelf]);
    ("getVt", [MReturnAttr "vt"]);
    ("setVt", [MIfSome [MAssign "vt"]; MReturnSelf]);
    ("getVtf", [MReturnAttr "vtf"]);
    ("setVtf", [MIfSome [MAssign "vtf"]; MReturnSelf])]);
  ("RuleBasedAxisCont", [ (* line 1060 *)
    ("getCategory", [MReturnAttr "category"]);
    ("setCategory", [MAssign "category"; MReturnSelf]);
    ("getUnitRef", [MReturnAttr "unitRef"]);
    ("setUnitRef", [MAssign "unitRef"; MReturnSelf]);
    ("getSwArraysize", [MReturnAttr "swArraysize"]);
    ("setSwArraysize", [MAssign "swArraysize"; MReturnSelf]);
    ("getSwAxisIndex", [MReturnAttr "swAxisIndex"]);
    ("setSwAxisIndex", [MAssign "swAxisIndex"; MReturnSelf]);
    ("getRuleBasedValues", [MReturnAttr "ruleBasedValues"]);
    ("setRuleBasedValues", [MAssign "ruleBasedValues"; MReturnSelf])]);
  ("RuleBasedValueCont", [ (* line 1124 *)
    ("getRuleBasedValues", [MReturnAttr "ruleBasedValues"]);
    ("setRuleBasedValues", [MIfSome [MAssign "ruleBasedValues"]; MReturnSelf]);
    ("getSwArraysize", [MReturnAttr "swArraysize"]);
    ("setSwArraysize", [MIfSome [MAssign "swArraysize"]; MReturnSelf]);
    ("getUnitRef", [MReturnAttr "unitRef"]);
    ("setUnitRef", [MIfSome [MAssign "unitRef"]; MReturnSelf])]);
  ("RuleBasedValueSpecification", [ (* line 1229 *)
    ("getArguments", [MReturnAttr "arguments"]);
    ("getMaxSizeToFill", [MReturnAttr "maxSizeToFill"]);
    ("setMaxSizeToFill", [MIfSome [MAssign "maxSizeToFill"]; MReturnSelf]);
    ("getRule", [MReturnAttr "rule"]);
    ("setRule", [MIfSome [MAssign "rule"]; MReturnSelf])]);
  (* models/M2/AUTOSARTemplates/CommonStructure/MeasurementCalibrationSupport/__init__.py *)
  ("RteEventInEcuInstanceRef", [ (* line 20 *)
    ("getBaseRef", [MReturnAttr "baseRef"]);
    ("setBaseRef", [MIfSome [MAssign "baseRef"]; MReturnSelf]);
    ("getContextRootCompositionRef", [MReturnAttr "contextRootCompositionRef"]);
    ("setContextRootCompositionRef", [MIfSome [MAssign "contextRootCompositionRef"]; MReturnSelf]);
    ("getContextAtomicComponentRef", [MReturnAttr "contextAtomicComponentRef"]);
    ("setContextAtomicComponentRef", [MIfSome [MAssign "contextAtomicComponentRef"]; MReturnSelf]);
    ("getTargetRteEventRef", [MReturnAttr "targetRteEventRef"]);
    ("setTargetRteEventRef", [MIfSome [MAssign "targetRteEventRef"]; MReturnSelf])]);
  ("VariableAccessInEcuInstanceRef", [ (* line 154 *)
    ("getBaseRef", [MReturnAttr "baseRef"]);
    ("setBaseRef", [MIfSome [MAssign "baseRef"]; MReturnSelf]);
    ("getContextRootCompositionRef", [MReturnAttr "contextRootCompositionRef"]);
    ("setContextRootCompositionRef", [MIfSome [MAssign "contextRootCompositionRef"]; MReturnSelf]);
    ("getContextAtomicComponentRef", [MReturnAttr "contextAtomicComponentRef"]);
    ("setContextAtomicComponentRef", [MIfSome [MAssign "contextAtomicComponentRef"]; MReturnSelf]);
    ("getTargetVariableAccessRef", [MReturnAttr "targetVariableAccessRef"]);
    ("setTargetVariableAccessRef", [MIfSome [MAssign "targetVariableAccessRef"]; MReturnSelf])]);
  ("McDataAccessDetails", [ (* line 288 *)
    ("getRteEventIRefs", [MReturnAttr "rteEventIRefs"]);
    ("getVariableAccessIRefs", [MReturnAttr "variableAccessIRefs"])]);
  ("McParameterElementGroup", [ (* line 366 *)
    ("getRamLocationRef", [MReturnAttr "ramLocationRef"]);
    ("setRamLocationRef", [MIfSome [MAssign "ramLocationRef"]; MReturnSelf]);
    ("getRomLocationRef", [MReturnAttr "romLocationRef"]);
    ("setRomLocationRef", [MIfSome [MAssign "romLocationRef"]; MReturnSelf]);
    ("getShortLabel", [MReturnAttr "shortLabel"]);
    ("setShortLabel", [MIfSome [MAssign "shortLabel"]; MReturnSelf])]);
  ("McSwEmulationMethodSupport", [ (* line 470 *)
    ("getBaseReferenceRef", [MReturnAttr "baseReferenceRef"]);
    ("setBaseReferenceRef", [MIfSome [MAssign "baseReferenceRef"]; MReturnSelf]);
    ("getCategory", [MReturnAttr "category"]);
    ("setCategory", [MIfSome [MAssign "category"]; MReturnSelf]);
    ("getElementGroups", [MReturnAttr "elementGroups"]);
    ("getReferenceTableRef", [MReturnAttr "referenceTableRef"]);
    ("setReferenceTableRef", [MIfSome [MAssign "referenceTableRef"]; MReturnSelf]);
    ("getShortLabel", [MReturnAttr "shortLabel"]);
    ("setShortLabel", [MIfSome [MAssign "shortLabel"]; MReturnSelf])]);
  ("ImplementationElementInParameterInstanceRef", [ (* line 632 *)
    ("getContextRef", [MReturnAttr "contextRef"]);
    ("setContextRef", [MIfSome [MAssign "contextRef"]; MReturnSelf]);
    ("getTargetRef", [MReturnAttr "targetRef"]);
    ("setTargetRef", [MIfSome [MAssign "targetRef"]; MReturnSelf])]);
  ("McFunction", [ (* line 711 *)
    ("getDefCalprmSet", [MReturnAttr "defCalprmSet"]);
    ("setDefCalprmSet", [MIfSome [MAssign "defCalprmSet"]; MReturnSelf]);
    ("getInMeasurementSet", [MReturnAttr "inMeasurementSet"]);
    ("setInMeasurementSet", [MIfSome [MAssign "inMeasurementSet"]; MReturnSelf]);
    ("getLocMeasurementSet", [MReturnAttr "locMeasurementSet"]);
    ("setLocMeasurementSet", [MIfSome [MAssign "locMeasurementSet"]; MReturnSelf]);
    ("getOutMeasurementSet", [MReturnAttr "outMeasurementSet"]);
    ("setOutMeasurementSet", [MIfSome [MAssign "outMeasurementSet"]; MReturnSelf]);
    ("getRefCalprmSet", [MReturnAttr "refCalprmSet"]);
    ("setRefCalprmSet", [MIfSome [MAssign "refCalprmSet"]; MReturnSelf]);
    ("getSubFunctionRefs", [MReturnAttr "subFunctionRefs"])]);
  ("RoleBasedMcDataAssignment", [ (* line 906 *)
    ("getExecutionContextRefs", [MReturnAttr "executionContextRefs"]);
    ("getMcDataInstanceRefs", [MReturnAttr "mcDataInstanceRefs"]);
    ("getRole", [MReturnAttr "role"]);
    ("setRole", [MIfSome [MAssign "role"]; MReturnSelf])]);
  ("McDataInstance", [ (* line 1010 *)
    ("getArraySize", [MReturnAttr "arraySize"]);
    ("setArraySize", [MIfSome [MAssign "arraySize"]; MReturnSelf]);
    ("getDisplayIdentifier", [MReturnAttr "displayIdentifier"]);
    ("setDisplayIdentifier", [MIfSome [MAssign "displayIdentifier"]; MReturnSelf]);
    ("getFlatMapEntryRef", [MReturnAttr "flatMapEntryRef"]);
    ("setFlatMapEntryRef", [MIfSome [MAssign "flatMapEntryRef"]; MReturnSelf]);
    ("getInstanceInMemory", [MReturnAttr "instanceInMemory"]);
    ("setInstanceInMemory", [MIfSome [MAssign "instanceInMemory"]; MReturnSelf]);
    ("getMcDataAccessDetails", [MReturnAttr "mcDataAccessDetails"]);
    ("setMcDataAccessDetails", [MIfSome [MAssign "mcDataAccessDetails"]; MReturnSelf]);
    ("getMcDataAssignments", [MReturnAttr "mcDataAssignments"]);
    ("getResultingProperties", [MReturnAttr "resultingProperties"]);
    ("setResultingProperties", [MIfSome [MAssign "resultingProperties"]; MReturnSelf]);
    ("getResultingRptSwPrototypingAccess", [MReturnAttr "resultingRptSwPrototypingAccess"]);
    ("setResultingRptSwPrototypingAccess", [MIfSome [MAssign "resultingRptSwPrototypingAccess"]; MReturnSelf]);
    ("getRole", [MReturnAttr "role"]);
    ("setRole", [MIfSome [MAssign "role"]; MReturnSelf]);
    ("getRptImplPolicy", [MReturnAttr "rptImplPolicy"]);
    ("setRptImplPolicy", [MIfSome [MAssign "rptImplPolicy"]; MReturnSelf]);
    ("getSubElements", [MReturnAttr "subElements"]);
    ("getSymbol", [MReturnAttr "symbol"]);
    ("setSymbol", [MIfSome [MAssign "symbol"]; MReturnSelf])]);
  ("McSupportData", [ (* line 1382 *)
    ("getEmulationSupports", [MReturnAttr "emulationSupports"]);
    ("getMcParameterInstances", [MReturnAttr "mcParameterInstances"]);
    ("getMcVariableInstances", [MReturnAttr "mcVariableInstances"]);
    ("getMeasurableSystemConstantValuesRefs", [MReturnAttr "measurableSystemConstantValuesRefs"]);
    ("getRptSupportData", [MReturnAttr "rptSupportData"]);
    ("setRptSupportData", [MIfSome [MAssign "rptSupportData"]; MReturnSelf])]);
  (* models/M2/AUTOSARTemplates/CommonStructure/MeasurementCalibrationSupport/RptSupport/__init__.py *)
  ("RptSwPrototypingAccess", [ (* line 159 *)
    ("getRptHookAccess", [MReturnAttr "rptHookAccess"]);
    ("setRptHookAccess", [MIfSome [MAssign "rptHookAccess"]; MReturnSelf]);
    ("getRptReadAccess", [MReturnAttr "rptReadAccess"]);
    ("setRptReadAccess", [MIfSome [MAssign "rptReadAccess"]; MReturnSelf]);
    ("getRptWriteAccess", [MReturnAttr "rptWriteAccess"]);
    ("setRptWriteAccess", [MIfSome [MAssign "rptWriteAccess"]; MReturnSelf])]);
  ("RptServicePoint", [ (* line 263 *)
    ("getServiceId", [MReturnAttr "serviceId"]);
    ("setServiceId", [MIfSome [MAssign "serviceId"]; MReturnSelf]);
    ("getSymbol", [MReturnAttr "symbol"]);
    ("setSymbol", [MIfSome [MAssign "symbol"]; MReturnSelf])]);
  ("McFunctionDataRefSet", [ (* line 342 *)
    ("getFlatMapEntryRefs", [MReturnAttr "flatMapEntryRefs"]);
    ("getMcDataInstanceRefs", [MReturnAttr "mcDataInstanceRefs"])]);
  ("RptExecutableEntityEvent", [ (* line 417 *)
    ("getExecutionContextRefs", [MReturnAttr "executionContextRefs"]);
    ("getMcDataAssignments", [MReturnAttr "mcDataAssignments"]);
    ("getRptEventId", [MReturnAttr "rptEventId"]);
    ("setRptEventId", [MIfSome [MAssign "rptEventId"]; MReturnSelf]);
    ("getRptExecutableEntityProperties", [MReturnAttr "rptExecutableEntityProperties"]);
    ("setRptExecutableEntityProperties", [MIfSome [MAssign "rptExecutableEntityProperties"]; MReturnSelf]);
    ("getRptImplPolicy", [MReturnAttr "rptImplPolicy"]);
    ("setRptImplPolicy", [MIfSome [MAssign "rptImplPolicy"]; MReturnSelf]);
    ("getRptServicePointPostRefs", [MReturnAttr "rptServicePointPostRefs"]);
    ("getRptServicePointPreRefs", [MReturnAttr "rptServicePointPreRefs"])]);
  ("RptExecutableEntity", [ (* line 641 *)
    ("getRptExecutableEntityEvents", [MReturnAttr "rptExecutableEntityEvents"]);
    ("getRptReads", [MReturnAttr "rptReads"]);
    ("getRptWrites", [MReturnAttr "rptWrites"]);
    ("getSymbol", [MReturnAttr "symbol"]);
    ("setSymbol", [MIfSome [MAssign "symbol"]; MReturnSelf])]);
  ("RptComponent", [ (* line 781 *)
    ("getMcDataAssignments", [MReturnAttr "mcDataAssignments"]);
    ("getRpImplPolicy", [MReturnAttr "rpImplPolicy"]);
    ("setRpImplPolicy", [MIfSome [MAssign "rpImplPolicy"]; MReturnSelf]);
    ("getRptExecutableEntities", [MReturnAttr "rptExecutableEntities"])]);
  ("RptSupportData", [ (* line 892 *)
    ("getExecutionContexts", [MReturnAttr "executionContexts"]);
    ("getRptComponents", [MReturnAttr "rptComponents"]);
    ("getRptServicePoints", [MReturnAttr "rptServicePoints"])]);
  (* models/M2/AUTOSARTemplates/CommonStructure/ResourceConsumption/HeapUsage.py *)
  ("HeapUsage", [ (* line 19 *)
    ("getHardwareConfiguration", [MReturnAttr "hardwareConfiguration"]);
    ("setHardwareConfiguration", [MIfSome [MAssign "hardwareConfiguration"]; MReturnSelf]);
    ("getHwElementRef", [MReturnAttr "hwElementRef"]);
    ("setHwElementRef", [MIfSome [MAssign "hwElementRef"]; MReturnSelf]);
    ("getSoftwareContext", [MReturnAttr "softwareContext"]);
    ("setSoftwareContext", [MIfSome [MAssign "softwareContext"]; MReturnSelf])]);
  ("MeasuredHeapUsage", [ (* line 131 *)
    ("getAverageMemoryConsumption", [MReturnAttr "averageMemoryConsumption"]);
    ("setAverageMemoryConsumption", [MIfSome [MAssign "averageMemoryConsumption"]; MReturnSelf]);
    ("getMaximumMemoryConsumption", [MReturnAttr "maximumMemoryConsumption"]);
    ("setMaximumMemoryConsumption", [MIfSome [MAssign "maximumMemoryConsumption"]; MReturnSelf]);
    ("getMinimumMemoryConsumption", [MReturnAttr "minimumMemoryConsumption"]);
    ("setMinimumMemoryConsumption", [MIfSome [MAssign "minimumMemoryConsumption"]; MReturnSelf]);
    ("getTestPattern", [MReturnAttr "testPattern"]);
    ("setTestPattern", [MIfSome [MAssign "testPattern"]; MReturnSelf])]);
  ("RoughEstimateHeapUsage", [ (* line 268 *)
    ("getMemoryConsumption", [MReturnAttr "memoryConsumption"]);
    ("setMemoryConsumption", [MIfSome [MAssign "memoryConsumption"]; MReturnSelf])]);
  ("WorstCaseHeapUsage", [ (* line 318 *)
    ("getMemoryConsumption", [MReturnAttr "memoryConsumption"]);
    ("setMemoryConsumption", [MIfSome [MAssign "memoryConsumption"]; MReturnSelf])]);
  (* models/M2/AUTOSARTemplates/CommonStructure/ResourceConsumption/MemorySectionUsage.py *)
  ("MemorySection", [ (* line 13 *)
    ("getAlignment", [MReturnAttr "alignment"]);
    ("setAlignment", [MIfSome [MAssign "alignment"]; MReturnSelf]);
    ("getExecutableEntityRefs", [MReturnAttr "executableEntityRefs"]);
    ("getMemClassSymbol", [MReturnAttr "memClassSymbol"]);
    ("setMemClassSymbol", [MIfSome [MAssign "memClassSymbol"]; MReturnSelf]);
    ("getOptions", [MReturnAttr "options"]);
    ("getPrefixRef", [MReturnAttr "prefixRef"]);
    ("setPrefixRef", [MIfSome [MAssign "prefixRef"]; MReturnSelf]);
    ("getSize", [MReturnAttr "size"]);
    ("setSize", [MIfSome [MAssign "size"]; MReturnSelf]);
    ("getSwAddrMethodRef", [MReturnAttr "swAddrMethodRef"]);
    ("setSwAddrMethodRef", [MIfSome [MAssign "swAddrMethodRef"]; MReturnSelf]);
    ("getSymbol", [MReturnAttr "symbol"]);
    ("setSymbol", [MIfSome [MAssign "symbol"]; MReturnSelf])]);
  ("SectionNamePrefix", [ (* line 308 *)
    ("getImplementedInRef", [MReturnAttr "implementedInRef"]);
    ("setImplementedInRef", [MIfSome [MAssign "implementedInRef"]; MReturnSelf])]);
  (* models/M2/AUTOSARTemplates/CommonStructure/ResourceConsumption/StackUsage.py *)
  ("StackUsage", [ (* line 18 *)
    ("getExecutableEntityRef", [MReturnAttr "executableEntityRef"]);
    ("setExecutableEntityRef", [MIfSome [MAssign "executableEntityRef"]; MReturnSelf]);
    ("getHardwareConfiguration", [MReturnAttr "hardwareConfiguration"]);
    ("setHardwareConfiguration", [MIfSome [MAssign "hardwareConfiguration"]; MReturnSelf]);
    ("getHwElementRef", [MReturnAttr "hwElementRef"]);
    ("setHwElementRef", [MIfSome [MAssign "hwElementRef"]; MReturnSelf]);
    ("getSoftwareContext", [MReturnAttr "softwareContext"]);
    ("setSoftwareContext", [MIfSome [MAssign "softwareContext"]; MReturnSelf])]);
  ("MeasuredStackUsage", [ (* line 161 *)
    ("getAverageMemoryConsumption", [MReturnAttr "averageMemoryConsumption"]);
    ("setAverageMemoryConsumption", [MIfSome [MAssign "averageMemoryConsumption"]; MReturnSelf]);
    ("getMaximumMemoryConsumption", [MReturnAttr "maximumMemoryConsumption"]);
    ("setMaximumMemoryConsumption", [MIfSome [MAssign "maximumMemoryConsumption"]; MReturnSelf]);
    ("getMinimumMemoryConsumption", [MReturnAttr "minimumMemoryConsumption"]);
    ("setMinimumMemoryConsumption", [MIfSome [MAssign "minimumMemoryConsumption"]; MReturnSelf]);
    ("getTestPattern", [MReturnAttr "testPattern"]);
    ("setTestPattern", [MIfSome [MAssign "testPattern"]; MReturnSelf])]);
  ("RoughEstimateStackUsage", [ (* line 298 *)
    ("getMemoryConsumption", [MReturnAttr "memoryConsumption"]);
    ("setMemoryConsumption", [MIfSome [MAssign "memoryConsumption"]; MReturnSelf])]);
  ("WorstCaseStackUsage", [ (* line 348 *)
    ("getMemoryConsumption", [MReturnAttr "memoryConsumption"]);
    ("setMemoryConsumption", [MIfSome [MAssign "memoryConsumption"]; MReturnSelf])]);
  (* models/M2/AUTOSARTemplates/CommonStructure/ResourceConsumption/__init__.py *)
  ("HardwareConfiguration", [ (* line 26 *)
    ("getAdditionalInformation", [MReturnAttr "additionalInformation"]);
    ("setAdditionalInformation", [MIfSome [MAssign "additionalInformation"]; MReturnSelf]);
    ("getProcessorMode", [MReturnAttr "processorMode"]);
    ("setProcessorMode", [MIfSome [MAssign "processorMode"]; MReturnSelf]);
    ("getProcessorSpeed", [MReturnAttr "processorSpeed"]);
    ("setProcessorSpeed", [MIfSome [MAssign "processorSpeed"]; MReturnSelf])]);
  ("SoftwareContext", [ (* line 144 *)
    ("getInput", [MReturnAttr "input"]);
    ("setInput", [MIfSome [MAssign "input"]; MReturnSelf]);
    ("getState", [MReturnAttr "state"]);
    ("setState", [MIfSome [MAssign "state"]; MReturnSelf])]);
  ("ResourceConsumption", [ (* line 218 *)
    ("getAccessCountSets", [MReturnAttr "accessCountSets"]);
    ("getExecutionTimes", [MOther]);
    ("getHeapUsages", [MOther]);
    ("getMemorySections", [MOther]);
    ("getMemorySection", [MOther]);
    ("getSectionNamePrefixes", [MOther]);
    ("getStackUsages", [MOther])]);
  (* models/M2/AUTOSARTemplates/CommonStructure/ResourceConsumption/ExecutionTime/__init__.py *)
  ("ExecutionTime", [ (* line 19 *)
    ("getExclusiveAreaRef", [MReturnAttr "exclusiveAreaRef"]);
    ("setExclusiveAreaRef", [MIfSome [MAssign "exclusiveAreaRef"]; MReturnSelf]);
    ("getExecutableEntityRef", [MReturnAttr "executableEntityRef"]);
    ("setExecutableEntityRef", [MIfSome [MAssign "executableEntityRef"]; MReturnSelf]);
    ("getHardwareConfiguration", [MReturnAttr "hardwareConfiguration"]);
    ("setHardwareConfiguration", [MIfSome [MAssign "hardwareConfiguration"]; MReturnSelf]);
    ("getHwElementRef", [MReturnAttr "hwElementRef"]);
    ("setHwElementRef", [MIfSome [MAssign "hwElementRef"]; MReturnSelf]);
    ("getIncludedLibraryRefs", [MReturnAttr "includedLibraryRefs"]);
    ("getMemorySectionLocations", [MReturnAttr "memorySectionLocations"]);
    ("getSoftwareContext", [MReturnAttr "softwareContext"]);
    ("setSoftwareContext", [MIfSome [MAssign "softwareContext"]; MReturnSelf])]);
  ("MemorySectionLocation", [ (* line 262 *)
    ("getProvidedMemoryRef", [MReturnAttr "providedMemoryRef"]);
    ("setProvidedMemoryRef", [MIfSome [MAssign "providedMemoryRef"]; MReturnSelf]);
    ("getSoftwareMemorySectionRef", [MReturnAttr "softwareMemorySectionRef"]);
    ("setSoftwareMemorySectionRef", [MIfSome [MAssign "softwareMemorySectionRef"]; MReturnSelf])]);
  ("AnalyzedExecutionTime", [ (* line 339 *)
    ("getBestCaseExecutionTime", [MReturnAttr "bestCaseExecutionTime"]);
    ("setBestCaseExecutionTime", [MIfSome [MAssign "bestCaseExecutionTime"]; MReturnSelf]);
    ("getWorstCaseExecutionTime", [MReturnAttr "worstCaseExecutionTime"]);
    ("setWorstCaseExecutionTime", [MIfSome [MAssign "worstCaseExecutionTime"]; MReturnSelf])]);
  ("MeasuredExecutionTime", [ (* line 425 *)
    ("getMaximumExecutionTime", [MReturnAttr "maximumExecutionTime"]);
    ("setMaximumExecutionTime", [MIfSome [MAssign "maximumExecutionTime"]; MReturnSelf]);
    ("getMinimumExecutionTime", [MReturnAttr "minimumExecutionTime"]);
    ("setMinimumExecutionTime", [MIfSome [MAssign "minimumExecutionTime"]; MReturnSelf]);
    ("getNominalExecutionTime", [MReturnAttr "nominalExecutionTime"]);
    ("setNominalExecutionTime", [MIfSome [MAssign "nominalExecutionTime"]; MReturnSelf])]);
  ("SimulatedExecutionTime", [ (* line 535 *)
    ("getMaximumExecutionTime", [MReturnAttr "maximumExecutionTime"]);
    ("setMaximumExecutionTime", [MIfSome [MAssign "maximumExecutionTime"]; MReturnSelf]);
    ("getMinimumExecutionTime", [MReturnAttr "minimumExecutionTime"]);
    ("setMinimumExecutionTime", [MIfSome [MAssign "minimumExecutionTime"]; MReturnSelf]);
    ("getNominalExecutionTime", [MReturnAttr "nominalExecutionTime"]);
    ("setNominalExecutionTime", [MIfSome [MAssign "nominalExecutionTime"]; MReturnSelf])]);
  ("RoughEstimateOfExecutionTime", [ (* line 645 *)
    ("getAdditionalInformation", [MReturnAttr "additionalInformation"]);
    ("setAdditionalInformation", [MIfSome [MAssign "additionalInformation"]; MReturnSelf]);
    ("getEstimatedExecutionTime", [MReturnAttr "estimatedExecutionTime"]);
    ("setEstimatedExecutionTime", [MIfSome [MAssign "estimatedExecutionTime"]; MReturnSelf])]);
  (* models/M2/AUTOSARTemplates/CommonStructure/StandardizationTemplate/Keyword.py *)
  ("Keyword", [ (* line 14 *)
    ("getAbbrName", [MReturnAttr "abbrName"]);
    ("setAbbrName", [MIfSome [MAssign "abbrName"]; MReturnSelf]);
    ("getClassifications", [MReturnAttr "classifications"])]);
  ("KeywordSet", [ (* line 91 *)
    ("getKeywords", [MReturnAttr "keywords"])]);
  (* models/M2/AUTOSARTemplates/CommonStructure/StandardizationTemplate/AbstractBlueprintStructure/AtpBlueprint.py *)
  ("AtpBlueprint", [ (* line 13 *)
    ("getBlueprintPolicys", [MReturnAttr "blueprintPolicys"])]);
  (* models/M2/AUTOSARTemplates/CommonStructure/StandardizationTemplate/BlueprintDedicated/PortPrototypeBlueprint.py *)
  ("PortPrototypeBlueprintInitValue", [ (* line 22 *)
    ("getDataPrototypeRef", [MReturnAttr "dataPrototypeRef"]);
    ("setDataPrototypeRef", [MIfSome [MAssign "dataPrototypeRef"]; MReturnSelf]);
    ("getValue", [MReturnAttr "value"]);
    ("setValue", [MIfSome [MAssign "value"]; MReturnSelf])]);
  ("PortPrototypeBlueprint", [ (* line 89 *)
    ("getInitValues", [MReturnAttr "initValues"]);
    ("setInitValues", [MIfSome [MAssign "initValues"]; MReturnSelf]);
    ("getInterfaceRef", [MReturnAttr "interfaceRef"]);
    ("setInterfaceRef", [MIfSome [MAssign "interfaceRef"]; MReturnSelf]);
    ("getProvidedComSpecs", [MReturnAttr "providedComSpecs"]);
    ("setProvidedComSpecs", [MIfSome [MAssign "providedComSpecs"]; MReturnSelf]);
    ("getRequiredComSpecs", [MReturnAttr "requiredComSpecs"]);
    ("setRequiredComSpecs", [MIfSome [MAssign "requiredComSpecs"]; MReturnSelf])]);
  (* models/M2/AUTOSARTemplates/CommonStructure/StandardizationTemplate/BlueprintGenerator/BlueprintGenerator.py *)
  ("BlueprintGenerator", [ (* line 7 *)
    ("getExpression", [MReturnAttr "expression"]);
    ("setExpression", [MIfSome [MAssign "expression"]; MReturnSelf]);
    ("getIntroduction", [MReturnAttr "introduction"]);
    ("setIntroduction", [MIfSome [MAssign "introduction"]; MReturnSelf])]);
  (* models/M2/AUTOSARTemplates/CommonStructure/StandardizationTemplate/BlueprintMapping/BlueprintMappingSet.py *)
  ("BlueprintMappingSet", [ (* line 5 *)
    ("getMappings", [MReturnAttr "mappings"])]);
  (* models/M2/AUTOSARTemplates/CommonStructure/Timing/TimingClock/TDLETZoneClock.py *)
  ("TDLETZoneClock", [ (* line 5 *)
    ("getClockRef", [MReturnAttr "clockRef"]);
    ("setClockRef", [MAssign "clockRef"; MReturnSelf]);
    ("getZoneRef", [MReturnAttr "zoneRef"]);
    ("setZoneRef", [MAssign "zoneRef"; MReturnSelf])]);
  (* models/M2/AUTOSARTemplates/CommonStructure/Timing/TimingClock/TimingClock.py *)
  ("TimingClock", [ (* line 4 *)
    ("getClockName", [MReturnAttr "clockName"]);
    ("setClockName", [MAssign "clockName"; MReturnSelf]);
    ("getClockType", [MReturnAttr "clockType"]);
    ("setClockType", [MAssign "clockType"; MReturnSelf])]);
  (* models/M2/AUTOSARTemplates/CommonStructure/Timing/TimingClock/TimingClockSyncAccuracy.py *)
  ("TimingClockSyncAccuracy", [ (* line 4 *)
    ("getAccuracy", [MReturnAttr "accuracy"]);
    ("setAccuracy", [MAssign "accuracy"; MReturnSelf]);
    ("getUnit", [MReturnAttr "unit"]);
    ("setUnit", [MAssign "unit"; MReturnSelf])]);
  (* models/M2/AUTOSARTemplates/CommonStructure/Timing/TimingCondition/TimingCondition.py *)
  ("TimingCondition", [ (* line 5 *)
    ("getConditionFormula", [MReturnAttr "conditionFormula"]);
    ("setConditionFormula", [MAssign "conditionFormula"; MReturnSelf]);
    ("getModeInstances", [MReturnAttr "modeInstances"])]);
  (* models/M2/AUTOSARTemplates/CommonStructure/Timing/TimingCondition/TimingConditionFormula.py *)
  ("TimingConditionFormula", [ (* line 4 *)
    ("getExpression", [MReturnAttr "expression"]);
    ("setExpression", [MAssign "expression"; MReturnSelf])]);
  (* models/M2/AUTOSARTemplates/CommonStructure/Timing/TimingCondition/TimingExtensionResource.py *)
  ("TimingExtensionResource", [ (* line 4 *)
    ("getResourceName", [MReturnAttr "resourceName"]);
    ("setResourceName", [MAssign "resourceName"; MReturnSelf]);
    ("getResourceType", [MReturnAttr "resourceType"]);
    ("setResourceType", [MAssign "resourceType"; MReturnSelf])]);
  (* models/M2/AUTOSARTemplates/CommonStructure/Timing/TimingCondition/TimingModeInstance.py *)
  ("TimingModeInstance", [ (* line 5 *)
    ("getModeRef", [MReturnAttr "modeRef"]);
    ("setModeRef", [MAssign "modeRef"; MReturnSelf]);
    ("getModeValue", [MReturnAttr "modeValue"]);
    ("setModeValue", [MAssign "modeValue"; MReturnSelf])]);
  (* models/M2/AUTOSARTemplates/CommonStructure/Timing/TimingConstraint/AgeConstraint.py *)
  ("AgeConstraint", [ (* line 17 *)
    ("getAge", [MReturnAttr "age"]);
    ("setAge", [MAssign "age"; MReturnSelf])]);
  (* models/M2/AUTOSARTemplates/CommonStructure/Timing/TimingConstraint/EventTriggeringConstraint.py *)
  ("PeriodicEventTriggering", [ (* line 43 *)
    ("getPeriod", [MReturnAttr "period"]);
    ("setPeriod", [MAssign "period"; MReturnSelf])]);
  ("SporadicEventTriggering", [ (* line 75 *)
    ("getMinInterArrivalTime", [MReturnAttr "min_inter_arrival_time"]);
    ("setMinInterArrivalTime", [MAssign "min_inter_arrival_time"; MReturnSelf])]);
  ("BurstPatternEventTriggering", [ (* line 127 *)
    ("getBurstSize", [MReturnAttr "burst_size"]);
    ("setBurstSize", [MAssign "burst_size"; MReturnSelf]);
    ("getBurstInterval", [MReturnAttr "burst_interval"]);
    ("setBurstInterval", [MAssign "burst_interval"; MReturnSelf])]);
  ("ConfidenceInterval", [ (* line 190 *)
    ("getConfidenceLevel", [MReturnAttr "confidence_level"]);
    ("setConfidenceLevel", [MAssign "confidence_level"; MReturnSelf]);
    ("getLowerBound", [MReturnAttr "lower_bound"]);
    ("setLowerBound", [MAssign "lower_bound"; MReturnSelf]);
    ("getUpperBound", [MReturnAttr "upper_bound"]);
    ("setUpperBound", [MAssign "upper_bound"; MReturnSelf])]);
  (* models/M2/AUTOSARTemplates/CommonStructure/Timing/TimingConstraint/ExecutionOrderConstraint.py *)
  ("EOCExecutableEntityRef", [ (* line 38 *)
    ("getSuccessorRefs", [MReturnAttr "successor_refs"])]);
  ("ExecutionOrderConstraint", [ (* line 73 *)
    ("getOrderedElements", [MReturnAttr "ordered_elements"])]);
  ("EOCEventRef", [ (* line 116 *)
    ("getEventRef", [MReturnAttr "eventRef"]);
    ("setEventRef", [MAssign "eventRef"; MReturnSelf])]);
  ("EOCExecutableEntityRefGroup", [ (* line 157 *)
    ("getEntityRefs", [MReturnAttr "entityRefs"])]);
  (* models/M2/AUTOSARTemplates/CommonStructure/Timing/TimingConstraint/ExecutionTimeConstraint.py *)
  ("ExecutionTimeConstraint", [ (* line 41 *)
    ("getExecutionType", [MReturnAttr "execution_type"]);
    ("setExecutionType", [MAssign "execution_type"; MReturnSelf]);
    ("getExecutionTime", [MReturnAttr "execution_time"]);
    ("setExecutionTime", [MAssign "execution_time"; MReturnSelf])]);
  (* models/M2/AUTOSARTemplates/CommonStructure/Timing/TimingConstraint/LatencyTimingConstraint.py *)
  ("LatencyTimingConstraint", [ (* line 41 *)
    ("getLatencyType", [MReturnAttr "latency_type"]);
    ("setLatencyType", [MAssign "latency_type"; MReturnSelf]);
    ("getLatency", [MReturnAttr "latency"]);
    ("setLatency", [MAssign "latency"; MReturnSelf])]);
  (* models/M2/AUTOSARTemplates/CommonStructure/Timing/TimingConstraint/OffsetConstraint.py *)
  ("OffsetTimingConstraint", [ (* line 16 *)
    ("getOffset", [MReturnAttr "offset"]);
    ("setOffset", [MAssign "offset"; MReturnSelf])]);
  (* models/M2/AUTOSARTemplates/CommonStructure/Timing/TimingConstraint/SynchronizationPointConstraint.py *)
  ("SynchronizationPointConstraint", [ (* line 17 *)
    ("getSynchronizationPoint", [MReturnAttr "synchronization_point"]);
    ("setSynchronizationPoint", [MAssign "synchronization_point"; MReturnSelf])]);
  (* models/M2/AUTOSARTemplates/CommonStructure/Timing/TimingConstraint/SynchronizationTiming.py *)
  ("SynchronizationTimingConstraint", [ (* line 63 *)
    ("getSynchronizationType", [MReturnAttr "synchronization_type"]);
    ("setSynchronizationType", [MAssign "synchronization_type"; MReturnSelf]);
    ("getEventOccurrenceKind", [MReturnAttr "event_occurrence_kind"]);
    ("setEventOccurrenceKind", [MAssign "event_occurrence_kind"; MReturnSelf])]);
  (* models/M2/AUTOSARTemplates/CommonStructure/Timing/TimingConstraint/TimingExtensions.py *)
  ("TimingExtension", [ (* line 21 *)
    ("getTimingRequirements", [MReturnAttr "timing_requirements"])]);
  (* models/M2/AUTOSARTemplates/DiagnosticExtract/DiagnosticContribution.py *)
  ("DiagnosticServiceTable", [ (* line 18 *)
    ("getDiagnosticConnectionRefs", [MReturnAttr "diagnosticConnectionRefs"]);
    ("getDiagnosticServiceInstanceRefs", [MReturnAttr "diagnosticServiceInstanceRefs"]);
    ("getEcuInstanceRef", [MReturnAttr "ecuInstanceRef"]);
    ("setEcuInstanceRef", [MIfSome [MAssign "ecuInstanceRef"]; MReturnSelf]);
    ("getProtocolKind", [MReturnAttr "protocolKind"]);
    ("setProtocolKind", [MIfSome [MAssign "protocolKind"]; MReturnSelf])]);
  (* models/M2/AUTOSARTemplates/EcuResourceTemplate/HwAttributeValue.py *)
  ("HwAttributeValue", [ (* line 13 *)
    ("getHwAttributeDefRef", [MReturnAttr "hwAttributeDefRef"]);
    ("setHwAttributeDefRef", [MIfSome [MAssign "hwAttributeDefRef"]; MReturnSelf]);
    ("getValue", [MReturnAttr "value"]);
    ("setValue", [MIfSome [MAssign "value"]; MReturnSelf])]);
  ("HwAttributeLiteralDef", [ (* line 84 *)
    ("getValue", [MReturnAttr "value"]);
    ("setValue", [MIfSome [MAssign "value"]; MReturnSelf])]);
  (* models/M2/AUTOSARTemplates/EcuResourceTemplate/HwElementCategory.py *)
  ("HwAttributeDef", [ (* line 45 *)
    ("getHwAttributeLiterals", [MReturnAttr "hwAttributeLiterals"]);
    ("setHwAttributeLiterals", [MIfSome [MAssign "hwAttributeLiterals"]; MReturnSelf]);
    ("getIsRequired", [MReturnAttr "isRequired"]);
    ("setIsRequired", [MIfSome [MAssign "isRequired"]; MReturnSelf]);
    ("getUnitRef", [MReturnAttr "unitRef"]);
    ("setUnitRef", [MIfSome [MAssign "unitRef"]; MReturnSelf])]);
  ("HwCategory", [ (* line 121 *)
    ("getHwAttributeDefs", [MReturnAttr "hwAttributeDefs"])]);
  (* models/M2/AUTOSARTemplates/EcuResourceTemplate/__init__.py *)
  ("HwDescriptionEntity", [ (* line 17 *)
    ("getHwAttributeValues", [MReturnAttr "hwAttributeValues"]);
    ("getHwCategoryRefs", [MReturnAttr "hwCategoryRefs"]);
    ("getHwTypeRef", [MReturnAttr "hwTypeRef"]);
    ("setHwTypeRef", [MIfSome [MAssign "hwTypeRef"]; MReturnSelf])]);
  ("HwPin", [ (* line 114 *)
    ("getFunctionNames", [MReturnAttr "functionNames"]);
    ("setFunctionNames", [MIfSome [MAssign "functionNames"]; MReturnSelf]);
    ("getPackagingPinName", [MReturnAttr "packagingPinName"]);
    ("setPackagingPinName", [MIfSome [MAssign "packagingPinName"]; MReturnSelf]);
    ("getPinNumber", [MReturnAttr "pinNumber"]);
    ("setPinNumber", [MIfSome [MAssign "pinNumber"]; MReturnSelf])]);
  ("HwPinGroupContent", [ (* line 188 *)
    ("getHwPin", [MReturnAttr "hwPin"]);
    ("getHwPinGroup", [MReturnAttr "hwPinGroup"]);
    ("setHwPinGroup", [MIfSome [MAssign "hwPinGroup"]; MReturnSelf])]);
  ("HwPinGroup", [ (* line 264 *)
    ("getHwPinGroupContent", [MReturnAttr "hwPinGroupContent"]);
    ("setHwPinGroupContent", [MIfSome [MAssign "hwPinGroupContent"]; MReturnSelf])]);
  ("HwPinConnector", [ (* line 318 *)
    ("getHwPinRefs", [MReturnAttr "hwPinRefs"])]);
  ("HwPinGroupConnector", [ (* line 362 *)
    ("getHwPinConnections", [MReturnAttr "hwPinConnections"]);
    ("getHwPinGroupRefs", [MReturnAttr "hwPinGroupRefs"])]);
  ("HwElementConnector", [ (* line 433 *)
    ("getHwElementRefs", [MReturnAttr "hwElementRefs"]);
    ("getHwPinConnections", [MReturnAttr "hwPinConnections"]);
    ("getHwPinGroupConnections", [MReturnAttr "hwPinGroupConnections"])]);
  ("HwElement", [ (* line 531 *)
    ("getHwElementConnections", [MReturnAttr "hwElementConnections"]);
    ("getHwPinGroups", [MReturnAttr "hwPinGroups"]);
    ("getNestedElementRefs", [MReturnAttr "nestedElementRefs"])]);
  (* models/M2/AUTOSARTemplates/GenericStructure/AbstractStructure.py *)
  ("AtpInstanceRef", [ (* line 13 *)
    ("getAtpBaseRef", [MReturnAttr "atpBaseRef"]);
    ("setAtpBaseRef", [MAssign "atpBaseRef"; MReturnSelf]);
    ("getAtpContextElementRefs", [MReturnAttr "atpContextElementRefs"]);
    ("getAtpTargetRef", [MReturnAttr "atpTargetRef"]);
    ("setAtpTargetRef", [MAssign "atpTargetRef"; MReturnSelf])]);
  (* models/M2/AUTOSARTemplates/GenericStructure/LifeCycles.py *)
  ("LifeCyclePeriod", [ (* line 15 *)
    ("getArReleaseVersion", [MReturnAttr "arReleaseVersion"]);
    ("setArReleaseVersion", [MIfSome [MAssign "arReleaseVersion"]; MReturnSelf]);
    ("getDate", [MReturnAttr "date"]);
    ("setDate", [MIfSome [MAssign "date"]; MReturnSelf]);
    ("getProductRelease", [MReturnAttr "productRelease"]);
    ("setProductRelease", [MIfSome [MAssign "productRelease"]; MReturnSelf])]);
  ("LifeCycleInfo", [ (* line 110 *)
    ("getLcObjectRef", [MReturnAttr "lcObjectRef"]);
    ("setLcObjectRef", [MIfSome [MAssign "lcObjectRef"]; MReturnSelf]);
    ("getLcStateRef", [MReturnAttr "lcStateRef"]);
    ("setLcStateRef", [MIfSome [MAssign "lcStateRef"]; MReturnSelf]);
    ("getPeriodBegin", [MReturnAttr "periodBegin"]);
    ("setPeriodBegin", [MIfSome [MAssign "periodBegin"]; MReturnSelf]);
    ("getPeriodEnd", [MReturnAttr "periodEnd"]);
    ("setPeriodEnd", [MIfSome [MAssign "periodEnd"]; MReturnSelf]);
    ("getRemark", [MReturnAttr "remark"]);
    ("setRemark", [MIfSome [MAssign "remark"]; MReturnSelf]);
    ("getUseInsteadRefs", [MReturnAttr "useInsteadRefs"])]);
  ("LifeCycleInfoSet", [ (* line 286 *)
    ("getDefaultLcStateRef", [MReturnAttr "defaultLcStateRef"]);
    ("setDefaultLcStateRef", [MIfSome [MAssign "defaultLcStateRef"]; MReturnSelf]);
    ("getDefaultPeriodBegin", [MReturnAttr "defaultPeriodBegin"]);
    ("setDefaultPeriodBegin", [MIfSome [MAssign "defaultPeriodBegin"]; MReturnSelf]);
    ("getDefaultPeriodEnd", [MReturnAttr "defaultPeriodEnd"]);
    ("setDefaultPeriodEnd", [MIfSome [MAssign "defaultPeriodEnd"]; MReturnSelf]);
    ("getLifeCycleInfos", [MReturnAttr "lifeCycleInfos"]);
    ("getUsedLifeCycleStateDefinitionGroupRef", [MReturnAttr "usedLifeCycleStateDefinitionGroupRef"]);
    ("setUsedLifeCycleStateDefinitionGroupRef", [MIfSome [MAssign "usedLifeCycleStateDefinitionGroupRef"]; MReturnSelf])]);
  (* models/M2/AUTOSARTemplates/GenericStructure/DocumentationOnM1/__init__.py *)
  ("Documentation", [ (* line 12 *)
    ("getContexts", [MReturnAttr "contexts"]);
    ("setDocumentationContent", [MIfSome [MAssign "documentationContent"]; MReturnSelf]);
    ("getDocumentationContent", [MReturnAttr "documentationContent"])]);
  ("DocumentationContext", [ (* line 81 *)
    ("setFeatureIRef", [MIfSome [MAssign "featureIRef"]; MReturnSelf]);
    ("getFeatureIRef", [MReturnAttr "featureIRef"]);
    ("setIdentifiableRef", [MIfSome [MAssign "identifiableRef"]; MReturnSelf]);
    ("getIdentifiableRef", [MReturnAttr "identifiableRef"])]);
  (* models/M2/AUTOSARTemplates/GenericStructure/GeneralTemplateClasses/ARPackage.py *)
  ("ReferenceBase", [ (* line 98 *)
    ("getGlobalElements", [MReturnAttr "globalElements"]);
    ("getGlobalInPackageRefs", [MReturnAttr "globalInPackageRefs"]);
    ("getIsDefault", [MReturnAttr "isDefault"]);
    ("setIsDefault", [MAssign "isDefault"; MReturnSelf]);
    ("getIsGlobal", [MReturnAttr "isGlobal"]);
    ("setIsGlobal", [MAssign "isGlobal"; MReturnSelf]);
    ("getBaseIsThisPackage", [MReturnAttr "BaseIsThisPackage"]);
    ("setBaseIsThisPackage", [MAssign "BaseIsThisPackage"; MReturnSelf]);
    ("getPackageRef", [MReturnAttr "packageRef"]);
    ("setPackageRef", [MAssign "packageRef"; MReturnSelf]);
    ("getShortLabel", [MReturnAttr "shortLabel"]);
    ("setShortLabel", [MAssign "shortLabel"; MReturnSelf])]);
  ("ARPackage", [ (* line 299 *)
    ("getShortName", [MReturnAttr "short_name"]);
    ("getParent", [MReturnAttr "parent"]);
    ("getFullName", [MOther]);
    ("getLongName", [MReturnAttr "longName"]);
    ("setLongName", [MAssign "longName"; MReturnSelf]);
    ("getAdminData", [MReturnAttr "adminData"]);
    ("setAdminData", [MIfSome [MAssign "adminData"]; MReturnSelf]);
    ("getDesc", [MReturnAttr "desc"]);
    ("setDesc", [MAssign "desc"; MReturnSelf]);
    ("getCategory", [MReturnAttr "category"]);
    ("setCategory", [MOther; MReturnSelf]);
    ("getIntroduction", [MReturnAttr "introduction"]);
    ("setIntroduction", [MAssign "introduction"; MReturnSelf]);
    ("getAnnotations", [MReturnAttr "annotations"]);
    ("getARPackages", [MOther]);
    ("getElement", [MOther]);
    ("getApplicationPrimitiveDataTypes", [MOther]);
    ("getApplicationDataType", [MOther]);
    ("getImplementationDataTypes", [MOther]);
    ("getSwBaseTypes", [MOther]);
    ("getSwComponentTypes", [MOther]);
    ("getSensorActuatorSwComponentType", [MOther]);
    ("getAtomicSwComponentTypes", [MOther]);
    ("getCompositionSwComponentTypes", [MOther]);
    ("getComplexDeviceDriverSwComponentTypes", [MOther]);
    ("getSenderReceiverInterfaces", [MOther]);
    ("getParameterInterfaces", [MOther]);
    ("getClientServerInterfaces", [MOther]);
    ("getDataTypeMappingSets", [MOther]);
    ("getCompuMethods", [MOther]);
    ("getBswModuleDescriptions", [MOther]);
    ("getBswModuleEntries", [MOther]);
    ("getBswImplementations", [MOther]);
    ("getSwcImplementations", [MOther]);
    ("getImplementations", [MOther]);
    ("getSwcBswMappings", [MOther]);
    ("getMcFunctions", [MOther]);
    ("getMcGroups", [MOther]);
    ("getConstantSpecifications", [MOther]);
    ("getDataConstrs", [MOther]);
    ("getUnits", [MOther]);
    ("getApplicationArrayDataTypes", [MOther]);
    ("getSwRecordLayouts", [MOther]);
    ("getSwAddrMethods", [MOther]);
    ("getTriggerInterfaces", [MOther]);
    ("getModeDeclarationGroups", [MOther]);
    ("getModeSwitchInterfaces", [MOther]);
    ("getSwcTimings", [MOther]);
    ("getLinClusters", [MOther]);
    ("getCanClusters", [MOther]);
    ("getLinUnconditionalFrames", [MOther]);
    ("getNmPdus", [MOther]);
    ("getNPdus", [MOther]);
    ("getDcmIPdus", [MOther]);
    ("getSecuredIPdus", [MOther]);
    ("getNmConfigs", [MOther]);
    ("getCanTpConfigs", [MOther]);
    ("getCanFrames", [MOther]);
    ("getEcuInstances", [MOther]);
    ("getGateways", [MOther]);
    ("getISignals", [MOther]);
    ("getEcucValueCollections", [MOther]);
    ("getEcucModuleConfigurationValues", [MOther]);
    ("getEcucModuleDefs", [MOther]);
    ("getEcucDefinitionCollections", [MOther]);
    ("getSwSystemConsts", [MOther]);
    ("getSwSystemconstantValueSets", [MOther]);
    ("getPredefinedVariants", [MOther]);
    ("getPostBuildVariantCriterions", [MOther]);
    ("getEcucPhysicalDimensions", [MOther]);
    ("getISignalGroups", [MOther]);
    ("getSystemSignals", [MOther]);
    ("getSystemSignalGroups", [MOther]);
    ("getISignalIPdus", [MOther]);
    ("getSystems", [MOther]);
    ("getHwElements", [MOther]);
    ("getHwCategories", [MOther]);
    ("getFlexrayFrames", [MOther]);
    ("getDataTransformationSets", [MOther]);
    ("getCollections", [MOther]);
    ("getKeywordSets", [MOther]);
    ("getPortPrototypeBlueprints", [MOther]);
    ("getModeDeclarationMappingSets", [MOther]);
    ("getReferenceBases", [MReturnAttr "referenceBases"])]);
  (* models/M2/AUTOSARTemplates/GenericStructure/GeneralTemplateClasses/AnyInstanceRef.py *)
  ("AnyInstanceRef", [ (* line 11 *)
    ("getBaseRef", [MReturnAttr "baseRef"]);
    ("setBaseRef", [MAssign "baseRef"; MReturnSelf]);
    ("getContextElementRefs", [MReturnAttr "contextElementRefs"]);
    ("getTargetRef", [MReturnAttr "targetRef"]);
    ("setTargetRef", [MAssign "targetRef"; MReturnSelf])]);
  (* models/M2/AUTOSARTemplates/GenericStructure/GeneralTemplateClasses/ArObject.py *)
  ("ARObject", [ (* line 10 *)
    ("getTagName", [MOther])]);
  (* models/M2/AUTOSARTemplates/GenericStructure/GeneralTemplateClasses/ElementCollection.py *)
  ("Collection", [ (* line 14 *)
    ("getAutoCollect", [MReturnAttr "autoCollect"]);
    ("setAutoCollect", [MIfSome [MAssign "autoCollect"]; MReturnSelf]);
    ("getCollectedInstances", [MReturnAttr "collectedInstances"]);
    ("setCollectedInstances", [MIfSome [MAssign "collectedInstances"]; MReturnSelf]);
    ("getCollectionSemantics", [MReturnAttr "collectionSemantics"]);
    ("setCollectionSemantics", [MIfSome [MAssign "collectionSemantics"]; MReturnSelf]);
    ("getElementRefs", [MReturnAttr "elementRefs"]);
    ("getElementRole", [MReturnAttr "elementRole"]);
    ("setElementRole", [MIfSome [MAssign "elementRole"]; MReturnSelf]);
    ("getSourceElementRefs", [MReturnAttr "sourceElementRefs"]);
    ("getSourceInstances", [MReturnAttr "sourceInstances"]);
    ("setSourceInstances", [MIfSome [MAssign "sourceInstances"]; MReturnSelf])]);
  (* models/M2/AUTOSARTemplates/GenericStructure/GeneralTemplateClasses/EngineeringObject.py *)
  ("EngineeringObject", [ (* line 12 *)
    ("getCategory", [MReturnAttr "category"]);
    ("setCategory", [MIfSome [MAssign "category"]; MReturnSelf]);
    ("getDomain", [MReturnAttr "domain"]);
    ("setDomain", [MIfSome [MAssign "domain"]; MReturnSelf]);
    ("getRevisionLabels", [MReturnAttr "revisionLabels"]);
    ("getShortLabel", [MReturnAttr "shortLabel"]);
    ("setShortLabel", [MIfSome [MAssign "shortLabel"]; MReturnSelf])]);
  (* models/M2/AUTOSARTemplates/GenericStructure/GeneralTemplateClasses/Identifiable.py *)
  ("Referrable", [ (* line 21 *)
    ("getShortName", [MReturnAttr "short_name"]);
    ("getParent", [MReturnAttr "parent"]);
    ("getFullName", [MOther]);
    ("getShortNameFragments", [MReturnAttr "shortNameFragments"])]);
  ("ShortNameFragment", [ (* line 116 *)
    ("getRole", [MReturnAttr "role"]);
    ("setRole", [MIfSome [MAssign "role"]; MReturnSelf]);
    ("getFragment", [MReturnAttr "fragment"]);
    ("setFragment", [MIfSome [MAssign "fragment"]; MReturnSelf])]);
  ("MultilanguageReferrable", [ (* line 186 *)
    ("getLongName", [MReturnAttr "longName"]);
    ("setLongName", [MAssign "longName"; MReturnSelf])]);
  ("CollectableElement", [ (* line 229 *)
    ("getTotalElement", [MOther]);
    ("getElements", [MReturnAttr "elements"]);
    ("getElement", [MOther])]);
  ("Identifiable", [ (* line 345 *)
    ("getTotalElement", [MOther]);
    ("getElements", [MReturnAttr "elements"]);
    ("getElement", [MOther]);
    ("getAdminData", [MReturnAttr "adminData"]);
    ("setAdminData", [MIfSome [MAssign "adminData"]; MReturnSelf]);
    ("getDesc", [MReturnAttr "desc"]);
    ("setDesc", [MAssign "desc"; MReturnSelf]);
    ("getVariationPoint", [MReturnAttr "variationPoint"]);
    ("setVariationPoint", [MIfSome [MAssign "variationPoint"]; MReturnSelf]);
    ("getCategory", [MReturnAttr "category"]);
    ("setCategory", [MOther; MReturnSelf]);
    ("getIntroduction", [MReturnAttr "introduction"]);
    ("setIntroduction", [MAssign "introduction"; MReturnSelf]);
    ("getAnnotations", [MReturnAttr "annotations"])]);
  ("Describable", [ (* line 654 *)
    ("getAdminData", [MReturnAttr "adminData"]);
    ("setAdminData", [MIfSome [MAssign "adminData"]; MReturnSelf]);
    ("getCategory", [MReturnAttr "category"]);
    ("setCategory", [MIfSome [MAssign "category"]; MReturnSelf]);
    ("getDesc", [MReturnAttr "desc"]);
    ("setDesc", [MIfSome [MAssign "desc"]; MReturnSelf]);
    ("getIntroduction", [MReturnAttr "introduction"]);
    ("setIntroduction", [MIfSome [MAssign "introduction"]; MReturnSelf])]);
  (* models/M2/AUTOSARTemplates/GenericStructure/GeneralTemplateClasses/MultidimensionalTime.py *)
  ("MultidimensionalTime", [ (* line 11 *)
    ("getCseCode", [MReturnAttr "cseCode"]);
    ("setCseCode", [MIfSome [MAssign "cseCode"]; MReturnSelf]);
    ("getCseCodeFactor", [MReturnAttr "cseCodeFactor"]);
    ("setCseCodeFactor", [MIfSome [MAssign "cseCodeFactor"]; MReturnSelf])]);
  (* models/M2/AUTOSARTemplates/GenericStructure/GeneralTemplateClasses/PrimitiveTypes.py *)
  ("ARType", [ (* line 12 *)
    ("getValue", [MOther]);
    ("setValue", [MIfSome [MOther]; MReturnSelf]);
    ("getText", [MOther])]);
  ("ARNumerical", [ (* line 74 *)
    ("getValue", [MOther]);
    ("setShortLabel", [MIfSome [MAssign "shortLabel"]; MReturnSelf]);
    ("getShortLabel", [MReturnAttr "shortLabel"])]);
  ("AREnum", [ (* line 298 *)
    ("getEnumValues", [MReturnAttr "enumValues"]);
    ("setEnumValues", [MAssign "enumValues"; MReturnSelf])]);
  ("Identifier", [ (* line 754 *)
    ("getBlueprintValue", [MReturnAttr "blueprintValue"]);
    ("setBlueprintValue", [MIfSome [MAssign "blueprintValue"]; MReturnSelf]);
    ("getNamePattern", [MReturnAttr "namePattern"]);
    ("setNamePattern", [MIfSome [MAssign "namePattern"]; MReturnSelf])]);
  ("CIdentifier", [ (* line 823 *)
    ("getBlueprintValue", [MReturnAttr "blueprintValue"]);
    ("setBlueprintValue", [MAssign "blueprintValue"; MReturnSelf]);
    ("getNamePattern", [MReturnAttr "namePattern"]);
    ("setNamePattern", [MAssign "namePattern"; MReturnSelf])]);
  ("Limit", [ (* line 938 *)
    ("getIntervalType", [MReturnAttr "intervalType"]);
    ("setIntervalType", [MIfSome [MAssign "intervalType"]; MReturnSelf]);
    ("getValue", [MReturnAttr "value"]);
    ("setValue", [MIfSome [MAssign "value"]; MReturnSelf])]);
  ("RefType", [ (* line 1009 *)
    ("getBase", [MReturnAttr "base"]);
    ("setBase", [MAssign "base"; MReturnSelf]);
    ("getDest", [MReturnAttr "dest"]);
    ("setDest", [MAssign "dest"; MReturnSelf]);
    ("getValue", [MReturnAttr "value"]);
    ("setValue", [MAssign "value"; MReturnSelf]);
    ("getShortValue", [MOther; MOther; MOther; MReturnAttr "value"])]);
  (* models/M2/AUTOSARTemplates/GenericStructure/VariantHandling/__init__.py *)
  ("PostBuildVariantCriterion", [ (* line 18 *)
    ("getCompuMethodRef", [MReturnAttr "compuMethodRef"]);
    ("setCompuMethodRef", [MIfSome [MAssign "compuMethodRef"]; MReturnSelf])]);
  ("PostBuildVariantCriterionValue", [ (* line 65 *)
    ("getAnnotations", [MReturnAttr "annotations"]);
    ("getValue", [MReturnAttr "value"]);
    ("setValue", [MIfSome [MAssign "value"]; MReturnSelf]);
    ("getVariantCriterionRef", [MReturnAttr "variantCriterionRef"]);
    ("setVariantCriterionRef", [MIfSome [MAssign "variantCriterionRef"]; MReturnSelf])]);
  ("PredefinedVariant", [ (* line 153 *)
    ("getIncludedVariantRefs", [MReturnAttr "includedVariantRefs"]);
    ("getPostBuildVariantCriterionValueSetRefs", [MReturnAttr "postBuildVariantCriterionValueSetRefs"]);
    ("getSwSystemconstantValueSetRefs", [MReturnAttr "swSystemconstantValueSetRefs"])]);
  ("SwSystemconstValue", [ (* line 209 *)
    ("getAnnotations", [MReturnAttr "annotations"]);
    ("getSwSystemconstRef", [MReturnAttr "swSystemconstRef"]);
    ("setSwSystemconstRef", [MIfSome [MAssign "swSystemconstRef"]; MReturnSelf]);
    ("getValue", [MReturnAttr "value"]);
    ("setValue", [MIfSome [MAssign "value"]; MReturnSelf])]);
  ("SwSystemconstantValueSet", [ (* line 275 *)
    ("getSwSystemconstantValues", [MReturnAttr "swSystemconstantValues"])]);
  ("PostBuildVariantCondition", [ (* line 312 *)
    ("getMatchingCriterionRef", [MReturnAttr "matchingCriterionRef"]);
    ("setMatchingCriterionRef", [MIfSome [MAssign "matchingCriterionRef"]; MReturnSelf]);
    ("getValue", [MReturnAttr "value"]);
    ("setValue", [MIfSome [MAssign "value"]; MReturnSelf])]);
  ("ConditionByFormula", [ (* line 384 *)
    ("getBindingTime", [MReturnAttr "bindingTime"]);
    ("setBindingTime", [MIfSome [MAssign "bindingTime"]; MReturnSelf])]);
  ("VariationPoint", [ (* line 434 *)
    ("getBlueprintCondition", [MReturnAttr "blueprintCondition"]);
    ("setBlueprintCondition", [MIfSome [MAssign "blueprintCondition"]; MReturnSelf]);
    ("getDesc", [MReturnAttr "desc"]);
    ("setDesc", [MIfSome [MAssign "desc"]; MReturnSelf]);
    ("getFormalBlueprintGenerator", [MReturnAttr "formalBlueprintGenerator"]);
    ("setFormalBlueprintGenerator", [MIfSome [MAssign "formalBlueprintGenerator"]; MReturnSelf]);
    ("getPostBuildVariantConditions", [MReturnAttr "postBuildVariantConditions"]);
    ("getSdg", [MReturnAttr "sdg"]);
    ("setSdg", [MIfSome [MAssign "sdg"]; MReturnSelf]);
    ("getShortLabel", [MReturnAttr "shortLabel"]);
    ("setShortLabel", [MIfSome [MAssign "shortLabel"]; MReturnSelf]);
    ("getSwSyscond", [MReturnAttr "swSyscond"]);
    ("setSwSyscond", [MIfSome [MAssign "swSyscond"]; MReturnSelf])]);
  (* models/M2/AUTOSARTemplates/GenericStructure/VariantHandling/AttributeValueVariationPoints/__init__.py *)
  ("AttributeValueVariationPoint", [ (* line 15 *)
    ("getBindingTime", [MReturnAttr "bindingTime"]);
    ("setBindingTime", [MIfSome [MAssign "bindingTime"]; MReturnSelf]);
    ("getBlueprintValue", [MReturnAttr "blueprintValue"]);
    ("setBlueprintValue", [MIfSome [MAssign "blueprintValue"]; MReturnSelf]);
    ("getSd", [MReturnAttr "sd"]);
    ("setSd", [MIfSome [MAssign "sd"]; MReturnSelf]);
    ("getShortLabel", [MReturnAttr "shortLabel"]);
    ("setShortLabel", [MIfSome [MAssign "shortLabel"]; MReturnSelf]);
    ("getText", [MReturnAttr "_text"]);
    ("setText", [MIfSome [MAssign "_text"]; MReturnSelf])]);
  ("LimitValueVariationPoint", [ (* line 174 *)
    ("getIntervalType", [MReturnAttr "intervalType"]);
    ("setIntervalType", [MIfSome [MAssign "intervalType"]; MReturnSelf])]);
  (* models/M2/AUTOSARTemplates/SWComponentTemplate/Communication.py *)
  ("ReceptionComSpecProps", [ (* line 76 *)
    ("getDataUpdatePeriod", [MReturnAttr "dataUpdatePeriod"]);
    ("setDataUpdatePeriod", [MIfSome [MAssign "dataUpdatePeriod"]; MReturnSelf]);
    ("getTimeout", [MReturnAttr "timeout"]);
    ("setTimeout", [MIfSome [MAssign "timeout"]; MReturnSelf])]);
  ("CompositeNetworkRepresentation", [ (* line 156 *)
    ("getLeafElementIRef", [MReturnAttr "leafElementIRef"]);
    ("setLeafElementIRef", [MIfSome [MAssign "leafElementIRef"]; MReturnSelf]);
    ("getNetworkRepresentation", [MReturnAttr "networkRepresentation"]);
    ("setNetworkRepresentation", [MIfSome [MAssign "networkRepresentation"]; MReturnSelf; MAssign "networkRepresentation"; MReturnSelf])]);
  ("TransmissionComSpecProps", [ (* line 269 *)
    ("getDataUpdatePeriod", [MReturnAttr "dataUpdatePeriod"]);
    ("setDataUpdatePeriod", [MIfSome [MAssign "dataUpdatePeriod"]; MReturnSelf]);
    ("getMinimumSendInterval", [MReturnAttr "minimumSendInterval"]);
    ("setMinimumSendInterval", [MIfSome [MAssign "minimumSendInterval"]; MReturnSelf]);
    ("getTransmissionMode", [MReturnAttr "transmissionMode"]);
    ("setTransmissionMode", [MIfSome [MAssign "transmissionMode"]; MReturnSelf])]);
  ("TransmissionAcknowledgementRequest", [ (* line 344 *)
    ("getTimeout", [MReturnAttr "timeout"]);
    ("setTimeout", [MIfSome [MAssign "timeout"]; MReturnSelf])]);
  ("SenderComSpec", [ (* line 379 *)
    ("getCompositeNetworkRepresentations", [MReturnAttr "compositeNetworkRepresentations"]);
    ("getDataElementRef", [MReturnAttr "dataElementRef"]);
    ("setDataElementRef", [MIfSome [MAssign "dataElementRef"]; MReturnSelf]);
    ("getHandleOutOfRange", [MReturnAttr "handleOutOfRange"]);
    ("setHandleOutOfRange", [MIfSome [MAssign "handleOutOfRange"]; MReturnSelf]);
    ("getNetworkRepresentation", [MReturnAttr "networkRepresentation"]);
    ("setNetworkRepresentation", [MIfSome [MAssign "networkRepresentation"]; MReturnSelf]);
    ("getTransmissionAcknowledge", [MReturnAttr "transmissionAcknowledge"]);
    ("setTransmissionAcknowledge", [MIfSome [MAssign "transmissionAcknowledge"]; MReturnSelf]);
    ("getTransmissionProps", [MReturnAttr "transmissionProps"]);
    ("setTransmissionProps", [MIfSome [MAssign "transmissionProps"]; MReturnSelf]);
    ("getUsesEndToEndProtection", [MReturnAttr "usesEndToEndProtection"]);
    ("setUsesEndToEndProtection", [MIfSome [MAssign "usesEndToEndProtection"]; MReturnSelf])]);
  ("NonqueuedSenderComSpec", [ (* line 550 *)
    ("getDataFilter", [MReturnAttr "dataFilter"]);
    ("setDataFilter", [MIfSome [MAssign "dataFilter"]; MReturnSelf]);
    ("getInitValue", [MReturnAttr "initValue"]);
    ("setInitValue", [MIfSome [MAssign "initValue"]; MReturnSelf])]);
  ("ClientComSpec", [ (* line 605 *)
    ("getEndToEndCallResponseTimeout", [MReturnAttr "endToEndCallResponseTimeout"]);
    ("setEndToEndCallResponseTimeout", [MIfSome [MAssign "endToEndCallResponseTimeout"]; MReturnSelf]);
    ("getOperationRef", [MReturnAttr "operationRef"]);
    ("setOperationRef", [MIfSome [MAssign "operationRef"]; MReturnSelf]);
    ("getTransformationComSpecProps", [MReturnAttr "transformationComSpecProps"])]);
  ("ModeSwitchReceiverComSpec", [ (* line 680 *)
    ("getEnhancedModeApi", [MReturnAttr "enhancedModeApi"]);
    ("setEnhancedModeApi", [MAssign "enhancedModeApi"; MReturnSelf]);
    ("getModeGroupRef", [MReturnAttr "modeGroupRef"]);
    ("setModeGroupRef", [MAssign "modeGroupRef"; MReturnSelf]);
    ("getSupportsAsynchronousModeSwitch", [MReturnAttr "supportsAsynchronousModeSwitch"]);
    ("setSupportsAsynchronousModeSwitch", [MAssign "supportsAsynchronousModeSwitch"; MReturnSelf])]);
  ("NvRequireComSpec", [ (* line 771 *)
    ("getInitValue", [MReturnAttr "initValue"]);
    ("setInitValue", [MIfSome [MAssign "initValue"]; MReturnSelf]);
    ("getVariableRef", [MReturnAttr "variableRef"]);
    ("setVariableRef", [MIfSome [MAssign "variableRef"]; MReturnSelf])]);
  ("ParameterRequireComSpec", [ (* line 839 *)
    ("getInitValue", [MReturnAttr "initValue"]);
    ("setInitValue", [MAssign "initValue"; MReturnSelf]);
    ("getParameterRef", [MReturnAttr "parameterRef"]);
    ("setParameterRef", [MAssign "parameterRef"; MReturnSelf])]);
  ("ReceiverComSpec", [ (* line 905 *)
    ("getCompositeNetworkRepresentations", [MReturnAttr "compositeNetworkRepresentations"]);
    ("getDataElementRef", [MReturnAttr "dataElementRef"]);
    ("setDataElementRef", [MIfSome [MAssign "dataElementRef"]; MReturnSelf]);
    ("getHandleOutOfRange", [MReturnAttr "handleOutOfRange"]);
    ("setHandleOutOfRange", [MIfSome [MAssign "handleOutOfRange"]; MReturnSelf]);
    ("getHandleOutOfRangeStatus", [MReturnAttr "handleOutOfRangeStatus"]);
    ("setHandleOutOfRangeStatus", [MIfSome [MAssign "handleOutOfRangeStatus"]; MReturnSelf]);
    ("getMaxDeltaCounterInit", [MReturnAttr "maxDeltaCounterInit"]);
    ("setMaxDeltaCounterInit", [MIfSome [MAssign "maxDeltaCounterInit"]; MReturnSelf]);
    ("getMaxNoNewOrRepeatedData", [MReturnAttr "maxNoNewOrRepeatedData"]);
    ("setMaxNoNewOrRepeatedData", [MIfSome [MAssign "maxNoNewOrRepeatedData"]; MReturnSelf]);
    ("getNetworkRepresentation", [MReturnAttr "networkRepresentation"]);
    ("setNetworkRepresentation", [MIfSome [MAssign "networkRepresentation"]; MReturnSelf]);
    ("getReceptionProps", [MReturnAttr "receptionProps"]);
    ("setReceptionProps", [MIfSome [MAssign "receptionProps"]; MReturnSelf]);
    ("getReplaceWith", [MReturnAttr "replaceWith"]);
    ("setReplaceWith", [MIfSome [MAssign "replaceWith"]; MReturnSelf]);
    ("getSyncCounterInit", [MReturnAttr "syncCounterInit"]);
    ("setSyncCounterInit", [MIfSome [MAssign "syncCounterInit"]; MReturnSelf]);
    ("getTransformationComSpecProps", [MReturnAttr "transformationComSpecProps"]);
    ("getUsesEndToEndProtection", [MReturnAttr "usesEndToEndProtection"]);
    ("setUsesEndToEndProtection", [MIfSome [MAssign "usesEndToEndProtection"]; MReturnSelf])]);
  ("ModeSwitchedAckRequest", [ (* line 1162 *)
    ("getTimeout", [MReturnAttr "timeout"]);
    ("setTimeout", [MIfSome [MAssign "timeout"]; MReturnSelf])]);
  ("ModeSwitchSenderComSpec", [ (* line 1202 *)
    ("getEnhancedModeApi", [MReturnAttr "enhancedModeApi"]);
    ("setEnhancedModeApi", [MAssign "enhancedModeApi"; MReturnSelf]);
    ("getModeGroupRef", [MReturnAttr "modeGroupRef"]);
    ("setModeGroupRef", [MAssign "modeGroupRef"; MReturnSelf]);
    ("getModeSwitchedAck", [MReturnAttr "modeSwitchedAck"]);
    ("setModeSwitchedAck", [MAssign "modeSwitchedAck"; MReturnSelf]);
    ("getQueueLength", [MReturnAttr "queueLength"]);
    ("setQueueLength", [MAssign "queueLength"; MReturnSelf])]);
  ("ParameterProvideComSpec", [ (* line 1319 *)
    ("getInitValue", [MReturnAttr "initValue"]);
    ("setInitValue", [MIfSome [MAssign "initValue"]; MReturnSelf]);
    ("getParameterRef", [MReturnAttr "parameterRef"]);
    ("setParameterRef", [MIfSome [MAssign "parameterRef"]; MReturnSelf])]);
  ("ServerComSpec", [ (* line 1405 *)
    ("getOperationRef", [MReturnAttr "operationRef"]);
    ("setOperationRef", [MIfSome [MAssign "operationRef"]; MReturnSelf]);
    ("getQueueLength", [MReturnAttr "queueLength"]);
    ("setQueueLength", [MIfSome [MAssign "queueLength"]; MReturnSelf]);
    ("getTransformationComSpecProps", [MReturnAttr "transformationComSpecProps"])]);
  ("NvProvideComSpec", [ (* line 1480 *)
    ("getRamBlockInitValue", [MReturnAttr "ramBlockInitValue"]);
    ("setRamBlockInitValue", [MIfSome [MAssign "ramBlockInitValue"]; MReturnSelf]);
    ("getRomBlockInitValue", [MReturnAttr "romBlockInitValue"]);
    ("setRomBlockInitValue", [MIfSome [MAssign "romBlockInitValue"]; MReturnSelf]);
    ("getVariableRef", [MReturnAttr "variableRef"]);
    ("setVariableRef", [MIfSome [MAssign "variableRef"]; MReturnSelf])]);
  ("NonqueuedReceiverComSpec", [ (* line 1575 *)
    ("getAliveTimeout", [MReturnAttr "aliveTimeout"]);
    ("setAliveTimeout", [MIfSome [MAssign "aliveTimeout"]; MReturnSelf]);
    ("getEnableUpdate", [MReturnAttr "enableUpdate"]);
    ("setEnableUpdate", [MIfSome [MAssign "enableUpdate"]; MReturnSelf]);
    ("getFilter", [MReturnAttr "filter"]);
    ("setFilter", [MIfSome [MAssign "filter"]; MReturnSelf]);
    ("getHandleDataStatus", [MReturnAttr "handleDataStatus"]);
    ("setHandleDataStatus", [MIfSome [MAssign "handleDataStatus"]; MReturnSelf]);
    ("getHandleNeverReceived", [MReturnAttr "handleNeverReceived"]);
    ("setHandleNeverReceived", [MIfSome [MAssign "handleNeverReceived"]; MReturnSelf]);
    ("getHandleTimeoutType", [MReturnAttr "handleTimeoutType"]);
    ("setHandleTimeoutType", [MIfSome [MAssign "handleTimeoutType"]; MReturnSelf]);
    ("getInitValue", [MReturnAttr "initValue"]);
    ("setInitValue", [MIfSome [MAssign "initValue"]; MReturnSelf]);
    ("getTimeoutSubstitutionValue", [MReturnAttr "timeoutSubstitutionValue"]);
    ("setTimeoutSubstitutionValue", [MIfSome [MAssign "timeoutSubstitutionValue"]; MReturnSelf])]);
  ("QueuedReceiverComSpec", [ (* line 1750 *)
    ("getQueueLength", [MReturnAttr "queueLength"]);
    ("setQueueLength", [MAssign "queueLength"; MReturnSelf])]);
  (* models/M2/AUTOSARTemplates/SWComponentTemplate/EndToEndProtection.py *)
  ("EndToEndDescription", [ (* line 15 *)
    ("getCategory", [MReturnAttr "category"]);
    ("setCategory", [MAssign "category"; MReturnSelf]);
    ("getCounterOffset", [MReturnAttr "counterOffset"]);
    ("setCounterOffset", [MAssign "counterOffset"; MReturnSelf]);
    ("getCrcOffset", [MReturnAttr "crcOffset"]);
    ("setCrcOffset", [MAssign "crcOffset"; MReturnSelf]);
    ("getDataIds", [MReturnAttr "dataIds"]);
    ("getDataIdMode", [MReturnAttr "dataIdMode"]);
    ("setDataIdMode", [MAssign "dataIdMode"; MReturnSelf]);
    ("getDataIdNibbleOffset", [MReturnAttr "dataIdNibbleOffset"]);
    ("setDataIdNibbleOffset", [MAssign "dataIdNibbleOffset"; MReturnSelf]);
    ("getDataLength", [MReturnAttr "dataLength"]);
    ("setDataLength", [MAssign "dataLength"; MReturnSelf]);
    ("getMaxDeltaCounterInit", [MReturnAttr "maxDeltaCounterInit"]);
    ("setMaxDeltaCounterInit", [MAssign "maxDeltaCounterInit"; MReturnSelf]);
    ("getMaxNoNewOrRepeatedData", [MReturnAttr "maxNoNewOrRepeatedData"]);
    ("setMaxNoNewOrRepeatedData", [MAssign "maxNoNewOrRepeatedData"; MReturnSelf]);
    ("getSyncCounterInit", [MReturnAttr "syncCounterInit"]);
    ("setSyncCounterInit", [MAssign "syncCounterInit"; MReturnSelf])]);
  ("EndToEndProtectionVariablePrototype", [ (* line 280 *)
    ("getReceiverIrefs", [MReturnAttr "_receiverIRefs"])]);
  ("EndToEndProtectionISignalIPdu", [ (* line 318 *)
    ("getDataOffset", [MReturnAttr "dataOffset"]);
    ("setDataOffset", [MAssign "dataOffset"; MReturnSelf]);
    ("getISignalGroupRef", [MReturnAttr "iSignalGroupRef"]);
    ("setISignalGroupRef", [MAssign "iSignalGroupRef"; MReturnSelf]);
    ("getISignalIPduRef", [MReturnAttr "iSignalIPduRef"]);
    ("setISignalIPduRef", [MAssign "iSignalIPduRef"; MReturnSelf])]);
  ("EndToEndProtection", [ (* line 407 *)
    ("getEndToEndProfile", [MReturnAttr "endToEndProfile"]);
    ("setEndToEndProfile", [MIfSome [MAssign "endToEndProfile"]; MReturnSelf]);
    ("getEndToEndProtectionISignalIPdus", [MReturnAttr "endToEndProtectionISignalIPdus"]);
    ("getEndToEndProtectionVariablePrototypes", [MReturnAttr "endToEndProtectionVariablePrototypes"])]);
  ("EndToEndProtectionSet", [ (* line 499 *)
    ("getEndToEndProtections", [MOther])]);
  (* models/M2/AUTOSARTemplates/SWComponentTemplate/NvBlockComponent.py *)
  ("NvBlockDataMapping", [ (* line 13 *)
    ("getBitfieldTextTableMaskNvBlockDescriptor", [MReturnAttr "bitfieldTextTableMaskNvBlockDescriptor"]);
    ("setBitfieldTextTableMaskNvBlockDescriptor", [MIfSome [MAssign "bitfieldTextTableMaskNvBlockDescriptor"]; MReturnSelf]);
    ("getBitfieldTextTableMaskPortPrototype", [MReturnAttr "bitfieldTextTableMaskPortPrototype"]);
    ("setBitfieldTextTableMaskPortPrototype", [MIfSome [MAssign "bitfieldTextTableMaskPortPrototype"]; MReturnSelf]);
    ("getNvRamBlockElement", [MReturnAttr "nvRamBlockElement"]);
    ("setNvRamBlockElement", [MIfSome [MAssign "nvRamBlockElement"]; MReturnSelf]);
    ("getReadNvData", [MReturnAttr "readNvData"]);
    ("setReadNvData", [MIfSome [MAssign "readNvData"]; MReturnSelf]);
    ("getWrittenNvData", [MReturnAttr "writtenNvData"]);
    ("setWrittenNvData", [MIfSome [MAssign "writtenNvData"]; MReturnSelf]);
    ("getWrittenReadNvData", [MReturnAttr "writtenReadNvData"]);
    ("setWrittenReadNvData", [MIfSome [MAssign "writtenReadNvData"]; MReturnSelf])]);
  ("BulkNvDataDescriptor", [ (* line 225 *)
    ("getBulkNvBlock", [MReturnAttr "bulkNvBlock"]);
    ("setBulkNvBlock", [MIfSome [MAssign "bulkNvBlock"]; MReturnSelf]);
    ("getNvBlockDataMappings", [MReturnAttr "nvBlockDataMappings"])]);
  ("NvBlockDescriptor", [ (* line 305 *)
    ("getClientServerPorts", [MReturnAttr "clientServerPorts"]);
    ("getConstantValueMappingRefs", [MReturnAttr "constantValueMappingRefs"]);
    ("getDataTypeMappingRefs", [MReturnAttr "dataTypeMappingRefs"]);
    ("getInstantiationDataDefPropss", [MReturnAttr "instantiationDataDefPropss"]);
    ("getModeSwitchEventTriggeredActivitys", [MReturnAttr "modeSwitchEventTriggeredActivitys"]);
    ("getNvBlockDataMappings", [MReturnAttr "nvBlockDataMappings"]);
    ("getNvBlockNeeds", [MReturnAttr "nvBlockNeeds"]);
    ("setNvBlockNeeds", [MIfSome [MAssign "nvBlockNeeds"]; MReturnSelf]);
    ("getRamBlock", [MReturnAttr "ramBlock"]);
    ("setRamBlock", [MIfSome [MAssign "ramBlock"]; MReturnSelf]);
    ("getRomBlock", [MReturnAttr "romBlock"]);
    ("setRomBlock", [MIfSome [MAssign "romBlock"]; MReturnSelf]);
    ("getSupportDirtyFlag", [MReturnAttr "supportDirtyFlag"]);
    ("setSupportDirtyFlag", [MIfSome [MAssign "supportDirtyFlag"]; MReturnSelf]);
    ("getTimingEventRef", [MReturnAttr "timingEventRef"]);
    ("setTimingEventRef", [MIfSome [MAssign "timingEventRef"]; MReturnSelf]);
    ("getWritingStrategies", [MReturnAttr "writingStrategies"])]);
  ("ModeSwitchEventTriggeredActivity", [ (* line 715 *)
    ("getRole", [MReturnAttr "role"]);
    ("setRole", [MIfSome [MAssign "role"]; MReturnSelf]);
    ("getSwcModeSwitchEventRef", [MReturnAttr "swcModeSwitchEventRef"]);
    ("setSwcModeSwitchEventRef", [MIfSome [MAssign "swcModeSwitchEventRef"]; MReturnSelf])]);
  (* models/M2/AUTOSARTemplates/SWComponentTemplate/RPTScenario.py *)
  ("RptImplPolicy", [ (* line 67 *)
    ("getRptEnablerImplType", [MReturnAttr "rptEnablerImplType"]);
    ("setRptEnablerImplType", [MIfSome [MAssign "rptEnablerImplType"]; MReturnSelf]);
    ("getRptPreparationLevel", [MReturnAttr "rptPreparationLevel"]);
    ("setRptPreparationLevel", [MIfSome [MAssign "rptPreparationLevel"]; MReturnSelf])]);
  ("RptExecutableEntityProperties", [ (* line 142 *)
    ("getMaxRptEventId", [MReturnAttr "maxRptEventId"]);
    ("setMaxRptEventId", [MIfSome [MAssign "maxRptEventId"]; MReturnSelf]);
    ("getMinRptEventId", [MReturnAttr "minRptEventId"]);
    ("setMinRptEventId", [MIfSome [MAssign "minRptEventId"]; MReturnSelf]);
    ("getRptExecutionControl", [MReturnAttr "rptExecutionControl"]);
    ("setRptExecutionControl", [MIfSome [MAssign "rptExecutionControl"]; MReturnSelf]);
    ("getRptServicePoint", [MReturnAttr "rptServicePoint"]);
    ("setRptServicePoint", [MIfSome [MAssign "rptServicePoint"]; MReturnSelf])]);
  (* models/M2/AUTOSARTemplates/SWComponentTemplate/SoftwareComponentDocumentation.py *)
  ("SwComponentDocumentation", [ (* line 18 *)
    ("getChapters", [MReturnAttr "chapters"]);
    ("getSwCalibrationNotes", [MReturnAttr "swCalibrationNotes"]);
    ("getSwCarbDoc", [MReturnAttr "swCarbDoc"]);
    ("getSwDiagnosticsNotes", [MReturnAttr "swDiagnosticsNotes"]);
    ("getSwFeatureDef", [MReturnAttr "swFeatureDef"]);
    ("getSwFeatureDesc", [MReturnAttr "swFeatureDesc"]);
    ("getSwMaintenanceNotes", [MReturnAttr "swMaintenanceNotes"]);
    ("getSwTestDesc", [MReturnAttr "swTestDesc"])]);
  (* models/M2/AUTOSARTemplates/SWComponentTemplate/SwComponentType.py *)
  ("SwComponentType", [ (* line 30 *)
    ("getConsistencyNeeds", [MReturnAttr "consistencyNeeds"]);
    ("getPorts", [MReturnAttr "ports"]);
    ("getPPortPrototypes", [MOther]);
    ("getRPortPrototypes", [MOther]);
    ("getPRPortPrototypes", [MOther]);
    ("getPortPrototypes", [MOther]);
    ("getPortGroups", [MReturnAttr "portGroups"]);
    ("getSwcMappingConstraintsRefs", [MReturnAttr "swcMappingConstraintsRefs"]);
    ("getSwComponentDocumentation", [MReturnAttr "swComponentDocumentation"]);
    ("setSwComponentDocumentation", [MIfSome [MAssign "swComponentDocumentation"]; MReturnSelf]);
    ("getUnitGroupRefs", [MReturnAttr "unitGroupRefs"])]);
  (* models/M2/AUTOSARTemplates/SWComponentTemplate/SwcImplementation.py *)
  ("SwcImplementation", [ (* line 11 *)
    ("getBehaviorRef", [MReturnAttr "behaviorRef"]);
    ("setBehaviorRef", [MAssign "behaviorRef"; MReturnSelf]);
    ("getPerInstanceMemorySizes", [MReturnAttr "perInstanceMemorySizes"]);
    ("getRequiredRTEVendor", [MReturnAttr "requiredRTEVendor"]);
    ("setRequiredRTEVendor", [MAssign "requiredRTEVendor"; MReturnSelf])]);
  (* models/M2/AUTOSARTemplates/SWComponentTemplate/ApplicationAttributes/__init__.py *)
  ("SenderReceiverAnnotation", [ (* line 148 *)
    ("getComputed", [MReturnAttr "computed"]);
    ("setComputed", [MIfSome [MAssign "computed"]; MReturnSelf]);
    ("getDataElementRef", [MReturnAttr "dataElementRef"]);
    ("setDataElementRef", [MIfSome [MAssign "dataElementRef"]; MReturnSelf]);
    ("getLimitKind", [MReturnAttr "limitKind"]);
    ("setLimitKind", [MIfSome [MAssign "limitKind"]; MReturnSelf]);
    ("getProcessingKind", [MReturnAttr "processingKind"]);
    ("setProcessingKind", [MIfSome [MAssign "processingKind"]; MReturnSelf])]);
  ("ClientServerAnnotation", [ (* line 278 *)
    ("getOperationRef", [MReturnAttr "operationRef"]);
    ("setOperationRef", [MIfSome [MAssign "operationRef"]; MReturnSelf])]);
  ("IoHwAbstractionServerAnnotation", [ (* line 321 *)
    ("getFilteringDebouncing", [MReturnAttr "filteringDebouncing"]);
    ("setFilteringDebouncing", [MIfSome [MAssign "filteringDebouncing"]; MReturnSelf]);
    ("getPulseTest", [MReturnAttr "pulseTest"]);
    ("setPulseTest", [MIfSome [MAssign "pulseTest"]; MReturnSelf]);
    ("getTriggerRef", [MReturnAttr "triggerRef"]);
    ("setTriggerRef", [MIfSome [MAssign "triggerRef"]; MReturnSelf])]);
  ("ModePortAnnotation", [ (* line 422 *)
    ("getModeGroupRef", [MReturnAttr "modeGroupRef"]);
    ("setModeGroupRef", [MIfSome [MAssign "modeGroupRef"]; MReturnSelf])]);
  ("NvDataPortAnnotation", [ (* line 465 *)
    ("getVariableRef", [MReturnAttr "variableRef"]);
    ("setVariableRef", [MIfSome [MAssign "variableRef"]; MReturnSelf])]);
  ("ParameterPortAnnotation", [ (* line 508 *)
    ("getParameterRef", [MReturnAttr "parameterRef"]);
    ("setParameterRef", [MIfSome [MAssign "parameterRef"]; MReturnSelf])]);
  ("TriggerPortAnnotation", [ (* line 551 *)
    ("getTriggerRef", [MReturnAttr "triggerRef"]);
    ("setTriggerRef", [MIfSome [MAssign "triggerRef"]; MReturnSelf])]);
  ("DelegatedPortAnnotation", [ (* line 594 *)
    ("getSignalFan", [MReturnAttr "signalFan"]);
    ("setSignalFan", [MIfSome [MAssign "signalFan"]; MReturnSelf])]);
  (* models/M2/AUTOSARTemplates/SWComponentTemplate/Components/InstanceRefs.py *)
  ("ModeGroupInAtomicSwcInstanceRef", [ (* line 14 *)
    ("getBaseRef", [MReturnAttr "baseRef"]);
    ("setBaseRef", [MAssign "baseRef"; MReturnSelf]);
    ("getContextPortRef", [MReturnAttr "contextPortRef"]);
    ("setContextPortRef", [MAssign "contextPortRef"; MReturnSelf]);
    ("getTargetRef", [MReturnAttr "targetRef"]);
    ("setTargetRef", [MAssign "targetRef"; MReturnSelf])]);
  ("PModeGroupInAtomicSwcInstanceRef", [ (* line 62 *)
    ("getContextPPortRef", [MReturnAttr "contextPPortRef"]);
    ("setContextPPortRef", [MAssign "contextPPortRef"; MReturnSelf]);
    ("getTargetModeGroupRef", [MReturnAttr "targetModeGroupRef"]);
    ("setTargetModeGroupRef", [MAssign "targetModeGroupRef"; MReturnSelf])]);
  ("RModeGroupInAtomicSWCInstanceRef", [ (* line 96 *)
    ("getContextRPortRef", [MReturnAttr "contextRPortRef"]);
    ("setContextRPortRef", [MAssign "contextRPortRef"; MReturnSelf]);
    ("getTargetModeGroupRef", [MReturnAttr "targetModeGroupRef"]);
    ("setTargetModeGroupRef", [MAssign "targetModeGroupRef"; MReturnSelf])]);
  ("RModeInAtomicSwcInstanceRef", [ (* line 130 *)
    ("getBaseRef", [MReturnAttr "baseRef"]);
    ("setBaseRef", [MAssign "baseRef"; MReturnSelf]);
    ("getContextModeDeclarationGroupPrototypeRef", [MReturnAttr "contextModeDeclarationGroupPrototypeRef"]);
    ("setContextModeDeclarationGroupPrototypeRef", [MAssign "contextModeDeclarationGroupPrototypeRef"; MReturnSelf]);
    ("getContextPortRef", [MReturnAttr "contextPortRef"]);
    ("setContextPortRef", [MAssign "contextPortRef"; MReturnSelf]);
    ("getTargetModeDeclarationRef", [MReturnAttr "targetModeDeclarationRef"]);
    ("setTargetModeDeclarationRef", [MAssign "targetModeDeclarationRef"; MReturnSelf])]);
  ("TriggerInAtomicSwcInstanceRef", [ (* line 184 *)
    ("getBaseRef", [MReturnAttr "baseRef"]);
    ("setBaseRef", [MIfSome [MAssign "baseRef"]; MReturnSelf]);
    ("getContextPortRef", [MReturnAttr "contextPortRef"]);
    ("setContextPortRef", [MIfSome [MAssign "contextPortRef"]; MReturnSelf]);
    ("getTargetRef", [MReturnAttr "targetRef"]);
    ("setTargetRef", [MIfSome [MAssign "targetRef"]; MReturnSelf])]);
  ("PTriggerInAtomicSwcTypeInstanceRef", [ (* line 301 *)
    ("getContextPPortRef", [MReturnAttr "contextPPortRef"]);
    ("setContextPPortRef", [MIfSome [MAssign "contextPPortRef"]; MReturnSelf]);
    ("getTargetTriggerRef", [MReturnAttr "targetTriggerRef"]);
    ("setTargetTriggerRef", [MIfSome [MAssign "targetTriggerRef"]; MReturnSelf])]);
  ("RVariableInAtomicSwcInstanceRef", [ (* line 399 *)
    ("getContextRPortRef", [MReturnAttr "contextRPortRef"]);
    ("setContextRPortRef", [MAssign "contextRPortRef"; MReturnSelf]);
    ("getTargetDataElementRef", [MReturnAttr "targetDataElementRef"]);
    ("setTargetDataElementRef", [MAssign "targetDataElementRef"; MReturnSelf])]);
  ("InnerPortGroupInCompositionInstanceRef", [ (* line 433 *)
    ("getBaseRef", [MReturnAttr "baseRef"]);
    ("setBaseRef", [MAssign "baseRef"; MReturnSelf]);
    ("getContextRefs", [MReturnAttr "contextRefs"]);
    ("getTargetRef", [MReturnAttr "targetRef"]);
    ("setTargetRef", [MAssign "targetRef"; MReturnSelf])]);
  (* models/M2/AUTOSARTemplates/SWComponentTemplate/Components/__init__.py *)
  ("PortPrototype", [ (* line 49 *)
    ("getClientServerAnnotations", [MReturnAttr "clientServerAnnotations"]);
    ("getDelegatedPortAnnotation", [MReturnAttr "delegatedPortAnnotation"]);
    ("setDelegatedPortAnnotation", [MIfSome [MAssign "delegatedPortAnnotation"]; MReturnSelf]);
    ("getIoHwAbstractionServerAnnotations", [MReturnAttr "ioHwAbstractionServerAnnotations"]);
    ("getModePortAnnotations", [MReturnAttr "modePortAnnotations"]);
    ("getNvDataPortAnnotations", [MReturnAttr "nvDataPortAnnotations"]);
    ("getParameterPortAnnotations", [MReturnAttr "parameterPortAnnotations"]);
    ("getSenderReceiverAnnotations", [MReturnAttr "senderReceiverAnnotations"]);
    ("getTriggerPortAnnotations", [MReturnAttr "triggerPortAnnotations"])]);
  ("AbstractProvidedPortPrototype", [ (* line 297 *)
    ("getProvidedComSpecs", [MReturnAttr "providedComSpecs"]);
    ("getNonqueuedSenderComSpecs", [MOther])]);
  ("AbstractRequiredPortPrototype", [ (* line 342 *)
    ("getRequiredComSpecs", [MReturnAttr "requiredComSpecs"]);
    ("getClientComSpecs", [MOther]);
    ("getNonqueuedReceiverComSpecs", [MOther])]);
  ("PPortPrototype", [ (* line 392 *)
    ("getProvidedInterfaceTRef", [MReturnAttr "providedInterfaceTRef"]);
    ("setProvidedInterfaceTRef", [MAssign "providedInterfaceTRef"; MReturnSelf])]);
  ("RPortPrototype", [ (* line 411 *)
    ("getMayBeUnconnected", [MReturnAttr "mayBeUnconnected"]);
    ("setMayBeUnconnected", [MAssign "mayBeUnconnected"; MReturnSelf]);
    ("getRequiredInterfaceTRef", [MReturnAttr "requiredInterfaceTRef"]);
    ("setRequiredInterfaceTRef", [MAssign "requiredInterfaceTRef"; MReturnSelf])]);
  ("PRPortPrototype", [ (* line 440 *)
    ("getProvidedComSpecs", [MReturnAttr "providedComSpecs"]);
    ("getRequiredComSpecs", [MReturnAttr "requiredComSpecs"]);
    ("getProvidedRequiredInterface", [MReturnAttr "providedRequiredInterface"]);
    ("setProvidedRequiredInterface", [MAssign "providedRequiredInterface"; MReturnSelf])]);
  ("PortGroup", [ (* line 479 *)
    ("getInnerGroupIRefs", [MReturnAttr "_inner_group_iref"]);
    ("getOuterPortRefs", [MReturnAttr "_outer_port_ref"])]);
  ("AtomicSwComponentType", [ (* line 506 *)
    ("getInternalBehavior", [MReturnAttr "internalBehavior"]);
    ("getSymbolProps", [MReturnAttr "symbolProps"])]);
  ("EcuAbstractionSwComponentType", [ (* line 587 *)
    ("getHardwareElementRefs", [MReturnAttr "hardwareElementRefs"])]);
  ("ComplexDeviceDriverSwComponentType", [ (* line 646 *)
    ("getHardwareElementRefs", [MReturnAttr "hardwareElementRefs"])]);
  ("NvBlockSwComponentType", [ (* line 692 *)
    ("getBulkNvDataDescriptors", [MReturnAttr "bulkNvDataDescriptors"]);
    ("getNvBlockDescriptors", [MReturnAttr "nvBlockDescriptors"])]);
  ("SensorActuatorSwComponentType", [ (* line 775 *)
    ("getSensorActuatorRef", [MReturnAttr "sensorActuatorRef"]);
    ("setSensorActuatorRef", [MIfSome [MAssign "sensorActuatorRef"]; MReturnSelf])]);
  (* models/M2/AUTOSARTemplates/SWComponentTemplate/Composition/InstanceRefs.py *)
  ("PortInCompositionTypeInstanceRef", [ (* line 14 *)
    ("getAbstractContextComponentRef", [MReturnAttr "abstractContextComponentRef"]);
    ("setAbstractContextComponentRef", [MAssign "abstractContextComponentRef"; MReturnSelf]);
    ("getBaseRef", [MReturnAttr "baseRef"]);
    ("setBaseRef", [MAssign "baseRef"; MReturnSelf]);
    ("getTargetPortRef", [MReturnAttr "targetPortRef"]);
    ("setTargetPortRef", [MAssign "targetPortRef"; MReturnSelf])]);
  ("PPortInCompositionInstanceRef", [ (* line 61 *)
    ("getContextComponentRef", [MReturnAttr "contextComponentRef"]);
    ("setContextComponentRef", [MAssign "contextComponentRef"; MReturnSelf]);
    ("getTargetPPortRef", [MReturnAttr "targetPPortRef"]);
    ("setTargetPPortRef", [MAssign "targetPPortRef"; MReturnSelf])]);
  ("RPortInCompositionInstanceRef", [ (* line 95 *)
    ("getContextComponentRef", [MReturnAttr "contextComponentRef"]);
    ("setContextComponentRef", [MAssign "contextComponentRef"; MReturnSelf]);
    ("getTargetRPortRef", [MReturnAttr "targetRPortRef"]);
    ("setTargetRPortRef", [MAssign "targetRPortRef"; MReturnSelf])]);
  ("OperationInAtomicSwcInstanceRef", [ (* line 129 *)
    ("getBaseRef", [MReturnAttr "baseRef"]);
    ("setBaseRef", [MAssign "baseRef"; MReturnSelf]);
    ("getContextPortRef", [MReturnAttr "contextPortRef"]);
    ("setContextPortRef", [MAssign "contextPortRef"; MReturnSelf]);
    ("getTargetOperationRef", [MReturnAttr "targetOperationRef"]);
    ("setTargetOperationRef", [MAssign "targetOperationRef"; MReturnSelf])]);
  ("POperationInAtomicSwcInstanceRef", [ (* line 176 *)
    ("getContextPPortRef", [MReturnAttr "contextPPortRef"]);
    ("setContextPPortRef", [MAssign "contextPPortRef"; MReturnSelf]);
    ("getTargetProvidedOperationRef", [MReturnAttr "targetProvidedOperationRef"]);
    ("setTargetProvidedOperationRef", [MAssign "targetProvidedOperationRef"; MReturnSelf])]);
  ("ROperationInAtomicSwcInstanceRef", [ (* line 210 *)
    ("getContextRPortRef", [MReturnAttr "contextRPortRef"]);
    ("setContextRPortRef", [MAssign "contextRPortRef"; MReturnSelf]);
    ("getTargetRequiredOperationRef", [MReturnAttr "targetRequiredOperationRef"]);
    ("setTargetRequiredOperationRef", [MAssign "targetRequiredOperationRef"; MReturnSelf])]);
  ("InstanceEventInCompositionInstanceRef", [ (* line 244 *)
    ("getBaseRef", [MReturnAttr "baseRef"]);
    ("setBaseRef", [MIfSome [MAssign "baseRef"]; MReturnSelf]);
    ("getContextComponentPrototypeRefs", [MReturnAttr "contextComponentPrototypeRefs"]);
    ("setTargetEventRef", [MIfSome [MAssign "targetEventRef"]; MReturnSelf]);
    ("getTargetEventRef", [MReturnAttr "targetEventRef"])]);
  (* models/M2/AUTOSARTemplates/SWComponentTemplate/Composition/__init__.py *)
  ("SwComponentPrototype", [ (* line 19 *)
    ("getTypeTRef", [MReturnAttr "typeTRef"]);
    ("setTypeTRef", [MAssign "typeTRef"; MReturnSelf])]);
  ("SwConnector", [ (* line 38 *)
    ("getMappingRef", [MReturnAttr "mappingRef"]);
    ("setMappingRef", [MIfSome [MAssign "mappingRef"]; MReturnSelf])]);
  ("AssemblySwConnector", [ (* line 84 *)
    ("getProviderIRef", [MReturnAttr "providerIRef"]);
    ("setProviderIRef", [MAssign "providerIRef"; MReturnSelf]);
    ("getRequesterIRef", [MReturnAttr "requesterIRef"]);
    ("setRequesterIRef", [MAssign "requesterIRef"; MReturnSelf])]);
  ("DelegationSwConnector", [ (* line 113 *)
    ("getInnerPortIRref", [MReturnAttr "innerPortIRref"]);
    ("setInnerPortIRref", [MAssign "innerPortIRref"; MReturnSelf]);
    ("getOuterPortRef", [MReturnAttr "outerPortRef"]);
    ("setOuterPortRef", [MAssign "outerPortRef"; MReturnSelf])]);
  ("PassThroughSwConnector", [ (* line 142 *)
    ("getProvidedOuterPortRef", [MReturnAttr "providedOuterPortRef"]);
    ("setProvidedOuterPortRef", [MIfSome [MAssign "providedOuterPortRef"]; MReturnSelf]);
    ("getRequiredOuterPortRef", [MReturnAttr "requiredOuterPortRef"]);
    ("setRequiredOuterPortRef", [MIfSome [MAssign "requiredOuterPortRef"]; MReturnSelf])]);
  ("InstantiationRTEEventProps", [ (* line 215 *)
    ("getRefinedEventIRef", [MReturnAttr "refinedEventIRef"]);
    ("setRefinedEventIRef", [MIfSome [MAssign "refinedEventIRef"]; MReturnSelf]);
    ("getShortLabel", [MReturnAttr "shortLabel"]);
    ("setShortLabel", [MIfSome [MAssign "shortLabel"]; MReturnSelf])]);
  ("InstantiationTimingEventProps", [ (* line 291 *)
    ("getPeriod", [MReturnAttr "period"]);
    ("setPeriod", [MIfSome [MAssign "period"]; MReturnSelf])]);
  ("CompositionSwComponentType", [ (* line 335 *)
    ("getComponents", [MReturnAttr "components"]);
    ("getSwConnectors", [MReturnAttr "connectors"]);
    ("getAssemblySwConnectors", [MOther]);
    ("getDelegationSwConnectors", [MOther]);
    ("getPassThroughSwConnectors", [MOther]);
    ("getConstantValueMappingRefs", [MReturnAttr "constantValueMappingRefs"]);
    ("getDataTypeMappingRefs", [MReturnAttr "dataTypeMappingRefs"]);
    ("getInstantiationRTEEventProps", [MReturnAttr "instantiationRTEEventProps"]);
    ("setPhysicalDimensionMappingRef", [MIfSome [MAssign "physicalDimensionMappingRef"]; MReturnSelf]);
    ("getPhysicalDimensionMappingRef", [MReturnAttr "physicalDimensionMappingRef"])]);
  (* models/M2/AUTOSARTemplates/SWComponentTemplate/Datatype/DataPrototypes.py *)
  ("DataPrototype", [ (* line 25 *)
    ("getSwDataDefProps", [MReturnAttr "swDataDefProps"]);
    ("setSwDataDefProps", [MIfSome [MAssign "swDataDefProps"]; MReturnSelf])]);
  ("AutosarDataPrototype", [ (* line 70 *)
    ("getTypeTRef", [MReturnAttr "typeTRef"]);
    ("setTypeTRef", [MIfSome [MAssign "typeTRef"]; MReturnSelf])]);
  ("VariableDataPrototype", [ (* line 115 *)
    ("getInitValue", [MReturnAttr "initValue"]);
    ("setInitValue", [MAssign "initValue"; MReturnSelf])]);
  ("ApplicationCompositeElementDataPrototype", [ (* line 154 *)
    ("getTypeTRef", [MReturnAttr "typeTRef"]);
    ("setTypeTRef", [MAssign "typeTRef"; MReturnSelf])]);
  ("ApplicationArrayElement", [ (* line 181 *)
    ("getArraySizeHandling", [MReturnAttr "arraySizeHandling"]);
    ("setArraySizeHandling", [MIfSome [MAssign "arraySizeHandling"]; MReturnSelf]);
    ("getArraySizeSemantics", [MReturnAttr "arraySizeSemantics"]);
    ("setArraySizeSemantics", [MIfSome [MAssign "arraySizeSemantics"]; MReturnSelf]);
    ("getIndexDataTypeRef", [MReturnAttr "indexDataTypeRef"]);
    ("setIndexDataTypeRef", [MIfSome [MAssign "indexDataTypeRef"]; MReturnSelf]);
    ("getMaxNumberOfElements", [MReturnAttr "maxNumberOfElements"]);
    ("setMaxNumberOfElements", [MIfSome [MAssign "maxNumberOfElements"]; MReturnSelf])]);
  ("ApplicationRecordElement", [ (* line 308 *)
    ("getIsOptional", [MReturnAttr "isOptional"]);
    ("setIsOptional", [MIfSome [MAssign "isOptional"]; MReturnSelf])]);
  ("ParameterDataPrototype", [ (* line 348 *)
    ("getInitValue", [MReturnAttr "initValue"]);
    ("setInitValue", [MIfSome [MAssign "initValue"]; MReturnSelf])]);
  (* models/M2/AUTOSARTemplates/SWComponentTemplate/Datatype/Datatypes.py *)
  ("AutosarDataType", [ (* line 18 *)
    ("getSwDataDefProps", [MReturnAttr "swDataDefProps"]);
    ("setSwDataDefProps", [MAssign "swDataDefProps"; MReturnSelf])]);
  ("ApplicationArrayDataType", [ (* line 120 *)
    ("getDynamicArraySizeProfile", [MReturnAttr "dynamicArraySizeProfile"]);
    ("setDynamicArraySizeProfile", [MIfSome [MAssign "dynamicArraySizeProfile"]; MReturnSelf]);
    ("getApplicationArrayElement", [MReturnAttr "element"])]);
  ("ApplicationRecordDataType", [ (* line 193 *)
    ("getApplicationRecordElements", [MReturnAttr "record_elements"])]);
  ("DataTypeMap", [ (* line 220 *)
    ("getApplicationDataTypeRef", [MReturnAttr "applicationDataTypeRef"]);
    ("setApplicationDataTypeRef", [MAssign "applicationDataTypeRef"; MReturnSelf]);
    ("getImplementationDataTypeRef", [MReturnAttr "implementationDataTypeRef"]);
    ("setImplementationDataTypeRef", [MAssign "implementationDataTypeRef"; MReturnSelf])]);
  ("DataTypeMappingSet", [ (* line 252 *)
    ("getDataTypeMaps", [MReturnAttr "dataTypeMaps"]);
    ("getModeRequestTypeMaps", [MReturnAttr "modeRequestTypeMaps"])]);
  (* models/M2/AUTOSARTemplates/SWComponentTemplate/ImplicitCommunicationBehavior/InstanceRefs.py *)
  ("InnerDataPrototypeGroupInCompositionInstanceRef", [ (* line 15 *)
    ("getBaseRef", [MReturnAttr "baseRef"]);
    ("setBaseRef", [MIfSome [MAssign "baseRef"]; MReturnSelf]);
    ("getContextSwComponentPrototypeRefs", [MReturnAttr "contextSwComponentPrototypeRefs"]);
    ("getTargetDataPrototypeGroupRef", [MReturnAttr "targetDataPrototypeGroupRef"]);
    ("setTargetDataPrototypeGroupRef", [MIfSome [MAssign "targetDataPrototypeGroupRef"]; MReturnSelf])]);
  ("InnerRunnableEntityGroupInCompositionInstanceRef", [ (* line 121 *)
    ("getBaseRef", [MReturnAttr "baseRef"]);
    ("setBaseRef", [MIfSome [MAssign "baseRef"]; MReturnSelf]);
    ("getContextSwComponentPrototypeRefs", [MReturnAttr "contextSwComponentPrototypeRefs"]);
    ("getTargetRunnableEntityGroupRef", [MReturnAttr "targetRunnableEntityGroupRef"]);
    ("setTargetRunnableEntityGroupRef", [MIfSome [MAssign "targetRunnableEntityGroupRef"]; MReturnSelf])]);
  ("RunnableEntityInCompositionInstanceRef", [ (* line 227 *)
    ("getBaseRef", [MReturnAttr "baseRef"]);
    ("setBaseRef", [MIfSome [MAssign "baseRef"]; MReturnSelf]);
    ("getContextSwComponentPrototypeRefs", [MReturnAttr "contextSwComponentPrototypeRefs"]);
    ("getTargetRunnableEntityRef", [MReturnAttr "targetRunnableEntityRef"]);
    ("setTargetRunnableEntityRef", [MIfSome [MAssign "targetRunnableEntityRef"]; MReturnSelf])]);
  ("VariableDataPrototypeInCompositionInstanceRef", [ (* line 333 *)
    ("getBaseRef", [MReturnAttr "baseRef"]);
    ("setBaseRef", [MIfSome [MAssign "baseRef"]; MReturnSelf]);
    ("getContextPortPrototypeRef", [MReturnAttr "contextPortPrototypeRef"]);
    ("setContextPortPrototypeRef", [MIfSome [MAssign "contextPortPrototypeRef"]; MReturnSelf]);
    ("getContextSwComponentPrototypeRefs", [MReturnAttr "contextSwComponentPrototypeRefs"]);
    ("getTargetVariableDataPrototypeRef", [MReturnAttr "targetVariableDataPrototypeRef"]);
    ("setTargetVariableDataPrototypeRef", [MIfSome [MAssign "targetVariableDataPrototypeRef"]; MReturnSelf])]);
  (* models/M2/AUTOSARTemplates/SWComponentTemplate/ImplicitCommunicationBehavior/__init__.py *)
  ("DataPrototypeGroup", [ (* line 20 *)
    ("getDataPrototypeGroupIRefs", [MReturnAttr "dataPrototypeGroupIRefs"]);
    ("getImplicitDataAccessIRefs", [MReturnAttr "implicitDataAccessIRefs"])]);
  ("RunnableEntityGroup", [ (* line 106 *)
    ("getRunnableEntityIRefs", [MReturnAttr "runnableEntityIRefs"]);
    ("getRunnableEntityGroupIRefs", [MReturnAttr "runnableEntityGroupIRefs"])]);
  ("ConsistencyNeeds", [ (* line 190 *)
    ("getDpgDoesNotRequireCoherencys", [MReturnAttr "dpgDoesNotRequireCoherency"]);
    ("getDpgRequiresCoherencys", [MReturnAttr "dpgRequiresCoherency"]);
    ("getRegDoesNotRequireStabilitys", [MReturnAttr "regDoesNotRequireStability"]);
    ("getRegRequiresStabilitys", [MReturnAttr "regRequiresStability"])]);
  (* models/M2/AUTOSARTemplates/SWComponentTemplate/PortInterface/InstanceRefs.py *)
  ("ApplicationCompositeElementInPortInterfaceInstanceRef", [ (* line 11 *)
    ("getBaseRef", [MReturnAttr "baseRef"]);
    ("setBaseRef", [MAssign "baseRef"; MReturnSelf]);
    ("getContextDataPrototypeRef", [MReturnAttr "contextDataPrototypeRef"]);
    ("setContextDataPrototypeRef", [MAssign "contextDataPrototypeRef"; MReturnSelf]);
    ("getRootDataPrototypeRef", [MReturnAttr "rootDataPrototypeRef"]);
    ("setRootDataPrototypeRef", [MAssign "rootDataPrototypeRef"; MReturnSelf]);
    ("getTargetDataPrototypeRef", [MReturnAttr "targetDataPrototypeRef"]);
    ("setTargetDataPrototypeRef", [MAssign "targetDataPrototypeRef"; MReturnSelf])]);
  (* models/M2/AUTOSARTemplates/SWComponentTemplate/PortInterface/__init__.py *)
  ("PortInterface", [ (* line 33 *)
    ("getIsService", [MReturnAttr "isService"]);
    ("setIsService", [MIfSome [MAssign "isService"]; MReturnSelf]);
    ("getServiceKind", [MReturnAttr "serviceKind"]);
    ("setServiceKind", [MIfSome [MAssign "serviceKind"]; MReturnSelf])]);
  ("NvDataInterface", [ (* line 133 *)
    ("getNvDatas", [MOther]);
    ("getNvData", [MOther])]);
  ("ParameterInterface", [ (* line 184 *)
    ("getParameters", [MReturnAttr "parameters"])]);
  ("InvalidationPolicy", [ (* line 205 *)
    ("getDataElementRef", [MReturnAttr "dataElementRef"]);
    ("setDataElementRef", [MAssign "dataElementRef"; MReturnSelf]);
    ("getHandleInvalid", [MReturnAttr "handleInvalid"]);
    ("setHandleInvalid", [MAssign "handleInvalid"; MReturnSelf])]);
  ("MetaDataItem", [ (* line 234 *)
    ("getLength", [MReturnAttr "length"]);
    ("setLength", [MAssign "length"; MReturnSelf]);
    ("getMetaDataItemType", [MReturnAttr "metaDataItemType"]);
    ("setMetaDataItemType", [MAssign "metaDataItemType"; MReturnSelf])]);
  ("MetaDataItemSet", [ (* line 263 *)
    ("getDataElementRefs", [MReturnAttr "dataElementRefs"]);
    ("getMetaDataItems", [MReturnAttr "metaDataItems"])]);
  ("SenderReceiverInterface", [ (* line 292 *)
    ("getInvalidationPolicies", [MReturnAttr "invalidationPolicies"]);
    ("getMetaDataItemSets", [MReturnAttr "metaDataItemSets"]);
    ("getDataElements", [MOther]);
    ("getDataElement", [MOther]);
    ("getInvalidationPolicys", [MOther])]);
  ("ArgumentDataPrototype", [ (* line 370 *)
    ("getDirection", [MReturnAttr "direction"]);
    ("setDirection", [MIfSome [MAssign "direction"]; MReturnSelf]);
    ("getServerArgumentImplPolicy", [MReturnAttr "serverArgumentImplPolicy"]);
    ("setServerArgumentImplPolicy", [MIfSome [MAssign "serverArgumentImplPolicy"]; MReturnSelf])]);
  ("ApplicationError", [ (* line 474 *)
    ("getErrorCode", [MReturnAttr "errorCode"]);
    ("setErrorCode", [MIfSome [MAssign "errorCode"]; MReturnSelf])]);
  ("ClientServerOperation", [ (* line 520 *)
    ("getArguments", [MReturnAttr "arguments"]);
    ("getDiagArgIntegrity", [MReturnAttr "diagArgIntegrity"]);
    ("setDiagArgIntegrity", [MIfSome [MAssign "diagArgIntegrity"]; MReturnSelf]);
    ("getPossibleErrorRefs", [MReturnAttr "possibleErrorRefs"])]);
  ("ClientServerInterface", [ (* line 654 *)
    ("getOperations", [MReturnAttr "operations"]);
    ("getPossibleErrors", [MReturnAttr "possibleErrors"])]);
  ("ModeSwitchInterface", [ (* line 741 *)
    ("getModeGroup", [MReturnAttr "modeGroup"])]);
  ("ClientServerApplicationErrorMapping", [ (* line 802 *)
    ("getFirstApplicationErrorRef", [MReturnAttr "firstApplicationErrorRef"]);
    ("setFirstApplicationErrorRef", [MAssign "firstApplicationErrorRef"; MReturnSelf]);
    ("getSecondApplicationErrorRef", [MReturnAttr "secondApplicationErrorRef"]);
    ("setSecondApplicationErrorRef", [MAssign "secondApplicationErrorRef"; MReturnSelf])]);
  ("ClientServerOperationMapping", [ (* line 831 *)
    ("getArgumentMappings", [MReturnAttr "argumentMappings"]);
    ("getFirstOperationRef", [MReturnAttr "firstOperationRef"]);
    ("setFirstOperationRef", [MAssign "firstOperationRef"; MReturnSelf]);
    ("getFirstToSecondDataTransformationRef", [MReturnAttr "firstToSecondDataTransformationRef"]);
    ("setFirstToSecondDataTransformationRef", [MAssign "firstToSecondDataTransformationRef"; MReturnSelf]);
    ("getSecondOperationRef", [MReturnAttr "secondOperationRef"]);
    ("setSecondOperationRef", [MAssign "secondOperationRef"; MReturnSelf])]);
  ("SubElementMapping", [ (* line 880 *)
    ("getFirstElement", [MReturnAttr "firstElement"]);
    ("setFirstElement", [MIfSome [MAssign "firstElement"]; MReturnSelf]);
    ("getSecondElement", [MReturnAttr "secondElement"]);
    ("setSecondElement", [MIfSome [MAssign "secondElement"]; MReturnSelf]);
    ("getTextTableMappings", [MReturnAttr "textTableMappings"])]);
  ("DataPrototypeMapping", [ (* line 993 *)
    ("getFirstDataPrototypeRef", [MReturnAttr "firstDataPrototypeRef"]);
    ("setFirstDataPrototypeRef", [MIfSome [MAssign "firstDataPrototypeRef"]; MReturnSelf]);
    ("getFirstToSecondDataTransformationRef", [MReturnAttr "firstToSecondDataTransformationRef"]);
    ("setFirstToSecondDataTransformationRef", [MIfSome [MAssign "firstToSecondDataTransformationRef"]; MReturnSelf]);
    ("getSecondDataPrototypeRef", [MReturnAttr "secondDataPrototypeRef"]);
    ("setSecondDataPrototypeRef", [MIfSome [MAssign "secondDataPrototypeRef"]; MReturnSelf]);
    ("getSecondToFirstDataTransformationRef", [MReturnAttr "secondToFirstDataTransformationRef"]);
    ("setSecondToFirstDataTransformationRef", [MIfSome [MAssign "secondToFirstDataTransformationRef"]; MReturnSelf]);
    ("getSubElementMappings", [MReturnAttr "subElementMappings"]);
    ("getTextTableMappings", [MReturnAttr "textTableMappings"])]);
  ("ClientServerInterfaceMapping", [ (* line 1128 *)
    ("getErrorMappings", [MReturnAttr "errorMappings"]);
    ("getOperationMappings", [MReturnAttr "operationMappings"])]);
  ("VariableAndParameterInterfaceMapping", [ (* line 1159 *)
    ("getDataMappings", [MReturnAttr "dataMappings"])]);
  ("ModeInterfaceMapping", [ (* line 1178 *)
    ("getModeMapping", [MReturnAttr "modeMapping"]);
    ("setModeMapping", [MIfSome [MAssign "modeMapping"]; MReturnSelf])]);
  ("TriggerInterfaceMapping", [ (* line 1198 *)
    ("getTriggerMapping", [MReturnAttr "triggerMapping"]);
    ("setTriggerMapping", [MIfSome [MAssign "triggerMapping"]; MReturnSelf])]);
  ("ModeDeclarationMapping", [ (* line 1218 *)
    ("getFirstModeRefs", [MReturnAttr "firstModeRefs"]);
    ("getSecondModeRef", [MReturnAttr "secondModeRef"]);
    ("setSecondModeRef", [MIfSome [MAssign "secondModeRef"]; MReturnSelf])]);
  ("ModeDeclarationMappingSet", [ (* line 1273 *)
    ("getModeDeclarationMappings", [MReturnAttr "modeDeclarationMappings"])]);
  ("PortInterfaceMappingSet", [ (* line 1295 *)
    ("getPortInterfaceMappings", [MReturnAttr "portInterfaceMappings"])]);
  ("TextTableMapping", [ (* line 1341 *)
    ("getBitfieldTextTableMaskFirst", [MReturnAttr "bitfieldTextTableMaskFirst"]);
    ("setBitfieldTextTableMaskFirst", [MIfSome [MAssign "bitfieldTextTableMaskFirst"]; MReturnSelf]);
    ("getBitfieldTextTableMaskSecond", [MReturnAttr "bitfieldTextTableMaskSecond"]);
    ("setBitfieldTextTableMaskSecond", [MIfSome [MAssign "bitfieldTextTableMaskSecond"]; MReturnSelf]);
    ("getIdenticalMapping", [MReturnAttr "identicalMapping"]);
    ("setIdenticalMapping", [MIfSome [MAssign "identicalMapping"]; MReturnSelf]);
    ("getMappingDirection", [MReturnAttr "mappingDirection"]);
    ("setMappingDirection", [MIfSome [MAssign "mappingDirection"]; MReturnSelf]);
    ("getValuePairs", [MReturnAttr "valuePairs"])]);
  (* models/M2/AUTOSARTemplates/SWComponentTemplate/SwcInternalBehavior/AccessCount.py *)
  ("AbstractAccessPoint", [ (* line 39 *)
    ("getReturnValueProvision", [MReturnAttr "returnValueProvision"]);
    ("setReturnValueProvision", [MIfSome [MAssign "returnValueProvision"]; MReturnSelf])]);
  ("AccessCount", [ (* line 88 *)
    ("getAccessPointRef", [MReturnAttr "accessPointRef"]);
    ("setAccessPointRef", [MIfSome [MAssign "accessPointRef"]; MReturnSelf]);
    ("getValue", [MReturnAttr "value"]);
    ("setValue", [MIfSome [MAssign "value"]; MReturnSelf])]);
  ("AccessCountSet", [ (* line 165 *)
    ("getAccessCounts", [MReturnAttr "accessCounts"]);
    ("getCountProfile", [MReturnAttr "countProfile"]);
    ("setCountProfile", [MIfSome [MAssign "countProfile"]; MReturnSelf])]);
  (* models/M2/AUTOSARTemplates/SWComponentTemplate/SwcInternalBehavior/AutosarVariableRef.py *)
  ("AutosarVariableRef", [ (* line 11 *)
    ("getAutosarVariableIRef", [MReturnAttr "autosarVariableIRef"]);
    ("setAutosarVariableIRef", [MAssign "autosarVariableIRef"; MReturnSelf]);
    ("getAutosarVariableInImplDatatype", [MReturnAttr "autosarVariableInImplDatatype"]);
    ("setAutosarVariableInImplDatatype", [MAssign "autosarVariableInImplDatatype"; MReturnSelf]);
    ("getLocalVariableRef", [MReturnAttr "localVariableRef"]);
    ("setLocalVariableRef", [MAssign "localVariableRef"; MReturnSelf])]);
  (* models/M2/AUTOSARTemplates/SWComponentTemplate/SwcInternalBehavior/DataElements.py *)
  ("ParameterAccess", [ (* line 15 *)
    ("getAccessedParameter", [MReturnAttr "accessedParameter"]);
    ("setAccessedParameter", [MAssign "accessedParameter"; MReturnSelf]);
    ("getSwDataDefProps", [MReturnAttr "swDataDefProps"]);
    ("setSwDataDefProps", [MAssign "swDataDefProps"; MReturnSelf])]);
  ("VariableAccess", [ (* line 79 *)
    ("getAccessedVariableRef", [MReturnAttr "accessedVariableRef"]);
    ("setAccessedVariableRef", [MIfSome [MAssign "accessedVariableRef"]; MReturnSelf]);
    ("getScope", [MReturnAttr "scope"]);
    ("setScope", [MIfSome [MAssign "scope"]; MReturnSelf])]);
  (* models/M2/AUTOSARTemplates/SWComponentTemplate/SwcInternalBehavior/IncludedDataTypes.py *)
  ("IncludedDataTypeSet", [ (* line 12 *)
    ("getDataTypeRefs", [MReturnAttr "dataTypeRefs"]);
    ("getLiteralPrefix", [MReturnAttr "literalPrefix"]);
    ("setLiteralPrefix", [MIfSome [MAssign "literalPrefix"]; MReturnSelf])]);
  (* models/M2/AUTOSARTemplates/SWComponentTemplate/SwcInternalBehavior/InstanceRefsUsage.py *)
  ("ArVariableInImplementationDataInstanceRef", [ (* line 13 *)
    ("getContextDataPrototypeRefs", [MReturnAttr "contextDataPrototypeRefs"]);
    ("setContextDataPrototypeRefs", [MAssign "contextDataPrototypeRefs"; MReturnSelf]);
    ("getPortPrototypeRef", [MReturnAttr "portPrototypeRef"]);
    ("setPortPrototypeRef", [MAssign "portPrototypeRef"; MReturnSelf]);
    ("getRootVariableDataPrototypeRef", [MReturnAttr "rootVariableDataPrototypeRef"]);
    ("setRootVariableDataPrototypeRef", [MAssign "rootVariableDataPrototypeRef"; MReturnSelf]);
    ("getTargetDataPrototypeRef", [MReturnAttr "targetDataPrototypeRef"]);
    ("setTargetDataPrototypeRef", [MAssign "targetDataPrototypeRef"; MReturnSelf])]);
  ("VariableInAtomicSWCTypeInstanceRef", [ (* line 127 *)
    ("getBaseRef", [MReturnAttr "baseRef"]);
    ("setBaseRef", [MAssign "baseRef"; MReturnSelf]);
    ("getContextDataPrototypeRefs", [MReturnAttr "contextDataPrototypeRefs"]);
    ("getPortPrototypeRef", [MReturnAttr "portPrototypeRef"]);
    ("setPortPrototypeRef", [MAssign "portPrototypeRef"; MReturnSelf]);
    ("getRootVariableDataPrototypeRef", [MReturnAttr "rootVariableDataPrototypeRef"]);
    ("setRootVariableDataPrototypeRef", [MAssign "rootVariableDataPrototypeRef"; MReturnSelf]);
    ("getTargetDataPrototypeRef", [MReturnAttr "targetDataPrototypeRef"]);
    ("setTargetDataPrototypeRef", [MAssign "targetDataPrototypeRef"; MReturnSelf])]);
  ("ParameterInAtomicSWCTypeInstanceRef", [ (* line 266 *)
    ("setBaseRef", [MIfSome [MAssign "baseRef"]; MReturnSelf]);
    ("getBaseRef", [MReturnAttr "baseRef"]);
    ("getContextDataPrototypeRefs", [MReturnAttr "contextDataPrototypeRefs"]);
    ("setPortPrototypeRef", [MIfSome [MAssign "portPrototypeRef"]; MReturnSelf]);
    ("getPortPrototypeRef", [MReturnAttr "portPrototypeRef"]);
    ("setRootParameterDataPrototypeRef", [MIfSome [MAssign "rootParameterDataPrototypeRef"]; MReturnSelf]);
    ("getRootParameterDataPrototypeRef", [MReturnAttr "rootParameterDataPrototypeRef"]);
    ("setTargetDataPrototypeRef", [MIfSome [MAssign "targetDataPrototypeRef"]; MReturnSelf]);
    ("getTargetDataPrototypeRef", [MReturnAttr "targetDataPrototypeRef"])]);
  ("AutosarParameterRef", [ (* line 416 *)
    ("getAutosarParameterIRef", [MReturnAttr "autosarParameterIRef"]);
    ("setAutosarParameterIRef", [MAssign "autosarParameterIRef"; MReturnSelf]);
    ("getLocalParameterRef", [MReturnAttr "localParameterRef"]);
    ("setLocalParameterRef", [MAssign "localParameterRef"; MReturnSelf])]);
  (* models/M2/AUTOSARTemplates/SWComponentTemplate/SwcInternalBehavior/InstantiationDataDefProps.py *)
  ("InstantiationDataDefProps", [ (* line 9 *)
    ("getParameterInstance", [MReturnAttr "parameterInstance"]);
    ("setParameterInstance", [MIfSome [MAssign "parameterInstance"]; MReturnSelf]);
    ("getSwDataDefProps", [MReturnAttr "swDataDefProps"]);
    ("setSwDataDefProps", [MIfSome [MAssign "swDataDefProps"]; MReturnSelf]);
    ("getVariableInstance", [MReturnAttr "variableInstance"]);
    ("setVariableInstance", [MIfSome [MAssign "variableInstance"]; MReturnSelf])]);
  (* models/M2/AUTOSARTemplates/SWComponentTemplate/SwcInternalBehavior/ModeDeclarationGroup.py *)
  ("ModeAccessPoint", [ (* line 15 *)
    ("getIdent", [MReturnAttr "ident"]);
    ("setIdent", [MAssign "ident"; MReturnSelf]);
    ("getModeGroupIRef", [MReturnAttr "modeGroupIRef"]);
    ("setModeGroupIRef", [MAssign "modeGroupIRef"; MReturnSelf])]);
  ("ModeSwitchPoint", [ (* line 79 *)
    ("getModeGroupIRef", [MReturnAttr "modeGroupIRef"]);
    ("setModeGroupIRef", [MAssign "modeGroupIRef"; MReturnSelf])]);
  ("IncludedModeDeclarationGroupSet", [ (* line 118 *)
    ("getModeDeclarationGroupRefs", [MReturnAttr "mode_declaration_group_refs"]);
    ("setPrefix", [MAssign "prefix"; MReturnSelf]);
    ("getPrefix", [MReturnAttr "prefix"])]);
  (* models/M2/AUTOSARTemplates/SWComponentTemplate/SwcInternalBehavior/PerInstanceMemory.py *)
  ("PerInstanceMemory", [ (* line 12 *)
    ("getInitValue", [MReturnAttr "initValue"]);
    ("setInitValue", [MAssign "initValue"; MReturnSelf]);
    ("getSwDataDefProps", [MReturnAttr "swDataDefProps"]);
    ("setSwDataDefProps", [MAssign "swDataDefProps"; MReturnSelf]);
    ("getType", [MReturnAttr "type"]);
    ("setType", [MAssign "type"; MReturnSelf]);
    ("getTypeDefinition", [MReturnAttr "typeDefinition"]);
    ("setTypeDefinition", [MAssign "typeDefinition"; MReturnSelf])]);
  (* models/M2/AUTOSARTemplates/SWComponentTemplate/SwcInternalBehavior/PortAPIOptions.py *)
  ("PortDefinedArgumentValue", [ (* line 12 *)
    ("getValue", [MReturnAttr "value"]);
    ("setValue", [MAssign "value"; MReturnSelf]);
    ("getValueTypeTRef", [MReturnAttr "valueTypeTRef"]);
    ("setValueTypeTRef", [MAssign "valueTypeTRef"; MReturnSelf])]);
  ("PortAPIOption", [ (* line 75 *)
    ("getEnableTakeAddress", [MReturnAttr "enableTakeAddress"]);
    ("setEnableTakeAddress", [MAssign "enableTakeAddress"; MReturnSelf]);
    ("getErrorHandling", [MReturnAttr "errorHandling"]);
    ("setErrorHandling", [MAssign "errorHandling"; MReturnSelf]);
    ("getIndirectAPI", [MReturnAttr "indirectAPI"]);
    ("setIndirectAPI", [MAssign "indirectAPI"; MReturnSelf]);
    ("getPortRef", [MReturnAttr "portRef"]);
    ("setPortRef", [MAssign "portRef"; MReturnSelf]);
    ("getPortArgValues", [MReturnAttr "portArgValues"]);
    ("getSupportedFeatures", [MReturnAttr "supportedFeatures"]);
    ("getTransformerStatusForwarding", [MReturnAttr "transformerStatusForwarding"]);
    ("setTransformerStatusForwarding", [MAssign "transformerStatusForwarding"; MReturnSelf])]);
  (* models/M2/AUTOSARTemplates/SWComponentTemplate/SwcInternalBehavior/RTEEvents.py *)
  ("RTEEvent", [ (* line 18 *)
    ("getDisabledModeIRefs", [MReturnAttr "disabledModeIRefs"]);
    ("getStartOnEventRef", [MReturnAttr "startOnEventRef"]);
    ("setStartOnEventRef", [MAssign "startOnEventRef"; MReturnSelf])]);
  ("AsynchronousServerCallReturnsEvent", [ (* line 83 *)
    ("getEventSourceRef", [MReturnAttr "eventSourceRef"]);
    ("setEventSourceRef", [MAssign "eventSourceRef"; MReturnSelf])]);
  ("DataSendCompletedEvent", [ (* line 121 *)
    ("getEventSourceRef", [MReturnAttr "eventSourceRef"]);
    ("setEventSourceRef", [MAssign "eventSourceRef"; MReturnSelf])]);
  ("DataWriteCompletedEvent", [ (* line 160 *)
    ("getEventSourceRef", [MReturnAttr "eventSourceRef"]);
    ("setEventSourceRef", [MAssign "eventSourceRef"; MReturnSelf])]);
  ("DataReceivedEvent", [ (* line 199 *)
    ("getDataIRef", [MReturnAttr "dataIRef"]);
    ("setDataIRef", [MAssign "dataIRef"; MReturnSelf])]);
  ("SwcModeSwitchEvent", [ (* line 237 *)
    ("getActivation", [MReturnAttr "activation"]);
    ("setActivation", [MIfSome [MAssign "activation"]; MReturnSelf]);
    ("getModeIRefs", [MReturnAttr "modeIRefs"])]);
  ("DataReceiveErrorEvent", [ (* line 292 *)
    ("getDataIRef", [MReturnAttr "dataIRef"]);
    ("setDataIRef", [MAssign "dataIRef"; MReturnSelf])]);
  ("OperationInvokedEvent", [ (* line 331 *)
    ("getOperationIRef", [MReturnAttr "operationIRef"]);
    ("setOperationIRef", [MIfSome [MAssign "operationIRef"]; MReturnSelf])]);
  ("TimingEvent", [ (* line 386 *)
    ("getOffset", [MReturnAttr "offset"]);
    ("setOffset", [MIfSome [MAssign "offset"]; MReturnSelf]);
    ("getPeriod", [MReturnAttr "period"]);
    ("setPeriod", [MIfSome [MAssign "period"]; MReturnSelf])]);
  ("InternalTriggerOccurredEvent", [ (* line 464 *)
    ("getEventSourceRef", [MReturnAttr "eventSourceRef"]);
    ("setEventSourceRef", [MIfSome [MAssign "eventSourceRef"]; MReturnSelf])]);
  ("ModeSwitchedAckEvent", [ (* line 517 *)
    ("getEventSourceRef", [MReturnAttr "eventSourceRef"]);
    ("setEventSourceRef", [MIfSome [MAssign "eventSourceRef"]; MReturnSelf])]);
  ("WaitPoint", [ (* line 557 *)
    ("getTimeout", [MReturnAttr "timeout"]);
    ("setTimeout", [MIfSome [MAssign "timeout"]; MReturnSelf]);
    ("getTriggerRef", [MReturnAttr "triggerRef"]);
    ("setTriggerRef", [MIfSome [MAssign "triggerRef"]; MReturnSelf])]);
  (* models/M2/AUTOSARTemplates/SWComponentTemplate/SwcInternalBehavior/ServerCall.py *)
  ("ServerCallPoint", [ (* line 12 *)
    ("getOperationIRef", [MReturnAttr "operationIRef"]);
    ("setOperationIRef", [MAssign "operationIRef"; MReturnSelf]);
    ("getTimeout", [MReturnAttr "timeout"]);
    ("setTimeout", [MAssign "timeout"; MReturnSelf])]);
  (* models/M2/AUTOSARTemplates/SWComponentTemplate/SwcInternalBehavior/ServiceMapping.py *)
  ("RoleBasedPortAssignment", [ (* line 47 *)
    ("getPortPrototypeRef", [MReturnAttr "portPrototypeRef"]);
    ("setPortPrototypeRef", [MAssign "portPrototypeRef"; MReturnSelf]);
    ("getRole", [MReturnAttr "role"]);
    ("setRole", [MAssign "role"; MReturnSelf])]);
  ("SwcServiceDependency", [ (* line 111 *)
    ("getAssignedData", [MReturnAttr "assignedData"]);
    ("getAssignedPorts", [MReturnAttr "assignedPort"]);
    ("getNvBlockNeeds", [MOther]);
    ("getDiagnosticCommunicationManagerNeeds", [MOther]);
    ("getDiagnosticRoutineNeeds", [MOther]);
    ("getDiagnosticValueNeeds", [MOther]);
    ("getDiagnosticEventNeeds", [MOther]);
    ("getDiagnosticEventInfoNeeds", [MOther]);
    ("getCryptoServiceNeeds", [MOther]);
    ("getEcuStateMgrUserNeeds", [MOther]);
    ("getDtcStatusChangeNotificationNeeds", [MOther]);
    ("getDiagnosticIoControlNeeds", [MOther]);
    ("getDltUserNeeds", [MOther]);
    ("getComMgrUserNeeds", [MOther]);
    ("getErrorTracerNeeds", [MOther]);
    ("getObdInfoServiceNeeds", [MOther]);
    ("getObdMonitorServiceNeeds", [MOther]);
    ("getObdPidServiceNeeds", [MOther]);
    ("getObdControlServiceNeeds", [MOther]);
    ("getServiceNeeds", [MOther]);
    ("setRepresentedPortGroup", [MIfSome [MAssign "representedPortGroup"]; MReturnSelf]);
    ("getRepresentedPortGroup", [MReturnAttr "representedPortGroup"])]);
  (* models/M2/AUTOSARTemplates/SWComponentTemplate/SwcInternalBehavior/Trigger.py *)
  ("InternalTriggeringPoint", [ (* line 19 *)
    ("getSwImplPolicy", [MReturnAttr "swImplPolicy"]);
    ("setSwImplPolicy", [MIfSome [MAssign "swImplPolicy"]; MReturnSelf])]);
  ("ExternalTriggeringPoint", [ (* line 71 *)
    ("getIdent", [MReturnAttr "ident"]);
    ("getTrigger", [MReturnAttr "trigger"]);
    ("setTrigger", [MIfSome [MAssign "trigger"]; MReturnSelf])]);
  (* models/M2/AUTOSARTemplates/SWComponentTemplate/SwcInternalBehavior/VariantHandling.py *)
  ("VariationPointProxy", [ (* line 10 *)
    ("getConditionAccess", [MReturnAttr "conditionAccess"]);
    ("setConditionAccess", [MIfSome [MAssign "conditionAccess"]; MReturnSelf]);
    ("getImplementationDataTypeRef", [MReturnAttr "implementationDataTypeRef"]);
    ("setImplementationDataTypeRef", [MIfSome [MAssign "implementationDataTypeRef"]; MReturnSelf]);
    ("getPostBuildValueAccessRef", [MReturnAttr "postBuildValueAccessRef"]);
    ("setPostBuildValueAccessRef", [MIfSome [MAssign "postBuildValueAccessRef"]; MReturnSelf]);
    ("getPostBuildVariantConditions", [MReturnAttr "postBuildVariantConditions"]);
    ("getValueAccess", [MReturnAttr "valueAccess"]);
    ("setValueAccess", [MIfSome [MAssign "valueAccess"]; MReturnSelf])]);
  (* models/M2/AUTOSARTemplates/SWComponentTemplate/SwcInternalBehavior/__init__.py *)
  ("RunnableEntityArgument", [ (* line 39 *)
    ("getSymbol", [MReturnAttr "symbol"]);
    ("setSymbol", [MAssign "symbol"; MReturnSelf])]);
  ("AsynchronousServerCallResultPoint", [ (* line 58 *)
    ("getAsynchronousServerCallPointRef", [MReturnAttr "asynchronousServerCallPointRef"]);
    ("setAsynchronousServerCallPointRef", [MAssign "asynchronousServerCallPointRef"; MReturnSelf])]);
  ("SynchronousServerCallPoint", [ (* line 85 *)
    ("getCalledFromWithinExclusiveAreaRef", [MReturnAttr "calledFromWithinExclusiveAreaRef"]);
    ("setCalledFromWithinExclusiveAreaRef", [MAssign "calledFromWithinExclusiveAreaRef"; MReturnSelf])]);
  ("RunnableEntity", [ (* line 104 *)
    ("getArguments", [MReturnAttr "arguments"]);
    ("getCanBeInvokedConcurrently", [MReturnAttr "canBeInvokedConcurrently"]);
    ("setCanBeInvokedConcurrently", [MIfSome [MAssign "canBeInvokedConcurrently"]; MReturnSelf]);
    ("getDataReadAccesses", [MOther]);
    ("getDataWriteAccesses", [MOther]);
    ("getDataReceivePointByArguments", [MOther]);
    ("getDataReceivePointByValues", [MOther]);
    ("getDataSendPoints", [MReturnAttr "dataSendPoints"]);
    ("getReadLocalVariables", [MReturnAttr "readLocalVariables"]);
    ("getWrittenLocalVariables", [MReturnAttr "writtenLocalVariables"]);
    ("getParameterAccesses", [MOther]);
    ("getSynchronousServerCallPoint", [MOther]);
    ("getAsynchronousServerCallPoint", [MOther]);
    ("getAsynchronousServerCallResultPoints", [MOther]);
    ("getServerCallPoints", [MOther]);
    ("getInternalTriggeringPoints", [MOther]);
    ("getExternalTriggeringPoints", [MReturnAttr "externalTriggeringPoints"]);
    ("getModeAccessPoints", [MReturnAttr "modeAccessPoints"]);
    ("getModeSwitchPoints", [MOther]);
    ("getSymbol", [MReturnAttr "symbol"]);
    ("setSymbol", [MIfSome [MAssign "symbol"]; MReturnSelf]);
    ("getWaitPoints", [MReturnAttr "waitPoints"])]);
  ("SwcExclusiveAreaPolicy", [ (* line 714 *)
    ("getApiPrinciple", [MReturnAttr "apiPrinciple"]);
    ("setApiPrinciple", [MIfSome [MAssign "apiPrinciple"]; MReturnSelf]);
    ("getExclusiveAreaRef", [MReturnAttr "exclusiveAreaRef"]);
    ("setExclusiveAreaRef", [MIfSome [MAssign "exclusiveAreaRef"]; MReturnSelf])]);
  ("SwcInternalBehavior", [ (* line 772 *)
    ("getArTypedPerInstanceMemories", [MReturnAttr "arTypedPerInstanceMemories"]);
    ("getExplicitInterRunnableVariables", [MReturnAttr "explicitInterRunnableVariables"]);
    ("getHandleTerminationAndRestart", [MReturnAttr "handleTerminationAndRestart"]);
    ("setHandleTerminationAndRestart", [MIfSome [MAssign "handleTerminationAndRestart"]; MReturnSelf]);
    ("getImplicitInterRunnableVariables", [MReturnAttr "implicitInterRunnableVariables"]);
    ("getPerInstanceMemories", [MReturnAttr "perInstanceMemories"]);
    ("getPerInstanceParameters", [MReturnAttr "perInstanceParameters"]);
    ("getSharedParameters", [MReturnAttr "sharedParameters"]);
    ("getPortAPIOptions", [MReturnAttr "portAPIOptions"]);
    ("getIncludedDataTypeSets", [MReturnAttr "includedDataTypeSets"]);
    ("getIncludedModeDeclarationGroupSets", [MReturnAttr "includedModeDeclarationGroupSets"]);
    ("getExclusiveAreaPolicies", [MReturnAttr "exclusiveAreaPolicies"]);
    ("getRteEvents", [MOther]);
    ("getOperationInvokedEvents", [MOther]);
    ("getInitEvents", [MOther]);
    ("getTimingEvents", [MOther]);
    ("getDataReceivedEvents", [MOther]);
    ("getSwcModeSwitchEvents", [MOther]);
    ("getInternalTriggerOccurredEvents", [MOther]);
    ("getModeSwitchedAckEvents", [MOther]);
    ("getBackgroundEvents", [MOther]);
    ("getDataSendCompletedEvents", [MOther]);
    ("getSwcServiceDependencies", [MOther]);
    ("getEvent", [MOther]);
    ("getVariableDataPrototypes", [MOther]);
    ("getRunnableEntities", [MOther]);
    ("getRunnableEntity", [MOther]);
    ("getSupportsMultipleInstantiation", [MReturnAttr "supportsMultipleInstantiation"]);
    ("setSupportsMultipleInstantiation", [MIfSome [MAssign "supportsMultipleInstantiation"]; MReturnSelf]);
    ("getInstantiationDataDefPropss", [MReturnAttr "instantiationDataDefProps"]);
    ("getVariationPointProxies", [MReturnAttr "variationPointProxies"])]);
  (* models/M2/AUTOSARTemplates/SystemTemplate/DataMapping.py *)
  ("DataMapping", [ (* line 14 *)
    ("getIntroduction", [MReturnAttr "introduction"]);
    ("setIntroduction", [MAssign "introduction"; MReturnSelf])]);
  ("SenderReceiverToSignalMapping", [ (* line 43 *)
    ("getCommunicationDirection", [MReturnAttr "communicationDirection"]);
    ("setCommunicationDirection", [MAssign "communicationDirection"; MReturnSelf]);
    ("getDataElementIRef", [MReturnAttr "dataElementIRef"]);
    ("setDataElementIRef", [MAssign "dataElementIRef"; MReturnSelf]);
    ("getSenderToSignalTextTableMapping", [MReturnAttr "senderToSignalTextTableMapping"]);
    ("setSenderToSignalTextTableMapping", [MAssign "senderToSignalTextTableMapping"; MReturnSelf]);
    ("getSignalToReceiverTextTableMapping", [MReturnAttr "signalToReceiverTextTableMapping"]);
    ("setSignalToReceiverTextTableMapping", [MAssign "signalToReceiverTextTableMapping"; MReturnSelf]);
    ("getSystemSignalRef", [MReturnAttr "systemSignalRef"]);
    ("setSystemSignalRef", [MAssign "systemSignalRef"; MReturnSelf])]);
  ("SenderRecRecordElementMapping", [ (* line 126 *)
    ("getApplicationRecordElementRef", [MReturnAttr "applicationRecordElementRef"]);
    ("setApplicationRecordElementRef", [MIfSome [MAssign "applicationRecordElementRef"]; MReturnSelf]);
    ("getComplexTypeMapping", [MReturnAttr "complexTypeMapping"]);
    ("setComplexTypeMapping", [MIfSome [MAssign "complexTypeMapping"]; MReturnSelf]);
    ("getImplementationRecordElementRef", [MReturnAttr "implementationRecordElementRef"]);
    ("setImplementationRecordElementRef", [MIfSome [MAssign "implementationRecordElementRef"]; MReturnSelf]);
    ("getSenderToSignalTextTableMapping", [MReturnAttr "senderToSignalTextTableMapping"]);
    ("setSenderToSignalTextTableMapping", [MIfSome [MAssign "senderToSignalTextTableMapping"]; MReturnSelf]);
    ("getSignalToReceiverTextTableMapping", [MReturnAttr "signalToReceiverTextTableMapping"]);
    ("setSignalToReceiverTextTableMapping", [MIfSome [MAssign "signalToReceiverTextTableMapping"]; MReturnSelf]);
    ("getSystemSignalRef", [MReturnAttr "systemSignalRef"]);
    ("setSystemSignalRef", [MIfSome [MAssign "systemSignalRef"]; MReturnSelf])]);
  ("SenderRecRecordTypeMapping", [ (* line 208 *)
    ("getRecordElementMappings", [MReturnAttr "recordElementMappings"])]);
  ("IndexedArrayElement", [ (* line 234 *)
    ("getApplicationArrayElementRef", [MReturnAttr "applicationArrayElementRef"]);
    ("setApplicationArrayElementRef", [MIfSome [MAssign "applicationArrayElementRef"]; MReturnSelf]);
    ("getImplementationArrayElementRef", [MReturnAttr "implementationArrayElementRef"]);
    ("setImplementationArrayElementRef", [MIfSome [MAssign "implementationArrayElementRef"]; MReturnSelf]);
    ("getIndex", [MReturnAttr "index"]);
    ("setIndex", [MIfSome [MAssign "index"]; MReturnSelf])]);
  ("SenderRecArrayElementMapping", [ (* line 282 *)
    ("getComplexTypeMapping", [MReturnAttr "complexTypeMapping"]);
    ("setComplexTypeMapping", [MIfSome [MAssign "complexTypeMapping"]; MReturnSelf]);
    ("getIndexedArrayElement", [MReturnAttr "indexedArrayElement"]);
    ("setIndexedArrayElement", [MIfSome [MAssign "indexedArrayElement"]; MReturnSelf]);
    ("getSystemSignalRef", [MReturnAttr "systemSignalRef"]);
    ("setSystemSignalRef", [MIfSome [MAssign "systemSignalRef"]; MReturnSelf])]);
  ("SenderRecArrayTypeMapping", [ (* line 330 *)
    ("getArrayElementMappings", [MReturnAttr "arrayElementMappings"]);
    ("setArrayElementMappings", [MIfSome [MAssign "arrayElementMappings"]; MReturnSelf]);
    ("getSenderToSignal", [MReturnAttr "senderToSignal"]);
    ("setSenderToSignal", [MIfSome [MAssign "senderToSignal"]; MReturnSelf]);
    ("getSignalToReceiverTextTableMapping", [MReturnAttr "signalToReceiverTextTableMapping"]);
    ("setSignalToReceiverTextTableMapping", [MIfSome [MAssign "signalToReceiverTextTableMapping"]; MReturnSelf])]);
  ("SenderReceiverToSignalGroupMapping", [ (* line 378 *)
    ("getDataElementIRef", [MReturnAttr "dataElementIRef"]);
    ("setDataElementIRef", [MAssign "dataElementIRef"; MReturnSelf]);
    ("getSignalGroupRef", [MReturnAttr "signalGroupRef"]);
    ("setSignalGroupRef", [MAssign "signalGroupRef"; MReturnSelf]);
    ("getTypeMapping", [MReturnAttr "typeMapping"]);
    ("setTypeMapping", [MAssign "typeMapping"; MReturnSelf])]);
  (* models/M2/AUTOSARTemplates/SystemTemplate/DiagnosticConnection.py *)
  ("DiagnosticConnection", [ (* line 9 *)
    ("getFunctionalRequestRefs", [MReturnAttr "functionalRequestRefs"]);
    ("getPeriodicResponseUudtRefs", [MReturnAttr "periodicResponseUudtRefs"]);
    ("getPhysicalRequestRef", [MReturnAttr "physicalRequestRef"]);
    ("setPhysicalRequestRef", [MIfSome [MAssign "physicalRequestRef"]; MReturnSelf]);
    ("getResponseRef", [MReturnAttr "responseRef"]);
    ("setResponseRef", [MIfSome [MAssign "responseRef"]; MReturnSelf]);
    ("getResponseOnEventRef", [MReturnAttr "responseOnEventRef"]);
    ("setResponseOnEventRef", [MIfSome [MAssign "responseOnEventRef"]; MReturnSelf])]);
  (* models/M2/AUTOSARTemplates/SystemTemplate/DoIp.py *)
  ("DoIpLogicTesterAddressProps", [ (* line 42 *)
    ("getDoIpTesterRoutingActivationRef", [MReturnAttr "doIpTesterRoutingActivationRef"]);
    ("setDoIpTesterRoutingActivationRef", [MIfSome [MAssign "doIpTesterRoutingActivationRef"]; MReturnSelf])]);
  (* models/M2/AUTOSARTemplates/SystemTemplate/ECUResourceMapping.py *)
  ("ECUMapping", [ (* line 4 *)
    ("getCommControllerMappings", [MReturnAttr "commControllerMappings"]);
    ("setCommControllerMappings", [MIfSome [MAssign "commControllerMappings"]; MReturnSelf]);
    ("getEcuRef", [MReturnAttr "ecuRef"]);
    ("setEcuRef", [MIfSome [MAssign "ecuRef"]; MReturnSelf]);
    ("getEcuInstanceRef", [MReturnAttr "ecuInstanceRef"]);
    ("setEcuInstanceRef", [MIfSome [MAssign "ecuInstanceRef"]; MReturnSelf]);
    ("getHwPortMappings", [MReturnAttr "hwPortMappings"]);
    ("setHwPortMappings", [MIfSome [MAssign "hwPortMappings"]; MReturnSelf])]);
  (* models/M2/AUTOSARTemplates/SystemTemplate/InstanceRefs.py *)
  ("VariableDataPrototypeInSystemInstanceRef", [ (* line 9 *)
    ("getBaseRef", [MReturnAttr "baseRef"]);
    ("setBaseRef", [MAssign "baseRef"; MReturnSelf]);
    ("getContextComponentRefs", [MReturnAttr "contextComponentRefs"]);
    ("getContextCompositionRef", [MReturnAttr "contextCompositionRef"]);
    ("setContextCompositionRef", [MAssign "contextCompositionRef"; MReturnSelf]);
    ("getContextPortRef", [MReturnAttr "contextPortRef"]);
    ("setContextPortRef", [MAssign "contextPortRef"; MReturnSelf]);
    ("getTargetDataPrototypeRef", [MReturnAttr "targetDataPrototypeRef"]);
    ("setTargetDataPrototypeRef", [MAssign "targetDataPrototypeRef"; MReturnSelf])]);
  ("ComponentInSystemInstanceRef", [ (* line 73 *)
    ("getBaseRef", [MReturnAttr "baseRef"]);
    ("setBaseRef", [MAssign "baseRef"; MReturnSelf]);
    ("getContextComponentRefs", [MReturnAttr "contextComponentRefs"]);
    ("getContextCompositionRef", [MReturnAttr "contextCompositionRef"]);
    ("setContextCompositionRef", [MAssign "contextCompositionRef"; MReturnSelf]);
    ("getTargetComponentRef", [MReturnAttr "targetComponentRef"]);
    ("setTargetComponentRef", [MAssign "targetComponentRef"; MReturnSelf])]);
  (* models/M2/AUTOSARTemplates/SystemTemplate/NetworkManagement.py *)
  ("CanNmClusterCoupling", [ (* line 30 *)
    ("getCoupledClusterRefs", [MReturnAttr "coupledClusterRefs"]);
    ("getNmBusloadReductionEnabled", [MReturnAttr "nmBusloadReductionEnabled"]);
    ("setNmBusloadReductionEnabled", [MAssign "nmBusloadReductionEnabled"; MReturnSelf]);
    ("getNmImmediateRestartEnabled", [MReturnAttr "nmImmediateRestartEnabled"]);
    ("setNmImmediateRestartEnabled", [MAssign "nmImmediateRestartEnabled"; MReturnSelf])]);
  ("FlexrayNmClusterCoupling", [ (* line 75 *)
    ("getCoupledClusterRefs", [MReturnAttr "coupledClusterRefs"]);
    ("getNmScheduleVariant", [MReturnAttr "nmScheduleVariant"]);
    ("setNmScheduleVariant", [MAssign "nmScheduleVariant"; MReturnSelf])]);
  ("NmNode", [ (* line 135 *)
    ("getControllerRef", [MReturnAttr "controllerRef"]);
    ("setControllerRef", [MIfSome [MAssign "controllerRef"]; MReturnSelf]);
    ("getNmCoordCluster", [MReturnAttr "nmCoordCluster"]);
    ("setNmCoordCluster", [MIfSome [MAssign "nmCoordCluster"]; MReturnSelf]);
    ("getNmCoordinatorRole", [MReturnAttr "nmCoordinatorRole"]);
    ("setNmCoordinatorRole", [MIfSome [MAssign "nmCoordinatorRole"]; MReturnSelf]);
    ("getNmIfEcuRef", [MReturnAttr "nmIfEcuRef"]);
    ("setNmIfEcuRef", [MIfSome [MAssign "nmIfEcuRef"]; MReturnSelf]);
    ("getNmNodeId", [MReturnAttr "nmNodeId"]);
    ("setNmNodeId", [MIfSome [MAssign "nmNodeId"]; MReturnSelf]);
    ("getNmPassiveModeEnabled", [MReturnAttr "nmPassiveModeEnabled"]);
    ("setNmPassiveModeEnabled", [MIfSome [MAssign "nmPassiveModeEnabled"]; MReturnSelf]);
    ("getRxNmPduRefs", [MReturnAttr "rxNmPduRefs"]);
    ("getTxNmPduRefs", [MReturnAttr "txNmPduRefs"])]);
  ("CanNmNode", [ (* line 309 *)
    ("getAllNmMessagesKeepAwake", [MReturnAttr "allNmMessagesKeepAwake"]);
    ("setAllNmMessagesKeepAwake", [MAssign "allNmMessagesKeepAwake"; MReturnSelf]);
    ("getNmCarWakeUpFilterEnabled", [MReturnAttr "nmCarWakeUpFilterEnabled"]);
    ("setNmCarWakeUpFilterEnabled", [MAssign "nmCarWakeUpFilterEnabled"; MReturnSelf]);
    ("getNmCarWakeUpRxEnabled", [MReturnAttr "nmCarWakeUpRxEnabled"]);
    ("setNmCarWakeUpRxEnabled", [MAssign "nmCarWakeUpRxEnabled"; MReturnSelf]);
    ("getNmMsgCycleOffset", [MReturnAttr "nmMsgCycleOffset"]);
    ("setNmMsgCycleOffset", [MAssign "nmMsgCycleOffset"; MReturnSelf]);
    ("getNmMsgReducedTime", [MReturnAttr "nmMsgReducedTime"]);
    ("setNmMsgReducedTime", [MAssign "nmMsgReducedTime"; MReturnSelf]);
    ("getNmRangeConfig", [MReturnAttr "nmRangeConfig"]);
    ("setNmRangeConfig", [MAssign "nmRangeConfig"])]);
  ("J1939NodeName", [ (* line 434 *)
    ("getArbitraryAddressCapable", [MReturnAttr "arbitraryAddressCapable"]);
    ("setArbitraryAddressCapable", [MIfSome [MAssign "arbitraryAddressCapable"]; MReturnSelf]);
    ("getEcuInstance", [MReturnAttr "ecuInstance"]);
    ("setEcuInstance", [MIfSome [MAssign "ecuInstance"]; MReturnSelf]);
    ("getFunction", [MReturnAttr "function"]);
    ("setFunction", [MIfSome [MAssign "function"]; MReturnSelf]);
    ("getFunctionInstance", [MReturnAttr "functionInstance"]);
    ("setFunctionInstance", [MIfSome [MAssign "functionInstance"]; MReturnSelf]);
    ("getIdentitiyNumber", [MReturnAttr "identitiyNumber"]);
    ("setIdentitiyNumber", [MIfSome [MAssign "identitiyNumber"]; MReturnSelf]);
    ("getIndustryGroup", [MReturnAttr "industryGroup"]);
    ("setIndustryGroup", [MIfSome [MAssign "industryGroup"]; MReturnSelf]);
    ("getManufacturerCode", [MReturnAttr "manufacturerCode"]);
    ("setManufacturerCode", [MIfSome [MAssign "manufacturerCode"]; MReturnSelf]);
    ("getVehicleSystem", [MReturnAttr "vehicleSystem"]);
    ("setVehicleSystem", [MIfSome [MAssign "vehicleSystem"]; MReturnSelf]);
    ("getVehicleSystemInstance", [MReturnAttr "vehicleSystemInstance"]);
    ("setVehicleSystemInstance", [MIfSome [MAssign "vehicleSystemInstance"]; MReturnSelf])]);
  ("J1939NmNode", [ (* line 629 *)
    ("getAddressConfigurationCapability", [MReturnAttr "addressConfigurationCapability"]);
    ("setAddressConfigurationCapability", [MIfSome [MAssign "addressConfigurationCapability"]; MReturnSelf]);
    ("getNodeName", [MReturnAttr "nodeName"]);
    ("setNodeName", [MIfSome [MAssign "nodeName"]; MReturnSelf])]);
  ("UdpNmNode", [ (* line 684 *)
    ("getAllNmMessagesKeepAwake", [MReturnAttr "allNmMessagesKeepAwake"]);
    ("setAllNmMessagesKeepAwake", [MIfSome [MAssign "allNmMessagesKeepAwake"]; MReturnSelf]);
    ("getNmMsgCycleOffset", [MReturnAttr "nmMsgCycleOffset"]);
    ("setNmMsgCycleOffset", [MIfSome [MAssign "nmMsgCycleOffset"]; MReturnSelf])]);
  ("UdpNmEcu", [ (* line 776 *)
    ("getNmSynchronizationPointEnabled", [MReturnAttr "nmSynchronizationPointEnabled"]);
    ("setNmSynchronizationPointEnabled", [MIfSome [MAssign "nmSynchronizationPointEnabled"]; MReturnSelf])]);
  ("NmEcu", [ (* line 802 *)
    ("getBusDependentNmEcus", [MReturnAttr "busDependentNmEcus"]);
    ("getEcuInstanceRef", [MReturnAttr "ecuInstanceRef"]);
    ("setEcuInstanceRef", [MIfSome [MAssign "ecuInstanceRef"]; MReturnSelf]);
    ("getNmBusSynchronizationEnabled", [MReturnAttr "nmBusSynchronizationEnabled"]);
    ("setNmBusSynchronizationEnabled", [MIfSome [MAssign "nmBusSynchronizationEnabled"]; MReturnSelf]);
    ("getNmComControlEnabled", [MReturnAttr "nmComControlEnabled"]);
    ("setNmComControlEnabled", [MIfSome [MAssign "nmComControlEnabled"]; MReturnSelf]);
    ("getNmCoordinator", [MReturnAttr "nmCoordinator"]);
    ("setNmCoordinator", [MIfSome [MAssign "nmCoordinator"]; MReturnSelf]);
    ("getNmCycletimeMainFunction", [MReturnAttr "nmCycletimeMainFunction"]);
    ("setNmCycletimeMainFunction", [MIfSome [MAssign "nmCycletimeMainFunction"]; MReturnSelf]);
    ("getNmNodeDetectionEnabled", [MReturnAttr "nmNodeDetectionEnabled"]);
    ("setNmNodeDetectionEnabled", [MIfSome [MAssign "nmNodeDetectionEnabled"]; MReturnSelf]);
    ("getNmNodeIdEnabled", [MReturnAttr "nmNodeIdEnabled"]);
    ("setNmNodeIdEnabled", [MIfSome [MAssign "nmNodeIdEnabled"]; MReturnSelf]);
    ("getNmPduRxIndicationEnabled", [MReturnAttr "nmPduRxIndicationEnabled"]);
    ("setNmPduRxIndicationEnabled", [MIfSome [MAssign "nmPduRxIndicationEnabled"]; MReturnSelf]);
    ("getNmRemoteSleepIndEnabled", [MReturnAttr "nmRemoteSleepIndEnabled"]);
    ("setNmRemoteSleepIndEnabled", [MIfSome [MAssign "nmRemoteSleepIndEnabled"]; MReturnSelf]);
    ("getNmRepeatMsgIndEnabled", [MReturnAttr "nmRepeatMsgIndEnabled"]);
    ("setNmRepeatMsgIndEnabled", [MIfSome [MAssign "nmRepeatMsgIndEnabled"]; MReturnSelf]);
    ("getNmStateChangeIndEnabled", [MReturnAttr "nmStateChangeIndEnabled"]);
    ("setNmStateChangeIndEnabled", [MIfSome [MAssign "nmStateChangeIndEnabled"]; MReturnSelf]);
    ("getNmUserDataEnabled", [MReturnAttr "nmUserDataEnabled"]);
    ("setNmUserDataEnabled", [MIfSome [MAssign "nmUserDataEnabled"]; MReturnSelf])]);
  ("NmConfig", [ (* line 960 *)
    ("getCanNmClusters", [MOther]);
    ("getUdpNmClusters", [MOther]);
    ("getNmClusters", [MOther]);
    ("getNmClusterCouplings", [MReturnAttr "nmClusterCouplings"]);
    ("getNmIfEcus", [MReturnAttr "nmIfEcus"])]);
  ("NmCluster", [ (* line 1024 *)
    ("getCommunicationClusterRef", [MReturnAttr "communicationClusterRef"]);
    ("setCommunicationClusterRef", [MAssign "communicationClusterRef"; MReturnSelf]);
    ("getNmChannelId", [MReturnAttr "nmChannelId"]);
    ("setNmChannelId", [MAssign "nmChannelId"; MReturnSelf]);
    ("getNmChannelSleepMaster", [MReturnAttr "nmChannelSleepMaster"]);
    ("setNmChannelSleepMaster", [MAssign "nmChannelSleepMaster"; MReturnSelf]);
    ("getCanNmNodes", [MOther]);
    ("getUdpNmNodes", [MOther]);
    ("getJ1939NmNodes", [MOther]);
    ("getNmNodes", [MOther]);
    ("getNmNodeDetectionEnabled", [MReturnAttr "nmNodeDetectionEnabled"]);
    ("setNmNodeDetectionEnabled", [MAssign "nmNodeDetectionEnabled"; MReturnSelf]);
    ("getNmNodeIdEnabled", [MReturnAttr "nmNodeIdEnabled"]);
    ("setNmNodeIdEnabled", [MAssign "nmNodeIdEnabled"; MReturnSelf]);
    ("getNmPncParticipation", [MReturnAttr "nmPncParticipation"]);
    ("setNmPncParticipation", [MAssign "nmPncParticipation"; MReturnSelf]);
    ("getNmRepeatMsgIndEnabled", [MReturnAttr "nmRepeatMsgIndEnabled"]);
    ("setNmRepeatMsgIndEnabled", [MAssign "nmRepeatMsgIndEnabled"; MReturnSelf]);
    ("getNmSynchronizingNetwork", [MReturnAttr "_nmSynchronizingNetwork"]);
    ("setNmSynchronizingNetwork", [MAssign "_nmSynchronizingNetwork"; MReturnSelf])]);
  ("CanNmCluster", [ (* line 1163 *)
    ("getNmBusloadReductionActive", [MReturnAttr "nmBusloadReductionActive"]);
    ("setNmBusloadReductionActive", [MAssign "nmBusloadReductionActive"; MReturnSelf]);
    ("getNmCarWakeUpBitPosition", [MReturnAttr "nmCarWakeUpBitPosition"]);
    ("setNmCarWakeUpBitPosition", [MAssign "nmCarWakeUpBitPosition"; MReturnSelf]);
    ("getNmCarWakeUpFilterNodeId", [MReturnAttr "nmCarWakeUpFilterNodeId"]);
    ("setNmCarWakeUpFilterNodeId", [MAssign "nmCarWakeUpFilterNodeId"; MReturnSelf]);
    ("getNmCarWakeUpRxEnabled", [MReturnAttr "nmCarWakeUpRxEnabled"]);
    ("setNmCarWakeUpRxEnabled", [MAssign "nmCarWakeUpRxEnabled"; MReturnSelf]);
    ("getNmCbvPosition", [MReturnAttr "nmCbvPosition"]);
    ("setNmCbvPosition", [MAssign "nmCbvPosition"; MReturnSelf]);
    ("getNmChannelActive", [MReturnAttr "nmChannelActive"]);
    ("setNmChannelActive", [MAssign "nmChannelActive"; MReturnSelf]);
    ("getNmImmediateNmCycleTime", [MReturnAttr "nmImmediateNmCycleTime"]);
    ("setNmImmediateNmCycleTime", [MAssign "nmImmediateNmCycleTime"; MReturnSelf]);
    ("getNmImmediateNmTransmissions", [MReturnAttr "nmImmediateNmTransmissions"]);
    ("setNmImmediateNmTransmissions", [MAssign "nmImmediateNmTransmissions"; MReturnSelf]);
    ("getNmMessageTimeoutTime", [MReturnAttr "nmMessageTimeoutTime"]);
    ("setNmMessageTimeoutTime", [MAssign "nmMessageTimeoutTime"; MReturnSelf]);
    ("getNmMsgCycleTime", [MReturnAttr "nmMsgCycleTime"]);
    ("setNmMsgCycleTime", [MAssign "nmMsgCycleTime"; MReturnSelf]);
    ("getNmNetworkTimeout", [MReturnAttr "nmNetworkTimeout"]);
    ("setNmNetworkTimeout", [MAssign "nmNetworkTimeout"; MReturnSelf]);
    ("getNmNidPosition", [MReturnAttr "nmNidPosition"]);
    ("setNmNidPosition", [MAssign "nmNidPosition"; MReturnSelf]);
    ("getNmRemoteSleepIndicationTime", [MReturnAttr "nmRemoteSleepIndicationTime"]);
    ("setNmRemoteSleepIndicationTime", [MAssign "nmRemoteSleepIndicationTime"; MReturnSelf]);
    ("getNmRepeatMessageTime", [MReturnAttr "nmRepeatMessageTime"]);
    ("setNmRepeatMessageTime", [MAssign "nmRepeatMessageTime"; MReturnSelf]);
    ("getNmUserDataLength", [MReturnAttr "nmUserDataLength"]);
    ("setNmUserDataLength", [MAssign "nmUserDataLength"; MReturnSelf]);
    ("getNmWaitBusSleepTime", [MReturnAttr "nmWaitBusSleepTime"]);
    ("setNmWaitBusSleepTime", [MAssign "nmWaitBusSleepTime"; MReturnSelf])]);
  ("UdpNmClusterCoupling", [ (* line 1366 *)
    ("getCoupledClusterRefs", [MReturnAttr "coupledClusterRefs"]);
    ("getNmImmediateRestartEnabled", [MReturnAttr "nmImmediateRestartEnabled"]);
    ("setNmImmediateRestartEnabled", [MIfSome [MAssign "nmImmediateRestartEnabled"]; MReturnSelf])]);
  ("UdpNmCluster", [ (* line 1403 *)
    ("getNmCbvPosition", [MReturnAttr "nmCbvPosition"]);
    ("setNmCbvPosition", [MIfSome [MAssign "nmCbvPosition"]; MReturnSelf]);
    ("getNmChannelActive", [MReturnAttr "nmChannelActive"]);
    ("setNmChannelActive", [MIfSome [MAssign "nmChannelActive"]; MReturnSelf]);
    ("getNmImmediateNmCycleTime", [MReturnAttr "nmImmediateNmCycleTime"]);
    ("setNmImmediateNmCycleTime", [MIfSome [MAssign "nmImmediateNmCycleTime"]; MReturnSelf]);
    ("getNmImmediateNmTransmissions", [MReturnAttr "nmImmediateNmTransmissions"]);
    ("setNmImmediateNmTransmissions", [MIfSome [MAssign "nmImmediateNmTransmissions"]; MReturnSelf]);
    ("getNmMessageTimeoutTime", [MReturnAttr "nmMessageTimeoutTime"]);
    ("setNmMessageTimeoutTime", [MIfSome [MAssign "nmMessageTimeoutTime"]; MReturnSelf]);
    ("getNmMsgCycleTime", [MReturnAttr "nmMsgCycleTime"]);
    ("setNmMsgCycleTime", [MIfSome [MAssign "nmMsgCycleTime"]; MReturnSelf]);
    ("getNmNetworkTimeout", [MReturnAttr "nmNetworkTimeout"]);
    ("setNmNetworkTimeout", [MIfSome [MAssign "nmNetworkTimeout"]; MReturnSelf]);
    ("getNmNidPosition", [MReturnAttr "nmNidPosition"]);
    ("setNmNidPosition", [MIfSome [MAssign "nmNidPosition"]; MReturnSelf]);
    ("getNmRemoteSleepIndicationTime", [MReturnAttr "nmRemoteSleepIndicationTime"]);
    ("setNmRemoteSleepIndicationTime", [MIfSome [MAssign "nmRemoteSleepIndicationTime"]; MReturnSelf]);
    ("getNmRepeatMessageTime", [MReturnAttr "nmRepeatMessageTime"]);
    ("setNmRepeatMessageTime", [MIfSome [MAssign "nmRepeatMessageTime"]; MReturnSelf]);
    ("getNmWaitBusSleepTime", [MReturnAttr "nmWaitBusSleepTime"]);
    ("setNmWaitBusSleepTime", [MIfSome [MAssign "nmWaitBusSleepTime"]; MReturnSelf]);
    ("getVlanRef", [MReturnAttr "vlanRef"]);
    ("setVlanRef", [MIfSome [MAssign "vlanRef"]; MReturnSelf])]);
  (* models/M2/AUTOSARTemplates/SystemTemplate/RteEventToOsTaskMapping.py *)
  ("AppOsTaskProxyToEcuTaskProxyMapping", [ (* line 8 *)
    ("getAppTaskProxyRef", [MReturnAttr "appTaskProxyRef"]);
    ("setAppTaskProxyRef", [MIfSome [MAssign "appTaskProxyRef"]; MReturnSelf]);
    ("getEcuTaskProxyRef", [MReturnAttr "ecuTaskProxyRef"]);
    ("setEcuTaskProxyRef", [MIfSome [MAssign "ecuTaskProxyRef"]; MReturnSelf]);
    ("getOffset", [MReturnAttr "offset"]);
    ("setOffset", [MIfSome [MAssign "offset"]; MReturnSelf])]);
  (* models/M2/AUTOSARTemplates/SystemTemplate/SWmapping.py *)
  ("SwcToImplMapping", [ (* line 10 *)
    ("getComponentIRefs", [MReturnAttr "componentIRefs"]);
    ("getComponentImplementationRef", [MReturnAttr "componentImplementationRef"]);
    ("setComponentImplementationRef", [MIfSome [MAssign "componentImplementationRef"]; MReturnSelf])]);
  ("ApplicationPartitionToEcuPartitionMapping", [ (* line 47 *)
    ("getApplicationPartitionRefs", [MReturnAttr "applicationPartitionRefs"]);
    ("getEcuPartitionRef", [MReturnAttr "ecuPartitionRef"]);
    ("setEcuPartitionRef", [MIfSome [MAssign "ecuPartitionRef"]; MReturnSelf])]);
  (* models/M2/AUTOSARTemplates/SystemTemplate/SecureCommunication.py *)
  ("SecOcCryptoServiceMapping", [ (* line 26 *)
    ("getAuthenticationRef", [MReturnAttr "authenticationRef"]);
    ("setAuthenticationRef", [MIfSome [MAssign "authenticationRef"]; MReturnSelf]);
    ("getCryptoServiceKeyRef", [MReturnAttr "cryptoServiceKeyRef"]);
    ("setCryptoServiceKeyRef", [MIfSome [MAssign "cryptoServiceKeyRef"]; MReturnSelf]);
    ("getCryptoServiceQueueRef", [MReturnAttr "cryptoServiceQueueRef"]);
    ("setCryptoServiceQueueRef", [MIfSome [MAssign "cryptoServiceQueueRef"]; MReturnSelf])]);
  ("TlsCryptoServiceMapping", [ (* line 74 *)
    ("getKeyExchangeRef", [MReturnAttr "keyExchangeRef"]);
    ("setKeyExchangeRef", [MIfSome [MAssign "keyExchangeRef"]; MReturnSelf]);
    ("getTlsCipherSuites", [MReturnAttr "tlsCipherSuites"]);
    ("getUseClientAuthenticationRequest", [MReturnAttr "useClientAuthenticationRequest"]);
    ("setUseClientAuthenticationRequest", [MIfSome [MAssign "useClientAuthenticationRequest"]; MReturnSelf]);
    ("getUseSecurityExtensionRecordSizeLimit", [MReturnAttr "useSecurityExtensionRecordSizeLimit"]);
    ("setUseSecurityExtensionRecordSizeLimit", [MIfSome [MAssign "useSecurityExtensionRecordSizeLimit"]; MReturnSelf])]);
  (* models/M2/AUTOSARTemplates/SystemTemplate/TransportProtocols.py *)
  ("TpConfig", [ (* line 14 *)
    ("getCommunicationClusterRef", [MReturnAttr "communicationClusterRef"]);
    ("setCommunicationClusterRef", [MIfSome [MAssign "communicationClusterRef"]; MReturnSelf])]);
  ("CanTpAddress", [ (* line 43 *)
    ("getTpAddress", [MReturnAttr "tpAddress"]);
    ("setTpAddress", [MIfSome [MAssign "tpAddress"]; MReturnSelf]);
    ("getTpAddressExtensionValue", [MReturnAttr "tpAddressExtensionValue"]);
    ("setTpAddressExtensionValue", [MIfSome [MAssign "tpAddressExtensionValue"]; MReturnSelf])]);
  ("CanTpChannel", [ (* line 80 *)
    ("getChannelId", [MReturnAttr "channelId"]);
    ("setChannelId", [MIfSome [MAssign "channelId"]; MReturnSelf]);
    ("getChannelMode", [MReturnAttr "channelMode"]);
    ("setChannelMode", [MIfSome [MAssign "channelMode"]; MReturnSelf])]);
  ("TpConnection", [ (* line 130 *)
    ("getIdent", [MReturnAttr "ident"])]);
  ("CanTpConnection", [ (* line 159 *)
    ("getAddressingFormat", [MReturnAttr "addressingFormat"]);
    ("setAddressingFormat", [MIfSome [MAssign "addressingFormat"]; MReturnSelf]);
    ("getCancellation", [MReturnAttr "cancellation"]);
    ("setCancellation", [MIfSome [MAssign "cancellation"]; MReturnSelf]);
    ("getCanTpChannelRef", [MReturnAttr "canTpChannelRef"]);
    ("setCanTpChannelRef", [MIfSome [MAssign "canTpChannelRef"]; MReturnSelf]);
    ("getDataPduRef", [MReturnAttr "dataPduRef"]);
    ("setDataPduRef", [MIfSome [MAssign "dataPduRef"]; MReturnSelf]);
    ("getFlowControlPduRef", [MReturnAttr "flowControlPduRef"]);
    ("setFlowControlPduRef", [MIfSome [MAssign "flowControlPduRef"]; MReturnSelf]);
    ("getMaxBlockSize", [MReturnAttr "maxBlockSize"]);
    ("setMaxBlockSize", [MIfSome [MAssign "maxBlockSize"]; MReturnSelf]);
    ("getMulticastRef", [MReturnAttr "multicastRef"]);
    ("setMulticastRef", [MIfSome [MAssign "multicastRef"]; MReturnSelf]);
    ("getPaddingActivation", [MReturnAttr "paddingActivation"]);
    ("setPaddingActivation", [MIfSome [MAssign "paddingActivation"]; MReturnSelf]);
    ("getReceiverRefs", [MReturnAttr "receiverRefs"]);
    ("getTaType", [MReturnAttr "taType"]);
    ("setTaType", [MIfSome [MAssign "taType"]; MReturnSelf]);
    ("getTimeoutBr", [MReturnAttr "timeoutBr"]);
    ("setTimeoutBr", [MIfSome [MAssign "timeoutBr"]; MReturnSelf]);
    ("getTimeoutBs", [MReturnAttr "timeoutBs"]);
    ("setTimeoutBs", [MIfSome [MAssign "timeoutBs"]; MReturnSelf]);
    ("getTimeoutCr", [MReturnAttr "timeoutCr"]);
    ("setTimeoutCr", [MIfSome [MAssign "timeoutCr"]; MReturnSelf]);
    ("getTimeoutCs", [MReturnAttr "timeoutCs"]);
    ("setTimeoutCs", [MIfSome [MAssign "timeoutCs"]; MReturnSelf]);
    ("getTpSduRef", [MReturnAttr "tpSduRef"]);
    ("setTpSduRef", [MIfSome [MAssign "tpSduRef"]; MReturnSelf]);
    ("getTransmitterRef", [MReturnAttr "transmitterRef"]);
    ("setTransmitterRef", [MIfSome [MAssign "transmitterRef"]; MReturnSelf])]);
  ("CanTpEcu", [ (* line 350 *)
    ("getCycleTimeMainFunction", [MReturnAttr "cycleTimeMainFunction"]);
    ("setCycleTimeMainFunction", [MIfSome [MAssign "cycleTimeMainFunction"]; MReturnSelf]);
    ("getEcuInstanceRef", [MReturnAttr "ecuInstanceRef"]);
    ("setEcuInstanceRef", [MIfSome [MAssign "ecuInstanceRef"]; MReturnSelf])]);
  ("CanTpNode", [ (* line 387 *)
    ("getConnectorRef", [MReturnAttr "connectorRef"]);
    ("setConnectorRef", [MIfSome [MAssign "connectorRef"]; MReturnSelf]);
    ("getMaxFcWait", [MReturnAttr "maxFcWait"]);
    ("setMaxFcWait", [MIfSome [MAssign "maxFcWait"]; MReturnSelf]);
    ("getStMin", [MReturnAttr "stMin"]);
    ("setStMin", [MIfSome [MAssign "stMin"]; MReturnSelf]);
    ("getTimeoutAr", [MReturnAttr "timeoutAr"]);
    ("setTimeoutAr", [MIfSome [MAssign "timeoutAr"]; MReturnSelf]);
    ("getTimeoutAs", [MReturnAttr "timeoutAs"]);
    ("setTimeoutAs", [MIfSome [MAssign "timeoutAs"]; MReturnSelf]);
    ("getTpAddressRef", [MReturnAttr "tpAddressRef"]);
    ("setTpAddressRef", [MIfSome [MAssign "tpAddressRef"]; MReturnSelf])]);
  ("CanTpConfig", [ (* line 468 *)
    ("getTpAddresses", [MReturnAttr "tpAddresses"]);
    ("getTpChannels", [MReturnAttr "tpChannels"]);
    ("getTpConnections", [MReturnAttr "tpConnections"]);
    ("getTpEcus", [MReturnAttr "tpEcus"]);
    ("getTpNodes", [MReturnAttr "tpNodes"])]);
  ("DoIpLogicAddress", [ (* line 544 *)
    ("getAddress", [MReturnAttr "address"]);
    ("setAddress", [MIfSome [MAssign "address"]; MReturnSelf]);
    ("getDoIpLogicAddressProps", [MReturnAttr "doIpLogicAddressProps"]);
    ("setDoIpLogicAddressProps", [MIfSome [MAssign "doIpLogicAddressProps"]; MReturnSelf])]);
  ("DoIpTpConnection", [ (* line 581 *)
    ("getDoIpSourceAddressRef", [MReturnAttr "doIpSourceAddressRef"]);
    ("setDoIpSourceAddressRef", [MIfSome [MAssign "doIpSourceAddressRef"]; MReturnSelf]);
    ("getDoIpTargetAddressRef", [MReturnAttr "doIpTargetAddressRef"]);
    ("setDoIpTargetAddressRef", [MIfSome [MAssign "doIpTargetAddressRef"]; MReturnSelf]);
    ("getTpSduRef", [MReturnAttr "tpSduRef"]);
    ("setTpSduRef", [MIfSome [MAssign "tpSduRef"]; MReturnSelf])]);
  ("DoIpTpConfig", [ (* line 629 *)
    ("getDoIpLogicAddresses", [MReturnAttr "doIpLogicAddresses"]);
    ("getTpConnections", [MReturnAttr "tpConnections"])]);
  ("TpAddress", [ (* line 668 *)
    ("getTpAddress", [MReturnAttr "tpAddress"]);
    ("setTpAddress", [MIfSome [MAssign "tpAddress"]; MReturnSelf])]);
  ("LinTpConnection", [ (* line 693 *)
    ("getDataPduRef", [MReturnAttr "dataPduRef"]);
    ("setDataPduRef", [MIfSome [MAssign "dataPduRef"]; MReturnSelf]);
    ("getFlowControlRef", [MReturnAttr "flowControlRef"]);
    ("setFlowControlRef", [MIfSome [MAssign "flowControlRef"]; MReturnSelf]);
    ("getLinTpNSduRef", [MReturnAttr "linTpNSduRef"]);
    ("setLinTpNSduRef", [MIfSome [MAssign "linTpNSduRef"]; MReturnSelf]);
    ("getMulticastRef", [MReturnAttr "multicastRef"]);
    ("setMulticastRef", [MIfSome [MAssign "multicastRef"]; MReturnSelf]);
    ("getReceiverRefs", [MReturnAttr "receiverRefs"]);
    ("getTimeoutAs", [MReturnAttr "timeoutAs"]);
    ("setTimeoutAs", [MIfSome [MAssign "timeoutAs"]; MReturnSelf]);
    ("getTimeoutCr", [MReturnAttr "timeoutCr"]);
    ("setTimeoutCr", [MIfSome [MAssign "timeoutCr"]; MReturnSelf]);
    ("getTimeoutCs", [MReturnAttr "timeoutCs"]);
    ("setTimeoutCs", [MIfSome [MAssign "timeoutCs"]; MReturnSelf]);
    ("getTransmitterRef", [MReturnAttr "transmitterRef"]);
    ("setTransmitterRef", [MIfSome [MAssign "transmitterRef"]; MReturnSelf])]);
  ("LinTpNode", [ (* line 807 *)
    ("getConnectorRef", [MReturnAttr "connectorRef"]);
    ("setConnectorRef", [MIfSome [MAssign "connectorRef"]; MReturnSelf]);
    ("getDropNotRequestedNad", [MReturnAttr "dropNotRequestedNad"]);
    ("setDropNotRequestedNad", [MIfSome [MAssign "dropNotRequestedNad"]; MReturnSelf]);
    ("getMaxNumberOfRespPendingFrames", [MReturnAttr "maxNumberOfRespPendingFrames"]);
    ("setMaxNumberOfRespPendingFrames", [MIfSome [MAssign "maxNumberOfRespPendingFrames"]; MReturnSelf]);
    ("getP2Max", [MReturnAttr "p2Max"]);
    ("setP2Max", [MIfSome [MAssign "p2Max"]; MReturnSelf]);
    ("getP2Timing", [MReturnAttr "p2Timing"]);
    ("setP2Timing", [MIfSome [MAssign "p2Timing"]; MReturnSelf]);
    ("getTpAddressRef", [MReturnAttr "tpAddressRef"]);
    ("setTpAddressRef", [MIfSome [MAssign "tpAddressRef"]; MReturnSelf])]);
  ("LinTpConfig", [ (* line 888 *)
    ("getTpAddresses", [MReturnAttr "tpAddresses"]);
    ("getTpConnections", [MReturnAttr "tpConnections"]);
    ("getTpNodes", [MReturnAttr "tpNodes"])]);
  (* models/M2/AUTOSARTemplates/SystemTemplate/__init__.py *)
  ("SwcToEcuMapping", [ (* line 23 *)
    ("getComponentIRefs", [MReturnAttr "componentIRefs"]);
    ("getControlledHwElementRef", [MReturnAttr "controlledHwElementRef"]);
    ("setControlledHwElementRef", [MAssign "controlledHwElementRef"; MReturnSelf]);
    ("getEcuInstanceRef", [MReturnAttr "ecuInstanceRef"]);
    ("setEcuInstanceRef", [MAssign "ecuInstanceRef"; MReturnSelf]);
    ("getProcessingUnitRef", [MReturnAttr "processingUnitRef"]);
    ("setProcessingUnitRef", [MAssign "processingUnitRef"; MReturnSelf])]);
  ("ComManagementMapping", [ (* line 78 *)
    ("getComManagementGroupRefs", [MReturnAttr "comManagementGroupRefs"]);
    ("getComManagementPortGroupRefs", [MReturnAttr "comManagementPortGroupRefs"]);
    ("getPhysicalChannelRef", [MReturnAttr "physicalChannelRef"]);
    ("setPhysicalChannelRef", [MIfSome [MAssign "physicalChannelRef"]; MReturnSelf])]);
  ("SystemMapping", [ (* line 126 *)
    ("getApplicationPartitionToEcuPartitionMappings", [MReturnAttr "applicationPartitionToEcuPartitionMappings"]);
    ("getAppOsTaskProxyToEcuTaskProxyMappings", [MReturnAttr "appOsTaskProxyToEcuTaskProxyMappings"]);
    ("getComManagementMappings", [MReturnAttr "comManagementMappings"]);
    ("getCryptoServiceMappings", [MReturnAttr "cryptoServiceMappings"]);
    ("getDataMappings", [MReturnAttr "dataMappings"]);
    ("getDdsISignalToTopicMapping", [MReturnAttr "ddsISignalToTopicMappings"]);
    ("getEcuResourceMappings", [MReturnAttr "ecuResourceMappings"]);
    ("getJ1939ControllerApplicationToJ1939NmNodeMappings", [MReturnAttr "j1939ControllerApplicationToJ1939NmNodeMappings"]);
    ("getMappingConstraints", [MReturnAttr "mappingConstraints"]);
    ("getPncMappings", [MReturnAttr "pncMappings"]);
    ("getPortElementToComResourceMappings", [MReturnAttr "portElementToComResourceMappings"]);
    ("getResourceEstimations", [MReturnAttr "resourceEstimations"]);
    ("getResourceToApplicationPartitionMappings", [MReturnAttr "resourceToApplicationPartitionMappings"]);
    ("getRteEventSeparations", [MReturnAttr "rteEventSeparations"]);
    ("getRteEventToOsTaskProxyMappings", [MReturnAttr "rteEventToOsTaskProxyMappings"]);
    ("getSignalPathConstraints", [MReturnAttr "signalPathConstraints"]);
    ("getSoftwareClusterToApplicationPartitionMappings", [MReturnAttr "softwareClusterToApplicationPartitionMappings"]);
    ("getSoftwareClusterToResourceMappings", [MReturnAttr "softwareClusterToResourceMappings"]);
    ("getSwClusterMappings", [MReturnAttr "swClusterMappings"]);
    ("getSwcToApplicationPartitionMappings", [MReturnAttr "swcToApplicationPartitionMappings"]);
    ("getSwImplMappings", [MReturnAttr "swImplMappings"]);
    ("getSwMappings", [MReturnAttr "swMappings"]);
    ("getSwcToEcuMappings", [MOther]);
    ("getSystemSignalGroupToComResourceMappings", [MReturnAttr "systemSignalGroupToComResourceMappings"]);
    ("getSystemSignalToComResourceMappings", [MReturnAttr "systemSignalToComResourceMappings"])]);
  ("RootSwCompositionPrototype", [ (* line 395 *)
    ("getCalibrationParameterValueSetRefs", [MReturnAttr "calibrationParameterValueSetRefs"]);
    ("getFlatMapRef", [MReturnAttr "flatMapRef"]);
    ("setFlatMapRef", [MIfSome [MAssign "flatMapRef"]; MReturnSelf]);
    ("getSoftwareCompositionTRef", [MReturnAttr "softwareCompositionTRef"]);
    ("setSoftwareCompositionTRef", [MIfSome [MAssign "softwareCompositionTRef"]; MReturnSelf])]);
  ("J1939SharedAddressCluster", [ (* line 470 *)
    ("getParticipatingJ1939ClusterRefs", [MReturnAttr "participatingJ1939ClusterRefs"])]);
  ("System", [ (* line 496 *)
    ("getClientIdDefinitionSetRefs", [MReturnAttr "clientIdDefinitionSetRefs"]);
    ("getContainerIPduHeaderByteOrder", [MReturnAttr "containerIPduHeaderByteOrder"]);
    ("setContainerIPduHeaderByteOrder", [MAssign "containerIPduHeaderByteOrder"; MReturnSelf]);
    ("getEcuExtractVersion", [MReturnAttr "ecuExtractVersion"]);
    ("setEcuExtractVersion", [MAssign "ecuExtractVersion"; MReturnSelf]);
    ("getFibexElementRefs", [MReturnAttr "fibexElements"]);
    ("getInterpolationRoutineMappingSetRefs", [MReturnAttr "interpolationRoutineMappingSetRefs"]);
    ("getJ1939SharedAddressClusters", [MReturnAttr "j1939SharedAddressClusters"]);
    ("setJ1939SharedAddressClusters", [MOther; MReturnSelf]);
    ("getMappings", [MOther]);
    ("getSystemMappings", [MOther]);
    ("getPncVectorLength", [MReturnAttr "pncVectorLength"]);
    ("setPncVectorLength", [MAssign "pncVectorLength"; MReturnSelf]);
    ("getPncVectorOffset", [MReturnAttr "pncVectorOffset"]);
    ("setPncVectorOffset", [MAssign "pncVectorOffset"; MReturnSelf]);
    ("getRootSoftwareComposition", [MReturnAttr "rootSoftwareComposition"]);
    ("getSwClusterRefs", [MReturnAttr "swClusterRefs"]);
    ("getSystemDocumentation", [MReturnAttr "systemDocumentation"]);
    ("setSystemDocumentation", [MAssign "systemDocumentation"; MReturnSelf]);
    ("getSystemVersion", [MReturnAttr "systemVersion"]);
    ("setSystemVersion", [MAssign "systemVersion"; MReturnSelf])]);
  (* models/M2/AUTOSARTemplates/SystemTemplate/Fibex/Fibex4Multiplatform.py *)
  ("FrameMapping", [ (* line 10 *)
    ("getIntroduction", [MReturnAttr "introduction"]);
    ("setIntroduction", [MAssign "introduction"; MReturnSelf]);
    ("getSourceFrameRef", [MReturnAttr "sourceFrameRef"]);
    ("setSourceFrameRef", [MAssign "sourceFrameRef"; MReturnSelf]);
    ("getTargetFrameRef", [MReturnAttr "targetFrameRef"]);
    ("setTargetFrameRef", [MAssign "targetFrameRef"; MReturnSelf])]);
  ("ISignalMapping", [ (* line 53 *)
    ("getIntroduction", [MReturnAttr "introduction"]);
    ("setIntroduction", [MAssign "introduction"; MReturnSelf]);
    ("getSourceSignalRef", [MReturnAttr "sourceSignalRef"]);
    ("setSourceSignalRef", [MAssign "sourceSignalRef"; MReturnSelf]);
    ("getTargetSignalRef", [MReturnAttr "targetSignalRef"]);
    ("setTargetSignalRef", [MAssign "targetSignalRef"; MReturnSelf])]);
  ("DefaultValueElement", [ (* line 97 *)
    ("getElementByteValue", [MReturnAttr "elementByteValue"]);
    ("setElementByteValue", [MIfSome [MAssign "elementByteValue"]; MReturnSelf]);
    ("getElementPosition", [MReturnAttr "elementPosition"]);
    ("setElementPosition", [MIfSome [MAssign "elementPosition"]; MReturnSelf])]);
  ("PduMappingDefaultValue", [ (* line 133 *)
    ("getDefaultValueElements", [MReturnAttr "defaultValueElements"])]);
  ("TargetIPduRef", [ (* line 158 *)
    ("getDefaultValue", [MReturnAttr "defaultValue"]);
    ("setDefaultValue", [MIfSome [MAssign "defaultValue"]; MReturnSelf]);
    ("getTargetIPdu", [MReturnAttr "targetIPdu"]);
    ("setTargetIPdu", [MIfSome [MAssign "targetIPdu"]; MReturnSelf])]);
  ("IPduMapping", [ (* line 193 *)
    ("getIntroduction", [MReturnAttr "introduction"]);
    ("setIntroduction", [MIfSome [MAssign "introduction"]; MReturnSelf]);
    ("getPdurTpChunkSize", [MReturnAttr "pdurTpChunkSize"]);
    ("setPdurTpChunkSize", [MIfSome [MAssign "pdurTpChunkSize"]; MReturnSelf]);
    ("getSourceIpduRef", [MReturnAttr "sourceIpduRef"]);
    ("setSourceIpduRef", [MIfSome [MAssign "sourceIpduRef"]; MReturnSelf]);
    ("getTargetIPdu", [MReturnAttr "targetIPdu"]);
    ("setTargetIPdu", [MIfSome [MAssign "targetIPdu"]; MReturnSelf])]);
  ("Gateway", [ (* line 251 *)
    ("getEcuRef", [MReturnAttr "ecuRef"]);
    ("setEcuRef", [MAssign "ecuRef"; MReturnSelf]);
    ("getFrameMappings", [MReturnAttr "frameMappings"]);
    ("getIPduMappings", [MReturnAttr "iPduMappings"]);
    ("getSignalMappings", [MReturnAttr "signalMappings"])]);
  (* models/M2/AUTOSARTemplates/SystemTemplate/Fibex/Fibex4Can/CanCommunication.py *)
  ("RxIdentifierRange", [ (* line 9 *)
    ("getLowerCanId", [MReturnAttr "lowerCanId"]);
    ("setLowerCanId", [MAssign "lowerCanId"; MReturnSelf]);
    ("getUpperCanId", [MReturnAttr "upperCanId"]);
    ("setUpperCanId", [MAssign "upperCanId"; MReturnSelf])]);
  ("CanFrameTriggering", [ (* line 58 *)
    ("getAbsolutelyScheduledTimings", [MReturnAttr "absolutelyScheduledTimings"]);
    ("setAbsolutelyScheduledTimings", [MAssign "absolutelyScheduledTimings"; MReturnSelf]);
    ("getCanAddressingMode", [MReturnAttr "canAddressingMode"]);
    ("setCanAddressingMode", [MAssign "canAddressingMode"; MReturnSelf]);
    ("getCanFdFrameSupport", [MReturnAttr "canFdFrameSupport"]);
    ("setCanFdFrameSupport", [MAssign "canFdFrameSupport"; MReturnSelf]);
    ("getCanFrameRxBehavior", [MReturnAttr "canFrameRxBehavior"]);
    ("setCanFrameRxBehavior", [MAssign "canFrameRxBehavior"; MReturnSelf]);
    ("getCanFrameTxBehavior", [MReturnAttr "canFrameTxBehavior"]);
    ("setCanFrameTxBehavior", [MAssign "canFrameTxBehavior"; MReturnSelf]);
    ("getCanXlFrameTriggeringProps", [MReturnAttr "canXlFrameTriggeringProps"]);
    ("setCanXlFrameTriggeringProps", [MAssign "canXlFrameTriggeringProps"; MReturnSelf]);
    ("getIdentifier", [MReturnAttr "identifier"]);
    ("setIdentifier", [MAssign "identifier"; MReturnSelf]);
    ("getJ1939requestable", [MReturnAttr "j1939requestable"]);
    ("setJ1939requestable", [MAssign "j1939requestable"; MReturnSelf]);
    ("getRxIdentifierRange", [MReturnAttr "rxIdentifierRange"]);
    ("setRxIdentifierRange", [MAssign "rxIdentifierRange"; MReturnSelf]);
    ("getRxMask", [MReturnAttr "rxMask"]);
    ("setRxMask", [MAssign "rxMask"; MReturnSelf]);
    ("getTxMask", [MReturnAttr "txMask"]);
    ("setTxMask", [MAssign "txMask"; MReturnSelf])]);
  (* models/M2/AUTOSARTemplates/SystemTemplate/Fibex/Fibex4Can/CanTopology.py *)
  ("CanControllerFdConfiguration", [ (* line 13 *)
    ("getPaddingValue", [MReturnAttr "paddingValue"]);
    ("setPaddingValue", [MIfSome [MAssign "paddingValue"]; MReturnSelf]);
    ("getPropSeg", [MReturnAttr "propSeg"]);
    ("setPropSeg", [MIfSome [MAssign "propSeg"]; MReturnSelf]);
    ("getSspOffset", [MReturnAttr "sspOffset"]);
    ("setSspOffset", [MIfSome [MAssign "sspOffset"]; MReturnSelf]);
    ("getSyncJumpWidth", [MReturnAttr "syncJumpWidth"]);
    ("setSyncJumpWidth", [MIfSome [MAssign "syncJumpWidth"]; MReturnSelf]);
    ("getTimeSeg1", [MReturnAttr "timeSeg1"]);
    ("setTimeSeg1", [MIfSome [MAssign "timeSeg1"]; MReturnSelf]);
    ("getTimeSeg2", [MReturnAttr "timeSeg2"]);
    ("setTimeSeg2", [MIfSome [MAssign "timeSeg2"]; MReturnSelf]);
    ("getTxBitRateSwitch", [MReturnAttr "txBitRateSwitch"]);
    ("setTxBitRateSwitch", [MIfSome [MAssign "txBitRateSwitch"]; MReturnSelf])]);
  ("CanControllerFdConfigurationRequirements", [ (* line 166 *)
    ("getMaxNumberOfTimeQuantaPerBit", [MReturnAttr "maxNumberOfTimeQuantaPerBit"]);
    ("setMaxNumberOfTimeQuantaPerBit", [MIfSome [MAssign "maxNumberOfTimeQuantaPerBit"]; MReturnSelf]);
    ("getMaxSamplePoint", [MReturnAttr "maxSamplePoint"]);
    ("setMaxSamplePoint", [MIfSome [MAssign "maxSamplePoint"]; MReturnSelf]);
    ("getMaxSyncJumpWidth", [MReturnAttr "maxSyncJumpWidth"]);
    ("setMaxSyncJumpWidth", [MIfSome [MAssign "maxSyncJumpWidth"]; MReturnSelf]);
    ("getMaxTrcvDelayCompensationOffset", [MReturnAttr "maxTrcvDelayCompensationOffset"]);
    ("setMaxTrcvDelayCompensationOffset", [MIfSome [MAssign "maxTrcvDelayCompensationOffset"]; MReturnSelf]);
    ("getMinNumberOfTimeQuantaPerBit", [MReturnAttr "minNumberOfTimeQuantaPerBit"]);
    ("setMinNumberOfTimeQuantaPerBit", [MIfSome [MAssign "minNumberOfTimeQuantaPerBit"]; MReturnSelf]);
    ("getMinSamplePoint", [MReturnAttr "minSamplePoint"]);
    ("setMinSamplePoint", [MIfSome [MAssign "minSamplePoint"]; MReturnSelf]);
    ("getMinSyncJumpWidth", [MReturnAttr "minSyncJumpWidth"]);
    ("setMinSyncJumpWidth", [MIfSome [MAssign "minSyncJumpWidth"]; MReturnSelf]);
    ("getMinTrcvDelayCompensationOffset", [MReturnAttr "minTrcvDelayCompensationOffset"]);
    ("setMinTrcvDelayCompensationOffset", [MIfSome [MAssign "minTrcvDelayCompensationOffset"]; MReturnSelf]);
    ("getPaddingValue", [MReturnAttr "paddingValue"]);
    ("setPaddingValue", [MIfSome [MAssign "paddingValue"]; MReturnSelf]);
    ("getTxBitRateSwitch", [MReturnAttr "txBitRateSwitch"]);
    ("setTxBitRateSwitch", [MIfSome [MAssign "txBitRateSwitch"]; MReturnSelf])]);
  ("CanControllerXlConfiguration", [ (* line 291 *)
    ("getErrorSignalingEnabled", [MReturnAttr "errorSignalingEnabled"]);
    ("setErrorSignalingEnabled", [MIfSome [MAssign "errorSignalingEnabled"]; MReturnSelf]);
    ("getPropSeg", [MReturnAttr "propSeg"]);
    ("setPropSeg", [MIfSome [MAssign "propSeg"]; MReturnSelf]);
    ("getPwmL", [MReturnAttr "pwmL"]);
    ("setPwmL", [MIfSome [MAssign "pwmL"]; MReturnSelf]);
    ("getPwmO", [MReturnAttr "pwmO"]);
    ("setPwmO", [MIfSome [MAssign "pwmO"]; MReturnSelf]);
    ("getPwmS", [MReturnAttr "pwmS"]);
    ("setPwmS", [MIfSome [MAssign "pwmS"]; MReturnSelf]);
    ("getSspOffset", [MReturnAttr "sspOffset"]);
    ("setSspOffset", [MIfSome [MAssign "sspOffset"]; MReturnSelf]);
    ("getSyncJumpWidth", [MReturnAttr "syncJumpWidth"]);
    ("setSyncJumpWidth", [MIfSome [MAssign "syncJumpWidth"]; MReturnSelf]);
    ("getTimeSeg1", [MReturnAttr "timeSeg1"]);
    ("setTimeSeg1", [MIfSome [MAssign "timeSeg1"]; MReturnSelf]);
    ("getTimeSeg2", [MReturnAttr "timeSeg2"]);
    ("setTimeSeg2", [MIfSome [MAssign "timeSeg2"]; MReturnSelf]);
    ("getTrcvPwmModeEnabled", [MReturnAttr "trcvPwmModeEnabled"]);
    ("setTrcvPwmModeEnabled", [MIfSome [MAssign "trcvPwmModeEnabled"]; MReturnSelf])]);
  ("CanControllerXlConfigurationRequirements", [ (* line 464 *)
    ("getErrorSignalingEnabled", [MReturnAttr "errorSignalingEnabled"]);
    ("setErrorSignalingEnabled", [MIfSome [MAssign "errorSignalingEnabled"]; MReturnSelf]);
    ("getMaxNumberOfTimeQuantaPerBit", [MReturnAttr "maxNumberOfTimeQuantaPerBit"]);
    ("setMaxNumberOfTimeQuantaPerBit", [MIfSome [MAssign "maxNumberOfTimeQuantaPerBit"]; MReturnSelf]);
    ("getMaxPwmL", [MReturnAttr "maxPwmL"]);
    ("setMaxPwmL", [MIfSome [MAssign "maxPwmL"]; MReturnSelf]);
    ("getMaxPwmO", [MReturnAttr "maxPwmO"]);
    ("setMaxPwmO", [MIfSome [MAssign "maxPwmO"]; MReturnSelf]);
    ("getMaxPwmS", [MReturnAttr "maxPwmS"]);
    ("setMaxPwmS", [MIfSome [MAssign "maxPwmS"]; MReturnSelf]);
    ("getMaxSamplePoint", [MReturnAttr "maxSamplePoint"]);
    ("setMaxSamplePoint", [MIfSome [MAssign "maxSamplePoint"]; MReturnSelf]);
    ("getMaxSyncJumpWidth", [MReturnAttr "maxSyncJumpWidth"]);
    ("setMaxSyncJumpWidth", [MIfSome [MAssign "maxSyncJumpWidth"]; MReturnSelf]);
    ("getMaxTrcvDelayCompensationOffset", [MReturnAttr "maxTrcvDelayCompensationOffset"]);
    ("setMaxTrcvDelayCompensationOffset", [MIfSome [MAssign "maxTrcvDelayCompensationOffset"]; MReturnSelf]);
    ("getMinNumberOfTimeQuantaPerBit", [MReturnAttr "minNumberOfTimeQuantaPerBit"]);
    ("setMinNumberOfTimeQuantaPerBit", [MIfSome [MAssign "minNumberOfTimeQuantaPerBit"]; MReturnSelf]);
    ("getMinPwmL", [MReturnAttr "minPwmL"]);
    ("setMinPwmL", [MIfSome [MAssign "minPwmL"]; MReturnSelf]);
    ("getMinPwmO", [MReturnAttr "minPwmO"]);
    ("setMinPwmO", [MIfSome [MAssign "minPwmO"]; MReturnSelf]);
    ("getMinPwmS", [MReturnAttr "minPwmS"]);
    ("setMinPwmS", [MIfSome [MAssign "minPwmS"]; MReturnSelf]);
    ("getMinSamplePoint", [MReturnAttr "minSamplePoint"]);
    ("setMinSamplePoint", [MIfSome [MAssign "minSamplePoint"]; MReturnSelf]);
    ("getMinSyncJumpWidth", [MReturnAttr "minSyncJumpWidth"]);
    ("setMinSyncJumpWidth", [MIfSome [MAssign "minSyncJumpWidth"]; MReturnSelf]);
    ("getMinTrcvDelayCompensationOffset", [MReturnAttr "minTrcvDelayCompensationOffset"]);
    ("setMinTrcvDelayCompensationOffset", [MIfSome [MAssign "minTrcvDelayCompensationOffset"]; MReturnSelf]);
    ("getTrcvPwmModeEnabled", [MReturnAttr "trcvPwmModeEnabled"]);
    ("setTrcvPwmModeEnabled", [MIfSome [MAssign "trcvPwmModeEnabled"]; MReturnSelf])]);
  ("AbstractCanCommunicationControllerAttributes", [ (* line 733 *)
    ("getCanControllerFdAttributes", [MReturnAttr "canControllerFdAttributes"]);
    ("setCanControllerFdAttributes", [MIfSome [MAssign "canControllerFdAttributes"]; MReturnSelf]);
    ("getCanControllerFdRequirements", [MReturnAttr "canControllerFdRequirements"]);
    ("setCanControllerFdRequirements", [MIfSome [MAssign "canControllerFdRequirements"]; MReturnSelf]);
    ("getCanControllerXlAttributes", [MReturnAttr "canControllerXlAttributes"]);
    ("setCanControllerXlAttributes", [MIfSome [MAssign "canControllerXlAttributes"]; MReturnSelf]);
    ("getCanControllerXlRequirements", [MReturnAttr "canControllerXlRequirements"]);
    ("setCanControllerXlRequirements", [MIfSome [MAssign "canControllerXlRequirements"]; MReturnSelf])]);
  ("CanControllerConfigurationRequirements", [ (* line 813 *)
    ("getMaxNumberOfTimeQuantaPerBit", [MReturnAttr "maxNumberOfTimeQuantaPerBit"]);
    ("setMaxNumberOfTimeQuantaPerBit", [MAssign "maxNumberOfTimeQuantaPerBit"; MReturnSelf]);
    ("getMaxSamplePoint", [MReturnAttr "maxSamplePoint"]);
    ("setMaxSamplePoint", [MAssign "maxSamplePoint"; MReturnSelf]);
    ("getMaxSyncJumpWidth", [MReturnAttr "maxSyncJumpWidth"]);
    ("setMaxSyncJumpWidth", [MAssign "maxSyncJumpWidth"; MReturnSelf]);
    ("getMinNumberOfTimeQuantaPerBit", [MReturnAttr "minNumberOfTimeQuantaPerBit"]);
    ("setMinNumberOfTimeQuantaPerBit", [MAssign "minNumberOfTimeQuantaPerBit"; MReturnSelf]);
    ("getMinSamplePoint", [MReturnAttr "minSamplePoint"]);
    ("setMinSamplePoint", [MAssign "minSamplePoint"; MReturnSelf]);
    ("getMinSyncJumpWidth", [MReturnAttr "minSyncJumpWidth"]);
    ("setMinSyncJumpWidth", [MAssign "minSyncJumpWidth"; MReturnSelf])]);
  ("AbstractCanCommunicationController", [ (* line 888 *)
    ("getCanControllerAttributes", [MReturnAttr "canControllerAttributes"]);
    ("setCanControllerAttributes", [MIfSome [MAssign "canControllerAttributes"]; MReturnSelf])]);
  ("CanCommunicationConnector", [ (* line 954 *)
    ("getPncWakeupCanId", [MReturnAttr "pncWakeupCanId"]);
    ("setPncWakeupCanId", [MIfSome [MAssign "pncWakeupCanId"]; MReturnSelf]);
    ("getPncWakeupCanIdExtended", [MReturnAttr "pncWakeupCanIdExtended"]);
    ("setPncWakeupCanIdExtended", [MIfSome [MAssign "pncWakeupCanIdExtended"]; MReturnSelf]);
    ("getPncWakeupCanIdMask", [MReturnAttr "pncWakeupCanIdMask"]);
    ("setPncWakeupCanIdMask", [MIfSome [MAssign "pncWakeupCanIdMask"]; MReturnSelf]);
    ("getPncWakeupDataMask", [MReturnAttr "pncWakeupDataMask"]);
    ("setPncWakeupDataMask", [MIfSome [MAssign "pncWakeupDataMask"]; MReturnSelf]);
    ("getPncWakeupDlc", [MReturnAttr "pncWakeupDlc"]);
    ("setPncWakeupDlc", [MIfSome [MAssign "pncWakeupDlc"]; MReturnSelf])]);
  (* models/M2/AUTOSARTemplates/SystemTemplate/Fibex/Fibex4Ethernet/EthernetCommunication.py *)
  ("SocketConnection", [ (* line 11 *)
    ("getAllowedIPv6ExtHeadersRef", [MReturnAttr "allowedIPv6ExtHeadersRef"]);
    ("setAllowedIPv6ExtHeadersRef", [MAssign "allowedIPv6ExtHeadersRef"; MReturnSelf]);
    ("getAllowedTcpOptionsRef", [MReturnAttr "allowedTcpOptionsRef"]);
    ("setAllowedTcpOptionsRef", [MAssign "allowedTcpOptionsRef"; MReturnSelf]);
    ("getClientIpAddrFromConnectionRequest", [MReturnAttr "clientIpAddrFromConnectionRequest"]);
    ("setClientIpAddrFromConnectionRequest", [MAssign "clientIpAddrFromConnectionRequest"; MReturnSelf]);
    ("getClientPortRef", [MReturnAttr "clientPortRef"]);
    ("setClientPortRef", [MAssign "clientPortRef"; MReturnSelf]);
    ("getClientPortFromConnectionRequest", [MReturnAttr "clientPortFromConnectionRequest"]);
    ("setClientPortFromConnectionRequest", [MAssign "clientPortFromConnectionRequest"; MReturnSelf]);
    ("getPdus", [MReturnAttr "pdus"]);
    ("getPduSocketConnectionIpdus", [MReturnAttr "pduSocketConnectionIpdus"]);
    ("getPduCollectionMaxBufferSize", [MReturnAttr "pduCollectionMaxBufferSize"]);
    ("setPduCollectionMaxBufferSize", [MAssign "pduCollectionMaxBufferSize"; MReturnSelf]);
    ("getPduCollectionTimeout", [MReturnAttr "pduCollectionTimeout"]);
    ("setPduCollectionTimeout", [MAssign "pduCollectionTimeout"; MReturnSelf]);
    ("getRuntimeIpAddressConfiguration", [MReturnAttr "runtimeIpAddressConfiguration"]);
    ("setRuntimeIpAddressConfiguration", [MAssign "runtimeIpAddressConfiguration"; MReturnSelf]);
    ("getRuntimePortConfiguration", [MReturnAttr "runtimePortConfiguration"]);
    ("setRuntimePortConfiguration", [MAssign "runtimePortConfiguration"; MReturnSelf]);
    ("getShortLabel", [MReturnAttr "shortLabel"]);
    ("setShortLabel", [MAssign "shortLabel"; MReturnSelf])]);
  ("SocketConnectionIpduIdentifier", [ (* line 146 *)
    ("getHeaderId", [MReturnAttr "headerId"]);
    ("setHeaderId", [MAssign "headerId"; MReturnSelf]);
    ("getPduCollectionPduTimeout", [MReturnAttr "pduCollectionPduTimeout"]);
    ("setPduCollectionPduTimeout", [MAssign "pduCollectionPduTimeout"; MReturnSelf]);
    ("getPduCollectionSemantics", [MReturnAttr "pduCollectionSemantics"]);
    ("setPduCollectionSemantics", [MAssign "pduCollectionSemantics"; MReturnSelf]);
    ("getPduCollectionTrigger", [MReturnAttr "pduCollectionTrigger"]);
    ("setPduCollectionTrigger", [MAssign "pduCollectionTrigger"; MReturnSelf]);
    ("getPduRef", [MReturnAttr "PduRef"]);
    ("setPduRef", [MAssign "PduRef"; MReturnSelf]);
    ("getPduTriggeringRef", [MReturnAttr "pduTriggeringRef"]);
    ("setPduTriggeringRef", [MAssign "pduTriggeringRef"; MReturnSelf]);
    ("getRoutingGroupRefs", [MReturnAttr "routingGroupRefs"]);
    ("setRoutingGroupRefs", [MAssign "routingGroupRefs"; MReturnSelf])]);
  ("SocketConnectionBundle", [ (* line 231 *)
    ("getBundledConnections", [MReturnAttr "bundledConnections"]);
    ("getDifferentiatedServiceField", [MReturnAttr "differentiatedServiceField"]);
    ("setDifferentiatedServiceField", [MAssign "differentiatedServiceField"; MReturnSelf]);
    ("getFlowLabel", [MReturnAttr "flowLabel"]);
    ("setFlowLabel", [MAssign "flowLabel"; MReturnSelf]);
    ("getPathMtuDiscoveryEnabled", [MReturnAttr "pathMtuDiscoveryEnabled"]);
    ("setPathMtuDiscoveryEnabled", [MAssign "pathMtuDiscoveryEnabled"; MReturnSelf]);
    ("getPdus", [MReturnAttr "pdus"]);
    ("setPdus", [MAssign "pdus"; MReturnSelf]);
    ("getServerPortRef", [MReturnAttr "serverPortRef"]);
    ("setServerPortRef", [MAssign "serverPortRef"; MReturnSelf]);
    ("getUdpChecksumHandling", [MReturnAttr "udpChecksumHandling"]);
    ("setUdpChecksumHandling", [MAssign "udpChecksumHandling"; MReturnSelf])]);
  ("SoAdRoutingGroup", [ (* line 316 *)
    ("getEventGroupControlType", [MReturnAttr "eventGroupControlType"]);
    ("setEventGroupControlType", [MIfSome [MAssign "eventGroupControlType"]; MReturnSelf])]);
  (* models/M2/AUTOSARTemplates/SystemTemplate/Fibex/Fibex4Ethernet/EthernetTopology.py *)
  ("MacMulticastGroup", [ (* line 9 *)
    ("getMacMulticastAddress", [MReturnAttr "macMulticastAddress"]);
    ("setMacMulticastAddress", [MIfSome [MAssign "macMulticastAddress"]; MReturnSelf])]);
  ("EthernetCluster", [ (* line 35 *)
    ("getCouplingPorts", [MReturnAttr "couplingPorts"]);
    ("getCouplingPortStartupActiveTime", [MReturnAttr "couplingPortStartupActiveTime"]);
    ("setCouplingPortStartupActiveTime", [MIfSome [MAssign "couplingPortStartupActiveTime"]; MReturnSelf]);
    ("getCouplingPortSwitchoffDelay", [MReturnAttr "couplingPortSwitchoffDelay"]);
    ("setCouplingPortSwitchoffDelay", [MIfSome [MAssign "couplingPortSwitchoffDelay"]; MReturnSelf]);
    ("getMacMulticastGroups", [MReturnAttr "macMulticastGroups"])]);
  ("CouplingPortFifo", [ (* line 113 *)
    ("getAssignedTrafficClasses", [MReturnAttr "assignedTrafficClasses"]);
    ("getMinimumFifoLength", [MReturnAttr "minimumFifoLength"]);
    ("setMinimumFifoLength", [MIfSome [MAssign "minimumFifoLength"]; MReturnSelf]);
    ("getShaper", [MReturnAttr "shaper"]);
    ("setShaper", [MIfSome [MAssign "shaper"]; MReturnSelf]);
    ("getTrafficClassPreemptionSupport", [MReturnAttr "trafficClassPreemptionSupport"]);
    ("setTrafficClassPreemptionSupport", [MIfSome [MAssign "trafficClassPreemptionSupport"]; MReturnSelf])]);
  ("CouplingPortScheduler", [ (* line 172 *)
    ("getPortScheduler", [MReturnAttr "portScheduler"]);
    ("setPortScheduler", [MIfSome [MAssign "portScheduler"]; MReturnSelf]);
    ("getPredecessorRefs", [MReturnAttr "predecessorRefs"])]);
  ("EthernetPriorityRegeneration", [ (* line 209 *)
    ("getIngressPriority", [MReturnAttr "ingressPriority"]);
    ("setIngressPriority", [MIfSome [MAssign "ingressPriority"]; MReturnSelf]);
    ("getRegeneratedPriority", [MReturnAttr "regeneratedPriority"]);
    ("setRegeneratedPriority", [MIfSome [MAssign "regeneratedPriority"]; MReturnSelf])]);
  ("CouplingPortDetails", [ (* line 246 *)
    ("getCouplingPortStructuralElements", [MReturnAttr "couplingPortStructuralElements"]);
    ("getDefaultTrafficClass", [MReturnAttr "defaultTrafficClass"]);
    ("setDefaultTrafficClass", [MIfSome [MAssign "defaultTrafficClass"]; MReturnSelf]);
    ("getEthernetPriorityRegenerations", [MReturnAttr "ethernetPriorityRegenerations"]);
    ("setEthernetPriorityRegenerations", [MIfSome [MAssign "ethernetPriorityRegenerations"]; MReturnSelf]);
    ("getEthernetTrafficClassAssignments", [MReturnAttr "ethernetTrafficClassAssignments"]);
    ("setEthernetTrafficClassAssignments", [MIfSome [MAssign "ethernetTrafficClassAssignments"]; MReturnSelf]);
    ("getFramePreemptionSupport", [MReturnAttr "framePreemptionSupport"]);
    ("setFramePreemptionSupport", [MIfSome [MAssign "framePreemptionSupport"]; MReturnSelf]);
    ("getGlobalTimeProps", [MReturnAttr "globalTimeProps"]);
    ("setGlobalTimeProps", [MIfSome [MAssign "globalTimeProps"]; MReturnSelf]);
    ("getLastEgressSchedulerRef", [MReturnAttr "lastEgressSchedulerRef"]);
    ("setLastEgressSchedulerRef", [MIfSome [MAssign "lastEgressSchedulerRef"]; MReturnSelf]);
    ("getRatePolicies", [MReturnAttr "ratePolicies"]);
    ("setRatePolicies", [MIfSome [MAssign "ratePolicies"]; MReturnSelf]);
    ("getVlanTranslationTables", [MReturnAttr "vlanTranslationTables"]);
    ("setVlanTranslationTables", [MIfSome [MAssign "vlanTranslationTables"]; MReturnSelf])]);
  ("VlanMembership", [ (* line 372 *)
    ("getDefaultPriority", [MReturnAttr "defaultPriority"]);
    ("setDefaultPriority", [MIfSome [MAssign "defaultPriority"]; MReturnSelf]);
    ("getDhcpAddressAssignment", [MReturnAttr "dhcpAddressAssignment"]);
    ("setDhcpAddressAssignment", [MIfSome [MAssign "dhcpAddressAssignment"]; MReturnSelf]);
    ("getSendActivity", [MReturnAttr "sendActivity"]);
    ("setSendActivity", [MIfSome [MAssign "sendActivity"]; MReturnSelf]);
    ("getVlanRef", [MReturnAttr "vlanRef"]);
    ("setVlanRef", [MIfSome [MAssign "vlanRef"]; MReturnSelf])]);
  ("CouplingPort", [ (* line 431 *)
    ("getConnectionNegotiationBehavior", [MReturnAttr "connectionNegotiationBehavior"]);
    ("setConnectionNegotiationBehavior", [MIfSome [MAssign "connectionNegotiationBehavior"]; MReturnSelf]);
    ("getCouplingPortDetails", [MReturnAttr "couplingPortDetails"]);
    ("setCouplingPortDetails", [MIfSome [MAssign "couplingPortDetails"]; MReturnSelf]);
    ("getCouplingPortRole", [MReturnAttr "couplingPortRole"]);
    ("setCouplingPortRole", [MIfSome [MAssign "couplingPortRole"]; MReturnSelf]);
    ("getDefaultVlanRef", [MReturnAttr "defaultVlanRef"]);
    ("setDefaultVlanRef", [MIfSome [MAssign "defaultVlanRef"]; MReturnSelf]);
    ("getMacAddressVlanAssignments", [MReturnAttr "macAddressVlanAssignments"]);
    ("setMacAddressVlanAssignments", [MIfSome [MAssign "macAddressVlanAssignments"]; MReturnSelf]);
    ("getMacLayerType", [MReturnAttr "macLayerType"]);
    ("setMacLayerType", [MIfSome [MAssign "macLayerType"]; MReturnSelf]);
    ("getMacMulticastAddressRefs", [MReturnAttr "macMulticastAddressRefs"]);
    ("setMacMulticastAddressRefs", [MIfSome [MAssign "macMulticastAddressRefs"]; MReturnSelf]);
    ("getMacSecProps", [MReturnAttr "macSecProps"]);
    ("setMacSecProps", [MIfSome [MAssign "macSecProps"]; MReturnSelf]);
    ("getPhysicalLayerType", [MReturnAttr "physicalLayerType"]);
    ("setPhysicalLayerType", [MIfSome [MAssign "physicalLayerType"]; MReturnSelf]);
    ("getPlcaProps", [MReturnAttr "plcaProps"]);
    ("setPlcaProps", [MIfSome [MAssign "plcaProps"]; MReturnSelf]);
    ("getPncMappingRefs", [MReturnAttr "pncMappingRefs"]);
    ("setPncMappingRefs", [MIfSome [MAssign "pncMappingRefs"]; MReturnSelf]);
    ("getReceiveActivity", [MReturnAttr "receiveActivity"]);
    ("setReceiveActivity", [MIfSome [MAssign "receiveActivity"]; MReturnSelf]);
    ("getVlanMemberships", [MReturnAttr "vlanMemberships"]);
    ("getWakeupSleepOnDatalineConfigRef", [MReturnAttr "wakeupSleepOnDatalineConfigRef"]);
    ("setWakeupSleepOnDatalineConfigRef", [MIfSome [MAssign "wakeupSleepOnDatalineConfigRef"]; MReturnSelf])]);
  ("EthernetCommunicationController", [ (* line 600 *)
    ("getCanXlConfigRef", [MReturnAttr "canXlConfigRef"]);
    ("setCanXlConfigRef", [MAssign "canXlConfigRef"; MReturnSelf]);
    ("getCouplingPorts", [MReturnAttr "couplingPorts"]);
    ("getMacLayerType", [MReturnAttr "macLayerType"]);
    ("setMacLayerType", [MAssign "macLayerType"; MReturnSelf]);
    ("getMacUnicastAddress", [MReturnAttr "macUnicastAddress"]);
    ("setMacUnicastAddress", [MAssign "macUnicastAddress"; MReturnSelf]);
    ("getMaximumReceiveBufferLength", [MReturnAttr "maximumReceiveBufferLength"]);
    ("setMaximumReceiveBufferLength", [MAssign "maximumReceiveBufferLength"; MReturnSelf]);
    ("getMaximumTransmitBufferLength", [MReturnAttr "maximumTransmitBufferLength"]);
    ("setMaximumTransmitBufferLength", [MAssign "maximumTransmitBufferLength"; MReturnSelf]);
    ("getSlaveActAsPassiveCommunicationSlave", [MReturnAttr "slaveActAsPassiveCommunicationSlave"]);
    ("setSlaveActAsPassiveCommunicationSlave", [MAssign "slaveActAsPassiveCommunicationSlave"; MReturnSelf]);
    ("getSlaveQualifiedUnexpectedLinkDownTime", [MReturnAttr "slaveQualifiedUnexpectedLinkDownTime"]);
    ("setSlaveQualifiedUnexpectedLinkDownTime", [MAssign "slaveQualifiedUnexpectedLinkDownTime"; MReturnSelf])]);
  ("EthernetCommunicationConnector", [ (* line 698 *)
    ("getEthIpPropsRef", [MReturnAttr "ethIpPropsRef"]);
    ("setEthIpPropsRef", [MAssign "ethIpPropsRef"; MReturnSelf]);
    ("getMaximumTransmissionUnit", [MReturnAttr "maximumTransmissionUnit"]);
    ("setMaximumTransmissionUnit", [MAssign "maximumTransmissionUnit"; MReturnSelf]);
    ("getNeighborCacheSize", [MReturnAttr "neighborCacheSize"]);
    ("setNeighborCacheSize", [MAssign "neighborCacheSize"; MReturnSelf]);
    ("getNetworkEndpointRefs", [MReturnAttr "networkEndpointRefs"]);
    ("getPathMtuEnabled", [MReturnAttr "pathMtuEnabled"]);
    ("setPathMtuEnabled", [MAssign "pathMtuEnabled"; MReturnSelf]);
    ("getPathMtuTimeout", [MReturnAttr "pathMtuTimeout"]);
    ("setPathMtuTimeout", [MAssign "pathMtuTimeout"; MReturnSelf])]);
  ("RequestResponseDelay", [ (* line 774 *)
    ("getMaxValue", [MReturnAttr "maxValue"]);
    ("setMaxValue", [MIfSome [MAssign "maxValue"]; MReturnSelf]);
    ("getMinValue", [MReturnAttr "minValue"]);
    ("setMinValue", [MIfSome [MAssign "minValue"]; MReturnSelf])]);
  ("InitialSdDelayConfig", [ (* line 811 *)
    ("getInitialDelayMaxValue", [MReturnAttr "initialDelayMaxValue"]);
    ("setInitialDelayMaxValue", [MIfSome [MAssign "initialDelayMaxValue"]; MReturnSelf]);
    ("getInitialDelayMinValue", [MReturnAttr "initialDelayMinValue"]);
    ("setInitialDelayMinValue", [MIfSome [MAssign "initialDelayMinValue"]; MReturnSelf]);
    ("getInitialRepetitionsBaseDelay", [MReturnAttr "initialRepetitionsBaseDelay"]);
    ("setInitialRepetitionsBaseDelay", [MIfSome [MAssign "initialRepetitionsBaseDelay"]; MReturnSelf]);
    ("getInitialRepetitionsMax", [MReturnAttr "initialRepetitionsMax"]);
    ("setInitialRepetitionsMax", [MIfSome [MAssign "initialRepetitionsMax"]; MReturnSelf])]);
  ("SdClientConfig", [ (* line 870 *)
    ("getClientServiceMajorVersion", [MReturnAttr "clientServiceMajorVersion"]);
    ("setClientServiceMajorVersion", [MIfSome [MAssign "clientServiceMajorVersion"]; MReturnSelf]);
    ("getClientServiceMinorVersion", [MReturnAttr "clientServiceMinorVersion"]);
    ("setClientServiceMinorVersion", [MIfSome [MAssign "clientServiceMinorVersion"]; MReturnSelf]);
    ("getInitialFindBehavior", [MReturnAttr "initialFindBehavior"]);
    ("setInitialFindBehavior", [MIfSome [MAssign "initialFindBehavior"]; MReturnSelf]);
    ("getRequestResponseDelay", [MReturnAttr "requestResponseDelay"]);
    ("setRequestResponseDelay", [MIfSome [MAssign "requestResponseDelay"]; MReturnSelf]);
    ("getTtl", [MReturnAttr "ttl"]);
    ("setTtl", [MIfSome [MAssign "ttl"]; MReturnSelf])]);
  (* models/M2/AUTOSARTemplates/SystemTemplate/Fibex/Fibex4Ethernet/NetworkEndpoint.py *)
  ("Ipv4Configuration", [ (* line 28 *)
    ("getAssignmentPriority", [MReturnAttr "assignmentPriority"]);
    ("setAssignmentPriority", [MAssign "assignmentPriority"; MReturnSelf]);
    ("getDefaultGateway", [MReturnAttr "defaultGateway"]);
    ("setDefaultGateway", [MAssign "defaultGateway"; MReturnSelf]);
    ("getDnsServerAddresses", [MReturnAttr "dnsServerAddresses"]);
    ("getIpAddressKeepBehavior", [MReturnAttr "ipAddressKeepBehavior"]);
    ("setIpAddressKeepBehavior", [MAssign "ipAddressKeepBehavior"; MReturnSelf]);
    ("getIpv4Address", [MReturnAttr "ipv4Address"]);
    ("setIpv4Address", [MAssign "ipv4Address"; MReturnSelf]);
    ("getIpv4AddressSource", [MReturnAttr "ipv4AddressSource"]);
    ("setIpv4AddressSource", [MAssign "ipv4AddressSource"; MReturnSelf]);
    ("getNetworkMask", [MReturnAttr "networkMask"]);
    ("setNetworkMask", [MAssign "networkMask"; MReturnSelf]);
    ("getTtl", [MReturnAttr "ttl"]);
    ("setTtl", [MAssign "ttl"; MReturnSelf])]);
  ("Ipv6Configuration", [ (* line 123 *)
    ("getAssignmentPriority", [MReturnAttr "assignmentPriority"]);
    ("setAssignmentPriority", [MAssign "assignmentPriority"; MReturnSelf]);
    ("getDefaultRouter", [MReturnAttr "defaultRouter"]);
    ("setDefaultRouter", [MAssign "defaultRouter"; MReturnSelf]);
    ("getDnsServerAddresses", [MReturnAttr "dnsServerAddresses"]);
    ("setDnsServerAddresses", [MAssign "dnsServerAddresses"; MReturnSelf]);
    ("getEnableAnycast", [MReturnAttr "enableAnycast"]);
    ("setEnableAnycast", [MAssign "enableAnycast"; MReturnSelf]);
    ("getHopCount", [MReturnAttr "hopCount"]);
    ("setHopCount", [MAssign "hopCount"; MReturnSelf]);
    ("getIpAddressKeepBehavior", [MReturnAttr "ipAddressKeepBehavior"]);
    ("setIpAddressKeepBehavior", [MAssign "ipAddressKeepBehavior"; MReturnSelf]);
    ("getIpAddressPrefixLength", [MReturnAttr "ipAddressPrefixLength"]);
    ("setIpAddressPrefixLength", [MAssign "ipAddressPrefixLength"; MReturnSelf]);
    ("getIpv6Address", [MReturnAttr "ipv6Address"]);
    ("setIpv6Address", [MAssign "ipv6Address"; MReturnSelf]);
    ("getIpv6AddressSource", [MReturnAttr "ipv6AddressSource"]);
    ("setIpv6AddressSource", [MAssign "ipv6AddressSource"; MReturnSelf])]);
  ("DoIpEntity", [ (* line 228 *)
    ("getDoIpEntityRole", [MReturnAttr "doIpEntityRole"]);
    ("setDoIpEntityRole", [MIfSome [MAssign "doIpEntityRole"]; MReturnSelf])]);
  ("TimeSyncClientConfiguration", [ (* line 254 *)
    ("getOrderedMasters", [MReturnAttr "orderedMasters"]);
    ("getTimeSyncTechnology", [MReturnAttr "timeSyncTechnology"]);
    ("setTimeSyncTechnology", [MIfSome [MAssign "timeSyncTechnology"]; MReturnSelf])]);
  ("TimeSyncServerConfiguration", [ (* line 291 *)
    ("getPriority", [MReturnAttr "priority"]);
    ("setPriority", [MIfSome [MAssign "priority"]; MReturnSelf]);
    ("getSyncInterval", [MReturnAttr "syncInterval"]);
    ("setSyncInterval", [MIfSome [MAssign "syncInterval"]; MReturnSelf]);
    ("getTimeSyncServerIdentifier", [MReturnAttr "timeSyncServerIdentifier"]);
    ("setTimeSyncServerIdentifier", [MIfSome [MAssign "timeSyncServerIdentifier"]; MReturnSelf]);
    ("getTimeSyncTechnology", [MReturnAttr "timeSyncTechnology"]);
    ("setTimeSyncTechnology", [MIfSome [MAssign "timeSyncTechnology"]; MReturnSelf])]);
  ("TimeSynchronization", [ (* line 350 *)
    ("getTimeSyncClient", [MReturnAttr "timeSyncClient"]);
    ("setTimeSyncClient", [MIfSome [MAssign "timeSyncClient"]; MReturnSelf]);
    ("getTimeSyncServer", [MReturnAttr "timeSyncServer"]);
    ("setTimeSyncServer", [MIfSome [MAssign "timeSyncServer"]; MReturnSelf])]);
  ("InfrastructureServices", [ (* line 387 *)
    ("getDoIpEntity", [MReturnAttr "doIpEntity"]);
    ("setDoIpEntity", [MAssign "doIpEntity"; MReturnSelf]);
    ("getTimeSynchronization", [MReturnAttr "timeSynchronization"]);
    ("setTimeSynchronization", [MAssign "timeSynchronization"; MReturnSelf])]);
  ("NetworkEndpoint", [ (* line 422 *)
    ("getFullyQualifiedDomainName", [MReturnAttr "fullyQualifiedDomainName"]);
    ("setFullyQualifiedDomainName", [MAssign "fullyQualifiedDomainName"; MReturnSelf]);
    ("getInfrastructureServices", [MReturnAttr "infrastructureServices"]);
    ("setInfrastructureServices", [MAssign "infrastructureServices"; MReturnSelf]);
    ("getIpSecConfig", [MReturnAttr "ipSecConfig"]);
    ("setIpSecConfig", [MAssign "ipSecConfig"; MReturnSelf]);
    ("getNetworkEndpointAddresses", [MReturnAttr "networkEndpointAddresses"]);
    ("getPriority", [MReturnAttr "priority"]);
    ("setPriority", [MAssign "priority"; MReturnSelf])]);
  (* models/M2/AUTOSARTemplates/SystemTemplate/Fibex/Fibex4Ethernet/ServiceInstances.py *)
  ("GenericTp", [ (* line 31 *)
    ("getTpAddress", [MReturnAttr "tpAddress"]);
    ("setTpAddress", [MAssign "tpAddress"; MReturnSelf]);
    ("getTpTechnology", [MReturnAttr "tpTechnology"]);
    ("setTpTechnology", [MAssign "tpTechnology"; MReturnSelf])]);
  ("TpPort", [ (* line 83 *)
    ("getDynamicallyAssigned", [MReturnAttr "dynamicallyAssigned"]);
    ("setDynamicallyAssigned", [MAssign "dynamicallyAssigned"; MReturnSelf]);
    ("getPortNumber", [MReturnAttr "portNumber"]);
    ("setPortNumber", [MAssign "portNumber"; MReturnSelf])]);
  ("UdpTp", [ (* line 118 *)
    ("getUdpTpPort", [MReturnAttr "udpTpPort"]);
    ("setUdpTpPort", [MAssign "udpTpPort"; MReturnSelf])]);
  ("TcpTp", [ (* line 143 *)
    ("getKeepAliveInterval", [MReturnAttr "keepAliveInterval"]);
    ("setKeepAliveInterval", [MAssign "keepAliveInterval"; MReturnSelf]);
    ("getKeepAliveProbesMax", [MReturnAttr "keepAliveProbesMax"]);
    ("setKeepAliveProbesMax", [MAssign "keepAliveProbesMax"; MReturnSelf]);
    ("getKeepAlives", [MReturnAttr "keepAlives"]);
    ("setKeepAlives", [MAssign "keepAlives"; MReturnSelf]);
    ("getKeepAliveTime", [MReturnAttr "keepAliveTime"]);
    ("setKeepAliveTime", [MAssign "keepAliveTime"; MReturnSelf]);
    ("getNaglesAlgorithm", [MReturnAttr "naglesAlgorithm"]);
    ("setNaglesAlgorithm", [MAssign "naglesAlgorithm"; MReturnSelf]);
    ("getReceiveWindowMin", [MReturnAttr "receiveWindowMin"]);
    ("setReceiveWindowMin", [MAssign "receiveWindowMin"; MReturnSelf]);
    ("getTcpRetransmissionTimeout", [MReturnAttr "tcpRetransmissionTimeout"]);
    ("setTcpRetransmissionTimeout", [MAssign "tcpRetransmissionTimeout"; MReturnSelf]);
    ("getTcpTpPort", [MReturnAttr "tcpTpPort"]);
    ("setTcpTpPort", [MAssign "tcpTpPort"; MReturnSelf])]);
  ("AbstractServiceInstance", [ (* line 238 *)
    ("getCapabilityRecords", [MReturnAttr "capabilityRecords"]);
    ("getMajorVersion", [MReturnAttr "majorVersion"]);
    ("setMajorVersion", [MIfSome [MAssign "majorVersion"]; MReturnSelf]);
    ("getMethodActivationRoutingGroup", [MReturnAttr "methodActivationRoutingGroup"]);
    ("setMethodActivationRoutingGroup", [MIfSome [MAssign "methodActivationRoutingGroup"]; MReturnSelf]);
    ("getRoutingGroupRefs", [MReturnAttr "routingGroupRefs"])]);
  ("ConsumedEventGroup", [ (* line 300 *)
    ("getApplicationEndpointRef", [MReturnAttr "applicationEndpointRef"]);
    ("setApplicationEndpointRef", [MIfSome [MAssign "applicationEndpointRef"]; MReturnSelf]);
    ("getAutoRequire", [MReturnAttr "autoRequire"]);
    ("setAutoRequire", [MIfSome [MAssign "autoRequire"]; MReturnSelf]);
    ("getEventGroupIdentifier", [MReturnAttr "eventGroupIdentifier"]);
    ("setEventGroupIdentifier", [MIfSome [MAssign "eventGroupIdentifier"]; MReturnSelf]);
    ("getEventMulticastAddressRefs", [MReturnAttr "eventMulticastAddressRefs"]);
    ("getPduActivationRoutingGroups", [MReturnAttr "pduActivationRoutingGroups"]);
    ("setPduActivationRoutingGroups", [MIfSome [MAssign "pduActivationRoutingGroups"]; MReturnSelf]);
    ("getPriority", [MReturnAttr "priority"]);
    ("setPriority", [MIfSome [MAssign "priority"]; MReturnSelf]);
    ("getRoutingGroupRefs", [MReturnAttr "routingGroupRefs"]);
    ("getSdClientConfig", [MReturnAttr "sdClientConfig"]);
    ("setSdClientConfig", [MIfSome [MAssign "sdClientConfig"]; MReturnSelf]);
    ("getSdClientTimerConfigRef", [MReturnAttr "sdClientTimerConfigRef"]);
    ("setSdClientTimerConfigRef", [MIfSome [MAssign "sdClientTimerConfigRef"]; MReturnSelf])]);
  ("ConsumedServiceInstance", [ (* line 414 *)
    ("getAllowedServiceProviderRefs", [MReturnAttr "allowedServiceProviderRefs"]);
    ("setAllowedServiceProviderRefs", [MIfSome [MAssign "allowedServiceProviderRefs"]; MReturnSelf]);
    ("getAutoRequire", [MReturnAttr "autoRequire"]);
    ("setAutoRequire", [MIfSome [MAssign "autoRequire"]; MReturnSelf]);
    ("getBlocklistedVersions", [MReturnAttr "blocklistedVersions"]);
    ("setBlocklistedVersions", [MIfSome [MAssign "blocklistedVersions"]; MReturnSelf]);
    ("getConsumedEventGroups", [MReturnAttr "consumedEventGroups"]);
    ("getEventMulticastSubscriptionAddressRef", [MReturnAttr "eventMulticastSubscriptionAddressRef"]);
    ("setEventMulticastSubscriptionAddressRef", [MIfSome [MAssign "eventMulticastSubscriptionAddressRef"]; MReturnSelf]);
    ("getInstanceIdentifier", [MReturnAttr "instanceIdentifier"]);
    ("setInstanceIdentifier", [MIfSome [MAssign "instanceIdentifier"]; MReturnSelf]);
    ("getLocalUnicastAddressRefs", [MReturnAttr "localUnicastAddressRefs"]);
    ("setLocalUnicastAddressRefs", [MIfSome [MAssign "localUnicastAddressRefs"]; MReturnSelf]);
    ("getMinorVersion", [MReturnAttr "minorVersion"]);
    ("setMinorVersion", [MIfSome [MAssign "minorVersion"]; MReturnSelf]);
    ("getProvidedServiceInstanceRef", [MReturnAttr "providedServiceInstanceRef"]);
    ("setProvidedServiceInstanceRef", [MIfSome [MAssign "providedServiceInstanceRef"]; MReturnSelf]);
    ("getRemoteUnicastAddressRefs", [MReturnAttr "remoteUnicastAddressRefs"]);
    ("setRemoteUnicastAddressRefs", [MIfSome [MAssign "remoteUnicastAddressRefs"]; MReturnSelf]);
    ("getSdClientConfig", [MReturnAttr "sdClientConfig"]);
    ("setSdClientConfig", [MIfSome [MAssign "sdClientConfig"]; MReturnSelf]);
    ("getSdClientTimerConfigRef", [MReturnAttr "sdClientTimerConfigRef"]);
    ("setSdClientTimerConfigRef", [MIfSome [MAssign "sdClientTimerConfigRef"]; MReturnSelf]);
    ("getServiceIdentifier", [MReturnAttr "serviceIdentifier"]);
    ("setServiceIdentifier", [MIfSome [MAssign "serviceIdentifier"]; MReturnSelf]);
    ("getVersionDrivenFindBehavior", [MReturnAttr "versionDrivenFindBehavior"]);
    ("setVersionDrivenFindBehavior", [MIfSome [MAssign "versionDrivenFindBehavior"]; MReturnSelf])]);
  ("SdServerConfig", [ (* line 644 *)
    ("getCapabilityRecords", [MReturnAttr "capabilityRecords"]);
    ("setCapabilityRecords", [MIfSome [MAssign "capabilityRecords"]; MReturnSelf]);
    ("getInitialOfferBehavior", [MReturnAttr "initialOfferBehavior"]);
    ("setInitialOfferBehavior", [MIfSome [MAssign "initialOfferBehavior"]; MReturnSelf]);
    ("getOfferCyclicDelay", [MReturnAttr "offerCyclicDelay"]);
    ("setOfferCyclicDelay", [MIfSome [MAssign "offerCyclicDelay"]; MReturnSelf]);
    ("getRequestResponseDelay", [MReturnAttr "requestResponseDelay"]);
    ("setRequestResponseDelay", [MIfSome [MAssign "requestResponseDelay"]; MReturnSelf]);
    ("getServerServiceMajorVersion", [MReturnAttr "serverServiceMajorVersion"]);
    ("setServerServiceMajorVersion", [MIfSome [MAssign "serverServiceMajorVersion"]; MReturnSelf]);
    ("getServerServiceMinorVersion", [MReturnAttr "serverServiceMinorVersion"]);
    ("setServerServiceMinorVersion", [MIfSome [MAssign "serverServiceMinorVersion"]; MReturnSelf]);
    ("getTtl", [MReturnAttr "ttl"]);
    ("setTtl", [MIfSome [MAssign "ttl"]; MReturnSelf])]);
  ("EventHandler", [ (* line 736 *)
    ("getApplicationEndpointRef", [MReturnAttr "applicationEndpointRef"]);
    ("setApplicationEndpointRef", [MIfSome [MAssign "applicationEndpointRef"]; MReturnSelf]);
    ("getConsumedEventGroupRefs", [MReturnAttr "consumedEventGroupRefs"]);
    ("getMulticastThreshold", [MReturnAttr "multicastThreshold"]);
    ("setMulticastThreshold", [MIfSome [MAssign "multicastThreshold"]; MReturnSelf]);
    ("getRoutingGroupRefs", [MReturnAttr "routingGroupRefs"]);
    ("getSdServerConfig", [MReturnAttr "sdServerConfig"]);
    ("setSdServerConfig", [MIfSome [MAssign "sdServerConfig"]; MReturnSelf])]);
  ("ProvidedServiceInstance", [ (* line 806 *)
    ("getAllowedServiceConsumerRefs", [MReturnAttr "allowedServiceConsumerRefs"]);
    ("setAllowedServiceConsumerRefs", [MIfSome [MAssign "allowedServiceConsumerRefs"]; MReturnSelf]);
    ("getAutoAvailable", [MReturnAttr "autoAvailable"]);
    ("setAutoAvailable", [MIfSome [MAssign "autoAvailable"]; MReturnSelf]);
    ("getEventHandlers", [MReturnAttr "eventHandlers"]);
    ("getInstanceIdentifier", [MReturnAttr "instanceIdentifier"]);
    ("setInstanceIdentifier", [MIfSome [MAssign "instanceIdentifier"]; MReturnSelf]);
    ("getLoadBalancingPriority", [MReturnAttr "loadBalancingPriority"]);
    ("setLoadBalancingPriority", [MIfSome [MAssign "loadBalancingPriority"]; MReturnSelf]);
    ("getLoadBalancingWeight", [MReturnAttr "loadBalancingWeight"]);
    ("setLoadBalancingWeight", [MIfSome [MAssign "loadBalancingWeight"]; MReturnSelf]);
    ("getLocalUnicastAddressRefs", [MReturnAttr "localUnicastAddressRefs"]);
    ("setLocalUnicastAddressRefs", [MIfSome [MAssign "localUnicastAddressRefs"]; MReturnSelf]);
    ("getMinorVersion", [MReturnAttr "minorVersion"]);
    ("setMinorVersion", [MIfSome [MAssign "minorVersion"]; MReturnSelf]);
    ("getPriority", [MReturnAttr "priority"]);
    ("setPriority", [MIfSome [MAssign "priority"]; MReturnSelf]);
    ("getRemoteMulticastSubscriptionAddressRefs", [MReturnAttr "remoteMulticastSubscriptionAddressRefs"]);
    ("setRemoteMulticastSubscriptionAddressRefs", [MIfSome [MAssign "remoteMulticastSubscriptionAddressRefs"]; MReturnSelf]);
    ("getRemoteUnicastAddressRefs", [MReturnAttr "remoteUnicastAddressRefs"]);
    ("setRemoteUnicastAddressRefs", [MIfSome [MAssign "remoteUnicastAddressRefs"]; MReturnSelf]);
    ("getSdServerConfig", [MReturnAttr "sdServerConfig"]);
    ("setSdServerConfig", [MIfSome [MAssign "sdServerConfig"]; MReturnSelf]);
    ("getSdServerTimerConfigRef", [MReturnAttr "sdServerTimerConfigRef"]);
    ("setSdServerTimerConfigRef", [MIfSome [MAssign "sdServerTimerConfigRef"]; MReturnSelf]);
    ("getServiceIdentifier", [MReturnAttr "serviceIdentifier"]);
    ("setServiceIdentifier", [MIfSome [MAssign "serviceIdentifier"]; MReturnSelf])]);
  ("ApplicationEndpoint", [ (* line 1125 *)
    ("getConsumedServiceInstances", [MReturnAttr "consumedServiceInstances"]);
    ("getMaxNumberOfConnections", [MReturnAttr "maxNumberOfConnections"]);
    ("setMaxNumberOfConnections", [MAssign "maxNumberOfConnections"; MReturnSelf]);
    ("getNetworkEndpointRef", [MReturnAttr "networkEndpointRef"]);
    ("setNetworkEndpointRef", [MAssign "networkEndpointRef"; MReturnSelf]);
    ("getPriority", [MReturnAttr "priority"]);
    ("setPriority", [MAssign "priority"; MReturnSelf]);
    ("getProvidedServiceInstances", [MReturnAttr "providedServiceInstances"]);
    ("getTlsCryptoMappingRef", [MReturnAttr "tlsCryptoMappingRef"]);
    ("setTlsCryptoMappingRef", [MAssign "tlsCryptoMappingRef"; MReturnSelf]);
    ("getTpConfiguration", [MReturnAttr "tpConfiguration"]);
    ("setTpConfiguration", [MAssign "tpConfiguration"; MReturnSelf])]);
  ("SocketAddress", [ (* line 1216 *)
    ("getAllowedIPv6ExtHeadersRef", [MReturnAttr "allowedIPv6ExtHeadersRef"]);
    ("setAllowedIPv6ExtHeadersRef", [MAssign "allowedIPv6ExtHeadersRef"; MReturnSelf]);
    ("getAllowedTcpOptionsRef", [MReturnAttr "allowedTcpOptionsRef"]);
    ("setAllowedTcpOptionsRef", [MAssign "allowedTcpOptionsRef"; MReturnSelf]);
    ("getApplicationEndpoint", [MReturnAttr "applicationEndpoint"]);
    ("getConnectorRef", [MReturnAttr "connectorRef"]);
    ("setConnectorRef", [MAssign "connectorRef"; MReturnSelf]);
    ("getDifferentiatedServiceField", [MReturnAttr "differentiatedServiceField"]);
    ("setDifferentiatedServiceField", [MAssign "differentiatedServiceField"; MReturnSelf]);
    ("getFlowLabel", [MReturnAttr "flowLabel"]);
    ("setFlowLabel", [MAssign "flowLabel"; MReturnSelf]);
    ("getMulticastConnectorRefs", [MReturnAttr "multicastConnectorRefs"]);
    ("getPathMtuDiscoveryEnabled", [MReturnAttr "pathMtuDiscoveryEnabled"]);
    ("setPathMtuDiscoveryEnabled", [MAssign "pathMtuDiscoveryEnabled"; MReturnSelf]);
    ("getPduCollectionMaxBufferSize", [MReturnAttr "pduCollectionMaxBufferSize"]);
    ("setPduCollectionMaxBufferSize", [MAssign "pduCollectionMaxBufferSize"; MReturnSelf]);
    ("getPduCollectionTimeout", [MReturnAttr "pduCollectionTimeout"]);
    ("setPduCollectionTimeout", [MAssign "pduCollectionTimeout"; MReturnSelf]);
    ("getPortAddress", [MReturnAttr "portAddress"]);
    ("setPortAddress", [MAssign "portAddress"; MReturnSelf]);
    ("getStaticSocketConnections", [MReturnAttr "staticSocketConnections"]);
    ("getUdpChecksumHandling", [MReturnAttr "udpChecksumHandling"]);
    ("setUdpChecksumHandling", [MAssign "udpChecksumHandling"; MReturnSelf])]);
  ("SoAdConfig", [ (* line 1362 *)
    ("getConnections", [MReturnAttr "connections"]);
    ("setConnections", [MAssign "connections"; MReturnSelf]);
    ("getConnectionBundles", [MReturnAttr "connectionBundles"]);
    ("setConnectionBundles", [MAssign "connectionBundles"; MReturnSelf]);
    ("getSocketAddresses", [MReturnAttr "socketAddresses"])]);
  (* models/M2/AUTOSARTemplates/SystemTemplate/Fibex/Fibex4Flexray/FlexrayCommunication.py *)
  ("FlexrayAbsolutelyScheduledTiming", [ (* line 23 *)
    ("getCommunicationCycle", [MReturnAttr "communicationCycle"]);
    ("setCommunicationCycle", [MIfSome [MAssign "communicationCycle"]; MReturnSelf]);
    ("getSlotID", [MReturnAttr "slotID"]);
    ("setSlotID", [MIfSome [MAssign "slotID"]; MReturnSelf])]);
  ("FlexrayFrameTriggering", [ (* line 60 *)
    ("getAbsolutelyScheduledTimings", [MReturnAttr "absolutelyScheduledTimings"]);
    ("getAllowDynamicLSduLength", [MReturnAttr "allowDynamicLSduLength"]);
    ("setAllowDynamicLSduLength", [MIfSome [MAssign "allowDynamicLSduLength"]; MReturnSelf]);
    ("getMessageId", [MReturnAttr "messageId"]);
    ("setMessageId", [MIfSome [MAssign "messageId"]; MReturnSelf]);
    ("getPayloadPreambleIndicator", [MReturnAttr "payloadPreambleIndicator"]);
    ("setPayloadPreambleIndicator", [MIfSome [MAssign "payloadPreambleIndicator"]; MReturnSelf])]);
  (* models/M2/AUTOSARTemplates/SystemTemplate/Fibex/Fibex4Flexray/FlexrayTopology.py *)
  ("FlexrayCommunicationController", [ (* line 10 *)
    ("getAcceptedStartupRange", [MReturnAttr "acceptedStartupRange"]);
    ("setAcceptedStartupRange", [MIfSome [MAssign "acceptedStartupRange"]; MReturnSelf]);
    ("getAllowHaltDueToClock", [MReturnAttr "allowHaltDueToClock"]);
    ("setAllowHaltDueToClock", [MIfSome [MAssign "allowHaltDueToClock"]; MReturnSelf]);
    ("getAllowPassiveToActive", [MReturnAttr "allowPassiveToActive"]);
    ("setAllowPassiveToActive", [MIfSome [MAssign "allowPassiveToActive"]; MReturnSelf]);
    ("getClusterDriftDamping", [MReturnAttr "clusterDriftDamping"]);
    ("setClusterDriftDamping", [MIfSome [MAssign "clusterDriftDamping"]; MReturnSelf]);
    ("getDecodingCorrection", [MReturnAttr "decodingCorrection"]);
    ("setDecodingCorrection", [MIfSome [MAssign "decodingCorrection"]; MReturnSelf]);
    ("getDelayCompensationA", [MReturnAttr "delayCompensationA"]);
    ("setDelayCompensationA", [MIfSome [MAssign "delayCompensationA"]; MReturnSelf]);
    ("getDelayCompensationB", [MReturnAttr "delayCompensationB"]);
    ("setDelayCompensationB", [MIfSome [MAssign "delayCompensationB"]; MReturnSelf]);
    ("getExternalSync", [MReturnAttr "externalSync"]);
    ("setExternalSync", [MIfSome [MAssign "externalSync"]; MReturnSelf]);
    ("getExternOffsetCorrection", [MReturnAttr "externOffsetCorrection"]);
    ("setExternOffsetCorrection", [MIfSome [MAssign "externOffsetCorrection"]; MReturnSelf]);
    ("getExternRateCorrection", [MReturnAttr "externRateCorrection"]);
    ("setExternRateCorrection", [MIfSome [MAssign "externRateCorrection"]; MReturnSelf]);
    ("getFallBackInternal", [MReturnAttr "fallBackInternal"]);
    ("setFallBackInternal", [MIfSome [MAssign "fallBackInternal"]; MReturnSelf]);
    ("getFlexrayFifos", [MReturnAttr "flexrayFifos"]);
    ("getKeySlotID", [MReturnAttr "keySlotID"]);
    ("setKeySlotID", [MIfSome [MAssign "keySlotID"]; MReturnSelf]);
    ("getKeySlotOnlyEnabled", [MReturnAttr "keySlotOnlyEnabled"]);
    ("setKeySlotOnlyEnabled", [MIfSome [MAssign "keySlotOnlyEnabled"]; MReturnSelf]);
    ("getKeySlotUsedForStartUp", [MReturnAttr "keySlotUsedForStartUp"]);
    ("setKeySlotUsedForStartUp", [MIfSome [MAssign "keySlotUsedForStartUp"]; MReturnSelf]);
    ("getKeySlotUsedForSync", [MReturnAttr "keySlotUsedForSync"]);
    ("setKeySlotUsedForSync", [MIfSome [MAssign "keySlotUsedForSync"]; MReturnSelf]);
    ("getLatestTX", [MReturnAttr "latestTX"]);
    ("setLatestTX", [MIfSome [MAssign "latestTX"]; MReturnSelf]);
    ("getListenTimeout", [MReturnAttr "listenTimeout"]);
    ("setListenTimeout", [MIfSome [MAssign "listenTimeout"]; MReturnSelf]);
    ("getMacroInitialOffsetA", [MReturnAttr "macroInitialOffsetA"]);
    ("setMacroInitialOffsetA", [MIfSome [MAssign "macroInitialOffsetA"]; MReturnSelf]);
    ("getMacroInitialOffsetB", [MReturnAttr "macroInitialOffsetB"]);
    ("setMacroInitialOffsetB", [MIfSome [MAssign "macroInitialOffsetB"]; MReturnSelf]);
    ("getMaximumDynamicPayloadLength", [MReturnAttr "maximumDynamicPayloadLength"]);
    ("setMaximumDynamicPayloadLength", [MIfSome [MAssign "maximumDynamicPayloadLength"]; MReturnSelf]);
    ("getMicroInitialOffsetA", [MReturnAttr "microInitialOffsetA"]);
    ("setMicroInitialOffsetA", [MIfSome [MAssign "microInitialOffsetA"]; MReturnSelf]);
    ("getMicroInitialOffsetB", [MReturnAttr "microInitialOffsetB"]);
    ("setMicroInitialOffsetB", [MIfSome [MAssign "microInitialOffsetB"]; MReturnSelf]);
    ("getMicroPerCycle", [MReturnAttr "microPerCycle"]);
    ("setMicroPerCycle", [MIfSome [MAssign "microPerCycle"]; MReturnSelf]);
    ("getMicrotickDuration", [MReturnAttr "microtickDuration"]);
    ("setMicrotickDuration", [MIfSome [MAssign "microtickDuration"]; MReturnSelf]);
    ("getNmVectorEarlyUpdate", [MReturnAttr "nmVectorEarlyUpdate"]);
    ("setNmVectorEarlyUpdate", [MIfSome [MAssign "nmVectorEarlyUpdate"]; MReturnSelf]);
    ("getOffsetCorrectionOut", [MReturnAttr "offsetCorrectionOut"]);
    ("setOffsetCorrectionOut", [MIfSome [MAssign "offsetCorrectionOut"]; MReturnSelf]);
    ("getRateCorrectionOut", [MReturnAttr "rateCorrectionOut"]);
    ("setRateCorrectionOut", [MIfSome [MAssign "rateCorrectionOut"]; MReturnSelf]);
    ("getSamplesPerMicrotick", [MReturnAttr "samplesPerMicrotick"]);
    ("setSamplesPerMicrotick", [MIfSome [MAssign "samplesPerMicrotick"]; MReturnSelf]);
    ("getSecondKeySlotId", [MReturnAttr "secondKeySlotId"]);
    ("setSecondKeySlotId", [MIfSome [MAssign "secondKeySlotId"]; MReturnSelf]);
    ("getTwoKeySlotMode", [MReturnAttr "twoKeySlotMode"]);
    ("setTwoKeySlotMode", [MIfSome [MAssign "twoKeySlotMode"]; MReturnSelf]);
    ("getWakeUpPattern", [MReturnAttr "wakeUpPattern"]);
    ("setWakeUpPattern", [MIfSome [MAssign "wakeUpPattern"]; MReturnSelf])]);
  ("FlexrayCommunicationConnector", [ (* line 534 *)
    ("getNmReadySleepTime", [MReturnAttr "nmReadySleepTime"]);
    ("setNmReadySleepTime", [MIfSome [MAssign "nmReadySleepTime"]; MReturnSelf]);
    ("getPncFilterDataMask", [MReturnAttr "pncFilterDataMask"]);
    ("setPncFilterDataMask", [MIfSome [MAssign "pncFilterDataMask"]; MReturnSelf]);
    ("getWakeUpChannel", [MReturnAttr "wakeUpChannel"]);
    ("setWakeUpChannel", [MIfSome [MAssign "wakeUpChannel"]; MReturnSelf])]);
  ("FlexrayCluster", [ (* line 582 *)
    ("getActionPointOffset", [MReturnAttr "actionPointOffset"]);
    ("setActionPointOffset", [MIfSome [MAssign "actionPointOffset"]; MReturnSelf]);
    ("getBit", [MReturnAttr "bit"]);
    ("setBit", [MIfSome [MAssign "bit"]; MReturnSelf]);
    ("getCasRxLowMax", [MReturnAttr "casRxLowMax"]);
    ("setCasRxLowMax", [MIfSome [MAssign "casRxLowMax"]; MReturnSelf]);
    ("getColdStartAttempts", [MReturnAttr "coldStartAttempts"]);
    ("setColdStartAttempts", [MIfSome [MAssign "coldStartAttempts"]; MReturnSelf]);
    ("getCycle", [MReturnAttr "cycle"]);
    ("setCycle", [MIfSome [MAssign "cycle"]; MReturnSelf]);
    ("getCycleCountMax", [MReturnAttr "cycleCountMax"]);
    ("setCycleCountMax", [MIfSome [MAssign "cycleCountMax"]; MReturnSelf]);
    ("getDetectNitError", [MReturnAttr "detectNitError"]);
    ("setDetectNitError", [MIfSome [MAssign "detectNitError"]; MReturnSelf]);
    ("getDynamicSlotIdlePhase", [MReturnAttr "dynamicSlotIdlePhase"]);
    ("setDynamicSlotIdlePhase", [MIfSome [MAssign "dynamicSlotIdlePhase"]; MReturnSelf]);
    ("getIgnoreAfterTx", [MReturnAttr "ignoreAfterTx"]);
    ("setIgnoreAfterTx", [MIfSome [MAssign "ignoreAfterTx"]; MReturnSelf]);
    ("getListenNoise", [MReturnAttr "listenNoise"]);
    ("setListenNoise", [MIfSome [MAssign "listenNoise"]; MReturnSelf]);
    ("getMacroPerCycle", [MReturnAttr "macroPerCycle"]);
    ("setMacroPerCycle", [MIfSome [MAssign "macroPerCycle"]; MReturnSelf]);
    ("getMacrotickDuration", [MReturnAttr "macrotickDuration"]);
    ("setMacrotickDuration", [MIfSome [MAssign "macrotickDuration"]; MReturnSelf]);
    ("getMaxWithoutClockCorrectionFatal", [MReturnAttr "maxWithoutClockCorrectionFatal"]);
    ("setMaxWithoutClockCorrectionFatal", [MIfSome [MAssign "maxWithoutClockCorrectionFatal"]; MReturnSelf]);
    ("getMaxWithoutClockCorrectionPassive", [MReturnAttr "maxWithoutClockCorrectionPassive"]);
    ("setMaxWithoutClockCorrectionPassive", [MIfSome [MAssign "maxWithoutClockCorrectionPassive"]; MReturnSelf]);
    ("getMinislotActionPointOffset", [MReturnAttr "minislotActionPointOffset"]);
    ("setMinislotActionPointOffset", [MIfSome [MAssign "minislotActionPointOffset"]; MReturnSelf]);
    ("getMinislotDuration", [MReturnAttr "minislotDuration"]);
    ("setMinislotDuration", [MIfSome [MAssign "minislotDuration"]; MReturnSelf]);
    ("getNetworkIdleTime", [MReturnAttr "networkIdleTime"]);
    ("setNetworkIdleTime", [MIfSome [MAssign "networkIdleTime"]; MReturnSelf]);
    ("getNetworkManagementVectorLength", [MReturnAttr "networkManagementVectorLength"]);
    ("setNetworkManagementVectorLength", [MIfSome [MAssign "networkManagementVectorLength"]; MReturnSelf]);
    ("getNumberOfMinislots", [MReturnAttr "numberOfMinislots"]);
    ("setNumberOfMinislots", [MIfSome [MAssign "numberOfMinislots"]; MReturnSelf]);
    ("getNumberOfStaticSlots", [MReturnAttr "numberOfStaticSlots"]);
    ("setNumberOfStaticSlots", [MIfSome [MAssign "numberOfStaticSlots"]; MReturnSelf]);
    ("getOffsetCorrectionStart", [MReturnAttr "offsetCorrectionStart"]);
    ("setOffsetCorrectionStart", [MIfSome [MAssign "offsetCorrectionStart"]; MReturnSelf]);
    ("getPayloadLengthStatic", [MReturnAttr "payloadLengthStatic"]);
    ("setPayloadLengthStatic", [MIfSome [MAssign "payloadLengthStatic"]; MReturnSelf]);
    ("getSafetyMargin", [MReturnAttr "safetyMargin"]);
    ("setSafetyMargin", [MIfSome [MAssign "safetyMargin"]; MReturnSelf]);
    ("getSampleClockPeriod", [MReturnAttr "sampleClockPeriod"]);
    ("setSampleClockPeriod", [MIfSome [MAssign "sampleClockPeriod"]; MReturnSelf]);
    ("getStaticSlotDuration", [MReturnAttr "staticSlotDuration"]);
    ("setStaticSlotDuration", [MIfSome [MAssign "staticSlotDuration"]; MReturnSelf]);
    ("getSymbolWindow", [MReturnAttr "symbolWindow"]);
    ("setSymbolWindow", [MIfSome [MAssign "symbolWindow"]; MReturnSelf]);
    ("getSymbolWindowActionPointOffset", [MReturnAttr "symbolWindowActionPointOffset"]);
    ("setSymbolWindowActionPointOffset", [MIfSome [MAssign "symbolWindowActionPointOffset"]; MReturnSelf]);
    ("getSyncFrameIdCountMax", [MReturnAttr "syncFrameIdCountMax"]);
    ("setSyncFrameIdCountMax", [MIfSome [MAssign "syncFrameIdCountMax"]; MReturnSelf]);
    ("getTranceiverStandbyDelay", [MReturnAttr "tranceiverStandbyDelay"]);
    ("setTranceiverStandbyDelay", [MIfSome [MAssign "tranceiverStandbyDelay"]; MReturnSelf]);
    ("getTransmissionStartSequenceDuration", [MReturnAttr "transmissionStartSequenceDuration"]);
    ("setTransmissionStartSequenceDuration", [MIfSome [MAssign "transmissionStartSequenceDuration"]; MReturnSelf]);
    ("getWakeupRxIdle", [MReturnAttr "wakeupRxIdle"]);
    ("setWakeupRxIdle", [MIfSome [MAssign "wakeupRxIdle"]; MReturnSelf]);
    ("getWakeupRxLow", [MReturnAttr "wakeupRxLow"]);
    ("setWakeupRxLow", [MIfSome [MAssign "wakeupRxLow"]; MReturnSelf]);
    ("getWakeupRxWindow", [MReturnAttr "wakeupRxWindow"]);
    ("setWakeupRxWindow", [MIfSome [MAssign "wakeupRxWindow"]; MReturnSelf]);
    ("getWakeupTxActive", [MReturnAttr "wakeupTxActive"]);
    ("setWakeupTxActive", [MIfSome [MAssign "wakeupTxActive"]; MReturnSelf]);
    ("getWakeupTxIdle", [MReturnAttr "wakeupTxIdle"]);
    ("setWakeupTxIdle", [MIfSome [MAssign "wakeupTxIdle"]; MReturnSelf])]);
  ("FlexrayFifoRange", [ (* line 1155 *)
    ("getRangeMax", [MReturnAttr "rangeMax"]);
    ("setRangeMax", [MIfSome [MAssign "rangeMax"]; MReturnSelf]);
    ("getRangeMin", [MReturnAttr "rangeMin"]);
    ("setRangeMin", [MIfSome [MAssign "rangeMin"]; MReturnSelf])]);
  ("FlexrayFifoConfiguration", [ (* line 1200 *)
    ("getAdmitWithoutMessageId", [MReturnAttr "admitWithoutMessageId"]);
    ("setAdmitWithoutMessageId", [MIfSome [MAssign "admitWithoutMessageId"]; MReturnSelf]);
    ("getBaseCycle", [MReturnAttr "baseCycle"]);
    ("setBaseCycle", [MIfSome [MAssign "baseCycle"]; MReturnSelf]);
    ("getChannelRef", [MReturnAttr "channelRef"]);
    ("setChannelRef", [MIfSome [MAssign "channelRef"]; MReturnSelf]);
    ("getCycleRepetition", [MReturnAttr "cycleRepetition"]);
    ("setCycleRepetition", [MIfSome [MAssign "cycleRepetition"]; MReturnSelf]);
    ("getFifoDepth", [MReturnAttr "fifoDepth"]);
    ("setFifoDepth", [MIfSome [MAssign "fifoDepth"]; MReturnSelf]);
    ("getFlexrayFifoRanges", [MReturnAttr "fifoRange"]);
    ("getMsgIdMask", [MReturnAttr "msgIdMask"]);
    ("setMsgIdMask", [MIfSome [MAssign "msgIdMask"]; MReturnSelf]);
    ("getMsgIdMatch", [MReturnAttr "msgIdMatch"]);
    ("setMsgIdMatch", [MIfSome [MAssign "msgIdMatch"]; MReturnSelf])]);
  (* models/M2/AUTOSARTemplates/SystemTemplate/Fibex/Fibex4Lin/LinCommunication.py *)
  ("LinFrameTriggering", [ (* line 42 *)
    ("getIdentifier", [MReturnAttr "identifier"]);
    ("setIdentifier", [MIfSome [MAssign "identifier"]; MReturnSelf]);
    ("getLinChecksum", [MReturnAttr "linChecksum"]);
    ("setLinChecksum", [MIfSome [MAssign "linChecksum"]; MReturnSelf])]);
  ("ScheduleTableEntry", [ (* line 95 *)
    ("getDelay", [MReturnAttr "delay"]);
    ("setDelay", [MIfSome [MAssign "delay"]; MReturnSelf]);
    ("getIntroduction", [MReturnAttr "introduction"]);
    ("setIntroduction", [MIfSome [MAssign "introduction"]; MReturnSelf]);
    ("getPositionInTable", [MReturnAttr "positionInTable"]);
    ("setPositionInTable", [MIfSome [MAssign "positionInTable"]; MReturnSelf])]);
  ("ApplicationEntry", [ (* line 147 *)
    ("getFrameTriggeringRef", [MReturnAttr "frameTriggeringRef"]);
    ("setFrameTriggeringRef", [MIfSome [MAssign "frameTriggeringRef"]; MReturnSelf])]);
  ("LinScheduleTable", [ (* line 206 *)
    ("getResumePosition", [MReturnAttr "resumePosition"]);
    ("setResumePosition", [MIfSome [MAssign "resumePosition"]; MReturnSelf]);
    ("getRunMode", [MReturnAttr "runMode"]);
    ("setRunMode", [MIfSome [MAssign "runMode"]; MReturnSelf]);
    ("getTableEntries", [MReturnAttr "tableEntries"])]);
  (* models/M2/AUTOSARTemplates/SystemTemplate/Fibex/Fibex4Lin/LinTopology.py *)
  ("LinCommunicationController", [ (* line 7 *)
    ("getProtocolVersion", [MReturnAttr "protocolVersion"]);
    ("setProtocolVersion", [MIfSome [MAssign "protocolVersion"]; MReturnSelf])]);
  ("LinMaster", [ (* line 35 *)
    ("getLinSlaves", [MReturnAttr "linSlaves"]);
    ("getTimeBase", [MReturnAttr "timeBase"]);
    ("setTimeBase", [MIfSome [MAssign "timeBase"]; MReturnSelf]);
    ("getTimeBaseJitter", [MReturnAttr "timeBaseJitter"]);
    ("setTimeBaseJitter", [MIfSome [MAssign "timeBaseJitter"]; MReturnSelf])]);
  ("LinCommunicationConnector", [ (* line 83 *)
    ("getInitialNad", [MReturnAttr "initialNad"]);
    ("setInitialNad", [MIfSome [MAssign "initialNad"]; MReturnSelf]);
    ("getLinConfigurableFrames", [MReturnAttr "linConfigurableFrames"]);
    ("getLinOrderedConfigurableFrames", [MReturnAttr "linOrderedConfigurableFrames"]);
    ("getScheduleChangeNextTimeBase", [MReturnAttr "scheduleChangeNextTimeBase"]);
    ("setScheduleChangeNextTimeBase", [MIfSome [MAssign "scheduleChangeNextTimeBase"]; MReturnSelf])]);
  (* models/M2/AUTOSARTemplates/SystemTemplate/Fibex/FibexCore/CoreCommunication.py *)
  ("PduToFrameMapping", [ (* line 38 *)
    ("getPackingByteOrder", [MReturnAttr "packingByteOrder"]);
    ("setPackingByteOrder", [MAssign "packingByteOrder"; MReturnSelf]);
    ("getPduRef", [MReturnAttr "pduRef"]);
    ("setPduRef", [MAssign "pduRef"; MReturnSelf]);
    ("getStartPosition", [MReturnAttr "startPosition"]);
    ("setStartPosition", [MAssign "startPosition"; MReturnSelf]);
    ("getUpdateIndicationBitPosition", [MReturnAttr "updateIndicationBitPosition"]);
    ("setUpdateIndicationBitPosition", [MAssign "updateIndicationBitPosition"; MReturnSelf])]);
  ("Frame", [ (* line 93 *)
    ("getFrameLength", [MReturnAttr "frameLength"]);
    ("setFrameLength", [MAssign "frameLength"; MReturnSelf]);
    ("getPduToFrameMappings", [MOther])]);
  ("ContainedIPduProps", [ (* line 134 *)
    ("getCollectionSemantics", [MReturnAttr "collectionSemantics"]);
    ("setCollectionSemantics", [MAssign "collectionSemantics"; MReturnSelf]);
    ("getHeaderIdLongHeader", [MReturnAttr "headerIdLongHeader"]);
    ("setHeaderIdLongHeader", [MAssign "headerIdLongHeader"; MReturnSelf]);
    ("getHeaderIdShortHeader", [MReturnAttr "headerIdShortHeader"]);
    ("setHeaderIdShortHeader", [MAssign "headerIdShortHeader"; MReturnSelf]);
    ("getOffset", [MReturnAttr "offset"]);
    ("setOffset", [MAssign "offset"; MReturnSelf]);
    ("getTimeout", [MReturnAttr "timeout"]);
    ("setTimeout", [MAssign "timeout"; MReturnSelf]);
    ("getTrigger", [MReturnAttr "trigger"]);
    ("setTrigger", [MAssign "trigger"; MReturnSelf]);
    ("getUpdateIndicationBitPosition", [MReturnAttr "updateIndicationBitPosition"]);
    ("setUpdateIndicationBitPosition", [MAssign "updateIndicationBitPosition"; MReturnSelf])]);
  ("ISignalGroup", [ (* line 219 *)
    ("getComBasedSignalGroupTransformationRef", [MReturnAttr "comBasedSignalGroupTransformationRef"]);
    ("setComBasedSignalGroupTransformationRef", [MIfSome [MAssign "comBasedSignalGroupTransformationRef"]; MReturnSelf]);
    ("getISignalRefs", [MReturnAttr "iSignalRefs"]);
    ("getSystemSignalGroupRef", [MReturnAttr "systemSignalGroupRef"]);
    ("setSystemSignalGroupRef", [MIfSome [MAssign "systemSignalGroupRef"]; MReturnSelf]);
    ("getTransformationISignalProps", [MReturnAttr "transformationISignalProps"])]);
  ("ISignalIPduGroup", [ (* line 310 *)
    ("getCommunicationDirection", [MReturnAttr "communicationDirection"]);
    ("setCommunicationDirection", [MAssign "communicationDirection"; MReturnSelf]);
    ("getCommunicationMode", [MReturnAttr "communicationMode"]);
    ("setCommunicationMode", [MAssign "communicationMode"; MReturnSelf]);
    ("getContainedISignalIPduGroupRefs", [MReturnAttr "containedISignalIPduGroupRefs"]);
    ("getISignalIPduRefs", [MReturnAttr "iSignalIPduRefs"]);
    ("getNmPduRefs", [MReturnAttr "nmPduRefs"])]);
  ("Pdu", [ (* line 375 *)
    ("setHasDynamicLength", [MIfSome [MAssign "hasDynamicLength"]; MReturnSelf]);
    ("getHasDynamicLength", [MReturnAttr "hasDynamicLength"]);
    ("setLength", [MIfSome [MAssign "length"]; MReturnSelf]);
    ("getLength", [MReturnAttr "length"])]);
  ("IPdu", [ (* line 433 *)
    ("getContainedIPduProps", [MReturnAttr "containedIPduProps"]);
    ("setContainedIPduProps", [MIfSome [MAssign "containedIPduProps"]; MReturnSelf])]);
  ("SecureCommunicationProps", [ (* line 471 *)
    ("getAuthDataFreshnessLength", [MReturnAttr "authDataFreshnessLength"]);
    ("setAuthDataFreshnessLength", [MIfSome [MAssign "authDataFreshnessLength"]; MReturnSelf]);
    ("getAuthDataFreshnessStartPosition", [MReturnAttr "authDataFreshnessStartPosition"]);
    ("setAuthDataFreshnessStartPosition", [MIfSome [MAssign "authDataFreshnessStartPosition"]; MReturnSelf]);
    ("getAuthenticationBuildAttempts", [MReturnAttr "authenticationBuildAttempts"]);
    ("setAuthenticationBuildAttempts", [MIfSome [MAssign "authenticationBuildAttempts"]; MReturnSelf]);
    ("getAuthenticationRetries", [MReturnAttr "authenticationRetries"]);
    ("setAuthenticationRetries", [MIfSome [MAssign "authenticationRetries"]; MReturnSelf]);
    ("getDataId", [MReturnAttr "dataId"]);
    ("setDataId", [MIfSome [MAssign "dataId"]; MReturnSelf]);
    ("getFreshnessValueId", [MReturnAttr "freshnessValueId"]);
    ("setFreshnessValueId", [MIfSome [MAssign "freshnessValueId"]; MReturnSelf]);
    ("getMessageLinkLength", [MReturnAttr "messageLinkLength"]);
    ("setMessageLinkLength", [MIfSome [MAssign "messageLinkLength"]; MReturnSelf]);
    ("getMessageLinkPosition", [MReturnAttr "messageLinkPosition"]);
    ("setMessageLinkPosition", [MIfSome [MAssign "messageLinkPosition"]; MReturnSelf]);
    ("getSecondaryFreshnessValueId", [MReturnAttr "secondaryFreshnessValueId"]);
    ("setSecondaryFreshnessValueId", [MIfSome [MAssign "secondaryFreshnessValueId"]; MReturnSelf]);
    ("getSecuredAreaLength", [MReturnAttr "securedAreaLength"]);
    ("setSecuredAreaLength", [MIfSome [MAssign "securedAreaLength"]; MReturnSelf]);
    ("getSecuredAreaOffset", [MReturnAttr "securedAreaOffset"]);
    ("setSecuredAreaOffset", [MIfSome [MAssign "securedAreaOffset"]; MReturnSelf])]);
  ("SecuredIPdu", [ (* line 709 *)
    ("getAuthenticationPropsRef", [MReturnAttr "authenticationPropsRef"]);
    ("setAuthenticationPropsRef", [MIfSome [MAssign "authenticationPropsRef"]; MReturnSelf]);
    ("getDynamicRuntimeLengthHandling", [MReturnAttr "dynamicRuntimeLengthHandling"]);
    ("setDynamicRuntimeLengthHandling", [MIfSome [MAssign "dynamicRuntimeLengthHandling"]; MReturnSelf]);
    ("getFreshnessPropsRef", [MReturnAttr "freshnessPropsRef"]);
    ("setFreshnessPropsRef", [MIfSome [MAssign "freshnessPropsRef"]; MReturnSelf]);
    ("getPayloadRef", [MReturnAttr "payloadRef"]);
    ("setPayloadRef", [MIfSome [MAssign "payloadRef"]; MReturnSelf]);
    ("getSecureCommunicationProps", [MReturnAttr "secureCommunicationProps"]);
    ("setSecureCommunicationProps", [MIfSome [MAssign "secureCommunicationProps"]; MReturnSelf]);
    ("getUseAsCryptographicIPdu", [MReturnAttr "useAsCryptographicIPdu"]);
    ("setUseAsCryptographicIPdu", [MIfSome [MAssign "useAsCryptographicIPdu"]; MReturnSelf]);
    ("getUseSecuredPduHeader", [MReturnAttr "useSecuredPduHeader"]);
    ("setUseSecuredPduHeader", [MIfSome [MAssign "useSecuredPduHeader"]; MReturnSelf])]);
  ("ISignalToIPduMapping", [ (* line 837 *)
    ("getISignalRef", [MReturnAttr "iSignalRef"]);
    ("setISignalRef", [MIfSome [MAssign "iSignalRef"]; MReturnSelf]);
    ("getISignalGroupRef", [MReturnAttr "iSignalGroupRef"]);
    ("setISignalGroupRef", [MIfSome [MAssign "iSignalGroupRef"]; MReturnSelf]);
    ("getPackingByteOrder", [MReturnAttr "packingByteOrder"]);
    ("setPackingByteOrder", [MIfSome [MAssign "packingByteOrder"]; MReturnSelf]);
    ("getStartPosition", [MReturnAttr "startPosition"]);
    ("setStartPosition", [MIfSome [MAssign "startPosition"]; MReturnSelf]);
    ("getTransferProperty", [MReturnAttr "transferProperty"]);
    ("setTransferProperty", [MIfSome [MAssign "transferProperty"]; MReturnSelf]);
    ("getUpdateIndicationBitPosition", [MReturnAttr "updateIndicationBitPosition"]);
    ("setUpdateIndicationBitPosition", [MIfSome [MAssign "updateIndicationBitPosition"]; MReturnSelf])]);
  ("NmPdu", [ (* line 972 *)
    ("getISignalToIPduMappings", [MReturnAttr "iSignalToIPduMappings"]);
    ("getNmDataInformation", [MReturnAttr "nmDataInformation"]);
    ("setNmDataInformation", [MIfSome [MAssign "nmDataInformation"]; MReturnSelf]);
    ("getNmVoteInformation", [MReturnAttr "nmVoteInformation"]);
    ("setNmVoteInformation", [MIfSome [MAssign "nmVoteInformation"]; MReturnSelf]);
    ("getUnusedBitPattern", [MReturnAttr "unusedBitPattern"]);
    ("setUnusedBitPattern", [MIfSome [MAssign "unusedBitPattern"]; MReturnSelf])]);
  ("DcmIPdu", [ (* line 1046 *)
    ("getDiagPduType", [MReturnAttr "diagPduType"]);
    ("setDiagPduType", [MAssign "diagPduType"; MReturnSelf])]);
  ("IPduTiming", [ (* line 1070 *)
    ("getMinimumDelay", [MReturnAttr "minimumDelay"]);
    ("setMinimumDelay", [MIfSome [MAssign "minimumDelay"]; MReturnSelf]);
    ("getTransmissionModeDeclaration", [MReturnAttr "transmissionModeDeclaration"]);
    ("setTransmissionModeDeclaration", [MIfSome [MAssign "transmissionModeDeclaration"]; MReturnSelf])]);
  ("ISignalIPdu", [ (* line 1125 *)
    ("getIPduTimingSpecification", [MReturnAttr "iPduTimingSpecification"]);
    ("setIPduTimingSpecification", [MIfSome [MAssign "iPduTimingSpecification"]; MReturnSelf]);
    ("getISignalToPduMappings", [MReturnAttr "iSignalToPduMappings"]);
    ("getUnusedBitPattern", [MReturnAttr "unusedBitPattern"]);
    ("setUnusedBitPattern", [MIfSome [MAssign "unusedBitPattern"]; MReturnSelf])]);
  ("ISignalProps", [ (* line 1226 *)
    ("getHandleOutOfRange", [MReturnAttr "handleOutOfRange"]);
    ("setHandleOutOfRange", [MIfSome [MAssign "handleOutOfRange"]; MReturnSelf])]);
  ("ISignal", [ (* line 1264 *)
    ("getDataTransformationRef", [MReturnAttr "dataTransformationRef"]);
    ("setDataTransformationRef", [MIfSome [MAssign "dataTransformationRef"]; MReturnSelf]);
    ("getDataTypePolicy", [MReturnAttr "dataTypePolicy"]);
    ("setDataTypePolicy", [MIfSome [MAssign "dataTypePolicy"]; MReturnSelf]);
    ("getInitValue", [MReturnAttr "initValue"]);
    ("setInitValue", [MIfSome [MAssign "initValue"]; MReturnSelf]);
    ("getISignalProps", [MReturnAttr "iSignalProps"]);
    ("setISignalProps", [MIfSome [MAssign "iSignalProps"]; MReturnSelf]);
    ("getISignalType", [MReturnAttr "iSignalType"]);
    ("setISignalType", [MIfSome [MAssign "iSignalType"]; MReturnSelf]);
    ("getLength", [MReturnAttr "length"]);
    ("setLength", [MIfSome [MAssign "length"]; MReturnSelf]);
    ("getNetworkRepresentationProps", [MReturnAttr "networkRepresentationProps"]);
    ("setNetworkRepresentationProps", [MIfSome [MAssign "networkRepresentationProps"]; MReturnSelf]);
    ("getSystemSignalRef", [MReturnAttr "systemSignalRef"]);
    ("setSystemSignalRef", [MIfSome [MAssign "systemSignalRef"]; MReturnSelf]);
    ("getTimeoutSubstitutionValue", [MReturnAttr "timeoutSubstitutionValue"]);
    ("setTimeoutSubstitutionValue", [MIfSome [MAssign "timeoutSubstitutionValue"]; MReturnSelf]);
    ("getTransformationISignalProps", [MReturnAttr "transformationISignalProps"])]);
  ("PduTriggering", [ (* line 1481 *)
    ("getIPduRef", [MReturnAttr "iPduRef"]);
    ("setIPduRef", [MAssign "iPduRef"; MReturnSelf]);
    ("getIPduPortRefs", [MReturnAttr "iPduPortRefs"]);
    ("getISignalTriggeringRefs", [MReturnAttr "iSignalTriggeringRefs"]);
    ("getSecOcCryptoMappingRef", [MReturnAttr "secOcCryptoMappingRef"]);
    ("setSecOcCryptoMappingRef", [MAssign "secOcCryptoMappingRef"; MReturnSelf]);
    ("getTriggerIPduSendConditions", [MReturnAttr "triggerIPduSendConditions"])]);
  ("FrameTriggering", [ (* line 1547 *)
    ("getFrameRef", [MReturnAttr "frameRef"]);
    ("setFrameRef", [MAssign "frameRef"; MReturnSelf]);
    ("getFramePortRefs", [MReturnAttr "framePortRefs"]);
    ("getPduTriggeringRefs", [MReturnAttr "pduTriggeringRefs"])]);
  ("SystemSignal", [ (* line 1595 *)
    ("getDynamicLength", [MReturnAttr "dynamicLength"]);
    ("setDynamicLength", [MAssign "dynamicLength"; MReturnSelf]);
    ("getPhysicalProps", [MReturnAttr "physicalProps"]);
    ("setPhysicalProps", [MAssign "physicalProps"; MReturnSelf])]);
  ("SystemSignalGroup", [ (* line 1630 *)
    ("getSystemSignalRefs", [MReturnAttr "systemSignalRefs"]);
    ("getTransformingSystemSignalRef", [MReturnAttr "transformingSystemSignalRef"]);
    ("setTransformingSystemSignalRef", [MIfSome [MAssign "transformingSystemSignalRef"]; MReturnSelf])]);
  ("ISignalTriggering", [ (* line 1683 *)
    ("getISignalRef", [MReturnAttr "iSignalRef"]);
    ("setISignalRef", [MAssign "iSignalRef"; MReturnSelf]);
    ("getISignalGroupRef", [MReturnAttr "iSignalGroupRef"]);
    ("setISignalGroupRef", [MAssign "iSignalGroupRef"; MReturnSelf]);
    ("getISignalPortRefs", [MReturnAttr "iSignalPortRefs"])]);
  ("SegmentPosition", [ (* line 1728 *)
    ("getSegmentByteOrder", [MReturnAttr "segmentByteOrder"]);
    ("setSegmentByteOrder", [MIfSome [MAssign "segmentByteOrder"]; MReturnSelf]);
    ("getSegmentLength", [MReturnAttr "segmentLength"]);
    ("setSegmentLength", [MIfSome [MAssign "segmentLength"]; MReturnSelf]);
    ("getSegmentPosition", [MReturnAttr "segmentPosition"]);
    ("setSegmentPosition", [MIfSome [MAssign "segmentPosition"]; MReturnSelf])]);
  ("MultiplexedPart", [ (* line 1776 *)
    ("getSegmentPositions", [MReturnAttr "segmentPositions"])]);
  ("StaticPart", [ (* line 1805 *)
    ("getIPduRef", [MReturnAttr "iPduRef"]);
    ("setIPduRef", [MIfSome [MAssign "iPduRef"]; MReturnSelf])]);
  ("DynamicPartAlternative", [ (* line 1831 *)
    ("getInitialDynamicPart", [MReturnAttr "initialDynamicPart"]);
    ("setInitialDynamicPart", [MIfSome [MAssign "initialDynamicPart"]; MReturnSelf]);
    ("getIPduRef", [MReturnAttr "iPduRef"]);
    ("setIPduRef", [MIfSome [MAssign "iPduRef"]; MReturnSelf]);
    ("getSelectorFieldCode", [MReturnAttr "selectorFieldCode"]);
    ("setSelectorFieldCode", [MIfSome [MAssign "selectorFieldCode"]; MReturnSelf])]);
  ("DynamicPart", [ (* line 1879 *)
    ("getDynamicPartAlternatives", [MReturnAttr "dynamicPartAlternatives"])]);
  ("MultiplexedIPdu", [ (* line 1905 *)
    ("getDynamicPart", [MReturnAttr "dynamicPart"]);
    ("setDynamicPart", [MIfSome [MAssign "dynamicPart"]; MReturnSelf]);
    ("getSelectorFieldByteOrder", [MReturnAttr "selectorFieldByteOrder"]);
    ("setSelectorFieldByteOrder", [MIfSome [MAssign "selectorFieldByteOrder"]; MReturnSelf]);
    ("getSelectorFieldLength", [MReturnAttr "selectorFieldLength"]);
    ("setSelectorFieldLength", [MIfSome [MAssign "selectorFieldLength"]; MReturnSelf]);
    ("getSelectorFieldStartPosition", [MReturnAttr "selectorFieldStartPosition"]);
    ("setSelectorFieldStartPosition", [MIfSome [MAssign "selectorFieldStartPosition"]; MReturnSelf]);
    ("getStaticPart", [MReturnAttr "staticPart"]);
    ("setStaticPart", [MIfSome [MAssign "staticPart"]; MReturnSelf]);
    ("getTriggerMode", [MReturnAttr "triggerMode"]);
    ("setTriggerMode", [MIfSome [MAssign "triggerMode"]; MReturnSelf]);
    ("getUnusedBitPattern", [MReturnAttr "unusedBitPattern"]);
    ("setUnusedBitPattern", [MIfSome [MAssign "unusedBitPattern"]; MReturnSelf])]);
  ("SecureCommunicationPropsSet", [ (* line 2023 *)
    ("getAuthenticationProps", [MReturnAttr "authenticationProps"]);
    ("getFreshnessProps", [MReturnAttr "freshnessProps"])]);
  ("UserDefinedPdu", [ (* line 2083 *)
    ("getCddType", [MReturnAttr "cddType"]);
    ("setCddType", [MAssign "cddType"; MReturnSelf])]);
  ("UserDefinedIPdu", [ (* line 2116 *)
    ("getCddType", [MReturnAttr "cddType"]);
    ("setCddType", [MAssign "cddType"; MReturnSelf])]);
  ("SecureCommunicationAuthenticationProps", [ (* line 2139 *)
    ("getAuthInfoTxLength", [MReturnAttr "authInfoTxLength"]);
    ("setAuthInfoTxLength", [MIfSome [MAssign "authInfoTxLength"]; MReturnSelf])]);
  ("SecureCommunicationFreshnessProps", [ (* line 2177 *)
    ("getFreshnessCounterSyncAttempts", [MReturnAttr "freshnessCounterSyncAttempts"]);
    ("setFreshnessCounterSyncAttempts", [MIfSome [MAssign "freshnessCounterSyncAttempts"]; MReturnSelf]);
    ("getFreshnessTimestampTimePeriodFactor", [MReturnAttr "freshnessTimestampTimePeriodFactor"]);
    ("setFreshnessTimestampTimePeriodFactor", [MIfSome [MAssign "freshnessTimestampTimePeriodFactor"]; MReturnSelf]);
    ("getFreshnessValueLength", [MReturnAttr "freshnessValueLength"]);
    ("setFreshnessValueLength", [MIfSome [MAssign "freshnessValueLength"]; MReturnSelf]);
    ("getFreshnessValueTxLength", [MReturnAttr "freshnessValueTxLength"]);
    ("setFreshnessValueTxLength", [MIfSome [MAssign "freshnessValueTxLength"]; MReturnSelf]);
    ("getUseFreshnessTimestamp", [MReturnAttr "useFreshnessTimestamp"]);
    ("setUseFreshnessTimestamp", [MIfSome [MAssign "useFreshnessTimestamp"]; MReturnSelf])]);
  (* models/M2/AUTOSARTemplates/SystemTemplate/Fibex/FibexCore/CoreTopology.py *)
  ("CycleCounter", [ (* line 33 *)
    ("getCycleCounter", [MReturnAttr "CycleCounter"]);
    ("setCycleCounter", [MIfSome [MAssign "CycleCounter"]; MReturnSelf])]);
  ("CycleRepetition", [ (* line 72 *)
    ("getBaseCycle", [MReturnAttr "BaseCycle"]);
    ("setBaseCycle", [MIfSome [MAssign "BaseCycle"]; MReturnSelf]);
    ("getCycleRepetition", [MReturnAttr "CycleRepetition"]);
    ("setCycleRepetition", [MIfSome [MAssign "CycleRepetition"]; MReturnSelf])]);
  ("PhysicalChannel", [ (* line 109 *)
    ("getCommConnectorRefs", [MReturnAttr "commConnectorRefs"]);
    ("getFrameTriggerings", [MOther]);
    ("getISignalTriggerings", [MOther]);
    ("getManagedPhysicalChannelRefs", [MReturnAttr "managedPhysicalChannelRefs"]);
    ("getPduTriggerings", [MOther])]);
  ("LinPhysicalChannel", [ (* line 230 *)
    ("getBusIdleTimeoutPeriod", [MReturnAttr "busIdleTimeoutPeriod"]);
    ("setBusIdleTimeoutPeriod", [MIfSome [MAssign "busIdleTimeoutPeriod"]; MReturnSelf]);
    ("getScheduleTables", [MReturnAttr "scheduleTables"])]);
  ("VlanConfig", [ (* line 269 *)
    ("getVlanIdentifier", [MReturnAttr "vlanIdentifier"]);
    ("setVlanIdentifier", [MIfSome [MAssign "vlanIdentifier"]; MReturnSelf])]);
  ("EthernetPhysicalChannel", [ (* line 295 *)
    ("getNetworkEndpoints", [MReturnAttr "networkEndpoints"]);
    ("getSoAdConfig", [MReturnAttr "soAdConfig"]);
    ("setSoAdConfig", [MAssign "soAdConfig"; MReturnSelf]);
    ("getVlan", [MReturnAttr "vlan"])]);
  ("FlexrayPhysicalChannel", [ (* line 363 *)
    ("getChannelName", [MReturnAttr "channelName"]);
    ("setChannelName", [MIfSome [MAssign "channelName"]; MReturnSelf])]);
  ("CommunicationCluster", [ (* line 389 *)
    ("getBaudrate", [MReturnAttr "baudrate"]);
    ("setBaudrate", [MIfSome [MAssign "baudrate"]; MReturnSelf]);
    ("getPhysicalChannels", [MOther]);
    ("getCanPhysicalChannels", [MOther]);
    ("getLinPhysicalChannels", [MOther]);
    ("getEthernetPhysicalChannels", [MOther]);
    ("getProtocolName", [MReturnAttr "protocolName"]);
    ("setProtocolName", [MIfSome [MAssign "protocolName"]; MReturnSelf]);
    ("getProtocolVersion", [MReturnAttr "protocolVersion"]);
    ("setProtocolVersion", [MIfSome [MAssign "protocolVersion"]; MReturnSelf])]);
  ("CanClusterBusOffRecovery", [ (* line 540 *)
    ("getBorCounterL1ToL2", [MReturnAttr "borCounterL1ToL2"]);
    ("setBorCounterL1ToL2", [MIfSome [MAssign "borCounterL1ToL2"]; MReturnSelf]);
    ("getBorTimeL1", [MReturnAttr "borTimeL1"]);
    ("setBorTimeL1", [MIfSome [MAssign "borTimeL1"]; MReturnSelf]);
    ("getBorTimeL2", [MReturnAttr "borTimeL2"]);
    ("setBorTimeL2", [MIfSome [MAssign "borTimeL2"]; MReturnSelf]);
    ("getBorTimeTxEnsured", [MReturnAttr "borTimeTxEnsured"]);
    ("setBorTimeTxEnsured", [MIfSome [MAssign "borTimeTxEnsured"]; MReturnSelf]);
    ("getMainFunctionPeriod", [MReturnAttr "mainFunctionPeriod"]);
    ("setMainFunctionPeriod", [MIfSome [MAssign "mainFunctionPeriod"]; MReturnSelf])]);
  ("AbstractCanCluster", [ (* line 610 *)
    ("getBusOffRecovery", [MReturnAttr "busOffRecovery"]);
    ("setBusOffRecovery", [MIfSome [MAssign "busOffRecovery"]; MReturnSelf]);
    ("getCanFdBaudrate", [MReturnAttr "canFdBaudrate"]);
    ("setCanFdBaudrate", [MIfSome [MAssign "canFdBaudrate"]; MReturnSelf]);
    ("getCanXlBaudrate", [MReturnAttr "canXlBaudrate"]);
    ("setCanXlBaudrate", [MIfSome [MAssign "canXlBaudrate"]; MReturnSelf])]);
  ("CommunicationController", [ (* line 713 *)
    ("getWakeUpByControllerSupported", [MReturnAttr "wakeUpByControllerSupported"]);
    ("setWakeUpByControllerSupported", [MIfSome [MAssign "wakeUpByControllerSupported"]; MReturnSelf])]);
  ("CommConnectorPort", [ (* line 783 *)
    ("getCommunicationDirection", [MReturnAttr "communicationDirection"]);
    ("setCommunicationDirection", [MIfSome [MAssign "communicationDirection"]; MReturnSelf])]);
  ("IPduPort", [ (* line 838 *)
    ("getIPduSignalProcessing", [MReturnAttr "iPduSignalProcessing"]);
    ("setIPduSignalProcessing", [MIfSome [MAssign "iPduSignalProcessing"]; MReturnSelf]);
    ("getKeyId", [MReturnAttr "keyId"]);
    ("setKeyId", [MIfSome [MAssign "keyId"]; MReturnSelf]);
    ("getRxSecurityVerification", [MReturnAttr "rxSecurityVerification"]);
    ("setRxSecurityVerification", [MIfSome [MAssign "rxSecurityVerification"]; MReturnSelf]);
    ("getTimestampRxAcceptanceWindow", [MReturnAttr "timestampRxAcceptanceWindow"]);
    ("setTimestampRxAcceptanceWindow", [MIfSome [MAssign "timestampRxAcceptanceWindow"]; MReturnSelf]);
    ("getUseAuthDataFreshness", [MReturnAttr "useAuthDataFreshness"]);
    ("setUseAuthDataFreshness", [MIfSome [MAssign "useAuthDataFreshness"]; MReturnSelf])]);
  ("ISignalPort", [ (* line 908 *)
    ("getDataFilter", [MReturnAttr "dataFilter"]);
    ("setDataFilter", [MIfSome [MAssign "dataFilter"]; MReturnSelf]);
    ("getDdsQosProfileRef", [MReturnAttr "ddsQosProfileRef"]);
    ("setDdsQosProfileRef", [MIfSome [MAssign "ddsQosProfileRef"]; MReturnSelf]);
    ("getFirstTimeout", [MReturnAttr "firstTimeout"]);
    ("setFirstTimeout", [MIfSome [MAssign "firstTimeout"]; MReturnSelf]);
    ("getHandleInvalid", [MReturnAttr "handleInvalid"]);
    ("setHandleInvalid", [MIfSome [MAssign "handleInvalid"]; MReturnSelf]);
    ("getTimeout", [MReturnAttr "timeout"]);
    ("setTimeout", [MIfSome [MAssign "timeout"]; MReturnSelf])]);
  ("CommunicationConnector", [ (* line 978 *)
    ("getCommControllerRef", [MReturnAttr "commControllerRef"]);
    ("setCommControllerRef", [MAssign "commControllerRef"; MReturnSelf]);
    ("getCreateEcuWakeupSource", [MReturnAttr "createEcuWakeupSource"]);
    ("setCreateEcuWakeupSource", [MAssign "createEcuWakeupSource"; MReturnSelf]);
    ("getDynamicPncToChannelMappingEnabled", [MReturnAttr "dynamicPncToChannelMappingEnabled"]);
    ("setDynamicPncToChannelMappingEnabled", [MAssign "dynamicPncToChannelMappingEnabled"; MReturnSelf]);
    ("getEcuCommPortInstances", [MOther]);
    ("getPncFilterArrayMasks", [MReturnAttr "pncFilterArrayMasks"]);
    ("getPncGatewayType", [MReturnAttr "pncGatewayType"]);
    ("setPncGatewayType", [MAssign "pncGatewayType"; MReturnSelf])]);
  (* models/M2/AUTOSARTemplates/SystemTemplate/Fibex/FibexCore/EcuInstance.py *)
  ("EcuInstance", [ (* line 11 *)
    ("getAssociatedComIPduGroupRefs", [MReturnAttr "associatedComIPduGroupRefs"]);
    ("getAssociatedConsumedProvidedServiceInstanceGroupRefs", [MReturnAttr "associatedConsumedProvidedServiceInstanceGroupRefs"]);
    ("getAssociatedPdurIPduGroupRefs", [MReturnAttr "associatedPdurIPduGroupRefs"]);
    ("getChannelSynchronousWakeup", [MReturnAttr "channelSynchronousWakeup"]);
    ("setChannelSynchronousWakeup", [MAssign "channelSynchronousWakeup"; MReturnSelf]);
    ("getClientIdRange", [MReturnAttr "clientIdRange"]);
    ("setClientIdRange", [MAssign "clientIdRange"; MReturnSelf]);
    ("getComConfigurationGwTimeBase", [MReturnAttr "comConfigurationGwTimeBase"]);
    ("setComConfigurationGwTimeBase", [MAssign "comConfigurationGwTimeBase"; MReturnSelf]);
    ("getComConfigurationRxTimeBase", [MReturnAttr "comConfigurationRxTimeBase"]);
    ("setComConfigurationRxTimeBase", [MAssign "comConfigurationRxTimeBase"; MReturnSelf]);
    ("getComConfigurationTxTimeBase", [MReturnAttr "comConfigurationTxTimeBase"]);
    ("setComConfigurationTxTimeBase", [MAssign "comConfigurationTxTimeBase"; MReturnSelf]);
    ("getComEnableMDTForCyclicTransmission", [MReturnAttr "comEnableMDTForCyclicTransmission"]);
    ("setComEnableMDTForCyclicTransmission", [MAssign "comEnableMDTForCyclicTransmission"; MReturnSelf]);
    ("getCommControllers", [MOther]);
    ("getConnectors", [MOther]);
    ("getDltConfig", [MReturnAttr "dltConfig"]);
    ("setDltConfig", [MAssign "dltConfig"; MReturnSelf]);
    ("getDoIpConfig", [MReturnAttr "doIpConfig"]);
    ("setDoIpConfig", [MAssign "doIpConfig"; MReturnSelf]);
    ("getEcuTaskProxyRefs", [MReturnAttr "ecuTaskProxyRefs"]);
    ("getEthSwitchPortGroupDerivation", [MReturnAttr "ethSwitchPortGroupDerivation"]);
    ("setEthSwitchPortGroupDerivation", [MAssign "ethSwitchPortGroupDerivation"; MReturnSelf]);
    ("getFirewallRuleRefs", [MReturnAttr "firewallRuleRefs"]);
    ("getPartitions", [MReturnAttr "partitions"]);
    ("getPncNmRequest", [MReturnAttr "pncNmRequest"]);
    ("setPncNmRequest", [MAssign "pncNmRequest"; MReturnSelf]);
    ("getPncPrepareSleepTimer", [MReturnAttr "pncPrepareSleepTimer"]);
    ("setPncPrepareSleepTimer", [MAssign "pncPrepareSleepTimer"; MReturnSelf]);
    ("getPncSynchronousWakeup", [MReturnAttr "pncSynchronousWakeup"]);
    ("setPncSynchronousWakeup", [MAssign "pncSynchronousWakeup"; MReturnSelf]);
    ("getPnResetTime", [MReturnAttr "pnResetTime"]);
    ("setPnResetTime", [MAssign "pnResetTime"; MReturnSelf]);
    ("getSleepModeSupported", [MReturnAttr "sleepModeSupported"]);
    ("setSleepModeSupported", [MAssign "sleepModeSupported"; MReturnSelf]);
    ("getTcpIpIcmpPropsRef", [MReturnAttr "tcpIpIcmpPropsRef"]);
    ("setTcpIpIcmpPropsRef", [MAssign "tcpIpIcmpPropsRef"; MReturnSelf]);
    ("getTcpIpPropsRef", [MReturnAttr "tcpIpPropsRef"]);
    ("setTcpIpPropsRef", [MAssign "tcpIpPropsRef"; MReturnSelf]);
    ("getV2xSupported", [MReturnAttr "v2xSupported"]);
    ("setV2xSupported", [MAssign "v2xSupported"; MReturnSelf]);
    ("getWakeUpOverBusSupported", [MReturnAttr "wakeUpOverBusSupported"]);
    ("setWakeUpOverBusSupported", [MAssign "wakeUpOverBusSupported"; MReturnSelf])]);
  (* models/M2/AUTOSARTemplates/SystemTemplate/Fibex/FibexCore/Timing.py *)
  ("ModeDrivenTransmissionModeCondition", [ (* line 8 *)
    ("getModeDeclarationRef", [MReturnAttr "modeDeclarationRef"]);
    ("setModeDeclarationRef", [MAssign "modeDeclarationRef"; MReturnSelf])]);
  ("TransmissionModeCondition", [ (* line 32 *)
    ("getDataFilter", [MReturnAttr "dataFilter"]);
    ("setDataFilter", [MAssign "dataFilter"; MReturnSelf]);
    ("getISignalInIPduRef", [MReturnAttr "iSignalInIPduRef"]);
    ("setISignalInIPduRef", [MAssign "iSignalInIPduRef"; MReturnSelf])]);
  ("TimeRangeType", [ (* line 67 *)
    ("getTolerance", [MReturnAttr "tolerance"]);
    ("setTolerance", [MAssign "tolerance"; MReturnSelf]);
    ("getValue", [MReturnAttr "value"]);
    ("setValue", [MAssign "value"; MReturnSelf])]);
  ("CyclicTiming", [ (* line 101 *)
    ("getTimeOffset", [MReturnAttr "timeOffset"]);
    ("setTimeOffset", [MAssign "timeOffset"; MReturnSelf]);
    ("getTimePeriod", [MReturnAttr "timePeriod"]);
    ("setTimePeriod", [MAssign "timePeriod"; MReturnSelf])]);
  ("EventControlledTiming", [ (* line 134 *)
    ("getNumberOfRepetitions", [MReturnAttr "numberOfRepetitions"]);
    ("setNumberOfRepetitions", [MAssign "numberOfRepetitions"; MReturnSelf]);
    ("getRepetitionPeriod", [MReturnAttr "repetitionPeriod"]);
    ("setRepetitionPeriod", [MAssign "repetitionPeriod"; MReturnSelf])]);
  ("TransmissionModeTiming", [ (* line 168 *)
    ("getCyclicTiming", [MReturnAttr "cyclicTiming"]);
    ("setCyclicTiming", [MAssign "cyclicTiming"; MReturnSelf]);
    ("getEventControlledTiming", [MReturnAttr "eventControlledTiming"]);
    ("setEventControlledTiming", [MAssign "eventControlledTiming"; MReturnSelf])]);
  ("TransmissionModeDeclaration", [ (* line 203 *)
    ("getModeDrivenFalseConditions", [MReturnAttr "modeDrivenFalseConditions"]);
    ("getModeDrivenTrueConditions", [MReturnAttr "modeDrivenTrueConditions"]);
    ("getTransmissionModeConditions", [MReturnAttr "transmissionModeConditions"]);
    ("getTransmissionModeFalseTiming", [MReturnAttr "transmissionModeFalseTiming"]);
    ("setTransmissionModeFalseTiming", [MAssign "transmissionModeFalseTiming"; MReturnSelf]);
    ("getTransmissionModeTrueTiming", [MReturnAttr "transmissionModeTrueTiming"]);
    ("setTransmissionModeTrueTiming", [MAssign "transmissionModeTrueTiming"; MReturnSelf])]);
  (* models/M2/AUTOSARTemplates/SystemTemplate/Transformer/__init__.py *)
  ("DataTransformation", [ (* line 45 *)
    ("getDataTransformationKind", [MReturnAttr "dataTransformationKind"]);
    ("setDataTransformationKind", [MIfSome [MAssign "dataTransformationKind"]; MReturnSelf]);
    ("getExecuteDespiteDataUnavailability", [MReturnAttr "executeDespiteDataUnavailability"]);
    ("setExecuteDespiteDataUnavailability", [MIfSome [MAssign "executeDespiteDataUnavailability"]; MReturnSelf]);
    ("getTransformerChainRefs", [MReturnAttr "transformerChainRefs"])]);
  ("BufferProperties", [ (* line 120 *)
    ("getHeaderLength", [MReturnAttr "headerLength"]);
    ("setHeaderLength", [MIfSome [MAssign "headerLength"]; MReturnSelf]);
    ("getInPlace", [MReturnAttr "inPlace"]);
    ("setInPlace", [MIfSome [MAssign "inPlace"]; MReturnSelf])]);
  ("E2EProfileCompatibilityProps", [ (* line 253 *)
    ("getTransitToInvalidExtended", [MReturnAttr "transitToInvalidExtended"]);
    ("setTransitToInvalidExtended", [MIfSome [MAssign "transitToInvalidExtended"]; MReturnSelf])]);
  ("EndToEndTransformationDescription", [ (* line 289 *)
    ("getClearFromValidToInvalid", [MReturnAttr "clearFromValidToInvalid"]);
    ("setClearFromValidToInvalid", [MIfSome [MAssign "clearFromValidToInvalid"]; MReturnSelf]);
    ("getCounterOffset", [MReturnAttr "counterOffset"]);
    ("setCounterOffset", [MIfSome [MAssign "counterOffset"]; MReturnSelf]);
    ("getCrcOffset", [MReturnAttr "crcOffset"]);
    ("setCrcOffset", [MIfSome [MAssign "crcOffset"]; MReturnSelf]);
    ("getDataIdMode", [MReturnAttr "dataIdMode"]);
    ("setDataIdMode", [MIfSome [MAssign "dataIdMode"]; MReturnSelf]);
    ("getDataIdNibbleOffset", [MReturnAttr "dataIdNibbleOffset"]);
    ("setDataIdNibbleOffset", [MIfSome [MAssign "dataIdNibbleOffset"]; MReturnSelf]);
    ("getE2eProfileCompatibilityPropsRef", [MReturnAttr "e2eProfileCompatibilityPropsRef"]);
    ("setE2eProfileCompatibilityPropsRef", [MIfSome [MAssign "e2eProfileCompatibilityPropsRef"]; MReturnSelf]);
    ("getMaxDeltaCounter", [MReturnAttr "maxDeltaCounter"]);
    ("setMaxDeltaCounter", [MIfSome [MAssign "maxDeltaCounter"]; MReturnSelf]);
    ("getMaxErrorStateInit", [MReturnAttr "maxErrorStateInit"]);
    ("setMaxErrorStateInit", [MIfSome [MAssign "maxErrorStateInit"]; MReturnSelf]);
    ("getMaxErrorStateInvalid", [MReturnAttr "maxErrorStateInvalid"]);
    ("setMaxErrorStateInvalid", [MIfSome [MAssign "maxErrorStateInvalid"]; MReturnSelf]);
    ("getMaxErrorStateValid", [MReturnAttr "maxErrorStateValid"]);
    ("setMaxErrorStateValid", [MIfSome [MAssign "maxErrorStateValid"]; MReturnSelf]);
    ("getMaxNoNewOrRepeatedData", [MReturnAttr "maxNoNewOrRepeatedData"]);
    ("setMaxNoNewOrRepeatedData", [MIfSome [MAssign "maxNoNewOrRepeatedData"]; MReturnSelf]);
    ("getMinOkStateInit", [MReturnAttr "minOkStateInit"]);
    ("setMinOkStateInit", [MIfSome [MAssign "minOkStateInit"]; MReturnSelf]);
    ("getMinOkStateInvalid", [MReturnAttr "minOkStateInvalid"]);
    ("setMinOkStateInvalid", [MIfSome [MAssign "minOkStateInvalid"]; MReturnSelf]);
    ("getMinOkStateValid", [MReturnAttr "minOkStateValid"]);
    ("setMinOkStateValid", [MIfSome [MAssign "minOkStateValid"]; MReturnSelf]);
    ("getOffset", [MReturnAttr "offset"]);
    ("setOffset", [MIfSome [MAssign "offset"]; MReturnSelf]);
    ("getProfileBehavior", [MReturnAttr "profileBehavior"]);
    ("setProfileBehavior", [MIfSome [MAssign "profileBehavior"]; MReturnSelf]);
    ("getProfileName", [MReturnAttr "profileName"]);
    ("setProfileName", [MIfSome [MAssign "profileName"]; MReturnSelf]);
    ("getSyncCounterInit", [MReturnAttr "syncCounterInit"]);
    ("setSyncCounterInit", [MIfSome [MAssign "syncCounterInit"]; MReturnSelf]);
    ("getUpperHeaderBitsToShift", [MReturnAttr "upperHeaderBitsToShift"]);
    ("setUpperHeaderBitsToShift", [MIfSome [MAssign "upperHeaderBitsToShift"]; MReturnSelf]);
    ("getWindowSizeInit", [MReturnAttr "windowSizeInit"]);
    ("setWindowSizeInit", [MIfSome [MAssign "windowSizeInit"]; MReturnSelf]);
    ("getWindowSizeInvalid", [MReturnAttr "windowSizeInvalid"]);
    ("setWindowSizeInvalid", [MIfSome [MAssign "windowSizeInvalid"]; MReturnSelf]);
    ("getWindowSizeValid", [MReturnAttr "windowSizeValid"]);
    ("setWindowSizeValid", [MIfSome [MAssign "windowSizeValid"]; MReturnSelf])]);
  ("TransformationTechnology", [ (* line 792 *)
    ("setBufferProperties", [MIfSome [MAssign "bufferProperties"]; MReturnSelf]);
    ("getBufferProperties", [MReturnAttr "bufferProperties"]);
    ("setHasInternalState", [MIfSome [MAssign "hasInternalState"]; MReturnSelf]);
    ("getHasInternalState", [MReturnAttr "hasInternalState"]);
    ("setNeedsOriginalData", [MIfSome [MAssign "needsOriginalData"]; MReturnSelf]);
    ("getNeedsOriginalData", [MReturnAttr "needsOriginalData"]);
    ("setProtocol", [MIfSome [MAssign "protocol"]; MReturnSelf]);
    ("getProtocol", [MReturnAttr "protocol"]);
    ("setTransformationDescription", [MIfSome [MAssign "transformationDescription"]; MReturnSelf]);
    ("getTransformationDescription", [MReturnAttr "transformationDescription"]);
    ("setTransformerClass", [MIfSome [MAssign "transformerClass"]; MReturnSelf]);
    ("getTransformerClass", [MReturnAttr "transformerClass"]);
    ("setVersion", [MIfSome [MAssign "version"]; MReturnSelf]);
    ("getVersion", [MReturnAttr "version"])]);
  ("DataTransformationSet", [ (* line 947 *)
    ("getDataTransformations", [MReturnAttr "dataTransformations"]);
    ("getTransformationTechnologies", [MReturnAttr "transformationTechnologies"])]);
  ("TransformationISignalProps", [ (* line 1008 *)
    ("getCsErrorReaction", [MReturnAttr "csErrorReaction"]);
    ("setCsErrorReaction", [MIfSome [MAssign "csErrorReaction"]; MReturnSelf]);
    ("getDataPrototypeTransformationProps", [MReturnAttr "dataPrototypeTransformationProps"]);
    ("setDataPrototypeTransformationProps", [MIfSome [MAssign "dataPrototypeTransformationProps"]; MReturnSelf]);
    ("getTransformerRef", [MReturnAttr "transformerRef"]);
    ("setTransformerRef", [MIfSome [MAssign "transformerRef"]; MReturnSelf])]);
  ("DataPrototypeReference", [ (* line 1093 *)
    ("getTagId", [MReturnAttr "tagId"]);
    ("setTagId", [MIfSome [MAssign "tagId"]; MReturnSelf])]);
  ("DataPrototypeInPortInterfaceRef", [ (* line 1130 *)
    ("getDataPrototypeInClientServerInterface", [MReturnAttr "dataPrototypeInClientServerInterface"]);
    ("setDataPrototypeInClientServerInterface", [MIfSome [MAssign "dataPrototypeInClientServerInterface"]; MReturnSelf])]);
  ("DataPrototypeInSenderReceiverInterfaceInstanceRef", [ (* line 1165 *)
    ("getBaseRef", [MReturnAttr "baseRef"]);
    ("setBaseRef", [MIfSome [MAssign "baseRef"]; MReturnSelf]);
    ("getContextDataPrototypeInSrRefs", [MReturnAttr "contextDataPrototypeInSrRefs"]);
    ("getRootDataPrototypeInSrRef", [MReturnAttr "rootDataPrototypeInSrRef"]);
    ("setRootDataPrototypeInSrRef", [MIfSome [MAssign "rootDataPrototypeInSrRef"]; MReturnSelf]);
    ("getTargetDataPrototypeInSrRef", [MReturnAttr "targetDataPrototypeInSrRef"]);
    ("setTargetDataPrototypeInSrRef", [MIfSome [MAssign "targetDataPrototypeInSrRef"]; MReturnSelf])]);
  ("DataPrototypeInClientServerInterfaceInstanceRef", [ (* line 1260 *)
    ("getBaseRef", [MReturnAttr "baseRef"]);
    ("setBaseRef", [MIfSome [MAssign "baseRef"]; MReturnSelf]);
    ("getContextDataPrototypeInCsRefs", [MReturnAttr "contextDataPrototypeInCsRefs"]);
    ("getRootDataPrototypeInCsRef", [MReturnAttr "rootDataPrototypeInCsRef"]);
    ("setRootDataPrototypeInCsRef", [MIfSome [MAssign "rootDataPrototypeInCsRef"]; MReturnSelf]);
    ("getTargetDataPrototypeInCsRef", [MReturnAttr "targetDataPrototypeInCsRef"]);
    ("setTargetDataPrototypeInCsRef", [MIfSome [MAssign "targetDataPrototypeInCsRef"]; MReturnSelf])]);
  ("ImplementationDataTypeElementInPortInterfaceRef", [ (* line 1355 *)
    ("getContextImplementationDataElementRefs", [MReturnAttr "contextImplementationDataElementRefs"]);
    ("getRootDataPrototypeRef", [MReturnAttr "rootDataPrototypeRef"]);
    ("setRootDataPrototypeRef", [MIfSome [MAssign "rootDataPrototypeRef"]; MReturnSelf]);
    ("getTargetImplementationDataTypeElementRef", [MReturnAttr "targetImplementationDataTypeElementRef"]);
    ("setTargetImplementationDataTypeElementRef", [MIfSome [MAssign "targetImplementationDataTypeElementRef"]; MReturnSelf])]);
  ("DataPrototypeTransformationProps", [ (* line 1430 *)
    ("getDataPrototypeInPortInterfaceRef", [MReturnAttr "dataPrototypeInPortInterfaceRef"]);
    ("setDataPrototypeInPortInterfaceRef", [MIfSome [MAssign "dataPrototypeInPortInterfaceRef"]; MReturnSelf]);
    ("getNetworkRepresentationProps", [MReturnAttr "networkRepresentationProps"]);
    ("setNetworkRepresentationProps", [MIfSome [MAssign "networkRepresentationProps"]; MReturnSelf]);
    ("getTransformationProps", [MReturnAttr "transformationProps"]);
    ("setTransformationProps", [MIfSome [MAssign "transformationProps"]; MReturnSelf])]);
  ("EndToEndTransformationISignalProps", [ (* line 1505 *)
    ("getDataIds", [MReturnAttr "dataIds"]);
    ("getDataLength", [MReturnAttr "dataLength"]);
    ("setDataLength", [MIfSome [MAssign "dataLength"]; MReturnSelf]);
    ("getMaxDataLength", [MReturnAttr "maxDataLength"]);
    ("setMaxDataLength", [MIfSome [MAssign "maxDataLength"]; MReturnSelf]);
    ("getMinDataLength", [MReturnAttr "minDataLength"]);
    ("setMinDataLength", [MIfSome [MAssign "minDataLength"]; MReturnSelf]);
    ("getSourceId", [MReturnAttr "sourceId"]);
    ("setSourceId", [MIfSome [MAssign "sourceId"]; MReturnSelf])]);
  ("EndToEndTransformationComSpecProps", [ (* line 1575 *)
    ("getClearFromValidToInvalid", [MReturnAttr "clearFromValidToInvalid"]);
    ("setClearFromValidToInvalid", [MIfSome [MAssign "clearFromValidToInvalid"]; MReturnSelf]);
    ("getDisableEndToEndCheck", [MReturnAttr "disableEndToEndCheck"]);
    ("setDisableEndToEndCheck", [MIfSome [MAssign "disableEndToEndCheck"]; MReturnSelf]);
    ("getDisableEndToEndStateMachine", [MReturnAttr "disableEndToEndStateMachine"]);
    ("setDisableEndToEndStateMachine", [MIfSome [MAssign "disableEndToEndStateMachine"]; MReturnSelf]);
    ("getE2eProfileCompatibilityPropsRef", [MReturnAttr "e2eProfileCompatibilityPropsRef"]);
    ("setE2eProfileCompatibilityPropsRef", [MIfSome [MAssign "e2eProfileCompatibilityPropsRef"]; MReturnSelf]);
    ("getMaxDeltaCounter", [MReturnAttr "maxDeltaCounter"]);
    ("setMaxDeltaCounter", [MIfSome [MAssign "maxDeltaCounter"]; MReturnSelf]);
    ("getMaxErrorStateInit", [MReturnAttr "maxErrorStateInit"]);
    ("setMaxErrorStateInit", [MIfSome [MAssign "maxErrorStateInit"]; MReturnSelf]);
    ("getMaxErrorStateInvalid", [MReturnAttr "maxErrorStateInvalid"]);
    ("setMaxErrorStateInvalid", [MIfSome [MAssign "maxErrorStateInvalid"]; MReturnSelf]);
    ("getMaxErrorStateValid", [MReturnAttr "maxErrorStateValid"]);
    ("setMaxErrorStateValid", [MIfSome [MAssign "maxErrorStateValid"]; MReturnSelf]);
    ("getMaxNoNewOrRepeatedData", [MReturnAttr "maxNoNewOrRepeatedData"]);
    ("setMaxNoNewOrRepeatedData", [MIfSome [MAssign "maxNoNewOrRepeatedData"]; MReturnSelf]);
    ("getMinOkStateInit", [MReturnAttr "minOkStateInit"]);
    ("setMinOkStateInit", [MIfSome [MAssign "minOkStateInit"]; MReturnSelf]);
    ("getMinOkStateInvalid", [MReturnAttr "minOkStateInvalid"]);
    ("setMinOkStateInvalid", [MIfSome [MAssign "minOkStateInvalid"]; MReturnSelf]);
    ("getMinOkStateValid", [MReturnAttr "minOkStateValid"]);
    ("setMinOkStateValid", [MIfSome [MAssign "minOkStateValid"]; MReturnSelf]);
    ("getSyncCounterInit", [MReturnAttr "syncCounterInit"]);
    ("setSyncCounterInit", [MIfSome [MAssign "syncCounterInit"]; MReturnSelf]);
    ("getWindowSizeInit", [MReturnAttr "windowSizeInit"]);
    ("setWindowSizeInit", [MIfSome [MAssign "windowSizeInit"]; MReturnSelf]);
    ("getWindowSizeInvalid", [MReturnAttr "windowSizeInvalid"]);
    ("setWindowSizeInvalid", [MIfSome [MAssign "windowSizeInvalid"]; MReturnSelf]);
    ("getWindowSizeValid", [MReturnAttr "windowSizeValid"]);
    ("setWindowSizeValid", [MIfSome [MAssign "windowSizeValid"]; MReturnSelf])]);
  (* models/M2/MSR/AsamHdo/AdminData.py *)
  ("Modification", [ (* line 8 *)
    ("getChange", [MReturnAttr "change"]);
    ("setChange", [MIfSome [MAssign "change"]; MReturnSelf]);
    ("getReason", [MReturnAttr "reason"]);
    ("setReason", [MIfSome [MAssign "reason"]; MReturnSelf])]);
  ("DocRevision", [ (* line 45 *)
    ("getDate", [MReturnAttr "date"]);
    ("setDate", [MIfSome [MAssign "date"]; MReturnSelf]);
    ("getIssuedBy", [MReturnAttr "issuedBy"]);
    ("setIssuedBy", [MIfSome [MAssign "issuedBy"]; MReturnSelf]);
    ("getModifications", [MReturnAttr "modifications"]);
    ("getRevisionLabel", [MReturnAttr "revisionLabel"]);
    ("setRevisionLabel", [MIfSome [MAssign "revisionLabel"]; MReturnSelf]);
    ("getRevisionLabelP1", [MReturnAttr "revisionLabelP1"]);
    ("setRevisionLabelP1", [MIfSome [MAssign "revisionLabelP1"]; MReturnSelf]);
    ("getRevisionLabelP2", [MReturnAttr "revisionLabelP2"]);
    ("setRevisionLabelP2", [MIfSome [MAssign "revisionLabelP2"]; MReturnSelf]);
    ("getState", [MReturnAttr "state"]);
    ("setState", [MIfSome [MAssign "state"]; MReturnSelf])]);
  ("AdminData", [ (* line 137 *)
    ("getDocRevisions", [MReturnAttr "DocRevisions"]);
    ("getLanguage", [MReturnAttr "language"]);
    ("setLanguage", [MAssign "language"; MReturnSelf]);
    ("getSdgs", [MReturnAttr "sdgs"]);
    ("getUsedLanguages", [MReturnAttr "usedLanguages"]);
    ("setUsedLanguages", [MAssign "usedLanguages"; MReturnSelf])]);
  (* models/M2/MSR/AsamHdo/BaseTypes.py *)
  ("BaseTypeDirectDefinition", [ (* line 31 *)
    ("getBaseTypeEncoding", [MReturnAttr "baseTypeEncoding"]);
    ("setBaseTypeEncoding", [MIfSome [MAssign "baseTypeEncoding"]; MReturnSelf]);
    ("getBaseTypeSize", [MReturnAttr "baseTypeSize"]);
    ("setBaseTypeSize", [MIfSome [MAssign "baseTypeSize"]; MReturnSelf]);
    ("getByteOrder", [MReturnAttr "byteOrder"]);
    ("setByteOrder", [MIfSome [MAssign "byteOrder"]; MReturnSelf]);
    ("getMemAlignment", [MReturnAttr "memAlignment"]);
    ("setMemAlignment", [MIfSome [MAssign "memAlignment"]; MReturnSelf]);
    ("getNativeDeclaration", [MReturnAttr "nativeDeclaration"]);
    ("setNativeDeclaration", [MIfSome [MAssign "nativeDeclaration"]; MReturnSelf])]);
  ("BaseType", [ (* line 151 *)
    ("getBaseTypeDefinition", [MReturnAttr "baseTypeDefinition"]);
    ("setBaseTypeDefinition", [MIfSome [MAssign "baseTypeDefinition"]; MReturnSelf])]);
  (* models/M2/MSR/AsamHdo/ComputationMethod.py *)
  ("CompuConst", [ (* line 28 *)
    ("getCompuConstContentType", [MReturnAttr "compuConstContentType"]);
    ("setCompuConstContentType", [MAssign "compuConstContentType"; MReturnSelf])]);
  ("Compu", [ (* line 53 *)
    ("getCompuContent", [MReturnAttr "compuContent"]);
    ("setCompuContent", [MAssign "compuContent"; MReturnSelf]);
    ("getCompuDefaultValue", [MReturnAttr "compuDefaultValue"]);
    ("setCompuDefaultValue", [MAssign "compuDefaultValue"; MReturnSelf])]);
  ("CompuConstTextContent", [ (* line 105 *)
    ("getVt", [MReturnAttr "vt"]);
    ("setVt", [MAssign "vt"; MReturnSelf])]);
  ("CompuConstNumericContent", [ (* line 130 *)
    ("getV", [MReturnAttr "v"]);
    ("setV", [MAssign "v"; MReturnSelf])]);
  ("CompuConstFormulaContent", [ (* line 154 *)
    ("getVf", [MReturnAttr "vf"]);
    ("setVf", [MAssign "vf"; MReturnSelf])]);
  ("CompuScaleConstantContents", [ (* line 194 *)
    ("getCompuConst", [MReturnAttr "compuConst"]);
    ("setCompuConst", [MAssign "compuConst"; MReturnSelf])]);
  ("CompuRationalCoeffs", [ (* line 218 *)
    ("getCompuDenominator", [MReturnAttr "compuDenominator"]);
    ("setCompuDenominator", [MAssign "compuDenominator"; MReturnSelf]);
    ("getCompuNumerator", [MReturnAttr "compuNumerator"]);
    ("setCompuNumerator", [MAssign "compuNumerator"; MReturnSelf])]);
  ("CompuScaleRationalFormula", [ (* line 253 *)
    ("getCompuRationalCoeffs", [MReturnAttr "compuRationalCoeffs"]);
    ("setCompuRationalCoeffs", [MAssign "compuRationalCoeffs"; MReturnSelf])]);
  ("CompuScale", [ (* line 301 *)
    ("getA2lDisplayText", [MReturnAttr "a2lDisplayText"]);
    ("setA2lDisplayText", [MAssign "a2lDisplayText"; MReturnSelf]);
    ("getCompuInverseValue", [MReturnAttr "compuInverseValue"]);
    ("setCompuInverseValue", [MAssign "compuInverseValue"; MReturnSelf]);
    ("getCompuScaleContents", [MReturnAttr "compuScaleContents"]);
    ("setCompuScaleContents", [MAssign "compuScaleContents"; MReturnSelf]);
    ("getDesc", [MReturnAttr "desc"]);
    ("setDesc", [MAssign "desc"; MReturnSelf]);
    ("getLowerLimit", [MReturnAttr "lowerLimit"]);
    ("setLowerLimit", [MAssign "lowerLimit"; MReturnSelf]);
    ("getMask", [MReturnAttr "mask"]);
    ("setMask", [MIfSome [MAssign "mask"]; MReturnSelf]);
    ("getShortLabel", [MReturnAttr "shortLabel"]);
    ("setShortLabel", [MAssign "shortLabel"; MReturnSelf]);
    ("getSymbol", [MReturnAttr "symbol"]);
    ("setSymbol", [MAssign "symbol"; MReturnSelf]);
    ("getUpperLimit", [MReturnAttr "upperLimit"]);
    ("setUpperLimit", [MAssign "upperLimit"; MReturnSelf])]);
  ("CompuScales", [ (* line 406 *)
    ("getCompuScales", [MReturnAttr "compuScales"])]);
  ("CompuMethod", [ (* line 429 *)
    ("getCompuInternalToPhys", [MReturnAttr "compuInternalToPhys"]);
    ("setCompuInternalToPhys", [MAssign "compuInternalToPhys"; MReturnSelf]);
    ("getCompuPhysToInternal", [MReturnAttr "compuPhysToInternal"]);
    ("setCompuPhysToInternal", [MAssign "compuPhysToInternal"; MReturnSelf]);
    ("getDisplayFormat", [MReturnAttr "displayFormat"]);
    ("setDisplayFormat", [MAssign "displayFormat"; MReturnSelf]);
    ("getUnitRef", [MReturnAttr "unitRef"]);
    ("setUnitRef", [MAssign "unitRef"; MReturnSelf])]);
  (* models/M2/MSR/AsamHdo/SpecialData.py *)
  ("Sd", [ (* line 9 *)
    ("getGID", [MReturnAttr "gid"]);
    ("setGID", [MIfSome [MAssign "gid"]; MReturnSelf]);
    ("getValue", [MReturnAttr "value"]);
    ("setValue", [MIfSome [MAssign "value"]; MReturnSelf]);
    ("getXmlSpace", [MReturnAttr "xmlSpace"]);
    ("setXmlSpace", [MIfSome [MAssign "xmlSpace"]; MReturnSelf])]);
  ("SdgCaption", [ (* line 81 *)
    ("getDesc", [MReturnAttr "desc"]);
    ("setDesc", [MIfSome [MAssign "desc"]; MReturnSelf])]);
  ("Sdf", [ (* line 115 *)
    ("getGID", [MReturnAttr "gid"]);
    ("setGID", [MIfSome [MAssign "gid"]; MReturnSelf]);
    ("getValue", [MReturnAttr "value"]);
    ("setValue", [MIfSome [MAssign "value"]; MReturnSelf])]);
  ("SdgContents", [ (* line 168 *)
    ("getSds", [MReturnAttr "sd"]);
    ("getSdfs", [MReturnAttr "sdf"]);
    ("getSdgs", [MReturnAttr "sdg"]);
    ("getSdxRefs", [MReturnAttr "sdxRefs"]);
    ("getSdxfRefs", [MReturnAttr "sdxfRefs"])]);
  ("Sdg", [ (* line 278 *)
    ("getGID", [MReturnAttr "gid"]);
    ("setGID", [MIfSome [MAssign "gid"]; MReturnSelf]);
    ("getSdgCaption", [MReturnAttr "sdgCaption"]);
    ("getSdgContentsType", [MReturnAttr "sdgContentsType"]);
    ("setSdgContentsType", [MIfSome [MAssign "sdgContentsType"]; MReturnSelf])]);
  (* models/M2/MSR/AsamHdo/Units.py *)
  ("PhysicalDimension", [ (* line 16 *)
    ("getCurrentExp", [MReturnAttr "currentExp"]);
    ("setCurrentExp", [MIfSome [MAssign "currentExp"]; MReturnSelf]);
    ("getLengthExp", [MReturnAttr "lengthExp"]);
    ("setLengthExp", [MIfSome [MAssign "lengthExp"]; MReturnSelf]);
    ("getLuminousIntensityExp", [MReturnAttr "luminousIntensityExp"]);
    ("setLuminousIntensityExp", [MIfSome [MAssign "luminousIntensityExp"]; MReturnSelf]);
    ("getMassExp", [MReturnAttr "massExp"]);
    ("setMassExp", [MIfSome [MAssign "massExp"]; MReturnSelf]);
    ("getMolarAmountExp", [MReturnAttr "molarAmountExp"]);
    ("setMolarAmountExp", [MIfSome [MAssign "molarAmountExp"]; MReturnSelf]);
    ("getTemperatureExp", [MReturnAttr "temperatureExp"]);
    ("setTemperatureExp", [MIfSome [MAssign "temperatureExp"]; MReturnSelf]);
    ("getTimeExp", [MReturnAttr "timeExp"]);
    ("setTimeExp", [MIfSome [MAssign "timeExp"]; MReturnSelf])]);
  ("Unit", [ (* line 179 *)
    ("getDisplayName", [MReturnAttr "displayName"]);
    ("setDisplayName", [MIfSome [MAssign "displayName"]; MReturnSelf]);
    ("getFactorSiToUnit", [MReturnAttr "factorSiToUnit"]);
    ("setFactorSiToUnit", [MIfSome [MAssign "factorSiToUnit"]; MReturnSelf]);
    ("getOffsetSiToUnit", [MReturnAttr "offsetSiToUnit"]);
    ("setOffsetSiToUnit", [MIfSome [MAssign "offsetSiToUnit"]; MReturnSelf]);
    ("getPhysicalDimensionRef", [MReturnAttr "physicalDimensionRef"]);
    ("setPhysicalDimensionRef", [MIfSome [MAssign "physicalDimensionRef"]; MReturnSelf])]);
  ("UnitGroup", [ (* line 270 *)
    ("getUnits", [MReturnAttr "units"])]);
  (* models/M2/MSR/AsamHdo/Constraints/GlobalConstraints.py *)
  ("InternalConstrs", [ (* line 18 *)
    ("getLowerLimit", [MReturnAttr "lowerLimit"]);
    ("setLowerLimit", [MIfSome [MAssign "lowerLimit"]; MReturnSelf]);
    ("getMaxDiff", [MReturnAttr "maxDiff"]);
    ("setMaxDiff", [MIfSome [MAssign "maxDiff"]; MReturnSelf]);
    ("getMaxGradient", [MReturnAttr "maxGradient"]);
    ("setMaxGradient", [MIfSome [MAssign "maxGradient"]; MReturnSelf]);
    ("getMonotony", [MReturnAttr "monotony"]);
    ("setMonotony", [MIfSome [MAssign "monotony"]; MReturnSelf]);
    ("getScaleConstrs", [MReturnAttr "scaleConstrs"]);
    ("getUpperLimit", [MReturnAttr "upperLimit"]);
    ("setUpperLimit", [MIfSome [MAssign "upperLimit"]; MReturnSelf])]);
  ("ScaleConstr", [ (* line 184 *)
    ("getDesc", [MReturnAttr "desc"]);
    ("setDesc", [MIfSome [MAssign "desc"]; MReturnSelf]);
    ("getLowerLimit", [MReturnAttr "lowerLimit"]);
    ("setLowerLimit", [MIfSome [MAssign "lowerLimit"]; MReturnSelf]);
    ("getShortLabel", [MReturnAttr "shortLabel"]);
    ("setShortLabel", [MIfSome [MAssign "shortLabel"]; MReturnSelf]);
    ("getUpperLimit", [MReturnAttr "upperLimit"]);
    ("setUpperLimit", [MIfSome [MAssign "upperLimit"]; MReturnSelf]);
    ("getValidity", [MReturnAttr "validity"]);
    ("setValidity", [MIfSome [MAssign "validity"]; MReturnSelf])]);
  ("PhysConstrs", [ (* line 294 *)
    ("getLowerLimit", [MReturnAttr "lowerLimit"]);
    ("setLowerLimit", [MIfSome [MAssign "lowerLimit"]; MReturnSelf]);
    ("getMaxDiff", [MReturnAttr "maxDiff"]);
    ("setMaxDiff", [MIfSome [MAssign "maxDiff"]; MReturnSelf]);
    ("getMaxGradient", [MReturnAttr "maxGradient"]);
    ("setMaxGradient", [MIfSome [MAssign "maxGradient"]; MReturnSelf]);
    ("getMonotony", [MReturnAttr "monotony"]);
    ("setMonotony", [MIfSome [MAssign "monotony"]; MReturnSelf]);
    ("getScaleConstrs", [MReturnAttr "scaleConstrs"]);
    ("getUnitRef", [MReturnAttr "unitRef"]);
    ("setUnitRef", [MIfSome [MAssign "unitRef"]; MReturnSelf]);
    ("getUpperLimit", [MReturnAttr "upperLimit"]);
    ("setUpperLimit", [MIfSome [MAssign "upperLimit"]; MReturnSelf])]);
  ("DataConstr", [ (* line 459 *)
    ("getDataConstrRules", [MReturnAttr "data_constr_rule"])]);
  (* models/M2/MSR/CalibrationData/CalibrationValue.py *)
  ("SwValues", [ (* line 7 *)
    ("getVs", [MReturnAttr "_v"])]);
  ("SwValueCont", [ (* line 30 *)
    ("getSwArraysize", [MReturnAttr "swArraysize"]);
    ("setSwArraysize", [MAssign "swArraysize"; MReturnSelf]);
    ("getSwValuesPhys", [MReturnAttr "swValuesPhys"]);
    ("setSwValuesPhys", [MAssign "swValuesPhys"; MReturnSelf]);
    ("getUnitRef", [MReturnAttr "unitRef"]);
    ("setUnitRef", [MAssign "unitRef"; MReturnSelf]);
    ("getUnitDisplayName", [MReturnAttr "unitDisplayName"]);
    ("setUnitDisplayName", [MAssign "unitDisplayName"; MReturnSelf])]);
  (* models/M2/MSR/DataDictionary/AuxillaryObjects.py *)
  ("SwAddrMethod", [ (* line 80 *)
    ("getMemoryAllocationKeywordPolicy", [MReturnAttr "memoryAllocationKeywordPolicy"]);
    ("setMemoryAllocationKeywordPolicy", [MIfSome [MAssign "memoryAllocationKeywordPolicy"]; MReturnSelf]);
    ("getOptions", [MReturnAttr "options"]);
    ("getSectionInitializationPolicy", [MReturnAttr "sectionInitializationPolicy"]);
    ("setSectionInitializationPolicy", [MIfSome [MAssign "sectionInitializationPolicy"]; MReturnSelf]);
    ("getSectionType", [MReturnAttr "sectionType"]);
    ("setSectionType", [MIfSome [MAssign "sectionType"]; MReturnSelf])]);
  (* models/M2/MSR/DataDictionary/Axis.py *)
  ("SwGenericAxisParam", [ (* line 7 *)
    ("getSwGenericAxisParamTypeRef", [MReturnAttr "swGenericAxisParamTypeRef"]);
    ("setSwGenericAxisParamTypeRef", [MIfSome [MAssign "swGenericAxisParamTypeRef"]; MReturnSelf]);
    ("getVfs", [MReturnAttr "vfs"])]);
  ("SwAxisGeneric", [ (* line 62 *)
    ("getSwAxisTypeRef", [MReturnAttr "swAxisTypeRef"]);
    ("setSwAxisTypeRef", [MIfSome [MAssign "swAxisTypeRef"]; MReturnSelf]);
    ("getSwGenericAxisParams", [MReturnAttr "swGenericAxisParams"])]);
  ("SwAxisIndividual", [ (* line 117 *)
    ("getCompuMethodRef", [MReturnAttr "compuMethodRef"]);
    ("setCompuMethodRef", [MAssign "compuMethodRef"; MReturnSelf]);
    ("getDataConstrRef", [MReturnAttr "dataConstrRef"]);
    ("setDataConstrRef", [MAssign "dataConstrRef"; MReturnSelf]);
    ("getInputVariableTypeRef", [MReturnAttr "inputVariableTypeRef"]);
    ("setInputVariableTypeRef", [MAssign "inputVariableTypeRef"; MReturnSelf]);
    ("getSwAxisGeneric", [MReturnAttr "swAxisGeneric"]);
    ("setSwAxisGeneric", [MAssign "swAxisGeneric"; MReturnSelf]);
    ("getSwMaxAxisPoints", [MReturnAttr "swMaxAxisPoints"]);
    ("setSwMaxAxisPoints", [MAssign "swMaxAxisPoints"; MReturnSelf]);
    ("getSwMinAxisPoints", [MReturnAttr "swMinAxisPoints"]);
    ("setSwMinAxisPoints", [MAssign "swMinAxisPoints"; MReturnSelf]);
    ("getSwVariableRefs", [MReturnAttr "swVariableRefs"]);
    ("setSwVariableRefs", [MAssign "swVariableRefs"; MReturnSelf]);
    ("getUnitRef", [MReturnAttr "unitRef"]);
    ("setUnitRef", [MAssign "unitRef"; MReturnSelf])]);
  ("SwAxisGrouped", [ (* line 211 *)
    ("getSharedAxisTypeRef", [MReturnAttr "sharedAxisTypeRef"]);
    ("setSharedAxisTypeRef", [MAssign "sharedAxisTypeRef"; MReturnSelf]);
    ("getSwAxisIndex", [MReturnAttr "swAxisIndex"]);
    ("setSwAxisIndex", [MAssign "swAxisIndex"; MReturnSelf]);
    ("getSwCalprmRef", [MReturnAttr "swCalprmRef"]);
    ("setSwCalprmRef", [MAssign "swCalprmRef"; MReturnSelf])]);
  (* models/M2/MSR/DataDictionary/CalibrationParameter.py *)
  ("SwCalprmAxisTypeProps", [ (* line 41 *)
    ("getMaxGradient", [MReturnAttr "maxGradient"]);
    ("setMaxGradient", [MIfSome [MAssign "maxGradient"]; MReturnSelf]);
    ("getMonotony", [MReturnAttr "monotony"]);
    ("setMonotony", [MIfSome [MAssign "monotony"]; MReturnSelf])]);
  ("SwCalprmAxis", [ (* line 98 *)
    ("getCategory", [MReturnAttr "category"]);
    ("setCategory", [MIfSome [MAssign "category"]; MReturnSelf]);
    ("getDisplayFormat", [MReturnAttr "displayFormat"]);
    ("setDisplayFormat", [MIfSome [MAssign "displayFormat"]; MReturnSelf]);
    ("getSwAxisIndex", [MReturnAttr "swAxisIndex"]);
    ("setSwAxisIndex", [MIfSome [MAssign "swAxisIndex"]; MReturnSelf]);
    ("getSwCalibrationAccess", [MReturnAttr "swCalibrationAccess"]);
    ("setSwCalibrationAccess", [MIfSome [MAssign "swCalibrationAccess"]; MReturnSelf]);
    ("getSwCalprmAxisTypeProps", [MReturnAttr "swCalprmAxisTypeProps"]);
    ("setSwCalprmAxisTypeProps", [MIfSome [MAssign "swCalprmAxisTypeProps"]; MReturnSelf])]);
  ("SwCalprmAxisSet", [ (* line 209 *)
    ("getSwCalprmAxises", [MReturnAttr "_swCalprmAxis"])]);
  (* models/M2/MSR/DataDictionary/DataDefProperties.py *)
  ("SwBitRepresentation", [ (* line 116 *)
    ("getBitPosition", [MReturnAttr "bitPosition"]);
    ("setBitPosition", [MIfSome [MAssign "bitPosition"]; MReturnSelf]);
    ("getNumberOfBits", [MReturnAttr "numberOfBits"]);
    ("setNumberOfBits", [MIfSome [MAssign "numberOfBits"]; MReturnSelf])]);
  ("SwVariableRefProxy", [ (* line 169 *)
    ("getAutosarVariable", [MReturnAttr "autosarVariable"]);
    ("setAutosarVariable", [MIfSome [MAssign "autosarVariable"]; MReturnSelf]);
    ("getMcDataInstanceVarRef", [MReturnAttr "mcDataInstanceVarRef"]);
    ("setMcDataInstanceVarRef", [MIfSome [MAssign "mcDataInstanceVarRef"]; MReturnSelf])]);
  ("SwCalprmRefProxy", [ (* line 222 *)
    ("getArParameter", [MReturnAttr "arParameter"]);
    ("setArParameter", [MIfSome [MAssign "arParameter"]; MReturnSelf]);
    ("getMcDataInstanceRef", [MReturnAttr "mcDataInstanceRef"]);
    ("setMcDataInstanceRef", [MIfSome [MAssign "mcDataInstanceRef"]; MReturnSelf])]);
  ("SwDataDependencyArgs", [ (* line 275 *)
    ("getSwCalprmRef", [MReturnAttr "swCalprmRef"]);
    ("setSwCalprmRef", [MIfSome [MAssign "swCalprmRef"]; MReturnSelf]);
    ("getSwVariable", [MReturnAttr "swVariable"]);
    ("setSwVariable", [MIfSome [MAssign "swVariable"]; MReturnSelf])]);
  ("CompuGenericMath", [ (* line 328 *)
    ("getLevel", [MReturnAttr "level"]);
    ("setLevel", [MIfSome [MAssign "level"]; MReturnSelf])]);
  ("SwDataDependency", [ (* line 362 *)
    ("getSwDataDependencyFormula", [MReturnAttr "swDataDependencyFormula"]);
    ("setSwDataDependencyFormula", [MIfSome [MAssign "swDataDependencyFormula"]; MReturnSelf]);
    ("getSwDataDependencyArgs", [MReturnAttr "swDataDependencyArgs"]);
    ("setSwDataDependencyArgs", [MIfSome [MAssign "swDataDependencyArgs"]; MReturnSelf])]);
  ("SwDataDefProps", [ (* line 415 *)
    ("getDisplayPresentation", [MReturnAttr "displayPresentation"]);
    ("setDisplayPresentation", [MIfSome [MAssign "displayPresentation"]; MReturnSelf]);
    ("getStepSize", [MReturnAttr "stepSize"]);
    ("setStepSize", [MIfSome [MAssign "stepSize"]; MReturnSelf]);
    ("getSwValueBlockSizeMults", [MReturnAttr "swValueBlockSizeMults"]);
    ("getAnnotations", [MReturnAttr "annotations"]);
    ("getSwAddrMethodRef", [MReturnAttr "swAddrMethodRef"]);
    ("setSwAddrMethodRef", [MIfSome [MAssign "swAddrMethodRef"]; MReturnSelf]);
    ("getSwAlignment", [MReturnAttr "swAlignment"]);
    ("setSwAlignment", [MIfSome [MAssign "swAlignment"]; MReturnSelf]);
    ("getBaseTypeRef", [MReturnAttr "baseTypeRef"]);
    ("setBaseTypeRef", [MIfSome [MAssign "baseTypeRef"]; MReturnSelf]);
    ("getSwBitRepresentation", [MReturnAttr "swBitRepresentation"]);
    ("setSwBitRepresentation", [MIfSome [MAssign "swBitRepresentation"]; MReturnSelf]);
    ("getSwCalibrationAccess", [MReturnAttr "swCalibrationAccess"]);
    ("setSwCalibrationAccess", [MIfSome [MAssign "swCalibrationAccess"]; MReturnSelf]);
    ("getSwValueBlockSize", [MReturnAttr "swValueBlockSize"]);
    ("setSwValueBlockSize", [MIfSome [MAssign "swValueBlockSize"]; MReturnSelf]);
    ("getSwCalprmAxisSet", [MReturnAttr "swCalprmAxisSet"]);
    ("setSwCalprmAxisSet", [MIfSome [MAssign "swCalprmAxisSet"]; MReturnSelf]);
    ("getSwTextProps", [MReturnAttr "swTextProps"]);
    ("setSwTextProps", [MIfSome [MAssign "swTextProps"]; MReturnSelf]);
    ("getSwComparisonVariables", [MReturnAttr "swComparisonVariables"]);
    ("getCompuMethodRef", [MReturnAttr "compuMethodRef"]);
    ("setCompuMethodRef", [MIfSome [MAssign "compuMethodRef"]; MReturnSelf]);
    ("getDataConstrRef", [MReturnAttr "dataConstrRef"]);
    ("setDataConstrRef", [MIfSome [MAssign "dataConstrRef"]; MReturnSelf]);
    ("getSwDataDependency", [MReturnAttr "swDataDependency"]);
    ("setSwDataDependency", [MIfSome [MAssign "swDataDependency"]; MReturnSelf]);
    ("getDisplayFormat", [MReturnAttr "displayFormat"]);
    ("setDisplayFormat", [MIfSome [MAssign "displayFormat"]; MReturnSelf]);
    ("getImplementationDataTypeRef", [MReturnAttr "implementationDataTypeRef"]);
    ("setImplementationDataTypeRef", [MIfSome [MAssign "implementationDataTypeRef"]; MReturnSelf]);
    ("getSwHostVariable", [MReturnAttr "swHostVariable"]);
    ("setSwHostVariable", [MIfSome [MAssign "swHostVariable"]; MReturnSelf]);
    ("getSwImplPolicy", [MReturnAttr "swImplPolicy"]);
    ("setSwImplPolicy", [MIfSome [MAssign "swImplPolicy"]; MReturnSelf]);
    ("getAdditionalNativeTypeQualifier", [MReturnAttr "additionalNativeTypeQualifier"]);
    ("setAdditionalNativeTypeQualifier", [MIfSome [MAssign "additionalNativeTypeQualifier"]; MReturnSelf]);
    ("getSwIntendedResolution", [MReturnAttr "swIntendedResolution"]);
    ("setSwIntendedResolution", [MIfSome [MAssign "swIntendedResolution"]; MReturnSelf]);
    ("getSwInterpolationMethod", [MReturnAttr "swInterpolationMethod"]);
    ("setSwInterpolationMethod", [MIfSome [MAssign "swInterpolationMethod"]; MReturnSelf]);
    ("getInvalidValue", [MReturnAttr "invalidValue"]);
    ("setInvalidValue", [MIfSome [MAssign "invalidValue"]; MReturnSelf]);
    ("getSwIsVirtual", [MReturnAttr "swIsVirtual"]);
    ("setSwIsVirtual", [MIfSome [MAssign "swIsVirtual"]; MReturnSelf]);
    ("getSwPointerTargetProps", [MReturnAttr "swPointerTargetProps"]);
    ("setSwPointerTargetProps", [MIfSome [MAssign "swPointerTargetProps"]; MReturnSelf]);
    ("getSwRecordLayoutRef", [MReturnAttr "swRecordLayoutRef"]);
    ("setSwRecordLayoutRef", [MIfSome [MAssign "swRecordLayoutRef"]; MReturnSelf]);
    ("getSwRefreshTiming", [MReturnAttr "swRefreshTiming"]);
    ("setSwRefreshTiming", [MIfSome [MAssign "swRefreshTiming"]; MReturnSelf]);
    ("getUnitRef", [MReturnAttr "unitRef"]);
    ("setUnitRef", [MIfSome [MAssign "unitRef"]; MReturnSelf]);
    ("getValueAxisDataTypeRef", [MReturnAttr "valueAxisDataTypeRef"]);
    ("setValueAxisDataTypeRef", [MIfSome [MAssign "valueAxisDataTypeRef"]; MReturnSelf])]);
  ("SwPointerTargetProps", [ (* line 1000 *)
    ("getFunctionPointerSignatureRef", [MReturnAttr "functionPointerSignatureRef"]);
    ("setFunctionPointerSignatureRef", [MIfSome [MAssign "functionPointerSignatureRef"]; MReturnSelf]);
    ("getSwDataDefProps", [MReturnAttr "swDataDefProps"]);
    ("setSwDataDefProps", [MIfSome [MAssign "swDataDefProps"]; MReturnSelf]);
    ("getTargetCategory", [MReturnAttr "targetCategory"]);
    ("setTargetCategory", [MIfSome [MAssign "targetCategory"]; MReturnSelf])]);
  ("ValueList", [ (* line 1072 *)
    ("getV", [MReturnAttr "v"]);
    ("setV", [MIfSome [MAssign "v"]; MReturnSelf]);
    ("getVfs", [MOther])]);
  ("SwTextProps", [ (* line 1105 *)
    ("getArraySizeSemantics", [MReturnAttr "arraySizeSemantics"]);
    ("setArraySizeSemantics", [MIfSome [MAssign "arraySizeSemantics"]; MReturnSelf]);
    ("getBaseTypeRef", [MReturnAttr "baseTypeRef"]);
    ("setBaseTypeRef", [MIfSome [MAssign "baseTypeRef"]; MReturnSelf]);
    ("getSwFillCharacter", [MReturnAttr "swFillCharacter"]);
    ("setSwFillCharacter", [MIfSome [MAssign "swFillCharacter"]; MReturnSelf]);
    ("getSwMaxTextSize", [MReturnAttr "swMaxTextSize"]);
    ("setSwMaxTextSize", [MIfSome [MAssign "swMaxTextSize"]; MReturnSelf])]);
  (* models/M2/MSR/DataDictionary/RecordLayout.py *)
  ("SwRecordLayoutV", [ (* line 24 *)
    ("getBaseTypeRef", [MReturnAttr "baseTypeRef"]);
    ("setBaseTypeRef", [MAssign "baseTypeRef"; MReturnSelf]);
    ("getDesc", [MReturnAttr "desc"]);
    ("setDesc", [MAssign "desc"; MReturnSelf]);
    ("getShortLabel", [MReturnAttr "shortLabel"]);
    ("setShortLabel", [MAssign "shortLabel"; MReturnSelf]);
    ("getSwGenericAxisParamTypeRef", [MReturnAttr "swGenericAxisParamTypeRef"]);
    ("setSwGenericAxisParamTypeRef", [MAssign "swGenericAxisParamTypeRef"; MReturnSelf]);
    ("getSwRecordLayoutVAxis", [MReturnAttr "swRecordLayoutVAxis"]);
    ("setSwRecordLayoutVAxis", [MAssign "swRecordLayoutVAxis"; MReturnSelf]);
    ("getSwRecordLayoutVFixValue", [MReturnAttr "swRecordLayoutVFixValue"]);
    ("setSwRecordLayoutVFixValue", [MAssign "swRecordLayoutVFixValue"; MReturnSelf]);
    ("getSwRecordLayoutVIndex", [MReturnAttr "swRecordLayoutVIndex"]);
    ("setSwRecordLayoutVIndex", [MAssign "swRecordLayoutVIndex"; MReturnSelf]);
    ("getSwRecordLayoutVProp", [MReturnAttr "swRecordLayoutVProp"]);
    ("setSwRecordLayoutVProp", [MAssign "swRecordLayoutVProp"; MReturnSelf])]);
  ("SwRecordLayoutGroupContent", [ (* line 118 *)
    ("getSwRecordLayoutRef", [MReturnAttr "swRecordLayoutRef"]);
    ("setSwRecordLayoutRef", [MAssign "swRecordLayoutRef"; MReturnSelf]);
    ("getSwRecordLayoutGroup", [MReturnAttr "swRecordLayoutGroup"]);
    ("setSwRecordLayoutGroup", [MAssign "swRecordLayoutGroup"; MReturnSelf]);
    ("getSwRecordLayoutV", [MReturnAttr "swRecordLayoutV"]);
    ("setSwRecordLayoutV", [MAssign "swRecordLayoutV"; MReturnSelf])]);
  ("SwRecordLayoutGroup", [ (* line 162 *)
    ("getCategory", [MReturnAttr "category"]);
    ("setCategory", [MAssign "category"; MReturnSelf]);
    ("getDesc", [MReturnAttr "desc"]);
    ("setDesc", [MAssign "desc"; MReturnSelf]);
    ("getShortLabel", [MReturnAttr "shortLabel"]);
    ("setShortLabel", [MAssign "shortLabel"; MReturnSelf]);
    ("getSwGenericAxisParamTypeRef", [MReturnAttr "swGenericAxisParamTypeRef"]);
    ("setSwGenericAxisParamTypeRef", [MAssign "swGenericAxisParamTypeRef"; MReturnSelf]);
    ("getSwRecordLayoutComponent", [MReturnAttr "swRecordLayoutComponent"]);
    ("setSwRecordLayoutComponent", [MAssign "swRecordLayoutComponent"; MReturnSelf]);
    ("getSwRecordLayoutGroupAxis", [MReturnAttr "swRecordLayoutGroupAxis"]);
    ("setSwRecordLayoutGroupAxis", [MAssign "swRecordLayoutGroupAxis"; MReturnSelf]);
    ("getSwRecordLayoutGroupContentType", [MReturnAttr "swRecordLayoutGroupContentType"]);
    ("setSwRecordLayoutGroupContentType", [MAssign "swRecordLayoutGroupContentType"; MReturnSelf]);
    ("getSwRecordLayoutGroupFrom", [MReturnAttr "swRecordLayoutGroupFrom"]);
    ("setSwRecordLayoutGroupFrom", [MAssign "swRecordLayoutGroupFrom"; MReturnSelf]);
    ("getSwRecordLayoutGroupIndex", [MReturnAttr "swRecordLayoutGroupIndex"]);
    ("setSwRecordLayoutGroupIndex", [MAssign "swRecordLayoutGroupIndex"; MReturnSelf]);
    ("getSwRecordLayoutGroupStep", [MReturnAttr "swRecordLayoutGroupStep"]);
    ("setSwRecordLayoutGroupStep", [MAssign "swRecordLayoutGroupStep"; MReturnSelf]);
    ("getSwRecordLayoutGroupTo", [MReturnAttr "swRecordLayoutGroupTo"]);
    ("setSwRecordLayoutGroupTo", [MAssign "swRecordLayoutGroupTo"; MReturnSelf])]);
  ("SwRecordLayout", [ (* line 286 *)
    ("getSwRecordLayoutGroup", [MReturnAttr "swRecordLayoutGroup"]);
    ("setSwRecordLayoutGroup", [MAssign "swRecordLayoutGroup"; MReturnSelf])]);
  (* models/M2/MSR/DataDictionary/ServiceProcessTask.py *)
  ("SwServiceArg", [ (* line 9 *)
    ("getDirection", [MReturnAttr "direction"]);
    ("setDirection", [MIfSome [MAssign "direction"]; MReturnSelf]);
    ("getSwArraysize", [MReturnAttr "swArraysize"]);
    ("setSwArraysize", [MIfSome [MAssign "swArraysize"]; MReturnSelf]);
    ("getSwDataDefProps", [MReturnAttr "swDataDefProps"]);
    ("setSwDataDefProps", [MIfSome [MAssign "swDataDefProps"]; MReturnSelf])]);
  (* models/M2/MSR/DataDictionary/SystemConstant.py *)
  ("SwSystemconst", [ (* line 6 *)
    ("setSwDataDefProps", [MAssign "swDataDefProps"; MReturnSelf]);
    ("getSwDataDefProps", [MReturnAttr "swDataDefProps"])]);
  (* models/M2/MSR/Documentation/Annotation.py *)
  ("GeneralAnnotation", [ (* line 8 *)
    ("getAnnotationOrigin", [MReturnAttr "annotationOrigin"]);
    ("setAnnotationOrigin", [MAssign "annotationOrigin"; MReturnSelf]);
    ("getAnnotationText", [MReturnAttr "annotationText"]);
    ("setAnnotationText", [MAssign "annotationText"; MReturnSelf]);
    ("getLabel", [MReturnAttr "label"]);
    ("setLabel", [MAssign "label"; MReturnSelf])]);
  (* models/M2/MSR/Documentation/Chapters.py *)
  ("Chapter", [ (* line 23 *)
    ("setHelpEntry", [MIfSome [MAssign "helpEntry"]; MReturnSelf]);
    ("getHelpEntry", [MReturnAttr "helpEntry"]);
    ("setChapterModel", [MIfSome [MAssign "chapterModel"]; MReturnSelf]);
    ("getChapterModel", [MReturnAttr "chapterModel"])]);
  ("PredefinedChapter", [ (* line 92 *)
    ("setChapterModel", [MIfSome [MAssign "chapterModel"]; MReturnSelf]);
    ("getChapterModel", [MReturnAttr "chapterModel"])]);
  ("ChapterModel", [ (* line 134 *)
    ("setChapterContent", [MIfSome [MAssign "chapterContent"]; MReturnSelf]);
    ("getChapterContent", [MReturnAttr "chapterContent"]);
    ("setTopic1", [MIfSome [MAssign "topic1"]; MReturnSelf]);
    ("getTopic1", [MReturnAttr "topic1"]);
    ("setChapter", [MIfSome [MAssign "chapter"]; MReturnSelf]);
    ("getChapter", [MReturnAttr "chapter"])]);
  ("ChapterContent", [ (* line 238 *)
    ("setTopicContent", [MIfSome [MAssign "topicContent"]; MReturnSelf]);
    ("getTopicContent", [MReturnAttr "topicContent"])]);
  ("ChapterOrMsrQuery", [ (* line 284 *)
    ("getChapters", [MReturnAttr "chapters"]);
    ("setMsrQueryChapter", [MIfSome [MAssign "msrQueryChapter"]; MReturnSelf]);
    ("getMsrQueryChapter", [MReturnAttr "msrQueryChapter"])]);
  ("TopicOrMsrQuery", [ (* line 353 *)
    ("getTopic1s", [MReturnAttr "topic1"]);
    ("setMsrQueryTopic1", [MIfSome [MAssign "msrQueryTopic1"]; MReturnSelf]);
    ("getMsrQueryTopic1", [MReturnAttr "msrQueryTopic1"])]);
  ("Topic1", [ (* line 422 *)
    ("setHelpEntry", [MIfSome [MAssign "helpEntry"]; MReturnSelf]);
    ("getHelpEntry", [MReturnAttr "helpEntry"]);
    ("setTopicContent", [MIfSome [MAssign "topicContent"]; MReturnSelf]);
    ("getTopicContent", [MReturnAttr "topicContent"])]);
  ("MsrQueryChapter", [ (* line 493 *)
    ("setMsrQueryProps", [MIfSome [MAssign "msrQueryProps"]; MReturnSelf]);
    ("getMsrQueryProps", [MReturnAttr "msrQueryProps"])]);
  ("MsrQueryTopic1", [ (* line 540 *)
    ("setMsrQueryProps", [MIfSome [MAssign "msrQueryProps"]; MReturnSelf]);
    ("getMsrQueryProps", [MReturnAttr "msrQueryProps"])]);
  ("TopicContent", [ (* line 587 *)
    ("setBlockLevelContent", [MIfSome [MAssign "blockLevelContent"]; MReturnSelf]);
    ("getBlockLevelContent", [MReturnAttr "blockLevelContent"])]);
  ("TopicContentOrMsrQuery", [ (* line 636 *)
    ("setMsrQueryP1", [MIfSome [MAssign "msrQueryP1"]; MReturnSelf]);
    ("getMsrQueryP1", [MReturnAttr "msrQueryP1"]);
    ("setTopicContent", [MIfSome [MAssign "topicContent"]; MReturnSelf]);
    ("getTopicContent", [MReturnAttr "topicContent"])]);
  (* models/M2/MSR/Documentation/BlockElements/Figure.py *)
  ("Graphic", [ (* line 20 *)
    ("getEditfit", [MReturnAttr "editfit"]);
    ("setEditfit", [MIfSome [MAssign "editfit"]; MReturnSelf]);
    ("getEditHeight", [MReturnAttr "editHeight"]);
    ("setEditHeight", [MIfSome [MAssign "editHeight"]; MReturnSelf]);
    ("getEditscale", [MReturnAttr "editscale"]);
    ("setEditscale", [MIfSome [MAssign "editscale"]; MReturnSelf]);
    ("getEditWidth", [MReturnAttr "editWidth"]);
    ("setEditWidth", [MIfSome [MAssign "editWidth"]; MReturnSelf]);
    ("getFilename", [MReturnAttr "filename"]);
    ("setFilename", [MIfSome [MAssign "filename"]; MReturnSelf]);
    ("getFit", [MReturnAttr "fit"]);
    ("setFit", [MIfSome [MAssign "fit"]; MReturnSelf])]);
  ("LGraphic", [ (* line 111 *)
    ("getGraphic", [MReturnAttr "graphic"]);
    ("setGraphic", [MIfSome [MAssign "graphic"]; MReturnSelf]);
    ("getMap", [MReturnAttr "map"]);
    ("setMap", [MIfSome [MAssign "map"]; MReturnSelf])]);
  ("MlFigure", [ (* line 175 *)
    ("getFigureCaption", [MReturnAttr "figureCaption"]);
    ("setFigureCaption", [MIfSome [MAssign "figureCaption"]; MReturnSelf]);
    ("getHelpEntry", [MReturnAttr "helpEntry"]);
    ("setHelpEntry", [MIfSome [MAssign "helpEntry"]; MReturnSelf]);
    ("getLGraphics", [MReturnAttr "lGraphics"]);
    ("getPgwide", [MReturnAttr "pgwide"]);
    ("setPgwide", [MIfSome [MAssign "pgwide"]; MReturnSelf]);
    ("getVerbatim", [MReturnAttr "verbatim"]);
    ("setVerbatim", [MIfSome [MAssign "verbatim"]; MReturnSelf])]);
  (* models/M2/MSR/Documentation/BlockElements/Formula.py *)
  ("MlFormula", [ (* line 9 *)
    ("getFormulaCaption", [MReturnAttr "formulaCaption"]);
    ("setFormulaCaption", [MIfSome [MAssign "formulaCaption"]; MReturnSelf]);
    ("getGenericMath", [MReturnAttr "genericMath"]);
    ("setGenericMath", [MIfSome [MAssign "genericMath"]; MReturnSelf]);
    ("getLGraphics", [MReturnAttr "lGraphics"]);
    ("getTexMath", [MReturnAttr "texMath"]);
    ("setTexMath", [MIfSome [MAssign "texMath"]; MReturnSelf]);
    ("getVerbatim", [MReturnAttr "verbatim"]);
    ("setVerbatim", [MIfSome [MAssign "verbatim"]; MReturnSelf])]);
  (* models/M2/MSR/Documentation/BlockElements/__init__.py *)
  ("Caption", [ (* line 12 *)
    ("getDesc", [MReturnAttr "desc"]);
    ("setDesc", [MIfSome [MAssign "desc"]; MReturnSelf])]);
  (* models/M2/MSR/Documentation/TextModel/InlineTextElements.py *)
  ("Tt", [ (* line 24 *)
    ("getValue", [MReturnAttr "value"]);
    ("setValue", [MIfSome [MAssign "value"]; MReturnSelf]);
    ("getTexRender", [MReturnAttr "texRender"]);
    ("setTexRender", [MIfSome [MAssign "texRender"]; MReturnSelf]);
    ("getType", [MReturnAttr "type"]);
    ("setType", [MIfSome [MAssign "type"]; MReturnSelf])]);
  ("IndexEntry", [ (* line 114 *)
    ("getValue", [MReturnAttr "value"]);
    ("setValue", [MIfSome [MAssign "value"]; MReturnSelf]);
    ("getSub", [MReturnAttr "sub"]);
    ("setSub", [MIfSome [MAssign "sub"]; MReturnSelf]);
    ("getSup", [MReturnAttr "sup"]);
    ("setSup", [MIfSome [MAssign "sup"]; MReturnSelf])]);
  ("EmphasisText", [ (* line 204 *)
    ("getValue", [MReturnAttr "value"]);
    ("setValue", [MIfSome [MAssign "value"]; MReturnSelf]);
    ("getColor", [MReturnAttr "color"]);
    ("setColor", [MIfSome [MAssign "color"]; MReturnSelf]);
    ("getFont", [MReturnAttr "font"]);
    ("setFont", [MIfSome [MAssign "font"]; MReturnSelf]);
    ("getSub", [MReturnAttr "sub"]);
    ("setSub", [MIfSome [MAssign "sub"]; MReturnSelf]);
    ("getSup", [MReturnAttr "sup"]);
    ("setSup", [MIfSome [MAssign "sup"]; MReturnSelf]);
    ("getTt", [MReturnAttr "tt"]);
    ("setTt", [MIfSome [MAssign "tt"]; MReturnSelf]);
    ("getType", [MReturnAttr "type"]);
    ("setType", [MIfSome [MAssign "type"]; MReturnSelf])]);
  (* models/M2/MSR/Documentation/TextModel/LanguageDataModel.py *)
  ("LanguageSpecific", [ (* line 139 *)
    ("getL", [MReturnAttr "l"]);
    ("setL", [MIfSome [MAssign "l"]; MReturnSelf]);
    ("getValue", [MReturnAttr "value"]);
    ("setValue", [MIfSome [MAssign "value"]; MReturnSelf])]);
  ("MixedContentForLongName", [ (* line 219 *)
    ("getE", [MReturnAttr "e"]);
    ("setE", [MIfSome [MAssign "e"]; MReturnSelf]);
    ("getIe", [MReturnAttr "ie"]);
    ("setIe", [MIfSome [MAssign "ie"]; MReturnSelf]);
    ("getSub", [MReturnAttr "sub"]);
    ("setSub", [MIfSome [MAssign "sub"]; MReturnSelf]);
    ("getSup", [MReturnAttr "sup"]);
    ("setSup", [MIfSome [MAssign "sup"]; MReturnSelf]);
    ("getTt", [MReturnAttr "tt"]);
    ("setTt", [MIfSome [MAssign "tt"]; MReturnSelf])]);
  ("LLongName", [ (* line 332 *)
    ("getBlueprintValue", [MReturnAttr "blueprintValue"]);
    ("setBlueprintValue", [MIfSome [MAssign "blueprintValue"]; MReturnSelf])]);
  (* models/M2/MSR/Documentation/TextModel/MsrQuery.py *)
  ("MsrQueryArg", [ (* line 12 *)
    ("getArg", [MReturnAttr "arg"]);
    ("setArg", [MIfSome [MAssign "arg"]; MReturnSelf]);
    ("getSi", [MReturnAttr "si"]);
    ("setSi", [MIfSome [MAssign "si"]; MReturnSelf])]);
  ("MsrQueryProps", [ (* line 77 *)
    ("getComment", [MReturnAttr "comment"]);
    ("setComment", [MIfSome [MAssign "comment"]; MReturnSelf]);
    ("getMsrQueryName", [MReturnAttr "msrQueryName"]);
    ("setMsrQueryName", [MIfSome [MAssign "msrQueryName"]; MReturnSelf]);
    ("getMsrQueryArgs", [MReturnAttr "msrQueryArgs"])]);
  ("MsrQueryP2", [ (* line 167 *)
    ("getMsrQueryProps", [MReturnAttr "msrQueryProps"]);
    ("setMsrQueryProps", [MIfSome [MAssign "msrQueryProps"]; MReturnSelf]);
    ("getMsrQueryResultP2", [MReturnAttr "msrQueryResultP2"]);
    ("setMsrQueryResultP2", [MIfSome [MAssign "msrQueryResultP2"]; MReturnSelf])]);
  (* models/M2/MSR/Documentation/TextModel/MultilanguageData.py *)
  ("MultiLanguageParagraph", [ (* line 13 *)
    ("getL1s", [MReturnAttr "l1"])]);
  ("MultiLanguageOverviewParagraph", [ (* line 37 *)
    ("getL2s", [MReturnAttr "l2"])]);
  ("MultilanguageLongName", [ (* line 72 *)
    ("getL4s", [MReturnAttr "l4"])]);
  ("MultiLanguagePlainText", [ (* line 96 *)
    ("getL10s", [MReturnAttr "l10s"])]);
  ("MultiLanguageVerbatim", [ (* line 136 *)
    ("getAllowBreak", [MReturnAttr "allowBreak"]);
    ("setAllowBreak", [MIfSome [MAssign "allowBreak"]; MReturnSelf]);
    ("getFloat", [MReturnAttr "float"]);
    ("setFloat", [MIfSome [MAssign "float"]; MReturnSelf]);
    ("getHelpEntry", [MReturnAttr "helpEntry"]);
    ("setHelpEntry", [MIfSome [MAssign "helpEntry"]; MReturnSelf]);
    ("getL5s", [MReturnAttr "l5s"]);
    ("getPgwide", [MReturnAttr "pgwide"]);
    ("setPgwide", [MIfSome [MAssign "pgwide"]; MReturnSelf])]);
  (* models/M2/MSR/Documentation/TextModel/BlockElements/ListElements.py *)
  ("Item", [ (* line 32 *)
    ("getItemContents", [MReturnAttr "itemContents"]);
    ("setItemContents", [MAssign "itemContents"; MReturnSelf])]);
  ("ARList", [ (* line 55 *)
    ("getItems", [MReturnAttr "items"]);
    ("getType", [MReturnAttr "type"]);
    ("setType", [MAssign "type"; MReturnSelf])]);
  ("IndentSample", [ (* line 118 *)
    ("getItemLabelPos", [MReturnAttr "itemLabelPos"]);
    ("setItemLabelPos", [MIfSome [MAssign "itemLabelPos"]; MReturnSelf]);
    ("getL2s", [MReturnAttr "l2s"])]);
  ("LabeledItem", [ (* line 183 *)
    ("getHelpEntry", [MReturnAttr "helpEntry"]);
    ("setHelpEntry", [MIfSome [MAssign "helpEntry"]; MReturnSelf]);
    ("getItemContents", [MReturnAttr "itemContents"]);
    ("setItemContents", [MIfSome [MAssign "itemContents"]; MReturnSelf]);
    ("getItemLabel", [MReturnAttr "itemLabel"]);
    ("setItemLabel", [MIfSome [MAssign "itemLabel"]; MReturnSelf])]);
  ("LabeledList", [ (* line 273 *)
    ("getIndentSample", [MReturnAttr "indentSample"]);
    ("setIndentSample", [MIfSome [MAssign "indentSample"]; MReturnSelf]);
    ("getLabeledItems", [MReturnAttr "labeledItems"])]);
  ("DefItem", [ (* line 338 *)
    ("getDef", [MReturnAttr "def_doc"]);
    ("setDef", [MIfSome [MAssign "def_doc"]; MReturnSelf]);
    ("getHelpEntry", [MReturnAttr "helpEntry"]);
    ("setHelpEntry", [MIfSome [MAssign "helpEntry"]; MReturnSelf])]);
  ("DefList", [ (* line 391 *)
    ("getDefItems", [MReturnAttr "defItems"])]);
  (* models/M2/MSR/Documentation/TextModel/BlockElements/Note.py *)
  ("Note", [ (* line 54 *)
    ("getLabel", [MReturnAttr "label"]);
    ("setLabel", [MIfSome [MAssign "label"]; MReturnSelf]);
    ("getNoteText", [MReturnAttr "noteText"]);
    ("setNoteText", [MIfSome [MAssign "noteText"]; MReturnSelf]);
    ("getNoteType", [MReturnAttr "noteType"]);
    ("setNoteType", [MIfSome [MAssign "noteType"]; MReturnSelf])]);
  (* models/M2/MSR/Documentation/TextModel/BlockElements/PaginationAndView.py *)
  ("Paginateable", [ (* line 20 *)
    ("getBreak", [MReturnAttr "chapterBreak"]);
    ("setBreak", [MIfSome [MAssign "chapterBreak"]; MReturnSelf]);
    ("getKeepWithPrevious", [MReturnAttr "keepWithPrevious"]);
    ("setKeepWithPrevious", [MIfSome [MAssign "keepWithPrevious"]; MReturnSelf])]);
  (* models/M2/MSR/Documentation/TextModel/BlockElements/RequirementsTracing.py *)
  ("TraceableText", [ (* line 12 *)
    ("getText", [MReturnAttr "text"]);
    ("setText", [MIfSome [MAssign "text"]; MReturnSelf]);
    ("getTraceRefs", [MReturnAttr "traceRefs"])]);
  ("StructuredReq", [ (* line 77 *)
    ("getDate", [MReturnAttr "date"]);
    ("setDate", [MIfSome [MAssign "date"]; MReturnSelf]);
    ("getImportance", [MReturnAttr "importance"]);
    ("setImportance", [MIfSome [MAssign "importance"]; MReturnSelf]);
    ("getIssuedBy", [MReturnAttr "issuedBy"]);
    ("setIssuedBy", [MIfSome [MAssign "issuedBy"]; MReturnSelf]);
    ("getType", [MReturnAttr "type"]);
    ("setType", [MIfSome [MAssign "type"]; MReturnSelf]);
    ("getDescription", [MReturnAttr "description"]);
    ("setDescription", [MIfSome [MAssign "description"]; MReturnSelf]);
    ("getRationale", [MReturnAttr "rationale"]);
    ("setRationale", [MIfSome [MAssign "rationale"]; MReturnSelf]);
    ("getDependencies", [MReturnAttr "dependencies"]);
    ("setDependencies", [MIfSome [MAssign "dependencies"]; MReturnSelf]);
    ("getUseCase", [MReturnAttr "useCase"]);
    ("setUseCase", [MIfSome [MAssign "useCase"]; MReturnSelf]);
    ("getConflicts", [MReturnAttr "conflicts"]);
    ("setConflicts", [MIfSome [MAssign "conflicts"]; MReturnSelf]);
    ("getSupportingMaterial", [MReturnAttr "supportingMaterial"]);
    ("setSupportingMaterial", [MIfSome [MAssign "supportingMaterial"]; MReturnSelf]);
    ("getRemark", [MReturnAttr "remark"]);
    ("setRemark", [MIfSome [MAssign "remark"]; MReturnSelf]);
    ("getTestedItemRefs", [MReturnAttr "testedItemRefs"])]);
  (* models/M2/MSR/Documentation/TextModel/BlockElements/__init__.py *)
  ("DocumentationBlock", [ (* line 22 *)
    ("getDefList", [MReturnAttr "defList"]);
    ("setDefList", [MIfSome [MAssign "defList"]; MReturnSelf]);
    ("getFigures", [MReturnAttr "figures"]);
    ("getFormula", [MReturnAttr "formula"]);
    ("setFormula", [MIfSome [MAssign "formula"]; MReturnSelf]);
    ("getLabeledList", [MReturnAttr "labeledList"]);
    ("setLabeledList", [MIfSome [MAssign "labeledList"]; MReturnSelf]);
    ("getLists", [MReturnAttr "lists"]);
    ("getMsrQueryP2", [MReturnAttr "msrQueryP2"]);
    ("setMsrQueryP2", [MIfSome [MAssign "msrQueryP2"]; MReturnSelf]);
    ("getNote", [MReturnAttr "note"]);
    ("setNote", [MIfSome [MAssign "note"]; MReturnSelf]);
    ("getPs", [MReturnAttr "ps"]);
    ("getStructuredReq", [MReturnAttr "structuredReq"]);
    ("setStructuredReq", [MIfSome [MAssign "structuredReq"]; MReturnSelf]);
    ("getTrace", [MReturnAttr "trace"]);
    ("setTrace", [MIfSome [MAssign "trace"]; MReturnSelf]);
    ("getVerbatim", [MReturnAttr "verbatim"]);
    ("setVerbatim", [MIfSome [MAssign "verbatim"]; MReturnSelf])]);
  (* models/utils/uuid_mgr.py *)
  ("UUIDMgr", [ (* line 4 *)
    ("getObjects", [MOther; MOther; MOther]);
    ("getDuplicateUUIDs", [MOther])])
].
