(** Types of the attributes of the objects that reading makes (TypeCheck.v), found by an inference
    run (tools/type_infer.txt) and checked in TypeProps.v.  GENERATED by tools/gen_types.py; nothing here
    models code, and nothing here is trusted: a wrong entry makes the check fail. *)
From Coq Require Import String List.
From Verif Require Import TypeCheck.
Import ListNotations.
Open Scope string_scope.

Definition o_str := tbase [BStr; BNone].
Definition o_lit := tbase [BLit; BNone].
Definition o_num := tbase [BNum; BNone].
Definition o_ref := tbase [BRef; BNone].
Definition o_bool := tbase [BBool; BNone].
Definition o_obj (c : string) := tbase [BObj c; BNone].
Definition l_obj (c : string) := tlist [BObj c].

(** class, the attributes whose type is not that of their initial value *)
Definition field_types : list (string * list (string * ty)) :=
  [("AUTOSAR", [("adminData", o_obj "AdminData"); ("arPackages", l_obj "ARPackage")]);
  ("AdminData", [("DocRevisions", l_obj "DocRevision"); ("language", o_lit); ("sdgs", l_obj "Sdg"); ("usedLanguages", o_obj "MultiLanguagePlainText"); ("uuid", o_str); ("timestamp", o_str)]);
  ("ARPackage", [("short_name", o_str); ("longName", o_obj "MultilanguageLongName"); ("annotations", l_obj "Annotation"); ("adminData", o_obj "AdminData"); ("arPackages", l_obj "ARPackage"); ("category", o_lit); ("introduction", o_obj "DocumentationBlock"); ("desc", o_obj "MultiLanguageOverviewParagraph"); ("referenceBases", l_obj "ReferenceBase"); ("elements", tlist [BObj "McGroup"; BObj "McFunction"; BObj "NvDataInterface"; BObj "PostBuildVariantCriterion"; BObj "PredefinedVariant"; BObj "SwSystemconstantValueSet"; BObj "SwSystemconst"; BObj "EcucDestinationUriDefSet"; BObj "EcucDefinitionCollection"; BObj "EcucModuleDef"; BObj "ModeDeclarationMappingSet"; BObj "PortPrototypeBlueprint"; BObj "KeywordSet"; BObj "Collection"; BObj "E2EProfileCompatibilityProps"; BObj "DataTransformationSet"; BObj "FlexrayCluster"; BObj "FlexrayFrame"; BObj "HwType"; BObj "HwCategory"; BObj "HwElement"; BObj "DoIpTpConfig"; BObj "SoAdRoutingGroup"; BObj "SecureCommunicationPropsSet"; BObj "GeneralPurposeIPdu"; BObj "GeneralPurposePdu"; BObj "UserDefinedPdu"; BObj "UserDefinedIPdu"; BObj "MultiplexedIPdu"; BObj "Documentation"; BObj "DiagnosticServiceTable"; BObj "DiagnosticConnection"; BObj "EthernetCluster"; BObj "PortInterfaceMappingSet"; BObj "FlatMap"; BObj "LifeCycleInfoSet"; BObj "GenericEthernetFrame"; BObj "ParameterInterface"; BObj "PhysicalDimension"; BObj "EcucModuleConfigurationValues"; BObj "EcucValueCollection"; BObj "SignalServiceTranslationPropsSet"; BObj "SystemSignalGroup"; BObj "SystemSignal"; BObj "ISignalIPdu"; BObj "ISignalGroup"; BObj "ISignal"; BObj "CanFrame"; BObj "CanCluster"; BObj "ISignalIPduGroup"; BObj "Gateway"; BObj "EcuInstance"; BObj "System"; BObj "LinTpConfig"; BObj "CanTpConfig"; BObj "NmConfig"; BObj "SecuredIPdu"; BObj "DcmIPdu"; BObj "NPdu"; BObj "NmPdu"; BObj "LinUnconditionalFrame"; BObj "LinCluster"; BObj "SwcTiming"; BObj "ModeSwitchInterface"; BObj "ModeDeclarationGroup"; BObj "DataTypeMappingSet"; BObj "ServiceProxySwComponentType"; BObj "NvBlockSwComponentType"; BObj "SensorActuatorSwComponentType"; BObj "ServiceSwComponentType"; BObj "TriggerInterface"; BObj "SwAddrMethod"; BObj "SwRecordLayout"; BObj "ApplicationArrayDataType"; BObj "EcuAbstractionSwComponentType"; BObj "ApplicationSwComponentType"; BObj "ClientServerInterface"; BObj "ImplementationDataType"; BObj "BswImplementation"; BObj "SwcBswMapping"; BObj "BswModuleEntry"; BObj "BswModuleDescription"; BObj "Unit"; BObj "SenderReceiverInterface"; BObj "EndToEndProtectionSet"; BObj "DataConstr"; BObj "ConstantSpecification"; BObj "CompuMethod"; BObj "SwBaseType"; BObj "ApplicationRecordDataType"; BObj "ApplicationPrimitiveDataType"; BObj "SwcImplementation"; BObj "ComplexDeviceDriverSwComponentType"; BObj "ConsistencyNeeds"; BObj "RunnableEntityGroup"; BObj "DataPrototypeGroup"; BObj "CompositionSwComponentType"]); ("timestamp", o_str); ("uuid", o_str)]);
  ("ARList", [("items", l_obj "DocumentationBlock"); ("type", o_str)]);
  ("ApplicationPrimitiveDataType", [("short_name", o_str); ("shortNameFragments", l_obj "ShortNameFragment"); ("swDataDefProps", o_obj "SwDataDefProps"); ("annotations", l_obj "Annotation"); ("adminData", o_obj "AdminData"); ("category", o_lit); ("introduction", o_obj "DocumentationBlock"); ("desc", o_obj "MultiLanguageOverviewParagraph"); ("variationPoint", o_obj "VariationPoint"); ("longName", o_obj "MultilanguageLongName"); ("timestamp", o_str); ("uuid", o_str)]);
  ("ApplicationRecordDataType", [("short_name", o_str); ("shortNameFragments", l_obj "ShortNameFragment"); ("swDataDefProps", o_obj "SwDataDefProps"); ("record_elements", l_obj "ApplicationRecordElement"); ("annotations", l_obj "Annotation"); ("adminData", o_obj "AdminData"); ("category", o_lit); ("introduction", o_obj "DocumentationBlock"); ("desc", o_obj "MultiLanguageOverviewParagraph"); ("variationPoint", o_obj "VariationPoint"); ("longName", o_obj "MultilanguageLongName"); ("timestamp", o_str); ("uuid", o_str)]);
  ("ApplicationRecordElement", [("short_name", o_str); ("shortNameFragments", l_obj "ShortNameFragment"); ("swDataDefProps", o_obj "SwDataDefProps"); ("introduction", o_obj "DocumentationBlock"); ("typeTRef", o_ref); ("timestamp", o_str); ("annotations", l_obj "Annotation"); ("adminData", o_obj "AdminData"); ("category", o_lit); ("desc", o_obj "MultiLanguageOverviewParagraph"); ("variationPoint", o_obj "VariationPoint"); ("longName", o_obj "MultilanguageLongName"); ("uuid", o_str)]);
  ("ApplicationRuleBasedValueSpecification", [("category", o_lit); ("swAxisConts", l_obj "RuleBasedAxisCont"); ("swValueCont", o_obj "RuleBasedValueCont"); ("shortLabel", o_lit); ("timestamp", o_str); ("uuid", o_str)]);
  ("ApplicationSwComponentType", [("short_name", o_str); ("shortNameFragments", l_obj "ShortNameFragment"); ("symbolProps", o_obj "SymbolProps"); ("swcMappingConstraintsRefs", tlist [BRef]); ("swComponentDocumentation", o_obj "SwComponentDocumentation"); ("internalBehavior", o_obj "SwcInternalBehavior"); ("introduction", o_obj "DocumentationBlock"); ("consistencyNeeds", l_obj "ConsistencyNeeds"); ("category", o_lit); ("ports", tlist [BObj "PRPortPrototype"; BObj "RPortPrototype"; BObj "PPortPrototype"]); ("portGroups", l_obj "PortGroup"); ("unitGroupRefs", tlist [BRef]); ("uuid", o_str); ("annotations", l_obj "Annotation"); ("adminData", o_obj "AdminData"); ("desc", o_obj "MultiLanguageOverviewParagraph"); ("variationPoint", o_obj "VariationPoint"); ("longName", o_obj "MultilanguageLongName"); ("timestamp", o_str)]);
  ("ApplicationArrayDataType", [("short_name", o_str); ("shortNameFragments", l_obj "ShortNameFragment"); ("swDataDefProps", o_obj "SwDataDefProps"); ("dynamicArraySizeProfile", o_lit); ("desc", o_obj "MultiLanguageOverviewParagraph"); ("element", o_obj "ApplicationArrayElement"); ("annotations", l_obj "Annotation"); ("adminData", o_obj "AdminData"); ("category", o_lit); ("introduction", o_obj "DocumentationBlock"); ("variationPoint", o_obj "VariationPoint"); ("longName", o_obj "MultilanguageLongName"); ("timestamp", o_str); ("uuid", o_str)]);
  ("ApplicationArrayElement", [("short_name", o_str); ("shortNameFragments", l_obj "ShortNameFragment"); ("swDataDefProps", o_obj "SwDataDefProps"); ("arraySizeHandling", o_lit); ("arraySizeSemantics", o_lit); ("annotations", l_obj "Annotation"); ("adminData", o_obj "AdminData"); ("indexDataTypeRef", o_ref); ("introduction", o_obj "DocumentationBlock"); ("maxNumberOfElements", o_num); ("typeTRef", o_ref); ("timestamp", o_str); ("category", o_lit); ("desc", o_obj "MultiLanguageOverviewParagraph"); ("variationPoint", o_obj "VariationPoint"); ("longName", o_obj "MultilanguageLongName"); ("uuid", o_str)]);
  ("ApplicationError", [("short_name", o_str); ("shortNameFragments", l_obj "ShortNameFragment"); ("errorCode", o_num); ("annotations", l_obj "Annotation"); ("adminData", o_obj "AdminData"); ("category", o_lit); ("introduction", o_obj "DocumentationBlock"); ("desc", o_obj "MultiLanguageOverviewParagraph"); ("variationPoint", o_obj "VariationPoint"); ("longName", o_obj "MultilanguageLongName"); ("timestamp", o_str); ("uuid", o_str)]);
  ("ApplicationEntry", [("frameTriggeringRef", o_ref); ("delay", o_num); ("positionInTable", o_num)]);
  ("ApplicationEndpoint", [("short_name", o_str); ("consumedServiceInstances", l_obj "ConsumedServiceInstance"); ("networkEndpointRef", o_ref); ("priority", o_num); ("providedServiceInstances", l_obj "ProvidedServiceInstance"); ("tpConfiguration", tbase [BObj "UdpTp"; BObj "TcpTp"; BObj "GenericTp"; BNone])]);
  ("ApplicationValueSpecification", [("category", o_lit); ("swValueCont", o_obj "SwValueCont"); ("shortLabel", o_lit); ("timestamp", o_str); ("uuid", o_str)]);
  ("ApplicationCompositeElementInPortInterfaceInstanceRef", [("rootDataPrototypeRef", o_ref); ("targetDataPrototypeRef", o_ref)]);
  ("Annotation", [("annotationOrigin", o_lit); ("annotationText", o_obj "DocumentationBlock"); ("label", o_obj "MultilanguageLongName")]);
  ("AnyInstanceRef", [("baseRef", o_ref); ("contextElementRefs", tlist [BRef]); ("targetRef", o_ref)]);
  ("AnalyzedExecutionTime", [("short_name", o_str); ("shortNameFragments", l_obj "ShortNameFragment"); ("softwareContext", o_obj "SoftwareContext"); ("bestCaseExecutionTime", o_obj "MultidimensionalTime"); ("worstCaseExecutionTime", o_obj "MultidimensionalTime"); ("exclusiveAreaRef", o_ref); ("executableEntityRef", o_ref); ("hardwareConfiguration", o_obj "HardwareConfiguration"); ("hwElementRef", o_ref); ("includedLibraryRefs", tlist [BRef]); ("introduction", o_obj "DocumentationBlock"); ("memorySectionLocations", l_obj "MemorySectionLocation"); ("annotations", l_obj "Annotation"); ("adminData", o_obj "AdminData"); ("category", o_lit); ("desc", o_obj "MultiLanguageOverviewParagraph"); ("variationPoint", o_obj "VariationPoint"); ("longName", o_obj "MultilanguageLongName"); ("timestamp", o_str); ("uuid", o_str)]);
  ("AssemblySwConnector", [("short_name", o_str); ("shortNameFragments", l_obj "ShortNameFragment"); ("providerIRef", o_obj "PPortInCompositionInstanceRef"); ("requesterIRef", o_obj "RPortInCompositionInstanceRef"); ("mappingRef", o_ref); ("annotations", l_obj "Annotation"); ("adminData", o_obj "AdminData"); ("category", o_lit); ("introduction", o_obj "DocumentationBlock"); ("desc", o_obj "MultiLanguageOverviewParagraph"); ("variationPoint", o_obj "VariationPoint"); ("longName", o_obj "MultilanguageLongName"); ("timestamp", o_str); ("uuid", o_str)]);
  ("AsynchronousServerCallReturnsEvent", [("short_name", o_str); ("shortNameFragments", l_obj "ShortNameFragment"); ("startOnEventRef", o_ref); ("eventSourceRef", o_ref); ("disabledModeIRefs", l_obj "RModeInAtomicSwcInstanceRef"); ("desc", o_obj "MultiLanguageOverviewParagraph"); ("annotations", l_obj "Annotation"); ("adminData", o_obj "AdminData"); ("activationReasonRepresentationRef", o_ref); ("category", o_lit); ("introduction", o_obj "DocumentationBlock"); ("variationPoint", o_obj "VariationPoint"); ("longName", o_obj "MultilanguageLongName"); ("timestamp", o_str); ("uuid", o_str)]);
  ("AsynchronousServerCallResultPoint", [("short_name", o_str); ("shortNameFragments", l_obj "ShortNameFragment"); ("asynchronousServerCallPointRef", o_ref); ("annotations", l_obj "Annotation"); ("adminData", o_obj "AdminData"); ("category", o_lit); ("introduction", o_obj "DocumentationBlock"); ("desc", o_obj "MultiLanguageOverviewParagraph"); ("variationPoint", o_obj "VariationPoint"); ("longName", o_obj "MultilanguageLongName"); ("timestamp", o_str); ("uuid", o_str)]);
  ("AsynchronousServerCallPoint", [("short_name", o_str); ("shortNameFragments", l_obj "ShortNameFragment"); ("operationIRef", o_obj "ROperationInAtomicSwcInstanceRef"); ("timeout", o_num); ("timestamp", o_str); ("annotations", l_obj "Annotation"); ("adminData", o_obj "AdminData"); ("category", o_lit); ("introduction", o_obj "DocumentationBlock"); ("desc", o_obj "MultiLanguageOverviewParagraph"); ("variationPoint", o_obj "VariationPoint"); ("longName", o_obj "MultilanguageLongName"); ("uuid", o_str)]);
  ("AutosarParameterRef", [("autosarParameterIRef", o_obj "ParameterInAtomicSWCTypeInstanceRef"); ("localParameterRef", o_ref)]);
  ("AutosarEngineeringObject", [("category", o_lit); ("domain", o_lit); ("revisionLabels", tlist [BLit]); ("shortLabel", o_lit); ("timestamp", o_str); ("uuid", o_str)]);
  ("AutosarVariableRef", [("autosarVariableIRef", o_obj "VariableInAtomicSWCTypeInstanceRef"); ("localVariableRef", o_ref); ("timestamp", o_str); ("uuid", o_str)]);
  ("ArrayValueSpecification", [("element", tlist [BObj "ApplicationRuleBasedValueSpecification"; BObj "ApplicationValueSpecification"; BObj "ConstantReference"; BObj "TextValueSpecification"; BObj "ArrayValueSpecification"; BObj "NumericalValueSpecification"; BObj "RecordValueSpecification"; BObj "CompositeRuleBasedValueSpecification"]); ("shortLabel", o_lit); ("timestamp", o_str); ("uuid", o_str)]);
  ("ArgumentDataPrototype", [("short_name", o_str); ("shortNameFragments", l_obj "ShortNameFragment"); ("serverArgumentImplPolicy", o_lit); ("swDataDefProps", o_obj "SwDataDefProps"); ("direction", o_lit); ("desc", o_obj "MultiLanguageOverviewParagraph"); ("typeTRef", o_ref); ("timestamp", o_str); ("annotations", l_obj "Annotation"); ("adminData", o_obj "AdminData"); ("category", o_lit); ("introduction", o_obj "DocumentationBlock"); ("variationPoint", o_obj "VariationPoint"); ("longName", o_obj "MultilanguageLongName"); ("uuid", o_str)]);
  ("AccessCount", [("accessPointRef", o_ref); ("value", o_num)]);
  ("AccessCountSet", [("accessCounts", l_obj "AccessCount"); ("countProfile", o_lit)]);
  ("MultiLanguagePlainText", [("l10s", l_obj "LParagraph"); ("timestamp", o_str); ("uuid", o_str)]);
  ("MultiLanguageParagraph", [("l1", l_obj "LParagraph"); ("timestamp", o_str); ("uuid", o_str)]);
  ("MultiLanguageOverviewParagraph", [("l2", l_obj "LOverviewParagraph"); ("timestamp", o_str); ("uuid", o_str)]);
  ("MultiLanguageVerbatim", [("allowBreak", o_lit); ("float", o_lit); ("helpEntry", o_lit); ("l5s", l_obj "LVerbatim"); ("pgwide", o_lit); ("timestamp", o_str); ("uuid", o_str)]);
  ("MultiplexedIPdu", [("short_name", o_str); ("shortNameFragments", l_obj "ShortNameFragment"); ("selectorFieldByteOrder", o_lit); ("selectorFieldLength", o_num); ("selectorFieldStartPosition", o_num); ("staticPart", o_obj "StaticPart"); ("dynamicPart", o_obj "DynamicPart"); ("desc", o_obj "MultiLanguageOverviewParagraph"); ("triggerMode", o_lit); ("timestamp", o_str); ("unusedBitPattern", o_num); ("uuid", o_str); ("containedIPduProps", o_obj "ContainedIPduProps"); ("category", o_lit); ("hasDynamicLength", o_bool); ("length", o_num); ("longName", o_obj "MultilanguageLongName"); ("annotations", l_obj "Annotation"); ("adminData", o_obj "AdminData"); ("introduction", o_obj "DocumentationBlock"); ("variationPoint", o_obj "VariationPoint")]);
  ("MultilanguageLongName", [("l4", l_obj "LLongName"); ("timestamp", o_str); ("uuid", o_str)]);
  ("MultidimensionalTime", [("cseCode", o_lit); ("cseCodeFactor", o_num)]);
  ("ModeDeclaration", [("short_name", o_str); ("value", o_num); ("timestamp", o_str); ("uuid", o_str)]);
  ("ModeDeclarationGroup", [("short_name", o_str); ("shortNameFragments", l_obj "ShortNameFragment"); ("initialModeRef", o_ref); ("introduction", o_obj "DocumentationBlock"); ("modeManagerErrorBehavior", o_obj "ModeErrorBehavior"); ("modeTransitions", l_obj "ModeTransition"); ("modeUserErrorBehavior", o_obj "ModeErrorBehavior"); ("onTransitionValue", o_num); ("elements/ModeDeclaration", l_obj "ModeDeclaration"); ("annotations", l_obj "Annotation"); ("adminData", o_obj "AdminData"); ("category", o_lit); ("desc", o_obj "MultiLanguageOverviewParagraph"); ("variationPoint", o_obj "VariationPoint"); ("longName", o_obj "MultilanguageLongName"); ("timestamp", o_str); ("uuid", o_str)]);
  ("ModeDeclarationGroupPrototype", [("short_name", o_str); ("shortNameFragments", l_obj "ShortNameFragment"); ("swCalibrationAccess", o_lit); ("typeTRef", o_ref); ("timestamp", o_str); ("annotations", l_obj "Annotation"); ("adminData", o_obj "AdminData"); ("category", o_lit); ("introduction", o_obj "DocumentationBlock"); ("desc", o_obj "MultiLanguageOverviewParagraph"); ("variationPoint", o_obj "VariationPoint"); ("longName", o_obj "MultilanguageLongName"); ("uuid", o_str)]);
  ("ModeDeclarationGroupPrototypeMapping", [("firstModeGroupRef", o_ref); ("modeDeclarationMappingSetRef", o_ref); ("secondModeGroupRef", o_ref)]);
  ("ModeDeclarationMapping", [("short_name", o_str); ("shortNameFragments", l_obj "ShortNameFragment"); ("secondModeRef", o_ref); ("firstModeRefs", tlist [BRef]); ("annotations", l_obj "Annotation"); ("adminData", o_obj "AdminData"); ("category", o_lit); ("introduction", o_obj "DocumentationBlock"); ("desc", o_obj "MultiLanguageOverviewParagraph"); ("variationPoint", o_obj "VariationPoint"); ("longName", o_obj "MultilanguageLongName"); ("timestamp", o_str); ("uuid", o_str)]);
  ("ModeDeclarationMappingSet", [("short_name", o_str); ("shortNameFragments", l_obj "ShortNameFragment"); ("modeDeclarationMappings", l_obj "ModeDeclarationMapping"); ("annotations", l_obj "Annotation"); ("adminData", o_obj "AdminData"); ("category", o_lit); ("introduction", o_obj "DocumentationBlock"); ("desc", o_obj "MultiLanguageOverviewParagraph"); ("variationPoint", o_obj "VariationPoint"); ("longName", o_obj "MultilanguageLongName"); ("timestamp", o_str); ("uuid", o_str)]);
  ("ModeSwitchInterface", [("short_name", o_str); ("shortNameFragments", l_obj "ShortNameFragment"); ("serviceKind", o_lit); ("modeGroup", o_obj "ModeDeclarationGroupPrototype"); ("isService", o_bool); ("introduction", o_obj "DocumentationBlock"); ("annotations", l_obj "Annotation"); ("adminData", o_obj "AdminData"); ("category", o_lit); ("desc", o_obj "MultiLanguageOverviewParagraph"); ("variationPoint", o_obj "VariationPoint"); ("longName", o_obj "MultilanguageLongName"); ("timestamp", o_str); ("uuid", o_str)]);
  ("ModeSwitchEventTriggeredActivity", [("role", o_lit); ("swcModeSwitchEventRef", o_ref)]);
  ("ModeSwitchedAckEvent", [("short_name", o_str); ("shortNameFragments", l_obj "ShortNameFragment"); ("startOnEventRef", o_ref); ("eventSourceRef", o_ref); ("disabledModeIRefs", l_obj "RModeInAtomicSwcInstanceRef"); ("desc", o_obj "MultiLanguageOverviewParagraph"); ("annotations", l_obj "Annotation"); ("adminData", o_obj "AdminData"); ("activationReasonRepresentationRef", o_ref); ("category", o_lit); ("introduction", o_obj "DocumentationBlock"); ("variationPoint", o_obj "VariationPoint"); ("longName", o_obj "MultilanguageLongName"); ("timestamp", o_str); ("uuid", o_str)]);
  ("ModeSwitchedAckRequest", [("timeout", o_num)]);
  ("ModeSwitchSenderComSpec", [("modeGroupRef", o_ref); ("modeSwitchedAck", o_obj "ModeSwitchedAckRequest"); ("queueLength", o_num)]);
  ("ModeSwitchReceiverComSpec", [("enhancedModeApi", o_bool); ("modeGroupRef", o_ref); ("supportsAsynchronousModeSwitch", o_bool); ("timestamp", o_str); ("uuid", o_str)]);
  ("ModeSwitchPoint", [("short_name", o_str); ("modeGroupIRef", o_obj "PModeGroupInAtomicSwcInstanceRef"); ("timestamp", o_str); ("uuid", o_str)]);
  ("ModeErrorBehavior", [("defaultModeRef", o_ref); ("errorReactionPolicy", o_lit); ("timestamp", o_str); ("uuid", o_str)]);
  ("ModeRequestTypeMap", [("implementationDataTypeRef", o_ref); ("modeGroupRef", o_ref); ("timestamp", o_str); ("uuid", o_str)]);
  ("ModeTransition", [("short_name", o_str); ("enteredModeRef", o_ref); ("exitedModeRef", o_ref); ("timestamp", o_str); ("uuid", o_str)]);
  ("ModeInterfaceMapping", [("short_name", o_str); ("shortNameFragments", l_obj "ShortNameFragment"); ("modeMapping", o_obj "ModeDeclarationGroupPrototypeMapping"); ("annotations", l_obj "Annotation"); ("adminData", o_obj "AdminData"); ("category", o_lit); ("introduction", o_obj "DocumentationBlock"); ("desc", o_obj "MultiLanguageOverviewParagraph"); ("variationPoint", o_obj "VariationPoint"); ("longName", o_obj "MultilanguageLongName"); ("timestamp", o_str); ("uuid", o_str)]);
  ("ModeInBswModuleDescriptionInstanceRef", [("contextModeDeclarationGroupRef", o_ref); ("targetModeRef", o_ref); ("timestamp", o_str); ("uuid", o_str)]);
  ("ModePortAnnotation", [("modeGroupRef", o_ref)]);
  ("ModeAccessPoint", [("modeGroupIRef", tbase [BObj "PModeGroupInAtomicSwcInstanceRef"; BObj "RModeGroupInAtomicSWCInstanceRef"; BNone]); ("timestamp", o_str); ("uuid", o_str)]);
  ("Modification", [("change", o_obj "MultiLanguageOverviewParagraph"); ("reason", o_obj "MultiLanguageOverviewParagraph")]);
  ("McFunction", [("short_name", o_str); ("shortNameFragments", l_obj "ShortNameFragment"); ("subFunctionRefs", tlist [BRef]); ("defCalprmSet", o_obj "McFunctionDataRefSet"); ("desc", o_obj "MultiLanguageOverviewParagraph"); ("inMeasurementSet", o_obj "McFunctionDataRefSet"); ("introduction", o_obj "DocumentationBlock"); ("locMeasurementSet", o_obj "McFunctionDataRefSet"); ("longName", o_obj "MultilanguageLongName"); ("outMeasurementSet", o_obj "McFunctionDataRefSet"); ("refCalprmSet", o_obj "McFunctionDataRefSet"); ("annotations", l_obj "Annotation"); ("adminData", o_obj "AdminData"); ("category", o_lit); ("variationPoint", o_obj "VariationPoint"); ("timestamp", o_str); ("uuid", o_str)]);
  ("McFunctionDataRefSet", [("flatMapEntryRefs", tlist [BRef]); ("mcDataInstanceRefs", tlist [BRef])]);
  ("McGroup", [("short_name", o_str); ("shortNameFragments", l_obj "ShortNameFragment"); ("subGroupRefs", tlist [BRef]); ("mcFunctionRefs", tlist [BRef]); ("refCalprmSet", o_obj "McGroupDataRefSet"); ("refMeasurementSet", o_obj "McGroupDataRefSet"); ("annotations", l_obj "Annotation"); ("adminData", o_obj "AdminData"); ("category", o_lit); ("introduction", o_obj "DocumentationBlock"); ("desc", o_obj "MultiLanguageOverviewParagraph"); ("variationPoint", o_obj "VariationPoint"); ("longName", o_obj "MultilanguageLongName"); ("timestamp", o_str); ("uuid", o_str)]);
  ("McGroupDataRefSet", [("flatMapEntryRefs", tlist [BRef]); ("mcDataInstanceRefs", tlist [BRef])]);
  ("McSupportData", [("emulationSupports", l_obj "McSwEmulationMethodSupport"); ("mcParameterInstances", l_obj "McDataInstance"); ("mcVariableInstances", l_obj "McDataInstance"); ("measurableSystemConstantValuesRefs", tlist [BRef]); ("rptSupportData", o_obj "RptSupportData")]);
  ("McSwEmulationMethodSupport", [("baseReferenceRef", o_ref); ("category", o_lit); ("elementGroups", l_obj "McParameterElementGroup"); ("referenceTableRef", o_ref); ("shortLabel", o_lit)]);
  ("McDataInstance", [("short_name", o_str); ("subElements", l_obj "McDataInstance"); ("symbol", o_lit); ("arraySize", o_num); ("displayIdentifier", o_lit); ("flatMapEntryRef", o_ref); ("instanceInMemory", o_obj "ImplementationElementInParameterInstanceRef"); ("mcDataAccessDetails", o_obj "McDataAccessDetails"); ("mcDataAssignments", l_obj "RoleBasedMcDataAssignment"); ("resultingProperties", o_obj "SwDataDefProps"); ("resultingRptSwPrototypingAccess", o_obj "RptSwPrototypingAccess"); ("role", o_lit); ("rptImplPolicy", o_obj "RptImplPolicy")]);
  ("McDataAccessDetails", [("rteEventIRefs", l_obj "RteEventInEcuInstanceRef"); ("variableAccessIRefs", l_obj "VariableAccessInEcuInstanceRef")]);
  ("McParameterElementGroup", [("ramLocationRef", o_ref); ("romLocationRef", o_ref); ("shortLabel", o_lit)]);
  ("MacMulticastGroup", [("short_name", o_str); ("shortNameFragments", l_obj "ShortNameFragment"); ("macMulticastAddress", o_lit); ("annotations", l_obj "Annotation"); ("adminData", o_obj "AdminData"); ("category", o_lit); ("introduction", o_obj "DocumentationBlock"); ("desc", o_obj "MultiLanguageOverviewParagraph"); ("variationPoint", o_obj "VariationPoint"); ("longName", o_obj "MultilanguageLongName"); ("timestamp", o_str); ("uuid", o_str)]);
  ("MsrQueryChapter", [("msrQueryProps", o_obj "MsrQueryProps"); ("timestamp", o_str); ("uuid", o_str)]);
  ("MsrQueryTopic1", [("msrQueryProps", o_obj "MsrQueryProps"); ("timestamp", o_str); ("uuid", o_str)]);
  ("MsrQueryProps", [("comment", o_lit); ("msrQueryName", o_lit); ("msrQueryArgs", l_obj "MsrQueryArg"); ("timestamp", o_str); ("uuid", o_str)]);
  ("MsrQueryP1", []);
  ("MsrQueryP2", [("msrQueryProps", o_obj "MsrQueryProps"); ("msrQueryResultP2", o_obj "DocumentationBlock"); ("timestamp", o_str); ("uuid", o_str)]);
  ("MsrQueryArg", [("arg", o_lit); ("si", o_lit); ("timestamp", o_str); ("uuid", o_str)]);
  ("MlFormula", [("formulaCaption", o_obj "Caption"); ("genericMath", o_obj "MultiLanguagePlainText"); ("lGraphics", l_obj "LGraphic"); ("texMath", o_obj "MultiLanguagePlainText"); ("timestamp", o_str); ("verbatim", o_obj "MultiLanguageVerbatim"); ("uuid", o_str)]);
  ("MlFigure", [("lGraphics", l_obj "LGraphic"); ("timestamp", o_str); ("uuid", o_str)]);
  ("MeasuredStackUsage", [("short_name", o_str); ("shortNameFragments", l_obj "ShortNameFragment"); ("softwareContext", o_obj "SoftwareContext"); ("averageMemoryConsumption", o_num); ("annotations", l_obj "Annotation"); ("adminData", o_obj "AdminData"); ("maximumMemoryConsumption", o_num); ("minimumMemoryConsumption", o_num); ("testPattern", o_lit); ("timestamp", o_str); ("executableEntityRef", o_ref); ("hardwareConfiguration", o_obj "HardwareConfiguration"); ("hwElementRef", o_ref); ("category", o_lit); ("introduction", o_obj "DocumentationBlock"); ("desc", o_obj "MultiLanguageOverviewParagraph"); ("variationPoint", o_obj "VariationPoint"); ("longName", o_obj "MultilanguageLongName"); ("uuid", o_str)]);
  ("MeasuredHeapUsage", [("short_name", o_str); ("shortNameFragments", l_obj "ShortNameFragment"); ("softwareContext", o_obj "SoftwareContext"); ("averageMemoryConsumption", o_num); ("annotations", l_obj "Annotation"); ("adminData", o_obj "AdminData"); ("maximumMemoryConsumption", o_num); ("minimumMemoryConsumption", o_num); ("testPattern", o_lit); ("timestamp", o_str); ("hardwareConfiguration", o_obj "HardwareConfiguration"); ("hwElementRef", o_ref); ("category", o_lit); ("introduction", o_obj "DocumentationBlock"); ("desc", o_obj "MultiLanguageOverviewParagraph"); ("variationPoint", o_obj "VariationPoint"); ("longName", o_obj "MultilanguageLongName"); ("uuid", o_str)]);
  ("MeasuredExecutionTime", [("short_name", o_str); ("shortNameFragments", l_obj "ShortNameFragment"); ("softwareContext", o_obj "SoftwareContext"); ("maximumExecutionTime", o_obj "MultidimensionalTime"); ("minimumExecutionTime", o_obj "MultidimensionalTime"); ("memorySectionLocations", l_obj "MemorySectionLocation"); ("nominalExecutionTime", o_obj "MultidimensionalTime"); ("exclusiveAreaRef", o_ref); ("executableEntityRef", o_ref); ("hardwareConfiguration", o_obj "HardwareConfiguration"); ("hwElementRef", o_ref); ("includedLibraryRefs", tlist [BRef]); ("introduction", o_obj "DocumentationBlock"); ("annotations", l_obj "Annotation"); ("adminData", o_obj "AdminData"); ("category", o_lit); ("desc", o_obj "MultiLanguageOverviewParagraph"); ("variationPoint", o_obj "VariationPoint"); ("longName", o_obj "MultilanguageLongName"); ("timestamp", o_str); ("uuid", o_str)]);
  ("MemorySection", [("short_name", o_str); ("shortNameFragments", l_obj "ShortNameFragment"); ("size", o_num); ("swAddrMethodRef", o_ref); ("symbol", o_lit); ("alignment", o_lit); ("annotations", l_obj "Annotation"); ("adminData", o_obj "AdminData"); ("executableEntityRefs", tlist [BRef]); ("memClassSymbol", o_lit); ("options", tlist [BLit]); ("prefixRef", o_ref); ("category", o_lit); ("introduction", o_obj "DocumentationBlock"); ("desc", o_obj "MultiLanguageOverviewParagraph"); ("variationPoint", o_obj "VariationPoint"); ("longName", o_obj "MultilanguageLongName"); ("timestamp", o_str); ("uuid", o_str)]);
  ("MemorySectionLocation", [("providedMemoryRef", o_ref); ("softwareMemorySectionRef", o_ref)]);
  ("LParagraph", [("l", o_str); ("timestamp", o_str); ("uuid", o_str)]);
  ("LinCluster", [("short_name", o_str); ("shortNameFragments", l_obj "ShortNameFragment"); ("baudrate", o_num); ("physicalChannel", tlist [BObj "FlexrayPhysicalChannel"; BObj "EthernetPhysicalChannel"; BObj "LinPhysicalChannel"; BObj "CanPhysicalChannel"]); ("protocolName", o_lit); ("protocolVersion", o_lit); ("annotations", l_obj "Annotation"); ("adminData", o_obj "AdminData"); ("category", o_lit); ("introduction", o_obj "DocumentationBlock"); ("desc", o_obj "MultiLanguageOverviewParagraph"); ("variationPoint", o_obj "VariationPoint"); ("longName", o_obj "MultilanguageLongName"); ("timestamp", o_str); ("uuid", o_str)]);
  ("LinCommunicationConnector", [("short_name", o_str); ("shortNameFragments", l_obj "ShortNameFragment"); ("introduction", o_obj "DocumentationBlock"); ("longName", o_obj "MultilanguageLongName"); ("commControllerRef", o_ref); ("category", o_lit); ("desc", o_obj "MultiLanguageOverviewParagraph"); ("elements/CommConnectorPort", tlist [BObj "ISignalPort"; BObj "IPduPort"; BObj "FramePort"]); ("pncGatewayType", o_lit); ("annotations", l_obj "Annotation"); ("adminData", o_obj "AdminData"); ("variationPoint", o_obj "VariationPoint"); ("timestamp", o_str); ("uuid", o_str)]);
  ("LinUnconditionalFrame", [("short_name", o_str); ("shortNameFragments", l_obj "ShortNameFragment"); ("frameLength", o_num); ("elements/PduToFrameMapping", l_obj "PduToFrameMapping"); ("annotations", l_obj "Annotation"); ("adminData", o_obj "AdminData"); ("category", o_lit); ("introduction", o_obj "DocumentationBlock"); ("desc", o_obj "MultiLanguageOverviewParagraph"); ("variationPoint", o_obj "VariationPoint"); ("longName", o_obj "MultilanguageLongName"); ("timestamp", o_str); ("uuid", o_str)]);
  ("LinTpConfig", [("short_name", o_str); ("shortNameFragments", l_obj "ShortNameFragment"); ("tpAddresses", l_obj "TpAddress"); ("tpConnections", l_obj "LinTpConnection"); ("tpNodes", l_obj "LinTpNode"); ("timestamp", o_str); ("communicationClusterRef", o_ref); ("category", o_lit); ("annotations", l_obj "Annotation"); ("adminData", o_obj "AdminData"); ("introduction", o_obj "DocumentationBlock"); ("desc", o_obj "MultiLanguageOverviewParagraph"); ("variationPoint", o_obj "VariationPoint"); ("longName", o_obj "MultilanguageLongName"); ("uuid", o_str)]);
  ("LinTpConnection", [("dataPduRef", o_ref); ("flowControlRef", o_ref); ("linTpNSduRef", o_ref); ("receiverRefs", tlist [BRef]); ("timeoutAs", o_num); ("timeoutCr", o_num); ("timeoutCs", o_num); ("timestamp", o_str); ("transmitterRef", o_ref); ("ident", o_obj "TpConnectionIdent"); ("uuid", o_str)]);
  ("LinTpNode", [("short_name", o_str); ("shortNameFragments", l_obj "ShortNameFragment"); ("connectorRef", o_ref); ("category", o_lit); ("dropNotRequestedNad", o_bool); ("desc", o_obj "MultiLanguageOverviewParagraph"); ("p2Max", o_num); ("p2Timing", o_num); ("tpAddressRef", o_ref); ("timestamp", o_str); ("annotations", l_obj "Annotation"); ("adminData", o_obj "AdminData"); ("introduction", o_obj "DocumentationBlock"); ("variationPoint", o_obj "VariationPoint"); ("longName", o_obj "MultilanguageLongName"); ("uuid", o_str)]);
  ("LinMaster", [("short_name", o_str); ("shortNameFragments", l_obj "ShortNameFragment"); ("longName", o_obj "MultilanguageLongName"); ("timeBase", o_num); ("timeBaseJitter", o_num); ("timestamp", o_str); ("protocolVersion", o_lit); ("wakeUpByControllerSupported", o_bool); ("annotations", l_obj "Annotation"); ("adminData", o_obj "AdminData"); ("category", o_lit); ("introduction", o_obj "DocumentationBlock"); ("desc", o_obj "MultiLanguageOverviewParagraph"); ("variationPoint", o_obj "VariationPoint"); ("uuid", o_str)]);
  ("LinPhysicalChannel", [("short_name", o_str); ("shortNameFragments", l_obj "ShortNameFragment"); ("scheduleTables", l_obj "LinScheduleTable"); ("commConnectorRefs", tlist [BRef; BNone]); ("category", o_lit); ("elements/FrameTriggering", tlist [BObj "FlexrayFrameTriggering"; BObj "LinFrameTriggering"; BObj "CanFrameTriggering"]); ("elements/ISignalTriggering", l_obj "ISignalTriggering"); ("elements/PduTriggering", l_obj "PduTriggering"); ("annotations", l_obj "Annotation"); ("adminData", o_obj "AdminData"); ("introduction", o_obj "DocumentationBlock"); ("desc", o_obj "MultiLanguageOverviewParagraph"); ("variationPoint", o_obj "VariationPoint"); ("longName", o_obj "MultilanguageLongName"); ("timestamp", o_str); ("uuid", o_str)]);
  ("Linker", [("short_name", o_str); ("shortNameFragments", l_obj "ShortNameFragment"); ("name", o_lit); ("options", o_lit); ("vendor", o_lit); ("version", o_lit); ("variationPoint", o_obj "VariationPoint"); ("annotations", l_obj "Annotation"); ("adminData", o_obj "AdminData"); ("category", o_lit); ("introduction", o_obj "DocumentationBlock"); ("desc", o_obj "MultiLanguageOverviewParagraph"); ("longName", o_obj "MultilanguageLongName"); ("timestamp", o_str); ("uuid", o_str)]);
  ("LinScheduleTable", [("short_name", o_str); ("shortNameFragments", l_obj "ShortNameFragment"); ("resumePosition", o_lit); ("runMode", o_lit); ("tableEntries", l_obj "ApplicationEntry"); ("timestamp", o_str); ("annotations", l_obj "Annotation"); ("adminData", o_obj "AdminData"); ("category", o_lit); ("introduction", o_obj "DocumentationBlock"); ("desc", o_obj "MultiLanguageOverviewParagraph"); ("variationPoint", o_obj "VariationPoint"); ("longName", o_obj "MultilanguageLongName"); ("uuid", o_str)]);
  ("LinFrameTriggering", [("short_name", o_str); ("shortNameFragments", l_obj "ShortNameFragment"); ("identifier", o_num); ("introduction", o_obj "DocumentationBlock"); ("linChecksum", o_lit); ("longName", o_obj "MultilanguageLongName"); ("frameRef", o_ref); ("framePortRefs", tlist [BRef]); ("pduTriggeringRefs", tlist [BRef; BNone]); ("annotations", l_obj "Annotation"); ("adminData", o_obj "AdminData"); ("category", o_lit); ("desc", o_obj "MultiLanguageOverviewParagraph"); ("variationPoint", o_obj "VariationPoint"); ("timestamp", o_str); ("uuid", o_str)]);
  ("LifeCycleInfo", [("lcObjectRef", o_ref); ("lcStateRef", o_ref); ("periodBegin", o_obj "LifeCyclePeriod"); ("remark", o_obj "DocumentationBlock"); ("useInsteadRefs", tlist [BRef]); ("uuid", o_str); ("timestamp", o_str)]);
  ("LifeCycleInfoSet", [("short_name", o_str); ("shortNameFragments", l_obj "ShortNameFragment"); ("defaultLcStateRef", o_ref); ("desc", o_obj "MultiLanguageOverviewParagraph"); ("lifeCycleInfos", l_obj "LifeCycleInfo"); ("longName", o_obj "MultilanguageLongName"); ("usedLifeCycleStateDefinitionGroupRef", o_ref); ("uuid", o_str); ("annotations", l_obj "Annotation"); ("adminData", o_obj "AdminData"); ("category", o_lit); ("introduction", o_obj "DocumentationBlock"); ("variationPoint", o_obj "VariationPoint"); ("timestamp", o_str)]);
  ("LifeCyclePeriod", [("arReleaseVersion", o_lit)]);
  ("LimitValueVariationPoint", [("intervalType", tbase [BLit; BLit; BNone]); ("bindingTime", tbase [BLit; BLit; BNone]); ("blueprintValue", o_lit); ("sd", o_lit); ("shortLabel", o_lit); ("_text", o_str); ("timestamp", o_str); ("uuid", o_str)]);
  ("LOverviewParagraph", [("l", o_str); ("timestamp", o_str); ("uuid", o_str)]);
  ("LLongName", [("e", o_obj "EmphasisText"); ("ie", o_obj "IndexEntry"); ("sub", o_lit); ("sup", o_lit); ("tt", o_obj "Tt"); ("timestamp", o_str); ("uuid", o_str); ("l", o_str)]);
  ("LGraphic", [("graphic", o_obj "Graphic"); ("l", o_str)]);
  ("LabeledList", [("indentSample", o_obj "IndentSample"); ("labeledItems", l_obj "LabeledItem"); ("timestamp", o_str); ("uuid", o_str)]);
  ("LabeledItem", [("helpEntry", o_lit); ("itemContents", o_obj "DocumentationBlock"); ("itemLabel", o_obj "MultiLanguageOverviewParagraph"); ("timestamp", o_str); ("uuid", o_str)]);
  ("LVerbatim", [("l", o_str); ("timestamp", o_str); ("uuid", o_str)]);
  ("DocRevision", [("date", o_lit); ("issuedBy", o_lit); ("modifications", l_obj "Modification"); ("revisionLabel", o_lit); ("state", o_lit)]);
  ("Documentation", [("short_name", o_str); ("shortNameFragments", l_obj "ShortNameFragment"); ("contexts", l_obj "DocumentationContext"); ("category", o_lit); ("documentationContent", o_obj "PredefinedChapter"); ("desc", o_obj "MultiLanguageOverviewParagraph"); ("annotations", l_obj "Annotation"); ("adminData", o_obj "AdminData"); ("introduction", o_obj "DocumentationBlock"); ("variationPoint", o_obj "VariationPoint"); ("longName", o_obj "MultilanguageLongName"); ("timestamp", o_str); ("uuid", o_str)]);
  ("DocumentationContext", [("short_name", o_str); ("shortNameFragments", l_obj "ShortNameFragment"); ("featureIRef", o_obj "AnyInstanceRef"); ("identifiableRef", o_ref); ("longName", o_obj "MultilanguageLongName"); ("timestamp", o_str); ("uuid", o_str)]);
  ("DocumentationBlock", [("defList", o_obj "DefList"); ("figures", l_obj "MlFigure"); ("formula", o_obj "MlFormula"); ("labeledList", o_obj "LabeledList"); ("lists", l_obj "ARList"); ("msrQueryP2", o_obj "MsrQueryP2"); ("note", o_obj "Note"); ("ps", l_obj "MultiLanguageParagraph"); ("structuredReq", o_obj "StructuredReq"); ("trace", o_obj "TraceableText"); ("timestamp", o_str); ("verbatim", o_obj "MultiLanguageVerbatim"); ("uuid", o_str)]);
  ("DoIpTpConfig", [("short_name", o_str); ("shortNameFragments", l_obj "ShortNameFragment"); ("doIpLogicAddresses", l_obj "DoIpLogicAddress"); ("desc", o_obj "MultiLanguageOverviewParagraph"); ("tpConnections", l_obj "DoIpTpConnection"); ("timestamp", o_str); ("communicationClusterRef", o_ref); ("category", o_lit); ("annotations", l_obj "Annotation"); ("adminData", o_obj "AdminData"); ("introduction", o_obj "DocumentationBlock"); ("variationPoint", o_obj "VariationPoint"); ("longName", o_obj "MultilanguageLongName"); ("uuid", o_str)]);
  ("DoIpTpConnection", [("doIpSourceAddressRef", o_ref); ("doIpTargetAddressRef", o_ref); ("tpSduRef", o_ref); ("timestamp", o_str); ("ident", o_obj "TpConnectionIdent"); ("uuid", o_str)]);
  ("DoIpLogicAddress", [("short_name", o_str); ("shortNameFragments", l_obj "ShortNameFragment"); ("address", o_num); ("adminData", o_obj "AdminData"); ("annotations", l_obj "Annotation"); ("desc", o_obj "MultiLanguageOverviewParagraph"); ("category", o_lit); ("introduction", o_obj "DocumentationBlock"); ("variationPoint", o_obj "VariationPoint"); ("longName", o_obj "MultilanguageLongName"); ("timestamp", o_str); ("uuid", o_str)]);
  ("DoIpRoutingActivationAuthenticationNeeds", [("short_name", o_str); ("shortNameFragments", l_obj "ShortNameFragment"); ("dataLengthRequest", o_num); ("dataLengthResponse", o_num); ("desc", o_obj "MultiLanguageOverviewParagraph"); ("routingActivationType", o_lit); ("annotations", l_obj "Annotation"); ("adminData", o_obj "AdminData"); ("category", o_lit); ("introduction", o_obj "DocumentationBlock"); ("variationPoint", o_obj "VariationPoint"); ("longName", o_obj "MultilanguageLongName"); ("timestamp", o_str); ("uuid", o_str)]);
  ("DoIpRoutingActivationConfirmationNeeds", [("short_name", o_str); ("shortNameFragments", l_obj "ShortNameFragment"); ("dataLengthRequest", o_num); ("dataLengthResponse", o_num); ("desc", o_obj "MultiLanguageOverviewParagraph"); ("routingActivationType", o_lit); ("annotations", l_obj "Annotation"); ("adminData", o_obj "AdminData"); ("category", o_lit); ("introduction", o_obj "DocumentationBlock"); ("variationPoint", o_obj "VariationPoint"); ("longName", o_obj "MultilanguageLongName"); ("timestamp", o_str); ("uuid", o_str)]);
  ("DoIpEntity", [("doIpEntityRole", o_lit)]);
  ("DataPrototypeGroup", [("short_name", o_str); ("shortNameFragments", l_obj "ShortNameFragment"); ("dataPrototypeGroupIRefs", l_obj "InnerDataPrototypeGroupInCompositionInstanceRef"); ("desc", o_obj "MultiLanguageOverviewParagraph"); ("implicitDataAccessIRefs", l_obj "VariableDataPrototypeInCompositionInstanceRef"); ("introduction", o_obj "DocumentationBlock"); ("annotations", l_obj "Annotation"); ("adminData", o_obj "AdminData"); ("category", o_lit); ("variationPoint", o_obj "VariationPoint"); ("longName", o_obj "MultilanguageLongName"); ("timestamp", o_str); ("uuid", o_str)]);
  ("DataPrototypeMapping", [("firstDataPrototypeRef", o_ref); ("firstToSecondDataTransformationRef", o_ref); ("secondDataPrototypeRef", o_ref); ("secondToFirstDataTransformationRef", o_ref); ("subElementMappings", l_obj "SubElementMapping"); ("textTableMappings", l_obj "TextTableMapping")]);
  ("DataPrototypeTransformationProps", [("dataPrototypeInPortInterfaceRef", o_obj "DataPrototypeInPortInterfaceRef"); ("networkRepresentationProps", o_obj "SwDataDefProps"); ("transformationProps", o_ref); ("timestamp", o_str); ("uuid", o_str)]);
  ("DataPrototypeInPortInterfaceRef", [("dataPrototypeInClientServerInterface", o_obj "DataPrototypeInClientServerInterfaceInstanceRef"); ("tagId", o_num); ("timestamp", o_str); ("uuid", o_str)]);
  ("DataPrototypeInClientServerInterfaceInstanceRef", [("baseRef", o_ref); ("contextDataPrototypeInCsRefs", tlist [BRef]); ("rootDataPrototypeInCsRef", o_ref); ("targetDataPrototypeInCsRef", o_ref); ("timestamp", o_str); ("uuid", o_str)]);
  ("DataConstr", [("short_name", o_str); ("shortNameFragments", l_obj "ShortNameFragment"); ("data_constr_rule", l_obj "DataConstrRule"); ("desc", o_obj "MultiLanguageOverviewParagraph"); ("annotations", l_obj "Annotation"); ("adminData", o_obj "AdminData"); ("category", o_lit); ("introduction", o_obj "DocumentationBlock"); ("variationPoint", o_obj "VariationPoint"); ("longName", o_obj "MultilanguageLongName"); ("timestamp", o_str); ("uuid", o_str)]);
  ("DataConstrRule", [("constrLevel", o_num); ("internalConstrs", o_obj "InternalConstrs"); ("physConstrs", o_obj "PhysConstrs"); ("timestamp", o_str); ("uuid", o_str)]);
  ("DataTypeMap", [("applicationDataTypeRef", o_ref); ("implementationDataTypeRef", o_ref); ("timestamp", o_str); ("uuid", o_str)]);
  ("DataTypeMappingSet", [("short_name", o_str); ("shortNameFragments", l_obj "ShortNameFragment"); ("dataTypeMaps", l_obj "DataTypeMap"); ("desc", o_obj "MultiLanguageOverviewParagraph"); ("modeRequestTypeMaps", l_obj "ModeRequestTypeMap"); ("annotations", l_obj "Annotation"); ("adminData", o_obj "AdminData"); ("category", o_lit); ("introduction", o_obj "DocumentationBlock"); ("variationPoint", o_obj "VariationPoint"); ("longName", o_obj "MultilanguageLongName"); ("timestamp", o_str); ("uuid", o_str)]);
  ("DataTransformation", [("short_name", o_str); ("shortNameFragments", l_obj "ShortNameFragment"); ("dataTransformationKind", o_lit); ("desc", o_obj "MultiLanguageOverviewParagraph"); ("executeDespiteDataUnavailability", o_bool); ("transformerChainRefs", tlist [BRef]); ("timestamp", o_str); ("annotations", l_obj "Annotation"); ("adminData", o_obj "AdminData"); ("category", o_lit); ("introduction", o_obj "DocumentationBlock"); ("variationPoint", o_obj "VariationPoint"); ("longName", o_obj "MultilanguageLongName"); ("uuid", o_str)]);
  ("DataTransformationSet", [("short_name", o_str); ("shortNameFragments", l_obj "ShortNameFragment"); ("dataTransformations", l_obj "DataTransformation"); ("desc", o_obj "MultiLanguageOverviewParagraph"); ("transformationTechnologies", l_obj "TransformationTechnology"); ("timestamp", o_str); ("annotations", l_obj "Annotation"); ("adminData", o_obj "AdminData"); ("category", o_lit); ("introduction", o_obj "DocumentationBlock"); ("variationPoint", o_obj "VariationPoint"); ("longName", o_obj "MultilanguageLongName"); ("uuid", o_str)]);
  ("DataFilter", [("dataFilterType", o_lit); ("mask", o_num); ("x", o_num)]);
  ("DataReceivedEvent", [("short_name", o_str); ("shortNameFragments", l_obj "ShortNameFragment"); ("startOnEventRef", o_ref); ("dataIRef", o_obj "RVariableInAtomicSwcInstanceRef"); ("disabledModeIRefs", l_obj "RModeInAtomicSwcInstanceRef"); ("desc", o_obj "MultiLanguageOverviewParagraph"); ("annotations", l_obj "Annotation"); ("adminData", o_obj "AdminData"); ("activationReasonRepresentationRef", o_ref); ("category", o_lit); ("introduction", o_obj "DocumentationBlock"); ("variationPoint", o_obj "VariationPoint"); ("longName", o_obj "MultilanguageLongName"); ("timestamp", o_str); ("uuid", o_str)]);
  ("DataSendCompletedEvent", [("short_name", o_str); ("shortNameFragments", l_obj "ShortNameFragment"); ("startOnEventRef", o_ref); ("eventSourceRef", o_ref); ("disabledModeIRefs", l_obj "RModeInAtomicSwcInstanceRef"); ("desc", o_obj "MultiLanguageOverviewParagraph"); ("annotations", l_obj "Annotation"); ("adminData", o_obj "AdminData"); ("activationReasonRepresentationRef", o_ref); ("category", o_lit); ("introduction", o_obj "DocumentationBlock"); ("variationPoint", o_obj "VariationPoint"); ("longName", o_obj "MultilanguageLongName"); ("timestamp", o_str); ("uuid", o_str)]);
  ("DcmIPdu", [("short_name", o_str); ("shortNameFragments", l_obj "ShortNameFragment"); ("diagPduType", o_lit); ("desc", o_obj "MultiLanguageOverviewParagraph"); ("containedIPduProps", o_obj "ContainedIPduProps"); ("category", o_lit); ("hasDynamicLength", o_bool); ("length", o_num); ("longName", o_obj "MultilanguageLongName"); ("annotations", l_obj "Annotation"); ("adminData", o_obj "AdminData"); ("introduction", o_obj "DocumentationBlock"); ("variationPoint", o_obj "VariationPoint"); ("timestamp", o_str); ("uuid", o_str)]);
  ("DiagnosticConnection", [("short_name", o_str); ("shortNameFragments", l_obj "ShortNameFragment"); ("functionalRequestRefs", tlist [BRef]); ("physicalRequestRef", o_ref); ("responseOnEventRef", o_ref); ("annotations", l_obj "Annotation"); ("adminData", o_obj "AdminData"); ("category", o_lit); ("introduction", o_obj "DocumentationBlock"); ("desc", o_obj "MultiLanguageOverviewParagraph"); ("variationPoint", o_obj "VariationPoint"); ("longName", o_obj "MultilanguageLongName"); ("timestamp", o_str); ("uuid", o_str)]);
  ("DiagnosticCommunicationManagerNeeds", [("short_name", o_str); ("shortNameFragments", l_obj "ShortNameFragment"); ("serviceRequestCallbackType", o_lit); ("annotations", l_obj "Annotation"); ("adminData", o_obj "AdminData"); ("desc", o_obj "MultiLanguageOverviewParagraph"); ("category", o_lit); ("introduction", o_obj "DocumentationBlock"); ("variationPoint", o_obj "VariationPoint"); ("longName", o_obj "MultilanguageLongName"); ("timestamp", o_str); ("uuid", o_str)]);
  ("DiagnosticServiceTable", [("short_name", o_str); ("shortNameFragments", l_obj "ShortNameFragment"); ("diagnosticConnectionRefs", tlist [BRef]); ("desc", o_obj "MultiLanguageOverviewParagraph"); ("ecuInstanceRef", o_ref); ("annotations", l_obj "Annotation"); ("adminData", o_obj "AdminData"); ("category", o_lit); ("introduction", o_obj "DocumentationBlock"); ("variationPoint", o_obj "VariationPoint"); ("longName", o_obj "MultilanguageLongName"); ("timestamp", o_str); ("uuid", o_str)]);
  ("DiagnosticStorageConditionNeeds", [("short_name", o_str); ("shortNameFragments", l_obj "ShortNameFragment"); ("initialStatus", o_lit); ("introduction", o_obj "DocumentationBlock"); ("annotations", l_obj "Annotation"); ("adminData", o_obj "AdminData"); ("desc", o_obj "MultiLanguageOverviewParagraph"); ("category", o_lit); ("variationPoint", o_obj "VariationPoint"); ("longName", o_obj "MultilanguageLongName"); ("timestamp", o_str); ("uuid", o_str)]);
  ("DiagnosticRoutineNeeds", [("short_name", o_str); ("shortNameFragments", l_obj "ShortNameFragment"); ("diagRoutineType", o_lit); ("desc", o_obj "MultiLanguageOverviewParagraph"); ("RidNumber", o_num); ("annotations", l_obj "Annotation"); ("adminData", o_obj "AdminData"); ("category", o_lit); ("introduction", o_obj "DocumentationBlock"); ("variationPoint", o_obj "VariationPoint"); ("longName", o_obj "MultilanguageLongName"); ("timestamp", o_str); ("uuid", o_str)]);
  ("DiagnosticValueNeeds", [("short_name", o_str); ("shortNameFragments", l_obj "ShortNameFragment"); ("dataLength", o_num); ("diagnosticValueAccess", o_lit); ("desc", o_obj "MultiLanguageOverviewParagraph"); ("DidNumber", o_num); ("fixedLength", o_bool); ("processingStyle", o_lit); ("annotations", l_obj "Annotation"); ("adminData", o_obj "AdminData"); ("category", o_lit); ("introduction", o_obj "DocumentationBlock"); ("variationPoint", o_obj "VariationPoint"); ("longName", o_obj "MultilanguageLongName"); ("timestamp", o_str); ("uuid", o_str)]);
  ("DiagnosticEventNeeds", [("short_name", o_str); ("shortNameFragments", l_obj "ShortNameFragment"); ("deferringFidRefs", tlist [BRef]); ("desc", o_obj "MultiLanguageOverviewParagraph"); ("diagEventDebounceAlgorithm", tbase [BObj "DiagEventDebounceTimeBased"; BObj "DiagEventDebounceMonitorInternal"; BObj "DiagEventDebounceCounterBased"; BNone]); ("inhibitingFidRef", o_ref); ("inhibitingSecondaryFidRefs", tlist [BRef]); ("introduction", o_obj "DocumentationBlock"); ("prestoredFreezeframeStoredInNvm", o_bool); ("usesMonitorData", o_bool); ("uuid", o_str); ("annotations", l_obj "Annotation"); ("adminData", o_obj "AdminData"); ("category", o_lit); ("variationPoint", o_obj "VariationPoint"); ("longName", o_obj "MultilanguageLongName"); ("timestamp", o_str)]);
  ("DiagnosticEventInfoNeeds", [("short_name", o_str); ("shortNameFragments", l_obj "ShortNameFragment"); ("dtcKind", o_lit); ("desc", o_obj "MultiLanguageOverviewParagraph"); ("udsDtcNumber", o_num); ("uuid", o_str); ("annotations", l_obj "Annotation"); ("adminData", o_obj "AdminData"); ("category", o_lit); ("introduction", o_obj "DocumentationBlock"); ("variationPoint", o_obj "VariationPoint"); ("longName", o_obj "MultilanguageLongName"); ("timestamp", o_str)]);
  ("DiagnosticEnableConditionNeeds", [("short_name", o_str); ("shortNameFragments", l_obj "ShortNameFragment"); ("initialStatus", o_lit); ("introduction", o_obj "DocumentationBlock"); ("annotations", l_obj "Annotation"); ("adminData", o_obj "AdminData"); ("desc", o_obj "MultiLanguageOverviewParagraph"); ("category", o_lit); ("variationPoint", o_obj "VariationPoint"); ("longName", o_obj "MultilanguageLongName"); ("timestamp", o_str); ("uuid", o_str)]);
  ("DiagnosticIoControlNeeds", [("short_name", o_str); ("shortTermAdjustmentSupported", o_bool); ("shortNameFragments", l_obj "ShortNameFragment"); ("currentValueRef", o_ref); ("category", o_lit); ("freezeCurrentStateSupported", o_bool); ("resetToDefaultSupported", o_bool); ("annotations", l_obj "Annotation"); ("adminData", o_obj "AdminData"); ("desc", o_obj "MultiLanguageOverviewParagraph"); ("introduction", o_obj "DocumentationBlock"); ("variationPoint", o_obj "VariationPoint"); ("longName", o_obj "MultilanguageLongName"); ("timestamp", o_str); ("uuid", o_str)]);
  ("DiagnosticOperationCycleNeeds", [("short_name", o_str); ("shortNameFragments", l_obj "ShortNameFragment"); ("operationCycle", o_lit); ("annotations", l_obj "Annotation"); ("adminData", o_obj "AdminData"); ("desc", o_obj "MultiLanguageOverviewParagraph"); ("category", o_lit); ("introduction", o_obj "DocumentationBlock"); ("variationPoint", o_obj "VariationPoint"); ("longName", o_obj "MultilanguageLongName"); ("timestamp", o_str); ("uuid", o_str)]);
  ("DiagEventDebounceCounterBased", [("short_name", o_str); ("shortNameFragments", l_obj "ShortNameFragment"); ("category", o_lit); ("annotations", l_obj "Annotation"); ("adminData", o_obj "AdminData"); ("introduction", o_obj "DocumentationBlock"); ("desc", o_obj "MultiLanguageOverviewParagraph"); ("variationPoint", o_obj "VariationPoint"); ("longName", o_obj "MultilanguageLongName"); ("timestamp", o_str); ("uuid", o_str)]);
  ("DiagEventDebounceMonitorInternal", [("short_name", o_str); ("shortNameFragments", l_obj "ShortNameFragment"); ("annotations", l_obj "Annotation"); ("adminData", o_obj "AdminData"); ("category", o_lit); ("introduction", o_obj "DocumentationBlock"); ("desc", o_obj "MultiLanguageOverviewParagraph"); ("variationPoint", o_obj "VariationPoint"); ("longName", o_obj "MultilanguageLongName"); ("timestamp", o_str); ("uuid", o_str)]);
  ("DiagEventDebounceTimeBased", [("short_name", o_str); ("shortNameFragments", l_obj "ShortNameFragment"); ("timestamp", o_str); ("annotations", l_obj "Annotation"); ("adminData", o_obj "AdminData"); ("category", o_lit); ("introduction", o_obj "DocumentationBlock"); ("desc", o_obj "MultiLanguageOverviewParagraph"); ("variationPoint", o_obj "VariationPoint"); ("longName", o_obj "MultilanguageLongName"); ("uuid", o_str)]);
  ("DelegationSwConnector", [("short_name", o_str); ("shortNameFragments", l_obj "ShortNameFragment"); ("innerPortIRref", tbase [BObj "PPortInCompositionInstanceRef"; BObj "RPortInCompositionInstanceRef"; BNone]); ("introduction", o_obj "DocumentationBlock"); ("outerPortRef", o_ref); ("mappingRef", o_ref); ("annotations", l_obj "Annotation"); ("adminData", o_obj "AdminData"); ("category", o_lit); ("desc", o_obj "MultiLanguageOverviewParagraph"); ("variationPoint", o_obj "VariationPoint"); ("longName", o_obj "MultilanguageLongName"); ("timestamp", o_str); ("uuid", o_str)]);
  ("DelegatedPortAnnotation", [("signalFan", o_lit)]);
  ("DependencyOnArtifact", [("short_name", o_str); ("shortNameFragments", l_obj "ShortNameFragment"); ("artifactDescriptor", o_obj "AutosarEngineeringObject"); ("annotations", l_obj "Annotation"); ("adminData", o_obj "AdminData"); ("usages", tlist [BLit; BLit]); ("uuid", o_str); ("category", o_lit); ("introduction", o_obj "DocumentationBlock"); ("desc", o_obj "MultiLanguageOverviewParagraph"); ("variationPoint", o_obj "VariationPoint"); ("longName", o_obj "MultilanguageLongName"); ("timestamp", o_str)]);
  ("DefList", [("defItems", l_obj "DefItem"); ("timestamp", o_str); ("uuid", o_str)]);
  ("DefItem", [("def_doc", o_obj "DocumentationBlock"); ("helpEntry", o_lit); ("timestamp", o_str); ("uuid", o_str)]);
  ("DevelopmentError", [("short_name", o_str); ("shortNameFragments", l_obj "ShortNameFragment"); ("id", o_num); ("introduction", o_obj "DocumentationBlock"); ("annotations", l_obj "Annotation"); ("adminData", o_obj "AdminData"); ("category", o_lit); ("desc", o_obj "MultiLanguageOverviewParagraph"); ("variationPoint", o_obj "VariationPoint"); ("longName", o_obj "MultilanguageLongName"); ("timestamp", o_str); ("uuid", o_str)]);
  ("DynamicPart", [("dynamicPartAlternatives", l_obj "DynamicPartAlternative"); ("segmentPositions", l_obj "SegmentPosition")]);
  ("DynamicPartAlternative", [("initialDynamicPart", o_bool); ("iPduRef", o_ref); ("selectorFieldCode", o_num)]);
  ("DtcStatusChangeNotificationNeeds", [("short_name", o_str); ("shortNameFragments", l_obj "ShortNameFragment"); ("dtcFormatType", o_lit); ("desc", o_obj "MultiLanguageOverviewParagraph"); ("annotations", l_obj "Annotation"); ("adminData", o_obj "AdminData"); ("category", o_lit); ("introduction", o_obj "DocumentationBlock"); ("variationPoint", o_obj "VariationPoint"); ("longName", o_obj "MultilanguageLongName"); ("timestamp", o_str); ("uuid", o_str)]);
  ("DltUserNeeds", [("short_name", o_str); ("shortNameFragments", l_obj "ShortNameFragment"); ("annotations", l_obj "Annotation"); ("adminData", o_obj "AdminData"); ("category", o_lit); ("introduction", o_obj "DocumentationBlock"); ("desc", o_obj "MultiLanguageOverviewParagraph"); ("variationPoint", o_obj "VariationPoint"); ("longName", o_obj "MultilanguageLongName"); ("timestamp", o_str); ("uuid", o_str)]);
  ("Sd", [("gid", o_lit); ("value", o_lit); ("timestamp", o_str); ("uuid", o_str)]);
  ("Sdg", [("gid", o_lit); ("sdgCaption", o_obj "SdgCaption"); ("sdgContentsType", o_obj "SdgContents"); ("timestamp", o_str); ("uuid", o_str)]);
  ("SdgContents", [("sd", l_obj "Sd"); ("sdf", l_obj "Sdf"); ("sdg", l_obj "Sdg"); ("sdxRefs", tlist [BRef]); ("sdxfRefs", tlist [BRef])]);
  ("SdgCaption", [("short_name", o_str)]);
  ("Sdf", [("gid", o_lit); ("value", o_lit); ("timestamp", o_str); ("uuid", o_str)]);
  ("SdServerConfig", [("initialOfferBehavior", o_obj "InitialSdDelayConfig"); ("offerCyclicDelay", o_num); ("requestResponseDelay", o_obj "RequestResponseDelay"); ("serverServiceMajorVersion", o_num); ("serverServiceMinorVersion", o_num); ("ttl", o_num)]);
  ("SdClientConfig", [("clientServiceMajorVersion", o_num); ("clientServiceMinorVersion", o_num); ("initialFindBehavior", o_obj "InitialSdDelayConfig"); ("requestResponseDelay", o_obj "RequestResponseDelay"); ("ttl", o_num)]);
  ("SwcImplementation", [("short_name", o_str); ("shortNameFragments", l_obj "ShortNameFragment"); ("swcBswMappingRef", o_ref); ("swVersion", o_lit); ("behaviorRef", o_ref); ("buildActionManifestRef", o_ref); ("programmingLanguage", o_lit); ("requiredArtifacts", l_obj "DependencyOnArtifact"); ("requiredGeneratorTools", l_obj "DependencyOnArtifact"); ("resourceConsumption", o_obj "ResourceConsumption"); ("compilers", l_obj "Compiler"); ("category", o_lit); ("generatedArtifacts", l_obj "DependencyOnArtifact"); ("hwElementRefs", tlist [BRef]); ("linkers", l_obj "Linker"); ("longName", o_obj "MultilanguageLongName"); ("mcSupport", o_obj "McSupportData"); ("usedCodeGenerator", o_lit); ("uuid", o_str); ("vendorId", o_num); ("variationPoint", o_obj "VariationPoint"); ("elements/Code", l_obj "Code"); ("annotations", l_obj "Annotation"); ("adminData", o_obj "AdminData"); ("introduction", o_obj "DocumentationBlock"); ("desc", o_obj "MultiLanguageOverviewParagraph"); ("timestamp", o_str)]);
  ("SwcInternalBehavior", [("short_name", o_str); ("shortNameFragments", l_obj "ShortNameFragment"); ("sharedParameters", l_obj "ParameterDataPrototype"); ("supportsMultipleInstantiation", o_bool); ("staticMemories", l_obj "VariableDataPrototype"); ("arTypedPerInstanceMemories", l_obj "VariableDataPrototype"); ("annotations", l_obj "Annotation"); ("adminData", o_obj "AdminData"); ("exclusiveAreaPolicies", l_obj "SwcExclusiveAreaPolicy"); ("explicitInterRunnableVariables", l_obj "VariableDataPrototype"); ("elements/RTEEvent", tlist [BObj "DataSendCompletedEvent"; BObj "BackgroundEvent"; BObj "ModeSwitchedAckEvent"; BObj "AsynchronousServerCallReturnsEvent"; BObj "InitEvent"; BObj "InternalTriggerOccurredEvent"; BObj "DataReceivedEvent"; BObj "OperationInvokedEvent"; BObj "SwcModeSwitchEvent"; BObj "TimingEvent"]); ("elements/RunnableEntity", l_obj "RunnableEntity"); ("elements/SwcServiceDependency", l_obj "SwcServiceDependency"); ("elements/ExclusiveArea", l_obj "ExclusiveArea"); ("elements/ExclusiveAreaNestingOrder", l_obj "ExclusiveAreaNestingOrder"); ("handleTerminationAndRestart", o_lit); ("includedModeDeclarationGroupSets", l_obj "IncludedModeDeclarationGroupSet"); ("instantiationDataDefProps", l_obj "InstantiationDataDefProps"); ("introduction", o_obj "DocumentationBlock"); ("perInstanceMemories", l_obj "PerInstanceMemory"); ("perInstanceParameters", l_obj "ParameterDataPrototype"); ("portAPIOptions", l_obj "PortAPIOption"); ("variationPoint", o_obj "VariationPoint"); ("variationPointProxies", l_obj "VariationPointProxy"); ("constantMemories", l_obj "ParameterDataPrototype"); ("category", o_lit); ("dataTypeMappingRefs", tlist [BRef]); ("desc", o_obj "MultiLanguageOverviewParagraph"); ("longName", o_obj "MultilanguageLongName"); ("timestamp", o_str); ("uuid", o_str)]);
  ("SwcBswMapping", [("short_name", o_str); ("shortNameFragments", l_obj "ShortNameFragment"); ("swcBehaviorRef", o_ref); ("synchronizedModeGroups", l_obj "SwcBswSynchronizedModeGroupPrototype"); ("synchronizedTriggers", l_obj "SwcBswSynchronizedTrigger"); ("bswBehaviorRef", o_ref); ("runnableMappings", l_obj "SwcBswRunnableMapping"); ("annotations", l_obj "Annotation"); ("adminData", o_obj "AdminData"); ("category", o_lit); ("introduction", o_obj "DocumentationBlock"); ("desc", o_obj "MultiLanguageOverviewParagraph"); ("variationPoint", o_obj "VariationPoint"); ("longName", o_obj "MultilanguageLongName"); ("timestamp", o_str); ("uuid", o_str)]);
  ("SwcBswRunnableMapping", [("bswEntityRef", o_ref); ("swcRunnableRef", o_ref)]);
  ("SwcBswSynchronizedModeGroupPrototype", [("bswModeGroupRef", o_ref); ("swcModeGroupIRef", o_obj "PModeGroupInAtomicSwcInstanceRef")]);
  ("SwcBswSynchronizedTrigger", [("bswTriggerRef", o_ref); ("swcTriggerIRef", o_obj "PTriggerInAtomicSwcTypeInstanceRef")]);
  ("SwcTiming", [("short_name", o_str); ("shortNameFragments", l_obj "ShortNameFragment"); ("timing_requirements", l_obj "ExecutionOrderConstraint"); ("timestamp", o_str); ("annotations", l_obj "Annotation"); ("adminData", o_obj "AdminData"); ("category", o_lit); ("introduction", o_obj "DocumentationBlock"); ("desc", o_obj "MultiLanguageOverviewParagraph"); ("variationPoint", o_obj "VariationPoint"); ("longName", o_obj "MultilanguageLongName"); ("uuid", o_str)]);
  ("SwcToEcuMapping", [("short_name", o_str); ("shortNameFragments", l_obj "ShortNameFragment"); ("componentIRefs", l_obj "ComponentInSystemInstanceRef"); ("category", o_lit); ("ecuInstanceRef", o_ref); ("annotations", l_obj "Annotation"); ("adminData", o_obj "AdminData"); ("introduction", o_obj "DocumentationBlock"); ("desc", o_obj "MultiLanguageOverviewParagraph"); ("variationPoint", o_obj "VariationPoint"); ("longName", o_obj "MultilanguageLongName"); ("timestamp", o_str); ("uuid", o_str)]);
  ("SwcToImplMapping", [("short_name", o_str); ("shortNameFragments", l_obj "ShortNameFragment"); ("componentIRefs", l_obj "ComponentInSystemInstanceRef"); ("componentImplementationRef", o_ref); ("category", o_lit); ("annotations", l_obj "Annotation"); ("adminData", o_obj "AdminData"); ("introduction", o_obj "DocumentationBlock"); ("desc", o_obj "MultiLanguageOverviewParagraph"); ("variationPoint", o_obj "VariationPoint"); ("longName", o_obj "MultilanguageLongName"); ("timestamp", o_str); ("uuid", o_str)]);
  ("SwcModeSwitchEvent", [("short_name", o_str); ("shortNameFragments", l_obj "ShortNameFragment"); ("startOnEventRef", o_ref); ("activation", o_lit); ("activationReasonRepresentationRef", o_ref); ("annotations", l_obj "Annotation"); ("adminData", o_obj "AdminData"); ("modeIRefs", l_obj "RModeInAtomicSwcInstanceRef"); ("disabledModeIRefs", l_obj "RModeInAtomicSwcInstanceRef"); ("desc", o_obj "MultiLanguageOverviewParagraph"); ("category", o_lit); ("introduction", o_obj "DocumentationBlock"); ("variationPoint", o_obj "VariationPoint"); ("longName", o_obj "MultilanguageLongName"); ("timestamp", o_str); ("uuid", o_str)]);
  ("SwcExclusiveAreaPolicy", [("apiPrinciple", o_lit); ("exclusiveAreaRef", o_ref)]);
  ("SwcServiceDependency", [("short_name", o_str); ("shortNameFragments", l_obj "ShortNameFragment"); ("symbolicNameProps", o_obj "SymbolicNameProps"); ("assignedData", l_obj "RoleBasedDataAssignment"); ("assignedDataTypes", l_obj "RoleBasedDataTypeAssignment"); ("assignedPort", l_obj "RoleBasedPortAssignment"); ("annotations", l_obj "Annotation"); ("adminData", o_obj "AdminData"); ("representedPortGroup", o_ref); ("elements/ServiceNeeds", tlist [BObj "IdsMgrNeeds"; BObj "SecureOnBoardCommunicationNeeds"; BObj "DoIpRoutingActivationConfirmationNeeds"; BObj "DoIpRoutingActivationAuthenticationNeeds"; BObj "ObdRatioDenominatorNeeds"; BObj "ObdRatioServiceNeeds"; BObj "ObdControlServiceNeeds"; BObj "ObdPidServiceNeeds"; BObj "ObdMonitorServiceNeeds"; BObj "ObdInfoServiceNeeds"; BObj "FunctionInhibitionAvailabilityNeeds"; BObj "IndicatorStatusNeeds"; BObj "DiagnosticStorageConditionNeeds"; BObj "DiagnosticOperationCycleNeeds"; BObj "DiagnosticEnableConditionNeeds"; BObj "ErrorTracerNeeds"; BObj "ComMgrUserNeeds"; BObj "DltUserNeeds"; BObj "DtcStatusChangeNotificationNeeds"; BObj "EcuStateMgrUserNeeds"; BObj "CryptoServiceNeeds"; BObj "DiagnosticIoControlNeeds"; BObj "DiagnosticEventInfoNeeds"; BObj "DiagnosticEventNeeds"; BObj "DiagnosticValueNeeds"; BObj "DiagnosticRoutineNeeds"; BObj "DiagnosticCommunicationManagerNeeds"; BObj "NvBlockNeeds"]); ("category", o_lit); ("introduction", o_obj "DocumentationBlock"); ("desc", o_obj "MultiLanguageOverviewParagraph"); ("variationPoint", o_obj "VariationPoint"); ("longName", o_obj "MultilanguageLongName"); ("timestamp", o_str); ("uuid", o_str)]);
  ("SwBaseType", [("short_name", o_str); ("shortNameFragments", l_obj "ShortNameFragment"); ("annotations", l_obj "Annotation"); ("adminData", o_obj "AdminData"); ("category", o_lit); ("introduction", o_obj "DocumentationBlock"); ("desc", o_obj "MultiLanguageOverviewParagraph"); ("variationPoint", o_obj "VariationPoint"); ("longName", o_obj "MultilanguageLongName"); ("timestamp", o_str); ("uuid", o_str)]);
  ("SwBitRepresentation", [("bitPosition", o_num); ("numberOfBits", o_num)]);
  ("SwRecordLayout", [("short_name", o_str); ("shortNameFragments", l_obj "ShortNameFragment"); ("swRecordLayoutGroup", o_obj "SwRecordLayoutGroup"); ("annotations", l_obj "Annotation"); ("adminData", o_obj "AdminData"); ("category", o_lit); ("introduction", o_obj "DocumentationBlock"); ("desc", o_obj "MultiLanguageOverviewParagraph"); ("variationPoint", o_obj "VariationPoint"); ("longName", o_obj "MultilanguageLongName"); ("timestamp", o_str); ("uuid", o_str)]);
  ("SwRecordLayoutGroup", [("category", o_lit); ("shortLabel", o_lit); ("swRecordLayoutGroupAxis", o_lit); ("swRecordLayoutGroupContentType", o_obj "SwRecordLayoutGroupContent"); ("swRecordLayoutGroupFrom", o_lit); ("swRecordLayoutGroupIndex", o_lit); ("swRecordLayoutGroupStep", o_num); ("swRecordLayoutGroupTo", o_lit)]);
  ("SwRecordLayoutGroupContent", [("swRecordLayoutGroup", o_obj "SwRecordLayoutGroup"); ("swRecordLayoutV", o_obj "SwRecordLayoutV")]);
  ("SwRecordLayoutV", [("baseTypeRef", o_ref); ("shortLabel", o_lit); ("swRecordLayoutVAxis", o_lit); ("swRecordLayoutVIndex", o_lit); ("swRecordLayoutVProp", o_lit)]);
  ("SwAddrMethod", [("short_name", o_str); ("shortNameFragments", l_obj "ShortNameFragment"); ("sectionInitializationPolicy", o_lit); ("sectionType", o_lit); ("memoryAllocationKeywordPolicy", o_lit); ("options", tlist [BLit]); ("annotations", l_obj "Annotation"); ("adminData", o_obj "AdminData"); ("category", o_lit); ("introduction", o_obj "DocumentationBlock"); ("desc", o_obj "MultiLanguageOverviewParagraph"); ("variationPoint", o_obj "VariationPoint"); ("longName", o_obj "MultilanguageLongName"); ("timestamp", o_str); ("uuid", o_str)]);
  ("SwAxisGrouped", [("sharedAxisTypeRef", o_ref); ("maxGradient", o_num); ("monotony", o_lit)]);
  ("SwAxisGeneric", [("swAxisTypeRef", o_ref); ("swGenericAxisParams", l_obj "SwGenericAxisParam"); ("timestamp", o_str); ("uuid", o_str)]);
  ("SwAxisIndividual", [("compuMethodRef", o_ref); ("dataConstrRef", o_ref); ("inputVariableTypeRef", o_ref); ("swAxisGeneric", o_obj "SwAxisGeneric"); ("swMaxAxisPoints", o_num); ("swMinAxisPoints", o_num); ("uuid", o_str); ("maxGradient", o_num); ("monotony", o_lit); ("timestamp", o_str)]);
  ("SwSystemconst", [("short_name", o_str); ("shortNameFragments", l_obj "ShortNameFragment"); ("swDataDefProps", o_obj "SwDataDefProps"); ("annotations", l_obj "Annotation"); ("adminData", o_obj "AdminData"); ("category", o_lit); ("introduction", o_obj "DocumentationBlock"); ("desc", o_obj "MultiLanguageOverviewParagraph"); ("variationPoint", o_obj "VariationPoint"); ("longName", o_obj "MultilanguageLongName"); ("timestamp", o_str); ("uuid", o_str)]);
  ("SwSystemconstantValueSet", [("short_name", o_str); ("shortNameFragments", l_obj "ShortNameFragment"); ("swSystemconstantValues", l_obj "SwSystemconstValue"); ("annotations", l_obj "Annotation"); ("adminData", o_obj "AdminData"); ("category", o_lit); ("introduction", o_obj "DocumentationBlock"); ("desc", o_obj "MultiLanguageOverviewParagraph"); ("variationPoint", o_obj "VariationPoint"); ("longName", o_obj "MultilanguageLongName"); ("timestamp", o_str); ("uuid", o_str)]);
  ("SwSystemconstValue", [("annotations", l_obj "Annotation"); ("swSystemconstRef", o_ref); ("value", o_num)]);
  ("SwServiceArg", [("short_name", o_str); ("shortNameFragments", l_obj "ShortNameFragment"); ("swArraysize", o_obj "ValueList"); ("swDataDefProps", o_obj "SwDataDefProps"); ("direction", o_lit); ("desc", o_obj "MultiLanguageOverviewParagraph"); ("annotations", l_obj "Annotation"); ("adminData", o_obj "AdminData"); ("category", o_lit); ("introduction", o_obj "DocumentationBlock"); ("variationPoint", o_obj "VariationPoint"); ("longName", o_obj "MultilanguageLongName"); ("timestamp", o_str); ("uuid", o_str)]);
  ("SwDataDefProps", [("displayPresentation", o_lit); ("displayFormat", o_lit); ("dataConstrRef", o_ref); ("stepSize", o_num); ("swValueBlockSize", o_num); ("swValueBlockSizeMults", tlist [BNum]); ("swAddrMethodRef", o_ref); ("swAlignment", o_lit); ("swBitRepresentation", o_obj "SwBitRepresentation"); ("swCalibrationAccess", o_lit); ("swCalprmAxisSet", o_obj "SwCalprmAxisSet"); ("swComparisonVariables", l_obj "SwVariableRefProxy"); ("swTextProps", o_obj "SwTextProps"); ("swDataDependency", o_obj "SwDataDependency"); ("swHostVariable", o_obj "SwVariableRefProxy"); ("swImplPolicy", o_lit); ("swIntendedResolution", o_num); ("swInterpolationMethod", o_lit); ("swIsVirtual", o_bool); ("swPointerTargetProps", o_obj "SwPointerTargetProps"); ("swRecordLayoutRef", o_ref); ("swRefreshTiming", o_obj "MultidimensionalTime"); ("annotations", l_obj "Annotation"); ("additionalNativeTypeQualifier", o_lit); ("baseTypeRef", o_ref); ("compuMethodRef", o_ref); ("implementationDataTypeRef", o_ref); ("invalidValue", tbase [BObj "ApplicationRuleBasedValueSpecification"; BObj "ApplicationValueSpecification"; BObj "ConstantReference"; BObj "TextValueSpecification"; BObj "ArrayValueSpecification"; BObj "NumericalValueSpecification"; BObj "RecordValueSpecification"; BObj "CompositeRuleBasedValueSpecification"; BNone]); ("unitRef", o_ref); ("uuid", o_str); ("valueAxisDataTypeRef", o_ref); ("timestamp", o_str)]);
  ("SwDataDependency", [("swDataDependencyFormula", o_obj "CompuGenericMath"); ("swDataDependencyArgs", o_obj "SwDataDependencyArgs")]);
  ("SwDataDependencyArgs", [("swCalprmRef", o_obj "SwCalprmRefProxy"); ("swVariable", o_obj "SwVariableRefProxy")]);
  ("SwComponentPrototype", [("short_name", o_str); ("shortNameFragments", l_obj "ShortNameFragment"); ("typeTRef", o_ref); ("timestamp", o_str); ("annotations", l_obj "Annotation"); ("adminData", o_obj "AdminData"); ("category", o_lit); ("introduction", o_obj "DocumentationBlock"); ("desc", o_obj "MultiLanguageOverviewParagraph"); ("variationPoint", o_obj "VariationPoint"); ("longName", o_obj "MultilanguageLongName"); ("uuid", o_str)]);
  ("SwComponentDocumentation", [("chapters", l_obj "Chapter"); ("swCalibrationNotes", o_obj "Chapter"); ("swCarbDoc", o_obj "Chapter"); ("swDiagnosticsNotes", o_obj "Chapter"); ("swFeatureDef", o_obj "Chapter"); ("swFeatureDesc", o_obj "Chapter"); ("swMaintenanceNotes", o_obj "Chapter"); ("swTestDesc", o_obj "Chapter")]);
  ("SwCalprmAxis", [("category", o_lit); ("displayFormat", o_lit); ("swAxisIndex", o_lit); ("swCalibrationAccess", o_lit); ("swCalprmAxisTypeProps", tbase [BObj "SwAxisGrouped"; BObj "SwAxisIndividual"; BNone])]);
  ("SwCalprmAxisSet", [("_swCalprmAxis", l_obj "SwCalprmAxis")]);
  ("SwCalprmRefProxy", [("arParameter", o_obj "AutosarParameterRef"); ("mcDataInstanceRef", o_ref)]);
  ("SwValueCont", [("swArraysize", o_obj "ValueList"); ("swValuesPhys", o_obj "SwValues"); ("unitRef", o_ref); ("uuid", o_str); ("timestamp", o_str)]);
  ("SwValues", [("_v", tlist [BNum]); ("vt", o_lit); ("timestamp", o_str); ("uuid", o_str)]);
  ("SwVariableRefProxy", [("autosarVariable", o_obj "AutosarVariableRef"); ("mcDataInstanceVarRef", o_ref)]);
  ("SwPointerTargetProps", [("functionPointerSignatureRef", o_ref); ("swDataDefProps", o_obj "SwDataDefProps"); ("targetCategory", o_lit)]);
  ("SwTextProps", [("arraySizeSemantics", o_lit); ("baseTypeRef", o_ref); ("swFillCharacter", o_num); ("swMaxTextSize", o_num)]);
  ("SwGenericAxisParam", [("swGenericAxisParamTypeRef", o_ref); ("vfs", tlist [BNum]); ("timestamp", o_str); ("uuid", o_str)]);
  ("SenderReceiverInterface", [("short_name", o_str); ("shortNameFragments", l_obj "ShortNameFragment"); ("invalidationPolicies", l_obj "InvalidationPolicy"); ("introduction", o_obj "DocumentationBlock"); ("isService", o_bool); ("elements/VariableDataPrototype", l_obj "VariableDataPrototype"); ("annotations", l_obj "Annotation"); ("adminData", o_obj "AdminData"); ("category", o_lit); ("desc", o_obj "MultiLanguageOverviewParagraph"); ("variationPoint", o_obj "VariationPoint"); ("longName", o_obj "MultilanguageLongName"); ("timestamp", o_str); ("uuid", o_str)]);
  ("SenderReceiverToSignalMapping", [("communicationDirection", o_lit); ("dataElementIRef", o_obj "VariableDataPrototypeInSystemInstanceRef"); ("systemSignalRef", o_ref)]);
  ("SenderReceiverToSignalGroupMapping", [("dataElementIRef", o_obj "VariableDataPrototypeInSystemInstanceRef"); ("signalGroupRef", o_ref); ("typeMapping", o_obj "SenderRecRecordTypeMapping")]);
  ("SenderReceiverAnnotation", [("computed", o_bool); ("dataElementRef", o_ref); ("limitKind", o_lit); ("processingKind", o_lit)]);
  ("SenderRecRecordTypeMapping", [("recordElementMappings", l_obj "SenderRecRecordElementMapping"); ("timestamp", o_str); ("uuid", o_str)]);
  ("SenderRecRecordElementMapping", [("applicationRecordElementRef", o_ref); ("implementationRecordElementRef", o_ref); ("systemSignalRef", o_ref); ("timestamp", o_str); ("uuid", o_str)]);
  ("SensorActuatorSwComponentType", [("short_name", o_str); ("shortNameFragments", l_obj "ShortNameFragment"); ("sensorActuatorRef", o_ref); ("symbolProps", o_obj "SymbolProps"); ("swcMappingConstraintsRefs", tlist [BRef]); ("swComponentDocumentation", o_obj "SwComponentDocumentation"); ("internalBehavior", o_obj "SwcInternalBehavior"); ("introduction", o_obj "DocumentationBlock"); ("consistencyNeeds", l_obj "ConsistencyNeeds"); ("category", o_lit); ("ports", tlist [BObj "PRPortPrototype"; BObj "RPortPrototype"; BObj "PPortPrototype"]); ("portGroups", l_obj "PortGroup"); ("unitGroupRefs", tlist [BRef]); ("uuid", o_str); ("annotations", l_obj "Annotation"); ("adminData", o_obj "AdminData"); ("desc", o_obj "MultiLanguageOverviewParagraph"); ("variationPoint", o_obj "VariationPoint"); ("longName", o_obj "MultilanguageLongName"); ("timestamp", o_str)]);
  ("ServiceSwComponentType", [("short_name", o_str); ("shortNameFragments", l_obj "ShortNameFragment"); ("symbolProps", o_obj "SymbolProps"); ("swcMappingConstraintsRefs", tlist [BRef]); ("swComponentDocumentation", o_obj "SwComponentDocumentation"); ("internalBehavior", o_obj "SwcInternalBehavior"); ("introduction", o_obj "DocumentationBlock"); ("consistencyNeeds", l_obj "ConsistencyNeeds"); ("category", o_lit); ("ports", tlist [BObj "PRPortPrototype"; BObj "RPortPrototype"; BObj "PPortPrototype"]); ("portGroups", l_obj "PortGroup"); ("unitGroupRefs", tlist [BRef]); ("uuid", o_str); ("annotations", l_obj "Annotation"); ("adminData", o_obj "AdminData"); ("desc", o_obj "MultiLanguageOverviewParagraph"); ("variationPoint", o_obj "VariationPoint"); ("longName", o_obj "MultilanguageLongName"); ("timestamp", o_str)]);
  ("ServiceProxySwComponentType", [("short_name", o_str); ("shortNameFragments", l_obj "ShortNameFragment"); ("symbolProps", o_obj "SymbolProps"); ("swcMappingConstraintsRefs", tlist [BRef]); ("swComponentDocumentation", o_obj "SwComponentDocumentation"); ("internalBehavior", o_obj "SwcInternalBehavior"); ("introduction", o_obj "DocumentationBlock"); ("consistencyNeeds", l_obj "ConsistencyNeeds"); ("category", o_lit); ("ports", tlist [BObj "PRPortPrototype"; BObj "RPortPrototype"; BObj "PPortPrototype"]); ("portGroups", l_obj "PortGroup"); ("unitGroupRefs", tlist [BRef]); ("uuid", o_str); ("annotations", l_obj "Annotation"); ("adminData", o_obj "AdminData"); ("desc", o_obj "MultiLanguageOverviewParagraph"); ("variationPoint", o_obj "VariationPoint"); ("longName", o_obj "MultilanguageLongName"); ("timestamp", o_str)]);
  ("ServerComSpec", [("operationRef", o_ref); ("queueLength", o_num); ("transformationComSpecProps", tlist [BObj "UserDefinedTransformationComSpecProps"; BObj "EndToEndTransformationComSpecProps"]); ("timestamp", o_str); ("uuid", o_str)]);
  ("SecuredIPdu", [("short_name", o_str); ("shortNameFragments", l_obj "ShortNameFragment"); ("secureCommunicationProps", o_obj "SecureCommunicationProps"); ("authenticationPropsRef", o_ref); ("annotations", l_obj "Annotation"); ("adminData", o_obj "AdminData"); ("desc", o_obj "MultiLanguageOverviewParagraph"); ("freshnessPropsRef", o_ref); ("payloadRef", o_ref); ("useAsCryptographicIPdu", o_bool); ("uuid", o_str); ("containedIPduProps", o_obj "ContainedIPduProps"); ("category", o_lit); ("hasDynamicLength", o_bool); ("length", o_num); ("longName", o_obj "MultilanguageLongName"); ("introduction", o_obj "DocumentationBlock"); ("variationPoint", o_obj "VariationPoint"); ("timestamp", o_str)]);
  ("SecureCommunicationProps", [("authDataFreshnessLength", o_num); ("authDataFreshnessStartPosition", o_num); ("authenticationBuildAttempts", o_num); ("authenticationRetries", o_num); ("dataId", o_num); ("freshnessValueId", o_num); ("messageLinkLength", o_num); ("messageLinkPosition", o_num); ("secondaryFreshnessValueId", o_num); ("securedAreaLength", o_num); ("securedAreaOffset", o_num)]);
  ("SecureCommunicationPropsSet", [("short_name", o_str); ("shortNameFragments", l_obj "ShortNameFragment"); ("authenticationProps", l_obj "SecureCommunicationAuthenticationProps"); ("annotations", l_obj "Annotation"); ("adminData", o_obj "AdminData"); ("freshnessProps", l_obj "SecureCommunicationFreshnessProps"); ("category", o_lit); ("introduction", o_obj "DocumentationBlock"); ("desc", o_obj "MultiLanguageOverviewParagraph"); ("variationPoint", o_obj "VariationPoint"); ("longName", o_obj "MultilanguageLongName"); ("timestamp", o_str); ("uuid", o_str)]);
  ("SecureCommunicationFreshnessProps", [("short_name", o_str); ("shortNameFragments", l_obj "ShortNameFragment"); ("freshnessCounterSyncAttempts", o_num); ("freshnessTimestampTimePeriodFactor", o_num); ("freshnessValueLength", o_num); ("freshnessValueTxLength", o_num); ("useFreshnessTimestamp", o_bool); ("uuid", o_str); ("annotations", l_obj "Annotation"); ("adminData", o_obj "AdminData"); ("category", o_lit); ("introduction", o_obj "DocumentationBlock"); ("desc", o_obj "MultiLanguageOverviewParagraph"); ("variationPoint", o_obj "VariationPoint"); ("longName", o_obj "MultilanguageLongName"); ("timestamp", o_str)]);
  ("SecureCommunicationAuthenticationProps", [("short_name", o_str); ("shortNameFragments", l_obj "ShortNameFragment"); ("authInfoTxLength", o_num); ("annotations", l_obj "Annotation"); ("adminData", o_obj "AdminData"); ("category", o_lit); ("introduction", o_obj "DocumentationBlock"); ("desc", o_obj "MultiLanguageOverviewParagraph"); ("variationPoint", o_obj "VariationPoint"); ("longName", o_obj "MultilanguageLongName"); ("timestamp", o_str); ("uuid", o_str)]);
  ("SecureOnBoardCommunicationNeeds", [("short_name", o_str); ("shortNameFragments", l_obj "ShortNameFragment"); ("verificationStatusIndicationMode", o_lit); ("variationPoint", o_obj "VariationPoint"); ("annotations", l_obj "Annotation"); ("adminData", o_obj "AdminData"); ("category", o_lit); ("introduction", o_obj "DocumentationBlock"); ("desc", o_obj "MultiLanguageOverviewParagraph"); ("longName", o_obj "MultilanguageLongName"); ("timestamp", o_str); ("uuid", o_str)]);
  ("SectionNamePrefix", [("short_name", o_str); ("shortNameFragments", l_obj "ShortNameFragment"); ("implementedInRef", o_ref); ("timestamp", o_str); ("uuid", o_str)]);
  ("SegmentPosition", [("segmentByteOrder", o_lit); ("segmentLength", o_num); ("segmentPosition", o_num)]);
  ("System", [("short_name", o_str); ("shortNameFragments", l_obj "ShortNameFragment"); ("systemVersion", o_lit); ("category", o_lit); ("ecuExtractVersion", o_lit); ("elements/SystemMapping", l_obj "SystemMapping"); ("fibexElements", tlist [BRef]); ("introduction", o_obj "DocumentationBlock"); ("rootSoftwareComposition", o_obj "RootSwCompositionPrototype"); ("annotations", l_obj "Annotation"); ("adminData", o_obj "AdminData"); ("desc", o_obj "MultiLanguageOverviewParagraph"); ("variationPoint", o_obj "VariationPoint"); ("longName", o_obj "MultilanguageLongName"); ("timestamp", o_str); ("uuid", o_str)]);
  ("SystemSignal", [("short_name", o_str); ("shortNameFragments", l_obj "ShortNameFragment"); ("dynamicLength", o_bool); ("desc", o_obj "MultiLanguageOverviewParagraph"); ("physicalProps", o_obj "SwDataDefProps"); ("annotations", l_obj "Annotation"); ("adminData", o_obj "AdminData"); ("category", o_lit); ("introduction", o_obj "DocumentationBlock"); ("variationPoint", o_obj "VariationPoint"); ("longName", o_obj "MultilanguageLongName"); ("timestamp", o_str); ("uuid", o_str)]);
  ("SystemSignalGroup", [("short_name", o_str); ("shortNameFragments", l_obj "ShortNameFragment"); ("systemSignalRefs", tlist [BRef]); ("transformingSystemSignalRef", o_ref); ("timestamp", o_str); ("annotations", l_obj "Annotation"); ("adminData", o_obj "AdminData"); ("category", o_lit); ("introduction", o_obj "DocumentationBlock"); ("desc", o_obj "MultiLanguageOverviewParagraph"); ("variationPoint", o_obj "VariationPoint"); ("longName", o_obj "MultilanguageLongName"); ("uuid", o_str)]);
  ("SystemMapping", [("short_name", o_str); ("shortNameFragments", l_obj "ShortNameFragment"); ("swImplMappings", l_obj "SwcToImplMapping"); ("swMappings", l_obj "SwcToEcuMapping"); ("annotations", l_obj "Annotation"); ("adminData", o_obj "AdminData"); ("category", o_lit); ("dataMappings", tlist [BObj "SenderReceiverToSignalGroupMapping"; BObj "SenderReceiverToSignalMapping"]); ("desc", o_obj "MultiLanguageOverviewParagraph"); ("ecuResourceMappings", l_obj "ECUMapping"); ("introduction", o_obj "DocumentationBlock"); ("variationPoint", o_obj "VariationPoint"); ("longName", o_obj "MultilanguageLongName"); ("timestamp", o_str); ("uuid", o_str)]);
  ("SymbolProps", [("short_name", o_str); ("shortNameFragments", l_obj "ShortNameFragment"); ("symbol", o_lit); ("timestamp", o_str); ("uuid", o_str)]);
  ("SymbolicNameProps", [("short_name", o_str); ("shortNameFragments", l_obj "ShortNameFragment"); ("symbol", o_lit); ("timestamp", o_str); ("uuid", o_str)]);
  ("SynchronousServerCallPoint", [("short_name", o_str); ("shortNameFragments", l_obj "ShortNameFragment"); ("category", o_lit); ("operationIRef", o_obj "ROperationInAtomicSwcInstanceRef"); ("timeout", o_num); ("timestamp", o_str); ("annotations", l_obj "Annotation"); ("adminData", o_obj "AdminData"); ("introduction", o_obj "DocumentationBlock"); ("desc", o_obj "MultiLanguageOverviewParagraph"); ("variationPoint", o_obj "VariationPoint"); ("longName", o_obj "MultilanguageLongName"); ("uuid", o_str)]);
  ("SignalServiceTranslationProps", [("short_name", o_str); ("shortNameFragments", l_obj "ShortNameFragment"); ("serviceControl", o_lit); ("signalServiceTranslationEventProps", l_obj "SignalServiceTranslationEventProps"); ("controlConsumedEventGroupRefs", tlist [BRef]); ("controlPncRefs", tlist [BRef]); ("controlProvidedEventGroupRefs", tlist [BRef]); ("category", o_lit); ("annotations", l_obj "Annotation"); ("adminData", o_obj "AdminData"); ("introduction", o_obj "DocumentationBlock"); ("desc", o_obj "MultiLanguageOverviewParagraph"); ("variationPoint", o_obj "VariationPoint"); ("longName", o_obj "MultilanguageLongName"); ("timestamp", o_str); ("uuid", o_str)]);
  ("SignalServiceTranslationPropsSet", [("short_name", o_str); ("shortNameFragments", l_obj "ShortNameFragment"); ("signalServiceTranslationProps", l_obj "SignalServiceTranslationProps"); ("annotations", l_obj "Annotation"); ("adminData", o_obj "AdminData"); ("category", o_lit); ("introduction", o_obj "DocumentationBlock"); ("desc", o_obj "MultiLanguageOverviewParagraph"); ("variationPoint", o_obj "VariationPoint"); ("longName", o_obj "MultilanguageLongName"); ("timestamp", o_str); ("uuid", o_str)]);
  ("SignalServiceTranslationEventProps", [("short_name", o_str); ("shortNameFragments", l_obj "ShortNameFragment"); ("safeTranslation", o_bool); ("secureTranslation", o_bool); ("elementProps", l_obj "SignalServiceTranslationElementProps"); ("translationTarget", o_obj "VariableDataPrototypeInSystemInstanceRef"); ("timestamp", o_str); ("annotations", l_obj "Annotation"); ("adminData", o_obj "AdminData"); ("category", o_lit); ("introduction", o_obj "DocumentationBlock"); ("desc", o_obj "MultiLanguageOverviewParagraph"); ("variationPoint", o_obj "VariationPoint"); ("longName", o_obj "MultilanguageLongName"); ("uuid", o_str)]);
  ("SignalServiceTranslationElementProps", [("short_name", o_str); ("shortNameFragments", l_obj "ShortNameFragment"); ("filter", o_obj "DataFilter"); ("transmissionTrigger", o_bool); ("timestamp", o_str); ("annotations", l_obj "Annotation"); ("adminData", o_obj "AdminData"); ("category", o_lit); ("introduction", o_obj "DocumentationBlock"); ("desc", o_obj "MultiLanguageOverviewParagraph"); ("variationPoint", o_obj "VariationPoint"); ("longName", o_obj "MultilanguageLongName"); ("uuid", o_str)]);
  ("SimulatedExecutionTime", [("short_name", o_str); ("shortNameFragments", l_obj "ShortNameFragment"); ("softwareContext", o_obj "SoftwareContext"); ("maximumExecutionTime", o_obj "MultidimensionalTime"); ("minimumExecutionTime", o_obj "MultidimensionalTime"); ("memorySectionLocations", l_obj "MemorySectionLocation"); ("nominalExecutionTime", o_obj "MultidimensionalTime"); ("exclusiveAreaRef", o_ref); ("executableEntityRef", o_ref); ("hardwareConfiguration", o_obj "HardwareConfiguration"); ("hwElementRef", o_ref); ("includedLibraryRefs", tlist [BRef]); ("introduction", o_obj "DocumentationBlock"); ("annotations", l_obj "Annotation"); ("adminData", o_obj "AdminData"); ("category", o_lit); ("desc", o_obj "MultiLanguageOverviewParagraph"); ("variationPoint", o_obj "VariationPoint"); ("longName", o_obj "MultilanguageLongName"); ("timestamp", o_str); ("uuid", o_str)]);
  ("SoAdRoutingGroup", [("short_name", o_str); ("shortNameFragments", l_obj "ShortNameFragment"); ("eventGroupControlType", o_lit); ("annotations", l_obj "Annotation"); ("adminData", o_obj "AdminData"); ("category", o_lit); ("introduction", o_obj "DocumentationBlock"); ("desc", o_obj "MultiLanguageOverviewParagraph"); ("variationPoint", o_obj "VariationPoint"); ("longName", o_obj "MultilanguageLongName"); ("timestamp", o_str); ("uuid", o_str)]);
  ("SoAdConfig", [("connectionBundles", l_obj "SocketConnectionBundle"); ("socketAddresses", l_obj "SocketAddress")]);
  ("SoftwareContext", [("input", o_lit); ("state", o_lit)]);
  ("SocketAddress", [("short_name", o_str); ("shortNameFragments", l_obj "ShortNameFragment"); ("applicationEndpoint", o_obj "ApplicationEndpoint"); ("annotations", l_obj "Annotation"); ("adminData", o_obj "AdminData"); ("connectorRef", o_ref); ("category", o_lit); ("desc", o_obj "MultiLanguageOverviewParagraph"); ("multicastConnectorRefs", tlist [BRef]); ("portAddress", o_num); ("uuid", o_str); ("introduction", o_obj "DocumentationBlock"); ("variationPoint", o_obj "VariationPoint"); ("longName", o_obj "MultilanguageLongName"); ("timestamp", o_str)]);
  ("SocketConnection", [("clientIpAddrFromConnectionRequest", o_bool); ("clientPortRef", o_ref); ("clientPortFromConnectionRequest", o_bool); ("pdus", l_obj "SocketConnectionIpduIdentifier"); ("pduCollectionMaxBufferSize", o_num); ("pduCollectionTimeout", o_num); ("runtimeIpAddressConfiguration", o_lit); ("runtimePortConfiguration", o_lit); ("shortLabel", o_lit)]);
  ("SocketConnectionBundle", [("short_name", o_str); ("serverPortRef", o_ref); ("bundledConnections", l_obj "SocketConnection")]);
  ("SocketConnectionIpduIdentifier", [("headerId", o_num); ("pduCollectionSemantics", o_lit); ("pduCollectionTrigger", o_lit); ("pduTriggeringRef", o_ref); ("PduRef", o_ref)]);
  ("StaticPart", [("iPduRef", o_ref); ("segmentPositions", l_obj "SegmentPosition")]);
  ("StructuredReq", [("date", o_lit); ("description", o_obj "DocumentationBlock"); ("dependencies", o_obj "DocumentationBlock"); ("importance", o_lit); ("issuedBy", o_lit); ("type", o_lit); ("testedItemRefs", tlist [BRef; BRef]); ("timestamp", o_str); ("rationale", o_obj "DocumentationBlock"); ("remark", o_obj "DocumentationBlock"); ("useCase", o_obj "DocumentationBlock"); ("uuid", o_str); ("conflicts", o_obj "DocumentationBlock"); ("supportingMaterial", o_obj "DocumentationBlock")]);
  ("ShortNameFragment", [("role", o_str); ("fragment", o_lit); ("timestamp", o_str); ("uuid", o_str)]);
  ("ScaleConstr", [("desc", o_obj "MultiLanguageOverviewParagraph"); ("lowerLimit", tbase [BLimit; BNone]); ("shortLabel", o_lit); ("upperLimit", tbase [BLimit; BNone]); ("uuid", o_str); ("validity", tbase [BLit; BLit; BNone]); ("timestamp", o_str)]);
  ("SubElementMapping", [("firstElement", o_obj "ApplicationCompositeElementInPortInterfaceInstanceRef"); ("secondElement", o_obj "ApplicationCompositeElementInPortInterfaceInstanceRef"); ("textTableMappings", l_obj "TextTableMapping")]);
  ("SupervisedEntityNeeds", [("short_name", o_str); ("shortNameFragments", l_obj "ShortNameFragment"); ("activateAtStart", o_bool); ("annotations", l_obj "Annotation"); ("adminData", o_obj "AdminData"); ("checkpointsRefs", tlist [BRef]); ("category", o_lit); ("enableDeactivation", o_bool); ("expectedAliveCycle", o_num); ("maxAliveCycle", o_num); ("minAliveCycle", o_num); ("toleratedFailedCycles", o_num); ("timestamp", o_str); ("introduction", o_obj "DocumentationBlock"); ("desc", o_obj "MultiLanguageOverviewParagraph"); ("variationPoint", o_obj "VariationPoint"); ("longName", o_obj "MultilanguageLongName"); ("uuid", o_str)]);
  ("ReferenceBase", [("isDefault", o_bool); ("isGlobal", o_bool); ("BaseIsThisPackage", o_bool); ("packageRef", o_ref); ("shortLabel", o_lit)]);
  ("RecordValueSpecification", [("fields", tlist [BObj "ApplicationRuleBasedValueSpecification"; BObj "ApplicationValueSpecification"; BObj "ConstantReference"; BObj "TextValueSpecification"; BObj "ArrayValueSpecification"; BObj "NumericalValueSpecification"; BObj "RecordValueSpecification"; BObj "CompositeRuleBasedValueSpecification"]); ("shortLabel", o_lit); ("timestamp", o_str); ("uuid", o_str)]);
  ("ReceptionComSpecProps", [("dataUpdatePeriod", o_num); ("timeout", o_num); ("timestamp", o_str); ("uuid", o_str)]);
  ("ResourceConsumption", [("short_name", o_str); ("shortNameFragments", l_obj "ShortNameFragment"); ("accessCountSets", l_obj "AccessCountSet"); ("annotations", l_obj "Annotation"); ("adminData", o_obj "AdminData"); ("elements/AnalyzedExecutionTime+MeasuredExecutionTime+RoughEstimateOfExecutionTime+SimulatedExecutionTime", tlist [BObj "SimulatedExecutionTime"; BObj "RoughEstimateOfExecutionTime"; BObj "MeasuredExecutionTime"; BObj "AnalyzedExecutionTime"]); ("elements/HeapUsage", tlist [BObj "WorstCaseHeapUsage"; BObj "RoughEstimateHeapUsage"; BObj "MeasuredHeapUsage"]); ("elements/MemorySection", l_obj "MemorySection"); ("elements/SectionNamePrefix", l_obj "SectionNamePrefix"); ("elements/StackUsage", tlist [BObj "WorstCaseStackUsage"; BObj "MeasuredStackUsage"; BObj "RoughEstimateStackUsage"]); ("category", o_lit); ("introduction", o_obj "DocumentationBlock"); ("desc", o_obj "MultiLanguageOverviewParagraph"); ("variationPoint", o_obj "VariationPoint"); ("longName", o_obj "MultilanguageLongName"); ("timestamp", o_str); ("uuid", o_str)]);
  ("RequestResponseDelay", [("maxValue", o_num); ("minValue", o_num)]);
  ("RunnableEntity", [("short_name", o_str); ("shortNameFragments", l_obj "ShortNameFragment"); ("symbol", o_lit); ("swAddrMethodRef", o_ref); ("arguments", l_obj "RunnableEntityArgument"); ("activationReasons", l_obj "ExecutableEntityActivationReason"); ("annotations", l_obj "Annotation"); ("adminData", o_obj "AdminData"); ("canBeInvokedConcurrently", o_bool); ("canEnterRefs", tlist [BRef]); ("category", o_lit); ("dataReadAccesses", l_obj "VariableAccess"); ("dataReceivePointByArguments", l_obj "VariableAccess"); ("dataReceivePointByValues", l_obj "VariableAccess"); ("dataSendPoints", l_obj "VariableAccess"); ("dataWriteAccesses", l_obj "VariableAccess"); ("desc", o_obj "MultiLanguageOverviewParagraph"); ("externalTriggeringPoints", l_obj "ExternalTriggeringPoint"); ("exclusiveAreaNestingOrderRefs", tlist [BRef]); ("elements/ParameterAccess", l_obj "ParameterAccess"); ("elements/AsynchronousServerCallResultPoint", l_obj "AsynchronousServerCallResultPoint"); ("elements/ServerCallPoint", tlist [BObj "SynchronousServerCallPoint"; BObj "AsynchronousServerCallPoint"]); ("elements/InternalTriggeringPoint", l_obj "InternalTriggeringPoint"); ("elements/ModeSwitchPoint", l_obj "ModeSwitchPoint"); ("introduction", o_obj "DocumentationBlock"); ("modeAccessPoints", l_obj "ModeAccessPoint"); ("minimumStartInterval", o_num); ("readLocalVariables", l_obj "VariableAccess"); ("reentrancyLevel", o_lit); ("runsInsideRefs", tlist [BRef]); ("waitPoints", l_obj "WaitPoint"); ("writtenLocalVariables", l_obj "VariableAccess"); ("variationPoint", o_obj "VariationPoint"); ("longName", o_obj "MultilanguageLongName"); ("timestamp", o_str); ("uuid", o_str)]);
  ("RunnableEntityGroup", [("short_name", o_str); ("shortNameFragments", l_obj "ShortNameFragment"); ("runnableEntityIRefs", l_obj "RunnableEntityInCompositionInstanceRef"); ("runnableEntityGroupIRefs", l_obj "InnerRunnableEntityGroupInCompositionInstanceRef"); ("annotations", l_obj "Annotation"); ("adminData", o_obj "AdminData"); ("category", o_lit); ("introduction", o_obj "DocumentationBlock"); ("desc", o_obj "MultiLanguageOverviewParagraph"); ("variationPoint", o_obj "VariationPoint"); ("longName", o_obj "MultilanguageLongName"); ("timestamp", o_str); ("uuid", o_str)]);
  ("RunnableEntityInCompositionInstanceRef", [("contextSwComponentPrototypeRefs", tlist [BRef]); ("targetRunnableEntityRef", o_ref)]);
  ("RunnableEntityArgument", [("symbol", o_lit)]);
  ("RuntimeError", [("short_name", o_str); ("shortNameFragments", l_obj "ShortNameFragment"); ("id", o_num); ("introduction", o_obj "DocumentationBlock"); ("annotations", l_obj "Annotation"); ("adminData", o_obj "AdminData"); ("category", o_lit); ("desc", o_obj "MultiLanguageOverviewParagraph"); ("variationPoint", o_obj "VariationPoint"); ("longName", o_obj "MultilanguageLongName"); ("timestamp", o_str); ("uuid", o_str)]);
  ("RuleBasedValueCont", [("ruleBasedValues", o_obj "RuleBasedValueSpecification"); ("swArraysize", o_obj "ValueList"); ("unitRef", o_ref); ("uuid", o_str); ("timestamp", o_str)]);
  ("RuleBasedValueSpecification", [("arguments", l_obj "RuleArguments"); ("maxSizeToFill", o_num); ("rule", o_lit); ("timestamp", o_str); ("uuid", o_str)]);
  ("RuleBasedAxisCont", [("category", o_lit); ("unitRef", o_ref); ("uuid", o_str); ("swArraysize", o_obj "ValueList"); ("swAxisIndex", o_lit); ("ruleBasedValues", o_obj "RuleBasedValueSpecification"); ("timestamp", o_str)]);
  ("RuleArguments", [("v", o_num); ("vf", o_num); ("vt", o_lit); ("vtf", o_obj "NumericalOrText"); ("timestamp", o_str); ("uuid", o_str)]);
  ("RootSwCompositionPrototype", [("short_name", o_str); ("shortNameFragments", l_obj "ShortNameFragment"); ("softwareCompositionTRef", o_ref); ("calibrationParameterValueSetRefs", tlist [BRef]); ("category", o_lit); ("flatMapRef", o_ref); ("annotations", l_obj "Annotation"); ("adminData", o_obj "AdminData"); ("introduction", o_obj "DocumentationBlock"); ("desc", o_obj "MultiLanguageOverviewParagraph"); ("variationPoint", o_obj "VariationPoint"); ("longName", o_obj "MultilanguageLongName"); ("timestamp", o_str); ("uuid", o_str)]);
  ("RoleBasedDataAssignment", [("role", o_lit); ("usedDataElement", o_obj "AutosarVariableRef"); ("usedParameterElement", o_obj "AutosarParameterRef"); ("usedPimRef", o_ref)]);
  ("RoleBasedDataTypeAssignment", [("role", o_lit); ("usedImplementationDataTypeRef", o_ref)]);
  ("RoleBasedPortAssignment", [("portPrototypeRef", o_ref); ("role", o_lit); ("timestamp", o_str); ("uuid", o_str)]);
  ("RoleBasedMcDataAssignment", [("executionContextRefs", tlist [BRef]); ("mcDataInstanceRefs", tlist [BRef]); ("role", o_lit)]);
  ("RoleBasedBswModuleEntryAssignment", [("assignedEntryRef", o_ref); ("role", o_lit)]);
  ("RoughEstimateStackUsage", [("short_name", o_str); ("shortNameFragments", l_obj "ShortNameFragment"); ("softwareContext", o_obj "SoftwareContext"); ("memoryConsumption", o_num); ("executableEntityRef", o_ref); ("hardwareConfiguration", o_obj "HardwareConfiguration"); ("hwElementRef", o_ref); ("annotations", l_obj "Annotation"); ("adminData", o_obj "AdminData"); ("category", o_lit); ("introduction", o_obj "DocumentationBlock"); ("desc", o_obj "MultiLanguageOverviewParagraph"); ("variationPoint", o_obj "VariationPoint"); ("longName", o_obj "MultilanguageLongName"); ("timestamp", o_str); ("uuid", o_str)]);
  ("RoughEstimateHeapUsage", [("short_name", o_str); ("shortNameFragments", l_obj "ShortNameFragment"); ("softwareContext", o_obj "SoftwareContext"); ("memoryConsumption", o_num); ("hardwareConfiguration", o_obj "HardwareConfiguration"); ("hwElementRef", o_ref); ("annotations", l_obj "Annotation"); ("adminData", o_obj "AdminData"); ("category", o_lit); ("introduction", o_obj "DocumentationBlock"); ("desc", o_obj "MultiLanguageOverviewParagraph"); ("variationPoint", o_obj "VariationPoint"); ("longName", o_obj "MultilanguageLongName"); ("timestamp", o_str); ("uuid", o_str)]);
  ("RoughEstimateOfExecutionTime", [("short_name", o_str); ("shortNameFragments", l_obj "ShortNameFragment"); ("softwareContext", o_obj "SoftwareContext"); ("additionalInformation", o_lit); ("adminData", o_obj "AdminData"); ("annotations", l_obj "Annotation"); ("estimatedExecutionTime", o_obj "MultidimensionalTime"); ("exclusiveAreaRef", o_ref); ("executableEntityRef", o_ref); ("hardwareConfiguration", o_obj "HardwareConfiguration"); ("hwElementRef", o_ref); ("includedLibraryRefs", tlist [BRef]); ("introduction", o_obj "DocumentationBlock"); ("memorySectionLocations", l_obj "MemorySectionLocation"); ("category", o_lit); ("desc", o_obj "MultiLanguageOverviewParagraph"); ("variationPoint", o_obj "VariationPoint"); ("longName", o_obj "MultilanguageLongName"); ("timestamp", o_str); ("uuid", o_str)]);
  ("RPortPrototype", [("short_name", o_str); ("shortNameFragments", l_obj "ShortNameFragment"); ("senderReceiverAnnotations", l_obj "SenderReceiverAnnotation"); ("modePortAnnotations", l_obj "ModePortAnnotation"); ("requiredInterfaceTRef", o_ref); ("requiredComSpecs", tlist [BObj "NvRequireComSpec"; BObj "ParameterRequireComSpec"; BObj "ModeSwitchReceiverComSpec"; BObj "QueuedReceiverComSpec"; BObj "ClientComSpec"; BObj "NonqueuedReceiverComSpec"]); ("clientServerAnnotations", l_obj "ClientServerAnnotation"); ("category", o_lit); ("delegatedPortAnnotation", o_obj "DelegatedPortAnnotation"); ("desc", o_obj "MultiLanguageOverviewParagraph"); ("ioHwAbstractionServerAnnotations", l_obj "IoHwAbstractionServerAnnotation"); ("introduction", o_obj "DocumentationBlock"); ("nvDataPortAnnotations", l_obj "NvDataPortAnnotation"); ("parameterPortAnnotations", l_obj "ParameterPortAnnotation"); ("triggerPortAnnotations", l_obj "TriggerPortAnnotation"); ("timestamp", o_str); ("annotations", l_obj "Annotation"); ("adminData", o_obj "AdminData"); ("variationPoint", o_obj "VariationPoint"); ("longName", o_obj "MultilanguageLongName"); ("uuid", o_str)]);
  ("RPortInCompositionInstanceRef", [("contextComponentRef", o_ref); ("targetRPortRef", o_ref); ("timestamp", o_str); ("uuid", o_str)]);
  ("RptSupportData", [("executionContexts", l_obj "RptExecutionContext"); ("rptComponents", l_obj "RptComponent"); ("rptServicePoints", l_obj "RptServicePoint")]);
  ("RptServicePoint", [("short_name", o_str); ("serviceId", o_num); ("symbol", o_lit)]);
  ("RptSwPrototypingAccess", [("rptHookAccess", o_lit); ("rptReadAccess", o_lit); ("rptWriteAccess", o_lit)]);
  ("RptExecutionContext", [("short_name", o_str)]);
  ("RptExecutableEntity", [("short_name", o_str); ("symbol", o_lit); ("rptExecutableEntityEvents", l_obj "RptExecutableEntityEvent"); ("rptReads", l_obj "RoleBasedMcDataAssignment"); ("rptWrites", l_obj "RoleBasedMcDataAssignment")]);
  ("RptExecutableEntityEvent", [("short_name", o_str); ("executionContextRefs", tlist [BRef]); ("mcDataAssignments", l_obj "RoleBasedMcDataAssignment"); ("rptEventId", o_num); ("rptExecutableEntityProperties", o_obj "RptExecutableEntityProperties"); ("rptImplPolicy", o_obj "RptImplPolicy"); ("rptServicePointPostRefs", tlist [BRef]); ("rptServicePointPreRefs", tlist [BRef])]);
  ("RptExecutableEntityProperties", [("maxRptEventId", o_num); ("minRptEventId", o_num); ("rptExecutionControl", o_lit); ("rptServicePoint", o_lit)]);
  ("RptComponent", [("short_name", o_str); ("mcDataAssignments", l_obj "RoleBasedMcDataAssignment"); ("rpImplPolicy", o_obj "RptImplPolicy"); ("rptExecutableEntities", l_obj "RptExecutableEntity")]);
  ("RptImplPolicy", [("rptEnablerImplType", o_lit); ("rptPreparationLevel", o_lit)]);
  ("RteEventInEcuInstanceRef", [("contextRootCompositionRef", o_ref); ("contextAtomicComponentRef", o_ref); ("targetRteEventRef", o_ref)]);
  ("RxIdentifierRange", [("lowerCanId", o_num); ("upperCanId", o_num)]);
  ("RVariableInAtomicSwcInstanceRef", [("contextRPortRef", o_ref); ("targetDataElementRef", o_ref)]);
  ("RModeInAtomicSwcInstanceRef", [("baseRef", o_ref); ("contextModeDeclarationGroupPrototypeRef", o_ref); ("contextPortRef", o_ref); ("targetModeDeclarationRef", o_ref)]);
  ("RModeGroupInAtomicSWCInstanceRef", [("contextRPortRef", o_ref); ("contextPortRef", o_ref); ("targetModeGroupRef", o_ref); ("baseRef", o_ref)]);
  ("ROperationInAtomicSwcInstanceRef", [("contextRPortRef", o_ref); ("targetRequiredOperationRef", o_ref); ("timestamp", o_str); ("uuid", o_str)]);
  ("CompositionSwComponentType", [("short_name", o_str); ("shortNameFragments", l_obj "ShortNameFragment"); ("swcMappingConstraintsRefs", tlist [BRef]); ("swComponentDocumentation", o_obj "SwComponentDocumentation"); ("components", l_obj "SwComponentPrototype"); ("connectors", tlist [BObj "PassThroughSwConnector"; BObj "DelegationSwConnector"; BObj "AssemblySwConnector"]); ("constantValueMappingRefs", tlist [BRef]); ("consistencyNeeds", l_obj "ConsistencyNeeds"); ("category", o_lit); ("dataTypeMappingRefs", tlist [BRef]); ("desc", o_obj "MultiLanguageOverviewParagraph"); ("instantiationRTEEventProps", l_obj "InstantiationTimingEventProps"); ("introduction", o_obj "DocumentationBlock"); ("ports", tlist [BObj "PRPortPrototype"; BObj "RPortPrototype"; BObj "PPortPrototype"]); ("portGroups", l_obj "PortGroup"); ("unitGroupRefs", tlist [BRef]); ("uuid", o_str); ("annotations", l_obj "Annotation"); ("adminData", o_obj "AdminData"); ("variationPoint", o_obj "VariationPoint"); ("longName", o_obj "MultilanguageLongName"); ("timestamp", o_str)]);
  ("CompositeRuleBasedValueSpecification", [("arguments", tlist [BObj "ApplicationRuleBasedValueSpecification"; BObj "ApplicationValueSpecification"; BObj "ConstantReference"; BObj "TextValueSpecification"; BObj "ArrayValueSpecification"; BObj "NumericalValueSpecification"; BObj "RecordValueSpecification"; BObj "CompositeRuleBasedValueSpecification"]); ("compoundPrimitiveArguments", tlist [BObj "ApplicationRuleBasedValueSpecification"; BObj "ApplicationValueSpecification"; BObj "ConstantReference"; BObj "TextValueSpecification"; BObj "ArrayValueSpecification"; BObj "NumericalValueSpecification"; BObj "RecordValueSpecification"; BObj "CompositeRuleBasedValueSpecification"]); ("maxSizeToFill", o_num); ("rule", o_lit); ("shortLabel", o_lit); ("timestamp", o_str); ("uuid", o_str)]);
  ("CompositeNetworkRepresentation", [("leafElementIRef", o_obj "ApplicationCompositeElementInPortInterfaceInstanceRef"); ("networkRepresentation", o_obj "SwDataDefProps")]);
  ("ComponentInSystemInstanceRef", [("baseRef", o_ref); ("contextCompositionRef", o_ref); ("targetComponentRef", o_ref); ("timestamp", o_str); ("uuid", o_str)]);
  ("ComplexDeviceDriverSwComponentType", [("short_name", o_str); ("shortNameFragments", l_obj "ShortNameFragment"); ("symbolProps", o_obj "SymbolProps"); ("swcMappingConstraintsRefs", tlist [BRef]); ("swComponentDocumentation", o_obj "SwComponentDocumentation"); ("hardwareElementRefs", tlist [BRef]); ("internalBehavior", o_obj "SwcInternalBehavior"); ("introduction", o_obj "DocumentationBlock"); ("consistencyNeeds", l_obj "ConsistencyNeeds"); ("category", o_lit); ("ports", tlist [BObj "PRPortPrototype"; BObj "RPortPrototype"; BObj "PPortPrototype"]); ("portGroups", l_obj "PortGroup"); ("unitGroupRefs", tlist [BRef]); ("uuid", o_str); ("annotations", l_obj "Annotation"); ("adminData", o_obj "AdminData"); ("desc", o_obj "MultiLanguageOverviewParagraph"); ("variationPoint", o_obj "VariationPoint"); ("longName", o_obj "MultilanguageLongName"); ("timestamp", o_str)]);
  ("Compu", [("compuContent", o_obj "CompuScales"); ("compuDefaultValue", o_obj "CompuConst"); ("timestamp", o_str); ("uuid", o_str)]);
  ("CompuMethod", [("short_name", o_str); ("shortNameFragments", l_obj "ShortNameFragment"); ("compuInternalToPhys", o_obj "Compu"); ("compuPhysToInternal", o_obj "Compu"); ("category", o_lit); ("desc", o_obj "MultiLanguageOverviewParagraph"); ("unitRef", o_ref); ("uuid", o_str); ("annotations", l_obj "Annotation"); ("adminData", o_obj "AdminData"); ("introduction", o_obj "DocumentationBlock"); ("variationPoint", o_obj "VariationPoint"); ("longName", o_obj "MultilanguageLongName"); ("timestamp", o_str)]);
  ("CompuScale", [("compuScaleContents", tbase [BObj "CompuScaleConstantContents"; BObj "CompuScaleRationalFormula"; BNone]); ("desc", o_obj "MultiLanguageOverviewParagraph"); ("lowerLimit", tbase [BLimit; BNone]); ("mask", o_num); ("shortLabel", o_lit); ("symbol", o_lit); ("upperLimit", tbase [BLimit; BNone]); ("uuid", o_str); ("timestamp", o_str)]);
  ("CompuScales", [("compuScales", l_obj "CompuScale")]);
  ("CompuScaleRationalFormula", [("compuRationalCoeffs", tbase [BObj "CompuRationalCoeffs"])]);
  ("CompuScaleConstantContents", [("compuConst", tbase [BObj "CompuConst"])]);
  ("CompuConst", [("compuConstContentType", tbase [BObj "CompuConstFormulaContent"; BObj "CompuConstNumericContent"; BObj "CompuConstTextContent"; BNone]); ("timestamp", o_str); ("uuid", o_str)]);
  ("CompuConstFormulaContent", [("vf", o_lit)]);
  ("CompuConstNumericContent", [("v", o_num)]);
  ("CompuConstTextContent", [("vt", o_lit)]);
  ("CompuRationalCoeffs", [("compuDenominator", o_obj "CompuNominatorDenominator"); ("compuNumerator", o_obj "CompuNominatorDenominator")]);
  ("CompuNominatorDenominator", [("v", tlist [BStr; BNone])]);
  ("CompuGenericMath", [("level", tbase [BLit; BLit; BNone])]);
  ("Compiler", [("short_name", o_str); ("shortNameFragments", l_obj "ShortNameFragment"); ("name", o_lit); ("options", o_lit); ("vendor", o_lit); ("version", o_lit); ("variationPoint", o_obj "VariationPoint"); ("annotations", l_obj "Annotation"); ("adminData", o_obj "AdminData"); ("category", o_lit); ("introduction", o_obj "DocumentationBlock"); ("desc", o_obj "MultiLanguageOverviewParagraph"); ("longName", o_obj "MultilanguageLongName"); ("timestamp", o_str); ("uuid", o_str)]);
  ("ComMgrUserNeeds", [("short_name", o_str); ("shortNameFragments", l_obj "ShortNameFragment"); ("maxCommMode", o_lit); ("annotations", l_obj "Annotation"); ("adminData", o_obj "AdminData"); ("category", o_lit); ("introduction", o_obj "DocumentationBlock"); ("desc", o_obj "MultiLanguageOverviewParagraph"); ("variationPoint", o_obj "VariationPoint"); ("longName", o_obj "MultilanguageLongName"); ("timestamp", o_str); ("uuid", o_str)]);
  ("ConsistencyNeeds", [("short_name", o_str); ("shortNameFragments", l_obj "ShortNameFragment"); ("dpgDoesNotRequireCoherency", l_obj "DataPrototypeGroup"); ("dpgRequiresCoherency", l_obj "DataPrototypeGroup"); ("desc", o_obj "MultiLanguageOverviewParagraph"); ("regDoesNotRequireStability", l_obj "RunnableEntityGroup"); ("regRequiresStability", l_obj "RunnableEntityGroup"); ("annotations", l_obj "Annotation"); ("adminData", o_obj "AdminData"); ("category", o_lit); ("introduction", o_obj "DocumentationBlock"); ("variationPoint", o_obj "VariationPoint"); ("longName", o_obj "MultilanguageLongName"); ("timestamp", o_str); ("uuid", o_str)]);
  ("ConstantSpecification", [("short_name", o_str); ("shortNameFragments", l_obj "ShortNameFragment"); ("valueSpec", tbase [BObj "ApplicationRuleBasedValueSpecification"; BObj "ApplicationValueSpecification"; BObj "ConstantReference"; BObj "TextValueSpecification"; BObj "ArrayValueSpecification"; BObj "NumericalValueSpecification"; BObj "RecordValueSpecification"; BObj "CompositeRuleBasedValueSpecification"; BNone]); ("variationPoint", o_obj "VariationPoint"); ("annotations", l_obj "Annotation"); ("adminData", o_obj "AdminData"); ("category", o_lit); ("introduction", o_obj "DocumentationBlock"); ("desc", o_obj "MultiLanguageOverviewParagraph"); ("longName", o_obj "MultilanguageLongName"); ("timestamp", o_str); ("uuid", o_str)]);
  ("ConstantReference", [("constantRef", o_ref); ("shortLabel", o_lit); ("timestamp", o_str); ("uuid", o_str)]);
  ("ConsumedServiceInstance", [("short_name", o_str); ("shortNameFragments", l_obj "ShortNameFragment"); ("sdClientConfig", o_obj "SdClientConfig"); ("annotations", l_obj "Annotation"); ("adminData", o_obj "AdminData"); ("consumedEventGroups", l_obj "ConsumedEventGroup"); ("category", o_lit); ("introduction", o_obj "DocumentationBlock"); ("longName", o_obj "MultilanguageLongName"); ("providedServiceInstanceRef", o_ref); ("variationPoint", o_obj "VariationPoint"); ("desc", o_obj "MultiLanguageOverviewParagraph"); ("timestamp", o_str); ("uuid", o_str)]);
  ("ConsumedEventGroup", [("short_name", o_str); ("shortNameFragments", l_obj "ShortNameFragment"); ("sdClientConfig", o_obj "SdClientConfig"); ("applicationEndpointRef", o_ref); ("annotations", l_obj "Annotation"); ("adminData", o_obj "AdminData"); ("eventGroupIdentifier", o_num); ("routingGroupRefs", tlist [BRef]); ("category", o_lit); ("introduction", o_obj "DocumentationBlock"); ("desc", o_obj "MultiLanguageOverviewParagraph"); ("variationPoint", o_obj "VariationPoint"); ("longName", o_obj "MultilanguageLongName"); ("timestamp", o_str); ("uuid", o_str)]);
  ("ContainedIPduProps", [("collectionSemantics", o_lit); ("headerIdLongHeader", o_num); ("headerIdShortHeader", o_num); ("offset", o_num); ("timeout", o_num); ("trigger", o_lit); ("updateIndicationBitPosition", o_num)]);
  ("ConditionByFormula", [("bindingTime", tbase [BLit; BLit; BNone]); ("timestamp", o_str); ("uuid", o_str)]);
  ("Collection", [("short_name", o_str); ("shortNameFragments", l_obj "ShortNameFragment"); ("sourceElementRefs", tlist [BRef]); ("autoCollect", o_lit); ("annotations", l_obj "Annotation"); ("adminData", o_obj "AdminData"); ("category", o_lit); ("elementRefs", tlist [BRef]); ("elementRole", o_lit); ("introduction", o_obj "DocumentationBlock"); ("desc", o_obj "MultiLanguageOverviewParagraph"); ("variationPoint", o_obj "VariationPoint"); ("longName", o_obj "MultilanguageLongName"); ("timestamp", o_str); ("uuid", o_str)]);
  ("Code", [("short_name", o_str); ("shortNameFragments", l_obj "ShortNameFragment"); ("artifactDescriptors", l_obj "AutosarEngineeringObject"); ("annotations", l_obj "Annotation"); ("adminData", o_obj "AdminData"); ("callbackHeaderRefs", tlist [BRef]); ("category", o_lit); ("introduction", o_obj "DocumentationBlock"); ("desc", o_obj "MultiLanguageOverviewParagraph"); ("variationPoint", o_obj "VariationPoint"); ("longName", o_obj "MultilanguageLongName"); ("timestamp", o_str); ("uuid", o_str)]);
  ("CouplingPort", [("short_name", o_str); ("shortNameFragments", l_obj "ShortNameFragment"); ("couplingPortDetails", o_obj "CouplingPortDetails"); ("category", o_lit); ("desc", o_obj "MultiLanguageOverviewParagraph"); ("macLayerType", o_lit); ("vlanMemberships", l_obj "VlanMembership"); ("variationPoint", o_obj "VariationPoint"); ("annotations", l_obj "Annotation"); ("adminData", o_obj "AdminData"); ("introduction", o_obj "DocumentationBlock"); ("longName", o_obj "MultilanguageLongName"); ("timestamp", o_str); ("uuid", o_str)]);
  ("CouplingPortDetails", [("couplingPortStructuralElements", tlist [BObj "CouplingPortScheduler"; BObj "CouplingPortFifo"]); ("ethernetPriorityRegenerations", l_obj "EthernetPriorityRegeneration"); ("lastEgressSchedulerRef", o_ref)]);
  ("CouplingPortFifo", [("short_name", o_str); ("shortNameFragments", l_obj "ShortNameFragment"); ("annotations", l_obj "Annotation"); ("adminData", o_obj "AdminData"); ("timestamp", o_str); ("category", o_lit); ("introduction", o_obj "DocumentationBlock"); ("desc", o_obj "MultiLanguageOverviewParagraph"); ("variationPoint", o_obj "VariationPoint"); ("longName", o_obj "MultilanguageLongName"); ("uuid", o_str)]);
  ("CouplingPortScheduler", [("short_name", o_str); ("shortNameFragments", l_obj "ShortNameFragment"); ("portScheduler", o_lit); ("annotations", l_obj "Annotation"); ("adminData", o_obj "AdminData"); ("category", o_lit); ("introduction", o_obj "DocumentationBlock"); ("desc", o_obj "MultiLanguageOverviewParagraph"); ("variationPoint", o_obj "VariationPoint"); ("longName", o_obj "MultilanguageLongName"); ("timestamp", o_str); ("uuid", o_str)]);
  ("ClientServerInterface", [("short_name", o_str); ("shortNameFragments", l_obj "ShortNameFragment"); ("serviceKind", o_lit); ("operations", l_obj "ClientServerOperation"); ("possibleErrors", l_obj "ApplicationError"); ("isService", o_bool); ("introduction", o_obj "DocumentationBlock"); ("annotations", l_obj "Annotation"); ("adminData", o_obj "AdminData"); ("category", o_lit); ("desc", o_obj "MultiLanguageOverviewParagraph"); ("variationPoint", o_obj "VariationPoint"); ("longName", o_obj "MultilanguageLongName"); ("timestamp", o_str); ("uuid", o_str)]);
  ("ClientServerInterfaceMapping", [("short_name", o_str); ("shortNameFragments", l_obj "ShortNameFragment"); ("operationMappings", l_obj "ClientServerOperationMapping"); ("annotations", l_obj "Annotation"); ("adminData", o_obj "AdminData"); ("category", o_lit); ("introduction", o_obj "DocumentationBlock"); ("desc", o_obj "MultiLanguageOverviewParagraph"); ("variationPoint", o_obj "VariationPoint"); ("longName", o_obj "MultilanguageLongName"); ("timestamp", o_str); ("uuid", o_str)]);
  ("ClientServerOperation", [("short_name", o_str); ("shortNameFragments", l_obj "ShortNameFragment"); ("arguments", l_obj "ArgumentDataPrototype"); ("annotations", l_obj "Annotation"); ("adminData", o_obj "AdminData"); ("diagArgIntegrity", o_bool); ("desc", o_obj "MultiLanguageOverviewParagraph"); ("possibleErrorRefs", tlist [BRef]); ("category", o_lit); ("introduction", o_obj "DocumentationBlock"); ("variationPoint", o_obj "VariationPoint"); ("longName", o_obj "MultilanguageLongName"); ("timestamp", o_str); ("uuid", o_str)]);
  ("ClientServerOperationMapping", [("firstOperationRef", o_ref); ("secondOperationRef", o_ref)]);
  ("ClientServerAnnotation", [("operationRef", o_ref)]);
  ("ClientComSpec", [("endToEndCallResponseTimeout", o_num); ("operationRef", o_ref); ("transformationComSpecProps", tlist [BObj "UserDefinedTransformationComSpecProps"; BObj "EndToEndTransformationComSpecProps"]); ("timestamp", o_str); ("uuid", o_str)]);
  ("CanTpConfig", [("short_name", o_str); ("shortNameFragments", l_obj "ShortNameFragment"); ("tpAddresses", l_obj "CanTpAddress"); ("tpChannels", l_obj "CanTpChannel"); ("tpConnections", l_obj "CanTpConnection"); ("tpEcus", l_obj "CanTpEcu"); ("tpNodes", l_obj "CanTpNode"); ("timestamp", o_str); ("communicationClusterRef", o_ref); ("category", o_lit); ("annotations", l_obj "Annotation"); ("adminData", o_obj "AdminData"); ("introduction", o_obj "DocumentationBlock"); ("desc", o_obj "MultiLanguageOverviewParagraph"); ("variationPoint", o_obj "VariationPoint"); ("longName", o_obj "MultilanguageLongName"); ("uuid", o_str)]);
  ("CanTpConnection", [("addressingFormat", o_lit); ("cancellation", o_bool); ("canTpChannelRef", o_ref); ("dataPduRef", o_ref); ("flowControlPduRef", o_ref); ("maxBlockSize", o_num); ("multicastRef", o_ref); ("paddingActivation", o_bool); ("receiverRefs", tlist [BRef]); ("taType", o_lit); ("timeoutBr", o_num); ("timeoutBs", o_num); ("timeoutCr", o_num); ("timeoutCs", o_num); ("timestamp", o_str); ("tpSduRef", o_ref); ("transmitterRef", o_ref); ("ident", o_obj "TpConnectionIdent"); ("uuid", o_str)]);
  ("CanTpChannel", [("short_name", o_str); ("shortNameFragments", l_obj "ShortNameFragment"); ("channelId", o_num); ("channelMode", o_lit); ("category", o_lit); ("annotations", l_obj "Annotation"); ("adminData", o_obj "AdminData"); ("introduction", o_obj "DocumentationBlock"); ("desc", o_obj "MultiLanguageOverviewParagraph"); ("variationPoint", o_obj "VariationPoint"); ("longName", o_obj "MultilanguageLongName"); ("timestamp", o_str); ("uuid", o_str)]);
  ("CanTpNode", [("short_name", o_str); ("shortNameFragments", l_obj "ShortNameFragment"); ("stMin", o_num); ("connectorRef", o_ref); ("category", o_lit); ("maxFcWait", o_num); ("timeoutAr", o_num); ("timeoutAs", o_num); ("timestamp", o_str); ("tpAddressRef", o_ref); ("annotations", l_obj "Annotation"); ("adminData", o_obj "AdminData"); ("introduction", o_obj "DocumentationBlock"); ("desc", o_obj "MultiLanguageOverviewParagraph"); ("variationPoint", o_obj "VariationPoint"); ("longName", o_obj "MultilanguageLongName"); ("uuid", o_str)]);
  ("CanTpEcu", [("cycleTimeMainFunction", o_num); ("ecuInstanceRef", o_ref)]);
  ("CanTpAddress", [("short_name", o_str); ("shortNameFragments", l_obj "ShortNameFragment"); ("tpAddress", o_num); ("tpAddressExtensionValue", o_num); ("timestamp", o_str); ("annotations", l_obj "Annotation"); ("adminData", o_obj "AdminData"); ("category", o_lit); ("introduction", o_obj "DocumentationBlock"); ("desc", o_obj "MultiLanguageOverviewParagraph"); ("variationPoint", o_obj "VariationPoint"); ("longName", o_obj "MultilanguageLongName"); ("uuid", o_str)]);
  ("CanCluster", [("short_name", o_str); ("shortNameFragments", l_obj "ShortNameFragment"); ("busOffRecovery", o_obj "CanClusterBusOffRecovery"); ("baudrate", o_num); ("canFdBaudrate", o_num); ("canXlBaudrate", o_num); ("category", o_lit); ("physicalChannel", tlist [BObj "FlexrayPhysicalChannel"; BObj "EthernetPhysicalChannel"; BObj "LinPhysicalChannel"; BObj "CanPhysicalChannel"]); ("protocolName", o_lit); ("protocolVersion", o_lit); ("annotations", l_obj "Annotation"); ("adminData", o_obj "AdminData"); ("introduction", o_obj "DocumentationBlock"); ("desc", o_obj "MultiLanguageOverviewParagraph"); ("variationPoint", o_obj "VariationPoint"); ("longName", o_obj "MultilanguageLongName"); ("timestamp", o_str); ("uuid", o_str)]);
  ("CanClusterBusOffRecovery", [("borCounterL1ToL2", o_num); ("borTimeL1", o_num); ("borTimeL2", o_num)]);
  ("CanCommunicationConnector", [("short_name", o_str); ("shortNameFragments", l_obj "ShortNameFragment"); ("pncGatewayType", o_lit); ("commControllerRef", o_ref); ("category", o_lit); ("desc", o_obj "MultiLanguageOverviewParagraph"); ("elements/CommConnectorPort", tlist [BObj "ISignalPort"; BObj "IPduPort"; BObj "FramePort"]); ("annotations", l_obj "Annotation"); ("adminData", o_obj "AdminData"); ("introduction", o_obj "DocumentationBlock"); ("variationPoint", o_obj "VariationPoint"); ("longName", o_obj "MultilanguageLongName"); ("timestamp", o_str); ("uuid", o_str)]);
  ("CanCommunicationController", [("short_name", o_str); ("shortNameFragments", l_obj "ShortNameFragment"); ("canControllerAttributes", o_obj "CanControllerConfigurationRequirements"); ("category", o_lit); ("wakeUpByControllerSupported", o_bool); ("annotations", l_obj "Annotation"); ("adminData", o_obj "AdminData"); ("introduction", o_obj "DocumentationBlock"); ("desc", o_obj "MultiLanguageOverviewParagraph"); ("variationPoint", o_obj "VariationPoint"); ("longName", o_obj "MultilanguageLongName"); ("timestamp", o_str); ("uuid", o_str)]);
  ("CanControllerConfigurationRequirements", [("maxNumberOfTimeQuantaPerBit", o_num); ("maxSamplePoint", o_num); ("maxSyncJumpWidth", o_num); ("minNumberOfTimeQuantaPerBit", o_num); ("minSamplePoint", o_num); ("minSyncJumpWidth", o_num); ("canControllerFdAttributes", o_obj "CanControllerFdConfiguration"); ("canControllerFdRequirements", o_obj "CanControllerFdConfigurationRequirements"); ("canControllerXlAttributes", o_obj "CanControllerXlConfiguration"); ("canControllerXlRequirements", o_obj "CanControllerXlConfigurationRequirements")]);
  ("CanControllerFdConfiguration", [("paddingValue", o_num); ("propSeg", o_num); ("sspOffset", o_num); ("syncJumpWidth", o_num); ("timeSeg1", o_num); ("timeSeg2", o_num); ("txBitRateSwitch", o_bool)]);
  ("CanControllerFdConfigurationRequirements", [("maxNumberOfTimeQuantaPerBit", o_num); ("maxSamplePoint", o_num); ("maxSyncJumpWidth", o_num); ("maxTrcvDelayCompensationOffset", o_num); ("minNumberOfTimeQuantaPerBit", o_num); ("minSamplePoint", o_num); ("minSyncJumpWidth", o_num); ("minTrcvDelayCompensationOffset", o_num); ("txBitRateSwitch", o_bool)]);
  ("CanControllerXlConfiguration", [("errorSignalingEnabled", o_bool); ("propSeg", o_num); ("pwmL", o_num); ("pwmO", o_num); ("pwmS", o_num); ("sspOffset", o_num); ("syncJumpWidth", o_num); ("timeSeg1", o_num); ("timeSeg2", o_num); ("trcvPwmModeEnabled", o_bool)]);
  ("CanControllerXlConfigurationRequirements", [("errorSignalingEnabled", o_bool); ("maxNumberOfTimeQuantaPerBit", o_num); ("maxPwmL", o_num); ("maxPwmO", o_num); ("maxPwmS", o_num); ("maxSamplePoint", o_num); ("maxSyncJumpWidth", o_num); ("maxTrcvDelayCompensationOffset", o_num); ("minNumberOfTimeQuantaPerBit", o_num); ("minPwmL", o_num); ("minPwmO", o_num); ("minPwmS", o_num); ("minSamplePoint", o_num); ("minSyncJumpWidth", o_num); ("minTrcvDelayCompensationOffset", o_num); ("trcvPwmModeEnabled", o_bool)]);
  ("CanFrame", [("short_name", o_str); ("shortNameFragments", l_obj "ShortNameFragment"); ("frameLength", o_num); ("elements/PduToFrameMapping", l_obj "PduToFrameMapping"); ("annotations", l_obj "Annotation"); ("adminData", o_obj "AdminData"); ("category", o_lit); ("introduction", o_obj "DocumentationBlock"); ("desc", o_obj "MultiLanguageOverviewParagraph"); ("variationPoint", o_obj "VariationPoint"); ("longName", o_obj "MultilanguageLongName"); ("timestamp", o_str); ("uuid", o_str)]);
  ("CanFrameTriggering", [("short_name", o_str); ("shortNameFragments", l_obj "ShortNameFragment"); ("annotations", l_obj "Annotation"); ("adminData", o_obj "AdminData"); ("canAddressingMode", o_lit); ("canFdFrameSupport", o_bool); ("canFrameRxBehavior", o_lit); ("canFrameTxBehavior", o_lit); ("category", o_lit); ("identifier", o_num); ("introduction", o_obj "DocumentationBlock"); ("rxIdentifierRange", o_obj "RxIdentifierRange"); ("timestamp", o_str); ("frameRef", o_ref); ("framePortRefs", tlist [BRef]); ("pduTriggeringRefs", tlist [BRef; BNone]); ("desc", o_obj "MultiLanguageOverviewParagraph"); ("variationPoint", o_obj "VariationPoint"); ("longName", o_obj "MultilanguageLongName"); ("uuid", o_str)]);
  ("CanNmCluster", [("short_name", o_str); ("shortNameFragments", l_obj "ShortNameFragment"); ("nmBusloadReductionActive", o_bool); ("nmCarWakeUpRxEnabled", o_bool); ("nmCbvPosition", o_num); ("nmChannelActive", o_bool); ("nmChannelId", o_num); ("nmChannelSleepMaster", o_bool); ("nmImmediateNmCycleTime", o_num); ("nmImmediateNmTransmissions", o_num); ("nmMessageTimeoutTime", o_num); ("nmMsgCycleTime", o_num); ("nmNetworkTimeout", o_num); ("nmNidPosition", o_num); ("nmRemoteSleepIndicationTime", o_num); ("nmRepeatMessageTime", o_num); ("nmUserDataLength", o_num); ("nmWaitBusSleepTime", o_num); ("communicationClusterRef", o_ref); ("category", o_lit); ("_nmSynchronizingNetwork", o_bool); ("elements/NmNode", tlist [BObj "J1939NmNode"; BObj "UdpNmNode"; BObj "CanNmNode"]); ("annotations", l_obj "Annotation"); ("adminData", o_obj "AdminData"); ("introduction", o_obj "DocumentationBlock"); ("desc", o_obj "MultiLanguageOverviewParagraph"); ("variationPoint", o_obj "VariationPoint"); ("longName", o_obj "MultilanguageLongName"); ("timestamp", o_str); ("uuid", o_str)]);
  ("CanNmClusterCoupling", [("coupledClusterRefs", tlist [BRef]); ("nmBusloadReductionEnabled", o_bool); ("nmImmediateRestartEnabled", o_bool)]);
  ("CanNmNode", [("short_name", o_str); ("shortNameFragments", l_obj "ShortNameFragment"); ("annotations", l_obj "Annotation"); ("adminData", o_obj "AdminData"); ("nmCarWakeUpRxEnabled", o_bool); ("nmCoordCluster", o_num); ("nmCoordinatorRole", o_lit); ("nmMsgCycleOffset", o_num); ("nmMsgReducedTime", o_num); ("nmRangeConfig", o_obj "RxIdentifierRange"); ("nmIfEcuRef", o_ref); ("nmNodeId", o_num); ("nmPassiveModeEnabled", o_bool); ("controllerRef", o_ref); ("category", o_lit); ("rxNmPduRefs", tlist [BRef]); ("txNmPduRefs", tlist [BRef]); ("timestamp", o_str); ("introduction", o_obj "DocumentationBlock"); ("desc", o_obj "MultiLanguageOverviewParagraph"); ("variationPoint", o_obj "VariationPoint"); ("longName", o_obj "MultilanguageLongName"); ("uuid", o_str)]);
  ("CanPhysicalChannel", [("short_name", o_str); ("shortNameFragments", l_obj "ShortNameFragment"); ("commConnectorRefs", tlist [BRef; BNone]); ("category", o_lit); ("elements/FrameTriggering", tlist [BObj "FlexrayFrameTriggering"; BObj "LinFrameTriggering"; BObj "CanFrameTriggering"]); ("elements/ISignalTriggering", l_obj "ISignalTriggering"); ("elements/PduTriggering", l_obj "PduTriggering"); ("annotations", l_obj "Annotation"); ("adminData", o_obj "AdminData"); ("introduction", o_obj "DocumentationBlock"); ("desc", o_obj "MultiLanguageOverviewParagraph"); ("variationPoint", o_obj "VariationPoint"); ("longName", o_obj "MultilanguageLongName"); ("timestamp", o_str); ("uuid", o_str)]);
  ("Caption", [("short_name", o_str); ("shortNameFragments", l_obj "ShortNameFragment"); ("desc", o_obj "MultiLanguageOverviewParagraph"); ("longName", o_obj "MultilanguageLongName"); ("timestamp", o_str); ("uuid", o_str)]);
  ("Chapter", [("short_name", o_str); ("shortNameFragments", l_obj "ShortNameFragment"); ("chapterModel", o_obj "ChapterModel"); ("category", o_lit); ("helpEntry", tbase [BLit; BLit; BNone]); ("annotations", l_obj "Annotation"); ("adminData", o_obj "AdminData"); ("introduction", o_obj "DocumentationBlock"); ("desc", o_obj "MultiLanguageOverviewParagraph"); ("variationPoint", o_obj "VariationPoint"); ("longName", o_obj "MultilanguageLongName"); ("timestamp", o_str); ("uuid", o_str)]);
  ("ChapterModel", [("chapter", o_obj "ChapterOrMsrQuery"); ("chapterContent", o_obj "ChapterContent"); ("topic1", o_obj "TopicOrMsrQuery")]);
  ("ChapterOrMsrQuery", [("chapters", l_obj "Chapter"); ("msrQueryChapter", o_obj "MsrQueryChapter")]);
  ("ChapterContent", [("topicContent", o_obj "TopicContentOrMsrQuery")]);
  ("CyclicTiming", [("timeOffset", o_obj "TimeRangeType"); ("timePeriod", o_obj "TimeRangeType")]);
  ("CycleRepetition", [("BaseCycle", o_num); ("CycleRepetition", o_lit); ("timestamp", o_str); ("uuid", o_str)]);
  ("CryptoServiceNeeds", [("short_name", o_str); ("shortNameFragments", l_obj "ShortNameFragment"); ("annotations", l_obj "Annotation"); ("adminData", o_obj "AdminData"); ("category", o_lit); ("maximumKeyLength", o_num); ("introduction", o_obj "DocumentationBlock"); ("desc", o_obj "MultiLanguageOverviewParagraph"); ("variationPoint", o_obj "VariationPoint"); ("longName", o_obj "MultilanguageLongName"); ("timestamp", o_str); ("uuid", o_str)]);
  ("BaseTypeDirectDefinition", [("baseTypeEncoding", o_lit); ("baseTypeSize", o_num); ("byteOrder", o_lit); ("memAlignment", o_num); ("nativeDeclaration", o_lit)]);
  ("BackgroundEvent", [("short_name", o_str); ("shortNameFragments", l_obj "ShortNameFragment"); ("startOnEventRef", o_ref); ("disabledModeIRefs", l_obj "RModeInAtomicSwcInstanceRef"); ("desc", o_obj "MultiLanguageOverviewParagraph"); ("annotations", l_obj "Annotation"); ("adminData", o_obj "AdminData"); ("activationReasonRepresentationRef", o_ref); ("category", o_lit); ("introduction", o_obj "DocumentationBlock"); ("variationPoint", o_obj "VariationPoint"); ("longName", o_obj "MultilanguageLongName"); ("timestamp", o_str); ("uuid", o_str)]);
  ("BswModuleDescription", [("short_name", o_str); ("shortNameFragments", l_obj "ShortNameFragment"); ("bswModuleDependencies", l_obj "BswModuleDependency"); ("bswModuleDocumentation", o_obj "SwComponentDocumentation"); ("expectedEntryRefs", tlist [BRef]); ("implementedEntryRefs", tlist [BRef]); ("internalBehaviors", l_obj "BswInternalBehavior"); ("introduction", o_obj "DocumentationBlock"); ("moduleId", o_num); ("providedClientServerEntries", l_obj "BswModuleClientServerEntry"); ("providedDatas", l_obj "VariableDataPrototype"); ("providedModeGroups", l_obj "ModeDeclarationGroupPrototype"); ("requiredClientServerEntries", l_obj "BswModuleClientServerEntry"); ("requiredDatas", l_obj "VariableDataPrototype"); ("requiredModeGroups", l_obj "ModeDeclarationGroupPrototype"); ("requiredTriggers", l_obj "Trigger"); ("annotations", l_obj "Annotation"); ("adminData", o_obj "AdminData"); ("category", o_lit); ("desc", o_obj "MultiLanguageOverviewParagraph"); ("variationPoint", o_obj "VariationPoint"); ("longName", o_obj "MultilanguageLongName"); ("timestamp", o_str); ("uuid", o_str)]);
  ("BswModuleDependency", [("short_name", o_str); ("targetModuleId", o_num); ("targetModuleRef", o_ref)]);
  ("BswModuleEntry", [("short_name", o_str); ("shortNameFragments", l_obj "ShortNameFragment"); ("serviceId", o_num); ("swServiceImplPolicy", o_lit); ("arguments", l_obj "SwServiceArg"); ("annotations", l_obj "Annotation"); ("adminData", o_obj "AdminData"); ("bswEntryKind", o_lit); ("callType", o_lit); ("category", o_lit); ("executionContext", o_lit); ("functionPrototypeEmitter", o_lit); ("isReentrant", o_bool); ("isSynchronous", o_bool); ("introduction", o_obj "DocumentationBlock"); ("returnType", o_obj "SwServiceArg"); ("role", o_lit); ("desc", o_obj "MultiLanguageOverviewParagraph"); ("variationPoint", o_obj "VariationPoint"); ("longName", o_obj "MultilanguageLongName"); ("timestamp", o_str); ("uuid", o_str)]);
  ("BswModuleClientServerEntry", [("short_name", o_str); ("shortNameFragments", l_obj "ShortNameFragment"); ("encapsulatedEntryRef", o_ref); ("isReentrant", o_bool); ("isSynchronous", o_bool); ("timestamp", o_str); ("uuid", o_str)]);
  ("BswModeSwitchEvent", [("short_name", o_str); ("startsOnEventRef", o_ref); ("activation", o_lit); ("activationReasonRepresentationRef", o_ref); ("modeIRefs", l_obj "ModeInBswModuleDescriptionInstanceRef"); ("contextLimitationRefs", tlist [BRef]); ("disabledInModeIRefs", l_obj "ModeInBswModuleDescriptionInstanceRef")]);
  ("BswModeSwitchedAckEvent", [("short_name", o_str); ("startsOnEventRef", o_ref); ("modeGroupRef", o_ref); ("contextLimitationRefs", tlist [BRef]); ("disabledInModeIRefs", l_obj "ModeInBswModuleDescriptionInstanceRef"); ("activationReasonRepresentationRef", o_ref)]);
  ("BswModeSwitchAckRequest", [("timeout", o_num)]);
  ("BswModeSenderPolicy", [("ackRequest", o_obj "BswModeSwitchAckRequest"); ("enhancedModeApi", o_bool); ("providedModeGroupRef", o_ref); ("queueLength", o_num)]);
  ("BswModeManagerErrorEvent", [("short_name", o_str); ("startsOnEventRef", o_ref); ("modeGroupRef", o_ref); ("contextLimitationRefs", tlist [BRef]); ("disabledInModeIRefs", l_obj "ModeInBswModuleDescriptionInstanceRef"); ("activationReasonRepresentationRef", o_ref)]);
  ("BswMgrNeeds", [("short_name", o_str); ("shortNameFragments", l_obj "ShortNameFragment"); ("annotations", l_obj "Annotation"); ("adminData", o_obj "AdminData"); ("category", o_lit); ("introduction", o_obj "DocumentationBlock"); ("desc", o_obj "MultiLanguageOverviewParagraph"); ("variationPoint", o_obj "VariationPoint"); ("longName", o_obj "MultilanguageLongName"); ("timestamp", o_str); ("uuid", o_str)]);
  ("BswImplementation", [("short_name", o_str); ("shortNameFragments", l_obj "ShortNameFragment"); ("swcBswMappingRef", o_ref); ("swVersion", o_lit); ("arReleaseVersion", o_lit); ("annotations", l_obj "Annotation"); ("adminData", o_obj "AdminData"); ("behaviorRef", o_ref); ("buildActionManifestRef", o_ref); ("preconfiguredConfigurationRefs", tlist [BRef]); ("programmingLanguage", o_lit); ("recommendedConfigurationRefs", tlist [BRef]); ("requiredArtifacts", l_obj "DependencyOnArtifact"); ("requiredGeneratorTools", l_obj "DependencyOnArtifact"); ("resourceConsumption", o_obj "ResourceConsumption"); ("vendorApiInfix", o_lit); ("vendorSpecificModuleDefRefs", tlist [BRef]); ("vendorId", o_num); ("variationPoint", o_obj "VariationPoint"); ("compilers", l_obj "Compiler"); ("category", o_lit); ("generatedArtifacts", l_obj "DependencyOnArtifact"); ("hwElementRefs", tlist [BRef]); ("linkers", l_obj "Linker"); ("longName", o_obj "MultilanguageLongName"); ("mcSupport", o_obj "McSupportData"); ("usedCodeGenerator", o_lit); ("uuid", o_str); ("elements/Code", l_obj "Code"); ("introduction", o_obj "DocumentationBlock"); ("desc", o_obj "MultiLanguageOverviewParagraph"); ("timestamp", o_str)]);
  ("BswInternalBehavior", [("short_name", o_str); ("shortNameFragments", l_obj "ShortNameFragment"); ("serviceDependencies", l_obj "BswServiceDependency"); ("staticMemories", l_obj "VariableDataPrototype"); ("annotations", l_obj "Annotation"); ("adminData", o_obj "AdminData"); ("constantMemories", l_obj "ParameterDataPrototype"); ("category", o_lit); ("dataTypeMappingRefs", tlist [BRef]); ("desc", o_obj "MultiLanguageOverviewParagraph"); ("elements/BswModuleEntity", tlist [BObj "BswInterruptEntity"; BObj "BswSchedulableEntity"; BObj "BswCalledEntity"]); ("elements/BswEvent", tlist [BObj "BswAsynchronousServerCallReturnsEvent"; BObj "BswOperationInvokedEvent"; BObj "BswExternalTriggerOccurredEvent"; BObj "BswBackgroundEvent"; BObj "BswInternalTriggerOccurredEvent"; BObj "BswDataReceivedEvent"; BObj "BswTimingEvent"; BObj "BswModeSwitchedAckEvent"; BObj "BswModeManagerErrorEvent"; BObj "BswModeSwitchEvent"]); ("elements/ExclusiveArea", l_obj "ExclusiveArea"); ("elements/ExclusiveAreaNestingOrder", l_obj "ExclusiveAreaNestingOrder"); ("includedModeDeclarationGroupSets", l_obj "IncludedModeDeclarationGroupSet"); ("internalTriggeringPoints", l_obj "BswInternalTriggeringPoint"); ("introduction", o_obj "DocumentationBlock"); ("modeSenderPolicies", l_obj "BswModeSenderPolicy"); ("receptionPolicies", l_obj "BswQueuedDataReceptionPolicy"); ("timestamp", o_str); ("variationPoint", o_obj "VariationPoint"); ("longName", o_obj "MultilanguageLongName"); ("uuid", o_str)]);
  ("BswInternalTriggerOccurredEvent", [("short_name", o_str); ("startsOnEventRef", o_ref); ("eventSourceRef", o_ref); ("contextLimitationRefs", tlist [BRef]); ("disabledInModeIRefs", l_obj "ModeInBswModuleDescriptionInstanceRef"); ("activationReasonRepresentationRef", o_ref)]);
  ("BswInternalTriggeringPoint", [("short_name", o_str); ("shortNameFragments", l_obj "ShortNameFragment"); ("annotations", l_obj "Annotation"); ("adminData", o_obj "AdminData"); ("category", o_lit); ("introduction", o_obj "DocumentationBlock"); ("desc", o_obj "MultiLanguageOverviewParagraph"); ("variationPoint", o_obj "VariationPoint"); ("longName", o_obj "MultilanguageLongName"); ("timestamp", o_str); ("uuid", o_str)]);
  ("BswInterruptEntity", [("short_name", o_str); ("shortNameFragments", l_obj "ShortNameFragment"); ("schedulerNamePrefixRef", o_ref); ("swAddrMethodRef", o_ref); ("interruptCategory", o_lit); ("interruptSource", o_lit); ("introduction", o_obj "DocumentationBlock"); ("implementedEntryRef", o_ref); ("issuedTriggerRefs", tlist [BRef]); ("accessedModeGroupRefs", tlist [BRef]); ("activationPointRefs", tlist [BRef]); ("activationReasons", l_obj "ExecutableEntityActivationReason"); ("annotations", l_obj "Annotation"); ("adminData", o_obj "AdminData"); ("callPoints", tlist [BObj "BswSynchronousServerCallPoint"; BObj "BswAsynchronousServerCallPoint"]); ("canEnterRefs", tlist [BRef]); ("category", o_lit); ("dataReceivePoints", l_obj "BswVariableAccess"); ("dataSendPoints", l_obj "BswVariableAccess"); ("desc", o_obj "MultiLanguageOverviewParagraph"); ("managedModeGroupRefs", tlist [BRef]); ("minimumStartInterval", o_num); ("exclusiveAreaNestingOrderRefs", tlist [BRef]); ("reentrancyLevel", o_lit); ("runsInsideRefs", tlist [BRef]); ("variationPoint", o_obj "VariationPoint"); ("longName", o_obj "MultilanguageLongName"); ("timestamp", o_str); ("uuid", o_str)]);
  ("BswServiceDependency", [("assignedData", l_obj "RoleBasedDataAssignment"); ("assignedDataTypes", l_obj "RoleBasedDataTypeAssignment"); ("assignedEntryRole", l_obj "RoleBasedBswModuleEntryAssignment"); ("ident", o_obj "BswServiceDependencyIdent"); ("serviceNeeds", tbase [BObj "IdsMgrNeeds"; BObj "SecureOnBoardCommunicationNeeds"; BObj "DoIpRoutingActivationConfirmationNeeds"; BObj "DoIpRoutingActivationAuthenticationNeeds"; BObj "ObdRatioDenominatorNeeds"; BObj "ObdRatioServiceNeeds"; BObj "ObdControlServiceNeeds"; BObj "ObdPidServiceNeeds"; BObj "ObdMonitorServiceNeeds"; BObj "ObdInfoServiceNeeds"; BObj "ErrorTracerNeeds"; BObj "SupervisedEntityNeeds"; BObj "ComMgrUserNeeds"; BObj "DltUserNeeds"; BObj "DtcStatusChangeNotificationNeeds"; BObj "EcuStateMgrUserNeeds"; BObj "CryptoServiceNeeds"; BObj "FunctionInhibitionAvailabilityNeeds"; BObj "IndicatorStatusNeeds"; BObj "DiagnosticStorageConditionNeeds"; BObj "DiagnosticOperationCycleNeeds"; BObj "DiagnosticEnableConditionNeeds"; BObj "DiagnosticIoControlNeeds"; BObj "DiagnosticEventInfoNeeds"; BObj "DiagnosticEventNeeds"; BObj "DiagnosticValueNeeds"; BObj "DiagnosticRoutineNeeds"; BObj "DiagnosticCommunicationManagerNeeds"; BObj "NvBlockNeeds"; BObj "BswMgrNeeds"; BNone]); ("symbolicNameProps", o_obj "SymbolicNameProps"); ("timestamp", o_str); ("uuid", o_str)]);
  ("BswServiceDependencyIdent", [("short_name", o_str)]);
  ("BswSchedulableEntity", [("short_name", o_str); ("shortNameFragments", l_obj "ShortNameFragment"); ("schedulerNamePrefixRef", o_ref); ("swAddrMethodRef", o_ref); ("accessedModeGroupRefs", tlist [BRef]); ("activationPointRefs", tlist [BRef]); ("activationReasons", l_obj "ExecutableEntityActivationReason"); ("annotations", l_obj "Annotation"); ("adminData", o_obj "AdminData"); ("callPoints", tlist [BObj "BswSynchronousServerCallPoint"; BObj "BswAsynchronousServerCallPoint"]); ("canEnterRefs", tlist [BRef]); ("category", o_lit); ("dataReceivePoints", l_obj "BswVariableAccess"); ("dataSendPoints", l_obj "BswVariableAccess"); ("desc", o_obj "MultiLanguageOverviewParagraph"); ("implementedEntryRef", o_ref); ("issuedTriggerRefs", tlist [BRef]); ("introduction", o_obj "DocumentationBlock"); ("managedModeGroupRefs", tlist [BRef]); ("minimumStartInterval", o_num); ("exclusiveAreaNestingOrderRefs", tlist [BRef]); ("reentrancyLevel", o_lit); ("runsInsideRefs", tlist [BRef]); ("variationPoint", o_obj "VariationPoint"); ("longName", o_obj "MultilanguageLongName"); ("timestamp", o_str); ("uuid", o_str)]);
  ("BswSynchronousServerCallPoint", [("short_name", o_str); ("shortNameFragments", l_obj "ShortNameFragment"); ("calledEntryRef", o_ref); ("timestamp", o_str); ("uuid", o_str)]);
  ("BswQueuedDataReceptionPolicy", [("queueLength", o_num); ("receivedDataRef", o_ref); ("enableTakeAddress", o_bool); ("timestamp", o_str); ("uuid", o_str)]);
  ("BswTimingEvent", [("short_name", o_str); ("startsOnEventRef", o_ref); ("period", o_num); ("contextLimitationRefs", tlist [BRef]); ("disabledInModeIRefs", l_obj "ModeInBswModuleDescriptionInstanceRef"); ("activationReasonRepresentationRef", o_ref)]);
  ("BswDataReceivedEvent", [("short_name", o_str); ("startsOnEventRef", o_ref); ("dataRef", o_ref); ("disabledInModeIRefs", l_obj "ModeInBswModuleDescriptionInstanceRef"); ("contextLimitationRefs", tlist [BRef]); ("activationReasonRepresentationRef", o_ref)]);
  ("BswBackgroundEvent", [("short_name", o_str); ("startsOnEventRef", o_ref); ("contextLimitationRefs", tlist [BRef]); ("disabledInModeIRefs", l_obj "ModeInBswModuleDescriptionInstanceRef"); ("activationReasonRepresentationRef", o_ref)]);
  ("BswExternalTriggerOccurredEvent", [("short_name", o_str); ("startsOnEventRef", o_ref); ("triggerRef", o_ref); ("contextLimitationRefs", tlist [BRef]); ("disabledInModeIRefs", l_obj "ModeInBswModuleDescriptionInstanceRef"); ("activationReasonRepresentationRef", o_ref)]);
  ("BswOperationInvokedEvent", [("short_name", o_str); ("startsOnEventRef", o_ref); ("entryRef", o_ref); ("contextLimitationRefs", tlist [BRef]); ("disabledInModeIRefs", l_obj "ModeInBswModuleDescriptionInstanceRef"); ("activationReasonRepresentationRef", o_ref)]);
  ("BswAsynchronousServerCallReturnsEvent", [("short_name", o_str); ("startsOnEventRef", o_ref); ("eventSourceRef", o_ref); ("contextLimitationRefs", tlist [BRef]); ("disabledInModeIRefs", l_obj "ModeInBswModuleDescriptionInstanceRef"); ("activationReasonRepresentationRef", o_ref)]);
  ("BswAsynchronousServerCallPoint", [("short_name", o_str); ("shortNameFragments", l_obj "ShortNameFragment"); ("calledEntryRef", o_ref); ("timestamp", o_str); ("uuid", o_str)]);
  ("BswCalledEntity", [("short_name", o_str); ("shortNameFragments", l_obj "ShortNameFragment"); ("schedulerNamePrefixRef", o_ref); ("swAddrMethodRef", o_ref); ("accessedModeGroupRefs", tlist [BRef]); ("activationPointRefs", tlist [BRef]); ("activationReasons", l_obj "ExecutableEntityActivationReason"); ("annotations", l_obj "Annotation"); ("adminData", o_obj "AdminData"); ("callPoints", tlist [BObj "BswSynchronousServerCallPoint"; BObj "BswAsynchronousServerCallPoint"]); ("canEnterRefs", tlist [BRef]); ("category", o_lit); ("dataReceivePoints", l_obj "BswVariableAccess"); ("dataSendPoints", l_obj "BswVariableAccess"); ("desc", o_obj "MultiLanguageOverviewParagraph"); ("implementedEntryRef", o_ref); ("issuedTriggerRefs", tlist [BRef]); ("introduction", o_obj "DocumentationBlock"); ("managedModeGroupRefs", tlist [BRef]); ("minimumStartInterval", o_num); ("exclusiveAreaNestingOrderRefs", tlist [BRef]); ("reentrancyLevel", o_lit); ("runsInsideRefs", tlist [BRef]); ("variationPoint", o_obj "VariationPoint"); ("longName", o_obj "MultilanguageLongName"); ("timestamp", o_str); ("uuid", o_str)]);
  ("BswVariableAccess", [("short_name", o_str); ("shortNameFragments", l_obj "ShortNameFragment"); ("accessedVariableRef", o_ref); ("timestamp", o_str); ("uuid", o_str)]);
  ("BulkNvDataDescriptor", [("short_name", o_str); ("shortNameFragments", l_obj "ShortNameFragment"); ("bulkNvBlock", o_obj "VariableDataPrototype"); ("nvBlockDataMappings", l_obj "NvBlockDataMapping"); ("annotations", l_obj "Annotation"); ("adminData", o_obj "AdminData"); ("category", o_lit); ("introduction", o_obj "DocumentationBlock"); ("desc", o_obj "MultiLanguageOverviewParagraph"); ("variationPoint", o_obj "VariationPoint"); ("longName", o_obj "MultilanguageLongName"); ("timestamp", o_str); ("uuid", o_str)]);
  ("BufferProperties", [("headerLength", o_num); ("inPlace", o_bool)]);
  ("BlueprintGenerator", [("expression", tbase [BLit; BLit; BNone]); ("introduction", o_obj "DocumentationBlock"); ("timestamp", o_str); ("uuid", o_str)]);
  ("BooleanValueVariationPoint", [("bindingTime", tbase [BLit; BLit; BNone]); ("blueprintValue", o_lit); ("sd", o_lit); ("shortLabel", o_lit); ("_text", o_str); ("timestamp", o_str); ("uuid", o_str)]);
  ("EndToEndProtection", [("short_name", o_str); ("shortNameFragments", l_obj "ShortNameFragment"); ("endToEndProfile", o_obj "EndToEndDescription"); ("endToEndProtectionISignalIPdus", l_obj "EndToEndProtectionISignalIPdu"); ("endToEndProtectionVariablePrototypes", l_obj "EndToEndProtectionVariablePrototype"); ("annotations", l_obj "Annotation"); ("adminData", o_obj "AdminData"); ("category", o_lit); ("introduction", o_obj "DocumentationBlock"); ("desc", o_obj "MultiLanguageOverviewParagraph"); ("variationPoint", o_obj "VariationPoint"); ("longName", o_obj "MultilanguageLongName"); ("timestamp", o_str); ("uuid", o_str)]);
  ("EndToEndProtectionSet", [("short_name", o_str); ("shortNameFragments", l_obj "ShortNameFragment"); ("elements/EndToEndProtection", l_obj "EndToEndProtection"); ("annotations", l_obj "Annotation"); ("adminData", o_obj "AdminData"); ("category", o_lit); ("introduction", o_obj "DocumentationBlock"); ("desc", o_obj "MultiLanguageOverviewParagraph"); ("variationPoint", o_obj "VariationPoint"); ("longName", o_obj "MultilanguageLongName"); ("timestamp", o_str); ("uuid", o_str)]);
  ("EndToEndProtectionVariablePrototype", [("_receiverIRefs", l_obj "VariableDataPrototypeInSystemInstanceRef"); ("senderIRef", o_obj "VariableDataPrototypeInSystemInstanceRef"); ("timestamp", o_str); ("uuid", o_str)]);
  ("EndToEndProtectionISignalIPdu", [("dataOffset", o_num); ("iSignalGroupRef", o_ref); ("iSignalIPduRef", o_ref)]);
  ("EndToEndTransformationISignalProps", [("dataIds", tlist [BNum]); ("dataLength", o_num); ("dataPrototypeTransformationProps", l_obj "DataPrototypeTransformationProps"); ("desc", o_obj "MultiLanguageOverviewParagraph"); ("csErrorReaction", o_lit); ("category", o_lit); ("transformerRef", o_ref); ("timestamp", o_str); ("adminData", o_obj "AdminData"); ("introduction", o_obj "DocumentationBlock"); ("uuid", o_str)]);
  ("EndToEndTransformationDescription", [("clearFromValidToInvalid", o_bool); ("counterOffset", o_num); ("crcOffset", o_num); ("category", o_lit); ("dataIdMode", o_lit); ("dataIdNibbleOffset", o_num); ("desc", o_obj "MultiLanguageOverviewParagraph"); ("e2eProfileCompatibilityPropsRef", o_ref); ("maxDeltaCounter", o_num); ("maxErrorStateInit", o_num); ("maxErrorStateInvalid", o_num); ("maxErrorStateValid", o_num); ("maxNoNewOrRepeatedData", o_num); ("minOkStateInit", o_num); ("minOkStateInvalid", o_num); ("minOkStateValid", o_num); ("offset", o_num); ("profileBehavior", o_lit); ("profileName", o_lit); ("syncCounterInit", o_num); ("upperHeaderBitsToShift", o_num); ("uuid", o_str); ("windowSizeInit", o_num); ("windowSizeInvalid", o_num); ("windowSizeValid", o_num); ("adminData", o_obj "AdminData"); ("introduction", o_obj "DocumentationBlock"); ("timestamp", o_str)]);
  ("EndToEndTransformationComSpecProps", [("clearFromValidToInvalid", o_bool); ("disableEndToEndCheck", o_bool); ("disableEndToEndStateMachine", o_bool); ("e2eProfileCompatibilityPropsRef", o_ref); ("maxDeltaCounter", o_num); ("maxErrorStateInit", o_num); ("maxErrorStateInvalid", o_num); ("maxErrorStateValid", o_num); ("maxNoNewOrRepeatedData", o_num); ("minOkStateInit", o_num); ("minOkStateInvalid", o_num); ("minOkStateValid", o_num); ("syncCounterInit", o_num); ("windowSizeInit", o_num); ("windowSizeInvalid", o_num); ("windowSizeValid", o_num); ("timestamp", o_str); ("uuid", o_str)]);
  ("EndToEndDescription", [("category", o_lit); ("counterOffset", o_num); ("crcOffset", o_num); ("dataIds", tlist [BNum]); ("dataIdMode", o_num); ("dataLength", o_num); ("maxDeltaCounterInit", o_num); ("timestamp", o_str); ("uuid", o_str)]);
  ("EcuAbstractionSwComponentType", [("short_name", o_str); ("shortNameFragments", l_obj "ShortNameFragment"); ("symbolProps", o_obj "SymbolProps"); ("swcMappingConstraintsRefs", tlist [BRef]); ("swComponentDocumentation", o_obj "SwComponentDocumentation"); ("hardwareElementRefs", tlist [BRef]); ("internalBehavior", o_obj "SwcInternalBehavior"); ("introduction", o_obj "DocumentationBlock"); ("consistencyNeeds", l_obj "ConsistencyNeeds"); ("category", o_lit); ("ports", tlist [BObj "PRPortPrototype"; BObj "RPortPrototype"; BObj "PPortPrototype"]); ("portGroups", l_obj "PortGroup"); ("unitGroupRefs", tlist [BRef]); ("uuid", o_str); ("annotations", l_obj "Annotation"); ("adminData", o_obj "AdminData"); ("desc", o_obj "MultiLanguageOverviewParagraph"); ("variationPoint", o_obj "VariationPoint"); ("longName", o_obj "MultilanguageLongName"); ("timestamp", o_str)]);
  ("EcuInstance", [("short_name", o_str); ("shortNameFragments", l_obj "ShortNameFragment"); ("sleepModeSupported", o_bool); ("associatedComIPduGroupRefs", tlist [BRef]); ("associatedConsumedProvidedServiceInstanceGroupRefs", tlist [BRef]); ("associatedPdurIPduGroupRefs", tlist [BRef]); ("annotations", l_obj "Annotation"); ("adminData", o_obj "AdminData"); ("channelSynchronousWakeup", o_bool); ("comConfigurationGwTimeBase", o_num); ("comConfigurationRxTimeBase", o_num); ("comConfigurationTxTimeBase", o_num); ("comEnableMDTForCyclicTransmission", o_bool); ("category", o_lit); ("desc", o_obj "MultiLanguageOverviewParagraph"); ("ecuTaskProxyRefs", tlist [BRef]); ("ethSwitchPortGroupDerivation", o_bool); ("elements/CommunicationController", tlist [BObj "FlexrayCommunicationController"; BObj "LinMaster"; BObj "EthernetCommunicationController"; BObj "CanCommunicationController"]); ("elements/CommunicationConnector", tlist [BObj "FlexrayCommunicationConnector"; BObj "LinCommunicationConnector"; BObj "EthernetCommunicationConnector"; BObj "CanCommunicationConnector"]); ("firewallRuleRefs", tlist [BRef]); ("pncNmRequest", o_bool); ("pncPrepareSleepTimer", o_num); ("pncSynchronousWakeup", o_bool); ("pnResetTime", o_num); ("tcpIpIcmpPropsRef", o_ref); ("tcpIpPropsRef", o_ref); ("timestamp", o_str); ("v2xSupported", o_lit); ("variationPoint", o_obj "VariationPoint"); ("wakeUpOverBusSupported", o_bool); ("introduction", o_obj "DocumentationBlock"); ("longName", o_obj "MultilanguageLongName"); ("uuid", o_str)]);
  ("EcucValueCollection", [("short_name", o_str); ("shortNameFragments", l_obj "ShortNameFragment"); ("ecucValueRefs", tlist [BRef]); ("ecuExtractRef", o_ref); ("annotations", l_obj "Annotation"); ("adminData", o_obj "AdminData"); ("category", o_lit); ("introduction", o_obj "DocumentationBlock"); ("desc", o_obj "MultiLanguageOverviewParagraph"); ("variationPoint", o_obj "VariationPoint"); ("longName", o_obj "MultilanguageLongName"); ("timestamp", o_str); ("uuid", o_str)]);
  ("EcucValueConfigurationClass", [("configClass", o_lit); ("configVariant", o_lit); ("timestamp", o_str); ("uuid", o_str)]);
  ("EcucValidationCondition", [("short_name", o_str); ("shortNameFragments", l_obj "ShortNameFragment"); ("ecucQueries", l_obj "EcucQuery"); ("validationFormula", o_obj "EcucConditionFormula"); ("variationPoint", o_obj "VariationPoint"); ("annotations", l_obj "Annotation"); ("adminData", o_obj "AdminData"); ("category", o_lit); ("introduction", o_obj "DocumentationBlock"); ("desc", o_obj "MultiLanguageOverviewParagraph"); ("longName", o_obj "MultilanguageLongName"); ("timestamp", o_str); ("uuid", o_str)]);
  ("EcucModuleConfigurationValues", [("short_name", o_str); ("shortNameFragments", l_obj "ShortNameFragment"); ("category", o_lit); ("definitionRef", o_ref); ("desc", o_obj "MultiLanguageOverviewParagraph"); ("ecucDefEdition", o_lit); ("elements/EcucContainerValue", l_obj "EcucContainerValue"); ("implementationConfigVariant", o_lit); ("introduction", o_obj "DocumentationBlock"); ("moduleDescriptionRef", o_ref); ("postBuildVariantUsed", o_bool); ("annotations", l_obj "Annotation"); ("adminData", o_obj "AdminData"); ("variationPoint", o_obj "VariationPoint"); ("longName", o_obj "MultilanguageLongName"); ("timestamp", o_str); ("uuid", o_str)]);
  ("EcucModuleDef", [("short_name", o_str); ("shortNameFragments", l_obj "ShortNameFragment"); ("supportedConfigVariants", tlist [BLit]); ("scope", o_lit); ("apiServicePrefix", o_lit); ("annotations", l_obj "Annotation"); ("adminData", o_obj "AdminData"); ("containers", tlist [BObj "EcucChoiceContainerDef"; BObj "EcucParamConfContainerDef"]); ("category", o_lit); ("postBuildVariantSupport", o_bool); ("refinedModuleDefRef", o_ref); ("ecucCond", o_obj "EcucConditionSpecification"); ("ecucValidationConds", l_obj "EcucValidationCondition"); ("lowerMultiplicity", o_num); ("longName", o_obj "MultilanguageLongName"); ("upperMultiplicity", o_num); ("uuid", o_str); ("introduction", o_obj "DocumentationBlock"); ("desc", o_obj "MultiLanguageOverviewParagraph"); ("variationPoint", o_obj "VariationPoint"); ("timestamp", o_str)]);
  ("EcucMultilineStringParamDef", [("short_name", o_str); ("shortNameFragments", l_obj "ShortNameFragment"); ("symbolicNameValue", o_bool); ("scope", o_lit); ("defaultValue", o_lit); ("derivation", o_obj "EcucDerivationSpecification"); ("desc", o_obj "MultiLanguageOverviewParagraph"); ("maxLength", o_num); ("minLength", o_num); ("multiplicityConfigClasses", l_obj "EcucMultiplicityConfigurationClass"); ("regularExpression", o_lit); ("requiresIndex", o_bool); ("withAuto", o_bool); ("origin", o_lit); ("postBuildVariantMultiplicity", o_bool); ("postBuildVariantValue", o_bool); ("valueConfigClasses", l_obj "EcucValueConfigurationClass"); ("variationPoint", o_obj "VariationPoint"); ("ecucCond", o_obj "EcucConditionSpecification"); ("ecucValidationConds", l_obj "EcucValidationCondition"); ("lowerMultiplicity", o_num); ("longName", o_obj "MultilanguageLongName"); ("upperMultiplicity", o_num); ("uuid", o_str); ("annotations", l_obj "Annotation"); ("adminData", o_obj "AdminData"); ("category", o_lit); ("introduction", o_obj "DocumentationBlock"); ("timestamp", o_str)]);
  ("EcucMultiplicityConfigurationClass", [("configClass", o_lit); ("configVariant", o_lit); ("timestamp", o_str); ("uuid", o_str)]);
  ("EcucDefinitionCollection", [("short_name", o_str); ("shortNameFragments", l_obj "ShortNameFragment"); ("moduleRefs", tlist [BRef]); ("annotations", l_obj "Annotation"); ("adminData", o_obj "AdminData"); ("category", o_lit); ("introduction", o_obj "DocumentationBlock"); ("desc", o_obj "MultiLanguageOverviewParagraph"); ("variationPoint", o_obj "VariationPoint"); ("longName", o_obj "MultilanguageLongName"); ("timestamp", o_str); ("uuid", o_str)]);
  ("EcucDestinationUriDef", [("short_name", o_str); ("shortNameFragments", l_obj "ShortNameFragment"); ("destinationUriPolicy", o_obj "EcucDestinationUriPolicy"); ("desc", o_obj "MultiLanguageOverviewParagraph"); ("annotations", l_obj "Annotation"); ("adminData", o_obj "AdminData"); ("category", o_lit); ("introduction", o_obj "DocumentationBlock"); ("variationPoint", o_obj "VariationPoint"); ("longName", o_obj "MultilanguageLongName"); ("timestamp", o_str); ("uuid", o_str)]);
  ("EcucDestinationUriDefSet", [("short_name", o_str); ("destinationUriDefs", l_obj "EcucDestinationUriDef")]);
  ("EcucDestinationUriDefRefType", [("base", o_str); ("dest", o_str); ("value", o_str)]);
  ("EcucDestinationUriPolicy", [("containers", tlist [BObj "EcucChoiceContainerDef"; BObj "EcucParamConfContainerDef"]); ("destinationUriNestingContract", o_lit); ("parameters", tlist [BObj "EcucMultilineStringParamDef"; BObj "EcucFunctionNameDef"; BObj "EcucEnumerationParamDef"; BObj "EcucFloatParamDef"; BObj "EcucIntegerParamDef"; BObj "EcucStringParamDef"; BObj "EcucBooleanParamDef"]); ("references", tlist [BObj "EcucInstanceReferenceDef"; BObj "EcucChoiceReferenceDef"; BObj "EcucReferenceDef"; BObj "EcucSymbolicNameReferenceDef"]); ("timestamp", o_str); ("uuid", o_str)]);
  ("EcucDerivationSpecification", [("calculationFormula", o_obj "EcucParameterDerivationFormula"); ("ecucQueries", l_obj "EcucQuery"); ("informalFormula", o_obj "MlFormula")]);
  ("EcucParamConfContainerDef", [("short_name", o_str); ("shortNameFragments", l_obj "ShortNameFragment"); ("subContainers", tlist [BObj "EcucChoiceContainerDef"; BObj "EcucParamConfContainerDef"]); ("scope", o_lit); ("parameters", tlist [BObj "EcucMultilineStringParamDef"; BObj "EcucFunctionNameDef"; BObj "EcucEnumerationParamDef"; BObj "EcucFloatParamDef"; BObj "EcucIntegerParamDef"; BObj "EcucStringParamDef"; BObj "EcucBooleanParamDef"]); ("postBuildVariantMultiplicity", o_bool); ("references", tlist [BObj "EcucInstanceReferenceDef"; BObj "EcucChoiceReferenceDef"; BObj "EcucReferenceDef"; BObj "EcucSymbolicNameReferenceDef"]); ("requiresIndex", o_bool); ("destinationUriRefs", l_obj "EcucDestinationUriDefRefType"); ("desc", o_obj "MultiLanguageOverviewParagraph"); ("multiplicityConfigClasses", l_obj "EcucMultiplicityConfigurationClass"); ("origin", o_lit); ("ecucCond", o_obj "EcucConditionSpecification"); ("ecucValidationConds", l_obj "EcucValidationCondition"); ("lowerMultiplicity", o_num); ("longName", o_obj "MultilanguageLongName"); ("upperMultiplicity", o_num); ("uuid", o_str); ("annotations", l_obj "Annotation"); ("adminData", o_obj "AdminData"); ("category", o_lit); ("introduction", o_obj "DocumentationBlock"); ("variationPoint", o_obj "VariationPoint"); ("timestamp", o_str)]);
  ("EcucParameterDerivationFormula", [("ecucQueryRef", o_ref); ("ecucQueryStringRef", o_ref)]);
  ("EcucChoiceContainerDef", [("short_name", o_str); ("shortNameFragments", l_obj "ShortNameFragment"); ("scope", o_lit); ("choices", l_obj "EcucParamConfContainerDef"); ("category", o_lit); ("destinationUriRefs", l_obj "EcucDestinationUriDefRefType"); ("desc", o_obj "MultiLanguageOverviewParagraph"); ("multiplicityConfigClasses", l_obj "EcucMultiplicityConfigurationClass"); ("origin", o_lit); ("postBuildVariantMultiplicity", o_bool); ("requiresIndex", o_bool); ("ecucCond", o_obj "EcucConditionSpecification"); ("ecucValidationConds", l_obj "EcucValidationCondition"); ("lowerMultiplicity", o_num); ("longName", o_obj "MultilanguageLongName"); ("upperMultiplicity", o_num); ("uuid", o_str); ("annotations", l_obj "Annotation"); ("adminData", o_obj "AdminData"); ("introduction", o_obj "DocumentationBlock"); ("variationPoint", o_obj "VariationPoint"); ("timestamp", o_str)]);
  ("EcucChoiceReferenceDef", [("short_name", o_str); ("shortNameFragments", l_obj "ShortNameFragment"); ("scope", o_lit); ("destinationRefs", tlist [BRef]); ("desc", o_obj "MultiLanguageOverviewParagraph"); ("requiresSymbolicNameValue", o_bool); ("requiresIndex", o_bool); ("withAuto", o_bool); ("multiplicityConfigClasses", l_obj "EcucMultiplicityConfigurationClass"); ("origin", o_lit); ("postBuildVariantMultiplicity", o_bool); ("postBuildVariantValue", o_bool); ("valueConfigClasses", l_obj "EcucValueConfigurationClass"); ("variationPoint", o_obj "VariationPoint"); ("ecucCond", o_obj "EcucConditionSpecification"); ("ecucValidationConds", l_obj "EcucValidationCondition"); ("lowerMultiplicity", o_num); ("longName", o_obj "MultilanguageLongName"); ("upperMultiplicity", o_num); ("uuid", o_str); ("annotations", l_obj "Annotation"); ("adminData", o_obj "AdminData"); ("category", o_lit); ("introduction", o_obj "DocumentationBlock"); ("timestamp", o_str)]);
  ("EcucConditionSpecification", [("conditionFormula", o_obj "EcucConditionFormula"); ("ecucQueries", l_obj "EcucQuery"); ("informalFormula", o_obj "MlFormula")]);
  ("EcucConditionFormula", [("ecucQueryRef", o_ref); ("ecucQueryStringRef", o_ref)]);
  ("EcucContainerValue", [("short_name", o_str); ("shortNameFragments", l_obj "ShortNameFragment"); ("subContainers", l_obj "EcucContainerValue"); ("definitionRef", o_ref); ("desc", o_obj "MultiLanguageOverviewParagraph"); ("parameterValues", tlist [BObj "EcucNumericalParamValue"; BObj "EcucTextualParamValue"]); ("referenceValues", tlist [BObj "EcucInstanceReferenceValue"; BObj "EcucReferenceValue"]); ("annotations", l_obj "Annotation"); ("adminData", o_obj "AdminData"); ("category", o_lit); ("introduction", o_obj "DocumentationBlock"); ("index", o_num); ("variationPoint", o_obj "VariationPoint"); ("longName", o_obj "MultilanguageLongName"); ("timestamp", o_str); ("uuid", o_str)]);
  ("EcucQuery", [("short_name", o_str); ("shortNameFragments", l_obj "ShortNameFragment"); ("ecucQueryExpression", o_obj "EcucQueryExpression"); ("annotations", l_obj "Annotation"); ("adminData", o_obj "AdminData"); ("category", o_lit); ("introduction", o_obj "DocumentationBlock"); ("desc", o_obj "MultiLanguageOverviewParagraph"); ("variationPoint", o_obj "VariationPoint"); ("longName", o_obj "MultilanguageLongName"); ("timestamp", o_str); ("uuid", o_str)]);
  ("EcucQueryExpression", [("configElementDefGlobalRef", o_ref); ("configElementDefLocalRef", o_ref)]);
  ("EcucSymbolicNameReferenceDef", [("short_name", o_str); ("shortNameFragments", l_obj "ShortNameFragment"); ("scope", o_lit); ("destinationRef", o_ref); ("desc", o_obj "MultiLanguageOverviewParagraph"); ("requiresSymbolicNameValue", o_bool); ("requiresIndex", o_bool); ("withAuto", o_bool); ("multiplicityConfigClasses", l_obj "EcucMultiplicityConfigurationClass"); ("origin", o_lit); ("postBuildVariantMultiplicity", o_bool); ("postBuildVariantValue", o_bool); ("valueConfigClasses", l_obj "EcucValueConfigurationClass"); ("variationPoint", o_obj "VariationPoint"); ("ecucCond", o_obj "EcucConditionSpecification"); ("ecucValidationConds", l_obj "EcucValidationCondition"); ("lowerMultiplicity", o_num); ("longName", o_obj "MultilanguageLongName"); ("upperMultiplicity", o_num); ("uuid", o_str); ("annotations", l_obj "Annotation"); ("adminData", o_obj "AdminData"); ("category", o_lit); ("introduction", o_obj "DocumentationBlock"); ("timestamp", o_str)]);
  ("EcucStringParamDef", [("short_name", o_str); ("shortNameFragments", l_obj "ShortNameFragment"); ("symbolicNameValue", o_bool); ("scope", o_lit); ("defaultValue", o_lit); ("derivation", o_obj "EcucDerivationSpecification"); ("desc", o_obj "MultiLanguageOverviewParagraph"); ("maxLength", o_num); ("minLength", o_num); ("multiplicityConfigClasses", l_obj "EcucMultiplicityConfigurationClass"); ("regularExpression", o_lit); ("requiresIndex", o_bool); ("withAuto", o_bool); ("origin", o_lit); ("postBuildVariantMultiplicity", o_bool); ("postBuildVariantValue", o_bool); ("valueConfigClasses", l_obj "EcucValueConfigurationClass"); ("variationPoint", o_obj "VariationPoint"); ("ecucCond", o_obj "EcucConditionSpecification"); ("ecucValidationConds", l_obj "EcucValidationCondition"); ("lowerMultiplicity", o_num); ("longName", o_obj "MultilanguageLongName"); ("upperMultiplicity", o_num); ("uuid", o_str); ("annotations", l_obj "Annotation"); ("adminData", o_obj "AdminData"); ("category", o_lit); ("introduction", o_obj "DocumentationBlock"); ("timestamp", o_str)]);
  ("EcucReferenceDef", [("short_name", o_str); ("shortNameFragments", l_obj "ShortNameFragment"); ("scope", o_lit); ("destinationRef", o_ref); ("desc", o_obj "MultiLanguageOverviewParagraph"); ("requiresSymbolicNameValue", o_bool); ("requiresIndex", o_bool); ("withAuto", o_bool); ("multiplicityConfigClasses", l_obj "EcucMultiplicityConfigurationClass"); ("origin", o_lit); ("postBuildVariantMultiplicity", o_bool); ("postBuildVariantValue", o_bool); ("valueConfigClasses", l_obj "EcucValueConfigurationClass"); ("variationPoint", o_obj "VariationPoint"); ("ecucCond", o_obj "EcucConditionSpecification"); ("ecucValidationConds", l_obj "EcucValidationCondition"); ("lowerMultiplicity", o_num); ("longName", o_obj "MultilanguageLongName"); ("upperMultiplicity", o_num); ("uuid", o_str); ("annotations", l_obj "Annotation"); ("adminData", o_obj "AdminData"); ("category", o_lit); ("introduction", o_obj "DocumentationBlock"); ("timestamp", o_str)]);
  ("EcucReferenceValue", [("valueRef", o_ref); ("annotations", l_obj "Annotation"); ("definitionRef", o_ref); ("index", o_num)]);
  ("EcucInstanceReferenceDef", [("short_name", o_str); ("shortNameFragments", l_obj "ShortNameFragment"); ("scope", o_lit); ("destinationContext", o_lit); ("destinationType", o_lit); ("desc", o_obj "MultiLanguageOverviewParagraph"); ("withAuto", o_bool); ("multiplicityConfigClasses", l_obj "EcucMultiplicityConfigurationClass"); ("origin", o_lit); ("postBuildVariantMultiplicity", o_bool); ("postBuildVariantValue", o_bool); ("requiresIndex", o_bool); ("valueConfigClasses", l_obj "EcucValueConfigurationClass"); ("variationPoint", o_obj "VariationPoint"); ("ecucCond", o_obj "EcucConditionSpecification"); ("ecucValidationConds", l_obj "EcucValidationCondition"); ("lowerMultiplicity", o_num); ("longName", o_obj "MultilanguageLongName"); ("upperMultiplicity", o_num); ("uuid", o_str); ("annotations", l_obj "Annotation"); ("adminData", o_obj "AdminData"); ("category", o_lit); ("introduction", o_obj "DocumentationBlock"); ("timestamp", o_str)]);
  ("EcucInstanceReferenceValue", [("valueRef", o_obj "AnyInstanceRef"); ("annotations", l_obj "Annotation"); ("definitionRef", o_ref); ("index", o_num)]);
  ("EcucIntegerParamDef", [("short_name", o_str); ("shortNameFragments", l_obj "ShortNameFragment"); ("symbolicNameValue", o_bool); ("scope", o_lit); ("defaultValue", o_num); ("derivation", o_obj "EcucDerivationSpecification"); ("desc", o_obj "MultiLanguageOverviewParagraph"); ("max", o_num); ("min", o_num); ("multiplicityConfigClasses", l_obj "EcucMultiplicityConfigurationClass"); ("withAuto", o_bool); ("origin", o_lit); ("postBuildVariantMultiplicity", o_bool); ("postBuildVariantValue", o_bool); ("requiresIndex", o_bool); ("valueConfigClasses", l_obj "EcucValueConfigurationClass"); ("variationPoint", o_obj "VariationPoint"); ("ecucCond", o_obj "EcucConditionSpecification"); ("ecucValidationConds", l_obj "EcucValidationCondition"); ("lowerMultiplicity", o_num); ("longName", o_obj "MultilanguageLongName"); ("upperMultiplicity", o_num); ("uuid", o_str); ("annotations", l_obj "Annotation"); ("adminData", o_obj "AdminData"); ("category", o_lit); ("introduction", o_obj "DocumentationBlock"); ("timestamp", o_str)]);
  ("EcucBooleanParamDef", [("short_name", o_str); ("shortNameFragments", l_obj "ShortNameFragment"); ("symbolicNameValue", o_bool); ("scope", o_lit); ("defaultValue", o_bool); ("derivation", o_obj "EcucDerivationSpecification"); ("desc", o_obj "MultiLanguageOverviewParagraph"); ("withAuto", o_bool); ("multiplicityConfigClasses", l_obj "EcucMultiplicityConfigurationClass"); ("origin", o_lit); ("postBuildVariantMultiplicity", o_bool); ("postBuildVariantValue", o_bool); ("requiresIndex", o_bool); ("valueConfigClasses", l_obj "EcucValueConfigurationClass"); ("variationPoint", o_obj "VariationPoint"); ("ecucCond", o_obj "EcucConditionSpecification"); ("ecucValidationConds", l_obj "EcucValidationCondition"); ("lowerMultiplicity", o_num); ("longName", o_obj "MultilanguageLongName"); ("upperMultiplicity", o_num); ("uuid", o_str); ("annotations", l_obj "Annotation"); ("adminData", o_obj "AdminData"); ("category", o_lit); ("introduction", o_obj "DocumentationBlock"); ("timestamp", o_str)]);
  ("EcucFloatParamDef", [("short_name", o_str); ("shortNameFragments", l_obj "ShortNameFragment"); ("symbolicNameValue", o_bool); ("scope", o_lit); ("defaultValue", o_num); ("derivation", o_obj "EcucDerivationSpecification"); ("desc", o_obj "MultiLanguageOverviewParagraph"); ("max", tbase [BLimit; BNone]); ("min", tbase [BLimit; BNone]); ("multiplicityConfigClasses", l_obj "EcucMultiplicityConfigurationClass"); ("withAuto", o_bool); ("origin", o_lit); ("postBuildVariantMultiplicity", o_bool); ("postBuildVariantValue", o_bool); ("requiresIndex", o_bool); ("valueConfigClasses", l_obj "EcucValueConfigurationClass"); ("variationPoint", o_obj "VariationPoint"); ("ecucCond", o_obj "EcucConditionSpecification"); ("ecucValidationConds", l_obj "EcucValidationCondition"); ("lowerMultiplicity", o_num); ("longName", o_obj "MultilanguageLongName"); ("upperMultiplicity", o_num); ("uuid", o_str); ("annotations", l_obj "Annotation"); ("adminData", o_obj "AdminData"); ("category", o_lit); ("introduction", o_obj "DocumentationBlock"); ("timestamp", o_str)]);
  ("EcucFunctionNameDef", [("short_name", o_str); ("shortNameFragments", l_obj "ShortNameFragment"); ("symbolicNameValue", o_bool); ("scope", o_lit); ("defaultValue", o_lit); ("derivation", o_obj "EcucDerivationSpecification"); ("desc", o_obj "MultiLanguageOverviewParagraph"); ("maxLength", o_num); ("minLength", o_num); ("multiplicityConfigClasses", l_obj "EcucMultiplicityConfigurationClass"); ("regularExpression", o_lit); ("requiresIndex", o_bool); ("withAuto", o_bool); ("origin", o_lit); ("postBuildVariantMultiplicity", o_bool); ("postBuildVariantValue", o_bool); ("valueConfigClasses", l_obj "EcucValueConfigurationClass"); ("variationPoint", o_obj "VariationPoint"); ("ecucCond", o_obj "EcucConditionSpecification"); ("ecucValidationConds", l_obj "EcucValidationCondition"); ("lowerMultiplicity", o_num); ("longName", o_obj "MultilanguageLongName"); ("upperMultiplicity", o_num); ("uuid", o_str); ("annotations", l_obj "Annotation"); ("adminData", o_obj "AdminData"); ("category", o_lit); ("introduction", o_obj "DocumentationBlock"); ("timestamp", o_str)]);
  ("EcucEnumerationParamDef", [("short_name", o_str); ("shortNameFragments", l_obj "ShortNameFragment"); ("symbolicNameValue", o_bool); ("scope", o_lit); ("defaultValue", o_lit); ("derivation", o_obj "EcucDerivationSpecification"); ("desc", o_obj "MultiLanguageOverviewParagraph"); ("literals", l_obj "EcucEnumerationLiteralDef"); ("lowerMultiplicity", o_num); ("longName", o_obj "MultilanguageLongName"); ("withAuto", o_bool); ("multiplicityConfigClasses", l_obj "EcucMultiplicityConfigurationClass"); ("origin", o_lit); ("postBuildVariantMultiplicity", o_bool); ("postBuildVariantValue", o_bool); ("requiresIndex", o_bool); ("valueConfigClasses", l_obj "EcucValueConfigurationClass"); ("variationPoint", o_obj "VariationPoint"); ("ecucCond", o_obj "EcucConditionSpecification"); ("ecucValidationConds", l_obj "EcucValidationCondition"); ("upperMultiplicity", o_num); ("uuid", o_str); ("annotations", l_obj "Annotation"); ("adminData", o_obj "AdminData"); ("category", o_lit); ("introduction", o_obj "DocumentationBlock"); ("timestamp", o_str)]);
  ("EcucEnumerationLiteralDef", [("short_name", o_str); ("shortNameFragments", l_obj "ShortNameFragment"); ("origin", o_lit); ("annotations", l_obj "Annotation"); ("adminData", o_obj "AdminData"); ("category", o_lit); ("introduction", o_obj "DocumentationBlock"); ("desc", o_obj "MultiLanguageOverviewParagraph"); ("variationPoint", o_obj "VariationPoint"); ("longName", o_obj "MultilanguageLongName"); ("timestamp", o_str); ("uuid", o_str)]);
  ("EcucNumericalParamValue", [("value", o_num); ("annotations", l_obj "Annotation"); ("definitionRef", o_ref); ("index", o_num)]);
  ("EcucTextualParamValue", [("value", o_lit); ("annotations", l_obj "Annotation"); ("definitionRef", o_ref); ("index", o_num)]);
  ("EcuStateMgrUserNeeds", [("short_name", o_str); ("shortNameFragments", l_obj "ShortNameFragment"); ("annotations", l_obj "Annotation"); ("adminData", o_obj "AdminData"); ("category", o_lit); ("introduction", o_obj "DocumentationBlock"); ("desc", o_obj "MultiLanguageOverviewParagraph"); ("variationPoint", o_obj "VariationPoint"); ("longName", o_obj "MultilanguageLongName"); ("timestamp", o_str); ("uuid", o_str)]);
  ("EthernetCluster", [("short_name", o_str); ("shortNameFragments", l_obj "ShortNameFragment"); ("category", o_lit); ("macMulticastGroups", l_obj "MacMulticastGroup"); ("baudrate", o_num); ("physicalChannel", tlist [BObj "FlexrayPhysicalChannel"; BObj "EthernetPhysicalChannel"; BObj "LinPhysicalChannel"; BObj "CanPhysicalChannel"]); ("protocolName", o_lit); ("protocolVersion", o_lit); ("annotations", l_obj "Annotation"); ("adminData", o_obj "AdminData"); ("introduction", o_obj "DocumentationBlock"); ("desc", o_obj "MultiLanguageOverviewParagraph"); ("variationPoint", o_obj "VariationPoint"); ("longName", o_obj "MultilanguageLongName"); ("timestamp", o_str); ("uuid", o_str)]);
  ("EthernetCommunicationConnector", [("short_name", o_str); ("shortNameFragments", l_obj "ShortNameFragment"); ("elements/CommConnectorPort", tlist [BObj "ISignalPort"; BObj "IPduPort"; BObj "FramePort"]); ("maximumTransmissionUnit", o_num); ("networkEndpointRefs", tlist [BRef]); ("pncGatewayType", o_lit); ("commControllerRef", o_ref); ("category", o_lit); ("desc", o_obj "MultiLanguageOverviewParagraph"); ("annotations", l_obj "Annotation"); ("adminData", o_obj "AdminData"); ("introduction", o_obj "DocumentationBlock"); ("variationPoint", o_obj "VariationPoint"); ("longName", o_obj "MultilanguageLongName"); ("timestamp", o_str); ("uuid", o_str)]);
  ("EthernetCommunicationController", [("short_name", o_str); ("shortNameFragments", l_obj "ShortNameFragment"); ("category", o_lit); ("couplingPorts", l_obj "CouplingPort"); ("wakeUpByControllerSupported", o_bool); ("annotations", l_obj "Annotation"); ("adminData", o_obj "AdminData"); ("introduction", o_obj "DocumentationBlock"); ("desc", o_obj "MultiLanguageOverviewParagraph"); ("variationPoint", o_obj "VariationPoint"); ("longName", o_obj "MultilanguageLongName"); ("timestamp", o_str); ("uuid", o_str)]);
  ("EthernetPhysicalChannel", [("short_name", o_str); ("shortNameFragments", l_obj "ShortNameFragment"); ("soAdConfig", o_obj "SoAdConfig"); ("networkEndpoints", l_obj "NetworkEndpoint"); ("vlan", o_obj "VlanConfig"); ("variationPoint", o_obj "VariationPoint"); ("commConnectorRefs", tlist [BRef; BNone]); ("category", o_lit); ("elements/FrameTriggering", tlist [BObj "FlexrayFrameTriggering"; BObj "LinFrameTriggering"; BObj "CanFrameTriggering"]); ("elements/ISignalTriggering", l_obj "ISignalTriggering"); ("elements/PduTriggering", l_obj "PduTriggering"); ("annotations", l_obj "Annotation"); ("adminData", o_obj "AdminData"); ("introduction", o_obj "DocumentationBlock"); ("desc", o_obj "MultiLanguageOverviewParagraph"); ("longName", o_obj "MultilanguageLongName"); ("timestamp", o_str); ("uuid", o_str)]);
  ("EthernetPriorityRegeneration", [("short_name", o_str); ("ingressPriority", o_num); ("regeneratedPriority", o_num)]);
  ("E2EProfileCompatibilityProps", [("short_name", o_str); ("shortNameFragments", l_obj "ShortNameFragment"); ("transitToInvalidExtended", o_bool); ("timestamp", o_str); ("annotations", l_obj "Annotation"); ("adminData", o_obj "AdminData"); ("category", o_lit); ("introduction", o_obj "DocumentationBlock"); ("desc", o_obj "MultiLanguageOverviewParagraph"); ("variationPoint", o_obj "VariationPoint"); ("longName", o_obj "MultilanguageLongName"); ("uuid", o_str)]);
  ("ExecutionOrderConstraint", [("short_name", o_str); ("shortNameFragments", l_obj "ShortNameFragment"); ("ordered_elements", l_obj "EOCExecutableEntityRef"); ("timestamp", o_str); ("annotations", l_obj "Annotation"); ("adminData", o_obj "AdminData"); ("category", o_lit); ("introduction", o_obj "DocumentationBlock"); ("desc", o_obj "MultiLanguageOverviewParagraph"); ("variationPoint", o_obj "VariationPoint"); ("longName", o_obj "MultilanguageLongName"); ("uuid", o_str)]);
  ("ExecutableEntityActivationReason", [("short_name", o_str); ("shortNameFragments", l_obj "ShortNameFragment"); ("symbol", o_lit); ("bitPosition", o_num); ("timestamp", o_str); ("uuid", o_str)]);
  ("ExclusiveArea", [("short_name", o_str)]);
  ("ExclusiveAreaNestingOrder", [("short_name", o_str); ("exclusiveAreaRefs", tlist [BRef])]);
  ("ExternalTriggeringPoint", [("ident", o_obj "ExternalTriggeringPointIdent"); ("trigger", o_obj "PTriggerInAtomicSwcTypeInstanceRef")]);
  ("ExternalTriggeringPointIdent", [("short_name", o_str)]);
  ("EmphasisText", [("value", o_lit); ("color", o_lit); ("sub", o_lit); ("sup", o_lit); ("tt", o_obj "Tt")]);
  ("ECUMapping", [("short_name", o_str); ("shortNameFragments", l_obj "ShortNameFragment"); ("category", o_lit); ("ecuRef", o_ref); ("ecuInstanceRef", o_ref); ("annotations", l_obj "Annotation"); ("adminData", o_obj "AdminData"); ("introduction", o_obj "DocumentationBlock"); ("desc", o_obj "MultiLanguageOverviewParagraph"); ("variationPoint", o_obj "VariationPoint"); ("longName", o_obj "MultilanguageLongName"); ("timestamp", o_str); ("uuid", o_str)]);
  ("EOCExecutableEntityRef", [("short_name", o_str); ("shortNameFragments", l_obj "ShortNameFragment"); ("successor_refs", tlist [BRef]); ("annotations", l_obj "Annotation"); ("adminData", o_obj "AdminData"); ("category", o_lit); ("introduction", o_obj "DocumentationBlock"); ("desc", o_obj "MultiLanguageOverviewParagraph"); ("variationPoint", o_obj "VariationPoint"); ("longName", o_obj "MultilanguageLongName"); ("timestamp", o_str); ("uuid", o_str)]);
  ("EventControlledTiming", [("numberOfRepetitions", o_num); ("repetitionPeriod", o_obj "TimeRangeType")]);
  ("EventHandler", [("short_name", o_str); ("shortNameFragments", l_obj "ShortNameFragment"); ("sdServerConfig", o_obj "SdServerConfig"); ("applicationEndpointRef", o_ref); ("annotations", l_obj "Annotation"); ("adminData", o_obj "AdminData"); ("consumedEventGroupRefs", tlist [BRef]); ("category", o_lit); ("multicastThreshold", o_num); ("routingGroupRefs", tlist [BRef]); ("introduction", o_obj "DocumentationBlock"); ("desc", o_obj "MultiLanguageOverviewParagraph"); ("variationPoint", o_obj "VariationPoint"); ("longName", o_obj "MultilanguageLongName"); ("timestamp", o_str); ("uuid", o_str)]);
  ("ErrorTracerNeeds", [("short_name", o_str); ("shortNameFragments", l_obj "ShortNameFragment"); ("tracedFailures", tlist [BObj "TransientFault"; BObj "RuntimeError"; BObj "DevelopmentError"]); ("timestamp", o_str); ("annotations", l_obj "Annotation"); ("adminData", o_obj "AdminData"); ("category", o_lit); ("introduction", o_obj "DocumentationBlock"); ("desc", o_obj "MultiLanguageOverviewParagraph"); ("variationPoint", o_obj "VariationPoint"); ("longName", o_obj "MultilanguageLongName"); ("uuid", o_str)]);
  ("Unit", [("short_name", o_str); ("shortNameFragments", l_obj "ShortNameFragment"); ("displayName", o_lit); ("desc", o_obj "MultiLanguageOverviewParagraph"); ("factorSiToUnit", o_num); ("offsetSiToUnit", o_num); ("physicalDimensionRef", o_ref); ("annotations", l_obj "Annotation"); ("adminData", o_obj "AdminData"); ("category", o_lit); ("introduction", o_obj "DocumentationBlock"); ("variationPoint", o_obj "VariationPoint"); ("longName", o_obj "MultilanguageLongName"); ("timestamp", o_str); ("uuid", o_str)]);
  ("UnlimitedIntegerValueVariationPoint", [("bindingTime", tbase [BLit; BLit; BNone]); ("blueprintValue", o_lit); ("sd", o_lit); ("shortLabel", o_lit); ("_text", o_str); ("timestamp", o_str); ("uuid", o_str)]);
  ("UserDefinedIPdu", [("short_name", o_str); ("shortNameFragments", l_obj "ShortNameFragment"); ("cddType", o_lit); ("containedIPduProps", o_obj "ContainedIPduProps"); ("category", o_lit); ("hasDynamicLength", o_bool); ("length", o_num); ("longName", o_obj "MultilanguageLongName"); ("annotations", l_obj "Annotation"); ("adminData", o_obj "AdminData"); ("introduction", o_obj "DocumentationBlock"); ("desc", o_obj "MultiLanguageOverviewParagraph"); ("variationPoint", o_obj "VariationPoint"); ("timestamp", o_str); ("uuid", o_str)]);
  ("UserDefinedPdu", [("short_name", o_str); ("shortNameFragments", l_obj "ShortNameFragment"); ("cddType", o_lit); ("category", o_lit); ("hasDynamicLength", o_bool); ("length", o_num); ("longName", o_obj "MultilanguageLongName"); ("annotations", l_obj "Annotation"); ("adminData", o_obj "AdminData"); ("introduction", o_obj "DocumentationBlock"); ("desc", o_obj "MultiLanguageOverviewParagraph"); ("variationPoint", o_obj "VariationPoint"); ("timestamp", o_str); ("uuid", o_str)]);
  ("UserDefinedTransformationComSpecProps", [("timestamp", o_str); ("uuid", o_str)]);
  ("UdpNmCluster", [("short_name", o_str); ("shortNameFragments", l_obj "ShortNameFragment"); ("nmCbvPosition", o_num); ("nmChannelActive", o_bool); ("nmChannelId", o_num); ("nmChannelSleepMaster", o_bool); ("nmImmediateNmCycleTime", o_num); ("nmImmediateNmTransmissions", o_num); ("nmMessageTimeoutTime", o_num); ("nmMsgCycleTime", o_num); ("nmNetworkTimeout", o_num); ("nmNidPosition", o_num); ("nmRemoteSleepIndicationTime", o_num); ("nmRepeatMessageTime", o_num); ("nmWaitBusSleepTime", o_num); ("vlanRef", o_ref); ("variationPoint", o_obj "VariationPoint"); ("communicationClusterRef", o_ref); ("category", o_lit); ("_nmSynchronizingNetwork", o_bool); ("elements/NmNode", tlist [BObj "J1939NmNode"; BObj "UdpNmNode"; BObj "CanNmNode"]); ("annotations", l_obj "Annotation"); ("adminData", o_obj "AdminData"); ("introduction", o_obj "DocumentationBlock"); ("desc", o_obj "MultiLanguageOverviewParagraph"); ("longName", o_obj "MultilanguageLongName"); ("timestamp", o_str); ("uuid", o_str)]);
  ("UdpNmClusterCoupling", [("coupledClusterRefs", tlist [BRef]); ("nmImmediateRestartEnabled", o_bool)]);
  ("UdpNmEcu", [("nmSynchronizationPointEnabled", o_bool)]);
  ("UdpNmNode", [("short_name", o_str); ("shortNameFragments", l_obj "ShortNameFragment"); ("annotations", l_obj "Annotation"); ("adminData", o_obj "AdminData"); ("nmMsgCycleOffset", o_num); ("nmCoordCluster", o_num); ("nmCoordinatorRole", o_lit); ("nmIfEcuRef", o_ref); ("nmNodeId", o_num); ("nmPassiveModeEnabled", o_bool); ("controllerRef", o_ref); ("category", o_lit); ("rxNmPduRefs", tlist [BRef]); ("txNmPduRefs", tlist [BRef]); ("timestamp", o_str); ("introduction", o_obj "DocumentationBlock"); ("desc", o_obj "MultiLanguageOverviewParagraph"); ("variationPoint", o_obj "VariationPoint"); ("longName", o_obj "MultilanguageLongName"); ("uuid", o_str)]);
  ("UdpTp", [("udpTpPort", o_obj "TpPort")]);
  ("ImplementationDataType", [("short_name", o_str); ("shortNameFragments", l_obj "ShortNameFragment"); ("subElements", l_obj "ImplementationDataTypeElement"); ("symbolProps", o_obj "SymbolProps"); ("swDataDefProps", o_obj "SwDataDefProps"); ("dynamicArraySizeProfile", o_lit); ("desc", o_obj "MultiLanguageOverviewParagraph"); ("isStructWithOptionalElement", o_bool); ("introduction", o_obj "DocumentationBlock"); ("typeEmitter", o_lit); ("timestamp", o_str); ("annotations", l_obj "Annotation"); ("adminData", o_obj "AdminData"); ("category", o_lit); ("variationPoint", o_obj "VariationPoint"); ("longName", o_obj "MultilanguageLongName"); ("uuid", o_str)]);
  ("ImplementationDataTypeElement", [("short_name", o_str); ("shortNameFragments", l_obj "ShortNameFragment"); ("subElements", l_obj "ImplementationDataTypeElement"); ("swDataDefProps", o_obj "SwDataDefProps"); ("arraySize", o_num); ("arraySizeHandling", o_lit); ("arraySizeSemantics", o_lit); ("annotations", l_obj "Annotation"); ("adminData", o_obj "AdminData"); ("introduction", o_obj "DocumentationBlock"); ("category", o_lit); ("desc", o_obj "MultiLanguageOverviewParagraph"); ("variationPoint", o_obj "VariationPoint"); ("longName", o_obj "MultilanguageLongName"); ("timestamp", o_str); ("uuid", o_str)]);
  ("ImplementationElementInParameterInstanceRef", [("contextRef", o_ref); ("targetRef", o_ref)]);
  ("ISignal", [("short_name", o_str); ("shortNameFragments", l_obj "ShortNameFragment"); ("systemSignalRef", o_ref); ("dataTransformationRef", o_ref); ("dataTypePolicy", o_lit); ("desc", o_obj "MultiLanguageOverviewParagraph"); ("initValue", tbase [BObj "ApplicationRuleBasedValueSpecification"; BObj "ApplicationValueSpecification"; BObj "ConstantReference"; BObj "TextValueSpecification"; BObj "ArrayValueSpecification"; BObj "NumericalValueSpecification"; BObj "RecordValueSpecification"; BObj "CompositeRuleBasedValueSpecification"; BNone]); ("introduction", o_obj "DocumentationBlock"); ("iSignalProps", o_obj "ISignalProps"); ("iSignalType", o_lit); ("length", o_num); ("longName", o_obj "MultilanguageLongName"); ("networkRepresentationProps", o_obj "SwDataDefProps"); ("timeoutSubstitutionValue", tbase [BObj "ApplicationRuleBasedValueSpecification"; BObj "ApplicationValueSpecification"; BObj "ConstantReference"; BObj "TextValueSpecification"; BObj "ArrayValueSpecification"; BObj "NumericalValueSpecification"; BObj "RecordValueSpecification"; BObj "CompositeRuleBasedValueSpecification"; BNone]); ("timestamp", o_str); ("transformationISignalProps", l_obj "EndToEndTransformationISignalProps"); ("annotations", l_obj "Annotation"); ("adminData", o_obj "AdminData"); ("category", o_lit); ("variationPoint", o_obj "VariationPoint"); ("uuid", o_str)]);
  ("ISignalIPdu", [("short_name", o_str); ("shortNameFragments", l_obj "ShortNameFragment"); ("iPduTimingSpecification", o_obj "IPduTiming"); ("iSignalToPduMappings", l_obj "ISignalToIPduMapping"); ("introduction", o_obj "DocumentationBlock"); ("unusedBitPattern", o_num); ("uuid", o_str); ("category", o_lit); ("length", o_num); ("longName", o_obj "MultilanguageLongName"); ("annotations", l_obj "Annotation"); ("adminData", o_obj "AdminData"); ("desc", o_obj "MultiLanguageOverviewParagraph"); ("variationPoint", o_obj "VariationPoint"); ("timestamp", o_str)]);
  ("ISignalIPduGroup", [("short_name", o_str); ("shortNameFragments", l_obj "ShortNameFragment"); ("communicationDirection", o_lit); ("communicationMode", o_lit); ("containedISignalIPduGroupRefs", tlist [BRef]); ("category", o_lit); ("iSignalIPduRefs", tlist [BRef; BNone]); ("introduction", o_obj "DocumentationBlock"); ("annotations", l_obj "Annotation"); ("adminData", o_obj "AdminData"); ("desc", o_obj "MultiLanguageOverviewParagraph"); ("variationPoint", o_obj "VariationPoint"); ("longName", o_obj "MultilanguageLongName"); ("timestamp", o_str); ("uuid", o_str)]);
  ("ISignalGroup", [("short_name", o_str); ("shortNameFragments", l_obj "ShortNameFragment"); ("systemSignalGroupRef", o_ref); ("comBasedSignalGroupTransformationRef", o_ref); ("category", o_lit); ("iSignalRefs", tlist [BRef]); ("introduction", o_obj "DocumentationBlock"); ("transformationISignalProps", l_obj "EndToEndTransformationISignalProps"); ("timestamp", o_str); ("annotations", l_obj "Annotation"); ("adminData", o_obj "AdminData"); ("desc", o_obj "MultiLanguageOverviewParagraph"); ("variationPoint", o_obj "VariationPoint"); ("longName", o_obj "MultilanguageLongName"); ("uuid", o_str)]);
  ("ISignalMapping", [("targetSignalRef", o_ref); ("sourceSignalRef", o_ref)]);
  ("ISignalToIPduMapping", [("short_name", o_str); ("shortNameFragments", l_obj "ShortNameFragment"); ("startPosition", o_num); ("iSignalRef", o_ref); ("iSignalGroupRef", o_ref); ("introduction", o_obj "DocumentationBlock"); ("packingByteOrder", o_lit); ("transferProperty", o_lit); ("timestamp", o_str); ("updateIndicationBitPosition", o_num); ("uuid", o_str); ("annotations", l_obj "Annotation"); ("adminData", o_obj "AdminData"); ("category", o_lit); ("desc", o_obj "MultiLanguageOverviewParagraph"); ("variationPoint", o_obj "VariationPoint"); ("longName", o_obj "MultilanguageLongName")]);
  ("ISignalTriggering", [("short_name", o_str); ("shortNameFragments", l_obj "ShortNameFragment"); ("iSignalRef", o_ref); ("iSignalGroupRef", o_ref); ("iSignalPortRefs", tlist [BRef]); ("introduction", o_obj "DocumentationBlock"); ("annotations", l_obj "Annotation"); ("adminData", o_obj "AdminData"); ("category", o_lit); ("desc", o_obj "MultiLanguageOverviewParagraph"); ("variationPoint", o_obj "VariationPoint"); ("longName", o_obj "MultilanguageLongName"); ("timestamp", o_str); ("uuid", o_str)]);
  ("ISignalPort", [("short_name", o_str); ("shortNameFragments", l_obj "ShortNameFragment"); ("desc", o_obj "MultiLanguageOverviewParagraph"); ("timeout", o_num); ("timestamp", o_str); ("communicationDirection", o_lit); ("category", o_lit); ("annotations", l_obj "Annotation"); ("adminData", o_obj "AdminData"); ("introduction", o_obj "DocumentationBlock"); ("variationPoint", o_obj "VariationPoint"); ("longName", o_obj "MultilanguageLongName"); ("uuid", o_str)]);
  ("ISignalProps", [("handleOutOfRange", o_lit)]);
  ("IPduMapping", [("sourceIpduRef", o_ref); ("targetIPdu", o_obj "TargetIPduRef")]);
  ("IPduTiming", [("minimumDelay", o_num); ("transmissionModeDeclaration", o_obj "TransmissionModeDeclaration")]);
  ("IPduPort", [("short_name", o_str); ("shortNameFragments", l_obj "ShortNameFragment"); ("introduction", o_obj "DocumentationBlock"); ("keyId", o_num); ("rxSecurityVerification", o_bool); ("timestamp", o_str); ("useAuthDataFreshness", o_bool); ("uuid", o_str); ("communicationDirection", o_lit); ("category", o_lit); ("annotations", l_obj "Annotation"); ("adminData", o_obj "AdminData"); ("desc", o_obj "MultiLanguageOverviewParagraph"); ("variationPoint", o_obj "VariationPoint"); ("longName", o_obj "MultilanguageLongName")]);
  ("InnerDataPrototypeGroupInCompositionInstanceRef", [("contextSwComponentPrototypeRefs", tlist [BRef]); ("targetDataPrototypeGroupRef", o_ref)]);
  ("InnerRunnableEntityGroupInCompositionInstanceRef", [("contextSwComponentPrototypeRefs", tlist [BRef]); ("targetRunnableEntityGroupRef", o_ref)]);
  ("InnerPortGroupInCompositionInstanceRef", [("targetRef", o_ref)]);
  ("InvalidationPolicy", [("dataElementRef", o_ref); ("handleInvalid", o_lit)]);
  ("InstantiationTimingEventProps", [("period", o_num); ("refinedEventIRef", o_obj "InstanceEventInCompositionInstanceRef"); ("shortLabel", o_lit); ("timestamp", o_str); ("uuid", o_str)]);
  ("InstantiationDataDefProps", [("parameterInstance", o_obj "AutosarParameterRef"); ("swDataDefProps", o_obj "SwDataDefProps"); ("variableInstance", o_obj "AutosarVariableRef"); ("timestamp", o_str); ("uuid", o_str)]);
  ("InstanceEventInCompositionInstanceRef", [("contextComponentPrototypeRefs", tlist [BRef]); ("targetEventRef", o_ref); ("timestamp", o_str); ("uuid", o_str)]);
  ("InternalConstrs", [("lowerLimit", tbase [BLimit; BNone]); ("maxDiff", o_num); ("maxGradient", o_num); ("monotony", o_lit); ("scaleConstrs", l_obj "ScaleConstr"); ("upperLimit", tbase [BLimit; BNone]); ("uuid", o_str); ("timestamp", o_str)]);
  ("InternalTriggerOccurredEvent", [("short_name", o_str); ("shortNameFragments", l_obj "ShortNameFragment"); ("startOnEventRef", o_ref); ("eventSourceRef", o_ref); ("disabledModeIRefs", l_obj "RModeInAtomicSwcInstanceRef"); ("desc", o_obj "MultiLanguageOverviewParagraph"); ("annotations", l_obj "Annotation"); ("adminData", o_obj "AdminData"); ("activationReasonRepresentationRef", o_ref); ("category", o_lit); ("introduction", o_obj "DocumentationBlock"); ("variationPoint", o_obj "VariationPoint"); ("longName", o_obj "MultilanguageLongName"); ("timestamp", o_str); ("uuid", o_str)]);
  ("InternalTriggeringPoint", [("short_name", o_str); ("sw_impl_policy", o_lit)]);
  ("IntegerValueVariationPoint", [("bindingTime", tbase [BLit; BLit; BNone]); ("blueprintValue", o_lit); ("sd", o_lit); ("shortLabel", o_lit); ("_text", o_str); ("timestamp", o_str); ("uuid", o_str)]);
  ("IndexEntry", [("value", o_lit); ("sub", o_lit); ("sup", o_lit)]);
  ("IndentSample", [("itemLabelPos", o_lit); ("l2s", l_obj "LOverviewParagraph"); ("timestamp", o_str); ("uuid", o_str)]);
  ("IndicatorStatusNeeds", [("short_name", o_str); ("shortNameFragments", l_obj "ShortNameFragment"); ("type", o_lit); ("timestamp", o_str); ("annotations", l_obj "Annotation"); ("adminData", o_obj "AdminData"); ("category", o_lit); ("introduction", o_obj "DocumentationBlock"); ("desc", o_obj "MultiLanguageOverviewParagraph"); ("variationPoint", o_obj "VariationPoint"); ("longName", o_obj "MultilanguageLongName"); ("uuid", o_str)]);
  ("IncludedModeDeclarationGroupSet", [("mode_declaration_group_refs", tlist [BRef]); ("prefix", o_lit)]);
  ("InitEvent", [("short_name", o_str); ("shortNameFragments", l_obj "ShortNameFragment"); ("startOnEventRef", o_ref); ("disabledModeIRefs", l_obj "RModeInAtomicSwcInstanceRef"); ("desc", o_obj "MultiLanguageOverviewParagraph"); ("annotations", l_obj "Annotation"); ("adminData", o_obj "AdminData"); ("activationReasonRepresentationRef", o_ref); ("category", o_lit); ("introduction", o_obj "DocumentationBlock"); ("variationPoint", o_obj "VariationPoint"); ("longName", o_obj "MultilanguageLongName"); ("timestamp", o_str); ("uuid", o_str)]);
  ("InitialSdDelayConfig", [("initialDelayMaxValue", o_num); ("initialDelayMinValue", o_num); ("initialRepetitionsBaseDelay", o_num); ("initialRepetitionsMax", o_num)]);
  ("InfrastructureServices", [("doIpEntity", o_obj "DoIpEntity")]);
  ("IoHwAbstractionServerAnnotation", [("filteringDebouncing", o_lit); ("pulseTest", o_lit); ("triggerRef", o_ref)]);
  ("IdsMgrNeeds", [("short_name", o_str); ("shortNameFragments", l_obj "ShortNameFragment"); ("useSmartSensorApi", o_bool); ("uuid", o_str); ("annotations", l_obj "Annotation"); ("adminData", o_obj "AdminData"); ("category", o_lit); ("introduction", o_obj "DocumentationBlock"); ("desc", o_obj "MultiLanguageOverviewParagraph"); ("variationPoint", o_obj "VariationPoint"); ("longName", o_obj "MultilanguageLongName"); ("timestamp", o_str)]);
  ("Ipv6Configuration", [("assignmentPriority", o_num); ("defaultRouter", o_lit); ("enableAnycast", o_bool); ("hopCount", o_num); ("ipAddressPrefixLength", o_num); ("ipv6Address", o_lit); ("ipv6AddressSource", o_lit)]);
  ("Trigger", [("short_name", o_str); ("shortNameFragments", l_obj "ShortNameFragment"); ("timestamp", o_str); ("annotations", l_obj "Annotation"); ("adminData", o_obj "AdminData"); ("category", o_lit); ("introduction", o_obj "DocumentationBlock"); ("desc", o_obj "MultiLanguageOverviewParagraph"); ("variationPoint", o_obj "VariationPoint"); ("longName", o_obj "MultilanguageLongName"); ("uuid", o_str)]);
  ("TriggerInterface", [("short_name", o_str); ("shortNameFragments", l_obj "ShortNameFragment"); ("introduction", o_obj "DocumentationBlock"); ("annotations", l_obj "Annotation"); ("adminData", o_obj "AdminData"); ("category", o_lit); ("desc", o_obj "MultiLanguageOverviewParagraph"); ("variationPoint", o_obj "VariationPoint"); ("longName", o_obj "MultilanguageLongName"); ("timestamp", o_str); ("uuid", o_str)]);
  ("TriggerPortAnnotation", [("triggerRef", o_ref)]);
  ("TransformationTechnology", [("short_name", o_str); ("shortNameFragments", l_obj "ShortNameFragment"); ("bufferProperties", o_obj "BufferProperties"); ("hasInternalState", o_bool); ("needsOriginalData", o_bool); ("protocol", o_lit); ("transformationDescription", o_obj "EndToEndTransformationDescription"); ("transformerClass", o_lit); ("timestamp", o_str); ("version", o_lit); ("variationPoint", o_obj "VariationPoint"); ("annotations", l_obj "Annotation"); ("adminData", o_obj "AdminData"); ("category", o_lit); ("introduction", o_obj "DocumentationBlock"); ("desc", o_obj "MultiLanguageOverviewParagraph"); ("longName", o_obj "MultilanguageLongName"); ("uuid", o_str)]);
  ("TransmissionModeDeclaration", [("transmissionModeConditions", l_obj "TransmissionModeCondition"); ("transmissionModeFalseTiming", o_obj "TransmissionModeTiming"); ("transmissionModeTrueTiming", o_obj "TransmissionModeTiming")]);
  ("TransmissionModeTiming", [("cyclicTiming", o_obj "CyclicTiming"); ("eventControlledTiming", o_obj "EventControlledTiming")]);
  ("TransmissionModeCondition", [("dataFilter", o_obj "DataFilter"); ("iSignalInIPduRef", o_ref)]);
  ("TransmissionAcknowledgementRequest", [("timeout", o_num); ("timestamp", o_str); ("uuid", o_str)]);
  ("TransmissionComSpecProps", [("dataUpdatePeriod", o_num); ("minimumSendInterval", o_num); ("transmissionMode", o_lit); ("timestamp", o_str); ("uuid", o_str)]);
  ("TransientFault", [("short_name", o_str); ("shortNameFragments", l_obj "ShortNameFragment"); ("possibleErrorReactions", l_obj "PossibleErrorReaction"); ("id", o_num); ("introduction", o_obj "DocumentationBlock"); ("annotations", l_obj "Annotation"); ("adminData", o_obj "AdminData"); ("category", o_lit); ("desc", o_obj "MultiLanguageOverviewParagraph"); ("variationPoint", o_obj "VariationPoint"); ("longName", o_obj "MultilanguageLongName"); ("timestamp", o_str); ("uuid", o_str)]);
  ("TraceableText", [("text", o_obj "DocumentationBlock"); ("traceRefs", tlist [BRef; BRef]); ("timestamp", o_str); ("uuid", o_str)]);
  ("TpAddress", [("short_name", o_str); ("shortNameFragments", l_obj "ShortNameFragment"); ("tpAddress", o_num); ("timestamp", o_str); ("annotations", l_obj "Annotation"); ("adminData", o_obj "AdminData"); ("category", o_lit); ("introduction", o_obj "DocumentationBlock"); ("desc", o_obj "MultiLanguageOverviewParagraph"); ("variationPoint", o_obj "VariationPoint"); ("longName", o_obj "MultilanguageLongName"); ("uuid", o_str)]);
  ("TpConnectionIdent", [("short_name", o_str); ("shortNameFragments", l_obj "ShortNameFragment"); ("timestamp", o_str); ("uuid", o_str)]);
  ("TpPort", [("dynamicallyAssigned", o_bool); ("portNumber", o_num)]);
  ("TopicOrMsrQuery", [("msrQueryTopic1", o_obj "MsrQueryTopic1"); ("topic1", l_obj "Topic1")]);
  ("Topic1", [("short_name", o_str); ("shortNameFragments", l_obj "ShortNameFragment"); ("helpEntry", tbase [BLit; BLit; BNone]); ("topicContent", o_obj "TopicContentOrMsrQuery"); ("timestamp", o_str); ("annotations", l_obj "Annotation"); ("adminData", o_obj "AdminData"); ("category", o_lit); ("introduction", o_obj "DocumentationBlock"); ("desc", o_obj "MultiLanguageOverviewParagraph"); ("variationPoint", o_obj "VariationPoint"); ("longName", o_obj "MultilanguageLongName"); ("uuid", o_str)]);
  ("TopicContent", [("blockLevelContent", o_obj "DocumentationBlock"); ("timestamp", o_str); ("uuid", o_str)]);
  ("TopicContentOrMsrQuery", [("msrQueryP1", o_obj "MsrQueryP1"); ("topicContent", o_obj "TopicContent")]);
  ("TextValueSpecification", [("value", o_lit); ("shortLabel", o_lit); ("timestamp", o_str); ("uuid", o_str)]);
  ("TextTableMapping", [("bitfieldTextTableMaskFirst", o_num); ("bitfieldTextTableMaskSecond", o_num); ("identicalMapping", o_bool); ("mappingDirection", o_lit)]);
  ("TargetIPduRef", [("targetIPdu", o_ref)]);
  ("Tt", [("value", o_lit); ("texRender", o_lit); ("type", o_lit)]);
  ("TimingEvent", [("short_name", o_str); ("shortNameFragments", l_obj "ShortNameFragment"); ("startOnEventRef", o_ref); ("offset", o_num); ("period", o_num); ("disabledModeIRefs", l_obj "RModeInAtomicSwcInstanceRef"); ("desc", o_obj "MultiLanguageOverviewParagraph"); ("annotations", l_obj "Annotation"); ("adminData", o_obj "AdminData"); ("activationReasonRepresentationRef", o_ref); ("category", o_lit); ("introduction", o_obj "DocumentationBlock"); ("variationPoint", o_obj "VariationPoint"); ("longName", o_obj "MultilanguageLongName"); ("timestamp", o_str); ("uuid", o_str)]);
  ("TimeRangeType", [("value", o_num)]);
  ("TimeValueValueVariationPoint", [("bindingTime", tbase [BLit; BLit; BNone]); ("blueprintValue", o_lit); ("sd", o_lit); ("shortLabel", o_lit); ("_text", o_str); ("timestamp", o_str); ("uuid", o_str)]);
  ("TcpTp", [("keepAliveInterval", o_num); ("keepAliveProbesMax", o_num); ("keepAlives", o_bool); ("keepAliveTime", o_num); ("naglesAlgorithm", o_lit); ("tcpTpPort", o_obj "TpPort")]);
  ("NvBlockSwComponentType", [("short_name", o_str); ("shortNameFragments", l_obj "ShortNameFragment"); ("symbolProps", o_obj "SymbolProps"); ("swcMappingConstraintsRefs", tlist [BRef]); ("swComponentDocumentation", o_obj "SwComponentDocumentation"); ("bulkNvDataDescriptors", l_obj "BulkNvDataDescriptor"); ("nvBlockDescriptors", l_obj "NvBlockDescriptor"); ("internalBehavior", o_obj "SwcInternalBehavior"); ("introduction", o_obj "DocumentationBlock"); ("consistencyNeeds", l_obj "ConsistencyNeeds"); ("category", o_lit); ("ports", tlist [BObj "PRPortPrototype"; BObj "RPortPrototype"; BObj "PPortPrototype"]); ("portGroups", l_obj "PortGroup"); ("unitGroupRefs", tlist [BRef]); ("uuid", o_str); ("annotations", l_obj "Annotation"); ("adminData", o_obj "AdminData"); ("desc", o_obj "MultiLanguageOverviewParagraph"); ("variationPoint", o_obj "VariationPoint"); ("longName", o_obj "MultilanguageLongName"); ("timestamp", o_str)]);
  ("NvBlockDescriptor", [("short_name", o_str); ("shortNameFragments", l_obj "ShortNameFragment"); ("supportDirtyFlag", o_bool); ("clientServerPorts", l_obj "RoleBasedPortAssignment"); ("constantValueMappingRefs", tlist [BRef]); ("category", o_lit); ("dataTypeMappingRefs", tlist [BRef]); ("desc", o_obj "MultiLanguageOverviewParagraph"); ("instantiationDataDefPropss", l_obj "InstantiationDataDefProps"); ("introduction", o_obj "DocumentationBlock"); ("modeSwitchEventTriggeredActivitys", l_obj "ModeSwitchEventTriggeredActivity"); ("nvBlockDataMappings", l_obj "NvBlockDataMapping"); ("nvBlockNeeds", o_obj "NvBlockNeeds"); ("ramBlock", o_obj "VariableDataPrototype"); ("romBlock", o_obj "ParameterDataPrototype"); ("timingEventRef", o_ref); ("timestamp", o_str); ("writingStrategies", l_obj "RoleBasedDataAssignment"); ("annotations", l_obj "Annotation"); ("adminData", o_obj "AdminData"); ("variationPoint", o_obj "VariationPoint"); ("longName", o_obj "MultilanguageLongName"); ("uuid", o_str)]);
  ("NvBlockDataMapping", [("bitfieldTextTableMaskNvBlockDescriptor", o_num); ("bitfieldTextTableMaskPortPrototype", o_num); ("nvRamBlockElement", o_obj "AutosarVariableRef"); ("readNvData", o_obj "AutosarVariableRef"); ("writtenNvData", o_obj "AutosarVariableRef"); ("writtenReadNvData", o_obj "AutosarVariableRef")]);
  ("NvBlockNeeds", [("short_name", o_str); ("shortNameFragments", l_obj "ShortNameFragment"); ("storeAtShutdown", o_bool); ("storeCyclic", o_bool); ("storeEmergency", o_bool); ("storeImmediate", o_bool); ("calcRamBlockCrc", o_bool); ("category", o_lit); ("checkStaticBlockId", o_bool); ("nDataSets", o_num); ("nRomBlocks", o_num); ("ramBlockStatusControl", o_lit); ("readonly", o_bool); ("reliability", o_lit); ("resistantToChangedSw", o_bool); ("restoreAtStart", o_bool); ("useAutoValidationAtShutDown", o_bool); ("useCRCCompMechanism", o_bool); ("uuid", o_str); ("writeOnlyOnce", o_bool); ("writeVerification", o_bool); ("writingFrequency", o_num); ("writingPriority", o_lit); ("annotations", l_obj "Annotation"); ("adminData", o_obj "AdminData"); ("introduction", o_obj "DocumentationBlock"); ("desc", o_obj "MultiLanguageOverviewParagraph"); ("variationPoint", o_obj "VariationPoint"); ("longName", o_obj "MultilanguageLongName"); ("timestamp", o_str)]);
  ("NvDataInterface", [("short_name", o_str); ("shortNameFragments", l_obj "ShortNameFragment"); ("serviceKind", o_lit); ("elements/VariableDataPrototype", l_obj "VariableDataPrototype"); ("isService", o_bool); ("introduction", o_obj "DocumentationBlock"); ("annotations", l_obj "Annotation"); ("adminData", o_obj "AdminData"); ("category", o_lit); ("desc", o_obj "MultiLanguageOverviewParagraph"); ("variationPoint", o_obj "VariationPoint"); ("longName", o_obj "MultilanguageLongName"); ("timestamp", o_str); ("uuid", o_str)]);
  ("NvDataPortAnnotation", [("variableRef", o_ref)]);
  ("NvProvideComSpec", [("ramBlockInitValue", tbase [BObj "ApplicationRuleBasedValueSpecification"; BObj "ApplicationValueSpecification"; BObj "ConstantReference"; BObj "TextValueSpecification"; BObj "ArrayValueSpecification"; BObj "NumericalValueSpecification"; BObj "RecordValueSpecification"; BObj "CompositeRuleBasedValueSpecification"; BNone]); ("romBlockInitValue", tbase [BObj "ApplicationRuleBasedValueSpecification"; BObj "ApplicationValueSpecification"; BObj "ConstantReference"; BObj "TextValueSpecification"; BObj "ArrayValueSpecification"; BObj "NumericalValueSpecification"; BObj "RecordValueSpecification"; BObj "CompositeRuleBasedValueSpecification"; BNone]); ("variableRef", o_ref); ("timestamp", o_str); ("uuid", o_str)]);
  ("NvRequireComSpec", [("initValue", tbase [BObj "ApplicationRuleBasedValueSpecification"; BObj "ApplicationValueSpecification"; BObj "ConstantReference"; BObj "TextValueSpecification"; BObj "ArrayValueSpecification"; BObj "NumericalValueSpecification"; BObj "RecordValueSpecification"; BObj "CompositeRuleBasedValueSpecification"; BNone]); ("variableRef", o_ref); ("timestamp", o_str); ("uuid", o_str)]);
  ("NmPdu", [("short_name", o_str); ("shortNameFragments", l_obj "ShortNameFragment"); ("iSignalToIPduMappings", l_obj "ISignalToIPduMapping"); ("introduction", o_obj "DocumentationBlock"); ("unusedBitPattern", o_num); ("uuid", o_str); ("hasDynamicLength", o_bool); ("length", o_num); ("longName", o_obj "MultilanguageLongName"); ("annotations", l_obj "Annotation"); ("adminData", o_obj "AdminData"); ("category", o_lit); ("desc", o_obj "MultiLanguageOverviewParagraph"); ("variationPoint", o_obj "VariationPoint"); ("timestamp", o_str)]);
  ("NmConfig", [("short_name", o_str); ("shortNameFragments", l_obj "ShortNameFragment"); ("nmClusterCouplings", tlist [BObj "UdpNmClusterCoupling"; BObj "CanNmClusterCoupling"]); ("nmIfEcus", l_obj "NmEcu"); ("elements/NmCluster", tlist [BObj "UdpNmCluster"; BObj "CanNmCluster"]); ("annotations", l_obj "Annotation"); ("adminData", o_obj "AdminData"); ("category", o_lit); ("introduction", o_obj "DocumentationBlock"); ("desc", o_obj "MultiLanguageOverviewParagraph"); ("variationPoint", o_obj "VariationPoint"); ("longName", o_obj "MultilanguageLongName"); ("timestamp", o_str); ("uuid", o_str)]);
  ("NmEcu", [("short_name", o_str); ("shortNameFragments", l_obj "ShortNameFragment"); ("busDependentNmEcus", l_obj "UdpNmEcu"); ("ecuInstanceRef", o_ref); ("nmBusSynchronizationEnabled", o_bool); ("nmComControlEnabled", o_bool); ("nmNodeDetectionEnabled", o_bool); ("nmNodeIdEnabled", o_bool); ("nmPduRxIndicationEnabled", o_bool); ("nmRemoteSleepIndEnabled", o_bool); ("nmRepeatMsgIndEnabled", o_bool); ("nmStateChangeIndEnabled", o_bool); ("nmUserDataEnabled", o_bool); ("annotations", l_obj "Annotation"); ("adminData", o_obj "AdminData"); ("category", o_lit); ("introduction", o_obj "DocumentationBlock"); ("desc", o_obj "MultiLanguageOverviewParagraph"); ("variationPoint", o_obj "VariationPoint"); ("longName", o_obj "MultilanguageLongName"); ("timestamp", o_str); ("uuid", o_str)]);
  ("NPdu", [("short_name", o_str); ("shortNameFragments", l_obj "ShortNameFragment"); ("containedIPduProps", o_obj "ContainedIPduProps"); ("category", o_lit); ("hasDynamicLength", o_bool); ("length", o_num); ("longName", o_obj "MultilanguageLongName"); ("annotations", l_obj "Annotation"); ("adminData", o_obj "AdminData"); ("introduction", o_obj "DocumentationBlock"); ("desc", o_obj "MultiLanguageOverviewParagraph"); ("variationPoint", o_obj "VariationPoint"); ("timestamp", o_str); ("uuid", o_str)]);
  ("NumericalValueSpecification", [("value", o_num); ("shortLabel", o_lit); ("timestamp", o_str); ("uuid", o_str)]);
  ("NumericalValueVariationPoint", [("bindingTime", tbase [BLit; BLit; BNone]); ("blueprintValue", o_lit); ("sd", o_lit); ("shortLabel", o_lit); ("_text", o_str); ("timestamp", o_str); ("uuid", o_str)]);
  ("NumericalOrText", [("vf", o_num); ("vt", o_lit); ("timestamp", o_str); ("uuid", o_str)]);
  ("NetworkEndpoint", [("short_name", o_str); ("shortNameFragments", l_obj "ShortNameFragment"); ("infrastructureServices", o_obj "InfrastructureServices"); ("introduction", o_obj "DocumentationBlock"); ("networkEndpointAddresses", l_obj "Ipv6Configuration"); ("priority", o_num); ("annotations", l_obj "Annotation"); ("adminData", o_obj "AdminData"); ("category", o_lit); ("desc", o_obj "MultiLanguageOverviewParagraph"); ("variationPoint", o_obj "VariationPoint"); ("longName", o_obj "MultilanguageLongName"); ("timestamp", o_str); ("uuid", o_str)]);
  ("NonqueuedSenderComSpec", [("dataFilter", o_obj "DataFilter"); ("dataElementRef", o_ref); ("initValue", tbase [BObj "ApplicationRuleBasedValueSpecification"; BObj "ApplicationValueSpecification"; BObj "ConstantReference"; BObj "TextValueSpecification"; BObj "ArrayValueSpecification"; BObj "NumericalValueSpecification"; BObj "RecordValueSpecification"; BObj "CompositeRuleBasedValueSpecification"; BNone]); ("compositeNetworkRepresentations", l_obj "CompositeNetworkRepresentation"); ("handleOutOfRange", o_lit); ("networkRepresentation", o_obj "SwDataDefProps"); ("transmissionAcknowledge", o_obj "TransmissionAcknowledgementRequest"); ("transmissionProps", o_obj "TransmissionComSpecProps"); ("timestamp", o_str); ("usesEndToEndProtection", o_bool); ("uuid", o_str)]);
  ("NonqueuedReceiverComSpec", [("aliveTimeout", o_num); ("enableUpdate", o_bool); ("filter", o_obj "DataFilter"); ("handleDataStatus", o_bool); ("handleNeverReceived", o_bool); ("handleTimeoutType", o_lit); ("handleOutOfRange", o_lit); ("handleOutOfRangeStatus", o_lit); ("initValue", tbase [BObj "ApplicationRuleBasedValueSpecification"; BObj "ApplicationValueSpecification"; BObj "ConstantReference"; BObj "TextValueSpecification"; BObj "ArrayValueSpecification"; BObj "NumericalValueSpecification"; BObj "RecordValueSpecification"; BObj "CompositeRuleBasedValueSpecification"; BNone]); ("timeoutSubstitutionValue", tbase [BObj "ApplicationRuleBasedValueSpecification"; BObj "ApplicationValueSpecification"; BObj "ConstantReference"; BObj "TextValueSpecification"; BObj "ArrayValueSpecification"; BObj "NumericalValueSpecification"; BObj "RecordValueSpecification"; BObj "CompositeRuleBasedValueSpecification"; BNone]); ("timestamp", o_str); ("transformationComSpecProps", tlist [BObj "EndToEndTransformationComSpecProps"; BObj "UserDefinedTransformationComSpecProps"]); ("compositeNetworkRepresentations", l_obj "CompositeNetworkRepresentation"); ("dataElementRef", o_ref); ("maxDeltaCounterInit", o_num); ("maxNoNewOrRepeatedData", o_num); ("networkRepresentation", o_obj "SwDataDefProps"); ("receptionProps", o_obj "ReceptionComSpecProps"); ("replaceWith", o_obj "VariableAccess"); ("syncCounterInit", o_num); ("usesEndToEndProtection", o_bool); ("uuid", o_str)]);
  ("Note", [("label", o_obj "MultilanguageLongName"); ("noteText", o_obj "DocumentationBlock"); ("noteType", o_lit); ("timestamp", o_str); ("uuid", o_str)]);
  ("Gateway", [("short_name", o_str); ("shortNameFragments", l_obj "ShortNameFragment"); ("signalMappings", l_obj "ISignalMapping"); ("ecuRef", o_ref); ("iPduMappings", l_obj "IPduMapping"); ("introduction", o_obj "DocumentationBlock"); ("annotations", l_obj "Annotation"); ("adminData", o_obj "AdminData"); ("category", o_lit); ("desc", o_obj "MultiLanguageOverviewParagraph"); ("variationPoint", o_obj "VariationPoint"); ("longName", o_obj "MultilanguageLongName"); ("timestamp", o_str); ("uuid", o_str)]);
  ("GenericEthernetFrame", [("short_name", o_str); ("shortNameFragments", l_obj "ShortNameFragment"); ("frameLength", o_num); ("elements/PduToFrameMapping", l_obj "PduToFrameMapping"); ("annotations", l_obj "Annotation"); ("adminData", o_obj "AdminData"); ("category", o_lit); ("introduction", o_obj "DocumentationBlock"); ("desc", o_obj "MultiLanguageOverviewParagraph"); ("variationPoint", o_obj "VariationPoint"); ("longName", o_obj "MultilanguageLongName"); ("timestamp", o_str); ("uuid", o_str)]);
  ("GenericTp", [("tpAddress", o_lit); ("tpTechnology", o_lit)]);
  ("GeneralPurposePdu", [("short_name", o_str); ("shortNameFragments", l_obj "ShortNameFragment"); ("hasDynamicLength", o_bool); ("length", o_num); ("longName", o_obj "MultilanguageLongName"); ("annotations", l_obj "Annotation"); ("adminData", o_obj "AdminData"); ("category", o_lit); ("introduction", o_obj "DocumentationBlock"); ("desc", o_obj "MultiLanguageOverviewParagraph"); ("variationPoint", o_obj "VariationPoint"); ("timestamp", o_str); ("uuid", o_str)]);
  ("GeneralPurposeIPdu", [("short_name", o_str); ("shortNameFragments", l_obj "ShortNameFragment"); ("containedIPduProps", o_obj "ContainedIPduProps"); ("category", o_lit); ("hasDynamicLength", o_bool); ("length", o_num); ("longName", o_obj "MultilanguageLongName"); ("annotations", l_obj "Annotation"); ("adminData", o_obj "AdminData"); ("introduction", o_obj "DocumentationBlock"); ("desc", o_obj "MultiLanguageOverviewParagraph"); ("variationPoint", o_obj "VariationPoint"); ("timestamp", o_str); ("uuid", o_str)]);
  ("Graphic", [("filename", o_str)]);
  ("PhysicalDimension", [("short_name", o_str); ("shortNameFragments", l_obj "ShortNameFragment"); ("currentExp", o_num); ("category", o_lit); ("lengthExp", o_num); ("luminousIntensityExp", o_num); ("longName", o_obj "MultilanguageLongName"); ("massExp", o_num); ("molarAmountExp", o_num); ("temperatureExp", o_num); ("timeExp", o_num); ("timestamp", o_str); ("annotations", l_obj "Annotation"); ("adminData", o_obj "AdminData"); ("introduction", o_obj "DocumentationBlock"); ("desc", o_obj "MultiLanguageOverviewParagraph"); ("variationPoint", o_obj "VariationPoint"); ("uuid", o_str)]);
  ("PhysConstrs", [("lowerLimit", tbase [BLimit; BNone]); ("maxDiff", o_num); ("maxGradient", o_num); ("monotony", o_lit); ("scaleConstrs", l_obj "ScaleConstr"); ("unitRef", o_ref); ("upperLimit", tbase [BLimit; BNone]); ("uuid", o_str); ("timestamp", o_str)]);
  ("ParameterInterface", [("short_name", o_str); ("shortNameFragments", l_obj "ShortNameFragment"); ("serviceKind", o_lit); ("parameters", l_obj "ParameterDataPrototype"); ("isService", o_bool); ("introduction", o_obj "DocumentationBlock"); ("annotations", l_obj "Annotation"); ("adminData", o_obj "AdminData"); ("category", o_lit); ("desc", o_obj "MultiLanguageOverviewParagraph"); ("variationPoint", o_obj "VariationPoint"); ("longName", o_obj "MultilanguageLongName"); ("timestamp", o_str); ("uuid", o_str)]);
  ("ParameterInAtomicSWCTypeInstanceRef", [("contextDataPrototypeRefs", tlist [BRef]); ("portPrototypeRef", o_ref); ("rootParameterDataPrototypeRef", o_ref); ("targetDataPrototypeRef", o_ref)]);
  ("ParameterDataPrototype", [("short_name", o_str); ("shortNameFragments", l_obj "ShortNameFragment"); ("swDataDefProps", o_obj "SwDataDefProps"); ("initValue", tbase [BObj "ApplicationRuleBasedValueSpecification"; BObj "ApplicationValueSpecification"; BObj "ConstantReference"; BObj "TextValueSpecification"; BObj "ArrayValueSpecification"; BObj "NumericalValueSpecification"; BObj "RecordValueSpecification"; BObj "CompositeRuleBasedValueSpecification"; BNone]); ("introduction", o_obj "DocumentationBlock"); ("typeTRef", o_ref); ("timestamp", o_str); ("annotations", l_obj "Annotation"); ("adminData", o_obj "AdminData"); ("category", o_lit); ("desc", o_obj "MultiLanguageOverviewParagraph"); ("variationPoint", o_obj "VariationPoint"); ("longName", o_obj "MultilanguageLongName"); ("uuid", o_str)]);
  ("ParameterPortAnnotation", [("parameterRef", o_ref)]);
  ("ParameterProvideComSpec", [("initValue", tbase [BObj "ApplicationRuleBasedValueSpecification"; BObj "ApplicationValueSpecification"; BObj "ConstantReference"; BObj "TextValueSpecification"; BObj "ArrayValueSpecification"; BObj "NumericalValueSpecification"; BObj "RecordValueSpecification"; BObj "CompositeRuleBasedValueSpecification"; BNone]); ("parameterRef", o_ref); ("timestamp", o_str); ("uuid", o_str)]);
  ("ParameterRequireComSpec", [("initValue", tbase [BObj "ApplicationRuleBasedValueSpecification"; BObj "ApplicationValueSpecification"; BObj "ConstantReference"; BObj "TextValueSpecification"; BObj "ArrayValueSpecification"; BObj "NumericalValueSpecification"; BObj "RecordValueSpecification"; BObj "CompositeRuleBasedValueSpecification"; BNone]); ("parameterRef", o_ref); ("timestamp", o_str); ("uuid", o_str)]);
  ("ParameterAccess", [("short_name", o_str); ("shortNameFragments", l_obj "ShortNameFragment"); ("accessedParameter", o_obj "AutosarParameterRef"); ("annotations", l_obj "Annotation"); ("adminData", o_obj "AdminData"); ("category", o_lit); ("introduction", o_obj "DocumentationBlock"); ("desc", o_obj "MultiLanguageOverviewParagraph"); ("variationPoint", o_obj "VariationPoint"); ("longName", o_obj "MultilanguageLongName"); ("timestamp", o_str); ("uuid", o_str)]);
  ("PassThroughSwConnector", [("short_name", o_str); ("shortNameFragments", l_obj "ShortNameFragment"); ("providedOuterPortRef", o_ref); ("requiredOuterPortRef", o_ref); ("mappingRef", o_ref); ("annotations", l_obj "Annotation"); ("adminData", o_obj "AdminData"); ("category", o_lit); ("introduction", o_obj "DocumentationBlock"); ("desc", o_obj "MultiLanguageOverviewParagraph"); ("variationPoint", o_obj "VariationPoint"); ("longName", o_obj "MultilanguageLongName"); ("timestamp", o_str); ("uuid", o_str)]);
  ("PortInterfaceMappingSet", [("short_name", o_str); ("shortNameFragments", l_obj "ShortNameFragment"); ("portInterfaceMappings", tlist [BObj "ModeInterfaceMapping"; BObj "ClientServerInterfaceMapping"; BObj "VariableAndParameterInterfaceMapping"]); ("annotations", l_obj "Annotation"); ("adminData", o_obj "AdminData"); ("category", o_lit); ("introduction", o_obj "DocumentationBlock"); ("desc", o_obj "MultiLanguageOverviewParagraph"); ("variationPoint", o_obj "VariationPoint"); ("longName", o_obj "MultilanguageLongName"); ("timestamp", o_str); ("uuid", o_str)]);
  ("PortPrototypeBlueprint", [("short_name", o_str); ("shortNameFragments", l_obj "ShortNameFragment"); ("interfaceRef", o_ref); ("introduction", o_obj "DocumentationBlock"); ("annotations", l_obj "Annotation"); ("adminData", o_obj "AdminData"); ("category", o_lit); ("desc", o_obj "MultiLanguageOverviewParagraph"); ("variationPoint", o_obj "VariationPoint"); ("longName", o_obj "MultilanguageLongName"); ("timestamp", o_str); ("uuid", o_str)]);
  ("PortGroup", [("short_name", o_str); ("shortNameFragments", l_obj "ShortNameFragment"); ("_inner_group_iref", l_obj "InnerPortGroupInCompositionInstanceRef"); ("_outer_port_ref", tlist [BRef; BNone]); ("annotations", l_obj "Annotation"); ("adminData", o_obj "AdminData"); ("category", o_lit); ("introduction", o_obj "DocumentationBlock"); ("desc", o_obj "MultiLanguageOverviewParagraph"); ("variationPoint", o_obj "VariationPoint"); ("longName", o_obj "MultilanguageLongName"); ("timestamp", o_str); ("uuid", o_str)]);
  ("PortAPIOption", [("enableTakeAddress", o_bool); ("errorHandling", o_lit); ("indirectAPI", o_bool); ("portRef", o_ref); ("portArgValues", l_obj "PortDefinedArgumentValue")]);
  ("PortDefinedArgumentValue", [("value", tbase [BObj "ApplicationRuleBasedValueSpecification"; BObj "ApplicationValueSpecification"; BObj "ConstantReference"; BObj "TextValueSpecification"; BObj "ArrayValueSpecification"; BObj "NumericalValueSpecification"; BObj "RecordValueSpecification"; BObj "CompositeRuleBasedValueSpecification"; BNone]); ("valueTypeTRef", o_ref)]);
  ("PostBuildVariantCriterion", [("short_name", o_str); ("shortNameFragments", l_obj "ShortNameFragment"); ("compuMethodRef", o_ref); ("category", o_lit); ("annotations", l_obj "Annotation"); ("adminData", o_obj "AdminData"); ("introduction", o_obj "DocumentationBlock"); ("desc", o_obj "MultiLanguageOverviewParagraph"); ("variationPoint", o_obj "VariationPoint"); ("longName", o_obj "MultilanguageLongName"); ("timestamp", o_str); ("uuid", o_str)]);
  ("PostBuildVariantCondition", [("matchingCriterionRef", o_ref); ("value", o_num); ("timestamp", o_str); ("uuid", o_str)]);
  ("PositiveIntegerValueVariationPoint", [("bindingTime", tbase [BLit; BLit; BNone]); ("blueprintValue", o_lit); ("sd", o_lit); ("shortLabel", o_lit); ("_text", o_str); ("timestamp", o_str); ("uuid", o_str)]);
  ("PossibleErrorReaction", [("short_name", o_str); ("shortNameFragments", l_obj "ShortNameFragment"); ("reactionCode", o_num); ("annotations", l_obj "Annotation"); ("adminData", o_obj "AdminData"); ("category", o_lit); ("introduction", o_obj "DocumentationBlock"); ("desc", o_obj "MultiLanguageOverviewParagraph"); ("variationPoint", o_obj "VariationPoint"); ("longName", o_obj "MultilanguageLongName"); ("timestamp", o_str); ("uuid", o_str)]);
  ("PredefinedVariant", [("short_name", o_str); ("shortNameFragments", l_obj "ShortNameFragment"); ("swSystemconstantValueSetRefs", tlist [BRef]); ("includedVariantRefs", tlist [BRef]); ("introduction", o_obj "DocumentationBlock"); ("postBuildVariantCriterionValueSetRefs", tlist [BRef]); ("annotations", l_obj "Annotation"); ("adminData", o_obj "AdminData"); ("category", o_lit); ("desc", o_obj "MultiLanguageOverviewParagraph"); ("variationPoint", o_obj "VariationPoint"); ("longName", o_obj "MultilanguageLongName"); ("timestamp", o_str); ("uuid", o_str)]);
  ("PredefinedChapter", [("chapterModel", o_obj "ChapterModel")]);
  ("ProvidedServiceInstance", [("short_name", o_str); ("shortNameFragments", l_obj "ShortNameFragment"); ("sdServerConfig", o_obj "SdServerConfig"); ("sdServerTimerConfigRef", o_ref); ("serviceIdentifier", o_num); ("allowedServiceConsumerRefs", tlist [BRef]); ("autoAvailable", o_bool); ("annotations", l_obj "Annotation"); ("adminData", o_obj "AdminData"); ("eventHandlers", l_obj "EventHandler"); ("instanceIdentifier", o_num); ("introduction", o_obj "DocumentationBlock"); ("loadBalancingPriority", o_num); ("loadBalancingWeight", o_num); ("localUnicastAddressRefs", tlist [BRef]); ("longName", o_obj "MultilanguageLongName"); ("minorVersion", o_num); ("priority", o_num); ("remoteMulticastSubscriptionAddressRefs", tlist [BRef]); ("remoteUnicastAddressRefs", tlist [BRef]); ("category", o_lit); ("desc", o_obj "MultiLanguageOverviewParagraph"); ("variationPoint", o_obj "VariationPoint"); ("timestamp", o_str); ("uuid", o_str)]);
  ("PModeGroupInAtomicSwcInstanceRef", [("contextPPortRef", o_ref); ("contextPortRef", o_ref); ("targetModeGroupRef", o_ref); ("baseRef", o_ref)]);
  ("PTriggerInAtomicSwcTypeInstanceRef", [("contextPPortRef", o_ref); ("targetTriggerRef", o_ref)]);
  ("PduToFrameMapping", [("short_name", o_str); ("shortNameFragments", l_obj "ShortNameFragment"); ("startPosition", o_num); ("packingByteOrder", o_lit); ("pduRef", o_ref); ("uuid", o_str); ("annotations", l_obj "Annotation"); ("adminData", o_obj "AdminData"); ("category", o_lit); ("introduction", o_obj "DocumentationBlock"); ("desc", o_obj "MultiLanguageOverviewParagraph"); ("variationPoint", o_obj "VariationPoint"); ("longName", o_obj "MultilanguageLongName"); ("timestamp", o_str)]);
  ("PduTriggering", [("short_name", o_str); ("shortNameFragments", l_obj "ShortNameFragment"); ("iPduRef", o_ref); ("iPduPortRefs", tlist [BRef]); ("iSignalTriggeringRefs", tlist [BRef; BNone]); ("introduction", o_obj "DocumentationBlock"); ("timestamp", o_str); ("annotations", l_obj "Annotation"); ("adminData", o_obj "AdminData"); ("category", o_lit); ("desc", o_obj "MultiLanguageOverviewParagraph"); ("variationPoint", o_obj "VariationPoint"); ("longName", o_obj "MultilanguageLongName"); ("uuid", o_str)]);
  ("PPortPrototype", [("short_name", o_str); ("shortNameFragments", l_obj "ShortNameFragment"); ("senderReceiverAnnotations", l_obj "SenderReceiverAnnotation"); ("providedInterfaceTRef", o_ref); ("providedComSpecs", tlist [BObj "ModeSwitchSenderComSpec"; BObj "ParameterProvideComSpec"; BObj "NvProvideComSpec"; BObj "QueuedSenderComSpec"; BObj "ServerComSpec"; BObj "NonqueuedSenderComSpec"]); ("parameterPortAnnotations", l_obj "ParameterPortAnnotation"); ("clientServerAnnotations", l_obj "ClientServerAnnotation"); ("category", o_lit); ("delegatedPortAnnotation", o_obj "DelegatedPortAnnotation"); ("desc", o_obj "MultiLanguageOverviewParagraph"); ("ioHwAbstractionServerAnnotations", l_obj "IoHwAbstractionServerAnnotation"); ("introduction", o_obj "DocumentationBlock"); ("modePortAnnotations", l_obj "ModePortAnnotation"); ("nvDataPortAnnotations", l_obj "NvDataPortAnnotation"); ("triggerPortAnnotations", l_obj "TriggerPortAnnotation"); ("timestamp", o_str); ("annotations", l_obj "Annotation"); ("adminData", o_obj "AdminData"); ("variationPoint", o_obj "VariationPoint"); ("longName", o_obj "MultilanguageLongName"); ("uuid", o_str)]);
  ("PPortInCompositionInstanceRef", [("contextComponentRef", o_ref); ("targetPPortRef", o_ref); ("timestamp", o_str); ("uuid", o_str)]);
  ("PRPortPrototype", [("short_name", o_str); ("shortNameFragments", l_obj "ShortNameFragment"); ("senderReceiverAnnotations", l_obj "SenderReceiverAnnotation"); ("providedComSpecs", tlist [BObj "ModeSwitchSenderComSpec"; BObj "ParameterProvideComSpec"; BObj "NvProvideComSpec"; BObj "QueuedSenderComSpec"; BObj "ServerComSpec"; BObj "NonqueuedSenderComSpec"]); ("providedRequiredInterface", o_ref); ("parameterPortAnnotations", l_obj "ParameterPortAnnotation"); ("requiredComSpecs", tlist [BObj "NvRequireComSpec"; BObj "ParameterRequireComSpec"; BObj "ModeSwitchReceiverComSpec"; BObj "QueuedReceiverComSpec"; BObj "ClientComSpec"; BObj "NonqueuedReceiverComSpec"]); ("clientServerAnnotations", l_obj "ClientServerAnnotation"); ("category", o_lit); ("delegatedPortAnnotation", o_obj "DelegatedPortAnnotation"); ("desc", o_obj "MultiLanguageOverviewParagraph"); ("ioHwAbstractionServerAnnotations", l_obj "IoHwAbstractionServerAnnotation"); ("introduction", o_obj "DocumentationBlock"); ("modePortAnnotations", l_obj "ModePortAnnotation"); ("nvDataPortAnnotations", l_obj "NvDataPortAnnotation"); ("triggerPortAnnotations", l_obj "TriggerPortAnnotation"); ("timestamp", o_str); ("annotations", l_obj "Annotation"); ("adminData", o_obj "AdminData"); ("variationPoint", o_obj "VariationPoint"); ("longName", o_obj "MultilanguageLongName"); ("uuid", o_str)]);
  ("PerInstanceMemory", [("short_name", o_str); ("shortNameFragments", l_obj "ShortNameFragment"); ("swDataDefProps", o_obj "SwDataDefProps"); ("initValue", o_lit); ("introduction", o_obj "DocumentationBlock"); ("type", o_lit); ("typeDefinition", o_lit); ("timestamp", o_str); ("annotations", l_obj "Annotation"); ("adminData", o_obj "AdminData"); ("category", o_lit); ("desc", o_obj "MultiLanguageOverviewParagraph"); ("variationPoint", o_obj "VariationPoint"); ("longName", o_obj "MultilanguageLongName"); ("uuid", o_str)]);
  ("POperationInAtomicSwcInstanceRef", [("contextPPortRef", o_ref); ("targetProvidedOperationRef", o_ref); ("timestamp", o_str); ("uuid", o_str)]);
  ("FlatMap", [("short_name", o_str); ("shortNameFragments", l_obj "ShortNameFragment"); ("introduction", o_obj "DocumentationBlock"); ("elements/FlatInstanceDescriptor", l_obj "FlatInstanceDescriptor"); ("annotations", l_obj "Annotation"); ("adminData", o_obj "AdminData"); ("category", o_lit); ("desc", o_obj "MultiLanguageOverviewParagraph"); ("variationPoint", o_obj "VariationPoint"); ("longName", o_obj "MultilanguageLongName"); ("timestamp", o_str); ("uuid", o_str)]);
  ("FlatInstanceDescriptor", [("short_name", o_str); ("shortNameFragments", l_obj "ShortNameFragment"); ("ecuExtractReferenceIRef", o_obj "AnyInstanceRef"); ("upstreamReferenceIRef", o_obj "AnyInstanceRef"); ("uuid", o_str); ("annotations", l_obj "Annotation"); ("adminData", o_obj "AdminData"); ("category", o_lit); ("introduction", o_obj "DocumentationBlock"); ("desc", o_obj "MultiLanguageOverviewParagraph"); ("variationPoint", o_obj "VariationPoint"); ("longName", o_obj "MultilanguageLongName"); ("timestamp", o_str)]);
  ("FlexrayFrame", [("short_name", o_str); ("shortNameFragments", l_obj "ShortNameFragment"); ("frameLength", o_num); ("elements/PduToFrameMapping", l_obj "PduToFrameMapping"); ("annotations", l_obj "Annotation"); ("adminData", o_obj "AdminData"); ("category", o_lit); ("introduction", o_obj "DocumentationBlock"); ("desc", o_obj "MultiLanguageOverviewParagraph"); ("variationPoint", o_obj "VariationPoint"); ("longName", o_obj "MultilanguageLongName"); ("timestamp", o_str); ("uuid", o_str)]);
  ("FlexrayFrameTriggering", [("short_name", o_str); ("shortNameFragments", l_obj "ShortNameFragment"); ("absolutelyScheduledTimings", l_obj "FlexrayAbsolutelyScheduledTiming"); ("allowDynamicLSduLength", o_bool); ("annotations", l_obj "Annotation"); ("adminData", o_obj "AdminData"); ("messageId", o_num); ("payloadPreambleIndicator", o_bool); ("pduTriggeringRefs", tlist [BRef; BNone]); ("frameRef", o_ref); ("framePortRefs", tlist [BRef]); ("category", o_lit); ("introduction", o_obj "DocumentationBlock"); ("desc", o_obj "MultiLanguageOverviewParagraph"); ("variationPoint", o_obj "VariationPoint"); ("longName", o_obj "MultilanguageLongName"); ("timestamp", o_str); ("uuid", o_str)]);
  ("FlexrayFifoConfiguration", [("admitWithoutMessageId", o_bool); ("baseCycle", o_num); ("channelRef", o_ref); ("cycleRepetition", o_num); ("fifoDepth", o_num); ("fifoRange", l_obj "FlexrayFifoRange"); ("msgIdMask", o_num); ("msgIdMatch", o_num)]);
  ("FlexrayFifoRange", [("rangeMax", o_num); ("rangeMin", o_num)]);
  ("FlexrayCluster", [("short_name", o_str); ("shortNameFragments", l_obj "ShortNameFragment"); ("safetyMargin", o_num); ("sampleClockPeriod", o_num); ("staticSlotDuration", o_num); ("symbolWindow", o_num); ("symbolWindowActionPointOffset", o_num); ("syncFrameIdCountMax", o_num); ("actionPointOffset", o_num); ("annotations", l_obj "Annotation"); ("adminData", o_obj "AdminData"); ("bit", o_num); ("baudrate", o_num); ("casRxLowMax", o_num); ("category", o_lit); ("coldStartAttempts", o_num); ("cycle", o_num); ("cycleCountMax", o_num); ("detectNitError", o_bool); ("desc", o_obj "MultiLanguageOverviewParagraph"); ("dynamicSlotIdlePhase", o_num); ("ignoreAfterTx", o_num); ("introduction", o_obj "DocumentationBlock"); ("listenNoise", o_num); ("longName", o_obj "MultilanguageLongName"); ("macroPerCycle", o_num); ("macrotickDuration", o_num); ("maxWithoutClockCorrectionFatal", o_num); ("maxWithoutClockCorrectionPassive", o_num); ("minislotActionPointOffset", o_num); ("minislotDuration", o_num); ("networkIdleTime", o_num); ("networkManagementVectorLength", o_num); ("numberOfMinislots", o_num); ("numberOfStaticSlots", o_num); ("offsetCorrectionStart", o_num); ("payloadLengthStatic", o_num); ("physicalChannel", tlist [BObj "FlexrayPhysicalChannel"; BObj "EthernetPhysicalChannel"; BObj "LinPhysicalChannel"; BObj "CanPhysicalChannel"]); ("protocolName", o_lit); ("protocolVersion", o_lit); ("tranceiverStandbyDelay", o_num); ("transmissionStartSequenceDuration", o_num); ("timestamp", o_str); ("wakeupRxIdle", o_num); ("wakeupRxLow", o_num); ("wakeupRxWindow", o_num); ("wakeupTxActive", o_num); ("wakeupTxIdle", o_num); ("variationPoint", o_obj "VariationPoint"); ("uuid", o_str)]);
  ("FlexrayCommunicationConnector", [("short_name", o_str); ("shortNameFragments", l_obj "ShortNameFragment"); ("pncGatewayType", o_lit); ("commControllerRef", o_ref); ("category", o_lit); ("desc", o_obj "MultiLanguageOverviewParagraph"); ("elements/CommConnectorPort", tlist [BObj "ISignalPort"; BObj "IPduPort"; BObj "FramePort"]); ("annotations", l_obj "Annotation"); ("adminData", o_obj "AdminData"); ("introduction", o_obj "DocumentationBlock"); ("variationPoint", o_obj "VariationPoint"); ("longName", o_obj "MultilanguageLongName"); ("timestamp", o_str); ("uuid", o_str)]);
  ("FlexrayCommunicationController", [("short_name", o_str); ("shortNameFragments", l_obj "ShortNameFragment"); ("samplesPerMicrotick", o_num); ("secondKeySlotId", o_num); ("acceptedStartupRange", o_num); ("allowHaltDueToClock", o_bool); ("allowPassiveToActive", o_num); ("annotations", l_obj "Annotation"); ("adminData", o_obj "AdminData"); ("clusterDriftDamping", o_num); ("category", o_lit); ("decodingCorrection", o_num); ("delayCompensationA", o_num); ("delayCompensationB", o_num); ("desc", o_obj "MultiLanguageOverviewParagraph"); ("externalSync", o_bool); ("externOffsetCorrection", o_num); ("externRateCorrection", o_num); ("fallBackInternal", o_bool); ("flexrayFifos", l_obj "FlexrayFifoConfiguration"); ("keySlotID", o_num); ("keySlotOnlyEnabled", o_bool); ("keySlotUsedForStartUp", o_bool); ("keySlotUsedForSync", o_bool); ("latestTX", o_num); ("listenTimeout", o_num); ("longName", o_obj "MultilanguageLongName"); ("macroInitialOffsetA", o_num); ("macroInitialOffsetB", o_num); ("maximumDynamicPayloadLength", o_num); ("microInitialOffsetA", o_num); ("microInitialOffsetB", o_num); ("microPerCycle", o_num); ("microtickDuration", o_num); ("nmVectorEarlyUpdate", o_bool); ("offsetCorrectionOut", o_num); ("rateCorrectionOut", o_num); ("twoKeySlotMode", o_bool); ("timestamp", o_str); ("wakeUpPattern", o_num); ("wakeUpByControllerSupported", o_bool); ("introduction", o_obj "DocumentationBlock"); ("variationPoint", o_obj "VariationPoint"); ("uuid", o_str)]);
  ("FlexrayPhysicalChannel", [("short_name", o_str); ("shortNameFragments", l_obj "ShortNameFragment"); ("channelName", o_lit); ("commConnectorRefs", tlist [BRef; BNone]); ("category", o_lit); ("elements/FrameTriggering", tlist [BObj "FlexrayFrameTriggering"; BObj "LinFrameTriggering"; BObj "CanFrameTriggering"]); ("elements/ISignalTriggering", l_obj "ISignalTriggering"); ("elements/PduTriggering", l_obj "PduTriggering"); ("annotations", l_obj "Annotation"); ("adminData", o_obj "AdminData"); ("introduction", o_obj "DocumentationBlock"); ("desc", o_obj "MultiLanguageOverviewParagraph"); ("variationPoint", o_obj "VariationPoint"); ("longName", o_obj "MultilanguageLongName"); ("timestamp", o_str); ("uuid", o_str)]);
  ("FlexrayAbsolutelyScheduledTiming", [("communicationCycle", o_obj "CycleRepetition"); ("slotID", o_num); ("timestamp", o_str); ("uuid", o_str)]);
  ("FloatValueVariationPoint", [("bindingTime", tbase [BLit; BLit; BNone]); ("blueprintValue", o_lit); ("sd", o_lit); ("shortLabel", o_lit); ("_text", o_str); ("timestamp", o_str); ("uuid", o_str)]);
  ("FramePort", [("short_name", o_str); ("shortNameFragments", l_obj "ShortNameFragment"); ("communicationDirection", o_lit); ("category", o_lit); ("annotations", l_obj "Annotation"); ("adminData", o_obj "AdminData"); ("introduction", o_obj "DocumentationBlock"); ("desc", o_obj "MultiLanguageOverviewParagraph"); ("variationPoint", o_obj "VariationPoint"); ("longName", o_obj "MultilanguageLongName"); ("timestamp", o_str); ("uuid", o_str)]);
  ("FunctionInhibitionAvailabilityNeeds", [("short_name", o_str); ("shortNameFragments", l_obj "ShortNameFragment"); ("controlledFidRef", o_ref); ("category", o_lit); ("annotations", l_obj "Annotation"); ("adminData", o_obj "AdminData"); ("introduction", o_obj "DocumentationBlock"); ("desc", o_obj "MultiLanguageOverviewParagraph"); ("variationPoint", o_obj "VariationPoint"); ("longName", o_obj "MultilanguageLongName"); ("timestamp", o_str); ("uuid", o_str)]);
  ("HwElement", [("short_name", o_str); ("shortNameFragments", l_obj "ShortNameFragment"); ("hwElementConnections", l_obj "HwElementConnector"); ("hwPinGroups", l_obj "HwPinGroup"); ("hwAttributeValues", l_obj "HwAttributeValue"); ("hwCategoryRefs", tlist [BRef]); ("hwTypeRef", o_ref); ("nestedElementRefs", tlist [BRef]); ("timestamp", o_str); ("uuid", o_str)]);
  ("HwElementConnector", [("hwElementRefs", tlist [BRef]); ("hwPinConnections", l_obj "HwPinConnector"); ("hwPinGroupConnections", l_obj "HwPinGroupConnector"); ("adminData", o_obj "AdminData"); ("category", o_lit); ("desc", o_obj "MultiLanguageOverviewParagraph"); ("introduction", o_obj "DocumentationBlock"); ("timestamp", o_str); ("uuid", o_str)]);
  ("HwCategory", [("short_name", o_str); ("shortNameFragments", l_obj "ShortNameFragment"); ("hwAttributeDefs", l_obj "HwAttributeDef"); ("annotations", l_obj "Annotation"); ("adminData", o_obj "AdminData"); ("category", o_lit); ("introduction", o_obj "DocumentationBlock"); ("desc", o_obj "MultiLanguageOverviewParagraph"); ("variationPoint", o_obj "VariationPoint"); ("longName", o_obj "MultilanguageLongName"); ("timestamp", o_str); ("uuid", o_str)]);
  ("HwType", [("short_name", o_str); ("shortNameFragments", l_obj "ShortNameFragment"); ("timestamp", o_str); ("uuid", o_str)]);
  ("HwPinGroup", [("short_name", o_str); ("shortNameFragments", l_obj "ShortNameFragment"); ("hwAttributeValues", l_obj "HwAttributeValue"); ("hwCategoryRefs", tlist [BRef]); ("hwTypeRef", o_ref); ("timestamp", o_str); ("uuid", o_str)]);
  ("HwPinGroupConnector", [("hwPinConnections", l_obj "HwPinConnector"); ("hwPinGroupRefs", tlist [BRef]); ("adminData", o_obj "AdminData"); ("category", o_lit); ("desc", o_obj "MultiLanguageOverviewParagraph"); ("introduction", o_obj "DocumentationBlock"); ("timestamp", o_str); ("uuid", o_str)]);
  ("HwPinConnector", [("hwPinRefs", tlist [BRef]); ("adminData", o_obj "AdminData"); ("category", o_lit); ("desc", o_obj "MultiLanguageOverviewParagraph"); ("introduction", o_obj "DocumentationBlock"); ("timestamp", o_str); ("uuid", o_str)]);
  ("HwAttributeDef", [("short_name", o_str); ("shortNameFragments", l_obj "ShortNameFragment"); ("hwAttributeLiterals", l_obj "HwAttributeLiteralDef"); ("isRequired", o_bool); ("introduction", o_obj "DocumentationBlock"); ("unitRef", o_ref); ("uuid", o_str); ("annotations", l_obj "Annotation"); ("adminData", o_obj "AdminData"); ("category", o_lit); ("desc", o_obj "MultiLanguageOverviewParagraph"); ("variationPoint", o_obj "VariationPoint"); ("longName", o_obj "MultilanguageLongName"); ("timestamp", o_str)]);
  ("HwAttributeValue", [("hwAttributeDefRef", o_ref); ("timestamp", o_str); ("uuid", o_str)]);
  ("HwAttributeLiteralDef", [("short_name", o_str); ("shortNameFragments", l_obj "ShortNameFragment"); ("variationPoint", o_obj "VariationPoint"); ("annotations", l_obj "Annotation"); ("adminData", o_obj "AdminData"); ("category", o_lit); ("introduction", o_obj "DocumentationBlock"); ("desc", o_obj "MultiLanguageOverviewParagraph"); ("longName", o_obj "MultilanguageLongName"); ("timestamp", o_str); ("uuid", o_str)]);
  ("HardwareConfiguration", [("additionalInformation", o_lit); ("processorMode", o_lit); ("processorSpeed", o_lit)]);
  ("Keyword", [("short_name", o_str); ("shortNameFragments", l_obj "ShortNameFragment"); ("abbrName", o_lit); ("annotations", l_obj "Annotation"); ("adminData", o_obj "AdminData"); ("classifications", tlist [BLit]); ("category", o_lit); ("introduction", o_obj "DocumentationBlock"); ("desc", o_obj "MultiLanguageOverviewParagraph"); ("variationPoint", o_obj "VariationPoint"); ("longName", o_obj "MultilanguageLongName"); ("timestamp", o_str); ("uuid", o_str)]);
  ("KeywordSet", [("short_name", o_str); ("shortNameFragments", l_obj "ShortNameFragment"); ("keywords", l_obj "Keyword"); ("annotations", l_obj "Annotation"); ("adminData", o_obj "AdminData"); ("category", o_lit); ("introduction", o_obj "DocumentationBlock"); ("desc", o_obj "MultiLanguageOverviewParagraph"); ("variationPoint", o_obj "VariationPoint"); ("longName", o_obj "MultilanguageLongName"); ("timestamp", o_str); ("uuid", o_str)]);
  ("VariableDataPrototype", [("short_name", o_str); ("shortNameFragments", l_obj "ShortNameFragment"); ("swDataDefProps", o_obj "SwDataDefProps"); ("initValue", tbase [BObj "ApplicationRuleBasedValueSpecification"; BObj "ApplicationValueSpecification"; BObj "ConstantReference"; BObj "TextValueSpecification"; BObj "ArrayValueSpecification"; BObj "NumericalValueSpecification"; BObj "RecordValueSpecification"; BObj "CompositeRuleBasedValueSpecification"; BNone]); ("introduction", o_obj "DocumentationBlock"); ("typeTRef", o_ref); ("timestamp", o_str); ("annotations", l_obj "Annotation"); ("adminData", o_obj "AdminData"); ("category", o_lit); ("desc", o_obj "MultiLanguageOverviewParagraph"); ("variationPoint", o_obj "VariationPoint"); ("longName", o_obj "MultilanguageLongName"); ("uuid", o_str)]);
  ("VariableDataPrototypeInCompositionInstanceRef", [("contextPortPrototypeRef", o_ref); ("contextSwComponentPrototypeRefs", tlist [BRef]); ("targetVariableDataPrototypeRef", o_ref)]);
  ("VariableDataPrototypeInSystemInstanceRef", [("contextComponentRefs", tlist [BRef]); ("contextCompositionRef", o_ref); ("contextPortRef", o_ref); ("targetDataPrototypeRef", o_ref)]);
  ("VariableAndParameterInterfaceMapping", [("short_name", o_str); ("shortNameFragments", l_obj "ShortNameFragment"); ("dataMappings", l_obj "DataPrototypeMapping"); ("desc", o_obj "MultiLanguageOverviewParagraph"); ("annotations", l_obj "Annotation"); ("adminData", o_obj "AdminData"); ("category", o_lit); ("introduction", o_obj "DocumentationBlock"); ("variationPoint", o_obj "VariationPoint"); ("longName", o_obj "MultilanguageLongName"); ("timestamp", o_str); ("uuid", o_str)]);
  ("VariableAccess", [("short_name", o_str); ("shortNameFragments", l_obj "ShortNameFragment"); ("scope", o_lit); ("accessedVariableRef", o_obj "AutosarVariableRef"); ("annotations", l_obj "Annotation"); ("adminData", o_obj "AdminData"); ("category", o_lit); ("introduction", o_obj "DocumentationBlock"); ("desc", o_obj "MultiLanguageOverviewParagraph"); ("variationPoint", o_obj "VariationPoint"); ("longName", o_obj "MultilanguageLongName"); ("timestamp", o_str); ("uuid", o_str)]);
  ("VariableAccessInEcuInstanceRef", [("contextRootCompositionRef", o_ref); ("contextAtomicComponentRef", o_ref); ("targetVariableAccessRef", o_ref)]);
  ("VariableInAtomicSWCTypeInstanceRef", [("portPrototypeRef", o_ref); ("targetDataPrototypeRef", o_ref); ("timestamp", o_str); ("uuid", o_str)]);
  ("VariationPoint", [("blueprintCondition", o_obj "DocumentationBlock"); ("desc", o_obj "MultiLanguageOverviewParagraph"); ("formalBlueprintGenerator", o_obj "BlueprintGenerator"); ("postBuildVariantConditions", l_obj "PostBuildVariantCondition"); ("sdg", o_obj "Sdg"); ("shortLabel", o_lit); ("swSyscond", o_obj "ConditionByFormula"); ("timestamp", o_str); ("uuid", o_str)]);
  ("VariationPointProxy", [("short_name", o_str); ("shortNameFragments", l_obj "ShortNameFragment"); ("conditionAccess", o_obj "ConditionByFormula"); ("category", o_lit); ("implementationDataTypeRef", o_ref); ("introduction", o_obj "DocumentationBlock"); ("postBuildValueAccessRef", o_ref); ("postBuildVariantConditions", l_obj "PostBuildVariantCondition"); ("valueAccess", tbase [BObj "UnlimitedIntegerValueVariationPoint"; BObj "TimeValueValueVariationPoint"; BObj "PositiveIntegerValueVariationPoint"; BObj "IntegerValueVariationPoint"; BObj "FloatValueVariationPoint"; BObj "BooleanValueVariationPoint"; BObj "NumericalValueVariationPoint"; BObj "LimitValueVariationPoint"; BNone]); ("variationPoint", o_obj "VariationPoint"); ("annotations", l_obj "Annotation"); ("adminData", o_obj "AdminData"); ("desc", o_obj "MultiLanguageOverviewParagraph"); ("longName", o_obj "MultilanguageLongName"); ("timestamp", o_str); ("uuid", o_str)]);
  ("ValueList", [("v", o_num); ("timestamp", o_str); ("uuid", o_str)]);
  ("VlanConfig", [("short_name", o_str); ("vlanIdentifier", o_num)]);
  ("VlanMembership", [("sendActivity", o_lit); ("vlanRef", o_ref)]);
  ("WorstCaseStackUsage", [("short_name", o_str); ("shortNameFragments", l_obj "ShortNameFragment"); ("softwareContext", o_obj "SoftwareContext"); ("memoryConsumption", o_num); ("executableEntityRef", o_ref); ("hardwareConfiguration", o_obj "HardwareConfiguration"); ("hwElementRef", o_ref); ("annotations", l_obj "Annotation"); ("adminData", o_obj "AdminData"); ("category", o_lit); ("introduction", o_obj "DocumentationBlock"); ("desc", o_obj "MultiLanguageOverviewParagraph"); ("variationPoint", o_obj "VariationPoint"); ("longName", o_obj "MultilanguageLongName"); ("timestamp", o_str); ("uuid", o_str)]);
  ("WorstCaseHeapUsage", [("short_name", o_str); ("shortNameFragments", l_obj "ShortNameFragment"); ("softwareContext", o_obj "SoftwareContext"); ("memoryConsumption", o_num); ("hardwareConfiguration", o_obj "HardwareConfiguration"); ("hwElementRef", o_ref); ("annotations", l_obj "Annotation"); ("adminData", o_obj "AdminData"); ("category", o_lit); ("introduction", o_obj "DocumentationBlock"); ("desc", o_obj "MultiLanguageOverviewParagraph"); ("variationPoint", o_obj "VariationPoint"); ("longName", o_obj "MultilanguageLongName"); ("timestamp", o_str); ("uuid", o_str)]);
  ("WaitPoint", [("short_name", o_str); ("shortNameFragments", l_obj "ShortNameFragment"); ("timeout", o_num); ("timestamp", o_str); ("triggerRef", o_ref); ("annotations", l_obj "Annotation"); ("adminData", o_obj "AdminData"); ("category", o_lit); ("introduction", o_obj "DocumentationBlock"); ("desc", o_obj "MultiLanguageOverviewParagraph"); ("variationPoint", o_obj "VariationPoint"); ("longName", o_obj "MultilanguageLongName"); ("uuid", o_str)]);
  ("OperationInvokedEvent", [("short_name", o_str); ("shortNameFragments", l_obj "ShortNameFragment"); ("startOnEventRef", o_ref); ("operationIRef", o_obj "POperationInAtomicSwcInstanceRef"); ("disabledModeIRefs", l_obj "RModeInAtomicSwcInstanceRef"); ("desc", o_obj "MultiLanguageOverviewParagraph"); ("annotations", l_obj "Annotation"); ("adminData", o_obj "AdminData"); ("activationReasonRepresentationRef", o_ref); ("category", o_lit); ("introduction", o_obj "DocumentationBlock"); ("variationPoint", o_obj "VariationPoint"); ("longName", o_obj "MultilanguageLongName"); ("timestamp", o_str); ("uuid", o_str)]);
  ("ObdInfoServiceNeeds", [("short_name", o_str); ("shortNameFragments", l_obj "ShortNameFragment"); ("annotations", l_obj "Annotation"); ("adminData", o_obj "AdminData"); ("desc", o_obj "MultiLanguageOverviewParagraph"); ("category", o_lit); ("introduction", o_obj "DocumentationBlock"); ("variationPoint", o_obj "VariationPoint"); ("longName", o_obj "MultilanguageLongName"); ("timestamp", o_str); ("uuid", o_str)]);
  ("ObdMonitorServiceNeeds", [("short_name", o_str); ("shortNameFragments", l_obj "ShortNameFragment"); ("applicationDataTypeRef", o_ref); ("annotations", l_obj "Annotation"); ("adminData", o_obj "AdminData"); ("eventNeedsRef", o_ref); ("unitAndScalingId", o_num); ("updateKind", o_lit); ("uuid", o_str); ("desc", o_obj "MultiLanguageOverviewParagraph"); ("category", o_lit); ("introduction", o_obj "DocumentationBlock"); ("variationPoint", o_obj "VariationPoint"); ("longName", o_obj "MultilanguageLongName"); ("timestamp", o_str)]);
  ("ObdPidServiceNeeds", [("short_name", o_str); ("shortNameFragments", l_obj "ShortNameFragment"); ("annotations", l_obj "Annotation"); ("adminData", o_obj "AdminData"); ("desc", o_obj "MultiLanguageOverviewParagraph"); ("category", o_lit); ("introduction", o_obj "DocumentationBlock"); ("variationPoint", o_obj "VariationPoint"); ("longName", o_obj "MultilanguageLongName"); ("timestamp", o_str); ("uuid", o_str)]);
  ("ObdControlServiceNeeds", [("short_name", o_str); ("shortNameFragments", l_obj "ShortNameFragment"); ("annotations", l_obj "Annotation"); ("adminData", o_obj "AdminData"); ("desc", o_obj "MultiLanguageOverviewParagraph"); ("category", o_lit); ("introduction", o_obj "DocumentationBlock"); ("variationPoint", o_obj "VariationPoint"); ("longName", o_obj "MultilanguageLongName"); ("timestamp", o_str); ("uuid", o_str)]);
  ("ObdRatioServiceNeeds", [("short_name", o_str); ("shortNameFragments", l_obj "ShortNameFragment"); ("connectionType", o_lit); ("category", o_lit); ("rateBasedMonitoredEventRef", o_ref); ("usedFidRef", o_ref); ("uuid", o_str); ("annotations", l_obj "Annotation"); ("adminData", o_obj "AdminData"); ("desc", o_obj "MultiLanguageOverviewParagraph"); ("introduction", o_obj "DocumentationBlock"); ("variationPoint", o_obj "VariationPoint"); ("longName", o_obj "MultilanguageLongName"); ("timestamp", o_str)]);
  ("ObdRatioDenominatorNeeds", [("short_name", o_str); ("shortNameFragments", l_obj "ShortNameFragment"); ("denominatorCondition", o_lit); ("desc", o_obj "MultiLanguageOverviewParagraph"); ("annotations", l_obj "Annotation"); ("adminData", o_obj "AdminData"); ("category", o_lit); ("introduction", o_obj "DocumentationBlock"); ("variationPoint", o_obj "VariationPoint"); ("longName", o_obj "MultilanguageLongName"); ("timestamp", o_str); ("uuid", o_str)]);
  ("J1939NmNode", [("short_name", o_str); ("shortNameFragments", l_obj "ShortNameFragment"); ("addressConfigurationCapability", o_lit); ("adminData", o_obj "AdminData"); ("annotations", l_obj "Annotation"); ("nodeName", o_obj "J1939NodeName"); ("nmCoordCluster", o_num); ("nmCoordinatorRole", o_lit); ("nmIfEcuRef", o_ref); ("nmNodeId", o_num); ("nmPassiveModeEnabled", o_bool); ("controllerRef", o_ref); ("category", o_lit); ("rxNmPduRefs", tlist [BRef]); ("txNmPduRefs", tlist [BRef]); ("timestamp", o_str); ("introduction", o_obj "DocumentationBlock"); ("desc", o_obj "MultiLanguageOverviewParagraph"); ("variationPoint", o_obj "VariationPoint"); ("longName", o_obj "MultilanguageLongName"); ("uuid", o_str)]);
  ("J1939NodeName", [("arbitraryAddressCapable", o_bool); ("ecuInstance", o_num); ("function", o_num); ("functionInstance", o_num); ("identitiyNumber", o_num); ("industryGroup", o_num); ("manufacturerCode", o_num); ("vehicleSystem", o_num); ("vehicleSystemInstance", o_num)]);
  ("QueuedSenderComSpec", [("compositeNetworkRepresentations", l_obj "CompositeNetworkRepresentation"); ("dataElementRef", o_ref); ("handleOutOfRange", o_lit); ("networkRepresentation", o_obj "SwDataDefProps"); ("transmissionAcknowledge", o_obj "TransmissionAcknowledgementRequest"); ("transmissionProps", o_obj "TransmissionComSpecProps"); ("timestamp", o_str); ("usesEndToEndProtection", o_bool); ("uuid", o_str)]);
  ("QueuedReceiverComSpec", [("queueLength", o_num); ("compositeNetworkRepresentations", l_obj "CompositeNetworkRepresentation"); ("dataElementRef", o_ref); ("handleOutOfRange", o_lit); ("handleOutOfRangeStatus", o_lit); ("maxDeltaCounterInit", o_num); ("maxNoNewOrRepeatedData", o_num); ("networkRepresentation", o_obj "SwDataDefProps"); ("receptionProps", o_obj "ReceptionComSpecProps"); ("replaceWith", o_obj "VariableAccess"); ("syncCounterInit", o_num); ("transformationComSpecProps", tlist [BObj "EndToEndTransformationComSpecProps"; BObj "UserDefinedTransformationComSpecProps"]); ("timestamp", o_str); ("usesEndToEndProtection", o_bool); ("uuid", o_str)])].

(** reader function, type of its result *)
Definition result_types : list (string * ty) :=
  [("getAdminData", o_obj "AdminData");
  ("getAnnotations", l_obj "Annotation");
  ("getAnyInstanceRef", o_obj "AnyInstanceRef");
  ("getAutosarParameterRef", o_obj "AutosarParameterRef");
  ("getAutosarEngineeringObject", tbase [BObj "AutosarEngineeringObject"]);
  ("getAutosarVariableRef", o_obj "AutosarVariableRef");
  ("getArrayValueSpecification", tbase [BObj "ArrayValueSpecification"]);
  ("getApplicationRuleBasedValueSpecification", tbase [BObj "ApplicationRuleBasedValueSpecification"]);
  ("getApplicationValueSpecification", tbase [BObj "ApplicationValueSpecification"]);
  ("getApplicationCompositeElementInPortInterfaceInstanceRef", o_obj "ApplicationCompositeElementInPortInterfaceInstanceRef");
  ("getApplicationEntry", tbase [BObj "ApplicationEntry"]);
  ("getMultiLanguagePlainText", o_obj "MultiLanguagePlainText");
  ("getMultiLanguageParagraphs", l_obj "MultiLanguageParagraph");
  ("getMultiLanguageOverviewParagraph", o_obj "MultiLanguageOverviewParagraph");
  ("getMultiLanguageVerbatim", o_obj "MultiLanguageVerbatim");
  ("getMultilanguageLongName", o_obj "MultilanguageLongName");
  ("getModeSwitchEventTriggeredActivity", tbase [BObj "ModeSwitchEventTriggeredActivity"]);
  ("getModeSwitchSenderComSpec", tbase [BObj "ModeSwitchSenderComSpec"]);
  ("getModeSwitchReceiverComSpec", tbase [BObj "ModeSwitchReceiverComSpec"]);
  ("getModeSwitchedAckRequest", o_obj "ModeSwitchedAckRequest");
  ("getModeInBswModuleDescriptionInstanceRef", tbase [BObj "ModeInBswModuleDescriptionInstanceRef"]);
  ("getModeGroupIRef", tbase [BObj "PModeGroupInAtomicSwcInstanceRef"; BObj "RModeGroupInAtomicSWCInstanceRef"; BNone]);
  ("getMlFormula", o_obj "MlFormula");
  ("getMlFigures", l_obj "MlFigure");
  ("getMsrQueryProps", tbase [BObj "MsrQueryProps"]);
  ("getMsrQueryP2", o_obj "MsrQueryP2");
  ("getMsrQueryArg", tbase [BObj "MsrQueryArg"]);
  ("getLPlainTexts", l_obj "LParagraph");
  ("getLParagraphs", l_obj "LParagraph");
  ("getLifeCyclePeriod", o_obj "LifeCyclePeriod");
  ("getListElements", l_obj "ARList");
  ("getLabeledList", o_obj "LabeledList");
  ("getLabeledItem", tbase [BObj "LabeledItem"]);
  ("getLOverviewParagraphs", l_obj "LOverviewParagraph");
  ("getSdg", tbase [BObj "Sdg"]);
  ("getSdServerConfig", o_obj "SdServerConfig");
  ("getSdClientConfig", o_obj "SdClientConfig");
  ("getSecureCommunicationProps", o_obj "SecureCommunicationProps");
  ("getServerComSpec", tbase [BObj "ServerComSpec"]);
  ("getSwRecordLayoutGroup", o_obj "SwRecordLayoutGroup");
  ("getSwRecordLayoutV", o_obj "SwRecordLayoutV");
  ("getSwDataDefProps", o_obj "SwDataDefProps");
  ("getSwCalprmAxis", tbase [BObj "SwCalprmAxis"]);
  ("getSwCalprmAxisSet", tbase [BObj "SwCalprmAxisSet"]);
  ("getSwValueCont", o_obj "SwValueCont");
  ("getSwValues", o_obj "SwValues");
  ("getSwPointerTargetProps", o_obj "SwPointerTargetProps");
  ("getSwAxisGrouped", tbase [BObj "SwAxisGrouped"]);
  ("getSwAxisGeneric", tbase [BObj "SwAxisGeneric"]);
  ("getSwAxisIndividual", tbase [BObj "SwAxisIndividual"]);
  ("getSwTextProps", o_obj "SwTextProps");
  ("getSwGenericAxisParam", tbase [BObj "SwGenericAxisParam"]);
  ("getSoAdConfig", o_obj "SoAdConfig");
  ("getSocketConnection", tbase [BObj "SocketConnection"]);
  ("getSocketConnectionPdus", l_obj "SocketConnectionIpduIdentifier");
  ("getSocketConnectionIpduIdentifier", tbase [BObj "SocketConnectionIpduIdentifier"]);
  ("getSubElementMapping", tbase [BObj "SubElementMapping"]);
  ("getStructuredReq", o_obj "StructuredReq");
  ("getISignalMappings", l_obj "ISignalMapping");
  ("getISignalIPduRefs", tlist [BRef; BNone]);
  ("getISignalIPduIPduTimingSpecification", o_obj "IPduTiming");
  ("getIPduMappings", l_obj "IPduMapping");
  ("getInitValue", tbase [BObj "ApplicationRuleBasedValueSpecification"; BObj "ApplicationValueSpecification"; BObj "ConstantReference"; BObj "TextValueSpecification"; BObj "ArrayValueSpecification"; BObj "NumericalValueSpecification"; BObj "RecordValueSpecification"; BObj "CompositeRuleBasedValueSpecification"; BNone]);
  ("getInitialSdDelayConfig", o_obj "InitialSdDelayConfig");
  ("getIncludedModeDeclarationGroupSets", l_obj "IncludedModeDeclarationGroupSet");
  ("getInfrastructureServices", o_obj "InfrastructureServices");
  ("getIndentSample", tbase [BObj "IndentSample"]);
  ("getIpv6Configuration", tbase [BObj "Ipv6Configuration"]);
  ("getValueSpecification", tbase [BObj "ApplicationRuleBasedValueSpecification"; BObj "ApplicationValueSpecification"; BObj "ConstantReference"; BObj "TextValueSpecification"; BObj "ArrayValueSpecification"; BObj "NumericalValueSpecification"; BObj "RecordValueSpecification"; BObj "CompositeRuleBasedValueSpecification"]);
  ("getValueList", o_obj "ValueList");
  ("getVariableDataPrototypeInSystemInstanceRef", tbase [BObj "VariableDataPrototypeInSystemInstanceRef"]);
  ("getVariableInAtomicSWCTypeInstanceRef", tbase [BObj "VariableInAtomicSWCTypeInstanceRef"]);
  ("getCompu", o_obj "Compu");
  ("getCompuScales", o_obj "CompuScales");
  ("getCompuConst", o_obj "CompuConst");
  ("getCompuConstContent", tbase [BObj "CompuConstFormulaContent"; BObj "CompuConstNumericContent"; BObj "CompuConstTextContent"; BNone]);
  ("getCompositeRuleBasedValueSpecification", tbase [BObj "CompositeRuleBasedValueSpecification"]);
  ("getCompositeNetworkRepresentation", tbase [BObj "CompositeNetworkRepresentation"]);
  ("getComponentInSystemInstanceRef", tbase [BObj "ComponentInSystemInstanceRef"]);
  ("getConstantReference", tbase [BObj "ConstantReference"]);
  ("getCouplingPortDetails", o_obj "CouplingPortDetails");
  ("getCanNmClusterCoupling", tbase [BObj "CanNmClusterCoupling"]);
  ("getCanClusterBusOffRecovery", o_obj "CanClusterBusOffRecovery");
  ("getCanControllerFdConfiguration", o_obj "CanControllerFdConfiguration");
  ("getCanControllerFdConfigurationRequirements", o_obj "CanControllerFdConfigurationRequirements");
  ("getCanControllerXlConfiguration", o_obj "CanControllerXlConfiguration");
  ("getCanControllerXlConfigurationRequirements", o_obj "CanControllerXlConfigurationRequirements");
  ("getCaption", o_obj "Caption");
  ("getChildValueSpecification", tbase [BObj "ApplicationRuleBasedValueSpecification"; BObj "ApplicationValueSpecification"; BObj "ConstantReference"; BObj "TextValueSpecification"; BObj "ArrayValueSpecification"; BObj "NumericalValueSpecification"; BObj "RecordValueSpecification"; BObj "CompositeRuleBasedValueSpecification"; BNone]);
  ("getChildElementJ1939NodeName", o_obj "J1939NodeName");
  ("getChildElementRxIdentifierRange", o_obj "RxIdentifierRange");
  ("getCyclicTiming", o_obj "CyclicTiming");
  ("getClientComSpec", tbase [BObj "ClientComSpec"]);
  ("getUdpNmClusterCoupling", tbase [BObj "UdpNmClusterCoupling"]);
  ("getRoleBasedDataAssignment", tbase [BObj "RoleBasedDataAssignment"]);
  ("getRoleBasedDataTypeAssignment", tbase [BObj "RoleBasedDataTypeAssignment"]);
  ("getRoleBasedPortAssignment", tbase [BObj "RoleBasedPortAssignment"]);
  ("getRoleBasedBswModuleEntryAssignment", tbase [BObj "RoleBasedBswModuleEntryAssignment"]);
  ("getRecordValueSpecification", tbase [BObj "RecordValueSpecification"]);
  ("getReceptionComSpecProps", o_obj "ReceptionComSpecProps");
  ("getRequestResponseDelay", o_obj "RequestResponseDelay");
  ("getRuleBasedValueCont", o_obj "RuleBasedValueCont");
  ("getRuleBasedValueSpecification", tbase [BObj "RuleBasedValueSpecification"]);
  ("getRuleBasedAxisCont", tbase [BObj "RuleBasedAxisCont"]);
  ("getRuleArguments", tbase [BObj "RuleArguments"]);
  ("getRunnableEntityArgument", tbase [BObj "RunnableEntityArgument"]);
  ("getRModeInAtomicSwcInstanceRef", tbase [BObj "RModeInAtomicSwcInstanceRef"]);
  ("getDocumentationBlock", o_obj "DocumentationBlock");
  ("getDocumentationBlockList", l_obj "DocumentationBlock");
  ("getDoIpEntity", o_obj "DoIpEntity");
  ("getDataPrototypeMappings", l_obj "DataPrototypeMapping");
  ("getDataFilter", o_obj "DataFilter");
  ("getDefList", o_obj "DefList");
  ("getDefItem", tbase [BObj "DefItem"]);
  ("getTextValueSpecification", tbase [BObj "TextValueSpecification"]);
  ("getTextTableMapping", tbase [BObj "TextTableMapping"]);
  ("getTransmissionModeDeclaration", o_obj "TransmissionModeDeclaration");
  ("getTransmissionModeTiming", o_obj "TransmissionModeTiming");
  ("getTransmissionModeConditions", l_obj "TransmissionModeCondition");
  ("getTransmissionComSpecProps", o_obj "TransmissionComSpecProps");
  ("getTransformationComSpecProps", tbase [BObj "EndToEndTransformationComSpecProps"; BObj "UserDefinedTransformationComSpecProps"; BNone]);
  ("getTransportProtocolConfiguration", tbase [BObj "UdpTp"; BObj "TcpTp"; BObj "GenericTp"; BNone]);
  ("getTraceableText", o_obj "TraceableText");
  ("getTargetIPduRef", o_obj "TargetIPduRef");
  ("getTimeRangeType", o_obj "TimeRangeType");
  ("getTpPort", o_obj "TpPort");
  ("getNumericalValueSpecification", tbase [BObj "NumericalValueSpecification"]);
  ("getNumericalOrText", tbase [BObj "NumericalOrText"]);
  ("getNvProvideComSpec", tbase [BObj "NvProvideComSpec"]);
  ("getNvRequireComSpec", tbase [BObj "NvRequireComSpec"]);
  ("getNonqueuedSenderComSpec", tbase [BObj "NonqueuedSenderComSpec"]);
  ("getNonqueuedReceiverComSpec", tbase [BObj "NonqueuedReceiverComSpec"]);
  ("getNote", o_obj "Note");
  ("getBufferProperties", o_obj "BufferProperties");
  ("getBswModeSenderPolicy", tbase [BObj "BswModeSenderPolicy"]);
  ("getBswModeSwitchAckRequest", o_obj "BswModeSwitchAckRequest");
  ("getBswServiceDependencyIdent", o_obj "BswServiceDependencyIdent");
  ("getEndToEndDescription", o_obj "EndToEndDescription");
  ("getEcucMultiplicityConfigurationClasses", l_obj "EcucMultiplicityConfigurationClass");
  ("getEcucDestinationUriRefs", l_obj "EcucDestinationUriDefRefType");
  ("getEcucNumericalParamValue", tbase [BObj "EcucNumericalParamValue"]);
  ("getEcucTextualParamValue", tbase [BObj "EcucTextualParamValue"]);
  ("getEcucInstanceReferenceValue", tbase [BObj "EcucInstanceReferenceValue"]);
  ("getEcucReferenceValue", tbase [BObj "EcucReferenceValue"]);
  ("getEcucValueConfigurationClasses", l_obj "EcucValueConfigurationClass");
  ("getEventControlledTiming", o_obj "EventControlledTiming");
  ("getParameterInAtomicSWCTypeInstanceRef", o_obj "ParameterInAtomicSWCTypeInstanceRef");
  ("getParameterProvideComSpec", tbase [BObj "ParameterProvideComSpec"]);
  ("getParameterRequireComSpec", tbase [BObj "ParameterRequireComSpec"]);
  ("getQueuedSenderComSpec", tbase [BObj "QueuedSenderComSpec"]);
  ("getQueuedReceiverComSpec", tbase [BObj "QueuedReceiverComSpec"]);
  ("getGraphic", o_obj "Graphic");
  ("readModeErrorBehavior", tbase [BObj "ModeErrorBehavior"]);
  ("readMsrQueryChapter", tbase [BObj "MsrQueryChapter"]);
  ("readMsrQueryTopic1", tbase [BObj "MsrQueryTopic1"]);
  ("readMsrQueryP1", tbase [BObj "MsrQueryP1"]);
  ("readPredefinedChapter", tbase [BObj "PredefinedChapter"]);
  ("readPortDefinedArgumentValue", tbase [BObj "PortDefinedArgumentValue"]);
  ("readDocumentationContext", tbase [BObj "DocumentationContext"]);
  ("readSwComponentDocumentationElement", tbase [BObj "SwComponentDocumentation"]);
  ("readSwCalprmRefProxy", tbase [BObj "SwCalprmRefProxy"]);
  ("readSwcBswSynchronizedModeGroupPrototype", tbase [BObj "SwcBswSynchronizedModeGroupPrototype"]);
  ("readSwcBswSynchronizedTrigger", tbase [BObj "SwcBswSynchronizedTrigger"]);
  ("readSwVariableRefProxy", tbase [BObj "SwVariableRefProxy"]);
  ("readScaleConstr", tbase [BObj "ScaleConstr"]);
  ("readEcucConditionSpecification", o_obj "EcucConditionSpecification");
  ("readEcucConditionFormula", tbase [BObj "EcucConditionFormula"]);
  ("readEcucValidationCondition", tbase [BObj "EcucValidationCondition"]);
  ("readEcucDerivationSpecification", o_obj "EcucDerivationSpecification");
  ("readEcucParameterDerivationFormula", tbase [BObj "EcucParameterDerivationFormula"]);
  ("readEmphasisText", tbase [BObj "EmphasisText"]);
  ("readContainedIPduProps", o_obj "ContainedIPduProps");
  ("readChapter", tbase [BObj "Chapter"]);
  ("readChapterModel", tbase [BObj "ChapterModel"]);
  ("readChapterContent", tbase [BObj "ChapterContent"]);
  ("readHwPinGroupConnector", tbase [BObj "HwPinGroupConnector"]);
  ("readHwPinConnector", tbase [BObj "HwPinConnector"]);
  ("readTt", tbase [BObj "Tt"]);
  ("readTopic1", tbase [BObj "Topic1"]);
  ("readTopicContent", tbase [BObj "TopicContent"]);
  ("readTopicContentOrMsrQuery", o_obj "TopicContentOrMsrQuery");
  ("readTransmissionAcknowledgementRequest", o_obj "TransmissionAcknowledgementRequest");
  ("readIndexEntry", tbase [BObj "IndexEntry"])].

(** class, the reader functions called on objects of that class; "": functions that return a value *)
Definition calls : list (string * list string) :=
  [("", ["getTraceableText"; "getCanControllerXlConfigurationRequirements"; "getRequestResponseDelay"; "getStructuredReq"; "getCanControllerXlConfiguration"; "getInitialSdDelayConfig"; "getSdServerConfig"; "getTransmissionComSpecProps"; "getTpPort"; "getSdClientConfig"; "getNote"; "getSocketConnectionIpduIdentifier"; "getIpv6Configuration"; "getCanControllerFdConfigurationRequirements"; "readSwCalprmRefProxy"; "readSwVariableRefProxy"; "getSocketConnectionPdus"; "getModeGroupIRef"; "getTransformationComSpecProps"; "getReceptionComSpecProps"; "readTransmissionAcknowledgementRequest"; "getCompositeNetworkRepresentation"; "getRoleBasedBswModuleEntryAssignment"; "getSocketConnection"; "getTransportProtocolConfiguration"; "getMsrQueryP2"; "getLOverviewParagraphs"; "getEcucValueConfigurationClasses"; "getRunnableEntityArgument"; "getCanControllerFdConfiguration"; "getRoleBasedDataTypeAssignment"; "getApplicationEntry"; "getRModeInAtomicSwcInstanceRef"; "getNumericalOrText"; "getLabeledItem"; "getIndentSample"; "readEcucParameterDerivationFormula"; "getDoIpEntity"; "getModeSwitchedAckRequest"; "getChildElementJ1939NodeName"; "getParameterProvideComSpec"; "getNvProvideComSpec"; "getModeSwitchSenderComSpec"; "getQueuedSenderComSpec"; "getServerComSpec"; "getNonqueuedSenderComSpec"; "getInfrastructureServices"; "readEcucDerivationSpecification"; "getNvRequireComSpec"; "getParameterRequireComSpec"; "getModeSwitchReceiverComSpec"; "getQueuedReceiverComSpec"; "getClientComSpec"; "getNonqueuedReceiverComSpec"; "getChildElementRxIdentifierRange"; "getLabeledList"; "getSwTextProps"; "getMultiLanguageVerbatim"; "getGraphic"; "getEventControlledTiming"; "getSwGenericAxisParam"; "getRuleArguments"; "getBswServiceDependencyIdent"; "getModeInBswModuleDescriptionInstanceRef"; "getEcucNumericalParamValue"; "getEcucTextualParamValue"; "getEcucInstanceReferenceValue"; "getEcucReferenceValue"; "readEcucValidationCondition"; "getCouplingPortDetails"; "getComponentInSystemInstanceRef"; "readPortDefinedArgumentValue"; "getRuleBasedValueSpecification"; "getSwValues"; "getApplicationCompositeElementInPortInterfaceInstanceRef"; "getTimeRangeType"; "getMsrQueryArg"; "readTopicContent"; "readMsrQueryP1"; "getSwAxisGeneric"; "getCompuConstContent"; "getLParagraphs"; "getDocumentationBlockList"; "getDefItem"; "getBswModeSwitchAckRequest"; "getBswModeSenderPolicy"; "getSoAdConfig"; "getEcucMultiplicityConfigurationClasses"; "getEcucDestinationUriRefs"; "getDefList"; "getMlFigures"; "getListElements"; "getMultiLanguageParagraphs"; "getSwPointerTargetProps"; "getCompuConst"; "getVariableInAtomicSWCTypeInstanceRef"; "getCaption"; "getSwAxisGrouped"; "getSwAxisIndividual"; "readTopicContentOrMsrQuery"; "getMsrQueryProps"; "getDataFilter"; "getCyclicTiming"; "getTextTableMapping"; "getSubElementMapping"; "getDataPrototypeMappings"; "readHwPinGroupConnector"; "readHwPinConnector"; "readTt"; "readIndexEntry"; "readEmphasisText"; "getBufferProperties"; "getIncludedModeDeclarationGroupSets"; "getEndToEndDescription"; "getVariableDataPrototypeInSystemInstanceRef"; "getValueList"; "getSwRecordLayoutV"; "getAutosarEngineeringObject"; "readScaleConstr"; "getLifeCyclePeriod"; "getTransmissionModeTiming"; "getTransmissionModeConditions"; "getSwValueCont"; "getRuleBasedValueCont"; "getRuleBasedAxisCont"; "readMsrQueryChapter"; "readChapter"; "readMsrQueryTopic1"; "readTopic1"; "readChapterContent"; "getSwCalprmAxis"; "getMlFormula"; "readEcucConditionFormula"; "getParameterInAtomicSWCTypeInstanceRef"; "getAutosarVariableRef"; "getUdpNmClusterCoupling"; "getCanNmClusterCoupling"; "getRoleBasedDataAssignment"; "getModeSwitchEventTriggeredActivity"; "getAutosarParameterRef"; "getRoleBasedPortAssignment"; "readSwComponentDocumentationElement"; "readEcucConditionSpecification"; "getCanClusterBusOffRecovery"; "readSwcBswSynchronizedModeGroupPrototype"; "readSwcBswSynchronizedTrigger"; "readContainedIPduProps"; "getDocumentationBlock"; "getSwCalprmAxisSet"; "getAnyInstanceRef"; "readChapterModel"; "getCompuScales"; "getConstantReference"; "getTextValueSpecification"; "getArrayValueSpecification"; "getNumericalValueSpecification"; "getRecordValueSpecification"; "getCompositeRuleBasedValueSpecification"; "getApplicationRuleBasedValueSpecification"; "getApplicationValueSpecification"; "getChildValueSpecification"; "getTransmissionModeDeclaration"; "getTargetIPduRef"; "getISignalMappings"; "getIPduMappings"; "readModeErrorBehavior"; "getISignalIPduRefs"; "getISignalIPduIPduTimingSpecification"; "getInitValue"; "getValueSpecification"; "getCompu"; "getSecureCommunicationProps"; "getSwRecordLayoutGroup"; "readPredefinedChapter"; "readDocumentationContext"; "getSwDataDefProps"; "getMultilanguageLongName"; "getMultiLanguageOverviewParagraph"; "getAnnotations"; "getSdg"; "getLPlainTexts"; "getMultiLanguagePlainText"; "getAdminData"]);
  ("AUTOSAR", ["readARPackages"]);
  ("AdminData", ["readAdminDataDocRevisions"; "readAdminDataSdgs"]);
  ("ARPackage", ["readReferrable"; "readMultilanguageReferrable"; "readReferenceBases"; "readARPackageElements"; "readARPackages"; "readIdentifiable"; "readARPackage"]);
  ("ApplicationPrimitiveDataType", ["readReferrable"; "readMultilanguageReferrable"; "readIdentifiable"; "readAutosarDataType"; "readApplicationPrimitiveDataType"]);
  ("ApplicationRecordDataType", ["readApplicationRecordDataTypeElements"; "readReferrable"; "readMultilanguageReferrable"; "readIdentifiable"; "readApplicationRecordDataType"]);
  ("ApplicationRecordElement", ["readReferrable"; "readMultilanguageReferrable"; "readIdentifiable"; "readDataPrototype"; "readApplicationCompositeElementDataPrototype"; "readApplicationRecordElement"]);
  ("ApplicationRuleBasedValueSpecification", ["readValueSpecification"]);
  ("ApplicationSwComponentType", ["readReferrable"; "readMultilanguageReferrable"; "readPortGroup"; "readSwComponentTypeUnitGroups"; "readSwComponentTypeSwcMappingConstraints"; "readSwComponentTypePortGroups"; "readSwComponentTypePorts"; "readSwComponentTypeConsistencyNeeds"; "readSwComponentTypeSwComponentDocumentation"; "readIdentifiable"; "readAtomicSwComponentTypeSymbolProps"; "readAtomicSwComponentTypeSwcInternalBehavior"; "readSwComponentType"; "readAtomicSwComponentType"; "readApplicationSwComponentType"]);
  ("ApplicationArrayDataType", ["readReferrable"; "readMultilanguageReferrable"; "readIdentifiable"; "readAutosarDataType"; "readApplicationDataType"; "readApplicationArrayElement"; "readApplicationCompositeDataType"; "readApplicationArrayDataType"]);
  ("ApplicationArrayElement", ["readReferrable"; "readMultilanguageReferrable"; "readIdentifiable"; "readDataPrototype"; "readApplicationCompositeElementDataPrototype"]);
  ("ApplicationError", ["readReferrable"; "readMultilanguageReferrable"; "readIdentifiable"]);
  ("ApplicationEntry", ["readScheduleTableEntry"]);
  ("ApplicationEndpoint", ["readSocketAddressApplicationEndpointProvidedServiceInstance"; "readSocketAddressApplicationEndpointConsumedServiceInstances"]);
  ("ApplicationValueSpecification", ["readValueSpecification"]);
  ("Annotation", ["readGeneralAnnotation"]);
  ("AnalyzedExecutionTime", ["readReferrable"; "readMultilanguageReferrable"; "readIdentifiable"; "readExecutionTime"; "readAnalyzedExecutionTime"]);
  ("AssemblySwConnector", ["readReferrable"; "readMultilanguageReferrable"; "readIdentifiable"; "readAssemblySwConnectorRequesterIRef"; "readAssemblySwConnectorProviderIRef"; "readSwConnector"; "readAssemblySwConnector"]);
  ("AsynchronousServerCallReturnsEvent", ["readReferrable"; "readMultilanguageReferrable"; "readIdentifiable"; "readRTEEvent"; "readAsynchronousServerCallReturnsEvent"]);
  ("AsynchronousServerCallResultPoint", ["readReferrable"; "readMultilanguageReferrable"; "readIdentifiable"]);
  ("AsynchronousServerCallPoint", ["readReferrable"; "readMultilanguageReferrable"; "readROperationIRef"; "readIdentifiable"]);
  ("ArrayValueSpecification", ["readValueSpecification"]);
  ("ArgumentDataPrototype", ["readReferrable"; "readMultilanguageReferrable"; "readIdentifiable"; "readDataPrototype"; "readAutosarDataPrototype"; "readArgumentDataPrototype"]);
  ("AutosarEngineeringObject", ["readEngineeringObject"]);
  ("LParagraph", ["readLanguageSpecific"]);
  ("LinCluster", ["readReferrable"; "readMultilanguageReferrable"; "readCommunicationClusterPhysicalChannels"; "readCommunicationCluster"; "readIdentifiable"; "readLinCluster"]);
  ("LinCommunicationConnector", ["readReferrable"; "readMultilanguageReferrable"; "readCommunicationConnectorEcuCommPortInstances"; "readIdentifiable"; "readCommunicationConnector"; "readLinCommunicationConnector"]);
  ("LinUnconditionalFrame", ["readReferrable"; "readMultilanguageReferrable"; "readPduToFrameMappings"; "readIdentifiable"; "readFrame"; "readLinUnconditionalFrame"]);
  ("LinTpConfig", ["readReferrable"; "readMultilanguageReferrable"; "readIdentifiable"; "readLinTpConfigTpNodes"; "readLinTpConfigTpConnections"; "readLinTpConfigTpAddresses"; "readTpConfig"; "readLinTpConfig"]);
  ("LinTpConnection", ["readTpConnectionReceiverRefs"; "readTpConnection"; "readLinTpConnection"]);
  ("LinTpNode", ["readReferrable"; "readMultilanguageReferrable"; "readIdentifiable"; "readLinTpNode"]);
  ("LinMaster", ["readReferrable"; "readMultilanguageReferrable"; "readCommunicationController"; "readLinCommunicationController"; "readIdentifiable"; "readLinMaster"]);
  ("LinPhysicalChannel", ["readReferrable"; "readMultilanguageReferrable"; "readPhysicalChannelPduTriggerings"; "readPhysicalChannelISignalTriggerings"; "readPhysicalChannelFrameTriggerings"; "readPhysicalChannelCommConnectorRefs"; "readIdentifiable"; "readLinPhysicalChannelScheduleTables"; "readPhysicalChannel"; "readLinPhysicalChannel"]);
  ("Linker", ["readReferrable"; "readMultilanguageReferrable"; "readIdentifiable"]);
  ("LinScheduleTable", ["readReferrable"; "readMultilanguageReferrable"; "readLinScheduleTableTableEntries"; "readIdentifiable"; "readLinScheduleTable"]);
  ("LinFrameTriggering", ["readReferrable"; "readMultilanguageReferrable"; "readIdentifiable"; "readFrameTriggering"; "readLinFrameTriggering"]);
  ("LifeCycleInfo", ["readLifeCycleInfoUseInsteadRefs"; "readLifeCycleInfo"]);
  ("LifeCycleInfoSet", ["readReferrable"; "readMultilanguageReferrable"; "readLifeCycleInfoSetLifeCycleInfos"; "readIdentifiable"; "readLifeCycleInfoSet"]);
  ("LimitValueVariationPoint", ["readAttributeValueVariationPoint"]);
  ("LVerbatim", ["readLanguageSpecific"]);
  ("LOverviewParagraph", ["readLanguageSpecific"]);
  ("DocRevision", ["readDocRevisionModifications"; "readDocRevision"]);
  ("Documentation", ["readReferrable"; "readMultilanguageReferrable"; "readIdentifiable"; "readARElement"; "readDocumentation"]);
  ("DocumentationContext", ["readReferrable"; "readMultilanguageReferrable"]);
  ("DocumentationBlock", ["readDocumentationBlock"]);
  ("DoIpTpConfig", ["readReferrable"; "readMultilanguageReferrable"; "readIdentifiable"; "readDoIpTpConfigTpConnections"; "readDoIpTpConfigDoIpLogicAddresses"; "readTpConfig"; "readDoIpTpConfig"]);
  ("DoIpTpConnection", ["readTpConnection"; "readDoIpTpConnection"]);
  ("DoIpLogicAddress", ["readReferrable"; "readMultilanguageReferrable"; "readIdentifiable"; "readDoIpLogicAddress"]);
  ("DoIpRoutingActivationAuthenticationNeeds", ["readReferrable"; "readMultilanguageReferrable"; "readIdentifiable"; "readServiceNeeds"; "readDoIpRoutingActivationAuthenticationNeeds"]);
  ("DoIpRoutingActivationConfirmationNeeds", ["readReferrable"; "readMultilanguageReferrable"; "readIdentifiable"; "readServiceNeeds"; "readDoIpRoutingActivationConfirmationNeeds"]);
  ("DataPrototypeGroup", ["readReferrable"; "readMultilanguageReferrable"; "readDataPrototypeGroupImplicitDataAccessIRefs"; "readDataPrototypeGroupDataPrototypeGroupIRefs"; "readIdentifiable"; "readDataPrototypeGroup"]);
  ("DataPrototypeTransformationProps", ["readDataPrototypeTransformationProps"]);
  ("DataPrototypeInPortInterfaceRef", ["readDataPrototypeInPortInterfaceRef"]);
  ("DataPrototypeInClientServerInterfaceInstanceRef", ["readDataPrototypeInClientServerInterfaceInstanceRef"]);
  ("DataConstr", ["readReferrable"; "readMultilanguageReferrable"; "readDataConstrRule"; "readIdentifiable"; "readDataConstr"]);
  ("DataConstrRule", ["readPhysConstrs"; "readInternalConstrs"]);
  ("DataTypeMappingSet", ["readReferrable"; "readMultilanguageReferrable"; "readModeRequestTypeMaps"; "readDataTypeMaps"; "readIdentifiable"; "readDataTypeMappingSet"]);
  ("DataTransformation", ["readReferrable"; "readMultilanguageReferrable"; "readDataTransformationTransformerChainRefs"; "readIdentifiable"; "readDataTransformation"]);
  ("DataTransformationSet", ["readReferrable"; "readMultilanguageReferrable"; "readIdentifiable"; "readDataTransformationSetTransformationTechnologies"; "readDataTransformationSetDataTransformations"; "readARElement"; "readDataTransformationSet"]);
  ("DataReceivedEvent", ["readReferrable"; "readMultilanguageReferrable"; "readIdentifiable"; "readRVariableInAtomicSwcInstanceRef"; "readRTEEvent"; "readDataReceivedEvent"]);
  ("DataSendCompletedEvent", ["readReferrable"; "readMultilanguageReferrable"; "readIdentifiable"; "readRTEEvent"; "readDataSendCompletedEvent"]);
  ("DcmIPdu", ["readReferrable"; "readMultilanguageReferrable"; "readIdentifiable"; "readPdu"; "readIPdu"; "readDcmIPdu"]);
  ("DiagnosticConnection", ["readReferrable"; "readMultilanguageReferrable"; "readDiagnosticConnectionFunctionalRequestRefs"; "readIdentifiable"; "readDiagnosticConnection"]);
  ("DiagnosticCommunicationManagerNeeds", ["readReferrable"; "readMultilanguageReferrable"; "readIdentifiable"; "readServiceNeeds"; "readDiagnosticCapabilityElement"; "readDiagnosticCommunicationManagerNeeds"]);
  ("DiagnosticServiceTable", ["readReferrable"; "readMultilanguageReferrable"; "readDiagnosticServiceTableDiagnosticConnectionRefs"; "readIdentifiable"; "readDiagnosticServiceTable"]);
  ("DiagnosticStorageConditionNeeds", ["readReferrable"; "readMultilanguageReferrable"; "readIdentifiable"; "readServiceNeeds"; "readDiagnosticCapabilityElement"; "readDiagnosticStorageConditionNeeds"]);
  ("DiagnosticRoutineNeeds", ["readReferrable"; "readMultilanguageReferrable"; "readIdentifiable"; "readServiceNeeds"; "readDiagnosticCapabilityElement"; "readDiagnosticRoutineNeeds"]);
  ("DiagnosticValueNeeds", ["readReferrable"; "readMultilanguageReferrable"; "readIdentifiable"; "readServiceNeeds"; "readDiagnosticCapabilityElement"; "readDiagnosticValueNeeds"]);
  ("DiagnosticEventNeeds", ["readReferrable"; "readMultilanguageReferrable"; "readIdentifiable"; "readServiceNeeds"; "readDiagEventDebounceAlgorithm"; "readDiagnosticCapabilityElement"; "readDiagnosticEventNeeds"]);
  ("DiagnosticEventInfoNeeds", ["readReferrable"; "readMultilanguageReferrable"; "readIdentifiable"; "readServiceNeeds"; "readDiagnosticCapabilityElement"; "readDiagnosticEventInfoNeeds"]);
  ("DiagnosticEnableConditionNeeds", ["readReferrable"; "readMultilanguageReferrable"; "readIdentifiable"; "readServiceNeeds"; "readDiagnosticCapabilityElement"; "readDiagnosticEnableConditionNeeds"]);
  ("DiagnosticIoControlNeeds", ["readReferrable"; "readMultilanguageReferrable"; "readIdentifiable"; "readServiceNeeds"; "readDiagnosticCapabilityElement"; "readDiagnosticIoControlNeeds"]);
  ("DiagnosticOperationCycleNeeds", ["readReferrable"; "readMultilanguageReferrable"; "readIdentifiable"; "readServiceNeeds"; "readDiagnosticCapabilityElement"; "readDiagnosticOperationCycleNeeds"]);
  ("DiagEventDebounceCounterBased", ["readReferrable"; "readMultilanguageReferrable"; "readIdentifiable"; "readServiceNeeds"; "readDiagnosticCapabilityElement"; "readDiagEventDebounceCounterBased"]);
  ("DiagEventDebounceMonitorInternal", ["readReferrable"; "readMultilanguageReferrable"; "readIdentifiable"; "readServiceNeeds"; "readDiagnosticCapabilityElement"; "readDiagEventDebounceMonitorInternal"]);
  ("DiagEventDebounceTimeBased", ["readReferrable"; "readMultilanguageReferrable"; "readIdentifiable"; "readServiceNeeds"; "readDiagnosticCapabilityElement"; "readDiagEventDebounceTimeBased"]);
  ("DelegationSwConnector", ["readReferrable"; "readMultilanguageReferrable"; "readIdentifiable"; "readDelegationSwConnectorInnerPortIRef"; "readSwConnector"; "readDelegationSwConnector"]);
  ("DependencyOnArtifact", ["readReferrable"; "readMultilanguageReferrable"; "readIdentifiable"]);
  ("DevelopmentError", ["readReferrable"; "readMultilanguageReferrable"; "readIdentifiable"; "readTracedFailure"; "readDevelopmentError"]);
  ("DynamicPart", ["readMultiplexedPartSegmentPositions"; "readDynamicPartDynamicPartAlternatives"; "readMultiplexedPart"; "readDynamicPart"]);
  ("DynamicPartAlternative", ["readDynamicPartAlternative"]);
  ("DtcStatusChangeNotificationNeeds", ["readReferrable"; "readMultilanguageReferrable"; "readIdentifiable"; "readServiceNeeds"; "readDiagnosticCapabilityElement"; "readDtcStatusChangeNotificationNeeds"]);
  ("DltUserNeeds", ["readReferrable"; "readMultilanguageReferrable"; "readIdentifiable"; "readServiceNeeds"; "readDltUserNeeds"]);
  ("Sdg", ["readSdgCaption"]);
  ("SdgContents", ["readSdgSdxfRefs"; "readSdgSdxRefs"; "readSdf"; "readSd"]);
  ("SwcImplementation", ["readReferrable"; "readMultilanguageReferrable"; "readDependencyOnArtifact:createRequiredGeneratorTool"; "readDependencyOnArtifact:createRequiredArtifact"; "readDependencyOnArtifact:createGeneratedArtifact"; "readLinker"; "readCompiler"; "readBuildActionManifests"; "readResourceConsumption"; "readCodeDescriptor"; "readIdentifiable"; "readImplementation"; "readSwcImplementation"]);
  ("SwcInternalBehavior", ["readReferrable"; "readMultilanguageReferrable"; "readInternalBehaviorStaticMemories"; "readDataTypeMappingRefs"; "readExclusiveAreaNestingOrders"; "readInternalBehaviorConstantMemories"; "readIdentifiable"; "readSwcServiceDependency"; "readSwcInternalBehaviorVariationPointProxies"; "readSwcInternalBehaviorSharedParameters"; "readSwcInternalBehaviorServiceDependencies"; "readSwcInternalBehaviorRunnables"; "readSwcInternalBehaviorPortAPIOptions"; "readSwcInternalBehaviorPerInstanceParameters"; "readSwcInternalBehaviorPerInstanceMemories"; "readSwcInternalBehaviorInstantiationDataDefProps"; "readSwcInternalBehaviorIncludedModeDeclarationGroupSets"; "readSwcInternalBehaviorExplicitInterRunnableVariables"; "readSwcInternalBehaviorEvents"; "readSwcInternalBehaviorExclusiveAreaPolicies"; "readSwcInternalBehaviorArTypedPerInstanceMemories"; "readInternalBehavior"; "readSwcInternalBehavior"]);
  ("SwcBswMapping", ["readReferrable"; "readMultilanguageReferrable"; "readSwcBswMappingSwcBswSynchronizedTriggers"; "readSwcBswMappingSwcBswSynchronizedModeGroups"; "readSwcBswMappingSwcBswRunnableMappings"; "readIdentifiable"; "readSwcBswMapping"]);
  ("SwcTiming", ["readReferrable"; "readMultilanguageReferrable"; "readExecutionOrderConstraint"; "readTimingExtension"; "readIdentifiable"; "readSwcTiming"]);
  ("SwcToEcuMapping", ["readReferrable"; "readMultilanguageReferrable"; "readIdentifiable"; "readSwcToEcuMapping"]);
  ("SwcToImplMapping", ["readReferrable"; "readMultilanguageReferrable"; "readIdentifiable"; "readSwcToImplMapping"]);
  ("SwcModeSwitchEvent", ["readReferrable"; "readMultilanguageReferrable"; "readIdentifiable"; "readRModeInAtomicSwcInstanceRef"; "readRTEEvent"; "readSwcModeSwitchEvent"]);
  ("SwcServiceDependency", ["readReferrable"; "readMultilanguageReferrable"; "readSymbolicNameProps"; "readIdentifiable"; "readSwcServiceDependencyRepresentedPortGroup"; "readSwcServiceDependencyServiceNeeds"; "readSwcServiceDependencyAssignedPorts"; "readSwcServiceDependencyAssignedData"; "readServiceDependency"]);
  ("SwBaseType", ["readReferrable"; "readMultilanguageReferrable"; "readIdentifiable"; "readSwBaseType"]);
  ("SwRecordLayout", ["readReferrable"; "readMultilanguageReferrable"; "readIdentifiable"; "readSwRecordLayout"]);
  ("SwRecordLayoutGroup", ["readSwRecordLayoutGroupSwRecordLayoutGroupContentType"]);
  ("SwAddrMethod", ["readReferrable"; "readMultilanguageReferrable"; "readIdentifiable"; "readSwAddrMethod"]);
  ("SwSystemconst", ["readReferrable"; "readMultilanguageReferrable"; "readIdentifiable"; "readSwSystemconst"]);
  ("SwSystemconstantValueSet", ["readReferrable"; "readMultilanguageReferrable"; "readSwSystemconstantValueSetSwSystemconstantValues"; "readIdentifiable"; "readSwSystemconstantValueSet"]);
  ("SwSystemconstValue", ["readSwSystemconstValue"]);
  ("SwServiceArg", ["readReferrable"; "readMultilanguageReferrable"; "readIdentifiable"; "readSwServiceArg"]);
  ("SwComponentPrototype", ["readReferrable"; "readMultilanguageReferrable"; "readIdentifiable"; "readSwComponentPrototype"]);
  ("SwDataDefProps", ["readSwRefTiming"; "readSwHostVariable"; "readSwDataDependency"; "readSwComparisonVariables"; "readSwDataDefPropsBits"; "readSwDataDefProsInvalidValue"]);
  ("SenderReceiverInterface", ["readReferrable"; "readMultilanguageReferrable"; "readSenderReceiverInterfaceInvalidationPolicies"; "readSenderReceiverInterfaceDataElements"; "readIdentifiable"; "readSenderReceiverInterface"]);
  ("SenderReceiverToSignalMapping", ["readSenderReceiverToSignalMapping"]);
  ("SenderReceiverToSignalGroupMapping", ["readSenderReceiverToSignalGroupMappingTypeMapping"; "readSenderReceiverToSignalGroupMapping"]);
  ("SenderRecRecordTypeMapping", ["readSenderRecArrayTypeMappingRecordElementMapping"; "readSenderRecCompositeTypeMapping"; "readSenderRecRecordTypeMapping"]);
  ("SenderRecRecordElementMapping", ["readSenderRecRecordElementMapping"]);
  ("SensorActuatorSwComponentType", ["readReferrable"; "readMultilanguageReferrable"; "readPortGroup"; "readSwComponentTypeUnitGroups"; "readSwComponentTypeSwcMappingConstraints"; "readSwComponentTypePortGroups"; "readSwComponentTypePorts"; "readSwComponentTypeConsistencyNeeds"; "readSwComponentTypeSwComponentDocumentation"; "readIdentifiable"; "readAtomicSwComponentTypeSymbolProps"; "readAtomicSwComponentTypeSwcInternalBehavior"; "readSwComponentType"; "readAtomicSwComponentType"; "readSensorActuatorSwComponentType"]);
  ("ServiceSwComponentType", ["readReferrable"; "readMultilanguageReferrable"; "readPortGroup"; "readSwComponentTypeUnitGroups"; "readSwComponentTypeSwcMappingConstraints"; "readSwComponentTypePortGroups"; "readSwComponentTypePorts"; "readSwComponentTypeConsistencyNeeds"; "readSwComponentTypeSwComponentDocumentation"; "readIdentifiable"; "readAtomicSwComponentTypeSymbolProps"; "readAtomicSwComponentTypeSwcInternalBehavior"; "readSwComponentType"; "readAtomicSwComponentType"; "readServiceSwComponentType"]);
  ("ServiceProxySwComponentType", ["readReferrable"; "readMultilanguageReferrable"; "readPortGroup"; "readSwComponentTypeUnitGroups"; "readSwComponentTypeSwcMappingConstraints"; "readSwComponentTypePortGroups"; "readSwComponentTypePorts"; "readSwComponentTypeConsistencyNeeds"; "readSwComponentTypeSwComponentDocumentation"; "readIdentifiable"; "readAtomicSwComponentTypeSymbolProps"; "readAtomicSwComponentTypeSwcInternalBehavior"; "readSwComponentType"; "readAtomicSwComponentType"; "readServiceProxySwComponentType"]);
  ("ServerComSpec", ["readTransformationComSpecPropss"; "readPPortComSpec"]);
  ("SecuredIPdu", ["readReferrable"; "readMultilanguageReferrable"; "readIdentifiable"; "readPdu"; "readIPdu"; "readSecuredIPdu"]);
  ("SecureCommunicationPropsSet", ["readReferrable"; "readMultilanguageReferrable"; "readSecureCommunicationPropsSetFreshnessProps"; "readSecureCommunicationPropsSetAuthenticationProps"; "readIdentifiable"; "readSecureCommunicationPropsSet"]);
  ("SecureCommunicationFreshnessProps", ["readReferrable"; "readMultilanguageReferrable"; "readIdentifiable"; "readSecureCommunicationFreshnessProps"]);
  ("SecureCommunicationAuthenticationProps", ["readReferrable"; "readMultilanguageReferrable"; "readIdentifiable"; "readSecureCommunicationAuthenticationProps"]);
  ("SecureOnBoardCommunicationNeeds", ["readReferrable"; "readMultilanguageReferrable"; "readIdentifiable"; "readServiceNeeds"; "readSecureOnBoardCommunicationNeeds"]);
  ("SectionNamePrefix", ["readReferrable"]);
  ("SegmentPosition", ["readSegmentPosition"]);
  ("System", ["readReferrable"; "readMultilanguageReferrable"; "readRootSwCompositionPrototype"; "readSystemMappings"; "readSystemFibexElementRefs"; "readIdentifiable"; "readSystem"]);
  ("SystemSignal", ["readReferrable"; "readMultilanguageReferrable"; "readIdentifiable"; "readSystemSignal"]);
  ("SystemSignalGroup", ["readReferrable"; "readMultilanguageReferrable"; "readIdentifiable"; "readSystemSignalGroup"]);
  ("SystemMapping", ["readReferrable"; "readMultilanguageReferrable"; "readSystemMappingSwMappings"; "readSystemMappingSwImplMappings"; "readSystemMappingEcuResourceMappings"; "readSystemMappingDataMappings"; "readIdentifiable"; "readSystemMapping"]);
  ("SymbolProps", ["readReferrable"; "readImplementationProps"; "readSymbolProps"]);
  ("SymbolicNameProps", ["readReferrable"; "readImplementationProps"]);
  ("SynchronousServerCallPoint", ["readReferrable"; "readMultilanguageReferrable"; "readROperationIRef"; "readIdentifiable"]);
  ("SignalServiceTranslationProps", ["readReferrable"; "readMultilanguageReferrable"; "readIdentifiable"; "readSignalServiceTranslationProps"]);
  ("SignalServiceTranslationPropsSet", ["readReferrable"; "readMultilanguageReferrable"; "readIdentifiable"; "readSignalServiceTranslationPropsSet"]);
  ("SignalServiceTranslationEventProps", ["readReferrable"; "readMultilanguageReferrable"; "readIdentifiable"; "readSignalServiceTranslationEventProps"]);
  ("SignalServiceTranslationElementProps", ["readReferrable"; "readMultilanguageReferrable"; "readIdentifiable"; "readSignalServiceTranslationElementProps"]);
  ("SimulatedExecutionTime", ["readReferrable"; "readMultilanguageReferrable"; "readIdentifiable"; "readExecutionTime"; "readSimulatedExecutionTime"]);
  ("SoAdRoutingGroup", ["readReferrable"; "readMultilanguageReferrable"; "readIdentifiable"; "readSoAdRoutingGroup"]);
  ("SoAdConfig", ["readSoAdConfigSocketAddresses"; "readSoAdConfigConnectionBundles"]);
  ("SoftwareContext", ["readSoftwareContext"]);
  ("SocketAddress", ["readReferrable"; "readMultilanguageReferrable"; "readSocketAddressMulticastConnectorRefs"; "readSocketAddressApplicationEndpoint"; "readIdentifiable"; "readSocketAddress"]);
  ("SocketConnectionBundle", ["readSocketConnectionBundleConnections"; "readSocketConnectionBundle"]);
  ("StaticPart", ["readMultiplexedPartSegmentPositions"; "readMultiplexedPart"; "readStaticPart"]);
  ("SupervisedEntityNeeds", ["readReferrable"; "readMultilanguageReferrable"; "readIdentifiable"; "readServiceNeeds"; "readSupervisedEntityNeeds"]);
  ("CompositionSwComponentType", ["readReferrable"; "readMultilanguageReferrable"; "readPortGroup"; "readSwComponentTypeUnitGroups"; "readSwComponentTypeSwcMappingConstraints"; "readSwComponentTypePortGroups"; "readSwComponentTypePorts"; "readSwComponentTypeConsistencyNeeds"; "readSwComponentTypeSwComponentDocumentation"; "readIdentifiable"; "readCompositionSwComponentTypeInstantiationRTEEventProps"; "readCompositionSwComponentTypeConstantValueMappingSet"; "readCompositionSwComponentTypeDataTypeMappingSet"; "readCompositionSwComponentTypeSwConnectors"; "readCompositionSwComponentTypeComponents"; "readSwComponentType"; "readCompositionSwComponentType"]);
  ("CompositeRuleBasedValueSpecification", ["readValueSpecification"]);
  ("ComplexDeviceDriverSwComponentType", ["readReferrable"; "readMultilanguageReferrable"; "readPortGroup"; "readSwComponentTypeUnitGroups"; "readSwComponentTypeSwcMappingConstraints"; "readSwComponentTypePortGroups"; "readSwComponentTypePorts"; "readSwComponentTypeConsistencyNeeds"; "readSwComponentTypeSwComponentDocumentation"; "readIdentifiable"; "readAtomicSwComponentTypeSymbolProps"; "readAtomicSwComponentTypeSwcInternalBehavior"; "readSwComponentType"; "readAtomicSwComponentType"; "readComplexDeviceDriverSwComponentType"]);
  ("CompuMethod", ["readReferrable"; "readMultilanguageReferrable"; "readIdentifiable"; "readCompuMethod"]);
  ("CompuScale", ["readCompuRationCoeffs"; "readCompuConst"; "readCompuScaleContents"; "readCompuScale"]);
  ("CompuNominatorDenominator", ["readCompuNominatorDenominator"]);
  ("Compiler", ["readReferrable"; "readMultilanguageReferrable"; "readIdentifiable"]);
  ("ComMgrUserNeeds", ["readReferrable"; "readMultilanguageReferrable"; "readIdentifiable"; "readServiceNeeds"; "readComMgrUserNeeds"]);
  ("ConsistencyNeeds", ["readReferrable"; "readMultilanguageReferrable"; "readConsistencyNeedsRegRequiresStabilitys"; "readConsistencyNeedsRegDoesNotRequireStabilitys"; "readConsistencyNeedsDpgRequiresCoherencys"; "readConsistencyNeedsDpgDoesNotRequireCoherencys"; "readIdentifiable"; "readConsistencyNeeds"]);
  ("ConstantSpecification", ["readReferrable"; "readMultilanguageReferrable"; "readIdentifiable"; "readConstantSpecification"]);
  ("ConstantReference", ["readValueSpecification"]);
  ("ConsumedServiceInstance", ["readReferrable"; "readMultilanguageReferrable"; "readConsumedServiceInstanceConsumedEventGroups"; "readIdentifiable"; "readConsumedServiceInstance"]);
  ("ConsumedEventGroup", ["readReferrable"; "readMultilanguageReferrable"; "readConsumedEventGroupRoutingGroupRefs"; "readIdentifiable"; "readConsumedEventGroup"]);
  ("ConditionByFormula", ["readConditionByFormula"]);
  ("Collection", ["readReferrable"; "readMultilanguageReferrable"; "readIdentifiable"; "readCollectionSourceElementRefs"; "readCollectionElementRefs"; "readARElement"; "readCollection"]);
  ("Code", ["readReferrable"; "readMultilanguageReferrable"; "readCallbackHeaderRefs"; "readArtifactDescriptor"; "readIdentifiable"]);
  ("CouplingPort", ["readCouplingPortVlanMemberships"; "readReferrable"; "readMultilanguageReferrable"; "readIdentifiable"; "readCouplingPort"]);
  ("CouplingPortDetails", ["readCouplingPortDetailsEthernetPriorityRegenerations"; "readCouplingPortDetailsCouplingPortStructuralElements"]);
  ("CouplingPortFifo", ["readReferrable"; "readMultilanguageReferrable"; "readIdentifiable"; "readCouplingPortSchedulerCouplingPortStructuralElement"; "readCouplingPortFifo"]);
  ("CouplingPortScheduler", ["readReferrable"; "readMultilanguageReferrable"; "readIdentifiable"; "readCouplingPortSchedulerCouplingPortStructuralElement"; "readCouplingPortScheduler"]);
  ("ClientServerInterface", ["readReferrable"; "readMultilanguageReferrable"; "readIdentifiable"; "readPossibleErrors"; "readClientServerInterfaceOperations"; "readPortInterface"; "readClientServerInterface"]);
  ("ClientServerInterfaceMapping", ["readReferrable"; "readMultilanguageReferrable"; "readClientServerInterfaceMappingOperationMappings"; "readIdentifiable"; "readClientServerInterfaceMapping"]);
  ("ClientServerOperation", ["readReferrable"; "readMultilanguageReferrable"; "readPossibleErrorRefs"; "readClientServerOperationArguments"; "readIdentifiable"; "readClientServerOperation"]);
  ("ClientServerOperationMapping", ["readClientServerOperationMapping"]);
  ("ClientComSpec", ["readTransformationComSpecPropss"; "readRPortComSpec"]);
  ("CanTpConfig", ["readReferrable"; "readMultilanguageReferrable"; "readIdentifiable"; "readCanTpConfigTpNodes"; "readCanTpConfigTpEcus"; "readCanTpConfigTpConnections"; "readCanTpConfigTpChannels"; "readCanTpConfigTpAddresses"; "readTpConfig"; "readCanTpConfig"]);
  ("CanTpConnection", ["readTpConnectionReceiverRefs"; "readTpConnection"; "readCanTpConnection"]);
  ("CanTpChannel", ["readReferrable"; "readMultilanguageReferrable"; "readIdentifiable"; "readCanTpChannel"]);
  ("CanTpNode", ["readReferrable"; "readMultilanguageReferrable"; "readIdentifiable"; "readCanTpNode"]);
  ("CanTpEcu", ["readCanTpEcu"]);
  ("CanTpAddress", ["readReferrable"; "readMultilanguageReferrable"; "readIdentifiable"; "readCanTpAddress"]);
  ("CanCluster", ["readCommunicationClusterPhysicalChannels"; "readReferrable"; "readMultilanguageReferrable"; "readCommunicationCluster"; "readAbstractCanCluster"; "readIdentifiable"; "readCanCluster"]);
  ("CanCommunicationConnector", ["readReferrable"; "readMultilanguageReferrable"; "readCommunicationConnectorEcuCommPortInstances"; "readIdentifiable"; "readCommunicationConnector"; "readCanCommunicationConnector"]);
  ("CanCommunicationController", ["readReferrable"; "readMultilanguageReferrable"; "readAbstractCanCommunicationControllerCanControllerAttributes"; "readCommunicationController"; "readAbstractCanCommunicationController"; "readIdentifiable"; "readCanCommunicationController"]);
  ("CanControllerConfigurationRequirements", ["readAbstractCanCommunicationControllerAttributes"; "readCanControllerConfigurationRequirements"]);
  ("CanFrame", ["readReferrable"; "readMultilanguageReferrable"; "readPduToFrameMappings"; "readIdentifiable"; "readFrame"; "readCanFrame"]);
  ("CanFrameTriggering", ["readReferrable"; "readMultilanguageReferrable"; "readIdentifiable"; "readFrameTriggering"; "readCanFrameTriggering"]);
  ("CanNmCluster", ["readReferrable"; "readMultilanguageReferrable"; "readNmClusterNmNodes"; "readIdentifiable"; "readNmCluster"; "readCanNmCluster"]);
  ("CanNmNode", ["readReferrable"; "readMultilanguageReferrable"; "readIdentifiable"; "readNmNode"; "readCanNmNode"]);
  ("CanPhysicalChannel", ["readReferrable"; "readMultilanguageReferrable"; "readPhysicalChannelPduTriggerings"; "readPhysicalChannelISignalTriggerings"; "readPhysicalChannelFrameTriggerings"; "readPhysicalChannelCommConnectorRefs"; "readIdentifiable"; "readPhysicalChannel"; "readCanPhysicalChannel"]);
  ("Caption", ["readReferrable"; "readMultilanguageReferrable"]);
  ("Chapter", ["readReferrable"; "readMultilanguageReferrable"; "readIdentifiable"; "readChapterBody"]);
  ("CryptoServiceNeeds", ["readReferrable"; "readMultilanguageReferrable"; "readIdentifiable"; "readServiceNeeds"; "readCryptoServiceNeeds"]);
  ("CycleRepetition", ["readCommunicationCycle"; "readCycleRepetition"]);
  ("RunnableEntity", ["readReferrable"; "readMultilanguageReferrable"; "readRunsInsideRefs"; "readExclusiveAreaNestingOrderRefs"; "readCanEnterRefs"; "readActivationReasons"; "readIdentifiable"; "readAsynchronousServerCallPoint"; "readSynchronousServerCallPoint"; "_readVariableAccesses"; "readRunnableEntityWrittenLocalVariables"; "readRunnableEntityWaitPoints"; "readRunnableEntityReadLocalVariables"; "readRunnableEntityParameterAccesses"; "readRunnableEntityModeSwitchPoints"; "readRunnableEntityModeAccessPoints"; "readRunnableEntityExternalTriggeringPoints"; "readRunnableEntityInternalTriggeringPoints"; "readRunnableEntityInternalBehaviorServerCallPoint"; "readRunnableEntityDataSendPoints"; "readRunnableEntityDataWriteAccesses"; "readRunnableEntityDataReceivePointByValues"; "readRunnableEntityDataReceivePointByArguments"; "readRunnableEntityDataReadAccesses"; "readRunnableEntityAsynchronousServerCallResultPoint"; "readRunnableEntityArguments"; "readExecutableEntity"; "readRunnableEntity"]);
  ("RunnableEntityGroup", ["readReferrable"; "readMultilanguageReferrable"; "readRunnableEntityGroupRunnableEntityIRefs"; "readRunnableEntityGroupRunnableEntityGroupIRefs"; "readIdentifiable"; "readRunnableEntityGroup"]);
  ("RunnableEntityInCompositionInstanceRef", ["readRunnableEntityInCompositionInstanceRef"]);
  ("RuntimeError", ["readReferrable"; "readMultilanguageReferrable"; "readIdentifiable"; "readTracedFailure"; "readRuntimeError"]);
  ("RootSwCompositionPrototype", ["readReferrable"; "readMultilanguageReferrable"; "readIdentifiable"]);
  ("RoughEstimateStackUsage", ["readReferrable"; "readMultilanguageReferrable"; "readIdentifiable"; "readStackUsage"; "readRoughEstimateStackUsage"]);
  ("RoughEstimateHeapUsage", ["readReferrable"; "readMultilanguageReferrable"; "readIdentifiable"; "readHeapUsage"; "readRoughEstimateHeapUsage"]);
  ("RoughEstimateOfExecutionTime", ["readReferrable"; "readMultilanguageReferrable"; "readIdentifiable"; "readExecutionTime"; "readRoughEstimateOfExecutionTime"]);
  ("RoleBasedMcDataAssignment", ["readRoleBasedMcDataAssignment"]);
  ("RecordValueSpecification", ["readRecordValueSpecificationFields"; "readValueSpecification"]);
  ("ResourceConsumption", ["readReferrable"; "readMultilanguageReferrable"; "readStackUsages"; "readSectionNamePrefixes"; "readMemorySections"; "readHeapUsages"; "readExecutionTimes"; "readAccessCountSets"; "readIdentifiable"]);
  ("RPortPrototype", ["readReferrable"; "readMultilanguageReferrable"; "readRequiredComSpec"; "readPortPrototype"; "readAbstractProvidedPortPrototype"; "readIdentifiable"; "readRPortPrototype"]);
  ("RPortInCompositionInstanceRef", ["readRPortInCompositionInstanceRef"]);
  ("RptSupportData", ["readRptSupportData"]);
  ("RptServicePoint", ["readRptServicePoint"]);
  ("RptSwPrototypingAccess", ["readRptSwPrototypingAccess"]);
  ("RptComponent", ["readRptComponent"]);
  ("RptImplPolicy", ["readRptImplPolicy"]);
  ("RptExecutableEntity", ["readRptExecutableEntity"]);
  ("RptExecutableEntityEvent", ["readRptExecutableEntityEvent"]);
  ("RptExecutableEntityProperties", ["readRptExecutableEntityProperties"]);
  ("RteEventInEcuInstanceRef", ["readRteEventInEcuInstanceRef"]);
  ("RModeGroupInAtomicSWCInstanceRef", ["readModeGroupInAtomicSwcInstanceRef"; "readRModeGroupInAtomicSWCInstanceRef"]);
  ("EndToEndProtection", ["readEndToEndProtectionEndToEndProtectionVariablePrototypes"; "readEndToEndProtectionEndToEndProtectionISignalIPdus"; "readReferrable"; "readMultilanguageReferrable"; "readIdentifiable"]);
  ("EndToEndProtectionSet", ["readReferrable"; "readMultilanguageReferrable"; "readEndToEndProtection"; "readEndToEndProtections"; "readIdentifiable"; "readEndToEndProtectionSet"]);
  ("EndToEndProtectionVariablePrototype", ["readEndToEndProtectionVariablePrototype"]);
  ("EndToEndProtectionISignalIPdu", ["readEndToEndProtectionISignalIPdu"]);
  ("EndToEndTransformationISignalProps", ["readDescribable"; "readEndToEndTransformationISignalPropsDataIds"; "readTransformationISignalProps"; "readEndToEndTransformationISignalProps"]);
  ("EndToEndTransformationDescription", ["readDescribable"; "readTransformationDescription"; "readEndToEndTransformationDescription"]);
  ("EndToEndTransformationComSpecProps", ["readTransformationComSpecProps"; "readEndToEndTransformationComSpecProps"]);
  ("EndToEndDescription", ["readEndToEndDescriptionDataIds"]);
  ("EcuAbstractionSwComponentType", ["readReferrable"; "readMultilanguageReferrable"; "readPortGroup"; "readSwComponentTypeUnitGroups"; "readSwComponentTypeSwcMappingConstraints"; "readSwComponentTypePortGroups"; "readSwComponentTypePorts"; "readSwComponentTypeConsistencyNeeds"; "readSwComponentTypeSwComponentDocumentation"; "readIdentifiable"; "readAtomicSwComponentTypeSymbolProps"; "readAtomicSwComponentTypeSwcInternalBehavior"; "readSwComponentType"; "readEcuAbstractionSwComponentTypeHardwareElementRefs"; "readAtomicSwComponentType"; "readEcuAbstractionSwComponentType"]);
  ("EcuInstance", ["readReferrable"; "readMultilanguageReferrable"; "readEcuInstanceFirewallRuleRefs"; "readEcuInstanceEcuTaskProxyRefs"; "readEcuInstanceConnectors"; "readEcuInstanceCommControllers"; "readEcuInstanceAssociatedPdurIPduGroupRefs"; "readEcuInstanceAssociatedConsumedProvidedServiceInstanceGroupRefs"; "readEcuInstanceAssociatedComIPduGroupRefs"; "readIdentifiable"; "readEcuInstance"]);
  ("EcucValueCollection", ["readReferrable"; "readMultilanguageReferrable"; "readEcucValueCollectionEcucValues"; "readIdentifiable"; "readEcucValueCollection"]);
  ("EcucValueConfigurationClass", ["readEcucAbstractConfigurationClass"; "readEcucValueConfigurationClass"]);
  ("EcucValidationCondition", ["readReferrable"; "readMultilanguageReferrable"; "readIdentifiable"]);
  ("EcucModuleConfigurationValues", ["readReferrable"; "readMultilanguageReferrable"; "readEcucModuleConfigurationValuesEcucContainerValue"; "readEcucModuleConfigurationValuesContainers"; "readIdentifiable"; "readEcucModuleConfigurationValues"]);
  ("EcucModuleDef", ["readEcucValidationConditions"; "readReferrable"; "readMultilanguageReferrable"; "readIdentifiable"; "readEcucModuleDefContainers"; "readEcucModuleDefSupportedConfigVariants"; "readEcucDefinitionElement"; "readEcucModuleDef"]);
  ("EcucMultilineStringParamDef", ["readReferrable"; "readMultilanguageReferrable"; "readEcucValidationConditions"; "readIdentifiable"; "readEcucDefinitionElement"; "readEcucCommonAttributes"; "readEcucParameterDef"; "readEcucMultilineStringParamDef"]);
  ("EcucMultiplicityConfigurationClass", ["readEcucAbstractConfigurationClass"; "readEcucMultiplicityConfigurationClass"]);
  ("EcucDefinitionCollection", ["readReferrable"; "readMultilanguageReferrable"; "readIdentifiable"; "readARElement"; "readEcucDefinitionCollection"]);
  ("EcucDestinationUriDef", ["readReferrable"; "readMultilanguageReferrable"; "readIdentifiable"; "readEcucDestinationUriDef"]);
  ("EcucDestinationUriDefSet", ["readEcucDestinationUriDefSet"]);
  ("EcucDestinationUriPolicy", ["readEcucDestinationUriPolicyReferences"; "readEcucDestinationUriPolicyParameters"; "readEcucDestinationUriPolicyContainers"; "readEcucDestinationUriPolicy"]);
  ("EcucParamConfContainerDef", ["readReferrable"; "readMultilanguageReferrable"; "readEcucValidationConditions"; "readIdentifiable"; "readEcucDefinitionElement"; "readEcucContainerDefSubContainers"; "readEcucContainerDefReferences"; "readEcucContainerDefParameters"; "readEcucContainerDef"; "readEcucParamConfContainerDef"]);
  ("EcucChoiceContainerDef", ["readReferrable"; "readMultilanguageReferrable"; "readEcucValidationConditions"; "readIdentifiable"; "readEcucDefinitionElement"; "readEcucChoiceContainerDefChoices"; "readEcucContainerDef"; "readEcucChoiceContainerDef"]);
  ("EcucChoiceReferenceDef", ["readReferrable"; "readMultilanguageReferrable"; "readEcucValidationConditions"; "readIdentifiable"; "readEcucDefinitionElement"; "readEcucCommonAttributes"; "readEcucAbstractReferenceDef"; "readEcucAbstractInternalReferenceDef"; "readEcucChoiceReferenceDef"]);
  ("EcucContainerValue", ["readReferrable"; "readMultilanguageReferrable"; "readEcucContainerValueEcucContainerValue"; "readEcucContainerValueSubContainers"; "readEcucContainerValueReferenceValues"; "readEcucContainerValueParameterValues"; "readIdentifiable"; "readEcucContainerValue"]);
  ("EcucQuery", ["readReferrable"; "readMultilanguageReferrable"; "readIdentifiable"; "readEcucQuery"]);
  ("EcucSymbolicNameReferenceDef", ["readReferrable"; "readMultilanguageReferrable"; "readEcucValidationConditions"; "readIdentifiable"; "readEcucDefinitionElement"; "readEcucCommonAttributes"; "readEcucAbstractReferenceDef"; "readEcucAbstractInternalReferenceDef"; "readEcucSymbolicNameReferenceDef"]);
  ("EcucStringParamDef", ["readReferrable"; "readMultilanguageReferrable"; "readEcucValidationConditions"; "readIdentifiable"; "readEcucDefinitionElement"; "readEcucCommonAttributes"; "readEcucParameterDef"; "readEcucStringParamDef"]);
  ("EcucReferenceDef", ["readReferrable"; "readMultilanguageReferrable"; "readEcucValidationConditions"; "readIdentifiable"; "readEcucDefinitionElement"; "readEcucCommonAttributes"; "readEcucAbstractReferenceDef"; "readEcucAbstractInternalReferenceDef"; "readEcucReferenceDef"]);
  ("EcucReferenceValue", ["readEcucAbstractReferenceValue"]);
  ("EcucInstanceReferenceDef", ["readReferrable"; "readMultilanguageReferrable"; "readEcucValidationConditions"; "readIdentifiable"; "readEcucDefinitionElement"; "readEcucCommonAttributes"; "readEcucAbstractReferenceDef"; "readEcucAbstractExternalReferenceDef"; "readEcucInstanceReferenceDef"]);
  ("EcucInstanceReferenceValue", ["readEcucAbstractReferenceValue"]);
  ("EcucIntegerParamDef", ["readReferrable"; "readMultilanguageReferrable"; "readEcucValidationConditions"; "readIdentifiable"; "readEcucDefinitionElement"; "readEcucCommonAttributes"; "readEcucParameterDef"; "readEcucIntegerParamDef"]);
  ("EcucBooleanParamDef", ["readReferrable"; "readMultilanguageReferrable"; "readEcucValidationConditions"; "readIdentifiable"; "readEcucDefinitionElement"; "readEcucCommonAttributes"; "readEcucParameterDef"; "readEcucBooleanParamDef"]);
  ("EcucFloatParamDef", ["readReferrable"; "readMultilanguageReferrable"; "readEcucValidationConditions"; "readIdentifiable"; "readEcucDefinitionElement"; "readEcucCommonAttributes"; "readEcucParameterDef"; "readEcucFloatParamDef"]);
  ("EcucFunctionNameDef", ["readReferrable"; "readMultilanguageReferrable"; "readEcucValidationConditions"; "readIdentifiable"; "readEcucDefinitionElement"; "readEcucCommonAttributes"; "readEcucParameterDef"; "readEcucFunctionNameDef"]);
  ("EcucEnumerationParamDef", ["readReferrable"; "readMultilanguageReferrable"; "readEcucValidationConditions"; "readIdentifiable"; "readEcucDefinitionElement"; "readEcucCommonAttributes"; "readEcucEnumerationParamDefLiterals"; "readEcucParameterDef"; "readEcucEnumerationParamDef"]);
  ("EcucEnumerationLiteralDef", ["readReferrable"; "readMultilanguageReferrable"; "readIdentifiable"; "readEcucEnumerationLiteral"]);
  ("EcucNumericalParamValue", ["readEcucParameterValue"]);
  ("EcucTextualParamValue", ["readEcucParameterValue"]);
  ("EcuStateMgrUserNeeds", ["readReferrable"; "readMultilanguageReferrable"; "readIdentifiable"; "readServiceNeeds"; "readEcuStateMgrUserNeeds"]);
  ("EthernetCluster", ["readReferrable"; "readMultilanguageReferrable"; "readCommunicationClusterPhysicalChannels"; "readEthernetClusterMacMulticastGroups"; "readCommunicationCluster"; "readIdentifiable"; "readEthernetCluster"]);
  ("EthernetCommunicationConnector", ["readReferrable"; "readMultilanguageReferrable"; "readCommunicationConnectorEcuCommPortInstances"; "readIdentifiable"; "readEthernetCommunicationConnectorNetworkEndpointRefs"; "readCommunicationConnector"; "readEthernetCommunicationConnector"]);
  ("EthernetCommunicationController", ["readReferrable"; "readMultilanguageReferrable"; "readEthernetCommunicationControllerCouplingPorts"; "readCommunicationController"; "readIdentifiable"; "readEthernetCommunicationController"]);
  ("EthernetPhysicalChannel", ["readReferrable"; "readEthernetPhysicalChannelVlan"; "readMultilanguageReferrable"; "readPhysicalChannelPduTriggerings"; "readPhysicalChannelISignalTriggerings"; "readPhysicalChannelFrameTriggerings"; "readPhysicalChannelCommConnectorRefs"; "readIdentifiable"; "readEthernetPhysicalChannelNetworkEndPoints"; "readPhysicalChannel"; "readEthernetPhysicalChannel"]);
  ("EthernetPriorityRegeneration", ["readEthernetPriorityRegeneration"]);
  ("E2EProfileCompatibilityProps", ["readReferrable"; "readMultilanguageReferrable"; "readIdentifiable"; "readARElement"; "readE2EProfileCompatibilityProps"]);
  ("ExecutionOrderConstraint", ["readReferrable"; "readMultilanguageReferrable"; "readEOCExecutableEntityRef"; "readExecutionOrderConstraintOrderedElement"; "readIdentifiable"]);
  ("ExecutableEntityActivationReason", ["readReferrable"; "readImplementationProps"; "readExecutableEntityActivationReason"]);
  ("ECUMapping", ["readReferrable"; "readMultilanguageReferrable"; "readIdentifiable"; "readEcuMapping"]);
  ("EOCExecutableEntityRef", ["readReferrable"; "readMultilanguageReferrable"; "readIdentifiable"]);
  ("ErrorTracerNeeds", ["readReferrable"; "readMultilanguageReferrable"; "readIdentifiable"; "readServiceNeeds"; "readErrorTracerNeeds"]);
  ("EventHandler", ["readReferrable"; "readMultilanguageReferrable"; "readIdentifiable"; "readEventHandler"]);
  ("Unit", ["readReferrable"; "readMultilanguageReferrable"; "readIdentifiable"; "readUnit"]);
  ("UnlimitedIntegerValueVariationPoint", ["readAttributeValueVariationPoint"]);
  ("UserDefinedIPdu", ["readReferrable"; "readMultilanguageReferrable"; "readIdentifiable"; "readPdu"; "readIPdu"; "readUserDefinedIPdu"]);
  ("UserDefinedPdu", ["readReferrable"; "readMultilanguageReferrable"; "readIdentifiable"; "readPdu"; "readUserDefinedPdu"]);
  ("UserDefinedTransformationComSpecProps", ["readTransformationComSpecProps"; "readUserDefinedTransformationComSpecProps"]);
  ("UdpNmCluster", ["readReferrable"; "readMultilanguageReferrable"; "readNmClusterNmNodes"; "readIdentifiable"; "readNmCluster"; "readUdpNmCluster"]);
  ("UdpNmEcu", ["readUdpNmEcu"]);
  ("UdpNmNode", ["readReferrable"; "readMultilanguageReferrable"; "readIdentifiable"; "readNmNode"; "readUdpNmNode"]);
  ("UdpTp", ["readUdpTp"]);
  ("BswModuleDescription", ["readReferrable"; "readMultilanguageReferrable"; "readBswModuleDescriptionBswModuleDocumentation"; "readBswModuleDescriptionBswModuleDependencies"; "readBswModuleDescriptionRequiredTriggers"; "readBswModuleDescriptionBswInternalBehaviors"; "readBswModuleDescriptionRequiredDatas"; "readBswModuleDescriptionProvidedDatas"; "readBswModuleDescriptionRequiredClientServerEntries"; "readBswModuleDescriptionProvidedClientServerEntries"; "readBswModuleDescriptionRequiredModeGroups"; "readBswModuleDescriptionProvidedModeGroups"; "readBswModuleDescriptionImplementedEntryRefs"; "readBswModuleDescriptionExpectedEntryRefs"; "readIdentifiable"; "readBswModuleDescription"]);
  ("BswModuleEntry", ["readReferrable"; "readMultilanguageReferrable"; "readBswModuleEntryReturnType"; "readBswModuleEntryArguments"; "readIdentifiable"; "readBswModuleEntry"]);
  ("BswModuleClientServerEntry", ["readReferrable"; "readBswModuleClientServerEntry"]);
  ("BswModeSwitchEvent", ["readBswEvent"; "readBswScheduleEvent"; "readBswModeSwitchEvent"]);
  ("BswModeSwitchedAckEvent", ["readBswEvent"; "readBswScheduleEvent"; "readBswModeSwitchedAckEvent"]);
  ("BswModeManagerErrorEvent", ["readBswEvent"; "readBswScheduleEvent"; "readBswModeManagerErrorEvent"]);
  ("BswMgrNeeds", ["readReferrable"; "readMultilanguageReferrable"; "readIdentifiable"; "readServiceNeeds"; "readBswMgrNeeds"]);
  ("BswImplementation", ["readReferrable"; "readMultilanguageReferrable"; "readDependencyOnArtifact:createRequiredGeneratorTool"; "readDependencyOnArtifact:createRequiredArtifact"; "readDependencyOnArtifact:createGeneratedArtifact"; "readLinker"; "readCompiler"; "readBuildActionManifests"; "readResourceConsumption"; "readCodeDescriptor"; "readIdentifiable"; "readBswImplementationVendorSpecificModuleDefRefs"; "readBswImplementationRecommendedConfigurationRefs"; "readBswImplementationPreconfiguredConfigurationRefs"; "readImplementation"; "readBswImplementation"]);
  ("BswInternalBehavior", ["readReferrable"; "readMultilanguageReferrable"; "readInternalBehaviorStaticMemories"; "readDataTypeMappingRefs"; "readExclusiveAreaNestingOrders"; "readInternalBehaviorConstantMemories"; "readIdentifiable"; "readBswInternalBehaviorServiceDependencies"; "readBswInternalBehaviorReceptionPolicies"; "readBswInternalBehaviorModeSenderPolicy"; "readBswInternalBehaviorEvents"; "readBswInternalBehaviorEntities"; "readBswInternalBehaviorInternalTriggeringPoints"; "readInternalBehavior"; "readBswInternalBehavior"]);
  ("BswInternalTriggerOccurredEvent", ["readBswEvent"; "readBswScheduleEvent"; "readBswInternalTriggerOccurredEvent"]);
  ("BswInternalTriggeringPoint", ["readReferrable"; "readMultilanguageReferrable"; "readIdentifiable"; "readBswInternalTriggeringPoint"]);
  ("BswInterruptEntity", ["readReferrable"; "readMultilanguageReferrable"; "readRunsInsideRefs"; "readExclusiveAreaNestingOrderRefs"; "readCanEnterRefs"; "readActivationReasons"; "readIdentifiable"; "readBswModuleEntityIssuedTriggerRefs"; "readBswModuleEntityManagedModeGroups"; "readBswModuleEntityAccessedModeGroups"; "readBswModuleEntityDataSendPoints"; "readBswModuleEntityDataReceiverPoints"; "readBswModuleEntityCallPoints"; "readBswModuleEntityActivationPointRefs"; "readExecutableEntity"; "readBswModuleEntity"; "readBswInterruptEntity"]);
  ("BswServiceDependency", ["readSymbolicNameProps"; "readBswServiceDependencyServiceNeeds"; "readBswServiceDependencyAssignedEntryRoles"; "readBswServiceDependencyAssignedData"; "readBswServiceDependency"]);
  ("BswSchedulableEntity", ["readReferrable"; "readMultilanguageReferrable"; "readRunsInsideRefs"; "readExclusiveAreaNestingOrderRefs"; "readCanEnterRefs"; "readActivationReasons"; "readIdentifiable"; "readBswModuleEntityIssuedTriggerRefs"; "readBswModuleEntityManagedModeGroups"; "readBswModuleEntityAccessedModeGroups"; "readBswModuleEntityDataSendPoints"; "readBswModuleEntityDataReceiverPoints"; "readBswModuleEntityCallPoints"; "readBswModuleEntityActivationPointRefs"; "readExecutableEntity"; "readBswModuleEntity"; "readBswSchedulableEntity"]);
  ("BswSynchronousServerCallPoint", ["readReferrable"; "readBswModuleCallPoint"; "readBswSynchronousServerCallPoint"]);
  ("BswQueuedDataReceptionPolicy", ["readBswApiOptions"; "readBswDataReceptionPolicy"; "readBswQueuedDataReceptionPolicy"]);
  ("BswTimingEvent", ["readBswEvent"; "readBswScheduleEvent"; "readBswTimingEvent"]);
  ("BswDataReceivedEvent", ["readBswEvent"; "readBswScheduleEvent"; "readBswDataReceivedEvent"]);
  ("BswBackgroundEvent", ["readBswEvent"; "readBswScheduleEvent"; "readBswBackgroundEvent"]);
  ("BswExternalTriggerOccurredEvent", ["readBswEvent"; "readBswScheduleEvent"; "readBswExternalTriggerOccurredEvent"]);
  ("BswOperationInvokedEvent", ["readBswEvent"; "readBswOperationInvokedEvent"]);
  ("BswAsynchronousServerCallReturnsEvent", ["readBswEvent"; "readBswScheduleEvent"; "readBswAsynchronousServerCallReturnsEvent"]);
  ("BswAsynchronousServerCallPoint", ["readReferrable"; "readBswModuleCallPoint"; "readBswAsynchronousServerCallPoint"]);
  ("BswCalledEntity", ["readReferrable"; "readMultilanguageReferrable"; "readRunsInsideRefs"; "readExclusiveAreaNestingOrderRefs"; "readCanEnterRefs"; "readActivationReasons"; "readIdentifiable"; "readBswModuleEntityIssuedTriggerRefs"; "readBswModuleEntityManagedModeGroups"; "readBswModuleEntityAccessedModeGroups"; "readBswModuleEntityDataSendPoints"; "readBswModuleEntityDataReceiverPoints"; "readBswModuleEntityCallPoints"; "readBswModuleEntityActivationPointRefs"; "readExecutableEntity"; "readBswModuleEntity"; "readBswCalledEntity"]);
  ("BswVariableAccess", ["readReferrable"; "readBswVariableAccess"]);
  ("BaseTypeDirectDefinition", ["readBaseTypeDirectDefinition"]);
  ("BackgroundEvent", ["readReferrable"; "readMultilanguageReferrable"; "readIdentifiable"; "readRTEEvent"; "readBackgroundEvent"]);
  ("BulkNvDataDescriptor", ["readReferrable"; "readMultilanguageReferrable"; "readIdentifiable"; "readBulkNvDataDescriptor"]);
  ("BlueprintGenerator", ["readBlueprintGenerator"]);
  ("BooleanValueVariationPoint", ["readAttributeValueVariationPoint"]);
  ("ImplementationDataType", ["readReferrable"; "readMultilanguageReferrable"; "readIdentifiable"; "readImplementationDataTypeSymbolProps"; "readImplementationDataTypeSubElements"; "readAutosarDataType"; "readImplementationDataType"]);
  ("ImplementationDataTypeElement", ["readReferrable"; "readMultilanguageReferrable"; "readIdentifiable"; "readImplementationDataTypeSubElements"; "readAutosarDataType"; "readImplementationDataTypeElement"]);
  ("ImplementationElementInParameterInstanceRef", ["readImplementationElementInParameterInstanceRef"]);
  ("ISignal", ["readISignalTransformationISignalProps"; "readISignalProps"; "readReferrable"; "readMultilanguageReferrable"; "readIdentifiable"; "readISignal"]);
  ("ISignalIPdu", ["readISignalToPduMappings"; "readReferrable"; "readMultilanguageReferrable"; "readIdentifiable"; "readISignalIPdu"]);
  ("ISignalIPduGroup", ["readReferrable"; "readMultilanguageReferrable"; "readIdentifiable"; "readISignalIPduGroup"]);
  ("ISignalGroup", ["readReferrable"; "readMultilanguageReferrable"; "readISignalGroupTransformationISignalProps"; "readISignalGroupISignalRef"; "readISignalGroupComBasedSignalGroupTransformation"; "readIdentifiable"; "readISignalGroup"]);
  ("ISignalToIPduMapping", ["readReferrable"; "readMultilanguageReferrable"; "readIdentifiable"; "readISignalToIPduMapping"]);
  ("ISignalTriggering", ["readReferrable"; "readMultilanguageReferrable"; "readIdentifiable"; "readISignalTriggering"]);
  ("ISignalPort", ["readReferrable"; "readMultilanguageReferrable"; "readIdentifiable"; "readCommConnectorPort"; "readISignalPort"]);
  ("InnerDataPrototypeGroupInCompositionInstanceRef", ["readInnerDataPrototypeGroupInCompositionInstanceRef"]);
  ("InnerRunnableEntityGroupInCompositionInstanceRef", ["readInnerRunnableEntityGroupInCompositionInstanceRef"]);
  ("InstantiationTimingEventProps", ["readInstantiationRTEEventProps"; "readInstantiationTimingEventProps"]);
  ("InstanceEventInCompositionInstanceRef", ["readInstanceEventInCompositionInstanceRef"]);
  ("IncludedModeDeclarationGroupSet", ["readIncludedModeDeclarationGroupSet"]);
  ("InternalTriggerOccurredEvent", ["readReferrable"; "readMultilanguageReferrable"; "readIdentifiable"; "readRTEEvent"; "readInternalTriggerOccurredEvent"]);
  ("IntegerValueVariationPoint", ["readAttributeValueVariationPoint"]);
  ("InitEvent", ["readReferrable"; "readMultilanguageReferrable"; "readIdentifiable"; "readRTEEvent"; "readInitEvent"]);
  ("IndicatorStatusNeeds", ["readReferrable"; "readMultilanguageReferrable"; "readIdentifiable"; "readServiceNeeds"; "readIndicatorStatusNeeds"]);
  ("IPduPort", ["readReferrable"; "readMultilanguageReferrable"; "readIdentifiable"; "readCommConnectorPort"; "readIPduPort"]);
  ("IdsMgrNeeds", ["readReferrable"; "readMultilanguageReferrable"; "readIdentifiable"; "readServiceNeeds"; "readIdsMgrNeeds"]);
  ("Trigger", ["readReferrable"; "readMultilanguageReferrable"; "readIdentifiable"; "readTrigger"]);
  ("TriggerInterface", ["readReferrable"; "readMultilanguageReferrable"; "readIdentifiable"; "readTriggerInterface"]);
  ("TransformationTechnology", ["readTransformationTechnologyTransformationDescriptions"; "readReferrable"; "readMultilanguageReferrable"; "readIdentifiable"; "readTransformationTechnology"]);
  ("TransientFault", ["readReferrable"; "readMultilanguageReferrable"; "readIdentifiable"; "readTracedFailure"; "readTransientFault"]);
  ("TpAddress", ["readReferrable"; "readMultilanguageReferrable"; "readIdentifiable"; "readTpAddress"]);
  ("TpConnectionIdent", ["readReferrable"]);
  ("TextValueSpecification", ["readValueSpecification"]);
  ("Topic1", ["readReferrable"; "readMultilanguageReferrable"; "readIdentifiable"]);
  ("TimingEvent", ["readReferrable"; "readMultilanguageReferrable"; "readIdentifiable"; "readRTEEvent"; "readTimingEvent"]);
  ("TimeValueValueVariationPoint", ["readAttributeValueVariationPoint"]);
  ("TcpTp", ["readTcpTp"]);
  ("NvBlockSwComponentType", ["readReferrable"; "readMultilanguageReferrable"; "readPortGroup"; "readSwComponentTypeUnitGroups"; "readSwComponentTypeSwcMappingConstraints"; "readSwComponentTypePortGroups"; "readSwComponentTypePorts"; "readSwComponentTypeConsistencyNeeds"; "readSwComponentTypeSwComponentDocumentation"; "readIdentifiable"; "readAtomicSwComponentTypeSymbolProps"; "readAtomicSwComponentTypeSwcInternalBehavior"; "readSwComponentType"; "readAtomicSwComponentType"; "readNvBlockSwComponentType"]);
  ("NvBlockDescriptor", ["readReferrable"; "readMultilanguageReferrable"; "readIdentifiable"; "readNvBlockDescriptor"]);
  ("NvBlockDataMapping", ["readNvBlockDataMapping"]);
  ("NvBlockNeeds", ["readReferrable"; "readMultilanguageReferrable"; "readIdentifiable"; "readServiceNeeds"; "readNvBlockNeeds"]);
  ("NvDataInterface", ["readReferrable"; "readMultilanguageReferrable"; "readIdentifiable"; "readPortInterface"; "readNvDataInterfaceNvDatas"; "readDataInterface"; "readNvDataInterface"]);
  ("NvProvideComSpec", ["readPPortComSpec"]);
  ("NvRequireComSpec", ["readRPortComSpec"]);
  ("NmPdu", ["readReferrable"; "readMultilanguageReferrable"; "readIdentifiable"; "readNmPduISignalToIPduMappings"; "readPdu"; "readNmPdu"]);
  ("NmConfig", ["readReferrable"; "readMultilanguageReferrable"; "readNmConfigNmIfEcus"; "readNmConfigNmClusterCouplings"; "readNmConfigNmClusters"; "readIdentifiable"; "readNmConfig"]);
  ("NmEcu", ["readReferrable"; "readMultilanguageReferrable"; "readBusDependentNmEcus"; "readIdentifiable"; "readNmEcu"]);
  ("NPdu", ["readReferrable"; "readMultilanguageReferrable"; "readIdentifiable"; "readPdu"; "readIPdu"; "readNPdu"]);
  ("NumericalValueSpecification", ["readValueSpecification"]);
  ("NumericalValueVariationPoint", ["readAttributeValueVariationPoint"]);
  ("NetworkEndpoint", ["readNetworkEndPointNetworkEndPointAddress"; "readReferrable"; "readMultilanguageReferrable"; "readIdentifiable"; "readNetworkEndPoint"]);
  ("NonqueuedSenderComSpec", ["readSenderComSpec"]);
  ("NonqueuedReceiverComSpec", ["readRPortComSpec"; "readReceiverComSpec"]);
  ("ModeDeclarationGroup", ["readReferrable"; "readMultilanguageReferrable"; "readModeDeclarationGroupModeTransition"; "readModeDeclarationGroupModeDeclaration"; "readIdentifiable"; "readModeDeclarationGroup"]);
  ("ModeDeclarationGroupPrototype", ["readReferrable"; "readMultilanguageReferrable"; "readIdentifiable"; "readModeDeclarationGroupPrototype"]);
  ("ModeDeclarationMapping", ["readReferrable"; "readMultilanguageReferrable"; "readModeDeclarationMappingFirstModeRefs"; "readIdentifiable"; "readModeDeclarationMapping"]);
  ("ModeDeclarationMappingSet", ["readReferrable"; "readMultilanguageReferrable"; "readIdentifiable"; "readModeDeclarationMappingSetModeDeclarationMappings"; "readARElement"; "readModeDeclarationMappingSet"]);
  ("ModeSwitchInterface", ["readReferrable"; "readMultilanguageReferrable"; "readIdentifiable"; "readModeSwitchInterfaceModeGroup"; "readPortInterface"; "readModeSwitchInterface"]);
  ("ModeSwitchedAckEvent", ["readReferrable"; "readMultilanguageReferrable"; "readIdentifiable"; "readRTEEvent"; "readModeSwitchedAckEvent"]);
  ("ModeSwitchReceiverComSpec", ["readRPortComSpec"]);
  ("ModeSwitchPoint", ["readModeSwitchPointModeGroupIRef"; "readModeSwitchPoint"]);
  ("ModeInterfaceMapping", ["readReferrable"; "readMultilanguageReferrable"; "readModeInterfaceMappingModeMapping"; "readIdentifiable"; "readModeInterfaceMapping"]);
  ("ModeAccessPoint", ["readModeAccessPoint"]);
  ("Modification", ["readModification"]);
  ("MultiplexedIPdu", ["readReferrable"; "readMultilanguageReferrable"; "readIdentifiable"; "readPdu"; "readMultiplexedIPduStaticParts"; "readMultiplexedIPduDynamicParts"; "readIPdu"; "readMultiplexedIPdu"]);
  ("MultiLanguageOverviewParagraph", ["readLOverviewParagraph"]);
  ("MultilanguageLongName", ["readLLongName"]);
  ("MultidimensionalTime", ["readMultidimensionalTime"]);
  ("McFunction", ["readReferrable"; "readMultilanguageReferrable"; "readIdentifiable"; "readMcFunction"]);
  ("McFunctionDataRefSet", ["readMcFunctionDataRefSet"]);
  ("McGroup", ["readReferrable"; "readMultilanguageReferrable"; "readIdentifiable"; "readMcGroup"]);
  ("McGroupDataRefSet", ["readMcGroupDataRefSet"]);
  ("McSupportData", ["readMcSupportData"]);
  ("McSwEmulationMethodSupport", ["readMcSwEmulationMethodSupport"]);
  ("McDataInstance", ["readMcDataInstance"]);
  ("McDataAccessDetails", ["readMcDataAccessDetails"]);
  ("McParameterElementGroup", ["readMcParameterElementGroup"]);
  ("MacMulticastGroup", ["readReferrable"; "readMultilanguageReferrable"; "readIdentifiable"; "readMacMulticastGroup"]);
  ("MlFormula", ["readDocumentViewSelectable"; "readPaginateable"]);
  ("MlFigure", ["readDocumentViewSelectable"; "readMlFigureLGraphics"; "readPaginateable"; "readMlFigure"]);
  ("MeasuredStackUsage", ["readReferrable"; "readMultilanguageReferrable"; "readIdentifiable"; "readStackUsage"; "readMeasuredStackUsage"]);
  ("MeasuredHeapUsage", ["readReferrable"; "readMultilanguageReferrable"; "readIdentifiable"; "readHeapUsage"; "readMeasuredHeapUsage"]);
  ("MeasuredExecutionTime", ["readReferrable"; "readMultilanguageReferrable"; "readIdentifiable"; "readExecutionTime"; "readMeasuredExecutionTime"]);
  ("MemorySection", ["readReferrable"; "readMultilanguageReferrable"; "readMemorySectionOptions"; "readIdentifiable"]);
  ("MemorySectionLocation", ["readMemorySectionLocation"]);
  ("Gateway", ["readReferrable"; "readMultilanguageReferrable"; "readIdentifiable"; "readGateway"]);
  ("GenericEthernetFrame", ["readReferrable"; "readMultilanguageReferrable"; "readPduToFrameMappings"; "readIdentifiable"; "readFrame"; "readGenericEthernetFrame"]);
  ("GenericTp", ["readGenericTp"]);
  ("GeneralPurposePdu", ["readReferrable"; "readMultilanguageReferrable"; "readIdentifiable"; "readPdu"; "readGeneralPurposePdu"]);
  ("GeneralPurposeIPdu", ["readReferrable"; "readMultilanguageReferrable"; "readIdentifiable"; "readPdu"; "readIPdu"; "readGeneralPurposeIPdu"]);
  ("PhysicalDimension", ["readReferrable"; "readMultilanguageReferrable"; "readIdentifiable"; "readPhysicalDimension"]);
  ("ParameterInterface", ["readReferrable"; "readMultilanguageReferrable"; "readIdentifiable"; "readPortInterface"; "readParameterInterfaceParameters"; "readDataInterface"; "readParameterInterface"]);
  ("ParameterDataPrototype", ["readReferrable"; "readMultilanguageReferrable"; "readIdentifiable"; "readDataPrototype"; "readAutosarDataPrototype"; "readParameterDataPrototype"]);
  ("ParameterProvideComSpec", ["readPPortComSpec"]);
  ("ParameterRequireComSpec", ["readRPortComSpec"]);
  ("ParameterAccess", ["readReferrable"; "readMultilanguageReferrable"; "readIdentifiable"; "readParameterAccess"]);
  ("PassThroughSwConnector", ["readReferrable"; "readMultilanguageReferrable"; "readIdentifiable"; "readSwConnector"; "readPassThroughSwConnector"]);
  ("PortInterfaceMappingSet", ["readReferrable"; "readMultilanguageReferrable"; "readPortInterfaceMappings"; "readIdentifiable"; "readPortInterfaceMappingSet"]);
  ("PortPrototypeBlueprint", ["readReferrable"; "readMultilanguageReferrable"; "readIdentifiable"; "readARElement"; "readPortPrototypeBlueprint"]);
  ("PortGroup", ["readReferrable"; "readMultilanguageReferrable"; "readPortGroupOuterPortRefs"; "readPortGroupInnerGroupIRefs"; "readIdentifiable"]);
  ("PostBuildVariantCriterion", ["readReferrable"; "readMultilanguageReferrable"; "readIdentifiable"; "readPostBuildVariantCriterion"]);
  ("PostBuildVariantCondition", ["readPostBuildVariantCondition"]);
  ("PositiveIntegerValueVariationPoint", ["readAttributeValueVariationPoint"]);
  ("PossibleErrorReaction", ["readReferrable"; "readMultilanguageReferrable"; "readIdentifiable"; "readPossibleErrorReaction"]);
  ("PredefinedVariant", ["readReferrable"; "readMultilanguageReferrable"; "readPredefinedVariantSwSystemconstantValueSetRefs"; "readPredefinedVariantPostBuildVariantCriterionValueSetRefs"; "readPredefinedVariantIncludedVariantRefs"; "readIdentifiable"; "readPredefinedVariant"]);
  ("ProvidedServiceInstance", ["readReferrable"; "readMultilanguageReferrable"; "readProvidedServiceInstanceEventHandlers"; "readIdentifiable"; "readProvidedServiceInstance"]);
  ("PModeGroupInAtomicSwcInstanceRef", ["readModeGroupInAtomicSwcInstanceRef"; "readPModeGroupInAtomicSWCInstanceRef"]);
  ("PTriggerInAtomicSwcTypeInstanceRef", ["readPTriggerInAtomicSwcTypeInstanceRef"]);
  ("PduToFrameMapping", ["readReferrable"; "readMultilanguageReferrable"; "readIdentifiable"]);
  ("PduTriggering", ["readReferrable"; "readMultilanguageReferrable"; "readIdentifiable"; "readPduTriggering"]);
  ("PPortPrototype", ["readReferrable"; "readMultilanguageReferrable"; "readProvidedComSpec"; "readPortPrototype"; "readAbstractRequiredPortPrototype"; "readIdentifiable"; "readPPortPrototype"]);
  ("PPortInCompositionInstanceRef", ["readPPortInCompositionInstanceRef"]);
  ("PRPortPrototype", ["readReferrable"; "readMultilanguageReferrable"; "readProvidedComSpec"; "readRequiredComSpec"; "readPortPrototype"; "readAbstractProvidedPortPrototype"; "readAbstractRequiredPortPrototype"; "readIdentifiable"; "readPRPortPrototype"]);
  ("PerInstanceMemory", ["readReferrable"; "readMultilanguageReferrable"; "readIdentifiable"]);
  ("FlatMap", ["readReferrable"; "readMultilanguageReferrable"; "readFlatMapInstances"; "readIdentifiable"; "readFlatMap"]);
  ("FlatInstanceDescriptor", ["readReferrable"; "readMultilanguageReferrable"; "readIdentifiable"; "readFlatInstanceDescriptor"]);
  ("FlexrayFrame", ["readReferrable"; "readMultilanguageReferrable"; "readPduToFrameMappings"; "readIdentifiable"; "readFrame"; "readFlexrayFrame"]);
  ("FlexrayFrameTriggering", ["readReferrable"; "readMultilanguageReferrable"; "readIdentifiable"; "readFlexrayFrameTriggeringAbsolutelyScheduledTimings"; "readFrameTriggering"; "readFlexrayFrameTriggering"]);
  ("FlexrayCluster", ["readReferrable"; "readMultilanguageReferrable"; "readCommunicationClusterPhysicalChannels"; "readCommunicationCluster"; "readIdentifiable"; "readFlexrayCluster"]);
  ("FlexrayCommunicationConnector", ["readReferrable"; "readMultilanguageReferrable"; "readCommunicationConnectorEcuCommPortInstances"; "readIdentifiable"; "readCommunicationConnector"; "readFlexrayCommunicationConnector"]);
  ("FlexrayCommunicationController", ["readReferrable"; "readMultilanguageReferrable"; "readCommunicationController"; "readIdentifiable"; "readFlexrayCommunicationController"]);
  ("FlexrayPhysicalChannel", ["readReferrable"; "readMultilanguageReferrable"; "readPhysicalChannelPduTriggerings"; "readPhysicalChannelISignalTriggerings"; "readPhysicalChannelFrameTriggerings"; "readPhysicalChannelCommConnectorRefs"; "readIdentifiable"; "readPhysicalChannel"; "readFlexrayPhysicalChannel"]);
  ("FlexrayAbsolutelyScheduledTiming", ["readFlexrayAbsolutelyScheduledTimingCommunicationCycle"; "readFlexrayAbsolutelyScheduledTiming"]);
  ("FloatValueVariationPoint", ["readAttributeValueVariationPoint"]);
  ("FramePort", ["readReferrable"; "readMultilanguageReferrable"; "readIdentifiable"; "readCommConnectorPort"; "readFramePort"]);
  ("FunctionInhibitionAvailabilityNeeds", ["readReferrable"; "readMultilanguageReferrable"; "readIdentifiable"; "readServiceNeeds"; "readFunctionInhibitionAvailabilityNeeds"]);
  ("HwElement", ["readHwDescriptionEntityHwAttributeValues"; "readHwDescriptionEntityHwCategoryRefs"; "readReferrable"; "readHwElementHwNestedElementRefs"; "readHwElementHwElementConnections"; "readHwElementHwPinGroups"; "readHwDescriptionEntity"; "readHwElement"]);
  ("HwElementConnector", ["readDescribable"; "readHwElementConnector"]);
  ("HwCategory", ["readReferrable"; "readMultilanguageReferrable"; "readIdentifiable"; "readHwCategoryHwAttributeDef"; "readARElement"; "readHwCategory"]);
  ("HwType", ["readReferrable"; "readHwType"]);
  ("HwPinGroup", ["readHwDescriptionEntityHwAttributeValues"; "readHwDescriptionEntityHwCategoryRefs"; "readReferrable"; "readHwDescriptionEntity"; "readHwPinGroup"]);
  ("HwPinGroupConnector", ["readDescribable"]);
  ("HwPinConnector", ["readDescribable"]);
  ("HwAttributeDef", ["readReferrable"; "readMultilanguageReferrable"; "readIdentifiable"; "readHwAttributeDef"]);
  ("HwAttributeValue", ["readHwAttributeValue"]);
  ("HwAttributeLiteralDef", ["readReferrable"; "readMultilanguageReferrable"; "readIdentifiable"; "readHwAttributeLiteralDef"]);
  ("HardwareConfiguration", ["readHardwareConfiguration"]);
  ("Keyword", ["readReferrable"; "readMultilanguageReferrable"; "readKeywordClassifications"; "readIdentifiable"; "readKeyword"]);
  ("KeywordSet", ["readReferrable"; "readMultilanguageReferrable"; "readIdentifiable"; "readKeywordSetKeywords"; "readARElement"; "readKeywordSet"]);
  ("VariableDataPrototype", ["readReferrable"; "readMultilanguageReferrable"; "readIdentifiable"; "readDataPrototype"; "readAutosarDataPrototype"; "readVariableDataPrototype"]);
  ("VariableDataPrototypeInCompositionInstanceRef", ["readVariableDataPrototypeInCompositionInstanceRef"]);
  ("VariableAndParameterInterfaceMapping", ["readReferrable"; "readMultilanguageReferrable"; "readIdentifiable"; "readVariableAndParameterInterfaceMapping"]);
  ("VariableAccess", ["readReferrable"; "readMultilanguageReferrable"; "readVariableAccess"; "readIdentifiable"]);
  ("VariableAccessInEcuInstanceRef", ["readVariableAccessInEcuInstanceRef"]);
  ("VariationPoint", ["readVariationPoint"]);
  ("VariationPointProxy", ["readReferrable"; "readMultilanguageReferrable"; "readIdentifiable"; "readVariationPointProxy"]);
  ("VlanMembership", ["readVlanMembership"]);
  ("WorstCaseStackUsage", ["readReferrable"; "readMultilanguageReferrable"; "readIdentifiable"; "readStackUsage"; "readWorstCaseStackUsage"]);
  ("WorstCaseHeapUsage", ["readReferrable"; "readMultilanguageReferrable"; "readIdentifiable"; "readHeapUsage"; "readWorstCaseHeapUsage"]);
  ("WaitPoint", ["readReferrable"; "readMultilanguageReferrable"; "readIdentifiable"]);
  ("OperationInvokedEvent", ["readReferrable"; "readMultilanguageReferrable"; "readIdentifiable"; "readRTEEvent"; "readPOperationIRef"; "readOperationInvokedEvent"]);
  ("ObdInfoServiceNeeds", ["readReferrable"; "readMultilanguageReferrable"; "readIdentifiable"; "readServiceNeeds"; "readDiagnosticCapabilityElement"; "readObdInfoServiceNeeds"]);
  ("ObdMonitorServiceNeeds", ["readReferrable"; "readMultilanguageReferrable"; "readIdentifiable"; "readServiceNeeds"; "readDiagnosticCapabilityElement"; "readObdMonitorServiceNeeds"]);
  ("ObdPidServiceNeeds", ["readReferrable"; "readMultilanguageReferrable"; "readIdentifiable"; "readServiceNeeds"; "readDiagnosticCapabilityElement"; "readObdPidServiceNeeds"]);
  ("ObdControlServiceNeeds", ["readReferrable"; "readMultilanguageReferrable"; "readIdentifiable"; "readServiceNeeds"; "readDiagnosticCapabilityElement"; "readObdControlServiceNeeds"]);
  ("ObdRatioServiceNeeds", ["readReferrable"; "readMultilanguageReferrable"; "readIdentifiable"; "readServiceNeeds"; "readDiagnosticCapabilityElement"; "readObdRatioServiceNeeds"]);
  ("ObdRatioDenominatorNeeds", ["readReferrable"; "readMultilanguageReferrable"; "readIdentifiable"; "readServiceNeeds"; "readObdRatioDenominatorNeeds"]);
  ("J1939NmNode", ["readReferrable"; "readMultilanguageReferrable"; "readIdentifiable"; "readNmNode"; "readJ1939NmNode"]);
  ("QueuedSenderComSpec", ["readSenderComSpec"]);
  ("QueuedReceiverComSpec", ["readRPortComSpec"; "readReceiverComSpec"])].

(** writer function, type of the value it is called on *)
Definition writer_types : list (string * ty) :=
  [("setAdminData", o_obj "AdminData");
  ("setAnnotations", l_obj "Annotation");
  ("setAnyInstanceRef", tbase [BNone; BObj "AnyInstanceRef"]);
  ("setApplicationDataType", tbase [BObj "ApplicationArrayDataType"; BObj "ApplicationRecordDataType"; BObj "ApplicationPrimitiveDataType"]);
  ("setApplicationCompositeDataType", tbase [BObj "ApplicationArrayDataType"]);
  ("setApplicationCompositeElementInPortInterfaceInstanceRef", tbase [BNone; BObj "ApplicationCompositeElementInPortInterfaceInstanceRef"]);
  ("setApplicationArrayElement", o_obj "ApplicationArrayElement");
  ("setApplicationEntry", tbase [BObj "ApplicationEntry"]);
  ("setAutosarParameterRef", o_obj "AutosarParameterRef");
  ("setAutosarVariableRef", o_obj "AutosarVariableRef");
  ("setAbstractProvidedPortPrototype", tbase [BObj "PRPortPrototype"; BObj "PPortPrototype"]);
  ("setAbstractRequiredPortPrototype", tbase [BObj "PRPortPrototype"; BObj "RPortPrototype"]);
  ("setAsynchronousServerCallPoint", tbase [BObj "AsynchronousServerCallPoint"]);
  ("setMultiLanguagePlainText", o_obj "MultiLanguagePlainText");
  ("setMultiLanguageParagraphs", l_obj "MultiLanguageParagraph");
  ("setMultiLanguageOverviewParagraph", o_obj "MultiLanguageOverviewParagraph");
  ("setMultiLanguageVerbatim", o_obj "MultiLanguageVerbatim");
  ("setMultiLongName", tbase [BNone; BObj "MultilanguageLongName"]);
  ("setMultidimensionalTime", o_obj "MultidimensionalTime");
  ("setMsrQueryP2", o_obj "MsrQueryP2");
  ("setMsrQueryProps", tbase [BObj "MsrQueryProps"]);
  ("setMsrQueryArg", tbase [BObj "MsrQueryArg"]);
  ("setMlFormula", o_obj "MlFormula");
  ("setMlFigures", l_obj "MlFigure");
  ("setModeDeclaration", tbase [BObj "ModeDeclaration"]);
  ("setModeInBswModuleDescriptionInstanceRef", tbase [BObj "ModeInBswModuleDescriptionInstanceRef"]);
  ("setModeSwitchReceiverComSpec", tbase [BObj "ModeSwitchReceiverComSpec"]);
  ("setModeSwitchedAckRequest", o_obj "ModeSwitchedAckRequest");
  ("setModeGroupIRef", tbase [BObj "PModeGroupInAtomicSwcInstanceRef"; BObj "RModeGroupInAtomicSWCInstanceRef"; BNone]);
  ("setMemorySectionOptions", tlist [BLit]);
  ("setMeasuredStackUsage", tbase [BObj "MeasuredStackUsage"]);
  ("setLPlainText", tbase [BObj "LParagraph"]);
  ("setLanguageSpecific", tbase [BObj "LVerbatim"; BObj "LOverviewParagraph"; BObj "LParagraph"]);
  ("setLabeledList", o_obj "LabeledList");
  ("setLabeledItem", tbase [BObj "LabeledItem"]);
  ("setLOverviewParagraph", tbase [BObj "LOverviewParagraph"]);
  ("setListElement", tbase [BObj "ARList"]);
  ("setLifeCyclePeriod", o_obj "LifeCyclePeriod");
  ("setLLongName", tbase [BObj "LLongName"]);
  ("setLVerbatim", tbase [BObj "LVerbatim"]);
  ("setSdg", tbase [BNone; BObj "Sdg"]);
  ("setSdClientConfig", o_obj "SdClientConfig");
  ("setSdServerConfig", o_obj "SdServerConfig");
  ("setStructuredReq", o_obj "StructuredReq");
  ("setStackUsage", tbase [BObj "WorstCaseStackUsage"; BObj "MeasuredStackUsage"; BObj "RoughEstimateStackUsage"]);
  ("setShortNameFragment", tbase [BObj "ShortNameFragment"]);
  ("setShortNameFragments", l_obj "ShortNameFragment");
  ("setSecureCommunicationProps", o_obj "SecureCommunicationProps");
  ("setServerCallPoint", tbase [BObj "AsynchronousServerCallPoint"; BObj "SynchronousServerCallPoint"]);
  ("setSwDataDefProps", o_obj "SwDataDefProps");
  ("setSwDataDependency", o_obj "SwDataDependency");
  ("setSwServiceArg", tbase [BObj "SwServiceArg"]);
  ("setSwcBswRunnableMapping", tbase [BObj "SwcBswRunnableMapping"]);
  ("setSwcToEcuMapping", tbase [BObj "SwcToEcuMapping"]);
  ("setSwCalprmAxis", tbase [BObj "SwCalprmAxis"]);
  ("setSwCalprmAxisSet", o_obj "SwCalprmAxisSet");
  ("setSwCalprmRefProxy", o_obj "SwCalprmRefProxy");
  ("setSwComparisonVariables", l_obj "SwVariableRefProxy");
  ("setSwBitRepresentation", o_obj "SwBitRepresentation");
  ("setSwValueBlockSizeMults", tlist [BNum]);
  ("setSwValues", o_obj "SwValues");
  ("setSwVariableRefProxy", tbase [BNone; BObj "SwVariableRefProxy"]);
  ("setSwPointerTargetProps", o_obj "SwPointerTargetProps");
  ("setSwTextProps", o_obj "SwTextProps");
  ("setSwHostVariable", o_obj "SwVariableRefProxy");
  ("setSwAxisIndividual", tbase [BObj "SwAxisIndividual"]);
  ("setSwAxisGrouped", tbase [BObj "SwAxisGrouped"]);
  ("setSwAxisGeneric", tbase [BObj "SwAxisGeneric"]);
  ("setSwGenericAxisParam", tbase [BObj "SwGenericAxisParam"]);
  ("setScaleConstr", tbase [BObj "ScaleConstr"]);
  ("setSubElementMapping", tbase [BObj "SubElementMapping"]);
  ("setSoftwareContext", o_obj "SoftwareContext");
  ("setSocketConnection", tbase [BObj "SocketConnection"]);
  ("setSocketConnectionPdus", l_obj "SocketConnectionIpduIdentifier");
  ("setSocketConnectionIpduIdentifier", tbase [BObj "SocketConnectionIpduIdentifier"]);
  ("setSynchronousServerCallPoint", tbase [BObj "SynchronousServerCallPoint"]);
  ("setDefList", o_obj "DefList");
  ("setDefItem", tbase [BObj "DefItem"]);
  ("setDevelopmentError", tbase [BObj "DevelopmentError"]);
  ("setDataPrototypeMapping", tbase [BObj "DataPrototypeMapping"]);
  ("setDataPrototypeMappings", l_obj "DataPrototypeMapping");
  ("setDataFilter", o_obj "DataFilter");
  ("setDoIpEntity", o_obj "DoIpEntity");
  ("setDiagEventDebounceCounterBased", tbase [BObj "DiagEventDebounceCounterBased"]);
  ("setDiagEventDebounceMonitorInternal", tbase [BObj "DiagEventDebounceMonitorInternal"]);
  ("setDiagEventDebounceTimeBased", tbase [BObj "DiagEventDebounceTimeBased"]);
  ("setNote", o_obj "Note");
  ("setTraceableText", o_obj "TraceableText");
  ("setTransmissionModeDeclaration", o_obj "TransmissionModeDeclaration");
  ("setTransmissionModeConditions", l_obj "TransmissionModeCondition");
  ("setTransmissionModeTiming", o_obj "TransmissionModeTiming");
  ("setTransientFault", tbase [BObj "TransientFault"]);
  ("setTt", tbase [BObj "Tt"]);
  ("setTargetIPduRef", o_obj "TargetIPduRef");
  ("setTimeRangeType", o_obj "TimeRangeType");
  ("setTextTableMapping", tbase [BObj "TextTableMapping"]);
  ("setTpPort", o_obj "TpPort");
  ("setIndentSample", tbase [BObj "IndentSample"]);
  ("setIndexEntry", tbase [BObj "IndexEntry"]);
  ("setInternalConstrs", o_obj "InternalConstrs");
  ("setIncludedDataTypeSets", tlist []);
  ("setInfrastructureServices", o_obj "InfrastructureServices");
  ("setInitialSdDelayConfig", o_obj "InitialSdDelayConfig");
  ("setIPduMappings", l_obj "IPduMapping");
  ("setISignalMappings", l_obj "ISignalMapping");
  ("setISignalIPduIPduTimingSpecification", o_obj "IPduTiming");
  ("setIpv6Configuration", tbase [BObj "Ipv6Configuration"]);
  ("setCaption", o_obj "Caption");
  ("setCanClusterBusOffRecovery", o_obj "CanClusterBusOffRecovery");
  ("setCanControllerFdConfiguration", o_obj "CanControllerFdConfiguration");
  ("setCanControllerFdConfigurationRequirements", o_obj "CanControllerFdConfigurationRequirements");
  ("setCanControllerXlConfiguration", o_obj "CanControllerXlConfiguration");
  ("setCanControllerXlConfigurationRequirements", o_obj "CanControllerXlConfigurationRequirements");
  ("setCompu", o_obj "Compu");
  ("setCompuScales", o_obj "CompuScales");
  ("setCompuConst", o_obj "CompuConst");
  ("setCompuConstContent", tbase [BObj "CompuConstFormulaContent"; BObj "CompuConstNumericContent"; BObj "CompuConstTextContent"; BNone]);
  ("setComponentInSystemInstanceRef", tbase [BObj "ComponentInSystemInstanceRef"]);
  ("setConstantReference", tbase [BObj "ConstantReference"]);
  ("setCouplingPortDetails", o_obj "CouplingPortDetails");
  ("setChildValueSpecification", tbase [BNone; BObj "ApplicationRuleBasedValueSpecification"; BObj "ApplicationValueSpecification"; BObj "ConstantReference"; BObj "TextValueSpecification"; BObj "ArrayValueSpecification"; BObj "NumericalValueSpecification"; BObj "RecordValueSpecification"; BObj "CompositeRuleBasedValueSpecification"]);
  ("setChildElementRxIdentifierRange", o_obj "RxIdentifierRange");
  ("setChildElementJ1939NodeName", o_obj "J1939NodeName");
  ("setCyclicTiming", o_obj "CyclicTiming");
  ("setGraphic", o_obj "Graphic");
  ("setBaseTypeDirectDefinition", tbase [BObj "BaseTypeDirectDefinition"]);
  ("setBufferProperties", o_obj "BufferProperties");
  ("setBswInterruptEntity", tbase [BObj "BswInterruptEntity"]);
  ("setBswModeSenderPolicy", tbase [BObj "BswModeSenderPolicy"]);
  ("setBswModeSwitchAckRequest", o_obj "BswModeSwitchAckRequest");
  ("setEmphasisText", tbase [BObj "EmphasisText"]);
  ("setEndToEndDescription", o_obj "EndToEndDescription");
  ("setEventControlledTiming", o_obj "EventControlledTiming");
  ("setEcucDestinationUriRefs", l_obj "EcucDestinationUriDefRefType");
  ("setEcucMultiplicityConfigClasses", l_obj "EcucMultiplicityConfigurationClass");
  ("setEcucTextualParamValue", tbase [BObj "EcucTextualParamValue"]);
  ("setEcucNumericalParamValue", tbase [BObj "EcucNumericalParamValue"]);
  ("setEcucReferenceValue", tbase [BObj "EcucReferenceValue"]);
  ("setEcuValueConfigurationClasses", l_obj "EcucValueConfigurationClass");
  ("setEOCExecutableEntityRefSuccessorRefs", tlist [BRef]);
  ("setResourceConsumption", o_obj "ResourceConsumption");
  ("setRequestResponseDelay", o_obj "RequestResponseDelay");
  ("setRoughEstimateStackUsage", tbase [BObj "RoughEstimateStackUsage"]);
  ("setRTEEvent", tbase [BObj "DataSendCompletedEvent"; BObj "BackgroundEvent"; BObj "ModeSwitchedAckEvent"; BObj "AsynchronousServerCallReturnsEvent"; BObj "InitEvent"; BObj "DataReceivedEvent"; BObj "SwcModeSwitchEvent"; BObj "OperationInvokedEvent"; BObj "TimingEvent"]);
  ("setRModeInAtomicSwcInstanceRef", tbase [BObj "RModeInAtomicSwcInstanceRef"]);
  ("setRVariableInAtomicSwcInstanceRef", o_obj "RVariableInAtomicSwcInstanceRef");
  ("setRunnableEntityArgument", tbase [BObj "RunnableEntityArgument"]);
  ("setRuntimeError", tbase [BObj "RuntimeError"]);
  ("setROperationInAtomicSwcInstanceRef", o_obj "ROperationInAtomicSwcInstanceRef");
  ("setPhysConstrs", o_obj "PhysConstrs");
  ("setPModeGroupInAtomicSwcInstanceRef", o_obj "PModeGroupInAtomicSwcInstanceRef");
  ("setParameterInAtomicSWCTypeInstanceRef", o_obj "ParameterInAtomicSWCTypeInstanceRef");
  ("setPortPrototype", tbase [BObj "PRPortPrototype"; BObj "RPortPrototype"; BObj "PPortPrototype"]);
  ("setPossibleErrorReaction", tbase [BObj "PossibleErrorReaction"]);
  ("setPOperationInAtomicSwcInstanceRef", o_obj "POperationInAtomicSwcInstanceRef");
  ("setFlatInstanceDescriptor", tbase [BObj "FlatInstanceDescriptor"]);
  ("setFlexrayFifoConfiguration", tbase [BObj "FlexrayFifoConfiguration"]);
  ("setFlexrayFifoRange", tbase [BObj "FlexrayFifoRange"]);
  ("setValueList", o_obj "ValueList");
  ("setVariableInAtomicSWCTypeInstanceRef", o_obj "VariableInAtomicSWCTypeInstanceRef");
  ("setVariableDataPrototypeInSystemInstanceRef", o_obj "VariableDataPrototypeInSystemInstanceRef");
  ("setWorstCaseStackUsage", tbase [BObj "WorstCaseStackUsage"]);
  ("setHardwareConfiguration", o_obj "HardwareConfiguration");
  ("writeARPackage", tbase [BObj "ARPackage"]);
  ("writeARPackages", l_obj "ARPackage");
  ("writeARPackageElement", tbase [BObj "McGroup"; BObj "McFunction"; BObj "NvDataInterface"; BObj "PostBuildVariantCriterion"; BObj "PredefinedVariant"; BObj "SwSystemconstantValueSet"; BObj "SwSystemconst"; BObj "EcucDestinationUriDefSet"; BObj "EcucDefinitionCollection"; BObj "EcucModuleDef"; BObj "ModeDeclarationMappingSet"; BObj "PortPrototypeBlueprint"; BObj "KeywordSet"; BObj "Collection"; BObj "E2EProfileCompatibilityProps"; BObj "DataTransformationSet"; BObj "FlexrayCluster"; BObj "FlexrayFrame"; BObj "HwType"; BObj "HwCategory"; BObj "HwElement"; BObj "DoIpTpConfig"; BObj "SoAdRoutingGroup"; BObj "SecureCommunicationPropsSet"; BObj "GeneralPurposeIPdu"; BObj "GeneralPurposePdu"; BObj "UserDefinedPdu"; BObj "UserDefinedIPdu"; BObj "MultiplexedIPdu"; BObj "Documentation"; BObj "DiagnosticServiceTable"; BObj "DiagnosticConnection"; BObj "EthernetCluster"; BObj "PortInterfaceMappingSet"; BObj "FlatMap"; BObj "LifeCycleInfoSet"; BObj "GenericEthernetFrame"; BObj "ParameterInterface"; BObj "PhysicalDimension"; BObj "EcucModuleConfigurationValues"; BObj "EcucValueCollection"; BObj "SignalServiceTranslationPropsSet"; BObj "SystemSignalGroup"; BObj "SystemSignal"; BObj "ISignalIPdu"; BObj "ISignalGroup"; BObj "ISignal"; BObj "CanFrame"; BObj "CanCluster"; BObj "ISignalIPduGroup"; BObj "Gateway"; BObj "EcuInstance"; BObj "System"; BObj "LinTpConfig"; BObj "CanTpConfig"; BObj "NmConfig"; BObj "SecuredIPdu"; BObj "DcmIPdu"; BObj "NPdu"; BObj "NmPdu"; BObj "LinUnconditionalFrame"; BObj "LinCluster"; BObj "SwcTiming"; BObj "ModeSwitchInterface"; BObj "ModeDeclarationGroup"; BObj "DataTypeMappingSet"; BObj "ServiceProxySwComponentType"; BObj "NvBlockSwComponentType"; BObj "SensorActuatorSwComponentType"; BObj "ServiceSwComponentType"; BObj "TriggerInterface"; BObj "SwAddrMethod"; BObj "ApplicationArrayDataType"; BObj "EcuAbstractionSwComponentType"; BObj "ApplicationSwComponentType"; BObj "ClientServerInterface"; BObj "ImplementationDataType"; BObj "BswImplementation"; BObj "SwcBswMapping"; BObj "BswModuleEntry"; BObj "BswModuleDescription"; BObj "Unit"; BObj "SenderReceiverInterface"; BObj "EndToEndProtectionSet"; BObj "DataConstr"; BObj "ConstantSpecification"; BObj "CompuMethod"; BObj "SwBaseType"; BObj "ApplicationRecordDataType"; BObj "ApplicationPrimitiveDataType"; BObj "SwcImplementation"; BObj "ComplexDeviceDriverSwComponentType"; BObj "ConsistencyNeeds"; BObj "RunnableEntityGroup"; BObj "DataPrototypeGroup"; BObj "CompositionSwComponentType"]);
  ("writeARPackageElements", tbase [BObj "ARPackage"]);
  ("writeARElement", tbase [BObj "EcucInstanceReferenceDef"; BObj "EcucChoiceReferenceDef"; BObj "EcucReferenceDef"; BObj "EcucSymbolicNameReferenceDef"; BObj "EcucMultilineStringParamDef"; BObj "EcucFunctionNameDef"; BObj "EcucEnumerationParamDef"; BObj "EcucFloatParamDef"; BObj "EcucIntegerParamDef"; BObj "EcucStringParamDef"; BObj "EcucBooleanParamDef"; BObj "EcucChoiceContainerDef"; BObj "EcucParamConfContainerDef"; BObj "ApplicationArrayDataType"; BObj "ImplementationDataTypeElement"; BObj "EcucModuleDef"; BObj "ApplicationRecordDataType"; BObj "ApplicationPrimitiveDataType"; BObj "ImplementationDataType"; BObj "EcucDestinationUriDefSet"; BObj "EcucDefinitionCollection"; BObj "ModeDeclarationMappingSet"; BObj "PortPrototypeBlueprint"; BObj "KeywordSet"; BObj "Collection"; BObj "HwCategory"; BObj "Documentation"; BObj "EthernetCluster"; BObj "PortInterfaceMappingSet"; BObj "FlatMap"; BObj "PhysicalDimension"; BObj "System"]);
  ("writeAdminDataSdgs", tbase [BObj "AdminData"]);
  ("writeAdminDataDocRevisions", tbase [BObj "AdminData"]);
  ("writeApplicationPrimitiveDataType", tbase [BObj "ApplicationPrimitiveDataType"]);
  ("writeApplicationRecordDataType", tbase [BObj "ApplicationRecordDataType"]);
  ("writeApplicationRecordDataTypeElements", tbase [BObj "ApplicationRecordDataType"]);
  ("writeApplicationRecordElement", tbase [BObj "ApplicationRecordElement"]);
  ("writeApplicationRuleBasedValueSpecification", tbase [BObj "ApplicationRuleBasedValueSpecification"]);
  ("writeApplicationSwComponentType", tbase [BObj "ApplicationSwComponentType"]);
  ("writeApplicationArrayDataType", tbase [BObj "ApplicationArrayDataType"]);
  ("writeApplicationValueSpecification", tbase [BObj "ApplicationValueSpecification"]);
  ("writeApplicationError", tbase [BObj "ApplicationError"]);
  ("writeApplicationCompositeElementDataPrototype", tbase [BObj "ApplicationRecordElement"; BObj "ApplicationArrayElement"]);
  ("writeAtomicSwComponentType", tbase [BObj "ServiceProxySwComponentType"; BObj "NvBlockSwComponentType"; BObj "SensorActuatorSwComponentType"; BObj "ServiceSwComponentType"; BObj "EcuAbstractionSwComponentType"; BObj "ApplicationSwComponentType"; BObj "ComplexDeviceDriverSwComponentType"]);
  ("writeAtomicSwComponentTypeInternalBehaviors", o_obj "SwcInternalBehavior");
  ("writeAttributeValueVariationPoint", tbase [BObj "UnlimitedIntegerValueVariationPoint"; BObj "TimeValueValueVariationPoint"; BObj "PositiveIntegerValueVariationPoint"; BObj "IntegerValueVariationPoint"; BObj "FloatValueVariationPoint"; BObj "BooleanValueVariationPoint"; BObj "NumericalValueVariationPoint"; BObj "LimitValueVariationPoint"]);
  ("writeAutosarDataType", tbase [BObj "ApplicationArrayDataType"; BObj "ApplicationRecordDataType"; BObj "ApplicationPrimitiveDataType"; BObj "ImplementationDataType"]);
  ("writeAutosarDataPrototype", tbase [BObj "ArgumentDataPrototype"; BObj "ParameterDataPrototype"; BObj "VariableDataPrototype"]);
  ("writeAutosarEngineeringObject", tbase [BObj "AutosarEngineeringObject"]);
  ("writeAbstractCanCluster", tbase [BObj "CanCluster"]);
  ("writeAbstractCanCommunicationController", tbase [BObj "CanCommunicationController"]);
  ("writeAbstractCanCommunicationControllerCanControllerAttributes", tbase [BObj "CanCommunicationController"]);
  ("writeAbstractCanCommunicationControllerAttributes", tbase [BObj "CanControllerConfigurationRequirements"]);
  ("writeAbstractImplementationDataTypeElement", tbase [BObj "ImplementationDataTypeElement"]);
  ("writeAssemblySwConnector", tbase [BObj "AssemblySwConnector"]);
  ("writeAsynchronousServerCallReturnsEvent", tbase [BObj "AsynchronousServerCallReturnsEvent"]);
  ("writeArrayValueSpecification", tbase [BObj "ArrayValueSpecification"]);
  ("writeArtifactDescriptor", tbase [BObj "Code"]);
  ("writeArgumentDataPrototype", tbase [BObj "ArgumentDataPrototype"]);
  ("writeAccessCountSets", l_obj "AccessCountSet");
  ("writeActivationReasons", tbase [BObj "BswInterruptEntity"; BObj "BswSchedulableEntity"; BObj "BswCalledEntity"; BObj "RunnableEntity"]);
  ("writeAnalyzedExecutionTime", tbase [BObj "AnalyzedExecutionTime"]);
  ("writeDocRevision", tbase [BObj "DocRevision"]);
  ("writeDocRevisionModifications", tbase [BObj "DocRevision"]);
  ("writeDocumentation", tbase [BObj "Documentation"]);
  ("writeDocumentationBlock", o_obj "DocumentationBlock");
  ("writeDocumentationContext", tbase [BObj "DocumentationContext"]);
  ("writeDocumentViewSelectable", tbase [BObj "MlFigure"; BObj "MlFormula"]);
  ("writeDoIpTpConfig", tbase [BObj "DoIpTpConfig"]);
  ("writeDoIpTpConfigDoIpLogicAddresses", tbase [BObj "DoIpTpConfig"]);
  ("writeDoIpTpConfigTpConnections", tbase [BObj "DoIpTpConfig"]);
  ("writeDoIpTpConnection", tbase [BObj "DoIpTpConnection"]);
  ("writeDoIpLogicAddress", tbase [BObj "DoIpLogicAddress"]);
  ("writeDoIpRoutingActivationAuthenticationNeeds", tbase [BObj "DoIpRoutingActivationAuthenticationNeeds"]);
  ("writeDoIpRoutingActivationConfirmationNeeds", tbase [BObj "DoIpRoutingActivationConfirmationNeeds"]);
  ("writeDataConstr", tbase [BObj "DataConstr"]);
  ("writeDataConstrRules", tbase [BObj "DataConstr"]);
  ("writeDataTypeMappingSet", tbase [BObj "DataTypeMappingSet"]);
  ("writeDataTypeMappingRefs", tbase [BObj "SwcInternalBehavior"; BObj "BswInternalBehavior"]);
  ("writeDataTypeMaps", tbase [BObj "DataTypeMappingSet"]);
  ("writeDataTransformation", tbase [BObj "DataTransformation"]);
  ("writeDataTransformationSet", tbase [BObj "DataTransformationSet"]);
  ("writeDataTransformationSetDataTransformations", tbase [BObj "DataTransformationSet"]);
  ("writeDataTransformationSetTransformationTechnologies", tbase [BObj "DataTransformationSet"]);
  ("writeDataTransformationTransformerChainRefs", tbase [BObj "DataTransformation"]);
  ("writeDataPrototype", tbase [BObj "ArgumentDataPrototype"; BObj "ParameterDataPrototype"; BObj "VariableDataPrototype"; BObj "ApplicationRecordElement"; BObj "ApplicationArrayElement"]);
  ("writeDataPrototypeGroup", tbase [BObj "DataPrototypeGroup"]);
  ("writeDataPrototypeGroupDataPrototypeGroupIRefs", tbase [BObj "DataPrototypeGroup"]);
  ("writeDataPrototypeGroupImplicitDataAccessIRefs", tbase [BObj "DataPrototypeGroup"]);
  ("writeDataPrototypeTransformationProps", tbase [BObj "DataPrototypeTransformationProps"]);
  ("writeDataPrototypeInPortInterfaceRef", tbase [BObj "DataPrototypeInPortInterfaceRef"]);
  ("writeDataPrototypeInClientServerInterfaceInstanceRef", tbase [BObj "DataPrototypeInClientServerInterfaceInstanceRef"]);
  ("writeDataInterface", tbase [BObj "NvDataInterface"; BObj "ParameterInterface"]);
  ("writeDataReceivedEvent", tbase [BObj "DataReceivedEvent"]);
  ("writeDataSendCompletedEvent", tbase [BObj "DataSendCompletedEvent"]);
  ("writeDcmIPdu", tbase [BObj "DcmIPdu"]);
  ("writeDiagnosticConnection", tbase [BObj "DiagnosticConnection"]);
  ("writeDiagnosticConnectionFunctionalRequestRefs", tbase [BObj "DiagnosticConnection"]);
  ("writeDiagnosticCommunicationManagerNeeds", tbase [BObj "DiagnosticCommunicationManagerNeeds"]);
  ("writeDiagnosticCapabilityElement", tbase [BObj "DiagEventDebounceTimeBased"; BObj "DiagEventDebounceMonitorInternal"; BObj "DiagEventDebounceCounterBased"; BObj "ObdRatioServiceNeeds"; BObj "ObdControlServiceNeeds"; BObj "ObdPidServiceNeeds"; BObj "ObdMonitorServiceNeeds"; BObj "ObdInfoServiceNeeds"; BObj "DtcStatusChangeNotificationNeeds"; BObj "DiagnosticStorageConditionNeeds"; BObj "DiagnosticOperationCycleNeeds"; BObj "DiagnosticEnableConditionNeeds"; BObj "DiagnosticIoControlNeeds"; BObj "DiagnosticEventInfoNeeds"; BObj "DiagnosticEventNeeds"; BObj "DiagnosticValueNeeds"; BObj "DiagnosticRoutineNeeds"; BObj "DiagnosticCommunicationManagerNeeds"]);
  ("writeDiagnosticServiceTable", tbase [BObj "DiagnosticServiceTable"]);
  ("writeDiagnosticServiceTableDiagnosticConnectionRefs", tbase [BObj "DiagnosticServiceTable"]);
  ("writeDiagnosticStorageConditionNeeds", tbase [BObj "DiagnosticStorageConditionNeeds"]);
  ("writeDiagnosticRoutineNeeds", tbase [BObj "DiagnosticRoutineNeeds"]);
  ("writeDiagnosticValueNeeds", tbase [BObj "DiagnosticValueNeeds"]);
  ("writeDiagnosticEventNeeds", tbase [BObj "DiagnosticEventNeeds"]);
  ("writeDiagnosticEventInfoNeeds", tbase [BObj "DiagnosticEventInfoNeeds"]);
  ("writeDiagnosticEnableConditionNeeds", tbase [BObj "DiagnosticEnableConditionNeeds"]);
  ("writeDiagnosticIoControlNeeds", tbase [BObj "DiagnosticIoControlNeeds"]);
  ("writeDiagnosticOperationCycleNeeds", tbase [BObj "DiagnosticOperationCycleNeeds"]);
  ("writeDiagEventDebounceAlgorithm", tbase [BObj "DiagnosticEventNeeds"]);
  ("writeDependencyOnArtifact", tbase [BObj "DependencyOnArtifact"]);
  ("writeDependencyOnArtifacts", l_obj "DependencyOnArtifact");
  ("writeDelegationSwConnector", tbase [BObj "DelegationSwConnector"]);
  ("writeDelegatedPortAnnotation", tbase [BObj "DelegatedPortAnnotation"]);
  ("writeDescribable", tbase [BObj "EndToEndTransformationDescription"; BObj "HwPinGroupConnector"; BObj "HwPinConnector"; BObj "EndToEndTransformationISignalProps"; BObj "HwElementConnector"]);
  ("writeDynamicPart", tbase [BObj "DynamicPart"]);
  ("writeDynamicPartDynamicPartAlternatives", tbase [BObj "DynamicPart"]);
  ("writeDynamicPartAlternative", tbase [BObj "DynamicPartAlternative"]);
  ("writeDtcStatusChangeNotificationNeeds", tbase [BObj "DtcStatusChangeNotificationNeeds"]);
  ("writeDltUserNeeds", tbase [BObj "DltUserNeeds"]);
  ("writeIdentifiable", tbase [BObj "EventHandler"; BObj "ConsumedEventGroup"; BObj "DiagEventDebounceTimeBased"; BObj "DiagEventDebounceMonitorInternal"; BObj "DiagEventDebounceCounterBased"; BObj "EcucInstanceReferenceDef"; BObj "EcucChoiceReferenceDef"; BObj "EcucReferenceDef"; BObj "EcucSymbolicNameReferenceDef"; BObj "ProvidedServiceInstance"; BObj "ConsumedServiceInstance"; BObj "EcucMultilineStringParamDef"; BObj "EcucFunctionNameDef"; BObj "EcucEnumerationParamDef"; BObj "EcucFloatParamDef"; BObj "EcucIntegerParamDef"; BObj "EcucStringParamDef"; BObj "EcucBooleanParamDef"; BObj "CouplingPortScheduler"; BObj "CouplingPortFifo"; BObj "PossibleErrorReaction"; BObj "TransientFault"; BObj "RuntimeError"; BObj "DevelopmentError"; BObj "ObdRatioServiceNeeds"; BObj "ObdControlServiceNeeds"; BObj "ObdPidServiceNeeds"; BObj "ObdMonitorServiceNeeds"; BObj "ObdInfoServiceNeeds"; BObj "DtcStatusChangeNotificationNeeds"; BObj "DiagnosticStorageConditionNeeds"; BObj "DiagnosticOperationCycleNeeds"; BObj "DiagnosticEnableConditionNeeds"; BObj "DiagnosticIoControlNeeds"; BObj "DiagnosticEventInfoNeeds"; BObj "DiagnosticEventNeeds"; BObj "DiagnosticValueNeeds"; BObj "DiagnosticRoutineNeeds"; BObj "DiagnosticCommunicationManagerNeeds"; BObj "ApplicationEndpoint"; BObj "FlexrayFrameTriggering"; BObj "LinFrameTriggering"; BObj "CanFrameTriggering"; BObj "IdsMgrNeeds"; BObj "SecureOnBoardCommunicationNeeds"; BObj "DoIpRoutingActivationConfirmationNeeds"; BObj "DoIpRoutingActivationAuthenticationNeeds"; BObj "ObdRatioDenominatorNeeds"; BObj "ErrorTracerNeeds"; BObj "SupervisedEntityNeeds"; BObj "ComMgrUserNeeds"; BObj "DltUserNeeds"; BObj "EcuStateMgrUserNeeds"; BObj "CryptoServiceNeeds"; BObj "FunctionInhibitionAvailabilityNeeds"; BObj "IndicatorStatusNeeds"; BObj "BswMgrNeeds"; BObj "AsynchronousServerCallPoint"; BObj "SynchronousServerCallPoint"; BObj "ParameterAccess"; BObj "VariableAccess"; BObj "EcucEnumerationLiteralDef"; BObj "ISignalPort"; BObj "IPduPort"; BObj "FramePort"; BObj "SocketAddress"; BObj "PduTriggering"; BObj "ISignalTriggering"; BObj "J1939NmNode"; BObj "UdpNmNode"; BObj "CanNmNode"; BObj "ArgumentDataPrototype"; BObj "RptExecutableEntityEvent"; BObj "SwcServiceDependency"; BObj "WaitPoint"; BObj "ExternalTriggeringPointIdent"; BObj "AsynchronousServerCallResultPoint"; BObj "BswInterruptEntity"; BObj "BswSchedulableEntity"; BObj "BswCalledEntity"; BObj "RunnableEntity"; BObj "DataSendCompletedEvent"; BObj "BackgroundEvent"; BObj "ModeSwitchedAckEvent"; BObj "AsynchronousServerCallReturnsEvent"; BObj "InitEvent"; BObj "DataReceivedEvent"; BObj "SwcModeSwitchEvent"; BObj "OperationInvokedEvent"; BObj "TimingEvent"; BObj "EcucChoiceContainerDef"; BObj "EcucParamConfContainerDef"; BObj "NetworkEndpoint"; BObj "LinScheduleTable"; BObj "EOCExecutableEntityRef"; BObj "BswServiceDependencyIdent"; BObj "BswAsynchronousServerCallReturnsEvent"; BObj "BswModeSwitchedAckEvent"; BObj "BswModeManagerErrorEvent"; BObj "BswModeSwitchEvent"; BObj "BswDataReceivedEvent"; BObj "BswExternalTriggerOccurredEvent"; BObj "BswInternalTriggerOccurredEvent"; BObj "BswBackgroundEvent"; BObj "BswTimingEvent"; BObj "BswOperationInvokedEvent"; BObj "RptExecutableEntity"; BObj "WorstCaseStackUsage"; BObj "MeasuredStackUsage"; BObj "RoughEstimateStackUsage"; BObj "WorstCaseHeapUsage"; BObj "RoughEstimateHeapUsage"; BObj "MeasuredHeapUsage"; BObj "SimulatedExecutionTime"; BObj "RoughEstimateOfExecutionTime"; BObj "MeasuredExecutionTime"; BObj "AnalyzedExecutionTime"; BObj "VariationPointProxy"; BObj "CouplingPort"; BObj "SwcToEcuMapping"; BObj "SwcToImplMapping"; BObj "ECUMapping"; BObj "VlanConfig"; BObj "FlexrayPhysicalChannel"; BObj "EthernetPhysicalChannel"; BObj "LinPhysicalChannel"; BObj "CanPhysicalChannel"; BObj "ApplicationArrayDataType"; BObj "ImplementationDataTypeElement"; BObj "BswInternalTriggeringPoint"; BObj "ExclusiveArea"; BObj "RptServicePoint"; BObj "RptComponent"; BObj "PerInstanceMemory"; BObj "EcucValidationCondition"; BObj "EcucQuery"; BObj "Topic1"; BObj "SignalServiceTranslationElementProps"; BObj "FlexrayCommunicationConnector"; BObj "LinCommunicationConnector"; BObj "EthernetCommunicationConnector"; BObj "CanCommunicationConnector"; BObj "UdpNmCluster"; BObj "CanNmCluster"; BObj "ExecutionOrderConstraint"; BObj "NvBlockNeeds"; BObj "ParameterDataPrototype"; BObj "VariableDataPrototype"; BObj "ApplicationRecordElement"; BObj "ApplicationArrayElement"; BObj "Chapter"; BObj "SwcInternalBehavior"; BObj "BswInternalBehavior"; BObj "PassThroughSwConnector"; BObj "AssemblySwConnector"; BObj "PortGroup"; BObj "PRPortPrototype"; BObj "RPortPrototype"; BObj "PPortPrototype"; BObj "RptExecutionContext"; BObj "McDataInstance"; BObj "MemorySection"; BObj "Linker"; BObj "DependencyOnArtifact"; BObj "Compiler"; BObj "Code"; BObj "EcucContainerValue"; BObj "EcucModuleDef"; BObj "ModeDeclarationMapping"; BObj "Keyword"; BObj "TransformationTechnology"; BObj "DataTransformation"; BObj "HwAttributeDef"; BObj "DoIpLogicAddress"; BObj "SecureCommunicationFreshnessProps"; BObj "SecureCommunicationAuthenticationProps"; BObj "MacMulticastGroup"; BObj "ModeInterfaceMapping"; BObj "ClientServerInterfaceMapping"; BObj "VariableAndParameterInterfaceMapping"; BObj "FlatInstanceDescriptor"; BObj "NvDataInterface"; BObj "ParameterInterface"; BObj "SignalServiceTranslationEventProps"; BObj "FlexrayCommunicationController"; BObj "LinMaster"; BObj "EthernetCommunicationController"; BObj "CanCommunicationController"; BObj "SystemMapping"; BObj "LinTpNode"; BObj "TpAddress"; BObj "CanTpNode"; BObj "CanTpChannel"; BObj "CanTpAddress"; BObj "GeneralPurposeIPdu"; BObj "UserDefinedIPdu"; BObj "MultiplexedIPdu"; BObj "SecuredIPdu"; BObj "DcmIPdu"; BObj "NmEcu"; BObj "PduToFrameMapping"; BObj "ModeDeclaration"; BObj "ApplicationError"; BObj "ClientServerOperation"; BObj "SwServiceArg"; BObj "EndToEndProtection"; BObj "DelegationSwConnector"; BObj "SwComponentPrototype"; BObj "ResourceConsumption"; BObj "EcucDestinationUriDef"; BObj "SignalServiceTranslationProps"; BObj "ISignalToIPduMapping"; BObj "RootSwCompositionPrototype"; BObj "ApplicationRecordDataType"; BObj "ApplicationPrimitiveDataType"; BObj "ImplementationDataType"; BObj "EcucDestinationUriDefSet"; BObj "EcucDefinitionCollection"; BObj "ModeDeclarationMappingSet"; BObj "PortPrototypeBlueprint"; BObj "KeywordSet"; BObj "Collection"; BObj "HwCategory"; BObj "Documentation"; BObj "EthernetCluster"; BObj "PortInterfaceMappingSet"; BObj "FlatMap"; BObj "PhysicalDimension"; BObj "System"; BObj "DoIpTpConfig"; BObj "LinTpConfig"; BObj "CanTpConfig"; BObj "GeneralPurposePdu"; BObj "UserDefinedPdu"; BObj "NPdu"; BObj "NmPdu"; BObj "FlexrayFrame"; BObj "GenericEthernetFrame"; BObj "CanFrame"; BObj "LinUnconditionalFrame"; BObj "ModeDeclarationGroupPrototype"; BObj "ModeTransition"; BObj "NvBlockDescriptor"; BObj "BulkNvDataDescriptor"; BObj "ModeSwitchInterface"; BObj "ClientServerInterface"; BObj "BswModuleDependency"; BObj "ServiceProxySwComponentType"; BObj "NvBlockSwComponentType"; BObj "SensorActuatorSwComponentType"; BObj "ServiceSwComponentType"; BObj "EcuAbstractionSwComponentType"; BObj "ApplicationSwComponentType"; BObj "ComplexDeviceDriverSwComponentType"; BObj "CompositionSwComponentType"; BObj "BswImplementation"; BObj "SwcImplementation"; BObj "ConsistencyNeeds"; BObj "RunnableEntityGroup"; BObj "DataPrototypeGroup"; BObj "McGroup"; BObj "McFunction"; BObj "PostBuildVariantCriterion"; BObj "PredefinedVariant"; BObj "SwSystemconstantValueSet"; BObj "SwSystemconst"; BObj "EcucModuleConfigurationValues"; BObj "FlexrayCluster"; BObj "SystemSignalGroup"; BObj "ISignalGroup"; BObj "E2EProfileCompatibilityProps"; BObj "DataTransformationSet"; BObj "SoAdRoutingGroup"; BObj "SecureCommunicationPropsSet"; BObj "DiagnosticServiceTable"; BObj "DiagnosticConnection"; BObj "ISignalIPduGroup"; BObj "LifeCycleInfoSet"; BObj "SignalServiceTranslationPropsSet"; BObj "SystemSignal"; BObj "ISignalIPdu"; BObj "EcuInstance"; BObj "ISignal"; BObj "Gateway"; BObj "CanCluster"; BObj "LinCluster"; BObj "NmConfig"; BObj "SwcTiming"; BObj "ModeDeclarationGroup"; BObj "DataTypeMappingSet"; BObj "SwAddrMethod"; BObj "SwcBswMapping"; BObj "BswModuleEntry"; BObj "BswModuleDescription"; BObj "Unit"; BObj "SenderReceiverInterface"; BObj "EndToEndProtectionSet"; BObj "DataConstr"; BObj "ConstantSpecification"; BObj "CompuMethod"; BObj "SwBaseType"; BObj "ARPackage"]);
  ("writeIdsMgrNeeds", tbase [BObj "IdsMgrNeeds"]);
  ("writeImplementation", tbase [BObj "BswImplementation"; BObj "SwcImplementation"]);
  ("writeImplementationDataType", tbase [BObj "ImplementationDataType"]);
  ("writeImplementationDataTypeSymbolProps", tbase [BObj "ImplementationDataType"]);
  ("writeImplementationDataTypeSubElements", tbase [BObj "ImplementationDataType"]);
  ("writeImplementationDataTypeElement", tbase [BObj "ImplementationDataTypeElement"]);
  ("writeImplementationDataTypeElementSubElements", tbase [BObj "ImplementationDataTypeElement"]);
  ("writeImplementationBuildActionManifests", tbase [BObj "BswImplementation"; BObj "SwcImplementation"]);
  ("writeImplementationHwElementRefs", tbase [BObj "BswImplementation"; BObj "SwcImplementation"]);
  ("writeImplementationProps", tbase [BObj "ExecutableEntityActivationReason"; BObj "SymbolicNameProps"; BObj "SymbolProps"]);
  ("writeISignal", tbase [BObj "ISignal"]);
  ("writeISignalIPdu", tbase [BObj "ISignalIPdu"]);
  ("writeISignalIPduGroup", tbase [BObj "ISignalIPduGroup"]);
  ("writeISignalGroup", tbase [BObj "ISignalGroup"]);
  ("writeISignalGroupComBasedSignalGroupTransformation", tbase [BObj "ISignalGroup"]);
  ("writeISignalGroupISignalRef", tbase [BObj "ISignalGroup"]);
  ("writeISignalGroupTransformationISignalProps", tbase [BObj "ISignalGroup"]);
  ("writeISignalDataTransformation", tbase [BObj "ISignal"]);
  ("writeISignalProps", tbase [BObj "ISignal"]);
  ("writeISignalPort", tbase [BObj "ISignalPort"]);
  ("writeISignalTransformationISignalProps", tbase [BObj "ISignal"]);
  ("writeISignalTriggering", tbase [BObj "ISignalTriggering"]);
  ("writeISignalToPduMappings", tbase [BObj "ISignalIPdu"]);
  ("writeISignalToIPduMapping", tbase [BObj "ISignalToIPduMapping"]);
  ("writeIPdu", tbase [BObj "GeneralPurposeIPdu"; BObj "UserDefinedIPdu"; BObj "MultiplexedIPdu"; BObj "SecuredIPdu"; BObj "DcmIPdu"]);
  ("writeIPduPort", tbase [BObj "IPduPort"]);
  ("writeInstantiationRTEEventProps", tbase [BObj "InstantiationTimingEventProps"]);
  ("writeInstanceEventInCompositionInstanceRef", tbase [BObj "InstanceEventInCompositionInstanceRef"]);
  ("writeInnerDataPrototypeGroupInCompositionInstanceRef", tbase [BObj "InnerDataPrototypeGroupInCompositionInstanceRef"]);
  ("writeInnerRunnableEntityGroupInCompositionInstanceRef", tbase [BObj "InnerRunnableEntityGroupInCompositionInstanceRef"]);
  ("writeInnerGroupIRef", tbase [BObj "InnerPortGroupInCompositionInstanceRef"]);
  ("writeInternalBehavior", tbase [BObj "SwcInternalBehavior"; BObj "BswInternalBehavior"]);
  ("writeInternalBehaviorStaticMemories", tbase [BObj "SwcInternalBehavior"; BObj "BswInternalBehavior"]);
  ("writeInternalTriggerOccurredEvent", tbase [BObj "InternalTriggerOccurredEvent"]);
  ("writeIncludedModeDeclarationGroupSet", tbase [BObj "IncludedModeDeclarationGroupSet"]);
  ("writeInitEvent", tbase [BObj "InitEvent"]);
  ("writeIndicatorStatusNeeds", tbase [BObj "IndicatorStatusNeeds"]);
  ("writeIoHwAbstractionServerAnnotation", tbase [BObj "IoHwAbstractionServerAnnotation"]);
  ("writeReferenceBases", l_obj "ReferenceBase");
  ("writeReferrable", tbase [BObj "EventHandler"; BObj "ConsumedEventGroup"; BObj "DiagEventDebounceTimeBased"; BObj "DiagEventDebounceMonitorInternal"; BObj "DiagEventDebounceCounterBased"; BObj "EcucInstanceReferenceDef"; BObj "EcucChoiceReferenceDef"; BObj "EcucReferenceDef"; BObj "EcucSymbolicNameReferenceDef"; BObj "ProvidedServiceInstance"; BObj "ConsumedServiceInstance"; BObj "EcucMultilineStringParamDef"; BObj "EcucFunctionNameDef"; BObj "EcucEnumerationParamDef"; BObj "EcucFloatParamDef"; BObj "EcucIntegerParamDef"; BObj "EcucStringParamDef"; BObj "EcucBooleanParamDef"; BObj "CouplingPortScheduler"; BObj "CouplingPortFifo"; BObj "PossibleErrorReaction"; BObj "TransientFault"; BObj "RuntimeError"; BObj "DevelopmentError"; BObj "ObdRatioServiceNeeds"; BObj "ObdControlServiceNeeds"; BObj "ObdPidServiceNeeds"; BObj "ObdMonitorServiceNeeds"; BObj "ObdInfoServiceNeeds"; BObj "DtcStatusChangeNotificationNeeds"; BObj "DiagnosticStorageConditionNeeds"; BObj "DiagnosticOperationCycleNeeds"; BObj "DiagnosticEnableConditionNeeds"; BObj "DiagnosticIoControlNeeds"; BObj "DiagnosticEventInfoNeeds"; BObj "DiagnosticEventNeeds"; BObj "DiagnosticValueNeeds"; BObj "DiagnosticRoutineNeeds"; BObj "DiagnosticCommunicationManagerNeeds"; BObj "ApplicationEndpoint"; BObj "ExecutableEntityActivationReason"; BObj "FlexrayFrameTriggering"; BObj "LinFrameTriggering"; BObj "CanFrameTriggering"; BObj "IdsMgrNeeds"; BObj "SecureOnBoardCommunicationNeeds"; BObj "DoIpRoutingActivationConfirmationNeeds"; BObj "DoIpRoutingActivationAuthenticationNeeds"; BObj "ObdRatioDenominatorNeeds"; BObj "ErrorTracerNeeds"; BObj "SupervisedEntityNeeds"; BObj "ComMgrUserNeeds"; BObj "DltUserNeeds"; BObj "EcuStateMgrUserNeeds"; BObj "CryptoServiceNeeds"; BObj "FunctionInhibitionAvailabilityNeeds"; BObj "IndicatorStatusNeeds"; BObj "BswMgrNeeds"; BObj "AsynchronousServerCallPoint"; BObj "SynchronousServerCallPoint"; BObj "ParameterAccess"; BObj "VariableAccess"; BObj "EcucEnumerationLiteralDef"; BObj "ISignalPort"; BObj "IPduPort"; BObj "FramePort"; BObj "SocketAddress"; BObj "BswSynchronousServerCallPoint"; BObj "BswAsynchronousServerCallPoint"; BObj "EthernetPriorityRegeneration"; BObj "PduTriggering"; BObj "ISignalTriggering"; BObj "J1939NmNode"; BObj "UdpNmNode"; BObj "CanNmNode"; BObj "ArgumentDataPrototype"; BObj "RptExecutableEntityEvent"; BObj "SwcServiceDependency"; BObj "WaitPoint"; BObj "ExternalTriggeringPointIdent"; BObj "AsynchronousServerCallResultPoint"; BObj "BswInterruptEntity"; BObj "BswSchedulableEntity"; BObj "BswCalledEntity"; BObj "RunnableEntity"; BObj "DataSendCompletedEvent"; BObj "BackgroundEvent"; BObj "ModeSwitchedAckEvent"; BObj "AsynchronousServerCallReturnsEvent"; BObj "InitEvent"; BObj "DataReceivedEvent"; BObj "SwcModeSwitchEvent"; BObj "OperationInvokedEvent"; BObj "TimingEvent"; BObj "EcucChoiceContainerDef"; BObj "EcucParamConfContainerDef"; BObj "NetworkEndpoint"; BObj "LinScheduleTable"; BObj "BswVariableAccess"; BObj "SocketConnectionBundle"; BObj "EOCExecutableEntityRef"; BObj "BswServiceDependencyIdent"; BObj "BswAsynchronousServerCallReturnsEvent"; BObj "BswModeSwitchedAckEvent"; BObj "BswModeManagerErrorEvent"; BObj "BswModeSwitchEvent"; BObj "BswDataReceivedEvent"; BObj "BswExternalTriggerOccurredEvent"; BObj "BswInternalTriggerOccurredEvent"; BObj "BswBackgroundEvent"; BObj "BswTimingEvent"; BObj "BswOperationInvokedEvent"; BObj "RptExecutableEntity"; BObj "WorstCaseStackUsage"; BObj "MeasuredStackUsage"; BObj "RoughEstimateStackUsage"; BObj "WorstCaseHeapUsage"; BObj "RoughEstimateHeapUsage"; BObj "MeasuredHeapUsage"; BObj "SimulatedExecutionTime"; BObj "RoughEstimateOfExecutionTime"; BObj "MeasuredExecutionTime"; BObj "AnalyzedExecutionTime"; BObj "VariationPointProxy"; BObj "CouplingPort"; BObj "SwcToEcuMapping"; BObj "SwcToImplMapping"; BObj "ECUMapping"; BObj "VlanConfig"; BObj "FlexrayPhysicalChannel"; BObj "EthernetPhysicalChannel"; BObj "LinPhysicalChannel"; BObj "CanPhysicalChannel"; BObj "SymbolicNameProps"; BObj "ApplicationArrayDataType"; BObj "ImplementationDataTypeElement"; BObj "BswInternalTriggeringPoint"; BObj "ExclusiveArea"; BObj "RptServicePoint"; BObj "RptComponent"; BObj "PerInstanceMemory"; BObj "EcucValidationCondition"; BObj "EcucQuery"; BObj "Topic1"; BObj "SignalServiceTranslationElementProps"; BObj "FlexrayCommunicationConnector"; BObj "LinCommunicationConnector"; BObj "EthernetCommunicationConnector"; BObj "CanCommunicationConnector"; BObj "UdpNmCluster"; BObj "CanNmCluster"; BObj "ExecutionOrderConstraint"; BObj "NvBlockNeeds"; BObj "ParameterDataPrototype"; BObj "VariableDataPrototype"; BObj "ApplicationRecordElement"; BObj "ApplicationArrayElement"; BObj "Chapter"; BObj "SwcInternalBehavior"; BObj "BswInternalBehavior"; BObj "PassThroughSwConnector"; BObj "AssemblySwConnector"; BObj "PortGroup"; BObj "PRPortPrototype"; BObj "RPortPrototype"; BObj "PPortPrototype"; BObj "RptExecutionContext"; BObj "McDataInstance"; BObj "MemorySection"; BObj "Linker"; BObj "DependencyOnArtifact"; BObj "Compiler"; BObj "Code"; BObj "EcucContainerValue"; BObj "EcucModuleDef"; BObj "ModeDeclarationMapping"; BObj "Keyword"; BObj "TransformationTechnology"; BObj "DataTransformation"; BObj "HwAttributeDef"; BObj "DoIpLogicAddress"; BObj "SecureCommunicationFreshnessProps"; BObj "SecureCommunicationAuthenticationProps"; BObj "MacMulticastGroup"; BObj "ModeInterfaceMapping"; BObj "ClientServerInterfaceMapping"; BObj "VariableAndParameterInterfaceMapping"; BObj "FlatInstanceDescriptor"; BObj "NvDataInterface"; BObj "ParameterInterface"; BObj "SignalServiceTranslationEventProps"; BObj "FlexrayCommunicationController"; BObj "LinMaster"; BObj "EthernetCommunicationController"; BObj "CanCommunicationController"; BObj "SystemMapping"; BObj "LinTpNode"; BObj "TpAddress"; BObj "CanTpNode"; BObj "CanTpChannel"; BObj "CanTpAddress"; BObj "GeneralPurposeIPdu"; BObj "UserDefinedIPdu"; BObj "MultiplexedIPdu"; BObj "SecuredIPdu"; BObj "DcmIPdu"; BObj "NmEcu"; BObj "PduToFrameMapping"; BObj "ModeDeclaration"; BObj "ApplicationError"; BObj "ClientServerOperation"; BObj "SwServiceArg"; BObj "ExclusiveAreaNestingOrder"; BObj "HwPinGroup"; BObj "TpConnectionIdent"; BObj "EndToEndProtection"; BObj "DelegationSwConnector"; BObj "SwComponentPrototype"; BObj "ResourceConsumption"; BObj "EcucDestinationUriDef"; BObj "SignalServiceTranslationProps"; BObj "ISignalToIPduMapping"; BObj "RootSwCompositionPrototype"; BObj "ApplicationRecordDataType"; BObj "ApplicationPrimitiveDataType"; BObj "ImplementationDataType"; BObj "EcucDestinationUriDefSet"; BObj "EcucDefinitionCollection"; BObj "ModeDeclarationMappingSet"; BObj "PortPrototypeBlueprint"; BObj "KeywordSet"; BObj "Collection"; BObj "HwCategory"; BObj "Documentation"; BObj "EthernetCluster"; BObj "PortInterfaceMappingSet"; BObj "FlatMap"; BObj "PhysicalDimension"; BObj "System"; BObj "DoIpTpConfig"; BObj "LinTpConfig"; BObj "CanTpConfig"; BObj "GeneralPurposePdu"; BObj "UserDefinedPdu"; BObj "NPdu"; BObj "NmPdu"; BObj "FlexrayFrame"; BObj "GenericEthernetFrame"; BObj "CanFrame"; BObj "LinUnconditionalFrame"; BObj "ModeDeclarationGroupPrototype"; BObj "ModeTransition"; BObj "NvBlockDescriptor"; BObj "BulkNvDataDescriptor"; BObj "ModeSwitchInterface"; BObj "ClientServerInterface"; BObj "BswModuleDependency"; BObj "SectionNamePrefix"; BObj "SymbolProps"; BObj "BswModuleClientServerEntry"; BObj "DocumentationContext"; BObj "ServiceProxySwComponentType"; BObj "NvBlockSwComponentType"; BObj "SensorActuatorSwComponentType"; BObj "ServiceSwComponentType"; BObj "EcuAbstractionSwComponentType"; BObj "ApplicationSwComponentType"; BObj "ComplexDeviceDriverSwComponentType"; BObj "CompositionSwComponentType"; BObj "BswImplementation"; BObj "SwcImplementation"; BObj "ConsistencyNeeds"; BObj "RunnableEntityGroup"; BObj "DataPrototypeGroup"; BObj "McGroup"; BObj "McFunction"; BObj "PostBuildVariantCriterion"; BObj "PredefinedVariant"; BObj "SwSystemconstantValueSet"; BObj "SwSystemconst"; BObj "EcucModuleConfigurationValues"; BObj "FlexrayCluster"; BObj "SystemSignalGroup"; BObj "ISignalGroup"; BObj "E2EProfileCompatibilityProps"; BObj "DataTransformationSet"; BObj "SoAdRoutingGroup"; BObj "SecureCommunicationPropsSet"; BObj "DiagnosticServiceTable"; BObj "DiagnosticConnection"; BObj "ISignalIPduGroup"; BObj "LifeCycleInfoSet"; BObj "SignalServiceTranslationPropsSet"; BObj "SystemSignal"; BObj "ISignalIPdu"; BObj "EcuInstance"; BObj "ISignal"; BObj "Gateway"; BObj "CanCluster"; BObj "LinCluster"; BObj "NmConfig"; BObj "SwcTiming"; BObj "ModeDeclarationGroup"; BObj "DataTypeMappingSet"; BObj "SwAddrMethod"; BObj "SwcBswMapping"; BObj "BswModuleEntry"; BObj "BswModuleDescription"; BObj "Unit"; BObj "SenderReceiverInterface"; BObj "EndToEndProtectionSet"; BObj "DataConstr"; BObj "ConstantSpecification"; BObj "CompuMethod"; BObj "SwBaseType"; BObj "Caption"; BObj "HwElement"; BObj "HwType"; BObj "SdgCaption"; BObj "ARPackage"]);
  ("writeRecordValueSpecification", tbase [BObj "RecordValueSpecification"]);
  ("writeReceiverComSpec", tbase [BObj "QueuedReceiverComSpec"; BObj "NonqueuedReceiverComSpec"]);
  ("writeReceiverReplaceWith", o_obj "VariableAccess");
  ("writeReceptionComSpecProps", o_obj "ReceptionComSpecProps");
  ("writeRunnableEntity", tbase [BObj "RunnableEntity"]);
  ("writeRunnableEntityGroup", tbase [BObj "RunnableEntityGroup"]);
  ("writeRunnableEntityGroupRunnableEntityGroupIRefs", tbase [BObj "RunnableEntityGroup"]);
  ("writeRunnableEntityGroupRunnableEntityIRefs", tbase [BObj "RunnableEntityGroup"]);
  ("writeRunnableEntityInCompositionInstanceRef", tbase [BObj "RunnableEntityInCompositionInstanceRef"]);
  ("writeRunnableEntityArguments", tbase [BObj "RunnableEntity"]);
  ("writeRunnableEntityAsynchronousServerCallResultPoint", tbase [BObj "RunnableEntity"]);
  ("writeRunnableEntityDataReadAccesses", tbase [BObj "RunnableEntity"]);
  ("writeRunnableEntityDataReceivePointByArguments", tbase [BObj "RunnableEntity"]);
  ("writeRunnableEntityDataReceivePointByValues", tbase [BObj "RunnableEntity"]);
  ("writeRunnableEntityDataSendPoints", tbase [BObj "RunnableEntity"]);
  ("writeRunnableEntityDataWriteAccesses", tbase [BObj "RunnableEntity"]);
  ("writeRunnableEntityModeAccessPoints", tbase [BObj "RunnableEntity"]);
  ("writeRunnableEntityModeSwitchPoints", tbase [BObj "RunnableEntity"]);
  ("writeRunnableEntityExternalTriggeringPoints", tbase [BObj "RunnableEntity"]);
  ("writeRunnableEntityParameterAccesses", tbase [BObj "RunnableEntity"]);
  ("writeRunnableEntityReadLocalVariables", tbase [BObj "RunnableEntity"]);
  ("writeRunnableEntityServerCallPoints", tbase [BObj "RunnableEntity"]);
  ("writeRunnableEntityWaitPoints", tbase [BObj "RunnableEntity"]);
  ("writeRunnableEntityWrittenLocalVariable", tbase [BObj "RunnableEntity"]);
  ("writeRunsInsideRefs", tbase [BObj "BswInterruptEntity"; BObj "BswSchedulableEntity"; BObj "BswCalledEntity"; BObj "RunnableEntity"]);
  ("writeRuleBasedAxisCont", tbase [BObj "RuleBasedAxisCont"]);
  ("writeRuleBasedValueCont", o_obj "RuleBasedValueCont");
  ("writeRuleBasedValueSpecification", o_obj "RuleBasedValueSpecification");
  ("writeRuleArguments", tbase [BObj "RuleArguments"]);
  ("writeRootSwCompositionPrototype", tbase [BObj "System"]);
  ("writeRoleBasedPortAssignment", tbase [BObj "RoleBasedPortAssignment"]);
  ("writeRoleBasedDataAssignment", tbase [BObj "RoleBasedDataAssignment"]);
  ("writeRoleBasedDataTypeAssignment", tbase [BObj "RoleBasedDataTypeAssignment"]);
  ("writeRoleBasedMcDataAssignment", tbase [BObj "RoleBasedMcDataAssignment"]);
  ("writeRoleBasedBswModuleEntryAssignment", tbase [BObj "RoleBasedBswModuleEntryAssignment"]);
  ("writeRoughEstimateOfExecutionTime", tbase [BObj "RoughEstimateOfExecutionTime"]);
  ("writeRoughEstimateHeapUsage", tbase [BObj "RoughEstimateHeapUsage"]);
  ("writeRptSupportData", tbase [BObj "RptSupportData"]);
  ("writeRptSwPrototypingAccess", tbase [BObj "RptSwPrototypingAccess"]);
  ("writeRptServicePoint", tbase [BObj "RptServicePoint"]);
  ("writeRptImplPolicy", tbase [BObj "RptImplPolicy"]);
  ("writeRptComponent", tbase [BObj "RptComponent"]);
  ("writeRptExecutableEntity", tbase [BObj "RptExecutableEntity"]);
  ("writeRptExecutableEntityEvent", tbase [BObj "RptExecutableEntityEvent"]);
  ("writeRptExecutableEntityProperties", tbase [BObj "RptExecutableEntityProperties"]);
  ("writeRPortPrototype", tbase [BObj "RPortPrototype"]);
  ("writeRPortComSpec", tbase [BObj "NvRequireComSpec"; BObj "ParameterRequireComSpec"; BObj "ModeSwitchReceiverComSpec"; BObj "QueuedReceiverComSpec"; BObj "ClientComSpec"; BObj "NonqueuedReceiverComSpec"]);
  ("writeRteEventInEcuInstanceRef", tbase [BObj "RteEventInEcuInstanceRef"]);
  ("writeRModeGroupInAtomicSWCInstanceRef", tbase [BObj "RModeGroupInAtomicSWCInstanceRef"]);
  ("writeSdgCaption", tbase [BObj "Sdg"]);
  ("writeSdgSdxRefs", tbase [BObj "SdgContents"]);
  ("writeSdgSdxfRefs", tbase [BObj "SdgContents"]);
  ("writeSds", tbase [BObj "SdgContents"]);
  ("writeSdfs", tbase [BObj "SdgContents"]);
  ("writeSwcImplementation", tbase [BObj "SwcImplementation"]);
  ("writeSwcInternalBehavior", tbase [BObj "SwcInternalBehavior"]);
  ("writeSwcInternalBehaviorParameterDataPrototypes", l_obj "ParameterDataPrototype");
  ("writeSwcInternalBehaviorPerInstanceMemories", tbase [BObj "SwcInternalBehavior"]);
  ("writeSwcInternalBehaviorPortAPIOptions", tbase [BObj "SwcInternalBehavior"]);
  ("writeSwcInternalBehaviorArTypedPerInstanceMemories", tbase [BObj "SwcInternalBehavior"]);
  ("writeSwcInternalBehaviorExclusiveAreaPolicies", tbase [BObj "SwcInternalBehavior"]);
  ("writeSwcInternalBehaviorExplicitInterRunnableVariables", tbase [BObj "SwcInternalBehavior"]);
  ("writeSwcInternalBehaviorEvents", tbase [BObj "SwcInternalBehavior"]);
  ("writeSwcInternalBehaviorIncludedModeDeclarationGroupSets", tbase [BObj "SwcInternalBehavior"]);
  ("writeSwcInternalBehaviorInstantiationDataDefProps", tbase [BObj "SwcInternalBehavior"]);
  ("writeSwcInternalBehaviorRunnables", tbase [BObj "SwcInternalBehavior"]);
  ("writeSwcInternalBehaviorServiceDependencies", tbase [BObj "SwcInternalBehavior"]);
  ("writeSwcInternalBehaviorVariationPointProxies", tbase [BObj "SwcInternalBehavior"]);
  ("writeSwcBswMapping", tbase [BObj "SwcBswMapping"]);
  ("writeSwcBswRunnableMappings", tbase [BObj "SwcBswMapping"]);
  ("writeSwcBswSynchronizedModeGroups", tbase [BObj "SwcBswMapping"]);
  ("writeSwcBswSynchronizedModeGroupPrototype", tbase [BObj "SwcBswSynchronizedModeGroupPrototype"]);
  ("writeSwcBswSynchronizedTrigger", tbase [BObj "SwcBswSynchronizedTrigger"]);
  ("writeSwcBswSynchronizedTriggers", tbase [BObj "SwcBswMapping"]);
  ("writeSwcTiming", tbase [BObj "SwcTiming"]);
  ("writeSwcToImplMapping", tbase [BObj "SwcToImplMapping"]);
  ("writeSwcModeSwitchEvent", tbase [BObj "SwcModeSwitchEvent"]);
  ("writeSwcServiceDependency", tbase [BObj "SwcServiceDependency"]);
  ("writeSwcServiceDependencyAssignedData", tbase [BObj "SwcServiceDependency"]);
  ("writeSwcServiceDependencyAssignedPorts", tbase [BObj "SwcServiceDependency"]);
  ("writeSwcServiceDependencyServiceNeeds", tbase [BObj "SwcServiceDependency"]);
  ("writeSwcServiceDependencyRepresentedPortGroup", tbase [BObj "SwcServiceDependency"]);
  ("writeSwBaseType", tbase [BObj "SwBaseType"]);
  ("writeSwAddrMethod", tbase [BObj "SwAddrMethod"]);
  ("writeSwSystemconst", tbase [BObj "SwSystemconst"]);
  ("writeSwSystemconstantValueSet", tbase [BObj "SwSystemconstantValueSet"]);
  ("writeSwSystemconstantValueSetSwSystemconstantValues", tbase [BObj "SwSystemconstantValueSet"]);
  ("writeSwSystemconstValue", tbase [BObj "SwSystemconstValue"]);
  ("writeSwComponentType", tbase [BObj "ServiceProxySwComponentType"; BObj "NvBlockSwComponentType"; BObj "SensorActuatorSwComponentType"; BObj "ServiceSwComponentType"; BObj "EcuAbstractionSwComponentType"; BObj "ApplicationSwComponentType"; BObj "ComplexDeviceDriverSwComponentType"; BObj "CompositionSwComponentType"]);
  ("writeSwComponentTypeSwComponentDocumentation", tbase [BObj "ServiceProxySwComponentType"; BObj "NvBlockSwComponentType"; BObj "SensorActuatorSwComponentType"; BObj "ServiceSwComponentType"; BObj "EcuAbstractionSwComponentType"; BObj "ApplicationSwComponentType"; BObj "ComplexDeviceDriverSwComponentType"; BObj "CompositionSwComponentType"]);
  ("writeSwComponentTypeSwcMappingConstraints", tbase [BObj "ServiceProxySwComponentType"; BObj "NvBlockSwComponentType"; BObj "SensorActuatorSwComponentType"; BObj "ServiceSwComponentType"; BObj "EcuAbstractionSwComponentType"; BObj "ApplicationSwComponentType"; BObj "ComplexDeviceDriverSwComponentType"; BObj "CompositionSwComponentType"]);
  ("writeSwComponentTypeConsistencyNeeds", tbase [BObj "ServiceProxySwComponentType"; BObj "NvBlockSwComponentType"; BObj "SensorActuatorSwComponentType"; BObj "ServiceSwComponentType"; BObj "EcuAbstractionSwComponentType"; BObj "ApplicationSwComponentType"; BObj "ComplexDeviceDriverSwComponentType"; BObj "CompositionSwComponentType"]);
  ("writeSwComponentTypePorts", tbase [BObj "ServiceProxySwComponentType"; BObj "NvBlockSwComponentType"; BObj "SensorActuatorSwComponentType"; BObj "ServiceSwComponentType"; BObj "EcuAbstractionSwComponentType"; BObj "ApplicationSwComponentType"; BObj "ComplexDeviceDriverSwComponentType"; BObj "CompositionSwComponentType"]);
  ("writeSwComponentTypePortGroups", tbase [BObj "ServiceProxySwComponentType"; BObj "NvBlockSwComponentType"; BObj "SensorActuatorSwComponentType"; BObj "ServiceSwComponentType"; BObj "EcuAbstractionSwComponentType"; BObj "ApplicationSwComponentType"; BObj "ComplexDeviceDriverSwComponentType"; BObj "CompositionSwComponentType"]);
  ("writeSwComponentTypeUnitGroups", tbase [BObj "ServiceProxySwComponentType"; BObj "NvBlockSwComponentType"; BObj "SensorActuatorSwComponentType"; BObj "ServiceSwComponentType"; BObj "EcuAbstractionSwComponentType"; BObj "ApplicationSwComponentType"; BObj "ComplexDeviceDriverSwComponentType"; BObj "CompositionSwComponentType"]);
  ("writeSwComponentPrototype", tbase [BObj "SwComponentPrototype"]);
  ("writeSwComponentDocumentationElement", tbase [BObj "SwComponentDocumentation"]);
  ("writeSwConnector", tbase [BObj "PassThroughSwConnector"; BObj "AssemblySwConnector"]);
  ("writeSwValueCont", o_obj "SwValueCont");
  ("writeSenderReceiverInterface", tbase [BObj "SenderReceiverInterface"]);
  ("writeSenderReceiverInterfaceDataElements", tbase [BObj "SenderReceiverInterface"]);
  ("writeSenderReceiverInterfaceInvalidationPolicies", tbase [BObj "SenderReceiverInterface"]);
  ("writeSenderReceiverToSignalMapping", tbase [BObj "SenderReceiverToSignalMapping"]);
  ("writeSenderReceiverToSignalGroupMapping", tbase [BObj "SenderReceiverToSignalGroupMapping"]);
  ("writeSenderReceiverToSignalGroupMappingTypeMapping", tbase [BObj "SenderReceiverToSignalGroupMapping"]);
  ("writeSenderReceiverAnnotation", tbase [BObj "SenderReceiverAnnotation"]);
  ("writeSenderRecRecordTypeMapping", tbase [BObj "SenderRecRecordTypeMapping"]);
  ("writeSenderRecRecordElementMapping", tbase [BObj "SenderRecRecordElementMapping"]);
  ("writeSenderRecCompositeTypeMapping", tbase [BObj "SenderRecRecordTypeMapping"]);
  ("writeSenderRecArrayTypeMappingRecordElementMapping", tbase [BObj "SenderRecRecordTypeMapping"]);
  ("writeSenderComSpec", tbase [BObj "QueuedSenderComSpec"; BObj "NonqueuedSenderComSpec"]);
  ("writeSensorActuatorSwComponentType", tbase [BObj "SensorActuatorSwComponentType"]);
  ("writeServiceSwComponentType", tbase [BObj "ServiceSwComponentType"]);
  ("writeServiceProxySwComponentType", tbase [BObj "ServiceProxySwComponentType"]);
  ("writeServiceNeeds", tbase [BObj "DiagEventDebounceTimeBased"; BObj "DiagEventDebounceMonitorInternal"; BObj "DiagEventDebounceCounterBased"; BObj "ObdRatioServiceNeeds"; BObj "ObdControlServiceNeeds"; BObj "ObdPidServiceNeeds"; BObj "ObdMonitorServiceNeeds"; BObj "ObdInfoServiceNeeds"; BObj "DtcStatusChangeNotificationNeeds"; BObj "DiagnosticStorageConditionNeeds"; BObj "DiagnosticOperationCycleNeeds"; BObj "DiagnosticEnableConditionNeeds"; BObj "DiagnosticIoControlNeeds"; BObj "DiagnosticEventInfoNeeds"; BObj "DiagnosticEventNeeds"; BObj "DiagnosticValueNeeds"; BObj "DiagnosticRoutineNeeds"; BObj "DiagnosticCommunicationManagerNeeds"; BObj "IdsMgrNeeds"; BObj "SecureOnBoardCommunicationNeeds"; BObj "DoIpRoutingActivationConfirmationNeeds"; BObj "DoIpRoutingActivationAuthenticationNeeds"; BObj "ObdRatioDenominatorNeeds"; BObj "ErrorTracerNeeds"; BObj "SupervisedEntityNeeds"; BObj "ComMgrUserNeeds"; BObj "DltUserNeeds"; BObj "EcuStateMgrUserNeeds"; BObj "CryptoServiceNeeds"; BObj "FunctionInhibitionAvailabilityNeeds"; BObj "IndicatorStatusNeeds"; BObj "BswMgrNeeds"; BObj "NvBlockNeeds"]);
  ("writeServiceDependency", tbase [BObj "SwcServiceDependency"]);
  ("writeServiceDependencyAssignedDataType", tbase [BObj "SwcServiceDependency"; BObj "BswServiceDependency"]);
  ("writeServerComSpec", tbase [BObj "ServerComSpec"]);
  ("writeServerComSpecTransformationComSpecProps", tbase [BObj "ServerComSpec"]);
  ("writeSecuredIPdu", tbase [BObj "SecuredIPdu"]);
  ("writeSecureCommunicationPropsSet", tbase [BObj "SecureCommunicationPropsSet"]);
  ("writeSecureCommunicationPropsSetAuthenticationProps", tbase [BObj "SecureCommunicationPropsSet"]);
  ("writeSecureCommunicationPropsSetFreshnessProps", tbase [BObj "SecureCommunicationPropsSet"]);
  ("writeSecureCommunicationAuthenticationProps", tbase [BObj "SecureCommunicationAuthenticationProps"]);
  ("writeSecureCommunicationFreshnessProps", tbase [BObj "SecureCommunicationFreshnessProps"]);
  ("writeSecureOnBoardCommunicationNeeds", tbase [BObj "SecureOnBoardCommunicationNeeds"]);
  ("writeSectionNamePrefixes", l_obj "SectionNamePrefix");
  ("writeSegmentPosition", tbase [BObj "SegmentPosition"]);
  ("writeSystem", tbase [BObj "System"]);
  ("writeSystemSignal", tbase [BObj "SystemSignal"]);
  ("writeSystemSignalGroup", tbase [BObj "SystemSignalGroup"]);
  ("writeSystemFibexElementRefs", tbase [BObj "System"]);
  ("writeSystemMapping", tbase [BObj "SystemMapping"]);
  ("writeSystemMappings", tbase [BObj "System"]);
  ("writeSystemMappingDataMappings", tbase [BObj "SystemMapping"]);
  ("writeSystemMappingEcuResourceMappings", tbase [BObj "SystemMapping"]);
  ("writeSystemMappingSwImplMappings", tbase [BObj "SystemMapping"]);
  ("writeSystemMappingSwMappings", tbase [BObj "SystemMapping"]);
  ("writeSymbolProps", o_obj "SymbolProps");
  ("writeSymbolicNameProps", tbase [BObj "SwcServiceDependency"; BObj "BswServiceDependency"]);
  ("writeSignalServiceTranslationProps", tbase [BObj "SignalServiceTranslationProps"]);
  ("writeSignalServiceTranslationPropsSet", tbase [BObj "SignalServiceTranslationPropsSet"]);
  ("writeSignalServiceTranslationEventProps", tbase [BObj "SignalServiceTranslationEventProps"]);
  ("writeSignalServiceTranslationElementProps", tbase [BObj "SignalServiceTranslationElementProps"]);
  ("writeSimulatedExecutionTime", tbase [BObj "SimulatedExecutionTime"]);
  ("writeSoAdRoutingGroup", tbase [BObj "SoAdRoutingGroup"]);
  ("writeSoAdConfig", o_obj "SoAdConfig");
  ("writeSoAdConfigConnectionBundles", tbase [BObj "SoAdConfig"]);
  ("writeSoAdConfigSocketAddresses", tbase [BObj "SoAdConfig"]);
  ("writeSocketConnectionBundle", tbase [BObj "SocketConnectionBundle"]);
  ("writeSocketConnectionBundleConnections", tbase [BObj "SocketConnectionBundle"]);
  ("writeSocketAddress", tbase [BObj "SocketAddress"]);
  ("writeSocketAddressApplicationEndpoint", tbase [BObj "SocketAddress"]);
  ("writeSocketAddressApplicationEndpointConsumedServiceInstances", tbase [BObj "ApplicationEndpoint"]);
  ("writeSocketAddressApplicationEndpointProvidedServiceInstance", tbase [BObj "ApplicationEndpoint"]);
  ("writeSocketAddressMulticastConnectorRefs", tbase [BObj "SocketAddress"]);
  ("writeStaticPart", tbase [BObj "StaticPart"]);
  ("writeStackUsages", tlist [BObj "WorstCaseStackUsage"; BObj "MeasuredStackUsage"; BObj "RoughEstimateStackUsage"]);
  ("writeSupervisedEntityNeeds", tbase [BObj "SupervisedEntityNeeds"]);
  ("writeScheduleTableEntry", tbase [BObj "ApplicationEntry"]);
  ("writeMultilanguageReferrable", tbase [BObj "EventHandler"; BObj "ConsumedEventGroup"; BObj "DiagEventDebounceTimeBased"; BObj "DiagEventDebounceMonitorInternal"; BObj "DiagEventDebounceCounterBased"; BObj "EcucInstanceReferenceDef"; BObj "EcucChoiceReferenceDef"; BObj "EcucReferenceDef"; BObj "EcucSymbolicNameReferenceDef"; BObj "ProvidedServiceInstance"; BObj "ConsumedServiceInstance"; BObj "EcucMultilineStringParamDef"; BObj "EcucFunctionNameDef"; BObj "EcucEnumerationParamDef"; BObj "EcucFloatParamDef"; BObj "EcucIntegerParamDef"; BObj "EcucStringParamDef"; BObj "EcucBooleanParamDef"; BObj "CouplingPortScheduler"; BObj "CouplingPortFifo"; BObj "PossibleErrorReaction"; BObj "TransientFault"; BObj "RuntimeError"; BObj "DevelopmentError"; BObj "ObdRatioServiceNeeds"; BObj "ObdControlServiceNeeds"; BObj "ObdPidServiceNeeds"; BObj "ObdMonitorServiceNeeds"; BObj "ObdInfoServiceNeeds"; BObj "DtcStatusChangeNotificationNeeds"; BObj "DiagnosticStorageConditionNeeds"; BObj "DiagnosticOperationCycleNeeds"; BObj "DiagnosticEnableConditionNeeds"; BObj "DiagnosticIoControlNeeds"; BObj "DiagnosticEventInfoNeeds"; BObj "DiagnosticEventNeeds"; BObj "DiagnosticValueNeeds"; BObj "DiagnosticRoutineNeeds"; BObj "DiagnosticCommunicationManagerNeeds"; BObj "ApplicationEndpoint"; BObj "FlexrayFrameTriggering"; BObj "LinFrameTriggering"; BObj "CanFrameTriggering"; BObj "IdsMgrNeeds"; BObj "SecureOnBoardCommunicationNeeds"; BObj "DoIpRoutingActivationConfirmationNeeds"; BObj "DoIpRoutingActivationAuthenticationNeeds"; BObj "ObdRatioDenominatorNeeds"; BObj "ErrorTracerNeeds"; BObj "SupervisedEntityNeeds"; BObj "ComMgrUserNeeds"; BObj "DltUserNeeds"; BObj "EcuStateMgrUserNeeds"; BObj "CryptoServiceNeeds"; BObj "FunctionInhibitionAvailabilityNeeds"; BObj "IndicatorStatusNeeds"; BObj "BswMgrNeeds"; BObj "AsynchronousServerCallPoint"; BObj "SynchronousServerCallPoint"; BObj "ParameterAccess"; BObj "VariableAccess"; BObj "EcucEnumerationLiteralDef"; BObj "ISignalPort"; BObj "IPduPort"; BObj "FramePort"; BObj "SocketAddress"; BObj "PduTriggering"; BObj "ISignalTriggering"; BObj "J1939NmNode"; BObj "UdpNmNode"; BObj "CanNmNode"; BObj "ArgumentDataPrototype"; BObj "RptExecutableEntityEvent"; BObj "SwcServiceDependency"; BObj "WaitPoint"; BObj "ExternalTriggeringPointIdent"; BObj "AsynchronousServerCallResultPoint"; BObj "BswInterruptEntity"; BObj "BswSchedulableEntity"; BObj "BswCalledEntity"; BObj "RunnableEntity"; BObj "DataSendCompletedEvent"; BObj "BackgroundEvent"; BObj "ModeSwitchedAckEvent"; BObj "AsynchronousServerCallReturnsEvent"; BObj "InitEvent"; BObj "DataReceivedEvent"; BObj "SwcModeSwitchEvent"; BObj "OperationInvokedEvent"; BObj "TimingEvent"; BObj "EcucChoiceContainerDef"; BObj "EcucParamConfContainerDef"; BObj "NetworkEndpoint"; BObj "LinScheduleTable"; BObj "EOCExecutableEntityRef"; BObj "BswServiceDependencyIdent"; BObj "BswAsynchronousServerCallReturnsEvent"; BObj "BswModeSwitchedAckEvent"; BObj "BswModeManagerErrorEvent"; BObj "BswModeSwitchEvent"; BObj "BswDataReceivedEvent"; BObj "BswExternalTriggerOccurredEvent"; BObj "BswInternalTriggerOccurredEvent"; BObj "BswBackgroundEvent"; BObj "BswTimingEvent"; BObj "BswOperationInvokedEvent"; BObj "RptExecutableEntity"; BObj "WorstCaseStackUsage"; BObj "MeasuredStackUsage"; BObj "RoughEstimateStackUsage"; BObj "WorstCaseHeapUsage"; BObj "RoughEstimateHeapUsage"; BObj "MeasuredHeapUsage"; BObj "SimulatedExecutionTime"; BObj "RoughEstimateOfExecutionTime"; BObj "MeasuredExecutionTime"; BObj "AnalyzedExecutionTime"; BObj "VariationPointProxy"; BObj "CouplingPort"; BObj "SwcToEcuMapping"; BObj "SwcToImplMapping"; BObj "ECUMapping"; BObj "VlanConfig"; BObj "FlexrayPhysicalChannel"; BObj "EthernetPhysicalChannel"; BObj "LinPhysicalChannel"; BObj "CanPhysicalChannel"; BObj "ApplicationArrayDataType"; BObj "ImplementationDataTypeElement"; BObj "BswInternalTriggeringPoint"; BObj "ExclusiveArea"; BObj "RptServicePoint"; BObj "RptComponent"; BObj "PerInstanceMemory"; BObj "EcucValidationCondition"; BObj "EcucQuery"; BObj "Topic1"; BObj "SignalServiceTranslationElementProps"; BObj "FlexrayCommunicationConnector"; BObj "LinCommunicationConnector"; BObj "EthernetCommunicationConnector"; BObj "CanCommunicationConnector"; BObj "UdpNmCluster"; BObj "CanNmCluster"; BObj "ExecutionOrderConstraint"; BObj "NvBlockNeeds"; BObj "ParameterDataPrototype"; BObj "VariableDataPrototype"; BObj "ApplicationRecordElement"; BObj "ApplicationArrayElement"; BObj "Chapter"; BObj "SwcInternalBehavior"; BObj "BswInternalBehavior"; BObj "PassThroughSwConnector"; BObj "AssemblySwConnector"; BObj "PortGroup"; BObj "PRPortPrototype"; BObj "RPortPrototype"; BObj "PPortPrototype"; BObj "RptExecutionContext"; BObj "McDataInstance"; BObj "MemorySection"; BObj "Linker"; BObj "DependencyOnArtifact"; BObj "Compiler"; BObj "Code"; BObj "EcucContainerValue"; BObj "EcucModuleDef"; BObj "ModeDeclarationMapping"; BObj "Keyword"; BObj "TransformationTechnology"; BObj "DataTransformation"; BObj "HwAttributeDef"; BObj "DoIpLogicAddress"; BObj "SecureCommunicationFreshnessProps"; BObj "SecureCommunicationAuthenticationProps"; BObj "MacMulticastGroup"; BObj "ModeInterfaceMapping"; BObj "ClientServerInterfaceMapping"; BObj "VariableAndParameterInterfaceMapping"; BObj "FlatInstanceDescriptor"; BObj "NvDataInterface"; BObj "ParameterInterface"; BObj "SignalServiceTranslationEventProps"; BObj "FlexrayCommunicationController"; BObj "LinMaster"; BObj "EthernetCommunicationController"; BObj "CanCommunicationController"; BObj "SystemMapping"; BObj "LinTpNode"; BObj "TpAddress"; BObj "CanTpNode"; BObj "CanTpChannel"; BObj "CanTpAddress"; BObj "GeneralPurposeIPdu"; BObj "UserDefinedIPdu"; BObj "MultiplexedIPdu"; BObj "SecuredIPdu"; BObj "DcmIPdu"; BObj "NmEcu"; BObj "PduToFrameMapping"; BObj "ModeDeclaration"; BObj "ApplicationError"; BObj "ClientServerOperation"; BObj "SwServiceArg"; BObj "EndToEndProtection"; BObj "DelegationSwConnector"; BObj "SwComponentPrototype"; BObj "ResourceConsumption"; BObj "EcucDestinationUriDef"; BObj "SignalServiceTranslationProps"; BObj "ISignalToIPduMapping"; BObj "RootSwCompositionPrototype"; BObj "ApplicationRecordDataType"; BObj "ApplicationPrimitiveDataType"; BObj "ImplementationDataType"; BObj "EcucDestinationUriDefSet"; BObj "EcucDefinitionCollection"; BObj "ModeDeclarationMappingSet"; BObj "PortPrototypeBlueprint"; BObj "KeywordSet"; BObj "Collection"; BObj "HwCategory"; BObj "Documentation"; BObj "EthernetCluster"; BObj "PortInterfaceMappingSet"; BObj "FlatMap"; BObj "PhysicalDimension"; BObj "System"; BObj "DoIpTpConfig"; BObj "LinTpConfig"; BObj "CanTpConfig"; BObj "GeneralPurposePdu"; BObj "UserDefinedPdu"; BObj "NPdu"; BObj "NmPdu"; BObj "FlexrayFrame"; BObj "GenericEthernetFrame"; BObj "CanFrame"; BObj "LinUnconditionalFrame"; BObj "ModeDeclarationGroupPrototype"; BObj "ModeTransition"; BObj "NvBlockDescriptor"; BObj "BulkNvDataDescriptor"; BObj "ModeSwitchInterface"; BObj "ClientServerInterface"; BObj "BswModuleDependency"; BObj "DocumentationContext"; BObj "ServiceProxySwComponentType"; BObj "NvBlockSwComponentType"; BObj "SensorActuatorSwComponentType"; BObj "ServiceSwComponentType"; BObj "EcuAbstractionSwComponentType"; BObj "ApplicationSwComponentType"; BObj "ComplexDeviceDriverSwComponentType"; BObj "CompositionSwComponentType"; BObj "BswImplementation"; BObj "SwcImplementation"; BObj "ConsistencyNeeds"; BObj "RunnableEntityGroup"; BObj "DataPrototypeGroup"; BObj "McGroup"; BObj "McFunction"; BObj "PostBuildVariantCriterion"; BObj "PredefinedVariant"; BObj "SwSystemconstantValueSet"; BObj "SwSystemconst"; BObj "EcucModuleConfigurationValues"; BObj "FlexrayCluster"; BObj "SystemSignalGroup"; BObj "ISignalGroup"; BObj "E2EProfileCompatibilityProps"; BObj "DataTransformationSet"; BObj "SoAdRoutingGroup"; BObj "SecureCommunicationPropsSet"; BObj "DiagnosticServiceTable"; BObj "DiagnosticConnection"; BObj "ISignalIPduGroup"; BObj "LifeCycleInfoSet"; BObj "SignalServiceTranslationPropsSet"; BObj "SystemSignal"; BObj "ISignalIPdu"; BObj "EcuInstance"; BObj "ISignal"; BObj "Gateway"; BObj "CanCluster"; BObj "LinCluster"; BObj "NmConfig"; BObj "SwcTiming"; BObj "ModeDeclarationGroup"; BObj "DataTypeMappingSet"; BObj "SwAddrMethod"; BObj "SwcBswMapping"; BObj "BswModuleEntry"; BObj "BswModuleDescription"; BObj "Unit"; BObj "SenderReceiverInterface"; BObj "EndToEndProtectionSet"; BObj "DataConstr"; BObj "ConstantSpecification"; BObj "CompuMethod"; BObj "SwBaseType"; BObj "Caption"; BObj "SdgCaption"; BObj "ARPackage"]);
  ("writeMultiplexedIPdu", tbase [BObj "MultiplexedIPdu"]);
  ("writeMultiplexedIPduDynamicParts", tbase [BObj "MultiplexedIPdu"]);
  ("writeMultiplexedIPduStaticParts", tbase [BObj "MultiplexedIPdu"]);
  ("writeMultiplexedPart", tbase [BObj "StaticPart"; BObj "DynamicPart"]);
  ("writeMultiplexedPartSegmentPositions", tbase [BObj "StaticPart"; BObj "DynamicPart"]);
  ("writeModification", tbase [BObj "Modification"]);
  ("writeModeDeclarationGroup", tbase [BObj "ModeDeclarationGroup"]);
  ("writeModeDeclarationGroupModeDeclaration", tbase [BObj "ModeDeclarationGroup"]);
  ("writeModeDeclarationGroupModeTransition", tbase [BObj "ModeDeclarationGroup"]);
  ("writeModeDeclarationGroupPrototype", tbase [BObj "ModeDeclarationGroupPrototype"]);
  ("writeModeDeclarationMapping", tbase [BObj "ModeDeclarationMapping"]);
  ("writeModeDeclarationMappingSet", tbase [BObj "ModeDeclarationMappingSet"]);
  ("writeModeDeclarationMappingSetModeDeclarationMappings", tbase [BObj "ModeDeclarationMappingSet"]);
  ("writeModeDeclarationMappingFirstModeRefs", tbase [BObj "ModeDeclarationMapping"]);
  ("writeModeSwitchInterface", tbase [BObj "ModeSwitchInterface"]);
  ("writeModeSwitchInterfaceModeGroup", tbase [BObj "ModeSwitchInterface"]);
  ("writeModeSwitchEventTriggeredActivity", tbase [BObj "ModeSwitchEventTriggeredActivity"]);
  ("writeModeSwitchedAckEvent", tbase [BObj "ModeSwitchedAckEvent"]);
  ("writeModeSwitchSenderComSpec", tbase [BObj "ModeSwitchSenderComSpec"]);
  ("writeModeRequestTypeMaps", tbase [BObj "DataTypeMappingSet"]);
  ("writeModeErrorBehavior", o_obj "ModeErrorBehavior");
  ("writeModeInterfaceMapping", tbase [BObj "ModeInterfaceMapping"]);
  ("writeModeInterfaceMappingModeMapping", tbase [BObj "ModeInterfaceMapping"]);
  ("writeModeGroupInAtomicSwcInstanceRef", tbase [BObj "RModeGroupInAtomicSWCInstanceRef"; BObj "PModeGroupInAtomicSwcInstanceRef"]);
  ("writeModePortAnnotation", tbase [BObj "ModePortAnnotation"]);
  ("writeModeAccessPoint", tbase [BObj "ModeAccessPoint"]);
  ("writeMcFunction", tbase [BObj "McFunction"]);
  ("writeMcFunctionDataRefSet", tbase [BObj "McFunctionDataRefSet"]);
  ("writeMcGroup", tbase [BObj "McGroup"]);
  ("writeMcGroupDataRefSet", tbase [BObj "McGroupDataRefSet"]);
  ("writeMcSupportData", tbase [BObj "McSupportData"]);
  ("writeMcSwEmulationMethodSupport", tbase [BObj "McSwEmulationMethodSupport"]);
  ("writeMcDataInstance", tbase [BObj "McDataInstance"]);
  ("writeMcDataAccessDetails", tbase [BObj "McDataAccessDetails"]);
  ("writeMcParameterElementGroup", tbase [BObj "McParameterElementGroup"]);
  ("writeMlFigure", tbase [BObj "MlFigure"]);
  ("writeMlFigureLGraphics", tbase [BObj "MlFigure"]);
  ("writeMacMulticastGroup", tbase [BObj "MacMulticastGroup"]);
  ("writeMemorySections", tbase [BObj "ResourceConsumption"]);
  ("writeMemorySectionExecutableEntityRefs", tbase [BObj "MemorySection"]);
  ("writeMeasuredExecutionTime", tbase [BObj "MeasuredExecutionTime"]);
  ("writeMeasuredHeapUsage", tbase [BObj "MeasuredHeapUsage"]);
  ("writeMsrQueryTopic1", tbase [BObj "MsrQueryTopic1"]);
  ("writeMsrQueryChapter", tbase [BObj "MsrQueryChapter"]);
  ("writeMsrQueryP1", tbase [BObj "MsrQueryP1"]);
  ("writeGeneralAnnotation", tbase [BObj "Annotation"]);
  ("writeGeneralPurposePdu", tbase [BObj "GeneralPurposePdu"]);
  ("writeGeneralPurposeIPdu", tbase [BObj "GeneralPurposeIPdu"]);
  ("writeGenericEthernetFrame", tbase [BObj "GenericEthernetFrame"]);
  ("writeGenericTp", tbase [BObj "GenericTp"]);
  ("writeGateway", tbase [BObj "Gateway"]);
  ("writeComplexDeviceDriverSwComponentType", tbase [BObj "ComplexDeviceDriverSwComponentType"]);
  ("writeCompositionSwComponentType", tbase [BObj "CompositionSwComponentType"]);
  ("writeCompositionSwComponentTypeComponents", tbase [BObj "CompositionSwComponentType"]);
  ("writeCompositionSwComponentTypeConstantValueMappingSet", tbase [BObj "CompositionSwComponentType"]);
  ("writeCompositionSwComponentTypeSwConnectors", tbase [BObj "CompositionSwComponentType"]);
  ("writeCompositionSwComponentTypeDataTypeMappingSet", tbase [BObj "CompositionSwComponentType"]);
  ("writeCompositionSwComponentTypeInstantiationRTEEventProps", tbase [BObj "CompositionSwComponentType"]);
  ("writeCompositeRuleBasedValueSpecification", tbase [BObj "CompositeRuleBasedValueSpecification"]);
  ("writeCompositeNetworkRepresentation", tbase [BObj "CompositeNetworkRepresentation"]);
  ("writeCompuMethod", tbase [BObj "CompuMethod"]);
  ("writeCompuScale", tbase [BObj "CompuScale"]);
  ("writeCompuScaleContents", tbase [BObj "CompuScale"]);
  ("writeCompuScaleConstantContents", tbase [BObj "CompuScaleConstantContents"]);
  ("writeCompuScaleRationalFormula", tbase [BObj "CompuScaleRationalFormula"]);
  ("writeCompuNominatorDenominator", tbase [BObj "CompuNominatorDenominator"]);
  ("writeCompiler", tbase [BObj "Compiler"]);
  ("writeCompilers", tbase [BObj "BswImplementation"; BObj "SwcImplementation"]);
  ("writeCommunicationCluster", tbase [BObj "FlexrayCluster"; BObj "EthernetCluster"; BObj "CanCluster"; BObj "LinCluster"]);
  ("writeCommunicationClusterPhysicalChannels", tbase [BObj "FlexrayCluster"; BObj "EthernetCluster"; BObj "CanCluster"; BObj "LinCluster"]);
  ("writeCommunicationController", tbase [BObj "LinMaster"; BObj "CanCommunicationController"; BObj "FlexrayCommunicationController"; BObj "EthernetCommunicationController"]);
  ("writeCommunicationConnector", tbase [BObj "FlexrayCommunicationConnector"; BObj "LinCommunicationConnector"; BObj "EthernetCommunicationConnector"; BObj "CanCommunicationConnector"]);
  ("writeCommunicationConnectorEcuCommPortInstances", tbase [BObj "FlexrayCommunicationConnector"; BObj "LinCommunicationConnector"; BObj "EthernetCommunicationConnector"; BObj "CanCommunicationConnector"]);
  ("writeCommunicationCycle", tbase [BObj "CycleRepetition"]);
  ("writeCommConnectorPort", tbase [BObj "ISignalPort"; BObj "IPduPort"; BObj "FramePort"]);
  ("writeComMgrUserNeeds", tbase [BObj "ComMgrUserNeeds"]);
  ("writeConstantSpecification", tbase [BObj "ConstantSpecification"]);
  ("writeConsistencyNeeds", tbase [BObj "ConsistencyNeeds"]);
  ("writeConsistencyNeedsDpgDoesNotRequireCoherencys", tbase [BObj "ConsistencyNeeds"]);
  ("writeConsistencyNeedsDpgRequiresCoherencys", tbase [BObj "ConsistencyNeeds"]);
  ("writeConsistencyNeedsRegDoesNotRequireStabilitys", tbase [BObj "ConsistencyNeeds"]);
  ("writeConsistencyNeedsRegRequiresStabilitys", tbase [BObj "ConsistencyNeeds"]);
  ("writeConsumedServiceInstance", tbase [BObj "ConsumedServiceInstance"]);
  ("writeConsumedServiceInstanceConsumedEventGroups", tbase [BObj "ConsumedServiceInstance"]);
  ("writeConsumedEventGroup", tbase [BObj "ConsumedEventGroup"]);
  ("writeConsumedEventGroupRoutingGroupRefs", tbase [BObj "ConsumedEventGroup"]);
  ("writeContainedIPduProps", o_obj "ContainedIPduProps");
  ("writeConditionByFormula", o_obj "ConditionByFormula");
  ("writeCollection", tbase [BObj "Collection"]);
  ("writeCollectionElementRefs", tbase [BObj "Collection"]);
  ("writeCollectionSourceElementRefs", tbase [BObj "Collection"]);
  ("writeCode", tbase [BObj "Code"]);
  ("writeCodeDescriptors", tbase [BObj "BswImplementation"; BObj "SwcImplementation"]);
  ("writeCodeCallbackHeaderRefs", tbase [BObj "Code"]);
  ("writeCouplingPort", tbase [BObj "CouplingPort"]);
  ("writeCouplingPortVlanMemberships", tbase [BObj "CouplingPort"]);
  ("writeCouplingPortDetailsCouplingPortStructuralElements", tbase [BObj "CouplingPortDetails"]);
  ("writeCouplingPortDetailsEthernetPriorityRegenerations", tbase [BObj "CouplingPortDetails"]);
  ("writeCouplingPortFifo", tbase [BObj "CouplingPortFifo"]);
  ("writeCouplingPortScheduler", tbase [BObj "CouplingPortScheduler"]);
  ("writeCouplingPortSchedulerCouplingPortStructuralElement", tbase [BObj "CouplingPortScheduler"; BObj "CouplingPortFifo"]);
  ("writeClientServerInterface", tbase [BObj "ClientServerInterface"]);
  ("writeClientServerInterfaceOperations", tbase [BObj "ClientServerInterface"]);
  ("writeClientServerInterfaceMapping", tbase [BObj "ClientServerInterfaceMapping"]);
  ("writeClientServerInterfaceMappingOperationMappings", tbase [BObj "ClientServerInterfaceMapping"]);
  ("writeClientServerOperation", tbase [BObj "ClientServerOperation"]);
  ("writeClientServerOperationArguments", tbase [BObj "ClientServerOperation"]);
  ("writeClientServerOperationPossibleErrorRefs", tbase [BObj "ClientServerOperation"]);
  ("writeClientServerOperationMapping", tbase [BObj "ClientServerOperationMapping"]);
  ("writeClientServerAnnotation", tbase [BObj "ClientServerAnnotation"]);
  ("writeClientComSpec", tbase [BObj "ClientComSpec"]);
  ("writeCanTpConfig", tbase [BObj "CanTpConfig"]);
  ("writeCanTpConfigTpAddresses", tbase [BObj "CanTpConfig"]);
  ("writeCanTpConfigTpChannels", tbase [BObj "CanTpConfig"]);
  ("writeCanTpConfigTpConnections", tbase [BObj "CanTpConfig"]);
  ("writeCanTpConfigTpEcus", tbase [BObj "CanTpConfig"]);
  ("writeCanTpConfigTpNodes", tbase [BObj "CanTpConfig"]);
  ("writeCanTpConnection", tbase [BObj "CanTpConnection"]);
  ("writeCanTpChannel", tbase [BObj "CanTpChannel"]);
  ("writeCanTpAddress", tbase [BObj "CanTpAddress"]);
  ("writeCanTpEcu", tbase [BObj "CanTpEcu"]);
  ("writeCanTpNode", tbase [BObj "CanTpNode"]);
  ("writeCanCluster", tbase [BObj "CanCluster"]);
  ("writeCanCommunicationController", tbase [BObj "CanCommunicationController"]);
  ("writeCanCommunicationConnector", tbase [BObj "CanCommunicationConnector"]);
  ("writeCanControllerConfigurationRequirements", tbase [BObj "CanControllerConfigurationRequirements"]);
  ("writeCanFrame", tbase [BObj "CanFrame"]);
  ("writeCanFrameTriggering", tbase [BObj "CanFrameTriggering"]);
  ("writeCanNmCluster", tbase [BObj "CanNmCluster"]);
  ("writeCanNmClusterCoupling", tbase [BObj "CanNmClusterCoupling"]);
  ("writeCanNmNode", tbase [BObj "CanNmNode"]);
  ("writeCanPhysicalChannel", tbase [BObj "CanPhysicalChannel"]);
  ("writeCanEnterRefs", tbase [BObj "BswInterruptEntity"; BObj "BswSchedulableEntity"; BObj "BswCalledEntity"; BObj "RunnableEntity"]);
  ("writeChapter", tbase [BObj "Chapter"]);
  ("writeChapterModel", tbase [BObj "ChapterModel"]);
  ("writeChapterContent", tbase [BObj "ChapterContent"]);
  ("writeCryptoServiceNeeds", tbase [BObj "CryptoServiceNeeds"]);
  ("writeCycleRepetition", tbase [BObj "CycleRepetition"]);
  ("writeEndToEndProtection", tbase [BObj "EndToEndProtection"]);
  ("writeEndToEndProtectionSet", tbase [BObj "EndToEndProtectionSet"]);
  ("writeEndToEndProtections", tbase [BObj "EndToEndProtectionSet"]);
  ("writeEndToEndProtectionEndToEndProtectionISignalIPdus", tbase [BObj "EndToEndProtection"]);
  ("writeEndToEndProtectionEndToEndProtectionVariablePrototypes", tbase [BObj "EndToEndProtection"]);
  ("writeEndToEndProtectionISignalIPdu", tbase [BObj "EndToEndProtectionISignalIPdu"]);
  ("writeEndToEndProtectionVariablePrototype", tbase [BObj "EndToEndProtectionVariablePrototype"]);
  ("writeEndToEndTransformationISignalProps", tbase [BObj "EndToEndTransformationISignalProps"]);
  ("writeEndToEndTransformationISignalPropsDataIds", tbase [BObj "EndToEndTransformationISignalProps"]);
  ("writeEndToEndTransformationDescription", tbase [BObj "EndToEndTransformationDescription"]);
  ("writeEndToEndTransformationComSpecProps", tbase [BObj "EndToEndTransformationComSpecProps"]);
  ("writeEndToEndDescriptionDataIds", tbase [BObj "EndToEndDescription"]);
  ("writeEngineeringObject", tbase [BObj "AutosarEngineeringObject"]);
  ("writeEcuAbstractionSwComponentType", tbase [BObj "EcuAbstractionSwComponentType"]);
  ("writeEcuInstance", tbase [BObj "EcuInstance"]);
  ("writeEcuInstanceAssociatedComIPduGroupRefs", tbase [BObj "EcuInstance"]);
  ("writeEcuInstanceAssociatedConsumedProvidedServiceInstanceGroupRefs", tbase [BObj "EcuInstance"]);
  ("writeEcuInstanceAssociatedPdurIPduGroupRefs", tbase [BObj "EcuInstance"]);
  ("writeEcuInstanceCommControllers", tbase [BObj "EcuInstance"]);
  ("writeEcuInstanceConnectors", tbase [BObj "EcuInstance"]);
  ("writeEcuInstanceEcuTaskProxyRefs", tbase [BObj "EcuInstance"]);
  ("writeEcuInstanceFirewallRuleRefs", tbase [BObj "EcuInstance"]);
  ("writeEcucModuleDef", tbase [BObj "EcucModuleDef"]);
  ("writeEcucModuleDefSupportedConfigVariants", tbase [BObj "EcucModuleDef"]);
  ("writeEcucModuleDefContainers", tbase [BObj "EcucModuleDef"]);
  ("writeEcucModuleConfigurationValues", tbase [BObj "EcucModuleConfigurationValues"]);
  ("writeEcucModuleConfigurationValuesContainers", tbase [BObj "EcucModuleConfigurationValues"]);
  ("writeEcucMultilineStringParamDef", tbase [BObj "EcucMultilineStringParamDef"]);
  ("writeEcucMultiplicityConfigurationClass", tbase [BObj "EcucMultiplicityConfigurationClass"]);
  ("writeEcucDefinitionCollection", tbase [BObj "EcucDefinitionCollection"]);
  ("writeEcucDefinitionCollectionModuleRefs", tbase [BObj "EcucDefinitionCollection"]);
  ("writeEcucDefinitionElement", tbase [BObj "EcucInstanceReferenceDef"; BObj "EcucChoiceReferenceDef"; BObj "EcucReferenceDef"; BObj "EcucSymbolicNameReferenceDef"; BObj "EcucMultilineStringParamDef"; BObj "EcucFunctionNameDef"; BObj "EcucEnumerationParamDef"; BObj "EcucFloatParamDef"; BObj "EcucIntegerParamDef"; BObj "EcucStringParamDef"; BObj "EcucBooleanParamDef"; BObj "EcucChoiceContainerDef"; BObj "EcucParamConfContainerDef"; BObj "EcucModuleDef"]);
  ("writeEcucDestinationUriDef", tbase [BObj "EcucDestinationUriDef"]);
  ("writeEcucDestinationUriDefSet", tbase [BObj "EcucDestinationUriDefSet"]);
  ("writeEcucDestinationUriPolicy", o_obj "EcucDestinationUriPolicy");
  ("writeEcucDestinationUriPolicyParameters", tbase [BObj "EcucDestinationUriPolicy"]);
  ("writeEcucDestinationUriPolicyReferences", tbase [BObj "EcucDestinationUriPolicy"]);
  ("writeEcucDerivationSpecification", o_obj "EcucDerivationSpecification");
  ("writeEcucConditionSpecification", o_obj "EcucConditionSpecification");
  ("writeEcucConditionFormula", o_obj "EcucConditionFormula");
  ("writeEcucContainValue", tbase [BObj "EcucContainerValue"]);
  ("writeEcucContainerDef", tbase [BObj "EcucChoiceContainerDef"; BObj "EcucParamConfContainerDef"]);
  ("writeEcucContainerDefParameters", tbase [BObj "EcucParamConfContainerDef"]);
  ("writeEcucContainerDefReferences", tbase [BObj "EcucParamConfContainerDef"]);
  ("writeEcucContainerDefSubContainers", tbase [BObj "EcucParamConfContainerDef"]);
  ("writeEcucContainerValueParameterValues", tbase [BObj "EcucContainerValue"]);
  ("writeEcucContainerValueReferenceValues", tbase [BObj "EcucContainerValue"]);
  ("writeEcucContainerValueSubContainers", tbase [BObj "EcucContainerValue"]);
  ("writeEcucCommonAttributes", tbase [BObj "EcucInstanceReferenceDef"; BObj "EcucChoiceReferenceDef"; BObj "EcucReferenceDef"; BObj "EcucSymbolicNameReferenceDef"; BObj "EcucMultilineStringParamDef"; BObj "EcucFunctionNameDef"; BObj "EcucEnumerationParamDef"; BObj "EcucFloatParamDef"; BObj "EcucIntegerParamDef"; BObj "EcucStringParamDef"; BObj "EcucBooleanParamDef"]);
  ("writeEcucChoiceContainerDef", tbase [BObj "EcucChoiceContainerDef"]);
  ("writeEcucChoiceContainerDefChoices", tbase [BObj "EcucChoiceContainerDef"]);
  ("writeEcucChoiceReferenceDef", tbase [BObj "EcucChoiceReferenceDef"]);
  ("writeEcucValidationCondition", tbase [BObj "EcucValidationCondition"]);
  ("writeEcucValidationConditions", l_obj "EcucValidationCondition");
  ("writeEcucValueConfigurationClass", tbase [BObj "EcucValueConfigurationClass"]);
  ("writeEcucParamConfContainerDef", tbase [BObj "EcucParamConfContainerDef"]);
  ("writeEcucParameterDef", tbase [BObj "EcucMultilineStringParamDef"; BObj "EcucFunctionNameDef"; BObj "EcucEnumerationParamDef"; BObj "EcucFloatParamDef"; BObj "EcucIntegerParamDef"; BObj "EcucStringParamDef"; BObj "EcucBooleanParamDef"]);
  ("writeEcucParameterDerivationFormula", o_obj "EcucParameterDerivationFormula");
  ("writeEcucParameterValue", tbase [BObj "EcucNumericalParamValue"; BObj "EcucTextualParamValue"]);
  ("writeEcucQuery", tbase [BObj "EcucQuery"]);
  ("writeEcucBooleanParamDef", tbase [BObj "EcucBooleanParamDef"]);
  ("writeEcucStringParamDef", tbase [BObj "EcucStringParamDef"]);
  ("writeEcucSymbolicNameReferenceDef", tbase [BObj "EcucSymbolicNameReferenceDef"]);
  ("writeEcucIntegerParamDef", tbase [BObj "EcucIntegerParamDef"]);
  ("writeEcucInstanceReferenceDef", tbase [BObj "EcucInstanceReferenceDef"]);
  ("writeEcucFloatParamDef", tbase [BObj "EcucFloatParamDef"]);
  ("writeEcucFunctionNameDef", tbase [BObj "EcucFunctionNameDef"]);
  ("writeEcucEnumerationParamDef", tbase [BObj "EcucEnumerationParamDef"]);
  ("writeEcucEnumerationParamDefLiterals", tbase [BObj "EcucEnumerationParamDef"]);
  ("writeEcucEnumerationLiteralDef", tbase [BObj "EcucEnumerationLiteralDef"]);
  ("writeEcucReferenceDef", tbase [BObj "EcucReferenceDef"]);
  ("writeEcucAbstractStringParamDef", tbase [BObj "EcucMultilineStringParamDef"; BObj "EcucFunctionNameDef"; BObj "EcucStringParamDef"]);
  ("writeEcucAbstractInternalReferenceDef", tbase [BObj "EcucChoiceReferenceDef"; BObj "EcucReferenceDef"; BObj "EcucSymbolicNameReferenceDef"]);
  ("writeEcucAbstractExternalReferenceDef", tbase [BObj "EcucInstanceReferenceDef"]);
  ("writeEcucAbstractReferenceValue", tbase [BObj "EcucReferenceValue"]);
  ("writeEcucAbstractReferenceDef", tbase [BObj "EcucInstanceReferenceDef"; BObj "EcucChoiceReferenceDef"; BObj "EcucReferenceDef"; BObj "EcucSymbolicNameReferenceDef"]);
  ("writeEcucAbstractConfigurationClass", tbase [BObj "EcucValueConfigurationClass"; BObj "EcucMultiplicityConfigurationClass"]);
  ("writeEcuMapping", tbase [BObj "ECUMapping"]);
  ("writeEcuStateMgrUserNeeds", tbase [BObj "EcuStateMgrUserNeeds"]);
  ("writeEthernetCluster", tbase [BObj "EthernetCluster"]);
  ("writeEthernetClusterMacMulticastGroups", tbase [BObj "EthernetCluster"]);
  ("writeEthernetCommunicationController", tbase [BObj "EthernetCommunicationController"]);
  ("writeEthernetCommunicationControllerCouplingPorts", tbase [BObj "EthernetCommunicationController"]);
  ("writeEthernetCommunicationConnector", tbase [BObj "EthernetCommunicationConnector"]);
  ("writeEthernetCommunicationConnectorNetworkEndpointRefs", tbase [BObj "EthernetCommunicationConnector"]);
  ("writeEthernetPhysicalChannel", tbase [BObj "EthernetPhysicalChannel"]);
  ("writeEthernetPhysicalChannelNetworkEndPoints", l_obj "NetworkEndpoint");
  ("writeEthernetPhysicalChannelVlan", tbase [BObj "EthernetPhysicalChannel"]);
  ("writeEthernetPriorityRegeneration", tbase [BObj "EthernetPriorityRegeneration"]);
  ("writeE2EProfileCompatibilityProps", tbase [BObj "E2EProfileCompatibilityProps"]);
  ("writeExecutionTime", tbase [BObj "SimulatedExecutionTime"; BObj "RoughEstimateOfExecutionTime"; BObj "MeasuredExecutionTime"; BObj "AnalyzedExecutionTime"]);
  ("writeExecutionTimes", tlist [BObj "SimulatedExecutionTime"; BObj "RoughEstimateOfExecutionTime"; BObj "MeasuredExecutionTime"; BObj "AnalyzedExecutionTime"]);
  ("writeExecutionOrderConstraint", tbase [BObj "ExecutionOrderConstraint"]);
  ("writeExecutionOrderConstraintOrderedElement", tbase [BObj "ExecutionOrderConstraint"]);
  ("writeExecutableEntity", tbase [BObj "BswInterruptEntity"; BObj "BswSchedulableEntity"; BObj "BswCalledEntity"; BObj "RunnableEntity"]);
  ("writeExecutableEntityActivationReason", tbase [BObj "ExecutableEntityActivationReason"]);
  ("writeExclusiveAreas", tbase [BObj "SwcInternalBehavior"; BObj "BswInternalBehavior"]);
  ("writeExclusiveAreaNestingOrders", tbase [BObj "SwcInternalBehavior"; BObj "BswInternalBehavior"]);
  ("writeExclusiveAreaNestingOrderRefs", tbase [BObj "BswInterruptEntity"; BObj "BswSchedulableEntity"; BObj "BswCalledEntity"; BObj "RunnableEntity"]);
  ("writeEOCExecutableEntityRef", tbase [BObj "EOCExecutableEntityRef"]);
  ("writeErrorTracerNeeds", tbase [BObj "ErrorTracerNeeds"]);
  ("writeEventHandler", tbase [BObj "EventHandler"]);
  ("writeUnit", tbase [BObj "Unit"]);
  ("writeUserDefinedIPdu", tbase [BObj "UserDefinedIPdu"]);
  ("writeUserDefinedPdu", tbase [BObj "UserDefinedPdu"]);
  ("writeUserDefinedTransformationComSpecProps", tbase [BObj "UserDefinedTransformationComSpecProps"]);
  ("writeUdpNmCluster", tbase [BObj "UdpNmCluster"]);
  ("writeUdpNmClusterCoupling", tbase [BObj "UdpNmClusterCoupling"]);
  ("writeUdpNmEcu", tbase [BObj "UdpNmEcu"]);
  ("writeUdpNmNode", tbase [BObj "UdpNmNode"]);
  ("writeUdpTp", tbase [BObj "UdpTp"]);
  ("writeBswModuleDescription", tbase [BObj "BswModuleDescription"]);
  ("writeBswModuleDescriptionImplementedEntryRefs", tbase [BObj "BswModuleDescription"]);
  ("writeBswModuleDescriptionInternalBehaviors", tbase [BObj "BswModuleDescription"]);
  ("writeBswModuleDescriptionProvidedModeGroups", tbase [BObj "BswModuleDescription"]);
  ("writeBswModuleDescriptionProvidedClientServerEntries", tbase [BObj "BswModuleDescription"]);
  ("writeBswModuleDescriptionProvidedDatas", tbase [BObj "BswModuleDescription"]);
  ("writeBswModuleDescriptionRequiredModeGroups", tbase [BObj "BswModuleDescription"]);
  ("writeBswModuleDescriptionRequiredClientServerEntries", tbase [BObj "BswModuleDescription"]);
  ("writeBswModuleDescriptionRequiredDatas", tbase [BObj "BswModuleDescription"]);
  ("writeBswModuleDescriptionReleasedTriggers", tbase [BObj "BswModuleDescription"]);
  ("writeBswModuleDescriptionExpectedEntryRefs", tbase [BObj "BswModuleDescription"]);
  ("writeBswModuleDescriptionBswModuleDependencies", tbase [BObj "BswModuleDescription"]);
  ("writeBswModuleDescriptionBswModuleDocumentation", tbase [BObj "BswModuleDescription"]);
  ("writeBswModuleEntry", tbase [BObj "BswModuleEntry"]);
  ("writeBswModuleEntryReturnType", tbase [BObj "BswModuleEntry"]);
  ("writeBswModuleEntryArguments", tbase [BObj "BswModuleEntry"]);
  ("writeBswModuleEntity", tbase [BObj "BswInterruptEntity"; BObj "BswSchedulableEntity"; BObj "BswCalledEntity"]);
  ("writeBswModuleEntityAccessedModeGroups", tbase [BObj "BswInterruptEntity"; BObj "BswSchedulableEntity"; BObj "BswCalledEntity"]);
  ("writeBswModuleEntityActivationPointRefs", tbase [BObj "BswInterruptEntity"; BObj "BswSchedulableEntity"; BObj "BswCalledEntity"]);
  ("writeBswModuleEntityCallPoints", tbase [BObj "BswInterruptEntity"; BObj "BswSchedulableEntity"; BObj "BswCalledEntity"]);
  ("writeBswModuleEntityDataSendPoints", tbase [BObj "BswInterruptEntity"; BObj "BswSchedulableEntity"; BObj "BswCalledEntity"]);
  ("writeBswModuleEntityDataReceivePoints", tbase [BObj "BswInterruptEntity"; BObj "BswSchedulableEntity"; BObj "BswCalledEntity"]);
  ("writeBswModuleEntityManagedModeGroups", tbase [BObj "BswInterruptEntity"; BObj "BswSchedulableEntity"; BObj "BswCalledEntity"]);
  ("writeBswModuleEntityIssuedTriggerRefs", tbase [BObj "BswInterruptEntity"; BObj "BswSchedulableEntity"; BObj "BswCalledEntity"]);
  ("writeBswModuleClientServerEntry", tbase [BObj "BswModuleClientServerEntry"]);
  ("writeBswModuleCallPoint", tbase [BObj "BswSynchronousServerCallPoint"; BObj "BswAsynchronousServerCallPoint"]);
  ("writeBswModeSwitchEvent", tbase [BObj "BswModeSwitchEvent"]);
  ("writeBswModeSwitchedAckEvent", tbase [BObj "BswModeSwitchedAckEvent"]);
  ("writeBswModeManagerErrorEvent", tbase [BObj "BswModeManagerErrorEvent"]);
  ("writeBswMgrNeeds", tbase [BObj "BswMgrNeeds"]);
  ("writeBswImplementation", tbase [BObj "BswImplementation"]);
  ("writeBswImplementationPreconfiguredConfigurationRefs", tbase [BObj "BswImplementation"]);
  ("writeBswImplementationRecommendedConfigurationRefs", tbase [BObj "BswImplementation"]);
  ("writeBswImplementationVendorSpecificModuleDefRefs", tbase [BObj "BswImplementation"]);
  ("writeBswInternalBehavior", tbase [BObj "BswInternalBehavior"]);
  ("writeBswInternalBehaviorInternalTriggeringPoints", tbase [BObj "BswInternalBehavior"]);
  ("writeBswInternalBehaviorIncludedModeDeclarationGroupSets", tbase [BObj "BswInternalBehavior"]);
  ("writeBswInternalBehaviorEntities", tbase [BObj "BswInternalBehavior"]);
  ("writeBswInternalBehaviorEvents", tbase [BObj "BswInternalBehavior"]);
  ("writeBswInternalBehaviorModeSenderPolicy", tbase [BObj "BswInternalBehavior"]);
  ("writeBswInternalBehaviorReceptionPolicies", tbase [BObj "BswInternalBehavior"]);
  ("writeBswInternalBehaviorServiceDependencies", tbase [BObj "BswInternalBehavior"]);
  ("writeBswInternalTriggeringPoint", tbase [BObj "BswInternalTriggeringPoint"]);
  ("writeBswInternalTriggerOccurredEvent", tbase [BObj "BswInternalTriggerOccurredEvent"]);
  ("writeBswCalledEntity", tbase [BObj "BswCalledEntity"]);
  ("writeBswSchedulableEntity", tbase [BObj "BswSchedulableEntity"]);
  ("writeBswScheduleEvent", tbase [BObj "BswAsynchronousServerCallReturnsEvent"; BObj "BswModeSwitchedAckEvent"; BObj "BswModeManagerErrorEvent"; BObj "BswModeSwitchEvent"; BObj "BswDataReceivedEvent"; BObj "BswExternalTriggerOccurredEvent"; BObj "BswInternalTriggerOccurredEvent"; BObj "BswBackgroundEvent"; BObj "BswTimingEvent"]);
  ("writeBswServiceDependency", tbase [BObj "BswServiceDependency"]);
  ("writeBswServiceDependencyIdent", tbase [BObj "BswServiceDependencyIdent"]);
  ("writeBswServiceDependencyAssignedData", tbase [BObj "BswServiceDependency"]);
  ("writeBswServiceDependencyAssignedEntryRoles", tbase [BObj "BswServiceDependency"]);
  ("writeBswServiceDependencyServiceNeeds", tbase [BObj "BswServiceDependency"]);
  ("writeBswSynchronousServerCallPoint", tbase [BObj "BswSynchronousServerCallPoint"]);
  ("writeBswTimingEvent", tbase [BObj "BswTimingEvent"]);
  ("writeBswBackgroundEvent", tbase [BObj "BswBackgroundEvent"]);
  ("writeBswExternalTriggerOccurredEvent", tbase [BObj "BswExternalTriggerOccurredEvent"]);
  ("writeBswEvent", tbase [BObj "BswAsynchronousServerCallReturnsEvent"; BObj "BswModeSwitchedAckEvent"; BObj "BswModeManagerErrorEvent"; BObj "BswModeSwitchEvent"; BObj "BswDataReceivedEvent"; BObj "BswExternalTriggerOccurredEvent"; BObj "BswInternalTriggerOccurredEvent"; BObj "BswBackgroundEvent"; BObj "BswTimingEvent"; BObj "BswOperationInvokedEvent"]);
  ("writeBswDataReceivedEvent", tbase [BObj "BswDataReceivedEvent"]);
  ("writeBswDataReceptionPolicy", tbase [BObj "BswQueuedDataReceptionPolicy"]);
  ("writeBswOperationInvokedEvent", tbase [BObj "BswOperationInvokedEvent"]);
  ("writeBswAsynchronousServerCallReturnsEvent", tbase [BObj "BswAsynchronousServerCallReturnsEvent"]);
  ("writeBswAsynchronousServerCallPoint", tbase [BObj "BswAsynchronousServerCallPoint"]);
  ("writeBswApiOptions", tbase [BObj "BswQueuedDataReceptionPolicy"]);
  ("writeBswQueuedDataReceptionPolicy", tbase [BObj "BswQueuedDataReceptionPolicy"]);
  ("writeBswVariableAccess", tbase [BObj "BswVariableAccess"]);
  ("writeBulkNvDataDescriptor", tbase [BObj "BulkNvDataDescriptor"]);
  ("writeBusDependentNmEcus", tbase [BObj "NmEcu"]);
  ("writeBlueprintGenerator", o_obj "BlueprintGenerator");
  ("writeBackgroundEvent", tbase [BObj "BackgroundEvent"]);
  ("writeTriggerInterface", tbase [BObj "TriggerInterface"]);
  ("writeTriggerPortAnnotation", tbase [BObj "TriggerPortAnnotation"]);
  ("writeTransformationTechnology", tbase [BObj "TransformationTechnology"]);
  ("writeTransformationTechnologyTransformationDescriptions", tbase [BObj "TransformationTechnology"]);
  ("writeTransformationISignalProps", tbase [BObj "EndToEndTransformationISignalProps"]);
  ("writeTransformationDescription", tbase [BObj "EndToEndTransformationDescription"]);
  ("writeTransformationComSpecProps", tbase [BObj "UserDefinedTransformationComSpecProps"; BObj "EndToEndTransformationComSpecProps"]);
  ("writeTransformationComSpecPropss", tlist [BObj "UserDefinedTransformationComSpecProps"; BObj "EndToEndTransformationComSpecProps"]);
  ("writeTransmissionAcknowledgementRequest", o_obj "TransmissionAcknowledgementRequest");
  ("writeTransmissionComSpecProps", o_obj "TransmissionComSpecProps");
  ("writeTransportProtocolConfiguration", tbase [BObj "UdpTp"; BObj "TcpTp"; BObj "GenericTp"; BNone]);
  ("writeTracedFailure", tbase [BObj "TransientFault"; BObj "RuntimeError"; BObj "DevelopmentError"]);
  ("writeTimingExtension", tbase [BObj "SwcTiming"]);
  ("writeTimingEvent", tbase [BObj "TimingEvent"]);
  ("writeTimingRequirements", tbase [BObj "SwcTiming"]);
  ("writeTpConfig", tbase [BObj "DoIpTpConfig"; BObj "LinTpConfig"; BObj "CanTpConfig"]);
  ("writeTpConnection", tbase [BObj "DoIpTpConnection"; BObj "LinTpConnection"; BObj "CanTpConnection"]);
  ("writeTpConnectionReceiverRefs", tbase [BObj "LinTpConnection"; BObj "CanTpConnection"]);
  ("writeTpAddress", tbase [BObj "TpAddress"]);
  ("writeTextValueSpecification", tbase [BObj "TextValueSpecification"]);
  ("writeTopic1", tbase [BObj "Topic1"]);
  ("writeTopicContent", tbase [BObj "TopicContent"]);
  ("writeTopicContentOrMsrQuery", o_obj "TopicContentOrMsrQuery");
  ("writeTcpTp", tbase [BObj "TcpTp"]);
  ("writeNvBlockSwComponentType", tbase [BObj "NvBlockSwComponentType"]);
  ("writeNvBlockDescriptor", tbase [BObj "NvBlockDescriptor"]);
  ("writeNvBlockDataMapping", tbase [BObj "NvBlockDataMapping"]);
  ("writeNvBlockNeeds", tbase [BObj "NvBlockNeeds"]);
  ("writeNvDataInterface", tbase [BObj "NvDataInterface"]);
  ("writeNvDataInterfaceNvDatas", tbase [BObj "NvDataInterface"]);
  ("writeNvDataPortAnnotation", tbase [BObj "NvDataPortAnnotation"]);
  ("writeNvProvideComSpec", tbase [BObj "NvProvideComSpec"]);
  ("writeNvRequireComSpec", tbase [BObj "NvRequireComSpec"]);
  ("writeNmConfig", tbase [BObj "NmConfig"]);
  ("writeNmConfigNmClusters", tbase [BObj "NmConfig"]);
  ("writeNmConfigNmClusterCouplings", tbase [BObj "NmConfig"]);
  ("writeNmConfigNmIfEcus", tbase [BObj "NmConfig"]);
  ("writeNmCluster", tbase [BObj "UdpNmCluster"; BObj "CanNmCluster"]);
  ("writeNmClusterNmNodes", tbase [BObj "UdpNmCluster"; BObj "CanNmCluster"]);
  ("writeNmPdu", tbase [BObj "NmPdu"]);
  ("writeNmPduISignalToIPduMappings", tbase [BObj "NmPdu"]);
  ("writeNmEcu", tbase [BObj "NmEcu"]);
  ("writeNmNode", tbase [BObj "J1939NmNode"; BObj "UdpNmNode"; BObj "CanNmNode"]);
  ("writeNPdu", tbase [BObj "NPdu"]);
  ("writeNumericalValueSpecification", tbase [BObj "NumericalValueSpecification"]);
  ("writeNumericalOrText", o_obj "NumericalOrText");
  ("writeNetworkEndPoint", tbase [BObj "NetworkEndpoint"]);
  ("writeNetworkEndPointNetworkEndPointAddresses", l_obj "Ipv6Configuration");
  ("writeNonqueuedSenderComSpec", tbase [BObj "NonqueuedSenderComSpec"]);
  ("writeNonqueuedReceiverComSpec", tbase [BObj "NonqueuedReceiverComSpec"]);
  ("writeLinUnconditionalFrame", tbase [BObj "LinUnconditionalFrame"]);
  ("writeLinTpConfig", tbase [BObj "LinTpConfig"]);
  ("writeLinTpConfigTpAddresses", tbase [BObj "LinTpConfig"]);
  ("writeLinTpConfigTpConnections", tbase [BObj "LinTpConfig"]);
  ("writeLinTpConfigTpNodes", tbase [BObj "LinTpConfig"]);
  ("writeLinTpConnection", tbase [BObj "LinTpConnection"]);
  ("writeLinTpNode", tbase [BObj "LinTpNode"]);
  ("writeLinCluster", tbase [BObj "LinCluster"]);
  ("writeLinCommunicationConnector", tbase [BObj "LinCommunicationConnector"]);
  ("writeLinCommunicationController", tbase [BObj "LinMaster"]);
  ("writeLinker", tbase [BObj "Linker"]);
  ("writeLinkers", tbase [BObj "BswImplementation"; BObj "SwcImplementation"]);
  ("writeLinMaster", tbase [BObj "LinMaster"]);
  ("writeLinPhysicalChannel", tbase [BObj "LinPhysicalChannel"]);
  ("writeLinPhysicalChannelScheduleTables", tbase [BObj "LinPhysicalChannel"]);
  ("writeLinScheduleTable", tbase [BObj "LinScheduleTable"]);
  ("writeLinScheduleTableTableEntries", tbase [BObj "LinScheduleTable"]);
  ("writeLinFrameTriggering", tbase [BObj "LinFrameTriggering"]);
  ("writeLifeCycleInfo", tbase [BObj "LifeCycleInfo"]);
  ("writeLifeCycleInfoSet", tbase [BObj "LifeCycleInfoSet"]);
  ("writeLifeCycleInfoSetLifeCycleInfos", tbase [BObj "LifeCycleInfoSet"]);
  ("writeLifeCycleInfoUseInsteadRefs", tbase [BObj "LifeCycleInfo"]);
  ("writeLParagraphs", tbase [BObj "MultiLanguageParagraph"]);
  ("writeParameterInterface", tbase [BObj "ParameterInterface"]);
  ("writeParameterDataPrototype", tbase [BObj "ParameterDataPrototype"]);
  ("writeParameterPortAnnotation", tbase [BObj "ParameterPortAnnotation"]);
  ("writeParameterProvideComSpec", tbase [BObj "ParameterProvideComSpec"]);
  ("writeParameterRequireComSpec", tbase [BObj "ParameterRequireComSpec"]);
  ("writeParameterAccess", tbase [BObj "ParameterAccess"]);
  ("writePaginateable", tbase [BObj "MlFigure"; BObj "MlFormula"]);
  ("writePassThroughSwConnector", tbase [BObj "PassThroughSwConnector"]);
  ("writePhysicalDimension", tbase [BObj "PhysicalDimension"]);
  ("writePhysicalChannel", tbase [BObj "FlexrayPhysicalChannel"; BObj "EthernetPhysicalChannel"; BObj "LinPhysicalChannel"; BObj "CanPhysicalChannel"]);
  ("writePhysicalChannelCommConnectorRefs", tbase [BObj "FlexrayPhysicalChannel"; BObj "EthernetPhysicalChannel"; BObj "LinPhysicalChannel"; BObj "CanPhysicalChannel"]);
  ("writePhysicalChannelFrameTriggerings", tbase [BObj "FlexrayPhysicalChannel"; BObj "EthernetPhysicalChannel"; BObj "LinPhysicalChannel"; BObj "CanPhysicalChannel"]);
  ("writePhysicalChannelISignalTriggerings", tbase [BObj "FlexrayPhysicalChannel"; BObj "EthernetPhysicalChannel"; BObj "LinPhysicalChannel"; BObj "CanPhysicalChannel"]);
  ("writePhysicalChannelPduTriggerings", tbase [BObj "FlexrayPhysicalChannel"; BObj "EthernetPhysicalChannel"; BObj "LinPhysicalChannel"; BObj "CanPhysicalChannel"]);
  ("writePortInterface", tbase [BObj "NvDataInterface"; BObj "ParameterInterface"; BObj "ModeSwitchInterface"; BObj "ClientServerInterface"]);
  ("writePortInterfaceMappingSet", tbase [BObj "PortInterfaceMappingSet"]);
  ("writePortInterfaceMappings", tbase [BObj "PortInterfaceMappingSet"]);
  ("writePortPrototypeBlueprint", tbase [BObj "PortPrototypeBlueprint"]);
  ("writePortGroup", tbase [BObj "PortGroup"]);
  ("writePortGroupInnerGroupIRefs", tbase [BObj "PortGroup"]);
  ("writePortGroupOuterPortRefs", tbase [BObj "PortGroup"]);
  ("writePortDefinedArgumentValues", l_obj "PortDefinedArgumentValue");
  ("writePostBuildVariantCriterion", tbase [BObj "PostBuildVariantCriterion"]);
  ("writePostBuildVariantCondition", tbase [BObj "PostBuildVariantCondition"]);
  ("writePossibleErrors", tbase [BObj "ClientServerInterface"]);
  ("writePredefinedVariant", tbase [BObj "PredefinedVariant"]);
  ("writePredefinedVariantIncludedVariantRefs", tbase [BObj "PredefinedVariant"]);
  ("writePredefinedVariantPostBuildVariantCriterionValueSetRefs", tbase [BObj "PredefinedVariant"]);
  ("writePredefinedVariantSwSystemconstantValueSetRefs", tbase [BObj "PredefinedVariant"]);
  ("writePredefinedChapter", tbase [BObj "PredefinedChapter"]);
  ("writeProvidedServiceInstance", tbase [BObj "ProvidedServiceInstance"]);
  ("writeProvidedServiceInstanceEventHandlers", tbase [BObj "ProvidedServiceInstance"]);
  ("writePdu", tbase [BObj "GeneralPurposeIPdu"; BObj "UserDefinedIPdu"; BObj "MultiplexedIPdu"; BObj "SecuredIPdu"; BObj "DcmIPdu"; BObj "GeneralPurposePdu"; BObj "UserDefinedPdu"; BObj "NPdu"; BObj "NmPdu"]);
  ("writePduToFrameMappings", tbase [BObj "FlexrayFrame"; BObj "GenericEthernetFrame"; BObj "CanFrame"; BObj "LinUnconditionalFrame"]);
  ("writePduTriggering", tbase [BObj "PduTriggering"]);
  ("writePPortPrototype", tbase [BObj "PPortPrototype"]);
  ("writePPortComSpec", tbase [BObj "ModeSwitchSenderComSpec"; BObj "ParameterProvideComSpec"; BObj "NvProvideComSpec"; BObj "QueuedSenderComSpec"; BObj "ServerComSpec"; BObj "NonqueuedSenderComSpec"]);
  ("writePRPortPrototype", tbase [BObj "PRPortPrototype"]);
  ("writePTriggerInAtomicSwcTypeInstanceRef", o_obj "PTriggerInAtomicSwcTypeInstanceRef");
  ("writePModeGroupInAtomicSWCInstanceRef", tbase [BObj "PModeGroupInAtomicSwcInstanceRef"]);
  ("writeFlatMap", tbase [BObj "FlatMap"]);
  ("writeFlatMapInstances", tbase [BObj "FlatMap"]);
  ("writeFlexrayFrame", tbase [BObj "FlexrayFrame"]);
  ("writeFlexrayFrameTriggering", tbase [BObj "FlexrayFrameTriggering"]);
  ("writeFlexrayFrameTriggeringAbsolutelyScheduledTimings", tbase [BObj "FlexrayFrameTriggering"]);
  ("writeFlexrayCluster", tbase [BObj "FlexrayCluster"]);
  ("writeFlexrayCommunicationController", tbase [BObj "FlexrayCommunicationController"]);
  ("writeFlexrayCommunicationConnector", tbase [BObj "FlexrayCommunicationConnector"]);
  ("writeFlexrayPhysicalChannel", tbase [BObj "FlexrayPhysicalChannel"]);
  ("writeFlexrayAbsolutelyScheduledTiming", tbase [BObj "FlexrayAbsolutelyScheduledTiming"]);
  ("writeFlexrayAbsolutelyScheduledTimingCommunicationCycle", tbase [BObj "FlexrayAbsolutelyScheduledTiming"]);
  ("writeFrame", tbase [BObj "FlexrayFrame"; BObj "GenericEthernetFrame"; BObj "CanFrame"; BObj "LinUnconditionalFrame"]);
  ("writeFramePort", tbase [BObj "FramePort"]);
  ("writeFrameTriggering", tbase [BObj "FlexrayFrameTriggering"; BObj "LinFrameTriggering"; BObj "CanFrameTriggering"]);
  ("writeFunctionInhibitionAvailabilityNeeds", tbase [BObj "FunctionInhibitionAvailabilityNeeds"]);
  ("writeHwElement", tbase [BObj "HwElement"]);
  ("writeHwElementHwPinGroups", tbase [BObj "HwElement"]);
  ("writeHwElementHwElementConnections", tbase [BObj "HwElement"]);
  ("writeHwElementHwNestedElementRefs", tbase [BObj "HwElement"]);
  ("writeHwElementConnector", tbase [BObj "HwElementConnector"]);
  ("writeHwCategory", tbase [BObj "HwCategory"]);
  ("writeHwCategoryHwAttributeDef", tbase [BObj "HwCategory"]);
  ("writeHwType", tbase [BObj "HwType"]);
  ("writeHwDescriptionEntity", tbase [BObj "HwPinGroup"; BObj "HwElement"]);
  ("writeHwDescriptionEntityHwCategoryRefs", tbase [BObj "HwPinGroup"; BObj "HwElement"]);
  ("writeHwDescriptionEntityHwAttributeValues", tbase [BObj "HwPinGroup"; BObj "HwElement"]);
  ("writeHwPinGroup", tbase [BObj "HwPinGroup"]);
  ("writeHwPinGroupConnector", tbase [BObj "HwPinGroupConnector"]);
  ("writeHwPinConnector", tbase [BObj "HwPinConnector"]);
  ("writeHwAttributeDef", tbase [BObj "HwAttributeDef"]);
  ("writeHwAttributeDefHwAttributeLiterals", tbase [BObj "HwAttributeDef"]);
  ("writeHwAttributeValue", tbase [BObj "HwAttributeValue"]);
  ("writeHardwareElementRefs", tlist [BRef]);
  ("writeHeapUsage", tbase [BObj "WorstCaseHeapUsage"; BObj "RoughEstimateHeapUsage"; BObj "MeasuredHeapUsage"]);
  ("writeHeapUsages", tlist [BObj "WorstCaseHeapUsage"; BObj "RoughEstimateHeapUsage"; BObj "MeasuredHeapUsage"]);
  ("writeKeyword", tbase [BObj "Keyword"]);
  ("writeKeywordSet", tbase [BObj "KeywordSet"]);
  ("writeKeywordSetKeywords", tbase [BObj "KeywordSet"]);
  ("writeKeywordClassifications", tbase [BObj "Keyword"]);
  ("writeVariationPoint", o_obj "VariationPoint");
  ("writeVariationPointProxy", tbase [BObj "VariationPointProxy"]);
  ("writeVariableDataPrototype", tbase [BObj "VariableDataPrototype"]);
  ("writeVariableDataPrototypeInCompositionInstanceRef", tbase [BObj "VariableDataPrototypeInCompositionInstanceRef"]);
  ("writeVariableAndParameterInterfaceMapping", tbase [BObj "VariableAndParameterInterfaceMapping"]);
  ("writeVariableAccess", tbase [BObj "VariableAccess"]);
  ("writeVariableAccessInEcuInstanceRef", tbase [BObj "VariableAccessInEcuInstanceRef"]);
  ("writeValueSpecification", tbase [BObj "ArrayValueSpecification"; BObj "NumericalValueSpecification"; BObj "ConstantReference"; BObj "TextValueSpecification"; BObj "CompositeRuleBasedValueSpecification"; BObj "ApplicationRuleBasedValueSpecification"; BObj "ApplicationValueSpecification"]);
  ("writeVlanMembership", tbase [BObj "VlanMembership"]);
  ("writeWorstCaseHeapUsage", tbase [BObj "WorstCaseHeapUsage"]);
  ("writeOperationInvokedEvent", tbase [BObj "OperationInvokedEvent"]);
  ("writeObdInfoServiceNeeds", tbase [BObj "ObdInfoServiceNeeds"]);
  ("writeObdMonitorServiceNeeds", tbase [BObj "ObdMonitorServiceNeeds"]);
  ("writeObdPidServiceNeeds", tbase [BObj "ObdPidServiceNeeds"]);
  ("writeObdControlServiceNeeds", tbase [BObj "ObdControlServiceNeeds"]);
  ("writeObdRatioServiceNeeds", tbase [BObj "ObdRatioServiceNeeds"]);
  ("writeObdRatioDenominatorNeeds", tbase [BObj "ObdRatioDenominatorNeeds"]);
  ("writeJ1939NmNode", tbase [BObj "J1939NmNode"]);
  ("writeQueuedSenderComSpec", tbase [BObj "QueuedSenderComSpec"]);
  ("writeQueuedReceiverComSpec", tbase [BObj "QueuedReceiverComSpec"])].
