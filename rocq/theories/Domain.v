(** For every class of the model objects the round-trip theorems speak about: the attributes
    that survive writing and reading, with the values they may have.  An attribute that is not
    listed must have the value its constructor gives it (SpecDomain.v).  The classes are those
    the reader creates, starting from AUTOSAR; attributes are left out where the writer or the
    reader of /repo/src/armodel/{writer/arxml_writer.py,parser/arxml_parser.py} loses them. *)
From Coq Require Import String List.
From Verif Require Import PyBase Leaf Ir.
Import ListNotations.
Open Scope string_scope.

(** Values of an attribute; [must]: None is not allowed.
    [FLeaf must k]   None or an object of the primitive type that the reader [k] creates
    [FLeafs k]       a list of those
    [FWrap c]        None or a literal object of class c that has a value
    [FObj must cs]   None or an object of one of the classes
    [FObjs s cs]     a list of objects of these classes, in order of short name if [s]
    [FAttr must]     None or a string, kept in an XML attribute
    [FAttrOf c]      None or a literal object of class c, kept in an XML attribute
    [FText]          a string, kept in the text of the element
    [FTextOf c]      None or a literal object of class c whose text is not blank, kept there
    [FPart c]        an object of class c
    [FPartAny c]     None or an object of class c with at least one non-empty list
    [FName]          a non-empty short name *)
Inductive ftype :=
| FLeaf (must : bool) (k : rkind) | FLeafs (k : rkind) | FWrap (c : string)
| FObj (must : bool) (cs : list string) | FObjs (sorted : bool) (cs : list string)
| FAttr (must : bool) | FAttrOf (c : string) | FText | FTextOf (c : string)
| FPart (c : string) | FPartAny (c : string) | FName.

Definition domain : list (string * list (string * ftype)) :=
  [("ARList", [("items", FObjs false ["DocumentationBlock"]);
    ("type", FAttr false)]);
   ("ARPackage", [("short_name", FName);
    ("longName", FObj false ["MultilanguageLongName"]);
    ("annotations", FObjs false ["Annotation"]);
    ("adminData", FObj false ["AdminData"]);
    ("category", FLeaf false RLiteral);
    ("introduction", FObj false ["DocumentationBlock"]);
    ("desc", FObj false ["MultiLanguageOverviewParagraph"]);
    ("arPackages", FObjs true ["ARPackage"]);
    ("referenceBases", FObjs false ["ReferenceBase"]);
    ("elements", FObjs false ["ApplicationArrayDataType"; "ApplicationPrimitiveDataType"; "ApplicationRecordDataType"; "ApplicationSwComponentType"; "BswImplementation"; "BswModuleDescription"; "BswModuleEntry"; "CanCluster"; "CanFrame"; "CanTpConfig"; "ClientServerInterface"; "Collection"; "ComplexDeviceDriverSwComponentType"; "CompositionSwComponentType"; "CompuMethod"; "ConsistencyNeeds"; "ConstantSpecification"; "DataConstr"; "DataPrototypeGroup"; "DataTransformationSet"; "DataTypeMappingSet"; "DcmIPdu"; "DiagnosticConnection"; "DiagnosticServiceTable"; "DoIpTpConfig"; "Documentation"; "E2EProfileCompatibilityProps"; "EcuAbstractionSwComponentType"; "EcuInstance"; "EcucDefinitionCollection"; "EcucDestinationUriDefSet"; "EcucModuleConfigurationValues"; "EcucModuleDef"; "EndToEndProtectionSet"; "EthernetCluster"; "FlatMap"; "FlexrayCluster"; "FlexrayFrame"; "Gateway"; "GeneralPurposeIPdu"; "GeneralPurposePdu"; "GenericEthernetFrame"; "HwCategory"; "HwElement"; "HwType"; "ISignal"; "ISignalGroup"; "ISignalIPdu"; "ISignalIPduGroup"; "ImplementationDataType"; "KeywordSet"; "LifeCycleInfoSet"; "LinCluster"; "LinTpConfig"; "LinUnconditionalFrame"; "McFunction"; "McGroup"; "ModeDeclarationGroup"; "ModeSwitchInterface"; "MultiplexedIPdu"; "NPdu"; "NmConfig"; "NmPdu"; "NvBlockSwComponentType"; "NvDataInterface"; "ParameterInterface"; "PhysicalDimension"; "PortInterfaceMappingSet"; "PortPrototypeBlueprint"; "PostBuildVariantCriterion"; "PredefinedVariant"; "RunnableEntityGroup"; "SecureCommunicationPropsSet"; "SecuredIPdu"; "SenderReceiverInterface"; "SensorActuatorSwComponentType"; "ServiceProxySwComponentType"; "ServiceSwComponentType"; "SignalServiceTranslationPropsSet"; "SoAdRoutingGroup"; "SwAddrMethod"; "SwBaseType"; "SwRecordLayout"; "SwSystemconst"; "SwSystemconstantValueSet"; "SwcBswMapping"; "SwcImplementation"; "SwcTiming"; "System"; "SystemSignal"; "SystemSignalGroup"; "Unit"; "UserDefinedIPdu"; "UserDefinedPdu"]);
    ("timestamp", FAttr false);
    ("uuid", FAttr false)]);
   ("AUTOSAR", [("adminData", FObj false ["AdminData"]);
    ("arPackages", FObjs true ["ARPackage"])]);
   ("AccessCount", [("accessPointRef", FLeaf false RRef);
    ("value", FLeaf false RPositive)]);
   ("AccessCountSet", [("accessCounts", FObjs false ["AccessCount"]);
    ("countProfile", FLeaf false RLiteral)]);
   ("AdminData", [("DocRevisions", FObjs false ["DocRevision"]);
    ("language", FLeaf false RLiteral);
    ("sdgs", FObjs false ["Sdg"]);
    ("usedLanguages", FObj false ["MultiLanguagePlainText"]);
    ("timestamp", FAttr false);
    ("uuid", FAttr false)]);
   ("AnalyzedExecutionTime", [("bestCaseExecutionTime", FObj false ["MultidimensionalTime"]);
    ("worstCaseExecutionTime", FObj false ["MultidimensionalTime"]);
    ("exclusiveAreaRef", FLeaf false RRef);
    ("executableEntityRef", FLeaf false RRef);
    ("hardwareConfiguration", FObj false ["HardwareConfiguration"]);
    ("hwElementRef", FLeaf false RRef);
    ("includedLibraryRefs", FLeafs RRef);
    ("memorySectionLocations", FObjs false ["MemorySectionLocation"]);
    ("softwareContext", FObj false ["SoftwareContext"]);
    ("annotations", FObjs false ["Annotation"]);
    ("adminData", FObj false ["AdminData"]);
    ("category", FLeaf false RLiteral);
    ("introduction", FObj false ["DocumentationBlock"]);
    ("desc", FObj false ["MultiLanguageOverviewParagraph"]);
    ("variationPoint", FObj false ["VariationPoint"]);
    ("longName", FObj false ["MultilanguageLongName"]);
    ("short_name", FName);
    ("shortNameFragments", FObjs false ["ShortNameFragment"]);
    ("timestamp", FAttr false);
    ("uuid", FAttr false)]);
   ("Annotation", [("annotationOrigin", FLeaf false RLiteral);
    ("annotationText", FObj false ["DocumentationBlock"]);
    ("label", FObj false ["MultilanguageLongName"])]);
   ("AnyInstanceRef", [("baseRef", FLeaf false RRef);
    ("contextElementRefs", FLeafs RRef);
    ("targetRef", FLeaf false RRef)]);
   ("ApplicationArrayDataType", [("dynamicArraySizeProfile", FLeaf false RLiteral);
    ("element", FObj false ["ApplicationArrayElement"]);
    ("swDataDefProps", FObj false ["SwDataDefProps"]);
    ("annotations", FObjs false ["Annotation"]);
    ("adminData", FObj false ["AdminData"]);
    ("category", FLeaf false RLiteral);
    ("introduction", FObj false ["DocumentationBlock"]);
    ("desc", FObj false ["MultiLanguageOverviewParagraph"]);
    ("variationPoint", FObj false ["VariationPoint"]);
    ("longName", FObj false ["MultilanguageLongName"]);
    ("short_name", FName);
    ("shortNameFragments", FObjs false ["ShortNameFragment"]);
    ("timestamp", FAttr false);
    ("uuid", FAttr false)]);
   ("ApplicationArrayElement", [("arraySizeHandling", FLeaf false RLiteral);
    ("arraySizeSemantics", FLeaf false RLiteral);
    ("indexDataTypeRef", FLeaf false RRef);
    ("maxNumberOfElements", FLeaf false RNumerical);
    ("typeTRef", FLeaf false RRef);
    ("swDataDefProps", FObj false ["SwDataDefProps"]);
    ("annotations", FObjs false ["Annotation"]);
    ("adminData", FObj false ["AdminData"]);
    ("category", FLeaf false RLiteral);
    ("introduction", FObj false ["DocumentationBlock"]);
    ("desc", FObj false ["MultiLanguageOverviewParagraph"]);
    ("variationPoint", FObj false ["VariationPoint"]);
    ("longName", FObj false ["MultilanguageLongName"]);
    ("short_name", FName);
    ("shortNameFragments", FObjs false ["ShortNameFragment"]);
    ("timestamp", FAttr false);
    ("uuid", FAttr false)]);
   ("ApplicationCompositeElementInPortInterfaceInstanceRef", [("rootDataPrototypeRef", FLeaf false RRef);
    ("targetDataPrototypeRef", FLeaf false RRef)]);
   ("ApplicationEndpoint", [("consumedServiceInstances", FObjs false ["ConsumedServiceInstance"]);
    ("networkEndpointRef", FLeaf false RRef);
    ("priority", FLeaf false RPositive);
    ("providedServiceInstances", FObjs false ["ProvidedServiceInstance"]);
    ("short_name", FName)]);
   ("ApplicationEntry", [("frameTriggeringRef", FLeaf false RRef);
    ("delay", FLeaf false RTime);
    ("positionInTable", FLeaf false RInteger)]);
   ("ApplicationError", [("errorCode", FLeaf false RInteger);
    ("annotations", FObjs false ["Annotation"]);
    ("adminData", FObj false ["AdminData"]);
    ("category", FLeaf false RLiteral);
    ("introduction", FObj false ["DocumentationBlock"]);
    ("desc", FObj false ["MultiLanguageOverviewParagraph"]);
    ("variationPoint", FObj false ["VariationPoint"]);
    ("longName", FObj false ["MultilanguageLongName"]);
    ("short_name", FName);
    ("shortNameFragments", FObjs false ["ShortNameFragment"]);
    ("timestamp", FAttr false);
    ("uuid", FAttr false)]);
   ("ApplicationPrimitiveDataType", [("swDataDefProps", FObj false ["SwDataDefProps"]);
    ("annotations", FObjs false ["Annotation"]);
    ("adminData", FObj false ["AdminData"]);
    ("category", FLeaf false RLiteral);
    ("introduction", FObj false ["DocumentationBlock"]);
    ("desc", FObj false ["MultiLanguageOverviewParagraph"]);
    ("variationPoint", FObj false ["VariationPoint"]);
    ("longName", FObj false ["MultilanguageLongName"]);
    ("short_name", FName);
    ("shortNameFragments", FObjs false ["ShortNameFragment"]);
    ("timestamp", FAttr false);
    ("uuid", FAttr false)]);
   ("ApplicationRecordDataType", [("record_elements", FObjs false ["ApplicationRecordElement"]);
    ("swDataDefProps", FObj false ["SwDataDefProps"]);
    ("annotations", FObjs false ["Annotation"]);
    ("adminData", FObj false ["AdminData"]);
    ("category", FLeaf false RLiteral);
    ("introduction", FObj false ["DocumentationBlock"]);
    ("desc", FObj false ["MultiLanguageOverviewParagraph"]);
    ("variationPoint", FObj false ["VariationPoint"]);
    ("longName", FObj false ["MultilanguageLongName"]);
    ("short_name", FName);
    ("shortNameFragments", FObjs false ["ShortNameFragment"]);
    ("timestamp", FAttr false);
    ("uuid", FAttr false)]);
   ("ApplicationRecordElement", [("typeTRef", FLeaf false RRef);
    ("swDataDefProps", FObj false ["SwDataDefProps"]);
    ("annotations", FObjs false ["Annotation"]);
    ("adminData", FObj false ["AdminData"]);
    ("category", FLeaf false RLiteral);
    ("introduction", FObj false ["DocumentationBlock"]);
    ("desc", FObj false ["MultiLanguageOverviewParagraph"]);
    ("variationPoint", FObj false ["VariationPoint"]);
    ("longName", FObj false ["MultilanguageLongName"]);
    ("short_name", FName);
    ("shortNameFragments", FObjs false ["ShortNameFragment"]);
    ("timestamp", FAttr false);
    ("uuid", FAttr false)]);
   ("ApplicationRuleBasedValueSpecification", [("category", FLeaf false RLiteral);
    ("swAxisConts", FObjs false ["RuleBasedAxisCont"]);
    ("swValueCont", FObj false ["RuleBasedValueCont"]);
    ("shortLabel", FLeaf false RLiteral);
    ("timestamp", FAttr false);
    ("uuid", FAttr false)]);
   ("ApplicationSwComponentType", [("internalBehavior", FObj false ["SwcInternalBehavior"]);
    ("symbolProps", FObj false ["SymbolProps"]);
    ("consistencyNeeds", FObjs false ["ConsistencyNeeds"]);
    ("ports", FObjs false ["PPortPrototype"; "PRPortPrototype"; "RPortPrototype"]);
    ("portGroups", FObjs false ["PortGroup"]);
    ("swcMappingConstraintsRefs", FLeafs RRef);
    ("swComponentDocumentation", FObj false ["SwComponentDocumentation"]);
    ("unitGroupRefs", FLeafs RRef);
    ("annotations", FObjs false ["Annotation"]);
    ("adminData", FObj false ["AdminData"]);
    ("category", FLeaf false RLiteral);
    ("introduction", FObj false ["DocumentationBlock"]);
    ("desc", FObj false ["MultiLanguageOverviewParagraph"]);
    ("variationPoint", FObj false ["VariationPoint"]);
    ("longName", FObj false ["MultilanguageLongName"]);
    ("short_name", FName);
    ("shortNameFragments", FObjs false ["ShortNameFragment"]);
    ("timestamp", FAttr false);
    ("uuid", FAttr false)]);
   ("ApplicationValueSpecification", [("category", FLeaf false RLiteral);
    ("swValueCont", FObj false ["SwValueCont"]);
    ("shortLabel", FLeaf false RLiteral);
    ("timestamp", FAttr false);
    ("uuid", FAttr false)]);
   ("ArgumentDataPrototype", [("direction", FLeaf false RLiteral);
    ("serverArgumentImplPolicy", FLeaf false RLiteral);
    ("typeTRef", FLeaf false RRef);
    ("swDataDefProps", FObj false ["SwDataDefProps"]);
    ("annotations", FObjs false ["Annotation"]);
    ("adminData", FObj false ["AdminData"]);
    ("category", FLeaf false RLiteral);
    ("introduction", FObj false ["DocumentationBlock"]);
    ("desc", FObj false ["MultiLanguageOverviewParagraph"]);
    ("variationPoint", FObj false ["VariationPoint"]);
    ("longName", FObj false ["MultilanguageLongName"]);
    ("short_name", FName);
    ("shortNameFragments", FObjs false ["ShortNameFragment"]);
    ("timestamp", FAttr false);
    ("uuid", FAttr false)]);
   ("ArrayValueSpecification", [("element", FObjs false ["ApplicationRuleBasedValueSpecification"; "ApplicationValueSpecification"; "ArrayValueSpecification"; "CompositeRuleBasedValueSpecification"; "NumericalValueSpecification"; "RecordValueSpecification"; "TextValueSpecification"]);
    ("shortLabel", FLeaf false RLiteral);
    ("timestamp", FAttr false);
    ("uuid", FAttr false)]);
   ("AssemblySwConnector", [("providerIRef", FObj false ["PPortInCompositionInstanceRef"]);
    ("requesterIRef", FObj false ["RPortInCompositionInstanceRef"]);
    ("mappingRef", FLeaf false RRef);
    ("annotations", FObjs false ["Annotation"]);
    ("adminData", FObj false ["AdminData"]);
    ("category", FLeaf false RLiteral);
    ("introduction", FObj false ["DocumentationBlock"]);
    ("desc", FObj false ["MultiLanguageOverviewParagraph"]);
    ("variationPoint", FObj false ["VariationPoint"]);
    ("longName", FObj false ["MultilanguageLongName"]);
    ("short_name", FName);
    ("shortNameFragments", FObjs false ["ShortNameFragment"]);
    ("timestamp", FAttr false);
    ("uuid", FAttr false)]);
   ("AsynchronousServerCallPoint", [("operationIRef", FObj false ["ROperationInAtomicSwcInstanceRef"]);
    ("timeout", FLeaf false RFloat);
    ("annotations", FObjs false ["Annotation"]);
    ("adminData", FObj false ["AdminData"]);
    ("category", FLeaf false RLiteral);
    ("introduction", FObj false ["DocumentationBlock"]);
    ("desc", FObj false ["MultiLanguageOverviewParagraph"]);
    ("variationPoint", FObj false ["VariationPoint"]);
    ("longName", FObj false ["MultilanguageLongName"]);
    ("short_name", FName);
    ("shortNameFragments", FObjs false ["ShortNameFragment"]);
    ("timestamp", FAttr false);
    ("uuid", FAttr false)]);
   ("AsynchronousServerCallResultPoint", [("asynchronousServerCallPointRef", FLeaf false RRef);
    ("annotations", FObjs false ["Annotation"]);
    ("adminData", FObj false ["AdminData"]);
    ("category", FLeaf false RLiteral);
    ("introduction", FObj false ["DocumentationBlock"]);
    ("desc", FObj false ["MultiLanguageOverviewParagraph"]);
    ("variationPoint", FObj false ["VariationPoint"]);
    ("longName", FObj false ["MultilanguageLongName"]);
    ("short_name", FName);
    ("shortNameFragments", FObjs false ["ShortNameFragment"]);
    ("timestamp", FAttr false);
    ("uuid", FAttr false)]);
   ("AsynchronousServerCallReturnsEvent", [("disabledModeIRefs", FObjs false ["RModeInAtomicSwcInstanceRef"]);
    ("startOnEventRef", FLeaf false RRef);
    ("annotations", FObjs false ["Annotation"]);
    ("adminData", FObj false ["AdminData"]);
    ("category", FLeaf false RLiteral);
    ("introduction", FObj false ["DocumentationBlock"]);
    ("desc", FObj false ["MultiLanguageOverviewParagraph"]);
    ("variationPoint", FObj false ["VariationPoint"]);
    ("longName", FObj false ["MultilanguageLongName"]);
    ("short_name", FName);
    ("shortNameFragments", FObjs false ["ShortNameFragment"]);
    ("timestamp", FAttr false);
    ("uuid", FAttr false)]);
   ("AutosarEngineeringObject", [("category", FLeaf false RLiteral);
    ("domain", FLeaf false RLiteral);
    ("revisionLabels", FLeafs RRevision);
    ("shortLabel", FLeaf false RLiteral);
    ("timestamp", FAttr false);
    ("uuid", FAttr false)]);
   ("AutosarParameterRef", [("autosarParameterIRef", FObj false ["ParameterInAtomicSWCTypeInstanceRef"]);
    ("localParameterRef", FLeaf false RRef)]);
   ("AutosarVariableRef", [("autosarVariableIRef", FObj false ["VariableInAtomicSWCTypeInstanceRef"]);
    ("localVariableRef", FLeaf false RRef);
    ("timestamp", FAttr false);
    ("uuid", FAttr false)]);
   ("BackgroundEvent", [("disabledModeIRefs", FObjs false ["RModeInAtomicSwcInstanceRef"]);
    ("startOnEventRef", FLeaf false RRef);
    ("annotations", FObjs false ["Annotation"]);
    ("adminData", FObj false ["AdminData"]);
    ("category", FLeaf false RLiteral);
    ("introduction", FObj false ["DocumentationBlock"]);
    ("desc", FObj false ["MultiLanguageOverviewParagraph"]);
    ("variationPoint", FObj false ["VariationPoint"]);
    ("longName", FObj false ["MultilanguageLongName"]);
    ("short_name", FName);
    ("shortNameFragments", FObjs false ["ShortNameFragment"]);
    ("timestamp", FAttr false);
    ("uuid", FAttr false);
    ("activationReasonRepresentationRef", FLeaf false RRef)]);
   ("BaseTypeDirectDefinition", []);
   ("BlueprintGenerator", [("introduction", FObj false ["DocumentationBlock"]);
    ("timestamp", FAttr false);
    ("uuid", FAttr false)]);
   ("BooleanValueVariationPoint", [("blueprintValue", FAttrOf "String");
    ("sd", FAttrOf "String");
    ("shortLabel", FAttrOf "PrimitiveIdentifier");
    ("timestamp", FAttr false);
    ("uuid", FAttr false)]);
   ("BswAsynchronousServerCallPoint", [("calledEntryRef", FLeaf false RRef);
    ("short_name", FName);
    ("shortNameFragments", FObjs false ["ShortNameFragment"]);
    ("timestamp", FAttr false);
    ("uuid", FAttr false)]);
   ("BswAsynchronousServerCallReturnsEvent", [("eventSourceRef", FLeaf false RRef);
    ("contextLimitationRefs", FLeafs RRef);
    ("disabledInModeIRefs", FObjs false ["ModeInBswModuleDescriptionInstanceRef"]);
    ("startsOnEventRef", FLeaf false RRef);
    ("activationReasonRepresentationRef", FLeaf false RRef);
    ("short_name", FName)]);
   ("BswBackgroundEvent", [("contextLimitationRefs", FLeafs RRef);
    ("disabledInModeIRefs", FObjs false ["ModeInBswModuleDescriptionInstanceRef"]);
    ("startsOnEventRef", FLeaf false RRef);
    ("activationReasonRepresentationRef", FLeaf false RRef);
    ("short_name", FName)]);
   ("BswCalledEntity", [("accessedModeGroupRefs", FLeafs RRef);
    ("activationPointRefs", FLeafs RRef);
    ("callPoints", FObjs false ["BswAsynchronousServerCallPoint"; "BswSynchronousServerCallPoint"]);
    ("dataReceivePoints", FObjs false ["BswVariableAccess"]);
    ("dataSendPoints", FObjs false ["BswVariableAccess"]);
    ("implementedEntryRef", FLeaf true RRef);
    ("issuedTriggerRefs", FLeafs RRef);
    ("managedModeGroupRefs", FLeafs RRef);
    ("schedulerNamePrefixRef", FLeaf false RRef);
    ("activationReasons", FObjs false ["ExecutableEntityActivationReason"]);
    ("canEnterRefs", FLeafs RRef);
    ("exclusiveAreaNestingOrderRefs", FLeafs RRef);
    ("minimumStartInterval", FLeaf false RTime);
    ("reentrancyLevel", FLeaf false RLiteral);
    ("runsInsideRefs", FLeafs RRef);
    ("swAddrMethodRef", FLeaf false RRef);
    ("annotations", FObjs false ["Annotation"]);
    ("adminData", FObj false ["AdminData"]);
    ("category", FLeaf false RLiteral);
    ("introduction", FObj false ["DocumentationBlock"]);
    ("desc", FObj false ["MultiLanguageOverviewParagraph"]);
    ("variationPoint", FObj false ["VariationPoint"]);
    ("longName", FObj false ["MultilanguageLongName"]);
    ("short_name", FName);
    ("shortNameFragments", FObjs false ["ShortNameFragment"]);
    ("timestamp", FAttr false);
    ("uuid", FAttr false)]);
   ("BswDataReceivedEvent", [("dataRef", FLeaf false RRef);
    ("contextLimitationRefs", FLeafs RRef);
    ("disabledInModeIRefs", FObjs false ["ModeInBswModuleDescriptionInstanceRef"]);
    ("startsOnEventRef", FLeaf false RRef);
    ("activationReasonRepresentationRef", FLeaf false RRef);
    ("short_name", FName)]);
   ("BswExternalTriggerOccurredEvent", [("triggerRef", FLeaf false RRef);
    ("contextLimitationRefs", FLeafs RRef);
    ("disabledInModeIRefs", FObjs false ["ModeInBswModuleDescriptionInstanceRef"]);
    ("startsOnEventRef", FLeaf false RRef);
    ("activationReasonRepresentationRef", FLeaf false RRef);
    ("short_name", FName)]);
   ("BswImplementation", [("arReleaseVersion", FLeaf false RLiteral);
    ("behaviorRef", FLeaf false RRef);
    ("preconfiguredConfigurationRefs", FLeafs RRef);
    ("recommendedConfigurationRefs", FLeafs RRef);
    ("vendorApiInfix", FLeaf false RLiteral);
    ("vendorSpecificModuleDefRefs", FLeafs RRef);
    ("buildActionManifestRef", FLeaf false RRef);
    ("compilers", FObjs false ["Compiler"]);
    ("generatedArtifacts", FObjs false ["DependencyOnArtifact"]);
    ("hwElementRefs", FLeafs RRef);
    ("linkers", FObjs false ["Linker"]);
    ("mcSupport", FObj false ["McSupportData"]);
    ("programmingLanguage", FLeaf false RLiteral);
    ("requiredArtifacts", FObjs false ["DependencyOnArtifact"]);
    ("requiredGeneratorTools", FObjs false ["DependencyOnArtifact"]);
    ("resourceConsumption", FObj false ["ResourceConsumption"]);
    ("swcBswMappingRef", FLeaf false RRef);
    ("swVersion", FLeaf false RLiteral);
    ("usedCodeGenerator", FLeaf false RLiteral);
    ("vendorId", FLeaf false RPositive);
    ("elements/Code", FObjs false ["Code"]);
    ("annotations", FObjs false ["Annotation"]);
    ("adminData", FObj false ["AdminData"]);
    ("category", FLeaf false RLiteral);
    ("introduction", FObj false ["DocumentationBlock"]);
    ("desc", FObj false ["MultiLanguageOverviewParagraph"]);
    ("variationPoint", FObj false ["VariationPoint"]);
    ("longName", FObj false ["MultilanguageLongName"]);
    ("short_name", FName);
    ("shortNameFragments", FObjs false ["ShortNameFragment"]);
    ("timestamp", FAttr false);
    ("uuid", FAttr false)]);
   ("BswInternalBehavior", [("includedModeDeclarationGroupSets", FObjs false ["IncludedModeDeclarationGroupSet"]);
    ("internalTriggeringPoints", FObjs false ["BswInternalTriggeringPoint"]);
    ("modeSenderPolicies", FObjs false ["BswModeSenderPolicy"]);
    ("receptionPolicies", FObjs false ["BswQueuedDataReceptionPolicy"]);
    ("serviceDependencies", FObjs false ["BswServiceDependency"]);
    ("elements/BswModuleEntity", FObjs false ["BswCalledEntity"; "BswInterruptEntity"; "BswSchedulableEntity"]);
    ("elements/BswEvent", FObjs false ["BswAsynchronousServerCallReturnsEvent"; "BswBackgroundEvent"; "BswDataReceivedEvent"; "BswExternalTriggerOccurredEvent"; "BswInternalTriggerOccurredEvent"; "BswModeManagerErrorEvent"; "BswModeSwitchEvent"; "BswModeSwitchedAckEvent"; "BswOperationInvokedEvent"; "BswTimingEvent"]);
    ("constantMemories", FObjs false ["ParameterDataPrototype"]);
    ("dataTypeMappingRefs", FLeafs RRef);
    ("staticMemories", FObjs false ["VariableDataPrototype"]);
    ("elements/ExclusiveArea", FObjs false ["ExclusiveArea"]);
    ("elements/ExclusiveAreaNestingOrder", FObjs false ["ExclusiveAreaNestingOrder"]);
    ("annotations", FObjs false ["Annotation"]);
    ("adminData", FObj false ["AdminData"]);
    ("category", FLeaf false RLiteral);
    ("introduction", FObj false ["DocumentationBlock"]);
    ("desc", FObj false ["MultiLanguageOverviewParagraph"]);
    ("variationPoint", FObj false ["VariationPoint"]);
    ("longName", FObj false ["MultilanguageLongName"]);
    ("short_name", FName);
    ("shortNameFragments", FObjs false ["ShortNameFragment"]);
    ("timestamp", FAttr false);
    ("uuid", FAttr false)]);
   ("BswInternalTriggerOccurredEvent", [("eventSourceRef", FLeaf false RRef);
    ("contextLimitationRefs", FLeafs RRef);
    ("disabledInModeIRefs", FObjs false ["ModeInBswModuleDescriptionInstanceRef"]);
    ("startsOnEventRef", FLeaf false RRef);
    ("activationReasonRepresentationRef", FLeaf false RRef);
    ("short_name", FName)]);
   ("BswInternalTriggeringPoint", [("annotations", FObjs false ["Annotation"]);
    ("adminData", FObj false ["AdminData"]);
    ("category", FLeaf false RLiteral);
    ("introduction", FObj false ["DocumentationBlock"]);
    ("desc", FObj false ["MultiLanguageOverviewParagraph"]);
    ("variationPoint", FObj false ["VariationPoint"]);
    ("longName", FObj false ["MultilanguageLongName"]);
    ("short_name", FName);
    ("shortNameFragments", FObjs false ["ShortNameFragment"]);
    ("timestamp", FAttr false);
    ("uuid", FAttr false)]);
   ("BswInterruptEntity", [("interruptCategory", FLeaf false RLiteral);
    ("interruptSource", FLeaf false RLiteral);
    ("accessedModeGroupRefs", FLeafs RRef);
    ("activationPointRefs", FLeafs RRef);
    ("callPoints", FObjs false ["BswAsynchronousServerCallPoint"; "BswSynchronousServerCallPoint"]);
    ("dataReceivePoints", FObjs false ["BswVariableAccess"]);
    ("dataSendPoints", FObjs false ["BswVariableAccess"]);
    ("implementedEntryRef", FLeaf true RRef);
    ("issuedTriggerRefs", FLeafs RRef);
    ("managedModeGroupRefs", FLeafs RRef);
    ("schedulerNamePrefixRef", FLeaf false RRef);
    ("activationReasons", FObjs false ["ExecutableEntityActivationReason"]);
    ("canEnterRefs", FLeafs RRef);
    ("exclusiveAreaNestingOrderRefs", FLeafs RRef);
    ("minimumStartInterval", FLeaf false RTime);
    ("reentrancyLevel", FLeaf false RLiteral);
    ("runsInsideRefs", FLeafs RRef);
    ("swAddrMethodRef", FLeaf false RRef);
    ("annotations", FObjs false ["Annotation"]);
    ("adminData", FObj false ["AdminData"]);
    ("category", FLeaf false RLiteral);
    ("introduction", FObj false ["DocumentationBlock"]);
    ("desc", FObj false ["MultiLanguageOverviewParagraph"]);
    ("variationPoint", FObj false ["VariationPoint"]);
    ("longName", FObj false ["MultilanguageLongName"]);
    ("short_name", FName);
    ("shortNameFragments", FObjs false ["ShortNameFragment"]);
    ("timestamp", FAttr false);
    ("uuid", FAttr false)]);
   ("BswMgrNeeds", [("annotations", FObjs false ["Annotation"]);
    ("adminData", FObj false ["AdminData"]);
    ("category", FLeaf false RLiteral);
    ("introduction", FObj false ["DocumentationBlock"]);
    ("desc", FObj false ["MultiLanguageOverviewParagraph"]);
    ("variationPoint", FObj false ["VariationPoint"]);
    ("longName", FObj false ["MultilanguageLongName"]);
    ("short_name", FName);
    ("shortNameFragments", FObjs false ["ShortNameFragment"]);
    ("timestamp", FAttr false);
    ("uuid", FAttr false)]);
   ("BswModeManagerErrorEvent", [("modeGroupRef", FLeaf false RRef);
    ("contextLimitationRefs", FLeafs RRef);
    ("disabledInModeIRefs", FObjs false ["ModeInBswModuleDescriptionInstanceRef"]);
    ("startsOnEventRef", FLeaf false RRef);
    ("activationReasonRepresentationRef", FLeaf false RRef);
    ("short_name", FName)]);
   ("BswModeSenderPolicy", [("ackRequest", FObj false ["BswModeSwitchAckRequest"]);
    ("enhancedModeApi", FLeaf false RBool);
    ("providedModeGroupRef", FLeaf false RRef);
    ("queueLength", FLeaf false RPositive)]);
   ("BswModeSwitchAckRequest", [("timeout", FLeaf false RTime)]);
   ("BswModeSwitchEvent", [("activation", FLeaf false RLiteral);
    ("modeIRefs", FObjs false ["ModeInBswModuleDescriptionInstanceRef"]);
    ("contextLimitationRefs", FLeafs RRef);
    ("disabledInModeIRefs", FObjs false ["ModeInBswModuleDescriptionInstanceRef"]);
    ("startsOnEventRef", FLeaf false RRef);
    ("activationReasonRepresentationRef", FLeaf false RRef);
    ("short_name", FName)]);
   ("BswModeSwitchedAckEvent", [("modeGroupRef", FLeaf false RRef);
    ("contextLimitationRefs", FLeafs RRef);
    ("disabledInModeIRefs", FObjs false ["ModeInBswModuleDescriptionInstanceRef"]);
    ("startsOnEventRef", FLeaf false RRef);
    ("activationReasonRepresentationRef", FLeaf false RRef);
    ("short_name", FName)]);
   ("BswModuleClientServerEntry", [("encapsulatedEntryRef", FLeaf false RRef);
    ("isReentrant", FLeaf false RBool);
    ("isSynchronous", FLeaf false RBool);
    ("short_name", FName);
    ("shortNameFragments", FObjs false ["ShortNameFragment"]);
    ("timestamp", FAttr false);
    ("uuid", FAttr false)]);
   ("BswModuleDependency", [("targetModuleId", FLeaf false RNumerical);
    ("targetModuleRef", FLeaf false RRef);
    ("short_name", FName)]);
   ("BswModuleDescription", [("bswModuleDependencies", FObjs false ["BswModuleDependency"]);
    ("bswModuleDocumentation", FObj false ["SwComponentDocumentation"]);
    ("expectedEntryRefs", FLeafs RRef);
    ("implementedEntryRefs", FLeafs RRef);
    ("internalBehaviors", FObjs false ["BswInternalBehavior"]);
    ("moduleId", FLeaf false RNumerical);
    ("providedClientServerEntries", FObjs false ["BswModuleClientServerEntry"]);
    ("providedDatas", FObjs false ["VariableDataPrototype"]);
    ("providedModeGroups", FObjs false ["ModeDeclarationGroupPrototype"]);
    ("requiredClientServerEntries", FObjs false ["BswModuleClientServerEntry"]);
    ("requiredDatas", FObjs false ["VariableDataPrototype"]);
    ("requiredModeGroups", FObjs false ["ModeDeclarationGroupPrototype"]);
    ("annotations", FObjs false ["Annotation"]);
    ("adminData", FObj false ["AdminData"]);
    ("category", FLeaf false RLiteral);
    ("introduction", FObj false ["DocumentationBlock"]);
    ("desc", FObj false ["MultiLanguageOverviewParagraph"]);
    ("variationPoint", FObj false ["VariationPoint"]);
    ("longName", FObj false ["MultilanguageLongName"]);
    ("short_name", FName);
    ("shortNameFragments", FObjs false ["ShortNameFragment"]);
    ("timestamp", FAttr false);
    ("uuid", FAttr false)]);
   ("BswModuleEntry", [("arguments", FObjs false ["SwServiceArg"]);
    ("bswEntryKind", FLeaf false RLiteral);
    ("callType", FLeaf false RLiteral);
    ("executionContext", FLeaf false RLiteral);
    ("functionPrototypeEmitter", FLeaf false RLiteral);
    ("isReentrant", FLeaf false RBool);
    ("isSynchronous", FLeaf false RBool);
    ("returnType", FObj false ["SwServiceArg"]);
    ("role", FLeaf false RLiteral);
    ("serviceId", FLeaf false RNumerical);
    ("swServiceImplPolicy", FLeaf false RLiteral);
    ("annotations", FObjs false ["Annotation"]);
    ("adminData", FObj false ["AdminData"]);
    ("category", FLeaf false RLiteral);
    ("introduction", FObj false ["DocumentationBlock"]);
    ("desc", FObj false ["MultiLanguageOverviewParagraph"]);
    ("variationPoint", FObj false ["VariationPoint"]);
    ("longName", FObj false ["MultilanguageLongName"]);
    ("short_name", FName);
    ("shortNameFragments", FObjs false ["ShortNameFragment"]);
    ("timestamp", FAttr false);
    ("uuid", FAttr false)]);
   ("BswOperationInvokedEvent", [("entryRef", FLeaf false RRef);
    ("contextLimitationRefs", FLeafs RRef);
    ("disabledInModeIRefs", FObjs false ["ModeInBswModuleDescriptionInstanceRef"]);
    ("startsOnEventRef", FLeaf false RRef);
    ("activationReasonRepresentationRef", FLeaf false RRef);
    ("short_name", FName)]);
   ("BswQueuedDataReceptionPolicy", [("queueLength", FLeaf false RPositive);
    ("receivedDataRef", FLeaf false RRef);
    ("enableTakeAddress", FLeaf false RBool);
    ("timestamp", FAttr false);
    ("uuid", FAttr false)]);
   ("BswSchedulableEntity", [("accessedModeGroupRefs", FLeafs RRef);
    ("activationPointRefs", FLeafs RRef);
    ("callPoints", FObjs false ["BswAsynchronousServerCallPoint"; "BswSynchronousServerCallPoint"]);
    ("dataReceivePoints", FObjs false ["BswVariableAccess"]);
    ("dataSendPoints", FObjs false ["BswVariableAccess"]);
    ("implementedEntryRef", FLeaf true RRef);
    ("issuedTriggerRefs", FLeafs RRef);
    ("managedModeGroupRefs", FLeafs RRef);
    ("schedulerNamePrefixRef", FLeaf false RRef);
    ("activationReasons", FObjs false ["ExecutableEntityActivationReason"]);
    ("canEnterRefs", FLeafs RRef);
    ("exclusiveAreaNestingOrderRefs", FLeafs RRef);
    ("minimumStartInterval", FLeaf false RTime);
    ("reentrancyLevel", FLeaf false RLiteral);
    ("runsInsideRefs", FLeafs RRef);
    ("swAddrMethodRef", FLeaf false RRef);
    ("annotations", FObjs false ["Annotation"]);
    ("adminData", FObj false ["AdminData"]);
    ("category", FLeaf false RLiteral);
    ("introduction", FObj false ["DocumentationBlock"]);
    ("desc", FObj false ["MultiLanguageOverviewParagraph"]);
    ("variationPoint", FObj false ["VariationPoint"]);
    ("longName", FObj false ["MultilanguageLongName"]);
    ("short_name", FName);
    ("shortNameFragments", FObjs false ["ShortNameFragment"]);
    ("timestamp", FAttr false);
    ("uuid", FAttr false)]);
   ("BswServiceDependency", [("assignedData", FObjs false ["RoleBasedDataAssignment"]);
    ("assignedEntryRole", FObjs false ["RoleBasedBswModuleEntryAssignment"]);
    ("ident", FObj false ["BswServiceDependencyIdent"]);
    ("serviceNeeds", FObj false ["BswMgrNeeds"; "ComMgrUserNeeds"; "CryptoServiceNeeds"; "DiagnosticCommunicationManagerNeeds"; "DiagnosticEnableConditionNeeds"; "DiagnosticEventInfoNeeds"; "DiagnosticEventNeeds"; "DiagnosticIoControlNeeds"; "DiagnosticOperationCycleNeeds"; "DiagnosticRoutineNeeds"; "DiagnosticStorageConditionNeeds"; "DiagnosticValueNeeds"; "DltUserNeeds"; "DoIpRoutingActivationAuthenticationNeeds"; "DoIpRoutingActivationConfirmationNeeds"; "DtcStatusChangeNotificationNeeds"; "EcuStateMgrUserNeeds"; "ErrorTracerNeeds"; "FunctionInhibitionAvailabilityNeeds"; "IdsMgrNeeds"; "IndicatorStatusNeeds"; "NvBlockNeeds"; "ObdControlServiceNeeds"; "ObdInfoServiceNeeds"; "ObdMonitorServiceNeeds"; "ObdPidServiceNeeds"; "ObdRatioDenominatorNeeds"; "ObdRatioServiceNeeds"; "SecureOnBoardCommunicationNeeds"; "SupervisedEntityNeeds"]);
    ("assignedDataTypes", FObjs false ["RoleBasedDataTypeAssignment"]);
    ("symbolicNameProps", FObj false ["SymbolicNameProps"]);
    ("timestamp", FAttr false);
    ("uuid", FAttr false)]);
   ("BswServiceDependencyIdent", [("short_name", FName)]);
   ("BswSynchronousServerCallPoint", [("calledEntryRef", FLeaf false RRef);
    ("short_name", FName);
    ("shortNameFragments", FObjs false ["ShortNameFragment"]);
    ("timestamp", FAttr false);
    ("uuid", FAttr false)]);
   ("BswTimingEvent", [("period", FLeaf false RTime);
    ("contextLimitationRefs", FLeafs RRef);
    ("disabledInModeIRefs", FObjs false ["ModeInBswModuleDescriptionInstanceRef"]);
    ("startsOnEventRef", FLeaf false RRef);
    ("activationReasonRepresentationRef", FLeaf false RRef);
    ("short_name", FName)]);
   ("BswVariableAccess", [("accessedVariableRef", FLeaf false RRef);
    ("short_name", FName);
    ("shortNameFragments", FObjs false ["ShortNameFragment"]);
    ("timestamp", FAttr false);
    ("uuid", FAttr false)]);
   ("BufferProperties", [("headerLength", FLeaf false RInteger);
    ("inPlace", FLeaf false RBool)]);
   ("BulkNvDataDescriptor", [("bulkNvBlock", FObj false ["VariableDataPrototype"]);
    ("nvBlockDataMappings", FObjs false ["NvBlockDataMapping"]);
    ("annotations", FObjs false ["Annotation"]);
    ("adminData", FObj false ["AdminData"]);
    ("category", FLeaf false RLiteral);
    ("introduction", FObj false ["DocumentationBlock"]);
    ("desc", FObj false ["MultiLanguageOverviewParagraph"]);
    ("variationPoint", FObj false ["VariationPoint"]);
    ("longName", FObj false ["MultilanguageLongName"]);
    ("short_name", FName);
    ("shortNameFragments", FObjs false ["ShortNameFragment"]);
    ("timestamp", FAttr false);
    ("uuid", FAttr false)]);
   ("CanCluster", [("busOffRecovery", FObj false ["CanClusterBusOffRecovery"]);
    ("canFdBaudrate", FLeaf false RNumerical);
    ("canXlBaudrate", FLeaf false RNumerical);
    ("baudrate", FLeaf false RNumerical);
    ("physicalChannel", FObjs true ["CanPhysicalChannel"; "EthernetPhysicalChannel"; "FlexrayPhysicalChannel"; "LinPhysicalChannel"]);
    ("protocolName", FLeaf false RLiteral);
    ("protocolVersion", FLeaf false RLiteral);
    ("annotations", FObjs false ["Annotation"]);
    ("adminData", FObj false ["AdminData"]);
    ("category", FLeaf false RLiteral);
    ("introduction", FObj false ["DocumentationBlock"]);
    ("desc", FObj false ["MultiLanguageOverviewParagraph"]);
    ("variationPoint", FObj false ["VariationPoint"]);
    ("longName", FObj false ["MultilanguageLongName"]);
    ("short_name", FName);
    ("shortNameFragments", FObjs false ["ShortNameFragment"]);
    ("timestamp", FAttr false);
    ("uuid", FAttr false)]);
   ("CanClusterBusOffRecovery", [("borCounterL1ToL2", FLeaf false RPositive);
    ("borTimeL1", FLeaf false RTime);
    ("borTimeL2", FLeaf false RTime)]);
   ("CanCommunicationConnector", [("commControllerRef", FLeaf false RRef);
    ("pncGatewayType", FLeaf false RLiteral);
    ("elements/CommConnectorPort", FObjs true ["FramePort"; "IPduPort"; "ISignalPort"]);
    ("annotations", FObjs false ["Annotation"]);
    ("adminData", FObj false ["AdminData"]);
    ("category", FLeaf false RLiteral);
    ("introduction", FObj false ["DocumentationBlock"]);
    ("desc", FObj false ["MultiLanguageOverviewParagraph"]);
    ("variationPoint", FObj false ["VariationPoint"]);
    ("longName", FObj false ["MultilanguageLongName"]);
    ("short_name", FName);
    ("shortNameFragments", FObjs false ["ShortNameFragment"]);
    ("timestamp", FAttr false);
    ("uuid", FAttr false)]);
   ("CanCommunicationController", [("canControllerAttributes", FObj false ["CanControllerConfigurationRequirements"]);
    ("wakeUpByControllerSupported", FLeaf false RBool);
    ("annotations", FObjs false ["Annotation"]);
    ("adminData", FObj false ["AdminData"]);
    ("category", FLeaf false RLiteral);
    ("introduction", FObj false ["DocumentationBlock"]);
    ("desc", FObj false ["MultiLanguageOverviewParagraph"]);
    ("variationPoint", FObj false ["VariationPoint"]);
    ("longName", FObj false ["MultilanguageLongName"]);
    ("short_name", FName);
    ("shortNameFragments", FObjs false ["ShortNameFragment"]);
    ("timestamp", FAttr false);
    ("uuid", FAttr false)]);
   ("CanControllerConfigurationRequirements", [("maxNumberOfTimeQuantaPerBit", FLeaf false RInteger);
    ("maxSamplePoint", FLeaf false RFloat);
    ("maxSyncJumpWidth", FLeaf false RFloat);
    ("minNumberOfTimeQuantaPerBit", FLeaf false RInteger);
    ("minSamplePoint", FLeaf false RFloat);
    ("minSyncJumpWidth", FLeaf false RFloat);
    ("canControllerFdAttributes", FObj false ["CanControllerFdConfiguration"]);
    ("canControllerFdRequirements", FObj false ["CanControllerFdConfigurationRequirements"]);
    ("canControllerXlAttributes", FObj false ["CanControllerXlConfiguration"]);
    ("canControllerXlRequirements", FObj false ["CanControllerXlConfigurationRequirements"])]);
   ("CanControllerFdConfiguration", [("paddingValue", FLeaf false RInteger);
    ("propSeg", FLeaf false RInteger);
    ("sspOffset", FLeaf false RInteger);
    ("syncJumpWidth", FLeaf false RInteger);
    ("timeSeg1", FLeaf false RInteger);
    ("timeSeg2", FLeaf false RInteger);
    ("txBitRateSwitch", FLeaf false RBool)]);
   ("CanControllerFdConfigurationRequirements", [("maxNumberOfTimeQuantaPerBit", FLeaf false RInteger);
    ("maxSamplePoint", FLeaf false RFloat);
    ("maxSyncJumpWidth", FLeaf false RFloat);
    ("maxTrcvDelayCompensationOffset", FLeaf false RTime);
    ("minNumberOfTimeQuantaPerBit", FLeaf false RInteger);
    ("minSamplePoint", FLeaf false RFloat);
    ("minSyncJumpWidth", FLeaf false RFloat);
    ("minTrcvDelayCompensationOffset", FLeaf false RTime);
    ("txBitRateSwitch", FLeaf false RBool)]);
   ("CanControllerXlConfiguration", [("errorSignalingEnabled", FLeaf false RBool);
    ("propSeg", FLeaf false RInteger);
    ("pwmL", FLeaf false RInteger);
    ("pwmO", FLeaf false RInteger);
    ("pwmS", FLeaf false RInteger);
    ("sspOffset", FLeaf false RInteger);
    ("syncJumpWidth", FLeaf false RInteger);
    ("timeSeg1", FLeaf false RInteger);
    ("timeSeg2", FLeaf false RInteger);
    ("trcvPwmModeEnabled", FLeaf false RBool)]);
   ("CanControllerXlConfigurationRequirements", [("errorSignalingEnabled", FLeaf false RBool);
    ("maxNumberOfTimeQuantaPerBit", FLeaf false RInteger);
    ("maxPwmL", FLeaf false RInteger);
    ("maxPwmO", FLeaf false RInteger);
    ("maxPwmS", FLeaf false RInteger);
    ("maxSamplePoint", FLeaf false RFloat);
    ("maxSyncJumpWidth", FLeaf false RFloat);
    ("maxTrcvDelayCompensationOffset", FLeaf false RTime);
    ("minNumberOfTimeQuantaPerBit", FLeaf false RInteger);
    ("minPwmL", FLeaf false RInteger);
    ("minPwmO", FLeaf false RInteger);
    ("minPwmS", FLeaf false RInteger);
    ("minSamplePoint", FLeaf false RFloat);
    ("minSyncJumpWidth", FLeaf false RFloat);
    ("minTrcvDelayCompensationOffset", FLeaf false RTime);
    ("trcvPwmModeEnabled", FLeaf false RBool)]);
   ("CanFrame", [("frameLength", FLeaf false RNumerical);
    ("elements/PduToFrameMapping", FObjs true ["PduToFrameMapping"]);
    ("annotations", FObjs false ["Annotation"]);
    ("adminData", FObj false ["AdminData"]);
    ("category", FLeaf false RLiteral);
    ("introduction", FObj false ["DocumentationBlock"]);
    ("desc", FObj false ["MultiLanguageOverviewParagraph"]);
    ("variationPoint", FObj false ["VariationPoint"]);
    ("longName", FObj false ["MultilanguageLongName"]);
    ("short_name", FName);
    ("shortNameFragments", FObjs false ["ShortNameFragment"]);
    ("timestamp", FAttr false);
    ("uuid", FAttr false)]);
   ("CanFrameTriggering", [("canAddressingMode", FLeaf false RLiteral);
    ("canFdFrameSupport", FLeaf false RBool);
    ("canFrameRxBehavior", FLeaf false RLiteral);
    ("canFrameTxBehavior", FLeaf false RLiteral);
    ("identifier", FLeaf false RNumerical);
    ("rxIdentifierRange", FObj false ["RxIdentifierRange"]);
    ("frameRef", FLeaf false RRef);
    ("framePortRefs", FLeafs RRef);
    ("pduTriggeringRefs", FLeafs RRef);
    ("annotations", FObjs false ["Annotation"]);
    ("adminData", FObj false ["AdminData"]);
    ("category", FLeaf false RLiteral);
    ("introduction", FObj false ["DocumentationBlock"]);
    ("desc", FObj false ["MultiLanguageOverviewParagraph"]);
    ("variationPoint", FObj false ["VariationPoint"]);
    ("longName", FObj false ["MultilanguageLongName"]);
    ("short_name", FName);
    ("shortNameFragments", FObjs false ["ShortNameFragment"]);
    ("timestamp", FAttr false);
    ("uuid", FAttr false)]);
   ("CanNmCluster", [("nmBusloadReductionActive", FLeaf false RBool);
    ("nmCarWakeUpRxEnabled", FLeaf false RBool);
    ("nmCbvPosition", FLeaf false RNumerical);
    ("nmChannelActive", FLeaf false RBool);
    ("nmImmediateNmCycleTime", FLeaf false RFloat);
    ("nmImmediateNmTransmissions", FLeaf false RNumerical);
    ("nmMessageTimeoutTime", FLeaf false RFloat);
    ("nmMsgCycleTime", FLeaf false RFloat);
    ("nmNetworkTimeout", FLeaf false RFloat);
    ("nmNidPosition", FLeaf false RNumerical);
    ("nmRemoteSleepIndicationTime", FLeaf false RFloat);
    ("nmRepeatMessageTime", FLeaf false RFloat);
    ("nmUserDataLength", FLeaf false RNumerical);
    ("nmWaitBusSleepTime", FLeaf false RFloat);
    ("communicationClusterRef", FLeaf false RRef);
    ("nmChannelId", FLeaf false RNumerical);
    ("nmChannelSleepMaster", FLeaf false RBool);
    ("_nmSynchronizingNetwork", FLeaf false RBool);
    ("elements/NmNode", FObjs true ["CanNmNode"; "J1939NmNode"; "UdpNmNode"]);
    ("annotations", FObjs false ["Annotation"]);
    ("adminData", FObj false ["AdminData"]);
    ("category", FLeaf false RLiteral);
    ("introduction", FObj false ["DocumentationBlock"]);
    ("desc", FObj false ["MultiLanguageOverviewParagraph"]);
    ("variationPoint", FObj false ["VariationPoint"]);
    ("longName", FObj false ["MultilanguageLongName"]);
    ("short_name", FName);
    ("shortNameFragments", FObjs false ["ShortNameFragment"]);
    ("timestamp", FAttr false);
    ("uuid", FAttr false)]);
   ("CanNmClusterCoupling", [("coupledClusterRefs", FLeafs RRef);
    ("nmBusloadReductionEnabled", FLeaf false RBool);
    ("nmImmediateRestartEnabled", FLeaf false RBool)]);
   ("CanNmNode", [("nmCarWakeUpRxEnabled", FLeaf false RBool);
    ("nmMsgCycleOffset", FLeaf false RFloat);
    ("nmMsgReducedTime", FLeaf false RFloat);
    ("nmRangeConfig", FObj false ["RxIdentifierRange"]);
    ("controllerRef", FLeaf false RRef);
    ("nmCoordCluster", FLeaf false RPositive);
    ("nmCoordinatorRole", FLeaf false RLiteral);
    ("nmIfEcuRef", FLeaf false RRef);
    ("nmNodeId", FLeaf false RInteger);
    ("nmPassiveModeEnabled", FLeaf false RBool);
    ("rxNmPduRefs", FLeafs RRef);
    ("txNmPduRefs", FLeafs RRef);
    ("annotations", FObjs false ["Annotation"]);
    ("adminData", FObj false ["AdminData"]);
    ("category", FLeaf false RLiteral);
    ("introduction", FObj false ["DocumentationBlock"]);
    ("desc", FObj false ["MultiLanguageOverviewParagraph"]);
    ("variationPoint", FObj false ["VariationPoint"]);
    ("longName", FObj false ["MultilanguageLongName"]);
    ("short_name", FName);
    ("shortNameFragments", FObjs false ["ShortNameFragment"]);
    ("timestamp", FAttr false);
    ("uuid", FAttr false)]);
   ("CanPhysicalChannel", [("commConnectorRefs", FLeafs RRef);
    ("elements/FrameTriggering", FObjs true ["CanFrameTriggering"; "FlexrayFrameTriggering"; "LinFrameTriggering"]);
    ("elements/ISignalTriggering", FObjs true ["ISignalTriggering"]);
    ("elements/PduTriggering", FObjs true ["PduTriggering"]);
    ("annotations", FObjs false ["Annotation"]);
    ("adminData", FObj false ["AdminData"]);
    ("category", FLeaf false RLiteral);
    ("introduction", FObj false ["DocumentationBlock"]);
    ("desc", FObj false ["MultiLanguageOverviewParagraph"]);
    ("variationPoint", FObj false ["VariationPoint"]);
    ("longName", FObj false ["MultilanguageLongName"]);
    ("short_name", FName);
    ("shortNameFragments", FObjs false ["ShortNameFragment"]);
    ("timestamp", FAttr false);
    ("uuid", FAttr false)]);
   ("CanTpAddress", [("tpAddress", FLeaf false RInteger);
    ("tpAddressExtensionValue", FLeaf false RInteger);
    ("annotations", FObjs false ["Annotation"]);
    ("adminData", FObj false ["AdminData"]);
    ("category", FLeaf false RLiteral);
    ("introduction", FObj false ["DocumentationBlock"]);
    ("desc", FObj false ["MultiLanguageOverviewParagraph"]);
    ("variationPoint", FObj false ["VariationPoint"]);
    ("longName", FObj false ["MultilanguageLongName"]);
    ("short_name", FName);
    ("shortNameFragments", FObjs false ["ShortNameFragment"]);
    ("timestamp", FAttr false);
    ("uuid", FAttr false)]);
   ("CanTpChannel", [("channelId", FLeaf false RPositive);
    ("channelMode", FLeaf false RLiteral);
    ("annotations", FObjs false ["Annotation"]);
    ("adminData", FObj false ["AdminData"]);
    ("category", FLeaf false RLiteral);
    ("introduction", FObj false ["DocumentationBlock"]);
    ("desc", FObj false ["MultiLanguageOverviewParagraph"]);
    ("variationPoint", FObj false ["VariationPoint"]);
    ("longName", FObj false ["MultilanguageLongName"]);
    ("short_name", FName);
    ("shortNameFragments", FObjs false ["ShortNameFragment"]);
    ("timestamp", FAttr false);
    ("uuid", FAttr false)]);
   ("CanTpConfig", [("tpAddresses", FObjs false ["CanTpAddress"]);
    ("tpChannels", FObjs false ["CanTpChannel"]);
    ("tpConnections", FObjs false ["CanTpConnection"]);
    ("tpEcus", FObjs false ["CanTpEcu"]);
    ("tpNodes", FObjs false ["CanTpNode"]);
    ("communicationClusterRef", FLeaf false RRef);
    ("annotations", FObjs false ["Annotation"]);
    ("adminData", FObj false ["AdminData"]);
    ("category", FLeaf false RLiteral);
    ("introduction", FObj false ["DocumentationBlock"]);
    ("desc", FObj false ["MultiLanguageOverviewParagraph"]);
    ("variationPoint", FObj false ["VariationPoint"]);
    ("longName", FObj false ["MultilanguageLongName"]);
    ("short_name", FName);
    ("shortNameFragments", FObjs false ["ShortNameFragment"]);
    ("timestamp", FAttr false);
    ("uuid", FAttr false)]);
   ("CanTpConnection", [("addressingFormat", FLeaf false RLiteral);
    ("cancellation", FLeaf false RBool);
    ("canTpChannelRef", FLeaf false RRef);
    ("dataPduRef", FLeaf false RRef);
    ("flowControlPduRef", FLeaf false RRef);
    ("maxBlockSize", FLeaf false RInteger);
    ("multicastRef", FLeaf false RRef);
    ("paddingActivation", FLeaf false RBool);
    ("receiverRefs", FLeafs RRef);
    ("taType", FLeaf false RLiteral);
    ("timeoutBr", FLeaf false RTime);
    ("timeoutBs", FLeaf false RTime);
    ("timeoutCr", FLeaf false RTime);
    ("timeoutCs", FLeaf false RTime);
    ("tpSduRef", FLeaf false RRef);
    ("transmitterRef", FLeaf false RRef);
    ("ident", FObj false ["TpConnectionIdent"]);
    ("timestamp", FAttr false);
    ("uuid", FAttr false)]);
   ("CanTpEcu", [("cycleTimeMainFunction", FLeaf false RTime);
    ("ecuInstanceRef", FLeaf false RRef)]);
   ("CanTpNode", [("connectorRef", FLeaf false RRef);
    ("maxFcWait", FLeaf false RInteger);
    ("stMin", FLeaf false RTime);
    ("timeoutAr", FLeaf false RTime);
    ("timeoutAs", FLeaf false RTime);
    ("tpAddressRef", FLeaf false RRef);
    ("annotations", FObjs false ["Annotation"]);
    ("adminData", FObj false ["AdminData"]);
    ("category", FLeaf false RLiteral);
    ("introduction", FObj false ["DocumentationBlock"]);
    ("desc", FObj false ["MultiLanguageOverviewParagraph"]);
    ("variationPoint", FObj false ["VariationPoint"]);
    ("longName", FObj false ["MultilanguageLongName"]);
    ("short_name", FName);
    ("shortNameFragments", FObjs false ["ShortNameFragment"]);
    ("timestamp", FAttr false);
    ("uuid", FAttr false)]);
   ("Caption", [("desc", FObj false ["MultiLanguageOverviewParagraph"]);
    ("longName", FObj false ["MultilanguageLongName"]);
    ("short_name", FName);
    ("shortNameFragments", FObjs false ["ShortNameFragment"]);
    ("timestamp", FAttr false);
    ("uuid", FAttr false)]);
   ("Chapter", [("chapterModel", FObj false ["ChapterModel"]);
    ("helpEntry", FAttrOf "String");
    ("annotations", FObjs false ["Annotation"]);
    ("adminData", FObj false ["AdminData"]);
    ("category", FLeaf false RLiteral);
    ("introduction", FObj false ["DocumentationBlock"]);
    ("desc", FObj false ["MultiLanguageOverviewParagraph"]);
    ("variationPoint", FObj false ["VariationPoint"]);
    ("longName", FObj false ["MultilanguageLongName"]);
    ("short_name", FName);
    ("shortNameFragments", FObjs false ["ShortNameFragment"]);
    ("timestamp", FAttr false);
    ("uuid", FAttr false)]);
   ("ChapterContent", []);
   ("ChapterModel", [("chapterContent", FObj false ["ChapterContent"])]);
   ("ClientComSpec", [("endToEndCallResponseTimeout", FLeaf false RTime);
    ("operationRef", FLeaf false RRef);
    ("transformationComSpecProps", FObjs false ["EndToEndTransformationComSpecProps"; "UserDefinedTransformationComSpecProps"]);
    ("timestamp", FAttr false);
    ("uuid", FAttr false)]);
   ("ClientServerAnnotation", [("operationRef", FLeaf false RRef)]);
   ("ClientServerInterface", [("operations", FObjs false ["ClientServerOperation"]);
    ("possibleErrors", FObjs false ["ApplicationError"]);
    ("isService", FLeaf false RBool);
    ("serviceKind", FLeaf false RLiteral);
    ("annotations", FObjs false ["Annotation"]);
    ("adminData", FObj false ["AdminData"]);
    ("category", FLeaf false RLiteral);
    ("introduction", FObj false ["DocumentationBlock"]);
    ("desc", FObj false ["MultiLanguageOverviewParagraph"]);
    ("variationPoint", FObj false ["VariationPoint"]);
    ("longName", FObj false ["MultilanguageLongName"]);
    ("short_name", FName);
    ("shortNameFragments", FObjs false ["ShortNameFragment"]);
    ("timestamp", FAttr false);
    ("uuid", FAttr false)]);
   ("ClientServerInterfaceMapping", [("operationMappings", FObjs false ["ClientServerOperationMapping"]);
    ("annotations", FObjs false ["Annotation"]);
    ("adminData", FObj false ["AdminData"]);
    ("category", FLeaf false RLiteral);
    ("introduction", FObj false ["DocumentationBlock"]);
    ("desc", FObj false ["MultiLanguageOverviewParagraph"]);
    ("variationPoint", FObj false ["VariationPoint"]);
    ("longName", FObj false ["MultilanguageLongName"]);
    ("short_name", FName);
    ("shortNameFragments", FObjs false ["ShortNameFragment"]);
    ("timestamp", FAttr false);
    ("uuid", FAttr false)]);
   ("ClientServerOperation", [("arguments", FObjs false ["ArgumentDataPrototype"]);
    ("diagArgIntegrity", FLeaf false RBool);
    ("possibleErrorRefs", FLeafs RRef);
    ("annotations", FObjs false ["Annotation"]);
    ("adminData", FObj false ["AdminData"]);
    ("category", FLeaf false RLiteral);
    ("introduction", FObj false ["DocumentationBlock"]);
    ("desc", FObj false ["MultiLanguageOverviewParagraph"]);
    ("variationPoint", FObj false ["VariationPoint"]);
    ("longName", FObj false ["MultilanguageLongName"]);
    ("short_name", FName);
    ("shortNameFragments", FObjs false ["ShortNameFragment"]);
    ("timestamp", FAttr false);
    ("uuid", FAttr false)]);
   ("ClientServerOperationMapping", [("firstOperationRef", FLeaf false RRef);
    ("secondOperationRef", FLeaf false RRef)]);
   ("Code", [("artifactDescriptors", FObjs false ["AutosarEngineeringObject"]);
    ("callbackHeaderRefs", FLeafs RRef);
    ("annotations", FObjs false ["Annotation"]);
    ("adminData", FObj false ["AdminData"]);
    ("category", FLeaf false RLiteral);
    ("introduction", FObj false ["DocumentationBlock"]);
    ("desc", FObj false ["MultiLanguageOverviewParagraph"]);
    ("variationPoint", FObj false ["VariationPoint"]);
    ("longName", FObj false ["MultilanguageLongName"]);
    ("short_name", FName);
    ("shortNameFragments", FObjs false ["ShortNameFragment"]);
    ("timestamp", FAttr false);
    ("uuid", FAttr false)]);
   ("Collection", [("autoCollect", FLeaf false RLiteral);
    ("elementRefs", FLeafs RRef);
    ("elementRole", FLeaf false RLiteral);
    ("sourceElementRefs", FLeafs RRef);
    ("annotations", FObjs false ["Annotation"]);
    ("adminData", FObj false ["AdminData"]);
    ("category", FLeaf false RLiteral);
    ("introduction", FObj false ["DocumentationBlock"]);
    ("desc", FObj false ["MultiLanguageOverviewParagraph"]);
    ("variationPoint", FObj false ["VariationPoint"]);
    ("longName", FObj false ["MultilanguageLongName"]);
    ("short_name", FName);
    ("shortNameFragments", FObjs false ["ShortNameFragment"]);
    ("timestamp", FAttr false);
    ("uuid", FAttr false)]);
   ("ComMgrUserNeeds", [("maxCommMode", FLeaf false RLiteral);
    ("annotations", FObjs false ["Annotation"]);
    ("adminData", FObj false ["AdminData"]);
    ("category", FLeaf false RLiteral);
    ("introduction", FObj false ["DocumentationBlock"]);
    ("desc", FObj false ["MultiLanguageOverviewParagraph"]);
    ("variationPoint", FObj false ["VariationPoint"]);
    ("longName", FObj false ["MultilanguageLongName"]);
    ("short_name", FName);
    ("shortNameFragments", FObjs false ["ShortNameFragment"]);
    ("timestamp", FAttr false);
    ("uuid", FAttr false)]);
   ("Compiler", [("name", FLeaf false RLiteral);
    ("options", FLeaf false RLiteral);
    ("vendor", FLeaf false RLiteral);
    ("version", FLeaf false RLiteral);
    ("annotations", FObjs false ["Annotation"]);
    ("adminData", FObj false ["AdminData"]);
    ("category", FLeaf false RLiteral);
    ("introduction", FObj false ["DocumentationBlock"]);
    ("desc", FObj false ["MultiLanguageOverviewParagraph"]);
    ("variationPoint", FObj false ["VariationPoint"]);
    ("longName", FObj false ["MultilanguageLongName"]);
    ("short_name", FName);
    ("shortNameFragments", FObjs false ["ShortNameFragment"]);
    ("timestamp", FAttr false);
    ("uuid", FAttr false)]);
   ("ComplexDeviceDriverSwComponentType", [("hardwareElementRefs", FLeafs RRef);
    ("internalBehavior", FObj false ["SwcInternalBehavior"]);
    ("symbolProps", FObj false ["SymbolProps"]);
    ("consistencyNeeds", FObjs false ["ConsistencyNeeds"]);
    ("ports", FObjs false ["PPortPrototype"; "PRPortPrototype"; "RPortPrototype"]);
    ("portGroups", FObjs false ["PortGroup"]);
    ("swcMappingConstraintsRefs", FLeafs RRef);
    ("swComponentDocumentation", FObj false ["SwComponentDocumentation"]);
    ("unitGroupRefs", FLeafs RRef);
    ("annotations", FObjs false ["Annotation"]);
    ("adminData", FObj false ["AdminData"]);
    ("category", FLeaf false RLiteral);
    ("introduction", FObj false ["DocumentationBlock"]);
    ("desc", FObj false ["MultiLanguageOverviewParagraph"]);
    ("variationPoint", FObj false ["VariationPoint"]);
    ("longName", FObj false ["MultilanguageLongName"]);
    ("short_name", FName);
    ("shortNameFragments", FObjs false ["ShortNameFragment"]);
    ("timestamp", FAttr false);
    ("uuid", FAttr false)]);
   ("ComponentInSystemInstanceRef", [("baseRef", FLeaf false RRef);
    ("contextCompositionRef", FLeaf false RRef);
    ("targetComponentRef", FLeaf false RRef);
    ("timestamp", FAttr false);
    ("uuid", FAttr false)]);
   ("CompositeNetworkRepresentation", [("leafElementIRef", FObj false ["ApplicationCompositeElementInPortInterfaceInstanceRef"]);
    ("networkRepresentation", FObj false ["SwDataDefProps"])]);
   ("CompositeRuleBasedValueSpecification", [("arguments", FObjs false ["ArrayValueSpecification"; "CompositeRuleBasedValueSpecification"; "ConstantReference"; "RecordValueSpecification"]);
    ("compoundPrimitiveArguments", FObjs false ["ApplicationRuleBasedValueSpecification"; "ArrayValueSpecification"; "CompositeRuleBasedValueSpecification"; "ConstantReference"; "RecordValueSpecification"]);
    ("maxSizeToFill", FLeaf false RInteger);
    ("rule", FLeaf false RIdentifier);
    ("shortLabel", FLeaf false RLiteral);
    ("timestamp", FAttr false);
    ("uuid", FAttr false)]);
   ("CompositionSwComponentType", [("components", FObjs false ["SwComponentPrototype"]);
    ("connectors", FObjs false ["AssemblySwConnector"; "DelegationSwConnector"; "PassThroughSwConnector"]);
    ("constantValueMappingRefs", FLeafs RRef);
    ("dataTypeMappingRefs", FLeafs RRef);
    ("instantiationRTEEventProps", FObjs false ["InstantiationTimingEventProps"]);
    ("consistencyNeeds", FObjs false ["ConsistencyNeeds"]);
    ("ports", FObjs false ["PPortPrototype"; "PRPortPrototype"; "RPortPrototype"]);
    ("portGroups", FObjs false ["PortGroup"]);
    ("swcMappingConstraintsRefs", FLeafs RRef);
    ("swComponentDocumentation", FObj false ["SwComponentDocumentation"]);
    ("unitGroupRefs", FLeafs RRef);
    ("annotations", FObjs false ["Annotation"]);
    ("adminData", FObj false ["AdminData"]);
    ("category", FLeaf false RLiteral);
    ("introduction", FObj false ["DocumentationBlock"]);
    ("desc", FObj false ["MultiLanguageOverviewParagraph"]);
    ("variationPoint", FObj false ["VariationPoint"]);
    ("longName", FObj false ["MultilanguageLongName"]);
    ("short_name", FName);
    ("shortNameFragments", FObjs false ["ShortNameFragment"]);
    ("timestamp", FAttr false);
    ("uuid", FAttr false)]);
   ("Compu", [("compuContent", FObj false ["CompuScales"]);
    ("compuDefaultValue", FObj false ["CompuConst"]);
    ("timestamp", FAttr false);
    ("uuid", FAttr false)]);
   ("CompuConst", [("timestamp", FAttr false);
    ("uuid", FAttr false)]);
   ("CompuGenericMath", []);
   ("CompuMethod", [("compuInternalToPhys", FObj false ["Compu"]);
    ("compuPhysToInternal", FObj false ["Compu"]);
    ("unitRef", FLeaf false RRef);
    ("annotations", FObjs false ["Annotation"]);
    ("adminData", FObj false ["AdminData"]);
    ("category", FLeaf false RLiteral);
    ("introduction", FObj false ["DocumentationBlock"]);
    ("desc", FObj false ["MultiLanguageOverviewParagraph"]);
    ("variationPoint", FObj false ["VariationPoint"]);
    ("longName", FObj false ["MultilanguageLongName"]);
    ("short_name", FName);
    ("shortNameFragments", FObjs false ["ShortNameFragment"]);
    ("timestamp", FAttr false);
    ("uuid", FAttr false)]);
   ("CompuScales", []);
   ("ConditionByFormula", [("timestamp", FAttr false);
    ("uuid", FAttr false)]);
   ("ConsistencyNeeds", [("dpgDoesNotRequireCoherency", FObjs false ["DataPrototypeGroup"]);
    ("dpgRequiresCoherency", FObjs false ["DataPrototypeGroup"]);
    ("regDoesNotRequireStability", FObjs false ["RunnableEntityGroup"]);
    ("regRequiresStability", FObjs false ["RunnableEntityGroup"]);
    ("annotations", FObjs false ["Annotation"]);
    ("adminData", FObj false ["AdminData"]);
    ("category", FLeaf false RLiteral);
    ("introduction", FObj false ["DocumentationBlock"]);
    ("desc", FObj false ["MultiLanguageOverviewParagraph"]);
    ("variationPoint", FObj false ["VariationPoint"]);
    ("longName", FObj false ["MultilanguageLongName"]);
    ("short_name", FName);
    ("shortNameFragments", FObjs false ["ShortNameFragment"]);
    ("timestamp", FAttr false);
    ("uuid", FAttr false)]);
   ("ConstantReference", [("constantRef", FLeaf false RRef);
    ("shortLabel", FLeaf false RLiteral);
    ("timestamp", FAttr false);
    ("uuid", FAttr false)]);
   ("ConstantSpecification", [("valueSpec", FObj false ["ApplicationRuleBasedValueSpecification"; "ApplicationValueSpecification"; "ArrayValueSpecification"; "CompositeRuleBasedValueSpecification"; "ConstantReference"; "NumericalValueSpecification"; "RecordValueSpecification"; "TextValueSpecification"]);
    ("annotations", FObjs false ["Annotation"]);
    ("adminData", FObj false ["AdminData"]);
    ("category", FLeaf false RLiteral);
    ("introduction", FObj false ["DocumentationBlock"]);
    ("desc", FObj false ["MultiLanguageOverviewParagraph"]);
    ("variationPoint", FObj false ["VariationPoint"]);
    ("longName", FObj false ["MultilanguageLongName"]);
    ("short_name", FName);
    ("shortNameFragments", FObjs false ["ShortNameFragment"]);
    ("timestamp", FAttr false);
    ("uuid", FAttr false)]);
   ("ConsumedEventGroup", [("applicationEndpointRef", FLeaf false RRef);
    ("eventGroupIdentifier", FLeaf false RPositive);
    ("routingGroupRefs", FLeafs RRef);
    ("sdClientConfig", FObj false ["SdClientConfig"]);
    ("annotations", FObjs false ["Annotation"]);
    ("adminData", FObj false ["AdminData"]);
    ("category", FLeaf false RLiteral);
    ("introduction", FObj false ["DocumentationBlock"]);
    ("desc", FObj false ["MultiLanguageOverviewParagraph"]);
    ("variationPoint", FObj false ["VariationPoint"]);
    ("longName", FObj false ["MultilanguageLongName"]);
    ("short_name", FName);
    ("shortNameFragments", FObjs false ["ShortNameFragment"]);
    ("timestamp", FAttr false);
    ("uuid", FAttr false)]);
   ("ConsumedServiceInstance", [("consumedEventGroups", FObjs false ["ConsumedEventGroup"]);
    ("providedServiceInstanceRef", FLeaf false RRef);
    ("sdClientConfig", FObj false ["SdClientConfig"]);
    ("annotations", FObjs false ["Annotation"]);
    ("adminData", FObj false ["AdminData"]);
    ("category", FLeaf false RLiteral);
    ("introduction", FObj false ["DocumentationBlock"]);
    ("desc", FObj false ["MultiLanguageOverviewParagraph"]);
    ("variationPoint", FObj false ["VariationPoint"]);
    ("longName", FObj false ["MultilanguageLongName"]);
    ("short_name", FName);
    ("shortNameFragments", FObjs false ["ShortNameFragment"]);
    ("timestamp", FAttr false);
    ("uuid", FAttr false)]);
   ("ContainedIPduProps", [("collectionSemantics", FLeaf false RLiteral);
    ("headerIdLongHeader", FLeaf false RPositive);
    ("headerIdShortHeader", FLeaf false RPositive);
    ("offset", FLeaf false RNumerical);
    ("timeout", FLeaf false RNumerical);
    ("trigger", FLeaf false RLiteral);
    ("updateIndicationBitPosition", FLeaf false RNumerical)]);
   ("CouplingPort", [("couplingPortDetails", FObj false ["CouplingPortDetails"]);
    ("macLayerType", FLeaf false RLiteral);
    ("vlanMemberships", FObjs false ["VlanMembership"]);
    ("annotations", FObjs false ["Annotation"]);
    ("adminData", FObj false ["AdminData"]);
    ("category", FLeaf false RLiteral);
    ("introduction", FObj false ["DocumentationBlock"]);
    ("desc", FObj false ["MultiLanguageOverviewParagraph"]);
    ("variationPoint", FObj false ["VariationPoint"]);
    ("longName", FObj false ["MultilanguageLongName"]);
    ("short_name", FName);
    ("shortNameFragments", FObjs false ["ShortNameFragment"]);
    ("timestamp", FAttr false);
    ("uuid", FAttr false)]);
   ("CouplingPortDetails", [("couplingPortStructuralElements", FObjs false ["CouplingPortFifo"; "CouplingPortScheduler"]);
    ("ethernetPriorityRegenerations", FObjs false ["EthernetPriorityRegeneration"]);
    ("lastEgressSchedulerRef", FLeaf false RRef)]);
   ("CouplingPortFifo", [("annotations", FObjs false ["Annotation"]);
    ("adminData", FObj false ["AdminData"]);
    ("category", FLeaf false RLiteral);
    ("introduction", FObj false ["DocumentationBlock"]);
    ("desc", FObj false ["MultiLanguageOverviewParagraph"]);
    ("variationPoint", FObj false ["VariationPoint"]);
    ("longName", FObj false ["MultilanguageLongName"]);
    ("short_name", FName);
    ("shortNameFragments", FObjs false ["ShortNameFragment"]);
    ("timestamp", FAttr false);
    ("uuid", FAttr false)]);
   ("CouplingPortScheduler", [("portScheduler", FLeaf false RLiteral);
    ("annotations", FObjs false ["Annotation"]);
    ("adminData", FObj false ["AdminData"]);
    ("category", FLeaf false RLiteral);
    ("introduction", FObj false ["DocumentationBlock"]);
    ("desc", FObj false ["MultiLanguageOverviewParagraph"]);
    ("variationPoint", FObj false ["VariationPoint"]);
    ("longName", FObj false ["MultilanguageLongName"]);
    ("short_name", FName);
    ("shortNameFragments", FObjs false ["ShortNameFragment"]);
    ("timestamp", FAttr false);
    ("uuid", FAttr false)]);
   ("CryptoServiceNeeds", [("maximumKeyLength", FLeaf false RPositive);
    ("annotations", FObjs false ["Annotation"]);
    ("adminData", FObj false ["AdminData"]);
    ("category", FLeaf false RLiteral);
    ("introduction", FObj false ["DocumentationBlock"]);
    ("desc", FObj false ["MultiLanguageOverviewParagraph"]);
    ("variationPoint", FObj false ["VariationPoint"]);
    ("longName", FObj false ["MultilanguageLongName"]);
    ("short_name", FName);
    ("shortNameFragments", FObjs false ["ShortNameFragment"]);
    ("timestamp", FAttr false);
    ("uuid", FAttr false)]);
   ("CycleRepetition", [("BaseCycle", FLeaf false RInteger);
    ("CycleRepetition", FLeaf false RLiteral);
    ("timestamp", FAttr false);
    ("uuid", FAttr false)]);
   ("CyclicTiming", [("timeOffset", FObj false ["TimeRangeType"]);
    ("timePeriod", FObj false ["TimeRangeType"])]);
   ("DataConstr", [("data_constr_rule", FObjs false ["DataConstrRule"]);
    ("annotations", FObjs false ["Annotation"]);
    ("adminData", FObj false ["AdminData"]);
    ("category", FLeaf false RLiteral);
    ("introduction", FObj false ["DocumentationBlock"]);
    ("desc", FObj false ["MultiLanguageOverviewParagraph"]);
    ("variationPoint", FObj false ["VariationPoint"]);
    ("longName", FObj false ["MultilanguageLongName"]);
    ("short_name", FName);
    ("shortNameFragments", FObjs false ["ShortNameFragment"]);
    ("timestamp", FAttr false);
    ("uuid", FAttr false)]);
   ("DataConstrRule", [("constrLevel", FLeaf false RNumerical);
    ("internalConstrs", FObj false ["InternalConstrs"]);
    ("physConstrs", FObj false ["PhysConstrs"]);
    ("timestamp", FAttr false);
    ("uuid", FAttr false)]);
   ("DataFilter", [("dataFilterType", FLeaf false RLiteral);
    ("mask", FLeaf false RInteger);
    ("x", FLeaf false RInteger)]);
   ("DataPrototypeGroup", [("dataPrototypeGroupIRefs", FObjs false ["InnerDataPrototypeGroupInCompositionInstanceRef"]);
    ("implicitDataAccessIRefs", FObjs false ["VariableDataPrototypeInCompositionInstanceRef"]);
    ("annotations", FObjs false ["Annotation"]);
    ("adminData", FObj false ["AdminData"]);
    ("category", FLeaf false RLiteral);
    ("introduction", FObj false ["DocumentationBlock"]);
    ("desc", FObj false ["MultiLanguageOverviewParagraph"]);
    ("variationPoint", FObj false ["VariationPoint"]);
    ("longName", FObj false ["MultilanguageLongName"]);
    ("short_name", FName);
    ("shortNameFragments", FObjs false ["ShortNameFragment"]);
    ("timestamp", FAttr false);
    ("uuid", FAttr false)]);
   ("DataPrototypeInClientServerInterfaceInstanceRef", [("baseRef", FLeaf false RRef);
    ("contextDataPrototypeInCsRefs", FLeafs RRef);
    ("rootDataPrototypeInCsRef", FLeaf false RRef);
    ("targetDataPrototypeInCsRef", FLeaf false RRef);
    ("timestamp", FAttr false);
    ("uuid", FAttr false)]);
   ("DataPrototypeInPortInterfaceRef", [("dataPrototypeInClientServerInterface", FObj false ["DataPrototypeInClientServerInterfaceInstanceRef"]);
    ("tagId", FLeaf false RPositive);
    ("timestamp", FAttr false);
    ("uuid", FAttr false)]);
   ("DataPrototypeMapping", [("firstDataPrototypeRef", FLeaf false RRef);
    ("firstToSecondDataTransformationRef", FLeaf false RRef);
    ("secondDataPrototypeRef", FLeaf false RRef);
    ("secondToFirstDataTransformationRef", FLeaf false RRef);
    ("textTableMappings", FObjs false ["TextTableMapping"])]);
   ("DataPrototypeTransformationProps", [("dataPrototypeInPortInterfaceRef", FObj false ["DataPrototypeInPortInterfaceRef"]);
    ("networkRepresentationProps", FObj false ["SwDataDefProps"]);
    ("transformationProps", FLeaf false RRef);
    ("timestamp", FAttr false);
    ("uuid", FAttr false)]);
   ("DataReceivedEvent", [("dataIRef", FObj false ["RVariableInAtomicSwcInstanceRef"]);
    ("disabledModeIRefs", FObjs false ["RModeInAtomicSwcInstanceRef"]);
    ("startOnEventRef", FLeaf false RRef);
    ("annotations", FObjs false ["Annotation"]);
    ("adminData", FObj false ["AdminData"]);
    ("category", FLeaf false RLiteral);
    ("introduction", FObj false ["DocumentationBlock"]);
    ("desc", FObj false ["MultiLanguageOverviewParagraph"]);
    ("variationPoint", FObj false ["VariationPoint"]);
    ("longName", FObj false ["MultilanguageLongName"]);
    ("short_name", FName);
    ("shortNameFragments", FObjs false ["ShortNameFragment"]);
    ("timestamp", FAttr false);
    ("uuid", FAttr false);
    ("activationReasonRepresentationRef", FLeaf false RRef)]);
   ("DataSendCompletedEvent", [("eventSourceRef", FLeaf false RRef);
    ("disabledModeIRefs", FObjs false ["RModeInAtomicSwcInstanceRef"]);
    ("startOnEventRef", FLeaf false RRef);
    ("annotations", FObjs false ["Annotation"]);
    ("adminData", FObj false ["AdminData"]);
    ("category", FLeaf false RLiteral);
    ("introduction", FObj false ["DocumentationBlock"]);
    ("desc", FObj false ["MultiLanguageOverviewParagraph"]);
    ("variationPoint", FObj false ["VariationPoint"]);
    ("longName", FObj false ["MultilanguageLongName"]);
    ("short_name", FName);
    ("shortNameFragments", FObjs false ["ShortNameFragment"]);
    ("timestamp", FAttr false);
    ("uuid", FAttr false);
    ("activationReasonRepresentationRef", FLeaf false RRef)]);
   ("DataTransformation", [("dataTransformationKind", FLeaf false RLiteral);
    ("executeDespiteDataUnavailability", FLeaf false RBool);
    ("transformerChainRefs", FLeafs RRef);
    ("annotations", FObjs false ["Annotation"]);
    ("adminData", FObj false ["AdminData"]);
    ("category", FLeaf false RLiteral);
    ("introduction", FObj false ["DocumentationBlock"]);
    ("desc", FObj false ["MultiLanguageOverviewParagraph"]);
    ("variationPoint", FObj false ["VariationPoint"]);
    ("longName", FObj false ["MultilanguageLongName"]);
    ("short_name", FName);
    ("shortNameFragments", FObjs false ["ShortNameFragment"]);
    ("timestamp", FAttr false);
    ("uuid", FAttr false)]);
   ("DataTransformationSet", [("dataTransformations", FObjs false ["DataTransformation"]);
    ("transformationTechnologies", FObjs false ["TransformationTechnology"]);
    ("annotations", FObjs false ["Annotation"]);
    ("adminData", FObj false ["AdminData"]);
    ("category", FLeaf false RLiteral);
    ("introduction", FObj false ["DocumentationBlock"]);
    ("desc", FObj false ["MultiLanguageOverviewParagraph"]);
    ("variationPoint", FObj false ["VariationPoint"]);
    ("longName", FObj false ["MultilanguageLongName"]);
    ("short_name", FName);
    ("shortNameFragments", FObjs false ["ShortNameFragment"]);
    ("timestamp", FAttr false);
    ("uuid", FAttr false)]);
   ("DataTypeMap", [("applicationDataTypeRef", FLeaf false RRef);
    ("implementationDataTypeRef", FLeaf false RRef);
    ("timestamp", FAttr false);
    ("uuid", FAttr false)]);
   ("DataTypeMappingSet", [("dataTypeMaps", FObjs false ["DataTypeMap"]);
    ("modeRequestTypeMaps", FObjs false ["ModeRequestTypeMap"]);
    ("annotations", FObjs false ["Annotation"]);
    ("adminData", FObj false ["AdminData"]);
    ("category", FLeaf false RLiteral);
    ("introduction", FObj false ["DocumentationBlock"]);
    ("desc", FObj false ["MultiLanguageOverviewParagraph"]);
    ("variationPoint", FObj false ["VariationPoint"]);
    ("longName", FObj false ["MultilanguageLongName"]);
    ("short_name", FName);
    ("shortNameFragments", FObjs false ["ShortNameFragment"]);
    ("timestamp", FAttr false);
    ("uuid", FAttr false)]);
   ("DcmIPdu", [("diagPduType", FLeaf false RLiteral);
    ("containedIPduProps", FObj false ["ContainedIPduProps"]);
    ("hasDynamicLength", FLeaf false RBool);
    ("length", FLeaf false RNumerical);
    ("annotations", FObjs false ["Annotation"]);
    ("adminData", FObj false ["AdminData"]);
    ("category", FLeaf false RLiteral);
    ("introduction", FObj false ["DocumentationBlock"]);
    ("desc", FObj false ["MultiLanguageOverviewParagraph"]);
    ("variationPoint", FObj false ["VariationPoint"]);
    ("longName", FObj false ["MultilanguageLongName"]);
    ("short_name", FName);
    ("shortNameFragments", FObjs false ["ShortNameFragment"]);
    ("timestamp", FAttr false);
    ("uuid", FAttr false)]);
   ("DefItem", [("def_doc", FObj false ["DocumentationBlock"]);
    ("helpEntry", FAttrOf "String");
    ("timestamp", FAttr false);
    ("uuid", FAttr false)]);
   ("DefList", [("defItems", FObjs false ["DefItem"]);
    ("timestamp", FAttr false);
    ("uuid", FAttr false)]);
   ("DelegatedPortAnnotation", [("signalFan", FWrap "SignalFanEnum")]);
   ("DelegationSwConnector", [("innerPortIRref", FObj true ["PPortInCompositionInstanceRef"; "RPortInCompositionInstanceRef"]);
    ("outerPortRef", FLeaf false RRef);
    ("annotations", FObjs false ["Annotation"]);
    ("adminData", FObj false ["AdminData"]);
    ("category", FLeaf false RLiteral);
    ("introduction", FObj false ["DocumentationBlock"]);
    ("desc", FObj false ["MultiLanguageOverviewParagraph"]);
    ("variationPoint", FObj false ["VariationPoint"]);
    ("longName", FObj false ["MultilanguageLongName"]);
    ("short_name", FName);
    ("shortNameFragments", FObjs false ["ShortNameFragment"]);
    ("timestamp", FAttr false);
    ("uuid", FAttr false)]);
   ("DependencyOnArtifact", [("annotations", FObjs false ["Annotation"]);
    ("adminData", FObj false ["AdminData"]);
    ("category", FLeaf false RLiteral);
    ("introduction", FObj false ["DocumentationBlock"]);
    ("desc", FObj false ["MultiLanguageOverviewParagraph"]);
    ("variationPoint", FObj false ["VariationPoint"]);
    ("longName", FObj false ["MultilanguageLongName"]);
    ("short_name", FName);
    ("shortNameFragments", FObjs false ["ShortNameFragment"]);
    ("timestamp", FAttr false);
    ("uuid", FAttr false)]);
   ("DevelopmentError", [("id", FLeaf false RPositive);
    ("annotations", FObjs false ["Annotation"]);
    ("adminData", FObj false ["AdminData"]);
    ("category", FLeaf false RLiteral);
    ("introduction", FObj false ["DocumentationBlock"]);
    ("desc", FObj false ["MultiLanguageOverviewParagraph"]);
    ("variationPoint", FObj false ["VariationPoint"]);
    ("longName", FObj false ["MultilanguageLongName"]);
    ("short_name", FName);
    ("shortNameFragments", FObjs false ["ShortNameFragment"]);
    ("timestamp", FAttr false);
    ("uuid", FAttr false)]);
   ("DiagEventDebounceCounterBased", [("annotations", FObjs false ["Annotation"]);
    ("adminData", FObj false ["AdminData"]);
    ("category", FLeaf false RLiteral);
    ("introduction", FObj false ["DocumentationBlock"]);
    ("desc", FObj false ["MultiLanguageOverviewParagraph"]);
    ("variationPoint", FObj false ["VariationPoint"]);
    ("longName", FObj false ["MultilanguageLongName"]);
    ("short_name", FName);
    ("shortNameFragments", FObjs false ["ShortNameFragment"]);
    ("timestamp", FAttr false);
    ("uuid", FAttr false)]);
   ("DiagEventDebounceMonitorInternal", [("annotations", FObjs false ["Annotation"]);
    ("adminData", FObj false ["AdminData"]);
    ("category", FLeaf false RLiteral);
    ("introduction", FObj false ["DocumentationBlock"]);
    ("desc", FObj false ["MultiLanguageOverviewParagraph"]);
    ("variationPoint", FObj false ["VariationPoint"]);
    ("longName", FObj false ["MultilanguageLongName"]);
    ("short_name", FName);
    ("shortNameFragments", FObjs false ["ShortNameFragment"]);
    ("timestamp", FAttr false);
    ("uuid", FAttr false)]);
   ("DiagEventDebounceTimeBased", [("annotations", FObjs false ["Annotation"]);
    ("adminData", FObj false ["AdminData"]);
    ("category", FLeaf false RLiteral);
    ("introduction", FObj false ["DocumentationBlock"]);
    ("desc", FObj false ["MultiLanguageOverviewParagraph"]);
    ("variationPoint", FObj false ["VariationPoint"]);
    ("longName", FObj false ["MultilanguageLongName"]);
    ("short_name", FName);
    ("shortNameFragments", FObjs false ["ShortNameFragment"]);
    ("timestamp", FAttr false);
    ("uuid", FAttr false)]);
   ("DiagnosticCommunicationManagerNeeds", [("serviceRequestCallbackType", FLeaf false RLiteral);
    ("annotations", FObjs false ["Annotation"]);
    ("adminData", FObj false ["AdminData"]);
    ("category", FLeaf false RLiteral);
    ("introduction", FObj false ["DocumentationBlock"]);
    ("desc", FObj false ["MultiLanguageOverviewParagraph"]);
    ("variationPoint", FObj false ["VariationPoint"]);
    ("longName", FObj false ["MultilanguageLongName"]);
    ("short_name", FName);
    ("shortNameFragments", FObjs false ["ShortNameFragment"]);
    ("timestamp", FAttr false);
    ("uuid", FAttr false)]);
   ("DiagnosticConnection", [("functionalRequestRefs", FLeafs RRef);
    ("physicalRequestRef", FLeaf false RRef);
    ("responseOnEventRef", FLeaf false RRef);
    ("annotations", FObjs false ["Annotation"]);
    ("adminData", FObj false ["AdminData"]);
    ("category", FLeaf false RLiteral);
    ("introduction", FObj false ["DocumentationBlock"]);
    ("desc", FObj false ["MultiLanguageOverviewParagraph"]);
    ("variationPoint", FObj false ["VariationPoint"]);
    ("longName", FObj false ["MultilanguageLongName"]);
    ("short_name", FName);
    ("shortNameFragments", FObjs false ["ShortNameFragment"]);
    ("timestamp", FAttr false);
    ("uuid", FAttr false)]);
   ("DiagnosticEnableConditionNeeds", [("initialStatus", FLeaf false RLiteral);
    ("annotations", FObjs false ["Annotation"]);
    ("adminData", FObj false ["AdminData"]);
    ("category", FLeaf false RLiteral);
    ("introduction", FObj false ["DocumentationBlock"]);
    ("desc", FObj false ["MultiLanguageOverviewParagraph"]);
    ("variationPoint", FObj false ["VariationPoint"]);
    ("longName", FObj false ["MultilanguageLongName"]);
    ("short_name", FName);
    ("shortNameFragments", FObjs false ["ShortNameFragment"]);
    ("timestamp", FAttr false);
    ("uuid", FAttr false)]);
   ("DiagnosticEventInfoNeeds", [("dtcKind", FLeaf false RLiteral);
    ("udsDtcNumber", FLeaf false RPositive);
    ("annotations", FObjs false ["Annotation"]);
    ("adminData", FObj false ["AdminData"]);
    ("category", FLeaf false RLiteral);
    ("introduction", FObj false ["DocumentationBlock"]);
    ("desc", FObj false ["MultiLanguageOverviewParagraph"]);
    ("variationPoint", FObj false ["VariationPoint"]);
    ("longName", FObj false ["MultilanguageLongName"]);
    ("short_name", FName);
    ("shortNameFragments", FObjs false ["ShortNameFragment"]);
    ("timestamp", FAttr false);
    ("uuid", FAttr false)]);
   ("DiagnosticEventNeeds", [("deferringFidRefs", FLeafs RRef);
    ("diagEventDebounceAlgorithm", FObj false ["DiagEventDebounceCounterBased"; "DiagEventDebounceMonitorInternal"; "DiagEventDebounceTimeBased"]);
    ("inhibitingFidRef", FLeaf false RRef);
    ("inhibitingSecondaryFidRefs", FLeafs RRef);
    ("prestoredFreezeframeStoredInNvm", FLeaf false RBool);
    ("usesMonitorData", FLeaf false RBool);
    ("annotations", FObjs false ["Annotation"]);
    ("adminData", FObj false ["AdminData"]);
    ("category", FLeaf false RLiteral);
    ("introduction", FObj false ["DocumentationBlock"]);
    ("desc", FObj false ["MultiLanguageOverviewParagraph"]);
    ("variationPoint", FObj false ["VariationPoint"]);
    ("longName", FObj false ["MultilanguageLongName"]);
    ("short_name", FName);
    ("shortNameFragments", FObjs false ["ShortNameFragment"]);
    ("timestamp", FAttr false);
    ("uuid", FAttr false)]);
   ("DiagnosticIoControlNeeds", [("currentValueRef", FLeaf false RRef);
    ("freezeCurrentStateSupported", FLeaf false RBool);
    ("resetToDefaultSupported", FLeaf false RBool);
    ("shortTermAdjustmentSupported", FLeaf false RBool);
    ("annotations", FObjs false ["Annotation"]);
    ("adminData", FObj false ["AdminData"]);
    ("category", FLeaf false RLiteral);
    ("introduction", FObj false ["DocumentationBlock"]);
    ("desc", FObj false ["MultiLanguageOverviewParagraph"]);
    ("variationPoint", FObj false ["VariationPoint"]);
    ("longName", FObj false ["MultilanguageLongName"]);
    ("short_name", FName);
    ("shortNameFragments", FObjs false ["ShortNameFragment"]);
    ("timestamp", FAttr false);
    ("uuid", FAttr false)]);
   ("DiagnosticOperationCycleNeeds", [("operationCycle", FLeaf false RLiteral);
    ("annotations", FObjs false ["Annotation"]);
    ("adminData", FObj false ["AdminData"]);
    ("category", FLeaf false RLiteral);
    ("introduction", FObj false ["DocumentationBlock"]);
    ("desc", FObj false ["MultiLanguageOverviewParagraph"]);
    ("variationPoint", FObj false ["VariationPoint"]);
    ("longName", FObj false ["MultilanguageLongName"]);
    ("short_name", FName);
    ("shortNameFragments", FObjs false ["ShortNameFragment"]);
    ("timestamp", FAttr false);
    ("uuid", FAttr false)]);
   ("DiagnosticRoutineNeeds", [("diagRoutineType", FLeaf false RLiteral);
    ("RidNumber", FLeaf false RInteger);
    ("annotations", FObjs false ["Annotation"]);
    ("adminData", FObj false ["AdminData"]);
    ("category", FLeaf false RLiteral);
    ("introduction", FObj false ["DocumentationBlock"]);
    ("desc", FObj false ["MultiLanguageOverviewParagraph"]);
    ("variationPoint", FObj false ["VariationPoint"]);
    ("longName", FObj false ["MultilanguageLongName"]);
    ("short_name", FName);
    ("shortNameFragments", FObjs false ["ShortNameFragment"]);
    ("timestamp", FAttr false);
    ("uuid", FAttr false)]);
   ("DiagnosticServiceTable", [("diagnosticConnectionRefs", FLeafs RRef);
    ("ecuInstanceRef", FLeaf false RRef);
    ("annotations", FObjs false ["Annotation"]);
    ("adminData", FObj false ["AdminData"]);
    ("category", FLeaf false RLiteral);
    ("introduction", FObj false ["DocumentationBlock"]);
    ("desc", FObj false ["MultiLanguageOverviewParagraph"]);
    ("variationPoint", FObj false ["VariationPoint"]);
    ("longName", FObj false ["MultilanguageLongName"]);
    ("short_name", FName);
    ("shortNameFragments", FObjs false ["ShortNameFragment"]);
    ("timestamp", FAttr false);
    ("uuid", FAttr false)]);
   ("DiagnosticStorageConditionNeeds", [("initialStatus", FLeaf false RLiteral);
    ("annotations", FObjs false ["Annotation"]);
    ("adminData", FObj false ["AdminData"]);
    ("category", FLeaf false RLiteral);
    ("introduction", FObj false ["DocumentationBlock"]);
    ("desc", FObj false ["MultiLanguageOverviewParagraph"]);
    ("variationPoint", FObj false ["VariationPoint"]);
    ("longName", FObj false ["MultilanguageLongName"]);
    ("short_name", FName);
    ("shortNameFragments", FObjs false ["ShortNameFragment"]);
    ("timestamp", FAttr false);
    ("uuid", FAttr false)]);
   ("DiagnosticValueNeeds", [("dataLength", FLeaf false RPositive);
    ("diagnosticValueAccess", FLeaf false RLiteral);
    ("DidNumber", FLeaf false RInteger);
    ("fixedLength", FLeaf false RBool);
    ("processingStyle", FLeaf false RLiteral);
    ("annotations", FObjs false ["Annotation"]);
    ("adminData", FObj false ["AdminData"]);
    ("category", FLeaf false RLiteral);
    ("introduction", FObj false ["DocumentationBlock"]);
    ("desc", FObj false ["MultiLanguageOverviewParagraph"]);
    ("variationPoint", FObj false ["VariationPoint"]);
    ("longName", FObj false ["MultilanguageLongName"]);
    ("short_name", FName);
    ("shortNameFragments", FObjs false ["ShortNameFragment"]);
    ("timestamp", FAttr false);
    ("uuid", FAttr false)]);
   ("DltUserNeeds", [("annotations", FObjs false ["Annotation"]);
    ("adminData", FObj false ["AdminData"]);
    ("category", FLeaf false RLiteral);
    ("introduction", FObj false ["DocumentationBlock"]);
    ("desc", FObj false ["MultiLanguageOverviewParagraph"]);
    ("variationPoint", FObj false ["VariationPoint"]);
    ("longName", FObj false ["MultilanguageLongName"]);
    ("short_name", FName);
    ("shortNameFragments", FObjs false ["ShortNameFragment"]);
    ("timestamp", FAttr false);
    ("uuid", FAttr false)]);
   ("DoIpEntity", [("doIpEntityRole", FLeaf false RLiteral)]);
   ("DoIpLogicAddress", [("address", FLeaf false RInteger);
    ("annotations", FObjs false ["Annotation"]);
    ("adminData", FObj false ["AdminData"]);
    ("category", FLeaf false RLiteral);
    ("introduction", FObj false ["DocumentationBlock"]);
    ("desc", FObj false ["MultiLanguageOverviewParagraph"]);
    ("variationPoint", FObj false ["VariationPoint"]);
    ("longName", FObj false ["MultilanguageLongName"]);
    ("short_name", FName);
    ("shortNameFragments", FObjs false ["ShortNameFragment"]);
    ("timestamp", FAttr false);
    ("uuid", FAttr false)]);
   ("DoIpRoutingActivationAuthenticationNeeds", [("dataLengthRequest", FLeaf false RPositive);
    ("dataLengthResponse", FLeaf false RPositive);
    ("annotations", FObjs false ["Annotation"]);
    ("adminData", FObj false ["AdminData"]);
    ("category", FLeaf false RLiteral);
    ("introduction", FObj false ["DocumentationBlock"]);
    ("desc", FObj false ["MultiLanguageOverviewParagraph"]);
    ("variationPoint", FObj false ["VariationPoint"]);
    ("longName", FObj false ["MultilanguageLongName"]);
    ("short_name", FName);
    ("shortNameFragments", FObjs false ["ShortNameFragment"]);
    ("timestamp", FAttr false);
    ("uuid", FAttr false)]);
   ("DoIpRoutingActivationConfirmationNeeds", [("dataLengthRequest", FLeaf false RPositive);
    ("dataLengthResponse", FLeaf false RPositive);
    ("annotations", FObjs false ["Annotation"]);
    ("adminData", FObj false ["AdminData"]);
    ("category", FLeaf false RLiteral);
    ("introduction", FObj false ["DocumentationBlock"]);
    ("desc", FObj false ["MultiLanguageOverviewParagraph"]);
    ("variationPoint", FObj false ["VariationPoint"]);
    ("longName", FObj false ["MultilanguageLongName"]);
    ("short_name", FName);
    ("shortNameFragments", FObjs false ["ShortNameFragment"]);
    ("timestamp", FAttr false);
    ("uuid", FAttr false)]);
   ("DoIpTpConfig", [("doIpLogicAddresses", FObjs false ["DoIpLogicAddress"]);
    ("tpConnections", FObjs false ["DoIpTpConnection"]);
    ("communicationClusterRef", FLeaf false RRef);
    ("annotations", FObjs false ["Annotation"]);
    ("adminData", FObj false ["AdminData"]);
    ("category", FLeaf false RLiteral);
    ("introduction", FObj false ["DocumentationBlock"]);
    ("desc", FObj false ["MultiLanguageOverviewParagraph"]);
    ("variationPoint", FObj false ["VariationPoint"]);
    ("longName", FObj false ["MultilanguageLongName"]);
    ("short_name", FName);
    ("shortNameFragments", FObjs false ["ShortNameFragment"]);
    ("timestamp", FAttr false);
    ("uuid", FAttr false)]);
   ("DoIpTpConnection", [("doIpSourceAddressRef", FLeaf false RRef);
    ("doIpTargetAddressRef", FLeaf false RRef);
    ("tpSduRef", FLeaf false RRef);
    ("ident", FObj false ["TpConnectionIdent"]);
    ("timestamp", FAttr false);
    ("uuid", FAttr false)]);
   ("DocRevision", [("date", FLeaf false RLiteral);
    ("issuedBy", FLeaf false RLiteral);
    ("modifications", FObjs false ["Modification"]);
    ("revisionLabel", FLeaf false RRevision);
    ("state", FLeaf false RLiteral)]);
   ("Documentation", [("contexts", FObjs false ["DocumentationContext"]);
    ("documentationContent", FObj false ["PredefinedChapter"]);
    ("annotations", FObjs false ["Annotation"]);
    ("adminData", FObj false ["AdminData"]);
    ("category", FLeaf false RLiteral);
    ("introduction", FObj false ["DocumentationBlock"]);
    ("desc", FObj false ["MultiLanguageOverviewParagraph"]);
    ("variationPoint", FObj false ["VariationPoint"]);
    ("longName", FObj false ["MultilanguageLongName"]);
    ("short_name", FName);
    ("shortNameFragments", FObjs false ["ShortNameFragment"]);
    ("timestamp", FAttr false);
    ("uuid", FAttr false)]);
   ("DocumentationBlock", [("defList", FObj false ["DefList"]);
    ("figures", FObjs false ["MlFigure"]);
    ("formula", FObj false ["MlFormula"]);
    ("labeledList", FObj false ["LabeledList"]);
    ("lists", FObjs false ["ARList"]);
    ("msrQueryP2", FObj false ["MsrQueryP2"]);
    ("note", FObj false ["Note"]);
    ("ps", FObjs false ["MultiLanguageParagraph"]);
    ("structuredReq", FObj false ["StructuredReq"]);
    ("trace", FObj false ["TraceableText"]);
    ("verbatim", FObj false ["MultiLanguageVerbatim"]);
    ("timestamp", FAttr false);
    ("uuid", FAttr false)]);
   ("DocumentationContext", [("featureIRef", FObj false ["AnyInstanceRef"]);
    ("identifiableRef", FLeaf false RRef);
    ("longName", FObj false ["MultilanguageLongName"]);
    ("short_name", FName);
    ("shortNameFragments", FObjs false ["ShortNameFragment"]);
    ("timestamp", FAttr false);
    ("uuid", FAttr false)]);
   ("DtcStatusChangeNotificationNeeds", [("dtcFormatType", FLeaf false RLiteral);
    ("annotations", FObjs false ["Annotation"]);
    ("adminData", FObj false ["AdminData"]);
    ("category", FLeaf false RLiteral);
    ("introduction", FObj false ["DocumentationBlock"]);
    ("desc", FObj false ["MultiLanguageOverviewParagraph"]);
    ("variationPoint", FObj false ["VariationPoint"]);
    ("longName", FObj false ["MultilanguageLongName"]);
    ("short_name", FName);
    ("shortNameFragments", FObjs false ["ShortNameFragment"]);
    ("timestamp", FAttr false);
    ("uuid", FAttr false)]);
   ("DynamicPart", [("dynamicPartAlternatives", FObjs false ["DynamicPartAlternative"]);
    ("segmentPositions", FObjs false ["SegmentPosition"])]);
   ("DynamicPartAlternative", [("initialDynamicPart", FLeaf false RBool);
    ("iPduRef", FLeaf false RRef);
    ("selectorFieldCode", FLeaf false RInteger)]);
   ("E2EProfileCompatibilityProps", [("transitToInvalidExtended", FLeaf false RBool);
    ("annotations", FObjs false ["Annotation"]);
    ("adminData", FObj false ["AdminData"]);
    ("category", FLeaf false RLiteral);
    ("introduction", FObj false ["DocumentationBlock"]);
    ("desc", FObj false ["MultiLanguageOverviewParagraph"]);
    ("variationPoint", FObj false ["VariationPoint"]);
    ("longName", FObj false ["MultilanguageLongName"]);
    ("short_name", FName);
    ("shortNameFragments", FObjs false ["ShortNameFragment"]);
    ("timestamp", FAttr false);
    ("uuid", FAttr false)]);
   ("ECUMapping", [("ecuRef", FLeaf false RRef);
    ("ecuInstanceRef", FLeaf false RRef);
    ("annotations", FObjs false ["Annotation"]);
    ("adminData", FObj false ["AdminData"]);
    ("category", FLeaf false RLiteral);
    ("introduction", FObj false ["DocumentationBlock"]);
    ("desc", FObj false ["MultiLanguageOverviewParagraph"]);
    ("variationPoint", FObj false ["VariationPoint"]);
    ("longName", FObj false ["MultilanguageLongName"]);
    ("short_name", FName);
    ("shortNameFragments", FObjs false ["ShortNameFragment"]);
    ("timestamp", FAttr false);
    ("uuid", FAttr false)]);
   ("EOCExecutableEntityRef", [("successor_refs", FLeafs RRef);
    ("annotations", FObjs false ["Annotation"]);
    ("adminData", FObj false ["AdminData"]);
    ("category", FLeaf false RLiteral);
    ("introduction", FObj false ["DocumentationBlock"]);
    ("desc", FObj false ["MultiLanguageOverviewParagraph"]);
    ("variationPoint", FObj false ["VariationPoint"]);
    ("longName", FObj false ["MultilanguageLongName"]);
    ("short_name", FName);
    ("shortNameFragments", FObjs false ["ShortNameFragment"]);
    ("timestamp", FAttr false);
    ("uuid", FAttr false)]);
   ("EcuAbstractionSwComponentType", [("hardwareElementRefs", FLeafs RRef);
    ("internalBehavior", FObj false ["SwcInternalBehavior"]);
    ("symbolProps", FObj false ["SymbolProps"]);
    ("consistencyNeeds", FObjs false ["ConsistencyNeeds"]);
    ("ports", FObjs false ["PPortPrototype"; "PRPortPrototype"; "RPortPrototype"]);
    ("portGroups", FObjs false ["PortGroup"]);
    ("swcMappingConstraintsRefs", FLeafs RRef);
    ("swComponentDocumentation", FObj false ["SwComponentDocumentation"]);
    ("unitGroupRefs", FLeafs RRef);
    ("annotations", FObjs false ["Annotation"]);
    ("adminData", FObj false ["AdminData"]);
    ("category", FLeaf false RLiteral);
    ("introduction", FObj false ["DocumentationBlock"]);
    ("desc", FObj false ["MultiLanguageOverviewParagraph"]);
    ("variationPoint", FObj false ["VariationPoint"]);
    ("longName", FObj false ["MultilanguageLongName"]);
    ("short_name", FName);
    ("shortNameFragments", FObjs false ["ShortNameFragment"]);
    ("timestamp", FAttr false);
    ("uuid", FAttr false)]);
   ("EcuInstance", [("associatedComIPduGroupRefs", FLeafs RRef);
    ("associatedConsumedProvidedServiceInstanceGroupRefs", FLeafs RRef);
    ("associatedPdurIPduGroupRefs", FLeafs RRef);
    ("channelSynchronousWakeup", FLeaf false RBool);
    ("comConfigurationGwTimeBase", FLeaf false RTime);
    ("comConfigurationRxTimeBase", FLeaf false RTime);
    ("comConfigurationTxTimeBase", FLeaf false RTime);
    ("comEnableMDTForCyclicTransmission", FLeaf false RBool);
    ("ecuTaskProxyRefs", FLeafs RRef);
    ("ethSwitchPortGroupDerivation", FLeaf false RBool);
    ("firewallRuleRefs", FLeafs RRef);
    ("pncNmRequest", FLeaf false RBool);
    ("pncPrepareSleepTimer", FLeaf false RTime);
    ("pncSynchronousWakeup", FLeaf false RBool);
    ("pnResetTime", FLeaf false RTime);
    ("sleepModeSupported", FLeaf false RBool);
    ("tcpIpIcmpPropsRef", FLeaf false RRef);
    ("tcpIpPropsRef", FLeaf false RRef);
    ("v2xSupported", FLeaf false RLiteral);
    ("wakeUpOverBusSupported", FLeaf false RBool);
    ("elements/CommunicationController", FObjs true ["CanCommunicationController"; "EthernetCommunicationController"; "FlexrayCommunicationController"; "LinMaster"]);
    ("elements/CommunicationConnector", FObjs true ["CanCommunicationConnector"; "EthernetCommunicationConnector"; "FlexrayCommunicationConnector"; "LinCommunicationConnector"]);
    ("annotations", FObjs false ["Annotation"]);
    ("adminData", FObj false ["AdminData"]);
    ("category", FLeaf false RLiteral);
    ("introduction", FObj false ["DocumentationBlock"]);
    ("desc", FObj false ["MultiLanguageOverviewParagraph"]);
    ("variationPoint", FObj false ["VariationPoint"]);
    ("longName", FObj false ["MultilanguageLongName"]);
    ("short_name", FName);
    ("shortNameFragments", FObjs false ["ShortNameFragment"]);
    ("timestamp", FAttr false);
    ("uuid", FAttr false)]);
   ("EcuStateMgrUserNeeds", [("annotations", FObjs false ["Annotation"]);
    ("adminData", FObj false ["AdminData"]);
    ("category", FLeaf false RLiteral);
    ("introduction", FObj false ["DocumentationBlock"]);
    ("desc", FObj false ["MultiLanguageOverviewParagraph"]);
    ("variationPoint", FObj false ["VariationPoint"]);
    ("longName", FObj false ["MultilanguageLongName"]);
    ("short_name", FName);
    ("shortNameFragments", FObjs false ["ShortNameFragment"]);
    ("timestamp", FAttr false);
    ("uuid", FAttr false)]);
   ("EcucBooleanParamDef", [("defaultValue", FLeaf false RBool);
    ("derivation", FObj false ["EcucDerivationSpecification"]);
    ("symbolicNameValue", FLeaf false RBool);
    ("withAuto", FLeaf false RBool);
    ("multiplicityConfigClasses", FObjs false ["EcucMultiplicityConfigurationClass"]);
    ("origin", FLeaf false RLiteral);
    ("postBuildVariantMultiplicity", FLeaf false RBool);
    ("postBuildVariantValue", FLeaf false RBool);
    ("requiresIndex", FLeaf false RBool);
    ("valueConfigClasses", FObjs false ["EcucValueConfigurationClass"]);
    ("ecucCond", FObj false ["EcucConditionSpecification"]);
    ("ecucValidationConds", FObjs false ["EcucValidationCondition"]);
    ("lowerMultiplicity", FLeaf false RPositive);
    ("scope", FLeaf false RLiteral);
    ("upperMultiplicity", FLeaf false RPositive);
    ("annotations", FObjs false ["Annotation"]);
    ("adminData", FObj false ["AdminData"]);
    ("category", FLeaf false RLiteral);
    ("introduction", FObj false ["DocumentationBlock"]);
    ("desc", FObj false ["MultiLanguageOverviewParagraph"]);
    ("variationPoint", FObj false ["VariationPoint"]);
    ("longName", FObj false ["MultilanguageLongName"]);
    ("short_name", FName);
    ("shortNameFragments", FObjs false ["ShortNameFragment"]);
    ("timestamp", FAttr false);
    ("uuid", FAttr false)]);
   ("EcucChoiceContainerDef", [("choices", FObjs false ["EcucParamConfContainerDef"]);
    ("destinationUriRefs", FObjs false ["EcucDestinationUriDefRefType"]);
    ("multiplicityConfigClasses", FObjs false ["EcucMultiplicityConfigurationClass"]);
    ("origin", FWrap "String");
    ("postBuildVariantMultiplicity", FLeaf false RBool);
    ("requiresIndex", FLeaf false RBool);
    ("ecucCond", FObj false ["EcucConditionSpecification"]);
    ("ecucValidationConds", FObjs false ["EcucValidationCondition"]);
    ("lowerMultiplicity", FLeaf false RPositive);
    ("scope", FLeaf false RLiteral);
    ("upperMultiplicity", FLeaf false RPositive);
    ("annotations", FObjs false ["Annotation"]);
    ("adminData", FObj false ["AdminData"]);
    ("category", FLeaf false RLiteral);
    ("introduction", FObj false ["DocumentationBlock"]);
    ("desc", FObj false ["MultiLanguageOverviewParagraph"]);
    ("variationPoint", FObj false ["VariationPoint"]);
    ("longName", FObj false ["MultilanguageLongName"]);
    ("short_name", FName);
    ("shortNameFragments", FObjs false ["ShortNameFragment"]);
    ("timestamp", FAttr false);
    ("uuid", FAttr false)]);
   ("EcucChoiceReferenceDef", [("destinationRefs", FLeafs RRef);
    ("requiresSymbolicNameValue", FLeaf false RBool);
    ("withAuto", FLeaf false RBool);
    ("multiplicityConfigClasses", FObjs false ["EcucMultiplicityConfigurationClass"]);
    ("origin", FLeaf false RLiteral);
    ("postBuildVariantMultiplicity", FLeaf false RBool);
    ("postBuildVariantValue", FLeaf false RBool);
    ("requiresIndex", FLeaf false RBool);
    ("valueConfigClasses", FObjs false ["EcucValueConfigurationClass"]);
    ("ecucCond", FObj false ["EcucConditionSpecification"]);
    ("ecucValidationConds", FObjs false ["EcucValidationCondition"]);
    ("lowerMultiplicity", FLeaf false RPositive);
    ("scope", FLeaf false RLiteral);
    ("upperMultiplicity", FLeaf false RPositive);
    ("annotations", FObjs false ["Annotation"]);
    ("adminData", FObj false ["AdminData"]);
    ("category", FLeaf false RLiteral);
    ("introduction", FObj false ["DocumentationBlock"]);
    ("desc", FObj false ["MultiLanguageOverviewParagraph"]);
    ("variationPoint", FObj false ["VariationPoint"]);
    ("longName", FObj false ["MultilanguageLongName"]);
    ("short_name", FName);
    ("shortNameFragments", FObjs false ["ShortNameFragment"]);
    ("timestamp", FAttr false);
    ("uuid", FAttr false)]);
   ("EcucConditionFormula", [("ecucQueryRef", FLeaf false RRef);
    ("ecucQueryStringRef", FLeaf false RRef)]);
   ("EcucConditionSpecification", [("conditionFormula", FObj false ["EcucConditionFormula"]);
    ("ecucQueries", FObjs false ["EcucQuery"]);
    ("informalFormula", FObj false ["MlFormula"])]);
   ("EcucContainerValue", [("definitionRef", FLeaf false RRef);
    ("parameterValues", FObjs false ["EcucNumericalParamValue"; "EcucTextualParamValue"]);
    ("referenceValues", FObjs false ["EcucReferenceValue"]);
    ("subContainers", FObjs false ["EcucContainerValue"]);
    ("annotations", FObjs false ["Annotation"]);
    ("adminData", FObj false ["AdminData"]);
    ("category", FLeaf false RLiteral);
    ("introduction", FObj false ["DocumentationBlock"]);
    ("desc", FObj false ["MultiLanguageOverviewParagraph"]);
    ("variationPoint", FObj false ["VariationPoint"]);
    ("longName", FObj false ["MultilanguageLongName"]);
    ("short_name", FName);
    ("shortNameFragments", FObjs false ["ShortNameFragment"]);
    ("timestamp", FAttr false);
    ("uuid", FAttr false);
    ("index", FLeaf false RPositive)]);
   ("EcucDefinitionCollection", [("moduleRefs", FLeafs RRef);
    ("annotations", FObjs false ["Annotation"]);
    ("adminData", FObj false ["AdminData"]);
    ("category", FLeaf false RLiteral);
    ("introduction", FObj false ["DocumentationBlock"]);
    ("desc", FObj false ["MultiLanguageOverviewParagraph"]);
    ("variationPoint", FObj false ["VariationPoint"]);
    ("longName", FObj false ["MultilanguageLongName"]);
    ("short_name", FName);
    ("shortNameFragments", FObjs false ["ShortNameFragment"]);
    ("timestamp", FAttr false);
    ("uuid", FAttr false)]);
   ("EcucDerivationSpecification", [("calculationFormula", FObj false ["EcucParameterDerivationFormula"]);
    ("ecucQueries", FObjs false ["EcucQuery"]);
    ("informalFormula", FObj false ["MlFormula"])]);
   ("EcucDestinationUriDef", [("destinationUriPolicy", FObj false ["EcucDestinationUriPolicy"]);
    ("annotations", FObjs false ["Annotation"]);
    ("adminData", FObj false ["AdminData"]);
    ("category", FLeaf false RLiteral);
    ("introduction", FObj false ["DocumentationBlock"]);
    ("desc", FObj false ["MultiLanguageOverviewParagraph"]);
    ("variationPoint", FObj false ["VariationPoint"]);
    ("longName", FObj false ["MultilanguageLongName"]);
    ("short_name", FName);
    ("shortNameFragments", FObjs false ["ShortNameFragment"]);
    ("timestamp", FAttr false);
    ("uuid", FAttr false)]);
   ("EcucDestinationUriDefRefType", [("base", FAttr false);
    ("dest", FAttr false)]);
   ("EcucDestinationUriDefSet", [("destinationUriDefs", FObjs false ["EcucDestinationUriDef"]);
    ("short_name", FName)]);
   ("EcucDestinationUriPolicy", [("containers", FObjs false ["EcucChoiceContainerDef"; "EcucParamConfContainerDef"]);
    ("parameters", FObjs false ["EcucBooleanParamDef"; "EcucEnumerationParamDef"; "EcucFloatParamDef"; "EcucFunctionNameDef"; "EcucIntegerParamDef"; "EcucMultilineStringParamDef"; "EcucStringParamDef"]);
    ("references", FObjs false ["EcucChoiceReferenceDef"; "EcucInstanceReferenceDef"; "EcucReferenceDef"; "EcucSymbolicNameReferenceDef"]);
    ("timestamp", FAttr false);
    ("uuid", FAttr false)]);
   ("EcucEnumerationLiteralDef", [("origin", FLeaf false RLiteral);
    ("annotations", FObjs false ["Annotation"]);
    ("adminData", FObj false ["AdminData"]);
    ("category", FLeaf false RLiteral);
    ("introduction", FObj false ["DocumentationBlock"]);
    ("desc", FObj false ["MultiLanguageOverviewParagraph"]);
    ("variationPoint", FObj false ["VariationPoint"]);
    ("longName", FObj false ["MultilanguageLongName"]);
    ("short_name", FName);
    ("shortNameFragments", FObjs false ["ShortNameFragment"]);
    ("timestamp", FAttr false);
    ("uuid", FAttr false)]);
   ("EcucEnumerationParamDef", [("defaultValue", FLeaf false RLiteral);
    ("literals", FObjs false ["EcucEnumerationLiteralDef"]);
    ("derivation", FObj false ["EcucDerivationSpecification"]);
    ("symbolicNameValue", FLeaf false RBool);
    ("withAuto", FLeaf false RBool);
    ("multiplicityConfigClasses", FObjs false ["EcucMultiplicityConfigurationClass"]);
    ("origin", FLeaf false RLiteral);
    ("postBuildVariantMultiplicity", FLeaf false RBool);
    ("postBuildVariantValue", FLeaf false RBool);
    ("requiresIndex", FLeaf false RBool);
    ("valueConfigClasses", FObjs false ["EcucValueConfigurationClass"]);
    ("ecucCond", FObj false ["EcucConditionSpecification"]);
    ("ecucValidationConds", FObjs false ["EcucValidationCondition"]);
    ("lowerMultiplicity", FLeaf false RPositive);
    ("scope", FLeaf false RLiteral);
    ("upperMultiplicity", FLeaf false RPositive);
    ("annotations", FObjs false ["Annotation"]);
    ("adminData", FObj false ["AdminData"]);
    ("category", FLeaf false RLiteral);
    ("introduction", FObj false ["DocumentationBlock"]);
    ("desc", FObj false ["MultiLanguageOverviewParagraph"]);
    ("variationPoint", FObj false ["VariationPoint"]);
    ("longName", FObj false ["MultilanguageLongName"]);
    ("short_name", FName);
    ("shortNameFragments", FObjs false ["ShortNameFragment"]);
    ("timestamp", FAttr false);
    ("uuid", FAttr false)]);
   ("EcucFloatParamDef", [("defaultValue", FLeaf false RFloat);
    ("max", FLeaf false RLimit);
    ("min", FLeaf false RLimit);
    ("derivation", FObj false ["EcucDerivationSpecification"]);
    ("symbolicNameValue", FLeaf false RBool);
    ("withAuto", FLeaf false RBool);
    ("multiplicityConfigClasses", FObjs false ["EcucMultiplicityConfigurationClass"]);
    ("origin", FLeaf false RLiteral);
    ("postBuildVariantMultiplicity", FLeaf false RBool);
    ("postBuildVariantValue", FLeaf false RBool);
    ("requiresIndex", FLeaf false RBool);
    ("valueConfigClasses", FObjs false ["EcucValueConfigurationClass"]);
    ("ecucCond", FObj false ["EcucConditionSpecification"]);
    ("ecucValidationConds", FObjs false ["EcucValidationCondition"]);
    ("lowerMultiplicity", FLeaf false RPositive);
    ("scope", FLeaf false RLiteral);
    ("upperMultiplicity", FLeaf false RPositive);
    ("annotations", FObjs false ["Annotation"]);
    ("adminData", FObj false ["AdminData"]);
    ("category", FLeaf false RLiteral);
    ("introduction", FObj false ["DocumentationBlock"]);
    ("desc", FObj false ["MultiLanguageOverviewParagraph"]);
    ("variationPoint", FObj false ["VariationPoint"]);
    ("longName", FObj false ["MultilanguageLongName"]);
    ("short_name", FName);
    ("shortNameFragments", FObjs false ["ShortNameFragment"]);
    ("timestamp", FAttr false);
    ("uuid", FAttr false)]);
   ("EcucFunctionNameDef", [("defaultValue", FLeaf false RLiteral);
    ("maxLength", FLeaf false RInteger);
    ("minLength", FLeaf false RInteger);
    ("regularExpression", FLeaf false RLiteral);
    ("derivation", FObj false ["EcucDerivationSpecification"]);
    ("symbolicNameValue", FLeaf false RBool);
    ("withAuto", FLeaf false RBool);
    ("multiplicityConfigClasses", FObjs false ["EcucMultiplicityConfigurationClass"]);
    ("origin", FLeaf false RLiteral);
    ("postBuildVariantMultiplicity", FLeaf false RBool);
    ("postBuildVariantValue", FLeaf false RBool);
    ("requiresIndex", FLeaf false RBool);
    ("valueConfigClasses", FObjs false ["EcucValueConfigurationClass"]);
    ("ecucCond", FObj false ["EcucConditionSpecification"]);
    ("ecucValidationConds", FObjs false ["EcucValidationCondition"]);
    ("lowerMultiplicity", FLeaf false RPositive);
    ("scope", FLeaf false RLiteral);
    ("upperMultiplicity", FLeaf false RPositive);
    ("annotations", FObjs false ["Annotation"]);
    ("adminData", FObj false ["AdminData"]);
    ("category", FLeaf false RLiteral);
    ("introduction", FObj false ["DocumentationBlock"]);
    ("desc", FObj false ["MultiLanguageOverviewParagraph"]);
    ("variationPoint", FObj false ["VariationPoint"]);
    ("longName", FObj false ["MultilanguageLongName"]);
    ("short_name", FName);
    ("shortNameFragments", FObjs false ["ShortNameFragment"]);
    ("timestamp", FAttr false);
    ("uuid", FAttr false)]);
   ("EcucInstanceReferenceDef", [("destinationContext", FLeaf false RLiteral);
    ("destinationType", FLeaf false RLiteral);
    ("withAuto", FLeaf false RBool);
    ("multiplicityConfigClasses", FObjs false ["EcucMultiplicityConfigurationClass"]);
    ("origin", FLeaf false RLiteral);
    ("postBuildVariantMultiplicity", FLeaf false RBool);
    ("postBuildVariantValue", FLeaf false RBool);
    ("requiresIndex", FLeaf false RBool);
    ("valueConfigClasses", FObjs false ["EcucValueConfigurationClass"]);
    ("ecucCond", FObj false ["EcucConditionSpecification"]);
    ("ecucValidationConds", FObjs false ["EcucValidationCondition"]);
    ("lowerMultiplicity", FLeaf false RPositive);
    ("scope", FLeaf false RLiteral);
    ("upperMultiplicity", FLeaf false RPositive);
    ("annotations", FObjs false ["Annotation"]);
    ("adminData", FObj false ["AdminData"]);
    ("category", FLeaf false RLiteral);
    ("introduction", FObj false ["DocumentationBlock"]);
    ("desc", FObj false ["MultiLanguageOverviewParagraph"]);
    ("variationPoint", FObj false ["VariationPoint"]);
    ("longName", FObj false ["MultilanguageLongName"]);
    ("short_name", FName);
    ("shortNameFragments", FObjs false ["ShortNameFragment"]);
    ("timestamp", FAttr false);
    ("uuid", FAttr false)]);
   ("EcucIntegerParamDef", [("defaultValue", FLeaf false RInteger);
    ("max", FLeaf false RInteger);
    ("min", FLeaf false RInteger);
    ("derivation", FObj false ["EcucDerivationSpecification"]);
    ("symbolicNameValue", FLeaf false RBool);
    ("withAuto", FLeaf false RBool);
    ("multiplicityConfigClasses", FObjs false ["EcucMultiplicityConfigurationClass"]);
    ("origin", FLeaf false RLiteral);
    ("postBuildVariantMultiplicity", FLeaf false RBool);
    ("postBuildVariantValue", FLeaf false RBool);
    ("requiresIndex", FLeaf false RBool);
    ("valueConfigClasses", FObjs false ["EcucValueConfigurationClass"]);
    ("ecucCond", FObj false ["EcucConditionSpecification"]);
    ("ecucValidationConds", FObjs false ["EcucValidationCondition"]);
    ("lowerMultiplicity", FLeaf false RPositive);
    ("scope", FLeaf false RLiteral);
    ("upperMultiplicity", FLeaf false RPositive);
    ("annotations", FObjs false ["Annotation"]);
    ("adminData", FObj false ["AdminData"]);
    ("category", FLeaf false RLiteral);
    ("introduction", FObj false ["DocumentationBlock"]);
    ("desc", FObj false ["MultiLanguageOverviewParagraph"]);
    ("variationPoint", FObj false ["VariationPoint"]);
    ("longName", FObj false ["MultilanguageLongName"]);
    ("short_name", FName);
    ("shortNameFragments", FObjs false ["ShortNameFragment"]);
    ("timestamp", FAttr false);
    ("uuid", FAttr false)]);
   ("EcucModuleConfigurationValues", [("definitionRef", FLeaf false RRef);
    ("ecucDefEdition", FLeaf false RLiteral);
    ("implementationConfigVariant", FLeaf false RLiteral);
    ("moduleDescriptionRef", FLeaf false RRef);
    ("postBuildVariantUsed", FLeaf false RBool);
    ("elements/EcucContainerValue", FObjs true ["EcucContainerValue"]);
    ("annotations", FObjs false ["Annotation"]);
    ("adminData", FObj false ["AdminData"]);
    ("category", FLeaf false RLiteral);
    ("introduction", FObj false ["DocumentationBlock"]);
    ("desc", FObj false ["MultiLanguageOverviewParagraph"]);
    ("variationPoint", FObj false ["VariationPoint"]);
    ("longName", FObj false ["MultilanguageLongName"]);
    ("short_name", FName);
    ("shortNameFragments", FObjs false ["ShortNameFragment"]);
    ("timestamp", FAttr false);
    ("uuid", FAttr false)]);
   ("EcucModuleDef", [("apiServicePrefix", FLeaf false RLiteral);
    ("containers", FObjs false ["EcucChoiceContainerDef"; "EcucParamConfContainerDef"]);
    ("postBuildVariantSupport", FLeaf false RBool);
    ("refinedModuleDefRef", FLeaf false RRef);
    ("supportedConfigVariants", FLeafs RLitItem);
    ("ecucCond", FObj false ["EcucConditionSpecification"]);
    ("ecucValidationConds", FObjs false ["EcucValidationCondition"]);
    ("lowerMultiplicity", FLeaf false RPositive);
    ("scope", FLeaf false RLiteral);
    ("upperMultiplicity", FLeaf false RPositive);
    ("annotations", FObjs false ["Annotation"]);
    ("adminData", FObj false ["AdminData"]);
    ("category", FLeaf false RLiteral);
    ("introduction", FObj false ["DocumentationBlock"]);
    ("desc", FObj false ["MultiLanguageOverviewParagraph"]);
    ("variationPoint", FObj false ["VariationPoint"]);
    ("longName", FObj false ["MultilanguageLongName"]);
    ("short_name", FName);
    ("shortNameFragments", FObjs false ["ShortNameFragment"]);
    ("timestamp", FAttr false);
    ("uuid", FAttr false)]);
   ("EcucMultilineStringParamDef", [("defaultValue", FLeaf false RLiteral);
    ("maxLength", FLeaf false RInteger);
    ("minLength", FLeaf false RInteger);
    ("regularExpression", FLeaf false RLiteral);
    ("derivation", FObj false ["EcucDerivationSpecification"]);
    ("symbolicNameValue", FLeaf false RBool);
    ("withAuto", FLeaf false RBool);
    ("multiplicityConfigClasses", FObjs false ["EcucMultiplicityConfigurationClass"]);
    ("origin", FLeaf false RLiteral);
    ("postBuildVariantMultiplicity", FLeaf false RBool);
    ("postBuildVariantValue", FLeaf false RBool);
    ("requiresIndex", FLeaf false RBool);
    ("valueConfigClasses", FObjs false ["EcucValueConfigurationClass"]);
    ("ecucCond", FObj false ["EcucConditionSpecification"]);
    ("ecucValidationConds", FObjs false ["EcucValidationCondition"]);
    ("lowerMultiplicity", FLeaf false RPositive);
    ("scope", FLeaf false RLiteral);
    ("upperMultiplicity", FLeaf false RPositive);
    ("annotations", FObjs false ["Annotation"]);
    ("adminData", FObj false ["AdminData"]);
    ("category", FLeaf false RLiteral);
    ("introduction", FObj false ["DocumentationBlock"]);
    ("desc", FObj false ["MultiLanguageOverviewParagraph"]);
    ("variationPoint", FObj false ["VariationPoint"]);
    ("longName", FObj false ["MultilanguageLongName"]);
    ("short_name", FName);
    ("shortNameFragments", FObjs false ["ShortNameFragment"]);
    ("timestamp", FAttr false);
    ("uuid", FAttr false)]);
   ("EcucMultiplicityConfigurationClass", [("configClass", FLeaf false RLiteral);
    ("configVariant", FLeaf false RLiteral);
    ("timestamp", FAttr false);
    ("uuid", FAttr false)]);
   ("EcucNumericalParamValue", [("value", FLeaf false RNumerical);
    ("annotations", FObjs false ["Annotation"]);
    ("definitionRef", FLeaf false RRef);
    ("index", FLeaf false RPositive)]);
   ("EcucParamConfContainerDef", [("parameters", FObjs false ["EcucBooleanParamDef"; "EcucEnumerationParamDef"; "EcucFloatParamDef"; "EcucFunctionNameDef"; "EcucIntegerParamDef"; "EcucMultilineStringParamDef"; "EcucStringParamDef"]);
    ("references", FObjs false ["EcucChoiceReferenceDef"; "EcucInstanceReferenceDef"; "EcucReferenceDef"; "EcucSymbolicNameReferenceDef"]);
    ("subContainers", FObjs false ["EcucChoiceContainerDef"; "EcucParamConfContainerDef"]);
    ("destinationUriRefs", FObjs false ["EcucDestinationUriDefRefType"]);
    ("multiplicityConfigClasses", FObjs false ["EcucMultiplicityConfigurationClass"]);
    ("origin", FWrap "String");
    ("postBuildVariantMultiplicity", FLeaf false RBool);
    ("requiresIndex", FLeaf false RBool);
    ("ecucCond", FObj false ["EcucConditionSpecification"]);
    ("ecucValidationConds", FObjs false ["EcucValidationCondition"]);
    ("lowerMultiplicity", FLeaf false RPositive);
    ("scope", FLeaf false RLiteral);
    ("upperMultiplicity", FLeaf false RPositive);
    ("annotations", FObjs false ["Annotation"]);
    ("adminData", FObj false ["AdminData"]);
    ("category", FLeaf false RLiteral);
    ("introduction", FObj false ["DocumentationBlock"]);
    ("desc", FObj false ["MultiLanguageOverviewParagraph"]);
    ("variationPoint", FObj false ["VariationPoint"]);
    ("longName", FObj false ["MultilanguageLongName"]);
    ("short_name", FName);
    ("shortNameFragments", FObjs false ["ShortNameFragment"]);
    ("timestamp", FAttr false);
    ("uuid", FAttr false)]);
   ("EcucParameterDerivationFormula", [("ecucQueryRef", FLeaf false RRef);
    ("ecucQueryStringRef", FLeaf false RRef)]);
   ("EcucQuery", [("ecucQueryExpression", FObj false ["EcucQueryExpression"]);
    ("annotations", FObjs false ["Annotation"]);
    ("adminData", FObj false ["AdminData"]);
    ("category", FLeaf false RLiteral);
    ("introduction", FObj false ["DocumentationBlock"]);
    ("desc", FObj false ["MultiLanguageOverviewParagraph"]);
    ("variationPoint", FObj false ["VariationPoint"]);
    ("longName", FObj false ["MultilanguageLongName"]);
    ("short_name", FName);
    ("shortNameFragments", FObjs false ["ShortNameFragment"]);
    ("timestamp", FAttr false);
    ("uuid", FAttr false)]);
   ("EcucQueryExpression", [("configElementDefGlobalRef", FLeaf false RRef);
    ("configElementDefLocalRef", FLeaf false RRef)]);
   ("EcucReferenceDef", [("destinationRef", FLeaf false RRef);
    ("requiresSymbolicNameValue", FLeaf false RBool);
    ("withAuto", FLeaf false RBool);
    ("multiplicityConfigClasses", FObjs false ["EcucMultiplicityConfigurationClass"]);
    ("origin", FLeaf false RLiteral);
    ("postBuildVariantMultiplicity", FLeaf false RBool);
    ("postBuildVariantValue", FLeaf false RBool);
    ("requiresIndex", FLeaf false RBool);
    ("valueConfigClasses", FObjs false ["EcucValueConfigurationClass"]);
    ("ecucCond", FObj false ["EcucConditionSpecification"]);
    ("ecucValidationConds", FObjs false ["EcucValidationCondition"]);
    ("lowerMultiplicity", FLeaf false RPositive);
    ("scope", FLeaf false RLiteral);
    ("upperMultiplicity", FLeaf false RPositive);
    ("annotations", FObjs false ["Annotation"]);
    ("adminData", FObj false ["AdminData"]);
    ("category", FLeaf false RLiteral);
    ("introduction", FObj false ["DocumentationBlock"]);
    ("desc", FObj false ["MultiLanguageOverviewParagraph"]);
    ("variationPoint", FObj false ["VariationPoint"]);
    ("longName", FObj false ["MultilanguageLongName"]);
    ("short_name", FName);
    ("shortNameFragments", FObjs false ["ShortNameFragment"]);
    ("timestamp", FAttr false);
    ("uuid", FAttr false)]);
   ("EcucReferenceValue", [("valueRef", FLeaf false RRef);
    ("annotations", FObjs false ["Annotation"]);
    ("definitionRef", FLeaf false RRef);
    ("index", FLeaf false RPositive)]);
   ("EcucStringParamDef", [("defaultValue", FLeaf false RLiteral);
    ("maxLength", FLeaf false RInteger);
    ("minLength", FLeaf false RInteger);
    ("regularExpression", FLeaf false RLiteral);
    ("derivation", FObj false ["EcucDerivationSpecification"]);
    ("symbolicNameValue", FLeaf false RBool);
    ("withAuto", FLeaf false RBool);
    ("multiplicityConfigClasses", FObjs false ["EcucMultiplicityConfigurationClass"]);
    ("origin", FLeaf false RLiteral);
    ("postBuildVariantMultiplicity", FLeaf false RBool);
    ("postBuildVariantValue", FLeaf false RBool);
    ("requiresIndex", FLeaf false RBool);
    ("valueConfigClasses", FObjs false ["EcucValueConfigurationClass"]);
    ("ecucCond", FObj false ["EcucConditionSpecification"]);
    ("ecucValidationConds", FObjs false ["EcucValidationCondition"]);
    ("lowerMultiplicity", FLeaf false RPositive);
    ("scope", FLeaf false RLiteral);
    ("upperMultiplicity", FLeaf false RPositive);
    ("annotations", FObjs false ["Annotation"]);
    ("adminData", FObj false ["AdminData"]);
    ("category", FLeaf false RLiteral);
    ("introduction", FObj false ["DocumentationBlock"]);
    ("desc", FObj false ["MultiLanguageOverviewParagraph"]);
    ("variationPoint", FObj false ["VariationPoint"]);
    ("longName", FObj false ["MultilanguageLongName"]);
    ("short_name", FName);
    ("shortNameFragments", FObjs false ["ShortNameFragment"]);
    ("timestamp", FAttr false);
    ("uuid", FAttr false)]);
   ("EcucSymbolicNameReferenceDef", [("destinationRef", FLeaf false RRef);
    ("requiresSymbolicNameValue", FLeaf false RBool);
    ("withAuto", FLeaf false RBool);
    ("multiplicityConfigClasses", FObjs false ["EcucMultiplicityConfigurationClass"]);
    ("origin", FLeaf false RLiteral);
    ("postBuildVariantMultiplicity", FLeaf false RBool);
    ("postBuildVariantValue", FLeaf false RBool);
    ("requiresIndex", FLeaf false RBool);
    ("valueConfigClasses", FObjs false ["EcucValueConfigurationClass"]);
    ("ecucCond", FObj false ["EcucConditionSpecification"]);
    ("ecucValidationConds", FObjs false ["EcucValidationCondition"]);
    ("lowerMultiplicity", FLeaf false RPositive);
    ("scope", FLeaf false RLiteral);
    ("upperMultiplicity", FLeaf false RPositive);
    ("annotations", FObjs false ["Annotation"]);
    ("adminData", FObj false ["AdminData"]);
    ("category", FLeaf false RLiteral);
    ("introduction", FObj false ["DocumentationBlock"]);
    ("desc", FObj false ["MultiLanguageOverviewParagraph"]);
    ("variationPoint", FObj false ["VariationPoint"]);
    ("longName", FObj false ["MultilanguageLongName"]);
    ("short_name", FName);
    ("shortNameFragments", FObjs false ["ShortNameFragment"]);
    ("timestamp", FAttr false);
    ("uuid", FAttr false)]);
   ("EcucTextualParamValue", [("value", FLeaf false RLiteral);
    ("annotations", FObjs false ["Annotation"]);
    ("definitionRef", FLeaf false RRef);
    ("index", FLeaf false RPositive)]);
   ("EcucValidationCondition", [("ecucQueries", FObjs false ["EcucQuery"]);
    ("validationFormula", FObj false ["EcucConditionFormula"]);
    ("annotations", FObjs false ["Annotation"]);
    ("adminData", FObj false ["AdminData"]);
    ("category", FLeaf false RLiteral);
    ("introduction", FObj false ["DocumentationBlock"]);
    ("desc", FObj false ["MultiLanguageOverviewParagraph"]);
    ("variationPoint", FObj false ["VariationPoint"]);
    ("longName", FObj false ["MultilanguageLongName"]);
    ("short_name", FName);
    ("shortNameFragments", FObjs false ["ShortNameFragment"]);
    ("timestamp", FAttr false);
    ("uuid", FAttr false)]);
   ("EcucValueConfigurationClass", [("configClass", FLeaf false RLiteral);
    ("configVariant", FLeaf false RLiteral);
    ("timestamp", FAttr false);
    ("uuid", FAttr false)]);
   ("EndToEndDescription", [("category", FLeaf false RLiteral);
    ("counterOffset", FLeaf false RPositive);
    ("crcOffset", FLeaf false RPositive);
    ("dataIds", FLeafs RNumItem);
    ("dataIdMode", FLeaf false RPositive);
    ("dataLength", FLeaf false RPositive);
    ("maxDeltaCounterInit", FLeaf false RPositive);
    ("timestamp", FAttr false);
    ("uuid", FAttr false)]);
   ("EndToEndProtection", [("endToEndProfile", FObj false ["EndToEndDescription"]);
    ("endToEndProtectionISignalIPdus", FObjs false ["EndToEndProtectionISignalIPdu"]);
    ("annotations", FObjs false ["Annotation"]);
    ("adminData", FObj false ["AdminData"]);
    ("category", FLeaf false RLiteral);
    ("introduction", FObj false ["DocumentationBlock"]);
    ("desc", FObj false ["MultiLanguageOverviewParagraph"]);
    ("variationPoint", FObj false ["VariationPoint"]);
    ("longName", FObj false ["MultilanguageLongName"]);
    ("short_name", FName);
    ("shortNameFragments", FObjs false ["ShortNameFragment"]);
    ("timestamp", FAttr false);
    ("uuid", FAttr false)]);
   ("EndToEndProtectionISignalIPdu", [("dataOffset", FLeaf false RInteger);
    ("iSignalGroupRef", FLeaf false RRef);
    ("iSignalIPduRef", FLeaf false RRef)]);
   ("EndToEndProtectionSet", [("elements/EndToEndProtection", FObjs true ["EndToEndProtection"]);
    ("annotations", FObjs false ["Annotation"]);
    ("adminData", FObj false ["AdminData"]);
    ("category", FLeaf false RLiteral);
    ("introduction", FObj false ["DocumentationBlock"]);
    ("desc", FObj false ["MultiLanguageOverviewParagraph"]);
    ("variationPoint", FObj false ["VariationPoint"]);
    ("longName", FObj false ["MultilanguageLongName"]);
    ("short_name", FName);
    ("shortNameFragments", FObjs false ["ShortNameFragment"]);
    ("timestamp", FAttr false);
    ("uuid", FAttr false)]);
   ("EndToEndTransformationComSpecProps", [("clearFromValidToInvalid", FLeaf false RBool);
    ("disableEndToEndCheck", FLeaf false RBool);
    ("disableEndToEndStateMachine", FLeaf false RBool);
    ("e2eProfileCompatibilityPropsRef", FLeaf false RRef);
    ("maxDeltaCounter", FLeaf false RPositive);
    ("maxErrorStateInit", FLeaf false RPositive);
    ("maxErrorStateInvalid", FLeaf false RPositive);
    ("maxErrorStateValid", FLeaf false RPositive);
    ("maxNoNewOrRepeatedData", FLeaf false RPositive);
    ("minOkStateInit", FLeaf false RPositive);
    ("minOkStateInvalid", FLeaf false RPositive);
    ("minOkStateValid", FLeaf false RPositive);
    ("syncCounterInit", FLeaf false RPositive);
    ("windowSizeInit", FLeaf false RPositive);
    ("windowSizeInvalid", FLeaf false RPositive);
    ("windowSizeValid", FLeaf false RPositive);
    ("timestamp", FAttr false);
    ("uuid", FAttr false)]);
   ("EndToEndTransformationDescription", [("clearFromValidToInvalid", FLeaf false RBool);
    ("counterOffset", FLeaf false RPositive);
    ("crcOffset", FLeaf false RPositive);
    ("dataIdMode", FLeaf false RLiteral);
    ("dataIdNibbleOffset", FLeaf false RPositive);
    ("e2eProfileCompatibilityPropsRef", FLeaf false RRef);
    ("maxDeltaCounter", FLeaf false RPositive);
    ("maxErrorStateInit", FLeaf false RPositive);
    ("maxErrorStateInvalid", FLeaf false RPositive);
    ("maxErrorStateValid", FLeaf false RPositive);
    ("maxNoNewOrRepeatedData", FLeaf false RPositive);
    ("minOkStateInit", FLeaf false RPositive);
    ("minOkStateInvalid", FLeaf false RPositive);
    ("minOkStateValid", FLeaf false RPositive);
    ("offset", FLeaf false RPositive);
    ("profileBehavior", FLeaf false RLiteral);
    ("profileName", FLeaf false RLiteral);
    ("syncCounterInit", FLeaf false RPositive);
    ("upperHeaderBitsToShift", FLeaf false RPositive);
    ("windowSizeInit", FLeaf false RPositive);
    ("windowSizeInvalid", FLeaf false RPositive);
    ("windowSizeValid", FLeaf false RPositive);
    ("adminData", FObj false ["AdminData"]);
    ("category", FLeaf false RLiteral);
    ("desc", FObj false ["MultiLanguageOverviewParagraph"]);
    ("introduction", FObj false ["DocumentationBlock"]);
    ("timestamp", FAttr false);
    ("uuid", FAttr false)]);
   ("EndToEndTransformationISignalProps", [("dataLength", FLeaf false RPositive);
    ("csErrorReaction", FLeaf false RLiteral);
    ("dataPrototypeTransformationProps", FObjs false ["DataPrototypeTransformationProps"]);
    ("transformerRef", FLeaf false RRef);
    ("adminData", FObj false ["AdminData"]);
    ("category", FLeaf false RLiteral);
    ("desc", FObj false ["MultiLanguageOverviewParagraph"]);
    ("introduction", FObj false ["DocumentationBlock"]);
    ("timestamp", FAttr false);
    ("uuid", FAttr false)]);
   ("ErrorTracerNeeds", [("tracedFailures", FObjs false ["DevelopmentError"; "RuntimeError"; "TransientFault"]);
    ("annotations", FObjs false ["Annotation"]);
    ("adminData", FObj false ["AdminData"]);
    ("category", FLeaf false RLiteral);
    ("introduction", FObj false ["DocumentationBlock"]);
    ("desc", FObj false ["MultiLanguageOverviewParagraph"]);
    ("variationPoint", FObj false ["VariationPoint"]);
    ("longName", FObj false ["MultilanguageLongName"]);
    ("short_name", FName);
    ("shortNameFragments", FObjs false ["ShortNameFragment"]);
    ("timestamp", FAttr false);
    ("uuid", FAttr false)]);
   ("EthernetCluster", [("macMulticastGroups", FObjs false ["MacMulticastGroup"]);
    ("baudrate", FLeaf false RNumerical);
    ("physicalChannel", FObjs true ["CanPhysicalChannel"; "EthernetPhysicalChannel"; "FlexrayPhysicalChannel"; "LinPhysicalChannel"]);
    ("protocolName", FLeaf false RLiteral);
    ("protocolVersion", FLeaf false RLiteral);
    ("annotations", FObjs false ["Annotation"]);
    ("adminData", FObj false ["AdminData"]);
    ("category", FLeaf false RLiteral);
    ("introduction", FObj false ["DocumentationBlock"]);
    ("desc", FObj false ["MultiLanguageOverviewParagraph"]);
    ("variationPoint", FObj false ["VariationPoint"]);
    ("longName", FObj false ["MultilanguageLongName"]);
    ("short_name", FName);
    ("shortNameFragments", FObjs false ["ShortNameFragment"]);
    ("timestamp", FAttr false);
    ("uuid", FAttr false)]);
   ("EthernetCommunicationConnector", [("maximumTransmissionUnit", FLeaf false RPositive);
    ("networkEndpointRefs", FLeafs RRef);
    ("commControllerRef", FLeaf false RRef);
    ("pncGatewayType", FLeaf false RLiteral);
    ("elements/CommConnectorPort", FObjs true ["FramePort"; "IPduPort"; "ISignalPort"]);
    ("annotations", FObjs false ["Annotation"]);
    ("adminData", FObj false ["AdminData"]);
    ("category", FLeaf false RLiteral);
    ("introduction", FObj false ["DocumentationBlock"]);
    ("desc", FObj false ["MultiLanguageOverviewParagraph"]);
    ("variationPoint", FObj false ["VariationPoint"]);
    ("longName", FObj false ["MultilanguageLongName"]);
    ("short_name", FName);
    ("shortNameFragments", FObjs false ["ShortNameFragment"]);
    ("timestamp", FAttr false);
    ("uuid", FAttr false)]);
   ("EthernetCommunicationController", [("couplingPorts", FObjs false ["CouplingPort"]);
    ("wakeUpByControllerSupported", FLeaf false RBool);
    ("annotations", FObjs false ["Annotation"]);
    ("adminData", FObj false ["AdminData"]);
    ("category", FLeaf false RLiteral);
    ("introduction", FObj false ["DocumentationBlock"]);
    ("desc", FObj false ["MultiLanguageOverviewParagraph"]);
    ("variationPoint", FObj false ["VariationPoint"]);
    ("longName", FObj false ["MultilanguageLongName"]);
    ("short_name", FName);
    ("shortNameFragments", FObjs false ["ShortNameFragment"]);
    ("timestamp", FAttr false);
    ("uuid", FAttr false)]);
   ("EthernetPhysicalChannel", [("networkEndpoints", FObjs false ["NetworkEndpoint"]);
    ("soAdConfig", FObj false ["SoAdConfig"]);
    ("vlan", FObj false ["VlanConfig"]);
    ("commConnectorRefs", FLeafs RRef);
    ("elements/FrameTriggering", FObjs true ["CanFrameTriggering"; "FlexrayFrameTriggering"; "LinFrameTriggering"]);
    ("elements/ISignalTriggering", FObjs true ["ISignalTriggering"]);
    ("elements/PduTriggering", FObjs true ["PduTriggering"]);
    ("annotations", FObjs false ["Annotation"]);
    ("adminData", FObj false ["AdminData"]);
    ("category", FLeaf false RLiteral);
    ("introduction", FObj false ["DocumentationBlock"]);
    ("desc", FObj false ["MultiLanguageOverviewParagraph"]);
    ("variationPoint", FObj false ["VariationPoint"]);
    ("longName", FObj false ["MultilanguageLongName"]);
    ("short_name", FName);
    ("shortNameFragments", FObjs false ["ShortNameFragment"]);
    ("timestamp", FAttr false);
    ("uuid", FAttr false)]);
   ("EthernetPriorityRegeneration", [("ingressPriority", FLeaf false RPositive);
    ("regeneratedPriority", FLeaf false RPositive);
    ("short_name", FName)]);
   ("EventControlledTiming", [("numberOfRepetitions", FLeaf false RInteger);
    ("repetitionPeriod", FObj false ["TimeRangeType"])]);
   ("EventHandler", [("applicationEndpointRef", FLeaf false RRef);
    ("consumedEventGroupRefs", FLeafs RRef);
    ("multicastThreshold", FLeaf false RPositive);
    ("routingGroupRefs", FLeafs RRef);
    ("sdServerConfig", FObj false ["SdServerConfig"]);
    ("annotations", FObjs false ["Annotation"]);
    ("adminData", FObj false ["AdminData"]);
    ("category", FLeaf false RLiteral);
    ("introduction", FObj false ["DocumentationBlock"]);
    ("desc", FObj false ["MultiLanguageOverviewParagraph"]);
    ("variationPoint", FObj false ["VariationPoint"]);
    ("longName", FObj false ["MultilanguageLongName"]);
    ("short_name", FName);
    ("shortNameFragments", FObjs false ["ShortNameFragment"]);
    ("timestamp", FAttr false);
    ("uuid", FAttr false)]);
   ("ExclusiveArea", [("short_name", FName)]);
   ("ExclusiveAreaNestingOrder", [("exclusiveAreaRefs", FLeafs RRef);
    ("short_name", FName)]);
   ("ExecutableEntityActivationReason", [("bitPosition", FLeaf false RPositive);
    ("symbol", FLeaf false RLiteral);
    ("short_name", FName);
    ("shortNameFragments", FObjs false ["ShortNameFragment"]);
    ("timestamp", FAttr false);
    ("uuid", FAttr false)]);
   ("ExecutionOrderConstraint", [("ordered_elements", FObjs false ["EOCExecutableEntityRef"]);
    ("annotations", FObjs false ["Annotation"]);
    ("adminData", FObj false ["AdminData"]);
    ("category", FLeaf false RLiteral);
    ("introduction", FObj false ["DocumentationBlock"]);
    ("desc", FObj false ["MultiLanguageOverviewParagraph"]);
    ("variationPoint", FObj false ["VariationPoint"]);
    ("longName", FObj false ["MultilanguageLongName"]);
    ("short_name", FName);
    ("shortNameFragments", FObjs false ["ShortNameFragment"]);
    ("timestamp", FAttr false);
    ("uuid", FAttr false)]);
   ("ExternalTriggeringPoint", [("ident", FObj false ["ExternalTriggeringPointIdent"]);
    ("trigger", FObj false ["PTriggerInAtomicSwcTypeInstanceRef"])]);
   ("ExternalTriggeringPointIdent", [("short_name", FName)]);
   ("FlatInstanceDescriptor", [("ecuExtractReferenceIRef", FObj false ["AnyInstanceRef"]);
    ("upstreamReferenceIRef", FObj false ["AnyInstanceRef"]);
    ("annotations", FObjs false ["Annotation"]);
    ("adminData", FObj false ["AdminData"]);
    ("category", FLeaf false RLiteral);
    ("introduction", FObj false ["DocumentationBlock"]);
    ("desc", FObj false ["MultiLanguageOverviewParagraph"]);
    ("variationPoint", FObj false ["VariationPoint"]);
    ("longName", FObj false ["MultilanguageLongName"]);
    ("short_name", FName);
    ("shortNameFragments", FObjs false ["ShortNameFragment"]);
    ("timestamp", FAttr false);
    ("uuid", FAttr false)]);
   ("FlatMap", [("elements/FlatInstanceDescriptor", FObjs true ["FlatInstanceDescriptor"]);
    ("annotations", FObjs false ["Annotation"]);
    ("adminData", FObj false ["AdminData"]);
    ("category", FLeaf false RLiteral);
    ("introduction", FObj false ["DocumentationBlock"]);
    ("desc", FObj false ["MultiLanguageOverviewParagraph"]);
    ("variationPoint", FObj false ["VariationPoint"]);
    ("longName", FObj false ["MultilanguageLongName"]);
    ("short_name", FName);
    ("shortNameFragments", FObjs false ["ShortNameFragment"]);
    ("timestamp", FAttr false);
    ("uuid", FAttr false)]);
   ("FlexrayAbsolutelyScheduledTiming", [("communicationCycle", FObj false ["CycleRepetition"]);
    ("slotID", FLeaf false RPositive);
    ("timestamp", FAttr false);
    ("uuid", FAttr false)]);
   ("FlexrayCluster", [("actionPointOffset", FLeaf false RInteger);
    ("bit", FLeaf false RTime);
    ("casRxLowMax", FLeaf false RInteger);
    ("coldStartAttempts", FLeaf false RInteger);
    ("cycle", FLeaf false RTime);
    ("cycleCountMax", FLeaf false RInteger);
    ("detectNitError", FLeaf false RBool);
    ("dynamicSlotIdlePhase", FLeaf false RInteger);
    ("ignoreAfterTx", FLeaf false RInteger);
    ("listenNoise", FLeaf false RInteger);
    ("macroPerCycle", FLeaf false RInteger);
    ("macrotickDuration", FLeaf false RTime);
    ("maxWithoutClockCorrectionFatal", FLeaf false RInteger);
    ("maxWithoutClockCorrectionPassive", FLeaf false RInteger);
    ("minislotActionPointOffset", FLeaf false RInteger);
    ("minislotDuration", FLeaf false RInteger);
    ("networkIdleTime", FLeaf false RInteger);
    ("networkManagementVectorLength", FLeaf false RInteger);
    ("numberOfMinislots", FLeaf false RInteger);
    ("numberOfStaticSlots", FLeaf false RInteger);
    ("offsetCorrectionStart", FLeaf false RInteger);
    ("payloadLengthStatic", FLeaf false RInteger);
    ("safetyMargin", FLeaf false RInteger);
    ("sampleClockPeriod", FLeaf false RTime);
    ("staticSlotDuration", FLeaf false RInteger);
    ("symbolWindow", FLeaf false RInteger);
    ("symbolWindowActionPointOffset", FLeaf false RInteger);
    ("syncFrameIdCountMax", FLeaf false RInteger);
    ("tranceiverStandbyDelay", FLeaf false RFloat);
    ("transmissionStartSequenceDuration", FLeaf false RInteger);
    ("wakeupRxIdle", FLeaf false RInteger);
    ("wakeupRxLow", FLeaf false RInteger);
    ("wakeupRxWindow", FLeaf false RInteger);
    ("wakeupTxActive", FLeaf false RInteger);
    ("wakeupTxIdle", FLeaf false RInteger);
    ("baudrate", FLeaf false RNumerical);
    ("physicalChannel", FObjs true ["CanPhysicalChannel"; "EthernetPhysicalChannel"; "FlexrayPhysicalChannel"; "LinPhysicalChannel"]);
    ("protocolName", FLeaf false RLiteral);
    ("protocolVersion", FLeaf false RLiteral);
    ("annotations", FObjs false ["Annotation"]);
    ("adminData", FObj false ["AdminData"]);
    ("category", FLeaf false RLiteral);
    ("introduction", FObj false ["DocumentationBlock"]);
    ("desc", FObj false ["MultiLanguageOverviewParagraph"]);
    ("variationPoint", FObj false ["VariationPoint"]);
    ("longName", FObj false ["MultilanguageLongName"]);
    ("short_name", FName);
    ("shortNameFragments", FObjs false ["ShortNameFragment"]);
    ("timestamp", FAttr false);
    ("uuid", FAttr false)]);
   ("FlexrayCommunicationConnector", [("commControllerRef", FLeaf false RRef);
    ("pncGatewayType", FLeaf false RLiteral);
    ("elements/CommConnectorPort", FObjs true ["FramePort"; "IPduPort"; "ISignalPort"]);
    ("annotations", FObjs false ["Annotation"]);
    ("adminData", FObj false ["AdminData"]);
    ("category", FLeaf false RLiteral);
    ("introduction", FObj false ["DocumentationBlock"]);
    ("desc", FObj false ["MultiLanguageOverviewParagraph"]);
    ("variationPoint", FObj false ["VariationPoint"]);
    ("longName", FObj false ["MultilanguageLongName"]);
    ("short_name", FName);
    ("shortNameFragments", FObjs false ["ShortNameFragment"]);
    ("timestamp", FAttr false);
    ("uuid", FAttr false)]);
   ("FlexrayCommunicationController", [("acceptedStartupRange", FLeaf false RInteger);
    ("allowHaltDueToClock", FLeaf false RBool);
    ("allowPassiveToActive", FLeaf false RInteger);
    ("clusterDriftDamping", FLeaf false RInteger);
    ("decodingCorrection", FLeaf false RInteger);
    ("delayCompensationA", FLeaf false RInteger);
    ("delayCompensationB", FLeaf false RInteger);
    ("externalSync", FLeaf false RBool);
    ("externOffsetCorrection", FLeaf false RInteger);
    ("externRateCorrection", FLeaf false RInteger);
    ("fallBackInternal", FLeaf false RBool);
    ("flexrayFifos", FObjs false ["FlexrayFifoConfiguration"]);
    ("keySlotID", FLeaf false RInteger);
    ("keySlotOnlyEnabled", FLeaf false RBool);
    ("keySlotUsedForStartUp", FLeaf false RBool);
    ("keySlotUsedForSync", FLeaf false RBool);
    ("latestTX", FLeaf false RInteger);
    ("listenTimeout", FLeaf false RInteger);
    ("macroInitialOffsetA", FLeaf false RInteger);
    ("macroInitialOffsetB", FLeaf false RInteger);
    ("maximumDynamicPayloadLength", FLeaf false RInteger);
    ("microInitialOffsetA", FLeaf false RInteger);
    ("microInitialOffsetB", FLeaf false RInteger);
    ("microPerCycle", FLeaf false RInteger);
    ("microtickDuration", FLeaf false RTime);
    ("nmVectorEarlyUpdate", FLeaf false RBool);
    ("offsetCorrectionOut", FLeaf false RInteger);
    ("rateCorrectionOut", FLeaf false RInteger);
    ("samplesPerMicrotick", FLeaf false RInteger);
    ("secondKeySlotId", FLeaf false RInteger);
    ("twoKeySlotMode", FLeaf false RBool);
    ("wakeUpPattern", FLeaf false RInteger);
    ("wakeUpByControllerSupported", FLeaf false RBool);
    ("annotations", FObjs false ["Annotation"]);
    ("adminData", FObj false ["AdminData"]);
    ("category", FLeaf false RLiteral);
    ("introduction", FObj false ["DocumentationBlock"]);
    ("desc", FObj false ["MultiLanguageOverviewParagraph"]);
    ("variationPoint", FObj false ["VariationPoint"]);
    ("longName", FObj false ["MultilanguageLongName"]);
    ("short_name", FName);
    ("shortNameFragments", FObjs false ["ShortNameFragment"]);
    ("timestamp", FAttr false);
    ("uuid", FAttr false)]);
   ("FlexrayFifoConfiguration", [("admitWithoutMessageId", FLeaf false RBool);
    ("baseCycle", FLeaf false RInteger);
    ("channelRef", FLeaf false RRef);
    ("cycleRepetition", FLeaf false RInteger);
    ("fifoDepth", FLeaf false RInteger);
    ("fifoRange", FObjs false ["FlexrayFifoRange"]);
    ("msgIdMask", FLeaf false RInteger);
    ("msgIdMatch", FLeaf false RInteger)]);
   ("FlexrayFifoRange", [("rangeMax", FLeaf false RInteger);
    ("rangeMin", FLeaf false RInteger)]);
   ("FlexrayFrame", [("frameLength", FLeaf false RNumerical);
    ("elements/PduToFrameMapping", FObjs true ["PduToFrameMapping"]);
    ("annotations", FObjs false ["Annotation"]);
    ("adminData", FObj false ["AdminData"]);
    ("category", FLeaf false RLiteral);
    ("introduction", FObj false ["DocumentationBlock"]);
    ("desc", FObj false ["MultiLanguageOverviewParagraph"]);
    ("variationPoint", FObj false ["VariationPoint"]);
    ("longName", FObj false ["MultilanguageLongName"]);
    ("short_name", FName);
    ("shortNameFragments", FObjs false ["ShortNameFragment"]);
    ("timestamp", FAttr false);
    ("uuid", FAttr false)]);
   ("FlexrayFrameTriggering", [("absolutelyScheduledTimings", FObjs false ["FlexrayAbsolutelyScheduledTiming"]);
    ("allowDynamicLSduLength", FLeaf false RBool);
    ("messageId", FLeaf false RPositive);
    ("payloadPreambleIndicator", FLeaf false RBool);
    ("frameRef", FLeaf false RRef);
    ("framePortRefs", FLeafs RRef);
    ("pduTriggeringRefs", FLeafs RRef);
    ("annotations", FObjs false ["Annotation"]);
    ("adminData", FObj false ["AdminData"]);
    ("category", FLeaf false RLiteral);
    ("introduction", FObj false ["DocumentationBlock"]);
    ("desc", FObj false ["MultiLanguageOverviewParagraph"]);
    ("variationPoint", FObj false ["VariationPoint"]);
    ("longName", FObj false ["MultilanguageLongName"]);
    ("short_name", FName);
    ("shortNameFragments", FObjs false ["ShortNameFragment"]);
    ("timestamp", FAttr false);
    ("uuid", FAttr false)]);
   ("FlexrayPhysicalChannel", [("channelName", FLeaf false RLiteral);
    ("commConnectorRefs", FLeafs RRef);
    ("elements/FrameTriggering", FObjs true ["CanFrameTriggering"; "FlexrayFrameTriggering"; "LinFrameTriggering"]);
    ("elements/ISignalTriggering", FObjs true ["ISignalTriggering"]);
    ("elements/PduTriggering", FObjs true ["PduTriggering"]);
    ("annotations", FObjs false ["Annotation"]);
    ("adminData", FObj false ["AdminData"]);
    ("category", FLeaf false RLiteral);
    ("introduction", FObj false ["DocumentationBlock"]);
    ("desc", FObj false ["MultiLanguageOverviewParagraph"]);
    ("variationPoint", FObj false ["VariationPoint"]);
    ("longName", FObj false ["MultilanguageLongName"]);
    ("short_name", FName);
    ("shortNameFragments", FObjs false ["ShortNameFragment"]);
    ("timestamp", FAttr false);
    ("uuid", FAttr false)]);
   ("FloatValueVariationPoint", [("blueprintValue", FAttrOf "String");
    ("sd", FAttrOf "String");
    ("shortLabel", FAttrOf "PrimitiveIdentifier");
    ("timestamp", FAttr false);
    ("uuid", FAttr false)]);
   ("FramePort", [("communicationDirection", FLeaf false RLiteral);
    ("annotations", FObjs false ["Annotation"]);
    ("adminData", FObj false ["AdminData"]);
    ("category", FLeaf false RLiteral);
    ("introduction", FObj false ["DocumentationBlock"]);
    ("desc", FObj false ["MultiLanguageOverviewParagraph"]);
    ("variationPoint", FObj false ["VariationPoint"]);
    ("longName", FObj false ["MultilanguageLongName"]);
    ("short_name", FName);
    ("shortNameFragments", FObjs false ["ShortNameFragment"]);
    ("timestamp", FAttr false);
    ("uuid", FAttr false)]);
   ("FunctionInhibitionAvailabilityNeeds", [("controlledFidRef", FLeaf false RRef);
    ("annotations", FObjs false ["Annotation"]);
    ("adminData", FObj false ["AdminData"]);
    ("category", FLeaf false RLiteral);
    ("introduction", FObj false ["DocumentationBlock"]);
    ("desc", FObj false ["MultiLanguageOverviewParagraph"]);
    ("variationPoint", FObj false ["VariationPoint"]);
    ("longName", FObj false ["MultilanguageLongName"]);
    ("short_name", FName);
    ("shortNameFragments", FObjs false ["ShortNameFragment"]);
    ("timestamp", FAttr false);
    ("uuid", FAttr false)]);
   ("Gateway", [("ecuRef", FLeaf false RRef);
    ("iPduMappings", FObjs false ["IPduMapping"]);
    ("signalMappings", FObjs false ["ISignalMapping"]);
    ("annotations", FObjs false ["Annotation"]);
    ("adminData", FObj false ["AdminData"]);
    ("category", FLeaf false RLiteral);
    ("introduction", FObj false ["DocumentationBlock"]);
    ("desc", FObj false ["MultiLanguageOverviewParagraph"]);
    ("variationPoint", FObj false ["VariationPoint"]);
    ("longName", FObj false ["MultilanguageLongName"]);
    ("short_name", FName);
    ("shortNameFragments", FObjs false ["ShortNameFragment"]);
    ("timestamp", FAttr false);
    ("uuid", FAttr false)]);
   ("GeneralPurposeIPdu", [("containedIPduProps", FObj false ["ContainedIPduProps"]);
    ("hasDynamicLength", FLeaf false RBool);
    ("length", FLeaf false RNumerical);
    ("annotations", FObjs false ["Annotation"]);
    ("adminData", FObj false ["AdminData"]);
    ("category", FLeaf false RLiteral);
    ("introduction", FObj false ["DocumentationBlock"]);
    ("desc", FObj false ["MultiLanguageOverviewParagraph"]);
    ("variationPoint", FObj false ["VariationPoint"]);
    ("longName", FObj false ["MultilanguageLongName"]);
    ("short_name", FName);
    ("shortNameFragments", FObjs false ["ShortNameFragment"]);
    ("timestamp", FAttr false);
    ("uuid", FAttr false)]);
   ("GeneralPurposePdu", [("hasDynamicLength", FLeaf false RBool);
    ("length", FLeaf false RNumerical);
    ("annotations", FObjs false ["Annotation"]);
    ("adminData", FObj false ["AdminData"]);
    ("category", FLeaf false RLiteral);
    ("introduction", FObj false ["DocumentationBlock"]);
    ("desc", FObj false ["MultiLanguageOverviewParagraph"]);
    ("variationPoint", FObj false ["VariationPoint"]);
    ("longName", FObj false ["MultilanguageLongName"]);
    ("short_name", FName);
    ("shortNameFragments", FObjs false ["ShortNameFragment"]);
    ("timestamp", FAttr false);
    ("uuid", FAttr false)]);
   ("GenericEthernetFrame", [("frameLength", FLeaf false RNumerical);
    ("elements/PduToFrameMapping", FObjs true ["PduToFrameMapping"]);
    ("annotations", FObjs false ["Annotation"]);
    ("adminData", FObj false ["AdminData"]);
    ("category", FLeaf false RLiteral);
    ("introduction", FObj false ["DocumentationBlock"]);
    ("desc", FObj false ["MultiLanguageOverviewParagraph"]);
    ("variationPoint", FObj false ["VariationPoint"]);
    ("longName", FObj false ["MultilanguageLongName"]);
    ("short_name", FName);
    ("shortNameFragments", FObjs false ["ShortNameFragment"]);
    ("timestamp", FAttr false);
    ("uuid", FAttr false)]);
   ("Graphic", [("filename", FAttr false)]);
   ("HardwareConfiguration", [("additionalInformation", FLeaf false RLiteral);
    ("processorMode", FLeaf false RLiteral);
    ("processorSpeed", FLeaf false RLiteral)]);
   ("HwAttributeDef", [("isRequired", FLeaf false RBool);
    ("unitRef", FLeaf false RRef);
    ("annotations", FObjs false ["Annotation"]);
    ("adminData", FObj false ["AdminData"]);
    ("category", FLeaf false RLiteral);
    ("introduction", FObj false ["DocumentationBlock"]);
    ("desc", FObj false ["MultiLanguageOverviewParagraph"]);
    ("variationPoint", FObj false ["VariationPoint"]);
    ("longName", FObj false ["MultilanguageLongName"]);
    ("short_name", FName);
    ("shortNameFragments", FObjs false ["ShortNameFragment"]);
    ("timestamp", FAttr false);
    ("uuid", FAttr false)]);
   ("HwAttributeValue", [("hwAttributeDefRef", FLeaf false RRef);
    ("timestamp", FAttr false);
    ("uuid", FAttr false)]);
   ("HwCategory", [("hwAttributeDefs", FObjs false ["HwAttributeDef"]);
    ("annotations", FObjs false ["Annotation"]);
    ("adminData", FObj false ["AdminData"]);
    ("category", FLeaf false RLiteral);
    ("introduction", FObj false ["DocumentationBlock"]);
    ("desc", FObj false ["MultiLanguageOverviewParagraph"]);
    ("variationPoint", FObj false ["VariationPoint"]);
    ("longName", FObj false ["MultilanguageLongName"]);
    ("short_name", FName);
    ("shortNameFragments", FObjs false ["ShortNameFragment"]);
    ("timestamp", FAttr false);
    ("uuid", FAttr false)]);
   ("HwElement", [("hwElementConnections", FObjs false ["HwElementConnector"]);
    ("hwPinGroups", FObjs false ["HwPinGroup"]);
    ("nestedElementRefs", FLeafs RRef);
    ("hwAttributeValues", FObjs false ["HwAttributeValue"]);
    ("hwCategoryRefs", FLeafs RRef);
    ("hwTypeRef", FLeaf false RRef);
    ("short_name", FName);
    ("shortNameFragments", FObjs false ["ShortNameFragment"]);
    ("timestamp", FAttr false);
    ("uuid", FAttr false)]);
   ("HwElementConnector", [("hwElementRefs", FLeafs RRef);
    ("hwPinConnections", FObjs false ["HwPinConnector"]);
    ("hwPinGroupConnections", FObjs false ["HwPinGroupConnector"]);
    ("adminData", FObj false ["AdminData"]);
    ("category", FLeaf false RLiteral);
    ("desc", FObj false ["MultiLanguageOverviewParagraph"]);
    ("introduction", FObj false ["DocumentationBlock"]);
    ("timestamp", FAttr false);
    ("uuid", FAttr false)]);
   ("HwPinConnector", [("hwPinRefs", FLeafs RRef);
    ("adminData", FObj false ["AdminData"]);
    ("category", FLeaf false RLiteral);
    ("desc", FObj false ["MultiLanguageOverviewParagraph"]);
    ("introduction", FObj false ["DocumentationBlock"]);
    ("timestamp", FAttr false);
    ("uuid", FAttr false)]);
   ("HwPinGroup", [("hwAttributeValues", FObjs false ["HwAttributeValue"]);
    ("hwCategoryRefs", FLeafs RRef);
    ("hwTypeRef", FLeaf false RRef);
    ("short_name", FName);
    ("shortNameFragments", FObjs false ["ShortNameFragment"]);
    ("timestamp", FAttr false);
    ("uuid", FAttr false)]);
   ("HwPinGroupConnector", [("hwPinConnections", FObjs false ["HwPinConnector"]);
    ("hwPinGroupRefs", FLeafs RRef);
    ("adminData", FObj false ["AdminData"]);
    ("category", FLeaf false RLiteral);
    ("desc", FObj false ["MultiLanguageOverviewParagraph"]);
    ("introduction", FObj false ["DocumentationBlock"]);
    ("timestamp", FAttr false);
    ("uuid", FAttr false)]);
   ("HwType", [("short_name", FName);
    ("shortNameFragments", FObjs false ["ShortNameFragment"]);
    ("timestamp", FAttr false);
    ("uuid", FAttr false)]);
   ("IPduMapping", [("sourceIpduRef", FLeaf false RRef);
    ("targetIPdu", FObj false ["TargetIPduRef"])]);
   ("IPduPort", [("keyId", FLeaf false RPositive);
    ("rxSecurityVerification", FLeaf false RBool);
    ("useAuthDataFreshness", FLeaf false RBool);
    ("communicationDirection", FLeaf false RLiteral);
    ("annotations", FObjs false ["Annotation"]);
    ("adminData", FObj false ["AdminData"]);
    ("category", FLeaf false RLiteral);
    ("introduction", FObj false ["DocumentationBlock"]);
    ("desc", FObj false ["MultiLanguageOverviewParagraph"]);
    ("variationPoint", FObj false ["VariationPoint"]);
    ("longName", FObj false ["MultilanguageLongName"]);
    ("short_name", FName);
    ("shortNameFragments", FObjs false ["ShortNameFragment"]);
    ("timestamp", FAttr false);
    ("uuid", FAttr false)]);
   ("IPduTiming", [("minimumDelay", FLeaf false RTime);
    ("transmissionModeDeclaration", FObj false ["TransmissionModeDeclaration"])]);
   ("ISignal", [("dataTransformationRef", FLeaf false RRef);
    ("dataTypePolicy", FLeaf false RLiteral);
    ("initValue", FObj false ["ApplicationRuleBasedValueSpecification"; "ApplicationValueSpecification"; "ArrayValueSpecification"; "CompositeRuleBasedValueSpecification"; "ConstantReference"; "NumericalValueSpecification"; "RecordValueSpecification"; "TextValueSpecification"]);
    ("iSignalProps", FObj false ["ISignalProps"]);
    ("iSignalType", FLeaf false RLiteral);
    ("length", FLeaf false RNumerical);
    ("networkRepresentationProps", FObj false ["SwDataDefProps"]);
    ("systemSignalRef", FLeaf false RRef);
    ("timeoutSubstitutionValue", FObj false ["ApplicationRuleBasedValueSpecification"; "ApplicationValueSpecification"; "ArrayValueSpecification"; "CompositeRuleBasedValueSpecification"; "ConstantReference"; "NumericalValueSpecification"; "RecordValueSpecification"; "TextValueSpecification"]);
    ("transformationISignalProps", FObjs false ["EndToEndTransformationISignalProps"]);
    ("annotations", FObjs false ["Annotation"]);
    ("adminData", FObj false ["AdminData"]);
    ("category", FLeaf false RLiteral);
    ("introduction", FObj false ["DocumentationBlock"]);
    ("desc", FObj false ["MultiLanguageOverviewParagraph"]);
    ("variationPoint", FObj false ["VariationPoint"]);
    ("longName", FObj false ["MultilanguageLongName"]);
    ("short_name", FName);
    ("shortNameFragments", FObjs false ["ShortNameFragment"]);
    ("timestamp", FAttr false);
    ("uuid", FAttr false)]);
   ("ISignalGroup", [("comBasedSignalGroupTransformationRef", FLeaf false RRef);
    ("iSignalRefs", FLeafs RRef);
    ("systemSignalGroupRef", FLeaf false RRef);
    ("transformationISignalProps", FObjs false ["EndToEndTransformationISignalProps"]);
    ("annotations", FObjs false ["Annotation"]);
    ("adminData", FObj false ["AdminData"]);
    ("category", FLeaf false RLiteral);
    ("introduction", FObj false ["DocumentationBlock"]);
    ("desc", FObj false ["MultiLanguageOverviewParagraph"]);
    ("variationPoint", FObj false ["VariationPoint"]);
    ("longName", FObj false ["MultilanguageLongName"]);
    ("short_name", FName);
    ("shortNameFragments", FObjs false ["ShortNameFragment"]);
    ("timestamp", FAttr false);
    ("uuid", FAttr false)]);
   ("ISignalIPdu", [("iPduTimingSpecification", FObj false ["IPduTiming"]);
    ("iSignalToPduMappings", FObjs false ["ISignalToIPduMapping"]);
    ("unusedBitPattern", FLeaf false RInteger);
    ("length", FLeaf false RNumerical);
    ("annotations", FObjs false ["Annotation"]);
    ("adminData", FObj false ["AdminData"]);
    ("category", FLeaf false RLiteral);
    ("introduction", FObj false ["DocumentationBlock"]);
    ("desc", FObj false ["MultiLanguageOverviewParagraph"]);
    ("variationPoint", FObj false ["VariationPoint"]);
    ("longName", FObj false ["MultilanguageLongName"]);
    ("short_name", FName);
    ("shortNameFragments", FObjs false ["ShortNameFragment"]);
    ("timestamp", FAttr false);
    ("uuid", FAttr false)]);
   ("ISignalIPduGroup", [("communicationDirection", FLeaf false RLiteral);
    ("communicationMode", FLeaf false RLiteral);
    ("containedISignalIPduGroupRefs", FLeafs RRef);
    ("iSignalIPduRefs", FLeafs RRef);
    ("annotations", FObjs false ["Annotation"]);
    ("adminData", FObj false ["AdminData"]);
    ("category", FLeaf false RLiteral);
    ("introduction", FObj false ["DocumentationBlock"]);
    ("desc", FObj false ["MultiLanguageOverviewParagraph"]);
    ("variationPoint", FObj false ["VariationPoint"]);
    ("longName", FObj false ["MultilanguageLongName"]);
    ("short_name", FName);
    ("shortNameFragments", FObjs false ["ShortNameFragment"]);
    ("timestamp", FAttr false);
    ("uuid", FAttr false)]);
   ("ISignalMapping", [("sourceSignalRef", FLeaf false RRef);
    ("targetSignalRef", FLeaf false RRef)]);
   ("ISignalPort", [("timeout", FLeaf false RTime);
    ("communicationDirection", FLeaf false RLiteral);
    ("annotations", FObjs false ["Annotation"]);
    ("adminData", FObj false ["AdminData"]);
    ("category", FLeaf false RLiteral);
    ("introduction", FObj false ["DocumentationBlock"]);
    ("desc", FObj false ["MultiLanguageOverviewParagraph"]);
    ("variationPoint", FObj false ["VariationPoint"]);
    ("longName", FObj false ["MultilanguageLongName"]);
    ("short_name", FName);
    ("shortNameFragments", FObjs false ["ShortNameFragment"]);
    ("timestamp", FAttr false);
    ("uuid", FAttr false)]);
   ("ISignalProps", [("handleOutOfRange", FLeaf false RLiteral)]);
   ("ISignalToIPduMapping", [("iSignalRef", FLeaf false RRef);
    ("iSignalGroupRef", FLeaf false RRef);
    ("packingByteOrder", FLeaf false RLiteral);
    ("transferProperty", FLeaf false RLiteral);
    ("updateIndicationBitPosition", FLeaf false RNumerical);
    ("annotations", FObjs false ["Annotation"]);
    ("adminData", FObj false ["AdminData"]);
    ("category", FLeaf false RLiteral);
    ("introduction", FObj false ["DocumentationBlock"]);
    ("desc", FObj false ["MultiLanguageOverviewParagraph"]);
    ("variationPoint", FObj false ["VariationPoint"]);
    ("longName", FObj false ["MultilanguageLongName"]);
    ("short_name", FName);
    ("shortNameFragments", FObjs false ["ShortNameFragment"]);
    ("timestamp", FAttr false);
    ("uuid", FAttr false)]);
   ("ISignalTriggering", [("iSignalRef", FLeaf false RRef);
    ("iSignalGroupRef", FLeaf false RRef);
    ("iSignalPortRefs", FLeafs RRef);
    ("annotations", FObjs false ["Annotation"]);
    ("adminData", FObj false ["AdminData"]);
    ("category", FLeaf false RLiteral);
    ("introduction", FObj false ["DocumentationBlock"]);
    ("desc", FObj false ["MultiLanguageOverviewParagraph"]);
    ("variationPoint", FObj false ["VariationPoint"]);
    ("longName", FObj false ["MultilanguageLongName"]);
    ("short_name", FName);
    ("shortNameFragments", FObjs false ["ShortNameFragment"]);
    ("timestamp", FAttr false);
    ("uuid", FAttr false)]);
   ("IdsMgrNeeds", [("useSmartSensorApi", FLeaf false RBool);
    ("annotations", FObjs false ["Annotation"]);
    ("adminData", FObj false ["AdminData"]);
    ("category", FLeaf false RLiteral);
    ("introduction", FObj false ["DocumentationBlock"]);
    ("desc", FObj false ["MultiLanguageOverviewParagraph"]);
    ("variationPoint", FObj false ["VariationPoint"]);
    ("longName", FObj false ["MultilanguageLongName"]);
    ("short_name", FName);
    ("shortNameFragments", FObjs false ["ShortNameFragment"]);
    ("timestamp", FAttr false);
    ("uuid", FAttr false)]);
   ("ImplementationDataType", [("dynamicArraySizeProfile", FLeaf false RLiteral);
    ("isStructWithOptionalElement", FLeaf false RBool);
    ("subElements", FObjs false ["ImplementationDataTypeElement"]);
    ("symbolProps", FObj false ["SymbolProps"]);
    ("typeEmitter", FLeaf false RLiteral);
    ("swDataDefProps", FObj false ["SwDataDefProps"]);
    ("annotations", FObjs false ["Annotation"]);
    ("adminData", FObj false ["AdminData"]);
    ("category", FLeaf false RLiteral);
    ("introduction", FObj false ["DocumentationBlock"]);
    ("desc", FObj false ["MultiLanguageOverviewParagraph"]);
    ("variationPoint", FObj false ["VariationPoint"]);
    ("longName", FObj false ["MultilanguageLongName"]);
    ("short_name", FName);
    ("shortNameFragments", FObjs false ["ShortNameFragment"]);
    ("timestamp", FAttr false);
    ("uuid", FAttr false)]);
   ("ImplementationDataTypeElement", [("arraySizeHandling", FLeaf false RLiteral);
    ("arraySizeSemantics", FLeaf false RLiteral);
    ("subElements", FObjs false ["ImplementationDataTypeElement"]);
    ("swDataDefProps", FObj false ["SwDataDefProps"]);
    ("annotations", FObjs false ["Annotation"]);
    ("adminData", FObj false ["AdminData"]);
    ("category", FLeaf false RLiteral);
    ("introduction", FObj false ["DocumentationBlock"]);
    ("desc", FObj false ["MultiLanguageOverviewParagraph"]);
    ("variationPoint", FObj false ["VariationPoint"]);
    ("longName", FObj false ["MultilanguageLongName"]);
    ("short_name", FName);
    ("shortNameFragments", FObjs false ["ShortNameFragment"]);
    ("timestamp", FAttr false);
    ("uuid", FAttr false)]);
   ("ImplementationElementInParameterInstanceRef", [("contextRef", FLeaf false RRef);
    ("targetRef", FLeaf false RRef)]);
   ("IncludedModeDeclarationGroupSet", [("mode_declaration_group_refs", FLeafs RRef)]);
   ("IndentSample", [("itemLabelPos", FAttrOf "ItemLabelPosEnum");
    ("l2s", FObjs false ["LOverviewParagraph"]);
    ("timestamp", FAttr false);
    ("uuid", FAttr false)]);
   ("IndicatorStatusNeeds", [("type", FLeaf false RLiteral);
    ("annotations", FObjs false ["Annotation"]);
    ("adminData", FObj false ["AdminData"]);
    ("category", FLeaf false RLiteral);
    ("introduction", FObj false ["DocumentationBlock"]);
    ("desc", FObj false ["MultiLanguageOverviewParagraph"]);
    ("variationPoint", FObj false ["VariationPoint"]);
    ("longName", FObj false ["MultilanguageLongName"]);
    ("short_name", FName);
    ("shortNameFragments", FObjs false ["ShortNameFragment"]);
    ("timestamp", FAttr false);
    ("uuid", FAttr false)]);
   ("InfrastructureServices", [("doIpEntity", FObj false ["DoIpEntity"])]);
   ("InitEvent", [("disabledModeIRefs", FObjs false ["RModeInAtomicSwcInstanceRef"]);
    ("startOnEventRef", FLeaf false RRef);
    ("annotations", FObjs false ["Annotation"]);
    ("adminData", FObj false ["AdminData"]);
    ("category", FLeaf false RLiteral);
    ("introduction", FObj false ["DocumentationBlock"]);
    ("desc", FObj false ["MultiLanguageOverviewParagraph"]);
    ("variationPoint", FObj false ["VariationPoint"]);
    ("longName", FObj false ["MultilanguageLongName"]);
    ("short_name", FName);
    ("shortNameFragments", FObjs false ["ShortNameFragment"]);
    ("timestamp", FAttr false);
    ("uuid", FAttr false);
    ("activationReasonRepresentationRef", FLeaf false RRef)]);
   ("InitialSdDelayConfig", [("initialDelayMaxValue", FLeaf false RTime);
    ("initialDelayMinValue", FLeaf false RTime);
    ("initialRepetitionsBaseDelay", FLeaf false RTime);
    ("initialRepetitionsMax", FLeaf false RPositive)]);
   ("InnerDataPrototypeGroupInCompositionInstanceRef", [("contextSwComponentPrototypeRefs", FLeafs RRef);
    ("targetDataPrototypeGroupRef", FLeaf false RRef)]);
   ("InnerPortGroupInCompositionInstanceRef", [("targetRef", FLeaf false RRef)]);
   ("InnerRunnableEntityGroupInCompositionInstanceRef", [("contextSwComponentPrototypeRefs", FLeafs RRef);
    ("targetRunnableEntityGroupRef", FLeaf false RRef)]);
   ("InstanceEventInCompositionInstanceRef", [("contextComponentPrototypeRefs", FLeafs RRef);
    ("targetEventRef", FLeaf false RRef);
    ("timestamp", FAttr false);
    ("uuid", FAttr false)]);
   ("InstantiationDataDefProps", [("parameterInstance", FObj false ["AutosarParameterRef"]);
    ("swDataDefProps", FObj false ["SwDataDefProps"]);
    ("variableInstance", FObj false ["AutosarVariableRef"])]);
   ("InstantiationTimingEventProps", [("period", FLeaf false RTime);
    ("refinedEventIRef", FObj false ["InstanceEventInCompositionInstanceRef"]);
    ("shortLabel", FLeaf false RLiteral);
    ("timestamp", FAttr false);
    ("uuid", FAttr false)]);
   ("IntegerValueVariationPoint", [("blueprintValue", FAttrOf "String");
    ("sd", FAttrOf "String");
    ("shortLabel", FAttrOf "PrimitiveIdentifier");
    ("timestamp", FAttr false);
    ("uuid", FAttr false)]);
   ("InternalConstrs", [("lowerLimit", FLeaf false RLimit);
    ("maxDiff", FLeaf false RNumerical);
    ("maxGradient", FLeaf false RNumerical);
    ("monotony", FLeaf false RLiteral);
    ("scaleConstrs", FObjs false ["ScaleConstr"]);
    ("upperLimit", FLeaf false RLimit);
    ("timestamp", FAttr false);
    ("uuid", FAttr false)]);
   ("InvalidationPolicy", [("dataElementRef", FLeaf false RRef);
    ("handleInvalid", FLeaf false RLiteral)]);
   ("IoHwAbstractionServerAnnotation", [("filteringDebouncing", FWrap "FilterDebouncingEnum");
    ("pulseTest", FWrap "PulseTestEnum");
    ("triggerRef", FLeaf false RRef)]);
   ("Ipv6Configuration", [("assignmentPriority", FLeaf false RPositive);
    ("defaultRouter", FLeaf false RLiteral);
    ("enableAnycast", FLeaf false RBool);
    ("hopCount", FLeaf false RPositive);
    ("ipAddressPrefixLength", FLeaf false RPositive);
    ("ipv6Address", FLeaf false RLiteral);
    ("ipv6AddressSource", FLeaf false RLiteral)]);
   ("J1939NmNode", [("addressConfigurationCapability", FLeaf false RLiteral);
    ("nodeName", FObj false ["J1939NodeName"]);
    ("controllerRef", FLeaf false RRef);
    ("nmCoordCluster", FLeaf false RPositive);
    ("nmCoordinatorRole", FLeaf false RLiteral);
    ("nmIfEcuRef", FLeaf false RRef);
    ("nmNodeId", FLeaf false RInteger);
    ("nmPassiveModeEnabled", FLeaf false RBool);
    ("rxNmPduRefs", FLeafs RRef);
    ("txNmPduRefs", FLeafs RRef);
    ("annotations", FObjs false ["Annotation"]);
    ("adminData", FObj false ["AdminData"]);
    ("category", FLeaf false RLiteral);
    ("introduction", FObj false ["DocumentationBlock"]);
    ("desc", FObj false ["MultiLanguageOverviewParagraph"]);
    ("variationPoint", FObj false ["VariationPoint"]);
    ("longName", FObj false ["MultilanguageLongName"]);
    ("short_name", FName);
    ("shortNameFragments", FObjs false ["ShortNameFragment"]);
    ("timestamp", FAttr false);
    ("uuid", FAttr false)]);
   ("J1939NodeName", [("arbitraryAddressCapable", FLeaf false RBool);
    ("ecuInstance", FLeaf false RInteger);
    ("function", FLeaf false RInteger);
    ("functionInstance", FLeaf false RInteger);
    ("identitiyNumber", FLeaf false RInteger);
    ("industryGroup", FLeaf false RInteger);
    ("manufacturerCode", FLeaf false RInteger);
    ("vehicleSystem", FLeaf false RInteger);
    ("vehicleSystemInstance", FLeaf false RInteger)]);
   ("Keyword", [("abbrName", FLeaf false RLiteral);
    ("classifications", FLeafs RLitItem);
    ("annotations", FObjs false ["Annotation"]);
    ("adminData", FObj false ["AdminData"]);
    ("category", FLeaf false RLiteral);
    ("introduction", FObj false ["DocumentationBlock"]);
    ("desc", FObj false ["MultiLanguageOverviewParagraph"]);
    ("variationPoint", FObj false ["VariationPoint"]);
    ("longName", FObj false ["MultilanguageLongName"]);
    ("short_name", FName);
    ("shortNameFragments", FObjs false ["ShortNameFragment"]);
    ("timestamp", FAttr false);
    ("uuid", FAttr false)]);
   ("KeywordSet", [("keywords", FObjs false ["Keyword"]);
    ("annotations", FObjs false ["Annotation"]);
    ("adminData", FObj false ["AdminData"]);
    ("category", FLeaf false RLiteral);
    ("introduction", FObj false ["DocumentationBlock"]);
    ("desc", FObj false ["MultiLanguageOverviewParagraph"]);
    ("variationPoint", FObj false ["VariationPoint"]);
    ("longName", FObj false ["MultilanguageLongName"]);
    ("short_name", FName);
    ("shortNameFragments", FObjs false ["ShortNameFragment"]);
    ("timestamp", FAttr false);
    ("uuid", FAttr false)]);
   ("LGraphic", [("graphic", FObj false ["Graphic"]);
    ("l", FAttr false)]);
   ("LLongName", [("sub", FAttrOf "Superscript");
    ("sup", FAttrOf "Superscript");
    ("timestamp", FAttr false);
    ("uuid", FAttr false);
    ("l", FAttr false);
    ("value", FText)]);
   ("LOverviewParagraph", [("l", FAttr false);
    ("value", FText);
    ("timestamp", FAttr false);
    ("uuid", FAttr false)]);
   ("LParagraph", [("l", FAttr true);
    ("value", FText);
    ("timestamp", FAttr false);
    ("uuid", FAttr false)]);
   ("LVerbatim", [("l", FAttr true);
    ("value", FText);
    ("timestamp", FAttr false);
    ("uuid", FAttr false)]);
   ("LabeledItem", [("helpEntry", FAttrOf "String");
    ("itemContents", FObj false ["DocumentationBlock"]);
    ("itemLabel", FObj false ["MultiLanguageOverviewParagraph"]);
    ("timestamp", FAttr false);
    ("uuid", FAttr false)]);
   ("LabeledList", [("indentSample", FObj false ["IndentSample"]);
    ("labeledItems", FObjs false ["LabeledItem"]);
    ("timestamp", FAttr false);
    ("uuid", FAttr false)]);
   ("LifeCycleInfo", [("lcObjectRef", FLeaf false RRef);
    ("lcStateRef", FLeaf false RRef);
    ("periodBegin", FObj false ["LifeCyclePeriod"]);
    ("remark", FObj false ["DocumentationBlock"]);
    ("useInsteadRefs", FLeafs RRef);
    ("timestamp", FAttr false);
    ("uuid", FAttr false)]);
   ("LifeCycleInfoSet", [("defaultLcStateRef", FLeaf false RRef);
    ("lifeCycleInfos", FObjs false ["LifeCycleInfo"]);
    ("usedLifeCycleStateDefinitionGroupRef", FLeaf false RRef);
    ("annotations", FObjs false ["Annotation"]);
    ("adminData", FObj false ["AdminData"]);
    ("category", FLeaf false RLiteral);
    ("introduction", FObj false ["DocumentationBlock"]);
    ("desc", FObj false ["MultiLanguageOverviewParagraph"]);
    ("variationPoint", FObj false ["VariationPoint"]);
    ("longName", FObj false ["MultilanguageLongName"]);
    ("short_name", FName);
    ("shortNameFragments", FObjs false ["ShortNameFragment"]);
    ("timestamp", FAttr false);
    ("uuid", FAttr false)]);
   ("LifeCyclePeriod", [("arReleaseVersion", FLeaf false RRevision)]);
   ("LimitValueVariationPoint", [("blueprintValue", FAttrOf "String");
    ("sd", FAttrOf "String");
    ("shortLabel", FAttrOf "PrimitiveIdentifier");
    ("timestamp", FAttr false);
    ("uuid", FAttr false)]);
   ("LinCluster", [("baudrate", FLeaf false RNumerical);
    ("physicalChannel", FObjs true ["CanPhysicalChannel"; "EthernetPhysicalChannel"; "FlexrayPhysicalChannel"; "LinPhysicalChannel"]);
    ("protocolName", FLeaf false RLiteral);
    ("protocolVersion", FLeaf false RLiteral);
    ("annotations", FObjs false ["Annotation"]);
    ("adminData", FObj false ["AdminData"]);
    ("category", FLeaf false RLiteral);
    ("introduction", FObj false ["DocumentationBlock"]);
    ("desc", FObj false ["MultiLanguageOverviewParagraph"]);
    ("variationPoint", FObj false ["VariationPoint"]);
    ("longName", FObj false ["MultilanguageLongName"]);
    ("short_name", FName);
    ("shortNameFragments", FObjs false ["ShortNameFragment"]);
    ("timestamp", FAttr false);
    ("uuid", FAttr false)]);
   ("LinCommunicationConnector", [("commControllerRef", FLeaf false RRef);
    ("pncGatewayType", FLeaf false RLiteral);
    ("elements/CommConnectorPort", FObjs true ["FramePort"; "IPduPort"; "ISignalPort"]);
    ("annotations", FObjs false ["Annotation"]);
    ("adminData", FObj false ["AdminData"]);
    ("category", FLeaf false RLiteral);
    ("introduction", FObj false ["DocumentationBlock"]);
    ("desc", FObj false ["MultiLanguageOverviewParagraph"]);
    ("variationPoint", FObj false ["VariationPoint"]);
    ("longName", FObj false ["MultilanguageLongName"]);
    ("short_name", FName);
    ("shortNameFragments", FObjs false ["ShortNameFragment"]);
    ("timestamp", FAttr false);
    ("uuid", FAttr false)]);
   ("LinFrameTriggering", [("identifier", FLeaf false RNumerical);
    ("linChecksum", FLeaf false RLiteral);
    ("frameRef", FLeaf false RRef);
    ("framePortRefs", FLeafs RRef);
    ("pduTriggeringRefs", FLeafs RRef);
    ("annotations", FObjs false ["Annotation"]);
    ("adminData", FObj false ["AdminData"]);
    ("category", FLeaf false RLiteral);
    ("introduction", FObj false ["DocumentationBlock"]);
    ("desc", FObj false ["MultiLanguageOverviewParagraph"]);
    ("variationPoint", FObj false ["VariationPoint"]);
    ("longName", FObj false ["MultilanguageLongName"]);
    ("short_name", FName);
    ("shortNameFragments", FObjs false ["ShortNameFragment"]);
    ("timestamp", FAttr false);
    ("uuid", FAttr false)]);
   ("LinMaster", [("timeBase", FLeaf false RTime);
    ("timeBaseJitter", FLeaf false RTime);
    ("protocolVersion", FLeaf false RLiteral);
    ("wakeUpByControllerSupported", FLeaf false RBool);
    ("annotations", FObjs false ["Annotation"]);
    ("adminData", FObj false ["AdminData"]);
    ("category", FLeaf false RLiteral);
    ("introduction", FObj false ["DocumentationBlock"]);
    ("desc", FObj false ["MultiLanguageOverviewParagraph"]);
    ("variationPoint", FObj false ["VariationPoint"]);
    ("longName", FObj false ["MultilanguageLongName"]);
    ("short_name", FName);
    ("shortNameFragments", FObjs false ["ShortNameFragment"]);
    ("timestamp", FAttr false);
    ("uuid", FAttr false)]);
   ("LinPhysicalChannel", [("scheduleTables", FObjs false ["LinScheduleTable"]);
    ("commConnectorRefs", FLeafs RRef);
    ("elements/FrameTriggering", FObjs true ["CanFrameTriggering"; "FlexrayFrameTriggering"; "LinFrameTriggering"]);
    ("elements/ISignalTriggering", FObjs true ["ISignalTriggering"]);
    ("elements/PduTriggering", FObjs true ["PduTriggering"]);
    ("annotations", FObjs false ["Annotation"]);
    ("adminData", FObj false ["AdminData"]);
    ("category", FLeaf false RLiteral);
    ("introduction", FObj false ["DocumentationBlock"]);
    ("desc", FObj false ["MultiLanguageOverviewParagraph"]);
    ("variationPoint", FObj false ["VariationPoint"]);
    ("longName", FObj false ["MultilanguageLongName"]);
    ("short_name", FName);
    ("shortNameFragments", FObjs false ["ShortNameFragment"]);
    ("timestamp", FAttr false);
    ("uuid", FAttr false)]);
   ("LinScheduleTable", [("resumePosition", FLeaf false RLiteral);
    ("runMode", FLeaf false RLiteral);
    ("tableEntries", FObjs false ["ApplicationEntry"]);
    ("annotations", FObjs false ["Annotation"]);
    ("adminData", FObj false ["AdminData"]);
    ("category", FLeaf false RLiteral);
    ("introduction", FObj false ["DocumentationBlock"]);
    ("desc", FObj false ["MultiLanguageOverviewParagraph"]);
    ("variationPoint", FObj false ["VariationPoint"]);
    ("longName", FObj false ["MultilanguageLongName"]);
    ("short_name", FName);
    ("shortNameFragments", FObjs false ["ShortNameFragment"]);
    ("timestamp", FAttr false);
    ("uuid", FAttr false)]);
   ("LinTpConfig", [("tpAddresses", FObjs false ["TpAddress"]);
    ("tpConnections", FObjs false ["LinTpConnection"]);
    ("communicationClusterRef", FLeaf false RRef);
    ("annotations", FObjs false ["Annotation"]);
    ("adminData", FObj false ["AdminData"]);
    ("category", FLeaf false RLiteral);
    ("introduction", FObj false ["DocumentationBlock"]);
    ("desc", FObj false ["MultiLanguageOverviewParagraph"]);
    ("variationPoint", FObj false ["VariationPoint"]);
    ("longName", FObj false ["MultilanguageLongName"]);
    ("short_name", FName);
    ("shortNameFragments", FObjs false ["ShortNameFragment"]);
    ("timestamp", FAttr false);
    ("uuid", FAttr false)]);
   ("LinTpConnection", [("dataPduRef", FLeaf false RRef);
    ("flowControlRef", FLeaf false RRef);
    ("linTpNSduRef", FLeaf false RRef);
    ("receiverRefs", FLeafs RRef);
    ("timeoutAs", FLeaf false RTime);
    ("timeoutCr", FLeaf false RTime);
    ("timeoutCs", FLeaf false RTime);
    ("transmitterRef", FLeaf false RRef);
    ("ident", FObj false ["TpConnectionIdent"]);
    ("timestamp", FAttr false);
    ("uuid", FAttr false)]);
   ("LinUnconditionalFrame", [("frameLength", FLeaf false RNumerical);
    ("elements/PduToFrameMapping", FObjs true ["PduToFrameMapping"]);
    ("annotations", FObjs false ["Annotation"]);
    ("adminData", FObj false ["AdminData"]);
    ("category", FLeaf false RLiteral);
    ("introduction", FObj false ["DocumentationBlock"]);
    ("desc", FObj false ["MultiLanguageOverviewParagraph"]);
    ("variationPoint", FObj false ["VariationPoint"]);
    ("longName", FObj false ["MultilanguageLongName"]);
    ("short_name", FName);
    ("shortNameFragments", FObjs false ["ShortNameFragment"]);
    ("timestamp", FAttr false);
    ("uuid", FAttr false)]);
   ("Linker", [("name", FLeaf false RLiteral);
    ("options", FLeaf false RLiteral);
    ("vendor", FLeaf false RLiteral);
    ("version", FLeaf false RLiteral);
    ("annotations", FObjs false ["Annotation"]);
    ("adminData", FObj false ["AdminData"]);
    ("category", FLeaf false RLiteral);
    ("introduction", FObj false ["DocumentationBlock"]);
    ("desc", FObj false ["MultiLanguageOverviewParagraph"]);
    ("variationPoint", FObj false ["VariationPoint"]);
    ("longName", FObj false ["MultilanguageLongName"]);
    ("short_name", FName);
    ("shortNameFragments", FObjs false ["ShortNameFragment"]);
    ("timestamp", FAttr false);
    ("uuid", FAttr false)]);
   ("MacMulticastGroup", [("macMulticastAddress", FLeaf false RLiteral);
    ("annotations", FObjs false ["Annotation"]);
    ("adminData", FObj false ["AdminData"]);
    ("category", FLeaf false RLiteral);
    ("introduction", FObj false ["DocumentationBlock"]);
    ("desc", FObj false ["MultiLanguageOverviewParagraph"]);
    ("variationPoint", FObj false ["VariationPoint"]);
    ("longName", FObj false ["MultilanguageLongName"]);
    ("short_name", FName);
    ("shortNameFragments", FObjs false ["ShortNameFragment"]);
    ("timestamp", FAttr false);
    ("uuid", FAttr false)]);
   ("McDataAccessDetails", [("rteEventIRefs", FObjs false ["RteEventInEcuInstanceRef"]);
    ("variableAccessIRefs", FObjs false ["VariableAccessInEcuInstanceRef"])]);
   ("McDataInstance", [("arraySize", FLeaf false RPositive);
    ("displayIdentifier", FLeaf false RLiteral);
    ("flatMapEntryRef", FLeaf false RRef);
    ("instanceInMemory", FObj false ["ImplementationElementInParameterInstanceRef"]);
    ("mcDataAccessDetails", FObj false ["McDataAccessDetails"]);
    ("mcDataAssignments", FObjs false ["RoleBasedMcDataAssignment"]);
    ("resultingRptSwPrototypingAccess", FObj false ["RptSwPrototypingAccess"]);
    ("role", FLeaf false RLiteral);
    ("rptImplPolicy", FObj false ["RptImplPolicy"]);
    ("subElements", FObjs false ["McDataInstance"]);
    ("symbol", FLeaf false RLiteral);
    ("short_name", FName)]);
   ("McFunction", [("defCalprmSet", FObj false ["McFunctionDataRefSet"]);
    ("inMeasurementSet", FObj false ["McFunctionDataRefSet"]);
    ("locMeasurementSet", FObj false ["McFunctionDataRefSet"]);
    ("outMeasurementSet", FObj false ["McFunctionDataRefSet"]);
    ("refCalprmSet", FObj false ["McFunctionDataRefSet"]);
    ("subFunctionRefs", FLeafs RRef);
    ("annotations", FObjs false ["Annotation"]);
    ("adminData", FObj false ["AdminData"]);
    ("category", FLeaf false RLiteral);
    ("introduction", FObj false ["DocumentationBlock"]);
    ("desc", FObj false ["MultiLanguageOverviewParagraph"]);
    ("variationPoint", FObj false ["VariationPoint"]);
    ("longName", FObj false ["MultilanguageLongName"]);
    ("short_name", FName);
    ("shortNameFragments", FObjs false ["ShortNameFragment"]);
    ("timestamp", FAttr false);
    ("uuid", FAttr false)]);
   ("McFunctionDataRefSet", [("flatMapEntryRefs", FLeafs RRef);
    ("mcDataInstanceRefs", FLeafs RRef)]);
   ("McGroup", [("mcFunctionRefs", FLeafs RRef);
    ("refCalprmSet", FObj false ["McGroupDataRefSet"]);
    ("refMeasurementSet", FObj false ["McGroupDataRefSet"]);
    ("subGroupRefs", FLeafs RRef);
    ("annotations", FObjs false ["Annotation"]);
    ("adminData", FObj false ["AdminData"]);
    ("category", FLeaf false RLiteral);
    ("introduction", FObj false ["DocumentationBlock"]);
    ("desc", FObj false ["MultiLanguageOverviewParagraph"]);
    ("variationPoint", FObj false ["VariationPoint"]);
    ("longName", FObj false ["MultilanguageLongName"]);
    ("short_name", FName);
    ("shortNameFragments", FObjs false ["ShortNameFragment"]);
    ("timestamp", FAttr false);
    ("uuid", FAttr false)]);
   ("McGroupDataRefSet", [("flatMapEntryRefs", FLeafs RRef);
    ("mcDataInstanceRefs", FLeafs RRef)]);
   ("McParameterElementGroup", [("ramLocationRef", FLeaf false RRef);
    ("romLocationRef", FLeaf false RRef);
    ("shortLabel", FLeaf false RLiteral)]);
   ("McSupportData", [("emulationSupports", FObjs false ["McSwEmulationMethodSupport"]);
    ("mcParameterInstances", FObjs false ["McDataInstance"]);
    ("mcVariableInstances", FObjs false ["McDataInstance"]);
    ("measurableSystemConstantValuesRefs", FLeafs RRef);
    ("rptSupportData", FObj false ["RptSupportData"])]);
   ("McSwEmulationMethodSupport", [("baseReferenceRef", FLeaf false RRef);
    ("category", FLeaf false RLiteral);
    ("elementGroups", FObjs false ["McParameterElementGroup"]);
    ("referenceTableRef", FLeaf false RRef);
    ("shortLabel", FLeaf false RLiteral)]);
   ("MeasuredExecutionTime", [("maximumExecutionTime", FObj false ["MultidimensionalTime"]);
    ("minimumExecutionTime", FObj false ["MultidimensionalTime"]);
    ("nominalExecutionTime", FObj false ["MultidimensionalTime"]);
    ("exclusiveAreaRef", FLeaf false RRef);
    ("executableEntityRef", FLeaf false RRef);
    ("hardwareConfiguration", FObj false ["HardwareConfiguration"]);
    ("hwElementRef", FLeaf false RRef);
    ("includedLibraryRefs", FLeafs RRef);
    ("memorySectionLocations", FObjs false ["MemorySectionLocation"]);
    ("softwareContext", FObj false ["SoftwareContext"]);
    ("annotations", FObjs false ["Annotation"]);
    ("adminData", FObj false ["AdminData"]);
    ("category", FLeaf false RLiteral);
    ("introduction", FObj false ["DocumentationBlock"]);
    ("desc", FObj false ["MultiLanguageOverviewParagraph"]);
    ("variationPoint", FObj false ["VariationPoint"]);
    ("longName", FObj false ["MultilanguageLongName"]);
    ("short_name", FName);
    ("shortNameFragments", FObjs false ["ShortNameFragment"]);
    ("timestamp", FAttr false);
    ("uuid", FAttr false)]);
   ("MeasuredHeapUsage", [("averageMemoryConsumption", FLeaf false RPositive);
    ("maximumMemoryConsumption", FLeaf false RPositive);
    ("minimumMemoryConsumption", FLeaf false RPositive);
    ("testPattern", FLeaf false RLiteral);
    ("hardwareConfiguration", FObj false ["HardwareConfiguration"]);
    ("hwElementRef", FLeaf false RRef);
    ("softwareContext", FObj false ["SoftwareContext"]);
    ("annotations", FObjs false ["Annotation"]);
    ("adminData", FObj false ["AdminData"]);
    ("category", FLeaf false RLiteral);
    ("introduction", FObj false ["DocumentationBlock"]);
    ("desc", FObj false ["MultiLanguageOverviewParagraph"]);
    ("variationPoint", FObj false ["VariationPoint"]);
    ("longName", FObj false ["MultilanguageLongName"]);
    ("short_name", FName);
    ("shortNameFragments", FObjs false ["ShortNameFragment"]);
    ("timestamp", FAttr false);
    ("uuid", FAttr false)]);
   ("MeasuredStackUsage", [("averageMemoryConsumption", FLeaf false RPositive);
    ("maximumMemoryConsumption", FLeaf false RPositive);
    ("minimumMemoryConsumption", FLeaf false RPositive);
    ("testPattern", FLeaf false RLiteral);
    ("executableEntityRef", FLeaf false RRef);
    ("hardwareConfiguration", FObj false ["HardwareConfiguration"]);
    ("hwElementRef", FLeaf false RRef);
    ("softwareContext", FObj false ["SoftwareContext"]);
    ("annotations", FObjs false ["Annotation"]);
    ("adminData", FObj false ["AdminData"]);
    ("category", FLeaf false RLiteral);
    ("introduction", FObj false ["DocumentationBlock"]);
    ("desc", FObj false ["MultiLanguageOverviewParagraph"]);
    ("variationPoint", FObj false ["VariationPoint"]);
    ("longName", FObj false ["MultilanguageLongName"]);
    ("short_name", FName);
    ("shortNameFragments", FObjs false ["ShortNameFragment"]);
    ("timestamp", FAttr false);
    ("uuid", FAttr false)]);
   ("MemorySection", [("alignment", FLeaf false RLiteral);
    ("executableEntityRefs", FLeafs RRef);
    ("memClassSymbol", FLeaf false RLiteral);
    ("options", FLeafs RLitItem);
    ("prefixRef", FLeaf false RRef);
    ("size", FLeaf false RPositive);
    ("swAddrMethodRef", FLeaf false RRef);
    ("symbol", FLeaf false RLiteral);
    ("annotations", FObjs false ["Annotation"]);
    ("adminData", FObj false ["AdminData"]);
    ("category", FLeaf false RLiteral);
    ("introduction", FObj false ["DocumentationBlock"]);
    ("desc", FObj false ["MultiLanguageOverviewParagraph"]);
    ("variationPoint", FObj false ["VariationPoint"]);
    ("longName", FObj false ["MultilanguageLongName"]);
    ("short_name", FName);
    ("shortNameFragments", FObjs false ["ShortNameFragment"]);
    ("timestamp", FAttr false);
    ("uuid", FAttr false)]);
   ("MemorySectionLocation", [("providedMemoryRef", FLeaf false RRef);
    ("softwareMemorySectionRef", FLeaf false RRef)]);
   ("MlFigure", [("lGraphics", FObjs false ["LGraphic"]);
    ("timestamp", FAttr false);
    ("uuid", FAttr false)]);
   ("MlFormula", [("formulaCaption", FObj false ["Caption"]);
    ("genericMath", FObj false ["MultiLanguagePlainText"]);
    ("lGraphics", FObjs false ["LGraphic"]);
    ("texMath", FObj false ["MultiLanguagePlainText"]);
    ("verbatim", FObj false ["MultiLanguageVerbatim"]);
    ("timestamp", FAttr false);
    ("uuid", FAttr false)]);
   ("ModeAccessPoint", [("timestamp", FAttr false);
    ("uuid", FAttr false)]);
   ("ModeDeclaration", [("value", FLeaf false RPositive);
    ("short_name", FName);
    ("timestamp", FAttr false);
    ("uuid", FAttr false)]);
   ("ModeDeclarationGroup", [("initialModeRef", FLeaf false RRef);
    ("modeManagerErrorBehavior", FObj false ["ModeErrorBehavior"]);
    ("modeTransitions", FObjs false ["ModeTransition"]);
    ("modeUserErrorBehavior", FObj false ["ModeErrorBehavior"]);
    ("onTransitionValue", FLeaf false RPositive);
    ("elements/ModeDeclaration", FObjs true ["ModeDeclaration"]);
    ("annotations", FObjs false ["Annotation"]);
    ("adminData", FObj false ["AdminData"]);
    ("category", FLeaf false RLiteral);
    ("introduction", FObj false ["DocumentationBlock"]);
    ("desc", FObj false ["MultiLanguageOverviewParagraph"]);
    ("variationPoint", FObj false ["VariationPoint"]);
    ("longName", FObj false ["MultilanguageLongName"]);
    ("short_name", FName);
    ("shortNameFragments", FObjs false ["ShortNameFragment"]);
    ("timestamp", FAttr false);
    ("uuid", FAttr false)]);
   ("ModeDeclarationGroupPrototype", [("swCalibrationAccess", FWrap "SwCalibrationAccessEnum");
    ("typeTRef", FLeaf false RRef);
    ("annotations", FObjs false ["Annotation"]);
    ("adminData", FObj false ["AdminData"]);
    ("category", FLeaf false RLiteral);
    ("introduction", FObj false ["DocumentationBlock"]);
    ("desc", FObj false ["MultiLanguageOverviewParagraph"]);
    ("variationPoint", FObj false ["VariationPoint"]);
    ("longName", FObj false ["MultilanguageLongName"]);
    ("short_name", FName);
    ("shortNameFragments", FObjs false ["ShortNameFragment"]);
    ("timestamp", FAttr false);
    ("uuid", FAttr false)]);
   ("ModeDeclarationGroupPrototypeMapping", [("firstModeGroupRef", FLeaf false RRef);
    ("modeDeclarationMappingSetRef", FLeaf false RRef);
    ("secondModeGroupRef", FLeaf false RRef)]);
   ("ModeErrorBehavior", [("defaultModeRef", FLeaf false RRef);
    ("errorReactionPolicy", FWrap "ModeErrorReactionPolicyEnum")]);
   ("ModeInBswModuleDescriptionInstanceRef", [("contextModeDeclarationGroupRef", FLeaf false RRef);
    ("targetModeRef", FLeaf false RRef);
    ("timestamp", FAttr false);
    ("uuid", FAttr false)]);
   ("ModeInterfaceMapping", [("modeMapping", FObj false ["ModeDeclarationGroupPrototypeMapping"]);
    ("annotations", FObjs false ["Annotation"]);
    ("adminData", FObj false ["AdminData"]);
    ("category", FLeaf false RLiteral);
    ("introduction", FObj false ["DocumentationBlock"]);
    ("desc", FObj false ["MultiLanguageOverviewParagraph"]);
    ("variationPoint", FObj false ["VariationPoint"]);
    ("longName", FObj false ["MultilanguageLongName"]);
    ("short_name", FName);
    ("shortNameFragments", FObjs false ["ShortNameFragment"]);
    ("timestamp", FAttr false);
    ("uuid", FAttr false)]);
   ("ModePortAnnotation", [("modeGroupRef", FLeaf false RRef)]);
   ("ModeRequestTypeMap", [("implementationDataTypeRef", FLeaf false RRef);
    ("modeGroupRef", FLeaf false RRef);
    ("timestamp", FAttr false);
    ("uuid", FAttr false)]);
   ("ModeSwitchEventTriggeredActivity", [("role", FLeaf false RLiteral);
    ("swcModeSwitchEventRef", FLeaf false RRef)]);
   ("ModeSwitchInterface", [("modeGroup", FObj false ["ModeDeclarationGroupPrototype"]);
    ("isService", FLeaf false RBool);
    ("serviceKind", FLeaf false RLiteral);
    ("annotations", FObjs false ["Annotation"]);
    ("adminData", FObj false ["AdminData"]);
    ("category", FLeaf false RLiteral);
    ("introduction", FObj false ["DocumentationBlock"]);
    ("desc", FObj false ["MultiLanguageOverviewParagraph"]);
    ("variationPoint", FObj false ["VariationPoint"]);
    ("longName", FObj false ["MultilanguageLongName"]);
    ("short_name", FName);
    ("shortNameFragments", FObjs false ["ShortNameFragment"]);
    ("timestamp", FAttr false);
    ("uuid", FAttr false)]);
   ("ModeSwitchPoint", [("modeGroupIRef", FObj true ["PModeGroupInAtomicSwcInstanceRef"]);
    ("short_name", FName);
    ("timestamp", FAttr false);
    ("uuid", FAttr false)]);
   ("ModeSwitchReceiverComSpec", [("enhancedModeApi", FLeaf false RBool);
    ("modeGroupRef", FLeaf false RRef);
    ("supportsAsynchronousModeSwitch", FLeaf false RBool);
    ("timestamp", FAttr false);
    ("uuid", FAttr false)]);
   ("ModeSwitchSenderComSpec", [("modeGroupRef", FLeaf false RRef);
    ("modeSwitchedAck", FObj false ["ModeSwitchedAckRequest"]);
    ("queueLength", FLeaf false RNumerical)]);
   ("ModeSwitchedAckEvent", [("eventSourceRef", FLeaf false RRef);
    ("disabledModeIRefs", FObjs false ["RModeInAtomicSwcInstanceRef"]);
    ("startOnEventRef", FLeaf false RRef);
    ("annotations", FObjs false ["Annotation"]);
    ("adminData", FObj false ["AdminData"]);
    ("category", FLeaf false RLiteral);
    ("introduction", FObj false ["DocumentationBlock"]);
    ("desc", FObj false ["MultiLanguageOverviewParagraph"]);
    ("variationPoint", FObj false ["VariationPoint"]);
    ("longName", FObj false ["MultilanguageLongName"]);
    ("short_name", FName);
    ("shortNameFragments", FObjs false ["ShortNameFragment"]);
    ("timestamp", FAttr false);
    ("uuid", FAttr false);
    ("activationReasonRepresentationRef", FLeaf false RRef)]);
   ("ModeSwitchedAckRequest", [("timeout", FLeaf false RTime)]);
   ("ModeTransition", [("enteredModeRef", FLeaf false RRef);
    ("exitedModeRef", FLeaf false RRef);
    ("short_name", FName);
    ("timestamp", FAttr false);
    ("uuid", FAttr false)]);
   ("Modification", [("change", FObj false ["MultiLanguageOverviewParagraph"]);
    ("reason", FObj false ["MultiLanguageOverviewParagraph"])]);
   ("MsrQueryArg", [("arg", FLeaf false RLiteral);
    ("si", FAttrOf "NameToken");
    ("timestamp", FAttr false);
    ("uuid", FAttr false)]);
   ("MsrQueryP2", [("msrQueryProps", FObj false ["MsrQueryProps"]);
    ("msrQueryResultP2", FObj false ["DocumentationBlock"]);
    ("timestamp", FAttr false);
    ("uuid", FAttr false)]);
   ("MsrQueryProps", [("comment", FLeaf false RLiteral);
    ("msrQueryName", FLeaf false RLiteral);
    ("msrQueryArgs", FObjs false ["MsrQueryArg"]);
    ("timestamp", FAttr false);
    ("uuid", FAttr false)]);
   ("MultiLanguageOverviewParagraph", [("l2", FObjs false ["LOverviewParagraph"]);
    ("timestamp", FAttr false);
    ("uuid", FAttr false)]);
   ("MultiLanguageParagraph", [("l1", FObjs false ["LParagraph"]);
    ("timestamp", FAttr false);
    ("uuid", FAttr false)]);
   ("MultiLanguagePlainText", [("l10s", FObjs false ["LParagraph"]);
    ("timestamp", FAttr false);
    ("uuid", FAttr false)]);
   ("MultiLanguageVerbatim", [("allowBreak", FAttrOf "NameToken");
    ("float", FAttrOf "FloatEnum");
    ("helpEntry", FAttrOf "String");
    ("l5s", FObjs false ["LVerbatim"]);
    ("pgwide", FAttrOf "PgwideEnum");
    ("timestamp", FAttr false);
    ("uuid", FAttr false)]);
   ("MultidimensionalTime", [("cseCode", FLeaf false RLiteral);
    ("cseCodeFactor", FLeaf false RInteger)]);
   ("MultilanguageLongName", [("l4", FObjs false ["LLongName"]);
    ("timestamp", FAttr false);
    ("uuid", FAttr false)]);
   ("MultiplexedIPdu", [("dynamicPart", FObj false ["DynamicPart"]);
    ("selectorFieldByteOrder", FLeaf false RLiteral);
    ("selectorFieldLength", FLeaf false RInteger);
    ("selectorFieldStartPosition", FLeaf false RInteger);
    ("staticPart", FObj false ["StaticPart"]);
    ("triggerMode", FLeaf false RLiteral);
    ("unusedBitPattern", FLeaf false RInteger);
    ("containedIPduProps", FObj false ["ContainedIPduProps"]);
    ("hasDynamicLength", FLeaf false RBool);
    ("length", FLeaf false RNumerical);
    ("annotations", FObjs false ["Annotation"]);
    ("adminData", FObj false ["AdminData"]);
    ("category", FLeaf false RLiteral);
    ("introduction", FObj false ["DocumentationBlock"]);
    ("desc", FObj false ["MultiLanguageOverviewParagraph"]);
    ("variationPoint", FObj false ["VariationPoint"]);
    ("longName", FObj false ["MultilanguageLongName"]);
    ("short_name", FName);
    ("shortNameFragments", FObjs false ["ShortNameFragment"]);
    ("timestamp", FAttr false);
    ("uuid", FAttr false)]);
   ("NPdu", [("hasDynamicLength", FLeaf false RBool);
    ("length", FLeaf false RNumerical);
    ("annotations", FObjs false ["Annotation"]);
    ("adminData", FObj false ["AdminData"]);
    ("category", FLeaf false RLiteral);
    ("introduction", FObj false ["DocumentationBlock"]);
    ("desc", FObj false ["MultiLanguageOverviewParagraph"]);
    ("variationPoint", FObj false ["VariationPoint"]);
    ("longName", FObj false ["MultilanguageLongName"]);
    ("short_name", FName);
    ("shortNameFragments", FObjs false ["ShortNameFragment"]);
    ("timestamp", FAttr false);
    ("uuid", FAttr false)]);
   ("NetworkEndpoint", [("infrastructureServices", FObj false ["InfrastructureServices"]);
    ("networkEndpointAddresses", FObjs false ["Ipv6Configuration"]);
    ("priority", FLeaf false RPositive);
    ("annotations", FObjs false ["Annotation"]);
    ("adminData", FObj false ["AdminData"]);
    ("category", FLeaf false RLiteral);
    ("introduction", FObj false ["DocumentationBlock"]);
    ("desc", FObj false ["MultiLanguageOverviewParagraph"]);
    ("variationPoint", FObj false ["VariationPoint"]);
    ("longName", FObj false ["MultilanguageLongName"]);
    ("short_name", FName);
    ("shortNameFragments", FObjs false ["ShortNameFragment"]);
    ("timestamp", FAttr false);
    ("uuid", FAttr false)]);
   ("NmConfig", [("nmClusterCouplings", FObjs false ["CanNmClusterCoupling"; "UdpNmClusterCoupling"]);
    ("nmIfEcus", FObjs false ["NmEcu"]);
    ("elements/NmCluster", FObjs true ["CanNmCluster"; "UdpNmCluster"]);
    ("annotations", FObjs false ["Annotation"]);
    ("adminData", FObj false ["AdminData"]);
    ("category", FLeaf false RLiteral);
    ("introduction", FObj false ["DocumentationBlock"]);
    ("desc", FObj false ["MultiLanguageOverviewParagraph"]);
    ("variationPoint", FObj false ["VariationPoint"]);
    ("longName", FObj false ["MultilanguageLongName"]);
    ("short_name", FName);
    ("shortNameFragments", FObjs false ["ShortNameFragment"]);
    ("timestamp", FAttr false);
    ("uuid", FAttr false)]);
   ("NmEcu", [("busDependentNmEcus", FObjs false ["UdpNmEcu"]);
    ("ecuInstanceRef", FLeaf false RRef);
    ("nmBusSynchronizationEnabled", FLeaf false RBool);
    ("nmComControlEnabled", FLeaf false RBool);
    ("nmNodeDetectionEnabled", FLeaf false RBool);
    ("nmNodeIdEnabled", FLeaf false RBool);
    ("nmPduRxIndicationEnabled", FLeaf false RBool);
    ("nmRemoteSleepIndEnabled", FLeaf false RBool);
    ("nmRepeatMsgIndEnabled", FLeaf false RBool);
    ("nmStateChangeIndEnabled", FLeaf false RBool);
    ("nmUserDataEnabled", FLeaf false RBool);
    ("annotations", FObjs false ["Annotation"]);
    ("adminData", FObj false ["AdminData"]);
    ("category", FLeaf false RLiteral);
    ("introduction", FObj false ["DocumentationBlock"]);
    ("desc", FObj false ["MultiLanguageOverviewParagraph"]);
    ("variationPoint", FObj false ["VariationPoint"]);
    ("longName", FObj false ["MultilanguageLongName"]);
    ("short_name", FName);
    ("shortNameFragments", FObjs false ["ShortNameFragment"]);
    ("timestamp", FAttr false);
    ("uuid", FAttr false)]);
   ("NmPdu", [("iSignalToIPduMappings", FObjs false ["ISignalToIPduMapping"]);
    ("unusedBitPattern", FLeaf false RInteger);
    ("hasDynamicLength", FLeaf false RBool);
    ("length", FLeaf false RNumerical);
    ("annotations", FObjs false ["Annotation"]);
    ("adminData", FObj false ["AdminData"]);
    ("category", FLeaf false RLiteral);
    ("introduction", FObj false ["DocumentationBlock"]);
    ("desc", FObj false ["MultiLanguageOverviewParagraph"]);
    ("variationPoint", FObj false ["VariationPoint"]);
    ("longName", FObj false ["MultilanguageLongName"]);
    ("short_name", FName);
    ("shortNameFragments", FObjs false ["ShortNameFragment"]);
    ("timestamp", FAttr false);
    ("uuid", FAttr false)]);
   ("NonqueuedReceiverComSpec", [("aliveTimeout", FLeaf false RFloat);
    ("enableUpdate", FLeaf false RBool);
    ("filter", FObj false ["DataFilter"]);
    ("handleDataStatus", FLeaf false RBool);
    ("handleNeverReceived", FLeaf false RBool);
    ("handleTimeoutType", FLeaf false RLiteral);
    ("initValue", FObj false ["ApplicationRuleBasedValueSpecification"; "ApplicationValueSpecification"; "ArrayValueSpecification"; "CompositeRuleBasedValueSpecification"; "ConstantReference"; "NumericalValueSpecification"; "RecordValueSpecification"; "TextValueSpecification"]);
    ("timeoutSubstitutionValue", FObj false ["ApplicationRuleBasedValueSpecification"; "ApplicationValueSpecification"; "ArrayValueSpecification"; "CompositeRuleBasedValueSpecification"; "ConstantReference"; "NumericalValueSpecification"; "RecordValueSpecification"; "TextValueSpecification"]);
    ("compositeNetworkRepresentations", FObjs false ["CompositeNetworkRepresentation"]);
    ("dataElementRef", FLeaf false RRef);
    ("handleOutOfRange", FLeaf false RLiteral);
    ("handleOutOfRangeStatus", FLeaf false RLiteral);
    ("maxDeltaCounterInit", FLeaf false RPositive);
    ("maxNoNewOrRepeatedData", FLeaf false RPositive);
    ("networkRepresentation", FObj false ["SwDataDefProps"]);
    ("receptionProps", FObj false ["ReceptionComSpecProps"]);
    ("replaceWith", FObj false ["VariableAccess"]);
    ("syncCounterInit", FLeaf false RPositive);
    ("usesEndToEndProtection", FLeaf false RBool);
    ("timestamp", FAttr false);
    ("uuid", FAttr false)]);
   ("NonqueuedSenderComSpec", [("dataFilter", FObj false ["DataFilter"]);
    ("initValue", FObj false ["ApplicationRuleBasedValueSpecification"; "ApplicationValueSpecification"; "ArrayValueSpecification"; "CompositeRuleBasedValueSpecification"; "ConstantReference"; "NumericalValueSpecification"; "RecordValueSpecification"; "TextValueSpecification"]);
    ("compositeNetworkRepresentations", FObjs false ["CompositeNetworkRepresentation"]);
    ("dataElementRef", FLeaf false RRef);
    ("handleOutOfRange", FLeaf false RLiteral);
    ("networkRepresentation", FObj false ["SwDataDefProps"]);
    ("transmissionAcknowledge", FObj false ["TransmissionAcknowledgementRequest"]);
    ("transmissionProps", FObj false ["TransmissionComSpecProps"]);
    ("usesEndToEndProtection", FLeaf false RBool);
    ("timestamp", FAttr false);
    ("uuid", FAttr false)]);
   ("Note", [("label", FObj false ["MultilanguageLongName"]);
    ("noteText", FObj false ["DocumentationBlock"]);
    ("noteType", FAttrOf "NoteTypeEnum");
    ("timestamp", FAttr false);
    ("uuid", FAttr false)]);
   ("NumericalOrText", [("vf", FLeaf false RNumerical);
    ("vt", FLeaf false RLiteral);
    ("timestamp", FAttr false);
    ("uuid", FAttr false)]);
   ("NumericalValueSpecification", [("value", FLeaf false RNumerical);
    ("shortLabel", FLeaf false RLiteral);
    ("timestamp", FAttr false);
    ("uuid", FAttr false)]);
   ("NumericalValueVariationPoint", [("blueprintValue", FAttrOf "String");
    ("sd", FAttrOf "String");
    ("shortLabel", FAttrOf "PrimitiveIdentifier");
    ("timestamp", FAttr false);
    ("uuid", FAttr false)]);
   ("NvBlockDataMapping", [("bitfieldTextTableMaskNvBlockDescriptor", FLeaf false RPositive);
    ("bitfieldTextTableMaskPortPrototype", FLeaf false RPositive);
    ("nvRamBlockElement", FObj false ["AutosarVariableRef"]);
    ("readNvData", FObj false ["AutosarVariableRef"]);
    ("writtenNvData", FObj false ["AutosarVariableRef"]);
    ("writtenReadNvData", FObj false ["AutosarVariableRef"])]);
   ("NvBlockDescriptor", [("clientServerPorts", FObjs false ["RoleBasedPortAssignment"]);
    ("constantValueMappingRefs", FLeafs RRef);
    ("dataTypeMappingRefs", FLeafs RRef);
    ("instantiationDataDefPropss", FObjs false ["InstantiationDataDefProps"]);
    ("modeSwitchEventTriggeredActivitys", FObjs false ["ModeSwitchEventTriggeredActivity"]);
    ("nvBlockDataMappings", FObjs false ["NvBlockDataMapping"]);
    ("nvBlockNeeds", FObj false ["NvBlockNeeds"]);
    ("supportDirtyFlag", FLeaf false RBool);
    ("timingEventRef", FLeaf false RRef);
    ("writingStrategies", FObjs false ["RoleBasedDataAssignment"]);
    ("annotations", FObjs false ["Annotation"]);
    ("adminData", FObj false ["AdminData"]);
    ("category", FLeaf false RLiteral);
    ("introduction", FObj false ["DocumentationBlock"]);
    ("desc", FObj false ["MultiLanguageOverviewParagraph"]);
    ("variationPoint", FObj false ["VariationPoint"]);
    ("longName", FObj false ["MultilanguageLongName"]);
    ("short_name", FName);
    ("shortNameFragments", FObjs false ["ShortNameFragment"]);
    ("timestamp", FAttr false);
    ("uuid", FAttr false)]);
   ("NvBlockNeeds", [("calcRamBlockCrc", FLeaf false RBool);
    ("checkStaticBlockId", FLeaf false RBool);
    ("nDataSets", FLeaf false RNumerical);
    ("nRomBlocks", FLeaf false RNumerical);
    ("ramBlockStatusControl", FLeaf false RLiteral);
    ("readonly", FLeaf false RBool);
    ("reliability", FLeaf false RLiteral);
    ("resistantToChangedSw", FLeaf false RBool);
    ("restoreAtStart", FLeaf false RBool);
    ("storeAtShutdown", FLeaf false RBool);
    ("storeCyclic", FLeaf false RBool);
    ("storeEmergency", FLeaf false RBool);
    ("storeImmediate", FLeaf false RBool);
    ("useAutoValidationAtShutDown", FLeaf false RBool);
    ("useCRCCompMechanism", FLeaf false RBool);
    ("writeOnlyOnce", FLeaf false RBool);
    ("writeVerification", FLeaf false RBool);
    ("writingFrequency", FLeaf false RPositive);
    ("writingPriority", FLeaf false RLiteral);
    ("annotations", FObjs false ["Annotation"]);
    ("adminData", FObj false ["AdminData"]);
    ("category", FLeaf false RLiteral);
    ("introduction", FObj false ["DocumentationBlock"]);
    ("desc", FObj false ["MultiLanguageOverviewParagraph"]);
    ("variationPoint", FObj false ["VariationPoint"]);
    ("longName", FObj false ["MultilanguageLongName"]);
    ("short_name", FName);
    ("shortNameFragments", FObjs false ["ShortNameFragment"]);
    ("timestamp", FAttr false);
    ("uuid", FAttr false)]);
   ("NvBlockSwComponentType", [("bulkNvDataDescriptors", FObjs false ["BulkNvDataDescriptor"]);
    ("nvBlockDescriptors", FObjs false ["NvBlockDescriptor"]);
    ("internalBehavior", FObj false ["SwcInternalBehavior"]);
    ("symbolProps", FObj false ["SymbolProps"]);
    ("consistencyNeeds", FObjs false ["ConsistencyNeeds"]);
    ("ports", FObjs false ["PPortPrototype"; "PRPortPrototype"; "RPortPrototype"]);
    ("portGroups", FObjs false ["PortGroup"]);
    ("swcMappingConstraintsRefs", FLeafs RRef);
    ("swComponentDocumentation", FObj false ["SwComponentDocumentation"]);
    ("unitGroupRefs", FLeafs RRef);
    ("annotations", FObjs false ["Annotation"]);
    ("adminData", FObj false ["AdminData"]);
    ("category", FLeaf false RLiteral);
    ("introduction", FObj false ["DocumentationBlock"]);
    ("desc", FObj false ["MultiLanguageOverviewParagraph"]);
    ("variationPoint", FObj false ["VariationPoint"]);
    ("longName", FObj false ["MultilanguageLongName"]);
    ("short_name", FName);
    ("shortNameFragments", FObjs false ["ShortNameFragment"]);
    ("timestamp", FAttr false);
    ("uuid", FAttr false)]);
   ("NvDataInterface", [("elements/VariableDataPrototype", FObjs false ["VariableDataPrototype"]);
    ("isService", FLeaf false RBool);
    ("serviceKind", FLeaf false RLiteral);
    ("annotations", FObjs false ["Annotation"]);
    ("adminData", FObj false ["AdminData"]);
    ("category", FLeaf false RLiteral);
    ("introduction", FObj false ["DocumentationBlock"]);
    ("desc", FObj false ["MultiLanguageOverviewParagraph"]);
    ("variationPoint", FObj false ["VariationPoint"]);
    ("longName", FObj false ["MultilanguageLongName"]);
    ("short_name", FName);
    ("shortNameFragments", FObjs false ["ShortNameFragment"]);
    ("timestamp", FAttr false);
    ("uuid", FAttr false)]);
   ("NvDataPortAnnotation", [("variableRef", FLeaf false RRef)]);
   ("NvProvideComSpec", [("ramBlockInitValue", FObj false ["ApplicationRuleBasedValueSpecification"; "ApplicationValueSpecification"; "ArrayValueSpecification"; "CompositeRuleBasedValueSpecification"; "ConstantReference"; "NumericalValueSpecification"; "RecordValueSpecification"; "TextValueSpecification"]);
    ("romBlockInitValue", FObj false ["ApplicationRuleBasedValueSpecification"; "ApplicationValueSpecification"; "ArrayValueSpecification"; "CompositeRuleBasedValueSpecification"; "ConstantReference"; "NumericalValueSpecification"; "RecordValueSpecification"; "TextValueSpecification"]);
    ("variableRef", FLeaf false RRef);
    ("timestamp", FAttr false);
    ("uuid", FAttr false)]);
   ("NvRequireComSpec", [("initValue", FObj false ["ApplicationRuleBasedValueSpecification"; "ApplicationValueSpecification"; "ArrayValueSpecification"; "CompositeRuleBasedValueSpecification"; "ConstantReference"; "NumericalValueSpecification"; "RecordValueSpecification"; "TextValueSpecification"]);
    ("variableRef", FLeaf false RRef);
    ("timestamp", FAttr false);
    ("uuid", FAttr false)]);
   ("ObdControlServiceNeeds", [("annotations", FObjs false ["Annotation"]);
    ("adminData", FObj false ["AdminData"]);
    ("category", FLeaf false RLiteral);
    ("introduction", FObj false ["DocumentationBlock"]);
    ("desc", FObj false ["MultiLanguageOverviewParagraph"]);
    ("variationPoint", FObj false ["VariationPoint"]);
    ("longName", FObj false ["MultilanguageLongName"]);
    ("short_name", FName);
    ("shortNameFragments", FObjs false ["ShortNameFragment"]);
    ("timestamp", FAttr false);
    ("uuid", FAttr false)]);
   ("ObdInfoServiceNeeds", [("annotations", FObjs false ["Annotation"]);
    ("adminData", FObj false ["AdminData"]);
    ("category", FLeaf false RLiteral);
    ("introduction", FObj false ["DocumentationBlock"]);
    ("desc", FObj false ["MultiLanguageOverviewParagraph"]);
    ("variationPoint", FObj false ["VariationPoint"]);
    ("longName", FObj false ["MultilanguageLongName"]);
    ("short_name", FName);
    ("shortNameFragments", FObjs false ["ShortNameFragment"]);
    ("timestamp", FAttr false);
    ("uuid", FAttr false)]);
   ("ObdMonitorServiceNeeds", [("applicationDataTypeRef", FLeaf false RRef);
    ("eventNeedsRef", FLeaf false RRef);
    ("unitAndScalingId", FLeaf false RPositive);
    ("updateKind", FLeaf false RLiteral);
    ("annotations", FObjs false ["Annotation"]);
    ("adminData", FObj false ["AdminData"]);
    ("category", FLeaf false RLiteral);
    ("introduction", FObj false ["DocumentationBlock"]);
    ("desc", FObj false ["MultiLanguageOverviewParagraph"]);
    ("variationPoint", FObj false ["VariationPoint"]);
    ("longName", FObj false ["MultilanguageLongName"]);
    ("short_name", FName);
    ("shortNameFragments", FObjs false ["ShortNameFragment"]);
    ("timestamp", FAttr false);
    ("uuid", FAttr false)]);
   ("ObdPidServiceNeeds", [("annotations", FObjs false ["Annotation"]);
    ("adminData", FObj false ["AdminData"]);
    ("category", FLeaf false RLiteral);
    ("introduction", FObj false ["DocumentationBlock"]);
    ("desc", FObj false ["MultiLanguageOverviewParagraph"]);
    ("variationPoint", FObj false ["VariationPoint"]);
    ("longName", FObj false ["MultilanguageLongName"]);
    ("short_name", FName);
    ("shortNameFragments", FObjs false ["ShortNameFragment"]);
    ("timestamp", FAttr false);
    ("uuid", FAttr false)]);
   ("ObdRatioDenominatorNeeds", [("denominatorCondition", FLeaf false RLiteral);
    ("annotations", FObjs false ["Annotation"]);
    ("adminData", FObj false ["AdminData"]);
    ("category", FLeaf false RLiteral);
    ("introduction", FObj false ["DocumentationBlock"]);
    ("desc", FObj false ["MultiLanguageOverviewParagraph"]);
    ("variationPoint", FObj false ["VariationPoint"]);
    ("longName", FObj false ["MultilanguageLongName"]);
    ("short_name", FName);
    ("shortNameFragments", FObjs false ["ShortNameFragment"]);
    ("timestamp", FAttr false);
    ("uuid", FAttr false)]);
   ("ObdRatioServiceNeeds", [("connectionType", FLeaf false RLiteral);
    ("rateBasedMonitoredEventRef", FLeaf false RRef);
    ("usedFidRef", FLeaf false RRef);
    ("annotations", FObjs false ["Annotation"]);
    ("adminData", FObj false ["AdminData"]);
    ("category", FLeaf false RLiteral);
    ("introduction", FObj false ["DocumentationBlock"]);
    ("desc", FObj false ["MultiLanguageOverviewParagraph"]);
    ("variationPoint", FObj false ["VariationPoint"]);
    ("longName", FObj false ["MultilanguageLongName"]);
    ("short_name", FName);
    ("shortNameFragments", FObjs false ["ShortNameFragment"]);
    ("timestamp", FAttr false);
    ("uuid", FAttr false)]);
   ("OperationInvokedEvent", [("operationIRef", FObj false ["POperationInAtomicSwcInstanceRef"]);
    ("disabledModeIRefs", FObjs false ["RModeInAtomicSwcInstanceRef"]);
    ("startOnEventRef", FLeaf false RRef);
    ("annotations", FObjs false ["Annotation"]);
    ("adminData", FObj false ["AdminData"]);
    ("category", FLeaf false RLiteral);
    ("introduction", FObj false ["DocumentationBlock"]);
    ("desc", FObj false ["MultiLanguageOverviewParagraph"]);
    ("variationPoint", FObj false ["VariationPoint"]);
    ("longName", FObj false ["MultilanguageLongName"]);
    ("short_name", FName);
    ("shortNameFragments", FObjs false ["ShortNameFragment"]);
    ("timestamp", FAttr false);
    ("uuid", FAttr false);
    ("activationReasonRepresentationRef", FLeaf false RRef)]);
   ("PModeGroupInAtomicSwcInstanceRef", [("contextPPortRef", FLeaf false RRef);
    ("targetModeGroupRef", FLeaf false RRef)]);
   ("POperationInAtomicSwcInstanceRef", [("contextPPortRef", FLeaf true RRef);
    ("targetProvidedOperationRef", FLeaf true RRef);
    ("timestamp", FAttr false);
    ("uuid", FAttr false)]);
   ("PPortInCompositionInstanceRef", [("contextComponentRef", FLeaf false RRef);
    ("targetPPortRef", FLeaf false RRef)]);
   ("PPortPrototype", [("providedInterfaceTRef", FLeaf false RRef);
    ("providedComSpecs", FObjs false ["ModeSwitchSenderComSpec"; "NonqueuedSenderComSpec"; "NvProvideComSpec"; "ParameterProvideComSpec"; "QueuedSenderComSpec"; "ServerComSpec"]);
    ("clientServerAnnotations", FObjs false ["ClientServerAnnotation"]);
    ("delegatedPortAnnotation", FObj false ["DelegatedPortAnnotation"]);
    ("ioHwAbstractionServerAnnotations", FObjs false ["IoHwAbstractionServerAnnotation"]);
    ("modePortAnnotations", FObjs false ["ModePortAnnotation"]);
    ("nvDataPortAnnotations", FObjs false ["NvDataPortAnnotation"]);
    ("parameterPortAnnotations", FObjs false ["ParameterPortAnnotation"]);
    ("senderReceiverAnnotations", FObjs false ["SenderReceiverAnnotation"]);
    ("triggerPortAnnotations", FObjs false ["TriggerPortAnnotation"]);
    ("annotations", FObjs false ["Annotation"]);
    ("adminData", FObj false ["AdminData"]);
    ("category", FLeaf false RLiteral);
    ("introduction", FObj false ["DocumentationBlock"]);
    ("desc", FObj false ["MultiLanguageOverviewParagraph"]);
    ("variationPoint", FObj false ["VariationPoint"]);
    ("longName", FObj false ["MultilanguageLongName"]);
    ("short_name", FName);
    ("shortNameFragments", FObjs false ["ShortNameFragment"]);
    ("timestamp", FAttr false);
    ("uuid", FAttr false)]);
   ("PRPortPrototype", [("providedComSpecs", FObjs false ["ModeSwitchSenderComSpec"; "NonqueuedSenderComSpec"; "NvProvideComSpec"; "ParameterProvideComSpec"; "QueuedSenderComSpec"; "ServerComSpec"]);
    ("requiredComSpecs", FObjs false ["ClientComSpec"; "ModeSwitchReceiverComSpec"; "NonqueuedReceiverComSpec"; "NvRequireComSpec"; "ParameterRequireComSpec"; "QueuedReceiverComSpec"]);
    ("providedRequiredInterface", FLeaf false RRef);
    ("clientServerAnnotations", FObjs false ["ClientServerAnnotation"]);
    ("delegatedPortAnnotation", FObj false ["DelegatedPortAnnotation"]);
    ("ioHwAbstractionServerAnnotations", FObjs false ["IoHwAbstractionServerAnnotation"]);
    ("modePortAnnotations", FObjs false ["ModePortAnnotation"]);
    ("nvDataPortAnnotations", FObjs false ["NvDataPortAnnotation"]);
    ("parameterPortAnnotations", FObjs false ["ParameterPortAnnotation"]);
    ("senderReceiverAnnotations", FObjs false ["SenderReceiverAnnotation"]);
    ("triggerPortAnnotations", FObjs false ["TriggerPortAnnotation"]);
    ("annotations", FObjs false ["Annotation"]);
    ("adminData", FObj false ["AdminData"]);
    ("category", FLeaf false RLiteral);
    ("introduction", FObj false ["DocumentationBlock"]);
    ("desc", FObj false ["MultiLanguageOverviewParagraph"]);
    ("variationPoint", FObj false ["VariationPoint"]);
    ("longName", FObj false ["MultilanguageLongName"]);
    ("short_name", FName);
    ("shortNameFragments", FObjs false ["ShortNameFragment"]);
    ("timestamp", FAttr false);
    ("uuid", FAttr false)]);
   ("PTriggerInAtomicSwcTypeInstanceRef", [("contextPPortRef", FLeaf false RRef);
    ("targetTriggerRef", FLeaf false RRef)]);
   ("ParameterAccess", [("accessedParameter", FObj false ["AutosarParameterRef"]);
    ("annotations", FObjs false ["Annotation"]);
    ("adminData", FObj false ["AdminData"]);
    ("category", FLeaf false RLiteral);
    ("introduction", FObj false ["DocumentationBlock"]);
    ("desc", FObj false ["MultiLanguageOverviewParagraph"]);
    ("variationPoint", FObj false ["VariationPoint"]);
    ("longName", FObj false ["MultilanguageLongName"]);
    ("short_name", FName);
    ("shortNameFragments", FObjs false ["ShortNameFragment"]);
    ("timestamp", FAttr false);
    ("uuid", FAttr false)]);
   ("ParameterDataPrototype", [("initValue", FObj false ["ApplicationRuleBasedValueSpecification"; "ApplicationValueSpecification"; "ArrayValueSpecification"; "CompositeRuleBasedValueSpecification"; "ConstantReference"; "NumericalValueSpecification"; "RecordValueSpecification"; "TextValueSpecification"]);
    ("typeTRef", FLeaf false RRef);
    ("swDataDefProps", FObj false ["SwDataDefProps"]);
    ("annotations", FObjs false ["Annotation"]);
    ("adminData", FObj false ["AdminData"]);
    ("category", FLeaf false RLiteral);
    ("introduction", FObj false ["DocumentationBlock"]);
    ("desc", FObj false ["MultiLanguageOverviewParagraph"]);
    ("variationPoint", FObj false ["VariationPoint"]);
    ("longName", FObj false ["MultilanguageLongName"]);
    ("short_name", FName);
    ("shortNameFragments", FObjs false ["ShortNameFragment"]);
    ("timestamp", FAttr false);
    ("uuid", FAttr false)]);
   ("ParameterInAtomicSWCTypeInstanceRef", [("contextDataPrototypeRefs", FLeafs RRef);
    ("portPrototypeRef", FLeaf false RRef);
    ("rootParameterDataPrototypeRef", FLeaf false RRef);
    ("targetDataPrototypeRef", FLeaf false RRef)]);
   ("ParameterInterface", [("parameters", FObjs false ["ParameterDataPrototype"]);
    ("isService", FLeaf false RBool);
    ("serviceKind", FLeaf false RLiteral);
    ("annotations", FObjs false ["Annotation"]);
    ("adminData", FObj false ["AdminData"]);
    ("category", FLeaf false RLiteral);
    ("introduction", FObj false ["DocumentationBlock"]);
    ("desc", FObj false ["MultiLanguageOverviewParagraph"]);
    ("variationPoint", FObj false ["VariationPoint"]);
    ("longName", FObj false ["MultilanguageLongName"]);
    ("short_name", FName);
    ("shortNameFragments", FObjs false ["ShortNameFragment"]);
    ("timestamp", FAttr false);
    ("uuid", FAttr false)]);
   ("ParameterPortAnnotation", [("parameterRef", FLeaf false RRef)]);
   ("ParameterProvideComSpec", [("initValue", FObj false ["ApplicationRuleBasedValueSpecification"; "ApplicationValueSpecification"; "ArrayValueSpecification"; "CompositeRuleBasedValueSpecification"; "ConstantReference"; "NumericalValueSpecification"; "RecordValueSpecification"; "TextValueSpecification"]);
    ("parameterRef", FLeaf false RRef);
    ("timestamp", FAttr false);
    ("uuid", FAttr false)]);
   ("ParameterRequireComSpec", [("initValue", FObj false ["ApplicationRuleBasedValueSpecification"; "ApplicationValueSpecification"; "ArrayValueSpecification"; "CompositeRuleBasedValueSpecification"; "ConstantReference"; "NumericalValueSpecification"; "RecordValueSpecification"; "TextValueSpecification"]);
    ("parameterRef", FLeaf false RRef);
    ("timestamp", FAttr false);
    ("uuid", FAttr false)]);
   ("PassThroughSwConnector", [("providedOuterPortRef", FLeaf false RRef);
    ("requiredOuterPortRef", FLeaf false RRef);
    ("mappingRef", FLeaf false RRef);
    ("annotations", FObjs false ["Annotation"]);
    ("adminData", FObj false ["AdminData"]);
    ("category", FLeaf false RLiteral);
    ("introduction", FObj false ["DocumentationBlock"]);
    ("desc", FObj false ["MultiLanguageOverviewParagraph"]);
    ("variationPoint", FObj false ["VariationPoint"]);
    ("longName", FObj false ["MultilanguageLongName"]);
    ("short_name", FName);
    ("shortNameFragments", FObjs false ["ShortNameFragment"]);
    ("timestamp", FAttr false);
    ("uuid", FAttr false)]);
   ("PduToFrameMapping", [("packingByteOrder", FLeaf false RLiteral);
    ("pduRef", FLeaf false RRef);
    ("startPosition", FLeaf false RNumerical);
    ("annotations", FObjs false ["Annotation"]);
    ("adminData", FObj false ["AdminData"]);
    ("category", FLeaf false RLiteral);
    ("introduction", FObj false ["DocumentationBlock"]);
    ("desc", FObj false ["MultiLanguageOverviewParagraph"]);
    ("variationPoint", FObj false ["VariationPoint"]);
    ("longName", FObj false ["MultilanguageLongName"]);
    ("short_name", FName);
    ("shortNameFragments", FObjs false ["ShortNameFragment"]);
    ("timestamp", FAttr false);
    ("uuid", FAttr false)]);
   ("PduTriggering", [("iPduRef", FLeaf false RRef);
    ("iPduPortRefs", FLeafs RRef);
    ("iSignalTriggeringRefs", FLeafs RRef);
    ("annotations", FObjs false ["Annotation"]);
    ("adminData", FObj false ["AdminData"]);
    ("category", FLeaf false RLiteral);
    ("introduction", FObj false ["DocumentationBlock"]);
    ("desc", FObj false ["MultiLanguageOverviewParagraph"]);
    ("variationPoint", FObj false ["VariationPoint"]);
    ("longName", FObj false ["MultilanguageLongName"]);
    ("short_name", FName);
    ("shortNameFragments", FObjs false ["ShortNameFragment"]);
    ("timestamp", FAttr false);
    ("uuid", FAttr false)]);
   ("PerInstanceMemory", [("initValue", FLeaf false RLiteral);
    ("swDataDefProps", FObj false ["SwDataDefProps"]);
    ("type", FLeaf false RLiteral);
    ("typeDefinition", FLeaf false RLiteral);
    ("annotations", FObjs false ["Annotation"]);
    ("adminData", FObj false ["AdminData"]);
    ("category", FLeaf false RLiteral);
    ("introduction", FObj false ["DocumentationBlock"]);
    ("desc", FObj false ["MultiLanguageOverviewParagraph"]);
    ("variationPoint", FObj false ["VariationPoint"]);
    ("longName", FObj false ["MultilanguageLongName"]);
    ("short_name", FName);
    ("shortNameFragments", FObjs false ["ShortNameFragment"]);
    ("timestamp", FAttr false);
    ("uuid", FAttr false)]);
   ("PhysConstrs", [("lowerLimit", FLeaf false RLimit);
    ("maxDiff", FLeaf false RNumerical);
    ("maxGradient", FLeaf false RNumerical);
    ("scaleConstrs", FObjs false ["ScaleConstr"]);
    ("unitRef", FLeaf false RRef);
    ("upperLimit", FLeaf false RLimit);
    ("timestamp", FAttr false);
    ("uuid", FAttr false)]);
   ("PhysicalDimension", [("currentExp", FLeaf false RNumerical);
    ("lengthExp", FLeaf false RNumerical);
    ("luminousIntensityExp", FLeaf false RNumerical);
    ("massExp", FLeaf false RNumerical);
    ("molarAmountExp", FLeaf false RNumerical);
    ("temperatureExp", FLeaf false RNumerical);
    ("timeExp", FLeaf false RNumerical);
    ("annotations", FObjs false ["Annotation"]);
    ("adminData", FObj false ["AdminData"]);
    ("category", FLeaf false RLiteral);
    ("introduction", FObj false ["DocumentationBlock"]);
    ("desc", FObj false ["MultiLanguageOverviewParagraph"]);
    ("variationPoint", FObj false ["VariationPoint"]);
    ("longName", FObj false ["MultilanguageLongName"]);
    ("short_name", FName);
    ("shortNameFragments", FObjs false ["ShortNameFragment"]);
    ("timestamp", FAttr false);
    ("uuid", FAttr false)]);
   ("PortAPIOption", [("enableTakeAddress", FLeaf false RBool);
    ("errorHandling", FLeaf false RLiteral);
    ("indirectAPI", FLeaf false RBool);
    ("portRef", FLeaf false RRef);
    ("portArgValues", FObjs false ["PortDefinedArgumentValue"])]);
   ("PortDefinedArgumentValue", [("value", FObj false ["ApplicationRuleBasedValueSpecification"; "ApplicationValueSpecification"; "ArrayValueSpecification"; "CompositeRuleBasedValueSpecification"; "ConstantReference"; "NumericalValueSpecification"; "RecordValueSpecification"; "TextValueSpecification"]);
    ("valueTypeTRef", FLeaf false RRef)]);
   ("PortGroup", [("_inner_group_iref", FObjs false ["InnerPortGroupInCompositionInstanceRef"]);
    ("_outer_port_ref", FLeafs RRef);
    ("annotations", FObjs false ["Annotation"]);
    ("adminData", FObj false ["AdminData"]);
    ("category", FLeaf false RLiteral);
    ("introduction", FObj false ["DocumentationBlock"]);
    ("desc", FObj false ["MultiLanguageOverviewParagraph"]);
    ("variationPoint", FObj false ["VariationPoint"]);
    ("longName", FObj false ["MultilanguageLongName"]);
    ("short_name", FName);
    ("shortNameFragments", FObjs false ["ShortNameFragment"]);
    ("timestamp", FAttr false);
    ("uuid", FAttr false)]);
   ("PortInterfaceMappingSet", [("portInterfaceMappings", FObjs false ["ClientServerInterfaceMapping"; "ModeInterfaceMapping"; "VariableAndParameterInterfaceMapping"]);
    ("annotations", FObjs false ["Annotation"]);
    ("adminData", FObj false ["AdminData"]);
    ("category", FLeaf false RLiteral);
    ("introduction", FObj false ["DocumentationBlock"]);
    ("desc", FObj false ["MultiLanguageOverviewParagraph"]);
    ("variationPoint", FObj false ["VariationPoint"]);
    ("longName", FObj false ["MultilanguageLongName"]);
    ("short_name", FName);
    ("shortNameFragments", FObjs false ["ShortNameFragment"]);
    ("timestamp", FAttr false);
    ("uuid", FAttr false)]);
   ("PortPrototypeBlueprint", [("interfaceRef", FLeaf false RRef);
    ("annotations", FObjs false ["Annotation"]);
    ("adminData", FObj false ["AdminData"]);
    ("category", FLeaf false RLiteral);
    ("introduction", FObj false ["DocumentationBlock"]);
    ("desc", FObj false ["MultiLanguageOverviewParagraph"]);
    ("variationPoint", FObj false ["VariationPoint"]);
    ("longName", FObj false ["MultilanguageLongName"]);
    ("short_name", FName);
    ("shortNameFragments", FObjs false ["ShortNameFragment"]);
    ("timestamp", FAttr false);
    ("uuid", FAttr false)]);
   ("PositiveIntegerValueVariationPoint", [("blueprintValue", FAttrOf "String");
    ("sd", FAttrOf "String");
    ("shortLabel", FAttrOf "PrimitiveIdentifier");
    ("timestamp", FAttr false);
    ("uuid", FAttr false)]);
   ("PossibleErrorReaction", [("reactionCode", FLeaf false RPositive);
    ("annotations", FObjs false ["Annotation"]);
    ("adminData", FObj false ["AdminData"]);
    ("category", FLeaf false RLiteral);
    ("introduction", FObj false ["DocumentationBlock"]);
    ("desc", FObj false ["MultiLanguageOverviewParagraph"]);
    ("variationPoint", FObj false ["VariationPoint"]);
    ("longName", FObj false ["MultilanguageLongName"]);
    ("short_name", FName);
    ("shortNameFragments", FObjs false ["ShortNameFragment"]);
    ("timestamp", FAttr false);
    ("uuid", FAttr false)]);
   ("PostBuildVariantCondition", [("matchingCriterionRef", FLeaf true RRef);
    ("value", FLeaf false RInteger);
    ("timestamp", FAttr false);
    ("uuid", FAttr false)]);
   ("PostBuildVariantCriterion", [("compuMethodRef", FLeaf false RRef);
    ("annotations", FObjs false ["Annotation"]);
    ("adminData", FObj false ["AdminData"]);
    ("category", FLeaf false RLiteral);
    ("introduction", FObj false ["DocumentationBlock"]);
    ("desc", FObj false ["MultiLanguageOverviewParagraph"]);
    ("variationPoint", FObj false ["VariationPoint"]);
    ("longName", FObj false ["MultilanguageLongName"]);
    ("short_name", FName);
    ("shortNameFragments", FObjs false ["ShortNameFragment"]);
    ("timestamp", FAttr false);
    ("uuid", FAttr false)]);
   ("PredefinedChapter", [("chapterModel", FObj false ["ChapterModel"])]);
   ("PredefinedVariant", [("includedVariantRefs", FLeafs RRef);
    ("postBuildVariantCriterionValueSetRefs", FLeafs RRef);
    ("swSystemconstantValueSetRefs", FLeafs RRef);
    ("annotations", FObjs false ["Annotation"]);
    ("adminData", FObj false ["AdminData"]);
    ("category", FLeaf false RLiteral);
    ("introduction", FObj false ["DocumentationBlock"]);
    ("desc", FObj false ["MultiLanguageOverviewParagraph"]);
    ("variationPoint", FObj false ["VariationPoint"]);
    ("longName", FObj false ["MultilanguageLongName"]);
    ("short_name", FName);
    ("shortNameFragments", FObjs false ["ShortNameFragment"]);
    ("timestamp", FAttr false);
    ("uuid", FAttr false)]);
   ("ProvidedServiceInstance", [("allowedServiceConsumerRefs", FLeafs RRef);
    ("autoAvailable", FLeaf false RBool);
    ("eventHandlers", FObjs false ["EventHandler"]);
    ("instanceIdentifier", FLeaf false RPositive);
    ("loadBalancingPriority", FLeaf false RPositive);
    ("loadBalancingWeight", FLeaf false RPositive);
    ("localUnicastAddressRefs", FLeafs RRef);
    ("minorVersion", FLeaf false RPositive);
    ("priority", FLeaf false RPositive);
    ("remoteMulticastSubscriptionAddressRefs", FLeafs RRef);
    ("remoteUnicastAddressRefs", FLeafs RRef);
    ("sdServerConfig", FObj false ["SdServerConfig"]);
    ("sdServerTimerConfigRef", FLeaf false RRef);
    ("serviceIdentifier", FLeaf false RPositive);
    ("annotations", FObjs false ["Annotation"]);
    ("adminData", FObj false ["AdminData"]);
    ("category", FLeaf false RLiteral);
    ("introduction", FObj false ["DocumentationBlock"]);
    ("desc", FObj false ["MultiLanguageOverviewParagraph"]);
    ("variationPoint", FObj false ["VariationPoint"]);
    ("longName", FObj false ["MultilanguageLongName"]);
    ("short_name", FName);
    ("shortNameFragments", FObjs false ["ShortNameFragment"]);
    ("timestamp", FAttr false);
    ("uuid", FAttr false)]);
   ("QueuedReceiverComSpec", [("queueLength", FLeaf false RNumerical);
    ("compositeNetworkRepresentations", FObjs false ["CompositeNetworkRepresentation"]);
    ("dataElementRef", FLeaf false RRef);
    ("handleOutOfRange", FLeaf false RLiteral);
    ("handleOutOfRangeStatus", FLeaf false RLiteral);
    ("maxDeltaCounterInit", FLeaf false RPositive);
    ("maxNoNewOrRepeatedData", FLeaf false RPositive);
    ("networkRepresentation", FObj false ["SwDataDefProps"]);
    ("receptionProps", FObj false ["ReceptionComSpecProps"]);
    ("replaceWith", FObj false ["VariableAccess"]);
    ("syncCounterInit", FLeaf false RPositive);
    ("usesEndToEndProtection", FLeaf false RBool);
    ("timestamp", FAttr false);
    ("uuid", FAttr false)]);
   ("QueuedSenderComSpec", [("compositeNetworkRepresentations", FObjs false ["CompositeNetworkRepresentation"]);
    ("dataElementRef", FLeaf false RRef);
    ("handleOutOfRange", FLeaf false RLiteral);
    ("networkRepresentation", FObj false ["SwDataDefProps"]);
    ("transmissionAcknowledge", FObj false ["TransmissionAcknowledgementRequest"]);
    ("transmissionProps", FObj false ["TransmissionComSpecProps"]);
    ("usesEndToEndProtection", FLeaf false RBool);
    ("timestamp", FAttr false);
    ("uuid", FAttr false)]);
   ("RModeInAtomicSwcInstanceRef", [("contextModeDeclarationGroupPrototypeRef", FLeaf false RRef);
    ("contextPortRef", FLeaf false RRef);
    ("targetModeDeclarationRef", FLeaf false RRef)]);
   ("ROperationInAtomicSwcInstanceRef", [("contextRPortRef", FLeaf false RRef);
    ("targetRequiredOperationRef", FLeaf false RRef);
    ("timestamp", FAttr false);
    ("uuid", FAttr false)]);
   ("RPortInCompositionInstanceRef", [("contextComponentRef", FLeaf false RRef);
    ("targetRPortRef", FLeaf false RRef)]);
   ("RPortPrototype", [("requiredInterfaceTRef", FLeaf false RRef);
    ("requiredComSpecs", FObjs false ["ClientComSpec"; "ModeSwitchReceiverComSpec"; "NonqueuedReceiverComSpec"; "NvRequireComSpec"; "ParameterRequireComSpec"; "QueuedReceiverComSpec"]);
    ("clientServerAnnotations", FObjs false ["ClientServerAnnotation"]);
    ("delegatedPortAnnotation", FObj false ["DelegatedPortAnnotation"]);
    ("ioHwAbstractionServerAnnotations", FObjs false ["IoHwAbstractionServerAnnotation"]);
    ("modePortAnnotations", FObjs false ["ModePortAnnotation"]);
    ("nvDataPortAnnotations", FObjs false ["NvDataPortAnnotation"]);
    ("parameterPortAnnotations", FObjs false ["ParameterPortAnnotation"]);
    ("senderReceiverAnnotations", FObjs false ["SenderReceiverAnnotation"]);
    ("triggerPortAnnotations", FObjs false ["TriggerPortAnnotation"]);
    ("annotations", FObjs false ["Annotation"]);
    ("adminData", FObj false ["AdminData"]);
    ("category", FLeaf false RLiteral);
    ("introduction", FObj false ["DocumentationBlock"]);
    ("desc", FObj false ["MultiLanguageOverviewParagraph"]);
    ("variationPoint", FObj false ["VariationPoint"]);
    ("longName", FObj false ["MultilanguageLongName"]);
    ("short_name", FName);
    ("shortNameFragments", FObjs false ["ShortNameFragment"]);
    ("timestamp", FAttr false);
    ("uuid", FAttr false)]);
   ("RVariableInAtomicSwcInstanceRef", [("contextRPortRef", FLeaf false RRef);
    ("targetDataElementRef", FLeaf false RRef)]);
   ("ReceptionComSpecProps", [("dataUpdatePeriod", FLeaf false RTime);
    ("timeout", FLeaf false RTime);
    ("timestamp", FAttr false);
    ("uuid", FAttr false)]);
   ("RecordValueSpecification", [("fields", FObjs false ["ApplicationRuleBasedValueSpecification"; "ApplicationValueSpecification"; "ArrayValueSpecification"; "CompositeRuleBasedValueSpecification"; "NumericalValueSpecification"; "RecordValueSpecification"; "TextValueSpecification"]);
    ("shortLabel", FLeaf false RLiteral);
    ("timestamp", FAttr false);
    ("uuid", FAttr false)]);
   ("ReferenceBase", [("BaseIsThisPackage", FLeaf false RBool);
    ("packageRef", FLeaf false RRef);
    ("shortLabel", FLeaf false RLiteral)]);
   ("RequestResponseDelay", [("maxValue", FLeaf false RTime);
    ("minValue", FLeaf false RTime)]);
   ("ResourceConsumption", [("accessCountSets", FObjs false ["AccessCountSet"]);
    ("elements/AnalyzedExecutionTime+MeasuredExecutionTime+RoughEstimateOfExecutionTime+SimulatedExecutionTime", FObjs true ["AnalyzedExecutionTime"; "MeasuredExecutionTime"; "RoughEstimateOfExecutionTime"; "SimulatedExecutionTime"]);
    ("elements/HeapUsage", FObjs true ["MeasuredHeapUsage"; "RoughEstimateHeapUsage"; "WorstCaseHeapUsage"]);
    ("elements/MemorySection", FObjs true ["MemorySection"]);
    ("elements/SectionNamePrefix", FObjs true ["SectionNamePrefix"]);
    ("elements/StackUsage", FObjs true ["MeasuredStackUsage"; "RoughEstimateStackUsage"; "WorstCaseStackUsage"]);
    ("annotations", FObjs false ["Annotation"]);
    ("adminData", FObj false ["AdminData"]);
    ("category", FLeaf false RLiteral);
    ("introduction", FObj false ["DocumentationBlock"]);
    ("desc", FObj false ["MultiLanguageOverviewParagraph"]);
    ("variationPoint", FObj false ["VariationPoint"]);
    ("longName", FObj false ["MultilanguageLongName"]);
    ("short_name", FName);
    ("shortNameFragments", FObjs false ["ShortNameFragment"]);
    ("timestamp", FAttr false);
    ("uuid", FAttr false)]);
   ("RoleBasedBswModuleEntryAssignment", [("assignedEntryRef", FLeaf false RRef);
    ("role", FLeaf false RLiteral)]);
   ("RoleBasedDataAssignment", [("role", FLeaf false RLiteral);
    ("usedDataElement", FObj false ["AutosarVariableRef"]);
    ("usedParameterElement", FObj false ["AutosarParameterRef"]);
    ("usedPimRef", FLeaf false RRef)]);
   ("RoleBasedDataTypeAssignment", [("role", FLeaf false RLiteral);
    ("usedImplementationDataTypeRef", FLeaf false RRef)]);
   ("RoleBasedMcDataAssignment", [("executionContextRefs", FLeafs RRef);
    ("mcDataInstanceRefs", FLeafs RRef);
    ("role", FLeaf false RIdentifier)]);
   ("RoleBasedPortAssignment", [("portPrototypeRef", FLeaf false RRef);
    ("role", FLeaf false RLiteral);
    ("timestamp", FAttr false);
    ("uuid", FAttr false)]);
   ("RootSwCompositionPrototype", [("calibrationParameterValueSetRefs", FLeafs RRef);
    ("flatMapRef", FLeaf false RRef);
    ("softwareCompositionTRef", FLeaf false RRef);
    ("annotations", FObjs false ["Annotation"]);
    ("adminData", FObj false ["AdminData"]);
    ("category", FLeaf false RLiteral);
    ("introduction", FObj false ["DocumentationBlock"]);
    ("desc", FObj false ["MultiLanguageOverviewParagraph"]);
    ("variationPoint", FObj false ["VariationPoint"]);
    ("longName", FObj false ["MultilanguageLongName"]);
    ("short_name", FName);
    ("shortNameFragments", FObjs false ["ShortNameFragment"]);
    ("timestamp", FAttr false);
    ("uuid", FAttr false)]);
   ("RoughEstimateHeapUsage", [("memoryConsumption", FLeaf false RPositive);
    ("hardwareConfiguration", FObj false ["HardwareConfiguration"]);
    ("hwElementRef", FLeaf false RRef);
    ("softwareContext", FObj false ["SoftwareContext"]);
    ("annotations", FObjs false ["Annotation"]);
    ("adminData", FObj false ["AdminData"]);
    ("category", FLeaf false RLiteral);
    ("introduction", FObj false ["DocumentationBlock"]);
    ("desc", FObj false ["MultiLanguageOverviewParagraph"]);
    ("variationPoint", FObj false ["VariationPoint"]);
    ("longName", FObj false ["MultilanguageLongName"]);
    ("short_name", FName);
    ("shortNameFragments", FObjs false ["ShortNameFragment"]);
    ("timestamp", FAttr false);
    ("uuid", FAttr false)]);
   ("RoughEstimateOfExecutionTime", [("additionalInformation", FLeaf false RLiteral);
    ("estimatedExecutionTime", FObj false ["MultidimensionalTime"]);
    ("exclusiveAreaRef", FLeaf false RRef);
    ("executableEntityRef", FLeaf false RRef);
    ("hardwareConfiguration", FObj false ["HardwareConfiguration"]);
    ("hwElementRef", FLeaf false RRef);
    ("includedLibraryRefs", FLeafs RRef);
    ("memorySectionLocations", FObjs false ["MemorySectionLocation"]);
    ("softwareContext", FObj false ["SoftwareContext"]);
    ("annotations", FObjs false ["Annotation"]);
    ("adminData", FObj false ["AdminData"]);
    ("category", FLeaf false RLiteral);
    ("introduction", FObj false ["DocumentationBlock"]);
    ("desc", FObj false ["MultiLanguageOverviewParagraph"]);
    ("variationPoint", FObj false ["VariationPoint"]);
    ("longName", FObj false ["MultilanguageLongName"]);
    ("short_name", FName);
    ("shortNameFragments", FObjs false ["ShortNameFragment"]);
    ("timestamp", FAttr false);
    ("uuid", FAttr false)]);
   ("RoughEstimateStackUsage", [("memoryConsumption", FLeaf false RPositive);
    ("executableEntityRef", FLeaf false RRef);
    ("hardwareConfiguration", FObj false ["HardwareConfiguration"]);
    ("hwElementRef", FLeaf false RRef);
    ("softwareContext", FObj false ["SoftwareContext"]);
    ("annotations", FObjs false ["Annotation"]);
    ("adminData", FObj false ["AdminData"]);
    ("category", FLeaf false RLiteral);
    ("introduction", FObj false ["DocumentationBlock"]);
    ("desc", FObj false ["MultiLanguageOverviewParagraph"]);
    ("variationPoint", FObj false ["VariationPoint"]);
    ("longName", FObj false ["MultilanguageLongName"]);
    ("short_name", FName);
    ("shortNameFragments", FObjs false ["ShortNameFragment"]);
    ("timestamp", FAttr false);
    ("uuid", FAttr false)]);
   ("RptComponent", [("mcDataAssignments", FObjs false ["RoleBasedMcDataAssignment"]);
    ("rpImplPolicy", FObj false ["RptImplPolicy"]);
    ("rptExecutableEntities", FObjs false ["RptExecutableEntity"]);
    ("short_name", FName)]);
   ("RptExecutableEntity", [("rptExecutableEntityEvents", FObjs false ["RptExecutableEntityEvent"]);
    ("rptReads", FObjs false ["RoleBasedMcDataAssignment"]);
    ("rptWrites", FObjs false ["RoleBasedMcDataAssignment"]);
    ("symbol", FLeaf false RLiteral);
    ("short_name", FName)]);
   ("RptExecutableEntityEvent", [("executionContextRefs", FLeafs RRef);
    ("mcDataAssignments", FObjs false ["RoleBasedMcDataAssignment"]);
    ("rptEventId", FLeaf false RPositive);
    ("rptExecutableEntityProperties", FObj false ["RptExecutableEntityProperties"]);
    ("rptImplPolicy", FObj false ["RptImplPolicy"]);
    ("rptServicePointPostRefs", FLeafs RRef);
    ("rptServicePointPreRefs", FLeafs RRef);
    ("short_name", FName)]);
   ("RptExecutableEntityProperties", [("maxRptEventId", FLeaf false RPositive);
    ("minRptEventId", FLeaf false RPositive);
    ("rptExecutionControl", FLeaf false RLiteral);
    ("rptServicePoint", FLeaf false RLiteral)]);
   ("RptExecutionContext", [("short_name", FName)]);
   ("RptImplPolicy", [("rptEnablerImplType", FLeaf false RLiteral);
    ("rptPreparationLevel", FLeaf false RLiteral)]);
   ("RptServicePoint", [("serviceId", FLeaf false RPositive);
    ("symbol", FLeaf false RLiteral);
    ("short_name", FName)]);
   ("RptSupportData", [("executionContexts", FObjs false ["RptExecutionContext"]);
    ("rptComponents", FObjs false ["RptComponent"]);
    ("rptServicePoints", FObjs false ["RptServicePoint"])]);
   ("RptSwPrototypingAccess", [("rptHookAccess", FLeaf false RLiteral);
    ("rptReadAccess", FLeaf false RLiteral);
    ("rptWriteAccess", FLeaf false RLiteral)]);
   ("RteEventInEcuInstanceRef", [("contextRootCompositionRef", FLeaf false RRef);
    ("contextAtomicComponentRef", FLeaf false RRef);
    ("targetRteEventRef", FLeaf false RRef)]);
   ("RuleArguments", [("v", FLeaf false RNumerical);
    ("vf", FLeaf false RNumerical);
    ("vt", FLeaf false RVerbatim);
    ("vtf", FObj false ["NumericalOrText"]);
    ("timestamp", FAttr false);
    ("uuid", FAttr false)]);
   ("RuleBasedAxisCont", [("category", FLeaf false RLiteral);
    ("unitRef", FLeaf false RRef);
    ("swArraysize", FObj false ["ValueList"]);
    ("swAxisIndex", FLeaf false RLiteral);
    ("ruleBasedValues", FObj false ["RuleBasedValueSpecification"]);
    ("timestamp", FAttr false);
    ("uuid", FAttr false)]);
   ("RuleBasedValueCont", [("ruleBasedValues", FObj false ["RuleBasedValueSpecification"]);
    ("swArraysize", FObj false ["ValueList"]);
    ("unitRef", FLeaf false RRef);
    ("timestamp", FAttr false);
    ("uuid", FAttr false)]);
   ("RuleBasedValueSpecification", [("arguments", FObjs false ["RuleArguments"]);
    ("maxSizeToFill", FLeaf false RInteger);
    ("rule", FLeaf false RIdentifier);
    ("timestamp", FAttr false);
    ("uuid", FAttr false)]);
   ("RunnableEntity", [("arguments", FObjs false ["RunnableEntityArgument"]);
    ("canBeInvokedConcurrently", FLeaf false RBool);
    ("dataReadAccesses", FObjs true ["VariableAccess"]);
    ("dataReceivePointByArguments", FObjs true ["VariableAccess"]);
    ("dataReceivePointByValues", FObjs true ["VariableAccess"]);
    ("dataSendPoints", FObjs false ["VariableAccess"]);
    ("dataWriteAccesses", FObjs true ["VariableAccess"]);
    ("externalTriggeringPoints", FObjs false ["ExternalTriggeringPoint"]);
    ("modeAccessPoints", FObjs false ["ModeAccessPoint"]);
    ("readLocalVariables", FObjs false ["VariableAccess"]);
    ("symbol", FLeaf false RLiteral);
    ("waitPoints", FObjs false ["WaitPoint"]);
    ("writtenLocalVariables", FObjs false ["VariableAccess"]);
    ("elements/ParameterAccess", FObjs true ["ParameterAccess"]);
    ("elements/AsynchronousServerCallResultPoint", FObjs true ["AsynchronousServerCallResultPoint"]);
    ("elements/ServerCallPoint", FObjs true ["AsynchronousServerCallPoint"; "SynchronousServerCallPoint"]);
    ("elements/ModeSwitchPoint", FObjs true ["ModeSwitchPoint"]);
    ("activationReasons", FObjs false ["ExecutableEntityActivationReason"]);
    ("canEnterRefs", FLeafs RRef);
    ("exclusiveAreaNestingOrderRefs", FLeafs RRef);
    ("minimumStartInterval", FLeaf false RTime);
    ("reentrancyLevel", FLeaf false RLiteral);
    ("runsInsideRefs", FLeafs RRef);
    ("swAddrMethodRef", FLeaf false RRef);
    ("annotations", FObjs false ["Annotation"]);
    ("adminData", FObj false ["AdminData"]);
    ("category", FLeaf false RLiteral);
    ("introduction", FObj false ["DocumentationBlock"]);
    ("desc", FObj false ["MultiLanguageOverviewParagraph"]);
    ("variationPoint", FObj false ["VariationPoint"]);
    ("longName", FObj false ["MultilanguageLongName"]);
    ("short_name", FName);
    ("shortNameFragments", FObjs false ["ShortNameFragment"]);
    ("timestamp", FAttr false);
    ("uuid", FAttr false)]);
   ("RunnableEntityArgument", [("symbol", FLeaf false RLiteral)]);
   ("RunnableEntityGroup", [("runnableEntityIRefs", FObjs false ["RunnableEntityInCompositionInstanceRef"]);
    ("runnableEntityGroupIRefs", FObjs false ["InnerRunnableEntityGroupInCompositionInstanceRef"]);
    ("annotations", FObjs false ["Annotation"]);
    ("adminData", FObj false ["AdminData"]);
    ("category", FLeaf false RLiteral);
    ("introduction", FObj false ["DocumentationBlock"]);
    ("desc", FObj false ["MultiLanguageOverviewParagraph"]);
    ("variationPoint", FObj false ["VariationPoint"]);
    ("longName", FObj false ["MultilanguageLongName"]);
    ("short_name", FName);
    ("shortNameFragments", FObjs false ["ShortNameFragment"]);
    ("timestamp", FAttr false);
    ("uuid", FAttr false)]);
   ("RunnableEntityInCompositionInstanceRef", [("contextSwComponentPrototypeRefs", FLeafs RRef);
    ("targetRunnableEntityRef", FLeaf false RRef)]);
   ("RuntimeError", [("id", FLeaf false RPositive);
    ("annotations", FObjs false ["Annotation"]);
    ("adminData", FObj false ["AdminData"]);
    ("category", FLeaf false RLiteral);
    ("introduction", FObj false ["DocumentationBlock"]);
    ("desc", FObj false ["MultiLanguageOverviewParagraph"]);
    ("variationPoint", FObj false ["VariationPoint"]);
    ("longName", FObj false ["MultilanguageLongName"]);
    ("short_name", FName);
    ("shortNameFragments", FObjs false ["ShortNameFragment"]);
    ("timestamp", FAttr false);
    ("uuid", FAttr false)]);
   ("RxIdentifierRange", [("lowerCanId", FLeaf false RNumerical);
    ("upperCanId", FLeaf false RNumerical)]);
   ("ScaleConstr", [("desc", FObj false ["MultiLanguageOverviewParagraph"]);
    ("lowerLimit", FLeaf false RLimit);
    ("shortLabel", FLeaf false RIdentifier);
    ("upperLimit", FLeaf false RLimit);
    ("validity", FAttrOf "ScaleConstrValidityEnum");
    ("timestamp", FAttr false);
    ("uuid", FAttr false)]);
   ("Sd", [("gid", FAttrOf "NameToken");
    ("value", FTextOf "VerbatimStringPlain");
    ("timestamp", FAttr false);
    ("uuid", FAttr false)]);
   ("SdClientConfig", [("clientServiceMajorVersion", FLeaf false RPositive);
    ("clientServiceMinorVersion", FLeaf false RPositive);
    ("initialFindBehavior", FObj false ["InitialSdDelayConfig"]);
    ("requestResponseDelay", FObj false ["RequestResponseDelay"]);
    ("ttl", FLeaf false RPositive)]);
   ("SdServerConfig", [("initialOfferBehavior", FObj false ["InitialSdDelayConfig"]);
    ("offerCyclicDelay", FLeaf false RTime);
    ("requestResponseDelay", FObj false ["RequestResponseDelay"]);
    ("serverServiceMajorVersion", FLeaf false RPositive);
    ("serverServiceMinorVersion", FLeaf false RPositive);
    ("ttl", FLeaf false RPositive)]);
   ("Sdf", [("gid", FAttrOf "NameToken");
    ("timestamp", FAttr false);
    ("uuid", FAttr false)]);
   ("Sdg", [("gid", FAttrOf "NameToken");
    ("sdgCaption", FObj false ["SdgCaption"]);
    ("sdgContentsType", FPartAny "SdgContents");
    ("timestamp", FAttr false);
    ("uuid", FAttr false)]);
   ("SdgCaption", [("short_name", FName)]);
   ("SdgContents", [("sd", FObjs false ["Sd"]);
    ("sdf", FObjs false ["Sdf"]);
    ("sdg", FObjs false ["Sdg"]);
    ("sdxRefs", FLeafs RRef);
    ("sdxfRefs", FLeafs RRef)]);
   ("SectionNamePrefix", [("implementedInRef", FLeaf false RRef);
    ("short_name", FName);
    ("shortNameFragments", FObjs false ["ShortNameFragment"]);
    ("timestamp", FAttr false);
    ("uuid", FAttr false)]);
   ("SecureCommunicationAuthenticationProps", [("authInfoTxLength", FLeaf false RPositive);
    ("annotations", FObjs false ["Annotation"]);
    ("adminData", FObj false ["AdminData"]);
    ("category", FLeaf false RLiteral);
    ("introduction", FObj false ["DocumentationBlock"]);
    ("desc", FObj false ["MultiLanguageOverviewParagraph"]);
    ("variationPoint", FObj false ["VariationPoint"]);
    ("longName", FObj false ["MultilanguageLongName"]);
    ("short_name", FName);
    ("shortNameFragments", FObjs false ["ShortNameFragment"]);
    ("timestamp", FAttr false);
    ("uuid", FAttr false)]);
   ("SecureCommunicationFreshnessProps", [("freshnessCounterSyncAttempts", FLeaf false RPositive);
    ("freshnessTimestampTimePeriodFactor", FLeaf false RPositive);
    ("freshnessValueLength", FLeaf false RPositive);
    ("freshnessValueTxLength", FLeaf false RPositive);
    ("useFreshnessTimestamp", FLeaf false RBool);
    ("annotations", FObjs false ["Annotation"]);
    ("adminData", FObj false ["AdminData"]);
    ("category", FLeaf false RLiteral);
    ("introduction", FObj false ["DocumentationBlock"]);
    ("desc", FObj false ["MultiLanguageOverviewParagraph"]);
    ("variationPoint", FObj false ["VariationPoint"]);
    ("longName", FObj false ["MultilanguageLongName"]);
    ("short_name", FName);
    ("shortNameFragments", FObjs false ["ShortNameFragment"]);
    ("timestamp", FAttr false);
    ("uuid", FAttr false)]);
   ("SecureCommunicationProps", [("authDataFreshnessLength", FLeaf false RPositive);
    ("authDataFreshnessStartPosition", FLeaf false RPositive);
    ("authenticationBuildAttempts", FLeaf false RPositive);
    ("authenticationRetries", FLeaf false RPositive);
    ("dataId", FLeaf false RPositive);
    ("freshnessValueId", FLeaf false RPositive);
    ("messageLinkLength", FLeaf false RPositive);
    ("messageLinkPosition", FLeaf false RPositive);
    ("secondaryFreshnessValueId", FLeaf false RPositive);
    ("securedAreaLength", FLeaf false RPositive);
    ("securedAreaOffset", FLeaf false RPositive)]);
   ("SecureCommunicationPropsSet", [("authenticationProps", FObjs false ["SecureCommunicationAuthenticationProps"]);
    ("freshnessProps", FObjs false ["SecureCommunicationFreshnessProps"]);
    ("annotations", FObjs false ["Annotation"]);
    ("adminData", FObj false ["AdminData"]);
    ("category", FLeaf false RLiteral);
    ("introduction", FObj false ["DocumentationBlock"]);
    ("desc", FObj false ["MultiLanguageOverviewParagraph"]);
    ("variationPoint", FObj false ["VariationPoint"]);
    ("longName", FObj false ["MultilanguageLongName"]);
    ("short_name", FName);
    ("shortNameFragments", FObjs false ["ShortNameFragment"]);
    ("timestamp", FAttr false);
    ("uuid", FAttr false)]);
   ("SecureOnBoardCommunicationNeeds", [("verificationStatusIndicationMode", FLeaf false RLiteral);
    ("annotations", FObjs false ["Annotation"]);
    ("adminData", FObj false ["AdminData"]);
    ("category", FLeaf false RLiteral);
    ("introduction", FObj false ["DocumentationBlock"]);
    ("desc", FObj false ["MultiLanguageOverviewParagraph"]);
    ("variationPoint", FObj false ["VariationPoint"]);
    ("longName", FObj false ["MultilanguageLongName"]);
    ("short_name", FName);
    ("shortNameFragments", FObjs false ["ShortNameFragment"]);
    ("timestamp", FAttr false);
    ("uuid", FAttr false)]);
   ("SecuredIPdu", [("authenticationPropsRef", FLeaf false RRef);
    ("freshnessPropsRef", FLeaf false RRef);
    ("payloadRef", FLeaf false RRef);
    ("secureCommunicationProps", FObj false ["SecureCommunicationProps"]);
    ("useAsCryptographicIPdu", FLeaf false RBool);
    ("containedIPduProps", FObj false ["ContainedIPduProps"]);
    ("hasDynamicLength", FLeaf false RBool);
    ("length", FLeaf false RNumerical);
    ("annotations", FObjs false ["Annotation"]);
    ("adminData", FObj false ["AdminData"]);
    ("category", FLeaf false RLiteral);
    ("introduction", FObj false ["DocumentationBlock"]);
    ("desc", FObj false ["MultiLanguageOverviewParagraph"]);
    ("variationPoint", FObj false ["VariationPoint"]);
    ("longName", FObj false ["MultilanguageLongName"]);
    ("short_name", FName);
    ("shortNameFragments", FObjs false ["ShortNameFragment"]);
    ("timestamp", FAttr false);
    ("uuid", FAttr false)]);
   ("SegmentPosition", [("segmentByteOrder", FLeaf false RLiteral);
    ("segmentLength", FLeaf false RInteger);
    ("segmentPosition", FLeaf false RInteger)]);
   ("SenderRecRecordElementMapping", [("applicationRecordElementRef", FLeaf false RRef);
    ("implementationRecordElementRef", FLeaf false RRef);
    ("systemSignalRef", FLeaf false RRef);
    ("timestamp", FAttr false);
    ("uuid", FAttr false)]);
   ("SenderRecRecordTypeMapping", [("recordElementMappings", FObjs false ["SenderRecRecordElementMapping"]);
    ("timestamp", FAttr false);
    ("uuid", FAttr false)]);
   ("SenderReceiverAnnotation", [("computed", FLeaf false RBool);
    ("dataElementRef", FLeaf false RRef);
    ("limitKind", FWrap "DataLimitKindEnum");
    ("processingKind", FWrap "ProcessingKindEnum")]);
   ("SenderReceiverInterface", [("invalidationPolicies", FObjs false ["InvalidationPolicy"]);
    ("elements/VariableDataPrototype", FObjs false ["VariableDataPrototype"]);
    ("isService", FLeaf false RBool);
    ("annotations", FObjs false ["Annotation"]);
    ("adminData", FObj false ["AdminData"]);
    ("category", FLeaf false RLiteral);
    ("introduction", FObj false ["DocumentationBlock"]);
    ("desc", FObj false ["MultiLanguageOverviewParagraph"]);
    ("variationPoint", FObj false ["VariationPoint"]);
    ("longName", FObj false ["MultilanguageLongName"]);
    ("short_name", FName);
    ("shortNameFragments", FObjs false ["ShortNameFragment"]);
    ("timestamp", FAttr false);
    ("uuid", FAttr false)]);
   ("SenderReceiverToSignalGroupMapping", [("dataElementIRef", FObj false ["VariableDataPrototypeInSystemInstanceRef"]);
    ("signalGroupRef", FLeaf false RRef);
    ("typeMapping", FObj false ["SenderRecRecordTypeMapping"])]);
   ("SenderReceiverToSignalMapping", [("communicationDirection", FLeaf false RLiteral);
    ("dataElementIRef", FObj false ["VariableDataPrototypeInSystemInstanceRef"]);
    ("systemSignalRef", FLeaf true RRef)]);
   ("SensorActuatorSwComponentType", [("sensorActuatorRef", FLeaf false RRef);
    ("internalBehavior", FObj false ["SwcInternalBehavior"]);
    ("symbolProps", FObj false ["SymbolProps"]);
    ("consistencyNeeds", FObjs false ["ConsistencyNeeds"]);
    ("ports", FObjs false ["PPortPrototype"; "PRPortPrototype"; "RPortPrototype"]);
    ("portGroups", FObjs false ["PortGroup"]);
    ("swcMappingConstraintsRefs", FLeafs RRef);
    ("swComponentDocumentation", FObj false ["SwComponentDocumentation"]);
    ("unitGroupRefs", FLeafs RRef);
    ("annotations", FObjs false ["Annotation"]);
    ("adminData", FObj false ["AdminData"]);
    ("category", FLeaf false RLiteral);
    ("introduction", FObj false ["DocumentationBlock"]);
    ("desc", FObj false ["MultiLanguageOverviewParagraph"]);
    ("variationPoint", FObj false ["VariationPoint"]);
    ("longName", FObj false ["MultilanguageLongName"]);
    ("short_name", FName);
    ("shortNameFragments", FObjs false ["ShortNameFragment"]);
    ("timestamp", FAttr false);
    ("uuid", FAttr false)]);
   ("ServerComSpec", [("operationRef", FLeaf false RRef);
    ("queueLength", FLeaf false RPositive);
    ("transformationComSpecProps", FObjs false ["EndToEndTransformationComSpecProps"; "UserDefinedTransformationComSpecProps"]);
    ("timestamp", FAttr false);
    ("uuid", FAttr false)]);
   ("ServiceProxySwComponentType", [("internalBehavior", FObj false ["SwcInternalBehavior"]);
    ("symbolProps", FObj false ["SymbolProps"]);
    ("consistencyNeeds", FObjs false ["ConsistencyNeeds"]);
    ("ports", FObjs false ["PPortPrototype"; "PRPortPrototype"; "RPortPrototype"]);
    ("portGroups", FObjs false ["PortGroup"]);
    ("swcMappingConstraintsRefs", FLeafs RRef);
    ("swComponentDocumentation", FObj false ["SwComponentDocumentation"]);
    ("unitGroupRefs", FLeafs RRef);
    ("annotations", FObjs false ["Annotation"]);
    ("adminData", FObj false ["AdminData"]);
    ("category", FLeaf false RLiteral);
    ("introduction", FObj false ["DocumentationBlock"]);
    ("desc", FObj false ["MultiLanguageOverviewParagraph"]);
    ("variationPoint", FObj false ["VariationPoint"]);
    ("longName", FObj false ["MultilanguageLongName"]);
    ("short_name", FName);
    ("shortNameFragments", FObjs false ["ShortNameFragment"]);
    ("timestamp", FAttr false);
    ("uuid", FAttr false)]);
   ("ServiceSwComponentType", [("internalBehavior", FObj false ["SwcInternalBehavior"]);
    ("symbolProps", FObj false ["SymbolProps"]);
    ("consistencyNeeds", FObjs false ["ConsistencyNeeds"]);
    ("ports", FObjs false ["PPortPrototype"; "PRPortPrototype"; "RPortPrototype"]);
    ("portGroups", FObjs false ["PortGroup"]);
    ("swcMappingConstraintsRefs", FLeafs RRef);
    ("swComponentDocumentation", FObj false ["SwComponentDocumentation"]);
    ("unitGroupRefs", FLeafs RRef);
    ("annotations", FObjs false ["Annotation"]);
    ("adminData", FObj false ["AdminData"]);
    ("category", FLeaf false RLiteral);
    ("introduction", FObj false ["DocumentationBlock"]);
    ("desc", FObj false ["MultiLanguageOverviewParagraph"]);
    ("variationPoint", FObj false ["VariationPoint"]);
    ("longName", FObj false ["MultilanguageLongName"]);
    ("short_name", FName);
    ("shortNameFragments", FObjs false ["ShortNameFragment"]);
    ("timestamp", FAttr false);
    ("uuid", FAttr false)]);
   ("ShortNameFragment", [("fragment", FLeaf false RIdentifier);
    ("timestamp", FAttr false);
    ("uuid", FAttr false)]);
   ("SignalServiceTranslationElementProps", [("filter", FObj false ["DataFilter"]);
    ("transmissionTrigger", FLeaf false RBool);
    ("annotations", FObjs false ["Annotation"]);
    ("adminData", FObj false ["AdminData"]);
    ("category", FLeaf false RLiteral);
    ("introduction", FObj false ["DocumentationBlock"]);
    ("desc", FObj false ["MultiLanguageOverviewParagraph"]);
    ("variationPoint", FObj false ["VariationPoint"]);
    ("longName", FObj false ["MultilanguageLongName"]);
    ("short_name", FName);
    ("shortNameFragments", FObjs false ["ShortNameFragment"]);
    ("timestamp", FAttr false);
    ("uuid", FAttr false)]);
   ("SignalServiceTranslationEventProps", [("elementProps", FObjs false ["SignalServiceTranslationElementProps"]);
    ("safeTranslation", FLeaf false RBool);
    ("secureTranslation", FLeaf false RBool);
    ("translationTarget", FObj false ["VariableDataPrototypeInSystemInstanceRef"]);
    ("annotations", FObjs false ["Annotation"]);
    ("adminData", FObj false ["AdminData"]);
    ("category", FLeaf false RLiteral);
    ("introduction", FObj false ["DocumentationBlock"]);
    ("desc", FObj false ["MultiLanguageOverviewParagraph"]);
    ("variationPoint", FObj false ["VariationPoint"]);
    ("longName", FObj false ["MultilanguageLongName"]);
    ("short_name", FName);
    ("shortNameFragments", FObjs false ["ShortNameFragment"]);
    ("timestamp", FAttr false);
    ("uuid", FAttr false)]);
   ("SignalServiceTranslationProps", [("controlConsumedEventGroupRefs", FLeafs RRef);
    ("controlPncRefs", FLeafs RRef);
    ("controlProvidedEventGroupRefs", FLeafs RRef);
    ("serviceControl", FLeaf false RLiteral);
    ("signalServiceTranslationEventProps", FObjs false ["SignalServiceTranslationEventProps"]);
    ("annotations", FObjs false ["Annotation"]);
    ("adminData", FObj false ["AdminData"]);
    ("category", FLeaf false RLiteral);
    ("introduction", FObj false ["DocumentationBlock"]);
    ("desc", FObj false ["MultiLanguageOverviewParagraph"]);
    ("variationPoint", FObj false ["VariationPoint"]);
    ("longName", FObj false ["MultilanguageLongName"]);
    ("short_name", FName);
    ("shortNameFragments", FObjs false ["ShortNameFragment"]);
    ("timestamp", FAttr false);
    ("uuid", FAttr false)]);
   ("SignalServiceTranslationPropsSet", [("signalServiceTranslationProps", FObjs false ["SignalServiceTranslationProps"]);
    ("annotations", FObjs false ["Annotation"]);
    ("adminData", FObj false ["AdminData"]);
    ("category", FLeaf false RLiteral);
    ("introduction", FObj false ["DocumentationBlock"]);
    ("desc", FObj false ["MultiLanguageOverviewParagraph"]);
    ("variationPoint", FObj false ["VariationPoint"]);
    ("longName", FObj false ["MultilanguageLongName"]);
    ("short_name", FName);
    ("shortNameFragments", FObjs false ["ShortNameFragment"]);
    ("timestamp", FAttr false);
    ("uuid", FAttr false)]);
   ("SimulatedExecutionTime", [("maximumExecutionTime", FObj false ["MultidimensionalTime"]);
    ("minimumExecutionTime", FObj false ["MultidimensionalTime"]);
    ("nominalExecutionTime", FObj false ["MultidimensionalTime"]);
    ("exclusiveAreaRef", FLeaf false RRef);
    ("executableEntityRef", FLeaf false RRef);
    ("hardwareConfiguration", FObj false ["HardwareConfiguration"]);
    ("hwElementRef", FLeaf false RRef);
    ("includedLibraryRefs", FLeafs RRef);
    ("memorySectionLocations", FObjs false ["MemorySectionLocation"]);
    ("softwareContext", FObj false ["SoftwareContext"]);
    ("annotations", FObjs false ["Annotation"]);
    ("adminData", FObj false ["AdminData"]);
    ("category", FLeaf false RLiteral);
    ("introduction", FObj false ["DocumentationBlock"]);
    ("desc", FObj false ["MultiLanguageOverviewParagraph"]);
    ("variationPoint", FObj false ["VariationPoint"]);
    ("longName", FObj false ["MultilanguageLongName"]);
    ("short_name", FName);
    ("shortNameFragments", FObjs false ["ShortNameFragment"]);
    ("timestamp", FAttr false);
    ("uuid", FAttr false)]);
   ("SoAdConfig", [("connectionBundles", FObjs false ["SocketConnectionBundle"]);
    ("socketAddresses", FObjs false ["SocketAddress"])]);
   ("SoAdRoutingGroup", [("eventGroupControlType", FLeaf false RLiteral);
    ("annotations", FObjs false ["Annotation"]);
    ("adminData", FObj false ["AdminData"]);
    ("category", FLeaf false RLiteral);
    ("introduction", FObj false ["DocumentationBlock"]);
    ("desc", FObj false ["MultiLanguageOverviewParagraph"]);
    ("variationPoint", FObj false ["VariationPoint"]);
    ("longName", FObj false ["MultilanguageLongName"]);
    ("short_name", FName);
    ("shortNameFragments", FObjs false ["ShortNameFragment"]);
    ("timestamp", FAttr false);
    ("uuid", FAttr false)]);
   ("SocketAddress", [("applicationEndpoint", FObj false ["ApplicationEndpoint"]);
    ("connectorRef", FLeaf false RRef);
    ("multicastConnectorRefs", FLeafs RRef);
    ("portAddress", FLeaf false RPositive);
    ("annotations", FObjs false ["Annotation"]);
    ("adminData", FObj false ["AdminData"]);
    ("category", FLeaf false RLiteral);
    ("introduction", FObj false ["DocumentationBlock"]);
    ("desc", FObj false ["MultiLanguageOverviewParagraph"]);
    ("variationPoint", FObj false ["VariationPoint"]);
    ("longName", FObj false ["MultilanguageLongName"]);
    ("short_name", FName);
    ("shortNameFragments", FObjs false ["ShortNameFragment"]);
    ("timestamp", FAttr false);
    ("uuid", FAttr false)]);
   ("SocketConnection", [("clientIpAddrFromConnectionRequest", FLeaf false RBool);
    ("clientPortRef", FLeaf false RRef);
    ("clientPortFromConnectionRequest", FLeaf false RBool);
    ("pdus", FObjs false ["SocketConnectionIpduIdentifier"]);
    ("pduCollectionMaxBufferSize", FLeaf false RPositive);
    ("pduCollectionTimeout", FLeaf false RTime);
    ("runtimeIpAddressConfiguration", FLeaf false RLiteral);
    ("runtimePortConfiguration", FLeaf false RLiteral);
    ("shortLabel", FLeaf false RLiteral)]);
   ("SocketConnectionBundle", [("bundledConnections", FObjs false ["SocketConnection"]);
    ("serverPortRef", FLeaf false RRef);
    ("short_name", FName)]);
   ("SocketConnectionIpduIdentifier", [("headerId", FLeaf false RPositive);
    ("pduCollectionSemantics", FLeaf false RLiteral);
    ("pduCollectionTrigger", FLeaf false RLiteral);
    ("PduRef", FLeaf false RRef);
    ("pduTriggeringRef", FLeaf false RRef)]);
   ("SoftwareContext", [("input", FLeaf false RLiteral);
    ("state", FLeaf false RLiteral)]);
   ("StaticPart", [("iPduRef", FLeaf false RRef);
    ("segmentPositions", FObjs false ["SegmentPosition"])]);
   ("StructuredReq", [("date", FLeaf false RLiteral);
    ("importance", FLeaf false RLiteral);
    ("issuedBy", FLeaf false RLiteral);
    ("type", FLeaf false RLiteral);
    ("description", FObj false ["DocumentationBlock"]);
    ("rationale", FObj false ["DocumentationBlock"]);
    ("dependencies", FObj false ["DocumentationBlock"]);
    ("useCase", FObj false ["DocumentationBlock"]);
    ("conflicts", FObj false ["DocumentationBlock"]);
    ("supportingMaterial", FObj false ["DocumentationBlock"]);
    ("remark", FObj false ["DocumentationBlock"]);
    ("timestamp", FAttr false);
    ("uuid", FAttr false)]);
   ("SupervisedEntityNeeds", [("activateAtStart", FLeaf false RBool);
    ("checkpointsRefs", FLeafs RRef);
    ("enableDeactivation", FLeaf false RBool);
    ("expectedAliveCycle", FLeaf false RTime);
    ("maxAliveCycle", FLeaf false RTime);
    ("minAliveCycle", FLeaf false RTime);
    ("toleratedFailedCycles", FLeaf false RPositive);
    ("annotations", FObjs false ["Annotation"]);
    ("adminData", FObj false ["AdminData"]);
    ("category", FLeaf false RLiteral);
    ("introduction", FObj false ["DocumentationBlock"]);
    ("desc", FObj false ["MultiLanguageOverviewParagraph"]);
    ("variationPoint", FObj false ["VariationPoint"]);
    ("longName", FObj false ["MultilanguageLongName"]);
    ("short_name", FName);
    ("shortNameFragments", FObjs false ["ShortNameFragment"]);
    ("timestamp", FAttr false);
    ("uuid", FAttr false)]);
   ("SwAddrMethod", [("memoryAllocationKeywordPolicy", FWrap "MemoryAllocationKeywordPolicyType");
    ("options", FLeafs RLitItem);
    ("sectionInitializationPolicy", FWrap "SectionInitializationPolicyType");
    ("sectionType", FWrap "MemorySectionType");
    ("annotations", FObjs false ["Annotation"]);
    ("adminData", FObj false ["AdminData"]);
    ("category", FLeaf false RLiteral);
    ("introduction", FObj false ["DocumentationBlock"]);
    ("desc", FObj false ["MultiLanguageOverviewParagraph"]);
    ("variationPoint", FObj false ["VariationPoint"]);
    ("longName", FObj false ["MultilanguageLongName"]);
    ("short_name", FName);
    ("shortNameFragments", FObjs false ["ShortNameFragment"]);
    ("timestamp", FAttr false);
    ("uuid", FAttr false)]);
   ("SwAxisGeneric", [("swAxisTypeRef", FLeaf false RRef);
    ("swGenericAxisParams", FObjs false ["SwGenericAxisParam"]);
    ("timestamp", FAttr false);
    ("uuid", FAttr false)]);
   ("SwAxisGrouped", [("sharedAxisTypeRef", FLeaf false RRef);
    ("maxGradient", FLeaf false RFloat);
    ("monotony", FLeaf false RLiteral)]);
   ("SwAxisIndividual", [("compuMethodRef", FLeaf false RRef);
    ("dataConstrRef", FLeaf false RRef);
    ("inputVariableTypeRef", FLeaf false RRef);
    ("swAxisGeneric", FObj false ["SwAxisGeneric"]);
    ("swMaxAxisPoints", FLeaf false RNumerical);
    ("swMinAxisPoints", FLeaf false RNumerical);
    ("maxGradient", FLeaf false RFloat);
    ("monotony", FLeaf false RLiteral);
    ("timestamp", FAttr false);
    ("uuid", FAttr false)]);
   ("SwBaseType", [("baseTypeDefinition", FPart "BaseTypeDirectDefinition");
    ("annotations", FObjs false ["Annotation"]);
    ("adminData", FObj false ["AdminData"]);
    ("category", FLeaf false RLiteral);
    ("introduction", FObj false ["DocumentationBlock"]);
    ("desc", FObj false ["MultiLanguageOverviewParagraph"]);
    ("variationPoint", FObj false ["VariationPoint"]);
    ("longName", FObj false ["MultilanguageLongName"]);
    ("short_name", FName);
    ("shortNameFragments", FObjs false ["ShortNameFragment"]);
    ("timestamp", FAttr false);
    ("uuid", FAttr false)]);
   ("SwBitRepresentation", [("bitPosition", FLeaf false RInteger);
    ("numberOfBits", FLeaf false RInteger)]);
   ("SwCalprmAxis", [("category", FLeaf false RLiteral);
    ("displayFormat", FLeaf false RLiteral);
    ("swAxisIndex", FLeaf false RLiteral);
    ("swCalibrationAccess", FLeaf false RLiteral);
    ("swCalprmAxisTypeProps", FObj false ["SwAxisGrouped"; "SwAxisIndividual"])]);
   ("SwCalprmAxisSet", [("_swCalprmAxis", FObjs false ["SwCalprmAxis"])]);
   ("SwCalprmRefProxy", [("arParameter", FObj false ["AutosarParameterRef"]);
    ("mcDataInstanceRef", FLeaf false RRef)]);
   ("SwComponentDocumentation", [("chapters", FObjs false ["Chapter"]);
    ("swCalibrationNotes", FObj false ["Chapter"]);
    ("swCarbDoc", FObj false ["Chapter"]);
    ("swDiagnosticsNotes", FObj false ["Chapter"]);
    ("swFeatureDef", FObj false ["Chapter"]);
    ("swFeatureDesc", FObj false ["Chapter"]);
    ("swMaintenanceNotes", FObj false ["Chapter"]);
    ("swTestDesc", FObj false ["Chapter"])]);
   ("SwComponentPrototype", [("typeTRef", FLeaf false RRef);
    ("annotations", FObjs false ["Annotation"]);
    ("adminData", FObj false ["AdminData"]);
    ("category", FLeaf false RLiteral);
    ("introduction", FObj false ["DocumentationBlock"]);
    ("desc", FObj false ["MultiLanguageOverviewParagraph"]);
    ("variationPoint", FObj false ["VariationPoint"]);
    ("longName", FObj false ["MultilanguageLongName"]);
    ("short_name", FName);
    ("shortNameFragments", FObjs false ["ShortNameFragment"]);
    ("timestamp", FAttr false);
    ("uuid", FAttr false)]);
   ("SwDataDefProps", [("displayPresentation", FLeaf false RLiteral);
    ("stepSize", FLeaf false RFloat);
    ("annotations", FObjs false ["Annotation"]);
    ("swAddrMethodRef", FLeaf false RRef);
    ("swAlignment", FLeaf false RLiteral);
    ("baseTypeRef", FLeaf false RRef);
    ("swBitRepresentation", FObj false ["SwBitRepresentation"]);
    ("swCalibrationAccess", FLeaf false RLiteral);
    ("swValueBlockSize", FLeaf false RNumerical);
    ("swCalprmAxisSet", FPart "SwCalprmAxisSet");
    ("swTextProps", FObj false ["SwTextProps"]);
    ("swComparisonVariables", FObjs false ["SwVariableRefProxy"]);
    ("compuMethodRef", FLeaf false RRef);
    ("dataConstrRef", FLeaf false RRef);
    ("swDataDependency", FObj false ["SwDataDependency"]);
    ("displayFormat", FLeaf false RLiteral);
    ("implementationDataTypeRef", FLeaf false RRef);
    ("swHostVariable", FObj false ["SwVariableRefProxy"]);
    ("swImplPolicy", FLeaf false RLiteral);
    ("additionalNativeTypeQualifier", FLeaf false RLiteral);
    ("swIntendedResolution", FLeaf false RNumerical);
    ("swInterpolationMethod", FLeaf false RLiteral);
    ("invalidValue", FObj false ["ApplicationRuleBasedValueSpecification"; "ApplicationValueSpecification"; "ArrayValueSpecification"; "CompositeRuleBasedValueSpecification"; "ConstantReference"; "NumericalValueSpecification"; "RecordValueSpecification"; "TextValueSpecification"]);
    ("swIsVirtual", FLeaf false RBool);
    ("swPointerTargetProps", FObj false ["SwPointerTargetProps"]);
    ("swRecordLayoutRef", FLeaf false RRef);
    ("swRefreshTiming", FObj false ["MultidimensionalTime"]);
    ("unitRef", FLeaf false RRef);
    ("valueAxisDataTypeRef", FLeaf false RRef);
    ("timestamp", FAttr false);
    ("uuid", FAttr false)]);
   ("SwDataDependency", [("swDataDependencyFormula", FObj false ["CompuGenericMath"]);
    ("swDataDependencyArgs", FObj false ["SwDataDependencyArgs"])]);
   ("SwDataDependencyArgs", [("swCalprmRef", FObj false ["SwCalprmRefProxy"]);
    ("swVariable", FObj false ["SwVariableRefProxy"])]);
   ("SwGenericAxisParam", [("swGenericAxisParamTypeRef", FLeaf false RRef);
    ("vfs", FLeafs RNumItem);
    ("timestamp", FAttr false);
    ("uuid", FAttr false)]);
   ("SwPointerTargetProps", [("functionPointerSignatureRef", FLeaf false RRef);
    ("swDataDefProps", FObj false ["SwDataDefProps"]);
    ("targetCategory", FLeaf false RLiteral)]);
   ("SwRecordLayout", [("swRecordLayoutGroup", FObj false ["SwRecordLayoutGroup"]);
    ("annotations", FObjs false ["Annotation"]);
    ("adminData", FObj false ["AdminData"]);
    ("category", FLeaf false RLiteral);
    ("introduction", FObj false ["DocumentationBlock"]);
    ("desc", FObj false ["MultiLanguageOverviewParagraph"]);
    ("variationPoint", FObj false ["VariationPoint"]);
    ("longName", FObj false ["MultilanguageLongName"]);
    ("short_name", FName);
    ("shortNameFragments", FObjs false ["ShortNameFragment"]);
    ("timestamp", FAttr false);
    ("uuid", FAttr false)]);
   ("SwRecordLayoutGroup", [("category", FLeaf false RLiteral);
    ("shortLabel", FLeaf false RLiteral);
    ("swRecordLayoutGroupAxis", FLeaf false RLiteral);
    ("swRecordLayoutGroupContentType", FPart "SwRecordLayoutGroupContent");
    ("swRecordLayoutGroupFrom", FLeaf false RLiteral);
    ("swRecordLayoutGroupIndex", FLeaf false RLiteral);
    ("swRecordLayoutGroupStep", FLeaf false RInteger);
    ("swRecordLayoutGroupTo", FLeaf false RLiteral)]);
   ("SwRecordLayoutGroupContent", [("swRecordLayoutGroup", FObj false ["SwRecordLayoutGroup"]);
    ("swRecordLayoutV", FObj false ["SwRecordLayoutV"])]);
   ("SwRecordLayoutV", [("baseTypeRef", FLeaf false RRef);
    ("shortLabel", FLeaf false RLiteral);
    ("swRecordLayoutVAxis", FLeaf false RLiteral);
    ("swRecordLayoutVIndex", FLeaf false RLiteral);
    ("swRecordLayoutVProp", FLeaf false RLiteral)]);
   ("SwServiceArg", [("direction", FLeaf false RLiteral);
    ("swArraysize", FObj false ["ValueList"]);
    ("swDataDefProps", FObj false ["SwDataDefProps"]);
    ("annotations", FObjs false ["Annotation"]);
    ("adminData", FObj false ["AdminData"]);
    ("category", FLeaf false RLiteral);
    ("introduction", FObj false ["DocumentationBlock"]);
    ("desc", FObj false ["MultiLanguageOverviewParagraph"]);
    ("variationPoint", FObj false ["VariationPoint"]);
    ("longName", FObj false ["MultilanguageLongName"]);
    ("short_name", FName);
    ("shortNameFragments", FObjs false ["ShortNameFragment"]);
    ("timestamp", FAttr false);
    ("uuid", FAttr false)]);
   ("SwSystemconst", [("swDataDefProps", FObj false ["SwDataDefProps"]);
    ("annotations", FObjs false ["Annotation"]);
    ("adminData", FObj false ["AdminData"]);
    ("category", FLeaf false RLiteral);
    ("introduction", FObj false ["DocumentationBlock"]);
    ("desc", FObj false ["MultiLanguageOverviewParagraph"]);
    ("variationPoint", FObj false ["VariationPoint"]);
    ("longName", FObj false ["MultilanguageLongName"]);
    ("short_name", FName);
    ("shortNameFragments", FObjs false ["ShortNameFragment"]);
    ("timestamp", FAttr false);
    ("uuid", FAttr false)]);
   ("SwSystemconstValue", [("annotations", FObjs false ["Annotation"]);
    ("swSystemconstRef", FLeaf false RRef);
    ("value", FLeaf false RNumerical)]);
   ("SwSystemconstantValueSet", [("swSystemconstantValues", FObjs false ["SwSystemconstValue"]);
    ("annotations", FObjs false ["Annotation"]);
    ("adminData", FObj false ["AdminData"]);
    ("category", FLeaf false RLiteral);
    ("introduction", FObj false ["DocumentationBlock"]);
    ("desc", FObj false ["MultiLanguageOverviewParagraph"]);
    ("variationPoint", FObj false ["VariationPoint"]);
    ("longName", FObj false ["MultilanguageLongName"]);
    ("short_name", FName);
    ("shortNameFragments", FObjs false ["ShortNameFragment"]);
    ("timestamp", FAttr false);
    ("uuid", FAttr false)]);
   ("SwTextProps", [("arraySizeSemantics", FLeaf false RLiteral);
    ("baseTypeRef", FLeaf false RRef);
    ("swFillCharacter", FLeaf false RInteger);
    ("swMaxTextSize", FLeaf false RInteger)]);
   ("SwValueCont", [("swArraysize", FObj false ["ValueList"]);
    ("swValuesPhys", FObj false ["SwValues"]);
    ("unitRef", FLeaf false RRef);
    ("timestamp", FAttr false);
    ("uuid", FAttr false)]);
   ("SwValues", [("_v", FLeafs RFloatItem);
    ("vt", FLeaf false RLiteral);
    ("timestamp", FAttr false);
    ("uuid", FAttr false)]);
   ("SwVariableRefProxy", [("autosarVariable", FObj false ["AutosarVariableRef"]);
    ("mcDataInstanceVarRef", FLeaf false RRef)]);
   ("SwcBswMapping", [("bswBehaviorRef", FLeaf false RRef);
    ("runnableMappings", FObjs false ["SwcBswRunnableMapping"]);
    ("swcBehaviorRef", FLeaf false RRef);
    ("synchronizedModeGroups", FObjs false ["SwcBswSynchronizedModeGroupPrototype"]);
    ("synchronizedTriggers", FObjs false ["SwcBswSynchronizedTrigger"]);
    ("annotations", FObjs false ["Annotation"]);
    ("adminData", FObj false ["AdminData"]);
    ("category", FLeaf false RLiteral);
    ("introduction", FObj false ["DocumentationBlock"]);
    ("desc", FObj false ["MultiLanguageOverviewParagraph"]);
    ("variationPoint", FObj false ["VariationPoint"]);
    ("longName", FObj false ["MultilanguageLongName"]);
    ("short_name", FName);
    ("shortNameFragments", FObjs false ["ShortNameFragment"]);
    ("timestamp", FAttr false);
    ("uuid", FAttr false)]);
   ("SwcBswRunnableMapping", [("bswEntityRef", FLeaf false RRef);
    ("swcRunnableRef", FLeaf false RRef)]);
   ("SwcBswSynchronizedModeGroupPrototype", [("bswModeGroupRef", FLeaf false RRef);
    ("swcModeGroupIRef", FObj false ["PModeGroupInAtomicSwcInstanceRef"])]);
   ("SwcBswSynchronizedTrigger", [("bswTriggerRef", FLeaf false RRef);
    ("swcTriggerIRef", FObj false ["PTriggerInAtomicSwcTypeInstanceRef"])]);
   ("SwcExclusiveAreaPolicy", [("apiPrinciple", FLeaf false RLiteral);
    ("exclusiveAreaRef", FLeaf false RRef)]);
   ("SwcImplementation", [("behaviorRef", FLeaf false RRef);
    ("buildActionManifestRef", FLeaf false RRef);
    ("compilers", FObjs false ["Compiler"]);
    ("generatedArtifacts", FObjs false ["DependencyOnArtifact"]);
    ("hwElementRefs", FLeafs RRef);
    ("linkers", FObjs false ["Linker"]);
    ("mcSupport", FObj false ["McSupportData"]);
    ("programmingLanguage", FLeaf false RLiteral);
    ("requiredArtifacts", FObjs false ["DependencyOnArtifact"]);
    ("requiredGeneratorTools", FObjs false ["DependencyOnArtifact"]);
    ("resourceConsumption", FObj false ["ResourceConsumption"]);
    ("swcBswMappingRef", FLeaf false RRef);
    ("swVersion", FLeaf false RLiteral);
    ("usedCodeGenerator", FLeaf false RLiteral);
    ("vendorId", FLeaf false RPositive);
    ("elements/Code", FObjs false ["Code"]);
    ("annotations", FObjs false ["Annotation"]);
    ("adminData", FObj false ["AdminData"]);
    ("category", FLeaf false RLiteral);
    ("introduction", FObj false ["DocumentationBlock"]);
    ("desc", FObj false ["MultiLanguageOverviewParagraph"]);
    ("variationPoint", FObj false ["VariationPoint"]);
    ("longName", FObj false ["MultilanguageLongName"]);
    ("short_name", FName);
    ("shortNameFragments", FObjs false ["ShortNameFragment"]);
    ("timestamp", FAttr false);
    ("uuid", FAttr false)]);
   ("SwcInternalBehavior", [("arTypedPerInstanceMemories", FObjs false ["VariableDataPrototype"]);
    ("exclusiveAreaPolicies", FObjs false ["SwcExclusiveAreaPolicy"]);
    ("explicitInterRunnableVariables", FObjs false ["VariableDataPrototype"]);
    ("handleTerminationAndRestart", FLeaf false RLiteral);
    ("includedModeDeclarationGroupSets", FObjs false ["IncludedModeDeclarationGroupSet"]);
    ("instantiationDataDefProps", FObjs false ["InstantiationDataDefProps"]);
    ("perInstanceMemories", FObjs false ["PerInstanceMemory"]);
    ("perInstanceParameters", FObjs false ["ParameterDataPrototype"]);
    ("portAPIOptions", FObjs false ["PortAPIOption"]);
    ("sharedParameters", FObjs false ["ParameterDataPrototype"]);
    ("supportsMultipleInstantiation", FLeaf false RBool);
    ("variationPointProxies", FObjs false ["VariationPointProxy"]);
    ("elements/RTEEvent", FObjs true ["AsynchronousServerCallReturnsEvent"; "BackgroundEvent"; "DataReceivedEvent"; "DataSendCompletedEvent"; "InitEvent"; "ModeSwitchedAckEvent"; "OperationInvokedEvent"; "SwcModeSwitchEvent"; "TimingEvent"]);
    ("elements/SwcServiceDependency", FObjs true ["SwcServiceDependency"]);
    ("elements/RunnableEntity", FObjs true ["RunnableEntity"]);
    ("constantMemories", FObjs false ["ParameterDataPrototype"]);
    ("dataTypeMappingRefs", FLeafs RRef);
    ("staticMemories", FObjs false ["VariableDataPrototype"]);
    ("elements/ExclusiveArea", FObjs false ["ExclusiveArea"]);
    ("elements/ExclusiveAreaNestingOrder", FObjs false ["ExclusiveAreaNestingOrder"]);
    ("annotations", FObjs false ["Annotation"]);
    ("adminData", FObj false ["AdminData"]);
    ("category", FLeaf false RLiteral);
    ("introduction", FObj false ["DocumentationBlock"]);
    ("desc", FObj false ["MultiLanguageOverviewParagraph"]);
    ("variationPoint", FObj false ["VariationPoint"]);
    ("longName", FObj false ["MultilanguageLongName"]);
    ("short_name", FName);
    ("shortNameFragments", FObjs false ["ShortNameFragment"]);
    ("timestamp", FAttr false);
    ("uuid", FAttr false)]);
   ("SwcModeSwitchEvent", [("activation", FWrap "ModeActivationKind");
    ("modeIRefs", FObjs false ["RModeInAtomicSwcInstanceRef"]);
    ("disabledModeIRefs", FObjs false ["RModeInAtomicSwcInstanceRef"]);
    ("startOnEventRef", FLeaf false RRef);
    ("annotations", FObjs false ["Annotation"]);
    ("adminData", FObj false ["AdminData"]);
    ("category", FLeaf false RLiteral);
    ("introduction", FObj false ["DocumentationBlock"]);
    ("desc", FObj false ["MultiLanguageOverviewParagraph"]);
    ("variationPoint", FObj false ["VariationPoint"]);
    ("longName", FObj false ["MultilanguageLongName"]);
    ("short_name", FName);
    ("shortNameFragments", FObjs false ["ShortNameFragment"]);
    ("timestamp", FAttr false);
    ("uuid", FAttr false);
    ("activationReasonRepresentationRef", FLeaf false RRef)]);
   ("SwcServiceDependency", [("assignedData", FObjs false ["RoleBasedDataAssignment"]);
    ("assignedPort", FObjs false ["RoleBasedPortAssignment"]);
    ("representedPortGroup", FLeaf false RRef);
    ("elements/ServiceNeeds", FObjs true ["ComMgrUserNeeds"; "CryptoServiceNeeds"; "DiagnosticCommunicationManagerNeeds"; "DiagnosticEnableConditionNeeds"; "DiagnosticEventInfoNeeds"; "DiagnosticEventNeeds"; "DiagnosticIoControlNeeds"; "DiagnosticOperationCycleNeeds"; "DiagnosticRoutineNeeds"; "DiagnosticStorageConditionNeeds"; "DiagnosticValueNeeds"; "DltUserNeeds"; "DoIpRoutingActivationAuthenticationNeeds"; "DoIpRoutingActivationConfirmationNeeds"; "DtcStatusChangeNotificationNeeds"; "EcuStateMgrUserNeeds"; "ErrorTracerNeeds"; "FunctionInhibitionAvailabilityNeeds"; "IdsMgrNeeds"; "IndicatorStatusNeeds"; "NvBlockNeeds"; "ObdControlServiceNeeds"; "ObdInfoServiceNeeds"; "ObdMonitorServiceNeeds"; "ObdPidServiceNeeds"; "ObdRatioDenominatorNeeds"; "ObdRatioServiceNeeds"; "SecureOnBoardCommunicationNeeds"]);
    ("annotations", FObjs false ["Annotation"]);
    ("adminData", FObj false ["AdminData"]);
    ("category", FLeaf false RLiteral);
    ("introduction", FObj false ["DocumentationBlock"]);
    ("desc", FObj false ["MultiLanguageOverviewParagraph"]);
    ("variationPoint", FObj false ["VariationPoint"]);
    ("longName", FObj false ["MultilanguageLongName"]);
    ("short_name", FName);
    ("shortNameFragments", FObjs false ["ShortNameFragment"]);
    ("timestamp", FAttr false);
    ("uuid", FAttr false);
    ("assignedDataTypes", FObjs false ["RoleBasedDataTypeAssignment"]);
    ("symbolicNameProps", FObj false ["SymbolicNameProps"])]);
   ("SwcTiming", [("timing_requirements", FObjs false ["ExecutionOrderConstraint"]);
    ("annotations", FObjs false ["Annotation"]);
    ("adminData", FObj false ["AdminData"]);
    ("category", FLeaf false RLiteral);
    ("introduction", FObj false ["DocumentationBlock"]);
    ("desc", FObj false ["MultiLanguageOverviewParagraph"]);
    ("variationPoint", FObj false ["VariationPoint"]);
    ("longName", FObj false ["MultilanguageLongName"]);
    ("short_name", FName);
    ("shortNameFragments", FObjs false ["ShortNameFragment"]);
    ("timestamp", FAttr false);
    ("uuid", FAttr false)]);
   ("SwcToEcuMapping", [("componentIRefs", FObjs false ["ComponentInSystemInstanceRef"]);
    ("ecuInstanceRef", FLeaf false RRef);
    ("annotations", FObjs false ["Annotation"]);
    ("adminData", FObj false ["AdminData"]);
    ("category", FLeaf false RLiteral);
    ("introduction", FObj false ["DocumentationBlock"]);
    ("desc", FObj false ["MultiLanguageOverviewParagraph"]);
    ("variationPoint", FObj false ["VariationPoint"]);
    ("longName", FObj false ["MultilanguageLongName"]);
    ("short_name", FName);
    ("shortNameFragments", FObjs false ["ShortNameFragment"]);
    ("timestamp", FAttr false);
    ("uuid", FAttr false)]);
   ("SwcToImplMapping", [("componentIRefs", FObjs false ["ComponentInSystemInstanceRef"]);
    ("componentImplementationRef", FLeaf false RRef);
    ("annotations", FObjs false ["Annotation"]);
    ("adminData", FObj false ["AdminData"]);
    ("category", FLeaf false RLiteral);
    ("introduction", FObj false ["DocumentationBlock"]);
    ("desc", FObj false ["MultiLanguageOverviewParagraph"]);
    ("variationPoint", FObj false ["VariationPoint"]);
    ("longName", FObj false ["MultilanguageLongName"]);
    ("short_name", FName);
    ("shortNameFragments", FObjs false ["ShortNameFragment"]);
    ("timestamp", FAttr false);
    ("uuid", FAttr false)]);
   ("SymbolProps", [("symbol", FLeaf false RLiteral);
    ("short_name", FName);
    ("shortNameFragments", FObjs false ["ShortNameFragment"]);
    ("timestamp", FAttr false);
    ("uuid", FAttr false)]);
   ("SymbolicNameProps", [("symbol", FLeaf false RLiteral);
    ("short_name", FName);
    ("shortNameFragments", FObjs false ["ShortNameFragment"]);
    ("timestamp", FAttr false);
    ("uuid", FAttr false)]);
   ("SynchronousServerCallPoint", [("operationIRef", FObj false ["ROperationInAtomicSwcInstanceRef"]);
    ("timeout", FLeaf false RFloat);
    ("annotations", FObjs false ["Annotation"]);
    ("adminData", FObj false ["AdminData"]);
    ("category", FLeaf false RLiteral);
    ("introduction", FObj false ["DocumentationBlock"]);
    ("desc", FObj false ["MultiLanguageOverviewParagraph"]);
    ("variationPoint", FObj false ["VariationPoint"]);
    ("longName", FObj false ["MultilanguageLongName"]);
    ("short_name", FName);
    ("shortNameFragments", FObjs false ["ShortNameFragment"]);
    ("timestamp", FAttr false);
    ("uuid", FAttr false)]);
   ("System", [("ecuExtractVersion", FLeaf false RLiteral);
    ("fibexElements", FLeafs RRef);
    ("rootSoftwareComposition", FObj false ["RootSwCompositionPrototype"]);
    ("systemVersion", FLeaf false RRevision);
    ("elements/SystemMapping", FObjs true ["SystemMapping"]);
    ("annotations", FObjs false ["Annotation"]);
    ("adminData", FObj false ["AdminData"]);
    ("category", FLeaf false RLiteral);
    ("introduction", FObj false ["DocumentationBlock"]);
    ("desc", FObj false ["MultiLanguageOverviewParagraph"]);
    ("variationPoint", FObj false ["VariationPoint"]);
    ("longName", FObj false ["MultilanguageLongName"]);
    ("short_name", FName);
    ("shortNameFragments", FObjs false ["ShortNameFragment"]);
    ("timestamp", FAttr false);
    ("uuid", FAttr false)]);
   ("SystemMapping", [("dataMappings", FObjs false ["SenderReceiverToSignalGroupMapping"; "SenderReceiverToSignalMapping"]);
    ("ecuResourceMappings", FObjs false ["ECUMapping"]);
    ("swImplMappings", FObjs false ["SwcToImplMapping"]);
    ("swMappings", FObjs false ["SwcToEcuMapping"]);
    ("annotations", FObjs false ["Annotation"]);
    ("adminData", FObj false ["AdminData"]);
    ("category", FLeaf false RLiteral);
    ("introduction", FObj false ["DocumentationBlock"]);
    ("desc", FObj false ["MultiLanguageOverviewParagraph"]);
    ("variationPoint", FObj false ["VariationPoint"]);
    ("longName", FObj false ["MultilanguageLongName"]);
    ("short_name", FName);
    ("shortNameFragments", FObjs false ["ShortNameFragment"]);
    ("timestamp", FAttr false);
    ("uuid", FAttr false)]);
   ("SystemSignal", [("dynamicLength", FLeaf false RBool);
    ("physicalProps", FObj false ["SwDataDefProps"]);
    ("annotations", FObjs false ["Annotation"]);
    ("adminData", FObj false ["AdminData"]);
    ("category", FLeaf false RLiteral);
    ("introduction", FObj false ["DocumentationBlock"]);
    ("desc", FObj false ["MultiLanguageOverviewParagraph"]);
    ("variationPoint", FObj false ["VariationPoint"]);
    ("longName", FObj false ["MultilanguageLongName"]);
    ("short_name", FName);
    ("shortNameFragments", FObjs false ["ShortNameFragment"]);
    ("timestamp", FAttr false);
    ("uuid", FAttr false)]);
   ("SystemSignalGroup", [("systemSignalRefs", FLeafs RRef);
    ("transformingSystemSignalRef", FLeaf false RRef);
    ("annotations", FObjs false ["Annotation"]);
    ("adminData", FObj false ["AdminData"]);
    ("category", FLeaf false RLiteral);
    ("introduction", FObj false ["DocumentationBlock"]);
    ("desc", FObj false ["MultiLanguageOverviewParagraph"]);
    ("variationPoint", FObj false ["VariationPoint"]);
    ("longName", FObj false ["MultilanguageLongName"]);
    ("short_name", FName);
    ("shortNameFragments", FObjs false ["ShortNameFragment"]);
    ("timestamp", FAttr false);
    ("uuid", FAttr false)]);
   ("TargetIPduRef", [("targetIPdu", FLeaf false RRef)]);
   ("TextTableMapping", [("bitfieldTextTableMaskFirst", FLeaf false RPositive);
    ("bitfieldTextTableMaskSecond", FLeaf false RPositive);
    ("identicalMapping", FLeaf false RBool);
    ("mappingDirection", FLeaf false RLiteral)]);
   ("TextValueSpecification", [("value", FLeaf false RLiteral);
    ("shortLabel", FLeaf false RLiteral);
    ("timestamp", FAttr false);
    ("uuid", FAttr false)]);
   ("TimeRangeType", [("value", FLeaf false RTime)]);
   ("TimeValueValueVariationPoint", [("blueprintValue", FAttrOf "String");
    ("sd", FAttrOf "String");
    ("shortLabel", FAttrOf "PrimitiveIdentifier");
    ("timestamp", FAttr false);
    ("uuid", FAttr false)]);
   ("TimingEvent", [("offset", FLeaf false RTime);
    ("period", FLeaf false RTime);
    ("disabledModeIRefs", FObjs false ["RModeInAtomicSwcInstanceRef"]);
    ("startOnEventRef", FLeaf false RRef);
    ("annotations", FObjs false ["Annotation"]);
    ("adminData", FObj false ["AdminData"]);
    ("category", FLeaf false RLiteral);
    ("introduction", FObj false ["DocumentationBlock"]);
    ("desc", FObj false ["MultiLanguageOverviewParagraph"]);
    ("variationPoint", FObj false ["VariationPoint"]);
    ("longName", FObj false ["MultilanguageLongName"]);
    ("short_name", FName);
    ("shortNameFragments", FObjs false ["ShortNameFragment"]);
    ("timestamp", FAttr false);
    ("uuid", FAttr false);
    ("activationReasonRepresentationRef", FLeaf false RRef)]);
   ("TpAddress", [("tpAddress", FLeaf false RInteger);
    ("annotations", FObjs false ["Annotation"]);
    ("adminData", FObj false ["AdminData"]);
    ("category", FLeaf false RLiteral);
    ("introduction", FObj false ["DocumentationBlock"]);
    ("desc", FObj false ["MultiLanguageOverviewParagraph"]);
    ("variationPoint", FObj false ["VariationPoint"]);
    ("longName", FObj false ["MultilanguageLongName"]);
    ("short_name", FName);
    ("shortNameFragments", FObjs false ["ShortNameFragment"]);
    ("timestamp", FAttr false);
    ("uuid", FAttr false)]);
   ("TpConnectionIdent", [("short_name", FName);
    ("shortNameFragments", FObjs false ["ShortNameFragment"]);
    ("timestamp", FAttr false);
    ("uuid", FAttr false)]);
   ("TraceableText", [("text", FObj false ["DocumentationBlock"]);
    ("timestamp", FAttr false);
    ("uuid", FAttr false)]);
   ("TransformationTechnology", [("bufferProperties", FObj false ["BufferProperties"]);
    ("hasInternalState", FLeaf false RBool);
    ("needsOriginalData", FLeaf false RBool);
    ("protocol", FLeaf false RLiteral);
    ("transformationDescription", FObj false ["EndToEndTransformationDescription"]);
    ("transformerClass", FLeaf false RLiteral);
    ("version", FLeaf false RLiteral);
    ("annotations", FObjs false ["Annotation"]);
    ("adminData", FObj false ["AdminData"]);
    ("category", FLeaf false RLiteral);
    ("introduction", FObj false ["DocumentationBlock"]);
    ("desc", FObj false ["MultiLanguageOverviewParagraph"]);
    ("variationPoint", FObj false ["VariationPoint"]);
    ("longName", FObj false ["MultilanguageLongName"]);
    ("short_name", FName);
    ("shortNameFragments", FObjs false ["ShortNameFragment"]);
    ("timestamp", FAttr false);
    ("uuid", FAttr false)]);
   ("TransientFault", [("possibleErrorReactions", FObjs false ["PossibleErrorReaction"]);
    ("id", FLeaf false RPositive);
    ("annotations", FObjs false ["Annotation"]);
    ("adminData", FObj false ["AdminData"]);
    ("category", FLeaf false RLiteral);
    ("introduction", FObj false ["DocumentationBlock"]);
    ("desc", FObj false ["MultiLanguageOverviewParagraph"]);
    ("variationPoint", FObj false ["VariationPoint"]);
    ("longName", FObj false ["MultilanguageLongName"]);
    ("short_name", FName);
    ("shortNameFragments", FObjs false ["ShortNameFragment"]);
    ("timestamp", FAttr false);
    ("uuid", FAttr false)]);
   ("TransmissionAcknowledgementRequest", [("timeout", FLeaf false RTime);
    ("timestamp", FAttr false);
    ("uuid", FAttr false)]);
   ("TransmissionComSpecProps", [("dataUpdatePeriod", FLeaf false RTime);
    ("minimumSendInterval", FLeaf false RTime);
    ("transmissionMode", FLeaf false RLiteral);
    ("timestamp", FAttr false);
    ("uuid", FAttr false)]);
   ("TransmissionModeCondition", [("dataFilter", FObj false ["DataFilter"]);
    ("iSignalInIPduRef", FLeaf false RRef)]);
   ("TransmissionModeDeclaration", [("transmissionModeConditions", FObjs false ["TransmissionModeCondition"]);
    ("transmissionModeFalseTiming", FObj false ["TransmissionModeTiming"]);
    ("transmissionModeTrueTiming", FObj false ["TransmissionModeTiming"])]);
   ("TransmissionModeTiming", [("cyclicTiming", FObj false ["CyclicTiming"]);
    ("eventControlledTiming", FObj false ["EventControlledTiming"])]);
   ("TriggerPortAnnotation", [("triggerRef", FLeaf false RRef)]);
   ("UdpNmCluster", [("nmCbvPosition", FLeaf false RInteger);
    ("nmChannelActive", FLeaf false RBool);
    ("nmImmediateNmCycleTime", FLeaf false RTime);
    ("nmImmediateNmTransmissions", FLeaf false RPositive);
    ("nmMessageTimeoutTime", FLeaf false RTime);
    ("nmMsgCycleTime", FLeaf false RTime);
    ("nmNetworkTimeout", FLeaf false RTime);
    ("nmNidPosition", FLeaf false RInteger);
    ("nmRemoteSleepIndicationTime", FLeaf false RTime);
    ("nmRepeatMessageTime", FLeaf false RTime);
    ("nmWaitBusSleepTime", FLeaf false RTime);
    ("vlanRef", FLeaf false RRef);
    ("communicationClusterRef", FLeaf false RRef);
    ("nmChannelId", FLeaf false RNumerical);
    ("nmChannelSleepMaster", FLeaf false RBool);
    ("_nmSynchronizingNetwork", FLeaf false RBool);
    ("elements/NmNode", FObjs true ["CanNmNode"; "J1939NmNode"; "UdpNmNode"]);
    ("annotations", FObjs false ["Annotation"]);
    ("adminData", FObj false ["AdminData"]);
    ("category", FLeaf false RLiteral);
    ("introduction", FObj false ["DocumentationBlock"]);
    ("desc", FObj false ["MultiLanguageOverviewParagraph"]);
    ("variationPoint", FObj false ["VariationPoint"]);
    ("longName", FObj false ["MultilanguageLongName"]);
    ("short_name", FName);
    ("shortNameFragments", FObjs false ["ShortNameFragment"]);
    ("timestamp", FAttr false);
    ("uuid", FAttr false)]);
   ("UdpNmClusterCoupling", [("coupledClusterRefs", FLeafs RRef);
    ("nmImmediateRestartEnabled", FLeaf false RBool)]);
   ("UdpNmEcu", [("nmSynchronizationPointEnabled", FLeaf false RBool)]);
   ("UdpNmNode", [("nmMsgCycleOffset", FLeaf false RTime);
    ("controllerRef", FLeaf false RRef);
    ("nmCoordCluster", FLeaf false RPositive);
    ("nmCoordinatorRole", FLeaf false RLiteral);
    ("nmIfEcuRef", FLeaf false RRef);
    ("nmNodeId", FLeaf false RInteger);
    ("nmPassiveModeEnabled", FLeaf false RBool);
    ("rxNmPduRefs", FLeafs RRef);
    ("txNmPduRefs", FLeafs RRef);
    ("annotations", FObjs false ["Annotation"]);
    ("adminData", FObj false ["AdminData"]);
    ("category", FLeaf false RLiteral);
    ("introduction", FObj false ["DocumentationBlock"]);
    ("desc", FObj false ["MultiLanguageOverviewParagraph"]);
    ("variationPoint", FObj false ["VariationPoint"]);
    ("longName", FObj false ["MultilanguageLongName"]);
    ("short_name", FName);
    ("shortNameFragments", FObjs false ["ShortNameFragment"]);
    ("timestamp", FAttr false);
    ("uuid", FAttr false)]);
   ("Unit", [("displayName", FLeaf false RLiteral);
    ("factorSiToUnit", FLeaf false RFloat);
    ("offsetSiToUnit", FLeaf false RFloat);
    ("physicalDimensionRef", FLeaf false RRef);
    ("annotations", FObjs false ["Annotation"]);
    ("adminData", FObj false ["AdminData"]);
    ("category", FLeaf false RLiteral);
    ("introduction", FObj false ["DocumentationBlock"]);
    ("desc", FObj false ["MultiLanguageOverviewParagraph"]);
    ("variationPoint", FObj false ["VariationPoint"]);
    ("longName", FObj false ["MultilanguageLongName"]);
    ("short_name", FName);
    ("shortNameFragments", FObjs false ["ShortNameFragment"]);
    ("timestamp", FAttr false);
    ("uuid", FAttr false)]);
   ("UnlimitedIntegerValueVariationPoint", [("blueprintValue", FAttrOf "String");
    ("sd", FAttrOf "String");
    ("shortLabel", FAttrOf "PrimitiveIdentifier");
    ("timestamp", FAttr false);
    ("uuid", FAttr false)]);
   ("UserDefinedIPdu", [("cddType", FLeaf false RLiteral);
    ("containedIPduProps", FObj false ["ContainedIPduProps"]);
    ("hasDynamicLength", FLeaf false RBool);
    ("length", FLeaf false RNumerical);
    ("annotations", FObjs false ["Annotation"]);
    ("adminData", FObj false ["AdminData"]);
    ("category", FLeaf false RLiteral);
    ("introduction", FObj false ["DocumentationBlock"]);
    ("desc", FObj false ["MultiLanguageOverviewParagraph"]);
    ("variationPoint", FObj false ["VariationPoint"]);
    ("longName", FObj false ["MultilanguageLongName"]);
    ("short_name", FName);
    ("shortNameFragments", FObjs false ["ShortNameFragment"]);
    ("timestamp", FAttr false);
    ("uuid", FAttr false)]);
   ("UserDefinedPdu", [("cddType", FLeaf false RLiteral);
    ("hasDynamicLength", FLeaf false RBool);
    ("length", FLeaf false RNumerical);
    ("annotations", FObjs false ["Annotation"]);
    ("adminData", FObj false ["AdminData"]);
    ("category", FLeaf false RLiteral);
    ("introduction", FObj false ["DocumentationBlock"]);
    ("desc", FObj false ["MultiLanguageOverviewParagraph"]);
    ("variationPoint", FObj false ["VariationPoint"]);
    ("longName", FObj false ["MultilanguageLongName"]);
    ("short_name", FName);
    ("shortNameFragments", FObjs false ["ShortNameFragment"]);
    ("timestamp", FAttr false);
    ("uuid", FAttr false)]);
   ("UserDefinedTransformationComSpecProps", [("timestamp", FAttr false);
    ("uuid", FAttr false)]);
   ("ValueList", [("v", FLeaf false RFloat);
    ("timestamp", FAttr false);
    ("uuid", FAttr false)]);
   ("VariableAccess", [("accessedVariableRef", FObj false ["AutosarVariableRef"]);
    ("annotations", FObjs false ["Annotation"]);
    ("adminData", FObj false ["AdminData"]);
    ("category", FLeaf false RLiteral);
    ("introduction", FObj false ["DocumentationBlock"]);
    ("desc", FObj false ["MultiLanguageOverviewParagraph"]);
    ("variationPoint", FObj false ["VariationPoint"]);
    ("longName", FObj false ["MultilanguageLongName"]);
    ("short_name", FName);
    ("shortNameFragments", FObjs false ["ShortNameFragment"]);
    ("timestamp", FAttr false);
    ("uuid", FAttr false)]);
   ("VariableAccessInEcuInstanceRef", [("contextRootCompositionRef", FLeaf false RRef);
    ("contextAtomicComponentRef", FLeaf false RRef);
    ("targetVariableAccessRef", FLeaf false RRef)]);
   ("VariableAndParameterInterfaceMapping", [("dataMappings", FObjs false ["DataPrototypeMapping"]);
    ("annotations", FObjs false ["Annotation"]);
    ("adminData", FObj false ["AdminData"]);
    ("category", FLeaf false RLiteral);
    ("introduction", FObj false ["DocumentationBlock"]);
    ("desc", FObj false ["MultiLanguageOverviewParagraph"]);
    ("variationPoint", FObj false ["VariationPoint"]);
    ("longName", FObj false ["MultilanguageLongName"]);
    ("short_name", FName);
    ("shortNameFragments", FObjs false ["ShortNameFragment"]);
    ("timestamp", FAttr false);
    ("uuid", FAttr false)]);
   ("VariableDataPrototype", [("initValue", FObj false ["ApplicationRuleBasedValueSpecification"; "ApplicationValueSpecification"; "ArrayValueSpecification"; "CompositeRuleBasedValueSpecification"; "ConstantReference"; "NumericalValueSpecification"; "RecordValueSpecification"; "TextValueSpecification"]);
    ("typeTRef", FLeaf false RRef);
    ("swDataDefProps", FObj false ["SwDataDefProps"]);
    ("annotations", FObjs false ["Annotation"]);
    ("adminData", FObj false ["AdminData"]);
    ("category", FLeaf false RLiteral);
    ("introduction", FObj false ["DocumentationBlock"]);
    ("desc", FObj false ["MultiLanguageOverviewParagraph"]);
    ("variationPoint", FObj false ["VariationPoint"]);
    ("longName", FObj false ["MultilanguageLongName"]);
    ("short_name", FName);
    ("shortNameFragments", FObjs false ["ShortNameFragment"]);
    ("timestamp", FAttr false);
    ("uuid", FAttr false)]);
   ("VariableDataPrototypeInCompositionInstanceRef", [("contextPortPrototypeRef", FLeaf false RRef);
    ("contextSwComponentPrototypeRefs", FLeafs RRef);
    ("targetVariableDataPrototypeRef", FLeaf false RRef)]);
   ("VariableDataPrototypeInSystemInstanceRef", [("contextComponentRefs", FLeafs RRef);
    ("contextCompositionRef", FLeaf false RRef);
    ("contextPortRef", FLeaf false RRef);
    ("targetDataPrototypeRef", FLeaf false RRef)]);
   ("VariableInAtomicSWCTypeInstanceRef", [("portPrototypeRef", FLeaf false RRef);
    ("targetDataPrototypeRef", FLeaf false RRef);
    ("timestamp", FAttr false);
    ("uuid", FAttr false)]);
   ("VariationPoint", [("blueprintCondition", FObj false ["DocumentationBlock"]);
    ("desc", FObj false ["MultiLanguageOverviewParagraph"]);
    ("formalBlueprintGenerator", FObj false ["BlueprintGenerator"]);
    ("postBuildVariantConditions", FObjs false ["PostBuildVariantCondition"]);
    ("sdg", FObj false ["Sdg"]);
    ("swSyscond", FObj false ["ConditionByFormula"]);
    ("timestamp", FAttr false);
    ("uuid", FAttr false)]);
   ("VariationPointProxy", [("conditionAccess", FObj false ["ConditionByFormula"]);
    ("implementationDataTypeRef", FLeaf false RRef);
    ("postBuildValueAccessRef", FLeaf false RRef);
    ("postBuildVariantConditions", FObjs false ["PostBuildVariantCondition"]);
    ("valueAccess", FObj false ["BooleanValueVariationPoint"; "FloatValueVariationPoint"; "IntegerValueVariationPoint"; "LimitValueVariationPoint"; "NumericalValueVariationPoint"; "PositiveIntegerValueVariationPoint"; "TimeValueValueVariationPoint"; "UnlimitedIntegerValueVariationPoint"]);
    ("annotations", FObjs false ["Annotation"]);
    ("adminData", FObj false ["AdminData"]);
    ("category", FLeaf false RLiteral);
    ("introduction", FObj false ["DocumentationBlock"]);
    ("desc", FObj false ["MultiLanguageOverviewParagraph"]);
    ("variationPoint", FObj false ["VariationPoint"]);
    ("longName", FObj false ["MultilanguageLongName"]);
    ("short_name", FName);
    ("shortNameFragments", FObjs false ["ShortNameFragment"]);
    ("timestamp", FAttr false);
    ("uuid", FAttr false)]);
   ("VlanConfig", [("vlanIdentifier", FLeaf false RPositive);
    ("short_name", FName)]);
   ("VlanMembership", [("sendActivity", FLeaf false RLiteral);
    ("vlanRef", FLeaf false RRef)]);
   ("WaitPoint", [("timeout", FLeaf false RTime);
    ("triggerRef", FLeaf false RRef);
    ("annotations", FObjs false ["Annotation"]);
    ("adminData", FObj false ["AdminData"]);
    ("category", FLeaf false RLiteral);
    ("introduction", FObj false ["DocumentationBlock"]);
    ("desc", FObj false ["MultiLanguageOverviewParagraph"]);
    ("variationPoint", FObj false ["VariationPoint"]);
    ("longName", FObj false ["MultilanguageLongName"]);
    ("short_name", FName);
    ("shortNameFragments", FObjs false ["ShortNameFragment"]);
    ("timestamp", FAttr false);
    ("uuid", FAttr false)]);
   ("WorstCaseHeapUsage", [("memoryConsumption", FLeaf false RPositive);
    ("hardwareConfiguration", FObj false ["HardwareConfiguration"]);
    ("hwElementRef", FLeaf false RRef);
    ("softwareContext", FObj false ["SoftwareContext"]);
    ("annotations", FObjs false ["Annotation"]);
    ("adminData", FObj false ["AdminData"]);
    ("category", FLeaf false RLiteral);
    ("introduction", FObj false ["DocumentationBlock"]);
    ("desc", FObj false ["MultiLanguageOverviewParagraph"]);
    ("variationPoint", FObj false ["VariationPoint"]);
    ("longName", FObj false ["MultilanguageLongName"]);
    ("short_name", FName);
    ("shortNameFragments", FObjs false ["ShortNameFragment"]);
    ("timestamp", FAttr false);
    ("uuid", FAttr false)]);
   ("WorstCaseStackUsage", [("memoryConsumption", FLeaf false RPositive);
    ("executableEntityRef", FLeaf false RRef);
    ("hardwareConfiguration", FObj false ["HardwareConfiguration"]);
    ("hwElementRef", FLeaf false RRef);
    ("softwareContext", FObj false ["SoftwareContext"]);
    ("annotations", FObjs false ["Annotation"]);
    ("adminData", FObj false ["AdminData"]);
    ("category", FLeaf false RLiteral);
    ("introduction", FObj false ["DocumentationBlock"]);
    ("desc", FObj false ["MultiLanguageOverviewParagraph"]);
    ("variationPoint", FObj false ["VariationPoint"]);
    ("longName", FObj false ["MultilanguageLongName"]);
    ("short_name", FName);
    ("shortNameFragments", FObjs false ["ShortNameFragment"]);
    ("timestamp", FAttr false);
    ("uuid", FAttr false)])].
