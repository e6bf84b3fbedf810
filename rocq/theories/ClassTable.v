(** Generated by tools/gen_classes.py: every class of /repo/src/armodel/models with its
    direct base classes (paths below are relative to /repo/src/armodel).  ABC and Enum bases
    are dropped.  Two class names occur in two modules (EcucConfigurationVariantEnum,
    InitialSdDelayConfig) with the same bases; the first occurrence is kept. *)
From Coq Require Import String List Bool.
Import ListNotations.
Open Scope string_scope.

Definition class_bases : list (string * list string) := [
  (* models/M2/AUTOSARTemplates/ECUCDescriptionTemplate.py *)
  ("EcucValueCollection", ["ARElement"]); (* line 19 *)
  ("EcucIndexableValue", ["ARObject"]); (* line 52 *)
  ("EcucParameterValue", ["EcucIndexableValue"]); (* line 91 *)
  ("EcucAddInfoParamValue", ["EcucParameterValue"]); (* line 138 *)
  ("EcucTextualParamValue", ["EcucParameterValue"]); (* line 161 *)
  ("EcucNumericalParamValue", ["EcucParameterValue"]); (* line 183 *)
  ("EcucAbstractReferenceValue", ["EcucIndexableValue"]); (* line 205 *)
  ("EcucInstanceReferenceValue", ["EcucAbstractReferenceValue"]); (* line 252 *)
  ("EcucReferenceValue", ["EcucAbstractReferenceValue"]); (* line 276 *)
  ("EcucContainerValue", ["Identifiable"; "EcucIndexableValue"]); (* line 299 *)
  ("EcucModuleConfigurationValues", ["ARElement"]); (* line 357 *)
  ("EcucConfigurationVariantEnum", ["AREnum"]); (* line 436 *)
  (* models/M2/AUTOSARTemplates/ECUCParameterDefTemplate.py *)
  ("EcucConditionSpecification", ["ARObject"]); (* line 13 *)
  ("EcucValidationCondition", ["Identifiable"]); (* line 101 *)
  ("EcucScopeEnum", ["AREnum"]); (* line 169 *)
  ("EcucDefinitionElement", ["Identifiable"]); (* line 193 *)
  ("EcucDestinationUriDefRefType", ["RefType"]); (* line 349 *)
  ("EcucConfigurationClassEnum", ["AREnum"]); (* line 365 *)
  ("EcucAbstractConfigurationClass", ["ARObject"]); (* line 430 *)
  ("EcucMultiplicityConfigurationClass", ["EcucAbstractConfigurationClass"]); (* line 486 *)
  ("EcucContainerDef", ["EcucDefinitionElement"]); (* line 500 *)
  ("EcucValueConfigurationClass", ["EcucAbstractConfigurationClass"]); (* line 616 *)
  ("EcucCommonAttributes", ["EcucDefinitionElement"]); (* line 629 *)
  ("EcucDerivationSpecification", ["ARObject"]); (* line 766 *)
  ("EcucParameterDef", ["EcucCommonAttributes"]); (* line 856 *)
  ("EcucBooleanParamDef", ["EcucParameterDef"]); (* line 905 *)
  ("EcucAbstractReferenceDef", ["EcucCommonAttributes"]); (* line 930 *)
  ("EcucAbstractInternalReferenceDef", ["EcucAbstractReferenceDef"]); (* line 967 *)
  ("EcucAbstractExternalReferenceDef", ["EcucAbstractReferenceDef"]); (* line 1004 *)
  ("EcucSymbolicNameReferenceDef", ["EcucAbstractInternalReferenceDef"]); (* line 1023 *)
  ("EcucChoiceReferenceDef", ["EcucAbstractInternalReferenceDef"]); (* line 1055 *)
  ("EcucReferenceDef", ["EcucAbstractInternalReferenceDef"]); (* line 1090 *)
  ("EcucUriReferenceDef", ["EcucAbstractInternalReferenceDef"]); (* line 1124 *)
  ("EcucForeignReferenceDef", ["EcucAbstractExternalReferenceDef"]); (* line 1156 *)
  ("EcucInstanceReferenceDef", ["EcucAbstractExternalReferenceDef"]); (* line 1190 *)
  ("EcucAbstractStringParamDef", ["EcucParameterDef"]); (* line 1245 *)
  ("EcucStringParamDef", ["EcucAbstractStringParamDef"]); (* line 1346 *)
  ("EcucFunctionNameDef", ["EcucAbstractStringParamDef"]); (* line 1360 *)
  ("EcucIntegerParamDef", ["EcucParameterDef"]); (* line 1374 *)
  ("EcucEnumerationLiteralDef", ["Identifiable"]); (* line 1421 *)
  ("EcucEnumerationParamDef", ["EcucParameterDef"]); (* line 1471 *)
  ("EcucFloatParamDef", ["EcucParameterDef"]); (* line 1522 *)
  ("EcucChoiceContainerDef", ["EcucContainerDef"]); (* line 1569 *)
  ("EcucParamConfContainerDef", ["EcucContainerDef"]); (* line 1596 *)
  ("EcucAddInfoParamDef", ["EcucParameterDef"]); (* line 1878 *)
  ("EcucConditionFormula", ["ARObject"]); (* line 1891 *)
  ("EcucDefinitionCollection", ["AtpBlueprintable"]); (* line 1945 *)
  ("EcucDestinationUriDef", ["Identifiable"]); (* line 1979 *)
  ("EcucDestinationUriDefSet", ["AtpBlueprintable"]); (* line 2013 *)
  ("EcucDestinationUriPolicy", ["ARObject"]); (* line 2056 *)
  ("EcucDestinationUriNestingContractEnum", ["AREnum"]); (* line 2150 *)
  ("EcucLinkerSymbolDef", ["EcucAbstractStringParamDef"]); (* line 2179 *)
  ("EcucMultilineStringParamDef", ["EcucAbstractStringParamDef"]); (* line 2192 *)
  ("EcucParameterDerivationFormula", ["ARObject"]); (* line 2206 *)
  ("EcucQuery", ["Identifiable"]); (* line 2261 *)
  ("EcucQueryExpression", ["ARObject"]); (* line 2295 *)
  ("EcucModuleDef", ["EcucDefinitionElement"]); (* line 2349 *)
  (* models/M2/AUTOSARTemplates/AbstractPlatform/ApplicationDeferredDataType.py *)
  ("ApplicationDeferredDataType", ["ApplicationDataType"]); (* line 9 *)
  (* models/M2/AUTOSARTemplates/AbstractPlatform/ApplicationInterface.py *)
  ("ApplicationInterface", ["PortInterface"]); (* line 19 *)
  (* models/M2/AUTOSARTemplates/AdaptivePlatform/ApplicationDesign/PortInterface/Field.py *)
  ("Field", ["AutosarDataPrototype"]); (* line 7 *)
  (* models/M2/AUTOSARTemplates/AdaptivePlatform/PlatformModuleDeployment/AdaptiveModule/PlatformModuleEthernetEndpointConfiguration.py *)
  ("PlatformModuleEthernetEndpointConfiguration", ["ARElement"]); (* line 16 *)
  (* models/M2/AUTOSARTemplates/AdaptivePlatform/PlatformModuleDeployment/CryptoDeployment/CryptoKeySlot.py *)
  ("CryptoKeySlot", ["Identifiable"]); (* line 22 *)
  (* models/M2/AUTOSARTemplates/AdaptivePlatform/PlatformModuleDeployment/CryptoDeployment/CryptoKeySlotContent.py *)
  ("CryptoKeySlotContent", ["Identifiable"]); (* line 9 *)
  (* models/M2/AUTOSARTemplates/AdaptivePlatform/PlatformModuleDeployment/Firewall/FirewallRule.py *)
  ("FirewallRule", ["ARObject"]); (* line 6 *)
  (* models/M2/AUTOSARTemplates/AdaptivePlatform/PlatformModuleDeployment/Firewall/FirewallRuleProps.py *)
  ("FirewallRuleProps", ["ARObject"]); (* line 4 *)
  (* models/M2/AUTOSARTemplates/AdaptivePlatform/PlatformModuleDeployment/Firewall/StateDependentFirewall.py *)
  ("StateDependentFirewall", ["ARObject"]); (* line 6 *)
  (* models/M2/AUTOSARTemplates/AdaptivePlatform/PlatformModuleDeployment/IntrusionDetectionSystem/IdsPlatformInstantiation.py *)
  ("IdsPlatformInstantiation", ["Identifiable"]); (* line 11 *)
  (* models/M2/AUTOSARTemplates/AdaptivePlatform/PlatformModuleDeployment/IntrusionDetectionSystem/IdsmModuleInstantiation.py *)
  ("IdsmModuleInstantiation", ["IdsPlatformInstantiation"]); (* line 9 *)
  (* models/M2/AUTOSARTemplates/AutosarTopLevelStructure/__init__.py *)
  ("FileInfoComment", ["ARObject"]); (* line 26 *)
  ("AbstractAUTOSAR", ["CollectableElement"]); (* line 50 *)
  ("AUTOSAR", ["AbstractAUTOSAR"]); (* line 354 *)
  ("AUTOSARDoc", ["AbstractAUTOSAR"]); (* line 386 *)
  (* models/M2/AUTOSARTemplates/BswModuleTemplate/BswImplementation.py *)
  ("BswImplementation", ["Implementation"]); (* line 13 *)
  (* models/M2/AUTOSARTemplates/BswModuleTemplate/BswInterfaces.py *)
  ("BswEntryKindEnum", ["AREnum"]); (* line 17 *)
  ("BswCallType", ["AREnum"]); (* line 39 *)
  ("BswExecutionContext", ["AREnum"]); (* line 70 *)
  ("SwServiceImplPolicyEnum", ["AREnum"]); (* line 101 *)
  ("BswModuleDependency", ["Identifiable"]); (* line 129 *)
  ("BswModuleEntry", ["AtpBlueprintable"]); (* line 208 *)
  ("BswModuleClientServerEntry", ["Referrable"]); (* line 460 *)
  ("BswEntryRelationshipEnum", ["AREnum"]); (* line 565 *)
  ("BswEntryRelationship", ["ARObject"]); (* line 580 *)
  ("BswEntryRelationshipSet", ["Identifiable"]); (* line 664 *)
  (* models/M2/AUTOSARTemplates/BswModuleTemplate/BswBehavior/BswInterruptEvent.py *)
  ("BswInterruptEvent", ["BswEvent"]); (* line 8 *)
  (* models/M2/AUTOSARTemplates/BswModuleTemplate/BswBehavior/BswSchedulerNamePrefix.py *)
  ("BswSchedulerNamePrefix", ["ARObject"]); (* line 8 *)
  (* models/M2/AUTOSARTemplates/BswModuleTemplate/BswBehavior/__init__.py *)
  ("BswModuleCallPoint", ["Referrable"]); (* line 36 *)
  ("BswAsynchronousServerCallPoint", ["BswModuleCallPoint"]); (* line 86 *)
  ("BswDirectCallPoint", ["BswModuleCallPoint"]); (* line 135 *)
  ("BswSynchronousServerCallPoint", ["BswModuleCallPoint"]); (* line 212 *)
  ("BswAsynchronousServerCallResultPoint", ["BswModuleCallPoint"]); (* line 289 *)
  ("BswVariableAccess", ["Referrable"]); (* line 312 *)
  ("BswDistinguishedPartition", ["Referrable"]); (* line 385 *)
  ("BswModuleEntity", ["ExecutableEntity"]); (* line 408 *)
  ("BswCalledEntity", ["BswModuleEntity"]); (* line 714 *)
  ("BswSchedulableEntity", ["BswModuleEntity"]); (* line 734 *)
  ("BswInterruptCategory", ["AREnum"]); (* line 754 *)
  ("BswInterruptEntity", ["BswModuleEntity"]); (* line 780 *)
  ("BswEvent", ["AbstractEvent"]); (* line 853 *)
  ("BswOperationInvokedEvent", ["BswEvent"]); (* line 958 *)
  ("BswScheduleEvent", ["BswEvent"]); (* line 1007 *)
  ("BswAsynchronousServerCallReturnsEvent", ["BswScheduleEvent"]); (* line 1032 *)
  ("BswModeSwitchEvent", ["BswScheduleEvent"]); (* line 1087 *)
  ("BswModeSwitchedAckEvent", ["BswScheduleEvent"]); (* line 1160 *)
  ("BswModeManagerErrorEvent", ["BswScheduleEvent"]); (* line 1217 *)
  ("BswTimingEvent", ["BswScheduleEvent"]); (* line 1274 *)
  ("BswDataReceivedEvent", ["BswScheduleEvent"]); (* line 1339 *)
  ("BswInternalTriggerOccurredEvent", ["BswScheduleEvent"]); (* line 1386 *)
  ("BswModeSwitchAckRequest", ["ARObject"]); (* line 1433 *)
  ("BswModeSenderPolicy", ["ARObject"]); (* line 1476 *)
  ("BswModeReceiverPolicy", ["ARObject"]); (* line 1618 *)
  ("BswBackgroundEvent", ["BswScheduleEvent"]); (* line 1708 *)
  ("BswOsTaskExecutionEvent", ["BswScheduleEvent"]); (* line 1728 *)
  ("BswExternalTriggerOccurredEvent", ["BswScheduleEvent"]); (* line 1748 *)
  ("BswApiOptions", ["ARObject"]); (* line 1797 *)
  ("BswExclusiveAreaPolicy", ["BswApiOptions"]); (* line 1846 *)
  ("BswDataReceptionPolicy", ["BswApiOptions"]); (* line 1923 *)
  ("BswQueuedDataReceptionPolicy", ["BswDataReceptionPolicy"]); (* line 1972 *)
  ("BswInternalTriggeringPoint", ["Identifiable"]); (* line 2017 *)
  ("BswServiceDependencyIdent", ["IdentCaption"]); (* line 2066 *)
  ("RoleBasedBswModuleEntryAssignment", ["ARObject"]); (* line 2088 *)
  ("BswServiceDependency", ["ServiceDependency"]); (* line 2187 *)
  ("BswInternalBehavior", ["InternalBehavior"]); (* line 2334 *)
  ("BswTriggerDirectImplementation", ["ARObject"]); (* line 3290 *)
  (* models/M2/AUTOSARTemplates/BswModuleTemplate/BswOverview/__init__.py *)
  ("BswModuleDescription", ["AtpStructureElement"]); (* line 19 *)
  (* models/M2/AUTOSARTemplates/BswModuleTemplate/BswOverview/InstanceRefs/__init__.py *)
  ("ModeInBswModuleDescriptionInstanceRef", ["AtpInstanceRef"]); (* line 10 *)
  (* models/M2/AUTOSARTemplates/CommonStructure/Filter.py *)
  ("DataFilterTypeEnum", ["AREnum"]); (* line 11 *)
  ("DataFilter", ["ARObject"]); (* line 52 *)
  (* models/M2/AUTOSARTemplates/CommonStructure/FlatMap.py *)
  ("FlatInstanceDescriptor", ["Identifiable"]); (* line 17 *)
  ("FlatMap", ["AtpBlueprintable"]); (* line 168 *)
  ("AliasNameAssignment", ["ARObject"]); (* line 218 *)
  ("AliasNameSet", ["ARElement"]); (* line 354 *)
  ("RtePluginProps", ["ARObject"]); (* line 407 *)
  (* models/M2/AUTOSARTemplates/CommonStructure/Implementation.py *)
  ("DependencyUsageEnum", ["AREnum"]); (* line 21 *)
  ("ProgramminglanguageEnum", ["AREnum"]); (* line 57 *)
  ("ImplementationProps", ["Referrable"]); (* line 85 *)
  ("Code", ["Identifiable"]); (* line 142 *)
  ("Compiler", ["Identifiable"]); (* line 232 *)
  ("DependencyOnArtifact", ["Identifiable"]); (* line 370 *)
  ("Linker", ["Identifiable"]); (* line 449 *)
  ("Implementation", ["ARElement"]); (* line 585 *)
  (* models/M2/AUTOSARTemplates/CommonStructure/ImplementationDataTypes.py *)
  ("AbstractImplementationDataTypeElement", ["AtpStructureElement"]); (* line 11 *)
  ("ImplementationDataTypeElement", ["AbstractImplementationDataTypeElement"]); (* line 25 *)
  ("AbstractImplementationDataType", ["AutosarDataType"]); (* line 121 *)
  ("ImplementationDataType", ["AbstractImplementationDataType"]); (* line 136 *)
  ("ArrayImplPolicyEnum", ["AREnum"]); (* line 326 *)
  ("ArraySizeSemanticsEnum", ["AREnum"]); (* line 346 *)
  (* models/M2/AUTOSARTemplates/CommonStructure/InternalBehavior.py *)
  ("ReentrancyLevelEnum", ["AREnum"]); (* line 17 *)
  ("ExclusiveArea", ["Identifiable"]); (* line 52 *)
  ("ExecutableEntity", ["Identifiable"]); (* line 73 *)
  ("InternalBehavior", ["AtpStructureElement"]); (* line 324 *)
  ("AbstractEvent", ["Identifiable"]); (* line 492 *)
  ("ApiPrincipleEnum", ["AREnum"]); (* line 527 *)
  ("ExclusiveAreaNestingOrder", ["Referrable"]); (* line 556 *)
  ("ExecutableEntityActivationReason", ["ImplementationProps"]); (* line 600 *)
  (* models/M2/AUTOSARTemplates/CommonStructure/McGroups.py *)
  ("McGroup", ["ARElement"]); (* line 14 *)
  ("McGroupDataRefSet", ["ARObject"]); (* line 151 *)
  (* models/M2/AUTOSARTemplates/CommonStructure/ModeDeclaration.py *)
  ("ModeActivationKind", ["AREnum"]); (* line 15 *)
  ("ModeDeclarationGroupPrototypeMapping", ["ARObject"]); (* line 50 *)
  ("ModeDeclaration", ["AtpStructureElement"]); (* line 151 *)
  ("ModeRequestTypeMap", ["ARObject"]); (* line 195 *)
  ("ModeDeclarationGroup", ["AtpType"]); (* line 266 *)
  ("ModeDeclarationGroupPrototype", ["AtpPrototype"]); (* line 456 *)
  ("ModeTransition", ["AtpStructureElement"]); (* line 537 *)
  ("ModeErrorBehavior", ["ARObject"]); (* line 610 *)
  ("ModeErrorReactionPolicyEnum", ["AREnum"]); (* line 683 *)
  (* models/M2/AUTOSARTemplates/CommonStructure/ServiceNeeds.py *)
  ("RoleBasedDataAssignment", ["ARObject"]); (* line 22 *)
  ("ServiceNeeds", ["Identifiable"]); (* line 147 *)
  ("RamBlockStatusControlEnum", ["AREnum"]); (* line 171 *)
  ("NvBlockNeedsReliabilityEnum", ["AREnum"]); (* line 197 *)
  ("NvBlockNeedsWritingPriorityEnum", ["AREnum"]); (* line 226 *)
  ("NvBlockNeeds", ["ServiceNeeds"]); (* line 255 *)
  ("RoleBasedDataTypeAssignment", ["ARObject"]); (* line 519 *)
  ("ServiceDiagnosticRelevanceEnum", ["AREnum"]); (* line 590 *)
  ("ServiceDependency", ["ARObject"]); (* line 606 *)
  ("DiagnosticAudienceEnum", ["AREnum"]); (* line 712 *)
  ("DiagnosticServiceRequestCallbackTypeEnum", ["AREnum"]); (* line 747 *)
  ("DiagnosticCapabilityElement", ["ServiceNeeds"]); (* line 773 *)
  ("DiagnosticRoutineTypeEnum", ["AREnum"]); (* line 878 *)
  ("DiagnosticCommunicationManagerNeeds", ["DiagnosticCapabilityElement"]); (* line 904 *)
  ("DiagnosticRoutineNeeds", ["DiagnosticCapabilityElement"]); (* line 952 *)
  ("DiagnosticValueAccessEnum", ["AREnum"]); (* line 1027 *)
  ("DiagnosticProcessingStyleEnum", ["AREnum"]); (* line 1056 *)
  ("DiagnosticValueNeeds", ["DiagnosticCapabilityElement"]); (* line 1085 *)
  ("DiagEventDebounceAlgorithm", ["Identifiable"]); (* line 1241 *)
  ("DiagEventDebounceCounterBased", ["DiagEventDebounceAlgorithm"]); (* line 1265 *)
  ("DiagEventDebounceMonitorInternal", ["DiagEventDebounceAlgorithm"]); (* line 1385 *)
  ("DiagEventDebounceTimeBased", ["DiagEventDebounceAlgorithm"]); (* line 1405 *)
  ("DtcKindEnum", ["AREnum"]); (* line 1459 *)
  ("DiagnosticEventInfoNeeds", ["DiagnosticCapabilityElement"]); (* line 1475 *)
  ("DiagnosticClearDtcNotificationEnum", ["AREnum"]); (* line 1580 *)
  ("DtcFormatTypeEnum", ["AREnum"]); (* line 1596 *)
  ("DtcStatusChangeNotificationNeeds", ["DiagnosticCapabilityElement"]); (* line 1612 *)
  ("DiagnosticEventNeeds", ["DiagnosticCapabilityElement"]); (* line 1690 *)
  ("CryptoServiceNeeds", ["ServiceNeeds"]); (* line 1920 *)
  ("EcuStateMgrUserNeeds", ["ServiceNeeds"]); (* line 2049 *)
  ("DltUserNeeds", ["ServiceNeeds"]); (* line 2069 *)
  ("BswMgrNeeds", ["ServiceNeeds"]); (* line 2089 *)
  ("ComMgrUserNeeds", ["ServiceNeeds"]); (* line 2109 *)
  ("CryptoKeyManagementNeeds", ["ServiceNeeds"]); (* line 2159 *)
  ("CryptoServiceJobNeeds", ["ServiceNeeds"]); (* line 2179 *)
  ("TracedFailure", ["Identifiable"]); (* line 2199 *)
  ("DevelopmentError", ["TracedFailure"]); (* line 2253 *)
  ("DiagnosticComponentNeeds", ["ServiceNeeds"]); (* line 2274 *)
  ("DiagnosticControlNeeds", ["ServiceNeeds"]); (* line 2294 *)
  ("DiagnosticDenominatorConditionEnum", ["AREnum"]); (* line 2314 *)
  ("DiagnosticEnableConditionNeeds", ["DiagnosticCapabilityElement"]); (* line 2353 *)
  ("DiagnosticEventManagerNeeds", ["ServiceNeeds"]); (* line 2402 *)
  ("DiagnosticIoControlNeeds", ["DiagnosticCapabilityElement"]); (* line 2422 *)
  ("DiagnosticMonitorUpdateKindEnum", ["AREnum"]); (* line 2559 *)
  ("DiagnosticOperationCycleNeeds", ["DiagnosticCapabilityElement"]); (* line 2587 *)
  ("DiagnosticRequestFileTransferNeeds", ["ServiceNeeds"]); (* line 2637 *)
  ("DiagnosticStorageConditionNeeds", ["DiagnosticCapabilityElement"]); (* line 2657 *)
  ("DiagnosticUploadDownloadNeeds", ["ServiceNeeds"]); (* line 2706 *)
  ("DiagnosticsCommunicationSecurityNeeds", ["ServiceNeeds"]); (* line 2726 *)
  ("DoIpActivationLineNeeds", ["ServiceNeeds"]); (* line 2746 *)
  ("DoIpGidNeeds", ["ServiceNeeds"]); (* line 2766 *)
  ("DoIpGidSynchronizationNeeds", ["ServiceNeeds"]); (* line 2786 *)
  ("DoIpPowerModeStatusNeeds", ["ServiceNeeds"]); (* line 2806 *)
  ("DoIpServiceNeeds", ["ServiceNeeds"]); (* line 2826 *)
  ("DoIpRoutingActivationAuthenticationNeeds", ["DoIpServiceNeeds"]); (* line 2843 *)
  ("DoIpRoutingActivationConfirmationNeeds", ["DoIpServiceNeeds"]); (* line 2944 *)
  ("ErrorTracerNeeds", ["ServiceNeeds"]); (* line 3045 *)
  ("EventAcceptanceStatusEnum", ["AREnum"]); (* line 3130 *)
  ("FunctionInhibitionAvailabilityNeeds", ["ServiceNeeds"]); (* line 3152 *)
  ("FunctionInhibitionNeeds", ["ServiceNeeds"]); (* line 3202 *)
  ("FurtherActionByteNeeds", ["ServiceNeeds"]); (* line 3222 *)
  ("GlobalSupervisionNeeds", ["ServiceNeeds"]); (* line 3242 *)
  ("HardwareTestNeeds", ["ServiceNeeds"]); (* line 3262 *)
  ("IdsMgrCustomTimestampNeeds", ["ServiceNeeds"]); (* line 3282 *)
  ("IdsMgrNeeds", ["ServiceNeeds"]); (* line 3302 *)
  ("DiagnosticIndicatorTypeEnum", ["AREnum"]); (* line 3345 *)
  ("IndicatorStatusNeeds", ["ServiceNeeds"]); (* line 3385 *)
  ("J1939DcmDm19Support", ["ServiceNeeds"]); (* line 3435 *)
  ("J1939RmIncomingRequestServiceNeeds", ["ServiceNeeds"]); (* line 3455 *)
  ("J1939RmOutgoingRequestServiceNeeds", ["ServiceNeeds"]); (* line 3475 *)
  ("MaxCommModeEnum", ["AREnum"]); (* line 3495 *)
  ("ObdControlServiceNeeds", ["DiagnosticCapabilityElement"]); (* line 3527 *)
  ("ObdInfoServiceNeeds", ["DiagnosticCapabilityElement"]); (* line 3548 *)
  ("ObdMonitorServiceNeeds", ["DiagnosticCapabilityElement"]); (* line 3569 *)
  ("ObdPidServiceNeeds", ["DiagnosticCapabilityElement"]); (* line 3706 *)
  ("ObdRatioConnectionKindEnum", ["AREnum"]); (* line 3727 *)
  ("ObdRatioDenominatorNeeds", ["ServiceNeeds"]); (* line 3751 *)
  ("ObdRatioServiceNeeds", ["DiagnosticCapabilityElement"]); (* line 3794 *)
  ("OperationCycleTypeEnum", ["AREnum"]); (* line 3895 *)
  ("RuntimeError", ["TracedFailure"]); (* line 3925 *)
  ("SecureOnBoardCommunicationNeeds", ["ServiceNeeds"]); (* line 3946 *)
  ("ServiceProviderEnum", ["AREnum"]); (* line 3989 *)
  ("StorageConditionStatusEnum", ["AREnum"]); (* line 4102 *)
  ("SupervisedEntityCheckpointNeeds", ["ServiceNeeds"]); (* line 4124 *)
  ("SupervisedEntityNeeds", ["ServiceNeeds"]); (* line 4144 *)
  ("SymbolicNameProps", ["ImplementationProps"]); (* line 4368 *)
  ("SyncTimeBaseMgrUserNeeds", ["ServiceNeeds"]); (* line 4391 *)
  ("PossibleErrorReaction", ["Identifiable"]); (* line 4411 *)
  ("TransientFault", ["TracedFailure"]); (* line 4459 *)
  ("V2xDataManagerNeeds", ["ServiceNeeds"]); (* line 4510 *)
  ("V2xFacUserNeeds", ["ServiceNeeds"]); (* line 4530 *)
  ("V2xMUserNeeds", ["ServiceNeeds"]); (* line 4550 *)
  ("VendorSpecificServiceNeeds", ["ServiceNeeds"]); (* line 4570 *)
  ("VerificationStatusIndicationModeEnum", ["AREnum"]); (* line 4590 *)
  ("WarningIndicatorRequestedBitNeeds", ["ServiceNeeds"]); (* line 4614 *)
  (* models/M2/AUTOSARTemplates/CommonStructure/SignalServiceTranslation.py *)
  ("SignalServiceTranslationControlEnum", ["AREnum"]); (* line 22 *)
  ("SignalServiceTranslationElementProps", ["Identifiable"]); (* line 50 *)
  ("SignalServiceTranslationEventProps", ["Identifiable"]); (* line 126 *)
  ("SignalServiceTranslationProps", ["Identifiable"]); (* line 221 *)
  ("SignalServiceTranslationPropsSet", ["Identifiable"]); (* line 336 *)
  (* models/M2/AUTOSARTemplates/CommonStructure/SwcBswMapping.py *)
  ("SwcBswRunnableMapping", ["ARObject"]); (* line 19 *)
  ("SwcBswMapping", ["AtpStructureElement"]); (* line 93 *)
  ("SwcBswSynchronizedModeGroupPrototype", ["ARObject"]); (* line 280 *)
  ("SwcBswSynchronizedTrigger", ["ARObject"]); (* line 354 *)
  (* models/M2/AUTOSARTemplates/CommonStructure/TriggerDeclaration.py *)
  ("Trigger", ["AtpStructureElement"]); (* line 13 *)
  ("TriggerMapping", ["ARObject"]); (* line 90 *)
  (* models/M2/AUTOSARTemplates/CommonStructure/Constants/__init__.py *)
  ("ValueSpecification", ["ARObject"]); (* line 26 *)
  ("CompositeValueSpecification", ["ValueSpecification"]); (* line 64 *)
  ("AbstractRuleBasedValueSpecification", ["ValueSpecification"]); (* line 85 *)
  ("CompositeRuleBasedValueArgument", ["AbstractRuleBasedValueSpecification"]); (* line 100 *)
  ("ApplicationValueSpecification", ["CompositeRuleBasedValueArgument"; "ValueSpecification"]); (* line 121 *)
  ("RecordValueSpecification", ["CompositeValueSpecification"]); (* line 222 *)
  ("TextValueSpecification", ["ValueSpecification"]); (* line 262 *)
  ("NumericalValueSpecification", ["ValueSpecification"]); (* line 306 *)
  ("ArrayValueSpecification", ["ValueSpecification"]); (* line 351 *)
  ("ConstantSpecification", ["ARElement"]); (* line 417 *)
  ("ConstantReference", ["ValueSpecification"]); (* line 465 *)
  ("ApplicationRuleBasedValueSpecification", ["CompositeRuleBasedValueArgument"]); (* line 509 *)
  ("CompositeRuleBasedValueSpecification", ["AbstractRuleBasedValueSpecification"]); (* line 633 *)
  ("ConstantSpecificationMapping", ["ARObject"]); (* line 727 *)
  ("ConstantSpecificationMappingSet", ["ARObject"]); (* line 759 *)
  ("NotAvailableValueSpecification", ["ValueSpecification"]); (* line 780 *)
  ("NumericalOrText", ["ARObject"]); (* line 802 *)
  ("NumericalRuleBasedValueSpecification", ["AbstractRuleBasedValueSpecification"]); (* line 882 *)
  ("ReferenceValueSpecification", ["ValueSpecification"]); (* line 904 *)
  ("RuleArguments", ["ARObject"]); (* line 926 *)
  ("RuleBasedAxisCont", ["ARObject"]); (* line 1060 *)
  ("RuleBasedValueCont", ["ARObject"]); (* line 1124 *)
  ("RuleBasedValueSpecification", ["ARObject"]); (* line 1229 *)
  (* models/M2/AUTOSARTemplates/CommonStructure/MeasurementCalibrationSupport/__init__.py *)
  ("RteEventInEcuInstanceRef", ["AtpInstanceRef"]); (* line 20 *)
  ("VariableAccessInEcuInstanceRef", ["AtpInstanceRef"]); (* line 154 *)
  ("McDataAccessDetails", ["ARObject"]); (* line 288 *)
  ("McParameterElementGroup", ["ARObject"]); (* line 366 *)
  ("McSwEmulationMethodSupport", ["ARObject"]); (* line 470 *)
  ("ImplementationElementInParameterInstanceRef", ["ARObject"]); (* line 632 *)
  ("McFunction", ["Identifiable"]); (* line 711 *)
  ("RoleBasedMcDataAssignment", ["ARObject"]); (* line 906 *)
  ("McDataInstance", ["Identifiable"]); (* line 1010 *)
  ("McSupportData", ["ARObject"]); (* line 1382 *)
  (* models/M2/AUTOSARTemplates/CommonStructure/MeasurementCalibrationSupport/RptSupport/__init__.py *)
  ("RptAccessEnum", ["AREnum"]); (* line 18 *)
  ("RptEnablerImplTypeEnum", ["AREnum"]); (* line 47 *)
  ("RptExecutionControlEnum", ["AREnum"]); (* line 80 *)
  ("RptPreparationEnum", ["AREnum"]); (* line 105 *)
  ("RptExecutionContext", ["Identifiable"]); (* line 138 *)
  ("RptSwPrototypingAccess", ["ARObject"]); (* line 159 *)
  ("RptServicePoint", ["Identifiable"]); (* line 263 *)
  ("McFunctionDataRefSet", ["ARObject"]); (* line 342 *)
  ("RptExecutableEntityEvent", ["Identifiable"]); (* line 417 *)
  ("RptExecutableEntity", ["Identifiable"]); (* line 641 *)
  ("RptComponent", ["Identifiable"]); (* line 781 *)
  ("RptSupportData", ["ARObject"]); (* line 892 *)
  (* models/M2/AUTOSARTemplates/CommonStructure/ResourceConsumption/HeapUsage.py *)
  ("HeapUsage", ["Identifiable"]); (* line 19 *)
  ("MeasuredHeapUsage", ["HeapUsage"]); (* line 131 *)
  ("RoughEstimateHeapUsage", ["HeapUsage"]); (* line 268 *)
  ("WorstCaseHeapUsage", ["HeapUsage"]); (* line 318 *)
  (* models/M2/AUTOSARTemplates/CommonStructure/ResourceConsumption/MemorySectionUsage.py *)
  ("MemorySection", ["Identifiable"]); (* line 13 *)
  ("SectionNamePrefix", ["ImplementationProps"]); (* line 308 *)
  (* models/M2/AUTOSARTemplates/CommonStructure/ResourceConsumption/StackUsage.py *)
  ("StackUsage", ["Identifiable"]); (* line 18 *)
  ("MeasuredStackUsage", ["StackUsage"]); (* line 161 *)
  ("RoughEstimateStackUsage", ["StackUsage"]); (* line 298 *)
  ("WorstCaseStackUsage", ["StackUsage"]); (* line 348 *)
  (* models/M2/AUTOSARTemplates/CommonStructure/ResourceConsumption/__init__.py *)
  ("HardwareConfiguration", ["ARObject"]); (* line 26 *)
  ("SoftwareContext", ["ARObject"]); (* line 144 *)
  ("ResourceConsumption", ["Identifiable"]); (* line 218 *)
  (* models/M2/AUTOSARTemplates/CommonStructure/ResourceConsumption/ExecutionTime/__init__.py *)
  ("ExecutionTime", ["Identifiable"]); (* line 19 *)
  ("MemorySectionLocation", ["ARObject"]); (* line 262 *)
  ("AnalyzedExecutionTime", ["ExecutionTime"]); (* line 339 *)
  ("MeasuredExecutionTime", ["ExecutionTime"]); (* line 425 *)
  ("SimulatedExecutionTime", ["ExecutionTime"]); (* line 535 *)
  ("RoughEstimateOfExecutionTime", ["ExecutionTime"]); (* line 645 *)
  (* models/M2/AUTOSARTemplates/CommonStructure/StandardizationTemplate/Keyword.py *)
  ("Keyword", ["Identifiable"]); (* line 14 *)
  ("KeywordSet", ["AtpBlueprintable"]); (* line 91 *)
  (* models/M2/AUTOSARTemplates/CommonStructure/StandardizationTemplate/AbstractBlueprintStructure/AtpBlueprint.py *)
  ("AtpBlueprint", ["Identifiable"]); (* line 13 *)
  (* models/M2/AUTOSARTemplates/CommonStructure/StandardizationTemplate/BlueprintDedicated/PortPrototypeBlueprint.py *)
  ("PortPrototypeBlueprintInitValue", ["ARObject"]); (* line 22 *)
  ("PortPrototypeBlueprint", ["AtpStructureElement"]); (* line 89 *)
  (* models/M2/AUTOSARTemplates/CommonStructure/StandardizationTemplate/BlueprintGenerator/BlueprintGenerator.py *)
  ("BlueprintGenerator", ["ARObject"]); (* line 7 *)
  (* models/M2/AUTOSARTemplates/CommonStructure/StandardizationTemplate/BlueprintMapping/BlueprintMappingSet.py *)
  ("BlueprintMappingSet", ["ARObject"]); (* line 5 *)
  (* models/M2/AUTOSARTemplates/CommonStructure/Timing/Traceable.py *)
  ("Traceable", ["Identifiable"]); (* line 7 *)
  (* models/M2/AUTOSARTemplates/CommonStructure/Timing/TimingClock/TDLETZoneClock.py *)
  ("TDLETZoneClock", ["ARObject"]); (* line 5 *)
  (* models/M2/AUTOSARTemplates/CommonStructure/Timing/TimingClock/TimingClock.py *)
  ("TimingClock", ["ARObject"]); (* line 4 *)
  (* models/M2/AUTOSARTemplates/CommonStructure/Timing/TimingClock/TimingClockSyncAccuracy.py *)
  ("TimingClockSyncAccuracy", ["ARObject"]); (* line 4 *)
  (* models/M2/AUTOSARTemplates/CommonStructure/Timing/TimingCondition/ModeInBswInstanceRef.py *)
  ("ModeInBswInstanceRef", ["RefType"]); (* line 4 *)
  (* models/M2/AUTOSARTemplates/CommonStructure/Timing/TimingCondition/ModeInSwcInstanceRef.py *)
  ("ModeInSwcInstanceRef", ["RefType"]); (* line 4 *)
  (* models/M2/AUTOSARTemplates/CommonStructure/Timing/TimingCondition/TimingCondition.py *)
  ("TimingCondition", ["ARObject"]); (* line 5 *)
  (* models/M2/AUTOSARTemplates/CommonStructure/Timing/TimingCondition/TimingConditionFormula.py *)
  ("TimingConditionFormula", ["ARObject"]); (* line 4 *)
  (* models/M2/AUTOSARTemplates/CommonStructure/Timing/TimingCondition/TimingExtensionResource.py *)
  ("TimingExtensionResource", ["ARObject"]); (* line 4 *)
  (* models/M2/AUTOSARTemplates/CommonStructure/Timing/TimingCondition/TimingModeInstance.py *)
  ("TimingModeInstance", ["ARObject"]); (* line 5 *)
  (* models/M2/AUTOSARTemplates/CommonStructure/Timing/TimingConstraint/AgeConstraint.py *)
  ("AgeConstraint", ["TimingConstraint"]); (* line 17 *)
  (* models/M2/AUTOSARTemplates/CommonStructure/Timing/TimingConstraint/EventTriggeringConstraint.py *)
  ("EventTriggeringConstraint", ["TimingConstraint"]); (* line 26 *)
  ("PeriodicEventTriggering", ["EventTriggeringConstraint"]); (* line 43 *)
  ("SporadicEventTriggering", ["EventTriggeringConstraint"]); (* line 75 *)
  ("ArbitraryEventTriggering", ["EventTriggeringConstraint"]); (* line 107 *)
  ("BurstPatternEventTriggering", ["EventTriggeringConstraint"]); (* line 127 *)
  ("ConcretePatternEventTriggering", ["EventTriggeringConstraint"]); (* line 170 *)
  ("ConfidenceInterval", ["ARObject"]); (* line 190 *)
  (* models/M2/AUTOSARTemplates/CommonStructure/Timing/TimingConstraint/ExecutionOrderConstraint.py *)
  ("EOCExecutableEntityRefAbstract", ["Identifiable"]); (* line 22 *)
  ("EOCExecutableEntityRef", ["EOCExecutableEntityRefAbstract"]); (* line 38 *)
  ("ExecutionOrderConstraint", ["TimingConstraint"]); (* line 73 *)
  ("EOCEventRef", ["ARObject"]); (* line 116 *)
  ("EOCExecutableEntityRefGroup", ["ARObject"]); (* line 157 *)
  ("ExecutionOrderConstraintTypeEnum", []); (* line 198 *)
  ("LetDataExchangeParadigmEnum", []); (* line 213 *)
  (* models/M2/AUTOSARTemplates/CommonStructure/Timing/TimingConstraint/ExecutionTimeConstraint.py *)
  ("ExecutionTimeTypeEnum", ["AREnum"]); (* line 19 *)
  ("ExecutionTimeConstraint", ["TimingConstraint"]); (* line 41 *)
  (* models/M2/AUTOSARTemplates/CommonStructure/Timing/TimingConstraint/LatencyTimingConstraint.py *)
  ("LatencyConstraintTypeEnum", ["AREnum"]); (* line 19 *)
  ("LatencyTimingConstraint", ["TimingConstraint"]); (* line 41 *)
  (* models/M2/AUTOSARTemplates/CommonStructure/Timing/TimingConstraint/OffsetConstraint.py *)
  ("OffsetTimingConstraint", ["TimingConstraint"]); (* line 16 *)
  (* models/M2/AUTOSARTemplates/CommonStructure/Timing/TimingConstraint/SynchronizationPointConstraint.py *)
  ("SynchronizationPointConstraint", ["TimingConstraint"]); (* line 17 *)
  (* models/M2/AUTOSARTemplates/CommonStructure/Timing/TimingConstraint/SynchronizationTiming.py *)
  ("SynchronizationTypeEnum", ["AREnum"]); (* line 19 *)
  ("EventOccurrenceKindEnum", ["AREnum"]); (* line 41 *)
  ("SynchronizationTimingConstraint", ["TimingConstraint"]); (* line 63 *)
  (* models/M2/AUTOSARTemplates/CommonStructure/Timing/TimingConstraint/TimingConstraint.py *)
  ("TimingConstraint", ["Traceable"]); (* line 23 *)
  (* models/M2/AUTOSARTemplates/CommonStructure/Timing/TimingConstraint/TimingExtensions.py *)
  ("TimingExtension", ["ARElement"]); (* line 21 *)
  ("SwcTiming", ["TimingExtension"]); (* line 69 *)
  (* models/M2/AUTOSARTemplates/DiagnosticExtract/DiagnosticCommonElement.py *)
  ("DiagnosticCommonElement", ["ARElement"]); (* line 7 *)
  (* models/M2/AUTOSARTemplates/DiagnosticExtract/DiagnosticContribution.py *)
  ("DiagnosticServiceTable", ["DiagnosticCommonElement"]); (* line 18 *)
  (* models/M2/AUTOSARTemplates/EcuResourceTemplate/HwAttributeValue.py *)
  ("HwAttributeValue", ["ARObject"]); (* line 13 *)
  ("HwAttributeLiteralDef", ["Identifiable"]); (* line 84 *)
  (* models/M2/AUTOSARTemplates/EcuResourceTemplate/HwElementCategory.py *)
  ("HwType", ["HwDescriptionEntity"]); (* line 25 *)
  ("HwAttributeDef", ["Identifiable"]); (* line 45 *)
  ("HwCategory", ["PackageableElement"; "AtpDefinition"]); (* line 121 *)
  (* models/M2/AUTOSARTemplates/EcuResourceTemplate/__init__.py *)
  ("HwDescriptionEntity", ["Referrable"]); (* line 17 *)
  ("HwPin", ["HwDescriptionEntity"]); (* line 114 *)
  ("HwPinGroupContent", ["ARObject"]); (* line 188 *)
  ("HwPinGroup", ["HwDescriptionEntity"]); (* line 264 *)
  ("HwPinConnector", ["Describable"]); (* line 318 *)
  ("HwPinGroupConnector", ["Describable"]); (* line 362 *)
  ("HwElementConnector", ["Describable"]); (* line 433 *)
  ("HwElement", ["HwDescriptionEntity"]); (* line 531 *)
  (* models/M2/AUTOSARTemplates/GenericStructure/AbstractStructure.py *)
  ("AtpInstanceRef", ["ARObject"]); (* line 13 *)
  ("AtpBlueprintable", ["PackageableElement"]); (* line 105 *)
  ("AtpClassifier", ["PackageableElement"]); (* line 131 *)
  ("AtpFeature", ["Identifiable"]); (* line 157 *)
  ("AtpType", ["AtpClassifier"]); (* line 189 *)
  ("AtpPrototype", ["AtpBlueprintable"]); (* line 218 *)
  ("AtpStructureElement", ["AtpBlueprintable"]); (* line 250 *)
  ("AtpBlueprintMapping", ["ARObject"]); (* line 295 *)
  (* models/M2/AUTOSARTemplates/GenericStructure/LifeCycles.py *)
  ("LifeCyclePeriod", ["ARObject"]); (* line 15 *)
  ("LifeCycleInfo", ["ARObject"]); (* line 110 *)
  ("LifeCycleInfoSet", ["ARElement"]); (* line 286 *)
  (* models/M2/AUTOSARTemplates/GenericStructure/DocumentationOnM1/__init__.py *)
  ("Documentation", ["ARElement"]); (* line 12 *)
  ("DocumentationContext", ["MultilanguageReferrable"]); (* line 81 *)
  (* models/M2/AUTOSARTemplates/GenericStructure/GeneralTemplateClasses/ARPackage.py *)
  ("ReferenceBase", ["ARObject"]); (* line 98 *)
  ("ARPackage", ["CollectableElement"]); (* line 299 *)
  (* models/M2/AUTOSARTemplates/GenericStructure/GeneralTemplateClasses/AnyInstanceRef.py *)
  ("AnyInstanceRef", ["AtpInstanceRef"]); (* line 11 *)
  (* models/M2/AUTOSARTemplates/GenericStructure/GeneralTemplateClasses/ArObject.py *)
  ("ARObject", []); (* line 10 *)
  (* models/M2/AUTOSARTemplates/GenericStructure/GeneralTemplateClasses/ElementCollection.py *)
  ("Collection", ["ARElement"]); (* line 14 *)
  (* models/M2/AUTOSARTemplates/GenericStructure/GeneralTemplateClasses/EngineeringObject.py *)
  ("EngineeringObject", ["ARObject"]); (* line 12 *)
  ("AutosarEngineeringObject", ["EngineeringObject"]); (* line 174 *)
  (* models/M2/AUTOSARTemplates/GenericStructure/GeneralTemplateClasses/Enumerations.py *)
  ("AutoCollectEnum", []); (* line 11 *)
  ("BindingTimeEnum", ["AREnum"]); (* line 26 *)
  ("XmlSpaceEnum", ["AREnum"]); (* line 44 *)
  (* models/M2/AUTOSARTemplates/GenericStructure/GeneralTemplateClasses/Identifiable.py *)
  ("Referrable", ["ARObject"]); (* line 21 *)
  ("ShortNameFragment", ["ARObject"]); (* line 116 *)
  ("MultilanguageReferrable", ["Referrable"]); (* line 186 *)
  ("CollectableElement", ["ARObject"]); (* line 229 *)
  ("Identifiable", ["MultilanguageReferrable"]); (* line 345 *)
  ("PackageableElement", ["Identifiable"]); (* line 622 *)
  ("ARElement", ["PackageableElement"]); (* line 639 *)
  ("Describable", ["ARObject"]); (* line 654 *)
  (* models/M2/AUTOSARTemplates/GenericStructure/GeneralTemplateClasses/MultidimensionalTime.py *)
  ("MultidimensionalTime", ["ARObject"]); (* line 11 *)
  (* models/M2/AUTOSARTemplates/GenericStructure/GeneralTemplateClasses/PrimitiveTypes.py *)
  ("ARType", []); (* line 12 *)
  ("ARNumerical", ["ARType"]); (* line 74 *)
  ("ARFloat", ["ARNumerical"]); (* line 183 *)
  ("Float", ["ARFloat"]); (* line 224 *)
  ("TimeValue", ["ARFloat"]); (* line 239 *)
  ("ARLiteral", ["ARType"]); (* line 255 *)
  ("AREnum", ["ARLiteral"]); (* line 298 *)
  ("String", ["ARLiteral"]); (* line 352 *)
  ("AlignmentType", ["ARLiteral"]); (* line 371 *)
  ("SectionInitializationPolicyType", ["ARLiteral"]); (* line 390 *)
  ("CseCodeType", ["ARLiteral"]); (* line 422 *)
  ("DisplayFormatString", ["ARLiteral"]); (* line 440 *)
  ("NativeDeclarationString", ["ARLiteral"]); (* line 459 *)
  ("BaseTypeEncodingString", ["ARLiteral"]); (* line 479 *)
  ("PrimitiveIdentifier", ["ARLiteral"]); (* line 498 *)
  ("ReferrableSubtypesEnum", ["ARLiteral"]); (* line 519 *)
  ("ARPositiveInteger", ["ARNumerical"]); (* line 531 *)
  ("ARBoolean", ["ARType"]); (* line 563 *)
  ("NameToken", ["ARLiteral"]); (* line 642 *)
  ("PositiveInteger", ["ARPositiveInteger"]); (* line 663 *)
  ("PositiveUnlimitedInteger", ["ARPositiveInteger"]); (* line 682 *)
  ("Integer", ["ARNumerical"]); (* line 696 *)
  ("UnlimitedInteger", ["Integer"]); (* line 716 *)
  ("Boolean", ["ARBoolean"]); (* line 736 *)
  ("Identifier", ["ARLiteral"]); (* line 754 *)
  ("CIdentifier", ["ARLiteral"]); (* line 823 *)
  ("RevisionLabelString", ["ARLiteral"]); (* line 891 *)
  ("IntervalTypeEnum", ["AREnum"]); (* line 911 *)
  ("Limit", ["ARObject"]); (* line 938 *)
  ("RefType", ["ARObject"]); (* line 1009 *)
  ("TRefType", ["RefType"]); (* line 1116 *)
  ("DiagRequirementIdString", ["ARLiteral"]); (* line 1129 *)
  ("ArgumentDirectionEnum", ["AREnum"]); (* line 1146 *)
  ("Ip4AddressString", ["ARLiteral"]); (* line 1177 *)
  ("Ip6AddressString", ["ARLiteral"]); (* line 1194 *)
  ("MacAddressString", ["ARLiteral"]); (* line 1213 *)
  ("CategoryString", ["ARLiteral"]); (* line 1231 *)
  ("ByteOrderEnum", ["AREnum"]); (* line 1250 *)
  ("MonotonyEnum", ["AREnum"]); (* line 1279 *)
  ("DateTime", ["ARLiteral"]); (* line 1326 *)
  ("VerbatimString", ["ARLiteral"]); (* line 1350 *)
  ("VerbatimStringPlain", ["ARLiteral"]); (* line 1373 *)
  ("RegularExpression", ["ARLiteral"]); (* line 1390 *)
  ("SymbolString", ["ARLiteral"]); (* line 1403 *)
  ("McdIdentifier", ["ARLiteral"]); (* line 1419 *)
  ("Numerical", ["ARLiteral"]); (* line 1439 *)
  (* models/M2/AUTOSARTemplates/GenericStructure/RolesAndRights/AtpDefinition.py *)
  ("AtpDefinition", ["Identifiable"]); (* line 10 *)
  (* models/M2/AUTOSARTemplates/GenericStructure/VariantHandling/__init__.py *)
  ("PostBuildVariantCriterion", ["ARElement"]); (* line 18 *)
  ("PostBuildVariantCriterionValue", ["ARObject"]); (* line 65 *)
  ("PredefinedVariant", ["Identifiable"]); (* line 153 *)
  ("SwSystemconstValue", ["ARObject"]); (* line 209 *)
  ("SwSystemconstantValueSet", ["Identifiable"]); (* line 275 *)
  ("PostBuildVariantCondition", ["ARObject"]); (* line 312 *)
  ("ConditionByFormula", ["ARObject"]); (* line 384 *)
  ("VariationPoint", ["ARObject"]); (* line 434 *)
  (* models/M2/AUTOSARTemplates/GenericStructure/VariantHandling/AttributeValueVariationPoints/__init__.py *)
  ("AttributeValueVariationPoint", ["ARObject"]); (* line 15 *)
  ("AbstractNumericalVariationPoint", ["AttributeValueVariationPoint"]); (* line 133 *)
  ("NumericalValueVariationPoint", ["AbstractNumericalVariationPoint"]); (* line 155 *)
  ("LimitValueVariationPoint", ["AbstractNumericalVariationPoint"]); (* line 174 *)
  ("BooleanValueVariationPoint", ["AttributeValueVariationPoint"]); (* line 208 *)
  ("FloatValueVariationPoint", ["AttributeValueVariationPoint"]); (* line 227 *)
  ("IntegerValueVariationPoint", ["AttributeValueVariationPoint"]); (* line 246 *)
  ("PositiveIntegerValueVariationPoint", ["AttributeValueVariationPoint"]); (* line 265 *)
  ("UnlimitedIntegerValueVariationPoint", ["AttributeValueVariationPoint"]); (* line 285 *)
  ("TimeValueValueVariationPoint", ["AttributeValueVariationPoint"]); (* line 304 *)
  (* models/M2/AUTOSARTemplates/SWComponentTemplate/Communication.py *)
  ("HandleInvalidEnum", ["AREnum"]); (* line 24 *)
  ("PPortComSpec", ["ARObject"]); (* line 41 *)
  ("RPortComSpec", ["ARObject"]); (* line 58 *)
  ("ReceptionComSpecProps", ["ARObject"]); (* line 76 *)
  ("CompositeNetworkRepresentation", ["ARObject"]); (* line 156 *)
  ("TransmissionModeDefinitionEnum", ["AREnum"]); (* line 238 *)
  ("TransmissionComSpecProps", ["ARObject"]); (* line 269 *)
  ("TransmissionAcknowledgementRequest", ["ARObject"]); (* line 344 *)
  ("SenderComSpec", ["PPortComSpec"]); (* line 379 *)
  ("QueuedSenderComSpec", ["SenderComSpec"]); (* line 537 *)
  ("NonqueuedSenderComSpec", ["SenderComSpec"]); (* line 550 *)
  ("ClientComSpec", ["RPortComSpec"]); (* line 605 *)
  ("ModeSwitchReceiverComSpec", ["RPortComSpec"]); (* line 680 *)
  ("NvRequireComSpec", ["RPortComSpec"]); (* line 771 *)
  ("ParameterRequireComSpec", ["RPortComSpec"]); (* line 839 *)
  ("ReceiverComSpec", ["RPortComSpec"]); (* line 905 *)
  ("ModeSwitchedAckRequest", ["ARObject"]); (* line 1162 *)
  ("ModeSwitchSenderComSpec", ["PPortComSpec"]); (* line 1202 *)
  ("ParameterProvideComSpec", ["PPortComSpec"]); (* line 1319 *)
  ("TransformationComSpecProps", ["Describable"]); (* line 1374 *)
  ("UserDefinedTransformationComSpecProps", ["TransformationComSpecProps"]); (* line 1392 *)
  ("ServerComSpec", ["PPortComSpec"]); (* line 1405 *)
  ("NvProvideComSpec", ["PPortComSpec"]); (* line 1480 *)
  ("NonqueuedReceiverComSpec", ["ReceiverComSpec"]); (* line 1575 *)
  ("QueuedReceiverComSpec", ["ReceiverComSpec"]); (* line 1750 *)
  ("HandleOutOfRangeEnum", ["AREnum"]); (* line 1789 *)
  ("HandleOutOfRangeStatusEnum", ["AREnum"]); (* line 1830 *)
  ("HandleTimeoutEnum", ["AREnum"]); (* line 1857 *)
  (* models/M2/AUTOSARTemplates/SWComponentTemplate/EndToEndProtection.py *)
  ("EndToEndDescription", ["ARObject"]); (* line 15 *)
  ("EndToEndProtectionVariablePrototype", ["ARObject"]); (* line 280 *)
  ("EndToEndProtectionISignalIPdu", ["ARObject"]); (* line 318 *)
  ("EndToEndProtection", ["Identifiable"]); (* line 407 *)
  ("EndToEndProtectionSet", ["ARElement"]); (* line 499 *)
  (* models/M2/AUTOSARTemplates/SWComponentTemplate/NvBlockComponent.py *)
  ("NvBlockDataMapping", ["ARObject"]); (* line 13 *)
  ("BulkNvDataDescriptor", ["AtpStructureElement"]); (* line 225 *)
  ("NvBlockDescriptor", ["AtpStructureElement"]); (* line 305 *)
  ("ModeSwitchEventTriggeredActivity", ["ARObject"]); (* line 715 *)
  (* models/M2/AUTOSARTemplates/SWComponentTemplate/RPTScenario.py *)
  ("IdentCaption", ["AtpStructureElement"]); (* line 14 *)
  ("ModeAccessPointIdent", ["IdentCaption"]); (* line 29 *)
  ("RptServicePointEnum", ["AREnum"]); (* line 42 *)
  ("RptImplPolicy", ["ARObject"]); (* line 67 *)
  ("RptExecutableEntityProperties", ["ARObject"]); (* line 142 *)
  (* models/M2/AUTOSARTemplates/SWComponentTemplate/SoftwareComponentDocumentation.py *)
  ("SwComponentDocumentation", ["ARObject"]); (* line 18 *)
  (* models/M2/AUTOSARTemplates/SWComponentTemplate/SwComponentType.py *)
  ("SwComponentType", ["AtpType"]); (* line 30 *)
  (* models/M2/AUTOSARTemplates/SWComponentTemplate/SwcImplementation.py *)
  ("SwcImplementation", ["Implementation"]); (* line 11 *)
  (* models/M2/AUTOSARTemplates/SWComponentTemplate/ApplicationAttributes/__init__.py *)
  ("DataLimitKindEnum", ["AREnum"]); (* line 11 *)
  ("FilterDebouncingEnum", ["AREnum"]); (* line 40 *)
  ("ProcessingKindEnum", ["AREnum"]); (* line 69 *)
  ("PulseTestEnum", ["AREnum"]); (* line 98 *)
  ("SignalFanEnum", ["AREnum"]); (* line 123 *)
  ("SenderReceiverAnnotation", ["GeneralAnnotation"]); (* line 148 *)
  ("ClientServerAnnotation", ["GeneralAnnotation"]); (* line 278 *)
  ("IoHwAbstractionServerAnnotation", ["GeneralAnnotation"]); (* line 321 *)
  ("ModePortAnnotation", ["GeneralAnnotation"]); (* line 422 *)
  ("NvDataPortAnnotation", ["GeneralAnnotation"]); (* line 465 *)
  ("ParameterPortAnnotation", ["GeneralAnnotation"]); (* line 508 *)
  ("TriggerPortAnnotation", ["GeneralAnnotation"]); (* line 551 *)
  ("DelegatedPortAnnotation", ["GeneralAnnotation"]); (* line 594 *)
  (* models/M2/AUTOSARTemplates/SWComponentTemplate/Components/InstanceRefs.py *)
  ("ModeGroupInAtomicSwcInstanceRef", ["AtpInstanceRef"]); (* line 14 *)
  ("PModeGroupInAtomicSwcInstanceRef", ["ModeGroupInAtomicSwcInstanceRef"]); (* line 62 *)
  ("RModeGroupInAtomicSWCInstanceRef", ["ModeGroupInAtomicSwcInstanceRef"]); (* line 96 *)
  ("RModeInAtomicSwcInstanceRef", ["AtpInstanceRef"]); (* line 130 *)
  ("TriggerInAtomicSwcInstanceRef", ["AtpInstanceRef"]); (* line 184 *)
  ("PTriggerInAtomicSwcTypeInstanceRef", ["TriggerInAtomicSwcInstanceRef"]); (* line 301 *)
  ("VariableInAtomicSwcInstanceRef", ["AtpInstanceRef"]); (* line 379 *)
  ("RVariableInAtomicSwcInstanceRef", ["VariableInAtomicSwcInstanceRef"]); (* line 399 *)
  ("InnerPortGroupInCompositionInstanceRef", ["AtpInstanceRef"]); (* line 433 *)
  (* models/M2/AUTOSARTemplates/SWComponentTemplate/Components/__init__.py *)
  ("SymbolProps", ["ImplementationProps"]); (* line 41 *)
  ("PortPrototype", ["AtpPrototype"]); (* line 49 *)
  ("AbstractProvidedPortPrototype", ["PortPrototype"]); (* line 297 *)
  ("AbstractRequiredPortPrototype", ["PortPrototype"]); (* line 342 *)
  ("PPortPrototype", ["AbstractProvidedPortPrototype"]); (* line 392 *)
  ("RPortPrototype", ["AbstractRequiredPortPrototype"]); (* line 411 *)
  ("PRPortPrototype", ["PortPrototype"]); (* line 440 *)
  ("PortGroup", ["AtpStructureElement"]); (* line 479 *)
  ("AtomicSwComponentType", ["SwComponentType"]); (* line 506 *)
  ("EcuAbstractionSwComponentType", ["AtomicSwComponentType"]); (* line 587 *)
  ("ApplicationSwComponentType", ["AtomicSwComponentType"]); (* line 633 *)
  ("ComplexDeviceDriverSwComponentType", ["AtomicSwComponentType"]); (* line 646 *)
  ("NvBlockSwComponentType", ["AtomicSwComponentType"]); (* line 692 *)
  ("SensorActuatorSwComponentType", ["AtomicSwComponentType"]); (* line 775 *)
  ("ServiceProxySwComponentType", ["AtomicSwComponentType"]); (* line 821 *)
  ("ServiceSwComponentType", ["AtomicSwComponentType"]); (* line 842 *)
  (* models/M2/AUTOSARTemplates/SWComponentTemplate/Composition/InstanceRefs.py *)
  ("PortInCompositionTypeInstanceRef", ["AtpInstanceRef"]); (* line 14 *)
  ("PPortInCompositionInstanceRef", ["PortInCompositionTypeInstanceRef"]); (* line 61 *)
  ("RPortInCompositionInstanceRef", ["PortInCompositionTypeInstanceRef"]); (* line 95 *)
  ("OperationInAtomicSwcInstanceRef", ["AtpInstanceRef"]); (* line 129 *)
  ("POperationInAtomicSwcInstanceRef", ["OperationInAtomicSwcInstanceRef"]); (* line 176 *)
  ("ROperationInAtomicSwcInstanceRef", ["OperationInAtomicSwcInstanceRef"]); (* line 210 *)
  ("InstanceEventInCompositionInstanceRef", ["AtpInstanceRef"]); (* line 244 *)
  (* models/M2/AUTOSARTemplates/SWComponentTemplate/Composition/__init__.py *)
  ("SwComponentPrototype", ["AtpPrototype"]); (* line 19 *)
  ("SwConnector", ["AtpStructureElement"]); (* line 38 *)
  ("AssemblySwConnector", ["SwConnector"]); (* line 84 *)
  ("DelegationSwConnector", ["SwConnector"]); (* line 113 *)
  ("PassThroughSwConnector", ["SwConnector"]); (* line 142 *)
  ("InstantiationRTEEventProps", ["ARObject"]); (* line 215 *)
  ("InstantiationTimingEventProps", ["InstantiationRTEEventProps"]); (* line 291 *)
  ("CompositionSwComponentType", ["SwComponentType"]); (* line 335 *)
  (* models/M2/AUTOSARTemplates/SWComponentTemplate/Datatype/DataPrototypes.py *)
  ("DataPrototype", ["AtpPrototype"]); (* line 25 *)
  ("AutosarDataPrototype", ["DataPrototype"]); (* line 70 *)
  ("VariableDataPrototype", ["AutosarDataPrototype"]); (* line 115 *)
  ("ApplicationCompositeElementDataPrototype", ["DataPrototype"]); (* line 154 *)
  ("ApplicationArrayElement", ["ApplicationCompositeElementDataPrototype"]); (* line 181 *)
  ("ApplicationRecordElement", ["ApplicationCompositeElementDataPrototype"]); (* line 308 *)
  ("ParameterDataPrototype", ["AutosarDataPrototype"]); (* line 348 *)
  (* models/M2/AUTOSARTemplates/SWComponentTemplate/Datatype/Datatypes.py *)
  ("AutosarDataType", ["AtpType"]); (* line 18 *)
  ("ApplicationDataType", ["AutosarDataType"]); (* line 45 *)
  ("ApplicationPrimitiveDataType", ["ApplicationDataType"]); (* line 60 *)
  ("ApplicationCompositeDataType", ["ApplicationDataType"]); (* line 73 *)
  ("ArraySizeHandlingEnum", ["AREnum"]); (* line 89 *)
  ("ApplicationArrayDataType", ["ApplicationCompositeDataType"]); (* line 120 *)
  ("ApplicationRecordDataType", ["ApplicationCompositeDataType"]); (* line 193 *)
  ("DataTypeMap", ["ARObject"]); (* line 220 *)
  ("DataTypeMappingSet", ["AtpBlueprintable"]); (* line 252 *)
  (* models/M2/AUTOSARTemplates/SWComponentTemplate/ImplicitCommunicationBehavior/InstanceRefs.py *)
  ("InnerDataPrototypeGroupInCompositionInstanceRef", ["AtpInstanceRef"]); (* line 15 *)
  ("InnerRunnableEntityGroupInCompositionInstanceRef", ["AtpInstanceRef"]); (* line 121 *)
  ("RunnableEntityInCompositionInstanceRef", ["AtpInstanceRef"]); (* line 227 *)
  ("VariableDataPrototypeInCompositionInstanceRef", ["AtpInstanceRef"]); (* line 333 *)
  (* models/M2/AUTOSARTemplates/SWComponentTemplate/ImplicitCommunicationBehavior/__init__.py *)
  ("DataPrototypeGroup", ["AtpStructureElement"]); (* line 20 *)
  ("RunnableEntityGroup", ["AtpStructureElement"]); (* line 106 *)
  ("ConsistencyNeeds", ["AtpBlueprintable"]); (* line 190 *)
  (* models/M2/AUTOSARTemplates/SWComponentTemplate/PortInterface/InstanceRefs.py *)
  ("ApplicationCompositeElementInPortInterfaceInstanceRef", ["AtpInstanceRef"]); (* line 11 *)
  (* models/M2/AUTOSARTemplates/SWComponentTemplate/PortInterface/__init__.py *)
  ("PortInterface", ["AtpType"]); (* line 33 *)
  ("DataInterface", ["PortInterface"]); (* line 123 *)
  ("NvDataInterface", ["DataInterface"]); (* line 133 *)
  ("ParameterInterface", ["DataInterface"]); (* line 184 *)
  ("InvalidationPolicy", ["ARObject"]); (* line 205 *)
  ("MetaDataItem", ["ARObject"]); (* line 234 *)
  ("MetaDataItemSet", ["ARObject"]); (* line 263 *)
  ("SenderReceiverInterface", ["DataInterface"]); (* line 292 *)
  ("ServerArgumentImplPolicyEnum", ["AREnum"]); (* line 346 *)
  ("ArgumentDataPrototype", ["AutosarDataPrototype"]); (* line 370 *)
  ("ApplicationError", ["Identifiable"]); (* line 474 *)
  ("ClientServerOperation", ["AtpStructureElement"]); (* line 520 *)
  ("ClientServerInterface", ["PortInterface"]); (* line 654 *)
  ("TriggerInterface", ["PortInterface"]); (* line 731 *)
  ("ModeSwitchInterface", ["PortInterface"]); (* line 741 *)
  ("PortInterfaceMapping", ["AtpBlueprintable"]); (* line 792 *)
  ("ClientServerApplicationErrorMapping", ["ARObject"]); (* line 802 *)
  ("ClientServerOperationMapping", ["ARObject"]); (* line 831 *)
  ("SubElementMapping", ["ARObject"]); (* line 880 *)
  ("DataPrototypeMapping", ["ARObject"]); (* line 993 *)
  ("ClientServerInterfaceMapping", ["PortInterfaceMapping"]); (* line 1128 *)
  ("VariableAndParameterInterfaceMapping", ["PortInterfaceMapping"]); (* line 1159 *)
  ("ModeInterfaceMapping", ["PortInterfaceMapping"]); (* line 1178 *)
  ("TriggerInterfaceMapping", ["PortInterfaceMapping"]); (* line 1198 *)
  ("ModeDeclarationMapping", ["AtpStructureElement"]); (* line 1218 *)
  ("ModeDeclarationMappingSet", ["AtpType"]); (* line 1273 *)
  ("PortInterfaceMappingSet", ["AtpBlueprintable"]); (* line 1295 *)
  ("TextTableMapping", ["ARObject"]); (* line 1341 *)
  (* models/M2/AUTOSARTemplates/SWComponentTemplate/SwcInternalBehavior/AccessCount.py *)
  ("RteApiReturnValueProvisionEnum", ["AREnum"]); (* line 14 *)
  ("AbstractAccessPoint", ["AtpStructureElement"]); (* line 39 *)
  ("AccessCount", ["ARObject"]); (* line 88 *)
  ("AccessCountSet", ["ARObject"]); (* line 165 *)
  (* models/M2/AUTOSARTemplates/SWComponentTemplate/SwcInternalBehavior/AutosarVariableRef.py *)
  ("AutosarVariableRef", ["ARObject"]); (* line 11 *)
  (* models/M2/AUTOSARTemplates/SWComponentTemplate/SwcInternalBehavior/DataElements.py *)
  ("ParameterAccess", ["AbstractAccessPoint"]); (* line 15 *)
  ("VariableAccess", ["AbstractAccessPoint"]); (* line 79 *)
  (* models/M2/AUTOSARTemplates/SWComponentTemplate/SwcInternalBehavior/IncludedDataTypes.py *)
  ("IncludedDataTypeSet", ["ARObject"]); (* line 12 *)
  (* models/M2/AUTOSARTemplates/SWComponentTemplate/SwcInternalBehavior/InstanceRefsUsage.py *)
  ("ArVariableInImplementationDataInstanceRef", ["ARObject"]); (* line 13 *)
  ("VariableInAtomicSWCTypeInstanceRef", ["AtpInstanceRef"]); (* line 127 *)
  ("ParameterInAtomicSWCTypeInstanceRef", ["AtpInstanceRef"]); (* line 266 *)
  ("AutosarParameterRef", ["ARObject"]); (* line 416 *)
  (* models/M2/AUTOSARTemplates/SWComponentTemplate/SwcInternalBehavior/InstantiationDataDefProps.py *)
  ("InstantiationDataDefProps", ["ARObject"]); (* line 9 *)
  (* models/M2/AUTOSARTemplates/SWComponentTemplate/SwcInternalBehavior/ModeDeclarationGroup.py *)
  ("ModeAccessPoint", ["ARObject"]); (* line 15 *)
  ("ModeSwitchPoint", ["AbstractAccessPoint"]); (* line 79 *)
  ("IncludedModeDeclarationGroupSet", ["ARObject"]); (* line 118 *)
  (* models/M2/AUTOSARTemplates/SWComponentTemplate/SwcInternalBehavior/PerInstanceMemory.py *)
  ("PerInstanceMemory", ["AtpStructureElement"]); (* line 12 *)
  (* models/M2/AUTOSARTemplates/SWComponentTemplate/SwcInternalBehavior/PortAPIOptions.py *)
  ("PortDefinedArgumentValue", ["ARObject"]); (* line 12 *)
  ("PortAPIOption", ["ARObject"]); (* line 75 *)
  (* models/M2/AUTOSARTemplates/SWComponentTemplate/SwcInternalBehavior/RTEEvents.py *)
  ("RTEEvent", ["AtpStructureElement"; "AbstractEvent"]); (* line 18 *)
  ("AsynchronousServerCallReturnsEvent", ["RTEEvent"]); (* line 83 *)
  ("DataSendCompletedEvent", ["RTEEvent"]); (* line 121 *)
  ("DataWriteCompletedEvent", ["RTEEvent"]); (* line 160 *)
  ("DataReceivedEvent", ["RTEEvent"]); (* line 199 *)
  ("SwcModeSwitchEvent", ["RTEEvent"]); (* line 237 *)
  ("DataReceiveErrorEvent", ["RTEEvent"]); (* line 292 *)
  ("OperationInvokedEvent", ["RTEEvent"]); (* line 331 *)
  ("InitEvent", ["RTEEvent"]); (* line 371 *)
  ("TimingEvent", ["RTEEvent"]); (* line 386 *)
  ("InternalTriggerOccurredEvent", ["RTEEvent"]); (* line 464 *)
  ("BackgroundEvent", ["RTEEvent"]); (* line 504 *)
  ("ModeSwitchedAckEvent", ["RTEEvent"]); (* line 517 *)
  ("WaitPoint", ["Identifiable"]); (* line 557 *)
  (* models/M2/AUTOSARTemplates/SWComponentTemplate/SwcInternalBehavior/ServerCall.py *)
  ("ServerCallPoint", ["AbstractAccessPoint"]); (* line 12 *)
  (* models/M2/AUTOSARTemplates/SWComponentTemplate/SwcInternalBehavior/ServiceMapping.py *)
  ("RoleBasedPortAssignment", ["ARObject"]); (* line 47 *)
  ("SwcServiceDependency", ["Identifiable"; "ServiceDependency"]); (* line 111 *)
  (* models/M2/AUTOSARTemplates/SWComponentTemplate/SwcInternalBehavior/Trigger.py *)
  ("InternalTriggeringPoint", ["AbstractAccessPoint"]); (* line 19 *)
  ("ExternalTriggeringPointIdent", ["IdentCaption"]); (* line 59 *)
  ("ExternalTriggeringPoint", ["ARObject"]); (* line 71 *)
  (* models/M2/AUTOSARTemplates/SWComponentTemplate/SwcInternalBehavior/VariantHandling.py *)
  ("VariationPointProxy", ["Identifiable"]); (* line 10 *)
  (* models/M2/AUTOSARTemplates/SWComponentTemplate/SwcInternalBehavior/__init__.py *)
  ("RunnableEntityArgument", ["ARObject"]); (* line 39 *)
  ("AsynchronousServerCallResultPoint", ["AbstractAccessPoint"]); (* line 58 *)
  ("AsynchronousServerCallPoint", ["ServerCallPoint"]); (* line 77 *)
  ("SynchronousServerCallPoint", ["ServerCallPoint"]); (* line 85 *)
  ("RunnableEntity", ["ExecutableEntity"]); (* line 104 *)
  ("SwcExclusiveAreaPolicy", ["ARObject"]); (* line 714 *)
  ("SwcInternalBehavior", ["InternalBehavior"]); (* line 772 *)
  (* models/M2/AUTOSARTemplates/SystemTemplate/DataMapping.py *)
  ("DataMapping", ["ARObject"]); (* line 14 *)
  ("SenderReceiverToSignalMapping", ["DataMapping"]); (* line 43 *)
  ("SenderRecCompositeTypeMapping", ["ARObject"]); (* line 109 *)
  ("SenderRecRecordElementMapping", ["ARObject"]); (* line 126 *)
  ("SenderRecRecordTypeMapping", ["SenderRecCompositeTypeMapping"]); (* line 208 *)
  ("IndexedArrayElement", ["ARObject"]); (* line 234 *)
  ("SenderRecArrayElementMapping", ["ARObject"]); (* line 282 *)
  ("SenderRecArrayTypeMapping", ["SenderRecCompositeTypeMapping"]); (* line 330 *)
  ("SenderReceiverToSignalGroupMapping", ["DataMapping"]); (* line 378 *)
  ("DataTypePolicyEnum", ["AREnum"]); (* line 423 *)
  (* models/M2/AUTOSARTemplates/SystemTemplate/DiagnosticConnection.py *)
  ("DiagnosticConnection", ["ARElement"]); (* line 9 *)
  (* models/M2/AUTOSARTemplates/SystemTemplate/DoIp.py *)
  ("AbstractDoIpLogicAddressProps", ["Identifiable"]); (* line 11 *)
  ("DoIpLogicTargetAddressProps", ["AbstractDoIpLogicAddressProps"]); (* line 28 *)
  ("DoIpLogicTesterAddressProps", ["AbstractDoIpLogicAddressProps"]); (* line 42 *)
  (* models/M2/AUTOSARTemplates/SystemTemplate/ECUResourceMapping.py *)
  ("ECUMapping", ["Identifiable"]); (* line 4 *)
  (* models/M2/AUTOSARTemplates/SystemTemplate/InstanceRefs.py *)
  ("VariableDataPrototypeInSystemInstanceRef", ["AtpInstanceRef"]); (* line 9 *)
  ("ComponentInSystemInstanceRef", ["AtpInstanceRef"]); (* line 73 *)
  (* models/M2/AUTOSARTemplates/SystemTemplate/NetworkManagement.py *)
  ("NmClusterCoupling", ["ARObject"]); (* line 13 *)
  ("CanNmClusterCoupling", ["NmClusterCoupling"]); (* line 30 *)
  ("FlexrayNmClusterCoupling", ["NmClusterCoupling"]); (* line 75 *)
  ("NmCoordinatorRoleEnum", ["AREnum"]); (* line 110 *)
  ("NmNode", ["Identifiable"]); (* line 135 *)
  ("CanNmNode", ["NmNode"]); (* line 309 *)
  ("FlexrayNmNode", ["NmNode"]); (* line 383 *)
  ("J1939NmAddressConfigurationCapabilityEnum", ["AREnum"]); (* line 397 *)
  ("J1939NodeName", ["ARObject"]); (* line 434 *)
  ("J1939NmNode", ["NmNode"]); (* line 629 *)
  ("UdpNmNode", ["NmNode"]); (* line 684 *)
  ("BusspecificNmEcu", ["ARObject"]); (* line 721 *)
  ("CanNmEcu", ["BusspecificNmEcu"]); (* line 737 *)
  ("FlexrayNmEcu", ["BusspecificNmEcu"]); (* line 750 *)
  ("J1939NmEcu", ["BusspecificNmEcu"]); (* line 763 *)
  ("UdpNmEcu", ["BusspecificNmEcu"]); (* line 776 *)
  ("NmEcu", ["Identifiable"]); (* line 802 *)
  ("NmConfig", ["FibexElement"]); (* line 960 *)
  ("NmCluster", ["Identifiable"]); (* line 1024 *)
  ("CanNmCluster", ["NmCluster"]); (* line 1163 *)
  ("FlexrayNmCluster", ["NmCluster"]); (* line 1338 *)
  ("J1939NmCluster", ["NmCluster"]); (* line 1352 *)
  ("UdpNmClusterCoupling", ["NmClusterCoupling"]); (* line 1366 *)
  ("UdpNmCluster", ["NmCluster"]); (* line 1403 *)
  (* models/M2/AUTOSARTemplates/SystemTemplate/RteEventToOsTaskMapping.py *)
  ("AppOsTaskProxyToEcuTaskProxyMapping", ["Identifiable"]); (* line 8 *)
  (* models/M2/AUTOSARTemplates/SystemTemplate/SWmapping.py *)
  ("SwcToImplMapping", ["Identifiable"]); (* line 10 *)
  ("ApplicationPartitionToEcuPartitionMapping", ["Identifiable"]); (* line 47 *)
  (* models/M2/AUTOSARTemplates/SystemTemplate/SecureCommunication.py *)
  ("CryptoServiceMapping", ["Identifiable"]); (* line 10 *)
  ("SecOcCryptoServiceMapping", ["CryptoServiceMapping"]); (* line 26 *)
  ("TlsCryptoServiceMapping", ["CryptoServiceMapping"]); (* line 74 *)
  (* models/M2/AUTOSARTemplates/SystemTemplate/TransportProtocols.py *)
  ("TpConfig", ["FibexElement"]); (* line 14 *)
  ("CanTpAddress", ["Identifiable"]); (* line 43 *)
  ("CanTpChannel", ["Identifiable"]); (* line 80 *)
  ("TpConnectionIdent", ["Referrable"]); (* line 116 *)
  ("TpConnection", ["ARObject"]); (* line 130 *)
  ("CanTpConnection", ["TpConnection"]); (* line 159 *)
  ("CanTpEcu", ["ARObject"]); (* line 350 *)
  ("CanTpNode", ["Identifiable"]); (* line 387 *)
  ("CanTpConfig", ["TpConfig"]); (* line 468 *)
  ("DoIpLogicAddress", ["Identifiable"]); (* line 544 *)
  ("DoIpTpConnection", ["TpConnection"]); (* line 581 *)
  ("DoIpTpConfig", ["TpConfig"]); (* line 629 *)
  ("TpAddress", ["Identifiable"]); (* line 668 *)
  ("LinTpConnection", ["TpConnection"]); (* line 693 *)
  ("LinTpNode", ["Identifiable"]); (* line 807 *)
  ("LinTpConfig", ["TpConfig"]); (* line 888 *)
  (* models/M2/AUTOSARTemplates/SystemTemplate/__init__.py *)
  ("SwcToEcuMapping", ["Identifiable"]); (* line 23 *)
  ("ComManagementMapping", ["Identifiable"]); (* line 78 *)
  ("SystemMapping", ["Identifiable"]); (* line 126 *)
  ("RootSwCompositionPrototype", ["AtpPrototype"]); (* line 395 *)
  ("J1939SharedAddressCluster", ["Identifiable"]); (* line 470 *)
  ("System", ["AtpStructureElement"]); (* line 496 *)
  (* models/M2/AUTOSARTemplates/SystemTemplate/Fibex/Fibex4Multiplatform.py *)
  ("FrameMapping", ["ARObject"]); (* line 10 *)
  ("ISignalMapping", ["ARObject"]); (* line 53 *)
  ("DefaultValueElement", ["ARObject"]); (* line 97 *)
  ("PduMappingDefaultValue", ["ARObject"]); (* line 133 *)
  ("TargetIPduRef", ["ARObject"]); (* line 158 *)
  ("IPduMapping", ["ARObject"]); (* line 193 *)
  ("Gateway", ["FibexElement"]); (* line 251 *)
  (* models/M2/AUTOSARTemplates/SystemTemplate/Fibex/Fibex4Can/CanCommunication.py *)
  ("RxIdentifierRange", ["ARObject"]); (* line 9 *)
  ("CanFrame", ["Frame"]); (* line 44 *)
  ("CanFrameTriggering", ["FrameTriggering"]); (* line 58 *)
  (* models/M2/AUTOSARTemplates/SystemTemplate/Fibex/Fibex4Can/CanTopology.py *)
  ("CanControllerFdConfiguration", ["ARObject"]); (* line 13 *)
  ("CanControllerFdConfigurationRequirements", ["ARObject"]); (* line 166 *)
  ("CanControllerXlConfiguration", ["ARObject"]); (* line 291 *)
  ("CanControllerXlConfigurationRequirements", ["ARObject"]); (* line 464 *)
  ("AbstractCanCommunicationControllerAttributes", ["ARObject"]); (* line 733 *)
  ("CanControllerConfigurationRequirements", ["AbstractCanCommunicationControllerAttributes"]); (* line 813 *)
  ("AbstractCanCommunicationController", ["CommunicationController"]); (* line 888 *)
  ("CanCommunicationController", ["AbstractCanCommunicationController"]); (* line 924 *)
  ("AbstractCanCommunicationConnector", ["CommunicationConnector"]); (* line 937 *)
  ("CanCommunicationConnector", ["AbstractCanCommunicationConnector"]); (* line 954 *)
  (* models/M2/AUTOSARTemplates/SystemTemplate/Fibex/Fibex4Ethernet/EthernetCommunication.py *)
  ("SocketConnection", ["Describable"]); (* line 11 *)
  ("SocketConnectionIpduIdentifier", ["ARObject"]); (* line 146 *)
  ("SocketConnectionBundle", ["Referrable"]); (* line 231 *)
  ("SoAdRoutingGroup", ["FibexElement"]); (* line 316 *)
  (* models/M2/AUTOSARTemplates/SystemTemplate/Fibex/Fibex4Ethernet/EthernetFrame.py *)
  ("AbstractEthernetFrame", ["Frame"]); (* line 9 *)
  ("GenericEthernetFrame", ["AbstractEthernetFrame"]); (* line 27 *)
  (* models/M2/AUTOSARTemplates/SystemTemplate/Fibex/Fibex4Ethernet/EthernetTopology.py *)
  ("MacMulticastGroup", ["Identifiable"]); (* line 9 *)
  ("EthernetCluster", ["CommunicationCluster"]); (* line 35 *)
  ("CouplingPortStructuralElement", ["Identifiable"]); (* line 96 *)
  ("CouplingPortFifo", ["CouplingPortStructuralElement"]); (* line 113 *)
  ("CouplingPortScheduler", ["CouplingPortStructuralElement"]); (* line 172 *)
  ("EthernetPriorityRegeneration", ["Referrable"]); (* line 209 *)
  ("CouplingPortDetails", ["ARObject"]); (* line 246 *)
  ("VlanMembership", ["ARObject"]); (* line 372 *)
  ("CouplingPort", ["Identifiable"]); (* line 431 *)
  ("EthernetCommunicationController", ["CommunicationController"]); (* line 600 *)
  ("EthernetCommunicationConnector", ["CommunicationConnector"]); (* line 698 *)
  ("RequestResponseDelay", ["ARObject"]); (* line 774 *)
  ("InitialSdDelayConfig", ["ARObject"]); (* line 811 *)
  ("SdClientConfig", ["ARObject"]); (* line 870 *)
  (* models/M2/AUTOSARTemplates/SystemTemplate/Fibex/Fibex4Ethernet/NetworkEndpoint.py *)
  ("NetworkEndpointAddress", ["ARObject"]); (* line 11 *)
  ("Ipv4Configuration", ["NetworkEndpointAddress"]); (* line 28 *)
  ("Ipv6Configuration", ["NetworkEndpointAddress"]); (* line 123 *)
  ("DoIpEntity", ["ARObject"]); (* line 228 *)
  ("TimeSyncClientConfiguration", ["ARObject"]); (* line 254 *)
  ("TimeSyncServerConfiguration", ["Referrable"]); (* line 291 *)
  ("TimeSynchronization", ["ARObject"]); (* line 350 *)
  ("InfrastructureServices", ["ARObject"]); (* line 387 *)
  ("NetworkEndpoint", ["Identifiable"]); (* line 422 *)
  (* models/M2/AUTOSARTemplates/SystemTemplate/Fibex/Fibex4Ethernet/ServiceInstances.py *)
  ("TransportProtocolConfiguration", ["ARObject"]); (* line 13 *)
  ("GenericTp", ["TransportProtocolConfiguration"]); (* line 31 *)
  ("TcpUdpConfig", ["TransportProtocolConfiguration"]); (* line 66 *)
  ("TpPort", ["ARObject"]); (* line 83 *)
  ("UdpTp", ["TcpUdpConfig"]); (* line 118 *)
  ("TcpTp", ["TcpUdpConfig"]); (* line 143 *)
  ("AbstractServiceInstance", ["Identifiable"]); (* line 238 *)
  ("ConsumedEventGroup", ["Identifiable"]); (* line 300 *)
  ("ConsumedServiceInstance", ["AbstractServiceInstance"]); (* line 414 *)
  ("SdServerConfig", ["ARObject"]); (* line 644 *)
  ("EventHandler", ["Identifiable"]); (* line 736 *)
  ("ProvidedServiceInstance", ["AbstractServiceInstance"]); (* line 806 *)
  ("ApplicationEndpoint", ["Identifiable"]); (* line 1125 *)
  ("SocketAddress", ["Identifiable"]); (* line 1216 *)
  ("SoAdConfig", ["ARObject"]); (* line 1362 *)
  (* models/M2/AUTOSARTemplates/SystemTemplate/Fibex/Fibex4Flexray/FlexrayCommunication.py *)
  ("FlexrayFrame", ["Frame"]); (* line 8 *)
  ("FlexrayAbsolutelyScheduledTiming", ["ARObject"]); (* line 23 *)
  ("FlexrayFrameTriggering", ["FrameTriggering"]); (* line 60 *)
  (* models/M2/AUTOSARTemplates/SystemTemplate/Fibex/Fibex4Flexray/FlexrayTopology.py *)
  ("FlexrayCommunicationController", ["CommunicationController"]); (* line 10 *)
  ("FlexrayCommunicationConnector", ["CommunicationConnector"]); (* line 534 *)
  ("FlexrayCluster", ["CommunicationCluster"]); (* line 582 *)
  ("FlexrayFifoRange", ["ARObject"]); (* line 1155 *)
  ("FlexrayFifoConfiguration", ["ARObject"]); (* line 1200 *)
  (* models/M2/AUTOSARTemplates/SystemTemplate/Fibex/Fibex4Lin/LinCommunication.py *)
  ("LinFrame", ["Frame"]); (* line 11 *)
  ("LinUnconditionalFrame", ["LinFrame"]); (* line 28 *)
  ("LinFrameTriggering", ["FrameTriggering"]); (* line 42 *)
  ("ResumePosition", ["AREnum"]); (* line 79 *)
  ("ScheduleTableEntry", ["ARObject"]); (* line 95 *)
  ("ApplicationEntry", ["ScheduleTableEntry"]); (* line 147 *)
  ("FreeFormatEntry", ["ScheduleTableEntry"]); (* line 173 *)
  ("LinConfigurationEntry", ["ScheduleTableEntry"]); (* line 189 *)
  ("LinScheduleTable", ["Identifiable"]); (* line 206 *)
  (* models/M2/AUTOSARTemplates/SystemTemplate/Fibex/Fibex4Lin/LinTopology.py *)
  ("LinCommunicationController", ["CommunicationController"]); (* line 7 *)
  ("LinMaster", ["LinCommunicationController"]); (* line 35 *)
  ("LinCommunicationConnector", ["CommunicationConnector"]); (* line 83 *)
  (* models/M2/AUTOSARTemplates/SystemTemplate/Fibex/FibexCore/CoreCommunication.py *)
  ("FibexElement", ["PackageableElement"]); (* line 20 *)
  ("PduToFrameMapping", ["Identifiable"]); (* line 38 *)
  ("Frame", ["FibexElement"]); (* line 93 *)
  ("ContainedIPduProps", ["ARObject"]); (* line 134 *)
  ("ISignalGroup", ["FibexElement"]); (* line 219 *)
  ("ISignalIPduGroup", ["FibexElement"]); (* line 310 *)
  ("Pdu", ["FibexElement"]); (* line 375 *)
  ("IPdu", ["Pdu"]); (* line 433 *)
  ("SecureCommunicationProps", ["ARObject"]); (* line 471 *)
  ("SecuredIPdu", ["IPdu"]); (* line 709 *)
  ("TransferPropertyEnum", ["AREnum"]); (* line 801 *)
  ("ISignalToIPduMapping", ["Identifiable"]); (* line 837 *)
  ("NmPdu", ["Pdu"]); (* line 972 *)
  ("NPdu", ["IPdu"]); (* line 1033 *)
  ("DcmIPdu", ["IPdu"]); (* line 1046 *)
  ("IPduTiming", ["Describable"]); (* line 1070 *)
  ("ISignalIPdu", ["IPdu"]); (* line 1125 *)
  ("ISignalTypeEnum", ["AREnum"]); (* line 1201 *)
  ("ISignalProps", ["ARObject"]); (* line 1226 *)
  ("ISignal", ["FibexElement"]); (* line 1264 *)
  ("PduTriggering", ["Identifiable"]); (* line 1481 *)
  ("FrameTriggering", ["Identifiable"]); (* line 1547 *)
  ("SystemSignal", ["ARElement"]); (* line 1595 *)
  ("SystemSignalGroup", ["ARElement"]); (* line 1630 *)
  ("ISignalTriggering", ["Identifiable"]); (* line 1683 *)
  ("SegmentPosition", ["ARObject"]); (* line 1728 *)
  ("MultiplexedPart", ["ARObject"]); (* line 1776 *)
  ("StaticPart", ["MultiplexedPart"]); (* line 1805 *)
  ("DynamicPartAlternative", ["ARObject"]); (* line 1831 *)
  ("DynamicPart", ["MultiplexedPart"]); (* line 1879 *)
  ("MultiplexedIPdu", ["IPdu"]); (* line 1905 *)
  ("GeneralPurposePdu", ["Pdu"]); (* line 1997 *)
  ("GeneralPurposeIPdu", ["IPdu"]); (* line 2010 *)
  ("SecureCommunicationPropsSet", ["FibexElement"]); (* line 2023 *)
  ("UserDefinedPdu", ["Pdu"]); (* line 2083 *)
  ("UserDefinedIPdu", ["IPdu"]); (* line 2116 *)
  ("SecureCommunicationAuthenticationProps", ["Identifiable"]); (* line 2139 *)
  ("SecureCommunicationFreshnessProps", ["Identifiable"]); (* line 2177 *)
  (* models/M2/AUTOSARTemplates/SystemTemplate/Fibex/FibexCore/CoreTopology.py *)
  ("CommunicationCycle", ["ARObject"]); (* line 17 *)
  ("CycleCounter", ["CommunicationCycle"]); (* line 33 *)
  ("CycleRepetitionType", ["AREnum"]); (* line 58 *)
  ("CycleRepetition", ["CommunicationCycle"]); (* line 72 *)
  ("PhysicalChannel", ["Identifiable"]); (* line 109 *)
  ("AbstractCanPhysicalChannel", ["PhysicalChannel"]); (* line 199 *)
  ("CanPhysicalChannel", ["AbstractCanPhysicalChannel"]); (* line 216 *)
  ("LinPhysicalChannel", ["PhysicalChannel"]); (* line 230 *)
  ("VlanConfig", ["Identifiable"]); (* line 269 *)
  ("EthernetPhysicalChannel", ["PhysicalChannel"]); (* line 295 *)
  ("FlexrayChannelName", ["AREnum"]); (* line 346 *)
  ("FlexrayPhysicalChannel", ["PhysicalChannel"]); (* line 363 *)
  ("CommunicationCluster", ["FibexElement"]); (* line 389 *)
  ("CanClusterBusOffRecovery", ["ARObject"]); (* line 540 *)
  ("AbstractCanCluster", ["CommunicationCluster"]); (* line 610 *)
  ("CanCluster", ["AbstractCanCluster"]); (* line 686 *)
  ("LinCluster", ["CommunicationCluster"]); (* line 699 *)
  ("CommunicationController", ["Identifiable"]); (* line 713 *)
  ("PncGatewayTypeEnum", ["AREnum"]); (* line 749 *)
  ("CommunicationDirectionType", ["AREnum"]); (* line 767 *)
  ("CommConnectorPort", ["Identifiable"]); (* line 783 *)
  ("FramePort", ["CommConnectorPort"]); (* line 812 *)
  ("IPduSignalProcessingEnum", []); (* line 825 *)
  ("IPduPort", ["CommConnectorPort"]); (* line 838 *)
  ("ISignalPort", ["CommConnectorPort"]); (* line 908 *)
  ("CommunicationConnector", ["Identifiable"]); (* line 978 *)
  (* models/M2/AUTOSARTemplates/SystemTemplate/Fibex/FibexCore/EcuInstance.py *)
  ("EcuInstance", ["FibexElement"]); (* line 11 *)
  (* models/M2/AUTOSARTemplates/SystemTemplate/Fibex/FibexCore/Timing.py *)
  ("ModeDrivenTransmissionModeCondition", ["ARObject"]); (* line 8 *)
  ("TransmissionModeCondition", ["ARObject"]); (* line 32 *)
  ("TimeRangeType", ["ARObject"]); (* line 67 *)
  ("CyclicTiming", ["Describable"]); (* line 101 *)
  ("EventControlledTiming", ["Describable"]); (* line 134 *)
  ("TransmissionModeTiming", ["ARObject"]); (* line 168 *)
  ("TransmissionModeDeclaration", ["ARObject"]); (* line 203 *)
  (* models/M2/AUTOSARTemplates/SystemTemplate/Transformer/__init__.py *)
  ("DataTransformationKindEnum", ["AREnum"]); (* line 16 *)
  ("DataTransformation", ["Identifiable"]); (* line 45 *)
  ("BufferProperties", ["ARObject"]); (* line 120 *)
  ("TransformationDescription", ["Describable"]); (* line 178 *)
  ("DataIdModeEnum", ["AREnum"]); (* line 195 *)
  ("EndToEndProfileBehaviorEnum", ["AREnum"]); (* line 228 *)
  ("E2EProfileCompatibilityProps", ["ARElement"]); (* line 253 *)
  ("EndToEndTransformationDescription", ["TransformationDescription"]); (* line 289 *)
  ("TransformerClassEnum", ["AREnum"]); (* line 766 *)
  ("TransformationTechnology", ["Identifiable"]); (* line 792 *)
  ("DataTransformationSet", ["ARElement"]); (* line 947 *)
  ("CSTransformerErrorReactionEnum", ["AREnum"]); (* line 988 *)
  ("TransformationISignalProps", ["Describable"]); (* line 1008 *)
  ("DataPrototypeReference", ["ARObject"]); (* line 1093 *)
  ("DataPrototypeInPortInterfaceRef", ["DataPrototypeReference"]); (* line 1130 *)
  ("DataPrototypeInSenderReceiverInterfaceInstanceRef", ["AtpInstanceRef"; "DataPrototypeInPortInterfaceRef"]); (* line 1165 *)
  ("DataPrototypeInClientServerInterfaceInstanceRef", ["AtpInstanceRef"; "DataPrototypeInPortInterfaceRef"]); (* line 1260 *)
  ("ImplementationDataTypeElementInPortInterfaceRef", ["DataPrototypeReference"]); (* line 1355 *)
  ("DataPrototypeTransformationProps", ["ARObject"]); (* line 1430 *)
  ("EndToEndTransformationISignalProps", ["TransformationISignalProps"]); (* line 1505 *)
  ("EndToEndTransformationComSpecProps", ["TransformationComSpecProps"]); (* line 1575 *)
  (* models/M2/MSR/AsamHdo/AdminData.py *)
  ("Modification", ["ARObject"]); (* line 8 *)
  ("DocRevision", ["ARObject"]); (* line 45 *)
  ("AdminData", ["ARObject"]); (* line 137 *)
  (* models/M2/MSR/AsamHdo/BaseTypes.py *)
  ("BaseTypeDefinition", ["ARObject"]); (* line 14 *)
  ("BaseTypeDirectDefinition", ["BaseTypeDefinition"]); (* line 31 *)
  ("BaseType", ["ARElement"]); (* line 151 *)
  ("SwBaseType", ["BaseType"]); (* line 190 *)
  (* models/M2/MSR/AsamHdo/ComputationMethod.py *)
  ("CompuContent", ["ARObject"]); (* line 12 *)
  ("CompuConst", ["ARObject"]); (* line 28 *)
  ("Compu", ["ARObject"]); (* line 53 *)
  ("CompuConstContent", ["ARObject"]); (* line 87 *)
  ("CompuConstTextContent", ["CompuConstContent"]); (* line 105 *)
  ("CompuConstNumericContent", ["CompuConstContent"]); (* line 130 *)
  ("CompuConstFormulaContent", ["CompuConstContent"]); (* line 154 *)
  ("CompuScaleContents", ["ARObject"]); (* line 178 *)
  ("CompuScaleConstantContents", ["CompuScaleContents"]); (* line 194 *)
  ("CompuRationalCoeffs", ["ARObject"]); (* line 218 *)
  ("CompuScaleRationalFormula", ["CompuScaleContents"]); (* line 253 *)
  ("CompuNominatorDenominator", ["ARObject"]); (* line 277 *)
  ("CompuScale", ["ARObject"]); (* line 301 *)
  ("CompuScales", ["CompuContent"]); (* line 406 *)
  ("CompuMethod", ["AtpBlueprintable"]); (* line 429 *)
  (* models/M2/MSR/AsamHdo/SpecialData.py *)
  ("Sd", ["ARObject"]); (* line 9 *)
  ("SdgCaption", ["MultilanguageReferrable"]); (* line 81 *)
  ("Sdf", ["ARObject"]); (* line 115 *)
  ("SdgContents", ["ARObject"]); (* line 168 *)
  ("Sdg", ["ARObject"]); (* line 278 *)
  (* models/M2/MSR/AsamHdo/Units.py *)
  ("PhysicalDimension", ["ARElement"]); (* line 16 *)
  ("SingleLanguageUnitNames", ["ARLiteral"]); (* line 164 *)
  ("Unit", ["ARElement"]); (* line 179 *)
  ("UnitGroup", ["ARElement"]); (* line 270 *)
  (* models/M2/MSR/AsamHdo/Constraints/GlobalConstraints.py *)
  ("InternalConstrs", ["ARObject"]); (* line 18 *)
  ("ScaleConstrValidityEnum", ["AREnum"]); (* line 147 *)
  ("ScaleConstr", ["ARObject"]); (* line 184 *)
  ("PhysConstrs", ["ARObject"]); (* line 294 *)
  ("DataConstrRule", ["ARObject"]); (* line 442 *)
  ("DataConstr", ["AtpBlueprintable"]); (* line 459 *)
  (* models/M2/MSR/CalibrationData/CalibrationValue.py *)
  ("SwValues", ["ARObject"]); (* line 7 *)
  ("SwValueCont", ["ARObject"]); (* line 30 *)
  (* models/M2/MSR/DataDictionary/AuxillaryObjects.py *)
  ("MemoryAllocationKeywordPolicyType", ["AREnum"]); (* line 8 *)
  ("MemorySectionType", ["AREnum"]); (* line 34 *)
  ("SwAddrMethod", ["AtpBlueprintable"]); (* line 80 *)
  (* models/M2/MSR/DataDictionary/Axis.py *)
  ("SwGenericAxisParam", ["ARObject"]); (* line 7 *)
  ("SwAxisGeneric", ["ARObject"]); (* line 62 *)
  ("SwAxisIndividual", ["SwCalprmAxisTypeProps"]); (* line 117 *)
  ("SwAxisGrouped", ["SwCalprmAxisTypeProps"]); (* line 211 *)
  (* models/M2/MSR/DataDictionary/CalibrationParameter.py *)
  ("CalprmAxisCategoryEnum", ["AREnum"]); (* line 13 *)
  ("SwCalprmAxisTypeProps", ["ARObject"]); (* line 41 *)
  ("SwCalprmAxis", ["ARObject"]); (* line 98 *)
  ("SwCalprmAxisSet", ["ARObject"]); (* line 209 *)
  (* models/M2/MSR/DataDictionary/DataDefProperties.py *)
  ("SwImplPolicyEnum", ["AREnum"]); (* line 29 *)
  ("SwCalibrationAccessEnum", ["AREnum"]); (* line 69 *)
  ("DisplayPresentationEnum", ["AREnum"]); (* line 94 *)
  ("SwBitRepresentation", ["ARObject"]); (* line 116 *)
  ("SwVariableRefProxy", ["ARObject"]); (* line 169 *)
  ("SwCalprmRefProxy", ["ARObject"]); (* line 222 *)
  ("SwDataDependencyArgs", ["ARObject"]); (* line 275 *)
  ("CompuGenericMath", ["ARObject"]); (* line 328 *)
  ("SwDataDependency", ["ARObject"]); (* line 362 *)
  ("SwDataDefProps", ["ARObject"]); (* line 415 *)
  ("SwPointerTargetProps", ["ARObject"]); (* line 1000 *)
  ("ValueList", ["ARObject"]); (* line 1072 *)
  ("SwTextProps", ["ARObject"]); (* line 1105 *)
  (* models/M2/MSR/DataDictionary/RecordLayout.py *)
  ("AxisIndexType", ["ARLiteral"]); (* line 7 *)
  ("SwRecordLayoutV", ["ARObject"]); (* line 24 *)
  ("SwRecordLayoutGroupContent", ["ARObject"]); (* line 118 *)
  ("SwRecordLayoutGroup", ["ARObject"]); (* line 162 *)
  ("SwRecordLayout", ["ARElement"]); (* line 286 *)
  (* models/M2/MSR/DataDictionary/ServiceProcessTask.py *)
  ("SwServiceArg", ["Identifiable"]); (* line 9 *)
  (* models/M2/MSR/DataDictionary/SystemConstant.py *)
  ("SwSystemconst", ["Identifiable"]); (* line 6 *)
  (* models/M2/MSR/Documentation/Annotation.py *)
  ("GeneralAnnotation", ["ARObject"]); (* line 8 *)
  ("Annotation", ["GeneralAnnotation"]); (* line 53 *)
  (* models/M2/MSR/Documentation/Chapters.py *)
  ("Chapter", ["Identifiable"]); (* line 23 *)
  ("PredefinedChapter", ["ARObject"]); (* line 92 *)
  ("ChapterModel", ["ARObject"]); (* line 134 *)
  ("ChapterContent", ["ARObject"]); (* line 238 *)
  ("ChapterOrMsrQuery", ["ARObject"]); (* line 284 *)
  ("TopicOrMsrQuery", ["ARObject"]); (* line 353 *)
  ("Topic1", ["Identifiable"]); (* line 422 *)
  ("MsrQueryChapter", ["ARObject"]); (* line 493 *)
  ("MsrQueryTopic1", ["ARObject"]); (* line 540 *)
  ("TopicContent", ["ARObject"]); (* line 587 *)
  ("TopicContentOrMsrQuery", ["ARObject"]); (* line 636 *)
  (* models/M2/MSR/Documentation/BlockElements/Figure.py *)
  ("GraphicFitEnum", ["AREnum"]); (* line 8 *)
  ("Graphic", ["EngineeringObject"]); (* line 20 *)
  ("Map", ["ARObject"]); (* line 99 *)
  ("LGraphic", ["LanguageSpecific"]); (* line 111 *)
  ("MlFigure", ["Paginateable"]); (* line 175 *)
  (* models/M2/MSR/Documentation/BlockElements/Formula.py *)
  ("MlFormula", ["Paginateable"]); (* line 9 *)
  (* models/M2/MSR/Documentation/BlockElements/OasisExchangeTable.py *)
  ("FloatEnum", ["AREnum"]); (* line 6 *)
  ("PgwideEnum", ["AREnum"]); (* line 33 *)
  (* models/M2/MSR/Documentation/BlockElements/__init__.py *)
  ("Caption", ["MultilanguageReferrable"]); (* line 12 *)
  (* models/M2/MSR/Documentation/TextModel/InlineTextElements.py *)
  ("Superscript", ["ARLiteral"]); (* line 9 *)
  ("Tt", ["ARObject"]); (* line 24 *)
  ("IndexEntry", ["ARObject"]); (* line 114 *)
  ("EmphasisText", ["ARObject"]); (* line 204 *)
  (* models/M2/MSR/Documentation/TextModel/LanguageDataModel.py *)
  ("LEnum", ["AREnum"]); (* line 17 *)
  ("LanguageSpecific", ["ARObject"]); (* line 139 *)
  ("LOverviewParagraph", ["LanguageSpecific"]); (* line 195 *)
  ("LParagraph", ["LanguageSpecific"]); (* line 207 *)
  ("MixedContentForLongName", ["ARObject"]); (* line 219 *)
  ("LLongName", ["MixedContentForLongName"; "LanguageSpecific"]); (* line 332 *)
  ("LPlainText", ["LanguageSpecific"]); (* line 366 *)
  ("LVerbatim", ["LanguageSpecific"]); (* line 378 *)
  (* models/M2/MSR/Documentation/TextModel/MsrQuery.py *)
  ("MsrQueryArg", ["ARObject"]); (* line 12 *)
  ("MsrQueryProps", ["ARObject"]); (* line 77 *)
  ("MsrQueryP2", ["ARObject"]); (* line 167 *)
  ("MsrQueryP1", ["ARObject"]); (* line 232 *)
  (* models/M2/MSR/Documentation/TextModel/MultilanguageData.py *)
  ("MultiLanguageParagraph", ["Paginateable"]); (* line 13 *)
  ("MultiLanguageOverviewParagraph", ["ARObject"]); (* line 37 *)
  ("MultilanguageLongName", ["ARObject"]); (* line 72 *)
  ("MultiLanguagePlainText", ["ARObject"]); (* line 96 *)
  ("MultiLanguageVerbatim", ["Paginateable"]); (* line 136 *)
  (* models/M2/MSR/Documentation/TextModel/BlockElements/ListElements.py *)
  ("ListEnum", ["AREnum"]); (* line 15 *)
  ("Item", ["Paginateable"]); (* line 32 *)
  ("ARList", ["Paginateable"]); (* line 55 *)
  ("ItemLabelPosEnum", ["AREnum"]); (* line 89 *)
  ("IndentSample", ["ARObject"]); (* line 118 *)
  ("LabeledItem", ["ARObject"]); (* line 183 *)
  ("LabeledList", ["ARObject"]); (* line 273 *)
  ("DefItem", ["ARObject"]); (* line 338 *)
  ("DefList", ["ARObject"]); (* line 391 *)
  (* models/M2/MSR/Documentation/TextModel/BlockElements/Note.py *)
  ("NoteTypeEnum", ["AREnum"]); (* line 13 *)
  ("Note", ["ARObject"]); (* line 54 *)
  (* models/M2/MSR/Documentation/TextModel/BlockElements/PaginationAndView.py *)
  ("DocumentViewSelectable", ["ARObject"]); (* line 5 *)
  ("Paginateable", ["DocumentViewSelectable"]); (* line 20 *)
  (* models/M2/MSR/Documentation/TextModel/BlockElements/RequirementsTracing.py *)
  ("TraceableText", ["ARObject"]); (* line 12 *)
  ("StructuredReq", ["ARObject"]); (* line 77 *)
  (* models/M2/MSR/Documentation/TextModel/BlockElements/__init__.py *)
  ("DocumentationBlock", ["ARObject"]); (* line 22 *)
  (* models/utils/uuid_mgr.py *)
  ("UUIDMgr", []) (* line 4 *)
].

Definition bases (c : string) : list string :=
  match find (fun p => String.eqb c (fst p)) class_bases with Some p => snd p | None => [] end.

(** The class itself and all its ancestors; depth 20 covers the whole hierarchy. *)
Fixpoint ancestors (depth : nat) (c : string) : list string :=
  c :: match depth with O => [] | S d => flat_map (ancestors d) (bases c) end.

(** isinstance(x, d) for an object x of class c *)
Definition isinst (c d : string) : bool := existsb (String.eqb d) (ancestors 20 c).

(** No ancestor chain is longer than the depth used. *)
Fixpoint depth_ok (depth : nat) (c : string) : bool :=
  match depth with
  | O => match bases c with [] => true | _ => false end
  | S d => forallb (depth_ok d) (bases c)
  end.
Example depth_enough : forallb (fun p => depth_ok 20 (fst p)) class_bases = true.
Proof. vm_compute. reflexivity. Qed.

Lemma isinst_refl : forall c, isinst c c = true.
Proof. intro c. unfold isinst. simpl. now rewrite String.eqb_refl. Qed.
