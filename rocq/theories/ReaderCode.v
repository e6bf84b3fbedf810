(** Generated by tools/gen_ir.py from /repo/src/armodel/parser/arxml_parser.py.
    One definition per method of ARXMLParser, in source order: what it does
    to its object parameter and the value it returns, in the language of Ir.v; the comment gives the
    lines.  Methods outside the language are [RUnknown]:
      (none)
    Arguments of log calls are evaluated by Python even when nothing is logged; the ones that can
    raise (2315, 8715, 9396) were added by hand, as was getFullName of 3041 and 3050.
*)
From Coq Require Import String List.
From Verif Require Import PyBase Leaf Ir.
Import ListNotations.
Open Scope string_scope.

(** arxml_parser.py:726-733 *)
Definition r_getChildElementRxIdentifierRange : list ri * option vx :=
  ([],
   Some (VFindX PKey (VNewX "RxIdentifierRange" false [RPut "setLowerCanId" (VLeafX RNumerical (PLit "LOWER-CAN-ID"));
       RPut "setUpperCanId" (VLeafX RNumerical (PLit "UPPER-CAN-ID"))]) VNoneX)).
(** arxml_parser.py:735-749 *)
Definition r_getChildElementJ1939NodeName : list ri * option vx :=
  ([],
   Some (VFindX PKey (VNewX "J1939NodeName" false [RPut "setArbitraryAddressCapable" (VLeafX RBool (PLit "ARBITRARY-ADDRESS-CAPABLE"));
       RPut "setEcuInstance" (VLeafX RInteger (PLit "ECU-INSTANCE"));
       RPut "setFunction" (VLeafX RInteger (PLit "FUNCTION"));
       RPut "setFunctionInstance" (VLeafX RInteger (PLit "FUNCTION-INSTANCE"));
       RPut "setIdentitiyNumber" (VLeafX RInteger (PLit "IDENTITIY-NUMBER"));
       RPut "setIndustryGroup" (VLeafX RInteger (PLit "INDUSTRY-GROUP"));
       RPut "setManufacturerCode" (VLeafX RInteger (PLit "MANUFACTURER-CODE"));
       RPut "setVehicleSystem" (VLeafX RInteger (PLit "VEHICLE-SYSTEM"));
       RPut "setVehicleSystemInstance" (VLeafX RInteger (PLit "VEHICLE-SYSTEM-INSTANCE"))]) VNoneX)).
(** arxml_parser.py:751-759 *)
Definition r_readSd : list ri * option vx :=
  ([RFor (PLit "./SD")
       [RPut "addSd" (VNewX "Sd" false [RAttrs;
            RIf (CHasAttr "GID")
              [RPut "setGID" (VWrapX "NameToken" "setValue" (VAttrX "GID"))]
              [];
            RIf (CBoth (CHasText) CHasWord)
              [RPut "setValue" (VWrapX "VerbatimStringPlain" "setValue" VTextX)]
              []])]],
   None).
(** arxml_parser.py:761-769 *)
Definition r_readSdf : list ri * option vx :=
  ([RFor (PLit "./SDF")
       [RPut "addSdf" (VNewX "Sdf" false [RAttrs;
            RIf (CHasAttr "GID")
              [RPut "setGID" (VWrapX "NameToken" "setValue" (VAttrX "GID"))]
              [];
            RIf (CBoth (CHasText) CHasWord)
              [RPut "setValue" (VWrapX "Numerical" "setValue" VTextX)]
              []])]],
   None).
(** arxml_parser.py:771-774 *)
Definition r_readSdgCaption : list ri * option vx :=
  ([RFind (PLit "SDG-CAPTION")
       [RCreate "createSdgCaption" true
          []]
       []],
   None).
(** arxml_parser.py:776-778 *)
Definition r_readSdgSdxRefs : list ri * option vx :=
  ([RForVal (VLeafsX RRef (PLit "SDX-REF"))
       [RPut "addSdxRef" VItemX]],
   None).
(** arxml_parser.py:780-782 *)
Definition r_readSdgSdxfRefs : list ri * option vx :=
  ([RForVal (VLeafsX RRef (PLit "SDXF"))
       [RPut "addSdxfRef" VItemX]],
   None).
(** arxml_parser.py:784-799 *)
Definition r_getSdg : list ri * option vx :=
  ([],
   Some (VNewX "Sdg" false [RAttrs;
      RIf (CHasAttr "GID")
        [RPut "setGID" (VWrapX "NameToken" "setValue" (VAttrX "GID"))]
        [];
      RCall "readSdgCaption" None;
      RPutAny "setSdgContentsType" ["getSds"; "getSdfs"; "getSdgs"; "getSdxRefs"; "getSdxfRefs"]
        (VNewX "SdgContents" false [RCall "readSd" None;
          RCall "readSdf" None;
          RFor (PLit "SDG")
            [RPut "addSdg" (VGetX "getSdg" None)];
          RCall "readSdgSdxRefs" None;
          RCall "readSdgSdxfRefs" None])])).
(** arxml_parser.py:801-807 *)
Definition r_readBlueprintGenerator : list ri * option vx :=
  ([RAttrs;
     RPut "setIntroduction" (VGetX "getDocumentationBlock" (Some (TLit "INTRODUCTION")));
     RFind (PLit "EXPRESSION")
       [RPut "setExpression" (VWrapX "VerbatimString" "setValue" VTextX)]
       []],
   None).
(** arxml_parser.py:809-821 *)
Definition r_readConditionByFormula : list ri * option vx :=
  ([RAttrs;
     RIf (CHasAttr "BINDING-TIME")
       [RIf (CGot (VUnmapX "BINDING-TIME" binding_time_xml_map))
          [RPut "setBindingTime" (VWrapX "BindingTimeEnum" "setValue" (VUnmapX "BINDING-TIME" binding_time_xml_map))]
          [RFail NotImplementedError true]]
       []],
   None).
(** arxml_parser.py:823-827 *)
Definition r_readPostBuildVariantCondition : list ri * option vx :=
  ([RAttrs;
     RPut "setMatchingCriterionRef" (VReqX RRef (PLit "MATCHING-CRITERION-REF"));
     RPut "setValue" (VLeafX RInteger (PLit "VALUE"))],
   None).
(** arxml_parser.py:829-851 *)
Definition r_readVariationPoint : list ri * option vx :=
  ([RAttrs;
     RPut "setShortLabel" (VLeafX RIdentifier (PLit "SHORT-LABEL"));
     RPut "setDesc" (VGetX "getMultiLanguageOverviewParagraph" (Some (TLit "DESC")));
     RPut "setBlueprintCondition" (VGetX "getDocumentationBlock" (Some (TLit "BLUEPRINT-CONDITION")));
     RFind (PLit "FORMAL-BLUEPRINT-GENERATOR")
       [RPut "setFormalBlueprintGenerator" (VNewX "BlueprintGenerator" false [RCall "readBlueprintGenerator" None])]
       [];
     RFind (PLit "SW-SYSCOND")
       [RPut "setSwSyscond" (VNewX "ConditionByFormula" false [RCall "readConditionByFormula" None])]
       [];
     RFor (PLit "POST-BUILD-VARIANT-CONDITIONS/*")
       [RIf (CTag "POST-BUILD-VARIANT-CONDITION")
          [RPut "addPostBuildVariantCondition" (VNewX "PostBuildVariantCondition" false [RCall "readPostBuildVariantCondition" None])]
          [RFail NotImplementedError true]];
     RFind (PLit "SDG")
       [RPut "setSdg" (VGetX "getSdg" None)]
       []],
   None).
(** arxml_parser.py:853-859 *)
Definition r_readAdminDataSdgs : list ri * option vx :=
  ([RFor (PLit "SDGS/*")
       [RIf (CTag "SDG")
          [RPut "addSdg" (VGetX "getSdg" None)]
          [RFail NotImplementedError true]]],
   None).
(** arxml_parser.py:861-863 *)
Definition r_readModification : list ri * option vx :=
  ([RPut "setChange" (VGetX "getMultiLanguageOverviewParagraph" (Some (TLit "CHANGE")));
     RPut "setReason" (VGetX "getMultiLanguageOverviewParagraph" (Some (TLit "REASON")))],
   None).
(** arxml_parser.py:865-873 *)
Definition r_readDocRevisionModifications : list ri * option vx :=
  ([RFor (PLit "MODIFICATIONS/*")
       [RIf (CTag "MODIFICATION")
          [RPut "addModification" (VNewX "Modification" false [RCall "readModification" None])]
          [RFail NotImplementedError true]]],
   None).
(** arxml_parser.py:875-881 *)
Definition r_readDocRevision : list ri * option vx :=
  ([RPut "setDate" (VLeafX RLiteral (PLit "DATE"));
     RPut "setIssuedBy" (VLeafX RLiteral (PLit "ISSUED-BY"));
     RPut "setRevisionLabel" (VLeafX RRevision (PLit "REVISION-LABEL"));
     RPut "setState" (VLeafX RLiteral (PLit "STATE"));
     RCall "readDocRevisionModifications" None],
   None).
(** arxml_parser.py:883-891 *)
Definition r_readAdminDataDocRevisions : list ri * option vx :=
  ([RFor (PLit "DOC-REVISIONS/*")
       [RIf (CTag "DOC-REVISION")
          [RPut "addDocRevision" (VNewX "DocRevision" false [RCall "readDocRevision" None])]
          [RFail NotImplementedError true]]],
   None).
(** arxml_parser.py:893-905 *)
Definition r_getAdminData : list ri * option vx :=
  ([],
   Some (VFindX PKey (VNewX "AdminData" false [RAttrs;
       RPut "setLanguage" (VLeafX RLiteral (PLit "LANGUAGE"));
       RPut "setUsedLanguages" (VGetX "getMultiLanguagePlainText" (Some (TLit "USED-LANGUAGES")));
       RCall "readAdminDataSdgs" None;
       RCall "readAdminDataDocRevisions" None]) VNoneX)).
(** arxml_parser.py:907-918 *)
Definition r_readReferrable : list ri * option vx :=
  ([RAttrs;
     RIf (CIsA "Referrable")
       [RFor (PLit "SHORT-NAME-FRAGMENTS/SHORT-NAME-FRAGMENT")
          [RPut "addShortNameFragment" (VNewX "ShortNameFragment" false [RAttrs;
               RFind (PLit "ROLE")
                 [RPut "setRole" VTextX]
                 [];
               RPut "setFragment" (VLeafX RIdentifier (PLit "FRAGMENT"))])]]
       []],
   None).
(** arxml_parser.py:920-922 *)
Definition r_readMultilanguageReferrable : list ri * option vx :=
  ([RCall "readReferrable" None;
     RPut "setLongName" (VGetX "getMultilanguageLongName" (Some (TLit "LONG-NAME")))],
   None).
(** arxml_parser.py:924-931 *)
Definition r_getCaption : list ri * option vx :=
  ([],
   Some (VFindX PKey (VNewX "Caption" true [RCall "readMultilanguageReferrable" None;
       RPut "setDesc" (VGetX "getMultiLanguageOverviewParagraph" (Some (TLit "DESC")))]) VNoneX)).
(** arxml_parser.py:933-948 *)
Definition r_readIdentifiable : list ri * option vx :=
  ([RCall "readMultilanguageReferrable" None;
     RForVal (VGetX "getAnnotations" None)
       [RPut "addAnnotation" VItemX];
     RPut "setCategory" (VLeafX RLiteral (PLit "CATEGORY"));
     RPut "setDesc" (VGetX "getMultiLanguageOverviewParagraph" (Some (TLit "DESC")));
     RPut "setIntroduction" (VGetX "getDocumentationBlock" (Some (TLit "INTRODUCTION")));
     RPut "setAdminData" (VGetX "getAdminData" (Some (TLit "ADMIN-DATA")));
     RIf (CIsA "Identifiable")
       [RFind (PLit "VARIATION-POINT")
          [RPut "setVariationPoint" (VNewX "VariationPoint" false [RCall "readVariationPoint" None])]
          []]
       []],
   None).
(** arxml_parser.py:950-951 *)
Definition r_readARElement : list ri * option vx :=
  ([RCall "readIdentifiable" None],
   None).
(** arxml_parser.py:953-972 *)
Definition r_readLLongName : list ri * option vx :=
  ([RFor (PLit "L-4")
       [RPut "addL4" (VNewX "LLongName" false [RAttrs;
            RPut "setValue" VTextX;
            RIf (CHasAttr "L")
              [RPut "setL" (VAttrX "L")]
              [];
            RIf (CHasAttr "SUP")
              [RPut "setSup" (VWrapX "Superscript" "setValue" (VAttrX "SUP"))]
              [];
            RIf (CHasAttr "SUB")
              [RPut "setSub" (VWrapX "Superscript" "setValue" (VAttrX "SUB"))]
              [];
            RFor (PLit "*")
              [RIf (CTag "E")
                 [RPut "setE" (VGetX "readEmphasisText" None)]
                 [RIf (CTag "IE")
                    [RPut "setIe" (VGetX "readIndexEntry" None)]
                    [RIf (CTag "TT")
                       [RPut "setTt" (VGetX "readTt" None)]
                       []]]]])]],
   None).
(** arxml_parser.py:974-988 *)
Definition r_readEmphasisText : list ri * option vx :=
  ([],
   Some (VNewX "EmphasisText" false [RIf (CHasText)
        [RPut "setValue" (VWrapX "String" "setValue" VTextX)]
        [];
      RIf (CHasAttr "COLOR")
        [RPut "setColor" (VWrapX "String" "setValue" (VAttrX "COLOR"))]
        [];
      RIf (CHasAttr "SUP")
        [RPut "setSup" (VWrapX "Superscript" "setValue" (VAttrX "SUP"))]
        [];
      RIf (CHasAttr "SUB")
        [RPut "setSub" (VWrapX "Superscript" "setValue" (VAttrX "SUB"))]
        [];
      RFor (PLit "*")
        [RIf (CTag "TT")
           [RPut "setTt" (VGetX "readTt" None)]
           []]])).
(** arxml_parser.py:990-998 *)
Definition r_readIndexEntry : list ri * option vx :=
  ([],
   Some (VNewX "IndexEntry" false [RIf (CHasText)
        [RPut "setValue" (VWrapX "String" "setValue" VTextX)]
        [];
      RIf (CHasAttr "SUP")
        [RPut "setSup" (VWrapX "Superscript" "setValue" (VAttrX "SUP"))]
        [];
      RIf (CHasAttr "SUB")
        [RPut "setSub" (VWrapX "Superscript" "setValue" (VAttrX "SUB"))]
        []])).
(** arxml_parser.py:1000-1008 *)
Definition r_readTt : list ri * option vx :=
  ([],
   Some (VNewX "Tt" false [RIf (CHasText)
        [RPut "setValue" (VWrapX "String" "setValue" VTextX)]
        [];
      RIf (CHasAttr "TYPE")
        [RPut "setType" (VWrapX "NameToken" "setValue" (VAttrX "TYPE"))]
        [];
      RIf (CHasAttr "TEX-RENDER")
        [RPut "setTexRender" (VWrapX "String" "setValue" (VAttrX "TEX-RENDER"))]
        []])).
(** arxml_parser.py:1010-1017 *)
Definition r_getMultilanguageLongName : list ri * option vx :=
  ([],
   Some (VFindX PKey (VNewX "MultilanguageLongName" false [RAttrs;
       RCall "readLLongName" None]) VNoneX)).
(** arxml_parser.py:1019-1026 *)
Definition r_readLOverviewParagraph : list ri * option vx :=
  ([RFor (PLit "L-2")
       [RPut "addL2" (VNewX "LOverviewParagraph" false [RAttrs;
            RPut "setValue" VTextX;
            RIf (CHasAttr "L")
              [RPut "setL" (VAttrX "L")]
              []])]],
   None).
(** arxml_parser.py:1028-1035 *)
Definition r_getMultiLanguageOverviewParagraph : list ri * option vx :=
  ([],
   Some (VFindX PKey (VNewX "MultiLanguageOverviewParagraph" false [RAttrs;
       RCall "readLOverviewParagraph" None]) VNoneX)).
(** arxml_parser.py:1037-1044 *)
Definition r_getVariableInAtomicSWCTypeInstanceRef : list ri * option vx :=
  ([],
   Some (VNewX "VariableInAtomicSWCTypeInstanceRef" false [RAttrs;
      RPut "setPortPrototypeRef" (VLeafX RRef (PLit "PORT-PROTOTYPE-REF"));
      RPut "setTargetDataPrototypeRef" (VLeafX RRef (PLit "TARGET-DATA-PROTOTYPE-REF"))])).
(** arxml_parser.py:1046-1054 *)
Definition r_getComponentInSystemInstanceRef : list ri * option vx :=
  ([],
   Some (VNewX "ComponentInSystemInstanceRef" false [RAttrs;
      RPut "setBaseRef" (VLeafX RRef (PLit "BASE-REF"));
      RPut "setContextCompositionRef" (VLeafX RRef (PLit "CONTEXT-COMPOSITION-REF"));
      RPut "setTargetComponentRef" (VLeafX RRef (PLit "TARGET-COMPONENT-REF"))])).
(** arxml_parser.py:1056-1064 *)
Definition r_getAutosarVariableRef : list ri * option vx :=
  ([],
   Some (VFindX PKey (VNewX "AutosarVariableRef" false [RAttrs;
       RPut "setAutosarVariableIRef" (VFindX (PLit "AUTOSAR-VARIABLE-IREF") (VGetX "getVariableInAtomicSWCTypeInstanceRef" None) VNoneX);
       RPut "setLocalVariableRef" (VLeafX RRef (PLit "LOCAL-VARIABLE-REF"))]) VNoneX)).
(** arxml_parser.py:1066-1072 *)
Definition r_getNvBlockDataMapping : list ri * option vx :=
  ([],
   Some (VFindX PKey (VNewX "NvBlockDataMapping" false [RCall "readNvBlockDataMapping" None]) VNoneX)).
(** arxml_parser.py:1074-1080 *)
Definition r_readNvBlockDataMapping : list ri * option vx :=
  ([RPut "setBitfieldTextTableMaskNvBlockDescriptor" (VLeafX RPositive (PLit "BITFIELD-TEXT-TABLE-MASK-NV-BLOCK-DESCRIPTOR"));
     RPut "setBitfieldTextTableMaskPortPrototype" (VLeafX RPositive (PLit "BITFIELD-TEXT-TABLE-MASK-PORT-PROTOTYPE"));
     RPut "setNvRamBlockElement" (VGetX "getAutosarVariableRef" (Some (TLit "NV-RAM-BLOCK-ELEMENT")));
     RPut "setReadNvData" (VGetX "getAutosarVariableRef" (Some (TLit "READ-NV-DATA")));
     RPut "setWrittenNvData" (VGetX "getAutosarVariableRef" (Some (TLit "WRITTEN-NV-DATA")));
     RPut "setWrittenReadNvData" (VGetX "getAutosarVariableRef" (Some (TLit "WRITTEN-READ-NV-DATA")))],
   None).
(** arxml_parser.py:1082-1093 *)
Definition r_readBulkNvDataDescriptor : list ri * option vx :=
  ([RCall "readIdentifiable" None;
     RFind (PLit "BULK-NV-BLOCK")
       [RFind (PLit "VARIABLE-DATA-PROTOTYPE")
          [RPut "setBulkNvBlock" (VNewX "VariableDataPrototype" true [RCall "readVariableDataPrototype" None])]
          [RFail AttributeError false]]
       [];
     RFor (PLit "NV-BLOCK-DATA-MAPPINGS/NV-BLOCK-DATA-MAPPING")
       [RPut "addNvBlockDataMapping" (VNewX "NvBlockDataMapping" false [RCall "readNvBlockDataMapping" None])]],
   None).
(** arxml_parser.py:1095-1146 *)
Definition r_readNvBlockDescriptor : list ri * option vx :=
  ([RCall "readIdentifiable" None;
     RFor (PLit "CLIENT-SERVER-PORTS/*")
       [RIf (CTag "ROLE-BASED-PORT-ASSIGNMENT")
          [RPut "addClientServerPort" (VGetX "getRoleBasedPortAssignment" None)]
          [RFail NotImplementedError true]];
     RForVal (VLeafsX RRef (PLit "CONSTANT-VALUE-MAPPING-REFS/CONSTANT-VALUE-MAPPING-REF"))
       [RPut "addConstantValueMappingRef" VItemX];
     RForVal (VLeafsX RRef (PLit "DATA-TYPE-MAPPING-REFS/DATA-TYPE-MAPPING-REF"))
       [RPut "addDataTypeMappingRef" VItemX];
     RFor (PLit "INSTANTIATION-DATA-DEF-PROPSS/INSTANTIATION-DATA-DEF-PROPS")
       [RPut "addInstantiationDataDefProps" (VNewX "InstantiationDataDefProps" false [RAttrs;
            RPut "setParameterInstance" (VGetX "getAutosarParameterRef" (Some (TLit "PARAMETER-INSTANCE")));
            RPut "setSwDataDefProps" (VGetX "getSwDataDefProps" (Some (TLit "SW-DATA-DEF-PROPS")));
            RPut "setVariableInstance" (VGetX "getAutosarVariableRef" (Some (TLit "VARIABLE-INSTANCE")))])];
     RFor (PLit "MODE-SWITCH-EVENT-TRIGGERED-ACTIVITYS/*")
       [RIf (CTag "MODE-SWITCH-EVENT-TRIGGERED-ACTIVITY")
          [RPut "addModeSwitchEventTriggeredActivity" (VGetX "getModeSwitchEventTriggeredActivity" None)]
          [RFail NotImplementedError true]];
     RFor (PLit "NV-BLOCK-DATA-MAPPINGS/NV-BLOCK-DATA-MAPPING")
       [RPut "addNvBlockDataMapping" (VNewX "NvBlockDataMapping" false [RCall "readNvBlockDataMapping" None])];
     RFind (PLit "NV-BLOCK-NEEDS")
       [RPut "setNvBlockNeeds" (VNewX "NvBlockNeeds" true [RCall "readNvBlockNeeds" None])]
       [];
     RFind (PLit "RAM-BLOCK")
       [RPut "setRamBlock" (VNewX "VariableDataPrototype" true [RCall "readVariableDataPrototype" None])]
       [];
     RFind (PLit "ROM-BLOCK")
       [RPut "setRomBlock" (VNewX "ParameterDataPrototype" true [RCall "readParameterDataPrototype" None])]
       [];
     RPut "setSupportDirtyFlag" (VLeafX RBool (PLit "SUPPORT-DIRTY-FLAG"));
     RPut "setTimingEventRef" (VLeafX RRef (PLit "TIMING-EVENT-REF"));
     RFor (PLit "WRITING-STRATEGYS/*")
       [RIf (CTag "ROLE-BASED-DATA-ASSIGNMENT")
          [RPut "addWritingStrategy" (VGetX "getRoleBasedDataAssignment" None)]
          [RFail NotImplementedError true]]],
   None).
(** arxml_parser.py:1148-1181 *)
Definition r__readVariableAccesses : list ri * option vx :=
  ([RFor (PKeyThen "/VARIABLE-ACCESS")
       [RIf (CKeyIs "DATA-RECEIVE-POINT-BY-ARGUMENTS")
          [RCreate "createDataReceivePointByArgument" true
             [RPut "setAccessedVariableRef" (VGetX "getAutosarVariableRef" (Some (TLit "ACCESSED-VARIABLE")));
              RCall "readIdentifiable" None]]
          [RIf (CKeyIs "DATA-RECEIVE-POINT-BY-VALUES")
             [RCreate "createDataReceivePointByValue" true
                [RPut "setAccessedVariableRef" (VGetX "getAutosarVariableRef" (Some (TLit "ACCESSED-VARIABLE")));
                 RCall "readIdentifiable" None]]
             [RIf (CKeyIs "DATA-READ-ACCESSS")
                [RCreate "createDataReadAccess" true
                   [RPut "setAccessedVariableRef" (VGetX "getAutosarVariableRef" (Some (TLit "ACCESSED-VARIABLE")));
                    RCall "readIdentifiable" None]]
                [RIf (CKeyIs "DATA-WRITE-ACCESSS")
                   [RCreate "createDataWriteAccess" true
                      [RPut "setAccessedVariableRef" (VGetX "getAutosarVariableRef" (Some (TLit "ACCESSED-VARIABLE")));
                       RCall "readIdentifiable" None]]
                   [RIf (CKeyIs "DATA-SEND-POINTS")
                      [RCreate "createDataSendPoint" true
                         [RPut "setAccessedVariableRef" (VGetX "getAutosarVariableRef" (Some (TLit "ACCESSED-VARIABLE")));
                          RCall "readIdentifiable" None]]
                      [RIf (CKeyIs "WRITTEN-LOCAL-VARIABLES")
                         [RCreate "createWrittenLocalVariable" true
                            [RPut "setAccessedVariableRef" (VGetX "getAutosarVariableRef" (Some (TLit "ACCESSED-VARIABLE")));
                             RCall "readIdentifiable" None]]
                         [RIf (CKeyIs "READ-LOCAL-VARIABLES")
                            [RCreate "createReadLocalVariable" true
                               [RPut "setAccessedVariableRef" (VGetX "getAutosarVariableRef" (Some (TLit "ACCESSED-VARIABLE")));
                                RCall "readIdentifiable" None]]
                            [RFail NotImplementedError true]]]]]]]]],
   None).
(** arxml_parser.py:1183-1187 *)
Definition r_readBswModuleDescriptionImplementedEntryRefs : list ri * option vx :=
  ([RFor (PLit "PROVIDED-ENTRYS/BSW-MODULE-ENTRY-REF-CONDITIONAL")
       [RIf (CGot (VLeafX RRef (PLit "BSW-MODULE-ENTRY-REF")))
          [RPut "addImplementedEntryRef" (VLeafX RRef (PLit "BSW-MODULE-ENTRY-REF"))]
          []]],
   None).
(** arxml_parser.py:1190-1195 *)
Definition r_readModeDeclarationGroupPrototype : list ri * option vx :=
  ([RCall "readIdentifiable" None;
     RPut "setTypeTRef" (VLeafX RRef (PLit "TYPE-TREF"));
     RIf (CGot (VLeafX RLiteral (PLit "SW-CALIBRATION-ACCESS")))
       [RPut "setSwCalibrationAccess" (VWrapX "SwCalibrationAccessEnum" "setValue" (VValueX (VLeafX RLiteral (PLit "SW-CALIBRATION-ACCESS"))))]
       []],
   None).
(** arxml_parser.py:1197-1204 *)
Definition r_readBswModuleDescriptionProvidedModeGroups : list ri * option vx :=
  ([RFor (PLit "PROVIDED-MODE-GROUPS/*")
       [RIf (CTag "MODE-DECLARATION-GROUP-PROTOTYPE")
          [RCreate "createProvidedModeGroup" true
             [RCall "readModeDeclarationGroupPrototype" None]]
          [RFail NotImplementedError true]]],
   None).
(** arxml_parser.py:1206-1213 *)
Definition r_readBswModuleDescriptionRequiredModeGroups : list ri * option vx :=
  ([RFor (PLit "REQUIRED-MODE-GROUPS/*")
       [RIf (CTag "MODE-DECLARATION-GROUP-PROTOTYPE")
          [RCreate "createRequiredModeGroup" true
             [RCall "readModeDeclarationGroupPrototype" None]]
          [RFail NotImplementedError true]]],
   None).
(** arxml_parser.py:1215-1218 *)
Definition r_readActivationReasons : list ri * option vx :=
  ([RFor (PLit "ACTIVATION-REASONS/EXECUTABLE-ENTITY-ACTIVATION-REASON")
       [RCreate "createActivationReason" true
          [RCall "readExecutableEntityActivationReason" None]]],
   None).
(** arxml_parser.py:1220-1222 *)
Definition r_readExecutableEntityActivationReason : list ri * option vx :=
  ([RCall "readImplementationProps" None;
     RPut "setBitPosition" (VLeafX RPositive (PLit "BIT-POSITION"))],
   None).
(** arxml_parser.py:1224-1226 *)
Definition r_readCanEnterRefs : list ri * option vx :=
  ([RForVal (VLeafsX RRef (PLit "CAN-ENTER-EXCLUSIVE-AREA-REFS/CAN-ENTER-EXCLUSIVE-AREA-REF"))
       [RPut "addCanEnterRef" VItemX]],
   None).
(** arxml_parser.py:1228-1230 *)
Definition r_readExclusiveAreaNestingOrderRefs : list ri * option vx :=
  ([RForVal (VLeafsX RRef (PLit "EXCLUSIVE-AREA-NESTING-ORDER-REFS/EXCLUSIVE-AREA-NESTING-ORDER-REF"))
       [RPut "addExclusiveAreaNestingOrderRef" VItemX]],
   None).
(** arxml_parser.py:1232-1234 *)
Definition r_readRunsInsideRefs : list ri * option vx :=
  ([RForVal (VLeafsX RRef (PLit "RUNS-INSIDE-EXCLUSIVE-AREA-REFS/RUNS-INSIDE-EXCLUSIVE-AREA-REF"))
       [RPut "addRunsInsideRef" VItemX]],
   None).
(** arxml_parser.py:1236-1245 *)
Definition r_readExecutableEntity : list ri * option vx :=
  ([RCall "readIdentifiable" None;
     RCall "readActivationReasons" None;
     RCall "readCanEnterRefs" None;
     RCall "readExclusiveAreaNestingOrderRefs" None;
     RPut "setMinimumStartInterval" (VLeafX RTime (PLit "MINIMUM-START-INTERVAL"));
     RPut "setReentrancyLevel" (VLeafX RLiteral (PLit "REENTRANCY-LEVEL"));
     RCall "readRunsInsideRefs" None;
     RPut "setSwAddrMethodRef" (VLeafX RRef (PLit "SW-ADDR-METHOD-REF"))],
   None).
(** arxml_parser.py:1247-1251 *)
Definition r_readBswModuleEntityManagedModeGroups : list ri * option vx :=
  ([RFor (PLit "MANAGED-MODE-GROUPS/MODE-DECLARATION-GROUP-PROTOTYPE-REF-CONDITIONAL")
       [RIf (CGot (VLeafX RRef (PLit "MODE-DECLARATION-GROUP-PROTOTYPE-REF")))
          [RPut "addManagedModeGroupRef" (VLeafX RRef (PLit "MODE-DECLARATION-GROUP-PROTOTYPE-REF"))]
          []]],
   None).
(** arxml_parser.py:1253-1257 *)
Definition r_readBswModuleEntityAccessedModeGroups : list ri * option vx :=
  ([RFor (PLit "ACCESSED-MODE-GROUPS/MODE-DECLARATION-GROUP-PROTOTYPE-REF-CONDITIONAL")
       [RIf (CGot (VLeafX RRef (PLit "MODE-DECLARATION-GROUP-PROTOTYPE-REF")))
          [RPut "addAccessedModeGroupRef" (VLeafX RRef (PLit "MODE-DECLARATION-GROUP-PROTOTYPE-REF"))]
          []]],
   None).
(** arxml_parser.py:1259-1265 *)
Definition r_readBswEvent : list ri * option vx :=
  ([RSet "activationReasonRepresentationRef" (VLeafX RRef (PLit "ACTIVATION-REASON-REPRESENTATION-REF"));
     RForVal (VLeafsX RRef (PLit "CONTEXT-LIMITATION-REFS/CONTEXT-LIMITATION-REF"))
       [RPut "addContextLimitationRef" VItemX];
     RFor (PLit "DISABLED-IN-MODE-IREFS/DISABLED-IN-MODE-IREF")
       [RPut "addDisabledInModeIRef" (VGetX "getModeInBswModuleDescriptionInstanceRef" None)];
     RPut "setStartsOnEventRef" (VLeafX RRef (PLit "STARTS-ON-EVENT-REF"))],
   None).
(** arxml_parser.py:1267-1268 *)
Definition r_readBswScheduleEvent : list ri * option vx :=
  ([RCall "readBswEvent" None],
   None).
(** arxml_parser.py:1270-1276 *)
Definition r_readBswModeSwitchEvent : list ri * option vx :=
  ([RCall "readBswScheduleEvent" None;
     RPut "setActivation" (VLeafX RLiteral (PLit "ACTIVATION"));
     RFor (PLit "MODE-IREFS/MODE-IREF")
       [RPut "addModeIRef" (VGetX "getModeInBswModuleDescriptionInstanceRef" None)]],
   None).
(** arxml_parser.py:1278-1282 *)
Definition r_readBswModeManagerErrorEvent : list ri * option vx :=
  ([RCall "readBswScheduleEvent" None;
     RPut "setModeGroupRef" (VLeafX RRef (PLit "MODE-GROUP-REF"))],
   None).
(** arxml_parser.py:1284-1286 *)
Definition r_readBswModeSwitchedAckEvent : list ri * option vx :=
  ([RCall "readBswScheduleEvent" None;
     RPut "setModeGroupRef" (VLeafX RRef (PLit "MODE-GROUP-REF"))],
   None).
(** arxml_parser.py:1288-1290 *)
Definition r_readBswAsynchronousServerCallReturnsEvent : list ri * option vx :=
  ([RCall "readBswScheduleEvent" None;
     RPut "setEventSourceRef" (VLeafX RRef (PLit "EVENT-SOURCE-REF"))],
   None).
(** arxml_parser.py:1292-1300 *)
Definition r_readBswTimingEvent : list ri * option vx :=
  ([RCall "readBswScheduleEvent" None;
     RPut "setPeriod" (VLeafX RTime (PLit "PERIOD"))],
   None).
(** arxml_parser.py:1302-1306 *)
Definition r_readBswDataReceivedEvent : list ri * option vx :=
  ([RCall "readBswScheduleEvent" None;
     RPut "setDataRef" (VLeafX RRef (PLit "DATA-REF"))],
   None).
(** arxml_parser.py:1308-1312 *)
Definition r_readBswInternalTriggerOccurredEvent : list ri * option vx :=
  ([RCall "readBswScheduleEvent" None;
     RPut "setEventSourceRef" (VLeafX RRef (PLit "EVENT-SOURCE-REF"))],
   None).
(** arxml_parser.py:1314-1320 *)
Definition r_getBswModeSenderPolicy : list ri * option vx :=
  ([],
   Some (VNewX "BswModeSenderPolicy" false [RPut "setAckRequest" (VGetX "getBswModeSwitchAckRequest" (Some (TLit "ACK-REQUEST")));
      RPut "setEnhancedModeApi" (VLeafX RBool (PLit "ENHANCED-MODE-API"));
      RPut "setProvidedModeGroupRef" (VLeafX RRef (PLit "PROVIDED-MODE-GROUP-REF"));
      RPut "setQueueLength" (VLeafX RPositive (PLit "QUEUE-LENGTH"))])).
(** arxml_parser.py:1322-1328 *)
Definition r_getBswModeSwitchAckRequest : list ri * option vx :=
  ([],
   Some (VFindX PKey (VNewX "BswModeSwitchAckRequest" false [RPut "setTimeout" (VLeafX RTime (PLit "TIMEOUT"))]) VNoneX)).
(** arxml_parser.py:1330-1336 *)
Definition r_readBswInternalBehaviorModeSenderPolicy : list ri * option vx :=
  ([RFor (PLit "MODE-SENDER-POLICYS/*")
       [RIf (CTag "BSW-MODE-SENDER-POLICY")
          [RPut "addModeSenderPolicy" (VGetX "getBswModeSenderPolicy" None)]
          [RFail ValueError true]]],
   None).
(** arxml_parser.py:1338-1342 *)
Definition r_readDataTypeMappingRefs : list ri * option vx :=
  ([RFind (PLit "DATA-TYPE-MAPPING-REFS")
       [RForVal (VLeafsX RRef (PLit "DATA-TYPE-MAPPING-REF"))
          [RPut "addDataTypeMappingRef" VItemX]]
       []],
   None).
(** arxml_parser.py:1344-1351 *)
Definition r_readInternalBehaviorConstantMemories : list ri * option vx :=
  ([RFor (PLit "CONSTANT-MEMORYS/*")
       [RIf (CTag "PARAMETER-DATA-PROTOTYPE")
          [RCreate "createConstantMemory" true
             [RCall "readParameterDataPrototype" None]]
          [RFail NotImplementedError true]]],
   None).
(** arxml_parser.py:1353-1360 *)
Definition r_readInternalBehaviorStaticMemories : list ri * option vx :=
  ([RFor (PLit "STATIC-MEMORYS/*")
       [RIf (CTag "VARIABLE-DATA-PROTOTYPE")
          [RCreate "createStaticMemory" true
             [RCall "readVariableDataPrototype" None]]
          [RFail NotImplementedError true]]],
   None).
(** arxml_parser.py:1362-1370 *)
Definition r_readInternalBehavior : list ri * option vx :=
  ([RCall "readIdentifiable" None;
     RCall "readInternalBehaviorConstantMemories" None;
     RFor (PLit "EXCLUSIVE-AREAS/EXCLUSIVE-AREA")
       [RCreate "createExclusiveArea" true
          []];
     RCall "readExclusiveAreaNestingOrders" None;
     RCall "readDataTypeMappingRefs" None;
     RCall "readInternalBehaviorStaticMemories" None],
   None).
(** arxml_parser.py:1372-1377 *)
Definition r_readExclusiveAreaNestingOrders : list ri * option vx :=
  ([RFor (PLit "EXCLUSIVE-AREA-NESTING-ORDERS/EXCLUSIVE-AREA-NESTING-ORDER")
       [RCreate "createExclusiveAreaNestingOrder" true
          [RForVal (VLeafsX RRef (PLit "EXCLUSIVE-AREA-REFS/EXCLUSIVE-AREA-REF"))
             [RPut "addExclusiveAreaRef" VItemX]]]],
   None).
(** arxml_parser.py:1379-1385 *)
Definition r_getRoleBasedDataAssignment : list ri * option vx :=
  ([],
   Some (VNewX "RoleBasedDataAssignment" false [RPut "setRole" (VLeafX RLiteral (PLit "ROLE"));
      RPut "setUsedDataElement" (VGetX "getAutosarVariableRef" (Some (TLit "USED-DATA-ELEMENT")));
      RPut "setUsedParameterElement" (VGetX "getAutosarParameterRef" (Some (TLit "USED-PARAMETER-ELEMENT")));
      RPut "setUsedPimRef" (VLeafX RRef (PLit "USED-PIM-REF"))])).
(** arxml_parser.py:1387-1391 *)
Definition r_getModeSwitchEventTriggeredActivity : list ri * option vx :=
  ([],
   Some (VNewX "ModeSwitchEventTriggeredActivity" false [RPut "setRole" (VLeafX RLiteral (PLit "ROLE"));
      RPut "setSwcModeSwitchEventRef" (VLeafX RRef (PLit "SWC-MODE-SWITCH-EVENT-REF"))])).
(** arxml_parser.py:1393-1398 *)
Definition r_getRoleBasedPortAssignment : list ri * option vx :=
  ([],
   Some (VNewX "RoleBasedPortAssignment" false [RAttrs;
      RSet "portPrototypeRef" (VLeafX RRef (PLit "PORT-PROTOTYPE-REF"));
      RSet "role" (VLeafX RLiteral (PLit "ROLE"))])).
(** arxml_parser.py:1400-1404 *)
Definition r_getRoleBasedDataTypeAssignment : list ri * option vx :=
  ([],
   Some (VNewX "RoleBasedDataTypeAssignment" false [RPut "setRole" (VLeafX RLiteral (PLit "ROLE"));
      RPut "setUsedImplementationDataTypeRef" (VLeafX RRef (PLit "USED-IMPLEMENTATION-DATA-TYPE-REF"))])).
(** arxml_parser.py:1406-1414 *)
Definition r_readServiceDependency : list ri * option vx :=
  ([RCall "readIdentifiable" None;
     RFor (PLit "ASSIGNED-DATA-TYPES/*")
       [RIf (CTag "ROLE-BASED-DATA-TYPE-ASSIGNMENT")
          [RPut "addAssignedDataType" (VGetX "getRoleBasedDataTypeAssignment" None)]
          [RFail NotImplementedError true]];
     RCall "readSymbolicNameProps" None],
   None).
(** arxml_parser.py:1416-1420 *)
Definition r_getBswServiceDependencyIdent : list ri * option vx :=
  ([],
   Some (VFindX (PLit "IDENT") (VNewX "BswServiceDependencyIdent" true []) VNoneX)).
(** arxml_parser.py:1422-1428 *)
Definition r_readSymbolicNameProps : list ri * option vx :=
  ([RFind (PLit "SYMBOLIC-NAME-PROPS")
       [RPut "setSymbolicNameProps" (VNewX "SymbolicNameProps" true [RCall "readImplementationProps" None])]
       []],
   Some (VFindX (PLit "SYMBOLIC-NAME-PROPS") VNoneX VNoneX)).
(** arxml_parser.py:1430-1434 *)
Definition r_getRoleBasedBswModuleEntryAssignment : list ri * option vx :=
  ([],
   Some (VNewX "RoleBasedBswModuleEntryAssignment" false [RPut "setAssignedEntryRef" (VLeafX RRef (PLit "ASSIGNED-ENTRY-REF"));
      RPut "setRole" (VLeafX RLiteral (PLit "ROLE"))])).
(** arxml_parser.py:1436-1442 *)
Definition r_readBswServiceDependencyAssignedData : list ri * option vx :=
  ([RFor (PLit "ASSIGNED-DATAS/*")
       [RIf (CTag "ROLE-BASED-DATA-ASSIGNMENT")
          [RPut "addAssignedData" (VGetX "getRoleBasedDataAssignment" None)]
          [RFail NotImplementedError true]]],
   None).
(** arxml_parser.py:1444-1450 *)
Definition r_readBswServiceDependencyAssignedEntryRoles : list ri * option vx :=
  ([RFor (PLit "ASSIGNED-ENTRY-ROLES/*")
       [RIf (CTag "ROLE-BASED-BSW-MODULE-ENTRY-ASSIGNMENT")
          [RPut "addAssignedEntryRole" (VGetX "getRoleBasedBswModuleEntryAssignment" None)]
          [RFail NotImplementedError true]]],
   None).
(** arxml_parser.py:1452-1581 *)
Definition r_readBswServiceDependencyServiceNeeds : list ri * option vx :=
  ([RFind (PLit "SERVICE-NEEDS")
       [RFor (PLit "*")
          [RIf (CTag "BSW-MGR-NEEDS")
             [RPut "setServiceNeeds" (VNewX "BswMgrNeeds" true [RCall "readBswMgrNeeds" None])]
             [RIf (CTag "NV-BLOCK-NEEDS")
                [RPut "setServiceNeeds" (VNewX "NvBlockNeeds" true [RCall "readNvBlockNeeds" None])]
                [RIf (CTag "DIAGNOSTIC-COMMUNICATION-MANAGER-NEEDS")
                   [RPut "setServiceNeeds" (VNewX "DiagnosticCommunicationManagerNeeds" true [RCall "readDiagnosticCommunicationManagerNeeds" None])]
                   [RIf (CTag "DIAGNOSTIC-ROUTINE-NEEDS")
                      [RPut "setServiceNeeds" (VNewX "DiagnosticRoutineNeeds" true [RCall "readDiagnosticRoutineNeeds" None])]
                      [RIf (CTag "DIAGNOSTIC-VALUE-NEEDS")
                         [RPut "setServiceNeeds" (VNewX "DiagnosticValueNeeds" true [RCall "readDiagnosticValueNeeds" None])]
                         [RIf (CTag "DIAGNOSTIC-EVENT-NEEDS")
                            [RPut "setServiceNeeds" (VNewX "DiagnosticEventNeeds" true [RCall "readDiagnosticEventNeeds" None])]
                            [RIf (CTag "DIAGNOSTIC-EVENT-INFO-NEEDS")
                               [RPut "setServiceNeeds" (VNewX "DiagnosticEventInfoNeeds" true [RCall "readDiagnosticEventInfoNeeds" None])]
                               [RIf (CTag "DIAGNOSTIC-IO-CONTROL-NEEDS")
                                  [RPut "setServiceNeeds" (VNewX "DiagnosticIoControlNeeds" true [RCall "readDiagnosticIoControlNeeds" None])]
                                  [RIf (CTag "DIAGNOSTIC-ENABLE-CONDITION-NEEDS")
                                     [RPut "setServiceNeeds" (VNewX "DiagnosticEnableConditionNeeds" true [RCall "readDiagnosticEnableConditionNeeds" None])]
                                     [RIf (CTag "DIAGNOSTIC-OPERATION-CYCLE-NEEDS")
                                        [RPut "setServiceNeeds" (VNewX "DiagnosticOperationCycleNeeds" true [RCall "readDiagnosticOperationCycleNeeds" None])]
                                        [RIf (CTag "DIAGNOSTIC-STORAGE-CONDITION-NEEDS")
                                           [RPut "setServiceNeeds" (VNewX "DiagnosticStorageConditionNeeds" true [RCall "readDiagnosticStorageConditionNeeds" None])]
                                           [RIf (CTag "INDICATOR-STATUS-NEEDS")
                                              [RPut "setServiceNeeds" (VNewX "IndicatorStatusNeeds" true [RCall "readIndicatorStatusNeeds" None])]
                                              [RIf (CTag "FUNCTION-INHIBITION-AVAILABILITY-NEEDS")
                                                 [RPut "setServiceNeeds" (VNewX "FunctionInhibitionAvailabilityNeeds" true [RCall "readFunctionInhibitionAvailabilityNeeds" None])]
                                                 [RIf (CTag "CRYPTO-SERVICE-NEEDS")
                                                    [RPut "setServiceNeeds" (VNewX "CryptoServiceNeeds" true [RCall "readCryptoServiceNeeds" None])]
                                                    [RIf (CTag "ECU-STATE-MGR-USER-NEEDS")
                                                       [RPut "setServiceNeeds" (VNewX "EcuStateMgrUserNeeds" true [RCall "readEcuStateMgrUserNeeds" None])]
                                                       [RIf (CTag "DTC-STATUS-CHANGE-NOTIFICATION-NEEDS")
                                                          [RPut "setServiceNeeds" (VNewX "DtcStatusChangeNotificationNeeds" true [RCall "readDtcStatusChangeNotificationNeeds" None])]
                                                          [RIf (CTag "DLT-USER-NEEDS")
                                                             [RPut "setServiceNeeds" (VNewX "DltUserNeeds" true [RCall "readDltUserNeeds" None])]
                                                             [RIf (CTag "COM-MGR-USER-NEEDS")
                                                                [RPut "setServiceNeeds" (VNewX "ComMgrUserNeeds" true [RCall "readComMgrUserNeeds" None])]
                                                                [RIf (CTag "SUPERVISED-ENTITY-NEEDS")
                                                                   [RPut "setServiceNeeds" (VNewX "SupervisedEntityNeeds" true [RCall "readSupervisedEntityNeeds" None])]
                                                                   [RIf (CTag "ERROR-TRACER-NEEDS")
                                                                      [RPut "setServiceNeeds" (VNewX "ErrorTracerNeeds" true [RCall "readErrorTracerNeeds" None])]
                                                                      [RIf (CTag "OBD-INFO-SERVICE-NEEDS")
                                                                         [RPut "setServiceNeeds" (VNewX "ObdInfoServiceNeeds" true [RCall "readObdInfoServiceNeeds" None])]
                                                                         [RIf (CTag "OBD-MONITOR-SERVICE-NEEDS")
                                                                            [RPut "setServiceNeeds" (VNewX "ObdMonitorServiceNeeds" true [RCall "readObdMonitorServiceNeeds" None])]
                                                                            [RIf (CTag "OBD-PID-SERVICE-NEEDS")
                                                                               [RPut "setServiceNeeds" (VNewX "ObdPidServiceNeeds" true [RCall "readObdPidServiceNeeds" None])]
                                                                               [RIf (CTag "OBD-CONTROL-SERVICE-NEEDS")
                                                                                  [RPut "setServiceNeeds" (VNewX "ObdControlServiceNeeds" true [RCall "readObdControlServiceNeeds" None])]
                                                                                  [RIf (CTag "OBD-RATIO-SERVICE-NEEDS")
                                                                                     [RPut "setServiceNeeds" (VNewX "ObdRatioServiceNeeds" true [RCall "readObdRatioServiceNeeds" None])]
                                                                                     [RIf (CTag "OBD-RATIO-DENOMINATOR-NEEDS")
                                                                                        [RPut "setServiceNeeds" (VNewX "ObdRatioDenominatorNeeds" true [RCall "readObdRatioDenominatorNeeds" None])]
                                                                                        [RIf (CTag "DO-IP-ROUTING-ACTIVATION-AUTHENTICATION-NEEDS")
                                                                                           [RPut "setServiceNeeds" (VNewX "DoIpRoutingActivationAuthenticationNeeds" true [RCall "readDoIpRoutingActivationAuthenticationNeeds" None])]
                                                                                           [RIf (CTag "DO-IP-ROUTING-ACTIVATION-CONFIRMATION-NEEDS")
                                                                                              [RPut "setServiceNeeds" (VNewX "DoIpRoutingActivationConfirmationNeeds" true [RCall "readDoIpRoutingActivationConfirmationNeeds" None])]
                                                                                              [RIf (CTag "SECURE-ON-BOARD-COMMUNICATION-NEEDS")
                                                                                                 [RPut "setServiceNeeds" (VNewX "SecureOnBoardCommunicationNeeds" true [RCall "readSecureOnBoardCommunicationNeeds" None])]
                                                                                                 [RIf (CTag "IDS-MGR-NEEDS")
                                                                                                    [RPut "setServiceNeeds" (VNewX "IdsMgrNeeds" true [RCall "readIdsMgrNeeds" None])]
                                                                                                    [RFail NotImplementedError true]]]]]]]]]]]]]]]]]]]]]]]]]]]]]]]]
       []],
   Some (VFindX (PLit "SERVICE-NEEDS") VNoneX VNoneX)).
(** arxml_parser.py:1583-1595 *)
Definition r_readBswServiceDependency : list ri * option vx :=
  ([RAttrs;
     RPut "setIdent" (VGetX "getBswServiceDependencyIdent" None);
     RFor (PLit "ASSIGNED-DATA-TYPES/*")
       [RIf (CTag "ROLE-BASED-DATA-TYPE-ASSIGNMENT")
          [RPut "addAssignedDataType" (VGetX "getRoleBasedDataTypeAssignment" None)]
          [RFail NotImplementedError true]];
     RCall "readBswServiceDependencyAssignedData" None;
     RCall "readBswServiceDependencyAssignedEntryRoles" None;
     RCall "readBswServiceDependencyServiceNeeds" None;
     RCall "readSymbolicNameProps" None],
   None).
(** arxml_parser.py:1597-1603 *)
Definition r_readSwcServiceDependencyAssignedData : list ri * option vx :=
  ([RFor (PLit "ASSIGNED-DATAS/*")
       [RIf (CTag "ROLE-BASED-DATA-ASSIGNMENT")
          [RPut "AddAssignedData" (VGetX "getRoleBasedDataAssignment" None)]
          [RFail ValueError true]]],
   None).
(** arxml_parser.py:1605-1611 *)
Definition r_readSwcServiceDependencyAssignedPorts : list ri * option vx :=
  ([RFor (PLit "ASSIGNED-PORTS/*")
       [RIf (CTag "ROLE-BASED-PORT-ASSIGNMENT")
          [RPut "AddAssignedPort" (VGetX "getRoleBasedPortAssignment" None)]
          [RFail ValueError true]]],
   None).
(** arxml_parser.py:1613-1614 *)
Definition r_readServiceNeeds : list ri * option vx :=
  ([RCall "readIdentifiable" None],
   None).
(** arxml_parser.py:1616-1617 *)
Definition r_readBswMgrNeeds : list ri * option vx :=
  ([RCall "readServiceNeeds" None],
   None).
(** arxml_parser.py:1619-1640 *)
Definition r_readNvBlockNeeds : list ri * option vx :=
  ([RCall "readServiceNeeds" None;
     RPut "setCalcRamBlockCrc" (VLeafX RBool (PLit "CALC-RAM-BLOCK-CRC"));
     RPut "setCheckStaticBlockId" (VLeafX RBool (PLit "CHECK-STATIC-BLOCK-ID"));
     RPut "setNDataSets" (VLeafX RNumerical (PLit "N-DATA-SETS"));
     RPut "setNRomBlocks" (VLeafX RNumerical (PLit "N-ROM-BLOCKS"));
     RPut "setRamBlockStatusControl" (VLeafX RLiteral (PLit "RAM-BLOCK-STATUS-CONTROL"));
     RPut "setReadonly" (VLeafX RBool (PLit "READONLY"));
     RPut "setReliability" (VLeafX RLiteral (PLit "RELIABILITY"));
     RPut "setResistantToChangedSw" (VLeafX RBool (PLit "RESISTANT-TO-CHANGED-SW"));
     RPut "setRestoreAtStart" (VLeafX RBool (PLit "RESTORE-AT-START"));
     RPut "setStoreAtShutdown" (VLeafX RBool (PLit "STORE-AT-SHUTDOWN"));
     RPut "setStoreCyclic" (VLeafX RBool (PLit "STORE-CYCLIC"));
     RPut "setStoreEmergency" (VLeafX RBool (PLit "STORE-EMERGENCY"));
     RPut "setStoreImmediate" (VLeafX RBool (PLit "STORE-IMMEDIATE"));
     RPut "setUseAutoValidationAtShutDown" (VLeafX RBool (PLit "USE-AUTO-VALIDATION-AT-SHUT-DOWN"));
     RPut "setUseCRCCompMechanism" (VLeafX RBool (PLit "USE-CRC-COMP-MECHANISM"));
     RPut "setWriteOnlyOnce" (VLeafX RBool (PLit "WRITE-ONLY-ONCE"));
     RPut "setWriteVerification" (VLeafX RBool (PLit "WRITE-VERIFICATION"));
     RPut "setWritingFrequency" (VLeafX RPositive (PLit "WRITING-FREQUENCY"));
     RPut "setWritingPriority" (VLeafX RLiteral (PLit "WRITING-PRIORITY"))],
   None).
(** arxml_parser.py:1642-1643 *)
Definition r_readDiagnosticCapabilityElement : list ri * option vx :=
  ([RCall "readServiceNeeds" None],
   None).
(** arxml_parser.py:1645-1646 *)
Definition r_readObdInfoServiceNeeds : list ri * option vx :=
  ([RCall "readDiagnosticCapabilityElement" None],
   None).
(** arxml_parser.py:1648-1653 *)
Definition r_readObdMonitorServiceNeeds : list ri * option vx :=
  ([RCall "readDiagnosticCapabilityElement" None;
     RPut "setApplicationDataTypeRef" (VLeafX RRef (PLit "APPLICATION-DATA-TYPE-REF"));
     RPut "setEventNeedsRef" (VLeafX RRef (PLit "EVENT-NEEDS-REF"));
     RPut "setUnitAndScalingId" (VLeafX RPositive (PLit "UNIT-AND-SCALING-ID"));
     RPut "setUpdateKind" (VLeafX RLiteral (PLit "UPDATE-KIND"))],
   None).
(** arxml_parser.py:1655-1656 *)
Definition r_readObdPidServiceNeeds : list ri * option vx :=
  ([RCall "readDiagnosticCapabilityElement" None],
   None).
(** arxml_parser.py:1658-1659 *)
Definition r_readObdControlServiceNeeds : list ri * option vx :=
  ([RCall "readDiagnosticCapabilityElement" None],
   None).
(** arxml_parser.py:1661-1665 *)
Definition r_readObdRatioServiceNeeds : list ri * option vx :=
  ([RCall "readDiagnosticCapabilityElement" None;
     RPut "setConnectionType" (VLeafX RLiteral (PLit "CONNECTION-TYPE"));
     RPut "setRateBasedMonitoredEventRef" (VLeafX RRef (PLit "RATE-BASED-MONITORED-EVENT-REF"));
     RPut "setUsedFidRef" (VLeafX RRef (PLit "USED-FID-REF"))],
   None).
(** arxml_parser.py:1667-1669 *)
Definition r_readObdRatioDenominatorNeeds : list ri * option vx :=
  ([RCall "readServiceNeeds" None;
     RPut "setDenominatorCondition" (VLeafX RLiteral (PLit "DENOMINATOR-CONDITION"))],
   None).
(** arxml_parser.py:1671-1677 *)
Definition r_readDoIpRoutingActivationAuthenticationNeeds : list ri * option vx :=
  ([RCall "readServiceNeeds" None;
     RPut "setDataLengthRequest" (VLeafX RPositive (PLit "DATA-LENGTH-REQUEST"));
     RPut "setDataLengthResponse" (VLeafX RPositive (PLit "DATA-LENGTH-RESPONSE"));
     RFind (PLit "ROUTING-ACTIVATION-TYPE")
       [RPut "setRoutingActivationType" (VWrapX "NameToken" "setValue" VTextOrX)]
       []],
   None).
(** arxml_parser.py:1679-1685 *)
Definition r_readDoIpRoutingActivationConfirmationNeeds : list ri * option vx :=
  ([RCall "readServiceNeeds" None;
     RPut "setDataLengthRequest" (VLeafX RPositive (PLit "DATA-LENGTH-REQUEST"));
     RPut "setDataLengthResponse" (VLeafX RPositive (PLit "DATA-LENGTH-RESPONSE"));
     RFind (PLit "ROUTING-ACTIVATION-TYPE")
       [RPut "setRoutingActivationType" (VWrapX "NameToken" "setValue" VTextOrX)]
       []],
   None).
(** arxml_parser.py:1687-1689 *)
Definition r_readSecureOnBoardCommunicationNeeds : list ri * option vx :=
  ([RCall "readServiceNeeds" None;
     RPut "setVerificationStatusIndicationMode" (VLeafX RLiteral (PLit "VERIFICATION-STATUS-INDICATION-MODE"))],
   None).
(** arxml_parser.py:1691-1693 *)
Definition r_readIdsMgrNeeds : list ri * option vx :=
  ([RCall "readServiceNeeds" None;
     RPut "setUseSmartSensorApi" (VLeafX RBool (PLit "USE-SMART-SENSOR-API"))],
   None).
(** arxml_parser.py:1695-1698 *)
Definition r_readDiagnosticCommunicationManagerNeeds : list ri * option vx :=
  ([RCall "readDiagnosticCapabilityElement" None;
     RPut "setServiceRequestCallbackType" (VLeafX RLiteral (PLit "SERVICE-REQUEST-CALLBACK-TYPE"))],
   None).
(** arxml_parser.py:1700-1704 *)
Definition r_readDiagnosticRoutineNeeds : list ri * option vx :=
  ([RCall "readDiagnosticCapabilityElement" None;
     RPut "setDiagRoutineType" (VLeafX RLiteral (PLit "DIAG-ROUTINE-TYPE"));
     RPut "setRidNumber" (VLeafX RInteger (PLit "RID-NUMBER"))],
   None).
(** arxml_parser.py:1706-1713 *)
Definition r_readDiagnosticValueNeeds : list ri * option vx :=
  ([RCall "readDiagnosticCapabilityElement" None;
     RPut "setDataLength" (VLeafX RPositive (PLit "DATA-LENGTH"));
     RPut "setDiagnosticValueAccess" (VLeafX RLiteral (PLit "DIAGNOSTIC-VALUE-ACCESS"));
     RPut "setDidNumber" (VLeafX RInteger (PLit "DID-NUMBER"));
     RPut "setFixedLength" (VLeafX RBool (PLit "FIXED-LENGTH"));
     RPut "setProcessingStyle" (VLeafX RLiteral (PLit "PROCESSING-STYLE"))],
   None).
(** arxml_parser.py:1715-1716 *)
Definition r_readDiagEventDebounceCounterBased : list ri * option vx :=
  ([RCall "readDiagnosticCapabilityElement" None],
   None).
(** arxml_parser.py:1718-1719 *)
Definition r_readDiagEventDebounceMonitorInternal : list ri * option vx :=
  ([RCall "readDiagnosticCapabilityElement" None],
   None).
(** arxml_parser.py:1721-1722 *)
Definition r_readDiagEventDebounceTimeBased : list ri * option vx :=
  ([RCall "readDiagnosticCapabilityElement" None],
   None).
(** arxml_parser.py:1724-1737 *)
Definition r_readDiagEventDebounceAlgorithm : list ri * option vx :=
  ([RFor (PLit "DIAG-EVENT-DEBOUNCE-ALGORITHM/*")
       [RIf (CTag "DIAG-EVENT-DEBOUNCE-COUNTER-BASED")
          [RCreate "createDiagEventDebounceCounterBased" true
             [RCall "readDiagEventDebounceCounterBased" None]]
          [RIf (CTag "DIAG-EVENT-DEBOUNCE-MONITOR-INTERNAL")
             [RCreate "createDiagEventDebounceMonitorInternal" true
                [RCall "readDiagEventDebounceMonitorInternal" None]]
             [RIf (CTag "DIAG-EVENT-DEBOUNCE-TIME-BASED")
                [RCreate "createDiagEventDebounceTimeBased" true
                   [RCall "readDiagEventDebounceTimeBased" None]]
                [RFail NotImplementedError true]]]]],
   None).
(** arxml_parser.py:1739-1749 *)
Definition r_readDiagnosticEventNeeds : list ri * option vx :=
  ([RCall "readDiagnosticCapabilityElement" None;
     RForVal (VLeafsX RRef (PLit "DEFERRING-FID-REFS/DEFERRING-FID-REF"))
       [RPut "addDeferringFidRef" VItemX];
     RCall "readDiagEventDebounceAlgorithm" None;
     RPut "setInhibitingFidRef" (VLeafX RRef (PLit "INHIBITING-FID-REF"));
     RForVal (VLeafsX RRef (PLit "INHIBITING-SECONDARY-FID-REFS/INHIBITING-SECONDARY-FID-REF"))
       [RPut "addInhibitingSecondaryFidRef" VItemX];
     RPut "setPrestoredFreezeframeStoredInNvm" (VLeafX RBool (PLit "PRESTORED-FREEZEFRAME-STORED-IN-NVM"));
     RPut "setUsesMonitorData" (VLeafX RBool (PLit "USES-MONITOR-DATA"))],
   None).
(** arxml_parser.py:1751-1755 *)
Definition r_readDiagnosticEventInfoNeeds : list ri * option vx :=
  ([RCall "readDiagnosticCapabilityElement" None;
     RPut "setDtcKind" (VLeafX RLiteral (PLit "DTC-KIND"));
     RPut "setUdsDtcNumber" (VLeafX RPositive (PLit "UDS-DTC-NUMBER"))],
   None).
(** arxml_parser.py:1757-1763 *)
Definition r_readDiagnosticIoControlNeeds : list ri * option vx :=
  ([RCall "readDiagnosticCapabilityElement" None;
     RPut "setCurrentValueRef" (VLeafX RRef (PLit "CURRENT-VALUE-REF"));
     RPut "setFreezeCurrentStateSupported" (VLeafX RBool (PLit "FREEZE-CURRENT-STATE-SUPPORTED"));
     RPut "setResetToDefaultSupported" (VLeafX RBool (PLit "RESET-TO-DEFAULT-SUPPORTED"));
     RPut "setShortTermAdjustmentSupported" (VLeafX RBool (PLit "SHORT-TERM-ADJUSTMENT-SUPPORTED"))],
   None).
(** arxml_parser.py:1765-1768 *)
Definition r_readDiagnosticEnableConditionNeeds : list ri * option vx :=
  ([RCall "readDiagnosticCapabilityElement" None;
     RPut "setInitialStatus" (VLeafX RLiteral (PLit "INITIAL-STATUS"))],
   None).
(** arxml_parser.py:1770-1773 *)
Definition r_readDiagnosticOperationCycleNeeds : list ri * option vx :=
  ([RCall "readDiagnosticCapabilityElement" None;
     RPut "setOperationCycle" (VLeafX RLiteral (PLit "OPERATION-CYCLE"))],
   None).
(** arxml_parser.py:1775-1778 *)
Definition r_readDiagnosticStorageConditionNeeds : list ri * option vx :=
  ([RCall "readDiagnosticCapabilityElement" None;
     RPut "setInitialStatus" (VLeafX RLiteral (PLit "INITIAL-STATUS"))],
   None).
(** arxml_parser.py:1780-1783 *)
Definition r_readIndicatorStatusNeeds : list ri * option vx :=
  ([RCall "readServiceNeeds" None;
     RPut "setType" (VLeafX RLiteral (PLit "TYPE"))],
   None).
(** arxml_parser.py:1785-1788 *)
Definition r_readFunctionInhibitionAvailabilityNeeds : list ri * option vx :=
  ([RCall "readServiceNeeds" None;
     RPut "setControlledFidRef" (VLeafX RRef (PLit "CONTROLLED-FID-REF"))],
   None).
(** arxml_parser.py:1790-1793 *)
Definition r_readCryptoServiceNeeds : list ri * option vx :=
  ([RCall "readServiceNeeds" None;
     RPut "setMaximumKeyLength" (VLeafX RPositive (PLit "MAXIMUM-KEY-LENGTH"))],
   None).
(** arxml_parser.py:1795-1797 *)
Definition r_readEcuStateMgrUserNeeds : list ri * option vx :=
  ([RCall "readServiceNeeds" None],
   None).
(** arxml_parser.py:1799-1802 *)
Definition r_readDtcStatusChangeNotificationNeeds : list ri * option vx :=
  ([RCall "readDiagnosticCapabilityElement" None;
     RPut "setDtcFormatType" (VLeafX RLiteral (PLit "DTC-FORMAT-TYPE"))],
   None).
(** arxml_parser.py:1804-1806 *)
Definition r_readDltUserNeeds : list ri * option vx :=
  ([RCall "readServiceNeeds" None],
   None).
(** arxml_parser.py:1808-1811 *)
Definition r_readComMgrUserNeeds : list ri * option vx :=
  ([RCall "readServiceNeeds" None;
     RPut "setMaxCommMode" (VLeafX RLiteral (PLit "MAX-COMM-MODE"))],
   None).
(** arxml_parser.py:1813-1822 *)
Definition r_readSupervisedEntityNeeds : list ri * option vx :=
  ([RCall "readServiceNeeds" None;
     RPut "setActivateAtStart" (VLeafX RBool (PLit "ACTIVATE-AT-START"));
     RForVal (VLeafsX RRef (PLit "CHECKPOINTSS/SUPERVISED-ENTITY-CHECKPOINT-NEEDS-REF-CONDITIONAL/SUPERVISED-ENTITY-CHECKPOINT-NEEDS-REF"))
       [RPut "addCheckpointsRef" VItemX];
     RPut "setEnableDeactivation" (VLeafX RBool (PLit "ENABLE-DEACTIVATION"));
     RPut "setExpectedAliveCycle" (VLeafX RTime (PLit "EXPECTED-ALIVE-CYCLE"));
     RPut "setMaxAliveCycle" (VLeafX RTime (PLit "MAX-ALIVE-CYCLE"));
     RPut "setMinAliveCycle" (VLeafX RTime (PLit "MIN-ALIVE-CYCLE"));
     RPut "setToleratedFailedCycles" (VLeafX RPositive (PLit "TOLERATED-FAILED-CYCLES"))],
   None).
(** arxml_parser.py:1824-1826 *)
Definition r_readTracedFailure : list ri * option vx :=
  ([RCall "readIdentifiable" None;
     RPut "setId" (VLeafX RPositive (PLit "ID"))],
   None).
(** arxml_parser.py:1828-1829 *)
Definition r_readDevelopmentError : list ri * option vx :=
  ([RCall "readTracedFailure" None],
   None).
(** arxml_parser.py:1831-1832 *)
Definition r_readRuntimeError : list ri * option vx :=
  ([RCall "readTracedFailure" None],
   None).
(** arxml_parser.py:1834-1836 *)
Definition r_readPossibleErrorReaction : list ri * option vx :=
  ([RCall "readIdentifiable" None;
     RPut "setReactionCode" (VLeafX RPositive (PLit "REACTION-CODE"))],
   None).
(** arxml_parser.py:1838-1846 *)
Definition r_readTransientFault : list ri * option vx :=
  ([RCall "readTracedFailure" None;
     RFor (PLit "POSSIBLE-ERROR-REACTIONS/*")
       [RIf (CTag "POSSIBLE-ERROR-REACTION")
          [RCreate "createPossibleErrorReaction" true
             [RCall "readPossibleErrorReaction" None]]
          [RFail NotImplementedError true]]],
   None).
(** arxml_parser.py:1848-1863 *)
Definition r_readErrorTracerNeeds : list ri * option vx :=
  ([RCall "readServiceNeeds" None;
     RFor (PLit "TRACED-FAILURES/*")
       [RIf (CTag "DEVELOPMENT-ERROR")
          [RCreate "createDevelopmentError" true
             [RCall "readDevelopmentError" None]]
          [RIf (CTag "RUNTIME-ERROR")
             [RCreate "createRuntimeError" true
                [RCall "readRuntimeError" None]]
             [RIf (CTag "TRANSIENT-FAULT")
                [RCreate "createTransientFault" true
                   [RCall "readTransientFault" None]]
                [RFail NotImplementedError true]]]]],
   None).
(** arxml_parser.py:1865-1953 *)
Definition r_readSwcServiceDependencyServiceNeeds : list ri * option vx :=
  ([RFor (PLit "SERVICE-NEEDS/*")
       [RIf (CTag "NV-BLOCK-NEEDS")
          [RCreate "createNvBlockNeeds" true
             [RCall "readNvBlockNeeds" None]]
          [RIf (CTag "DIAGNOSTIC-COMMUNICATION-MANAGER-NEEDS")
             [RCreate "createDiagnosticCommunicationManagerNeeds" true
                [RCall "readDiagnosticCommunicationManagerNeeds" None]]
             [RIf (CTag "DIAGNOSTIC-ROUTINE-NEEDS")
                [RCreate "createDiagnosticRoutineNeeds" true
                   [RCall "readDiagnosticRoutineNeeds" None]]
                [RIf (CTag "DIAGNOSTIC-VALUE-NEEDS")
                   [RCreate "createDiagnosticValueNeeds" true
                      [RCall "readDiagnosticValueNeeds" None]]
                   [RIf (CTag "DIAGNOSTIC-EVENT-NEEDS")
                      [RCreate "createDiagnosticEventNeeds" true
                         [RCall "readDiagnosticEventNeeds" None]]
                      [RIf (CTag "DIAGNOSTIC-EVENT-INFO-NEEDS")
                         [RCreate "createDiagnosticEventInfoNeeds" true
                            [RCall "readDiagnosticEventInfoNeeds" None]]
                         [RIf (CTag "DIAGNOSTIC-IO-CONTROL-NEEDS")
                            [RCreate "createDiagnosticIoControlNeeds" true
                               [RCall "readDiagnosticIoControlNeeds" None]]
                            [RIf (CTag "CRYPTO-SERVICE-NEEDS")
                               [RCreate "createCryptoServiceNeeds" true
                                  [RCall "readCryptoServiceNeeds" None]]
                               [RIf (CTag "ECU-STATE-MGR-USER-NEEDS")
                                  [RCreate "createEcuStateMgrUserNeeds" true
                                     [RCall "readEcuStateMgrUserNeeds" None]]
                                  [RIf (CTag "DTC-STATUS-CHANGE-NOTIFICATION-NEEDS")
                                     [RCreate "createDtcStatusChangeNotificationNeeds" true
                                        [RCall "readDtcStatusChangeNotificationNeeds" None]]
                                     [RIf (CTag "DLT-USER-NEEDS")
                                        [RCreate "createDltUserNeeds" true
                                           [RCall "readDltUserNeeds" None]]
                                        [RIf (CTag "COM-MGR-USER-NEEDS")
                                           [RCreate "createComMgrUserNeeds" true
                                              [RCall "readComMgrUserNeeds" None]]
                                           [RIf (CTag "ERROR-TRACER-NEEDS")
                                              [RCreate "createErrorTracerNeeds" true
                                                 [RCall "readErrorTracerNeeds" None]]
                                              [RIf (CTag "DIAGNOSTIC-ENABLE-CONDITION-NEEDS")
                                                 [RCreate "createDiagnosticEnableConditionNeeds" true
                                                    [RCall "readDiagnosticEnableConditionNeeds" None]]
                                                 [RIf (CTag "DIAGNOSTIC-OPERATION-CYCLE-NEEDS")
                                                    [RCreate "createDiagnosticOperationCycleNeeds" true
                                                       [RCall "readDiagnosticOperationCycleNeeds" None]]
                                                    [RIf (CTag "DIAGNOSTIC-STORAGE-CONDITION-NEEDS")
                                                       [RCreate "createDiagnosticStorageConditionNeeds" true
                                                          [RCall "readDiagnosticStorageConditionNeeds" None]]
                                                       [RIf (CTag "INDICATOR-STATUS-NEEDS")
                                                          [RCreate "createIndicatorStatusNeeds" true
                                                             [RCall "readIndicatorStatusNeeds" None]]
                                                          [RIf (CTag "FUNCTION-INHIBITION-AVAILABILITY-NEEDS")
                                                             [RCreate "createFunctionInhibitionAvailabilityNeeds" true
                                                                [RCall "readFunctionInhibitionAvailabilityNeeds" None]]
                                                             [RIf (CTag "OBD-INFO-SERVICE-NEEDS")
                                                                [RCreate "createObdInfoServiceNeeds" true
                                                                   [RCall "readObdInfoServiceNeeds" None]]
                                                                [RIf (CTag "OBD-MONITOR-SERVICE-NEEDS")
                                                                   [RCreate "createObdMonitorServiceNeeds" true
                                                                      [RCall "readObdMonitorServiceNeeds" None]]
                                                                   [RIf (CTag "OBD-PID-SERVICE-NEEDS")
                                                                      [RCreate "createObdPidServiceNeeds" true
                                                                         [RCall "readObdPidServiceNeeds" None]]
                                                                      [RIf (CTag "OBD-CONTROL-SERVICE-NEEDS")
                                                                         [RCreate "createObdControlServiceNeeds" true
                                                                            [RCall "readObdControlServiceNeeds" None]]
                                                                         [RIf (CTag "OBD-RATIO-SERVICE-NEEDS")
                                                                            [RCreate "createObdRatioServiceNeeds" true
                                                                               [RCall "readObdRatioServiceNeeds" None]]
                                                                            [RIf (CTag "OBD-RATIO-DENOMINATOR-NEEDS")
                                                                               [RCreate "createObdRatioDenominatorNeeds" true
                                                                                  [RCall "readObdRatioDenominatorNeeds" None]]
                                                                               [RIf (CTag "DO-IP-ROUTING-ACTIVATION-AUTHENTICATION-NEEDS")
                                                                                  [RCreate "createDoIpRoutingActivationAuthenticationNeeds" true
                                                                                     [RCall "readDoIpRoutingActivationAuthenticationNeeds" None]]
                                                                                  [RIf (CTag "DO-IP-ROUTING-ACTIVATION-CONFIRMATION-NEEDS")
                                                                                     [RCreate "createDoIpRoutingActivationConfirmationNeeds" true
                                                                                        [RCall "readDoIpRoutingActivationConfirmationNeeds" None]]
                                                                                     [RIf (CTag "SECURE-ON-BOARD-COMMUNICATION-NEEDS")
                                                                                        [RCreate "createSecureOnBoardCommunicationNeeds" true
                                                                                           [RCall "readSecureOnBoardCommunicationNeeds" None]]
                                                                                        [RIf (CTag "IDS-MGR-NEEDS")
                                                                                           [RCreate "createIdsMgrNeeds" true
                                                                                              [RCall "readIdsMgrNeeds" None]]
                                                                                           [RFail NotImplementedError true]]]]]]]]]]]]]]]]]]]]]]]]]]]]]],
   None).
(** arxml_parser.py:1955-1958 *)
Definition r_readSwcServiceDependencyRepresentedPortGroup : list ri * option vx :=
  ([RIf (CGot (VLeafX RRef (PLit "REPRESENTED-PORT-GROUP-REF")))
       [RPut "setRepresentedPortGroup" (VLeafX RRef (PLit "REPRESENTED-PORT-GROUP-REF"))]
       []],
   None).
(** arxml_parser.py:1960-1968 *)
Definition r_readSwcServiceDependency : list ri * option vx :=
  ([RCreate "createSwcServiceDependency" true
       [RCall "readServiceDependency" None;
        RCall "readSwcServiceDependencyAssignedData" None;
        RCall "readSwcServiceDependencyAssignedPorts" None;
        RCall "readSwcServiceDependencyServiceNeeds" None;
        RCall "readSwcServiceDependencyRepresentedPortGroup" None]],
   None).
(** arxml_parser.py:1970-1976 *)
Definition r_readSwcInternalBehaviorServiceDependencies : list ri * option vx :=
  ([RFor (PLit "SERVICE-DEPENDENCYS/*")
       [RIf (CTag "SWC-SERVICE-DEPENDENCY")
          [RCall "readSwcServiceDependency" None]
          [RFail NotImplementedError true]]],
   None).
(** arxml_parser.py:1978-1987 *)
Definition r_getIncludedDataTypeSets : list ri * option vx :=
  ([],
   Some (VListX [RFor (PLit "INCLUDED-DATA-TYPE-SETS/INCLUDED-DATA-TYPE-SET")
        [RPut "append" (VNewX "IncludedDataTypeSet" false [RAttrs;
             RPut "setLiteralPrefix" (VLeafX RLiteral (PLit "LITERAL-PREFIX"));
             RForVal (VLeafsX RRef (PLit "DATA-TYPE-REFS/DATA-TYPE-REF"))
               [RPut "addDataTypeRef" VItemX]])]])).
(** arxml_parser.py:1989-1993 *)
Definition r_readSwcInternalBehaviorArTypedPerInstanceMemories : list ri * option vx :=
  ([RFor (PLit "AR-TYPED-PER-INSTANCE-MEMORYS/VARIABLE-DATA-PROTOTYPE")
       [RCreate "createArTypedPerInstanceMemory" true
          [RCall "readVariableDataPrototype" None]]],
   None).
(** arxml_parser.py:1995-1999 *)
Definition r_readSwcInternalBehaviorSharedParameters : list ri * option vx :=
  ([RFor (PLit "SHARED-PARAMETERS/PARAMETER-DATA-PROTOTYPE")
       [RCreate "createSharedParameter" true
          [RCall "readParameterDataPrototype" None]]],
   None).
(** arxml_parser.py:2001-2018 *)
Definition r_readVariationPointProxy : list ri * option vx :=
  ([RCall "readIdentifiable" None;
     RFind (PLit "CONDITION-ACCESS")
       [RPut "setConditionAccess" (VNewX "ConditionByFormula" false [RCall "readConditionByFormula" None])]
       [];
     RPut "setImplementationDataTypeRef" (VLeafX RRef (PLit "IMPLEMENTATION-DATA-TYPE-REF"));
     RPut "setPostBuildValueAccessRef" (VLeafX RRef (PLit "POST-BUILD-VALUE-ACCESS-REF"));
     RFor (PLit "POST-BUILD-VARIANT-CONDITIONS/POST-BUILD-VARIANT-CONDITION")
       [RPut "addPostBuildVariantCondition" (VNewX "PostBuildVariantCondition" false [RCall "readPostBuildVariantCondition" None])];
     RFind (PLit "VALUE-ACCESS")
       [RFor (PLit "*")
          [RIf (CTag "LIMIT")
             [RPut "setValueAccess" (VNewX "LimitValueVariationPoint" false [RCall "readAttributeValueVariationPoint" None])]
             [RIf (CTag "NUMERICAL-VALUE-VARIATION-POINT")
                [RPut "setValueAccess" (VNewX "NumericalValueVariationPoint" false [RCall "readAttributeValueVariationPoint" None])]
                [RIf (CTag "BOOLEAN-VALUE-VARIATION-POINT")
                   [RPut "setValueAccess" (VNewX "BooleanValueVariationPoint" false [RCall "readAttributeValueVariationPoint" None])]
                   [RIf (CTag "FLOAT-VALUE-VARIATION-POINT")
                      [RPut "setValueAccess" (VNewX "FloatValueVariationPoint" false [RCall "readAttributeValueVariationPoint" None])]
                      [RIf (CTag "INTEGER-VALUE-VARIATION-POINT")
                         [RPut "setValueAccess" (VNewX "IntegerValueVariationPoint" false [RCall "readAttributeValueVariationPoint" None])]
                         [RIf (CTag "POSITIVE-INTEGER-VALUE-VARIATION-POINT")
                            [RPut "setValueAccess" (VNewX "PositiveIntegerValueVariationPoint" false [RCall "readAttributeValueVariationPoint" None])]
                            [RIf (CTag "TIME-VALUE-VARIATION-POINT")
                               [RPut "setValueAccess" (VNewX "TimeValueValueVariationPoint" false [RCall "readAttributeValueVariationPoint" None])]
                               [RIf (CTag "UNLIMITED-INTEGER-VALUE-VARIATION-POINT")
                                  [RPut "setValueAccess" (VNewX "UnlimitedIntegerValueVariationPoint" false [RCall "readAttributeValueVariationPoint" None])]
                                  [RFail NotImplementedError true]]]]]]]]]]
       []],
   None).
(** arxml_parser.py:2020-2050 *)
Definition r_readAttributeValueVariationPoint : list ri * option vx :=
  ([RAttrs;
     RIf (CHasAttr "BINDING-TIME")
       [RIf (CGot (VUnmapX "BINDING-TIME" binding_time_xml_map))
          [RPut "setBindingTime" (VWrapX "BindingTimeEnum" "setValue" (VUnmapX "BINDING-TIME" binding_time_xml_map))]
          [RFail NotImplementedError true]]
       [];
     RIf (CHasAttr "BLUEPRINT-VALUE")
       [RPut "setBlueprintValue" (VWrapX "String" "setValue" (VAttrX "BLUEPRINT-VALUE"))]
       [];
     RIf (CHasAttr "SD")
       [RPut "setSd" (VWrapX "String" "setValue" (VAttrX "SD"))]
       [];
     RIf (CHasAttr "SHORT-LABEL")
       [RPut "setShortLabel" (VWrapX "PrimitiveIdentifier" "setValue" (VAttrX "SHORT-LABEL"))]
       [];
     RIf (CBoth (CIsA "LimitValueVariationPoint") (CHasAttr "INTERVAL-TYPE"))
       [RIf (CGot (VUnmapX "INTERVAL-TYPE" interval_type_xml_map))
          [RPut "setIntervalType" (VWrapX "IntervalTypeEnum" "setValue" (VUnmapX "INTERVAL-TYPE" interval_type_xml_map))]
          [RFail NotImplementedError true]]
       [];
     RIf (CBoth (CHasText) CHasWord)
       [RPut "setText" VTextX]
       []],
   None).
(** arxml_parser.py:2052-2057 *)
Definition r_readSwcInternalBehaviorVariationPointProxies : list ri * option vx :=
  ([RFor (PLit "VARIATION-POINT-PROXYS/VARIATION-POINT-PROXY")
       [RPut "addVariationPointProxy" (VNewX "VariationPointProxy" true [RCall "readVariationPointProxy" None])]],
   None).
(** arxml_parser.py:2059-2062 *)
Definition r_readIncludedModeDeclarationGroupSet : list ri * option vx :=
  ([RForVal (VLeafsX RRef (PLit "MODE-DECLARATION-GROUP-REFS/MODE-DECLARATION-GROUP-REF"))
       [RPut "addModeDeclarationGroupRef" VItemX];
     RPut "setPrefix" (VLeafX RLiteral (PLit "PREFIX"))],
   None).
(** arxml_parser.py:2064-2072 *)
Definition r_readSwcInternalBehaviorIncludedModeDeclarationGroupSets : list ri * option vx :=
  ([RFor (PLit "INCLUDED-MODE-DECLARATION-GROUP-SETS/*")
       [RIf (CTag "INCLUDED-MODE-DECLARATION-GROUP-SET")
          [RPut "addIncludedModeDeclarationGroupSet" (VNewX "IncludedModeDeclarationGroupSet" false [RCall "readIncludedModeDeclarationGroupSet" None])]
          [RFail NotImplementedError true]]],
   None).
(** arxml_parser.py:2074-2079 *)
Definition r_readSwcInternalBehaviorExclusiveAreaPolicies : list ri * option vx :=
  ([RFor (PLit "EXCLUSIVE-AREA-POLICYS/SWC-EXCLUSIVE-AREA-POLICY")
       [RPut "addExclusiveAreaPolicy" (VNewX "SwcExclusiveAreaPolicy" false [RPut "setApiPrinciple" (VLeafX RLiteral (PLit "API-PRINCIPLE"));
            RPut "setExclusiveAreaRef" (VLeafX RRef (PLit "EXCLUSIVE-AREA-REF"))])]],
   None).
(** arxml_parser.py:2081-2100 *)
Definition r_readSwcInternalBehavior : list ri * option vx :=
  ([RCall "readInternalBehavior" None;
     RCall "readSwcInternalBehaviorArTypedPerInstanceMemories" None;
     RCall "readSwcInternalBehaviorExclusiveAreaPolicies" None;
     RCall "readSwcInternalBehaviorEvents" None;
     RCall "readSwcInternalBehaviorExplicitInterRunnableVariables" None;
     RPut "setHandleTerminationAndRestart" (VLeafX RLiteral (PLit "HANDLE-TERMINATION-AND-RESTART"));
     RCall "readSwcInternalBehaviorIncludedModeDeclarationGroupSets" None;
     RCall "readSwcInternalBehaviorInstantiationDataDefProps" None;
     RCall "readSwcInternalBehaviorPerInstanceMemories" None;
     RCall "readSwcInternalBehaviorPerInstanceParameters" None;
     RCall "readSwcInternalBehaviorPortAPIOptions" None;
     RCall "readSwcInternalBehaviorRunnables" None;
     RCall "readSwcInternalBehaviorServiceDependencies" None;
     RCall "readSwcInternalBehaviorSharedParameters" None;
     RCall "readSwcInternalBehaviorVariationPointProxies" None;
     RPut "setSupportsMultipleInstantiation" (VLeafX RBool (PLit "SUPPORTS-MULTIPLE-INSTANTIATION"))],
   None).
(** arxml_parser.py:2102-2109 *)
Definition r_readSwcInternalBehaviorInstantiationDataDefProps : list ri * option vx :=
  ([RFor (PLit "INSTANTIATION-DATA-DEF-PROPSS/INSTANTIATION-DATA-DEF-PROPS")
       [RPut "addInstantiationDataDefProps" (VNewX "InstantiationDataDefProps" false [RAttrs;
            RPut "setParameterInstance" (VGetX "getAutosarParameterRef" (Some (TLit "PARAMETER-INSTANCE")));
            RPut "setSwDataDefProps" (VGetX "getSwDataDefProps" (Some (TLit "SW-DATA-DEF-PROPS")));
            RPut "setVariableInstance" (VGetX "getAutosarVariableRef" (Some (TLit "VARIABLE-INSTANCE")))])]],
   None).
(** arxml_parser.py:2111-2118 *)
Definition r_readAtomicSwComponentTypeSwcInternalBehavior : list ri * option vx :=
  ([RFor (PLit "INTERNAL-BEHAVIORS/*")
       [RIf (CTag "SWC-INTERNAL-BEHAVIOR")
          [RCreate "createSwcInternalBehavior" true
             [RCall "readSwcInternalBehavior" None]]
          [RFail NotImplementedError true]]],
   None).
(** arxml_parser.py:2120-2127 *)
Definition r_getIncludedModeDeclarationGroupSets : list ri * option vx :=
  ([],
   Some (VListX [RFor (PLit "INCLUDED-MODE-DECLARATION-GROUP-SETS/INCLUDED-MODE-DECLARATION-GROUP-SET")
        [RPut "append" (VNewX "IncludedModeDeclarationGroupSet" false [RForVal (VLeafsX RRef (PLit "MODE-DECLARATION-GROUP-REFS/MODE-DECLARATION-GROUP-REF"))
               [RPut "addModeDeclarationGroupRef" VItemX]])]])).
(** arxml_parser.py:2129-2131 *)
Definition r_readBswVariableAccess : list ri * option vx :=
  ([RCall "readReferrable" None;
     RPut "setAccessedVariableRef" (VLeafX RRef (PLit "ACCESSED-VARIABLE-REF"))],
   None).
(** arxml_parser.py:2133-2140 *)
Definition r_readBswModuleEntityDataSendPoints : list ri * option vx :=
  ([RFor (PLit "DATA-SEND-POINTS/*")
       [RIf (CTag "BSW-VARIABLE-ACCESS")
          [RCreate "createDataSendPoint" true
             [RCall "readBswVariableAccess" None]]
          [RFail NotImplementedError true]]],
   None).
(** arxml_parser.py:2142-2149 *)
Definition r_readBswModuleEntityDataReceiverPoints : list ri * option vx :=
  ([RFor (PLit "DATA-RECEIVE-POINTS/*")
       [RIf (CTag "BSW-VARIABLE-ACCESS")
          [RCreate "createDataReceivePoint" true
             [RCall "readBswVariableAccess" None]]
          [RFail NotImplementedError true]]],
   None).
(** arxml_parser.py:2151-2153 *)
Definition r_readBswModuleEntityIssuedTriggerRefs : list ri * option vx :=
  ([RForVal (VLeafsX RRef (PLit "ISSUED-TRIGGERS/TRIGGER-REF-CONDITIONAL/TRIGGER-REF"))
       [RPut "addIssuedTriggerRef" VItemX]],
   None).
(** arxml_parser.py:2155-2157 *)
Definition r_readBswModuleEntityActivationPointRefs : list ri * option vx :=
  ([RForVal (VLeafsX RRef (PLit "ACTIVATION-POINTS/BSW-INTERNAL-TRIGGERING-POINT-REF-CONDITIONAL/BSW-INTERNAL-TRIGGERING-POINT-REF"))
       [RPut "addActivationPointRef" VItemX]],
   None).
(** arxml_parser.py:2159-2160 *)
Definition r_readBswModuleCallPoint : list ri * option vx :=
  ([RCall "readReferrable" None],
   None).
(** arxml_parser.py:2162-2164 *)
Definition r_readBswAsynchronousServerCallPoint : list ri * option vx :=
  ([RCall "readBswModuleCallPoint" None;
     RPut "setCalledEntryRef" (VLeafX RRef (PLit "CALLED-ENTRY-REF"))],
   None).
(** arxml_parser.py:2166-2168 *)
Definition r_readBswSynchronousServerCallPoint : list ri * option vx :=
  ([RCall "readBswModuleCallPoint" None;
     RPut "setCalledEntryRef" (VLeafX RRef (PLit "CALLED-ENTRY-REF"))],
   None).
(** arxml_parser.py:2170-2180 *)
Definition r_readBswModuleEntityCallPoints : list ri * option vx :=
  ([RFor (PLit "CALL-POINTS/*")
       [RIf (CTag "BSW-ASYNCHRONOUS-SERVER-CALL-POINT")
          [RCreate "createBswAsynchronousServerCallPoint" true
             [RCall "readBswAsynchronousServerCallPoint" None]]
          [RIf (CTag "BSW-SYNCHRONOUS-SERVER-CALL-POINT")
             [RCreate "createBswSynchronousServerCallPoint" true
                [RCall "readBswSynchronousServerCallPoint" None]]
             [RFail NotImplementedError true]]]],
   None).
(** arxml_parser.py:2182-2192 *)
Definition r_readBswModuleEntity : list ri * option vx :=
  ([RCall "readExecutableEntity" None;
     RCall "readBswModuleEntityActivationPointRefs" None;
     RCall "readBswModuleEntityCallPoints" None;
     RCall "readBswModuleEntityDataReceiverPoints" None;
     RCall "readBswModuleEntityDataSendPoints" None;
     RPut "setImplementedEntryRef" (VReqX RRef (PLit "IMPLEMENTED-ENTRY-REF"));
     RPut "setSchedulerNamePrefixRef" (VLeafX RRef (PLit "SCHEDULER-NAME-PREFIX-REF"));
     RCall "readBswModuleEntityAccessedModeGroups" None;
     RCall "readBswModuleEntityManagedModeGroups" None;
     RCall "readBswModuleEntityIssuedTriggerRefs" None],
   None).
(** arxml_parser.py:2194-2196 *)
Definition r_readBswCalledEntity : list ri * option vx :=
  ([RCall "readBswModuleEntity" None],
   None).
(** arxml_parser.py:2198-2200 *)
Definition r_readBswSchedulableEntity : list ri * option vx :=
  ([RCall "readBswModuleEntity" None],
   None).
(** arxml_parser.py:2202-2206 *)
Definition r_readBswInterruptEntity : list ri * option vx :=
  ([RCall "readBswModuleEntity" None;
     RPut "setInterruptCategory" (VLeafX RLiteral (PLit "INTERRUPT-CATEGORY"));
     RPut "setInterruptSource" (VLeafX RLiteral (PLit "INTERRUPT-SOURCE"))],
   None).
(** arxml_parser.py:2208-2221 *)
Definition r_readBswInternalBehaviorEntities : list ri * option vx :=
  ([RFor (PLit "ENTITYS/*")
       [RIf (CTag "BSW-CALLED-ENTITY")
          [RCreate "createBswCalledEntity" true
             [RCall "readBswCalledEntity" None]]
          [RIf (CTag "BSW-SCHEDULABLE-ENTITY")
             [RCreate "createBswSchedulableEntity" true
                [RCall "readBswSchedulableEntity" None]]
             [RIf (CTag "BSW-INTERRUPT-ENTITY")
                [RCreate "createBswInterruptEntity" true
                   [RCall "readBswInterruptEntity" None]]
                [RFail NotImplementedError true]]]]],
   None).
(** arxml_parser.py:2223-2224 *)
Definition r_readBswBackgroundEvent : list ri * option vx :=
  ([RCall "readBswScheduleEvent" None],
   None).
(** arxml_parser.py:2226-2228 *)
Definition r_readBswExternalTriggerOccurredEvent : list ri * option vx :=
  ([RCall "readBswScheduleEvent" None;
     RPut "setTriggerRef" (VLeafX RRef (PLit "TRIGGER-REF"))],
   None).
(** arxml_parser.py:2230-2232 *)
Definition r_readBswOperationInvokedEvent : list ri * option vx :=
  ([RCall "readBswEvent" None;
     RPut "setEntryRef" (VLeafX RRef (PLit "ENTRY-REF"))],
   None).
(** arxml_parser.py:2234-2268 *)
Definition r_readBswInternalBehaviorEvents : list ri * option vx :=
  ([RFor (PLit "EVENTS/*")
       [RIf (CTag "BSW-MODE-SWITCH-EVENT")
          [RCreate "createBswModeSwitchEvent" true
             [RCall "readBswModeSwitchEvent" None]]
          [RIf (CTag "BSW-MODE-MANAGER-ERROR-EVENT")
             [RCreate "createBswModeManagerErrorEvent" true
                [RCall "readBswModeManagerErrorEvent" None]]
             [RIf (CTag "BSW-MODE-SWITCHED-ACK-EVENT")
                [RCreate "createBswModeSwitchedAckEvent" true
                   [RCall "readBswModeSwitchedAckEvent" None]]
                [RIf (CTag "BSW-TIMING-EVENT")
                   [RCreate "createBswTimingEvent" true
                      [RCall "readBswTimingEvent" None]]
                   [RIf (CTag "BSW-DATA-RECEIVED-EVENT")
                      [RCreate "createBswDataReceivedEvent" true
                         [RCall "readBswDataReceivedEvent" None]]
                      [RIf (CTag "BSW-INTERNAL-TRIGGER-OCCURRED-EVENT")
                         [RCreate "createBswInternalTriggerOccurredEvent" true
                            [RCall "readBswInternalTriggerOccurredEvent" None]]
                         [RIf (CTag "BSW-BACKGROUND-EVENT")
                            [RCreate "createBswBackgroundEvent" true
                               [RCall "readBswBackgroundEvent" None]]
                            [RIf (CTag "BSW-EXTERNAL-TRIGGER-OCCURRED-EVENT")
                               [RCreate "createBswExternalTriggerOccurredEvent" true
                                  [RCall "readBswExternalTriggerOccurredEvent" None]]
                               [RIf (CTag "BSW-OPERATION-INVOKED-EVENT")
                                  [RCreate "createBswOperationInvokedEvent" true
                                     [RCall "readBswOperationInvokedEvent" None]]
                                  [RIf (CTag "BSW-ASYNCHRONOUS-SERVER-CALL-RETURNS-EVENT")
                                     [RCreate "createBswAsynchronousServerCallReturnsEvent" true
                                        [RCall "readBswAsynchronousServerCallReturnsEvent" None]]
                                     [RFail NotImplementedError true]]]]]]]]]]]],
   None).
(** arxml_parser.py:2270-2272 *)
Definition r_readBswApiOptions : list ri * option vx :=
  ([RAttrs;
     RPut "setEnableTakeAddress" (VLeafX RBool (PLit "ENABLE-TAKE-ADDRESS"))],
   None).
(** arxml_parser.py:2274-2276 *)
Definition r_readBswDataReceptionPolicy : list ri * option vx :=
  ([RCall "readBswApiOptions" None;
     RPut "setReceivedDataRef" (VLeafX RRef (PLit "RECEIVED-DATA-REF"))],
   None).
(** arxml_parser.py:2278-2280 *)
Definition r_readBswQueuedDataReceptionPolicy : list ri * option vx :=
  ([RCall "readBswDataReceptionPolicy" None;
     RPut "setQueueLength" (VLeafX RPositive (PLit "QUEUE-LENGTH"))],
   None).
(** arxml_parser.py:2282-2290 *)
Definition r_readBswInternalBehaviorReceptionPolicies : list ri * option vx :=
  ([RFor (PLit "RECEPTION-POLICYS/*")
       [RIf (CTag "BSW-QUEUED-DATA-RECEPTION-POLICY")
          [RPut "addReceptionPolicy" (VNewX "BswQueuedDataReceptionPolicy" false [RCall "readBswQueuedDataReceptionPolicy" None])]
          [RFail NotImplementedError true]]],
   None).
(** arxml_parser.py:2292-2293 *)
Definition r_readBswInternalTriggeringPoint : list ri * option vx :=
  ([RCall "readIdentifiable" None],
   None).
(** arxml_parser.py:2295-2302 *)
Definition r_readBswInternalBehaviorInternalTriggeringPoints : list ri * option vx :=
  ([RFor (PLit "INTERNAL-TRIGGERING-POINTS/*")
       [RIf (CTag "BSW-INTERNAL-TRIGGERING-POINT")
          [RCreate "createBswInternalTriggeringPoint" true
             [RCall "readBswInternalTriggeringPoint" None]]
          [RFail NotImplementedError true]]],
   None).
(** arxml_parser.py:2304-2312 *)
Definition r_readBswInternalBehaviorServiceDependencies : list ri * option vx :=
  ([RFor (PLit "SERVICE-DEPENDENCYS/*")
       [RIf (CTag "BSW-SERVICE-DEPENDENCY")
          [RPut "addServiceDependency" (VNewX "BswServiceDependency" false [RCall "readBswServiceDependency" None])]
          [RFail NotImplementedError true]]],
   None).
(** arxml_parser.py:2314-2326 ; the log message asks for the full name: TypeError when it or the module
    description (see the caller) has no name *)
Definition r_readBswInternalBehavior : list ri * option vx :=
  ([RIf (CObjHas [GA "short_name"]) [] [RFail TypeError false];
     RCall "readInternalBehavior" None;
     RCall "readBswInternalBehaviorInternalTriggeringPoints" None;
     RCall "readBswInternalBehaviorEntities" None;
     RCall "readBswInternalBehaviorEvents" None;
     RCall "readBswInternalBehaviorModeSenderPolicy" None;
     RForVal (VGetX "getIncludedModeDeclarationGroupSets" None)
       [RPut "addIncludedModeDeclarationGroupSet" VItemX];
     RCall "readBswInternalBehaviorReceptionPolicies" None;
     RCall "readBswInternalBehaviorServiceDependencies" None],
   None).
(** arxml_parser.py:2328-2335 *)
Definition r_readBswModuleDescriptionBswInternalBehaviors : list ri * option vx :=
  ([RFor (PLit "INTERNAL-BEHAVIORS/*")
       [RIf (CTag "BSW-INTERNAL-BEHAVIOR")
          [RIf (CObjHas [GA "short_name"]) [] [RIf (CGot VNameX) [RFail TypeError false] [RFail TypeError false]];
           RCreate "createBswInternalBehavior" true
             [RCall "readBswInternalBehavior" None]]
          [RFail NotImplementedError true]]],
   None).
(** arxml_parser.py:2337-2338 *)
Definition r_readTrigger : list ri * option vx :=
  ([RCall "readIdentifiable" None],
   None).
(** arxml_parser.py:2340-2347 *)
Definition r_readBswModuleDescriptionReleasedTriggers : list ri * option vx :=
  ([RFor (PLit "RELEASED-TRIGGERS/*")
       [RIf (CTag "TRIGGER")
          [RCreate "createReleasedTrigger" true
             [RCall "readTrigger" None]]
          [RFail NotImplementedError true]]],
   None).
(** arxml_parser.py:2349-2356 *)
Definition r_readBswModuleDescriptionRequiredTriggers : list ri * option vx :=
  ([RFor (PLit "REQUIRED-TRIGGERS/*")
       [RIf (CTag "TRIGGER")
          [RCreate "createRequiredTrigger" true
             [RCall "readTrigger" None]]
          [RFail NotImplementedError true]]],
   None).
(** arxml_parser.py:2358-2365 *)
Definition r_readBswModuleDescriptionProvidedDatas : list ri * option vx :=
  ([RFor (PLit "PROVIDED-DATAS/*")
       [RIf (CTag "VARIABLE-DATA-PROTOTYPE")
          [RCreate "createProvidedData" true
             [RCall "readVariableDataPrototype" None]]
          [RFail NotImplementedError true]]],
   None).
(** arxml_parser.py:2367-2374 *)
Definition r_readBswModuleDescriptionRequiredDatas : list ri * option vx :=
  ([RFor (PLit "REQUIRED-DATAS/*")
       [RIf (CTag "VARIABLE-DATA-PROTOTYPE")
          [RCreate "createRequiredData" true
             [RCall "readVariableDataPrototype" None]]
          [RFail NotImplementedError true]]],
   None).
(** arxml_parser.py:2376-2380 *)
Definition r_readBswModuleClientServerEntry : list ri * option vx :=
  ([RCall "readReferrable" None;
     RPut "setEncapsulatedEntryRef" (VLeafX RRef (PLit "ENCAPSULATED-ENTRY-REF"));
     RPut "setIsReentrant" (VLeafX RBool (PLit "IS-REENTRANT"));
     RPut "setIsSynchronous" (VLeafX RBool (PLit "IS-SYNCHRONOUS"))],
   None).
(** arxml_parser.py:2382-2389 *)
Definition r_readBswModuleDescriptionProvidedClientServerEntries : list ri * option vx :=
  ([RFor (PLit "PROVIDED-CLIENT-SERVER-ENTRYS/*")
       [RIf (CTag "BSW-MODULE-CLIENT-SERVER-ENTRY")
          [RCreate "createProvidedClientServerEntry" true
             [RCall "readBswModuleClientServerEntry" None]]
          [RFail NotImplementedError true]]],
   None).
(** arxml_parser.py:2391-2398 *)
Definition r_readBswModuleDescriptionRequiredClientServerEntries : list ri * option vx :=
  ([RFor (PLit "REQUIRED-CLIENT-SERVER-ENTRYS/*")
       [RIf (CTag "BSW-MODULE-CLIENT-SERVER-ENTRY")
          [RCreate "createRequiredClientServerEntry" true
             [RCall "readBswModuleClientServerEntry" None]]
          [RFail NotImplementedError true]]],
   None).
(** arxml_parser.py:2400-2416 *)
Definition r_readBswModuleDescription : list ri * option vx :=
  ([RCall "readIdentifiable" None;
     RPut "setModuleId" (VLeafX RNumerical (PLit "MODULE-ID"));
     RCall "readBswModuleDescriptionExpectedEntryRefs" None;
     RCall "readBswModuleDescriptionImplementedEntryRefs" None;
     RCall "readBswModuleDescriptionProvidedModeGroups" None;
     RCall "readBswModuleDescriptionRequiredModeGroups" None;
     RCall "readBswModuleDescriptionProvidedClientServerEntries" None;
     RCall "readBswModuleDescriptionRequiredClientServerEntries" None;
     RCall "readBswModuleDescriptionProvidedDatas" None;
     RCall "readBswModuleDescriptionRequiredDatas" None;
     RCall "readBswModuleDescriptionBswInternalBehaviors" None;
     RCall "readBswModuleDescriptionRequiredTriggers" None;
     RCall "readBswModuleDescriptionBswModuleDependencies" None;
     RCall "readBswModuleDescriptionBswModuleDocumentation" None],
   None).
(** arxml_parser.py:2418-2422 *)
Definition r_readBswModuleDescriptionExpectedEntryRefs : list ri * option vx :=
  ([RFor (PLit "EXPECTED-ENTRYS/BSW-MODULE-ENTRY-REF-CONDITIONAL")
       [RIf (CGot (VLeafX RRef (PLit "BSW-MODULE-ENTRY-REF")))
          [RPut "addExpectedEntryRef" (VLeafX RRef (PLit "BSW-MODULE-ENTRY-REF"))]
          []]],
   None).
(** arxml_parser.py:2424-2432 *)
Definition r_readBswModuleDescriptionBswModuleDependencies : list ri * option vx :=
  ([RFor (PLit "BSW-MODULE-DEPENDENCYS/*")
       [RIf (CTag "BSW-MODULE-DEPENDENCY")
          [RCreate "createBswModuleDependency" true
             [RPut "setTargetModuleId" (VLeafX RNumerical (PLit "TARGET-MODULE-ID"));
              RPut "setTargetModuleRef" (VLeafX RRef (PLit "TARGET-MODULE-REF"))]]
          [RFail NotImplementedError true]]],
   None).
(** arxml_parser.py:2434-2441 *)
Definition r_readBswModuleDescriptionBswModuleDocumentation : list ri * option vx :=
  ([RFind (PLit "BSW-MODULE-DOCUMENTATIONS")
       [RFind (PLit "SW-COMPONENT-DOCUMENTATION")
          [RPut "setBswModuleDocumentation" (VGetX "readSwComponentDocumentationElement" None)]
          []]
       []],
   Some (VFindX (PLit "BSW-MODULE-DOCUMENTATIONS") (VFindX (PLit "SW-COMPONENT-DOCUMENTATION") VNoneX VNoneX) VNoneX)).
(** arxml_parser.py:2443-2447 *)
Definition r_readSwServiceArg : list ri * option vx :=
  ([RCall "readIdentifiable" None;
     RPut "setDirection" (VLeafX RLiteral (PLit "DIRECTION"));
     RPut "setSwArraysize" (VGetX "getValueList" (Some (TLit "SW-ARRAYSIZE")));
     RPut "setSwDataDefProps" (VGetX "getSwDataDefProps" (Some (TLit "SW-DATA-DEF-PROPS")))],
   None).
(** arxml_parser.py:2449-2456 *)
Definition r_readBswModuleEntryArguments : list ri * option vx :=
  ([RFor (PLit "ARGUMENTS/*")
       [RIf (CTag "SW-SERVICE-ARG")
          [RCreate "createArgument" true
             [RCall "readSwServiceArg" None]]
          [RFail NotImplementedError true]]],
   None).
(** arxml_parser.py:2458-2463 *)
Definition r_readBswModuleEntryReturnType : list ri * option vx :=
  ([RFind (PLit "RETURN-TYPE")
       [RCreate "createReturnType" true
          [RCall "readSwServiceArg" None]]
       []],
   None).
(** arxml_parser.py:2465-2478 *)
Definition r_readBswModuleEntry : list ri * option vx :=
  ([RCall "readIdentifiable" None;
     RCall "readBswModuleEntryArguments" None;
     RPut "setIsReentrant" (VLeafX RBool (PLit "IS-REENTRANT"));
     RPut "setIsSynchronous" (VLeafX RBool (PLit "IS-SYNCHRONOUS"));
     RPut "setServiceId" (VLeafX RNumerical (PLit "SERVICE-ID"));
     RPut "setCallType" (VLeafX RLiteral (PLit "CALL-TYPE"));
     RPut "setExecutionContext" (VLeafX RLiteral (PLit "EXECUTION-CONTEXT"));
     RPut "setSwServiceImplPolicy" (VLeafX RLiteral (PLit "SW-SERVICE-IMPL-POLICY"));
     RPut "setBswEntryKind" (VLeafX RLiteral (PLit "BSW-ENTRY-KIND"));
     RPut "setRole" (VLeafX RLiteral (PLit "ROLE"));
     RPut "setFunctionPrototypeEmitter" (VLeafX RLiteral (PLit "FUNCTION-PROTOTYPE-EMITTER"));
     RCall "readBswModuleEntryReturnType" None],
   None).
(** arxml_parser.py:2480-2486 *)
Definition r_readEngineeringObject : list ri * option vx :=
  ([RAttrs;
     RPut "setShortLabel" (VLeafX RLiteral (PLit "SHORT-LABEL"));
     RPut "setCategory" (VLeafX RLiteral (PLit "CATEGORY"));
     RFor (PLit "REVISION-LABELS/REVISION-LABEL")
       [RPut "addRevisionLabel" (VLeafX RRevision (PLit "."))];
     RPut "setDomain" (VLeafX RLiteral (PLit "DOMAIN"))],
   None).
(** arxml_parser.py:2488-2492 *)
Definition r_getAutosarEngineeringObject : list ri * option vx :=
  ([],
   Some (VNewX "AutosarEngineeringObject" false [RCall "readEngineeringObject" None])).
(** arxml_parser.py:2494-2500 *)
Definition r_readArtifactDescriptor : list ri * option vx :=
  ([RFor (PLit "ARTIFACT-DESCRIPTORS/*")
       [RIf (CTag "AUTOSAR-ENGINEERING-OBJECT")
          [RPut "addArtifactDescriptor" (VGetX "getAutosarEngineeringObject" None)]
          [RFail NotImplementedError true]]],
   None).
(** arxml_parser.py:2502-2509 *)
Definition r_readCodeDescriptor : list ri * option vx :=
  ([RFor (PLit "CODE-DESCRIPTORS/CODE")
       [RCreate "createCodeDescriptor" true
          [RCall "readIdentifiable" None;
           RCall "readArtifactDescriptor" None;
           RCall "readCallbackHeaderRefs" None]]],
   None).
(** arxml_parser.py:2511-2515 *)
Definition r_readCallbackHeaderRefs : list ri * option vx :=
  ([RFind (PLit "CALLBACK-HEADER-REFS")
       [RForVal (VLeafsX RRef (PLit "CALLBACK-HEADER-REF"))
          [RPut "addCallbackHeaderRef" VItemX]]
       []],
   None).
(** arxml_parser.py:2517-2526 *)
Definition r_readCompiler : list ri * option vx :=
  ([RFind (PLit "COMPILERS")
       [RFor (PLit "COMPILER")
          [RCreate "createCompiler" true
             [RCall "readIdentifiable" None;
              RPut "setName" (VLeafX RLiteral (PLit "NAME"));
              RPut "setOptions" (VLeafX RLiteral (PLit "OPTIONS"));
              RPut "setVendor" (VLeafX RLiteral (PLit "VENDOR"));
              RPut "setVersion" (VLeafX RLiteral (PLit "VERSION"))]]]
       []],
   None).
(** arxml_parser.py:2528-2537 *)
Definition r_readLinker : list ri * option vx :=
  ([RFind (PLit "LINKERS")
       [RFor (PLit "LINKER")
          [RCreate "createLinker" true
             [RCall "readIdentifiable" None;
              RPut "setName" (VLeafX RLiteral (PLit "NAME"));
              RPut "setOptions" (VLeafX RLiteral (PLit "OPTIONS"));
              RPut "setVendor" (VLeafX RLiteral (PLit "VENDOR"));
              RPut "setVersion" (VLeafX RLiteral (PLit "VERSION"))]]]
       []],
   None).
(** arxml_parser.py:2555-2559 *)
Definition r_readMemorySectionOptions : list ri * option vx :=
  ([RFind (PLit "OPTIONS")
       [RForVal (VLeafsX RLitItem (PLit "OPTION"))
          [RPut "addOption" VItemX]]
       []],
   None).
(** arxml_parser.py:2561-2573 *)
Definition r_readMemorySections : list ri * option vx :=
  ([RFor (PLit "MEMORY-SECTIONS/MEMORY-SECTION")
       [RCreate "createMemorySection" true
          [RCall "readIdentifiable" None;
           RPut "setAlignment" (VLeafX RLiteral (PLit "ALIGNMENT"));
           RPut "setMemClassSymbol" (VLeafX RLiteral (PLit "MEM-CLASS-SYMBOL"));
           RCall "readMemorySectionOptions" None;
           RPut "setSize" (VLeafX RPositive (PLit "SIZE"));
           RPut "setSwAddrMethodRef" (VLeafX RRef (PLit "SW-ADDRMETHOD-REF"));
           RPut "setSymbol" (VLeafX RLiteral (PLit "SYMBOL"));
           RPut "setPrefixRef" (VLeafX RRef (PLit "PREFIX-REF"));
           RForVal (VLeafsX RRef (PLit "EXECUTABLE-ENTITY-REFS/EXECUTABLE-ENTITY-REF"))
             [RPut "addExecutableEntityRef" VItemX]]]],
   None).
(** arxml_parser.py:2576-2578 *)
Definition r_readMultidimensionalTime : list ri * option vx :=
  ([RPut "setCseCode" (VLeafX RLiteral (PLit "CSE-CODE"));
     RPut "setCseCodeFactor" (VLeafX RInteger (PLit "CSE-CODE-FACTOR"))],
   None).
(** arxml_parser.py:2580-2583 *)
Definition r_readHardwareConfiguration : list ri * option vx :=
  ([RPut "setAdditionalInformation" (VLeafX RLiteral (PLit "ADDITIONAL-INFORMATION"));
     RPut "setProcessorMode" (VLeafX RLiteral (PLit "PROCESSOR-MODE"));
     RPut "setProcessorSpeed" (VLeafX RLiteral (PLit "PROCESSOR-SPEED"))],
   None).
(** arxml_parser.py:2585-2587 *)
Definition r_readSoftwareContext : list ri * option vx :=
  ([RPut "setInput" (VLeafX RLiteral (PLit "INPUT"));
     RPut "setState" (VLeafX RLiteral (PLit "STATE"))],
   None).
(** arxml_parser.py:2589-2591 *)
Definition r_readMemorySectionLocation : list ri * option vx :=
  ([RPut "setProvidedMemoryRef" (VLeafX RRef (PLit "PROVIDED-MEMORY-REF"));
     RPut "setSoftwareMemorySectionRef" (VLeafX RRef (PLit "SOFTWARE-MEMORY-SECTION-REF"))],
   None).
(** arxml_parser.py:2593-2613 *)
Definition r_readExecutionTime : list ri * option vx :=
  ([RCall "readIdentifiable" None;
     RPut "setExclusiveAreaRef" (VLeafX RRef (PLit "EXCLUSIVE-AREA-REF"));
     RPut "setExecutableEntityRef" (VLeafX RRef (PLit "EXECUTABLE-ENTITY-REF"));
     RPut "setHwElementRef" (VLeafX RRef (PLit "HW-ELEMENT-REF"));
     RFind (PLit "HARDWARE-CONFIGURATION")
       [RPut "setHardwareConfiguration" (VNewX "HardwareConfiguration" false [RCall "readHardwareConfiguration" None])]
       [];
     RForVal (VLeafsX RRef (PLit "INCLUDED-LIBRARY-REFS/INCLUDED-LIBRARY-REF"))
       [RPut "addIncludedLibraryRef" VItemX];
     RFor (PLit "MEMORY-SECTION-LOCATIONS/MEMORY-SECTION-LOCATION")
       [RPut "addMemorySectionLocation" (VNewX "MemorySectionLocation" false [RCall "readMemorySectionLocation" None])];
     RFind (PLit "SOFTWARE-CONTEXT")
       [RPut "setSoftwareContext" (VNewX "SoftwareContext" false [RCall "readSoftwareContext" None])]
       []],
   None).
(** arxml_parser.py:2615-2626 *)
Definition r_readAnalyzedExecutionTime : list ri * option vx :=
  ([RCall "readExecutionTime" None;
     RFind (PLit "BEST-CASE-EXECUTION-TIME")
       [RPut "setBestCaseExecutionTime" (VNewX "MultidimensionalTime" false [RCall "readMultidimensionalTime" None])]
       [];
     RFind (PLit "WORST-CASE-EXECUTION-TIME")
       [RPut "setWorstCaseExecutionTime" (VNewX "MultidimensionalTime" false [RCall "readMultidimensionalTime" None])]
       []],
   None).
(** arxml_parser.py:2628-2639 *)
Definition r_readMeasuredExecutionTime : list ri * option vx :=
  ([RCall "readExecutionTime" None;
     RFind (PLit "MAXIMUM-EXECUTION-TIME")
       [RPut "setMaximumExecutionTime" (VNewX "MultidimensionalTime" false [RCall "readMultidimensionalTime" None])]
       [];
     RFind (PLit "MINIMUM-EXECUTION-TIME")
       [RPut "setMinimumExecutionTime" (VNewX "MultidimensionalTime" false [RCall "readMultidimensionalTime" None])]
       [];
     RFind (PLit "NOMINAL-EXECUTION-TIME")
       [RPut "setNominalExecutionTime" (VNewX "MultidimensionalTime" false [RCall "readMultidimensionalTime" None])]
       []],
   None).
(** arxml_parser.py:2641-2652 *)
Definition r_readSimulatedExecutionTime : list ri * option vx :=
  ([RCall "readExecutionTime" None;
     RFind (PLit "MAXIMUM-EXECUTION-TIME")
       [RPut "setMaximumExecutionTime" (VNewX "MultidimensionalTime" false [RCall "readMultidimensionalTime" None])]
       [];
     RFind (PLit "MINIMUM-EXECUTION-TIME")
       [RPut "setMinimumExecutionTime" (VNewX "MultidimensionalTime" false [RCall "readMultidimensionalTime" None])]
       [];
     RFind (PLit "NOMINAL-EXECUTION-TIME")
       [RPut "setNominalExecutionTime" (VNewX "MultidimensionalTime" false [RCall "readMultidimensionalTime" None])]
       []],
   None).
(** arxml_parser.py:2654-2661 *)
Definition r_readRoughEstimateOfExecutionTime : list ri * option vx :=
  ([RCall "readExecutionTime" None;
     RPut "setAdditionalInformation" (VLeafX RLiteral (PLit "ADDITIONAL-INFORMATION"));
     RFind (PLit "ESTIMATED-EXECUTION-TIME")
       [RPut "setEstimatedExecutionTime" (VNewX "MultidimensionalTime" false [RCall "readMultidimensionalTime" None])]
       []],
   None).
(** arxml_parser.py:2663-2679 *)
Definition r_readExecutionTimes : list ri * option vx :=
  ([RFor (PLit "EXECUTION-TIMES/*")
       [RIf (CTag "ANALYZED-EXECUTION-TIME")
          [RCreate "createAnalyzedExecutionTime" true
             [RCall "readAnalyzedExecutionTime" None]]
          [RIf (CTag "MEASURED-EXECUTION-TIME")
             [RCreate "createMeasuredExecutionTime" true
                [RCall "readMeasuredExecutionTime" None]]
             [RIf (CTag "ROUGH-ESTIMATE-OF-EXECUTION-TIME")
                [RCreate "createRoughEstimateOfExecutionTime" true
                   [RCall "readRoughEstimateOfExecutionTime" None]]
                [RIf (CTag "SIMULATED-EXECUTION-TIME")
                   [RCreate "createSimulatedExecutionTime" true
                      [RCall "readSimulatedExecutionTime" None]]
                   [RFail NotImplementedError true]]]]]],
   None).
(** arxml_parser.py:2681-2693 *)
Definition r_readHeapUsage : list ri * option vx :=
  ([RCall "readIdentifiable" None;
     RPut "setHwElementRef" (VLeafX RRef (PLit "HW-ELEMENT-REF"));
     RFind (PLit "HARDWARE-CONFIGURATION")
       [RPut "setHardwareConfiguration" (VNewX "HardwareConfiguration" false [RCall "readHardwareConfiguration" None])]
       [];
     RFind (PLit "SOFTWARE-CONTEXT")
       [RPut "setSoftwareContext" (VNewX "SoftwareContext" false [RCall "readSoftwareContext" None])]
       []],
   None).
(** arxml_parser.py:2695-2700 *)
Definition r_readMeasuredHeapUsage : list ri * option vx :=
  ([RCall "readHeapUsage" None;
     RPut "setAverageMemoryConsumption" (VLeafX RPositive (PLit "AVERAGE-MEMORY-CONSUMPTION"));
     RPut "setMaximumMemoryConsumption" (VLeafX RPositive (PLit "MAXIMUM-MEMORY-CONSUMPTION"));
     RPut "setMinimumMemoryConsumption" (VLeafX RPositive (PLit "MINIMUM-MEMORY-CONSUMPTION"));
     RPut "setTestPattern" (VLeafX RLiteral (PLit "TEST-PATTERN"))],
   None).
(** arxml_parser.py:2702-2704 *)
Definition r_readRoughEstimateHeapUsage : list ri * option vx :=
  ([RCall "readHeapUsage" None;
     RPut "setMemoryConsumption" (VLeafX RPositive (PLit "MEMORY-CONSUMPTION"))],
   None).
(** arxml_parser.py:2706-2708 *)
Definition r_readWorstCaseHeapUsage : list ri * option vx :=
  ([RCall "readHeapUsage" None;
     RPut "setMemoryConsumption" (VLeafX RPositive (PLit "MEMORY-CONSUMPTION"))],
   None).
(** arxml_parser.py:2710-2723 *)
Definition r_readHeapUsages : list ri * option vx :=
  ([RFor (PLit "HEAP-USAGES/*")
       [RIf (CTag "MEASURED-HEAP-USAGE")
          [RCreate "createMeasuredHeapUsage" true
             [RCall "readMeasuredHeapUsage" None]]
          [RIf (CTag "ROUGH-ESTIMATE-HEAP-USAGE")
             [RCreate "createRoughEstimateHeapUsage" true
                [RCall "readRoughEstimateHeapUsage" None]]
             [RIf (CTag "WORST-CASE-HEAP-USAGE")
                [RCreate "createWorstCaseHeapUsage" true
                   [RCall "readWorstCaseHeapUsage" None]]
                [RFail NotImplementedError true]]]]],
   None).
(** arxml_parser.py:2725-2729 *)
Definition r_readSectionNamePrefixes : list ri * option vx :=
  ([RFor (PLit "SECTION-NAME-PREFIXS/SECTION-NAME-PREFIX")
       [RCreate "createSectionNamePrefix" true
          [RCall "readReferrable" None;
           RPut "setImplementedInRef" (VLeafX RRef (PLit "IMPLEMENTED-IN-REF"))]]],
   None).
(** arxml_parser.py:2731-2740 *)
Definition r_readAccessCountSets : list ri * option vx :=
  ([RFor (PLit "ACCESS-COUNT-SETS/ACCESS-COUNT-SET")
       [RPut "addAccessCountSet" (VNewX "AccessCountSet" false [RPut "setCountProfile" (VLeafX RLiteral (PLit "COUNT-PROFILE"));
            RFor (PLit "ACCESS-COUNTS/ACCESS-COUNT")
              [RPut "addAccessCount" (VNewX "AccessCount" false [RPut "setAccessPointRef" (VLeafX RRef (PLit "ACCESS-POINT-REF"));
                   RPut "setValue" (VLeafX RPositive (PLit "VALUE"))])]])]],
   None).
(** arxml_parser.py:2742-2756 *)
Definition r_readStackUsage : list ri * option vx :=
  ([RCall "readIdentifiable" None;
     RPut "setExecutableEntityRef" (VLeafX RRef (PLit "EXECUTABLE-ENTITY-REF"));
     RPut "setHwElementRef" (VLeafX RRef (PLit "HW-ELEMENT-REF"));
     RFind (PLit "HARDWARE-CONFIGURATION")
       [RPut "setHardwareConfiguration" (VNewX "HardwareConfiguration" false [RCall "readHardwareConfiguration" None])]
       [];
     RFind (PLit "SOFTWARE-CONTEXT")
       [RPut "setSoftwareContext" (VNewX "SoftwareContext" false [RCall "readSoftwareContext" None])]
       []],
   None).
(** arxml_parser.py:2758-2760 *)
Definition r_readRoughEstimateStackUsage : list ri * option vx :=
  ([RCall "readStackUsage" None;
     RPut "setMemoryConsumption" (VLeafX RPositive (PLit "MEMORY-CONSUMPTION"))],
   None).
(** arxml_parser.py:2762-2767 *)
Definition r_readMeasuredStackUsage : list ri * option vx :=
  ([RCall "readStackUsage" None;
     RPut "setAverageMemoryConsumption" (VLeafX RPositive (PLit "AVERAGE-MEMORY-CONSUMPTION"));
     RPut "setMaximumMemoryConsumption" (VLeafX RPositive (PLit "MAXIMUM-MEMORY-CONSUMPTION"));
     RPut "setMinimumMemoryConsumption" (VLeafX RPositive (PLit "MINIMUM-MEMORY-CONSUMPTION"));
     RPut "setTestPattern" (VLeafX RLiteral (PLit "TEST-PATTERN"))],
   None).
(** arxml_parser.py:2769-2771 *)
Definition r_readWorstCaseStackUsage : list ri * option vx :=
  ([RCall "readStackUsage" None;
     RPut "setMemoryConsumption" (VLeafX RPositive (PLit "MEMORY-CONSUMPTION"))],
   None).
(** arxml_parser.py:2773-2786 *)
Definition r_readStackUsages : list ri * option vx :=
  ([RFor (PLit "STACK-USAGES/*")
       [RIf (CTag "ROUGH-ESTIMATE-STACK-USAGE")
          [RCreate "createRoughEstimateStackUsage" true
             [RCall "readRoughEstimateStackUsage" None]]
          [RIf (CTag "MEASURED-STACK-USAGE")
             [RCreate "createMeasuredStackUsage" true
                [RCall "readMeasuredStackUsage" None]]
             [RIf (CTag "WORST-CASE-STACK-USAGE")
                [RCreate "createWorstCaseStackUsage" true
                   [RCall "readWorstCaseStackUsage" None]]
                [RFail NotImplementedError true]]]]],
   None).
(** arxml_parser.py:2788-2798 *)
Definition r_readResourceConsumption : list ri * option vx :=
  ([RFind (PLit "RESOURCE-CONSUMPTION")
       [RCreate "createResourceConsumption" true
          [RCall "readIdentifiable" None;
           RCall "readAccessCountSets" None;
           RCall "readExecutionTimes" None;
           RCall "readHeapUsages" None;
           RCall "readMemorySections" None;
           RCall "readSectionNamePrefixes" None;
           RCall "readStackUsages" None]]
       []],
   None).
(** arxml_parser.py:2800-2822 *)
Definition r_readImplementation : list ri * option vx :=
  ([RCall "readIdentifiable" None;
     RCall "readCodeDescriptor" None;
     RPut "setProgrammingLanguage" (VLeafX RLiteral (PLit "PROGRAMMING-LANGUAGE"));
     RCall "readResourceConsumption" None;
     RCall "readBuildActionManifests" None;
     RCall "readCompiler" None;
     RCall "readLinker" None;
     RCall "readDependencyOnArtifact:createGeneratedArtifact" (Some (TLit "GENERATED-ARTIFACTS"));
     RCall "readDependencyOnArtifact:createRequiredArtifact" (Some (TLit "REQUIRED-ARTIFACTS"));
     RCall "readDependencyOnArtifact:createRequiredGeneratorTool" (Some (TLit "REQUIRED-GENERATOR-TOOLS"));
     RForVal (VLeafsX RRef (PLit "HW-ELEMENT-REFS/HW-ELEMENT-REF"))
       [RPut "addHwElementRef" VItemX];
     RPut "setBuildActionManifestRef" (VLeafX RRef (PLit "BUILD-ACTION-MANIFESTS/BUILD-ACTION-MANIFEST-REF-CONDITIONAL/BUILD-ACTION-MANIFEST-REF"));
     RPut "setSwVersion" (VLeafX RLiteral (PLit "SW-VERSION"));
     RPut "setSwcBswMappingRef" (VLeafX RRef (PLit "SWC-BSW-MAPPING-REF"));
     RPut "setUsedCodeGenerator" (VLeafX RLiteral (PLit "USED-CODE-GENERATOR"));
     RPut "setVendorId" (VLeafX RPositive (PLit "VENDOR-ID"));
     RFind (PLit "MC-SUPPORT")
       [RPut "setMcSupport" (VNewX "McSupportData" false [RCall "readMcSupportData" None])]
       []],
   None).
(** arxml_parser.py:2824-2841 *)
Definition r_readMcSupportData : list ri * option vx :=
  ([RFor (PLit "EMULATION-SUPPORTS/MC-SW-EMULATION-METHOD-SUPPORT")
       [RPut "addEmulationSupport" (VNewX "McSwEmulationMethodSupport" false [RCall "readMcSwEmulationMethodSupport" None])];
     RFor (PLit "MC-PARAMETER-INSTANCES/MC-DATA-INSTANCE")
       [RCreate "createMcParameterInstance" true
          [RCall "readMcDataInstance" None]];
     RFor (PLit "MC-VARIABLE-INSTANCES/MC-DATA-INSTANCE")
       [RCreate "createMcVariableInstance" true
          [RCall "readMcDataInstance" None]];
     RForVal (VLeafsX RRef (PLit "MEASURABLE-SYSTEM-CONSTANT-VALUES-REFS/MEASURABLE-SYSTEM-CONSTANT-VALUES-REF"))
       [RPut "addMeasurableSystemConstantValuesRef" VItemX];
     RFind (PLit "RPT-SUPPORT-DATA")
       [RPut "setRptSupportData" (VNewX "RptSupportData" false [RCall "readRptSupportData" None])]
       []],
   None).
(** arxml_parser.py:2843-2851 *)
Definition r_readMcSwEmulationMethodSupport : list ri * option vx :=
  ([RPut "setShortLabel" (VLeafX RLiteral (PLit "SHORT-LABEL"));
     RPut "setCategory" (VLeafX RLiteral (PLit "CATEGORY"));
     RPut "setBaseReferenceRef" (VLeafX RRef (PLit "BASE-REFERENCE-REF"));
     RFor (PLit "ELEMENT-GROUPS/MC-PARAMETER-ELEMENT-GROUP")
       [RPut "addElementGroup" (VNewX "McParameterElementGroup" false [RCall "readMcParameterElementGroup" None])];
     RPut "setReferenceTableRef" (VLeafX RRef (PLit "REFERENCE-TABLE-REF"))],
   None).
(** arxml_parser.py:2853-2856 *)
Definition r_readMcParameterElementGroup : list ri * option vx :=
  ([RPut "setShortLabel" (VLeafX RLiteral (PLit "SHORT-LABEL"));
     RPut "setRamLocationRef" (VLeafX RRef (PLit "RAM-LOCATION-REF"));
     RPut "setRomLocationRef" (VLeafX RRef (PLit "ROM-LOCATION-REF"))],
   None).
(** arxml_parser.py:2858-2860 *)
Definition r_readImplementationElementInParameterInstanceRef : list ri * option vx :=
  ([RPut "setContextRef" (VLeafX RRef (PLit "CONTEXT-REF"));
     RPut "setTargetRef" (VLeafX RRef (PLit "TARGET-REF"))],
   None).
(** arxml_parser.py:2862-2865 *)
Definition r_readRteEventInEcuInstanceRef : list ri * option vx :=
  ([RPut "setContextRootCompositionRef" (VLeafX RRef (PLit "CONTEXT-ROOT-COMPOSITION-REF"));
     RPut "setContextAtomicComponentRef" (VLeafX RRef (PLit "CONTEXT-ATOMIC-COMPONENT-REF"));
     RPut "setTargetRteEventRef" (VLeafX RRef (PLit "TARGET-RTE-EVENT-REF"))],
   None).
(** arxml_parser.py:2867-2870 *)
Definition r_readVariableAccessInEcuInstanceRef : list ri * option vx :=
  ([RPut "setContextRootCompositionRef" (VLeafX RRef (PLit "CONTEXT-ROOT-COMPOSITION-REF"));
     RPut "setContextAtomicComponentRef" (VLeafX RRef (PLit "CONTEXT-ATOMIC-COMPONENT-REF"));
     RPut "setTargetVariableAccessRef" (VLeafX RRef (PLit "TARGET-VARIABLE-ACCESS-REF"))],
   None).
(** arxml_parser.py:2872-2880 *)
Definition r_readMcDataAccessDetails : list ri * option vx :=
  ([RFor (PLit "RTE-EVENT-IREFS/RTE-EVENT-IREF")
       [RPut "addRteEventIRef" (VNewX "RteEventInEcuInstanceRef" false [RCall "readRteEventInEcuInstanceRef" None])];
     RFor (PLit "VARIABLE-ACCESS-IREFS/VARIABLE-ACCESS-IREF")
       [RPut "addVariableAccessIRef" (VNewX "VariableAccessInEcuInstanceRef" false [RCall "readVariableAccessInEcuInstanceRef" None])]],
   None).
(** arxml_parser.py:2882-2915 *)
Definition r_readMcDataInstance : list ri * option vx :=
  ([RPut "setArraySize" (VLeafX RPositive (PLit "ARRAY-SIZE"));
     RPut "setDisplayIdentifier" (VLeafX RLiteral (PLit "DISPLAY-IDENTIFIER"));
     RPut "setFlatMapEntryRef" (VLeafX RRef (PLit "FLAT-MAP-ENTRY-REF"));
     RFind (PLit "INSTANCE-IN-MEMORY")
       [RPut "setInstanceInMemory" (VNewX "ImplementationElementInParameterInstanceRef" false [RCall "readImplementationElementInParameterInstanceRef" None])]
       [];
     RPut "setRole" (VLeafX RLiteral (PLit "ROLE"));
     RPut "setSymbol" (VLeafX RLiteral (PLit "SYMBOL"));
     RFind (PLit "MC-DATA-ACCESS-DETAILS")
       [RPut "setMcDataAccessDetails" (VNewX "McDataAccessDetails" false [RCall "readMcDataAccessDetails" None])]
       [];
     RFind (PLit "RESULTING-PROPERTIES")
       [RPut "setResultingProperties" (VNewX "SwDataDefProps" false [])]
       [];
     RFind (PLit "RESULTING-RPT-SW-PROTOTYPING-ACCESS")
       [RPut "setResultingRptSwPrototypingAccess" (VNewX "RptSwPrototypingAccess" false [RCall "readRptSwPrototypingAccess" None])]
       [];
     RFind (PLit "RPT-IMPL-POLICY")
       [RPut "setRptImplPolicy" (VNewX "RptImplPolicy" false [RCall "readRptImplPolicy" None])]
       [];
     RFor (PLit "MC-DATA-ASSIGNMENTS/ROLE-BASED-MC-DATA-ASSIGNMENT")
       [RPut "addMcDataAssignment" (VNewX "RoleBasedMcDataAssignment" false [RCall "readRoleBasedMcDataAssignment" None])];
     RFor (PLit "SUB-ELEMENTS/MC-DATA-INSTANCE")
       [RCreate "createSubElement" true
          [RCall "readMcDataInstance" None]]],
   None).
(** arxml_parser.py:2917-2922 *)
Definition r_readRoleBasedMcDataAssignment : list ri * option vx :=
  ([RForVal (VLeafsX RRef (PLit "EXECUTION-CONTEXT-REFS/EXECUTION-CONTEXT-REF"))
       [RPut "addExecutionContextRef" VItemX];
     RForVal (VLeafsX RRef (PLit "MC-DATA-INSTANCE-REFS/MC-DATA-INSTANCE-REF"))
       [RPut "addMcDataInstanceRef" VItemX];
     RPut "setRole" (VLeafX RIdentifier (PLit "ROLE"))],
   None).
(** arxml_parser.py:2924-2927 *)
Definition r_readRptSwPrototypingAccess : list ri * option vx :=
  ([RPut "setRptHookAccess" (VLeafX RLiteral (PLit "RPT-HOOK-ACCESS"));
     RPut "setRptReadAccess" (VLeafX RLiteral (PLit "RPT-READ-ACCESS"));
     RPut "setRptWriteAccess" (VLeafX RLiteral (PLit "RPT-WRITE-ACCESS"))],
   None).
(** arxml_parser.py:2929-2931 *)
Definition r_readRptImplPolicy : list ri * option vx :=
  ([RPut "setRptEnablerImplType" (VLeafX RLiteral (PLit "RPT-ENABLER-IMPL-TYPE"));
     RPut "setRptPreparationLevel" (VLeafX RLiteral (PLit "RPT-PREPARATION-LEVEL"))],
   None).
(** arxml_parser.py:2933-2937 *)
Definition r_readRptExecutableEntityProperties : list ri * option vx :=
  ([RPut "setMaxRptEventId" (VLeafX RPositive (PLit "MAX-RPT-EVENT-ID"));
     RPut "setMinRptEventId" (VLeafX RPositive (PLit "MIN-RPT-EVENT-ID"));
     RPut "setRptExecutionControl" (VLeafX RLiteral (PLit "RPT-EXECUTION-CONTROL"));
     RPut "setRptServicePoint" (VLeafX RLiteral (PLit "RPT-SERVICE-POINT"))],
   None).
(** arxml_parser.py:2939-2941 *)
Definition r_readRptServicePoint : list ri * option vx :=
  ([RPut "setServiceId" (VLeafX RPositive (PLit "SERVICE-ID"));
     RPut "setSymbol" (VLeafX RLiteral (PLit "SYMBOL"))],
   None).
(** arxml_parser.py:2943-2964 *)
Definition r_readRptExecutableEntityEvent : list ri * option vx :=
  ([RForVal (VLeafsX RRef (PLit "EXECUTION-CONTEXT-REFS/EXECUTION-CONTEXT-REF"))
       [RPut "addExecutionContextRef" VItemX];
     RFor (PLit "MC-DATA-ASSIGNMENTS/ROLE-BASED-MC-DATA-ASSIGNMENT")
       [RPut "addMcDataAssignment" (VNewX "RoleBasedMcDataAssignment" false [RCall "readRoleBasedMcDataAssignment" None])];
     RPut "setRptEventId" (VLeafX RPositive (PLit "RPT-EVENT-ID"));
     RFind (PLit "RPT-EXECUTABLE-ENTITY-PROPERTIES")
       [RPut "setRptExecutableEntityProperties" (VNewX "RptExecutableEntityProperties" false [RCall "readRptExecutableEntityProperties" None])]
       [];
     RFind (PLit "RPT-IMPL-POLICY")
       [RPut "setRptImplPolicy" (VNewX "RptImplPolicy" false [RCall "readRptImplPolicy" None])]
       [];
     RForVal (VLeafsX RRef (PLit "RPT-SERVICE-POINT-POST-REFS/RPT-SERVICE-POINT-POST-REF"))
       [RPut "addRptServicePointPostRef" VItemX];
     RForVal (VLeafsX RRef (PLit "RPT-SERVICE-POINT-PRE-REFS/RPT-SERVICE-POINT-PRE-REF"))
       [RPut "addRptServicePointPreRef" VItemX]],
   None).
(** arxml_parser.py:2966-2978 *)
Definition r_readRptExecutableEntity : list ri * option vx :=
  ([RFor (PLit "RPT-EXECUTABLE-ENTITY-EVENTS/RPT-EXECUTABLE-ENTITY-EVENT")
       [RCreate "createRptExecutableEntityEvent" true
          [RCall "readRptExecutableEntityEvent" None]];
     RFor (PLit "RPT-READS/ROLE-BASED-MC-DATA-ASSIGNMENT")
       [RPut "addRptRead" (VNewX "RoleBasedMcDataAssignment" false [RCall "readRoleBasedMcDataAssignment" None])];
     RFor (PLit "RPT-WRITES/ROLE-BASED-MC-DATA-ASSIGNMENT")
       [RPut "addRptWrite" (VNewX "RoleBasedMcDataAssignment" false [RCall "readRoleBasedMcDataAssignment" None])];
     RPut "setSymbol" (VLeafX RLiteral (PLit "SYMBOL"))],
   None).
(** arxml_parser.py:2980-2992 *)
Definition r_readRptComponent : list ri * option vx :=
  ([RFor (PLit "MC-DATA-ASSIGNMENTS/ROLE-BASED-MC-DATA-ASSIGNMENT")
       [RPut "addMcDataAssignment" (VNewX "RoleBasedMcDataAssignment" false [RCall "readRoleBasedMcDataAssignment" None])];
     RFind (PLit "RP-IMPL-POLICY")
       [RPut "setRpImplPolicy" (VNewX "RptImplPolicy" false [RCall "readRptImplPolicy" None])]
       [];
     RFor (PLit "RPT-EXECUTABLE-ENTITYS/RPT-EXECUTABLE-ENTITY")
       [RCreate "createRptExecutableEntity" true
          [RCall "readRptExecutableEntity" None]]],
   None).
(** arxml_parser.py:2994-3002 *)
Definition r_readRptSupportData : list ri * option vx :=
  ([RFor (PLit "EXECUTION-CONTEXTS/RPT-EXECUTION-CONTEXT")
       [RCreate "createExecutionContext" true
          []];
     RFor (PLit "RPT-COMPONENTS/RPT-COMPONENT")
       [RCreate "createRptComponent" true
          [RCall "readRptComponent" None]];
     RFor (PLit "RPT-SERVICE-POINTS/RPT-SERVICE-POINT")
       [RCreate "createRptServicePoint" true
          [RCall "readRptServicePoint" None]]],
   None).
(** arxml_parser.py:3004-3009 *)
Definition r_readBuildActionManifests : list ri * option vx :=
  ([RFind (PLit "BUILD-ACTION-MANIFESTS")
       [RIf (CGot (VLeafX RRef (PLit "BUILD-ACTION-MANIFEST-REF-CONDITIONAL/BUILD-ACTION-MANIFEST-REF")))
          [RPut "setBuildActionManifestRef" (VLeafX RRef (PLit "BUILD-ACTION-MANIFEST-REF-CONDITIONAL/BUILD-ACTION-MANIFEST-REF"))]
          []]
       []],
   None).
(** arxml_parser.py:3011-3015 *)
Definition r_readBswImplementationVendorSpecificModuleDefRefs : list ri * option vx :=
  ([RFind (PLit "VENDOR-SPECIFIC-MODULE-DEF-REFS")
       [RForVal (VLeafsX RRef (PLit "VENDOR-SPECIFIC-MODULE-DEF-REF"))
          [RPut "addVendorSpecificModuleDefRef" VItemX]]
       []],
   None).
(** arxml_parser.py:3017-3021 *)
Definition r_readBswImplementationPreconfiguredConfigurationRefs : list ri * option vx :=
  ([RFind (PLit "PRECONFIGURED-CONFIGURATION-REFS")
       [RForVal (VLeafsX RRef (PLit "PRECONFIGURED-CONFIGURATION-REF"))
          [RPut "addPreconfiguredConfigurationRef" VItemX]]
       []],
   None).
(** arxml_parser.py:3023-3027 *)
Definition r_readBswImplementationRecommendedConfigurationRefs : list ri * option vx :=
  ([RFind (PLit "RECOMMENDED-CONFIGURATION-REFS")
       [RForVal (VLeafsX RRef (PLit "RECOMMENDED-CONFIGURATION-REF"))
          [RPut "addRecommendedConfigurationRef" VItemX]]
       []],
   None).
(** arxml_parser.py:3029-3041 *)
Definition r_readBswImplementation : list ri * option vx :=
  ([RCall "readImplementation" None;
     RPut "setArReleaseVersion" (VLeafX RLiteral (PLit "AR-RELEASE-VERSION"));
     RPut "setBehaviorRef" (VLeafX RRef (PLit "BEHAVIOR-REF"));
     RPut "setVendorApiInfix" (VLeafX RLiteral (PLit "VENDOR-API-INFIX"));
     RCall "readBswImplementationPreconfiguredConfigurationRefs" None;
     RCall "readBswImplementationRecommendedConfigurationRefs" None;
     RCall "readBswImplementationVendorSpecificModuleDefRefs" None;
     RIf (CObjHas [GA "short_name"]) [] [RIf (CObjHas [GM "getBehaviorRef"]) [RFail TypeError false] []]],
   None).
(** arxml_parser.py:3043-3050; getFullName fails without a name; the entry in the map of behaviours
    (3050) is left out, as in readBswImplementation *)
Definition r_readSwcImplementation : list ri * option vx :=
  ([RCall "readImplementation" None;
     RPut "setBehaviorRef" (VLeafX RRef (PLit "BEHAVIOR-REF"));
     RIf (CObjHas [GA "short_name"]) [] [RIf (CObjHas [GM "getBehaviorRef"]) [RFail TypeError false] []]],
   None).
(** arxml_parser.py:3052-3053 *)
Definition r_readRunnableEntityDataReceivePointByArguments : list ri * option vx :=
  ([RCall "_readVariableAccesses" (Some (TLit "DATA-RECEIVE-POINT-BY-ARGUMENTS"))],
   None).
(** arxml_parser.py:3055-3056 *)
Definition r_readRunnableEntityDataReceivePointByValues : list ri * option vx :=
  ([RCall "_readVariableAccesses" (Some (TLit "DATA-RECEIVE-POINT-BY-VALUES"))],
   None).
(** arxml_parser.py:3058-3059 *)
Definition r_readRunnableEntityDataReadAccesses : list ri * option vx :=
  ([RCall "_readVariableAccesses" (Some (TLit "DATA-READ-ACCESSS"))],
   None).
(** arxml_parser.py:3061-3062 *)
Definition r_readRunnableEntityDataWriteAccesses : list ri * option vx :=
  ([RCall "_readVariableAccesses" (Some (TLit "DATA-WRITE-ACCESSS"))],
   None).
(** arxml_parser.py:3064-3065 *)
Definition r_readRunnableEntityDataSendPoints : list ri * option vx :=
  ([RCall "_readVariableAccesses" (Some (TLit "DATA-SEND-POINTS"))],
   None).
(** arxml_parser.py:3067-3070 *)
Definition r_getRunnableEntityArgument : list ri * option vx :=
  ([],
   Some (VNewX "RunnableEntityArgument" false [RPut "setSymbol" (VLeafX RLiteral (PLit "SYMBOL"))])).
(** arxml_parser.py:3072-3082 *)
Definition r_getParameterInAtomicSWCTypeInstanceRef : list ri * option vx :=
  ([],
   Some (VFindX PKey (VNewX "ParameterInAtomicSWCTypeInstanceRef" false [RForVal (VLeafsX RRef (PLit "CONTEXT-DATA-PROTOTYPE-REF"))
         [RPut "addContextDataPrototypeRef" VItemX];
       RPut "setPortPrototypeRef" (VLeafX RRef (PLit "PORT-PROTOTYPE-REF"));
       RPut "setRootParameterDataPrototypeRef" (VLeafX RRef (PLit "ROOT-PARAMETER-DATA-PROTOTYPE-REF"));
       RPut "setTargetDataPrototypeRef" (VLeafX RRef (PLit "TARGET-DATA-PROTOTYPE-REF"))]) VNoneX)).
(** arxml_parser.py:3084-3091 *)
Definition r_getAutosarParameterRef : list ri * option vx :=
  ([],
   Some (VFindX PKey (VNewX "AutosarParameterRef" false [RPut "setAutosarParameterIRef" (VGetX "getParameterInAtomicSWCTypeInstanceRef" (Some (TLit "AUTOSAR-PARAMETER-IREF")));
       RPut "setLocalParameterRef" (VLeafX RRef (PLit "LOCAL-PARAMETER-REF"))]) VNoneX)).
(** arxml_parser.py:3093-3095 *)
Definition r_readParameterAccess : list ri * option vx :=
  ([RCall "readIdentifiable" None;
     RPut "setAccessedParameter" (VGetX "getAutosarParameterRef" (Some (TLit "ACCESSED-PARAMETER")))],
   None).
(** arxml_parser.py:3097-3102 *)
Definition r_readRunnableEntityParameterAccesses : list ri * option vx :=
  ([RFor (PLit "PARAMETER-ACCESSS/PARAMETER-ACCESS")
       [RCreate "createParameterAccess" true
          [RCall "readParameterAccess" None]]],
   None).
(** arxml_parser.py:3104-3105 *)
Definition r_readRunnableEntityWrittenLocalVariables : list ri * option vx :=
  ([RCall "_readVariableAccesses" (Some (TLit "WRITTEN-LOCAL-VARIABLES"))],
   None).
(** arxml_parser.py:3107-3108 *)
Definition r_readRunnableEntityReadLocalVariables : list ri * option vx :=
  ([RCall "_readVariableAccesses" (Some (TLit "READ-LOCAL-VARIABLES"))],
   None).
(** arxml_parser.py:3110-3117 *)
Definition r_readROperationIRef : list ri * option vx :=
  ([RFind PKey
       [RPut "setOperationIRef" (VNewX "ROperationInAtomicSwcInstanceRef" false [RAttrs;
            RPut "setContextRPortRef" (VLeafX RRef (PLit "CONTEXT-R-PORT-REF"));
            RPut "setTargetRequiredOperationRef" (VLeafX RRef (PLit "TARGET-REQUIRED-OPERATION-REF"))])]
       []],
   None).
(** arxml_parser.py:3119-3125 *)
Definition r_readRVariableInAtomicSwcInstanceRef : list ri * option vx :=
  ([RFind (PLit "DATA-IREF")
       [RPut "setDataIRef" (VNewX "RVariableInAtomicSwcInstanceRef" false [RPut "setContextRPortRef" (VLeafX RRef (PLit "CONTEXT-R-PORT-REF"));
            RPut "setTargetDataElementRef" (VLeafX RRef (PLit "TARGET-DATA-ELEMENT-REF"))])]
       []],
   None).
(** arxml_parser.py:3127-3133 *)
Definition r_readRModeInAtomicSwcInstanceRef : list ri * option vx :=
  ([RFor (PLit "MODE-IREFS/MODE-IREF")
       [RPut "addModeIRef" (VNewX "RModeInAtomicSwcInstanceRef" false [RPut "setContextPortRef" (VLeafX RRef (PLit "CONTEXT-PORT-REF"));
            RPut "setContextModeDeclarationGroupPrototypeRef" (VLeafX RRef (PLit "CONTEXT-MODE-DECLARATION-GROUP-PROTOTYPE-REF"));
            RPut "setTargetModeDeclarationRef" (VLeafX RRef (PLit "TARGET-MODE-DECLARATION-REF"))])]],
   None).
(** arxml_parser.py:3135-3141 *)
Definition r_readSynchronousServerCallPoint : list ri * option vx :=
  ([RCreate "createSynchronousServerCallPoint" true
       [RCall "readIdentifiable" None;
        RPut "setTimeout" (VLeafX RFloat (PLit "TIMEOUT"));
        RCall "readROperationIRef" (Some (TLit "OPERATION-IREF"))]],
   None).
(** arxml_parser.py:3143-3149 *)
Definition r_readAsynchronousServerCallPoint : list ri * option vx :=
  ([RCreate "createAsynchronousServerCallPoint" true
       [RCall "readIdentifiable" None;
        RPut "setTimeout" (VLeafX RFloat (PLit "TIMEOUT"));
        RCall "readROperationIRef" (Some (TLit "OPERATION-IREF"))]],
   None).
(** arxml_parser.py:3151-3159 *)
Definition r_readRunnableEntityInternalBehaviorServerCallPoint : list ri * option vx :=
  ([RFor (PLit "SERVER-CALL-POINTS/*")
       [RIf (CTag "SYNCHRONOUS-SERVER-CALL-POINT")
          [RCall "readSynchronousServerCallPoint" None]
          [RIf (CTag "ASYNCHRONOUS-SERVER-CALL-POINT")
             [RCall "readAsynchronousServerCallPoint" None]
             [RFail ValueError true]]]],
   None).
(** arxml_parser.py:3161-3165 *)
Definition r_readRunnableEntityInternalTriggeringPoints : list ri * option vx :=
  ([RFor (PLit "INTERNAL-TRIGGERING-POINTS/INTERNAL-TRIGGERING-POINT")
       [RCreate "createInternalTriggeringPoint" true
          [RSet "sw_impl_policy" (VLeafX RLiteral (PLit "SW-IMPL-POLICY"))]]],
   None).
(** arxml_parser.py:3167-3178 *)
Definition r_readRunnableEntityExternalTriggeringPoints : list ri * option vx :=
  ([RFor (PLit "EXTERNAL-TRIGGERING-POINTS/EXTERNAL-TRIGGERING-POINT")
       [RPut "addExternalTriggeringPoint" (VNewX "ExternalTriggeringPoint" false [RFind (PLit "IDENT")
              [RCreate "createIdent" true
                 []]
              [];
            RFind (PLit "TRIGGER-IREF")
              [RPut "setTrigger" (VNewX "PTriggerInAtomicSwcTypeInstanceRef" false [RCall "readPTriggerInAtomicSwcTypeInstanceRef" None])]
              []])]],
   None).
(** arxml_parser.py:3180-3182 *)
Definition r_readModeGroupInAtomicSwcInstanceRef : list ri * option vx :=
  ([RPut "setBaseRef" (VLeafX RRef (PLit "BASE-REF"));
     RPut "setContextPortRef" (VLeafX RRef (PLit "CONTEXT-PORT-REF"))],
   None).
(** arxml_parser.py:3184-3187 *)
Definition r_readRModeGroupInAtomicSWCInstanceRef : list ri * option vx :=
  ([RCall "readModeGroupInAtomicSwcInstanceRef" None;
     RPut "setContextRPortRef" (VLeafX RRef (PLit "CONTEXT-R-PORT-REF"));
     RPut "setTargetModeGroupRef" (VLeafX RRef (PLit "TARGET-MODE-GROUP-REF"))],
   None).
(** arxml_parser.py:3189-3192 *)
Definition r_readPModeGroupInAtomicSWCInstanceRef : list ri * option vx :=
  ([RCall "readModeGroupInAtomicSwcInstanceRef" None;
     RPut "setContextPPortRef" (VLeafX RRef (PLit "CONTEXT-P-PORT-REF"));
     RPut "setTargetModeGroupRef" (VLeafX RRef (PLit "TARGET-MODE-GROUP-REF"))],
   None).
(** arxml_parser.py:3194-3196 *)
Definition r_readPTriggerInAtomicSwcTypeInstanceRef : list ri * option vx :=
  ([RPut "setContextPPortRef" (VLeafX RRef (PLit "CONTEXT-P-PORT-REF"));
     RPut "setTargetTriggerRef" (VLeafX RRef (PLit "TARGET-TRIGGER-REF"))],
   None).
(** arxml_parser.py:3198-3201 *)
Definition r_readInnerDataPrototypeGroupInCompositionInstanceRef : list ri * option vx :=
  ([RForVal (VLeafsX RRef (PLit "CONTEXT-SW-COMPONENT-PROTOTYPE-REF"))
       [RPut "addContextSwComponentPrototypeRef" VItemX];
     RPut "setTargetDataPrototypeGroupRef" (VLeafX RRef (PLit "TARGET-DATA-PROTOTYPE-GROUP-REF"))],
   None).
(** arxml_parser.py:3203-3206 *)
Definition r_readInnerRunnableEntityGroupInCompositionInstanceRef : list ri * option vx :=
  ([RForVal (VLeafsX RRef (PLit "CONTEXT-SW-COMPONENT-PROTOTYPE-REF"))
       [RPut "addContextSwComponentPrototypeRef" VItemX];
     RPut "setTargetRunnableEntityGroupRef" (VLeafX RRef (PLit "TARGET-RUNNABLE-ENTITY-GROUP-REF"))],
   None).
(** arxml_parser.py:3208-3211 *)
Definition r_readRunnableEntityInCompositionInstanceRef : list ri * option vx :=
  ([RForVal (VLeafsX RRef (PLit "CONTEXT-SW-COMPONENT-PROTOTYPE-REF"))
       [RPut "addContextSwComponentPrototypeRef" VItemX];
     RPut "setTargetRunnableEntityRef" (VLeafX RRef (PLit "TARGET-RUNNABLE-ENTITY-REF"))],
   None).
(** arxml_parser.py:3213-3217 *)
Definition r_readVariableDataPrototypeInCompositionInstanceRef : list ri * option vx :=
  ([RForVal (VLeafsX RRef (PLit "CONTEXT-SW-COMPONENT-PROTOTYPE-REF"))
       [RPut "addContextSwComponentPrototypeRef" VItemX];
     RPut "setContextPortPrototypeRef" (VLeafX RRef (PLit "CONTEXT-PORT-PROTOTYPE-REF"));
     RPut "setTargetVariableDataPrototypeRef" (VLeafX RRef (PLit "TARGET-VARIABLE-DATA-PROTOTYPE-REF"))],
   None).
(** arxml_parser.py:3219-3223 *)
Definition r_readDataPrototypeGroupDataPrototypeGroupIRefs : list ri * option vx :=
  ([RFor (PLit "DATA-PROTOTYPE-GROUP-IREFS/DATA-PROTOTYPE-GROUP-IREF")
       [RPut "addDataPrototypeGroupIRef" (VNewX "InnerDataPrototypeGroupInCompositionInstanceRef" false [RCall "readInnerDataPrototypeGroupInCompositionInstanceRef" None])]],
   None).
(** arxml_parser.py:3225-3229 *)
Definition r_readDataPrototypeGroupImplicitDataAccessIRefs : list ri * option vx :=
  ([RFor (PLit "IMPLICIT-DATA-ACCESS-IREFS/IMPLICIT-DATA-ACCESS-IREF")
       [RPut "addImplicitDataAccessIRef" (VNewX "VariableDataPrototypeInCompositionInstanceRef" false [RCall "readVariableDataPrototypeInCompositionInstanceRef" None])]],
   None).
(** arxml_parser.py:3231-3235 *)
Definition r_readDataPrototypeGroup : list ri * option vx :=
  ([RCall "readIdentifiable" None;
     RCall "readDataPrototypeGroupDataPrototypeGroupIRefs" None;
     RCall "readDataPrototypeGroupImplicitDataAccessIRefs" None],
   None).
(** arxml_parser.py:3237-3241 *)
Definition r_readRunnableEntityGroupRunnableEntityGroupIRefs : list ri * option vx :=
  ([RFor (PLit "RUNNABLE-ENTITY-GROUP-IREFS/RUNNABLE-ENTITY-GROUP-IREF")
       [RPut "addRunnableEntityGroupIRef" (VNewX "InnerRunnableEntityGroupInCompositionInstanceRef" false [RCall "readInnerRunnableEntityGroupInCompositionInstanceRef" None])]],
   None).
(** arxml_parser.py:3243-3247 *)
Definition r_readRunnableEntityGroupRunnableEntityIRefs : list ri * option vx :=
  ([RFor (PLit "RUNNABLE-ENTITY-IREFS/RUNNABLE-ENTITY-IREF")
       [RPut "addRunnableEntityIRef" (VNewX "RunnableEntityInCompositionInstanceRef" false [RCall "readRunnableEntityInCompositionInstanceRef" None])]],
   None).
(** arxml_parser.py:3249-3253 *)
Definition r_readRunnableEntityGroup : list ri * option vx :=
  ([RCall "readIdentifiable" None;
     RCall "readRunnableEntityGroupRunnableEntityGroupIRefs" None;
     RCall "readRunnableEntityGroupRunnableEntityIRefs" None],
   None).
(** arxml_parser.py:3255-3258 *)
Definition r_readConsistencyNeedsDpgDoesNotRequireCoherencys : list ri * option vx :=
  ([RFor (PLit "DPG-DOES-NOT-REQUIRE-COHERENCYS/DATA-PROTOTYPE-GROUP")
       [RCreate "createDpgDoesNotRequireCoherency" true
          [RCall "readDataPrototypeGroup" None]]],
   None).
(** arxml_parser.py:3260-3263 *)
Definition r_readConsistencyNeedsDpgRequiresCoherencys : list ri * option vx :=
  ([RFor (PLit "DPG-REQUIRES-COHERENCYS/DATA-PROTOTYPE-GROUP")
       [RCreate "createDpgRequiresCoherency" true
          [RCall "readDataPrototypeGroup" None]]],
   None).
(** arxml_parser.py:3265-3268 *)
Definition r_readConsistencyNeedsRegDoesNotRequireStabilitys : list ri * option vx :=
  ([RFor (PLit "REG-DOES-NOT-REQUIRE-STABILITYS/RUNNABLE-ENTITY-GROUP")
       [RCreate "createRegDoesNotRequireStability" true
          [RCall "readRunnableEntityGroup" None]]],
   None).
(** arxml_parser.py:3270-3273 *)
Definition r_readConsistencyNeedsRegRequiresStabilitys : list ri * option vx :=
  ([RFor (PLit "REG-REQUIRES-STABILITYS/RUNNABLE-ENTITY-GROUP")
       [RCreate "createRegRequiresStability" true
          [RCall "readRunnableEntityGroup" None]]],
   None).
(** arxml_parser.py:3275-3281 *)
Definition r_readConsistencyNeeds : list ri * option vx :=
  ([RCall "readIdentifiable" None;
     RCall "readConsistencyNeedsDpgDoesNotRequireCoherencys" None;
     RCall "readConsistencyNeedsDpgRequiresCoherencys" None;
     RCall "readConsistencyNeedsRegDoesNotRequireStabilitys" None;
     RCall "readConsistencyNeedsRegRequiresStabilitys" None],
   None).
(** arxml_parser.py:3283-3295 *)
Definition r_getModeGroupIRef : list ri * option vx :=
  ([RFor (PKeyThen "/*")
       [RIf (CTag "P-MODE-GROUP-IN-ATOMIC-SWC-INSTANCE-REF")
          []
          [RIf (CTag "R-MODE-GROUP-IN-ATOMIC-SWC-INSTANCE-REF")
             []
             [RFail NotImplementedError true]]]],
   Some (VLastX (PKeyThen "/*") (VIfX (CTag "P-MODE-GROUP-IN-ATOMIC-SWC-INSTANCE-REF") (VNewX "PModeGroupInAtomicSwcInstanceRef" false [RCall "readPModeGroupInAtomicSWCInstanceRef" None]) (VIfX (CTag "R-MODE-GROUP-IN-ATOMIC-SWC-INSTANCE-REF") (VNewX "RModeGroupInAtomicSWCInstanceRef" false [RCall "readRModeGroupInAtomicSWCInstanceRef" None]) VNoneX)))).
(** arxml_parser.py:3297-3299 *)
Definition r_readModeAccessPoint : list ri * option vx :=
  ([RAttrs;
     RPut "setModeGroupIRef" (VGetX "getModeGroupIRef" (Some (TLit "MODE-GROUP-IREF")))],
   None).
(** arxml_parser.py:3301-3309 *)
Definition r_readRunnableEntityModeAccessPoints : list ri * option vx :=
  ([RFor (PLit "MODE-ACCESS-POINTS/*")
       [RIf (CTag "MODE-ACCESS-POINT")
          [RPut "addModeAccessPoint" (VNewX "ModeAccessPoint" false [RCall "readModeAccessPoint" None])]
          [RFail NotImplementedError true]]],
   None).
(** arxml_parser.py:3311-3316 *)
Definition r_readModeSwitchPointModeGroupIRef : list ri * option vx :=
  ([RFind (PLit "MODE-GROUP-IREF")
       [RPut "setModeGroupIRef" (VNewX "PModeGroupInAtomicSwcInstanceRef" false [RCall "readPModeGroupInAtomicSWCInstanceRef" None])]
       []],
   None).
(** arxml_parser.py:3318-3320 *)
Definition r_readModeSwitchPoint : list ri * option vx :=
  ([RAttrs;
     RCall "readModeSwitchPointModeGroupIRef" None],
   None).
(** arxml_parser.py:3322-3329 *)
Definition r_readRunnableEntityModeSwitchPoints : list ri * option vx :=
  ([RFor (PLit "MODE-SWITCH-POINTS/*")
       [RIf (CTag "MODE-SWITCH-POINT")
          [RCreate "createModeSwitchPoint" true
             [RCall "readModeSwitchPoint" None]]
          [RFail NotImplementedError true]]],
   None).
(** arxml_parser.py:3331-3337 *)
Definition r_readRunnableEntityArguments : list ri * option vx :=
  ([RFor (PLit "ARGUMENTS/*")
       [RIf (CTag "RUNNABLE-ENTITY-ARGUMENT")
          [RPut "addArgument" (VGetX "getRunnableEntityArgument" None)]
          [RFail NotImplementedError true]]],
   None).
(** arxml_parser.py:3339-3343 *)
Definition r_readRunnableEntityAsynchronousServerCallResultPoint : list ri * option vx :=
  ([RFor (PLit "ASYNCHRONOUS-SERVER-CALL-RESULT-POINTS/ASYNCHRONOUS-SERVER-CALL-RESULT-POINT")
       [RCreate "createAsynchronousServerCallResultPoint" true
          [RCall "readIdentifiable" None;
           RPut "setAsynchronousServerCallPointRef" (VLeafX RRef (PLit "ASYNCHRONOUS-SERVER-CALL-POINT-REF"))]]],
   None).
(** arxml_parser.py:3345-3350 *)
Definition r_readRunnableEntityWaitPoints : list ri * option vx :=
  ([RFor (PLit "WAIT-POINTS/WAIT-POINT")
       [RCreate "createWaitPoint" true
          [RCall "readIdentifiable" None;
           RPut "setTimeout" (VLeafX RTime (PLit "TIMEOUT"));
           RPut "setTriggerRef" (VLeafX RRef (PLit "TRIGGER"))]]],
   None).
(** arxml_parser.py:3352-3373 *)
Definition r_readRunnableEntity : list ri * option vx :=
  ([RCall "readExecutableEntity" None;
     RCall "readRunnableEntityArguments" None;
     RCall "readRunnableEntityAsynchronousServerCallResultPoint" None;
     RPut "setCanBeInvokedConcurrently" (VLeafX RBool (PLit "CAN-BE-INVOKED-CONCURRENTLY"));
     RCall "readRunnableEntityDataReadAccesses" None;
     RCall "readRunnableEntityDataReceivePointByArguments" None;
     RCall "readRunnableEntityDataReceivePointByValues" None;
     RCall "readRunnableEntityDataWriteAccesses" None;
     RCall "readRunnableEntityDataSendPoints" None;
     RCall "readRunnableEntityInternalBehaviorServerCallPoint" None;
     RCall "readRunnableEntityInternalTriggeringPoints" None;
     RCall "readRunnableEntityExternalTriggeringPoints" None;
     RCall "readRunnableEntityModeAccessPoints" None;
     RCall "readRunnableEntityModeSwitchPoints" None;
     RCall "readRunnableEntityParameterAccesses" None;
     RCall "readRunnableEntityReadLocalVariables" None;
     RCall "readRunnableEntityWaitPoints" None;
     RCall "readRunnableEntityWrittenLocalVariables" None;
     RPut "setSymbol" (VLeafX RLiteral (PLit "SYMBOL"))],
   None).
(** arxml_parser.py:3375-3382 *)
Definition r_readSwcInternalBehaviorRunnables : list ri * option vx :=
  ([RFor (PLit "RUNNABLES/*")
       [RIf (CTag "RUNNABLE-ENTITY")
          [RCreate "createRunnableEntity" true
             [RCall "readRunnableEntity" None]]
          [RFail NotImplementedError true]]],
   None).
(** arxml_parser.py:3384-3390 *)
Definition r_getRModeInAtomicSwcInstanceRef : list ri * option vx :=
  ([],
   Some (VNewX "RModeInAtomicSwcInstanceRef" false [RPut "setBaseRef" (VLeafX RRef (PLit "BASE-REF"));
      RPut "setContextPortRef" (VLeafX RRef (PLit "CONTEXT-PORT-REF"));
      RPut "setContextModeDeclarationGroupPrototypeRef" (VLeafX RRef (PLit "CONTEXT-MODE-DECLARATION-GROUP-PROTOTYPE-REF"));
      RPut "setTargetModeDeclarationRef" (VLeafX RRef (PLit "TARGET-MODE-DECLARATION-REF"))])).
(** arxml_parser.py:3392-3397 *)
Definition r_getModeInBswModuleDescriptionInstanceRef : list ri * option vx :=
  ([],
   Some (VNewX "ModeInBswModuleDescriptionInstanceRef" false [RAttrs;
      RPut "setContextModeDeclarationGroupRef" (VLeafX RRef (PLit "CONTEXT-MODE-DECLARATION-GROUP-REF"));
      RPut "setTargetModeRef" (VLeafX RRef (PLit "TARGET-MODE-REF"))])).
(** arxml_parser.py:3399-3405 *)
Definition r_readRTEEvent : list ri * option vx :=
  ([RCall "readIdentifiable" None;
     RSet "activationReasonRepresentationRef" (VLeafX RRef (PLit "ACTIVATION-REASON-REPRESENTATION-REF"));
     RSet "startOnEventRef" (VLeafX RRef (PLit "START-ON-EVENT-REF"));
     RFor (PLit "DISABLED-MODE-IREFS/DISABLED-MODE-IREF")
       [RPut "addDisabledModeIRef" (VGetX "getRModeInAtomicSwcInstanceRef" None)]],
   None).
(** arxml_parser.py:3407-3414 *)
Definition r_readPOperationIRef : list ri * option vx :=
  ([RFind PKey
       [RPut "setOperationIRef" (VNewX "POperationInAtomicSwcInstanceRef" false [RAttrs;
            RPut "setContextPPortRef" (VReqX RRef (PLit "CONTEXT-P-PORT-REF"));
            RPut "setTargetProvidedOperationRef" (VReqX RRef (PLit "TARGET-PROVIDED-OPERATION-REF"))])]
       []],
   None).
(** arxml_parser.py:3416-3419 *)
Definition r_readOperationInvokedEvent : list ri * option vx :=
  ([RCall "readPOperationIRef" (Some (TLit "OPERATION-IREF"));
     RCall "readRTEEvent" None],
   None).
(** arxml_parser.py:3421-3423 *)
Definition r_readVariableDataPrototype : list ri * option vx :=
  ([RCall "readAutosarDataPrototype" None;
     RPut "setInitValue" (VGetX "getInitValue" None)],
   None).
(** arxml_parser.py:3425-3429 *)
Definition r_readSwcInternalBehaviorExplicitInterRunnableVariables : list ri * option vx :=
  ([RFor (PLit "EXPLICIT-INTER-RUNNABLE-VARIABLES/VARIABLE-DATA-PROTOTYPE")
       [RCreate "createExplicitInterRunnableVariable" true
          [RCall "readVariableDataPrototype" None]]],
   None).
(** arxml_parser.py:3431-3439 *)
Definition r_readSwcInternalBehaviorPerInstanceMemories : list ri * option vx :=
  ([RFor (PLit "PER-INSTANCE-MEMORYS/PER-INSTANCE-MEMORY")
       [RCreate "createPerInstanceMemory" true
          [RCall "readIdentifiable" None;
           RPut "setInitValue" (VLeafX RLiteral (PLit "INIT-VALUE"));
           RPut "setSwDataDefProps" (VGetX "getSwDataDefProps" (Some (TLit "SW-DATA-DEF-PROPS")));
           RPut "setType" (VLeafX RLiteral (PLit "TYPE"));
           RPut "setTypeDefinition" (VLeafX RLiteral (PLit "TYPE-DEFINITION"))]]],
   None).
(** arxml_parser.py:3441-3443 *)
Definition r_readAutosarDataPrototype : list ri * option vx :=
  ([RCall "readDataPrototype" None;
     RPut "setTypeTRef" (VLeafX RRef (PLit "TYPE-TREF"))],
   None).
(** arxml_parser.py:3445-3447 *)
Definition r_readParameterDataPrototype : list ri * option vx :=
  ([RCall "readAutosarDataPrototype" None;
     RPut "setInitValue" (VGetX "getInitValue" None)],
   None).
(** arxml_parser.py:3449-3453 *)
Definition r_readSwcInternalBehaviorPerInstanceParameters : list ri * option vx :=
  ([RFor (PLit "PER-INSTANCE-PARAMETERS/PARAMETER-DATA-PROTOTYPE")
       [RCreate "createPerInstanceParameter" true
          [RCall "readParameterDataPrototype" None]]],
   None).
(** arxml_parser.py:3455-3461 *)
Definition r_readPortDefinedArgumentValue : list ri * option vx :=
  ([],
   Some (VNewX "PortDefinedArgumentValue" false [RFind (PLit "VALUE/*")
        [RPut "setValue" (VGetX "getValueSpecification" (Some TOwn))]
        [];
      RPut "setValueTypeTRef" (VLeafX RRef (PLit "VALUE-TYPE-TREF"))])).
(** arxml_parser.py:3463-3472 *)
Definition r_readSwcInternalBehaviorPortAPIOptions : list ri * option vx :=
  ([RFor (PLit "PORT-API-OPTIONS/PORT-API-OPTION")
       [RPut "addPortAPIOption" (VNewX "PortAPIOption" false [RPut "setEnableTakeAddress" (VLeafX RBool (PLit "ENABLE-TAKE-ADDRESS"));
            RPut "setErrorHandling" (VLeafX RLiteral (PLit "ERROR-HANDLING"));
            RPut "setIndirectAPI" (VLeafX RBool (PLit "INDIRECT-API"));
            RPut "setPortRef" (VLeafX RRef (PLit "PORT-REF"));
            RFor (PLit "PORT-ARG-VALUES/PORT-DEFINED-ARGUMENT-VALUE")
              [RPut "addPortArgValue" (VGetX "readPortDefinedArgumentValue" None)]])]],
   None).
(** arxml_parser.py:3474-3478 *)
Definition r_readTimingEvent : list ri * option vx :=
  ([RCall "readRTEEvent" None;
     RPut "setOffset" (VLeafX RTime (PLit "OFFSET"));
     RPut "setPeriod" (VLeafX RTime (PLit "PERIOD"))],
   None).
(** arxml_parser.py:3480-3483 *)
Definition r_readDataReceivedEvent : list ri * option vx :=
  ([RCall "readRTEEvent" None;
     RCall "readRVariableInAtomicSwcInstanceRef" None],
   None).
(** arxml_parser.py:3485-3491 *)
Definition r_readSwcModeSwitchEvent : list ri * option vx :=
  ([RCall "readRTEEvent" None;
     RIf (CGot (VLeafX RLiteral (PLit "ACTIVATION")))
       [RPut "setActivation" (VWrapX "ModeActivationKind" "setValue" (VValueX (VLeafX RLiteral (PLit "ACTIVATION"))))]
       [];
     RCall "readRModeInAtomicSwcInstanceRef" None],
   None).
(** arxml_parser.py:3493-3496 *)
Definition r_readInternalTriggerOccurredEvent : list ri * option vx :=
  ([RCall "readRTEEvent" None;
     RPut "setEventSourceRef" (VLeafX RRef (PLit "EVENT-SOURCE-REF"))],
   None).
(** arxml_parser.py:3498-3500 *)
Definition r_readInitEvent : list ri * option vx :=
  ([RCall "readRTEEvent" None],
   None).
(** arxml_parser.py:3502-3505 *)
Definition r_readAsynchronousServerCallReturnsEvent : list ri * option vx :=
  ([RCall "readRTEEvent" None;
     RPut "setEventSourceRef" (VLeafX RRef (PLit "EVENT-SOURCE-REF"))],
   None).
(** arxml_parser.py:3507-3510 *)
Definition r_readModeSwitchedAckEvent : list ri * option vx :=
  ([RCall "readRTEEvent" None;
     RPut "setEventSourceRef" (VLeafX RRef (PLit "EVENT-SOURCE-REF"))],
   None).
(** arxml_parser.py:3512-3514 *)
Definition r_readBackgroundEvent : list ri * option vx :=
  ([RCall "readRTEEvent" None],
   None).
(** arxml_parser.py:3516-3519 *)
Definition r_readDataSendCompletedEvent : list ri * option vx :=
  ([RCall "readRTEEvent" None;
     RPut "setEventSourceRef" (VLeafX RRef (PLit "EVENT-SOURCE-REF"))],
   None).
(** arxml_parser.py:3521-3555 *)
Definition r_readSwcInternalBehaviorEvents : list ri * option vx :=
  ([RFor (PLit "EVENTS/*")
       [RIf (CTag "TIMING-EVENT")
          [RCreate "createTimingEvent" true
             [RCall "readTimingEvent" None]]
          [RIf (CTag "SWC-MODE-SWITCH-EVENT")
             [RCreate "createSwcModeSwitchEvent" true
                [RCall "readSwcModeSwitchEvent" None]]
             [RIf (CTag "OPERATION-INVOKED-EVENT")
                [RCreate "createOperationInvokedEvent" true
                   [RCall "readOperationInvokedEvent" None]]
                [RIf (CTag "DATA-RECEIVED-EVENT")
                   [RCreate "createDataReceivedEvent" true
                      [RCall "readDataReceivedEvent" None]]
                   [RIf (CTag "INTERNAL-TRIGGER-OCCURRED-EVENT")
                      [RCreate "createInternalTriggerOccurredEvent" true
                         [RCall "readInternalTriggerOccurredEvent" None]]
                      [RIf (CTag "INIT-EVENT")
                         [RCreate "createInitEvent" true
                            [RCall "readInitEvent" None]]
                         [RIf (CTag "ASYNCHRONOUS-SERVER-CALL-RETURNS-EVENT")
                            [RCreate "createAsynchronousServerCallReturnsEvent" true
                               [RCall "readAsynchronousServerCallReturnsEvent" None]]
                            [RIf (CTag "MODE-SWITCHED-ACK-EVENT")
                               [RCreate "createModeSwitchedAckEvent" true
                                  [RCall "readModeSwitchedAckEvent" None]]
                               [RIf (CTag "BACKGROUND-EVENT")
                                  [RCreate "createBackgroundEvent" true
                                     [RCall "readBackgroundEvent" None]]
                                  [RIf (CTag "DATA-SEND-COMPLETED-EVENT")
                                     [RCreate "createDataSendCompletedEvent" true
                                        [RCall "readDataSendCompletedEvent" None]]
                                     [RFail NotImplementedError true]]]]]]]]]]]],
   None).
(** arxml_parser.py:3557-3565 *)
Definition r_getSwPointerTargetProps : list ri * option vx :=
  ([],
   Some (VFindX PKey (VNewX "SwPointerTargetProps" false [RPut "setTargetCategory" (VLeafX RLiteral (PLit "TARGET-CATEGORY"));
       RPut "setSwDataDefProps" (VGetX "getSwDataDefProps" (Some (TLit "SW-DATA-DEF-PROPS")));
       RPut "setFunctionPointerSignatureRef" (VLeafX RRef (PLit "FUNCTION-POINTER-SIGNATURE-REF"))]) VNoneX)).
(** arxml_parser.py:3567-3574 *)
Definition r_readSwPointerTargetProps : list ri * option vx :=
  ([RFind (PLit "SW-POINTER-TARGET-PROPS")
       [RSet "swPointerTargetProps" (VNewX "SwPointerTargetProps" false [RPut "setTargetCategory" (VLeafX RLiteral (PLit "TARGET-CATEGORY"));
            RPut "setSwDataDefProps" (VGetX "getSwDataDefProps" (Some (TLit "SW-DATA-DEF-PROPS")));
            RPut "setFunctionPointerSignatureRef" (VLeafX RRef (PLit "FUNCTION-POINTER-SIGNATURE-REF"))])]
       []],
   None).
(** arxml_parser.py:3576-3585 *)
Definition r_getSwTextProps : list ri * option vx :=
  ([],
   Some (VFindX PKey (VNewX "SwTextProps" false [RPut "setArraySizeSemantics" (VLeafX RLiteral (PLit "ARRAY-SIZE-SEMANTICS"));
       RPut "setBaseTypeRef" (VLeafX RRef (PLit "BASE-TYPE-REF"));
       RPut "setSwFillCharacter" (VLeafX RInteger (PLit "SW-FILL-CHARACTER"));
       RPut "setSwMaxTextSize" (VLeafX RInteger (PLit "SW-MAX-TEXT-SIZE"))]) VNoneX)).
(** arxml_parser.py:3587-3591 *)
Definition r_readLanguageSpecific : list ri * option vx :=
  ([RAttrs;
     RPut "setValue" VTextX;
     RIf (CHasAttr "L")
       [RPut "setL" (VAttrX "L")]
       []],
   None).
(** arxml_parser.py:3593-3599 *)
Definition r_getLParagraphs : list ri * option vx :=
  ([],
   Some (VListX [RFor PKey
        [RPut "append" (VNewX "LParagraph" false [RCall "readLanguageSpecific" None])]])).
(** arxml_parser.py:3601-3609 *)
Definition r_getMultiLanguageParagraphs : list ri * option vx :=
  ([],
   Some (VListX [RFor PKey
        [RPut "append" (VNewX "MultiLanguageParagraph" false [RAttrs;
             RForVal (VGetX "getLParagraphs" (Some (TLit "L-1")))
               [RPut "addL1" VItemX]])]])).
(** arxml_parser.py:3611-3617 *)
Definition r_getLPlainTexts : list ri * option vx :=
  ([],
   Some (VListX [RFor PKey
        [RPut "append" (VNewX "LParagraph" false [RCall "readLanguageSpecific" None])]])).
(** arxml_parser.py:3619-3631 *)
Definition r_getListElements : list ri * option vx :=
  ([],
   Some (VListX [RFor PKey
        [RPut "append" (VNewX "ARList" false [RIf (CHasAttr "TYPE")
               [RPut "setType" (VAttrX "TYPE")]
               [];
             RForVal (VGetX "getDocumentationBlockList" (Some (TLit "ITEM")))
               [RPut "addItem" VItemX]])]])).
(** arxml_parser.py:3633-3640 *)
Definition r_getGraphic : list ri * option vx :=
  ([],
   Some (VFindX PKey (VNewX "Graphic" false [RIf (CHasAttr "FILENAME")
         [RPut "setFilename" (VAttrX "FILENAME")]
         []]) VNoneX)).
(** arxml_parser.py:3642-3648 *)
Definition r_readMlFigureLGraphics : list ri * option vx :=
  ([RFor (PLit "L-GRAPHIC")
       [RPut "addLGraphics" (VNewX "LGraphic" false [RIf (CHasAttr "L")
              [RPut "setL" (VAttrX "L")]
              [];
            RPut "setGraphic" (VGetX "getGraphic" (Some (TLit "GRAPHIC")))])]],
   None).
(** arxml_parser.py:3650-3651 *)
Definition r_readDocumentViewSelectable : list ri * option vx :=
  ([RAttrs],
   None).
(** arxml_parser.py:3653-3654 *)
Definition r_readPaginateable : list ri * option vx :=
  ([RCall "readDocumentViewSelectable" None],
   None).
(** arxml_parser.py:3656-3658 *)
Definition r_readMlFigure : list ri * option vx :=
  ([RCall "readPaginateable" None;
     RCall "readMlFigureLGraphics" None],
   None).
(** arxml_parser.py:3660-3666 *)
Definition r_getMlFigures : list ri * option vx :=
  ([],
   Some (VListX [RFor PKey
        [RPut "append" (VNewX "MlFigure" false [RCall "readMlFigure" None])]])).
(** arxml_parser.py:3668-3676 *)
Definition r_getMultiLanguagePlainText : list ri * option vx :=
  ([],
   Some (VFindX PKey (VNewX "MultiLanguagePlainText" false [RAttrs;
       RForVal (VGetX "getLPlainTexts" (Some (TLit "L-10")))
         [RPut "addL10" VItemX]]) VNoneX)).
(** arxml_parser.py:3678-3688 *)
Definition r_getNote : list ri * option vx :=
  ([],
   Some (VFindX PKey (VNewX "Note" false [RAttrs;
       RPut "setLabel" (VGetX "getMultilanguageLongName" (Some (TLit "LABEL")));
       RPut "setNoteText" (VGetX "getDocumentationBlock" (Some (TLit "NOTE-TEXT")));
       RIf (CHasAttr "NOTETYPE")
         [RPut "setNoteType" (VWrapX "NoteTypeEnum" "setValue" (VAttrX "NOTETYPE"))]
         []]) VNoneX)).
(** arxml_parser.py:3690-3699 *)
Definition r_getTraceableText : list ri * option vx :=
  ([],
   Some (VFindX PKey (VNewX "TraceableText" false [RAttrs;
       RPut "setText" (VGetX "getDocumentationBlock" (Some (TLit "TEXT")));
       RFor (PLit "TRACE-REFS/TRACE-REF")
         [RPut "addTraceRef" (VWrapX "RefType" "setDest" VTextX)]]) VNoneX)).
(** arxml_parser.py:3701-3720 *)
Definition r_getStructuredReq : list ri * option vx :=
  ([],
   Some (VFindX PKey (VNewX "StructuredReq" false [RAttrs;
       RPut "setDate" (VLeafX RLiteral (PLit "DATE"));
       RPut "setImportance" (VLeafX RLiteral (PLit "IMPORTANCE"));
       RPut "setIssuedBy" (VLeafX RLiteral (PLit "ISSUED-BY"));
       RPut "setType" (VLeafX RLiteral (PLit "TYPE"));
       RPut "setDescription" (VGetX "getDocumentationBlock" (Some (TLit "DESCRIPTION")));
       RPut "setRationale" (VGetX "getDocumentationBlock" (Some (TLit "RATIONALE")));
       RPut "setDependencies" (VGetX "getDocumentationBlock" (Some (TLit "DEPENDENCIES")));
       RPut "setUseCase" (VGetX "getDocumentationBlock" (Some (TLit "USE-CASE")));
       RPut "setConflicts" (VGetX "getDocumentationBlock" (Some (TLit "CONFLICTS")));
       RPut "setSupportingMaterial" (VGetX "getDocumentationBlock" (Some (TLit "SUPPORTING-MATERIAL")));
       RPut "setRemark" (VGetX "getDocumentationBlock" (Some (TLit "REMARK")));
       RFor (PLit "TESTED-ITEM-REFS/TESTED-ITEM-REF")
         [RPut "addTestedItemRef" (VWrapX "RefType" "setDest" VTextX)]]) VNoneX)).
(** arxml_parser.py:3722-3728 *)
Definition r_getDefItem : list ri * option vx :=
  ([],
   Some (VNewX "DefItem" false [RAttrs;
      RPut "setDef" (VGetX "getDocumentationBlock" (Some (TLit "DEF")));
      RIf (CHasAttr "HELPENTRY")
        [RPut "setHelpEntry" (VWrapX "String" "setValue" (VAttrX "HELPENTRY"))]
        []])).
(** arxml_parser.py:3730-3738 *)
Definition r_getDefList : list ri * option vx :=
  ([],
   Some (VFindX PKey (VNewX "DefList" false [RAttrs;
       RFor (PLit "DEF-ITEM")
         [RPut "addDefItem" (VGetX "getDefItem" None)]]) VNoneX)).
(** arxml_parser.py:3740-3747 *)
Definition r_getIndentSample : list ri * option vx :=
  ([],
   Some (VNewX "IndentSample" false [RAttrs;
      RIf (CHasAttr "ITEMLABELPOS")
        [RPut "setItemLabelPos" (VWrapX "ItemLabelPosEnum" "setValue" (VAttrX "ITEMLABELPOS"))]
        [];
      RForVal (VGetX "getLOverviewParagraphs" (Some (TLit "L-2")))
        [RPut "addL2" VItemX]])).
(** arxml_parser.py:3749-3756 *)
Definition r_getLabeledItem : list ri * option vx :=
  ([],
   Some (VNewX "LabeledItem" false [RAttrs;
      RIf (CHasAttr "HELPENTRY")
        [RPut "setHelpEntry" (VWrapX "String" "setValue" (VAttrX "HELPENTRY"))]
        [];
      RPut "setItemContents" (VGetX "getDocumentationBlock" (Some (TLit "ITEM-CONTENTS")));
      RPut "setItemLabel" (VGetX "getMultiLanguageOverviewParagraph" (Some (TLit "ITEM-LABEL")))])).
(** arxml_parser.py:3758-3769 *)
Definition r_getLabeledList : list ri * option vx :=
  ([],
   Some (VFindX PKey (VNewX "LabeledList" false [RAttrs;
       RFind (PLit "INDENT-SAMPLE")
         [RPut "setIndentSample" (VGetX "getIndentSample" None)]
         [];
       RFor (PLit "LABELED-ITEM")
         [RPut "addLabeledItem" (VGetX "getLabeledItem" None)]]) VNoneX)).
(** arxml_parser.py:3771-3777 *)
Definition r_getLOverviewParagraphs : list ri * option vx :=
  ([],
   Some (VListX [RFor PKey
        [RPut "append" (VNewX "LOverviewParagraph" false [RCall "readLanguageSpecific" None])]])).
(** arxml_parser.py:3779-3797 *)
Definition r_getMultiLanguageVerbatim : list ri * option vx :=
  ([],
   Some (VFindX PKey (VNewX "MultiLanguageVerbatim" false [RAttrs;
       RIf (CHasAttr "ALLOWBREAK")
         [RPut "setAllowBreak" (VWrapX "NameToken" "setValue" (VAttrX "ALLOWBREAK"))]
         [];
       RIf (CHasAttr "FLOAT")
         [RPut "setFloat" (VWrapX "FloatEnum" "setValue" (VAttrX "FLOAT"))]
         [];
       RIf (CHasAttr "HELPENTRY")
         [RPut "setHelpEntry" (VWrapX "String" "setValue" (VAttrX "HELPENTRY"))]
         [];
       RIf (CHasAttr "PGWIDE")
         [RPut "setPgwide" (VWrapX "PgwideEnum" "setValue" (VAttrX "PGWIDE"))]
         [];
       RFor (PLit "L-5")
         [RPut "addL5" (VNewX "LVerbatim" false [RCall "readLanguageSpecific" None])]]) VNoneX)).
(** arxml_parser.py:3799-3805 *)
Definition r_getMsrQueryArg : list ri * option vx :=
  ([],
   Some (VNewX "MsrQueryArg" false [RAttrs;
      RPut "setArg" (VLeafX RLiteral (PLit "ARG"));
      RIf (CHasAttr "SI")
        [RPut "setSi" (VWrapX "NameToken" "setValue" (VAttrX "SI"))]
        []])).
(** arxml_parser.py:3807-3814 *)
Definition r_getMsrQueryProps : list ri * option vx :=
  ([],
   Some (VNewX "MsrQueryProps" false [RAttrs;
      RPut "setComment" (VLeafX RLiteral (PLit "COMMENT"));
      RPut "setMsrQueryName" (VLeafX RLiteral (PLit "MSR-QUERY-NAME"));
      RFor (PLit "MSR-QUERY-ARG")
        [RPut "addMsrQueryArg" (VGetX "getMsrQueryArg" None)]])).
(** arxml_parser.py:3816-3826 *)
Definition r_getMsrQueryP2 : list ri * option vx :=
  ([],
   Some (VFindX PKey (VNewX "MsrQueryP2" false [RAttrs;
       RFind (PLit "MSR-QUERY-PROPS")
         [RPut "setMsrQueryProps" (VGetX "getMsrQueryProps" None)]
         [];
       RPut "setMsrQueryResultP2" (VGetX "getDocumentationBlock" (Some (TLit "MSR-QUERY-RESULT-P2")))]) VNoneX)).
(** arxml_parser.py:3828-3844 *)
Definition r_getMlFormula : list ri * option vx :=
  ([],
   Some (VFindX PKey (VNewX "MlFormula" false [RCall "readPaginateable" None;
       RPut "setFormulaCaption" (VGetX "getCaption" (Some (TLit "FORMULA-CAPTION")));
       RFor (PLit "L-GRAPHIC")
         [RPut "addLGraphic" (VNewX "LGraphic" false [RIf (CHasAttr "L")
                [RPut "setL" (VAttrX "L")]
                [];
              RPut "setGraphic" (VGetX "getGraphic" (Some (TLit "GRAPHIC")))])];
       RPut "setVerbatim" (VGetX "getMultiLanguageVerbatim" (Some (TLit "VERBATIM")));
       RPut "setTexMath" (VGetX "getMultiLanguagePlainText" (Some (TLit "TEX-MATH")));
       RPut "setGenericMath" (VGetX "getMultiLanguagePlainText" (Some (TLit "GENERIC-MATH")))]) VNoneX)).
(** arxml_parser.py:3846-3861 *)
Definition r_readDocumentationBlock : list ri * option vx :=
  ([RAttrs;
     RForVal (VGetX "getMultiLanguageParagraphs" (Some (TLit "P")))
       [RPut "addP" VItemX];
     RForVal (VGetX "getListElements" (Some (TLit "LIST")))
       [RPut "addList" VItemX];
     RForVal (VGetX "getMlFigures" (Some (TLit "FIGURE")))
       [RPut "addFigure" VItemX];
     RPut "setDefList" (VGetX "getDefList" (Some (TLit "DEF-LIST")));
     RPut "setFormula" (VGetX "getMlFormula" (Some (TLit "FORMULA")));
     RPut "setLabeledList" (VGetX "getLabeledList" (Some (TLit "LABELED-LIST")));
     RPut "setMsrQueryP2" (VGetX "getMsrQueryP2" (Some (TLit "MSR-QUERY-P2")));
     RPut "setNote" (VGetX "getNote" (Some (TLit "NOTE")));
     RPut "setStructuredReq" (VGetX "getStructuredReq" (Some (TLit "STRUCTURED-REQ")));
     RPut "setTrace" (VGetX "getTraceableText" (Some (TLit "TRACE")));
     RPut "setVerbatim" (VGetX "getMultiLanguageVerbatim" (Some (TLit "VERBATIM")))],
   None).
(** arxml_parser.py:3863-3869 *)
Definition r_getDocumentationBlock : list ri * option vx :=
  ([],
   Some (VFindX PKey (VNewX "DocumentationBlock" false [RCall "readDocumentationBlock" None]) VNoneX)).
(** arxml_parser.py:3871-3877 *)
Definition r_getDocumentationBlockList : list ri * option vx :=
  ([],
   Some (VListX [RFor PKey
        [RPut "append" (VNewX "DocumentationBlock" false [RCall "readDocumentationBlock" None])]])).
(** arxml_parser.py:3879-3882 *)
Definition r_readGeneralAnnotation : list ri * option vx :=
  ([RPut "setAnnotationOrigin" (VLeafX RLiteral (PLit "ANNOTATION-ORIGIN"));
     RPut "setAnnotationText" (VGetX "getDocumentationBlock" (Some (TLit "ANNOTATION-TEXT")));
     RPut "setLabel" (VGetX "getMultilanguageLongName" (Some (TLit "LABEL")))],
   None).
(** arxml_parser.py:3884-3894 *)
Definition r_getAnnotations : list ri * option vx :=
  ([RFor (PLit "ANNOTATIONS/*")
       [RIf (CTag "ANNOTATION")
          []
          [RFail NotImplementedError true]]],
   Some (VListX [RFor (PLit "ANNOTATIONS/*")
        [RIf (CTag "ANNOTATION")
           [RPut "append" (VNewX "Annotation" false [RCall "readGeneralAnnotation" None])]
           []]])).
(** arxml_parser.py:3896-3909 *)
Definition r_getSwAxisIndividual : list ri * option vx :=
  ([],
   Some (VNewX "SwAxisIndividual" false [RAttrs;
      RPut "setMaxGradient" (VLeafX RFloat (PLit "MAX-GRADIENT"));
      RPut "setMonotony" (VLeafX RLiteral (PLit "MONOTONY"));
      RPut "setInputVariableTypeRef" (VLeafX RRef (PLit "INPUT-VARIABLE-TYPE-REF"));
      RPut "setCompuMethodRef" (VLeafX RRef (PLit "COMPU-METHOD-REF"));
      RPut "setSwMaxAxisPoints" (VLeafX RNumerical (PLit "SW-MAX-AXIS-POINTS"));
      RPut "setSwMinAxisPoints" (VLeafX RNumerical (PLit "SW-MIN-AXIS-POINTS"));
      RPut "setDataConstrRef" (VLeafX RRef (PLit "DATA-CONSTR-REF"));
      RFind (PLit "SW-AXIS-GENERIC")
        [RPut "setSwAxisGeneric" (VGetX "getSwAxisGeneric" None)]
        []])).
(** arxml_parser.py:3911-3919 *)
Definition r_getSwAxisGeneric : list ri * option vx :=
  ([],
   Some (VNewX "SwAxisGeneric" false [RAttrs;
      RPut "setSwAxisTypeRef" (VLeafX RRef (PLit "SW-AXIS-TYPE-REF"));
      RFind (PLit "SW-GENERIC-AXIS-PARAMS")
        [RFor (PLit "SW-GENERIC-AXIS-PARAM")
           [RPut "addSwGenericAxisParam" (VGetX "getSwGenericAxisParam" None)]]
        []])).
(** arxml_parser.py:3921-3927 *)
Definition r_getSwGenericAxisParam : list ri * option vx :=
  ([],
   Some (VNewX "SwGenericAxisParam" false [RAttrs;
      RPut "setSwGenericAxisParamTypeRef" (VLeafX RRef (PLit "SW-GENERIC-AXIS-PARAM-TYPE-REF"));
      RForVal (VLeafsX RNumItem (PLit "VF"))
        [RPut "addVf" VItemX]])).
(** arxml_parser.py:3929-3934 *)
Definition r_getSwAxisGrouped : list ri * option vx :=
  ([],
   Some (VNewX "SwAxisGrouped" false [RPut "setMaxGradient" (VLeafX RFloat (PLit "MAX-GRADIENT"));
      RPut "setMonotony" (VLeafX RLiteral (PLit "MONOTONY"));
      RPut "setSharedAxisTypeRef" (VLeafX RRef (PLit "SHARED-AXIS-TYPE-REF"))])).
(** arxml_parser.py:3936-3949 *)
Definition r_getSwCalprmAxis : list ri * option vx :=
  ([],
   Some (VNewX "SwCalprmAxis" false [RPut "setSwAxisIndex" (VLeafX RLiteral (PLit "SW-AXIS-INDEX"));
      RPut "setCategory" (VLeafX RLiteral (PLit "CATEGORY"));
      RFind (PLit "SW-AXIS-INDIVIDUAL")
        [RPut "setSwCalprmAxisTypeProps" (VGetX "getSwAxisIndividual" None)]
        [];
      RFind (PLit "SW-AXIS-GROUPED")
        [RPut "setSwCalprmAxisTypeProps" (VGetX "getSwAxisGrouped" None)]
        [];
      RPut "setSwCalibrationAccess" (VLeafX RLiteral (PLit "SW-CALIBRATION-ACCESS"));
      RPut "setDisplayFormat" (VLeafX RLiteral (PLit "DISPLAY-FORMAT"))])).
(** arxml_parser.py:3951-3957 *)
Definition r_getSwCalprmAxisSet : list ri * option vx :=
  ([],
   Some (VNewX "SwCalprmAxisSet" false [RFor (PKeyThen "/*")
        [RIf (CTag "SW-CALPRM-AXIS")
           [RPut "addSwCalprmAxis" (VGetX "getSwCalprmAxis" None)]
           []]])).
(** arxml_parser.py:3959-3962 *)
Definition r_readSwDataDefProsInvalidValue : list ri * option vx :=
  ([RFind (PLit "INVALID-VALUE/*")
       [RPut "setInvalidValue" (VGetX "getValueSpecification" (Some TOwn))]
       []],
   None).
(** arxml_parser.py:3964-4004 *)
Definition r_getSwDataDefProps : list ri * option vx :=
  ([],
   Some (VFindX PKey (VIfX (CAt (PLit "SW-DATA-DEF-PROPS-VARIANTS/SW-DATA-DEF-PROPS-CONDITIONAL") CTrue) (VNewX "SwDataDefProps" false [RAttrs;
        RFind (PLit "SW-DATA-DEF-PROPS-VARIANTS/SW-DATA-DEF-PROPS-CONDITIONAL")
          [RForVal (VGetX "getAnnotations" None)
             [RPut "addAnnotation" VItemX];
           RPut "setDisplayPresentation" (VLeafX RLiteral (PLit "DISPLAY-PRESENTATION"));
           RPut "setBaseTypeRef" (VLeafX RRef (PLit "BASE-TYPE-REF"));
           RPut "setDataConstrRef" (VLeafX RRef (PLit "DATA-CONSTR-REF"));
           RPut "setCompuMethodRef" (VLeafX RRef (PLit "COMPU-METHOD-REF"));
           RPut "setSwAddrMethodRef" (VLeafX RRef (PLit "SW-ADDR-METHOD-REF"));
           RPut "setSwAlignment" (VLeafX RLiteral (PLit "SW-ALIGNMENT"));
           RPut "setSwImplPolicy" (VLeafX RLiteral (PLit "SW-IMPL-POLICY"));
           RPut "setSwIntendedResolution" (VLeafX RNumerical (PLit "SW-INTENDED-RESOLUTION"));
           RPut "setImplementationDataTypeRef" (VLeafX RRef (PLit "IMPLEMENTATION-DATA-TYPE-REF"));
           RPut "setStepSize" (VLeafX RFloat (PLit "STEP-SIZE"));
           RPut "setSwCalibrationAccess" (VLeafX RLiteral (PLit "SW-CALIBRATION-ACCESS"));
           RPut "setSwCalprmAxisSet" (VGetX "getSwCalprmAxisSet" (Some (TLit "SW-CALPRM-AXIS-SET")));
           RPut "setSwPointerTargetProps" (VGetX "getSwPointerTargetProps" (Some (TLit "SW-POINTER-TARGET-PROPS")));
           RPut "setSwTextProps" (VGetX "getSwTextProps" (Some (TLit "SW-TEXT-PROPS")));
           RPut "setSwRecordLayoutRef" (VLeafX RRef (PLit "SW-RECORD-LAYOUT-REF"));
           RPut "setValueAxisDataTypeRef" (VLeafX RRef (PLit "VALUE-AXIS-DATA-TYPE-REF"));
           RPut "setUnitRef" (VLeafX RRef (PLit "UNIT-REF"));
           RPut "setDisplayFormat" (VLeafX RLiteral (PLit "DISPLAY-FORMAT"));
           RPut "setAdditionalNativeTypeQualifier" (VLeafX RLiteral (PLit "ADDITIONAL-NATIVE-TYPE-QUALIFIER"));
           RPut "setSwInterpolationMethod" (VLeafX RLiteral (PLit "SW-INTERPOLATION-METHOD"));
           RPut "setSwIsVirtual" (VLeafX RBool (PLit "SW-IS-VIRTUAL"));
           RCall "readSwDataDefProsInvalidValue" None;
           RCall "readSwDataDefPropsBits" None;
           RCall "readSwComparisonVariables" None;
           RCall "readSwDataDependency" None;
           RCall "readSwHostVariable" None;
           RCall "readSwRefTiming" None]
          []]) VNoneX) VNoneX)).
(** arxml_parser.py:4006-4019 *)
Definition r_readSwDataDefPropsBits : list ri * option vx :=
  ([RFind (PLit "SW-BIT-REPRESENTATION")
       [RPut "setSwBitRepresentation" (VNewX "SwBitRepresentation" false [RPut "setBitPosition" (VLeafX RInteger (PLit "BIT-POSITION"));
            RPut "setNumberOfBits" (VLeafX RInteger (PLit "NUMBER-OF-BITS"))])]
       [];
     RPut "setSwValueBlockSize" (VLeafX RNumerical (PLit "SW-VALUE-BLOCK-SIZE"));
     RFor (PLit "SW-VALUE-BLOCK-SIZE-MULTS/NUMERICAL-VALUE-VARIATION-POINT")
       [RIf (CNeg (CGot (VLeafX RNumerical (PLit "VALUE"))))
          [RPut "addSwValueBlockSizeMult" (VLeafX RNumerical (PLit "V"))]
          [RPut "addSwValueBlockSizeMult" (VLeafX RNumerical (PLit "VALUE"))]]],
   None).
(** arxml_parser.py:4021-4023 *)
Definition r_readSwComparisonVariables : list ri * option vx :=
  ([RFor (PLit "SW-COMPARISON-VARIABLES/SW-VARIABLE-REF-PROXY")
       [RPut "addSwComparisonVariable" (VGetX "readSwVariableRefProxy" None)]],
   None).
(** arxml_parser.py:4025-4028 *)
Definition r_readSwHostVariable : list ri * option vx :=
  ([RFind (PLit "SW-HOST-VARIABLE")
       [RPut "setSwHostVariable" (VGetX "readSwVariableRefProxy" None)]
       []],
   None).
(** arxml_parser.py:4030-4034 *)
Definition r_readSwVariableRefProxy : list ri * option vx :=
  ([],
   Some (VNewX "SwVariableRefProxy" false [RPut "setAutosarVariable" (VGetX "getAutosarVariableRef" (Some (TLit "AUTOSAR-VARIABLE")));
      RPut "setMcDataInstanceVarRef" (VLeafX RRef (PLit "MC-DATA-INSTANCE-VAR-REF"))])).
(** arxml_parser.py:4036-4057 *)
Definition r_readSwDataDependency : list ri * option vx :=
  ([RFind (PLit "SW-DATA-DEPENDENCY")
       [RPut "setSwDataDependency" (VNewX "SwDataDependency" false [RFind (PLit "SW-DATA-DEPENDENCY-FORMULA")
              [RPut "setSwDataDependencyFormula" (VNewX "CompuGenericMath" false [RIf (CGot (VAttrX "LEVEL"))
                     [RPut "setLevel" (VWrapX "ARLiteral" "setValue" (VAttrX "LEVEL"))]
                     []])]
              [];
            RFind (PLit "SW-DATA-DEPENDENCY-ARGS")
              [RPut "setSwDataDependencyArgs" (VNewX "SwDataDependencyArgs" false [RFind (PLit "SW-CALPRM-REF-PROXY")
                     [RPut "setSwCalprmRef" (VGetX "readSwCalprmRefProxy" None)]
                     [];
                   RFind (PLit "SW-VARIABLE-REF-PROXY")
                     [RPut "setSwVariable" (VGetX "readSwVariableRefProxy" None)]
                     []])]
              []])]
       []],
   None).
(** arxml_parser.py:4059-4063 *)
Definition r_readSwCalprmRefProxy : list ri * option vx :=
  ([],
   Some (VNewX "SwCalprmRefProxy" false [RPut "setArParameter" (VGetX "getAutosarParameterRef" (Some (TLit "AR-PARAMETER")));
      RPut "setMcDataInstanceRef" (VLeafX RRef (PLit "MC-DATA-INSTANCE-REF"))])).
(** arxml_parser.py:4065-4070 *)
Definition r_readSwRefTiming : list ri * option vx :=
  ([RFind (PLit "SW-REFRESH-TIMING")
       [RPut "setSwRefreshTiming" (VNewX "MultidimensionalTime" false [RCall "readMultidimensionalTime" None])]
       []],
   None).
(** arxml_parser.py:4072-4074 *)
Definition r_readAutosarDataType : list ri * option vx :=
  ([RCall "readIdentifiable" None;
     RPut "setSwDataDefProps" (VGetX "getSwDataDefProps" (Some (TLit "SW-DATA-DEF-PROPS")))],
   None).
(** arxml_parser.py:4076-4078 *)
Definition r_readApplicationPrimitiveDataType : list ri * option vx :=
  ([RCall "readAutosarDataType" None],
   None).
(** arxml_parser.py:4080-4082 *)
Definition r_readApplicationRecordElement : list ri * option vx :=
  ([RCall "readApplicationCompositeElementDataPrototype" None],
   None).
(** arxml_parser.py:4084-4091 *)
Definition r_readApplicationRecordDataTypeElements : list ri * option vx :=
  ([RFor (PLit "ELEMENTS/*")
       [RIf (CTag "APPLICATION-RECORD-ELEMENT")
          [RCreate "createApplicationRecordElement" true
             [RCall "readApplicationRecordElement" None]]
          [RFail NotImplementedError true]]],
   None).
(** arxml_parser.py:4093-4097 *)
Definition r_readApplicationRecordDataType : list ri * option vx :=
  ([RCall "readIdentifiable" None;
     RPut "setSwDataDefProps" (VGetX "getSwDataDefProps" (Some (TLit "SW-DATA-DEF-PROPS")));
     RCall "readApplicationRecordDataTypeElements" None],
   None).
(** arxml_parser.py:4099-4104 *)
Definition r_readImplementationDataTypeElement : list ri * option vx :=
  ([RCall "readAutosarDataType" None;
     RPut "setArraySize" (VLeafX RPositive (PLit "ARRAY-SIZE"));
     RPut "setArraySizeHandling" (VLeafX RLiteral (PLit "ARRAY-SIZE-HANDLING"));
     RPut "setArraySizeSemantics" (VLeafX RLiteral (PLit "ARRAY-SIZE-SEMANTICS"));
     RCall "readImplementationDataTypeSubElements" None],
   None).
(** arxml_parser.py:4106-4113 *)
Definition r_readImplementationDataTypeSubElements : list ri * option vx :=
  ([RFor (PLit "SUB-ELEMENTS/*")
       [RIf (CTag "IMPLEMENTATION-DATA-TYPE-ELEMENT")
          [RCreate "createImplementationDataTypeElement" true
             [RCall "readImplementationDataTypeElement" None]]
          [RFail NotImplementedError true]]],
   None).
(** arxml_parser.py:4115-4122 *)
Definition r_readImplementationDataType : list ri * option vx :=
  ([RCall "readAutosarDataType" None;
     RPut "setDynamicArraySizeProfile" (VLeafX RLiteral (PLit "DYNAMIC-ARRAY-SIZE-PROFILE"));
     RPut "setIsStructWithOptionalElement" (VLeafX RBool (PLit "IS-STRUCT-WITH-OPTIONAL-ELEMENT"));
     RCall "readImplementationDataTypeSubElements" None;
     RCall "readImplementationDataTypeSymbolProps" None;
     RPut "setTypeEmitter" (VLeafX RLiteral (PLit "TYPE-EMITTER"))],
   None).
(** arxml_parser.py:4124-4129 *)
Definition r_readBaseTypeDirectDefinition : list ri * option vx :=
  ([RPut "setBaseTypeSize" (VLeafX RPositive (PLit "BASE-TYPE-SIZE"));
     RPut "setBaseTypeEncoding" (VLeafX RLiteral (PLit "BASE-TYPE-ENCODING"));
     RPut "setMemAlignment" (VLeafX RPositive (PLit "MEM-ALIGNMENT"));
     RPut "setByteOrder" (VLeafX RLiteral (PLit "BYTE-ORDER"));
     RPut "setNativeDeclaration" (VLeafX RLiteral (PLit "NATIVE-DECLARATION"))],
   None).
(** arxml_parser.py:4131-4134 *)
Definition r_readSwBaseType : list ri * option vx :=
  ([RCall "readIdentifiable" None;
     RSub (GM "getBaseTypeDefinition") [RCall "readBaseTypeDirectDefinition" None]],
   None).
(** arxml_parser.py:4136-4143 *)
Definition r_getApplicationCompositeElementInPortInterfaceInstanceRef : list ri * option vx :=
  ([],
   Some (VFindX PKey (VNewX "ApplicationCompositeElementInPortInterfaceInstanceRef" false [RPut "setRootDataPrototypeRef" (VLeafX RRef (PLit "ROOT-DATA-PROTOTYPE-REF"));
       RPut "setTargetDataPrototypeRef" (VLeafX RRef (PLit "TARGET-DATA-PROTOTYPE-REF"))]) VNoneX)).
(** arxml_parser.py:4145-4150 *)
Definition r_getCompositeNetworkRepresentation : list ri * option vx :=
  ([],
   Some (VNewX "CompositeNetworkRepresentation" false [RPut "setLeafElementIRef" (VGetX "getApplicationCompositeElementInPortInterfaceInstanceRef" (Some (TLit "LEAF-ELEMENT-IREF")));
      RPut "setNetworkRepresentation" (VGetX "getSwDataDefProps" (Some (TLit "NETWORK-REPRESENTATION")))])).
(** arxml_parser.py:4152-4173 *)
Definition r_readReceiverComSpec : list ri * option vx :=
  ([RCall "readRPortComSpec" None;
     RFor (PLit "COMPOSITE-NETWORK-REPRESENTATIONS/COMPOSITE-NETWORK-REPRESENTATION")
       [RPut "addCompositeNetworkRepresentation" (VGetX "getCompositeNetworkRepresentation" None)];
     RPut "setDataElementRef" (VLeafX RRef (PLit "DATA-ELEMENT-REF"));
     RPut "setNetworkRepresentation" (VGetX "getSwDataDefProps" (Some (TLit "NETWORK-REPRESENTATION")));
     RPut "setHandleOutOfRange" (VLeafX RLiteral (PLit "HANDLE-OUT-OF-RANGE"));
     RPut "setHandleOutOfRangeStatus" (VLeafX RLiteral (PLit "HANDLE-OUT-OF-RANGE-STATUS"));
     RPut "setMaxDeltaCounterInit" (VLeafX RPositive (PLit "MAX-DELTA-COUNTER-INIT"));
     RPut "setMaxNoNewOrRepeatedData" (VLeafX RPositive (PLit "MAX-NO-NEW-OR-REPEATED-DATA"));
     RPut "setUsesEndToEndProtection" (VLeafX RBool (PLit "USES-END-TO-END-PROTECTION"));
     RIf (CGot (VGetX "getReceptionComSpecProps" (Some (TLit "RECEPTION-PROPS"))))
       [RPut "setReceptionProps" (VGetX "getReceptionComSpecProps" (Some (TLit "RECEPTION-PROPS")))]
       [];
     RFind (PLit "REPLACE-WITH")
       [RPut "setReplaceWith" (VNewX "VariableAccess" true [RCall "readVariableAccess" None])]
       [];
     RPut "setSyncCounterInit" (VLeafX RPositive (PLit "SYNC-COUNTER-INIT"));
     RFor (PLit "TRANSFORMATION-COM-SPEC-PROPSS/TRANSFORMATION-COM-SPEC-PROPS")
       [RPut "addTransformationComSpecProps" (VGetX "getTransformationComSpecProps" None)]],
   None).
(** arxml_parser.py:4175-4183 *)
Definition r_getReceptionComSpecProps : list ri * option vx :=
  ([],
   Some (VFindX PKey (VNewX "ReceptionComSpecProps" false [RAttrs;
       RPut "setDataUpdatePeriod" (VLeafX RTime (PLit "DATA-UPDATE-PERIOD"));
       RPut "setTimeout" (VLeafX RTime (PLit "TIMEOUT"))]) VNoneX)).
(** arxml_parser.py:4185-4188 *)
Definition r_readVariableAccess : list ri * option vx :=
  ([RCall "readIdentifiable" None;
     RPut "setAccessedVariableRef" (VGetX "getAutosarVariableRef" (Some (TLit "ACCESSED-VARIABLE")));
     RPut "setScope" (VLeafX RLiteral (PLit "SCOPE"))],
   None).
(** arxml_parser.py:4190-4204 *)
Definition r_getTransformationComSpecProps : list ri * option vx :=
  ([RFind (PLit "*")
       [RIf (CTag "END-TO-END-TRANSFORMATION-COM-SPEC-PROPS")
          []
          [RIf (CTag "USER-DEFINED-TRANSFORMATION-COM-SPEC-PROPS")
             []
             [RFail NotImplementedError true]]]
       []],
   Some (VFindX (PLit "*") (VIfX (CTag "END-TO-END-TRANSFORMATION-COM-SPEC-PROPS") (VNewX "EndToEndTransformationComSpecProps" false [RCall "readTransformationComSpecProps" None]) (VIfX (CTag "USER-DEFINED-TRANSFORMATION-COM-SPEC-PROPS") (VNewX "UserDefinedTransformationComSpecProps" false [RCall "readUserDefinedTransformationComSpecProps" None]) VNoneX)) VNoneX)).
(** arxml_parser.py:4206-4215 *)
Definition r_getSwValues : list ri * option vx :=
  ([],
   Some (VFindX PKey (VNewX "SwValues" false [RAttrs;
       RForVal (VLeafsX RFloatItem (PLit "V"))
         [RPut "addV" VItemX];
       RSet "vt" (VLeafX RLiteral (PLit "VT"))]) VNoneX)).
(** arxml_parser.py:4217-4225 *)
Definition r_getValueList : list ri * option vx :=
  ([],
   Some (VFindX PKey (VNewX "ValueList" false [RAttrs;
       RPut "setV" (VLeafX RFloat (PLit "V"))]) VNoneX)).
(** arxml_parser.py:4227-4237 *)
Definition r_getSwValueCont : list ri * option vx :=
  ([],
   Some (VFindX (PLit "SW-VALUE-CONT") (VNewX "SwValueCont" false [RAttrs;
       RPut "setUnitRef" (VLeafX RRef (PLit "UNIT-REF"));
       RPut "setSwArraysize" (VGetX "getValueList" (Some (TLit "SW-ARRAYSIZE")));
       RPut "setSwValuesPhys" (VGetX "getSwValues" (Some (TLit "SW-VALUES-PHYS")))]) VNoneX)).
(** arxml_parser.py:4239-4244 *)
Definition r_readApplicationValueSpecification : list ri * option vx :=
  ([RCall "readValueSpecification" None;
     RPut "setCategory" (VLeafX RLiteral (PLit "CATEGORY"));
     RPut "setSwValueCont" (VGetX "getSwValueCont" None)],
   None).
(** arxml_parser.py:4246-4251 *)
Definition r_getChildValueSpecification : list ri * option vx :=
  ([],
   Some (VFindX (PKeyThen "/*") (VGetX "getValueSpecification" (Some TOwn)) VNoneX)).
(** arxml_parser.py:4253-4254 *)
Definition r_getInitValue : list ri * option vx :=
  ([],
   Some (VGetX "getChildValueSpecification" (Some (TLit "INIT-VALUE")))).
(** arxml_parser.py:4256-4257 *)
Definition r_readRPortComSpec : list ri * option vx :=
  ([RAttrs],
   None).
(** arxml_parser.py:4259-4265 *)
Definition r_getClientComSpec : list ri * option vx :=
  ([],
   Some (VNewX "ClientComSpec" false [RCall "readRPortComSpec" None;
      RPut "setEndToEndCallResponseTimeout" (VLeafX RTime (PLit "END-TO-END-CALL-RESPONSE-TIMEOUT"));
      RPut "setOperationRef" (VLeafX RRef (PLit "OPERATION-REF"));
      RCall "readTransformationComSpecPropss" None])).
(** arxml_parser.py:4267-4272 *)
Definition r_getParameterRequireComSpec : list ri * option vx :=
  ([],
   Some (VNewX "ParameterRequireComSpec" false [RCall "readRPortComSpec" None;
      RPut "setInitValue" (VGetX "getChildValueSpecification" (Some (TLit "INIT-VALUE")));
      RPut "setParameterRef" (VLeafX RRef (PLit "PARAMETER-REF"))])).
(** arxml_parser.py:4274-4279 *)
Definition r_getNvRequireComSpec : list ri * option vx :=
  ([],
   Some (VNewX "NvRequireComSpec" false [RCall "readRPortComSpec" None;
      RPut "setInitValue" (VGetX "getChildValueSpecification" (Some (TLit "INIT-VALUE")));
      RPut "setVariableRef" (VLeafX RRef (PLit "VARIABLE-REF"))])).
(** arxml_parser.py:4281-4286 *)
Definition r_getQueuedReceiverComSpec : list ri * option vx :=
  ([],
   Some (VNewX "QueuedReceiverComSpec" false [RAttrs;
      RCall "readReceiverComSpec" None;
      RSet "queueLength" (VLeafX RNumerical (PLit "QUEUE-LENGTH"))])).
(** arxml_parser.py:4288-4294 *)
Definition r_getModeSwitchReceiverComSpec : list ri * option vx :=
  ([],
   Some (VNewX "ModeSwitchReceiverComSpec" false [RCall "readRPortComSpec" None;
      RPut "setEnhancedModeApi" (VLeafX RBool (PLit "ENHANCED-MODE-API"));
      RPut "setModeGroupRef" (VLeafX RRef (PLit "MODE-GROUP-REF"));
      RPut "setSupportsAsynchronousModeSwitch" (VLeafX RBool (PLit "SUPPORTS-ASYNCHRONOUS-MODE-SWITCH"))])).
(** arxml_parser.py:4296-4308 *)
Definition r_getNonqueuedReceiverComSpec : list ri * option vx :=
  ([],
   Some (VNewX "NonqueuedReceiverComSpec" false [RAttrs;
      RCall "readReceiverComSpec" None;
      RPut "setAliveTimeout" (VLeafX RFloat (PLit "ALIVE-TIMEOUT"));
      RPut "setEnableUpdate" (VLeafX RBool (PLit "ENABLE-UPDATE"));
      RPut "setHandleDataStatus" (VLeafX RBool (PLit "HANDLE-DATA-STATUS"));
      RPut "setHandleNeverReceived" (VLeafX RBool (PLit "HANDLE-NEVER-RECEIVED"));
      RPut "setFilter" (VGetX "getDataFilter" (Some (TLit "FILTER")));
      RPut "setHandleTimeoutType" (VLeafX RLiteral (PLit "HANDLE-TIMEOUT-TYPE"));
      RPut "setInitValue" (VGetX "getInitValue" None);
      RPut "setTimeoutSubstitutionValue" (VGetX "getChildValueSpecification" (Some (TLit "TIMEOUT-SUBSTITUTION-VALUE")))])).
(** arxml_parser.py:4310-4326 *)
Definition r_readRequiredComSpec : list ri * option vx :=
  ([RFor (PLit "REQUIRED-COM-SPECS/*")
       [RIf (CTag "NONQUEUED-RECEIVER-COM-SPEC")
          [RPut "addRequiredComSpec" (VGetX "getNonqueuedReceiverComSpec" None)]
          [RIf (CTag "CLIENT-COM-SPEC")
             [RPut "addRequiredComSpec" (VGetX "getClientComSpec" None)]
             [RIf (CTag "QUEUED-RECEIVER-COM-SPEC")
                [RPut "addRequiredComSpec" (VGetX "getQueuedReceiverComSpec" None)]
                [RIf (CTag "MODE-SWITCH-RECEIVER-COM-SPEC")
                   [RPut "addRequiredComSpec" (VGetX "getModeSwitchReceiverComSpec" None)]
                   [RIf (CTag "PARAMETER-REQUIRE-COM-SPEC")
                      [RPut "addRequiredComSpec" (VGetX "getParameterRequireComSpec" None)]
                      [RIf (CTag "NV-REQUIRE-COM-SPEC")
                         [RPut "addRequiredComSpec" (VGetX "getNvRequireComSpec" None)]
                         [RFail ValueError true]]]]]]]],
   None).
(** arxml_parser.py:4328-4329 *)
Definition r_readAbstractRequiredPortPrototype : list ri * option vx :=
  ([RCall "readProvidedComSpec" None],
   None).
(** arxml_parser.py:4331-4336 *)
Definition r_readPPortPrototype : list ri * option vx :=
  ([RCall "readIdentifiable" None;
     RCall "readAbstractRequiredPortPrototype" None;
     RPut "setProvidedInterfaceTRef" (VLeafX RRef (PLit "PROVIDED-INTERFACE-TREF"));
     RCall "readPortPrototype" None],
   None).
(** arxml_parser.py:4338-4339 *)
Definition r_readAbstractProvidedPortPrototype : list ri * option vx :=
  ([RCall "readRequiredComSpec" None],
   None).
(** arxml_parser.py:4341-4346 *)
Definition r_readRPortPrototype : list ri * option vx :=
  ([RCall "readIdentifiable" None;
     RCall "readAbstractProvidedPortPrototype" None;
     RPut "setRequiredInterfaceTRef" (VLeafX RRef (PLit "REQUIRED-INTERFACE-TREF"));
     RCall "readPortPrototype" None],
   None).
(** arxml_parser.py:4348-4354 *)
Definition r_readPRPortPrototype : list ri * option vx :=
  ([RCall "readIdentifiable" None;
     RCall "readAbstractRequiredPortPrototype" None;
     RCall "readAbstractProvidedPortPrototype" None;
     RPut "setProvidedRequiredInterface" (VLeafX RRef (PLit "PROVIDED-REQUIRED-INTERFACE-TREF"));
     RCall "readPortPrototype" None],
   None).
(** arxml_parser.py:4356-4404 *)
Definition r_readPortPrototype : list ri * option vx :=
  ([RFor (PLit "CLIENT-SERVER-ANNOTATIONS/CLIENT-SERVER-ANNOTATION")
       [RPut "addClientServerAnnotation" (VNewX "ClientServerAnnotation" false [RPut "setOperationRef" (VLeafX RRef (PLit "OPERATION-REF"))])];
     RFind (PLit "DELEGATED-PORT-ANNOTATION")
       [RPut "setDelegatedPortAnnotation" (VNewX "DelegatedPortAnnotation" false [RIf (CGot (VLeafX RLiteral (PLit "SIGNAL-FAN")))
              [RPut "setSignalFan" (VWrapX "SignalFanEnum" "setValue" (VValueX (VLeafX RLiteral (PLit "SIGNAL-FAN"))))]
              []])]
       [];
     RFor (PLit "IO-HW-ABSTRACTION-SERVER-ANNOTATIONS/IO-HW-ABSTRACTION-SERVER-ANNOTATION")
       [RPut "addIoHwAbstractionServerAnnotation" (VNewX "IoHwAbstractionServerAnnotation" false [RIf (CGot (VLeafX RLiteral (PLit "FILTERING-DEBOUNCING")))
              [RPut "setFilteringDebouncing" (VWrapX "FilterDebouncingEnum" "setValue" (VValueX (VLeafX RLiteral (PLit "FILTERING-DEBOUNCING"))))]
              [];
            RIf (CGot (VLeafX RLiteral (PLit "PULSE-TEST")))
              [RPut "setPulseTest" (VWrapX "PulseTestEnum" "setValue" (VValueX (VLeafX RLiteral (PLit "PULSE-TEST"))))]
              [];
            RPut "setTriggerRef" (VLeafX RRef (PLit "TRIGGER-REF"))])];
     RFor (PLit "MODE-PORT-ANNOTATIONS/MODE-PORT-ANNOTATION")
       [RPut "addModePortAnnotation" (VNewX "ModePortAnnotation" false [RPut "setModeGroupRef" (VLeafX RRef (PLit "MODE-GROUP-REF"))])];
     RFor (PLit "NV-DATA-PORT-ANNOTATIONS/NV-DATA-PORT-ANNOTATION")
       [RPut "addNvDataPortAnnotation" (VNewX "NvDataPortAnnotation" false [RPut "setVariableRef" (VLeafX RRef (PLit "VARIABLE-REF"))])];
     RFor (PLit "PARAMETER-PORT-ANNOTATIONS/PARAMETER-PORT-ANNOTATION")
       [RPut "addParameterPortAnnotation" (VNewX "ParameterPortAnnotation" false [RPut "setParameterRef" (VLeafX RRef (PLit "PARAMETER-REF"))])];
     RFor (PLit "SENDER-RECEIVER-ANNOTATIONS/SENDER-RECEIVER-ANNOTATION")
       [RPut "addSenderReceiverAnnotation" (VNewX "SenderReceiverAnnotation" false [RPut "setComputed" (VLeafX RBool (PLit "COMPUTED"));
            RPut "setDataElementRef" (VLeafX RRef (PLit "DATA-ELEMENT-REF"));
            RIf (CGot (VLeafX RLiteral (PLit "LIMIT-KIND")))
              [RPut "setLimitKind" (VWrapX "DataLimitKindEnum" "setValue" (VValueX (VLeafX RLiteral (PLit "LIMIT-KIND"))))]
              [];
            RIf (CGot (VLeafX RLiteral (PLit "PROCESSING-KIND")))
              [RPut "setProcessingKind" (VWrapX "ProcessingKindEnum" "setValue" (VValueX (VLeafX RLiteral (PLit "PROCESSING-KIND"))))]
              []])];
     RFor (PLit "TRIGGER-PORT-ANNOTATIONS/TRIGGER-PORT-ANNOTATION")
       [RPut "addTriggerPortAnnotation" (VNewX "TriggerPortAnnotation" false [RPut "setTriggerRef" (VLeafX RRef (PLit "TRIGGER-REF"))])]],
   None).
(** arxml_parser.py:4406-4419 *)
Definition r_readSwComponentTypePorts : list ri * option vx :=
  ([RFor (PLit "PORTS/*")
       [RIf (CTag "P-PORT-PROTOTYPE")
          [RCreate "createPPortPrototype" true
             [RCall "readPPortPrototype" None]]
          [RIf (CTag "R-PORT-PROTOTYPE")
             [RCreate "createRPortPrototype" true
                [RCall "readRPortPrototype" None]]
             [RIf (CTag "PR-PORT-PROTOTYPE")
                [RCreate "createPRPortPrototype" true
                   [RCall "readPRPortPrototype" None]]
                [RFail NotImplementedError true]]]]],
   None).
(** arxml_parser.py:4421-4428 *)
Definition r_readTransmissionAcknowledgementRequest : list ri * option vx :=
  ([],
   Some (VFindX (PLit "TRANSMISSION-ACKNOWLEDGE") (VNewX "TransmissionAcknowledgementRequest" false [RAttrs;
       RPut "setTimeout" (VLeafX RTime (PLit "TIMEOUT"))]) VNoneX)).
(** arxml_parser.py:4430-4439 *)
Definition r_getTransmissionComSpecProps : list ri * option vx :=
  ([],
   Some (VFindX PKey (VNewX "TransmissionComSpecProps" false [RAttrs;
       RPut "setDataUpdatePeriod" (VLeafX RTime (PLit "DATA-UPDATE-PERIOD"));
       RPut "setMinimumSendInterval" (VLeafX RTime (PLit "MINIMUM-SEND-INTERVAL"));
       RPut "setTransmissionMode" (VLeafX RLiteral (PLit "TRANSMISSION-MODE"))]) VNoneX)).
(** arxml_parser.py:4441-4450 *)
Definition r_readSenderComSpec : list ri * option vx :=
  ([RAttrs;
     RFor (PLit "COMPOSITE-NETWORK-REPRESENTATIONS/COMPOSITE-NETWORK-REPRESENTATION")
       [RPut "addCompositeNetworkRepresentation" (VGetX "getCompositeNetworkRepresentation" None)];
     RPut "setDataElementRef" (VLeafX RRef (PLit "DATA-ELEMENT-REF"));
     RPut "setHandleOutOfRange" (VLeafX RLiteral (PLit "HANDLE-OUT-OF-RANGE"));
     RPut "setNetworkRepresentation" (VGetX "getSwDataDefProps" (Some (TLit "NETWORK-REPRESENTATION")));
     RPut "setTransmissionAcknowledge" (VGetX "readTransmissionAcknowledgementRequest" None);
     RPut "setTransmissionProps" (VGetX "getTransmissionComSpecProps" (Some (TLit "TRANSMISSION-PROPS")));
     RPut "setUsesEndToEndProtection" (VLeafX RBool (PLit "USES-END-TO-END-PROTECTION"))],
   None).
(** arxml_parser.py:4452-4457 *)
Definition r_getNonqueuedSenderComSpec : list ri * option vx :=
  ([],
   Some (VNewX "NonqueuedSenderComSpec" false [RCall "readSenderComSpec" None;
      RPut "setDataFilter" (VGetX "getDataFilter" (Some (TLit "DATA-FILTER")));
      RPut "setInitValue" (VGetX "getInitValue" None)])).
(** arxml_parser.py:4459-4460 *)
Definition r_readTransformationComSpecProps : list ri * option vx :=
  ([RAttrs],
   None).
(** arxml_parser.py:4462-4463 *)
Definition r_readUserDefinedTransformationComSpecProps : list ri * option vx :=
  ([RCall "readTransformationComSpecProps" None],
   None).
(** arxml_parser.py:4465-4482 *)
Definition r_readEndToEndTransformationComSpecProps : list ri * option vx :=
  ([RCall "readTransformationComSpecProps" None;
     RPut "setClearFromValidToInvalid" (VLeafX RBool (PLit "CLEAR-FROM-VALID-TO-INVALID"));
     RPut "setDisableEndToEndCheck" (VLeafX RBool (PLit "DISABLE-END-TO-END-CHECK"));
     RPut "setDisableEndToEndStateMachine" (VLeafX RBool (PLit "DISABLE-END-TO-END-STATE-MACHINE"));
     RPut "setE2eProfileCompatibilityPropsRef" (VLeafX RRef (PLit "E2E-PROFILE-COMPATIBILITY-PROPS-REF"));
     RPut "setMaxDeltaCounter" (VLeafX RPositive (PLit "MAX-DELTA-COUNTER"));
     RPut "setMaxErrorStateInit" (VLeafX RPositive (PLit "MAX-ERROR-STATE-INIT"));
     RPut "setMaxErrorStateInvalid" (VLeafX RPositive (PLit "MAX-ERROR-STATE-INVALID"));
     RPut "setMaxErrorStateValid" (VLeafX RPositive (PLit "MAX-ERROR-STATE-VALID"));
     RPut "setMaxNoNewOrRepeatedData" (VLeafX RPositive (PLit "MAX-NO-NEW-OR-REPEATED-DATA"));
     RPut "setMinOkStateInit" (VLeafX RPositive (PLit "MIN-OK-STATE-INIT"));
     RPut "setMinOkStateInvalid" (VLeafX RPositive (PLit "MIN-OK-STATE-INVALID"));
     RPut "setMinOkStateValid" (VLeafX RPositive (PLit "MIN-OK-STATE-VALID"));
     RPut "setSyncCounterInit" (VLeafX RPositive (PLit "SYNC-COUNTER-INIT"));
     RPut "setWindowSizeInit" (VLeafX RPositive (PLit "WINDOW-SIZE-INIT"));
     RPut "setWindowSizeInvalid" (VLeafX RPositive (PLit "WINDOW-SIZE-INVALID"));
     RPut "setWindowSizeValid" (VLeafX RPositive (PLit "WINDOW-SIZE-VALID"))],
   None).
(** arxml_parser.py:4484-4496 *)
Definition r_readTransformationComSpecPropss : list ri * option vx :=
  ([RFor (PLit "TRANSFORMATION-COM-SPEC-PROPSS/*")
       [RIf (CTag "END-TO-END-TRANSFORMATION-COM-SPEC-PROPS")
          [RPut "addTransformationComSpecProps" (VNewX "EndToEndTransformationComSpecProps" false [RCall "readEndToEndTransformationComSpecProps" None])]
          [RIf (CTag "USER-DEFINED-TRANSFORMATION-COM-SPEC-PROPS")
             [RPut "addTransformationComSpecProps" (VNewX "UserDefinedTransformationComSpecProps" false [RCall "readUserDefinedTransformationComSpecProps" None])]
             [RFail NotImplementedError true]]]],
   None).
(** arxml_parser.py:4498-4499 *)
Definition r_readPPortComSpec : list ri * option vx :=
  ([RAttrs],
   None).
(** arxml_parser.py:4501-4507 *)
Definition r_getServerComSpec : list ri * option vx :=
  ([],
   Some (VNewX "ServerComSpec" false [RCall "readPPortComSpec" None;
      RPut "setOperationRef" (VLeafX RRef (PLit "OPERATION-REF"));
      RPut "setQueueLength" (VLeafX RPositive (PLit "QUEUE-LENGTH"));
      RCall "readTransformationComSpecPropss" None])).
(** arxml_parser.py:4509-4514 *)
Definition r_getParameterProvideComSpec : list ri * option vx :=
  ([],
   Some (VNewX "ParameterProvideComSpec" false [RCall "readPPortComSpec" None;
      RPut "setInitValue" (VGetX "getInitValue" None);
      RPut "setParameterRef" (VLeafX RRef (PLit "PARAMETER-REF"))])).
(** arxml_parser.py:4516-4519 *)
Definition r_getQueuedSenderComSpec : list ri * option vx :=
  ([],
   Some (VNewX "QueuedSenderComSpec" false [RCall "readSenderComSpec" None])).
(** arxml_parser.py:4521-4527 *)
Definition r_getModeSwitchedAckRequest : list ri * option vx :=
  ([],
   Some (VFindX PKey (VNewX "ModeSwitchedAckRequest" false [RPut "setTimeout" (VLeafX RTime (PLit "TIMEOUT"))]) VNoneX)).
(** arxml_parser.py:4529-4534 *)
Definition r_getModeSwitchSenderComSpec : list ri * option vx :=
  ([],
   Some (VNewX "ModeSwitchSenderComSpec" false [RPut "setModeGroupRef" (VLeafX RRef (PLit "MODE-GROUP-REF"));
      RPut "setModeSwitchedAck" (VGetX "getModeSwitchedAckRequest" (Some (TLit "MODE-SWITCHED-ACK")));
      RPut "setQueueLength" (VLeafX RNumerical (PLit "QUEUE-LENGTH"))])).
(** arxml_parser.py:4536-4542 *)
Definition r_getNvProvideComSpec : list ri * option vx :=
  ([],
   Some (VNewX "NvProvideComSpec" false [RCall "readPPortComSpec" None;
      RPut "setRamBlockInitValue" (VGetX "getChildValueSpecification" (Some (TLit "RAM-BLOCK-INIT-VALUE")));
      RPut "setRomBlockInitValue" (VGetX "getChildValueSpecification" (Some (TLit "ROM-BLOCK-INIT-VALUE")));
      RPut "setVariableRef" (VLeafX RRef (PLit "VARIABLE-REF"))])).
(** arxml_parser.py:4544-4560 *)
Definition r_readProvidedComSpec : list ri * option vx :=
  ([RFor (PLit "PROVIDED-COM-SPECS/*")
       [RIf (CTag "NONQUEUED-SENDER-COM-SPEC")
          [RPut "addProvidedComSpec" (VGetX "getNonqueuedSenderComSpec" None)]
          [RIf (CTag "SERVER-COM-SPEC")
             [RPut "addProvidedComSpec" (VGetX "getServerComSpec" None)]
             [RIf (CTag "QUEUED-SENDER-COM-SPEC")
                [RPut "addProvidedComSpec" (VGetX "getQueuedSenderComSpec" None)]
                [RIf (CTag "MODE-SWITCH-SENDER-COM-SPEC")
                   [RPut "addProvidedComSpec" (VGetX "getModeSwitchSenderComSpec" None)]
                   [RIf (CTag "NV-PROVIDE-COM-SPEC")
                      [RPut "addProvidedComSpec" (VGetX "getNvProvideComSpec" None)]
                      [RIf (CTag "PARAMETER-PROVIDE-COM-SPEC")
                         [RPut "addProvidedComSpec" (VGetX "getParameterProvideComSpec" None)]
                         [RFail ValueError true]]]]]]]],
   None).
(** arxml_parser.py:4562-4567 *)
Definition r_readPortGroupInnerGroupIRefs : list ri * option vx :=
  ([RFor (PLit "INNER-GROUP-IREFS/INNER-GROUP-IREF")
       [RPut "addInnerGroupIRef" (VNewX "InnerPortGroupInCompositionInstanceRef" false [RPut "setTargetRef" (VLeafX RRef (PLit "TARGET-REF"))])]],
   None).
(** arxml_parser.py:4569-4571 *)
Definition r_readPortGroupOuterPortRefs : list ri * option vx :=
  ([RFor (PLit "OUTER-PORTS/PORT-PROTOTYPE-REF-CONDITIONAL")
       [RPut "addOuterPortRef" (VLeafX RRef (PLit "PORT-PROTOTYPE-REF"))]],
   None).
(** arxml_parser.py:4573-4579 *)
Definition r_readPortGroup : list ri * option vx :=
  ([RCreate "createPortGroup" true
       [RCall "readIdentifiable" None;
        RCall "readPortGroupInnerGroupIRefs" None;
        RCall "readPortGroupOuterPortRefs" None]],
   None).
(** arxml_parser.py:4581-4587 *)
Definition r_readSwComponentTypePortGroups : list ri * option vx :=
  ([RFor (PLit "PORT-GROUPS/*")
       [RIf (CTag "PORT-GROUP")
          [RCall "readPortGroup" None]
          [RFail ValueError true]]],
   None).
(** arxml_parser.py:4589-4591 *)
Definition r_readSwComponentTypeSwcMappingConstraints : list ri * option vx :=
  ([RForVal (VLeafsX RRef (PLit "SWC-MAPPING-CONSTRAINT-REFS/SWC-MAPPING-CONSTRAINT-REF"))
       [RPut "addSwcMappingConstraintRef" VItemX]],
   None).
(** arxml_parser.py:4593-4595 *)
Definition r_readSwComponentTypeUnitGroups : list ri * option vx :=
  ([RForVal (VLeafsX RRef (PLit "UNIT-GROUP-REFS/UNIT-GROUP-REF"))
       [RPut "addUnitGroupRef" VItemX]],
   None).
(** arxml_parser.py:4597-4599 *)
Definition r_readSwComponentTypeConsistencyNeeds : list ri * option vx :=
  ([RFor (PLit "CONSISTENCY-NEEDSS/CONSISTENCY-NEEDS")
       [RCreate "createConsistencyNeeds" true
          [RCall "readConsistencyNeeds" None]]],
   None).
(** arxml_parser.py:4601-4620 *)
Definition r_readSwComponentDocumentationElement : list ri * option vx :=
  ([],
   Some (VNewX "SwComponentDocumentation" false [RFind (PLit "SW-FEATURE-DEF")
        [RCreate "createSwFeatureDef" true
           [RCall "readChapterBody" None]]
        [];
      RFind (PLit "SW-FEATURE-DESC")
        [RCreate "createSwFeatureDesc" true
           [RCall "readChapterBody" None]]
        [];
      RFind (PLit "SW-TEST-DESC")
        [RCreate "createSwTestDesc" true
           [RCall "readChapterBody" None]]
        [];
      RFind (PLit "SW-CALIBRATION-NOTES")
        [RCreate "createSwCalibrationNotes" true
           [RCall "readChapterBody" None]]
        [];
      RFind (PLit "SW-MAINTENANCE-NOTES")
        [RCreate "createSwMaintenanceNotes" true
           [RCall "readChapterBody" None]]
        [];
      RFind (PLit "SW-DIAGNOSTICS-NOTES")
        [RCreate "createSwDiagnosticsNotes" true
           [RCall "readChapterBody" None]]
        [];
      RFind (PLit "SW-CARB-DOC")
        [RCreate "createSwCarbDoc" true
           [RCall "readChapterBody" None]]
        [];
      RFor (PLit "CHAPTER")
        [RCreate "createChapter" true
           [RCall "readChapterBody" None]]])).
(** arxml_parser.py:4622-4626 *)
Definition r_readSwComponentTypeSwComponentDocumentation : list ri * option vx :=
  ([RFind (PLit "SW-COMPONENT-DOCUMENTATION")
       [RPut "setSwComponentDocumentation" (VGetX "readSwComponentDocumentationElement" None)]
       []],
   Some (VFindX (PLit "SW-COMPONENT-DOCUMENTATION") VNoneX VNoneX)).
(** arxml_parser.py:4628-4631 *)
Definition r_readChapter : list ri * option vx :=
  ([],
   Some (VNewX "Chapter" true [RCall "readChapterBody" None])).
(** arxml_parser.py:4633-4640 *)
Definition r_readChapterBody : list ri * option vx :=
  ([RCall "readIdentifiable" None;
     RIf (CGot (VAttrX "HELP-ENTRY"))
       [RPut "setHelpEntry" (VWrapX "String" "setValue" (VAttrX "HELP-ENTRY"))]
       [];
     RFind (PLit "CHAPTER-MODEL")
       [RPut "setChapterModel" (VGetX "readChapterModel" None)]
       []],
   None).
(** arxml_parser.py:4642-4665 *)
Definition r_readChapterModel : list ri * option vx :=
  ([],
   Some (VNewX "ChapterModel" false [RFind (PLit "CHAPTER-CONTENT")
        [RPut "setChapterContent" (VGetX "readChapterContent" None)]
        [];
      RIf (CEither (CAt (PLit "TOPIC-1") CTrue) (CAt (PLit "MSR-QUERY-TOPIC-1") CTrue))
        [RPut "setTopic1" (VNewX "TopicOrMsrQuery" false [RFor (PLit "TOPIC-1")
               [RPut "addTopic1" (VGetX "readTopic1" None)];
             RFind (PLit "MSR-QUERY-TOPIC-1")
               [RPut "setMsrQueryTopic1" (VGetX "readMsrQueryTopic1" None)]
               []])]
        [];
      RIf (CEither (CAt (PLit "CHAPTER") CTrue) (CAt (PLit "MSR-QUERY-CHAPTER") CTrue))
        [RPut "setChapter" (VNewX "ChapterOrMsrQuery" false [RFor (PLit "CHAPTER")
               [RPut "addChapter" (VGetX "readChapter" None)];
             RFind (PLit "MSR-QUERY-CHAPTER")
               [RPut "setMsrQueryChapter" (VGetX "readMsrQueryChapter" None)]
               []])]
        []])).
(** arxml_parser.py:4667-4672 *)
Definition r_readPredefinedChapter : list ri * option vx :=
  ([],
   Some (VNewX "PredefinedChapter" false [RFind (PLit "CHAPTER-MODEL")
        [RPut "setChapterModel" (VGetX "readChapterModel" None)]
        []])).
(** arxml_parser.py:4674-4679 *)
Definition r_readDocumentationContext : list ri * option vx :=
  ([],
   Some (VNewX "DocumentationContext" true [RCall "readMultilanguageReferrable" None;
      RPut "setFeatureIRef" (VGetX "getAnyInstanceRef" (Some (TLit "FEATURE-IREF")));
      RPut "setIdentifiableRef" (VLeafX RRef (PLit "IDENTIFIABLE-REF"))])).
(** arxml_parser.py:4681-4688 *)
Definition r_readDocumentation : list ri * option vx :=
  ([RCall "readARElement" None;
     RFor (PLit "CONTEXTS/DOCUMENTATION-CONTEXT")
       [RPut "addContext" (VGetX "readDocumentationContext" None)];
     RFind (PLit "DOCUMENTATION-CONTENT")
       [RPut "setDocumentationContent" (VGetX "readPredefinedChapter" None)]
       []],
   None).
(** arxml_parser.py:4690-4695 *)
Definition r_readChapterContent : list ri * option vx :=
  ([],
   Some (VNewX "ChapterContent" false [RIf (CGot (VGetX "readTopicContentOrMsrQuery" None))
        [RPut "setTopicContent" (VGetX "readTopicContentOrMsrQuery" None)]
        []])).
(** arxml_parser.py:4697-4707 *)
Definition r_readTopicContentOrMsrQuery : list ri * option vx :=
  ([],
   Some (VIfX (CEither (CAt (PLit "MSR-QUERY-P1") CTrue) (CAt (PLit "TOPIC-CONTENT") CTrue)) (VNewX "TopicContentOrMsrQuery" false [RFind (PLit "MSR-QUERY-P1")
         [RPut "setMsrQueryP1" (VGetX "readMsrQueryP1" None)]
         [];
       RFind (PLit "TOPIC-CONTENT")
         [RPut "setTopicContent" (VGetX "readTopicContent" None)]
         []]) VNoneX)).
(** arxml_parser.py:4709-4710 *)
Definition r_readMsrQueryP1 : list ri * option vx :=
  ([],
   Some (VNewX "MsrQueryP1" false [])).
(** arxml_parser.py:4712-4718 *)
Definition r_readTopicContent : list ri * option vx :=
  ([],
   Some (VNewX "TopicContent" false [RAttrs;
      RIf (CGot (VGetX "getDocumentationBlock" (Some (TLit "DOCUMENTATION-BLOCK"))))
        [RPut "setBlockLevelContent" (VGetX "getDocumentationBlock" (Some (TLit "DOCUMENTATION-BLOCK")))]
        []])).
(** arxml_parser.py:4720-4729 *)
Definition r_readTopic1 : list ri * option vx :=
  ([],
   Some (VNewX "Topic1" true [RCall "readIdentifiable" None;
      RIf (CGot (VAttrX "HELP-ENTRY"))
        [RPut "setHelpEntry" (VWrapX "String" "setValue" (VAttrX "HELP-ENTRY"))]
        [];
      RIf (CGot (VGetX "readTopicContentOrMsrQuery" None))
        [RPut "setTopicContent" (VGetX "readTopicContentOrMsrQuery" None)]
        []])).
(** arxml_parser.py:4731-4737 *)
Definition r_readMsrQueryTopic1 : list ri * option vx :=
  ([],
   Some (VNewX "MsrQueryTopic1" false [RAttrs;
      RFind (PLit "MSR-QUERY-PROPS")
        [RPut "setMsrQueryProps" (VGetX "getMsrQueryProps" None)]
        []])).
(** arxml_parser.py:4739-4745 *)
Definition r_readMsrQueryChapter : list ri * option vx :=
  ([],
   Some (VNewX "MsrQueryChapter" false [RAttrs;
      RFind (PLit "MSR-QUERY-PROPS")
        [RPut "setMsrQueryProps" (VGetX "getMsrQueryProps" None)]
        []])).
(** arxml_parser.py:4747-4754 *)
Definition r_readSwComponentType : list ri * option vx :=
  ([RCall "readIdentifiable" None;
     RCall "readSwComponentTypeSwComponentDocumentation" None;
     RCall "readSwComponentTypeConsistencyNeeds" None;
     RCall "readSwComponentTypePorts" None;
     RCall "readSwComponentTypePortGroups" None;
     RCall "readSwComponentTypeSwcMappingConstraints" None;
     RCall "readSwComponentTypeUnitGroups" None],
   None).
(** arxml_parser.py:4756-4760 *)
Definition r_readAtomicSwComponentTypeSymbolProps : list ri * option vx :=
  ([RFind (PLit "SYMBOL-PROPS")
       [RCreate "createSymbolProps" true
          [RCall "readSymbolProps" None]]
       []],
   None).
(** arxml_parser.py:4762-4765 *)
Definition r_readAtomicSwComponentType : list ri * option vx :=
  ([RCall "readSwComponentType" None;
     RCall "readAtomicSwComponentTypeSwcInternalBehavior" None;
     RCall "readAtomicSwComponentTypeSymbolProps" None],
   None).
(** arxml_parser.py:4767-4770 *)
Definition r_readEcuAbstractionSwComponentType : list ri * option vx :=
  ([RCall "readAtomicSwComponentType" None;
     RCall "readEcuAbstractionSwComponentTypeHardwareElementRefs" None],
   None).
(** arxml_parser.py:4772-4774 *)
Definition r_readEcuAbstractionSwComponentTypeHardwareElementRefs : list ri * option vx :=
  ([RForVal (VLeafsX RRef (PLit "HARDWARE-ELEMENT-REFS/HARDWARE-ELEMENT-REF"))
       [RPut "addHardwareElementRef" VItemX]],
   None).
(** arxml_parser.py:4776-4778 *)
Definition r_readApplicationSwComponentType : list ri * option vx :=
  ([RCall "readAtomicSwComponentType" None],
   None).
(** arxml_parser.py:4780-4784 *)
Definition r_readComplexDeviceDriverSwComponentType : list ri * option vx :=
  ([RCall "readAtomicSwComponentType" None;
     RForVal (VLeafsX RRef (PLit "HARDWARE-ELEMENT-REFS/HARDWARE-ELEMENT-REF"))
       [RPut "addHardwareElementRef" VItemX]],
   None).
(** arxml_parser.py:4786-4789 *)
Definition r_readSensorActuatorSwComponentType : list ri * option vx :=
  ([RCall "readAtomicSwComponentType" None;
     RPut "setSensorActuatorRef" (VLeafX RRef (PLit "SENSOR-ACTUATOR-REF"))],
   None).
(** arxml_parser.py:4791-4793 *)
Definition r_readServiceSwComponentType : list ri * option vx :=
  ([RCall "readAtomicSwComponentType" None],
   None).
(** arxml_parser.py:4795-4797 *)
Definition r_readServiceProxySwComponentType : list ri * option vx :=
  ([RCall "readAtomicSwComponentType" None],
   None).
(** arxml_parser.py:4799-4807 *)
Definition r_readNvBlockSwComponentType : list ri * option vx :=
  ([RCall "readAtomicSwComponentType" None;
     RFor (PLit "BULK-NV-DATA-DESCRIPTORS/BULK-NV-DATA-DESCRIPTOR")
       [RCreate "createBulkNvDataDescriptor" true
          [RCall "readBulkNvDataDescriptor" None]];
     RFor (PLit "NV-BLOCK-DESCRIPTORS/NV-BLOCK-DESCRIPTOR")
       [RCreate "createNvBlockDescriptor" true
          [RCall "readNvBlockDescriptor" None]]],
   None).
(** arxml_parser.py:4809-4821 *)
Definition r_readPPortInCompositionInstanceRef : list ri * option vx :=
  ([RPut "setContextComponentRef" (VLeafX RRef (PLit "CONTEXT-COMPONENT-REF"));
     RPut "setTargetPPortRef" (VLeafX RRef (PLit "TARGET-P-PORT-REF"))],
   None).
(** arxml_parser.py:4823-4835 *)
Definition r_readRPortInCompositionInstanceRef : list ri * option vx :=
  ([RPut "setContextComponentRef" (VLeafX RRef (PLit "CONTEXT-COMPONENT-REF"));
     RPut "setTargetRPortRef" (VLeafX RRef (PLit "TARGET-R-PORT-REF"))],
   None).
(** arxml_parser.py:4837-4843 *)
Definition r_readAssemblySwConnectorProviderIRef : list ri * option vx :=
  ([RFind (PLit "PROVIDER-IREF")
       [RPut "setProviderIRef" (VNewX "PPortInCompositionInstanceRef" false [RAttrs;
            RCall "readPPortInCompositionInstanceRef" None])]
       []],
   None).
(** arxml_parser.py:4845-4851 *)
Definition r_readAssemblySwConnectorRequesterIRef : list ri * option vx :=
  ([RFind (PLit "REQUESTER-IREF")
       [RPut "setRequesterIRef" (VNewX "RPortInCompositionInstanceRef" false [RAttrs;
            RCall "readRPortInCompositionInstanceRef" None])]
       []],
   None).
(** arxml_parser.py:4853-4855 *)
Definition r_readSwConnector : list ri * option vx :=
  ([RCall "readIdentifiable" None;
     RPut "setMappingRef" (VLeafX RRef (PLit "MAPPING-REF"))],
   None).
(** arxml_parser.py:4857-4861 *)
Definition r_readAssemblySwConnector : list ri * option vx :=
  ([RCall "readSwConnector" None;
     RCall "readAssemblySwConnectorProviderIRef" None;
     RCall "readAssemblySwConnectorRequesterIRef" None],
   None).
(** arxml_parser.py:4863-4876 *)
Definition r_readCompositionSwComponentTypeSwConnectors : list ri * option vx :=
  ([RFor (PLit "CONNECTORS/*")
       [RIf (CTag "ASSEMBLY-SW-CONNECTOR")
          [RCreate "createAssemblySwConnector" true
             [RCall "readAssemblySwConnector" None]]
          [RIf (CTag "DELEGATION-SW-CONNECTOR")
             [RCreate "createDelegationSwConnector" true
                [RCall "readDelegationSwConnector" None]]
             [RIf (CTag "PASS-THROUGH-SW-CONNECTOR")
                [RCreate "createPassThroughSwConnector" true
                   [RCall "readPassThroughSwConnector" None]]
                [RFail NotImplementedError true]]]]],
   None).
(** arxml_parser.py:4878-4881 *)
Definition r_readPassThroughSwConnector : list ri * option vx :=
  ([RCall "readSwConnector" None;
     RPut "setProvidedOuterPortRef" (VLeafX RRef (PLit "PROVIDED-OUTER-PORT-REF"));
     RPut "setRequiredOuterPortRef" (VLeafX RRef (PLit "REQUIRED-OUTER-PORT-REF"))],
   None).
(** arxml_parser.py:4883-4900 *)
Definition r_readDelegationSwConnectorInnerPortIRef : list ri * option vx :=
  ([RFind (PLit "INNER-PORT-IREF")
       [RFind (PLit "R-PORT-IN-COMPOSITION-INSTANCE-REF")
          [RPut "setInnerPortIRref" (VNewX "RPortInCompositionInstanceRef" false [RCall "readRPortInCompositionInstanceRef" None])]
          [RFind (PLit "P-PORT-IN-COMPOSITION-INSTANCE-REF")
             [RPut "setInnerPortIRref" (VNewX "PPortInCompositionInstanceRef" false [RCall "readPPortInCompositionInstanceRef" None])]
             [RFail ValueError true]]]
       []],
   Some (VFindX (PLit "INNER-PORT-IREF") (VFindX (PLit "R-PORT-IN-COMPOSITION-INSTANCE-REF") VNoneX (VFindX (PLit "P-PORT-IN-COMPOSITION-INSTANCE-REF") VNoneX VNoneX)) VNoneX)).
(** arxml_parser.py:4902-4910 *)
Definition r_readDelegationSwConnector : list ri * option vx :=
  ([RCall "readSwConnector" None;
     RCall "readDelegationSwConnectorInnerPortIRef" None;
     RIf (CBoth (CNeg (CObjHas [GM "getInnerPortIRref"])) (CNeg (CObjHas [GM "getOuterPortRef"])))
       [RFail ValueError true]
       [];
     RPut "setOuterPortRef" (VLeafX RRef (PLit "OUTER-PORT-REF"))],
   None).
(** arxml_parser.py:4913-4916 *)
Definition r_readSwComponentPrototype : list ri * option vx :=
  ([RCall "readIdentifiable" None;
     RPut "setTypeTRef" (VLeafX RRef (PLit "TYPE-TREF"))],
   None).
(** arxml_parser.py:4918-4925 *)
Definition r_readCompositionSwComponentTypeComponents : list ri * option vx :=
  ([RFor (PLit "COMPONENTS/*")
       [RIf (CTag "SW-COMPONENT-PROTOTYPE")
          [RCreate "createSwComponentPrototype" true
             [RCall "readSwComponentPrototype" None]]
          [RFail NotImplementedError true]]],
   None).
(** arxml_parser.py:4927-4931 *)
Definition r_readCompositionSwComponentTypeDataTypeMappingSet : list ri * option vx :=
  ([RFind (PLit "DATA-TYPE-MAPPING-REFS")
       [RForVal (VLeafsX RRef (PLit "DATA-TYPE-MAPPING-REF"))
          [RPut "addDataTypeMappingRef" VItemX]]
       []],
   None).
(** arxml_parser.py:4933-4937 *)
Definition r_readCompositionSwComponentTypeConstantValueMappingSet : list ri * option vx :=
  ([RFind (PLit "CONSTANT-VALUE-MAPPING-REFS")
       [RForVal (VLeafsX RRef (PLit "CONSTANT-VALUE-MAPPING-REF"))
          [RPut "addConstantValueMappingRef" VItemX]]
       []],
   None).
(** arxml_parser.py:4939-4942 *)
Definition r_readInstanceEventInCompositionInstanceRef : list ri * option vx :=
  ([RForVal (VLeafsX RRef (PLit "CONTEXT-COMPONENT-PROTOTYPE-REF"))
       [RPut "addContextComponentPrototypeRef" VItemX];
     RPut "setTargetEventRef" (VLeafX RRef (PLit "TARGET-EVENT-REF"))],
   None).
(** arxml_parser.py:4944-4951 *)
Definition r_readInstantiationRTEEventProps : list ri * option vx :=
  ([RFind (PLit "REFINED-EVENT-IREF")
       [RPut "setRefinedEventIRef" (VNewX "InstanceEventInCompositionInstanceRef" false [RAttrs;
            RCall "readInstanceEventInCompositionInstanceRef" None])]
       [];
     RPut "setShortLabel" (VLeafX RLiteral (PLit "SHORT-LABEL"))],
   None).
(** arxml_parser.py:4953-4955 *)
Definition r_readInstantiationTimingEventProps : list ri * option vx :=
  ([RCall "readInstantiationRTEEventProps" None;
     RPut "setPeriod" (VLeafX RTime (PLit "PERIOD"))],
   None).
(** arxml_parser.py:4957-4964 *)
Definition r_readCompositionSwComponentTypeInstantiationRTEEventProps : list ri * option vx :=
  ([RFind (PLit "INSTANTIATION-RTE-EVENT-PROPSS")
       [RFor (PLit "INSTANTIATION-TIMING-EVENT-PROPS")
          [RPut "addInstantiationRTEEventProps" (VNewX "InstantiationTimingEventProps" false [RAttrs;
               RCall "readInstantiationTimingEventProps" None])]]
       []],
   None).
(** arxml_parser.py:4966-4975 *)
Definition r_readCompositionSwComponentType : list ri * option vx :=
  ([RCall "readSwComponentType" None;
     RCall "readCompositionSwComponentTypeComponents" None;
     RCall "readCompositionSwComponentTypeSwConnectors" None;
     RCall "readCompositionSwComponentTypeDataTypeMappingSet" None;
     RCall "readCompositionSwComponentTypeConstantValueMappingSet" None;
     RCall "readCompositionSwComponentTypeInstantiationRTEEventProps" None],
   None).
(** arxml_parser.py:4977-4986 *)
Definition r_readDataTypeMaps : list ri * option vx :=
  ([RFor (PLit "DATA-TYPE-MAPS/DATA-TYPE-MAP")
       [RPut "addDataTypeMap" (VNewX "DataTypeMap" false [RAttrs;
            RSet "applicationDataTypeRef" (VLeafX RRef (PLit "APPLICATION-DATA-TYPE-REF"));
            RSet "implementationDataTypeRef" (VLeafX RRef (PLit "IMPLEMENTATION-DATA-TYPE-REF"))])]],
   None).
(** arxml_parser.py:4988-4994 *)
Definition r_readModeRequestTypeMaps : list ri * option vx :=
  ([RFor (PLit "MODE-REQUEST-TYPE-MAPS/MODE-REQUEST-TYPE-MAP")
       [RPut "addModeRequestTypeMap" (VNewX "ModeRequestTypeMap" false [RAttrs;
            RSet "implementationDataTypeRef" (VLeafX RRef (PLit "IMPLEMENTATION-DATA-TYPE-REF"));
            RSet "modeGroupRef" (VLeafX RRef (PLit "MODE-GROUP-REF"))])]],
   None).
(** arxml_parser.py:4996-5000 *)
Definition r_readDataTypeMappingSet : list ri * option vx :=
  ([RCall "readIdentifiable" None;
     RCall "readDataTypeMaps" None;
     RCall "readModeRequestTypeMaps" None],
   None).
(** arxml_parser.py:5002-5011 *)
Definition r_readSenderReceiverInterfaceDataElements : list ri * option vx :=
  ([RFor (PLit "DATA-ELEMENTS/*")
       [RIf (CTag "VARIABLE-DATA-PROTOTYPE")
          [RCreate "createDataElement" true
             [RCall "readVariableDataPrototype" None]]
          [RFail NotImplementedError true]]],
   None).
(** arxml_parser.py:5013-5018 *)
Definition r_readSenderReceiverInterfaceInvalidationPolicies : list ri * option vx :=
  ([RFor (PLit "INVALIDATION-POLICYS/INVALIDATION-POLICY")
       [RPut "addInvalidationPolicy" (VNewX "InvalidationPolicy" false [RPut "setDataElementRef" (VLeafX RRef (PLit "DATA-ELEMENT-REF"));
            RPut "setHandleInvalid" (VLeafX RLiteral (PLit "HANDLE-INVALID"))])]],
   None).
(** arxml_parser.py:5020-5026 *)
Definition r_readInvalidationPolicys : list ri * option vx :=
  ([RFor (PLit "INVALIDATION-POLICYS/INVALIDATION-POLICY")
       [RCreate "createInvalidationPolicy" false
          [RCall "readIdentifiable" None;
           RSet "data_element_ref" (VLeafX RRef (PLit "DATA-ELEMENT-REF"));
           RSet "handle_invalid" (VLeafX RLiteral (PLit "HANDLE-INVALID"))]]],
   None).
(** arxml_parser.py:5028-5033 *)
Definition r_readSenderReceiverInterface : list ri * option vx :=
  ([RCall "readIdentifiable" None;
     RPut "setIsService" (VLeafX RBool (PLit "IS-SERVICE"));
     RCall "readSenderReceiverInterfaceDataElements" None;
     RCall "readSenderReceiverInterfaceInvalidationPolicies" None],
   None).
(** arxml_parser.py:5035-5038 *)
Definition r_readArgumentDataPrototype : list ri * option vx :=
  ([RCall "readAutosarDataPrototype" None;
     RPut "setDirection" (VLeafX RLiteral (PLit "DIRECTION"));
     RPut "setServerArgumentImplPolicy" (VLeafX RLiteral (PLit "SERVER-ARGUMENT-IMPL-POLICY"))],
   None).
(** arxml_parser.py:5040-5047 *)
Definition r_readClientServerOperationArguments : list ri * option vx :=
  ([RFor (PLit "ARGUMENTS/*")
       [RIf (CTag "ARGUMENT-DATA-PROTOTYPE")
          [RCreate "createArgumentDataPrototype" true
             [RCall "readArgumentDataPrototype" None]]
          [RFail NotImplementedError true]]],
   None).
(** arxml_parser.py:5049-5053 *)
Definition r_readPossibleErrorRefs : list ri * option vx :=
  ([RFind (PLit "POSSIBLE-ERROR-REFS")
       [RForVal (VLeafsX RRef (PLit "POSSIBLE-ERROR-REF"))
          [RPut "addPossibleErrorRef" VItemX]]
       []],
   None).
(** arxml_parser.py:5055-5059 *)
Definition r_readClientServerOperation : list ri * option vx :=
  ([RCall "readIdentifiable" None;
     RCall "readClientServerOperationArguments" None;
     RPut "setDiagArgIntegrity" (VLeafX RBool (PLit "DIAG-ARG-INTEGRITY"));
     RCall "readPossibleErrorRefs" None],
   None).
(** arxml_parser.py:5061-5068 *)
Definition r_readClientServerInterfaceOperations : list ri * option vx :=
  ([RFor (PLit "OPERATIONS/*")
       [RIf (CTag "CLIENT-SERVER-OPERATION")
          [RCreate "createOperation" true
             [RCall "readClientServerOperation" None]]
          [RFail NotImplementedError true]]],
   None).
(** arxml_parser.py:5070-5075 *)
Definition r_readPossibleErrors : list ri * option vx :=
  ([RFor (PLit "POSSIBLE-ERRORS/APPLICATION-ERROR")
       [RCreate "createApplicationError" true
          [RCall "readIdentifiable" None;
           RPut "setErrorCode" (VLeafX RInteger (PLit "ERROR-CODE"))]]],
   None).
(** arxml_parser.py:5077-5080 *)
Definition r_readPortInterface : list ri * option vx :=
  ([RCall "readIdentifiable" None;
     RPut "setIsService" (VLeafX RBool (PLit "IS-SERVICE"));
     RPut "setServiceKind" (VLeafX RLiteral (PLit "SERVICE-KIND"))],
   None).
(** arxml_parser.py:5082-5089 *)
Definition r_readParameterInterfaceParameters : list ri * option vx :=
  ([RFor (PLit "PARAMETERS/*")
       [RIf (CTag "PARAMETER-DATA-PROTOTYPE")
          [RCreate "createParameterDataPrototype" true
             [RCall "readParameterDataPrototype" None]]
          [RFail NotImplementedError true]]],
   None).
(** arxml_parser.py:5091-5092 *)
Definition r_readDataInterface : list ri * option vx :=
  ([RCall "readPortInterface" None],
   None).
(** arxml_parser.py:5094-5097 *)
Definition r_readParameterInterface : list ri * option vx :=
  ([RCall "readDataInterface" None;
     RCall "readParameterInterfaceParameters" None],
   None).
(** arxml_parser.py:5099-5106 *)
Definition r_readNvDataInterfaceNvDatas : list ri * option vx :=
  ([RFor (PLit "NV-DATAS/*")
       [RIf (CTag "VARIABLE-DATA-PROTOTYPE")
          [RCreate "createNvData" true
             [RCall "readVariableDataPrototype" None]]
          [RFail NotImplementedError true]]],
   None).
(** arxml_parser.py:5108-5111 *)
Definition r_readNvDataInterface : list ri * option vx :=
  ([RCall "readDataInterface" None;
     RCall "readNvDataInterfaceNvDatas" None],
   None).
(** arxml_parser.py:5113-5117 *)
Definition r_readClientServerInterface : list ri * option vx :=
  ([RCall "readPortInterface" None;
     RCall "readClientServerInterfaceOperations" None;
     RCall "readPossibleErrors" None],
   None).
(** arxml_parser.py:5119-5135 *)
Definition r_getCompuConstContent : list ri * option vx :=
  ([RFind (PLit "*")
       [RIf (CTag "VF")
          []
          [RIf (CTag "V")
             []
             [RIf (CTag "VT")
                []
                [RFail NotImplementedError true]]]]
       []],
   Some (VIfX (CAt (PLit "*") (CTag "VF")) (VNewX "CompuConstFormulaContent" false [RPut "setVf" (VLeafX RLiteral (PLit "VF"))]) (VIfX (CAt (PLit "*") (CTag "V")) (VNewX "CompuConstNumericContent" false [RPut "setV" (VLeafX RNumerical (PLit "V"))]) (VIfX (CAt (PLit "*") (CTag "VT")) (VNewX "CompuConstTextContent" false [RPut "setVt" (VLeafX RLiteral (PLit "VT"))]) VNoneX)))).
(** arxml_parser.py:5137-5144 *)
Definition r_getCompuConst : list ri * option vx :=
  ([],
   Some (VFindX PKey (VNewX "CompuConst" false [RAttrs;
       RPut "setCompuConstContentType" (VGetX "getCompuConstContent" None)]) VNoneX)).
(** arxml_parser.py:5146-5155 *)
Definition r_readCompuConst : list ri * option vx :=
  ([RFind (PLit "COMPU-CONST/VT")
       [RSet "compuScaleContents" (VNewX "CompuScaleConstantContents" false [RSet "compuConst" (VNewX "CompuConst" false []);
            RSub (GA "compuConst") [RSet "compuConstContentType" (VNewX "CompuConstTextContent" false [])];
            RSub (GA "compuConst") [RSub (GA "compuConstContentType") [RSet "vt" (VWrapX "ARLiteral" "setValue" VTextX)]]])]
       []],
   None).
(** arxml_parser.py:5157-5160 *)
Definition r_readCompuNominatorDenominator : list ri * option vx :=
  ([RFor (PKeyThen "/V")
       [RPut "add_v" VTextX]],
   None).
(** arxml_parser.py:5162-5172 *)
Definition r_readCompuRationCoeffs : list ri * option vx :=
  ([RFind (PLit "COMPU-RATIONAL-COEFFS")
       [RSet "compuScaleContents" (VNewX "CompuScaleRationalFormula" false [RSet "compuRationalCoeffs" (VNewX "CompuRationalCoeffs" false []);
            RSub (GA "compuRationalCoeffs") [RSet "compuDenominator" (VNewX "CompuNominatorDenominator" false [])];
            RSub (GA "compuRationalCoeffs") [RSet "compuNumerator" (VNewX "CompuNominatorDenominator" false [])];
            RSub (GA "compuRationalCoeffs") [RSub (GA "compuDenominator") [RCall "readCompuNominatorDenominator" (Some (TLit "COMPU-DENOMINATOR"))]];
            RSub (GA "compuRationalCoeffs") [RSub (GA "compuNumerator") [RCall "readCompuNominatorDenominator" (Some (TLit "COMPU-NUMERATOR"))]]])]
       []],
   None).
(** arxml_parser.py:5174-5176 *)
Definition r_readCompuScaleContents : list ri * option vx :=
  ([RCall "readCompuConst" None;
     RCall "readCompuRationCoeffs" None],
   None).
(** arxml_parser.py:5178-5186 *)
Definition r_readCompuScale : list ri * option vx :=
  ([RAttrs;
     RPut "setShortLabel" (VLeafX RLiteral (PLit "SHORT-LABEL"));
     RPut "setSymbol" (VLeafX RLiteral (PLit "SYMBOL"));
     RPut "setDesc" (VGetX "getMultiLanguageOverviewParagraph" (Some (TLit "DESC")));
     RPut "setMask" (VLeafX RPositive (PLit "MASK"));
     RPut "setLowerLimit" (VLeafX RLimit (PLit "LOWER-LIMIT"));
     RPut "setUpperLimit" (VLeafX RLimit (PLit "UPPER-LIMIT"));
     RCall "readCompuScaleContents" None],
   None).
(** arxml_parser.py:5188-5197 *)
Definition r_getCompuScales : list ri * option vx :=
  ([],
   Some (VFindX (PLit "COMPU-SCALES") (VNewX "CompuScales" false [RFor (PLit "COMPU-SCALE")
         [RPut "addCompuScale" (VNewX "CompuScale" false [RCall "readCompuScale" None])]]) VNoneX)).
(** arxml_parser.py:5199-5207 *)
Definition r_getCompu : list ri * option vx :=
  ([],
   Some (VFindX PKey (VNewX "Compu" false [RAttrs;
       RPut "setCompuContent" (VGetX "getCompuScales" None);
       RPut "setCompuDefaultValue" (VGetX "getCompuConst" (Some (TLit "COMPU-DEFAULT-VALUE")))]) VNoneX)).
(** arxml_parser.py:5209-5214 *)
Definition r_readCompuMethod : list ri * option vx :=
  ([RCall "readIdentifiable" None;
     RPut "setUnitRef" (VLeafX RRef (PLit "UNIT-REF"));
     RPut "setCompuInternalToPhys" (VGetX "getCompu" (Some (TLit "COMPU-INTERNAL-TO-PHYS")));
     RPut "setCompuPhysToInternal" (VGetX "getCompu" (Some (TLit "COMPU-PHYS-TO-INTERNAL")))],
   None).
(** arxml_parser.py:5216-5221 *)
Definition r_readSwcBswMappingSwcBswRunnableMappings : list ri * option vx :=
  ([RFor (PLit "RUNNABLE-MAPPINGS/SWC-BSW-RUNNABLE-MAPPING")
       [RPut "addRunnableMapping" (VNewX "SwcBswRunnableMapping" false [RPut "setBswEntityRef" (VLeafX RRef (PLit "BSW-ENTITY-REF"));
            RPut "setSwcRunnableRef" (VLeafX RRef (PLit "SWC-RUNNABLE-REF"))])]],
   None).
(** arxml_parser.py:5223-5231 *)
Definition r_readSwcBswSynchronizedModeGroupPrototype : list ri * option vx :=
  ([],
   Some (VNewX "SwcBswSynchronizedModeGroupPrototype" false [RPut "setBswModeGroupRef" (VLeafX RRef (PLit "BSW-MODE-GROUP-REF"));
      RFind (PLit "SWC-MODE-GROUP-IREF")
        [RPut "setSwcModeGroupIRef" (VNewX "PModeGroupInAtomicSwcInstanceRef" false [RCall "readPModeGroupInAtomicSWCInstanceRef" None])]
        []])).
(** arxml_parser.py:5233-5241 *)
Definition r_readSwcBswSynchronizedTrigger : list ri * option vx :=
  ([],
   Some (VNewX "SwcBswSynchronizedTrigger" false [RPut "setBswTriggerRef" (VLeafX RRef (PLit "BSW-TRIGGER-REF"));
      RFind (PLit "SWC-TRIGGER-IREF")
        [RPut "setSwcTriggerIRef" (VNewX "PTriggerInAtomicSwcTypeInstanceRef" false [RCall "readPTriggerInAtomicSwcTypeInstanceRef" None])]
        []])).
(** arxml_parser.py:5243-5245 *)
Definition r_readSwcBswMappingSwcBswSynchronizedModeGroups : list ri * option vx :=
  ([RFor (PLit "SYNCHRONIZED-MODE-GROUPS/SWC-BSW-SYNCHRONIZED-MODE-GROUP-PROTOTYPE")
       [RPut "addSynchronizedModeGroup" (VGetX "readSwcBswSynchronizedModeGroupPrototype" None)]],
   None).
(** arxml_parser.py:5247-5249 *)
Definition r_readSwcBswMappingSwcBswSynchronizedTriggers : list ri * option vx :=
  ([RFor (PLit "SYNCHRONIZED-TRIGGERS/SWC-BSW-SYNCHRONIZED-TRIGGER")
       [RPut "addSynchronizedTrigger" (VGetX "readSwcBswSynchronizedTrigger" None)]],
   None).
(** arxml_parser.py:5251-5258 *)
Definition r_readSwcBswMapping : list ri * option vx :=
  ([RCall "readIdentifiable" None;
     RPut "setBswBehaviorRef" (VLeafX RRef (PLit "BSW-BEHAVIOR-REF"));
     RCall "readSwcBswMappingSwcBswRunnableMappings" None;
     RCall "readSwcBswMappingSwcBswSynchronizedModeGroups" None;
     RCall "readSwcBswMappingSwcBswSynchronizedTriggers" None;
     RPut "setSwcBehaviorRef" (VLeafX RRef (PLit "SWC-BEHAVIOR-REF"))],
   None).
(** arxml_parser.py:5260-5262 *)
Definition r_readValueSpecification : list ri * option vx :=
  ([RAttrs;
     RPut "setShortLabel" (VLeafX RLiteral (PLit "SHORT-LABEL"))],
   None).
(** arxml_parser.py:5265-5271 *)
Definition r_getApplicationValueSpecification : list ri * option vx :=
  ([],
   Some (VNewX "ApplicationValueSpecification" false [RCall "readValueSpecification" None;
      RPut "setCategory" (VLeafX RLiteral (PLit "CATEGORY"));
      RPut "setShortLabel" (VLeafX RLiteral (PLit "SHORT-LABEL"));
      RPut "setSwValueCont" (VGetX "getSwValueCont" None)])).
(** arxml_parser.py:5273-5278 *)
Definition r_getNumericalOrText : list ri * option vx :=
  ([],
   Some (VNewX "NumericalOrText" false [RAttrs;
      RPut "setVf" (VLeafX RNumerical (PLit "VF"));
      RPut "setVt" (VLeafX RLiteral (PLit "VT"))])).
(** arxml_parser.py:5280-5289 *)
Definition r_getRuleArguments : list ri * option vx :=
  ([],
   Some (VNewX "RuleArguments" false [RAttrs;
      RPut "setV" (VLeafX RNumerical (PLit "V"));
      RPut "setVf" (VLeafX RNumerical (PLit "VF"));
      RPut "setVt" (VLeafX RVerbatim (PLit "VT"));
      RFind (PLit "VTF")
        [RPut "setVtf" (VGetX "getNumericalOrText" None)]
        []])).
(** arxml_parser.py:5291-5300 *)
Definition r_getRuleBasedValueSpecification : list ri * option vx :=
  ([],
   Some (VNewX "RuleBasedValueSpecification" false [RAttrs;
      RPut "setRule" (VLeafX RIdentifier (PLit "RULE"));
      RFor (PLit "ARGUMENTSS/RULE-ARGUMENTS")
        [RPut "addArgument" (VGetX "getRuleArguments" None)];
      RPut "setMaxSizeToFill" (VLeafX RInteger (PLit "MAX-SIZE-TO-FILL"))])).
(** arxml_parser.py:5302-5310 *)
Definition r_getRuleBasedAxisCont : list ri * option vx :=
  ([],
   Some (VNewX "RuleBasedAxisCont" false [RAttrs;
      RPut "setCategory" (VLeafX RLiteral (PLit "CATEGORY"));
      RPut "setUnitRef" (VLeafX RRef (PLit "UNIT-REF"));
      RPut "setSwArraysize" (VGetX "getValueList" (Some (TLit "SW-ARRAYSIZE")));
      RPut "setSwAxisIndex" (VLeafX RLiteral (PLit "SW-AXIS-INDEX"));
      RPut "setRuleBasedValues" (VFindX (PLit "RULE-BASED-VALUES") (VGetX "getRuleBasedValueSpecification" None) VNoneX)])).
(** arxml_parser.py:5312-5321 *)
Definition r_getRuleBasedValueCont : list ri * option vx :=
  ([],
   Some (VFindX (PLit "SW-VALUE-CONT") (VNewX "RuleBasedValueCont" false [RAttrs;
       RPut "setUnitRef" (VLeafX RRef (PLit "UNIT-REF"));
       RPut "setSwArraysize" (VGetX "getValueList" (Some (TLit "SW-ARRAYSIZE")));
       RPut "setRuleBasedValues" (VFindX (PLit "RULE-BASED-VALUES") (VGetX "getRuleBasedValueSpecification" None) VNoneX)]) VNoneX)).
(** arxml_parser.py:5323-5330 *)
Definition r_getApplicationRuleBasedValueSpecification : list ri * option vx :=
  ([],
   Some (VNewX "ApplicationRuleBasedValueSpecification" false [RCall "readValueSpecification" None;
      RPut "setCategory" (VLeafX RLiteral (PLit "CATEGORY"));
      RFor (PLit "SW-AXIS-CONTS/RULE-BASED-AXIS-CONT")
        [RPut "addSwAxisCont" (VGetX "getRuleBasedAxisCont" None)];
      RPut "setSwValueCont" (VGetX "getRuleBasedValueCont" None)])).
(** arxml_parser.py:5332-5341 *)
Definition r_getCompositeRuleBasedValueSpecification : list ri * option vx :=
  ([],
   Some (VNewX "CompositeRuleBasedValueSpecification" false [RCall "readValueSpecification" None;
      RPut "setRule" (VLeafX RIdentifier (PLit "RULE"));
      RFor (PLit "ARGUMENTS/*")
        [RPut "addArgument" (VGetX "getValueSpecification" (Some TOwn))];
      RFor (PLit "COMPOUND-PRIMITIVE-ARGUMENTS/*")
        [RPut "addCompoundPrimitiveArgument" (VGetX "getValueSpecification" (Some TOwn))];
      RPut "setMaxSizeToFill" (VLeafX RInteger (PLit "MAX-SIZE-TO-FILL"))])).
(** arxml_parser.py:5343-5348 *)
Definition r_getNumericalValueSpecification : list ri * option vx :=
  ([],
   Some (VNewX "NumericalValueSpecification" false [RCall "readValueSpecification" None;
      RPut "setShortLabel" (VLeafX RLiteral (PLit "SHORT-LABEL"));
      RPut "setValue" (VLeafX RNumerical (PLit "VALUE"))])).
(** arxml_parser.py:5350-5356 *)
Definition r_getTextValueSpecification : list ri * option vx :=
  ([],
   Some (VNewX "TextValueSpecification" false [RCall "readValueSpecification" None;
      RPut "setShortLabel" (VLeafX RLiteral (PLit "SHORT-LABEL"));
      RPut "setValue" (VLeafX RLiteral (PLit "VALUE"))])).
(** arxml_parser.py:5358-5365 *)
Definition r_getArrayValueSpecification : list ri * option vx :=
  ([],
   Some (VNewX "ArrayValueSpecification" false [RCall "readValueSpecification" None;
      RFor (PLit "ELEMENTS/*")
        [RPut "addElement" (VGetX "getValueSpecification" (Some TOwn))]])).
(** arxml_parser.py:5367-5372 *)
Definition r_getConstantReference : list ri * option vx :=
  ([],
   Some (VNewX "ConstantReference" false [RCall "readValueSpecification" None;
      RPut "setConstantRef" (VLeafX RRef (PLit "CONSTANT-REF"))])).
(** arxml_parser.py:5374-5393 *)
Definition r_getValueSpecification : list ri * option vx :=
  ([RIf (CKeyIs "APPLICATION-VALUE-SPECIFICATION")
       []
       [RIf (CKeyIs "APPLICATION-RULE-BASED-VALUE-SPECIFICATION")
          []
          [RIf (CKeyIs "COMPOSITE-RULE-BASED-VALUE-SPECIFICATION")
             []
             [RIf (CKeyIs "RECORD-VALUE-SPECIFICATION")
                []
                [RIf (CKeyIs "NUMERICAL-VALUE-SPECIFICATION")
                   []
                   [RIf (CKeyIs "ARRAY-VALUE-SPECIFICATION")
                      []
                      [RIf (CKeyIs "TEXT-VALUE-SPECIFICATION")
                         []
                         [RIf (CKeyIs "CONSTANT-REFERENCE")
                            []
                            [RFail NotImplementedError true]]]]]]]]],
   Some (VIfX (CKeyIs "APPLICATION-VALUE-SPECIFICATION") (VGetX "getApplicationValueSpecification" None) (VIfX (CKeyIs "APPLICATION-RULE-BASED-VALUE-SPECIFICATION") (VGetX "getApplicationRuleBasedValueSpecification" None) (VIfX (CKeyIs "COMPOSITE-RULE-BASED-VALUE-SPECIFICATION") (VGetX "getCompositeRuleBasedValueSpecification" None) (VIfX (CKeyIs "RECORD-VALUE-SPECIFICATION") (VGetX "getRecordValueSpecification" None) (VIfX (CKeyIs "NUMERICAL-VALUE-SPECIFICATION") (VGetX "getNumericalValueSpecification" None) (VIfX (CKeyIs "ARRAY-VALUE-SPECIFICATION") (VGetX "getArrayValueSpecification" None) (VIfX (CKeyIs "TEXT-VALUE-SPECIFICATION") (VGetX "getTextValueSpecification" None) (VIfX (CKeyIs "CONSTANT-REFERENCE") (VGetX "getConstantReference" None) (VFailX UnboundLocalError)))))))))).
(** arxml_parser.py:5395-5397 *)
Definition r_readRecordValueSpecificationFields : list ri * option vx :=
  ([RFor (PLit "FIELDS/*")
       [RPut "addField" (VGetX "getValueSpecification" (Some TOwn))]],
   None).
(** arxml_parser.py:5399-5403 *)
Definition r_getRecordValueSpecification : list ri * option vx :=
  ([],
   Some (VNewX "RecordValueSpecification" false [RCall "readValueSpecification" None;
      RCall "readRecordValueSpecificationFields" None])).
(** arxml_parser.py:5405-5409 *)
Definition r_readConstantSpecification : list ri * option vx :=
  ([RCall "readIdentifiable" None;
     RFor (PLit "VALUE-SPEC/*")
       [RPut "setValueSpec" (VGetX "getValueSpecification" (Some TOwn))]],
   None).
(** arxml_parser.py:5411-5423 *)
Definition r_readInternalConstrs : list ri * option vx :=
  ([RFind (PLit "INTERNAL-CONSTRS")
       [RSet "internalConstrs" (VNewX "InternalConstrs" false [RAttrs;
            RPut "setLowerLimit" (VLeafX RLimit (PLit "LOWER-LIMIT"));
            RPut "setUpperLimit" (VLeafX RLimit (PLit "UPPER-LIMIT"));
            RFor (PLit "SCALE-CONSTRS/SCALE-CONSTR")
              [RPut "addScaleConstr" (VGetX "readScaleConstr" None)];
            RPut "setMaxGradient" (VLeafX RNumerical (PLit "MAX-GRADIENT"));
            RPut "setMaxDiff" (VLeafX RNumerical (PLit "MAX-DIFF"));
            RPut "setMonotony" (VLeafX RLiteral (PLit "MONOTONY"))])]
       []],
   None).
(** arxml_parser.py:5425-5435 *)
Definition r_readScaleConstr : list ri * option vx :=
  ([],
   Some (VNewX "ScaleConstr" false [RAttrs;
      RPut "setDesc" (VGetX "getMultiLanguageOverviewParagraph" (Some (TLit "DESC")));
      RPut "setLowerLimit" (VLeafX RLimit (PLit "LOWER-LIMIT"));
      RPut "setShortLabel" (VLeafX RIdentifier (PLit "SHORT-LABEL"));
      RPut "setUpperLimit" (VLeafX RLimit (PLit "UPPER-LIMIT"));
      RIf (CGot (VAttrX "VALIDITY"))
        [RPut "setValidity" (VWrapX "ScaleConstrValidityEnum" "setValue" (VAttrX "VALIDITY"))]
        []])).
(** arxml_parser.py:5437-5450 *)
Definition r_readPhysConstrs : list ri * option vx :=
  ([RFind (PLit "PHYS-CONSTRS")
       [RSet "physConstrs" (VNewX "PhysConstrs" false [RAttrs;
            RPut "setLowerLimit" (VLeafX RLimit (PLit "LOWER-LIMIT"));
            RPut "setUpperLimit" (VLeafX RLimit (PLit "UPPER-LIMIT"));
            RPut "setMaxDiff" (VLeafX RNumerical (PLit "MAX-DIFF"));
            RPut "setMaxGradient" (VLeafX RNumerical (PLit "MAX-GRADIENT"));
            RPut "setMonotony" (VLeafX RLiteral (PLit "MONOTONY"));
            RFor (PLit "SCALE-CONSTRS/SCALE-CONSTR")
              [RPut "addScaleConstr" (VGetX "readScaleConstr" None)];
            RPut "setUnitRef" (VLeafX RRef (PLit "UNIT-REF"))])]
       []],
   None).
(** arxml_parser.py:5452-5460 *)
Definition r_readDataConstrRule : list ri * option vx :=
  ([RFor (PLit "DATA-CONSTR-RULES/DATA-CONSTR-RULE")
       [RPut "addDataConstrRule" (VNewX "DataConstrRule" false [RAttrs;
            RSet "constrLevel" (VLeafX RNumerical (PLit "CONSTR-LEVEL"));
            RCall "readInternalConstrs" None;
            RCall "readPhysConstrs" None])]],
   None).
(** arxml_parser.py:5462-5465 *)
Definition r_readDataConstr : list ri * option vx :=
  ([RCall "readIdentifiable" None;
     RCall "readDataConstrRule" None],
   None).
(** arxml_parser.py:5467-5473 *)
Definition r_readUnit : list ri * option vx :=
  ([RCall "readIdentifiable" None;
     RPut "setDisplayName" (VLeafX RLiteral (PLit "DISPLAY-NAME"));
     RPut "setFactorSiToUnit" (VLeafX RFloat (PLit "FACTOR-SI-TO-UNIT"));
     RPut "setOffsetSiToUnit" (VLeafX RFloat (PLit "OFFSET-SI-TO-UNIT"));
     RPut "setPhysicalDimensionRef" (VLeafX RRef (PLit "PHYSICAL-DIMENSION-REF"))],
   None).
(** arxml_parser.py:5475-5479 *)
Definition r_readEndToEndDescriptionDataIds : list ri * option vx :=
  ([RFind (PLit "DATA-IDS")
       [RForVal (VLeafsX RNumItem (PLit "DATA-ID"))
          [RPut "addDataId" VItemX]]
       []],
   None).
(** arxml_parser.py:5481-5494 *)
Definition r_getEndToEndDescription : list ri * option vx :=
  ([],
   Some (VFindX PKey (VNewX "EndToEndDescription" false [RAttrs;
       RPut "setCategory" (VLeafX RLiteral (PLit "CATEGORY"));
       RCall "readEndToEndDescriptionDataIds" None;
       RPut "setDataIdMode" (VLeafX RPositive (PLit "DATA-ID-MODE"));
       RPut "setDataLength" (VLeafX RPositive (PLit "DATA-LENGTH"));
       RPut "setMaxDeltaCounterInit" (VLeafX RPositive (PLit "MAX-DELTA-COUNTER-INIT"));
       RPut "setCrcOffset" (VLeafX RPositive (PLit "CRC-OFFSET"));
       RPut "setCounterOffset" (VLeafX RPositive (PLit "COUNTER-OFFSET"))]) VNoneX)).
(** arxml_parser.py:5496-5505 *)
Definition r_getVariableDataPrototypeInSystemInstanceRef : list ri * option vx :=
  ([],
   Some (VNewX "VariableDataPrototypeInSystemInstanceRef" false [RForVal (VLeafsX RRef (PLit "CONTEXT-COMPONENT-REF"))
        [RPut "addContextComponentRef" VItemX];
      RPut "setContextCompositionRef" (VLeafX RRef (PLit "CONTEXT-COMPOSITION-REF"));
      RPut "setContextPortRef" (VLeafX RRef (PLit "CONTEXT-PORT-REF"));
      RPut "setTargetDataPrototypeRef" (VLeafX RRef (PLit "TARGET-DATA-PROTOTYPE-REF"))])).
(** arxml_parser.py:5507-5514 *)
Definition r_readEndToEndProtectionVariablePrototype : list ri * option vx :=
  ([RAttrs;
     RFor (PLit "RECEIVER-IREFS/RECEIVER-IREF")
       [RPut "addReceiverIref" (VGetX "getVariableDataPrototypeInSystemInstanceRef" None)];
     RFind (PLit "SENDER-IREF")
       [RSet "senderIRef" (VGetX "getVariableDataPrototypeInSystemInstanceRef" None)]
       []],
   None).
(** arxml_parser.py:5516-5524 *)
Definition r_readEndToEndProtectionEndToEndProtectionVariablePrototypes : list ri * option vx :=
  ([RFor (PLit "END-TO-END-PROTECTION-VARIABLE-PROTOTYPES/*")
       [RIf (CTag "END-TO-END-PROTECTION-VARIABLE-PROTOTYPE")
          [RPut "addEndToEndProtectionVariablePrototype" (VNewX "EndToEndProtectionVariablePrototype" false [RCall "readEndToEndProtectionVariablePrototype" None])]
          [RFail ValueError true]]],
   None).
(** arxml_parser.py:5526-5529 *)
Definition r_readEndToEndProtectionISignalIPdu : list ri * option vx :=
  ([RPut "setDataOffset" (VLeafX RInteger (PLit "DATA-OFFSET"));
     RPut "setISignalGroupRef" (VLeafX RRef (PLit "I-SIGNAL-GROUP-REF"));
     RPut "setISignalIPduRef" (VLeafX RRef (PLit "I-SIGNAL-I-PDU-REF"))],
   None).
(** arxml_parser.py:5531-5539 *)
Definition r_readEndToEndProtectionEndToEndProtectionISignalIPdus : list ri * option vx :=
  ([RFor (PLit "END-TO-END-PROTECTION-I-SIGNAL-I-PDUS/*")
       [RIf (CTag "END-TO-END-PROTECTION-I-SIGNAL-I-PDU")
          [RPut "addEndToEndProtectionISignalIPdu" (VNewX "EndToEndProtectionISignalIPdu" false [RCall "readEndToEndProtectionISignalIPdu" None])]
          [RFail NotImplementedError true]]],
   None).
(** arxml_parser.py:5541-5548 *)
Definition r_readEndToEndProtection : list ri * option vx :=
  ([RCreate "createEndToEndProtection" true
       [RCall "readIdentifiable" None;
        RPut "setEndToEndProfile" (VGetX "getEndToEndDescription" (Some (TLit "END-TO-END-PROFILE")));
        RCall "readEndToEndProtectionEndToEndProtectionISignalIPdus" None;
        RCall "readEndToEndProtectionEndToEndProtectionVariablePrototypes" None]],
   None).
(** arxml_parser.py:5550-5556 *)
Definition r_readEndToEndProtections : list ri * option vx :=
  ([RFor (PLit "END-TO-END-PROTECTIONS/*")
       [RIf (CTag "END-TO-END-PROTECTION")
          [RCall "readEndToEndProtection" None]
          [RFail NotImplementedError true]]],
   None).
(** arxml_parser.py:5558-5561 *)
Definition r_readEndToEndProtectionSet : list ri * option vx :=
  ([RCall "readIdentifiable" None;
     RCall "readEndToEndProtections" None],
   None).
(** arxml_parser.py:5563-5565 *)
Definition r_readImplementationProps : list ri * option vx :=
  ([RCall "readReferrable" None;
     RPut "setSymbol" (VLeafX RLiteral (PLit "SYMBOL"))],
   None).
(** arxml_parser.py:5567-5568 *)
Definition r_readSymbolProps : list ri * option vx :=
  ([RCall "readImplementationProps" None],
   None).
(** arxml_parser.py:5570-5574 *)
Definition r_readImplementationDataTypeSymbolProps : list ri * option vx :=
  ([RFind (PLit "SYMBOL-PROPS")
       [RCreate "createSymbolProps" true
          [RCall "readSymbolProps" None]]
       []],
   None).
(** arxml_parser.py:5576-5577 *)
Definition r_readApplicationDataType : list ri * option vx :=
  ([RCall "readAutosarDataType" None],
   None).
(** arxml_parser.py:5579-5580 *)
Definition r_readApplicationCompositeDataType : list ri * option vx :=
  ([RCall "readApplicationDataType" None],
   None).
(** arxml_parser.py:5582-5584 *)
Definition r_readDataPrototype : list ri * option vx :=
  ([RCall "readIdentifiable" None;
     RPut "setSwDataDefProps" (VGetX "getSwDataDefProps" (Some (TLit "SW-DATA-DEF-PROPS")))],
   None).
(** arxml_parser.py:5586-5588 *)
Definition r_readApplicationCompositeElementDataPrototype : list ri * option vx :=
  ([RCall "readDataPrototype" None;
     RSet "typeTRef" (VLeafX RRef (PLit "TYPE-TREF"))],
   None).
(** arxml_parser.py:5590-5600 *)
Definition r_readApplicationArrayElement : list ri * option vx :=
  ([RFind (PLit "ELEMENT")
       [RCreate "createApplicationArrayElement" true
          [RCall "readApplicationCompositeElementDataPrototype" None;
           RPut "setArraySizeHandling" (VLeafX RLiteral (PLit "ARRAY-SIZE-HANDLING"));
           RPut "setArraySizeSemantics" (VLeafX RLiteral (PLit "ARRAY-SIZE-SEMANTICS"));
           RPut "setIndexDataTypeRef" (VLeafX RRef (PLit "INDEX-DATA-TYPE-REF"));
           RPut "setMaxNumberOfElements" (VLeafX RNumerical (PLit "MAX-NUMBER-OF-ELEMENTS"))]]
       []],
   None).
(** arxml_parser.py:5602-5606 *)
Definition r_readApplicationArrayDataType : list ri * option vx :=
  ([RCall "readApplicationCompositeDataType" None;
     RPut "setDynamicArraySizeProfile" (VLeafX RLiteral (PLit "DYNAMIC-ARRAY-SIZE-PROFILE"));
     RCall "readApplicationArrayElement" None],
   None).
(** arxml_parser.py:5608-5618 *)
Definition r_getSwRecordLayoutV : list ri * option vx :=
  ([],
   Some (VFindX PKey (VNewX "SwRecordLayoutV" false [RPut "setShortLabel" (VLeafX RLiteral (PLit "SHORT-LABEL"));
       RPut "setBaseTypeRef" (VLeafX RRef (PLit "BASE-TYPE-REF"));
       RPut "setSwRecordLayoutVAxis" (VLeafX RLiteral (PLit "SW-RECORD-LAYOUT-V-AXIS"));
       RPut "setSwRecordLayoutVProp" (VLeafX RLiteral (PLit "SW-RECORD-LAYOUT-V-PROP"));
       RPut "setSwRecordLayoutVIndex" (VLeafX RLiteral (PLit "SW-RECORD-LAYOUT-V-INDEX"))]) VNoneX)).
(** arxml_parser.py:5620-5624 *)
Definition r_readSwRecordLayoutGroupSwRecordLayoutGroupContentType : list ri * option vx :=
  ([RPut "setSwRecordLayoutGroupContentType" (VNewX "SwRecordLayoutGroupContent" false [RPut "setSwRecordLayoutGroup" (VGetX "getSwRecordLayoutGroup" (Some (TLit "SW-RECORD-LAYOUT-GROUP")));
         RPut "setSwRecordLayoutV" (VGetX "getSwRecordLayoutV" (Some (TLit "SW-RECORD-LAYOUT-V")))])],
   None).
(** arxml_parser.py:5626-5640 *)
Definition r_getSwRecordLayoutGroup : list ri * option vx :=
  ([],
   Some (VFindX PKey (VNewX "SwRecordLayoutGroup" false [RPut "setShortLabel" (VLeafX RLiteral (PLit "SHORT-LABEL"));
       RPut "setCategory" (VLeafX RLiteral (PLit "CATEGORY"));
       RPut "setSwRecordLayoutGroupAxis" (VLeafX RLiteral (PLit "SW-RECORD-LAYOUT-GROUP-AXIS"));
       RPut "setSwRecordLayoutGroupIndex" (VLeafX RLiteral (PLit "SW-RECORD-LAYOUT-GROUP-INDEX"));
       RPut "setSwRecordLayoutGroupFrom" (VLeafX RLiteral (PLit "SW-RECORD-LAYOUT-GROUP-FROM"));
       RPut "setSwRecordLayoutGroupStep" (VLeafX RInteger (PLit "SW-RECORD-LAYOUT-GROUP-STEP"));
       RPut "setSwRecordLayoutGroupTo" (VLeafX RLiteral (PLit "SW-RECORD-LAYOUT-GROUP-TO"));
       RCall "readSwRecordLayoutGroupSwRecordLayoutGroupContentType" None]) VNoneX)).
(** arxml_parser.py:5642-5645 *)
Definition r_readSwRecordLayout : list ri * option vx :=
  ([RCall "readIdentifiable" None;
     RPut "setSwRecordLayoutGroup" (VGetX "getSwRecordLayoutGroup" (Some (TLit "SW-RECORD-LAYOUT-GROUP")))],
   None).
(** arxml_parser.py:5647-5660 *)
Definition r_readSwAddrMethod : list ri * option vx :=
  ([RCall "readIdentifiable" None;
     RIf (CGot (VLeafX RLiteral (PLit "MEMORY-ALLOCATION-KEYWORD-POLICY")))
       [RPut "setMemoryAllocationKeywordPolicy" (VWrapX "MemoryAllocationKeywordPolicyType" "setValue" (VValueX (VLeafX RLiteral (PLit "MEMORY-ALLOCATION-KEYWORD-POLICY"))))]
       [];
     RForVal (VLeafsX RLitItem (PLit "OPTIONS/OPTION"))
       [RPut "addOption" VItemX];
     RIf (CGot (VLeafX RLiteral (PLit "SECTION-INITIALIZATION-POLICY")))
       [RPut "setSectionInitializationPolicy" (VWrapX "SectionInitializationPolicyType" "setValue" (VValueX (VLeafX RLiteral (PLit "SECTION-INITIALIZATION-POLICY"))))]
       [];
     RIf (CGot (VLeafX RLiteral (PLit "SECTION-TYPE")))
       [RPut "setSectionType" (VWrapX "MemorySectionType" "setValue" (VValueX (VLeafX RLiteral (PLit "SECTION-TYPE"))))]
       []],
   None).
(** arxml_parser.py:5662-5664 *)
Definition r_readTriggerInterface : list ri * option vx :=
  ([RCall "readIdentifiable" None],
   None).
(** arxml_parser.py:5666-5671 *)
Definition r_readModeDeclarationGroupModeDeclaration : list ri * option vx :=
  ([RFor (PLit "MODE-DECLARATIONS/MODE-DECLARATION")
       [RCreate "createModeDeclaration" true
          [RAttrs;
           RPut "setValue" (VLeafX RPositive (PLit "VALUE"))]]],
   None).
(** arxml_parser.py:5673-5680 *)
Definition r_readModeErrorBehavior : list ri * option vx :=
  ([],
   Some (VNewX "ModeErrorBehavior" false [RAttrs;
      RPut "setDefaultModeRef" (VLeafX RRef (PLit "DEFAULT-MODE-REF"));
      RIf (CGot (VLeafX RLiteral (PLit "ERROR-REACTION-POLICY")))
        [RPut "setErrorReactionPolicy" (VWrapX "ModeErrorReactionPolicyEnum" "setValue" (VValueX (VLeafX RLiteral (PLit "ERROR-REACTION-POLICY"))))]
        []])).
(** arxml_parser.py:5682-5688 *)
Definition r_readModeDeclarationGroupModeTransition : list ri * option vx :=
  ([RFor (PLit "MODE-TRANSITIONS/MODE-TRANSITION")
       [RCreate "createModeTransition" true
          [RAttrs;
           RPut "setEnteredModeRef" (VLeafX RRef (PLit "ENTERED-MODE-REF"));
           RPut "setExitedModeRef" (VLeafX RRef (PLit "EXITED-MODE-REF"))]]],
   None).
(** arxml_parser.py:5690-5702 *)
Definition r_readModeDeclarationGroup : list ri * option vx :=
  ([RCall "readIdentifiable" None;
     RCall "readModeDeclarationGroupModeDeclaration" None;
     RPut "setInitialModeRef" (VLeafX RRef (PLit "INITIAL-MODE-REF"));
     RFind (PLit "MODE-MANAGER-ERROR-BEHAVIOR")
       [RPut "setModeManagerErrorBehavior" (VGetX "readModeErrorBehavior" None)]
       [];
     RCall "readModeDeclarationGroupModeTransition" None;
     RFind (PLit "MODE-USER-ERROR-BEHAVIOR")
       [RPut "setModeUserErrorBehavior" (VGetX "readModeErrorBehavior" None)]
       [];
     RPut "setOnTransitionValue" (VLeafX RPositive (PLit "ON-TRANSITION-VALUE"))],
   None).
(** arxml_parser.py:5704-5709 *)
Definition r_readModeSwitchInterfaceModeGroup : list ri * option vx :=
  ([RFind (PLit "MODE-GROUP")
       [RCreate "createModeGroup" true
          [RCall "readModeDeclarationGroupPrototype" None]]
       []],
   None).
(** arxml_parser.py:5711-5714 *)
Definition r_readModeSwitchInterface : list ri * option vx :=
  ([RCall "readPortInterface" None;
     RCall "readModeSwitchInterfaceModeGroup" None],
   None).
(** arxml_parser.py:5716-5722 *)
Definition r_readEOCExecutableEntityRef : list ri * option vx :=
  ([RCreate "createEOCExecutableEntityRef" true
       [RCall "readIdentifiable" None;
        RForVal (VLeafsX RRef (PLit "SUCCESSOR-REFS/SUCCESSOR-REF"))
          [RPut "addSuccessorRef" VItemX]]],
   None).
(** arxml_parser.py:5724-5730 *)
Definition r_readExecutionOrderConstraintOrderedElement : list ri * option vx :=
  ([RFor (PLit "ORDERED-ELEMENTS/*")
       [RIf (CTag "EOC-EXECUTABLE-ENTITY-REF")
          [RCall "readEOCExecutableEntityRef" None]
          [RFail ValueError true]]],
   None).
(** arxml_parser.py:5732-5737 *)
Definition r_readExecutionOrderConstraint : list ri * option vx :=
  ([RCreate "createExecutionOrderConstraint" true
       [RCall "readIdentifiable" None;
        RCall "readExecutionOrderConstraintOrderedElement" None]],
   None).
(** arxml_parser.py:5739-5745 *)
Definition r_readTimingExtension : list ri * option vx :=
  ([RFor (PLit "TIMING-REQUIREMENTS/*")
       [RIf (CTag "EXECUTION-ORDER-CONSTRAINT")
          [RCall "readExecutionOrderConstraint" None]
          [RFail ValueError true]]],
   None).
(** arxml_parser.py:5747-5750 *)
Definition r_readSwcTiming : list ri * option vx :=
  ([RCall "readIdentifiable" None;
     RCall "readTimingExtension" None],
   None).
(** arxml_parser.py:5752-5758 *)
Definition r_readFrameTriggering : list ri * option vx :=
  ([RCall "readIdentifiable" None;
     RForVal (VLeafsX RRef (PLit "FRAME-PORT-REFS/FRAME-PORT-REF"))
       [RPut "addFramePortRef" VItemX];
     RPut "setFrameRef" (VLeafX RRef (PLit "FRAME-REF"));
     RFor (PLit "PDU-TRIGGERINGS/PDU-TRIGGERING-REF-CONDITIONAL")
       [RPut "addPduTriggeringRef" (VLeafX RRef (PLit "PDU-TRIGGERING-REF"))]],
   None).
(** arxml_parser.py:5760-5768 *)
Definition r_readCanFrameTriggering : list ri * option vx :=
  ([RCall "readFrameTriggering" None;
     RPut "setCanAddressingMode" (VLeafX RLiteral (PLit "CAN-ADDRESSING-MODE"));
     RPut "setCanFdFrameSupport" (VLeafX RBool (PLit "CAN-FD-FRAME-SUPPORT"));
     RPut "setCanFrameRxBehavior" (VLeafX RLiteral (PLit "CAN-FRAME-RX-BEHAVIOR"));
     RPut "setCanFrameTxBehavior" (VLeafX RLiteral (PLit "CAN-FRAME-TX-BEHAVIOR"));
     RPut "setIdentifier" (VLeafX RNumerical (PLit "IDENTIFIER"));
     RPut "setRxIdentifierRange" (VGetX "getChildElementRxIdentifierRange" (Some (TLit "RX-IDENTIFIER-RANGE")))],
   None).
(** arxml_parser.py:5770-5774 *)
Definition r_readLinFrameTriggering : list ri * option vx :=
  ([RCall "readFrameTriggering" None;
     RPut "setIdentifier" (VLeafX RNumerical (PLit "IDENTIFIER"));
     RPut "setLinChecksum" (VLeafX RLiteral (PLit "LIN-CHECKSUM"))],
   None).
(** arxml_parser.py:5776-5777 *)
Definition r_readCommunicationCycle : list ri * option vx :=
  ([RAttrs],
   None).
(** arxml_parser.py:5779-5782 *)
Definition r_readCycleRepetition : list ri * option vx :=
  ([RCall "readCommunicationCycle" None;
     RPut "setBaseCycle" (VLeafX RInteger (PLit "BASE-CYCLE"));
     RPut "setCycleRepetition" (VLeafX RLiteral (PLit "CYCLE-REPETITION"))],
   None).
(** arxml_parser.py:5784-5792 *)
Definition r_readFlexrayAbsolutelyScheduledTimingCommunicationCycle : list ri * option vx :=
  ([RFor (PLit "COMMUNICATION-CYCLE/*")
       [RIf (CTag "CYCLE-REPETITION")
          [RPut "setCommunicationCycle" (VNewX "CycleRepetition" false [RCall "readCycleRepetition" None])]
          [RFail NotImplementedError true]]],
   None).
(** arxml_parser.py:5794-5797 *)
Definition r_readFlexrayAbsolutelyScheduledTiming : list ri * option vx :=
  ([RAttrs;
     RCall "readFlexrayAbsolutelyScheduledTimingCommunicationCycle" None;
     RPut "setSlotID" (VLeafX RPositive (PLit "SLOT-ID"))],
   None).
(** arxml_parser.py:5799-5807 *)
Definition r_readFlexrayFrameTriggeringAbsolutelyScheduledTimings : list ri * option vx :=
  ([RFor (PLit "ABSOLUTELY-SCHEDULED-TIMINGS/*")
       [RIf (CTag "FLEXRAY-ABSOLUTELY-SCHEDULED-TIMING")
          [RPut "addAbsolutelyScheduledTiming" (VNewX "FlexrayAbsolutelyScheduledTiming" false [RCall "readFlexrayAbsolutelyScheduledTiming" None])]
          [RFail NotImplementedError true]]],
   None).
(** arxml_parser.py:5809-5815 *)
Definition r_readFlexrayFrameTriggering : list ri * option vx :=
  ([RCall "readFrameTriggering" None;
     RCall "readFlexrayFrameTriggeringAbsolutelyScheduledTimings" None;
     RPut "setAllowDynamicLSduLength" (VLeafX RBool (PLit "ALLOW-DYNAMIC-L-SDU-LENGTH"));
     RPut "setMessageId" (VLeafX RPositive (PLit "MESSAGE-ID"));
     RPut "setPayloadPreambleIndicator" (VLeafX RBool (PLit "PAYLOAD-PREAMBLE-INDICATOR"))],
   None).
(** arxml_parser.py:5817-5823 *)
Definition r_readISignalTriggering : list ri * option vx :=
  ([RCall "readIdentifiable" None;
     RPut "setISignalGroupRef" (VLeafX RRef (PLit "I-SIGNAL-GROUP-REF"));
     RForVal (VLeafsX RRef (PLit "I-SIGNAL-PORT-REFS/I-SIGNAL-PORT-REF"))
       [RPut "addISignalPortRef" VItemX];
     RPut "setISignalRef" (VLeafX RRef (PLit "I-SIGNAL-REF"))],
   None).
(** arxml_parser.py:5825-5832 *)
Definition r_readPduTriggering : list ri * option vx :=
  ([RCall "readIdentifiable" None;
     RForVal (VLeafsX RRef (PLit "I-PDU-PORT-REFS/I-PDU-PORT-REF"))
       [RPut "addIPduPortRef" VItemX];
     RPut "setIPduRef" (VLeafX RRef (PLit "I-PDU-REF"));
     RFor (PLit "I-SIGNAL-TRIGGERINGS/I-SIGNAL-TRIGGERING-REF-CONDITIONAL")
       [RPut "addISignalTriggeringRef" (VLeafX RRef (PLit "I-SIGNAL-TRIGGERING-REF"))]],
   None).
(** arxml_parser.py:5834-5836 *)
Definition r_readPhysicalChannelCommConnectorRefs : list ri * option vx :=
  ([RFor (PLit "COMM-CONNECTORS/COMMUNICATION-CONNECTOR-REF-CONDITIONAL")
       [RPut "addCommConnectorRef" (VLeafX RRef (PLit "COMMUNICATION-CONNECTOR-REF"))]],
   None).
(** arxml_parser.py:5838-5851 *)
Definition r_readPhysicalChannelFrameTriggerings : list ri * option vx :=
  ([RFor (PLit "FRAME-TRIGGERINGS/*")
       [RIf (CTag "CAN-FRAME-TRIGGERING")
          [RCreate "createCanFrameTriggering" true
             [RCall "readCanFrameTriggering" None]]
          [RIf (CTag "LIN-FRAME-TRIGGERING")
             [RCreate "createLinFrameTriggering" true
                [RCall "readLinFrameTriggering" None]]
             [RIf (CTag "FLEXRAY-FRAME-TRIGGERING")
                [RCreate "createFlexrayFrameTriggering" true
                   [RCall "readFlexrayFrameTriggering" None]]
                [RFail NotImplementedError true]]]]],
   None).
(** arxml_parser.py:5853-5860 *)
Definition r_readPhysicalChannelISignalTriggerings : list ri * option vx :=
  ([RFor (PLit "I-SIGNAL-TRIGGERINGS/*")
       [RIf (CTag "I-SIGNAL-TRIGGERING")
          [RCreate "createISignalTriggering" true
             [RCall "readISignalTriggering" None]]
          [RFail NotImplementedError true]]],
   None).
(** arxml_parser.py:5862-5869 *)
Definition r_readPhysicalChannelPduTriggerings : list ri * option vx :=
  ([RFor (PLit "PDU-TRIGGERINGS/*")
       [RIf (CTag "PDU-TRIGGERING")
          [RCreate "createPduTriggering" true
             [RCall "readPduTriggering" None]]
          [RFail NotImplementedError true]]],
   None).
(** arxml_parser.py:5871-5877 *)
Definition r_readPhysicalChannel : list ri * option vx :=
  ([RCall "readIdentifiable" None;
     RCall "readPhysicalChannelCommConnectorRefs" None;
     RCall "readPhysicalChannelFrameTriggerings" None;
     RCall "readPhysicalChannelISignalTriggerings" None;
     RCall "readPhysicalChannelPduTriggerings" None],
   None).
(** arxml_parser.py:5879-5880 *)
Definition r_readCanPhysicalChannel : list ri * option vx :=
  ([RCall "readPhysicalChannel" None],
   None).
(** arxml_parser.py:5882-5884 *)
Definition r_readScheduleTableEntry : list ri * option vx :=
  ([RPut "setDelay" (VLeafX RTime (PLit "DELAY"));
     RPut "setPositionInTable" (VLeafX RInteger (PLit "POSITION-IN-TABLE"))],
   None).
(** arxml_parser.py:5886-5892 *)
Definition r_getApplicationEntry : list ri * option vx :=
  ([],
   Some (VNewX "ApplicationEntry" false [RCall "readScheduleTableEntry" None;
      RPut "setFrameTriggeringRef" (VLeafX RRef (PLit "FRAME-TRIGGERING-REF"))])).
(** arxml_parser.py:5894-5900 *)
Definition r_readLinScheduleTableTableEntries : list ri * option vx :=
  ([RFor (PLit "TABLE-ENTRYS/*")
       [RIf (CTag "APPLICATION-ENTRY")
          [RPut "addTableEntry" (VGetX "getApplicationEntry" (Some (TLit "APPLICATION-ENTRY")))]
          [RFail NotImplementedError true]]],
   None).
(** arxml_parser.py:5902-5906 *)
Definition r_readLinScheduleTable : list ri * option vx :=
  ([RCall "readIdentifiable" None;
     RPut "setResumePosition" (VLeafX RLiteral (PLit "RESUME-POSITION"));
     RPut "setRunMode" (VLeafX RLiteral (PLit "RUN-MODE"));
     RCall "readLinScheduleTableTableEntries" None],
   None).
(** arxml_parser.py:5908-5915 *)
Definition r_readLinPhysicalChannelScheduleTables : list ri * option vx :=
  ([RFor (PLit "SCHEDULE-TABLES/*")
       [RIf (CTag "LIN-SCHEDULE-TABLE")
          [RCreate "createLinScheduleTable" true
             [RCall "readLinScheduleTable" None]]
          [RFail NotImplementedError true]]],
   None).
(** arxml_parser.py:5917-5919 *)
Definition r_readLinPhysicalChannel : list ri * option vx :=
  ([RCall "readPhysicalChannel" None;
     RCall "readLinPhysicalChannelScheduleTables" None],
   None).
(** arxml_parser.py:5921-5932 *)
Definition r_getIpv6Configuration : list ri * option vx :=
  ([],
   Some (VNewX "Ipv6Configuration" false [RPut "setAssignmentPriority" (VLeafX RPositive (PLit "ASSIGNMENT-PRIORITY"));
      RPut "setDefaultRouter" (VLeafX RLiteral (PLit "DEFAULT-ROUTER"));
      RPut "setEnableAnycast" (VLeafX RBool (PLit "ENABLE-ANYCAST"));
      RPut "setHopCount" (VLeafX RPositive (PLit "HOP-COUNT"));
      RPut "setIpAddressPrefixLength" (VLeafX RPositive (PLit "IP-ADDRESS-PREFIX-LENGTH"));
      RPut "setIpv6Address" (VLeafX RLiteral (PLit "IPV-6-ADDRESS"));
      RPut "setIpv6AddressSource" (VLeafX RLiteral (PLit "IPV-6-ADDRESS-SOURCE"))])).
(** arxml_parser.py:5934-5940 *)
Definition r_readNetworkEndPointNetworkEndPointAddress : list ri * option vx :=
  ([RFor (PLit "NETWORK-ENDPOINT-ADDRESSES/*")
       [RIf (CTag "IPV-6-CONFIGURATION")
          [RPut "addNetworkEndpointAddress" (VGetX "getIpv6Configuration" None)]
          [RFail NotImplementedError true]]],
   None).
(** arxml_parser.py:5942-5948 *)
Definition r_getDoIpEntity : list ri * option vx :=
  ([],
   Some (VFindX PKey (VNewX "DoIpEntity" false [RPut "setDoIpEntityRole" (VLeafX RLiteral (PLit "DO-IP-ENTITY-ROLE"))]) VNoneX)).
(** arxml_parser.py:5950-5956 *)
Definition r_getInfrastructureServices : list ri * option vx :=
  ([],
   Some (VFindX PKey (VNewX "InfrastructureServices" false [RPut "setDoIpEntity" (VGetX "getDoIpEntity" (Some (TLit "DO-IP-ENTITY")))]) VNoneX)).
(** arxml_parser.py:5958-5962 *)
Definition r_readNetworkEndPoint : list ri * option vx :=
  ([RCall "readIdentifiable" None;
     RPut "setInfrastructureServices" (VGetX "getInfrastructureServices" (Some (TLit "INFRASTRUCTURE-SERVICES")));
     RCall "readNetworkEndPointNetworkEndPointAddress" None;
     RPut "setPriority" (VLeafX RPositive (PLit "PRIORITY"))],
   None).
(** arxml_parser.py:5964-5967 *)
Definition r_readEthernetPhysicalChannelNetworkEndPoints : list ri * option vx :=
  ([RFor (PLit "NETWORK-ENDPOINTS/NETWORK-ENDPOINT")
       [RCreate "createNetworkEndPoint" true
          [RCall "readNetworkEndPoint" None]]],
   None).
(** arxml_parser.py:5969-5978 *)
Definition r_getSocketConnectionIpduIdentifier : list ri * option vx :=
  ([],
   Some (VNewX "SocketConnectionIpduIdentifier" false [RPut "setHeaderId" (VLeafX RPositive (PLit "HEADER-ID"));
      RPut "setPduCollectionSemantics" (VLeafX RLiteral (PLit "PDU-COLLECTION-SEMANTICS"));
      RPut "setPduCollectionTrigger" (VLeafX RLiteral (PLit "PDU-COLLECTION-TRIGGER"));
      RPut "setPduRef" (VLeafX RRef (PLit "PDU-REF"));
      RPut "setPduTriggeringRef" (VLeafX RRef (PLit "PDU-TRIGGERING-REF"))])).
(** arxml_parser.py:5980-5988 *)
Definition r_getSocketConnectionPdus : list ri * option vx :=
  ([RFor (PLit "PDUS/*")
       [RIf (CTag "SOCKET-CONNECTION-IPDU-IDENTIFIER")
          []
          [RFail NotImplementedError true]]],
   Some (VListX [RFor (PLit "PDUS/*")
        [RIf (CTag "SOCKET-CONNECTION-IPDU-IDENTIFIER")
           [RPut "append" (VGetX "getSocketConnectionIpduIdentifier" None)]
           []]])).
(** arxml_parser.py:5990-6004 *)
Definition r_getSocketConnection : list ri * option vx :=
  ([],
   Some (VNewX "SocketConnection" false [RPut "setClientIpAddrFromConnectionRequest" (VLeafX RBool (PLit "CLIENT-IP-ADDR-FROM-CONNECTION-REQUEST"));
      RPut "setClientPortFromConnectionRequest" (VLeafX RBool (PLit "CLIENT-PORT-FROM-CONNECTION-REQUEST"));
      RPut "setClientPortRef" (VLeafX RRef (PLit "CLIENT-PORT-REF"));
      RForVal (VGetX "getSocketConnectionPdus" None)
        [RPut "addPdu" VItemX];
      RPut "setPduCollectionMaxBufferSize" (VLeafX RPositive (PLit "PDU-COLLECTION-MAX-BUFFER-SIZE"));
      RPut "setPduCollectionTimeout" (VLeafX RTime (PLit "PDU-COLLECTION-TIMEOUT"));
      RPut "setRuntimeIpAddressConfiguration" (VLeafX RLiteral (PLit "RUNTIME-IP-ADDRESS-CONFIGURATION"));
      RPut "setRuntimePortConfiguration" (VLeafX RLiteral (PLit "RUNTIME-PORT-CONFIGURATION"));
      RPut "setShortLabel" (VLeafX RLiteral (PLit "SHORT-LABEL"))])).
(** arxml_parser.py:6006-6012 *)
Definition r_readSocketConnectionBundleConnections : list ri * option vx :=
  ([RFor (PLit "BUNDLED-CONNECTIONS/*")
       [RIf (CTag "SOCKET-CONNECTION")
          [RPut "addBundledConnection" (VGetX "getSocketConnection" None)]
          [RFail NotImplementedError true]]],
   None).
(** arxml_parser.py:6014-6016 *)
Definition r_readSocketConnectionBundle : list ri * option vx :=
  ([RCall "readSocketConnectionBundleConnections" None;
     RPut "setServerPortRef" (VLeafX RRef (PLit "SERVER-PORT-REF"))],
   None).
(** arxml_parser.py:6018-6025 *)
Definition r_readSoAdConfigConnectionBundles : list ri * option vx :=
  ([RFor (PLit "CONNECTION-BUNDLES/*")
       [RIf (CTag "SOCKET-CONNECTION-BUNDLE")
          [RCreate "createSocketConnectionBundle" true
             [RCall "readSocketConnectionBundle" None]]
          [RFail NotImplementedError true]]],
   None).
(** arxml_parser.py:6027-6034 *)
Definition r_getTpPort : list ri * option vx :=
  ([],
   Some (VFindX PKey (VNewX "TpPort" false [RPut "setDynamicallyAssigned" (VLeafX RBool (PLit "DYNAMICALLY-ASSIGNED"));
       RPut "setPortNumber" (VLeafX RPositive (PLit "PORT-NUMBER"))]) VNoneX)).
(** arxml_parser.py:6036-6037 *)
Definition r_readUdpTp : list ri * option vx :=
  ([RPut "setUdpTpPort" (VGetX "getTpPort" (Some (TLit "UDP-TP-PORT")))],
   None).
(** arxml_parser.py:6039-6045 *)
Definition r_readTcpTp : list ri * option vx :=
  ([RPut "setKeepAliveInterval" (VLeafX RTime (PLit "KEEP-ALIVE-INTERVAL"));
     RPut "setKeepAliveProbesMax" (VLeafX RPositive (PLit "KEEP-ALIVE-PROBES-MAX"));
     RPut "setKeepAliveTime" (VLeafX RTime (PLit "KEEP-ALIVE-TIME"));
     RPut "setKeepAlives" (VLeafX RBool (PLit "KEEP-ALIVES"));
     RPut "setNaglesAlgorithm" (VLeafX RLiteral (PLit "NAGLES-ALGORITHM"));
     RPut "setTcpTpPort" (VGetX "getTpPort" (Some (TLit "TCP-TP-PORT")))],
   None).
(** arxml_parser.py:6047-6049 *)
Definition r_readGenericTp : list ri * option vx :=
  ([RPut "setTpAddress" (VLeafX RLiteral (PLit "TP-ADDRESS"));
     RPut "setTpTechnology" (VLeafX RLiteral (PLit "TP-TECHNOLOGY"))],
   None).
(** arxml_parser.py:6051-6067 *)
Definition r_getTransportProtocolConfiguration : list ri * option vx :=
  ([RFind (PKeyThen "/*")
       [RIf (CTag "UDP-TP")
          []
          [RIf (CTag "TCP-TP")
             []
             [RIf (CTag "GENERIC-TP")
                []
                [RFail NotImplementedError true]]]]
       []],
   Some (VFindX (PKeyThen "/*") (VIfX (CTag "UDP-TP") (VNewX "UdpTp" false [RCall "readUdpTp" None]) (VIfX (CTag "TCP-TP") (VNewX "TcpTp" false [RCall "readTcpTp" None]) (VIfX (CTag "GENERIC-TP") (VNewX "GenericTp" false [RCall "readGenericTp" None]) VNoneX))) VNoneX)).
(** arxml_parser.py:6069-6071 *)
Definition r_readConsumedEventGroupRoutingGroupRefs : list ri * option vx :=
  ([RForVal (VLeafsX RRef (PLit "ROUTING-GROUP-REFS/ROUTING-GROUP-REF"))
       [RPut "addRoutingGroupRef" VItemX]],
   None).
(** arxml_parser.py:6073-6080 *)
Definition r_getRequestResponseDelay : list ri * option vx :=
  ([],
   Some (VFindX PKey (VNewX "RequestResponseDelay" false [RPut "setMaxValue" (VLeafX RTime (PLit "MAX-VALUE"));
       RPut "setMinValue" (VLeafX RTime (PLit "MIN-VALUE"))]) VNoneX)).
(** arxml_parser.py:6082-6092 *)
Definition r_getSdClientConfig : list ri * option vx :=
  ([],
   Some (VFindX PKey (VNewX "SdClientConfig" false [RPut "setClientServiceMajorVersion" (VLeafX RPositive (PLit "CLIENT-SERVICE-MAJOR-VERSION"));
       RPut "setClientServiceMinorVersion" (VLeafX RPositive (PLit "CLIENT-SERVICE-MINOR-VERSION"));
       RPut "setInitialFindBehavior" (VGetX "getInitialSdDelayConfig" (Some (TLit "INITIAL-FIND-BEHAVIOR")));
       RPut "setRequestResponseDelay" (VGetX "getRequestResponseDelay" (Some (TLit "REQUEST-RESPONSE-DELAY")));
       RPut "setTtl" (VLeafX RPositive (PLit "TTL"))]) VNoneX)).
(** arxml_parser.py:6094-6099 *)
Definition r_readConsumedEventGroup : list ri * option vx :=
  ([RCall "readIdentifiable" None;
     RPut "setApplicationEndpointRef" (VLeafX RRef (PLit "APPLICATION-ENDPOINT-REF"));
     RPut "setEventGroupIdentifier" (VLeafX RPositive (PLit "EVENT-GROUP-IDENTIFIER"));
     RCall "readConsumedEventGroupRoutingGroupRefs" None;
     RPut "setSdClientConfig" (VGetX "getSdClientConfig" (Some (TLit "SD-CLIENT-CONFIG")))],
   None).
(** arxml_parser.py:6101-6108 *)
Definition r_readConsumedServiceInstanceConsumedEventGroups : list ri * option vx :=
  ([RFor (PLit "CONSUMED-EVENT-GROUPS/*")
       [RIf (CTag "CONSUMED-EVENT-GROUP")
          [RCreate "createConsumedEventGroup" true
             [RCall "readConsumedEventGroup" None]]
          [RFail NotImplementedError true]]],
   None).
(** arxml_parser.py:6110-6114 *)
Definition r_readConsumedServiceInstance : list ri * option vx :=
  ([RCall "readIdentifiable" None;
     RCall "readConsumedServiceInstanceConsumedEventGroups" None;
     RPut "setProvidedServiceInstanceRef" (VLeafX RRef (PLit "PROVIDED-SERVICE-INSTANCE-REF"));
     RPut "setSdClientConfig" (VGetX "getSdClientConfig" (Some (TLit "SD-CLIENT-CONFIG")))],
   None).
(** arxml_parser.py:6116-6123 *)
Definition r_readSocketAddressApplicationEndpointConsumedServiceInstances : list ri * option vx :=
  ([RFor (PLit "CONSUMED-SERVICE-INSTANCES/*")
       [RIf (CTag "CONSUMED-SERVICE-INSTANCE")
          [RCreate "createConsumedServiceInstance" true
             [RCall "readConsumedServiceInstance" None]]
          [RFail NotImplementedError true]]],
   None).
(** arxml_parser.py:6125-6134 *)
Definition r_getInitialSdDelayConfig : list ri * option vx :=
  ([],
   Some (VFindX PKey (VNewX "InitialSdDelayConfig" false [RPut "setInitialDelayMaxValue" (VLeafX RTime (PLit "INITIAL-DELAY-MAX-VALUE"));
       RPut "setInitialDelayMinValue" (VLeafX RTime (PLit "INITIAL-DELAY-MIN-VALUE"));
       RPut "setInitialRepetitionsBaseDelay" (VLeafX RTime (PLit "INITIAL-REPETITIONS-BASE-DELAY"));
       RPut "setInitialRepetitionsMax" (VLeafX RPositive (PLit "INITIAL-REPETITIONS-MAX"))]) VNoneX)).
(** arxml_parser.py:6136-6147 *)
Definition r_getSdServerConfig : list ri * option vx :=
  ([],
   Some (VFindX PKey (VNewX "SdServerConfig" false [RPut "setInitialOfferBehavior" (VGetX "getInitialSdDelayConfig" (Some (TLit "INITIAL-OFFER-BEHAVIOR")));
       RPut "setOfferCyclicDelay" (VLeafX RTime (PLit "OFFER-CYCLIC-DELAY"));
       RPut "setRequestResponseDelay" (VGetX "getRequestResponseDelay" (Some (TLit "REQUEST-RESPONSE-DELAY")));
       RPut "setServerServiceMajorVersion" (VLeafX RPositive (PLit "SERVER-SERVICE-MAJOR-VERSION"));
       RPut "setServerServiceMinorVersion" (VLeafX RPositive (PLit "SERVER-SERVICE-MINOR-VERSION"));
       RPut "setTtl" (VLeafX RPositive (PLit "TTL"))]) VNoneX)).
(** arxml_parser.py:6149-6157 *)
Definition r_readEventHandler : list ri * option vx :=
  ([RCall "readIdentifiable" None;
     RPut "setApplicationEndpointRef" (VLeafX RRef (PLit "APPLICATION-ENDPOINT-REF"));
     RForVal (VLeafsX RRef (PLit "CONSUMED-EVENT-GROUP-REFS/CONSUMED-EVENT-GROUP-REF"))
       [RPut "addConsumedEventGroupRef" VItemX];
     RPut "setMulticastThreshold" (VLeafX RPositive (PLit "MULTICAST-THRESHOLD"));
     RForVal (VLeafsX RRef (PLit "ROUTING-GROUP-REFS/ROUTING-GROUP-REF"))
       [RPut "addRoutingGroupRef" VItemX];
     RPut "setSdServerConfig" (VGetX "getSdServerConfig" (Some (TLit "SD-SERVER-CONFIG")))],
   None).
(** arxml_parser.py:6159-6166 *)
Definition r_readProvidedServiceInstanceEventHandlers : list ri * option vx :=
  ([RFor (PLit "EVENT-HANDLERS/*")
       [RIf (CTag "EVENT-HANDLER")
          [RCreate "createEventHandler" true
             [RCall "readEventHandler" None]]
          [RFail NotImplementedError true]]],
   None).
(** arxml_parser.py:6168-6189 *)
Definition r_readProvidedServiceInstance : list ri * option vx :=
  ([RCall "readIdentifiable" None;
     RCall "readProvidedServiceInstanceEventHandlers" None;
     RPut "setInstanceIdentifier" (VLeafX RPositive (PLit "INSTANCE-IDENTIFIER"));
     RPut "setLoadBalancingPriority" (VLeafX RPositive (PLit "LOAD-BALANCING-PRIORITY"));
     RPut "setLoadBalancingWeight" (VLeafX RPositive (PLit "LOAD-BALANCING-WEIGHT"));
     RForVal (VLeafsX RRef (PLit "LOCAL-UNICAST-ADDRESSS/APPLICATION-ENDPOINT-REF-CONDITIONAL/APPLICATION-ENDPOINT-REF"))
       [RPut "addLocalUnicastAddressRef" VItemX];
     RPut "setMinorVersion" (VLeafX RPositive (PLit "MINOR-VERSION"));
     RPut "setPriority" (VLeafX RPositive (PLit "PRIORITY"));
     RForVal (VLeafsX RRef (PLit "REMOTE-MULTICAST-SUBSCRIPTION-ADDRESSS/APPLICATION-ENDPOINT-REF-CONDITIONAL/APPLICATION-ENDPOINT-REF"))
       [RPut "addRemoteMulticastSubscriptionAddressRef" VItemX];
     RForVal (VLeafsX RRef (PLit "REMOTE-UNICAST-ADDRESSS/APPLICATION-ENDPOINT-REF-CONDITIONAL/APPLICATION-ENDPOINT-REF"))
       [RPut "addRemoteUnicastAddressRef" VItemX];
     RPut "setSdServerConfig" (VGetX "getSdServerConfig" (Some (TLit "SD-SERVER-CONFIG")));
     RPut "setSdServerTimerConfigRef" (VLeafX RRef (PLit "SD-SERVER-TIMER-CONFIGS/SOMEIP-SD-SERVER-SERVICE-INSTANCE-CONFIG-REF-CONDITIONAL/SOMEIP-SD-SERVER-SERVICE-INSTANCE-CONFIG-REF"));
     RForVal (VLeafsX RRef (PLit "ALLOWED-SERVICE-CONSUMERS/NETWORK-ENDPOINT-REF-CONDITIONAL/NETWORK-ENDPOINT-REF"))
       [RPut "addAllowedServiceConsumerRef" VItemX];
     RPut "setAutoAvailable" (VLeafX RBool (PLit "AUTO-AVAILABLE"));
     RPut "setServiceIdentifier" (VLeafX RPositive (PLit "SERVICE-IDENTIFIER"))],
   None).
(** arxml_parser.py:6191-6198 *)
Definition r_readSocketAddressApplicationEndpointProvidedServiceInstance : list ri * option vx :=
  ([RFor (PLit "PROVIDED-SERVICE-INSTANCES/*")
       [RIf (CTag "PROVIDED-SERVICE-INSTANCE")
          [RCreate "createProvidedServiceInstance" true
             [RCall "readProvidedServiceInstance" None]]
          [RFail NotImplementedError true]]],
   None).
(** arxml_parser.py:6200-6208 *)
Definition r_readSocketAddressApplicationEndpoint : list ri * option vx :=
  ([RFind (PLit "APPLICATION-ENDPOINT")
       [RCreate "createApplicationEndpoint" true
          [RCall "readSocketAddressApplicationEndpointConsumedServiceInstances" None;
           RPut "setNetworkEndpointRef" (VLeafX RRef (PLit "NETWORK-ENDPOINT-REF"));
           RPut "setPriority" (VLeafX RPositive (PLit "PRIORITY"));
           RCall "readSocketAddressApplicationEndpointProvidedServiceInstance" None;
           RPut "setTpConfiguration" (VGetX "getTransportProtocolConfiguration" (Some (TLit "TP-CONFIGURATION")))]]
       []],
   None).
(** arxml_parser.py:6210-6212 *)
Definition r_readSocketAddressMulticastConnectorRefs : list ri * option vx :=
  ([RForVal (VLeafsX RRef (PLit "MULTICAST-CONNECTOR-REFS/MULTICAST-CONNECTOR-REF"))
       [RPut "addMulticastConnectorRef" VItemX]],
   None).
(** arxml_parser.py:6214-6219 *)
Definition r_readSocketAddress : list ri * option vx :=
  ([RCall "readIdentifiable" None;
     RCall "readSocketAddressApplicationEndpoint" None;
     RCall "readSocketAddressMulticastConnectorRefs" None;
     RPut "setConnectorRef" (VLeafX RRef (PLit "CONNECTOR-REF"));
     RPut "setPortAddress" (VLeafX RPositive (PLit "PORT-ADDRESS"))],
   None).
(** arxml_parser.py:6221-6228 *)
Definition r_readSoAdConfigSocketAddresses : list ri * option vx :=
  ([RFor (PLit "SOCKET-ADDRESSS/*")
       [RIf (CTag "SOCKET-ADDRESS")
          [RCreate "createSocketAddress" true
             [RCall "readSocketAddress" None]]
          [RFail NotImplementedError true]]],
   None).
(** arxml_parser.py:6230-6237 *)
Definition r_getSoAdConfig : list ri * option vx :=
  ([],
   Some (VFindX PKey (VNewX "SoAdConfig" false [RCall "readSoAdConfigConnectionBundles" None;
       RCall "readSoAdConfigSocketAddresses" None]) VNoneX)).
(** arxml_parser.py:6239-6243 *)
Definition r_readEthernetPhysicalChannelVlan : list ri * option vx :=
  ([RFind (PLit "VLAN")
       [RCreate "createVlanConfig" true
          [RPut "setVlanIdentifier" (VLeafX RPositive (PLit "VLAN-IDENTIFIER"))]]
       []],
   None).
(** arxml_parser.py:6245-6249 *)
Definition r_readEthernetPhysicalChannel : list ri * option vx :=
  ([RCall "readPhysicalChannel" None;
     RCall "readEthernetPhysicalChannelNetworkEndPoints" None;
     RPut "setSoAdConfig" (VGetX "getSoAdConfig" (Some (TLit "SO-AD-CONFIG")));
     RCall "readEthernetPhysicalChannelVlan" None],
   None).
(** arxml_parser.py:6251-6253 *)
Definition r_readFlexrayPhysicalChannel : list ri * option vx :=
  ([RCall "readPhysicalChannel" None;
     RPut "setChannelName" (VLeafX RLiteral (PLit "CHANNEL-NAME"))],
   None).
(** arxml_parser.py:6255-6271 *)
Definition r_readCommunicationClusterPhysicalChannels : list ri * option vx :=
  ([RFor (PLit "PHYSICAL-CHANNELS/*")
       [RIf (CTag "CAN-PHYSICAL-CHANNEL")
          [RCreate "createCanPhysicalChannel" true
             [RCall "readCanPhysicalChannel" None]]
          [RIf (CTag "LIN-PHYSICAL-CHANNEL")
             [RCreate "createLinPhysicalChannel" true
                [RCall "readLinPhysicalChannel" None]]
             [RIf (CTag "ETHERNET-PHYSICAL-CHANNEL")
                [RCreate "createEthernetPhysicalChannel" true
                   [RCall "readEthernetPhysicalChannel" None]]
                [RIf (CTag "FLEXRAY-PHYSICAL-CHANNEL")
                   [RCreate "createFlexrayPhysicalChannel" true
                      [RCall "readFlexrayPhysicalChannel" None]]
                   [RFail NotImplementedError true]]]]]],
   None).
(** arxml_parser.py:6273-6277 *)
Definition r_readCommunicationCluster : list ri * option vx :=
  ([RPut "setBaudrate" (VLeafX RNumerical (PLit "BAUDRATE"));
     RCall "readCommunicationClusterPhysicalChannels" None;
     RPut "setProtocolName" (VLeafX RLiteral (PLit "PROTOCOL-NAME"));
     RPut "setProtocolVersion" (VLeafX RLiteral (PLit "PROTOCOL-VERSION"))],
   None).
(** arxml_parser.py:6279-6287 *)
Definition r_getCanClusterBusOffRecovery : list ri * option vx :=
  ([],
   Some (VFindX PKey (VNewX "CanClusterBusOffRecovery" false [RPut "setBorCounterL1ToL2" (VLeafX RPositive (PLit "BOR-COUNTER-L-1-TO-L-2"));
       RPut "setBorTimeL1" (VLeafX RTime (PLit "BOR-TIME-L-1"));
       RPut "setBorTimeL2" (VLeafX RTime (PLit "BOR-TIME-L-2"))]) VNoneX)).
(** arxml_parser.py:6289-6293 *)
Definition r_readAbstractCanCluster : list ri * option vx :=
  ([RCall "readCommunicationCluster" None;
     RPut "setBusOffRecovery" (VGetX "getCanClusterBusOffRecovery" (Some (TLit "BUS-OFF-RECOVERY")));
     RPut "setCanFdBaudrate" (VLeafX RNumerical (PLit "CAN-FD-BAUDRATE"));
     RPut "setCanXlBaudrate" (VLeafX RNumerical (PLit "CAN-XL-BAUDRATE"))],
   None).
(** arxml_parser.py:6295-6300 *)
Definition r_readLinCluster : list ri * option vx :=
  ([RCall "readIdentifiable" None;
     RFind (PLit "LIN-CLUSTER-VARIANTS/LIN-CLUSTER-CONDITIONAL")
       [RCall "readCommunicationCluster" None]
       []],
   None).
(** arxml_parser.py:6302-6307 *)
Definition r_readCanCluster : list ri * option vx :=
  ([RCall "readIdentifiable" None;
     RFind (PLit "CAN-CLUSTER-VARIANTS/CAN-CLUSTER-CONDITIONAL")
       [RCall "readAbstractCanCluster" None]
       []],
   None).
(** arxml_parser.py:6309-6349 *)
Definition r_readFlexrayCluster : list ri * option vx :=
  ([RCall "readIdentifiable" None;
     RFind (PLit "FLEXRAY-CLUSTER-VARIANTS/FLEXRAY-CLUSTER-CONDITIONAL")
       [RCall "readCommunicationCluster" None;
        RPut "setActionPointOffset" (VLeafX RInteger (PLit "ACTION-POINT-OFFSET"));
        RPut "setBit" (VLeafX RTime (PLit "BIT"));
        RPut "setCasRxLowMax" (VLeafX RInteger (PLit "CAS-RX-LOW-MAX"));
        RPut "setColdStartAttempts" (VLeafX RInteger (PLit "COLD-START-ATTEMPTS"));
        RPut "setCycle" (VLeafX RTime (PLit "CYCLE"));
        RPut "setCycleCountMax" (VLeafX RInteger (PLit "CYCLE-COUNT-MAX"));
        RPut "setDetectNitError" (VLeafX RBool (PLit "DETECT-NIT-ERROR"));
        RPut "setDynamicSlotIdlePhase" (VLeafX RInteger (PLit "DYNAMIC-SLOT-IDLE-PHASE"));
        RPut "setIgnoreAfterTx" (VLeafX RInteger (PLit "IGNORE-AFTER-TX"));
        RPut "setListenNoise" (VLeafX RInteger (PLit "LISTEN-NOISE"));
        RPut "setMacroPerCycle" (VLeafX RInteger (PLit "MACRO-PER-CYCLE"));
        RPut "setMacrotickDuration" (VLeafX RTime (PLit "MACROTICK-DURATION"));
        RPut "setMaxWithoutClockCorrectionFatal" (VLeafX RInteger (PLit "MAX-WITHOUT-CLOCK-CORRECTION-FATAL"));
        RPut "setMaxWithoutClockCorrectionPassive" (VLeafX RInteger (PLit "MAX-WITHOUT-CLOCK-CORRECTION-PASSIVE"));
        RPut "setMinislotActionPointOffset" (VLeafX RInteger (PLit "MINISLOT-ACTION-POINT-OFFSET"));
        RPut "setMinislotDuration" (VLeafX RInteger (PLit "MINISLOT-DURATION"));
        RPut "setNetworkIdleTime" (VLeafX RInteger (PLit "NETWORK-IDLE-TIME"));
        RPut "setNetworkManagementVectorLength" (VLeafX RInteger (PLit "NETWORK-MANAGEMENT-VECTOR-LENGTH"));
        RPut "setNumberOfMinislots" (VLeafX RInteger (PLit "NUMBER-OF-MINISLOTS"));
        RPut "setNumberOfStaticSlots" (VLeafX RInteger (PLit "NUMBER-OF-STATIC-SLOTS"));
        RPut "setOffsetCorrectionStart" (VLeafX RInteger (PLit "OFFSET-CORRECTION-START"));
        RPut "setPayloadLengthStatic" (VLeafX RInteger (PLit "PAYLOAD-LENGTH-STATIC"));
        RPut "setSafetyMargin" (VLeafX RInteger (PLit "SAFETY-MARGIN"));
        RPut "setSampleClockPeriod" (VLeafX RTime (PLit "SAMPLE-CLOCK-PERIOD"));
        RPut "setStaticSlotDuration" (VLeafX RInteger (PLit "STATIC-SLOT-DURATION"));
        RPut "setSymbolWindow" (VLeafX RInteger (PLit "SYMBOL-WINDOW"));
        RPut "setSymbolWindowActionPointOffset" (VLeafX RInteger (PLit "SYMBOL-WINDOW-ACTION-POINT-OFFSET"));
        RPut "setSyncFrameIdCountMax" (VLeafX RInteger (PLit "SYNC-FRAME-ID-COUNT-MAX"));
        RPut "setTranceiverStandbyDelay" (VLeafX RFloat (PLit "TRANCEIVER-STANDBY-DELAY"));
        RPut "setTransmissionStartSequenceDuration" (VLeafX RInteger (PLit "TRANSMISSION-START-SEQUENCE-DURATION"));
        RPut "setWakeupRxIdle" (VLeafX RInteger (PLit "WAKEUP-RX-IDLE"));
        RPut "setWakeupRxLow" (VLeafX RInteger (PLit "WAKEUP-RX-LOW"));
        RPut "setWakeupRxWindow" (VLeafX RInteger (PLit "WAKEUP-RX-WINDOW"));
        RPut "setWakeupTxActive" (VLeafX RInteger (PLit "WAKEUP-TX-ACTIVE"));
        RPut "setWakeupTxIdle" (VLeafX RInteger (PLit "WAKEUP-TX-IDLE"))]
       []],
   None).
(** arxml_parser.py:6351-6358 *)
Definition r_readMacMulticastGroup : list ri * option vx :=
  ([RCall "readIdentifiable" None;
     RPut "setMacMulticastAddress" (VLeafX RLiteral (PLit "MAC-MULTICAST-ADDRESS"))],
   None).
(** arxml_parser.py:6360-6367 *)
Definition r_readEthernetClusterMacMulticastGroups : list ri * option vx :=
  ([RFor (PLit "MAC-MULTICAST-GROUPS/*")
       [RIf (CTag "MAC-MULTICAST-GROUP")
          [RCreate "createMacMulticastGroup" true
             [RCall "readMacMulticastGroup" None]]
          [RFail NotImplementedError true]]],
   None).
(** arxml_parser.py:6369-6375 *)
Definition r_readEthernetCluster : list ri * option vx :=
  ([RCall "readIdentifiable" None;
     RFind (PLit "ETHERNET-CLUSTER-VARIANTS/ETHERNET-CLUSTER-CONDITIONAL")
       [RCall "readCommunicationCluster" None;
        RCall "readEthernetClusterMacMulticastGroups" None]
       []],
   None).
(** arxml_parser.py:6377-6379 *)
Definition r_readDiagnosticConnectionFunctionalRequestRefs : list ri * option vx :=
  ([RForVal (VLeafsX RRef (PLit "FUNCTIONAL-REQUEST-REFS/FUNCTIONAL-REQUEST-REF"))
       [RPut "addFunctionalRequestRef" VItemX]],
   None).
(** arxml_parser.py:6381-6386 *)
Definition r_readDiagnosticConnection : list ri * option vx :=
  ([RCall "readIdentifiable" None;
     RCall "readDiagnosticConnectionFunctionalRequestRefs" None;
     RPut "setPhysicalRequestRef" (VLeafX RRef (PLit "PHYSICAL-REQUEST-REF"));
     RPut "setResponseOnEventRef" (VLeafX RRef (PLit "RESPONSE-REF"))],
   None).
(** arxml_parser.py:6388-6390 *)
Definition r_readDiagnosticServiceTableDiagnosticConnectionRefs : list ri * option vx :=
  ([RForVal (VLeafsX RRef (PLit "DIAGNOSTIC-CONNECTIONS/DIAGNOSTIC-CONNECTION-REF-CONDITIONAL/DIAGNOSTIC-CONNECTION-REF"))
       [RPut "addDiagnosticConnectionRef" VItemX]],
   None).
(** arxml_parser.py:6392-6396 *)
Definition r_readDiagnosticServiceTable : list ri * option vx :=
  ([RCall "readIdentifiable" None;
     RCall "readDiagnosticServiceTableDiagnosticConnectionRefs" None;
     RPut "setEcuInstanceRef" (VLeafX RRef (PLit "ECU-INSTANCE-REF"))],
   None).
(** arxml_parser.py:6398-6401 *)
Definition r_readSegmentPosition : list ri * option vx :=
  ([RPut "setSegmentByteOrder" (VLeafX RLiteral (PLit "SEGMENT-BYTE-ORDER"));
     RPut "setSegmentLength" (VLeafX RInteger (PLit "SEGMENT-LENGTH"));
     RPut "setSegmentPosition" (VLeafX RInteger (PLit "SEGMENT-POSITION"))],
   None).
(** arxml_parser.py:6403-6411 *)
Definition r_readMultiplexedPartSegmentPositions : list ri * option vx :=
  ([RFor (PLit "SEGMENT-POSITIONS/*")
       [RIf (CTag "SEGMENT-POSITION")
          [RPut "addSegmentPosition" (VNewX "SegmentPosition" false [RCall "readSegmentPosition" None])]
          [RFail NotImplementedError true]]],
   None).
(** arxml_parser.py:6413-6414 *)
Definition r_readMultiplexedPart : list ri * option vx :=
  ([RCall "readMultiplexedPartSegmentPositions" None],
   None).
(** arxml_parser.py:6416-6419 *)
Definition r_readDynamicPartAlternative : list ri * option vx :=
  ([RPut "setIPduRef" (VLeafX RRef (PLit "I-PDU-REF"));
     RPut "setInitialDynamicPart" (VLeafX RBool (PLit "INITIAL-DYNAMIC-PART"));
     RPut "setSelectorFieldCode" (VLeafX RInteger (PLit "SELECTOR-FIELD-CODE"))],
   None).
(** arxml_parser.py:6421-6429 *)
Definition r_readDynamicPartDynamicPartAlternatives : list ri * option vx :=
  ([RFor (PLit "DYNAMIC-PART-ALTERNATIVES/*")
       [RIf (CTag "DYNAMIC-PART-ALTERNATIVE")
          [RPut "addDynamicPartAlternative" (VNewX "DynamicPartAlternative" false [RCall "readDynamicPartAlternative" None])]
          [RFail NotImplementedError true]]],
   None).
(** arxml_parser.py:6431-6433 *)
Definition r_readDynamicPart : list ri * option vx :=
  ([RCall "readMultiplexedPart" None;
     RCall "readDynamicPartDynamicPartAlternatives" None],
   None).
(** arxml_parser.py:6435-6443 *)
Definition r_readMultiplexedIPduDynamicParts : list ri * option vx :=
  ([RFor (PLit "DYNAMIC-PARTS/*")
       [RIf (CTag "DYNAMIC-PART")
          [RPut "setDynamicPart" (VNewX "DynamicPart" false [RCall "readDynamicPart" None])]
          [RFail NotImplementedError true]]],
   None).
(** arxml_parser.py:6445-6447 *)
Definition r_readStaticPart : list ri * option vx :=
  ([RCall "readMultiplexedPart" None;
     RPut "setIPduRef" (VLeafX RRef (PLit "I-PDU-REF"))],
   None).
(** arxml_parser.py:6449-6457 *)
Definition r_readMultiplexedIPduStaticParts : list ri * option vx :=
  ([RFor (PLit "STATIC-PARTS/*")
       [RIf (CTag "STATIC-PART")
          [RPut "setStaticPart" (VNewX "StaticPart" false [RCall "readStaticPart" None])]
          [RFail NotImplementedError true]]],
   None).
(** arxml_parser.py:6459-6468 *)
Definition r_readMultiplexedIPdu : list ri * option vx :=
  ([RCall "readIPdu" None;
     RCall "readMultiplexedIPduDynamicParts" None;
     RPut "setSelectorFieldByteOrder" (VLeafX RLiteral (PLit "SELECTOR-FIELD-BYTE-ORDER"));
     RPut "setSelectorFieldLength" (VLeafX RInteger (PLit "SELECTOR-FIELD-LENGTH"));
     RPut "setSelectorFieldStartPosition" (VLeafX RInteger (PLit "SELECTOR-FIELD-START-POSITION"));
     RCall "readMultiplexedIPduStaticParts" None;
     RPut "setTriggerMode" (VLeafX RLiteral (PLit "TRIGGER-MODE"));
     RPut "setUnusedBitPattern" (VLeafX RInteger (PLit "UNUSED-BIT-PATTERN"))],
   None).
(** arxml_parser.py:6470-6473 *)
Definition r_readUserDefinedIPdu : list ri * option vx :=
  ([RCall "readIPdu" None;
     RPut "setCddType" (VLeafX RLiteral (PLit "CDD-TYPE"))],
   None).
(** arxml_parser.py:6475-6478 *)
Definition r_readUserDefinedPdu : list ri * option vx :=
  ([RCall "readPdu" None;
     RPut "setCddType" (VLeafX RLiteral (PLit "CDD-TYPE"))],
   None).
(** arxml_parser.py:6480-6482 *)
Definition r_readGeneralPurposePdu : list ri * option vx :=
  ([RCall "readPdu" None],
   None).
(** arxml_parser.py:6484-6486 *)
Definition r_readGeneralPurposeIPdu : list ri * option vx :=
  ([RCall "readIPdu" None],
   None).
(** arxml_parser.py:6488-6490 *)
Definition r_readSecureCommunicationAuthenticationProps : list ri * option vx :=
  ([RCall "readIdentifiable" None;
     RPut "setAuthInfoTxLength" (VLeafX RPositive (PLit "AUTH-INFO-TX-LENGTH"))],
   None).
(** arxml_parser.py:6492-6499 *)
Definition r_readSecureCommunicationPropsSetAuthenticationProps : list ri * option vx :=
  ([RFor (PLit "AUTHENTICATION-PROPSS/*")
       [RIf (CTag "SECURE-COMMUNICATION-AUTHENTICATION-PROPS")
          [RCreate "createSecureCommunicationAuthenticationProps" true
             [RCall "readSecureCommunicationAuthenticationProps" None]]
          [RFail NotImplementedError true]]],
   None).
(** arxml_parser.py:6501-6507 *)
Definition r_readSecureCommunicationFreshnessProps : list ri * option vx :=
  ([RCall "readIdentifiable" None;
     RPut "setFreshnessCounterSyncAttempts" (VLeafX RPositive (PLit "FRESHNESS-COUNTER-SYNC-ATTEMPTS"));
     RPut "setFreshnessTimestampTimePeriodFactor" (VLeafX RPositive (PLit "FRESHNESS-TIMESTAMP-TIME-PERIOD-FACTOR"));
     RPut "setFreshnessValueLength" (VLeafX RPositive (PLit "FRESHNESS-VALUE-LENGTH"));
     RPut "setFreshnessValueTxLength" (VLeafX RPositive (PLit "FRESHNESS-VALUE-TX-LENGTH"));
     RPut "setUseFreshnessTimestamp" (VLeafX RBool (PLit "USE-FRESHNESS-TIMESTAMP"))],
   None).
(** arxml_parser.py:6509-6516 *)
Definition r_readSecureCommunicationPropsSetFreshnessProps : list ri * option vx :=
  ([RFor (PLit "FRESHNESS-PROPSS/*")
       [RIf (CTag "SECURE-COMMUNICATION-FRESHNESS-PROPS")
          [RCreate "createSecureCommunicationFreshnessProps" true
             [RCall "readSecureCommunicationFreshnessProps" None]]
          [RFail NotImplementedError true]]],
   None).
(** arxml_parser.py:6518-6522 *)
Definition r_readSecureCommunicationPropsSet : list ri * option vx :=
  ([RCall "readIdentifiable" None;
     RCall "readSecureCommunicationPropsSetAuthenticationProps" None;
     RCall "readSecureCommunicationPropsSetFreshnessProps" None],
   None).
(** arxml_parser.py:6524-6527 *)
Definition r_readSoAdRoutingGroup : list ri * option vx :=
  ([RCall "readIdentifiable" None;
     RPut "setEventGroupControlType" (VLeafX RLiteral (PLit "EVENT-GROUP-CONTROL-TYPE"))],
   None).
(** arxml_parser.py:6529-6531 *)
Definition r_readDoIpLogicAddress : list ri * option vx :=
  ([RCall "readIdentifiable" None;
     RPut "setAddress" (VLeafX RInteger (PLit "ADDRESS"))],
   None).
(** arxml_parser.py:6533-6540 *)
Definition r_readDoIpTpConfigDoIpLogicAddresses : list ri * option vx :=
  ([RFor (PLit "DO-IP-LOGIC-ADDRESSS/*")
       [RIf (CTag "DO-IP-LOGIC-ADDRESS")
          [RCreate "createDoIpLogicAddress" true
             [RCall "readDoIpLogicAddress" None]]
          [RFail NotImplementedError true]]],
   None).
(** arxml_parser.py:6542-6546 *)
Definition r_readDoIpTpConnection : list ri * option vx :=
  ([RCall "readTpConnection" None;
     RPut "setDoIpSourceAddressRef" (VLeafX RRef (PLit "DO-IP-SOURCE-ADDRESS-REF"));
     RPut "setDoIpTargetAddressRef" (VLeafX RRef (PLit "DO-IP-TARGET-ADDRESS-REF"));
     RPut "setTpSduRef" (VLeafX RRef (PLit "TP-SDU-REF"))],
   None).
(** arxml_parser.py:6548-6556 *)
Definition r_readDoIpTpConfigTpConnections : list ri * option vx :=
  ([RFor (PLit "TP-CONNECTIONS/*")
       [RIf (CTag "DO-IP-TP-CONNECTION")
          [RPut "addTpConnection" (VNewX "DoIpTpConnection" false [RCall "readDoIpTpConnection" None])]
          [RFail NotImplementedError true]]],
   None).
(** arxml_parser.py:6558-6562 *)
Definition r_readDoIpTpConfig : list ri * option vx :=
  ([RCall "readTpConfig" None;
     RCall "readDoIpTpConfigDoIpLogicAddresses" None;
     RCall "readDoIpTpConfigTpConnections" None],
   None).
(** arxml_parser.py:6564-6566 *)
Definition r_readHwDescriptionEntityHwCategoryRefs : list ri * option vx :=
  ([RForVal (VLeafsX RRef (PLit "HW-CATEGORY-REFS/HW-CATEGORY-REF"))
       [RPut "addHwCategoryRef" VItemX]],
   None).
(** arxml_parser.py:6568-6570 *)
Definition r_readHwAttributeValue : list ri * option vx :=
  ([RAttrs;
     RPut "setHwAttributeDefRef" (VLeafX RRef (PLit "HW-ATTRIBUTE-DEF-REF"))],
   None).
(** arxml_parser.py:6572-6576 *)
Definition r_readHwDescriptionEntityHwAttributeValues : list ri * option vx :=
  ([RFor (PLit "HW-ATTRIBUTE-VALUES/HW-ATTRIBUTE-VALUE")
       [RPut "addHwAttributeValue" (VNewX "HwAttributeValue" false [RCall "readHwAttributeValue" None])]],
   None).
(** arxml_parser.py:6578-6582 *)
Definition r_readHwDescriptionEntity : list ri * option vx :=
  ([RCall "readReferrable" None;
     RPut "setHwTypeRef" (VLeafX RRef (PLit "HW-TYPE-REF"));
     RCall "readHwDescriptionEntityHwCategoryRefs" None;
     RCall "readHwDescriptionEntityHwAttributeValues" None],
   None).
(** arxml_parser.py:6584-6585 *)
Definition r_readHwPinGroup : list ri * option vx :=
  ([RCall "readHwDescriptionEntity" None],
   None).
(** arxml_parser.py:6587-6595 *)
Definition r_readHwPin : list ri * option vx :=
  ([RCall "readHwDescriptionEntity" None;
     RFor (PLit "FUNCTION-NAMES/FUNCTION-NAME")
       [RIf (CHasText)
          [RPut "addFunctionName" VTextX]
          []];
     RFind (PLit "PACKAGING-PIN-NAME")
       [RIf (CHasText)
          [RPut "setPackagingPinName" VTextX]
          []]
       [];
     RPut "setPinNumber" (VLeafX RInteger (PLit "PIN-NUMBER"))],
   None).
(** arxml_parser.py:6597-6604 *)
Definition r_readHwElementHwPinGroups : list ri * option vx :=
  ([RFor (PLit "HW-PIN-GROUPS/*")
       [RIf (CTag "HW-PIN-GROUP")
          [RCreate "createHwPinGroup" true
             [RCall "readHwPinGroup" None]]
          [RFail NotImplementedError true]]],
   None).
(** arxml_parser.py:6606-6611 *)
Definition r_readHwPinConnector : list ri * option vx :=
  ([],
   Some (VNewX "HwPinConnector" false [RCall "readDescribable" None;
      RForVal (VLeafsX RRef (PLit "HW-PIN-REF"))
        [RPut "addHwPinRef" VItemX]])).
(** arxml_parser.py:6613-6620 *)
Definition r_readHwPinGroupConnector : list ri * option vx :=
  ([],
   Some (VNewX "HwPinGroupConnector" false [RCall "readDescribable" None;
      RFor (PLit "HW-PIN-CONNECTION")
        [RPut "addHwPinConnection" (VGetX "readHwPinConnector" None)];
      RForVal (VLeafsX RRef (PLit "HW-PIN-GROUP-REF"))
        [RPut "addHwPinGroupRef" VItemX]])).
(** arxml_parser.py:6622-6629 *)
Definition r_readHwElementConnector : list ri * option vx :=
  ([RCall "readDescribable" None;
     RForVal (VLeafsX RRef (PLit "HW-ELEMENT-REF"))
       [RPut "addHwElementRef" VItemX];
     RFor (PLit "HW-PIN-CONNECTION")
       [RPut "addHwPinConnection" (VGetX "readHwPinConnector" None)];
     RFor (PLit "HW-PIN-GROUP-CONNECTION")
       [RPut "addHwPinGroupConnection" (VGetX "readHwPinGroupConnector" None)]],
   None).
(** arxml_parser.py:6631-6635 *)
Definition r_readHwElementHwElementConnections : list ri * option vx :=
  ([RFor (PLit "HW-ELEMENT-CONNECTIONS/HW-ELEMENT-CONNECTOR")
       [RPut "addHwElementConnection" (VNewX "HwElementConnector" false [RCall "readHwElementConnector" None])]],
   None).
(** arxml_parser.py:6637-6642 *)
Definition r_readHwElementHwNestedElementRefs : list ri * option vx :=
  ([RIf (CEmpty (VLeafsX RRef (PLit "NESTED-ELEMENTS/HW-ELEMENT-REF-CONDITIONAL/HW-ELEMENT-REF")))
       [RForVal (VLeafsX RRef (PLit "NESTED-ELEMENTS/HW-ELEMENT-REF"))
          [RPut "addNestedElementRef" VItemX]]
       [RForVal (VLeafsX RRef (PLit "NESTED-ELEMENTS/HW-ELEMENT-REF-CONDITIONAL/HW-ELEMENT-REF"))
          [RPut "addNestedElementRef" VItemX]]],
   None).
(** arxml_parser.py:6644-6649 *)
Definition r_readHwElement : list ri * option vx :=
  ([RCall "readHwDescriptionEntity" None;
     RCall "readHwElementHwPinGroups" None;
     RCall "readHwElementHwElementConnections" None;
     RCall "readHwElementHwNestedElementRefs" None],
   None).
(** arxml_parser.py:6651-6657 *)
Definition r_readHwAttributeDef : list ri * option vx :=
  ([RCall "readIdentifiable" None;
     RPut "setIsRequired" (VLeafX RBool (PLit "IS-REQUIRED"));
     RPut "setUnitRef" (VLeafX RRef (PLit "UNIT-REF"));
     RFor (PLit "HW-ATTRIBUTE-LITERALS/HW-ATTRIBUTE-LITERAL-DEF")
       [RCreate "createHwAttributeLiteral" true
          [RCall "readHwAttributeLiteralDef" None]]],
   None).
(** arxml_parser.py:6659-6661 *)
Definition r_readHwAttributeLiteralDef : list ri * option vx :=
  ([RCall "readIdentifiable" None;
     RPut "setValue" (VFailX AttributeError)],
   None).
(** arxml_parser.py:6663-6670 *)
Definition r_readHwCategoryHwAttributeDef : list ri * option vx :=
  ([RFor (PLit "HW-ATTRIBUTE-DEFS/*")
       [RIf (CTag "HW-ATTRIBUTE-DEF")
          [RCreate "createHwAttributeDef" true
             [RCall "readHwAttributeDef" None]]
          [RFail NotImplementedError true]]],
   None).
(** arxml_parser.py:6672-6675 *)
Definition r_readHwCategory : list ri * option vx :=
  ([RCall "readARElement" None;
     RCall "readHwCategoryHwAttributeDef" None],
   None).
(** arxml_parser.py:6677-6679 *)
Definition r_readHwType : list ri * option vx :=
  ([RCall "readReferrable" None],
   None).
(** arxml_parser.py:6681-6689 *)
Definition r_readPduToFrameMappings : list ri * option vx :=
  ([RFor (PLit "PDU-TO-FRAME-MAPPINGS/PDU-TO-FRAME-MAPPING")
       [RCreate "createPduToFrameMapping" true
          [RCall "readIdentifiable" None;
           RSet "packingByteOrder" (VLeafX RLiteral (PLit "PACKING-BYTE-ORDER"));
           RSet "pduRef" (VLeafX RRef (PLit "PDU-REF"));
           RSet "startPosition" (VLeafX RNumerical (PLit "START-POSITION"))]]],
   None).
(** arxml_parser.py:6691-6694 *)
Definition r_readFrame : list ri * option vx :=
  ([RCall "readIdentifiable" None;
     RSet "frameLength" (VLeafX RNumerical (PLit "FRAME-LENGTH"));
     RCall "readPduToFrameMappings" None],
   None).
(** arxml_parser.py:6696-6698 *)
Definition r_readLinUnconditionalFrame : list ri * option vx :=
  ([RCall "readFrame" None],
   None).
(** arxml_parser.py:6700-6703 *)
Definition r_readPdu : list ri * option vx :=
  ([RCall "readIdentifiable" None;
     RPut "setHasDynamicLength" (VLeafX RBool (PLit "HAS-DYNAMIC-LENGTH"));
     RPut "setLength" (VLeafX RNumerical (PLit "LENGTH"))],
   None).
(** arxml_parser.py:6705-6712 *)
Definition r_readISignalToIPduMapping : list ri * option vx :=
  ([RCall "readIdentifiable" None;
     RPut "setISignalRef" (VLeafX RRef (PLit "I-SIGNAL-REF"));
     RPut "setISignalGroupRef" (VLeafX RRef (PLit "I-SIGNAL-GROUP-REF"));
     RPut "setPackingByteOrder" (VLeafX RLiteral (PLit "PACKING-BYTE-ORDER"));
     RPut "setStartPosition" (VLeafX RInteger (PLit "START-POSITION"));
     RPut "setTransferProperty" (VLeafX RLiteral (PLit "TRANSFER-PROPERTY"));
     RPut "setUpdateIndicationBitPosition" (VLeafX RNumerical (PLit "UPDATE-INDICATION-BIT-POSITION"))],
   None).
(** arxml_parser.py:6714-6721 *)
Definition r_readNmPduISignalToIPduMappings : list ri * option vx :=
  ([RFor (PLit "I-SIGNAL-TO-I-PDU-MAPPINGS/*")
       [RIf (CTag "I-SIGNAL-TO-I-PDU-MAPPING")
          [RCreate "createISignalToIPduMapping" true
             [RCall "readISignalToIPduMapping" None]]
          [RFail NotImplementedError true]]],
   None).
(** arxml_parser.py:6723-6727 *)
Definition r_readNmPdu : list ri * option vx :=
  ([RCall "readPdu" None;
     RCall "readNmPduISignalToIPduMappings" None;
     RPut "setUnusedBitPattern" (VLeafX RInteger (PLit "UNUSED-BIT-PATTERN"))],
   None).
(** arxml_parser.py:6729-6741 *)
Definition r_readContainedIPduProps : list ri * option vx :=
  ([],
   Some (VFindX (PLit "CONTAINED-I-PDU-PROPS") (VNewX "ContainedIPduProps" false [RPut "setCollectionSemantics" (VLeafX RLiteral (PLit "COLLECTION-SEMANTICS"));
       RPut "setHeaderIdLongHeader" (VLeafX RPositive (PLit "HEADER-ID-LONG-HEADER"));
       RPut "setHeaderIdShortHeader" (VLeafX RPositive (PLit "HEADER-ID-SHORT-HEADER"));
       RPut "setOffset" (VLeafX RNumerical (PLit "OFFSET"));
       RPut "setTimeout" (VLeafX RNumerical (PLit "TIMEOUT"));
       RPut "setTrigger" (VLeafX RLiteral (PLit "TRIGGER"));
       RPut "setUpdateIndicationBitPosition" (VLeafX RNumerical (PLit "UPDATE-INDICATION-BIT-POSITION"))]) VNoneX)).
(** arxml_parser.py:6743-6745 *)
Definition r_readIPdu : list ri * option vx :=
  ([RCall "readPdu" None;
     RPut "setContainedIPduProps" (VGetX "readContainedIPduProps" None)],
   None).
(** arxml_parser.py:6747-6749 *)
Definition r_readNPdu : list ri * option vx :=
  ([RCall "readIPdu" None],
   None).
(** arxml_parser.py:6751-6754 *)
Definition r_readDcmIPdu : list ri * option vx :=
  ([RCall "readIPdu" None;
     RPut "setDiagPduType" (VLeafX RLiteral (PLit "DIAG-PDU-TYPE"))],
   None).
(** arxml_parser.py:6756-6772 *)
Definition r_getSecureCommunicationProps : list ri * option vx :=
  ([],
   Some (VFindX PKey (VNewX "SecureCommunicationProps" false [RPut "setAuthDataFreshnessLength" (VLeafX RPositive (PLit "AUTH-DATA-FRESHNESS-LENGTH"));
       RPut "setAuthDataFreshnessStartPosition" (VLeafX RPositive (PLit "AUTH-DATA-FRESHNESS-START-POSITION"));
       RPut "setAuthenticationBuildAttempts" (VLeafX RPositive (PLit "AUTHENTICATION-BUILD-ATTEMPTS"));
       RPut "setAuthenticationRetries" (VLeafX RPositive (PLit "AUTHENTICATION-RETRIES"));
       RPut "setDataId" (VLeafX RPositive (PLit "DATA-ID"));
       RPut "setFreshnessValueId" (VLeafX RPositive (PLit "FRESHNESS-VALUE-ID"));
       RPut "setMessageLinkLength" (VLeafX RPositive (PLit "MESSAGE-LINK-LENGTH"));
       RPut "setMessageLinkPosition" (VLeafX RPositive (PLit "MESSAGE-LINK-POSITION"));
       RPut "setSecondaryFreshnessValueId" (VLeafX RPositive (PLit "SECONDARY-FRESHNESS-VALUE-ID"));
       RPut "setSecuredAreaLength" (VLeafX RPositive (PLit "SECURED-AREA-LENGTH"));
       RPut "setSecuredAreaOffset" (VLeafX RPositive (PLit "SECURED-AREA-OFFSET"))]) VNoneX)).
(** arxml_parser.py:6774-6781 *)
Definition r_readSecuredIPdu : list ri * option vx :=
  ([RCall "readIPdu" None;
     RPut "setAuthenticationPropsRef" (VLeafX RRef (PLit "AUTHENTICATION-PROPS-REF"));
     RPut "setFreshnessPropsRef" (VLeafX RRef (PLit "FRESHNESS-PROPS-REF"));
     RPut "setPayloadRef" (VLeafX RRef (PLit "PAYLOAD-REF"));
     RPut "setSecureCommunicationProps" (VGetX "getSecureCommunicationProps" (Some (TLit "SECURE-COMMUNICATION-PROPS")));
     RPut "setUseAsCryptographicIPdu" (VLeafX RBool (PLit "USE-AS-CRYPTOGRAPHIC-I-PDU"))],
   None).
(** arxml_parser.py:6783-6795 *)
Definition r_readNmNode : list ri * option vx :=
  ([RCall "readIdentifiable" None;
     RPut "setControllerRef" (VLeafX RRef (PLit "CONTROLLER-REF"));
     RPut "setNmCoordCluster" (VLeafX RPositive (PLit "NM-COORD-CLUSTER"));
     RPut "setNmCoordinatorRole" (VLeafX RLiteral (PLit "NM-COORDINATOR-ROLE"));
     RPut "setNmIfEcuRef" (VLeafX RRef (PLit "NM-IF-ECU-REF"));
     RPut "setNmNodeId" (VLeafX RInteger (PLit "NM-NODE-ID"));
     RPut "setNmPassiveModeEnabled" (VLeafX RBool (PLit "NM-PASSIVE-MODE-ENABLED"));
     RForVal (VLeafsX RRef (PLit "RX-NM-PDU-REFS/RX-NM-PDU-REF"))
       [RPut "addRxNmPduRef" VItemX];
     RForVal (VLeafsX RRef (PLit "TX-NM-PDU-REFS/TX-NM-PDU-REF"))
       [RPut "addTxNmPduRef" VItemX]],
   None).
(** arxml_parser.py:6797-6803 *)
Definition r_readCanNmNode : list ri * option vx :=
  ([RCall "readNmNode" None;
     RPut "setNmCarWakeUpRxEnabled" (VLeafX RBool (PLit "NM-CAR-WAKE-UP-RX-ENABLED"));
     RPut "setNmMsgCycleOffset" (VLeafX RFloat (PLit "NM-MSG-CYCLE-OFFSET"));
     RPut "setNmMsgReducedTime" (VLeafX RFloat (PLit "NM-MSG-REDUCED-TIME"));
     RPut "setNmRangeConfig" (VGetX "getChildElementRxIdentifierRange" (Some (TLit "NM-RANGE-CONFIG")))],
   None).
(** arxml_parser.py:6805-6808 *)
Definition r_readUdpNmNode : list ri * option vx :=
  ([RCall "readNmNode" None;
     RPut "setNmMsgCycleOffset" (VLeafX RTime (PLit "NM-MSG-CYCLE-OFFSET"))],
   None).
(** arxml_parser.py:6810-6814 *)
Definition r_readJ1939NmNode : list ri * option vx :=
  ([RCall "readNmNode" None;
     RPut "setAddressConfigurationCapability" (VLeafX RLiteral (PLit "ADDRESS-CONFIGURATION-CAPABILITY"));
     RPut "setNodeName" (VGetX "getChildElementJ1939NodeName" (Some (TLit "NODE-NAME")))],
   None).
(** arxml_parser.py:6816-6830 *)
Definition r_readNmClusterNmNodes : list ri * option vx :=
  ([RFor (PLit "NM-NODES/*")
       [RIf (CTag "CAN-NM-NODE")
          [RCreate "createCanNmNode" true
             [RCall "readCanNmNode" None]]
          [RIf (CTag "UDP-NM-NODE")
             [RCreate "readUdpNmNode" true
                [RCall "readUdpNmNode" None]]
             [RIf (CTag "J-1939-NM-NODE")
                [RCreate "createJ1939NmNode" true
                   [RCall "readJ1939NmNode" None]]
                [RFail NotImplementedError true]]]]],
   None).
(** arxml_parser.py:6832-6838 *)
Definition r_getCanNmClusterCoupling : list ri * option vx :=
  ([],
   Some (VNewX "CanNmClusterCoupling" false [RForVal (VLeafsX RRef (PLit "COUPLED-CLUSTER-REFS/COUPLED-CLUSTER-REF"))
        [RPut "addCoupledClusterRef" VItemX];
      RPut "setNmBusloadReductionEnabled" (VLeafX RBool (PLit "NM-BUSLOAD-REDUCTION-ENABLED"));
      RPut "setNmImmediateRestartEnabled" (VLeafX RBool (PLit "NM-IMMEDIATE-RESTART-ENABLED"))])).
(** arxml_parser.py:6840-6845 *)
Definition r_getUdpNmClusterCoupling : list ri * option vx :=
  ([],
   Some (VNewX "UdpNmClusterCoupling" false [RForVal (VLeafsX RRef (PLit "COUPLED-CLUSTER-REFS/COUPLED-CLUSTER-REF"))
        [RPut "addCoupledClusterRef" VItemX];
      RPut "setNmImmediateRestartEnabled" (VLeafX RBool (PLit "NM-IMMEDIATE-RESTART-ENABLED"))])).
(** arxml_parser.py:6847-6855 *)
Definition r_readNmConfigNmClusterCouplings : list ri * option vx :=
  ([RFor (PLit "NM-CLUSTER-COUPLINGS/*")
       [RIf (CTag "CAN-NM-CLUSTER-COUPLING")
          [RPut "addNmClusterCouplings" (VGetX "getCanNmClusterCoupling" None)]
          [RIf (CTag "UDP-NM-CLUSTER-COUPLING")
             [RPut "addNmClusterCouplings" (VGetX "getUdpNmClusterCoupling" None)]
             [RFail NotImplementedError true]]]],
   None).
(** arxml_parser.py:6857-6864 *)
Definition r_readNmCluster : list ri * option vx :=
  ([RCall "readIdentifiable" None;
     RPut "setCommunicationClusterRef" (VLeafX RRef (PLit "COMMUNICATION-CLUSTER-REF"));
     RPut "setNmChannelId" (VLeafX RNumerical (PLit "NM-CHANNEL-ID"));
     RPut "setNmChannelSleepMaster" (VLeafX RBool (PLit "NM-CHANNEL-SLEEP-MASTER"));
     RCall "readNmClusterNmNodes" None;
     RPut "setNmSynchronizingNetwork" (VLeafX RBool (PLit "NM-SYNCHRONIZING-NETWORK"))],
   None).
(** arxml_parser.py:6866-6882 *)
Definition r_readCanNmCluster : list ri * option vx :=
  ([RCall "readNmCluster" None;
     RPut "setNmBusloadReductionActive" (VLeafX RBool (PLit "NM-BUSLOAD-REDUCTION-ACTIVE"));
     RPut "setNmCarWakeUpRxEnabled" (VLeafX RBool (PLit "NM-CAR-WAKE-UP-RX-ENABLED"));
     RPut "setNmCbvPosition" (VLeafX RNumerical (PLit "NM-CBV-POSITION"));
     RPut "setNmChannelActive" (VLeafX RBool (PLit "NM-CHANNEL-ACTIVE"));
     RPut "setNmImmediateNmCycleTime" (VLeafX RFloat (PLit "NM-IMMEDIATE-NM-CYCLE-TIME"));
     RPut "setNmImmediateNmTransmissions" (VLeafX RNumerical (PLit "NM-IMMEDIATE-NM-TRANSMISSIONS"));
     RPut "setNmMessageTimeoutTime" (VLeafX RFloat (PLit "NM-MESSAGE-TIMEOUT-TIME"));
     RPut "setNmMsgCycleTime" (VLeafX RFloat (PLit "NM-MSG-CYCLE-TIME"));
     RPut "setNmNetworkTimeout" (VLeafX RFloat (PLit "NM-NETWORK-TIMEOUT"));
     RPut "setNmNidPosition" (VLeafX RNumerical (PLit "NM-NID-POSITION"));
     RPut "setNmRemoteSleepIndicationTime" (VLeafX RFloat (PLit "NM-REMOTE-SLEEP-INDICATION-TIME"));
     RPut "setNmRepeatMessageTime" (VLeafX RFloat (PLit "NM-REPEAT-MESSAGE-TIME"));
     RPut "setNmUserDataLength" (VLeafX RNumerical (PLit "NM-USER-DATA-LENGTH"));
     RPut "setNmWaitBusSleepTime" (VLeafX RFloat (PLit "NM-WAIT-BUS-SLEEP-TIME"))],
   None).
(** arxml_parser.py:6884-6898 *)
Definition r_readUdpNmCluster : list ri * option vx :=
  ([RCall "readNmCluster" None;
     RPut "setNmCbvPosition" (VLeafX RInteger (PLit "NM-CBV-POSITION"));
     RPut "setNmChannelActive" (VLeafX RBool (PLit "NM-CHANNEL-ACTIVE"));
     RPut "setNmImmediateNmCycleTime" (VLeafX RTime (PLit "NM-IMMEDIATE-NM-CYCLE-TIME"));
     RPut "setNmImmediateNmTransmissions" (VLeafX RPositive (PLit "NM-IMMEDIATE-NM-TRANSMISSIONS"));
     RPut "setNmMessageTimeoutTime" (VLeafX RTime (PLit "NM-MESSAGE-TIMEOUT-TIME"));
     RPut "setNmMsgCycleTime" (VLeafX RTime (PLit "NM-MSG-CYCLE-TIME"));
     RPut "setNmNetworkTimeout" (VLeafX RTime (PLit "NM-NETWORK-TIMEOUT"));
     RPut "setNmNidPosition" (VLeafX RInteger (PLit "NM-NID-POSITION"));
     RPut "setNmRemoteSleepIndicationTime" (VLeafX RTime (PLit "NM-REMOTE-SLEEP-INDICATION-TIME"));
     RPut "setNmRepeatMessageTime" (VLeafX RTime (PLit "NM-REPEAT-MESSAGE-TIME"));
     RPut "setNmWaitBusSleepTime" (VLeafX RTime (PLit "NM-WAIT-BUS-SLEEP-TIME"));
     RPut "setVlanRef" (VLeafX RRef (PLit "VLAN-REF"))],
   None).
(** arxml_parser.py:6900-6910 *)
Definition r_readNmConfigNmClusters : list ri * option vx :=
  ([RFor (PLit "NM-CLUSTERS/*")
       [RIf (CTag "CAN-NM-CLUSTER")
          [RCreate "createCanNmCluster" true
             [RCall "readCanNmCluster" None]]
          [RIf (CTag "UDP-NM-CLUSTER")
             [RCreate "createUdpNmCluster" true
                [RCall "readUdpNmCluster" None]]
             [RFail ValueError true]]]],
   None).
(** arxml_parser.py:6912-6913 *)
Definition r_readUdpNmEcu : list ri * option vx :=
  ([RPut "setNmSynchronizationPointEnabled" (VLeafX RBool (PLit "NM-SYNCHRONIZATION-POINT-ENABLED"))],
   None).
(** arxml_parser.py:6915-6923 *)
Definition r_readBusDependentNmEcus : list ri * option vx :=
  ([RFor (PLit "BUS-DEPENDENT-NM-ECUS/*")
       [RIf (CTag "UDP-NM-ECU")
          [RPut "addBusDependentNmEcu" (VNewX "UdpNmEcu" false [RCall "readUdpNmEcu" None])]
          [RFail NotImplementedError true]]],
   None).
(** arxml_parser.py:6925-6937 *)
Definition r_readNmEcu : list ri * option vx :=
  ([RCall "readIdentifiable" None;
     RCall "readBusDependentNmEcus" None;
     RPut "setEcuInstanceRef" (VLeafX RRef (PLit "ECU-INSTANCE-REF"));
     RPut "setNmBusSynchronizationEnabled" (VLeafX RBool (PLit "NM-BUS-SYNCHRONIZATION-ENABLED"));
     RPut "setNmComControlEnabled" (VLeafX RBool (PLit "NM-COM-CONTROL-ENABLED"));
     RPut "setNmNodeDetectionEnabled" (VLeafX RBool (PLit "NM-NODE-DETECTION-ENABLED"));
     RPut "setNmNodeIdEnabled" (VLeafX RBool (PLit "NM-NODE-ID-ENABLED"));
     RPut "setNmPduRxIndicationEnabled" (VLeafX RBool (PLit "NM-PDU-RX-INDICATION-ENABLED"));
     RPut "setNmRemoteSleepIndEnabled" (VLeafX RBool (PLit "NM-REMOTE-SLEEP-IND-ENABLED"));
     RPut "setNmRepeatMsgIndEnabled" (VLeafX RBool (PLit "NM-REPEAT-MSG-IND-ENABLED"));
     RPut "setNmStateChangeIndEnabled" (VLeafX RBool (PLit "NM-STATE-CHANGE-IND-ENABLED"));
     RPut "setNmUserDataEnabled" (VLeafX RBool (PLit "NM-USER-DATA-ENABLED"))],
   None).
(** arxml_parser.py:6939-6946 *)
Definition r_readNmConfigNmIfEcus : list ri * option vx :=
  ([RFor (PLit "NM-IF-ECUS/*")
       [RIf (CTag "NM-ECU")
          [RCreate "createNmEcu" true
             [RCall "readNmEcu" None]]
          [RFail NotImplementedError true]]],
   None).
(** arxml_parser.py:6948-6953 *)
Definition r_readNmConfig : list ri * option vx :=
  ([RCall "readIdentifiable" None;
     RCall "readNmConfigNmClusters" None;
     RCall "readNmConfigNmClusterCouplings" None;
     RCall "readNmConfigNmIfEcus" None],
   None).
(** arxml_parser.py:6955-6957 *)
Definition r_readTpConfig : list ri * option vx :=
  ([RCall "readIdentifiable" None;
     RPut "setCommunicationClusterRef" (VLeafX RRef (PLit "COMMUNICATION-CLUSTER-REF"))],
   None).
(** arxml_parser.py:6959-6962 *)
Definition r_readCanTpAddress : list ri * option vx :=
  ([RCall "readIdentifiable" None;
     RPut "setTpAddress" (VLeafX RInteger (PLit "TP-ADDRESS"));
     RPut "setTpAddressExtensionValue" (VLeafX RInteger (PLit "TP-ADDRESS-EXTENSION-VALUE"))],
   None).
(** arxml_parser.py:6964-6971 *)
Definition r_readCanTpConfigTpAddresses : list ri * option vx :=
  ([RFor (PLit "TP-ADDRESSS/*")
       [RIf (CTag "CAN-TP-ADDRESS")
          [RCreate "createCanTpAddress" true
             [RCall "readCanTpAddress" None]]
          [RFail NotImplementedError true]]],
   None).
(** arxml_parser.py:6973-6976 *)
Definition r_readCanTpChannel : list ri * option vx :=
  ([RCall "readIdentifiable" None;
     RPut "setChannelId" (VLeafX RPositive (PLit "CHANNEL-ID"));
     RPut "setChannelMode" (VLeafX RLiteral (PLit "CHANNEL-MODE"))],
   None).
(** arxml_parser.py:6978-6985 *)
Definition r_readCanTpConfigTpChannels : list ri * option vx :=
  ([RFor (PLit "TP-CHANNELS/*")
       [RIf (CTag "CAN-TP-CHANNEL")
          [RCreate "createCanTpChannel" true
             [RCall "readCanTpChannel" None]]
          [RFail NotImplementedError true]]],
   None).
(** arxml_parser.py:6987-6992 *)
Definition r_readTpConnection : list ri * option vx :=
  ([RAttrs;
     RFind (PLit "IDENT")
       [RCreate "createTpConnectionIdent" true
          [RCall "readReferrable" None]]
       []],
   None).
(** arxml_parser.py:6994-6996 *)
Definition r_readTpConnectionReceiverRefs : list ri * option vx :=
  ([RForVal (VLeafsX RRef (PLit "RECEIVER-REFS/RECEIVER-REF"))
       [RPut "addReceiverRef" VItemX]],
   None).
(** arxml_parser.py:6998-7015 *)
Definition r_readCanTpConnection : list ri * option vx :=
  ([RCall "readTpConnection" None;
     RPut "setAddressingFormat" (VLeafX RLiteral (PLit "ADDRESSING-FORMAT"));
     RPut "setCanTpChannelRef" (VLeafX RRef (PLit "CAN-TP-CHANNEL-REF"));
     RPut "setCancellation" (VLeafX RBool (PLit "CANCELLATION"));
     RPut "setDataPduRef" (VLeafX RRef (PLit "DATA-PDU-REF"));
     RPut "setFlowControlPduRef" (VLeafX RRef (PLit "FLOW-CONTROL-PDU-REF"));
     RPut "setMaxBlockSize" (VLeafX RInteger (PLit "MAX-BLOCK-SIZE"));
     RPut "setMulticastRef" (VLeafX RRef (PLit "MULTICAST-REF"));
     RPut "setPaddingActivation" (VLeafX RBool (PLit "PADDING-ACTIVATION"));
     RCall "readTpConnectionReceiverRefs" None;
     RPut "setTaType" (VLeafX RLiteral (PLit "TA-TYPE"));
     RPut "setTimeoutBr" (VLeafX RTime (PLit "TIMEOUT-BR"));
     RPut "setTimeoutBs" (VLeafX RTime (PLit "TIMEOUT-BS"));
     RPut "setTimeoutCr" (VLeafX RTime (PLit "TIMEOUT-CR"));
     RPut "setTimeoutCs" (VLeafX RTime (PLit "TIMEOUT-CS"));
     RPut "setTpSduRef" (VLeafX RRef (PLit "TP-SDU-REF"));
     RPut "setTransmitterRef" (VLeafX RRef (PLit "TRANSMITTER-REF"))],
   None).
(** arxml_parser.py:7017-7025 *)
Definition r_readCanTpConfigTpConnections : list ri * option vx :=
  ([RFor (PLit "TP-CONNECTIONS/*")
       [RIf (CTag "CAN-TP-CONNECTION")
          [RPut "addTpConnection" (VNewX "CanTpConnection" false [RCall "readCanTpConnection" None])]
          [RFail NotImplementedError true]]],
   None).
(** arxml_parser.py:7027-7029 *)
Definition r_readCanTpEcu : list ri * option vx :=
  ([RPut "setCycleTimeMainFunction" (VLeafX RTime (PLit "CYCLE-TIME-MAIN-FUNCTION"));
     RPut "setEcuInstanceRef" (VLeafX RRef (PLit "ECU-INSTANCE-REF"))],
   None).
(** arxml_parser.py:7031-7039 *)
Definition r_readCanTpConfigTpEcus : list ri * option vx :=
  ([RFor (PLit "TP-ECUS/*")
       [RIf (CTag "CAN-TP-ECU")
          [RPut "addTpEcu" (VNewX "CanTpEcu" false [RCall "readCanTpEcu" None])]
          [RFail NotImplementedError true]]],
   None).
(** arxml_parser.py:7041-7048 *)
Definition r_readCanTpNode : list ri * option vx :=
  ([RCall "readIdentifiable" None;
     RPut "setConnectorRef" (VLeafX RRef (PLit "CONNECTOR-REF"));
     RPut "setMaxFcWait" (VLeafX RInteger (PLit "MAX-FC-WAIT"));
     RPut "setStMin" (VLeafX RTime (PLit "ST-MIN"));
     RPut "setTimeoutAr" (VLeafX RTime (PLit "TIMEOUT-AR"));
     RPut "setTimeoutAs" (VLeafX RTime (PLit "TIMEOUT-AS"));
     RPut "setTpAddressRef" (VLeafX RRef (PLit "TP-ADDRESS-REF"))],
   None).
(** arxml_parser.py:7050-7057 *)
Definition r_readCanTpConfigTpNodes : list ri * option vx :=
  ([RFor (PLit "TP-NODES/*")
       [RIf (CTag "CAN-TP-NODE")
          [RCreate "createCanTpNode" true
             [RCall "readCanTpNode" None]]
          [RFail NotImplementedError true]]],
   None).
(** arxml_parser.py:7059-7066 *)
Definition r_readCanTpConfig : list ri * option vx :=
  ([RCall "readTpConfig" None;
     RCall "readCanTpConfigTpAddresses" None;
     RCall "readCanTpConfigTpChannels" None;
     RCall "readCanTpConfigTpConnections" None;
     RCall "readCanTpConfigTpEcus" None;
     RCall "readCanTpConfigTpNodes" None],
   None).
(** arxml_parser.py:7068-7070 *)
Definition r_readTpAddress : list ri * option vx :=
  ([RCall "readIdentifiable" None;
     RPut "setTpAddress" (VLeafX RInteger (PLit "TP-ADDRESS"))],
   None).
(** arxml_parser.py:7072-7079 *)
Definition r_readLinTpConfigTpAddresses : list ri * option vx :=
  ([RFor (PLit "TP-ADDRESSS/*")
       [RIf (CTag "TP-ADDRESS")
          [RCreate "createTpAddress" true
             [RCall "readTpAddress" None]]
          [RFail NotImplementedError true]]],
   None).
(** arxml_parser.py:7081-7090 *)
Definition r_readLinTpConnection : list ri * option vx :=
  ([RCall "readTpConnection" None;
     RPut "setDataPduRef" (VLeafX RRef (PLit "DATA-PDU-REF"));
     RPut "setFlowControlRef" (VLeafX RRef (PLit "FLOW-CONTROL-REF"));
     RPut "setLinTpNSduRef" (VLeafX RRef (PLit "LIN-TP-N-SDU-REF"));
     RCall "readTpConnectionReceiverRefs" None;
     RPut "setTimeoutAs" (VLeafX RTime (PLit "TIMEOUT-AS"));
     RPut "setTimeoutCr" (VLeafX RTime (PLit "TIMEOUT-CR"));
     RPut "setTimeoutCs" (VLeafX RTime (PLit "TIMEOUT-CS"));
     RPut "setTransmitterRef" (VLeafX RRef (PLit "TRANSMITTER-REF"))],
   None).
(** arxml_parser.py:7092-7100 *)
Definition r_readLinTpConfigTpConnections : list ri * option vx :=
  ([RFor (PLit "TP-CONNECTIONS/*")
       [RIf (CTag "LIN-TP-CONNECTION")
          [RPut "addTpConnection" (VNewX "LinTpConnection" false [RCall "readLinTpConnection" None])]
          [RFail NotImplementedError true]]],
   None).
(** arxml_parser.py:7102-7108 *)
Definition r_readLinTpNode : list ri * option vx :=
  ([RCall "readIdentifiable" None;
     RPut "setConnectorRef" (VLeafX RRef (PLit "CONNECTOR-REF"));
     RPut "setDropNotRequestedNad" (VLeafX RBool (PLit "DROP-NOT-REQUESTED-NAD"));
     RPut "setP2Max" (VLeafX RTime (PLit "P-2-MAX"));
     RPut "setP2Timing" (VLeafX RTime (PLit "P-2-TIMING"));
     RPut "setTpAddressRef" (VLeafX RRef (PLit "TP-ADDRESS-REF"))],
   None).
(** arxml_parser.py:7110-7117 *)
Definition r_readLinTpConfigTpNodes : list ri * option vx :=
  ([RFor (PLit "TP-NODES/*")
       [RIf (CTag "LIN-TP-NODE")
          [RCreate "createLinTpNode" true
             [RCall "readLinTpNode" None]]
          [RFail NotImplementedError true]]],
   None).
(** arxml_parser.py:7119-7124 *)
Definition r_readLinTpConfig : list ri * option vx :=
  ([RCall "readTpConfig" None;
     RCall "readLinTpConfigTpAddresses" None;
     RCall "readLinTpConfigTpConnections" None;
     RCall "readLinTpConfigTpNodes" None],
   None).
(** arxml_parser.py:7126-7128 *)
Definition r_readCanFrame : list ri * option vx :=
  ([RCall "readFrame" None],
   None).
(** arxml_parser.py:7130-7132 *)
Definition r_readFlexrayFrame : list ri * option vx :=
  ([RCall "readFrame" None],
   None).
(** arxml_parser.py:7134-7183 *)
Definition r_readFlexrayCommunicationController : list ri * option vx :=
  ([RCall "readIdentifiable" None;
     RIf (CAt (PLit "FLEXRAY-COMMUNICATION-CONTROLLER-VARIANTS/FLEXRAY-COMMUNICATION-CONTROLLER-CONDITIONAL") CTrue)
       [RCall "readCommunicationController" None]
       [];
     RFind (PLit "FLEXRAY-COMMUNICATION-CONTROLLER-VARIANTS/FLEXRAY-COMMUNICATION-CONTROLLER-CONDITIONAL")
       [RPut "setAcceptedStartupRange" (VLeafX RInteger (PLit "ACCEPTED-STARTUP-RANGE"))]
       [];
     RFind (PLit "FLEXRAY-COMMUNICATION-CONTROLLER-VARIANTS/FLEXRAY-COMMUNICATION-CONTROLLER-CONDITIONAL")
       [RPut "setAllowHaltDueToClock" (VLeafX RBool (PLit "ALLOW-HALT-DUE-TO-CLOCK"))]
       [];
     RFind (PLit "FLEXRAY-COMMUNICATION-CONTROLLER-VARIANTS/FLEXRAY-COMMUNICATION-CONTROLLER-CONDITIONAL")
       [RPut "setAllowPassiveToActive" (VLeafX RInteger (PLit "ALLOW-PASSIVE-TO-ACTIVE"))]
       [];
     RFind (PLit "FLEXRAY-COMMUNICATION-CONTROLLER-VARIANTS/FLEXRAY-COMMUNICATION-CONTROLLER-CONDITIONAL")
       [RPut "setClusterDriftDamping" (VLeafX RInteger (PLit "CLUSTER-DRIFT-DAMPING"))]
       [];
     RFind (PLit "FLEXRAY-COMMUNICATION-CONTROLLER-VARIANTS/FLEXRAY-COMMUNICATION-CONTROLLER-CONDITIONAL")
       [RPut "setDecodingCorrection" (VLeafX RInteger (PLit "DECODING-CORRECTION"))]
       [];
     RFind (PLit "FLEXRAY-COMMUNICATION-CONTROLLER-VARIANTS/FLEXRAY-COMMUNICATION-CONTROLLER-CONDITIONAL")
       [RPut "setDelayCompensationA" (VLeafX RInteger (PLit "DELAY-COMPENSATION-A"))]
       [];
     RFind (PLit "FLEXRAY-COMMUNICATION-CONTROLLER-VARIANTS/FLEXRAY-COMMUNICATION-CONTROLLER-CONDITIONAL")
       [RPut "setDelayCompensationB" (VLeafX RInteger (PLit "DELAY-COMPENSATION-B"))]
       [];
     RFind (PLit "FLEXRAY-COMMUNICATION-CONTROLLER-VARIANTS/FLEXRAY-COMMUNICATION-CONTROLLER-CONDITIONAL")
       [RPut "setKeySlotOnlyEnabled" (VLeafX RBool (PLit "KEY-SLOT-ONLY-ENABLED"))]
       [];
     RFind (PLit "FLEXRAY-COMMUNICATION-CONTROLLER-VARIANTS/FLEXRAY-COMMUNICATION-CONTROLLER-CONDITIONAL")
       [RPut "setKeySlotUsedForStartUp" (VLeafX RBool (PLit "KEY-SLOT-USED-FOR-START-UP"))]
       [];
     RFind (PLit "FLEXRAY-COMMUNICATION-CONTROLLER-VARIANTS/FLEXRAY-COMMUNICATION-CONTROLLER-CONDITIONAL")
       [RPut "setKeySlotUsedForSync" (VLeafX RBool (PLit "KEY-SLOT-USED-FOR-SYNC"))]
       [];
     RFind (PLit "FLEXRAY-COMMUNICATION-CONTROLLER-VARIANTS/FLEXRAY-COMMUNICATION-CONTROLLER-CONDITIONAL")
       [RPut "setLatestTX" (VLeafX RInteger (PLit "LATEST-TX"))]
       [];
     RFind (PLit "FLEXRAY-COMMUNICATION-CONTROLLER-VARIANTS/FLEXRAY-COMMUNICATION-CONTROLLER-CONDITIONAL")
       [RPut "setListenTimeout" (VLeafX RInteger (PLit "LISTEN-TIMEOUT"))]
       [];
     RFind (PLit "FLEXRAY-COMMUNICATION-CONTROLLER-VARIANTS/FLEXRAY-COMMUNICATION-CONTROLLER-CONDITIONAL")
       [RPut "setMacroInitialOffsetA" (VLeafX RInteger (PLit "MACRO-INITIAL-OFFSET-A"))]
       [];
     RFind (PLit "FLEXRAY-COMMUNICATION-CONTROLLER-VARIANTS/FLEXRAY-COMMUNICATION-CONTROLLER-CONDITIONAL")
       [RPut "setMacroInitialOffsetB" (VLeafX RInteger (PLit "MACRO-INITIAL-OFFSET-B"))]
       [];
     RFind (PLit "FLEXRAY-COMMUNICATION-CONTROLLER-VARIANTS/FLEXRAY-COMMUNICATION-CONTROLLER-CONDITIONAL")
       [RPut "setMaximumDynamicPayloadLength" (VLeafX RInteger (PLit "MAXIMUM-DYNAMIC-PAYLOAD-LENGTH"))]
       [];
     RFind (PLit "FLEXRAY-COMMUNICATION-CONTROLLER-VARIANTS/FLEXRAY-COMMUNICATION-CONTROLLER-CONDITIONAL")
       [RPut "setMicroInitialOffsetA" (VLeafX RInteger (PLit "MICRO-INITIAL-OFFSET-A"))]
       [];
     RFind (PLit "FLEXRAY-COMMUNICATION-CONTROLLER-VARIANTS/FLEXRAY-COMMUNICATION-CONTROLLER-CONDITIONAL")
       [RPut "setMicroInitialOffsetB" (VLeafX RInteger (PLit "MICRO-INITIAL-OFFSET-B"))]
       [];
     RFind (PLit "FLEXRAY-COMMUNICATION-CONTROLLER-VARIANTS/FLEXRAY-COMMUNICATION-CONTROLLER-CONDITIONAL")
       [RPut "setMicroPerCycle" (VLeafX RInteger (PLit "MICRO-PER-CYCLE"))]
       [];
     RFind (PLit "FLEXRAY-COMMUNICATION-CONTROLLER-VARIANTS/FLEXRAY-COMMUNICATION-CONTROLLER-CONDITIONAL")
       [RPut "setMicrotickDuration" (VLeafX RTime (PLit "MICROTICK-DURATION"))]
       [];
     RFind (PLit "FLEXRAY-COMMUNICATION-CONTROLLER-VARIANTS/FLEXRAY-COMMUNICATION-CONTROLLER-CONDITIONAL")
       [RPut "setOffsetCorrectionOut" (VLeafX RInteger (PLit "OFFSET-CORRECTION-OUT"))]
       [];
     RFind (PLit "FLEXRAY-COMMUNICATION-CONTROLLER-VARIANTS/FLEXRAY-COMMUNICATION-CONTROLLER-CONDITIONAL")
       [RPut "setRateCorrectionOut" (VLeafX RInteger (PLit "RATE-CORRECTION-OUT"))]
       [];
     RFind (PLit "FLEXRAY-COMMUNICATION-CONTROLLER-VARIANTS/FLEXRAY-COMMUNICATION-CONTROLLER-CONDITIONAL")
       [RPut "setSamplesPerMicrotick" (VLeafX RInteger (PLit "SAMPLES-PER-MICROTICK"))]
       [];
     RFind (PLit "FLEXRAY-COMMUNICATION-CONTROLLER-VARIANTS/FLEXRAY-COMMUNICATION-CONTROLLER-CONDITIONAL")
       [RPut "setExternOffsetCorrection" (VLeafX RInteger (PLit "EXTERN-OFFSET-CORRECTION"))]
       [];
     RFind (PLit "FLEXRAY-COMMUNICATION-CONTROLLER-VARIANTS/FLEXRAY-COMMUNICATION-CONTROLLER-CONDITIONAL")
       [RPut "setExternRateCorrection" (VLeafX RInteger (PLit "EXTERN-RATE-CORRECTION"))]
       [];
     RFind (PLit "FLEXRAY-COMMUNICATION-CONTROLLER-VARIANTS/FLEXRAY-COMMUNICATION-CONTROLLER-CONDITIONAL")
       [RPut "setExternalSync" (VLeafX RBool (PLit "EXTERNAL-SYNC"))]
       [];
     RFind (PLit "FLEXRAY-COMMUNICATION-CONTROLLER-VARIANTS/FLEXRAY-COMMUNICATION-CONTROLLER-CONDITIONAL")
       [RPut "setFallBackInternal" (VLeafX RBool (PLit "FALL-BACK-INTERNAL"))]
       [];
     RFind (PLit "FLEXRAY-COMMUNICATION-CONTROLLER-VARIANTS/FLEXRAY-COMMUNICATION-CONTROLLER-CONDITIONAL")
       [RFor (PLit "FLEXRAY-FIFOS/FLEXRAY-FIFO-CONFIGURATION")
          [RCreate "createFlexrayFifo" false
             [RPut "setAdmitWithoutMessageId" (VLeafX RBool (PLit "ADMIT-WITHOUT-MESSAGE-ID"));
              RPut "setBaseCycle" (VLeafX RInteger (PLit "BASE-CYCLE"));
              RPut "setChannelRef" (VLeafX RRef (PLit "CHANNEL-REF"));
              RPut "setCycleRepetition" (VLeafX RInteger (PLit "CYCLE-REPETITION"));
              RPut "setFifoDepth" (VLeafX RInteger (PLit "FIFO-DEPTH"));
              RFor (PLit "FLEXRAY-FIFO-RANGE")
                [RCreate "createFlexrayFifoRange" false
                   [RPut "setRangeMax" (VLeafX RInteger (PLit "RANGE-MAX"));
                    RPut "setRangeMin" (VLeafX RInteger (PLit "RANGE-MIN"))]];
              RPut "setMsgIdMask" (VLeafX RInteger (PLit "MSG-ID-MASK"));
              RPut "setMsgIdMatch" (VLeafX RInteger (PLit "MSG-ID-MATCH"))]]]
       [];
     RFind (PLit "FLEXRAY-COMMUNICATION-CONTROLLER-VARIANTS/FLEXRAY-COMMUNICATION-CONTROLLER-CONDITIONAL")
       [RPut "setKeySlotID" (VLeafX RInteger (PLit "KEY-SLOT-ID"))]
       [];
     RFind (PLit "FLEXRAY-COMMUNICATION-CONTROLLER-VARIANTS/FLEXRAY-COMMUNICATION-CONTROLLER-CONDITIONAL")
       [RPut "setNmVectorEarlyUpdate" (VLeafX RBool (PLit "NM-VECTOR-EARLY-UPDATE"))]
       [];
     RFind (PLit "FLEXRAY-COMMUNICATION-CONTROLLER-VARIANTS/FLEXRAY-COMMUNICATION-CONTROLLER-CONDITIONAL")
       [RPut "setSecondKeySlotId" (VLeafX RInteger (PLit "SECOND-KEY-SLOT-ID"))]
       [];
     RFind (PLit "FLEXRAY-COMMUNICATION-CONTROLLER-VARIANTS/FLEXRAY-COMMUNICATION-CONTROLLER-CONDITIONAL")
       [RPut "setTwoKeySlotMode" (VLeafX RBool (PLit "TWO-KEY-SLOT-MODE"))]
       [];
     RFind (PLit "FLEXRAY-COMMUNICATION-CONTROLLER-VARIANTS/FLEXRAY-COMMUNICATION-CONTROLLER-CONDITIONAL")
       [RPut "setWakeUpPattern" (VLeafX RInteger (PLit "WAKE-UP-PATTERN"))]
       []],
   None).
(** arxml_parser.py:7185-7187 *)
Definition r_readDataTransformationTransformerChainRefs : list ri * option vx :=
  ([RForVal (VLeafsX RRef (PLit "TRANSFORMER-CHAIN-REFS/TRANSFORMER-CHAIN-REF"))
       [RPut "addTransformerChainRef" VItemX]],
   None).
(** arxml_parser.py:7189-7193 *)
Definition r_readDataTransformation : list ri * option vx :=
  ([RCall "readIdentifiable" None;
     RPut "setDataTransformationKind" (VLeafX RLiteral (PLit "DATA-TRANSFORMATION-KIND"));
     RPut "setExecuteDespiteDataUnavailability" (VLeafX RBool (PLit "EXECUTE-DESPITE-DATA-UNAVAILABILITY"));
     RCall "readDataTransformationTransformerChainRefs" None],
   None).
(** arxml_parser.py:7195-7202 *)
Definition r_readDataTransformationSetDataTransformations : list ri * option vx :=
  ([RFor (PLit "DATA-TRANSFORMATIONS/*")
       [RIf (CTag "DATA-TRANSFORMATION")
          [RCreate "createDataTransformation" true
             [RCall "readDataTransformation" None]]
          [RFail NotImplementedError true]]],
   None).
(** arxml_parser.py:7204-7211 *)
Definition r_getBufferProperties : list ri * option vx :=
  ([],
   Some (VFindX PKey (VNewX "BufferProperties" false [RPut "setHeaderLength" (VLeafX RInteger (PLit "HEADER-LENGTH"));
       RPut "setInPlace" (VLeafX RBool (PLit "IN-PLACE"))]) VNoneX)).
(** arxml_parser.py:7213-7219 *)
Definition r_readDescribable : list ri * option vx :=
  ([RAttrs;
     RPut "setDesc" (VGetX "getMultiLanguageOverviewParagraph" (Some (TLit "DESC")));
     RPut "setCategory" (VLeafX RLiteral (PLit "CATEGORY"));
     RPut "setIntroduction" (VGetX "getDocumentationBlock" (Some (TLit "INTRODUCTION")));
     RPut "setAdminData" (VGetX "getAdminData" (Some (TLit "ADMIN-DATA")))],
   None).
(** arxml_parser.py:7221-7222 *)
Definition r_readTransformationDescription : list ri * option vx :=
  ([RCall "readDescribable" None],
   None).
(** arxml_parser.py:7224-7247 *)
Definition r_readEndToEndTransformationDescription : list ri * option vx :=
  ([RCall "readTransformationDescription" None;
     RPut "setClearFromValidToInvalid" (VLeafX RBool (PLit "CLEAR-FROM-VALID-TO-INVALID"));
     RPut "setCounterOffset" (VLeafX RPositive (PLit "COUNTER-OFFSET"));
     RPut "setCrcOffset" (VLeafX RPositive (PLit "CRC-OFFSET"));
     RPut "setDataIdMode" (VLeafX RLiteral (PLit "DATA-ID-MODE"));
     RPut "setDataIdNibbleOffset" (VLeafX RPositive (PLit "DATA-ID-NIBBLE-OFFSET"));
     RPut "setE2eProfileCompatibilityPropsRef" (VLeafX RRef (PLit "E-2-E-PROFILE-COMPATIBILITY-PROPS-REF"));
     RPut "setMaxDeltaCounter" (VLeafX RPositive (PLit "MAX-DELTA-COUNTER"));
     RPut "setMaxErrorStateInit" (VLeafX RPositive (PLit "MAX-ERROR-STATE-INIT"));
     RPut "setMaxErrorStateInvalid" (VLeafX RPositive (PLit "MAX-ERROR-STATE-INVALID"));
     RPut "setMaxErrorStateValid" (VLeafX RPositive (PLit "MAX-ERROR-STATE-VALID"));
     RPut "setMaxNoNewOrRepeatedData" (VLeafX RPositive (PLit "MAX-NO-NEW-OR-REPEATED-DATA"));
     RPut "setMinOkStateInit" (VLeafX RPositive (PLit "MIN-OK-STATE-INIT"));
     RPut "setMinOkStateInvalid" (VLeafX RPositive (PLit "MIN-OK-STATE-INVALID"));
     RPut "setMinOkStateValid" (VLeafX RPositive (PLit "MIN-OK-STATE-VALID"));
     RPut "setOffset" (VLeafX RPositive (PLit "OFFSET"));
     RPut "setProfileBehavior" (VLeafX RLiteral (PLit "PROFILE-BEHAVIOR"));
     RPut "setProfileName" (VLeafX RLiteral (PLit "PROFILE-NAME"));
     RPut "setSyncCounterInit" (VLeafX RPositive (PLit "SYNC-COUNTER-INIT"));
     RPut "setUpperHeaderBitsToShift" (VLeafX RPositive (PLit "UPPER-HEADER-BITS-TO-SHIFT"));
     RPut "setWindowSizeInit" (VLeafX RPositive (PLit "WINDOW-SIZE-INIT"));
     RPut "setWindowSizeInvalid" (VLeafX RPositive (PLit "WINDOW-SIZE-INVALID"));
     RPut "setWindowSizeValid" (VLeafX RPositive (PLit "WINDOW-SIZE-VALID"))],
   None).
(** arxml_parser.py:7249-7257 *)
Definition r_readTransformationTechnologyTransformationDescriptions : list ri * option vx :=
  ([RFor (PLit "TRANSFORMATION-DESCRIPTIONS/*")
       [RIf (CTag "END-TO-END-TRANSFORMATION-DESCRIPTION")
          [RPut "setTransformationDescription" (VNewX "EndToEndTransformationDescription" false [RCall "readEndToEndTransformationDescription" None])]
          [RFail NotImplementedError true]]],
   None).
(** arxml_parser.py:7259-7267 *)
Definition r_readTransformationTechnology : list ri * option vx :=
  ([RCall "readIdentifiable" None;
     RPut "setBufferProperties" (VGetX "getBufferProperties" (Some (TLit "BUFFER-PROPERTIES")));
     RPut "setHasInternalState" (VLeafX RBool (PLit "HAS-INTERNAL-STATE"));
     RPut "setNeedsOriginalData" (VLeafX RBool (PLit "NEEDS-ORIGINAL-DATA"));
     RPut "setProtocol" (VLeafX RLiteral (PLit "PROTOCOL"));
     RCall "readTransformationTechnologyTransformationDescriptions" None;
     RPut "setTransformerClass" (VLeafX RLiteral (PLit "TRANSFORMER-CLASS"));
     RPut "setVersion" (VLeafX RLiteral (PLit "VERSION"))],
   None).
(** arxml_parser.py:7269-7276 *)
Definition r_readDataTransformationSetTransformationTechnologies : list ri * option vx :=
  ([RFor (PLit "TRANSFORMATION-TECHNOLOGYS/*")
       [RIf (CTag "TRANSFORMATION-TECHNOLOGY")
          [RCreate "createTransformationTechnology" true
             [RCall "readTransformationTechnology" None]]
          [RFail NotImplementedError true]]],
   None).
(** arxml_parser.py:7278-7282 *)
Definition r_readDataTransformationSet : list ri * option vx :=
  ([RCall "readARElement" None;
     RCall "readDataTransformationSetDataTransformations" None;
     RCall "readDataTransformationSetTransformationTechnologies" None],
   None).
(** arxml_parser.py:7284-7287 *)
Definition r_readE2EProfileCompatibilityProps : list ri * option vx :=
  ([RCall "readARElement" None;
     RPut "setTransitToInvalidExtended" (VLeafX RBool (PLit "TRANSIT-TO-INVALID-EXTENDED"))],
   None).
(** arxml_parser.py:7289-7291 *)
Definition r_readCollectionElementRefs : list ri * option vx :=
  ([RForVal (VLeafsX RRef (PLit "ELEMENT-REFS/ELEMENT-REF"))
       [RPut "addElementRef" VItemX]],
   None).
(** arxml_parser.py:7293-7295 *)
Definition r_readCollectionSourceElementRefs : list ri * option vx :=
  ([RForVal (VLeafsX RRef (PLit "SOURCE-ELEMENT-REFS/SOURCE-ELEMENT-REF"))
       [RPut "addSourceElementRef" VItemX]],
   None).
(** arxml_parser.py:7297-7303 *)
Definition r_readCollection : list ri * option vx :=
  ([RCall "readARElement" None;
     RPut "setAutoCollect" (VLeafX RLiteral (PLit "AUTO-COLLECT"));
     RPut "setElementRole" (VLeafX RLiteral (PLit "ELEMENT-ROLE"));
     RCall "readCollectionElementRefs" None;
     RCall "readCollectionSourceElementRefs" None],
   None).
(** arxml_parser.py:7305-7307 *)
Definition r_readKeywordClassifications : list ri * option vx :=
  ([RForVal (VLeafsX RLitItem (PLit "CLASSIFICATIONS/CLASSIFICATION"))
       [RPut "addClassification" VItemX]],
   None).
(** arxml_parser.py:7309-7313 *)
Definition r_readKeyword : list ri * option vx :=
  ([RCall "readIdentifiable" None;
     RPut "setAbbrName" (VLeafX RLiteral (PLit "ABBR-NAME"));
     RCall "readKeywordClassifications" None],
   None).
(** arxml_parser.py:7315-7322 *)
Definition r_readKeywordSetKeywords : list ri * option vx :=
  ([RFor (PLit "KEYWORDS/*")
       [RIf (CTag "KEYWORD")
          [RCreate "createKeyword" true
             [RCall "readKeyword" None]]
          [RFail NotImplementedError true]]],
   None).
(** arxml_parser.py:7324-7327 *)
Definition r_readKeywordSet : list ri * option vx :=
  ([RCall "readARElement" None;
     RCall "readKeywordSetKeywords" None],
   None).
(** arxml_parser.py:7329-7332 *)
Definition r_readPortPrototypeBlueprint : list ri * option vx :=
  ([RCall "readARElement" None;
     RPut "setInterfaceRef" (VLeafX RRef (PLit "INTERFACE-REF"))],
   None).
(** arxml_parser.py:7334-7336 *)
Definition r_readModeDeclarationMappingFirstModeRefs : list ri * option vx :=
  ([RForVal (VLeafsX RRef (PLit "FIRST-MODE-REFS/FIRST-MODE-REF"))
       [RPut "addFirstModeRef" VItemX]],
   None).
(** arxml_parser.py:7338-7342 *)
Definition r_readModeDeclarationMapping : list ri * option vx :=
  ([RCall "readIdentifiable" None;
     RCall "readModeDeclarationMappingFirstModeRefs" None;
     RPut "setSecondModeRef" (VLeafX RRef (PLit "SECOND-MODE-REF"))],
   None).
(** arxml_parser.py:7344-7351 *)
Definition r_readModeDeclarationMappingSetModeDeclarationMappings : list ri * option vx :=
  ([RFor (PLit "MODE-DECLARATION-MAPPINGS/*")
       [RIf (CTag "MODE-DECLARATION-MAPPING")
          [RCreate "createModeDeclarationMapping" true
             [RCall "readModeDeclarationMapping" None]]
          [RFail NotImplementedError true]]],
   None).
(** arxml_parser.py:7353-7356 *)
Definition r_readModeDeclarationMappingSet : list ri * option vx :=
  ([RCall "readARElement" None;
     RCall "readModeDeclarationMappingSetModeDeclarationMappings" None],
   None).
(** arxml_parser.py:7358-7364 *)
Definition r_readEcucDefinitionElement : list ri * option vx :=
  ([RCall "readIdentifiable" None;
     RPut "setEcucCond" (VGetX "readEcucConditionSpecification" None);
     RCall "readEcucValidationConditions" None;
     RPut "setLowerMultiplicity" (VLeafX RPositive (PLit "LOWER-MULTIPLICITY"));
     RPut "setUpperMultiplicity" (VLeafX RPositive (PLit "UPPER-MULTIPLICITY"));
     RPut "setScope" (VLeafX RLiteral (PLit "SCOPE"))],
   None).
(** arxml_parser.py:7366-7368 *)
Definition r_readEcucModuleDefSupportedConfigVariants : list ri * option vx :=
  ([RForVal (VLeafsX RLitItem (PLit "SUPPORTED-CONFIG-VARIANTS/SUPPORTED-CONFIG-VARIANT"))
       [RPut "addSupportedConfigVariant" VItemX]],
   None).
(** arxml_parser.py:7370-7373 *)
Definition r_readEcucAbstractConfigurationClass : list ri * option vx :=
  ([RAttrs;
     RPut "setConfigClass" (VLeafX RLiteral (PLit "CONFIG-CLASS"));
     RPut "setConfigVariant" (VLeafX RLiteral (PLit "CONFIG-VARIANT"))],
   None).
(** arxml_parser.py:7375-7376 *)
Definition r_readEcucMultiplicityConfigurationClass : list ri * option vx :=
  ([RCall "readEcucAbstractConfigurationClass" None],
   None).
(** arxml_parser.py:7378-7388 *)
Definition r_getEcucMultiplicityConfigurationClasses : list ri * option vx :=
  ([RFor (PLit "MULTIPLICITY-CONFIG-CLASSES/*")
       [RIf (CTag "ECUC-MULTIPLICITY-CONFIGURATION-CLASS")
          []
          [RFail NotImplementedError true]]],
   Some (VListX [RFor (PLit "MULTIPLICITY-CONFIG-CLASSES/*")
        [RIf (CTag "ECUC-MULTIPLICITY-CONFIGURATION-CLASS")
           [RPut "append" (VNewX "EcucMultiplicityConfigurationClass" false [RCall "readEcucMultiplicityConfigurationClass" None])]
           []]])).
(** arxml_parser.py:7390-7402 *)
Definition r_readEcucContainerDef : list ri * option vx :=
  ([RCall "readEcucDefinitionElement" None;
     RForVal (VGetX "getEcucDestinationUriRefs" None)
       [RPut "addDestinationUriRef" VItemX];
     RForVal (VGetX "getEcucMultiplicityConfigurationClasses" None)
       [RPut "addMultiplicityConfigClass" VItemX];
     RPut "setPostBuildVariantMultiplicity" (VLeafX RBool (PLit "POST-BUILD-VARIANT-MULTIPLICITY"));
     RPut "setRequiresIndex" (VLeafX RBool (PLit "REQUIRES-INDEX"));
     RIf (CGot (VLeafX RLiteral (PLit "ORIGIN")))
       [RPut "setOrigin" (VWrapX "String" "setValue" (VValueX (VLeafX RLiteral (PLit "ORIGIN"))))]
       []],
   None).
(** arxml_parser.py:7404-7418 *)
Definition r_getEcucDestinationUriRefs : list ri * option vx :=
  ([RFor (PLit "DESTINATION-URI-REFS/*")
       [RIf (CTag "DESTINATION-URI-REF")
          []
          [RFail NotImplementedError true]]],
   Some (VListX [RFor (PLit "DESTINATION-URI-REFS/*")
        [RIf (CTag "DESTINATION-URI-REF")
           [RPut "append" (VNewX "EcucDestinationUriDefRefType" false [RIf (CHasAttr "BASE")
                  [RPut "setBase" (VAttrX "BASE")]
                  [];
                RIf (CHasAttr "DEST")
                  [RPut "setDest" (VAttrX "DEST")]
                  [];
                RPut "setValue" VTextX])]
           []]])).
(** arxml_parser.py:7420-7428 *)
Definition r_readEcucDestinationUriDefSet : list ri * option vx :=
  ([RFor (PLit "DESTINATION-URI-DEFS/*")
       [RIf (CTag "ECUC-DESTINATION-URI-DEF")
          [RCreate "createEcucDestinationUriDef" true
             [RCall "readEcucDestinationUriDef" None]]
          [RFail NotImplementedError true]]],
   None).
(** arxml_parser.py:7430-7437 *)
Definition r_readEcucDestinationUriDef : list ri * option vx :=
  ([RCall "readIdentifiable" None;
     RFind (PLit "DESTINATION-URI-POLICY")
       [RPut "setDestinationUriPolicy" (VNewX "EcucDestinationUriPolicy" false [RCall "readEcucDestinationUriPolicy" None])]
       []],
   None).
(** arxml_parser.py:7439-7448 *)
Definition r_readEcucDestinationUriPolicy : list ri * option vx :=
  ([RAttrs;
     RCall "readEcucDestinationUriPolicyContainers" None;
     RIf (CGot (VLeafX RLiteral (PLit "DESTINATION-URI-NESTING-CONTRACT")))
       [RPut "setDestinationUriNestingContract" (VWrapX "EcucDestinationUriNestingContractEnum" "setValue" (VLeafX RLiteral (PLit "DESTINATION-URI-NESTING-CONTRACT")))]
       [];
     RCall "readEcucDestinationUriPolicyParameters" None;
     RCall "readEcucDestinationUriPolicyReferences" None],
   None).
(** arxml_parser.py:7450-7462 *)
Definition r_readEcucDestinationUriPolicyContainers : list ri * option vx :=
  ([RFor (PLit "CONTAINERS/*")
       [RIf (CTag "ECUC-PARAM-CONF-CONTAINER-DEF")
          [RPut "addContainer" (VNewX "EcucParamConfContainerDef" true [RCall "readEcucParamConfContainerDef" None])]
          [RIf (CTag "ECUC-CHOICE-CONTAINER-DEF")
             [RPut "addContainer" (VNewX "EcucChoiceContainerDef" true [RCall "readEcucChoiceContainerDef" None])]
             [RFail NotImplementedError true]]]],
   None).
(** arxml_parser.py:7464-7496 *)
Definition r_readEcucDestinationUriPolicyParameters : list ri * option vx :=
  ([RFor (PLit "PARAMETERS/*")
       [RIf (CTag "ECUC-BOOLEAN-PARAM-DEF")
          [RPut "addParameter" (VNewX "EcucBooleanParamDef" true [RCall "readEcucBooleanParamDef" None])]
          [RIf (CTag "ECUC-STRING-PARAM-DEF")
             [RPut "addParameter" (VNewX "EcucStringParamDef" true [RCall "readEcucStringParamDef" None])]
             [RIf (CTag "ECUC-INTEGER-PARAM-DEF")
                [RPut "addParameter" (VNewX "EcucIntegerParamDef" true [RCall "readEcucIntegerParamDef" None])]
                [RIf (CTag "ECUC-FLOAT-PARAM-DEF")
                   [RPut "addParameter" (VNewX "EcucFloatParamDef" true [RCall "readEcucFloatParamDef" None])]
                   [RIf (CTag "ECUC-ENUMERATION-PARAM-DEF")
                      [RPut "addParameter" (VNewX "EcucEnumerationParamDef" true [RCall "readEcucEnumerationParamDef" None])]
                      [RIf (CTag "ECUC-FUNCTION-NAME-DEF")
                         [RPut "addParameter" (VNewX "EcucFunctionNameDef" true [RCall "readEcucFunctionNameDef" None])]
                         [RIf (CTag "ECUC-MULTILINE-STRING-PARAM-DEF")
                            [RPut "addParameter" (VNewX "EcucMultilineStringParamDef" true [RCall "readEcucMultilineStringParamDef" None])]
                            [RFail NotImplementedError true]]]]]]]]],
   None).
(** arxml_parser.py:7498-7518 *)
Definition r_readEcucDestinationUriPolicyReferences : list ri * option vx :=
  ([RFor (PLit "REFERENCES/*")
       [RIf (CTag "ECUC-SYMBOLIC-NAME-REFERENCE-DEF")
          [RPut "addReference" (VNewX "EcucSymbolicNameReferenceDef" true [RCall "readEcucSymbolicNameReferenceDef" None])]
          [RIf (CTag "ECUC-REFERENCE-DEF")
             [RPut "addReference" (VNewX "EcucReferenceDef" true [RCall "readEcucReferenceDef" None])]
             [RIf (CTag "ECUC-CHOICE-REFERENCE-DEF")
                [RPut "addReference" (VNewX "EcucChoiceReferenceDef" true [RCall "readEcucChoiceReferenceDef" None])]
                [RIf (CTag "ECUC-INSTANCE-REFERENCE-DEF")
                   [RPut "addReference" (VNewX "EcucInstanceReferenceDef" true [RCall "readEcucInstanceReferenceDef" None])]
                   [RFail NotImplementedError true]]]]]],
   None).
(** arxml_parser.py:7520-7521 *)
Definition r_readEcucValueConfigurationClass : list ri * option vx :=
  ([RCall "readEcucAbstractConfigurationClass" None],
   None).
(** arxml_parser.py:7523-7533 *)
Definition r_getEcucValueConfigurationClasses : list ri * option vx :=
  ([RFor (PLit "VALUE-CONFIG-CLASSES/*")
       [RIf (CTag "ECUC-VALUE-CONFIGURATION-CLASS")
          []
          [RFail NotImplementedError true]]],
   Some (VListX [RFor (PLit "VALUE-CONFIG-CLASSES/*")
        [RIf (CTag "ECUC-VALUE-CONFIGURATION-CLASS")
           [RPut "append" (VNewX "EcucValueConfigurationClass" false [RCall "readEcucValueConfigurationClass" None])]
           []]])).
(** arxml_parser.py:7535-7544 *)
Definition r_readEcucCommonAttributes : list ri * option vx :=
  ([RCall "readEcucDefinitionElement" None;
     RForVal (VGetX "getEcucMultiplicityConfigurationClasses" None)
       [RPut "addMultiplicityConfigClass" VItemX];
     RPut "setOrigin" (VLeafX RLiteral (PLit "ORIGIN"));
     RPut "setPostBuildVariantMultiplicity" (VLeafX RBool (PLit "POST-BUILD-VARIANT-MULTIPLICITY"));
     RPut "setPostBuildVariantValue" (VLeafX RBool (PLit "POST-BUILD-VARIANT-VALUE"));
     RPut "setRequiresIndex" (VLeafX RBool (PLit "REQUIRES-INDEX"));
     RForVal (VGetX "getEcucValueConfigurationClasses" None)
       [RPut "addValueConfigClass" VItemX]],
   None).
(** arxml_parser.py:7546-7550 *)
Definition r_readEcucParameterDef : list ri * option vx :=
  ([RCall "readEcucCommonAttributes" None;
     RPut "setDerivation" (VGetX "readEcucDerivationSpecification" None);
     RPut "setSymbolicNameValue" (VLeafX RBool (PLit "SYMBOLIC-NAME-VALUE"));
     RPut "setWithAuto" (VLeafX RBool (PLit "WITH-AUTO"))],
   None).
(** arxml_parser.py:7552-7564 *)
Definition r_readEcucDerivationSpecification : list ri * option vx :=
  ([],
   Some (VFindX (PLit "DERIVATION") (VNewX "EcucDerivationSpecification" false [RFind (PLit "CALCULATION-FORMULA")
         [RPut "setCalculationFormula" (VGetX "readEcucParameterDerivationFormula" None)]
         [];
       RFor (PLit "ECUC-QUERYS/ECUC-QUERY")
         [RCreate "createEcucQuery" true
            [RCall "readEcucQuery" None]];
       RPut "setInformalFormula" (VGetX "getMlFormula" (Some (TLit "INFORMAL-FORMULA")))]) VNoneX)).
(** arxml_parser.py:7566-7570 *)
Definition r_readEcucParameterDerivationFormula : list ri * option vx :=
  ([],
   Some (VNewX "EcucParameterDerivationFormula" false [RPut "setEcucQueryRef" (VLeafX RRef (PLit "ECUC-QUERY-REF"));
      RPut "setEcucQueryStringRef" (VLeafX RRef (PLit "ECUC-QUERY-STRING-REF"))])).
(** arxml_parser.py:7572-7576 *)
Definition r_readEcucConditionFormula : list ri * option vx :=
  ([],
   Some (VNewX "EcucConditionFormula" false [RPut "setEcucQueryRef" (VLeafX RRef (PLit "ECUC-QUERY-REF"));
      RPut "setEcucQueryStringRef" (VLeafX RRef (PLit "ECUC-QUERY-STRING-REF"))])).
(** arxml_parser.py:7578-7590 *)
Definition r_readEcucConditionSpecification : list ri * option vx :=
  ([],
   Some (VFindX (PLit "ECUC-COND") (VNewX "EcucConditionSpecification" false [RFind (PLit "CONDITION-FORMULA")
         [RPut "setConditionFormula" (VGetX "readEcucConditionFormula" None)]
         [];
       RFor (PLit "ECUC-QUERYS/ECUC-QUERY")
         [RCreate "createEcucQuery" true
            [RCall "readEcucQuery" None]];
       RPut "setInformalFormula" (VGetX "getMlFormula" (Some (TLit "INFORMAL-FORMULA")))]) VNoneX)).
(** arxml_parser.py:7592-7601 *)
Definition r_readEcucValidationCondition : list ri * option vx :=
  ([],
   Some (VNewX "EcucValidationCondition" true [RCall "readIdentifiable" None;
      RFor (PLit "ECUC-QUERYS/ECUC-QUERY")
        [RCreate "createEcucQuery" true
           [RCall "readEcucQuery" None]];
      RFind (PLit "VALIDATION-FORMULA")
        [RPut "setValidationFormula" (VGetX "readEcucConditionFormula" None)]
        []])).
(** arxml_parser.py:7603-7606 *)
Definition r_readEcucValidationConditions : list ri * option vx :=
  ([RFor (PLit "ECUC-VALIDATION-CONDS/ECUC-VALIDATION-CONDITION")
       [RPut "addEcucValidationCond" (VGetX "readEcucValidationCondition" None)]],
   None).
(** arxml_parser.py:7608-7615 *)
Definition r_readEcucQuery : list ri * option vx :=
  ([RCall "readIdentifiable" None;
     RFind (PLit "ECUC-QUERY-EXPRESSION")
       [RPut "setEcucQueryExpression" (VNewX "EcucQueryExpression" false [RPut "setConfigElementDefGlobalRef" (VLeafX RRef (PLit "CONFIG-ELEMENT-DEF-GLOBAL-REF"));
            RPut "setConfigElementDefLocalRef" (VLeafX RRef (PLit "CONFIG-ELEMENT-DEF-LOCAL-REF"))])]
       []],
   None).
(** arxml_parser.py:7617-7619 *)
Definition r_readEcucBooleanParamDef : list ri * option vx :=
  ([RCall "readEcucParameterDef" None;
     RPut "setDefaultValue" (VLeafX RBool (PLit "DEFAULT-VALUE"))],
   None).
(** arxml_parser.py:7621-7626 *)
Definition r_readEcucAbstractStringParamDef : list ri * option vx :=
  ([RCall "readEcucParameterDef" None;
     RPut "setDefaultValue" (VLeafX RLiteral (PLit "DEFAULT-VALUE"));
     RPut "setMaxLength" (VLeafX RInteger (PLit "MAX-LENGTH"));
     RPut "setMinLength" (VLeafX RInteger (PLit "MIN-LENGTH"));
     RPut "setRegularExpression" (VLeafX RLiteral (PLit "REGULAR-EXPRESSION"))],
   None).
(** arxml_parser.py:7628-7635 *)
Definition r_readEcucStringParamDef : list ri * option vx :=
  ([RCall "readEcucParameterDef" None;
     RFind (PLit "ECUC-STRING-PARAM-DEF-VARIANTS/ECUC-STRING-PARAM-DEF-CONDITIONAL")
       [RPut "setDefaultValue" (VLeafX RLiteral (PLit "DEFAULT-VALUE"));
        RPut "setMinLength" (VLeafX RInteger (PLit "MIN-LENGTH"));
        RPut "setMaxLength" (VLeafX RInteger (PLit "MAX-LENGTH"));
        RPut "setRegularExpression" (VLeafX RLiteral (PLit "REGULAR-EXPRESSION"))]
       []],
   None).
(** arxml_parser.py:7637-7644 *)
Definition r_readEcucMultilineStringParamDef : list ri * option vx :=
  ([RCall "readEcucParameterDef" None;
     RFind (PLit "ECUC-MULTILINE-STRING-PARAM-DEF-VARIANTS/ECUC-MULTILINE-STRING-PARAM-DEF-CONDITIONAL")
       [RPut "setDefaultValue" (VLeafX RLiteral (PLit "DEFAULT-VALUE"));
        RPut "setMinLength" (VLeafX RInteger (PLit "MIN-LENGTH"));
        RPut "setMaxLength" (VLeafX RInteger (PLit "MAX-LENGTH"));
        RPut "setRegularExpression" (VLeafX RLiteral (PLit "REGULAR-EXPRESSION"))]
       []],
   None).
(** arxml_parser.py:7646-7650 *)
Definition r_readEcucIntegerParamDef : list ri * option vx :=
  ([RCall "readEcucParameterDef" None;
     RPut "setDefaultValue" (VLeafX RInteger (PLit "DEFAULT-VALUE"));
     RPut "setMax" (VLeafX RInteger (PLit "MAX"));
     RPut "setMin" (VLeafX RInteger (PLit "MIN"))],
   None).
(** arxml_parser.py:7652-7656 *)
Definition r_readEcucFloatParamDef : list ri * option vx :=
  ([RCall "readEcucParameterDef" None;
     RPut "setDefaultValue" (VLeafX RFloat (PLit "DEFAULT-VALUE"));
     RPut "setMax" (VLeafX RLimit (PLit "MAX"));
     RPut "setMin" (VLeafX RLimit (PLit "MIN"))],
   None).
(** arxml_parser.py:7658-7660 *)
Definition r_readEcucEnumerationLiteral : list ri * option vx :=
  ([RCall "readIdentifiable" None;
     RPut "setOrigin" (VLeafX RLiteral (PLit "ORIGIN"))],
   None).
(** arxml_parser.py:7662-7669 *)
Definition r_readEcucEnumerationParamDefLiterals : list ri * option vx :=
  ([RFor (PLit "LITERALS/*")
       [RIf (CTag "ECUC-ENUMERATION-LITERAL-DEF")
          [RCreate "createLiteral" true
             [RCall "readEcucEnumerationLiteral" None]]
          [RFail NotImplementedError true]]],
   None).
(** arxml_parser.py:7671-7674 *)
Definition r_readEcucEnumerationParamDef : list ri * option vx :=
  ([RCall "readEcucParameterDef" None;
     RPut "setDefaultValue" (VLeafX RLiteral (PLit "DEFAULT-VALUE"));
     RCall "readEcucEnumerationParamDefLiterals" None],
   None).
(** arxml_parser.py:7676-7683 *)
Definition r_readEcucFunctionNameDef : list ri * option vx :=
  ([RCall "readEcucParameterDef" None;
     RFind (PLit "ECUC-FUNCTION-NAME-DEF-VARIANTS/ECUC-FUNCTION-NAME-DEF-CONDITIONAL")
       [RPut "setDefaultValue" (VLeafX RLiteral (PLit "DEFAULT-VALUE"));
        RPut "setMinLength" (VLeafX RInteger (PLit "MIN-LENGTH"));
        RPut "setMaxLength" (VLeafX RInteger (PLit "MAX-LENGTH"));
        RPut "setRegularExpression" (VLeafX RLiteral (PLit "REGULAR-EXPRESSION"))]
       []],
   None).
(** arxml_parser.py:7685-7710 *)
Definition r_readEcucContainerDefParameters : list ri * option vx :=
  ([RFor (PLit "PARAMETERS/*")
       [RIf (CTag "ECUC-BOOLEAN-PARAM-DEF")
          [RCreate "createEcucBooleanParamDef" true
             [RCall "readEcucBooleanParamDef" None]]
          [RIf (CTag "ECUC-STRING-PARAM-DEF")
             [RCreate "createEcucStringParamDef" true
                [RCall "readEcucStringParamDef" None]]
             [RIf (CTag "ECUC-INTEGER-PARAM-DEF")
                [RCreate "createEcucIntegerParamDef" true
                   [RCall "readEcucIntegerParamDef" None]]
                [RIf (CTag "ECUC-FLOAT-PARAM-DEF")
                   [RCreate "createEcucFloatParamDef" true
                      [RCall "readEcucFloatParamDef" None]]
                   [RIf (CTag "ECUC-ENUMERATION-PARAM-DEF")
                      [RCreate "createEcucEnumerationParamDef" true
                         [RCall "readEcucEnumerationParamDef" None]]
                      [RIf (CTag "ECUC-FUNCTION-NAME-DEF")
                         [RCreate "createEcucFunctionNameDef" true
                            [RCall "readEcucFunctionNameDef" None]]
                         [RIf (CTag "ECUC-MULTILINE-STRING-PARAM-DEF")
                            [RCreate "createEcucMultilineStringParamDef" true
                               [RCall "readEcucMultilineStringParamDef" None]]
                            [RFail NotImplementedError true]]]]]]]]],
   None).
(** arxml_parser.py:7712-7714 *)
Definition r_readEcucAbstractReferenceDef : list ri * option vx :=
  ([RCall "readEcucCommonAttributes" None;
     RPut "setWithAuto" (VLeafX RBool (PLit "WITH-AUTO"))],
   None).
(** arxml_parser.py:7716-7718 *)
Definition r_readEcucAbstractInternalReferenceDef : list ri * option vx :=
  ([RCall "readEcucAbstractReferenceDef" None;
     RPut "setRequiresSymbolicNameValue" (VLeafX RBool (PLit "REQUIRES-SYMBOLIC-NAME-VALUE"))],
   None).
(** arxml_parser.py:7720-7721 *)
Definition r_readEcucAbstractExternalReferenceDef : list ri * option vx :=
  ([RCall "readEcucAbstractReferenceDef" None],
   None).
(** arxml_parser.py:7723-7725 *)
Definition r_readEcucSymbolicNameReferenceDef : list ri * option vx :=
  ([RCall "readEcucAbstractInternalReferenceDef" None;
     RPut "setDestinationRef" (VLeafX RRef (PLit "DESTINATION-REF"))],
   None).
(** arxml_parser.py:7727-7729 *)
Definition r_readEcucReferenceDef : list ri * option vx :=
  ([RCall "readEcucAbstractInternalReferenceDef" None;
     RPut "setDestinationRef" (VLeafX RRef (PLit "DESTINATION-REF"))],
   None).
(** arxml_parser.py:7731-7734 *)
Definition r_readEcucChoiceReferenceDef : list ri * option vx :=
  ([RCall "readEcucAbstractInternalReferenceDef" None;
     RForVal (VLeafsX RRef (PLit "DESTINATION-REFS/DESTINATION-REF"))
       [RPut "addDestinationRef" VItemX]],
   None).
(** arxml_parser.py:7736-7739 *)
Definition r_readEcucInstanceReferenceDef : list ri * option vx :=
  ([RCall "readEcucAbstractExternalReferenceDef" None;
     RPut "setDestinationContext" (VLeafX RLiteral (PLit "DESTINATION-CONTEXT"));
     RPut "setDestinationType" (VLeafX RLiteral (PLit "DESTINATION-TYPE"))],
   None).
(** arxml_parser.py:7741-7757 *)
Definition r_readEcucContainerDefReferences : list ri * option vx :=
  ([RFor (PLit "REFERENCES/*")
       [RIf (CTag "ECUC-SYMBOLIC-NAME-REFERENCE-DEF")
          [RCreate "createEcucSymbolicNameReferenceDef" true
             [RCall "readEcucSymbolicNameReferenceDef" None]]
          [RIf (CTag "ECUC-REFERENCE-DEF")
             [RCreate "createEcucReferenceDef" true
                [RCall "readEcucReferenceDef" None]]
             [RIf (CTag "ECUC-CHOICE-REFERENCE-DEF")
                [RCreate "createEcucChoiceReferenceDef" true
                   [RCall "readEcucChoiceReferenceDef" None]]
                [RIf (CTag "ECUC-INSTANCE-REFERENCE-DEF")
                   [RCreate "createEcucInstanceReferenceDef" true
                      [RCall "readEcucInstanceReferenceDef" None]]
                   [RFail NotImplementedError true]]]]]],
   None).
(** arxml_parser.py:7759-7769 *)
Definition r_readEcucContainerDefSubContainers : list ri * option vx :=
  ([RFor (PLit "SUB-CONTAINERS/*")
       [RIf (CTag "ECUC-PARAM-CONF-CONTAINER-DEF")
          [RCreate "createEcucParamConfContainerDef" true
             [RCall "readEcucParamConfContainerDef" None]]
          [RIf (CTag "ECUC-CHOICE-CONTAINER-DEF")
             [RCreate "createEcucChoiceContainerDef" true
                [RCall "readEcucChoiceContainerDef" None]]
             [RFail NotImplementedError true]]]],
   None).
(** arxml_parser.py:7771-7775 *)
Definition r_readEcucParamConfContainerDef : list ri * option vx :=
  ([RCall "readEcucContainerDef" None;
     RCall "readEcucContainerDefParameters" None;
     RCall "readEcucContainerDefReferences" None;
     RCall "readEcucContainerDefSubContainers" None],
   None).
(** arxml_parser.py:7777-7784 *)
Definition r_readEcucChoiceContainerDefChoices : list ri * option vx :=
  ([RFor (PLit "CHOICES/*")
       [RIf (CTag "ECUC-PARAM-CONF-CONTAINER-DEF")
          [RCreate "createEcucParamConfContainerDef" true
             [RCall "readEcucParamConfContainerDef" None]]
          [RFail NotImplementedError true]]],
   None).
(** arxml_parser.py:7786-7788 *)
Definition r_readEcucChoiceContainerDef : list ri * option vx :=
  ([RCall "readEcucContainerDef" None;
     RCall "readEcucChoiceContainerDefChoices" None],
   None).
(** arxml_parser.py:7790-7800 *)
Definition r_readEcucModuleDefContainers : list ri * option vx :=
  ([RFor (PLit "CONTAINERS/*")
       [RIf (CTag "ECUC-PARAM-CONF-CONTAINER-DEF")
          [RCreate "createEcucParamConfContainerDef" true
             [RCall "readEcucParamConfContainerDef" None]]
          [RIf (CTag "ECUC-CHOICE-CONTAINER-DEF")
             [RCreate "createEcucChoiceContainerDef" true
                [RCall "readEcucChoiceContainerDef" None]]
             [RFail NotImplementedError true]]]],
   None).
(** arxml_parser.py:7802-7809 *)
Definition r_readEcucModuleDef : list ri * option vx :=
  ([RCall "readEcucDefinitionElement" None;
     RPut "setApiServicePrefix" (VLeafX RLiteral (PLit "API-SERVICE-PREFIX"));
     RPut "setPostBuildVariantSupport" (VLeafX RBool (PLit "POST-BUILD-VARIANT-SUPPORT"));
     RPut "setRefinedModuleDefRef" (VLeafX RRef (PLit "REFINED-MODULE-DEF-REF"));
     RCall "readEcucModuleDefSupportedConfigVariants" None;
     RCall "readEcucModuleDefContainers" None],
   None).
(** arxml_parser.py:7811-7816 *)
Definition r_readEcucDefinitionCollection : list ri * option vx :=
  ([RCall "readARElement" None;
     RForVal (VLeafsX RRef (PLit "MODULE-REFS/MODULE-REF"))
       [RPut "addModuleRef" VItemX]],
   None).
(** arxml_parser.py:7818-7821 *)
Definition r_readSwSystemconst : list ri * option vx :=
  ([RCall "readIdentifiable" None;
     RPut "setSwDataDefProps" (VGetX "getSwDataDefProps" (Some (TLit "SW-DATA-DEF-PROPS")))],
   None).
(** arxml_parser.py:7823-7827 *)
Definition r_readSwSystemconstValue : list ri * option vx :=
  ([RForVal (VGetX "getAnnotations" None)
       [RPut "addAnnotation" VItemX];
     RPut "setSwSystemconstRef" (VLeafX RRef (PLit "SW-SYSTEMCONST-REF"));
     RPut "setValue" (VLeafX RNumerical (PLit "VALUE"))],
   None).
(** arxml_parser.py:7829-7837 *)
Definition r_readSwSystemconstantValueSetSwSystemconstantValues : list ri * option vx :=
  ([RFor (PLit "SW-SYSTEMCONSTANT-VALUES/*")
       [RIf (CTag "SW-SYSTEMCONST-VALUE")
          [RPut "addSwSystemconstantValue" (VNewX "SwSystemconstValue" false [RCall "readSwSystemconstValue" None])]
          [RFail NotImplementedError true]]],
   None).
(** arxml_parser.py:7839-7842 *)
Definition r_readSwSystemconstantValueSet : list ri * option vx :=
  ([RCall "readIdentifiable" None;
     RCall "readSwSystemconstantValueSetSwSystemconstantValues" None],
   None).
(** arxml_parser.py:7844-7849 *)
Definition r_readPredefinedVariantIncludedVariantRefs : list ri * option vx :=
  ([RForVal (VLeafsX RRef (PLit "INCLUDED-VARIANT-REFS/INCLUDED-VARIANT-REF"))
       [RPut "addIncludedVariantRef" VItemX]],
   None).
(** arxml_parser.py:7851-7856 *)
Definition r_readPredefinedVariantPostBuildVariantCriterionValueSetRefs : list ri * option vx :=
  ([RForVal (VLeafsX RRef (PLit "POST-BUILD-VARIANT-CRITERION-VALUE-SET-REFS/POST-BUILD-VARIANT-CRITERION-VALUE-SET-REF"))
       [RPut "addPostBuildVariantCriterionValueSetRef" VItemX]],
   None).
(** arxml_parser.py:7858-7863 *)
Definition r_readPredefinedVariantSwSystemconstantValueSetRefs : list ri * option vx :=
  ([RForVal (VLeafsX RRef (PLit "SW-SYSTEMCONSTANT-VALUE-SET-REFS/SW-SYSTEMCONSTANT-VALUE-SET-REF"))
       [RPut "addSwSystemconstantValueSetRef" VItemX]],
   None).
(** arxml_parser.py:7865-7870 *)
Definition r_readPredefinedVariant : list ri * option vx :=
  ([RCall "readIdentifiable" None;
     RCall "readPredefinedVariantIncludedVariantRefs" None;
     RCall "readPredefinedVariantPostBuildVariantCriterionValueSetRefs" None;
     RCall "readPredefinedVariantSwSystemconstantValueSetRefs" None],
   None).
(** arxml_parser.py:7872-7875 *)
Definition r_readPostBuildVariantCriterion : list ri * option vx :=
  ([RCall "readIdentifiable" None;
     RPut "setCompuMethodRef" (VLeafX RRef (PLit "COMPU-METHOD-REF"))],
   None).
(** arxml_parser.py:7877-7878 *)
Definition r_readCommunicationController : list ri * option vx :=
  ([RPut "setWakeUpByControllerSupported" (VLeafX RBool (PLit "WAKE-UP-BY-CONTROLLER-SUPPORTED"))],
   None).
(** arxml_parser.py:7880-7892 *)
Definition r_getCanControllerFdConfiguration : list ri * option vx :=
  ([],
   Some (VFindX PKey (VNewX "CanControllerFdConfiguration" false [RPut "setPaddingValue" (VLeafX RInteger (PLit "PADDING-VALUE"));
       RPut "setPropSeg" (VLeafX RInteger (PLit "PROP-SEG"));
       RPut "setSspOffset" (VLeafX RInteger (PLit "SSP-OFFSET"));
       RPut "setSyncJumpWidth" (VLeafX RInteger (PLit "SYNC-JUMP-WIDTH"));
       RPut "setTimeSeg1" (VLeafX RInteger (PLit "TIME-SEG1"));
       RPut "setTimeSeg2" (VLeafX RInteger (PLit "TIME-SEG2"));
       RPut "setTxBitRateSwitch" (VLeafX RBool (PLit "TX-BIT-RATE-SWITCH"))]) VNoneX)).
(** arxml_parser.py:7894-7901 *)
Definition r_getFlexrayFifoRange : list ri * option vx :=
  ([],
   Some (VFindX PKey (VNewX "FlexrayFifoRange" false [RPut "setRangeMax" (VLeafX RInteger (PLit "RANGE-MAX"));
       RPut "setRangeMin" (VLeafX RInteger (PLit "RANGE-MIN"))]) VNoneX)).
(** arxml_parser.py:7903-7919 *)
Definition r_getFlexrayFifoConfiguration : list ri * option vx :=
  ([],
   Some (VFindX PKey (VNewX "FlexrayFifoConfiguration" false [RPut "setAdmitWithoutMessageId" (VLeafX RBool (PLit "ADMIT-WITHOUT-MESSAGE-ID"));
       RPut "setBaseCycle" (VLeafX RInteger (PLit "BASE-CYCLE"));
       RPut "setChannelRef" (VLeafX RRef (PLit "CHANNEL-REF"));
       RPut "setCycleRepetition" (VLeafX RInteger (PLit "CYCLE-REPETITION"));
       RPut "setFifoDepth" (VLeafX RInteger (PLit "FIFO-DEPTH"));
       RFor (PLit "FLEXRAY-FIFO-RANGE")
         [RCreate "createFlexrayFifoRange" false
            [RPut "setRangeMax" (VLeafX RInteger (PLit "RANGE-MAX"));
             RPut "setRangeMin" (VLeafX RInteger (PLit "RANGE-MIN"))]];
       RPut "setMsgIdMask" (VLeafX RInteger (PLit "MSG-ID-MASK"));
       RPut "setMsgIdMatch" (VLeafX RInteger (PLit "MSG-ID-MATCH"))]) VNoneX)).
(** arxml_parser.py:7921-7935 *)
Definition r_getCanControllerFdConfigurationRequirements : list ri * option vx :=
  ([],
   Some (VFindX PKey (VNewX "CanControllerFdConfigurationRequirements" false [RPut "setMaxNumberOfTimeQuantaPerBit" (VLeafX RInteger (PLit "MAX-NUMBER-OF-TIME-QUANTA-PER-BIT"));
       RPut "setMaxSamplePoint" (VLeafX RFloat (PLit "MAX-SAMPLE-POINT"));
       RPut "setMaxSyncJumpWidth" (VLeafX RFloat (PLit "MAX-SYNC-JUMP-WIDTH"));
       RPut "setMaxTrcvDelayCompensationOffset" (VLeafX RTime (PLit "MAX-TRCV-DELAY-COMPENSATION-OFFSET"));
       RPut "setMinNumberOfTimeQuantaPerBit" (VLeafX RInteger (PLit "MIN-NUMBER-OF-TIME-QUANTA-PER-BIT"));
       RPut "setMinSamplePoint" (VLeafX RFloat (PLit "MIN-SAMPLE-POINT"));
       RPut "setMinSyncJumpWidth" (VLeafX RFloat (PLit "MIN-SYNC-JUMP-WIDTH"));
       RPut "setMinTrcvDelayCompensationOffset" (VLeafX RTime (PLit "MIN-TRCV-DELAY-COMPENSATION-OFFSET"));
       RPut "setTxBitRateSwitch" (VLeafX RBool (PLit "TX-BIT-RATE-SWITCH"))]) VNoneX)).
(** arxml_parser.py:7937-7952 *)
Definition r_getCanControllerXlConfiguration : list ri * option vx :=
  ([],
   Some (VFindX PKey (VNewX "CanControllerXlConfiguration" false [RPut "setErrorSignalingEnabled" (VLeafX RBool (PLit "ERROR-SIGNALING-ENABLED"));
       RPut "setPropSeg" (VLeafX RInteger (PLit "PROP-SEG"));
       RPut "setPwmL" (VLeafX RInteger (PLit "PWM-L"));
       RPut "setPwmO" (VLeafX RInteger (PLit "PWM-O"));
       RPut "setPwmS" (VLeafX RInteger (PLit "PWM-S"));
       RPut "setSspOffset" (VLeafX RInteger (PLit "SSP-OFFSET"));
       RPut "setSyncJumpWidth" (VLeafX RInteger (PLit "SYNC-JUMP-WIDTH"));
       RPut "setTimeSeg1" (VLeafX RInteger (PLit "TIME-SEG1"));
       RPut "setTimeSeg2" (VLeafX RInteger (PLit "TIME-SEG2"));
       RPut "setTrcvPwmModeEnabled" (VLeafX RBool (PLit "TRCV-PWM-MODE-ENABLED"))]) VNoneX)).
(** arxml_parser.py:7954-7975 *)
Definition r_getCanControllerXlConfigurationRequirements : list ri * option vx :=
  ([],
   Some (VFindX PKey (VNewX "CanControllerXlConfigurationRequirements" false [RPut "setErrorSignalingEnabled" (VLeafX RBool (PLit "ERROR-SIGNALING-ENABLED"));
       RPut "setMaxNumberOfTimeQuantaPerBit" (VLeafX RInteger (PLit "MAX-NUMBER-OF-TIME-QUANTA-PER-BIT"));
       RPut "setMaxPwmL" (VLeafX RInteger (PLit "MAX-PWM-L"));
       RPut "setMaxPwmO" (VLeafX RInteger (PLit "MAX-PWM-O"));
       RPut "setMaxPwmS" (VLeafX RInteger (PLit "MAX-PWM-S"));
       RPut "setMaxSamplePoint" (VLeafX RFloat (PLit "MAX-SAMPLE-POINT"));
       RPut "setMaxSyncJumpWidth" (VLeafX RFloat (PLit "MAX-SYNC-JUMP-WIDTH"));
       RPut "setMaxTrcvDelayCompensationOffset" (VLeafX RTime (PLit "MAX-TRCV-DELAY-COMPENSATION-OFFSET"));
       RPut "setMinNumberOfTimeQuantaPerBit" (VLeafX RInteger (PLit "MIN-NUMBER-OF-TIME-QUANTA-PER-BIT"));
       RPut "setMinPwmL" (VLeafX RInteger (PLit "MIN-PWM-L"));
       RPut "setMinPwmO" (VLeafX RInteger (PLit "MIN-PWM-O"));
       RPut "setMinPwmS" (VLeafX RInteger (PLit "MIN-PWM-S"));
       RPut "setMinSamplePoint" (VLeafX RFloat (PLit "MIN-SAMPLE-POINT"));
       RPut "setMinSyncJumpWidth" (VLeafX RFloat (PLit "MIN-SYNC-JUMP-WIDTH"));
       RPut "setMinTrcvDelayCompensationOffset" (VLeafX RTime (PLit "MIN-TRCV-DELAY-COMPENSATION-OFFSET"));
       RPut "setTrcvPwmModeEnabled" (VLeafX RBool (PLit "TRCV-PWM-MODE-ENABLED"))]) VNoneX)).
(** arxml_parser.py:7977-7981 *)
Definition r_readAbstractCanCommunicationControllerAttributes : list ri * option vx :=
  ([RPut "setCanControllerFdAttributes" (VGetX "getCanControllerFdConfiguration" (Some (TLit "CAN-CONTROLLER-FD-CONFIGURATION")));
     RPut "setCanControllerFdRequirements" (VGetX "getCanControllerFdConfigurationRequirements" (Some (TLit "CAN-CONTROLLER-FD-REQUIREMENTS")));
     RPut "setCanControllerXlAttributes" (VGetX "getCanControllerXlConfiguration" (Some (TLit "CAN-CONTROLLER-XL-CONFIGURATION")));
     RPut "setCanControllerXlRequirements" (VGetX "getCanControllerXlConfigurationRequirements" (Some (TLit "CAN-CONTROLLER-XL-REQUIREMENTS")))],
   None).
(** arxml_parser.py:7983-7990 *)
Definition r_readCanControllerConfigurationRequirements : list ri * option vx :=
  ([RCall "readAbstractCanCommunicationControllerAttributes" None;
     RPut "setMaxNumberOfTimeQuantaPerBit" (VLeafX RInteger (PLit "MAX-NUMBER-OF-TIME-QUANTA-PER-BIT"));
     RPut "setMaxSamplePoint" (VLeafX RFloat (PLit "MAX-SAMPLE-POINT"));
     RPut "setMaxSyncJumpWidth" (VLeafX RFloat (PLit "MAX-SYNC-JUMP-WIDTH"));
     RPut "setMinNumberOfTimeQuantaPerBit" (VLeafX RInteger (PLit "MIN-NUMBER-OF-TIME-QUANTA-PER-BIT"));
     RPut "setMinSamplePoint" (VLeafX RFloat (PLit "MIN-SAMPLE-POINT"));
     RPut "setMinSyncJumpWidth" (VLeafX RFloat (PLit "MIN-SYNC-JUMP-WIDTH"))],
   None).
(** arxml_parser.py:7992-8000 *)
Definition r_readAbstractCanCommunicationControllerCanControllerAttributes : list ri * option vx :=
  ([RFor (PLit "CAN-CONTROLLER-ATTRIBUTES/*")
       [RIf (CTag "CAN-CONTROLLER-CONFIGURATION-REQUIREMENTS")
          [RPut "setCanControllerAttributes" (VNewX "CanControllerConfigurationRequirements" false [RCall "readCanControllerConfigurationRequirements" None])]
          [RFail NotImplementedError true]]],
   None).
(** arxml_parser.py:8002-8004 *)
Definition r_readAbstractCanCommunicationController : list ri * option vx :=
  ([RCall "readCommunicationController" None;
     RCall "readAbstractCanCommunicationControllerCanControllerAttributes" None],
   None).
(** arxml_parser.py:8006-8011 *)
Definition r_readCanCommunicationController : list ri * option vx :=
  ([RCall "readIdentifiable" None;
     RFind (PLit "CAN-COMMUNICATION-CONTROLLER-VARIANTS/CAN-COMMUNICATION-CONTROLLER-CONDITIONAL")
       [RCall "readAbstractCanCommunicationController" None]
       []],
   None).
(** arxml_parser.py:8013-8014 *)
Definition r_readCouplingPortSchedulerCouplingPortStructuralElement : list ri * option vx :=
  ([RCall "readIdentifiable" None],
   None).
(** arxml_parser.py:8016-8017 *)
Definition r_readCouplingPortFifo : list ri * option vx :=
  ([RCall "readCouplingPortSchedulerCouplingPortStructuralElement" None],
   None).
(** arxml_parser.py:8019-8021 *)
Definition r_readCouplingPortScheduler : list ri * option vx :=
  ([RCall "readCouplingPortSchedulerCouplingPortStructuralElement" None;
     RPut "setPortScheduler" (VLeafX RLiteral (PLit "PORT-SCHEDULER"))],
   None).
(** arxml_parser.py:8023-8033 *)
Definition r_readCouplingPortDetailsCouplingPortStructuralElements : list ri * option vx :=
  ([RFor (PLit "COUPLING-PORT-STRUCTURAL-ELEMENTS/*")
       [RIf (CTag "COUPLING-PORT-FIFO")
          [RCreate "createCouplingPortFifo" true
             [RCall "readCouplingPortFifo" None]]
          [RIf (CTag "COUPLING-PORT-SCHEDULER")
             [RCreate "createCouplingPortScheduler" true
                [RCall "readCouplingPortScheduler" None]]
             [RFail NotImplementedError true]]]],
   None).
(** arxml_parser.py:8035-8037 *)
Definition r_readEthernetPriorityRegeneration : list ri * option vx :=
  ([RPut "setIngressPriority" (VLeafX RPositive (PLit "INGRESS-PRIORITY"));
     RPut "setRegeneratedPriority" (VLeafX RPositive (PLit "REGENERATED-PRIORITY"))],
   None).
(** arxml_parser.py:8039-8046 *)
Definition r_readCouplingPortDetailsEthernetPriorityRegenerations : list ri * option vx :=
  ([RFor (PLit "ETHERNET-PRIORITY-REGENERATIONS/*")
       [RIf (CTag "ETHERNET-PRIORITY-REGENERATION")
          [RCreate "createEthernetPriorityRegeneration" true
             [RCall "readEthernetPriorityRegeneration" None]]
          [RFail NotImplementedError true]]],
   None).
(** arxml_parser.py:8048-8056 *)
Definition r_getCouplingPortDetails : list ri * option vx :=
  ([],
   Some (VFindX PKey (VNewX "CouplingPortDetails" false [RCall "readCouplingPortDetailsCouplingPortStructuralElements" None;
       RCall "readCouplingPortDetailsEthernetPriorityRegenerations" None;
       RPut "setLastEgressSchedulerRef" (VLeafX RRef (PLit "LAST-EGRESS-SCHEDULER-REF"))]) VNoneX)).
(** arxml_parser.py:8058-8060 *)
Definition r_readVlanMembership : list ri * option vx :=
  ([RPut "setSendActivity" (VLeafX RLiteral (PLit "SEND-ACTIVITY"));
     RPut "setVlanRef" (VLeafX RRef (PLit "VLAN-REF"))],
   None).
(** arxml_parser.py:8062-8070 *)
Definition r_readCouplingPortVlanMemberships : list ri * option vx :=
  ([RFor (PLit "VLAN-MEMBERSHIPS/*")
       [RIf (CTag "VLAN-MEMBERSHIP")
          [RPut "addVlanMembership" (VNewX "VlanMembership" false [RCall "readVlanMembership" None])]
          [RFail NotImplementedError true]]],
   None).
(** arxml_parser.py:8072-8076 *)
Definition r_readCouplingPort : list ri * option vx :=
  ([RCall "readIdentifiable" None;
     RPut "setCouplingPortDetails" (VGetX "getCouplingPortDetails" (Some (TLit "COUPLING-PORT-DETAILS")));
     RPut "setMacLayerType" (VLeafX RLiteral (PLit "MAC-LAYER-TYPE"));
     RCall "readCouplingPortVlanMemberships" None],
   None).
(** arxml_parser.py:8078-8085 *)
Definition r_readEthernetCommunicationControllerCouplingPorts : list ri * option vx :=
  ([RFor (PLit "COUPLING-PORTS/*")
       [RIf (CTag "COUPLING-PORT")
          [RCreate "createCouplingPort" true
             [RCall "readCouplingPort" None]]
          [RFail NotImplementedError true]]],
   None).
(** arxml_parser.py:8087-8093 *)
Definition r_readEthernetCommunicationController : list ri * option vx :=
  ([RCall "readIdentifiable" None;
     RFind (PLit "ETHERNET-COMMUNICATION-CONTROLLER-VARIANTS/ETHERNET-COMMUNICATION-CONTROLLER-CONDITIONAL")
       [RCall "readCommunicationController" None;
        RCall "readEthernetCommunicationControllerCouplingPorts" None]
       []],
   None).
(** arxml_parser.py:8095-8097 *)
Definition r_readLinCommunicationController : list ri * option vx :=
  ([RCall "readCommunicationController" None;
     RPut "setProtocolVersion" (VLeafX RLiteral (PLit "PROTOCOL-VERSION"))],
   None).
(** arxml_parser.py:8099-8106 *)
Definition r_readLinMaster : list ri * option vx :=
  ([RCall "readIdentifiable" None;
     RFind (PLit "LIN-MASTER-VARIANTS/LIN-MASTER-CONDITIONAL")
       [RCall "readLinCommunicationController" None;
        RPut "setTimeBase" (VLeafX RTime (PLit "TIME-BASE"));
        RPut "setTimeBaseJitter" (VLeafX RTime (PLit "TIME-BASE-JITTER"))]
       []],
   None).
(** arxml_parser.py:8108-8125 *)
Definition r_readEcuInstanceCommControllers : list ri * option vx :=
  ([RFor (PLit "COMM-CONTROLLERS/*")
       [RIf (CTag "CAN-COMMUNICATION-CONTROLLER")
          [RCreate "createCanCommunicationController" true
             [RCall "readCanCommunicationController" None]]
          [RIf (CTag "ETHERNET-COMMUNICATION-CONTROLLER")
             [RCreate "createEthernetCommunicationController" true
                [RCall "readEthernetCommunicationController" None]]
             [RIf (CTag "LIN-MASTER")
                [RCreate "createLinMaster" true
                   [RCall "readLinMaster" None]]
                [RIf (CTag "FLEXRAY-COMMUNICATION-CONTROLLER")
                   [RCreate "createFlexrayCommunicationController" true
                      [RCall "readFlexrayCommunicationController" None]]
                   [RFail ValueError true]]]]]],
   None).
(** arxml_parser.py:8127-8129 *)
Definition r_readCommConnectorPort : list ri * option vx :=
  ([RCall "readIdentifiable" None;
     RPut "setCommunicationDirection" (VLeafX RLiteral (PLit "COMMUNICATION-DIRECTION"))],
   None).
(** arxml_parser.py:8131-8132 *)
Definition r_readFramePort : list ri * option vx :=
  ([RCall "readCommConnectorPort" None],
   None).
(** arxml_parser.py:8134-8138 *)
Definition r_readIPduPort : list ri * option vx :=
  ([RCall "readCommConnectorPort" None;
     RPut "setKeyId" (VLeafX RPositive (PLit "KEY-ID"));
     RPut "setRxSecurityVerification" (VLeafX RBool (PLit "RX-SECURITY-VERIFICATION"));
     RPut "setUseAuthDataFreshness" (VLeafX RBool (PLit "USE-AUTH-DATA-FRESHNESS"))],
   None).
(** arxml_parser.py:8140-8142 *)
Definition r_readISignalPort : list ri * option vx :=
  ([RCall "readCommConnectorPort" None;
     RPut "setTimeout" (VLeafX RTime (PLit "TIMEOUT"))],
   None).
(** arxml_parser.py:8144-8158 *)
Definition r_readCommunicationConnectorEcuCommPortInstances : list ri * option vx :=
  ([RFor (PLit "ECU-COMM-PORT-INSTANCES/*")
       [RIf (CTag "FRAME-PORT")
          [RCreate "createFramePort" true
             [RCall "readFramePort" None]]
          [RIf (CTag "I-PDU-PORT")
             [RCreate "createIPduPort" true
                [RCall "readIPduPort" None]]
             [RIf (CTag "I-SIGNAL-PORT")
                [RCreate "createISignalPort" true
                   [RCall "readISignalPort" None]]
                [RFail ValueError true]]]]],
   None).
(** arxml_parser.py:8160-8164 *)
Definition r_readCommunicationConnector : list ri * option vx :=
  ([RCall "readIdentifiable" None;
     RPut "setCommControllerRef" (VLeafX RRef (PLit "COMM-CONTROLLER-REF"));
     RCall "readCommunicationConnectorEcuCommPortInstances" None;
     RPut "setPncGatewayType" (VLeafX RLiteral (PLit "PNC-GATEWAY-TYPE"))],
   None).
(** arxml_parser.py:8166-8167 *)
Definition r_readCanCommunicationConnector : list ri * option vx :=
  ([RCall "readCommunicationConnector" None],
   None).
(** arxml_parser.py:8169-8171 *)
Definition r_readEthernetCommunicationConnectorNetworkEndpointRefs : list ri * option vx :=
  ([RForVal (VLeafsX RRef (PLit "NETWORK-ENDPOINT-REFS/NETWORK-ENDPOINT-REF"))
       [RPut "addNetworkEndpointRef" VItemX]],
   None).
(** arxml_parser.py:8173-8176 *)
Definition r_readEthernetCommunicationConnector : list ri * option vx :=
  ([RCall "readCommunicationConnector" None;
     RPut "setMaximumTransmissionUnit" (VLeafX RPositive (PLit "MAXIMUM-TRANSMISSION-UNIT"));
     RCall "readEthernetCommunicationConnectorNetworkEndpointRefs" None],
   None).
(** arxml_parser.py:8178-8179 *)
Definition r_readLinCommunicationConnector : list ri * option vx :=
  ([RCall "readCommunicationConnector" None],
   None).
(** arxml_parser.py:8181-8182 *)
Definition r_readFlexrayCommunicationConnector : list ri * option vx :=
  ([RCall "readCommunicationConnector" None],
   None).
(** arxml_parser.py:8184-8201 *)
Definition r_readEcuInstanceConnectors : list ri * option vx :=
  ([RFor (PLit "CONNECTORS/*")
       [RIf (CTag "CAN-COMMUNICATION-CONNECTOR")
          [RCreate "createCanCommunicationConnector" true
             [RCall "readCanCommunicationConnector" None]]
          [RIf (CTag "ETHERNET-COMMUNICATION-CONNECTOR")
             [RCreate "createEthernetCommunicationConnector" true
                [RCall "readEthernetCommunicationConnector" None]]
             [RIf (CTag "LIN-COMMUNICATION-CONNECTOR")
                [RCreate "createLinCommunicationConnector" true
                   [RCall "readLinCommunicationConnector" None]]
                [RIf (CTag "FLEXRAY-COMMUNICATION-CONNECTOR")
                   [RCreate "createFlexrayCommunicationConnector" true
                      [RCall "readFlexrayCommunicationConnector" None]]
                   [RFail NotImplementedError true]]]]]],
   None).
(** arxml_parser.py:8203-8205 *)
Definition r_readEcuInstanceAssociatedComIPduGroupRefs : list ri * option vx :=
  ([RForVal (VLeafsX RRef (PLit "ASSOCIATED-COM-I-PDU-GROUP-REFS/ASSOCIATED-COM-I-PDU-GROUP-REF"))
       [RPut "addAssociatedComIPduGroupRef" VItemX]],
   None).
(** arxml_parser.py:8207-8209 *)
Definition r_readEcuInstanceAssociatedConsumedProvidedServiceInstanceGroupRefs : list ri * option vx :=
  ([RForVal (VLeafsX RRef (PLit "ASSOCIATED-CONSUMED-PROVIDED-SERVICE-INSTANCE-GROUP-REFS/ASSOCIATED-CONSUMED-PROVIDED-SERVICE-INSTANCE-GROUP-REF"))
       [RPut "addAssociatedConsumedProvidedServiceInstanceGroupRef" VItemX]],
   None).
(** arxml_parser.py:8211-8213 *)
Definition r_readEcuInstanceAssociatedPdurIPduGroupRefs : list ri * option vx :=
  ([RForVal (VLeafsX RRef (PLit "ASSOCIATED-PDUR-I-PDU-GROUP-REFS/ASSOCIATED-PDUR-I-PDU-GROUP-REF"))
       [RPut "addAssociatedPdurIPduGroupRef" VItemX]],
   None).
(** arxml_parser.py:8215-8217 *)
Definition r_readEcuInstanceEcuTaskProxyRefs : list ri * option vx :=
  ([RForVal (VLeafsX RRef (PLit "ECU-TASK-PROXY-REFS/ECU-TASK-PROXY-REF"))
       [RPut "addEcuTaskProxyRef" VItemX]],
   None).
(** arxml_parser.py:8219-8221 *)
Definition r_readEcuInstanceFirewallRuleRefs : list ri * option vx :=
  ([RForVal (VLeafsX RRef (PLit "FIREWALL-RULE-REFS/FIREWALL-RULE-REF"))
       [RPut "addFirewallRuleRef" VItemX]],
   None).
(** arxml_parser.py:8223-8247 *)
Definition r_readEcuInstance : list ri * option vx :=
  ([RCall "readIdentifiable" None;
     RCall "readEcuInstanceAssociatedComIPduGroupRefs" None;
     RCall "readEcuInstanceAssociatedConsumedProvidedServiceInstanceGroupRefs" None;
     RCall "readEcuInstanceAssociatedPdurIPduGroupRefs" None;
     RPut "setChannelSynchronousWakeup" (VLeafX RBool (PLit "CHANNEL-SYNCHRONOUS-WAKEUP"));
     RPut "setComConfigurationGwTimeBase" (VLeafX RTime (PLit "COM-CONFIGURATION-GW-TIME-BASE"));
     RPut "setComConfigurationRxTimeBase" (VLeafX RTime (PLit "COM-CONFIGURATION-RX-TIME-BASE"));
     RPut "setComConfigurationTxTimeBase" (VLeafX RTime (PLit "COM-CONFIGURATION-TX-TIME-BASE"));
     RPut "setComEnableMDTForCyclicTransmission" (VLeafX RBool (PLit "COM-ENABLE-MDT-FOR-CYCLIC-TRANSMISSION"));
     RCall "readEcuInstanceCommControllers" None;
     RCall "readEcuInstanceConnectors" None;
     RCall "readEcuInstanceEcuTaskProxyRefs" None;
     RPut "setEthSwitchPortGroupDerivation" (VLeafX RBool (PLit "ETH-SWITCH-PORT-GROUP-DERIVATION"));
     RCall "readEcuInstanceFirewallRuleRefs" None;
     RPut "setPncNmRequest" (VLeafX RBool (PLit "PNC-NM-REQUEST"));
     RPut "setPncPrepareSleepTimer" (VLeafX RTime (PLit "PNC-PREPARE-SLEEP-TIMER"));
     RPut "setPncSynchronousWakeup" (VLeafX RBool (PLit "PNC-SYNCHRONOUS-WAKEUP"));
     RPut "setPnResetTime" (VLeafX RTime (PLit "PN-RESET-TIME"));
     RPut "setSleepModeSupported" (VLeafX RBool (PLit "SLEEP-MODE-SUPPORTED"));
     RPut "setTcpIpIcmpPropsRef" (VLeafX RRef (PLit "TCP-IP-ICMP-PROPS"));
     RPut "setTcpIpPropsRef" (VLeafX RRef (PLit "TCP-IP-PROPS"));
     RPut "setV2xSupported" (VLeafX RLiteral (PLit "V-2-X-SUPPORTED"));
     RPut "setWakeUpOverBusSupported" (VLeafX RBool (PLit "WAKE-UP-OVER-BUS-SUPPORTED"))],
   None).
(** arxml_parser.py:8260-8267 *)
Definition r_getISignalMappings : list ri * option vx :=
  ([],
   Some (VListX [RFor (PLit "SIGNAL-MAPPINGS/I-SIGNAL-MAPPING")
        [RPut "append" (VNewX "ISignalMapping" false [RSet "sourceSignalRef" (VLeafX RRef (PLit "SOURCE-SIGNAL-REF"));
             RSet "targetSignalRef" (VLeafX RRef (PLit "TARGET-SIGNAL-REF"))])]])).
(** arxml_parser.py:8269-8275 *)
Definition r_getTargetIPduRef : list ri * option vx :=
  ([],
   Some (VFindX PKey (VNewX "TargetIPduRef" false [RPut "setTargetIPdu" (VLeafX RRef (PLit "TARGET-I-PDU-REF"))]) VNoneX)).
(** arxml_parser.py:8277-8284 *)
Definition r_getIPduMappings : list ri * option vx :=
  ([],
   Some (VListX [RFor (PLit "I-PDU-MAPPINGS/I-PDU-MAPPING")
        [RPut "append" (VNewX "IPduMapping" false [RPut "setSourceIpduRef" (VLeafX RRef (PLit "SOURCE-I-PDU-REF"));
             RPut "setTargetIPdu" (VGetX "getTargetIPduRef" (Some (TLit "TARGET-I-PDU")))])]])).
(** arxml_parser.py:8286-8293 *)
Definition r_readGateway : list ri * option vx :=
  ([RCall "readIdentifiable" None;
     RPut "setEcuRef" (VLeafX RRef (PLit "ECU-REF"));
     RForVal (VGetX "getIPduMappings" None)
       [RPut "addIPduMapping" VItemX];
     RForVal (VGetX "getISignalMappings" None)
       [RPut "addSignalMapping" VItemX]],
   None).
(** arxml_parser.py:8295-8307 *)
Definition r_readISignal : list ri * option vx :=
  ([RCall "readIdentifiable" None;
     RPut "setDataTransformationRef" (VLeafX RRef (PLit "DATA-TRANSFORMATIONS/DATA-TRANSFORMATION-REF-CONDITIONAL/DATA-TRANSFORMATION-REF"));
     RPut "setDataTypePolicy" (VLeafX RLiteral (PLit "DATA-TYPE-POLICY"));
     RPut "setISignalType" (VLeafX RLiteral (PLit "I-SIGNAL-TYPE"));
     RPut "setInitValue" (VGetX "getInitValue" None);
     RPut "setLength" (VLeafX RNumerical (PLit "LENGTH"));
     RPut "setNetworkRepresentationProps" (VGetX "getSwDataDefProps" (Some (TLit "NETWORK-REPRESENTATION-PROPS")));
     RPut "setSystemSignalRef" (VLeafX RRef (PLit "SYSTEM-SIGNAL-REF"));
     RPut "setTimeoutSubstitutionValue" (VGetX "getChildValueSpecification" (Some (TLit "TIMEOUT-SUBSTITUTION-VALUE")));
     RCall "readISignalProps" None;
     RCall "readISignalTransformationISignalProps" None],
   None).
(** arxml_parser.py:8309-8314 *)
Definition r_readISignalProps : list ri * option vx :=
  ([RFind (PLit "I-SIGNAL-PROPS")
       [RPut "setISignalProps" (VNewX "ISignalProps" false [RPut "setHandleOutOfRange" (VLeafX RLiteral (PLit "HANDLE-OUT-OF-RANGE"))])]
       []],
   None).
(** arxml_parser.py:8316-8324 *)
Definition r_readISignalTransformationISignalProps : list ri * option vx :=
  ([RFor (PLit "TRANSFORMATION-I-SIGNAL-PROPSS/*")
       [RIf (CTag "END-TO-END-TRANSFORMATION-I-SIGNAL-PROPS")
          [RPut "addTransformationISignalProps" (VNewX "EndToEndTransformationISignalProps" false [RCall "readEndToEndTransformationISignalProps" None])]
          [RFail NotImplementedError true]]],
   None).
(** arxml_parser.py:8326-8331 *)
Definition r_readEcucValueCollectionEcucValues : list ri * option vx :=
  ([RFor (PLit "ECUC-VALUES/ECUC-MODULE-CONFIGURATION-VALUES-REF-CONDITIONAL")
       [RIf (CGot (VLeafX RRef (PLit "ECUC-MODULE-CONFIGURATION-VALUES-REF")))
          [RPut "addEcucValueRef" (VLeafX RRef (PLit "ECUC-MODULE-CONFIGURATION-VALUES-REF"))]
          []]],
   None).
(** arxml_parser.py:8333-8337 *)
Definition r_readEcucValueCollection : list ri * option vx :=
  ([RCall "readIdentifiable" None;
     RPut "setEcuExtractRef" (VLeafX RRef (PLit "ECU-EXTRACT-REF"));
     RCall "readEcucValueCollectionEcucValues" None],
   None).
(** arxml_parser.py:8339-8343 *)
Definition r_readEcucParameterValue : list ri * option vx :=
  ([RPut "setDefinitionRef" (VLeafX RRef (PLit "DEFINITION-REF"));
     RForVal (VGetX "getAnnotations" None)
       [RPut "addAnnotation" VItemX];
     RPut "setIndex" (VLeafX RPositive (PLit "INDEX"))],
   None).
(** arxml_parser.py:8345-8349 *)
Definition r_getEcucTextualParamValue : list ri * option vx :=
  ([],
   Some (VNewX "EcucTextualParamValue" false [RCall "readEcucParameterValue" None;
      RPut "setValue" (VLeafX RLiteral (PLit "VALUE"))])).
(** arxml_parser.py:8351-8355 *)
Definition r_getEcucNumericalParamValue : list ri * option vx :=
  ([],
   Some (VNewX "EcucNumericalParamValue" false [RCall "readEcucParameterValue" None;
      RPut "setValue" (VLeafX RNumerical (PLit "VALUE"))])).
(** arxml_parser.py:8357-8365 *)
Definition r_readEcucContainerValueParameterValues : list ri * option vx :=
  ([RFor (PLit "PARAMETER-VALUES/*")
       [RIf (CTag "ECUC-TEXTUAL-PARAM-VALUE")
          [RPut "addParameterValue" (VGetX "getEcucTextualParamValue" None)]
          [RIf (CTag "ECUC-NUMERICAL-PARAM-VALUE")
             [RPut "addParameterValue" (VGetX "getEcucNumericalParamValue" None)]
             [RFail NotImplementedError true]]]],
   None).
(** arxml_parser.py:8367-8371 *)
Definition r_readEcucAbstractReferenceValue : list ri * option vx :=
  ([RPut "setDefinitionRef" (VLeafX RRef (PLit "DEFINITION-REF"));
     RForVal (VGetX "getAnnotations" None)
       [RPut "addAnnotation" VItemX];
     RPut "setIndex" (VLeafX RPositive (PLit "INDEX"))],
   None).
(** arxml_parser.py:8373-8377 *)
Definition r_getEcucReferenceValue : list ri * option vx :=
  ([],
   Some (VNewX "EcucReferenceValue" false [RCall "readEcucAbstractReferenceValue" None;
      RPut "setValueRef" (VLeafX RRef (PLit "VALUE-REF"))])).
(** arxml_parser.py:8379-8388 *)
Definition r_getAnyInstanceRef : list ri * option vx :=
  ([],
   Some (VFindX PKey (VNewX "AnyInstanceRef" false [RPut "setBaseRef" (VLeafX RRef (PLit "BASE-REF"));
       RForVal (VLeafsX RRef (PLit "CONTEXT-ELEMENT-REF"))
         [RPut "addContextElementRef" VItemX];
       RPut "setTargetRef" (VLeafX RRef (PLit "TARGET-REF"))]) VNoneX)).
(** arxml_parser.py:8390-8394 *)
Definition r_getEcucInstanceReferenceValue : list ri * option vx :=
  ([],
   Some (VNewX "EcucInstanceReferenceValue" false [RCall "readEcucAbstractReferenceValue" None;
      RPut "setValueIRef" (VGetX "getAnyInstanceRef" (Some (TLit "VALUE-IREF")))])).
(** arxml_parser.py:8396-8404 *)
Definition r_readEcucContainerValueReferenceValues : list ri * option vx :=
  ([RFor (PLit "REFERENCE-VALUES/*")
       [RIf (CTag "ECUC-REFERENCE-VALUE")
          [RPut "addReferenceValue" (VGetX "getEcucReferenceValue" None)]
          [RIf (CTag "ECUC-INSTANCE-REFERENCE-VALUE")
             [RPut "addReferenceValue" (VGetX "getEcucInstanceReferenceValue" None)]
             [RFail NotImplementedError true]]]],
   None).
(** arxml_parser.py:8406-8412 *)
Definition r_readEcucContainerValue : list ri * option vx :=
  ([RCall "readIdentifiable" None;
     RPut "setDefinitionRef" (VLeafX RRef (PLit "DEFINITION-REF"));
     RPut "setIndex" (VLeafX RPositive (PLit "INDEX"));
     RCall "readEcucContainerValueParameterValues" None;
     RCall "readEcucContainerValueReferenceValues" None;
     RCall "readEcucContainerValueSubContainers" None],
   None).
(** arxml_parser.py:8414-8418 *)
Definition r_readEcucContainerValueEcucContainerValue : list ri * option vx :=
  ([RCreate "createSubContainer" true
       [RCall "readEcucContainerValue" None]],
   None).
(** arxml_parser.py:8420-8426 *)
Definition r_readEcucContainerValueSubContainers : list ri * option vx :=
  ([RFor (PLit "SUB-CONTAINERS/*")
       [RIf (CTag "ECUC-CONTAINER-VALUE")
          [RCall "readEcucContainerValueEcucContainerValue" None]
          [RFail NotImplementedError true]]],
   None).
(** arxml_parser.py:8428-8432 *)
Definition r_readEcucModuleConfigurationValuesEcucContainerValue : list ri * option vx :=
  ([RCreate "createContainer" true
       [RCall "readEcucContainerValue" None]],
   None).
(** arxml_parser.py:8434-8440 *)
Definition r_readEcucModuleConfigurationValuesContainers : list ri * option vx :=
  ([RFor (PLit "CONTAINERS/*")
       [RIf (CTag "ECUC-CONTAINER-VALUE")
          [RCall "readEcucModuleConfigurationValuesEcucContainerValue" None]
          [RFail NotImplementedError true]]],
   None).
(** arxml_parser.py:8442-8450 *)
Definition r_readEcucModuleConfigurationValues : list ri * option vx :=
  ([RCall "readIdentifiable" None;
     RPut "setDefinitionRef" (VLeafX RRef (PLit "DEFINITION-REF"));
     RPut "setEcucDefEdition" (VLeafX RLiteral (PLit "ECUC-DEF-EDITION"));
     RPut "setImplementationConfigVariant" (VLeafX RLiteral (PLit "IMPLEMENTATION-CONFIG-VARIANT"));
     RPut "setModuleDescriptionRef" (VLeafX RRef (PLit "MODULE-DESCRIPTION-REF"));
     RPut "setPostBuildVariantUsed" (VLeafX RBool (PLit "POST-BUILD-VARIANT-USED"));
     RCall "readEcucModuleConfigurationValuesContainers" None],
   None).
(** arxml_parser.py:8452-8461 *)
Definition r_readPhysicalDimension : list ri * option vx :=
  ([RCall "readIdentifiable" None;
     RPut "setLengthExp" (VLeafX RNumerical (PLit "LENGTH-EXP"));
     RPut "setLuminousIntensityExp" (VLeafX RNumerical (PLit "LUMINOUS-INTENSITY-EXP"));
     RPut "setMassExp" (VLeafX RNumerical (PLit "MASS-EXP"));
     RPut "setMolarAmountExp" (VLeafX RNumerical (PLit "MOLAR-AMOUNT-EXP"));
     RPut "setTemperatureExp" (VLeafX RNumerical (PLit "TEMPERATURE-EXP"));
     RPut "setTimeExp" (VLeafX RNumerical (PLit "TIME-EXP"));
     RPut "setCurrentExp" (VLeafX RNumerical (PLit "CURRENT-EXP"))],
   None).
(** arxml_parser.py:8463-8465 *)
Definition r_readISignalGroupISignalRef : list ri * option vx :=
  ([RForVal (VLeafsX RRef (PLit "I-SIGNAL-REFS/I-SIGNAL-REF"))
       [RPut "addISignalRef" VItemX]],
   None).
(** arxml_parser.py:8467-8469 *)
Definition r_readISignalGroupComBasedSignalGroupTransformation : list ri * option vx :=
  ([RPut "setComBasedSignalGroupTransformationRef" (VLeafX RRef (PLit "COM-BASED-SIGNAL-GROUP-TRANSFORMATIONS/DATA-TRANSFORMATION-REF-CONDITIONAL/DATA-TRANSFORMATION-REF"))],
   None).
(** arxml_parser.py:8471-8480 *)
Definition r_readTransformationISignalProps : list ri * option vx :=
  ([RCall "readDescribable" None;
     RPut "setCsErrorReaction" (VLeafX RLiteral (PLit "CS-ERROR-REACTION"));
     RFor (PLit "DATA-PROTOTYPE-TRANSFORMATION-PROPSS/*")
       [RIf (CTag "DATA-PROTOTYPE-TRANSFORMATION-PROPS")
          [RPut "addDataPrototypeTransformationProps" (VNewX "DataPrototypeTransformationProps" false [RCall "readDataPrototypeTransformationProps" None])]
          [RFail NotImplementedError true]]],
   None).
(** arxml_parser.py:8482-8489 *)
Definition r_readDataPrototypeInPortInterfaceRef : list ri * option vx :=
  ([RAttrs;
     RPut "setTagId" (VLeafX RPositive (PLit "TAG-ID"));
     RFind (PLit "DATA-PROTOTYPE-IN-CLIENT-SERVER-INTERFACE-REF")
       [RPut "setDataPrototypeInClientServerInterface" (VNewX "DataPrototypeInClientServerInterfaceInstanceRef" false [RCall "readDataPrototypeInClientServerInterfaceInstanceRef" None])]
       []],
   None).
(** arxml_parser.py:8491-8497 *)
Definition r_readDataPrototypeInSenderReceiverInterfaceInstanceRef : list ri * option vx :=
  ([RAttrs;
     RPut "setBaseRef" (VLeafX RRef (PLit "BASE"));
     RFor (PLit "CONTEXT-DATA-PROTOTYPE-IN-SR")
       [RPut "addContextDataPrototypeInSrRefs" (VOrX (VLeafX RRef (PLit "CONTEXT-DATA-PROTOTYPE-IN-SR")) (VLeafX RRef (PLit "CONTEXT-DATA-PROTOTYPE")))];
     RPut "setRootDataPrototypeInSrRef" (VLeafX RRef (PLit "ROOT-DATA-PROTOTYPE-IN-SR"));
     RPut "setTargetDataPrototypeInSrRef" (VLeafX RRef (PLit "TARGET-DATA-PROTOTYPE-IN-SR"))],
   None).
(** arxml_parser.py:8499-8505 *)
Definition r_readDataPrototypeInClientServerInterfaceInstanceRef : list ri * option vx :=
  ([RAttrs;
     RPut "setBaseRef" (VLeafX RRef (PLit "BASE"));
     RFor (PLit "CONTEXT-DATA-PROTOTYPE-IN-CS")
       [RPut "addContextDataPrototypeInCsRefs" (VOrX (VLeafX RRef (PLit "CONTEXT-DATA-PROTOTYPE-IN-CS")) (VLeafX RRef (PLit "CONTEXT-DATA-PROTOTYPE")))];
     RPut "setRootDataPrototypeInCsRef" (VLeafX RRef (PLit "ROOT-DATA-PROTOTYPE-IN-CS"));
     RPut "setTargetDataPrototypeInCsRef" (VLeafX RRef (PLit "TARGET-DATA-PROTOTYPE-IN-CS"))],
   None).
(** arxml_parser.py:8507-8515 *)
Definition r_readDataPrototypeTransformationProps : list ri * option vx :=
  ([RAttrs;
     RFind (PLit "DATA-PROTOTYPE-IN-PORT-INTERFACE-REF")
       [RPut "setDataPrototypeInPortInterfaceRef" (VNewX "DataPrototypeInPortInterfaceRef" false [RCall "readDataPrototypeInPortInterfaceRef" None])]
       [];
     RPut "setNetworkRepresentationProps" (VGetX "getSwDataDefProps" (Some (TLit "NETWORK-REPRESENTATION-PROPS")));
     RPut "setTransformationProps" (VLeafX RRef (PLit "TRANSFORMATION-PROPS"))],
   None).
(** arxml_parser.py:8517-8520 *)
Definition r_readEndToEndTransformationISignalPropsDataIds : list ri * option vx :=
  ([RFind (PLit "DATA-IDS")
       [RPut "addDataId" (VLeafX RPositive (PLit "DATA-ID"))]
       []],
   None).
(** arxml_parser.py:8522-8528 *)
Definition r_readEndToEndTransformationISignalProps : list ri * option vx :=
  ([RFind (PLit "END-TO-END-TRANSFORMATION-I-SIGNAL-PROPS-VARIANTS/END-TO-END-TRANSFORMATION-I-SIGNAL-PROPS-CONDITIONAL")
       [RCall "readTransformationISignalProps" None;
        RPut "setTransformerRef" (VLeafX RRef (PLit "TRANSFORMER-REF"));
        RCall "readEndToEndTransformationISignalPropsDataIds" None;
        RPut "setDataLength" (VLeafX RPositive (PLit "DATA-LENGTH"))]
       []],
   None).
(** arxml_parser.py:8530-8538 *)
Definition r_readISignalGroupTransformationISignalProps : list ri * option vx :=
  ([RFor (PLit "TRANSFORMATION-I-SIGNAL-PROPSS/*")
       [RIf (CTag "END-TO-END-TRANSFORMATION-I-SIGNAL-PROPS")
          [RPut "addTransformationISignalProps" (VNewX "EndToEndTransformationISignalProps" false [RCall "readEndToEndTransformationISignalProps" None])]
          [RFail NotImplementedError true]]],
   None).
(** arxml_parser.py:8540-8546 *)
Definition r_readISignalGroup : list ri * option vx :=
  ([RCall "readIdentifiable" None;
     RCall "readISignalGroupComBasedSignalGroupTransformation" None;
     RCall "readISignalGroupISignalRef" None;
     RPut "setSystemSignalGroupRef" (VLeafX RRef (PLit "SYSTEM-SIGNAL-GROUP-REF"));
     RCall "readISignalGroupTransformationISignalProps" None],
   None).
(** arxml_parser.py:8548-8552 *)
Definition r_readSystemSignal : list ri * option vx :=
  ([RCall "readIdentifiable" None;
     RPut "setDynamicLength" (VLeafX RBool (PLit "DYNAMIC-LENGTH"));
     RPut "setPhysicalProps" (VGetX "getSwDataDefProps" (Some (TLit "PHYSICAL-PROPS")))],
   None).
(** arxml_parser.py:8554-8559 *)
Definition r_readSystemSignalGroup : list ri * option vx :=
  ([RCall "readIdentifiable" None;
     RForVal (VLeafsX RRef (PLit "SYSTEM-SIGNAL-REFS/SYSTEM-SIGNAL-REF"))
       [RPut "addSystemSignalRef" VItemX];
     RPut "setTransformingSystemSignalRef" (VLeafX RRef (PLit "TRANSFORMING-SYSTEM-SIGNAL-REF"))],
   None).
(** arxml_parser.py:8561-8566 *)
Definition r_readSignalServiceTranslationPropsSet : list ri * option vx :=
  ([RCall "readIdentifiable" None;
     RFor (PLit "SIGNAL-SERVICE-TRANSLATION-PROPS")
       [RCreate "createSignalServiceTranslationProps" true
          [RCall "readSignalServiceTranslationProps" None]]],
   None).
(** arxml_parser.py:8568-8580 *)
Definition r_readSignalServiceTranslationProps : list ri * option vx :=
  ([RCall "readIdentifiable" None;
     RForVal (VLeafsX RRef (PLit "CONTROL-CONSUMED-EVENT-GROUP-REFS/CONTROL-CONSUMED-EVENT-GROUP-REF"))
       [RPut "addControlConsumedEventGroupRef" VItemX];
     RForVal (VLeafsX RRef (PLit "CONTROL-PNC-REFS/CONTROL-PNC-REF"))
       [RPut "addControlPncRef" VItemX];
     RForVal (VLeafsX RRef (PLit "CONTROL-PROVIDED-EVENT-GROUP-REFS/CONTROL-PROVIDED-EVENT-GROUP-REF"))
       [RPut "addControlProvidedEventGroupRef" VItemX];
     RPut "setServiceControl" (VLeafX RLiteral (PLit "SERVICE-CONTROL"));
     RFor (PLit "SIGNAL-SERVICE-TRANSLATION-EVENT-PROPS")
       [RCreate "createSignalServiceTranslationEventProps" true
          [RCall "readSignalServiceTranslationEventProps" None]]],
   None).
(** arxml_parser.py:8582-8590 *)
Definition r_readSignalServiceTranslationEventProps : list ri * option vx :=
  ([RCall "readIdentifiable" None;
     RFor (PLit "SIGNAL-SERVICE-TRANSLATION-ELEMENT-PROPS")
       [RCreate "createSignalServiceTranslationElementProps" true
          [RCall "readSignalServiceTranslationElementProps" None]];
     RPut "setSafeTranslation" (VLeafX RBool (PLit "SAFE-TRANSLATION"));
     RPut "setSecureTranslation" (VLeafX RBool (PLit "SECURE-TRANSLATION"));
     RPut "setTranslationTarget" (VFindX (PLit "TRANSLATION-TARGET") (VGetX "getVariableDataPrototypeInSystemInstanceRef" None) VNoneX)],
   None).
(** arxml_parser.py:8592-8596 *)
Definition r_readSignalServiceTranslationElementProps : list ri * option vx :=
  ([RCall "readIdentifiable" None;
     RPut "setFilter" (VGetX "getDataFilter" (Some (TLit "FILTER")));
     RPut "setTransmissionTrigger" (VLeafX RBool (PLit "TRANSMISSION-TRIGGER"))],
   None).
(** arxml_parser.py:8598-8608 *)
Definition r_readISignalToPduMappings : list ri * option vx :=
  ([RFor (PLit "I-SIGNAL-TO-PDU-MAPPINGS/I-SIGNAL-TO-I-PDU-MAPPING")
       [RCreate "createISignalToPduMappings" true
          [RCall "readIdentifiable" None;
           RPut "setISignalRef" (VLeafX RRef (PLit "I-SIGNAL-REF"));
           RPut "setISignalGroupRef" (VLeafX RRef (PLit "I-SIGNAL-GROUP-REF"));
           RPut "setPackingByteOrder" (VLeafX RLiteral (PLit "PACKING-BYTE-ORDER"));
           RPut "setStartPosition" (VLeafX RNumerical (PLit "START-POSITION"));
           RPut "setTransferProperty" (VLeafX RLiteral (PLit "TRANSFER-PROPERTY"));
           RPut "setUpdateIndicationBitPosition" (VLeafX RNumerical (PLit "UPDATE-INDICATION-BIT-POSITION"))]]],
   None).
(** arxml_parser.py:8610-8619 *)
Definition r_getDataFilter : list ri * option vx :=
  ([],
   Some (VFindX PKey (VNewX "DataFilter" false [RPut "setDataFilterType" (VLeafX RLiteral (PLit "DATA-FILTER-TYPE"));
       RPut "setMask" (VLeafX RInteger (PLit "MASK"));
       RPut "setX" (VLeafX RInteger (PLit "X"))]) VNoneX)).
(** arxml_parser.py:8621-8629 *)
Definition r_getTransmissionModeConditions : list ri * option vx :=
  ([],
   Some (VListX [RFor PKey
        [RPut "append" (VNewX "TransmissionModeCondition" false [RPut "setDataFilter" (VGetX "getDataFilter" (Some (TLit "DATA-FILTER")));
             RPut "setISignalInIPduRef" (VLeafX RRef (PLit "I-SIGNAL-IN-I-PDU-REF"))])]])).
(** arxml_parser.py:8631-8637 *)
Definition r_getTimeRangeType : list ri * option vx :=
  ([],
   Some (VFindX PKey (VNewX "TimeRangeType" false [RPut "setValue" (VLeafX RTime (PLit "VALUE"))]) VNoneX)).
(** arxml_parser.py:8639-8646 *)
Definition r_getCyclicTiming : list ri * option vx :=
  ([],
   Some (VFindX PKey (VNewX "CyclicTiming" false [RPut "setTimeOffset" (VGetX "getTimeRangeType" (Some (TLit "TIME-OFFSET")));
       RPut "setTimePeriod" (VGetX "getTimeRangeType" (Some (TLit "TIME-PERIOD")))]) VNoneX)).
(** arxml_parser.py:8648-8655 *)
Definition r_getEventControlledTiming : list ri * option vx :=
  ([],
   Some (VFindX PKey (VNewX "EventControlledTiming" false [RPut "setNumberOfRepetitions" (VLeafX RInteger (PLit "NUMBER-OF-REPETITIONS"));
       RPut "setRepetitionPeriod" (VGetX "getTimeRangeType" (Some (TLit "REPETITION-PERIOD")))]) VNoneX)).
(** arxml_parser.py:8657-8665 *)
Definition r_getTransmissionModeTiming : list ri * option vx :=
  ([],
   Some (VFindX PKey (VNewX "TransmissionModeTiming" false [RPut "setCyclicTiming" (VGetX "getCyclicTiming" (Some (TLit "CYCLIC-TIMING")));
       RPut "setEventControlledTiming" (VGetX "getEventControlledTiming" (Some (TLit "EVENT-CONTROLLED-TIMING")))]) VNoneX)).
(** arxml_parser.py:8667-8676 *)
Definition r_getTransmissionModeDeclaration : list ri * option vx :=
  ([],
   Some (VFindX PKey (VNewX "TransmissionModeDeclaration" false [RForVal (VGetX "getTransmissionModeConditions" (Some (TLit "TRANSMISSION-MODE-CONDITIONS/TRANSMISSION-MODE-CONDITION")))
         [RPut "addTransmissionModeCondition" VItemX];
       RPut "setTransmissionModeFalseTiming" (VGetX "getTransmissionModeTiming" (Some (TLit "TRANSMISSION-MODE-FALSE-TIMING")));
       RPut "setTransmissionModeTrueTiming" (VGetX "getTransmissionModeTiming" (Some (TLit "TRANSMISSION-MODE-TRUE-TIMING")))]) VNoneX)).
(** arxml_parser.py:8678-8685 *)
Definition r_getISignalIPduIPduTimingSpecification : list ri * option vx :=
  ([],
   Some (VFindX (PLit "I-PDU-TIMING-SPECIFICATIONS/I-PDU-TIMING") (VNewX "IPduTiming" false [RPut "setMinimumDelay" (VLeafX RTime (PLit "MINIMUM-DELAY"));
       RPut "setTransmissionModeDeclaration" (VGetX "getTransmissionModeDeclaration" (Some (TLit "TRANSMISSION-MODE-DECLARATION")))]) VNoneX)).
(** arxml_parser.py:8687-8693 *)
Definition r_readISignalIPdu : list ri * option vx :=
  ([RCall "readIdentifiable" None;
     RPut "setLength" (VLeafX RNumerical (PLit "LENGTH"));
     RPut "setIPduTimingSpecification" (VGetX "getISignalIPduIPduTimingSpecification" None);
     RCall "readISignalToPduMappings" None;
     RPut "setUnusedBitPattern" (VLeafX RInteger (PLit "UNUSED-BIT-PATTERN"))],
   None).
(** arxml_parser.py:8695-8699 *)
Definition r_getISignalIPduRefs : list ri * option vx :=
  ([],
   Some (VListX [RFor (PLit "I-SIGNAL-I-PDUS/I-SIGNAL-I-PDU-REF-CONDITIONAL")
        [RPut "append" (VLeafX RRef (PLit "I-SIGNAL-I-PDU-REF"))]])).
(** arxml_parser.py:8701-8709 *)
Definition r_readISignalIPduGroup : list ri * option vx :=
  ([RCall "readIdentifiable" None;
     RPut "setCommunicationDirection" (VLeafX RLiteral (PLit "COMMUNICATION-DIRECTION"));
     RPut "setCommunicationMode" (VLeafX RLiteral (PLit "COMMUNICATION-MODE"));
     RForVal (VLeafsX RRef (PLit "CONTAINED-I-SIGNAL-I-PDU-GROUP-REFS/CONTAINED-I-SIGNAL-I-PDU-GROUP-REF"))
       [RPut "addContainedISignalIPduGroupRef" VItemX];
     RForVal (VGetX "getISignalIPduRefs" None)
       [RPut "addISignalIPduRef" VItemX]],
   None).
(** arxml_parser.py:8711-8715 ; the log message asks the reference for its value without testing it *)
Definition r_readSenderReceiverToSignalMapping : list ri * option vx :=
  ([RPut "setCommunicationDirection" (VLeafX RLiteral (PLit "COMMUNICATION-DIRECTION"));
     RPut "setDataElementIRef" (VFindX (PLit "DATA-ELEMENT-IREF") (VGetX "getVariableDataPrototypeInSystemInstanceRef" None) VNoneX);
     RPut "setSystemSignalRef" (VLeafX RRef (PLit "SYSTEM-SIGNAL-REF"));
     RIf (CObjHas [GM "getSystemSignalRef"]) [] [RFail AttributeError false]],
   None).
(** arxml_parser.py:8717-8718 *)
Definition r_readSenderRecCompositeTypeMapping : list ri * option vx :=
  ([RAttrs],
   None).
(** arxml_parser.py:8720-8724 *)
Definition r_readSenderRecRecordElementMapping : list ri * option vx :=
  ([RAttrs;
     RPut "setApplicationRecordElementRef" (VLeafX RRef (PLit "APPLICATION-RECORD-ELEMENT-REF"));
     RPut "setImplementationRecordElementRef" (VLeafX RRef (PLit "IMPLEMENTATION-RECORD-ELEMENT-REF"));
     RPut "setSystemSignalRef" (VLeafX RRef (PLit "SYSTEM-SIGNAL-REF"))],
   None).
(** arxml_parser.py:8726-8734 *)
Definition r_readSenderRecArrayTypeMappingRecordElementMapping : list ri * option vx :=
  ([RFor (PLit "RECORD-ELEMENT-MAPPINGS/*")
       [RIf (CTag "SENDER-REC-RECORD-ELEMENT-MAPPING")
          [RPut "addRecordElementMapping" (VNewX "SenderRecRecordElementMapping" false [RCall "readSenderRecRecordElementMapping" None])]
          [RFail NotImplementedError true]]],
   None).
(** arxml_parser.py:8736-8738 *)
Definition r_readSenderRecRecordTypeMapping : list ri * option vx :=
  ([RCall "readSenderRecCompositeTypeMapping" None;
     RCall "readSenderRecArrayTypeMappingRecordElementMapping" None],
   None).
(** arxml_parser.py:8740-8749 *)
Definition r_readSenderReceiverToSignalGroupMappingTypeMapping : list ri * option vx :=
  ([RFind (PLit "TYPE-MAPPING/*")
       [RIf (CTag "SENDER-REC-RECORD-TYPE-MAPPING")
          [RPut "setTypeMapping" (VNewX "SenderRecRecordTypeMapping" false [RCall "readSenderRecRecordTypeMapping" None])]
          [RFail NotImplementedError true]]
       []],
   None).
(** arxml_parser.py:8751-8754 *)
Definition r_readSenderReceiverToSignalGroupMapping : list ri * option vx :=
  ([RPut "setDataElementIRef" (VFindX (PLit "DATA-ELEMENT-IREF") (VGetX "getVariableDataPrototypeInSystemInstanceRef" None) VNoneX);
     RPut "setSignalGroupRef" (VLeafX RRef (PLit "SIGNAL-GROUP-REF"));
     RCall "readSenderReceiverToSignalGroupMappingTypeMapping" None],
   None).
(** arxml_parser.py:8756-8768 *)
Definition r_readSystemMappingDataMappings : list ri * option vx :=
  ([RFor (PLit "DATA-MAPPINGS/*")
       [RIf (CTag "SENDER-RECEIVER-TO-SIGNAL-MAPPING")
          [RPut "addDataMapping" (VNewX "SenderReceiverToSignalMapping" false [RCall "readSenderReceiverToSignalMapping" None])]
          [RIf (CTag "SENDER-RECEIVER-TO-SIGNAL-GROUP-MAPPING")
             [RPut "addDataMapping" (VNewX "SenderReceiverToSignalGroupMapping" false [RCall "readSenderReceiverToSignalGroupMapping" None])]
             [RFail NotImplementedError true]]]],
   None).
(** arxml_parser.py:8770-8775 *)
Definition r_readSwcToEcuMapping : list ri * option vx :=
  ([RCall "readIdentifiable" None;
     RFor (PLit "COMPONENT-IREFS/COMPONENT-IREF")
       [RPut "addComponentIRef" (VGetX "getComponentInSystemInstanceRef" None)];
     RPut "setEcuInstanceRef" (VLeafX RRef (PLit "ECU-INSTANCE-REF"))],
   None).
(** arxml_parser.py:8777-8784 *)
Definition r_readSystemMappingSwMappings : list ri * option vx :=
  ([RFor (PLit "SW-MAPPINGS/*")
       [RIf (CTag "SWC-TO-ECU-MAPPING")
          [RCreate "createSwcToEcuMapping" true
             [RCall "readSwcToEcuMapping" None]]
          [RFail NotImplementedError true]]],
   None).
(** arxml_parser.py:8786-8789 *)
Definition r_readEcuMapping : list ri * option vx :=
  ([RCall "readIdentifiable" None;
     RPut "setEcuInstanceRef" (VLeafX RRef (PLit "ECU-INSTANCE-REF"));
     RPut "setEcuRef" (VLeafX RRef (PLit "ECU-REF"))],
   None).
(** arxml_parser.py:8791-8798 *)
Definition r_readSystemMappingEcuResourceMappings : list ri * option vx :=
  ([RFor (PLit "ECU-RESOURCE-MAPPINGS/*")
       [RIf (CTag "ECU-MAPPING")
          [RCreate "createECUMapping" true
             [RCall "readEcuMapping" None]]
          [RFail NotImplementedError true]]],
   None).
(** arxml_parser.py:8800-8804 *)
Definition r_readSwcToImplMapping : list ri * option vx :=
  ([RCall "readIdentifiable" None;
     RPut "setComponentImplementationRef" (VLeafX RRef (PLit "COMPONENT-IMPLEMENTATION-REF"));
     RFor (PLit "COMPONENT-IREFS/COMPONENT-IREF")
       [RPut "addComponentIRef" (VGetX "getComponentInSystemInstanceRef" None)]],
   None).
(** arxml_parser.py:8806-8813 *)
Definition r_readSystemMappingSwImplMappings : list ri * option vx :=
  ([RFor (PLit "SW-IMPL-MAPPINGS/*")
       [RIf (CTag "SWC-TO-IMPL-MAPPING")
          [RCreate "createSwcToImplMapping" true
             [RCall "readSwcToImplMapping" None]]
          [RFail NotImplementedError true]]],
   None).
(** arxml_parser.py:8815-8821 *)
Definition r_readSystemMapping : list ri * option vx :=
  ([RCall "readIdentifiable" None;
     RCall "readSystemMappingDataMappings" None;
     RCall "readSystemMappingEcuResourceMappings" None;
     RCall "readSystemMappingSwImplMappings" None;
     RCall "readSystemMappingSwMappings" None],
   None).
(** arxml_parser.py:8823-8830 *)
Definition r_readSystemMappings : list ri * option vx :=
  ([RFor (PLit "MAPPINGS/*")
       [RIf (CTag "SYSTEM-MAPPING")
          [RCreate "createSystemMapping" true
             [RCall "readSystemMapping" None]]
          [RFail NotImplementedError true]]],
   None).
(** arxml_parser.py:8832-8847 *)
Definition r_readRootSwCompositionPrototype : list ri * option vx :=
  ([RFind (PLit "ROOT-SOFTWARE-COMPOSITIONS/ROOT-SW-COMPOSITION-PROTOTYPE")
       [RCreate "createRootSoftwareComposition" true
          [RCall "readIdentifiable" None;
           RForVal (VLeafsX RRef (PLit "CALIBRATION-PARAMETER-VALUE-SET-REFS/CALIBRATION-PARAMETER-VALUE-SET-REF"))
             [RPut "addCalibrationParameterValueSetRef" VItemX];
           RPut "setFlatMapRef" (VLeafX RRef (PLit "FLAT-MAP-REF"));
           RPut "setSoftwareCompositionTRef" (VLeafX RRef (PLit "SOFTWARE-COMPOSITION-TREF"))]]
       []],
   None).
(** arxml_parser.py:8849-8851 *)
Definition r_readSystemFibexElementRefs : list ri * option vx :=
  ([RForVal (VLeafsX RRef (PLit "FIBEX-ELEMENTS/FIBEX-ELEMENT-REF-CONDITIONAL/FIBEX-ELEMENT-REF"))
       [RPut "addFibexElementRef" VItemX]],
   None).
(** arxml_parser.py:8853-8862 *)
Definition r_readSystem : list ri * option vx :=
  ([RCall "readIdentifiable" None;
     RPut "setEcuExtractVersion" (VLeafX RLiteral (PLit "ECU-EXTRACT-VERSION"));
     RCall "readSystemFibexElementRefs" None;
     RCall "readSystemMappings" None;
     RCall "readRootSwCompositionPrototype" None;
     RPut "setSystemVersion" (VLeafX RRevision (PLit "SYSTEM-VERSION"))],
   None).
(** arxml_parser.py:8864-8866 *)
Definition r_readGenericEthernetFrame : list ri * option vx :=
  ([RCall "readFrame" None],
   None).
(** arxml_parser.py:8868-8874 *)
Definition r_getLifeCyclePeriod : list ri * option vx :=
  ([],
   Some (VFindX PKey (VNewX "LifeCyclePeriod" false [RPut "setArReleaseVersion" (VLeafX RRevision (PLit "AR-RELEASE-VERSION"))]) VNoneX)).
(** arxml_parser.py:8876-8878 *)
Definition r_readLifeCycleInfoUseInsteadRefs : list ri * option vx :=
  ([RForVal (VLeafsX RRef (PLit "USE-INSTEAD-REFS/USE-INSTEAD-REF"))
       [RPut "addUseInsteadRef" VItemX]],
   None).
(** arxml_parser.py:8880-8886 *)
Definition r_readLifeCycleInfo : list ri * option vx :=
  ([RAttrs;
     RPut "setLcObjectRef" (VLeafX RRef (PLit "LC-OBJECT-REF"));
     RPut "setLcStateRef" (VLeafX RRef (PLit "LC-STATE-REF"));
     RPut "setPeriodBegin" (VGetX "getLifeCyclePeriod" (Some (TLit "PERIOD-BEGIN")));
     RPut "setRemark" (VGetX "getDocumentationBlock" (Some (TLit "REMARK")));
     RCall "readLifeCycleInfoUseInsteadRefs" None],
   None).
(** arxml_parser.py:8888-8896 *)
Definition r_readLifeCycleInfoSetLifeCycleInfos : list ri * option vx :=
  ([RFor (PLit "LIFE-CYCLE-INFOS/*")
       [RIf (CTag "LIFE-CYCLE-INFO")
          [RPut "addLifeCycleInfo" (VNewX "LifeCycleInfo" false [RCall "readLifeCycleInfo" None])]
          [RFail NotImplementedError true]]],
   None).
(** arxml_parser.py:8898-8903 *)
Definition r_readLifeCycleInfoSet : list ri * option vx :=
  ([RCall "readIdentifiable" None;
     RPut "setDefaultLcStateRef" (VLeafX RRef (PLit "DEFAULT-LC-STATE-REF"));
     RCall "readLifeCycleInfoSetLifeCycleInfos" None;
     RPut "setUsedLifeCycleStateDefinitionGroupRef" (VLeafX RRef (PLit "USED-LIFE-CYCLE-STATE-DEFINITION-GROUP-REF"))],
   None).
(** arxml_parser.py:8905-8909 *)
Definition r_readFlatInstanceDescriptor : list ri * option vx :=
  ([RCall "readIdentifiable" None;
     RPut "setUpstreamReferenceIRef" (VGetX "getAnyInstanceRef" (Some (TLit "UPSTREAM-REFERENCE-IREF")));
     RPut "setEcuExtractReferenceIRef" (VGetX "getAnyInstanceRef" (Some (TLit "ECU-EXTRACT-REFERENCE-IREF")))],
   None).
(** arxml_parser.py:8911-8918 *)
Definition r_readFlatMapInstances : list ri * option vx :=
  ([RFor (PLit "INSTANCES/*")
       [RIf (CTag "FLAT-INSTANCE-DESCRIPTOR")
          [RCreate "createFlatInstanceDescriptor" true
             [RCall "readFlatInstanceDescriptor" None]]
          [RFail NotImplementedError true]]],
   None).
(** arxml_parser.py:8920-8923 *)
Definition r_readFlatMap : list ri * option vx :=
  ([RCall "readIdentifiable" None;
     RCall "readFlatMapInstances" None],
   None).
(** arxml_parser.py:8925-8938 *)
Definition r_getDataPrototypeMappings : list ri * option vx :=
  ([],
   Some (VListX [RFor (PKeyThen "/DATA-PROTOTYPE-MAPPING")
        [RPut "append" (VNewX "DataPrototypeMapping" false [RPut "setFirstDataPrototypeRef" (VLeafX RRef (PLit "FIRST-DATA-PROTOTYPE-REF"));
             RPut "setFirstToSecondDataTransformationRef" (VLeafX RRef (PLit "FIRST-TO-SECOND-DATA-TRANSFORMATION-REF"));
             RPut "setSecondDataPrototypeRef" (VLeafX RRef (PLit "SECOND-DATA-PROTOTYPE-REF"));
             RPut "setSecondToFirstDataTransformationRef" (VLeafX RRef (PLit "SECOND-TO-FIRST-DATA-TRANSFORMATION-REF"));
             RFor (PLit "SUB-ELEMENT-MAPPINGS/SUB-ELEMENT-MAPPING")
               [RPut "addSubElementMapping" (VGetX "getSubElementMapping" None)];
             RFor (PLit "TEXT-TABLE-MAPPINGS/TEXT-TABLE-MAPPING")
               [RPut "addTextTableMapping" (VGetX "getTextTableMapping" None)]])]])).
(** arxml_parser.py:8940-8954 *)
Definition r_getSubElementMapping : list ri * option vx :=
  ([RFor (PLit "FIRST-ELEMENTS/*")
       [RIf (CTag "APPLICATION-COMPOSITE-DATA-TYPE-SUB-ELEMENT-REF")
          []
          [RFail NotImplementedError true]];
     RFor (PLit "SECOND-ELEMENTS/*")
       [RIf (CTag "APPLICATION-COMPOSITE-DATA-TYPE-SUB-ELEMENT-REF")
          []
          [RFail NotImplementedError true]]],
   Some (VNewX "SubElementMapping" false [RFor (PLit "FIRST-ELEMENTS/*")
        [RIf (CTag "APPLICATION-COMPOSITE-DATA-TYPE-SUB-ELEMENT-REF")
           [RPut "setFirstElement" (VGetX "getApplicationCompositeElementInPortInterfaceInstanceRef" (Some (TLit "APPLICATION-COMPOSITE-ELEMENT-IREF")))]
           []];
      RFor (PLit "SECOND-ELEMENTS/*")
        [RIf (CTag "APPLICATION-COMPOSITE-DATA-TYPE-SUB-ELEMENT-REF")
           [RPut "setSecondElement" (VGetX "getApplicationCompositeElementInPortInterfaceInstanceRef" (Some (TLit "APPLICATION-COMPOSITE-ELEMENT-IREF")))]
           []];
      RFor (PLit "TEXT-TABLE-MAPPINGS/TEXT-TABLE-MAPPING")
        [RPut "addTextTableMapping" (VGetX "getTextTableMapping" None)]])).
(** arxml_parser.py:8956-8962 *)
Definition r_getTextTableMapping : list ri * option vx :=
  ([],
   Some (VNewX "TextTableMapping" false [RPut "setBitfieldTextTableMaskFirst" (VLeafX RPositive (PLit "BITFIELD-TEXT-TABLE-MASK-FIRST"));
      RPut "setBitfieldTextTableMaskSecond" (VLeafX RPositive (PLit "BITFIELD-TEXT-TABLE-MASK-SECOND"));
      RPut "setIdenticalMapping" (VLeafX RBool (PLit "IDENTICAL-MAPPING"));
      RPut "setMappingDirection" (VLeafX RLiteral (PLit "MAPPING-DIRECTION"))])).
(** arxml_parser.py:8964-8968 *)
Definition r_readVariableAndParameterInterfaceMapping : list ri * option vx :=
  ([RCall "readIdentifiable" None;
     RForVal (VGetX "getDataPrototypeMappings" (Some (TLit "DATA-MAPPINGS")))
       [RPut "addDataMapping" VItemX]],
   None).
(** arxml_parser.py:8970-8972 *)
Definition r_readClientServerOperationMapping : list ri * option vx :=
  ([RPut "setFirstOperationRef" (VLeafX RRef (PLit "FIRST-OPERATION-REF"));
     RPut "setSecondOperationRef" (VLeafX RRef (PLit "SECOND-OPERATION-REF"))],
   None).
(** arxml_parser.py:8974-8982 *)
Definition r_readClientServerInterfaceMappingOperationMappings : list ri * option vx :=
  ([RFor (PLit "OPERATION-MAPPINGS/*")
       [RIf (CTag "CLIENT-SERVER-OPERATION-MAPPING")
          [RPut "addOperationMapping" (VNewX "ClientServerOperationMapping" false [RCall "readClientServerOperationMapping" None])]
          [RFail NotImplementedError true]]],
   None).
(** arxml_parser.py:8984-8987 *)
Definition r_readClientServerInterfaceMapping : list ri * option vx :=
  ([RCall "readIdentifiable" None;
     RCall "readClientServerInterfaceMappingOperationMappings" None],
   None).
(** arxml_parser.py:8989-8996 *)
Definition r_readModeInterfaceMappingModeMapping : list ri * option vx :=
  ([RFind (PLit "MODE-MAPPING")
       [RPut "setModeMapping" (VNewX "ModeDeclarationGroupPrototypeMapping" false [RPut "setFirstModeGroupRef" (VLeafX RRef (PLit "FIRST-MODE-GROUP-REF"));
            RPut "setModeDeclarationMappingSetRef" (VLeafX RRef (PLit "MODE-DECLARATION-MAPPING-SET-REF"));
            RPut "setSecondModeGroupRef" (VLeafX RRef (PLit "SECOND-MODE-GROUP-REF"))])]
       []],
   None).
(** arxml_parser.py:8998-9001 *)
Definition r_readModeInterfaceMapping : list ri * option vx :=
  ([RCall "readIdentifiable" None;
     RCall "readModeInterfaceMappingModeMapping" None],
   None).
(** arxml_parser.py:9003-9016 *)
Definition r_readPortInterfaceMappings : list ri * option vx :=
  ([RFor (PLit "PORT-INTERFACE-MAPPINGS/*")
       [RIf (CTag "VARIABLE-AND-PARAMETER-INTERFACE-MAPPING")
          [RCreate "createVariableAndParameterInterfaceMapping" true
             [RCall "readVariableAndParameterInterfaceMapping" None]]
          [RIf (CTag "CLIENT-SERVER-INTERFACE-MAPPING")
             [RCreate "createClientServerInterfaceMapping" true
                [RCall "readClientServerInterfaceMapping" None]]
             [RIf (CTag "MODE-INTERFACE-MAPPING")
                [RCreate "createModeInterfaceMapping" true
                   [RCall "readModeInterfaceMapping" None]]
                [RFail NotImplementedError true]]]]],
   None).
(** arxml_parser.py:9018-9021 *)
Definition r_readPortInterfaceMappingSet : list ri * option vx :=
  ([RCall "readIdentifiable" None;
     RCall "readPortInterfaceMappings" None],
   None).
(** arxml_parser.py:9023-9318 *)
Definition r_readARPackageElements : list ri * option vx :=
  ([RFor (PLit "ELEMENTS/*")
       [RIf (CTag "COMPOSITION-SW-COMPONENT-TYPE")
          [RCreate "createCompositionSwComponentType" true
             [RCall "readCompositionSwComponentType" None]]
          [RIf (CTag "DATA-PROTOTYPE-GROUP")
             [RCreate "createDataPrototypeGroup" true
                [RCall "readDataPrototypeGroup" None]]
             [RIf (CTag "RUNNABLE-ENTITY-GROUP")
                [RCreate "createRunnableEntityGroup" true
                   [RCall "readRunnableEntityGroup" None]]
                [RIf (CTag "CONSISTENCY-NEEDS")
                   [RCreate "createConsistencyNeeds" true
                      [RCall "readConsistencyNeeds" None]]
                   [RIf (CTag "COMPLEX-DEVICE-DRIVER-SW-COMPONENT-TYPE")
                      [RCreate "createComplexDeviceDriverSwComponentType" true
                         [RCall "readComplexDeviceDriverSwComponentType" None]]
                      [RIf (CTag "SWC-IMPLEMENTATION")
                         [RCreate "createSwcImplementation" true
                            [RCall "readSwcImplementation" None]]
                         [RIf (CTag "APPLICATION-PRIMITIVE-DATA-TYPE")
                            [RCreate "createApplicationPrimitiveDataType" true
                               [RCall "readApplicationPrimitiveDataType" None]]
                            [RIf (CTag "APPLICATION-RECORD-DATA-TYPE")
                               [RCreate "createApplicationRecordDataType" true
                                  [RCall "readApplicationRecordDataType" None]]
                               [RIf (CTag "SW-BASE-TYPE")
                                  [RCreate "createSwBaseType" true
                                     [RCall "readSwBaseType" None]]
                                  [RIf (CTag "COMPU-METHOD")
                                     [RCreate "createCompuMethod" true
                                        [RCall "readCompuMethod" None]]
                                     [RIf (CTag "CONSTANT-SPECIFICATION")
                                        [RCreate "createConstantSpecification" true
                                           [RCall "readConstantSpecification" None]]
                                        [RIf (CTag "DATA-CONSTR")
                                           [RCreate "createDataConstr" true
                                              [RCall "readDataConstr" None]]
                                           [RIf (CTag "END-TO-END-PROTECTION-SET")
                                              [RCreate "createEndToEndProtectionSet" true
                                                 [RCall "readEndToEndProtectionSet" None]]
                                              [RIf (CTag "SENDER-RECEIVER-INTERFACE")
                                                 [RCreate "createSenderReceiverInterface" true
                                                    [RCall "readSenderReceiverInterface" None]]
                                                 [RIf (CTag "UNIT")
                                                    [RCreate "createUnit" true
                                                       [RCall "readUnit" None]]
                                                    [RIf (CTag "BSW-MODULE-DESCRIPTION")
                                                       [RCreate "createBswModuleDescription" true
                                                          [RCall "readBswModuleDescription" None]]
                                                       [RIf (CTag "BSW-MODULE-ENTRY")
                                                          [RCreate "createBswModuleEntry" true
                                                             [RCall "readBswModuleEntry" None]]
                                                          [RIf (CTag "SWC-BSW-MAPPING")
                                                             [RCreate "createSwcBswMapping" true
                                                                [RCall "readSwcBswMapping" None]]
                                                             [RIf (CTag "BSW-IMPLEMENTATION")
                                                                [RCreate "createBswImplementation" true
                                                                   [RCall "readBswImplementation" None]]
                                                                [RIf (CTag "IMPLEMENTATION-DATA-TYPE")
                                                                   [RCreate "createImplementationDataType" true
                                                                      [RCall "readImplementationDataType" None]]
                                                                   [RIf (CTag "CLIENT-SERVER-INTERFACE")
                                                                      [RCreate "createClientServerInterface" true
                                                                         [RCall "readClientServerInterface" None]]
                                                                      [RIf (CTag "APPLICATION-SW-COMPONENT-TYPE")
                                                                         [RCreate "createApplicationSwComponentType" true
                                                                            [RCall "readApplicationSwComponentType" None]]
                                                                         [RIf (CTag "ECU-ABSTRACTION-SW-COMPONENT-TYPE")
                                                                            [RCreate "createEcuAbstractionSwComponentType" true
                                                                               [RCall "readEcuAbstractionSwComponentType" None]]
                                                                            [RIf (CTag "APPLICATION-ARRAY-DATA-TYPE")
                                                                               [RCreate "createApplicationArrayDataType" true
                                                                                  [RCall "readApplicationArrayDataType" None]]
                                                                               [RIf (CTag "SW-RECORD-LAYOUT")
                                                                                  [RCreate "createSwRecordLayout" true
                                                                                     [RCall "readSwRecordLayout" None]]
                                                                                  [RIf (CTag "SW-ADDR-METHOD")
                                                                                     [RCreate "createSwAddrMethod" true
                                                                                        [RCall "readSwAddrMethod" None]]
                                                                                     [RIf (CTag "TRIGGER-INTERFACE")
                                                                                        [RCreate "createTriggerInterface" true
                                                                                           [RCall "readTriggerInterface" None]]
                                                                                        [RIf (CTag "SERVICE-SW-COMPONENT-TYPE")
                                                                                           [RCreate "createServiceSwComponentType" true
                                                                                              [RCall "readServiceSwComponentType" None]]
                                                                                           [RIf (CTag "SENSOR-ACTUATOR-SW-COMPONENT-TYPE")
                                                                                              [RCreate "createSensorActuatorSwComponentType" true
                                                                                                 [RCall "readSensorActuatorSwComponentType" None]]
                                                                                              [RIf (CTag "NV-BLOCK-SW-COMPONENT-TYPE")
                                                                                                 [RCreate "createNvBlockSwComponentType" true
                                                                                                    [RCall "readNvBlockSwComponentType" None]]
                                                                                                 [RIf (CTag "SERVICE-PROXY-SW-COMPONENT-TYPE")
                                                                                                    [RCreate "createServiceProxySwComponentType" true
                                                                                                       [RCall "readServiceProxySwComponentType" None]]
                                                                                                    [RIf (CTag "DATA-TYPE-MAPPING-SET")
                                                                                                       [RCreate "createDataTypeMappingSet" true
                                                                                                          [RCall "readDataTypeMappingSet" None]]
                                                                                                       [RIf (CTag "MODE-DECLARATION-GROUP")
                                                                                                          [RCreate "createModeDeclarationGroup" true
                                                                                                             [RCall "readModeDeclarationGroup" None]]
                                                                                                          [RIf (CTag "MODE-SWITCH-INTERFACE")
                                                                                                             [RCreate "createModeSwitchInterface" true
                                                                                                                [RCall "readModeSwitchInterface" None]]
                                                                                                             [RIf (CTag "SWC-TIMING")
                                                                                                                [RCreate "createSwcTiming" true
                                                                                                                   [RCall "readSwcTiming" None]]
                                                                                                                [RIf (CTag "LIN-CLUSTER")
                                                                                                                   [RCreate "createLinCluster" true
                                                                                                                      [RCall "readLinCluster" None]]
                                                                                                                   [RIf (CTag "LIN-UNCONDITIONAL-FRAME")
                                                                                                                      [RCreate "createLinUnconditionalFrame" true
                                                                                                                         [RCall "readLinUnconditionalFrame" None]]
                                                                                                                      [RIf (CTag "NM-PDU")
                                                                                                                         [RCreate "createNmPdu" true
                                                                                                                            [RCall "readNmPdu" None]]
                                                                                                                         [RIf (CTag "N-PDU")
                                                                                                                            [RCreate "createNPdu" true
                                                                                                                               [RCall "readNPdu" None]]
                                                                                                                            [RIf (CTag "DCM-I-PDU")
                                                                                                                               [RCreate "createDcmIPdu" true
                                                                                                                                  [RCall "readDcmIPdu" None]]
                                                                                                                               [RIf (CTag "SECURED-I-PDU")
                                                                                                                                  [RCreate "createSecuredIPdu" true
                                                                                                                                     [RCall "readSecuredIPdu" None]]
                                                                                                                                  [RIf (CTag "NM-CONFIG")
                                                                                                                                     [RCreate "createNmConfig" true
                                                                                                                                        [RCall "readNmConfig" None]]
                                                                                                                                     [RIf (CTag "CAN-TP-CONFIG")
                                                                                                                                        [RCreate "createCanTpConfig" true
                                                                                                                                           [RCall "readCanTpConfig" None]]
                                                                                                                                        [RIf (CTag "LIN-TP-CONFIG")
                                                                                                                                           [RCreate "createLinTpConfig" true
                                                                                                                                              [RCall "readLinTpConfig" None]]
                                                                                                                                           [RIf (CTag "SYSTEM")
                                                                                                                                              [RCreate "createSystem" true
                                                                                                                                                 [RCall "readSystem" None]]
                                                                                                                                              [RIf (CTag "ECU-INSTANCE")
                                                                                                                                                 [RCreate "createEcuInstance" true
                                                                                                                                                    [RCall "readEcuInstance" None]]
                                                                                                                                                 [RIf (CTag "GATEWAY")
                                                                                                                                                    [RCreate "createGateway" true
                                                                                                                                                       [RCall "readGateway" None]]
                                                                                                                                                    [RIf (CTag "I-SIGNAL-I-PDU-GROUP")
                                                                                                                                                       [RCreate "createISignalIPduGroup" true
                                                                                                                                                          [RCall "readISignalIPduGroup" None]]
                                                                                                                                                       [RIf (CTag "CAN-CLUSTER")
                                                                                                                                                          [RCreate "createCanCluster" true
                                                                                                                                                             [RCall "readCanCluster" None]]
                                                                                                                                                          [RIf (CTag "CAN-FRAME")
                                                                                                                                                             [RCreate "createCanFrame" true
                                                                                                                                                                [RCall "readCanFrame" None]]
                                                                                                                                                             [RIf (CTag "I-SIGNAL")
                                                                                                                                                                [RCreate "createISignal" true
                                                                                                                                                                   [RCall "readISignal" None]]
                                                                                                                                                                [RIf (CTag "I-SIGNAL-GROUP")
                                                                                                                                                                   [RCreate "createISignalGroup" true
                                                                                                                                                                      [RCall "readISignalGroup" None]]
                                                                                                                                                                   [RIf (CTag "I-SIGNAL-I-PDU")
                                                                                                                                                                      [RCreate "createISignalIPdu" true
                                                                                                                                                                         [RCall "readISignalIPdu" None]]
                                                                                                                                                                      [RIf (CTag "SYSTEM-SIGNAL")
                                                                                                                                                                         [RCreate "createSystemSignal" true
                                                                                                                                                                            [RCall "readSystemSignal" None]]
                                                                                                                                                                         [RIf (CTag "SYSTEM-SIGNAL-GROUP")
                                                                                                                                                                            [RCreate "createSystemSignalGroup" true
                                                                                                                                                                               [RCall "readSystemSignalGroup" None]]
                                                                                                                                                                            [RIf (CTag "SIGNAL-SERVICE-TRANSLATION-PROPS-SET")
                                                                                                                                                                               [RCreate "createSignalServiceTranslationPropsSet" true
                                                                                                                                                                                  [RCall "readSignalServiceTranslationPropsSet" None]]
                                                                                                                                                                               [RIf (CTag "ECUC-VALUE-COLLECTION")
                                                                                                                                                                                  [RCreate "createEcucValueCollection" true
                                                                                                                                                                                     [RCall "readEcucValueCollection" None]]
                                                                                                                                                                                  [RIf (CTag "ECUC-MODULE-CONFIGURATION-VALUES")
                                                                                                                                                                                     [RCreate "createEcucModuleConfigurationValues" true
                                                                                                                                                                                        [RCall "readEcucModuleConfigurationValues" None]]
                                                                                                                                                                                     [RIf (CTag "PHYSICAL-DIMENSION")
                                                                                                                                                                                        [RCreate "createPhysicalDimension" true
                                                                                                                                                                                           [RCall "readPhysicalDimension" None]]
                                                                                                                                                                                        [RIf (CTag "PARAMETER-INTERFACE")
                                                                                                                                                                                           [RCreate "createParameterInterface" true
                                                                                                                                                                                              [RCall "readParameterInterface" None]]
                                                                                                                                                                                           [RIf (CTag "ETHERNET-FRAME")
                                                                                                                                                                                              [RCreate "createGenericEthernetFrame" true
                                                                                                                                                                                                 [RCall "readGenericEthernetFrame" None]]
                                                                                                                                                                                              [RIf (CTag "LIFE-CYCLE-INFO-SET")
                                                                                                                                                                                                 [RCreate "createLifeCycleInfoSet" true
                                                                                                                                                                                                    [RCall "readLifeCycleInfoSet" None]]
                                                                                                                                                                                                 [RIf (CTag "FLAT-MAP")
                                                                                                                                                                                                    [RCreate "createFlatMap" true
                                                                                                                                                                                                       [RCall "readFlatMap" None]]
                                                                                                                                                                                                    [RIf (CTag "PORT-INTERFACE-MAPPING-SET")
                                                                                                                                                                                                       [RCreate "createPortInterfaceMappingSet" true
                                                                                                                                                                                                          [RCall "readPortInterfaceMappingSet" None]]
                                                                                                                                                                                                       [RIf (CTag "ETHERNET-CLUSTER")
                                                                                                                                                                                                          [RCreate "createEthernetCluster" true
                                                                                                                                                                                                             [RCall "readEthernetCluster" None]]
                                                                                                                                                                                                          [RIf (CTag "DIAGNOSTIC-CONNECTION")
                                                                                                                                                                                                             [RCreate "createDiagnosticConnection" true
                                                                                                                                                                                                                [RCall "readDiagnosticConnection" None]]
                                                                                                                                                                                                             [RIf (CTag "DIAGNOSTIC-SERVICE-TABLE")
                                                                                                                                                                                                                [RCreate "createDiagnosticServiceTable" true
                                                                                                                                                                                                                   [RCall "readDiagnosticServiceTable" None]]
                                                                                                                                                                                                                [RIf (CTag "DOCUMENTATION")
                                                                                                                                                                                                                   [RCreate "createDocumentation" true
                                                                                                                                                                                                                      [RCall "readDocumentation" None]]
                                                                                                                                                                                                                   [RIf (CTag "MULTIPLEXED-I-PDU")
                                                                                                                                                                                                                      [RCreate "createMultiplexedIPdu" true
                                                                                                                                                                                                                         [RCall "readMultiplexedIPdu" None]]
                                                                                                                                                                                                                      [RIf (CTag "USER-DEFINED-I-PDU")
                                                                                                                                                                                                                         [RCreate "createUserDefinedIPdu" true
                                                                                                                                                                                                                            [RCall "readUserDefinedIPdu" None]]
                                                                                                                                                                                                                         [RIf (CTag "USER-DEFINED-PDU")
                                                                                                                                                                                                                            [RCreate "createUserDefinedPdu" true
                                                                                                                                                                                                                               [RCall "readUserDefinedPdu" None]]
                                                                                                                                                                                                                            [RIf (CTag "GENERAL-PURPOSE-PDU")
                                                                                                                                                                                                                               [RCreate "createGeneralPurposePdu" true
                                                                                                                                                                                                                                  [RCall "readGeneralPurposePdu" None]]
                                                                                                                                                                                                                               [RIf (CTag "GENERAL-PURPOSE-I-PDU")
                                                                                                                                                                                                                                  [RCreate "createGeneralPurposeIPdu" true
                                                                                                                                                                                                                                     [RCall "readGeneralPurposeIPdu" None]]
                                                                                                                                                                                                                                  [RIf (CTag "SECURE-COMMUNICATION-PROPS-SET")
                                                                                                                                                                                                                                     [RCreate "createSecureCommunicationPropsSet" true
                                                                                                                                                                                                                                        [RCall "readSecureCommunicationPropsSet" None]]
                                                                                                                                                                                                                                     [RIf (CTag "SO-AD-ROUTING-GROUP")
                                                                                                                                                                                                                                        [RCreate "createSoAdRoutingGroup" true
                                                                                                                                                                                                                                           [RCall "readSoAdRoutingGroup" None]]
                                                                                                                                                                                                                                        [RIf (CTag "DO-IP-TP-CONFIG")
                                                                                                                                                                                                                                           [RCreate "createDoIpTpConfig" true
                                                                                                                                                                                                                                              [RCall "readDoIpTpConfig" None]]
                                                                                                                                                                                                                                           [RIf (CTag "HW-ELEMENT")
                                                                                                                                                                                                                                              [RCreate "createHwElement" true
                                                                                                                                                                                                                                                 [RCall "readHwElement" None]]
                                                                                                                                                                                                                                              [RIf (CTag "HW-CATEGORY")
                                                                                                                                                                                                                                                 [RCreate "createHwCategory" true
                                                                                                                                                                                                                                                    [RCall "readHwCategory" None]]
                                                                                                                                                                                                                                                 [RIf (CTag "HW-TYPE")
                                                                                                                                                                                                                                                    [RCreate "createHwType" true
                                                                                                                                                                                                                                                       [RCall "readHwType" None]]
                                                                                                                                                                                                                                                    [RIf (CTag "FLEXRAY-FRAME")
                                                                                                                                                                                                                                                       [RCreate "createFlexrayFrame" true
                                                                                                                                                                                                                                                          [RCall "readFlexrayFrame" None]]
                                                                                                                                                                                                                                                       [RIf (CTag "FLEXRAY-CLUSTER")
                                                                                                                                                                                                                                                          [RCreate "createFlexrayCluster" true
                                                                                                                                                                                                                                                             [RCall "readFlexrayCluster" None]]
                                                                                                                                                                                                                                                          [RIf (CTag "DATA-TRANSFORMATION-SET")
                                                                                                                                                                                                                                                             [RCreate "createDataTransformationSet" true
                                                                                                                                                                                                                                                                [RCall "readDataTransformationSet" None]]
                                                                                                                                                                                                                                                             [RIf (CTag "E-2-E-PROFILE-COMPATIBILITY-PROPS")
                                                                                                                                                                                                                                                                [RCreate "createE2EProfileCompatibilityProps" true
                                                                                                                                                                                                                                                                   [RCall "readE2EProfileCompatibilityProps" None]]
                                                                                                                                                                                                                                                                [RIf (CTag "COLLECTION")
                                                                                                                                                                                                                                                                   [RCreate "createCollection" true
                                                                                                                                                                                                                                                                      [RCall "readCollection" None]]
                                                                                                                                                                                                                                                                   [RIf (CTag "KEYWORD-SET")
                                                                                                                                                                                                                                                                      [RCreate "createKeywordSet" true
                                                                                                                                                                                                                                                                         [RCall "readKeywordSet" None]]
                                                                                                                                                                                                                                                                      [RIf (CTag "PORT-PROTOTYPE-BLUEPRINT")
                                                                                                                                                                                                                                                                         [RCreate "createPortPrototypeBlueprint" true
                                                                                                                                                                                                                                                                            [RCall "readPortPrototypeBlueprint" None]]
                                                                                                                                                                                                                                                                         [RIf (CTag "MODE-DECLARATION-MAPPING-SET")
                                                                                                                                                                                                                                                                            [RCreate "createModeDeclarationMappingSet" true
                                                                                                                                                                                                                                                                               [RCall "readModeDeclarationMappingSet" None]]
                                                                                                                                                                                                                                                                            [RIf (CTag "ECUC-MODULE-DEF")
                                                                                                                                                                                                                                                                               [RCreate "createEcucModuleDef" true
                                                                                                                                                                                                                                                                                  [RCall "readEcucModuleDef" None]]
                                                                                                                                                                                                                                                                               [RIf (CTag "ECUC-DEFINITION-COLLECTION")
                                                                                                                                                                                                                                                                                  [RCreate "createEcucDefinitionCollection" true
                                                                                                                                                                                                                                                                                     [RCall "readEcucDefinitionCollection" None]]
                                                                                                                                                                                                                                                                                  [RIf (CTag "ECUC-DESTINATION-URI-DEF-SET")
                                                                                                                                                                                                                                                                                     [RCreate "createEcucDestinationUriDefSet" true
                                                                                                                                                                                                                                                                                        [RCall "readEcucDestinationUriDefSet" None]]
                                                                                                                                                                                                                                                                                     [RIf (CTag "SW-SYSTEMCONST")
                                                                                                                                                                                                                                                                                        [RCreate "createSwSystemConst" true
                                                                                                                                                                                                                                                                                           [RCall "readSwSystemconst" None]]
                                                                                                                                                                                                                                                                                        [RIf (CTag "SW-SYSTEMCONSTANT-VALUE-SET")
                                                                                                                                                                                                                                                                                           [RCreate "createSwSystemconstantValueSet" true
                                                                                                                                                                                                                                                                                              [RCall "readSwSystemconstantValueSet" None]]
                                                                                                                                                                                                                                                                                           [RIf (CTag "PREDEFINED-VARIANT")
                                                                                                                                                                                                                                                                                              [RCreate "createPredefinedVariant" true
                                                                                                                                                                                                                                                                                                 [RCall "readPredefinedVariant" None]]
                                                                                                                                                                                                                                                                                              [RIf (CTag "POST-BUILD-VARIANT-CRITERION")
                                                                                                                                                                                                                                                                                                 [RCreate "createPostBuildVariantCriterion" true
                                                                                                                                                                                                                                                                                                    [RCall "readPostBuildVariantCriterion" None]]
                                                                                                                                                                                                                                                                                                 [RIf (CTag "NV-DATA-INTERFACE")
                                                                                                                                                                                                                                                                                                    [RCreate "createNvDataInterface" true
                                                                                                                                                                                                                                                                                                       [RCall "readNvDataInterface" None]]
                                                                                                                                                                                                                                                                                                    [RIf (CTag "MC-FUNCTION")
                                                                                                                                                                                                                                                                                                       [RCreate "createMcFunction" true
                                                                                                                                                                                                                                                                                                          [RCall "readMcFunction" None]]
                                                                                                                                                                                                                                                                                                       [RIf (CTag "MC-GROUP")
                                                                                                                                                                                                                                                                                                          [RCreate "createMcGroup" true
                                                                                                                                                                                                                                                                                                             [RCall "readMcGroup" None]]
                                                                                                                                                                                                                                                                                                          [RFail NotImplementedError true]]]]]]]]]]]]]]]]]]]]]]]]]]]]]]]]]]]]]]]]]]]]]]]]]]]]]]]]]]]]]]]]]]]]]]]]]]]]]]]]]]]]]]]]]]]]]]]]]]],
   None).
(** arxml_parser.py:9320-9348 *)
Definition r_readMcFunction : list ri * option vx :=
  ([RCall "readIdentifiable" None;
     RFind (PLit "DEF-CALPRM-SET")
       [RPut "setDefCalprmSet" (VNewX "McFunctionDataRefSet" false [RCall "readMcFunctionDataRefSet" None])]
       [];
     RFind (PLit "REF-CALPRM-SET")
       [RPut "setRefCalprmSet" (VNewX "McFunctionDataRefSet" false [RCall "readMcFunctionDataRefSet" None])]
       [];
     RFind (PLit "IN-MEASUREMENT-SET")
       [RPut "setInMeasurementSet" (VNewX "McFunctionDataRefSet" false [RCall "readMcFunctionDataRefSet" None])]
       [];
     RFind (PLit "LOC-MEASUREMENT-SET")
       [RPut "setLocMeasurementSet" (VNewX "McFunctionDataRefSet" false [RCall "readMcFunctionDataRefSet" None])]
       [];
     RFind (PLit "OUT-MEASUREMENT-SET")
       [RPut "setOutMeasurementSet" (VNewX "McFunctionDataRefSet" false [RCall "readMcFunctionDataRefSet" None])]
       [];
     RForVal (VLeafsX RRef (PLit "SUB-FUNCTION-REFS/SUB-FUNCTION-REF"))
       [RPut "addSubFunctionRef" VItemX]],
   None).
(** arxml_parser.py:9350-9357 *)
Definition r_readMcFunctionDataRefSet : list ri * option vx :=
  ([RFind (PLit "MC-FUNCTION-DATA-REF-SET-VARIANTS/MC-FUNCTION-DATA-REF-SET-CONDITIONAL")
       [RForVal (VLeafsX RRef (PLit "FLAT-MAP-ENTRY-REFS/FLAT-MAP-ENTRY-REF"))
          [RPut "addFlatMapEntryRef" VItemX];
        RForVal (VLeafsX RRef (PLit "MC-DATA-INSTANCE-REFS/MC-DATA-INSTANCE-REF"))
          [RPut "addMcDataInstanceRef" VItemX]]
       []],
   Some (VFindX (PLit "MC-FUNCTION-DATA-REF-SET-VARIANTS/MC-FUNCTION-DATA-REF-SET-CONDITIONAL") VNoneX VNoneX)).
(** arxml_parser.py:9359-9374 *)
Definition r_readMcGroup : list ri * option vx :=
  ([RCall "readIdentifiable" None;
     RForVal (VLeafsX RRef (PLit "SUB-GROUP-REFS/SUB-GROUP-REF"))
       [RPut "addSubGroupRef" VItemX];
     RFind (PLit "REF-CALPRM-SET")
       [RPut "setRefCalprmSet" (VNewX "McGroupDataRefSet" false [RCall "readMcGroupDataRefSet" None])]
       [];
     RFind (PLit "REF-MEASUREMENT-SET")
       [RPut "setRefMeasurementSet" (VNewX "McGroupDataRefSet" false [RCall "readMcGroupDataRefSet" None])]
       [];
     RForVal (VLeafsX RRef (PLit "MC-FUNCTION-REFS/MC-FUNCTION-REF"))
       [RPut "addMcFunctionRef" VItemX]],
   None).
(** arxml_parser.py:9376-9383 *)
Definition r_readMcGroupDataRefSet : list ri * option vx :=
  ([RFind (PLit "MC-GROUP-DATA-REF-SET-VARIANTS/MC-GROUP-DATA-REF-SET-CONDITIONAL")
       [RForVal (VLeafsX RRef (PLit "FLAT-MAP-ENTRY-REFS/FLAT-MAP-ENTRY-REF"))
          [RPut "addFlatMapEntryRef" VItemX];
        RForVal (VLeafsX RRef (PLit "MC-DATA-INSTANCE-REFS/MC-DATA-INSTANCE-REF"))
          [RPut "addMcDataInstanceRef" VItemX]]
       []],
   Some (VFindX (PLit "MC-GROUP-DATA-REF-SET-VARIANTS/MC-GROUP-DATA-REF-SET-CONDITIONAL") VNoneX VNoneX)).
(** arxml_parser.py:9385-9393 *)
Definition r_readReferenceBases : list ri * option vx :=
  ([RFor (PLit "REFERENCE-BASES/REFERENCE-BASE")
       [RPut "addReferenceBase" (VNewX "ReferenceBase" false [RPut "setShortLabel" (VLeafX RLiteral (PLit "SHORT-LABEL"));
            RPut "setIsDefault" (VLeafX RBool (PLit "IS-DEFAULT"));
            RPut "setIsGlobal" (VLeafX RBool (PLit "IS-GLOBAL"));
            RPut "setBaseIsThisPackage" (VLeafX RBool (PLit "BASE-IS-THIS-PACKAGE"));
            RPut "setPackageRef" (VLeafX RRef (PLit "PACKAGE-REF"))])]],
   None).
(** arxml_parser.py:9395-9401; the log message asks for the full name, which adds None to a string
    when the package has no name (the packages around it have one, they were read in the same way) *)
Definition r_readARPackage : list ri * option vx :=
  ([RIf (CObjHas [GA "short_name"]) [] [RFail TypeError false];
     RCall "readIdentifiable" None;
     RCall "readARPackages" None;
     RCall "readARPackageElements" None;
     RCall "readReferenceBases" None],
   None).
(** arxml_parser.py:9403-9410 *)
Definition r_readARPackages : list ri * option vx :=
  ([RFor (PLit "AR-PACKAGES/*")
       [RIf (CTag "AR-PACKAGE")
          [RCreate "createARPackage" true
             [RCall "readARPackage" None]]
          [RFail NotImplementedError true]]],
   None).
(** arxml_parser.py:2539-2553 *)
Definition r_readDependencyOnArtifact__createGeneratedArtifact : list ri * option vx :=
  ([RFind PKey
       [RFor (PLit "DEPENDENCY-ON-ARTIFACT")
          [RCreate "createGeneratedArtifact" true
             [RCall "readIdentifiable" None;
              RFind (PLit "ARTIFACT-DESCRIPTOR")
                [RPut "setArtifactDescriptor" (VGetX "getAutosarEngineeringObject" None)]
                [];
              RFind (PLit "USAGES")
                [RFor (PLit "USAGE")
                   [RPut "addUsage" (VWrapX "DependencyUsageEnum" "setValue" VTextX)]]
                []]]]
       []],
   None).
(** arxml_parser.py:2539-2553 *)
Definition r_readDependencyOnArtifact__createRequiredArtifact : list ri * option vx :=
  ([RFind PKey
       [RFor (PLit "DEPENDENCY-ON-ARTIFACT")
          [RCreate "createRequiredArtifact" true
             [RCall "readIdentifiable" None;
              RFind (PLit "ARTIFACT-DESCRIPTOR")
                [RPut "setArtifactDescriptor" (VGetX "getAutosarEngineeringObject" None)]
                [];
              RFind (PLit "USAGES")
                [RFor (PLit "USAGE")
                   [RPut "addUsage" (VWrapX "DependencyUsageEnum" "setValue" VTextX)]]
                []]]]
       []],
   None).
(** arxml_parser.py:2539-2553 *)
Definition r_readDependencyOnArtifact__createRequiredGeneratorTool : list ri * option vx :=
  ([RFind PKey
       [RFor (PLit "DEPENDENCY-ON-ARTIFACT")
          [RCreate "createRequiredGeneratorTool" true
             [RCall "readIdentifiable" None;
              RFind (PLit "ARTIFACT-DESCRIPTOR")
                [RPut "setArtifactDescriptor" (VGetX "getAutosarEngineeringObject" None)]
                [];
              RFind (PLit "USAGES")
                [RFor (PLit "USAGE")
                   [RPut "addUsage" (VWrapX "DependencyUsageEnum" "setValue" VTextX)]]
                []]]]
       []],
   None).
Definition rfuns : list (string * (list ri * option vx)) := [
  ("getChildElementRxIdentifierRange", r_getChildElementRxIdentifierRange);
  ("getChildElementJ1939NodeName", r_getChildElementJ1939NodeName);
  ("readSd", r_readSd);
  ("readSdf", r_readSdf);
  ("readSdgCaption", r_readSdgCaption);
  ("readSdgSdxRefs", r_readSdgSdxRefs);
  ("readSdgSdxfRefs", r_readSdgSdxfRefs);
  ("getSdg", r_getSdg);
  ("readBlueprintGenerator", r_readBlueprintGenerator);
  ("readConditionByFormula", r_readConditionByFormula);
  ("readPostBuildVariantCondition", r_readPostBuildVariantCondition);
  ("readVariationPoint", r_readVariationPoint);
  ("readAdminDataSdgs", r_readAdminDataSdgs);
  ("readModification", r_readModification);
  ("readDocRevisionModifications", r_readDocRevisionModifications);
  ("readDocRevision", r_readDocRevision);
  ("readAdminDataDocRevisions", r_readAdminDataDocRevisions);
  ("getAdminData", r_getAdminData);
  ("readReferrable", r_readReferrable);
  ("readMultilanguageReferrable", r_readMultilanguageReferrable);
  ("getCaption", r_getCaption);
  ("readIdentifiable", r_readIdentifiable);
  ("readARElement", r_readARElement);
  ("readLLongName", r_readLLongName);
  ("readEmphasisText", r_readEmphasisText);
  ("readIndexEntry", r_readIndexEntry);
  ("readTt", r_readTt);
  ("getMultilanguageLongName", r_getMultilanguageLongName);
  ("readLOverviewParagraph", r_readLOverviewParagraph);
  ("getMultiLanguageOverviewParagraph", r_getMultiLanguageOverviewParagraph);
  ("getVariableInAtomicSWCTypeInstanceRef", r_getVariableInAtomicSWCTypeInstanceRef);
  ("getComponentInSystemInstanceRef", r_getComponentInSystemInstanceRef);
  ("getAutosarVariableRef", r_getAutosarVariableRef);
  ("getNvBlockDataMapping", r_getNvBlockDataMapping);
  ("readNvBlockDataMapping", r_readNvBlockDataMapping);
  ("readBulkNvDataDescriptor", r_readBulkNvDataDescriptor);
  ("readNvBlockDescriptor", r_readNvBlockDescriptor);
  ("_readVariableAccesses", r__readVariableAccesses);
  ("readBswModuleDescriptionImplementedEntryRefs", r_readBswModuleDescriptionImplementedEntryRefs);
  ("readModeDeclarationGroupPrototype", r_readModeDeclarationGroupPrototype);
  ("readBswModuleDescriptionProvidedModeGroups", r_readBswModuleDescriptionProvidedModeGroups);
  ("readBswModuleDescriptionRequiredModeGroups", r_readBswModuleDescriptionRequiredModeGroups);
  ("readActivationReasons", r_readActivationReasons);
  ("readExecutableEntityActivationReason", r_readExecutableEntityActivationReason);
  ("readCanEnterRefs", r_readCanEnterRefs);
  ("readExclusiveAreaNestingOrderRefs", r_readExclusiveAreaNestingOrderRefs);
  ("readRunsInsideRefs", r_readRunsInsideRefs);
  ("readExecutableEntity", r_readExecutableEntity);
  ("readBswModuleEntityManagedModeGroups", r_readBswModuleEntityManagedModeGroups);
  ("readBswModuleEntityAccessedModeGroups", r_readBswModuleEntityAccessedModeGroups);
  ("readBswEvent", r_readBswEvent);
  ("readBswScheduleEvent", r_readBswScheduleEvent);
  ("readBswModeSwitchEvent", r_readBswModeSwitchEvent);
  ("readBswModeManagerErrorEvent", r_readBswModeManagerErrorEvent);
  ("readBswModeSwitchedAckEvent", r_readBswModeSwitchedAckEvent);
  ("readBswAsynchronousServerCallReturnsEvent", r_readBswAsynchronousServerCallReturnsEvent);
  ("readBswTimingEvent", r_readBswTimingEvent);
  ("readBswDataReceivedEvent", r_readBswDataReceivedEvent);
  ("readBswInternalTriggerOccurredEvent", r_readBswInternalTriggerOccurredEvent);
  ("getBswModeSenderPolicy", r_getBswModeSenderPolicy);
  ("getBswModeSwitchAckRequest", r_getBswModeSwitchAckRequest);
  ("readBswInternalBehaviorModeSenderPolicy", r_readBswInternalBehaviorModeSenderPolicy);
  ("readDataTypeMappingRefs", r_readDataTypeMappingRefs);
  ("readInternalBehaviorConstantMemories", r_readInternalBehaviorConstantMemories);
  ("readInternalBehaviorStaticMemories", r_readInternalBehaviorStaticMemories);
  ("readInternalBehavior", r_readInternalBehavior);
  ("readExclusiveAreaNestingOrders", r_readExclusiveAreaNestingOrders);
  ("getRoleBasedDataAssignment", r_getRoleBasedDataAssignment);
  ("getModeSwitchEventTriggeredActivity", r_getModeSwitchEventTriggeredActivity);
  ("getRoleBasedPortAssignment", r_getRoleBasedPortAssignment);
  ("getRoleBasedDataTypeAssignment", r_getRoleBasedDataTypeAssignment);
  ("readServiceDependency", r_readServiceDependency);
  ("getBswServiceDependencyIdent", r_getBswServiceDependencyIdent);
  ("readSymbolicNameProps", r_readSymbolicNameProps);
  ("getRoleBasedBswModuleEntryAssignment", r_getRoleBasedBswModuleEntryAssignment);
  ("readBswServiceDependencyAssignedData", r_readBswServiceDependencyAssignedData);
  ("readBswServiceDependencyAssignedEntryRoles", r_readBswServiceDependencyAssignedEntryRoles);
  ("readBswServiceDependencyServiceNeeds", r_readBswServiceDependencyServiceNeeds);
  ("readBswServiceDependency", r_readBswServiceDependency);
  ("readSwcServiceDependencyAssignedData", r_readSwcServiceDependencyAssignedData);
  ("readSwcServiceDependencyAssignedPorts", r_readSwcServiceDependencyAssignedPorts);
  ("readServiceNeeds", r_readServiceNeeds);
  ("readBswMgrNeeds", r_readBswMgrNeeds);
  ("readNvBlockNeeds", r_readNvBlockNeeds);
  ("readDiagnosticCapabilityElement", r_readDiagnosticCapabilityElement);
  ("readObdInfoServiceNeeds", r_readObdInfoServiceNeeds);
  ("readObdMonitorServiceNeeds", r_readObdMonitorServiceNeeds);
  ("readObdPidServiceNeeds", r_readObdPidServiceNeeds);
  ("readObdControlServiceNeeds", r_readObdControlServiceNeeds);
  ("readObdRatioServiceNeeds", r_readObdRatioServiceNeeds);
  ("readObdRatioDenominatorNeeds", r_readObdRatioDenominatorNeeds);
  ("readDoIpRoutingActivationAuthenticationNeeds", r_readDoIpRoutingActivationAuthenticationNeeds);
  ("readDoIpRoutingActivationConfirmationNeeds", r_readDoIpRoutingActivationConfirmationNeeds);
  ("readSecureOnBoardCommunicationNeeds", r_readSecureOnBoardCommunicationNeeds);
  ("readIdsMgrNeeds", r_readIdsMgrNeeds);
  ("readDiagnosticCommunicationManagerNeeds", r_readDiagnosticCommunicationManagerNeeds);
  ("readDiagnosticRoutineNeeds", r_readDiagnosticRoutineNeeds);
  ("readDiagnosticValueNeeds", r_readDiagnosticValueNeeds);
  ("readDiagEventDebounceCounterBased", r_readDiagEventDebounceCounterBased);
  ("readDiagEventDebounceMonitorInternal", r_readDiagEventDebounceMonitorInternal);
  ("readDiagEventDebounceTimeBased", r_readDiagEventDebounceTimeBased);
  ("readDiagEventDebounceAlgorithm", r_readDiagEventDebounceAlgorithm);
  ("readDiagnosticEventNeeds", r_readDiagnosticEventNeeds);
  ("readDiagnosticEventInfoNeeds", r_readDiagnosticEventInfoNeeds);
  ("readDiagnosticIoControlNeeds", r_readDiagnosticIoControlNeeds);
  ("readDiagnosticEnableConditionNeeds", r_readDiagnosticEnableConditionNeeds);
  ("readDiagnosticOperationCycleNeeds", r_readDiagnosticOperationCycleNeeds);
  ("readDiagnosticStorageConditionNeeds", r_readDiagnosticStorageConditionNeeds);
  ("readIndicatorStatusNeeds", r_readIndicatorStatusNeeds);
  ("readFunctionInhibitionAvailabilityNeeds", r_readFunctionInhibitionAvailabilityNeeds);
  ("readCryptoServiceNeeds", r_readCryptoServiceNeeds);
  ("readEcuStateMgrUserNeeds", r_readEcuStateMgrUserNeeds);
  ("readDtcStatusChangeNotificationNeeds", r_readDtcStatusChangeNotificationNeeds);
  ("readDltUserNeeds", r_readDltUserNeeds);
  ("readComMgrUserNeeds", r_readComMgrUserNeeds);
  ("readSupervisedEntityNeeds", r_readSupervisedEntityNeeds);
  ("readTracedFailure", r_readTracedFailure);
  ("readDevelopmentError", r_readDevelopmentError);
  ("readRuntimeError", r_readRuntimeError);
  ("readPossibleErrorReaction", r_readPossibleErrorReaction);
  ("readTransientFault", r_readTransientFault);
  ("readErrorTracerNeeds", r_readErrorTracerNeeds);
  ("readSwcServiceDependencyServiceNeeds", r_readSwcServiceDependencyServiceNeeds);
  ("readSwcServiceDependencyRepresentedPortGroup", r_readSwcServiceDependencyRepresentedPortGroup);
  ("readSwcServiceDependency", r_readSwcServiceDependency);
  ("readSwcInternalBehaviorServiceDependencies", r_readSwcInternalBehaviorServiceDependencies);
  ("getIncludedDataTypeSets", r_getIncludedDataTypeSets);
  ("readSwcInternalBehaviorArTypedPerInstanceMemories", r_readSwcInternalBehaviorArTypedPerInstanceMemories);
  ("readSwcInternalBehaviorSharedParameters", r_readSwcInternalBehaviorSharedParameters);
  ("readVariationPointProxy", r_readVariationPointProxy);
  ("readAttributeValueVariationPoint", r_readAttributeValueVariationPoint);
  ("readSwcInternalBehaviorVariationPointProxies", r_readSwcInternalBehaviorVariationPointProxies);
  ("readIncludedModeDeclarationGroupSet", r_readIncludedModeDeclarationGroupSet);
  ("readSwcInternalBehaviorIncludedModeDeclarationGroupSets", r_readSwcInternalBehaviorIncludedModeDeclarationGroupSets);
  ("readSwcInternalBehaviorExclusiveAreaPolicies", r_readSwcInternalBehaviorExclusiveAreaPolicies);
  ("readSwcInternalBehavior", r_readSwcInternalBehavior);
  ("readSwcInternalBehaviorInstantiationDataDefProps", r_readSwcInternalBehaviorInstantiationDataDefProps);
  ("readAtomicSwComponentTypeSwcInternalBehavior", r_readAtomicSwComponentTypeSwcInternalBehavior);
  ("getIncludedModeDeclarationGroupSets", r_getIncludedModeDeclarationGroupSets);
  ("readBswVariableAccess", r_readBswVariableAccess);
  ("readBswModuleEntityDataSendPoints", r_readBswModuleEntityDataSendPoints);
  ("readBswModuleEntityDataReceiverPoints", r_readBswModuleEntityDataReceiverPoints);
  ("readBswModuleEntityIssuedTriggerRefs", r_readBswModuleEntityIssuedTriggerRefs);
  ("readBswModuleEntityActivationPointRefs", r_readBswModuleEntityActivationPointRefs);
  ("readBswModuleCallPoint", r_readBswModuleCallPoint);
  ("readBswAsynchronousServerCallPoint", r_readBswAsynchronousServerCallPoint);
  ("readBswSynchronousServerCallPoint", r_readBswSynchronousServerCallPoint);
  ("readBswModuleEntityCallPoints", r_readBswModuleEntityCallPoints);
  ("readBswModuleEntity", r_readBswModuleEntity);
  ("readBswCalledEntity", r_readBswCalledEntity);
  ("readBswSchedulableEntity", r_readBswSchedulableEntity);
  ("readBswInterruptEntity", r_readBswInterruptEntity);
  ("readBswInternalBehaviorEntities", r_readBswInternalBehaviorEntities);
  ("readBswBackgroundEvent", r_readBswBackgroundEvent);
  ("readBswExternalTriggerOccurredEvent", r_readBswExternalTriggerOccurredEvent);
  ("readBswOperationInvokedEvent", r_readBswOperationInvokedEvent);
  ("readBswInternalBehaviorEvents", r_readBswInternalBehaviorEvents);
  ("readBswApiOptions", r_readBswApiOptions);
  ("readBswDataReceptionPolicy", r_readBswDataReceptionPolicy);
  ("readBswQueuedDataReceptionPolicy", r_readBswQueuedDataReceptionPolicy);
  ("readBswInternalBehaviorReceptionPolicies", r_readBswInternalBehaviorReceptionPolicies);
  ("readBswInternalTriggeringPoint", r_readBswInternalTriggeringPoint);
  ("readBswInternalBehaviorInternalTriggeringPoints", r_readBswInternalBehaviorInternalTriggeringPoints);
  ("readBswInternalBehaviorServiceDependencies", r_readBswInternalBehaviorServiceDependencies);
  ("readBswInternalBehavior", r_readBswInternalBehavior);
  ("readBswModuleDescriptionBswInternalBehaviors", r_readBswModuleDescriptionBswInternalBehaviors);
  ("readTrigger", r_readTrigger);
  ("readBswModuleDescriptionReleasedTriggers", r_readBswModuleDescriptionReleasedTriggers);
  ("readBswModuleDescriptionRequiredTriggers", r_readBswModuleDescriptionRequiredTriggers);
  ("readBswModuleDescriptionProvidedDatas", r_readBswModuleDescriptionProvidedDatas);
  ("readBswModuleDescriptionRequiredDatas", r_readBswModuleDescriptionRequiredDatas);
  ("readBswModuleClientServerEntry", r_readBswModuleClientServerEntry);
  ("readBswModuleDescriptionProvidedClientServerEntries", r_readBswModuleDescriptionProvidedClientServerEntries);
  ("readBswModuleDescriptionRequiredClientServerEntries", r_readBswModuleDescriptionRequiredClientServerEntries);
  ("readBswModuleDescription", r_readBswModuleDescription);
  ("readBswModuleDescriptionExpectedEntryRefs", r_readBswModuleDescriptionExpectedEntryRefs);
  ("readBswModuleDescriptionBswModuleDependencies", r_readBswModuleDescriptionBswModuleDependencies);
  ("readBswModuleDescriptionBswModuleDocumentation", r_readBswModuleDescriptionBswModuleDocumentation);
  ("readSwServiceArg", r_readSwServiceArg);
  ("readBswModuleEntryArguments", r_readBswModuleEntryArguments);
  ("readBswModuleEntryReturnType", r_readBswModuleEntryReturnType);
  ("readBswModuleEntry", r_readBswModuleEntry);
  ("readEngineeringObject", r_readEngineeringObject);
  ("getAutosarEngineeringObject", r_getAutosarEngineeringObject);
  ("readArtifactDescriptor", r_readArtifactDescriptor);
  ("readCodeDescriptor", r_readCodeDescriptor);
  ("readCallbackHeaderRefs", r_readCallbackHeaderRefs);
  ("readCompiler", r_readCompiler);
  ("readLinker", r_readLinker);
  ("readMemorySectionOptions", r_readMemorySectionOptions);
  ("readMemorySections", r_readMemorySections);
  ("readMultidimensionalTime", r_readMultidimensionalTime);
  ("readHardwareConfiguration", r_readHardwareConfiguration);
  ("readSoftwareContext", r_readSoftwareContext);
  ("readMemorySectionLocation", r_readMemorySectionLocation);
  ("readExecutionTime", r_readExecutionTime);
  ("readAnalyzedExecutionTime", r_readAnalyzedExecutionTime);
  ("readMeasuredExecutionTime", r_readMeasuredExecutionTime);
  ("readSimulatedExecutionTime", r_readSimulatedExecutionTime);
  ("readRoughEstimateOfExecutionTime", r_readRoughEstimateOfExecutionTime);
  ("readExecutionTimes", r_readExecutionTimes);
  ("readHeapUsage", r_readHeapUsage);
  ("readMeasuredHeapUsage", r_readMeasuredHeapUsage);
  ("readRoughEstimateHeapUsage", r_readRoughEstimateHeapUsage);
  ("readWorstCaseHeapUsage", r_readWorstCaseHeapUsage);
  ("readHeapUsages", r_readHeapUsages);
  ("readSectionNamePrefixes", r_readSectionNamePrefixes);
  ("readAccessCountSets", r_readAccessCountSets);
  ("readStackUsage", r_readStackUsage);
  ("readRoughEstimateStackUsage", r_readRoughEstimateStackUsage);
  ("readMeasuredStackUsage", r_readMeasuredStackUsage);
  ("readWorstCaseStackUsage", r_readWorstCaseStackUsage);
  ("readStackUsages", r_readStackUsages);
  ("readResourceConsumption", r_readResourceConsumption);
  ("readImplementation", r_readImplementation);
  ("readMcSupportData", r_readMcSupportData);
  ("readMcSwEmulationMethodSupport", r_readMcSwEmulationMethodSupport);
  ("readMcParameterElementGroup", r_readMcParameterElementGroup);
  ("readImplementationElementInParameterInstanceRef", r_readImplementationElementInParameterInstanceRef);
  ("readRteEventInEcuInstanceRef", r_readRteEventInEcuInstanceRef);
  ("readVariableAccessInEcuInstanceRef", r_readVariableAccessInEcuInstanceRef);
  ("readMcDataAccessDetails", r_readMcDataAccessDetails);
  ("readMcDataInstance", r_readMcDataInstance);
  ("readRoleBasedMcDataAssignment", r_readRoleBasedMcDataAssignment);
  ("readRptSwPrototypingAccess", r_readRptSwPrototypingAccess);
  ("readRptImplPolicy", r_readRptImplPolicy);
  ("readRptExecutableEntityProperties", r_readRptExecutableEntityProperties);
  ("readRptServicePoint", r_readRptServicePoint);
  ("readRptExecutableEntityEvent", r_readRptExecutableEntityEvent);
  ("readRptExecutableEntity", r_readRptExecutableEntity);
  ("readRptComponent", r_readRptComponent);
  ("readRptSupportData", r_readRptSupportData);
  ("readBuildActionManifests", r_readBuildActionManifests);
  ("readBswImplementationVendorSpecificModuleDefRefs", r_readBswImplementationVendorSpecificModuleDefRefs);
  ("readBswImplementationPreconfiguredConfigurationRefs", r_readBswImplementationPreconfiguredConfigurationRefs);
  ("readBswImplementationRecommendedConfigurationRefs", r_readBswImplementationRecommendedConfigurationRefs);
  ("readBswImplementation", r_readBswImplementation);
  ("readSwcImplementation", r_readSwcImplementation);
  ("readRunnableEntityDataReceivePointByArguments", r_readRunnableEntityDataReceivePointByArguments);
  ("readRunnableEntityDataReceivePointByValues", r_readRunnableEntityDataReceivePointByValues);
  ("readRunnableEntityDataReadAccesses", r_readRunnableEntityDataReadAccesses);
  ("readRunnableEntityDataWriteAccesses", r_readRunnableEntityDataWriteAccesses);
  ("readRunnableEntityDataSendPoints", r_readRunnableEntityDataSendPoints);
  ("getRunnableEntityArgument", r_getRunnableEntityArgument);
  ("getParameterInAtomicSWCTypeInstanceRef", r_getParameterInAtomicSWCTypeInstanceRef);
  ("getAutosarParameterRef", r_getAutosarParameterRef);
  ("readParameterAccess", r_readParameterAccess);
  ("readRunnableEntityParameterAccesses", r_readRunnableEntityParameterAccesses);
  ("readRunnableEntityWrittenLocalVariables", r_readRunnableEntityWrittenLocalVariables);
  ("readRunnableEntityReadLocalVariables", r_readRunnableEntityReadLocalVariables);
  ("readROperationIRef", r_readROperationIRef);
  ("readRVariableInAtomicSwcInstanceRef", r_readRVariableInAtomicSwcInstanceRef);
  ("readRModeInAtomicSwcInstanceRef", r_readRModeInAtomicSwcInstanceRef);
  ("readSynchronousServerCallPoint", r_readSynchronousServerCallPoint);
  ("readAsynchronousServerCallPoint", r_readAsynchronousServerCallPoint);
  ("readRunnableEntityInternalBehaviorServerCallPoint", r_readRunnableEntityInternalBehaviorServerCallPoint);
  ("readRunnableEntityInternalTriggeringPoints", r_readRunnableEntityInternalTriggeringPoints);
  ("readRunnableEntityExternalTriggeringPoints", r_readRunnableEntityExternalTriggeringPoints);
  ("readModeGroupInAtomicSwcInstanceRef", r_readModeGroupInAtomicSwcInstanceRef);
  ("readRModeGroupInAtomicSWCInstanceRef", r_readRModeGroupInAtomicSWCInstanceRef);
  ("readPModeGroupInAtomicSWCInstanceRef", r_readPModeGroupInAtomicSWCInstanceRef);
  ("readPTriggerInAtomicSwcTypeInstanceRef", r_readPTriggerInAtomicSwcTypeInstanceRef);
  ("readInnerDataPrototypeGroupInCompositionInstanceRef", r_readInnerDataPrototypeGroupInCompositionInstanceRef);
  ("readInnerRunnableEntityGroupInCompositionInstanceRef", r_readInnerRunnableEntityGroupInCompositionInstanceRef);
  ("readRunnableEntityInCompositionInstanceRef", r_readRunnableEntityInCompositionInstanceRef);
  ("readVariableDataPrototypeInCompositionInstanceRef", r_readVariableDataPrototypeInCompositionInstanceRef);
  ("readDataPrototypeGroupDataPrototypeGroupIRefs", r_readDataPrototypeGroupDataPrototypeGroupIRefs);
  ("readDataPrototypeGroupImplicitDataAccessIRefs", r_readDataPrototypeGroupImplicitDataAccessIRefs);
  ("readDataPrototypeGroup", r_readDataPrototypeGroup);
  ("readRunnableEntityGroupRunnableEntityGroupIRefs", r_readRunnableEntityGroupRunnableEntityGroupIRefs);
  ("readRunnableEntityGroupRunnableEntityIRefs", r_readRunnableEntityGroupRunnableEntityIRefs);
  ("readRunnableEntityGroup", r_readRunnableEntityGroup);
  ("readConsistencyNeedsDpgDoesNotRequireCoherencys", r_readConsistencyNeedsDpgDoesNotRequireCoherencys);
  ("readConsistencyNeedsDpgRequiresCoherencys", r_readConsistencyNeedsDpgRequiresCoherencys);
  ("readConsistencyNeedsRegDoesNotRequireStabilitys", r_readConsistencyNeedsRegDoesNotRequireStabilitys);
  ("readConsistencyNeedsRegRequiresStabilitys", r_readConsistencyNeedsRegRequiresStabilitys);
  ("readConsistencyNeeds", r_readConsistencyNeeds);
  ("getModeGroupIRef", r_getModeGroupIRef);
  ("readModeAccessPoint", r_readModeAccessPoint);
  ("readRunnableEntityModeAccessPoints", r_readRunnableEntityModeAccessPoints);
  ("readModeSwitchPointModeGroupIRef", r_readModeSwitchPointModeGroupIRef);
  ("readModeSwitchPoint", r_readModeSwitchPoint);
  ("readRunnableEntityModeSwitchPoints", r_readRunnableEntityModeSwitchPoints);
  ("readRunnableEntityArguments", r_readRunnableEntityArguments);
  ("readRunnableEntityAsynchronousServerCallResultPoint", r_readRunnableEntityAsynchronousServerCallResultPoint);
  ("readRunnableEntityWaitPoints", r_readRunnableEntityWaitPoints);
  ("readRunnableEntity", r_readRunnableEntity);
  ("readSwcInternalBehaviorRunnables", r_readSwcInternalBehaviorRunnables);
  ("getRModeInAtomicSwcInstanceRef", r_getRModeInAtomicSwcInstanceRef);
  ("getModeInBswModuleDescriptionInstanceRef", r_getModeInBswModuleDescriptionInstanceRef);
  ("readRTEEvent", r_readRTEEvent);
  ("readPOperationIRef", r_readPOperationIRef);
  ("readOperationInvokedEvent", r_readOperationInvokedEvent);
  ("readVariableDataPrototype", r_readVariableDataPrototype);
  ("readSwcInternalBehaviorExplicitInterRunnableVariables", r_readSwcInternalBehaviorExplicitInterRunnableVariables);
  ("readSwcInternalBehaviorPerInstanceMemories", r_readSwcInternalBehaviorPerInstanceMemories);
  ("readAutosarDataPrototype", r_readAutosarDataPrototype);
  ("readParameterDataPrototype", r_readParameterDataPrototype);
  ("readSwcInternalBehaviorPerInstanceParameters", r_readSwcInternalBehaviorPerInstanceParameters);
  ("readPortDefinedArgumentValue", r_readPortDefinedArgumentValue);
  ("readSwcInternalBehaviorPortAPIOptions", r_readSwcInternalBehaviorPortAPIOptions);
  ("readTimingEvent", r_readTimingEvent);
  ("readDataReceivedEvent", r_readDataReceivedEvent);
  ("readSwcModeSwitchEvent", r_readSwcModeSwitchEvent);
  ("readInternalTriggerOccurredEvent", r_readInternalTriggerOccurredEvent);
  ("readInitEvent", r_readInitEvent);
  ("readAsynchronousServerCallReturnsEvent", r_readAsynchronousServerCallReturnsEvent);
  ("readModeSwitchedAckEvent", r_readModeSwitchedAckEvent);
  ("readBackgroundEvent", r_readBackgroundEvent);
  ("readDataSendCompletedEvent", r_readDataSendCompletedEvent);
  ("readSwcInternalBehaviorEvents", r_readSwcInternalBehaviorEvents);
  ("getSwPointerTargetProps", r_getSwPointerTargetProps);
  ("readSwPointerTargetProps", r_readSwPointerTargetProps);
  ("getSwTextProps", r_getSwTextProps);
  ("readLanguageSpecific", r_readLanguageSpecific);
  ("getLParagraphs", r_getLParagraphs);
  ("getMultiLanguageParagraphs", r_getMultiLanguageParagraphs);
  ("getLPlainTexts", r_getLPlainTexts);
  ("getListElements", r_getListElements);
  ("getGraphic", r_getGraphic);
  ("readMlFigureLGraphics", r_readMlFigureLGraphics);
  ("readDocumentViewSelectable", r_readDocumentViewSelectable);
  ("readPaginateable", r_readPaginateable);
  ("readMlFigure", r_readMlFigure);
  ("getMlFigures", r_getMlFigures);
  ("getMultiLanguagePlainText", r_getMultiLanguagePlainText);
  ("getNote", r_getNote);
  ("getTraceableText", r_getTraceableText);
  ("getStructuredReq", r_getStructuredReq);
  ("getDefItem", r_getDefItem);
  ("getDefList", r_getDefList);
  ("getIndentSample", r_getIndentSample);
  ("getLabeledItem", r_getLabeledItem);
  ("getLabeledList", r_getLabeledList);
  ("getLOverviewParagraphs", r_getLOverviewParagraphs);
  ("getMultiLanguageVerbatim", r_getMultiLanguageVerbatim);
  ("getMsrQueryArg", r_getMsrQueryArg);
  ("getMsrQueryProps", r_getMsrQueryProps);
  ("getMsrQueryP2", r_getMsrQueryP2);
  ("getMlFormula", r_getMlFormula);
  ("readDocumentationBlock", r_readDocumentationBlock);
  ("getDocumentationBlock", r_getDocumentationBlock);
  ("getDocumentationBlockList", r_getDocumentationBlockList);
  ("readGeneralAnnotation", r_readGeneralAnnotation);
  ("getAnnotations", r_getAnnotations);
  ("getSwAxisIndividual", r_getSwAxisIndividual);
  ("getSwAxisGeneric", r_getSwAxisGeneric);
  ("getSwGenericAxisParam", r_getSwGenericAxisParam);
  ("getSwAxisGrouped", r_getSwAxisGrouped);
  ("getSwCalprmAxis", r_getSwCalprmAxis);
  ("getSwCalprmAxisSet", r_getSwCalprmAxisSet);
  ("readSwDataDefProsInvalidValue", r_readSwDataDefProsInvalidValue);
  ("getSwDataDefProps", r_getSwDataDefProps);
  ("readSwDataDefPropsBits", r_readSwDataDefPropsBits);
  ("readSwComparisonVariables", r_readSwComparisonVariables);
  ("readSwHostVariable", r_readSwHostVariable);
  ("readSwVariableRefProxy", r_readSwVariableRefProxy);
  ("readSwDataDependency", r_readSwDataDependency);
  ("readSwCalprmRefProxy", r_readSwCalprmRefProxy);
  ("readSwRefTiming", r_readSwRefTiming);
  ("readAutosarDataType", r_readAutosarDataType);
  ("readApplicationPrimitiveDataType", r_readApplicationPrimitiveDataType);
  ("readApplicationRecordElement", r_readApplicationRecordElement);
  ("readApplicationRecordDataTypeElements", r_readApplicationRecordDataTypeElements);
  ("readApplicationRecordDataType", r_readApplicationRecordDataType);
  ("readImplementationDataTypeElement", r_readImplementationDataTypeElement);
  ("readImplementationDataTypeSubElements", r_readImplementationDataTypeSubElements);
  ("readImplementationDataType", r_readImplementationDataType);
  ("readBaseTypeDirectDefinition", r_readBaseTypeDirectDefinition);
  ("readSwBaseType", r_readSwBaseType);
  ("getApplicationCompositeElementInPortInterfaceInstanceRef", r_getApplicationCompositeElementInPortInterfaceInstanceRef);
  ("getCompositeNetworkRepresentation", r_getCompositeNetworkRepresentation);
  ("readReceiverComSpec", r_readReceiverComSpec);
  ("getReceptionComSpecProps", r_getReceptionComSpecProps);
  ("readVariableAccess", r_readVariableAccess);
  ("getTransformationComSpecProps", r_getTransformationComSpecProps);
  ("getSwValues", r_getSwValues);
  ("getValueList", r_getValueList);
  ("getSwValueCont", r_getSwValueCont);
  ("readApplicationValueSpecification", r_readApplicationValueSpecification);
  ("getChildValueSpecification", r_getChildValueSpecification);
  ("getInitValue", r_getInitValue);
  ("readRPortComSpec", r_readRPortComSpec);
  ("getClientComSpec", r_getClientComSpec);
  ("getParameterRequireComSpec", r_getParameterRequireComSpec);
  ("getNvRequireComSpec", r_getNvRequireComSpec);
  ("getQueuedReceiverComSpec", r_getQueuedReceiverComSpec);
  ("getModeSwitchReceiverComSpec", r_getModeSwitchReceiverComSpec);
  ("getNonqueuedReceiverComSpec", r_getNonqueuedReceiverComSpec);
  ("readRequiredComSpec", r_readRequiredComSpec);
  ("readAbstractRequiredPortPrototype", r_readAbstractRequiredPortPrototype);
  ("readPPortPrototype", r_readPPortPrototype);
  ("readAbstractProvidedPortPrototype", r_readAbstractProvidedPortPrototype);
  ("readRPortPrototype", r_readRPortPrototype);
  ("readPRPortPrototype", r_readPRPortPrototype);
  ("readPortPrototype", r_readPortPrototype);
  ("readSwComponentTypePorts", r_readSwComponentTypePorts);
  ("readTransmissionAcknowledgementRequest", r_readTransmissionAcknowledgementRequest);
  ("getTransmissionComSpecProps", r_getTransmissionComSpecProps);
  ("readSenderComSpec", r_readSenderComSpec);
  ("getNonqueuedSenderComSpec", r_getNonqueuedSenderComSpec);
  ("readTransformationComSpecProps", r_readTransformationComSpecProps);
  ("readUserDefinedTransformationComSpecProps", r_readUserDefinedTransformationComSpecProps);
  ("readEndToEndTransformationComSpecProps", r_readEndToEndTransformationComSpecProps);
  ("readTransformationComSpecPropss", r_readTransformationComSpecPropss);
  ("readPPortComSpec", r_readPPortComSpec);
  ("getServerComSpec", r_getServerComSpec);
  ("getParameterProvideComSpec", r_getParameterProvideComSpec);
  ("getQueuedSenderComSpec", r_getQueuedSenderComSpec);
  ("getModeSwitchedAckRequest", r_getModeSwitchedAckRequest);
  ("getModeSwitchSenderComSpec", r_getModeSwitchSenderComSpec);
  ("getNvProvideComSpec", r_getNvProvideComSpec);
  ("readProvidedComSpec", r_readProvidedComSpec);
  ("readPortGroupInnerGroupIRefs", r_readPortGroupInnerGroupIRefs);
  ("readPortGroupOuterPortRefs", r_readPortGroupOuterPortRefs);
  ("readPortGroup", r_readPortGroup);
  ("readSwComponentTypePortGroups", r_readSwComponentTypePortGroups);
  ("readSwComponentTypeSwcMappingConstraints", r_readSwComponentTypeSwcMappingConstraints);
  ("readSwComponentTypeUnitGroups", r_readSwComponentTypeUnitGroups);
  ("readSwComponentTypeConsistencyNeeds", r_readSwComponentTypeConsistencyNeeds);
  ("readSwComponentDocumentationElement", r_readSwComponentDocumentationElement);
  ("readSwComponentTypeSwComponentDocumentation", r_readSwComponentTypeSwComponentDocumentation);
  ("readChapter", r_readChapter);
  ("readChapterBody", r_readChapterBody);
  ("readChapterModel", r_readChapterModel);
  ("readPredefinedChapter", r_readPredefinedChapter);
  ("readDocumentationContext", r_readDocumentationContext);
  ("readDocumentation", r_readDocumentation);
  ("readChapterContent", r_readChapterContent);
  ("readTopicContentOrMsrQuery", r_readTopicContentOrMsrQuery);
  ("readMsrQueryP1", r_readMsrQueryP1);
  ("readTopicContent", r_readTopicContent);
  ("readTopic1", r_readTopic1);
  ("readMsrQueryTopic1", r_readMsrQueryTopic1);
  ("readMsrQueryChapter", r_readMsrQueryChapter);
  ("readSwComponentType", r_readSwComponentType);
  ("readAtomicSwComponentTypeSymbolProps", r_readAtomicSwComponentTypeSymbolProps);
  ("readAtomicSwComponentType", r_readAtomicSwComponentType);
  ("readEcuAbstractionSwComponentType", r_readEcuAbstractionSwComponentType);
  ("readEcuAbstractionSwComponentTypeHardwareElementRefs", r_readEcuAbstractionSwComponentTypeHardwareElementRefs);
  ("readApplicationSwComponentType", r_readApplicationSwComponentType);
  ("readComplexDeviceDriverSwComponentType", r_readComplexDeviceDriverSwComponentType);
  ("readSensorActuatorSwComponentType", r_readSensorActuatorSwComponentType);
  ("readServiceSwComponentType", r_readServiceSwComponentType);
  ("readServiceProxySwComponentType", r_readServiceProxySwComponentType);
  ("readNvBlockSwComponentType", r_readNvBlockSwComponentType);
  ("readPPortInCompositionInstanceRef", r_readPPortInCompositionInstanceRef);
  ("readRPortInCompositionInstanceRef", r_readRPortInCompositionInstanceRef);
  ("readAssemblySwConnectorProviderIRef", r_readAssemblySwConnectorProviderIRef);
  ("readAssemblySwConnectorRequesterIRef", r_readAssemblySwConnectorRequesterIRef);
  ("readSwConnector", r_readSwConnector);
  ("readAssemblySwConnector", r_readAssemblySwConnector);
  ("readCompositionSwComponentTypeSwConnectors", r_readCompositionSwComponentTypeSwConnectors);
  ("readPassThroughSwConnector", r_readPassThroughSwConnector);
  ("readDelegationSwConnectorInnerPortIRef", r_readDelegationSwConnectorInnerPortIRef);
  ("readDelegationSwConnector", r_readDelegationSwConnector);
  ("readSwComponentPrototype", r_readSwComponentPrototype);
  ("readCompositionSwComponentTypeComponents", r_readCompositionSwComponentTypeComponents);
  ("readCompositionSwComponentTypeDataTypeMappingSet", r_readCompositionSwComponentTypeDataTypeMappingSet);
  ("readCompositionSwComponentTypeConstantValueMappingSet", r_readCompositionSwComponentTypeConstantValueMappingSet);
  ("readInstanceEventInCompositionInstanceRef", r_readInstanceEventInCompositionInstanceRef);
  ("readInstantiationRTEEventProps", r_readInstantiationRTEEventProps);
  ("readInstantiationTimingEventProps", r_readInstantiationTimingEventProps);
  ("readCompositionSwComponentTypeInstantiationRTEEventProps", r_readCompositionSwComponentTypeInstantiationRTEEventProps);
  ("readCompositionSwComponentType", r_readCompositionSwComponentType);
  ("readDataTypeMaps", r_readDataTypeMaps);
  ("readModeRequestTypeMaps", r_readModeRequestTypeMaps);
  ("readDataTypeMappingSet", r_readDataTypeMappingSet);
  ("readSenderReceiverInterfaceDataElements", r_readSenderReceiverInterfaceDataElements);
  ("readSenderReceiverInterfaceInvalidationPolicies", r_readSenderReceiverInterfaceInvalidationPolicies);
  ("readInvalidationPolicys", r_readInvalidationPolicys);
  ("readSenderReceiverInterface", r_readSenderReceiverInterface);
  ("readArgumentDataPrototype", r_readArgumentDataPrototype);
  ("readClientServerOperationArguments", r_readClientServerOperationArguments);
  ("readPossibleErrorRefs", r_readPossibleErrorRefs);
  ("readClientServerOperation", r_readClientServerOperation);
  ("readClientServerInterfaceOperations", r_readClientServerInterfaceOperations);
  ("readPossibleErrors", r_readPossibleErrors);
  ("readPortInterface", r_readPortInterface);
  ("readParameterInterfaceParameters", r_readParameterInterfaceParameters);
  ("readDataInterface", r_readDataInterface);
  ("readParameterInterface", r_readParameterInterface);
  ("readNvDataInterfaceNvDatas", r_readNvDataInterfaceNvDatas);
  ("readNvDataInterface", r_readNvDataInterface);
  ("readClientServerInterface", r_readClientServerInterface);
  ("getCompuConstContent", r_getCompuConstContent);
  ("getCompuConst", r_getCompuConst);
  ("readCompuConst", r_readCompuConst);
  ("readCompuNominatorDenominator", r_readCompuNominatorDenominator);
  ("readCompuRationCoeffs", r_readCompuRationCoeffs);
  ("readCompuScaleContents", r_readCompuScaleContents);
  ("readCompuScale", r_readCompuScale);
  ("getCompuScales", r_getCompuScales);
  ("getCompu", r_getCompu);
  ("readCompuMethod", r_readCompuMethod);
  ("readSwcBswMappingSwcBswRunnableMappings", r_readSwcBswMappingSwcBswRunnableMappings);
  ("readSwcBswSynchronizedModeGroupPrototype", r_readSwcBswSynchronizedModeGroupPrototype);
  ("readSwcBswSynchronizedTrigger", r_readSwcBswSynchronizedTrigger);
  ("readSwcBswMappingSwcBswSynchronizedModeGroups", r_readSwcBswMappingSwcBswSynchronizedModeGroups);
  ("readSwcBswMappingSwcBswSynchronizedTriggers", r_readSwcBswMappingSwcBswSynchronizedTriggers);
  ("readSwcBswMapping", r_readSwcBswMapping);
  ("readValueSpecification", r_readValueSpecification);
  ("getApplicationValueSpecification", r_getApplicationValueSpecification);
  ("getNumericalOrText", r_getNumericalOrText);
  ("getRuleArguments", r_getRuleArguments);
  ("getRuleBasedValueSpecification", r_getRuleBasedValueSpecification);
  ("getRuleBasedAxisCont", r_getRuleBasedAxisCont);
  ("getRuleBasedValueCont", r_getRuleBasedValueCont);
  ("getApplicationRuleBasedValueSpecification", r_getApplicationRuleBasedValueSpecification);
  ("getCompositeRuleBasedValueSpecification", r_getCompositeRuleBasedValueSpecification);
  ("getNumericalValueSpecification", r_getNumericalValueSpecification);
  ("getTextValueSpecification", r_getTextValueSpecification);
  ("getArrayValueSpecification", r_getArrayValueSpecification);
  ("getConstantReference", r_getConstantReference);
  ("getValueSpecification", r_getValueSpecification);
  ("readRecordValueSpecificationFields", r_readRecordValueSpecificationFields);
  ("getRecordValueSpecification", r_getRecordValueSpecification);
  ("readConstantSpecification", r_readConstantSpecification);
  ("readInternalConstrs", r_readInternalConstrs);
  ("readScaleConstr", r_readScaleConstr);
  ("readPhysConstrs", r_readPhysConstrs);
  ("readDataConstrRule", r_readDataConstrRule);
  ("readDataConstr", r_readDataConstr);
  ("readUnit", r_readUnit);
  ("readEndToEndDescriptionDataIds", r_readEndToEndDescriptionDataIds);
  ("getEndToEndDescription", r_getEndToEndDescription);
  ("getVariableDataPrototypeInSystemInstanceRef", r_getVariableDataPrototypeInSystemInstanceRef);
  ("readEndToEndProtectionVariablePrototype", r_readEndToEndProtectionVariablePrototype);
  ("readEndToEndProtectionEndToEndProtectionVariablePrototypes", r_readEndToEndProtectionEndToEndProtectionVariablePrototypes);
  ("readEndToEndProtectionISignalIPdu", r_readEndToEndProtectionISignalIPdu);
  ("readEndToEndProtectionEndToEndProtectionISignalIPdus", r_readEndToEndProtectionEndToEndProtectionISignalIPdus);
  ("readEndToEndProtection", r_readEndToEndProtection);
  ("readEndToEndProtections", r_readEndToEndProtections);
  ("readEndToEndProtectionSet", r_readEndToEndProtectionSet);
  ("readImplementationProps", r_readImplementationProps);
  ("readSymbolProps", r_readSymbolProps);
  ("readImplementationDataTypeSymbolProps", r_readImplementationDataTypeSymbolProps);
  ("readApplicationDataType", r_readApplicationDataType);
  ("readApplicationCompositeDataType", r_readApplicationCompositeDataType);
  ("readDataPrototype", r_readDataPrototype);
  ("readApplicationCompositeElementDataPrototype", r_readApplicationCompositeElementDataPrototype);
  ("readApplicationArrayElement", r_readApplicationArrayElement);
  ("readApplicationArrayDataType", r_readApplicationArrayDataType);
  ("getSwRecordLayoutV", r_getSwRecordLayoutV);
  ("readSwRecordLayoutGroupSwRecordLayoutGroupContentType", r_readSwRecordLayoutGroupSwRecordLayoutGroupContentType);
  ("getSwRecordLayoutGroup", r_getSwRecordLayoutGroup);
  ("readSwRecordLayout", r_readSwRecordLayout);
  ("readSwAddrMethod", r_readSwAddrMethod);
  ("readTriggerInterface", r_readTriggerInterface);
  ("readModeDeclarationGroupModeDeclaration", r_readModeDeclarationGroupModeDeclaration);
  ("readModeErrorBehavior", r_readModeErrorBehavior);
  ("readModeDeclarationGroupModeTransition", r_readModeDeclarationGroupModeTransition);
  ("readModeDeclarationGroup", r_readModeDeclarationGroup);
  ("readModeSwitchInterfaceModeGroup", r_readModeSwitchInterfaceModeGroup);
  ("readModeSwitchInterface", r_readModeSwitchInterface);
  ("readEOCExecutableEntityRef", r_readEOCExecutableEntityRef);
  ("readExecutionOrderConstraintOrderedElement", r_readExecutionOrderConstraintOrderedElement);
  ("readExecutionOrderConstraint", r_readExecutionOrderConstraint);
  ("readTimingExtension", r_readTimingExtension);
  ("readSwcTiming", r_readSwcTiming);
  ("readFrameTriggering", r_readFrameTriggering);
  ("readCanFrameTriggering", r_readCanFrameTriggering);
  ("readLinFrameTriggering", r_readLinFrameTriggering);
  ("readCommunicationCycle", r_readCommunicationCycle);
  ("readCycleRepetition", r_readCycleRepetition);
  ("readFlexrayAbsolutelyScheduledTimingCommunicationCycle", r_readFlexrayAbsolutelyScheduledTimingCommunicationCycle);
  ("readFlexrayAbsolutelyScheduledTiming", r_readFlexrayAbsolutelyScheduledTiming);
  ("readFlexrayFrameTriggeringAbsolutelyScheduledTimings", r_readFlexrayFrameTriggeringAbsolutelyScheduledTimings);
  ("readFlexrayFrameTriggering", r_readFlexrayFrameTriggering);
  ("readISignalTriggering", r_readISignalTriggering);
  ("readPduTriggering", r_readPduTriggering);
  ("readPhysicalChannelCommConnectorRefs", r_readPhysicalChannelCommConnectorRefs);
  ("readPhysicalChannelFrameTriggerings", r_readPhysicalChannelFrameTriggerings);
  ("readPhysicalChannelISignalTriggerings", r_readPhysicalChannelISignalTriggerings);
  ("readPhysicalChannelPduTriggerings", r_readPhysicalChannelPduTriggerings);
  ("readPhysicalChannel", r_readPhysicalChannel);
  ("readCanPhysicalChannel", r_readCanPhysicalChannel);
  ("readScheduleTableEntry", r_readScheduleTableEntry);
  ("getApplicationEntry", r_getApplicationEntry);
  ("readLinScheduleTableTableEntries", r_readLinScheduleTableTableEntries);
  ("readLinScheduleTable", r_readLinScheduleTable);
  ("readLinPhysicalChannelScheduleTables", r_readLinPhysicalChannelScheduleTables);
  ("readLinPhysicalChannel", r_readLinPhysicalChannel);
  ("getIpv6Configuration", r_getIpv6Configuration);
  ("readNetworkEndPointNetworkEndPointAddress", r_readNetworkEndPointNetworkEndPointAddress);
  ("getDoIpEntity", r_getDoIpEntity);
  ("getInfrastructureServices", r_getInfrastructureServices);
  ("readNetworkEndPoint", r_readNetworkEndPoint);
  ("readEthernetPhysicalChannelNetworkEndPoints", r_readEthernetPhysicalChannelNetworkEndPoints);
  ("getSocketConnectionIpduIdentifier", r_getSocketConnectionIpduIdentifier);
  ("getSocketConnectionPdus", r_getSocketConnectionPdus);
  ("getSocketConnection", r_getSocketConnection);
  ("readSocketConnectionBundleConnections", r_readSocketConnectionBundleConnections);
  ("readSocketConnectionBundle", r_readSocketConnectionBundle);
  ("readSoAdConfigConnectionBundles", r_readSoAdConfigConnectionBundles);
  ("getTpPort", r_getTpPort);
  ("readUdpTp", r_readUdpTp);
  ("readTcpTp", r_readTcpTp);
  ("readGenericTp", r_readGenericTp);
  ("getTransportProtocolConfiguration", r_getTransportProtocolConfiguration);
  ("readConsumedEventGroupRoutingGroupRefs", r_readConsumedEventGroupRoutingGroupRefs);
  ("getRequestResponseDelay", r_getRequestResponseDelay);
  ("getSdClientConfig", r_getSdClientConfig);
  ("readConsumedEventGroup", r_readConsumedEventGroup);
  ("readConsumedServiceInstanceConsumedEventGroups", r_readConsumedServiceInstanceConsumedEventGroups);
  ("readConsumedServiceInstance", r_readConsumedServiceInstance);
  ("readSocketAddressApplicationEndpointConsumedServiceInstances", r_readSocketAddressApplicationEndpointConsumedServiceInstances);
  ("getInitialSdDelayConfig", r_getInitialSdDelayConfig);
  ("getSdServerConfig", r_getSdServerConfig);
  ("readEventHandler", r_readEventHandler);
  ("readProvidedServiceInstanceEventHandlers", r_readProvidedServiceInstanceEventHandlers);
  ("readProvidedServiceInstance", r_readProvidedServiceInstance);
  ("readSocketAddressApplicationEndpointProvidedServiceInstance", r_readSocketAddressApplicationEndpointProvidedServiceInstance);
  ("readSocketAddressApplicationEndpoint", r_readSocketAddressApplicationEndpoint);
  ("readSocketAddressMulticastConnectorRefs", r_readSocketAddressMulticastConnectorRefs);
  ("readSocketAddress", r_readSocketAddress);
  ("readSoAdConfigSocketAddresses", r_readSoAdConfigSocketAddresses);
  ("getSoAdConfig", r_getSoAdConfig);
  ("readEthernetPhysicalChannelVlan", r_readEthernetPhysicalChannelVlan);
  ("readEthernetPhysicalChannel", r_readEthernetPhysicalChannel);
  ("readFlexrayPhysicalChannel", r_readFlexrayPhysicalChannel);
  ("readCommunicationClusterPhysicalChannels", r_readCommunicationClusterPhysicalChannels);
  ("readCommunicationCluster", r_readCommunicationCluster);
  ("getCanClusterBusOffRecovery", r_getCanClusterBusOffRecovery);
  ("readAbstractCanCluster", r_readAbstractCanCluster);
  ("readLinCluster", r_readLinCluster);
  ("readCanCluster", r_readCanCluster);
  ("readFlexrayCluster", r_readFlexrayCluster);
  ("readMacMulticastGroup", r_readMacMulticastGroup);
  ("readEthernetClusterMacMulticastGroups", r_readEthernetClusterMacMulticastGroups);
  ("readEthernetCluster", r_readEthernetCluster);
  ("readDiagnosticConnectionFunctionalRequestRefs", r_readDiagnosticConnectionFunctionalRequestRefs);
  ("readDiagnosticConnection", r_readDiagnosticConnection);
  ("readDiagnosticServiceTableDiagnosticConnectionRefs", r_readDiagnosticServiceTableDiagnosticConnectionRefs);
  ("readDiagnosticServiceTable", r_readDiagnosticServiceTable);
  ("readSegmentPosition", r_readSegmentPosition);
  ("readMultiplexedPartSegmentPositions", r_readMultiplexedPartSegmentPositions);
  ("readMultiplexedPart", r_readMultiplexedPart);
  ("readDynamicPartAlternative", r_readDynamicPartAlternative);
  ("readDynamicPartDynamicPartAlternatives", r_readDynamicPartDynamicPartAlternatives);
  ("readDynamicPart", r_readDynamicPart);
  ("readMultiplexedIPduDynamicParts", r_readMultiplexedIPduDynamicParts);
  ("readStaticPart", r_readStaticPart);
  ("readMultiplexedIPduStaticParts", r_readMultiplexedIPduStaticParts);
  ("readMultiplexedIPdu", r_readMultiplexedIPdu);
  ("readUserDefinedIPdu", r_readUserDefinedIPdu);
  ("readUserDefinedPdu", r_readUserDefinedPdu);
  ("readGeneralPurposePdu", r_readGeneralPurposePdu);
  ("readGeneralPurposeIPdu", r_readGeneralPurposeIPdu);
  ("readSecureCommunicationAuthenticationProps", r_readSecureCommunicationAuthenticationProps);
  ("readSecureCommunicationPropsSetAuthenticationProps", r_readSecureCommunicationPropsSetAuthenticationProps);
  ("readSecureCommunicationFreshnessProps", r_readSecureCommunicationFreshnessProps);
  ("readSecureCommunicationPropsSetFreshnessProps", r_readSecureCommunicationPropsSetFreshnessProps);
  ("readSecureCommunicationPropsSet", r_readSecureCommunicationPropsSet);
  ("readSoAdRoutingGroup", r_readSoAdRoutingGroup);
  ("readDoIpLogicAddress", r_readDoIpLogicAddress);
  ("readDoIpTpConfigDoIpLogicAddresses", r_readDoIpTpConfigDoIpLogicAddresses);
  ("readDoIpTpConnection", r_readDoIpTpConnection);
  ("readDoIpTpConfigTpConnections", r_readDoIpTpConfigTpConnections);
  ("readDoIpTpConfig", r_readDoIpTpConfig);
  ("readHwDescriptionEntityHwCategoryRefs", r_readHwDescriptionEntityHwCategoryRefs);
  ("readHwAttributeValue", r_readHwAttributeValue);
  ("readHwDescriptionEntityHwAttributeValues", r_readHwDescriptionEntityHwAttributeValues);
  ("readHwDescriptionEntity", r_readHwDescriptionEntity);
  ("readHwPinGroup", r_readHwPinGroup);
  ("readHwPin", r_readHwPin);
  ("readHwElementHwPinGroups", r_readHwElementHwPinGroups);
  ("readHwPinConnector", r_readHwPinConnector);
  ("readHwPinGroupConnector", r_readHwPinGroupConnector);
  ("readHwElementConnector", r_readHwElementConnector);
  ("readHwElementHwElementConnections", r_readHwElementHwElementConnections);
  ("readHwElementHwNestedElementRefs", r_readHwElementHwNestedElementRefs);
  ("readHwElement", r_readHwElement);
  ("readHwAttributeDef", r_readHwAttributeDef);
  ("readHwAttributeLiteralDef", r_readHwAttributeLiteralDef);
  ("readHwCategoryHwAttributeDef", r_readHwCategoryHwAttributeDef);
  ("readHwCategory", r_readHwCategory);
  ("readHwType", r_readHwType);
  ("readPduToFrameMappings", r_readPduToFrameMappings);
  ("readFrame", r_readFrame);
  ("readLinUnconditionalFrame", r_readLinUnconditionalFrame);
  ("readPdu", r_readPdu);
  ("readISignalToIPduMapping", r_readISignalToIPduMapping);
  ("readNmPduISignalToIPduMappings", r_readNmPduISignalToIPduMappings);
  ("readNmPdu", r_readNmPdu);
  ("readContainedIPduProps", r_readContainedIPduProps);
  ("readIPdu", r_readIPdu);
  ("readNPdu", r_readNPdu);
  ("readDcmIPdu", r_readDcmIPdu);
  ("getSecureCommunicationProps", r_getSecureCommunicationProps);
  ("readSecuredIPdu", r_readSecuredIPdu);
  ("readNmNode", r_readNmNode);
  ("readCanNmNode", r_readCanNmNode);
  ("readUdpNmNode", r_readUdpNmNode);
  ("readJ1939NmNode", r_readJ1939NmNode);
  ("readNmClusterNmNodes", r_readNmClusterNmNodes);
  ("getCanNmClusterCoupling", r_getCanNmClusterCoupling);
  ("getUdpNmClusterCoupling", r_getUdpNmClusterCoupling);
  ("readNmConfigNmClusterCouplings", r_readNmConfigNmClusterCouplings);
  ("readNmCluster", r_readNmCluster);
  ("readCanNmCluster", r_readCanNmCluster);
  ("readUdpNmCluster", r_readUdpNmCluster);
  ("readNmConfigNmClusters", r_readNmConfigNmClusters);
  ("readUdpNmEcu", r_readUdpNmEcu);
  ("readBusDependentNmEcus", r_readBusDependentNmEcus);
  ("readNmEcu", r_readNmEcu);
  ("readNmConfigNmIfEcus", r_readNmConfigNmIfEcus);
  ("readNmConfig", r_readNmConfig);
  ("readTpConfig", r_readTpConfig);
  ("readCanTpAddress", r_readCanTpAddress);
  ("readCanTpConfigTpAddresses", r_readCanTpConfigTpAddresses);
  ("readCanTpChannel", r_readCanTpChannel);
  ("readCanTpConfigTpChannels", r_readCanTpConfigTpChannels);
  ("readTpConnection", r_readTpConnection);
  ("readTpConnectionReceiverRefs", r_readTpConnectionReceiverRefs);
  ("readCanTpConnection", r_readCanTpConnection);
  ("readCanTpConfigTpConnections", r_readCanTpConfigTpConnections);
  ("readCanTpEcu", r_readCanTpEcu);
  ("readCanTpConfigTpEcus", r_readCanTpConfigTpEcus);
  ("readCanTpNode", r_readCanTpNode);
  ("readCanTpConfigTpNodes", r_readCanTpConfigTpNodes);
  ("readCanTpConfig", r_readCanTpConfig);
  ("readTpAddress", r_readTpAddress);
  ("readLinTpConfigTpAddresses", r_readLinTpConfigTpAddresses);
  ("readLinTpConnection", r_readLinTpConnection);
  ("readLinTpConfigTpConnections", r_readLinTpConfigTpConnections);
  ("readLinTpNode", r_readLinTpNode);
  ("readLinTpConfigTpNodes", r_readLinTpConfigTpNodes);
  ("readLinTpConfig", r_readLinTpConfig);
  ("readCanFrame", r_readCanFrame);
  ("readFlexrayFrame", r_readFlexrayFrame);
  ("readFlexrayCommunicationController", r_readFlexrayCommunicationController);
  ("readDataTransformationTransformerChainRefs", r_readDataTransformationTransformerChainRefs);
  ("readDataTransformation", r_readDataTransformation);
  ("readDataTransformationSetDataTransformations", r_readDataTransformationSetDataTransformations);
  ("getBufferProperties", r_getBufferProperties);
  ("readDescribable", r_readDescribable);
  ("readTransformationDescription", r_readTransformationDescription);
  ("readEndToEndTransformationDescription", r_readEndToEndTransformationDescription);
  ("readTransformationTechnologyTransformationDescriptions", r_readTransformationTechnologyTransformationDescriptions);
  ("readTransformationTechnology", r_readTransformationTechnology);
  ("readDataTransformationSetTransformationTechnologies", r_readDataTransformationSetTransformationTechnologies);
  ("readDataTransformationSet", r_readDataTransformationSet);
  ("readE2EProfileCompatibilityProps", r_readE2EProfileCompatibilityProps);
  ("readCollectionElementRefs", r_readCollectionElementRefs);
  ("readCollectionSourceElementRefs", r_readCollectionSourceElementRefs);
  ("readCollection", r_readCollection);
  ("readKeywordClassifications", r_readKeywordClassifications);
  ("readKeyword", r_readKeyword);
  ("readKeywordSetKeywords", r_readKeywordSetKeywords);
  ("readKeywordSet", r_readKeywordSet);
  ("readPortPrototypeBlueprint", r_readPortPrototypeBlueprint);
  ("readModeDeclarationMappingFirstModeRefs", r_readModeDeclarationMappingFirstModeRefs);
  ("readModeDeclarationMapping", r_readModeDeclarationMapping);
  ("readModeDeclarationMappingSetModeDeclarationMappings", r_readModeDeclarationMappingSetModeDeclarationMappings);
  ("readModeDeclarationMappingSet", r_readModeDeclarationMappingSet);
  ("readEcucDefinitionElement", r_readEcucDefinitionElement);
  ("readEcucModuleDefSupportedConfigVariants", r_readEcucModuleDefSupportedConfigVariants);
  ("readEcucAbstractConfigurationClass", r_readEcucAbstractConfigurationClass);
  ("readEcucMultiplicityConfigurationClass", r_readEcucMultiplicityConfigurationClass);
  ("getEcucMultiplicityConfigurationClasses", r_getEcucMultiplicityConfigurationClasses);
  ("readEcucContainerDef", r_readEcucContainerDef);
  ("getEcucDestinationUriRefs", r_getEcucDestinationUriRefs);
  ("readEcucDestinationUriDefSet", r_readEcucDestinationUriDefSet);
  ("readEcucDestinationUriDef", r_readEcucDestinationUriDef);
  ("readEcucDestinationUriPolicy", r_readEcucDestinationUriPolicy);
  ("readEcucDestinationUriPolicyContainers", r_readEcucDestinationUriPolicyContainers);
  ("readEcucDestinationUriPolicyParameters", r_readEcucDestinationUriPolicyParameters);
  ("readEcucDestinationUriPolicyReferences", r_readEcucDestinationUriPolicyReferences);
  ("readEcucValueConfigurationClass", r_readEcucValueConfigurationClass);
  ("getEcucValueConfigurationClasses", r_getEcucValueConfigurationClasses);
  ("readEcucCommonAttributes", r_readEcucCommonAttributes);
  ("readEcucParameterDef", r_readEcucParameterDef);
  ("readEcucDerivationSpecification", r_readEcucDerivationSpecification);
  ("readEcucParameterDerivationFormula", r_readEcucParameterDerivationFormula);
  ("readEcucConditionFormula", r_readEcucConditionFormula);
  ("readEcucConditionSpecification", r_readEcucConditionSpecification);
  ("readEcucValidationCondition", r_readEcucValidationCondition);
  ("readEcucValidationConditions", r_readEcucValidationConditions);
  ("readEcucQuery", r_readEcucQuery);
  ("readEcucBooleanParamDef", r_readEcucBooleanParamDef);
  ("readEcucAbstractStringParamDef", r_readEcucAbstractStringParamDef);
  ("readEcucStringParamDef", r_readEcucStringParamDef);
  ("readEcucMultilineStringParamDef", r_readEcucMultilineStringParamDef);
  ("readEcucIntegerParamDef", r_readEcucIntegerParamDef);
  ("readEcucFloatParamDef", r_readEcucFloatParamDef);
  ("readEcucEnumerationLiteral", r_readEcucEnumerationLiteral);
  ("readEcucEnumerationParamDefLiterals", r_readEcucEnumerationParamDefLiterals);
  ("readEcucEnumerationParamDef", r_readEcucEnumerationParamDef);
  ("readEcucFunctionNameDef", r_readEcucFunctionNameDef);
  ("readEcucContainerDefParameters", r_readEcucContainerDefParameters);
  ("readEcucAbstractReferenceDef", r_readEcucAbstractReferenceDef);
  ("readEcucAbstractInternalReferenceDef", r_readEcucAbstractInternalReferenceDef);
  ("readEcucAbstractExternalReferenceDef", r_readEcucAbstractExternalReferenceDef);
  ("readEcucSymbolicNameReferenceDef", r_readEcucSymbolicNameReferenceDef);
  ("readEcucReferenceDef", r_readEcucReferenceDef);
  ("readEcucChoiceReferenceDef", r_readEcucChoiceReferenceDef);
  ("readEcucInstanceReferenceDef", r_readEcucInstanceReferenceDef);
  ("readEcucContainerDefReferences", r_readEcucContainerDefReferences);
  ("readEcucContainerDefSubContainers", r_readEcucContainerDefSubContainers);
  ("readEcucParamConfContainerDef", r_readEcucParamConfContainerDef);
  ("readEcucChoiceContainerDefChoices", r_readEcucChoiceContainerDefChoices);
  ("readEcucChoiceContainerDef", r_readEcucChoiceContainerDef);
  ("readEcucModuleDefContainers", r_readEcucModuleDefContainers);
  ("readEcucModuleDef", r_readEcucModuleDef);
  ("readEcucDefinitionCollection", r_readEcucDefinitionCollection);
  ("readSwSystemconst", r_readSwSystemconst);
  ("readSwSystemconstValue", r_readSwSystemconstValue);
  ("readSwSystemconstantValueSetSwSystemconstantValues", r_readSwSystemconstantValueSetSwSystemconstantValues);
  ("readSwSystemconstantValueSet", r_readSwSystemconstantValueSet);
  ("readPredefinedVariantIncludedVariantRefs", r_readPredefinedVariantIncludedVariantRefs);
  ("readPredefinedVariantPostBuildVariantCriterionValueSetRefs", r_readPredefinedVariantPostBuildVariantCriterionValueSetRefs);
  ("readPredefinedVariantSwSystemconstantValueSetRefs", r_readPredefinedVariantSwSystemconstantValueSetRefs);
  ("readPredefinedVariant", r_readPredefinedVariant);
  ("readPostBuildVariantCriterion", r_readPostBuildVariantCriterion);
  ("readCommunicationController", r_readCommunicationController);
  ("getCanControllerFdConfiguration", r_getCanControllerFdConfiguration);
  ("getFlexrayFifoRange", r_getFlexrayFifoRange);
  ("getFlexrayFifoConfiguration", r_getFlexrayFifoConfiguration);
  ("getCanControllerFdConfigurationRequirements", r_getCanControllerFdConfigurationRequirements);
  ("getCanControllerXlConfiguration", r_getCanControllerXlConfiguration);
  ("getCanControllerXlConfigurationRequirements", r_getCanControllerXlConfigurationRequirements);
  ("readAbstractCanCommunicationControllerAttributes", r_readAbstractCanCommunicationControllerAttributes);
  ("readCanControllerConfigurationRequirements", r_readCanControllerConfigurationRequirements);
  ("readAbstractCanCommunicationControllerCanControllerAttributes", r_readAbstractCanCommunicationControllerCanControllerAttributes);
  ("readAbstractCanCommunicationController", r_readAbstractCanCommunicationController);
  ("readCanCommunicationController", r_readCanCommunicationController);
  ("readCouplingPortSchedulerCouplingPortStructuralElement", r_readCouplingPortSchedulerCouplingPortStructuralElement);
  ("readCouplingPortFifo", r_readCouplingPortFifo);
  ("readCouplingPortScheduler", r_readCouplingPortScheduler);
  ("readCouplingPortDetailsCouplingPortStructuralElements", r_readCouplingPortDetailsCouplingPortStructuralElements);
  ("readEthernetPriorityRegeneration", r_readEthernetPriorityRegeneration);
  ("readCouplingPortDetailsEthernetPriorityRegenerations", r_readCouplingPortDetailsEthernetPriorityRegenerations);
  ("getCouplingPortDetails", r_getCouplingPortDetails);
  ("readVlanMembership", r_readVlanMembership);
  ("readCouplingPortVlanMemberships", r_readCouplingPortVlanMemberships);
  ("readCouplingPort", r_readCouplingPort);
  ("readEthernetCommunicationControllerCouplingPorts", r_readEthernetCommunicationControllerCouplingPorts);
  ("readEthernetCommunicationController", r_readEthernetCommunicationController);
  ("readLinCommunicationController", r_readLinCommunicationController);
  ("readLinMaster", r_readLinMaster);
  ("readEcuInstanceCommControllers", r_readEcuInstanceCommControllers);
  ("readCommConnectorPort", r_readCommConnectorPort);
  ("readFramePort", r_readFramePort);
  ("readIPduPort", r_readIPduPort);
  ("readISignalPort", r_readISignalPort);
  ("readCommunicationConnectorEcuCommPortInstances", r_readCommunicationConnectorEcuCommPortInstances);
  ("readCommunicationConnector", r_readCommunicationConnector);
  ("readCanCommunicationConnector", r_readCanCommunicationConnector);
  ("readEthernetCommunicationConnectorNetworkEndpointRefs", r_readEthernetCommunicationConnectorNetworkEndpointRefs);
  ("readEthernetCommunicationConnector", r_readEthernetCommunicationConnector);
  ("readLinCommunicationConnector", r_readLinCommunicationConnector);
  ("readFlexrayCommunicationConnector", r_readFlexrayCommunicationConnector);
  ("readEcuInstanceConnectors", r_readEcuInstanceConnectors);
  ("readEcuInstanceAssociatedComIPduGroupRefs", r_readEcuInstanceAssociatedComIPduGroupRefs);
  ("readEcuInstanceAssociatedConsumedProvidedServiceInstanceGroupRefs", r_readEcuInstanceAssociatedConsumedProvidedServiceInstanceGroupRefs);
  ("readEcuInstanceAssociatedPdurIPduGroupRefs", r_readEcuInstanceAssociatedPdurIPduGroupRefs);
  ("readEcuInstanceEcuTaskProxyRefs", r_readEcuInstanceEcuTaskProxyRefs);
  ("readEcuInstanceFirewallRuleRefs", r_readEcuInstanceFirewallRuleRefs);
  ("readEcuInstance", r_readEcuInstance);
  ("getISignalMappings", r_getISignalMappings);
  ("getTargetIPduRef", r_getTargetIPduRef);
  ("getIPduMappings", r_getIPduMappings);
  ("readGateway", r_readGateway);
  ("readISignal", r_readISignal);
  ("readISignalProps", r_readISignalProps);
  ("readISignalTransformationISignalProps", r_readISignalTransformationISignalProps);
  ("readEcucValueCollectionEcucValues", r_readEcucValueCollectionEcucValues);
  ("readEcucValueCollection", r_readEcucValueCollection);
  ("readEcucParameterValue", r_readEcucParameterValue);
  ("getEcucTextualParamValue", r_getEcucTextualParamValue);
  ("getEcucNumericalParamValue", r_getEcucNumericalParamValue);
  ("readEcucContainerValueParameterValues", r_readEcucContainerValueParameterValues);
  ("readEcucAbstractReferenceValue", r_readEcucAbstractReferenceValue);
  ("getEcucReferenceValue", r_getEcucReferenceValue);
  ("getAnyInstanceRef", r_getAnyInstanceRef);
  ("getEcucInstanceReferenceValue", r_getEcucInstanceReferenceValue);
  ("readEcucContainerValueReferenceValues", r_readEcucContainerValueReferenceValues);
  ("readEcucContainerValue", r_readEcucContainerValue);
  ("readEcucContainerValueEcucContainerValue", r_readEcucContainerValueEcucContainerValue);
  ("readEcucContainerValueSubContainers", r_readEcucContainerValueSubContainers);
  ("readEcucModuleConfigurationValuesEcucContainerValue", r_readEcucModuleConfigurationValuesEcucContainerValue);
  ("readEcucModuleConfigurationValuesContainers", r_readEcucModuleConfigurationValuesContainers);
  ("readEcucModuleConfigurationValues", r_readEcucModuleConfigurationValues);
  ("readPhysicalDimension", r_readPhysicalDimension);
  ("readISignalGroupISignalRef", r_readISignalGroupISignalRef);
  ("readISignalGroupComBasedSignalGroupTransformation", r_readISignalGroupComBasedSignalGroupTransformation);
  ("readTransformationISignalProps", r_readTransformationISignalProps);
  ("readDataPrototypeInPortInterfaceRef", r_readDataPrototypeInPortInterfaceRef);
  ("readDataPrototypeInSenderReceiverInterfaceInstanceRef", r_readDataPrototypeInSenderReceiverInterfaceInstanceRef);
  ("readDataPrototypeInClientServerInterfaceInstanceRef", r_readDataPrototypeInClientServerInterfaceInstanceRef);
  ("readDataPrototypeTransformationProps", r_readDataPrototypeTransformationProps);
  ("readEndToEndTransformationISignalPropsDataIds", r_readEndToEndTransformationISignalPropsDataIds);
  ("readEndToEndTransformationISignalProps", r_readEndToEndTransformationISignalProps);
  ("readISignalGroupTransformationISignalProps", r_readISignalGroupTransformationISignalProps);
  ("readISignalGroup", r_readISignalGroup);
  ("readSystemSignal", r_readSystemSignal);
  ("readSystemSignalGroup", r_readSystemSignalGroup);
  ("readSignalServiceTranslationPropsSet", r_readSignalServiceTranslationPropsSet);
  ("readSignalServiceTranslationProps", r_readSignalServiceTranslationProps);
  ("readSignalServiceTranslationEventProps", r_readSignalServiceTranslationEventProps);
  ("readSignalServiceTranslationElementProps", r_readSignalServiceTranslationElementProps);
  ("readISignalToPduMappings", r_readISignalToPduMappings);
  ("getDataFilter", r_getDataFilter);
  ("getTransmissionModeConditions", r_getTransmissionModeConditions);
  ("getTimeRangeType", r_getTimeRangeType);
  ("getCyclicTiming", r_getCyclicTiming);
  ("getEventControlledTiming", r_getEventControlledTiming);
  ("getTransmissionModeTiming", r_getTransmissionModeTiming);
  ("getTransmissionModeDeclaration", r_getTransmissionModeDeclaration);
  ("getISignalIPduIPduTimingSpecification", r_getISignalIPduIPduTimingSpecification);
  ("readISignalIPdu", r_readISignalIPdu);
  ("getISignalIPduRefs", r_getISignalIPduRefs);
  ("readISignalIPduGroup", r_readISignalIPduGroup);
  ("readSenderReceiverToSignalMapping", r_readSenderReceiverToSignalMapping);
  ("readSenderRecCompositeTypeMapping", r_readSenderRecCompositeTypeMapping);
  ("readSenderRecRecordElementMapping", r_readSenderRecRecordElementMapping);
  ("readSenderRecArrayTypeMappingRecordElementMapping", r_readSenderRecArrayTypeMappingRecordElementMapping);
  ("readSenderRecRecordTypeMapping", r_readSenderRecRecordTypeMapping);
  ("readSenderReceiverToSignalGroupMappingTypeMapping", r_readSenderReceiverToSignalGroupMappingTypeMapping);
  ("readSenderReceiverToSignalGroupMapping", r_readSenderReceiverToSignalGroupMapping);
  ("readSystemMappingDataMappings", r_readSystemMappingDataMappings);
  ("readSwcToEcuMapping", r_readSwcToEcuMapping);
  ("readSystemMappingSwMappings", r_readSystemMappingSwMappings);
  ("readEcuMapping", r_readEcuMapping);
  ("readSystemMappingEcuResourceMappings", r_readSystemMappingEcuResourceMappings);
  ("readSwcToImplMapping", r_readSwcToImplMapping);
  ("readSystemMappingSwImplMappings", r_readSystemMappingSwImplMappings);
  ("readSystemMapping", r_readSystemMapping);
  ("readSystemMappings", r_readSystemMappings);
  ("readRootSwCompositionPrototype", r_readRootSwCompositionPrototype);
  ("readSystemFibexElementRefs", r_readSystemFibexElementRefs);
  ("readSystem", r_readSystem);
  ("readGenericEthernetFrame", r_readGenericEthernetFrame);
  ("getLifeCyclePeriod", r_getLifeCyclePeriod);
  ("readLifeCycleInfoUseInsteadRefs", r_readLifeCycleInfoUseInsteadRefs);
  ("readLifeCycleInfo", r_readLifeCycleInfo);
  ("readLifeCycleInfoSetLifeCycleInfos", r_readLifeCycleInfoSetLifeCycleInfos);
  ("readLifeCycleInfoSet", r_readLifeCycleInfoSet);
  ("readFlatInstanceDescriptor", r_readFlatInstanceDescriptor);
  ("readFlatMapInstances", r_readFlatMapInstances);
  ("readFlatMap", r_readFlatMap);
  ("getDataPrototypeMappings", r_getDataPrototypeMappings);
  ("getSubElementMapping", r_getSubElementMapping);
  ("getTextTableMapping", r_getTextTableMapping);
  ("readVariableAndParameterInterfaceMapping", r_readVariableAndParameterInterfaceMapping);
  ("readClientServerOperationMapping", r_readClientServerOperationMapping);
  ("readClientServerInterfaceMappingOperationMappings", r_readClientServerInterfaceMappingOperationMappings);
  ("readClientServerInterfaceMapping", r_readClientServerInterfaceMapping);
  ("readModeInterfaceMappingModeMapping", r_readModeInterfaceMappingModeMapping);
  ("readModeInterfaceMapping", r_readModeInterfaceMapping);
  ("readPortInterfaceMappings", r_readPortInterfaceMappings);
  ("readPortInterfaceMappingSet", r_readPortInterfaceMappingSet);
  ("readARPackageElements", r_readARPackageElements);
  ("readMcFunction", r_readMcFunction);
  ("readMcFunctionDataRefSet", r_readMcFunctionDataRefSet);
  ("readMcGroup", r_readMcGroup);
  ("readMcGroupDataRefSet", r_readMcGroupDataRefSet);
  ("readReferenceBases", r_readReferenceBases);
  ("readARPackage", r_readARPackage);
  ("readARPackages", r_readARPackages);
  ("readDependencyOnArtifact:createGeneratedArtifact", r_readDependencyOnArtifact__createGeneratedArtifact);
  ("readDependencyOnArtifact:createRequiredArtifact", r_readDependencyOnArtifact__createRequiredArtifact);
  ("readDependencyOnArtifact:createRequiredGeneratorTool", r_readDependencyOnArtifact__createRequiredGeneratorTool)].
