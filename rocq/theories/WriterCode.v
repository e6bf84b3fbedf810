(** Generated by tools/gen_ir.py from /repo/src/armodel/writer/arxml_writer.py.
    One definition per method of ARXMLWriter, in source order, in the language of Ir.v; the comment gives the
    lines.  Methods outside the language are [WUnknown]:
      (none)
*)
From Coq Require Import String List.
From Verif Require Import PyBase Leaf Ir.
Import ListNotations.
Open Scope string_scope.

(** arxml_writer.py:696-700 *)
Definition w_setChildElementRxIdentifierRange : list wi :=
  [WIf (CSome [])
     [WSub TKey
        [WLeaf WNum (TLit "LOWER-CAN-ID") [GM "getLowerCanId"];
         WLeaf WNum (TLit "UPPER-CAN-ID") [GM "getUpperCanId"]]]
     []].
(** arxml_writer.py:702-713 *)
Definition w_setChildElementJ1939NodeName : list wi :=
  [WIf (CSome [])
     [WSub TKey
        [WLeaf WText (TLit "ARBITRARY-ADDRESS-CAPABLE") [GM "getArbitraryAddressCapable"];
         WLeaf WNum (TLit "ECU-INSTANCE") [GM "getEcuInstance"];
         WLeaf WNum (TLit "FUNCTION") [GM "getFunction"];
         WLeaf WNum (TLit "FUNCTION-INSTANCE") [GM "getFunctionInstance"];
         WLeaf WNum (TLit "IDENTITIY-NUMBER") [GM "getIdentitiyNumber"];
         WLeaf WNum (TLit "INDUSTRY-GROUP") [GM "getIndustryGroup"];
         WLeaf WNum (TLit "MANUFACTURER-CODE") [GM "getManufacturerCode"];
         WLeaf WNum (TLit "VEHICLE-SYSTEM") [GM "getVehicleSystem"];
         WLeaf WNum (TLit "VEHICLE-SYSTEM-INSTANCE") [GM "getVehicleSystemInstance"]]]
     []].
(** arxml_writer.py:715-727 *)
Definition w_writeSds : list wi :=
  [WFor [GM "getSds"]
     [WSub (TLit "SD")
        [WAttrs [];
         WIf (CSome [GM "getGID"])
           [WXAttr "GID" [GM "getGID"; GM "getValue"]]
           [];
         WIf (CSome [GM "getXmlSpace"])
           [WXAttr "{http://www.w3.org/XML/1998/namespace}space" [GM "getXmlSpace"; GM "getValue"]]
           [];
         WIf (CSome [GM "getValue"])
           [WSetText [GM "getValue"; GM "getValue"]]
           []]]].
(** arxml_writer.py:729-738 *)
Definition w_writeSdfs : list wi :=
  [WFor [GM "getSdfs"]
     [WSub (TLit "SDF")
        [WAttrs [];
         WIf (CSome [GM "getGID"])
           [WXAttr "GID" [GM "getGID"; GM "getValue"]]
           [];
         WIf (CSome [GM "getValue"])
           [WSetText [GM "getValue"; GM "getValue"]]
           []]]].
(** arxml_writer.py:740-744 *)
Definition w_writeSdgCaption : list wi :=
  [WIf (CSome [GM "getSdgCaption"])
     [WSub (TLit "SDG-CAPTION")
        [WCall "writeMultilanguageReferrable" None [GM "getSdgCaption"]]]
     []].
(** arxml_writer.py:746-748 *)
Definition w_writeSdgSdxRefs : list wi :=
  [WFor [GM "getSdxRefs"]
     [WLeaf WRef (TLit "SDX-REF") []]].
(** arxml_writer.py:750-752 *)
Definition w_writeSdgSdxfRefs : list wi :=
  [WFor [GM "getSdxfRefs"]
     [WLeaf WRef (TLit "SDXF") []]].
(** arxml_writer.py:754-769 *)
Definition w_setSdg : list wi :=
  [WIf (CSome [])
     [WSub (TLit "SDG")
        [WAttrs [];
         WIf (CSome [GM "getGID"])
           [WXAttr "GID" [GM "getGID"; GM "getValue"]]
           [];
         WCall "writeSdgCaption" None [];
         WIf (CSome [GM "getSdgContentsType"])
           [WFor [GM "getSdgContentsType"; GM "getSdgs"]
              [WCall "setSdg" None []];
            WCall "writeSds" None [GM "getSdgContentsType"];
            WCall "writeSdfs" None [GM "getSdgContentsType"];
            WCall "writeSdgSdxRefs" None [GM "getSdgContentsType"];
            WCall "writeSdgSdxfRefs" None [GM "getSdgContentsType"]]
           []]]
     []].
(** arxml_writer.py:771-780 *)
Definition w_writeBlueprintGenerator : list wi :=
  [WIf (CSome [])
     [WSub (TLit "FORMAL-BLUEPRINT-GENERATOR")
        [WAttrs [];
         WCall "writeDocumentationBlock" (Some (TLit "INTRODUCTION")) [GM "getIntroduction"];
         WIf (CSome [GM "getExpression"])
           [WSub (TLit "EXPRESSION")
              [WSetText [GM "getExpression"; GM "getValue"]]]
           []]]
     []].
(** arxml_writer.py:782-792 *)
Definition w_writeConditionByFormula : list wi :=
  [WIf (CSome [])
     [WSub TKey
        [WAttrs [];
         WIf (CSome [GM "getBindingTime"])
           [WXMap "BINDING-TIME" binding_time_xml_map [GM "getBindingTime"; GM "getValue"]]
           []]]
     []].
(** arxml_writer.py:794-798 *)
Definition w_writePostBuildVariantCondition : list wi :=
  [WSub (TLit "POST-BUILD-VARIANT-CONDITION")
     [WAttrs [];
      WLeaf WRef (TLit "MATCHING-CRITERION-REF") [GM "getMatchingCriterionRef"];
      WLeaf WNum (TLit "VALUE") [GM "getValue"]]].
(** arxml_writer.py:800-820 *)
Definition w_writeVariationPoint : list wi :=
  [WIf (CSome [])
     [WSub (TLit "VARIATION-POINT")
        [WAttrs [];
         WIf (CSome [GM "getShortLabel"])
           [WSub (TLit "SHORT-LABEL")
              [WSetText [GM "getShortLabel"; GM "getValue"]]]
           [];
         WCall "setMultiLanguageOverviewParagraph" (Some (TLit "DESC")) [GM "getDesc"];
         WCall "writeDocumentationBlock" (Some (TLit "BLUEPRINT-CONDITION")) [GM "getBlueprintCondition"];
         WCall "writeBlueprintGenerator" None [GM "getFormalBlueprintGenerator"];
         WCall "writeConditionByFormula" (Some (TLit "SW-SYSCOND")) [GM "getSwSyscond"];
         WIf (CNonEmpty [GM "getPostBuildVariantConditions"])
           [WSub (TLit "POST-BUILD-VARIANT-CONDITIONS")
              [WFor [GM "getPostBuildVariantConditions"]
                 [WCall "writePostBuildVariantCondition" None []]]]
           [];
         WCall "setSdg" None [GM "getSdg"]]]
     []].
(** arxml_writer.py:822-827 *)
Definition w_writeAdminDataSdgs : list wi :=
  [WIf (CNonEmpty [GM "getSdgs"])
     [WSub (TLit "SDGS")
        [WFor [GM "getSdgs"]
           [WCall "setSdg" None []]]]
     []].
(** arxml_writer.py:838-842 *)
Definition w_writeReferrable : list wi :=
  [WAttrs [];
   WShort [GM "getShortName"];
   WIf (CInst [] ["Referrable"])
     [WCall "setShortNameFragments" None [GM "getShortNameFragments"]]
     []].
(** arxml_writer.py:844-851 *)
Definition w_setShortNameFragment : list wi :=
  [WIf (CSome [])
     [WSub (TLit "SHORT-NAME-FRAGMENT")
        [WAttrs [];
         WIf (CSome [GM "getRole"])
           [WSub (TLit "ROLE")
              [WSetText [GM "getRole"]]]
           [];
         WLeaf WText (TLit "FRAGMENT") [GM "getFragment"]]]
     []].
(** arxml_writer.py:853-857 *)
Definition w_setShortNameFragments : list wi :=
  [WIf (CAnd (CSome []) (CNonEmpty []))
     [WSub (TLit "SHORT-NAME-FRAGMENTS")
        [WFor []
           [WCall "setShortNameFragment" None []]]]
     []].
(** arxml_writer.py:859-864 *)
Definition w_setLanguageSpecific : list wi :=
  [WSub TKey
     [WAttrs [];
      WIf (CSome [GM "getL"])
        [WXAttr "L" [GM "getL"]]
        [];
      WSetText [GM "getValue"]]].
(** arxml_writer.py:866-881 *)
Definition w_setLLongName : list wi :=
  [WSub (TLit "L-4")
     [WAttrs [];
      WIf (CSome [GM "getL"])
        [WXAttr "L" [GM "getL"]]
        [];
      WIf (CSome [GM "getSup"])
        [WXAttr "SUP" [GM "getSup"; GM "getValue"]]
        [];
      WIf (CSome [GM "getSub"])
        [WXAttr "SUB" [GM "getSub"; GM "getValue"]]
        [];
      WSetText [GM "getValue"];
      WIf (CSome [GM "getE"])
        [WCall "setEmphasisText" (Some (TLit "E")) [GM "getE"]]
        [];
      WIf (CSome [GM "getIe"])
        [WCall "setIndexEntry" (Some (TLit "IE")) [GM "getIe"]]
        [];
      WIf (CSome [GM "getTt"])
        [WCall "setTt" (Some (TLit "TT")) [GM "getTt"]]
        []]].
(** arxml_writer.py:883-893 *)
Definition w_setEmphasisText : list wi :=
  [WSub TKey
     [WIf (CSome [GM "getColor"])
        [WXAttr "COLOR" [GM "getColor"; GM "getValue"]]
        [];
      WIf (CSome [GM "getSup"])
        [WXAttr "SUP" [GM "getSup"; GM "getValue"]]
        [];
      WIf (CSome [GM "getSub"])
        [WXAttr "SUB" [GM "getSub"; GM "getValue"]]
        [];
      WIf (CSome [GM "getValue"])
        [WSetText [GM "getValue"; GM "getValue"]]
        [];
      WIf (CSome [GM "getTt"])
        [WCall "setTt" (Some (TLit "TT")) [GM "getTt"]]
        []]].
(** arxml_writer.py:895-901 *)
Definition w_setIndexEntry : list wi :=
  [WSub TKey
     [WIf (CSome [GM "getSup"])
        [WXAttr "SUP" [GM "getSup"; GM "getValue"]]
        [];
      WIf (CSome [GM "getSub"])
        [WXAttr "SUB" [GM "getSub"; GM "getValue"]]
        [];
      WIf (CSome [GM "getValue"])
        [WSetText [GM "getValue"; GM "getValue"]]
        []]].
(** arxml_writer.py:903-909 *)
Definition w_setTt : list wi :=
  [WSub TKey
     [WIf (CSome [GM "getType"])
        [WXAttr "TYPE" [GM "getType"; GM "getValue"]]
        [];
      WIf (CSome [GM "getTexRender"])
        [WXAttr "TEX-RENDER" [GM "getTexRender"; GM "getValue"]]
        [];
      WIf (CSome [GM "getValue"])
        [WSetText [GM "getValue"; GM "getValue"]]
        []]].
(** arxml_writer.py:911-916 *)
Definition w_setMultiLongName : list wi :=
  [WIf (CSome [])
     [WSub TKey
        [WAttrs [];
         WFor [GM "getL4s"]
           [WCall "setLLongName" None []]]]
     []].
(** arxml_writer.py:918-919 *)
Definition w_setLOverviewParagraph : list wi :=
  [WCall "setLanguageSpecific" (Some (TLit "L-2")) []].
(** arxml_writer.py:921-926 *)
Definition w_setMultiLanguageOverviewParagraph : list wi :=
  [WIf (CSome [])
     [WSub TKey
        [WAttrs [];
         WFor [GM "getL2s"]
           [WCall "setLOverviewParagraph" None []]]]
     []].
(** arxml_writer.py:928-931 *)
Definition w_writeMultilanguageReferrable : list wi :=
  [WCall "writeReferrable" None [];
   WIf (CSome [GA "longName"])
     [WCall "setMultiLongName" (Some (TLit "LONG-NAME")) [GA "longName"]]
     []].
(** arxml_writer.py:933-937 *)
Definition w_setCaption : list wi :=
  [WIf (CSome [])
     [WSub TKey
        [WCall "writeMultilanguageReferrable" None [];
         WCall "setMultiLanguageOverviewParagraph" (Some (TLit "DESC")) [GM "getDesc"]]]
     []].
(** arxml_writer.py:939-940 *)
Definition w_setLPlainText : list wi :=
  [WCall "setLanguageSpecific" (Some (TLit "L-10")) []].
(** arxml_writer.py:942-947 *)
Definition w_setMultiLanguagePlainText : list wi :=
  [WIf (CSome [])
     [WSub TKey
        [WAttrs [];
         WFor [GM "getL10s"]
           [WCall "setLPlainText" None []]]]
     []].
(** arxml_writer.py:949-953 *)
Definition w_writeModification : list wi :=
  [WIf (CSome [])
     [WSub (TLit "MODIFICATION")
        [WCall "setMultiLanguageOverviewParagraph" (Some (TLit "CHANGE")) [GM "getChange"];
         WCall "setMultiLanguageOverviewParagraph" (Some (TLit "REASON")) [GM "getReason"]]]
     []].
(** arxml_writer.py:955-963 *)
Definition w_writeDocRevisionModifications : list wi :=
  [WIf (CNonEmpty [GM "getModifications"])
     [WSub (TLit "MODIFICATIONS")
        [WFor [GM "getModifications"]
           [WIf (CInst [] ["Modification"])
              [WCall "writeModification" None []]
              [WFail NotImplementedError true]]]]
     []].
(** arxml_writer.py:965-974 *)
Definition w_writeDocRevision : list wi :=
  [WIf (CSome [])
     [WSub (TLit "DOC-REVISION")
        [WLeaf WText (TLit "REVISION-LABEL") [GM "getRevisionLabel"];
         WLeaf WText (TLit "STATE") [GM "getState"];
         WLeaf WText (TLit "ISSUED-BY") [GM "getIssuedBy"];
         WLeaf WText (TLit "DATE") [GM "getDate"];
         WCall "writeDocRevisionModifications" None []]]
     []].
(** arxml_writer.py:976-984 *)
Definition w_writeAdminDataDocRevisions : list wi :=
  [WIf (CNonEmpty [GM "getDocRevisions"])
     [WSub (TLit "DOC-REVISIONS")
        [WFor [GM "getDocRevisions"]
           [WIf (CInst [] ["DocRevision"])
              [WCall "writeDocRevision" None []]
              [WFail NotImplementedError true]]]]
     []].
(** arxml_writer.py:986-994 *)
Definition w_setAdminData : list wi :=
  [WIf (CSome [])
     [WSub (TLit "ADMIN-DATA")
        [WAttrs [];
         WLeaf WText (TLit "LANGUAGE") [GM "getLanguage"];
         WCall "setMultiLanguagePlainText" (Some (TLit "USED-LANGUAGES")) [GM "getUsedLanguages"];
         WCall "writeAdminDataSdgs" None [];
         WCall "writeAdminDataDocRevisions" None []]]
     []].
(** arxml_writer.py:996-1004 *)
Definition w_writeIdentifiable : list wi :=
  [WCall "writeMultilanguageReferrable" None [];
   WCall "setAnnotations" None [GM "getAnnotations"];
   WCall "setMultiLanguageOverviewParagraph" (Some (TLit "DESC")) [GM "getDesc"];
   WLeaf WText (TLit "CATEGORY") [GM "getCategory"];
   WCall "writeDocumentationBlock" (Some (TLit "INTRODUCTION")) [GM "getIntroduction"];
   WCall "setAdminData" None [GM "getAdminData"];
   WIf (CInst [] ["Identifiable"])
     [WCall "writeVariationPoint" None [GM "getVariationPoint"]]
     []].
(** arxml_writer.py:1006-1007 *)
Definition w_writeARElement : list wi :=
  [WCall "writeIdentifiable" None []].
(** arxml_writer.py:1009-1013 *)
Definition w_writeTransmissionAcknowledgementRequest : list wi :=
  [WIf (CSome [])
     [WSub (TLit "TRANSMISSION-ACKNOWLEDGE")
        [WAttrs [];
         WLeaf WText (TLit "TIMEOUT") [GM "getTimeout"]]]
     []].
(** arxml_writer.py:1015-1021 *)
Definition w_writeTransmissionComSpecProps : list wi :=
  [WIf (CSome [])
     [WSub (TLit "TRANSMISSION-PROPS")
        [WAttrs [];
         WLeaf WText (TLit "DATA-UPDATE-PERIOD") [GM "getDataUpdatePeriod"];
         WLeaf WText (TLit "MINIMUM-SEND-INTERVAL") [GM "getMinimumSendInterval"];
         WLeaf WText (TLit "TRANSMISSION-MODE") [GM "getTransmissionMode"]]]
     []].
(** arxml_writer.py:1023-1034 *)
Definition w_writeSenderComSpec : list wi :=
  [WIf (CNonEmpty [GM "getCompositeNetworkRepresentations"])
     [WSub (TLit "COMPOSITE-NETWORK-REPRESENTATIONS")
        [WFor [GM "getCompositeNetworkRepresentations"]
           [WCall "writeCompositeNetworkRepresentation" None []]]]
     [];
   WLeaf WRef (TLit "DATA-ELEMENT-REF") [GM "getDataElementRef"];
   WLeaf WText (TLit "HANDLE-OUT-OF-RANGE") [GM "getHandleOutOfRange"];
   WCall "setSwDataDefProps" (Some (TLit "NETWORK-REPRESENTATION")) [GM "getNetworkRepresentation"];
   WCall "writeTransmissionAcknowledgementRequest" None [GM "getTransmissionAcknowledge"];
   WCall "writeTransmissionComSpecProps" None [GM "getTransmissionProps"];
   WLeaf WText (TLit "USES-END-TO-END-PROTECTION") [GM "getUsesEndToEndProtection"]].
(** arxml_writer.py:1036-1041 *)
Definition w_writeNonqueuedSenderComSpec : list wi :=
  [WSub (TLit "NONQUEUED-SENDER-COM-SPEC")
     [WAttrs [];
      WCall "writeSenderComSpec" None [];
      WCall "setDataFilter" (Some (TLit "DATA-FILTER")) [GM "getDataFilter"];
      WCall "setChildValueSpecification" (Some (TLit "INIT-VALUE")) [GM "getInitValue"]]].
(** arxml_writer.py:1043-1045 *)
Definition w_writeTransformationComSpecProps : list wi :=
  [WIf (CSome [])
     [WAttrs []]
     []].
(** arxml_writer.py:1047-1050 *)
Definition w_writeUserDefinedTransformationComSpecProps : list wi :=
  [WIf (CSome [])
     [WSub (TLit "USER-DEFINED-TRANSFORMATION-COM-SPEC-PROPS")
        [WCall "writeTransformationComSpecProps" None []]]
     []].
(** arxml_writer.py:1052-1071 *)
Definition w_writeEndToEndTransformationComSpecProps : list wi :=
  [WIf (CSome [])
     [WSub (TLit "END-TO-END-TRANSFORMATION-COM-SPEC-PROPS")
        [WCall "writeTransformationComSpecProps" None [];
         WLeaf WText (TLit "CLEAR-FROM-VALID-TO-INVALID") [GM "getClearFromValidToInvalid"];
         WLeaf WText (TLit "DISABLE-END-TO-END-CHECK") [GM "getDisableEndToEndCheck"];
         WLeaf WText (TLit "DISABLE-END-TO-END-STATE-MACHINE") [GM "getDisableEndToEndStateMachine"];
         WLeaf WRef (TLit "E2E-PROFILE-COMPATIBILITY-PROPS-REF") [GM "getE2eProfileCompatibilityPropsRef"];
         WLeaf WNum (TLit "MAX-DELTA-COUNTER") [GM "getMaxDeltaCounter"];
         WLeaf WNum (TLit "MAX-ERROR-STATE-INIT") [GM "getMaxErrorStateInit"];
         WLeaf WNum (TLit "MAX-ERROR-STATE-INVALID") [GM "getMaxErrorStateInvalid"];
         WLeaf WNum (TLit "MAX-ERROR-STATE-VALID") [GM "getMaxErrorStateValid"];
         WLeaf WNum (TLit "MAX-NO-NEW-OR-REPEATED-DATA") [GM "getMaxNoNewOrRepeatedData"];
         WLeaf WNum (TLit "MIN-OK-STATE-INIT") [GM "getMinOkStateInit"];
         WLeaf WNum (TLit "MIN-OK-STATE-INVALID") [GM "getMinOkStateInvalid"];
         WLeaf WNum (TLit "MIN-OK-STATE-VALID") [GM "getMinOkStateValid"];
         WLeaf WNum (TLit "SYNC-COUNTER-INIT") [GM "getSyncCounterInit"];
         WLeaf WNum (TLit "WINDOW-SIZE-INIT") [GM "getWindowSizeInit"];
         WLeaf WNum (TLit "WINDOW-SIZE-INVALID") [GM "getWindowSizeInvalid"];
         WLeaf WNum (TLit "WINDOW-SIZE-VALID") [GM "getWindowSizeValid"]]]
     []].
(** arxml_writer.py:1073-1074 *)
Definition w_writeServerComSpecTransformationComSpecProps : list wi :=
  [WCall "writeTransformationComSpecPropss" None [GM "getTransformationComSpecProps"]].
(** arxml_writer.py:1076-1081 *)
Definition w_writeServerComSpec : list wi :=
  [WSub (TLit "SERVER-COM-SPEC")
     [WAttrs [];
      WLeaf WRef (TLit "OPERATION-REF") [GM "getOperationRef"];
      WLeaf WNum (TLit "QUEUE-LENGTH") [GM "getQueueLength"];
      WCall "writeServerComSpecTransformationComSpecProps" None []]].
(** arxml_writer.py:1083-1086 *)
Definition w_writeQueuedSenderComSpec : list wi :=
  [WSub (TLit "QUEUED-SENDER-COM-SPEC")
     [WAttrs [];
      WCall "writeSenderComSpec" None []]].
(** arxml_writer.py:1088-1092 *)
Definition w_setModeSwitchedAckRequest : list wi :=
  [WIf (CSome [])
     [WSub TKey
        [WAttrs [];
         WLeaf WText (TLit "TIMEOUT") [GM "getTimeout"]]]
     []].
(** arxml_writer.py:1094-1099 *)
Definition w_writeModeSwitchSenderComSpec : list wi :=
  [WSub (TLit "MODE-SWITCH-SENDER-COM-SPEC")
     [WAttrs [];
      WLeaf WRef (TLit "MODE-GROUP-REF") [GM "getModeGroupRef"];
      WCall "setModeSwitchedAckRequest" (Some (TLit "MODE-SWITCHED-ACK")) [GM "getModeSwitchedAck"];
      WLeaf WNum (TLit "QUEUE-LENGTH") [GM "getQueueLength"]]].
(** arxml_writer.py:1101-1107 *)
Definition w_writeNvProvideComSpec : list wi :=
  [WIf (CSome [])
     [WSub (TLit "NV-PROVIDE-COM-SPEC")
        [WAttrs [];
         WCall "setChildValueSpecification" (Some (TLit "RAM-BLOCK-INIT-VALUE")) [GM "getRamBlockInitValue"];
         WCall "setChildValueSpecification" (Some (TLit "ROM-BLOCK-INIT-VALUE")) [GM "getRomBlockInitValue"];
         WLeaf WRef (TLit "VARIABLE-REF") [GM "getVariableRef"]]]
     []].
(** arxml_writer.py:1109-1123 *)
Definition w_writePPortComSpec : list wi :=
  [WIf (CInst [] ["NonqueuedSenderComSpec"])
     [WCall "writeNonqueuedSenderComSpec" None []]
     [WIf (CInst [] ["ServerComSpec"])
        [WCall "writeServerComSpec" None []]
        [WIf (CInst [] ["QueuedSenderComSpec"])
           [WCall "writeQueuedSenderComSpec" None []]
           [WIf (CInst [] ["ModeSwitchSenderComSpec"])
              [WCall "writeModeSwitchSenderComSpec" None []]
              [WIf (CInst [] ["NvProvideComSpec"])
                 [WCall "writeNvProvideComSpec" None []]
                 [WIf (CInst [] ["ParameterProvideComSpec"])
                    [WCall "writeParameterProvideComSpec" None []]
                    [WFail NotImplementedError true]]]]]]].
(** arxml_writer.py:1125-1130 *)
Definition w_setApplicationCompositeElementInPortInterfaceInstanceRef : list wi :=
  [WIf (CSome [])
     [WSub TKey
        [WLeaf WRef (TLit "ROOT-DATA-PROTOTYPE-REF") [GM "getRootDataPrototypeRef"];
         WLeaf WRef (TLit "TARGET-DATA-PROTOTYPE-REF") [GM "getTargetDataPrototypeRef"]]]
     []].
(** arxml_writer.py:1132-1137 *)
Definition w_writeCompositeNetworkRepresentation : list wi :=
  [WIf (CSome [])
     [WSub (TLit "COMPOSITE-NETWORK-REPRESENTATION")
        [WCall "setApplicationCompositeElementInPortInterfaceInstanceRef" (Some (TLit "LEAF-ELEMENT-IREF")) [GM "getLeafElementIRef"];
         WCall "setSwDataDefProps" (Some (TLit "NETWORK-REPRESENTATION")) [GM "getNetworkRepresentation"]]]
     []].
(** arxml_writer.py:1139-1165 *)
Definition w_writeReceiverComSpec : list wi :=
  [WIf (CNonEmpty [GM "getCompositeNetworkRepresentations"])
     [WSub (TLit "COMPOSITE-NETWORK-REPRESENTATIONS")
        [WFor [GM "getCompositeNetworkRepresentations"]
           [WCall "writeCompositeNetworkRepresentation" None []]]]
     [];
   WLeaf WRef (TLit "DATA-ELEMENT-REF") [GM "getDataElementRef"];
   WCall "setSwDataDefProps" (Some (TLit "NETWORK-REPRESENTATION")) [GM "getNetworkRepresentation"];
   WLeaf WText (TLit "HANDLE-OUT-OF-RANGE") [GM "getHandleOutOfRange"];
   WLeaf WText (TLit "HANDLE-OUT-OF-RANGE-STATUS") [GM "getHandleOutOfRangeStatus"];
   WLeaf WNum (TLit "MAX-DELTA-COUNTER-INIT") [GM "getMaxDeltaCounterInit"];
   WLeaf WNum (TLit "MAX-NO-NEW-OR-REPEATED-DATA") [GM "getMaxNoNewOrRepeatedData"];
   WLeaf WText (TLit "USES-END-TO-END-PROTECTION") [GM "getUsesEndToEndProtection"];
   WCall "writeReceptionComSpecProps" (Some (TLit "RECEPTION-PROPS")) [GM "getReceptionProps"];
   WCall "writeReceiverReplaceWith" (Some (TLit "REPLACE-WITH")) [GM "getReplaceWith"];
   WLeaf WNum (TLit "SYNC-COUNTER-INIT") [GM "getSyncCounterInit"];
   WIf (CNonEmpty [GM "getTransformationComSpecProps"])
     [WSub (TLit "TRANSFORMATION-COM-SPEC-PROPSS")
        [WFor [GM "getTransformationComSpecProps"]
           [WIf (CInst [] ["EndToEndTransformationComSpecProps"])
              [WSub (TLit "END-TO-END-TRANSFORMATION-COM-SPEC-PROPS")
                 [WCall "writeTransformationComSpecProps" None []]]
              [WIf (CInst [] ["UserDefinedTransformationComSpecProps"])
                 [WCall "writeUserDefinedTransformationComSpecProps" None []]
                 [WFail NotImplementedError true]]]]]
     []].
(** arxml_writer.py:1167-1172 *)
Definition w_writeReceptionComSpecProps : list wi :=
  [WIf (CSome [])
     [WSub TKey
        [WAttrs [];
         WLeaf WText (TLit "DATA-UPDATE-PERIOD") [GM "getDataUpdatePeriod"];
         WLeaf WText (TLit "TIMEOUT") [GM "getTimeout"]]]
     []].
(** arxml_writer.py:1174-1179 *)
Definition w_writeReceiverReplaceWith : list wi :=
  [WIf (CSome [])
     [WSub TKey
        [WCall "writeIdentifiable" None [];
         WCall "setAutosarVariableRef" (Some (TLit "ACCESSED-VARIABLE")) [GM "getAccessedVariableRef"];
         WLeaf WText (TLit "SCOPE") [GM "getScope"]]]
     []].
(** arxml_writer.py:1181-1187 *)
Definition w_setSwValues : list wi :=
  [WIf (CSome [])
     [WSub TKey
        [WAttrs [];
         WFor [GM "getVs"]
           [WLeaf WText (TLit "V") []];
         WLeaf WText (TLit "VT") [GA "vt"]]]
     []].
(** arxml_writer.py:1189-1193 *)
Definition w_setValueList : list wi :=
  [WIf (CSome [])
     [WSub TKey
        [WAttrs [];
         WLeaf WText (TLit "V") [GA "v"]]]
     []].
(** arxml_writer.py:1195-1201 *)
Definition w_writeSwValueCont : list wi :=
  [WIf (CSome [])
     [WSub (TLit "SW-VALUE-CONT")
        [WAttrs [];
         WLeaf WRef (TLit "UNIT-REF") [GA "unitRef"];
         WCall "setValueList" (Some (TLit "SW-ARRAYSIZE")) [GA "swArraysize"];
         WCall "setSwValues" (Some (TLit "SW-VALUES-PHYS")) [GA "swValuesPhys"]]]
     []].
(** arxml_writer.py:1203-1206 *)
Definition w_writeValueSpecification : list wi :=
  [WIf (CSome [])
     [WAttrs [];
      WLeaf WText (TLit "SHORT-LABEL") [GM "getShortLabel"]]
     []].
(** arxml_writer.py:1208-1212 *)
Definition w_writeTextValueSpecification : list wi :=
  [WIf (CSome [])
     [WSub (TLit "TEXT-VALUE-SPECIFICATION")
        [WCall "writeValueSpecification" None [];
         WLeaf WText (TLit "VALUE") [GM "getValue"]]]
     []].
(** arxml_writer.py:1214-1218 *)
Definition w_writeNumericalValueSpecification : list wi :=
  [WIf (CSome [])
     [WSub (TLit "NUMERICAL-VALUE-SPECIFICATION")
        [WCall "writeValueSpecification" None [];
         WLeaf WNum (TLit "VALUE") [GM "getValue"]]]
     []].
(** arxml_writer.py:1220-1242 *)
Definition w_writeArrayValueSpecification : list wi :=
  [WSub (TLit "ARRAY-VALUE-SPECIFICATION")
     [WCall "writeValueSpecification" None [];
      WIf (CNonEmpty [GM "getElements"])
        [WSub (TLit "ELEMENTS")
           [WFor [GM "getElements"]
              [WIf (CInst [] ["NumericalValueSpecification"])
                 [WCall "writeNumericalValueSpecification" None []]
                 [WIf (CInst [] ["ApplicationValueSpecification"])
                    [WCall "writeApplicationValueSpecification" None []]
                    [WIf (CInst [] ["ApplicationRuleBasedValueSpecification"])
                       [WCall "writeApplicationRuleBasedValueSpecification" None []]
                       [WIf (CInst [] ["CompositeRuleBasedValueSpecification"])
                          [WCall "writeCompositeRuleBasedValueSpecification" None []]
                          [WIf (CInst [] ["TextValueSpecification"])
                             [WCall "writeTextValueSpecification" None []]
                             [WIf (CInst [] ["ArrayValueSpecification"])
                                [WCall "writeArrayValueSpecification" None []]
                                [WIf (CInst [] ["RecordValueSpecification"])
                                   [WCall "writeRecordValueSpecification" None []]
                                   [WFail NotImplementedError true]]]]]]]]]]
        []]].
(** arxml_writer.py:1244-1247 *)
Definition w_setConstantReference : list wi :=
  [WSub (TLit "CONSTANT-REFERENCE")
     [WCall "writeValueSpecification" None [];
      WLeaf WRef (TLit "CONSTANT-REF") [GM "getConstantRef"]]].
(** arxml_writer.py:1249-1269 *)
Definition w_setChildValueSpecification : list wi :=
  [WIf (CSome [])
     [WSub TKey
        [WIf (CInst [] ["ApplicationValueSpecification"])
           [WCall "writeApplicationValueSpecification" None []]
           [WIf (CInst [] ["ApplicationRuleBasedValueSpecification"])
              [WCall "writeApplicationRuleBasedValueSpecification" None []]
              [WIf (CInst [] ["CompositeRuleBasedValueSpecification"])
                 [WCall "writeCompositeRuleBasedValueSpecification" None []]
                 [WIf (CInst [] ["TextValueSpecification"])
                    [WCall "writeTextValueSpecification" None []]
                    [WIf (CInst [] ["ConstantReference"])
                       [WCall "setConstantReference" None []]
                       [WIf (CInst [] ["NumericalValueSpecification"])
                          [WCall "writeNumericalValueSpecification" None []]
                          [WIf (CInst [] ["ArrayValueSpecification"])
                             [WCall "writeArrayValueSpecification" None []]
                             [WIf (CInst [] ["RecordValueSpecification"])
                                [WCall "writeRecordValueSpecification" None []]
                                [WFail NotImplementedError true]]]]]]]]]]
     []].
(** arxml_writer.py:1271-1283 *)
Definition w_writeNonqueuedReceiverComSpec : list wi :=
  [WSub (TLit "NONQUEUED-RECEIVER-COM-SPEC")
     [WAttrs [];
      WCall "writeReceiverComSpec" None [];
      WLeaf WText (TLit "ALIVE-TIMEOUT") [GM "getAliveTimeout"];
      WLeaf WText (TLit "ENABLE-UPDATE") [GM "getEnableUpdate"];
      WCall "setDataFilter" (Some (TLit "FILTER")) [GM "getFilter"];
      WLeaf WText (TLit "HANDLE-DATA-STATUS") [GM "getHandleDataStatus"];
      WLeaf WText (TLit "HANDLE-NEVER-RECEIVED") [GM "getHandleNeverReceived"];
      WLeaf WText (TLit "HANDLE-TIMEOUT-TYPE") [GM "getHandleTimeoutType"];
      WCall "setChildValueSpecification" (Some (TLit "INIT-VALUE")) [GM "getInitValue"];
      WCall "setChildValueSpecification" (Some (TLit "TIMEOUT-SUBSTITUTION-VALUE")) [GM "getTimeoutSubstitutionValue"]]].
(** arxml_writer.py:1285-1289 *)
Definition w_writeQueuedReceiverComSpec : list wi :=
  [WSub (TLit "QUEUED-RECEIVER-COM-SPEC")
     [WAttrs [];
      WCall "writeReceiverComSpec" None [];
      WLeaf WNum (TLit "QUEUE-LENGTH") [GA "queueLength"]]].
(** arxml_writer.py:1291-1297 *)
Definition w_writeClientComSpec : list wi :=
  [WSub (TLit "CLIENT-COM-SPEC")
     [WAttrs [];
      WLeaf WText (TLit "END-TO-END-CALL-RESPONSE-TIMEOUT") [GM "getEndToEndCallResponseTimeout"];
      WLeaf WRef (TLit "OPERATION-REF") [GM "getOperationRef"];
      WCall "writeTransformationComSpecPropss" None [GM "getTransformationComSpecProps"]]].
(** arxml_writer.py:1299-1308 *)
Definition w_writeTransformationComSpecPropss : list wi :=
  [WIf (CNonEmpty [])
     [WSub (TLit "TRANSFORMATION-COM-SPEC-PROPSS")
        [WFor []
           [WIf (CInst [] ["UserDefinedTransformationComSpecProps"])
              [WCall "writeUserDefinedTransformationComSpecProps" None []]
              [WIf (CInst [] ["EndToEndTransformationComSpecProps"])
                 [WCall "writeEndToEndTransformationComSpecProps" None []]
                 [WFail NotImplementedError true]]]]]
     []].
(** arxml_writer.py:1310-1315 *)
Definition w_writeParameterProvideComSpec : list wi :=
  [WSub (TLit "PARAMETER-PROVIDE-COM-SPEC")
     [WAttrs [];
      WCall "setChildValueSpecification" (Some (TLit "INIT-VALUE")) [GM "getInitValue"];
      WLeaf WRef (TLit "PARAMETER-REF") [GM "getParameterRef"]]].
(** arxml_writer.py:1317-1322 *)
Definition w_writeParameterRequireComSpec : list wi :=
  [WSub (TLit "PARAMETER-REQUIRE-COM-SPEC")
     [WAttrs [];
      WCall "setChildValueSpecification" (Some (TLit "INIT-VALUE")) [GM "getInitValue"];
      WLeaf WRef (TLit "PARAMETER-REF") [GM "getParameterRef"]]].
(** arxml_writer.py:1324-1329 *)
Definition w_writeNvRequireComSpec : list wi :=
  [WSub (TLit "NV-REQUIRE-COM-SPEC")
     [WAttrs [];
      WCall "setChildValueSpecification" (Some (TLit "INIT-VALUE")) [GM "getInitValue"];
      WLeaf WRef (TLit "VARIABLE-REF") [GM "getVariableRef"]]].
(** arxml_writer.py:1331-1337 *)
Definition w_setModeSwitchReceiverComSpec : list wi :=
  [WSub (TLit "MODE-SWITCH-RECEIVER-COM-SPEC")
     [WAttrs [];
      WLeaf WText (TLit "ENHANCED-MODE-API") [GM "getEnhancedModeApi"];
      WLeaf WRef (TLit "MODE-GROUP-REF") [GM "getModeGroupRef"];
      WLeaf WText (TLit "SUPPORTS-ASYNCHRONOUS-MODE-SWITCH") [GM "getSupportsAsynchronousModeSwitch"]]].
(** arxml_writer.py:1339-1353 *)
Definition w_writeRPortComSpec : list wi :=
  [WIf (CInst [] ["NonqueuedReceiverComSpec"])
     [WCall "writeNonqueuedReceiverComSpec" None []]
     [WIf (CInst [] ["QueuedReceiverComSpec"])
        [WCall "writeQueuedReceiverComSpec" None []]
        [WIf (CInst [] ["ClientComSpec"])
           [WCall "writeClientComSpec" None []]
           [WIf (CInst [] ["ModeSwitchReceiverComSpec"])
              [WCall "setModeSwitchReceiverComSpec" None []]
              [WIf (CInst [] ["ParameterRequireComSpec"])
                 [WCall "writeParameterRequireComSpec" None []]
                 [WIf (CInst [] ["NvRequireComSpec"])
                    [WCall "writeNvRequireComSpec" None []]
                    [WFail ValueError false]]]]]]].
(** arxml_writer.py:1355-1360 *)
Definition w_setAbstractProvidedPortPrototype : list wi :=
  [WIf (CNonEmpty [GM "getProvidedComSpecs"])
     [WSub (TLit "PROVIDED-COM-SPECS")
        [WFor [GM "getProvidedComSpecs"]
           [WCall "writePPortComSpec" None []]]]
     []].
(** arxml_writer.py:1362-1369 *)
Definition w_writePPortPrototype : list wi :=
  [WSub (TLit "P-PORT-PROTOTYPE")
     [WCall "writeIdentifiable" None [];
      WCall "setAbstractProvidedPortPrototype" None [];
      WLeaf WRef (TLit "PROVIDED-INTERFACE-TREF") [GM "getProvidedInterfaceTRef"];
      WCall "setPortPrototype" None []]].
(** arxml_writer.py:1371-1376 *)
Definition w_setAbstractRequiredPortPrototype : list wi :=
  [WIf (CNonEmpty [GM "getRequiredComSpecs"])
     [WSub (TLit "REQUIRED-COM-SPECS")
        [WFor [GM "getRequiredComSpecs"]
           [WCall "writeRPortComSpec" None []]]]
     []].
(** arxml_writer.py:1378-1384 *)
Definition w_writeRPortPrototype : list wi :=
  [WSub (TLit "R-PORT-PROTOTYPE")
     [WCall "writeIdentifiable" None [];
      WCall "setAbstractRequiredPortPrototype" None [];
      WLeaf WRef (TLit "REQUIRED-INTERFACE-TREF") [GM "getRequiredInterfaceTRef"];
      WCall "setPortPrototype" None []]].
(** arxml_writer.py:1386-1393 *)
Definition w_writePRPortPrototype : list wi :=
  [WSub (TLit "PR-PORT-PROTOTYPE")
     [WCall "writeIdentifiable" None [];
      WCall "setAbstractProvidedPortPrototype" None [];
      WCall "setAbstractRequiredPortPrototype" None [];
      WLeaf WRef (TLit "PROVIDED-REQUIRED-INTERFACE-TREF") [GM "getProvidedRequiredInterface"];
      WCall "setPortPrototype" None []]].
(** arxml_writer.py:1395-1433 *)
Definition w_setPortPrototype : list wi :=
  [WIf (CNonEmpty [GM "getClientServerAnnotations"])
     [WSub (TLit "CLIENT-SERVER-ANNOTATIONS")
        [WFor [GM "getClientServerAnnotations"]
           [WCall "writeClientServerAnnotation" None []]]]
     [];
   WIf (CSome [GM "getDelegatedPortAnnotation"])
     [WCall "writeDelegatedPortAnnotation" None [GM "getDelegatedPortAnnotation"]]
     [];
   WIf (CNonEmpty [GM "getIoHwAbstractionServerAnnotations"])
     [WSub (TLit "IO-HW-ABSTRACTION-SERVER-ANNOTATIONS")
        [WFor [GM "getIoHwAbstractionServerAnnotations"]
           [WCall "writeIoHwAbstractionServerAnnotation" None []]]]
     [];
   WIf (CNonEmpty [GM "getModePortAnnotations"])
     [WSub (TLit "MODE-PORT-ANNOTATIONS")
        [WFor [GM "getModePortAnnotations"]
           [WCall "writeModePortAnnotation" None []]]]
     [];
   WIf (CNonEmpty [GM "getNvDataPortAnnotations"])
     [WSub (TLit "NV-DATA-PORT-ANNOTATIONS")
        [WFor [GM "getNvDataPortAnnotations"]
           [WCall "writeNvDataPortAnnotation" None []]]]
     [];
   WIf (CNonEmpty [GM "getParameterPortAnnotations"])
     [WSub (TLit "PARAMETER-PORT-ANNOTATIONS")
        [WFor [GM "getParameterPortAnnotations"]
           [WCall "writeParameterPortAnnotation" None []]]]
     [];
   WIf (CNonEmpty [GM "getSenderReceiverAnnotations"])
     [WSub (TLit "SENDER-RECEIVER-ANNOTATIONS")
        [WFor [GM "getSenderReceiverAnnotations"]
           [WCall "writeSenderReceiverAnnotation" None []]]]
     [];
   WIf (CNonEmpty [GM "getTriggerPortAnnotations"])
     [WSub (TLit "TRIGGER-PORT-ANNOTATIONS")
        [WFor [GM "getTriggerPortAnnotations"]
           [WCall "writeTriggerPortAnnotation" None []]]]
     []].
(** arxml_writer.py:1435-1437 *)
Definition w_writeClientServerAnnotation : list wi :=
  [WSub (TLit "CLIENT-SERVER-ANNOTATION")
     [WLeaf WRef (TLit "OPERATION-REF") [GM "getOperationRef"]]].
(** arxml_writer.py:1439-1441 *)
Definition w_writeDelegatedPortAnnotation : list wi :=
  [WSub (TLit "DELEGATED-PORT-ANNOTATION")
     [WLeaf WText (TLit "SIGNAL-FAN") [GM "getSignalFan"]]].
(** arxml_writer.py:1443-1447 *)
Definition w_writeIoHwAbstractionServerAnnotation : list wi :=
  [WSub (TLit "IO-HW-ABSTRACTION-SERVER-ANNOTATION")
     [WLeaf WText (TLit "FILTERING-DEBOUNCING") [GM "getFilteringDebouncing"];
      WLeaf WText (TLit "PULSE-TEST") [GM "getPulseTest"];
      WLeaf WRef (TLit "TRIGGER-REF") [GM "getTriggerRef"]]].
(** arxml_writer.py:1449-1451 *)
Definition w_writeModePortAnnotation : list wi :=
  [WSub (TLit "MODE-PORT-ANNOTATION")
     [WLeaf WRef (TLit "MODE-GROUP-REF") [GM "getModeGroupRef"]]].
(** arxml_writer.py:1453-1455 *)
Definition w_writeNvDataPortAnnotation : list wi :=
  [WSub (TLit "NV-DATA-PORT-ANNOTATION")
     [WLeaf WRef (TLit "VARIABLE-REF") [GM "getVariableRef"]]].
(** arxml_writer.py:1457-1459 *)
Definition w_writeParameterPortAnnotation : list wi :=
  [WSub (TLit "PARAMETER-PORT-ANNOTATION")
     [WLeaf WRef (TLit "PARAMETER-REF") [GM "getParameterRef"]]].
(** arxml_writer.py:1461-1466 *)
Definition w_writeSenderReceiverAnnotation : list wi :=
  [WSub (TLit "SENDER-RECEIVER-ANNOTATION")
     [WLeaf WText (TLit "COMPUTED") [GM "getComputed"];
      WLeaf WRef (TLit "DATA-ELEMENT-REF") [GM "getDataElementRef"];
      WLeaf WText (TLit "LIMIT-KIND") [GM "getLimitKind"];
      WLeaf WText (TLit "PROCESSING-KIND") [GM "getProcessingKind"]]].
(** arxml_writer.py:1468-1470 *)
Definition w_writeTriggerPortAnnotation : list wi :=
  [WSub (TLit "TRIGGER-PORT-ANNOTATION")
     [WLeaf WRef (TLit "TRIGGER-REF") [GM "getTriggerRef"]]].
(** arxml_writer.py:1472-1484 *)
Definition w_writeSwComponentTypePorts : list wi :=
  [WIf (CNonEmpty [GM "getPorts"])
     [WSub (TLit "PORTS")
        [WFor [GM "getPorts"]
           [WIf (CInst [] ["PPortPrototype"])
              [WCall "writePPortPrototype" None []]
              [WIf (CInst [] ["RPortPrototype"])
                 [WCall "writeRPortPrototype" None []]
                 [WIf (CInst [] ["PRPortPrototype"])
                    [WCall "writePRPortPrototype" None []]
                    [WFail NotImplementedError true]]]]]]
     []].
(** arxml_writer.py:1486-1489 *)
Definition w_writeInnerGroupIRef : list wi :=
  [WSub (TLit "INNER-GROUP-IREF")
     [WLeaf WRef (TLit "TARGET-REF") [GM "getTargetRef"]]].
(** arxml_writer.py:1491-1496 *)
Definition w_writePortGroupInnerGroupIRefs : list wi :=
  [WIf (CNonEmpty [GM "getInnerGroupIRefs"])
     [WSub (TLit "INNER-GROUP-IREFS")
        [WFor [GM "getInnerGroupIRefs"]
           [WCall "writeInnerGroupIRef" None []]]]
     []].
(** arxml_writer.py:1498-1504 *)
Definition w_writePortGroupOuterPortRefs : list wi :=
  [WIf (CNonEmpty [GM "getOuterPortRefs"])
     [WSub (TLit "OUTER-PORTS")
        [WFor [GM "getOuterPortRefs"]
           [WSub (TLit "PORT-PROTOTYPE-REF-CONDITIONAL")
              [WLeaf WRef (TLit "PORT-PROTOTYPE-REF") []]]]]
     []].
(** arxml_writer.py:1506-1511 *)
Definition w_writePortGroup : list wi :=
  [WSub (TLit "PORT-GROUP")
     [WCall "writeIdentifiable" None [];
      WCall "writePortGroupInnerGroupIRefs" None [];
      WCall "writePortGroupOuterPortRefs" None []]].
(** arxml_writer.py:1513-1518 *)
Definition w_writeSwComponentTypePortGroups : list wi :=
  [WIf (CNonEmpty [GM "getPortGroups"])
     [WSub (TLit "PORT-GROUPS")
        [WFor [GM "getPortGroups"]
           [WCall "writePortGroup" None []]]]
     []].
(** arxml_writer.py:1520-1525 *)
Definition w_writeSwComponentTypeSwcMappingConstraints : list wi :=
  [WIf (CNonEmpty [GM "getSwcMappingConstraintsRefs"])
     [WSub (TLit "SWC-MAPPING-CONSTRAINT-REFS")
        [WFor [GM "getSwcMappingConstraintsRefs"]
           [WLeaf WRef (TLit "SWC-MAPPING-CONSTRAINT-REF") []]]]
     []].
(** arxml_writer.py:1527-1541 *)
Definition w_writeSwComponentDocumentationElement : list wi :=
  [WIf (CSome [GM "getSwFeatureDef"])
     [WCall "writeChapter" (Some (TLit "SW-FEATURE-DEF")) [GM "getSwFeatureDef"]]
     [];
   WIf (CSome [GM "getSwFeatureDesc"])
     [WCall "writeChapter" (Some (TLit "SW-FEATURE-DESC")) [GM "getSwFeatureDesc"]]
     [];
   WIf (CSome [GM "getSwTestDesc"])
     [WCall "writeChapter" (Some (TLit "SW-TEST-DESC")) [GM "getSwTestDesc"]]
     [];
   WIf (CSome [GM "getSwCalibrationNotes"])
     [WCall "writeChapter" (Some (TLit "SW-CALIBRATION-NOTES")) [GM "getSwCalibrationNotes"]]
     [];
   WIf (CSome [GM "getSwMaintenanceNotes"])
     [WCall "writeChapter" (Some (TLit "SW-MAINTENANCE-NOTES")) [GM "getSwMaintenanceNotes"]]
     [];
   WIf (CSome [GM "getSwDiagnosticsNotes"])
     [WCall "writeChapter" (Some (TLit "SW-DIAGNOSTICS-NOTES")) [GM "getSwDiagnosticsNotes"]]
     [];
   WIf (CSome [GM "getSwCarbDoc"])
     [WCall "writeChapter" (Some (TLit "SW-CARB-DOC")) [GM "getSwCarbDoc"]]
     [];
   WFor [GM "getChapters"]
     [WCall "writeChapter" (Some (TLit "CHAPTER")) []]].
(** arxml_writer.py:1543-1548 *)
Definition w_writeSwComponentTypeSwComponentDocumentation : list wi :=
  [WIf (CNot (CSome [GM "getSwComponentDocumentation"]))
     []
     [WSub (TLit "SW-COMPONENT-DOCUMENTATION")
        [WCall "writeSwComponentDocumentationElement" None [GM "getSwComponentDocumentation"]]]].
(** arxml_writer.py:1550-1557 *)
Definition w_writeChapter : list wi :=
  [WSub TKey
     [WCall "writeIdentifiable" None [];
      WIf (CSome [GM "getHelpEntry"])
        [WXAttr "HELP-ENTRY" [GM "getHelpEntry"; GM "getValue"]]
        [];
      WIf (CSome [GM "getChapterModel"])
        [WCall "writeChapterModel" None [GM "getChapterModel"]]
        []]].
(** arxml_writer.py:1559-1575 *)
Definition w_writeChapterModel : list wi :=
  [WSub (TLit "CHAPTER-MODEL")
     [WIf (CSome [GM "getChapterContent"])
        [WCall "writeChapterContent" None [GM "getChapterContent"]]
        [];
      WIf (CSome [GM "getTopic1"])
        [WFor [GM "getTopic1"; GM "getTopic1s"]
           [WCall "writeTopic1" None []];
         WIf (CSome [GM "getTopic1"; GM "getMsrQueryTopic1"])
           [WCall "writeMsrQueryTopic1" None [GM "getTopic1"; GM "getMsrQueryTopic1"]]
           []]
        [];
      WIf (CSome [GM "getChapter"])
        [WFor [GM "getChapter"; GM "getChapters"]
           [WCall "writeChapter" (Some (TLit "CHAPTER")) []];
         WIf (CSome [GM "getChapter"; GM "getMsrQueryChapter"])
           [WCall "writeMsrQueryChapter" None [GM "getChapter"; GM "getMsrQueryChapter"]]
           []]
        []]].
(** arxml_writer.py:1577-1582 *)
Definition w_writePredefinedChapter : list wi :=
  [WIf (CSome [])
     [WIf (CSome [GM "getChapterModel"])
        [WCall "writeChapterModel" None [GM "getChapterModel"]]
        []]
     []].
(** arxml_writer.py:1584-1589 *)
Definition w_writeDocumentationContext : list wi :=
  [WCall "writeMultilanguageReferrable" None [];
   WIf (CSome [GM "getFeatureIRef"])
     [WCall "setAnyInstanceRef" (Some (TLit "FEATURE-IREF")) [GM "getFeatureIRef"]]
     [];
   WLeaf WRef (TLit "IDENTIFIABLE-REF") [GM "getIdentifiableRef"]].
(** arxml_writer.py:1591-1604 *)
Definition w_writeDocumentation : list wi :=
  [WSub (TLit "DOCUMENTATION")
     [WCall "writeARElement" None [];
      WIf (CNonEmpty [GM "getContexts"])
        [WSub (TLit "CONTEXTS")
           [WFor [GM "getContexts"]
              [WSub (TLit "DOCUMENTATION-CONTEXT")
                 [WCall "writeDocumentationContext" None []]]]]
        [];
      WIf (CSome [GM "getDocumentationContent"])
        [WSub (TLit "DOCUMENTATION-CONTENT")
           [WCall "writePredefinedChapter" None [GM "getDocumentationContent"]]]
        []]].
(** arxml_writer.py:1606-1608 *)
Definition w_writeChapterContent : list wi :=
  [WSub (TLit "CHAPTER-CONTENT")
     [WCall "writeTopicContentOrMsrQuery" None [GM "getTopicContent"]]].
(** arxml_writer.py:1610-1616 *)
Definition w_writeTopicContentOrMsrQuery : list wi :=
  [WIf (CNot (CSome []))
     []
     [WIf (CSome [GM "getMsrQueryP1"])
        [WCall "writeMsrQueryP1" None [GM "getMsrQueryP1"]]
        [];
      WIf (CSome [GM "getTopicContent"])
        [WCall "writeTopicContent" None [GM "getTopicContent"]]
        []]].
(** arxml_writer.py:1618-1620 *)
Definition w_writeMsrQueryP1 : list wi :=
  [WSub (TLit "MSR-QUERY-P1")
     [WAttrs []]].
(** arxml_writer.py:1622-1625 *)
Definition w_writeTopicContent : list wi :=
  [WSub (TLit "TOPIC-CONTENT")
     [WAttrs [];
      WCall "writeDocumentationBlock" (Some (TLit "DOCUMENTATION-BLOCK")) [GM "getBlockLevelContent"]]].
(** arxml_writer.py:1627-1632 *)
Definition w_writeTopic1 : list wi :=
  [WSub (TLit "TOPIC-1")
     [WCall "writeIdentifiable" None [];
      WIf (CSome [GM "getHelpEntry"])
        [WXAttr "HELP-ENTRY" [GM "getHelpEntry"; GM "getValue"]]
        [];
      WCall "writeTopicContentOrMsrQuery" None [GM "getTopicContent"]]].
(** arxml_writer.py:1634-1638 *)
Definition w_writeMsrQueryTopic1 : list wi :=
  [WSub (TLit "MSR-QUERY-TOPIC-1")
     [WAttrs [];
      WIf (CSome [GM "getMsrQueryProps"])
        [WCall "setMsrQueryProps" None [GM "getMsrQueryProps"]]
        []]].
(** arxml_writer.py:1640-1644 *)
Definition w_writeMsrQueryChapter : list wi :=
  [WSub (TLit "MSR-QUERY-CHAPTER")
     [WAttrs [];
      WIf (CSome [GM "getMsrQueryProps"])
        [WCall "setMsrQueryProps" None [GM "getMsrQueryProps"]]
        []]].
(** arxml_writer.py:1646-1651 *)
Definition w_writeSwComponentTypeUnitGroups : list wi :=
  [WIf (CNonEmpty [GM "getUnitGroupRefs"])
     [WSub (TLit "UNIT-GROUP-REFS")
        [WFor [GM "getUnitGroupRefs"]
           [WLeaf WRef (TLit "UNIT-GROUP-REF") []]]]
     []].
(** arxml_writer.py:1653-1658 *)
Definition w_writeSwComponentTypeConsistencyNeeds : list wi :=
  [WIf (CNonEmpty [GM "getConsistencyNeeds"])
     [WSub (TLit "CONSISTENCY-NEEDSS")
        [WFor [GM "getConsistencyNeeds"]
           [WCall "writeConsistencyNeeds" None []]]]
     []].
(** arxml_writer.py:1660-1667 *)
Definition w_writeSwComponentType : list wi :=
  [WCall "writeIdentifiable" None [];
   WCall "writeSwComponentTypeSwComponentDocumentation" None [];
   WCall "writeSwComponentTypeConsistencyNeeds" None [];
   WCall "writeSwComponentTypePorts" None [];
   WCall "writeSwComponentTypePortGroups" None [];
   WCall "writeSwComponentTypeSwcMappingConstraints" None [];
   WCall "writeSwComponentTypeUnitGroups" None []].
(** arxml_writer.py:1669-1672 *)
Definition w_writeSwComponentPrototype : list wi :=
  [WSub (TLit "SW-COMPONENT-PROTOTYPE")
     [WCall "writeIdentifiable" None [];
      WLeaf WRef (TLit "TYPE-TREF") [GM "getTypeTRef"]]].
(** arxml_writer.py:1674-1682 *)
Definition w_writeCompositionSwComponentTypeComponents : list wi :=
  [WIf (CNonEmpty [GM "getComponents"])
     [WSub (TLit "COMPONENTS")
        [WFor [GM "getComponents"]
           [WIf (CInst [] ["SwComponentPrototype"])
              [WCall "writeSwComponentPrototype" None []]
              [WFail NotImplementedError true]]]]
     []].
(** arxml_writer.py:1684-1700 *)
Definition w_writeAssemblySwConnector : list wi :=
  [WSub (TLit "ASSEMBLY-SW-CONNECTOR")
     [WCall "writeSwConnector" None [];
      WIf (CSome [GM "getProviderIRef"])
        [WSub (TLit "PROVIDER-IREF")
           [WAttrs [GM "getProviderIRef"];
            WLeaf WRef (TLit "CONTEXT-COMPONENT-REF") [GM "getProviderIRef"; GM "getContextComponentRef"];
            WLeaf WRef (TLit "TARGET-P-PORT-REF") [GM "getProviderIRef"; GM "getTargetPPortRef"]]]
        [];
      WIf (CSome [GM "getRequesterIRef"])
        [WSub (TLit "REQUESTER-IREF")
           [WAttrs [GM "getRequesterIRef"];
            WLeaf WRef (TLit "CONTEXT-COMPONENT-REF") [GM "getRequesterIRef"; GM "getContextComponentRef"];
            WLeaf WRef (TLit "TARGET-R-PORT-REF") [GM "getRequesterIRef"; GM "getTargetRPortRef"]]]
        []]].
(** arxml_writer.py:1702-1721 *)
Definition w_writeDelegationSwConnector : list wi :=
  [WSub (TLit "DELEGATION-SW-CONNECTOR")
     [WCall "writeIdentifiable" None [];
      WIf (CSome [GM "getInnerPortIRref"])
        [WSub (TLit "INNER-PORT-IREF")
           [WIf (CInst [GM "getInnerPortIRref"] ["PPortInCompositionInstanceRef"])
              [WSub (TLit "P-PORT-IN-COMPOSITION-INSTANCE-REF")
                 [WLeaf WRef (TLit "CONTEXT-COMPONENT-REF") [GM "getInnerPortIRref"; GM "getContextComponentRef"];
                  WLeaf WRef (TLit "TARGET-P-PORT-REF") [GM "getInnerPortIRref"; GM "getTargetPPortRef"]]]
              [WIf (CInst [GM "getInnerPortIRref"] ["RPortInCompositionInstanceRef"])
                 [WSub (TLit "R-PORT-IN-COMPOSITION-INSTANCE-REF")
                    [WLeaf WRef (TLit "CONTEXT-COMPONENT-REF") [GM "getInnerPortIRref"; GM "getContextComponentRef"];
                     WLeaf WRef (TLit "TARGET-R-PORT-REF") [GM "getInnerPortIRref"; GM "getTargetRPortRef"]]]
                 [WFail ValueError true]]]]
        [];
      WIf (CSome [GM "getOuterPortRef"])
        [WLeaf WRef (TLit "OUTER-PORT-REF") [GM "getOuterPortRef"]]
        []]].
(** arxml_writer.py:1724-1728 *)
Definition w_writePassThroughSwConnector : list wi :=
  [WSub (TLit "PASS-THROUGH-SW-CONNECTOR")
     [WCall "writeSwConnector" None [];
      WLeaf WRef (TLit "PROVIDED-OUTER-PORT-REF") [GM "getProvidedOuterPortRef"];
      WLeaf WRef (TLit "REQUIRED-OUTER-PORT-REF") [GM "getRequiredOuterPortRef"]]].
(** arxml_writer.py:1730-1732 *)
Definition w_writeSwConnector : list wi :=
  [WCall "writeIdentifiable" None [];
   WLeaf WRef (TLit "MAPPING-REF") [GM "getMappingRef"]].
(** arxml_writer.py:1734-1746 *)
Definition w_writeCompositionSwComponentTypeSwConnectors : list wi :=
  [WIf (CNonEmpty [GM "getSwConnectors"])
     [WSub (TLit "CONNECTORS")
        [WFor [GM "getSwConnectors"]
           [WIf (CInst [] ["AssemblySwConnector"])
              [WCall "writeAssemblySwConnector" None []]
              [WIf (CInst [] ["DelegationSwConnector"])
                 [WCall "writeDelegationSwConnector" None []]
                 [WIf (CInst [] ["PassThroughSwConnector"])
                    [WCall "writePassThroughSwConnector" None []]
                    [WFail NotImplementedError true]]]]]]
     []].
(** arxml_writer.py:1748-1754 *)
Definition w_writeCompositionSwComponentTypeDataTypeMappingSet : list wi :=
  [WIf (CNonEmpty [GM "getDataTypeMappingRefs"])
     [WSub (TLit "DATA-TYPE-MAPPING-REFS")
        [WFor [GM "getDataTypeMappingRefs"]
           [WLeaf WRef (TLit "DATA-TYPE-MAPPING-REF") []]]]
     []].
(** arxml_writer.py:1756-1761 *)
Definition w_writeCompositionSwComponentTypeConstantValueMappingSet : list wi :=
  [WIf (CNonEmpty [GM "getConstantValueMappingRefs"])
     [WSub (TLit "CONSTANT-VALUE-MAPPING-REFS")
        [WFor [GM "getConstantValueMappingRefs"]
           [WLeaf WRef (TLit "CONSTANT-VALUE-MAPPING-REF") []]]]
     []].
(** arxml_writer.py:1763-1766 *)
Definition w_writeInstanceEventInCompositionInstanceRef : list wi :=
  [WFor [GM "getContextComponentPrototypeRefs"]
     [WLeaf WRef (TLit "CONTEXT-COMPONENT-PROTOTYPE-REF") []];
   WLeaf WRef (TLit "TARGET-EVENT-REF") [GM "getTargetEventRef"]].
(** arxml_writer.py:1768-1777 *)
Definition w_writeInstantiationRTEEventProps : list wi :=
  [WSub (TLit "INSTANTIATION-TIMING-EVENT-PROPS")
     [WAttrs [];
      WIf (CSome [GM "getRefinedEventIRef"])
        [WSub (TLit "REFINED-EVENT-IREF")
           [WAttrs [GM "getRefinedEventIRef"];
            WCall "writeInstanceEventInCompositionInstanceRef" None [GM "getRefinedEventIRef"]]]
        [];
      WLeaf WText (TLit "SHORT-LABEL") [GM "getShortLabel"];
      WLeaf WText (TLit "PERIOD") [GM "getPeriod"]]].
(** arxml_writer.py:1779-1787 *)
Definition w_writeCompositionSwComponentTypeInstantiationRTEEventProps : list wi :=
  [WIf (CNonEmpty [GM "getInstantiationRTEEventProps"])
     [WSub (TLit "INSTANTIATION-RTE-EVENT-PROPSS")
        [WFor [GM "getInstantiationRTEEventProps"]
           [WIf (CInst [] ["InstantiationTimingEventProps"])
              [WCall "writeInstantiationRTEEventProps" None []]
              [WFail NotImplementedError true]]]]
     []].
(** arxml_writer.py:1789-1797 *)
Definition w_writeCompositionSwComponentType : list wi :=
  [WSub (TLit "COMPOSITION-SW-COMPONENT-TYPE")
     [WCall "writeSwComponentType" None [];
      WCall "writeCompositionSwComponentTypeComponents" None [];
      WCall "writeCompositionSwComponentTypeSwConnectors" None [];
      WCall "writeCompositionSwComponentTypeDataTypeMappingSet" None [];
      WCall "writeCompositionSwComponentTypeConstantValueMappingSet" None [];
      WCall "writeCompositionSwComponentTypeInstantiationRTEEventProps" None []]].
(** arxml_writer.py:1799-1801 *)
Definition w_writeCompositionSwComponentTypes : list wi :=
  [WFor [GM "getCompositionSwComponentTypes"]
     [WCall "writeCompositionSwComponentType" None []]].
(** arxml_writer.py:1803-1809 *)
Definition w_writeLParagraphs : list wi :=
  [WFor [GM "getL1s"]
     [WSub (TLit "L-1")
        [WAttrs [];
         WIf (CSome [GA "l"])
           [WXAttr "L" [GA "l"];
            WSetText [GA "value"]]
           []]]].
(** arxml_writer.py:1811-1816 *)
Definition w_setMultiLanguageParagraphs : list wi :=
  [WFor []
     [WSub TKey
        [WAttrs [];
         WCall "writeLParagraphs" None []]]].
(** arxml_writer.py:1818-1825 *)
Definition w_setListElement : list wi :=
  [WIf (CSome [])
     [WSub TKey
        [WIf (CSome [GM "getType"])
           [WXAttr "TYPE" [GM "getType"]]
           [];
         WFor [GM "getItems"]
           [WCall "writeDocumentationBlock" (Some (TLit "ITEM")) []]]]
     []].
(** arxml_writer.py:1827-1831 *)
Definition w_setGraphic : list wi :=
  [WIf (CSome [])
     [WSub TKey
        [WIf (CSome [GM "getFilename"])
           [WXAttr "FILENAME" [GM "getFilename"]]
           []]]
     []].
(** arxml_writer.py:1833-1839 *)
Definition w_writeMlFigureLGraphics : list wi :=
  [WFor [GM "getLGraphics"]
     [WSub (TLit "L-GRAPHIC")
        [WIf (CSome [GM "getL"])
           [WXAttr "L" [GM "getL"]]
           [];
         WCall "setGraphic" (Some (TLit "GRAPHIC")) [GM "getGraphic"]]]].
(** arxml_writer.py:1841-1842 *)
Definition w_writeDocumentViewSelectable : list wi :=
  [WAttrs []].
(** arxml_writer.py:1844-1845 *)
Definition w_writePaginateable : list wi :=
  [WCall "writeDocumentViewSelectable" None []].
(** arxml_writer.py:1847-1849 *)
Definition w_writeMlFigure : list wi :=
  [WCall "writePaginateable" None [];
   WCall "writeMlFigureLGraphics" None []].
(** arxml_writer.py:1851-1854 *)
Definition w_setMlFigures : list wi :=
  [WFor []
     [WSub TKey
        [WCall "writeMlFigure" None []]]].
(** arxml_writer.py:1856-1871 *)
Definition w_writeDocumentationBlock : list wi :=
  [WIf (CSome [])
     [WSub TKey
        [WAttrs [];
         WCall "setMsrQueryP2" None [GM "getMsrQueryP2"];
         WCall "setMultiLanguageParagraphs" (Some (TLit "P")) [GM "getPs"];
         WCall "setMultiLanguageVerbatim" (Some (TLit "VERBATIM")) [GM "getVerbatim"];
         WFor [GM "getLists"]
           [WCall "setListElement" (Some (TLit "LIST")) []];
         WCall "setDefList" None [GM "getDefList"];
         WCall "setLabeledList" None [GM "getLabeledList"];
         WCall "setMlFormula" (Some (TLit "FORMULA")) [GM "getFormula"];
         WCall "setMlFigures" (Some (TLit "FIGURE")) [GM "getFigures"];
         WCall "setNote" None [GM "getNote"];
         WCall "setTraceableText" (Some (TLit "TRACE")) [GM "getTrace"];
         WCall "setStructuredReq" None [GM "getStructuredReq"]]]
     []].
(** arxml_writer.py:1873-1878 *)
Definition w_setDefList : list wi :=
  [WIf (CSome [])
     [WSub (TLit "DEF-LIST")
        [WAttrs [];
         WFor [GM "getDefItems"]
           [WCall "setDefItem" None []]]]
     []].
(** arxml_writer.py:1880-1885 *)
Definition w_setDefItem : list wi :=
  [WSub (TLit "DEF-ITEM")
     [WAttrs [];
      WIf (CSome [GM "getHelpEntry"])
        [WXAttr "HELPENTRY" [GM "getHelpEntry"; GM "getValue"]]
        [];
      WCall "writeDocumentationBlock" (Some (TLit "DEF")) [GM "getDef"]]].
(** arxml_writer.py:1887-1899 *)
Definition w_setMlFormula : list wi :=
  [WIf (CSome [])
     [WSub TKey
        [WCall "writePaginateable" None [];
         WCall "setCaption" (Some (TLit "FORMULA-CAPTION")) [GM "getFormulaCaption"];
         WFor [GM "getLGraphics"]
           [WSub (TLit "L-GRAPHIC")
              [WIf (CSome [GM "getL"])
                 [WXAttr "L" [GM "getL"]]
                 [];
               WCall "setGraphic" (Some (TLit "GRAPHIC")) [GM "getGraphic"]]];
         WCall "setMultiLanguageVerbatim" (Some (TLit "VERBATIM")) [GM "getVerbatim"];
         WCall "setMultiLanguagePlainText" (Some (TLit "TEX-MATH")) [GM "getTexMath"];
         WCall "setMultiLanguagePlainText" (Some (TLit "GENERIC-MATH")) [GM "getGenericMath"]]]
     []].
(** arxml_writer.py:1901-1908 *)
Definition w_setLabeledList : list wi :=
  [WIf (CSome [])
     [WSub (TLit "LABELED-LIST")
        [WAttrs [];
         WIf (CSome [GM "getIndentSample"])
           [WCall "setIndentSample" None [GM "getIndentSample"]]
           [];
         WFor [GM "getLabeledItems"]
           [WCall "setLabeledItem" None []]]]
     []].
(** arxml_writer.py:1910-1916 *)
Definition w_setIndentSample : list wi :=
  [WSub (TLit "INDENT-SAMPLE")
     [WAttrs [];
      WIf (CSome [GM "getItemLabelPos"])
        [WXAttr "ITEMLABELPOS" [GM "getItemLabelPos"; GM "getValue"]]
        [];
      WFor [GM "getL2s"]
        [WCall "setLOverviewParagraph" None []]]].
(** arxml_writer.py:1918-1924 *)
Definition w_setLabeledItem : list wi :=
  [WSub (TLit "LABELED-ITEM")
     [WAttrs [];
      WIf (CSome [GM "getHelpEntry"])
        [WXAttr "HELPENTRY" [GM "getHelpEntry"; GM "getValue"]]
        [];
      WCall "setMultiLanguageOverviewParagraph" (Some (TLit "ITEM-LABEL")) [GM "getItemLabel"];
      WCall "writeDocumentationBlock" (Some (TLit "ITEM-CONTENTS")) [GM "getItemContents"]]].
(** arxml_writer.py:1926-1933 *)
Definition w_setNote : list wi :=
  [WIf (CSome [])
     [WSub (TLit "NOTE")
        [WAttrs [];
         WCall "setMultiLongName" (Some (TLit "LABEL")) [GM "getLabel"];
         WIf (CSome [GM "getNoteType"])
           [WXAttr "NOTETYPE" [GM "getNoteType"; GM "getValue"]]
           [];
         WCall "writeDocumentationBlock" (Some (TLit "NOTE-TEXT")) [GM "getNoteText"]]]
     []].
(** arxml_writer.py:1935-1945 *)
Definition w_setTraceableText : list wi :=
  [WIf (CSome [])
     [WSub TKey
        [WAttrs [];
         WCall "writeDocumentationBlock" (Some (TLit "TEXT")) [GM "getText"];
         WIf (CNonEmpty [GM "getTraceRefs"])
           [WSub (TLit "TRACE-REFS")
              [WFor [GM "getTraceRefs"]
                 [WSub (TLit "TRACE-REF")
                    [WSetText [GM "getValue"]]]]]
           []]]
     []].
(** arxml_writer.py:1947-1967 *)
Definition w_setStructuredReq : list wi :=
  [WIf (CSome [])
     [WSub (TLit "STRUCTURED-REQ")
        [WAttrs [];
         WLeaf WText (TLit "DATE") [GM "getDate"];
         WLeaf WText (TLit "IMPORTANCE") [GM "getImportance"];
         WLeaf WText (TLit "ISSUED-BY") [GM "getIssuedBy"];
         WLeaf WText (TLit "TYPE") [GM "getType"];
         WCall "writeDocumentationBlock" (Some (TLit "DESCRIPTION")) [GM "getDescription"];
         WCall "writeDocumentationBlock" (Some (TLit "RATIONALE")) [GM "getRationale"];
         WCall "writeDocumentationBlock" (Some (TLit "DEPENDENCIES")) [GM "getDependencies"];
         WCall "writeDocumentationBlock" (Some (TLit "USE-CASE")) [GM "getUseCase"];
         WCall "writeDocumentationBlock" (Some (TLit "CONFLICTS")) [GM "getConflicts"];
         WCall "writeDocumentationBlock" (Some (TLit "SUPPORTING-MATERIAL")) [GM "getSupportingMaterial"];
         WCall "writeDocumentationBlock" (Some (TLit "REMARK")) [GM "getRemark"];
         WIf (CNonEmpty [GM "getTestedItemRefs"])
           [WSub (TLit "TESTED-ITEM-REFS")
              [WFor [GM "getTestedItemRefs"]
                 [WSub (TLit "TESTED-ITEM-REF")
                    [WSetText [GM "getValue"]]]]]
           []]]
     []].
(** arxml_writer.py:1969-1982 *)
Definition w_setMultiLanguageVerbatim : list wi :=
  [WIf (CSome [])
     [WSub TKey
        [WAttrs [];
         WIf (CSome [GM "getAllowBreak"])
           [WXAttr "ALLOWBREAK" [GM "getAllowBreak"; GM "getValue"]]
           [];
         WIf (CSome [GM "getFloat"])
           [WXAttr "FLOAT" [GM "getFloat"; GM "getValue"]]
           [];
         WIf (CSome [GM "getHelpEntry"])
           [WXAttr "HELPENTRY" [GM "getHelpEntry"; GM "getValue"]]
           [];
         WIf (CSome [GM "getPgwide"])
           [WXAttr "PGWIDE" [GM "getPgwide"; GM "getValue"]]
           [];
         WFor [GM "getL5s"]
           [WCall "setLVerbatim" None []]]]
     []].
(** arxml_writer.py:1984-1985 *)
Definition w_setLVerbatim : list wi :=
  [WCall "setLanguageSpecific" (Some (TLit "L-5")) []].
(** arxml_writer.py:1987-1993 *)
Definition w_setMsrQueryP2 : list wi :=
  [WIf (CSome [])
     [WSub (TLit "MSR-QUERY-P2")
        [WAttrs [];
         WIf (CSome [GM "getMsrQueryProps"])
           [WCall "setMsrQueryProps" None [GM "getMsrQueryProps"]]
           [];
         WCall "writeDocumentationBlock" (Some (TLit "MSR-QUERY-RESULT-P2")) [GM "getMsrQueryResultP2"]]]
     []].
(** arxml_writer.py:1995-2001 *)
Definition w_setMsrQueryProps : list wi :=
  [WSub (TLit "MSR-QUERY-PROPS")
     [WAttrs [];
      WLeaf WText (TLit "COMMENT") [GM "getComment"];
      WLeaf WText (TLit "MSR-QUERY-NAME") [GM "getMsrQueryName"];
      WFor [GM "getMsrQueryArgs"]
        [WCall "setMsrQueryArg" None []]]].
(** arxml_writer.py:2003-2008 *)
Definition w_setMsrQueryArg : list wi :=
  [WSub (TLit "MSR-QUERY-ARG")
     [WAttrs [];
      WLeaf WText (TLit "ARG") [GM "getArg"];
      WIf (CSome [GM "getSi"])
        [WXAttr "SI" [GM "getSi"; GM "getValue"]]
        []]].
(** arxml_writer.py:2010-2013 *)
Definition w_writeGeneralAnnotation : list wi :=
  [WCall "setMultiLongName" (Some (TLit "LABEL")) [GM "getLabel"];
   WLeaf WText (TLit "ANNOTATION-ORIGIN") [GM "getAnnotationOrigin"];
   WCall "writeDocumentationBlock" (Some (TLit "ANNOTATION-TEXT")) [GM "getAnnotationText"]].
(** arxml_writer.py:2015-2020 *)
Definition w_setAnnotations : list wi :=
  [WIf (CNonEmpty [])
     [WSub (TLit "ANNOTATIONS")
        [WFor []
           [WSub (TLit "ANNOTATION")
              [WCall "writeGeneralAnnotation" None []]]]]
     []].
(** arxml_writer.py:2022-2033 *)
Definition w_setSwAxisIndividual : list wi :=
  [WSub (TLit "SW-AXIS-INDIVIDUAL")
     [WAttrs [];
      WLeaf WText (TLit "MAX-GRADIENT") [GM "getMaxGradient"];
      WLeaf WText (TLit "MONOTONY") [GM "getMonotony"];
      WLeaf WRef (TLit "INPUT-VARIABLE-TYPE-REF") [GM "getInputVariableTypeRef"];
      WLeaf WRef (TLit "COMPU-METHOD-REF") [GM "getCompuMethodRef"];
      WLeaf WNum (TLit "SW-MAX-AXIS-POINTS") [GM "getSwMaxAxisPoints"];
      WLeaf WNum (TLit "SW-MIN-AXIS-POINTS") [GM "getSwMinAxisPoints"];
      WLeaf WRef (TLit "DATA-CONSTR-REF") [GM "getDataConstrRef"];
      WIf (CSome [GM "getSwAxisGeneric"])
        [WCall "setSwAxisGeneric" None [GM "getSwAxisGeneric"]]
        []]].
(** arxml_writer.py:2035-2042 *)
Definition w_setSwAxisGeneric : list wi :=
  [WSub (TLit "SW-AXIS-GENERIC")
     [WAttrs [];
      WLeaf WRef (TLit "SW-AXIS-TYPE-REF") [GM "getSwAxisTypeRef"];
      WIf (CTruthy [GM "getSwGenericAxisParams"])
        [WSub (TLit "SW-GENERIC-AXIS-PARAMS")
           [WFor [GM "getSwGenericAxisParams"]
              [WCall "setSwGenericAxisParam" None []]]]
        []]].
(** arxml_writer.py:2044-2049 *)
Definition w_setSwGenericAxisParam : list wi :=
  [WSub (TLit "SW-GENERIC-AXIS-PARAM")
     [WAttrs [];
      WLeaf WRef (TLit "SW-GENERIC-AXIS-PARAM-TYPE-REF") [GM "getSwGenericAxisParamTypeRef"];
      WFor [GM "getVfs"]
        [WLeaf WNum (TLit "VF") []]]].
(** arxml_writer.py:2051-2056 *)
Definition w_setSwAxisGrouped : list wi :=
  [WSub (TLit "SW-AXIS-GROUPED")
     [WAttrs [];
      WLeaf WText (TLit "MAX-GRADIENT") [GM "getMaxGradient"];
      WLeaf WText (TLit "MONOTONY") [GM "getMonotony"];
      WLeaf WRef (TLit "SHARED-AXIS-TYPE-REF") [GA "sharedAxisTypeRef"]]].
(** arxml_writer.py:2058-2071 *)
Definition w_setSwCalprmAxis : list wi :=
  [WIf (CSome [])
     [WSub (TLit "SW-CALPRM-AXIS")
        [WLeaf WText (TLit "SW-AXIS-INDEX") [GM "getSwAxisIndex"];
         WLeaf WText (TLit "CATEGORY") [GM "getCategory"];
         WIf (CSome [GM "getSwCalprmAxisTypeProps"])
           [WIf (CInst [GM "getSwCalprmAxisTypeProps"] ["SwAxisIndividual"])
              [WCall "setSwAxisIndividual" None [GM "getSwCalprmAxisTypeProps"]]
              [WIf (CInst [GM "getSwCalprmAxisTypeProps"] ["SwAxisGrouped"])
                 [WCall "setSwAxisGrouped" None [GM "getSwCalprmAxisTypeProps"]]
                 [WFail NotImplementedError true]]]
           [];
         WLeaf WText (TLit "SW-CALIBRATION-ACCESS") [GM "getSwCalibrationAccess"];
         WLeaf WText (TLit "DISPLAY-FORMAT") [GM "getDisplayFormat"]]]
     []].
(** arxml_writer.py:2073-2079 *)
Definition w_setSwCalprmAxisSet : list wi :=
  [WIf (CSome [])
     [WIf (CNonEmpty [GM "getSwCalprmAxises"])
        [WSub TKey
           [WFor [GM "getSwCalprmAxises"]
              [WCall "setSwCalprmAxis" None []]]]
        []]
     []].
(** arxml_writer.py:2081-2086 *)
Definition w_setSwPointerTargetProps : list wi :=
  [WIf (CSome [])
     [WSub TKey
        [WLeaf WText (TLit "TARGET-CATEGORY") [GM "getTargetCategory"];
         WCall "setSwDataDefProps" (Some (TLit "SW-DATA-DEF-PROPS")) [GM "getSwDataDefProps"];
         WLeaf WRef (TLit "FUNCTION-POINTER-SIGNATURE-REF") [GM "getFunctionPointerSignatureRef"]]]
     []].
(** arxml_writer.py:2088-2123 *)
Definition w_setSwDataDefProps : list wi :=
  [WIf (CSome [])
     [WSub TKey
        [WAttrs [];
         WSub (TLit "SW-DATA-DEF-PROPS-VARIANTS")
           [WSub (TLit "SW-DATA-DEF-PROPS-CONDITIONAL")
              [WCall "setAnnotations" None [GM "getAnnotations"];
               WLeaf WText (TLit "DISPLAY-PRESENTATION") [GM "getDisplayPresentation"];
               WLeaf WRef (TLit "BASE-TYPE-REF") [GM "getBaseTypeRef"];
               WLeaf WRef (TLit "SW-ADDR-METHOD-REF") [GM "getSwAddrMethodRef"];
               WLeaf WText (TLit "SW-ALIGNMENT") [GM "getSwAlignment"];
               WLeaf WText (TLit "SW-CALIBRATION-ACCESS") [GM "getSwCalibrationAccess"];
               WLeaf WRef (TLit "COMPU-METHOD-REF") [GM "getCompuMethodRef"];
               WCall "setChildValueSpecification" (Some (TLit "INVALID-VALUE")) [GM "getInvalidValue"];
               WLeaf WText (TLit "STEP-SIZE") [GM "getStepSize"];
               WLeaf WRef (TLit "DATA-CONSTR-REF") [GM "getDataConstrRef"];
               WLeaf WRef (TLit "IMPLEMENTATION-DATA-TYPE-REF") [GM "getImplementationDataTypeRef"];
               WCall "setSwCalprmAxisSet" (Some (TLit "SW-CALPRM-AXIS-SET")) [GM "getSwCalprmAxisSet"];
               WCall "setSwBitRepresentation" None [GM "getSwBitRepresentation"];
               WLeaf WNum (TLit "SW-VALUE-BLOCK-SIZE") [GM "getSwValueBlockSize"];
               WCall "setSwValueBlockSizeMults" None [GM "getSwValueBlockSizeMults"];
               WLeaf WText (TLit "SW-IMPL-POLICY") [GM "getSwImplPolicy"];
               WLeaf WNum (TLit "SW-INTENDED-RESOLUTION") [GM "getSwIntendedResolution"];
               WCall "setSwPointerTargetProps" (Some (TLit "SW-POINTER-TARGET-PROPS")) [GM "getSwPointerTargetProps"];
               WCall "setSwTextProps" None [GM "getSwTextProps"];
               WCall "setSwComparisonVariables" None [GM "getSwComparisonVariables"];
               WLeaf WRef (TLit "SW-RECORD-LAYOUT-REF") [GM "getSwRecordLayoutRef"];
               WLeaf WRef (TLit "VALUE-AXIS-DATA-TYPE-REF") [GM "getValueAxisDataTypeRef"];
               WLeaf WRef (TLit "UNIT-REF") [GM "getUnitRef"];
               WCall "setSwDataDependency" None [GM "getSwDataDependency"];
               WLeaf WText (TLit "DISPLAY-FORMAT") [GM "getDisplayFormat"];
               WLeaf WText (TLit "ADDITIONAL-NATIVE-TYPE-QUALIFIER") [GM "getAdditionalNativeTypeQualifier"];
               WLeaf WText (TLit "SW-INTERPOLATION-METHOD") [GM "getSwInterpolationMethod"];
               WLeaf WText (TLit "SW-IS-VIRTUAL") [GM "getSwIsVirtual"];
               WCall "setSwHostVariable" None [GM "getSwHostVariable"];
               WCall "setMultidimensionalTime" (Some (TLit "SW-REFRESH-TIMING")) [GM "getSwRefreshTiming"]]]]]
     []].
(** arxml_writer.py:2125-2130 *)
Definition w_setSwBitRepresentation : list wi :=
  [WIf (CSome [])
     [WSub (TLit "SW-BIT-REPRESENTATION")
        [WAttrs [];
         WLeaf WNum (TLit "BIT-POSITION") [GM "getBitPosition"];
         WLeaf WNum (TLit "NUMBER-OF-BITS") [GM "getNumberOfBits"]]]
     []].
(** arxml_writer.py:2132-2137 *)
Definition w_setSwValueBlockSizeMults : list wi :=
  [WIf (CNonEmpty [])
     [WSub (TLit "SW-VALUE-BLOCK-SIZE-MULTS")
        [WFor []
           [WSub (TLit "NUMERICAL-VALUE-VARIATION-POINT")
              [WLeaf WNum (TLit "V") []]]]]
     []].
(** arxml_writer.py:2139-2143 *)
Definition w_setSwComparisonVariables : list wi :=
  [WIf (CNonEmpty [])
     [WSub (TLit "SW-COMPARISON-VARIABLES")
        [WFor []
           [WCall "setSwVariableRefProxy" (Some (TLit "SW-VARIABLE-REF-PROXY")) []]]]
     []].
(** arxml_writer.py:2145-2147 *)
Definition w_setSwHostVariable : list wi :=
  [WIf (CSome [])
     [WCall "setSwVariableRefProxy" (Some (TLit "SW-HOST-VARIABLE")) []]
     []].
(** arxml_writer.py:2149-2154 *)
Definition w_setSwVariableRefProxy : list wi :=
  [WIf (CSome [])
     [WSub TKey
        [WAttrs [];
         WCall "setAutosarVariableRef" (Some (TLit "AUTOSAR-VARIABLE")) [GM "getAutosarVariable"];
         WLeaf WRef (TLit "MC-DATA-INSTANCE-VAR-REF") [GM "getMcDataInstanceVarRef"]]]
     []].
(** arxml_writer.py:2156-2161 *)
Definition w_setSwCalprmRefProxy : list wi :=
  [WIf (CSome [])
     [WSub TKey
        [WAttrs [];
         WCall "setAutosarParameterRef" (Some (TLit "AR-PARAMETER")) [GM "getArParameter"];
         WLeaf WRef (TLit "MC-DATA-INSTANCE-REF") [GM "getMcDataInstanceRef"]]]
     []].
(** arxml_writer.py:2163-2178 *)
Definition w_setSwDataDependency : list wi :=
  [WIf (CSome [])
     [WSub (TLit "SW-DATA-DEPENDENCY")
        [WAttrs [];
         WIf (CSome [GM "getSwDataDependencyFormula"])
           [WSub (TLit "SW-DATA-DEPENDENCY-FORMULA")
              [WAttrs [GM "getSwDataDependencyFormula"];
               WIf (CSome [GM "getSwDataDependencyFormula"; GM "getLevel"])
                 [WXAttr "LEVEL" [GM "getSwDataDependencyFormula"; GM "getLevel"; GA "value"]]
                 []]]
           [];
         WIf (CSome [GM "getSwDataDependencyArgs"])
           [WSub (TLit "SW-DATA-DEPENDENCY-ARGS")
              [WAttrs [GM "getSwDataDependencyArgs"];
               WCall "setSwCalprmRefProxy" (Some (TLit "SW-CALPRM-REF-PROXY")) [GM "getSwDataDependencyArgs"; GM "getSwCalprmRef"];
               WCall "setSwVariableRefProxy" (Some (TLit "SW-VARIABLE-REF-PROXY")) [GM "getSwDataDependencyArgs"; GM "getSwVariable"]]]
           []]]
     []].
(** arxml_writer.py:2180-2187 *)
Definition w_setSwTextProps : list wi :=
  [WIf (CSome [])
     [WSub (TLit "SW-TEXT-PROPS")
        [WAttrs [];
         WLeaf WText (TLit "ARRAY-SIZE-SEMANTICS") [GM "getArraySizeSemantics"];
         WLeaf WRef (TLit "BASE-TYPE-REF") [GM "getBaseTypeRef"];
         WLeaf WNum (TLit "SW-FILL-CHARACTER") [GM "getSwFillCharacter"];
         WLeaf WNum (TLit "SW-MAX-TEXT-SIZE") [GM "getSwMaxTextSize"]]]
     []].
(** arxml_writer.py:2189-2190 *)
Definition w_setApplicationDataType : list wi :=
  [WCall "writeAutosarDataType" None []].
(** arxml_writer.py:2192-2193 *)
Definition w_setApplicationCompositeDataType : list wi :=
  [WCall "setApplicationDataType" None []].
(** arxml_writer.py:2195-2197 *)
Definition w_writeAutosarDataType : list wi :=
  [WCall "writeARElement" None [];
   WCall "setSwDataDefProps" (Some (TLit "SW-DATA-DEF-PROPS")) [GM "getSwDataDefProps"]].
(** arxml_writer.py:2199-2202 *)
Definition w_writeApplicationPrimitiveDataType : list wi :=
  [WSub (TLit "APPLICATION-PRIMITIVE-DATA-TYPE")
     [WCall "setApplicationDataType" None []]].
(** arxml_writer.py:2204-2206 *)
Definition w_writeDataPrototype : list wi :=
  [WCall "writeIdentifiable" None [];
   WCall "setSwDataDefProps" (Some (TLit "SW-DATA-DEF-PROPS")) [GM "getSwDataDefProps"]].
(** arxml_writer.py:2208-2210 *)
Definition w_writeApplicationCompositeElementDataPrototype : list wi :=
  [WCall "writeDataPrototype" None [];
   WLeaf WRef (TLit "TYPE-TREF") [GA "typeTRef"]].
(** arxml_writer.py:2212-2214 *)
Definition w_writeApplicationRecordElement : list wi :=
  [WSub (TLit "APPLICATION-RECORD-ELEMENT")
     [WCall "writeApplicationCompositeElementDataPrototype" None []]].
(** arxml_writer.py:2216-2224 *)
Definition w_writeApplicationRecordDataTypeElements : list wi :=
  [WIf (CNonEmpty [GM "getApplicationRecordElements"])
     [WSub (TLit "ELEMENTS")
        [WFor [GM "getApplicationRecordElements"]
           [WIf (CInst [] ["ApplicationRecordElement"])
              [WCall "writeApplicationRecordElement" None []]
              [WFail NotImplementedError true]]]]
     []].
(** arxml_writer.py:2226-2229 *)
Definition w_writeApplicationRecordDataType : list wi :=
  [WSub (TLit "APPLICATION-RECORD-DATA-TYPE")
     [WCall "setApplicationDataType" None [];
      WCall "writeApplicationRecordDataTypeElements" None []]].
(** arxml_writer.py:2231-2238 *)
Definition w_writeApplicationDataTypes : list wi :=
  [WFor [GM "getApplicationDataType"]
     [WIf (CInst [] ["ApplicationPrimitiveDataType"])
        [WCall "writeApplicationPrimitiveDataType" None []]
        [WIf (CInst [] ["ApplicationRecordDataType"])
           [WCall "writeApplicationRecordDataType" None []]
           [WFail NotImplementedError true]]]].
(** arxml_writer.py:2240-2245 *)
Definition w_setBaseTypeDirectDefinition : list wi :=
  [WLeaf WNum (TLit "BASE-TYPE-SIZE") [GM "getBaseTypeSize"];
   WLeaf WText (TLit "BASE-TYPE-ENCODING") [GM "getBaseTypeEncoding"];
   WLeaf WNum (TLit "MEM-ALIGNMENT") [GM "getMemAlignment"];
   WLeaf WText (TLit "BYTE-ORDER") [GM "getByteOrder"];
   WLeaf WText (TLit "NATIVE-DECLARATION") [GM "getNativeDeclaration"]].
(** arxml_writer.py:2247-2250 *)
Definition w_writeSwBaseType : list wi :=
  [WSub (TLit "SW-BASE-TYPE")
     [WCall "writeIdentifiable" None [];
      WCall "setBaseTypeDirectDefinition" None [GM "getBaseTypeDefinition"]]].
(** arxml_writer.py:2252-2255 *)
Definition w_writeCompuScaleConstantContents : list wi :=
  [WSub (TLit "COMPU-CONST")
     [WIf (CInst [GA "compuConst"; GA "compuConstContentType"] ["CompuConstTextContent"])
        [WLeaf WText (TLit "VT") [GA "compuConst"; GA "compuConstContentType"; GA "vt"]]
        []]].
(** arxml_writer.py:2257-2261 *)
Definition w_writeCompuNominatorDenominator : list wi :=
  [WSub TKey
     [WFor [GM "get_vs"]
        [WSub (TLit "V")
           [WSetText []]]]].
(** arxml_writer.py:2263-2269 *)
Definition w_writeCompuScaleRationalFormula : list wi :=
  [WIf (CSome [GA "compuRationalCoeffs"])
     [WSub (TLit "COMPU-RATIONAL-COEFFS")
        [WIf (CTruthy [GA "compuRationalCoeffs"; GA "compuNumerator"])
           [WCall "writeCompuNominatorDenominator" (Some (TLit "COMPU-NUMERATOR")) [GA "compuRationalCoeffs"; GA "compuNumerator"]]
           [];
         WIf (CTruthy [GA "compuRationalCoeffs"; GA "compuDenominator"])
           [WCall "writeCompuNominatorDenominator" (Some (TLit "COMPU-DENOMINATOR")) [GA "compuRationalCoeffs"; GA "compuDenominator"]]
           []]]
     []].
(** arxml_writer.py:2271-2277 *)
Definition w_writeCompuScaleContents : list wi :=
  [WIf (CInst [GA "compuScaleContents"] ["CompuScaleConstantContents"])
     [WCall "writeCompuScaleConstantContents" None [GA "compuScaleContents"]]
     [WIf (CInst [GA "compuScaleContents"] ["CompuScaleRationalFormula"])
        [WCall "writeCompuScaleRationalFormula" None [GA "compuScaleContents"]]
        [WFail NotImplementedError true]]].
(** arxml_writer.py:2279-2288 *)
Definition w_setCompuConstContent : list wi :=
  [WIf (CSome [])
     [WIf (CInst [] ["CompuConstFormulaContent"])
        [WLeaf WText (TLit "VF") [GM "getVf"]]
        [WIf (CInst [] ["CompuConstNumericContent"])
           [WLeaf WNum (TLit "V") [GM "getV"]]
           [WIf (CInst [] ["CompuConstTextContent"])
              [WLeaf WText (TLit "VT") [GM "getVt"]]
              [WFail NotImplementedError true]]]]
     []].
(** arxml_writer.py:2290-2300 *)
Definition w_writeCompuScale : list wi :=
  [WIf (CSome [])
     [WSub TKey
        [WAttrs [];
         WLeaf WText (TLit "SHORT-LABEL") [GM "getShortLabel"];
         WLeaf WText (TLit "SYMBOL") [GM "getSymbol"];
         WCall "setMultiLanguageOverviewParagraph" (Some (TLit "DESC")) [GM "getDesc"];
         WLeaf WNum (TLit "MASK") [GM "getMask"];
         WLeaf WLimit (TLit "LOWER-LIMIT") [GM "getLowerLimit"];
         WLeaf WLimit (TLit "UPPER-LIMIT") [GM "getUpperLimit"];
         WCall "writeCompuScaleContents" None []]]
     []].
(** arxml_writer.py:2302-2306 *)
Definition w_setCompuScales : list wi :=
  [WIf (CSome [])
     [WSub (TLit "COMPU-SCALES")
        [WFor [GM "getCompuScales"]
           [WCall "writeCompuScale" (Some (TLit "COMPU-SCALE")) []]]]
     []].
(** arxml_writer.py:2308-2312 *)
Definition w_setCompuConst : list wi :=
  [WIf (CSome [])
     [WSub TKey
        [WAttrs [];
         WCall "setCompuConstContent" None [GM "getCompuConstContentType"]]]
     []].
(** arxml_writer.py:2314-2319 *)
Definition w_setCompu : list wi :=
  [WIf (CSome [])
     [WSub TKey
        [WAttrs [];
         WCall "setCompuScales" None [GM "getCompuContent"];
         WCall "setCompuConst" (Some (TLit "COMPU-DEFAULT-VALUE")) [GM "getCompuDefaultValue"]]]
     []].
(** arxml_writer.py:2321-2327 *)
Definition w_writeCompuMethod : list wi :=
  [WSub (TLit "COMPU-METHOD")
     [WCall "writeIdentifiable" None [];
      WLeaf WRef (TLit "UNIT-REF") [GM "getUnitRef"];
      WCall "setCompu" (Some (TLit "COMPU-INTERNAL-TO-PHYS")) [GM "getCompuInternalToPhys"];
      WCall "setCompu" (Some (TLit "COMPU-PHYS-TO-INTERNAL")) [GM "getCompuPhysToInternal"]]].
(** arxml_writer.py:2329-2334 *)
Definition w_writeApplicationValueSpecification : list wi :=
  [WIf (CSome [])
     [WSub (TLit "APPLICATION-VALUE-SPECIFICATION")
        [WCall "writeValueSpecification" None [];
         WLeaf WText (TLit "CATEGORY") [GM "getCategory"];
         WCall "writeSwValueCont" None [GM "getSwValueCont"]]]
     []].
(** arxml_writer.py:2336-2341 *)
Definition w_writeNumericalOrText : list wi :=
  [WIf (CSome [])
     [WSub TKey
        [WAttrs [];
         WLeaf WNum (TLit "VF") [GM "getVf"];
         WLeaf WText (TLit "VT") [GM "getVt"]]]
     []].
(** arxml_writer.py:2343-2350 *)
Definition w_writeRuleArguments : list wi :=
  [WIf (CSome [])
     [WSub (TLit "RULE-ARGUMENTS")
        [WAttrs [];
         WLeaf WNum (TLit "V") [GM "getV"];
         WLeaf WNum (TLit "VF") [GM "getVf"];
         WLeaf WText (TLit "VT") [GM "getVt"];
         WCall "writeNumericalOrText" (Some (TLit "VTF")) [GM "getVtf"]]]
     []].
(** arxml_writer.py:2352-2362 *)
Definition w_writeRuleBasedValueSpecification : list wi :=
  [WIf (CSome [])
     [WSub TKey
        [WAttrs [];
         WLeaf WText (TLit "RULE") [GM "getRule"];
         WIf (CNonEmpty [GM "getArguments"])
           [WSub (TLit "ARGUMENTSS")
              [WFor [GM "getArguments"]
                 [WCall "writeRuleArguments" None []]]]
           [];
         WLeaf WNum (TLit "MAX-SIZE-TO-FILL") [GM "getMaxSizeToFill"]]]
     []].
(** arxml_writer.py:2364-2372 *)
Definition w_writeRuleBasedAxisCont : list wi :=
  [WIf (CSome [])
     [WSub (TLit "RULE-BASED-AXIS-CONT")
        [WAttrs [];
         WLeaf WText (TLit "CATEGORY") [GM "getCategory"];
         WLeaf WRef (TLit "UNIT-REF") [GM "getUnitRef"];
         WCall "setValueList" (Some (TLit "SW-ARRAYSIZE")) [GM "getSwArraysize"];
         WLeaf WText (TLit "SW-AXIS-INDEX") [GM "getSwAxisIndex"];
         WCall "writeRuleBasedValueSpecification" (Some (TLit "RULE-BASED-VALUES")) [GM "getRuleBasedValues"]]]
     []].
(** arxml_writer.py:2374-2380 *)
Definition w_writeRuleBasedValueCont : list wi :=
  [WIf (CSome [])
     [WSub (TLit "SW-VALUE-CONT")
        [WAttrs [];
         WLeaf WRef (TLit "UNIT-REF") [GM "getUnitRef"];
         WCall "setValueList" (Some (TLit "SW-ARRAYSIZE")) [GM "getSwArraysize"];
         WCall "writeRuleBasedValueSpecification" (Some (TLit "RULE-BASED-VALUES")) [GM "getRuleBasedValues"]]]
     []].
(** arxml_writer.py:2382-2392 *)
Definition w_writeApplicationRuleBasedValueSpecification : list wi :=
  [WIf (CSome [])
     [WSub (TLit "APPLICATION-RULE-BASED-VALUE-SPECIFICATION")
        [WCall "writeValueSpecification" None [];
         WLeaf WText (TLit "CATEGORY") [GM "getCategory"];
         WIf (CNonEmpty [GM "getSwAxisConts"])
           [WSub (TLit "SW-AXIS-CONTS")
              [WFor [GM "getSwAxisConts"]
                 [WCall "writeRuleBasedAxisCont" None []]]]
           [];
         WCall "writeRuleBasedValueCont" None [GM "getSwValueCont"]]]
     []].
(** arxml_writer.py:2394-2429 *)
Definition w_writeCompositeRuleBasedValueSpecification : list wi :=
  [WIf (CSome [])
     [WSub (TLit "COMPOSITE-RULE-BASED-VALUE-SPECIFICATION")
        [WCall "writeValueSpecification" None [];
         WLeaf WText (TLit "RULE") [GM "getRule"];
         WIf (CNonEmpty [GM "getArguments"])
           [WSub (TLit "ARGUMENTS")
              [WFor [GM "getArguments"]
                 [WIf (CInst [] ["CompositeRuleBasedValueSpecification"])
                    [WCall "writeCompositeRuleBasedValueSpecification" None []]
                    [WIf (CInst [] ["ArrayValueSpecification"])
                       [WCall "writeArrayValueSpecification" None []]
                       [WIf (CInst [] ["RecordValueSpecification"])
                          [WCall "writeRecordValueSpecification" None []]
                          [WIf (CInst [] ["ConstantReference"])
                             [WCall "setConstantReference" None []]
                             [WFail NotImplementedError true]]]]]]]
           [];
         WIf (CNonEmpty [GM "getCompoundPrimitiveArguments"])
           [WSub (TLit "COMPOUND-PRIMITIVE-ARGUMENTS")
              [WFor [GM "getCompoundPrimitiveArguments"]
                 [WIf (CInst [] ["ApplicationRuleBasedValueSpecification"])
                    [WCall "writeApplicationRuleBasedValueSpecification" None []]
                    [WIf (CInst [] ["CompositeRuleBasedValueSpecification"])
                       [WCall "writeCompositeRuleBasedValueSpecification" None []]
                       [WIf (CInst [] ["ArrayValueSpecification"])
                          [WCall "writeArrayValueSpecification" None []]
                          [WIf (CInst [] ["RecordValueSpecification"])
                             [WCall "writeRecordValueSpecification" None []]
                             [WIf (CInst [] ["ConstantReference"])
                                [WCall "setConstantReference" None []]
                                [WFail NotImplementedError true]]]]]]]]
           [];
         WLeaf WNum (TLit "MAX-SIZE-TO-FILL") [GM "getMaxSizeToFill"]]]
     []].
(** arxml_writer.py:2431-2454 *)
Definition w_writeRecordValueSpecification : list wi :=
  [WSub (TLit "RECORD-VALUE-SPECIFICATION")
     [WAttrs [];
      WLeaf WText (TLit "SHORT-LABEL") [GM "getShortLabel"];
      WIf (CNonEmpty [GM "getFields"])
        [WSub (TLit "FIELDS")
           [WFor [GM "getFields"]
              [WIf (CInst [] ["ApplicationValueSpecification"])
                 [WCall "writeApplicationValueSpecification" None []]
                 [WIf (CInst [] ["ApplicationRuleBasedValueSpecification"])
                    [WCall "writeApplicationRuleBasedValueSpecification" None []]
                    [WIf (CInst [] ["CompositeRuleBasedValueSpecification"])
                       [WCall "writeCompositeRuleBasedValueSpecification" None []]
                       [WIf (CInst [] ["NumericalValueSpecification"])
                          [WCall "writeNumericalValueSpecification" None []]
                          [WIf (CInst [] ["TextValueSpecification"])
                             [WCall "writeTextValueSpecification" None []]
                             [WIf (CInst [] ["ArrayValueSpecification"])
                                [WCall "writeArrayValueSpecification" None []]
                                [WIf (CInst [] ["RecordValueSpecification"])
                                   [WCall "writeRecordValueSpecification" None []]
                                   [WFail NotImplementedError true]]]]]]]]]]
        []]].
(** arxml_writer.py:2456-2461 *)
Definition w_writeConstantSpecification : list wi :=
  [WSub (TLit "CONSTANT-SPECIFICATION")
     [WCall "writeIdentifiable" None [];
      WIf (CSome [GM "getValueSpec"])
        [WCall "setChildValueSpecification" (Some (TLit "VALUE-SPEC")) [GM "getValueSpec"]]
        []]].
(** arxml_writer.py:2463-2478 *)
Definition w_setInternalConstrs : list wi :=
  [WIf (CSome [])
     [WSub (TLit "INTERNAL-CONSTRS")
        [WAttrs [];
         WIf (CSome [GM "getLowerLimit"])
           [WLeaf WLimit (TLit "LOWER-LIMIT") [GM "getLowerLimit"]]
           [];
         WIf (CSome [GM "getUpperLimit"])
           [WLeaf WLimit (TLit "UPPER-LIMIT") [GM "getUpperLimit"]]
           [];
         WIf (CNonEmpty [GM "getScaleConstrs"])
           [WSub (TLit "SCALE-CONSTRS")
              [WFor [GM "getScaleConstrs"]
                 [WCall "setScaleConstr" (Some (TLit "SCALE-CONSTR")) []]]]
           [];
         WLeaf WNum (TLit "MAX-GRADIENT") [GM "getMaxGradient"];
         WLeaf WNum (TLit "MAX-DIFF") [GM "getMaxDiff"];
         WLeaf WText (TLit "MONOTONY") [GM "getMonotony"]]]
     []].
(** arxml_writer.py:2480-2491 *)
Definition w_setScaleConstr : list wi :=
  [WIf (CSome [])
     [WSub TKey
        [WAttrs [];
         WLeaf WText (TLit "SHORT-LABEL") [GM "getShortLabel"];
         WCall "setMultiLanguageOverviewParagraph" (Some (TLit "DESC")) [GM "getDesc"];
         WIf (CSome [GM "getLowerLimit"])
           [WLeaf WLimit (TLit "LOWER-LIMIT") [GM "getLowerLimit"]]
           [];
         WIf (CSome [GM "getUpperLimit"])
           [WLeaf WLimit (TLit "UPPER-LIMIT") [GM "getUpperLimit"]]
           [];
         WIf (CSome [GM "getValidity"])
           [WXAttr "VALIDITY" [GM "getValidity"; GM "getValue"]]
           []]]
     []].
(** arxml_writer.py:2493-2512 *)
Definition w_setPhysConstrs : list wi :=
  [WIf (CSome [])
     [WSub (TLit "PHYS-CONSTRS")
        [WAttrs [];
         WIf (CSome [GM "getLowerLimit"])
           [WLeaf WLimit (TLit "LOWER-LIMIT") [GM "getLowerLimit"]]
           [];
         WIf (CSome [GM "getUpperLimit"])
           [WLeaf WLimit (TLit "UPPER-LIMIT") [GM "getUpperLimit"]]
           [];
         WIf (CNonEmpty [GM "getScaleConstrs"])
           [WSub (TLit "SCALE-CONSTRS")
              [WFor [GM "getScaleConstrs"]
                 [WCall "setScaleConstr" (Some (TLit "SCALE-CONSTR")) []]]]
           [];
         WLeaf WNum (TLit "MAX-GRADIENT") [GM "getMaxGradient"];
         WLeaf WNum (TLit "MAX-DIFF") [GM "getMaxDiff"];
         WIf (CSome [GM "getMonotony"])
           [WSub (TLit "MONOTONY")
              [WSetText [GM "getMonotony"; GM "getText"]]]
           [];
         WLeaf WRef (TLit "UNIT-REF") [GM "getUnitRef"]]]
     []].
(** arxml_writer.py:2514-2523 *)
Definition w_writeDataConstrRules : list wi :=
  [WIf (CNonEmpty [GM "getDataConstrRules"])
     [WSub (TLit "DATA-CONSTR-RULES")
        [WFor [GM "getDataConstrRules"]
           [WSub (TLit "DATA-CONSTR-RULE")
              [WAttrs [];
               WLeaf WNum (TLit "CONSTR-LEVEL") [GA "constrLevel"];
               WCall "setPhysConstrs" None [GA "physConstrs"];
               WCall "setInternalConstrs" None [GA "internalConstrs"]]]]]
     []].
(** arxml_writer.py:2525-2528 *)
Definition w_writeDataConstr : list wi :=
  [WSub (TLit "DATA-CONSTR")
     [WCall "writeIdentifiable" None [];
      WCall "writeDataConstrRules" None []]].
(** arxml_writer.py:2530-2537 *)
Definition w_writeUnit : list wi :=
  [WSub (TLit "UNIT")
     [WCall "writeIdentifiable" None [];
      WLeaf WText (TLit "DISPLAY-NAME") [GM "getDisplayName"];
      WLeaf WText (TLit "FACTOR-SI-TO-UNIT") [GM "getFactorSiToUnit"];
      WLeaf WText (TLit "OFFSET-SI-TO-UNIT") [GM "getOffsetSiToUnit"];
      WLeaf WRef (TLit "PHYSICAL-DIMENSION-REF") [GM "getPhysicalDimensionRef"]]].
(** arxml_writer.py:2539-2545 *)
Definition w_setRModeInAtomicSwcInstanceRef : list wi :=
  [WSub TKey
     [WAttrs [];
      WLeaf WRef (TLit "BASE") [GM "getBaseRef"];
      WLeaf WRef (TLit "CONTEXT-PORT-REF") [GM "getContextPortRef"];
      WLeaf WRef (TLit "CONTEXT-MODE-DECLARATION-GROUP-PROTOTYPE-REF") [GM "getContextModeDeclarationGroupPrototypeRef"];
      WLeaf WRef (TLit "TARGET-MODE-DECLARATION-REF") [GM "getTargetModeDeclarationRef"]]].
(** arxml_writer.py:2547-2551 *)
Definition w_setModeInBswModuleDescriptionInstanceRef : list wi :=
  [WSub TKey
     [WAttrs [];
      WLeaf WRef (TLit "CONTEXT-MODE-DECLARATION-GROUP-REF") [GM "getContextModeDeclarationGroupRef"];
      WLeaf WRef (TLit "TARGET-MODE-REF") [GM "getTargetModeRef"]]].
(** arxml_writer.py:2553-2558 *)
Definition w_setPOperationInAtomicSwcInstanceRef : list wi :=
  [WIf (CSome [])
     [WSub TKey
        [WAttrs [];
         WLeaf WRef (TLit "CONTEXT-P-PORT-REF") [GM "getContextPPortRef"];
         WLeaf WRef (TLit "TARGET-PROVIDED-OPERATION-REF") [GM "getTargetProvidedOperationRef"]]]
     []].
(** arxml_writer.py:2560-2568 *)
Definition w_setRTEEvent : list wi :=
  [WCall "writeIdentifiable" None [];
   WLeaf WRef (TLit "ACTIVATION-REASON-REPRESENTATION-REF") [GM "getActivationReasonRepresentationRef"];
   WIf (CNonEmpty [GM "getDisabledModeIRefs"])
     [WSub (TLit "DISABLED-MODE-IREFS")
        [WFor [GM "getDisabledModeIRefs"]
           [WCall "setRModeInAtomicSwcInstanceRef" (Some (TLit "DISABLED-MODE-IREF")) []]]]
     [];
   WLeaf WRef (TLit "START-ON-EVENT-REF") [GA "startOnEventRef"]].
(** arxml_writer.py:2570-2575 *)
Definition w_writeTimingEvent : list wi :=
  [WIf (CSome [])
     [WSub (TLit "TIMING-EVENT")
        [WCall "setRTEEvent" None [];
         WLeaf WText (TLit "OFFSET") [GM "getOffset"];
         WLeaf WText (TLit "PERIOD") [GM "getPeriod"]]]
     []].
(** arxml_writer.py:2577-2581 *)
Definition w_writeOperationInvokedEvent : list wi :=
  [WIf (CSome [])
     [WSub (TLit "OPERATION-INVOKED-EVENT")
        [WCall "setRTEEvent" None [];
         WCall "setPOperationInAtomicSwcInstanceRef" (Some (TLit "OPERATION-IREF")) [GA "operationIRef"]]]
     []].
(** arxml_writer.py:2583-2592 *)
Definition w_writeSwcModeSwitchEvent : list wi :=
  [WIf (CSome [])
     [WSub (TLit "SWC-MODE-SWITCH-EVENT")
        [WCall "setRTEEvent" None [];
         WLeaf WText (TLit "ACTIVATION") [GM "getActivation"];
         WIf (CNonEmpty [GM "getModeIRefs"])
           [WSub (TLit "MODE-IREFS")
              [WFor [GM "getModeIRefs"]
                 [WCall "setRModeInAtomicSwcInstanceRef" (Some (TLit "MODE-IREF")) []]]]
           []]]
     []].
(** arxml_writer.py:2594-2598 *)
Definition w_setRVariableInAtomicSwcInstanceRef : list wi :=
  [WIf (CSome [])
     [WSub (TLit "DATA-IREF")
        [WLeaf WRef (TLit "CONTEXT-R-PORT-REF") [GM "getContextRPortRef"];
         WLeaf WRef (TLit "TARGET-DATA-ELEMENT-REF") [GM "getTargetDataElementRef"]]]
     []].
(** arxml_writer.py:2600-2604 *)
Definition w_writeDataReceivedEvent : list wi :=
  [WIf (CSome [])
     [WSub (TLit "DATA-RECEIVED-EVENT")
        [WCall "setRTEEvent" None [];
         WCall "setRVariableInAtomicSwcInstanceRef" None [GA "dataIRef"]]]
     []].
(** arxml_writer.py:2606-2607 *)
Definition w_writeInternalTriggerOccurredEvent : list wi :=
  [].
(** arxml_writer.py:2609-2612 *)
Definition w_writeInitEvent : list wi :=
  [WIf (CSome [])
     [WSub (TLit "INIT-EVENT")
        [WCall "setRTEEvent" None []]]
     []].
(** arxml_writer.py:2614-2618 *)
Definition w_writeAsynchronousServerCallReturnsEvent : list wi :=
  [WIf (CSome [])
     [WSub (TLit "ASYNCHRONOUS-SERVER-CALL-RETURNS-EVENT")
        [WCall "setRTEEvent" None [];
         WLeaf WRef (TLit "EVENT-SOURCE-REF") [GM "getActivationReasonRepresentationRef"]]]
     []].
(** arxml_writer.py:2620-2624 *)
Definition w_writeModeSwitchedAckEvent : list wi :=
  [WIf (CSome [])
     [WSub (TLit "MODE-SWITCHED-ACK-EVENT")
        [WCall "setRTEEvent" None [];
         WLeaf WRef (TLit "EVENT-SOURCE-REF") [GM "getEventSourceRef"]]]
     []].
(** arxml_writer.py:2626-2629 *)
Definition w_writeBackgroundEvent : list wi :=
  [WIf (CSome [])
     [WSub (TLit "BACKGROUND-EVENT")
        [WCall "setRTEEvent" None []]]
     []].
(** arxml_writer.py:2631-2635 *)
Definition w_writeDataSendCompletedEvent : list wi :=
  [WIf (CSome [])
     [WSub (TLit "DATA-SEND-COMPLETED-EVENT")
        [WCall "setRTEEvent" None [];
         WLeaf WRef (TLit "EVENT-SOURCE-REF") [GM "getEventSourceRef"]]]
     []].
(** arxml_writer.py:2637-2664 *)
Definition w_writeSwcInternalBehaviorEvents : list wi :=
  [WIf (CNonEmpty [GM "getRteEvents"])
     [WSub (TLit "EVENTS")
        [WFor [GM "getRteEvents"]
           [WIf (CInst [] ["TimingEvent"])
              [WCall "writeTimingEvent" None []]
              [WIf (CInst [] ["OperationInvokedEvent"])
                 [WCall "writeOperationInvokedEvent" None []]
                 [WIf (CInst [] ["SwcModeSwitchEvent"])
                    [WCall "writeSwcModeSwitchEvent" None []]
                    [WIf (CInst [] ["DataReceivedEvent"])
                       [WCall "writeDataReceivedEvent" None []]
                       [WIf (CInst [] ["InternalTriggerOccurredEvent"])
                          [WCall "writeInternalTriggerOccurredEvent" None []]
                          [WIf (CInst [] ["InitEvent"])
                             [WCall "writeInitEvent" None []]
                             [WIf (CInst [] ["AsynchronousServerCallReturnsEvent"])
                                [WCall "writeAsynchronousServerCallReturnsEvent" None []]
                                [WIf (CInst [] ["ModeSwitchedAckEvent"])
                                   [WCall "writeModeSwitchedAckEvent" None []]
                                   [WIf (CInst [] ["BackgroundEvent"])
                                      [WCall "writeBackgroundEvent" None []]
                                      [WIf (CInst [] ["DataSendCompletedEvent"])
                                         [WCall "writeDataSendCompletedEvent" None []]
                                         [WFail NotImplementedError true]]]]]]]]]]]]]
     []].
(** arxml_writer.py:2666-2672 *)
Definition w_writeExclusiveAreas : list wi :=
  [WIf (CNonEmpty [GM "getExclusiveAreas"])
     [WSub (TLit "EXCLUSIVE-AREAS")
        [WFor [GM "getExclusiveAreas"]
           [WSub (TLit "EXCLUSIVE-AREA")
              [WCall "writeIdentifiable" None []]]]]
     []].
(** arxml_writer.py:2674-2685 *)
Definition w_writeExclusiveAreaNestingOrders : list wi :=
  [WIf (CNonEmpty [GM "getExclusiveAreaNestingOrders"])
     [WSub (TLit "EXCLUSIVE-AREA-NESTING-ORDERS")
        [WFor [GM "getExclusiveAreaNestingOrders"]
           [WSub (TLit "EXCLUSIVE-AREA-NESTING-ORDER")
              [WCall "writeReferrable" None [];
               WIf (CNonEmpty [GM "getExclusiveAreaRefs"])
                 [WSub (TLit "EXCLUSIVE-AREA-REFS")
                    [WFor [GM "getExclusiveAreaRefs"]
                       [WLeaf WRef (TLit "EXCLUSIVE-AREA-REF") []]]]
                 []]]]]
     []].
(** arxml_writer.py:2687-2692 *)
Definition w_writeDataTypeMappingRefs : list wi :=
  [WIf (CNonEmpty [GM "getDataTypeMappingRefs"])
     [WSub (TLit "DATA-TYPE-MAPPING-REFS")
        [WFor [GM "getDataTypeMappingRefs"]
           [WLeaf WRef (TLit "DATA-TYPE-MAPPING-REF") []]]]
     []].
(** arxml_writer.py:2694-2700 *)
Definition w_writeInternalBehaviorStaticMemories : list wi :=
  [WIf (CNonEmpty [GM "getStaticMemories"])
     [WSub (TLit "STATIC-MEMORYS")
        [WFor [GM "getStaticMemories"]
           [WIf (CInst [] ["VariableDataPrototype"])
              [WCall "writeVariableDataPrototype" None []]
              []]]]
     []].
(** arxml_writer.py:2702-2708 *)
Definition w_writeInternalBehavior : list wi :=
  [WCall "writeIdentifiable" None [];
   WCall "writeSwcInternalBehaviorParameterDataPrototypes" (Some (TLit "CONSTANT-MEMORYS")) [GM "getConstantMemories"];
   WCall "writeDataTypeMappingRefs" None [];
   WCall "writeExclusiveAreas" None [];
   WCall "writeExclusiveAreaNestingOrders" None [];
   WCall "writeInternalBehaviorStaticMemories" None []].
(** arxml_writer.py:2710-2715 *)
Definition w_setVariableInAtomicSWCTypeInstanceRef : list wi :=
  [WIf (CSome [])
     [WSub TKey
        [WAttrs [];
         WLeaf WRef (TLit "PORT-PROTOTYPE-REF") [GM "getPortPrototypeRef"];
         WLeaf WRef (TLit "TARGET-DATA-PROTOTYPE-REF") [GM "getTargetDataPrototypeRef"]]]
     []].
(** arxml_writer.py:2717-2722 *)
Definition w_setAutosarVariableRef : list wi :=
  [WIf (CSome [])
     [WSub TKey
        [WAttrs [];
         WCall "setVariableInAtomicSWCTypeInstanceRef" (Some (TLit "AUTOSAR-VARIABLE-IREF")) [GM "getAutosarVariableIRef"];
         WLeaf WRef (TLit "LOCAL-VARIABLE-REF") [GM "getLocalVariableRef"]]]
     []].
(** arxml_writer.py:2724-2732 *)
Definition w_writeNvBlockDataMapping : list wi :=
  [WSub (TLit "NV-BLOCK-DATA-MAPPING")
     [WAttrs [];
      WLeaf WNum (TLit "BITFIELD-TEXT-TABLE-MASK-NV-BLOCK-DESCRIPTOR") [GM "getBitfieldTextTableMaskNvBlockDescriptor"];
      WLeaf WNum (TLit "BITFIELD-TEXT-TABLE-MASK-PORT-PROTOTYPE") [GM "getBitfieldTextTableMaskPortPrototype"];
      WCall "setAutosarVariableRef" (Some (TLit "NV-RAM-BLOCK-ELEMENT")) [GM "getNvRamBlockElement"];
      WCall "setAutosarVariableRef" (Some (TLit "READ-NV-DATA")) [GM "getReadNvData"];
      WCall "setAutosarVariableRef" (Some (TLit "WRITTEN-NV-DATA")) [GM "getWrittenNvData"];
      WCall "setAutosarVariableRef" (Some (TLit "WRITTEN-READ-NV-DATA")) [GM "getWrittenReadNvData"]]].
(** arxml_writer.py:2734-2745 *)
Definition w_writeBulkNvDataDescriptor : list wi :=
  [WSub (TLit "BULK-NV-DATA-DESCRIPTOR")
     [WCall "writeIdentifiable" None [];
      WIf (CSome [GM "getBulkNvBlock"])
        [WSub (TLit "BULK-NV-BLOCK")
           [WCall "writeVariableDataPrototype" None [GM "getBulkNvBlock"]]]
        [];
      WIf (CNonEmpty [GM "getNvBlockDataMappings"])
        [WSub (TLit "NV-BLOCK-DATA-MAPPINGS")
           [WFor [GM "getNvBlockDataMappings"]
              [WCall "writeNvBlockDataMapping" None []]]]
        []]].
(** arxml_writer.py:2747-2812 *)
Definition w_writeNvBlockDescriptor : list wi :=
  [WSub (TLit "NV-BLOCK-DESCRIPTOR")
     [WCall "writeIdentifiable" None [];
      WIf (CNonEmpty [GM "getClientServerPorts"])
        [WSub (TLit "CLIENT-SERVER-PORTS")
           [WFor [GM "getClientServerPorts"]
              [WIf (CInst [] ["RoleBasedPortAssignment"])
                 [WCall "writeRoleBasedPortAssignment" None []]
                 [WFail NotImplementedError true]]]]
        [];
      WIf (CNonEmpty [GM "getConstantValueMappingRefs"])
        [WSub (TLit "CONSTANT-VALUE-MAPPING-REFS")
           [WFor [GM "getConstantValueMappingRefs"]
              [WLeaf WRef (TLit "CONSTANT-VALUE-MAPPING-REF") []]]]
        [];
      WIf (CNonEmpty [GM "getDataTypeMappingRefs"])
        [WSub (TLit "DATA-TYPE-MAPPING-REFS")
           [WFor [GM "getDataTypeMappingRefs"]
              [WLeaf WRef (TLit "DATA-TYPE-MAPPING-REF") []]]]
        [];
      WIf (CNonEmpty [GM "getInstantiationDataDefPropss"])
        [WSub (TLit "INSTANTIATION-DATA-DEF-PROPSS")
           [WFor [GM "getInstantiationDataDefPropss"]
              [WIf (CInst [] ["InstantiationDataDefProps"])
                 [WSub (TLit "INSTANTIATION-DATA-DEF-PROPS")
                    [WCall "setAutosarParameterRef" (Some (TLit "PARAMETER-INSTANCE")) [GM "getParameterInstance"];
                     WCall "setSwDataDefProps" (Some (TLit "SW-DATA-DEF-PROPS")) [GM "getSwDataDefProps"];
                     WCall "setAutosarVariableRef" (Some (TLit "VARIABLE-INSTANCE")) [GM "getVariableInstance"]]]
                 [WFail NotImplementedError true]]]]
        [];
      WIf (CNonEmpty [GM "getModeSwitchEventTriggeredActivitys"])
        [WSub (TLit "MODE-SWITCH-EVENT-TRIGGERED-ACTIVITYS")
           [WFor [GM "getModeSwitchEventTriggeredActivitys"]
              [WIf (CInst [] ["ModeSwitchEventTriggeredActivity"])
                 [WCall "writeModeSwitchEventTriggeredActivity" None []]
                 [WFail NotImplementedError true]]]]
        [];
      WIf (CNonEmpty [GM "getNvBlockDataMappings"])
        [WSub (TLit "NV-BLOCK-DATA-MAPPINGS")
           [WFor [GM "getNvBlockDataMappings"]
              [WCall "writeNvBlockDataMapping" None []]]]
        [];
      WIf (CSome [GM "getNvBlockNeeds"])
        [WCall "writeNvBlockNeeds" None [GM "getNvBlockNeeds"]]
        [];
      WIf (CSome [GM "getRamBlock"])
        [WSub (TLit "RAM-BLOCK")
           [WCall "writeAutosarDataPrototype" None [GM "getRamBlock"]]]
        [];
      WIf (CSome [GM "getRomBlock"])
        [WSub (TLit "ROM-BLOCK")
           [WCall "writeAutosarDataPrototype" None [GM "getRomBlock"]]]
        [];
      WLeaf WText (TLit "SUPPORT-DIRTY-FLAG") [GM "getSupportDirtyFlag"];
      WLeaf WRef (TLit "TIMING-EVENT-REF") [GM "getTimingEventRef"];
      WIf (CNonEmpty [GM "getWritingStrategies"])
        [WSub (TLit "WRITING-STRATEGYS")
           [WFor [GM "getWritingStrategies"]
              [WIf (CInst [] ["RoleBasedDataAssignment"])
                 [WCall "writeRoleBasedDataAssignment" None []]
                 [WFail NotImplementedError true]]]]
        []]].
(** arxml_writer.py:2814-2817 *)
Definition w_writeModeSwitchEventTriggeredActivity : list wi :=
  [WSub (TLit "MODE-SWITCH-EVENT-TRIGGERED-ACTIVITY")
     [WLeaf WText (TLit "ROLE") [GM "getRole"];
      WLeaf WRef (TLit "SWC-MODE-SWITCH-EVENT-REF") [GM "getSwcModeSwitchEventRef"]]].
(** arxml_writer.py:2819-2825 *)
Definition w_setComponentInSystemInstanceRef : list wi :=
  [WIf (CSome [])
     [WSub TKey
        [WAttrs [];
         WLeaf WRef (TLit "BASE-REF") [GM "getBaseRef"];
         WLeaf WRef (TLit "CONTEXT-COMPOSITION-REF") [GM "getContextCompositionRef"];
         WLeaf WRef (TLit "TARGET-COMPONENT-REF") [GM "getTargetComponentRef"]]]
     []].
(** arxml_writer.py:2827-2830 *)
Definition w_writeVariableAccess : list wi :=
  [WSub (TLit "VARIABLE-ACCESS")
     [WCall "writeIdentifiable" None [];
      WCall "setAutosarVariableRef" (Some (TLit "ACCESSED-VARIABLE")) [GM "getAccessedVariableRef"]]].
(** arxml_writer.py:2832-2839 *)
Definition w_setParameterInAtomicSWCTypeInstanceRef : list wi :=
  [WIf (CSome [])
     [WSub TKey
        [WFor [GM "getContextDataPrototypeRefs"]
           [WLeaf WRef (TLit "CONTEXT-DATA-PROTOTYPE-REF") []];
         WLeaf WRef (TLit "PORT-PROTOTYPE-REF") [GM "getPortPrototypeRef"];
         WLeaf WRef (TLit "ROOT-PARAMETER-DATA-PROTOTYPE-REF") [GM "getRootParameterDataPrototypeRef"];
         WLeaf WRef (TLit "TARGET-DATA-PROTOTYPE-REF") [GM "getTargetDataPrototypeRef"]]]
     []].
(** arxml_writer.py:2841-2845 *)
Definition w_setAutosarParameterRef : list wi :=
  [WIf (CSome [])
     [WSub TKey
        [WCall "setParameterInAtomicSWCTypeInstanceRef" (Some (TLit "AUTOSAR-PARAMETER-IREF")) [GM "getAutosarParameterIRef"];
         WLeaf WRef (TLit "LOCAL-PARAMETER-REF") [GM "getLocalParameterRef"]]]
     []].
(** arxml_writer.py:2847-2850 *)
Definition w_writeParameterAccess : list wi :=
  [WSub (TLit "PARAMETER-ACCESS")
     [WCall "writeIdentifiable" None [];
      WCall "setAutosarParameterRef" (Some (TLit "ACCESSED-PARAMETER")) [GM "getAccessedParameter"]]].
(** arxml_writer.py:2852-2857 *)
Definition w_writeRunnableEntityParameterAccesses : list wi :=
  [WIf (CNonEmpty [GM "getParameterAccesses"])
     [WSub (TLit "PARAMETER-ACCESSS")
        [WFor [GM "getParameterAccesses"]
           [WCall "writeParameterAccess" None []]]]
     []].
(** arxml_writer.py:2859-2864 *)
Definition w_writeRunnableEntityDataReceivePointByArguments : list wi :=
  [WIf (CNonEmpty [GM "getDataReceivePointByArguments"])
     [WSub (TLit "DATA-RECEIVE-POINT-BY-ARGUMENTS")
        [WFor [GM "getDataReceivePointByArguments"]
           [WCall "writeVariableAccess" None []]]]
     []].
(** arxml_writer.py:2866-2871 *)
Definition w_writeRunnableEntityDataReceivePointByValues : list wi :=
  [WIf (CNonEmpty [GM "getDataReceivePointByValues"])
     [WSub (TLit "DATA-RECEIVE-POINT-BY-VALUES")
        [WFor [GM "getDataReceivePointByValues"]
           [WCall "writeVariableAccess" None []]]]
     []].
(** arxml_writer.py:2873-2878 *)
Definition w_writeRunnableEntityDataSendPoints : list wi :=
  [WIf (CNonEmpty [GM "getDataSendPoints"])
     [WSub (TLit "DATA-SEND-POINTS")
        [WFor [GM "getDataSendPoints"]
           [WCall "writeVariableAccess" None []]]]
     []].
(** arxml_writer.py:2880-2885 *)
Definition w_writeRunnableEntityDataReadAccesses : list wi :=
  [WIf (CNonEmpty [GM "getDataReadAccesses"])
     [WSub (TLit "DATA-READ-ACCESSS")
        [WFor [GM "getDataReadAccesses"]
           [WCall "writeVariableAccess" None []]]]
     []].
(** arxml_writer.py:2887-2892 *)
Definition w_writeRunnableEntityDataWriteAccesses : list wi :=
  [WIf (CNonEmpty [GM "getDataWriteAccesses"])
     [WSub (TLit "DATA-WRITE-ACCESSS")
        [WFor [GM "getDataWriteAccesses"]
           [WCall "writeVariableAccess" None []]]]
     []].
(** arxml_writer.py:2894-2899 *)
Definition w_writeRunnableEntityReadLocalVariables : list wi :=
  [WIf (CNonEmpty [GM "getReadLocalVariables"])
     [WSub (TLit "READ-LOCAL-VARIABLES")
        [WFor [GM "getReadLocalVariables"]
           [WCall "writeVariableAccess" None []]]]
     []].
(** arxml_writer.py:2901-2906 *)
Definition w_setROperationInAtomicSwcInstanceRef : list wi :=
  [WIf (CSome [])
     [WSub TKey
        [WAttrs [];
         WLeaf WRef (TLit "CONTEXT-R-PORT-REF") [GM "getContextRPortRef"];
         WLeaf WRef (TLit "TARGET-REQUIRED-OPERATION-REF") [GM "getTargetRequiredOperationRef"]]]
     []].
(** arxml_writer.py:2908-2910 *)
Definition w_setServerCallPoint : list wi :=
  [WCall "setROperationInAtomicSwcInstanceRef" (Some (TLit "OPERATION-IREF")) [GM "getOperationIRef"];
   WLeaf WText (TLit "TIMEOUT") [GA "timeout"]].
(** arxml_writer.py:2912-2915 *)
Definition w_setSynchronousServerCallPoint : list wi :=
  [WSub (TLit "SYNCHRONOUS-SERVER-CALL-POINT")
     [WCall "writeIdentifiable" None [];
      WCall "setServerCallPoint" None []]].
(** arxml_writer.py:2917-2920 *)
Definition w_setAsynchronousServerCallPoint : list wi :=
  [WSub (TLit "ASYNCHRONOUS-SERVER-CALL-POINT")
     [WCall "writeIdentifiable" None [];
      WCall "setServerCallPoint" None []]].
(** arxml_writer.py:2922-2932 *)
Definition w_writeRunnableEntityServerCallPoints : list wi :=
  [WIf (CNonEmpty [GM "getServerCallPoints"])
     [WSub (TLit "SERVER-CALL-POINTS")
        [WFor [GM "getServerCallPoints"]
           [WIf (CInst [] ["SynchronousServerCallPoint"])
              [WCall "setSynchronousServerCallPoint" None []]
              [WIf (CInst [] ["AsynchronousServerCallPoint"])
                 [WCall "setAsynchronousServerCallPoint" None []]
                 [WFail NotImplementedError true]]]]]
     []].
(** arxml_writer.py:2934-2939 *)
Definition w_writeRunnableEntityWrittenLocalVariable : list wi :=
  [WIf (CNonEmpty [GM "getWrittenLocalVariables"])
     [WSub (TLit "WRITTEN-LOCAL-VARIABLES")
        [WFor [GM "getWrittenLocalVariables"]
           [WCall "writeVariableAccess" None []]]]
     []].
(** arxml_writer.py:2941-2943 *)
Definition w_writeModeGroupInAtomicSwcInstanceRef : list wi :=
  [WLeaf WRef (TLit "BASE-REF") [GM "getBaseRef"];
   WLeaf WRef (TLit "CONTEXT-PORT-REF") [GM "getContextPortRef"]].
(** arxml_writer.py:2945-2950 *)
Definition w_writeRModeGroupInAtomicSWCInstanceRef : list wi :=
  [WIf (CSome [])
     [WSub (TLit "R-MODE-GROUP-IN-ATOMIC-SWC-INSTANCE-REF")
        [WCall "writeModeGroupInAtomicSwcInstanceRef" None [];
         WLeaf WRef (TLit "CONTEXT-R-PORT-REF") [GM "getContextRPortRef"];
         WLeaf WRef (TLit "TARGET-MODE-GROUP-REF") [GM "getTargetModeGroupRef"]]]
     []].
(** arxml_writer.py:2952-2957 *)
Definition w_writePModeGroupInAtomicSWCInstanceRef : list wi :=
  [WIf (CSome [])
     [WSub (TLit "P-MODE-GROUP-IN-ATOMIC-SWC-INSTANCE-REF")
        [WCall "writeModeGroupInAtomicSwcInstanceRef" None [];
         WLeaf WRef (TLit "CONTEXT-P-PORT-REF") [GM "getContextPPortRef"];
         WLeaf WRef (TLit "TARGET-MODE-GROUP-REF") [GM "getTargetModeGroupRef"]]]
     []].
(** arxml_writer.py:2959-2963 *)
Definition w_writePTriggerInAtomicSwcTypeInstanceRef : list wi :=
  [WIf (CSome [])
     [WSub TKey
        [WLeaf WRef (TLit "CONTEXT-P-PORT-REF") [GM "getContextPPortRef"];
         WLeaf WRef (TLit "TARGET-TRIGGER-REF") [GM "getTargetTriggerRef"]]]
     []].
(** arxml_writer.py:2965-2970 *)
Definition w_writeInnerDataPrototypeGroupInCompositionInstanceRef : list wi :=
  [WIf (CSome [])
     [WSub TKey
        [WFor [GM "getContextSwComponentPrototypeRefs"]
           [WLeaf WRef (TLit "CONTEXT-SW-COMPONENT-PROTOTYPE-REF") []];
         WLeaf WRef (TLit "TARGET-DATA-PROTOTYPE-GROUP-REF") [GM "getTargetDataPrototypeGroupRef"]]]
     []].
(** arxml_writer.py:2972-2977 *)
Definition w_writeInnerRunnableEntityGroupInCompositionInstanceRef : list wi :=
  [WIf (CSome [])
     [WSub TKey
        [WFor [GM "getContextSwComponentPrototypeRefs"]
           [WLeaf WRef (TLit "CONTEXT-SW-COMPONENT-PROTOTYPE-REF") []];
         WLeaf WRef (TLit "TARGET-RUNNABLE-ENTITY-GROUP-REF") [GM "getTargetRunnableEntityGroupRef"]]]
     []].
(** arxml_writer.py:2979-2984 *)
Definition w_writeRunnableEntityInCompositionInstanceRef : list wi :=
  [WIf (CSome [])
     [WSub TKey
        [WFor [GM "getContextSwComponentPrototypeRefs"]
           [WLeaf WRef (TLit "CONTEXT-SW-COMPONENT-PROTOTYPE-REF") []];
         WLeaf WRef (TLit "TARGET-RUNNABLE-ENTITY-REF") [GM "getTargetRunnableEntityRef"]]]
     []].
(** arxml_writer.py:2986-2992 *)
Definition w_writeVariableDataPrototypeInCompositionInstanceRef : list wi :=
  [WIf (CSome [])
     [WSub TKey
        [WFor [GM "getContextSwComponentPrototypeRefs"]
           [WLeaf WRef (TLit "CONTEXT-SW-COMPONENT-PROTOTYPE-REF") []];
         WLeaf WRef (TLit "CONTEXT-PORT-PROTOTYPE-REF") [GM "getContextPortPrototypeRef"];
         WLeaf WRef (TLit "TARGET-VARIABLE-DATA-PROTOTYPE-REF") [GM "getTargetVariableDataPrototypeRef"]]]
     []].
(** arxml_writer.py:2994-2999 *)
Definition w_writeDataPrototypeGroupDataPrototypeGroupIRefs : list wi :=
  [WIf (CNonEmpty [GM "getDataPrototypeGroupIRefs"])
     [WSub (TLit "DATA-PROTOTYPE-GROUP-IREFS")
        [WFor [GM "getDataPrototypeGroupIRefs"]
           [WCall "writeInnerDataPrototypeGroupInCompositionInstanceRef" (Some (TLit "DATA-PROTOTYPE-GROUP-IREF")) []]]]
     []].
(** arxml_writer.py:3001-3006 *)
Definition w_writeDataPrototypeGroupImplicitDataAccessIRefs : list wi :=
  [WIf (CNonEmpty [GM "getImplicitDataAccessIRefs"])
     [WSub (TLit "IMPLICIT-DATA-ACCESS-IREFS")
        [WFor [GM "getImplicitDataAccessIRefs"]
           [WCall "writeVariableDataPrototypeInCompositionInstanceRef" (Some (TLit "IMPLICIT-DATA-ACCESS-IREF")) []]]]
     []].
(** arxml_writer.py:3008-3013 *)
Definition w_writeDataPrototypeGroup : list wi :=
  [WSub (TLit "DATA-PROTOTYPE-GROUP")
     [WCall "writeIdentifiable" None [];
      WCall "writeDataPrototypeGroupDataPrototypeGroupIRefs" None [];
      WCall "writeDataPrototypeGroupImplicitDataAccessIRefs" None []]].
(** arxml_writer.py:3015-3020 *)
Definition w_writeRunnableEntityGroupRunnableEntityGroupIRefs : list wi :=
  [WIf (CNonEmpty [GM "getRunnableEntityGroupIRefs"])
     [WSub (TLit "RUNNABLE-ENTITY-GROUP-IREFS")
        [WFor [GM "getRunnableEntityGroupIRefs"]
           [WCall "writeInnerRunnableEntityGroupInCompositionInstanceRef" (Some (TLit "RUNNABLE-ENTITY-GROUP-IREF")) []]]]
     []].
(** arxml_writer.py:3022-3027 *)
Definition w_writeRunnableEntityGroupRunnableEntityIRefs : list wi :=
  [WIf (CNonEmpty [GM "getRunnableEntityIRefs"])
     [WSub (TLit "RUNNABLE-ENTITY-IREFS")
        [WFor [GM "getRunnableEntityIRefs"]
           [WCall "writeRunnableEntityInCompositionInstanceRef" (Some (TLit "RUNNABLE-ENTITY-IREF")) []]]]
     []].
(** arxml_writer.py:3029-3034 *)
Definition w_writeRunnableEntityGroup : list wi :=
  [WSub (TLit "RUNNABLE-ENTITY-GROUP")
     [WCall "writeIdentifiable" None [];
      WCall "writeRunnableEntityGroupRunnableEntityGroupIRefs" None [];
      WCall "writeRunnableEntityGroupRunnableEntityIRefs" None []]].
(** arxml_writer.py:3036-3040 *)
Definition w_writeConsistencyNeedsDpgDoesNotRequireCoherencys : list wi :=
  [WIf (CNonEmpty [GM "getDpgDoesNotRequireCoherencys"])
     [WSub (TLit "DPG-DOES-NOT-REQUIRE-COHERENCYS")
        [WFor [GM "getDpgDoesNotRequireCoherencys"]
           [WCall "writeDataPrototypeGroup" None []]]]
     []].
(** arxml_writer.py:3042-3046 *)
Definition w_writeConsistencyNeedsDpgRequiresCoherencys : list wi :=
  [WIf (CNonEmpty [GM "getDpgRequiresCoherencys"])
     [WSub (TLit "DPG-REQUIRES-COHERENCYS")
        [WFor [GM "getDpgRequiresCoherencys"]
           [WCall "writeDataPrototypeGroup" None []]]]
     []].
(** arxml_writer.py:3048-3052 *)
Definition w_writeConsistencyNeedsRegDoesNotRequireStabilitys : list wi :=
  [WIf (CNonEmpty [GM "getRegDoesNotRequireStabilitys"])
     [WSub (TLit "REG-DOES-NOT-REQUIRE-STABILITYS")
        [WFor [GM "getRegDoesNotRequireStabilitys"]
           [WCall "writeRunnableEntityGroup" None []]]]
     []].
(** arxml_writer.py:3054-3058 *)
Definition w_writeConsistencyNeedsRegRequiresStabilitys : list wi :=
  [WIf (CNonEmpty [GM "getRegRequiresStabilitys"])
     [WSub (TLit "REG-REQUIRES-STABILITYS")
        [WFor [GM "getRegRequiresStabilitys"]
           [WCall "writeRunnableEntityGroup" None []]]]
     []].
(** arxml_writer.py:3060-3067 *)
Definition w_writeConsistencyNeeds : list wi :=
  [WSub (TLit "CONSISTENCY-NEEDS")
     [WCall "writeIdentifiable" None [];
      WCall "writeConsistencyNeedsDpgDoesNotRequireCoherencys" None [];
      WCall "writeConsistencyNeedsDpgRequiresCoherencys" None [];
      WCall "writeConsistencyNeedsRegDoesNotRequireStabilitys" None [];
      WCall "writeConsistencyNeedsRegRequiresStabilitys" None []]].
(** arxml_writer.py:3069-3074 *)
Definition w_setPModeGroupInAtomicSwcInstanceRef : list wi :=
  [WIf (CSome [])
     [WSub TKey
        [WCall "writeModeGroupInAtomicSwcInstanceRef" None [];
         WLeaf WRef (TLit "CONTEXT-P-PORT-REF") [GM "getContextPPortRef"];
         WLeaf WRef (TLit "TARGET-MODE-GROUP-REF") [GM "getTargetModeGroupRef"]]]
     []].
(** arxml_writer.py:3076-3085 *)
Definition w_setModeGroupIRef : list wi :=
  [WIf (CSome [])
     [WSub TKey
        [WIf (CInst [] ["PModeGroupInAtomicSwcInstanceRef"])
           [WCall "writePModeGroupInAtomicSWCInstanceRef" None []]
           [WIf (CInst [] ["RModeGroupInAtomicSWCInstanceRef"])
              [WCall "writeRModeGroupInAtomicSWCInstanceRef" None []]
              [WFail NotImplementedError true]]]]
     []].
(** arxml_writer.py:3087-3091 *)
Definition w_writeModeAccessPoint : list wi :=
  [WIf (CSome [])
     [WSub (TLit "MODE-ACCESS-POINT")
        [WAttrs [];
         WCall "setModeGroupIRef" (Some (TLit "MODE-GROUP-IREF")) [GM "getModeGroupIRef"]]]
     []].
(** arxml_writer.py:3093-3105 *)
Definition w_writeRunnableEntityExternalTriggeringPoints : list wi :=
  [WIf (CNonEmpty [GM "getExternalTriggeringPoints"])
     [WSub (TLit "EXTERNAL-TRIGGERING-POINTS")
        [WFor [GM "getExternalTriggeringPoints"]
           [WSub (TLit "EXTERNAL-TRIGGERING-POINT")
              [WIf (CSome [GM "getIdent"])
                 [WSub (TLit "IDENT")
                    [WCall "writeIdentifiable" None [GM "getIdent"]]]
                 [];
               WIf (CSome [GM "getTrigger"])
                 [WCall "writePTriggerInAtomicSwcTypeInstanceRef" (Some (TLit "TRIGGER-IREF")) [GM "getTrigger"]]
                 []]]]]
     []].
(** arxml_writer.py:3107-3115 *)
Definition w_writeRunnableEntityModeAccessPoints : list wi :=
  [WIf (CNonEmpty [GM "getModeAccessPoints"])
     [WSub (TLit "MODE-ACCESS-POINTS")
        [WFor [GM "getModeAccessPoints"]
           [WIf (CInst [] ["ModeAccessPoint"])
              [WCall "writeModeAccessPoint" None []]
              [WFail NotImplementedError true]]]]
     []].
(** arxml_writer.py:3117-3122 *)
Definition w_writeModeSwitchPointModeGroupIRef : list wi :=
  [WIf (CSome [])
     [WSub (TLit "MODE-GROUP-IREF")
        [WLeaf WRef (TLit "CONTEXT-P-PORT-REF") [GM "getModeGroupIRef"; GM "getContextPPortRef"];
         WLeaf WRef (TLit "TARGET-MODE-GROUP-REF") [GM "getModeGroupIRef"; GM "getTargetModeGroupRef"]]]
     []].
(** arxml_writer.py:3124-3128 *)
Definition w_writeModeSwitchPoint : list wi :=
  [WIf (CSome [])
     [WSub (TLit "MODE-SWITCH-POINT")
        [WCall "writeIdentifiable" None [];
         WCall "writeModeSwitchPointModeGroupIRef" None []]]
     []].
(** arxml_writer.py:3130-3138 *)
Definition w_writeRunnableEntityModeSwitchPoints : list wi :=
  [WIf (CNonEmpty [GM "getModeSwitchPoints"])
     [WSub (TLit "MODE-SWITCH-POINTS")
        [WFor [GM "getModeSwitchPoints"]
           [WIf (CInst [] ["ModeSwitchPoint"])
              [WCall "writeModeSwitchPoint" None []]
              [WFail NotImplementedError true]]]]
     []].
(** arxml_writer.py:3140-3142 *)
Definition w_setRunnableEntityArgument : list wi :=
  [WSub (TLit "RUNNABLE-ENTITY-ARGUMENT")
     [WLeaf WText (TLit "SYMBOL") [GM "getSymbol"]]].
(** arxml_writer.py:3144-3152 *)
Definition w_writeRunnableEntityArguments : list wi :=
  [WIf (CNonEmpty [GM "getArguments"])
     [WSub (TLit "ARGUMENTS")
        [WFor [GM "getArguments"]
           [WIf (CInst [] ["RunnableEntityArgument"])
              [WCall "setRunnableEntityArgument" None []]
              [WFail NotImplementedError true]]]]
     []].
(** arxml_writer.py:3154-3165 *)
Definition w_writeRunnableEntityWaitPoints : list wi :=
  [WIf (CNonEmpty [GM "getWaitPoints"])
     [WSub (TLit "WAIT-POINTS")
        [WFor [GM "getWaitPoints"]
           [WIf (CInst [] ["WaitPoint"])
              [WSub (TLit "WAIT-POINT")
                 [WCall "writeIdentifiable" None [];
                  WLeaf WText (TLit "TIMEOUT") [GM "getTimeout"];
                  WLeaf WRef (TLit "TRIGGER") [GM "getTriggerRef"]]]
              [WFail NotImplementedError true]]]]
     []].
(** arxml_writer.py:3167-3174 *)
Definition w_writeRunnableEntityAsynchronousServerCallResultPoint : list wi :=
  [WIf (CNonEmpty [GM "getAsynchronousServerCallResultPoints"])
     [WSub (TLit "ASYNCHRONOUS-SERVER-CALL-RESULT-POINTS")
        [WFor [GM "getAsynchronousServerCallResultPoints"]
           [WSub (TLit "ASYNCHRONOUS-SERVER-CALL-RESULT-POINT")
              [WCall "writeIdentifiable" None [];
               WLeaf WRef (TLit "ASYNCHRONOUS-SERVER-CALL-POINT-REF") [GM "getAsynchronousServerCallPointRef"]]]]]
     []].
(** arxml_writer.py:3176-3196 *)
Definition w_writeRunnableEntity : list wi :=
  [WIf (CSome [])
     [WSub (TLit "RUNNABLE-ENTITY")
        [WCall "writeExecutableEntity" None [];
         WCall "writeRunnableEntityArguments" None [];
         WCall "writeRunnableEntityAsynchronousServerCallResultPoint" None [];
         WLeaf WText (TLit "CAN-BE-INVOKED-CONCURRENTLY") [GM "getCanBeInvokedConcurrently"];
         WCall "writeRunnableEntityDataReadAccesses" None [];
         WCall "writeRunnableEntityDataReceivePointByArguments" None [];
         WCall "writeRunnableEntityDataReceivePointByValues" None [];
         WCall "writeRunnableEntityDataSendPoints" None [];
         WCall "writeRunnableEntityDataWriteAccesses" None [];
         WCall "writeRunnableEntityModeAccessPoints" None [];
         WCall "writeRunnableEntityModeSwitchPoints" None [];
         WCall "writeRunnableEntityExternalTriggeringPoints" None [];
         WCall "writeRunnableEntityParameterAccesses" None [];
         WCall "writeRunnableEntityReadLocalVariables" None [];
         WCall "writeRunnableEntityServerCallPoints" None [];
         WLeaf WText (TLit "SYMBOL") [GA "symbol"];
         WCall "writeRunnableEntityWaitPoints" None [];
         WCall "writeRunnableEntityWrittenLocalVariable" None []]]
     []].
(** arxml_writer.py:3198-3206 *)
Definition w_writeSwcInternalBehaviorRunnables : list wi :=
  [WIf (CNonEmpty [GM "getRunnableEntities"])
     [WSub (TLit "RUNNABLES")
        [WFor [GM "getRunnableEntities"]
           [WIf (CInst [] ["RunnableEntity"])
              [WCall "writeRunnableEntity" None []]
              [WFail NotImplementedError true]]]]
     []].
(** arxml_writer.py:3208-3216 *)
Definition w_writeSwcInternalBehaviorArTypedPerInstanceMemories : list wi :=
  [WIf (CNonEmpty [GM "getArTypedPerInstanceMemories"])
     [WSub (TLit "AR-TYPED-PER-INSTANCE-MEMORYS")
        [WFor [GM "getArTypedPerInstanceMemories"]
           [WIf (CInst [] ["VariableDataPrototype"])
              [WCall "writeVariableDataPrototype" None []]
              [WFail NotImplementedError true]]]]
     []].
(** arxml_writer.py:3218-3226 *)
Definition w_writeSwcInternalBehaviorExplicitInterRunnableVariables : list wi :=
  [WIf (CNonEmpty [GM "getExplicitInterRunnableVariables"])
     [WSub (TLit "EXPLICIT-INTER-RUNNABLE-VARIABLES")
        [WFor [GM "getExplicitInterRunnableVariables"]
           [WIf (CInst [] ["VariableDataPrototype"])
              [WCall "writeVariableDataPrototype" None []]
              [WFail NotImplementedError true]]]]
     []].
(** arxml_writer.py:3228-3238 *)
Definition w_writeSwcInternalBehaviorPerInstanceMemories : list wi :=
  [WIf (CNonEmpty [GM "getPerInstanceMemories"])
     [WSub (TLit "PER-INSTANCE-MEMORYS")
        [WFor [GM "getPerInstanceMemories"]
           [WSub (TLit "PER-INSTANCE-MEMORY")
              [WCall "writeIdentifiable" None [];
               WLeaf WText (TLit "INIT-VALUE") [GM "getInitValue"];
               WCall "setSwDataDefProps" (Some (TLit "SW-DATA-DEF-PROPS")) [GM "getSwDataDefProps"];
               WLeaf WText (TLit "TYPE") [GM "getType"];
               WLeaf WText (TLit "TYPE-DEFINITION") [GM "getTypeDefinition"]]]]]
     []].
(** arxml_writer.py:3240-3243 *)
Definition w_writeParameterDataPrototype : list wi :=
  [WSub (TLit "PARAMETER-DATA-PROTOTYPE")
     [WCall "writeAutosarDataPrototype" None [];
      WCall "setChildValueSpecification" (Some (TLit "INIT-VALUE")) [GM "getInitValue"]]].
(** arxml_writer.py:3245-3249 *)
Definition w_writeSwcInternalBehaviorParameterDataPrototypes : list wi :=
  [WIf (CNonEmpty [])
     [WSub TKey
        [WFor []
           [WCall "writeParameterDataPrototype" None []]]]
     []].
(** arxml_writer.py:3251-3270 *)
Definition w_writeVariationPointProxy : list wi :=
  [WSub (TLit "VARIATION-POINT-PROXY")
     [WCall "writeIdentifiable" None [];
      WCall "writeConditionByFormula" (Some (TLit "CONDITION-ACCESS")) [GM "getConditionAccess"];
      WLeaf WRef (TLit "IMPLEMENTATION-DATA-TYPE-REF") [GM "getImplementationDataTypeRef"];
      WLeaf WRef (TLit "POST-BUILD-VALUE-ACCESS-REF") [GM "getPostBuildValueAccessRef"];
      WIf (CNonEmpty [GM "getPostBuildVariantConditions"])
        [WSub (TLit "POST-BUILD-VARIANT-CONDITIONS")
           [WFor [GM "getPostBuildVariantConditions"]
              [WCall "writePostBuildVariantCondition" None []]]]
        [];
      WIf (CSome [GM "getValueAccess"])
        [WSub (TLit "VALUE-ACCESS")
           [WIf (CType [GM "getValueAccess"] "LimitValueVariationPoint")
              [WSub (TLit "LIMIT")
                 [WCall "writeAttributeValueVariationPoint" None [GM "getValueAccess"]]]
              [WIf (CType [GM "getValueAccess"] "NumericalValueVariationPoint")
                 [WSub (TLit "NUMERICAL-VALUE-VARIATION-POINT")
                    [WCall "writeAttributeValueVariationPoint" None [GM "getValueAccess"]]]
                 [WIf (CType [GM "getValueAccess"] "BooleanValueVariationPoint")
                    [WSub (TLit "BOOLEAN-VALUE-VARIATION-POINT")
                       [WCall "writeAttributeValueVariationPoint" None [GM "getValueAccess"]]]
                    [WIf (CType [GM "getValueAccess"] "FloatValueVariationPoint")
                       [WSub (TLit "FLOAT-VALUE-VARIATION-POINT")
                          [WCall "writeAttributeValueVariationPoint" None [GM "getValueAccess"]]]
                       [WIf (CType [GM "getValueAccess"] "IntegerValueVariationPoint")
                          [WSub (TLit "INTEGER-VALUE-VARIATION-POINT")
                             [WCall "writeAttributeValueVariationPoint" None [GM "getValueAccess"]]]
                          [WIf (CType [GM "getValueAccess"] "PositiveIntegerValueVariationPoint")
                             [WSub (TLit "POSITIVE-INTEGER-VALUE-VARIATION-POINT")
                                [WCall "writeAttributeValueVariationPoint" None [GM "getValueAccess"]]]
                             [WIf (CType [GM "getValueAccess"] "TimeValueValueVariationPoint")
                                [WSub (TLit "TIME-VALUE-VARIATION-POINT")
                                   [WCall "writeAttributeValueVariationPoint" None [GM "getValueAccess"]]]
                                [WIf (CType [GM "getValueAccess"] "UnlimitedIntegerValueVariationPoint")
                                   [WSub (TLit "UNLIMITED-INTEGER-VALUE-VARIATION-POINT")
                                      [WCall "writeAttributeValueVariationPoint" None [GM "getValueAccess"]]]
                                   []]]]]]]]];
         WIf (CType [GM "getValueAccess"] "LimitValueVariationPoint")
           []
           [WIf (CType [GM "getValueAccess"] "NumericalValueVariationPoint")
              []
              [WIf (CType [GM "getValueAccess"] "BooleanValueVariationPoint")
                 []
                 [WIf (CType [GM "getValueAccess"] "FloatValueVariationPoint")
                    []
                    [WIf (CType [GM "getValueAccess"] "IntegerValueVariationPoint")
                       []
                       [WIf (CType [GM "getValueAccess"] "PositiveIntegerValueVariationPoint")
                          []
                          [WIf (CType [GM "getValueAccess"] "TimeValueValueVariationPoint")
                             []
                             [WIf (CType [GM "getValueAccess"] "UnlimitedIntegerValueVariationPoint")
                                []
                                [WFail NotImplementedError true]]]]]]]]]
        []]].
(** arxml_writer.py:3272-3300 *)
Definition w_writeAttributeValueVariationPoint : list wi :=
  [WAttrs [];
   WIf (CSome [GM "getBindingTime"])
     [WXMap "BINDING-TIME" binding_time_xml_map [GM "getBindingTime"; GM "getValue"]]
     [];
   WIf (CSome [GM "getBlueprintValue"])
     [WXAttr "BLUEPRINT-VALUE" [GM "getBlueprintValue"; GM "getValue"]]
     [];
   WIf (CSome [GM "getSd"])
     [WXAttr "SD" [GM "getSd"; GM "getValue"]]
     [];
   WIf (CSome [GM "getShortLabel"])
     [WXAttr "SHORT-LABEL" [GM "getShortLabel"; GM "getValue"]]
     [];
   WIf (CInst [] ["LimitValueVariationPoint"])
     [WIf (CSome [GM "getIntervalType"])
        [WXMap "INTERVAL-TYPE" interval_type_xml_map [GM "getIntervalType"; GM "getValue"]]
        []]
     [];
   WIf (CSome [GM "getText"])
     [WSetText [GM "getText"]]
     []].
(** arxml_writer.py:3302-3307 *)
Definition w_writeSwcInternalBehaviorVariationPointProxies : list wi :=
  [WIf (CNonEmpty [GM "getVariationPointProxies"])
     [WSub (TLit "VARIATION-POINT-PROXYS")
        [WFor [GM "getVariationPointProxies"]
           [WCall "writeVariationPointProxy" None []]]]
     []].
(** arxml_writer.py:3309-3316 *)
Definition w_writePortDefinedArgumentValues : list wi :=
  [WIf (CNonEmpty [])
     [WSub (TLit "PORT-ARG-VALUES")
        [WFor []
           [WSub (TLit "PORT-DEFINED-ARGUMENT-VALUE")
              [WIf (CSome [GM "getValue"])
                 [WCall "setChildValueSpecification" (Some (TLit "VALUE")) [GM "getValue"]]
                 [];
               WLeaf WRef (TLit "VALUE-TYPE-TREF") [GM "getValueTypeTRef"]]]]]
     []].
(** arxml_writer.py:3318-3328 *)
Definition w_writeSwcInternalBehaviorPortAPIOptions : list wi :=
  [WIf (CNonEmpty [GM "getPortAPIOptions"])
     [WSub (TLit "PORT-API-OPTIONS")
        [WFor [GM "getPortAPIOptions"]
           [WSub (TLit "PORT-API-OPTION")
              [WLeaf WText (TLit "ENABLE-TAKE-ADDRESS") [GM "getEnableTakeAddress"];
               WLeaf WText (TLit "ERROR-HANDLING") [GM "getErrorHandling"];
               WLeaf WText (TLit "INDIRECT-API") [GM "getIndirectAPI"];
               WCall "writePortDefinedArgumentValues" None [GM "getPortArgValues"];
               WLeaf WRef (TLit "PORT-REF") [GM "getPortRef"]]]]]
     []].
(** arxml_writer.py:3330-3333 *)
Definition w_writeRoleBasedDataTypeAssignment : list wi :=
  [WSub (TLit "ROLE-BASED-DATA-TYPE-ASSIGNMENT")
     [WLeaf WText (TLit "ROLE") [GA "role"];
      WLeaf WRef (TLit "USED-IMPLEMENTATION-DATA-TYPE-REF") [GA "usedImplementationDataTypeRef"]]].
(** arxml_writer.py:3335-3343 *)
Definition w_writeServiceDependencyAssignedDataType : list wi :=
  [WIf (CNonEmpty [GM "getAssignedDataTypes"])
     [WSub (TLit "ASSIGNED-DATA-TYPES")
        [WFor [GM "getAssignedDataTypes"]
           [WIf (CInst [] ["RoleBasedDataTypeAssignment"])
              [WCall "writeRoleBasedDataTypeAssignment" None []]
              [WFail NotImplementedError true]]]]
     []].
(** arxml_writer.py:3345-3348 *)
Definition w_writeServiceDependency : list wi :=
  [WCall "writeIdentifiable" None [];
   WCall "writeServiceDependencyAssignedDataType" None [];
   WCall "writeSymbolicNameProps" None []].
(** arxml_writer.py:3350-3355 *)
Definition w_writeSymbolicNameProps : list wi :=
  [WIf (CNot (CSome [GM "getSymbolicNameProps"]))
     []
     [WSub (TLit "SYMBOLIC-NAME-PROPS")
        [WCall "writeImplementationProps" None [GM "getSymbolicNameProps"]]]].
(** arxml_writer.py:3357-3359 *)
Definition w_writeBswServiceDependencyIdent : list wi :=
  [WSub (TLit "IDENT")
     [WCall "writeIdentifiable" None []]].
(** arxml_writer.py:3361-3365 *)
Definition w_writeRoleBasedBswModuleEntryAssignment : list wi :=
  [WSub (TLit "ROLE-BASED-BSW-MODULE-ENTRY-ASSIGNMENT")
     [WAttrs [];
      WLeaf WRef (TLit "ASSIGNED-ENTRY-REF") [GM "getAssignedEntryRef"];
      WLeaf WText (TLit "ROLE") [GM "getRole"]]].
(** arxml_writer.py:3367-3375 *)
Definition w_writeBswServiceDependencyAssignedData : list wi :=
  [WIf (CNonEmpty [GM "getAssignedData"])
     [WSub (TLit "ASSIGNED-DATAS")
        [WFor [GM "getAssignedData"]
           [WIf (CInst [] ["RoleBasedDataAssignment"])
              [WCall "writeRoleBasedDataAssignment" None []]
              [WFail NotImplementedError true]]]]
     []].
(** arxml_writer.py:3377-3385 *)
Definition w_writeBswServiceDependencyAssignedEntryRoles : list wi :=
  [WIf (CNonEmpty [GM "getAssignedEntryRole"])
     [WSub (TLit "ASSIGNED-ENTRY-ROLES")
        [WFor [GM "getAssignedEntryRole"]
           [WIf (CInst [] ["RoleBasedBswModuleEntryAssignment"])
              [WCall "writeRoleBasedBswModuleEntryAssignment" None []]
              [WFail NotImplementedError true]]]]
     []].
(** arxml_writer.py:3387-3453 *)
Definition w_writeBswServiceDependencyServiceNeeds : list wi :=
  [WIf (CNot (CSome [GM "getServiceNeeds"]))
     []
     [WSub (TLit "SERVICE-NEEDS")
        [WIf (CInst [GM "getServiceNeeds"] ["BswMgrNeeds"])
           [WCall "writeBswMgrNeeds" None [GM "getServiceNeeds"]]
           [WIf (CInst [GM "getServiceNeeds"] ["NvBlockNeeds"])
              [WCall "writeNvBlockNeeds" None [GM "getServiceNeeds"]]
              [WIf (CInst [GM "getServiceNeeds"] ["DiagnosticCommunicationManagerNeeds"])
                 [WCall "writeDiagnosticCommunicationManagerNeeds" None [GM "getServiceNeeds"]]
                 [WIf (CInst [GM "getServiceNeeds"] ["DiagnosticRoutineNeeds"])
                    [WCall "writeDiagnosticRoutineNeeds" None [GM "getServiceNeeds"]]
                    [WIf (CInst [GM "getServiceNeeds"] ["DiagnosticValueNeeds"])
                       [WCall "writeDiagnosticValueNeeds" None [GM "getServiceNeeds"]]
                       [WIf (CInst [GM "getServiceNeeds"] ["DiagnosticEventNeeds"])
                          [WCall "writeDiagnosticEventNeeds" None [GM "getServiceNeeds"]]
                          [WIf (CInst [GM "getServiceNeeds"] ["DiagnosticEventInfoNeeds"])
                             [WCall "writeDiagnosticEventInfoNeeds" None [GM "getServiceNeeds"]]
                             [WIf (CInst [GM "getServiceNeeds"] ["DiagnosticIoControlNeeds"])
                                [WCall "writeDiagnosticIoControlNeeds" None [GM "getServiceNeeds"]]
                                [WIf (CInst [GM "getServiceNeeds"] ["DiagnosticEnableConditionNeeds"])
                                   [WCall "writeDiagnosticEnableConditionNeeds" None [GM "getServiceNeeds"]]
                                   [WIf (CInst [GM "getServiceNeeds"] ["DiagnosticOperationCycleNeeds"])
                                      [WCall "writeDiagnosticOperationCycleNeeds" None [GM "getServiceNeeds"]]
                                      [WIf (CInst [GM "getServiceNeeds"] ["DiagnosticStorageConditionNeeds"])
                                         [WCall "writeDiagnosticStorageConditionNeeds" None [GM "getServiceNeeds"]]
                                         [WIf (CInst [GM "getServiceNeeds"] ["IndicatorStatusNeeds"])
                                            [WCall "writeIndicatorStatusNeeds" None [GM "getServiceNeeds"]]
                                            [WIf (CInst [GM "getServiceNeeds"] ["FunctionInhibitionAvailabilityNeeds"])
                                               [WCall "writeFunctionInhibitionAvailabilityNeeds" None [GM "getServiceNeeds"]]
                                               [WIf (CInst [GM "getServiceNeeds"] ["CryptoServiceNeeds"])
                                                  [WCall "writeCryptoServiceNeeds" None [GM "getServiceNeeds"]]
                                                  [WIf (CInst [GM "getServiceNeeds"] ["EcuStateMgrUserNeeds"])
                                                     [WCall "writeEcuStateMgrUserNeeds" None [GM "getServiceNeeds"]]
                                                     [WIf (CInst [GM "getServiceNeeds"] ["DtcStatusChangeNotificationNeeds"])
                                                        [WCall "writeDtcStatusChangeNotificationNeeds" None [GM "getServiceNeeds"]]
                                                        [WIf (CInst [GM "getServiceNeeds"] ["DltUserNeeds"])
                                                           [WCall "writeDltUserNeeds" None [GM "getServiceNeeds"]]
                                                           [WIf (CInst [GM "getServiceNeeds"] ["ComMgrUserNeeds"])
                                                              [WCall "writeComMgrUserNeeds" None [GM "getServiceNeeds"]]
                                                              [WIf (CInst [GM "getServiceNeeds"] ["SupervisedEntityNeeds"])
                                                                 [WCall "writeSupervisedEntityNeeds" None [GM "getServiceNeeds"]]
                                                                 [WIf (CInst [GM "getServiceNeeds"] ["ErrorTracerNeeds"])
                                                                    [WCall "writeErrorTracerNeeds" None [GM "getServiceNeeds"]]
                                                                    [WIf (CInst [GM "getServiceNeeds"] ["ObdInfoServiceNeeds"])
                                                                       [WCall "writeObdInfoServiceNeeds" None [GM "getServiceNeeds"]]
                                                                       [WIf (CInst [GM "getServiceNeeds"] ["ObdMonitorServiceNeeds"])
                                                                          [WCall "writeObdMonitorServiceNeeds" None [GM "getServiceNeeds"]]
                                                                          [WIf (CInst [GM "getServiceNeeds"] ["ObdPidServiceNeeds"])
                                                                             [WCall "writeObdPidServiceNeeds" None [GM "getServiceNeeds"]]
                                                                             [WIf (CInst [GM "getServiceNeeds"] ["ObdControlServiceNeeds"])
                                                                                [WCall "writeObdControlServiceNeeds" None [GM "getServiceNeeds"]]
                                                                                [WIf (CInst [GM "getServiceNeeds"] ["ObdRatioServiceNeeds"])
                                                                                   [WCall "writeObdRatioServiceNeeds" None [GM "getServiceNeeds"]]
                                                                                   [WIf (CInst [GM "getServiceNeeds"] ["ObdRatioDenominatorNeeds"])
                                                                                      [WCall "writeObdRatioDenominatorNeeds" None [GM "getServiceNeeds"]]
                                                                                      [WIf (CInst [GM "getServiceNeeds"] ["DoIpRoutingActivationAuthenticationNeeds"])
                                                                                         [WCall "writeDoIpRoutingActivationAuthenticationNeeds" None [GM "getServiceNeeds"]]
                                                                                         [WIf (CInst [GM "getServiceNeeds"] ["DoIpRoutingActivationConfirmationNeeds"])
                                                                                            [WCall "writeDoIpRoutingActivationConfirmationNeeds" None [GM "getServiceNeeds"]]
                                                                                            [WIf (CInst [GM "getServiceNeeds"] ["SecureOnBoardCommunicationNeeds"])
                                                                                               [WCall "writeSecureOnBoardCommunicationNeeds" None [GM "getServiceNeeds"]]
                                                                                               [WIf (CInst [GM "getServiceNeeds"] ["IdsMgrNeeds"])
                                                                                                  [WCall "writeIdsMgrNeeds" None [GM "getServiceNeeds"]]
                                                                                                  [WFail NotImplementedError true]]]]]]]]]]]]]]]]]]]]]]]]]]]]]]]]].
(** arxml_writer.py:3455-3465 *)
Definition w_writeBswServiceDependency : list wi :=
  [WSub (TLit "BSW-SERVICE-DEPENDENCY")
     [WAttrs [];
      WIf (CSome [GM "getIdent"])
        [WCall "writeBswServiceDependencyIdent" None [GM "getIdent"]]
        [];
      WCall "writeServiceDependencyAssignedDataType" None [];
      WCall "writeBswServiceDependencyAssignedData" None [];
      WCall "writeBswServiceDependencyAssignedEntryRoles" None [];
      WCall "writeBswServiceDependencyServiceNeeds" None [];
      WCall "writeSymbolicNameProps" None []]].
(** arxml_writer.py:3467-3475 *)
Definition w_writeBswInternalBehaviorServiceDependencies : list wi :=
  [WIf (CNonEmpty [GM "getServiceDependencies"])
     [WSub (TLit "SERVICE-DEPENDENCYS")
        [WFor [GM "getServiceDependencies"]
           [WIf (CInst [] ["BswServiceDependency"])
              [WCall "writeBswServiceDependency" None []]
              [WFail NotImplementedError true]]]]
     []].
(** arxml_writer.py:3477-3482 *)
Definition w_writeRoleBasedDataAssignment : list wi :=
  [WSub (TLit "ROLE-BASED-DATA-ASSIGNMENT")
     [WLeaf WText (TLit "ROLE") [GA "role"];
      WCall "setAutosarVariableRef" (Some (TLit "USED-DATA-ELEMENT")) [GM "getUsedDataElement"];
      WCall "setAutosarParameterRef" (Some (TLit "USED-PARAMETER-ELEMENT")) [GM "getUsedParameterElement"];
      WLeaf WRef (TLit "USED-PIM-REF") [GM "getUsedPimRef"]]].
(** arxml_writer.py:3484-3488 *)
Definition w_writeRoleBasedPortAssignment : list wi :=
  [WSub (TLit "ROLE-BASED-PORT-ASSIGNMENT")
     [WAttrs [];
      WLeaf WRef (TLit "PORT-PROTOTYPE-REF") [GA "portPrototypeRef"];
      WLeaf WText (TLit "ROLE") [GA "role"]]].
(** arxml_writer.py:3490-3498 *)
Definition w_writeSwcServiceDependencyAssignedData : list wi :=
  [WIf (CNonEmpty [GM "getAssignedData"])
     [WSub (TLit "ASSIGNED-DATAS")
        [WFor [GM "getAssignedData"]
           [WIf (CInst [] ["RoleBasedDataAssignment"])
              [WCall "writeRoleBasedDataAssignment" None []]
              [WFail NotImplementedError true]]]]
     []].
(** arxml_writer.py:3500-3508 *)
Definition w_writeSwcServiceDependencyAssignedPorts : list wi :=
  [WIf (CNonEmpty [GM "getAssignedPorts"])
     [WSub (TLit "ASSIGNED-PORTS")
        [WFor [GM "getAssignedPorts"]
           [WIf (CInst [] ["RoleBasedPortAssignment"])
              [WCall "writeRoleBasedPortAssignment" None []]
              [WFail NotImplementedError true]]]]
     []].
(** arxml_writer.py:3510-3511 *)
Definition w_writeServiceNeeds : list wi :=
  [WCall "writeIdentifiable" None []].
(** arxml_writer.py:3513-3515 *)
Definition w_writeBswMgrNeeds : list wi :=
  [WSub (TLit "BSW-MGR-NEEDS")
     [WCall "writeServiceNeeds" None []]].
(** arxml_writer.py:3517-3539 *)
Definition w_writeNvBlockNeeds : list wi :=
  [WSub (TLit "NV-BLOCK-NEEDS")
     [WCall "writeServiceNeeds" None [];
      WLeaf WText (TLit "CALC-RAM-BLOCK-CRC") [GM "getCalcRamBlockCrc"];
      WLeaf WText (TLit "CHECK-STATIC-BLOCK-ID") [GM "getCheckStaticBlockId"];
      WLeaf WNum (TLit "N-DATA-SETS") [GM "getNDataSets"];
      WLeaf WNum (TLit "N-ROM-BLOCKS") [GM "getNRomBlocks"];
      WLeaf WText (TLit "RAM-BLOCK-STATUS-CONTROL") [GM "getRamBlockStatusControl"];
      WLeaf WText (TLit "READONLY") [GM "getReadonly"];
      WLeaf WText (TLit "RELIABILITY") [GM "getReliability"];
      WLeaf WText (TLit "RESISTANT-TO-CHANGED-SW") [GM "getResistantToChangedSw"];
      WLeaf WText (TLit "RESTORE-AT-START") [GM "getRestoreAtStart"];
      WLeaf WText (TLit "STORE-AT-SHUTDOWN") [GM "getStoreAtShutdown"];
      WLeaf WText (TLit "STORE-CYCLIC") [GM "getStoreCyclic"];
      WLeaf WText (TLit "STORE-EMERGENCY") [GM "getStoreEmergency"];
      WLeaf WText (TLit "STORE-IMMEDIATE") [GM "getStoreImmediate"];
      WLeaf WText (TLit "USE-AUTO-VALIDATION-AT-SHUT-DOWN") [GM "getUseAutoValidationAtShutDown"];
      WLeaf WText (TLit "USE-CRC-COMP-MECHANISM") [GM "getUseCRCCompMechanism"];
      WLeaf WText (TLit "WRITE-ONLY-ONCE") [GM "getWriteOnlyOnce"];
      WLeaf WText (TLit "WRITE-VERIFICATION") [GM "getWriteVerification"];
      WLeaf WNum (TLit "WRITING-FREQUENCY") [GM "getWritingFrequency"];
      WLeaf WText (TLit "WRITING-PRIORITY") [GM "getWritingPriority"]]].
(** arxml_writer.py:3541-3542 *)
Definition w_writeDiagnosticCapabilityElement : list wi :=
  [WCall "writeServiceNeeds" None []].
(** arxml_writer.py:3544-3548 *)
Definition w_writeDiagnosticCommunicationManagerNeeds : list wi :=
  [WSub (TLit "DIAGNOSTIC-COMMUNICATION-MANAGER-NEEDS")
     [WCall "writeDiagnosticCapabilityElement" None [];
      WLeaf WText (TLit "SERVICE-REQUEST-CALLBACK-TYPE") [GM "getServiceRequestCallbackType"]]].
(** arxml_writer.py:3550-3555 *)
Definition w_writeDiagnosticRoutineNeeds : list wi :=
  [WSub (TLit "DIAGNOSTIC-ROUTINE-NEEDS")
     [WCall "writeDiagnosticCapabilityElement" None [];
      WLeaf WText (TLit "DIAG-ROUTINE-TYPE") [GM "getDiagRoutineType"];
      WLeaf WNum (TLit "RID-NUMBER") [GM "getRidNumber"]]].
(** arxml_writer.py:3557-3565 *)
Definition w_writeDiagnosticValueNeeds : list wi :=
  [WSub (TLit "DIAGNOSTIC-VALUE-NEEDS")
     [WCall "writeDiagnosticCapabilityElement" None [];
      WLeaf WNum (TLit "DATA-LENGTH") [GM "getDataLength"];
      WLeaf WText (TLit "DIAGNOSTIC-VALUE-ACCESS") [GM "getDiagnosticValueAccess"];
      WLeaf WNum (TLit "DID-NUMBER") [GM "getDidNumber"];
      WLeaf WText (TLit "FIXED-LENGTH") [GM "getFixedLength"];
      WLeaf WText (TLit "PROCESSING-STYLE") [GM "getProcessingStyle"]]].
(** arxml_writer.py:3567-3570 *)
Definition w_writeObdInfoServiceNeeds : list wi :=
  [WSub (TLit "OBD-INFO-SERVICE-NEEDS")
     [WCall "writeDiagnosticCapabilityElement" None []]].
(** arxml_writer.py:3572-3579 *)
Definition w_writeObdMonitorServiceNeeds : list wi :=
  [WSub (TLit "OBD-MONITOR-SERVICE-NEEDS")
     [WCall "writeDiagnosticCapabilityElement" None [];
      WLeaf WRef (TLit "APPLICATION-DATA-TYPE-REF") [GM "getApplicationDataTypeRef"];
      WLeaf WRef (TLit "EVENT-NEEDS-REF") [GM "getEventNeedsRef"];
      WLeaf WNum (TLit "UNIT-AND-SCALING-ID") [GM "getUnitAndScalingId"];
      WLeaf WText (TLit "UPDATE-KIND") [GM "getUpdateKind"]]].
(** arxml_writer.py:3581-3584 *)
Definition w_writeObdPidServiceNeeds : list wi :=
  [WSub (TLit "OBD-PID-SERVICE-NEEDS")
     [WCall "writeDiagnosticCapabilityElement" None []]].
(** arxml_writer.py:3586-3589 *)
Definition w_writeObdControlServiceNeeds : list wi :=
  [WSub (TLit "OBD-CONTROL-SERVICE-NEEDS")
     [WCall "writeDiagnosticCapabilityElement" None []]].
(** arxml_writer.py:3591-3597 *)
Definition w_writeObdRatioServiceNeeds : list wi :=
  [WSub (TLit "OBD-RATIO-SERVICE-NEEDS")
     [WCall "writeDiagnosticCapabilityElement" None [];
      WLeaf WText (TLit "CONNECTION-TYPE") [GM "getConnectionType"];
      WLeaf WRef (TLit "RATE-BASED-MONITORED-EVENT-REF") [GM "getRateBasedMonitoredEventRef"];
      WLeaf WRef (TLit "USED-FID-REF") [GM "getUsedFidRef"]]].
(** arxml_writer.py:3599-3603 *)
Definition w_writeObdRatioDenominatorNeeds : list wi :=
  [WSub (TLit "OBD-RATIO-DENOMINATOR-NEEDS")
     [WCall "writeServiceNeeds" None [];
      WLeaf WText (TLit "DENOMINATOR-CONDITION") [GM "getDenominatorCondition"]]].
(** arxml_writer.py:3605-3611 *)
Definition w_writeDoIpRoutingActivationAuthenticationNeeds : list wi :=
  [WSub (TLit "DO-IP-ROUTING-ACTIVATION-AUTHENTICATION-NEEDS")
     [WCall "writeServiceNeeds" None [];
      WLeaf WNum (TLit "DATA-LENGTH-REQUEST") [GM "getDataLengthRequest"];
      WLeaf WNum (TLit "DATA-LENGTH-RESPONSE") [GM "getDataLengthResponse"];
      WLeaf WText (TLit "ROUTING-ACTIVATION-TYPE") [GM "getRoutingActivationType"]]].
(** arxml_writer.py:3613-3619 *)
Definition w_writeDoIpRoutingActivationConfirmationNeeds : list wi :=
  [WSub (TLit "DO-IP-ROUTING-ACTIVATION-CONFIRMATION-NEEDS")
     [WCall "writeServiceNeeds" None [];
      WLeaf WNum (TLit "DATA-LENGTH-REQUEST") [GM "getDataLengthRequest"];
      WLeaf WNum (TLit "DATA-LENGTH-RESPONSE") [GM "getDataLengthResponse"];
      WLeaf WText (TLit "ROUTING-ACTIVATION-TYPE") [GM "getRoutingActivationType"]]].
(** arxml_writer.py:3621-3625 *)
Definition w_writeSecureOnBoardCommunicationNeeds : list wi :=
  [WSub (TLit "SECURE-ON-BOARD-COMMUNICATION-NEEDS")
     [WCall "writeServiceNeeds" None [];
      WLeaf WText (TLit "VERIFICATION-STATUS-INDICATION-MODE") [GM "getVerificationStatusIndicationMode"]]].
(** arxml_writer.py:3627-3631 *)
Definition w_writeIdsMgrNeeds : list wi :=
  [WSub (TLit "IDS-MGR-NEEDS")
     [WCall "writeServiceNeeds" None [];
      WLeaf WText (TLit "USE-SMART-SENSOR-API") [GM "getUseSmartSensorApi"]]].
(** arxml_writer.py:3633-3635 *)
Definition w_setDiagEventDebounceCounterBased : list wi :=
  [WSub (TLit "DIAG-EVENT-DEBOUNCE-COUNTER-BASED")
     [WCall "writeDiagnosticCapabilityElement" None []]].
(** arxml_writer.py:3637-3639 *)
Definition w_setDiagEventDebounceMonitorInternal : list wi :=
  [WSub (TLit "DIAG-EVENT-DEBOUNCE-MONITOR-INTERNAL")
     [WCall "writeDiagnosticCapabilityElement" None []]].
(** arxml_writer.py:3641-3643 *)
Definition w_setDiagEventDebounceTimeBased : list wi :=
  [WSub (TLit "DIAG-EVENT-DEBOUNCE-TIME-BASED")
     [WCall "writeDiagnosticCapabilityElement" None []]].
(** arxml_writer.py:3645-3656 *)
Definition w_writeDiagEventDebounceAlgorithm : list wi :=
  [WIf (CSome [GM "getDiagEventDebounceAlgorithm"])
     [WSub (TLit "DIAG-EVENT-DEBOUNCE-ALGORITHM")
        [WIf (CInst [GM "getDiagEventDebounceAlgorithm"] ["DiagEventDebounceCounterBased"])
           [WCall "setDiagEventDebounceCounterBased" None [GM "getDiagEventDebounceAlgorithm"]]
           [WIf (CInst [GM "getDiagEventDebounceAlgorithm"] ["DiagEventDebounceMonitorInternal"])
              [WCall "setDiagEventDebounceMonitorInternal" None [GM "getDiagEventDebounceAlgorithm"]]
              [WIf (CInst [GM "getDiagEventDebounceAlgorithm"] ["DiagEventDebounceTimeBased"])
                 [WCall "setDiagEventDebounceTimeBased" None [GM "getDiagEventDebounceAlgorithm"]]
                 [WFail NotImplementedError true]]]]]
     []].
(** arxml_writer.py:3658-3675 *)
Definition w_writeDiagnosticEventNeeds : list wi :=
  [WSub (TLit "DIAGNOSTIC-EVENT-NEEDS")
     [WCall "writeDiagnosticCapabilityElement" None [];
      WIf (CNonEmpty [GM "getDeferringFidRefs"])
        [WSub (TLit "DEFERRING-FID-REFS")
           [WFor [GM "getDeferringFidRefs"]
              [WLeaf WRef (TLit "DEFERRING-FID-REF") []]]]
        [];
      WCall "writeDiagEventDebounceAlgorithm" None [];
      WLeaf WRef (TLit "INHIBITING-FID-REF") [GM "getInhibitingFidRef"];
      WIf (CNonEmpty [GM "getInhibitingSecondaryFidRefs"])
        [WSub (TLit "INHIBITING-SECONDARY-FID-REFS")
           [WFor [GM "getInhibitingSecondaryFidRefs"]
              [WLeaf WRef (TLit "INHIBITING-SECONDARY-FID-REF") []]]]
        [];
      WLeaf WText (TLit "PRESTORED-FREEZEFRAME-STORED-IN-NVM") [GM "getPrestoredFreezeframeStoredInNvm"];
      WLeaf WText (TLit "USES-MONITOR-DATA") [GM "getUsesMonitorData"]]].
(** arxml_writer.py:3677-3682 *)
Definition w_writeDiagnosticEventInfoNeeds : list wi :=
  [WSub (TLit "DIAGNOSTIC-EVENT-INFO-NEEDS")
     [WCall "writeDiagnosticCapabilityElement" None [];
      WLeaf WText (TLit "DTC-KIND") [GM "getDtcKind"];
      WLeaf WNum (TLit "UDS-DTC-NUMBER") [GM "getUdsDtcNumber"]]].
(** arxml_writer.py:3684-3691 *)
Definition w_writeDiagnosticIoControlNeeds : list wi :=
  [WSub (TLit "DIAGNOSTIC-IO-CONTROL-NEEDS")
     [WCall "writeDiagnosticCapabilityElement" None [];
      WLeaf WRef (TLit "CURRENT-VALUE-REF") [GM "getCurrentValueRef"];
      WLeaf WText (TLit "FREEZE-CURRENT-STATE-SUPPORTED") [GM "getFreezeCurrentStateSupported"];
      WLeaf WText (TLit "RESET-TO-DEFAULT-SUPPORTED") [GM "getResetToDefaultSupported"];
      WLeaf WText (TLit "SHORT-TERM-ADJUSTMENT-SUPPORTED") [GM "getShortTermAdjustmentSupported"]]].
(** arxml_writer.py:3693-3697 *)
Definition w_writeDiagnosticEnableConditionNeeds : list wi :=
  [WSub (TLit "DIAGNOSTIC-ENABLE-CONDITION-NEEDS")
     [WCall "writeDiagnosticCapabilityElement" None [];
      WLeaf WText (TLit "INITIAL-STATUS") [GM "getInitialStatus"]]].
(** arxml_writer.py:3699-3703 *)
Definition w_writeDiagnosticOperationCycleNeeds : list wi :=
  [WSub (TLit "DIAGNOSTIC-OPERATION-CYCLE-NEEDS")
     [WCall "writeDiagnosticCapabilityElement" None [];
      WLeaf WText (TLit "OPERATION-CYCLE") [GM "getOperationCycle"]]].
(** arxml_writer.py:3705-3709 *)
Definition w_writeDiagnosticStorageConditionNeeds : list wi :=
  [WSub (TLit "DIAGNOSTIC-STORAGE-CONDITION-NEEDS")
     [WCall "writeDiagnosticCapabilityElement" None [];
      WLeaf WText (TLit "INITIAL-STATUS") [GM "getInitialStatus"]]].
(** arxml_writer.py:3711-3715 *)
Definition w_writeIndicatorStatusNeeds : list wi :=
  [WSub (TLit "INDICATOR-STATUS-NEEDS")
     [WCall "writeServiceNeeds" None [];
      WLeaf WText (TLit "TYPE") [GM "getType"]]].
(** arxml_writer.py:3717-3721 *)
Definition w_writeFunctionInhibitionAvailabilityNeeds : list wi :=
  [WSub (TLit "FUNCTION-INHIBITION-AVAILABILITY-NEEDS")
     [WCall "writeServiceNeeds" None [];
      WLeaf WRef (TLit "CONTROLLED-FID-REF") [GM "getControlledFidRef"]]].
(** arxml_writer.py:3723-3727 *)
Definition w_writeCryptoServiceNeeds : list wi :=
  [WSub (TLit "CRYPTO-SERVICE-NEEDS")
     [WCall "writeServiceNeeds" None [];
      WLeaf WNum (TLit "MAXIMUM-KEY-LENGTH") [GM "getMaximumKeyLength"]]].
(** arxml_writer.py:3729-3732 *)
Definition w_writeEcuStateMgrUserNeeds : list wi :=
  [WSub (TLit "ECU-STATE-MGR-USER-NEEDS")
     [WCall "writeServiceNeeds" None []]].
(** arxml_writer.py:3734-3738 *)
Definition w_writeDtcStatusChangeNotificationNeeds : list wi :=
  [WSub (TLit "DTC-STATUS-CHANGE-NOTIFICATION-NEEDS")
     [WCall "writeDiagnosticCapabilityElement" None [];
      WLeaf WText (TLit "DTC-FORMAT-TYPE") [GM "getDtcFormatType"]]].
(** arxml_writer.py:3740-3743 *)
Definition w_writeDltUserNeeds : list wi :=
  [WSub (TLit "DLT-USER-NEEDS")
     [WCall "writeServiceNeeds" None []]].
(** arxml_writer.py:3745-3749 *)
Definition w_writeComMgrUserNeeds : list wi :=
  [WSub (TLit "COM-MGR-USER-NEEDS")
     [WCall "writeServiceNeeds" None [];
      WLeaf WText (TLit "MAX-COMM-MODE") [GM "getMaxCommMode"]]].
(** arxml_writer.py:3751-3765 *)
Definition w_writeSupervisedEntityNeeds : list wi :=
  [WSub (TLit "SUPERVISED-ENTITY-NEEDS")
     [WCall "writeServiceNeeds" None [];
      WLeaf WText (TLit "ACTIVATE-AT-START") [GM "getActivateAtStart"];
      WIf (CNonEmpty [GM "getCheckpointsRefs"])
        [WSub (TLit "CHECKPOINTSS")
           [WFor [GM "getCheckpointsRefs"]
              [WSub (TLit "SUPERVISED-ENTITY-CHECKPOINT-NEEDS-REF-CONDITIONAL")
                 [WLeaf WRef (TLit "SUPERVISED-ENTITY-CHECKPOINT-NEEDS-REF") []]]]]
        [];
      WLeaf WText (TLit "ENABLE-DEACTIVATION") [GM "getEnableDeactivation"];
      WLeaf WText (TLit "EXPECTED-ALIVE-CYCLE") [GM "getExpectedAliveCycle"];
      WLeaf WText (TLit "MAX-ALIVE-CYCLE") [GM "getMaxAliveCycle"];
      WLeaf WText (TLit "MIN-ALIVE-CYCLE") [GM "getMinAliveCycle"];
      WLeaf WNum (TLit "TOLERATED-FAILED-CYCLES") [GM "getToleratedFailedCycles"]]].
(** arxml_writer.py:3767-3769 *)
Definition w_writeTracedFailure : list wi :=
  [WCall "writeIdentifiable" None [];
   WLeaf WNum (TLit "ID") [GM "getId"]].
(** arxml_writer.py:3771-3773 *)
Definition w_setDevelopmentError : list wi :=
  [WSub (TLit "DEVELOPMENT-ERROR")
     [WCall "writeTracedFailure" None []]].
(** arxml_writer.py:3775-3777 *)
Definition w_setRuntimeError : list wi :=
  [WSub (TLit "RUNTIME-ERROR")
     [WCall "writeTracedFailure" None []]].
(** arxml_writer.py:3779-3782 *)
Definition w_setPossibleErrorReaction : list wi :=
  [WSub (TLit "POSSIBLE-ERROR-REACTION")
     [WCall "writeIdentifiable" None [];
      WLeaf WNum (TLit "REACTION-CODE") [GM "getReactionCode"]]].
(** arxml_writer.py:3784-3791 *)
Definition w_setTransientFault : list wi :=
  [WSub (TLit "TRANSIENT-FAULT")
     [WCall "writeTracedFailure" None [];
      WIf (CNonEmpty [GM "getPossibleErrorReactions"])
        [WSub (TLit "POSSIBLE-ERROR-REACTIONS")
           [WFor [GM "getPossibleErrorReactions"]
              [WCall "setPossibleErrorReaction" None []]]]
        []]].
(** arxml_writer.py:3793-3808 *)
Definition w_writeErrorTracerNeeds : list wi :=
  [WSub (TLit "ERROR-TRACER-NEEDS")
     [WCall "writeServiceNeeds" None [];
      WIf (CNonEmpty [GM "getTracedFailures"])
        [WSub (TLit "TRACED-FAILURES")
           [WFor [GM "getTracedFailures"]
              [WIf (CInst [] ["DevelopmentError"])
                 [WCall "setDevelopmentError" None []]
                 [WIf (CInst [] ["RuntimeError"])
                    [WCall "setRuntimeError" None []]
                    [WIf (CInst [] ["TransientFault"])
                       [WCall "setTransientFault" None []]
                       [WFail NotImplementedError true]]]]]]
        []]].
(** arxml_writer.py:3810-3872 *)
Definition w_writeSwcServiceDependencyServiceNeeds : list wi :=
  [WIf (CNonEmpty [GM "getServiceNeeds"])
     [WSub (TLit "SERVICE-NEEDS")
        [WFor [GM "getServiceNeeds"]
           [WIf (CInst [] ["NvBlockNeeds"])
              [WCall "writeNvBlockNeeds" None []]
              [WIf (CInst [] ["DiagnosticCommunicationManagerNeeds"])
                 [WCall "writeDiagnosticCommunicationManagerNeeds" None []]
                 [WIf (CInst [] ["DiagnosticRoutineNeeds"])
                    [WCall "writeDiagnosticRoutineNeeds" None []]
                    [WIf (CInst [] ["DiagnosticValueNeeds"])
                       [WCall "writeDiagnosticValueNeeds" None []]
                       [WIf (CInst [] ["DiagnosticEventNeeds"])
                          [WCall "writeDiagnosticEventNeeds" None []]
                          [WIf (CInst [] ["DiagnosticEventInfoNeeds"])
                             [WCall "writeDiagnosticEventInfoNeeds" None []]
                             [WIf (CInst [] ["DiagnosticIoControlNeeds"])
                                [WCall "writeDiagnosticIoControlNeeds" None []]
                                [WIf (CInst [] ["DiagnosticEnableConditionNeeds"])
                                   [WCall "writeDiagnosticEnableConditionNeeds" None []]
                                   [WIf (CInst [] ["DiagnosticOperationCycleNeeds"])
                                      [WCall "writeDiagnosticOperationCycleNeeds" None []]
                                      [WIf (CInst [] ["DiagnosticStorageConditionNeeds"])
                                         [WCall "writeDiagnosticStorageConditionNeeds" None []]
                                         [WIf (CInst [] ["IndicatorStatusNeeds"])
                                            [WCall "writeIndicatorStatusNeeds" None []]
                                            [WIf (CInst [] ["FunctionInhibitionAvailabilityNeeds"])
                                               [WCall "writeFunctionInhibitionAvailabilityNeeds" None []]
                                               [WIf (CInst [] ["CryptoServiceNeeds"])
                                                  [WCall "writeCryptoServiceNeeds" None []]
                                                  [WIf (CInst [] ["EcuStateMgrUserNeeds"])
                                                     [WCall "writeEcuStateMgrUserNeeds" None []]
                                                     [WIf (CInst [] ["DtcStatusChangeNotificationNeeds"])
                                                        [WCall "writeDtcStatusChangeNotificationNeeds" None []]
                                                        [WIf (CInst [] ["DltUserNeeds"])
                                                           [WCall "writeDltUserNeeds" None []]
                                                           [WIf (CInst [] ["ComMgrUserNeeds"])
                                                              [WCall "writeComMgrUserNeeds" None []]
                                                              [WIf (CInst [] ["ErrorTracerNeeds"])
                                                                 [WCall "writeErrorTracerNeeds" None []]
                                                                 [WIf (CInst [] ["ObdInfoServiceNeeds"])
                                                                    [WCall "writeObdInfoServiceNeeds" None []]
                                                                    [WIf (CInst [] ["ObdMonitorServiceNeeds"])
                                                                       [WCall "writeObdMonitorServiceNeeds" None []]
                                                                       [WIf (CInst [] ["ObdPidServiceNeeds"])
                                                                          [WCall "writeObdPidServiceNeeds" None []]
                                                                          [WIf (CInst [] ["ObdControlServiceNeeds"])
                                                                             [WCall "writeObdControlServiceNeeds" None []]
                                                                             [WIf (CInst [] ["ObdRatioServiceNeeds"])
                                                                                [WCall "writeObdRatioServiceNeeds" None []]
                                                                                [WIf (CInst [] ["ObdRatioDenominatorNeeds"])
                                                                                   [WCall "writeObdRatioDenominatorNeeds" None []]
                                                                                   [WIf (CInst [] ["DoIpRoutingActivationAuthenticationNeeds"])
                                                                                      [WCall "writeDoIpRoutingActivationAuthenticationNeeds" None []]
                                                                                      [WIf (CInst [] ["DoIpRoutingActivationConfirmationNeeds"])
                                                                                         [WCall "writeDoIpRoutingActivationConfirmationNeeds" None []]
                                                                                         [WIf (CInst [] ["SecureOnBoardCommunicationNeeds"])
                                                                                            [WCall "writeSecureOnBoardCommunicationNeeds" None []]
                                                                                            [WIf (CInst [] ["IdsMgrNeeds"])
                                                                                               [WCall "writeIdsMgrNeeds" None []]
                                                                                               [WFail NotImplementedError true]]]]]]]]]]]]]]]]]]]]]]]]]]]]]]]
     []].
(** arxml_writer.py:3874-3875 *)
Definition w_writeSwcServiceDependencyRepresentedPortGroup : list wi :=
  [WLeaf WRef (TLit "REPRESENTED-PORT-GROUP-REF") [GM "getRepresentedPortGroup"]].
(** arxml_writer.py:3877-3883 *)
Definition w_writeSwcServiceDependency : list wi :=
  [WSub (TLit "SWC-SERVICE-DEPENDENCY")
     [WCall "writeServiceDependency" None [];
      WCall "writeSwcServiceDependencyAssignedData" None [];
      WCall "writeSwcServiceDependencyAssignedPorts" None [];
      WCall "writeSwcServiceDependencyServiceNeeds" None [];
      WCall "writeSwcServiceDependencyRepresentedPortGroup" None []]].
(** arxml_writer.py:3885-3893 *)
Definition w_writeSwcInternalBehaviorServiceDependencies : list wi :=
  [WIf (CNonEmpty [GM "getSwcServiceDependencies"])
     [WSub (TLit "SERVICE-DEPENDENCYS")
        [WFor [GM "getSwcServiceDependencies"]
           [WIf (CInst [] ["SwcServiceDependency"])
              [WCall "writeSwcServiceDependency" None []]
              [WFail NotImplementedError true]]]]
     []].
(** arxml_writer.py:3895-3906 *)
Definition w_setIncludedDataTypeSets : list wi :=
  [WIf (CNonEmpty [])
     [WSub (TLit "INCLUDED-DATA-TYPE-SETS")
        [WFor []
           [WSub (TLit "INCLUDED-DATA-TYPE-SET")
              [WAttrs [];
               WLeaf WText (TLit "LITERAL-PREFIX") [GM "getLiteralPrefix"];
               WIf (CNonEmpty [GM "getDataTypeRefs"])
                 [WSub (TLit "DATA-TYPE-REFS")
                    [WFor [GM "getDataTypeRefs"]
                       [WLeaf WRef (TLit "DATA-TYPE-REF") []]]]
                 []]]]]
     []].
(** arxml_writer.py:3908-3916 *)
Definition w_writeIncludedModeDeclarationGroupSet : list wi :=
  [WIf (CSome [])
     [WSub (TLit "INCLUDED-MODE-DECLARATION-GROUP-SET")
        [WIf (CNonEmpty [GM "getModeDeclarationGroupRefs"])
           [WSub (TLit "MODE-DECLARATION-GROUP-REFS")
              [WFor [GM "getModeDeclarationGroupRefs"]
                 [WLeaf WRef (TLit "MODE-DECLARATION-GROUP-REF") []]]]
           [];
         WLeaf WText (TLit "PREFIX") [GM "getPrefix"]]]
     []].
(** arxml_writer.py:3918-3926 *)
Definition w_writeSwcInternalBehaviorIncludedModeDeclarationGroupSets : list wi :=
  [WIf (CNonEmpty [GM "getIncludedModeDeclarationGroupSets"])
     [WSub (TLit "INCLUDED-MODE-DECLARATION-GROUP-SETS")
        [WFor [GM "getIncludedModeDeclarationGroupSets"]
           [WIf (CInst [] ["IncludedModeDeclarationGroupSet"])
              [WCall "writeIncludedModeDeclarationGroupSet" None []]
              [WFail NotImplementedError true]]]]
     []].
(** arxml_writer.py:3928-3936 *)
Definition w_writeSwcInternalBehaviorExclusiveAreaPolicies : list wi :=
  [WIf (CNonEmpty [GM "getExclusiveAreaPolicies"])
     [WSub (TLit "EXCLUSIVE-AREA-POLICYS")
        [WFor [GM "getExclusiveAreaPolicies"]
           [WIf (CInst [] ["SwcExclusiveAreaPolicy"])
              [WSub (TLit "SWC-EXCLUSIVE-AREA-POLICY")
                 [WLeaf WText (TLit "API-PRINCIPLE") [GM "getApiPrinciple"];
                  WLeaf WRef (TLit "EXCLUSIVE-AREA-REF") [GM "getExclusiveAreaRef"]]]
              []]]]
     []].
(** arxml_writer.py:3938-3949 *)
Definition w_writeSwcInternalBehaviorInstantiationDataDefProps : list wi :=
  [WIf (CNonEmpty [GM "getInstantiationDataDefPropss"])
     [WSub (TLit "INSTANTIATION-DATA-DEF-PROPSS")
        [WFor [GM "getInstantiationDataDefPropss"]
           [WIf (CInst [] ["InstantiationDataDefProps"])
              [WSub (TLit "INSTANTIATION-DATA-DEF-PROPS")
                 [WCall "setAutosarParameterRef" (Some (TLit "PARAMETER-INSTANCE")) [GM "getParameterInstance"];
                  WCall "setSwDataDefProps" (Some (TLit "SW-DATA-DEF-PROPS")) [GM "getSwDataDefProps"];
                  WCall "setAutosarVariableRef" (Some (TLit "VARIABLE-INSTANCE")) [GM "getVariableInstance"]]]
              [WFail NotImplementedError true]]]]
     []].
(** arxml_writer.py:3951-3971 *)
Definition w_writeSwcInternalBehavior : list wi :=
  [WSub (TLit "SWC-INTERNAL-BEHAVIOR")
     [WCall "writeInternalBehavior" None [];
      WCall "writeSwcInternalBehaviorArTypedPerInstanceMemories" None [];
      WCall "writeSwcInternalBehaviorExclusiveAreaPolicies" None [];
      WCall "writeSwcInternalBehaviorEvents" None [];
      WCall "writeSwcInternalBehaviorExplicitInterRunnableVariables" None [];
      WLeaf WText (TLit "HANDLE-TERMINATION-AND-RESTART") [GM "getHandleTerminationAndRestart"];
      WCall "setIncludedDataTypeSets" None [GM "getIncludedDataTypeSets"];
      WCall "writeSwcInternalBehaviorIncludedModeDeclarationGroupSets" None [];
      WCall "writeSwcInternalBehaviorInstantiationDataDefProps" None [];
      WCall "writeSwcInternalBehaviorPerInstanceMemories" None [];
      WCall "writeSwcInternalBehaviorParameterDataPrototypes" (Some (TLit "PER-INSTANCE-PARAMETERS")) [GM "getPerInstanceParameters"];
      WCall "writeSwcInternalBehaviorPortAPIOptions" None [];
      WCall "writeSwcInternalBehaviorRunnables" None [];
      WCall "writeSwcInternalBehaviorServiceDependencies" None [];
      WCall "writeSwcInternalBehaviorParameterDataPrototypes" (Some (TLit "SHARED-PARAMETERS")) [GM "getSharedParameters"];
      WCall "writeSwcInternalBehaviorVariationPointProxies" None [];
      WLeaf WText (TLit "SUPPORTS-MULTIPLE-INSTANTIATION") [GM "getSupportsMultipleInstantiation"]]].
(** arxml_writer.py:3973-3979 *)
Definition w_writeAtomicSwComponentTypeInternalBehaviors : list wi :=
  [WIf (CSome [])
     [WSub (TLit "INTERNAL-BEHAVIORS")
        [WIf (CInst [] ["SwcInternalBehavior"])
           [WCall "writeSwcInternalBehavior" None []]
           [WFail NotImplementedError true]]]
     []].
(** arxml_writer.py:3981-3984 *)
Definition w_writeAtomicSwComponentType : list wi :=
  [WCall "writeSwComponentType" None [];
   WCall "writeAtomicSwComponentTypeInternalBehaviors" None [GM "getInternalBehavior"];
   WCall "writeSymbolProps" None [GM "getSymbolProps"]].
(** arxml_writer.py:3986-3990 *)
Definition w_writeComplexDeviceDriverSwComponentType : list wi :=
  [WSub (TLit "COMPLEX-DEVICE-DRIVER-SW-COMPONENT-TYPE")
     [WCall "writeAtomicSwComponentType" None [];
      WCall "writeHardwareElementRefs" None [GM "getHardwareElementRefs"]]].
(** arxml_writer.py:3992-3996 *)
Definition w_writeHardwareElementRefs : list wi :=
  [WIf (CNonEmpty [])
     [WSub (TLit "HARDWARE-ELEMENT-REFS")
        [WFor []
           [WLeaf WRef (TLit "HARDWARE-ELEMENT-REF") []]]]
     []].
(** arxml_writer.py:3998-4007 *)
Definition w_writeArtifactDescriptors : list wi :=
  [WIf (CNonEmpty [GM "getArtifactDescriptors"])
     [WSub (TLit "ARTIFACT-DESCRIPTORS")
        [WFor [GM "getArtifactDescriptors"]
           [WSub (TLit "AUTOSAR-ENGINEERING-OBJECT")
              [WAttrs [];
               WLeaf WText (TLit "SHORT-LABEL") [GM "getShortLabel"];
               WLeaf WText (TLit "CATEGORY") [GM "getCategory"]]]]]
     []].
(** arxml_writer.py:4009-4014 *)
Definition w_writeCode : list wi :=
  [WSub (TLit "CODE")
     [WCall "writeIdentifiable" None [];
      WCall "writeArtifactDescriptor" None [];
      WCall "writeCodeCallbackHeaderRefs" None []]].
(** arxml_writer.py:4016-4021 *)
Definition w_writeCodeCallbackHeaderRefs : list wi :=
  [WIf (CNonEmpty [GM "getCallbackHeaderRefs"])
     [WSub (TLit "CALLBACK-HEADER-REFS")
        [WFor [GM "getCallbackHeaderRefs"]
           [WLeaf WRef (TLit "CALLBACK-HEADER-REF") []]]]
     []].
(** arxml_writer.py:4023-4031 *)
Definition w_writeCodeDescriptors : list wi :=
  [WIf (CNonEmpty [GM "getCodeDescriptors"])
     [WSub (TLit "CODE-DESCRIPTORS")
        [WFor [GM "getCodeDescriptors"]
           [WIf (CInst [] ["Code"])
              [WCall "writeCode" None []]
              [WFail NotImplementedError true]]]]
     []].
(** arxml_writer.py:4033-4037 *)
Definition w_setMemorySectionOptions : list wi :=
  [WIf (CNonEmpty [])
     [WSub (TLit "OPTIONS")
        [WFor []
           [WLeaf WText (TLit "OPTION") []]]]
     []].
(** arxml_writer.py:4039-4044 *)
Definition w_writeMemorySectionExecutableEntityRefs : list wi :=
  [WIf (CNonEmpty [GM "getExecutableEntityRefs"])
     [WSub (TLit "EXECUTABLE-ENTITY-REFS")
        [WFor [GM "getExecutableEntityRefs"]
           [WLeaf WRef (TLit "EXECUTABLE-ENTITY-REF") []]]]
     []].
(** arxml_writer.py:4046-4061 *)
Definition w_writeMemorySections : list wi :=
  [WIf (CNonEmpty [GM "getMemorySections"])
     [WSub (TLit "MEMORY-SECTIONS")
        [WFor [GM "getMemorySections"]
           [WSub (TLit "MEMORY-SECTION")
              [WCall "writeIdentifiable" None [];
               WLeaf WText (TLit "ALIGNMENT") [GM "getAlignment"];
               WCall "writeMemorySectionExecutableEntityRefs" None [];
               WLeaf WText (TLit "MEM-CLASS-SYMBOL") [GM "getMemClassSymbol"];
               WCall "setMemorySectionOptions" None [GM "getOptions"];
               WLeaf WRef (TLit "PREFIX-REF") [GM "getPrefixRef"];
               WLeaf WNum (TLit "SIZE") [GM "getSize"];
               WLeaf WRef (TLit "SW-ADDRMETHOD-REF") [GM "getSwAddrMethodRef"];
               WLeaf WText (TLit "SYMBOL") [GM "getSymbol"]]]]]
     []].
(** arxml_writer.py:4063-4067 *)
Definition w_setMultidimensionalTime : list wi :=
  [WIf (CSome [])
     [WSub TKey
        [WLeaf WText (TLit "CSE-CODE") [GM "getCseCode"];
         WLeaf WNum (TLit "CSE-CODE-FACTOR") [GM "getCseCodeFactor"]]]
     []].
(** arxml_writer.py:4069-4074 *)
Definition w_setHardwareConfiguration : list wi :=
  [WIf (CSome [])
     [WSub (TLit "HARDWARE-CONFIGURATION")
        [WLeaf WText (TLit "ADDITIONAL-INFORMATION") [GM "getAdditionalInformation"];
         WLeaf WText (TLit "PROCESSOR-MODE") [GM "getProcessorMode"];
         WLeaf WText (TLit "PROCESSOR-SPEED") [GM "getProcessorSpeed"]]]
     []].
(** arxml_writer.py:4076-4080 *)
Definition w_setSoftwareContext : list wi :=
  [WIf (CSome [])
     [WSub (TLit "SOFTWARE-CONTEXT")
        [WLeaf WText (TLit "INPUT") [GM "getInput"];
         WLeaf WText (TLit "STATE") [GM "getState"]]]
     []].
(** arxml_writer.py:4082-4100 *)
Definition w_writeExecutionTime : list wi :=
  [WCall "writeIdentifiable" None [];
   WLeaf WRef (TLit "EXCLUSIVE-AREA-REF") [GM "getExclusiveAreaRef"];
   WLeaf WRef (TLit "EXECUTABLE-ENTITY-REF") [GM "getExecutableEntityRef"];
   WCall "setHardwareConfiguration" None [GM "getHardwareConfiguration"];
   WLeaf WRef (TLit "HW-ELEMENT-REF") [GM "getHwElementRef"];
   WIf (CNonEmpty [GM "getIncludedLibraryRefs"])
     [WSub (TLit "INCLUDED-LIBRARY-REFS")
        [WFor [GM "getIncludedLibraryRefs"]
           [WLeaf WRef (TLit "INCLUDED-LIBRARY-REF") []]]]
     [];
   WIf (CNonEmpty [GM "getMemorySectionLocations"])
     [WSub (TLit "MEMORY-SECTION-LOCATIONS")
        [WFor [GM "getMemorySectionLocations"]
           [WSub (TLit "MEMORY-SECTION-LOCATION")
              [WLeaf WRef (TLit "PROVIDED-MEMORY-REF") [GM "getProvidedMemoryRef"];
               WLeaf WRef (TLit "SOFTWARE-MEMORY-SECTION-REF") [GM "getSoftwareMemorySectionRef"]]]]]
     [];
   WCall "setSoftwareContext" None [GM "getSoftwareContext"]].
(** arxml_writer.py:4102-4106 *)
Definition w_writeAnalyzedExecutionTime : list wi :=
  [WSub (TLit "ANALYZED-EXECUTION-TIME")
     [WCall "writeExecutionTime" None [];
      WCall "setMultidimensionalTime" (Some (TLit "BEST-CASE-EXECUTION-TIME")) [GM "getBestCaseExecutionTime"];
      WCall "setMultidimensionalTime" (Some (TLit "WORST-CASE-EXECUTION-TIME")) [GM "getWorstCaseExecutionTime"]]].
(** arxml_writer.py:4108-4113 *)
Definition w_writeMeasuredExecutionTime : list wi :=
  [WSub (TLit "MEASURED-EXECUTION-TIME")
     [WCall "writeExecutionTime" None [];
      WCall "setMultidimensionalTime" (Some (TLit "MAXIMUM-EXECUTION-TIME")) [GM "getMaximumExecutionTime"];
      WCall "setMultidimensionalTime" (Some (TLit "MINIMUM-EXECUTION-TIME")) [GM "getMinimumExecutionTime"];
      WCall "setMultidimensionalTime" (Some (TLit "NOMINAL-EXECUTION-TIME")) [GM "getNominalExecutionTime"]]].
(** arxml_writer.py:4115-4120 *)
Definition w_writeSimulatedExecutionTime : list wi :=
  [WSub (TLit "SIMULATED-EXECUTION-TIME")
     [WCall "writeExecutionTime" None [];
      WCall "setMultidimensionalTime" (Some (TLit "MAXIMUM-EXECUTION-TIME")) [GM "getMaximumExecutionTime"];
      WCall "setMultidimensionalTime" (Some (TLit "MINIMUM-EXECUTION-TIME")) [GM "getMinimumExecutionTime"];
      WCall "setMultidimensionalTime" (Some (TLit "NOMINAL-EXECUTION-TIME")) [GM "getNominalExecutionTime"]]].
(** arxml_writer.py:4122-4126 *)
Definition w_writeRoughEstimateOfExecutionTime : list wi :=
  [WSub (TLit "ROUGH-ESTIMATE-OF-EXECUTION-TIME")
     [WCall "writeExecutionTime" None [];
      WLeaf WText (TLit "ADDITIONAL-INFORMATION") [GM "getAdditionalInformation"];
      WCall "setMultidimensionalTime" (Some (TLit "ESTIMATED-EXECUTION-TIME")) [GM "getEstimatedExecutionTime"]]].
(** arxml_writer.py:4128-4141 *)
Definition w_writeExecutionTimes : list wi :=
  [WIf (CNonEmpty [])
     [WSub (TLit "EXECUTION-TIMES")
        [WFor []
           [WIf (CInst [] ["AnalyzedExecutionTime"])
              [WCall "writeAnalyzedExecutionTime" None []]
              [WIf (CInst [] ["MeasuredExecutionTime"])
                 [WCall "writeMeasuredExecutionTime" None []]
                 [WIf (CInst [] ["RoughEstimateOfExecutionTime"])
                    [WCall "writeRoughEstimateOfExecutionTime" None []]
                    [WIf (CInst [] ["SimulatedExecutionTime"])
                       [WCall "writeSimulatedExecutionTime" None []]
                       [WFail NotImplementedError true]]]]]]]
     []].
(** arxml_writer.py:4143-4147 *)
Definition w_writeHeapUsage : list wi :=
  [WCall "writeIdentifiable" None [];
   WCall "setHardwareConfiguration" None [GM "getHardwareConfiguration"];
   WLeaf WRef (TLit "HW-ELEMENT-REF") [GM "getHwElementRef"];
   WCall "setSoftwareContext" None [GM "getSoftwareContext"]].
(** arxml_writer.py:4149-4155 *)
Definition w_writeMeasuredHeapUsage : list wi :=
  [WSub (TLit "MEASURED-HEAP-USAGE")
     [WCall "writeHeapUsage" None [];
      WLeaf WNum (TLit "AVERAGE-MEMORY-CONSUMPTION") [GM "getAverageMemoryConsumption"];
      WLeaf WNum (TLit "MAXIMUM-MEMORY-CONSUMPTION") [GM "getMaximumMemoryConsumption"];
      WLeaf WNum (TLit "MINIMUM-MEMORY-CONSUMPTION") [GM "getMinimumMemoryConsumption"];
      WLeaf WText (TLit "TEST-PATTERN") [GM "getTestPattern"]]].
(** arxml_writer.py:4157-4160 *)
Definition w_writeRoughEstimateHeapUsage : list wi :=
  [WSub (TLit "ROUGH-ESTIMATE-HEAP-USAGE")
     [WCall "writeHeapUsage" None [];
      WLeaf WNum (TLit "MEMORY-CONSUMPTION") [GM "getMemoryConsumption"]]].
(** arxml_writer.py:4162-4165 *)
Definition w_writeWorstCaseHeapUsage : list wi :=
  [WSub (TLit "WORST-CASE-HEAP-USAGE")
     [WCall "writeHeapUsage" None [];
      WLeaf WNum (TLit "MEMORY-CONSUMPTION") [GM "getMemoryConsumption"]]].
(** arxml_writer.py:4167-4178 *)
Definition w_writeHeapUsages : list wi :=
  [WIf (CNonEmpty [])
     [WSub (TLit "HEAP-USAGES")
        [WFor []
           [WIf (CInst [] ["MeasuredHeapUsage"])
              [WCall "writeMeasuredHeapUsage" None []]
              [WIf (CInst [] ["RoughEstimateHeapUsage"])
                 [WCall "writeRoughEstimateHeapUsage" None []]
                 [WIf (CInst [] ["WorstCaseHeapUsage"])
                    [WCall "writeWorstCaseHeapUsage" None []]
                    [WFail NotImplementedError true]]]]]]
     []].
(** arxml_writer.py:4180-4186 *)
Definition w_writeSectionNamePrefixes : list wi :=
  [WIf (CNonEmpty [])
     [WSub (TLit "SECTION-NAME-PREFIXS")
        [WFor []
           [WSub (TLit "SECTION-NAME-PREFIX")
              [WCall "writeReferrable" None [];
               WLeaf WRef (TLit "IMPLEMENTED-IN-REF") [GM "getImplementedInRef"]]]]]
     []].
(** arxml_writer.py:4188-4200 *)
Definition w_writeAccessCountSets : list wi :=
  [WIf (CNonEmpty [])
     [WSub (TLit "ACCESS-COUNT-SETS")
        [WFor []
           [WSub (TLit "ACCESS-COUNT-SET")
              [WLeaf WText (TLit "COUNT-PROFILE") [GM "getCountProfile"];
               WIf (CNonEmpty [GM "getAccessCounts"])
                 [WSub (TLit "ACCESS-COUNTS")
                    [WFor [GM "getAccessCounts"]
                       [WSub (TLit "ACCESS-COUNT")
                          [WLeaf WRef (TLit "ACCESS-POINT-REF") [GM "getAccessPointRef"];
                           WLeaf WNum (TLit "VALUE") [GM "getValue"]]]]]
                 []]]]]
     []].
(** arxml_writer.py:4202-4208 *)
Definition w_setStackUsage : list wi :=
  [WCall "writeIdentifiable" None [];
   WLeaf WRef (TLit "EXECUTABLE-ENTITY-REF") [GM "getExecutableEntityRef"];
   WCall "setHardwareConfiguration" None [GM "getHardwareConfiguration"];
   WLeaf WRef (TLit "HW-ELEMENT-REF") [GM "getHwElementRef"];
   WCall "setSoftwareContext" None [GM "getSoftwareContext"]].
(** arxml_writer.py:4210-4214 *)
Definition w_setRoughEstimateStackUsage : list wi :=
  [WIf (CSome [])
     [WSub (TLit "ROUGH-ESTIMATE-STACK-USAGE")
        [WCall "setStackUsage" None [];
         WLeaf WNum (TLit "MEMORY-CONSUMPTION") [GM "getMemoryConsumption"]]]
     []].
(** arxml_writer.py:4216-4223 *)
Definition w_setMeasuredStackUsage : list wi :=
  [WIf (CSome [])
     [WSub (TLit "MEASURED-STACK-USAGE")
        [WCall "setStackUsage" None [];
         WLeaf WNum (TLit "AVERAGE-MEMORY-CONSUMPTION") [GM "getAverageMemoryConsumption"];
         WLeaf WNum (TLit "MAXIMUM-MEMORY-CONSUMPTION") [GM "getMaximumMemoryConsumption"];
         WLeaf WNum (TLit "MINIMUM-MEMORY-CONSUMPTION") [GM "getMinimumMemoryConsumption"];
         WLeaf WText (TLit "TEST-PATTERN") [GM "getTestPattern"]]]
     []].
(** arxml_writer.py:4225-4229 *)
Definition w_setWorstCaseStackUsage : list wi :=
  [WIf (CSome [])
     [WSub (TLit "WORST-CASE-STACK-USAGE")
        [WCall "setStackUsage" None [];
         WLeaf WNum (TLit "MEMORY-CONSUMPTION") [GM "getMemoryConsumption"]]]
     []].
(** arxml_writer.py:4231-4242 *)
Definition w_writeStackUsages : list wi :=
  [WIf (CNonEmpty [])
     [WSub (TLit "STACK-USAGES")
        [WFor []
           [WIf (CInst [] ["RoughEstimateStackUsage"])
              [WCall "setRoughEstimateStackUsage" None []]
              [WIf (CInst [] ["MeasuredStackUsage"])
                 [WCall "setMeasuredStackUsage" None []]
                 [WIf (CInst [] ["WorstCaseStackUsage"])
                    [WCall "setWorstCaseStackUsage" None []]
                    [WFail NotImplementedError true]]]]]]
     []].
(** arxml_writer.py:4244-4253 *)
Definition w_setResourceConsumption : list wi :=
  [WIf (CSome [])
     [WSub (TLit "RESOURCE-CONSUMPTION")
        [WCall "writeIdentifiable" None [];
         WCall "writeAccessCountSets" None [GM "getAccessCountSets"];
         WCall "writeExecutionTimes" None [GM "getExecutionTimes"];
         WCall "writeHeapUsages" None [GM "getHeapUsages"];
         WCall "writeMemorySections" None [];
         WCall "writeSectionNamePrefixes" None [GM "getSectionNamePrefixes"];
         WCall "writeStackUsages" None [GM "getStackUsages"]]]
     []].
(** arxml_writer.py:4255-4272 *)
Definition w_writeImplementation : list wi :=
  [WCall "writeIdentifiable" None [];
   WCall "writeImplementationBuildActionManifests" None [];
   WCall "writeCodeDescriptors" None [];
   WCall "writeCompilers" None [];
   WCall "writeDependencyOnArtifacts" (Some (TLit "GENERATED-ARTIFACTS")) [GM "getGeneratedArtifacts"];
   WCall "writeImplementationHwElementRefs" None [];
   WCall "writeLinkers" None [];
   WLeaf WText (TLit "PROGRAMMING-LANGUAGE") [GM "getProgrammingLanguage"];
   WCall "writeDependencyOnArtifacts" (Some (TLit "REQUIRED-ARTIFACTS")) [GM "getRequiredArtifacts"];
   WCall "writeDependencyOnArtifacts" (Some (TLit "REQUIRED-GENERATOR-TOOLS")) [GM "getRequiredGeneratorTools"];
   WCall "setResourceConsumption" None [GM "getResourceConsumption"];
   WLeaf WText (TLit "SW-VERSION") [GM "getSwVersion"];
   WLeaf WRef (TLit "SWC-BSW-MAPPING-REF") [GM "getSwcBswMappingRef"];
   WLeaf WText (TLit "USED-CODE-GENERATOR") [GM "getUsedCodeGenerator"];
   WLeaf WNum (TLit "VENDOR-ID") [GM "getVendorId"];
   WIf (CSome [GM "getMcSupport"])
     [WCall "writeMcSupportData" None [GM "getMcSupport"]]
     []].
(** arxml_writer.py:4274-4298 *)
Definition w_writeMcSupportData : list wi :=
  [WSub (TLit "MC-SUPPORT")
     [WIf (CNonEmpty [GM "getEmulationSupports"])
        [WSub (TLit "EMULATION-SUPPORTS")
           [WFor [GM "getEmulationSupports"]
              [WSub (TLit "MC-SW-EMULATION-METHOD-SUPPORT")
                 [WCall "writeMcSwEmulationMethodSupport" None []]]]]
        [];
      WIf (CNonEmpty [GM "getMcParameterInstances"])
        [WSub (TLit "MC-PARAMETER-INSTANCES")
           [WFor [GM "getMcParameterInstances"]
              [WSub (TLit "MC-DATA-INSTANCE")
                 [WCall "writeMcDataInstance" None []]]]]
        [];
      WIf (CNonEmpty [GM "getMcVariableInstances"])
        [WSub (TLit "MC-VARIABLE-INSTANCES")
           [WFor [GM "getMcVariableInstances"]
              [WSub (TLit "MC-DATA-INSTANCE")
                 [WCall "writeMcDataInstance" None []]]]]
        [];
      WIf (CNonEmpty [GM "getMeasurableSystemConstantValuesRefs"])
        [WSub (TLit "MEASURABLE-SYSTEM-CONSTANT-VALUES-REFS")
           [WFor [GM "getMeasurableSystemConstantValuesRefs"]
              [WLeaf WRef (TLit "MEASURABLE-SYSTEM-CONSTANT-VALUES-REF") []]]]
        [];
      WIf (CSome [GM "getRptSupportData"])
        [WCall "writeRptSupportData" None [GM "getRptSupportData"]]
        []]].
(** arxml_writer.py:4300-4309 *)
Definition w_writeMcSwEmulationMethodSupport : list wi :=
  [WLeaf WText (TLit "SHORT-LABEL") [GM "getShortLabel"];
   WLeaf WText (TLit "CATEGORY") [GM "getCategory"];
   WLeaf WRef (TLit "BASE-REFERENCE-REF") [GM "getBaseReferenceRef"];
   WIf (CNonEmpty [GM "getElementGroups"])
     [WSub (TLit "ELEMENT-GROUPS")
        [WFor [GM "getElementGroups"]
           [WSub (TLit "MC-PARAMETER-ELEMENT-GROUP")
              [WCall "writeMcParameterElementGroup" None []]]]]
     [];
   WLeaf WRef (TLit "REFERENCE-TABLE-REF") [GM "getReferenceTableRef"]].
(** arxml_writer.py:4311-4314 *)
Definition w_writeMcParameterElementGroup : list wi :=
  [WLeaf WText (TLit "SHORT-LABEL") [GM "getShortLabel"];
   WLeaf WRef (TLit "RAM-LOCATION-REF") [GM "getRamLocationRef"];
   WLeaf WRef (TLit "ROM-LOCATION-REF") [GM "getRomLocationRef"]].
(** arxml_writer.py:4316-4319 *)
Definition w_writeRteEventInEcuInstanceRef : list wi :=
  [WLeaf WRef (TLit "CONTEXT-ROOT-COMPOSITION-REF") [GM "getContextRootCompositionRef"];
   WLeaf WRef (TLit "CONTEXT-ATOMIC-COMPONENT-REF") [GM "getContextAtomicComponentRef"];
   WLeaf WRef (TLit "TARGET-RTE-EVENT-REF") [GM "getTargetRteEventRef"]].
(** arxml_writer.py:4321-4324 *)
Definition w_writeVariableAccessInEcuInstanceRef : list wi :=
  [WLeaf WRef (TLit "CONTEXT-ROOT-COMPOSITION-REF") [GM "getContextRootCompositionRef"];
   WLeaf WRef (TLit "CONTEXT-ATOMIC-COMPONENT-REF") [GM "getContextAtomicComponentRef"];
   WLeaf WRef (TLit "TARGET-VARIABLE-ACCESS-REF") [GM "getTargetVariableAccessRef"]].
(** arxml_writer.py:4326-4336 *)
Definition w_writeMcDataAccessDetails : list wi :=
  [WIf (CNonEmpty [GM "getRteEventIRefs"])
     [WSub (TLit "RTE-EVENT-IREFS")
        [WFor [GM "getRteEventIRefs"]
           [WSub (TLit "RTE-EVENT-IREF")
              [WCall "writeRteEventInEcuInstanceRef" None []]]]]
     [];
   WIf (CNonEmpty [GM "getVariableAccessIRefs"])
     [WSub (TLit "VARIABLE-ACCESS-IREFS")
        [WFor [GM "getVariableAccessIRefs"]
           [WSub (TLit "VARIABLE-ACCESS-IREF")
              [WCall "writeVariableAccessInEcuInstanceRef" None []]]]]
     []].
(** arxml_writer.py:4338-4367 *)
Definition w_writeMcDataInstance : list wi :=
  [WCall "writeIdentifiable" None [];
   WLeaf WNum (TLit "ARRAY-SIZE") [GM "getArraySize"];
   WLeaf WText (TLit "DISPLAY-IDENTIFIER") [GM "getDisplayIdentifier"];
   WLeaf WRef (TLit "FLAT-MAP-ENTRY-REF") [GM "getFlatMapEntryRef"];
   WIf (CSome [GM "getInstanceInMemory"])
     [WSub (TLit "INSTANCE-IN-MEMORY")
        [WLeaf WRef (TLit "CONTEXT-REF") [GM "getInstanceInMemory"; GM "getContextRef"];
         WLeaf WRef (TLit "TARGET-REF") [GM "getInstanceInMemory"; GM "getTargetRef"]]]
     [];
   WIf (CSome [GM "getMcDataAccessDetails"])
     [WSub (TLit "MC-DATA-ACCESS-DETAILS")
        [WCall "writeMcDataAccessDetails" None [GM "getMcDataAccessDetails"]]]
     [];
   WIf (CNonEmpty [GM "getMcDataAssignments"])
     [WSub (TLit "MC-DATA-ASSIGNMENTS")
        [WFor [GM "getMcDataAssignments"]
           [WSub (TLit "ROLE-BASED-MC-DATA-ASSIGNMENT")
              [WCall "writeRoleBasedMcDataAssignment" None []]]]]
     [];
   WIf (CSome [GM "getResultingProperties"])
     [WSub (TLit "RESULTING-PROPERTIES") []]
     [];
   WIf (CSome [GM "getResultingRptSwPrototypingAccess"])
     [WSub (TLit "RESULTING-RPT-SW-PROTOTYPING-ACCESS")
        [WCall "writeRptSwPrototypingAccess" None [GM "getResultingRptSwPrototypingAccess"]]]
     [];
   WLeaf WText (TLit "ROLE") [GM "getRole"];
   WIf (CSome [GM "getRptImplPolicy"])
     [WSub (TLit "RPT-IMPL-POLICY")
        [WCall "writeRptImplPolicy" None [GM "getRptImplPolicy"]]]
     [];
   WIf (CNonEmpty [GM "getSubElements"])
     [WSub (TLit "SUB-ELEMENTS")
        [WFor [GM "getSubElements"]
           [WSub (TLit "MC-DATA-INSTANCE")
              [WCall "writeMcDataInstance" None []]]]]
     [];
   WLeaf WText (TLit "SYMBOL") [GM "getSymbol"]].
(** arxml_writer.py:4369-4380 *)
Definition w_writeRoleBasedMcDataAssignment : list wi :=
  [WIf (CNonEmpty [GM "getExecutionContextRefs"])
     [WSub (TLit "EXECUTION-CONTEXT-REFS")
        [WFor [GM "getExecutionContextRefs"]
           [WLeaf WRef (TLit "EXECUTION-CONTEXT-REF") []]]]
     [];
   WIf (CNonEmpty [GM "getMcDataInstanceRefs"])
     [WSub (TLit "MC-DATA-INSTANCE-REFS")
        [WFor [GM "getMcDataInstanceRefs"]
           [WLeaf WRef (TLit "MC-DATA-INSTANCE-REF") []]]]
     [];
   WLeaf WText (TLit "ROLE") [GM "getRole"]].
(** arxml_writer.py:4382-4385 *)
Definition w_writeRptSwPrototypingAccess : list wi :=
  [WLeaf WText (TLit "RPT-HOOK-ACCESS") [GM "getRptHookAccess"];
   WLeaf WText (TLit "RPT-READ-ACCESS") [GM "getRptReadAccess"];
   WLeaf WText (TLit "RPT-WRITE-ACCESS") [GM "getRptWriteAccess"]].
(** arxml_writer.py:4387-4389 *)
Definition w_writeRptImplPolicy : list wi :=
  [WLeaf WText (TLit "RPT-ENABLER-IMPL-TYPE") [GM "getRptEnablerImplType"];
   WLeaf WText (TLit "RPT-PREPARATION-LEVEL") [GM "getRptPreparationLevel"]].
(** arxml_writer.py:4391-4395 *)
Definition w_writeRptExecutableEntityProperties : list wi :=
  [WLeaf WNum (TLit "MAX-RPT-EVENT-ID") [GM "getMaxRptEventId"];
   WLeaf WNum (TLit "MIN-RPT-EVENT-ID") [GM "getMinRptEventId"];
   WLeaf WText (TLit "RPT-EXECUTION-CONTROL") [GM "getRptExecutionControl"];
   WLeaf WText (TLit "RPT-SERVICE-POINT") [GM "getRptServicePoint"]].
(** arxml_writer.py:4397-4400 *)
Definition w_writeRptServicePoint : list wi :=
  [WCall "writeIdentifiable" None [];
   WLeaf WNum (TLit "SERVICE-ID") [GM "getServiceId"];
   WLeaf WText (TLit "SYMBOL") [GM "getSymbol"]].
(** arxml_writer.py:4402-4428 *)
Definition w_writeRptExecutableEntityEvent : list wi :=
  [WCall "writeIdentifiable" None [];
   WIf (CNonEmpty [GM "getExecutionContextRefs"])
     [WSub (TLit "EXECUTION-CONTEXT-REFS")
        [WFor [GM "getExecutionContextRefs"]
           [WLeaf WRef (TLit "EXECUTION-CONTEXT-REF") []]]]
     [];
   WIf (CNonEmpty [GM "getMcDataAssignments"])
     [WSub (TLit "MC-DATA-ASSIGNMENTS")
        [WFor [GM "getMcDataAssignments"]
           [WSub (TLit "ROLE-BASED-MC-DATA-ASSIGNMENT")
              [WCall "writeRoleBasedMcDataAssignment" None []]]]]
     [];
   WLeaf WNum (TLit "RPT-EVENT-ID") [GM "getRptEventId"];
   WIf (CSome [GM "getRptExecutableEntityProperties"])
     [WSub (TLit "RPT-EXECUTABLE-ENTITY-PROPERTIES")
        [WCall "writeRptExecutableEntityProperties" None [GM "getRptExecutableEntityProperties"]]]
     [];
   WIf (CSome [GM "getRptImplPolicy"])
     [WSub (TLit "RPT-IMPL-POLICY")
        [WCall "writeRptImplPolicy" None [GM "getRptImplPolicy"]]]
     [];
   WIf (CNonEmpty [GM "getRptServicePointPostRefs"])
     [WSub (TLit "RPT-SERVICE-POINT-POST-REFS")
        [WFor [GM "getRptServicePointPostRefs"]
           [WLeaf WRef (TLit "RPT-SERVICE-POINT-POST-REF") []]]]
     [];
   WIf (CNonEmpty [GM "getRptServicePointPreRefs"])
     [WSub (TLit "RPT-SERVICE-POINT-PRE-REFS")
        [WFor [GM "getRptServicePointPreRefs"]
           [WLeaf WRef (TLit "RPT-SERVICE-POINT-PRE-REF") []]]]
     []].
(** arxml_writer.py:4430-4447 *)
Definition w_writeRptExecutableEntity : list wi :=
  [WCall "writeIdentifiable" None [];
   WIf (CNonEmpty [GM "getRptExecutableEntityEvents"])
     [WSub (TLit "RPT-EXECUTABLE-ENTITY-EVENTS")
        [WFor [GM "getRptExecutableEntityEvents"]
           [WSub (TLit "RPT-EXECUTABLE-ENTITY-EVENT")
              [WCall "writeRptExecutableEntityEvent" None []]]]]
     [];
   WIf (CNonEmpty [GM "getRptReads"])
     [WSub (TLit "RPT-READS")
        [WFor [GM "getRptReads"]
           [WSub (TLit "ROLE-BASED-MC-DATA-ASSIGNMENT")
              [WCall "writeRoleBasedMcDataAssignment" None []]]]]
     [];
   WIf (CNonEmpty [GM "getRptWrites"])
     [WSub (TLit "RPT-WRITES")
        [WFor [GM "getRptWrites"]
           [WSub (TLit "ROLE-BASED-MC-DATA-ASSIGNMENT")
              [WCall "writeRoleBasedMcDataAssignment" None []]]]]
     [];
   WLeaf WText (TLit "SYMBOL") [GM "getSymbol"]].
(** arxml_writer.py:4449-4462 *)
Definition w_writeRptComponent : list wi :=
  [WCall "writeIdentifiable" None [];
   WIf (CNonEmpty [GM "getMcDataAssignments"])
     [WSub (TLit "MC-DATA-ASSIGNMENTS")
        [WFor [GM "getMcDataAssignments"]
           [WSub (TLit "ROLE-BASED-MC-DATA-ASSIGNMENT")
              [WCall "writeRoleBasedMcDataAssignment" None []]]]]
     [];
   WIf (CSome [GM "getRpImplPolicy"])
     [WSub (TLit "RP-IMPL-POLICY")
        [WCall "writeRptImplPolicy" None [GM "getRpImplPolicy"]]]
     [];
   WIf (CNonEmpty [GM "getRptExecutableEntities"])
     [WSub (TLit "RPT-EXECUTABLE-ENTITYS")
        [WFor [GM "getRptExecutableEntities"]
           [WSub (TLit "RPT-EXECUTABLE-ENTITY")
              [WCall "writeRptExecutableEntity" None []]]]]
     []].
(** arxml_writer.py:4464-4480 *)
Definition w_writeRptSupportData : list wi :=
  [WSub (TLit "RPT-SUPPORT-DATA")
     [WIf (CNonEmpty [GM "getExecutionContexts"])
        [WSub (TLit "EXECUTION-CONTEXTS")
           [WFor [GM "getExecutionContexts"]
              [WSub (TLit "RPT-EXECUTION-CONTEXT")
                 [WCall "writeIdentifiable" None []]]]]
        [];
      WIf (CNonEmpty [GM "getRptComponents"])
        [WSub (TLit "RPT-COMPONENTS")
           [WFor [GM "getRptComponents"]
              [WSub (TLit "RPT-COMPONENT")
                 [WCall "writeRptComponent" None []]]]]
        [];
      WIf (CNonEmpty [GM "getRptServicePoints"])
        [WSub (TLit "RPT-SERVICE-POINTS")
           [WFor [GM "getRptServicePoints"]
              [WSub (TLit "RPT-SERVICE-POINT")
                 [WCall "writeRptServicePoint" None []]]]]
        []]].
(** arxml_writer.py:4482-4487 *)
Definition w_writeImplementationBuildActionManifests : list wi :=
  [WIf (CSome [GM "getBuildActionManifestRef"])
     [WSub (TLit "BUILD-ACTION-MANIFESTS")
        [WSub (TLit "BUILD-ACTION-MANIFEST-REF-CONDITIONAL")
           [WLeaf WRef (TLit "BUILD-ACTION-MANIFEST-REF") [GM "getBuildActionManifestRef"]]]]
     []].
(** arxml_writer.py:4489-4497 *)
Definition w_writeCompilers : list wi :=
  [WIf (CNonEmpty [GM "getCompilers"])
     [WSub (TLit "COMPILERS")
        [WFor [GM "getCompilers"]
           [WIf (CInst [] ["Compiler"])
              [WCall "writeCompiler" None []]
              [WFail NotImplementedError true]]]]
     []].
(** arxml_writer.py:4499-4505 *)
Definition w_writeCompiler : list wi :=
  [WSub (TLit "COMPILER")
     [WCall "writeIdentifiable" None [];
      WLeaf WText (TLit "NAME") [GM "getName"];
      WLeaf WText (TLit "OPTIONS") [GM "getOptions"];
      WLeaf WText (TLit "VENDOR") [GM "getVendor"];
      WLeaf WText (TLit "VERSION") [GM "getVersion"]]].
(** arxml_writer.py:4507-4515 *)
Definition w_writeLinkers : list wi :=
  [WIf (CNonEmpty [GM "getLinkers"])
     [WSub (TLit "LINKERS")
        [WFor [GM "getLinkers"]
           [WIf (CInst [] ["Linker"])
              [WCall "writeLinker" None []]
              [WFail NotImplementedError true]]]]
     []].
(** arxml_writer.py:4517-4523 *)
Definition w_writeLinker : list wi :=
  [WSub (TLit "LINKER")
     [WCall "writeIdentifiable" None [];
      WLeaf WText (TLit "NAME") [GM "getName"];
      WLeaf WText (TLit "OPTIONS") [GM "getOptions"];
      WLeaf WText (TLit "VENDOR") [GM "getVendor"];
      WLeaf WText (TLit "VERSION") [GM "getVersion"]]].
(** arxml_writer.py:4525-4532 *)
Definition w_writeDependencyOnArtifacts : list wi :=
  [WIf (CNonEmpty [])
     [WSub TKey
        [WFor []
           [WIf (CInst [] ["DependencyOnArtifact"])
              [WCall "writeDependencyOnArtifact" None []]
              [WFail NotImplementedError true]]]]
     []].
(** arxml_writer.py:4534-4545 *)
Definition w_writeDependencyOnArtifact : list wi :=
  [WSub (TLit "DEPENDENCY-ON-ARTIFACT")
     [WCall "writeIdentifiable" None [];
      WIf (CSome [GM "getArtifactDescriptor"])
        [WSub (TLit "ARTIFACT-DESCRIPTOR")
           [WCall "writeAutosarEngineeringObject" None [GM "getArtifactDescriptor"]]]
        [];
      WIf (CNonEmpty [GM "getUsages"])
        [WSub (TLit "USAGES")
           [WFor [GM "getUsages"]
              [WLeaf WText (TLit "USAGE") []]]]
        []]].
(** arxml_writer.py:4547-4552 *)
Definition w_writeImplementationHwElementRefs : list wi :=
  [WIf (CNonEmpty [GM "getHwElementRefs"])
     [WSub (TLit "HW-ELEMENT-REFS")
        [WFor [GM "getHwElementRefs"]
           [WLeaf WRef (TLit "HW-ELEMENT-REF") []]]]
     []].
(** arxml_writer.py:4554-4558 *)
Definition w_writeSwcImplementation : list wi :=
  [WSub (TLit "SWC-IMPLEMENTATION")
     [WCall "writeImplementation" None [];
      WLeaf WRef (TLit "BEHAVIOR-REF") [GM "getBehaviorRef"]]].
(** arxml_writer.py:4560-4565 *)
Definition w_writeEndToEndDescriptionDataIds : list wi :=
  [WIf (CNonEmpty [GM "getDataIds"])
     [WSub (TLit "DATA-IDS")
        [WFor [GM "getDataIds"]
           [WLeaf WNum (TLit "DATA-ID") []]]]
     []].
(** arxml_writer.py:4567-4577 *)
Definition w_setEndToEndDescription : list wi :=
  [WIf (CSome [])
     [WSub TKey
        [WAttrs [];
         WLeaf WText (TLit "CATEGORY") [GM "getCategory"];
         WCall "writeEndToEndDescriptionDataIds" None [];
         WLeaf WNum (TLit "DATA-ID-MODE") [GM "getDataIdMode"];
         WLeaf WNum (TLit "DATA-LENGTH") [GM "getDataLength"];
         WLeaf WNum (TLit "MAX-DELTA-COUNTER-INIT") [GM "getMaxDeltaCounterInit"];
         WLeaf WNum (TLit "CRC-OFFSET") [GM "getCrcOffset"];
         WLeaf WNum (TLit "COUNTER-OFFSET") [GM "getCounterOffset"]]]
     []].
(** arxml_writer.py:4579-4586 *)
Definition w_setVariableDataPrototypeInSystemInstanceRef : list wi :=
  [WIf (CSome [])
     [WSub TKey
        [WFor [GM "getContextComponentRefs"]
           [WLeaf WRef (TLit "CONTEXT-COMPONENT-REF") []];
         WLeaf WRef (TLit "CONTEXT-COMPOSITION-REF") [GM "getContextCompositionRef"];
         WLeaf WRef (TLit "CONTEXT-PORT-REF") [GM "getContextPortRef"];
         WLeaf WRef (TLit "TARGET-DATA-PROTOTYPE-REF") [GM "getTargetDataPrototypeRef"]]]
     []].
(** arxml_writer.py:4588-4597 *)
Definition w_writeEndToEndProtectionVariablePrototype : list wi :=
  [WIf (CSome [])
     [WSub (TLit "END-TO-END-PROTECTION-VARIABLE-PROTOTYPE")
        [WAttrs [];
         WIf (CNonEmpty [GM "getReceiverIrefs"])
           [WSub (TLit "RECEIVER-IREFS")
              [WFor [GM "getReceiverIrefs"]
                 [WCall "setVariableDataPrototypeInSystemInstanceRef" (Some (TLit "RECEIVER-IREF")) []];
               WCall "setVariableDataPrototypeInSystemInstanceRef" (Some (TLit "SENDER-IREF")) [GA "senderIRef"]]]
           [WCall "setVariableDataPrototypeInSystemInstanceRef" (Some (TLit "SENDER-IREF")) [GA "senderIRef"]]]]
     []].
(** arxml_writer.py:4599-4607 *)
Definition w_writeEndToEndProtectionEndToEndProtectionVariablePrototypes : list wi :=
  [WIf (CNonEmpty [GM "getEndToEndProtectionVariablePrototypes"])
     [WSub (TLit "END-TO-END-PROTECTION-VARIABLE-PROTOTYPES")
        [WFor [GM "getEndToEndProtectionVariablePrototypes"]
           [WIf (CInst [] ["EndToEndProtectionVariablePrototype"])
              [WCall "writeEndToEndProtectionVariablePrototype" None []]
              [WFail NotImplementedError true]]]]
     []].
(** arxml_writer.py:4609-4614 *)
Definition w_writeEndToEndProtectionISignalIPdu : list wi :=
  [WIf (CSome [])
     [WSub (TLit "END-TO-END-PROTECTION-I-SIGNAL-I-PDU")
        [WLeaf WNum (TLit "DATA-OFFSET") [GM "getDataOffset"];
         WLeaf WRef (TLit "I-SIGNAL-GROUP-REF") [GM "getISignalGroupRef"];
         WLeaf WRef (TLit "I-SIGNAL-I-PDU-REF") [GM "getISignalIPduRef"]]]
     []].
(** arxml_writer.py:4616-4624 *)
Definition w_writeEndToEndProtectionEndToEndProtectionISignalIPdus : list wi :=
  [WIf (CNonEmpty [GM "getEndToEndProtectionISignalIPdus"])
     [WSub (TLit "END-TO-END-PROTECTION-I-SIGNAL-I-PDUS")
        [WFor [GM "getEndToEndProtectionISignalIPdus"]
           [WIf (CInst [] ["EndToEndProtectionISignalIPdu"])
              [WCall "writeEndToEndProtectionISignalIPdu" None []]
              [WFail NotImplementedError true]]]]
     []].
(** arxml_writer.py:4626-4632 *)
Definition w_writeEndToEndProtection : list wi :=
  [WIf (CSome [])
     [WSub (TLit "END-TO-END-PROTECTION")
        [WCall "writeIdentifiable" None [];
         WCall "setEndToEndDescription" (Some (TLit "END-TO-END-PROFILE")) [GM "getEndToEndProfile"];
         WCall "writeEndToEndProtectionEndToEndProtectionISignalIPdus" None [];
         WCall "writeEndToEndProtectionEndToEndProtectionVariablePrototypes" None []]]
     []].
(** arxml_writer.py:4634-4640 *)
Definition w_writeEndToEndProtections : list wi :=
  [WIf (CNonEmpty [GM "getEndToEndProtections"])
     [WSub (TLit "END-TO-END-PROTECTIONS")
        [WFor [GM "getEndToEndProtections"]
           [WIf (CInst [] ["EndToEndProtection"])
              [WCall "writeEndToEndProtection" None []]
              []]]]
     []].
(** arxml_writer.py:4642-4646 *)
Definition w_writeEndToEndProtectionSet : list wi :=
  [WSub (TLit "END-TO-END-PROTECTION-SET")
     [WCall "writeIdentifiable" None [];
      WCall "writeEndToEndProtections" None []]].
(** arxml_writer.py:4648-4650 *)
Definition w_writeAutosarDataPrototype : list wi :=
  [WCall "writeDataPrototype" None [];
   WLeaf WRef (TLit "TYPE-TREF") [GM "getTypeTRef"]].
(** arxml_writer.py:4652-4656 *)
Definition w_writeVariableDataPrototype : list wi :=
  [WSub (TLit "VARIABLE-DATA-PROTOTYPE")
     [WCall "writeAutosarDataPrototype" None [];
      WCall "setChildValueSpecification" (Some (TLit "INIT-VALUE")) [GM "getInitValue"]]].
(** arxml_writer.py:4658-4666 *)
Definition w_writeSenderReceiverInterfaceDataElements : list wi :=
  [WIf (CNonEmpty [GM "getDataElements"])
     [WSub (TLit "DATA-ELEMENTS")
        [WFor [GM "getDataElements"]
           [WIf (CInst [] ["VariableDataPrototype"])
              [WCall "writeVariableDataPrototype" None []]
              [WFail NotImplementedError true]]]]
     []].
(** arxml_writer.py:4668-4675 *)
Definition w_writeSenderReceiverInterfaceInvalidationPolicies : list wi :=
  [WIf (CNonEmpty [GM "getInvalidationPolicies"])
     [WSub (TLit "INVALIDATION-POLICYS")
        [WFor [GM "getInvalidationPolicies"]
           [WSub (TLit "INVALIDATION-POLICY")
              [WLeaf WRef (TLit "DATA-ELEMENT-REF") [GM "getDataElementRef"];
               WLeaf WText (TLit "HANDLE-INVALID") [GM "getHandleInvalid"]]]]]
     []].
(** arxml_writer.py:4677-4683 *)
Definition w_writeSenderReceiverInterface : list wi :=
  [WSub (TLit "SENDER-RECEIVER-INTERFACE")
     [WCall "writeIdentifiable" None [];
      WLeaf WText (TLit "IS-SERVICE") [GM "getIsService"];
      WCall "writeSenderReceiverInterfaceDataElements" None [];
      WCall "writeSenderReceiverInterfaceInvalidationPolicies" None []]].
(** arxml_writer.py:4685-4691 *)
Definition w_writeBswModuleDescriptionImplementedEntryRefs : list wi :=
  [WIf (CNonEmpty [GM "getImplementedEntryRefs"])
     [WSub (TLit "PROVIDED-ENTRYS")
        [WFor [GM "getImplementedEntryRefs"]
           [WSub (TLit "BSW-MODULE-ENTRY-REF-CONDITIONAL")
              [WLeaf WRef (TLit "BSW-MODULE-ENTRY-REF") []]]]]
     []].
(** arxml_writer.py:4693-4697 *)
Definition w_writeModeDeclarationGroupPrototype : list wi :=
  [WSub (TLit "MODE-DECLARATION-GROUP-PROTOTYPE")
     [WCall "writeIdentifiable" None [];
      WLeaf WRef (TLit "TYPE-TREF") [GM "getTypeTRef"];
      WLeaf WText (TLit "SW-CALIBRATION-ACCESS") [GM "getSwCalibrationAccess"]]].
(** arxml_writer.py:4699-4707 *)
Definition w_writeBswModuleDescriptionProvidedModeGroups : list wi :=
  [WIf (CNonEmpty [GM "getProvidedModeGroups"])
     [WSub (TLit "PROVIDED-MODE-GROUPS")
        [WFor [GM "getProvidedModeGroups"]
           [WIf (CInst [] ["ModeDeclarationGroupPrototype"])
              [WCall "writeModeDeclarationGroupPrototype" None []]
              [WFail NotImplementedError true]]]]
     []].
(** arxml_writer.py:4709-4717 *)
Definition w_writeBswModuleDescriptionRequiredModeGroups : list wi :=
  [WIf (CNonEmpty [GM "getRequiredModeGroups"])
     [WSub (TLit "REQUIRED-MODE-GROUPS")
        [WFor [GM "getRequiredModeGroups"]
           [WIf (CInst [] ["ModeDeclarationGroupPrototype"])
              [WCall "writeModeDeclarationGroupPrototype" None []]
              [WFail NotImplementedError true]]]]
     []].
(** arxml_writer.py:4719-4727 *)
Definition w_writeActivationReasons : list wi :=
  [WIf (CNonEmpty [GM "getActivationReasons"])
     [WSub (TLit "ACTIVATION-REASONS")
        [WFor [GM "getActivationReasons"]
           [WIf (CInst [] ["ExecutableEntityActivationReason"])
              [WSub (TLit "EXECUTABLE-ENTITY-ACTIVATION-REASON")
                 [WCall "writeExecutableEntityActivationReason" None []]]
              [WFail NotImplementedError true]]]]
     []].
(** arxml_writer.py:4729-4731 *)
Definition w_writeExecutableEntityActivationReason : list wi :=
  [WCall "writeImplementationProps" None [];
   WLeaf WNum (TLit "BIT-POSITION") [GM "getBitPosition"]].
(** arxml_writer.py:4733-4738 *)
Definition w_writeCanEnterRefs : list wi :=
  [WIf (CNonEmpty [GM "getCanEnterRefs"])
     [WSub (TLit "CAN-ENTER-EXCLUSIVE-AREA-REFS")
        [WFor [GM "getCanEnterRefs"]
           [WLeaf WRef (TLit "CAN-ENTER-EXCLUSIVE-AREA-REF") []]]]
     []].
(** arxml_writer.py:4740-4745 *)
Definition w_writeExclusiveAreaNestingOrderRefs : list wi :=
  [WIf (CNonEmpty [GM "getExclusiveAreaNestingOrderRefs"])
     [WSub (TLit "EXCLUSIVE-AREA-NESTING-ORDER-REFS")
        [WFor [GM "getExclusiveAreaNestingOrderRefs"]
           [WLeaf WRef (TLit "EXCLUSIVE-AREA-NESTING-ORDER-REF") []]]]
     []].
(** arxml_writer.py:4747-4752 *)
Definition w_writeRunsInsideRefs : list wi :=
  [WIf (CNonEmpty [GM "getRunsInsideRefs"])
     [WSub (TLit "RUNS-INSIDE-EXCLUSIVE-AREA-REFS")
        [WFor [GM "getRunsInsideRefs"]
           [WLeaf WRef (TLit "RUNS-INSIDE-EXCLUSIVE-AREA-REF") []]]]
     []].
(** arxml_writer.py:4754-4762 *)
Definition w_writeExecutableEntity : list wi :=
  [WCall "writeIdentifiable" None [];
   WCall "writeActivationReasons" None [];
   WCall "writeCanEnterRefs" None [];
   WCall "writeExclusiveAreaNestingOrderRefs" None [];
   WLeaf WText (TLit "MINIMUM-START-INTERVAL") [GM "getMinimumStartInterval"];
   WLeaf WText (TLit "REENTRANCY-LEVEL") [GM "getReentrancyLevel"];
   WCall "writeRunsInsideRefs" None [];
   WLeaf WRef (TLit "SW-ADDR-METHOD-REF") [GM "getSwAddrMethodRef"]].
(** arxml_writer.py:4764-4770 *)
Definition w_writeBswModuleEntityManagedModeGroups : list wi :=
  [WIf (CNonEmpty [GM "getManagedModeGroupRefs"])
     [WSub (TLit "MANAGED-MODE-GROUPS")
        [WFor [GM "getManagedModeGroupRefs"]
           [WSub (TLit "MODE-DECLARATION-GROUP-PROTOTYPE-REF-CONDITIONAL")
              [WLeaf WRef (TLit "MODE-DECLARATION-GROUP-PROTOTYPE-REF") []]]]]
     []].
(** arxml_writer.py:4772-4778 *)
Definition w_writeBswModuleEntityAccessedModeGroups : list wi :=
  [WIf (CNonEmpty [GM "getAccessedModeGroupRefs"])
     [WSub (TLit "ACCESSED-MODE-GROUPS")
        [WFor [GM "getAccessedModeGroupRefs"]
           [WSub (TLit "MODE-DECLARATION-GROUP-PROTOTYPE-REF-CONDITIONAL")
              [WLeaf WRef (TLit "MODE-DECLARATION-GROUP-PROTOTYPE-REF") []]]]]
     []].
(** arxml_writer.py:4780-4784 *)
Definition w_writeBswVariableAccess : list wi :=
  [WIf (CSome [])
     [WSub (TLit "BSW-VARIABLE-ACCESS")
        [WCall "writeReferrable" None [];
         WLeaf WRef (TLit "ACCESSED-VARIABLE-REF") [GM "getAccessedVariableRef"]]]
     []].
(** arxml_writer.py:4786-4794 *)
Definition w_writeBswModuleEntityDataSendPoints : list wi :=
  [WIf (CNonEmpty [GM "getDataSendPoints"])
     [WSub (TLit "DATA-SEND-POINTS")
        [WFor [GM "getDataSendPoints"]
           [WIf (CInst [] ["BswVariableAccess"])
              [WCall "writeBswVariableAccess" None []]
              [WFail NotImplementedError true]]]]
     []].
(** arxml_writer.py:4796-4804 *)
Definition w_writeBswModuleEntityDataReceivePoints : list wi :=
  [WIf (CNonEmpty [GM "getDataReceivePoints"])
     [WSub (TLit "DATA-RECEIVE-POINTS")
        [WFor [GM "getDataReceivePoints"]
           [WIf (CInst [] ["BswVariableAccess"])
              [WCall "writeBswVariableAccess" None []]
              [WFail NotImplementedError true]]]]
     []].
(** arxml_writer.py:4806-4812 *)
Definition w_writeBswModuleEntityIssuedTriggerRefs : list wi :=
  [WIf (CNonEmpty [GM "getIssuedTriggerRefs"])
     [WSub (TLit "ISSUED-TRIGGERS")
        [WFor [GM "getIssuedTriggerRefs"]
           [WSub (TLit "TRIGGER-REF-CONDITIONAL")
              [WLeaf WRef (TLit "TRIGGER-REF") []]]]]
     []].
(** arxml_writer.py:4814-4820 *)
Definition w_writeBswModuleEntityActivationPointRefs : list wi :=
  [WIf (CNonEmpty [GM "getActivationPointRefs"])
     [WSub (TLit "ACTIVATION-POINTS")
        [WFor [GM "getActivationPointRefs"]
           [WSub (TLit "BSW-INTERNAL-TRIGGERING-POINT-REF-CONDITIONAL")
              [WLeaf WRef (TLit "BSW-INTERNAL-TRIGGERING-POINT-REF") []]]]]
     []].
(** arxml_writer.py:4822-4823 *)
Definition w_writeBswModuleCallPoint : list wi :=
  [WCall "writeReferrable" None []].
(** arxml_writer.py:4825-4828 *)
Definition w_writeBswAsynchronousServerCallPoint : list wi :=
  [WSub (TLit "BSW-ASYNCHRONOUS-SERVER-CALL-POINT")
     [WCall "writeBswModuleCallPoint" None [];
      WLeaf WRef (TLit "CALLED-ENTRY-REF") [GM "getCalledEntryRef"]]].
(** arxml_writer.py:4830-4833 *)
Definition w_writeBswSynchronousServerCallPoint : list wi :=
  [WSub (TLit "BSW-SYNCHRONOUS-SERVER-CALL-POINT")
     [WCall "writeBswModuleCallPoint" None [];
      WLeaf WRef (TLit "CALLED-ENTRY-REF") [GM "getCalledEntryRef"]]].
(** arxml_writer.py:4835-4845 *)
Definition w_writeBswModuleEntityCallPoints : list wi :=
  [WIf (CNonEmpty [GM "getCallPoints"])
     [WSub (TLit "CALL-POINTS")
        [WFor [GM "getCallPoints"]
           [WIf (CInst [] ["BswAsynchronousServerCallPoint"])
              [WCall "writeBswAsynchronousServerCallPoint" None []]
              [WIf (CInst [] ["BswModuleCallPoint"])
                 [WCall "writeBswSynchronousServerCallPoint" None []]
                 [WFail NotImplementedError true]]]]]
     []].
(** arxml_writer.py:4847-4857 *)
Definition w_writeBswModuleEntity : list wi :=
  [WCall "writeExecutableEntity" None [];
   WCall "writeBswModuleEntityAccessedModeGroups" None [];
   WCall "writeBswModuleEntityActivationPointRefs" None [];
   WCall "writeBswModuleEntityCallPoints" None [];
   WCall "writeBswModuleEntityDataSendPoints" None [];
   WCall "writeBswModuleEntityDataReceivePoints" None [];
   WLeaf WRef (TLit "IMPLEMENTED-ENTRY-REF") [GA "implementedEntryRef"];
   WLeaf WRef (TLit "SCHEDULER-NAME-PREFIX-REF") [GM "getSchedulerNamePrefixRef"];
   WCall "writeBswModuleEntityManagedModeGroups" None [];
   WCall "writeBswModuleEntityIssuedTriggerRefs" None []].
(** arxml_writer.py:4859-4862 *)
Definition w_writeBswCalledEntity : list wi :=
  [WSub (TLit "BSW-CALLED-ENTITY")
     [WCall "writeBswModuleEntity" None []]].
(** arxml_writer.py:4864-4867 *)
Definition w_writeBswSchedulableEntity : list wi :=
  [WSub (TLit "BSW-SCHEDULABLE-ENTITY")
     [WCall "writeBswModuleEntity" None []]].
(** arxml_writer.py:4869-4874 *)
Definition w_setBswInterruptEntity : list wi :=
  [WSub (TLit "BSW-INTERRUPT-ENTITY")
     [WCall "writeBswModuleEntity" None [];
      WLeaf WText (TLit "INTERRUPT-CATEGORY") [GM "getInterruptCategory"];
      WLeaf WText (TLit "INTERRUPT-SOURCE") [GM "getInterruptSource"]]].
(** arxml_writer.py:4876-4888 *)
Definition w_writeBswInternalBehaviorEntities : list wi :=
  [WIf (CNonEmpty [GM "getBswModuleEntities"])
     [WSub (TLit "ENTITYS")
        [WFor [GM "getBswModuleEntities"]
           [WIf (CInst [] ["BswCalledEntity"])
              [WCall "writeBswCalledEntity" None []]
              [WIf (CInst [] ["BswSchedulableEntity"])
                 [WCall "writeBswSchedulableEntity" None []]
                 [WIf (CInst [] ["BswInterruptEntity"])
                    [WCall "setBswInterruptEntity" None []]
                    [WFail NotImplementedError true]]]]]]
     []].
(** arxml_writer.py:4890-4903 *)
Definition w_writeBswEvent : list wi :=
  [WCall "writeIdentifiable" None [];
   WLeaf WRef (TLit "ACTIVATION-REASON-REPRESENTATION-REF") [GM "getActivationReasonRepresentationRef"];
   WIf (CNonEmpty [GM "getContextLimitationRefs"])
     [WSub (TLit "CONTEXT-LIMITATION-REFS")
        [WFor [GM "getContextLimitationRefs"]
           [WLeaf WRef (TLit "CONTEXT-LIMITATION-REF") []]]]
     [];
   WIf (CNonEmpty [GM "getDisabledInModeIRefs"])
     [WSub (TLit "DISABLED-IN-MODE-IREFS")
        [WFor [GM "getDisabledInModeIRefs"]
           [WCall "setModeInBswModuleDescriptionInstanceRef" (Some (TLit "DISABLED-IN-MODE-IREF")) []]]]
     [];
   WLeaf WRef (TLit "STARTS-ON-EVENT-REF") [GM "getStartsOnEventRef"]].
(** arxml_writer.py:4905-4906 *)
Definition w_writeBswScheduleEvent : list wi :=
  [WCall "writeBswEvent" None []].
(** arxml_writer.py:4908-4912 *)
Definition w_writeBswTimingEvent : list wi :=
  [WSub (TLit "BSW-TIMING-EVENT")
     [WCall "writeBswScheduleEvent" None [];
      WLeaf WText (TLit "PERIOD") [GM "getPeriod"]]].
(** arxml_writer.py:4914-4917 *)
Definition w_writeBswBackgroundEvent : list wi :=
  [WSub (TLit "BSW-BACKGROUND-EVENT")
     [WCall "writeBswScheduleEvent" None []]].
(** arxml_writer.py:4919-4923 *)
Definition w_writeBswInternalTriggerOccurredEvent : list wi :=
  [WSub (TLit "BSW-INTERNAL-TRIGGER-OCCURRED-EVENT")
     [WCall "writeBswScheduleEvent" None [];
      WLeaf WRef (TLit "EVENT-SOURCE-REF") [GM "getEventSourceRef"]]].
(** arxml_writer.py:4925-4929 *)
Definition w_writeBswExternalTriggerOccurredEvent : list wi :=
  [WSub (TLit "BSW-EXTERNAL-TRIGGER-OCCURRED-EVENT")
     [WCall "writeBswScheduleEvent" None [];
      WLeaf WRef (TLit "TRIGGER-REF") [GM "getTriggerRef"]]].
(** arxml_writer.py:4931-4936 *)
Definition w_writeBswDataReceivedEvent : list wi :=
  [WSub (TLit "BSW-DATA-RECEIVED-EVENT")
     [WCall "writeBswScheduleEvent" None [];
      WLeaf WRef (TLit "DATA-REF") [GM "getDataRef"]]].
(** arxml_writer.py:4938-4943 *)
Definition w_writeBswOperationInvokedEvent : list wi :=
  [WSub (TLit "BSW-OPERATION-INVOKED-EVENT")
     [WCall "writeBswEvent" None [];
      WLeaf WRef (TLit "ENTRY-REF") [GM "getEntryRef"]]].
(** arxml_writer.py:4945-4954 *)
Definition w_writeBswModeSwitchEvent : list wi :=
  [WSub (TLit "BSW-MODE-SWITCH-EVENT")
     [WCall "writeBswScheduleEvent" None [];
      WLeaf WText (TLit "ACTIVATION") [GM "getActivation"];
      WIf (CNonEmpty [GM "getModeIRefs"])
        [WSub (TLit "MODE-IREFS")
           [WFor [GM "getModeIRefs"]
              [WCall "setModeInBswModuleDescriptionInstanceRef" (Some (TLit "MODE-IREF")) []]]]
        []]].
(** arxml_writer.py:4956-4960 *)
Definition w_writeBswModeManagerErrorEvent : list wi :=
  [WSub (TLit "BSW-MODE-MANAGER-ERROR-EVENT")
     [WCall "writeBswScheduleEvent" None [];
      WLeaf WRef (TLit "MODE-GROUP-REF") [GM "getModeGroupRef"]]].
(** arxml_writer.py:4962-4966 *)
Definition w_writeBswModeSwitchedAckEvent : list wi :=
  [WSub (TLit "BSW-MODE-SWITCHED-ACK-EVENT")
     [WCall "writeBswScheduleEvent" None [];
      WLeaf WRef (TLit "MODE-GROUP-REF") [GM "getModeGroupRef"]]].
(** arxml_writer.py:4968-4972 *)
Definition w_writeBswAsynchronousServerCallReturnsEvent : list wi :=
  [WSub (TLit "BSW-ASYNCHRONOUS-SERVER-CALL-RETURNS-EVENT")
     [WCall "writeBswScheduleEvent" None [];
      WLeaf WRef (TLit "EVENT-SOURCE-REF") [GM "getEventSourceRef"]]].
(** arxml_writer.py:4974-5000 *)
Definition w_writeBswInternalBehaviorEvents : list wi :=
  [WIf (CNonEmpty [GM "getBswEvents"])
     [WSub (TLit "EVENTS")
        [WFor [GM "getBswEvents"]
           [WIf (CInst [] ["BswTimingEvent"])
              [WCall "writeBswTimingEvent" None []]
              [WIf (CInst [] ["BswBackgroundEvent"])
                 [WCall "writeBswBackgroundEvent" None []]
                 [WIf (CInst [] ["BswInternalTriggerOccurredEvent"])
                    [WCall "writeBswInternalTriggerOccurredEvent" None []]
                    [WIf (CInst [] ["BswExternalTriggerOccurredEvent"])
                       [WCall "writeBswExternalTriggerOccurredEvent" None []]
                       [WIf (CInst [] ["BswDataReceivedEvent"])
                          [WCall "writeBswDataReceivedEvent" None []]
                          [WIf (CInst [] ["BswOperationInvokedEvent"])
                             [WCall "writeBswOperationInvokedEvent" None []]
                             [WIf (CInst [] ["BswModeSwitchEvent"])
                                [WCall "writeBswModeSwitchEvent" None []]
                                [WIf (CInst [] ["BswModeManagerErrorEvent"])
                                   [WCall "writeBswModeManagerErrorEvent" None []]
                                   [WIf (CInst [] ["BswModeSwitchedAckEvent"])
                                      [WCall "writeBswModeSwitchedAckEvent" None []]
                                      [WIf (CInst [] ["BswAsynchronousServerCallReturnsEvent"])
                                         [WCall "writeBswAsynchronousServerCallReturnsEvent" None []]
                                         [WFail NotImplementedError true]]]]]]]]]]]]]
     []].
(** arxml_writer.py:5002-5007 *)
Definition w_setBswModeSenderPolicy : list wi :=
  [WSub (TLit "BSW-MODE-SENDER-POLICY")
     [WCall "setBswModeSwitchAckRequest" (Some (TLit "ACK-REQUEST")) [GM "getAckRequest"];
      WLeaf WText (TLit "ENHANCED-MODE-API") [GM "getEnhancedModeApi"];
      WLeaf WRef (TLit "PROVIDED-MODE-GROUP-REF") [GM "getProvidedModeGroupRef"];
      WLeaf WNum (TLit "QUEUE-LENGTH") [GM "getQueueLength"]]].
(** arxml_writer.py:5009-5012 *)
Definition w_setBswModeSwitchAckRequest : list wi :=
  [WIf (CSome [])
     [WSub TKey
        [WLeaf WText (TLit "TIMEOUT") [GM "getTimeout"]]]
     []].
(** arxml_writer.py:5014-5022 *)
Definition w_writeBswInternalBehaviorModeSenderPolicy : list wi :=
  [WIf (CNonEmpty [GM "getModeSenderPolicies"])
     [WSub (TLit "MODE-SENDER-POLICYS")
        [WFor [GM "getModeSenderPolicies"]
           [WIf (CInst [] ["BswModeSenderPolicy"])
              [WCall "setBswModeSenderPolicy" None []]
              [WFail NotImplementedError true]]]]
     []].
(** arxml_writer.py:5024-5029 *)
Definition w_writeBswInternalBehaviorIncludedModeDeclarationGroupSets : list wi :=
  [WIf (CNonEmpty [GM "getIncludedModeDeclarationGroupSets"])
     [WSub (TLit "INCLUDED-MODE-DECLARATION-GROUP-SETS")
        [WFor [GM "getIncludedModeDeclarationGroupSets"]
           [WCall "writeIncludedModeDeclarationGroupSet" None []]]]
     []].
(** arxml_writer.py:5031-5033 *)
Definition w_writeBswApiOptions : list wi :=
  [WAttrs [];
   WLeaf WText (TLit "ENABLE-TAKE-ADDRESS") [GM "getEnableTakeAddress"]].
(** arxml_writer.py:5035-5037 *)
Definition w_writeBswDataReceptionPolicy : list wi :=
  [WCall "writeBswApiOptions" None [];
   WLeaf WRef (TLit "RECEIVED-DATA-REF") [GM "getReceivedDataRef"]].
(** arxml_writer.py:5039-5042 *)
Definition w_writeBswQueuedDataReceptionPolicy : list wi :=
  [WSub (TLit "BSW-QUEUED-DATA-RECEPTION-POLICY")
     [WCall "writeBswDataReceptionPolicy" None [];
      WLeaf WNum (TLit "QUEUE-LENGTH") [GM "getQueueLength"]]].
(** arxml_writer.py:5044-5052 *)
Definition w_writeBswInternalBehaviorReceptionPolicies : list wi :=
  [WIf (CNonEmpty [GM "getReceptionPolicies"])
     [WSub (TLit "RECEPTION-POLICYS")
        [WFor [GM "getReceptionPolicies"]
           [WIf (CInst [] ["BswQueuedDataReceptionPolicy"])
              [WCall "writeBswQueuedDataReceptionPolicy" None []]
              [WFail NotImplementedError true]]]]
     []].
(** arxml_writer.py:5054-5056 *)
Definition w_writeBswInternalTriggeringPoint : list wi :=
  [WSub (TLit "BSW-INTERNAL-TRIGGERING-POINT")
     [WCall "writeIdentifiable" None []]].
(** arxml_writer.py:5058-5066 *)
Definition w_writeBswInternalBehaviorInternalTriggeringPoints : list wi :=
  [WIf (CNonEmpty [GM "getInternalTriggeringPoints"])
     [WSub (TLit "INTERNAL-TRIGGERING-POINTS")
        [WFor [GM "getInternalTriggeringPoints"]
           [WIf (CInst [] ["BswInternalTriggeringPoint"])
              [WCall "writeBswInternalTriggeringPoint" None []]
              [WFail NotImplementedError true]]]]
     []].
(** arxml_writer.py:5068-5077 *)
Definition w_writeBswInternalBehavior : list wi :=
  [WSub (TLit "BSW-INTERNAL-BEHAVIOR")
     [WCall "writeInternalBehavior" None [];
      WCall "writeBswInternalBehaviorInternalTriggeringPoints" None [];
      WCall "writeBswInternalBehaviorEntities" None [];
      WCall "writeBswInternalBehaviorEvents" None [];
      WCall "writeBswInternalBehaviorModeSenderPolicy" None [];
      WCall "writeBswInternalBehaviorIncludedModeDeclarationGroupSets" None [];
      WCall "writeBswInternalBehaviorReceptionPolicies" None [];
      WCall "writeBswInternalBehaviorServiceDependencies" None []]].
(** arxml_writer.py:5079-5087 *)
Definition w_writeBswModuleDescriptionInternalBehaviors : list wi :=
  [WIf (CNonEmpty [GM "getInternalBehaviors"])
     [WSub (TLit "INTERNAL-BEHAVIORS")
        [WFor [GM "getInternalBehaviors"]
           [WIf (CInst [] ["BswInternalBehavior"])
              [WCall "writeBswInternalBehavior" None []]
              [WFail NotImplementedError true]]]]
     []].
(** arxml_writer.py:5089-5091 *)
Definition w_writeTrigger : list wi :=
  [WSub (TLit "TRIGGER")
     [WCall "writeIdentifiable" None []]].
(** arxml_writer.py:5093-5101 *)
Definition w_writeBswModuleDescriptionReleasedTriggers : list wi :=
  [WIf (CNonEmpty [GM "getReleasedTriggers"])
     [WSub (TLit "RELEASED-TRIGGERS")
        [WFor [GM "getReleasedTriggers"]
           [WIf (CInst [] ["Trigger"])
              [WCall "writeTrigger" None []]
              [WFail NotImplementedError true]]]]
     []].
(** arxml_writer.py:5103-5111 *)
Definition w_writeBswModuleDescriptionRequiredTriggers : list wi :=
  [WIf (CNonEmpty [GM "getRequiredTriggers"])
     [WSub (TLit "REQUIRED-TRIGGERS")
        [WFor [GM "getRequiredTriggers"]
           [WIf (CInst [] ["Trigger"])
              [WCall "writeTrigger" None []]
              [WFail NotImplementedError true]]]]
     []].
(** arxml_writer.py:5113-5121 *)
Definition w_writeBswModuleDescriptionProvidedDatas : list wi :=
  [WIf (CNonEmpty [GM "getProvidedDatas"])
     [WSub (TLit "PROVIDED-DATAS")
        [WFor [GM "getProvidedDatas"]
           [WIf (CInst [] ["VariableDataPrototype"])
              [WCall "writeVariableDataPrototype" None []]
              [WFail NotImplementedError true]]]]
     []].
(** arxml_writer.py:5123-5131 *)
Definition w_writeBswModuleDescriptionRequiredDatas : list wi :=
  [WIf (CNonEmpty [GM "getRequiredDatas"])
     [WSub (TLit "REQUIRED-DATAS")
        [WFor [GM "getRequiredDatas"]
           [WIf (CInst [] ["VariableDataPrototype"])
              [WCall "writeVariableDataPrototype" None []]
              [WFail NotImplementedError true]]]]
     []].
(** arxml_writer.py:5133-5139 *)
Definition w_writeBswModuleClientServerEntry : list wi :=
  [WIf (CSome [])
     [WSub (TLit "BSW-MODULE-CLIENT-SERVER-ENTRY")
        [WCall "writeReferrable" None [];
         WLeaf WRef (TLit "ENCAPSULATED-ENTRY-REF") [GM "getEncapsulatedEntryRef"];
         WLeaf WText (TLit "IS-REENTRANT") [GM "getIsReentrant"];
         WLeaf WText (TLit "IS-SYNCHRONOUS") [GM "getIsSynchronous"]]]
     []].
(** arxml_writer.py:5141-5149 *)
Definition w_writeBswModuleDescriptionProvidedClientServerEntries : list wi :=
  [WIf (CNonEmpty [GM "getProvidedClientServerEntries"])
     [WSub (TLit "PROVIDED-CLIENT-SERVER-ENTRYS")
        [WFor [GM "getProvidedClientServerEntries"]
           [WIf (CInst [] ["BswModuleClientServerEntry"])
              [WCall "writeBswModuleClientServerEntry" None []]
              [WFail NotImplementedError true]]]]
     []].
(** arxml_writer.py:5151-5159 *)
Definition w_writeBswModuleDescriptionRequiredClientServerEntries : list wi :=
  [WIf (CNonEmpty [GM "getRequiredClientServerEntries"])
     [WSub (TLit "REQUIRED-CLIENT-SERVER-ENTRYS")
        [WFor [GM "getRequiredClientServerEntries"]
           [WIf (CInst [] ["BswModuleClientServerEntry"])
              [WCall "writeBswModuleClientServerEntry" None []]
              [WFail NotImplementedError true]]]]
     []].
(** arxml_writer.py:5161-5177 *)
Definition w_writeBswModuleDescription : list wi :=
  [WSub (TLit "BSW-MODULE-DESCRIPTION")
     [WCall "writeIdentifiable" None [];
      WLeaf WNum (TLit "MODULE-ID") [GM "getModuleId"];
      WCall "writeBswModuleDescriptionImplementedEntryRefs" None [];
      WCall "writeBswModuleDescriptionProvidedModeGroups" None [];
      WCall "writeBswModuleDescriptionRequiredModeGroups" None [];
      WCall "writeBswModuleDescriptionProvidedClientServerEntries" None [];
      WCall "writeBswModuleDescriptionRequiredClientServerEntries" None [];
      WCall "writeBswModuleDescriptionProvidedDatas" None [];
      WCall "writeBswModuleDescriptionRequiredDatas" None [];
      WCall "writeBswModuleDescriptionInternalBehaviors" None [];
      WCall "writeBswModuleDescriptionReleasedTriggers" None [];
      WCall "writeBswModuleDescriptionExpectedEntryRefs" None [];
      WCall "writeBswModuleDescriptionBswModuleDependencies" None [];
      WCall "writeBswModuleDescriptionBswModuleDocumentation" None []]].
(** arxml_writer.py:5179-5185 *)
Definition w_writeBswModuleDescriptionExpectedEntryRefs : list wi :=
  [WIf (CNonEmpty [GM "getExpectedEntryRefs"])
     [WSub (TLit "EXPECTED-ENTRYS")
        [WFor [GM "getExpectedEntryRefs"]
           [WSub (TLit "BSW-MODULE-ENTRY-REF-CONDITIONAL")
              [WLeaf WRef (TLit "BSW-MODULE-ENTRY-REF") []]]]]
     []].
(** arxml_writer.py:5187-5198 *)
Definition w_writeBswModuleDescriptionBswModuleDependencies : list wi :=
  [WIf (CNonEmpty [GM "getBswModuleDependencies"])
     [WSub (TLit "BSW-MODULE-DEPENDENCYS")
        [WFor [GM "getBswModuleDependencies"]
           [WIf (CInst [] ["BswModuleDependency"])
              [WSub (TLit "BSW-MODULE-DEPENDENCY")
                 [WCall "writeIdentifiable" None [];
                  WLeaf WNum (TLit "TARGET-MODULE-ID") [GM "getTargetModuleId"];
                  WLeaf WRef (TLit "TARGET-MODULE-REF") [GM "getTargetModuleRef"]]]
              [WFail NotImplementedError true]]]]
     []].
(** arxml_writer.py:5200-5206 *)
Definition w_writeBswModuleDescriptionBswModuleDocumentation : list wi :=
  [WIf (CNot (CSome [GM "getBswModuleDocumentation"]))
     []
     [WSub (TLit "BSW-MODULE-DOCUMENTATIONS")
        [WSub (TLit "SW-COMPONENT-DOCUMENTATION")
           [WCall "writeSwComponentDocumentationElement" None [GM "getBswModuleDocumentation"]]]]].
(** arxml_writer.py:5208-5215 *)
Definition w_setSwServiceArg : list wi :=
  [WIf (CSome [])
     [WSub TKey
        [WCall "writeIdentifiable" None [];
         WLeaf WText (TLit "DIRECTION") [GM "getDirection"];
         WCall "setValueList" (Some (TLit "SW-ARRAYSIZE")) [GM "getSwArraysize"];
         WCall "setSwDataDefProps" (Some (TLit "SW-DATA-DEF-PROPS")) [GM "getSwDataDefProps"]]]
     []].
(** arxml_writer.py:5217-5222 *)
Definition w_writeBswModuleEntryArguments : list wi :=
  [WIf (CNonEmpty [GM "getArguments"])
     [WSub (TLit "ARGUMENTS")
        [WFor [GM "getArguments"]
           [WCall "setSwServiceArg" (Some (TLit "SW-SERVICE-ARG")) []]]]
     []].
(** arxml_writer.py:5224-5226 *)
Definition w_writeBswModuleEntryReturnType : list wi :=
  [WIf (CSome [GM "getReturnType"])
     [WCall "setSwServiceArg" (Some (TLit "RETURN-TYPE")) [GM "getReturnType"]]
     []].
(** arxml_writer.py:5228-5242 *)
Definition w_writeBswModuleEntry : list wi :=
  [WSub (TLit "BSW-MODULE-ENTRY")
     [WCall "writeIdentifiable" None [];
      WLeaf WNum (TLit "SERVICE-ID") [GM "getServiceId"];
      WLeaf WText (TLit "IS-REENTRANT") [GM "getIsReentrant"];
      WLeaf WText (TLit "IS-SYNCHRONOUS") [GM "getIsSynchronous"];
      WLeaf WText (TLit "CALL-TYPE") [GM "getCallType"];
      WLeaf WText (TLit "EXECUTION-CONTEXT") [GM "getExecutionContext"];
      WLeaf WText (TLit "SW-SERVICE-IMPL-POLICY") [GM "getSwServiceImplPolicy"];
      WLeaf WText (TLit "BSW-ENTRY-KIND") [GM "getBswEntryKind"];
      WLeaf WText (TLit "ROLE") [GM "getRole"];
      WLeaf WText (TLit "FUNCTION-PROTOTYPE-EMITTER") [GM "getFunctionPrototypeEmitter"];
      WCall "writeBswModuleEntryReturnType" None [];
      WCall "writeBswModuleEntryArguments" None []]].
(** arxml_writer.py:5244-5247 *)
Definition w_setSwcBswRunnableMapping : list wi :=
  [WSub (TLit "SWC-BSW-RUNNABLE-MAPPING")
     [WLeaf WRef (TLit "BSW-ENTITY-REF") [GM "getBswEntityRef"];
      WLeaf WRef (TLit "SWC-RUNNABLE-REF") [GM "getSwcRunnableRef"]]].
(** arxml_writer.py:5249-5257 *)
Definition w_writeSwcBswRunnableMappings : list wi :=
  [WIf (CNonEmpty [GM "getRunnableMappings"])
     [WSub (TLit "RUNNABLE-MAPPINGS")
        [WFor [GM "getRunnableMappings"]
           [WIf (CInst [] ["SwcBswRunnableMapping"])
              [WCall "setSwcBswRunnableMapping" None []]
              [WFail NotImplementedError true]]]]
     []].
(** arxml_writer.py:5259-5262 *)
Definition w_writeSwcBswSynchronizedModeGroupPrototype : list wi :=
  [WSub (TLit "SWC-BSW-SYNCHRONIZED-MODE-GROUP-PROTOTYPE")
     [WLeaf WRef (TLit "BSW-MODE-GROUP-REF") [GM "getBswModeGroupRef"];
      WCall "setPModeGroupInAtomicSwcInstanceRef" (Some (TLit "SWC-MODE-GROUP-IREF")) [GM "getSwcModeGroupIRef"]]].
(** arxml_writer.py:5264-5272 *)
Definition w_writeSwcBswSynchronizedModeGroups : list wi :=
  [WIf (CNonEmpty [GM "getSynchronizedModeGroups"])
     [WSub (TLit "SYNCHRONIZED-MODE-GROUPS")
        [WFor [GM "getSynchronizedModeGroups"]
           [WIf (CInst [] ["SwcBswSynchronizedModeGroupPrototype"])
              [WCall "writeSwcBswSynchronizedModeGroupPrototype" None []]
              [WFail NotImplementedError true]]]]
     []].
(** arxml_writer.py:5274-5277 *)
Definition w_writeSwcBswSynchronizedTrigger : list wi :=
  [WSub (TLit "SWC-BSW-SYNCHRONIZED-TRIGGER")
     [WLeaf WRef (TLit "BSW-TRIGGER-REF") [GM "getBswTriggerRef"];
      WCall "writePTriggerInAtomicSwcTypeInstanceRef" (Some (TLit "SWC-TRIGGER-IREF")) [GM "getSwcTriggerIRef"]]].
(** arxml_writer.py:5279-5287 *)
Definition w_writeSwcBswSynchronizedTriggers : list wi :=
  [WIf (CNonEmpty [GM "getSynchronizedTriggers"])
     [WSub (TLit "SYNCHRONIZED-TRIGGERS")
        [WFor [GM "getSynchronizedTriggers"]
           [WIf (CInst [] ["SwcBswSynchronizedTrigger"])
              [WCall "writeSwcBswSynchronizedTrigger" None []]
              [WFail NotImplementedError true]]]]
     []].
(** arxml_writer.py:5289-5297 *)
Definition w_writeSwcBswMapping : list wi :=
  [WSub (TLit "SWC-BSW-MAPPING")
     [WCall "writeIdentifiable" None [];
      WLeaf WRef (TLit "BSW-BEHAVIOR-REF") [GM "getBswBehaviorRef"];
      WCall "writeSwcBswRunnableMappings" None [];
      WCall "writeSwcBswSynchronizedModeGroups" None [];
      WCall "writeSwcBswSynchronizedTriggers" None [];
      WLeaf WRef (TLit "SWC-BEHAVIOR-REF") [GM "getSwcBehaviorRef"]]].
(** arxml_writer.py:5299-5308 *)
Definition w_writeEngineeringObject : list wi :=
  [WAttrs [];
   WLeaf WText (TLit "SHORT-LABEL") [GM "getShortLabel"];
   WLeaf WText (TLit "CATEGORY") [GM "getCategory"];
   WIf (CNonEmpty [GM "getRevisionLabels"])
     [WSub (TLit "REVISION-LABELS")
        [WFor [GM "getRevisionLabels"]
           [WLeaf WText (TLit "REVISION-LABEL") []]]]
     [];
   WLeaf WText (TLit "DOMAIN") [GM "getDomain"]].
(** arxml_writer.py:5310-5313 *)
Definition w_writeAutosarEngineeringObject : list wi :=
  [WSub (TLit "AUTOSAR-ENGINEERING-OBJECT")
     [WCall "writeEngineeringObject" None []]].
(** arxml_writer.py:5315-5323 *)
Definition w_writeArtifactDescriptor : list wi :=
  [WIf (CNonEmpty [GM "getArtifactDescriptors"])
     [WSub (TLit "ARTIFACT-DESCRIPTORS")
        [WFor [GM "getArtifactDescriptors"]
           [WIf (CInst [] ["AutosarEngineeringObject"])
              [WCall "writeAutosarEngineeringObject" None []]
              [WFail NotImplementedError true]]]]
     []].
(** arxml_writer.py:5325-5331 *)
Definition w_writeBswImplementationVendorSpecificModuleDefRefs : list wi :=
  [WIf (CNonEmpty [GM "getVendorSpecificModuleDefRefs"])
     [WSub (TLit "VENDOR-SPECIFIC-MODULE-DEF-REFS")
        [WFor [GM "getVendorSpecificModuleDefRefs"]
           [WLeaf WRef (TLit "VENDOR-SPECIFIC-MODULE-DEF-REF") []]]]
     []].
(** arxml_writer.py:5333-5339 *)
Definition w_writeBswImplementationPreconfiguredConfigurationRefs : list wi :=
  [WIf (CNonEmpty [GM "getPreconfiguredConfigurationRefs"])
     [WSub (TLit "PRECONFIGURED-CONFIGURATION-REFS")
        [WFor [GM "getPreconfiguredConfigurationRefs"]
           [WLeaf WRef (TLit "PRECONFIGURED-CONFIGURATION-REF") []]]]
     []].
(** arxml_writer.py:5341-5347 *)
Definition w_writeBswImplementationRecommendedConfigurationRefs : list wi :=
  [WIf (CNonEmpty [GM "getRecommendedConfigurationRefs"])
     [WSub (TLit "RECOMMENDED-CONFIGURATION-REFS")
        [WFor [GM "getRecommendedConfigurationRefs"]
           [WLeaf WRef (TLit "RECOMMENDED-CONFIGURATION-REF") []]]]
     []].
(** arxml_writer.py:5349-5358 *)
Definition w_writeBswImplementation : list wi :=
  [WSub (TLit "BSW-IMPLEMENTATION")
     [WCall "writeImplementation" None [];
      WLeaf WText (TLit "AR-RELEASE-VERSION") [GM "getArReleaseVersion"];
      WLeaf WRef (TLit "BEHAVIOR-REF") [GM "getBehaviorRef"];
      WLeaf WText (TLit "VENDOR-API-INFIX") [GM "getVendorApiInfix"];
      WCall "writeBswImplementationPreconfiguredConfigurationRefs" None [];
      WCall "writeBswImplementationRecommendedConfigurationRefs" None [];
      WCall "writeBswImplementationVendorSpecificModuleDefRefs" None []]].
(** arxml_writer.py:5360-5361 *)
Definition w_writeAbstractImplementationDataTypeElement : list wi :=
  [WCall "writeARElement" None []].
(** arxml_writer.py:5363-5371 *)
Definition w_writeImplementationDataTypeElementSubElements : list wi :=
  [WIf (CNonEmpty [GM "getSubElements"])
     [WSub (TLit "SUB-ELEMENTS")
        [WFor [GM "getSubElements"]
           [WIf (CInst [] ["ImplementationDataTypeElement"])
              [WCall "writeImplementationDataTypeElement" None []]
              [WFail NotImplementedError true]]]]
     []].
(** arxml_writer.py:5373-5381 *)
Definition w_writeImplementationDataTypeElement : list wi :=
  [WSub (TLit "IMPLEMENTATION-DATA-TYPE-ELEMENT")
     [WCall "writeAbstractImplementationDataTypeElement" None [];
      WLeaf WText (TLit "ARRAY-SIZE") [GM "getArraySize"];
      WLeaf WText (TLit "ARRAY-SIZE-HANDLING") [GM "getArraySizeHandling"];
      WLeaf WText (TLit "ARRAY-SIZE-SEMANTICS") [GM "getArraySizeSemantics"];
      WCall "writeImplementationDataTypeElementSubElements" None [];
      WCall "setSwDataDefProps" (Some (TLit "SW-DATA-DEF-PROPS")) [GM "getSwDataDefProps"]]].
(** arxml_writer.py:5383-5391 *)
Definition w_writeImplementationDataTypeSubElements : list wi :=
  [WIf (CNonEmpty [GM "getSubElements"])
     [WSub (TLit "SUB-ELEMENTS")
        [WFor [GM "getSubElements"]
           [WIf (CInst [] ["ImplementationDataTypeElement"])
              [WCall "writeImplementationDataTypeElement" None []]
              [WFail NotImplementedError true]]]]
     []].
(** arxml_writer.py:5393-5395 *)
Definition w_writeImplementationProps : list wi :=
  [WCall "writeReferrable" None [];
   WLeaf WText (TLit "SYMBOL") [GM "getSymbol"]].
(** arxml_writer.py:5397-5400 *)
Definition w_writeSymbolProps : list wi :=
  [WIf (CSome [])
     [WSub (TLit "SYMBOL-PROPS")
        [WCall "writeImplementationProps" None []]]
     []].
(** arxml_writer.py:5402-5403 *)
Definition w_writeImplementationDataTypeSymbolProps : list wi :=
  [WCall "writeSymbolProps" None [GM "getSymbolProps"]].
(** arxml_writer.py:5405-5413 *)
Definition w_writeImplementationDataType : list wi :=
  [WSub (TLit "IMPLEMENTATION-DATA-TYPE")
     [WCall "writeAutosarDataType" None [];
      WLeaf WText (TLit "DYNAMIC-ARRAY-SIZE-PROFILE") [GM "getDynamicArraySizeProfile"];
      WLeaf WText (TLit "IS-STRUCT-WITH-OPTIONAL-ELEMENT") [GM "getIsStructWithOptionalElement"];
      WCall "writeImplementationDataTypeSymbolProps" None [];
      WCall "writeImplementationDataTypeSubElements" None [];
      WLeaf WText (TLit "TYPE-EMITTER") [GM "getTypeEmitter"]]].
(** arxml_writer.py:5415-5419 *)
Definition w_writeArgumentDataPrototype : list wi :=
  [WSub (TLit "ARGUMENT-DATA-PROTOTYPE")
     [WCall "writeAutosarDataPrototype" None [];
      WLeaf WText (TLit "DIRECTION") [GM "getDirection"];
      WLeaf WText (TLit "SERVER-ARGUMENT-IMPL-POLICY") [GM "getServerArgumentImplPolicy"]]].
(** arxml_writer.py:5421-5429 *)
Definition w_writeClientServerOperationArguments : list wi :=
  [WIf (CNonEmpty [GM "getArguments"])
     [WSub (TLit "ARGUMENTS")
        [WFor [GM "getArguments"]
           [WIf (CInst [] ["ArgumentDataPrototype"])
              [WCall "writeArgumentDataPrototype" None []]
              [WFail NotImplementedError true]]]]
     []].
(** arxml_writer.py:5431-5436 *)
Definition w_writeClientServerOperationPossibleErrorRefs : list wi :=
  [WIf (CNonEmpty [GM "getPossibleErrorRefs"])
     [WSub (TLit "POSSIBLE-ERROR-REFS")
        [WFor [GM "getPossibleErrorRefs"]
           [WLeaf WRef (TLit "POSSIBLE-ERROR-REF") []]]]
     []].
(** arxml_writer.py:5438-5444 *)
Definition w_writeClientServerOperation : list wi :=
  [WSub (TLit "CLIENT-SERVER-OPERATION")
     [WCall "writeIdentifiable" None [];
      WCall "writeClientServerOperationArguments" None [];
      WLeaf WText (TLit "DIAG-ARG-INTEGRITY") [GM "getDiagArgIntegrity"];
      WCall "writeClientServerOperationPossibleErrorRefs" None []]].
(** arxml_writer.py:5446-5454 *)
Definition w_writeClientServerInterfaceOperations : list wi :=
  [WIf (CNonEmpty [GM "getOperations"])
     [WSub (TLit "OPERATIONS")
        [WFor [GM "getOperations"]
           [WIf (CInst [] ["ClientServerOperation"])
              [WCall "writeClientServerOperation" None []]
              [WFail NotImplementedError true]]]]
     []].
(** arxml_writer.py:5456-5460 *)
Definition w_writeApplicationError : list wi :=
  [WSub (TLit "APPLICATION-ERROR")
     [WCall "writeIdentifiable" None [];
      WLeaf WNum (TLit "ERROR-CODE") [GM "getErrorCode"]]].
(** arxml_writer.py:5462-5470 *)
Definition w_writePossibleErrors : list wi :=
  [WIf (CNonEmpty [GM "getPossibleErrors"])
     [WSub (TLit "POSSIBLE-ERRORS")
        [WFor [GM "getPossibleErrors"]
           [WIf (CInst [] ["ApplicationError"])
              [WCall "writeApplicationError" None []]
              [WFail NotImplementedError true]]]]
     []].
(** arxml_writer.py:5472-5475 *)
Definition w_writePortInterface : list wi :=
  [WCall "writeIdentifiable" None [];
   WLeaf WText (TLit "IS-SERVICE") [GA "isService"];
   WLeaf WText (TLit "SERVICE-KIND") [GA "serviceKind"]].
(** arxml_writer.py:5477-5478 *)
Definition w_writeDataInterface : list wi :=
  [WCall "writePortInterface" None []].
(** arxml_writer.py:5480-5484 *)
Definition w_writeParameterInterface : list wi :=
  [WSub (TLit "PARAMETER-INTERFACE")
     [WCall "writeDataInterface" None [];
      WCall "writeSwcInternalBehaviorParameterDataPrototypes" (Some (TLit "PARAMETERS")) [GM "getParameters"]]].
(** arxml_writer.py:5486-5494 *)
Definition w_writeNvDataInterfaceNvDatas : list wi :=
  [WIf (CNonEmpty [GM "getNvDatas"])
     [WSub (TLit "NV-DATAS")
        [WFor [GM "getNvDatas"]
           [WIf (CInst [] ["VariableDataPrototype"])
              [WCall "writeVariableDataPrototype" None []]
              [WFail NotImplementedError true]]]]
     []].
(** arxml_writer.py:5496-5500 *)
Definition w_writeNvDataInterface : list wi :=
  [WSub (TLit "NV-DATA-INTERFACE")
     [WCall "writeDataInterface" None [];
      WCall "writeNvDataInterfaceNvDatas" None []]].
(** arxml_writer.py:5502-5507 *)
Definition w_writeClientServerInterface : list wi :=
  [WSub (TLit "CLIENT-SERVER-INTERFACE")
     [WCall "writePortInterface" None [];
      WCall "writeClientServerInterfaceOperations" None [];
      WCall "writePossibleErrors" None []]].
(** arxml_writer.py:5509-5512 *)
Definition w_writeApplicationSwComponentType : list wi :=
  [WSub (TLit "APPLICATION-SW-COMPONENT-TYPE")
     [WCall "writeAtomicSwComponentType" None []]].
(** arxml_writer.py:5514-5518 *)
Definition w_writeEcuAbstractionSwComponentType : list wi :=
  [WSub (TLit "ECU-ABSTRACTION-SW-COMPONENT-TYPE")
     [WCall "writeAtomicSwComponentType" None [];
      WCall "writeHardwareElementRefs" None [GM "getHardwareElementRefs"]]].
(** arxml_writer.py:5520-5527 *)
Definition w_setApplicationArrayElement : list wi :=
  [WIf (CSome [])
     [WSub (TLit "ELEMENT")
        [WCall "writeApplicationCompositeElementDataPrototype" None [];
         WLeaf WText (TLit "ARRAY-SIZE-HANDLING") [GM "getArraySizeHandling"];
         WLeaf WText (TLit "ARRAY-SIZE-SEMANTICS") [GM "getArraySizeSemantics"];
         WLeaf WRef (TLit "INDEX-DATA-TYPE-REF") [GM "getIndexDataTypeRef"];
         WLeaf WNum (TLit "MAX-NUMBER-OF-ELEMENTS") [GM "getMaxNumberOfElements"]]]
     []].
(** arxml_writer.py:5529-5534 *)
Definition w_writeApplicationArrayDataType : list wi :=
  [WSub (TLit "APPLICATION-ARRAY-DATA-TYPE")
     [WCall "setApplicationCompositeDataType" None [];
      WLeaf WText (TLit "DYNAMIC-ARRAY-SIZE-PROFILE") [GM "getDynamicArraySizeProfile"];
      WCall "setApplicationArrayElement" None [GM "getApplicationArrayElement"]]].
(** arxml_writer.py:5536-5543 *)
Definition w_setSwRecordLayoutV : list wi :=
  [WIf (CSome [])
     [WSub TKey
        [WLeaf WText (TLit "SHORT-LABEL") [GM "getShortLabel"];
         WLeaf WRef (TLit "BASE-TYPE-REF") [GM "getBaseTypeRef"];
         WLeaf WText (TLit "SW-RECORD-LAYOUT-V-AXIS") [GM "getSwRecordLayoutVAxis"];
         WLeaf WText (TLit "SW-RECORD-LAYOUT-V-PROP") [GM "getSwRecordLayoutVProp"];
         WLeaf WText (TLit "SW-RECORD-LAYOUT-V-INDEX") [GM "getSwRecordLayoutVIndex"]]]
     []].
(** arxml_writer.py:5545-5548 *)
Definition w_writeSwRecordLayoutGroupSwRecordLayoutGroupContentType : list wi :=
  [WCall "setSwRecordLayoutGroup" (Some (TLit "SW-RECORD-LAYOUT-GROUP")) [GM "getSwRecordLayoutGroupContentType"; GM "getSwRecordLayoutGroup"];
   WCall "setSwRecordLayoutV" (Some (TLit "SW-RECORD-LAYOUT-V")) [GM "getSwRecordLayoutGroupContentType"; GM "getSwRecordLayoutV"]].
(** arxml_writer.py:5550-5560 *)
Definition w_setSwRecordLayoutGroup : list wi :=
  [WIf (CSome [])
     [WSub TKey
        [WLeaf WText (TLit "SHORT-LABEL") [GM "getShortLabel"];
         WLeaf WText (TLit "CATEGORY") [GM "getCategory"];
         WLeaf WText (TLit "SW-RECORD-LAYOUT-GROUP-AXIS") [GM "getSwRecordLayoutGroupAxis"];
         WLeaf WText (TLit "SW-RECORD-LAYOUT-GROUP-INDEX") [GM "getSwRecordLayoutGroupIndex"];
         WLeaf WText (TLit "SW-RECORD-LAYOUT-GROUP-FROM") [GM "getSwRecordLayoutGroupFrom"];
         WLeaf WText (TLit "SW-RECORD-LAYOUT-GROUP-TO") [GM "getSwRecordLayoutGroupTo"];
         WLeaf WNum (TLit "SW-RECORD-LAYOUT-GROUP-STEP") [GM "getSwRecordLayoutGroupStep"];
         WCall "writeSwRecordLayoutGroupSwRecordLayoutGroupContentType" None []]]
     []].
(** arxml_writer.py:5562-5566 *)
Definition w_writeSwRecordLayout : list wi :=
  [WSub (TLit "SW-RECORD-LAYOUT")
     [WCall "writeIdentifiable" None [];
      WCall "setSwRecordLayoutGroup" (Some (TLit "SW-RECORD-LAYOUT-GROUP")) [GM "getSwRecordLayoutGroup"]]].
(** arxml_writer.py:5568-5579 *)
Definition w_writeSwAddrMethod : list wi :=
  [WSub (TLit "SW-ADDR-METHOD")
     [WCall "writeIdentifiable" None [];
      WLeaf WText (TLit "MEMORY-ALLOCATION-KEYWORD-POLICY") [GM "getMemoryAllocationKeywordPolicy"];
      WIf (CNonEmpty [GM "getOptions"])
        [WSub (TLit "OPTIONS")
           [WFor [GM "getOptions"]
              [WLeaf WText (TLit "OPTION") []]]]
        [];
      WLeaf WText (TLit "SECTION-INITIALIZATION-POLICY") [GM "getSectionInitializationPolicy"];
      WLeaf WText (TLit "SECTION-TYPE") [GM "getSectionType"]]].
(** arxml_writer.py:5581-5582 *)
Definition w_writeTriggerInterface : list wi :=
  [].
(** arxml_writer.py:5586-5589 *)
Definition w_writeServiceSwComponentType : list wi :=
  [WSub (TLit "SERVICE-SW-COMPONENT-TYPE")
     [WCall "writeAtomicSwComponentType" None []]].
(** arxml_writer.py:5591-5595 *)
Definition w_writeSensorActuatorSwComponentType : list wi :=
  [WSub (TLit "SENSOR-ACTUATOR-SW-COMPONENT-TYPE")
     [WCall "writeAtomicSwComponentType" None [];
      WLeaf WRef (TLit "SENSOR-ACTUATOR-REF") [GM "getSensorActuatorRef"]]].
(** arxml_writer.py:5597-5600 *)
Definition w_writeServiceProxySwComponentType : list wi :=
  [WSub (TLit "SERVICE-PROXY-SW-COMPONENT-TYPE")
     [WCall "writeAtomicSwComponentType" None []]].
(** arxml_writer.py:5602-5615 *)
Definition w_writeNvBlockSwComponentType : list wi :=
  [WSub (TLit "NV-BLOCK-SW-COMPONENT-TYPE")
     [WCall "writeAtomicSwComponentType" None [];
      WIf (CNonEmpty [GM "getBulkNvDataDescriptors"])
        [WSub (TLit "BULK-NV-DATA-DESCRIPTORS")
           [WFor [GM "getBulkNvDataDescriptors"]
              [WCall "writeBulkNvDataDescriptor" None []]]]
        [];
      WIf (CNonEmpty [GM "getNvBlockDescriptors"])
        [WSub (TLit "NV-BLOCK-DESCRIPTORS")
           [WFor [GM "getNvBlockDescriptors"]
              [WCall "writeNvBlockDescriptor" None []]]]
        []]].
(** arxml_writer.py:5617-5625 *)
Definition w_writeDataTypeMaps : list wi :=
  [WIf (CNonEmpty [GM "getDataTypeMaps"])
     [WSub (TLit "DATA-TYPE-MAPS")
        [WFor [GM "getDataTypeMaps"]
           [WSub (TLit "DATA-TYPE-MAP")
              [WAttrs [];
               WLeaf WRef (TLit "APPLICATION-DATA-TYPE-REF") [GM "getApplicationDataTypeRef"];
               WLeaf WRef (TLit "IMPLEMENTATION-DATA-TYPE-REF") [GM "getImplementationDataTypeRef"]]]]]
     []].
(** arxml_writer.py:5627-5635 *)
Definition w_writeModeRequestTypeMaps : list wi :=
  [WIf (CNonEmpty [GM "getModeRequestTypeMaps"])
     [WSub (TLit "MODE-REQUEST-TYPE-MAPS")
        [WFor [GM "getModeRequestTypeMaps"]
           [WSub (TLit "MODE-REQUEST-TYPE-MAP")
              [WAttrs [];
               WLeaf WRef (TLit "IMPLEMENTATION-DATA-TYPE-REF") [GM "getImplementationDataTypeRef"];
               WLeaf WRef (TLit "MODE-GROUP-REF") [GM "getModeGroupRef"]]]]]
     []].
(** arxml_writer.py:5637-5642 *)
Definition w_writeDataTypeMappingSet : list wi :=
  [WSub (TLit "DATA-TYPE-MAPPING-SET")
     [WCall "writeIdentifiable" None [];
      WCall "writeDataTypeMaps" None [];
      WCall "writeModeRequestTypeMaps" None []]].
(** arxml_writer.py:5644-5647 *)
Definition w_setModeDeclaration : list wi :=
  [WSub (TLit "MODE-DECLARATION")
     [WCall "writeIdentifiable" None [];
      WLeaf WNum (TLit "VALUE") [GM "getValue"]]].
(** arxml_writer.py:5649-5654 *)
Definition w_writeModeDeclarationGroupModeDeclaration : list wi :=
  [WIf (CNonEmpty [GM "getModeDeclarations"])
     [WSub (TLit "MODE-DECLARATIONS")
        [WFor [GM "getModeDeclarations"]
           [WCall "setModeDeclaration" None []]]]
     []].
(** arxml_writer.py:5656-5662 *)
Definition w_writeModeErrorBehavior : list wi :=
  [WIf (CNot (CSome []))
     []
     [WSub TKey
        [WLeaf WRef (TLit "DEFAULT-MODE-REF") [GM "getDefaultModeRef"];
         WLeaf WText (TLit "ERROR-REACTION-POLICY") [GM "getErrorReactionPolicy"]]]].
(** arxml_writer.py:5664-5672 *)
Definition w_writeModeDeclarationGroupModeTransition : list wi :=
  [WIf (CNonEmpty [GM "getModeTransitions"])
     [WSub (TLit "MODE-TRANSITIONS")
        [WFor [GM "getModeTransitions"]
           [WSub (TLit "MODE-TRANSITION")
              [WCall "writeIdentifiable" None [];
               WLeaf WRef (TLit "ENTERED-MODE-REF") [GM "getEnteredModeRef"];
               WLeaf WRef (TLit "EXITED-MODE-REF") [GM "getExitedModeRef"]]]]]
     []].
(** arxml_writer.py:5674-5683 *)
Definition w_writeModeDeclarationGroup : list wi :=
  [WSub (TLit "MODE-DECLARATION-GROUP")
     [WCall "writeIdentifiable" None [];
      WLeaf WRef (TLit "INITIAL-MODE-REF") [GA "initialModeRef"];
      WCall "writeModeDeclarationGroupModeDeclaration" None [];
      WCall "writeModeErrorBehavior" (Some (TLit "MODE-MANAGER-ERROR-BEHAVIOR")) [GM "getModeManagerErrorBehavior"];
      WCall "writeModeDeclarationGroupModeTransition" None [];
      WCall "writeModeErrorBehavior" (Some (TLit "MODE-USER-ERROR-BEHAVIOR")) [GM "getModeUserErrorBehavior"];
      WLeaf WNum (TLit "ON-TRANSITION-VALUE") [GM "getOnTransitionValue"]]].
(** arxml_writer.py:5685-5691 *)
Definition w_writeModeSwitchInterfaceModeGroup : list wi :=
  [WIf (CSome [GM "getModeGroup"])
     [WSub (TLit "MODE-GROUP")
        [WCall "writeIdentifiable" None [GM "getModeGroup"];
         WLeaf WRef (TLit "TYPE-TREF") [GM "getModeGroup"; GM "getTypeTRef"];
         WLeaf WText (TLit "SW-CALIBRATION-ACCESS") [GM "getModeGroup"; GM "getSwCalibrationAccess"]]]
     []].
(** arxml_writer.py:5693-5697 *)
Definition w_writeModeSwitchInterface : list wi :=
  [WSub (TLit "MODE-SWITCH-INTERFACE")
     [WCall "writePortInterface" None [];
      WCall "writeModeSwitchInterfaceModeGroup" None []]].
(** arxml_writer.py:5699-5703 *)
Definition w_setEOCExecutableEntityRefSuccessorRefs : list wi :=
  [WIf (CNonEmpty [])
     [WSub (TLit "SUCCESSOR-REFS")
        [WFor []
           [WLeaf WRef (TLit "SUCCESSOR-REF") []]]]
     []].
(** arxml_writer.py:5705-5708 *)
Definition w_writeEOCExecutableEntityRef : list wi :=
  [WSub (TLit "EOC-EXECUTABLE-ENTITY-REF")
     [WCall "writeIdentifiable" None [];
      WCall "setEOCExecutableEntityRefSuccessorRefs" None [GM "getSuccessorRefs"]]].
(** arxml_writer.py:5710-5718 *)
Definition w_writeExecutionOrderConstraintOrderedElement : list wi :=
  [WIf (CNonEmpty [GM "getOrderedElements"])
     [WSub (TLit "ORDERED-ELEMENTS")
        [WFor [GM "getOrderedElements"]
           [WIf (CInst [] ["EOCExecutableEntityRef"])
              [WCall "writeEOCExecutableEntityRef" None []]
              [WFail NotImplementedError true]]]]
     []].
(** arxml_writer.py:5720-5724 *)
Definition w_writeExecutionOrderConstraint : list wi :=
  [WSub (TLit "EXECUTION-ORDER-CONSTRAINT")
     [WCall "writeIdentifiable" None [];
      WCall "writeExecutionOrderConstraintOrderedElement" None []]].
(** arxml_writer.py:5726-5734 *)
Definition w_writeTimingRequirements : list wi :=
  [WIf (CNonEmpty [GM "getTimingRequirements"])
     [WSub (TLit "TIMING-REQUIREMENTS")
        [WFor [GM "getTimingRequirements"]
           [WIf (CInst [] ["ExecutionOrderConstraint"])
              [WCall "writeExecutionOrderConstraint" None []]
              [WFail NotImplementedError true]]]]
     []].
(** arxml_writer.py:5736-5737 *)
Definition w_writeTimingExtension : list wi :=
  [WCall "writeTimingRequirements" None []].
(** arxml_writer.py:5739-5743 *)
Definition w_writeSwcTiming : list wi :=
  [WSub (TLit "SWC-TIMING")
     [WCall "writeIdentifiable" None [];
      WCall "writeTimingExtension" None []]].
(** arxml_writer.py:5745-5754 *)
Definition w_writePduToFrameMappings : list wi :=
  [WIf (CNonEmpty [GM "getPduToFrameMappings"])
     [WSub (TLit "PDU-TO-FRAME-MAPPINGS")
        [WFor [GM "getPduToFrameMappings"]
           [WSub (TLit "PDU-TO-FRAME-MAPPING")
              [WCall "writeIdentifiable" None [];
               WLeaf WText (TLit "PACKING-BYTE-ORDER") [GA "packingByteOrder"];
               WLeaf WRef (TLit "PDU-REF") [GA "pduRef"];
               WLeaf WNum (TLit "START-POSITION") [GA "startPosition"]]]]]
     []].
(** arxml_writer.py:5756-5759 *)
Definition w_writeFrame : list wi :=
  [WCall "writeIdentifiable" None [];
   WLeaf WNum (TLit "FRAME-LENGTH") [GA "frameLength"];
   WCall "writePduToFrameMappings" None []].
(** arxml_writer.py:5761-5764 *)
Definition w_writeLinUnconditionalFrame : list wi :=
  [WSub (TLit "LIN-UNCONDITIONAL-FRAME")
     [WCall "writeFrame" None []]].
(** arxml_writer.py:5766-5785 *)
Definition w_writeNmNode : list wi :=
  [WCall "writeIdentifiable" None [];
   WLeaf WRef (TLit "CONTROLLER-REF") [GM "getControllerRef"];
   WLeaf WNum (TLit "NM-COORD-CLUSTER") [GM "getNmCoordCluster"];
   WLeaf WText (TLit "NM-COORDINATOR-ROLE") [GM "getNmCoordinatorRole"];
   WLeaf WRef (TLit "NM-IF-ECU-REF") [GM "getNmIfEcuRef"];
   WLeaf WNum (TLit "NM-NODE-ID") [GM "getNmNodeId"];
   WLeaf WText (TLit "NM-PASSIVE-MODE-ENABLED") [GM "getNmPassiveModeEnabled"];
   WIf (CNonEmpty [GM "getRxNmPduRefs"])
     [WSub (TLit "RX-NM-PDU-REFS")
        [WFor [GM "getRxNmPduRefs"]
           [WLeaf WRef (TLit "RX-NM-PDU-REF") []]]]
     [];
   WIf (CNonEmpty [GM "getTxNmPduRefs"])
     [WSub (TLit "TX-NM-PDU-REFS")
        [WFor [GM "getTxNmPduRefs"]
           [WLeaf WRef (TLit "TX-NM-PDU-REF") []]]]
     []].
(** arxml_writer.py:5787-5794 *)
Definition w_writeCanNmNode : list wi :=
  [WSub (TLit "CAN-NM-NODE")
     [WCall "writeNmNode" None [];
      WLeaf WText (TLit "NM-CAR-WAKE-UP-RX-ENABLED") [GM "getNmCarWakeUpRxEnabled"];
      WLeaf WText (TLit "NM-MSG-CYCLE-OFFSET") [GM "getNmMsgCycleOffset"];
      WLeaf WText (TLit "NM-MSG-REDUCED-TIME") [GM "getNmMsgReducedTime"];
      WCall "setChildElementRxIdentifierRange" (Some (TLit "NM-RANGE-CONFIG")) [GM "getNmRangeConfig"]]].
(** arxml_writer.py:5796-5800 *)
Definition w_writeUdpNmNode : list wi :=
  [WSub (TLit "UDP-NM-NODE")
     [WCall "writeNmNode" None [];
      WLeaf WText (TLit "NM-MSG-CYCLE-OFFSET") [GM "getNmMsgCycleOffset"]]].
(** arxml_writer.py:5802-5807 *)
Definition w_writeJ1939NmNode : list wi :=
  [WSub (TLit "J-1939-NM-NODE")
     [WCall "writeNmNode" None [];
      WLeaf WText (TLit "ADDRESS-CONFIGURATION-CAPABILITY") [GM "getAddressConfigurationCapability"];
      WCall "setChildElementJ1939NodeName" (Some (TLit "NODE-NAME")) [GM "getNodeName"]]].
(** arxml_writer.py:5809-5821 *)
Definition w_writeNmClusterNmNodes : list wi :=
  [WIf (CNonEmpty [GM "getNmNodes"])
     [WSub (TLit "NM-NODES")
        [WFor [GM "getNmNodes"]
           [WIf (CInst [] ["CanNmNode"])
              [WCall "writeCanNmNode" None []]
              [WIf (CInst [] ["UdpNmNode"])
                 [WCall "writeUdpNmNode" None []]
                 [WIf (CInst [] ["J1939NmNode"])
                    [WCall "writeJ1939NmNode" None []]
                    [WFail NotImplementedError true]]]]]]
     []].
(** arxml_writer.py:5823-5831 *)
Definition w_writeCanNmClusterCoupling : list wi :=
  [WSub (TLit "CAN-NM-CLUSTER-COUPLING")
     [WIf (CNonEmpty [GM "getCoupledClusterRefs"])
        [WSub (TLit "COUPLED-CLUSTER-REFS")
           [WFor [GM "getCoupledClusterRefs"]
              [WLeaf WRef (TLit "COUPLED-CLUSTER-REF") []]]]
        [];
      WLeaf WText (TLit "NM-BUSLOAD-REDUCTION-ENABLED") [GM "getNmBusloadReductionEnabled"];
      WLeaf WText (TLit "NM-IMMEDIATE-RESTART-ENABLED") [GM "getNmImmediateRestartEnabled"]]].
(** arxml_writer.py:5833-5840 *)
Definition w_writeUdpNmClusterCoupling : list wi :=
  [WSub (TLit "UDP-NM-CLUSTER-COUPLING")
     [WIf (CNonEmpty [GM "getCoupledClusterRefs"])
        [WSub (TLit "COUPLED-CLUSTER-REFS")
           [WFor [GM "getCoupledClusterRefs"]
              [WLeaf WRef (TLit "COUPLED-CLUSTER-REF") []]]]
        [];
      WLeaf WText (TLit "NM-IMMEDIATE-RESTART-ENABLED") [GM "getNmImmediateRestartEnabled"]]].
(** arxml_writer.py:5842-5853 *)
Definition w_writeNmConfigNmClusterCouplings : list wi :=
  [WIf (CNonEmpty [GM "getNmClusterCouplings"])
     [WSub (TLit "NM-CLUSTER-COUPLINGS")
        [WFor [GM "getNmClusterCouplings"]
           [WIf (CInst [] ["CanNmClusterCoupling"])
              [WCall "writeCanNmClusterCoupling" None []]
              [WIf (CInst [] ["UdpNmClusterCoupling"])
                 [WCall "writeUdpNmClusterCoupling" None []]
                 [WFail NotImplementedError true]]]]]
     []].
(** arxml_writer.py:5855-5862 *)
Definition w_writeNmCluster : list wi :=
  [WCall "writeIdentifiable" None [];
   WLeaf WRef (TLit "COMMUNICATION-CLUSTER-REF") [GA "communicationClusterRef"];
   WLeaf WNum (TLit "NM-CHANNEL-ID") [GA "nmChannelId"];
   WLeaf WText (TLit "NM-CHANNEL-SLEEP-MASTER") [GA "nmChannelSleepMaster"];
   WCall "writeNmClusterNmNodes" None [];
   WLeaf WText (TLit "NM-SYNCHRONIZING-NETWORK") [GM "getNmSynchronizingNetwork"]].
(** arxml_writer.py:5864-5882 *)
Definition w_writeCanNmCluster : list wi :=
  [WSub (TLit "CAN-NM-CLUSTER")
     [WCall "writeNmCluster" None [];
      WLeaf WText (TLit "NM-BUSLOAD-REDUCTION-ACTIVE") [GM "getNmBusloadReductionActive"];
      WLeaf WText (TLit "NM-CAR-WAKE-UP-RX-ENABLED") [GM "getNmCarWakeUpRxEnabled"];
      WLeaf WNum (TLit "NM-CBV-POSITION") [GM "getNmCbvPosition"];
      WLeaf WText (TLit "NM-CHANNEL-ACTIVE") [GM "getNmChannelActive"];
      WLeaf WText (TLit "NM-IMMEDIATE-NM-CYCLE-TIME") [GM "getNmImmediateNmCycleTime"];
      WLeaf WNum (TLit "NM-IMMEDIATE-NM-TRANSMISSIONS") [GM "getNmImmediateNmTransmissions"];
      WLeaf WText (TLit "NM-MESSAGE-TIMEOUT-TIME") [GM "getNmMessageTimeoutTime"];
      WLeaf WText (TLit "NM-MSG-CYCLE-TIME") [GM "getNmMsgCycleTime"];
      WLeaf WText (TLit "NM-NETWORK-TIMEOUT") [GM "getNmNetworkTimeout"];
      WLeaf WNum (TLit "NM-NID-POSITION") [GM "getNmNidPosition"];
      WLeaf WText (TLit "NM-REMOTE-SLEEP-INDICATION-TIME") [GM "getNmRemoteSleepIndicationTime"];
      WLeaf WText (TLit "NM-REPEAT-MESSAGE-TIME") [GM "getNmRepeatMessageTime"];
      WLeaf WNum (TLit "NM-USER-DATA-LENGTH") [GM "getNmUserDataLength"];
      WLeaf WText (TLit "NM-WAIT-BUS-SLEEP-TIME") [GM "getNmWaitBusSleepTime"]]].
(** arxml_writer.py:5884-5899 *)
Definition w_writeUdpNmCluster : list wi :=
  [WSub (TLit "UDP-NM-CLUSTER")
     [WCall "writeNmCluster" None [];
      WLeaf WNum (TLit "NM-CBV-POSITION") [GM "getNmCbvPosition"];
      WLeaf WText (TLit "NM-CHANNEL-ACTIVE") [GM "getNmChannelActive"];
      WLeaf WText (TLit "NM-IMMEDIATE-NM-CYCLE-TIME") [GM "getNmImmediateNmCycleTime"];
      WLeaf WNum (TLit "NM-IMMEDIATE-NM-TRANSMISSIONS") [GM "getNmImmediateNmTransmissions"];
      WLeaf WText (TLit "NM-MESSAGE-TIMEOUT-TIME") [GM "getNmMessageTimeoutTime"];
      WLeaf WText (TLit "NM-MSG-CYCLE-TIME") [GM "getNmMsgCycleTime"];
      WLeaf WText (TLit "NM-NETWORK-TIMEOUT") [GM "getNmNetworkTimeout"];
      WLeaf WNum (TLit "NM-NID-POSITION") [GM "getNmNidPosition"];
      WLeaf WText (TLit "NM-REMOTE-SLEEP-INDICATION-TIME") [GM "getNmRemoteSleepIndicationTime"];
      WLeaf WText (TLit "NM-REPEAT-MESSAGE-TIME") [GM "getNmRepeatMessageTime"];
      WLeaf WText (TLit "NM-WAIT-BUS-SLEEP-TIME") [GM "getNmWaitBusSleepTime"];
      WLeaf WRef (TLit "VLAN-REF") [GM "getVlanRef"]]].
(** arxml_writer.py:5901-5911 *)
Definition w_writeNmConfigNmClusters : list wi :=
  [WIf (CNonEmpty [GM "getNmClusters"])
     [WSub (TLit "NM-CLUSTERS")
        [WFor [GM "getNmClusters"]
           [WIf (CInst [] ["CanNmCluster"])
              [WCall "writeCanNmCluster" None []]
              [WIf (CInst [] ["UdpNmCluster"])
                 [WCall "writeUdpNmCluster" None []]
                 [WFail NotImplementedError true]]]]]
     []].
(** arxml_writer.py:5913-5916 *)
Definition w_writeUdpNmEcu : list wi :=
  [WIf (CSome [])
     [WSub (TLit "UDP-NM-ECU")
        [WLeaf WText (TLit "NM-SYNCHRONIZATION-POINT-ENABLED") [GM "getNmSynchronizationPointEnabled"]]]
     []].
(** arxml_writer.py:5918-5926 *)
Definition w_writeBusDependentNmEcus : list wi :=
  [WIf (CNonEmpty [GM "getBusDependentNmEcus"])
     [WSub (TLit "BUS-DEPENDENT-NM-ECUS")
        [WFor [GM "getBusDependentNmEcus"]
           [WIf (CInst [] ["UdpNmEcu"])
              [WCall "writeUdpNmEcu" None []]
              [WFail NotImplementedError true]]]]
     []].
(** arxml_writer.py:5928-5941 *)
Definition w_writeNmEcu : list wi :=
  [WSub (TLit "NM-ECU")
     [WCall "writeIdentifiable" None [];
      WCall "writeBusDependentNmEcus" None [];
      WLeaf WRef (TLit "ECU-INSTANCE-REF") [GM "getEcuInstanceRef"];
      WLeaf WText (TLit "NM-BUS-SYNCHRONIZATION-ENABLED") [GM "getNmBusSynchronizationEnabled"];
      WLeaf WText (TLit "NM-COM-CONTROL-ENABLED") [GM "getNmComControlEnabled"];
      WLeaf WText (TLit "NM-NODE-DETECTION-ENABLED") [GM "getNmNodeDetectionEnabled"];
      WLeaf WText (TLit "NM-NODE-ID-ENABLED") [GM "getNmNodeIdEnabled"];
      WLeaf WText (TLit "NM-PDU-RX-INDICATION-ENABLED") [GM "getNmPduRxIndicationEnabled"];
      WLeaf WText (TLit "NM-REMOTE-SLEEP-IND-ENABLED") [GM "getNmRemoteSleepIndEnabled"];
      WLeaf WText (TLit "NM-REPEAT-MSG-IND-ENABLED") [GM "getNmRepeatMsgIndEnabled"];
      WLeaf WText (TLit "NM-STATE-CHANGE-IND-ENABLED") [GM "getNmStateChangeIndEnabled"];
      WLeaf WText (TLit "NM-USER-DATA-ENABLED") [GM "getNmUserDataEnabled"]]].
(** arxml_writer.py:5943-5951 *)
Definition w_writeNmConfigNmIfEcus : list wi :=
  [WIf (CNonEmpty [GM "getNmIfEcus"])
     [WSub (TLit "NM-IF-ECUS")
        [WFor [GM "getNmIfEcus"]
           [WIf (CInst [] ["NmEcu"])
              [WCall "writeNmEcu" None []]
              [WFail NotImplementedError true]]]]
     []].
(** arxml_writer.py:5953-5959 *)
Definition w_writeNmConfig : list wi :=
  [WSub (TLit "NM-CONFIG")
     [WCall "writeIdentifiable" None [];
      WCall "writeNmConfigNmClusters" None [];
      WCall "writeNmConfigNmClusterCouplings" None [];
      WCall "writeNmConfigNmIfEcus" None []]].
(** arxml_writer.py:5961-5970 *)
Definition w_writeISignalToIPduMapping : list wi :=
  [WIf (CSome [])
     [WSub (TLit "I-SIGNAL-TO-I-PDU-MAPPING")
        [WCall "writeIdentifiable" None [];
         WLeaf WRef (TLit "I-SIGNAL-REF") [GM "getISignalRef"];
         WLeaf WRef (TLit "I-SIGNAL-GROUP-REF") [GM "getISignalGroupRef"];
         WLeaf WText (TLit "PACKING-BYTE-ORDER") [GM "getPackingByteOrder"];
         WLeaf WNum (TLit "START-POSITION") [GM "getStartPosition"];
         WLeaf WText (TLit "TRANSFER-PROPERTY") [GM "getTransferProperty"];
         WLeaf WNum (TLit "UPDATE-INDICATION-BIT-POSITION") [GM "getUpdateIndicationBitPosition"]]]
     []].
(** arxml_writer.py:5972-5980 *)
Definition w_writeNmPduISignalToIPduMappings : list wi :=
  [WIf (CNonEmpty [GM "getISignalToIPduMappings"])
     [WSub (TLit "I-SIGNAL-TO-I-PDU-MAPPINGS")
        [WFor [GM "getISignalToIPduMappings"]
           [WIf (CInst [] ["ISignalToIPduMapping"])
              [WCall "writeISignalToIPduMapping" None []]
              [WFail NotImplementedError true]]]]
     []].
(** arxml_writer.py:5982-5987 *)
Definition w_writeNmPdu : list wi :=
  [WSub (TLit "NM-PDU")
     [WCall "writePdu" None [];
      WCall "writeNmPduISignalToIPduMappings" None [];
      WLeaf WNum (TLit "UNUSED-BIT-PATTERN") [GM "getUnusedBitPattern"]]].
(** arxml_writer.py:5989-5992 *)
Definition w_writeNPdu : list wi :=
  [WSub (TLit "N-PDU")
     [WCall "writePdu" None []]].
(** arxml_writer.py:5994-5998 *)
Definition w_writeDcmIPdu : list wi :=
  [WSub (TLit "DCM-I-PDU")
     [WCall "writeIPdu" None [];
      WLeaf WText (TLit "DIAG-PDU-TYPE") [GM "getDiagPduType"]]].
(** arxml_writer.py:6000-6013 *)
Definition w_setSecureCommunicationProps : list wi :=
  [WIf (CSome [])
     [WSub TKey
        [WLeaf WNum (TLit "AUTH-DATA-FRESHNESS-LENGTH") [GM "getAuthDataFreshnessLength"];
         WLeaf WNum (TLit "AUTH-DATA-FRESHNESS-START-POSITION") [GM "getAuthDataFreshnessStartPosition"];
         WLeaf WNum (TLit "AUTHENTICATION-BUILD-ATTEMPTS") [GM "getAuthenticationBuildAttempts"];
         WLeaf WNum (TLit "AUTHENTICATION-RETRIES") [GM "getAuthenticationRetries"];
         WLeaf WNum (TLit "DATA-ID") [GM "getDataId"];
         WLeaf WNum (TLit "FRESHNESS-VALUE-ID") [GM "getFreshnessValueId"];
         WLeaf WNum (TLit "MESSAGE-LINK-LENGTH") [GM "getMessageLinkLength"];
         WLeaf WNum (TLit "MESSAGE-LINK-POSITION") [GM "getMessageLinkPosition"];
         WLeaf WNum (TLit "SECONDARY-FRESHNESS-VALUE-ID") [GM "getSecondaryFreshnessValueId"];
         WLeaf WNum (TLit "SECURED-AREA-LENGTH") [GM "getSecuredAreaLength"];
         WLeaf WNum (TLit "SECURED-AREA-OFFSET") [GM "getSecuredAreaOffset"]]]
     []].
(** arxml_writer.py:6015-6023 *)
Definition w_writeSecuredIPdu : list wi :=
  [WSub (TLit "SECURED-I-PDU")
     [WCall "writeIPdu" None [];
      WLeaf WRef (TLit "AUTHENTICATION-PROPS-REF") [GM "getAuthenticationPropsRef"];
      WLeaf WRef (TLit "FRESHNESS-PROPS-REF") [GM "getFreshnessPropsRef"];
      WLeaf WRef (TLit "PAYLOAD-REF") [GM "getPayloadRef"];
      WCall "setSecureCommunicationProps" (Some (TLit "SECURE-COMMUNICATION-PROPS")) [GM "getSecureCommunicationProps"];
      WLeaf WText (TLit "USE-AS-CRYPTOGRAPHIC-I-PDU") [GM "getUseAsCryptographicIPdu"]]].
(** arxml_writer.py:6025-6027 *)
Definition w_writeTpConfig : list wi :=
  [WCall "writeIdentifiable" None [];
   WLeaf WRef (TLit "COMMUNICATION-CLUSTER-REF") [GM "getCommunicationClusterRef"]].
(** arxml_writer.py:6029-6034 *)
Definition w_writeCanTpAddress : list wi :=
  [WIf (CSome [])
     [WSub (TLit "CAN-TP-ADDRESS")
        [WCall "writeIdentifiable" None [];
         WLeaf WNum (TLit "TP-ADDRESS") [GM "getTpAddress"];
         WLeaf WNum (TLit "TP-ADDRESS-EXTENSION-VALUE") [GM "getTpAddressExtensionValue"]]]
     []].
(** arxml_writer.py:6036-6044 *)
Definition w_writeCanTpConfigTpAddresses : list wi :=
  [WIf (CNonEmpty [GM "getTpAddresses"])
     [WSub (TLit "TP-ADDRESSS")
        [WFor [GM "getTpAddresses"]
           [WIf (CInst [] ["CanTpAddress"])
              [WCall "writeCanTpAddress" None []]
              [WFail NotImplementedError true]]]]
     []].
(** arxml_writer.py:6046-6051 *)
Definition w_writeCanTpChannel : list wi :=
  [WIf (CSome [])
     [WSub (TLit "CAN-TP-CHANNEL")
        [WCall "writeIdentifiable" None [];
         WLeaf WNum (TLit "CHANNEL-ID") [GM "getChannelId"];
         WLeaf WText (TLit "CHANNEL-MODE") [GM "getChannelMode"]]]
     []].
(** arxml_writer.py:6053-6061 *)
Definition w_writeCanTpConfigTpChannels : list wi :=
  [WIf (CNonEmpty [GM "getTpChannels"])
     [WSub (TLit "TP-CHANNELS")
        [WFor [GM "getTpChannels"]
           [WIf (CInst [] ["CanTpChannel"])
              [WCall "writeCanTpChannel" None []]
              [WFail NotImplementedError true]]]]
     []].
(** arxml_writer.py:6063-6068 *)
Definition w_writeTpConnection : list wi :=
  [WAttrs [];
   WIf (CSome [GM "getIdent"])
     [WSub (TLit "IDENT")
        [WCall "writeReferrable" None [GM "getIdent"]]]
     []].
(** arxml_writer.py:6070-6075 *)
Definition w_writeTpConnectionReceiverRefs : list wi :=
  [WIf (CNonEmpty [GM "getReceiverRefs"])
     [WSub (TLit "RECEIVER-REFS")
        [WFor [GM "getReceiverRefs"]
           [WLeaf WRef (TLit "RECEIVER-REF") []]]]
     []].
(** arxml_writer.py:6077-6096 *)
Definition w_writeCanTpConnection : list wi :=
  [WIf (CSome [])
     [WSub (TLit "CAN-TP-CONNECTION")
        [WCall "writeTpConnection" None [];
         WLeaf WText (TLit "ADDRESSING-FORMAT") [GM "getAddressingFormat"];
         WLeaf WRef (TLit "CAN-TP-CHANNEL-REF") [GM "getCanTpChannelRef"];
         WLeaf WText (TLit "CANCELLATION") [GM "getCancellation"];
         WLeaf WRef (TLit "DATA-PDU-REF") [GM "getDataPduRef"];
         WLeaf WRef (TLit "FLOW-CONTROL-PDU-REF") [GM "getFlowControlPduRef"];
         WLeaf WNum (TLit "MAX-BLOCK-SIZE") [GM "getMaxBlockSize"];
         WLeaf WRef (TLit "MULTICAST-REF") [GM "getMulticastRef"];
         WLeaf WText (TLit "PADDING-ACTIVATION") [GM "getPaddingActivation"];
         WCall "writeTpConnectionReceiverRefs" None [];
         WLeaf WText (TLit "TA-TYPE") [GM "getTaType"];
         WLeaf WText (TLit "TIMEOUT-BR") [GM "getTimeoutBr"];
         WLeaf WText (TLit "TIMEOUT-BS") [GM "getTimeoutBs"];
         WLeaf WText (TLit "TIMEOUT-CR") [GM "getTimeoutCr"];
         WLeaf WText (TLit "TIMEOUT-CS") [GM "getTimeoutCs"];
         WLeaf WRef (TLit "TP-SDU-REF") [GM "getTpSduRef"];
         WLeaf WRef (TLit "TRANSMITTER-REF") [GM "getTransmitterRef"]]]
     []].
(** arxml_writer.py:6098-6106 *)
Definition w_writeCanTpConfigTpConnections : list wi :=
  [WIf (CNonEmpty [GM "getTpConnections"])
     [WSub (TLit "TP-CONNECTIONS")
        [WFor [GM "getTpConnections"]
           [WIf (CInst [] ["CanTpConnection"])
              [WCall "writeCanTpConnection" None []]
              [WFail NotImplementedError true]]]]
     []].
(** arxml_writer.py:6108-6112 *)
Definition w_writeCanTpEcu : list wi :=
  [WIf (CSome [])
     [WSub (TLit "CAN-TP-ECU")
        [WLeaf WText (TLit "CYCLE-TIME-MAIN-FUNCTION") [GM "getCycleTimeMainFunction"];
         WLeaf WRef (TLit "ECU-INSTANCE-REF") [GM "getEcuInstanceRef"]]]
     []].
(** arxml_writer.py:6114-6122 *)
Definition w_writeCanTpConfigTpEcus : list wi :=
  [WIf (CNonEmpty [GM "getTpEcus"])
     [WSub (TLit "TP-ECUS")
        [WFor [GM "getTpEcus"]
           [WIf (CInst [] ["CanTpEcu"])
              [WCall "writeCanTpEcu" None []]
              [WFail NotImplementedError true]]]]
     []].
(** arxml_writer.py:6124-6133 *)
Definition w_writeCanTpNode : list wi :=
  [WIf (CSome [])
     [WSub (TLit "CAN-TP-NODE")
        [WCall "writeIdentifiable" None [];
         WLeaf WRef (TLit "CONNECTOR-REF") [GM "getConnectorRef"];
         WLeaf WNum (TLit "MAX-FC-WAIT") [GM "getMaxFcWait"];
         WLeaf WText (TLit "ST-MIN") [GM "getStMin"];
         WLeaf WText (TLit "TIMEOUT-AR") [GM "getTimeoutAr"];
         WLeaf WText (TLit "TIMEOUT-AS") [GM "getTimeoutAs"];
         WLeaf WRef (TLit "TP-ADDRESS-REF") [GM "getTpAddressRef"]]]
     []].
(** arxml_writer.py:6135-6143 *)
Definition w_writeCanTpConfigTpNodes : list wi :=
  [WIf (CNonEmpty [GM "getTpNodes"])
     [WSub (TLit "TP-NODES")
        [WFor [GM "getTpNodes"]
           [WIf (CInst [] ["CanTpNode"])
              [WCall "writeCanTpNode" None []]
              [WFail NotImplementedError true]]]]
     []].
(** arxml_writer.py:6145-6153 *)
Definition w_writeCanTpConfig : list wi :=
  [WSub (TLit "CAN-TP-CONFIG")
     [WCall "writeTpConfig" None [];
      WCall "writeCanTpConfigTpAddresses" None [];
      WCall "writeCanTpConfigTpChannels" None [];
      WCall "writeCanTpConfigTpConnections" None [];
      WCall "writeCanTpConfigTpEcus" None [];
      WCall "writeCanTpConfigTpNodes" None []]].
(** arxml_writer.py:6155-6159 *)
Definition w_writeTpAddress : list wi :=
  [WIf (CSome [])
     [WSub (TLit "TP-ADDRESS")
        [WCall "writeIdentifiable" None [];
         WLeaf WNum (TLit "TP-ADDRESS") [GM "getTpAddress"]]]
     []].
(** arxml_writer.py:6161-6169 *)
Definition w_writeLinTpConfigTpAddresses : list wi :=
  [WIf (CNonEmpty [GM "getTpAddresses"])
     [WSub (TLit "TP-ADDRESSS")
        [WFor [GM "getTpAddresses"]
           [WIf (CInst [] ["TpAddress"])
              [WCall "writeTpAddress" None []]
              [WFail NotImplementedError true]]]]
     []].
(** arxml_writer.py:6171-6182 *)
Definition w_writeLinTpConnection : list wi :=
  [WIf (CSome [])
     [WSub (TLit "LIN-TP-CONNECTION")
        [WCall "writeTpConnection" None [];
         WLeaf WRef (TLit "DATA-PDU-REF") [GM "getDataPduRef"];
         WLeaf WRef (TLit "FLOW-CONTROL-REF") [GM "getFlowControlRef"];
         WLeaf WRef (TLit "LIN-TP-N-SDU-REF") [GM "getLinTpNSduRef"];
         WCall "writeTpConnectionReceiverRefs" None [];
         WLeaf WText (TLit "TIMEOUT-AS") [GM "getTimeoutAs"];
         WLeaf WText (TLit "TIMEOUT-CR") [GM "getTimeoutCr"];
         WLeaf WText (TLit "TIMEOUT-CS") [GM "getTimeoutCs"];
         WLeaf WRef (TLit "TRANSMITTER-REF") [GM "getTransmitterRef"]]]
     []].
(** arxml_writer.py:6184-6192 *)
Definition w_writeLinTpConfigTpConnections : list wi :=
  [WIf (CNonEmpty [GM "getTpConnections"])
     [WSub (TLit "TP-CONNECTIONS")
        [WFor [GM "getTpConnections"]
           [WIf (CInst [] ["LinTpConnection"])
              [WCall "writeLinTpConnection" None []]
              [WFail NotImplementedError true]]]]
     []].
(** arxml_writer.py:6194-6202 *)
Definition w_writeLinTpNode : list wi :=
  [WIf (CSome [])
     [WSub (TLit "LIN-TP-NODE")
        [WCall "writeIdentifiable" None [];
         WLeaf WRef (TLit "CONNECTOR-REF") [GM "getConnectorRef"];
         WLeaf WText (TLit "P-2-MAX") [GM "getP2Max"];
         WLeaf WText (TLit "P-2-TIMING") [GM "getP2Timing"];
         WLeaf WRef (TLit "TP-ADDRESS-REF") [GM "getTpAddressRef"]];
      WLeaf WText (TLit "DROP-NOT-REQUESTED-NAD") [GM "getDropNotRequestedNad"]]
     []].
(** arxml_writer.py:6204-6212 *)
Definition w_writeLinTpConfigTpNodes : list wi :=
  [WIf (CNonEmpty [GM "getTpNodes"])
     [WSub (TLit "TP-NODES")
        [WFor [GM "getTpNodes"]
           [WIf (CInst [] ["LinTpNode"])
              [WCall "writeLinTpNode" None []]
              [WFail NotImplementedError true]]]]
     []].
(** arxml_writer.py:6214-6220 *)
Definition w_writeLinTpConfig : list wi :=
  [WSub (TLit "LIN-TP-CONFIG")
     [WCall "writeTpConfig" None [];
      WCall "writeLinTpConfigTpAddresses" None [];
      WCall "writeLinTpConfigTpConnections" None [];
      WCall "writeLinTpConfigTpNodes" None []]].
(** arxml_writer.py:6222-6236 *)
Definition w_writeFrameTriggering : list wi :=
  [WCall "writeIdentifiable" None [];
   WIf (CNonEmpty [GM "getFramePortRefs"])
     [WSub (TLit "FRAME-PORT-REFS")
        [WFor [GM "getFramePortRefs"]
           [WLeaf WRef (TLit "FRAME-PORT-REF") []]]]
     [];
   WLeaf WRef (TLit "FRAME-REF") [GM "getFrameRef"];
   WIf (CNonEmpty [GM "getPduTriggeringRefs"])
     [WSub (TLit "PDU-TRIGGERINGS")
        [WFor [GM "getPduTriggeringRefs"]
           [WSub (TLit "PDU-TRIGGERING-REF-CONDITIONAL")
              [WLeaf WRef (TLit "PDU-TRIGGERING-REF") []]]]]
     []].
(** arxml_writer.py:6238-6247 *)
Definition w_writeCanFrameTriggering : list wi :=
  [WSub (TLit "CAN-FRAME-TRIGGERING")
     [WCall "writeFrameTriggering" None [];
      WLeaf WText (TLit "CAN-ADDRESSING-MODE") [GM "getCanAddressingMode"];
      WLeaf WText (TLit "CAN-FD-FRAME-SUPPORT") [GM "getCanFdFrameSupport"];
      WLeaf WText (TLit "CAN-FRAME-RX-BEHAVIOR") [GM "getCanFrameRxBehavior"];
      WLeaf WText (TLit "CAN-FRAME-TX-BEHAVIOR") [GM "getCanFrameTxBehavior"];
      WLeaf WNum (TLit "IDENTIFIER") [GM "getIdentifier"];
      WCall "setChildElementRxIdentifierRange" (Some (TLit "RX-IDENTIFIER-RANGE")) [GM "getRxIdentifierRange"]]].
(** arxml_writer.py:6249-6254 *)
Definition w_writeLinFrameTriggering : list wi :=
  [WSub (TLit "LIN-FRAME-TRIGGERING")
     [WCall "writeFrameTriggering" None [];
      WLeaf WNum (TLit "IDENTIFIER") [GM "getIdentifier"];
      WLeaf WText (TLit "LIN-CHECKSUM") [GM "getLinChecksum"]]].
(** arxml_writer.py:6256-6257 *)
Definition w_writeCommunicationCycle : list wi :=
  [WAttrs []].
(** arxml_writer.py:6259-6264 *)
Definition w_writeCycleRepetition : list wi :=
  [WIf (CSome [])
     [WSub (TLit "CYCLE-REPETITION")
        [WCall "writeCommunicationCycle" None [];
         WLeaf WNum (TLit "BASE-CYCLE") [GM "getBaseCycle"];
         WLeaf WText (TLit "CYCLE-REPETITION") [GM "getCycleRepetition"]]]
     []].
(** arxml_writer.py:6266-6273 *)
Definition w_writeFlexrayAbsolutelyScheduledTimingCommunicationCycle : list wi :=
  [WIf (CSome [GM "getCommunicationCycle"])
     [WSub (TLit "COMMUNICATION-CYCLE")
        [WIf (CInst [GM "getCommunicationCycle"] ["CycleRepetition"])
           [WCall "writeCycleRepetition" None [GM "getCommunicationCycle"]]
           [WFail NotImplementedError true]]]
     []].
(** arxml_writer.py:6275-6280 *)
Definition w_writeFlexrayAbsolutelyScheduledTiming : list wi :=
  [WIf (CSome [])
     [WSub (TLit "FLEXRAY-ABSOLUTELY-SCHEDULED-TIMING")
        [WAttrs [];
         WCall "writeFlexrayAbsolutelyScheduledTimingCommunicationCycle" None [];
         WLeaf WNum (TLit "SLOT-ID") [GM "getSlotID"]]]
     []].
(** arxml_writer.py:6282-6290 *)
Definition w_writeFlexrayFrameTriggeringAbsolutelyScheduledTimings : list wi :=
  [WIf (CNonEmpty [GM "getAbsolutelyScheduledTimings"])
     [WSub (TLit "ABSOLUTELY-SCHEDULED-TIMINGS")
        [WFor [GM "getAbsolutelyScheduledTimings"]
           [WIf (CInst [] ["FlexrayAbsolutelyScheduledTiming"])
              [WCall "writeFlexrayAbsolutelyScheduledTiming" None []]
              [WFail NotImplementedError true]]]]
     []].
(** arxml_writer.py:6292-6299 *)
Definition w_writeFlexrayFrameTriggering : list wi :=
  [WSub (TLit "FLEXRAY-FRAME-TRIGGERING")
     [WCall "writeFrameTriggering" None [];
      WCall "writeFlexrayFrameTriggeringAbsolutelyScheduledTimings" None [];
      WLeaf WText (TLit "ALLOW-DYNAMIC-L-SDU-LENGTH") [GM "getAllowDynamicLSduLength"];
      WLeaf WNum (TLit "MESSAGE-ID") [GM "getMessageId"];
      WLeaf WText (TLit "PAYLOAD-PREAMBLE-INDICATOR") [GM "getPayloadPreambleIndicator"]]].
(** arxml_writer.py:6301-6311 *)
Definition w_writeISignalTriggering : list wi :=
  [WSub (TLit "I-SIGNAL-TRIGGERING")
     [WCall "writeIdentifiable" None [];
      WLeaf WRef (TLit "I-SIGNAL-GROUP-REF") [GM "getISignalGroupRef"];
      WIf (CNonEmpty [GM "getISignalPortRefs"])
        [WSub (TLit "I-SIGNAL-PORT-REFS")
           [WFor [GM "getISignalPortRefs"]
              [WLeaf WRef (TLit "I-SIGNAL-PORT-REF") []]]]
        [];
      WLeaf WRef (TLit "I-SIGNAL-REF") [GM "getISignalRef"]]].
(** arxml_writer.py:6313-6329 *)
Definition w_writePduTriggering : list wi :=
  [WSub (TLit "PDU-TRIGGERING")
     [WCall "writeIdentifiable" None [];
      WIf (CNonEmpty [GM "getIPduPortRefs"])
        [WSub (TLit "I-PDU-PORT-REFS")
           [WFor [GM "getIPduPortRefs"]
              [WLeaf WRef (TLit "I-PDU-PORT-REF") []]]]
        [];
      WLeaf WRef (TLit "I-PDU-REF") [GM "getIPduRef"];
      WIf (CNonEmpty [GM "getISignalTriggeringRefs"])
        [WSub (TLit "I-SIGNAL-TRIGGERINGS")
           [WFor [GM "getISignalTriggeringRefs"]
              [WSub (TLit "I-SIGNAL-TRIGGERING-REF-CONDITIONAL")
                 [WLeaf WRef (TLit "I-SIGNAL-TRIGGERING-REF") []]]]]
        []]].
(** arxml_writer.py:6331-6337 *)
Definition w_writePhysicalChannelCommConnectorRefs : list wi :=
  [WIf (CNonEmpty [GM "getCommConnectorRefs"])
     [WSub (TLit "COMM-CONNECTORS")
        [WFor [GM "getCommConnectorRefs"]
           [WSub (TLit "COMMUNICATION-CONNECTOR-REF-CONDITIONAL")
              [WLeaf WRef (TLit "COMMUNICATION-CONNECTOR-REF") []]]]]
     []].
(** arxml_writer.py:6339-6351 *)
Definition w_writePhysicalChannelFrameTriggerings : list wi :=
  [WIf (CNonEmpty [GM "getFrameTriggerings"])
     [WSub (TLit "FRAME-TRIGGERINGS")
        [WFor [GM "getFrameTriggerings"]
           [WIf (CInst [] ["CanFrameTriggering"])
              [WCall "writeCanFrameTriggering" None []]
              [WIf (CInst [] ["LinFrameTriggering"])
                 [WCall "writeLinFrameTriggering" None []]
                 [WIf (CInst [] ["FlexrayFrameTriggering"])
                    [WCall "writeFlexrayFrameTriggering" None []]
                    [WFail NotImplementedError true]]]]]]
     []].
(** arxml_writer.py:6353-6361 *)
Definition w_writePhysicalChannelISignalTriggerings : list wi :=
  [WIf (CNonEmpty [GM "getISignalTriggerings"])
     [WSub (TLit "I-SIGNAL-TRIGGERINGS")
        [WFor [GM "getISignalTriggerings"]
           [WIf (CInst [] ["ISignalTriggering"])
              [WCall "writeISignalTriggering" None []]
              [WFail NotImplementedError true]]]]
     []].
(** arxml_writer.py:6363-6371 *)
Definition w_writePhysicalChannelPduTriggerings : list wi :=
  [WIf (CNonEmpty [GM "getPduTriggerings"])
     [WSub (TLit "PDU-TRIGGERINGS")
        [WFor [GM "getPduTriggerings"]
           [WIf (CInst [] ["PduTriggering"])
              [WCall "writePduTriggering" None []]
              [WFail NotImplementedError true]]]]
     []].
(** arxml_writer.py:6373-6379 *)
Definition w_writePhysicalChannel : list wi :=
  [WCall "writeIdentifiable" None [];
   WCall "writePhysicalChannelCommConnectorRefs" None [];
   WCall "writePhysicalChannelFrameTriggerings" None [];
   WCall "writePhysicalChannelISignalTriggerings" None [];
   WCall "writePhysicalChannelPduTriggerings" None []].
(** arxml_writer.py:6381-6384 *)
Definition w_writeCanPhysicalChannel : list wi :=
  [WSub (TLit "CAN-PHYSICAL-CHANNEL")
     [WCall "writePhysicalChannel" None []]].
(** arxml_writer.py:6386-6388 *)
Definition w_writeScheduleTableEntry : list wi :=
  [WLeaf WText (TLit "DELAY") [GM "getDelay"];
   WLeaf WNum (TLit "POSITION-IN-TABLE") [GM "getPositionInTable"]].
(** arxml_writer.py:6390-6394 *)
Definition w_setApplicationEntry : list wi :=
  [WIf (CSome [])
     [WSub TKey
        [WCall "writeScheduleTableEntry" None [];
         WLeaf WRef (TLit "FRAME-TRIGGERING-REF") [GM "getFrameTriggeringRef"]]]
     []].
(** arxml_writer.py:6396-6404 *)
Definition w_writeLinScheduleTableTableEntries : list wi :=
  [WIf (CNonEmpty [GM "getTableEntries"])
     [WSub (TLit "TABLE-ENTRYS")
        [WFor [GM "getTableEntries"]
           [WIf (CInst [] ["ApplicationEntry"])
              [WCall "setApplicationEntry" (Some (TLit "APPLICATION-ENTRY")) []]
              [WFail NotImplementedError true]]]]
     []].
(** arxml_writer.py:6406-6411 *)
Definition w_writeLinScheduleTable : list wi :=
  [WSub (TLit "LIN-SCHEDULE-TABLE")
     [WCall "writeIdentifiable" None [];
      WLeaf WText (TLit "RESUME-POSITION") [GM "getResumePosition"];
      WLeaf WText (TLit "RUN-MODE") [GM "getRunMode"];
      WCall "writeLinScheduleTableTableEntries" None []]].
(** arxml_writer.py:6413-6421 *)
Definition w_writeLinPhysicalChannelScheduleTables : list wi :=
  [WIf (CNonEmpty [GM "getScheduleTables"])
     [WSub (TLit "SCHEDULE-TABLES")
        [WFor [GM "getScheduleTables"]
           [WIf (CInst [] ["LinScheduleTable"])
              [WCall "writeLinScheduleTable" None []]
              [WFail NotImplementedError true]]]]
     []].
(** arxml_writer.py:6423-6427 *)
Definition w_writeLinPhysicalChannel : list wi :=
  [WSub (TLit "LIN-PHYSICAL-CHANNEL")
     [WCall "writePhysicalChannel" None [];
      WCall "writeLinPhysicalChannelScheduleTables" None []]].
(** arxml_writer.py:6429-6438 *)
Definition w_setIpv6Configuration : list wi :=
  [WIf (CSome [])
     [WSub (TLit "IPV-6-CONFIGURATION")
        [WLeaf WNum (TLit "ASSIGNMENT-PRIORITY") [GM "getAssignmentPriority"];
         WLeaf WText (TLit "DEFAULT-ROUTER") [GM "getDefaultRouter"];
         WLeaf WText (TLit "ENABLE-ANYCAST") [GM "getEnableAnycast"];
         WLeaf WNum (TLit "HOP-COUNT") [GM "getHopCount"];
         WLeaf WNum (TLit "IP-ADDRESS-PREFIX-LENGTH") [GM "getIpAddressPrefixLength"];
         WLeaf WText (TLit "IPV-6-ADDRESS") [GM "getIpv6Address"];
         WLeaf WText (TLit "IPV-6-ADDRESS-SOURCE") [GM "getIpv6AddressSource"]]]
     []].
(** arxml_writer.py:6440-6447 *)
Definition w_writeNetworkEndPointNetworkEndPointAddresses : list wi :=
  [WIf (CNonEmpty [])
     [WSub (TLit "NETWORK-ENDPOINT-ADDRESSES")
        [WFor []
           [WIf (CInst [] ["Ipv6Configuration"])
              [WCall "setIpv6Configuration" None []]
              [WFail NotImplementedError true]]]]
     []].
(** arxml_writer.py:6449-6452 *)
Definition w_setDoIpEntity : list wi :=
  [WIf (CSome [])
     [WSub TKey
        [WLeaf WText (TLit "DO-IP-ENTITY-ROLE") [GM "getDoIpEntityRole"]]]
     []].
(** arxml_writer.py:6454-6457 *)
Definition w_setInfrastructureServices : list wi :=
  [WIf (CSome [])
     [WSub TKey
        [WCall "setDoIpEntity" (Some (TLit "DO-IP-ENTITY")) [GM "getDoIpEntity"]]]
     []].
(** arxml_writer.py:6459-6465 *)
Definition w_writeNetworkEndPoint : list wi :=
  [WSub (TLit "NETWORK-ENDPOINT")
     [WCall "writeIdentifiable" None [];
      WCall "setInfrastructureServices" (Some (TLit "INFRASTRUCTURE-SERVICES")) [GM "getInfrastructureServices"];
      WCall "writeNetworkEndPointNetworkEndPointAddresses" None [GM "getNetworkEndpointAddresses"];
      WLeaf WNum (TLit "PRIORITY") [GM "getPriority"]]].
(** arxml_writer.py:6467-6471 *)
Definition w_writeEthernetPhysicalChannelNetworkEndPoints : list wi :=
  [WIf (CNonEmpty [])
     [WSub (TLit "NETWORK-ENDPOINTS")
        [WFor []
           [WCall "writeNetworkEndPoint" None []]]]
     []].
(** arxml_writer.py:6473-6480 *)
Definition w_setSocketConnectionIpduIdentifier : list wi :=
  [WIf (CSome [])
     [WSub (TLit "SOCKET-CONNECTION-IPDU-IDENTIFIER")
        [WLeaf WNum (TLit "HEADER-ID") [GM "getHeaderId"];
         WLeaf WText (TLit "PDU-COLLECTION-SEMANTICS") [GM "getPduCollectionSemantics"];
         WLeaf WText (TLit "PDU-COLLECTION-TRIGGER") [GM "getPduCollectionTrigger"];
         WLeaf WRef (TLit "PDU-REF") [GM "getPduRef"];
         WLeaf WRef (TLit "PDU-TRIGGERING-REF") [GM "getPduTriggeringRef"]]]
     []].
(** arxml_writer.py:6482-6489 *)
Definition w_setSocketConnectionPdus : list wi :=
  [WIf (CNonEmpty [])
     [WSub TKey
        [WFor []
           [WIf (CInst [] ["SocketConnectionIpduIdentifier"])
              [WCall "setSocketConnectionIpduIdentifier" None []]
              [WFail NotImplementedError true]]]]
     []].
(** arxml_writer.py:6491-6502 *)
Definition w_setSocketConnection : list wi :=
  [WIf (CSome [])
     [WSub (TLit "SOCKET-CONNECTION")
        [WLeaf WText (TLit "CLIENT-IP-ADDR-FROM-CONNECTION-REQUEST") [GM "getClientIpAddrFromConnectionRequest"];
         WLeaf WText (TLit "CLIENT-PORT-FROM-CONNECTION-REQUEST") [GM "getClientPortFromConnectionRequest"];
         WLeaf WRef (TLit "CLIENT-PORT-REF") [GM "getClientPortRef"];
         WCall "setSocketConnectionPdus" (Some (TLit "PDUS")) [GM "getPdus"];
         WLeaf WNum (TLit "PDU-COLLECTION-MAX-BUFFER-SIZE") [GM "getPduCollectionMaxBufferSize"];
         WLeaf WText (TLit "PDU-COLLECTION-TIMEOUT") [GM "getPduCollectionTimeout"];
         WLeaf WText (TLit "RUNTIME-IP-ADDRESS-CONFIGURATION") [GM "getRuntimeIpAddressConfiguration"];
         WLeaf WText (TLit "RUNTIME-PORT-CONFIGURATION") [GM "getRuntimePortConfiguration"];
         WLeaf WText (TLit "SHORT-LABEL") [GM "getShortLabel"]]]
     []].
(** arxml_writer.py:6504-6512 *)
Definition w_writeSocketConnectionBundleConnections : list wi :=
  [WIf (CNonEmpty [GM "getBundledConnections"])
     [WSub (TLit "BUNDLED-CONNECTIONS")
        [WFor [GM "getBundledConnections"]
           [WIf (CInst [] ["SocketConnection"])
              [WCall "setSocketConnection" None []]
              [WFail NotImplementedError true]]]]
     []].
(** arxml_writer.py:6514-6519 *)
Definition w_writeSocketConnectionBundle : list wi :=
  [WIf (CSome [])
     [WSub (TLit "SOCKET-CONNECTION-BUNDLE")
        [WCall "writeReferrable" None [];
         WCall "writeSocketConnectionBundleConnections" None [];
         WLeaf WRef (TLit "SERVER-PORT-REF") [GM "getServerPortRef"]]]
     []].
(** arxml_writer.py:6521-6529 *)
Definition w_writeSoAdConfigConnectionBundles : list wi :=
  [WIf (CNonEmpty [GM "getConnectionBundles"])
     [WSub (TLit "CONNECTION-BUNDLES")
        [WFor [GM "getConnectionBundles"]
           [WIf (CInst [] ["SocketConnectionBundle"])
              [WCall "writeSocketConnectionBundle" None []]
              [WFail NotImplementedError true]]]]
     []].
(** arxml_writer.py:6531-6535 *)
Definition w_setTpPort : list wi :=
  [WIf (CSome [])
     [WSub TKey
        [WLeaf WText (TLit "DYNAMICALLY-ASSIGNED") [GM "getDynamicallyAssigned"];
         WLeaf WNum (TLit "PORT-NUMBER") [GM "getPortNumber"]]]
     []].
(** arxml_writer.py:6537-6539 *)
Definition w_writeUdpTp : list wi :=
  [WSub (TLit "UDP-TP")
     [WCall "setTpPort" (Some (TLit "UDP-TP-PORT")) [GM "getUdpTpPort"]]].
(** arxml_writer.py:6541-6548 *)
Definition w_writeTcpTp : list wi :=
  [WSub (TLit "TCP-TP")
     [WLeaf WText (TLit "KEEP-ALIVE-INTERVAL") [GM "getKeepAliveInterval"];
      WLeaf WNum (TLit "KEEP-ALIVE-PROBES-MAX") [GM "getKeepAliveProbesMax"];
      WLeaf WText (TLit "KEEP-ALIVE-TIME") [GM "getKeepAliveTime"];
      WLeaf WText (TLit "KEEP-ALIVES") [GM "getKeepAlives"];
      WLeaf WText (TLit "NAGLES-ALGORITHM") [GM "getNaglesAlgorithm"];
      WCall "setTpPort" (Some (TLit "TCP-TP-PORT")) [GM "getTcpTpPort"]]].
(** arxml_writer.py:6550-6553 *)
Definition w_writeGenericTp : list wi :=
  [WSub (TLit "GENERIC-TP")
     [WLeaf WText (TLit "TP-ADDRESS") [GM "getTpAddress"];
      WLeaf WText (TLit "TP-TECHNOLOGY") [GM "getTpTechnology"]]].
(** arxml_writer.py:6555-6567 *)
Definition w_writeTransportProtocolConfiguration : list wi :=
  [WIf (CSome [])
     [WSub (TLit "TP-CONFIGURATION")
        [WIf (CInst [] ["UdpTp"])
           [WCall "writeUdpTp" None []]
           [WIf (CInst [] ["TcpTp"])
              [WCall "writeTcpTp" None []]
              [WIf (CInst [] ["GenericTp"])
                 [WCall "writeGenericTp" None []]
                 [WFail NotImplementedError true]]]]]
     []].
(** arxml_writer.py:6569-6574 *)
Definition w_writeConsumedEventGroupRoutingGroupRefs : list wi :=
  [WIf (CNonEmpty [GM "getRoutingGroupRefs"])
     [WSub (TLit "ROUTING-GROUP-REFS")
        [WFor [GM "getRoutingGroupRefs"]
           [WLeaf WRef (TLit "ROUTING-GROUP-REF") []]]]
     []].
(** arxml_writer.py:6576-6580 *)
Definition w_setRequestResponseDelay : list wi :=
  [WIf (CSome [])
     [WSub TKey
        [WLeaf WText (TLit "MAX-VALUE") [GM "getMaxValue"];
         WLeaf WText (TLit "MIN-VALUE") [GM "getMinValue"]]]
     []].
(** arxml_writer.py:6582-6590 *)
Definition w_setSdClientConfig : list wi :=
  [WIf (CSome [])
     [WSub TKey
        [WLeaf WNum (TLit "CLIENT-SERVICE-MAJOR-VERSION") [GM "getClientServiceMajorVersion"];
         WLeaf WNum (TLit "CLIENT-SERVICE-MINOR-VERSION") [GM "getClientServiceMinorVersion"];
         WCall "setInitialSdDelayConfig" (Some (TLit "INITIAL-FIND-BEHAVIOR")) [GM "getInitialFindBehavior"];
         WCall "setRequestResponseDelay" (Some (TLit "REQUEST-RESPONSE-DELAY")) [GM "getRequestResponseDelay"];
         WLeaf WNum (TLit "TTL") [GM "getTtl"]]]
     []].
(** arxml_writer.py:6592-6599 *)
Definition w_writeConsumedEventGroup : list wi :=
  [WIf (CSome [])
     [WSub (TLit "CONSUMED-EVENT-GROUP")
        [WCall "writeIdentifiable" None [];
         WLeaf WRef (TLit "APPLICATION-ENDPOINT-REF") [GM "getApplicationEndpointRef"];
         WLeaf WNum (TLit "EVENT-GROUP-IDENTIFIER") [GM "getEventGroupIdentifier"];
         WCall "writeConsumedEventGroupRoutingGroupRefs" None [];
         WCall "setSdClientConfig" (Some (TLit "SD-CLIENT-CONFIG")) [GM "getSdClientConfig"]]]
     []].
(** arxml_writer.py:6601-6609 *)
Definition w_writeConsumedServiceInstanceConsumedEventGroups : list wi :=
  [WIf (CNonEmpty [GM "getConsumedEventGroups"])
     [WSub (TLit "CONSUMED-EVENT-GROUPS")
        [WFor [GM "getConsumedEventGroups"]
           [WIf (CInst [] ["ConsumedEventGroup"])
              [WCall "writeConsumedEventGroup" None []]
              [WFail NotImplementedError true]]]]
     []].
(** arxml_writer.py:6611-6617 *)
Definition w_writeConsumedServiceInstance : list wi :=
  [WIf (CSome [])
     [WSub (TLit "CONSUMED-SERVICE-INSTANCE")
        [WCall "writeIdentifiable" None [];
         WCall "writeConsumedServiceInstanceConsumedEventGroups" None [];
         WLeaf WRef (TLit "PROVIDED-SERVICE-INSTANCE-REF") [GM "getProvidedServiceInstanceRef"];
         WCall "setSdClientConfig" (Some (TLit "SD-CLIENT-CONFIG")) [GM "getSdClientConfig"]]]
     []].
(** arxml_writer.py:6619-6627 *)
Definition w_writeSocketAddressApplicationEndpointConsumedServiceInstances : list wi :=
  [WIf (CNonEmpty [GM "getConsumedServiceInstances"])
     [WSub (TLit "CONSUMED-SERVICE-INSTANCES")
        [WFor [GM "getConsumedServiceInstances"]
           [WIf (CInst [] ["ConsumedServiceInstance"])
              [WCall "writeConsumedServiceInstance" None []]
              [WFail NotImplementedError true]]]]
     []].
(** arxml_writer.py:6629-6635 *)
Definition w_setInitialSdDelayConfig : list wi :=
  [WIf (CSome [])
     [WSub TKey
        [WLeaf WText (TLit "INITIAL-DELAY-MAX-VALUE") [GM "getInitialDelayMaxValue"];
         WLeaf WText (TLit "INITIAL-DELAY-MIN-VALUE") [GM "getInitialDelayMinValue"];
         WLeaf WText (TLit "INITIAL-REPETITIONS-BASE-DELAY") [GM "getInitialRepetitionsBaseDelay"];
         WLeaf WNum (TLit "INITIAL-REPETITIONS-MAX") [GM "getInitialRepetitionsMax"]]]
     []].
(** arxml_writer.py:6637-6645 *)
Definition w_setSdServerConfig : list wi :=
  [WIf (CSome [])
     [WSub TKey
        [WCall "setInitialSdDelayConfig" (Some (TLit "INITIAL-OFFER-BEHAVIOR")) [GM "getInitialOfferBehavior"];
         WLeaf WText (TLit "OFFER-CYCLIC-DELAY") [GM "getOfferCyclicDelay"];
         WCall "setRequestResponseDelay" (Some (TLit "REQUEST-RESPONSE-DELAY")) [GM "getRequestResponseDelay"];
         WLeaf WNum (TLit "SERVER-SERVICE-MAJOR-VERSION") [GM "getServerServiceMajorVersion"];
         WLeaf WNum (TLit "SERVER-SERVICE-MINOR-VERSION") [GM "getServerServiceMinorVersion"];
         WLeaf WNum (TLit "TTL") [GM "getTtl"]]]
     []].
(** arxml_writer.py:6647-6666 *)
Definition w_writeEventHandler : list wi :=
  [WIf (CSome [])
     [WSub (TLit "EVENT-HANDLER")
        [WCall "writeIdentifiable" None [];
         WLeaf WRef (TLit "APPLICATION-ENDPOINT-REF") [GM "getApplicationEndpointRef"];
         WIf (CNonEmpty [GM "getConsumedEventGroupRefs"])
           [WSub (TLit "CONSUMED-EVENT-GROUP-REFS")
              [WFor [GM "getConsumedEventGroupRefs"]
                 [WLeaf WRef (TLit "CONSUMED-EVENT-GROUP-REF") []]]]
           [];
         WLeaf WNum (TLit "MULTICAST-THRESHOLD") [GM "getMulticastThreshold"];
         WIf (CNonEmpty [GM "getRoutingGroupRefs"])
           [WSub (TLit "ROUTING-GROUP-REFS")
              [WFor [GM "getRoutingGroupRefs"]
                 [WLeaf WRef (TLit "ROUTING-GROUP-REF") []]]]
           [];
         WCall "setSdServerConfig" (Some (TLit "SD-SERVER-CONFIG")) [GM "getSdServerConfig"]]]
     []].
(** arxml_writer.py:6668-6676 *)
Definition w_writeProvidedServiceInstanceEventHandlers : list wi :=
  [WIf (CNonEmpty [GM "getEventHandlers"])
     [WSub (TLit "EVENT-HANDLERS")
        [WFor [GM "getEventHandlers"]
           [WIf (CInst [] ["EventHandler"])
              [WCall "writeEventHandler" None []]
              [WFail NotImplementedError true]]]]
     []].
(** arxml_writer.py:6678-6719 *)
Definition w_writeProvidedServiceInstance : list wi :=
  [WIf (CSome [])
     [WSub (TLit "PROVIDED-SERVICE-INSTANCE")
        [WCall "writeIdentifiable" None [];
         WCall "writeProvidedServiceInstanceEventHandlers" None [];
         WLeaf WNum (TLit "INSTANCE-IDENTIFIER") [GM "getInstanceIdentifier"];
         WLeaf WNum (TLit "LOAD-BALANCING-PRIORITY") [GM "getLoadBalancingPriority"];
         WLeaf WNum (TLit "LOAD-BALANCING-WEIGHT") [GM "getLoadBalancingWeight"];
         WIf (CNonEmpty [GM "getLocalUnicastAddressRefs"])
           [WSub (TLit "LOCAL-UNICAST-ADDRESSS")
              [WFor [GM "getLocalUnicastAddressRefs"]
                 [WSub (TLit "APPLICATION-ENDPOINT-REF-CONDITIONAL")
                    [WLeaf WRef (TLit "APPLICATION-ENDPOINT-REF") []]]]]
           [];
         WLeaf WNum (TLit "MINOR-VERSION") [GM "getMinorVersion"];
         WLeaf WNum (TLit "PRIORITY") [GM "getPriority"];
         WIf (CNonEmpty [GM "getRemoteMulticastSubscriptionAddressRefs"])
           [WSub (TLit "REMOTE-MULTICAST-SUBSCRIPTION-ADDRESSS")
              [WFor [GM "getRemoteMulticastSubscriptionAddressRefs"]
                 [WSub (TLit "APPLICATION-ENDPOINT-REF-CONDITIONAL")
                    [WLeaf WRef (TLit "APPLICATION-ENDPOINT-REF") []]]]]
           [];
         WIf (CNonEmpty [GM "getRemoteUnicastAddressRefs"])
           [WSub (TLit "REMOTE-UNICAST-ADDRESSS")
              [WFor [GM "getRemoteUnicastAddressRefs"]
                 [WSub (TLit "APPLICATION-ENDPOINT-REF-CONDITIONAL")
                    [WLeaf WRef (TLit "APPLICATION-ENDPOINT-REF") []]]]]
           [];
         WCall "setSdServerConfig" (Some (TLit "SD-SERVER-CONFIG")) [GM "getSdServerConfig"];
         WIf (CSome [GM "getSdServerTimerConfigRef"])
           [WSub (TLit "SD-SERVER-TIMER-CONFIGS")
              [WSub (TLit "SOMEIP-SD-SERVER-SERVICE-INSTANCE-CONFIG-REF-CONDITIONAL")
                 [WLeaf WRef (TLit "SOMEIP-SD-SERVER-SERVICE-INSTANCE-CONFIG-REF") [GM "getSdServerTimerConfigRef"]]]]
           [];
         WIf (CNonEmpty [GM "getAllowedServiceConsumerRefs"])
           [WSub (TLit "ALLOWED-SERVICE-CONSUMERS")
              [WFor [GM "getAllowedServiceConsumerRefs"]
                 [WSub (TLit "NETWORK-ENDPOINT-REF-CONDITIONAL")
                    [WLeaf WRef (TLit "NETWORK-ENDPOINT-REF") []]]]]
           [];
         WLeaf WText (TLit "AUTO-AVAILABLE") [GM "getAutoAvailable"];
         WLeaf WNum (TLit "SERVICE-IDENTIFIER") [GM "getServiceIdentifier"]]]
     []].
(** arxml_writer.py:6721-6729 *)
Definition w_writeSocketAddressApplicationEndpointProvidedServiceInstance : list wi :=
  [WIf (CNonEmpty [GM "getProvidedServiceInstances"])
     [WSub (TLit "PROVIDED-SERVICE-INSTANCES")
        [WFor [GM "getProvidedServiceInstances"]
           [WIf (CInst [] ["ProvidedServiceInstance"])
              [WCall "writeProvidedServiceInstance" None []]
              [WFail NotImplementedError true]]]]
     []].
(** arxml_writer.py:6731-6740 *)
Definition w_writeSocketAddressApplicationEndpoint : list wi :=
  [WIf (CSome [GM "getApplicationEndpoint"])
     [WSub (TLit "APPLICATION-ENDPOINT")
        [WCall "writeIdentifiable" None [GM "getApplicationEndpoint"];
         WCall "writeSocketAddressApplicationEndpointConsumedServiceInstances" None [GM "getApplicationEndpoint"];
         WLeaf WRef (TLit "NETWORK-ENDPOINT-REF") [GM "getApplicationEndpoint"; GM "getNetworkEndpointRef"];
         WLeaf WNum (TLit "PRIORITY") [GM "getApplicationEndpoint"; GM "getPriority"];
         WCall "writeSocketAddressApplicationEndpointProvidedServiceInstance" None [GM "getApplicationEndpoint"];
         WCall "writeTransportProtocolConfiguration" None [GM "getApplicationEndpoint"; GM "getTpConfiguration"]]]
     []].
(** arxml_writer.py:6742-6747 *)
Definition w_writeSocketAddressMulticastConnectorRefs : list wi :=
  [WIf (CNonEmpty [GM "getMulticastConnectorRefs"])
     [WSub (TLit "MULTICAST-CONNECTOR-REFS")
        [WFor [GM "getMulticastConnectorRefs"]
           [WLeaf WRef (TLit "MULTICAST-CONNECTOR-REF") []]]]
     []].
(** arxml_writer.py:6749-6755 *)
Definition w_writeSocketAddress : list wi :=
  [WSub (TLit "SOCKET-ADDRESS")
     [WCall "writeIdentifiable" None [];
      WCall "writeSocketAddressApplicationEndpoint" None [];
      WCall "writeSocketAddressMulticastConnectorRefs" None [];
      WLeaf WRef (TLit "CONNECTOR-REF") [GM "getConnectorRef"];
      WLeaf WNum (TLit "PORT-ADDRESS") [GM "getPortAddress"]]].
(** arxml_writer.py:6757-6765 *)
Definition w_writeSoAdConfigSocketAddresses : list wi :=
  [WIf (CNonEmpty [GM "getSocketAddresses"])
     [WSub (TLit "SOCKET-ADDRESSS")
        [WFor [GM "getSocketAddresses"]
           [WIf (CInst [] ["SocketAddress"])
              [WCall "writeSocketAddress" None []]
              [WFail NotImplementedError true]]]]
     []].
(** arxml_writer.py:6767-6771 *)
Definition w_writeSoAdConfig : list wi :=
  [WIf (CSome [])
     [WSub TKey
        [WCall "writeSoAdConfigConnectionBundles" None [];
         WCall "writeSoAdConfigSocketAddresses" None []]]
     []].
(** arxml_writer.py:6773-6778 *)
Definition w_writeEthernetPhysicalChannelVlan : list wi :=
  [WIf (CSome [GM "getVlan"])
     [WSub (TLit "VLAN")
        [WCall "writeIdentifiable" None [GM "getVlan"];
         WLeaf WNum (TLit "VLAN-IDENTIFIER") [GM "getVlan"; GM "getVlanIdentifier"]]]
     []].
(** arxml_writer.py:6780-6786 *)
Definition w_writeEthernetPhysicalChannel : list wi :=
  [WSub (TLit "ETHERNET-PHYSICAL-CHANNEL")
     [WCall "writePhysicalChannel" None [];
      WCall "writeEthernetPhysicalChannelNetworkEndPoints" None [GM "getNetworkEndpoints"];
      WCall "writeSoAdConfig" (Some (TLit "SO-AD-CONFIG")) [GM "getSoAdConfig"];
      WCall "writeEthernetPhysicalChannelVlan" None []]].
(** arxml_writer.py:6788-6792 *)
Definition w_writeFlexrayPhysicalChannel : list wi :=
  [WSub (TLit "FLEXRAY-PHYSICAL-CHANNEL")
     [WCall "writePhysicalChannel" None [];
      WLeaf WText (TLit "CHANNEL-NAME") [GM "getChannelName"]]].
(** arxml_writer.py:6794-6808 *)
Definition w_writeCommunicationClusterPhysicalChannels : list wi :=
  [WIf (CNonEmpty [GM "getPhysicalChannels"])
     [WSub (TLit "PHYSICAL-CHANNELS")
        [WFor [GM "getPhysicalChannels"]
           [WIf (CInst [] ["CanPhysicalChannel"])
              [WCall "writeCanPhysicalChannel" None []]
              [WIf (CInst [] ["LinPhysicalChannel"])
                 [WCall "writeLinPhysicalChannel" None []]
                 [WIf (CInst [] ["EthernetPhysicalChannel"])
                    [WCall "writeEthernetPhysicalChannel" None []]
                    [WIf (CInst [] ["FlexrayPhysicalChannel"])
                       [WCall "writeFlexrayPhysicalChannel" None []]
                       [WFail NotImplementedError true]]]]]]]
     []].
(** arxml_writer.py:6810-6814 *)
Definition w_writeCommunicationCluster : list wi :=
  [WLeaf WNum (TLit "BAUDRATE") [GM "getBaudrate"];
   WCall "writeCommunicationClusterPhysicalChannels" None [];
   WLeaf WText (TLit "PROTOCOL-NAME") [GM "getProtocolName"];
   WLeaf WText (TLit "PROTOCOL-VERSION") [GM "getProtocolVersion"]].
(** arxml_writer.py:6816-6821 *)
Definition w_setCanClusterBusOffRecovery : list wi :=
  [WIf (CSome [])
     [WSub TKey
        [WLeaf WNum (TLit "BOR-COUNTER-L-1-TO-L-2") [GM "getBorCounterL1ToL2"];
         WLeaf WText (TLit "BOR-TIME-L-1") [GM "getBorTimeL1"];
         WLeaf WText (TLit "BOR-TIME-L-2") [GM "getBorTimeL2"]]]
     []].
(** arxml_writer.py:6823-6826 *)
Definition w_writeAbstractCanCluster : list wi :=
  [WCall "setCanClusterBusOffRecovery" (Some (TLit "BUS-OFF-RECOVERY")) [GM "getBusOffRecovery"];
   WLeaf WNum (TLit "CAN-FD-BAUDRATE") [GM "getCanFdBaudrate"];
   WLeaf WNum (TLit "CAN-XL-BAUDRATE") [GM "getCanXlBaudrate"]].
(** arxml_writer.py:6828-6836 *)
Definition w_writeLinCluster : list wi :=
  [WIf (CSome [])
     [WSub (TLit "LIN-CLUSTER")
        [WCall "writeIdentifiable" None [];
         WSub (TLit "LIN-CLUSTER-VARIANTS")
           [WSub (TLit "LIN-CLUSTER-CONDITIONAL")
              [WCall "writeCommunicationCluster" None []]]]]
     []].
(** arxml_writer.py:6838-6847 *)
Definition w_writeCanCluster : list wi :=
  [WIf (CSome [])
     [WSub (TLit "CAN-CLUSTER")
        [WCall "writeIdentifiable" None [];
         WSub (TLit "CAN-CLUSTER-VARIANTS")
           [WSub (TLit "CAN-CLUSTER-CONDITIONAL")
              [WCall "writeCommunicationCluster" None [];
               WCall "writeAbstractCanCluster" None []]]]]
     []].
(** arxml_writer.py:6849-6893 *)
Definition w_writeFlexrayCluster : list wi :=
  [WIf (CSome [])
     [WSub (TLit "FLEXRAY-CLUSTER")
        [WCall "writeIdentifiable" None [];
         WSub (TLit "FLEXRAY-CLUSTER-VARIANTS")
           [WSub (TLit "FLEXRAY-CLUSTER-CONDITIONAL")
              [WCall "writeCommunicationCluster" None [];
               WLeaf WNum (TLit "ACTION-POINT-OFFSET") [GM "getActionPointOffset"];
               WLeaf WText (TLit "BIT") [GM "getBit"];
               WLeaf WNum (TLit "CAS-RX-LOW-MAX") [GM "getCasRxLowMax"];
               WLeaf WNum (TLit "COLD-START-ATTEMPTS") [GM "getColdStartAttempts"];
               WLeaf WText (TLit "CYCLE") [GM "getCycle"];
               WLeaf WNum (TLit "CYCLE-COUNT-MAX") [GM "getCycleCountMax"];
               WLeaf WText (TLit "DETECT-NIT-ERROR") [GM "getDetectNitError"];
               WLeaf WNum (TLit "DYNAMIC-SLOT-IDLE-PHASE") [GM "getDynamicSlotIdlePhase"];
               WLeaf WNum (TLit "IGNORE-AFTER-TX") [GM "getIgnoreAfterTx"];
               WLeaf WNum (TLit "LISTEN-NOISE") [GM "getListenNoise"];
               WLeaf WNum (TLit "MACRO-PER-CYCLE") [GM "getMacroPerCycle"];
               WLeaf WText (TLit "MACROTICK-DURATION") [GM "getMacrotickDuration"];
               WLeaf WNum (TLit "MAX-WITHOUT-CLOCK-CORRECTION-FATAL") [GM "getMaxWithoutClockCorrectionFatal"];
               WLeaf WNum (TLit "MAX-WITHOUT-CLOCK-CORRECTION-PASSIVE") [GM "getMaxWithoutClockCorrectionPassive"];
               WLeaf WNum (TLit "MINISLOT-ACTION-POINT-OFFSET") [GM "getMinislotActionPointOffset"];
               WLeaf WNum (TLit "MINISLOT-DURATION") [GM "getMinislotDuration"];
               WLeaf WNum (TLit "NETWORK-IDLE-TIME") [GM "getNetworkIdleTime"];
               WLeaf WNum (TLit "NETWORK-MANAGEMENT-VECTOR-LENGTH") [GM "getNetworkManagementVectorLength"];
               WLeaf WNum (TLit "NUMBER-OF-MINISLOTS") [GM "getNumberOfMinislots"];
               WLeaf WNum (TLit "NUMBER-OF-STATIC-SLOTS") [GM "getNumberOfStaticSlots"];
               WLeaf WNum (TLit "OFFSET-CORRECTION-START") [GM "getOffsetCorrectionStart"];
               WLeaf WNum (TLit "PAYLOAD-LENGTH-STATIC") [GM "getPayloadLengthStatic"];
               WLeaf WNum (TLit "SAFETY-MARGIN") [GM "getSafetyMargin"];
               WLeaf WText (TLit "SAMPLE-CLOCK-PERIOD") [GM "getSampleClockPeriod"];
               WLeaf WNum (TLit "STATIC-SLOT-DURATION") [GM "getStaticSlotDuration"];
               WLeaf WNum (TLit "SYMBOL-WINDOW") [GM "getSymbolWindow"];
               WLeaf WNum (TLit "SYMBOL-WINDOW-ACTION-POINT-OFFSET") [GM "getSymbolWindowActionPointOffset"];
               WLeaf WNum (TLit "SYNC-FRAME-ID-COUNT-MAX") [GM "getSyncFrameIdCountMax"];
               WLeaf WText (TLit "TRANCEIVER-STANDBY-DELAY") [GM "getTranceiverStandbyDelay"];
               WLeaf WNum (TLit "TRANSMISSION-START-SEQUENCE-DURATION") [GM "getTransmissionStartSequenceDuration"];
               WLeaf WNum (TLit "WAKEUP-RX-IDLE") [GM "getWakeupRxIdle"];
               WLeaf WNum (TLit "WAKEUP-RX-LOW") [GM "getWakeupRxLow"];
               WLeaf WNum (TLit "WAKEUP-RX-WINDOW") [GM "getWakeupRxWindow"];
               WLeaf WNum (TLit "WAKEUP-TX-ACTIVE") [GM "getWakeupTxActive"];
               WLeaf WNum (TLit "WAKEUP-TX-IDLE") [GM "getWakeupTxIdle"]]]]]
     []].
(** arxml_writer.py:6895-6900 *)
Definition w_writeCollectionElementRefs : list wi :=
  [WIf (CNonEmpty [GM "getElementRefs"])
     [WSub (TLit "ELEMENT-REFS")
        [WFor [GM "getElementRefs"]
           [WLeaf WRef (TLit "ELEMENT-REF") []]]]
     []].
(** arxml_writer.py:6902-6907 *)
Definition w_writeCollectionSourceElementRefs : list wi :=
  [WIf (CNonEmpty [GM "getSourceElementRefs"])
     [WSub (TLit "SOURCE-ELEMENT-REFS")
        [WFor [GM "getSourceElementRefs"]
           [WLeaf WRef (TLit "SOURCE-ELEMENT-REF") []]]]
     []].
(** arxml_writer.py:6909-6916 *)
Definition w_writeCollection : list wi :=
  [WIf (CSome [])
     [WSub (TLit "COLLECTION")
        [WCall "writeARElement" None [];
         WLeaf WText (TLit "AUTO-COLLECT") [GM "getAutoCollect"];
         WLeaf WText (TLit "ELEMENT-ROLE") [GM "getElementRole"];
         WCall "writeCollectionElementRefs" None [];
         WCall "writeCollectionSourceElementRefs" None []]]
     []].
(** arxml_writer.py:6918-6923 *)
Definition w_writeKeywordClassifications : list wi :=
  [WIf (CNonEmpty [GM "getClassifications"])
     [WSub (TLit "CLASSIFICATIONS")
        [WFor [GM "getClassifications"]
           [WLeaf WText (TLit "CLASSIFICATION") []]]]
     []].
(** arxml_writer.py:6925-6931 *)
Definition w_writeKeyword : list wi :=
  [WIf (CSome [])
     [WSub (TLit "KEYWORD")
        [WCall "writeIdentifiable" None [];
         WLeaf WText (TLit "ABBR-NAME") [GM "getAbbrName"];
         WCall "writeKeywordClassifications" None []]]
     []].
(** arxml_writer.py:6933-6941 *)
Definition w_writeKeywordSetKeywords : list wi :=
  [WIf (CNonEmpty [GM "getKeywords"])
     [WSub (TLit "KEYWORDS")
        [WFor [GM "getKeywords"]
           [WIf (CInst [] ["Keyword"])
              [WCall "writeKeyword" None []]
              [WFail NotImplementedError true]]]]
     []].
(** arxml_writer.py:6943-6948 *)
Definition w_writeKeywordSet : list wi :=
  [WIf (CSome [])
     [WSub (TLit "KEYWORD-SET")
        [WCall "writeARElement" None [];
         WCall "writeKeywordSetKeywords" None []]]
     []].
(** arxml_writer.py:6950-6955 *)
Definition w_writePortPrototypeBlueprint : list wi :=
  [WIf (CSome [])
     [WSub (TLit "PORT-PROTOTYPE-BLUEPRINT")
        [WCall "writeARElement" None [];
         WLeaf WRef (TLit "INTERFACE-REF") [GM "getInterfaceRef"]]]
     []].
(** arxml_writer.py:6957-6962 *)
Definition w_writeModeDeclarationMappingFirstModeRefs : list wi :=
  [WIf (CNonEmpty [GM "getFirstModeRefs"])
     [WSub (TLit "FIRST-MODE-REFS")
        [WFor [GM "getFirstModeRefs"]
           [WLeaf WRef (TLit "FIRST-MODE-REF") []]]]
     []].
(** arxml_writer.py:6964-6970 *)
Definition w_writeModeDeclarationMapping : list wi :=
  [WIf (CSome [])
     [WSub (TLit "MODE-DECLARATION-MAPPING")
        [WCall "writeIdentifiable" None [];
         WCall "writeModeDeclarationMappingFirstModeRefs" None [];
         WLeaf WRef (TLit "SECOND-MODE-REF") [GM "getSecondModeRef"]]]
     []].
(** arxml_writer.py:6972-6980 *)
Definition w_writeModeDeclarationMappingSetModeDeclarationMappings : list wi :=
  [WIf (CNonEmpty [GM "getModeDeclarationMappings"])
     [WSub (TLit "MODE-DECLARATION-MAPPINGS")
        [WFor [GM "getModeDeclarationMappings"]
           [WIf (CInst [] ["ModeDeclarationMapping"])
              [WCall "writeModeDeclarationMapping" None []]
              [WFail NotImplementedError true]]]]
     []].
(** arxml_writer.py:6982-6987 *)
Definition w_writeModeDeclarationMappingSet : list wi :=
  [WIf (CSome [])
     [WSub (TLit "MODE-DECLARATION-MAPPING-SET")
        [WCall "writeARElement" None []];
      WCall "writeModeDeclarationMappingSetModeDeclarationMappings" None []]
     []].
(** arxml_writer.py:6989-6995 *)
Definition w_writeEcucDefinitionElement : list wi :=
  [WCall "writeARElement" None [];
   WCall "writeEcucConditionSpecification" None [GM "getEcucCond"];
   WCall "writeEcucValidationConditions" None [GM "getEcucValidationConds"];
   WLeaf WNum (TLit "LOWER-MULTIPLICITY") [GM "getLowerMultiplicity"];
   WLeaf WNum (TLit "UPPER-MULTIPLICITY") [GM "getUpperMultiplicity"];
   WLeaf WText (TLit "SCOPE") [GM "getScope"]].
(** arxml_writer.py:6997-7002 *)
Definition w_writeEcucModuleDefSupportedConfigVariants : list wi :=
  [WIf (CNonEmpty [GM "getSupportedConfigVariants"])
     [WSub (TLit "SUPPORTED-CONFIG-VARIANTS")
        [WFor [GM "getSupportedConfigVariants"]
           [WLeaf WText (TLit "SUPPORTED-CONFIG-VARIANT") []]]]
     []].
(** arxml_writer.py:7004-7007 *)
Definition w_writeEcucAbstractConfigurationClass : list wi :=
  [WAttrs [];
   WLeaf WText (TLit "CONFIG-CLASS") [GM "getConfigClass"];
   WLeaf WText (TLit "CONFIG-VARIANT") [GM "getConfigVariant"]].
(** arxml_writer.py:7009-7012 *)
Definition w_writeEcucMultiplicityConfigurationClass : list wi :=
  [WIf (CSome [])
     [WSub (TLit "ECUC-MULTIPLICITY-CONFIGURATION-CLASS")
        [WCall "writeEcucAbstractConfigurationClass" None []]]
     []].
(** arxml_writer.py:7014-7021 *)
Definition w_setEcucMultiplicityConfigClasses : list wi :=
  [WIf (CNonEmpty [])
     [WSub (TLit "MULTIPLICITY-CONFIG-CLASSES")
        [WFor []
           [WIf (CInst [] ["EcucMultiplicityConfigurationClass"])
              [WCall "writeEcucMultiplicityConfigurationClass" None []]
              [WFail NotImplementedError true]]]]
     []].
(** arxml_writer.py:7023-7026 *)
Definition w_writeEcucValueConfigurationClass : list wi :=
  [WIf (CSome [])
     [WSub (TLit "ECUC-VALUE-CONFIGURATION-CLASS")
        [WCall "writeEcucAbstractConfigurationClass" None []]]
     []].
(** arxml_writer.py:7028-7035 *)
Definition w_setEcuValueConfigurationClasses : list wi :=
  [WIf (CNonEmpty [])
     [WSub (TLit "VALUE-CONFIG-CLASSES")
        [WFor []
           [WIf (CInst [] ["EcucValueConfigurationClass"])
              [WCall "writeEcucValueConfigurationClass" None []]
              [WFail NotImplementedError true]]]]
     []].
(** arxml_writer.py:7037-7044 *)
Definition w_writeEcucCommonAttributes : list wi :=
  [WCall "writeEcucDefinitionElement" None [];
   WCall "setEcucMultiplicityConfigClasses" None [GM "getMultiplicityConfigClasses"];
   WLeaf WText (TLit "ORIGIN") [GM "getOrigin"];
   WLeaf WText (TLit "POST-BUILD-VARIANT-MULTIPLICITY") [GM "getPostBuildVariantMultiplicity"];
   WLeaf WText (TLit "POST-BUILD-VARIANT-VALUE") [GM "getPostBuildVariantValue"];
   WLeaf WText (TLit "REQUIRES-INDEX") [GM "getRequiresIndex"];
   WCall "setEcuValueConfigurationClasses" None [GM "getValueConfigClasses"]].
(** arxml_writer.py:7046-7050 *)
Definition w_writeEcucParameterDef : list wi :=
  [WCall "writeEcucCommonAttributes" None [];
   WCall "writeEcucDerivationSpecification" None [GM "getDerivation"];
   WLeaf WText (TLit "SYMBOLIC-NAME-VALUE") [GM "getSymbolicNameValue"];
   WLeaf WText (TLit "WITH-AUTO") [GM "getWithAuto"]].
(** arxml_writer.py:7052-7063 *)
Definition w_writeEcucDerivationSpecification : list wi :=
  [WIf (CNot (CSome []))
     []
     [WSub (TLit "DERIVATION")
        [WCall "writeEcucParameterDerivationFormula" None [GM "getCalculationFormula"];
         WIf (CNonEmpty [GM "getEcucQueries"])
           [WSub (TLit "ECUC-QUERYS")
              [WFor [GM "getEcucQueries"]
                 [WSub (TLit "ECUC-QUERY")
                    [WCall "writeEcucQuery" None []]]]]
           [];
         WCall "setMlFormula" (Some (TLit "INFORMAL-FORMULA")) [GM "getInformalFormula"]]]].
(** arxml_writer.py:7065-7070 *)
Definition w_writeEcucParameterDerivationFormula : list wi :=
  [WIf (CNot (CSome []))
     []
     [WSub (TLit "CALCULATION-FORMULA")
        [WLeaf WRef (TLit "ECUC-QUERY-REF") [GM "getEcucQueryRef"];
         WLeaf WRef (TLit "ECUC-QUERY-STRING-REF") [GM "getEcucQueryStringRef"]]]].
(** arxml_writer.py:7072-7077 *)
Definition w_writeEcucConditionFormula : list wi :=
  [WIf (CNot (CSome []))
     []
     [WSub TKey
        [WLeaf WRef (TLit "ECUC-QUERY-REF") [GM "getEcucQueryRef"];
         WLeaf WRef (TLit "ECUC-QUERY-STRING-REF") [GM "getEcucQueryStringRef"]]]].
(** arxml_writer.py:7079-7090 *)
Definition w_writeEcucConditionSpecification : list wi :=
  [WIf (CNot (CSome []))
     []
     [WSub (TLit "ECUC-COND")
        [WCall "writeEcucConditionFormula" (Some (TLit "CONDITION-FORMULA")) [GM "getConditionFormula"];
         WIf (CNonEmpty [GM "getEcucQueries"])
           [WSub (TLit "ECUC-QUERYS")
              [WFor [GM "getEcucQueries"]
                 [WSub (TLit "ECUC-QUERY")
                    [WCall "writeEcucQuery" None []]]]]
           [];
         WCall "setMlFormula" (Some (TLit "INFORMAL-FORMULA")) [GM "getInformalFormula"]]]].
(** arxml_writer.py:7092-7102 *)
Definition w_writeEcucValidationCondition : list wi :=
  [WIf (CNot (CSome []))
     []
     [WCall "writeIdentifiable" None [];
      WIf (CNonEmpty [GM "getEcucQueries"])
        [WSub (TLit "ECUC-QUERYS")
           [WFor [GM "getEcucQueries"]
              [WSub (TLit "ECUC-QUERY")
                 [WCall "writeEcucQuery" None []]]]]
        [];
      WCall "writeEcucConditionFormula" (Some (TLit "VALIDATION-FORMULA")) [GM "getValidationFormula"]]].
(** arxml_writer.py:7104-7109 *)
Definition w_writeEcucValidationConditions : list wi :=
  [WIf (CNonEmpty [])
     [WSub (TLit "ECUC-VALIDATION-CONDS")
        [WFor []
           [WSub (TLit "ECUC-VALIDATION-CONDITION")
              [WCall "writeEcucValidationCondition" None []]]]]
     []].
(** arxml_writer.py:7111-7117 *)
Definition w_writeEcucQuery : list wi :=
  [WCall "writeIdentifiable" None [];
   WIf (CSome [GM "getEcucQueryExpression"])
     [WSub (TLit "ECUC-QUERY-EXPRESSION")
        [WLeaf WRef (TLit "CONFIG-ELEMENT-DEF-GLOBAL-REF") [GM "getEcucQueryExpression"; GM "getConfigElementDefGlobalRef"];
         WLeaf WRef (TLit "CONFIG-ELEMENT-DEF-LOCAL-REF") [GM "getEcucQueryExpression"; GM "getConfigElementDefLocalRef"]]]
     []].
(** arxml_writer.py:7119-7123 *)
Definition w_writeEcucBooleanParamDef : list wi :=
  [WIf (CSome [])
     [WSub (TLit "ECUC-BOOLEAN-PARAM-DEF")
        [WCall "writeEcucParameterDef" None [];
         WLeaf WText (TLit "DEFAULT-VALUE") [GM "getDefaultValue"]]]
     []].
(** arxml_writer.py:7125-7130 *)
Definition w_writeEcucAbstractStringParamDef : list wi :=
  [WCall "writeEcucParameterDef" None [];
   WLeaf WText (TLit "DEFAULT-VALUE") [GM "getDefaultValue"];
   WLeaf WNum (TLit "MAX-LENGTH") [GM "getMaxLength"];
   WLeaf WNum (TLit "MIN-LENGTH") [GM "getMinLength"];
   WLeaf WText (TLit "REGULAR-EXPRESSION") [GM "getRegularExpression"]].
(** arxml_writer.py:7132-7138 *)
Definition w_writeEcucStringParamDef : list wi :=
  [WIf (CSome [])
     [WSub (TLit "ECUC-STRING-PARAM-DEF")
        [WCall "writeEcucParameterDef" None [];
         WSub (TLit "ECUC-STRING-PARAM-DEF-VARIANTS")
           [WSub (TLit "ECUC-STRING-PARAM-DEF-CONDITIONAL")
              [WCall "writeEcucAbstractStringParamDef" None []]]]]
     []].
(** arxml_writer.py:7140-7146 *)
Definition w_writeEcucIntegerParamDef : list wi :=
  [WIf (CSome [])
     [WSub (TLit "ECUC-INTEGER-PARAM-DEF")
        [WCall "writeEcucParameterDef" None [];
         WLeaf WNum (TLit "DEFAULT-VALUE") [GM "getDefaultValue"];
         WLeaf WNum (TLit "MAX") [GM "getMax"];
         WLeaf WNum (TLit "MIN") [GM "getMin"]]]
     []].
(** arxml_writer.py:7148-7154 *)
Definition w_writeEcucFloatParamDef : list wi :=
  [WIf (CSome [])
     [WSub (TLit "ECUC-FLOAT-PARAM-DEF")
        [WCall "writeEcucParameterDef" None [];
         WLeaf WText (TLit "DEFAULT-VALUE") [GM "getDefaultValue"];
         WLeaf WLimit (TLit "MAX") [GM "getMax"];
         WLeaf WLimit (TLit "MIN") [GM "getMin"]]]
     []].
(** arxml_writer.py:7156-7160 *)
Definition w_writeEcucEnumerationLiteralDef : list wi :=
  [WIf (CSome [])
     [WSub (TLit "ECUC-ENUMERATION-LITERAL-DEF")
        [WCall "writeIdentifiable" None [];
         WLeaf WText (TLit "ORIGIN") [GM "getOrigin"]]]
     []].
(** arxml_writer.py:7162-7170 *)
Definition w_writeEcucEnumerationParamDefLiterals : list wi :=
  [WIf (CNonEmpty [GM "getLiterals"])
     [WSub (TLit "LITERALS")
        [WFor [GM "getLiterals"]
           [WIf (CInst [] ["EcucEnumerationLiteralDef"])
              [WCall "writeEcucEnumerationLiteralDef" None []]
              [WFail NotImplementedError true]]]]
     []].
(** arxml_writer.py:7172-7177 *)
Definition w_writeEcucEnumerationParamDef : list wi :=
  [WIf (CSome [])
     [WSub (TLit "ECUC-ENUMERATION-PARAM-DEF")
        [WCall "writeEcucParameterDef" None [];
         WLeaf WText (TLit "DEFAULT-VALUE") [GM "getDefaultValue"];
         WCall "writeEcucEnumerationParamDefLiterals" None []]]
     []].
(** arxml_writer.py:7179-7185 *)
Definition w_writeEcucFunctionNameDef : list wi :=
  [WIf (CSome [])
     [WSub (TLit "ECUC-FUNCTION-NAME-DEF")
        [WCall "writeEcucParameterDef" None [];
         WSub (TLit "ECUC-FUNCTION-NAME-DEF-VARIANTS")
           [WSub (TLit "ECUC-FUNCTION-NAME-DEF-CONDITIONAL")
              [WCall "writeEcucAbstractStringParamDef" None []]]]]
     []].
(** arxml_writer.py:7187-7193 *)
Definition w_writeEcucMultilineStringParamDef : list wi :=
  [WIf (CSome [])
     [WSub (TLit "ECUC-MULTILINE-STRING-PARAM-DEF")
        [WCall "writeEcucParameterDef" None [];
         WSub (TLit "ECUC-MULTILINE-STRING-PARAM-DEF-VARIANTS")
           [WSub (TLit "ECUC-MULTILINE-STRING-PARAM-DEF-CONDITIONAL")
              [WCall "writeEcucAbstractStringParamDef" None []]]]]
     []].
(** arxml_writer.py:7195-7215 *)
Definition w_writeEcucContainerDefParameters : list wi :=
  [WIf (CNonEmpty [GM "getParameters"])
     [WSub (TLit "PARAMETERS")
        [WFor [GM "getParameters"]
           [WIf (CInst [] ["EcucBooleanParamDef"])
              [WCall "writeEcucBooleanParamDef" None []]
              [WIf (CInst [] ["EcucStringParamDef"])
                 [WCall "writeEcucStringParamDef" None []]
                 [WIf (CInst [] ["EcucIntegerParamDef"])
                    [WCall "writeEcucIntegerParamDef" None []]
                    [WIf (CInst [] ["EcucFloatParamDef"])
                       [WCall "writeEcucFloatParamDef" None []]
                       [WIf (CInst [] ["EcucEnumerationParamDef"])
                          [WCall "writeEcucEnumerationParamDef" None []]
                          [WIf (CInst [] ["EcucFunctionNameDef"])
                             [WCall "writeEcucFunctionNameDef" None []]
                             [WIf (CInst [] ["EcucMultilineStringParamDef"])
                                [WCall "writeEcucMultilineStringParamDef" None []]
                                [WFail NotImplementedError true]]]]]]]]]]
     []].
(** arxml_writer.py:7217-7223 *)
Definition w_writeEcucContainerDef : list wi :=
  [WCall "writeEcucDefinitionElement" None [];
   WCall "setEcucDestinationUriRefs" None [GM "getDestinationUriRefs"];
   WCall "setEcucMultiplicityConfigClasses" None [GM "getMultiplicityConfigClasses"];
   WLeaf WText (TLit "ORIGIN") [GM "getOrigin"];
   WLeaf WText (TLit "POST-BUILD-VARIANT-MULTIPLICITY") [GM "getPostBuildVariantMultiplicity"];
   WLeaf WText (TLit "REQUIRES-INDEX") [GM "getRequiresIndex"]].
(** arxml_writer.py:7225-7240 *)
Definition w_setEcucDestinationUriRefs : list wi :=
  [WIf (CNonEmpty [])
     [WSub (TLit "DESTINATION-URI-REFS")
        [WFor []
           [WIf (CInst [] ["EcucDestinationUriDefRefType"])
              [WSub (TLit "DESTINATION-URI-REF")
                 [WIf (CSome [GM "getBase"])
                    [WXAttr "BASE" [GM "getBase"]]
                    [];
                  WIf (CSome [GM "getDest"])
                    [WXAttr "DEST" [GM "getDest"]]
                    [];
                  WIf (CSome [GA "value"])
                    [WSetText [GA "value"]]
                    []]]
              [WFail NotImplementedError true]]]]
     []].
(** arxml_writer.py:7242-7244 *)
Definition w_writeEcucAbstractReferenceDef : list wi :=
  [WCall "writeEcucCommonAttributes" None [];
   WLeaf WText (TLit "WITH-AUTO") [GM "getWithAuto"]].
(** arxml_writer.py:7246-7248 *)
Definition w_writeEcucAbstractInternalReferenceDef : list wi :=
  [WCall "writeEcucAbstractReferenceDef" None [];
   WLeaf WText (TLit "REQUIRES-SYMBOLIC-NAME-VALUE") [GM "getRequiresSymbolicNameValue"]].
(** arxml_writer.py:7250-7251 *)
Definition w_writeEcucAbstractExternalReferenceDef : list wi :=
  [WCall "writeEcucAbstractReferenceDef" None []].
(** arxml_writer.py:7253-7257 *)
Definition w_writeEcucSymbolicNameReferenceDef : list wi :=
  [WIf (CSome [])
     [WSub (TLit "ECUC-SYMBOLIC-NAME-REFERENCE-DEF")
        [WCall "writeEcucAbstractInternalReferenceDef" None [];
         WLeaf WRef (TLit "DESTINATION-REF") [GM "getDestinationRef"]]]
     []].
(** arxml_writer.py:7259-7263 *)
Definition w_writeEcucReferenceDef : list wi :=
  [WIf (CSome [])
     [WSub (TLit "ECUC-REFERENCE-DEF")
        [WCall "writeEcucAbstractInternalReferenceDef" None [];
         WLeaf WRef (TLit "DESTINATION-REF") [GM "getDestinationRef"]]]
     []].
(** arxml_writer.py:7265-7273 *)
Definition w_writeEcucChoiceReferenceDef : list wi :=
  [WIf (CSome [])
     [WSub (TLit "ECUC-CHOICE-REFERENCE-DEF")
        [WCall "writeEcucAbstractInternalReferenceDef" None [];
         WIf (CNonEmpty [GM "getDestinationRefs"])
           [WSub (TLit "DESTINATION-REFS")
              [WFor [GM "getDestinationRefs"]
                 [WLeaf WRef (TLit "DESTINATION-REF") []]]]
           []]]
     []].
(** arxml_writer.py:7275-7280 *)
Definition w_writeEcucInstanceReferenceDef : list wi :=
  [WIf (CSome [])
     [WSub (TLit "ECUC-INSTANCE-REFERENCE-DEF")
        [WCall "writeEcucAbstractExternalReferenceDef" None [];
         WLeaf WText (TLit "DESTINATION-CONTEXT") [GM "getDestinationContext"];
         WLeaf WText (TLit "DESTINATION-TYPE") [GM "getDestinationType"]]]
     []].
(** arxml_writer.py:7282-7296 *)
Definition w_writeEcucContainerDefReferences : list wi :=
  [WIf (CNonEmpty [GM "getReferences"])
     [WSub (TLit "REFERENCES")
        [WFor [GM "getReferences"]
           [WIf (CInst [] ["EcucSymbolicNameReferenceDef"])
              [WCall "writeEcucSymbolicNameReferenceDef" None []]
              [WIf (CInst [] ["EcucReferenceDef"])
                 [WCall "writeEcucReferenceDef" None []]
                 [WIf (CInst [] ["EcucChoiceReferenceDef"])
                    [WCall "writeEcucChoiceReferenceDef" None []]
                    [WIf (CInst [] ["EcucInstanceReferenceDef"])
                       [WCall "writeEcucInstanceReferenceDef" None []]
                       [WFail NotImplementedError true]]]]]]]
     []].
(** arxml_writer.py:7298-7308 *)
Definition w_writeEcucContainerDefSubContainers : list wi :=
  [WIf (CNonEmpty [GM "getSubContainers"])
     [WSub (TLit "SUB-CONTAINERS")
        [WFor [GM "getSubContainers"]
           [WIf (CInst [] ["EcucParamConfContainerDef"])
              [WCall "writeEcucParamConfContainerDef" None []]
              [WIf (CInst [] ["EcucChoiceContainerDef"])
                 [WCall "writeEcucChoiceContainerDef" None []]
                 [WFail NotImplementedError true]]]]]
     []].
(** arxml_writer.py:7310-7316 *)
Definition w_writeEcucParamConfContainerDef : list wi :=
  [WIf (CSome [])
     [WSub (TLit "ECUC-PARAM-CONF-CONTAINER-DEF")
        [WCall "writeEcucContainerDef" None [];
         WCall "writeEcucContainerDefParameters" None [];
         WCall "writeEcucContainerDefReferences" None [];
         WCall "writeEcucContainerDefSubContainers" None []]]
     []].
(** arxml_writer.py:7318-7326 *)
Definition w_writeEcucChoiceContainerDefChoices : list wi :=
  [WIf (CNonEmpty [GM "getChoices"])
     [WSub (TLit "CHOICES")
        [WFor [GM "getChoices"]
           [WIf (CInst [] ["EcucParamConfContainerDef"])
              [WCall "writeEcucParamConfContainerDef" None []]
              [WFail NotImplementedError true]]]]
     []].
(** arxml_writer.py:7328-7332 *)
Definition w_writeEcucChoiceContainerDef : list wi :=
  [WIf (CSome [])
     [WSub (TLit "ECUC-CHOICE-CONTAINER-DEF")
        [WCall "writeEcucContainerDef" None [];
         WCall "writeEcucChoiceContainerDefChoices" None []]]
     []].
(** arxml_writer.py:7334-7343 *)
Definition w_writeEcucModuleDefContainers : list wi :=
  [WSub (TLit "CONTAINERS")
     [WFor [GM "getContainers"]
        [WIf (CInst [] ["EcucParamConfContainerDef"])
           [WCall "writeEcucParamConfContainerDef" None []]
           [WIf (CInst [] ["EcucChoiceContainerDef"])
              [WCall "writeEcucChoiceContainerDef" None []]
              [WFail NotImplementedError true]]]]].
(** arxml_writer.py:7345-7354 *)
Definition w_writeEcucModuleDef : list wi :=
  [WIf (CSome [])
     [WSub (TLit "ECUC-MODULE-DEF")
        [WCall "writeEcucDefinitionElement" None [];
         WLeaf WText (TLit "API-SERVICE-PREFIX") [GM "getApiServicePrefix"];
         WLeaf WText (TLit "POST-BUILD-VARIANT-SUPPORT") [GM "getPostBuildVariantSupport"];
         WLeaf WRef (TLit "REFINED-MODULE-DEF-REF") [GM "getRefinedModuleDefRef"];
         WCall "writeEcucModuleDefSupportedConfigVariants" None [];
         WCall "writeEcucModuleDefContainers" None []]]
     []].
(** arxml_writer.py:7356-7361 *)
Definition w_writeEcucDefinitionCollectionModuleRefs : list wi :=
  [WIf (CNonEmpty [GM "getModuleRefs"])
     [WSub (TLit "MODULE-REFS")
        [WFor [GM "getModuleRefs"]
           [WLeaf WRef (TLit "MODULE-REF") []]]]
     []].
(** arxml_writer.py:7363-7368 *)
Definition w_writeEcucDefinitionCollection : list wi :=
  [WIf (CSome [])
     [WSub (TLit "ECUC-DEFINITION-COLLECTION")
        [WCall "writeARElement" None [];
         WCall "writeEcucDefinitionCollectionModuleRefs" None []]]
     []].
(** arxml_writer.py:7370-7379 *)
Definition w_writeEcucDestinationUriDefSet : list wi :=
  [WIf (CSome [])
     [WSub (TLit "ECUC-DESTINATION-URI-DEF-SET")
        [WCall "writeARElement" None [];
         WIf (CNonEmpty [GM "getDestinationUriDefs"])
           [WSub (TLit "DESTINATION-URI-DEFS")
              [WFor [GM "getDestinationUriDefs"]
                 [WCall "writeEcucDestinationUriDef" None []]]]
           []]]
     []].
(** arxml_writer.py:7381-7386 *)
Definition w_writeEcucDestinationUriDef : list wi :=
  [WIf (CSome [])
     [WSub (TLit "ECUC-DESTINATION-URI-DEF")
        [WCall "writeIdentifiable" None [];
         WCall "writeEcucDestinationUriPolicy" None [GM "getDestinationUriPolicy"]]]
     []].
(** arxml_writer.py:7388-7409 *)
Definition w_writeEcucDestinationUriPolicy : list wi :=
  [WIf (CNot (CSome []))
     []
     [WSub (TLit "DESTINATION-URI-POLICY")
        [WAttrs [];
         WIf (CNonEmpty [GM "getContainers"])
           [WSub (TLit "CONTAINERS")
              [WFor [GM "getContainers"]
                 [WIf (CInst [] ["EcucParamConfContainerDef"])
                    [WCall "writeEcucParamConfContainerDef" None []]
                    [WIf (CInst [] ["EcucChoiceContainerDef"])
                       [WCall "writeEcucChoiceContainerDef" None []]
                       [WFail NotImplementedError true]]]]]
           [];
         WIf (CSome [GM "getDestinationUriNestingContract"])
           [WSub (TLit "DESTINATION-URI-NESTING-CONTRACT")
              [WSetText [GM "getDestinationUriNestingContract"; GM "getValue"]]]
           [];
         WCall "writeEcucDestinationUriPolicyParameters" None [];
         WCall "writeEcucDestinationUriPolicyReferences" None []]]].
(** arxml_writer.py:7411-7431 *)
Definition w_writeEcucDestinationUriPolicyParameters : list wi :=
  [WIf (CNonEmpty [GM "getParameters"])
     [WSub (TLit "PARAMETERS")
        [WFor [GM "getParameters"]
           [WIf (CInst [] ["EcucBooleanParamDef"])
              [WCall "writeEcucBooleanParamDef" None []]
              [WIf (CInst [] ["EcucStringParamDef"])
                 [WCall "writeEcucStringParamDef" None []]
                 [WIf (CInst [] ["EcucIntegerParamDef"])
                    [WCall "writeEcucIntegerParamDef" None []]
                    [WIf (CInst [] ["EcucFloatParamDef"])
                       [WCall "writeEcucFloatParamDef" None []]
                       [WIf (CInst [] ["EcucEnumerationParamDef"])
                          [WCall "writeEcucEnumerationParamDef" None []]
                          [WIf (CInst [] ["EcucFunctionNameDef"])
                             [WCall "writeEcucFunctionNameDef" None []]
                             [WIf (CInst [] ["EcucMultilineStringParamDef"])
                                [WCall "writeEcucMultilineStringParamDef" None []]
                                [WFail NotImplementedError true]]]]]]]]]]
     []].
(** arxml_writer.py:7433-7447 *)
Definition w_writeEcucDestinationUriPolicyReferences : list wi :=
  [WIf (CNonEmpty [GM "getReferences"])
     [WSub (TLit "REFERENCES")
        [WFor [GM "getReferences"]
           [WIf (CInst [] ["EcucSymbolicNameReferenceDef"])
              [WCall "writeEcucSymbolicNameReferenceDef" None []]
              [WIf (CInst [] ["EcucReferenceDef"])
                 [WCall "writeEcucReferenceDef" None []]
                 [WIf (CInst [] ["EcucChoiceReferenceDef"])
                    [WCall "writeEcucChoiceReferenceDef" None []]
                    [WIf (CInst [] ["EcucInstanceReferenceDef"])
                       [WCall "writeEcucInstanceReferenceDef" None []]
                       [WFail NotImplementedError true]]]]]]]
     []].
(** arxml_writer.py:7449-7453 *)
Definition w_writeMacMulticastGroup : list wi :=
  [WIf (CSome [])
     [WSub (TLit "MAC-MULTICAST-GROUP")
        [WCall "writeIdentifiable" None [];
         WLeaf WText (TLit "MAC-MULTICAST-ADDRESS") [GM "getMacMulticastAddress"]]]
     []].
(** arxml_writer.py:7455-7463 *)
Definition w_writeEthernetClusterMacMulticastGroups : list wi :=
  [WIf (CNonEmpty [GM "getMacMulticastGroups"])
     [WSub (TLit "MAC-MULTICAST-GROUPS")
        [WFor [GM "getMacMulticastGroups"]
           [WIf (CInst [] ["MacMulticastGroup"])
              [WCall "writeMacMulticastGroup" None []]
              [WFail NotImplementedError true]]]]
     []].
(** arxml_writer.py:7465-7473 *)
Definition w_writeEthernetCluster : list wi :=
  [WSub (TLit "ETHERNET-CLUSTER")
     [WCall "writeARElement" None [];
      WSub (TLit "ETHERNET-CLUSTER-VARIANTS")
        [WSub (TLit "ETHERNET-CLUSTER-CONDITIONAL")
           [WCall "writeCommunicationCluster" None [];
            WCall "writeEthernetClusterMacMulticastGroups" None []]]]].
(** arxml_writer.py:7475-7478 *)
Definition w_writeCanFrame : list wi :=
  [WSub (TLit "CAN-FRAME")
     [WCall "writeFrame" None []]].
(** arxml_writer.py:7480-7482 *)
Definition w_writeCommConnectorPort : list wi :=
  [WCall "writeIdentifiable" None [];
   WLeaf WText (TLit "COMMUNICATION-DIRECTION") [GM "getCommunicationDirection"]].
(** arxml_writer.py:7484-7486 *)
Definition w_writeFramePort : list wi :=
  [WSub (TLit "FRAME-PORT")
     [WCall "writeCommConnectorPort" None []]].
(** arxml_writer.py:7488-7493 *)
Definition w_writeIPduPort : list wi :=
  [WSub (TLit "I-PDU-PORT")
     [WCall "writeCommConnectorPort" None [];
      WLeaf WNum (TLit "KEY-ID") [GM "getKeyId"];
      WLeaf WText (TLit "RX-SECURITY-VERIFICATION") [GM "getRxSecurityVerification"];
      WLeaf WText (TLit "USE-AUTH-DATA-FRESHNESS") [GM "getUseAuthDataFreshness"]]].
(** arxml_writer.py:7495-7498 *)
Definition w_writeISignalPort : list wi :=
  [WSub (TLit "I-SIGNAL-PORT")
     [WCall "writeCommConnectorPort" None [];
      WLeaf WText (TLit "TIMEOUT") [GM "getTimeout"]]].
(** arxml_writer.py:7500-7513 *)
Definition w_writeCommunicationConnectorEcuCommPortInstances : list wi :=
  [WIf (CNonEmpty [GM "getEcuCommPortInstances"])
     [WSub (TLit "ECU-COMM-PORT-INSTANCES")
        [WFor [GM "getEcuCommPortInstances"]
           [WIf (CInst [] ["FramePort"])
              [WCall "writeFramePort" None []]
              [WIf (CInst [] ["IPduPort"])
                 [WCall "writeIPduPort" None []]
                 [WIf (CInst [] ["ISignalPort"])
                    [WCall "writeISignalPort" None []]
                    [WFail NotImplementedError true]]]]]]
     []].
(** arxml_writer.py:7515-7516 *)
Definition w_writeCommunicationController : list wi :=
  [WLeaf WText (TLit "WAKE-UP-BY-CONTROLLER-SUPPORTED") [GM "getWakeUpByControllerSupported"]].
(** arxml_writer.py:7518-7527 *)
Definition w_setCanControllerFdConfiguration : list wi :=
  [WIf (CSome [])
     [WSub TKey
        [WLeaf WNum (TLit "PADDING-VALUE") [GM "getPaddingValue"];
         WLeaf WNum (TLit "PROP-SEG") [GM "getPropSeg"];
         WLeaf WNum (TLit "SSP-OFFSET") [GM "getSspOffset"];
         WLeaf WNum (TLit "SYNC-JUMP-WIDTH") [GM "getSyncJumpWidth"];
         WLeaf WNum (TLit "TIME-SEG1") [GM "getTimeSeg1"];
         WLeaf WNum (TLit "TIME-SEG2") [GM "getTimeSeg2"];
         WLeaf WText (TLit "TX-BIT-RATE-SWITCH") [GM "getTxBitRateSwitch"]]]
     []].
(** arxml_writer.py:7529-7533 *)
Definition w_setFlexrayFifoRange : list wi :=
  [WIf (CSome [])
     [WSub TKey
        [WLeaf WNum (TLit "RANGE-MAX") [GM "getRangeMax"];
         WLeaf WNum (TLit "RANGE-MIN") [GM "getRangeMin"]]]
     []].
(** arxml_writer.py:7535-7546 *)
Definition w_setFlexrayFifoConfiguration : list wi :=
  [WIf (CSome [])
     [WSub TKey
        [WLeaf WText (TLit "ADMIT-WITHOUT-MESSAGE-ID") [GM "getAdmitWithoutMessageId"];
         WLeaf WNum (TLit "BASE-CYCLE") [GM "getBaseCycle"];
         WLeaf WRef (TLit "CHANNEL-REF") [GM "getChannelRef"];
         WLeaf WNum (TLit "CYCLE-REPETITION") [GM "getCycleRepetition"];
         WLeaf WNum (TLit "FIFO-DEPTH") [GM "getFifoDepth"];
         WFor [GM "getFlexrayFifoRanges"]
           [WCall "setFlexrayFifoRange" (Some (TLit "FLEXRAY-FIFO-RANGE")) []];
         WLeaf WNum (TLit "MSG-ID-MASK") [GM "getMsgIdMask"];
         WLeaf WNum (TLit "MSG-ID-MATCH") [GM "getMsgIdMatch"]]]
     []].
(** arxml_writer.py:7548-7559 *)
Definition w_setCanControllerFdConfigurationRequirements : list wi :=
  [WIf (CSome [])
     [WSub TKey
        [WLeaf WNum (TLit "MAX-NUMBER-OF-TIME-QUANTA-PER-BIT") [GM "getMaxNumberOfTimeQuantaPerBit"];
         WLeaf WText (TLit "MAX-SAMPLE-POINT") [GM "getMaxSamplePoint"];
         WLeaf WText (TLit "MAX-SYNC-JUMP-WIDTH") [GM "getMaxSyncJumpWidth"];
         WLeaf WText (TLit "MAX-TRCV-DELAY-COMPENSATION-OFFSET") [GM "getMaxTrcvDelayCompensationOffset"];
         WLeaf WNum (TLit "MIN-NUMBER-OF-TIME-QUANTA-PER-BIT") [GM "getMinNumberOfTimeQuantaPerBit"];
         WLeaf WText (TLit "MIN-SAMPLE-POINT") [GM "getMinSamplePoint"];
         WLeaf WText (TLit "MIN-SYNC-JUMP-WIDTH") [GM "getMinSyncJumpWidth"];
         WLeaf WText (TLit "MIN-TRCV-DELAY-COMPENSATION-OFFSET") [GM "getMinTrcvDelayCompensationOffset"];
         WLeaf WText (TLit "TX-BIT-RATE-SWITCH") [GM "getTxBitRateSwitch"]]]
     []].
(** arxml_writer.py:7561-7573 *)
Definition w_setCanControllerXlConfiguration : list wi :=
  [WIf (CSome [])
     [WSub TKey
        [WLeaf WText (TLit "ERROR-SIGNALING-ENABLED") [GM "getErrorSignalingEnabled"];
         WLeaf WNum (TLit "PROP-SEG") [GM "getPropSeg"];
         WLeaf WNum (TLit "PWM-L") [GM "getPwmL"];
         WLeaf WNum (TLit "PWM-O") [GM "getPwmO"];
         WLeaf WNum (TLit "PWM-S") [GM "getPwmS"];
         WLeaf WNum (TLit "SSP-OFFSET") [GM "getSspOffset"];
         WLeaf WNum (TLit "SYNC-JUMP-WIDTH") [GM "getSyncJumpWidth"];
         WLeaf WNum (TLit "TIME-SEG1") [GM "getTimeSeg1"];
         WLeaf WNum (TLit "TIME-SEG2") [GM "getTimeSeg2"];
         WLeaf WText (TLit "TRCV-PWM-MODE-ENABLED") [GM "getTrcvPwmModeEnabled"]]]
     []].
(** arxml_writer.py:7575-7593 *)
Definition w_setCanControllerXlConfigurationRequirements : list wi :=
  [WIf (CSome [])
     [WSub TKey
        [WLeaf WText (TLit "ERROR-SIGNALING-ENABLED") [GM "getErrorSignalingEnabled"];
         WLeaf WNum (TLit "MAX-NUMBER-OF-TIME-QUANTA-PER-BIT") [GM "getMaxNumberOfTimeQuantaPerBit"];
         WLeaf WNum (TLit "MAX-PWM-L") [GM "getMaxPwmL"];
         WLeaf WNum (TLit "MAX-PWM-O") [GM "getMaxPwmO"];
         WLeaf WNum (TLit "MAX-PWM-S") [GM "getMaxPwmS"];
         WLeaf WText (TLit "MAX-SAMPLE-POINT") [GM "getMaxSamplePoint"];
         WLeaf WText (TLit "MAX-SYNC-JUMP-WIDTH") [GM "getMaxSyncJumpWidth"];
         WLeaf WText (TLit "MAX-TRCV-DELAY-COMPENSATION-OFFSET") [GM "getMaxTrcvDelayCompensationOffset"];
         WLeaf WNum (TLit "MIN-NUMBER-OF-TIME-QUANTA-PER-BIT") [GM "getMinNumberOfTimeQuantaPerBit"];
         WLeaf WNum (TLit "MIN-PWM-L") [GM "getMinPwmL"];
         WLeaf WNum (TLit "MIN-PWM-O") [GM "getMinPwmO"];
         WLeaf WNum (TLit "MIN-PWM-S") [GM "getMinPwmS"];
         WLeaf WText (TLit "MIN-SAMPLE-POINT") [GM "getMinSamplePoint"];
         WLeaf WText (TLit "MIN-SYNC-JUMP-WIDTH") [GM "getMinSyncJumpWidth"];
         WLeaf WText (TLit "MIN-TRCV-DELAY-COMPENSATION-OFFSET") [GM "getMinTrcvDelayCompensationOffset"];
         WLeaf WText (TLit "TRCV-PWM-MODE-ENABLED") [GM "getTrcvPwmModeEnabled"]]]
     []].
(** arxml_writer.py:7595-7599 *)
Definition w_writeAbstractCanCommunicationControllerAttributes : list wi :=
  [WCall "setCanControllerFdConfiguration" (Some (TLit "CAN-CONTROLLER-FD-CONFIGURATION")) [GM "getCanControllerFdAttributes"];
   WCall "setCanControllerFdConfigurationRequirements" (Some (TLit "CAN-CONTROLLER-FD-REQUIREMENTS")) [GM "getCanControllerFdRequirements"];
   WCall "setCanControllerXlConfiguration" (Some (TLit "CAN-CONTROLLER-XL-CONFIGURATION")) [GM "getCanControllerXlAttributes"];
   WCall "setCanControllerXlConfigurationRequirements" (Some (TLit "CAN-CONTROLLER-XL-REQUIREMENTS")) [GM "getCanControllerXlRequirements"]].
(** arxml_writer.py:7601-7610 *)
Definition w_writeCanControllerConfigurationRequirements : list wi :=
  [WIf (CSome [])
     [WSub (TLit "CAN-CONTROLLER-CONFIGURATION-REQUIREMENTS")
        [WCall "writeAbstractCanCommunicationControllerAttributes" None [];
         WLeaf WNum (TLit "MAX-NUMBER-OF-TIME-QUANTA-PER-BIT") [GM "getMaxNumberOfTimeQuantaPerBit"];
         WLeaf WText (TLit "MAX-SAMPLE-POINT") [GM "getMaxSamplePoint"];
         WLeaf WText (TLit "MAX-SYNC-JUMP-WIDTH") [GM "getMaxSyncJumpWidth"];
         WLeaf WNum (TLit "MIN-NUMBER-OF-TIME-QUANTA-PER-BIT") [GM "getMinNumberOfTimeQuantaPerBit"];
         WLeaf WText (TLit "MIN-SAMPLE-POINT") [GM "getMinSamplePoint"];
         WLeaf WText (TLit "MIN-SYNC-JUMP-WIDTH") [GM "getMinSyncJumpWidth"]]]
     []].
(** arxml_writer.py:7612-7619 *)
Definition w_writeAbstractCanCommunicationControllerCanControllerAttributes : list wi :=
  [WIf (CSome [GM "getCanControllerAttributes"])
     [WSub (TLit "CAN-CONTROLLER-ATTRIBUTES")
        [WIf (CInst [GM "getCanControllerAttributes"] ["CanControllerConfigurationRequirements"])
           [WCall "writeCanControllerConfigurationRequirements" None [GM "getCanControllerAttributes"]]
           [WFail NotImplementedError true]]]
     []].
(** arxml_writer.py:7621-7623 *)
Definition w_writeAbstractCanCommunicationController : list wi :=
  [WCall "writeCommunicationController" None [];
   WCall "writeAbstractCanCommunicationControllerCanControllerAttributes" None []].
(** arxml_writer.py:7625-7631 *)
Definition w_writeCanCommunicationController : list wi :=
  [WSub (TLit "CAN-COMMUNICATION-CONTROLLER")
     [WCall "writeIdentifiable" None [];
      WSub (TLit "CAN-COMMUNICATION-CONTROLLER-VARIANTS")
        [WSub (TLit "CAN-COMMUNICATION-CONTROLLER-CONDITIONAL")
           [WCall "writeAbstractCanCommunicationController" None []]]]].
(** arxml_writer.py:7633-7634 *)
Definition w_writeCouplingPortSchedulerCouplingPortStructuralElement : list wi :=
  [WCall "writeIdentifiable" None []].
(** arxml_writer.py:7636-7639 *)
Definition w_writeCouplingPortFifo : list wi :=
  [WIf (CSome [])
     [WSub (TLit "COUPLING-PORT-FIFO")
        [WCall "writeCouplingPortSchedulerCouplingPortStructuralElement" None []]]
     []].
(** arxml_writer.py:7641-7645 *)
Definition w_writeCouplingPortScheduler : list wi :=
  [WIf (CSome [])
     [WSub (TLit "COUPLING-PORT-SCHEDULER")
        [WCall "writeCouplingPortSchedulerCouplingPortStructuralElement" None [];
         WLeaf WText (TLit "PORT-SCHEDULER") [GM "getPortScheduler"]]]
     []].
(** arxml_writer.py:7647-7657 *)
Definition w_writeCouplingPortDetailsCouplingPortStructuralElements : list wi :=
  [WIf (CNonEmpty [GM "getCouplingPortStructuralElements"])
     [WSub (TLit "COUPLING-PORT-STRUCTURAL-ELEMENTS")
        [WFor [GM "getCouplingPortStructuralElements"]
           [WIf (CInst [] ["CouplingPortFifo"])
              [WCall "writeCouplingPortFifo" None []]
              [WIf (CInst [] ["CouplingPortScheduler"])
                 [WCall "writeCouplingPortScheduler" None []]
                 [WFail NotImplementedError true]]]]]
     []].
(** arxml_writer.py:7659-7664 *)
Definition w_writeEthernetPriorityRegeneration : list wi :=
  [WIf (CSome [])
     [WSub (TLit "ETHERNET-PRIORITY-REGENERATION")
        [WCall "writeReferrable" None [];
         WLeaf WNum (TLit "INGRESS-PRIORITY") [GM "getIngressPriority"];
         WLeaf WNum (TLit "REGENERATED-PRIORITY") [GM "getRegeneratedPriority"]]]
     []].
(** arxml_writer.py:7666-7674 *)
Definition w_writeCouplingPortDetailsEthernetPriorityRegenerations : list wi :=
  [WIf (CNonEmpty [GM "getEthernetPriorityRegenerations"])
     [WSub (TLit "ETHERNET-PRIORITY-REGENERATIONS")
        [WFor [GM "getEthernetPriorityRegenerations"]
           [WIf (CInst [] ["EthernetPriorityRegeneration"])
              [WCall "writeEthernetPriorityRegeneration" None []]
              [WFail NotImplementedError true]]]]
     []].
(** arxml_writer.py:7676-7681 *)
Definition w_setCouplingPortDetails : list wi :=
  [WIf (CSome [])
     [WSub TKey
        [WCall "writeCouplingPortDetailsCouplingPortStructuralElements" None [];
         WCall "writeCouplingPortDetailsEthernetPriorityRegenerations" None [];
         WLeaf WRef (TLit "LAST-EGRESS-SCHEDULER-REF") [GM "getLastEgressSchedulerRef"]]]
     []].
(** arxml_writer.py:7683-7687 *)
Definition w_writeVlanMembership : list wi :=
  [WIf (CSome [])
     [WSub (TLit "VLAN-MEMBERSHIP")
        [WLeaf WText (TLit "SEND-ACTIVITY") [GM "getSendActivity"];
         WLeaf WRef (TLit "VLAN-REF") [GM "getVlanRef"]]]
     []].
(** arxml_writer.py:7689-7697 *)
Definition w_writeCouplingPortVlanMemberships : list wi :=
  [WIf (CNonEmpty [GM "getVlanMemberships"])
     [WSub (TLit "VLAN-MEMBERSHIPS")
        [WFor [GM "getVlanMemberships"]
           [WIf (CInst [] ["VlanMembership"])
              [WCall "writeVlanMembership" None []]
              [WFail NotImplementedError true]]]]
     []].
(** arxml_writer.py:7699-7704 *)
Definition w_writeCouplingPort : list wi :=
  [WSub (TLit "COUPLING-PORT")
     [WCall "writeIdentifiable" None [];
      WCall "setCouplingPortDetails" (Some (TLit "COUPLING-PORT-DETAILS")) [GM "getCouplingPortDetails"];
      WLeaf WText (TLit "MAC-LAYER-TYPE") [GM "getMacLayerType"];
      WCall "writeCouplingPortVlanMemberships" None []]].
(** arxml_writer.py:7706-7714 *)
Definition w_writeEthernetCommunicationControllerCouplingPorts : list wi :=
  [WIf (CNonEmpty [GM "getCouplingPorts"])
     [WSub (TLit "COUPLING-PORTS")
        [WFor [GM "getCouplingPorts"]
           [WIf (CInst [] ["CouplingPort"])
              [WCall "writeCouplingPort" None []]
              [WFail NotImplementedError true]]]]
     []].
(** arxml_writer.py:7716-7723 *)
Definition w_writeEthernetCommunicationController : list wi :=
  [WSub (TLit "ETHERNET-COMMUNICATION-CONTROLLER")
     [WCall "writeIdentifiable" None [];
      WSub (TLit "ETHERNET-COMMUNICATION-CONTROLLER-VARIANTS")
        [WSub (TLit "ETHERNET-COMMUNICATION-CONTROLLER-CONDITIONAL")
           [WCall "writeCommunicationController" None [];
            WCall "writeEthernetCommunicationControllerCouplingPorts" None []]]]].
(** arxml_writer.py:7725-7739 *)
Definition w_writeEcuInstanceCommControllers : list wi :=
  [WIf (CNonEmpty [GM "getCommControllers"])
     [WSub (TLit "COMM-CONTROLLERS")
        [WFor [GM "getCommControllers"]
           [WIf (CInst [] ["CanCommunicationController"])
              [WCall "writeCanCommunicationController" None []]
              [WIf (CInst [] ["EthernetCommunicationController"])
                 [WCall "writeEthernetCommunicationController" None []]
                 [WIf (CInst [] ["LinMaster"])
                    [WCall "writeLinMaster" None []]
                    [WIf (CInst [] ["FlexrayCommunicationController"])
                       [WCall "writeFlexrayCommunicationController" None []]
                       [WFail NotImplementedError true]]]]]]]
     []].
(** arxml_writer.py:7741-7745 *)
Definition w_writeCommunicationConnector : list wi :=
  [WCall "writeIdentifiable" None [];
   WLeaf WRef (TLit "COMM-CONTROLLER-REF") [GM "getCommControllerRef"];
   WCall "writeCommunicationConnectorEcuCommPortInstances" None [];
   WLeaf WText (TLit "PNC-GATEWAY-TYPE") [GM "getPncGatewayType"]].
(** arxml_writer.py:7747-7749 *)
Definition w_writeCanCommunicationConnector : list wi :=
  [WCall "writeCommunicationConnector" None []].
(** arxml_writer.py:7751-7756 *)
Definition w_writeEthernetCommunicationConnectorNetworkEndpointRefs : list wi :=
  [WIf (CNonEmpty [GM "getNetworkEndpointRefs"])
     [WSub (TLit "NETWORK-ENDPOINT-REFS")
        [WFor [GM "getNetworkEndpointRefs"]
           [WLeaf WRef (TLit "NETWORK-ENDPOINT-REF") []]]]
     []].
(** arxml_writer.py:7758-7762 *)
Definition w_writeEthernetCommunicationConnector : list wi :=
  [WCall "writeCommunicationConnector" None [];
   WLeaf WNum (TLit "MAXIMUM-TRANSMISSION-UNIT") [GM "getMaximumTransmissionUnit"];
   WCall "writeEthernetCommunicationConnectorNetworkEndpointRefs" None []].
(** arxml_writer.py:7764-7766 *)
Definition w_writeLinCommunicationConnector : list wi :=
  [WCall "writeCommunicationConnector" None []].
(** arxml_writer.py:7768-7770 *)
Definition w_writeFlexrayCommunicationConnector : list wi :=
  [WCall "writeCommunicationConnector" None []].
(** arxml_writer.py:7772-7790 *)
Definition w_writeEcuInstanceConnectors : list wi :=
  [WIf (CNonEmpty [GM "getConnectors"])
     [WSub (TLit "CONNECTORS")
        [WFor [GM "getConnectors"]
           [WIf (CInst [] ["CanCommunicationConnector"])
              [WSub (TLit "CAN-COMMUNICATION-CONNECTOR")
                 [WCall "writeCanCommunicationConnector" None []]]
              [WIf (CInst [] ["EthernetCommunicationConnector"])
                 [WSub (TLit "ETHERNET-COMMUNICATION-CONNECTOR")
                    [WCall "writeEthernetCommunicationConnector" None []]]
                 [WIf (CInst [] ["LinCommunicationConnector"])
                    [WSub (TLit "LIN-COMMUNICATION-CONNECTOR")
                       [WCall "writeLinCommunicationConnector" None []]]
                    [WIf (CInst [] ["FlexrayCommunicationConnector"])
                       [WSub (TLit "FLEXRAY-COMMUNICATION-CONNECTOR")
                          [WCall "writeFlexrayCommunicationConnector" None []]]
                       [WFail NotImplementedError true]]]]]]]
     []].
(** arxml_writer.py:7792-7797 *)
Definition w_writeEcuInstanceAssociatedComIPduGroupRefs : list wi :=
  [WIf (CNonEmpty [GM "getAssociatedComIPduGroupRefs"])
     [WSub (TLit "ASSOCIATED-COM-I-PDU-GROUP-REFS")
        [WFor [GM "getAssociatedComIPduGroupRefs"]
           [WLeaf WRef (TLit "ASSOCIATED-COM-I-PDU-GROUP-REF") []]]]
     []].
(** arxml_writer.py:7799-7804 *)
Definition w_writeEcuInstanceAssociatedConsumedProvidedServiceInstanceGroupRefs : list wi :=
  [WIf (CNonEmpty [GM "getAssociatedConsumedProvidedServiceInstanceGroupRefs"])
     [WSub (TLit "ASSOCIATED-CONSUMED-PROVIDED-SERVICE-INSTANCE-GROUP-REFS")
        [WFor [GM "getAssociatedConsumedProvidedServiceInstanceGroupRefs"]
           [WLeaf WRef (TLit "ASSOCIATED-CONSUMED-PROVIDED-SERVICE-INSTANCE-GROUP-REF") []]]]
     []].
(** arxml_writer.py:7806-7811 *)
Definition w_writeEcuInstanceAssociatedPdurIPduGroupRefs : list wi :=
  [WIf (CNonEmpty [GM "getAssociatedPdurIPduGroupRefs"])
     [WSub (TLit "ASSOCIATED-PDUR-I-PDU-GROUP-REFS")
        [WFor [GM "getAssociatedPdurIPduGroupRefs"]
           [WLeaf WRef (TLit "ASSOCIATED-PDUR-I-PDU-GROUP-REF") []]]]
     []].
(** arxml_writer.py:7813-7818 *)
Definition w_writeEcuInstanceEcuTaskProxyRefs : list wi :=
  [WIf (CNonEmpty [GM "getEcuTaskProxyRefs"])
     [WSub (TLit "ECU-TASK-PROXY-REFS")
        [WFor [GM "getEcuTaskProxyRefs"]
           [WLeaf WRef (TLit "ECU-TASK-PROXY-REF") []]]]
     []].
(** arxml_writer.py:7820-7825 *)
Definition w_writeEcuInstanceFirewallRuleRefs : list wi :=
  [WIf (CNonEmpty [GM "getFirewallRuleRefs"])
     [WSub (TLit "FIREWALL-RULE-REFS")
        [WFor [GM "getFirewallRuleRefs"]
           [WLeaf WRef (TLit "FIREWALL-RULE-REF") []]]]
     []].
(** arxml_writer.py:7827-7852 *)
Definition w_writeEcuInstance : list wi :=
  [WSub (TLit "ECU-INSTANCE")
     [WCall "writeIdentifiable" None [];
      WCall "writeEcuInstanceAssociatedComIPduGroupRefs" None [];
      WCall "writeEcuInstanceAssociatedConsumedProvidedServiceInstanceGroupRefs" None [];
      WCall "writeEcuInstanceAssociatedPdurIPduGroupRefs" None [];
      WLeaf WText (TLit "CHANNEL-SYNCHRONOUS-WAKEUP") [GM "getChannelSynchronousWakeup"];
      WLeaf WText (TLit "COM-CONFIGURATION-GW-TIME-BASE") [GM "getComConfigurationGwTimeBase"];
      WLeaf WText (TLit "COM-CONFIGURATION-RX-TIME-BASE") [GM "getComConfigurationRxTimeBase"];
      WLeaf WText (TLit "COM-CONFIGURATION-TX-TIME-BASE") [GM "getComConfigurationTxTimeBase"];
      WLeaf WText (TLit "COM-ENABLE-MDT-FOR-CYCLIC-TRANSMISSION") [GM "getComEnableMDTForCyclicTransmission"];
      WCall "writeEcuInstanceCommControllers" None [];
      WCall "writeEcuInstanceConnectors" None [];
      WCall "writeEcuInstanceEcuTaskProxyRefs" None [];
      WLeaf WText (TLit "ETH-SWITCH-PORT-GROUP-DERIVATION") [GM "getEthSwitchPortGroupDerivation"];
      WCall "writeEcuInstanceFirewallRuleRefs" None [];
      WLeaf WText (TLit "PNC-NM-REQUEST") [GM "getPncNmRequest"];
      WLeaf WText (TLit "PNC-PREPARE-SLEEP-TIMER") [GM "getPncPrepareSleepTimer"];
      WLeaf WText (TLit "PNC-SYNCHRONOUS-WAKEUP") [GM "getPncSynchronousWakeup"];
      WLeaf WText (TLit "PN-RESET-TIME") [GM "getPnResetTime"];
      WLeaf WText (TLit "SLEEP-MODE-SUPPORTED") [GM "getSleepModeSupported"];
      WLeaf WRef (TLit "TCP-IP-ICMP-PROPS") [GM "getTcpIpIcmpPropsRef"];
      WLeaf WRef (TLit "TCP-IP-PROPS") [GM "getTcpIpPropsRef"];
      WLeaf WText (TLit "V-2-X-SUPPORTED") [GM "getV2xSupported"];
      WLeaf WText (TLit "WAKE-UP-OVER-BUS-SUPPORTED") [GM "getWakeUpOverBusSupported"]]].
(** arxml_writer.py:7854-7863 *)
Definition w_writeSystemSignalGroup : list wi :=
  [WSub (TLit "SYSTEM-SIGNAL-GROUP")
     [WCall "writeIdentifiable" None [];
      WIf (CNonEmpty [GM "getSystemSignalRefs"])
        [WSub (TLit "SYSTEM-SIGNAL-REFS")
           [WFor [GM "getSystemSignalRefs"]
              [WLeaf WRef (TLit "SYSTEM-SIGNAL-REF") []]]]
        [];
      WLeaf WRef (TLit "TRANSFORMING-SYSTEM-SIGNAL-REF") [GM "getTransformingSystemSignalRef"]]].
(** arxml_writer.py:7865-7869 *)
Definition w_writeSenderReceiverToSignalMapping : list wi :=
  [WSub (TLit "SENDER-RECEIVER-TO-SIGNAL-MAPPING")
     [WLeaf WText (TLit "COMMUNICATION-DIRECTION") [GM "getCommunicationDirection"];
      WCall "setVariableDataPrototypeInSystemInstanceRef" (Some (TLit "DATA-ELEMENT-IREF")) [GM "getDataElementIRef"];
      WLeaf WRef (TLit "SYSTEM-SIGNAL-REF") [GM "getSystemSignalRef"]]].
(** arxml_writer.py:7871-7872 *)
Definition w_writeSenderRecCompositeTypeMapping : list wi :=
  [WAttrs []].
(** arxml_writer.py:7874-7880 *)
Definition w_writeSenderRecRecordElementMapping : list wi :=
  [WIf (CSome [])
     [WSub (TLit "SENDER-REC-RECORD-ELEMENT-MAPPING")
        [WAttrs [];
         WLeaf WRef (TLit "APPLICATION-RECORD-ELEMENT-REF") [GM "getApplicationRecordElementRef"];
         WLeaf WRef (TLit "IMPLEMENTATION-RECORD-ELEMENT-REF") [GM "getImplementationRecordElementRef"];
         WLeaf WRef (TLit "SYSTEM-SIGNAL-REF") [GM "getSystemSignalRef"]]]
     []].
(** arxml_writer.py:7882-7890 *)
Definition w_writeSenderRecArrayTypeMappingRecordElementMapping : list wi :=
  [WIf (CNonEmpty [GM "getRecordElementMappings"])
     [WSub (TLit "RECORD-ELEMENT-MAPPINGS")
        [WFor [GM "getRecordElementMappings"]
           [WIf (CInst [] ["SenderRecRecordElementMapping"])
              [WCall "writeSenderRecRecordElementMapping" None []]
              [WFail NotImplementedError true]]]]
     []].
(** arxml_writer.py:7892-7896 *)
Definition w_writeSenderRecRecordTypeMapping : list wi :=
  [WIf (CSome [])
     [WSub (TLit "SENDER-REC-RECORD-TYPE-MAPPING")
        [WCall "writeSenderRecCompositeTypeMapping" None [];
         WCall "writeSenderRecArrayTypeMappingRecordElementMapping" None []]]
     []].
(** arxml_writer.py:7898-7905 *)
Definition w_writeSenderReceiverToSignalGroupMappingTypeMapping : list wi :=
  [WIf (CSome [GM "getTypeMapping"])
     [WSub (TLit "TYPE-MAPPING")
        [WIf (CInst [GM "getTypeMapping"] ["SenderRecRecordTypeMapping"])
           [WCall "writeSenderRecRecordTypeMapping" None [GM "getTypeMapping"]]
           [WFail NotImplementedError true]]]
     []].
(** arxml_writer.py:7907-7911 *)
Definition w_writeSenderReceiverToSignalGroupMapping : list wi :=
  [WSub (TLit "SENDER-RECEIVER-TO-SIGNAL-GROUP-MAPPING")
     [WCall "setVariableDataPrototypeInSystemInstanceRef" (Some (TLit "DATA-ELEMENT-IREF")) [GM "getDataElementIRef"];
      WLeaf WRef (TLit "SIGNAL-GROUP-REF") [GM "getSignalGroupRef"];
      WCall "writeSenderReceiverToSignalGroupMappingTypeMapping" None []]].
(** arxml_writer.py:7913-7923 *)
Definition w_writeSystemMappingDataMappings : list wi :=
  [WIf (CNonEmpty [GM "getDataMappings"])
     [WSub (TLit "DATA-MAPPINGS")
        [WFor [GM "getDataMappings"]
           [WIf (CInst [] ["SenderReceiverToSignalMapping"])
              [WCall "writeSenderReceiverToSignalMapping" None []]
              [WIf (CInst [] ["SenderReceiverToSignalGroupMapping"])
                 [WCall "writeSenderReceiverToSignalGroupMapping" None []]
                 [WFail NotImplementedError true]]]]]
     []].
(** arxml_writer.py:7925-7933 *)
Definition w_setSwcToEcuMapping : list wi :=
  [WSub (TLit "SWC-TO-ECU-MAPPING")
     [WCall "writeIdentifiable" None [];
      WIf (CNonEmpty [GM "getComponentIRefs"])
        [WSub (TLit "COMPONENT-IREFS")
           [WFor [GM "getComponentIRefs"]
              [WCall "setComponentInSystemInstanceRef" (Some (TLit "COMPONENT-IREF")) []]]]
        [];
      WLeaf WRef (TLit "ECU-INSTANCE-REF") [GM "getEcuInstanceRef"]]].
(** arxml_writer.py:7935-7943 *)
Definition w_writeSystemMappingSwMappings : list wi :=
  [WIf (CNonEmpty [GM "getSwMappings"])
     [WSub (TLit "SW-MAPPINGS")
        [WFor [GM "getSwMappings"]
           [WIf (CInst [] ["SwcToEcuMapping"])
              [WCall "setSwcToEcuMapping" None []]
              [WFail NotImplementedError true]]]]
     []].
(** arxml_writer.py:7945-7951 *)
Definition w_writeEcuMapping : list wi :=
  [WIf (CSome [])
     [WSub (TLit "ECU-MAPPING")
        [WCall "writeIdentifiable" None [];
         WLeaf WRef (TLit "ECU-INSTANCE-REF") [GM "getEcuInstanceRef"];
         WLeaf WRef (TLit "ECU-REF") [GM "getEcuRef"]]]
     []].
(** arxml_writer.py:7953-7961 *)
Definition w_writeSystemMappingEcuResourceMappings : list wi :=
  [WIf (CNonEmpty [GM "getEcuResourceMappings"])
     [WSub (TLit "ECU-RESOURCE-MAPPINGS")
        [WFor [GM "getEcuResourceMappings"]
           [WIf (CInst [] ["ECUMapping"])
              [WCall "writeEcuMapping" None []]
              [WFail NotImplementedError true]]]]
     []].
(** arxml_writer.py:7963-7972 *)
Definition w_writeSwcToImplMapping : list wi :=
  [WIf (CSome [])
     [WSub (TLit "SWC-TO-IMPL-MAPPING")
        [WCall "writeIdentifiable" None [];
         WLeaf WRef (TLit "COMPONENT-IMPLEMENTATION-REF") [GM "getComponentImplementationRef"];
         WIf (CNonEmpty [GM "getComponentIRefs"])
           [WSub (TLit "COMPONENT-IREFS")
              [WFor [GM "getComponentIRefs"]
                 [WCall "setComponentInSystemInstanceRef" (Some (TLit "COMPONENT-IREF")) []]]]
           []]]
     []].
(** arxml_writer.py:7974-7982 *)
Definition w_writeSystemMappingSwImplMappings : list wi :=
  [WIf (CNonEmpty [GM "getSwImplMappings"])
     [WSub (TLit "SW-IMPL-MAPPINGS")
        [WFor [GM "getSwImplMappings"]
           [WIf (CInst [] ["SwcToImplMapping"])
              [WCall "writeSwcToImplMapping" None []]
              [WFail NotImplementedError true]]]]
     []].
(** arxml_writer.py:7984-7991 *)
Definition w_writeSystemMapping : list wi :=
  [WSub (TLit "SYSTEM-MAPPING")
     [WCall "writeIdentifiable" None [];
      WCall "writeSystemMappingDataMappings" None [];
      WCall "writeSystemMappingEcuResourceMappings" None [];
      WCall "writeSystemMappingSwImplMappings" None [];
      WCall "writeSystemMappingSwMappings" None []]].
(** arxml_writer.py:7993-8001 *)
Definition w_writeSystemMappings : list wi :=
  [WIf (CNonEmpty [GM "getMappings"])
     [WSub (TLit "MAPPINGS")
        [WFor [GM "getMappings"]
           [WIf (CInst [] ["SystemMapping"])
              [WCall "writeSystemMapping" None []]
              [WFail NotImplementedError true]]]]
     []].
(** arxml_writer.py:8003-8016 *)
Definition w_writeRootSwCompositionPrototype : list wi :=
  [WIf (CSome [GM "getRootSoftwareComposition"])
     [WSub (TLit "ROOT-SOFTWARE-COMPOSITIONS")
        [WSub (TLit "ROOT-SW-COMPOSITION-PROTOTYPE")
           [WCall "writeIdentifiable" None [GM "getRootSoftwareComposition"];
            WIf (CNonEmpty [GM "getRootSoftwareComposition"; GM "getCalibrationParameterValueSetRefs"])
              [WSub (TLit "CALIBRATION-PARAMETER-VALUE-SET-REFS")
                 [WFor [GM "getRootSoftwareComposition"; GM "getCalibrationParameterValueSetRefs"]
                    [WLeaf WRef (TLit "CALIBRATION-PARAMETER-VALUE-SET-REF") []]]]
              [];
            WLeaf WRef (TLit "FLAT-MAP-REF") [GM "getRootSoftwareComposition"; GM "getFlatMapRef"];
            WLeaf WRef (TLit "SOFTWARE-COMPOSITION-TREF") [GM "getRootSoftwareComposition"; GM "getSoftwareCompositionTRef"]]]]
     []].
(** arxml_writer.py:8018-8024 *)
Definition w_writeSystemFibexElementRefs : list wi :=
  [WIf (CNonEmpty [GM "getFibexElementRefs"])
     [WSub (TLit "FIBEX-ELEMENTS")
        [WFor [GM "getFibexElementRefs"]
           [WSub (TLit "FIBEX-ELEMENT-REF-CONDITIONAL")
              [WLeaf WRef (TLit "FIBEX-ELEMENT-REF") []]]]]
     []].
(** arxml_writer.py:8026-8034 *)
Definition w_writeSystem : list wi :=
  [WSub (TLit "SYSTEM")
     [WCall "writeARElement" None [];
      WLeaf WText (TLit "ECU-EXTRACT-VERSION") [GM "getEcuExtractVersion"];
      WCall "writeSystemFibexElementRefs" None [];
      WCall "writeSystemMappings" None [];
      WCall "writeRootSwCompositionPrototype" None [];
      WLeaf WText (TLit "SYSTEM-VERSION") [GM "getSystemVersion"]]].
(** arxml_writer.py:8036-8046 *)
Definition w_writePhysicalDimension : list wi :=
  [WSub (TLit "PHYSICAL-DIMENSION")
     [WCall "writeARElement" None [];
      WLeaf WNum (TLit "LENGTH-EXP") [GM "getLengthExp"];
      WLeaf WNum (TLit "LUMINOUS-INTENSITY-EXP") [GM "getLuminousIntensityExp"];
      WLeaf WNum (TLit "MASS-EXP") [GM "getMassExp"];
      WLeaf WNum (TLit "MOLAR-AMOUNT-EXP") [GM "getMolarAmountExp"];
      WLeaf WNum (TLit "TEMPERATURE-EXP") [GM "getTemperatureExp"];
      WLeaf WNum (TLit "TIME-EXP") [GM "getTimeExp"];
      WLeaf WNum (TLit "CURRENT-EXP") [GM "getCurrentExp"]]].
(** arxml_writer.py:8048-8053 *)
Definition w_setFlatInstanceDescriptor : list wi :=
  [WSub (TLit "FLAT-INSTANCE-DESCRIPTOR")
     [WCall "writeIdentifiable" None [];
      WCall "setAnyInstanceRef" (Some (TLit "UPSTREAM-REFERENCE-IREF")) [GM "getUpstreamReferenceIRef"];
      WCall "setAnyInstanceRef" (Some (TLit "ECU-EXTRACT-REFERENCE-IREF")) [GM "getEcuExtractReferenceIRef"]]].
(** arxml_writer.py:8055-8063 *)
Definition w_writeFlatMapInstances : list wi :=
  [WIf (CNonEmpty [GM "getInstances"])
     [WSub (TLit "INSTANCES")
        [WFor [GM "getInstances"]
           [WIf (CInst [] ["FlatInstanceDescriptor"])
              [WCall "setFlatInstanceDescriptor" None []]
              [WFail NotImplementedError true]]]]
     []].
(** arxml_writer.py:8065-8069 *)
Definition w_writeFlatMap : list wi :=
  [WSub (TLit "FLAT-MAP")
     [WCall "writeARElement" None [];
      WCall "writeFlatMapInstances" None []]].
(** arxml_writer.py:8071-8086 *)
Definition w_setDataPrototypeMapping : list wi :=
  [WSub (TLit "DATA-PROTOTYPE-MAPPING")
     [WLeaf WRef (TLit "FIRST-DATA-PROTOTYPE-REF") [GM "getFirstDataPrototypeRef"];
      WLeaf WRef (TLit "FIRST-TO-SECOND-DATA-TRANSFORMATION-REF") [GM "getFirstToSecondDataTransformationRef"];
      WLeaf WRef (TLit "SECOND-DATA-PROTOTYPE-REF") [GM "getSecondDataPrototypeRef"];
      WLeaf WRef (TLit "SECOND-TO-FIRST-DATA-TRANSFORMATION-REF") [GM "getSecondToFirstDataTransformationRef"];
      WIf (CNonEmpty [GM "getSubElementMappings"])
        [WSub (TLit "SUB-ELEMENT-MAPPINGS")
           [WFor [GM "getSubElementMappings"]
              [WCall "setSubElementMapping" None []]]]
        [];
      WIf (CNonEmpty [GM "getTextTableMappings"])
        [WSub (TLit "TEXT-TABLE-MAPPINGS")
           [WFor [GM "getTextTableMappings"]
              [WCall "setTextTableMapping" None []]]]
        []]].
(** arxml_writer.py:8088-8104 *)
Definition w_setSubElementMapping : list wi :=
  [WSub (TLit "SUB-ELEMENT-MAPPING")
     [WIf (CSome [GM "getFirstElement"])
        [WSub (TLit "FIRST-ELEMENTS")
           [WSub (TLit "APPLICATION-COMPOSITE-DATA-TYPE-SUB-ELEMENT-REF")
              [WCall "setApplicationCompositeElementInPortInterfaceInstanceRef" (Some (TLit "APPLICATION-COMPOSITE-ELEMENT-IREF")) [GM "getFirstElement"]]]]
        [];
      WIf (CSome [GM "getSecondElement"])
        [WSub (TLit "SECOND-ELEMENTS")
           [WSub (TLit "APPLICATION-COMPOSITE-DATA-TYPE-SUB-ELEMENT-REF")
              [WCall "setApplicationCompositeElementInPortInterfaceInstanceRef" (Some (TLit "APPLICATION-COMPOSITE-ELEMENT-IREF")) [GM "getSecondElement"]]]]
        [];
      WIf (CNonEmpty [GM "getTextTableMappings"])
        [WSub (TLit "TEXT-TABLE-MAPPINGS")
           [WFor [GM "getTextTableMappings"]
              [WCall "setTextTableMapping" None []]]]
        []]].
(** arxml_writer.py:8106-8111 *)
Definition w_setTextTableMapping : list wi :=
  [WSub (TLit "TEXT-TABLE-MAPPING")
     [WLeaf WNum (TLit "BITFIELD-TEXT-TABLE-MASK-FIRST") [GM "getBitfieldTextTableMaskFirst"];
      WLeaf WNum (TLit "BITFIELD-TEXT-TABLE-MASK-SECOND") [GM "getBitfieldTextTableMaskSecond"];
      WLeaf WText (TLit "IDENTICAL-MAPPING") [GM "getIdenticalMapping"];
      WLeaf WText (TLit "MAPPING-DIRECTION") [GM "getMappingDirection"]]].
(** arxml_writer.py:8113-8117 *)
Definition w_setDataPrototypeMappings : list wi :=
  [WIf (CNonEmpty [])
     [WSub TKey
        [WFor []
           [WCall "setDataPrototypeMapping" None []]]]
     []].
(** arxml_writer.py:8119-8123 *)
Definition w_writeVariableAndParameterInterfaceMapping : list wi :=
  [WSub (TLit "VARIABLE-AND-PARAMETER-INTERFACE-MAPPING")
     [WCall "writeIdentifiable" None [];
      WCall "setDataPrototypeMappings" (Some (TLit "DATA-MAPPINGS")) [GM "getDataMappings"]]].
(** arxml_writer.py:8125-8128 *)
Definition w_writeClientServerOperationMapping : list wi :=
  [WSub (TLit "CLIENT-SERVER-OPERATION-MAPPING")
     [WLeaf WRef (TLit "FIRST-OPERATION-REF") [GM "getFirstOperationRef"];
      WLeaf WRef (TLit "SECOND-OPERATION-REF") [GM "getSecondOperationRef"]]].
(** arxml_writer.py:8130-8138 *)
Definition w_writeClientServerInterfaceMappingOperationMappings : list wi :=
  [WIf (CNonEmpty [GM "getOperationMappings"])
     [WSub (TLit "OPERATION-MAPPINGS")
        [WFor [GM "getOperationMappings"]
           [WIf (CInst [] ["ClientServerOperationMapping"])
              [WCall "writeClientServerOperationMapping" None []]
              [WFail NotImplementedError true]]]]
     []].
(** arxml_writer.py:8140-8145 *)
Definition w_writeClientServerInterfaceMapping : list wi :=
  [WIf (CSome [])
     [WSub (TLit "CLIENT-SERVER-INTERFACE-MAPPING")
        [WCall "writeIdentifiable" None [];
         WCall "writeClientServerInterfaceMappingOperationMappings" None []]]
     []].
(** arxml_writer.py:8147-8153 *)
Definition w_writeModeInterfaceMappingModeMapping : list wi :=
  [WIf (CSome [GM "getModeMapping"])
     [WSub (TLit "MODE-MAPPING")
        [WLeaf WRef (TLit "FIRST-MODE-GROUP-REF") [GM "getModeMapping"; GM "getFirstModeGroupRef"];
         WLeaf WRef (TLit "MODE-DECLARATION-MAPPING-SET-REF") [GM "getModeMapping"; GM "getModeDeclarationMappingSetRef"];
         WLeaf WRef (TLit "SECOND-MODE-GROUP-REF") [GM "getModeMapping"; GM "getSecondModeGroupRef"]]]
     []].
(** arxml_writer.py:8155-8160 *)
Definition w_writeModeInterfaceMapping : list wi :=
  [WIf (CSome [])
     [WSub (TLit "MODE-INTERFACE-MAPPING")
        [WCall "writeIdentifiable" None [];
         WCall "writeModeInterfaceMappingModeMapping" None []]]
     []].
(** arxml_writer.py:8162-8174 *)
Definition w_writePortInterfaceMappings : list wi :=
  [WIf (CNonEmpty [GM "getPortInterfaceMappings"])
     [WSub (TLit "PORT-INTERFACE-MAPPINGS")
        [WFor [GM "getPortInterfaceMappings"]
           [WIf (CInst [] ["VariableAndParameterInterfaceMapping"])
              [WCall "writeVariableAndParameterInterfaceMapping" None []]
              [WIf (CInst [] ["ClientServerInterfaceMapping"])
                 [WCall "writeClientServerInterfaceMapping" None []]
                 [WIf (CInst [] ["ModeInterfaceMapping"])
                    [WCall "writeModeInterfaceMapping" None []]
                    [WFail NotImplementedError true]]]]]]
     []].
(** arxml_writer.py:8176-8180 *)
Definition w_writePortInterfaceMappingSet : list wi :=
  [WSub (TLit "PORT-INTERFACE-MAPPING-SET")
     [WCall "writeARElement" None [];
      WCall "writePortInterfaceMappings" None []]].
(** arxml_writer.py:8182-8188 *)
Definition w_setISignalMappings : list wi :=
  [WIf (CNonEmpty [])
     [WSub (TLit "SIGNAL-MAPPINGS")
        [WFor []
           [WSub (TLit "I-SIGNAL-MAPPING")
              [WLeaf WRef (TLit "SOURCE-SIGNAL-REF") [GM "getSourceSignalRef"];
               WLeaf WRef (TLit "TARGET-SIGNAL-REF") [GM "getTargetSignalRef"]]]]]
     []].
(** arxml_writer.py:8190-8193 *)
Definition w_setTargetIPduRef : list wi :=
  [WIf (CSome [])
     [WSub TKey
        [WLeaf WRef (TLit "TARGET-I-PDU-REF") [GM "getTargetIPdu"]]]
     []].
(** arxml_writer.py:8195-8201 *)
Definition w_setIPduMappings : list wi :=
  [WIf (CNonEmpty [])
     [WSub (TLit "I-PDU-MAPPINGS")
        [WFor []
           [WSub (TLit "I-PDU-MAPPING")
              [WLeaf WRef (TLit "SOURCE-I-PDU-REF") [GM "getSourceIpduRef"];
               WCall "setTargetIPduRef" (Some (TLit "TARGET-I-PDU")) [GM "getTargetIPdu"]]]]]
     []].
(** arxml_writer.py:8203-8209 *)
Definition w_writeGateway : list wi :=
  [WSub (TLit "GATEWAY")
     [WCall "writeIdentifiable" None [];
      WLeaf WRef (TLit "ECU-REF") [GA "ecuRef"];
      WCall "setIPduMappings" None [GM "getIPduMappings"];
      WCall "setISignalMappings" None [GM "getSignalMappings"]]].
(** arxml_writer.py:8211-8224 *)
Definition w_writeISignal : list wi :=
  [WSub (TLit "I-SIGNAL")
     [WCall "writeIdentifiable" None [];
      WCall "writeISignalDataTransformation" None [];
      WLeaf WText (TLit "DATA-TYPE-POLICY") [GM "getDataTypePolicy"];
      WLeaf WText (TLit "I-SIGNAL-TYPE") [GM "getISignalType"];
      WCall "setChildValueSpecification" (Some (TLit "INIT-VALUE")) [GM "getInitValue"];
      WLeaf WNum (TLit "LENGTH") [GM "getLength"];
      WCall "setSwDataDefProps" (Some (TLit "NETWORK-REPRESENTATION-PROPS")) [GM "getNetworkRepresentationProps"];
      WLeaf WRef (TLit "SYSTEM-SIGNAL-REF") [GM "getSystemSignalRef"];
      WCall "setChildValueSpecification" (Some (TLit "TIMEOUT-SUBSTITUTION-VALUE")) [GM "getTimeoutSubstitutionValue"];
      WCall "writeISignalProps" None [];
      WCall "writeISignalTransformationISignalProps" None []]].
(** arxml_writer.py:8226-8230 *)
Definition w_writeISignalProps : list wi :=
  [WIf (CSome [GM "getISignalProps"])
     [WSub (TLit "I-SIGNAL-PROPS")
        [WLeaf WText (TLit "HANDLE-OUT-OF-RANGE") [GM "getISignalProps"; GM "getHandleOutOfRange"]]]
     []].
(** arxml_writer.py:8232-8237 *)
Definition w_writeISignalDataTransformation : list wi :=
  [WIf (CSome [GM "getDataTransformationRef"])
     [WSub (TLit "DATA-TRANSFORMATIONS")
        [WSub (TLit "DATA-TRANSFORMATION-REF-CONDITIONAL")
           [WLeaf WRef (TLit "DATA-TRANSFORMATION-REF") [GM "getDataTransformationRef"]]]]
     []].
(** arxml_writer.py:8239-8247 *)
Definition w_writeISignalTransformationISignalProps : list wi :=
  [WIf (CNonEmpty [GM "getTransformationISignalProps"])
     [WSub (TLit "TRANSFORMATION-I-SIGNAL-PROPSS")
        [WFor [GM "getTransformationISignalProps"]
           [WIf (CInst [] ["EndToEndTransformationISignalProps"])
              [WCall "writeEndToEndTransformationISignalProps" None []]
              [WFail NotImplementedError true]]]]
     []].
(** arxml_writer.py:8249-8255 *)
Definition w_writeEcucValueCollectionEcucValues : list wi :=
  [WIf (CNonEmpty [GM "getEcucValueRefs"])
     [WSub (TLit "ECUC-VALUES")
        [WFor [GM "getEcucValueRefs"]
           [WSub (TLit "ECUC-MODULE-CONFIGURATION-VALUES-REF-CONDITIONAL")
              [WLeaf WRef (TLit "ECUC-MODULE-CONFIGURATION-VALUES-REF") []]]]]
     []].
(** arxml_writer.py:8257-8262 *)
Definition w_writeEcucValueCollection : list wi :=
  [WSub (TLit "ECUC-VALUE-COLLECTION")
     [WCall "writeIdentifiable" None [];
      WLeaf WRef (TLit "ECU-EXTRACT-REF") [GM "getEcuExtractRef"];
      WCall "writeEcucValueCollectionEcucValues" None []]].
(** arxml_writer.py:8264-8272 *)
Definition w_writeEcucContainerValueSubContainers : list wi :=
  [WIf (CNonEmpty [GM "getSubContainers"])
     [WSub (TLit "SUB-CONTAINERS")
        [WFor [GM "getSubContainers"]
           [WIf (CInst [] ["EcucContainerValue"])
              [WCall "writeEcucContainValue" None []]
              [WFail NotImplementedError true]]]]
     []].
(** arxml_writer.py:8274-8277 *)
Definition w_writeEcucParameterValue : list wi :=
  [WLeaf WRef (TLit "DEFINITION-REF") [GM "getDefinitionRef"];
   WCall "setAnnotations" None [GM "getAnnotations"];
   WLeaf WNum (TLit "INDEX") [GM "getIndex"]].
(** arxml_writer.py:8279-8282 *)
Definition w_setEcucTextualParamValue : list wi :=
  [WSub (TLit "ECUC-TEXTUAL-PARAM-VALUE")
     [WCall "writeEcucParameterValue" None [];
      WLeaf WText (TLit "VALUE") [GM "getValue"]]].
(** arxml_writer.py:8284-8287 *)
Definition w_setEcucNumericalParamValue : list wi :=
  [WSub (TLit "ECUC-NUMERICAL-PARAM-VALUE")
     [WCall "writeEcucParameterValue" None [];
      WLeaf WNum (TLit "VALUE") [GM "getValue"]]].
(** arxml_writer.py:8289-8299 *)
Definition w_writeEcucContainerValueParameterValues : list wi :=
  [WIf (CNonEmpty [GM "getParameterValues"])
     [WSub (TLit "PARAMETER-VALUES")
        [WFor [GM "getParameterValues"]
           [WIf (CInst [] ["EcucTextualParamValue"])
              [WCall "setEcucTextualParamValue" None []]
              [WIf (CInst [] ["EcucNumericalParamValue"])
                 [WCall "setEcucNumericalParamValue" None []]
                 [WFail NotImplementedError true]]]]]
     []].
(** arxml_writer.py:8301-8304 *)
Definition w_writeEcucAbstractReferenceValue : list wi :=
  [WLeaf WRef (TLit "DEFINITION-REF") [GM "getDefinitionRef"];
   WCall "setAnnotations" None [GM "getAnnotations"];
   WLeaf WNum (TLit "INDEX") [GM "getIndex"]].
(** arxml_writer.py:8306-8311 *)
Definition w_setEcucReferenceValue : list wi :=
  [WIf (CSome [])
     [WSub (TLit "ECUC-REFERENCE-VALUE")
        [WCall "writeEcucAbstractReferenceValue" None [];
         WLeaf WRef (TLit "VALUE-REF") [GM "getValueRef"]]]
     []].
(** arxml_writer.py:8313-8320 *)
Definition w_setAnyInstanceRef : list wi :=
  [WIf (CSome [])
     [WSub TKey
        [WLeaf WRef (TLit "BASE-REF") [GM "getBaseRef"];
         WFor [GM "getContextElementRefs"]
           [WLeaf WRef (TLit "CONTEXT-ELEMENT-REF") []];
         WLeaf WRef (TLit "TARGET-REF") [GM "getTargetRef"]]]
     []].
(** arxml_writer.py:8322-8326 *)
Definition w_setEcucInstanceReferenceValue : list wi :=
  [WSub (TLit "ECUC-INSTANCE-REFERENCE-VALUE")
     [WCall "writeEcucAbstractReferenceValue" None [];
      WCall "setAnyInstanceRef" (Some (TLit "VALUE-IREF")) [GM "getValueIRef"]]].
(** arxml_writer.py:8328-8338 *)
Definition w_writeEcucContainerValueReferenceValues : list wi :=
  [WIf (CNonEmpty [GM "getReferenceValues"])
     [WSub (TLit "REFERENCE-VALUES")
        [WFor [GM "getReferenceValues"]
           [WIf (CInst [] ["EcucReferenceValue"])
              [WCall "setEcucReferenceValue" None []]
              [WIf (CInst [] ["EcucInstanceReferenceValue"])
                 [WCall "setEcucInstanceReferenceValue" None []]
                 [WFail NotImplementedError true]]]]]
     []].
(** arxml_writer.py:8340-8348 *)
Definition w_writeEcucContainValue : list wi :=
  [WSub (TLit "ECUC-CONTAINER-VALUE")
     [WCall "writeIdentifiable" None [];
      WLeaf WRef (TLit "DEFINITION-REF") [GM "getDefinitionRef"];
      WLeaf WNum (TLit "INDEX") [GM "getIndex"];
      WCall "writeEcucContainerValueParameterValues" None [];
      WCall "writeEcucContainerValueReferenceValues" None [];
      WCall "writeEcucContainerValueSubContainers" None []]].
(** arxml_writer.py:8350-8358 *)
Definition w_writeEcucModuleConfigurationValuesContainers : list wi :=
  [WIf (CNonEmpty [GM "getContainers"])
     [WSub (TLit "CONTAINERS")
        [WFor [GM "getContainers"]
           [WIf (CInst [] ["EcucContainerValue"])
              [WCall "writeEcucContainValue" None []]
              [WFail NotImplementedError true]]]]
     []].
(** arxml_writer.py:8360-8369 *)
Definition w_writeEcucModuleConfigurationValues : list wi :=
  [WSub (TLit "ECUC-MODULE-CONFIGURATION-VALUES")
     [WCall "writeIdentifiable" None [];
      WLeaf WRef (TLit "DEFINITION-REF") [GM "getDefinitionRef"];
      WLeaf WText (TLit "ECUC-DEF-EDITION") [GM "getEcucDefEdition"];
      WLeaf WText (TLit "IMPLEMENTATION-CONFIG-VARIANT") [GM "getImplementationConfigVariant"];
      WLeaf WRef (TLit "MODULE-DESCRIPTION-REF") [GM "getModuleDescriptionRef"];
      WLeaf WText (TLit "POST-BUILD-VARIANT-USED") [GM "getPostBuildVariantUsed"];
      WCall "writeEcucModuleConfigurationValuesContainers" None []]].
(** arxml_writer.py:8371-8375 *)
Definition w_writeSwSystemconst : list wi :=
  [WSub (TLit "SW-SYSTEMCONST")
     [WCall "writeIdentifiable" None [];
      WCall "setSwDataDefProps" (Some (TLit "SW-DATA-DEF-PROPS")) [GM "getSwDataDefProps"]]].
(** arxml_writer.py:8377-8381 *)
Definition w_writeSwSystemconstValue : list wi :=
  [WSub (TLit "SW-SYSTEMCONST-VALUE")
     [WCall "setAnnotations" None [GM "getAnnotations"];
      WLeaf WRef (TLit "SW-SYSTEMCONST-REF") [GM "getSwSystemconstRef"];
      WLeaf WNum (TLit "VALUE") [GM "getValue"]]].
(** arxml_writer.py:8383-8388 *)
Definition w_writeSwSystemconstantValueSetSwSystemconstantValues : list wi :=
  [WIf (CNonEmpty [GM "getSwSystemconstantValues"])
     [WSub (TLit "SW-SYSTEMCONSTANT-VALUES")
        [WFor [GM "getSwSystemconstantValues"]
           [WCall "writeSwSystemconstValue" None []]]]
     []].
(** arxml_writer.py:8390-8394 *)
Definition w_writeSwSystemconstantValueSet : list wi :=
  [WSub (TLit "SW-SYSTEMCONSTANT-VALUE-SET")
     [WCall "writeIdentifiable" None [];
      WCall "writeSwSystemconstantValueSetSwSystemconstantValues" None []]].
(** arxml_writer.py:8396-8405 *)
Definition w_writePredefinedVariantIncludedVariantRefs : list wi :=
  [WIf (CNonEmpty [GM "getIncludedVariantRefs"])
     [WSub (TLit "INCLUDED-VARIANT-REFS")
        [WFor [GM "getIncludedVariantRefs"]
           [WLeaf WRef (TLit "INCLUDED-VARIANT-REF") []]]]
     []].
(** arxml_writer.py:8407-8419 *)
Definition w_writePredefinedVariantPostBuildVariantCriterionValueSetRefs : list wi :=
  [WIf (CNonEmpty [GM "getPostBuildVariantCriterionValueSetRefs"])
     [WSub (TLit "POST-BUILD-VARIANT-CRITERION-VALUE-SET-REFS")
        [WFor [GM "getPostBuildVariantCriterionValueSetRefs"]
           [WLeaf WRef (TLit "POST-BUILD-VARIANT-CRITERION-VALUE-SET-REF") []]]]
     []].
(** arxml_writer.py:8421-8433 *)
Definition w_writePredefinedVariantSwSystemconstantValueSetRefs : list wi :=
  [WIf (CNonEmpty [GM "getSwSystemconstantValueSetRefs"])
     [WSub (TLit "SW-SYSTEMCONSTANT-VALUE-SET-REFS")
        [WFor [GM "getSwSystemconstantValueSetRefs"]
           [WLeaf WRef (TLit "SW-SYSTEMCONSTANT-VALUE-SET-REF") []]]]
     []].
(** arxml_writer.py:8435-8441 *)
Definition w_writePredefinedVariant : list wi :=
  [WSub (TLit "PREDEFINED-VARIANT")
     [WCall "writeIdentifiable" None [];
      WCall "writePredefinedVariantIncludedVariantRefs" None [];
      WCall "writePredefinedVariantPostBuildVariantCriterionValueSetRefs" None [];
      WCall "writePredefinedVariantSwSystemconstantValueSetRefs" None []]].
(** arxml_writer.py:8443-8451 *)
Definition w_writePostBuildVariantCriterion : list wi :=
  [WSub (TLit "POST-BUILD-VARIANT-CRITERION")
     [WCall "writeIdentifiable" None [];
      WLeaf WRef (TLit "COMPU-METHOD-REF") [GM "getCompuMethodRef"]]].
(** arxml_writer.py:8453-8458 *)
Definition w_writeISignalGroupISignalRef : list wi :=
  [WIf (CNonEmpty [GM "getISignalRefs"])
     [WSub (TLit "I-SIGNAL-REFS")
        [WFor [GM "getISignalRefs"]
           [WLeaf WRef (TLit "I-SIGNAL-REF") []]]]
     []].
(** arxml_writer.py:8460-8465 *)
Definition w_writeISignalGroupComBasedSignalGroupTransformation : list wi :=
  [WIf (CSome [GM "getComBasedSignalGroupTransformationRef"])
     [WSub (TLit "COM-BASED-SIGNAL-GROUP-TRANSFORMATIONS")
        [WSub (TLit "DATA-TRANSFORMATION-REF-CONDITIONAL")
           [WLeaf WRef (TLit "DATA-TRANSFORMATION-REF") [GM "getComBasedSignalGroupTransformationRef"]]]]
     []].
(** arxml_writer.py:8467-8474 *)
Definition w_writeTransformationISignalProps : list wi :=
  [WCall "writeDescribable" None [];
   WLeaf WText (TLit "CS-ERROR-REACTION") [GM "getCsErrorReaction"];
   WIf (CNonEmpty [GM "getDataPrototypeTransformationProps"])
     [WSub (TLit "DATA-PROTOTYPE-TRANSFORMATION-PROPSS")
        [WFor [GM "getDataPrototypeTransformationProps"]
           [WCall "writeDataPrototypeTransformationProps" None []]]]
     []].
(** arxml_writer.py:8476-8482 *)
Definition w_writeDataPrototypeInPortInterfaceRef : list wi :=
  [WSub (TLit "DATA-PROTOTYPE-IN-PORT-INTERFACE-REF")
     [WAttrs [];
      WLeaf WNum (TLit "TAG-ID") [GM "getTagId"];
      WIf (CSome [GM "getDataPrototypeInClientServerInterface"])
        [WCall "writeDataPrototypeInClientServerInterfaceInstanceRef" None [GM "getDataPrototypeInClientServerInterface"]]
        []]].
(** arxml_writer.py:8484-8492 *)
Definition w_writeDataPrototypeInSenderReceiverInterfaceInstanceRef : list wi :=
  [WSub (TLit "DATA-PROTOTYPE-IN-SENDER-RECEIVER-INTERFACE-REF")
     [WAttrs [];
      WLeaf WRef (TLit "BASE") [GM "getBaseRef"];
      WFor [GM "getContextDataPrototypeInSrRefs"]
        [WSub (TLit "CONTEXT-DATA-PROTOTYPE-IN-SR")
           [WLeaf WRef (TLit "CONTEXT-DATA-PROTOTYPE-IN-SR") []]];
      WLeaf WRef (TLit "ROOT-DATA-PROTOTYPE-IN-SR") [GM "getRootDataPrototypeInSrRef"];
      WLeaf WRef (TLit "TARGET-DATA-PROTOTYPE-IN-SR") [GM "getTargetDataPrototypeInSrRef"]]].
(** arxml_writer.py:8494-8502 *)
Definition w_writeDataPrototypeInClientServerInterfaceInstanceRef : list wi :=
  [WSub (TLit "DATA-PROTOTYPE-IN-CLIENT-SERVER-INTERFACE-REF")
     [WAttrs [];
      WLeaf WRef (TLit "BASE") [GM "getBaseRef"];
      WFor [GM "getContextDataPrototypeInCsRefs"]
        [WSub (TLit "CONTEXT-DATA-PROTOTYPE-IN-CS")
           [WLeaf WRef (TLit "CONTEXT-DATA-PROTOTYPE-IN-CS") []]];
      WLeaf WRef (TLit "ROOT-DATA-PROTOTYPE-IN-CS") [GM "getRootDataPrototypeInCsRef"];
      WLeaf WRef (TLit "TARGET-DATA-PROTOTYPE-IN-CS") [GM "getTargetDataPrototypeInCsRef"]]].
(** arxml_writer.py:8504-8511 *)
Definition w_writeDataPrototypeTransformationProps : list wi :=
  [WSub (TLit "DATA-PROTOTYPE-TRANSFORMATION-PROPS")
     [WAttrs [];
      WIf (CSome [GM "getDataPrototypeInPortInterfaceRef"])
        [WCall "writeDataPrototypeInPortInterfaceRef" None [GM "getDataPrototypeInPortInterfaceRef"]]
        [];
      WCall "setSwDataDefProps" (Some (TLit "NETWORK-REPRESENTATION-PROPS")) [GM "getNetworkRepresentationProps"];
      WLeaf WRef (TLit "TRANSFORMATION-PROPS") [GM "getTransformationProps"]]].
(** arxml_writer.py:8513-8518 *)
Definition w_writeEndToEndTransformationISignalPropsDataIds : list wi :=
  [WIf (CNonEmpty [GM "getDataIds"])
     [WSub (TLit "DATA-IDS")
        [WFor [GM "getDataIds"]
           [WLeaf WNum (TLit "DATA-ID") []]]]
     []].
(** arxml_writer.py:8520-8528 *)
Definition w_writeEndToEndTransformationISignalProps : list wi :=
  [WIf (CSome [])
     [WSub (TLit "END-TO-END-TRANSFORMATION-I-SIGNAL-PROPS")
        [WSub (TLit "END-TO-END-TRANSFORMATION-I-SIGNAL-PROPS-VARIANTS")
           [WSub (TLit "END-TO-END-TRANSFORMATION-I-SIGNAL-PROPS-CONDITIONAL")
              [WCall "writeTransformationISignalProps" None [];
               WLeaf WRef (TLit "TRANSFORMER-REF") [GM "getTransformerRef"];
               WCall "writeEndToEndTransformationISignalPropsDataIds" None [];
               WLeaf WNum (TLit "DATA-LENGTH") [GM "getDataLength"]]]]]
     []].
(** arxml_writer.py:8530-8538 *)
Definition w_writeISignalGroupTransformationISignalProps : list wi :=
  [WIf (CNonEmpty [GM "getTransformationISignalProps"])
     [WSub (TLit "TRANSFORMATION-I-SIGNAL-PROPSS")
        [WFor [GM "getTransformationISignalProps"]
           [WIf (CInst [] ["EndToEndTransformationISignalProps"])
              [WCall "writeEndToEndTransformationISignalProps" None []]
              [WFail NotImplementedError true]]]]
     []].
(** arxml_writer.py:8540-8547 *)
Definition w_writeISignalGroup : list wi :=
  [WSub (TLit "I-SIGNAL-GROUP")
     [WCall "writeIdentifiable" None [];
      WCall "writeISignalGroupComBasedSignalGroupTransformation" None [];
      WCall "writeISignalGroupISignalRef" None [];
      WLeaf WRef (TLit "SYSTEM-SIGNAL-GROUP-REF") [GM "getSystemSignalGroupRef"];
      WCall "writeISignalGroupTransformationISignalProps" None []]].
(** arxml_writer.py:8549-8565 *)
Definition w_writeISignalIPduGroup : list wi :=
  [WSub (TLit "I-SIGNAL-I-PDU-GROUP")
     [WCall "writeIdentifiable" None [];
      WLeaf WText (TLit "COMMUNICATION-DIRECTION") [GM "getCommunicationDirection"];
      WLeaf WText (TLit "COMMUNICATION-MODE") [GM "getCommunicationMode"];
      WIf (CNonEmpty [GM "getContainedISignalIPduGroupRefs"])
        [WSub (TLit "CONTAINED-I-SIGNAL-I-PDU-GROUP-REFS")
           [WFor [GM "getContainedISignalIPduGroupRefs"]
              [WLeaf WRef (TLit "CONTAINED-I-SIGNAL-I-PDU-GROUP-REF") []]]]
        [];
      WIf (CNonEmpty [GM "getISignalIPduRefs"])
        [WSub (TLit "I-SIGNAL-I-PDUS")
           [WFor [GM "getISignalIPduRefs"]
              [WSub (TLit "I-SIGNAL-I-PDU-REF-CONDITIONAL")
                 [WLeaf WRef (TLit "I-SIGNAL-I-PDU-REF") []]]]]
        []]].
(** arxml_writer.py:8567-8572 *)
Definition w_writeSystemSignal : list wi :=
  [WSub (TLit "SYSTEM-SIGNAL")
     [WCall "writeIdentifiable" None [];
      WLeaf WText (TLit "DYNAMIC-LENGTH") [GM "getDynamicLength"];
      WCall "setSwDataDefProps" (Some (TLit "PHYSICAL-PROPS")) [GM "getPhysicalProps"]]].
(** arxml_writer.py:8574-8581 *)
Definition w_writeSignalServiceTranslationPropsSet : list wi :=
  [WSub (TLit "SIGNAL-SERVICE-TRANSLATION-PROPS-SET")
     [WCall "writeIdentifiable" None [];
      WIf (CNonEmpty [GM "getSignalServiceTranslationProps"])
        [WFor [GM "getSignalServiceTranslationProps"]
           [WCall "writeSignalServiceTranslationProps" None []]]
        []]].
(** arxml_writer.py:8583-8606 *)
Definition w_writeSignalServiceTranslationProps : list wi :=
  [WSub (TLit "SIGNAL-SERVICE-TRANSLATION-PROPS")
     [WCall "writeIdentifiable" None [];
      WIf (CNonEmpty [GM "getControlConsumedEventGroupRefs"])
        [WSub (TLit "CONTROL-CONSUMED-EVENT-GROUP-REFS")
           [WFor [GM "getControlConsumedEventGroupRefs"]
              [WLeaf WRef (TLit "CONTROL-CONSUMED-EVENT-GROUP-REF") []]]]
        [];
      WIf (CNonEmpty [GM "getControlPncRefs"])
        [WSub (TLit "CONTROL-PNC-REFS")
           [WFor [GM "getControlPncRefs"]
              [WLeaf WRef (TLit "CONTROL-PNC-REF") []]]]
        [];
      WIf (CNonEmpty [GM "getControlProvidedEventGroupRefs"])
        [WSub (TLit "CONTROL-PROVIDED-EVENT-GROUP-REFS")
           [WFor [GM "getControlProvidedEventGroupRefs"]
              [WLeaf WRef (TLit "CONTROL-PROVIDED-EVENT-GROUP-REF") []]]]
        [];
      WLeaf WText (TLit "SERVICE-CONTROL") [GM "getServiceControl"];
      WIf (CNonEmpty [GM "getSignalServiceTranslationEventProps"])
        [WFor [GM "getSignalServiceTranslationEventProps"]
           [WCall "writeSignalServiceTranslationEventProps" None []]]
        []]].
(** arxml_writer.py:8608-8618 *)
Definition w_writeSignalServiceTranslationEventProps : list wi :=
  [WSub (TLit "SIGNAL-SERVICE-TRANSLATION-EVENT-PROPS")
     [WCall "writeIdentifiable" None [];
      WIf (CNonEmpty [GM "getSignalServiceTranslationElementProps"])
        [WFor [GM "getSignalServiceTranslationElementProps"]
           [WCall "writeSignalServiceTranslationElementProps" None []]]
        [];
      WLeaf WText (TLit "SAFE-TRANSLATION") [GM "getSafeTranslation"];
      WLeaf WText (TLit "SECURE-TRANSLATION") [GM "getSecureTranslation"];
      WCall "setVariableDataPrototypeInSystemInstanceRef" (Some (TLit "TRANSLATION-TARGET")) [GM "getTranslationTarget"]]].
(** arxml_writer.py:8620-8625 *)
Definition w_writeSignalServiceTranslationElementProps : list wi :=
  [WSub (TLit "SIGNAL-SERVICE-TRANSLATION-ELEMENT-PROPS")
     [WCall "writeIdentifiable" None [];
      WCall "setDataFilter" (Some (TLit "FILTER")) [GM "getFilter"];
      WLeaf WText (TLit "TRANSMISSION-TRIGGER") [GM "getTransmissionTrigger"]]].
(** arxml_writer.py:8627-8630 *)
Definition w_writeGenericEthernetFrame : list wi :=
  [WSub (TLit "ETHERNET-FRAME")
     [WCall "writeFrame" None []]].
(** arxml_writer.py:8632-8635 *)
Definition w_setLifeCyclePeriod : list wi :=
  [WIf (CSome [])
     [WSub TKey
        [WLeaf WText (TLit "AR-RELEASE-VERSION") [GM "getArReleaseVersion"]]]
     []].
(** arxml_writer.py:8637-8642 *)
Definition w_writeLifeCycleInfoUseInsteadRefs : list wi :=
  [WIf (CNonEmpty [GM "getUseInsteadRefs"])
     [WSub (TLit "USE-INSTEAD-REFS")
        [WFor [GM "getUseInsteadRefs"]
           [WLeaf WRef (TLit "USE-INSTEAD-REF") []]]]
     []].
(** arxml_writer.py:8644-8652 *)
Definition w_writeLifeCycleInfo : list wi :=
  [WIf (CSome [])
     [WSub (TLit "LIFE-CYCLE-INFO")
        [WAttrs [];
         WLeaf WRef (TLit "LC-OBJECT-REF") [GM "getLcObjectRef"];
         WLeaf WRef (TLit "LC-STATE-REF") [GM "getLcStateRef"];
         WCall "setLifeCyclePeriod" (Some (TLit "PERIOD-BEGIN")) [GM "getPeriodBegin"];
         WCall "writeDocumentationBlock" (Some (TLit "REMARK")) [GM "getRemark"];
         WCall "writeLifeCycleInfoUseInsteadRefs" None []]]
     []].
(** arxml_writer.py:8654-8662 *)
Definition w_writeLifeCycleInfoSetLifeCycleInfos : list wi :=
  [WIf (CNonEmpty [GM "getLifeCycleInfos"])
     [WSub (TLit "LIFE-CYCLE-INFOS")
        [WFor [GM "getLifeCycleInfos"]
           [WIf (CInst [] ["LifeCycleInfo"])
              [WCall "writeLifeCycleInfo" None []]
              [WFail NotImplementedError true]]]]
     []].
(** arxml_writer.py:8664-8671 *)
Definition w_writeLifeCycleInfoSet : list wi :=
  [WIf (CSome [])
     [WSub (TLit "LIFE-CYCLE-INFO-SET")
        [WCall "writeIdentifiable" None [];
         WLeaf WRef (TLit "DEFAULT-LC-STATE-REF") [GM "getDefaultLcStateRef"];
         WCall "writeLifeCycleInfoSetLifeCycleInfos" None [];
         WLeaf WRef (TLit "USED-LIFE-CYCLE-STATE-DEFINITION-GROUP-REF") [GM "getUsedLifeCycleStateDefinitionGroupRef"]]]
     []].
(** arxml_writer.py:8673-8678 *)
Definition w_writeDiagnosticConnectionFunctionalRequestRefs : list wi :=
  [WIf (CNonEmpty [GM "getFunctionalRequestRefs"])
     [WSub (TLit "FUNCTIONAL-REQUEST-REFS")
        [WFor [GM "getFunctionalRequestRefs"]
           [WLeaf WRef (TLit "FUNCTIONAL-REQUEST-REF") []]]]
     []].
(** arxml_writer.py:8680-8686 *)
Definition w_writeDiagnosticConnection : list wi :=
  [WSub (TLit "DIAGNOSTIC-CONNECTION")
     [WCall "writeIdentifiable" None [];
      WCall "writeDiagnosticConnectionFunctionalRequestRefs" None [];
      WLeaf WRef (TLit "PHYSICAL-REQUEST-REF") [GM "getPhysicalRequestRef"];
      WLeaf WRef (TLit "RESPONSE-REF") [GM "getResponseOnEventRef"]]].
(** arxml_writer.py:8688-8694 *)
Definition w_writeDiagnosticServiceTableDiagnosticConnectionRefs : list wi :=
  [WIf (CNonEmpty [GM "getDiagnosticConnectionRefs"])
     [WSub (TLit "DIAGNOSTIC-CONNECTIONS")
        [WFor [GM "getDiagnosticConnectionRefs"]
           [WSub (TLit "DIAGNOSTIC-CONNECTION-REF-CONDITIONAL")
              [WLeaf WRef (TLit "DIAGNOSTIC-CONNECTION-REF") []]]]]
     []].
(** arxml_writer.py:8696-8701 *)
Definition w_writeDiagnosticServiceTable : list wi :=
  [WSub (TLit "DIAGNOSTIC-SERVICE-TABLE")
     [WCall "writeIdentifiable" None [];
      WCall "writeDiagnosticServiceTableDiagnosticConnectionRefs" None [];
      WLeaf WRef (TLit "ECU-INSTANCE-REF") [GM "getEcuInstanceRef"]]].
(** arxml_writer.py:8703-8706 *)
Definition w_writePdu : list wi :=
  [WCall "writeIdentifiable" None [];
   WLeaf WText (TLit "HAS-DYNAMIC-LENGTH") [GM "getHasDynamicLength"];
   WLeaf WNum (TLit "LENGTH") [GM "getLength"]].
(** arxml_writer.py:8708-8717 *)
Definition w_writeContainedIPduProps : list wi :=
  [WIf (CSome [])
     [WSub (TLit "CONTAINED-I-PDU-PROPS")
        [WLeaf WText (TLit "COLLECTION-SEMANTICS") [GM "getCollectionSemantics"];
         WLeaf WNum (TLit "HEADER-ID-LONG-HEADER") [GM "getHeaderIdLongHeader"];
         WLeaf WNum (TLit "HEADER-ID-SHORT-HEADER") [GM "getHeaderIdShortHeader"];
         WLeaf WNum (TLit "OFFSET") [GM "getOffset"];
         WLeaf WNum (TLit "TIMEOUT") [GM "getTimeout"];
         WLeaf WText (TLit "TRIGGER") [GM "getTrigger"];
         WLeaf WNum (TLit "UPDATE-INDICATION-BIT-POSITION") [GM "getUpdateIndicationBitPosition"]]]
     []].
(** arxml_writer.py:8719-8721 *)
Definition w_writeIPdu : list wi :=
  [WCall "writePdu" None [];
   WCall "writeContainedIPduProps" None [GM "getContainedIPduProps"]].
(** arxml_writer.py:8723-8728 *)
Definition w_writeSegmentPosition : list wi :=
  [WIf (CSome [])
     [WSub (TLit "SEGMENT-POSITION")
        [WLeaf WText (TLit "SEGMENT-BYTE-ORDER") [GM "getSegmentByteOrder"];
         WLeaf WNum (TLit "SEGMENT-LENGTH") [GM "getSegmentLength"];
         WLeaf WNum (TLit "SEGMENT-POSITION") [GM "getSegmentPosition"]]]
     []].
(** arxml_writer.py:8730-8738 *)
Definition w_writeMultiplexedPartSegmentPositions : list wi :=
  [WIf (CNonEmpty [GM "getSegmentPositions"])
     [WSub (TLit "SEGMENT-POSITIONS")
        [WFor [GM "getSegmentPositions"]
           [WIf (CInst [] ["SegmentPosition"])
              [WCall "writeSegmentPosition" None []]
              [WFail NotImplementedError true]]]]
     []].
(** arxml_writer.py:8740-8741 *)
Definition w_writeMultiplexedPart : list wi :=
  [WCall "writeMultiplexedPartSegmentPositions" None []].
(** arxml_writer.py:8743-8748 *)
Definition w_writeDynamicPartAlternative : list wi :=
  [WIf (CSome [])
     [WSub (TLit "DYNAMIC-PART-ALTERNATIVE")
        [WLeaf WRef (TLit "I-PDU-REF") [GM "getIPduRef"];
         WLeaf WText (TLit "INITIAL-DYNAMIC-PART") [GM "getInitialDynamicPart"];
         WLeaf WNum (TLit "SELECTOR-FIELD-CODE") [GM "getSelectorFieldCode"]]]
     []].
(** arxml_writer.py:8750-8758 *)
Definition w_writeDynamicPartDynamicPartAlternatives : list wi :=
  [WIf (CNonEmpty [GM "getDynamicPartAlternatives"])
     [WSub (TLit "DYNAMIC-PART-ALTERNATIVES")
        [WFor [GM "getDynamicPartAlternatives"]
           [WIf (CInst [] ["DynamicPartAlternative"])
              [WCall "writeDynamicPartAlternative" None []]
              [WFail NotImplementedError true]]]]
     []].
(** arxml_writer.py:8760-8763 *)
Definition w_writeDynamicPart : list wi :=
  [WSub (TLit "DYNAMIC-PART")
     [WCall "writeMultiplexedPart" None [];
      WCall "writeDynamicPartDynamicPartAlternatives" None []]].
(** arxml_writer.py:8765-8772 *)
Definition w_writeMultiplexedIPduDynamicParts : list wi :=
  [WIf (CSome [GM "getDynamicPart"])
     [WSub (TLit "DYNAMIC-PARTS")
        [WIf (CInst [GM "getDynamicPart"] ["DynamicPart"])
           [WCall "writeDynamicPart" None [GM "getDynamicPart"]]
           [WFail NotImplementedError true]]]
     []].
(** arxml_writer.py:8774-8777 *)
Definition w_writeStaticPart : list wi :=
  [WSub (TLit "STATIC-PART")
     [WCall "writeMultiplexedPart" None [];
      WLeaf WRef (TLit "I-PDU-REF") [GM "getIPduRef"]]].
(** arxml_writer.py:8779-8786 *)
Definition w_writeMultiplexedIPduStaticParts : list wi :=
  [WIf (CSome [GM "getStaticPart"])
     [WSub (TLit "STATIC-PARTS")
        [WIf (CInst [GM "getStaticPart"] ["StaticPart"])
           [WCall "writeStaticPart" None [GM "getStaticPart"]]
           [WFail NotImplementedError true]]]
     []].
(** arxml_writer.py:8788-8798 *)
Definition w_writeMultiplexedIPdu : list wi :=
  [WSub (TLit "MULTIPLEXED-I-PDU")
     [WCall "writeIPdu" None [];
      WCall "writeMultiplexedIPduDynamicParts" None [];
      WLeaf WText (TLit "SELECTOR-FIELD-BYTE-ORDER") [GM "getSelectorFieldByteOrder"];
      WLeaf WNum (TLit "SELECTOR-FIELD-LENGTH") [GM "getSelectorFieldLength"];
      WLeaf WNum (TLit "SELECTOR-FIELD-START-POSITION") [GM "getSelectorFieldStartPosition"];
      WCall "writeMultiplexedIPduStaticParts" None [];
      WLeaf WText (TLit "TRIGGER-MODE") [GM "getTriggerMode"];
      WLeaf WNum (TLit "UNUSED-BIT-PATTERN") [GM "getUnusedBitPattern"]]].
(** arxml_writer.py:8800-8804 *)
Definition w_writeUserDefinedIPdu : list wi :=
  [WSub (TLit "USER-DEFINED-I-PDU")
     [WCall "writeIPdu" None [];
      WLeaf WText (TLit "CDD-TYPE") [GM "getCddType"]]].
(** arxml_writer.py:8806-8810 *)
Definition w_writeUserDefinedPdu : list wi :=
  [WSub (TLit "USER-DEFINED-PDU")
     [WCall "writePdu" None [];
      WLeaf WText (TLit "CDD-TYPE") [GM "getCddType"]]].
(** arxml_writer.py:8812-8815 *)
Definition w_writeGeneralPurposePdu : list wi :=
  [WSub (TLit "GENERAL-PURPOSE-PDU")
     [WCall "writePdu" None []]].
(** arxml_writer.py:8817-8820 *)
Definition w_writeGeneralPurposeIPdu : list wi :=
  [WSub (TLit "GENERAL-PURPOSE-I-PDU")
     [WCall "writeIPdu" None []]].
(** arxml_writer.py:8822-8825 *)
Definition w_writeSecureCommunicationAuthenticationProps : list wi :=
  [WSub (TLit "SECURE-COMMUNICATION-AUTHENTICATION-PROPS")
     [WCall "writeIdentifiable" None [];
      WLeaf WNum (TLit "AUTH-INFO-TX-LENGTH") [GM "getAuthInfoTxLength"]]].
(** arxml_writer.py:8827-8835 *)
Definition w_writeSecureCommunicationPropsSetAuthenticationProps : list wi :=
  [WIf (CNonEmpty [GM "getAuthenticationProps"])
     [WSub (TLit "AUTHENTICATION-PROPSS")
        [WFor [GM "getAuthenticationProps"]
           [WIf (CInst [] ["SecureCommunicationAuthenticationProps"])
              [WCall "writeSecureCommunicationAuthenticationProps" None []]
              [WFail NotImplementedError true]]]]
     []].
(** arxml_writer.py:8837-8844 *)
Definition w_writeSecureCommunicationFreshnessProps : list wi :=
  [WSub (TLit "SECURE-COMMUNICATION-FRESHNESS-PROPS")
     [WCall "writeIdentifiable" None [];
      WLeaf WNum (TLit "FRESHNESS-COUNTER-SYNC-ATTEMPTS") [GM "getFreshnessCounterSyncAttempts"];
      WLeaf WNum (TLit "FRESHNESS-TIMESTAMP-TIME-PERIOD-FACTOR") [GM "getFreshnessTimestampTimePeriodFactor"];
      WLeaf WNum (TLit "FRESHNESS-VALUE-LENGTH") [GM "getFreshnessValueLength"];
      WLeaf WNum (TLit "FRESHNESS-VALUE-TX-LENGTH") [GM "getFreshnessValueTxLength"];
      WLeaf WText (TLit "USE-FRESHNESS-TIMESTAMP") [GM "getUseFreshnessTimestamp"]]].
(** arxml_writer.py:8846-8854 *)
Definition w_writeSecureCommunicationPropsSetFreshnessProps : list wi :=
  [WIf (CNonEmpty [GM "getFreshnessProps"])
     [WSub (TLit "FRESHNESS-PROPSS")
        [WFor [GM "getFreshnessProps"]
           [WIf (CInst [] ["SecureCommunicationFreshnessProps"])
              [WCall "writeSecureCommunicationFreshnessProps" None []]
              [WFail NotImplementedError true]]]]
     []].
(** arxml_writer.py:8856-8861 *)
Definition w_writeSecureCommunicationPropsSet : list wi :=
  [WSub (TLit "SECURE-COMMUNICATION-PROPS-SET")
     [WCall "writeIdentifiable" None [];
      WCall "writeSecureCommunicationPropsSetAuthenticationProps" None [];
      WCall "writeSecureCommunicationPropsSetFreshnessProps" None []]].
(** arxml_writer.py:8863-8867 *)
Definition w_writeSoAdRoutingGroup : list wi :=
  [WSub (TLit "SO-AD-ROUTING-GROUP")
     [WCall "writeIdentifiable" None [];
      WLeaf WText (TLit "EVENT-GROUP-CONTROL-TYPE") [GM "getEventGroupControlType"]]].
(** arxml_writer.py:8869-8873 *)
Definition w_writeDoIpLogicAddress : list wi :=
  [WIf (CSome [])
     [WSub (TLit "DO-IP-LOGIC-ADDRESS")
        [WCall "writeIdentifiable" None [];
         WLeaf WNum (TLit "ADDRESS") [GM "getAddress"]]]
     []].
(** arxml_writer.py:8875-8883 *)
Definition w_writeDoIpTpConfigDoIpLogicAddresses : list wi :=
  [WIf (CNonEmpty [GM "getDoIpLogicAddresses"])
     [WSub (TLit "DO-IP-LOGIC-ADDRESSS")
        [WFor [GM "getDoIpLogicAddresses"]
           [WIf (CInst [] ["DoIpLogicAddress"])
              [WCall "writeDoIpLogicAddress" None []]
              [WFail NotImplementedError true]]]]
     []].
(** arxml_writer.py:8885-8891 *)
Definition w_writeDoIpTpConnection : list wi :=
  [WIf (CSome [])
     [WSub (TLit "DO-IP-TP-CONNECTION")
        [WCall "writeTpConnection" None [];
         WLeaf WRef (TLit "DO-IP-SOURCE-ADDRESS-REF") [GM "getDoIpSourceAddressRef"];
         WLeaf WRef (TLit "DO-IP-TARGET-ADDRESS-REF") [GM "getDoIpTargetAddressRef"];
         WLeaf WRef (TLit "TP-SDU-REF") [GM "getTpSduRef"]]]
     []].
(** arxml_writer.py:8893-8901 *)
Definition w_writeDoIpTpConfigTpConnections : list wi :=
  [WIf (CNonEmpty [GM "getTpConnections"])
     [WSub (TLit "TP-CONNECTIONS")
        [WFor [GM "getTpConnections"]
           [WIf (CInst [] ["DoIpTpConnection"])
              [WCall "writeDoIpTpConnection" None []]
              [WFail NotImplementedError true]]]]
     []].
(** arxml_writer.py:8903-8908 *)
Definition w_writeDoIpTpConfig : list wi :=
  [WSub (TLit "DO-IP-TP-CONFIG")
     [WCall "writeTpConfig" None [];
      WCall "writeDoIpTpConfigDoIpLogicAddresses" None [];
      WCall "writeDoIpTpConfigTpConnections" None []]].
(** arxml_writer.py:8910-8915 *)
Definition w_writeHwDescriptionEntityHwCategoryRefs : list wi :=
  [WIf (CNonEmpty [GM "getHwCategoryRefs"])
     [WSub (TLit "HW-CATEGORY-REFS")
        [WFor [GM "getHwCategoryRefs"]
           [WLeaf WRef (TLit "HW-CATEGORY-REF") []]]]
     []].
(** arxml_writer.py:8917-8920 *)
Definition w_writeHwAttributeValue : list wi :=
  [WSub (TLit "HW-ATTRIBUTE-VALUE")
     [WAttrs [];
      WLeaf WRef (TLit "HW-ATTRIBUTE-DEF-REF") [GM "getHwAttributeDefRef"]]].
(** arxml_writer.py:8922-8927 *)
Definition w_writeHwDescriptionEntityHwAttributeValues : list wi :=
  [WIf (CNonEmpty [GM "getHwAttributeValues"])
     [WSub (TLit "HW-ATTRIBUTE-VALUES")
        [WFor [GM "getHwAttributeValues"]
           [WCall "writeHwAttributeValue" None []]]]
     []].
(** arxml_writer.py:8929-8933 *)
Definition w_writeHwDescriptionEntity : list wi :=
  [WCall "writeReferrable" None [];
   WLeaf WRef (TLit "HW-TYPE-REF") [GM "getHwTypeRef"];
   WCall "writeHwDescriptionEntityHwCategoryRefs" None [];
   WCall "writeHwDescriptionEntityHwAttributeValues" None []].
(** arxml_writer.py:8935-8938 *)
Definition w_writeHwPinGroup : list wi :=
  [WIf (CSome [])
     [WSub (TLit "HW-PIN-GROUP")
        [WCall "writeHwDescriptionEntity" None []]]
     []].
(** arxml_writer.py:8940-8954 *)
Definition w_writeHwPin : list wi :=
  [WIf (CSome [])
     [WSub (TLit "HW-PIN")
        [WCall "writeHwDescriptionEntity" None [];
         WIf (CNonEmpty [GM "getFunctionNames"])
           [WSub (TLit "FUNCTION-NAMES")
              [WFor [GM "getFunctionNames"]
                 [WSub (TLit "FUNCTION-NAME")
                    [WSetText []]]]]
           [];
         WIf (CSome [GM "getPackagingPinName"])
           [WSub (TLit "PACKAGING-PIN-NAME")
              [WSetText [GM "getPackagingPinName"]]]
           [];
         WLeaf WNum (TLit "PIN-NUMBER") [GM "getPinNumber"]]]
     []].
(** arxml_writer.py:8956-8964 *)
Definition w_writeHwElementHwPinGroups : list wi :=
  [WIf (CNonEmpty [GM "getHwPinGroups"])
     [WSub (TLit "HW-PIN-GROUPS")
        [WFor [GM "getHwPinGroups"]
           [WIf (CInst [] ["HwPinGroup"])
              [WCall "writeHwPinGroup" None []]
              [WFail NotImplementedError true]]]]
     []].
(** arxml_writer.py:8966-8970 *)
Definition w_writeHwPinConnector : list wi :=
  [WSub (TLit "HW-PIN-CONNECTION")
     [WCall "writeDescribable" None [];
      WFor [GM "getHwPinRefs"]
        [WLeaf WRef (TLit "HW-PIN-REF") []]]].
(** arxml_writer.py:8972-8978 *)
Definition w_writeHwPinGroupConnector : list wi :=
  [WSub (TLit "HW-PIN-GROUP-CONNECTION")
     [WCall "writeDescribable" None [];
      WFor [GM "getHwPinConnections"]
        [WCall "writeHwPinConnector" None []];
      WFor [GM "getHwPinGroupRefs"]
        [WLeaf WRef (TLit "HW-PIN-GROUP-REF") []]]].
(** arxml_writer.py:8980-8988 *)
Definition w_writeHwElementConnector : list wi :=
  [WSub (TLit "HW-ELEMENT-CONNECTOR")
     [WCall "writeDescribable" None [];
      WFor [GM "getHwElementRefs"]
        [WLeaf WRef (TLit "HW-ELEMENT-REF") []];
      WFor [GM "getHwPinConnections"]
        [WCall "writeHwPinConnector" None []];
      WFor [GM "getHwPinGroupConnections"]
        [WCall "writeHwPinGroupConnector" None []]]].
(** arxml_writer.py:8990-8998 *)
Definition w_writeHwElementHwElementConnections : list wi :=
  [WIf (CNonEmpty [GM "getHwElementConnections"])
     [WSub (TLit "HW-ELEMENT-CONNECTIONS")
        [WFor [GM "getHwElementConnections"]
           [WIf (CInst [] ["HwElementConnector"])
              [WCall "writeHwElementConnector" None []]
              [WFail NotImplementedError true]]]]
     []].
(** arxml_writer.py:9000-9006 *)
Definition w_writeHwElementHwNestedElementRefs : list wi :=
  [WIf (CNonEmpty [GM "getNestedElementRefs"])
     [WSub (TLit "NESTED-ELEMENTS")
        [WFor [GM "getNestedElementRefs"]
           [WSub (TLit "HW-ELEMENT-REF-CONDITIONAL")
              [WLeaf WRef (TLit "HW-ELEMENT-REF") []]]]]
     []].
(** arxml_writer.py:9008-9015 *)
Definition w_writeHwElement : list wi :=
  [WIf (CSome [])
     [WSub (TLit "HW-ELEMENT")
        [WCall "writeHwDescriptionEntity" None [];
         WCall "writeHwElementHwPinGroups" None [];
         WCall "writeHwElementHwElementConnections" None [];
         WCall "writeHwElementHwNestedElementRefs" None []]]
     []].
(** arxml_writer.py:9017-9023 *)
Definition w_writeHwAttributeDef : list wi :=
  [WIf (CSome [])
     [WSub (TLit "HW-ATTRIBUTE-DEF")
        [WCall "writeIdentifiable" None [];
         WLeaf WText (TLit "IS-REQUIRED") [GM "getIsRequired"];
         WLeaf WRef (TLit "UNIT-REF") [GM "getUnitRef"];
         WCall "writeHwAttributeDefHwAttributeLiterals" None []]]
     []].
(** arxml_writer.py:9025-9030 *)
Definition w_writeHwAttributeDefHwAttributeLiterals : list wi :=
  [WIf (CNonEmpty [GM "getHwAttributeLiterals"])
     [WSub (TLit "HW-ATTRIBUTE-LITERALS")
        [WFor [GM "getHwAttributeLiterals"]
           [WCall "writeHwAttributeLiteralDef" None []]]]
     []].
(** arxml_writer.py:9032-9036 *)
Definition w_writeHwAttributeLiteralDef : list wi :=
  [WIf (CSome [])
     [WSub (TLit "HW-ATTRIBUTE-LITERAL-DEF")
        [WCall "writeIdentifiable" None []];
      WFail AttributeError false]
     []].
(** arxml_writer.py:9038-9046 *)
Definition w_writeHwCategoryHwAttributeDef : list wi :=
  [WIf (CNonEmpty [GM "getHwAttributeDefs"])
     [WSub (TLit "HW-ATTRIBUTE-DEFS")
        [WFor [GM "getHwAttributeDefs"]
           [WIf (CInst [] ["HwAttributeDef"])
              [WCall "writeHwAttributeDef" None []]
              [WFail NotImplementedError true]]]]
     []].
(** arxml_writer.py:9048-9052 *)
Definition w_writeHwCategory : list wi :=
  [WSub (TLit "HW-CATEGORY")
     [WCall "writeARElement" None [];
      WCall "writeHwCategoryHwAttributeDef" None []]].
(** arxml_writer.py:9054-9057 *)
Definition w_writeHwType : list wi :=
  [WSub (TLit "HW-TYPE")
     [WCall "writeReferrable" None []]].
(** arxml_writer.py:9059-9061 *)
Definition w_writeLinCommunicationController : list wi :=
  [WCall "writeCommunicationController" None [];
   WLeaf WText (TLit "PROTOCOL-VERSION") [GM "getProtocolVersion"]].
(** arxml_writer.py:9063-9071 *)
Definition w_writeLinMaster : list wi :=
  [WSub (TLit "LIN-MASTER")
     [WCall "writeIdentifiable" None [];
      WSub (TLit "LIN-MASTER-VARIANTS")
        [WSub (TLit "LIN-MASTER-CONDITIONAL")
           [WCall "writeLinCommunicationController" None [];
            WLeaf WText (TLit "TIME-BASE") [GM "getTimeBase"];
            WLeaf WText (TLit "TIME-BASE-JITTER") [GM "getTimeBaseJitter"]]]]].
(** arxml_writer.py:9073-9085 *)
Definition w_writeISignalToPduMappings : list wi :=
  [WIf (CNonEmpty [GM "getISignalToPduMappings"])
     [WSub (TLit "I-SIGNAL-TO-PDU-MAPPINGS")
        [WFor [GM "getISignalToPduMappings"]
           [WSub (TLit "I-SIGNAL-TO-I-PDU-MAPPING")
              [WCall "writeIdentifiable" None [];
               WLeaf WRef (TLit "I-SIGNAL-REF") [GM "getISignalRef"];
               WLeaf WRef (TLit "I-SIGNAL-GROUP-REF") [GM "getISignalGroupRef"];
               WLeaf WText (TLit "PACKING-BYTE-ORDER") [GM "getPackingByteOrder"];
               WLeaf WNum (TLit "START-POSITION") [GM "getStartPosition"];
               WLeaf WText (TLit "TRANSFER-PROPERTY") [GM "getTransferProperty"];
               WLeaf WNum (TLit "UPDATE-INDICATION-BIT-POSITION") [GM "getUpdateIndicationBitPosition"]]]]]
     []].
(** arxml_writer.py:9087-9092 *)
Definition w_setDataFilter : list wi :=
  [WIf (CSome [])
     [WSub TKey
        [WLeaf WText (TLit "DATA-FILTER-TYPE") [GM "getDataFilterType"];
         WLeaf WNum (TLit "MASK") [GM "getMask"];
         WLeaf WNum (TLit "X") [GM "getX"]]]
     []].
(** arxml_writer.py:9094-9100 *)
Definition w_setTransmissionModeConditions : list wi :=
  [WIf (CNonEmpty [])
     [WSub TKey
        [WFor []
           [WSub (TLit "TRANSMISSION-MODE-CONDITION")
              [WCall "setDataFilter" (Some (TLit "DATA-FILTER")) [GM "getDataFilter"];
               WLeaf WRef (TLit "I-SIGNAL-IN-I-PDU-REF") [GM "getISignalInIPduRef"]]]]]
     []].
(** arxml_writer.py:9102-9105 *)
Definition w_setTimeRangeType : list wi :=
  [WIf (CSome [])
     [WSub TKey
        [WLeaf WText (TLit "VALUE") [GM "getValue"]]]
     []].
(** arxml_writer.py:9107-9111 *)
Definition w_setEventControlledTiming : list wi :=
  [WIf (CSome [])
     [WSub TKey
        [WLeaf WNum (TLit "NUMBER-OF-REPETITIONS") [GM "getNumberOfRepetitions"];
         WCall "setTimeRangeType" (Some (TLit "REPETITION-PERIOD")) [GM "getRepetitionPeriod"]]]
     []].
(** arxml_writer.py:9113-9117 *)
Definition w_setCyclicTiming : list wi :=
  [WIf (CSome [])
     [WSub TKey
        [WCall "setTimeRangeType" (Some (TLit "TIME-OFFSET")) [GM "getTimeOffset"];
         WCall "setTimeRangeType" (Some (TLit "TIME-PERIOD")) [GM "getTimePeriod"]]]
     []].
(** arxml_writer.py:9119-9124 *)
Definition w_setTransmissionModeTiming : list wi :=
  [WIf (CSome [])
     [WSub TKey
        [WCall "setCyclicTiming" (Some (TLit "CYCLIC-TIMING")) [GM "getCyclicTiming"];
         WCall "setEventControlledTiming" (Some (TLit "EVENT-CONTROLLED-TIMING")) [GM "getEventControlledTiming"]]]
     []].
(** arxml_writer.py:9126-9131 *)
Definition w_setTransmissionModeDeclaration : list wi :=
  [WIf (CSome [])
     [WSub TKey
        [WCall "setTransmissionModeConditions" (Some (TLit "TRANSMISSION-MODE-CONDITIONS")) [GM "getTransmissionModeConditions"];
         WCall "setTransmissionModeTiming" (Some (TLit "TRANSMISSION-MODE-FALSE-TIMING")) [GM "getTransmissionModeFalseTiming"];
         WCall "setTransmissionModeTiming" (Some (TLit "TRANSMISSION-MODE-TRUE-TIMING")) [GM "getTransmissionModeTrueTiming"]]]
     []].
(** arxml_writer.py:9133-9138 *)
Definition w_setISignalIPduIPduTimingSpecification : list wi :=
  [WIf (CSome [])
     [WSub (TLit "I-PDU-TIMING-SPECIFICATIONS")
        [WSub (TLit "I-PDU-TIMING")
           [WLeaf WText (TLit "MINIMUM-DELAY") [GM "getMinimumDelay"];
            WCall "setTransmissionModeDeclaration" (Some (TLit "TRANSMISSION-MODE-DECLARATION")) [GM "getTransmissionModeDeclaration"]]]]
     []].
(** arxml_writer.py:9140-9147 *)
Definition w_writeISignalIPdu : list wi :=
  [WSub (TLit "I-SIGNAL-I-PDU")
     [WCall "writeIdentifiable" None [];
      WLeaf WNum (TLit "LENGTH") [GM "getLength"];
      WCall "setISignalIPduIPduTimingSpecification" None [GM "getIPduTimingSpecification"];
      WCall "writeISignalToPduMappings" None [];
      WLeaf WNum (TLit "UNUSED-BIT-PATTERN") [GM "getUnusedBitPattern"]]].
(** arxml_writer.py:9149-9153 *)
Definition w_writeFlexrayFrame : list wi :=
  [WIf (CSome [])
     [WSub (TLit "FLEXRAY-FRAME")
        [WCall "writeFrame" None []]]
     []].
(** arxml_writer.py:9155-9198 *)
Definition w_writeFlexrayCommunicationController : list wi :=
  [WIf (CSome [])
     [WSub (TLit "FLEXRAY-COMMUNICATION-CONTROLLER")
        [WCall "writeIdentifiable" None [];
         WSub (TLit "FLEXRAY-COMMUNICATION-CONTROLLER-VARIANTS")
           [WSub (TLit "FLEXRAY-COMMUNICATION-CONTROLLER-CONDITIONAL")
              [WLeaf WNum (TLit "ACCEPTED-STARTUP-RANGE") [GM "getAcceptedStartupRange"];
               WLeaf WText (TLit "ALLOW-HALT-DUE-TO-CLOCK") [GM "getAllowHaltDueToClock"];
               WLeaf WNum (TLit "ALLOW-PASSIVE-TO-ACTIVE") [GM "getAllowPassiveToActive"];
               WLeaf WNum (TLit "CLUSTER-DRIFT-DAMPING") [GM "getClusterDriftDamping"];
               WLeaf WNum (TLit "DECODING-CORRECTION") [GM "getDecodingCorrection"];
               WLeaf WNum (TLit "DELAY-COMPENSATION-A") [GM "getDelayCompensationA"];
               WLeaf WNum (TLit "DELAY-COMPENSATION-B") [GM "getDelayCompensationB"];
               WLeaf WText (TLit "KEY-SLOT-ONLY-ENABLED") [GM "getKeySlotOnlyEnabled"];
               WLeaf WText (TLit "KEY-SLOT-USED-FOR-START-UP") [GM "getKeySlotUsedForStartUp"];
               WLeaf WText (TLit "KEY-SLOT-USED-FOR-SYNC") [GM "getKeySlotUsedForSync"];
               WLeaf WNum (TLit "LATEST-TX") [GM "getLatestTX"];
               WLeaf WNum (TLit "LISTEN-TIMEOUT") [GM "getListenTimeout"];
               WLeaf WNum (TLit "MACRO-INITIAL-OFFSET-A") [GM "getMacroInitialOffsetA"];
               WLeaf WNum (TLit "MACRO-INITIAL-OFFSET-B") [GM "getMacroInitialOffsetB"];
               WLeaf WNum (TLit "MAXIMUM-DYNAMIC-PAYLOAD-LENGTH") [GM "getMaximumDynamicPayloadLength"];
               WLeaf WNum (TLit "MICRO-INITIAL-OFFSET-A") [GM "getMicroInitialOffsetA"];
               WLeaf WNum (TLit "MICRO-INITIAL-OFFSET-B") [GM "getMicroInitialOffsetB"];
               WLeaf WNum (TLit "MICRO-PER-CYCLE") [GM "getMicroPerCycle"];
               WLeaf WText (TLit "MICROTICK-DURATION") [GM "getMicrotickDuration"];
               WLeaf WNum (TLit "OFFSET-CORRECTION-OUT") [GM "getOffsetCorrectionOut"];
               WLeaf WNum (TLit "RATE-CORRECTION-OUT") [GM "getRateCorrectionOut"];
               WLeaf WNum (TLit "SAMPLES-PER-MICROTICK") [GM "getSamplesPerMicrotick"];
               WLeaf WNum (TLit "EXTERN-OFFSET-CORRECTION") [GM "getExternOffsetCorrection"];
               WLeaf WNum (TLit "EXTERN-RATE-CORRECTION") [GM "getExternRateCorrection"];
               WLeaf WText (TLit "EXTERNAL-SYNC") [GM "getExternalSync"];
               WLeaf WText (TLit "FALL-BACK-INTERNAL") [GM "getFallBackInternal"];
               WIf (CNonEmpty [GM "getFlexrayFifos"])
                 [WSub (TLit "FLEXRAY-FIFOS")
                    [WFor [GM "getFlexrayFifos"]
                       [WCall "setFlexrayFifoConfiguration" (Some (TLit "FLEXRAY-FIFO-CONFIGURATION")) []]]]
                 [];
               WLeaf WNum (TLit "KEY-SLOT-ID") [GM "getKeySlotID"];
               WLeaf WText (TLit "NM-VECTOR-EARLY-UPDATE") [GM "getNmVectorEarlyUpdate"];
               WLeaf WNum (TLit "SECOND-KEY-SLOT-ID") [GM "getSecondKeySlotId"];
               WLeaf WText (TLit "TWO-KEY-SLOT-MODE") [GM "getTwoKeySlotMode"];
               WLeaf WNum (TLit "WAKE-UP-PATTERN") [GM "getWakeUpPattern"]]];
         WCall "writeCommunicationController" None []]]
     []].
(** arxml_writer.py:9200-9205 *)
Definition w_writeDataTransformationTransformerChainRefs : list wi :=
  [WIf (CNonEmpty [GM "getTransformerChainRefs"])
     [WSub (TLit "TRANSFORMER-CHAIN-REFS")
        [WFor [GM "getTransformerChainRefs"]
           [WLeaf WRef (TLit "TRANSFORMER-CHAIN-REF") []]]]
     []].
(** arxml_writer.py:9207-9213 *)
Definition w_writeDataTransformation : list wi :=
  [WIf (CSome [])
     [WSub (TLit "DATA-TRANSFORMATION")
        [WCall "writeIdentifiable" None [];
         WLeaf WText (TLit "DATA-TRANSFORMATION-KIND") [GM "getDataTransformationKind"];
         WLeaf WText (TLit "EXECUTE-DESPITE-DATA-UNAVAILABILITY") [GM "getExecuteDespiteDataUnavailability"];
         WCall "writeDataTransformationTransformerChainRefs" None []]]
     []].
(** arxml_writer.py:9215-9223 *)
Definition w_writeDataTransformationSetDataTransformations : list wi :=
  [WIf (CNonEmpty [GM "getDataTransformations"])
     [WSub (TLit "DATA-TRANSFORMATIONS")
        [WFor [GM "getDataTransformations"]
           [WIf (CInst [] ["DataTransformation"])
              [WCall "writeDataTransformation" None []]
              [WFail NotImplementedError true]]]]
     []].
(** arxml_writer.py:9225-9233 *)
Definition w_writeDataTransformationSetTransformationTechnologies : list wi :=
  [WIf (CNonEmpty [GM "getTransformationTechnologies"])
     [WSub (TLit "TRANSFORMATION-TECHNOLOGYS")
        [WFor [GM "getTransformationTechnologies"]
           [WIf (CInst [] ["TransformationTechnology"])
              [WCall "writeTransformationTechnology" None []]
              [WFail NotImplementedError true]]]]
     []].
(** arxml_writer.py:9235-9239 *)
Definition w_setBufferProperties : list wi :=
  [WIf (CSome [])
     [WSub TKey
        [WLeaf WNum (TLit "HEADER-LENGTH") [GM "getHeaderLength"];
         WLeaf WText (TLit "IN-PLACE") [GM "getInPlace"]]]
     []].
(** arxml_writer.py:9241-9246 *)
Definition w_writeDescribable : list wi :=
  [WAttrs [];
   WCall "setMultiLanguageOverviewParagraph" (Some (TLit "DESC")) [GM "getDesc"];
   WLeaf WText (TLit "CATEGORY") [GM "getCategory"];
   WCall "writeDocumentationBlock" (Some (TLit "INTRODUCTION")) [GM "getIntroduction"];
   WCall "setAdminData" None [GM "getAdminData"]].
(** arxml_writer.py:9248-9249 *)
Definition w_writeTransformationDescription : list wi :=
  [WCall "writeDescribable" None []].
(** arxml_writer.py:9251-9276 *)
Definition w_writeEndToEndTransformationDescription : list wi :=
  [WIf (CSome [])
     [WSub (TLit "END-TO-END-TRANSFORMATION-DESCRIPTION")
        [WCall "writeTransformationDescription" None [];
         WLeaf WText (TLit "CLEAR-FROM-VALID-TO-INVALID") [GM "getClearFromValidToInvalid"];
         WLeaf WNum (TLit "COUNTER-OFFSET") [GM "getCounterOffset"];
         WLeaf WNum (TLit "CRC-OFFSET") [GM "getCrcOffset"];
         WLeaf WText (TLit "DATA-ID-MODE") [GM "getDataIdMode"];
         WLeaf WNum (TLit "DATA-ID-NIBBLE-OFFSET") [GM "getDataIdNibbleOffset"];
         WLeaf WRef (TLit "E-2-E-PROFILE-COMPATIBILITY-PROPS-REF") [GM "getE2eProfileCompatibilityPropsRef"];
         WLeaf WNum (TLit "MAX-DELTA-COUNTER") [GM "getMaxDeltaCounter"];
         WLeaf WNum (TLit "MAX-ERROR-STATE-INIT") [GM "getMaxErrorStateInit"];
         WLeaf WNum (TLit "MAX-ERROR-STATE-INVALID") [GM "getMaxErrorStateInvalid"];
         WLeaf WNum (TLit "MAX-ERROR-STATE-VALID") [GM "getMaxErrorStateValid"];
         WLeaf WNum (TLit "MAX-NO-NEW-OR-REPEATED-DATA") [GM "getMaxNoNewOrRepeatedData"];
         WLeaf WNum (TLit "MIN-OK-STATE-INIT") [GM "getMinOkStateInit"];
         WLeaf WNum (TLit "MIN-OK-STATE-INVALID") [GM "getMinOkStateInvalid"];
         WLeaf WNum (TLit "MIN-OK-STATE-VALID") [GM "getMinOkStateValid"];
         WLeaf WNum (TLit "OFFSET") [GM "getOffset"];
         WLeaf WText (TLit "PROFILE-BEHAVIOR") [GM "getProfileBehavior"];
         WLeaf WText (TLit "PROFILE-NAME") [GM "getProfileName"];
         WLeaf WNum (TLit "SYNC-COUNTER-INIT") [GM "getSyncCounterInit"];
         WLeaf WNum (TLit "UPPER-HEADER-BITS-TO-SHIFT") [GM "getUpperHeaderBitsToShift"];
         WLeaf WNum (TLit "WINDOW-SIZE-INIT") [GM "getWindowSizeInit"];
         WLeaf WNum (TLit "WINDOW-SIZE-INVALID") [GM "getWindowSizeInvalid"];
         WLeaf WNum (TLit "WINDOW-SIZE-VALID") [GM "getWindowSizeValid"]]]
     []].
(** arxml_writer.py:9278-9285 *)
Definition w_writeTransformationTechnologyTransformationDescriptions : list wi :=
  [WIf (CSome [GM "getTransformationDescription"])
     [WSub (TLit "TRANSFORMATION-DESCRIPTIONS")
        [WIf (CInst [GM "getTransformationDescription"] ["EndToEndTransformationDescription"])
           [WCall "writeEndToEndTransformationDescription" None [GM "getTransformationDescription"]]
           [WFail NotImplementedError true]]]
     []].
(** arxml_writer.py:9287-9297 *)
Definition w_writeTransformationTechnology : list wi :=
  [WIf (CSome [])
     [WSub (TLit "TRANSFORMATION-TECHNOLOGY")
        [WCall "writeIdentifiable" None [];
         WCall "setBufferProperties" (Some (TLit "BUFFER-PROPERTIES")) [GM "getBufferProperties"];
         WLeaf WText (TLit "HAS-INTERNAL-STATE") [GM "getHasInternalState"];
         WLeaf WText (TLit "NEEDS-ORIGINAL-DATA") [GM "getNeedsOriginalData"];
         WLeaf WText (TLit "PROTOCOL") [GM "getProtocol"];
         WCall "writeTransformationTechnologyTransformationDescriptions" None [];
         WLeaf WText (TLit "TRANSFORMER-CLASS") [GM "getTransformerClass"];
         WLeaf WText (TLit "VERSION") [GM "getVersion"]]]
     []].
(** arxml_writer.py:9299-9304 *)
Definition w_writeDataTransformationSet : list wi :=
  [WIf (CSome [])
     [WSub (TLit "DATA-TRANSFORMATION-SET")
        [WCall "writeIdentifiable" None [];
         WCall "writeDataTransformationSetDataTransformations" None [];
         WCall "writeDataTransformationSetTransformationTechnologies" None []]]
     []].
(** arxml_writer.py:9306-9310 *)
Definition w_writeE2EProfileCompatibilityProps : list wi :=
  [WIf (CSome [])
     [WSub (TLit "E-2-E-PROFILE-COMPATIBILITY-PROPS")
        [WCall "writeIdentifiable" None [];
         WLeaf WText (TLit "TRANSIT-TO-INVALID-EXTENDED") [GM "getTransitToInvalidExtended"]]]
     []].
(** arxml_writer.py:9312-9506 *)
Definition w_writeARPackageElement : list wi :=
  [WIf (CInst [] ["ComplexDeviceDriverSwComponentType"])
     [WCall "writeComplexDeviceDriverSwComponentType" None []]
     [WIf (CInst [] ["SwcImplementation"])
        [WCall "writeSwcImplementation" None []]
        [WIf (CInst [] ["CompositionSwComponentType"])
           [WCall "writeCompositionSwComponentType" None []]
           [WIf (CInst [] ["ApplicationPrimitiveDataType"])
              [WCall "writeApplicationPrimitiveDataType" None []]
              [WIf (CInst [] ["ApplicationRecordDataType"])
                 [WCall "writeApplicationRecordDataType" None []]
                 [WIf (CInst [] ["SwBaseType"])
                    [WCall "writeSwBaseType" None []]
                    [WIf (CInst [] ["CompuMethod"])
                       [WCall "writeCompuMethod" None []]
                       [WIf (CInst [] ["ConstantSpecification"])
                          [WCall "writeConstantSpecification" None []]
                          [WIf (CInst [] ["DataConstr"])
                             [WCall "writeDataConstr" None []]
                             [WIf (CInst [] ["EndToEndProtectionSet"])
                                [WCall "writeEndToEndProtectionSet" None []]
                                [WIf (CInst [] ["SenderReceiverInterface"])
                                   [WCall "writeSenderReceiverInterface" None []]
                                   [WIf (CInst [] ["Unit"])
                                      [WCall "writeUnit" None []]
                                      [WIf (CInst [] ["BswModuleDescription"])
                                         [WCall "writeBswModuleDescription" None []]
                                         [WIf (CInst [] ["BswModuleEntry"])
                                            [WCall "writeBswModuleEntry" None []]
                                            [WIf (CInst [] ["SwcBswMapping"])
                                               [WCall "writeSwcBswMapping" None []]
                                               [WIf (CInst [] ["BswImplementation"])
                                                  [WCall "writeBswImplementation" None []]
                                                  [WIf (CInst [] ["ImplementationDataType"])
                                                     [WCall "writeImplementationDataType" None []]
                                                     [WIf (CInst [] ["ClientServerInterface"])
                                                        [WCall "writeClientServerInterface" None []]
                                                        [WIf (CInst [] ["ApplicationSwComponentType"])
                                                           [WCall "writeApplicationSwComponentType" None []]
                                                           [WIf (CInst [] ["EcuAbstractionSwComponentType"])
                                                              [WCall "writeEcuAbstractionSwComponentType" None []]
                                                              [WIf (CInst [] ["ApplicationArrayDataType"])
                                                                 [WCall "writeApplicationArrayDataType" None []]
                                                                 [WIf (CInst [] ["SwRecordLayout"])
                                                                    [WCall "writeSwRecordLayout" None []]
                                                                    [WIf (CInst [] ["SwAddrMethod"])
                                                                       [WCall "writeSwAddrMethod" None []]
                                                                       [WIf (CInst [] ["TriggerInterface"])
                                                                          [WCall "writeTriggerInterface" None []]
                                                                          [WIf (CInst [] ["ServiceSwComponentType"])
                                                                             [WCall "writeServiceSwComponentType" None []]
                                                                             [WIf (CInst [] ["SensorActuatorSwComponentType"])
                                                                                [WCall "writeSensorActuatorSwComponentType" None []]
                                                                                [WIf (CInst [] ["NvBlockSwComponentType"])
                                                                                   [WCall "writeNvBlockSwComponentType" None []]
                                                                                   [WIf (CInst [] ["ServiceProxySwComponentType"])
                                                                                      [WCall "writeServiceProxySwComponentType" None []]
                                                                                      [WIf (CInst [] ["DataTypeMappingSet"])
                                                                                         [WCall "writeDataTypeMappingSet" None []]
                                                                                         [WIf (CInst [] ["ModeDeclarationGroup"])
                                                                                            [WCall "writeModeDeclarationGroup" None []]
                                                                                            [WIf (CInst [] ["ModeSwitchInterface"])
                                                                                               [WCall "writeModeSwitchInterface" None []]
                                                                                               [WIf (CInst [] ["SwcTiming"])
                                                                                                  [WCall "writeSwcTiming" None []]
                                                                                                  [WIf (CInst [] ["LinUnconditionalFrame"])
                                                                                                     [WCall "writeLinUnconditionalFrame" None []]
                                                                                                     [WIf (CInst [] ["NmConfig"])
                                                                                                        [WCall "writeNmConfig" None []]
                                                                                                        [WIf (CInst [] ["NmPdu"])
                                                                                                           [WCall "writeNmPdu" None []]
                                                                                                           [WIf (CInst [] ["NPdu"])
                                                                                                              [WCall "writeNPdu" None []]
                                                                                                              [WIf (CInst [] ["DcmIPdu"])
                                                                                                                 [WCall "writeDcmIPdu" None []]
                                                                                                                 [WIf (CInst [] ["SecuredIPdu"])
                                                                                                                    [WCall "writeSecuredIPdu" None []]
                                                                                                                    [WIf (CInst [] ["CanTpConfig"])
                                                                                                                       [WCall "writeCanTpConfig" None []]
                                                                                                                       [WIf (CInst [] ["LinTpConfig"])
                                                                                                                          [WCall "writeLinTpConfig" None []]
                                                                                                                          [WIf (CInst [] ["LinCluster"])
                                                                                                                             [WCall "writeLinCluster" None []]
                                                                                                                             [WIf (CInst [] ["CanCluster"])
                                                                                                                                [WCall "writeCanCluster" None []]
                                                                                                                                [WIf (CInst [] ["CanFrame"])
                                                                                                                                   [WCall "writeCanFrame" None []]
                                                                                                                                   [WIf (CInst [] ["Gateway"])
                                                                                                                                      [WCall "writeGateway" None []]
                                                                                                                                      [WIf (CInst [] ["ISignal"])
                                                                                                                                         [WCall "writeISignal" None []]
                                                                                                                                         [WIf (CInst [] ["System"])
                                                                                                                                            [WCall "writeSystem" None []]
                                                                                                                                            [WIf (CInst [] ["EcuInstance"])
                                                                                                                                               [WCall "writeEcuInstance" None []]
                                                                                                                                               [WIf (CInst [] ["ISignalIPdu"])
                                                                                                                                                  [WCall "writeISignalIPdu" None []]
                                                                                                                                                  [WIf (CInst [] ["SystemSignal"])
                                                                                                                                                     [WCall "writeSystemSignal" None []]
                                                                                                                                                     [WIf (CInst [] ["SignalServiceTranslationPropsSet"])
                                                                                                                                                        [WCall "writeSignalServiceTranslationPropsSet" None []]
                                                                                                                                                        [WIf (CInst [] ["ParameterInterface"])
                                                                                                                                                           [WCall "writeParameterInterface" None []]
                                                                                                                                                           [WIf (CInst [] ["NvDataInterface"])
                                                                                                                                                              [WCall "writeNvDataInterface" None []]
                                                                                                                                                              [WIf (CInst [] ["GenericEthernetFrame"])
                                                                                                                                                                 [WCall "writeGenericEthernetFrame" None []]
                                                                                                                                                                 [WIf (CInst [] ["LifeCycleInfoSet"])
                                                                                                                                                                    [WCall "writeLifeCycleInfoSet" None []]
                                                                                                                                                                    [WIf (CInst [] ["PhysicalDimension"])
                                                                                                                                                                       [WCall "writePhysicalDimension" None []]
                                                                                                                                                                       [WIf (CInst [] ["FlatMap"])
                                                                                                                                                                          [WCall "writeFlatMap" None []]
                                                                                                                                                                          [WIf (CInst [] ["PortInterfaceMappingSet"])
                                                                                                                                                                             [WCall "writePortInterfaceMappingSet" None []]
                                                                                                                                                                             [WIf (CInst [] ["EthernetCluster"])
                                                                                                                                                                                [WCall "writeEthernetCluster" None []]
                                                                                                                                                                                [WIf (CInst [] ["ISignalIPduGroup"])
                                                                                                                                                                                   [WCall "writeISignalIPduGroup" None []]
                                                                                                                                                                                   [WIf (CInst [] ["DiagnosticConnection"])
                                                                                                                                                                                      [WCall "writeDiagnosticConnection" None []]
                                                                                                                                                                                      [WIf (CInst [] ["DiagnosticServiceTable"])
                                                                                                                                                                                         [WCall "writeDiagnosticServiceTable" None []]
                                                                                                                                                                                         [WIf (CInst [] ["Documentation"])
                                                                                                                                                                                            [WCall "writeDocumentation" None []]
                                                                                                                                                                                            [WIf (CInst [] ["MultiplexedIPdu"])
                                                                                                                                                                                               [WCall "writeMultiplexedIPdu" None []]
                                                                                                                                                                                               [WIf (CInst [] ["UserDefinedIPdu"])
                                                                                                                                                                                                  [WCall "writeUserDefinedIPdu" None []]
                                                                                                                                                                                                  [WIf (CInst [] ["UserDefinedPdu"])
                                                                                                                                                                                                     [WCall "writeUserDefinedPdu" None []]
                                                                                                                                                                                                     [WIf (CInst [] ["GeneralPurposePdu"])
                                                                                                                                                                                                        [WCall "writeGeneralPurposePdu" None []]
                                                                                                                                                                                                        [WIf (CInst [] ["GeneralPurposeIPdu"])
                                                                                                                                                                                                           [WCall "writeGeneralPurposeIPdu" None []]
                                                                                                                                                                                                           [WIf (CInst [] ["SecureCommunicationPropsSet"])
                                                                                                                                                                                                              [WCall "writeSecureCommunicationPropsSet" None []]
                                                                                                                                                                                                              [WIf (CInst [] ["SoAdRoutingGroup"])
                                                                                                                                                                                                                 [WCall "writeSoAdRoutingGroup" None []]
                                                                                                                                                                                                                 [WIf (CInst [] ["DoIpTpConfig"])
                                                                                                                                                                                                                    [WCall "writeDoIpTpConfig" None []]
                                                                                                                                                                                                                    [WIf (CInst [] ["HwElement"])
                                                                                                                                                                                                                       [WCall "writeHwElement" None []]
                                                                                                                                                                                                                       [WIf (CInst [] ["HwCategory"])
                                                                                                                                                                                                                          [WCall "writeHwCategory" None []]
                                                                                                                                                                                                                          [WIf (CInst [] ["HwType"])
                                                                                                                                                                                                                             [WCall "writeHwType" None []]
                                                                                                                                                                                                                             [WIf (CInst [] ["DataTransformationSet"])
                                                                                                                                                                                                                                [WCall "writeDataTransformationSet" None []]
                                                                                                                                                                                                                                [WIf (CInst [] ["E2EProfileCompatibilityProps"])
                                                                                                                                                                                                                                   [WCall "writeE2EProfileCompatibilityProps" None []]
                                                                                                                                                                                                                                   [WIf (CInst [] ["FlexrayFrame"])
                                                                                                                                                                                                                                      [WCall "writeFlexrayFrame" None []]
                                                                                                                                                                                                                                      [WIf (CInst [] ["ISignalGroup"])
                                                                                                                                                                                                                                         [WCall "writeISignalGroup" None []]
                                                                                                                                                                                                                                         [WIf (CInst [] ["SystemSignalGroup"])
                                                                                                                                                                                                                                            [WCall "writeSystemSignalGroup" None []]
                                                                                                                                                                                                                                            [WIf (CInst [] ["FlexrayCluster"])
                                                                                                                                                                                                                                               [WCall "writeFlexrayCluster" None []]
                                                                                                                                                                                                                                               [WIf (CInst [] ["Collection"])
                                                                                                                                                                                                                                                  [WCall "writeCollection" None []]
                                                                                                                                                                                                                                                  [WIf (CInst [] ["KeywordSet"])
                                                                                                                                                                                                                                                     [WCall "writeKeywordSet" None []]
                                                                                                                                                                                                                                                     [WIf (CInst [] ["PortPrototypeBlueprint"])
                                                                                                                                                                                                                                                        [WCall "writePortPrototypeBlueprint" None []]
                                                                                                                                                                                                                                                        [WIf (CInst [] ["ModeDeclarationMappingSet"])
                                                                                                                                                                                                                                                           [WCall "writeModeDeclarationMappingSet" None []]
                                                                                                                                                                                                                                                           [WIf (CInst [] ["EcucModuleDef"])
                                                                                                                                                                                                                                                              [WCall "writeEcucModuleDef" None []]
                                                                                                                                                                                                                                                              [WIf (CInst [] ["EcucDefinitionCollection"])
                                                                                                                                                                                                                                                                 [WCall "writeEcucDefinitionCollection" None []]
                                                                                                                                                                                                                                                                 [WIf (CInst [] ["EcucDestinationUriDefSet"])
                                                                                                                                                                                                                                                                    [WCall "writeEcucDestinationUriDefSet" None []]
                                                                                                                                                                                                                                                                    [WIf (CInst [] ["EcucModuleConfigurationValues"])
                                                                                                                                                                                                                                                                       [WCall "writeEcucModuleConfigurationValues" None []]
                                                                                                                                                                                                                                                                       [WIf (CInst [] ["SwSystemconst"])
                                                                                                                                                                                                                                                                          [WCall "writeSwSystemconst" None []]
                                                                                                                                                                                                                                                                          [WIf (CInst [] ["SwSystemconstantValueSet"])
                                                                                                                                                                                                                                                                             [WCall "writeSwSystemconstantValueSet" None []]
                                                                                                                                                                                                                                                                             [WIf (CInst [] ["PredefinedVariant"])
                                                                                                                                                                                                                                                                                [WCall "writePredefinedVariant" None []]
                                                                                                                                                                                                                                                                                [WIf (CInst [] ["PostBuildVariantCriterion"])
                                                                                                                                                                                                                                                                                   [WCall "writePostBuildVariantCriterion" None []]
                                                                                                                                                                                                                                                                                   [WIf (CInst [] ["McFunction"])
                                                                                                                                                                                                                                                                                      [WCall "writeMcFunction" None []]
                                                                                                                                                                                                                                                                                      [WIf (CInst [] ["McGroup"])
                                                                                                                                                                                                                                                                                         [WCall "writeMcGroup" None []]
                                                                                                                                                                                                                                                                                         [WIf (CInst [] ["DataPrototypeGroup"])
                                                                                                                                                                                                                                                                                            [WCall "writeDataPrototypeGroup" None []]
                                                                                                                                                                                                                                                                                            [WIf (CInst [] ["RunnableEntityGroup"])
                                                                                                                                                                                                                                                                                               [WCall "writeRunnableEntityGroup" None []]
                                                                                                                                                                                                                                                                                               [WIf (CInst [] ["ConsistencyNeeds"])
                                                                                                                                                                                                                                                                                                  [WCall "writeConsistencyNeeds" None []]
                                                                                                                                                                                                                                                                                                  [WFail NotImplementedError true]]]]]]]]]]]]]]]]]]]]]]]]]]]]]]]]]]]]]]]]]]]]]]]]]]]]]]]]]]]]]]]]]]]]]]]]]]]]]]]]]]]]]]]]]]]]]]]]].
(** arxml_writer.py:9508-9518 *)
Definition w_writeReferenceBases : list wi :=
  [WIf (CNonEmpty [])
     [WSub (TLit "REFERENCE-BASES")
        [WFor []
           [WSub (TLit "REFERENCE-BASE")
              [WLeaf WText (TLit "SHORT-LABEL") [GM "getShortLabel"];
               WLeaf WText (TLit "IS-DEFAULT") [GM "getIsDefault"];
               WLeaf WText (TLit "IS-GLOBAL") [GM "getIsDefault"];
               WLeaf WText (TLit "BASE-IS-THIS-PACKAGE") [GM "getBaseIsThisPackage"];
               WLeaf WRef (TLit "PACKAGE-REF") [GM "getPackageRef"]]]]]
     []].
(** arxml_writer.py:9520-9543 *)
Definition w_writeMcFunction : list wi :=
  [WIf (CSome [])
     [WSub (TLit "MC-FUNCTION")
        [WCall "writeIdentifiable" None [];
         WIf (CSome [GM "getDefCalprmSet"])
           [WSub (TLit "DEF-CALPRM-SET")
              [WCall "writeMcFunctionDataRefSet" None [GM "getDefCalprmSet"]]]
           [];
         WIf (CSome [GM "getRefCalprmSet"])
           [WSub (TLit "REF-CALPRM-SET")
              [WCall "writeMcFunctionDataRefSet" None [GM "getRefCalprmSet"]]]
           [];
         WIf (CSome [GM "getInMeasurementSet"])
           [WSub (TLit "IN-MEASUREMENT-SET")
              [WCall "writeMcFunctionDataRefSet" None [GM "getInMeasurementSet"]]]
           [];
         WIf (CSome [GM "getLocMeasurementSet"])
           [WSub (TLit "LOC-MEASUREMENT-SET")
              [WCall "writeMcFunctionDataRefSet" None [GM "getLocMeasurementSet"]]]
           [];
         WIf (CSome [GM "getOutMeasurementSet"])
           [WSub (TLit "OUT-MEASUREMENT-SET")
              [WCall "writeMcFunctionDataRefSet" None [GM "getOutMeasurementSet"]]]
           [];
         WIf (CNonEmpty [GM "getSubFunctionRefs"])
           [WSub (TLit "SUB-FUNCTION-REFS")
              [WFor [GM "getSubFunctionRefs"]
                 [WLeaf WRef (TLit "SUB-FUNCTION-REF") []]]]
           []]]
     []].
(** arxml_writer.py:9545-9557 *)
Definition w_writeMcFunctionDataRefSet : list wi :=
  [WSub (TLit "MC-FUNCTION-DATA-REF-SET-VARIANTS")
     [WSub (TLit "MC-FUNCTION-DATA-REF-SET-CONDITIONAL")
        [WIf (CNonEmpty [GM "getFlatMapEntryRefs"])
           [WSub (TLit "FLAT-MAP-ENTRY-REFS")
              [WFor [GM "getFlatMapEntryRefs"]
                 [WLeaf WRef (TLit "FLAT-MAP-ENTRY-REF") []]]]
           [];
         WIf (CNonEmpty [GM "getMcDataInstanceRefs"])
           [WSub (TLit "MC-DATA-INSTANCE-REFS")
              [WFor [GM "getMcDataInstanceRefs"]
                 [WLeaf WRef (TLit "MC-DATA-INSTANCE-REF") []]]]
           []]]].
(** arxml_writer.py:9559-9578 *)
Definition w_writeMcGroup : list wi :=
  [WIf (CSome [])
     [WSub (TLit "MC-GROUP")
        [WCall "writeIdentifiable" None [];
         WIf (CNonEmpty [GM "getSubGroupRefs"])
           [WSub (TLit "SUB-GROUP-REFS")
              [WFor [GM "getSubGroupRefs"]
                 [WLeaf WRef (TLit "SUB-GROUP-REF") []]]]
           [];
         WIf (CSome [GM "getRefCalprmSet"])
           [WSub (TLit "REF-CALPRM-SET")
              [WCall "writeMcGroupDataRefSet" None [GM "getRefCalprmSet"]]]
           [];
         WIf (CSome [GM "getRefMeasurementSet"])
           [WSub (TLit "REF-MEASUREMENT-SET")
              [WCall "writeMcGroupDataRefSet" None [GM "getRefMeasurementSet"]]]
           [];
         WIf (CNonEmpty [GM "getMcFunctionRefs"])
           [WSub (TLit "MC-FUNCTION-REFS")
              [WFor [GM "getMcFunctionRefs"]
                 [WLeaf WRef (TLit "MC-FUNCTION-REF") []]]]
           []]]
     []].
(** arxml_writer.py:9580-9592 *)
Definition w_writeMcGroupDataRefSet : list wi :=
  [WSub (TLit "MC-GROUP-DATA-REF-SET-VARIANTS")
     [WSub (TLit "MC-GROUP-DATA-REF-SET-CONDITIONAL")
        [WIf (CNonEmpty [GM "getFlatMapEntryRefs"])
           [WSub (TLit "FLAT-MAP-ENTRY-REFS")
              [WFor [GM "getFlatMapEntryRefs"]
                 [WLeaf WRef (TLit "FLAT-MAP-ENTRY-REF") []]]]
           [];
         WIf (CNonEmpty [GM "getMcDataInstanceRefs"])
           [WSub (TLit "MC-DATA-INSTANCE-REFS")
              [WFor [GM "getMcDataInstanceRefs"]
                 [WLeaf WRef (TLit "MC-DATA-INSTANCE-REF") []]]]
           []]]].
(** arxml_writer.py:9594-9601 *)
Definition w_writeARPackage : list wi :=
  [WSub (TLit "AR-PACKAGE")
     [WCall "writeIdentifiable" None [];
      WCall "writeReferenceBases" None [GM "getReferenceBases"];
      WCall "writeARPackageElements" None [];
      WCall "writeARPackages" None [GM "getARPackages"]]].
(** arxml_writer.py:9603-9609 *)
Definition w_writeARPackageElements : list wi :=
  [WIf (CNonEmpty [GM "getElements"])
     [WSub (TLit "ELEMENTS")
        [WFor [GM "getElements"]
           [WIf (CNot (CInst [] ["ARPackage"]))
              [WCall "writeARPackageElement" None []]
              []]]]
     []].
(** arxml_writer.py:9611-9618 *)
Definition w_writeARPackages : list wi :=
  [WIf (CNonEmpty [])
     [WSub (TLit "AR-PACKAGES")
        [WFor []
           [WIf (CInst [] ["ARPackage"])
              [WCall "writeARPackage" None []]
              [WFail NotImplementedError true]]]]
     []].
Definition wfuns : list (string * list wi) := [
  ("setChildElementRxIdentifierRange", w_setChildElementRxIdentifierRange);
  ("setChildElementJ1939NodeName", w_setChildElementJ1939NodeName);
  ("writeSds", w_writeSds);
  ("writeSdfs", w_writeSdfs);
  ("writeSdgCaption", w_writeSdgCaption);
  ("writeSdgSdxRefs", w_writeSdgSdxRefs);
  ("writeSdgSdxfRefs", w_writeSdgSdxfRefs);
  ("setSdg", w_setSdg);
  ("writeBlueprintGenerator", w_writeBlueprintGenerator);
  ("writeConditionByFormula", w_writeConditionByFormula);
  ("writePostBuildVariantCondition", w_writePostBuildVariantCondition);
  ("writeVariationPoint", w_writeVariationPoint);
  ("writeAdminDataSdgs", w_writeAdminDataSdgs);
  ("writeReferrable", w_writeReferrable);
  ("setShortNameFragment", w_setShortNameFragment);
  ("setShortNameFragments", w_setShortNameFragments);
  ("setLanguageSpecific", w_setLanguageSpecific);
  ("setLLongName", w_setLLongName);
  ("setEmphasisText", w_setEmphasisText);
  ("setIndexEntry", w_setIndexEntry);
  ("setTt", w_setTt);
  ("setMultiLongName", w_setMultiLongName);
  ("setLOverviewParagraph", w_setLOverviewParagraph);
  ("setMultiLanguageOverviewParagraph", w_setMultiLanguageOverviewParagraph);
  ("writeMultilanguageReferrable", w_writeMultilanguageReferrable);
  ("setCaption", w_setCaption);
  ("setLPlainText", w_setLPlainText);
  ("setMultiLanguagePlainText", w_setMultiLanguagePlainText);
  ("writeModification", w_writeModification);
  ("writeDocRevisionModifications", w_writeDocRevisionModifications);
  ("writeDocRevision", w_writeDocRevision);
  ("writeAdminDataDocRevisions", w_writeAdminDataDocRevisions);
  ("setAdminData", w_setAdminData);
  ("writeIdentifiable", w_writeIdentifiable);
  ("writeARElement", w_writeARElement);
  ("writeTransmissionAcknowledgementRequest", w_writeTransmissionAcknowledgementRequest);
  ("writeTransmissionComSpecProps", w_writeTransmissionComSpecProps);
  ("writeSenderComSpec", w_writeSenderComSpec);
  ("writeNonqueuedSenderComSpec", w_writeNonqueuedSenderComSpec);
  ("writeTransformationComSpecProps", w_writeTransformationComSpecProps);
  ("writeUserDefinedTransformationComSpecProps", w_writeUserDefinedTransformationComSpecProps);
  ("writeEndToEndTransformationComSpecProps", w_writeEndToEndTransformationComSpecProps);
  ("writeServerComSpecTransformationComSpecProps", w_writeServerComSpecTransformationComSpecProps);
  ("writeServerComSpec", w_writeServerComSpec);
  ("writeQueuedSenderComSpec", w_writeQueuedSenderComSpec);
  ("setModeSwitchedAckRequest", w_setModeSwitchedAckRequest);
  ("writeModeSwitchSenderComSpec", w_writeModeSwitchSenderComSpec);
  ("writeNvProvideComSpec", w_writeNvProvideComSpec);
  ("writePPortComSpec", w_writePPortComSpec);
  ("setApplicationCompositeElementInPortInterfaceInstanceRef", w_setApplicationCompositeElementInPortInterfaceInstanceRef);
  ("writeCompositeNetworkRepresentation", w_writeCompositeNetworkRepresentation);
  ("writeReceiverComSpec", w_writeReceiverComSpec);
  ("writeReceptionComSpecProps", w_writeReceptionComSpecProps);
  ("writeReceiverReplaceWith", w_writeReceiverReplaceWith);
  ("setSwValues", w_setSwValues);
  ("setValueList", w_setValueList);
  ("writeSwValueCont", w_writeSwValueCont);
  ("writeValueSpecification", w_writeValueSpecification);
  ("writeTextValueSpecification", w_writeTextValueSpecification);
  ("writeNumericalValueSpecification", w_writeNumericalValueSpecification);
  ("writeArrayValueSpecification", w_writeArrayValueSpecification);
  ("setConstantReference", w_setConstantReference);
  ("setChildValueSpecification", w_setChildValueSpecification);
  ("writeNonqueuedReceiverComSpec", w_writeNonqueuedReceiverComSpec);
  ("writeQueuedReceiverComSpec", w_writeQueuedReceiverComSpec);
  ("writeClientComSpec", w_writeClientComSpec);
  ("writeTransformationComSpecPropss", w_writeTransformationComSpecPropss);
  ("writeParameterProvideComSpec", w_writeParameterProvideComSpec);
  ("writeParameterRequireComSpec", w_writeParameterRequireComSpec);
  ("writeNvRequireComSpec", w_writeNvRequireComSpec);
  ("setModeSwitchReceiverComSpec", w_setModeSwitchReceiverComSpec);
  ("writeRPortComSpec", w_writeRPortComSpec);
  ("setAbstractProvidedPortPrototype", w_setAbstractProvidedPortPrototype);
  ("writePPortPrototype", w_writePPortPrototype);
  ("setAbstractRequiredPortPrototype", w_setAbstractRequiredPortPrototype);
  ("writeRPortPrototype", w_writeRPortPrototype);
  ("writePRPortPrototype", w_writePRPortPrototype);
  ("setPortPrototype", w_setPortPrototype);
  ("writeClientServerAnnotation", w_writeClientServerAnnotation);
  ("writeDelegatedPortAnnotation", w_writeDelegatedPortAnnotation);
  ("writeIoHwAbstractionServerAnnotation", w_writeIoHwAbstractionServerAnnotation);
  ("writeModePortAnnotation", w_writeModePortAnnotation);
  ("writeNvDataPortAnnotation", w_writeNvDataPortAnnotation);
  ("writeParameterPortAnnotation", w_writeParameterPortAnnotation);
  ("writeSenderReceiverAnnotation", w_writeSenderReceiverAnnotation);
  ("writeTriggerPortAnnotation", w_writeTriggerPortAnnotation);
  ("writeSwComponentTypePorts", w_writeSwComponentTypePorts);
  ("writeInnerGroupIRef", w_writeInnerGroupIRef);
  ("writePortGroupInnerGroupIRefs", w_writePortGroupInnerGroupIRefs);
  ("writePortGroupOuterPortRefs", w_writePortGroupOuterPortRefs);
  ("writePortGroup", w_writePortGroup);
  ("writeSwComponentTypePortGroups", w_writeSwComponentTypePortGroups);
  ("writeSwComponentTypeSwcMappingConstraints", w_writeSwComponentTypeSwcMappingConstraints);
  ("writeSwComponentDocumentationElement", w_writeSwComponentDocumentationElement);
  ("writeSwComponentTypeSwComponentDocumentation", w_writeSwComponentTypeSwComponentDocumentation);
  ("writeChapter", w_writeChapter);
  ("writeChapterModel", w_writeChapterModel);
  ("writePredefinedChapter", w_writePredefinedChapter);
  ("writeDocumentationContext", w_writeDocumentationContext);
  ("writeDocumentation", w_writeDocumentation);
  ("writeChapterContent", w_writeChapterContent);
  ("writeTopicContentOrMsrQuery", w_writeTopicContentOrMsrQuery);
  ("writeMsrQueryP1", w_writeMsrQueryP1);
  ("writeTopicContent", w_writeTopicContent);
  ("writeTopic1", w_writeTopic1);
  ("writeMsrQueryTopic1", w_writeMsrQueryTopic1);
  ("writeMsrQueryChapter", w_writeMsrQueryChapter);
  ("writeSwComponentTypeUnitGroups", w_writeSwComponentTypeUnitGroups);
  ("writeSwComponentTypeConsistencyNeeds", w_writeSwComponentTypeConsistencyNeeds);
  ("writeSwComponentType", w_writeSwComponentType);
  ("writeSwComponentPrototype", w_writeSwComponentPrototype);
  ("writeCompositionSwComponentTypeComponents", w_writeCompositionSwComponentTypeComponents);
  ("writeAssemblySwConnector", w_writeAssemblySwConnector);
  ("writeDelegationSwConnector", w_writeDelegationSwConnector);
  ("writePassThroughSwConnector", w_writePassThroughSwConnector);
  ("writeSwConnector", w_writeSwConnector);
  ("writeCompositionSwComponentTypeSwConnectors", w_writeCompositionSwComponentTypeSwConnectors);
  ("writeCompositionSwComponentTypeDataTypeMappingSet", w_writeCompositionSwComponentTypeDataTypeMappingSet);
  ("writeCompositionSwComponentTypeConstantValueMappingSet", w_writeCompositionSwComponentTypeConstantValueMappingSet);
  ("writeInstanceEventInCompositionInstanceRef", w_writeInstanceEventInCompositionInstanceRef);
  ("writeInstantiationRTEEventProps", w_writeInstantiationRTEEventProps);
  ("writeCompositionSwComponentTypeInstantiationRTEEventProps", w_writeCompositionSwComponentTypeInstantiationRTEEventProps);
  ("writeCompositionSwComponentType", w_writeCompositionSwComponentType);
  ("writeCompositionSwComponentTypes", w_writeCompositionSwComponentTypes);
  ("writeLParagraphs", w_writeLParagraphs);
  ("setMultiLanguageParagraphs", w_setMultiLanguageParagraphs);
  ("setListElement", w_setListElement);
  ("setGraphic", w_setGraphic);
  ("writeMlFigureLGraphics", w_writeMlFigureLGraphics);
  ("writeDocumentViewSelectable", w_writeDocumentViewSelectable);
  ("writePaginateable", w_writePaginateable);
  ("writeMlFigure", w_writeMlFigure);
  ("setMlFigures", w_setMlFigures);
  ("writeDocumentationBlock", w_writeDocumentationBlock);
  ("setDefList", w_setDefList);
  ("setDefItem", w_setDefItem);
  ("setMlFormula", w_setMlFormula);
  ("setLabeledList", w_setLabeledList);
  ("setIndentSample", w_setIndentSample);
  ("setLabeledItem", w_setLabeledItem);
  ("setNote", w_setNote);
  ("setTraceableText", w_setTraceableText);
  ("setStructuredReq", w_setStructuredReq);
  ("setMultiLanguageVerbatim", w_setMultiLanguageVerbatim);
  ("setLVerbatim", w_setLVerbatim);
  ("setMsrQueryP2", w_setMsrQueryP2);
  ("setMsrQueryProps", w_setMsrQueryProps);
  ("setMsrQueryArg", w_setMsrQueryArg);
  ("writeGeneralAnnotation", w_writeGeneralAnnotation);
  ("setAnnotations", w_setAnnotations);
  ("setSwAxisIndividual", w_setSwAxisIndividual);
  ("setSwAxisGeneric", w_setSwAxisGeneric);
  ("setSwGenericAxisParam", w_setSwGenericAxisParam);
  ("setSwAxisGrouped", w_setSwAxisGrouped);
  ("setSwCalprmAxis", w_setSwCalprmAxis);
  ("setSwCalprmAxisSet", w_setSwCalprmAxisSet);
  ("setSwPointerTargetProps", w_setSwPointerTargetProps);
  ("setSwDataDefProps", w_setSwDataDefProps);
  ("setSwBitRepresentation", w_setSwBitRepresentation);
  ("setSwValueBlockSizeMults", w_setSwValueBlockSizeMults);
  ("setSwComparisonVariables", w_setSwComparisonVariables);
  ("setSwHostVariable", w_setSwHostVariable);
  ("setSwVariableRefProxy", w_setSwVariableRefProxy);
  ("setSwCalprmRefProxy", w_setSwCalprmRefProxy);
  ("setSwDataDependency", w_setSwDataDependency);
  ("setSwTextProps", w_setSwTextProps);
  ("setApplicationDataType", w_setApplicationDataType);
  ("setApplicationCompositeDataType", w_setApplicationCompositeDataType);
  ("writeAutosarDataType", w_writeAutosarDataType);
  ("writeApplicationPrimitiveDataType", w_writeApplicationPrimitiveDataType);
  ("writeDataPrototype", w_writeDataPrototype);
  ("writeApplicationCompositeElementDataPrototype", w_writeApplicationCompositeElementDataPrototype);
  ("writeApplicationRecordElement", w_writeApplicationRecordElement);
  ("writeApplicationRecordDataTypeElements", w_writeApplicationRecordDataTypeElements);
  ("writeApplicationRecordDataType", w_writeApplicationRecordDataType);
  ("writeApplicationDataTypes", w_writeApplicationDataTypes);
  ("setBaseTypeDirectDefinition", w_setBaseTypeDirectDefinition);
  ("writeSwBaseType", w_writeSwBaseType);
  ("writeCompuScaleConstantContents", w_writeCompuScaleConstantContents);
  ("writeCompuNominatorDenominator", w_writeCompuNominatorDenominator);
  ("writeCompuScaleRationalFormula", w_writeCompuScaleRationalFormula);
  ("writeCompuScaleContents", w_writeCompuScaleContents);
  ("setCompuConstContent", w_setCompuConstContent);
  ("writeCompuScale", w_writeCompuScale);
  ("setCompuScales", w_setCompuScales);
  ("setCompuConst", w_setCompuConst);
  ("setCompu", w_setCompu);
  ("writeCompuMethod", w_writeCompuMethod);
  ("writeApplicationValueSpecification", w_writeApplicationValueSpecification);
  ("writeNumericalOrText", w_writeNumericalOrText);
  ("writeRuleArguments", w_writeRuleArguments);
  ("writeRuleBasedValueSpecification", w_writeRuleBasedValueSpecification);
  ("writeRuleBasedAxisCont", w_writeRuleBasedAxisCont);
  ("writeRuleBasedValueCont", w_writeRuleBasedValueCont);
  ("writeApplicationRuleBasedValueSpecification", w_writeApplicationRuleBasedValueSpecification);
  ("writeCompositeRuleBasedValueSpecification", w_writeCompositeRuleBasedValueSpecification);
  ("writeRecordValueSpecification", w_writeRecordValueSpecification);
  ("writeConstantSpecification", w_writeConstantSpecification);
  ("setInternalConstrs", w_setInternalConstrs);
  ("setScaleConstr", w_setScaleConstr);
  ("setPhysConstrs", w_setPhysConstrs);
  ("writeDataConstrRules", w_writeDataConstrRules);
  ("writeDataConstr", w_writeDataConstr);
  ("writeUnit", w_writeUnit);
  ("setRModeInAtomicSwcInstanceRef", w_setRModeInAtomicSwcInstanceRef);
  ("setModeInBswModuleDescriptionInstanceRef", w_setModeInBswModuleDescriptionInstanceRef);
  ("setPOperationInAtomicSwcInstanceRef", w_setPOperationInAtomicSwcInstanceRef);
  ("setRTEEvent", w_setRTEEvent);
  ("writeTimingEvent", w_writeTimingEvent);
  ("writeOperationInvokedEvent", w_writeOperationInvokedEvent);
  ("writeSwcModeSwitchEvent", w_writeSwcModeSwitchEvent);
  ("setRVariableInAtomicSwcInstanceRef", w_setRVariableInAtomicSwcInstanceRef);
  ("writeDataReceivedEvent", w_writeDataReceivedEvent);
  ("writeInternalTriggerOccurredEvent", w_writeInternalTriggerOccurredEvent);
  ("writeInitEvent", w_writeInitEvent);
  ("writeAsynchronousServerCallReturnsEvent", w_writeAsynchronousServerCallReturnsEvent);
  ("writeModeSwitchedAckEvent", w_writeModeSwitchedAckEvent);
  ("writeBackgroundEvent", w_writeBackgroundEvent);
  ("writeDataSendCompletedEvent", w_writeDataSendCompletedEvent);
  ("writeSwcInternalBehaviorEvents", w_writeSwcInternalBehaviorEvents);
  ("writeExclusiveAreas", w_writeExclusiveAreas);
  ("writeExclusiveAreaNestingOrders", w_writeExclusiveAreaNestingOrders);
  ("writeDataTypeMappingRefs", w_writeDataTypeMappingRefs);
  ("writeInternalBehaviorStaticMemories", w_writeInternalBehaviorStaticMemories);
  ("writeInternalBehavior", w_writeInternalBehavior);
  ("setVariableInAtomicSWCTypeInstanceRef", w_setVariableInAtomicSWCTypeInstanceRef);
  ("setAutosarVariableRef", w_setAutosarVariableRef);
  ("writeNvBlockDataMapping", w_writeNvBlockDataMapping);
  ("writeBulkNvDataDescriptor", w_writeBulkNvDataDescriptor);
  ("writeNvBlockDescriptor", w_writeNvBlockDescriptor);
  ("writeModeSwitchEventTriggeredActivity", w_writeModeSwitchEventTriggeredActivity);
  ("setComponentInSystemInstanceRef", w_setComponentInSystemInstanceRef);
  ("writeVariableAccess", w_writeVariableAccess);
  ("setParameterInAtomicSWCTypeInstanceRef", w_setParameterInAtomicSWCTypeInstanceRef);
  ("setAutosarParameterRef", w_setAutosarParameterRef);
  ("writeParameterAccess", w_writeParameterAccess);
  ("writeRunnableEntityParameterAccesses", w_writeRunnableEntityParameterAccesses);
  ("writeRunnableEntityDataReceivePointByArguments", w_writeRunnableEntityDataReceivePointByArguments);
  ("writeRunnableEntityDataReceivePointByValues", w_writeRunnableEntityDataReceivePointByValues);
  ("writeRunnableEntityDataSendPoints", w_writeRunnableEntityDataSendPoints);
  ("writeRunnableEntityDataReadAccesses", w_writeRunnableEntityDataReadAccesses);
  ("writeRunnableEntityDataWriteAccesses", w_writeRunnableEntityDataWriteAccesses);
  ("writeRunnableEntityReadLocalVariables", w_writeRunnableEntityReadLocalVariables);
  ("setROperationInAtomicSwcInstanceRef", w_setROperationInAtomicSwcInstanceRef);
  ("setServerCallPoint", w_setServerCallPoint);
  ("setSynchronousServerCallPoint", w_setSynchronousServerCallPoint);
  ("setAsynchronousServerCallPoint", w_setAsynchronousServerCallPoint);
  ("writeRunnableEntityServerCallPoints", w_writeRunnableEntityServerCallPoints);
  ("writeRunnableEntityWrittenLocalVariable", w_writeRunnableEntityWrittenLocalVariable);
  ("writeModeGroupInAtomicSwcInstanceRef", w_writeModeGroupInAtomicSwcInstanceRef);
  ("writeRModeGroupInAtomicSWCInstanceRef", w_writeRModeGroupInAtomicSWCInstanceRef);
  ("writePModeGroupInAtomicSWCInstanceRef", w_writePModeGroupInAtomicSWCInstanceRef);
  ("writePTriggerInAtomicSwcTypeInstanceRef", w_writePTriggerInAtomicSwcTypeInstanceRef);
  ("writeInnerDataPrototypeGroupInCompositionInstanceRef", w_writeInnerDataPrototypeGroupInCompositionInstanceRef);
  ("writeInnerRunnableEntityGroupInCompositionInstanceRef", w_writeInnerRunnableEntityGroupInCompositionInstanceRef);
  ("writeRunnableEntityInCompositionInstanceRef", w_writeRunnableEntityInCompositionInstanceRef);
  ("writeVariableDataPrototypeInCompositionInstanceRef", w_writeVariableDataPrototypeInCompositionInstanceRef);
  ("writeDataPrototypeGroupDataPrototypeGroupIRefs", w_writeDataPrototypeGroupDataPrototypeGroupIRefs);
  ("writeDataPrototypeGroupImplicitDataAccessIRefs", w_writeDataPrototypeGroupImplicitDataAccessIRefs);
  ("writeDataPrototypeGroup", w_writeDataPrototypeGroup);
  ("writeRunnableEntityGroupRunnableEntityGroupIRefs", w_writeRunnableEntityGroupRunnableEntityGroupIRefs);
  ("writeRunnableEntityGroupRunnableEntityIRefs", w_writeRunnableEntityGroupRunnableEntityIRefs);
  ("writeRunnableEntityGroup", w_writeRunnableEntityGroup);
  ("writeConsistencyNeedsDpgDoesNotRequireCoherencys", w_writeConsistencyNeedsDpgDoesNotRequireCoherencys);
  ("writeConsistencyNeedsDpgRequiresCoherencys", w_writeConsistencyNeedsDpgRequiresCoherencys);
  ("writeConsistencyNeedsRegDoesNotRequireStabilitys", w_writeConsistencyNeedsRegDoesNotRequireStabilitys);
  ("writeConsistencyNeedsRegRequiresStabilitys", w_writeConsistencyNeedsRegRequiresStabilitys);
  ("writeConsistencyNeeds", w_writeConsistencyNeeds);
  ("setPModeGroupInAtomicSwcInstanceRef", w_setPModeGroupInAtomicSwcInstanceRef);
  ("setModeGroupIRef", w_setModeGroupIRef);
  ("writeModeAccessPoint", w_writeModeAccessPoint);
  ("writeRunnableEntityExternalTriggeringPoints", w_writeRunnableEntityExternalTriggeringPoints);
  ("writeRunnableEntityModeAccessPoints", w_writeRunnableEntityModeAccessPoints);
  ("writeModeSwitchPointModeGroupIRef", w_writeModeSwitchPointModeGroupIRef);
  ("writeModeSwitchPoint", w_writeModeSwitchPoint);
  ("writeRunnableEntityModeSwitchPoints", w_writeRunnableEntityModeSwitchPoints);
  ("setRunnableEntityArgument", w_setRunnableEntityArgument);
  ("writeRunnableEntityArguments", w_writeRunnableEntityArguments);
  ("writeRunnableEntityWaitPoints", w_writeRunnableEntityWaitPoints);
  ("writeRunnableEntityAsynchronousServerCallResultPoint", w_writeRunnableEntityAsynchronousServerCallResultPoint);
  ("writeRunnableEntity", w_writeRunnableEntity);
  ("writeSwcInternalBehaviorRunnables", w_writeSwcInternalBehaviorRunnables);
  ("writeSwcInternalBehaviorArTypedPerInstanceMemories", w_writeSwcInternalBehaviorArTypedPerInstanceMemories);
  ("writeSwcInternalBehaviorExplicitInterRunnableVariables", w_writeSwcInternalBehaviorExplicitInterRunnableVariables);
  ("writeSwcInternalBehaviorPerInstanceMemories", w_writeSwcInternalBehaviorPerInstanceMemories);
  ("writeParameterDataPrototype", w_writeParameterDataPrototype);
  ("writeSwcInternalBehaviorParameterDataPrototypes", w_writeSwcInternalBehaviorParameterDataPrototypes);
  ("writeVariationPointProxy", w_writeVariationPointProxy);
  ("writeAttributeValueVariationPoint", w_writeAttributeValueVariationPoint);
  ("writeSwcInternalBehaviorVariationPointProxies", w_writeSwcInternalBehaviorVariationPointProxies);
  ("writePortDefinedArgumentValues", w_writePortDefinedArgumentValues);
  ("writeSwcInternalBehaviorPortAPIOptions", w_writeSwcInternalBehaviorPortAPIOptions);
  ("writeRoleBasedDataTypeAssignment", w_writeRoleBasedDataTypeAssignment);
  ("writeServiceDependencyAssignedDataType", w_writeServiceDependencyAssignedDataType);
  ("writeServiceDependency", w_writeServiceDependency);
  ("writeSymbolicNameProps", w_writeSymbolicNameProps);
  ("writeBswServiceDependencyIdent", w_writeBswServiceDependencyIdent);
  ("writeRoleBasedBswModuleEntryAssignment", w_writeRoleBasedBswModuleEntryAssignment);
  ("writeBswServiceDependencyAssignedData", w_writeBswServiceDependencyAssignedData);
  ("writeBswServiceDependencyAssignedEntryRoles", w_writeBswServiceDependencyAssignedEntryRoles);
  ("writeBswServiceDependencyServiceNeeds", w_writeBswServiceDependencyServiceNeeds);
  ("writeBswServiceDependency", w_writeBswServiceDependency);
  ("writeBswInternalBehaviorServiceDependencies", w_writeBswInternalBehaviorServiceDependencies);
  ("writeRoleBasedDataAssignment", w_writeRoleBasedDataAssignment);
  ("writeRoleBasedPortAssignment", w_writeRoleBasedPortAssignment);
  ("writeSwcServiceDependencyAssignedData", w_writeSwcServiceDependencyAssignedData);
  ("writeSwcServiceDependencyAssignedPorts", w_writeSwcServiceDependencyAssignedPorts);
  ("writeServiceNeeds", w_writeServiceNeeds);
  ("writeBswMgrNeeds", w_writeBswMgrNeeds);
  ("writeNvBlockNeeds", w_writeNvBlockNeeds);
  ("writeDiagnosticCapabilityElement", w_writeDiagnosticCapabilityElement);
  ("writeDiagnosticCommunicationManagerNeeds", w_writeDiagnosticCommunicationManagerNeeds);
  ("writeDiagnosticRoutineNeeds", w_writeDiagnosticRoutineNeeds);
  ("writeDiagnosticValueNeeds", w_writeDiagnosticValueNeeds);
  ("writeObdInfoServiceNeeds", w_writeObdInfoServiceNeeds);
  ("writeObdMonitorServiceNeeds", w_writeObdMonitorServiceNeeds);
  ("writeObdPidServiceNeeds", w_writeObdPidServiceNeeds);
  ("writeObdControlServiceNeeds", w_writeObdControlServiceNeeds);
  ("writeObdRatioServiceNeeds", w_writeObdRatioServiceNeeds);
  ("writeObdRatioDenominatorNeeds", w_writeObdRatioDenominatorNeeds);
  ("writeDoIpRoutingActivationAuthenticationNeeds", w_writeDoIpRoutingActivationAuthenticationNeeds);
  ("writeDoIpRoutingActivationConfirmationNeeds", w_writeDoIpRoutingActivationConfirmationNeeds);
  ("writeSecureOnBoardCommunicationNeeds", w_writeSecureOnBoardCommunicationNeeds);
  ("writeIdsMgrNeeds", w_writeIdsMgrNeeds);
  ("setDiagEventDebounceCounterBased", w_setDiagEventDebounceCounterBased);
  ("setDiagEventDebounceMonitorInternal", w_setDiagEventDebounceMonitorInternal);
  ("setDiagEventDebounceTimeBased", w_setDiagEventDebounceTimeBased);
  ("writeDiagEventDebounceAlgorithm", w_writeDiagEventDebounceAlgorithm);
  ("writeDiagnosticEventNeeds", w_writeDiagnosticEventNeeds);
  ("writeDiagnosticEventInfoNeeds", w_writeDiagnosticEventInfoNeeds);
  ("writeDiagnosticIoControlNeeds", w_writeDiagnosticIoControlNeeds);
  ("writeDiagnosticEnableConditionNeeds", w_writeDiagnosticEnableConditionNeeds);
  ("writeDiagnosticOperationCycleNeeds", w_writeDiagnosticOperationCycleNeeds);
  ("writeDiagnosticStorageConditionNeeds", w_writeDiagnosticStorageConditionNeeds);
  ("writeIndicatorStatusNeeds", w_writeIndicatorStatusNeeds);
  ("writeFunctionInhibitionAvailabilityNeeds", w_writeFunctionInhibitionAvailabilityNeeds);
  ("writeCryptoServiceNeeds", w_writeCryptoServiceNeeds);
  ("writeEcuStateMgrUserNeeds", w_writeEcuStateMgrUserNeeds);
  ("writeDtcStatusChangeNotificationNeeds", w_writeDtcStatusChangeNotificationNeeds);
  ("writeDltUserNeeds", w_writeDltUserNeeds);
  ("writeComMgrUserNeeds", w_writeComMgrUserNeeds);
  ("writeSupervisedEntityNeeds", w_writeSupervisedEntityNeeds);
  ("writeTracedFailure", w_writeTracedFailure);
  ("setDevelopmentError", w_setDevelopmentError);
  ("setRuntimeError", w_setRuntimeError);
  ("setPossibleErrorReaction", w_setPossibleErrorReaction);
  ("setTransientFault", w_setTransientFault);
  ("writeErrorTracerNeeds", w_writeErrorTracerNeeds);
  ("writeSwcServiceDependencyServiceNeeds", w_writeSwcServiceDependencyServiceNeeds);
  ("writeSwcServiceDependencyRepresentedPortGroup", w_writeSwcServiceDependencyRepresentedPortGroup);
  ("writeSwcServiceDependency", w_writeSwcServiceDependency);
  ("writeSwcInternalBehaviorServiceDependencies", w_writeSwcInternalBehaviorServiceDependencies);
  ("setIncludedDataTypeSets", w_setIncludedDataTypeSets);
  ("writeIncludedModeDeclarationGroupSet", w_writeIncludedModeDeclarationGroupSet);
  ("writeSwcInternalBehaviorIncludedModeDeclarationGroupSets", w_writeSwcInternalBehaviorIncludedModeDeclarationGroupSets);
  ("writeSwcInternalBehaviorExclusiveAreaPolicies", w_writeSwcInternalBehaviorExclusiveAreaPolicies);
  ("writeSwcInternalBehaviorInstantiationDataDefProps", w_writeSwcInternalBehaviorInstantiationDataDefProps);
  ("writeSwcInternalBehavior", w_writeSwcInternalBehavior);
  ("writeAtomicSwComponentTypeInternalBehaviors", w_writeAtomicSwComponentTypeInternalBehaviors);
  ("writeAtomicSwComponentType", w_writeAtomicSwComponentType);
  ("writeComplexDeviceDriverSwComponentType", w_writeComplexDeviceDriverSwComponentType);
  ("writeHardwareElementRefs", w_writeHardwareElementRefs);
  ("writeArtifactDescriptors", w_writeArtifactDescriptors);
  ("writeCode", w_writeCode);
  ("writeCodeCallbackHeaderRefs", w_writeCodeCallbackHeaderRefs);
  ("writeCodeDescriptors", w_writeCodeDescriptors);
  ("setMemorySectionOptions", w_setMemorySectionOptions);
  ("writeMemorySectionExecutableEntityRefs", w_writeMemorySectionExecutableEntityRefs);
  ("writeMemorySections", w_writeMemorySections);
  ("setMultidimensionalTime", w_setMultidimensionalTime);
  ("setHardwareConfiguration", w_setHardwareConfiguration);
  ("setSoftwareContext", w_setSoftwareContext);
  ("writeExecutionTime", w_writeExecutionTime);
  ("writeAnalyzedExecutionTime", w_writeAnalyzedExecutionTime);
  ("writeMeasuredExecutionTime", w_writeMeasuredExecutionTime);
  ("writeSimulatedExecutionTime", w_writeSimulatedExecutionTime);
  ("writeRoughEstimateOfExecutionTime", w_writeRoughEstimateOfExecutionTime);
  ("writeExecutionTimes", w_writeExecutionTimes);
  ("writeHeapUsage", w_writeHeapUsage);
  ("writeMeasuredHeapUsage", w_writeMeasuredHeapUsage);
  ("writeRoughEstimateHeapUsage", w_writeRoughEstimateHeapUsage);
  ("writeWorstCaseHeapUsage", w_writeWorstCaseHeapUsage);
  ("writeHeapUsages", w_writeHeapUsages);
  ("writeSectionNamePrefixes", w_writeSectionNamePrefixes);
  ("writeAccessCountSets", w_writeAccessCountSets);
  ("setStackUsage", w_setStackUsage);
  ("setRoughEstimateStackUsage", w_setRoughEstimateStackUsage);
  ("setMeasuredStackUsage", w_setMeasuredStackUsage);
  ("setWorstCaseStackUsage", w_setWorstCaseStackUsage);
  ("writeStackUsages", w_writeStackUsages);
  ("setResourceConsumption", w_setResourceConsumption);
  ("writeImplementation", w_writeImplementation);
  ("writeMcSupportData", w_writeMcSupportData);
  ("writeMcSwEmulationMethodSupport", w_writeMcSwEmulationMethodSupport);
  ("writeMcParameterElementGroup", w_writeMcParameterElementGroup);
  ("writeRteEventInEcuInstanceRef", w_writeRteEventInEcuInstanceRef);
  ("writeVariableAccessInEcuInstanceRef", w_writeVariableAccessInEcuInstanceRef);
  ("writeMcDataAccessDetails", w_writeMcDataAccessDetails);
  ("writeMcDataInstance", w_writeMcDataInstance);
  ("writeRoleBasedMcDataAssignment", w_writeRoleBasedMcDataAssignment);
  ("writeRptSwPrototypingAccess", w_writeRptSwPrototypingAccess);
  ("writeRptImplPolicy", w_writeRptImplPolicy);
  ("writeRptExecutableEntityProperties", w_writeRptExecutableEntityProperties);
  ("writeRptServicePoint", w_writeRptServicePoint);
  ("writeRptExecutableEntityEvent", w_writeRptExecutableEntityEvent);
  ("writeRptExecutableEntity", w_writeRptExecutableEntity);
  ("writeRptComponent", w_writeRptComponent);
  ("writeRptSupportData", w_writeRptSupportData);
  ("writeImplementationBuildActionManifests", w_writeImplementationBuildActionManifests);
  ("writeCompilers", w_writeCompilers);
  ("writeCompiler", w_writeCompiler);
  ("writeLinkers", w_writeLinkers);
  ("writeLinker", w_writeLinker);
  ("writeDependencyOnArtifacts", w_writeDependencyOnArtifacts);
  ("writeDependencyOnArtifact", w_writeDependencyOnArtifact);
  ("writeImplementationHwElementRefs", w_writeImplementationHwElementRefs);
  ("writeSwcImplementation", w_writeSwcImplementation);
  ("writeEndToEndDescriptionDataIds", w_writeEndToEndDescriptionDataIds);
  ("setEndToEndDescription", w_setEndToEndDescription);
  ("setVariableDataPrototypeInSystemInstanceRef", w_setVariableDataPrototypeInSystemInstanceRef);
  ("writeEndToEndProtectionVariablePrototype", w_writeEndToEndProtectionVariablePrototype);
  ("writeEndToEndProtectionEndToEndProtectionVariablePrototypes", w_writeEndToEndProtectionEndToEndProtectionVariablePrototypes);
  ("writeEndToEndProtectionISignalIPdu", w_writeEndToEndProtectionISignalIPdu);
  ("writeEndToEndProtectionEndToEndProtectionISignalIPdus", w_writeEndToEndProtectionEndToEndProtectionISignalIPdus);
  ("writeEndToEndProtection", w_writeEndToEndProtection);
  ("writeEndToEndProtections", w_writeEndToEndProtections);
  ("writeEndToEndProtectionSet", w_writeEndToEndProtectionSet);
  ("writeAutosarDataPrototype", w_writeAutosarDataPrototype);
  ("writeVariableDataPrototype", w_writeVariableDataPrototype);
  ("writeSenderReceiverInterfaceDataElements", w_writeSenderReceiverInterfaceDataElements);
  ("writeSenderReceiverInterfaceInvalidationPolicies", w_writeSenderReceiverInterfaceInvalidationPolicies);
  ("writeSenderReceiverInterface", w_writeSenderReceiverInterface);
  ("writeBswModuleDescriptionImplementedEntryRefs", w_writeBswModuleDescriptionImplementedEntryRefs);
  ("writeModeDeclarationGroupPrototype", w_writeModeDeclarationGroupPrototype);
  ("writeBswModuleDescriptionProvidedModeGroups", w_writeBswModuleDescriptionProvidedModeGroups);
  ("writeBswModuleDescriptionRequiredModeGroups", w_writeBswModuleDescriptionRequiredModeGroups);
  ("writeActivationReasons", w_writeActivationReasons);
  ("writeExecutableEntityActivationReason", w_writeExecutableEntityActivationReason);
  ("writeCanEnterRefs", w_writeCanEnterRefs);
  ("writeExclusiveAreaNestingOrderRefs", w_writeExclusiveAreaNestingOrderRefs);
  ("writeRunsInsideRefs", w_writeRunsInsideRefs);
  ("writeExecutableEntity", w_writeExecutableEntity);
  ("writeBswModuleEntityManagedModeGroups", w_writeBswModuleEntityManagedModeGroups);
  ("writeBswModuleEntityAccessedModeGroups", w_writeBswModuleEntityAccessedModeGroups);
  ("writeBswVariableAccess", w_writeBswVariableAccess);
  ("writeBswModuleEntityDataSendPoints", w_writeBswModuleEntityDataSendPoints);
  ("writeBswModuleEntityDataReceivePoints", w_writeBswModuleEntityDataReceivePoints);
  ("writeBswModuleEntityIssuedTriggerRefs", w_writeBswModuleEntityIssuedTriggerRefs);
  ("writeBswModuleEntityActivationPointRefs", w_writeBswModuleEntityActivationPointRefs);
  ("writeBswModuleCallPoint", w_writeBswModuleCallPoint);
  ("writeBswAsynchronousServerCallPoint", w_writeBswAsynchronousServerCallPoint);
  ("writeBswSynchronousServerCallPoint", w_writeBswSynchronousServerCallPoint);
  ("writeBswModuleEntityCallPoints", w_writeBswModuleEntityCallPoints);
  ("writeBswModuleEntity", w_writeBswModuleEntity);
  ("writeBswCalledEntity", w_writeBswCalledEntity);
  ("writeBswSchedulableEntity", w_writeBswSchedulableEntity);
  ("setBswInterruptEntity", w_setBswInterruptEntity);
  ("writeBswInternalBehaviorEntities", w_writeBswInternalBehaviorEntities);
  ("writeBswEvent", w_writeBswEvent);
  ("writeBswScheduleEvent", w_writeBswScheduleEvent);
  ("writeBswTimingEvent", w_writeBswTimingEvent);
  ("writeBswBackgroundEvent", w_writeBswBackgroundEvent);
  ("writeBswInternalTriggerOccurredEvent", w_writeBswInternalTriggerOccurredEvent);
  ("writeBswExternalTriggerOccurredEvent", w_writeBswExternalTriggerOccurredEvent);
  ("writeBswDataReceivedEvent", w_writeBswDataReceivedEvent);
  ("writeBswOperationInvokedEvent", w_writeBswOperationInvokedEvent);
  ("writeBswModeSwitchEvent", w_writeBswModeSwitchEvent);
  ("writeBswModeManagerErrorEvent", w_writeBswModeManagerErrorEvent);
  ("writeBswModeSwitchedAckEvent", w_writeBswModeSwitchedAckEvent);
  ("writeBswAsynchronousServerCallReturnsEvent", w_writeBswAsynchronousServerCallReturnsEvent);
  ("writeBswInternalBehaviorEvents", w_writeBswInternalBehaviorEvents);
  ("setBswModeSenderPolicy", w_setBswModeSenderPolicy);
  ("setBswModeSwitchAckRequest", w_setBswModeSwitchAckRequest);
  ("writeBswInternalBehaviorModeSenderPolicy", w_writeBswInternalBehaviorModeSenderPolicy);
  ("writeBswInternalBehaviorIncludedModeDeclarationGroupSets", w_writeBswInternalBehaviorIncludedModeDeclarationGroupSets);
  ("writeBswApiOptions", w_writeBswApiOptions);
  ("writeBswDataReceptionPolicy", w_writeBswDataReceptionPolicy);
  ("writeBswQueuedDataReceptionPolicy", w_writeBswQueuedDataReceptionPolicy);
  ("writeBswInternalBehaviorReceptionPolicies", w_writeBswInternalBehaviorReceptionPolicies);
  ("writeBswInternalTriggeringPoint", w_writeBswInternalTriggeringPoint);
  ("writeBswInternalBehaviorInternalTriggeringPoints", w_writeBswInternalBehaviorInternalTriggeringPoints);
  ("writeBswInternalBehavior", w_writeBswInternalBehavior);
  ("writeBswModuleDescriptionInternalBehaviors", w_writeBswModuleDescriptionInternalBehaviors);
  ("writeTrigger", w_writeTrigger);
  ("writeBswModuleDescriptionReleasedTriggers", w_writeBswModuleDescriptionReleasedTriggers);
  ("writeBswModuleDescriptionRequiredTriggers", w_writeBswModuleDescriptionRequiredTriggers);
  ("writeBswModuleDescriptionProvidedDatas", w_writeBswModuleDescriptionProvidedDatas);
  ("writeBswModuleDescriptionRequiredDatas", w_writeBswModuleDescriptionRequiredDatas);
  ("writeBswModuleClientServerEntry", w_writeBswModuleClientServerEntry);
  ("writeBswModuleDescriptionProvidedClientServerEntries", w_writeBswModuleDescriptionProvidedClientServerEntries);
  ("writeBswModuleDescriptionRequiredClientServerEntries", w_writeBswModuleDescriptionRequiredClientServerEntries);
  ("writeBswModuleDescription", w_writeBswModuleDescription);
  ("writeBswModuleDescriptionExpectedEntryRefs", w_writeBswModuleDescriptionExpectedEntryRefs);
  ("writeBswModuleDescriptionBswModuleDependencies", w_writeBswModuleDescriptionBswModuleDependencies);
  ("writeBswModuleDescriptionBswModuleDocumentation", w_writeBswModuleDescriptionBswModuleDocumentation);
  ("setSwServiceArg", w_setSwServiceArg);
  ("writeBswModuleEntryArguments", w_writeBswModuleEntryArguments);
  ("writeBswModuleEntryReturnType", w_writeBswModuleEntryReturnType);
  ("writeBswModuleEntry", w_writeBswModuleEntry);
  ("setSwcBswRunnableMapping", w_setSwcBswRunnableMapping);
  ("writeSwcBswRunnableMappings", w_writeSwcBswRunnableMappings);
  ("writeSwcBswSynchronizedModeGroupPrototype", w_writeSwcBswSynchronizedModeGroupPrototype);
  ("writeSwcBswSynchronizedModeGroups", w_writeSwcBswSynchronizedModeGroups);
  ("writeSwcBswSynchronizedTrigger", w_writeSwcBswSynchronizedTrigger);
  ("writeSwcBswSynchronizedTriggers", w_writeSwcBswSynchronizedTriggers);
  ("writeSwcBswMapping", w_writeSwcBswMapping);
  ("writeEngineeringObject", w_writeEngineeringObject);
  ("writeAutosarEngineeringObject", w_writeAutosarEngineeringObject);
  ("writeArtifactDescriptor", w_writeArtifactDescriptor);
  ("writeBswImplementationVendorSpecificModuleDefRefs", w_writeBswImplementationVendorSpecificModuleDefRefs);
  ("writeBswImplementationPreconfiguredConfigurationRefs", w_writeBswImplementationPreconfiguredConfigurationRefs);
  ("writeBswImplementationRecommendedConfigurationRefs", w_writeBswImplementationRecommendedConfigurationRefs);
  ("writeBswImplementation", w_writeBswImplementation);
  ("writeAbstractImplementationDataTypeElement", w_writeAbstractImplementationDataTypeElement);
  ("writeImplementationDataTypeElementSubElements", w_writeImplementationDataTypeElementSubElements);
  ("writeImplementationDataTypeElement", w_writeImplementationDataTypeElement);
  ("writeImplementationDataTypeSubElements", w_writeImplementationDataTypeSubElements);
  ("writeImplementationProps", w_writeImplementationProps);
  ("writeSymbolProps", w_writeSymbolProps);
  ("writeImplementationDataTypeSymbolProps", w_writeImplementationDataTypeSymbolProps);
  ("writeImplementationDataType", w_writeImplementationDataType);
  ("writeArgumentDataPrototype", w_writeArgumentDataPrototype);
  ("writeClientServerOperationArguments", w_writeClientServerOperationArguments);
  ("writeClientServerOperationPossibleErrorRefs", w_writeClientServerOperationPossibleErrorRefs);
  ("writeClientServerOperation", w_writeClientServerOperation);
  ("writeClientServerInterfaceOperations", w_writeClientServerInterfaceOperations);
  ("writeApplicationError", w_writeApplicationError);
  ("writePossibleErrors", w_writePossibleErrors);
  ("writePortInterface", w_writePortInterface);
  ("writeDataInterface", w_writeDataInterface);
  ("writeParameterInterface", w_writeParameterInterface);
  ("writeNvDataInterfaceNvDatas", w_writeNvDataInterfaceNvDatas);
  ("writeNvDataInterface", w_writeNvDataInterface);
  ("writeClientServerInterface", w_writeClientServerInterface);
  ("writeApplicationSwComponentType", w_writeApplicationSwComponentType);
  ("writeEcuAbstractionSwComponentType", w_writeEcuAbstractionSwComponentType);
  ("setApplicationArrayElement", w_setApplicationArrayElement);
  ("writeApplicationArrayDataType", w_writeApplicationArrayDataType);
  ("setSwRecordLayoutV", w_setSwRecordLayoutV);
  ("writeSwRecordLayoutGroupSwRecordLayoutGroupContentType", w_writeSwRecordLayoutGroupSwRecordLayoutGroupContentType);
  ("setSwRecordLayoutGroup", w_setSwRecordLayoutGroup);
  ("writeSwRecordLayout", w_writeSwRecordLayout);
  ("writeSwAddrMethod", w_writeSwAddrMethod);
  ("writeTriggerInterface", w_writeTriggerInterface);
  ("writeServiceSwComponentType", w_writeServiceSwComponentType);
  ("writeSensorActuatorSwComponentType", w_writeSensorActuatorSwComponentType);
  ("writeServiceProxySwComponentType", w_writeServiceProxySwComponentType);
  ("writeNvBlockSwComponentType", w_writeNvBlockSwComponentType);
  ("writeDataTypeMaps", w_writeDataTypeMaps);
  ("writeModeRequestTypeMaps", w_writeModeRequestTypeMaps);
  ("writeDataTypeMappingSet", w_writeDataTypeMappingSet);
  ("setModeDeclaration", w_setModeDeclaration);
  ("writeModeDeclarationGroupModeDeclaration", w_writeModeDeclarationGroupModeDeclaration);
  ("writeModeErrorBehavior", w_writeModeErrorBehavior);
  ("writeModeDeclarationGroupModeTransition", w_writeModeDeclarationGroupModeTransition);
  ("writeModeDeclarationGroup", w_writeModeDeclarationGroup);
  ("writeModeSwitchInterfaceModeGroup", w_writeModeSwitchInterfaceModeGroup);
  ("writeModeSwitchInterface", w_writeModeSwitchInterface);
  ("setEOCExecutableEntityRefSuccessorRefs", w_setEOCExecutableEntityRefSuccessorRefs);
  ("writeEOCExecutableEntityRef", w_writeEOCExecutableEntityRef);
  ("writeExecutionOrderConstraintOrderedElement", w_writeExecutionOrderConstraintOrderedElement);
  ("writeExecutionOrderConstraint", w_writeExecutionOrderConstraint);
  ("writeTimingRequirements", w_writeTimingRequirements);
  ("writeTimingExtension", w_writeTimingExtension);
  ("writeSwcTiming", w_writeSwcTiming);
  ("writePduToFrameMappings", w_writePduToFrameMappings);
  ("writeFrame", w_writeFrame);
  ("writeLinUnconditionalFrame", w_writeLinUnconditionalFrame);
  ("writeNmNode", w_writeNmNode);
  ("writeCanNmNode", w_writeCanNmNode);
  ("writeUdpNmNode", w_writeUdpNmNode);
  ("writeJ1939NmNode", w_writeJ1939NmNode);
  ("writeNmClusterNmNodes", w_writeNmClusterNmNodes);
  ("writeCanNmClusterCoupling", w_writeCanNmClusterCoupling);
  ("writeUdpNmClusterCoupling", w_writeUdpNmClusterCoupling);
  ("writeNmConfigNmClusterCouplings", w_writeNmConfigNmClusterCouplings);
  ("writeNmCluster", w_writeNmCluster);
  ("writeCanNmCluster", w_writeCanNmCluster);
  ("writeUdpNmCluster", w_writeUdpNmCluster);
  ("writeNmConfigNmClusters", w_writeNmConfigNmClusters);
  ("writeUdpNmEcu", w_writeUdpNmEcu);
  ("writeBusDependentNmEcus", w_writeBusDependentNmEcus);
  ("writeNmEcu", w_writeNmEcu);
  ("writeNmConfigNmIfEcus", w_writeNmConfigNmIfEcus);
  ("writeNmConfig", w_writeNmConfig);
  ("writeISignalToIPduMapping", w_writeISignalToIPduMapping);
  ("writeNmPduISignalToIPduMappings", w_writeNmPduISignalToIPduMappings);
  ("writeNmPdu", w_writeNmPdu);
  ("writeNPdu", w_writeNPdu);
  ("writeDcmIPdu", w_writeDcmIPdu);
  ("setSecureCommunicationProps", w_setSecureCommunicationProps);
  ("writeSecuredIPdu", w_writeSecuredIPdu);
  ("writeTpConfig", w_writeTpConfig);
  ("writeCanTpAddress", w_writeCanTpAddress);
  ("writeCanTpConfigTpAddresses", w_writeCanTpConfigTpAddresses);
  ("writeCanTpChannel", w_writeCanTpChannel);
  ("writeCanTpConfigTpChannels", w_writeCanTpConfigTpChannels);
  ("writeTpConnection", w_writeTpConnection);
  ("writeTpConnectionReceiverRefs", w_writeTpConnectionReceiverRefs);
  ("writeCanTpConnection", w_writeCanTpConnection);
  ("writeCanTpConfigTpConnections", w_writeCanTpConfigTpConnections);
  ("writeCanTpEcu", w_writeCanTpEcu);
  ("writeCanTpConfigTpEcus", w_writeCanTpConfigTpEcus);
  ("writeCanTpNode", w_writeCanTpNode);
  ("writeCanTpConfigTpNodes", w_writeCanTpConfigTpNodes);
  ("writeCanTpConfig", w_writeCanTpConfig);
  ("writeTpAddress", w_writeTpAddress);
  ("writeLinTpConfigTpAddresses", w_writeLinTpConfigTpAddresses);
  ("writeLinTpConnection", w_writeLinTpConnection);
  ("writeLinTpConfigTpConnections", w_writeLinTpConfigTpConnections);
  ("writeLinTpNode", w_writeLinTpNode);
  ("writeLinTpConfigTpNodes", w_writeLinTpConfigTpNodes);
  ("writeLinTpConfig", w_writeLinTpConfig);
  ("writeFrameTriggering", w_writeFrameTriggering);
  ("writeCanFrameTriggering", w_writeCanFrameTriggering);
  ("writeLinFrameTriggering", w_writeLinFrameTriggering);
  ("writeCommunicationCycle", w_writeCommunicationCycle);
  ("writeCycleRepetition", w_writeCycleRepetition);
  ("writeFlexrayAbsolutelyScheduledTimingCommunicationCycle", w_writeFlexrayAbsolutelyScheduledTimingCommunicationCycle);
  ("writeFlexrayAbsolutelyScheduledTiming", w_writeFlexrayAbsolutelyScheduledTiming);
  ("writeFlexrayFrameTriggeringAbsolutelyScheduledTimings", w_writeFlexrayFrameTriggeringAbsolutelyScheduledTimings);
  ("writeFlexrayFrameTriggering", w_writeFlexrayFrameTriggering);
  ("writeISignalTriggering", w_writeISignalTriggering);
  ("writePduTriggering", w_writePduTriggering);
  ("writePhysicalChannelCommConnectorRefs", w_writePhysicalChannelCommConnectorRefs);
  ("writePhysicalChannelFrameTriggerings", w_writePhysicalChannelFrameTriggerings);
  ("writePhysicalChannelISignalTriggerings", w_writePhysicalChannelISignalTriggerings);
  ("writePhysicalChannelPduTriggerings", w_writePhysicalChannelPduTriggerings);
  ("writePhysicalChannel", w_writePhysicalChannel);
  ("writeCanPhysicalChannel", w_writeCanPhysicalChannel);
  ("writeScheduleTableEntry", w_writeScheduleTableEntry);
  ("setApplicationEntry", w_setApplicationEntry);
  ("writeLinScheduleTableTableEntries", w_writeLinScheduleTableTableEntries);
  ("writeLinScheduleTable", w_writeLinScheduleTable);
  ("writeLinPhysicalChannelScheduleTables", w_writeLinPhysicalChannelScheduleTables);
  ("writeLinPhysicalChannel", w_writeLinPhysicalChannel);
  ("setIpv6Configuration", w_setIpv6Configuration);
  ("writeNetworkEndPointNetworkEndPointAddresses", w_writeNetworkEndPointNetworkEndPointAddresses);
  ("setDoIpEntity", w_setDoIpEntity);
  ("setInfrastructureServices", w_setInfrastructureServices);
  ("writeNetworkEndPoint", w_writeNetworkEndPoint);
  ("writeEthernetPhysicalChannelNetworkEndPoints", w_writeEthernetPhysicalChannelNetworkEndPoints);
  ("setSocketConnectionIpduIdentifier", w_setSocketConnectionIpduIdentifier);
  ("setSocketConnectionPdus", w_setSocketConnectionPdus);
  ("setSocketConnection", w_setSocketConnection);
  ("writeSocketConnectionBundleConnections", w_writeSocketConnectionBundleConnections);
  ("writeSocketConnectionBundle", w_writeSocketConnectionBundle);
  ("writeSoAdConfigConnectionBundles", w_writeSoAdConfigConnectionBundles);
  ("setTpPort", w_setTpPort);
  ("writeUdpTp", w_writeUdpTp);
  ("writeTcpTp", w_writeTcpTp);
  ("writeGenericTp", w_writeGenericTp);
  ("writeTransportProtocolConfiguration", w_writeTransportProtocolConfiguration);
  ("writeConsumedEventGroupRoutingGroupRefs", w_writeConsumedEventGroupRoutingGroupRefs);
  ("setRequestResponseDelay", w_setRequestResponseDelay);
  ("setSdClientConfig", w_setSdClientConfig);
  ("writeConsumedEventGroup", w_writeConsumedEventGroup);
  ("writeConsumedServiceInstanceConsumedEventGroups", w_writeConsumedServiceInstanceConsumedEventGroups);
  ("writeConsumedServiceInstance", w_writeConsumedServiceInstance);
  ("writeSocketAddressApplicationEndpointConsumedServiceInstances", w_writeSocketAddressApplicationEndpointConsumedServiceInstances);
  ("setInitialSdDelayConfig", w_setInitialSdDelayConfig);
  ("setSdServerConfig", w_setSdServerConfig);
  ("writeEventHandler", w_writeEventHandler);
  ("writeProvidedServiceInstanceEventHandlers", w_writeProvidedServiceInstanceEventHandlers);
  ("writeProvidedServiceInstance", w_writeProvidedServiceInstance);
  ("writeSocketAddressApplicationEndpointProvidedServiceInstance", w_writeSocketAddressApplicationEndpointProvidedServiceInstance);
  ("writeSocketAddressApplicationEndpoint", w_writeSocketAddressApplicationEndpoint);
  ("writeSocketAddressMulticastConnectorRefs", w_writeSocketAddressMulticastConnectorRefs);
  ("writeSocketAddress", w_writeSocketAddress);
  ("writeSoAdConfigSocketAddresses", w_writeSoAdConfigSocketAddresses);
  ("writeSoAdConfig", w_writeSoAdConfig);
  ("writeEthernetPhysicalChannelVlan", w_writeEthernetPhysicalChannelVlan);
  ("writeEthernetPhysicalChannel", w_writeEthernetPhysicalChannel);
  ("writeFlexrayPhysicalChannel", w_writeFlexrayPhysicalChannel);
  ("writeCommunicationClusterPhysicalChannels", w_writeCommunicationClusterPhysicalChannels);
  ("writeCommunicationCluster", w_writeCommunicationCluster);
  ("setCanClusterBusOffRecovery", w_setCanClusterBusOffRecovery);
  ("writeAbstractCanCluster", w_writeAbstractCanCluster);
  ("writeLinCluster", w_writeLinCluster);
  ("writeCanCluster", w_writeCanCluster);
  ("writeFlexrayCluster", w_writeFlexrayCluster);
  ("writeCollectionElementRefs", w_writeCollectionElementRefs);
  ("writeCollectionSourceElementRefs", w_writeCollectionSourceElementRefs);
  ("writeCollection", w_writeCollection);
  ("writeKeywordClassifications", w_writeKeywordClassifications);
  ("writeKeyword", w_writeKeyword);
  ("writeKeywordSetKeywords", w_writeKeywordSetKeywords);
  ("writeKeywordSet", w_writeKeywordSet);
  ("writePortPrototypeBlueprint", w_writePortPrototypeBlueprint);
  ("writeModeDeclarationMappingFirstModeRefs", w_writeModeDeclarationMappingFirstModeRefs);
  ("writeModeDeclarationMapping", w_writeModeDeclarationMapping);
  ("writeModeDeclarationMappingSetModeDeclarationMappings", w_writeModeDeclarationMappingSetModeDeclarationMappings);
  ("writeModeDeclarationMappingSet", w_writeModeDeclarationMappingSet);
  ("writeEcucDefinitionElement", w_writeEcucDefinitionElement);
  ("writeEcucModuleDefSupportedConfigVariants", w_writeEcucModuleDefSupportedConfigVariants);
  ("writeEcucAbstractConfigurationClass", w_writeEcucAbstractConfigurationClass);
  ("writeEcucMultiplicityConfigurationClass", w_writeEcucMultiplicityConfigurationClass);
  ("setEcucMultiplicityConfigClasses", w_setEcucMultiplicityConfigClasses);
  ("writeEcucValueConfigurationClass", w_writeEcucValueConfigurationClass);
  ("setEcuValueConfigurationClasses", w_setEcuValueConfigurationClasses);
  ("writeEcucCommonAttributes", w_writeEcucCommonAttributes);
  ("writeEcucParameterDef", w_writeEcucParameterDef);
  ("writeEcucDerivationSpecification", w_writeEcucDerivationSpecification);
  ("writeEcucParameterDerivationFormula", w_writeEcucParameterDerivationFormula);
  ("writeEcucConditionFormula", w_writeEcucConditionFormula);
  ("writeEcucConditionSpecification", w_writeEcucConditionSpecification);
  ("writeEcucValidationCondition", w_writeEcucValidationCondition);
  ("writeEcucValidationConditions", w_writeEcucValidationConditions);
  ("writeEcucQuery", w_writeEcucQuery);
  ("writeEcucBooleanParamDef", w_writeEcucBooleanParamDef);
  ("writeEcucAbstractStringParamDef", w_writeEcucAbstractStringParamDef);
  ("writeEcucStringParamDef", w_writeEcucStringParamDef);
  ("writeEcucIntegerParamDef", w_writeEcucIntegerParamDef);
  ("writeEcucFloatParamDef", w_writeEcucFloatParamDef);
  ("writeEcucEnumerationLiteralDef", w_writeEcucEnumerationLiteralDef);
  ("writeEcucEnumerationParamDefLiterals", w_writeEcucEnumerationParamDefLiterals);
  ("writeEcucEnumerationParamDef", w_writeEcucEnumerationParamDef);
  ("writeEcucFunctionNameDef", w_writeEcucFunctionNameDef);
  ("writeEcucMultilineStringParamDef", w_writeEcucMultilineStringParamDef);
  ("writeEcucContainerDefParameters", w_writeEcucContainerDefParameters);
  ("writeEcucContainerDef", w_writeEcucContainerDef);
  ("setEcucDestinationUriRefs", w_setEcucDestinationUriRefs);
  ("writeEcucAbstractReferenceDef", w_writeEcucAbstractReferenceDef);
  ("writeEcucAbstractInternalReferenceDef", w_writeEcucAbstractInternalReferenceDef);
  ("writeEcucAbstractExternalReferenceDef", w_writeEcucAbstractExternalReferenceDef);
  ("writeEcucSymbolicNameReferenceDef", w_writeEcucSymbolicNameReferenceDef);
  ("writeEcucReferenceDef", w_writeEcucReferenceDef);
  ("writeEcucChoiceReferenceDef", w_writeEcucChoiceReferenceDef);
  ("writeEcucInstanceReferenceDef", w_writeEcucInstanceReferenceDef);
  ("writeEcucContainerDefReferences", w_writeEcucContainerDefReferences);
  ("writeEcucContainerDefSubContainers", w_writeEcucContainerDefSubContainers);
  ("writeEcucParamConfContainerDef", w_writeEcucParamConfContainerDef);
  ("writeEcucChoiceContainerDefChoices", w_writeEcucChoiceContainerDefChoices);
  ("writeEcucChoiceContainerDef", w_writeEcucChoiceContainerDef);
  ("writeEcucModuleDefContainers", w_writeEcucModuleDefContainers);
  ("writeEcucModuleDef", w_writeEcucModuleDef);
  ("writeEcucDefinitionCollectionModuleRefs", w_writeEcucDefinitionCollectionModuleRefs);
  ("writeEcucDefinitionCollection", w_writeEcucDefinitionCollection);
  ("writeEcucDestinationUriDefSet", w_writeEcucDestinationUriDefSet);
  ("writeEcucDestinationUriDef", w_writeEcucDestinationUriDef);
  ("writeEcucDestinationUriPolicy", w_writeEcucDestinationUriPolicy);
  ("writeEcucDestinationUriPolicyParameters", w_writeEcucDestinationUriPolicyParameters);
  ("writeEcucDestinationUriPolicyReferences", w_writeEcucDestinationUriPolicyReferences);
  ("writeMacMulticastGroup", w_writeMacMulticastGroup);
  ("writeEthernetClusterMacMulticastGroups", w_writeEthernetClusterMacMulticastGroups);
  ("writeEthernetCluster", w_writeEthernetCluster);
  ("writeCanFrame", w_writeCanFrame);
  ("writeCommConnectorPort", w_writeCommConnectorPort);
  ("writeFramePort", w_writeFramePort);
  ("writeIPduPort", w_writeIPduPort);
  ("writeISignalPort", w_writeISignalPort);
  ("writeCommunicationConnectorEcuCommPortInstances", w_writeCommunicationConnectorEcuCommPortInstances);
  ("writeCommunicationController", w_writeCommunicationController);
  ("setCanControllerFdConfiguration", w_setCanControllerFdConfiguration);
  ("setFlexrayFifoRange", w_setFlexrayFifoRange);
  ("setFlexrayFifoConfiguration", w_setFlexrayFifoConfiguration);
  ("setCanControllerFdConfigurationRequirements", w_setCanControllerFdConfigurationRequirements);
  ("setCanControllerXlConfiguration", w_setCanControllerXlConfiguration);
  ("setCanControllerXlConfigurationRequirements", w_setCanControllerXlConfigurationRequirements);
  ("writeAbstractCanCommunicationControllerAttributes", w_writeAbstractCanCommunicationControllerAttributes);
  ("writeCanControllerConfigurationRequirements", w_writeCanControllerConfigurationRequirements);
  ("writeAbstractCanCommunicationControllerCanControllerAttributes", w_writeAbstractCanCommunicationControllerCanControllerAttributes);
  ("writeAbstractCanCommunicationController", w_writeAbstractCanCommunicationController);
  ("writeCanCommunicationController", w_writeCanCommunicationController);
  ("writeCouplingPortSchedulerCouplingPortStructuralElement", w_writeCouplingPortSchedulerCouplingPortStructuralElement);
  ("writeCouplingPortFifo", w_writeCouplingPortFifo);
  ("writeCouplingPortScheduler", w_writeCouplingPortScheduler);
  ("writeCouplingPortDetailsCouplingPortStructuralElements", w_writeCouplingPortDetailsCouplingPortStructuralElements);
  ("writeEthernetPriorityRegeneration", w_writeEthernetPriorityRegeneration);
  ("writeCouplingPortDetailsEthernetPriorityRegenerations", w_writeCouplingPortDetailsEthernetPriorityRegenerations);
  ("setCouplingPortDetails", w_setCouplingPortDetails);
  ("writeVlanMembership", w_writeVlanMembership);
  ("writeCouplingPortVlanMemberships", w_writeCouplingPortVlanMemberships);
  ("writeCouplingPort", w_writeCouplingPort);
  ("writeEthernetCommunicationControllerCouplingPorts", w_writeEthernetCommunicationControllerCouplingPorts);
  ("writeEthernetCommunicationController", w_writeEthernetCommunicationController);
  ("writeEcuInstanceCommControllers", w_writeEcuInstanceCommControllers);
  ("writeCommunicationConnector", w_writeCommunicationConnector);
  ("writeCanCommunicationConnector", w_writeCanCommunicationConnector);
  ("writeEthernetCommunicationConnectorNetworkEndpointRefs", w_writeEthernetCommunicationConnectorNetworkEndpointRefs);
  ("writeEthernetCommunicationConnector", w_writeEthernetCommunicationConnector);
  ("writeLinCommunicationConnector", w_writeLinCommunicationConnector);
  ("writeFlexrayCommunicationConnector", w_writeFlexrayCommunicationConnector);
  ("writeEcuInstanceConnectors", w_writeEcuInstanceConnectors);
  ("writeEcuInstanceAssociatedComIPduGroupRefs", w_writeEcuInstanceAssociatedComIPduGroupRefs);
  ("writeEcuInstanceAssociatedConsumedProvidedServiceInstanceGroupRefs", w_writeEcuInstanceAssociatedConsumedProvidedServiceInstanceGroupRefs);
  ("writeEcuInstanceAssociatedPdurIPduGroupRefs", w_writeEcuInstanceAssociatedPdurIPduGroupRefs);
  ("writeEcuInstanceEcuTaskProxyRefs", w_writeEcuInstanceEcuTaskProxyRefs);
  ("writeEcuInstanceFirewallRuleRefs", w_writeEcuInstanceFirewallRuleRefs);
  ("writeEcuInstance", w_writeEcuInstance);
  ("writeSystemSignalGroup", w_writeSystemSignalGroup);
  ("writeSenderReceiverToSignalMapping", w_writeSenderReceiverToSignalMapping);
  ("writeSenderRecCompositeTypeMapping", w_writeSenderRecCompositeTypeMapping);
  ("writeSenderRecRecordElementMapping", w_writeSenderRecRecordElementMapping);
  ("writeSenderRecArrayTypeMappingRecordElementMapping", w_writeSenderRecArrayTypeMappingRecordElementMapping);
  ("writeSenderRecRecordTypeMapping", w_writeSenderRecRecordTypeMapping);
  ("writeSenderReceiverToSignalGroupMappingTypeMapping", w_writeSenderReceiverToSignalGroupMappingTypeMapping);
  ("writeSenderReceiverToSignalGroupMapping", w_writeSenderReceiverToSignalGroupMapping);
  ("writeSystemMappingDataMappings", w_writeSystemMappingDataMappings);
  ("setSwcToEcuMapping", w_setSwcToEcuMapping);
  ("writeSystemMappingSwMappings", w_writeSystemMappingSwMappings);
  ("writeEcuMapping", w_writeEcuMapping);
  ("writeSystemMappingEcuResourceMappings", w_writeSystemMappingEcuResourceMappings);
  ("writeSwcToImplMapping", w_writeSwcToImplMapping);
  ("writeSystemMappingSwImplMappings", w_writeSystemMappingSwImplMappings);
  ("writeSystemMapping", w_writeSystemMapping);
  ("writeSystemMappings", w_writeSystemMappings);
  ("writeRootSwCompositionPrototype", w_writeRootSwCompositionPrototype);
  ("writeSystemFibexElementRefs", w_writeSystemFibexElementRefs);
  ("writeSystem", w_writeSystem);
  ("writePhysicalDimension", w_writePhysicalDimension);
  ("setFlatInstanceDescriptor", w_setFlatInstanceDescriptor);
  ("writeFlatMapInstances", w_writeFlatMapInstances);
  ("writeFlatMap", w_writeFlatMap);
  ("setDataPrototypeMapping", w_setDataPrototypeMapping);
  ("setSubElementMapping", w_setSubElementMapping);
  ("setTextTableMapping", w_setTextTableMapping);
  ("setDataPrototypeMappings", w_setDataPrototypeMappings);
  ("writeVariableAndParameterInterfaceMapping", w_writeVariableAndParameterInterfaceMapping);
  ("writeClientServerOperationMapping", w_writeClientServerOperationMapping);
  ("writeClientServerInterfaceMappingOperationMappings", w_writeClientServerInterfaceMappingOperationMappings);
  ("writeClientServerInterfaceMapping", w_writeClientServerInterfaceMapping);
  ("writeModeInterfaceMappingModeMapping", w_writeModeInterfaceMappingModeMapping);
  ("writeModeInterfaceMapping", w_writeModeInterfaceMapping);
  ("writePortInterfaceMappings", w_writePortInterfaceMappings);
  ("writePortInterfaceMappingSet", w_writePortInterfaceMappingSet);
  ("setISignalMappings", w_setISignalMappings);
  ("setTargetIPduRef", w_setTargetIPduRef);
  ("setIPduMappings", w_setIPduMappings);
  ("writeGateway", w_writeGateway);
  ("writeISignal", w_writeISignal);
  ("writeISignalProps", w_writeISignalProps);
  ("writeISignalDataTransformation", w_writeISignalDataTransformation);
  ("writeISignalTransformationISignalProps", w_writeISignalTransformationISignalProps);
  ("writeEcucValueCollectionEcucValues", w_writeEcucValueCollectionEcucValues);
  ("writeEcucValueCollection", w_writeEcucValueCollection);
  ("writeEcucContainerValueSubContainers", w_writeEcucContainerValueSubContainers);
  ("writeEcucParameterValue", w_writeEcucParameterValue);
  ("setEcucTextualParamValue", w_setEcucTextualParamValue);
  ("setEcucNumericalParamValue", w_setEcucNumericalParamValue);
  ("writeEcucContainerValueParameterValues", w_writeEcucContainerValueParameterValues);
  ("writeEcucAbstractReferenceValue", w_writeEcucAbstractReferenceValue);
  ("setEcucReferenceValue", w_setEcucReferenceValue);
  ("setAnyInstanceRef", w_setAnyInstanceRef);
  ("setEcucInstanceReferenceValue", w_setEcucInstanceReferenceValue);
  ("writeEcucContainerValueReferenceValues", w_writeEcucContainerValueReferenceValues);
  ("writeEcucContainValue", w_writeEcucContainValue);
  ("writeEcucModuleConfigurationValuesContainers", w_writeEcucModuleConfigurationValuesContainers);
  ("writeEcucModuleConfigurationValues", w_writeEcucModuleConfigurationValues);
  ("writeSwSystemconst", w_writeSwSystemconst);
  ("writeSwSystemconstValue", w_writeSwSystemconstValue);
  ("writeSwSystemconstantValueSetSwSystemconstantValues", w_writeSwSystemconstantValueSetSwSystemconstantValues);
  ("writeSwSystemconstantValueSet", w_writeSwSystemconstantValueSet);
  ("writePredefinedVariantIncludedVariantRefs", w_writePredefinedVariantIncludedVariantRefs);
  ("writePredefinedVariantPostBuildVariantCriterionValueSetRefs", w_writePredefinedVariantPostBuildVariantCriterionValueSetRefs);
  ("writePredefinedVariantSwSystemconstantValueSetRefs", w_writePredefinedVariantSwSystemconstantValueSetRefs);
  ("writePredefinedVariant", w_writePredefinedVariant);
  ("writePostBuildVariantCriterion", w_writePostBuildVariantCriterion);
  ("writeISignalGroupISignalRef", w_writeISignalGroupISignalRef);
  ("writeISignalGroupComBasedSignalGroupTransformation", w_writeISignalGroupComBasedSignalGroupTransformation);
  ("writeTransformationISignalProps", w_writeTransformationISignalProps);
  ("writeDataPrototypeInPortInterfaceRef", w_writeDataPrototypeInPortInterfaceRef);
  ("writeDataPrototypeInSenderReceiverInterfaceInstanceRef", w_writeDataPrototypeInSenderReceiverInterfaceInstanceRef);
  ("writeDataPrototypeInClientServerInterfaceInstanceRef", w_writeDataPrototypeInClientServerInterfaceInstanceRef);
  ("writeDataPrototypeTransformationProps", w_writeDataPrototypeTransformationProps);
  ("writeEndToEndTransformationISignalPropsDataIds", w_writeEndToEndTransformationISignalPropsDataIds);
  ("writeEndToEndTransformationISignalProps", w_writeEndToEndTransformationISignalProps);
  ("writeISignalGroupTransformationISignalProps", w_writeISignalGroupTransformationISignalProps);
  ("writeISignalGroup", w_writeISignalGroup);
  ("writeISignalIPduGroup", w_writeISignalIPduGroup);
  ("writeSystemSignal", w_writeSystemSignal);
  ("writeSignalServiceTranslationPropsSet", w_writeSignalServiceTranslationPropsSet);
  ("writeSignalServiceTranslationProps", w_writeSignalServiceTranslationProps);
  ("writeSignalServiceTranslationEventProps", w_writeSignalServiceTranslationEventProps);
  ("writeSignalServiceTranslationElementProps", w_writeSignalServiceTranslationElementProps);
  ("writeGenericEthernetFrame", w_writeGenericEthernetFrame);
  ("setLifeCyclePeriod", w_setLifeCyclePeriod);
  ("writeLifeCycleInfoUseInsteadRefs", w_writeLifeCycleInfoUseInsteadRefs);
  ("writeLifeCycleInfo", w_writeLifeCycleInfo);
  ("writeLifeCycleInfoSetLifeCycleInfos", w_writeLifeCycleInfoSetLifeCycleInfos);
  ("writeLifeCycleInfoSet", w_writeLifeCycleInfoSet);
  ("writeDiagnosticConnectionFunctionalRequestRefs", w_writeDiagnosticConnectionFunctionalRequestRefs);
  ("writeDiagnosticConnection", w_writeDiagnosticConnection);
  ("writeDiagnosticServiceTableDiagnosticConnectionRefs", w_writeDiagnosticServiceTableDiagnosticConnectionRefs);
  ("writeDiagnosticServiceTable", w_writeDiagnosticServiceTable);
  ("writePdu", w_writePdu);
  ("writeContainedIPduProps", w_writeContainedIPduProps);
  ("writeIPdu", w_writeIPdu);
  ("writeSegmentPosition", w_writeSegmentPosition);
  ("writeMultiplexedPartSegmentPositions", w_writeMultiplexedPartSegmentPositions);
  ("writeMultiplexedPart", w_writeMultiplexedPart);
  ("writeDynamicPartAlternative", w_writeDynamicPartAlternative);
  ("writeDynamicPartDynamicPartAlternatives", w_writeDynamicPartDynamicPartAlternatives);
  ("writeDynamicPart", w_writeDynamicPart);
  ("writeMultiplexedIPduDynamicParts", w_writeMultiplexedIPduDynamicParts);
  ("writeStaticPart", w_writeStaticPart);
  ("writeMultiplexedIPduStaticParts", w_writeMultiplexedIPduStaticParts);
  ("writeMultiplexedIPdu", w_writeMultiplexedIPdu);
  ("writeUserDefinedIPdu", w_writeUserDefinedIPdu);
  ("writeUserDefinedPdu", w_writeUserDefinedPdu);
  ("writeGeneralPurposePdu", w_writeGeneralPurposePdu);
  ("writeGeneralPurposeIPdu", w_writeGeneralPurposeIPdu);
  ("writeSecureCommunicationAuthenticationProps", w_writeSecureCommunicationAuthenticationProps);
  ("writeSecureCommunicationPropsSetAuthenticationProps", w_writeSecureCommunicationPropsSetAuthenticationProps);
  ("writeSecureCommunicationFreshnessProps", w_writeSecureCommunicationFreshnessProps);
  ("writeSecureCommunicationPropsSetFreshnessProps", w_writeSecureCommunicationPropsSetFreshnessProps);
  ("writeSecureCommunicationPropsSet", w_writeSecureCommunicationPropsSet);
  ("writeSoAdRoutingGroup", w_writeSoAdRoutingGroup);
  ("writeDoIpLogicAddress", w_writeDoIpLogicAddress);
  ("writeDoIpTpConfigDoIpLogicAddresses", w_writeDoIpTpConfigDoIpLogicAddresses);
  ("writeDoIpTpConnection", w_writeDoIpTpConnection);
  ("writeDoIpTpConfigTpConnections", w_writeDoIpTpConfigTpConnections);
  ("writeDoIpTpConfig", w_writeDoIpTpConfig);
  ("writeHwDescriptionEntityHwCategoryRefs", w_writeHwDescriptionEntityHwCategoryRefs);
  ("writeHwAttributeValue", w_writeHwAttributeValue);
  ("writeHwDescriptionEntityHwAttributeValues", w_writeHwDescriptionEntityHwAttributeValues);
  ("writeHwDescriptionEntity", w_writeHwDescriptionEntity);
  ("writeHwPinGroup", w_writeHwPinGroup);
  ("writeHwPin", w_writeHwPin);
  ("writeHwElementHwPinGroups", w_writeHwElementHwPinGroups);
  ("writeHwPinConnector", w_writeHwPinConnector);
  ("writeHwPinGroupConnector", w_writeHwPinGroupConnector);
  ("writeHwElementConnector", w_writeHwElementConnector);
  ("writeHwElementHwElementConnections", w_writeHwElementHwElementConnections);
  ("writeHwElementHwNestedElementRefs", w_writeHwElementHwNestedElementRefs);
  ("writeHwElement", w_writeHwElement);
  ("writeHwAttributeDef", w_writeHwAttributeDef);
  ("writeHwAttributeDefHwAttributeLiterals", w_writeHwAttributeDefHwAttributeLiterals);
  ("writeHwAttributeLiteralDef", w_writeHwAttributeLiteralDef);
  ("writeHwCategoryHwAttributeDef", w_writeHwCategoryHwAttributeDef);
  ("writeHwCategory", w_writeHwCategory);
  ("writeHwType", w_writeHwType);
  ("writeLinCommunicationController", w_writeLinCommunicationController);
  ("writeLinMaster", w_writeLinMaster);
  ("writeISignalToPduMappings", w_writeISignalToPduMappings);
  ("setDataFilter", w_setDataFilter);
  ("setTransmissionModeConditions", w_setTransmissionModeConditions);
  ("setTimeRangeType", w_setTimeRangeType);
  ("setEventControlledTiming", w_setEventControlledTiming);
  ("setCyclicTiming", w_setCyclicTiming);
  ("setTransmissionModeTiming", w_setTransmissionModeTiming);
  ("setTransmissionModeDeclaration", w_setTransmissionModeDeclaration);
  ("setISignalIPduIPduTimingSpecification", w_setISignalIPduIPduTimingSpecification);
  ("writeISignalIPdu", w_writeISignalIPdu);
  ("writeFlexrayFrame", w_writeFlexrayFrame);
  ("writeFlexrayCommunicationController", w_writeFlexrayCommunicationController);
  ("writeDataTransformationTransformerChainRefs", w_writeDataTransformationTransformerChainRefs);
  ("writeDataTransformation", w_writeDataTransformation);
  ("writeDataTransformationSetDataTransformations", w_writeDataTransformationSetDataTransformations);
  ("writeDataTransformationSetTransformationTechnologies", w_writeDataTransformationSetTransformationTechnologies);
  ("setBufferProperties", w_setBufferProperties);
  ("writeDescribable", w_writeDescribable);
  ("writeTransformationDescription", w_writeTransformationDescription);
  ("writeEndToEndTransformationDescription", w_writeEndToEndTransformationDescription);
  ("writeTransformationTechnologyTransformationDescriptions", w_writeTransformationTechnologyTransformationDescriptions);
  ("writeTransformationTechnology", w_writeTransformationTechnology);
  ("writeDataTransformationSet", w_writeDataTransformationSet);
  ("writeE2EProfileCompatibilityProps", w_writeE2EProfileCompatibilityProps);
  ("writeARPackageElement", w_writeARPackageElement);
  ("writeReferenceBases", w_writeReferenceBases);
  ("writeMcFunction", w_writeMcFunction);
  ("writeMcFunctionDataRefSet", w_writeMcFunctionDataRefSet);
  ("writeMcGroup", w_writeMcGroup);
  ("writeMcGroupDataRefSet", w_writeMcGroupDataRefSet);
  ("writeARPackage", w_writeARPackage);
  ("writeARPackageElements", w_writeARPackageElements);
  ("writeARPackages", w_writeARPackages)].
