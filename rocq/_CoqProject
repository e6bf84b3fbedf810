-Q theories Verif
theories/PyBase.v
theories/PyBaseFacts.v
theories/Primitives.v
theories/SpecNum.v
theories/FloatFacts.v
theories/PrimitivesFacts.v
theories/NumFacts.v
theories/NumProps.v
theories/Prop_Num.v
theories/ClassTable.v
theories/Collection.v
theories/SpecCollection.v
theories/CollectionFacts.v
theories/ObjHeap.v
theories/Creators.v
theories/SpecHeap.v
theories/HeapFacts.v
theories/CollProps.v
theories/Prop_Collection.v
theories/CreatorFacts.v
theories/SpecCreators.v
theories/SpecCreate.v
theories/CreatorProps.v
theories/HeapProps.v
theories/Prop_Heap.v
theories/Doc.v
theories/SpecDoc.v
theories/DocProps.v
theories/Tools.v
theories/SpecTools.v
theories/ToolsProps.v
theories/Prop_Doc.v
theories/Prop_Tools.v
theories/Composition.v
theories/SpecComposition.v
theories/CompositionProps.v
theories/Prop_Composition.v
theories/Xml.v
theories/Leaf.v
theories/SpecLeaf.v
theories/XmlFacts.v
theories/LeafProps.v
theories/Prop_Leaf.v
theories/Ir.v
theories/Access.v
theories/WriterCode.v
theories/ReaderCode.v
theories/IrSem.v
theories/SetterTable.v
theories/Setters.v
theories/SpecSetters.v
theories/MroTable.v
theories/SetterProps.v
theories/Prop_Setters.v
theories/IrFacts.v
theories/Domain.v
theories/SpecDomain.v
theories/IrCheck.v
theories/IrEq.v
theories/IrClosure.v
theories/IrGo.v
theories/IrLeaf.v
theories/IrWrite.v
theories/IrLocate.v
theories/IrItems.v
theories/IrMix.v
theories/IrActs.v
theories/IrRead.v
theories/IrEntry.v
theories/IrEntries.v
theories/SpecRoundTrip.v
theories/RoundTripParts.v
theories/RoundTripProps.v
theories/RoundTripElems.v
theories/RoundTripRead.v
theories/RoundTripTags.v
theories/RoundTripLoss.v
theories/Samples.v
theories/RoundTripCases.v
theories/Prop_RoundTrip.v
theories/SpecTolerant.v
theories/Tolerant.v
theories/Modes.v
theories/TolerantCases.v
theories/Prop_Tolerant.v
theories/Serial.v
theories/SpecSerial.v
theories/SerialFacts.v
theories/SerialExpand.v
theories/SerialPatch.v
theories/SerialCases.v
theories/Prop_Serial.v
theories/Merge.v
theories/SpecMerge.v
theories/MergeFacts.v
theories/MergeProps.v
theories/Prop_Merge.v
theories/SpecOrder.v
theories/Order.v
theories/OrderCases.v
theories/Prop_Order.v
theories/SpecFile.v
theories/File.v
theories/FileCases.v
theories/Prop_File.v
theories/ObjectTable.v
theories/Objects.v
theories/SpecObjects.v
theories/ObjectProps.v
theories/Prop_Objects.v
theories/Format.v
theories/SpecFormat.v
theories/FormatProps.v
theories/FormatCases.v
theories/Prop_Format.v
theories/AttrProps.v
theories/Prop_Attrs.v
theories/Dump.v
theories/SpecDump.v
theories/DumpProps.v
theories/Prop_Dump.v
theories/Report.v
theories/SpecReport.v
theories/ReportProps.v
theories/Prop_Report.v
theories/Sheet.v
theories/SpecSheet.v
theories/SheetProps.v
theories/Prop_Sheet.v
theories/Trie.v
theories/TypeCheck.v
theories/TypeFacts.v
theories/TypeReader.v
theories/TypeWriter.v
theories/TypeTable.v
theories/TypeRun.v
theories/Term.v
theories/TermWriter.v
theories/SpecRun.v
theories/TypeProps.v
theories/RunCases.v
theories/Prop_Run.v
theories/ArxmlFormat.v
theories/SpecPipeline.v
theories/PipelineProps.v
theories/PipelineCases.v
theories/Prop_Pipeline.v
theories/Locate.v
theories/SpecLocate.v
theories/LocateCheck.v
theories/LocateProps.v
theories/LocateCases.v
theories/Prop_Locate.v
theories/SpecKeep.v
theories/Keep.v
theories/KeepProps.v
theories/KeepCheck.v
theories/KeepSound.v
theories/KeepCases.v
theories/Prop_Keep.v
theories/KeepEq.v
theories/SpecText.v
theories/KeepText.v
theories/KeepTextProps.v
theories/KeepTextCheck.v
theories/KeepTextSound.v
theories/KeepTextCases.v
theories/Prop_Text.v
theories/Listing.v
theories/SpecListing.v
theories/ListingProps.v
theories/Prop_Listing.v
theories/Registry.v
theories/SpecRegistry.v
theories/RegistryProps.v
theories/Prop_Registry.v
theories/SpecOrigin.v
theories/OriginProps.v
theories/OriginCases.v
theories/Prop_Origin.v
