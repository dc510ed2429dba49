-Q theories Verif
theories/GoBase.v
theories/GoUtf8.v
theories/GoFloat.v
theories/GoTime.v
theories/GoScan.v
theories/Catalog.v
theories/Composite.v
theories/Header.v
theories/Data.v
theories/Projection.v
theories/Radolan.v
theories/Vis.v
theories/Png.v
theories/Borders.v
theories/GoPrint.v
theories/BaseFacts.v
theories/HeaderSafe.v
theories/HeaderFacts.v
theories/DataFacts.v
theories/ParseFacts.v
theories/CompositeFacts.v
theories/Spec.v
theories/FieldFacts.v
theories/SpecHeader.v
theories/ScanFacts.v
theories/CalendarFacts.v
theories/HeaderMeaning.v
theories/ApiFacts.v
theories/RunFacts.v
theories/RecordFacts.v
theories/FileFacts.v
theories/FileComplete.v
theories/PropFile.v
theories/RoundTrip.v
theories/SplitFacts.v
theories/DefectFacts.v
theories/SpecWriter.v
theories/WriterFacts.v
theories/PropHeader.v
theories/SpecReal.v
theories/FloatFacts.v
theories/PropFloat.v
theories/SpecProj.v
theories/PropGrid.v
theories/ExactReal.v
theories/PropReal.v
theories/Conversion.v
theories/SpecZR.v
theories/SpecRain.v
theories/SpecValue.v
theories/SpecSamples.v
theories/SpecPicture.v
theories/SpecPrint.v
theories/PrintFacts.v
theories/PropZR.v
theories/PropZRFloat.v
theories/Conformance.v
theories/FmaFacts.v
theories/PropProjFloat.v
theories/PropImage.v
theories/SpecVis.v
theories/VisFacts.v
theories/PropGray.v
theories/PropHeat.v
theories/PropRadial.v
theories/SpecOverlay.v
theories/PropTool.v
theories/Bufio.v
theories/SpecReader.v
theories/PropReader.v
theories/SpecCatalog.v
theories/PropCatalog.v
theories/SpecData.v
theories/PropData.v
theories/PropShared.v
theories/Heap.v
theories/SpecHeap.v
theories/HeapFacts.v
theories/HeapWorld.v
theories/PropHeap.v
theories/SpecMemory.v
theories/PropMemory.v
theories/ReadError.v
theories/SpecReadError.v
theories/PropReadError.v
theories/ArchiveError.v
theories/SpecArchiveError.v
theories/PropArchiveError.v
theories/ToolExit.v
theories/SpecExit.v
theories/PropExit.v
theories/SpecAccuracy.v
theories/AccFacts.v
theories/PropAccuracy.v
theories/PropLookup.v
theories/SpecSouth.v
theories/PropSouth.v
theories/GridNumbers.v
theories/SpecKm.v
theories/SpecTable.v
theories/SpecArchive.v
theories/SpecDamage.v
theories/GridPoints.v
theories/PropKm.v
theories/PropTable.v
theories/PropOverlay.v
theories/PropBorders.v
theories/PropRain.v
theories/PropValue.v
theories/PropSamples.v
theories/PropPicture.v
theories/PropPrint.v
theories/PropOrder.v
theories/PropArchive.v
theories/PropDamage.v
theories/PropOnto.v
theories/SpecPlatform.v
theories/PropPlatform.v
theories/TarReader.v
theories/SpecTar.v
theories/PropTar.v
theories/ErrorText.v
theories/SpecText.v
theories/PropText.v
