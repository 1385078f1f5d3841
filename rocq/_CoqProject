-Q theories Verif
theories/Base.v
theories/BaseFacts.v
theories/Floats.v
theories/FloatsFacts.v
theories/Words.v
theories/Layout.v
theories/LayoutFacts.v
theories/SpecLayout.v
theories/Props_Layout.v
theories/Structs.v
theories/Tools.v
theories/StructsFacts.v
theories/SpecTools.v
theories/ToolsFacts.v
theories/Props_Tools.v
theories/DmFile.v
theories/StreamFacts.v
theories/DmWriteFacts.v
theories/DmHookFacts.v
theories/DmReadFacts.v
theories/Order.v
theories/OrderFacts.v
theories/Station.v
theories/Text.v
theories/StationRead.v
theories/CoordEq.v
theories/StationFacts.v
theories/StationCellFacts.v
theories/SpecStation.v
theories/HistoryFacts.v
theories/CallFacts.v
theories/RoundTripFacts.v
theories/ObjectFacts.v
theories/LimitFacts.v
theories/FileFacts.v
theories/Props_Station.v
theories/WritableFacts.v
theories/SpecWrite.v
theories/StationWriteFacts.v
theories/Props_StationWrite.v
theories/Props_File.v
theories/SpecGrib.v
theories/Grib.v
theories/GribFacts.v
theories/GribQFacts.v
theories/Props_Grib.v
theories/Real.v
theories/SpecReal.v
theories/RealFacts.v
theories/Props_Real.v
theories/Strings.v
theories/StringsFacts.v
theories/Dates.v
theories/SpecDates.v
theories/DatesFacts.v
theories/Headers.v
theories/HeadersFacts.v
theories/CoordFacts.v
theories/Props_Headers.v
theories/RoundFacts.v
theories/Grid.v
theories/GridRead.v
theories/GridFacts.v
theories/GridDataFacts.v
theories/SpecGrid.v
theories/GridHistoryFacts.v
theories/Props_GridFile.v
theories/FloatBound.v
theories/SpecGridWrite.v
theories/GridWriteFacts.v
theories/Props_GridWrite.v
theories/Query.v
theories/SpecQuery.v
theories/QueryFacts.v
theories/Props_Query.v
theories/SpecText.v
theories/Props_Text.v
theories/VgfTables.v
theories/VgfBase.v
theories/VgfRead.v
theories/Vgf.v
theories/SpecVgf.v
theories/VgfFacts.v
theories/VgfShapeFacts.v
theories/VgfRangeFacts.v
theories/Props_Vgf.v
theories/SpecVgfQuery.v
theories/Props_VgfQuery.v
theories/VgfIntFacts.v
theories/VgfCursor.v
theories/SpecVgfTrip.v
theories/VgfTripFacts.v
theories/Props_VgfTrip.v
theories/Disk.v
theories/SpecDisk.v
theories/Props_Disk.v
theories/ReaderIO.v
theories/ReaderIOFacts.v
theories/SpecSession.v
theories/Props_Session.v
theories/Args.v
theories/SpecArgs.v
theories/Props_Args.v
theories/SpecVgfGroups.v
theories/Props_VgfGroups.v
theories/SpecVgfLoop.v
theories/VgfLoopFacts.v
theories/Utf8Facts.v
theories/Props_VgfLoop.v
theories/Calc.v
theories/SpecCalc.v
theories/CalcFacts.v
theories/CalcNum.v
theories/Props_Calc.v
theories/CalcReal.v
theories/Props_CalcReal.v
theories/Merge.v
theories/SpecMerge.v
theories/MergeFacts.v
theories/Props_Merge.v
theories/SpecMergeOrder.v
theories/MergeOrder.v
theories/FloatOrder.v
theories/Props_MergeOrder.v
theories/SpecMergeReturns.v
theories/MergeReturns.v
theories/Props_MergeReturns.v
theories/SpecMergeKeep.v
theories/MergeKeep.v
theories/Props_MergeKeep.v
theories/SpecMergeReport.v
theories/MergeReport.v
theories/Props_MergeReport.v
theories/SnOut.v
theories/SpecSnOut.v
theories/SnOutFacts.v
theories/Props_SnOut.v
theories/Unmerged.v
theories/SpecUnmerged.v
theories/UnmergedFacts.v
theories/Props_Unmerged.v
theories/SpecVgfFields.v
theories/VgfFieldFacts.v
theories/VgfRecordFacts.v
theories/Props_VgfFields.v
theories/GridShare.v
theories/SpecShare.v
theories/GridShareFacts.v
theories/Props_GridShare.v
theories/Tca.v
theories/SpecNearest.v
theories/NearestFacts.v
theories/SpecTca.v
theories/TcaFacts.v
theories/Props_Tca.v
theories/SpecVgfOpen.v
theories/VgfOpenFacts.v
theories/VgfSoundFacts.v
theories/Props_VgfOpen.v
theories/SpecMergeHeight.v
theories/MergeHeight.v
theories/Props_MergeHeight.v
theories/SpecMergeHeightOrder.v
theories/MergeHeightOrder.v
theories/Props_MergeHeightOrder.v
theories/Json.v
theories/SpecJson.v
theories/JsonFacts.v
theories/JsonElemFacts.v
theories/JsonReadFacts.v
theories/Props_Json.v
theories/SpecByteOrder.v
theories/ByteOrderFacts.v
theories/ByteOrderOpen.v
theories/ByteOrderStations.v
theories/ByteOrderGrids.v
theories/ByteOrderCheck.v
theories/Props_ByteOrder.v
theories/SpecGridLabels.v
theories/Props_GridLabels.v
theories/Nav.v
theories/SpecNav.v
theories/Props_Nav.v
theories/Props_Coords.v
theories/NearFacts.v
theories/SpecVgfNear.v
theories/Props_VgfNear.v
theories/SpecClean.v
theories/Props_Clean.v
theories/Props_VgfVersion.v
