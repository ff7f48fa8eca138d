-Q theories Verif
theories/Base.v
theories/Command.v
theories/CoreModel.v
theories/ListFacts.v
theories/QueueProofs.v
theories/CoreBasics.v
theories/HistorySpec.v
theories/CoreHistory.v
theories/CoreBounds.v
theories/DeviceSpec.v
theories/RefineBase.v
theories/RefineSteps.v
theories/RefineRun.v
theories/RefineCmd.v
theories/RefineMain.v
theories/DeviceFacts.v
theories/DeviceSleep.v
theories/DeviceAuto.v
theories/DeviceTop.v
theories/ExampleCores.v
theories/CoreRefuted.v
theories/PropHistory.v
theories/GrowProofs.v
theories/PropGrow.v
theories/StaySpec.v
theories/StayProofs.v
theories/PropDevice.v
theories/Bits.v
theories/BusModel.v
theories/WaveSpec.v
theories/BitFacts.v
theories/StorageProofs.v
theories/BusProofs.v
theories/BusMore.v
theories/ReenableProofs.v
theories/ClockProofs.v
theories/PropBus.v
theories/ToggleModel.v
theories/ToggleProofs.v
theories/DefineProofs.v
theories/DataProofs.v
theories/PropData.v
theories/PinModel.v
theories/PinSpec.v
theories/PinProofs.v
theories/DbiModel.v
theories/DbiSpec.v
theories/DbiProofs.v
theories/DbiBounds.v
theories/DbiPinModel.v
theories/DbiPinSpec.v
theories/DbiPinProofs.v
theories/PropDbi.v
theories/DbiExactSpec.v
theories/DbiExact.v
theories/PropDbiExact.v
theories/BitsetModel.v
theories/BitsetSpec.v
theories/BitsetProofs.v
theories/PropBitset.v
theories/BitsetExactSpec.v
theories/BitsetExact.v
theories/PropBitsetExact.v
theories/PatternModel.v
theories/PatternTables.v
theories/PatternSpec.v
theories/PatternProofs.v
theories/ParityProofs.v
theories/PropPattern.v
theories/CmdProofs.v
theories/StatsModel.v
theories/StatsSpec.v
theories/StatsProofs.v
theories/PropStats.v
theories/FormatModel.v
theories/FormatSpec.v
theories/FormatProofs.v
theories/PropFormat.v
theories/EnergyModel.v
theories/EnergySpec.v
theories/EnergyProofs.v
theories/EnergyMore.v
theories/EnergyLoops.v
theories/EnergyExamples.v
theories/PropEnergy.v
theories/IfEnergyModel.v
theories/IfEnergySpec.v
theories/IfEnergyProofs.v
theories/IfEnergyMore.v
theories/IfExactSpec.v
theories/IfExactProofs.v
theories/PropIfEnergy.v
theories/InterfaceModel.v
theories/InterfaceSpec.v
theories/InterfaceCa.v
theories/InterfaceRun.v
theories/InterfaceTop.v
theories/InterfaceExamples.v
theories/InterfaceRefuted.v
theories/InterfaceExact.v
theories/PropInterface.v
theories/WireSpec.v
theories/WireProofs.v
theories/InterfaceData.v
theories/WireExamples.v
theories/PropWire.v
theories/AmbleSpec.v
theories/AmbleProofs.v
theories/DramModel.v
theories/DramSpec.v
theories/DramProofs.v
theories/DramExamples.v
theories/AmbleTop.v
theories/PropAmble.v
theories/PropDram.v
theories/SerialModel.v
theories/SerialProofs.v
theories/SerialCore.v
theories/PropSerial.v
theories/SerialSpec.v
theories/SerialAlike.v
theories/SerialIface.v
theories/SerialRepair.v
theories/SerialExamples.v
theories/PropSerialIf.v
theories/ExtensionModel.v
theories/ExtensionSpec.v
theories/ExtensionProofs.v
theories/HookProofs.v
theories/ExtensionDevice.v
theories/ExtensionExamples.v
theories/PropExtension.v
theories/CsvModel.v
theories/CliModel.v
theories/CliSpec.v
theories/CsvProofs.v
theories/CliProofs.v
theories/CliTop.v
theories/CliExamples.v
theories/PropCli.v
theories/ProgressSpec.v
theories/ProgressProofs.v
theories/ProgressTables.v
theories/ProgressQuery.v
theories/ProgressExamples.v
theories/ProgressTop.v
theories/PropProgress.v
theories/ChargeSpec.v
theories/ChargeBase.v
theories/ChargeProofs.v
theories/ChargeTop.v
theories/PropCharge.v
theories/MemSpecModel.v
theories/MemSpecSpec.v
theories/MemSpecProofs.v
theories/PropMemSpec.v
theories/WholeSpec.v
theories/WholeWires.v
theories/WholeProofs.v
theories/WholeExamples.v
theories/BurstTimes.v
theories/PropWhole.v
theories/RoundModel.v
theories/RoundSpec.v
theories/RoundBasics.v
theories/RoundProofs.v
theories/RoundIf.v
theories/RoundDouble.v
theories/RoundTop.v
theories/PropRound.v
theories/ComposeSpec.v
theories/ComposeProofs.v
theories/ComposeTop.v
theories/ComposeMain.v
theories/ComposeExamples.v
theories/PropCompose.v
theories/LocalSpec.v
theories/LocalProofs.v
theories/PropLocal.v
theories/RenameSpec.v
theories/RenameProofs.v
theories/RenameTop.v
theories/RenameExamples.v
theories/PropRename.v
theories/ReportModel.v
theories/ReportSpec.v
theories/ReportProofs.v
theories/PropReport.v
theories/SaveSpec.v
theories/SaveProofs.v
theories/SaveTop.v
theories/SaveExamples.v
theories/PropSave.v
theories/JoinSpec.v
theories/JoinProofs.v
theories/JoinTop.v
theories/JoinExamples.v
theories/PropJoin.v
theories/BoundSpec.v
theories/BoundProofs.v
theories/BoundTop.v
theories/PropBound.v
theories/OrderSpec.v
theories/OrderProofs.v
theories/PropOrder.v
theories/ParamSpec.v
theories/ParamProofs.v
theories/PropParam.v
theories/OutputModel.v
theories/OutputSpec.v
theories/OutputProofs.v
theories/PropOutput.v
theories/ScaleSpec.v
theories/ScaleProofs.v
theories/PropScale.v
theories/IndepSpec.v
theories/IndepProofs.v
theories/IndepTop.v
theories/IndepExamples.v
theories/PropIndep.v
theories/RejectSpec.v
theories/RejectProofs.v
theories/PropReject.v
theories/TakenSpec.v
theories/TakenProofs.v
theories/TakenObject.v
theories/TakenExamples.v
theories/PropTaken.v
theories/ByteModel.v
theories/ByteSpec.v
theories/ByteProofs.v
theories/RangeSpec.v
theories/RangeProofs.v
theories/ByteLayout.v
theories/ByteTop.v
theories/ByteExamples.v
theories/PropBytes.v
theories/LineSpec.v
theories/LineProofs.v
theories/FlagSpec.v
theories/FlagProofs.v
theories/FlagTop.v
theories/FlagExamples.v
theories/PropLine.v
theories/StorageSpec.v
theories/InvertSpec.v
theories/InvertProofs.v
theories/InvertStep.v
theories/InvertTop.v
theories/InvertShort.v
theories/InvertExamples.v
theories/InvertSix.v
theories/InvertSixExamples.v
theories/PropInvert.v
theories/EndSpec.v
theories/EndProofs.v
theories/EndTop.v
theories/EndExamples.v
theories/PropEnd.v
theories/RowSpec.v
theories/RowProofs.v
theories/PropRow.v
theories/SettleProofs.v
theories/SettleSpec.v
theories/SettleTop.v
theories/SettlePower.v
theories/PropSettle.v
theories/IdleSpec.v
theories/IdleProofs.v
theories/IdleEnd.v
theories/IdleExamples.v
theories/PropIdle.v
theories/ChunkModel.v
theories/ChunkSpec.v
theories/ChunkProofs.v
theories/ChunkLines.v
theories/ChunkExamples.v
theories/PropChunk.v
theories/ThreadModel.v
theories/ThreadProofs.v
theories/ThreadEnds.v
theories/ThreadText.v
theories/ThreadExamples.v
theories/EstimatorProofs.v
theories/StatsTime.v
theories/MarkProofs.v
theories/MarkTop.v
theories/PropThread.v
theories/CutModel.v
theories/CutSpec.v
theories/CutProofs.v
theories/CutTop.v
theories/PropCut.v
theories/RouterModel.v
theories/RouterProofs.v
theories/PropRouter.v
theories/DecodeSpec.v
theories/DecodeProofs.v
theories/DecodeBusSpec.v
theories/DecodeBusProofs.v
theories/PropDecode.v
theories/ArriveSpec.v
theories/ArriveProofs.v
theories/PropArrive.v
theories/OutsideSpec.v
theories/OutsideProofs.v
theories/PropOutside.v
theories/CutIfModel.v
theories/CutIfSpec.v
theories/CutIfProofs.v
theories/PropCutIf.v
theories/CutDevModel.v
theories/CutDevSpec.v
theories/CutDevProofs.v
theories/PropCutDev.v
theories/ForeignProofs.v
theories/ForeignDev.v
theories/PropForeign.v
theories/PreSpec.v
theories/PreProofs.v
theories/PropPre.v
