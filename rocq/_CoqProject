-Q theories Verif
theories/Base.v
theories/BaseProofs.v
theories/EventModel.v
theories/EventSpec.v
theories/EventProofs.v
theories/StartProofs.v
theories/ControlModel.v
theories/ControlSpec.v
theories/ControlProofs.v
theories/RunProofs.v
theories/PropertiesEvents.v
theories/PropertiesLoop.v
theories/SampleModel.v
theories/SampleProofs.v
theories/PropertiesSample.v
theories/Sums.v
theories/LoadModel.v
theories/LoadSpec.v
theories/LoadProofs.v
theories/ContractProofs.v
theories/PeakProofs.v
theories/PropertiesLoad.v
theories/NetModel.v
theories/NetSpec.v
theories/MatProofs.v
theories/NetProofs.v
theories/FlowProofs.v
theories/AssignProofs.v
theories/SolveProofs.v
theories/UpdateProofs.v
theories/TransmProofs.v
theories/UniqueProofs.v
theories/PropertiesNet.v
theories/LinpackModel.v
theories/LinpackProofs.v
theories/PropertiesLinpack.v
theories/StatModel.v
theories/StatSpec.v
theories/StatProofs.v
theories/PropertiesStat.v
theories/YearModel.v
theories/YearSpec.v
theories/YearProofs.v
theories/YearRun.v
theories/PropertiesYear.v
theories/CheckpointModel.v
theories/PropertiesCheckpoint.v
theories/ReportModel.v
theories/ReportSpec.v
theories/ReportProofs.v
theories/PropertiesReport.v
theories/HourModel.v
theories/HourSpec.v
theories/HourProofs.v
theories/PropertiesHour.v
theories/ProgramModel.v
theories/ProgramSpec.v
theories/ProgramProofs.v
theories/PropertiesProgram.v
theories/DataModel.v
theories/MaintModel.v
theories/MaintSpec.v
theories/MaintProofs.v
theories/PrepModel.v
theories/DataSpec.v
theories/DataProofs.v
theories/PrepProofs.v
theories/PropertiesData.v
theories/OutageModel.v
theories/OutageSpec.v
theories/OutageProofs.v
theories/PropertiesOutage.v
theories/PropertiesOutageTable.v
theories/LpModel.v
theories/LpSpec.v
theories/LpProofs.v
theories/LpRun.v
theories/LpNet.v
theories/LpResult.v
theories/LpUpdate.v
theories/LpNetLoop.v
theories/LpCycle.v
theories/LpBranch.v
theories/LpEndless.v
theories/LpTransm.v
theories/LpShareModel.v
theories/LpShareSpec.v
theories/LpShare.v
theories/PropertiesLp.v
theories/PropertiesShare.v
theories/LpOrbit.v
theories/LpNever.v
theories/CauseSpec.v
theories/CauseProofs.v
theories/CauseRun.v
theories/PropertiesNever.v
theories/PropertiesCause.v
theories/ReadModel.v
theories/ReadSpec.v
theories/ReadProofs.v
theories/ReadTables.v
theories/PropertiesRead.v
theories/EndSpec.v
theories/EndProofs.v
theories/PropertiesEnd.v
theories/ShortProofs.v
theories/PropertiesShort.v
theories/MonoSpec.v
theories/MonoProofs.v
theories/PropertiesMono.v
theories/LongerSpec.v
theories/LongerProofs.v
theories/PropertiesLonger.v
theories/OutputSpec.v
theories/OutputProofs.v
theories/PropertiesOutput.v
theories/HistorySpec.v
theories/HistoryProofs.v
theories/PropertiesHistory.v
theories/NamesSpec.v
theories/NamesProofs.v
theories/PropertiesNames.v
theories/PeriodSpec.v
theories/PeriodProofs.v
theories/PropertiesPeriod.v
theories/StreamSpec.v
theories/StreamProofs.v
theories/PropertiesStream.v
theories/FloatStatModel.v
theories/FloatStatSpec.v
theories/FloatStat.v
theories/PropertiesFloatStat.v
theories/CertainSpec.v
theories/CertainProofs.v
theories/PropertiesCertain.v
theories/LevelsSpec.v
theories/LevelsProofs.v
theories/PropertiesLevels.v
theories/PropertiesSingle.v
theories/PlateSpec.v
theories/PlateProofs.v
theories/PlateTrace.v
theories/PropertiesPlate.v
theories/CutProofs.v
theories/AmpleSpec.v
theories/AmpleProofs.v
theories/PropertiesAmple.v
theories/FloatConvModel.v
theories/FloatConvSpec.v
theories/FloatConvProofs.v
theories/PropertiesFloatConv.v
theories/CritModel.v
theories/CritSpec.v
theories/PropertiesCrit.v
theories/AnnualModel.v
theories/AnnualSpec.v
theories/PropertiesAnnual.v
theories/LinLoopModel.v
theories/PropertiesLinLoop.v
theories/SamplersModel.v
theories/SamplersSpec.v
theories/PropertiesSamplers.v
theories/PropertiesBounds.v
theories/MaintAnyModel.v
theories/MaintAnySpec.v
theories/MaintAny.v
theories/PropertiesMaint.v
theories/FloatSpec.v
theories/FloatModel.v
theories/FloatProofs.v
theories/FloatLoop.v
theories/FloatSums.v
theories/FloatData.v
theories/FloatSample.v
theories/FloatMore.v
theories/PropertiesFloat.v
theories/Vec.v
theories/VecEvents.v
theories/VecNet.v
theories/VecLinpack.v
theories/VecLp.v
theories/VecShare.v
theories/VecTransm.v
theories/VecStat.v
theories/VecYear.v
theories/VecSmall.v
theories/VecMaint.v
theories/VecData.v
theories/VecFloat.v
theories/RefSpec.v
theories/RefProofs.v
theories/PropertiesRef.v
theories/TurnSpec.v
theories/TurnProofs.v
theories/TurnAmple.v
theories/PropertiesTurn.v
theories/ScaleSpec.v
theories/ScaleProofs.v
theories/ScaleLpSpec.v
theories/ScaleLp.v
theories/PropertiesScale.v
theories/AdmSpec.v
theories/AdmProofs.v
theories/PropertiesAdm.v
