-Q theories Verif
theories/Num.v
theories/FNum.v
theories/Base.v
theories/Units.v
theories/Types.v
theories/Utils.v
theories/TankM.v
theories/Logic.v
theories/HeatSrc.v
theories/Step.v
theories/Setters.v
theories/SimFrame.v
theories/FrameProofs.v
theories/Spec.v
theories/SpecState.v
theories/RList.v
theories/MixProofs.v
theories/DrawProofs.v
theories/TankProofs.v
theories/StandbyProofs.v
theories/HeatProofs.v
theories/TankFacts.v
theories/PropsTank.v
theories/Example.v
theories/ControlProofs.v
theories/ChoiceProofs.v
theories/SeqProofs.v
theories/ControlFacts.v
theories/PropsControl.v
theories/RunsFacts.v
theories/PropsRuns.v
theories/SpecDist.v
theories/DistProofs.v
theories/EnergyProofs.v
theories/ExtProofs.v
theories/SpecEnergy.v
theories/StepEnergy.v
theories/ResampleProofs.v
theories/ExtraProofs.v
theories/SpecStep.v
theories/WholeStep.v
theories/AvgProofs.v
theories/Progress.v
theories/ExtProgress.v
theories/SpecExt.v
theories/SPProgress.v
theories/StepProgress.v
theories/EnergyFacts.v
theories/PropsEnergy.v
theories/DistFacts.v
theories/PropsDist.v
theories/SettersFacts.v
theories/PropsSetters.v
theories/SourcesFacts.v
theories/PropsSources.v
theories/Perf.v
theories/PerfFacts.v
theories/PropsPerf.v
theories/Config.v
theories/Rating.v
theories/Fitter.v
theories/PerfSwap.v
theories/SpecLock.v
theories/ConfigFacts.v
theories/PropsConfig.v
theories/RatingFacts.v
theories/PropsRating.v
theories/FitterFacts.v
theories/PropsFitter.v
theories/DataModel.v
theories/DataModelFacts.v
theories/PropsDataModel.v
theories/RoundTripFacts.v
theories/PropsRoundTrip.v
theories/CentralFacts.v
theories/PropsCentral.v
theories/CentralRTFacts.v
theories/PropsCentralRT.v
theories/NamesFacts.v
theories/PropsNames.v
theories/Copy.v
theories/CopyingFacts.v
theories/PropsCopying.v
theories/Init.v
theories/Legacy.v
theories/LegacyTable.v
theories/InitsFacts.v
theories/PropsInits.v
theories/InitGenFacts.v
theories/PropsInitGen.v
theories/Report.v
theories/CsvFacts.v
theories/PropsCsv.v
theories/Cli.v
theories/ScheduleFacts.v
theories/PropsSchedule.v
theories/CommandFacts.v
theories/PropsCommand.v
theories/SinglePassFacts.v
theories/PropsSinglePass.v
theories/ExtRunFacts.v
theories/PropsExtRun.v
theories/LegacyFacts.v
theories/PropsLegacy.v
theories/ExtPreset.v
theories/ExtTable.v
theories/ExtMaps.v
theories/ExtMapsMP.v
theories/SpecExtPreset.v
theories/ExtPresetsFacts.v
theories/PropsExtPresets.v
theories/Queries.v
theories/QueriesFacts.v
theories/PropsQueries.v
theories/Models.v
theories/ModelsFacts.v
theories/PropsModels.v
theories/SpecSPMap.v
theories/SPMapsFacts.v
theories/PropsSPMaps.v
theories/SpecMPMap.v
theories/MPMapsFacts.v
theories/PropsMPMaps.v
theories/PerfSwapFacts.v
theories/PropsPerfSwap.v
theories/StandinFacts.v
theories/PropsStandin.v
