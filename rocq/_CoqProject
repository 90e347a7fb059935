-Q theories Verif

theories/QueueModel.v
theories/QueueSpec.v
theories/QueueProofs.v
theories/PropQueue.v
theories/PipelineModel.v
theories/PipelineSpec.v
theories/PipelineProofs.v
theories/StallProofs.v
theories/TraceProofs.v
theories/SmrfTopo.v
theories/SmrfSpec.v
theories/SmrfProofs.v
theories/PropPipeline.v
theories/Num.v
theories/StormsModel.v
theories/StormsSpec.v
theories/StormsProofs.v
theories/PropStorms.v
theories/RNum.v
theories/NasdeModel.v
theories/NasdeSpec.v
theories/NasdeProofs.v
theories/PropNasde.v
theories/CalModel.v
theories/CalSpec.v
theories/CalProofs.v
theories/PropCal.v
theories/DataModel.v
theories/DataSpec.v
theories/DataProofs.v
theories/PropData.v
theories/OutputModel.v
theories/OutputSpec.v
theories/OutputProofs.v
theories/NcTimeProofs.v
theories/PropOutput.v
theories/KrigeModel.v
theories/KrigeSpec.v
theories/LuProofs.v
theories/KrigeProofs.v
theories/DkModel.v
theories/DkSpec.v
theories/DkProofs.v
theories/PropKrige.v
theories/SpatModel.v
theories/SpatSpec.v
theories/SpatProofs.v
theories/PropSpat.v
theories/BresModel.v
theories/BresSpec.v
theories/BresProofs.v
theories/HordModel.v
theories/HordSpec.v
theories/HordProofs.v
theories/PropMaxus.v
theories/WindowModel.v
theories/WindowProofs.v
theories/PropWindow.v
theories/RTrig.v
theories/WinsModel.v
theories/WinsSpec.v
theories/WinsProofs.v
theories/PropWind.v
theories/ExpBounds.v
theories/PptModel.v
theories/PptSpec.v
theories/PptProofs.v
theories/PropPpt.v
theories/SolarModel.v
theories/SolarSpec.v
theories/SolarProofs.v
theories/TwoStreamProofs.v
theories/PropSolar.v
theories/GridWindModel.v
theories/PropGridWind.v
theories/AlbedoModel.v
theories/AlbedoSpec.v
theories/AlbedoProofs.v
theories/PropAlbedo.v
theories/SatModel.v
theories/SatSpec.v
theories/SatProofs.v
theories/PropSat.v
theories/DewModel.v
theories/DewSpec.v
theories/DewProofs.v
theories/BrentProofs.v
theories/DewPointProofs.v
theories/WetProofs.v
theories/WetNum.v
theories/WetSlopeProofs.v
theories/WetConvProofs.v
theories/PropDew.v
theories/ThermalModel.v
theories/ThermalSpec.v
theories/ThermalProofs.v
theories/PropThermal.v
theories/SunModel.v
theories/SunSpec.v
theories/SunProofs.v
theories/SunPlaceProofs.v
theories/SunSkyProofs.v
theories/PropSun.v
theories/StormRaceModel.v
theories/StormRaceSpec.v
theories/StormRaceProofs.v
theories/StormRaceDrive.v
theories/PropStormRace.v
theories/WireModel.v
theories/WireSpec.v
theories/WireProofs.v
theories/PropWire.v
theories/NinjaModel.v
theories/NinjaSpec.v
theories/NinjaProofs.v
theories/PropNinja.v
theories/StepModel.v
theories/StepSpec.v
theories/StepProofs.v
theories/PropStep.v
theories/LoadModel.v
theories/LoadSpec.v
theories/LoadProofs.v
theories/PropLoad.v
theories/HruModel.v
theories/HruSpec.v
theories/HruProofs.v
theories/PropHru.v
theories/TopoModel.v
theories/TopoSpec.v
theories/TopoProofs.v
theories/PropTopo.v
theories/TbreakModel.v
theories/TbreakSpec.v
theories/TbreakProofs.v
theories/PropTbreak.v
theories/BackupModel.v
theories/BackupSpec.v
theories/BackupProofs.v
theories/PropBackup.v
theories/StartModel.v
theories/StartSpec.v
theories/StartProofs.v
theories/PropStart.v
theories/SpectrumModel.v
theories/SpectrumSpec.v
theories/SpectrumProofs.v
theories/PropSpectrum.v
theories/DistModel.v
theories/DistSpec.v
theories/DistProofs.v
theories/PropDist.v
theories/AscModel.v
theories/AscSpec.v
theories/AscProofs.v
theories/PropAsc.v
theories/RunsModel.v
theories/RunsSpec.v
theories/RunsProofs.v
theories/PropRuns.v
theories/PyWindModel.v
theories/PyWindSpec.v
theories/PyWindProofs.v
theories/PropPyWind.v
theories/FilesModel.v
theories/FilesSpec.v
theories/FilesProofs.v
theories/PropFiles.v
theories/HrrrModel.v
theories/HrrrSpec.v
theories/HrrrProofs.v
theories/PropHrrr.v
theories/OptModel.v
theories/OptSpec.v
theories/OptProofs.v
theories/PropOpt.v
theories/GenModel.v
theories/GenSpec.v
theories/GenProofs.v
theories/PropGen.v
theories/MarksModel.v
theories/MarksSpec.v
theories/MarksProofs.v
theories/PropMarks.v
theories/SusongModel.v
theories/SusongSpec.v
theories/SusongProofs.v
theories/PropSusong.v
theories/ContProofs.v
theories/PropCont.v
