-Q theories Verif
theories/ActivityModel.v
theories/ActivityProofs.v
theories/ActivitySpec.v
theories/AggModel.v
theories/AggProofs.v
theories/AggSpec.v
theories/AnomModel.v
theories/AnomProofs.v
theories/AnomSpec.v
theories/BandModel.v
theories/BandProofs.v
theories/BandSpec.v
theories/BaseProofs.v
theories/BaseSpec.v
theories/BlockModel.v
theories/BlockProofs.v
theories/BlockSpec.v
theories/BootModel.v
theories/BootProofs.v
theories/BootSpec.v
theories/CardModel.v
theories/CardProofs.v
theories/CardSpec.v
theories/CblModel.v
theories/CblProofs.v
theories/CblSpec.v
theories/ColumnModel.v
theories/ConfigModel.v
theories/ConfigProofs.v
theories/ConfigSpec.v
theories/CorrModel.v
theories/CorrProofs.v
theories/CorrSpec.v
theories/CosampleModel.v
theories/CosampleProofs.v
theories/CosampleSpec.v
theories/CrossModel.v
theories/CrossProofs.v
theories/CrossSpec.v
theories/CtcModel.v
theories/CtcProofs.v
theories/CtcProofs2.v
theories/CtcSpec.v
theories/CurveProofs.v
theories/DiffModel.v
theories/DiffProofs.v
theories/DiffSpec.v
theories/DriveModel.v
theories/DriveProofs.v
theories/DriveSpec.v
theories/EclvDriveModel.v
theories/EclvDriveProofs.v
theories/EclvDriveSpec.v
theories/EclvModel.v
theories/EclvProofs.v
theories/EclvSpec.v
theories/EnsModel.v
theories/EnsProofs.v
theories/EnsSpec.v
theories/EofModel.v
theories/EofProofs.v
theories/EofSpec.v
theories/EqzModel.v
theories/EqzProofs.v
theories/EqzSpec.v
theories/EventModel.v
theories/EventProofs.v
theories/EventSpec.v
theories/FileModel.v
theories/FileProofs.v
theories/FileSpec.v
theories/FilterProofs.v
theories/IntervalModel.v
theories/IntervalProofs.v
theories/IntervalSpec.v
theories/KelvinModel.v
theories/KelvinProofs.v
theories/KelvinSpec.v
theories/KfModel.v
theories/KfProofs.v
theories/KfSpec.v
theories/LevelsModel.v
theories/LevelsProofs.v
theories/LevelsSpec.v
theories/LogModel.v
theories/LogProofs.v
theories/LogSpec.v
theories/LookupModel.v
theories/LookupProofs.v
theories/LookupSpec.v
theories/MakiModel.v
theories/MakiProofs.v
theories/MakiSpec.v
theories/MatsunoModel.v
theories/MatsunoProofs.v
theories/MatsunoSpec.v
theories/MctsModel.v
theories/MctsProofs.v
theories/MctsSpec.v
theories/MjoModel.v
theories/MjoProofs.v
theories/MjoSpec.v
theories/ModeDriveModel.v
theories/ModeDriveProofs.v
theories/ModeDriveSpec.v
theories/ModeModel.v
theories/ModeProofs.v
theories/ModeProofs2.v
theories/ModeSpec.v
theories/ModesModel.v
theories/ModesProofs.v
theories/ModesSpec.v
theories/MomentProofs.v
theories/MprModel.v
theories/MprProofs.v
theories/MprSpec.v
theories/PairModel.v
theories/PairProofs.v
theories/PairSpec.v
theories/PoolModel.v
theories/PoolProofs.v
theories/PoolSpec.v
theories/PowerModel.v
theories/PowerProofs.v
theories/PowerSpec.v
theories/PropertiesActivity.v
theories/PropertiesAnom.v
theories/PropertiesBand.v
theories/PropertiesBase.v
theories/PropertiesBlock.v
theories/PropertiesBoot.v
theories/PropertiesCard.v
theories/PropertiesCbl.v
theories/PropertiesConfig.v
theories/PropertiesCorr.v
theories/PropertiesCosample.v
theories/PropertiesCross.v
theories/PropertiesCtc.v
theories/PropertiesCurve.v
theories/PropertiesDiff.v
theories/PropertiesDrive.v
theories/PropertiesEclv.v
theories/PropertiesEclvDrive.v
theories/PropertiesEns.v
theories/PropertiesEof.v
theories/PropertiesEqz.v
theories/PropertiesEvent.v
theories/PropertiesFile.v
theories/PropertiesInterval.v
theories/PropertiesKelvin.v
theories/PropertiesKf.v
theories/PropertiesLevels.v
theories/PropertiesLog.v
theories/PropertiesLookup.v
theories/PropertiesMaki.v
theories/PropertiesMatsuno.v
theories/PropertiesMcts.v
theories/PropertiesMjo.v
theories/PropertiesMode.v
theories/PropertiesModeDrive.v
theories/PropertiesModes.v
theories/PropertiesMpr.v
theories/PropertiesPair.v
theories/PropertiesPool.v
theories/PropertiesPower.v
theories/PropertiesPstd.v
theories/PropertiesPublish.v
theories/PropertiesRegime.v
theories/PropertiesRmm.v
theories/PropertiesRoc.v
theories/PropertiesScore.v
theories/PropertiesSeg.v
theories/PropertiesSeries.v
theories/PropertiesSettings.v
theories/PropertiesSl1l2.v
theories/PropertiesSpectra.v
theories/PropertiesStdErr.v
theories/PropertiesSum.v
theories/PropertiesSumDrive.v
theories/PropertiesTau.v
theories/PropertiesTost.v
theories/PropertiesTostTwo.v
theories/PropertiesTrack.v
theories/PropertiesTropics.v
theories/PropertiesUtil.v
theories/PropertiesVal.v
theories/PropertiesVert.v
theories/PropertiesWaves.v
theories/PropertiesWhole.v
theories/PropertiesWind.v
theories/PropertiesWrite.v
theories/PstdModel.v
theories/PstdProofs.v
theories/PstdSpec.v
theories/PublishModel.v
theories/PublishProofs.v
theories/PublishSpec.v
theories/PyBase.v
theories/RealBase.v
theories/RealProofs.v
theories/RealSpec.v
theories/RegimeModel.v
theories/RegimeProofs.v
theories/RegimeSpec.v
theories/RmmModel.v
theories/RmmProofs.v
theories/RmmSpec.v
theories/RocModel.v
theories/RocProofs.v
theories/RocSpec.v
theories/SafeProofs.v
theories/ScoreModel.v
theories/ScoreProofs.v
theories/ScoreSpec.v
theories/SegModel.v
theories/SegProofs.v
theories/SegSpec.v
theories/SeriesModel.v
theories/SeriesProofs.v
theories/SeriesSpec.v
theories/SettingsModel.v
theories/SettingsProofs.v
theories/SettingsSpec.v
theories/Sl1l2Model.v
theories/Sl1l2Proofs.v
theories/Sl1l2Proofs2.v
theories/Sl1l2Safe.v
theories/Sl1l2Spec.v
theories/SpectraModel.v
theories/SpectraProofs.v
theories/SpectraSpec.v
theories/StdErrProofs.v
theories/StdErrSpec.v
theories/SumDriveModel.v
theories/SumDriveProofs.v
theories/SumDriveSpec.v
theories/SumModel.v
theories/SumProofs.v
theories/SumSpec.v
theories/TauModel.v
theories/TauProofs.v
theories/TauSpec.v
theories/TostModel.v
theories/TostProofs.v
theories/TostSpec.v
theories/TostTwoModel.v
theories/TostTwoProofs.v
theories/TrackModel.v
theories/TrackProofs.v
theories/TrackSpec.v
theories/TropicsModel.v
theories/TropicsProofs.v
theories/TropicsSpec.v
theories/UtilModel.v
theories/UtilProofs.v
theories/UtilSpec.v
theories/ValModel.v
theories/ValProofs.v
theories/ValSpec.v
theories/VertModel.v
theories/VertProofs.v
theories/VertSpec.v
theories/WavesModel.v
theories/WavesProofs.v
theories/WavesSpec.v
theories/WholeModel.v
theories/WholeProofs.v
theories/WholeSpec.v
theories/WindModel.v
theories/WindProofs.v
theories/WindSpec.v
theories/WriteModel.v
theories/WriteProofs.v
theories/WriteSpec.v
