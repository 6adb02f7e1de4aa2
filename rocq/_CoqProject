-Q theories Verif
theories/AttFloatModel.v
theories/AttFloatProofs.v
theories/AttFloatProofs2.v
theories/BatchProofs.v
theories/CBase.v
theories/ControlModel.v
theories/ControlProofs.v
theories/ControlProofs10.v
theories/ControlProofs11.v
theories/ControlProofs12.v
theories/ControlProofs2.v
theories/ControlProofs3.v
theories/ControlProofs4.v
theories/ControlProofs5.v
theories/ControlProofs6.v
theories/ControlProofs7.v
theories/ControlProofs8.v
theories/ControlProofs9.v
theories/ControlSpec.v
theories/ControlTac.v
theories/CovHist.v
theories/CovInhibit.v
theories/CovModel.v
theories/CovNoise.v
theories/CovPredEntries.v
theories/CovPredGen.v
theories/CovPredProofs.v
theories/CovProofs.v
theories/CovProofsG.v
theories/CovProofsR.v
theories/CovProofsR2.v
theories/CovQuat.v
theories/CovQuat2.v
theories/CovSpec.v
theories/CovUpdProofs.v
theories/CovWitness.v
theories/DragModel.v
theories/EngineModel.v
theories/EngineShift.v
theories/EngineShift2.v
theories/ExactProofs.v
theories/F32.v
theories/F32Err.v
theories/F32More.v
theories/F32Sign.v
theories/FilterModel.v
theories/FilterProofs.v
theories/FilterProofs2.v
theories/FusionGen.v
theories/FusionModel.v
theories/FusionProofs.v
theories/FusionProofs2.v
theories/FusionProofs3.v
theories/FusionProofs4.v
theories/FusionProofs5.v
theories/FusionSpec.v
theories/FusionUpd.v
theories/GeoLookupModel.v
theories/GeoLookupProofs.v
theories/GeoLookupProofs2.v
theories/GeoModel.v
theories/GeoProofs.v
theories/GeoProofs3.v
theories/GeoTables.v
theories/GpsDrift.v
theories/GpsDrift2.v
theories/GpsDrift3.v
theories/GpsDrift4.v
theories/GpsModel.v
theories/GpsProofs.v
theories/GsfFloat.v
theories/GsfModel.v
theories/GsfProofs1.v
theories/GsfProofs2.v
theories/GsfProofs3.v
theories/GsfProofs4.v
theories/HeadingModel.v
theories/InnovModel.v
theories/InterfaceModel.v
theories/InterfaceProofs.v
theories/InterfaceProofs2.v
theories/InterfaceProofs3.v
theories/InterfaceSpec.v
theories/KahanProofs.v
theories/KahanProofs2.v
theories/NanModel.v
theories/NanProofs.v
theories/NoNanProofs.v
theories/NoNanProofs2.v
theories/ObsModel.v
theories/ObsProofs.v
theories/ObsSpec.v
theories/OriginModel.v
theories/OutFloatProofs.v
theories/OutputHist.v
theories/OutputModel.v
theories/OutputProofs.v
theories/OutputReset.v
theories/OutputTrack.v
theories/OutputVert.v
theories/PredictModel.v
theories/PredictProofs.v
theories/PredictProofs2.v
theories/Props_AttFloat.v
theories/Props_Batch.v
theories/Props_Control.v
theories/Props_Control2.v
theories/Props_Control3.v
theories/Props_Cov.v
theories/Props_Cov2.v
theories/Props_Derived.v
theories/Props_Drag.v
theories/Props_Exact.v
theories/Props_Filter.v
theories/Props_Fusion.v
theories/Props_Fusion2.v
theories/Props_Fusion3.v
theories/Props_Fusion4.v
theories/Props_FusionF.v
theories/Props_Geo.v
theories/Props_Geo2.v
theories/Props_Gps.v
theories/Props_Gps2.v
theories/Props_GpsReset.v
theories/Props_Gsf.v
theories/Props_Gsf2.v
theories/Props_Innov.v
theories/Props_InnovFuse.v
theories/Props_Interface.v
theories/Props_Interface2.v
theories/Props_Kahan.v
theories/Props_Lookup.v
theories/Props_Nan.v
theories/Props_NanDt.v
theories/Props_NoNan.v
theories/Props_Obs.v
theories/Props_Obs2.v
theories/Props_Obs3.v
theories/Props_Origin.v
theories/Props_OutFloat.v
theories/Props_Output.v
theories/Props_OutputAtt.v
theories/Props_OutputVert.v
theories/Props_Predict.v
theories/Props_Publish.v
theories/Props_Range.v
theories/Props_Range2.v
theories/Props_Reset.v
theories/Props_Reset2.v
theories/Props_Restart.v
theories/Props_RestartOut.v
theories/Props_RingAlloc.v
theories/Props_RingBuffer.v
theories/Props_Rot.v
theories/Props_Sense.v
theories/Props_Sense2.v
theories/Props_Sense3.v
theories/Props_Sense4.v
theories/Props_Shift.v
theories/Props_Status.v
theories/Props_Terrain.v
theories/Props_Vibe.v
theories/Props_VisReset.v
theories/Props_Wind.v
theories/PsdLib.v
theories/PublishModel.v
theories/RangeModel.v
theories/RangeProofs.v
theories/RangeProofs2.v
theories/RangeProofs3.v
theories/RangeReal.v
theories/RealGeom.v
theories/ResetModel.v
theories/ResetProofs.v
theories/ResetProofs2.v
theories/RestartOutModel.v
theories/RingAllocModel.v
theories/RingBufferHistory.v
theories/RingBufferModel.v
theories/RingBufferProofs.v
theories/RingBufferSpec.v
theories/RotModel.v
theories/RotProofs.v
theories/Scalar.v
theories/SenseModel.v
theories/StartProofs.v
theories/StatusModel.v
theories/StatusProofs.v
theories/TerrainModel.v
theories/VelPosModel.v
theories/VelPosProofs.v
theories/VibeModel.v
theories/VibeProofs.v
theories/VibeProofs2.v
theories/VibeProofs3.v
theories/VibeProofs4.v
theories/WindFloat.v
theories/WindModel.v
theories/WindProofs.v
theories/WindProofs2.v
