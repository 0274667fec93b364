-Q theories Verif
theories/Loop.v
theories/CalModel.v
theories/CalSpec.v
theories/CalProofs.v
theories/CalPyProofs.v
theories/SeasonModel.v
theories/SeasonProofs.v
theories/CalProps.v
theories/TimeSearchModel.v
theories/TimeSearchSpec.v
theories/TimeSearchProofs.v
theories/TimeMapProofs.v
theories/TimeDateProofs.v
theories/TimeSearchProps.v
theories/SortModel.v
theories/SortSpec.v
theories/SortProofs.v
theories/MapToProofs.v
theories/SortProps.v
theories/IndexModel.v
theories/IndexSpec.v
theories/IndexProofs.v
theories/ChunkProofs.v
theories/IndexProps.v
theories/ArrModel.v
theories/ViewModel.v
theories/ViewSpec.v
theories/ArrProofs.v
theories/ViewProofs.v
theories/AxisModel.v
theories/AxisSpec.v
theories/AxisProofs.v
theories/VarOpsModel.v
theories/VarOpsSpec.v
theories/VarOpsProofs.v
theories/EnvExample.v
theories/ViewProps.v
theories/VarOpsLemmas.v
theories/VarOpsProps.v
theories/AxisProps.v
theories/NumModel.v
theories/ReduceModel.v
theories/ReduceSpec.v
theories/FibreProofs.v
theories/LoopProofs.v
theories/RespondProofs.v
theories/NumProofs.v
theories/ReduceProofs.v
theories/ReduceKinds.v
theories/StatProofs.v
theories/MeanKinds.v
theories/WeightProofs.v
theories/ArgProofs.v
theories/ReduceLemmas.v
theories/ReduceProps.v
theories/UfuncModel.v
theories/UfuncSpec.v
theories/UfuncProofs.v
theories/UfuncView.v
theories/UfuncProps.v
theories/MetaModel.v
theories/MetaProps.v
theories/StencilModel.v
theories/StencilSpec.v
theories/StencilProofs.v
theories/DiffProofs.v
theories/DerivProofs.v
theories/IntgrProofs.v
theories/StencilLemmas.v
theories/StencilProps.v
theories/SelectModel.v
theories/SelectSpec.v
theories/SelectProofs.v
theories/SelectProps.v
theories/ConcatModel.v
theories/ConcatSpec.v
theories/ConcatProofs.v
theories/ConcatAxis.v
theories/ConcatVar.v
theories/ConcatProps.v
theories/WindowModel.v
theories/WindowSpec.v
theories/WindowProofs.v
theories/LagProofs.v
theories/CompositeProofs.v
theories/FlattenProofs.v
theories/WindowProps.v
theories/SmoothModel.v
theories/SmoothSpec.v
theories/BlockProofs.v
theories/SmoothProofs.v
theories/SmoothView.v
theories/SmoothProps.v
theories/InterpModel.v
theories/InterpSpec.v
theories/InterpProofs.v
theories/InterpLinear.v
theories/InterpView.v
theories/InterpProps.v
theories/ClimModel.v
theories/ClimSum.v
theories/ClimAxis.v
theories/ClimChunk.v
theories/ClimView.v
theories/ClimSpec.v
theories/ClimTotal.v
theories/ClimStat.v
theories/ClimLine.v
theories/ClimTrend.v
theories/ClimProps.v
theories/LeapModel.v
theories/LeapSpec.v
theories/LeapProofs.v
theories/LeapAxis.v
theories/LeapVar.v
theories/LeapProps.v
theories/PackModel.v
theories/PackSpec.v
theories/PackProofs.v
theories/PackProps.v
theories/DatasetModel.v
theories/DatasetSpec.v
theories/DatasetNames.v
theories/DatasetAxes.v
theories/DatasetVars.v
theories/DatasetProofs.v
theories/DatasetProps.v
theories/RegressModel.v
theories/RegressSpec.v
theories/RegressAxes.v
theories/RegressSums.v
theories/RegressLine.v
theories/RegressProofs.v
theories/RegressProps.v
theories/MeansModel.v
theories/MeansSpec.v
theories/MeansProofs.v
theories/MeansPairs.v
theories/MeansProps.v
theories/MultiModel.v
theories/MultiSpec.v
theories/MultiLeast.v
theories/MultiSums.v
theories/MultiProofs.v
theories/MultiPlace.v
theories/MultiProps.v
theories/CfModel.v
theories/CfSpec.v
theories/CfText.v
theories/CfProofs.v
theories/CfProps.v
theories/CfAxisSpec.v
theories/CfAxisProofs.v
theories/CfAxisProps.v
theories/CfNameProps.v
theories/MultiFileModel.v
theories/MultiFileSpec.v
theories/MultiFileRead.v
theories/MultiFileProofs.v
theories/MultiFileView.v
theories/MultiFileProps.v
theories/MultiTimeModel.v
theories/MultiTimeSpec.v
theories/MultiTimeProofs.v
theories/MultiTimeProps.v
theories/EnsembleModel.v
theories/EnsembleProps.v
theories/CombineModel.v
theories/CombineProps.v

theories/TickModel.v
theories/TickProofs.v
theories/TickClock.v
theories/TickMonth.v
theories/TickProps.v
theories/SplitModel.v
theories/SplitSpec.v
theories/SplitProofs.v
theories/SplitView.v
theories/SplitJoin.v
theories/SplitProps.v
theories/DateTextModel.v
theories/DateTextSpec.v
theories/DateTextProofs.v
theories/DateTextProps.v
theories/DateRangeProps.v
theories/DomainModel.v
theories/DomainSpec.v
theories/DomainProofs.v
theories/DomainOrder.v
theories/DomainJoin.v
theories/DomainProps.v
theories/ScanModel.v
theories/ScanSpec.v
theories/ScanProofs.v
theories/ScanProps.v
theories/RotateModel.v
theories/RotateSpec.v
theories/RotateProps.v
theories/NcModel.v
theories/NcSpec.v
theories/NcProofs.v
theories/NcOpen.v
theories/NcProps.v
theories/ItemModel.v
theories/ItemSpec.v
theories/ItemProps.v
theories/AnomModel.v
theories/AnomSpec.v
theories/AnomProofs.v
theories/AnomView.v
theories/AnomProps.v
theories/CallModel.v
theories/CallSpec.v
theories/CallProofs.v
theories/CallProps.v
theories/FillModel.v
theories/FillProps.v
theories/DsMapSpec.v
theories/DsMapModel.v
theories/DsMapProofs.v
theories/DsMapProps.v
theories/DsNameModel.v
theories/DsNameProofs.v
theories/DsNameProps.v
theories/SortAny.v
theories/OpenAllModel.v
theories/OpenAllSpec.v
theories/OpenAllProofs.v
theories/OpenAllProps.v
theories/FinalModel.v
theories/FinalProofs.v
theories/FinalProps.v
theories/SortCallModel.v
theories/SortCallProps.v
theories/StationModel.v
theories/StationProofs.v
theories/StationProps.v
theories/ManifestModel.v
theories/ManifestProps.v
theories/FindModel.v
theories/FindProps.v
