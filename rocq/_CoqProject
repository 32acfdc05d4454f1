-Q theories Verif
theories/Base.v
theories/BaseFacts.v
theories/UnitsModel.v
theories/UnitsSpec.v
theories/UnitsProofs.v
theories/UnitsProps.v
theories/StoreModel.v
theories/StoreSpec.v
theories/StoreProofs.v
theories/ModifyProofs.v
theories/CopyProofs.v
theories/AddDeleteProofs.v
theories/StoreProps.v
theories/MergeProofs.v
theories/MergeTopProofs.v
theories/PhaseMergeProofs.v
theories/PhaseMergeTop.v
theories/MergeExamples.v
theories/MergeProps.v
theories/NetworkModel.v
theories/NetworkSpec.v
theories/NetworkProofs.v
theories/NetworkBfs.v
theories/NetworkQueries.v
theories/NetworkDown.v
theories/NetworkEdit.v
theories/NetworkTop.v
theories/SortProofs.v
theories/NetworkProps.v
theories/MatrixModel.v
theories/MatrixSpec.v
theories/MatrixProofs.v
theories/KronProofs.v
theories/KronTop.v
theories/ImpedModel.v
theories/ImpedSpec.v
theories/ImpedProofs.v
theories/ImpedTop.v
theories/CarsonProofs.v
theories/MatrixProps.v
theories/ConsistencyModel.v
theories/ConsistencySpec.v
theories/PathProofs.v
theories/ConsistencyProofs.v
theories/RouteProofs.v
theories/PhasePathProofs.v
theories/UndersizedProofs.v
theories/ConsistencyTop.v
theories/ConsistencyProps.v
theories/JsonModel.v
theories/JsonSpec.v
theories/JsonProofs.v
theories/JsonProps.v
theories/CymeMapModel.v
theories/CymeMapSpec.v
theories/CymeMapProofs.v
theories/CymeRegProofs.v
theories/CymeMapProps.v
theories/DssNameModel.v
theories/DssNameSpec.v
theories/DssNameProofs.v
theories/DssNameProps.v
theories/ReaderModel.v
theories/ReaderSpec.v
theories/ReaderProofs.v
theories/ReaderProps.v
theories/CsvModel.v
theories/CsvSpec.v
theories/CsvProofs.v
theories/CsvProps.v
theories/VoltModel.v
theories/VoltSpec.v
theories/VoltProofs.v
theories/VoltProps.v
theories/CoordModel.v
theories/CoordSpec.v
theories/CoordProofs.v
theories/CoordProps.v
theories/FeederModel.v
theories/FeederSpec.v
theories/FeederProofs.v
theories/FeederProps.v
theories/TextModel.v
theories/SwitchModel.v
theories/SwitchSpec.v
theories/SwitchProofs.v
theories/SwitchProps.v
theories/CenterTapModel.v
theories/CenterTapSpec.v
theories/CenterTapProofs.v
theories/CenterTapProps.v
theories/SectionModel.v
theories/SectionSpec.v
theories/SectionProofs.v
theories/SectionProps.v
theories/CymeParseModel.v
theories/CymeParseSpec.v
theories/CymeParseProofs.v
theories/CymeParseProps.v
theories/MetricsModel.v
theories/MetricsSpec.v
theories/MetricsProofs.v
theories/MetricsLines.v
theories/MetricsLoads.v
theories/MetricsMore.v
theories/MetricsTop.v
theories/MetricsFuns.v
theories/MetricsMap.v
theories/MetricsProps.v
theories/TerminalModel.v
theories/TerminalSpec.v
theories/TerminalProofs.v
theories/TerminalProps.v
theories/SplitModel.v
theories/SplitSpec.v
theories/SplitProofs.v
theories/SplitProps.v
theories/TagModel.v
theories/TagSpec.v
theories/TagProofs.v
theories/TagProps.v
theories/DssCodeModel.v
theories/DssCodeSpec.v
theories/DssCodeProofs.v
theories/DssCodeProps.v
theories/DssLineCodeSpec.v
theories/DssLineCodeProofs.v
theories/DssLineCodeProps.v
theories/DssFileModel.v
theories/DssFileSpec.v
theories/DssFileProofs.v
theories/DssFileProps.v
theories/DssMasterModel.v
theories/DssMasterSpec.v
theories/DssMasterProofs.v
theories/DssMasterProps.v
theories/SpacingModel.v
theories/SpacingSpec.v
theories/SpacingProofs.v
theories/SpacingProps.v
theories/GlmModel.v
theories/GlmSpec.v
theories/GlmProofs.v
theories/GlmProps.v
theories/GldModel.v
theories/GldSpec.v
theories/GldProofs.v
theories/GldLoadProps.v
theories/GldEquipProps.v
theories/GldLineModel.v
theories/GldLineSpec.v
theories/GldUnderProofs.v
theories/GldLineProofs.v
theories/GldTriplexProofs.v
theories/GldReadProofs.v
theories/GldLineProps.v
theories/DssTextModel.v
theories/DssTextSpec.v
theories/DssTextProofs.v
theories/DssLoadSpec.v
theories/DssLoadProofs.v
theories/DssLineTextProofs.v
theories/DssCapTextProofs.v
theories/DssTextProps.v
theories/DssTransModel.v
theories/DssTransSpec.v
theories/DssTransProofs.v
theories/DssTransProps.v
theories/DssRegModel.v
theories/DssRegSpec.v
theories/DssRegProofs.v
theories/DssRegProps.v
theories/DssStoreModel.v
theories/DssStoreSpec.v
theories/DssStoreProofs.v
theories/DssStoreProps.v
theories/DssPvModel.v
theories/DssPvSpec.v
theories/DssPvProofs.v
theories/DssPvProps.v
theories/DssShapeModel.v
theories/DssShapeSpec.v
theories/DssShapeProofs.v
theories/DssShapeProps.v
theories/LevelModel.v
theories/LevelSpec.v
theories/LevelProofs.v
theories/LevelProps.v
theories/GlmWriteModel.v
theories/GlmWriteSpec.v
theories/GlmWriteProofs.v
theories/GlmConfProofs.v
theories/GlmConfLineProofs.v
theories/GlmFileProofs.v
theories/GlmPartsProofs.v
theories/GlmRefsProofs.v
theories/GlmWriteProps.v
theories/GlmBackSpec.v
theories/GlmBackProofs.v
theories/GlmBackProps.v
theories/DssNodeModel.v
theories/DssNodeSpec.v
theories/DssNodeProofs.v
theories/DssNodeProps.v
theories/DssRdLoadModel.v
theories/DssRdLoadSpec.v
theories/DssRdLoadProofs.v
theories/DssRdLoadProps.v
theories/DssRdCapModel.v
theories/DssRdCapSpec.v
theories/DssRdCapProofs.v
theories/DssRdCapProps.v
theories/DssSrcModel.v
theories/DssSrcSpec.v
theories/DssSrcProofs.v
theories/DssSrcProps.v
theories/DssVoltModel.v
theories/DssVoltSpec.v
theories/DssVoltProofs.v
theories/DssVoltProps.v
theories/DssGenModel.v
theories/DssGenSpec.v
theories/DssGenProofs.v
theories/DssGenProps.v
theories/DssRdTransModel.v
theories/DssRdTransSpec.v
theories/DssRdTransProofs.v
theories/DssRdTransProps.v
theories/DssRdRegModel.v
theories/DssRdRegSpec.v
theories/DssRdRegProofs.v
theories/DssRdRegProps.v
theories/DssRdLineModel.v
theories/DssRdLineSpec.v
theories/DssRdLineProofs.v
theories/DssRdLineProps.v
theories/DssRdGeoSpec.v
theories/DssRdGeoProofs.v
theories/DssRdGeoProps.v
theories/CymeSecModel.v
theories/CymeSecSpec.v
theories/CymeSecProofs.v
theories/CymeSecProps.v
theories/CymeNodeModel.v
theories/CymeNodeSpec.v
theories/CymeNodeProofs.v
theories/CymeNodeProps.v
theories/CymeLoadModel.v
theories/CymeLoadSpec.v
theories/CymeLoadProofs.v
theories/CymeLoadProps.v
theories/CymeWrLoadModel.v
theories/CymeWrLoadSpec.v
theories/CymeWrLoadProofs.v
theories/CymeWrLoadProps.v
theories/RecloserModel.v
theories/RecloserSpec.v
theories/RecloserProofs.v
theories/RecloserProps.v
theories/HeadModel.v
theories/HeadSpec.v
theories/HeadProofs.v
theories/HeadProps.v
theories/CymeSrcModel.v
theories/CymeSrcSpec.v
theories/CymeSrcProps.v
theories/CymeCapModel.v
theories/CymeCapSpec.v
theories/CymeCapProps.v
theories/CymeLineModel.v
theories/CymeLineSpec.v
theories/CymeLineProofs.v
theories/CymeLineProps.v
theories/AmpModel.v
theories/AmpSpec.v
theories/AmpProps.v
theories/MidModel.v
theories/MidProps.v
theories/TPathModel.v
theories/TPathSpec.v
theories/TPathProps.v
theories/CymeVregModel.v
theories/CymeVregSpec.v
theories/CymeVregProps.v
theories/CymeEquivModel.v
theories/CymeEquivSpec.v
theories/CymeEquivProps.v
theories/CymeTrafoModel.v
theories/CymeTrafoSpec.v
theories/CymeTrafoProofs.v
theories/CymeTrafoProps.v
theories/CymeDgModel.v
theories/CymeDgSpec.v
theories/CymeDgProofs.v
theories/CymeDgProps.v
theories/DistModel.v
theories/DistSpec.v
theories/DistProofs.v
theories/DistProps.v
theories/NodeVoltModel.v
theories/NodeVoltSpec.v
theories/NodeVoltProps.v
theories/PathZModel.v
theories/PathZSpec.v
theories/PathZProps.v
theories/WmLineModel.v
theories/WmLineSpec.v
theories/WmLineProofs.v
theories/WmLineProps.v
theories/WmLoadModel.v
theories/WmLoadSpec.v
theories/WmLoadProps.v
theories/WmTrafoModel.v
theories/WmTrafoSpec.v
theories/WmTrafoProps.v
theories/WmKvModel.v
theories/WmKvSpec.v
theories/WmKvProps.v
theories/WmRegModel.v
theories/WmRegSpec.v
theories/WmRegProps.v
theories/ConvModel.v
theories/ConvSpec.v
theories/ConvProps.v
theories/PtDistModel.v
theories/PtDistProps.v
theories/SpcModel.v
theories/SpcSpec.v
theories/SpcProofs.v
theories/SpcProps.v
theories/PhZModel.v
theories/PhZSpec.v
theories/PhZProps.v
theories/WmZModel.v
theories/WmZProps.v
theories/CymeDefProps.v
theories/WmFileModel.v
theories/WmFileProps.v
theories/EphModel.v
theories/EphProps.v
theories/EphLoadModel.v
theories/EphLoadProps.v
