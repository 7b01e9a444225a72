-Q theories Verif
theories/Base/Ext.v
theories/Base/PyList.v
theories/Model/DisparityModel.v
theories/Spec/WtaSpec.v
theories/Proofs/ChunkProofs.v
theories/Proofs/WtaProofs.v
theories/Proofs/WtaTheorems.v
theories/Props/WtaProps.v
theories/Base/Arr.v
theories/Base/Dict.v
theories/Base/Json.v
theories/Model/CommonModel.v
theories/Spec/MaskSpec.v
theories/Proofs/MaskProofs.v
theories/Base/ZRange.v
theories/Model/ImgShiftModel.v
theories/Spec/ShiftSpec.v
theories/Proofs/ShiftProofs.v
theories/Model/MatchingCostModel.v
theories/Spec/MatchingCostSpec.v
theories/Proofs/MatchingCostProofs.v
theories/Proofs/MatchingCostTheorems.v
theories/Proofs/GridStepProofs.v
theories/Props/MatchingCostProps.v
theories/Model/CriteriaModel.v
theories/Spec/CriteriaSpec.v
theories/Proofs/CriteriaProofs.v
theories/Props/CriteriaProps.v
theories/Spec/CriteriaCostSpec.v
theories/Model/RoiModel.v
theories/Spec/RoiSpec.v
theories/Proofs/RoiProofs.v
theories/Props/RoiProps.v
theories/Model/InputModel.v
theories/Spec/InputSpec.v
theories/Proofs/InputProofs.v
theories/Props/InputProps.v
theories/Model/MachineModel.v
theories/Spec/MachineSpec.v
theories/Proofs/MachineProofs.v
theories/Props/MachineProps.v
theories/Model/ConfigModel.v
theories/Model/RegistryModel.v
theories/Spec/RegistrySpec.v
theories/Proofs/RegistryProofs.v
theories/Props/RegistryProps.v
theories/Spec/ConfigSpec.v
theories/Proofs/ConfigProofs.v
theories/Proofs/ConfigStepProofs.v
theories/Props/ConfigProps.v
theories/Model/DatasetModel.v
theories/Model/EstimationModel.v
theories/Spec/DatasetSpec.v
theories/Spec/EstimationSpec.v
theories/Proofs/DatasetProofs.v
theories/Props/DatasetProps.v
theories/Proofs/EstimationProofs.v
theories/Props/EstimationProps.v
theories/Model/DichotomyModel.v
theories/Spec/DichotomySpec.v
theories/Proofs/DichotomyProofs.v
theories/Proofs/DichotomyTheorems.v
theories/Props/DichotomyProps.v
theories/Props/RefineMoreProps.v
theories/Model/FilterModel.v
theories/Spec/FilterSpec.v
theories/Proofs/BicubicProofs.v
theories/Proofs/SincProofs.v
theories/Props/FilterProps.v
theories/Model/OpticalFlowModel.v
theories/Model/LucasKanadeModel.v
theories/Spec/LucasKanadeSpec.v
theories/Proofs/LucasKanadeProofs.v
theories/Props/LucasKanadeProps.v
theories/Model/InterpolationModel.v
theories/Model/StatisticsModel.v
theories/Model/ProfilingModel.v
theories/Model/MainModel.v
theories/Model/PipelineModel.v
theories/Spec/OpticalFlowSpec.v
theories/Spec/InterpolationSpec.v
theories/Spec/StatisticsSpec.v
theories/Spec/PipelineSpec.v
theories/Proofs/FlowProofs.v
theories/Proofs/FlowWindows.v
theories/Proofs/FlowTheorems.v
theories/Proofs/FlowRange.v
theories/Proofs/InterpolationProofs.v
theories/Proofs/StatisticsProofs.v
theories/Proofs/ProfilingProofs.v
theories/Proofs/PipelineProofs.v
theories/Props/OpticalFlowProps.v
theories/Props/InterpolationProps.v
theories/Props/ExactProps.v
theories/Props/StatisticsProps.v
theories/Props/ProfilingProps.v
theories/Props/MainProps.v
theories/Props/PipelineProps.v
theories/Model/CheckConfModel.v
theories/Spec/CheckConfSpec.v
theories/Proofs/MergeProofs.v
theories/Proofs/CheckConfProofs.v
theories/Props/CheckConfProps.v
theories/Spec/AcceptSpec.v
theories/Proofs/AcceptProofs.v
theories/Props/AcceptProps.v
theories/Spec/HistorySpec.v
theories/Proofs/HistoryProofs.v
theories/Props/HistoryProps.v
theories/Model/WholeModel.v
theories/Model/OutputModel.v
theories/Model/WholeFilesModel.v
theories/Model/ReportModel.v
theories/Spec/BestSpec.v
theories/Proofs/BestProofs.v
theories/Spec/WholeSpec.v
theories/Spec/OutputSpec.v
theories/Spec/ReportSpec.v
theories/Spec/WholeEverySpec.v
theories/Proofs/OutputProofs.v
theories/Proofs/WholeProofs.v
theories/Proofs/WholeRunProofs.v
theories/Proofs/WholeMainProofs.v
theories/Proofs/WholeAgainProofs.v
theories/Proofs/WholeFilesProofs.v
theories/Proofs/WholeMoreProofs.v
theories/Spec/WholeEndSpec.v
theories/Spec/WholeRoiSpec.v
theories/Spec/InterpUniqueSpec.v
theories/Proofs/WholeEndProofs.v
theories/Proofs/WholeRoiProofs.v
theories/Proofs/InterpUniqueProofs.v
theories/Proofs/WholeEveryProofs.v
theories/Props/WholeProps.v
theories/Props/WholeMoreProps.v
theories/Props/WholeInnerProps.v
theories/Props/WholeEveryProps.v
theories/Props/OutputProps.v
theories/Props/ReportProps.v
theories/Props/WholeReportProps.v
theories/Props/WholeGridProps.v
theories/Spec/WholeRefineSpec.v
theories/Spec/WholeExactSpec.v
theories/Spec/WholeFlowSpec.v
theories/Proofs/RefineBestProofs.v
theories/Proofs/RefineExactProofs.v
theories/Proofs/WholeFlowProofs.v
theories/Props/WholeRefineProps.v
theories/Props/WholeExactProps.v
theories/Spec/WholeInterpSpec.v
theories/Proofs/WholeInterpProofs.v
theories/Props/WholeInterpProps.v
theories/Props/WholeEndProps.v
theories/Props/WholeRoiProps.v
theories/Spec/WholeMatchSpec.v
theories/Spec/WholeOrderSpec.v
theories/Spec/WholeMovedSpec.v
theories/Proofs/WholeOrderProofs.v
theories/Proofs/WholeMovedProofs.v
theories/Props/WholeMatchProps.v
theories/Props/WholeOrderProps.v
theories/Props/WholeMovedProps.v
theories/Spec/WholeCompareSpec.v
theories/Props/WholeCompareProps.v
theories/Spec/HalvingSpec.v
theories/Proofs/HalvingProofs.v
theories/Proofs/BetweenProofs.v
theories/Proofs/BicubicHalving.v
theories/Props/HalvingProps.v
theories/Spec/WholeFractionSpec.v
theories/Props/WholeFractionProps.v
theories/Spec/WholeGoalSpec.v
theories/Proofs/WholeGoalProofs.v
theories/Props/WholeGoalProps.v
theories/Model/CommandModel.v
theories/Spec/CommandSpec.v
theories/Proofs/CommandProofs.v
theories/Props/CommandProps.v
theories/Props/CriteriaCostProps.v
theories/Spec/DefaultsSpec.v
theories/Proofs/DefaultsProofs.v
theories/Proofs/SavedProofs.v
theories/Props/DefaultsProps.v
theories/Spec/OrderSpec.v
theories/Proofs/OrderProofs.v
theories/Proofs/OrderRunProofs.v
theories/Props/OrderProps.v
theories/Props/OrderRunProps.v
theories/Props/OtherSectionsProps.v
theories/Proofs/ExpertProofs.v
theories/Props/ExpertRunProps.v
theories/Spec/FlowInvalidSpec.v
theories/Props/FlowInvalidProps.v
