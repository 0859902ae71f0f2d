-Q theories Verif
theories/Base/Bytes.v
theories/Base/ListX.v
theories/Base/Np.v
theories/Base/QcR.v
theories/Base/QcX.v
theories/Base/Res.v
theories/Base/Sort.v
theories/Base/Sums.v
theories/Model/Average.v
theories/Model/Bins.v
theories/Model/Cli.v
theories/Model/CliDraw.v
theories/Model/CliRuns.v
theories/Model/Click.v
theories/Model/Collect.v
theories/Model/ContactAngle.v
theories/Model/ContactLine.v
theories/Model/CurveFigures.v
theories/Model/CurveRuns.v
theories/Model/Edges.v
theories/Model/EdgesFiles.v
theories/Model/Figure.v
theories/Model/FitFiles.v
theories/Model/FitRuns.v
theories/Model/Flow.v
theories/Model/Formats.v
theories/Model/Gmx.v
theories/Model/GridAverage.v
theories/Model/Interface.v
theories/Model/InterfaceAngle.v
theories/Model/InterfaceFiles.v
theories/Model/InterfaceSample.v
theories/Model/InterfaceView.v
theories/Model/InterfaceViewFiles.v
theories/Model/PowerFit.v
theories/Model/PyText.v
theories/Model/ReadFiles.v
theories/Model/RealText.v
theories/Model/Resample.v
theories/Model/Sample.v
theories/Model/SampleAngle.v
theories/Model/SampleFiles.v
theories/Model/Simple.v
theories/Model/SimpleAverage.v
theories/Model/Spreading.v
theories/Model/SpreadingFiles.v
theories/Model/SpreadingView.v
theories/Model/Table.v
theories/Model/Text.v
theories/Model/Utils.v
theories/Model/ViewFlow.v
theories/Model/ViewFlowR.v
theories/Model/ViewRuns.v
theories/Proofs/AngleP.v
theories/Proofs/AverageCutP.v
theories/Proofs/AverageFilesP.v
theories/Proofs/CliP.v
theories/Proofs/CliTextP.v
theories/Proofs/ClickP.v
theories/Proofs/CollectP.v
theories/Proofs/CollectRunP.v
theories/Proofs/CombineBinsP.v
theories/Proofs/ContactLineP.v
theories/Proofs/ConvertRunP.v
theories/Proofs/EdgesCombineP.v
theories/Proofs/EdgesP.v
theories/Proofs/FlowP.v
theories/Proofs/FormatsP.v
theories/Proofs/GmxP.v
theories/Proofs/GmxRoundP.v
theories/Proofs/GridAverageP.v
theories/Proofs/GridP.v
theories/Proofs/InterfaceAngleP.v
theories/Proofs/InterfaceFilesP.v
theories/Proofs/InterfaceP.v
theories/Proofs/InterfaceSampleP.v
theories/Proofs/InterfaceViewP.v
theories/Proofs/LongestRunP.v
theories/Proofs/NumberTextP.v
theories/Proofs/PowerFitP.v
theories/Proofs/PyTextP.v
theories/Proofs/RealTextP.v
theories/Proofs/RealTextP2.v
theories/Proofs/RecentreP.v
theories/Proofs/ResampleP.v
theories/Proofs/SampleAngleP.v
theories/Proofs/SampleFilesP.v
theories/Proofs/SampleP.v
theories/Proofs/SimpleAverageP.v
theories/Proofs/SimpleP.v
theories/Proofs/SpreadingFilesP.v
theories/Proofs/SpreadingP.v
theories/Proofs/SpreadingReadP.v
theories/Proofs/SpreadingViewP.v
theories/Proofs/SymmetryP.v
theories/Proofs/TableP.v
theories/Proofs/TextP.v
theories/Proofs/UnitsP.v
theories/Proofs/UtilsDisk.v
theories/Proofs/UtilsFiles.v
theories/Proofs/UtilsTop.v
theories/Proofs/ViewFlowP.v
theories/Props/AngleRunProps.v
theories/Props/AverageExamples.v
theories/Props/AverageFailProps.v
theories/Props/AverageFilesProps.v
theories/Props/AverageProps.v
theories/Props/ChainAngleProps.v
theories/Props/ChainFigureProps.v
theories/Props/ChainProps.v
theories/Props/CliDrawProps.v
theories/Props/CliEdgesProps.v
theories/Props/CliEndProps.v
theories/Props/CliNamesProps.v
theories/Props/CliProps.v
theories/Props/CliRunsProps.v
theories/Props/CliTableProps.v
theories/Props/CliTextProps.v
theories/Props/CollectProps.v
theories/Props/ContactLineProps.v
theories/Props/CurveFigureProps.v
theories/Props/CurveRunProps.v
theories/Props/EdgesProps.v
theories/Props/EdgesRunProps.v
theories/Props/FigureProps.v
theories/Props/FilesProps.v
theories/Props/FitRunProps.v
theories/Props/FlowProps.v
theories/Props/FormatsProps.v
theories/Props/GmxProps.v
theories/Props/GridAverageProps.v
theories/Props/InterfaceAngleProps.v
theories/Props/InterfaceFilesProps.v
theories/Props/InterfaceProps.v
theories/Props/InterfaceRunProps.v
theories/Props/InterfaceSampleProps.v
theories/Props/InterfaceViewProps.v
theories/Props/InterfaceViewRunProps.v
theories/Props/MapRunProps.v
theories/Props/PowerFitProps.v
theories/Props/ResampleProps.v
theories/Props/SampleAngleProps.v
theories/Props/SampleProps.v
theories/Props/SampleRunProps.v
theories/Props/SimpleProps.v
theories/Props/SpreadingFilesExamples.v
theories/Props/SpreadingFilesProps.v
theories/Props/SpreadingProps.v
theories/Props/SpreadingRunProps.v
theories/Props/SpreadingViewProps.v
theories/Props/SymmetryProps.v
theories/Props/UnitsProps.v
theories/Props/ViewFlowProps.v
theories/Props/ViewRunProps.v
theories/Spec/AngleSpec.v
theories/Spec/AverageSpec.v
theories/Spec/CircleSpec.v
theories/Spec/CliReads.v
theories/Spec/CliSpec.v
theories/Spec/CliTable.v
theories/Spec/CollectSpec.v
theories/Spec/ContactLineSpec.v
theories/Spec/CurveSpec.v
theories/Spec/DiskSpec.v
theories/Spec/EdgesSpec.v
theories/Spec/FieldSpec.v
theories/Spec/FilesSpec.v
theories/Spec/FlowSpec.v
theories/Spec/GridSpec.v
theories/Spec/InterfaceSpec.v
theories/Spec/LengthSpec.v
theories/Spec/MapSpec.v
theories/Spec/PolygonSpec.v
theories/Spec/RealTextSpec.v
theories/Spec/SecantSpec.v
theories/Spec/SpreadingSpec.v
theories/Spec/SymmetrySpec.v
theories/Spec/TableSpec.v
theories/Spec/UnitsSpec.v
theories/Spec/ViewFlowSpec.v
theories/Spec/ViewRunSpec.v
