-Q theories Verif
theories/Py.v
theories/NumSpec.v
theories/NumModel.v
theories/NumFacts.v
theories/HelpersModel.v
theories/MarginalModel.v
theories/InterpFacts.v
theories/HelpersSpec.v
theories/HelpersProofs.v
theories/ExtentsProofs.v
theories/DensityProofs.v
theories/HelpersProps.v
theories/SummarySpec.v
theories/SimpsonFacts.v
theories/SimpsonExact.v
theories/MarginalProofs.v
theories/QuantileProofs.v
theories/MaxProofs.v
theories/HdiProofs.v
theories/BandProofs.v
theories/FilterProofs.v
theories/SummaryProps.v
theories/ColorModel.v
theories/FrameModel.v
theories/ConfigModel.v
theories/ChainModel.v
theories/RegistryModel.v
theories/RegistrySpec.v
theories/HeapFacts.v
theories/RegistryProofs.v
theories/RegistryProps.v
theories/ColorSpec.v
theories/ColorProofs.v
theories/ColorProps.v
theories/FrameFacts.v
theories/ChainSpec.v
theories/ShiftProofs.v
theories/ChainProofs.v
theories/ChainUseProofs.v
theories/ChainProps.v
theories/CovModel.v
theories/CovSpec.v
theories/CovProofs.v
theories/CovProps.v
theories/DiagModel.v
theories/DiagSpec.v
theories/DiagProofs.v
theories/GewekeProofs.v
theories/DiagProps.v
theories/FormatModel.v
theories/FormatSpec.v
theories/FormatProofs.v
theories/SessionProofs.v
theories/CompareModel.v
theories/CompareSpec.v
theories/CompareProofs.v
theories/CompareProps.v
theories/TextModel.v
theories/TextSpec.v
theories/TextProofs.v
theories/TextProps.v
theories/AnalysisModel.v
theories/AnalysisSpec.v
theories/AnalysisProofs.v
theories/AnalysisProps.v
theories/SurfaceModel.v
theories/SurfaceSpec.v
theories/SurfaceProofs.v
theories/OpacitySpec.v
theories/OpacityFacts.v
theories/PanelSpec.v
theories/PanelProofs.v
theories/ExpBounds.v
theories/SurfaceProps.v
theories/FigureModel.v
theories/FigureSpec.v
theories/FigureProofs.v
theories/BarProofs.v
theories/TriangleProofs.v
theories/TriangleProps.v
theories/FigureCases.v
theories/WalkProofs.v
theories/WalkProps.v
theories/DistProofs.v
theories/DistProps.v
theories/SummaryFigProofs.v
theories/SummaryFigProps.v
theories/ConsumerSpec.v
theories/ConsumerProofs.v
theories/ConsumerProps.v
theories/BoundModel.v
theories/BoundProps.v
theories/KdeModel.v
theories/KdeSpec.v
theories/KdeProofs.v
theories/KdeUnits.v
theories/KdeProps.v
theories/EquivFacts.v
theories/EquivSpec.v
theories/EquivProofs.v
theories/EquivApi.v
theories/EquivProps.v
theories/PlotDistModel.v
theories/PlotDistSpec.v
theories/PlotDistProofs.v
theories/PlotDistProps.v
theories/ShadeModel.v
theories/ShadeSpec.v
theories/ShadeProofs.v
theories/ShadeProps.v
theories/ReportSpec.v
theories/ReportProofs.v
theories/GrowthProofs.v
theories/ReportProps.v
theories/QuerySpec.v
theories/QueryProofs.v
theories/QueryProps.v
theories/OffsetSpec.v
theories/OffsetProofs.v
theories/OffsetProps.v
theories/PlanarSpec.v
theories/PlanarProofs.v
theories/PlanarProps.v
theories/MirrorSpec.v
theories/MirrorProofs.v
theories/MirrorProps.v
theories/KeywordModel.v
theories/KeywordSpec.v
theories/KeywordProofs.v
theories/KeywordProps.v
theories/ForecastModel.v
theories/ForecastSpec.v
theories/ForecastProofs.v
theories/ForecastProps.v
theories/WatermarkModel.v
theories/WatermarkSpec.v
theories/WatermarkProofs.v
theories/WatermarkProps.v
theories/ColormapModel.v
theories/ColormapSpec.v
theories/ColormapProps.v
theories/SampleModel.v
theories/SampleSpec.v
theories/SampleProps.v
theories/HistorySpec.v
theories/HistoryProps.v
theories/TextEquivSpec.v
theories/TextEquivProofs.v
theories/TextEquivProps.v
theories/AssignModel.v
theories/AssignSpec.v
theories/AssignProofs.v
theories/AssignProps.v
theories/CovEquivProofs.v
theories/CovEquivProps.v
theories/KdeOrderProofs.v
theories/KdeOrderProps.v
theories/AxisEquivSpec.v
theories/AxisEquivProofs.v
theories/AxisEquivProps.v
theories/MeaningSpec.v
theories/MeaningProofs.v
theories/MeaningProps.v
theories/ProcessSpec.v
theories/ProcessProofs.v
theories/ProcessProps.v
theories/AloneSpec.v
theories/AloneProofs.v
theories/AloneProps.v
theories/OverrideSpec.v
theories/OverrideProofs.v
theories/OverrideProps.v
theories/WalkersModel.v
theories/WalkersSpec.v
theories/WalkersProofs.v
theories/WalkersProps.v
theories/UnknownProps.v
theories/WarnModel.v
theories/WarnSpec.v
theories/WarnProofs.v
theories/WarnProps.v
theories/CompanySpec.v
theories/CompanyProofs.v
theories/CompanyProps.v
theories/NoteModel.v
theories/NoteSpec.v
theories/NoteProofs.v
theories/NoteProps.v
theories/VerdictModel.v
theories/VerdictSpec.v
theories/VerdictProofs.v
theories/VerdictProps.v
theories/FigEquivSpec.v
theories/FigEquivProofs.v
theories/FigEquivProps.v
theories/TriEquivSpec.v
theories/TriEquivProofs.v
theories/TriEquivProps.v
theories/NoteFigModel.v
theories/NoteFigSpec.v
theories/NoteFigProofs.v
theories/NoteFigProps.v
theories/PaletteSpec.v
theories/PaletteProps.v
theories/DefaultsSpec.v
theories/DefaultsProps.v
theories/WindowProps.v
theories/TruthModel.v
theories/TruthSpec.v
theories/TruthProps.v
theories/CosmeticSpec.v
theories/CosmeticProofs.v
theories/CosmeticProps.v
theories/TruthFigSpec.v
theories/TruthFigProofs.v
theories/TruthFigProps.v
theories/UnitFigSpec.v
theories/UnitFigProofs.v
theories/UnitFigProps.v
theories/ColumnsSpec.v
theories/ColumnsProofs.v
theories/ColumnsProps.v
theories/AmongSpec.v
theories/AmongProofs.v
theories/AmongProps.v
theories/WalkUnitSpec.v
theories/WalkUnitProofs.v
theories/WalkUnitProps.v
theories/LenientSpec.v
theories/LenientProofs.v
theories/LenientProps.v
theories/PenaltySpec.v
theories/PenaltyProofs.v
theories/PenaltyProps.v
