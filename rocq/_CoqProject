-Q theories Verif
theories/Base.v
theories/BaseFacts.v
theories/UnitsModel.v
theories/UnitsSpec.v
theories/UnitsProofs.v
theories/PropertiesUnits.v
theories/AnalysisFacts.v
theories/AtmosModel.v
theories/AtmosSpec.v
theories/IsaReal.v
theories/IsaProofs.v
theories/IsaInverse.v
theories/AtmosProofs.v
theories/AtmosProofs2.v
theories/AtmosProofs3.v
theories/AtmosProofs4.v
theories/AtmosProofs5.v
theories/PropertiesAtmos.v
theories/RunwayModel.v
theories/RunwaySpec.v
theories/RunwayProofs.v
theories/RunwayProofs2.v
theories/PropertiesRunway.v
theories/ConceptModel.v
theories/ConceptSpec.v
theories/ConceptProofs.v
theories/ConceptProofs2.v
theories/ConceptProofs3.v
theories/ConceptProofs4.v
theories/ConceptProofs5.v
theories/ConceptProofs6.v
theories/PropertiesConcept.v
theories/MethodsModel.v
theories/MethodsSpec.v
theories/MethodsExamples.v
theories/MethodsProofs.v
theories/MethodsProofs2.v
theories/MethodsProofs3.v
theories/MethodsProofs4.v
theories/PropertiesWing.v
theories/ConstraintSpec.v
theories/ConstraintProofs.v
theories/ConstraintProofs2.v
theories/ConstraintProofs3.v
theories/ConstraintProofs4.v
theories/ConstraintProofs5.v
theories/ConstraintProofs6.v
theories/ConstraintProofs7.v
theories/ConstraintProofs8.v
theories/ConstraintProofs9.v
theories/ConstraintProofs10.v
theories/PropertiesConstraints.v
theories/SensitivityModel.v
theories/SensitivitySpec.v
theories/SensitivityProofs.v
theories/SensitivityProofs2.v
theories/SensitivityProofs3.v
theories/SensitivityProofs4.v
theories/PropertiesSensitivity.v
theories/AirworthinessModel.v
theories/AirworthinessSpec.v
theories/AirworthinessProofs.v
theories/AirworthinessProofs2.v
theories/AirworthinessProofs3.v
theories/AirworthinessProofs4.v
theories/AirworthinessProofs5.v
theories/AirworthinessExamples.v
theories/AirworthinessProofs6.v
theories/PropertiesAirworthiness.v
theories/PropulsionModel.v
theories/PropulsionSpec.v
theories/PropulsionProofs.v
theories/PropulsionProofs2.v
theories/PropulsionProofs3.v
theories/PropulsionProofs4.v
theories/PropulsionProofs5.v
theories/PropulsionProofs6.v
theories/PropulsionProofs7.v
theories/PropulsionProofs8.v
theories/PropulsionProofs9.v
theories/PropertiesPropulsion.v
theories/SensitivityPlotModel.v
theories/SensitivityPlotSpec.v
theories/SensitivityPlotProofs.v
theories/SensitivityPlotProofs2.v
theories/SensitivityPlotProofs3.v
theories/SensitivityPlotProofs4.v
theories/SensitivityPlotProofs5.v
theories/SensitivityPlotProofs6.v
theories/SensitivityPlotProofs7.v
theories/SensitivityPlotProofs8.v
theories/PropertiesSensitivityPlots.v
theories/PanelModel.v
theories/PanelSpec.v
theories/PanelProofs.v
theories/PropertiesPanels.v
theories/DemoModel.v
theories/DemoSpec.v
theories/DemoProofs.v
theories/PropertiesDemo.v
theories/FloatSpec.v
theories/FloatModel.v
theories/FloatArith.v
theories/FloatProofs.v
theories/FloatProofs2.v
theories/FloatProofs3.v
theories/FloatProofs4.v
theories/PropertiesFloat.v
theories/FloatAtmosModel.v
theories/FloatAtmosProofs.v
theories/FloatAtmosProofs2.v
theories/FloatAtmosProofs3.v
theories/FloatAtmosProofs4.v
theories/PropertiesFloatAtmos.v
theories/EnvelopePlotModel.v
theories/EnvelopePlotSpec.v
theories/EnvelopePlotProofs.v
theories/EnvelopePlotProofs2.v
theories/EnvelopePlotProofs3.v
theories/PropertiesEnvelopePlot.v
theories/TurbopropModel.v
theories/TurbopropSpec.v
theories/TurbopropProofs.v
theories/TurbopropProofs2.v
theories/TurbopropProofs3.v
theories/TurbopropProofs4.v
theories/TurbopropProofs5.v
theories/PropertiesTurboprop.v
theories/CubicModel.v
theories/CubicSpec.v
theories/CubicProofs.v
theories/CubicProofs2.v
theories/CubicProofs3.v
theories/CubicProofs4.v
theories/PropertiesCubic.v
theories/WarningsModel.v
theories/WarningsSpec.v
theories/WarningsProofs.v
theories/WarningsProofs2.v
theories/WarningsProofs3.v
theories/WarningsProofs4.v
theories/WarningsProofs5.v
theories/WarningsProofs6.v
theories/PropertiesWarnings.v
theories/EngineWarnModel.v
theories/EngineWarnSpec.v
theories/EngineWarnProofs.v
theories/PropertiesEngineWarn.v
theories/EngineObjectModel.v
theories/EngineObjectSpec.v
theories/EngineObjectProofs.v
theories/PropertiesEngineObject.v
theories/CatalogueModel.v
theories/CatalogueSpec.v
theories/CatalogueProofs.v
theories/PropertiesCatalogue.v
theories/ShippedText.v
theories/ShippedModel.v
theories/ShippedSpec.v
theories/ShippedNumbers.v
theories/ShippedCsv.v
theories/ShippedProofs.v
theories/ShippedDecks.v
theories/ShippedThrust.v
theories/ShippedFacts.v
theories/PropertiesShipped.v
theories/GasClimbSpec.v
theories/GasClimbProofs.v
theories/PropertiesGasClimb.v
theories/HandbookText.v
theories/HandbookModel.v
theories/HandbookSpec.v
theories/HandbookReader.v
theories/HandbookProofs.v
theories/HandbookFacts.v
theories/HandbookCases.v
theories/PropertiesHandbook.v
theories/RunwayText.v
theories/RunwayDbSpec.v
theories/RunwayDbFacts.v
theories/RunwayDbProofs.v
theories/RunwayDbProofs2.v
theories/RunwayDbProofs3.v
theories/PropertiesRunwayDb.v
theories/ShippedAnalysisSpec.v
theories/ShippedAnalysisProofs.v
theories/ShippedAnalysisFacts.v
theories/ShippedAnalysisExamples.v
theories/PropertiesShippedAnalysis.v
theories/TrendProofs.v
theories/TrendExamples.v
theories/PropertiesTrend.v
theories/ObservedSpec.v
theories/ObservedProofs.v
theories/PropertiesObserved.v
theories/CertTrendSpec.v
theories/CertTrendProofs.v
theories/PropertiesCertTrend.v
theories/SoundingSpec.v
theories/SoundingProofs.v
theories/PropertiesSounding.v
theories/FloatPressModel.v
theories/FloatPressSpec.v
theories/FloatPressProofs.v
theories/FloatPressProofs2.v
theories/FloatPressProofs3.v
theories/FloatPressProofs4.v
theories/FloatPressProofs5.v
theories/FloatPressProofs6.v
theories/PropertiesFloatPress.v
