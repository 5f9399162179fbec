-Q theories Verif
theories/Py.v
theories/UnitsModel.v
theories/UnitsSpec.v
theories/UnitsProofs.v
theories/UnitsHeapModel.v
theories/UnitsHeapProofs.v
theories/UnitsProps.v
theories/ChemModel.v
theories/ChemProps.v
theories/ParModel.v
theories/ParProofs.v
theories/StatMechModel.v
theories/StatMechSpec.v
theories/StatMechProofs.v
theories/StatMechProps.v
theories/ThermoModel.v
theories/ThermoProps.v
theories/PvEosModel.v
theories/PvEosSpec.v
theories/PvEosProofs.v
theories/PvEosProps.v
theories/EvEosModel.v
theories/EvEosProps.v
theories/EosFitModel.v
theories/EosFitProps.v
theories/PolyModel.v
theories/PolyProps.v
theories/SymmetryModel.v
theories/SymmetryProofs.v
theories/SymmetryProps.v
theories/TensorModel.v
theories/TensorProps.v
theories/AverageProps.v
theories/SoecRunModel.v
theories/SoecRunProps.v
theories/DecimalModel.v
theories/DecimalProofs.v
theories/SoecIOModel.v
theories/SoecIOProps.v
theories/EosReaderModel.v
theories/EosReaderProps.v
theories/QhaReaderModel.v
theories/QhaReaderProps.v
theories/GridModel.v
theories/GridProps.v
theories/PolyfitProofs.v
theories/QhaRunModel.v
theories/QhaRunProps.v
theories/QhaRunProps2.v
theories/QhaEqProps.v
theories/SeismicModel.v
theories/SeismicProps.v
theories/SeismicLinear.v
theories/SeismicDerivProps.v
theories/SeismicIsoProps.v
theories/SeismicObjProps.v
theories/SoecInterfaceModel.v
theories/SoecInterfaceProps.v
theories/CrystalModel.v
theories/CrystalProps.v
theories/CrystalCellProps.v
theories/CrystalQhaProps.v
theories/FormatModel.v
theories/YamlSpec.v
theories/FormatProofs.v
theories/QhaWriterModel.v
theories/QhaWriterProofs.v
theories/QhaWriterProps.v
theories/CliModel.v
theories/CliProofs.v
theories/CliProps.v
theories/TableModel.v
theories/TableProofs.v
theories/StoreModel.v
theories/TableProps.v
theories/GridFloatModel.v
theories/GridFloatProofs.v
theories/GridFloatProps.v
theories/SoecTableModel.v
theories/SoecTableProofs.v
theories/SoecTableProps.v
theories/SeismicTableModel.v
theories/SeismicTableProps.v
theories/KiefferModel.v
theories/KiefferProofs.v
theories/KiefferProps.v
theories/PhonopyModel.v
theories/PhonopyProps.v
theories/QhaFitProps.v
theories/SoecInpgenModel.v
theories/SoecInpgenProps.v
theories/HoFloatModel.v
theories/HoFloatSpec.v
theories/HoFloatProofs.v
theories/HoFloatMore.v
theories/HoFloatLib.v
theories/HoFloatProps.v
theories/SeismicPlotModel.v
theories/SeismicPlotProofs.v
theories/SeismicPlotProps.v
theories/SeismicFigureProps.v
theories/CommandModel.v
theories/CommandSpec.v
theories/CommandProofs.v
theories/CommandProps.v
theories/PolarPlotModel.v
theories/PolarPlotProps.v
theories/ReportModel.v
theories/ReportSpec.v
theories/ReportProofs.v
theories/SoecReportModel.v
theories/SoecReportProps.v
theories/QhaReportModel.v
theories/QhaConciseProps.v
theories/QhaReportProps.v
theories/QhaReportProps2.v
theories/EosReportModel.v
theories/EosReportProps.v
theories/EosImpliedProps.v
theories/H5Model.v
theories/H5Props.v
theories/H5ExportProps.v
theories/UnitsFloatModel.v
theories/UnitsFloatSpec.v
theories/UnitsFloatProofs.v
theories/UnitsFloatProps.v
theories/ThermoFloatModel.v
theories/ThermoFloatProps.v
theories/CitationsModel.v
theories/RunLogProps.v
theories/SoecCommandModel.v
theories/SoecCommandProps.v
theories/PhononInputModel.v
theories/PhononInputProps.v
theories/HaCommandModel.v
theories/HaCommandProps.v
theories/QhaCommandModel.v
theories/QhaCommandProps.v
theories/QhaCommandProps2.v
theories/QhaCommandProps3.v
theories/EosCommandModel.v
theories/EosCommandProps.v
theories/EosCommandProps2.v
theories/EosCommandProps3.v
theories/ExportCommandModel.v
theories/ExportCommandProps.v
theories/ExportCommandProps2.v
theories/ExportCommandProps3.v
theories/CreditsProps.v
theories/ExportScreenProps.v
theories/SoecExportModel.v
theories/SoecExportProps.v
theories/SoecExportProps2.v
theories/SoecExportProps3.v
theories/UnevenBandProps.v
theories/HaInpgenModel.v
theories/HaInpgenProofs.v
theories/CrystalOutputSpec.v
theories/CrystalOutputProofs.v
theories/HaInpgenProps.v
theories/HaInpgenOtherProps.v
theories/ChainProps.v
theories/ChainOtherProps.v
theories/ElasticChainProps.v
theories/GuessModel.v
theories/GuessProps.v
theories/EvIdentProps.v
theories/EvPressureProps.v
theories/EosSavedProofs.v
theories/EvCommandProps.v
theories/PvIdentProps.v
theories/SeismicCommandModel.v
theories/SeismicNodeProofs.v
theories/SeismicCommandProps.v
theories/SeismicExportModel.v
theories/SeismicExportProps.v
theories/SeismicExportProps2.v
theories/WaveCompareProofs.v
theories/SeismicChainProps.v
theories/ElasticRoundProps.v
