-Q theories Verif
theories/PyBase.v
theories/PyStr.v
theories/XReal.v
theories/SpectrumModel.v
theories/SpectrumSpec.v
theories/SpectrumProofs.v
theories/SpectrumThms.v
theories/PropSpectrum.v
theories/CNum.v
theories/SpectralModel.v
theories/SpectralSpec.v
theories/SpectralProofs.v
theories/FormulaProofs.v
theories/TaucProofs.v
theories/InterpProofs.v
theories/EvalProofs.v
theories/ExtrapProofs.v
theories/SpectralThms.v
theories/PropSpectral.v
theories/TextModel.v
theories/TextSpec.v
theories/TextProofs.v
theories/TableProofs.v
theories/TableThms.v
theories/PropTable.v
theories/MaterialModel.v
theories/MaterialSpec.v
theories/MaterialProofs.v
theories/MatEvalProofs.v
theories/MatRangeProofs.v
theories/MatFileProofs.v
theories/MaterialThms.v
theories/PropMaterial.v
theories/FileModel.v
theories/ReaderModel.v
theories/WriterModel.v
theories/IOSpec.v
theories/LineProofs.v
theories/FmtProofs.v
theories/TextFileProofs.v
theories/DisplayProofs.v
theories/SaveProofs.v
theories/PathProofs.v
theories/CycleProofs.v
theories/OrderProofs.v
theories/ExportProofs.v
theories/ShowsProofs.v
theories/IOExamples.v
theories/TextFileThms.v
theories/PropTextFile.v
theories/SaveSpec.v
theories/SaveMoreProofs.v
theories/SaveThms.v
theories/PropSave.v
theories/YamlSpec.v
theories/YamlProofs.v
theories/YamlWriteProofs.v
theories/YamlReadProofs.v
theories/YamlCodec.v
theories/YamlSample.v
theories/YamlDataProofs.v
theories/YamlThms.v
theories/PropYaml.v
theories/EffectiveModel.v
theories/EffectiveSpec.v
theories/MixProofs.v
theories/EffectiveProofs.v
theories/EffectiveThms.v
theories/PropEffective.v
theories/PathModel.v
theories/ConfigModel.v
theories/CatalogueModel.v
theories/CatalogueSpec.v
theories/CatalogueProofs.v
theories/NormProofs.v
theories/RebuildProofs.v
theories/WalkProofs.v
theories/CatalogueSample.v
theories/CatalogueThms.v
theories/PropCatalogue.v
theories/ListProofs.v
theories/ListingThms.v
theories/PropListing.v
theories/DiskModel.v
theories/SetupModel.v
theories/SetupSpec.v
theories/DiskProofs.v
theories/SetupProofs.v
theories/InstallProofs.v
theories/ScriptProofs.v
theories/ConfigThms.v
theories/PropConfig.v
theories/ConfigSample.v
theories/SetupThms.v
theories/PropSetup.v
theories/FloatModel.v
theories/FloatSpec.v
theories/FloatProofs.v
theories/FloatConvProofs.v
theories/FloatRangeProofs.v
theories/FloatCheckProofs.v
theories/FloatOrderProofs.v
theories/FloatThms.v
theories/PropFloat.v
theories/CsvModel.v
theories/CsvSpec.v
theories/CsvProofs.v
theories/CsvThms.v
theories/PropCsv.v
theories/PlotModel.v
theories/PlotSpec.v
theories/PlotProofs.v
theories/PlotThms.v
theories/PropPlot.v
theories/CrashSpec.v
theories/CrashProofs.v
theories/CrashThms.v
theories/PropCrash.v
theories/InteractiveModel.v
theories/InteractiveSpec.v
theories/InteractiveThms.v
theories/PropInteractive.v
theories/SessionSpec.v
theories/SessionThms.v
theories/PropSession.v
theories/LoadSpec.v
theories/LoadProofs.v
theories/LoadThms.v
theories/PropLoad.v
theories/DataSetSpec.v
theories/DataSetProofs.v
theories/DataSetThms.v
theories/PropDataSet.v
theories/ExampleModel.v
theories/ExampleSpec.v
theories/ExampleThms.v
theories/PropExample.v
theories/MemoryModel.v
theories/MemorySpec.v
theories/MemoryProofs.v
theories/MemoryThms.v
theories/PropMemory.v
theories/ListedSpec.v
theories/ListedThms.v
theories/PropListed.v
theories/StartModel.v
theories/StartSpec.v
theories/StartThms.v
theories/PropStart.v
theories/OwnSpec.v
theories/OwnThms.v
theories/PropOwn.v
theories/FloatTableModel.v
theories/FloatTableSpec.v
theories/FloatTableProofs.v
theories/FloatTableThms.v
theories/PropFloatTable.v
theories/LifeSpec.v
theories/LifeThms.v
theories/PropLife.v
theories/SavedSpec.v
theories/SavedThms.v
theories/PropSaved.v
theories/WaySpec.v
theories/WayThms.v
theories/PropWay.v
theories/MixingSpec.v
theories/MixingThms.v
theories/PropMixing.v
theories/FloatMixModel.v
theories/FloatMixSpec.v
theories/FloatMixProofs.v
theories/FloatMixThms.v
theories/PropFloatMix.v
theories/FloatPermModel.v
theories/FloatPermSpec.v
theories/FloatPermProofs.v
theories/FloatPermThms.v
theories/PropFloatPerm.v
