-Q theories Verif
theories/AttrModel.v
theories/AttrProps.v
theories/AvroProps.v
theories/BinWidthExact.v
theories/BinWidthModel.v
theories/BinWidthProps.v
theories/CategoricalModel.v
theories/CategoricalProofs.v
theories/CategoricalProps.v
theories/CategoricalProps2.v
theories/CellsModel.v
theories/CellsProps.v
theories/CharModel.v
theories/CharProofs.v
theories/CharProofs2.v
theories/CharProps.v
theories/ChiModel.v
theories/ChiProps.v
theories/CmsModel.v
theories/CmsProps.v
theories/CnnModel.v
theories/CnnProps.v
theories/ColMakeModel.v
theories/ColMakeProps.v
theories/ColNameModel.v
theories/ColNameProps.v
theories/ColReportModel.v
theories/ColReportProps.v
theories/ConfModel.v
theories/ConfProofs.v
theories/ConfProps.v
theories/CorrModel.v
theories/CorrProps.v
theories/CsvCells.v
theories/CsvDelimProps.v
theories/CsvHeaderProps.v
theories/CsvMatchProps.v
theories/CsvModel.v
theories/CsvWordsProps.v
theories/DateModel.v
theories/DateProps.v
theories/DiffModel.v
theories/DiffProofs.v
theories/DiffProps.v
theories/DiffReportModel.v
theories/DiffReportProofs.v
theories/DiffReportProps.v
theories/DiffTableProps.v
theories/EncodingModel.v
theories/EncodingProps.v
theories/FBetaModel.v
theories/FBetaProps.v
theories/FactoryModel.v
theories/FactoryProps.v
theories/FitModel.v
theories/FitProps.v
theories/FlatProps.v
theories/GraphDataModel.v
theories/GraphDataProps.v
theories/GraphModel.v
theories/GraphProps.v
theories/HistModel.v
theories/HistProofs.v
theories/HistProofs2.v
theories/HistProofs3.v
theories/HistProps.v
theories/JsonModel.v
theories/JsonProps.v
theories/JsonSaveModel.v
theories/JsonSaveProps.v
theories/JsonTableModel.v
theories/JsonTableProps.v
theories/LabDiskModel.v
theories/LabDiskProps.v
theories/LabelColModel.v
theories/LabelColProps.v
theories/LabelModel.v
theories/LabelNamesModel.v
theories/LabelNamesProps.v
theories/LabelProps.v
theories/ListFacts.v
theories/MadModel.v
theories/MadProps.v
theories/MergeTableModel.v
theories/MergeTableProps.v
theories/MomentModel.v
theories/MomentProps.v
theories/NerModel.v
theories/NerProofs.v
theories/NerProofs2.v
theories/NerProps.v
theories/NestProps.v
theories/NullCellModel.v
theories/NullCellProps.v
theories/NullModel.v
theories/NullProofs.v
theories/NullProofs2.v
theories/NullProps.v
theories/NullRepModel.v
theories/NullRepProps.v
theories/NumTextModel.v
theories/NumTextProps.v
theories/NumericModel.v
theories/NumericProofs.v
theories/NumericProps.v
theories/OmitProps.v
theories/OptCheckModel.v
theories/OptCheckProps.v
theories/OptionsModel.v
theories/OptionsProps.v
theories/OrderModel.v
theories/OrderProofs.v
theories/OrderProofs2.v
theories/OrderProofs3.v
theories/OrderProps.v
theories/PlotModel.v
theories/PlotProps.v
theories/PoolModel.v
theories/PoolProps.v
theories/PsiModel.v
theories/PsiProps.v
theories/PyCommon.v
theories/PyDict.v
theories/PyEq.v
theories/PyString.v
theories/QFacts.v
theories/QuantModel.v
theories/QuantProps.v
theories/ReadModel.v
theories/ReadProps.v
theories/ReaderModel.v
theories/ReaderProps.v
theories/RegexModel.v
theories/RegexProofs.v
theories/RegexProofs2.v
theories/RegexProps.v
theories/RepHistExamples.v
theories/RepHistModel.v
theories/RepHistProofs.v
theories/RepHistProofs2.v
theories/RepHistProps.v
theories/RepSchemaModel.v
theories/RepSchemaProps.v
theories/ReportModel.v
theories/RowModel.v
theories/RowNullModel.v
theories/RowNullProofs.v
theories/RowNullProofs2.v
theories/RowNullProps.v
theories/RowProofs.v
theories/RowProps.v
theories/SamplingModel.v
theories/SamplingProofs.v
theories/SamplingProps.v
theories/SaveModel.v
theories/SaveProps.v
theories/SchemaModel.v
theories/SchemaProofs.v
theories/SchemaProofs2.v
theories/SchemaProps.v
theories/SeedModel.v
theories/SeedProps.v
theories/ShareModel.v
theories/ShareProps.v
theories/SizeModel.v
theories/SizeProps.v
theories/StructModel.v
theories/StructProps.v
theories/SwitchModel.v
theories/SwitchProps.v
theories/TTestModel.v
theories/TTestProps.v
theories/TablePartModel.v
theories/TablePartProps.v
theories/TextColModel.v
theories/TextColProps.v
theories/TextDiffModel.v
theories/TextDiffProps.v
theories/TextModel.v
theories/TextProofs.v
theories/TextProps.v
theories/TimesModel.v
theories/TimesProps.v
theories/TrainTableModel.v
theories/TrainTableProps.v
theories/TypeModel.v
theories/TypeProps.v
theories/ULabelModel.v
theories/ULabelProps.v
theories/UnstructModel.v
theories/UnstructProofs.v
theories/UnstructProps.v
theories/ValidatorModel.v
theories/ValidatorProps.v
