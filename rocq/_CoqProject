-Q theories Verif
theories/PyBase.v
theories/PyBaseFacts.v
theories/Regex.v
theories/RegexFacts.v
theories/TextSplitModel.v
theories/TextSplitSpec.v
theories/TextSplitProofs.v
theories/SplitterProofs.v
theories/TextSplitProps.v
theories/PyValues.v
theories/PyDigits.v
theories/ValidatorsModel.v
theories/ValidatorsSpec.v
theories/ValidatorsProofs.v
theories/GisProofs.v
theories/ValidatorsProps.v
theories/PlainTextProofs.v
theories/MultiLangModel.v
theories/MultiLangSpec.v
theories/MultiLangProofs.v
theories/MultiLangProps.v
theories/DotDictModel.v
theories/DotDictSpec.v
theories/DotDictProofs.v
theories/SchemaModel.v
theories/SchemaTables.v
theories/SchemaProofs.v
theories/DotDictProps.v
theories/SchemaSpec.v
theories/LeafProofs.v
theories/SchemaProps.v
theories/UtilsModel.v
theories/UtilsSpec.v
theories/UtilsProofs.v
theories/UtilsProps.v
theories/XmlModel.v
theories/XmlSpec.v
theories/XmlProofs.v
theories/XmlProps.v
theories/OutputModel.v
theories/OutputSpec.v
theories/OutputProofs.v
theories/OutputProps.v
theories/ConverterModel.v
theories/ConverterSpec.v
theories/ConverterProofs.v
theories/ConverterProps.v
theories/DriverModel.v
theories/DriverSpec.v
theories/DriverProofs.v
theories/DriverProps.v
theories/TablesModel.v
theories/CommentModel.v
theories/CommentSpec.v
theories/CommentProofs.v
theories/CommentProps.v
theories/AmountModel.v
theories/AmountSpec.v
theories/AmountProofs.v
theories/AmountProps.v
theories/FlowModel.v
theories/FlowSpec.v
theories/FlowProofs.v
theories/FlowProps.v
theories/MergeModel.v
theories/MergeSpec.v
theories/MergeProofs.v
theories/MergeProps.v
theories/PropertyModel.v
theories/PropertySpec.v
theories/PropertyProofs.v
theories/PropertyProps.v
theories/TextFacts.v
theories/SegmentFacts.v
theories/VariableModel.v
theories/VariableSpec.v
theories/VariableProofs.v
theories/FormulaProofs.v
theories/VariableProps.v
theories/ExchangeModel.v
theories/ExchangeSpec.v
theories/ExchangeProofs.v
theories/ExchangeProps.v
theories/ImportModel.v
theories/ImportSpec.v
theories/ImportProofs.v
theories/ImportProps.v
theories/RemapModel.v
theories/RemapSpec.v
theories/RemapProofs.v
theories/RemapProps.v
theories/ReturnProps.v
theories/ReviewModel.v
theories/ReviewSpec.v
theories/ReviewProofs.v
theories/ReviewProps.v
theories/TemplateModel.v
theories/TemplateSpec.v
theories/TemplateProofs.v
theories/TemplateProps.v
theories/GeoTable.v
theories/EntryModel.v
theories/EntrySpec.v
theories/EntryProofs.v
theories/EntryProps.v
theories/UncTextModel.v
theories/UncTextSpec.v
theories/UncTextProofs.v
theories/UncTextProps.v
theories/KeysModel.v
theories/KeysSpec.v
theories/KeysProofs.v
theories/KeysProps.v
theories/HandleModel.v
theories/HandleSpec.v
theories/HandleProofs.v
theories/HandleProps.v
theories/ClassModel.v
theories/ClassSpec.v
theories/ClassProofs.v
theories/ClassProps.v
theories/ReferModel.v
theories/ReferSpec.v
theories/ReferProofs.v
theories/ReferProps.v
theories/AsideModel.v
theories/AsideSpec.v
theories/AsideProofs.v
theories/AsideProps.v
theories/KeptProps.v
theories/TwiceModel.v
theories/TwiceSpec.v
theories/TwiceProofs.v
theories/TwiceProps.v
theories/InflowModel.v
theories/InflowSpec.v
theories/InflowProofs.v
theories/InflowProps.v
theories/OutflowModel.v
theories/OutflowSpec.v
theories/OutflowProofs.v
theories/OutflowProps.v
theories/AttachModel.v
theories/AttachSpec.v
theories/AttachProofs.v
theories/AttachProps.v
theories/CrossModel.v
theories/CrossSpec.v
theories/CrossProofs.v
theories/CrossProps.v
theories/ProseModel.v
theories/ProseSpec.v
theories/ProseProofs.v
theories/ProseTrips.v
theories/ProseProps.v
theories/SessionModel.v
theories/SessionSpec.v
theories/SessionProofs.v
theories/SessionProps.v
theories/RegainModel.v
theories/RegainSpec.v
theories/RegainProofs.v
theories/RegainProps.v
theories/CollectModel.v
theories/CollectSpec.v
theories/CollectProofs.v
theories/CollectProps.v
theories/AgainProps.v
theories/ParamModel.v
theories/ParamSpec.v
theories/ParamProofs.v
theories/ParamProps.v
theories/StatsModel.v
theories/StatsSpec.v
theories/StatsProofs.v
theories/StatsProps.v
theories/FolderModel.v
theories/FolderSpec.v
theories/FolderProofs.v
theories/FolderProps.v
theories/CopyModel.v
theories/CopyProofs.v
theories/CopyProps.v
theories/OpenModel.v
theories/OpenProps.v
theories/LogModel.v
theories/LogProps.v
theories/ZipModel.v
theories/ZipProps.v
theories/FitProps.v
theories/GeneralProps.v
theories/ScreenModel.v
theories/ScreenProps.v
theories/PedigreeModel.v
theories/PedigreeProps.v
