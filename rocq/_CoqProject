-Q theories Verif
theories/Base.v
theories/FiltersModel.v
theories/FiltersSpec.v
theories/FiltersProofs.v
theories/FiltersProps.v
theories/Util.v
theories/WriterModel.v
theories/WriterSpec.v
theories/WriterProofs.v
theories/WriterProps.v
theories/ParseModel.v
theories/ParseSpec.v
theories/ParseProofs.v
theories/ParseProps.v
theories/Scan.v
theories/XrefProofs.v
theories/XrefProps.v
theories/ReadProofs.v
theories/PanicProofs.v
theories/ReadProps.v
theories/Utf8.v
theories/TextModel.v
theories/TextSpec.v
theories/TextProofs.v
theories/ContentProofs.v
theories/MetaProofs.v
theories/TextProps.v
theories/CompareModel.v
theories/CompareSpec.v
theories/CompareProofs.v
theories/CompareProofs2.v
theories/CompareProofs3.v
theories/CompareProofs4.v
theories/CompareProps.v
theories/TypesModel.v
theories/TypesSpec.v
theories/TypesProofs.v
theories/TypesProps.v
theories/ManipModel.v
theories/ManipSpec.v
theories/ManipProofs.v
theories/ManipProofs2.v
theories/ManipProofs3.v
theories/ManipProofs4.v
theories/ManipProofs5.v
theories/ManipProofs6.v
theories/ManipProps.v
theories/FormsModel.v
theories/FormsSpec.v
theories/FormsProofs.v
theories/FormsProofs2.v
theories/FormsProofs3.v
theories/FormsProofs4.v
theories/FormsProps.v
theories/PrimModel.v
theories/PrimProofs.v
theories/CryptModel.v
theories/CryptSpec.v
theories/CryptProofs.v
theories/CryptProofs2.v
theories/CryptProofs3.v
theories/CryptProps.v
theories/PageModel.v
theories/PageSpec.v
theories/PageProofs.v
theories/PageProofs2.v
theories/PageProofs3.v
theories/PageProps.v
theories/FontModel.v
theories/FontSpec.v
theories/FontProofs.v
theories/FontProofs2.v
theories/FontProofs3.v
theories/FontProofs4.v
theories/FontProps.v
theories/EncodingTables.v
theories/EncodingModel.v
theories/EncodingSpec.v
theories/EncodingProofs.v
theories/EncodingProofs2.v
theories/EncodingProofs3.v
theories/EncodingProps.v
theories/ExtractModel.v
theories/ExtractSpec.v
theories/ExtractProofs.v
theories/ExtractProofs2.v
theories/ExtractProofs3.v
theories/ExtractProofs4.v
theories/ExtractProps.v
theories/XPagesModel.v
theories/XPagesSpec.v
theories/XPagesProofs.v
theories/XPagesProofs2.v
theories/XPagesProofs3.v
theories/XPagesProofs4.v
theories/XPagesProofs5.v
theories/XPagesProps.v
theories/ReaderSpec.v
theories/ReaderProofs.v
theories/ReaderProofs2.v
theories/ReaderProofs3.v
theories/ReaderProofs4.v
theories/ReaderProps.v
theories/MarksModel.v
theories/MarksSpec.v
theories/MarksProofs.v
theories/MarksProofs2.v
theories/MarksProofs3.v
theories/MarksProofs4.v
theories/MarksProofs5.v
theories/MarksProps.v
theories/XfaModel.v
theories/XfaSpec.v
theories/XfaProofs.v
theories/XfaProofs2.v
theories/XfaProofs3.v
theories/XfaProofs4.v
theories/XfaProofs5.v
theories/XfaProofs6.v
theories/XfaProofs7.v
theories/XfaProps.v
theories/DatasetsModel.v
theories/DatasetsSpec.v
theories/DatasetsProofs.v
theories/DatasetsProps.v
theories/XFormModel.v
theories/XFormSpec.v
theories/XFormProofs.v
theories/XFormProps.v
theories/UFormModel.v
theories/UFormSpec.v
theories/UFormProofs.v
theories/UFormProps.v
theories/ActsModel.v
theories/ActsSpec.v
theories/ActsProofs.v
theories/ActsProofs2.v
theories/ActsProps.v
theories/ReportModel.v
theories/ReportSpec.v
theories/ReportProofs.v
theories/ReportProps.v
theories/XDataModel.v
theories/XConfModel.v
theories/XDataSpec.v
theories/XDataProofs.v
theories/XDataProofs2.v
theories/XDataProofs3.v
theories/XConfProofs.v
theories/XConfProofs2.v
theories/XDataProps.v
theories/XConfProps.v
theories/StreamModel.v
theories/StreamSpec.v
theories/StreamProofs.v
theories/StreamProps.v
theories/XFieldsModel.v
theories/XFieldsSpec.v
theories/XFieldsProofs.v
theories/XFieldsProps.v
theories/ApprModel.v
theories/ApprSpec.v
theories/ApprProofs.v
theories/ApprProps.v
theories/FallModel.v
theories/FallSpec.v
theories/FallProofs.v
theories/FallProps.v
theories/ResSpec.v
theories/ResProofs.v
theories/ResProps.v
theories/FillSpec.v
theories/FillProofs.v
theories/FillProps.v
theories/WarnModel.v
theories/WarnSpec.v
theories/WarnProofs.v
theories/WarnProps.v
theories/StdSpec.v
theories/StdProofs.v
theories/StdProps.v
theories/PieceModel.v
theories/PieceSpec.v
theories/PieceProofs.v
theories/PieceProps.v
theories/CrashSpec.v
theories/CrashProofs.v
theories/CrashProps.v
theories/FTreeSpec.v
theories/FTreeProofs.v
theories/FTreeProofs2.v
theories/FTreeProps.v
theories/XTmplSpec.v
theories/XTmplProofs.v
theories/XTmplProps.v
theories/XForeignSpec.v
theories/XForeignProofs.v
theories/XForeignProofs2.v
theories/XForeignProofs3.v
theories/XForeignProps.v
theories/WmarkModel.v
theories/WmarkSpec.v
theories/WmarkProofs.v
theories/WmarkProps.v
theories/WStmSpec.v
theories/WStmProofs.v
theories/WStmProps.v
theories/OutlCatSpec.v
theories/OutlCatProofs.v
theories/OutlCatProps.v
theories/PredRowSpec.v
theories/PredRowProofs.v
theories/PredRowProps.v
theories/CmpSymSpec.v
theories/CmpSymProofs.v
theories/CmpSymProps.v
theories/MdFldModel.v
theories/MdFldSpec.v
theories/MdFldProofs.v
theories/MdFldProps.v
theories/PerfModel.v
theories/PerfSpec.v
theories/PerfProofs.v
theories/PerfProps.v
theories/TjArrSpec.v
theories/TjArrProofs.v
theories/TjArrProps.v
theories/NamedSpec.v
theories/NamedProofs.v
theories/NamedProps.v
theories/NtoSpec.v
theories/NtoProofs.v
theories/NtoProps.v
