-Q theories Verif
theories/Base.v
theories/BaseLemmas.v
theories/BerModel.v
theories/BerSpec.v
theories/BerProofs.v
theories/BerProps.v
theories/TlvListModel.v
theories/TlvListSpec.v
theories/TlvListProofs.v
theories/TlvListProps.v
theories/TlvModel.v
theories/TlvSpec.v
theories/TlvProofs.v
theories/TlvProps.v
theories/DolModel.v
theories/DolSpec.v
theories/DolProofs.v
theories/DolProps.v
theories/TtlModel.v
theories/TtlSpec.v
theories/TtlProofs.v
theories/TtlProps.v
theories/FieldsModel.v
theories/FieldsSpec.v
theories/FieldsProofs.v
theories/FieldsProps.v
theories/Iso8859Model.v
theories/Iso8859Spec.v
theories/Iso8859Proofs.v
theories/Iso8859Props.v
theories/AppModel.v
theories/AppSpec.v
theories/AppProofs.v
theories/AppProps.v
theories/TalModel.v
theories/TalSpec.v
theories/TalProofs.v
theories/TalWire.v
theories/TalProps.v
theories/EmvModel.v
theories/EmvSpec.v
theories/EmvProofs.v
theories/EmvWire.v
theories/EmvProps.v
theories/AtrModel.v
theories/AtrSpec.v
theories/AtrProofs.v
theories/AtrProps.v
theories/StrModel.v
theories/StrSpec.v
theories/StrProofs.v
theories/StrProps.v
theories/CapduModel.v
theories/CapduSpec.v
theories/CapduProofs.v
theories/CapduProps.v
theories/InsSpec.v
theories/InsProofs.v
theories/InsProps.v
theories/PcscModel.v
theories/PcscSpec.v
theories/PcscProofs.v
theories/PcscProps.v
theories/ToolsModel.v
theories/ToolsSpec.v
theories/ToolsProofs.v
theories/ToolsProps.v
theories/FlagsModel.v
theories/FlagsSpec.v
theories/FlagsProofs.v
theories/FlagsTexts.v
theories/FlagsMore.v
theories/FlagsData.v
theories/FlagsAuth.v
theories/FlagsProps.v
theories/InfoModel.v
theories/InfoSpec.v
theories/InfoProofs.v
theories/InfoTexts.v
theories/InfoProps.v
theories/AtrTextModel.v
theories/AtrTextSpec.v
theories/AtrTextProofs.v
theories/AtrTextTexts.v
theories/AtrTextProps.v
theories/CardModel.v
theories/CardSpec.v
theories/CardProofs.v
theories/CardProps.v
theories/PrintModel.v
theories/PrintSpec.v
theories/PrintProofs.v
theories/PrintProps.v
theories/StatusSpec.v
theories/StatusProps.v
theories/AtrPrintSpec.v
theories/AtrPrintProofs.v
theories/AtrPrintProps.v
theories/BerTextModel.v
theories/BerTextSpec.v
theories/BerTextProofs.v
theories/DecodeModel.v
theories/DecodeSpec.v
theories/DecodeProofs.v
theories/DecodeTexts.v
theories/DecodeProps.v
theories/BerTextProps.v
theories/TermModel.v
theories/TermSpec.v
theories/TermProofs.v
theories/TermReaders.v
theories/TermSession.v
theories/TermProps.v
theories/LookupModel.v
theories/LookupSpec.v
theories/LookupProofs.v
theories/LookupTables.v
theories/LookupProps.v
theories/ConvModel.v
theories/ConvProps.v
theories/ViewModel.v
theories/ViewSpec.v
theories/ViewWalk.v
theories/ViewPaint.v
theories/ViewTree.v
theories/ViewProps.v
theories/FieldSpec.v
theories/FieldProps.v
theories/TellSpec.v
theories/TellProps.v
theories/TraceModel.v
theories/TraceSpec.v
theories/TraceProps.v
theories/WinModel.v
theories/WinProps.v
theories/CtxModel.v
theories/CtxProps.v
theories/CostModel.v
theories/CostProofs.v
theories/CostProps.v
theories/OwnModel.v
theories/OwnSpec.v
theories/OwnProofs.v
theories/OwnProps.v
theories/HoldModel.v
theories/HoldSpec.v
theories/HoldProofs.v
theories/HoldProps.v
theories/ExitModel.v
theories/ExitProps.v
theories/CandModel.v
theories/CandSpec.v
theories/CandProofs.v
theories/CandProps.v
theories/DecodeExitModel.v
theories/DecodeExitProps.v
theories/DirModel.v
theories/DirSpec.v
theories/DirProofs.v
theories/DirProps.v
theories/RecModel.v
theories/RecSpec.v
theories/RecProofs.v
theories/RecProps.v
theories/SelModel.v
theories/SelSpec.v
theories/SelProofs.v
theories/SelProps.v
