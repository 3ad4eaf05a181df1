-Q theories Verif
theories/Base.v
theories/BaseProofs.v
theories/IhexModel.v
theories/IhexSpec.v
theories/IhexProofs.v
theories/IhexProps.v
theories/State.v
theories/UtilsModel.v
theories/ErrorsModel.v
theories/StorageModel.v
theories/ParserModel.v
theories/OpcodeTables.v
theories/PassTwoModel.v
theories/BitmapModel.v
theories/PreopModel.v
theories/PassOneModel.v
theories/DirectiveModel.v
theories/Knot.v
theories/ExportModel.v
theories/MainModel.v
theories/Validate.v
theories/MonadProofs.v
theories/ErrorsSpec.v
theories/ErrorsProofs.v
theories/ErrorsProps.v
theories/ToupperModel.v
theories/ToupperProofs.v
theories/ToupperProps.v
theories/UtilsSpec.v
theories/UtilsProofs.v
theories/UtilsProps.v
theories/StorageSpec.v
theories/StorageProofs.v
theories/StorageProps.v
theories/ExpandBufModel.v
theories/ExpandBufProps.v
theories/ExportSpec.v
theories/ExportProofs.v
theories/AppProofs.v
theories/ExportProps.v
theories/PrimeProofs.v
theories/SignatureProps.v
theories/PassTwoSpec.v
theories/PassTwoProofs.v
theories/Programs.v
theories/PassTwoProps.v
theories/FuelProofs.v
theories/Whole.v
theories/DivProofs.v
theories/ParserSpec.v
theories/ParserProofs.v
theories/ParserProps.v
theories/SessionSpec.v
theories/SessionProofs.v
theories/SessionProps.v
theories/EvalSpec.v
theories/EvalProofs.v
theories/SecondSpec.v
theories/FrameProofs.v
theories/SecondProofs.v
theories/ResolveProofs.v
theories/SecondProps.v
theories/StringProps.v
theories/IncludeProps.v
theories/InstrSpec.v
theories/InstrProofs.v
theories/InstrProps.v
theories/MatchSpec.v
theories/MatchProofs.v
theories/MatchProps.v
theories/AsmSpec.v
theories/AsmExpand.v
theories/AsmRef.v
theories/AsmProofs.v
theories/AsmData.v
theories/AsmInstr.v
theories/AsmLine.v
theories/AsmRun.v
theories/AsmProps.v
theories/Z80Spec.v
theories/Z80Props.v
theories/CondSpec.v
theories/CondSkip.v
theories/CondExt.v
theories/CondRun.v
theories/CondProps.v
theories/SubstProps.v
theories/AddProps.v
theories/ShadeProofs.v
theories/BitmapSpec.v
theories/BitmapProofs.v
theories/BitmapRun.v
theories/DefineProps.v
theories/BitmapProps.v
theories/TermProps.v
theories/DefineProofs.v
theories/MacroSpec.v
theories/MacroRun.v
theories/MacroDefs.v
theories/MacroProps.v
theories/FileProps.v
theories/ConstProps.v
theories/DirProps.v
theories/PreopProps.v
theories/ListingModel.v
theories/ListingProps.v
theories/FrontSpec.v
theories/FrontRun.v
theories/FrontProps.v
theories/ShortProps.v
theories/OptionProps.v
theories/FunProps.v
theories/LayoutProps.v
theories/LineProps.v
theories/GenProps.v
theories/InvProofs.v
theories/InvProps.v
theories/EnvProofs.v
theories/EnvProps.v
theories/SymProps.v
theories/TimingSpec.v
theories/StatsModel.v
theories/StatsProps.v
theories/EchoProps.v
theories/RefuseProps.v
theories/ParenProps.v
theories/DupProps.v
theories/MissingProps.v
theories/ShowProps.v
theories/ParamProps.v
theories/EquProps.v
theories/LaterProps.v
theories/WarnProps.v
theories/EndlessProps.v
theories/UnknownProps.v
theories/JunkProps.v
theories/StatusProps.v
