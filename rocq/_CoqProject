-Q theories Verif
theories/Model/Base.v
theories/Model/Converters.v
theories/Model/XmlTree.v
theories/Model/XmlWrite.v
theories/Model/XmlRead.v
theories/Model/Dictionary.v
theories/Model/ContentTypes.v
theories/Model/Package.v
theories/Model/Relations.v
theories/Model/ShareString.v
theories/Model/CalcChain.v
theories/Model/CoreProperties.v
theories/Model/Worksheet.v
theories/Model/Style.v
theories/Model/Theme.v
theories/Model/Workbook.v
theories/Model/Excel.v
theories/Model/Ffi.v
theories/Spec/XmlSpec.v
theories/Model/XmlView.v
theories/Spec/ColumnSpec.v
theories/Spec/XmlRepr.v
theories/Spec/XmlHistory.v
theories/Spec/RelSpec.v
theories/Spec/PackageSpec.v
theories/Spec/PartSpec.v
theories/Spec/StyleSpec.v
theories/Spec/SheetSpec.v
theories/Spec/BookSpec.v
theories/Spec/SessionSpec.v
theories/Spec/LinkSpec.v
theories/Spec/FlowSpec.v
theories/Spec/OpenSpec.v
theories/Spec/OpenStyleSpec.v
theories/Spec/OpenSheetSpec.v
theories/Spec/OpenMoreSpec.v
theories/Spec/OpenLinkSpec.v
theories/Spec/OpenTextSpec.v
theories/Spec/ReopenSpec.v
theories/Spec/WellSpec.v
theories/Spec/SaveOkSpec.v
theories/Spec/PanicSpec.v
theories/Spec/AnswerSpec.v
theories/Spec/InventorySpec.v
theories/Spec/RepeatSpec.v
theories/Spec/SwapSpec.v
theories/Spec/GrowSpec.v
theories/Spec/CSpec.v
theories/Spec/FfiSpec.v
theories/Spec/DocSpec.v
theories/Proofs/XmlWriteFacts.v
theories/Proofs/XmlLexFacts.v
theories/Proofs/XmlReadFacts.v
theories/Proofs/XmlTreeFacts.v
theories/Proofs/XmlHistFacts.v
theories/Proofs/XmlNsFacts.v
theories/Proofs/DocBuild.v
theories/Proofs/ReadAnyFacts.v
theories/Proofs/PartFacts.v
theories/Spec/DemoEnv.v
theories/Proofs/BaseFacts.v
theories/Proofs/ConverterFacts.v
theories/Proofs/FlagFacts.v
theories/Proofs/RelFacts.v
theories/Proofs/PackageFacts.v
theories/Proofs/TypesFacts.v
theories/Proofs/RelDocFacts.v
theories/Proofs/SmallPartFacts.v
theories/Proofs/AttrFacts.v
theories/Proofs/SheetFacts.v
theories/Proofs/SheetDocFacts.v
theories/Proofs/SheetCycleFacts.v
theories/Proofs/StyleFacts.v
theories/Proofs/StyleDocFacts.v
theories/Proofs/BookFacts.v
theories/Proofs/FrameFacts.v
theories/Proofs/SaveFacts.v
theories/Proofs/SessionFacts.v
theories/Proofs/ExcelFacts.v
theories/Proofs/FfiFacts.v
theories/Proofs/SoundFacts.v
theories/Proofs/KeepFacts.v
theories/Proofs/LinkFacts.v
theories/Proofs/WellFacts.v
theories/Proofs/FlowFacts.v
theories/Proofs/FlowSaveFacts.v
theories/Proofs/FlowOpenFacts.v
theories/Proofs/OwnFacts.v
theories/Proofs/OrderFacts.v
theories/Proofs/OpenBookFacts.v
theories/Proofs/OpenSheetFacts.v
theories/Proofs/OpenMoreFacts.v
theories/Proofs/OpenLinkFacts.v
theories/Proofs/OpenTextFacts.v
theories/Proofs/ReopenFacts.v
theories/Proofs/ChainlessFacts.v
theories/Proofs/SaveOkFacts.v
theories/Proofs/PanicFacts.v
theories/Proofs/AnswerFacts.v
theories/Proofs/InventoryFacts.v
theories/Proofs/RepeatFacts.v
theories/Proofs/SwapFacts.v
theories/Proofs/FailFacts.v
theories/Proofs/GrowFacts.v
theories/Proofs/OnceFacts.v
theories/Proofs/HeldFacts.v
theories/Proofs/CFacts.v
theories/Proofs/OpenRelFacts.v
theories/Proofs/FoundFacts.v
theories/Proofs/OpenStyleFacts.v
theories/Proofs/DocFacts.v
theories/Props/ConverterProps.v
theories/Props/XmlProps.v
theories/Props/RelProps.v
theories/Props/PackageProps.v
theories/Props/TypesProps.v
theories/Props/SmallPartProps.v
theories/Props/SheetProps.v
theories/Props/StyleProps.v
theories/Props/BookProps.v
theories/Props/ExcelProps.v
theories/Props/FfiProps.v
theories/Props/DocProps.v
theories/Props/KeepProps.v
theories/Props/LinkProps.v
theories/Props/WellProps.v
theories/Props/FlowProps.v
theories/Props/OpenProps.v
theories/Props/OpenStyleProps.v
theories/Props/OpenSheetProps.v
theories/Props/OpenMoreProps.v
theories/Props/OpenLinkProps.v
theories/Props/OpenTextProps.v
theories/Props/ReopenProps.v
theories/Props/SaveOkProps.v
theories/Props/PanicProps.v
theories/Props/AnswerProps.v
theories/Props/InventoryProps.v
theories/Props/RepeatProps.v
theories/Props/SwapProps.v
theories/Props/GrowProps.v
theories/Props/OnceProps.v
theories/Props/HeldProps.v
theories/Props/CProps.v
theories/Proofs/DamageFacts.v
theories/Props/DamageProps.v
theories/Proofs/SpoilFacts.v
theories/Props/SpoilProps.v
theories/Spec/RestSpec.v
theories/Spec/CarrySpec.v
theories/Spec/KindSpec.v
theories/Proofs/RestFacts.v
theories/Proofs/CarryFacts.v
theories/Proofs/KindFacts.v
theories/Props/RestProps.v
theories/Props/CarryProps.v
theories/Props/KindProps.v
