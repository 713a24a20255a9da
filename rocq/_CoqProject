-Q theories Verif

theories/Model/Base.v
theories/Model/Core.v
theories/Model/Wired.v
theories/Model/Wireless.v
theories/Model/Decrypt.v
theories/Model/F64.v
theories/Model/DataInfo.v
theories/Model/ValueInfo.v
theories/Model/Record.v
theories/Model/UserData.v
theories/Spec/WiredSpec.v
theories/Spec/CoreSpec.v
theories/Spec/CrcSpec.v
theories/Spec/WirelessSpec.v
theories/Proof/BaseFacts.v
theories/Proof/WiredFacts.v
theories/Proof/WiredProps.v
theories/Proof/CoreFacts.v
theories/Proof/CrcFacts.v
theories/Proof/WirelessFacts.v
theories/Props/Wired.v
theories/Proof/FormatAFacts.v
theories/Proof/FormatAProps.v
theories/Props/Core.v
theories/Props/Wireless.v
theories/Spec/DecryptSpec.v
theories/Proof/DecryptFacts.v
theories/Props/Decrypt.v
theories/Spec/RecordSpec.v
theories/Proof/RecordFacts.v
theories/Proof/IterFacts.v
theories/Proof/HeaderFacts.v
theories/Proof/HeaderProps.v
theories/Proof/PanicFacts.v
theories/Proof/DateFacts.v
theories/Spec/FloatSpec.v
theories/Proof/FloatFacts.v
theories/Proof/NumberFacts.v
theories/Proof/NumberProps.v
theories/Props/Records.v
theories/Spec/AppSpec.v
theories/Proof/AppFacts.v
theories/Props/App.v
theories/Proof/AppDecrypt.v
theories/Props/AppDecrypt.v
theories/Model/Text.v
theories/Model/Hex.v
theories/Model/Format.v
theories/Model/Decimal.v
theories/Spec/TextSpec.v
theories/Proof/TextFacts.v
theories/Proof/HexFacts.v
theories/Spec/FormatSpec.v
theories/Proof/FormatFacts.v
theories/Props/Hex.v
theories/Proof/DecimalFacts.v
theories/Proof/ScaledFacts.v
theories/Props/Decimal.v
theories/Model/Csv.v
theories/Model/Escape.v
theories/Spec/EscapeSpec.v
theories/Spec/CsvSpec.v
theories/Proof/EscapeFacts.v
theories/Proof/CsvFacts.v
theories/Proof/CsvProps.v
theories/Props/Csv.v
theories/Model/Table.v
theories/Spec/TableSpec.v
theories/Proof/TableFacts.v
theories/Props/Render.v
theories/Model/MbusData.v
theories/Model/Show.v
theories/Model/Output.v
theories/Model/Annotate.v
theories/Spec/AnnotateSpec.v
theories/Proof/AnnotateFacts.v
theories/Proof/AnnotateFormatA.v
theories/Proof/AnnotateRecords.v
theories/Proof/AnnotateApp.v
theories/Proof/AnnotateProps.v
theories/Props/Annotate.v
theories/Spec/MbusSpec.v
theories/Proof/MbusFacts.v
theories/Proof/MbusProps.v
theories/Props/MbusData.v
theories/Spec/OutputSpec.v
theories/Proof/OutputFacts.v
theories/Proof/OutputRecords.v
theories/Proof/OutputFrames.v
theories/Proof/ShowFacts.v
theories/Proof/OpenedFacts.v
theories/Proof/OutputMore.v
theories/Proof/OutputValues.v
theories/Proof/OutputProps.v
theories/Props/Output.v
theories/Model/Rscada.v
theories/Spec/XmlSpec.v
theories/Spec/VifSpec.v
theories/Spec/ProductSpec.v
theories/Spec/RoundSpec.v
theories/Spec/RscadaSpec.v
theories/Spec/XmlVifSpec.v
theories/Proof/XmlFacts.v
theories/Proof/RscadaFacts.v
theories/Proof/ProductFacts.v
theories/Proof/RscadaMessages.v
theories/Proof/RscadaErrors.v
theories/Proof/RscadaRecords.v
theories/Proof/VifFacts.v
theories/Proof/RscadaValues.v
theories/Proof/RscadaClose.v
theories/Proof/RscadaProps.v
theories/Props/Rscada.v
theories/Model/Render.v
theories/Spec/RenderSpec.v
theories/Spec/MermaidSpec.v
theories/Spec/DiagramSpec.v
theories/Spec/DumpSpec.v
theories/Proof/RenderTable.v
theories/Proof/RenderFacts.v
theories/Proof/RenderFrame.v
theories/Proof/MermaidFacts.v
theories/Proof/MermaidFrame.v
theories/Proof/DumpFacts.v
theories/Proof/FormatProps.v
theories/Props/Formats.v
theories/Spec/DetailSpec.v
theories/Spec/LegacySpec.v
theories/Spec/SerializeSpec.v
theories/Proof/DetailFacts.v
theories/Proof/DetailRecords.v
theories/Proof/Utf8Facts.v
theories/Proof/DetailValues.v
theories/Proof/RscadaTexts.v
theories/Proof/DetailReports.v
theories/Proof/DetailProps.v
theories/Proof/LegacyFacts.v
theories/Proof/LegacyRecords.v
theories/Proof/LegacyValues.v
theories/Proof/SerializeFacts.v
theories/Proof/AnnotatePanic.v
theories/Proof/ViewFacts.v
theories/Proof/LegacyProps.v
theories/Props/Details.v
theories/Props/Legacy.v
theories/Model/Manufacturers.v
theories/Model/Legacy.v
theories/Model/LegacyJson.v
theories/Model/Serialize.v
theories/Test/Aes.v
theories/Test/LibmbusCorpus.v
theories/Test/RepoTests.v
theories/Test/LegacyTests.v
theories/Spec/VifeSpec.v
theories/Spec/QuantitySpec.v
theories/Proof/VifeFacts.v
theories/Proof/QuantityFacts.v
theories/Props/Extensions.v
theories/Proof/RscadaExtended.v
theories/Props/RscadaExtended.v
theories/Spec/RefusalSpec.v
theories/Proof/RefusalFacts.v
theories/Props/Refusals.v
theories/Model/AnnotateText.v
theories/Spec/TooltipSpec.v
theories/Proof/TooltipFacts.v
theories/Proof/TooltipTexts.v
theories/Proof/TooltipFrames.v
theories/Proof/TooltipFormatA.v
theories/Proof/TooltipProps.v
theories/Props/Tooltips.v
theories/Model/Json.v
theories/Spec/JsonSpec.v
theories/Proof/JsonFacts.v
theories/Proof/JsonDocs.v
theories/Model/JsonView.v
theories/Spec/JsonViewSpec.v
theories/Proof/JsonBack.v
theories/Proof/JsonViewFacts.v
theories/Proof/JsonProps.v
theories/Props/Json.v
theories/Model/Bindings.v
theories/Spec/BindingsSpec.v
theories/Proof/BindingsFacts.v
theories/Proof/BindingsProps.v
theories/Props/Bindings.v
theories/Spec/LegacyJsonSpec.v
theories/Proof/LegacyJsonFacts.v
theories/Proof/LegacyJsonBack.v
theories/Proof/LegacyJsonProps.v
theories/Props/LegacyJson.v
theories/Proof/LongDecimals.v
theories/Proof/LongDecimalsShown.v
theories/Props/LongDecimals.v
theories/Proof/VariableLength.v
theories/Proof/VariableExamples.v
theories/Props/VariableLength.v
theories/Model/Highlight.v
theories/Spec/HighlightSpec.v
theories/Proof/HighlightProps.v
theories/Props/Highlight.v
theories/Spec/ChartSpec.v
theories/Proof/LegacyChart.v
theories/Props/LegacyChart.v
theories/Proof/SpecialRecords.v
theories/Props/SpecialRecords.v
theories/Spec/SenderSpec.v
theories/Proof/SenderProps.v
theories/Props/Sender.v
theories/Proof/RecognizeProps.v
theories/Props/Recognize.v
theories/Proof/WrongKey.v
theories/Props/WrongKey.v
