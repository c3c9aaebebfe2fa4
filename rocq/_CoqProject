-Q theories Verif
theories/Base.v
theories/Types.v
theories/SpecTable.v
theories/Attrib.v
theories/Element.v
theories/Store.v
theories/Metadata.v
theories/Document.v
theories/Select.v
theories/DocOps.v
theories/Text.v
theories/Xml.v
theories/Parser.v
theories/Serialiser.v
theories/BaseFacts.v
theories/StoreFacts.v
theories/TypesFacts.v
theories/AttribFacts.v
theories/History.v
theories/Spec.v
theories/FrameFacts.v
theories/InvFacts.v
theories/DocFacts.v
theories/Examples.v
theories/StoreThms.v
theories/InternFacts.v
theories/PropsStore.v
theories/PropsTypes.v
theories/EncodeFacts.v
theories/PropsEncode.v
theories/LinkFacts.v
theories/TreeFacts.v
theories/ForestFacts.v
theories/PropsLinks.v
theories/SelSpec.v
theories/SelectFacts.v
theories/PropsSelect.v
theories/PropsQuery.v
theories/NoPanic.v
theories/Returns.v
theories/PropsPanic.v
theories/TextSpec.v
theories/TextFacts.v
theories/PropsText.v
theories/PropsTextTree.v
theories/ValidFacts.v
theories/PropsValid.v
theories/SpanFacts.v
theories/SpanSpec.v
theories/SpanLinks.v
theories/SerSpec.v
theories/PropsSer.v
theories/ParseSpec.v
theories/ParseFacts.v
theories/PropsParse.v
theories/PropsLoad.v
theories/PropsProv.v
theories/RoundFacts.v
theories/RoundProv.v
theories/RoundSpec.v
theories/RoundTree.v
theories/PropsRound.v
theories/RefFacts.v
theories/PropsTree.v
theories/PropsRefs.v
theories/WellSpec.v
theories/LoadOk.v
theories/PropsWell.v
theories/AddOk.v
theories/PropsAdd.v
theories/SaveSpec.v
theories/SaveOk.v
theories/ClassFacts.v
theories/PropsSave.v
theories/PropsSpans.v
theories/ResaveSpec.v
theories/ResaveFacts.v
theories/PropsResave.v
theories/TextRound.v
theories/PropsKept.v
theories/QueryRound.v
theories/PropsFound.v
theories/QuietSpec.v
theories/QuietFacts.v
theories/PropsQuiet.v
theories/AnswerFacts.v
theories/PropsAnswer.v
theories/Display.v
theories/PropsDisplay.v
theories/XmlText.v
theories/XmlTextFacts.v
theories/XmlSpec.v
theories/PropsBytes.v
theories/XmlWell.v
theories/PropsWellFormed.v
theories/PropsNamespace.v
theories/PropsCut.v
theories/LegalSpec.v
theories/PropsLegal.v
theories/LoadMono.v
theories/Lint.v
theories/LintSpec.v
theories/PropsLint.v
theories/PropsNew.v
theories/PropsCutOff.v
