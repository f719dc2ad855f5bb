-Q theories Verif
theories/PyStr.v
theories/UnicodeTable.v
theories/UnicodeSpec.v
theories/Regex.v
theories/RegexLemmas.v
theories/RegexHead.v
theories/UnicodeModel.v
theories/UnicodeProofs.v
theories/UnicodeProofs2.v
theories/TexUtilsModel.v
theories/DelimSpec.v
theories/DelimProofs.v
theories/DelimProofs2.v
theories/CommentProofs.v
theories/DelimFinal.v
theories/SubstModel.v
theories/SubstSpec.v
theories/SubstProofs.v
theories/Json.v
theories/ContentModel.v
theories/ContentSpec.v
theories/RegexLocal.v
theories/TextModel.v
theories/TextProofs.v
theories/BuilderModel.v
theories/FactoryModel.v
theories/TableSpec.v
theories/TableModel.v
theories/TableProofs.v
theories/TableProofs2.v
theories/EtoolModel.v
theories/EtoolSpec.v
theories/EtoolProofs.v
theories/KeyvalModel.v
theories/KeyvalSpec.v
theories/KeyvalProofs.v
theories/ContentProofs.v
theories/ContentProofs2.v
theories/Placeholder.v
theories/PlaceModel.v
theories/PlaceSpec.v
theories/PlaceProofs.v
theories/TableCases.v
theories/ContentProofs3.v
theories/CommandModel.v
theories/CommandSpec.v
theories/KeyvalProofs2.v
theories/ContentProofs4.v
theories/CommandProofs.v
theories/CommandProofs2.v
theories/CommandProofs3.v
theories/CommandProofs4.v
theories/CommandProofs6.v
theories/UnicodeProofs3.v
theories/UnicodeProofs4.v
theories/UnicodeProofs5.v
theories/UnicodeCases.v
theories/UnicodeCover.v
theories/TokensModel.v
theories/TokensSpec.v
theories/TokensProofs.v
theories/TokensProofs2.v
theories/TokensCases.v
theories/BuilderSpec.v
theories/TidySpec.v
theories/BuilderProofs.v
theories/BuilderProofs2.v
theories/BuilderProofs3.v
theories/TidyProofs.v
theories/TidyProofs2.v
theories/TextSpec.v
theories/EnvModel.v
theories/EnvSpec.v
theories/EnvProofs.v
theories/EnvHandlerModel.v
theories/ExtractModel.v
theories/StyModel.v
theories/StyProofs.v
theories/EnvHandlerSpec.v
theories/EnvHandlerProofs.v
theories/EqModel.v
theories/EqSpec.v
theories/EqProofs.v
theories/CommandProofs7.v
theories/TextProofs3.v
theories/TextProofs2.v
theories/StyleSpec.v
theories/StyleSpec2.v
theories/ContentSpec2.v
theories/ContentProofs5.v
theories/BoxModel.v
theories/StyleModel.v
theories/IfModel.v
theories/IfSpec.v
theories/IfHandlerModel.v
theories/IfHandlerSpec.v
theories/IfHandlerProofs.v
theories/IfHandlerProofs2.v
theories/StyleProofs7.v
theories/RomanProofs.v
theories/ParseModel.v
theories/ParseSpec.v
theories/ParseProofs.v
theories/CommandProofs5.v
theories/CommandProofs8.v
theories/CommandCases.v
theories/ParseWeight.v
theories/ParseCore.v
theories/ParseCases.v
theories/ParseRead.v
theories/ParseReadProofs.v
theories/ParseReadProofs2.v
theories/ParseReadProofs3.v
theories/StyleProofs.v
theories/StyleProofs2.v
theories/StyleProofs3.v
theories/StyleProofs5.v
theories/StyleProofs6.v
theories/StyleProofs4.v
theories/StyleCases.v
theories/ReuseModel.v
theories/ReuseSpec.v
theories/ReuseProofs.v
theories/RegexShift.v
theories/RegexAbs.v
theories/ReaderModel.v
theories/ReaderProofs.v
theories/PropsUnicode.v
theories/PropsTokens.v
theories/PropsText.v
theories/PlaceProofs2.v
theories/PlaceProofs3.v
theories/PropsTable.v
theories/PropsStyle.v
theories/PropsSty.v
theories/PropsReuse.v
theories/PropsReader.v
theories/ParseReadCases.v
theories/PropsRead.v
theories/DefModel.v
theories/DefSpec.v
theories/PreambleModel.v
theories/PreambleSpec.v
theories/PreModel.v
theories/EnvHandlerProofs2.v
theories/EnvHandlerCases.v
theories/ItemModel.v
theories/ItemSpec.v
theories/LegacyModel.v
theories/LegacySpec.v
theories/EqProofs2.v
theories/EqProofs3.v
theories/ItemProofs.v
theories/ItemProofs2.v
theories/LegacyProofs.v
theories/LegacyProofs2.v
theories/LegacyProofs3.v
theories/LegacyProofs4.v
theories/LegacyProofs5.v
theories/BibModel.v
theories/BibSpec.v
theories/BibProofs.v
theories/BibProofs2.v
theories/BibitemModel.v
theories/BibitemSpec.v
theories/BibitemProofs.v
theories/BibitemProofs2.v
theories/BibitemProofs3.v
theories/BibdivModel.v
theories/BibdivSpec.v
theories/BibdivProofs.v
theories/BibdivProofs2.v
theories/BibdivProofs3.v
theories/BibParserModel.v
theories/BibParserSpec.v
theories/BibParserProofs.v
theories/FormatModel.v
theories/FormatSpec.v
theories/FormatProofs.v
theories/FormatProofs2.v
theories/DefProofs.v
theories/DefProofs2.v
theories/DiacriticsModel.v
theories/DiacriticsSpec.v
theories/DiacriticsProofs.v
theories/FormatProofs3.v
theories/FormatProofs4.v
theories/FormatProofs5.v
theories/DefProofs3.v
theories/PreambleProofs.v
theories/PreambleProofs2.v
theories/AuthorModel.v
theories/AuthorSpec.v
theories/AuthorProofs.v
theories/DefProofs4.v
theories/DefProofs8.v
theories/DefProofs9.v
theories/DefProofs10.v
theories/DefProofs11.v
theories/DefProofs12.v
theories/DefProofs13.v
theories/BibProofs3.v
theories/BoxSpec.v
theories/BoxProofs.v
theories/BoxProofs2.v
theories/DefProofs5.v
theories/DefProofs6.v
theories/DefProofs7.v
theories/PreambleProofs3.v
theories/PreambleProofs4.v
theories/PreambleCases.v
theories/PropsPreamble.v
theories/PreSpec.v
theories/PreRead.v
theories/PreProofs.v
theories/PreProofs2.v
theories/PreProofs3.v
theories/PreProofs4.v
theories/PreCases.v
theories/PreReadProofs.v
theories/PreReadCases.v
theories/PropsPreRead.v
theories/PropsPre.v
theories/ParseFinal.v
theories/PropsParse.v
theories/EtoolProofs2.v
theories/PackageCases.v
theories/PropsPackages.v
theories/PackModel.v
theories/PackSpec.v
theories/PackProofs.v
theories/PackProofs2.v
theories/PackCases.v
theories/PropsPack.v
theories/BuilderFinal.v
theories/BuilderSample.v
theories/NestSpec.v
theories/NestProofs.v
theories/NestProofs2.v
theories/NestProofs3.v
theories/PropsNest.v
theories/LoggerModel.v
theories/LoggerSpec.v
theories/LoggerProofs.v
theories/PropsLogger.v
theories/LegacyCases.v
theories/PropsLegacy.v
theories/LabelModel.v
theories/LabelSpec.v
theories/LabelProofs.v
theories/LabelCases.v
theories/PropsLabel.v
theories/JsonTextModel.v
theories/JsonTextSpec.v
theories/ContentProofs6.v
theories/JsonTextProofs.v
theories/JsonTextProofs2.v
theories/JsonTextProofs3.v
theories/PropsJsonText.v
theories/ItemProofs3.v
theories/ItemCases.v
theories/PropsItem.v
theories/IfProofs.v
theories/IfProofs2.v
theories/IfProofs3.v
theories/IfHandlerProofs3.v
theories/IfHandlerProofs4.v
theories/IfHandlerProofs5.v
theories/IfHandlerProofs6.v
theories/FactoryProofs.v
theories/IfHandlerCases.v
theories/PropsIfHandler.v
theories/IfCases.v
theories/PropsIf.v
theories/FormatProofs6.v
theories/FormatCases.v
theories/PropsFormat.v
theories/FactoryProofs2.v
theories/FactoryProofs3.v
theories/PropsFactory.v
theories/ExtractSpec.v
theories/ExtractProofs.v
theories/ExtractProofs2.v
theories/PropsExtract.v
theories/EqCases.v
theories/PropsEq.v
theories/EnvHandlerNames.v
theories/PropsEnv.v
theories/DumpModel.v
theories/DumpSpec.v
theories/DumpProofs.v
theories/DumpCases.v
theories/PropsDump.v
theories/DiacriticsCases.v
theories/PropsDiacritics.v
theories/PropsDelims.v
theories/DefProofs14.v
theories/DefCases.v
theories/PropsDef.v
theories/ContentProofs8.v
theories/ContentProofs7.v
theories/ContentShared.v
theories/ContentCases2.v
theories/PropsContent2.v
theories/PropsContent.v
theories/CompModel.v
theories/CompSpec.v
theories/CompProofs.v
theories/CompProofs2.v
theories/CompProofs3.v
theories/CompProofs4.v
theories/BibCases.v
theories/BibitemCases.v
theories/CompCases.v
theories/PropsComp.v
theories/PropsCommand.v
theories/CodecModel.v
theories/CodecSpec.v
theories/CodecProofs.v
theories/CodecCases.v
theories/PropsCodec.v
theories/CodeModel.v
theories/CodeSpec.v
theories/CodeProofs.v
theories/CodeCases.v
theories/PropsCode.v
theories/PropsBuilder.v
theories/BoxProofs3.v
theories/AliasModel.v
theories/AliasSpec.v
theories/AliasProofs.v
theories/BoxCases.v
theories/PropsBox.v
theories/PropsBibitem.v
theories/BibdivCases.v
theories/PropsBibdiv.v
theories/BibParserCases.v
theories/PropsBibParser.v
theories/PropsBib.v
theories/AuthorCases.v
theories/PropsAuthor.v
