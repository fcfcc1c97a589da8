-Q theories Verif
theories/AgreeCode.v
theories/AgreeProofs.v
theories/AgreeSpec.v
theories/AlikeProofs.v
theories/AlikeSpec.v
theories/Base.v
theories/BuilderCor.v
theories/BuilderModel.v
theories/BuilderProofs.v
theories/BuilderSend.v
theories/BuilderSpec.v
theories/CargoModel.v
theories/CargoProofs.v
theories/CargoSpec.v
theories/CliCompileCor.v
theories/CliCompileProofs.v
theories/CliCompileSpec.v
theories/CliCor.v
theories/CliEnd.v
theories/CliExact.v
theories/CliList.v
theories/CliModel.v
theories/CliProofs.v
theories/CliRun.v
theories/CliSpec.v
theories/ClientModel.v
theories/ClientProofs.v
theories/ClientSpec.v
theories/CompileClientProofs.v
theories/CompileCor.v
theories/CompileItemProofs.v
theories/CompileItemSpec.v
theories/CompileProofs.v
theories/CompileRunProofs.v
theories/CompileSpec.v
theories/ConstructModel.v
theories/CrateModel.v
theories/CrateProofs.v
theories/CrateSpec.v
theories/Dec.v
theories/DocCor.v
theories/DocProofs.v
theories/DocSpec.v
theories/DoubleProofs.v
theories/DoubleSpec.v
theories/EncodeModel.v
theories/EncodeProofs.v
theories/EncodeSpec.v
theories/EndCor.v
theories/EndSpec.v
theories/EnvProofs.v
theories/EpisodeKinds.v
theories/EpisodeProofs.v
theories/ErrorModel.v
theories/ExactProofs.v
theories/ExampleAgree.v
theories/ExampleAlike.v
theories/ExampleAnswer.v
theories/ExampleApart.v
theories/ExampleBuilder.v
theories/ExampleCli.v
theories/ExampleCliCompile.v
theories/ExampleCompile.v
theories/ExampleCrate.v
theories/ExampleData.v
theories/ExampleDots.v
theories/ExampleEnd.v
theories/ExampleFail.v
theories/ExampleGenerate.v
theories/ExampleGenerator.v
theories/ExampleKept.v
theories/ExampleKeys.v
theories/ExampleLinks.v
theories/ExampleLocal.v
theories/ExampleMacro.v
theories/ExampleMock.v
theories/ExampleMockCompile.v
theories/ExamplePages.v
theories/ExamplePanic.v
theories/ExampleRoute.v
theories/ExampleSchema.v
theories/ExampleScript.v
theories/ExampleSettings.v
theories/ExampleSupport.v
theories/ExampleTold.v
theories/ExampleToolFail.v
theories/ExampleTypes.v
theories/ExtractProofs.v
theories/FailProofs.v
theories/FailSpec.v
theories/FutureModel.v
theories/GenerateCor.v
theories/GenerateModel.v
theories/GenerateProofs.v
theories/GenerateSpec.v
theories/GeneratorMain.v
theories/GeneratorModel.v
theories/GeneratorProofs.v
theories/GeneratorSpec.v
theories/HeaderModel.v
theories/HeaderProofs.v
theories/KeptProofs.v
theories/KeptSpec.v
theories/KeysModel.v
theories/KeysProofs.v
theories/KeysSpec.v
theories/LinkProofs.v
theories/LinkSpec.v
theories/LocalProofs.v
theories/LocalSpec.v
theories/MacroModel.v
theories/MacroProofs.v
theories/MacroSpec.v
theories/MethodModel.v
theories/MockAnswerModel.v
theories/MockAnswerProofs.v
theories/MockAnswerSpec.v
theories/MockApart.v
theories/MockApartSpec.v
theories/MockCompileProofs.v
theories/MockCompileSpec.v
theories/MockCor.v
theories/MockDoc.v
theories/MockDotSpec.v
theories/MockDots.v
theories/MockEpisode.v
theories/MockEscaped.v
theories/MockEscapedSpec.v
theories/MockGen.v
theories/MockModel.v
theories/MockProofs.v
theories/MockSpec.v
theories/NameCor.v
theories/NameProofs.v
theories/NameSpec.v
theories/OasModel.v
theories/OpCor.v
theories/OpModel.v
theories/PageCor.v
theories/PageFirst.v
theories/PageFirstSpec.v
theories/PageProofs.v
theories/PageSpec.v
theories/PanicCor.v
theories/PanicProofs.v
theories/PanicSpec.v
theories/ParamProofs.v
theories/ParamSpec.v
theories/PascalProofs.v
theories/PascalSpec.v
theories/QueryProofs.v
theories/QuerySpec.v
theories/RefProofs.v
theories/RefSpec.v
theories/RefText.v
theories/RequestProofs.v
theories/RequestSpec.v
theories/ResponseProofs.v
theories/ResponseSpec.v
theories/RouteProofs.v
theories/RouteSpec.v
theories/RunModel.v
theories/RunProofs.v
theories/SanitizeModel.v
theories/SanitizeProofs.v
theories/SanitizeSpec.v
theories/SchemaAnn.v
theories/SchemaCor.v
theories/SchemaMain.v
theories/SchemaNull.v
theories/SchemaPanic.v
theories/SchemaPanicSpec.v
theories/SchemaProofs.v
theories/SchemaSpec.v
theories/SchemaWrap.v
theories/SchemaWrapSpec.v
theories/ScriptModel.v
theories/ScriptProofs.v
theories/ScriptSpec.v
theories/SerdeModel.v
theories/SettingsMain.v
theories/SettingsModel.v
theories/SettingsOrder.v
theories/SettingsOrderIff.v
theories/SettingsProofs.v
theories/SettingsRead.v
theories/SettingsReadSpec.v
theories/SettingsSpec.v
theories/SpaceModel.v
theories/SpaceProofs.v
theories/SpaceSpec.v
theories/StreamInst.v
theories/StreamModel.v
theories/StreamProofs.v
theories/StreamSpec.v
theories/SupportProofs.v
theories/SupportSpec.v
theories/TemplateModel.v
theories/TemplateProofs.v
theories/TemplateSpec.v
theories/TextProofs.v
theories/TextSpec.v
theories/ToSchemaModel.v
theories/ToldProofs.v
theories/ToldSpec.v
theories/TomlExact.v
theories/TomlProofs.v
theories/TomlSpec.v
theories/ToolFailProofs.v
theories/ToolFailSpec.v
theories/TypesModel.v
theories/TypesProofs.v
theories/TypesSpec.v
theories/UnicodeData.v
theories/UnicodeProofs.v
theories/UnicodeTree.v
theories/UnitTests.v
theories/Utf8.v
theories/Utf8Proofs.v
theories/ValidateProofs.v
theories/WordProofs.v
theories/PropAgree.v
theories/PropAlike.v
theories/PropAnswer.v
theories/PropApart.v
theories/PropBuilder.v
theories/PropCargo.v
theories/PropCli.v
theories/PropCliCompile.v
theories/PropClient.v
theories/PropCompile.v
theories/PropCrate.v
theories/PropDots.v
theories/PropEncode.v
theories/PropEnd.v
theories/PropExact.v
theories/PropFail.v
theories/PropGenerate.v
theories/PropGenerator.v
theories/PropKept.v
theories/PropLinks.v
theories/PropLocal.v
theories/PropMacro.v
theories/PropMock.v
theories/PropMockCompile.v
theories/PropNames.v
theories/PropPages.v
theories/PropPanic.v
theories/PropParams.v
theories/PropQuery.v
theories/PropRefs.v
theories/PropRequest.v
theories/PropResponse.v
theories/PropRoute.v
theories/PropSchema.v
theories/PropScript.v
theories/PropSettings.v
theories/PropSpace.v
theories/PropSupport.v
theories/PropTemplate.v
theories/PropText.v
theories/PropTold.v
theories/PropToolFail.v
theories/PropTypes.v
theories/PropVars.v
