-Q theories Verif
theories/Base.v
theories/MinMax.v
theories/Json.v
theories/Serde.v
theories/Types.v
theories/DsBuilder.v
theories/Builder.v
theories/Spec.v
theories/DsFacts.v
theories/ConvFacts.v
theories/CheckFacts.v
theories/SpecCalls.v
theories/SpecThing.v
theories/SpecNum.v
theories/NumFacts.v
theories/DsProgFacts.v
theories/ProgFacts.v
theories/SaysFacts.v
theories/BuildFacts.v
theories/ThingFacts.v
theories/SchemaFacts.v
theories/OrderFacts.v
theories/CommuteFacts.v
theories/HList.v
theories/Protocol.v
theories/ProgramProps.v
theories/BoundFacts.v
theories/Samples.v
theories/SampleFacts.v
theories/DsExamples.v
theories/Ser.v
theories/De.v
theories/SpecSerde.v
theories/SerdeFacts.v
theories/RoundTrip.v
theories/RoundTripDs.v
theories/RoundTripTd.v
theories/RoundTripThing.v
theories/Extend.v
theories/SpecExt.v
theories/ExtFacts.v
theories/ExtendFacts.v
theories/HListFacts.v
theories/ProtocolFacts.v
theories/SerdeSamples.v
theories/SpecDoc.v
theories/GrownFacts.v
theories/CanonFacts.v
theories/ExtDocFacts.v
theories/DocFacts.v
theories/DocSamples.v
theories/FloatFacts.v
theories/DecodedFacts.v
theories/SpecMember.v
theories/MemberFacts.v
theories/RespellFacts.v
theories/NameFacts.v
theories/WrittenFacts.v
theories/Witnesses.v
theories/ShapeFacts.v
theories/SerdeMore.v
theories/MemberMore.v
theories/SpecTyped.v
theories/CleanFacts.v
theories/ExtTypedFacts.v
theories/StableFacts.v
theories/KnownFacts.v
theories/ExactFacts.v
theories/ExchangeMore.v
theories/SpecArgs.v
theories/ArgFacts.v
theories/BuiltFacts.v
theories/BuiltSamples.v
theories/Equal.v
theories/SpecEqual.v
theories/EqualFacts.v
theories/EqualSamples.v
theories/SpecRead.v
theories/ReadFacts.v
theories/Defaults.v
theories/SpecDefault.v
theories/DefaultFacts.v
theories/SchemaStructs.v
theories/SchemaStructFacts.v
theories/SpecStruct.v
theories/StructFacts.v
theories/SpecShape.v
theories/ConformFacts.v
theories/ReadsFacts.v
theories/BindingFacts.v
theories/ShapeSamples.v
theories/BindingSamples.v
theories/SpecVocab.v
theories/VocabFacts.v
theories/SpecGrammar.v
theories/GrammarFacts.v
theories/Display.v
theories/DisplayFacts.v
theories/SpecText.v
theories/TextFacts.v
theories/SpecShuffle.v
theories/ShuffleFacts.v
theories/Debug.v
theories/SpecDebug.v
theories/DebugFacts.v
theories/UncheckedFacts.v
theories/SpecResponses.v
theories/ResponseFacts.v
theories/OrderExact.v
theories/SpecReorder.v
theories/ReorderFacts.v
theories/SpecGiven.v
theories/GivenFacts.v
theories/SpecMade.v
theories/MadeFacts.v
theories/ThingMadeFacts.v
theories/MakeFacts.v
theories/RemakeFacts.v
theories/MakeSamples.v
theories/SpecFirst.v
theories/FirstFacts.v
theories/FirstSamples.v
theories/SpecLax.v
theories/LaxFacts.v
theories/LaxSamples.v
theories/SpecApart.v
theories/ApartFacts.v
theories/JsonText.v
theories/SpecJsonText.v
theories/JsonTextFacts.v
theories/SpecSyntax.v
theories/SyntaxFacts.v
theories/ThingTextFacts.v
theories/TextSamples.v
theories/SpecNest.v
theories/NestFacts.v
theories/NestSamples.v
theories/SpecBuiltText.v
theories/ThingFloatFacts.v
theories/BuiltTextFacts.v
theories/BuiltTextSamples.v
theories/ExactFloats.v
theories/SpecFloatText.v
theories/ExactFloatFacts.v
theories/ExactBuiltFacts.v
theories/SpecArrange.v
theories/ArrangeFacts.v
theories/ArrangeTextFacts.v
theories/ArrangeBuiltFacts.v
theories/ArrangeSameFacts.v
theories/SpecRow.v
theories/RowFacts.v
theories/SpecSpelt.v
theories/SpeltFacts.v
theories/SpecMethods.v
theories/MethodFacts.v
theories/Props_Build.v
theories/Props_Ds.v
theories/Props_HList.v
theories/Props_Protocol.v
theories/Props_Doc.v
theories/Props_Serde.v
theories/Props_Exchange.v
theories/Props_Member.v
theories/Props_Built.v
theories/Props_Equal.v
theories/Props_Read.v
theories/Props_Default.v
theories/Props_Struct.v
theories/Props_Shape.v
theories/Props_Vocab.v
theories/Props_Grammar.v
theories/Props_Display.v
theories/Props_Text.v
theories/Props_Debug.v
theories/Props_Made.v
theories/Props_First.v
theories/Props_Lax.v
theories/Props_Apart.v
theories/Props_JsonText.v
theories/Props_Nest.v
theories/Props_BuiltText.v
theories/Props_Float.v
theories/Props_Order.v
theories/Props_Row.v
theories/Props_Spelt.v
theories/RepoTestsBase.v
theories/RepoTests_Builder.v
theories/RepoTests_Affordance.v
theories/RepoTests_Schema.v
theories/RepoTests_Thing.v
theories/RepoTests_Protocol.v
theories/RepoTests_More.v
theories/RepoTests_Docs.v
theories/RepoTests_Text.v
