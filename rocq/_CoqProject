-Q theories Verif
theories/Model/Base.v
theories/Model/Ansi.v
theories/Model/Regex.v
theories/Model/Strip.v
theories/Model/Filters.v
theories/Model/SettingsDump.v
theories/Model/TracedProcess.v
theories/Model/Settings.v
theories/Model/Segment.v
theories/Model/Template.v
theories/Model/Parser.v
theories/Model/Console.v
theories/Model/Formatter.v
theories/Model/Reader.v
theories/Model/Runner.v
theories/Model/Options.v
theories/Model/Distribute.v
theories/Model/Color.v
theories/Model/Presets.v
theories/Model/TimeDelta.v
theories/Model/Trace.v
theories/Spec/Weave.v
theories/Spec/TraceText.v
theories/Spec/Filtered.v
theories/Spec/ReplacementText.v
theories/Spec/Preferences.v
theories/Spec/Doubles.v
theories/Spec/Logarithm.v
theories/Spec/SettingsShown.v
theories/Spec/HelpShown.v
theories/Spec/HelpExamples.v
theories/Spec/ReadmeTable.v
theories/Spec/Duration.v
theories/Spec/Numbers.v
theories/Spec/Terminal.v
theories/Spec/Utf8.v
theories/Spec/Lexical.v
theories/Proof/BaseFacts.v
theories/Proof/RegexFacts.v
theories/Proof/TermFacts.v
theories/Spec/Sgr.v
theories/Proof/ClosingFacts.v
theories/Proof/LexFacts.v
theories/Spec/SgrParams.v
theories/Proof/TokFacts.v
theories/Spec/Display.v
theories/Proof/PaintFacts.v
theories/Proof/StripFacts.v
theories/Proof/TraceFacts.v
theories/Proof/TraceRun.v
theories/Proof/TraceClaims.v
theories/Proof/TraceWhole.v
theories/Proof/TraceTextFacts.v
theories/Proof/TraceAmounts.v
theories/Proof/TraceBooks.v
theories/Proof/FilterClaims.v
theories/Proof/ReplaceClaims.v
theories/Proof/ReplaceExamples.v
theories/Proof/SettingsFacts.v
theories/Proof/SettingsClaims.v
theories/Proof/TracedClaims.v
theories/Proof/HelpFacts.v
theories/Proof/HelpClaims.v
theories/Proof/HelpExamples.v
theories/Proof/ReadmeTable.v
theories/Proof/TraceExamples.v
theories/Proof/TraceTextExamples.v
theories/Props/AnsiProps.v
theories/Proof/DisplayFacts.v
theories/Proof/BinDisplay.v
theories/Proof/TextDisplay.v
theories/Proof/BufFacts.v
theories/Spec/History.v
theories/Proof/BufHistory.v
theories/Spec/Output.v
theories/Proof/ConsoleFacts.v
theories/Proof/TextFormat.v
theories/Proof/BinFormat.v
theories/Proof/RunFacts.v
theories/Spec/Input.v
theories/Spec/Invocation.v
theories/Spec/Overrides.v
theories/Spec/Layout.v
theories/Spec/Palette.v
theories/Proof/ReaderFacts.v
theories/Proof/RunMain.v
theories/Proof/LexClaims.v
theories/Proof/RunClaims.v
theories/Spec/Dump.v
theories/Proof/BinClaims.v
theories/Proof/TextClaims.v
theories/Spec/Fragments.v
theories/Proof/FragClaims.v
theories/Spec/Names.v
theories/Spec/Compare.v
theories/Proof/PieceClaims.v
theories/Proof/ShowClaims.v
theories/Proof/LookClaims.v
theories/Proof/MoreClaims.v
theories/Proof/BufMore.v
theories/Proof/ParseClaims.v
theories/Proof/LexExtra.v
theories/Proof/ExampleFacts.v
theories/Props/LexProps.v
theories/Props/BufferProps.v
theories/Proof/ReaderExtra.v
theories/Proof/RunExtra.v
theories/Proof/OffsetShown.v
theories/Proof/AppClaims.v
theories/Proof/SmallClaims.v
theories/Proof/DistributeFacts.v
theories/Proof/ColorFacts.v
theories/Proof/PresetFacts.v
theories/Proof/DurationFacts.v
theories/Proof/LibClaims.v
theories/Proof/DisplayExtra.v
theories/Props/DisplayProps.v
theories/Props/RunProps.v
theories/Props/ReaderProps.v
theories/Props/AppProps.v
theories/Props/LibProps.v
theories/Props/TraceProps.v
theories/Props/TraceTextProps.v
theories/Model/ColorNames.v
theories/Model/Render.v
theories/Model/RenderSetup.v
theories/Model/Hsv.v
theories/Model/HsvFloat.v
theories/Model/TimeFloat.v
theories/Model/FloatDoubles.v
theories/Spec/Tmux.v
theories/Spec/Html.v
theories/Spec/Styles.v
theories/Proof/RenderFacts.v
theories/Proof/TmuxFacts.v
theories/Proof/RenderMore.v
theories/Proof/HtmlFacts.v
theories/Proof/RenderClaims.v
theories/Props/RenderProps.v
theories/Model/Legend.v
theories/Model/Messages.v
theories/Spec/Legend.v
theories/Spec/Messages.v
theories/Proof/LegendFacts.v
theories/Proof/DecodeFacts.v
theories/Proof/MessageFacts.v
theories/Proof/LegendClaims.v
theories/Props/LegendProps.v
theories/Model/FloatText.v
theories/Spec/FloatText.v
theories/Proof/FloatFacts.v
theories/Proof/FloatClaims.v
theories/Proof/UnitFacts.v
theories/Proof/UnitClaims.v
theories/Props/FloatProps.v
theories/Model/Process.v
theories/Spec/Process.v
theories/Proof/ProcessFacts.v
theories/Proof/ProcessClaims.v
theories/Props/ProcessProps.v
theories/Model/Args.v
theories/Model/Wrap.v
theories/Model/Help.v
theories/Spec/CommandLine.v
theories/Spec/HelpAsked.v
theories/Proof/ArgsInt.v
theories/Proof/ArgsFacts.v
theories/Proof/ArgsClaims.v
theories/Proof/ArgsMain.v
theories/Proof/ArgsHelp.v
theories/Props/ArgsProps.v
theories/Props/FilterProps.v
theories/Props/SettingsProps.v
theories/Props/HelpProps.v
theories/Props/HelpExampleProps.v
theories/Props/ReadmeProps.v
theories/Model/UsageErrors.v
theories/Spec/UsageReasons.v
theories/Proof/UsageFacts.v
theories/Proof/UsageReads.v
theories/Proof/UsageClaims.v
theories/Proof/UsageMain.v
theories/Props/UsageProps.v
theories/Model/SgrNames.v
theories/Model/Es7sTemplate.v
theories/Model/LegendGen.v
theories/Spec/SgrNames.v
theories/Spec/TemplateText.v
theories/Proof/SgrNamesClaims.v
theories/Proof/HsvClaims.v
theories/Proof/RoundFacts.v
theories/Proof/TimeFloatFacts.v
theories/Proof/TimeFloatClaims.v
theories/Proof/SetupClaims.v
theories/Proof/TemplateFacts.v
theories/Proof/TemplateClaims.v
theories/Proof/LegendGenClaims.v
theories/Proof/TemplateExamples.v
theories/Props/TemplateProps.v
theories/Props/SetupProps.v
theories/Props/TimeProps.v
theories/Spec/Encoding.v
theories/Proof/EncodeClaims.v
theories/Proof/EncodeMain.v
theories/Props/EncodeProps.v
theories/Model/StyleMemory.v
theories/Spec/SharedStyles.v
theories/Proof/StyleMemoryClaims.v
theories/Props/MemoryProps.v
theories/Model/Repr.v
theories/Spec/ReprText.v
theories/Proof/ReprClaims.v
theories/Props/ReprProps.v
theories/Proof/FloatDoubleFacts.v
theories/Proof/FloatDoubleClaims.v
theories/Proof/UnitDoubleClaims.v
theories/Proof/UnitSmallClaims.v
theories/Proof/BinaryTinyClaims.v
theories/Proof/LogFacts.v
theories/Proof/DoubleRefuted.v
theories/Proof/HsvFloatClaims.v
theories/Props/FloatDoubleProps.v
theories/Props/HsvProps.v
theories/Model/ReprChain.v
theories/Spec/ReprChainText.v
theories/Proof/ReprChainClaims.v
theories/Props/ReprChainProps.v
theories/Model/ThousandFloat.v
theories/Spec/DecimalText.v
theories/Proof/ThousandFloatClaims.v
theories/Proof/ShortestClaims.v
theories/Props/ThousandProps.v
theories/Spec/Underline.v
theories/Proof/UnderlineFacts.v
theories/Props/UnderlineProps.v
theories/Spec/OtherMode.v
theories/Proof/OtherModeFacts.v
theories/Proof/OtherModeExamples.v
theories/Props/OtherModeProps.v
theories/Spec/PlainQueue.v
theories/Proof/PlainQueueFacts.v
theories/Props/PlainQueueProps.v
theories/Spec/ReadBack.v
theories/Proof/ReadBackFacts.v
theories/Props/ReadBackProps.v
theories/Spec/Parts.v
theories/Proof/PartsFacts.v
theories/Proof/PartsExamples.v
theories/Props/PartsProps.v
theories/Spec/Kept.v
theories/Proof/KeptFacts.v
theories/Props/KeptProps.v
theories/Spec/Conditions.v
theories/Model/WaitKey.v
theories/Spec/WaitKey.v
theories/Proof/WaitKeyFacts.v
theories/Props/WaitKeyProps.v
theories/Model/IntNumbers.v
theories/Spec/IntNumbers.v
theories/Proof/IntNumberFacts.v
theories/Proof/IntNumberClaims.v
theories/Props/IntNumberProps.v
