-Q theories Verif
theories/Str.v
theories/Regex.v
theories/HtmlRe.v
theories/Fence.v
theories/Atx.v
theories/Entity.v
theories/Inlines.v
theories/Anchor.v
theories/Toc.v
theories/Write.v
theories/Cli.v
theories/AsciiEnv.v
theories/UpstreamTests.v
theories/StrFacts.v
theories/Spec.v
theories/FenceProof.v
theories/AtxProof.v
theories/LabelProof.v
theories/PropFence.v
theories/PropHeading.v
theories/DecFacts.v
theories/EnvSpec.v
theories/AnchorSpec.v
theories/AnchorProof.v
theories/PropAnchor.v
theories/TocSpec.v
theories/TocProof.v
theories/TocLoop.v
theories/TocRun.v
theories/DocSpec.v
theories/PropDoc.v
theories/TableSpec.v
theories/TableProof.v
theories/PropTable.v
theories/RegexSpec.v
theories/RegexProof.v
theories/WriteSpec.v
theories/WriteProof.v
theories/WriteLoop.v
theories/WriteTwice.v
theories/HelperSpec.v
theories/PropWrite.v
theories/PropMulti.v
theories/Inert.v
theories/RerunSpec.v
theories/PropRerun.v
theories/EntityProof.v
theories/InlineProof.v
theories/InlineTotal.v
theories/EmphSpec.v
theories/InlineRun.v
theories/InlineEmph.v
theories/InlineOpaque.v
theories/PropEmphasis.v
theories/HtmlSpec.v
theories/HtmlProof.v
theories/PropHtml.v
theories/InlineHtml.v
theories/SafeSpec.v
theories/SafeProof.v
theories/PropErrors.v
theories/CliSpec.v
theories/PropNewline.v
theories/Args.v
theories/PropArgs.v
theories/PropStable.v
theories/PropCheck.v
theories/HeadSpec.v
theories/PropLines.v
theories/PlainSpec.v
theories/PropPlain.v
theories/DelimSpec.v
theories/InlinePair.v
theories/InlineRead.v
theories/PropPairs.v
theories/LinkSpec.v
theories/InlineSettle.v
theories/InlineLink.v
theories/PropLinks.v
theories/InlineTarget.v
theories/InlineBare.v
theories/InlineAngle.v
theories/InlineStill.v
theories/BookSpec.v
theories/PropMarked.v
theories/PropBook.v
theories/CommandSpec.v
theories/PropCommand.v
theories/Pointers.v
theories/PointersTree.v
theories/PointersForest.v
theories/PointersList.v
theories/PointersEmph.v
theories/PointersRun.v
theories/PropPointers.v
theories/HistorySpec.v
theories/PropHistory.v
theories/Killed.v
theories/CallSpec.v
theories/PropCalls.v
theories/Argv.v
theories/ArgvSpec.v
theories/PropArgv.v
theories/PropFirst.v
theories/PropMore.v
theories/Disk.v
theories/PropDisk.v
theories/DiskSpec.v
theories/Buffer.v
theories/BufferProof.v
theories/BufferSpec.v
theories/PropBuffer.v
theories/PropArgv2.v
theories/LineSpec.v
theories/LineProof.v
theories/LineLoop.v
theories/PropLine.v
theories/HelpSpec.v
theories/PropHelp.v
theories/Program.v
theories/ProgramSpec.v
theories/PropProgram.v
theories/KeptSpec.v
theories/PropKept.v
theories/Steps.v
theories/StepsSpec.v
theories/StepsProof.v
theories/PropSteps.v
theories/BytesSpec.v
theories/Bytes.v
theories/BytesProof.v
theories/BytesText.v
theories/BytesRun.v
theories/PropBytes.v
theories/WorldSpec.v
theories/PropWorld.v
theories/IntervalSpec.v
theories/PropInterval.v
theories/TameSpec.v
theories/LinkTotal.v
theories/PropTame.v
theories/InlineSection.v
theories/HtmlRaw.v
theories/InlineTicks.v
theories/OpenSpec.v
theories/PropOpen.v
theories/InlineLone.v
theories/InlineHollow.v
