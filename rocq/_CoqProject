-Q theories Verif
theories/Prelude.v
theories/Spec.v
theories/Chrono.v
theories/Util.v
theories/TimeType.v
theories/Matcher.v
theories/Iter.v
theories/Nom.v
theories/ParserTimetype.v
theories/ParserIterator.v
theories/ParserMod.v
theories/ModelTests.v
theories/RepoTests.v
theories/RepoTests2.v
theories/PreludeProofs.v
theories/CalendarProofs.v
theories/EvalProofs.v
theories/SpecTree.v
theories/SpecGetter.v
theories/SpecMoment.v
theories/AmountProofs.v
theories/ShapeProofs.v
theories/CompProofs.v
theories/LoopProofs.v
theories/Props_Amount.v
theories/Props_Shape.v
theories/AddProofs.v
theories/AddProofs2.v
theories/Props_Add.v
theories/SubProofs.v
theories/SubProofs2.v
theories/EndProofs.v
theories/ErrProofs.v
theories/Props_Sub.v
theories/Props_End.v
theories/OrdProofs.v
theories/Props_Query.v
theories/SpecIter.v
theories/IterProofs.v
theories/IterProofs2.v
theories/IterProofs3.v
theories/SeqProofs2.v
theories/ComposeProofs.v
theories/Props_Iter.v
theories/SpecAdapt.v
theories/AdapterProofs.v
theories/AdapterProofs2.v
theories/AdapterProofs3.v
theories/Props_Adapt.v
theories/SpecText.v
theories/NomProofs.v
theories/ParserProofs.v
theories/ParserProofs2.v
theories/LowerProofs.v
theories/ParserProofs3.v
theories/ParserProofs4.v
theories/ParserProofs5.v
theories/ParserProofs6.v
theories/Props_Parse.v
theories/Props_Date.v
theories/Props_Total.v
theories/SpecMode.v
theories/ModeProofs.v
theories/Props_Mode.v
theories/SpecSeq.v
theories/SeqProofs.v
theories/NegProofs.v
theories/Props_Seq.v
theories/Props_Compose.v
theories/SpecCost.v
theories/CostProofs.v
theories/ClockProofs.v
theories/Props_Clock.v
theories/Show.v
theories/Cli.v
theories/SpecCli.v
theories/CliProofs.v
theories/CliProofs2.v
theories/ShowProofs.v
theories/CliProofs3.v
theories/CliProofs4.v
theories/ShowProofs2.v
theories/Props_Cli.v
theories/Fuzz.v
theories/SpecDoc.v
theories/FuzzProofs.v
theories/DocProofs.v
theories/Props_Doc.v
theories/SpecOver.v
theories/OverProofs.v
theories/SpecOver2.v
theories/OverProofs2.v
theories/Props_Over.v
theories/SpecExact.v
theories/ExactProofs.v
theories/ExactProofs2.v
theories/ExactProofs3.v
theories/ReadmeProofs.v
theories/HeldProofs.v
theories/Props_Readme.v
theories/ExactProofs4.v
theories/ExactProofs5.v
theories/ExactProofs6.v
theories/ExactProofs7.v
theories/Props_Exact.v
theories/SpecLong.v
theories/LongProofs.v
theories/LongProofs2.v
theories/LongProofs3.v
theories/Props_Long.v
theories/SpecExact2.v
theories/ExactProofs8.v
theories/ExactProofs9.v
theories/Props_Exact2.v
theories/SpecWide.v
theories/WideProofs.v
theories/WideProofs2.v
theories/Props_Wide.v
theories/SpecValue.v
theories/ValueProofs.v
theories/SpecValue2.v
theories/ValueProofs2.v
theories/ValueProofs3.v
theories/SpecProgram.v
theories/ProgramProofs.v
theories/Props_Value.v
theories/Props_Program.v
theories/SpecAnswer.v
theories/AnswerProofs.v
theories/AnswerProofs2.v
theories/SpecAnswer2.v
theories/AnswerProofs3.v
theories/Props_Answer.v
theories/SpecDepth.v
theories/DepthProofs.v
theories/Props_Depth.v
theories/SpecReject.v
theories/RejectProofs.v
theories/Props_Reject.v
theories/SpecHang.v
theories/HangProofs.v
theories/Props_Hang.v
theories/SpecIso.v
theories/IsoProofs.v
theories/Props_Iso.v
theories/SpecClient.v
theories/ClientProofs.v
theories/Props_Client.v
theories/SpecWalk.v
theories/WalkProofs.v
theories/Props_Walk.v
theories/SpecCalls.v
theories/CallsProofs.v
theories/Props_Calls.v
theories/Indicator.v
theories/IndicatorProofs.v
theories/Props_Indicator.v
theories/SpecWork.v
theories/Grammar.v
theories/WorkProofs.v
theories/Props_Work.v
theories/SpecIterCalls.v
theories/IterCallsProofs.v
theories/Props_IterCalls.v
theories/SpecPlan.v
theories/PlanProofs.v
theories/Props_Plan.v
theories/Stdout.v
theories/SpecStdout.v
theories/StdoutProofs.v
theories/Props_Stdout.v
theories/Stack.v
theories/SpecStack.v
theories/StackProofs.v
theories/Props_Stack.v
theories/SpecTurns.v
theories/TurnsProofs.v
theories/TurnsProofs2.v
theories/Props_Turns.v
theories/SpecShift.v
theories/ShiftProofs.v
theories/ShiftProofs2.v
theories/ShiftProofs3.v
theories/Props_Shift.v
theories/SpecAsks.v
theories/AsksProofs.v
theories/Props_Asks.v
theories/SpecFar.v
theories/FarProofs.v
theories/Props_Far.v
theories/SameProofs.v
theories/Props_Same.v
theories/SpecTwice.v
theories/TwiceProofs.v
theories/Props_Twice.v
theories/SpecOrder.v
theories/OrderProofs.v
theories/Props_Order.v
theories/OrderProofs2.v
theories/FurtherProofs.v
theories/Props_Further.v
theories/SpecSwap.v
theories/SwapProofs.v
theories/Props_Swap.v
theories/SpecReach.v
theories/ReachProofs.v
theories/Props_Reach.v
theories/SpecBack.v
theories/BackProofs.v
theories/Props_Back.v
theories/SpecVisit.v
theories/VisitProofs.v
theories/Props_Visit.v
theories/SpecMeet.v
theories/MeetProofs.v
theories/Props_Meet.v
theories/SpecApart.v
theories/ApartProofs.v
theories/Props_Apart.v
theories/SpecEndStep.v
theories/EndStepProofs.v
theories/Props_EndStep.v
theories/SpecOff.v
theories/OffProofs.v
theories/Props_Off.v
theories/SpecDebug.v
theories/SpecFormat.v
theories/MergeProofs.v
theories/Props_Merge.v
theories/SpecEndMonth.v
theories/EndMonthProofs.v
theories/Props_EndMonth.v
theories/StrideProofs.v
theories/Props_Stride.v
theories/AlwaysProofs.v
theories/Props_Always.v
theories/SpecForever.v
theories/SoonerProofs.v
theories/ForeverProofs.v
theories/ForeverProofs2.v
theories/Props_Forever.v
theories/SpecDown.v
theories/DownProofs.v
theories/Props_Down.v
theories/OftenProofs.v
theories/Props_Often.v
theories/TallyProofs.v
theories/Props_Tally.v
theories/SpecFree.v
theories/FreeProofs.v
theories/Props_Free.v
theories/FridayProofs.v
theories/Props_Friday.v
theories/KindProofs.v
theories/SpecDerive.v
theories/DeriveProofs.v
theories/Props_Derive.v
