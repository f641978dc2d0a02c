-Q theories Verif
theories/Base.v
theories/Types.v
theories/Filters.v
theories/Accounting.v
theories/Currency.v
theories/Position.v
theories/OrderBook.v
theories/OrderMargin.v
theories/Risk.v
theories/MarketUpdate.v
theories/Tracker.v
theories/Exchange.v
theories/Clone.v
theories/SpecClone.v
theories/CloneProof.v
theories/ScenarioClone.v
theories/CloneFacts.v
theories/P_Clone.v
theories/ProofBase.v
theories/BookLemmas.v
theories/StepLemmas.v
theories/FillLemmas.v
theories/OpLemmas.v
theories/Inv.v
theories/Spec.v
theories/LedgerProof.v
theories/FeeProof.v
theories/Scenario.v
theories/SpecRules.v
theories/SpecBook.v
theories/SpecMargin.v
theories/FilterProof.v
theories/MarginProof.v
theories/EntryProof.v
theories/BookProof.v
theories/OrderProof.v
theories/LedgerCor.v
theories/ModelTests.v
theories/P_Accounting.v
theories/RestingProof.v
theories/P_Ledger.v
theories/MarginCor.v
theories/SpecConfig.v
theories/SoundProof.v
theories/SpecPanic.v
theories/PanicProof.v
theories/ScenarioPanic.v
theories/PanicCor.v
theories/SyncProof.v
theories/SpecMarket.v
theories/MarketProof.v
theories/CoreProof.v
theories/FlowProof.v
theories/LiqProof.v
theories/TotalProof.v
theories/SpecEntry.v
theories/LimitProof.v
theories/ScenarioEntry.v
theories/ManyProof.v
theories/PanicFacts.v
theories/MarketFacts.v
theories/EntryFacts.v
theories/TradeFacts.v
theories/SpecBuild.v
theories/BuildProof.v
theories/TrackerProof.v
theories/SpecTrack.v
theories/TrackProof.v
theories/SampleProof.v
theories/SpecFlow.v
theories/FlowCor.v
theories/PnlCor.v
theories/PositionFacts.v
theories/TrackFacts.v
theories/P_Rules.v
theories/P_Margin.v
theories/P_Orders.v
theories/P_Panic.v
theories/P_Market.v
theories/P_Entry.v
theories/P_Trade.v
theories/P_Position.v
theories/P_Track.v
theories/SpecEquity.v
theories/EquityProof.v
theories/ScenarioEquity.v
theories/EquityCor.v
theories/P_Equity.v
theories/SpecFate.v
theories/FateProof.v
theories/P_Fate.v
theories/ScenarioHealth.v
theories/HealthProof.v
theories/P_Health.v
theories/SpecSplit.v
theories/SplitProof.v
theories/P_Split.v
theories/Untracked.v
theories/SpecQuiet.v
theories/UntrackedProof.v
theories/P_Quiet.v
theories/Stats.v
theories/SpecStats.v
theories/StatsProof.v
theories/P_Stats.v
theories/Data.v
theories/SpecData.v
theories/DataProof.v
theories/P_Data.v
theories/Helpers.v
theories/HelpersProof.v
theories/P_Helpers.v
theories/Moments.v
theories/SpecMoments.v
theories/MomentsProof.v
theories/P_Moments.v
theories/SpecView.v
theories/ViewProof.v
theories/ViewFacts.v
theories/P_View.v
theories/SpecMachine.v
theories/MachineProof.v
theories/P_Machine.v
theories/SpecCrash.v
theories/CrashProof.v
theories/P_Crash.v
theories/Width.v
theories/Fixed.v
theories/FixedProof.v
theories/FixedMono.v
theories/FixedFit.v
theories/SpecFixed.v
theories/ScenarioFixed.v
theories/FixedFacts.v
theories/ChurnProof.v
theories/P_Fixed.v
theories/SpecBound.v
theories/BoundProof.v
theories/NoOverflow.v
theories/ScenarioBound.v
theories/BoundFacts.v
theories/P_Bound.v
theories/SpecCash.v
theories/CashProof.v
theories/ScenarioCash.v
theories/CashFacts.v
theories/P_Cash.v
theories/Defaults.v
theories/SpecDefaults.v
theories/ScenarioDefaults.v
theories/DefaultsProof.v
theories/P_Defaults.v
theories/Wrapped.v
theories/WrapSim.v
theories/WrapExact.v
theories/SpecWrapped.v
theories/WrapProof.v
theories/WrapChurn.v
theories/WrapFacts.v
theories/P_Wrapped.v
theories/SpecFits.v
theories/FitsProof.v
theories/P_Fits.v
theories/SpecNeeds.v
theories/NeedsProof.v
theories/NeedsFacts.v
theories/BuildFixedProof.v
theories/P_Needs.v
theories/Release.v
theories/SpecRelease.v
theories/ReleaseProof.v
theories/ReleaseFits.v
theories/ReleaseInv.v
theories/ReleaseBooks.v
theories/ScenarioRelease.v
theories/ReleaseFacts.v
theories/P_Release.v
theories/Custom.v
theories/SpecCustom.v
theories/CustomProof.v
theories/ScenarioCustom.v
theories/CustomFacts.v
theories/P_Custom.v
theories/Tracked.v
theories/SpecTracked.v
theories/TrackedProof.v
theories/TrackedFull.v
theories/ScenarioTracked.v
theories/P_Tracked.v
theories/SpecTaker.v
theories/TakerProof.v
theories/ScenarioTaker.v
theories/TakerFacts.v
theories/P_Taker.v
theories/Ledger.v
theories/SpecLedger.v
theories/AnyLedgerProof.v
theories/MockProof.v
theories/AnyBooksProof.v
theories/DecideProof.v
theories/RefuseProof.v
theories/ScenarioLedger.v
theories/AnyLedgerCor.v
theories/P_AnyAccounting.v
theories/SpecCheap.v
theories/CheapProof.v
theories/CheapFacts.v
theories/P_Cheap.v
theories/Float.v
theories/SpecDouble.v
theories/FloatBase.v
theories/FloatProof.v
theories/FloatCor.v
theories/P_Float.v
theories/FloatStats.v
theories/SpecSample.v
theories/FloatStatsProof.v
theories/FloatStatsRatio.v
theories/FloatStatsMean.v
theories/FloatStatsGrid.v
theories/FloatStatsRoot.v
theories/FloatStatsMirror.v
theories/FloatStatsCor.v
theories/P_FloatStats.v
theories/Derived.v
theories/SpecDerived.v
theories/PairsProof.v
theories/DerivedProof.v
theories/DerivedFacts.v
theories/ScenarioDerived.v
theories/DerivedCor.v
theories/P_Derived.v
theories/Figures.v
theories/SpecFigures.v
theories/FiguresProof.v
theories/FiguresFloat.v
theories/ScenarioFigures.v
theories/FiguresCor.v
theories/P_Figures.v
theories/SpecParts.v
theories/PartsProof.v
theories/PartsMoney.v
theories/ScenarioParts.v
theories/P_Parts.v
theories/Numbered.v
theories/SpecNumbered.v
theories/NumberedProof.v
theories/P_Numbered.v
theories/SpecWind.v
theories/WindProof.v
theories/WindFacts.v
theories/P_Wind.v
theories/SpecStill.v
theories/StillProof.v
theories/ScenarioStill.v
theories/StillFacts.v
theories/P_Still.v
theories/Program.v
theories/SpecProgram.v
theories/ProgramProof.v
theories/ScenarioProgram.v
theories/ProgramFacts.v
theories/P_Program.v
theories/SpecGear.v
theories/GearProof.v
theories/ScenarioGear.v
theories/GearFacts.v
theories/P_Gear.v
theories/SpecThin.v
theories/ThinProof.v
theories/ScenarioThin.v
theories/ThinFacts.v
theories/P_Thin.v
theories/Bench.v
theories/BenchProof.v
theories/P_Bench.v
theories/SpecBatch.v
theories/BatchProof.v
theories/UndoProof.v
theories/ScenarioBatch.v
theories/BatchFacts.v
theories/P_Batch.v
theories/SpecLoose.v
theories/LooseProof.v
theories/ScenarioLoose.v
theories/LooseFacts.v
theories/P_Loose.v
theories/MaintProof.v
theories/SpecSlice.v
theories/SliceProof.v
theories/SlicePlay.v
theories/SliceCor.v
theories/ScenarioSlice.v
theories/SliceFacts.v
theories/P_Slice.v
theories/SpecDivide.v
theories/DivideProof.v
theories/ScenarioDivide.v
theories/DivideFacts.v
theories/P_Divide.v
theories/SpecGhost.v
theories/GhostProof.v
theories/ScenarioGhost.v
theories/GhostFacts.v
theories/P_Ghost.v
theories/ReliefProof.v
theories/ScenarioRelief.v
theories/ReliefFacts.v
theories/P_Relief.v
theories/SpecBargain.v
theories/BargainProof.v
theories/BargainMore.v
theories/ScenarioBargain.v
theories/BargainFacts.v
theories/P_Bargain.v
theories/MockTests.v
theories/SpecPatience.v
theories/PatienceProof.v
theories/ScenarioPatience.v
theories/PatienceFacts.v
theories/P_Patience.v
theories/SpecNews.v
theories/NewsProof.v
theories/ScenarioNews.v
theories/NewsFacts.v
theories/P_News.v
theories/Printed.v
theories/SpecPrinted.v
theories/PrintedProof.v
theories/PrintedFacts.v
theories/P_Printed.v
theories/SpecMemory.v
theories/MemoryProof.v
theories/ScenarioMemory.v
theories/MemoryFacts.v
theories/P_Memory.v
theories/SpecFresh.v
theories/FreshProof.v
theories/ScenarioFresh.v
theories/FreshFacts.v
theories/P_Fresh.v
theories/Messages.v
theories/SpecMessages.v
theories/MessagesProof.v
theories/MessagesFacts.v
theories/P_Messages.v
theories/AgainProof.v
theories/ScenarioAgain.v
theories/AgainFacts.v
theories/P_Again.v
theories/SpecRenew.v
theories/RenewProof.v
theories/ScenarioRenew.v
theories/RenewFacts.v
theories/P_Renew.v
theories/SpecBroad.v
theories/BroadProof.v
theories/ScenarioBroad.v
theories/BroadFacts.v
theories/P_Broad.v
theories/SoonerProof.v
theories/ScenarioSooner.v
theories/SoonerFacts.v
theories/P_Sooner.v
theories/MeanwhileProof.v
theories/ScenarioMeanwhile.v
theories/MeanwhileFacts.v
theories/P_Meanwhile.v
theories/EitherProof.v
theories/EitherFacts.v
theories/P_Either.v
theories/RepeatProof.v
theories/RepeatFacts.v
theories/P_Repeat.v
