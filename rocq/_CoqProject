-Q theories Verif
theories/Base.v
theories/Coord.v
theories/Bitset.v
theories/Zobrist.v
theories/Float32.v
theories/Goban.v
theories/Territory.v
theories/Game.v
theories/Builder.v
theories/Sgf.v
theories/DeadStones.v
theories/GroupMore.v
theories/Spec.v
theories/EyeSpec.v
theories/Reach.v
theories/Ops.v
theories/Observe.v
theories/ScoreSpec.v
theories/CoordFacts.v
theories/BitsetFacts.v
theories/Struct.v
theories/Push.v
theories/Inv.v
theories/Remove.v
theories/Capture.v
theories/Bridge.v
theories/MonadFacts.v
theories/GameFacts.v
theories/RulesFacts.v
theories/KoFacts.v
theories/BoardFacts.v
theories/CheckFacts.v
theories/EyeFacts.v
theories/EyeExact.v
theories/LegalFacts.v
theories/TerritoryFacts.v
theories/Float32Facts.v
theories/ScoreFacts.v
theories/OpsFacts.v
theories/ApiFacts.v
theories/Agree.v
theories/AgreeFacts.v
theories/LegalsFacts.v
theories/Samples.v
theories/SampleFacts.v
theories/ViewFacts.v
theories/BoundsFacts.v
theories/SetupFacts.v
theories/RefuteFacts.v
theories/ClaimFacts.v
theories/OutcomeNone.v
theories/SymSpec.v
theories/SymFacts.v
theories/SymGame.v
theories/LongFacts.v
theories/SgfSpec.v
theories/SgfFacts.v
theories/ZobristFacts.v
theories/SuperkoFacts.v
theories/PropFacts.v
theories/FloatingFacts.v
theories/JapaneseFacts.v
theories/RuleFacts.v
theories/ReprFacts.v
theories/PlayoutSpec.v
theories/PlayoutFacts.v
theories/DeadFacts.v
theories/VerdictSpec.v
theories/VerdictFacts.v
theories/TableSpec.v
theories/TableFacts.v
theories/QueryFacts.v
theories/RoundSpec.v
theories/MoreSpec.v
theories/RoundFacts.v
theories/RoundScore.v
theories/SymScore.v
theories/SymEye.v
theories/OccupiedFacts.v
theories/LoopFacts.v
theories/OverSpec.v
theories/OverFacts.v
theories/CaseFacts.v
theories/HashFacts.v
theories/HashClaims.v
theories/SymClaims.v
theories/EyeClaims.v
theories/RectClaims.v
theories/CoordClaims.v
theories/PlayClaims.v
theories/RoundClaims.v
theories/TableClaims.v
theories/BuildSpec.v
theories/BuildClaims.v
theories/Glue.v
theories/GlueFacts.v
theories/MoreClaims.v
theories/TightClaims.v
theories/LifeSpec.v
theories/LifeFacts.v
theories/AreaSpec.v
theories/AreaFacts.v
theories/SolidFacts.v
theories/LifeClaims.v
theories/SolidClaims.v
theories/Simulation.v
theories/SimulationSpec.v
theories/SimulationFacts.v
theories/SimulationClaims.v
theories/PositionFacts.v
theories/EndSpec.v
theories/EndFacts.v
theories/EndClaims.v
theories/Properties_capture.v
theories/Properties_rules.v
theories/Properties_score.v
theories/Properties_views.v
theories/Properties_setup.v
theories/Properties_playout.v
theories/Properties_table.v
theories/Properties_life.v
theories/RepoTests.v
theories/Properties_occupied.v
theories/AliasSpec.v
theories/AliasFacts.v
theories/AliasClaims.v
theories/BelowSpec.v
theories/BelowFacts.v
theories/BelowClaims.v
theories/Properties_alias.v
theories/SearchClaims.v
theories/Properties_search.v
theories/Bench.v
theories/BenchSpec.v
theories/PerftFacts.v
theories/PerftClaims.v
theories/BenchFacts.v
theories/BenchClaims.v
theories/SettingsSpec.v
theories/SettingsFacts.v
theories/Properties_bench.v
theories/Readme.v
theories/ReadmeSpec.v
theories/ReadmeFacts.v
theories/ReadmeClaims.v
theories/Properties_readme.v
theories/RectSpec.v
theories/RectCoord.v
theories/RectInv.v
theories/RectRemove.v
theories/RectCapture.v
theories/RectBridge.v
theories/RectGame.v
theories/RectVerdictSpec.v
theories/RectRules.v
theories/RectBoard.v
theories/RectCheck.v
theories/RectEye.v
theories/RectReach.v
theories/RectReachFacts.v
theories/RectVerdict.v
theories/RectList.v
theories/RectGo.v
theories/RectCases.v
theories/RectScore.v
theories/Text.v
theories/RectViews.v
theories/Properties_rect.v
theories/ChainFacts.v
theories/Properties_chains.v
theories/RectMoves.v
theories/RectKo.v
theories/RectLegal.v
theories/RectEndSpec.v
theories/RectEnd.v
theories/RectTableSpec.v
theories/RectTable.v
theories/RectPosition.v
theories/RectLegalClaims.v
theories/RectSymSpec.v
theories/RectSymFacts.v
theories/RectSymGame.v
theories/RectSymClaims.v
theories/RectCountSpec.v
theories/RectCount.v
theories/RectTimes.v
theories/RectCountScore.v
theories/Properties_tall.v
theories/Properties_simulation.v
theories/CycleSpec.v
theories/CycleClaims.v
theories/Equality.v
theories/EqualitySpec.v
theories/EqualityFacts.v
theories/Properties_cycle.v
theories/Properties_equality.v
theories/Properties_recsym.v
theories/Properties_reccount.v
theories/RectPlayoutSpec.v
theories/RectPlayout.v
theories/RectDead.v
theories/RectPlayoutClaims.v
theories/Properties_recplay.v
theories/RectLifeSpec.v
theories/RectLife.v
theories/RectSolid.v
theories/RectSolidClaims.v
theories/RectCycleSpec.v
theories/RectCycle.v
theories/RectBuildSpec.v
theories/RectBuild.v
theories/SizeKept.v
theories/SizeClaims.v
theories/Properties_reclife.v
theories/Properties_recbuild.v
theories/AnyBoard.v
theories/AnySpec.v
theories/AnyGame.v
theories/AnyViews.v
theories/AnyClaims.v
theories/Properties_any.v
theories/Refine.v
theories/RefineClaims.v
theories/Properties_builds.v
theories/FromSqrt.v
theories/FromFacts.v
theories/FromClaims.v
theories/Properties_from.v
theories/RectPerftSpec.v
theories/RectSimSpec.v
theories/RectPerft.v
theories/RectSim.v
theories/RectSimClaims.v
theories/Properties_tallplay.v
theories/BenchSgf.v
theories/BenchSgfFacts.v
theories/BenchSgfClaims.v
theories/Properties_replay.v
theories/Unwind.v
theories/UnwindFacts.v
theories/UnwindSpec.v
theories/UnwindClaims.v
theories/Properties_unwind.v
theories/ColourClaims.v
theories/Properties_colour.v
theories/TallPoint.v
theories/Properties_tallpoint.v
theories/UnwindTallSpec.v
theories/UnwindTall.v
theories/UnwindTallCases.v
theories/Properties_unwindtall.v
theories/FloatSwap.v
theories/FloatMono.v
theories/StrategySpec.v
theories/StrategyFacts.v
theories/RectSwap.v
theories/StealFacts.v
theories/StrategyCases.v
theories/KomiFacts.v
theories/KomiClaims.v
theories/KomiCases.v
theories/ValueSpec.v
theories/ValueFacts.v
theories/ValueCases.v
theories/LifeValueSpec.v
theories/LifeValue.v
theories/LifeValueCases.v
theories/LifeValueTall.v
theories/Properties_strategy.v
theories/Properties_komi.v
theories/Properties_value.v
theories/Properties_lifevalue.v
theories/BansSpec.v
theories/BansFacts.v
theories/BansCases.v
theories/Properties_bans.v
theories/PastSpec.v
theories/PastFacts.v
theories/PastCases.v
theories/Properties_past.v
theories/RecordSpec.v
theories/RecordFacts.v
theories/RecordCases.v
theories/Properties_record.v
theories/OrderSpec.v
theories/OrderFacts.v
theories/OrderCases.v
theories/Properties_order.v
theories/GiftSpec.v
theories/GiftFacts.v
theories/GiftCases.v
theories/Properties_gift.v
theories/FreeFacts.v
theories/FreeCases.v
theories/Properties_free.v
theories/BuildsFacts.v
theories/Properties_tally.v
theories/StageFacts.v
theories/StageCases.v
theories/Properties_stage.v
theories/LocalSpec.v
theories/LocalFacts.v
theories/LocalCases.v
theories/Properties_local.v
theories/FarFacts.v
theories/FarCases.v
theories/FarThree.v
theories/ThreeCases.v
theories/Properties_far.v
theories/ThreatFacts.v
theories/ThreatCases.v
theories/Properties_threat.v
theories/TenukiFacts.v
theories/TenukiCases.v
theories/Properties_tenuki.v
