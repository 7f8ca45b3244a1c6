-Q theories Verif
theories/Base.v
theories/Float.v
theories/Heap.v
theories/Strings.v
theories/Types.v
theories/Lookup.v
theories/StatusEffect.v
theories/JobResource.v
theories/Combo.v
theories/Channeling.v
theories/Stats.v
theories/Library.v
theories/Events.v
theories/Rotation.v
theories/DamageBuild.v
theories/Damage.v
theories/KillTime.v
theories/Csv.v
theories/BaseFacts.v
theories/HeapFacts.v
theories/SpecQueue.v
theories/EventsFacts.v
theories/Fixtures.v
theories/PropsQueue.v
theories/SpecCond.v
theories/CondFacts.v
theories/AoeFacts.v
theories/PropsCond.v
theories/SpecLibrary.v
theories/LibraryFacts.v
theories/PropsLibrary.v
theories/SpecStatus.v
theories/StatusFacts.v
theories/PropsStatus.v
theories/SpecTrackers.v
theories/TrackerFacts.v
theories/PropsTrackers.v
theories/FloatFacts.v
theories/SpecPlay.v
theories/PlayFacts.v
theories/LogFacts.v
theories/SpecTimeline.v
theories/TimelineFacts.v
theories/SpecDots.v
theories/DotFacts.v
theories/SpecAuto.v
theories/AutoFacts.v
theories/RunFacts.v
theories/SpecRun.v
theories/RunProps.v
theories/RunAgain.v
theories/Relabel.v
theories/ApiFacts.v
theories/DotProps.v
theories/TimelineProps.v
theories/RunCounter.v
theories/PropsRotation.v
theories/PropsDots.v
theories/SpecSettings.v
theories/SettingsFacts.v
theories/PropsTimeline.v
theories/SpecSpeed.v
theories/SpeedFacts.v
theories/PropsSpeed.v
theories/AutoProps.v
theories/RunStories.v
theories/FuelFacts.v
theories/AutoCounter.v
theories/PropsAuto.v
theories/SpecPositional.v
theories/PositionalFacts.v
theories/PropsPositional.v
theories/SpecCsv.v
theories/CsvFacts.v
theories/CsvCounter.v
theories/PropsCsv.v
theories/SpecDamage.v
theories/DamageFacts.v
theories/DamageStory.v
theories/DamageRun.v
theories/DamageTrace.v
theories/DamageLeak.v
theories/DamageCounter.v
theories/DamageProps.v
theories/PropsDamageBuild.v
theories/SpecHit.v
theories/SpecKill.v
theories/HitFacts.v
theories/HitOutcomes.v
theories/SimFacts.v
theories/KillFacts.v
theories/HitProps.v
theories/PropsHit.v
theories/Py.v
theories/Data_AST.v
theories/Data_BLM.v
theories/Data_BRD.v
theories/Data_DNC.v
theories/Data_DRG.v
theories/Data_DRK.v
theories/Data_GNB.v
theories/Data_MCH.v
theories/Data_MNK.v
theories/Data_NIN.v
theories/Data_PCT.v
theories/Data_PLD.v
theories/Data_RDM.v
theories/Data_RPR.v
theories/Data_SAM.v
theories/Data_SCH.v
theories/Data_SGE.v
theories/Data_SMN.v
theories/Data_VPR.v
theories/Data_WAR.v
theories/Data_WHM.v
theories/GameLib.v
theories/PyFacts.v
theories/SpecGame.v
theories/GameFacts.v
theories/GameCheck.v
theories/GameCounter.v
theories/SafeCheck.v
theories/Examples.v
theories/Data_Examples.v
theories/ExampleCheck.v
theories/SpecData.v
theories/DataCheck.v
theories/GamePoints.v
theories/GameLoad.v
theories/GameProps.v
theories/DataFacts.v
theories/GameCases.v
theories/PropsGame.v
theories/PropsData.v
theories/SpecSafe.v
theories/SafeFacts.v
theories/SafeEq.v
theories/SafeDelay.v
theories/SafeGame.v
theories/SafeCase.v
theories/PropsSafe.v
theories/SpecExamples.v
theories/ExampleFacts.v
theories/PropsExamples.v
theories/SpecMove.v
theories/MoveFacts.v
theories/MoveRun.v
theories/MoveDamage.v
theories/MoveCase.v
theories/MoveGame.v
theories/PropsMove.v
theories/SpecLater.v
theories/LaterFacts.v
theories/LaterCase.v
theories/PropsLater.v
theories/SpecCause.v
theories/CauseFacts.v
theories/CauseCase.v
theories/PropsCause.v
theories/SpecReplay.v
theories/Export.v
theories/ReplayFacts.v
theories/ReplayCase.v
theories/PropsReplay.v
theories/SpecShuffle.v
theories/ShuffleFacts.v
theories/ShuffleCase.v
theories/PropsShuffle.v
theories/DetermineFacts.v
theories/SpecIdle.v
theories/IdleFacts.v
theories/DowntimeFacts.v
theories/IdleGame.v
theories/IdleShip.v
theories/IdleCase.v
theories/PropsIdle.v
theories/SpecTarget.v
theories/TargetFacts.v
theories/TargetDamage.v
theories/TargetCase.v
theories/TargetShip.v
theories/PropsTarget.v
theories/SpecNeed.v
theories/NeedFacts.v
theories/NeedCase.v
theories/PropsNeed.v
theories/SpecGear.v
theories/GearFacts.v
theories/GearDamage.v
theories/SaneFacts.v
theories/GearProps.v
theories/GearCase.v
theories/PropsGear.v
theories/Report.v
theories/SpecReport.v
theories/ReportFacts.v
theories/PropsReport.v
theories/SpecSpread.v
theories/SpreadFacts.v
theories/SpreadCase.v
theories/PropsSpread.v
theories/ExactFloat.v
theories/SpecExact.v
theories/ExactFacts.v
theories/ExactDamage.v
theories/ExactProps.v
theories/ExactCase.v
theories/ExactRoll.v
theories/ExactRollCase.v
theories/PropsExact.v
theories/SpecBuff.v
theories/BuffFacts.v
theories/BuffDamage.v
theories/BuffTime.v
theories/BuffProps.v
theories/BuffCase.v
theories/BuffGame.v
theories/BuffShip.v
theories/SpecStrike.v
theories/StrikeFacts.v
theories/StrikeAuto.v
theories/StrikeTimed.v
theories/StrikeGame.v
theories/StrikeCase.v
theories/PropsStrike.v
theories/SpecLb.v
theories/LbFacts.v
theories/LbCase.v
theories/PropsLb.v
theories/PropsBuff.v
theories/SpecAid.v
theories/AidFacts.v
theories/AidCase.v
theories/PropsAid.v
theories/SpecParty.v
theories/PartyFacts.v
theories/PropsParty.v
theories/SpecMean.v
theories/MeanFacts.v
theories/MeanCase.v
theories/PropsMean.v
theories/SpecTrail.v
theories/TrailFacts.v
theories/TickEq.v
theories/TrailGame.v
theories/TrailShip.v
theories/TickGame.v
theories/TickCase.v
theories/PropsTicks.v
theories/TrailCase.v
theories/PropsTrail.v
