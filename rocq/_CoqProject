-Q theories Verif
theories/Base.v
theories/Pulp.v
theories/Helpers.v
theories/LinearSolver.v
theories/BaseFacts.v
theories/Spec.v
theories/TreeFacts.v
theories/OrderVars.v
theories/Emit.v
theories/DelayVars.v
theories/Shapes.v
theories/Origin.v
theories/SpecFacts.v
theories/Sound.v
theories/SpecPlan.v
theories/Complete.v
theories/Check.v
theories/Examples.v
theories/PropsIlp.v
theories/RefutePlan.v
theories/PropsPlan.v
theories/Refute.v
theories/Sim.v
theories/Rules.v
theories/SpecCompare.v
theories/Compare.v
theories/PropsCompare.v
theories/SpecNames.v
theories/Names.v
theories/Objective.v
theories/PropsVars.v
theories/SpecTimes.v
theories/HelperFacts.v
theories/PropsHelpers.v
theories/SpecOrder.v
theories/Overtake.v
theories/PropsOrder.v
theories/Converters.v
theories/Results.v
theories/SpecQubo.v
theories/ConstraintNames.v
theories/QuboFacts.v
theories/QuboModel.v
theories/Qubo.v
theories/QuboEncode.v
theories/Created.v
theories/Interp.v
theories/Integral.v
theories/Accept.v
theories/PropsQubo.v
theories/SpecResults.v
theories/CqmFacts.v
theories/ResultFacts.v
theories/PropsResults.v
theories/DataTables.v
theories/DataSets.v
theories/DataTimes.v
theories/Pipeline.v
theories/SpecTables.v
theories/TableFacts.v
theories/FileFacts.v
theories/PropsTables.v
theories/SpecSets.v
theories/SetFacts.v
theories/PropsSets.v
theories/PropsSwitch.v
theories/FastSwitch.v
theories/SpecDurations.v
theories/TimeFacts.v
theories/PropsTimes.v
theories/PropsHeadway.v
theories/PropsPrep.v
theories/PropsSchedule.v
theories/SpecBuild.v
theories/Builds.v
theories/BuildNames.v
theories/PropsBuild.v
theories/SpecEnd.v
theories/EndFacts.v
theories/PropsEnd.v
theories/PropsEndCases.v
theories/SpecLists.v
theories/PropsLists.v
theories/PropsPrint.v
theories/PropsScenario.v
theories/SpecWay.v
theories/PropsWay.v
theories/Runs.v
theories/SpecRuns.v
theories/PropsRuns.v
theories/PropsTotal.v
theories/PropsLines.v
theories/PropsTotalCases.v
theories/PropsFiles.v
theories/RealData.v
theories/Optimum.v
theories/RepoSolver.v
theories/RepoTests.v
theories/RecordedRuns.v
theories/LineChecks.v
theories/PropsReal.v
theories/PropsShipped.v
theories/PropsShippedRuns.v
theories/PropsRecorded.v
theories/WislaData.v
theories/PropsWisla.v
theories/Diagrams.v
theories/SpecDiagrams.v
theories/DiagramFacts.v
theories/PropsDiagrams.v
theories/SpecMinutes.v
theories/MinuteFacts.v
theories/PropsMinutes.v
theories/PropsCheap.v
theories/BoundCheck.v
theories/GlcFacts.v
theories/GlcLine3.v
theories/GlcRecords.v
theories/GlcCheck3.v
theories/SpecRecords.v
theories/PropsGlc.v
theories/PropsPassing.v
theories/Script.v
theories/SpecScript.v
theories/PropsCqm.v
theories/PropsScript.v
theories/SpecRoom.v
theories/RoomFacts.v
theories/PropsRoom.v
theories/TurnFacts.v
theories/PropsTurns.v
theories/WislaScript.v
theories/PropsReached.v
theories/PropsReachedGlc.v
theories/PropsWislaScript.v
theories/GlcScript.v
theories/PropsGlcScript.v
theories/PropsGlcRepo.v
theories/TminPlot.v
theories/PropsTmin.v
theories/RecordedSweeps.v
theories/PropsSweep.v
theories/PropsSweepRuns.v
theories/OldBlocks.v
theories/PropsOldBlocks.v
theories/DiagramFiles.v
theories/PropsDiagramFiles.v
theories/Statistics.v
theories/PropsStatistics.v
