-Q theories Verif
theories/Base.v
theories/Num.v
theories/M_Params.v
theories/M_Experience.v
theories/M_Tax.v
theories/M_NonEmployment.v
theories/M_StateSpace.v
theories/M_Solve.v
theories/M_Exog.v
theories/M_Sim.v
theories/M_Spec.v
theories/M_Main.v
theories/M_Numpy.v
theories/L_Num.v
theories/S_Experience.v
theories/L_Experience.v
theories/L_Init.v
theories/T_Experience.v
theories/S_Interp.v
theories/L_Interp.v
theories/T_Interp.v
theories/S_Tax.v
theories/L_Tax.v
theories/T_Tax.v
theories/S_Benefits.v
theories/L_Benefits.v
theories/X_Example.v
theories/T_Benefits.v
theories/S_StateSpace.v
theories/L_StateSpace.v
theories/T_StateSpace.v
theories/S_Bellman.v
theories/L_Bellman.v
theories/L_Solve.v
theories/S_Solver.v
theories/L_Value.v
theories/L_Mono.v
theories/S_Invariance.v
theories/L_Invariance.v
theories/L_Solver.v
theories/L_Witness.v
theories/T_Solve.v
theories/S_Rng.v
theories/L_Seed.v
theories/L_Rng.v
theories/L_Trace.v
theories/S_Sim.v
theories/S_SimInputs.v
theories/S_Partial.v
theories/L_SimUpdate.v
theories/L_SimInit.v
theories/L_Sim.v
theories/L_SimData.v
theories/L_SimProps.v
theories/L_SimPairs.v
theories/L_SimTotal.v
theories/L_SimFlow.v
theories/L_SimExample.v
theories/L_SimCompare.v
theories/T_Sim.v
theories/S_Exog.v
theories/L_Exog.v
theories/T_Exog.v
theories/S_Spec.v
theories/L_Spec.v
theories/L_SpecSame.v
theories/L_SpecRun.v
theories/L_SpecOrder.v
theories/L_Partial.v
theories/L_PartialSolve.v
theories/L_PartialSim.v
theories/L_PartialMain.v
theories/L_PartialRead.v
theories/L_SpecField.v
theories/L_Params.v
theories/X_Dict.v
theories/T_Spec.v
theories/S_Main.v
theories/L_Main.v
theories/T_Main.v
theories/T_Partial.v
theories/S_Reform.v
theories/L_Reform.v
theories/L_ReformWitness.v
theories/T_Reform.v
theories/S_SimEntry.v
theories/L_SimEntry.v
theories/L_Reserve.v
theories/L_ReserveWitness.v
theories/T_SimEntry.v
theories/S_SimSame.v
theories/L_SimSame.v
theories/L_SimInvariance.v
theories/L_SameWitness.v
theories/T_SimSame.v
theories/S_Numpy.v
theories/L_Numpy.v
theories/L_NumpySim.v
theories/T_Numpy.v
theories/S_Stability.v
theories/L_Stability.v
theories/S_Limit.v
theories/L_Limit.v
theories/S_Currency.v
theories/L_Currency.v
theories/L_CurrencyWitness.v
theories/T_Currency.v
theories/T_Stability.v
theories/S_Grid.v
theories/L_Grid.v
theories/S_GridSim.v
theories/L_GridSim.v
theories/L_GridWitness.v
theories/T_Grid.v
theories/M_Gettsim.v
theories/L_Gettsim.v
theories/T_Gettsim.v
theories/S_Precise.v
theories/L_Conv.v
theories/L_ConvModel.v
theories/L_ConvSolve.v
theories/L_Precise.v
theories/T_Precise.v
theories/S_Entries.v
theories/L_Entries.v
theories/T_Entries.v
theories/S_PreciseSim.v
theories/L_ConvSim.v
theories/L_PreciseSimWitness.v
theories/T_PreciseSim.v
theories/L_Rounded.v
theories/S_Binary.v
theories/L_Binary.v
theories/L_BinaryNum.v
theories/T_Binary.v
theories/M_RandomInit.v
theories/S_RandomInit.v
theories/L_RandomInit.v
theories/T_RandomInit.v
theories/M_Reference.v
theories/S_Reference.v
theories/L_Reference.v
theories/L_ReferenceWitness.v
theories/T_Reference.v
theories/L_RandomValues.v
theories/M_AuxFuncs.v
theories/S_AuxFuncs.v
theories/L_AuxFuncs.v
theories/T_AuxFuncs.v
theories/S_Tests.v
theories/L_Tests.v
theories/T_Tests.v
theories/S_Idle.v
theories/L_Idle.v
theories/L_IdleWitness.v
theories/T_Idle.v
theories/S_Proper.v
theories/L_Proper.v
theories/T_Proper.v
theories/T_UnitTests.v
theories/M_Search.v
theories/S_Search.v
theories/L_Search.v
theories/T_Search.v
theories/S_Labels.v
theories/L_Labels.v
theories/T_Labels.v
theories/M_Convert.v
theories/T_Convert.v
theories/S_Expect.v
theories/L_Expect.v
theories/T_Expect.v
theories/M_Consistency.v
theories/S_Consistency.v
theories/L_Consistency.v
theories/X_Consistency.v
theories/L_ConsistencyTest.v
theories/T_Consistency.v
theories/M_Regression.v
theories/S_Regression.v
theories/L_Regression.v
theories/T_Regression.v
theories/S_Alias.v
theories/L_Alias.v
theories/T_Alias.v
