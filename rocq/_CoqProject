-Q theories Verif
theories/Arith.v
theories/PyBase.v
theories/Utils.v
theories/RTE.v
theories/Absorption.v
theories/Clear.v
theories/Spectrum.v
theories/Spec.v
theories/RealAux.v
theories/PlanckGen.v
theories/PlanckReal.v
theories/PlanckMaster.v
theories/PropsPlanck.v
theories/Integral.v
theories/PropsIntegral.v
theories/PropsCloud.v
theories/PropsRay.v
theories/ListAux.v
theories/PropsUtils.v
theories/PropsUtils2.v
theories/PropsUtils3.v
theories/PropsErf.v
theories/SolverGen.v
theories/Registry.v
theories/SolverRun.v
theories/PropsObject.v
theories/PropsRun.v
theories/PropsHistory.v
theories/PropsModels.v
theories/PropsSolverX.v
theories/SolverExamples.v
theories/PropsAbsN2.v
theories/PropsLiq.v
theories/PropsClear.v
theories/PropsO2H2O.v
theories/LineData.v
theories/Lineshape.v
theories/PropsO2Data.v
theories/PropsH2O.v
theories/PropsSelfCont.v
theories/PropsO3.v
theories/PropsVoigt.v
theories/Uncertainty.v
theories/PropsUncProp.v
theories/PropsCopy.v
theories/PropsUnc.v
theories/PropsTables.v
theories/PropsAmu.v
theories/PropsAmuRun.v
theories/Weighting.v
theories/WeightingGen.v
theories/PropsWeighting.v
theories/PropsWeightRun.v
theories/PropsChannels.v
theories/PlotGroups.v
theories/PropsPlot.v
theories/PropsWfGrid.v
theories/ExpQ.v
theories/Extrapolation.v
theories/PropsExtrap.v
theories/PropsItu.v
theories/PropsItuSeason.v
theories/PropsItuJoin.v
theories/ProfileData.v
theories/Profiles.v
theories/PropsProfiles.v
theories/PyStr.v
theories/Igra.v
theories/StrAux.v
theories/PropsIgra.v
theories/PropsIgra2.v
theories/Web.v
theories/PropsWeb.v
theories/Era.v
theories/PropsEra.v
theories/FloatArith.v
theories/FloatSat.v
theories/FloatMain.v
theories/FloatRest.v
theories/FinTransfer.v
theories/FinGas.v
theories/SDShape.v
theories/PropsSD.v
theories/SelfMWL.v
theories/PropsSDWater.v
theories/FinSD.v
theories/FinClear.v
theories/FinCloud.v
theories/PropsRow.v
theories/PropsEnd.v
theories/PropsBent.v
theories/PropsBentRun.v
theories/PropsCtor.v
theories/PropsSelect.v
theories/PropsApplied.v
theories/PropsData.v
theories/PropsCross.v
theories/PropsCrossO2.v
theories/PropsCrossMore.v
theories/CovData.v
theories/Covariance.v
theories/CovCert.v
theories/CovForm.v
theories/PropsCov.v
theories/PropsMono.v
theories/PropsMonoRun.v
theories/PropsSmooth.v
theories/PropsMixed.v
theories/PropsClimate.v
theories/IgraTable.v
theories/PropsIgraTable.v
theories/WyoTable.v
theories/PropsWyoTable.v
theories/EraRequest.v
theories/PropsEraRequest.v
theories/Machine.v
theories/MachineDouble.v
theories/RoundPlanck.v
theories/PropsRound.v
theories/PropsCondition.v
theories/PropsAbsorbed.v
theories/PropsExact.v
theories/PropsStack.v
theories/PropsView.v
theories/PropsJensen.v
theories/PropsLimb.v
theories/PropsSonde.v
theories/PropsEraRun.v
theories/BaseClass.v
theories/PropsBase.v
theories/Tutorial.v
theories/PropsTutorial.v
theories/PropsSigma.v
theories/PropsState.v
theories/PropsDryTop.v
theories/PropsNearby.v
theories/PropsMoist.v
theories/PropsScale.v
theories/PropsCloudSum.v
theories/PropsSeparate.v
theories/PropsCloudHeights.v
