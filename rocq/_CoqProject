-Q theories Verif
theories/Outcome.v
theories/Arith.v
theories/Problem.v
theories/LoadBalancing.v
theories/BalancerSpec.v
theories/SweepFacts.v
theories/PlanFacts.v
theories/QSum.v
theories/QSweep.v
theories/PlanQ.v
theories/SliceFacts.v
theories/BalancerProofs.v
theories/F64Facts.v
theories/PropBalancer.v
theories/Streams.v
theories/StreamFacts.v
theories/Comm.v
theories/CommFacts.v
theories/BalanceFacts.v
theories/PeakFacts.v
theories/PropComm.v
theories/MixtureFraction.v
theories/MixtureFacts.v
theories/PropMixture.v
theories/ChemistryModel.v
theories/ChemFacts.v
theories/ChemSim.v
theories/ChemBalance.v
theories/WorkFacts.v
theories/ChemTransparent.v
theories/ChemCells.v
theories/ChemStep.v
theories/ChemSafe.v
theories/ChemResults.v
theories/ChemIeee.v
theories/PropChemistry.v
theories/OdeSolver.v
theories/Seulex.v
theories/PyJac.v
theories/SeulexMono.v
theories/SeulexSafe.v
theories/SeulexRun.v
theories/PyJacFacts.v
theories/OdeFacts.v
theories/PropOde.v
theories/SeulexSpec.v
theories/SeulexFacts.v
theories/SeulexPoly.v
theories/SeulexEx.v
theories/SeulexCases.v
theories/PropSeulex.v
theories/Gauss.v
theories/PyJacSpec.v
theories/PyJacCases.v
theories/PropPyJac.v
theories/LoadStats.v
theories/Ieee.v
theories/SweepIeee.v
theories/PropStats.v
theories/SeulexLinear.v
theories/PyJacLinear.v
theories/LinearEx.v
theories/PropLinear.v
theories/MechLang.v
theories/MechSym.v
theories/MechSrc.v
theories/MechChem.v
theories/Drm19Code.v
theories/Drm19Rates.v
theories/Gri30Code.v
theories/Gri30Rates.v
theories/YaoCode.v
theories/YaoRates.v
theories/Drm19Jac.v
theories/Gri30JacT.v
theories/YaoJacT.v
theories/Mechanisms.v
theories/MechCall.v
theories/MechReal.v
theories/MechPoly.v
theories/MechSpec.v
theories/MechRate.v
theories/MechPmod.v
theories/MechThermo.v
theories/MechConc.v
theories/MechDydt.v
theories/MechDefined.v
theories/MechRhs.v
theories/MechConv.v
theories/MechNames.v
theories/MechMass.v
theories/MechFacts.v
theories/MechData.v
theories/MechExp.v
theories/MechLaurent.v
theories/MechNasa.v
theories/MechCp.v
theories/MechKin.v
theories/MechArr.v
theories/MechLaw.v
theories/MechTroe.v
theories/MechJac.v
theories/MechJacT.v
theories/MechJacS.v
theories/MechJacD.v
theories/MechJacR.v
theories/MechJacE.v
theories/MechJacF.v
theories/MechJacC.v
theories/MechJacW.v
theories/MechJacX.v
theories/MechFull.v
theories/MechFullT.v
theories/MechFullS.v
theories/MechFullD.v
theories/MechFullV.v
theories/MechFullR.v
theories/MechFullE.v
theories/MechFullC.v
theories/MechFullF.v
theories/MechFullH.v
theories/MechSlice.v
theories/MechSliceT.v
theories/MechInit.v
theories/MechEntry.v
theories/MechEntryT.v
theories/MechEntryW.v
theories/MechEntryP.v
theories/PropMech.v
theories/PropThermo.v
theories/PropKin.v
theories/PropJac.v
theories/PropFull.v
theories/PropEntry.v
theories/MechModel.v
theories/MechModelR.v
theories/PropModel.v
theories/MechPress.v
theories/MechPressX.v
theories/PropPress.v
theories/PyJacIeee.v
theories/PropNormal.v
theories/TransferIeee.v
theories/PeakIeee.v
theories/PropTransfer.v
theories/Drm19Vol.v
theories/Gri30Vol.v
theories/YaoVol.v
theories/MechVol.v
theories/PropVolume.v
theories/TimeIeee.v
theories/MixIeee.v
theories/PropTime.v
theories/OdeIeee.v
theories/PropDriver.v
theories/HeatIeee.v
theories/PropHeat.v
theories/ErrIeee.v
theories/PropErr.v
theories/CountIeee.v
theories/PropCount.v
