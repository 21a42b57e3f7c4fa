-Q theories Verif
theories/Base.v
theories/Num.v
theories/NumXR.v
theories/NumR.v
theories/NumFloat.v
theories/Devices.v
theories/BusBranch.v
theories/CheckNetwork.v
theories/LoadFlow.v
theories/Simulator.v
theories/EnvArgs.v
theories/Env.v
theories/Anm6.v
theories/Mpc.v
theories/Scripts.v
theories/Exec.v
theories/LibBase.v
theories/LibNum.v
theories/LibSim.v
theories/SpecNet.v
theories/ProofNet.v
theories/LibInit.v
theories/SpecSim.v
theories/ProofSim.v
theories/PropNet.v
theories/LibXR.v
theories/SpecDev.v
theories/ProofDev.v
theories/ProofSoc.v
theories/ProofHist.v
theories/PropDev.v
theories/PropSim.v
theories/ProofObs.v
theories/ProofUnits.v
theories/ProofVals.v
theories/ProofBounds.v
theories/LibEval.v
theories/ExNet.v
theories/ExRun.v
theories/ProofReset.v
theories/PropUnits.v
theories/SpecQp.v
theories/LibQp.v
theories/ProofSet.v
theories/ProofDevs.v
theories/ProofEnergy.v
theories/ProofBusP.v
theories/ExSmall.v
theories/PropSet.v
theories/SpecPf.v
theories/LibC.v
theories/ProofBr.v
theories/ProofY.v
theories/SpecNr.v
theories/ProofNr.v
theories/ProofPf.v
theories/ProofBal.v
theories/ProofLoss.v
theories/ProofGap.v
theories/ExTwo.v
theories/PropPf.v
theories/ProofJac.v
theories/PropJac.v
theories/SpecEnv.v
theories/ProofEnv.v
theories/ProofStep.v
theories/ProofState.v
theories/ProofDraw.v
theories/ProofEnvOk.v
theories/PropEnv.v
theories/SpecObs.v
theories/ProofObsList.v
theories/ProofObsEnv.v
theories/ProofArgs.v
theories/PropObs.v
theories/PropReset.v
theories/ProofLive.v
theories/PropReward.v
theories/ExEnv.v
theories/PropCollapse.v
theories/ExProps.v
theories/ProofRestore.v
theories/PropRestore.v
theories/SpecAnm6.v
theories/ProofEasy.v
theories/PropEasy.v
theories/PropEasy2.v
theories/ExFloat.v
theories/SpecRender.v
theories/PropRender.v
theories/ExRender.v
theories/SpecMpc.v
theories/ProofMpc.v
theories/PropMpc.v
theories/ExMpc.v
theories/ProofPlan.v
theories/PropPlan.v
theories/PropDc.v
theories/ExPlan.v
theories/PropExec.v
theories/ExExec.v
theories/SpecTotal.v
theories/ProofTotal.v
theories/PropTotal.v
theories/SpecOpf.v
theories/ProofOpf.v
theories/PropOpf.v
theories/ExOpf.v
theories/ProofFin.v
theories/PropFin.v
theories/SpecEpisode.v
theories/ProofEpisode.v
theories/PropEpisode.v
theories/ProofResetIn.v
theories/PropResetIn.v
theories/PropEasy3.v
theories/SpecDates.v
theories/PropDates.v
theories/ExDates.v
theories/PropMake.v
theories/ProofAnm6.v
theories/PropEasy4.v
theories/ExEasy.v
theories/SpecOrder.v
theories/ProofOrder.v
theories/ProofOrder2.v
theories/ProofOrder3.v
theories/PropOrder.v
theories/ExOrder.v
theories/PropSlack.v
theories/ExSlack.v
theories/Message.v
theories/SpecMessage.v
theories/ProofMessage.v
theories/PropMessage.v
theories/ExMessage.v
theories/SpecLight.v
theories/ProofLight.v
theories/ProofLight2.v
theories/ProofLight3.v
theories/ProofLight4.v
theories/ProofLin.v
theories/ProofLight5.v
theories/Examples.v
theories/ProofSimple.v
theories/PropLight.v
theories/PropSimple.v
theories/PropCustom.v
theories/ExCustom.v
theories/ProofAtt.v
theories/ProofAtt2.v
theories/ProofAtt3.v
theories/ProofAct.v
theories/PropAct.v
theories/RawNet.v
theories/SpecRaw.v
theories/ProofRaw.v
theories/PropRaw.v
theories/SvgLabels.v
theories/Page.v
theories/SpecPage.v
theories/ProofPage.v
theories/ProofPage2.v
theories/ProofPage3.v
theories/PropPage.v
theories/PropAngles.v
theories/ProofShow.v
theories/SpecShow.v
theories/PropShow.v
theories/ExShow.v
theories/PropStart.v
theories/ExStart.v
theories/LibF64.v
theories/SpecF64.v
theories/ProofF64.v
theories/PropF64.v
theories/ExF64.v
theories/ProofUnits64.v
theories/PropUnits64.v
theories/ExUnits64.v
theories/SpecStor64.v
theories/ProofStor64.v
theories/PropStor64.v
theories/ExStor64.v
theories/PropDrawn.v
theories/SpecScript.v
theories/PropScript.v
theories/SpecMarkov.v
theories/ProofMarkov.v
theories/PropMarkov.v
theories/PropState.v
theories/ExState.v
theories/PropIdle.v
theories/ExIdle.v
theories/PropResend.v
theories/ExResend.v
