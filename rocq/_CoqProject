-Q theories Verif
theories/ModelPy.v
theories/ModelConstants.v
theories/ModelNode.v
theories/ModelGrid.v
theories/Spec.v
theories/LemPy.v
theories/LemGridBase.v
theories/LemMerge.v
theories/LemCorrect.v
theories/LemLog.v
theories/LemGridOps.v
theories/LemGridMore.v
theories/LemAdapt.v
theories/LemFinGrid.v
theories/PropGrid.v
theories/ModelWater.v
theories/LemWater.v
theories/LemFinWater.v
theories/PropWater.v
theories/ModelHeat.v
theories/LemHeat.v
theories/LemFinHeat.v
theories/PropHeat.v
theories/ModelDensification.v
theories/LemDensification.v
theories/LemFinDensification.v
theories/PropDensification.v
theories/ModelRadiation.v
theories/LemRadiation.v
theories/LemFinRadiation.v
theories/PropRadiation.v
theories/ModelAlbedo.v
theories/LemFinAlbedo.v
theories/PropAlbedo.v
theories/ModelSurface.v
theories/LemFinSecant.v
theories/SpecSurface.v
theories/LemSurface.v
theories/LemFinSurface.v
theories/PropSecant.v
theories/PropSurface.v
theories/ModelInit.v
theories/ModelCore.v
theories/LemCore.v
theories/LemSim.v
theories/SpecCore.v
theories/LemFinCore.v
theories/PropCore.v
theories/SpecInit.v
theories/LemFinInit.v
theories/PropInit.v
theories/ModelConfig.v
theories/ModelArgs.v
theories/ModelIO.v
theories/ModelMain.v
theories/SpecIO.v
theories/LemDict.v
theories/LemIO.v
theories/LemIO2.v
theories/LemIO3.v
theories/LemIO4.v
theories/LemIO5.v
theories/LemIO6.v
theories/LemIO7.v
theories/LemFinIO.v
theories/LemFinInput.v
theories/LemFinDriver.v
theories/PropIO.v
theories/PropInput.v
theories/PropDriver.v
theories/ModelFiles.v
theories/SpecConfig.v
theories/LemFinConfig.v
theories/PropConfig.v
theories/ModelRadCor.v
theories/SpecRadCor.v
theories/LemRadCor.v
theories/LemFinRadCor.v
theories/PropRadCor.v
theories/LemShad.v
theories/LemShad2.v
theories/LemShad3.v
theories/LemShad4.v
theories/LemShad5.v
theories/LemShad6.v
theories/LemFinShade.v
theories/LemFinSky.v
theories/LemFinRad.v
theories/PropShade.v
theories/PropSky.v
theories/PropRad.v
theories/ModelAws.v
theories/SpecAws.v
theories/LemAws.v
theories/LemAws2.v
theories/LemAws3.v
theories/LemAws4.v
theories/LemFinAws.v
theories/PropAws.v
theories/LemFinAws2.v
theories/PropAws2.v
theories/LemAws5.v
theories/LemFinAws3.v
theories/PropAws3.v
theories/LemFinAws4.v
theories/PropAws4.v
theories/LemFinAws5.v
theories/PropAws5.v
theories/ModelWrf.v
theories/SpecWrf.v
theories/LemWrf.v
theories/LemWrf2.v
theories/LemFinWrf.v
theories/PropWrf.v
theories/ModelSetup.v
theories/SpecSetup.v
theories/LemFinSetup.v
theories/PropSetup.v
theories/LemFinNode.v
theories/PropNode.v
theories/SpecRemesh.v
theories/LemLog2.v
theories/LemFinRemesh.v
theories/PropRemesh.v
theories/SpecRun.v
theories/LemHealth.v
theories/LemFinRun.v
theories/PropRun.v
theories/LemFinEnergy.v
theories/PropEnergy.v
theories/SpecMass.v
theories/LemMass.v
theories/LemFinMass.v
theories/PropMass.v
theories/SpecCalm.v
theories/ModelConvert.v
theories/ModelStatic.v
theories/SpecStatic.v
theories/LemStatic.v
theories/LemFinStatic.v
theories/PropStatic.v
theories/SpecConvert.v
theories/LemConvert.v
theories/LemFinConvert.v
theories/PropConvert.v
theories/ModelPost.v
theories/SpecPost.v
theories/LemPost.v
theories/LemFinPost.v
theories/LemFinPost2.v
theories/LemFinPost3.v
theories/PropPost.v
theories/PropPost2.v
theories/PropPost3.v
theories/LemFinIO2.v
theories/PropIO2.v
theories/LemFinFuel.v
theories/PropFuel.v
theories/LemFirm.v
theories/SpecProgress.v
theories/LemProgress.v
theories/LemFinProgress.v
theories/PropProgress.v
theories/SpecCell.v
theories/LemFinCell.v
theories/LemFinCell2.v
theories/PropCell.v
theories/PropCell2.v
theories/ModelStake.v
theories/SpecStake.v
theories/LemFinStake.v
theories/PropStake.v
theories/SpecRange.v
theories/LemFinRange.v
theories/PropRange.v
theories/SpecWarn.v
theories/LemFinWarn.v
theories/LemFinWarn2.v
theories/LemFinFresh.v
theories/PropWarn.v
theories/PropWarn2.v
theories/PropFresh.v
theories/LemFinPost4.v
theories/LemFinRead.v
theories/PropPost4.v
theories/PropRead.v
theories/ModelCoupled.v
theories/SpecCoupled.v
theories/LemFinCoupled.v
theories/PropCoupled.v
theories/SpecStake2.v
theories/LemFinStake2.v
theories/PropStake2.v
theories/SpecCopy.v
theories/LemFinCopy.v
theories/PropCopy.v
theories/LemFinPortion.v
theories/PropPortion.v
theories/LemFinBalance.v
theories/PropBalance.v
theories/LemFinArgs.v
theories/PropArgs.v
theories/ModelUtilArgs.v
theories/SpecArgs.v
theories/LemFinUtilArgs.v
theories/PropUtilArgs.v
theories/LemFinJump.v
theories/PropJump.v
theories/ModelPlots.v
theories/LemFinPlots.v
theories/PropPlots.v
theories/ModelPlotArgs.v
theories/SpecPlotArgs.v
theories/LemFinPlotArgs.v
theories/PropPlotArgs.v
theories/LemFinMerging.v
theories/PropMerging.v
theories/LemFinRest.v
theories/PropRest.v
theories/LemFinPenetrate.v
theories/PropPenetrate.v
theories/LemFinSettled.v
theories/PropSettled.v
theories/LemFinAdaptive.v
theories/PropAdaptive.v
theories/LemFinSolar.v
theories/PropSolar.v
theories/LemFinObukhov.v
theories/PropObukhov.v
theories/LemFinExact.v
theories/PropExact.v
theories/LemFinUnstable.v
theories/PropUnstable.v
theories/LemFinPrim.v
theories/PropPrim.v
theories/LemFinNearest.v
theories/PropNearest.v
