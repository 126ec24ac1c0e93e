-Q theories Verif
theories/Base.v
theories/CartModel.v
theories/CartProofs.v
theories/CartOrder.v
theories/BinomModel.v
theories/BinomProofs.v
theories/HeapModel.v
theories/HeapProofs.v
theories/HeapShrink.v
theories/HeapGrpp.v
theories/HeapClient.v
theories/HeapSpec.v
theories/HeapNull.v
theories/InitModel.v
theories/InitProofs.v
theories/ParamsModel.v
theories/ParamsProofs.v
theories/GaussInt.v
theories/GaussProd.v
theories/OneElModel.v
theories/OneElProofs.v
theories/OneElPairs.v
theories/OneElSpec.v
theories/OneElInt.v
theories/OneElThms.v
theories/Loops.v
theories/Sums.v
theories/LmatModel.v
theories/LmatProofs.v
theories/UtilProofs.v
theories/NumSpec.v
theories/OvGradModel.v
theories/OvDeriv.v
theories/OvGradProofs.v
theories/OvGradThms.v
theories/OvThreads.v
theories/DawsonTable.v
theories/DawsonModel.v
theories/DawsonProofs.v
theories/NucModel.v
theories/NucProofs.v
theories/NucThms.v
theories/EtaValues.v
theories/FermiSk.v
theories/NucPotSpec.v
theories/NucPot.v
theories/NucPotBG.v
theories/NucPotThms.v
theories/SphModel.v
theories/SphSpec.v
theories/SphPoly.v
theories/SphProofs.v
theories/SphTables.v
theories/SphInt.v
theories/SphOrtho.v
theories/SphCert.v
theories/SphAngular.v
theories/SphHarm.v
theories/SphThms.v
theories/SphTri.v
theories/SphHecke.v
theories/SphPlane.v
theories/SphSpan.v
theories/SphAdd.v
theories/RadialModel.v
theories/RadialSpec.v
theories/RadialProofs.v
theories/GaussMoment.v
theories/RadialTables.v
theories/RadialThms.v
theories/RadialWitness.v
theories/BoysTable.v
theories/RfunTable.v
theories/SpecModel.v
theories/SpecSpec.v
theories/SpecExp.v
theories/SpecBoys.v
theories/BoysCert.v
theories/BoysThms.v
theories/GfunThms.v
theories/BesselProofs.v
theories/BesselAsym.v
theories/BesselThms.v
theories/BesselOrders.v
theories/GrppModel.v
theories/GrppFull.v
theories/GrppHeap.v
theories/GrppGrad.v
theories/GrppGrad2.v
theories/GrppThms.v
theories/GrppGrad3.v
theories/GrppOver.v
theories/GrppTerm.v
theories/GrppTermGrad.v
theories/GrppLocal.v
theories/GrppOc.v
theories/GrppWitness.v
theories/Properties_Grpp.v
theories/Properties_Cart.v
theories/Properties_Heap.v
theories/Properties_Init.v
theories/Properties_OneEl.v
theories/Properties_Grad.v
theories/Properties_Numeric.v
theories/Properties_Nuc.v
theories/Properties_NucPot.v
theories/Properties_Sph.v
theories/Properties_Radial.v
theories/OutercoreModel.v
theories/Type2Model.v
theories/Type2Spec.v
theories/SphRot.v
theories/SphMomentum.v
theories/Type2Proj.v
theories/Type2Radial.v
theories/Type2Error.v
theories/Type2Value.v
theories/Type2Main.v
theories/Type2Acc.v
theories/Type2So.v
theories/Type2Thms.v
theories/OutercoreProofs.v
theories/PiBounds.v
theories/OutercoreRadial.v
theories/OutercoreSpec.v
theories/OutercoreMain.v
theories/OutercoreThms.v
theories/OutercoreWitness.v
theories/Properties_Outercore.v
theories/FortranModel.v
theories/Properties_Type2.v
theories/Properties_Spec.v
theories/MmdModel.v
theories/MmdSpec.v
theories/MmdE.v
theories/MmdR.v
theories/MmdInt.v
theories/MmdD.v
theories/MmdProofs.v
theories/MmdMain.v
theories/MmdThms.v
theories/MmdUser.v
theories/MmdNuc.v
theories/MmdOuter.v
theories/Properties_Mmd.v
theories/FortranProofs.v
theories/FortranGrad.v
theories/FortranNorm.v
theories/FortranThms.v
theories/Properties_Fortran.v
theories/LocalModel.v
theories/LocalSpec.v
theories/LocalInt.v
theories/LocalExp.v
theories/LocalMain.v
theories/LocalAcc.v
theories/LocalThms.v
theories/LocalAbort.v
theories/Properties_Local.v
theories/FermiTable.v
theories/FermiSkModel.v
theories/FermiTaylor.v
theories/FermiCert.v
theories/FermiSound.v
theories/FermiAcc.v
theories/NucBound.v
theories/FermiPot.v
theories/FermiDirect.v
theories/Properties_Fermi.v
theories/DawsonAcc.v
theories/DawsonThms.v
theories/DawsonUse.v
theories/Properties_Dawson.v
theories/BesselRow.v
theories/BesselRows1.v
theories/BesselRows2.v
theories/BesselRows3.v
theories/BesselRows4.v
theories/BesselData.v
theories/BesselCert.v
theories/BesselTabAcc.v
theories/BesselTabThm.v
theories/BesselUse.v
theories/Properties_BesselTab.v
theories/RadialConv.v
theories/RadialRate.v
theories/RadialClass.v
theories/RadialConvSpec.v
theories/RadialQuad.v
theories/RadialQuad1.v
theories/RadialMiss.v
theories/RadialQuadThms.v
theories/Properties_Quad.v
theories/GrppOwnSpec.v
theories/GrppOwn.v
theories/GrppOwnThms.v
theories/Properties_GrppOwn.v
theories/FloatBase.v
theories/FloatBessel.v
theories/FloatBesselTab.v
theories/FloatBesselEval.v
theories/FloatBesselAsym.v
theories/Properties_Float.v
theories/FloatCalc.v
theories/FloatOneEl.v
theories/FloatOverlap.v
theories/FloatTable.v
theories/FloatContr.v
theories/FloatOneElThms.v
theories/Properties_FloatOneEl.v
theories/Definite.v
theories/Properties_Definite.v
theories/RigidPoly.v
theories/Rigid.v
theories/RigidThms.v
theories/Properties_Rigid.v
theories/Hermit.v
theories/Properties_Hermit.v
theories/RotSphere.v
theories/RotMomentum.v
theories/RotProj.v
theories/RotLocal.v
theories/GrppRigid.v
theories/Properties_GrppRigid.v
theories/OcThreads.v
theories/OcThreadsProofs.v
theories/OcThreadsWitness.v
theories/OcThreadsThms.v
theories/Properties_OcThreads.v
theories/FortranModule.v
theories/FortranModuleProofs.v
theories/Properties_FortranModule.v
theories/Attraction.v
theories/Properties_Attraction.v
theories/FiniteNuc.v
theories/Properties_FiniteNuc.v
theories/PolarInt.v
theories/PolarSpace.v
theories/PolarKernel.v
theories/PolarThms.v
theories/Properties_Polar.v
theories/GrppOrder.v
theories/Properties_GrppOrder.v
theories/GrppCentre.v
theories/Properties_GrppCentre.v
theories/OvMomentum.v
theories/Properties_OvMomentum.v
theories/FloatKinModel.v
theories/FloatKin.v
theories/FloatKinPairs.v
theories/FloatKinThms.v
theories/FloatKinS.v
theories/Properties_FloatKin.v
theories/FloatBoysModel.v
theories/FloatBoys.v
theories/Properties_FloatBoys.v
theories/FloatPotModel.v
theories/FloatPot.v
theories/Properties_FloatPot.v
theories/NormcoefModel.v
theories/Normcoef.v
theories/Properties_Normcoef.v
theories/Screening.v
theories/Properties_Screening.v
theories/FloatSym.v
theories/Properties_FloatSym.v
theories/FloatNormcoefModel.v
theories/FloatNormcoef.v
theories/Properties_FloatNormcoef.v
