-Q theories Verif
theories/Model/AtomFactors.v
theories/Model/Background.v
theories/Model/CellObj.v
theories/Model/ChiSq.v
theories/Model/CifText.v
theories/Model/Constraints.v
theories/Model/Containers.v
theories/Model/CrystalXray.v
theories/Model/DenFile.v
theories/Model/DensityMaps.v
theories/Model/Extinction.v
theories/Model/FlipRatio.v
theories/Model/FormTables.v
theories/Model/Hessian.v
theories/Model/HklList.v
theories/Model/IonFactor.v
theories/Model/Ions.v
theories/Model/Items.v
theories/Model/LocalSusc.v
theories/Model/MagStruct.v
theories/Model/Matrices.v
theories/Model/MatrixOps.v
theories/Model/Mem.v
theories/Model/MemFourier.v
theories/Model/MemIter.v
theories/Model/Numbers.v
theories/Model/Orbits.v
theories/Model/Orient.v
theories/Model/PowderInt.v
theories/Model/Profile.v
theories/Model/RadialTable.v
theories/Model/Refine.v
theories/Model/Regrid.v
theories/Model/Resolution.v
theories/Model/Roots.v
theories/Model/SgTables.v
theories/Model/SimplexErr.v
theories/Model/SiteSymm.v
theories/Model/Slater.v
theories/Model/SpaceGroup.v
theories/Model/Strings.v
theories/Model/StructFactor.v
theories/Model/Symmetry.v
theories/Model/Tof.v
theories/Model/TofItems.v
theories/Model/UnitCell.v
theories/Model/Vibration.v
theories/Model/WyckoffData.v
theories/Proofs/AtomFactorsP.v
theories/Proofs/BackgroundP.v
theories/Proofs/BackgroundP2.v
theories/Proofs/CellItemP.v
theories/Proofs/CellObjP.v
theories/Proofs/ChiSqP.v
theories/Proofs/CifBlockP.v
theories/Proofs/CifExP.v
theories/Proofs/CifItem2P.v
theories/Proofs/CifItemP.v
theories/Proofs/CifLoopP.v
theories/Proofs/CifTextP.v
theories/Proofs/CifValueP.v
theories/Proofs/ConstrMatrixP.v
theories/Proofs/ConstraintsP.v
theories/Proofs/ContainersP.v
theories/Proofs/ContainersP2.v
theories/Proofs/ContainersP3.v
theories/Proofs/CrystalXrayP.v
theories/Proofs/DenFileP.v
theories/Proofs/DenFileP2.v
theories/Proofs/DensMapExP.v
theories/Proofs/DensMapP.v
theories/Proofs/DensMapP2.v
theories/Proofs/DensMapP3.v
theories/Proofs/DensMapP4.v
theories/Proofs/DensMapP5.v
theories/Proofs/ExtinctionDerivP.v
theories/Proofs/ExtinctionFlipP.v
theories/Proofs/ExtinctionP.v
theories/Proofs/FlipRatioDerivP.v
theories/Proofs/FlipRatioP.v
theories/Proofs/FlipRatioSfP.v
theories/Proofs/FormTablesP.v
theories/Proofs/GaussIntP.v
theories/Proofs/HessianP.v
theories/Proofs/HklExP.v
theories/Proofs/HklListP.v
theories/Proofs/HklListP2.v
theories/Proofs/IonFactorP.v
theories/Proofs/IonTableP.v
theories/Proofs/IonsP.v
theories/Proofs/ItemsP.v
theories/Proofs/LinNP.v
theories/Proofs/LocalSuscP.v
theories/Proofs/MagDerP.v
theories/Proofs/MagStructExP.v
theories/Proofs/MagStructP.v
theories/Proofs/MagStructP2.v
theories/Proofs/MagStructP3.v
theories/Proofs/MagStructP4.v
theories/Proofs/MagStructP5.v
theories/Proofs/MagStructP6.v
theories/Proofs/MagStructP7.v
theories/Proofs/Matrices2P.v
theories/Proofs/MatricesP.v
theories/Proofs/MatrixDerivP.v
theories/Proofs/MatrixOpsP.v
theories/Proofs/MatrixTP.v
theories/Proofs/MemFourierP.v
theories/Proofs/MemFourierP2.v
theories/Proofs/MemFourierP3.v
theories/Proofs/MemFourierP4.v
theories/Proofs/MemIterP.v
theories/Proofs/MemIterP2.v
theories/Proofs/MemIterP3.v
theories/Proofs/MemIterP4.v
theories/Proofs/MemIterP5.v
theories/Proofs/MemIterP6.v
theories/Proofs/MemP.v
theories/Proofs/MemP2.v
theories/Proofs/MemP3.v
theories/Proofs/NumbersP.v
theories/Proofs/ObjExP.v
theories/Proofs/OrbitAtomsP.v
theories/Proofs/OrbitExP.v
theories/Proofs/OrbitHklP.v
theories/Proofs/OrbitSgP.v
theories/Proofs/OrbitsP.v
theories/Proofs/OrientP.v
theories/Proofs/PowderDerivP.v
theories/Proofs/PowderIntP.v
theories/Proofs/ProfileDerivP.v
theories/Proofs/ProfileP.v
theories/Proofs/RefineP.v
theories/Proofs/RefineP2.v
theories/Proofs/RefineP3.v
theories/Proofs/RegridP.v
theories/Proofs/ResolutionP.v
theories/Proofs/RootsP.v
theories/Proofs/ScatterP.v
theories/Proofs/SgAllP.v
theories/Proofs/SgCheckP.v
theories/Proofs/SgConjP.v
theories/Proofs/SgDataP.v
theories/Proofs/SgExP.v
theories/Proofs/SgHallP.v
theories/Proofs/SgMetricP.v
theories/Proofs/SgNamesP.v
theories/Proofs/SgRef2P.v
theories/Proofs/SgRef3P.v
theories/Proofs/SgRefP.v
theories/Proofs/SgStdP.v
theories/Proofs/SgWyckP.v
theories/Proofs/ShellsP.v
theories/Proofs/SimplexErrP.v
theories/Proofs/SiteCaseP.v
theories/Proofs/SiteExP.v
theories/Proofs/SiteSymmP.v
theories/Proofs/SiteTensorP.v
theories/Proofs/SlaterL.v
theories/Proofs/SlaterN.v
theories/Proofs/SlaterP.v
theories/Proofs/StringsP.v
theories/Proofs/StructFactorP.v
theories/Proofs/StructFactorP2.v
theories/Proofs/StructFactorP3.v
theories/Proofs/StructFactorP4.v
theories/Proofs/SymmBaseP.v
theories/Proofs/SymmExP.v
theories/Proofs/SymmGridP.v
theories/Proofs/SymmGroupP.v
theories/Proofs/TofItemsP.v
theories/Proofs/TofP.v
theories/Proofs/TofP2.v
theories/Proofs/UnitCellDerivP.v
theories/Proofs/UnitCellP.v
theories/Proofs/VibrationP.v
theories/Proofs/WyckAtom2P.v
theories/Proofs/WyckAtomP.v
theories/Proofs/WyckSolP.v
theories/Props/PAtom.v
theories/Props/PBackground.v
theories/Props/PChiSq.v
theories/Props/PCif.v
theories/Props/PConstr.v
theories/Props/PCrystalXray.v
theories/Props/PDens.v
theories/Props/PEllips.v
theories/Props/PExt.v
theories/Props/PFlip.v
theories/Props/PForm.v
theories/Props/PFour.v
theories/Props/PHess.v
theories/Props/PHkl.v
theories/Props/PIons.v
theories/Props/PMag.v
theories/Props/PMatrix.v
theories/Props/PMem.v
theories/Props/PMemIter.v
theories/Props/PObj.v
theories/Props/POrbit.v
theories/Props/POrient.v
theories/Props/PPowder.v
theories/Props/PProfile.v
theories/Props/PRefine.v
theories/Props/PRegrid.v
theories/Props/PResolution.v
theories/Props/PRoots.v
theories/Props/PRot.v
theories/Props/PSimplex.v
theories/Props/PSite.v
theories/Props/PSlater.v
theories/Props/PSpaceGroup.v
theories/Props/PStrings.v
theories/Props/PStruct.v
theories/Props/PSymm.v
theories/Props/PTof.v
theories/Props/PTofItems.v
theories/Props/PUnitCell.v
theories/Props/PVibr.v
theories/Props/PXray.v
theories/Spec/Adp.v
theories/Spec/BesselSpec.v
theories/Spec/Bilinear.v
theories/Spec/Cell.v
theories/Spec/ChiSquare.v
theories/Spec/CifSpec.v
theories/Spec/ContainerSpec.v
theories/Spec/Density.v
theories/Spec/DensityMap.v
theories/Spec/Deriv.v
theories/Spec/DescentSpec.v
theories/Spec/Ellipsoid.v
theories/Spec/FormSpec.v
theories/Spec/Fourier.v
theories/Spec/Hess.v
theories/Spec/HklSpec.v
theories/Spec/Intens.v
theories/Spec/Interp.v
theories/Spec/IonSpec.v
theories/Spec/ItemSpec.v
theories/Spec/Lattice.v
theories/Spec/Lin3.v
theories/Spec/LinN.v
theories/Spec/MagSpec.v
theories/Spec/MemSpec.v
theories/Spec/Objects.v
theories/Spec/Orbit.v
theories/Spec/Placement.v
theories/Spec/Powder.v
theories/Spec/Refinement.v
theories/Spec/RootSpec.v
theories/Spec/Rotation.v
theories/Spec/Scatter.v
theories/Spec/SgSpec.v
theories/Spec/SimplexSpec.v
theories/Spec/SiteSpec.v
theories/Spec/SlaterSpec.v
theories/Spec/Special.v
theories/Spec/StarSpec.v
theories/Spec/StructSpec.v
theories/Spec/Symm.v
theories/Spec/Text.v
theories/Spec/TofItemSpec.v
