-Q theories Verif
theories/Outcome.v
theories/Num.v
theories/State.v
theories/Base.v
theories/Spec.v
theories/InvBase.v
theories/ModelRelax.v
theories/RelaxBase.v
theories/RelaxTerrainProofs.v
theories/RelaxBodyProofs.v
theories/ModelIntersect.v
theories/IntersectSoilProofs.v
theories/IntersectTerrainProofs.v
theories/ModelBodySoil.v
theories/BodySoilProofs.v
theories/BodySoilAny.v
theories/ModelBodyPos.v
theories/BodyColumn.v
theories/BodyPosProofs.v
theories/ModelUtils.v
theories/ModelStep.v
theories/StepFuel.v
theories/Spec2.v
theories/StepProofs.v
theories/CheckProofs.v
theories/StructProofs.v
theories/EquilibriumProofs.v
theories/StatusProofs.v
theories/AvalancheProofs.v
theories/PairProofs.v
theories/AreaProofs.v
theories/InitProofs.v
theories/RunProofs.v
theories/CodesProofs.v
theories/StuckProofs.v
theories/PropLemmas.v
theories/RestProofs.v
theories/SpecBinary.v
theories/FloatBase.v
theories/LockBase.v
theories/LockBound.v
theories/LockRelax.v
theories/LockRelaxLoop.v
theories/LockIntersect.v
theories/LockBodyPos.v
theories/LockBodySoil.v
theories/LockStep.v
theories/LockNum.v
theories/Demo.v
theories/RestFacts.v
theories/DemoFacts.v
theories/Refuted.v
theories/PartsFacts.v
theories/PropertiesStep.v
theories/PropertiesParts.v
theories/Flt.v
theories/FltB.v
theories/FltR.v
theories/FltRFacts.v
theories/ModelTypes.v
theories/ModelGeometry.v
theories/ModelRaster.v
theories/SpecGeo.v
theories/GeoProofs.v
theories/PoseProofs.v
theories/TypesProofs.v
theories/LineProofs.v
theories/LineCells.v
theories/InnerProofs.v
theories/SurfaceProofs.v
theories/RasterProofs.v
theories/InsideProofs.v
theories/GeoClaims.v
theories/PropertiesGeometry.v
theories/FloatProofs.v
theories/PropertiesFloat.v
theories/ModelNoise.v
theories/NoiseProofs.v
theories/ModelFiles.v
theories/FilesProofs.v
theories/FilesClaims.v
theories/FilesFull.v
theories/PropertiesFiles.v
theories/TestLang.v
theories/TestCheckBody.v
theories/TestCheckSoil.v
theories/TestCheckTerrain.v
theories/TestCheckVolume.v
theories/TestIncludeNewBodyPos.v
theories/TestLocateIntersecting.v
theories/TestLocateUnstable.v
theories/TestMoveBodySoil.v
theories/TestMoveIntersectingBody.v
theories/TestMoveIntersectingBodySoil.v
theories/TestRelaxBodyCell.v
theories/TestRelaxBodySoil.v
theories/TestRelaxTerrain.v
theories/TestRelaxTerrainCell.v
theories/TestUpdateBody.v
theories/ModelWhole.v
theories/WholeProofs.v
theories/WholeClaims.v
theories/PropertiesWhole.v
theories/RestLater.v
theories/RestJump.v
theories/RestWhole.v
theories/PropertiesRest.v
theories/SpecSafe.v
theories/SafeProofs.v
theories/ModelProgram.v
theories/ProgramProofs.v
theories/DemoB.v
theories/PropertiesProgram.v
theories/TestBinary32.v
theories/TestGeoLang.v
theories/TestTypes.v
theories/TestGeometry.v
theories/TestRaster.v
theories/TestBodySoil.v
theories/BinaryProofs.v
theories/BinaryInit.v
theories/DemoD.v
theories/PropertiesBinary.v
theories/SpecNoise.v
theories/NoiseSum.v
theories/AgreeProofs.v
theories/PropertiesNoise.v
theories/SpecHole.v
theories/HolePlane.v
theories/HoleProofs.v
theories/HoleBody.v
theories/HoleDemo.v
theories/PropertiesHoles.v
theories/SpecShown.v
theories/ShownProofs.v
theories/ShownWhole.v
theories/PropertiesShown.v
theories/ModelExample.v
theories/ExampleProofs.v
theories/ExampleLoop.v
theories/ExampleRun.v
theories/ExampleFaults.v
theories/ExampleTimes.v
theories/ExampleRandom.v
theories/ExampleBlade.v
theories/PropertiesExample.v
theories/ModelCheckLoop.v
theories/FloorProofs.v
theories/CheckLoopProofs.v
theories/CheckLoopClaims.v
theories/HeightProofs.v
theories/PropertiesLoop.v
theories/ModelOutputs.v
theories/OutputProofs.v
theories/OutputClaims.v
theories/PropertiesOutputs.v
theories/ModelEvolution.v
theories/EvolutionProofs.v
theories/EvolutionClaims.v
theories/PropertiesEvolution.v
theories/LogProofs.v
theories/LogClaims.v
theories/LogAgain.v
theories/FlagProofs.v
theories/PropertiesLog.v
