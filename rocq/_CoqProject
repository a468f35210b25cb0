-Q theories Verif
theories/Base.v
theories/PrimeLib.v
theories/Fq.v
theories/Matrix.v
theories/MatrixSpec.v
theories/MatrixProofs.v
theories/MatrixProps.v
theories/Matrix2x2.v
theories/MatrixExamples.v
theories/Properties_Matrix.v
theories/Params.v
theories/Permutation.v
theories/Spec.v
theories/PermutationProofs.v
theories/PoseidonProofs.v
theories/Montgomery.v
theories/Rate1.v
theories/Rate2.v
theories/Rate3.v
theories/Rate4.v
theories/Rate5.v
theories/Rate6.v
theories/Rate7.v
theories/Check.v
theories/CheckSound.v
theories/BigField.v
theories/RateChecks.v
theories/Cauchy.v
theories/SBox.v
theories/Shipped.v
theories/Hash.v
theories/PoseidonProps.v
theories/TestVectors.v
theories/PoseidonExamples.v
theories/Properties_Poseidon.v
theories/R1cs.v
theories/R1csSpec.v
theories/R1csProofs.v
theories/R1csShape.v
theories/R1csHash.v
theories/R1csProps.v
theories/Properties_R1cs.v
theories/R1csExamples.v
theories/PrimeField.v
theories/Bytes.v
theories/Alpha.v
theories/AlphaProofs.v
theories/Transcript.v
theories/TranscriptProofs.v
theories/Properties_Paramgen.v
theories/ParamgenExamples.v
theories/Slia.v
theories/Mds.v
theories/MdsProofs.v
theories/MdsCauchy.v
theories/ArcProofs.v
theories/V1.v
theories/V1Proofs.v
theories/GenerateExamples.v
theories/Properties_Generate.v
theories/Rounds.v
theories/RoundsSpec.v
theories/F64Proofs.v
theories/RoundsSearch.v
theories/RoundsClosed.v
theories/RoundsEval.v
theories/RoundsCheck.v
theories/Log2Proofs.v
theories/RoundsProps.v
theories/RoundsTables.v
theories/AppendixGData.v
theories/AppendixG.v
theories/WholeGenerator.v
theories/RoundsExamples.v
theories/Properties_Rounds.v
theories/V2.v
theories/V2Spec.v
theories/V2Proofs.v
theories/V2Rounds.v
theories/V2Gen.v
theories/InverseSpec.v
theories/InverseProofs.v
theories/V2Examples.v
theories/Properties_V2.v
theories/Build.v
theories/BuildSpec.v
theories/BuildProofs.v
theories/BuildFile.v
theories/BuildV2.v
theories/BuildGen.v
theories/BuildExamples.v
theories/Properties_Build.v
theories/Keccak.v
theories/Strobe.v
theories/KeccakExec.v
theories/MerlinExec.v
theories/MerlinShipped.v
theories/Reproduce.v
theories/ReproduceFile.v
theories/ReproduceExamples.v
theories/Properties_Reproduce.v
theories/TrailsSpec.v
theories/Grain.v
theories/TrailsProofs.v
theories/TrailsAlg1.v
theories/TrailsCheck.v
theories/TrailsShipped.v
theories/TrailsExamples.v
theories/Properties_Trails.v
theories/Sage.v
theories/SageProofs.v
theories/SageTables.v
theories/SageShipped.v
theories/SageExamples.v
theories/Properties_Sage.v
theories/SageSecurity.v
theories/Properties_SageSecurity.v
theories/ActiveSpec.v
theories/ActiveProofs.v
theories/ActiveShipped.v
theories/StatSpec.v
theories/StatProofs.v
theories/ActiveExamples.v
theories/Properties_Active.v
theories/CalcRounds.v
theories/CalcSpec.v
theories/CalcSearch.v
theories/CalcProofs.v
theories/CalcProps.v
theories/CalcSmall.v
theories/CalcCost.v
theories/CalcExamples.v
theories/Properties_Calc.v
theories/Preimage.v
theories/PreimageSpec.v
theories/PreimageProofs.v
theories/PreimageTest.v
theories/PreimageExamples.v
theories/Properties_Preimage.v
theories/KeySpec.v
theories/KeyData.v
theories/KeyProofs.v
theories/KeyShipped.v
theories/KeyExamples.v
theories/Properties_Key.v
theories/DegreeSpec.v
theories/DegreeProofs.v
theories/DegreeCheck.v
theories/DegreeShipped.v
theories/DegreeRounds.v
theories/DegreeExamples.v
theories/Properties_Degree.v
theories/SumSpec.v
theories/SumProofs.v
theories/SumShipped.v
theories/SumExamples.v
theories/Properties_Sum.v
theories/GrainGen.v
theories/GrainSpec.v
theories/GrainPeriod.v
theories/GrainProofs.v
theories/GrainOrbit.v
theories/GrainMatrix.v
theories/GrainExec.v
theories/GrainTables.v
theories/GrainShipped.v
theories/GrainPrimes.v
theories/GrainTheorems.v
theories/GrainGenExamples.v
theories/Properties_GrainGen.v
theories/VendoredPerm.v
theories/VendoredPermProofs.v
theories/VendoredTables.v
theories/VendoredExec.v
theories/VendoredTheorems.v
theories/VendoredExamples.v
theories/Properties_VendoredPerm.v
theories/CauchyDet.v
theories/GenerateMds.v
theories/GenerateMdsSpec.v
theories/GenerateMdsProofs.v
theories/GenerateMdsNear.v
theories/GenerateMdsRounds.v
theories/GenerateMdsTheorems.v
theories/GenerateMdsExamples.v
theories/Properties_GenerateMds.v
theories/TestPrimes.v
theories/Tests.v
theories/TestsProofs.v
theories/TestsParamgen.v
theories/TestsLog2.v
theories/TestsHash.v
theories/TestsExamples.v
theories/Properties_Tests.v
theories/InvertSpec.v
theories/InvertProofs.v
theories/InvertShipped.v
theories/InvertExamples.v
theories/Properties_Invert.v
theories/CalcTables.v
theories/CalcRows.v
theories/CalcTablesSpec.v
theories/CalcTablesProofs.v
theories/CalcTablesExamples.v
theories/AnyPrimeSpec.v
theories/RoundsAnyPrime.v
theories/RoundsLevel.v
theories/AnyPrimeExamples.v
theories/Properties_Tables.v
theories/Properties_AnyPrime.v
theories/CountSpec.v
theories/Count.v
theories/CountProofs.v
theories/CountTheorems.v
theories/CountExamples.v
theories/Properties_Count.v
theories/BranchSpec.v
theories/ExternalBranch.v
theories/Properties_Branch.v
theories/BranchExamples.v
theories/IrreducibleSpec.v
theories/Irreducible.v
theories/Properties_Irreducible.v
theories/IrreducibleExamples.v
theories/ArkSpec.v
theories/GenerateArk.v
theories/GenerateArkProofs.v
theories/ArkField.v
theories/Properties_Ark.v
theories/ArkExamples.v
theories/Sha256.v
theories/Sha256Proofs.v
theories/EigenCheck.v
theories/MdsRunData.v
theories/FqFinite.v
theories/MdsRun.v
theories/MdsRunTheorems.v
theories/Properties_MdsRun.v
theories/MdsRunExamples.v
theories/SymmetrySpec.v
theories/Symmetry.v
theories/SymmetryShipped.v
theories/SymmetryPartial.v
theories/SymmetryMixed.v
theories/Properties_Symmetry.v
theories/SymmetryExamples.v
theories/BypassSpec.v
theories/Bypass.v
theories/BypassShipped.v
theories/BypassTable.v
theories/BypassZero.v
theories/Properties_Bypass.v
theories/BypassExamples.v
