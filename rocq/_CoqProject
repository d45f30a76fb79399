-Q theories Verif

theories/Base.v
theories/Field.v
theories/Spec.v
theories/FieldPow.v
theories/ModelUtils.v
theories/ModelPoseidon2.v
theories/ModelPoseidon.v
theories/LinAlg.v
theories/SpecPoseidon2.v
theories/LoopLemmas.v
theories/ProofPoseidon2.v
theories/Limbs.v
theories/Fp.v
theories/Bij.v
theories/Poly.v
theories/ProofPoseidon2Lin.v
theories/ProofPoseidon2Bij.v
theories/ProofPoseidon2Dep.v
theories/SpecMDS.v
theories/MDS.v
theories/ProofPoseidon2MDS.v
theories/F13.v
theories/ProofPoseidon2Extra.v
theories/Props_Poseidon2.v
theories/MatLoops.v
theories/ProofMatInverse.v
theories/ProofMatHelpers.v
theories/Props_Matrix.v
theories/SpecPoseidon.v
theories/ProofEquivRC.v
theories/ProofPoseidon.v
theories/ProofPoseidonOpt.v
theories/ProofPoseidonFin.v
theories/Props_Poseidon.v
theories/ModelGmimc.v
theories/SpecGmimc.v
theories/ProofGmimc.v
theories/Props_Gmimc.v
theories/ModelFields.v
theories/SpecRounds.v
theories/ProofRounds.v
theories/Props_Rounds.v
theories/ModelRandom.v
theories/ModelNeptune.v
theories/SpecNeptune.v
theories/ProofNeptuneParams.v
theories/ProofNeptune.v
theories/ProofNeptuneBij.v
theories/ProofNeptuneFin.v
theories/Props_Neptune.v
theories/ModelMerkle.v
theories/SpecMerkle.v
theories/ProofMerkle.v
theories/ProofMerkleAcc.v
theories/SpecMerkleVariants.v
theories/ProofMerkleFin.v
theories/ProofMerkleHash.v
theories/Props_Merkle.v
theories/ProofProfiles2.v
theories/Props_Getters.v
theories/ModelHex.v
theories/SpecHex.v
theories/ProofHex.v
theories/Props_Hex.v
theories/ZField.v
theories/Pock.v
theories/Primes.v
theories/SpecFields.v
theories/ProofCollision.v
theories/DataP2_babybear.v
theories/DataP2_bls12.v
theories/DataP2_bn256.v
theories/DataP2_goldilocks.v
theories/DataP2_pallas.v
theories/DataP2_vesta.v
theories/DataPS_babybear.v
theories/DataPS_bls12.v
theories/DataPS_bn256.v
theories/DataPS_goldilocks.v
theories/DataPS_pallas.v
theories/DataPS_vesta.v
theories/ModelInstances.v
theories/ModelKats.v
theories/Transfer.v
theories/TransferRef.v
theories/Elim.v
theories/SpecInstances.v
theories/ProofInstances.v
theories/CertP2.v
theories/CertPS_small.v
theories/CertPS_large.v
theories/ProofKats.v
theories/ProofKnown.v
theories/ProofFieldFacts.v
theories/Props_Instances.v
theories/Props_Fields.v
theories/ModelGrain.v
theories/ProofGrain.v
theories/ProofGrain2.v
theories/ProofGrain3.v
theories/CertGrainP2.v
theories/CertGrainPS.v
theories/ProofGrain4.v
theories/Props_Grain.v
theories/ModelScript.v
theories/ProofScript.v
theories/CertScript.v
theories/ProofScript2.v
theories/Props_Script.v
theories/ProofTotal.v
theories/SpecMinPoly.v
theories/LinOp.v
theories/Rabin.v
theories/Freshman.v
theories/PolyMod.v
theories/Vec.v
theories/MinPolyCert.v
theories/PolyDiv.v
theories/ModelSubspace.v
theories/ProofMinPoly.v
theories/CertMinPoly.v
theories/ProofMinPoly2.v
theories/Props_MinPoly.v
theories/ModelGenerate.v
theories/ProofSubspace.v
theories/CyclicCert.v
theories/ProofKrylov.v
theories/CertCyclic.v
theories/ProofTrail.v
theories/ProofTrail2.v
theories/Props_Trail.v
theories/ProofReject.v
theories/CertReject.v
theories/ProofGenerate.v
theories/ModelPrint.v
theories/ProofScriptPerm.v
theories/ProofPrint.v
theories/Props_Generate.v
theories/ModelEquivalent.v
theories/ProofEquivalent.v
theories/ProofSmall.v
theories/Props_Equivalent.v
theories/ProofSubspaceIff.v
theories/ProofSubspaceMeaning.v
theories/Props_Subspace.v
theories/SpecPoly.v
theories/PolyFun.v
theories/ProofDegree.v
theories/ProofZeroSum.v
theories/ProofZeroSumEx.v
theories/Props_Degree.v
theories/ModelBenches.v
theories/SpecBenches.v
theories/ProofBenches.v
theories/Props_Benches.v
theories/ModelTests.v
theories/SpecTests.v
theories/ProofTests.v
theories/Props_Tests.v
theories/ProofOverflow.v
theories/Props_Overflow.v
theories/ProofSearch.v
theories/Props_Search.v
theories/SpecBinding.v
theories/ProofMerkleBind.v
theories/Props_Binding.v
theories/SpecBranch.v
theories/ProofBranch.v
theories/ProofBranch2.v
theories/SpecSbox.v
theories/ProofSbox.v
theories/Props_Branch.v
theories/SpecDouble.v
theories/ModelScriptFloat.v
theories/ProofDouble.v
theories/ProofScriptFloat.v
theories/ProofScriptFloat2.v
theories/CertScriptFloat.v
theories/ProofScriptFloat3.v
theories/Props_Rounding.v
theories/SpecPairs.v
theories/ProofPairs.v
theories/ProofPairs2.v
theories/Props_Pairs.v
theories/SpecFirst.v
theories/ProofGmTrail.v
theories/Props_GmTrail.v
theories/ProofQuiet.v
theories/ProofQuiet2.v
theories/ProofQuiet3.v
theories/Props_Quiet.v
theories/SpecWhole.v
theories/ProofWhole.v
theories/ProofWhole2.v
theories/Props_Whole.v
theories/SpecTop.v
theories/TopCoef.v
theories/ProofTop.v
theories/ProofTop2.v
theories/ProofTop3.v
theories/ProofTop4.v
theories/Props_Top.v
theories/SpecFour.v
theories/ProofFour.v
theories/Props_Four.v
theories/SpecUniform.v
theories/ProofUniform.v
theories/Props_Uniform.v
theories/SpecConst.v
theories/ProofConst.v
theories/Props_Const.v
theories/ModelOutput.v
theories/SpecRust.v
theories/ProofOutput.v
theories/ProofOutput2.v
theories/Props_Output.v
theories/SpecScale.v
theories/ProofScale.v
theories/Props_Scale.v
theories/SpecCount.v
theories/ProofCount.v
theories/Props_Count.v
theories/SpecSingular.v
theories/ProofSingular.v
theories/Props_Singular.v
theories/SpecSymmetry.v
theories/ProofSymmetry.v
theories/Props_Symmetry.v
theories/SpecInverse.v
theories/ProofInverse.v
theories/Props_Inverse.v
theories/SpecDraws.v
theories/ProofDraws.v
theories/Props_Draws.v
theories/ModelScriptDouble.v
theories/ProofScriptDouble.v
theories/ProofScriptDouble2.v
theories/ProofScriptDouble3.v
theories/ProofScriptDouble4.v
theories/Props_Double.v
theories/ProofGrainPoly.v
theories/ProofGrainCycle.v
theories/ProofGrainCycle2.v
theories/ProofGrainCycle3.v
theories/ProofGrainDraws.v
theories/ProofGrainDraws2.v
theories/Props_Register.v
theories/ProofMdsGen.v
theories/SpecUnbiased.v
theories/ProofUnbiased.v
theories/Props_Unbiased.v
theories/SpecRagged.v
theories/ProofRagged.v
theories/Props_Ragged.v
theories/SpecAccept.v
theories/ProofAccept.v
theories/ProofRefine.v
theories/Props_Accept.v
theories/ProofReturns.v
theories/ProofReturnsRel.v
theories/Props_Returns.v
theories/ProofAccept2.v
theories/Props_Accept2.v
theories/SpecShort.v
theories/ProofShort.v
theories/Props_Short.v
