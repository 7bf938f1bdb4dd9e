-Q theories Verif
theories/LimbModel.v
theories/LimbProofs.v
theories/MontProofs.v
theories/Primes.v
theories/FieldModel.v
theories/FieldSpec.v
theories/FieldProofs.v
theories/DigitProofs.v
theories/PowProofs.v
theories/FieldMore.v
theories/ClaimsField.v
theories/Algebra.v
theories/ExtModel.v
theories/ExtSpec.v
theories/RingPow.v
theories/ExtParams.v
theories/ExtProofs.v
theories/ExtFrob.v
theories/ClaimsExt.v
theories/FinalExp.v
theories/PairingModel.v
theories/PairingSpec.v
theories/PairingProofs.v
theories/PairingRefine.v
theories/PairingFinal.v
theories/PairingWitness.v
theories/Fq2Sqrt.v
theories/ClaimsPairing.v
theories/CurveSpec.v
theories/CurveGroup.v
theories/WeierModel.v
theories/WeierProofs.v
theories/GroupLib.v
theories/CurveAb.v
theories/CurveParams.v
theories/ClaimsCurve.v
theories/MsmModel.v
theories/MsmProofs.v
theories/ClaimsMsm.v
theories/PolyModel.v
theories/PolySpec.v
theories/PolyProofs.v
theories/FftProofs.v
theories/FftInverse.v
theories/ClaimsPoly.v
theories/R1csModel.v
theories/R1csSpec.v
theories/R1csProofs.v
theories/GadgetProofs.v
theories/RangeProofs.v
theories/CompleteAdd.v
theories/CurveGadget.v
theories/R1csShape.v
theories/ForgeProofs.v
theories/CircuitFields.v
theories/ClaimsR1cs.v
theories/Groth16Model.v
theories/Groth16Spec.v
theories/Groth16Lift.v
theories/Groth16Proofs.v
theories/Groth16Run.v
theories/Groth16Sound.v
theories/ClaimsGroth16.v
theories/CurveCert.v
theories/CurveOrder.v
theories/ClaimsOrder.v
theories/NovaModel.v
theories/NovaSpec.v
theories/NovaProofs.v
theories/NovaFields.v
theories/ClaimsNova.v
theories/BigNatModel.v
theories/BigNatSpec.v
theories/HonestRun.v
theories/LimbVec.v
theories/BigNatProofs.v
theories/BigNatRun.v
theories/BigNatForge.v
theories/ClaimsBigNat.v
theories/AugmentedModel.v
theories/IvcModel.v
theories/IvcSpec.v
theories/AugShape.v
theories/AugRun.v
theories/IvcProofs.v
theories/ClaimsIvc.v
theories/PalletModel.v
theories/PalletSpec.v
theories/ClaimsPallet.v
theories/FfModel.v
theories/FfSpec.v
theories/ClaimsFf.v
theories/CodecModel.v
theories/CodecSpec.v
theories/CodecProofs.v
theories/ClaimsCodec.v
theories/EdwardsModel.v
theories/EdwardsSpec.v
theories/EdwardsProofs.v
theories/ClaimsEdwards.v
theories/SqrtSpec.v
theories/SqrtProofs.v
theories/ClaimsSqrt.v
theories/Limb6Model.v
theories/Limb6Spec.v
theories/Limb6Proofs.v
theories/Limb6Square.v
theories/Limb6Field.v
theories/ClaimsLimb6.v
theories/LineAlg.v
theories/LineVal.v
theories/AbTac.v
theories/BilinAlg.v
theories/TwistMap.v
theories/PairAbs.v
theories/PairTarget.v
theories/PairBn.v
theories/G2Cert.v
theories/G2Order.v
theories/PairBilin.v
theories/Dig64.v
theories/PairNum.v
theories/PairNonDegData.v
theories/PairNonDeg.v
theories/ClaimsBilinear.v
theories/TorsionModel.v
theories/TorsionProofs.v
theories/ClaimsTorsion.v
theories/WeierSqModel.v
theories/WeierSqProofs.v
theories/ClaimsWeierSq.v
theories/Groth16Bn.v
theories/ClaimsGroth16Bn.v
theories/RecodeModel.v
theories/ClaimsRecode.v
theories/ClaimsExtra.v
theories/AsmModel.v
theories/AsmSpec.v
theories/AsmProofs.v
theories/AsmMul.v
theories/AsmSquare.v
theories/AsmPure.v
theories/ClaimsAsm.v
theories/MacroSpec.v
theories/JubjubModel.v
theories/JubjubPrime.v
theories/ClaimsMacro.v
theories/EdwardsSqModel.v
theories/EdwardsSqProofs.v
theories/ClaimsJubjub.v
theories/GtModel.v
theories/ClaimsGt.v
theories/HashSqModel.v
theories/MimcData.v
theories/ClaimsHash.v
theories/PairSqModel.v
theories/PairSqProofs.v
theories/ClaimsPairSq.v
theories/FftSqModel.v
theories/ClaimsFftSq.v
theories/Groth16Points.v
theories/Groth16PointsProofs.v
theories/ClaimsGroth16Pts.v
theories/Groth16Limbs.v
theories/Groth16LimbsProofs.v
theories/ClaimsGroth16Limbs.v
theories/Audit.v
