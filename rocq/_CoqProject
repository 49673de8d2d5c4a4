-Q theories Verif
theories/Uop.v
theories/Poly.v
theories/Sym.v
theories/X86.v
theories/Asm25519.v
theories/Asm448.v
theories/AsmSign255.v
theories/Engine.v
theories/Check.v
theories/Alias.v
theories/Bytes.v
theories/Fp25519Full.v
theories/Fp448Full.v
theories/FullTac.v
theories/Simd.v
theories/Simd255.v
theories/Simd448.v
theories/Lanes.v
theories/Fp25519FullProofs.v
theories/Fp448FullProofs.v
theories/InPlace.v
theories/Primality.v
theories/Primes.v
theories/FullMore.v
theories/RedTac.v
theories/Moves.v
theories/Fp25519Red.v
theories/Fp25519RedProofs.v
theories/Fp25519RedMore.v
theories/Fp25519RedRoot.v
theories/Fp448Red.v
theories/Fp448RedProofs.v
theories/Fp448RedMore.v
theories/Fp448RedRoot.v
theories/Spec.v
theories/SpecVec.v
theories/Fp448Two.v
theories/FullProps.v
theories/PropsFull.v
theories/RedProps.v
theories/RedProps2.v
theories/RedProps3.v
theories/RedMixed.v
theories/PropsRed.v
theories/SpecScalar.v
theories/Scalar.v
theories/ScalarProofs.v
theories/Scalar448.v
theories/Scalar448Proofs.v
theories/ScalarProps.v
theories/PropsScalar.v
theories/SpecRecode.v
theories/Recode.v
theories/RecodeProofs.v
theories/PropsRecode.v
theories/SpecX.v
theories/Ladder.v
theories/LadderProofs.v
theories/LadderVec.v
theories/LadderVec448.v
theories/LadderSmall.v
theories/LadderX448.v
theories/X448Case.v
theories/LadderMem.v
theories/EdwardsGroup.v
theories/AbGroup.v
theories/FpType.v
theories/CurveLadder.v
theories/CurveInst.v
theories/CurveDH.v
theories/DHProofs.v
theories/PropsX.v
theories/SpecEd.v
theories/EdPoint.v
theories/EdInst.v
theories/Edwards255.v
theories/EdVec.v
theories/Edwards255Proofs.v
theories/Verify255.v
theories/Verify255Proofs.v
theories/SpecEdVec.v
theories/EdProps.v
theories/PropsEd.v
theories/Table255.v
theories/EdCert.v
theories/TableProofs255.v
theories/Fixed255.v
theories/Fixed255Proofs.v
theories/FixedProps.v
theories/PropsFixed.v
theories/Birational.v
theories/Keygen255.v
theories/Keygen255Proofs.v
theories/PropsKey.v
theories/Decode255.v
theories/Decode255Proofs.v
theories/VerifyMulProofs.v
theories/VerifyCase.v
theories/Sign255.v
theories/SpecSign.v
theories/Sign255Proofs.v
theories/SignCase.v
theories/NoPoint.v
theories/SignCase2.v
theories/SignCase3.v
theories/SignProps.v
theories/PropsSign.v
theories/SpecSha2.v
theories/Sha512.v
theories/Sha512Proofs.v
theories/SpecSha3.v
theories/Sha3.v
theories/Sha3Proofs.v
theories/HashProps.v
theories/PropsHash.v
theories/SpecH2c.v
theories/Hash255.v
theories/Elligator.v
theories/Hash255Proofs.v
theories/H2cCase.v
theories/H2cProps.v
theories/PropsH2c.v
theories/Table448.v
theories/Edwards448.v
theories/Sign448.v
theories/SpecSign448.v
theories/Sign448Proofs.v
theories/IsoField.v
theories/SpecIso.v
theories/IsoPoint.v
theories/EdInst448.v
theories/EdVec448.v
theories/Edwards448Proofs.v
theories/Encode448Proofs.v
theories/Neutral448.v
theories/Prod448.v
theories/Limb448.v
theories/Mix448.v
theories/Verify448Proofs.v
theories/EdCert448.v
theories/TableProofs448.v
theories/Mix448Way.v
theories/Query448Proofs.v
theories/Fixed448Proofs.v
theories/Digits448.v
theories/Keygen448Proofs.v
theories/Keygen448Case.v
theories/Map448.v
theories/Keygen448X.v
theories/Keygen448XProofs.v
theories/Keygen448XCase.v
theories/SpecEd448Vec.v
theories/EdProps448.v
theories/SpecDecode448.v
theories/Decode448Proofs.v
theories/Decode448Case.v
theories/Wrap448.v
theories/Ops448.v
theories/VerifyMul448.v
theories/Verify448Right.v
theories/VerifyCase448.v
theories/PropsKey448.v
theories/SignHash.v
theories/SignHashProofs.v
theories/PropsSignHash.v
theories/PropsEd448.v
theories/PropsSign448.v
theories/Sha512x2.v
theories/Sha512x2Proofs.v
theories/Hash255x2.v
theories/Hash255x2Proofs.v
theories/PropsHash2w.v
theories/SpecMap2w.v
theories/EllConverse.v
theories/Map255x2.v
theories/Map255x2Ops.v
theories/Map255x2Proofs.v
theories/Map255x2Case.v
theories/PropsMap2w.v
