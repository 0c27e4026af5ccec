-Q theories Verif
theories/Base/Bytes.v
theories/Base/Outcome.v
theories/Base/CtEq.v
theories/Base/BigUint.v
theories/Srp/SrpModel.v
theories/Srp/SrpSpec.v
theories/Srp/SrpProofs.v
theories/Base/Hex.v
theories/Base/Kat.v
theories/Base/RustTest.v
theories/Hash/Hash.v
theories/Hash/HashKat.v
theories/Hash/Fips180.v
theories/Hash/Fips180Proofs.v
theories/Hash/HashProps.v
theories/Srp/SrpProofs2.v
theories/Srp/SrpGroups.v
theories/Srp/SrpRfcGroups.v
theories/Srp/SrpGroupProofs.v
theories/Srp/SrpExamples.v
theories/Srp/SrpSession.v
theories/Srp/SrpProps.v
theories/Srp/SrpKat.v
theories/Base/HexMul.v
theories/Curve/NumTheory.v
theories/Curve/Primes.v
theories/Curve/Zmod.v
theories/Curve/Edwards.v
theories/Curve/Abelian.v
theories/Curve/Ed25519.v
theories/Curve/Ed25519Fast.v
theories/Curve/Ed25519Points.v
theories/Curve/Subgroup.v
theories/Curve/Ed25519Subgroup.v
theories/Base/Rng.v
theories/Base/Utf8.v
theories/Base/Utf8Spec.v
theories/Base/Count.v
theories/Base/Guess.v
theories/Base/Dictionary.v
theories/Curve/Scalar25519.v
theories/Curve/NearUniform.v
theories/Curve/Strings64.v
theories/Spake2/Spake2Model.v
theories/Spake2/Ed25519Group.v
theories/Spake2/Spake2Spec.v
theories/Spake2/Spake2Generic.v
theories/Spake2/Spake2Proofs.v
theories/Spake2/Spake2Proofs2.v
theories/Spake2/Spake2Debug.v
theories/Spake2/Spake2Small.v
theories/Spake2/Spake2Fast.v
theories/Spake2/Spake2Attacks.v
theories/Spake2/Spake2Props.v
theories/Spake2/Spake2Props2.v
theories/Spake2/Spake2Props3.v
theories/Spake2/Spake2Kat.v
theories/Aucpace/PwHash.v
theories/Aucpace/Base64Spec.v
theories/Aucpace/PhcSpec.v
theories/Aucpace/RistrettoGroup.v
theories/Aucpace/AucpaceModel.v
theories/Aucpace/AucpaceProofs.v
theories/Aucpace/AucpaceRun.v
theories/Aucpace/AucpaceSpec.v
theories/Aucpace/AucpaceDb.v
theories/Aucpace/AucpaceToy.v
theories/Aucpace/AucpaceProps.v
theories/Aucpace/AucpaceWorld.v
theories/Aucpace/AucpaceWorldProofs.v
theories/Aucpace/AucpaceProps2.v
theories/Aucpace/Wire.v
theories/Aucpace/WireProofs.v
theories/Aucpace/AucpaceProps3.v
theories/Curve/Ed25519Structure.v
theories/Curve/RistrettoGen.v
theories/Curve/Ristretto.v
theories/Curve/Ristretto255.v
theories/Aucpace/Ristretto255Group.v
theories/Aucpace/PwHashProofs.v
theories/Aucpace/AucpaceProps4.v
theories/Aucpace/Ristretto255Fast.v
theories/Aucpace/AucpaceProps5.v
theories/Aucpace/Net.v
theories/Aucpace/TcpExample.v
theories/Aucpace/TcpProofs.v
theories/Aucpace/NoStdExample.v
theories/Aucpace/AucpaceProps6.v
theories/Aucpace/AucpaceProps7.v
theories/Aucpace/ScryptParams.v
theories/Aucpace/AucpaceProps8.v
theories/Aucpace/AucpaceProps9.v
theories/Aucpace/AucpaceProps10.v
theories/Aucpace/AucpaceProps11.v
theories/Aucpace/ErrorText.v
theories/Aucpace/ErrorProps.v
theories/Curve/GaussLemma.v
theories/Srp/SrpGenerator.v
theories/Srp/SrpProps2.v
theories/Srp/SrpWrongPassword.v
theories/Srp/SrpProps3.v
theories/Srp/SrpProps4.v
theories/Aucpace/AucpaceProps12.v
theories/Spake2/Spake2Props4.v
theories/Spake2/Spake2Props5.v
theories/Spake2/Spake2Props6.v
theories/Spake2/Spake2Props7.v
theories/Spake2/Spake2Props8.v
theories/Srp/SrpProps5.v
theories/Srp/SrpProps6.v
theories/Srp/SrpProps7.v
theories/Srp/SrpProps8.v
theories/Aucpace/AucpaceProps13.v
theories/Aucpace/AucpaceProps14.v
theories/Aucpace/AucpaceProps15.v
theories/Aucpace/AucpaceProps16.v
theories/Aucpace/AucpaceProps17.v
theories/Aucpace/AucpaceProps18.v
theories/Base/Birthday.v
theories/Aucpace/AucpaceProps19.v
theories/Spake2/Spake2Props9.v
theories/Spake2/Spake2Props10.v
theories/Aucpace/AucpaceProps20.v
theories/Aucpace/Scrypt.v
theories/Aucpace/ScryptProofs.v
theories/Aucpace/AucpaceProps21.v
theories/Aucpace/AucpaceProps22.v
theories/Aucpace/MessageDebug.v
theories/Aucpace/AucpaceProps23.v
theories/Aucpace/ScryptSpec.v
theories/Aucpace/ScryptRfc.v
theories/Aucpace/AucpaceProps24.v
theories/Aucpace/AucpaceRng.v
theories/Aucpace/AucpaceProps25.v
theories/Aucpace/AucpaceProps26.v
theories/Curve/Rfc.v
theories/Curve/RfcProofs.v
theories/Aucpace/GroupSim.v
theories/Aucpace/AucpaceProps27.v
theories/Spake2/Spake2Props11.v
theories/Spake2/Spake2World.v
theories/Spake2/Spake2Props12.v
theories/Srp/SrpProps9.v
theories/Base/Leak.v
theories/Base/LeakProps.v
theories/Srp/SrpProps10.v
theories/Aucpace/AucpaceProps28.v
theories/Spake2/Spake2Props13.v
theories/Aucpace/AucpaceWork.v
theories/Aucpace/AucpaceProps29.v
theories/Base/Hashed.v
theories/Srp/SrpWork.v
theories/Srp/SrpProps11.v
theories/Spake2/Spake2Props14.v
theories/Aucpace/AucpaceProps30.v
theories/Curve/Questions.v
theories/Aucpace/AucpaceProps31.v
theories/Aucpace/AucpaceProps32.v
theories/Base/LeakShown.v
theories/Base/LeakProps2.v
theories/Aucpace/AucpaceProps33.v
theories/Aucpace/AucpaceProps34.v
theories/Aucpace/AucpaceProps35.v
theories/Srp/SrpProps12.v
theories/Srp/SrpProps13.v
