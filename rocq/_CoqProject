-Q theories Verif
theories/NumTheory.v
theories/DigitTables.v
theories/Digits.v
theories/PrimeCerts.v
theories/Primes.v
theories/Fp.v
theories/DigitsP.v
theories/AbGroup.v
theories/Edwards.v
theories/GroupOrder.v
theories/RistrettoSpec.v
theories/Words.v
theories/WordsTac.v
theories/ScalarCode.v
theories/ScalarModel.v
theories/ScalarReduce.v
theories/ScalarProofs.v
theories/ScalarSub.v
theories/ScalarFacts.v
theories/PropScalar.v
theories/Fe51Code.v
theories/Fe25Code.v
theories/Fe51Proofs.v
theories/FieldModel.v
theories/CurveModel.v
theories/BitFold.v
theories/FieldLaws.v
theories/FieldFacts.v
theories/Fe51Laws.v
theories/Fe25Proofs.v
theories/Fe25Laws.v
theories/CurveProofs.v
theories/EncodeProofs.v
theories/WindowProofs.v
theories/ScalarMultProofs.v
theories/TextCodec.v
theories/RistrettoModel.v
theories/RistrettoFacts.v
theories/BaseTable51.v
theories/BaseTable25.v
theories/BaseTableData.v
theories/BaseTableProofs.v
theories/Field51Facts.v
theories/PropField.v
theories/Points51.v
theories/ElligatorSpec.v
theories/ElligatorMath.v
theories/ElligatorProofs.v
theories/LizardProofs.v
theories/Sha256.v
theories/Elligator51.v
theories/TextProofs.v
theories/Text51.v
theories/PropPoint.v
theories/PropElligator.v
theories/PropText.v
theories/ApiModel.v
theories/ApiSpec.v
theories/ApiProofs.v
theories/ApiIdeal.v
theories/Generic25.v
theories/PropGeneric.v
theories/PropApi.v
theories/Amd64Model.v
theories/Amd64Code.v
theories/Amd64Field.v
theories/Amd64Proofs.v
theories/Amd64Laws.v
theories/PropAsm.v
theories/GoLang.v
theories/GoLangFacts.v
theories/GoViews.v
theories/GoLimbCode.v
theories/GoLimbFacts.v
theories/GoLimbTests.v
theories/GoLimbTestsFacts.v
theories/GoCurveCode.v
theories/GoCurveFacts.v
theories/GoCodecCode.v
theories/GoCodecFacts.v
theories/GoEllInvFacts.v
theories/GoScalarMult.v
theories/GoScalarMultRun.v
theories/GoTableMult.v
theories/GoTableCompute.v
theories/GoInverseCode.v
theories/GoAliasFacts.v
theories/GoAliasMore.v
theories/PropAlias.v
theories/Amd64Trace.v
theories/GoTrace.v
theories/GoTraceFacts.v
theories/GoPropCT.v
theories/GoSecret.v
theories/GoSecretFacts.v
theories/PropCT.v
theories/PropSecret.v
theories/UniformFacts.v
theories/PropUniform.v
theories/EllGen.v
theories/Backends.v
theories/BackendsMore.v
theories/PropBackends.v
theories/GoThreads.v
theories/GoThreadsFacts.v
theories/GoResults.v
theories/GoResultsFacts.v
theories/PropThreads.v
theories/CLang.v
theories/CLangFacts.v
theories/CrefFeCode.v
theories/CrefFe.v
theories/CrefCode.v
theories/CrefFeProofs.v
theories/CrefSeqProofs.v
theories/CrefGroupProofs.v
theories/CrefFacts.v
theories/CrefScalar.v
theories/CrefInvert.v
theories/CrefScalarProofs.v
theories/CrefScalarOps.v
theories/CrefWindow.v
theories/CrefScalarFacts.v
theories/CrefTable.v
theories/CrefMul.v
theories/CrefTableProofs.v
theories/CrefMulProofs.v
theories/CrefMulFacts.v
theories/CrefPtr.v
theories/CrefPtrCode.v
theories/CrefPtrProofs.v
theories/CrefPtrMul.v
theories/CrefPtrMulProofs.v
theories/CrefLimbs.v
theories/CrefLimbsProofs.v
theories/CrefPtrFacts.v
theories/PropCref.v
theories/PropCrefScalar.v
theories/PropCrefMul.v
theories/PropCrefPtr.v
theories/AllScalars.v
theories/EdwardsFacts.v
theories/PropEdwards.v
theories/CrefSlide.v
theories/CrefSlideProofs.v
theories/CrefSlideFacts.v
theories/PropCrefSlide.v
theories/Rfc9496.v
theories/RfcProofs.v
theories/RfcFacts.v
theories/RfcExamples.v
theories/PropRfc.v
theories/BijFacts.v
theories/GenMul.v
theories/PropBij.v
theories/GoCodeFacts.v
theories/PropCode.v
theories/StringModel.v
theories/StringFacts.v
theories/PropString.v
theories/CheckedModel.v
theories/CheckedFacts.v
theories/PropChecked.v
theories/Sha512.v
theories/HashFacts.v
theories/PropHash.v
theories/TestModel.v
theories/TestFacts.v
theories/TestField.v
theories/TestPoints.v
theories/TestRest.v
theories/PropTests.v
theories/Unreached.v
theories/DegenerateFacts.v
theories/DegenerateMult.v
theories/Degenerate.v
theories/PropDegenerate.v
theories/ErrorModel.v
theories/ErrorFacts.v
theories/ErrorText.v
theories/ErrorProofs.v
theories/PropError.v
theories/CrefGo.v
theories/CrefGoSpec.v
theories/CrefGoProofs.v
theories/CrefGoFacts.v
theories/PropCrefGo.v
theories/FiniteFunctions.v
theories/LizardChance.v
theories/LizardCount.v
theories/PropLizard.v
theories/DegenerateLizard.v
theories/ApiTotalSpec.v
theories/ApiTotalProofs.v
theories/ApiTotal.v
theories/PropTotal.v
theories/ApiFullModel.v
theories/ApiFullSpec.v
theories/ApiFullProofs.v
theories/ApiFull.v
theories/PropFull.v
theories/Fe25Wide.v
theories/FieldApiModel.v
theories/FieldApiSpec.v
theories/FieldApiProofs.v
theories/FieldApi.v
theories/PropFieldApi.v
theories/EdProgModel.v
theories/EdProgSpec.v
theories/EdProgProofs.v
theories/EdProg.v
theories/PropEdProg.v
theories/JacobiFacts.v
theories/PropJacobi.v
