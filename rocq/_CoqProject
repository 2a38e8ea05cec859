-Q theories Verif

theories/NumTheory.v
theories/Spec.v
theories/Primes.v
theories/ZmField.v
theories/ECGroup.v
theories/OrderCert.v
theories/Curve.v
theories/Word.v
theories/Bytes.v
theories/FieldModel.v
theories/FieldMul.v
theories/FieldProof.v
theories/FieldProof2.v
theories/FieldBytes.v
theories/FieldOps.v
theories/ScalarModel.v
theories/ScalarProof.v
theories/ScalarProof2.v
theories/ScalarMul.v
theories/ScalarSplit.v
theories/GroupModel.v
theories/GroupProof.v
theories/GroupProof2.v
theories/GroupProof3.v
theories/GroupProof4.v
theories/GroupProof5.v
theories/LambdaCert.v
theories/Endo.v
theories/SpecHash.v
theories/HashModel.v
theories/HashProof.v
theories/GenTable.v
theories/GenTableCert.v
theories/GenTableProof.v
theories/GenModel.v
theories/GenProof.v
theories/EcmultModel.v
theories/WnafProof.v
theories/EcmultProof.v
theories/EcmultProof2.v
theories/EcmultConst.v
theories/SpecApi.v
theories/EcdsaModel.v
theories/ApiModel.v
theories/ApiVocab.v
theories/NField.v
theories/ApiProof.v
theories/ApiProof2.v
theories/ApiProof3.v
theories/EcdsaProof.v
theories/EcdsaProof2.v
theories/KeyProps.v
theories/KeyProps2.v
theories/SpecRep.v
theories/RepProof.v
theories/RepProof2.v
theories/RepProof3.v
theories/SpecDer.v
theories/DerProof.v
theories/DerProps.v
theories/HsortModel.v
theories/HsortProof.v
theories/SpecSort.v
theories/SortProof.v
theories/EcdhModel.v
theories/RecoveryModel.v
theories/SpecRec.v
theories/EcdhProof.v
theories/ExtrakeysModel.v
theories/SchnorrModel.v
theories/SpecBip340.v
theories/SchnorrVocab.v
theories/ExtrakeysProof.v
theories/SchnorrProof.v
theories/SchnorrProps.v
theories/Props_Keys.v
theories/Props_Ecdsa.v
theories/Props_Arith.v
theories/Props_Arith2.v
theories/Props_Mult.v
theories/Props_Hash.v
theories/Props_Der.v
theories/Props_Sort.v
theories/Props_Ecdh.v
theories/Props_Schnorr.v
theories/EllswiftModel.v
theories/SpecEllswift.v
theories/EllswiftAlg.v
theories/EllswiftProof.v
theories/EllswiftInv.v
theories/EllswiftProof2.v
theories/EllswiftProps.v
theories/Props_Ellswift.v
theories/MusigModel.v
theories/MusigVocab.v
theories/SpecMusig.v
theories/MusigProof.v
theories/MusigProof2.v
theories/MusigProof3.v
theories/MusigProof4.v
theories/MusigProof5.v
theories/MusigProof6.v
theories/MusigProps.v
theories/MusigWitness.v
theories/Props_Musig.v
theories/CallsVocab.v
theories/CallsProof.v
theories/CallsProof2.v
theories/CallsProof3.v
theories/CallsProof4.v
theories/CallsProof5.v
theories/CallsProps.v
theories/Props_Calls.v
theories/Int128Model.v
theories/SpecWords.v
theories/Int128Proof.v
theories/SelectProof.v
theories/Props_Words.v
theories/ScratchModel.v
theories/SpecScratch.v
theories/ScratchProof.v
theories/Props_Scratch.v
theories/MultiModel.v
theories/SpecMulti.v
theories/MultiProof.v
theories/MultiProof2.v
theories/MultiProof3.v
theories/MultiProof4.v
theories/MultiProps.v
theories/Props_Multi.v
theories/SafegcdCert1.v
theories/SafegcdCert2.v
theories/Safegcd.v
theories/SafegcdBound.v
theories/ModinvModel.v
theories/SpecModinv.v
theories/ModinvProof.v
theories/ModinvProof2.v
theories/ModinvProof3.v
theories/ModinvProof4.v
theories/ModinvProof5.v
theories/ModinvProps.v
theories/Props_Modinv.v
theories/Jacobi.v
theories/JacobiModel.v
theories/SpecJacobi.v
theories/JacobiProof.v
theories/JacobiProof2.v
theories/JacobiProps.v
theories/Props_Jacobi.v
theories/Word32.v
theories/Field32Model.v
theories/Field32Mul.v
theories/Field32Proof.v
theories/Field32Ops.v
theories/Field32Bytes.v
theories/SpecRep32.v
theories/Field32Props.v
theories/Props_Field32.v
theories/Scalar32Model.v
theories/Scalar32Proof.v
theories/Scalar32Proof2.v
theories/Scalar32Mul.v
theories/Scalar32Ops.v
theories/SpecScalar32.v
theories/Scalar32Props.v
theories/Props_Scalar32.v
theories/Modinv32Model.v
theories/Modinv32Proof.v
theories/Modinv32Proof2.v
theories/Modinv32Proof3.v
theories/Modinv32Proof4.v
theories/Modinv32Proof5.v
theories/Modinv32Jacobi.v
theories/SpecModinv32.v
theories/Modinv32Props.v
theories/Props_Modinv32.v
theories/W32_Base.v
theories/W32_Group.v
theories/W32_Ecmult.v
theories/W32_Gen.v
theories/W32_Ecdsa.v
theories/W32_Api.v
theories/W32_Extrakeys.v
theories/W32_Schnorr.v
theories/W32_Recovery.v
theories/W32_Ecdh.v
theories/W32_Ellswift.v
theories/W32_Hsort.v
theories/W32_Musig.v
theories/W32_Vocab.v
theories/W32_Tight.v
theories/W32_SimField.v
theories/W32_SimScalar.v
theories/W32_SimGroup.v
theories/W32_SimEcmult.v
theories/W32_SimGen.v
theories/W32_SimEcdsa.v
theories/W32_SimApi.v
theories/W32_SimExtra.v
theories/W32_SimMusig.v
theories/W32_SimModules.v
theories/W32_Props.v
theories/Props_W32.v
theories/CtLang.v
theories/CtCheck.v
theories/CtReach.v
theories/Ct64_Code.v
theories/Ct32_Code.v
theories/CtProps.v
theories/Props_Ct.v
theories/SpecLax.v
theories/LaxModel.v
theories/LaxProof.v
theories/LaxProof2.v
theories/Props_Lax.v
theories/GenAnyModel.v
theories/GenAnyProof.v
theories/GenAnyTable.v
theories/SpecGenAny.v
theories/GenAnyProps.v
theories/GenAnyBounds.v
theories/Props_GenAny.v
theories/WindowModel.v
theories/WindowProof.v
theories/SpecWindow.v
theories/WindowProps.v
theories/Props_Window.v
theories/WindowApiModel.v
theories/WindowApiProof.v
theories/WindowApiProps.v
theories/Props_Window2.v
theories/GenApiModel.v
theories/GenApiProof.v
theories/Props_GenAny2.v
theories/LifeModel.v
theories/SpecLife.v
theories/LifeProof.v
theories/Props_Life.v
theories/GenMusigModel.v
theories/GenMusigProof.v
theories/Props_GenAny3.v
theories/ExampleModel.v
theories/ExampleProof.v
theories/Props_Example.v
theories/SchnorrExampleModel.v
theories/SchnorrExampleProof.v
theories/Props_Example2.v
theories/EllswiftExampleModel.v
theories/EllswiftExampleProof.v
theories/Props_Example3.v
