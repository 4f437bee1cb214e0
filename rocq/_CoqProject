-Q theories Verif
theories/Base.v
theories/BigUInt.v
theories/ZLemmas.v
theories/BigLaws.v
theories/BigUIntProofs.v
theories/Spec.v
theories/SpecFns.v
theories/BigExtra.v
theories/F256.v
theories/Arith.v
theories/SpecLemmas.v
theories/SpecProps.v
theories/F256Lemmas.v
theories/AddProofs.v
theories/RoundLemmas.v
theories/DivProofs.v
theories/MulProofs.v
theories/SqrtProofs.v
theories/RemProofs.v
theories/BasicProofs.v
theories/CodecProofs.v
theories/IntProofs.v
theories/SpecAlg.v
theories/MiscProofs.v
theories/Interface.v
theories/LiftProofs.v
theories/Compute.v
theories/WideTower.v
theories/LiftAlg.v
theories/Prop_Basic.v
theories/Prop_Arith.v
theories/IntExtra.v
theories/Prop_Int.v
theories/Prop_Wide.v
theories/SpecConv.v
theories/Conv.v
theories/ConvProofs.v
theories/Prop_Conv.v
theories/FmaProofs.v
theories/FmaSpecial.v
theories/SosProofs.v
theories/LiftFused.v
theories/Prop_Fused.v
theories/PowersOfFive.v
theories/Parse.v
theories/SpecParse.v
theories/ChunkLemmas.v
theories/ParseProofs.v
theories/ReadProofs.v
theories/LitProofs.v
theories/ExactProofs.v
theories/FromStrProofs.v
theories/Prop_Parse.v
theories/PiBound.v
theories/SpecDeg.v
theories/DegProofs.v
theories/DegReal.v
theories/Prop_Deg.v
theories/PrintTable.v
theories/Print.v
theories/PrintArith.v
theories/PrintLoops.v
theories/SpecPrint.v
theories/PrintProofs.v
theories/PrintRound.v
theories/PrintValue.v
theories/PrintText.v
theories/PrintFinal.v
theories/Prop_Print.v
theories/PrintInt.v
theories/PrintFixed.v
theories/SpecFixed.v
theories/FixedText.v
theories/FixedChunks.v
theories/FixedProofs.v
theories/FixedFinal.v
theories/Prop_Fixed.v
theories/SpecFlocq.v
theories/FlocqOps.v
theories/Prop_Flocq.v
theories/LogTable.v
theories/Log.v
theories/FpProofs.v
theories/LogProofs.v
theories/LnBound.v
theories/SpecLog.v
theories/LogReal.v
theories/LogUlp.v
theories/LogRound.v
theories/LogFinal.v
theories/Prop_Log.v
theories/Consts.v
theories/ConstProofs.v
theories/FieldProofs.v
theories/Prop_Const.v
theories/BigFloat.v
theories/SpecBig.v
theories/BigFloatProofs.v
theories/BigReal.v
theories/BigRefute.v
theories/Prop_Big.v
theories/TrigTable.v
theories/Trig.v
theories/SpecTrig.v
theories/TrigPi.v
theories/TrigApprox.v
theories/TrigReduce.v
theories/TrigReal.v
theories/TrigFinal.v
theories/TrigSym.v
theories/TrigTan.v
theories/Prop_Trig.v
theories/BigExact.v
theories/BigMulExact.v
theories/BigMulAdd.v
theories/Prop_BigExact.v
