-Q theories Verif
theories/RingPow.v
theories/NumTheory.v
theories/Primes.v
theories/SpecField.v
theories/FieldProof.v
theories/TowerProof.v
theories/ModelWord.v
theories/ModelPrim.v
theories/ModelScalar.v
theories/ModelFp.v
theories/X86.v
theories/AsmCode.v
theories/AsmTac.v
theories/AsmProof1.v
theories/AsmProof2.v
theories/AsmProof3.v
theories/AsmProof4.v
theories/SpecBytes.v
theories/ScalarProof.v
theories/BytesProof.v
theories/FpProof.v
theories/PortArith.v
theories/CarryProof.v
theories/MaddProof.v
theories/ScalarProof2.v
theories/ModelDiv.v
theories/DivProof.v
theories/FpProof2.v
theories/FpCodec.v
theories/AsmSpec.v
theories/ModelTower.v
theories/PowTwo.v
theories/TowerProof2.v
theories/TowerRefine.v
theories/TowerRefine2.v
theories/TowerRefine3.v
theories/SpecCurve.v
theories/AbGroup.v
theories/CurveProof.v
theories/ModelCurve.v
theories/CurveRefine.v
theories/CurveRefine2.v
theories/CurveInst.v
theories/CurveBase.v
theories/CurveMaps.v
theories/Endo.v
theories/CurveReps.v
theories/I63.v
theories/I63b.v
theories/SubgroupProof.v
theories/GenProof.v
theories/GroupCount.v
theories/Primes2.v
theories/Orders.v
theories/Cofactor.v
theories/SpecCodec.v
theories/ModelCodec.v
theories/CodecProof.v
theories/CodecProof2.v
theories/SpecHash.v
theories/ModelSha.v
theories/ShaProof.v
theories/ModelKdf.v
theories/KdfProof.v
theories/SpecKeys.v
theories/ModelKeys.v
theories/KeysProof.v
theories/PairCocycle.v
theories/PairLine.v
theories/PairField.v
theories/PairUnits.v
theories/PairTwist.v
theories/PairBilin.v
theories/ModelPairing.v
theories/PairSteps.v
theories/PairFinal.v
theories/PairLoop.v
theories/PairComp.v
theories/SpecPairing.v
theories/PairSpec.v
theories/SpecMap.v
theories/ModelMap.v
theories/MapProof.v
theories/MapComp.v
theories/MapConst.v
theories/MapG1.v
theories/MapG2.v
theories/SpecSig.v
theories/ModelSig.v
theories/SigProof.v
theories/ModelMem.v
theories/MemProof.v
theories/MemDiv.v
theories/MemDiv2.v
theories/MemCurve.v
theories/MemSha.v
theories/MemHex.v
theories/SpecAlias.v
theories/ModelAlias.v
theories/AliasProof.v
theories/SpecOrder.v
theories/ModelLimb.v
theories/LimbProof.v
theories/SpecYield.v
theories/ModelYield.v
theories/YieldProof.v
theories/ModelMisc.v
theories/MiscProof.v
theories/ModelHeap.v
theories/HeapProof.v
theories/ModelLeak.v
theories/LeakProof.v
theories/HashCert.v
theories/HashVec.v
theories/SpecWire.v
theories/WireProof.v
theories/HashVec2.v
theories/WireProof2.v
theories/DivProof2.v
theories/InvLeak.v
theories/InvWide.v
theories/TotalProof.v
theories/WideProof.v
theories/ModelTrace.v
theories/TraceProof.v
theories/ModelDivLog.v
theories/DivLogProof.v
theories/SpecCount.v
theories/MapCount.v
theories/MapCount2.v
theories/MapCount3.v
theories/MapCount4.v
theories/SpecCollide.v
theories/CollideProof.v
theories/ModelLimbLib.v
theories/SpecLimb.v
theories/LibProof1.v
theories/LibProof2.v
theories/LibProof3.v
theories/LibProof4.v
theories/LibProof5.v
theories/PortAgree.v
theories/SpecThreshold.v
theories/ThresholdProof.v
theories/Properties_Primes.v
theories/Properties_Asm.v
theories/Properties_Fp.v
theories/Properties_Tower.v
theories/Properties_Scalar.v
theories/Properties_Curve.v
theories/Properties_Subgroup.v
theories/Properties_Codec.v
theories/Properties_Hash.v
theories/Properties_Keys.v
theories/Properties_Pairing.v
theories/Properties_Map.v
theories/Properties_Sig.v
theories/Properties_Mem.v
theories/Properties_Alias.v
theories/Properties_Limb.v
theories/Properties_Yield.v
theories/Properties_Const.v
theories/Properties_Misc.v
theories/Properties_Heap.v
theories/Properties_Leak.v
theories/Properties_Wire.v
theories/KeysExact.v
theories/Properties_Scheme.v
theories/Properties_Wire2.v
theories/Properties_Leak2.v
theories/Properties_Total.v
theories/Properties_Wide.v
theories/Properties_Trace.v
theories/Properties_DivLog.v
theories/Properties_Count.v
theories/Properties_Collide.v
theories/Properties_Lib.v
theories/Properties_Aug.v
theories/Properties_Port.v
theories/Properties_Threshold.v
theories/Properties_Batch.v
