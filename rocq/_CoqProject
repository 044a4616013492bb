-Q theories Verif
theories/CInt.v
theories/BitLemmas.v
theories/FloatSpec.v
theories/FloatProofs.v
theories/Fp16.v
theories/Fp16Spec.v
theories/Fp16Proofs.v
theories/PropFp16.v
theories/Ufp.v
theories/UfpSpec.v
theories/UfpProofs.v
theories/PropUfp.v
theories/ScalarOps.v
theories/ScalarSpec.v
theories/ScalarProofs.v
theories/PropScalar.v
theories/FloatClass.v
theories/PropFloatClass.v
theories/RoundEven.v
theories/RoundEvenSpec.v
theories/RoundEvenProofs.v
theories/RoundEvenF16.v
theories/PropRound.v
theories/CpuSimd.v
theories/CpuSimdSpec.v
theories/CpuSimdProofs.v
theories/CpuSimdMem.v
theories/CpuSimdLoop.v
theories/PropCpuSimd.v
theories/Pack.v
theories/PackSpec.v
theories/PackProofs.v
theories/PackProofs2.v
theories/PropPack.v
theories/Memory.v
theories/MemorySpec.v
theories/MemoryProofs.v
theories/PropMemory.v
theories/Gpu.v
theories/GpuProofs.v
theories/PropGpu.v
theories/Tet1d.v
theories/Tet1dSpec.v
theories/Tet1dProofs.v
theories/PropTet1d.v
theories/Spmd.v
theories/SpmdSpec.v
theories/SpmdProofs.v
theories/SpmdTerm.v
theories/PropSpmd.v
theories/Random.v
theories/RandomSpec.v
theories/RandomProofs.v
theories/RandomTf.v
theories/RandomBij.v
theories/PropRandom.v
theories/FixedPoint.v
theories/FixedPointSpec.v
theories/FixedPointConv.v
theories/FixedPointProofs.v
theories/FixedPointAlg.v
theories/FixedPointLog.v
theories/PropFixedPoint.v
theories/X86Shuffle.v
theories/X86Deg234.v
theories/X86ShuffleSpec.v
theories/X86ShuffleProofs.v
theories/PropX86Shuffle.v
theories/X86Arith.v
theories/X86ArithSpec.v
theories/X86LaneLemmas.v
theories/X86ArithProofs.v
theories/X86EmulProofs.v
theories/X86LogicProofs.v
theories/X86SelectProofs.v
theories/X86RedProofs.v
theories/X86FmaProofs.v
theories/PropX86Arith.v
theories/X86Perm.v
theories/X86PermSpec.v
theories/X86PermProofs.v
theories/PropX86Perm.v
theories/X86Mem.v
theories/X86MemSpec.v
theories/X86MemProofs.v
theories/X86MemProofs2.v
theories/PropX86Mem.v
theories/PropCpuLanes.v
theories/X86Cvt.v
theories/X86CvtSpec.v
theories/X86CvtProofs.v
theories/X86CvtProofs2.v
theories/X86CvtProofs3.v
theories/X86CvtProofs4.v
theories/PropX86Cvt.v
theories/X86Float.v
theories/X86FloatSpec.v
theories/X86FloatProofs.v
theories/X86FloatProofs2.v
theories/X86FloatProofs3.v
theories/X86FloatProofs4.v
theories/X86FloatProofs5.v
theories/X86FloatProofs6.v
theories/X86FloatProofs7.v
theories/PropX86Float.v
theories/Arm.v
theories/ArmSpec.v
theories/ArmProofs.v
theories/ArmProofs2.v
theories/ArmProofs3.v
theories/ArmProofs4.v
theories/PropArm.v
theories/ArmPerm.v
theories/ArmPermSpec.v
theories/ArmPermProofs.v
theories/PropArmPerm.v
theories/ArmMem.v
theories/ArmMemSpec.v
theories/ArmMemProofs.v
theories/ArmMemProofs2.v
theories/ArmMemProofs3.v
theories/PropArmMem.v
theories/ArmCvt.v
theories/ArmCvtSpec.v
theories/ArmCvtProofs.v
theories/ArmCvtProofs2.v
theories/PropArmCvt.v
theories/ArmFloat.v
theories/ArmFloatSpec.v
theories/ArmFloatProofs.v
theories/ArmFloatProofs2.v
theories/ArmFloatProofs3.v
theories/PropArmFloat.v
theories/FloatArith.v
theories/FloatArithSpec.v
theories/FloatArithProofs.v
theories/FloatArithProofs2.v
theories/FloatArithProofs3.v
theories/FloatArithProofs4.v
theories/FloatArithProofs5.v
theories/FloatArithProofs6.v
theories/ScalarFloat.v
theories/FloatArithProofs7.v
theories/FloatArithProofs8.v
theories/FloatArithProofs9.v
theories/PropFloatArith.v
theories/X86FloatArith.v
theories/ArmFloatArith.v
theories/CpuFloatArith.v
theories/CpuFloatSpec.v
theories/FloatVecSpec.v
theories/FloatVecOps.v
theories/FloatVecProofs.v
theories/FloatVecProofs2.v
theories/PropX86FloatArith.v
theories/PropArmFloatArith.v
theories/PropCpuFloat.v
theories/PropFloatAgree.v
theories/Ppc.v
theories/PpcSpec.v
theories/PpcProofs.v
theories/PpcProofs2.v
theories/PpcProofs3.v
theories/PropPpc.v
theories/PpcMem.v
theories/PpcMemSpec.v
theories/PpcMemProofs.v
theories/PpcMemProofs2.v
theories/PpcMemProofs3.v
theories/PpcMemProofs4.v
theories/PropPpcMem.v
theories/PpcCvt.v
theories/PpcCvtSpec.v
theories/PpcCvtProofs.v
theories/PpcCvtProofs2.v
theories/PropPpcCvt.v
theories/PpcFloat.v
theories/PpcFloatSpec.v
theories/PpcFloatProofs.v
theories/PpcFloatProofs2.v
theories/PpcFloatProofs3.v
theories/PropPpcFloat.v
theories/PropPpcFloatArith.v
theories/ScalarBits.v
theories/Device.v
theories/DeviceSpec.v
theories/DeviceProofs.v
theories/DeviceProofs2.v
theories/PropDevice.v
theories/Portable.v
theories/PortableSpec.v
theories/PortableProofs.v
theories/PortableProofs2.v
theories/PortableProofs3.v
theories/PortableProofs4.v
theories/PortableProofs5.v
theories/PropPortable.v
theories/Loop.v
theories/LoopSpec.v
theories/LoopProofs.v
theories/LoopProofs2.v
theories/LoopProofs3.v
theories/PropLoop.v
theories/FPortable.v
theories/FPortableSpec.v
theories/FPortableProofs.v
theories/FPortableProofs2.v
theories/FPortableProofs3.v
theories/FPortableProofs4.v
theories/FPortableProofs5.v
theories/PropFPortable.v
theories/FLoop.v
theories/FLoopSpec.v
theories/FLoopProofs.v
theories/FLoopProofs2.v
theories/PropFLoop.v
theories/SleefBase.v
theories/Sleef.v
theories/SleefSpec.v
theories/SleefProofs.v
theories/SleefProofs2.v
theories/SleefProofs3.v
theories/SleefProofs4.v
theories/SleefProofs5.v
theories/SleefProofs6.v
theories/PropSleefExp.v
theories/PropSleefLog.v
theories/PropSleefPow.v
theories/PropSleefHyp.v
theories/SleefProofs7.v
theories/SleefProofs8.v
theories/PropSleefInv.v
theories/PropSleefSpecial.v
theories/PropSleefPi.v
theories/SleefProofs9.v
theories/PropSleefTrig.v
theories/SleefRem.v
theories/SleefProofs10.v
theories/SleefProofs11.v
theories/SleefProofs12.v
theories/SleefProofs13.v
theories/SleefProofs14.v
theories/SleefProofs15.v
theories/SleefProofs16.v
theories/PropSleefRem.v
theories/PropSleefPowers.v
theories/SleefApi.v
theories/PropSleefApi.v
