-Q theories Verif
theories/Aes.v
theories/Aes2.v
theories/Aes3.v
theories/Aes4.v
theories/Aes5.v
theories/AesModel.v
theories/AesSpec.v
theories/AesTables.v
theories/Arc4.v
theories/Arc4Model.v
theories/Arc4Spec.v
theories/Base.v
theories/Base64.v
theories/Base64In.v
theories/Base64Model.v
theories/Base64Spec.v
theories/Bits.v
theories/Buf.v
theories/BufModel.v
theories/BufModes.v
theories/BufModes2.v
theories/BufModes3.v
theories/BufProps.v
theories/BufSpec.v
theories/Bytes.v
theories/BytesSpec.v
theories/Cert192k1.v
theories/Cert192r1.v
theories/Cert224k1.v
theories/Cert224r1.v
theories/Cert256k1.v
theories/Cert256r1.v
theories/Cmac.v
theories/Conc.v
theories/Conc2.v
theories/Conc3.v
theories/Conc4.v
theories/ConcInit.v
theories/ConcModel.v
theories/Crc.v
theories/CrcModel.v
theories/CrcSpec.v
theories/Des.v
theories/Des2.v
theories/Des3.v
theories/DesKey.v
theories/DesKeySpec.v
theories/DesModel.v
theories/DesSpec.v
theories/DesTables.v
theories/Det.v
theories/DetSpec.v
theories/DsaForge.v
theories/DsaForgeSpec.v
theories/DsaHash.v
theories/EcCurves.v
theories/EcCurvesModel.v
theories/EcCurvesSpec.v
theories/EcForge.v
theories/EcForgeSpec.v
theories/EcGroup.v
theories/EcNamed.v
theories/EcNamedSpec.v
theories/EcOrder.v
theories/EcPk.v
theories/EcRoot.v
theories/EcSpec.v
theories/EcZ.v
theories/Ecp.v
theories/EcpModel.v
theories/EcpMul.v
theories/EcpSpec.v
theories/EgForge.v
theories/FastMul.v
theories/Fermat.v
theories/Gcm.v
theories/GcmLong.v
theories/GcmModel.v
theories/GcmMul.v
theories/GcmSpec.v
theories/GcmUse.v
theories/GcmUseModel.v
theories/HashBase.v
theories/HashComp.v
theories/HashCtx.v
theories/HashCtxModel.v
theories/HashCtxSpec.v
theories/HashMd.v
theories/HashMd2.v
theories/HashModel.v
theories/HashSpec.v
theories/HashStream.v
theories/HashTables.v
theories/Hill.v
theories/HillModel.v
theories/HillSpec.v
theories/Hmac.v
theories/Hmac2.v
theories/HmacModel.v
theories/HmacSpec.v
theories/KeyEq.v
theories/Keygen.v
theories/KeygenCases.v
theories/KeygenDsa.v
theories/KeygenModel.v
theories/KeygenRsa.v
theories/KeygenRun.v
theories/KeygenSpec.v
theories/Lfsr.v
theories/Life.v
theories/Life2.v
theories/LifeModel.v
theories/LifeSpec.v
theories/Lists.v
theories/Mem.v
theories/MemAlgModel.v
theories/MemAlgSafe.v
theories/MemAlgSpec.v
theories/MemBin.v
theories/MemDiv.v
theories/MemDivA.v
theories/MemDivAll.v
theories/MemDivB.v
theories/MemDivC.v
theories/MemDivModel.v
theories/MemDivSafe.v
theories/MemDsa.v
theories/MemEcdsa.v
theories/MemEcp.v
theories/MemEcpFail.v
theories/MemEcpModel.v
theories/MemEcpMul.v
theories/MemEcpSpec.v
theories/MemElgamal.v
theories/MemExp.v
theories/MemFair.v
theories/MemGcd.v
theories/MemInv.v
theories/MemInv2.v
theories/MemKara.v
theories/MemLeaf.v
theories/MemLoc.v
theories/MemModel.v
theories/MemMul.v
theories/MemMulModel.v
theories/MemMulSafe.v
theories/MemOps.v
theories/MemPkFail.v
theories/MemPkModel.v
theories/MemPkSpec.v
theories/MemPkUse.v
theories/MemRec.v
theories/MemRsa.v
theories/MemRsaUse.v
theories/MemShift.v
theories/MemShr.v
theories/MemSim.v
theories/MemSpec.v
theories/MemSqrt.v
theories/MemToom.v
theories/Memxor.v
theories/MemxorModel.v
theories/Modes.v
theories/Modes2.v
theories/ModesModel.v
theories/ModesSpec.v
theories/ModesToy.v
theories/MpiAlg.v
theories/MpiAlg2.v
theories/MpiAlgModel.v
theories/MpiArith.v
theories/MpiCanon.v
theories/MpiConf.v
theories/MpiConfModel.v
theories/MpiDigits.v
theories/MpiDiv.v
theories/MpiDivModel.v
theories/MpiIO.v
theories/MpiIO2.v
theories/MpiIOModel.v
theories/MpiModel.v
theories/MpiMul.v
theories/MpiMul2.v
theories/MpiMulModel.v
theories/MpiRand.v
theories/MpiSpec.v
theories/MpiSqr.v
theories/MpiTextSpec.v
theories/MrBound.v
theories/MrDraws.v
theories/Nonce.v
theories/NumTh.v
theories/Peer.v
theories/Pk.v
theories/PkModel.v
theories/PkSpec.v
theories/Pock.v
theories/Poly2.v
theories/Poly2Spec.v
theories/Prng.v
theories/PrngModel.v
theories/PrngSpec.v
theories/PropAes.v
theories/PropArc4.v
theories/PropBase64.v
theories/PropBase64In.v
theories/PropBuf.v
theories/PropConc.v
theories/PropConf.v
theories/PropCrc.v
theories/PropDes.v
theories/PropDesKey.v
theories/PropDsaForge.v
theories/PropDsaHash.v
theories/PropEcForge.v
theories/PropEcNamed.v
theories/PropEcp.v
theories/PropGcm.v
theories/PropGcmUse.v
theories/PropHash.v
theories/PropHashCtx.v
theories/PropHill.v
theories/PropKeyEq.v
theories/PropKeygen.v
theories/PropLife.v
theories/PropMem.v
theories/PropMemAlg.v
theories/PropMemDiv.v
theories/PropMemEcp.v
theories/PropMemPk.v
theories/PropMemxor.v
theories/PropModes.v
theories/PropMpiAlg.v
theories/PropMpiArith.v
theories/PropMpiDiv.v
theories/PropMpiIO.v
theories/PropPeer.v
theories/PropPk.v
theories/PropPrime.v
theories/PropPrng.v
theories/PropRsaForge.v
theories/PropText.v
theories/PropTrivium.v
theories/PropWrap.v
theories/Rsa.v
theories/Rsa2.v
theories/RsaForge.v
theories/TextIn.v
theories/TextSpec.v
theories/Trivium.v
theories/Trivium2.v
theories/TriviumModel.v
theories/TriviumSpec.v
theories/Wrap.v
theories/Wrap2.v
theories/WrapModel.v
theories/WrapSpec.v
