-Q theories Verif
theories/GoBase.v
theories/Sm3Spec.v
theories/Sm3.v
theories/Sm3Proofs.v
theories/Sm3Main.v
theories/PropsSm3.v
theories/Sm4Spec.v
theories/Sm4.v
theories/Sm4Proofs.v
theories/Util.v
theories/PropsSm4Util.v
theories/BeMin.v
theories/CbString.v
theories/CbStringProofs.v
theories/PropsCbString.v
theories/CbBuilder.v
theories/CbBuilderProofs.v
theories/CbBuilderFixed.v
theories/CbBuilderGen.v
theories/PropsCbBuilder.v
theories/CbAsn1Proofs.v
theories/PropsCbAsn1.v
theories/Primes.v
theories/Sm2Primes.v
theories/WeiGroup.v
theories/FpField.v
theories/GoElliptic.v
theories/Sm2Group.v
theories/Sm2Order.v
theories/Sm2Spec.v
theories/Sm2.v
theories/Sm2Proofs.v
theories/Sm2Proofs2.v
theories/PropsCurve.v
theories/PropsSm2.v
theories/GoAsn1.v
theories/GoAsn1Proofs.v
theories/Sm2Der.v
theories/PropsSm2Der.v
theories/KexSpec.v
theories/KeyExchange.v
theories/KexCert.v
theories/PropsKex.v
theories/GoText.v
theories/GoPkix.v
theories/CertText.v
theories/Cert.v
theories/PropsCertText.v
theories/CertRt.v
theories/PropsCertExt.v
theories/PropsCertNames.v
theories/PropsCertSan.v
theories/PropsCertBuild.v
theories/PropsCertTime.v
theories/PropsCertDN.v
theories/CertRt2.v
theories/PropsCert.v
theories/PropsCertReq.v
theories/PropsCertSafe.v
theories/PropsCbTime.v
theories/PropsSm2Sec.v
theories/PropsCertParse.v
theories/PropsCertParts.v
theories/Sm2VecCert.v
theories/KexVecCert.v
theories/Vectors.v
theories/Sm2Cubic.v
theories/Sm2Cyclic.v
theories/PropsSm2Full.v
theories/DerIff.v
theories/PropsCertDecode.v
theories/PropsCertAttr.v
theories/PropsCertGrammar.v
theories/PropsSm2Weak.v
theories/PropsSm3Hist.v
theories/PropsSm4Modes.v
theories/PropsSm2Uniform.v
theories/Sm2Mem.v
theories/PropsSm2Mem.v
theories/PropsSm2Bind.v
theories/PropsCertWhen.v
theories/PropsCertFlow.v
theories/CertMem.v
theories/PropsCertMem.v
theories/Sm2Reader.v
theories/PropsReader.v
theories/Sm2Conc.v
theories/PropsSm2Conc.v
theories/ConcMem.v
theories/SmConc.v
theories/SmConcAlone.v
theories/PropsSmConc.v
theories/CbMem.v
theories/CbMemFrame.v
theories/CbMemSim.v
theories/PropsCbMem.v
theories/CbStrMem.v
theories/CbStrMemSim.v
theories/PropsCbStrMem.v
theories/CbWidth.v
theories/PropsCbWidth.v
theories/PropsCbTags.v
theories/CertShare.v
theories/PropsCertShare.v
theories/PropsDerTwo.v
theories/PropsDerWrite.v
theories/PropsKexPanic.v
theories/PropsSmText.v
theories/KexMem.v
theories/PropsKexMem.v
theories/CertInfoMem.v
theories/PropsCertInfoMem.v
theories/PropsSm2Text.v
theories/SmConcMode.v
theories/SmConcModeAlone.v
theories/PropsSmConcMode.v
theories/Sm2Nil.v
theories/PropsSm2Nil.v
theories/PropsSm2Shared.v
theories/GoHmac.v
theories/PropsHmac.v
theories/PropsSm4Cut.v
theories/CertNil.v
theories/PropsCertNil.v
theories/PropsCertRaw.v
theories/CertConc.v
theories/PropsCertConc.v
theories/GoStream.v
theories/PropsSm4Stream.v
theories/GoGcm.v
theories/PropsSm4Gcm.v
theories/Assumptions.v
