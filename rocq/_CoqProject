-Q theories Verif
theories/AeadModel.v
theories/AeadProofs.v
theories/AeadSpec.v
theories/AmethModel.v
theories/Asn1Model.v
theories/BlockLoop.v
theories/Bytes.v
theories/BytesProofs.v
theories/CmsEnvModel.v
theories/CmsEnvSpec.v
theories/CmsParamsModel.v
theories/CryptModel.v
theories/CryptProofs.v
theories/CryptSpec.v
theories/CtlModel.v
theories/DupModel.v
theories/DupProofs.v
theories/DupSpec.v
theories/EcConstModel.v
theories/EcConstProofs.v
theories/EcCoordMain.v
theories/EcCoordModel.v
theories/EcCoordProofs.v
theories/EcCoordZero.v
theories/EcCurveProofs.v
theories/EcCurveSpec.v
theories/EcFormulaModel.v
theories/EcFormulaProofs.v
theories/EcFormulaSpec.v
theories/EcInvModel.v
theories/EcInvProofs.v
theories/EcLadderModel.v
theories/EcLadderProofs.v
theories/EcLegacyProofs.v
theories/EcLegacyRaw.v
theories/EcLut256A.v
theories/EcLut512A.v
theories/EcLut512B.v
theories/EcLut512C.v
theories/EcLutA.v
theories/EcLutB.v
theories/EcLutC.v
theories/EcLutTest.v
theories/EcModel.v
theories/EcProofs.v
theories/EcSpec.v
theories/EcTableCheck.v
theories/EcTableChk256A.v
theories/EcTableChk512A.v
theories/EcTableChk512B.v
theories/EcTableChk512C.v
theories/EcTableChkA.v
theories/EcTableChkB.v
theories/EcTableChkC.v
theories/EcTableChkTest.v
theories/EcTableMain.v
theories/EcTableModel.v
theories/EcTableProofs.v
theories/EcWit256A.v
theories/EcWit512A.v
theories/EcWit512An.v
theories/EcWit512B.v
theories/EcWit512C.v
theories/EcWit512Cn.v
theories/EcWitA.v
theories/EcWitB.v
theories/EcWitC.v
theories/EcWitTest.v
theories/EngLaws.v
theories/EngModel.v
theories/EngProofs.v
theories/EngSpec.v
theories/EraseModel.v
theories/EraseProofs.v
theories/EraseSpec.v
theories/FieldZp.v
theories/Gf2.v
theories/Gost89ModeProofs.v
theories/Gost89Model.v
theories/Gost89Proofs.v
theories/Gost89Sboxes.v
theories/Gost89Spec.v
theories/Gost89SpecProofs.v
theories/Hash94Model.v
theories/Hash94Proofs.v
theories/Hash94Spec.v
theories/ImitProofs.v
theories/IntPoly.v
theories/KdfModel.v
theories/KdfProofs.v
theories/KdfSpec.v
theories/KexpModel.v
theories/KexpSpec.v
theories/KeyTransAsn1.v
theories/KeyTransAsn1Proofs.v
theories/KeyTransModel.v
theories/KeyTransProofs.v
theories/KeyTransSpec.v
theories/KeywrapModel.v
theories/KeywrapSpec.v
theories/KuzBlockProofs.v
theories/KuzCipherModel.v
theories/KuzCipherSpec.v
theories/KuzModeProofs.v
theories/KuzModel.v
theories/KuzProofs.v
theories/KuzSpec.v
theories/KuzTables.v
theories/LeakMgm.v
theories/LeakModel.v
theories/LeakProofs.v
theories/LeakRefine.v
theories/LeakRefine2.v
theories/LeakRefine3.v
theories/MagmaProofs.v
theories/MemAuth.v
theories/MemAuthModel.v
theories/MemCrypt.v
theories/MemKuz.v
theories/MemModel.v
theories/MemProofs.v
theories/MgmFieldProofs.v
theories/MgmModel.v
theories/MgmProofs.v
theories/MgmSpec.v
theories/OmacModel.v
theories/OmacProofs.v
theories/OmacSpec.v
theories/ParamsModel.v
theories/ParamsSpec.v
theories/PkeyObjModel.v
theories/PkeyObjProofs.v
theories/PkeyObjSpec.v
theories/PmethModel.v
theories/PropAead.v
theories/PropAeadCms.v
theories/PropAmeth.v
theories/PropCms.v
theories/PropCmsEnv.v
theories/PropCrypt.v
theories/PropCrypt2.v
theories/PropCtl.v
theories/PropDup.v
theories/PropEc.v
theories/PropEcCoord.v
theories/PropEcFormula.v
theories/PropEcSig.v
theories/PropEcTable.v
theories/PropEng.v
theories/PropErase.v
theories/PropEraseFrames.v
theories/PropGost89.v
theories/PropHash94.v
theories/PropImit.v
theories/PropInplace.v
theories/PropKdf.v
theories/PropKexp.v
theories/PropKeyTrans.v
theories/PropKeyTrans2.v
theories/PropKeywrap.v
theories/PropKuz.v
theories/PropKuzModes.v
theories/PropLeak.v
theories/PropLeakMgm.v
theories/PropLeakMgm2.v
theories/PropLeakRefine.v
theories/PropMgm.v
theories/PropOmac.v
theories/PropOmacAcpkm.v
theories/PropParams.v
theories/PropPkeyObj.v
theories/PropPmeth.v
theories/PropProvCipher.v
theories/PropProvDigest.v
theories/PropProvMac.v
theories/PropStreebog.v
theories/PropSum.v
theories/PropTls.v
theories/PropTlsKuz.v
theories/PropVko.v
theories/ProvCipherLaws.v
theories/ProvCipherModel.v
theories/ProvCipherProofs.v
theories/ProvCipherSpec.v
theories/ProvDigestModel.v
theories/ProvDigestSpec.v
theories/ProvMacModel.v
theories/ProvMacSpec.v
theories/SmallCurve.v
theories/StreamMode.v
theories/StreebogModel.v
theories/StreebogProofs.v
theories/StreebogSpec.v
theories/StreebogTables.v
theories/SumModel.v
theories/SumSpec.v
theories/ToyGroup.v
