-Q theories Verif
theories/Base.v
theories/BaseFacts.v
theories/Words.v
theories/Spec_SM3.v
theories/SM3.v
theories/SM3Facts.v
theories/SM3Hist.v
theories/Prop_SM3.v
theories/SM4.v
theories/Spec_SM4.v
theories/SM4Facts.v
theories/Prop_SM4.v
theories/AES.v
theories/Spec_AES.v
theories/AESFacts.v
theories/Prop_AES.v
theories/NumTheory.v
theories/Curves.v
theories/ECKey.v
theories/LucasFacts.v
theories/Pocklington.v
theories/Primes1.v
theories/Primes2.v
theories/Primes3.v
theories/Spec_EC.v
theories/ECFacts.v
theories/ECFacts2.v
theories/Prop_EC.v
theories/Keypair.v
theories/Spec_Keys.v
theories/KeyFacts.v
theories/Prop_Keys.v
theories/Prop_Keys2.v
theories/Spec_SHA2.v
theories/Spec_WIF.v
theories/Prop_WIF.v
theories/Spec_GCM.v
theories/Encrypt.v
theories/EncryptFacts.v
theories/Prop_Encrypt.v
theories/Spec_Names.v
theories/Prop_Names.v
theories/Prop_Eth.v
theories/Signature.v
theories/Spec_Sig.v
theories/SigFacts.v
theories/Prop_Sig.v
theories/Prop_Sig2.v
theories/Prop_Sig3.v
theories/Spec_Group.v
theories/SM2Sig.v
theories/Spec_SM2.v
theories/Prop_SM2.v
theories/Prop_SM2b.v
theories/SM2Enc.v
theories/Spec_SM2Enc.v
theories/SM2EncFacts.v
theories/Prop_SM2Enc.v
theories/Prop_SM2Enc2.v
theories/Prop_SM2Enc3.v
theories/VRF.v
theories/Spec_VRF.v
theories/VRFFacts.v
theories/VRFFacts2.v
theories/Prop_VRF.v
theories/Prop_VRF2.v
theories/Prop_VRF3.v
theories/Mem.v
theories/Prop_Mem.v
theories/Prop_Mem2.v
theories/P256.v
theories/Spec_P256.v
theories/P256Booth.v
theories/Prop_P256.v
theories/P256Inv.v
theories/Prop_P256b.v
theories/Spec_P256b.v
theories/P256Sched.v
theories/P256Sched2.v
theories/Prop_P256c.v
theories/CurveLaw.v
theories/CurveZ.v
theories/CurveSub.v
theories/ChainSM2.v
theories/CurveSM2.v
theories/CurveRoot.v
theories/RootSM2.v
theories/P256Point.v
theories/P256PointFacts.v
theories/Prop_P256d.v
theories/AsmX86.v
theories/AsmSM2.v
theories/AsmFacts.v
theories/AsmMul.v
theories/AsmInt.v
theories/AsmOrd.v
theories/AsmMisc.v
theories/Spec_Asm.v
theories/AsmRun.v
theories/AsmSel.v
theories/AsmVal.v
theories/AsmPoint.v
theories/AsmAff.v
theories/AsmLink.v
theories/AsmEq.v
theories/Prop_Asm.v
theories/Spec_AsmClean.v
theories/AsmFix.v
theories/AsmSim.v
theories/AsmWit.v
theories/Prop_Asm2.v
theories/Spec_AsmTrace.v
theories/AsmTrace.v
theories/Prop_Trace.v
theories/Generate.v
theories/Spec_Gen.v
theories/GenFacts.v
theories/Prop_Gen.v
theories/Prop_SM2Enc4.v
theories/Prop_VRF4.v
theories/Elliptic.v
theories/EllipticFacts.v
theories/Prop_Elliptic.v
theories/SM2Generic.v
theories/Prop_Generic.v
theories/ChainP256.v
theories/RootP256.v
theories/CurveWhole.v
theories/Prop_Whole.v
theories/Spec_ECDSA.v
theories/ECDSA.v
theories/ECDSAFacts.v
theories/Prop_ECDSA.v
theories/Prop_ECDSA2.v
theories/SigWhole.v
theories/Prop_SigWhole.v
theories/Spec_VRF2.v
theories/Prop_VRF5.v
theories/WIFMem.v
theories/Spec_WIFMem.v
theories/WIFMemFacts.v
theories/Prop_WIFMem.v
theories/ChainS256.v
theories/CurveK.v
theories/Btcec.v
theories/Spec_Btcec.v
theories/BtcecFacts.v
theories/Prop_Btcec.v
theories/BtcecWhole.v
theories/Prop_BtcecWhole.v
theories/Eth.v
theories/Spec_EthSig.v
theories/EthFacts.v
theories/Prop_EthSig.v
theories/EdLaw.v
theories/Primes4.v
theories/EdZ.v
theories/Ed25519.v
theories/ChainEd.v
theories/EdCurve.v
theories/Spec_Ed25519.v
theories/Ed25519Facts.v
theories/Prop_Ed25519.v
theories/Spec_Life.v
theories/Prop_Life.v
theories/Nonce.v
theories/Spec_Nonce.v
theories/Prop_Nonce.v
theories/Primes5.v
theories/ChainP224.v
theories/RootP224.v
theories/CurveP224.v
theories/Prop_P224.v
theories/EdOrder.v
theories/Spec_EdOrder.v
theories/Prop_EdOrder.v
theories/MemObj.v
theories/Prop_MemObj.v
theories/Entropy.v
theories/Spec_Entropy.v
theories/Prop_Entropy.v
theories/Scrypt.v
theories/Spec_Scrypt.v
theories/ScryptFacts.v
theories/Prop_Scrypt.v
theories/ModInv.v
theories/Prop_ModInv.v
theories/Wallet.v
theories/Prop_Wallet.v
theories/Prop_AsmSig.v
theories/Prop_Wallet2.v
theories/SigAmd.v
theories/Prop_Amd.v
theories/Prop_Reuse.v
theories/Prop_Leak.v
theories/Prop_Subst.v
theories/Prop_Dup.v
theories/Prop_SubstK.v
theories/Prop_Repeat.v
theories/Prop_Repeat2.v
theories/Prop_OrdSqr.v
theories/Prop_EncReuse.v
theories/Prop_WalletLeak.v
