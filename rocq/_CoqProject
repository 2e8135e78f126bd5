-Q theories Verif
theories/Base.v
theories/Hex.v
theories/BaseFacts.v
theories/Hist.v
theories/HistCt.v
theories/HistGen.v
theories/HistSound.v
theories/HistStream.v
theories/HistUnwind.v
theories/HistUnwindHash.v
theories/M_Aes.v
theories/M_ChaCha20.v
theories/M_CtAead.v
theories/M_CtBase.v
theories/M_CtCurve.v
theories/M_CtHash.v
theories/M_Curve25519.v
theories/M_Ed25519.v
theories/M_EdConst.v
theories/M_FeProg.v
theories/M_Gcm.v
theories/M_Ghash.v
theories/M_Hkdf.v
theories/M_Hmac.v
theories/M_Poly1305.v
theories/M_ScProg.v
theories/M_Sha2.v
theories/M_Slp.v
theories/M_Unwind.v
theories/M_UnwindHash.v
theories/M_Util.v
theories/Mono.v
theories/P_Aes.v
theories/P_Ccp.v
theories/P_CcpAuth.v
theories/P_CcpCca.v
theories/P_CcpForge.v
theories/P_CcpGame.v
theories/P_CcpWin.v
theories/P_ChaCha.v
theories/P_Checked.v
theories/P_CheckedEd.v
theories/P_Commit.v
theories/P_CtAead.v
theories/P_CtBase.v
theories/P_CtCurve.v
theories/P_CtHash.v
theories/P_CtHist.v
theories/P_CtSign.v
theories/P_Ctr.v
theories/P_Ed25519.v
theories/P_EdBase.v
theories/P_EdBind.v
theories/P_EdDecode.v
theories/P_EdDouble.v
theories/P_EdNonCanon.v
theories/P_EdOrder.v
theories/P_EdSmall.v
theories/P_EdTable.v
theories/P_EdWit.v
theories/P_Edwards.v
theories/P_Fe.v
theories/P_FeBytes.v
theories/P_Field.v
theories/P_FieldInv.v
theories/P_Forge.v
theories/P_Forge2.v
theories/P_Gcm.v
theories/P_GcmAuth.v
theories/P_GcmCca.v
theories/P_GcmExt.v
theories/P_GcmForge.v
theories/P_GcmGame.v
theories/P_GcmPrp.v
theories/P_GcmWin.v
theories/P_Ge.v
theories/P_Ge2.v
theories/P_Gf128.v
theories/P_Gf2.v
theories/P_Ghash.v
theories/P_Hmac.v
theories/P_HmacGen.v
theories/P_Inv.v
theories/P_Long.v
theories/P_Md.v
theories/P_Md2.v
theories/P_Mono.v
theories/P_Mont.v
theories/P_Nonce.v
theories/P_Poly1305.v
theories/P_PolyExact.v
theories/P_PolyRare.v
theories/P_Prime.v
theories/P_Prime1305.v
theories/P_PrimeL.v
theories/P_PrimeP.v
theories/P_PrimeT.v
theories/P_Roots.v
theories/P_Sc.v
theories/P_Sha2.v
theories/P_Sha2Stream.v
theories/P_Slide.v
theories/P_Slp.v
theories/P_Stream.v
theories/P_Switch.v
theories/P_TwDh.v
theories/P_TwEd.v
theories/P_TwLow.v
theories/P_TwMont.v
theories/P_TwOrder.v
theories/P_TwOrder2.v
theories/P_Twist.v
theories/P_Unwind.v
theories/P_Unwind2.v
theories/P_Unwind3.v
theories/P_Unwind4.v
theories/P_UnwindHash.v
theories/P_Util.v
theories/P_X25519.v
theories/P_X25519b.v
theories/S_Aes.v
theories/S_CcpAdv.v
theories/S_CcpAuth.v
theories/S_CcpCca.v
theories/S_CcpForge.v
theories/S_CcpGame.v
theories/S_CcpWin.v
theories/S_ChaCha.v
theories/S_Ed25519.v
theories/S_Edwards.v
theories/S_Field.v
theories/S_Gcm.v
theories/S_GcmAuth.v
theories/S_GcmCca.v
theories/S_GcmForge.v
theories/S_GcmGame.v
theories/S_GcmPrp.v
theories/S_GcmWin.v
theories/S_Gf2.v
theories/S_Hmac.v
theories/S_Long.v
theories/S_Md.v
theories/S_PolyLazy.v
theories/S_Sha2.v
theories/S_Twist.v
theories/S_X25519.v
theories/T_Aes.v
theories/T_Attempts.v
theories/T_Ccp.v
theories/T_CcpAdv.v
theories/T_CcpBudget.v
theories/T_CcpCca.v
theories/T_CcpCommit.v
theories/T_CcpForge.v
theories/T_CcpGame.v
theories/T_CcpPrivacy.v
theories/T_ChaCha.v
theories/T_Channel.v
theories/T_Checked.v
theories/T_Commit.v
theories/T_Ct.v
theories/T_Ed25519.v
theories/T_EdExtract.v
theories/T_EdKeys.v
theories/T_EdOrder.v
theories/T_EdSim.v
theories/T_EdSmall.v
theories/T_Examples.v
theories/T_Forge.v
theories/T_Gcm.v
theories/T_GcmAes.v
theories/T_GcmBlocks.v
theories/T_GcmBudget.v
theories/T_GcmCca.v
theories/T_GcmGame.v
theories/T_GcmPrivacy.v
theories/T_GcmPrp.v
theories/T_Hash.v
theories/T_HmacGen.v
theories/T_Long.v
theories/T_Md.v
theories/T_Mono.v
theories/T_PolyExact.v
theories/T_PolyRare.v
theories/T_Reuse.v
theories/T_Twist.v
theories/T_Unwind.v
theories/T_UnwindHash.v
theories/T_X25519.v
