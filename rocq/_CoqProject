-Q theories Verif
theories/Base.v
theories/BaseFacts.v
theories/GoStr.v
theories/Rx.v
theories/RxFacts.v
theories/Prime.v
theories/ECGroup.v
theories/Secp.v
theories/SecpPrime.v
theories/Fp.v
theories/SpecEC.v
theories/SecpGroup.v
theories/SecpOrder.v
theories/SecpFacts.v
theories/Prims.v
theories/Bip39.v
theories/Base58.v
theories/GoStrFacts.v
theories/SpecBip39.v
theories/Bip39Facts.v
theories/Bip39Facts2.v
theories/Hash.v
theories/HashFacts.v
theories/WordLists.v
theories/WlChineseSimplified.v
theories/WlChineseTraditional.v
theories/WlCzech.v
theories/WlEnglish.v
theories/WlFrench.v
theories/WlItalian.v
theories/WlJapanese.v
theories/WlKorean.v
theories/WlPortuguese.v
theories/WlSpanish.v
theories/Bip39Sys.v
theories/Bip39SysFacts.v
theories/UtilMnemonic.v
theories/HexFacts.v
theories/UtilMnemonicFacts.v
theories/Abandon.v
theories/Bip39Init.v
theories/Bip39InitFacts.v
theories/AllLists.v
theories/Claims39.v
theories/Props39.v
theories/Base58Facts.v
theories/Bip32Path.v
theories/Bip32Reg.v
theories/Bip32.v
theories/SpecBip32.v
theories/Bip32RegFacts.v
theories/Bip32KeyFacts.v
theories/Bip32Facts.v
theories/SpecPath.v
theories/Bip32PathFacts.v
theories/Bip32Facts2.v
theories/Bip32PrefixFacts.v
theories/Claims32.v
theories/Props32.v
theories/ClaimsPath.v
theories/PropsPath.v
theories/Cert130.v
theories/SpecUtil.v
theories/Util.v
theories/Generator.v
theories/GeneratorFacts.v
theories/UtilFacts.v
theories/ClaimsUtil.v
theories/PropsUtil.v
theories/Bip44.v
theories/Bip44Coins.v
theories/Slip44.v
theories/SpecCoins.v
theories/Bip44Facts.v
theories/Bip44MdFacts.v
theories/SpecText.v
theories/GoStrLit.v
theories/GoStrLitFacts.v
theories/ClaimsText.v
theories/PropsText.v
theories/Claims44.v
theories/Props44.v
theories/ClaimsCross.v
theories/PropsCross.v
theories/Mem.v
theories/SpecMem.v
theories/MemFacts.v
theories/ClaimsMem.v
theories/PropsMem.v
theories/Ui.v
theories/SpecUi.v
theories/UiFacts.v
theories/UiFacts2.v
theories/ClaimsUi.v
theories/PropsUi.v
theories/Slider.v
theories/SpecSlider.v
theories/SliderFacts.v
theories/ClaimsSlider.v
theories/PropsSlider.v
theories/ClaimsMore.v
theories/PropsMore.v
theories/Bip32Vars.v
theories/ClaimsVars.v
theories/PropsVars.v
theories/Vectors.v
theories/SpecWallet.v
theories/ClaimsWallet.v
theories/PropsWallet.v
theories/SpecHash.v
theories/GoHash.v
theories/GoHashFacts.v
theories/SpecHashFacts.v
theories/SpecSha2Facts.v
theories/SpecRmdFacts.v
theories/SpecKeccakFacts.v
theories/SpecPrims.v
theories/HashStdFacts.v
theories/ClaimsHash.v
theories/PropsHash.v
theories/SpecCodec.v
theories/GoCodec.v
theories/GoCodecFacts.v
theories/GoCrcFacts.v
theories/SpecCodecFacts.v
theories/CrcErrFacts.v
theories/ClaimsCodec.v
theories/PropsCodec.v
theories/Float.v
theories/FloatFacts.v
theories/SpecFloat.v
theories/RoundFacts.v
theories/FloatSlider.v
theories/FloatSliderFacts.v
theories/FloatHist.v
theories/ClaimsFloat.v
theories/PropsFloat.v
theories/GoField.v
theories/GoFieldFacts.v
theories/GoFieldBytes.v
theories/GoCurve.v
theories/GoCurveFacts.v
theories/ClaimsCurve.v
theories/PropsCurve.v
theories/QuadRec.v
theories/GoBig.v
theories/GoBigFacts.v
theories/ClaimsBig.v
theories/PropsBig.v
theories/GoRegexp.v
theories/SpecRegexp.v
theories/GoRegexpIn.v
theories/GoRegexpRun.v
theories/GoRegexpPike.v
theories/GoRegexpCode.v
theories/GoRegexpComp.v
theories/GoRegexpSimp.v
theories/GoRegexpMain.v
theories/GoRegexpLink.v
theories/GoRegexpOne.v
theories/GoRegexpSpace.v
theories/GoRegexpParse.v
theories/GoRegexpParseFacts.v
theories/ClaimsRegexp.v
theories/PropsRegexp.v
theories/Bip39ListFacts.v
theories/ClaimsAny.v
theories/PropsAny.v
theories/GoRand.v
theories/SpecRand.v
theories/GoRandFacts.v
theories/ClaimsRand.v
theories/PropsRand.v
theories/SpecNat.v
theories/GoNat.v
theories/GoNatFacts.v
theories/GoNatOps.v
theories/GoNatKara.v
theories/GoNatWW.v
theories/GoNatDiv.v
theories/GoNatBytes.v
theories/GoNatExp.v
theories/GoNatUse.v
theories/GoNatUseFacts.v
theories/ClaimsNat.v
theories/PropsNat.v
theories/GoFmt.v
theories/SpecFmt.v
theories/GoFmtFacts.v
theories/ClaimsFmt.v
theories/PropsFmt.v
theories/GoWhole.v
theories/GoWholeFacts.v
theories/ClaimsWhole.v
theories/PropsWhole.v
theories/GoSort.v
theories/GoSortFacts.v
theories/GoScript.v
theories/GoScriptFacts.v
theories/ClaimsSort.v
theories/PropsSort.v
theories/UiWhole.v
theories/SpecUiWhole.v
theories/UiWholeFacts.v
theories/ClaimsUiWhole.v
theories/PropsUiWhole.v
theories/SpecPattern.v
theories/PatternFacts.v
theories/ClaimsPattern.v
theories/PropsPattern.v
theories/UiMotion.v
theories/SpecUiMotion.v
theories/UiMotionFacts.v
theories/ClaimsUiMotion.v
theories/PropsUiMotion.v
theories/GoRegexpSound.v
theories/GoRegexpExact.v
theories/ClaimsOnePass.v
theories/PropsOnePass.v
