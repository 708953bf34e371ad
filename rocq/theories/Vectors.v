(** Vectors.v - the model evaluated on test vectors of /repo's own tests (bip32/bip32_test.go, bip39/bip39_test.go).
    These are tests of the model, not proofs about all inputs: they are here as evidence that the definitions say
    what the Go code does. Child keys and seeds need minutes each without a virtual machine and are left out; how to
    evaluate them is in DESIGN.md. *)
From Verif Require Import Base GoStr Prims Hash Base58 Bip32 WordLists WlEnglish Bip39.

(** hex.DecodeString of a literal: bip32/bip32_test.go:113, bip39/bip39_test.go:39 *)
Definition hx (s : bytes) : bytes := match HexDecode s with Some x => x | None => [] end.
(** bip32/bip32_test.go:116, 204: a master key and its base58 form *)
Definition master_vector (seed s : bytes) : bool :=
  match NewMasterKey RealPrims seed with
  | Ret (Some k, None) => bytes_eqb (KeyString RealPrims k) s && match B58Deserialize RealPrims s with Ret (k', None) => bytes_eqb k k' | _ => false end
  | _ => false
  end.
(** bip32/bip32_test.go:215-222: a string that is refused, and the error *)
Definition refused (s : bytes) (e : err) : bool :=
  match B58Deserialize RealPrims s, e with
  | Ret (_, Some ErrSerializedKeyWrongSize), ErrSerializedKeyWrongSize => true
  | Ret (_, Some ErrInvalidChecksum), ErrInvalidChecksum => true
  | _, _ => false
  end.
(** bip39/bip39_test.go:37-45, 76-84: entropy and mnemonic, both ways *)
Definition mnemonic_vector (entropy m : bytes) : bool :=
  match NewMnemonic RealPrims (SetWordList english_lines) entropy with
  | Ret (m', None) =>
      bytes_eqb m m' && IsMnemonicValid RealPrims (SetWordList english_lines) m &&
      match MnemonicToByteArray RealPrims (SetWordList english_lines) m true with (e, None) => bytes_eqb e entropy | _ => false end
  | _ => false
  end.

(** bip32/bip32_test.go:28, 61, 94, 198-200 *)
Example master_0 : master_vector (hx (B "000102030405060708090a0b0c0d0e0f"))
  (B "xprv9s21ZrQH143K3QTDL4LXw2F7HEK3wJUD2nW2nRk4stbPy6cq3jPPqjiChkVvvNKmPGJxWUtg6LnF5kejMRNNU3TGtRBeJgk33yuGBxrMPHi") = true.
Proof. vm_compute. reflexivity. Qed.
Example master_1 : master_vector (hx (B "fffcf9f6f3f0edeae7e4e1dedbd8d5d2cfccc9c6c3c0bdbab7b4b1aeaba8a5a29f9c999693908d8a8784817e7b7875726f6c696663605d5a5754514e4b484542"))
  (B "xprv9s21ZrQH143K31xYSDQpPDxsXRTUcvj2iNHm5NUtrGiGG5e2DtALGdso3pGz6ssrdK4PFmM8NSpSBHNqPqm55Qn3LqFtT2emdEXVYsCzC2U") = true.
Proof. vm_compute. reflexivity. Qed.
Example master_2 : master_vector (hx (B "4b381541583be4423346c643850da4b320e46a87ae3d2a4e6da11eba819cd4acba45d239319ac14f863b8d5ab5a0d0c64d2e8a1e7d1457df2e5a3c51c73235be"))
  (B "xprv9s21ZrQH143K25QhxbucbDDuQ4naNntJRi4KUfWT7xo4EKsHt2QJDu7KXp1A3u7Bi1j8ph3EGsZ9Xvz9dGuVrtHHs7pXeTzjuxBrCmmhgC6") = true.
Proof. vm_compute. reflexivity. Qed.
Example master_3 : master_vector (hx (B ""))
  (B "xprv9s21ZrQH143K4YUcKrp6cVxQaX59ZFkN6MFdeZjt8CHVYNs55xxQSvZpHWfojWMv6zgjmzopCyWPSFAnV4RU33J4pwCcnhsB4R4mPEnTsMC") = true.
Proof. vm_compute. reflexivity. Qed.
Example master_4 : master_vector (hx (B "01"))
  (B "xprv9s21ZrQH143K3YSbAXLMPCzJso5QAarQksAGc5rQCyZCBfw4Rj2PqVLFNgezSBhktYkiL3Ta2stLPDF9yZtLMaxk6Spiqh3DNFG8p8MVeEC") = true.
Proof. vm_compute. reflexivity. Qed.
Example master_5 : master_vector (hx (B "01020304050607080900"))
  (B "xprv9s21ZrQH143K2hKT3jMKPFEcQLbx2XD55NtqQA7B4C5U9mTZY7gBeCdoFgurN4pxkQshzP8AQhBmUNgAo5djj5FzvUFh5pKH6wcRMSXVuc1") = true.
Proof. vm_compute. reflexivity. Qed.
(** bip32/bip32_test.go:215-216 *)
Example refused_0 : refused (B "xprv9s21ZrQH143K4YUcKrp6cVxQaX59ZFkN6MFdeZjt8CHVYNs55xxQSvZpHWfojWMv6zgjmzopCyWPSFAnV4RU33J4pwCcnhsB4R4mPEnTsM") ErrSerializedKeyWrongSize = true.
Proof. vm_compute. reflexivity. Qed.
Example refused_1 : refused (B "xprv9s21ZrQH143K3YSbAXLMPCzJso5QAarQksAGc5rQCyZCBfw4Rj2PqVLFNgezSBhktYkiL3Ta2stLPDF9yZtLMaxk6Spiqh3DNFG8p8MVeEc") ErrInvalidChecksum = true.
Proof. vm_compute. reflexivity. Qed.
(** bip39/bip39_test.go:263-382 *)
Example mnemonic_0 : mnemonic_vector (hx (B "00000000000000000000000000000000"))
  (B "abandon abandon abandon abandon abandon abandon abandon abandon abandon abandon abandon about") = true.
Proof. vm_compute. reflexivity. Qed.
Example mnemonic_1 : mnemonic_vector (hx (B "7f7f7f7f7f7f7f7f7f7f7f7f7f7f7f7f"))
  (B "legal winner thank year wave sausage worth useful legal winner thank yellow") = true.
Proof. vm_compute. reflexivity. Qed.
Example mnemonic_2 : mnemonic_vector (hx (B "80808080808080808080808080808080"))
  (B "letter advice cage absurd amount doctor acoustic avoid letter advice cage above") = true.
Proof. vm_compute. reflexivity. Qed.
Example mnemonic_3 : mnemonic_vector (hx (B "ffffffffffffffffffffffffffffffff"))
  (B "zoo zoo zoo zoo zoo zoo zoo zoo zoo zoo zoo wrong") = true.
Proof. vm_compute. reflexivity. Qed.
Example mnemonic_4 : mnemonic_vector (hx (B "000000000000000000000000000000000000000000000000"))
  (B "abandon abandon abandon abandon abandon abandon abandon abandon abandon abandon abandon abandon abandon abandon abandon abandon abandon agent") = true.
Proof. vm_compute. reflexivity. Qed.
Example mnemonic_5 : mnemonic_vector (hx (B "7f7f7f7f7f7f7f7f7f7f7f7f7f7f7f7f7f7f7f7f7f7f7f7f"))
  (B "legal winner thank year wave sausage worth useful legal winner thank year wave sausage worth useful legal will") = true.
Proof. vm_compute. reflexivity. Qed.
Example mnemonic_6 : mnemonic_vector (hx (B "808080808080808080808080808080808080808080808080"))
  (B "letter advice cage absurd amount doctor acoustic avoid letter advice cage absurd amount doctor acoustic avoid letter always") = true.
Proof. vm_compute. reflexivity. Qed.
Example mnemonic_7 : mnemonic_vector (hx (B "ffffffffffffffffffffffffffffffffffffffffffffffff"))
  (B "zoo zoo zoo zoo zoo zoo zoo zoo zoo zoo zoo zoo zoo zoo zoo zoo zoo when") = true.
Proof. vm_compute. reflexivity. Qed.
Example mnemonic_8 : mnemonic_vector (hx (B "0000000000000000000000000000000000000000000000000000000000000000"))
  (B "abandon abandon abandon abandon abandon abandon abandon abandon abandon abandon abandon abandon abandon abandon abandon abandon abandon abandon abandon abandon abandon abandon abandon art") = true.
Proof. vm_compute. reflexivity. Qed.
Example mnemonic_9 : mnemonic_vector (hx (B "7f7f7f7f7f7f7f7f7f7f7f7f7f7f7f7f7f7f7f7f7f7f7f7f7f7f7f7f7f7f7f7f"))
  (B "legal winner thank year wave sausage worth useful legal winner thank year wave sausage worth useful legal winner thank year wave sausage worth title") = true.
Proof. vm_compute. reflexivity. Qed.
Example mnemonic_10 : mnemonic_vector (hx (B "8080808080808080808080808080808080808080808080808080808080808080"))
  (B "letter advice cage absurd amount doctor acoustic avoid letter advice cage absurd amount doctor acoustic avoid letter advice cage absurd amount doctor acoustic bless") = true.
Proof. vm_compute. reflexivity. Qed.
Example mnemonic_11 : mnemonic_vector (hx (B "ffffffffffffffffffffffffffffffffffffffffffffffffffffffffffffffff"))
  (B "zoo zoo zoo zoo zoo zoo zoo zoo zoo zoo zoo zoo zoo zoo zoo zoo zoo zoo zoo zoo zoo zoo zoo vote") = true.
Proof. vm_compute. reflexivity. Qed.
Example mnemonic_12 : mnemonic_vector (hx (B "77c2b00716cec7213839159e404db50d"))
  (B "jelly better achieve collect unaware mountain thought cargo oxygen act hood bridge") = true.
Proof. vm_compute. reflexivity. Qed.
Example mnemonic_13 : mnemonic_vector (hx (B "b63a9c59a6e641f288ebc103017f1da9f8290b3da6bdef7b"))
  (B "renew stay biology evidence goat welcome casual join adapt armor shuffle fault little machine walk stumble urge swap") = true.
Proof. vm_compute. reflexivity. Qed.
Example mnemonic_14 : mnemonic_vector (hx (B "3e141609b97933b66a060dcddc71fad1d91677db872031e85f4c015c5e7e8982"))
  (B "dignity pass list indicate nasty swamp pool script soccer toe leaf photo multiply desk host tomato cradle drill spread actor shine dismiss champion exotic") = true.
Proof. vm_compute. reflexivity. Qed.
Example mnemonic_15 : mnemonic_vector (hx (B "0460ef47585604c5660618db2e6a7e7f"))
  (B "afford alter spike radar gate glance object seek swamp infant panel yellow") = true.
Proof. vm_compute. reflexivity. Qed.
Example mnemonic_16 : mnemonic_vector (hx (B "72f60ebac5dd8add8d2a25a797102c3ce21bc029c200076f"))
  (B "indicate race push merry suffer human cruise dwarf pole review arch keep canvas theme poem divorce alter left") = true.
Proof. vm_compute. reflexivity. Qed.
Example mnemonic_17 : mnemonic_vector (hx (B "2c85efc7f24ee4573d2b81a6ec66cee209b2dcbd09d8eddc51e0215b0b68e416"))
  (B "clutch control vehicle tonight unusual clog visa ice plunge glimpse recipe series open hour vintage deposit universe tip job dress radar refuse motion taste") = true.
Proof. vm_compute. reflexivity. Qed.
Example mnemonic_18 : mnemonic_vector (hx (B "eaebabb2383351fd31d703840b32e9e2"))
  (B "turtle front uncle idea crush write shrug there lottery flower risk shell") = true.
Proof. vm_compute. reflexivity. Qed.
Example mnemonic_19 : mnemonic_vector (hx (B "7ac45cfe7722ee6c7ba84fbc2d5bd61b45cb2fe5eb65aa78"))
  (B "kiss carry display unusual confirm curtain upgrade antique rotate hello void custom frequent obey nut hole price segment") = true.
Proof. vm_compute. reflexivity. Qed.
Example mnemonic_20 : mnemonic_vector (hx (B "4fa1a8bc3e6d80ee1316050e862c1812031493212b7ec3f3bb1b08f168cabeef"))
  (B "exile ask congress lamp submit jacket era scheme attend cousin alcohol catch course end lucky hurt sentence oven short ball bird grab wing top") = true.
Proof. vm_compute. reflexivity. Qed.
Example mnemonic_21 : mnemonic_vector (hx (B "18ab19a9f54a9274f03e5209a2ac8a91"))
  (B "board flee heavy tunnel powder denial science ski answer betray cargo cat") = true.
Proof. vm_compute. reflexivity. Qed.
Example mnemonic_22 : mnemonic_vector (hx (B "18a2e1d81b8ecfb2a333adcb0c17a5b9eb76cc5d05db91a4"))
  (B "board blade invite damage undo sun mimic interest slam gaze truly inherit resist great inject rocket museum chief") = true.
Proof. vm_compute. reflexivity. Qed.
Example mnemonic_23 : mnemonic_vector (hx (B "15da872c95a13dd738fbf50e427583ad61f18fd99f628c417a61cf8343c90419"))
  (B "beyond stage sleep clip because twist token leaf atom beauty genius food business side grid unable middle armed observe pair crouch tonight away coconut") = true.
Proof. vm_compute. reflexivity. Qed.
(** bip39/bip39_test.go:388-405 *)
Example bad_0 : negb (IsMnemonicValid RealPrims (SetWordList english_lines)
  (B "abandon abandon abandon abandon abandon abandon abandon abandon abandon abandon abandon")) = true.
Proof. vm_compute. reflexivity. Qed.
Example bad_1 : negb (IsMnemonicValid RealPrims (SetWordList english_lines)
  (B "legal winner thank year wave sausage worth useful legal winner thank yellow yellow")) = true.
Proof. vm_compute. reflexivity. Qed.
Example bad_2 : negb (IsMnemonicValid RealPrims (SetWordList english_lines)
  (B "letter advice cage absurd amount doctor acoustic avoid letter advice caged above")) = true.
Proof. vm_compute. reflexivity. Qed.
Example bad_3 : negb (IsMnemonicValid RealPrims (SetWordList english_lines)
  (B "zoo zoo zoo zoo zoo zoo zoo zoo zoo zoo zoo, wrong")) = true.
Proof. vm_compute. reflexivity. Qed.
Example bad_4 : negb (IsMnemonicValid RealPrims (SetWordList english_lines)
  (B "abandon abandon abandon abandon abandon abandon abandon abandon abandon abandon abandon abandon abandon abandon abandon abandon abandon")) = true.
Proof. vm_compute. reflexivity. Qed.
Example bad_5 : negb (IsMnemonicValid RealPrims (SetWordList english_lines)
  (B "legal winner thank year wave sausage worth useful legal winner thank year wave sausage worth useful legal will will will")) = true.
Proof. vm_compute. reflexivity. Qed.
Example bad_6 : negb (IsMnemonicValid RealPrims (SetWordList english_lines)
  (B "letter advice cage absurd amount doctor acoustic avoid letter advice cage absurd amount doctor acoustic avoid letter always.")) = true.
Proof. vm_compute. reflexivity. Qed.
Example bad_7 : negb (IsMnemonicValid RealPrims (SetWordList english_lines)
  (B "zoo zoo zoo zoo zoo zoo zoo zoo zoo zoo zoo zoo zoo zoo zoo zoo zoo why")) = true.
Proof. vm_compute. reflexivity. Qed.
Example bad_8 : negb (IsMnemonicValid RealPrims (SetWordList english_lines)
  (B "abandon abandon abandon abandon abandon abandon abandon abandon abandon abandon abandon abandon abandon abandon abandon abandon abandon abandon abandon abandon abandon abandon abandon art art")) = true.
Proof. vm_compute. reflexivity. Qed.
Example bad_9 : negb (IsMnemonicValid RealPrims (SetWordList english_lines)
  (B "legal winner thank year wave sausage worth useful legal winner thanks year wave worth useful legal winner thank year wave sausage worth title")) = true.
Proof. vm_compute. reflexivity. Qed.
Example bad_10 : negb (IsMnemonicValid RealPrims (SetWordList english_lines)
  (B "letter advice cage absurd amount doctor acoustic avoid letters advice cage absurd amount doctor acoustic avoid letter advice cage absurd amount doctor acoustic bless")) = true.
Proof. vm_compute. reflexivity. Qed.
Example bad_11 : negb (IsMnemonicValid RealPrims (SetWordList english_lines)
  (B "zoo zoo zoo zoo zoo zoo zoo zoo zoo zoo zoo zoo zoo zoo zoo zoo zoo zoo zoo zoo zoo zoo zoo voted")) = true.
Proof. vm_compute. reflexivity. Qed.
Example bad_12 : negb (IsMnemonicValid RealPrims (SetWordList english_lines)
  (B "jello better achieve collect unaware mountain thought cargo oxygen act hood bridge")) = true.
Proof. vm_compute. reflexivity. Qed.
Example bad_13 : negb (IsMnemonicValid RealPrims (SetWordList english_lines)
  (B "renew, stay, biology, evidence, goat, welcome, casual, join, adapt, armor, shuffle, fault, little, machine, walk, stumble, urge, swap")) = true.
Proof. vm_compute. reflexivity. Qed.
Example bad_14 : negb (IsMnemonicValid RealPrims (SetWordList english_lines)
  (B "dignity pass list indicate nasty")) = true.
Proof. vm_compute. reflexivity. Qed.
Example bad_15 : negb (IsMnemonicValid RealPrims (SetWordList english_lines)
  (B "abandon abandon abandon abandon abandon abandon abandon abandon abandon abandon abandon letter")) = true.
Proof. vm_compute. reflexivity. Qed.
