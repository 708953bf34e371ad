(** PropsWhole.v - the wallet on the libraries as written (C103).
    Every theorem is closed by the lemma of the same name in ClaimsWhole.v; an Example beside it shows that its
    hypotheses can be met. *)
From Verif Require Import Base BaseFacts GoStr GoStrFacts HexFacts Prims Hash HashFacts Bip39 SpecBip39 UtilMnemonic WordLists WlEnglish AllLists Secp SpecPath SpecBip32 SpecUtil SpecWallet Bip32Path Bip32Reg Bip32 Bip32PathFacts Bip32Facts Bip32KeyFacts Bip32Facts2 Bip32RegFacts UtilFacts Util Fp ECGroup SpecEC SecpFacts Base58 Base58Facts Bip39Facts GoNat SpecNat GoNatBytes GoRand SpecRand GoWhole GoWholeFacts ClaimsWhole.

(** C103: bip39, bip32 and util with every library function as written. *)

Theorem C103_keys : forall E T key, env_ok E -> wf_key key ->
  (forall i, gNewChildKey E T key i = NewChildKey RealPrims T key i) /\
  gPublicKeyExtended E T key = Ret (PublicKeyExtended T key) /\ gPrivateKeyHex key = Ret (PrivateKeyHex key) /\ gPublicKeyHex E T key = Ret (PublicKeyHex T key) /\
  gSerialize key = Ret (Serialize RealPrims key) /\ gB58Serialize key = Ret (B58Serialize RealPrims key) /\ gKeyIsValid key = KeyIsValid RealPrims key /\
  gAddrHex E T key = AddrHex RealPrims T key /\ (forall v, gAddrP2SH E T key v = Ret (AddrP2SH RealPrims T key v)).
Proof. exact C103_keys_l. Qed.
Print Assumptions C103_keys.

Example C103_keys_sat : (exists E, env_ok E) /\ wf_key zero_key /\ gPrivateKeyHex zero_key = Ret (repeat x30 64) /\ gKeyIsValid zero_key = Ret false.
Proof. exact C103_keys_sat_l. Qed.

Theorem C103_texts : (forall seed E, env_ok E -> Z.of_nat (length seed) < 2 ^ 61 - 128 -> gNewMasterKey E seed = NewMasterKey RealPrims seed) /\
(forall d, gDeserialize d = Deserialize RealPrims d) /\ (forall s, gB58Deserialize s = B58Deserialize RealPrims s) /\
(forall s E, env_ok E -> Z.of_nat (length s) < 2 ^ 61 -> gRootKeyFromSeed E s = RootKeyFromSeed RealPrims s).
Proof. exact C103_texts_l. Qed.
Print Assumptions C103_texts.

Example C103_texts_sat : gDeserialize [x01] = Ret (x01 :: repeat x00 77, Some ErrSerializedKeyWrongSize) /\ gB58Deserialize (B "2g0") = Ret (zero_key, Some ErrSerializedKeyWrongSize) /\ Z.of_nat (length (B "0123456789abcdef")) < 2 ^ 61 - 128.
Proof. exact C103_texts_sat_l. Qed.

Theorem C103_paths : (forall p, gPathString p = Ret (PathString p) /\ gValuesAtDepth p = Ret (ValuesAtDepth p) /\ gPathIsValid p = Ret (PathIsValid p) /\ (forall b, gValueAtDepth p b = ValueAtDepth p b)) /\
(forall E p b v, env_ok E -> 0 <= v < 2 ^ 64 -> gReplaceValueAtDepth E p b v = ReplaceValueAtDepth p b v) /\
(forall h, gVBIsValid h = Ret (VBIsValid h) /\ gComp_val 1 h ErrInvalidPurpose = PurposeVal h /\ gComp_val 2 h ErrInvalidCoin = CoinVal h /\
  gVal_full 1 h ErrInvalidPurpose = PurposeValFull h /\ gVal_full 2 h ErrInvalidCoin = CoinValFull h) /\
(forall ord, gInit ord = init_tables ord).
Proof. exact C103_paths_l. Qed.
Print Assumptions C103_paths.

Example C103_paths_sat : gValuesAtDepth (B "m/44' /7") = Ret ([0; 2147483692; 7], None) /\ gValuesAtDepth (B "m//7") = Ret ([], Some ErrUnSupportedOrInvalidPath) /\ gComp_val 2 Nexaxprvxpub ErrInvalidCoin = Ret (29223, None).
Proof. exact C103_paths_sat_l. Qed.

Theorem C103_mnemonic : forall st, (forall e, gNewMnemonic st e = NewMnemonic RealPrims st e) /\ (forall m, gEntropyFromMnemonic st m = Ret (EntropyFromMnemonic RealPrims st m)) /\
  (forall m raw, gMnemonicToByteArray st m raw = Ret (MnemonicToByteArray RealPrims st m raw)) /\ (forall m, gIsMnemonicValid st m = Ret (IsMnemonicValid RealPrims st m)) /\
  (forall m pw, Z.of_nat (length m) < 2 ^ 61 -> Z.of_nat (length pw) < 2 ^ 61 - 140 -> gNewSeed m pw = Ret (NewSeed RealPrims m pw) /\
     gNewSeedWithErrorChecking st m pw = Ret (NewSeedWithErrorChecking RealPrims st m pw) /\ gDeriveSeedFromMnemonic st m pw = Ret (DeriveSeedFromMnemonic RealPrims st m pw)) /\
  (forall fuel s n r, source_ok s -> gGenerateMnemonic fuel s st n = Some r -> exists rd, r = GenerateMnemonic RealPrims st rd n /\
     (In n [12; 15; 18; 21; 24] -> (exists w, answered s (Z.to_nat (n / 3 * 4)) w) -> answered s (Z.to_nat (n / 3 * 4)) rd)).
Proof. exact C103_mnemonic_l. Qed.
Print Assumptions C103_mnemonic.

Example C103_mnemonic_sat : gNewMnemonic (SetWordList (repeat (B "a") 2048)) [x00] = Ret ([], Some ErrEntropyLengthInvalid) /\ gEntropyFromMnemonic (SetWordList [B "a"]) (B "a a b") = Ret ([], Some ErrInvalidMnemonic) /\
gEntropyFromMnemonic (SetWordList [B "a"]) (B "a a a a a a a a a a a b") = Ret ([], Some (ErrWord (B "b"))) /\ (exists s, source_ok s /\ answered s 16 (repeat x07 16)).
Proof. exact C103_mnemonic_sat_l. Qed.

Theorem C103_util : forall E T, env_ok E -> after_init T ->
  (forall root p, wf_key root -> gDeriveBIP32Result E T root p = DeriveBIP32Result RealPrims T root p) /\
  (forall k, wf_key (KKey (RKeyPath k)) -> 0 <= StartIndex k -> EndIndex k < 2 ^ 32 -> gGenerateRange E T k = GenerateRange RealPrims T k).
Proof. exact C103_util_l. Qed.
Print Assumptions C103_util.

Example C103_util_sat : (exists E, env_ok E) /\ (exists T, after_init T) /\ (forall T, gGenerateRange (mkEnv [] [] [] [] []) T (mkKPR 3 3 (mkKP (B "m") zero_key) []) = Ret (mkKPR 3 3 (mkKP (B "m") zero_key) [], Some ErrInvalidRangeProvided)).
Proof. exact C103_util_sat_l. Qed.

Theorem C103_seed : forall wl m e pw, good_list wl -> entropy_size_ok e -> Fields m = bip39_words RealPrims wl e -> Z.of_nat (length m) < 2 ^ 61 -> Z.of_nat (length pw) < 2 ^ 61 - 140 ->
  gNewMnemonic (SetWordList wl) e = Ret (Join (B " ") (bip39_words RealPrims wl e), None) /\ gIsMnemonicValid (SetWordList wl) m = Ret true /\
  gDeriveSeedFromMnemonic (SetWordList wl) m pw = Ret (HexEncode (p_pbkdf2 RealPrims m (B "mnemonic" ++ pw)), None).
Proof. exact C103_seed_l. Qed.
Print Assumptions C103_seed.

Example C103_seed_sat : exists wl m e, good_list wl /\ entropy_size_ok e /\ Fields m = bip39_words RealPrims wl e /\ Z.of_nat (length m) < 2 ^ 61.
Proof. exact C103_seed_sat_l. Qed.

Theorem C103_wallet : forall E ord T sd p s hs ss nd l, env_ok E -> Permutation ord PathToHDBytesSlice -> gInit ord = Ret T -> (16 <= length sd)%nat -> Z.of_nat (length sd) < 2 ^ 59 ->
  master_node RealPrims sd = Some nd -> stripped p s -> path_grammar s hs ss -> Forall (fun a => number a < 2 ^ 31) (hs ++ ss) -> path_nodes RealPrims nd (path_values hs ss) = Some l ->
  let root := node_xprv (ser32 0x0488ade4) nd in
  exists kps, gRootKeyFromSeed E (HexEncode sd) = Ret (Some root, None) /\ gDeriveBIP32Result E T root p = Ret (kps, None) /\
    (let! t := gB58Serialize root in gB58Deserialize t) = Ret (root, None) /\
    map KKey kps = map (node_xprv (ser32 0x0488ade4)) (nd :: l) /\
    (forall j kp, nth_error kps j = Some kp ->
       KPath kp = B "m" ++ concat (map (fun v => if v <? 2 ^ 31 then soft_text (Itoa v) else hard_text (Itoa (v - 2 ^ 31))) (firstn j (path_values hs ss)))).
Proof. exact C103_wallet_l. Qed.
Print Assumptions C103_wallet.

Example C103_wallet_sat : exists E ord T nd l, env_ok E /\ Permutation ord PathToHDBytesSlice /\ gInit ord = Ret T /\ master_node RealPrims (map bZ [0; 1; 2; 3; 4; 5; 6; 7; 8; 9; 10; 11; 12; 13; 14; 15]) = Some nd /\
  stripped (B "m/0'") (B "m/0'") /\ path_grammar (B "m/0'") [B "0"] [] /\ path_nodes RealPrims nd (path_values [B "0"] []) = Some l /\ length l = 1%nat /\
  HexEncode (ser256 (n_key nd)) = B "e8f32e723decf4051aefac8e2c93c9c5b214313817cdb01a1494b917c8436b35" /\
  HexEncode (concat (map (fun a => ser256 (n_key a)) l)) = B "edb2e14f9ee77d26dd93b4ecede8d16ed408ce149b6cd80b0715a2d911a0afea".
Proof. exact C103_wallet_sat_l. Qed.

Theorem C103_shown : forall E ord T seed nd vs l a v w, env_ok E -> Permutation ord PathToHDBytesSlice -> gInit ord = Ret T -> master_node RealPrims seed = Some nd -> path_nodes RealPrims nd vs = Some l -> In a (nd :: l) ->
  length v = 4%nat -> length w = 4%nat -> paired v w ->
  gPublicKeyExtended E T (node_xprv v a) = Ret (node_xpub w a) /\
  gB58Serialize (node_xprv v a) = Ret (Encode58 (with_check RealPrims (node_xprv v a))) /\
  gB58Serialize (node_xpub w a) = Ret (Encode58 (with_check RealPrims (node_xpub w a))) /\
  gPrivateKeyHex (node_xprv v a) = Ret (HexEncode (ser256 (n_key a))) /\
  gPublicKeyHex E T (node_xprv v a) = Ret (HexEncode (serPb (kG (n_key a)))) /\
  (forall ver, gAddrP2SH E T (node_xprv v a) ver = Ret (Encode58 (p2pkh_payload RealPrims ver (serPb (kG (n_key a)))))) /\
  (forall x y, kG (n_key a) = PAff x y -> 2 ^ 248 <= fv x -> 2 ^ 248 <= fv y -> gAddrHex E T (node_xprv v a) = Ret (HexEncode (eth_address RealPrims (fv x) (fv y)))).
Proof. exact C103_shown_l. Qed.
Print Assumptions C103_shown.

Example C103_shown_sat : length (ser32 0x0488ade4) = 4%nat /\ length (ser32 0x0488b21e) = 4%nat /\ paired (ser32 0x0488ade4) (ser32 0x0488b21e).
Proof. exact C103_shown_sat_l. Qed.

Theorem C103_total : forall E T key, env_ok E -> after_init T -> wf_key key ->
  (forall i, exists k e, gNewChildKey E T key i = Ret (k, e) /\ wf_key k) /\ (forall p, exists kps e, gDeriveBIP32Result E T key p = Ret (kps, e) /\ Forall (fun kp => wf_key (KKey kp)) kps) /\
  (exists a, gAddrHex E T key = Ret a /\ length a = 40%nat) /\ (exists v, gKeyIsValid key = Ret v) /\ (forall s, exists k e, gB58Deserialize s = Ret (k, e) /\ wf_key k).
Proof. exact C103_total_l. Qed.
Print Assumptions C103_total.

Example C103_total_sat : (exists E, env_ok E) /\ (exists T, after_init T) /\ wf_key zero_key.
Proof. exact C103_total_sat_l. Qed.
