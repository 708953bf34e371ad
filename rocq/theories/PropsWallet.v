(** PropsWallet.v - the wallet end to end (C81-C83).
    Every theorem is closed by the lemma of the same name in ClaimsWallet.v; an Example beside it shows that its
    hypotheses can be met. *)
From Verif Require Import Base BaseFacts GoStr GoStrFacts HexFacts Prims Hash HashFacts Bip39 SpecBip39 UtilMnemonic WordLists WlEnglish AllLists Secp SpecPath SpecBip32 SpecUtil SpecWallet Bip32Path Bip32Reg Bip32 Bip32PathFacts Bip32Facts Bip32KeyFacts Bip32Facts2 Bip32RegFacts UtilFacts Util Fp ECGroup SpecEC SecpFacts Base58 Base58Facts Bip39Facts Abandon SpecUi Ui UiFacts Claims39 Claims32 ClaimsUi ClaimsWallet.

(** C81. From the words to the addresses: the keys are those of BIP-39 and BIP-32. *)

Theorem C81_wallet : forall H T wl m e pw p s hs ss nd l, prims_ok H -> after_init T -> good_list wl -> entropy_size_ok e -> Fields m = bip39_words H wl e ->
  master_node H (p_pbkdf2 H m (B "mnemonic" ++ pw)) = Some nd ->
  stripped p s -> path_grammar s hs ss -> Forall (fun a => number a < 2 ^ 31) (hs ++ ss) -> path_nodes H nd (path_values hs ss) = Some l ->
  let sd := HexEncode (p_pbkdf2 H m (B "mnemonic" ++ pw)) in
  let root := node_xprv (ser32 0x0488ade4) nd in
  exists kps, DeriveSeedFromMnemonic H (SetWordList wl) m pw = (sd, None) /\ RootKeyFromSeed H sd = Ret (Some root, None) /\
    DeriveBIP32Result H T root p = Ret (kps, None) /\
    B58Deserialize H (B58Serialize H root) = Ret (root, None) /\
    map KKey kps = map (node_xprv (ser32 0x0488ade4)) (nd :: l) /\
    (forall j kp, nth_error kps j = Some kp ->
       KPath kp = B "m" ++ concat (map (fun v => if v <? 2 ^ 31 then soft_text (Itoa v) else hard_text (Itoa (v - 2 ^ 31))) (firstn j (path_values hs ss)))).
Proof. exact C81_wallet_l. Qed.
Print Assumptions C81_wallet.

Theorem C81_shown : forall H T seed nd vs l a v w, prims_ok H -> after_init T -> master_node H seed = Some nd -> path_nodes H nd vs = Some l -> In a (nd :: l) ->
  length v = 4%nat -> length w = 4%nat -> paired v w ->
  PublicKeyExtended T (node_xprv v a) = node_xpub w a /\
  B58Serialize H (node_xprv v a) = Encode58 (with_check H (node_xprv v a)) /\
  B58Serialize H (node_xpub w a) = Encode58 (with_check H (node_xpub w a)) /\
  PrivateKeyHex (node_xprv v a) = HexEncode (ser256 (n_key a)) /\
  PublicKeyHex T (node_xprv v a) = HexEncode (serPb (kG (n_key a))) /\
  (forall ver, AddrP2SH H T (node_xprv v a) ver = Encode58 (p2pkh_payload H ver (serPb (kG (n_key a))))) /\
  (forall x y, kG (n_key a) = PAff x y -> 2 ^ 248 <= fv x -> 2 ^ 248 <= fv y -> AddrHex H T (node_xprv v a) = Ret (HexEncode (eth_address H (fv x) (fv y)))).
Proof. exact C81_shown_l. Qed.
Print Assumptions C81_shown.

Example C81_ex : exists H wl m e s hs ss nd l, prims_ok H /\ good_list wl /\ entropy_size_ok e /\ Fields m = bip39_words H wl e /\
  master_node H (p_pbkdf2 H m (B "mnemonic" ++ B "x")) = Some nd /\ stripped (B "m/44' /7") s /\ path_grammar s hs ss /\
  Forall (fun a => number a < 2 ^ 31) (hs ++ ss) /\ path_nodes H nd (path_values hs ss) = Some l /\ length l = 2%nat.
Proof. exact C81_ex_l. Qed.

(** C82. A watch-only wallet made from the text of an extended public key. *)

Theorem C82_import : forall H T seed nd0 us l0 nd v w, prims_ok H -> after_init T -> master_node H seed = Some nd0 -> path_nodes H nd0 us = Some l0 -> In nd (nd0 :: l0) ->
  length v = 4%nat -> length w = 4%nat -> paired v w ->
  B58Deserialize H (B58Serialize H (PublicKeyExtended T (node_xprv v nd))) = Ret (node_xpub w nd, None).
Proof. exact C82_import_l. Qed.
Print Assumptions C82_import.

Theorem C82_derive : forall H T seed nd0 us l0 nd is l v w, prims_ok H -> after_init T -> master_node H seed = Some nd0 -> path_nodes H nd0 us = Some l0 -> In nd (nd0 :: l0) ->
  length v = 4%nat -> length w = 4%nat -> paired v w -> Forall (fun i => 0 <= i < 2 ^ 31) is -> path_nodes H nd is = Some l ->
  forall j a i b, nth_error (nd :: l) j = Some a -> nth_error is j = Some i -> nth_error l j = Some b -> IL (I_priv H (n_key a) (n_chain a) i) <> 0 ->
    NewChildKey H T (node_xprv v a) i = Ret (node_xprv v b, None) /\ NewChildKey H T (node_xpub w a) i = Ret (node_xpub w b, None).
Proof. exact C82_derive_l. Qed.
Print Assumptions C82_derive.

Theorem C82_addresses : forall H T seed nd0 us l0 nd v w, prims_ok H -> after_init T -> master_node H seed = Some nd0 -> path_nodes H nd0 us = Some l0 -> In nd (nd0 :: l0) ->
  length v = 4%nat -> length w = 4%nat -> paired v w ->
  AddrHex H T (node_xpub w nd) = AddrHex H T (node_xprv v nd) /\ (forall ver, AddrP2SH H T (node_xpub w nd) ver = AddrP2SH H T (node_xprv v nd) ver) /\
  PublicKeyHex T (node_xpub w nd) = PublicKeyHex T (node_xprv v nd) /\ PublicKeyExtended T (node_xpub w nd) = PublicKeyExtended T (node_xprv v nd) /\
  PrivateKeyHex (node_xpub w nd) = [].
Proof. exact C82_addresses_l. Qed.
Print Assumptions C82_addresses.

Example C82_ex : exists H seed nd0 l0 nd l, prims_ok H /\ master_node H seed = Some nd0 /\ path_nodes H nd0 [HARD + 44] = Some l0 /\ In nd l0 /\ path_nodes H nd [0; 5] = Some l /\
  (forall a i, In a (nd :: l) -> In i [0; 5] -> IL (I_priv H (n_key a) (n_chain a) i) <> 0) /\
  length (ser32 0x04b2430c) = 4%nat /\ paired (ser32 0x04b2430c) (ser32 0x04b24746).
Proof. exact C82_ex_l. Qed.

(** C83. What the example program shows for a valid mnemonic and path is the wallet of BIP-39 and BIP-32. *)

Theorem C83_program : forall H T wl es i u e s hs ss nd l, prims_ok H -> after_init T -> good_list wl -> text_words wl ->
  run H T (SetWordList wl) ui0 (es ++ [Frame i]) = Ret u ->
  entropy_size_ok e -> Fields (mnemonicField u) = bip39_words H wl e ->
  master_node H (p_pbkdf2 H (mnemonicField u) (B "mnemonic" ++ passField u)) = Some nd ->
  stripped (derivationField u) s -> path_grammar s hs ss -> Forall (fun a => number a < 2 ^ 31) (hs ++ ss) -> path_nodes H nd (path_values hs ss) = Some l ->
  seedField u = HexEncode (p_pbkdf2 H (mnemonicField u) (B "mnemonic" ++ passField u)) /\
  rootField u = Encode58 (with_check H (node_xprv (ser32 0x0488ade4) nd)) /\
  map KKey (tabs u) = map (node_xprv (ser32 0x0488ade4)) (nd :: l) /\
  (forall t, screen u = Some t -> exists j a, 0 <= selected u /\ j = Z.to_nat (selected u) /\ nth_error (nd :: l) j = Some a /\
     nth_error t 0 = Some (B "m" ++ concat (map (fun v => if v <? 2 ^ 31 then soft_text (Itoa v) else hard_text (Itoa (v - 2 ^ 31))) (firstn j (path_values hs ss)))) /\
     nth_error t 1 = Some (Encode58 (with_check H (node_xprv (ser32 0x0488ade4) a))) /\
     nth_error t 2 = Some (Encode58 (with_check H (node_xpub (ser32 0x0488b21e) a))) /\
     nth_error t 3 = Some (HexEncode (ser256 (n_key a))) /\
     nth_error t 4 = Some (HexEncode (serPb (kG (n_key a)))) /\
     (forall x y, kG (n_key a) = PAff x y -> 2 ^ 248 <= fv x -> 2 ^ 248 <= fv y -> nth_error t 5 = Some (HexEncode (eth_address H (fv x) (fv y))))).
Proof. exact C83_program_l. Qed.
Print Assumptions C83_program.

Example C83_ex : exists H wl es u e s hs ss nd l, prims_ok H /\ good_list wl /\ text_words wl /\ run H T0 (SetWordList wl) ui0 (es ++ [Frame quiet_frame]) = Ret u /\
  entropy_size_ok e /\ Fields (mnemonicField u) = bip39_words H wl e /\ master_node H (p_pbkdf2 H (mnemonicField u) (B "mnemonic" ++ passField u)) = Some nd /\
  stripped (derivationField u) s /\ path_grammar s hs ss /\ Forall (fun a => number a < 2 ^ 31) (hs ++ ss) /\ path_nodes H nd (path_values hs ss) = Some l /\ length l = 2%nat.
Proof. exact C83_ex_l. Qed.
