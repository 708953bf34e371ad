(** PropsUiWhole.v - the example program on the libraries as written (C105).
    Every theorem is closed by the lemma of the same name in ClaimsUiWhole.v; an Example beside it shows that its
    hypotheses can be met. *)
From Verif Require Import Base BaseFacts GoStr GoStrFacts HexFacts Prims Hash HashFacts Bip39 SpecBip39 UtilMnemonic UtilMnemonicFacts WordLists WlEnglish AllLists Secp SpecPath SpecBip32 SpecUtil SpecWallet Bip32Path Bip32Reg Bip32 Bip32PathFacts Bip32Facts Bip32KeyFacts Bip32Facts2 Bip32RegFacts UtilFacts Util Fp ECGroup SpecEC SecpFacts Base58 Base58Facts Bip39Facts GoNat SpecNat GoNatBytes GoRand SpecRand GoWhole GoWholeFacts SpecUi Ui UiFacts UiWhole SpecUiWhole UiWholeFacts ClaimsUiWhole.

(** C105: the example program on the libraries as written. *)

Theorem C105_run : forall E T wl es r, env_ok E -> after_init T -> good_list wl -> text_words wl -> short_words wl -> Forall g_ok es ->
  gRun E T (SetWordList wl) ui0 es = Some r -> exists es', Forall2 same_event es es' /\ r = run RealPrims T (SetWordList wl) ui0 es'.
Proof. exact C105_run_l. Qed.
Print Assumptions C105_run.

Example C105_run_sat : (exists E, env_ok E) /\ (exists T, after_init T) /\ good_list english /\ text_words english /\ short_words english /\
Forall g_ok [GEdit FRadio (B "24"); GFrame (mkGFrame (mkFrame false [] false false []) 0 some_source)] /\
(forall E T, gRun E T (SetWordList english) ui0 [GEdit FRadio (B "24"); GFrame (mkGFrame (mkFrame false [] false false []) 0 some_source)] = Some (Ret (edit FRadio (B "24") ui0))).
Proof. exact C105_run_sat_l. Qed.

Theorem C105_ends : forall E T wl es, env_ok E -> after_init T -> good_list wl -> text_words wl -> short_words wl -> Forall g_ok es -> Forall g_ends es ->
  exists r, gRun E T (SetWordList wl) ui0 es = Some r /\ (r = Panic -> exists s, bad_seed RealPrims s).
Proof. exact C105_ends_l. Qed.
Print Assumptions C105_ends.

Example C105_ends_sat : Forall g_ok [GFrame (mkGFrame (mkFrame true [] false false []) 32 some_source)] /\ Forall g_ends [GFrame (mkGFrame (mkFrame true [] false false []) 32 some_source)].
Proof. exact C105_ends_sat_l. Qed.

Theorem C105_after_a_frame : forall E T wl es i u, env_ok E -> after_init T -> good_list wl -> text_words wl -> short_words wl -> Forall g_ok (es ++ [GFrame i]) ->
  gRun E T (SetWordList wl) ui0 (es ++ [GFrame i]) = Some (Ret u) ->
  (mnemonicField u <> [] -> seedField u = seed_of RealPrims (SetWordList wl) (mnemonicField u) (passField u)) /\
  (seedField u <> [] -> root_of RealPrims (seedField u) (bps u)) /\
  (rootField u = B58Serialize RealPrims (bps u) \/ undecodable RealPrims (rootField u) /\ bps u = repeat x00 78) /\
  (keys_of RealPrims T (bps u) (derivationField u) (tabs u) \/ (bps u = repeat x00 78 /\ undecodable RealPrims (rootField u))) /\
  (forall l, screen u = Some l -> exists kp, 0 <= selected u < Z.of_nat (length (tabs u)) /\ nth_error (tabs u) (Z.to_nat (selected u)) = Some kp /\ labels RealPrims T kp l) /\
  (screen u = None -> selected u = -1 \/ tabs u = []).
Proof. exact C105_after_a_frame_l. Qed.
Print Assumptions C105_after_a_frame.

Example C105_after_a_frame_sat : Forall g_ok ([] ++ [GFrame (mkGFrame (mkFrame false [] false false []) 0 some_source)]) /\ (forall E T, gRun E T (SetWordList english) ui0 ([] ++ [GFrame (mkGFrame (mkFrame false [] false false []) 0 some_source)]) = Some (Ret ui0)).
Proof. exact C105_after_a_frame_sat_l. Qed.

Theorem C105_generate : forall E T wl es u i n w, env_ok E -> after_init T -> good_list wl -> text_words wl -> short_words wl -> Forall g_ok (es ++ [GFrame i]) ->
  gRun E T (SetWordList wl) ui0 es = Some (Ret u) -> In n [12; 15; 18; 21; 24] -> radio u = Itoa n -> gen_click (g_in i) = true -> answered (g_src i) (Z.to_nat (n / 3 * 4)) w ->
  forall u', gRun E T (SetWordList wl) u [GFrame i] = Some (Ret u') ->
  Fields (mnemonicField u') = bip39_words RealPrims wl w /\ passField u' = passField u /\ seedField u' = HexEncode (p_pbkdf2 RealPrims (mnemonicField u') (B "mnemonic" ++ passField u)).
Proof. exact C105_generate_l. Qed.
Print Assumptions C105_generate.

Example C105_generate_sat : (forall E T, gRun E T (SetWordList english) ui0 [] = Some (Ret ui0)) /\ In 12 [12; 15; 18; 21; 24] /\ radio ui0 = Itoa 12 /\ source_ok some_source /\ answered some_source (Z.to_nat (12 / 3 * 4)) (repeat x07 16) /\
(forall E T, env_ok E -> after_init T -> (forall s, ~ bad_seed RealPrims s) -> exists u', gRun E T (SetWordList english) ui0 [GFrame (mkGFrame (mkFrame true [] false false []) 32 some_source)] = Some (Ret u')).
Proof. exact C105_generate_sat_l. Qed.

Theorem C105_typed_mnemonic : forall E ord T wl m e p s hs ss nd l i j a, env_ok E -> Permutation ord PathToHDBytesSlice -> gInit ord = Ret T -> good_list wl -> text_words wl -> short_words wl ->
  entropy_size_ok e -> Fields m = bip39_words RealPrims wl e -> short m -> short p -> master_node RealPrims (p_pbkdf2 RealPrims m (B "mnemonic")) = Some nd ->
  stripped p s -> path_grammar s hs ss -> Forall (fun a => number a < 2 ^ 31) (hs ++ ss) -> path_nodes RealPrims nd (path_values hs ss) = Some l ->
  gen_click (g_in i) = false -> left_click (g_in i) = false -> right_click (g_in i) = false -> tab_clicks (g_in i) = [j] -> nth_error (nd :: l) j = Some a ->
  exists u addr, gRun E T (SetWordList wl) ui0 [GEdit FMnemonic m; GEdit FPath p; GFrame i] = Some (Ret u) /\
    mnemonicField u = m /\ seedField u = HexEncode (p_pbkdf2 RealPrims m (B "mnemonic")) /\ rootField u = Encode58 (with_check RealPrims (node_xprv (ser32 0x0488ade4) nd)) /\
    map KKey (tabs u) = map (node_xprv (ser32 0x0488ade4)) (nd :: l) /\ selected u = Z.of_nat j /\
    screen u = Some [B "m" ++ concat (map (fun v => if v <? 2 ^ 31 then soft_text (Itoa v) else hard_text (Itoa (v - 2 ^ 31))) (firstn j (path_values hs ss)));
         Encode58 (with_check RealPrims (node_xprv (ser32 0x0488ade4) a)); Encode58 (with_check RealPrims (node_xpub (ser32 0x0488b21e) a));
         HexEncode (ser256 (n_key a)); HexEncode (serPb (kG (n_key a))); addr] /\
    (forall x y, kG (n_key a) = PAff x y -> 2 ^ 248 <= fv x -> 2 ^ 248 <= fv y -> addr = HexEncode (eth_address RealPrims (fv x) (fv y))).
Proof. exact C105_typed_mnemonic_l. Qed.
Print Assumptions C105_typed_mnemonic.

Example C105_typed_mnemonic_sat : exists m e, entropy_size_ok e /\ Fields m = bip39_words RealPrims english e /\ short m /\ short (B "m/0'") /\
  stripped (B "m/0'") (B "m/0'") /\ path_grammar (B "m/0'") [B "0"] [] /\ Forall (fun a => number a < 2 ^ 31) ([B "0"] ++ []).
Proof. exact C105_typed_mnemonic_sat_l. Qed.

Theorem C105_typed_seed : forall E ord T wl sd p s hs ss nd l i j a, env_ok E -> Permutation ord PathToHDBytesSlice -> gInit ord = Ret T -> good_list wl -> text_words wl -> short_words wl ->
  (16 <= length sd)%nat -> Z.of_nat (length sd) < 2 ^ 59 -> short p -> master_node RealPrims sd = Some nd ->
  stripped p s -> path_grammar s hs ss -> Forall (fun a => number a < 2 ^ 31) (hs ++ ss) -> path_nodes RealPrims nd (path_values hs ss) = Some l ->
  gen_click (g_in i) = false -> left_click (g_in i) = false -> right_click (g_in i) = false -> tab_clicks (g_in i) = [j] -> nth_error (nd :: l) j = Some a ->
  exists u addr, gRun E T (SetWordList wl) ui0 [GEdit FSeed (HexEncode sd); GEdit FPath p; GFrame i] = Some (Ret u) /\
    mnemonicField u = [] /\ rootField u = Encode58 (with_check RealPrims (node_xprv (ser32 0x0488ade4) nd)) /\
    map KKey (tabs u) = map (node_xprv (ser32 0x0488ade4)) (nd :: l) /\ selected u = Z.of_nat j /\
    screen u = Some [B "m" ++ concat (map (fun v => if v <? 2 ^ 31 then soft_text (Itoa v) else hard_text (Itoa (v - 2 ^ 31))) (firstn j (path_values hs ss)));
         Encode58 (with_check RealPrims (node_xprv (ser32 0x0488ade4) a)); Encode58 (with_check RealPrims (node_xpub (ser32 0x0488b21e) a));
         HexEncode (ser256 (n_key a)); HexEncode (serPb (kG (n_key a))); addr] /\
    (forall x y, kG (n_key a) = PAff x y -> 2 ^ 248 <= fv x -> 2 ^ 248 <= fv y -> addr = HexEncode (eth_address RealPrims (fv x) (fv y))).
Proof. exact C105_typed_seed_l. Qed.
Print Assumptions C105_typed_seed.

Example C105_typed_seed_sat : exists E ord T nd l a, env_ok E /\ Permutation ord PathToHDBytesSlice /\ gInit ord = Ret T /\ good_list english /\ text_words english /\ short_words english /\
  master_node RealPrims (map bZ [0; 1; 2; 3; 4; 5; 6; 7; 8; 9; 10; 11; 12; 13; 14; 15]) = Some nd /\ path_nodes RealPrims nd (path_values [B "0"] []) = Some l /\ nth_error (nd :: l) 1 = Some a /\
  exists u addr, gRun E T (SetWordList english) ui0 [GEdit FSeed (B "000102030405060708090a0b0c0d0e0f"); GEdit FPath (B "m/0'"); GFrame (mkGFrame (mkFrame false [] false false [1%nat]) 0 some_source)] = Some (Ret u) /\
    screen u = Some [B "m/0'"; Encode58 (with_check RealPrims (node_xprv (ser32 0x0488ade4) a)); Encode58 (with_check RealPrims (node_xpub (ser32 0x0488b21e) a)); HexEncode (ser256 (n_key a)); HexEncode (serPb (kG (n_key a))); addr] /\
    HexEncode (ser256 (n_key a)) = B "edb2e14f9ee77d26dd93b4ecede8d16ed408ce149b6cd80b0715a2d911a0afea".
Proof. exact C105_typed_seed_sat_l. Qed.
