(** PropsUi.v - the example program (C54-C57, C67-C70).
    Every theorem is closed by the lemma of the same name in ClaimsUi.v; an Example beside it shows that its
    hypotheses can be met. *)
From Verif Require Import Base BaseFacts GoStr GoStrFacts HexFacts Prims Hash HashFacts Secp Base58 Base58Facts Bip39 SpecBip39 UtilMnemonic UtilMnemonicFacts WordLists WlEnglish AllLists SpecPath SpecBip32 SpecUtil SpecUi Bip32Path Bip32Reg Bip32 Bip32RegFacts Bip32KeyFacts Bip32Facts Bip32PathFacts Util UtilFacts Claims32 ClaimsUtil Claims39 Ui UiFacts UiFacts2 ClaimsUi.

(** (** ** C54: the selected tab. A session is a list of edits and frames from the start of the program. *) *)

Theorem C54_no_panic : forall H T wl es, prims_ok H -> after_init T -> good_list wl -> text_words wl ->
  run H T (SetWordList wl) ui0 es = Panic -> exists s, bad_seed H s.
Proof. exact C54_no_panic_l. Qed.
Print Assumptions C54_no_panic.

Theorem C54_in_range : forall H T wl es u, prims_ok H -> after_init T -> good_list wl -> text_words wl ->
  run H T (SetWordList wl) ui0 es = Ret u -> -1 <= selected u /\ selected u <= Z.max 0 (Z.of_nat (length (tabs u)) - 1).
Proof. exact C54_in_range_l. Qed.
Print Assumptions C54_in_range.

Theorem C54_shown : forall H T wl es i u, prims_ok H -> after_init T -> good_list wl -> text_words wl ->
  run H T (SetWordList wl) ui0 (es ++ [Frame i]) = Ret u ->
  (forall l, screen u = Some l -> exists kp, 0 <= selected u < Z.of_nat (length (tabs u)) /\ nth_error (tabs u) (Z.to_nat (selected u)) = Some kp /\ labels H T kp l) /\
  (screen u = None -> selected u = -1 \/ tabs u = []).
Proof. exact C54_shown_l. Qed.
Print Assumptions C54_shown.

Theorem C54_bad_seed_refuted : forall H T wl s i, prims_ok H -> after_init T -> good_list wl -> text_words wl -> bad_seed H s -> gen_click i = false ->
  run H T (SetWordList wl) ui0 [EditSeed s; Frame i] = Panic.
Proof. exact C54_bad_seed_refuted_l. Qed.
Print Assumptions C54_bad_seed_refuted.

Example C54_ex : good_list english /\ text_words english /\ after_init T0 /\ (exists H s, prims_ok H /\ bad_seed H s) /\
(exists es u l, run RealPrims T0 (SetWordList english) ui0 (es ++ [Frame quiet_frame]) = Ret u /\ screen u = Some l) /\
(exists es u, run RealPrims T0 (SetWordList english) ui0 (es ++ [Frame quiet_frame]) = Ret u /\ screen u = None).
Proof. exact C54_ex_l. Qed.

(** (** ** C55: the fields and their variables; the root key field *) *)

Theorem C55_fields : forall H T wl es i u, prims_ok H -> after_init T -> good_list wl -> text_words wl ->
  run H T (SetWordList wl) ui0 (es ++ [Frame i]) = Ret u ->
  mnemonicField u = mnemonic u /\ passField u = passPhrase u /\ seedField u = seed u /\ rootField u = rootKeyStr u /\
  PathString (derivationField u) = PathString (derivationStr u).
Proof. exact C55_fields_l. Qed.
Print Assumptions C55_fields.

Theorem C55_root_text : forall H T wl es i u, prims_ok H -> after_init T -> good_list wl -> text_words wl ->
  run H T (SetWordList wl) ui0 (es ++ [Frame i]) = Ret u ->
  (rootField u = B58Serialize H (bps u) \/ undecodable H (rootField u) /\ bps u = repeat x00 78) /\
  (forall k, B58Deserialize H (rootField u) = Ret (k, None) -> bps u = k).
Proof. exact C55_root_text_l. Qed.
Print Assumptions C55_root_text.

Example C55_ex : (exists u, run RealPrims T0 (SetWordList english) ui0 ([EditRoot (B58Serialize RealPrims k1)] ++ [Frame quiet_frame]) = Ret u /\ rootField u = B58Serialize RealPrims k1 /\ bps u = k1) /\
undecodable RealPrims [].
Proof. exact C55_ex_l. Qed.

(** (** ** C56: the displayed keys and the root key *) *)

Theorem C56_fresh : forall H T wl es i u, prims_ok H -> after_init T -> good_list wl -> text_words wl ->
  run H T (SetWordList wl) ui0 (es ++ [Frame i]) = Ret u ->
  keys_of H T (bps u) (derivationField u) (tabs u) \/ (bps u = repeat x00 78 /\ undecodable H (rootField u)).
Proof. exact C56_fresh_l. Qed.
Print Assumptions C56_fresh.

Theorem C56_stale_refuted : forall H T wl k s i j, prims_ok H -> after_init T -> good_list wl -> text_words wl -> root_key k -> undecodable H s -> gen_click i = false -> gen_click j = false ->
  exists u l, run H T (SetWordList wl) ui0 [EditRoot (B58Serialize H k); Frame i; EditRoot s; Frame j] = Ret u /\
    bps u = repeat x00 78 /\ rootField u = s /\ tabs u = [mkKP (B "m") k] /\ ~ keys_of H T (bps u) (derivationField u) (tabs u) /\
    screen u = Some l /\ nth_error l 1 = Some (B58Serialize H k) /\ nth_error l 3 = Some (PrivateKeyHex k).
Proof. exact C56_stale_refuted_l. Qed.
Print Assumptions C56_stale_refuted.

Example C56_ex : root_key k1 /\ undecodable RealPrims (B "x") /\ (exists k s, root_key k /\ s <> [] /\ undecodable RealPrims s).
Proof. exact C56_ex_l. Qed.

(** (** ** C57: the selection is lost when the list of tabs has been empty *) *)

Theorem C57_stays_lost : forall H T wl es u u', selected u < 0 -> Forall (fun e => match e with Frame i => right_click i = false /\ tab_clicks i = [] | _ => True end) es ->
  run H T (SetWordList wl) u es = Ret u' -> selected u' = selected u /\ (forall es' i, es = es' ++ [Frame i] -> screen u' = None).
Proof. exact C57_stays_lost_l. Qed.
Print Assumptions C57_stays_lost.

Theorem C57_lost_refuted : forall H T wl m k i j, prims_ok H -> after_init T -> good_list wl -> text_words wl -> root_key k -> m <> [] -> IsMnemonicValid H (SetWordList wl) m = false ->
  gen_click i = false -> gen_click j = false -> right_click j = false -> tab_clicks j = [] ->
  exists u, run H T (SetWordList wl) ui0 [EditMnemonic m; Frame i; EditRoot (B58Serialize H k); Frame j] = Ret u /\
    bps u = k /\ rootField u = B58Serialize H k /\ tabs u = [mkKP (B "m") k] /\ selected u = -1 /\ screen u = None.
Proof. exact C57_lost_refuted_l. Qed.
Print Assumptions C57_lost_refuted.

Theorem C57_right_arrow_recovers : forall H T wl es i u j, prims_ok H -> after_init T -> good_list wl -> text_words wl ->
  run H T (SetWordList wl) ui0 (es ++ [Frame i]) = Ret u -> selected u = -1 -> tabs u <> [] ->
  gen_click j = false -> left_click j = false -> right_click j = true -> tab_clicks j = [] ->
  exists u' kp l, run H T (SetWordList wl) u [Frame j] = Ret u' /\ selected u' = 0 /\ nth_error (tabs u) 0 = Some kp /\ labels H T kp l /\ screen u' = Some l.
Proof. exact C57_right_arrow_recovers_l. Qed.
Print Assumptions C57_right_arrow_recovers.

Example C57_ex : IsMnemonicValid RealPrims (SetWordList english) (B "abandon") = false /\
(exists u, run RealPrims T0 (SetWordList english) ui0 ([EditMnemonic (B "abandon"); Frame quiet_frame; EditRoot (B58Serialize RealPrims k1)] ++ [Frame quiet_frame]) = Ret u /\ selected u = -1 /\ tabs u <> []).
Proof. exact C57_ex_l. Qed.

(** (** ** C67: mnemonic, seed and root key belong together *) *)

Theorem C67_wallet : forall H T wl es i u, prims_ok H -> after_init T -> good_list wl -> text_words wl ->
  run H T (SetWordList wl) ui0 (es ++ [Frame i]) = Ret u ->
  (mnemonicField u <> [] -> seedField u = seed_of H (SetWordList wl) (mnemonicField u) (passField u)) /\
  (seedField u <> [] -> root_of H (seedField u) (bps u)) /\
  (undecodable H (rootField u) -> rootField u <> [] -> mnemonicField u = [] /\ seedField u = []).
Proof. exact C67_wallet_l. Qed.
Print Assumptions C67_wallet.

Theorem C67_invalid_mnemonic : forall H T wl es i u, prims_ok H -> after_init T -> good_list wl -> text_words wl ->
  run H T (SetWordList wl) ui0 (es ++ [Frame i]) = Ret u -> mnemonicField u <> [] -> IsMnemonicValid H (SetWordList wl) (mnemonicField u) = false ->
  seedField u = [] /\ bps u = repeat x00 78 /\ rootField u = [] /\ tabs u = [] /\ screen u = None.
Proof. exact C67_invalid_mnemonic_l. Qed.
Print Assumptions C67_invalid_mnemonic.

(** (** ** C69: the generate button; C67 for a generated wallet *) *)

Theorem C69_generate : forall H T wl es u i u' n, prims_ok H -> after_init T -> good_list wl -> text_words wl ->
  run H T (SetWordList wl) ui0 es = Ret u -> In n [12; 15; 18; 21; 24] -> radio u = Itoa n -> gen_click i = true -> run H T (SetWordList wl) u [Frame i] = Ret u' ->
  exists e, Z.of_nat (length (Fields (mnemonicField u'))) = n /\ Z.of_nat (length e) = n * 4 / 3 /\
    EntropyFromMnemonic H (SetWordList wl) (mnemonicField u') = (e, None) /\ ((length e <= length (rand i))%nat -> e = firstn (length e) (rand i)) /\
    passField u' = passField u /\ seedField u' = HexEncode (NewSeed H (mnemonicField u') (passField u)).
Proof. exact C69_generate_l. Qed.
Print Assumptions C69_generate.

Theorem C69_first_click : forall H T wl i u, prims_ok H -> after_init T -> good_list wl -> text_words wl -> gen_click i = true -> run H T (SetWordList wl) ui0 [Frame i] = Ret u ->
  exists e, length (Fields (mnemonicField u)) = 12%nat /\ length e = 16%nat /\ EntropyFromMnemonic H (SetWordList wl) (mnemonicField u) = (e, None) /\
    ((16 <= length (rand i))%nat -> e = firstn 16 (rand i)) /\ seedField u = HexEncode (NewSeed H (mnemonicField u) []).
Proof. exact C69_first_click_l. Qed.
Print Assumptions C69_first_click.

Example C69_ex : exists H, prims_ok H /\ (forall s, ~ bad_seed H s) /\
(exists u, run H T0 (SetWordList english) ui0 [Frame gen_frame] = Ret u /\ mnemonicField u <> [] /\ seedField u <> []) /\
(exists u, run H T0 (SetWordList english) ui0 ([EditMnemonic (B "abandon")] ++ [Frame quiet_frame]) = Ret u /\ mnemonicField u <> [] /\ IsMnemonicValid H (SetWordList english) (mnemonicField u) = false) /\
radio ui0 = Itoa 12 /\ (exists u, run H T0 (SetWordList english) ui0 ([EditRoot (B "x")] ++ [Frame quiet_frame]) = Ret u /\ rootField u = B "x" /\ undecodable H (rootField u)).
Proof. exact C69_ex_l. Qed.

(** (** ** C68: editing the passphrase erases a wallet entered as a seed or root key *) *)

Theorem C68_wiped_refuted : forall H T wl es i u p j, prims_ok H -> after_init T -> good_list wl -> text_words wl ->
  run H T (SetWordList wl) ui0 (es ++ [Frame i]) = Ret u -> mnemonicField u = [] -> p <> passField u -> gen_click j = false ->
  exists u', run H T (SetWordList wl) u [EditPass p; Frame j] = Ret u' /\
    bps u' = repeat x00 78 /\ seedField u' = [] /\ rootField u' = [] /\ tabs u' = [] /\ screen u' = None.
Proof. exact C68_wiped_refuted_l. Qed.
Print Assumptions C68_wiped_refuted.

Example C68_ex : exists u, run RealPrims T0 (SetWordList english) ui0 ([EditRoot (B58Serialize RealPrims k1)] ++ [Frame quiet_frame]) = Ret u /\ mnemonicField u = [] /\ B "x" <> passField u /\ bps u = k1 /\ tabs u <> [].
Proof. exact C68_ex_l. Qed.

(** (** ** C70: an edit takes effect in the next frame *) *)

Theorem C70_mnemonic : forall H T wl es u m j u', prims_ok H -> after_init T -> good_list wl -> text_words wl ->
  run H T (SetWordList wl) ui0 es = Ret u -> m <> mnemonic u -> gen_click j = false -> run H T (SetWordList wl) u [EditMnemonic m; Frame j] = Ret u' ->
  mnemonicField u' = m /\ passField u' = passField u.
Proof. exact C70_mnemonic_l. Qed.
Print Assumptions C70_mnemonic.

Theorem C70_seed : forall H T wl es i u s j u', prims_ok H -> after_init T -> good_list wl -> text_words wl ->
  run H T (SetWordList wl) ui0 (es ++ [Frame i]) = Ret u -> s <> seedField u -> gen_click j = false -> run H T (SetWordList wl) u [EditSeed s; Frame j] = Ret u' ->
  seedField u' = s /\ mnemonicField u' = [] /\ passField u' = passField u /\ root_of H s (bps u').
Proof. exact C70_seed_l. Qed.
Print Assumptions C70_seed.

Theorem C70_root : forall H T wl es i u s k j, prims_ok H -> after_init T -> good_list wl -> text_words wl ->
  run H T (SetWordList wl) ui0 (es ++ [Frame i]) = Ret u -> B58Deserialize H s = Ret (k, None) -> s <> rootField u -> gen_click j = false ->
  exists u', run H T (SetWordList wl) u [EditRoot s; Frame j] = Ret u' /\ bps u' = k /\ rootField u' = B58Serialize H k /\ mnemonicField u' = [] /\ seedField u' = [] /\
    passField u' = passField u /\ keys_of H T k (derivationField u') (tabs u').
Proof. exact C70_root_l. Qed.
Print Assumptions C70_root.

Theorem C70_path : forall H T wl es i u p j, prims_ok H -> after_init T -> good_list wl -> text_words wl ->
  run H T (SetWordList wl) ui0 (es ++ [Frame i]) = Ret u -> PathString p <> PathString (derivationField u) -> gen_click j = false ->
  exists u', run H T (SetWordList wl) u [EditPath p; Frame j] = Ret u' /\ derivationField u' = p /\ bps u' = bps u /\ rootField u' = B58Serialize H (bps u) /\
    mnemonicField u' = mnemonicField u /\ passField u' = passField u /\ seedField u' = seedField u /\ keys_of H T (bps u) p (tabs u').
Proof. exact C70_path_l. Qed.
Print Assumptions C70_path.

Example C70_ex : B58Deserialize RealPrims (B58Serialize RealPrims k1) = Ret (k1, None) /\ PathString (B "m/0") <> PathString (derivationField ui0) /\
(exists u, run RealPrims T0 (SetWordList english) ui0 ([] ++ [Frame quiet_frame]) = Ret u /\ B58Serialize RealPrims k1 <> rootField u /\ B "00" <> seedField u /\ B "abandon" <> mnemonic u).
Proof. exact C70_ex_l. Qed.
