(** ClaimsWhole.v - the property statements of PropsWhole.v with their proofs. *)
From Verif Require Import Base BaseFacts GoStr GoStrFacts HexFacts Prims Hash HashFacts Bip39 SpecBip39 UtilMnemonic WordLists WlEnglish AllLists Secp SpecPath SpecBip32 SpecUtil SpecWallet Bip32Path Bip32Reg Bip32 Bip32PathFacts Bip32Facts Bip32KeyFacts Bip32Facts2 Bip32RegFacts UtilFacts Util Fp ECGroup SpecEC SecpFacts Base58 Base58Facts Bip39Facts GoNat SpecNat GoNatBytes GoRand SpecRand GoWhole GoWholeFacts Abandon SpecUi Ui UiFacts Claims39 Claims32 ClaimsPath ClaimsUtil ClaimsUi ClaimsWallet.
From Verif Require ClaimsCurve ClaimsRand.
From Coq Require Import Lia.
From Coq Require Import ZifyBool ZifyNat ZifyN.

Lemma wallet_from_seed : forall H T sd p s hs ss nd l, prims_ok H -> after_init T -> (16 <= length sd)%nat ->
  master_node H sd = Some nd -> stripped p s -> path_grammar s hs ss -> Forall (fun a => number a < 2 ^ 31) (hs ++ ss) -> path_nodes H nd (path_values hs ss) = Some l ->
  let root := node_xprv (ser32 0x0488ade4) nd in wf_key root /\
  exists kps, RootKeyFromSeed H (HexEncode sd) = Ret (Some root, None) /\
    DeriveBIP32Result H T root p = Ret (kps, None) /\
    B58Deserialize H (B58Serialize H root) = Ret (root, None) /\
    map KKey kps = map (node_xprv (ser32 0x0488ade4)) (nd :: l) /\
    (forall j kp, nth_error kps j = Some kp ->
       KPath kp = B "m" ++ concat (map (fun v => if v <? 2 ^ 31 then soft_text (Itoa v) else hard_text (Itoa (v - 2 ^ 31))) (firstn j (path_values hs ss)))).
Proof.
intros H T sd p s hs ss nd l HP HT L HN HS HG HB HL.
  destruct (master_ok H sd nd HP HN) as (OK & D0 & F0 & I0 & M).
  assert (ER : node_xprv (ser32 0x0488ade4) nd = xprv xprv_version x00 z4 (ser32 0) (n_chain nd) (n_key nd)).
  { unfold node_xprv. rewrite D0, F0, I0. reflexivity. }
  cbv zeta.
  assert (HR : RootKeyFromSeed H (HexEncode sd) = Ret (Some (node_xprv (ser32 0x0488ade4) nd), None)).
  { rewrite (RootKey_spec H _ sd HP (HexDecode_Encode sd)) by lia. rewrite M, ER. reflexivity. }
  pose proof HG as (mm & _ & N1 & N2 & _).
  assert (EV : ValuesAtDepth p = (0 :: path_values hs ss, None)).
  { destruct (C35_grammar_l p s HS) as [G1 G2]. assert (PV : PathIsValid p = true).
    { apply G1. exists hs, ss. split; [exact HG|]. apply Forall_app in HB as [B1 B2]. split; apply Forall_forall; intros a Ha.
      - pose proof (proj1 (Forall_forall _ _) B1 a Ha). pose proof (number_range a (proj1 (Forall_forall _ _) N1 a Ha)). cbv beta in *. rewrite Z.mod_small; lia.
      - pose proof (proj1 (Forall_forall _ _) B2 a Ha). cbv beta in *. lia. }
    apply G2 in PV as (l0 & E0). rewrite E0. f_equal. apply (proj2 (C36_values_l p s hs ss l0 HS HG E0)).
    eapply Forall_impl; [|exact HB]. intros a Ha. cbv beta in *. lia. }
  pose proof (node_fields xprv_version nd eq_refl OK) as HF.
  assert (RK : root_key (node_xprv (ser32 0x0488ade4) nd)). { rewrite ER. apply xprv_root; [|exact (proj2 (proj2 OK))]. rewrite F0, I0 in HF. exact HF. }
  destruct (root_derive H T _ p _ HP HT RK EV) as (kps & E & LK).
  split; [apply xprv_wf; exact HF|].
  exists (mkKP (B "m") (node_xprv (ser32 0x0488ade4) nd) :: kps). split; [exact HR|]. split; [exact E|].
  split.
  - apply C15_roundtrip_l; [exact HP|apply xprv_wf; exact HF|apply node_nonzero; [reflexivity|exact OK]].
  - split; [|exact (C43_path_text_l H T _ p _ _ HP HT RK EV E)].
    cbn [map KKey]. f_equal. refine (proj1 (nodes_linked H T xprv_version _ HP HT eq_refl xprv_reg _ nd l _ _ OK HL LK)).
    apply path_range; [apply Forall_app; split; assumption|exact HB].
Qed.
Lemma seed_from_words : forall H wl m e pw, prims_ok H -> good_list wl -> entropy_size_ok e -> Fields m = bip39_words H wl e ->
  DeriveSeedFromMnemonic H (SetWordList wl) m pw = (HexEncode (p_pbkdf2 H m (B "mnemonic" ++ pw)), None) /\ IsMnemonicValid H (SetWordList wl) m = true.
Proof.
  intros H wl m e pw HP HW HE HM.
  assert (V : IsMnemonicValid H (SetWordList wl) m = true) by (apply (proj2 (C03_accepts_exactly_l H wl m HP HW)); exists e; split; assumption). split; [|exact V].
  destruct (C08_seed_gating_l H (SetWordList wl) m pw HP) as (L64 & ES & A & _). destruct (A V) as (_ & h & EH & _ & Eh). rewrite ES in Eh. subst h. exact EH.
Qed.
Lemma env_exists : exists E, env_ok E.
Proof.
  destruct ClaimsCurve.C93_ex_l as (tab & T). exists (mkEnv (repeat x00 68) tab (setBytes (Z_bytes secp_p)) (setBytes (Z_bytes secp_n)) (setBytes (Z_bytes secp_b))).
  assert (S : forall v, 0 <= v -> stands (setBytes (Z_bytes v)) v) by (intros v V; pose proof (setBytes_ok (Z_bytes v)) as S; rewrite be_Z_bytes in S by exact V; exact S).
  split; [reflexivity|]. split; [exact T|]. split; [|split]; apply S; vm_compute; discriminate.
Qed.

Lemma C103_keys_l : forall E T key, env_ok E -> wf_key key ->
  (forall i, gNewChildKey E T key i = NewChildKey RealPrims T key i) /\
  gPublicKeyExtended E T key = Ret (PublicKeyExtended T key) /\ gPrivateKeyHex key = Ret (PrivateKeyHex key) /\ gPublicKeyHex E T key = Ret (PublicKeyHex T key) /\
  gSerialize key = Ret (Serialize RealPrims key) /\ gB58Serialize key = Ret (B58Serialize RealPrims key) /\ gKeyIsValid key = KeyIsValid RealPrims key /\
  gAddrHex E T key = AddrHex RealPrims T key /\ (forall v, gAddrP2SH E T key v = Ret (AddrP2SH RealPrims T key v)).
Proof.
intros E T key EO W. split; [intros i; apply gNewChildKey_ok; assumption|]. split; [apply gPublicKeyExtended_ok; assumption|]. split; [apply gPrivateKeyHex_ok|]. split; [apply gPublicKeyHex_ok; assumption|].
split; [apply gSerialize_ok, wf61, W|]. split; [apply gB58Serialize_ok, wf61, W|]. split; [apply gKeyIsValid_ok, wf61, W|]. split; [apply gAddrHex_ok; assumption|]. intros v. apply gAddrP2SH_ok; assumption.
Qed.

Lemma C103_keys_sat_l : (exists E, env_ok E) /\ wf_key zero_key /\ gPrivateKeyHex zero_key = Ret (repeat x30 64) /\ gKeyIsValid zero_key = Ret false.
Proof.
split; [exact env_exists|]. split; [reflexivity|]. split; vm_compute; reflexivity.
Qed.

Lemma C103_texts_l : (forall seed E, env_ok E -> Z.of_nat (length seed) < 2 ^ 61 - 128 -> gNewMasterKey E seed = NewMasterKey RealPrims seed) /\
(forall d, gDeserialize d = Deserialize RealPrims d) /\ (forall s, gB58Deserialize s = B58Deserialize RealPrims s) /\
(forall s E, env_ok E -> Z.of_nat (length s) < 2 ^ 61 -> gRootKeyFromSeed E s = RootKeyFromSeed RealPrims s).
Proof.
split; [intros seed E EO L; apply gNewMasterKey_ok; assumption|]. split; [exact gDeserialize_ok|]. split; [exact gB58Deserialize_ok|]. intros s E EO L. apply gRootKeyFromSeed_ok; assumption.
Qed.

Lemma C103_texts_sat_l : gDeserialize [x01] = Ret (x01 :: repeat x00 77, Some ErrSerializedKeyWrongSize) /\ gB58Deserialize (B "2g0") = Ret (zero_key, Some ErrSerializedKeyWrongSize) /\ Z.of_nat (length (B "0123456789abcdef")) < 2 ^ 61 - 128.
Proof.
split; [reflexivity|]. split; reflexivity.
Qed.

Lemma C103_paths_l : (forall p, gPathString p = Ret (PathString p) /\ gValuesAtDepth p = Ret (ValuesAtDepth p) /\ gPathIsValid p = Ret (PathIsValid p) /\ (forall b, gValueAtDepth p b = ValueAtDepth p b)) /\
(forall E p b v, env_ok E -> 0 <= v < 2 ^ 64 -> gReplaceValueAtDepth E p b v = ReplaceValueAtDepth p b v) /\
(forall h, gVBIsValid h = Ret (VBIsValid h) /\ gComp_val 1 h ErrInvalidPurpose = PurposeVal h /\ gComp_val 2 h ErrInvalidCoin = CoinVal h /\
  gVal_full 1 h ErrInvalidPurpose = PurposeValFull h /\ gVal_full 2 h ErrInvalidCoin = CoinValFull h) /\
(forall ord, gInit ord = init_tables ord).
Proof.
split; [intros p; split; [apply gPathString_ok|]; split; [apply gValuesAtDepth_ok|]; split; [apply gPathIsValid_ok|]; intros b; apply gValueAtDepth_ok|].
split; [intros E p b v EO V; apply gReplace_ok; assumption|]. split; [|exact gInit_ok].
intros h. split; [apply gVBIsValid_ok|]. destruct (gPurposeVal_ok h) as (A & C). destruct (gVal_full_ok h) as (D & F). auto.
Qed.

Lemma C103_paths_sat_l : gValuesAtDepth (B "m/44' /7") = Ret ([0; 2147483692; 7], None) /\ gValuesAtDepth (B "m//7") = Ret ([], Some ErrUnSupportedOrInvalidPath) /\ gComp_val 2 Nexaxprvxpub ErrInvalidCoin = Ret (29223, None).
Proof.
rewrite !gValuesAtDepth_ok, (proj2 (gPurposeVal_ok _)). split; [vm_compute; reflexivity|]. split; vm_compute; reflexivity.
Qed.

Lemma C103_mnemonic_l : forall st, (forall e, gNewMnemonic st e = NewMnemonic RealPrims st e) /\ (forall m, gEntropyFromMnemonic st m = Ret (EntropyFromMnemonic RealPrims st m)) /\
  (forall m raw, gMnemonicToByteArray st m raw = Ret (MnemonicToByteArray RealPrims st m raw)) /\ (forall m, gIsMnemonicValid st m = Ret (IsMnemonicValid RealPrims st m)) /\
  (forall m pw, Z.of_nat (length m) < 2 ^ 61 -> Z.of_nat (length pw) < 2 ^ 61 - 140 -> gNewSeed m pw = Ret (NewSeed RealPrims m pw) /\
     gNewSeedWithErrorChecking st m pw = Ret (NewSeedWithErrorChecking RealPrims st m pw) /\ gDeriveSeedFromMnemonic st m pw = Ret (DeriveSeedFromMnemonic RealPrims st m pw)) /\
  (forall fuel s n r, source_ok s -> gGenerateMnemonic fuel s st n = Some r -> exists rd, r = GenerateMnemonic RealPrims st rd n /\
     (In n [12; 15; 18; 21; 24] -> (exists w, answered s (Z.to_nat (n / 3 * 4)) w) -> answered s (Z.to_nat (n / 3 * 4)) rd)).
Proof.
intros st. split; [intros e; apply gNewMnemonic_ok|]. split; [intros m; apply gEntropy_ok|]. split; [intros m raw; apply gMnemonicToByteArray_ok|]. split; [intros m; apply gIsMnemonicValid_ok|].
split; [intros m pw A C; split; [apply gNewSeed_ok; assumption|]; split; [apply gNewSeedWithErrorChecking_ok|apply gDeriveSeed_ok]; assumption|]. intros fuel s n r. apply gGenerateMnemonic_ok.
Qed.

Lemma C103_mnemonic_sat_l : gNewMnemonic (SetWordList (repeat (B "a") 2048)) [x00] = Ret ([], Some ErrEntropyLengthInvalid) /\ gEntropyFromMnemonic (SetWordList [B "a"]) (B "a a b") = Ret ([], Some ErrInvalidMnemonic) /\
gEntropyFromMnemonic (SetWordList [B "a"]) (B "a a a a a a a a a a a b") = Ret ([], Some (ErrWord (B "b"))) /\ (exists s, source_ok s /\ answered s 16 (repeat x07 16)).
Proof.
split; [reflexivity|]. split; [vm_compute; reflexivity|]. split; [vm_compute; reflexivity|].
exists {| s_sys := fun _ m => (repeat x07 m, None); s_max := Some 256%nat; s_open := None; s_file := fun _ m => (repeat x05 (Nat.min m 1), None) |}.
split; [split; [intros c m; cbn; rewrite repeat_length; lia|split; [intros c m; cbn [s_file fst]; rewrite repeat_length; lia|cbn [s_max]; intros max [= <-]; lia]]|].
exists 256%nat. split; [reflexivity|]. cbn [s_sys]. exact (fl_more _ 256 0 16 (repeat x07 16) [] ltac:(lia) eq_refl eq_refl (fl_done _ 256 1)).
Qed.

Lemma C103_util_l : forall E T, env_ok E -> after_init T ->
  (forall root p, wf_key root -> gDeriveBIP32Result E T root p = DeriveBIP32Result RealPrims T root p) /\
  (forall k, wf_key (KKey (RKeyPath k)) -> 0 <= StartIndex k -> EndIndex k < 2 ^ 32 -> gGenerateRange E T k = GenerateRange RealPrims T k).
Proof.
intros E T EO HT. split; [intros root p W; apply gDerive_ok; assumption|]. intros k W A C. apply gGenerateRange_ok; assumption.
Qed.

Lemma C103_util_sat_l : (exists E, env_ok E) /\ (exists T, after_init T) /\ (forall T, gGenerateRange (mkEnv [] [] [] [] []) T (mkKPR 3 3 (mkKP (B "m") zero_key) []) = Ret (mkKPR 3 3 (mkKP (B "m") zero_key) [], Some ErrInvalidRangeProvided)).
Proof.
split; [exact env_exists|]. split; [|reflexivity]. exact (ex_intro _ T0 T0_ok).
Qed.

Lemma C103_seed_l : forall wl m e pw, good_list wl -> entropy_size_ok e -> Fields m = bip39_words RealPrims wl e -> Z.of_nat (length m) < 2 ^ 61 -> Z.of_nat (length pw) < 2 ^ 61 - 140 ->
  gNewMnemonic (SetWordList wl) e = Ret (Join (B " ") (bip39_words RealPrims wl e), None) /\ gIsMnemonicValid (SetWordList wl) m = Ret true /\
  gDeriveSeedFromMnemonic (SetWordList wl) m pw = Ret (HexEncode (p_pbkdf2 RealPrims m (B "mnemonic" ++ pw)), None).
Proof.
intros wl m e pw HW HE HM A C. destruct (seed_from_words RealPrims wl m e pw real_prims_ok HW HE HM) as (S & V).
split; [rewrite gNewMnemonic_ok; apply (C02_NewMnemonic_l RealPrims (SetWordList wl) e real_prims_ok); [change (GetWordList (SetWordList wl)) with wl; destruct HW as (L & _); rewrite L; apply le_n|exact HE]|].
split; [rewrite gIsMnemonicValid_ok, V; reflexivity|]. rewrite (gDeriveSeed_ok _ m pw A C), S. reflexivity.
Qed.

Lemma C103_seed_sat_l : exists wl m e, good_list wl /\ entropy_size_ok e /\ Fields m = bip39_words RealPrims wl e /\ Z.of_nat (length m) < 2 ^ 61.
Proof.
destruct C01_roundtrip_ex_l as (_ & G & W & E & _). exists english, (Join (B " ") (bip39_words RealPrims english zero16)), zero16. split; [exact G|]. split; [exact E|]. split; [apply Fields_bip39; try assumption; exact real_prims_ok|vm_compute; reflexivity].
Qed.

Lemma C103_wallet_l : forall E ord T sd p s hs ss nd l, env_ok E -> Permutation ord PathToHDBytesSlice -> gInit ord = Ret T -> (16 <= length sd)%nat -> Z.of_nat (length sd) < 2 ^ 59 ->
  master_node RealPrims sd = Some nd -> stripped p s -> path_grammar s hs ss -> Forall (fun a => number a < 2 ^ 31) (hs ++ ss) -> path_nodes RealPrims nd (path_values hs ss) = Some l ->
  let root := node_xprv (ser32 0x0488ade4) nd in
  exists kps, gRootKeyFromSeed E (HexEncode sd) = Ret (Some root, None) /\ gDeriveBIP32Result E T root p = Ret (kps, None) /\
    (let! t := gB58Serialize root in gB58Deserialize t) = Ret (root, None) /\
    map KKey kps = map (node_xprv (ser32 0x0488ade4)) (nd :: l) /\
    (forall j kp, nth_error kps j = Some kp ->
       KPath kp = B "m" ++ concat (map (fun v => if v <? 2 ^ 31 then soft_text (Itoa v) else hard_text (Itoa (v - 2 ^ 31))) (firstn j (path_values hs ss)))).
Proof.
intros E ord T sd p s hs ss nd l EO PO GI L1 L2 HN HS HG HB HL. rewrite gInit_ok in GI. assert (HT : after_init T) by (exists ord; split; assumption).
destruct (wallet_from_seed RealPrims T sd p s hs ss nd l real_prims_ok HT L1 HN HS HG HB HL) as (W & kps & R & D & S & K & P). cbv zeta. exists kps.
split; [rewrite (gRootKeyFromSeed_ok E EO); [exact R|rewrite HexEncode_length; assert (2 ^ 61 = 4 * 2 ^ 59) by reflexivity; lia]|]. split; [rewrite (gDerive_ok E EO T _ p HT W); exact D|].
split; [rewrite (gB58Serialize_ok _ (wf61 _ W)); cbn [bind]; rewrite gB58Deserialize_ok; exact S|]. split; assumption.
Qed.

Lemma C103_wallet_sat_l : exists E ord T nd l, env_ok E /\ Permutation ord PathToHDBytesSlice /\ gInit ord = Ret T /\ master_node RealPrims (map bZ [0; 1; 2; 3; 4; 5; 6; 7; 8; 9; 10; 11; 12; 13; 14; 15]) = Some nd /\
  stripped (B "m/0'") (B "m/0'") /\ path_grammar (B "m/0'") [B "0"] [] /\ path_nodes RealPrims nd (path_values [B "0"] []) = Some l /\ length l = 1%nat /\
  HexEncode (ser256 (n_key nd)) = B "e8f32e723decf4051aefac8e2c93c9c5b214313817cdb01a1494b917c8436b35" /\
  HexEncode (concat (map (fun a => ser256 (n_key a)) l)) = B "edb2e14f9ee77d26dd93b4ecede8d16ed408ce149b6cd80b0715a2d911a0afea".
Proof.
destruct env_exists as (E & EO). destruct (after_init_exists PathToHDBytesSlice (Permutation_refl _)) as (T & IT & _).
set (sd := map bZ [0; 1; 2; 3; 4; 5; 6; 7; 8; 9; 10; 11; 12; 13; 14; 15]).
let i := eval vm_compute in (I_master RealPrims sd) in assert (IM : I_master RealPrims sd = i) by (vm_compute; reflexivity).
let k := eval vm_compute in (IL (I_master RealPrims sd)) in let c := eval vm_compute in (IR (I_master RealPrims sd)) in assert (M : master_node RealPrims sd = Some (mkNode 0 (repeat x00 4) 0 c k)) by (unfold master_node, master; rewrite IM; vm_compute; reflexivity).
match type of M with _ = Some ?n => set (nd := n) in M end.
let i := eval vm_compute in (I_priv RealPrims (n_key nd) (n_chain nd) 2147483648) in assert (IP : I_priv RealPrims (n_key nd) (n_chain nd) 2147483648 = i) by (vm_compute; reflexivity).
assert (P : exists k c, CKDpriv RealPrims (n_key nd) (n_chain nd) 2147483648 = Some (k, c) /\ HexEncode (ser256 k) = B "edb2e14f9ee77d26dd93b4ecede8d16ed408ce149b6cd80b0715a2d911a0afea").
{ unfold CKDpriv. cbv zeta. rewrite IP. eexists _, _. split; [vm_compute; reflexivity|vm_compute; reflexivity]. }
destruct P as (k & c & P & HK).
exists E, PathToHDBytesSlice, T, nd, [mkNode (n_depth nd + 1) (fingerprint RealPrims (kG (n_key nd))) 2147483648 c k].
split; [exact EO|]. split; [apply Permutation_refl|]. split; [rewrite gInit_ok; exact IT|]. split; [exact M|]. split; [apply stripped_iff; vm_compute; reflexivity|].
split; [exists x6d; split; [left; reflexivity|]; split; [constructor; [split; [discriminate|repeat constructor; cbn; tauto]|constructor]|]; split; [constructor|reflexivity]|].
split; [change (path_values [B "0"] []) with [2147483648]; cbn [path_nodes]; unfold child_node; rewrite P; reflexivity|]. split; [reflexivity|]. split; [vm_compute; reflexivity|].
cbn [map concat n_key]. rewrite app_nil_r. exact HK.
Qed.

Lemma C103_shown_l : forall E ord T seed nd vs l a v w, env_ok E -> Permutation ord PathToHDBytesSlice -> gInit ord = Ret T -> master_node RealPrims seed = Some nd -> path_nodes RealPrims nd vs = Some l -> In a (nd :: l) ->
  length v = 4%nat -> length w = 4%nat -> paired v w ->
  gPublicKeyExtended E T (node_xprv v a) = Ret (node_xpub w a) /\
  gB58Serialize (node_xprv v a) = Ret (Encode58 (with_check RealPrims (node_xprv v a))) /\
  gB58Serialize (node_xpub w a) = Ret (Encode58 (with_check RealPrims (node_xpub w a))) /\
  gPrivateKeyHex (node_xprv v a) = Ret (HexEncode (ser256 (n_key a))) /\
  gPublicKeyHex E T (node_xprv v a) = Ret (HexEncode (serPb (kG (n_key a)))) /\
  (forall ver, gAddrP2SH E T (node_xprv v a) ver = Ret (Encode58 (p2pkh_payload RealPrims ver (serPb (kG (n_key a)))))) /\
  (forall x y, kG (n_key a) = PAff x y -> 2 ^ 248 <= fv x -> 2 ^ 248 <= fv y -> gAddrHex E T (node_xprv v a) = Ret (HexEncode (eth_address RealPrims (fv x) (fv y)))).
Proof.
intros E ord T seed nd vs l a v w EO PO GI HM HL HA Lv Lw PW. rewrite gInit_ok in GI. assert (HT : after_init T) by (exists ord; split; assumption).
pose proof (proj1 (Forall_forall _ _) (nodes_ok_all RealPrims vs real_prims_ok nd l (proj1 (master_ok RealPrims seed nd real_prims_ok HM)) HL) a HA) as OK.
assert (W : wf_key (node_xprv v a)) by (apply xprv_wf, node_fields; assumption).
destruct (C81_shown_l RealPrims T seed nd vs l a v w real_prims_ok HT HM HL HA Lv Lw PW) as (X1 & X2 & X3 & X4 & X5 & X6 & X7).
assert (W2 : wf_key (node_xpub w a)). { rewrite <- X1. change (wf_key (PublicKeyExtended T (node_xprv v a))). unfold PublicKeyExtended, SetVersion. destruct (IsPrivate (node_xprv v a)); repeat (apply copy_wf; [lia|]); exact W. }
split; [rewrite (gPublicKeyExtended_ok E EO T _ W), X1; reflexivity|]. split; [rewrite (gB58Serialize_ok _ (wf61 _ W)), X2; reflexivity|]. split; [rewrite (gB58Serialize_ok _ (wf61 _ W2)), X3; reflexivity|].
split; [rewrite gPrivateKeyHex_ok, X4; reflexivity|]. split; [rewrite (gPublicKeyHex_ok E EO T _ W), X5; reflexivity|]. split; [intros ver; rewrite (gAddrP2SH_ok E EO T _ ver W), X6; reflexivity|].
intros x y K X Y. rewrite (gAddrHex_ok E EO T _ W). apply X7; assumption.
Qed.

Lemma C103_shown_sat_l : length (ser32 0x0488ade4) = 4%nat /\ length (ser32 0x0488b21e) = 4%nat /\ paired (ser32 0x0488ade4) (ser32 0x0488b21e).
Proof.
split; [reflexivity|]. split; [reflexivity|]. unfold paired. vm_compute. tauto.
Qed.

Lemma C103_total_l : forall E T key, env_ok E -> after_init T -> wf_key key ->
  (forall i, exists k e, gNewChildKey E T key i = Ret (k, e) /\ wf_key k) /\ (forall p, exists kps e, gDeriveBIP32Result E T key p = Ret (kps, e) /\ Forall (fun kp => wf_key (KKey kp)) kps) /\
  (exists a, gAddrHex E T key = Ret a /\ length a = 40%nat) /\ (exists v, gKeyIsValid key = Ret v) /\ (forall s, exists k e, gB58Deserialize s = Ret (k, e) /\ wf_key k).
Proof.
intros E T key EO HT W. pose proof real_prims_ok as HP.
split; [intros i; rewrite (gNewChildKey_ok E EO T key i W); destruct (NewChildKey_total RealPrims T key i HP HT W) as ([k e] & N & WK); exists k, e; split; assumption|].
split; [intros p; rewrite (gDerive_ok E EO T key p HT W); apply Derive_total; assumption|].
split; [rewrite (gAddrHex_ok E EO T key W); apply C45_total_l; assumption|].
split; [rewrite (gKeyIsValid_ok key (wf61 key W)); eexists; apply KeyIsValid_l; assumption|]. intros s. rewrite gB58Deserialize_ok. apply B58_total. exact HP.
Qed.

Lemma C103_total_sat_l : (exists E, env_ok E) /\ (exists T, after_init T) /\ wf_key zero_key.
Proof.
split; [exact env_exists|]. split; [exact (ex_intro _ T0 T0_ok)|reflexivity].
Qed.
