(** GoWholeFacts.v - the functions of GoWhole return what the functions of the model return. *)
From Verif Require Import Base BaseFacts GoStr GoStrFacts GoStrLit HexFacts Rx Prims Hash HashFacts Secp SecpFacts Base58 Bip32Path Bip32PathFacts Bip32Reg Bip32 Bip32KeyFacts Bip32Facts Bip39 Bip39Facts Util UtilFacts UtilMnemonic GoHash GoCodec GoField GoCurve GoCurveFacts GoNat SpecNat GoNatFacts GoNatOps GoNatKara GoNatDiv GoNatBytes GoNatUse GoNatUseFacts GoRegexp GoRegexpParse GoFmt GoFmtFacts GoRand SpecRand GoWhole.
From Verif Require ClaimsHash ClaimsCodec ClaimsCurve ClaimsNat ClaimsRegexp ClaimsText ClaimsRand.
From Coq Require Import Lia ZifyBool ZifyNat.

(** What the packages have set up: bip32/utils.go:17-18 *)
Definition env_ok (E : env) : Prop :=
  length (e_buf E) = 68%nat /\ bytePoints_ok (e_tab E) /\ stands (e_P E) secp_p /\ stands (e_N E) secp_n /\ stands (e_B E) secp_b.

(** ** Hashes *)
Lemma gSha256_ok : forall x, Z.of_nat (length x) < 2 ^ 61 -> gSha256 x = Ret (p_sha256 RealPrims x).
Proof. exact (proj1 ClaimsHash.C85_calls_l). Qed.
Lemma gRipemd160_ok : forall x, Z.of_nat (length x) < 2 ^ 61 -> gRipemd160 x = Ret (p_ripemd160 RealPrims x).
Proof. exact (proj1 (proj2 ClaimsHash.C85_calls_l)). Qed.
Lemma gKeccak_ok : forall x, gKeccak x = Ret (p_keccak256 RealPrims x).
Proof. intros x. destruct (proj1 (proj2 (proj2 ClaimsHash.C85_calls_l)) x) as (d & E & S). unfold gKeccak. rewrite E. cbn [bind]. rewrite S. reflexivity. Qed.
Lemma gHmac_ok : forall k x, Z.of_nat (length k) < 2 ^ 61 -> Z.of_nat (length x) < 2 ^ 61 - 128 -> gHmac k x = Ret (p_hmac512 RealPrims k x).
Proof. intros k x A C. destruct (proj1 (proj2 (proj2 (proj2 ClaimsHash.C85_calls_l))) k x A C) as (h & h' & E & S). unfold gHmac. rewrite E. cbn [bind]. rewrite S. reflexivity. Qed.
Lemma gNewSeed_ok : forall m pw, Z.of_nat (length m) < 2 ^ 61 -> Z.of_nat (length pw) < 2 ^ 61 - 140 -> gNewSeed m pw = Ret (NewSeed RealPrims m pw).
Proof. intros m pw A C. apply (proj2 (proj2 (proj2 (proj2 ClaimsHash.C85_calls_l)))); [exact A|]. rewrite app_length. change (length (B "mnemonic")) with 8%nat. lia. Qed.
Lemma small61 : forall n, (n <= 4000)%nat -> Z.of_nat n < 2 ^ 61 - 140.
Proof. intros n L. assert (4000 < 2 ^ 61 - 140) by reflexivity. lia. Qed.
Lemma sha_len : forall x, length (p_sha256 RealPrims x) = 32%nat.
Proof. intros x. apply real_prims_ok. Qed.
Lemma gHash160_ok : forall x, Z.of_nat (length x) < 2 ^ 61 -> gHash160 x = Ret (HashRipeMD160onSha256 RealPrims x).
Proof. intros x L. unfold gHash160. rewrite (gSha256_ok x L). cbn [bind]. apply gRipemd160_ok. rewrite sha_len. reflexivity. Qed.
Lemma gChecksum_ok : forall x, Z.of_nat (length x) < 2 ^ 61 -> gChecksum x = Ret (ChecksumDblSha256 RealPrims x).
Proof. intros x L. unfold gChecksum. rewrite (gSha256_ok x L). cbn [bind]. rewrite gSha256_ok by (rewrite sha_len; reflexivity). reflexivity. Qed.
Lemma gAddChecksumToBytes_ok : forall x, Z.of_nat (length x) < 2 ^ 61 -> gAddChecksumToBytes x = Ret (AddChecksumDblSha256ToBytes RealPrims x).
Proof. intros x L. unfold gAddChecksumToBytes. rewrite (gChecksum_ok x L). reflexivity. Qed.

(** ** Numbers and texts *)
Lemma uint32Bytes_ok : forall i, GoUint32Bytes i = Ret (uint32Bytes i).
Proof. intros i. unfold GoUint32Bytes. rewrite GoPutUint32_ok, app_nil_r. reflexivity. Qed.
Lemma hexenc_ok : forall s, GoHexEncode s = Ret (HexEncode s).
Proof. exact (proj1 ClaimsCodec.C87_hex_l). Qed.
Lemma hexdec_ok : forall s, exists b e, GoHexDecode s = Ret (b, e) /\ HexDecode s = match e with None => Some b | Some _ => None end.
Proof. exact (proj2 (proj2 ClaimsCodec.C87_hex_l)). Qed.
Lemma slice4 : forall k, wf_key k -> GoUint32 (slice 0 4 k) = Ret (be_Z (slice 0 4 k)).
Proof. intros k W. unfold wf_key in W. destruct k as [|a [|b [|c [|d r]]]]; try discriminate W. change (slice 0 4 (a :: b :: c :: d :: r)) with [a; b; c; d]. apply GoUint32_ok. Qed.

Lemma copy_at_len : forall lo hi (s d : bytes), (lo <= hi <= length d)%nat -> length (copy_at lo hi s d) = length d.
Proof. intros lo hi s d L. unfold copy_at. apply overwrite_length. rewrite firstn_length. lia. Qed.
Lemma copy_wf : forall lo hi (s d : bytes), (lo <= hi <= 78)%nat -> wf_key d -> wf_key (copy_at lo hi s d).
Proof. intros lo hi s d L W. unfold wf_key in *. rewrite copy_at_len by lia. exact W. Qed.
Lemma master_wf : forall b k e, NewMasterKey RealPrims b = Ret (Some k, e) -> wf_key k.
Proof.
  intros b k e M. unfold NewMasterKey in M. destruct (arr 32 (firstn 32 _)) as [kb|]; [|discriminate M]. cbn [bind] in M. destruct (arr 32 (skipn 32 _)) as [cc|]; [|discriminate M]. cbn [bind] in M.
  destruct (ValidatePrivateKey kb); [discriminate M|]. assert (K : k = setPvtKeyBytes kb (setChainCode cc (SetVersion (PvtKeyFlagBytes DefaultMainnetVersion) zero_key))) by congruence. rewrite K. clear. unfold setPvtKeyBytes, setChainCode, SetVersion.
  repeat (apply copy_wf; [lia|]). reflexivity.
Qed.
Lemma slice_len : forall a b (k : bytes), (length (slice a b k) <= b - a)%nat.
Proof. intros a b k. unfold slice. rewrite firstn_length. lia. Qed.

Lemma gIsZero_ok : forall x a, stands x a -> gIsZero x = (a =? 0).
Proof.
  intros x a S. destruct (Z.eqb_spec a 0) as [-> | N]; [rewrite (stands_nil x S); reflexivity|]. destruct x as [|w x]; [|reflexivity]. exfalso. apply N. destruct S as (_ & _ & V). rewrite <- V. reflexivity.
Qed.
Lemma gToBig_ok : forall p, exists x y, gToBig p = (x, y) /\ stands x (fst (jacobianToBigAffine p)) /\ stands y (snd (jacobianToBigAffine p)).
Proof. intros p. unfold gToBig, jacobianToBigAffine. eexists _, _. split; [reflexivity|]. split; apply setBytes_ok. Qed.
Lemma gCurveAdd_ok : forall x1 y1 x2 y2 a1 b1 a2 b2, stands x1 a1 -> stands y1 b1 -> stands x2 a2 -> stands y2 b2 ->
  exists x y, gCurveAdd x1 y1 x2 y2 = (x, y) /\ stands x (fst (CurveAdd (a1, b1) (a2, b2))) /\ stands y (snd (CurveAdd (a1, b1) (a2, b2))).
Proof.
  intros x1 y1 x2 y2 a1 b1 a2 b2 X1 Y1 X2 Y2.
  rewrite <- ClaimsCurve.C92_add_l; [|apply (stands_nonneg _ _ X1)|apply (stands_nonneg _ _ Y1)|apply (stands_nonneg _ _ X2)|apply (stands_nonneg _ _ Y2)].
  unfold gCurveAdd, KoblitzAdd. rewrite (gIsZero_ok _ _ X1), (gIsZero_ok _ _ Y1), (gIsZero_ok _ _ X2), (gIsZero_ok _ _ Y2).
  destruct ((a1 =? 0) && (b1 =? 0)); [exists x2, y2; split; [reflexivity|split; assumption]|].
  destruct ((a2 =? 0) && (b2 =? 0)); [exists x1, y1; split; [reflexivity|split; assumption]|].
  unfold gFromBig. rewrite (natBytes_ok _ _ X1), (natBytes_ok _ _ Y1), (natBytes_ok _ _ X2), (natBytes_ok _ _ Y2). apply gToBig_ok.
Qed.
Lemma pub_len : forall k, length (publicKeyForPrivateKey k) = 33%nat.
Proof. intros k. rewrite publicKey_spec. apply comp_length. Qed.
Lemma gPrivateKeyHex_ok : forall key, gPrivateKeyHex key = Ret (PrivateKeyHex key).
Proof. intros key. unfold gPrivateKeyHex, PrivateKeyHex. destruct (IsPrivate key); [apply hexenc_ok|reflexivity]. Qed.
Lemma wf61 : forall key, wf_key key -> Z.of_nat (length key) < 2 ^ 61.
Proof. intros key W. rewrite W. reflexivity. Qed.
Lemma gSerialize_ok : forall key, Z.of_nat (length key) < 2 ^ 61 -> gSerialize key = Ret (Serialize RealPrims key).
Proof. intros key W. unfold gSerialize, Serialize. destruct (forallb _ key); [reflexivity|]. rewrite (gAddChecksumToBytes_ok key W). reflexivity. Qed.
Lemma gB58Serialize_ok : forall key, Z.of_nat (length key) < 2 ^ 61 -> gB58Serialize key = Ret (B58Serialize RealPrims key).
Proof. intros key W. unfold gB58Serialize, B58Serialize. rewrite (gSerialize_ok key W). destruct (Serialize RealPrims key) as [s [e|]]; [reflexivity|]. apply ClaimsNat.C101_base58_l. Qed.
Lemma gDeserialize_ok : forall d, gDeserialize d = Deserialize RealPrims d.
Proof.
  intros d. unfold gDeserialize, Deserialize. destruct (negb (Nat.eqb (length d) 82)); [reflexivity|]. rewrite gChecksum_ok; [reflexivity|]. pose proof (firstn_le_length 78 d). pose proof (small61 (length (firstn 78 d)) ltac:(rewrite firstn_length; lia)). lia.
Qed.
Lemma gB58Deserialize_ok : forall d, gB58Deserialize d = B58Deserialize RealPrims d.
Proof. intros d. unfold gB58Deserialize, B58Deserialize. rewrite (proj2 (ClaimsNat.C101_base58_l d)). apply gDeserialize_ok. Qed.
Lemma gKeyIsValid_ok : forall key, Z.of_nat (length key) < 2 ^ 61 -> gKeyIsValid key = KeyIsValid RealPrims key.
Proof. intros key W. unfold gKeyIsValid, KeyIsValid. rewrite (gSerialize_ok key W). cbn [bind]. destruct (Serialize RealPrims key) as [s [e|]]; [reflexivity|]. rewrite gDeserialize_ok. reflexivity. Qed.
Lemma gPathString_ok : forall p, gPathString p = Ret (PathString p).
Proof. intros p. unfold gPathString, MustCompileText. rewrite (proj1 (proj2 ClaimsRegexp.C97_parse_l)). apply (proj1 (ClaimsRegexp.C97_model_l p Bitcoinxprvxpub)). Qed.
Lemma gMatch_ok : forall s, (let! re := MustCompileText (B "^[mM](/\d+')*(/\d+)*$") in MatchString re s) = Ret (rx_match PathRegex s).
Proof. intros s. unfold MustCompileText. rewrite (proj1 ClaimsRegexp.C97_parse_l). apply (proj1 (proj2 (ClaimsRegexp.C97_model_l s Bitcoinxprvxpub))). Qed.
Lemma gVBIsValid_ok : forall h, gVBIsValid h = Ret (VBIsValid h).
Proof.
  intros h. unfold gVBIsValid, MustCompileText. rewrite (proj2 (proj2 ClaimsRegexp.C97_parse_l)), gPathString_ok.
  pose proof (ClaimsRegexp.C97_model_l (VPath h) h) as (A & _ & C). rewrite A in C. exact C.
Qed.
Lemma gValues_loop_ok : forall cs a, gValues_loop a cs = Ret (values_loop a cs).
Proof.
  induction cs as [|s cs IH]; intros a; [reflexivity|]. cbn [gValues_loop values_loop]. change (B "'") with [x27]. rewrite (proj1 (proj2 (proj2 ClaimsText.C84_replace_l))). destruct (ContainsB x27 s).
  - rewrite (proj2 (proj2 (proj2 ClaimsText.C84_replace_l))). cbn [bind]. destruct (Atoi _) as [v [e|]]; [reflexivity|]. destruct (u32 v >=? FirstHardenedChild); [reflexivity|apply IH].
  - destruct (Atoi s) as [v [e|]]; [reflexivity|apply IH].
Qed.
Lemma gsplit_ok : forall s, GoSplit s (B "/") = Ret (Split x2f s).
Proof. intros s. apply (proj1 (proj2 ClaimsText.C84_split_l)). Qed.
Lemma gValuesAtDepth_ok : forall p, gValuesAtDepth p = Ret (ValuesAtDepth p).
Proof.
  intros p. unfold gValuesAtDepth, ValuesAtDepth. pose proof (gMatch_ok (PathString p)) as M. destruct (MustCompileText _) as [re|]; [|discriminate M]. cbn [bind] in M |- *. rewrite gPathString_ok. cbn [bind]. rewrite M. cbn [bind].
  destruct (rx_match PathRegex (PathString p)); [|reflexivity]. cbn [negb]. rewrite gsplit_ok. cbn [bind]. pose proof (Split_nonempty x2f (PathString p)) as N. destruct (Split x2f (PathString p)) as [|c cs]; [contradiction N; reflexivity|]. cbn [tl]. apply gValues_loop_ok.
Qed.
Lemma gPathIsValid_ok : forall p, gPathIsValid p = Ret (PathIsValid p).
Proof. intros p. unfold gPathIsValid, PathIsValid. rewrite gValuesAtDepth_ok. cbn [bind]. destruct (ValuesAtDepth p) as [l [e|]]; reflexivity. Qed.
Lemma gValueAtDepth_ok : forall p b, gValueAtDepth p b = ValueAtDepth p b.
Proof.
  intros p b. unfold gValueAtDepth, ValueAtDepth. rewrite gValuesAtDepth_ok. cbn [bind]. destruct (ValuesAtDepth p) as [l [e|]]; [reflexivity|]. destruct (negb _); [reflexivity|]. unfold get. destruct (nth_error l _); reflexivity.
Qed.
Lemma put_ok : forall (A : Type) (l : list A) n x, GoCodec.put l n x = set_nth n x l.
Proof.
  intros A l. induction l as [|y l IH]; intros n x; [destruct n; reflexivity|]. destruct n as [|n]; [reflexivity|]. cbn [GoCodec.put]. rewrite IH. unfold set_nth. cbn [length]. change (Nat.ltb (S n) (S (length l))) with (Nat.ltb n (length l)). destruct (Nat.ltb n (length l)); reflexivity.
Qed.
Lemma gComp_val_ok : forall idx h e, gComp_val idx h e = if negb (VBIsValid h) then Ret (0, Some ErrUnSupportedHDVersionBytes) else comp_val idx h e.
Proof.
  intros idx h e. unfold gComp_val, comp_val. rewrite gVBIsValid_ok. cbn [bind]. destruct (VBIsValid h); [|reflexivity]. cbn [negb]. rewrite gPathString_ok. cbn [bind]. rewrite gsplit_ok. cbn [bind]. unfold get. destruct (nth_error _ idx) as [c|]; [|reflexivity]. cbn [bind].
  change (B "'") with [x27]. rewrite (proj2 (proj2 (proj2 ClaimsText.C84_replace_l))). reflexivity.
Qed.
Lemma gPurposeVal_ok : forall h, gComp_val 1 h ErrInvalidPurpose = PurposeVal h /\ gComp_val 2 h ErrInvalidCoin = CoinVal h.
Proof. intros h. split; apply gComp_val_ok. Qed.
Lemma gVal_full_ok : forall h, gVal_full 1 h ErrInvalidPurpose = PurposeValFull h /\ gVal_full 2 h ErrInvalidCoin = CoinValFull h.
Proof.
  intros h. unfold gVal_full, PurposeValFull, CoinValFull, val_full. rewrite gVBIsValid_ok. cbn [bind]. destruct (gPurposeVal_ok h) as (P & C). rewrite P, C. destruct (negb (VBIsValid h)); [split; reflexivity|].
  split; [destruct (PurposeVal h) as [[v [e|]]|]|destruct (CoinVal h) as [[v [e|]]|]]; reflexivity.
Qed.
Lemma gInit_loop_ok : forall l T, gInit_loop T l = init_loop T l.
Proof.
  induction l as [|h l IH]; intros T; [reflexivity|]. cbn [gInit_loop init_loop]. unfold init_one. rewrite (proj1 (gPurposeVal_ok h)), (proj2 (gPurposeVal_ok h)), (proj1 (gVal_full_ok h)).
  destruct (PurposeVal h) as [[pv e1]|]; [|reflexivity]. cbn [bind drop_err]. destruct (PurposeValFull h) as [[pf e2]|]; [|reflexivity]. cbn [bind drop_err]. destruct (CoinVal h) as [[cv e3]|]; [|reflexivity]. cbn [bind drop_err]. apply IH.
Qed.
Lemma gInit_ok : forall ord, gInit ord = init_tables ord.
Proof.
  intros ord. unfold gInit, init_tables. generalize tables0. induction ord as [|[p a] ord IH]; intros T; [reflexivity|]. cbn [gInit_outer init_outer]. rewrite gInit_loop_ok. destruct (init_loop _ a) as [T'|]; [|reflexivity]. cbn [bind]. apply IH.
Qed.
Lemma pubhex_len : forall T key b, wf_key key -> HexDecode (PublicKeyHex T key) = Some b -> length b = 33%nat.
Proof.
  intros T key b W D. unfold PublicKeyHex in D.
  assert (K : length (PublicKeyExtended T key) = 78%nat).
  { change (wf_key (PublicKeyExtended T key)). unfold PublicKeyExtended, SetVersion. destruct (IsPrivate key); repeat (apply copy_wf; [lia|]); exact W. }
  destruct (IsPrivate key); rewrite HexDecode_Encode in D; assert (X : b = slice 45 78 (PublicKeyExtended T key) \/ b = slice 45 78 key) by (left + right; congruence); destruct X as [-> | ->]; unfold slice; rewrite firstn_length, skipn_length, ?K; rewrite ?W; reflexivity.
Qed.

Section Whole.
Variable E : env.
Hypothesis EO : env_ok E.
Let LB : length (e_buf E) = 68%nat := proj1 EO.
Let TB : bytePoints_ok (e_tab E) := proj1 (proj2 EO).
Let SP : stands (e_P E) secp_p := proj1 (proj2 (proj2 EO)).
Let SN : stands (e_N E) secp_n := proj1 (proj2 (proj2 (proj2 EO))).
Let SB : stands (e_B E) secp_b := proj2 (proj2 (proj2 (proj2 EO))).

(** ** The curve *)
Lemma gScalarBaseMult_ok : forall k, exists x y, gScalarBaseMult E k = Ret (x, y) /\ stands x (fst (ScalarBaseMult k)) /\ stands y (snd (ScalarBaseMult k)).
Proof.
  intros k. pose proof (ClaimsCurve.C93_model_l (e_tab E) k TB) as M. unfold KoblitzScalarBaseMult in M.
  assert (G : (if (32 <? length k)%nat then (let! (_, r) := natDiv (setBytes k) (e_N E) in Ret (natBytes r)) else Ret k) = Ret (moduloReduce k)).
  { unfold moduloReduce. destruct (32 <? length k)%nat; [|reflexivity].
    assert (R : 0 < secp_n < 2 ^ 256) by (split; vm_compute; reflexivity). assert (L : (length (e_N E) < 100)%nat) by (apply (ClaimsNat.short_p secp_n); [|exact SN]; clear - R; revert R; generalize secp_n; intros; lia).
    destruct (natDiv_ok (setBytes k) (e_N E) _ _ (setBytes_ok k) SN (proj1 R) L) as (q & r & D & _ & Sr). rewrite D. cbn [bind]. rewrite (natBytes_ok _ _ Sr). reflexivity. }
  unfold gScalarBaseMult. rewrite G. cbn [bind]. destruct (base_loop _ _ _) as [p|]; [|discriminate M]. cbn [bind].
  assert (J : jacobianToBigAffine p = ScalarBaseMult k) by congruence. rewrite <- J. destruct (gToBig_ok p) as (x & y & T & Sx & Sy). exists x, y. rewrite T. split; [reflexivity|]. split; assumption.
Qed.
Lemma gPub_ok : forall k, gPublicKeyForPrivateKey E k = Ret (publicKeyForPrivateKey k).
Proof.
  intros k. unfold gPublicKeyForPrivateKey, publicKeyForPrivateKey. destruct (gScalarBaseMult_ok k) as (x & y & G & Sx & Sy). rewrite G. cbn [bind]. rewrite (wCompress_ok x y _ _ Sx Sy), <- surjective_pairing. reflexivity.
Qed.
Lemma gExpand_ok : forall key,
  match ExpandPublicKey key with Panic => gExpand E key = Panic | Ret (X, Y) => exists x y, gExpand E key = Ret (x, y) /\ stands x X /\ stands y Y end.
Proof. intros key. apply ClaimsNat.C101_expand_l; [exact SP|exact SB|lia]. Qed.
Lemma gValidateChild_ok : forall key, gValidateChildPublicKey E key = validateChildPublicKey key.
Proof.
  intros key. unfold gValidateChildPublicKey, validateChildPublicKey. pose proof (gExpand_ok key) as G. destruct (ExpandPublicKey key) as [[X Y]|]; [|rewrite G; reflexivity].
  destruct G as (x & y & G & Sx & Sy). rewrite G. cbn [bind]. rewrite (gIsZero_ok _ _ Sx), (gIsZero_ok _ _ Sy). reflexivity.
Qed.
Lemma gAddPublic_ok : forall k1 k2, gAddPublicKeys E k1 k2 = addPublicKeys k1 k2.
Proof.
  intros k1 k2. unfold gAddPublicKeys, addPublicKeys. pose proof (gExpand_ok k1) as G1. pose proof (gExpand_ok k2) as G2.
  destruct (ExpandPublicKey k1) as [[X1 Y1]|]; [|rewrite G1; reflexivity]. destruct G1 as (x1 & y1 & G1 & A1 & C1). rewrite G1. cbn [bind].
  destruct (ExpandPublicKey k2) as [[X2 Y2]|]; [|rewrite G2; reflexivity]. destruct G2 as (x2 & y2 & G2 & A2 & C2). rewrite G2. cbn [bind].
  destruct (gCurveAdd_ok _ _ _ _ _ _ _ _ A1 C1 A2 C2) as (x & y & G & Sx & Sy). rewrite G, (wCompress_ok x y _ _ Sx Sy), <- surjective_pairing. reflexivity.
Qed.
Lemma gValidate_ok : forall k, gValidatePrivateKey E k = Ret (ValidatePrivateKey k).
Proof. intros k. unfold gValidatePrivateKey. rewrite (natBytes_ok _ _ SN). apply GoValidate_ok. exact LB. Qed.

(** ** Keys *)
Lemma gNewMasterKey_ok : forall seed, Z.of_nat (length seed) < 2 ^ 61 - 128 -> gNewMasterKey E seed = NewMasterKey RealPrims seed.
Proof.
  intros seed L. unfold gNewMasterKey, NewMasterKey. rewrite gHmac_ok by (reflexivity || exact L). cbn [bind]. destruct (arr 32 (firstn 32 _)) as [kb|]; [|reflexivity]. cbn [bind]. destruct (arr 32 (skipn 32 _)) as [cc|]; [|reflexivity]. cbn [bind].
  rewrite gValidate_ok. cbn [bind]. destruct (ValidatePrivateKey kb); [reflexivity|]. rewrite uint32Bytes_ok. reflexivity.
Qed.
Lemma gGetIntermediary_ok : forall key i, gGetIntermediary E key i = Ret (getIntermediary RealPrims key i).
Proof.
  intros key i. unfold gGetIntermediary, getIntermediary.
  assert (D : forall d, gHmac (slice 13 45 key) (copy_at 0 33 d (repeat x00 33) ++ uint32Bytes i) = Ret (p_hmac512 RealPrims (slice 13 45 key) (copy_at 0 33 d (repeat x00 33) ++ uint32Bytes i))).
  { intros d. apply gHmac_ok; [pose proof (slice_len 13 45 key); pose proof (small61 (length (slice 13 45 key)) ltac:(lia)); lia|]. rewrite app_length, copy_at_len by (rewrite repeat_length; lia). rewrite repeat_length. unfold uint32Bytes. rewrite Z_be_length. reflexivity. }
  assert (D1 : forall d, gHmac (slice 13 45 key) (copy_at 1 33 d (repeat x00 33) ++ uint32Bytes i) = Ret (p_hmac512 RealPrims (slice 13 45 key) (copy_at 1 33 d (repeat x00 33) ++ uint32Bytes i))).
  { intros d. apply gHmac_ok; [pose proof (slice_len 13 45 key); pose proof (small61 (length (slice 13 45 key)) ltac:(lia)); lia|]. rewrite app_length, copy_at_len by (rewrite repeat_length; lia). rewrite repeat_length. unfold uint32Bytes. rewrite Z_be_length. reflexivity. }
  destruct (i >=? FirstHardenedChild); [cbn [bind]; rewrite uint32Bytes_ok; cbn [bind]; apply D1|].
  destruct (IsPrivate key); [rewrite gPub_ok|]; cbn [bind]; rewrite uint32Bytes_ok; cbn [bind]; apply D.
Qed.
Lemma gNewChildKey_ok : forall T key i, wf_key key -> gNewChildKey E T key i = NewChildKey RealPrims T key i.
Proof.
  intros T key i W. unfold gNewChildKey, NewChildKey. destruct (negb (IsPrivate key) && (i >=? FirstHardenedChild)); [reflexivity|]. rewrite gGetIntermediary_ok. cbn [bind]. rewrite (slice4 key W). cbn [bind].
  destruct (lookup0 _ _) as [h|]; [|reflexivity]. rewrite uint32Bytes_ok.
  assert (V : (if IsPrivate key then Ret (slice 0 4 key) else Ret (uint32Bytes (PubKeyFlag h))) = Ret (if IsPrivate key then slice 0 4 key else PubKeyFlagBytes h)) by (destruct (IsPrivate key); reflexivity).
  rewrite V. cbn [bind]. rewrite uint32Bytes_ok. cbn [bind]. destruct (arr 4 (uint32Bytes i)) as [cn|]; [|reflexivity]. cbn [bind]. destruct (arr 32 _) as [cc|]; [|reflexivity]. cbn [bind].
  destruct (IsPrivate key).
  - rewrite gPub_ok. cbn [bind]. rewrite gHash160_ok by (rewrite pub_len; reflexivity). cbn [bind]. destruct (arr 4 (HashRipeMD160onSha256 _ _)) as [fp|]; [|reflexivity]. cbn [bind].
    rewrite (ClaimsNat.C101_private_l _ _ _ SN). cbn [bind]. destruct (arr 32 (addPrivateKeys _ _)) as [kb|]; [|reflexivity]. cbn [bind]. rewrite gValidate_ok. reflexivity.
  - rewrite gPub_ok. cbn [bind]. assert (K : length (skipn 45 key) = 33%nat) by (rewrite skipn_length, W; reflexivity). rewrite gValidateChild_ok.
    destruct (validateChildPublicKey _) as [[e|]|]; [reflexivity| |reflexivity]. cbn [bind]. rewrite gHash160_ok by (rewrite K; reflexivity). cbn [bind]. rewrite gAddPublic_ok. reflexivity.
Qed.
Lemma gPublicKeyExtended_ok : forall T key, wf_key key -> gPublicKeyExtended E T key = Ret (PublicKeyExtended T key).
Proof.
  intros T key W. unfold gPublicKeyExtended, PublicKeyExtended. rewrite (slice4 key W). cbn [bind]. destruct (IsPrivate key).
  - rewrite uint32Bytes_ok. cbn [bind]. rewrite gPub_ok. cbn [bind]. destruct (lookup0 _ _); reflexivity.
  - destruct (lookup0 _ _); [reflexivity|]. rewrite uint32Bytes_ok. reflexivity.
Qed.
Lemma gPublicKeyHex_ok : forall T key, wf_key key -> gPublicKeyHex E T key = Ret (PublicKeyHex T key).
Proof. intros T key W. unfold gPublicKeyHex, PublicKeyHex. destruct (IsPrivate key); [rewrite (gPublicKeyExtended_ok T key W); cbn [bind]|]; apply hexenc_ok. Qed.

(** ** Paths *)
Lemma gReplace_ok : forall p b v, 0 <= v < 2 ^ 64 -> gReplaceValueAtDepth E p b v = ReplaceValueAtDepth p b v.
Proof.
  intros p b v V. unfold gReplaceValueAtDepth, ReplaceValueAtDepth. rewrite gValuesAtDepth_ok. cbn [bind]. destruct (ValuesAtDepth p) as [l [e|]]; [reflexivity|]. destruct (negb _); [reflexivity|].
  rewrite gPathString_ok. cbn [bind]. rewrite gsplit_ok. cbn [bind]. rewrite (GoValText_ok _ LB v V). cbn [bind]. rewrite put_ok. destruct (set_nth _ _ _) as [r|]; [|reflexivity]. cbn [bind]. rewrite GoJoin_ok. reflexivity.
Qed.

(** ** util *)
Lemma gRootKeyFromSeed_ok : forall s, Z.of_nat (length s) < 2 ^ 61 -> gRootKeyFromSeed E s = RootKeyFromSeed RealPrims s.
Proof.
  intros s L. unfold gRootKeyFromSeed, RootKeyFromSeed. destruct (hexdec_ok s) as (b & e & G & D). rewrite G, D. cbn [bind]. destruct e as [e|]; [reflexivity|].
  destruct (Nat.ltb (length b) 16); [reflexivity|]. assert (Lb : Z.of_nat (length b) < 2 ^ 61 - 128).
  { apply HexDecode_length in D. assert (1024 < 2 ^ 61) by reflexivity. lia. }
  rewrite (gNewMasterKey_ok b Lb). destruct (NewMasterKey RealPrims b) as [[[k|] e]|] eqn:M; [|reflexivity|reflexivity]. cbn [bind].
  assert (W : wf_key k) by (apply (master_wf b k e M)). rewrite (gSerialize_ok k (wf61 k W)). cbn [bind]. destruct (Serialize RealPrims k) as [r [e'|]]; [reflexivity|]. rewrite gDeserialize_ok. reflexivity.
Qed.
Lemma gAppend_val_ok : forall d v, gAppend_val E d v = Ret (append_val d v).
Proof.
  intros d v. unfold gAppend_val, append_val. rewrite (GoAppendVal_ok _ LB) by (pose proof (Z.mod_pos_bound v FirstHardenedChild eq_refl); assert (FirstHardenedChild < 2 ^ 64) by reflexivity; lia). reflexivity.
Qed.
Lemma gDerive_loop_ok : forall T vs, after_init T -> forall d k, wf_key k -> gDerive_loop E T d k vs = derive_loop RealPrims T d k vs.
Proof.
  intros T vs HT. induction vs as [|v vs IH]; intros d k W; [reflexivity|]. cbn [gDerive_loop derive_loop]. rewrite gAppend_val_ok. cbn [bind]. rewrite (gNewChildKey_ok T k v W).
  destruct (NewChildKey_total RealPrims T k v real_prims_ok HT W) as ([k' e] & N & W'). rewrite N. cbn [bind]. rewrite gPathString_ok. cbn [bind]. rewrite (IH _ k' W'). reflexivity.
Qed.
Lemma gDerive_ok : forall T root p, after_init T -> wf_key root -> gDeriveBIP32Result E T root p = DeriveBIP32Result RealPrims T root p.
Proof.
  intros T root p HT W. unfold gDeriveBIP32Result, DeriveBIP32Result. rewrite (gKeyIsValid_ok root (wf61 root W)). destruct (KeyIsValid RealPrims root) as [v|]; [|reflexivity]. cbn [bind].
  destruct (negb v || negb (IsPrivate root) || negb (Byte.eqb (key_at 4 root) x00)); [reflexivity|]. rewrite gPathIsValid_ok. cbn [bind]. destruct (negb (PathIsValid p)); [reflexivity|].
  rewrite gValuesAtDepth_ok. cbn [bind]. destruct (ValuesAtDepth p) as [l [e|]]; [reflexivity|]. rewrite (gDerive_loop_ok T (tl l) HT _ root W). reflexivity.
Qed.
Lemma gAddrHex_ok : forall T key, wf_key key -> gAddrHex E T key = AddrHex RealPrims T key.
Proof.
  intros T key W. unfold gAddrHex, AddrHex. rewrite (gPublicKeyHex_ok T key W). cbn [bind]. destruct (hexdec_ok (PublicKeyHex T key)) as (b & e & G & D). rewrite G, D. cbn [bind]. destruct e as [e|]; [reflexivity|].
  pose proof (pubhex_len T key b W D) as L. pose proof (gExpand_ok b) as X. destruct (ExpandPublicKey b) as [[x y]|]; [|rewrite X; reflexivity]. destruct X as (vx & vy & X & Sx & Sy). rewrite X. cbn [bind].
  rewrite (natBytes_ok _ _ Sx), (natBytes_ok _ _ Sy), gKeccak_ok. cbn [bind]. apply hexenc_ok.
Qed.
Lemma gAddrP2SH_ok : forall T key v, wf_key key -> gAddrP2SH E T key v = Ret (AddrP2SH RealPrims T key v).
Proof.
  intros T key v W. unfold gAddrP2SH, AddrP2SH. rewrite (gPublicKeyHex_ok T key W). cbn [bind]. destruct (hexdec_ok (PublicKeyHex T key)) as (b & e & G & D). rewrite G, D. cbn [bind]. destruct e as [e|]; [reflexivity|].
  pose proof (pubhex_len T key b W D) as L. rewrite gHash160_ok by (rewrite L; reflexivity). cbn [bind].
  rewrite gChecksum_ok; [cbn [bind]; apply ClaimsNat.C101_base58_l|]. rewrite app_length. unfold HashRipeMD160onSha256, hashRipeMD160. assert (R : length (p_ripemd160 RealPrims (p_sha256 RealPrims b)) = 20%nat) by apply real_prims_ok. rewrite R. reflexivity.
Qed.
Lemma gRange_loop_ok : forall T n, after_init T -> forall d k i en, wf_key k -> 0 <= i -> en < 2 ^ 32 -> (Z.to_nat (en - i) <= n)%nat -> gRange_loop E T n d k i en = range_loop RealPrims T n d k i en.
Proof.
  intros T n HT. induction n as [|n IH]; intros d k i en W Hi He Hn; cbn [gRange_loop range_loop].
  - assert (i <? en = false) as -> by lia. reflexivity.
  - destruct (Z.ltb_spec i en) as [Li|Li]; [|reflexivity]. rewrite gAppend_val_ok. cbn [bind]. rewrite (gNewChildKey_ok T k i W).
    destruct (NewChildKey_total RealPrims T k i real_prims_ok HT W) as ([k' e] & N & W'). rewrite N. cbn [bind]. rewrite gPathString_ok. cbn [bind]. rewrite (IH _ k' _ en W'); [reflexivity| | |]; rewrite ?u32_small by lia; lia.
Qed.
Lemma gGenerateRange_ok : forall T k, after_init T -> wf_key (KKey (RKeyPath k)) -> 0 <= StartIndex k -> EndIndex k < 2 ^ 32 -> gGenerateRange E T k = GenerateRange RealPrims T k.
Proof.
  intros T k HT W Hs He. unfold gGenerateRange, GenerateRange. destruct (u32 _ <? 1); [reflexivity|]. rewrite (gKeyIsValid_ok _ (wf61 _ W)). destruct (KeyIsValid RealPrims _) as [v|]; [|reflexivity]. cbn [bind]. destruct (negb v); [reflexivity|].
  rewrite gPathIsValid_ok. cbn [bind]. destruct (negb _); [reflexivity|]. rewrite gPathString_ok. cbn [bind]. rewrite (gRange_loop_ok T _ HT) by (try exact W; try lia). reflexivity.
Qed.
End Whole.

(** ** bip39 *)
Lemma gFirstByte_ok : forall d, Z.of_nat (length d) < 2 ^ 61 -> gFirstByte d = Ret (firstChecksumByte RealPrims d).
Proof.
  intros d L. unfold gFirstByte, firstChecksumByte. rewrite (gSha256_ok d L). cbn [bind]. pose proof (sha_len d) as S. destruct (p_sha256 RealPrims d) as [|b r]; [discriminate S|]. reflexivity.
Qed.
Lemma gAddChecksum_ok : forall d, Z.of_nat (length d) < 2 ^ 61 -> gAddChecksum d = Ret (addChecksum RealPrims d).
Proof. intros d L. unfold gAddChecksum. rewrite (gFirstByte_ok d L). cbn [bind]. apply wAddChecksum_ok. Qed.
Lemma pad2 : forall x a, stands x a -> exists b0 b1, padByteSlice (natBytes (natAnd x (setWord 2047))) 2 = [b0; b1].
Proof.
  intros x a S. pose proof (natAnd_ok x (setWord 2047) a 2047 S (small_stands 2047 ltac:(lia))) as SA. rewrite (natBytes_ok _ _ SA).
  assert (R : 0 <= Z.land a 2047 < p256 2). { change 2047 with (Z.ones 11). rewrite Z.land_ones by lia. pose proof (Z.mod_pos_bound a (2 ^ 11) ltac:(lia)). change (p256 2) with 65536. change (2 ^ 11) with 2048 in *. lia. }
  unfold padByteSlice. rewrite Z_bytes_length, <- (Z_bytes_pad _ 2 R). eexists _, _. reflexivity.
Qed.
Lemma gNewMnemonic_loop_ok : forall wl n x X acc, stands x X -> gNewMnemonic_loop wl n x acc = NewMnemonic_loop wl n X acc.
Proof.
  intros wl n x X acc S. rewrite <- (wNewMnemonic_loop_ok wl n x X acc S). revert x X acc S. induction n as [|n IH]; intros x X acc S; [reflexivity|]. cbn [gNewMnemonic_loop wNewMnemonic_loop].
  destruct (div_small x X 2048 S ltac:(lia)) as (q & r & D & Sq & _). rewrite D. cbn [bind]. destruct (pad2 x X S) as (b0 & b1 & P). rewrite P, GoUint16_ok. cbn [bind]. destruct (get wl _) as [w|]; [|reflexivity]. cbn [bind]. apply (IH _ _ _ Sq).
Qed.
Lemma valid_size : forall e : bytes, validateEntropyBitSize (Z.of_nat (length e) * 8) = None -> (length e <= 32)%nat.
Proof. intros e V. unfold validateEntropyBitSize in V. destruct (negb _ || _ || (Z.of_nat (length e) * 8 >? 256)) eqn:O; [discriminate V|]. apply orb_false_elim in O as (_ & O). lia. Qed.
Lemma gNewMnemonic_ok : forall st e, gNewMnemonic st e = NewMnemonic RealPrims st e.
Proof.
  intros st e. unfold gNewMnemonic, NewMnemonic. destruct (validateEntropyBitSize _) eqn:V; [reflexivity|]. pose proof (valid_size e V) as L.
  rewrite gAddChecksum_ok by (pose proof (small61 (length e) ltac:(lia)); lia). cbn [bind]. rewrite (gNewMnemonic_loop_ok _ _ _ _ [] (setBytes_ok _)). destruct (NewMnemonic_loop _ _ _ _) as [ws|]; [|reflexivity]. cbn [bind]. rewrite GoJoin_ok. reflexivity.
Qed.
Lemma gDecode_words_ok : forall wm ws w2 b, length w2 = 2%nat -> gDecode_words wm ws w2 b = wDecode_words wm ws b.
Proof.
  intros wm ws. induction ws as [|v ws IH]; intros w2 b L; [reflexivity|]. cbn [gDecode_words wDecode_words]. destruct (map_get wm v) as [i|]; [|reflexivity].
  destruct w2 as [|b0 [|b1 [|]]]; try discriminate L. rewrite GoPutUint16_ok, app_nil_r. cbn [bind]. destruct (natMul b _) as [z|]; [|reflexivity]. cbn [bind]. apply IH. apply Z_be_length.
Qed.
Lemma decode_bound : forall wm ws b k v, 0 <= b < 2 ^ (16 * Z.of_nat k) -> (0 < k)%nat -> decode_words wm ws b = inl v -> 0 <= v < 2 ^ (16 * Z.of_nat (k + length ws)).
Proof.
  intros wm ws. induction ws as [|w ws IH]; intros b k v R K D; cbn [decode_words] in D.
  - rewrite Nat.add_0_r. congruence.
  - destruct (map_get wm w) as [i|]; [|discriminate D]. apply (IH _ (S k)) in D; [cbn [length]; replace (k + S (length ws))%nat with (S k + length ws)%nat by lia; exact D| |lia].
    pose proof (be_Z_range (Z_be 2 i)) as Q. rewrite Z_be_length in Q. change (p256 2) with 65536 in Q. revert Q. generalize (be_Z (Z_be 2 i)). intros q Q.
    assert (N : 0 <= Z.lor (b * 2048) q) by (apply Z.lor_nonneg; lia). split; [exact N|].
    assert (P : 2 ^ (16 * Z.of_nat (S k)) = 2 ^ (16 * Z.of_nat k) * 65536) by (replace (16 * Z.of_nat (S k)) with (16 * Z.of_nat k + 16) by lia; rewrite Z.pow_add_r by lia; reflexivity).
    assert (B1 : 65536 <= 2 ^ (16 * Z.of_nat k)) by (change 65536 with (2 ^ 16); apply Z.pow_le_mono_r; lia).
    destruct (Z.eq_dec (Z.lor (b * 2048) q) 0) as [-> | NZ]; [rewrite P; lia|].
    apply Z.log2_lt_pow2; [lia|]. rewrite Z.log2_lor by lia.
    assert (G : forall c, 0 <= c < 2 ^ (16 * Z.of_nat (S k)) -> Z.log2 c < 16 * Z.of_nat (S k)).
    { intros c C. destruct (Z.eq_dec c 0) as [-> | C0]; [cbn; lia|]. apply Z.log2_lt_pow2; lia. }
    apply Z.max_lub_lt; apply G; rewrite P; lia.
Qed.
Lemma mask_range : forall n, 0 <= checksumMask n < 256.
Proof. intros n. unfold checksumMask. repeat (match goal with |- context [match ?k with O => _ | S _ => _ end] => destruct k end); lia. Qed.
Lemma ent_bound : forall b n, 0 <= b < 2 ^ (16 * Z.of_nat (1 + n)) -> (n <= 24)%nat -> (length (padByteSlice (Z_bytes (b / (checksumMask n + 1))) (n / 3 * 4)) <= 100)%nat.
Proof.
  intros b n R L. pose proof (mask_range n) as RM.
  assert (NB : (nbytes (b / (checksumMask n + 1)) <= 50)%nat).
  { apply nbytes_le. unfold p256. apply Z.le_lt_trans with b; [apply Z.div_le_upper_bound; nia|]. eapply Z.lt_le_trans; [apply R|]. change (256 ^ Z.of_nat 50) with (2 ^ 400). apply Z.pow_le_mono_r; lia. }
  unfold padByteSlice. rewrite app_length, repeat_length, Z_bytes_length. pose proof (Nat.div_le_mono n 24 3 ltac:(lia) L) as DV. change (24 / 3)%nat with 8%nat in DV. lia.
Qed.
Lemma gEntropy_ok : forall st m, gEntropyFromMnemonic st m = Ret (EntropyFromMnemonic RealPrims st m).
Proof.
  intros st m. unfold gEntropyFromMnemonic, EntropyFromMnemonic, splitMnemonicWords. rewrite ClaimsText.C84_fields_l. cbn [bind]. set (ws := Fields m). destruct (validWordCount (length ws)) eqn:VW; [|reflexivity]. cbn [negb].
  assert (LW : (length ws <= 24)%nat) by (unfold validWordCount in VW; lia). rewrite <- wEntropyOfWords_ok. rewrite (gDecode_words_ok _ _ [x00; x00] _ eq_refl). unfold wEntropyOfWords.
  pose proof (wDecode_words_ok (wordMap st) ws (setWord 0) 0 (small_stands 0 ltac:(lia))) as D. destruct (decode_words (wordMap st) ws 0) as [b|e] eqn:DW; [|rewrite D; reflexivity]. destruct D as (z & G & S). rewrite G. cbn [bind]. cbv zeta.
  apply (decode_bound _ _ _ 1) in DW; [|split; [lia|reflexivity]|lia].
  assert (RM : 0 <= checksumMask (length ws) < 256) by (unfold checksumMask; repeat (match goal with |- context [match ?k with O => _ | S _ => _ end] => destruct k end); lia).
  pose proof (small_stands (checksumMask (length ws)) ltac:(lia)) as SM. pose proof (natAdd_ok _ _ _ _ SM (small_stands 1 ltac:(lia))) as SM1.
  assert (L1 : (length (natAdd (setWord (checksumMask (length ws))) (setWord 1)) < 100)%nat). { rewrite (stands_unique _ _ _ SM1 (small_stands (checksumMask (length ws) + 1) ltac:(lia))). pose proof (small_len (checksumMask (length ws) + 1)). lia. }
  destruct (natDiv_ok z _ b _ S SM1 ltac:(lia) L1) as (q & r & Dv & Sq & _). rewrite Dv. cbn [bind]. rewrite (natBytes_ok q _ Sq). rewrite gFirstByte_ok; [reflexivity|].
  pose proof (ent_bound b (length ws) DW LW) as EB. match goal with |- Z.of_nat ?n < _ => pose proof (small61 n ltac:(lia)) end. lia.
Qed.
Lemma entropy_len : forall H st m e, EntropyFromMnemonic H st m = (e, None) -> (length e <= 100)%nat.
Proof.
  intros H st m e X. unfold EntropyFromMnemonic, splitMnemonicWords in X. set (ws := Fields m) in X. destruct (validWordCount (length ws)) eqn:VW; [|discriminate X].
  assert (LW : (length ws <= 24)%nat) by (unfold validWordCount in VW; lia). unfold entropyOfWords in X. destruct (decode_words (wordMap st) ws 0) as [b|] eqn:DW; [|discriminate X]. cbv zeta in X.
  apply (decode_bound _ _ _ 1) in DW; [|split; [lia|reflexivity]|lia]. pose proof (ent_bound b (length ws) DW LW) as EB. destruct (_ =? _); [|discriminate X]. assert (Q : e = padByteSlice (Z_bytes (b / (checksumMask (length ws) + 1))) (length ws / 3 * 4)) by congruence. rewrite Q. exact EB.
Qed.
Lemma gMnemonicToByteArray_ok : forall st m raw, gMnemonicToByteArray st m raw = Ret (MnemonicToByteArray RealPrims st m raw).
Proof.
  intros st m raw. unfold gMnemonicToByteArray, MnemonicToByteArray. change (B " ") with [x20]. rewrite (proj1 (proj2 ClaimsText.C84_split_l)). cbn [bind]. rewrite gEntropy_ok. cbn [bind]. destruct (EntropyFromMnemonic RealPrims st m) as [e [er|]] eqn:X; [reflexivity|].
  destruct raw; [reflexivity|]. rewrite gAddChecksum_ok; [reflexivity|]. pose proof (small61 (length e) ltac:(pose proof (entropy_len _ _ _ _ X); lia)). lia.
Qed.
Lemma gNewSeedWithErrorChecking_ok : forall st m pw, Z.of_nat (length m) < 2 ^ 61 -> Z.of_nat (length pw) < 2 ^ 61 - 140 -> gNewSeedWithErrorChecking st m pw = Ret (NewSeedWithErrorChecking RealPrims st m pw).
Proof.
  intros st m pw A C. unfold gNewSeedWithErrorChecking, NewSeedWithErrorChecking. rewrite gMnemonicToByteArray_ok. cbn [bind]. destruct (MnemonicToByteArray RealPrims st m false) as [a [e|]]; [reflexivity|]. rewrite (gNewSeed_ok m pw A C). reflexivity.
Qed.
Lemma gIsMnemonicValid_ok : forall st m, gIsMnemonicValid st m = Ret (IsMnemonicValid RealPrims st m).
Proof. intros st m. unfold gIsMnemonicValid, IsMnemonicValid. rewrite gEntropy_ok. cbn [bind]. destruct (EntropyFromMnemonic RealPrims st m) as [a [e|]]; reflexivity. Qed.
Lemma gDeriveSeed_ok : forall st m pw, Z.of_nat (length m) < 2 ^ 61 -> Z.of_nat (length pw) < 2 ^ 61 - 140 -> gDeriveSeedFromMnemonic st m pw = Ret (DeriveSeedFromMnemonic RealPrims st m pw).
Proof.
  intros st m pw A C. unfold gDeriveSeedFromMnemonic, DeriveSeedFromMnemonic. rewrite gEntropy_ok. cbn [bind]. destruct (EntropyFromMnemonic RealPrims st m) as [a [e|]]; [reflexivity|]. rewrite (gNewSeed_ok m pw A C). cbn [bind]. rewrite hexenc_ok. reflexivity.
Qed.
Lemma gGenerateMnemonic_ok : forall fuel s st n r, source_ok s -> gGenerateMnemonic fuel s st n = Some r -> exists rd, r = GenerateMnemonic RealPrims st rd n /\
  (In n [12; 15; 18; 21; 24] -> (exists w, answered s (Z.to_nat (n / 3 * 4)) w) -> answered s (Z.to_nat (n / 3 * 4)) rd).
Proof.
  intros fuel s st n r SO G. unfold gGenerateMnemonic in G. unfold GenerateMnemonic.
  set (bits := if n =? 12 then Some 128 else if n =? 15 then Some 160 else if n =? 18 then Some 192 else if n =? 21 then Some 224 else if n =? 24 then Some 256 else None) in *.
  assert (BT : (exists b, bits = Some b /\ In b [128; 160; 192; 224; 256] /\ b / 8 = n / 3 * 4) \/ (bits = None /\ ~ In n [12; 15; 18; 21; 24])).
  { subst bits. repeat (match goal with |- context [if n =? ?c then _ else _] => destruct (Z.eqb_spec n c) as [-> | ?] end; [left; eexists; split; [reflexivity|]; split; [cbn; tauto|reflexivity]|]). right. split; [reflexivity|]. cbn. intuition congruence. }
  destruct BT as [(b & Eb & Ib & Db) | (Eb & Nn)]; rewrite Eb in *.
  - destruct (NewEntropyFrom fuel s b) as [q|] eqn:NE; [|discriminate G]. destruct (ClaimsRand.C100_NewEntropy_l fuel s b q SO NE) as (rd & Q & A). exists rd. subst q.
    split; [|intros _ W; rewrite Db in A; apply (A Ib W)]. destruct (NewEntropy rd b) as [bs [e|]]; [congruence|]. rewrite gNewMnemonic_ok in G. destruct (NewMnemonic RealPrims st bs) as [[mn [e|]]|]; cbn [bind] in G; congruence.
  - exists []. split; [congruence|]. intros I. contradiction.
Qed.
