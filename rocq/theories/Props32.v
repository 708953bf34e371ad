(** Props32.v - properties of BIP-32 keys (C15-C34, C47).
    Every theorem is closed by the lemma of the same name in Claims32.v; an Example beside it shows that its
    hypotheses can be met. *)
From Verif Require Import Base BaseFacts GoStr HexFacts Prims Hash HashFacts Secp Fp ECGroup SpecEC SecpGroup SecpOrder SecpFacts Base58 Base58Facts SpecBip32 SpecPath Bip32Path Bip32Reg Bip32 Bip32RegFacts Bip32KeyFacts Bip32Facts Bip32Facts2 Bip32PathFacts Bip32PrefixFacts Claims32.

(** C15. Serialize and Deserialize are inverse. *)

Theorem C15_serialize : forall H k, prims_ok H -> wf_key k -> k <> repeat x00 78 ->
  Serialize H k = (k ++ firstn 4 (p_sha256 H (p_sha256 H k)), None) /\ length (fst (Serialize H k)) = 82%nat.
Proof. exact C15_serialize_l. Qed.
Print Assumptions C15_serialize.

Theorem C15_roundtrip : forall H k, prims_ok H -> wf_key k -> k <> repeat x00 78 ->
  Deserialize H (fst (Serialize H k)) = Ret (k, None) /\ B58Deserialize H (B58Serialize H k) = Ret (k, None) /\
  B58Serialize H k = Encode58 (fst (Serialize H k)).
Proof. exact C15_roundtrip_l. Qed.
Print Assumptions C15_roundtrip.

Theorem C15_injective : forall H k1 k2, prims_ok H -> wf_key k1 -> wf_key k2 ->
  (Serialize H k1 = Serialize H k2 -> k1 = k2) /\ (B58Serialize H k1 = B58Serialize H k2 -> k1 = k2).
Proof. exact C15_injective_l. Qed.
Print Assumptions C15_injective.

Theorem C15_zero_key : forall H, Serialize H (repeat x00 78) = ([], Some ErrEmptyKey) /\ B58Serialize H (repeat x00 78) = [].
Proof. exact C15_zero_key_l. Qed.
Print Assumptions C15_zero_key.

Example C15_ex : prims_ok RealPrims /\ wf_key (xprv xprv_version x00 z4 z4 z32 1) /\ xprv xprv_version x00 z4 z4 z32 1 <> repeat x00 78.
Proof. exact C15_ex_l. Qed.

(** C16. What Deserialize and B58Deserialize accept. *)

Theorem C16_deserialize : forall H data, prims_ok H -> exists k e, Deserialize H data = Ret (k, e) /\ length k = 78%nat /\
  (e = None <-> length data = 82%nat /\ skipn 78 data = firstn 4 (p_sha256 H (p_sha256 H (firstn 78 data)))) /\
  (length data <> 82%nat -> e = Some ErrSerializedKeyWrongSize) /\
  (length data = 82%nat -> k = firstn 78 data /\ (e = None \/ e = Some ErrInvalidChecksum)).
Proof. exact C16_deserialize_l. Qed.
Print Assumptions C16_deserialize.

Theorem C16_b58_canonical : forall H s k, prims_ok H -> B58Deserialize H s = Ret (k, None) ->
  wf_key k /\ (k <> repeat x00 78 -> B58Serialize H k = s) /\
  s = Encode58 (k ++ firstn 4 (p_sha256 H (p_sha256 H k))).
Proof. exact C16_b58_canonical_l. Qed.
Print Assumptions C16_b58_canonical.

Theorem C16_b58_zero : forall H, prims_ok H -> exists s, s <> [] /\ B58Deserialize H s = Ret (repeat x00 78, None) /\ B58Serialize H (repeat x00 78) = [].
Proof. exact C16_b58_zero_l. Qed.
Print Assumptions C16_b58_zero.

Example C16_ex : prims_ok RealPrims /\ exists s k, B58Deserialize RealPrims s = Ret (k, None) /\ k <> repeat x00 78.
Proof. exact C16_ex_l. Qed.

(** C17. Key.IsValid tests only that the key is not all zero. *)

Theorem C17_isvalid : forall H k, prims_ok H -> wf_key k ->
  exists b, KeyIsValid H k = Ret b /\ (b = true <-> exists x, In x k /\ x <> x00).
Proof. exact C17_isvalid_l. Qed.
Print Assumptions C17_isvalid.

Theorem C17_valid_accepted : forall H k, prims_ok H -> valid_xkey k -> KeyIsValid H k = Ret true.
Proof. exact C17_valid_accepted_l. Qed.
Print Assumptions C17_valid_accepted.

Theorem C17_accepts_invalid_refuted : forall H, prims_ok H ->
  (exists k, wf_key k /\ KeyIsValid H k = Ret true /\ ~ valid_xkey k /\ k = xprv xprv_version x00 z4 z4 z32 0) /\
  (exists k, wf_key k /\ KeyIsValid H k = Ret true /\ ~ valid_xkey k /\ k = xprv xprv_version x00 z4 z4 z32 secp_n) /\
  (exists k, wf_key k /\ KeyIsValid H k = Ret true /\ ~ valid_xkey k /\ k = xkey xpub_version x00 z4 z4 z32 (x02 :: repeat x00 32)) /\
  (exists k, wf_key k /\ KeyIsValid H k = Ret true /\ ~ valid_xkey k /\ k = xprv xpub_version x00 z4 z4 z32 1) /\
  (exists k, wf_key k /\ KeyIsValid H k = Ret true /\ ~ valid_xkey k /\ k = xprv xprv_version x00 (repeat x01 4) z4 z32 1).
Proof. exact C17_accepts_invalid_refuted_l. Qed.
Print Assumptions C17_accepts_invalid_refuted.

Example C17_ex : prims_ok RealPrims /\ valid_xkey (xprv xprv_version x00 z4 z4 z32 1) /\ wf_key (xprv xprv_version x00 z4 z4 z32 1).
Proof. exact C17_ex_l. Qed.

(** C18. base58. *)

Theorem C18_base58 : (forall b, Decode58 (Encode58 b) = b) /\
(forall s, Forall (fun c => In c (B "123456789ABCDEFGHJKLMNPQRSTUVWXYZabcdefghijkmnopqrstuvwxyz")) s -> Encode58 (Decode58 s) = s) /\
(forall s, (exists c, In c s /\ ~ In c (B "123456789ABCDEFGHJKLMNPQRSTUVWXYZabcdefghijkmnopqrstuvwxyz")) -> Decode58 s = []) /\
(forall b, Forall (fun c => In c (B "123456789ABCDEFGHJKLMNPQRSTUVWXYZabcdefghijkmnopqrstuvwxyz")) (Encode58 b)).
Proof. exact C18_base58_l. Qed.
Print Assumptions C18_base58.

Example C18_ex : Forall (fun c => In c alphabet) (B "11xpub") /\ Encode58 [x00; x00; xff] = B "115Q" /\ Decode58 (B "0") = [].
Proof. exact C18_ex_l. Qed.

(** C19. Master keys. *)

Theorem C19_master : forall H seed, prims_ok H ->
  let I := p_hmac512 H (B "Bitcoin seed") seed in
  let k := parse256 (firstn 32 I) in
  (k = 0 \/ secp_n <= k -> NewMasterKey H seed = Ret (None, Some ErrInvalidPrivateKey)) /\
  (1 <= k < secp_n -> NewMasterKey H seed =
     Ret (Some (ser32 0x0488ade4 ++ [x00] ++ repeat x00 4 ++ ser32 0 ++ skipn 32 I ++ x00 :: firstn 32 I), None)) /\
  (NewMasterKey H seed = Ret (None, Some ErrInvalidPrivateKey) \/ exists key, NewMasterKey H seed = Ret (Some key, None) /\ valid_xkey key).
Proof. exact C19_master_l. Qed.
Print Assumptions C19_master.

Example C19_ex : (exists H seed, prims_ok H /\ 1 <= parse256 (firstn 32 (p_hmac512 H (B "Bitcoin seed") seed)) < secp_n) /\
(exists H seed, prims_ok H /\ parse256 (firstn 32 (p_hmac512 H (B "Bitcoin seed") seed)) = 0).
Proof. exact C19_ex_l. Qed.

(** C20. Private child key derivation. *)

Theorem C20_CKDpriv : forall H T v d f n c k i ki ci, prims_ok H -> after_init T -> fields_ok v f n c -> scalar_ok k -> pvt_registered v ->
  0 <= i < 2 ^ 32 -> CKDpriv H k c i = Some (ki, ci) ->
  NewChildKey H T (xprv v d f n c k) i = Ret (xprv v (bZ (Zb d + 1)) (fingerprint H (kG k)) (ser32 i) ci ki, None).
Proof. exact C20_CKDpriv_l. Qed.
Print Assumptions C20_CKDpriv.

Theorem C20_zero_child : forall H T v d f n c k i, prims_ok H -> after_init T -> fields_ok v f n c -> scalar_ok k -> pvt_registered v ->
  0 <= i < 2 ^ 32 -> (IL (I_priv H k c i) + k) mod secp_n = 0 ->
  CKDpriv H k c i = None /\ exists r, NewChildKey H T (xprv v d f n c k) i = Ret (r, Some ErrInvalidPrivateKey).
Proof. exact C20_zero_child_l. Qed.
Print Assumptions C20_zero_child.

Example C20_ex : after_init T0 /\ fields_ok xprv_version z4 z4 z32 /\ scalar_ok 1 /\ pvt_registered xprv_version /\
(exists H ki ci, prims_ok H /\ CKDpriv H 1 z32 HARD = Some (ki, ci)) /\
(exists H, prims_ok H /\ (IL (I_priv H 1 z32 HARD) + 1) mod secp_n = 0).
Proof. exact C20_ex_l. Qed.

(** C21. Public child key derivation. *)

Theorem C21_CKDpub : forall H T v d f n c K i Ki ci, prims_ok H -> after_init T -> fields_ok v f n c -> oncurve K -> K <> PInf -> pub_registered v ->
  0 <= i < 2 ^ 31 -> CKDpub H K c i = Some (Ki, ci) -> IL (I_pub H K c i) <> 0 ->
  NewChildKey H T (xpub v d f n c K) i = Ret (xpub v (bZ (Zb d + 1)) (fingerprint H K) (ser32 i) ci Ki, None).
Proof. exact C21_CKDpub_l. Qed.
Print Assumptions C21_CKDpub.

Theorem C21_zero_IL_refuted : forall H T v d f n c K i, prims_ok H -> after_init T -> fields_ok v f n c -> oncurve K -> K <> PInf -> pub_registered v ->
  0 <= i < 2 ^ 31 -> IL (I_pub H K c i) = 0 ->
  CKDpub H K c i = Some (K, IR (I_pub H K c i)) /\
  exists r, NewChildKey H T (xpub v d f n c K) i = Ret (r, Some ErrInvalidPublicKey).
Proof. exact C21_zero_IL_refuted_l. Qed.
Print Assumptions C21_zero_IL_refuted.

Example C21_ex : after_init T0 /\ fields_ok xpub_version z4 z4 z32 /\ oncurve (kG 1) /\ kG 1 <> PInf /\ pub_registered xpub_version /\
(exists H Ki ci, prims_ok H /\ CKDpub H (kG 1) z32 0 = Some (Ki, ci) /\ IL (I_pub H (kG 1) z32 0) <> 0) /\
(exists H, prims_ok H /\ IL (I_pub H (kG 1) z32 0) = 0).
Proof. exact C21_ex_l. Qed.

(** C22. Public and private derivation commute. *)

Theorem C22_commute : forall H T v d f n c k i k', prims_ok H -> after_init T -> fields_ok v f n c -> scalar_ok k -> 0 <= i < 2 ^ 31 ->
  IL (I_pub H (kG k) c i) mod secp_n <> 0 ->
  NewChildKey H T (xprv v d f n c k) i = Ret (k', None) ->
  NewChildKey H T (PublicKeyExtended T (xprv v d f n c k)) i = Ret (PublicKeyExtended T k', None).
Proof. exact C22_commute_l. Qed.
Print Assumptions C22_commute.

Theorem C22_zero_IL_refuted : forall H T v d f n c k i, prims_ok H -> after_init T -> fields_ok v f n c -> scalar_ok k -> pvt_registered v -> 0 <= i < 2 ^ 31 ->
  IL (I_pub H (kG k) c i) mod secp_n = 0 ->
  (exists k', NewChildKey H T (xprv v d f n c k) i = Ret (k', None)) /\
  (exists r, NewChildKey H T (PublicKeyExtended T (xprv v d f n c k)) i = Ret (r, Some ErrInvalidPublicKey)).
Proof. exact C22_zero_IL_refuted_l. Qed.
Print Assumptions C22_zero_IL_refuted.

Example C22_ex : (exists H k', prims_ok H /\ IL (I_pub H (kG 1) z32 0) mod secp_n <> 0 /\ NewChildKey H T0 (xprv xprv_version x00 z4 z4 z32 1) 0 = Ret (k', None)) /\
(exists H, prims_ok H /\ IL (I_pub H (kG 1) z32 0) mod secp_n = 0).
Proof. exact C22_ex_l. Qed.

(** C23. The same along any list of non-hardened indices; derives iterates NewChildKey, derives_nz adds that IL mod n is not 0 at each step. *)

Theorem C23_watch_only : forall H T k is k', prims_ok H -> after_init T -> Forall (fun i => 0 <= i < 2 ^ 31) is -> derives_nz H T k is k' ->
  derives H T (PublicKeyExtended T k) is (PublicKeyExtended T k').
Proof. exact C23_watch_only_l. Qed.
Print Assumptions C23_watch_only.

Example C23_ex : exists H k', prims_ok H /\ derives_nz H T0 (xprv xprv_version x00 z4 z4 z32 1) [0; 5] k'.
Proof. exact C23_ex_l. Qed.

(** C24. No hardened child from a public key. *)

Theorem C24_no_hardened_public : forall H T k i, wf_key k -> nth 45 k x00 <> x00 -> 2 ^ 31 <= i ->
  NewChildKey H T k i = Ret (repeat x00 78, Some ErrHardenedChildPublicKey).
Proof. exact C24_no_hardened_public_l. Qed.
Print Assumptions C24_no_hardened_public.

Example C24_ex : wf_key (xpub xpub_version x00 z4 z4 z32 (kG 1)) /\ nth 45 (xpub xpub_version x00 z4 z4 z32 (kG 1)) x00 <> x00.
Proof. exact C24_ex_l. Qed.

(** C25. Private keys returned without an error are usable; public ones need not be. *)

Theorem C25_private_usable : forall H T k i k', prims_ok H -> after_init T -> wf_key k -> nth 45 k x00 = x00 -> NewChildKey H T k i = Ret (k', None) ->
  exists v d f n c s, fields_ok v f n c /\ scalar_ok s /\ pvt_registered v /\ k' = xprv v d f n c s /\
    oncurve (kG s) /\ kG s <> PInf /\
    PublicKeyExtended T k' = xpub (slice 0 4 (PublicKeyExtended T k')) d f n c (kG s) /\
    (forall j, exists k'' e, NewChildKey H T k' j = Ret (k'', e) /\ (e = None \/ e = Some ErrInvalidPrivateKey /\ (IL (I_priv H s c j) + s) mod secp_n = 0)).
Proof. exact C25_private_usable_l. Qed.
Print Assumptions C25_private_usable.

Theorem C25_master_usable : forall H T seed k, prims_ok H -> after_init T -> NewMasterKey H seed = Ret (Some k, None) ->
  exists s c, scalar_ok s /\ k = xprv (ser32 0x0488ade4) x00 (repeat x00 4) (ser32 0) c s /\ valid_xkey k /\
    PublicKeyExtended T k = xpub (ser32 0x0488b21e) x00 (repeat x00 4) (ser32 0) c (kG s).
Proof. exact C25_master_usable_l. Qed.
Print Assumptions C25_master_usable.

Theorem C25_public_infinity : forall H T v d f n c K i, prims_ok H -> after_init T -> fields_ok v f n c -> oncurve K -> K <> PInf -> pub_registered v ->
  0 <= i < 2 ^ 31 -> kG (IL (I_pub H K c i)) = cneg K ->
  CKDpub H K c i = None /\
  exists k', NewChildKey H T (xpub v d f n c K) i = Ret (k', None) /\ skipn 45 k' = x02 :: repeat x00 32 /\ ~ valid_xkey k'.
Proof. exact C25_public_infinity_l. Qed.
Print Assumptions C25_public_infinity.

Theorem C25_public_infinity_refuted : exists H T k i k', prims_ok H /\ after_init T /\ valid_xkey k /\ 0 <= i < 2 ^ 31 /\
  NewChildKey H T k i = Ret (k', None) /\ ~ valid_xkey k'.
Proof. exact C25_public_infinity_refuted_l. Qed.
Print Assumptions C25_public_infinity_refuted.

Example C25_ex : (exists H k', prims_ok H /\ NewChildKey H T0 (xprv xprv_version x00 z4 z4 z32 1) 0 = Ret (k', None)) /\
nth 45 (xprv xprv_version x00 z4 z4 z32 1) x00 = x00 /\
(exists H seed k, prims_ok H /\ NewMasterKey H seed = Ret (Some k, None)).
Proof. exact C25_ex_l. Qed.

(** C26. IL >= n is not rejected: IL mod n is used. *)

Theorem C26_over_range : forall H T v d f n c k i, prims_ok H -> after_init T -> fields_ok v f n c -> scalar_ok k -> pvt_registered v -> 0 <= i < 2 ^ 32 ->
  let I := I_priv H k c i in
  secp_n <= IL I ->
  CKDpriv H k c i = None /\
  NewChildKey H T (xprv v d f n c k) i =
    Ret (xprv v (bZ (Zb d + 1)) (fingerprint H (kG k)) (ser32 i) (IR I) ((IL I mod secp_n + k) mod secp_n),
         if (IL I mod secp_n + k) mod secp_n =? 0 then Some ErrInvalidPrivateKey else None).
Proof. exact C26_over_range_l. Qed.
Print Assumptions C26_over_range.

Theorem C26_over_range_public : forall H T v d f n c K i, prims_ok H -> after_init T -> fields_ok v f n c -> oncurve K -> K <> PInf -> pub_registered v -> 0 <= i < 2 ^ 31 ->
  let I := I_pub H K c i in
  secp_n <= IL I -> IL I mod secp_n <> 0 -> cadd (kG (IL I mod secp_n)) K <> PInf ->
  CKDpub H K c i = None /\
  NewChildKey H T (xpub v d f n c K) i =
    Ret (xpub v (bZ (Zb d + 1)) (fingerprint H K) (ser32 i) (IR I) (cadd (kG (IL I mod secp_n)) K), None).
Proof. exact C26_over_range_public_l. Qed.
Print Assumptions C26_over_range_public.

Theorem C26_over_range_refuted : exists H T k i k', prims_ok H /\ after_init T /\ valid_xkey k /\ 0 <= i < 2 ^ 31 /\
  NewChildKey H T k i = Ret (k', None) /\ exists s c, k = xprv (slice 0 4 k) x00 z4 z4 c s /\ CKDpriv H s c i = None.
Proof. exact C26_over_range_refuted_l. Qed.
Print Assumptions C26_over_range_refuted.

Example C26_ex : exists H, prims_ok H /\ secp_n <= IL (I_priv H 1 z32 0) /\ secp_n <= IL (I_pub H (kG 1) z32 0) /\
  IL (I_pub H (kG 1) z32 0) mod secp_n <> 0 /\ cadd (kG (IL (I_pub H (kG 1) z32 0) mod secp_n)) (kG 1) <> PInf.
Proof. exact C26_ex_l. Qed.

(** C27. The depth byte. *)

Theorem C27_depth : forall H T k i k', prims_ok H -> after_init T -> wf_key k -> NewChildKey H T k i = Ret (k', None) ->
  Zb (nth 4 k' x00) = (Zb (nth 4 k x00) + 1) mod 256.
Proof. exact C27_depth_l. Qed.
Print Assumptions C27_depth.

Theorem C27_depth_counts : forall H T k is k', prims_ok H -> after_init T -> wf_key k -> derives H T k is k' ->
  Zb (nth 4 k' x00) = (Zb (nth 4 k x00) + Z.of_nat (length is)) mod 256.
Proof. exact C27_depth_counts_l. Qed.
Print Assumptions C27_depth_counts.

Theorem C27_depth_wraps_refuted : forall H T k i k', prims_ok H -> after_init T -> wf_key k -> nth 4 k x00 = xff -> NewChildKey H T k i = Ret (k', None) ->
  nth 4 k' x00 = x00.
Proof. exact C27_depth_wraps_refuted_l. Qed.
Print Assumptions C27_depth_wraps_refuted.

Example C27_ex : exists H k', prims_ok H /\ wf_key (xprv xprv_version xff z4 z4 z32 1) /\ nth 4 (xprv xprv_version xff z4 z4 z32 1) x00 = xff /\
  NewChildKey H T0 (xprv xprv_version xff z4 z4 z32 1) 0 = Ret (k', None) /\ derives H T0 (xprv xprv_version xff z4 z4 z32 1) [0] k'.
Proof. exact C27_ex_l. Qed.

(** C28. PublicKeyExtended. *)

Theorem C28_private : forall T v d f n c k, after_init T -> fields_ok v f n c -> scalar_ok k ->
  (forall w, length w = 4%nat -> paired v w -> PublicKeyExtended T (xprv v d f n c k) = xpub w d f n c (kG k)) /\
  (~ pvt_registered v -> PublicKeyExtended T (xprv v d f n c k) = xpub (ser32 0x0488b21e) d f n c (kG k)).
Proof. exact C28_private_l. Qed.
Print Assumptions C28_private.

Theorem C28_public : forall T k, after_init T -> wf_key k -> nth 45 k x00 <> x00 ->
  (pub_registered (slice 0 4 k) -> PublicKeyExtended T k = k) /\
  (~ pub_registered (slice 0 4 k) -> PublicKeyExtended T k = ser32 0x0488b21e ++ skipn 4 k).
Proof. exact C28_public_l. Qed.
Print Assumptions C28_public.

Theorem C28_idempotent : forall T k, after_init T -> wf_key k -> PublicKeyExtended T (PublicKeyExtended T k) = PublicKeyExtended T k.
Proof. exact C28_idempotent_l. Qed.
Print Assumptions C28_idempotent.

Theorem C28_fields : forall T k, wf_key k -> wf_key (PublicKeyExtended T k) /\ slice 4 45 (PublicKeyExtended T k) = slice 4 45 k /\
  nth 45 (PublicKeyExtended T k) x00 <> x00.
Proof. exact C28_fields_l. Qed.
Print Assumptions C28_fields.

Theorem C28_injective : forall j k, scalar_ok j -> scalar_ok k -> serPb (kG j) = serPb (kG k) -> j = k.
Proof. exact C28_injective_l. Qed.
Print Assumptions C28_injective.

Example C28_ex : after_init T0 /\ fields_ok xprv_version z4 z4 z32 /\ scalar_ok 1 /\ paired xprv_version xpub_version /\ ~ pvt_registered z4 /\
pub_registered xpub_version /\ ~ pub_registered z4.
Proof. exact C28_ex_l. Qed.

(** C29. Nothing depends on the order in which init ranges over the map. *)

Theorem C29_order_irrelevant : forall H T1 T2 k i, after_init T1 -> after_init T2 ->
  PublicKeyExtended T1 k = PublicKeyExtended T2 k /\ NewChildKey H T1 k i = NewChildKey H T2 k i.
Proof. exact C29_order_irrelevant_l. Qed.
Print Assumptions C29_order_irrelevant.

Theorem C29_init_terminates : forall ord, Permutation ord PathToHDBytesSlice -> exists T, init_tables ord = Ret T.
Proof. exact C29_init_terminates_l. Qed.
Print Assumptions C29_init_terminates.

Theorem C29_one_flag : forall T, after_init T ->
  (forall v l h h', PvtFlagToHDBytesSlice T v = Some l -> In h l -> In h' l -> PubKeyFlag h = PubKeyFlag h' /\ PvtKeyFlag h = v) /\
  (forall v l h h', PubFlagToHDBytesSlice T v = Some l -> In h l -> In h' l -> PvtKeyFlag h = PvtKeyFlag h' /\ PubKeyFlag h = v).
Proof. exact C29_one_flag_l. Qed.
Print Assumptions C29_one_flag.

Theorem C29_slice_permutation : forall T, after_init T -> Permutation (HDVersionBytesSlice T) (concat (map snd PathToHDBytesSlice)) /\ length (HDVersionBytesSlice T) = 29%nat.
Proof. exact C29_slice_permutation_l. Qed.
Print Assumptions C29_slice_permutation.

Example C29_ex : after_init T0 /\ exists T, init_tables (rev PathToHDBytesSlice) = Ret T /\ after_init T.
Proof. exact C29_ex_l. Qed.

(** C30. The text of a key starts with the documented prefix, except for three entries. *)

Theorem C30_prefixes : forall H h k, prims_ok H -> In h registered -> wf_key k -> ~ In (Coin h) [B "Nexa"; B "Nexa Testnet"; B "Vertcoin"] ->
  (GetVersion k = PvtKeyFlag h -> firstn 4 (B58Serialize H k) = PvKeyPrefix h /\ length (B58Serialize H k) = 111%nat) /\
  (GetVersion k = PubKeyFlag h -> firstn 4 (B58Serialize H k) = PubKeyPrefix h /\ length (B58Serialize H k) = 111%nat).
Proof. exact C30_prefixes_l. Qed.
Print Assumptions C30_prefixes.

Theorem C30_constant_prefix : forall H h k k', prims_ok H -> In h registered -> wf_key k -> wf_key k' -> GetVersion k = GetVersion k' ->
  GetVersion k = PvtKeyFlag h \/ GetVersion k = PubKeyFlag h ->
  firstn 4 (B58Serialize H k) = firstn 4 (B58Serialize H k') /\ length (B58Serialize H k) = length (B58Serialize H k').
Proof. exact C30_constant_prefix_l. Qed.
Print Assumptions C30_constant_prefix.

Theorem C30_misdocumented_refuted : forall H h k, prims_ok H -> In h registered -> wf_key k -> In (Coin h) [B "Nexa"; B "Nexa Testnet"; B "Vertcoin"] ->
  (GetVersion k = PvtKeyFlag h -> firstn 4 (B58Serialize H k) <> PvKeyPrefix h) /\
  (GetVersion k = PubKeyFlag h -> firstn 4 (B58Serialize H k) <> PubKeyPrefix h).
Proof. exact C30_misdocumented_refuted_l. Qed.
Print Assumptions C30_misdocumented_refuted.

Example C30_ex : In Bitcoinxprvxpub registered /\ ~ In (Coin Bitcoinxprvxpub) [B "Nexa"; B "Nexa Testnet"; B "Vertcoin"] /\ In Vertcoinvtcpvtcv registered /\ In (Coin Vertcoinvtcpvtcv) [B "Nexa"; B "Nexa Testnet"; B "Vertcoin"] /\
wf_key (xprv xprv_version x00 z4 z4 z32 1) /\ GetVersion (xprv xprv_version x00 z4 z4 z32 1) = PvtKeyFlag Bitcoinxprvxpub .
Proof. exact C30_ex_l. Qed.

(** C31. Purpose and coin accessors. *)

Theorem C31_accessors : forall h s, stripped (VPath h) s ->
  (forall a b, s = B "m/" ++ a ++ B "'/" ++ b ++ B "'" -> numeral a -> numeral b -> (length a <= 8)%nat -> (length b <= 8)%nat ->
     PurposeVal h = Ret (number a, None) /\ CoinVal h = Ret (number b, None) /\
     PurposeValFull h = Ret (number a + 2 ^ 31, None) /\ CoinValFull h = Ret (number b + 2 ^ 31, None) /\
     0 <= number a < 2 ^ 31 /\ 0 <= number b < 2 ^ 31) /\
  (forall v, PurposeVal h = Ret (v, None) \/ PurposeValFull h = Ret (v, None) ->
     exists a b, s = B "m/" ++ a ++ B "'/" ++ b ++ B "'" /\ numeral a /\ Forall digit b /\ (length a <= 8)%nat /\ (length b <= 8)%nat) /\
  (forall v, CoinVal h = Ret (v, None) \/ CoinValFull h = Ret (v, None) ->
     exists a b, s = B "m/" ++ a ++ B "'/" ++ b ++ B "'" /\ Forall digit a /\ numeral b /\ (length a <= 8)%nat /\ (length b <= 8)%nat) /\
  PurposeVal h <> Panic /\ CoinVal h <> Panic /\ PurposeValFull h <> Panic /\ CoinValFull h <> Panic.
Proof. exact C31_accessors_l. Qed.
Print Assumptions C31_accessors.

Theorem C31_errors : forall h s v e, stripped (VPath h) s ->
  let shape a b := s = B "m/" ++ a ++ B "'/" ++ b ++ B "'" /\ Forall digit a /\ Forall digit b /\ (length a <= 8)%nat /\ (length b <= 8)%nat in
  (PurposeVal h = Ret (v, Some e) \/ PurposeValFull h = Ret (v, Some e) ->
     v = 0 /\ ((e = ErrUnSupportedHDVersionBytes /\ forall a b, ~ shape a b) \/ (e = ErrSyntax /\ exists b, shape [] b))) /\
  (CoinVal h = Ret (v, Some e) \/ CoinValFull h = Ret (v, Some e) ->
     v = 0 /\ ((e = ErrUnSupportedHDVersionBytes /\ forall a b, ~ shape a b) \/ (e = ErrSyntax /\ exists a, shape a []))).
Proof. exact C31_errors_l. Qed.
Print Assumptions C31_errors.

Theorem C31_empty_component_refuted : exists h, CoinVal h = Ret (5, None) /\ VBIsValid h = true /\ PurposeVal h = Ret (0, Some ErrSyntax) /\ VPath h = B "m/'/5'".
Proof. exact C31_empty_component_refuted_l. Qed.
Print Assumptions C31_empty_component_refuted.

Theorem C31_registered : forall T h, after_init T -> In h registered -> exists pv cv, 
  PurposeVal h = Ret (pv, None) /\ PurposeValFull h = Ret (pv + 2 ^ 31, None) /\ CoinVal h = Ret (cv, None) /\
  (exists l, PurposeToHDBytesSlice T pv = Some l /\ In h l) /\
  (exists l, PurposeFullToHDBytesSlice T (pv + 2 ^ 31) = Some l /\ In h l) /\
  (exists l, CoinTypeToHDBytesSlice T cv = Some l /\ In h l) /\
  (forall v l h', PurposeToHDBytesSlice T v = Some l -> In h' l -> PurposeVal h' = Ret (v, None)) /\
  (forall v l h', CoinTypeToHDBytesSlice T v = Some l -> In h' l -> CoinVal h' = Ret (v, None)).
Proof. exact C31_registered_l. Qed.
Print Assumptions C31_registered.

Example C31_ex : In Bitcoinxprvxpub registered /\ stripped (VPath Bitcoinxprvxpub) (B "m/44'/0'") /\ numeral (B "44") /\ numeral (B "0") /\
CoinVal Nexaxprvxpub = Ret (29223, None) /\ PurposeVal (mkVB [] 0 [] 0 [] [] (B "m/x")) = Ret (0, Some ErrUnSupportedHDVersionBytes).
Proof. exact C31_ex_l. Qed.

(** C32. Unregistered versions. *)

Theorem C32_unregistered : forall H T k i, prims_ok H -> after_init T -> wf_key k ->
  (nth 45 k x00 = x00 -> ~ pvt_registered (slice 0 4 k) -> NewChildKey H T k i = Ret (repeat x00 78, Some ErrUnSupportedHDVersionBytes)) /\
  (nth 45 k x00 <> x00 -> ~ pub_registered (slice 0 4 k) -> i < 2 ^ 31 -> NewChildKey H T k i = Ret (repeat x00 78, Some ErrUnSupportedHDVersionBytes)) /\
  (nth 45 k x00 = x00 -> pvt_registered (slice 0 4 k) -> forall r, NewChildKey H T k i <> Ret (r, Some ErrUnSupportedHDVersionBytes)) /\
  (nth 45 k x00 <> x00 -> pub_registered (slice 0 4 k) -> forall r, NewChildKey H T k i <> Ret (r, Some ErrUnSupportedHDVersionBytes)).
Proof. exact C32_unregistered_l. Qed.
Print Assumptions C32_unregistered.

Example C32_ex : wf_key (xprv z4 x00 z4 z4 z32 1) /\ ~ pvt_registered (slice 0 4 (xprv z4 x00 z4 z4 z32 1)) /\
wf_key (xpub z4 x00 z4 z4 z32 (kG 1)) /\ ~ pub_registered (slice 0 4 (xpub z4 x00 z4 z4 z32 (kG 1))).
Proof. exact C32_ex_l. Qed.

(** C33. Compression of public keys. *)

Theorem C33_expand_compress : forall x y, oncurve (PAff x y) ->
  compressPublicKey (fv x, fv y) = serPb (PAff x y) /\ ExpandPublicKey (serPb (PAff x y)) = Ret (fv x, fv y).
Proof. exact C33_expand_compress_l. Qed.
Print Assumptions C33_expand_compress.

Theorem C33_compress_expand : forall k0 xs y, k0 = x02 \/ k0 = x03 -> length xs = 32%nat -> be_Z xs < secp_p -> oncurve (PAff (toF (be_Z xs)) y) ->
  exists P, ExpandPublicKey (k0 :: xs) = Ret P /\ compressPublicKey P = k0 :: xs.
Proof. exact C33_compress_expand_l. Qed.
Print Assumptions C33_compress_expand.

Theorem C33_off_curve_refuted : (forall k0 xs, (forall y, ~ oncurve (PAff (toF (be_Z xs)) y)) ->
   ExpandPublicKey (k0 :: xs) = Ret (be_Z xs, if Byte.eqb k0 x02 then 0 else secp_p)) /\
(forall y, ~ oncurve (PAff (toF (be_Z (repeat x00 32))) y)) /\
ExpandPublicKey (x02 :: repeat x00 32) = Ret (0, 0).
Proof. exact C33_off_curve_refuted_l. Qed.
Print Assumptions C33_off_curve_refuted.

Theorem C33_validate : forall k0 xs,
  let refused := be_Z xs = 0 \/ (k0 = x02 /\ forall y, ~ oncurve (PAff (toF (be_Z xs)) y)) in
  (refused -> validateChildPublicKey (k0 :: xs) = Ret (Some ErrInvalidPublicKey)) /\
  (~ refused -> validateChildPublicKey (k0 :: xs) = Ret None).
Proof. exact C33_validate_l. Qed.
Print Assumptions C33_validate.

Theorem C33_validate_refuted : (forall k0 xs, k0 <> x02 -> be_Z xs <> 0 -> (forall y, ~ oncurve (PAff (toF (be_Z xs)) y)) -> validateChildPublicKey (k0 :: xs) = Ret None) /\
(exists xs, length xs = 32%nat /\ be_Z xs <> 0 /\ forall y, ~ oncurve (PAff (toF (be_Z xs)) y)).
Proof. exact C33_validate_refuted_l. Qed.
Print Assumptions C33_validate_refuted.

Example C33_ex : (exists x y, oncurve (PAff x y)) /\ exists k0 xs y, (k0 = x02 \/ k0 = x03) /\ length xs = 32%nat /\ be_Z xs < secp_p /\ oncurve (PAff (toF (be_Z xs)) y).
Proof. exact C33_ex_l. Qed.

(** C34. A non-hardened child private key and the parent public key give the parent private key. *)

Theorem C34_leak : forall H T v d f n c k i v' d' f' n' c' ki, prims_ok H -> after_init T -> fields_ok v f n c -> scalar_ok k -> 0 <= i < 2 ^ 31 ->
  fields_ok v' f' n' c' -> scalar_ok ki ->
  NewChildKey H T (xprv v d f n c k) i = Ret (xprv v' d' f' n' c' ki, None) ->
  k = (ki - IL (p_hmac512 H c (serPb (kG k) ++ ser32 i))) mod secp_n.
Proof. exact C34_leak_l. Qed.
Print Assumptions C34_leak.

Theorem C34_hardened_input : forall H T v d f n c k i k', prims_ok H -> after_init T -> fields_ok v f n c -> scalar_ok k -> 2 ^ 31 <= i < 2 ^ 32 ->
  NewChildKey H T (xprv v d f n c k) i = Ret (k', None) ->
  let I := p_hmac512 H c ((x00 :: ser256 k) ++ ser32 i) in
  slice 13 45 k' = skipn 32 I /\ skipn 46 k' = ser256 ((IL I + k) mod secp_n).
Proof. exact C34_hardened_input_l. Qed.
Print Assumptions C34_hardened_input.

Example C34_ex : (exists H k', prims_ok H /\ NewChildKey H T0 (xprv xprv_version x00 z4 z4 z32 1) 0 = Ret (k', None) /\
   exists v' d' f' n' c' ki, fields_ok v' f' n' c' /\ scalar_ok ki /\ k' = xprv v' d' f' n' c' ki) /\
(exists H k', prims_ok H /\ NewChildKey H T0 (xprv xprv_version x00 z4 z4 z32 1) HARD = Ret (k', None)).
Proof. exact C34_ex_l. Qed.

(** C47. Hexadecimal accessors. *)

Theorem C47_hex : forall T v d f n c k, after_init T -> fields_ok v f n c -> scalar_ok k ->
  PrivateKeyHex (xprv v d f n c k) = HexEncode (ser256 k) /\ length (PrivateKeyHex (xprv v d f n c k)) = 64%nat /\
  HexDecode (PrivateKeyHex (xprv v d f n c k)) = Some (ser256 k) /\
  HexDecode (PublicKeyHex T (xprv v d f n c k)) = Some (serPb (kG k)).
Proof. exact C47_hex_l. Qed.
Print Assumptions C47_hex.

Theorem C47_hex_public : forall T k, after_init T -> wf_key k ->
  PublicKeyHex T (PublicKeyExtended T k) = PublicKeyHex T k /\ length (PublicKeyHex T k) = 66%nat /\
  (nth 45 k x00 <> x00 -> PrivateKeyHex k = [] /\ HexDecode (PublicKeyHex T k) = Some (skipn 45 k)).
Proof. exact C47_hex_public_l. Qed.
Print Assumptions C47_hex_public.

Example C47_ex : after_init T0 /\ fields_ok xprv_version z4 z4 z32 /\ scalar_ok 1 /\ wf_key (xprv xprv_version x00 z4 z4 z32 1).
Proof. exact C47_ex_l. Qed.

(** C60. Panics in package bip32. *)

Theorem C60_no_panic : forall H T k i seed data s, prims_ok H -> after_init T -> wf_key k ->
  NewMasterKey H seed <> Panic /\ NewChildKey H T k i <> Panic /\ Deserialize H data <> Panic /\ B58Deserialize H s <> Panic /\
  KeyIsValid H k <> Panic /\ (forall r e, NewChildKey H T k i = Ret (r, e) -> wf_key r).
Proof. exact C60_no_panic_l. Qed.
Print Assumptions C60_no_panic.

Theorem C60_panics : (forall code key, setChainCodeUint32 code key = Panic) /\
(forall key, ExpandPublicKey key = Panic <-> key = []) /\
(forall key, validateChildPublicKey key = Panic <-> key = []) /\
(forall k1 k2, addPublicKeys k1 k2 = Panic <-> k1 = [] \/ k2 = []).
Proof. exact C60_panics_l. Qed.
Print Assumptions C60_panics.

Example C60_ex : prims_ok RealPrims /\ after_init T0 /\ wf_key (xprv xprv_version x00 z4 z4 z32 1).
Proof. exact C60_ex_l. Qed.

(** C61. The field accessors of a key. *)

Theorem C61_setters : forall k v d f n c data p, wf_key k -> length v = 4%nat -> length f = 4%nat -> length n = 4%nat -> length c = 32%nat ->
  length data = 33%nat -> length p = 32%nat ->
  SetVersion v k = v ++ skipn 4 k /\ setDepth d k = firstn 4 k ++ [d] ++ skipn 5 k /\
  setFingerPrint f k = firstn 5 k ++ f ++ skipn 9 k /\ setChildNumber n k = firstn 9 k ++ n ++ skipn 13 k /\
  setChainCode c k = firstn 13 k ++ c ++ skipn 45 k /\ setPubKeyBytes data k = firstn 45 k ++ data /\
  setPvtKeyBytes p k = firstn 46 k ++ p.
Proof. exact C61_setters_l. Qed.
Print Assumptions C61_setters.

Theorem C61_getters : forall k, wf_key k ->
  k = uint32Bytes (GetVersion k) ++ GetDepth k ++ GetFingerPrint k ++ GetChildNumber k ++ GetChainCode k ++ GetKeyBytes k /\
  GetKeyBytes k = nth 45 k x00 :: GetPvtKeyBytes k /\ 0 <= GetVersion k < 2 ^ 32 /\
  length (GetDepth k) = 1%nat /\ length (GetFingerPrint k) = 4%nat /\ length (GetChildNumber k) = 4%nat /\
  length (GetChainCode k) = 32%nat /\ length (GetKeyBytes k) = 33%nat.
Proof. exact C61_getters_l. Qed.
Print Assumptions C61_getters.

Theorem C61_version_uint32 : forall k v, wf_key k -> 0 <= v < 2 ^ 32 ->
  GetVersion (SetVersionUint32 v k) = v /\ skipn 4 (SetVersionUint32 v k) = skipn 4 k /\ wf_key (SetVersionUint32 v k).
Proof. exact C61_version_uint32_l. Qed.
Print Assumptions C61_version_uint32.

Example C61_ex : wf_key (xprv xprv_version x00 z4 z4 z32 1) /\ 0 <= 0x0488ade4 < 2 ^ 32 /\ length z4 = 4%nat /\ length z32 = 32%nat.
Proof. exact C61_ex_l. Qed.

(** C62. IsRegistered and IsValid look only at the path. *)

Theorem C62_is_registered : forall h, (IsRegistered h = true <-> exists s, stripped (VPath h) s /\ exists h', In h' registered /\ VPath h' = s) /\
  (In h registered -> IsRegistered h = true /\ VBIsValid h = true).
Proof. exact C62_is_registered_l. Qed.
Print Assumptions C62_is_registered.

Theorem C62_unregistered_flags_refuted : forall a b, exists h, PvtKeyFlag h = a /\ PubKeyFlag h = b /\ IsRegistered h = true /\ VBIsValid h = true.
Proof. exact C62_unregistered_flags_refuted_l. Qed.
Print Assumptions C62_unregistered_flags_refuted.

Example C62_ex : In Bitcoinxprvxpub registered /\ exists h, IsRegistered h = false.
Proof. exact C62_ex_l. Qed.
