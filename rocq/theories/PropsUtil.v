(** PropsUtil.v - properties of the util package (C40-C46).
    Every theorem is closed by the lemma of the same name in ClaimsUtil.v; an Example beside it shows that its
    hypotheses can be met. *)
From Verif Require Import Base BaseFacts GoStr GoStrFacts HexFacts Prims Hash HashFacts Secp Fp ECGroup SpecEC SecpGroup SecpOrder SecpFacts Cert130 Base58 Base58Facts SpecPath SpecBip32 SpecUtil Bip32Path Bip32Reg Bip32 Bip32RegFacts Bip32KeyFacts Bip32Facts Bip32Facts2 Bip32PathFacts Util UtilFacts Claims32 ClaimsPath ClaimsUtil.

(** C40. RootKeyFromSeed. *)

Theorem C40_root_key : forall H s k, prims_ok H ->
  (RootKeyFromSeed H s = Ret (k, None) <->
   exists b key, hexes s b /\ (16 <= length b)%nat /\ k = Some key /\ NewMasterKey H b = Ret (Some key, None)).
Proof. exact C40_root_key_l. Qed.
Print Assumptions C40_root_key.

Theorem C40_rejects : forall H s, ((forall b, ~ hexes s b) -> RootKeyFromSeed H s = Ret (Some (repeat x00 78), Some ErrHex)) /\
  (forall b, hexes s b -> (length b < 16)%nat -> RootKeyFromSeed H s = Ret (Some (repeat x00 78), Some ErrInvalidBIP39Seed)).
Proof. exact C40_rejects_l. Qed.
Print Assumptions C40_rejects.

Theorem C40_panic_refuted : forall H s b, prims_ok H -> hexes s b -> (16 <= length b)%nat ->
  NewMasterKey H b = Ret (None, Some ErrInvalidPrivateKey) -> RootKeyFromSeed H s = Panic.
Proof. exact C40_panic_refuted_l. Qed.
Print Assumptions C40_panic_refuted.

Example C40_ex : hexes (B "00Ff") [x00; xff] /\ (forall b, ~ hexes (B "0g") b) /\ hexes (repeat x30 32) (repeat x00 16) /\
(exists H, prims_ok H /\ NewMasterKey H (repeat x00 16) = Ret (None, Some ErrInvalidPrivateKey)) /\
(exists H key, prims_ok H /\ NewMasterKey H (repeat x00 16) = Ret (Some key, None)).
Proof. exact C40_ex_l. Qed.

(** C41. DeriveBIP32Result is the chain of child derivations. *)

Theorem C41_chain : forall H T root p vs, prims_ok H -> after_init T -> root_key root -> ValuesAtDepth p = (0 :: vs, None) ->
  exists kps, DeriveBIP32Result H T root p = Ret (kps, None) /\ length kps = S (length vs) /\
    nth_error kps 0 = Some (mkKP (B "m") root) /\
    (forall j v, nth_error vs j = Some v -> exists kp kp' e, nth_error kps j = Some kp /\ nth_error kps (S j) = Some kp' /\
       NewChildKey H T (KKey kp) v = Ret (KKey kp', e)).
Proof. exact C41_chain_l. Qed.
Print Assumptions C41_chain.

Theorem C41_prefix : forall H T root p p' vs ws, prims_ok H -> after_init T -> root_key root -> ValuesAtDepth p = (0 :: vs, None) -> ValuesAtDepth p' = (0 :: vs ++ ws, None) ->
  exists kps more, DeriveBIP32Result H T root p = Ret (kps, None) /\ DeriveBIP32Result H T root p' = Ret (kps ++ more, None) /\ length more = length ws.
Proof. exact C41_prefix_l. Qed.
Print Assumptions C41_prefix.

Theorem C41_values_only : forall H T root p p', ValuesAtDepth p = ValuesAtDepth p' -> DeriveBIP32Result H T root p = DeriveBIP32Result H T root p'.
Proof. exact C41_values_only_l. Qed.
Print Assumptions C41_values_only.

Theorem C41_rejects : forall H T root p, prims_ok H -> length root = 78%nat ->
  (~ root_key root -> DeriveBIP32Result H T root p = Ret ([], Some ErrInvalidRootKey)) /\
  (root_key root -> PathIsValid p = false -> DeriveBIP32Result H T root p = Ret ([], Some ErrUtilUnSupportedOrInvalidPath)).
Proof. exact C41_rejects_l. Qed.
Print Assumptions C41_rejects.

Example C41_ex : root_key (xprv xprv_version x00 z4 z4 z32 1) /\ ValuesAtDepth (B "m/44'/1") = ([0; 2147483692; 1], None) /\ ~ root_key (xprv xprv_version x01 z4 z4 z32 1) /\
ValuesAtDepth (B " M/44' /1") = ValuesAtDepth (B "m/44'/1").
Proof. exact C41_ex_l. Qed.

(** C42. DeriveBIP32Result never reports derivation failures. *)

Theorem C42_unregistered_refuted : forall H T root p vs, prims_ok H -> after_init T -> root_key root -> ~ pvt_registered (slice 0 4 root) -> ValuesAtDepth p = (0 :: vs, None) ->
  exists kps, DeriveBIP32Result H T root p = Ret (mkKP (B "m") root :: kps, None) /\ length kps = length vs /\ Forall (fun kp => KKey kp = repeat x00 78) kps.
Proof. exact C42_unregistered_refuted_l. Qed.
Print Assumptions C42_unregistered_refuted.

Theorem C42_zero_scalar_refuted : forall H T v f n c s p i vs, prims_ok H -> after_init T -> fields_ok v f n c -> scalar_ok s -> pvt_registered v -> ValuesAtDepth p = (0 :: i :: vs, None) ->
  (IL (I_priv H s c i) + s) mod secp_n = 0 ->
  exists kps kp f', DeriveBIP32Result H T (xprv v x00 f n c s) p = Ret (kps, None) /\ nth_error kps 1 = Some kp /\
    KKey kp = xprv v x01 f' (ser32 i) (IR (I_priv H s c i)) 0 /\ ~ valid_xkey (KKey kp).
Proof. exact C42_zero_scalar_refuted_l. Qed.
Print Assumptions C42_zero_scalar_refuted.

Theorem C42_valid_entries : forall H T v f n c s p vs k', prims_ok H -> after_init T -> fields_ok v f n c -> scalar_ok s -> pvt_registered v ->
  ValuesAtDepth p = (0 :: vs, None) -> derives H T (xprv v x00 f n c s) vs k' ->
  exists kps, DeriveBIP32Result H T (xprv v x00 f n c s) p = Ret (kps, None) /\
    forall j i, nth_error vs j = Some i -> exists q f' c' s', nth_error kps (S j) = Some (mkKP q (xprv v (bZ (Z.of_nat (S j))) f' (ser32 i) c' s')) /\
      fields_ok v f' (ser32 i) c' /\ scalar_ok s'.
Proof. exact C42_valid_entries_l. Qed.
Print Assumptions C42_valid_entries.

Example C42_ex : root_key (xprv z4 x00 z4 z4 z32 1) /\ ~ pvt_registered (slice 0 4 (xprv z4 x00 z4 z4 z32 1)) /\
(exists H, prims_ok H /\ (IL (I_priv H 1 z32 5) + 1) mod secp_n = 0) /\
(exists H k', prims_ok H /\ derives H T0 (xprv xprv_version x00 z4 z4 z32 1) [0; 5] k') /\ ValuesAtDepth (B "m/0/5") = ([0; 0; 5], None).
Proof. exact C42_ex_l. Qed.

(** C43. The paths reported by DeriveBIP32Result. *)

Theorem C43_path_text : forall H T root p vs kps, prims_ok H -> after_init T -> root_key root -> ValuesAtDepth p = (0 :: vs, None) -> DeriveBIP32Result H T root p = Ret (kps, None) ->
  forall j kp, nth_error kps j = Some kp ->
    KPath kp = B "m" ++ concat (map (fun v => if v <? 2 ^ 31 then soft_text (Itoa v) else hard_text (Itoa (v - 2 ^ 31))) (firstn j vs)).
Proof. exact C43_path_text_l. Qed.
Print Assumptions C43_path_text.

Theorem C43_path_values : forall H T root p vs kps, prims_ok H -> after_init T -> root_key root -> ValuesAtDepth p = (0 :: vs, None) -> DeriveBIP32Result H T root p = Ret (kps, None) ->
  forall j kp, nth_error kps j = Some kp ->
    (PathIsValid (KPath kp) = true <-> hardened_first (firstn j vs)) /\
    (forall l, ValuesAtDepth (KPath kp) = (l, None) -> l = 0 :: firstn j vs).
Proof. exact C43_path_values_l. Qed.
Print Assumptions C43_path_values.

Theorem C43_own_path_rejected_refuted : forall H T root, prims_ok H -> after_init T -> root_key root ->
  PathIsValid (B "m/0/2147483648") = true /\
  exists kps kp, DeriveBIP32Result H T root (B "m/0/2147483648") = Ret (kps, None) /\ nth_error kps 2 = Some kp /\ KPath kp = B "m/0/0'" /\ PathIsValid (KPath kp) = false.
Proof. exact C43_own_path_rejected_refuted_l. Qed.
Print Assumptions C43_own_path_rejected_refuted.

Example C43_ex : root_key (xprv xprv_version x00 z4 z4 z32 1) /\ hardened_first [2147483692; 5] /\ ~ hardened_first [0; 2147483648].
Proof. exact C43_ex_l. Qed.

(** C44. GenerateRange. *)

Theorem C44_chain : forall H T kr, prims_ok H -> after_init T -> length (KKey (RKeyPath kr)) = 78%nat -> (exists x, In x (KKey (RKeyPath kr)) /\ x <> x00) ->
  PathIsValid (KPath (RKeyPath kr)) = true -> 0 <= StartIndex kr < EndIndex kr -> EndIndex kr < 2 ^ 32 ->
  exists kps, GenerateRange H T kr = Ret (mkKPR (StartIndex kr) (EndIndex kr) (RKeyPath kr) kps, None) /\ Z.of_nat (length kps) = EndIndex kr - StartIndex kr /\
    (forall j, (j < length kps)%nat -> exists prev kp e, nth_error (KKey (RKeyPath kr) :: map KKey kps) j = Some prev /\ nth_error kps j = Some kp /\
       NewChildKey H T prev (StartIndex kr + Z.of_nat j) = Ret (KKey kp, e)).
Proof. exact C44_chain_l. Qed.
Print Assumptions C44_chain.

Theorem C44_paths : forall H T kr kps s, prims_ok H -> after_init T -> length (KKey (RKeyPath kr)) = 78%nat -> 0 <= StartIndex kr < EndIndex kr -> EndIndex kr < 2 ^ 32 ->
  stripped (KPath (RKeyPath kr)) s -> GenerateRange H T kr = Ret (mkKPR (StartIndex kr) (EndIndex kr) (RKeyPath kr) kps, None) ->
  (exists x, In x (KKey (RKeyPath kr)) /\ x <> x00) -> PathIsValid (KPath (RKeyPath kr)) = true ->
  forall j kp, nth_error kps j = Some kp -> KPath kp = s ++ concat (map (fun v => if v <? 2 ^ 31 then soft_text (Itoa v) else hard_text (Itoa (v - 2 ^ 31)))
    (map (fun i => StartIndex kr + Z.of_nat i) (seq 0 (S j)))).
Proof. exact C44_paths_l. Qed.
Print Assumptions C44_paths.

Theorem C44_not_siblings_refuted : forall H T kr j k', prims_ok H -> after_init T -> length (KKey (RKeyPath kr)) = 78%nat -> (exists x, In x (KKey (RKeyPath kr)) /\ x <> x00) ->
  PathIsValid (KPath (RKeyPath kr)) = true -> 0 <= StartIndex kr < EndIndex kr -> EndIndex kr < 2 ^ 32 ->
  (1 <= j <= 255)%nat -> Z.of_nat j < EndIndex kr - StartIndex kr ->
  derives H T (KKey (RKeyPath kr)) (map (fun i => StartIndex kr + Z.of_nat i) (seq 0 (S j))) k' ->
  exists kps kp, GenerateRange H T kr = Ret (mkKPR (StartIndex kr) (EndIndex kr) (RKeyPath kr) kps, None) /\ nth_error kps j = Some kp /\ KKey kp = k' /\
    (forall sibling, NewChildKey H T (KKey (RKeyPath kr)) (StartIndex kr + Z.of_nat j) = Ret (sibling, None) -> KKey kp <> sibling).
Proof. exact C44_not_siblings_refuted_l. Qed.
Print Assumptions C44_not_siblings_refuted.

Theorem C44_start_above_end_refuted : forall H T kr, prims_ok H -> length (KKey (RKeyPath kr)) = 78%nat -> (exists x, In x (KKey (RKeyPath kr)) /\ x <> x00) ->
  PathIsValid (KPath (RKeyPath kr)) = true -> 0 <= EndIndex kr < StartIndex kr -> StartIndex kr < 2 ^ 32 ->
  GenerateRange H T kr = Ret (mkKPR (StartIndex kr) (EndIndex kr) (RKeyPath kr) [], None).
Proof. exact C44_start_above_end_refuted_l. Qed.
Print Assumptions C44_start_above_end_refuted.

Theorem C44_rejects : forall H T kr, prims_ok H -> length (KKey (RKeyPath kr)) = 78%nat ->
  (StartIndex kr = EndIndex kr -> GenerateRange H T kr = Ret (kr, Some ErrInvalidRangeProvided)) /\
  (0 <= StartIndex kr < 2 ^ 32 -> 0 <= EndIndex kr < 2 ^ 32 -> StartIndex kr <> EndIndex kr ->
    (KKey (RKeyPath kr) = repeat x00 78 -> GenerateRange H T kr = Ret (kr, Some ErrInvalidRootKey)) /\
    (KKey (RKeyPath kr) <> repeat x00 78 -> PathIsValid (KPath (RKeyPath kr)) = false -> GenerateRange H T kr = Ret (kr, Some ErrUtilUnSupportedOrInvalidPath))) /\
  (forall r e, GenerateRange H T kr = Ret (r, Some e) -> r = kr).
Proof. exact C44_rejects_l. Qed.
Print Assumptions C44_rejects.

Example C44_ex : exists H k', prims_ok H /\ derives H T0 (xprv xprv_version x00 z4 z4 z32 1) (map (fun i => 4 + Z.of_nat i) (seq 0 2)) k' /\ PathIsValid (B "m") = true.
Proof. exact C44_ex_l. Qed.

(** C45. AddrHex. *)

Theorem C45_private : forall H T v d f n c s x y bx by_, after_init T -> fields_ok v f n c -> scalar_ok s -> kG s = PAff x y -> minimal bx (fv x) -> minimal by_ (fv y) ->
  AddrHex H T (xprv v d f n c s) = Ret (HexEncode (skipn 12 (p_keccak256 H (bx ++ by_)))).
Proof. exact C45_private_l. Qed.
Print Assumptions C45_private.

Theorem C45_public : forall H T v d f n c x y bx by_, after_init T -> fields_ok v f n c -> oncurve (PAff x y) -> minimal bx (fv x) -> minimal by_ (fv y) ->
  AddrHex H T (xpub v d f n c (PAff x y)) = Ret (HexEncode (skipn 12 (p_keccak256 H (bx ++ by_)))).
Proof. exact C45_public_l. Qed.
Print Assumptions C45_public.

Theorem C45_total : forall H T k, prims_ok H -> after_init T -> length k = 78%nat -> exists a, AddrHex H T k = Ret a /\ length a = 40%nat.
Proof. exact C45_total_l. Qed.
Print Assumptions C45_total.

Theorem C45_ethereum : forall H T v d f n c s x y, after_init T -> fields_ok v f n c -> scalar_ok s -> kG s = PAff x y -> 2 ^ 248 <= fv x -> 2 ^ 248 <= fv y ->
  AddrHex H T (xprv v d f n c s) = Ret (HexEncode (eth_address H (fv x) (fv y))).
Proof. exact C45_ethereum_l. Qed.
Print Assumptions C45_ethereum.

Theorem C45_ethereum_public : forall H T v d f n c x y, after_init T -> fields_ok v f n c -> oncurve (PAff x y) -> 2 ^ 248 <= fv x -> 2 ^ 248 <= fv y ->
  AddrHex H T (xpub v d f n c (PAff x y)) = Ret (HexEncode (eth_address H (fv x) (fv y))).
Proof. exact C45_ethereum_public_l. Qed.
Print Assumptions C45_ethereum_public.

Theorem C45_leading_zero_refuted : exists k s x y, k = xprv xprv_version x00 z4 z4 z32 s /\ valid_xkey k /\ scalar_ok s /\ kG s = PAff x y /\
  forall T, after_init T -> exists a, AddrHex RealPrims T k = Ret a /\ a <> HexEncode (eth_address RealPrims (fv x) (fv y)).
Proof. exact C45_leading_zero_refuted_l. Qed.
Print Assumptions C45_leading_zero_refuted.

Example C45_ex : kG 130 = PAff (toF x130) (toF y130) /\ 2 ^ 248 <= fv (toF x130) /\ fv (toF y130) < 2 ^ 248 /\
kG 1 = PAff (toF secp_Gx) (toF secp_Gy) /\ 2 ^ 248 <= fv (toF secp_Gx) /\ 2 ^ 248 <= fv (toF secp_Gy).
Proof. exact C45_ex_l. Qed.

(** C46. AddrP2SH. *)

Theorem C46_private : forall H T v d f n c s ver, after_init T -> fields_ok v f n c -> scalar_ok s ->
  Decode58 (AddrP2SH H T (xprv v d f n c s) ver) = ver :: hash160 H (serPb (kG s)) ++ firstn 4 (p_sha256 H (p_sha256 H (ver :: hash160 H (serPb (kG s))))) /\
  AddrP2SH H T (xprv v d f n c s) ver <> [].
Proof. exact C46_private_l. Qed.
Print Assumptions C46_private.

Theorem C46_public : forall H T k ver, after_init T -> length k = 78%nat -> nth 45 k x00 <> x00 ->
  Decode58 (AddrP2SH H T k ver) = ver :: hash160 H (skipn 45 k) ++ firstn 4 (p_sha256 H (p_sha256 H (ver :: hash160 H (skipn 45 k)))) /\ AddrP2SH H T k ver <> [].
Proof. exact C46_public_l. Qed.
Print Assumptions C46_public.

Theorem C46_recoverable : forall H T k k' ver ver' b b', prims_ok H -> HexDecode (PublicKeyHex T k) = Some b -> HexDecode (PublicKeyHex T k') = Some b' ->
  AddrP2SH H T k ver = AddrP2SH H T k' ver' -> ver = ver' /\ hash160 H b = hash160 H b'.
Proof. exact C46_recoverable_l. Qed.
Print Assumptions C46_recoverable.

Theorem C46_not_script_hash_refuted : forall H T k ver b, prims_ok H -> HexDecode (PublicKeyHex T k) = Some b ->
  Decode58 (AddrP2SH H T k ver) = p2pkh_payload H ver b /\
  (Decode58 (AddrP2SH H T k ver) = p2sh_payload H ver (p2wpkh_script H b) -> hash160 H (p2wpkh_script H b) = hash160 H b).
Proof. exact C46_not_script_hash_refuted_l. Qed.
Print Assumptions C46_not_script_hash_refuted.

Example C46_ex : fields_ok xprv_version z4 z4 z32 /\ scalar_ok 1 /\ (exists b, HexDecode (PublicKeyHex T0 (xprv xprv_version x00 z4 z4 z32 1)) = Some b) /\
(exists H b, prims_ok H /\ hash160 H (p2wpkh_script H b) <> hash160 H b).
Proof. exact C46_ex_l. Qed.
