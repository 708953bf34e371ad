(** PropsVars.v - the exported variables of package bip32 (C79-C80).
    Every theorem is closed by the lemma of the same name in ClaimsVars.v; an Example beside it shows that its
    hypotheses can be met. *)
From Verif Require Import Base BaseFacts GoStr GoStrFacts Prims Hash HashFacts Bip39 SpecBip39 WordLists Bip39Init Bip39InitFacts WlEnglish AllLists Secp SpecPath SpecBip32 SpecUtil Bip32Path Bip32Reg Bip32 Bip32PathFacts Bip32Facts Bip32KeyFacts Bip32Facts2 Bip32RegFacts UtilFacts Util Generator GeneratorFacts Fp ECGroup SpecEC SecpFacts Bip32Vars Bip32PrefixFacts Claims32 ClaimsVars.

(** C79. The exported variable DefaultMainnetVersion. *)

Theorem C79_initial : forall H T s k, NewMasterKey_v H DefaultMainnetVersion s = NewMasterKey H s /\
  RootKeyFromSeed_v H DefaultMainnetVersion s = RootKeyFromSeed H s /\ PublicKeyExtended_v T DefaultMainnetVersion k = PublicKeyExtended T k.
Proof. exact C79_initial_l. Qed.
Print Assumptions C79_initial.

Theorem C79_master : forall H d seed, prims_ok H ->
  (NewMasterKey H seed = Ret (None, Some ErrInvalidPrivateKey) /\ NewMasterKey_v H d seed = Ret (None, Some ErrInvalidPrivateKey)) \/
  (exists k, NewMasterKey H seed = Ret (Some k, None) /\ NewMasterKey_v H d seed = Ret (Some (ser32 (PvtKeyFlag d) ++ skipn 4 k), None)).
Proof. exact C79_master_l. Qed.
Print Assumptions C79_master.

Theorem C79_registered : forall H T d seed k, prims_ok H -> after_init T -> In d registered -> NewMasterKey_v H d seed = Ret (Some k, None) ->
  exists s c, scalar_ok s /\ length c = 32%nat /\ k = xprv (ser32 (PvtKeyFlag d)) x00 (repeat x00 4) (ser32 0) c s /\ valid_xkey k /\
    PublicKeyExtended_v T d k = xpub (ser32 (PubKeyFlag d)) x00 (repeat x00 4) (ser32 0) c (kG s) /\
    forall d', PublicKeyExtended_v T d' k = PublicKeyExtended_v T d k.
Proof. exact C79_registered_l. Qed.
Print Assumptions C79_registered.

Theorem C79_prefix : forall H T d seed k, prims_ok H -> after_init T -> In d registered -> ~ In (Coin d) [B "Nexa"; B "Nexa Testnet"; B "Vertcoin"] ->
  NewMasterKey_v H d seed = Ret (Some k, None) ->
  firstn 4 (B58Serialize H k) = PvKeyPrefix d /\ firstn 4 (B58Serialize H (PublicKeyExtended_v T d k)) = PubKeyPrefix d.
Proof. exact C79_prefix_l. Qed.
Print Assumptions C79_prefix.

Theorem C79_testnet : forall H T seed k, prims_ok H -> after_init T -> NewMasterKey_v H DefaultTestnetVersion seed = Ret (Some k, None) ->
  firstn 4 (B58Serialize H k) = B "tprv" /\ firstn 4 (B58Serialize H (PublicKeyExtended_v T DefaultTestnetVersion k)) = B "tpub".
Proof. exact C79_testnet_l. Qed.
Print Assumptions C79_testnet.

Theorem C79_unregistered_refuted : forall H T d seed k, prims_ok H -> after_init T -> ~ pvt_registered (ser32 (PvtKeyFlag d)) -> NewMasterKey_v H d seed = Ret (Some k, None) ->
  (forall i, NewChildKey H T k i = Ret (repeat x00 78, Some ErrUnSupportedHDVersionBytes)) /\
  (forall p vs, ValuesAtDepth p = (0 :: vs, None) -> exists kps, DeriveBIP32Result H T k p = Ret (mkKP (B "m") k :: kps, None) /\
     length kps = length vs /\ Forall (fun kp => KKey kp = repeat x00 78) kps).
Proof. exact C79_unregistered_refuted_l. Qed.
Print Assumptions C79_unregistered_refuted.

Theorem C79_public : forall T d k, after_init T -> wf_key k ->
  (nth 45 k x00 = x00 /\ pvt_registered (slice 0 4 k) \/ nth 45 k x00 <> x00 /\ pub_registered (slice 0 4 k) -> PublicKeyExtended_v T d k = PublicKeyExtended T k) /\
  (nth 45 k x00 = x00 /\ ~ pvt_registered (slice 0 4 k) \/ nth 45 k x00 <> x00 /\ ~ pub_registered (slice 0 4 k) ->
     PublicKeyExtended_v T d k = ser32 (PubKeyFlag d) ++ skipn 4 (PublicKeyExtended T k)).
Proof. exact C79_public_l. Qed.
Print Assumptions C79_public.

Example C79_ex : In DefaultTestnetVersion registered /\ In DefaultMainnetVersion registered /\ DefaultTestnetVersion <> DefaultMainnetVersion /\
  ~ pvt_registered (ser32 (PvtKeyFlag (mkVB (B "x") 7 [] 8 [] [] []))) /\
  (exists H seed k, prims_ok H /\ NewMasterKey_v H DefaultTestnetVersion seed = Ret (Some k, None)).
Proof. exact C79_ex_l. Qed.

(** C80. The exported maps of registered versions, whatever they contain. *)

Theorem C80_private : forall H T v d f n c k i ki ci h r, prims_ok H -> fields_ok v f n c -> scalar_ok k -> PvtFlagToHDBytesSlice T (be_Z v) = Some (h :: r) ->
  (0 <= i < 2 ^ 32 -> CKDpriv H k c i = Some (ki, ci) ->
   NewChildKey H T (xprv v d f n c k) i = Ret (xprv v (bZ (Zb d + 1)) (fingerprint H (kG k)) (ser32 i) ci ki, None)) /\
  PublicKeyExtended T (xprv v d f n c k) = xpub (ser32 (PubKeyFlag h)) d f n c (kG k).
Proof. exact C80_private_l. Qed.
Print Assumptions C80_private.

Theorem C80_public : forall H T v d f n c K i Ki ci h r, prims_ok H -> fields_ok v f n c -> oncurve K -> K <> PInf -> PubFlagToHDBytesSlice T (be_Z v) = Some (h :: r) ->
  0 <= i < 2 ^ 31 -> CKDpub H K c i = Some (Ki, ci) -> IL (I_pub H K c i) <> 0 ->
  NewChildKey H T (xpub v d f n c K) i = Ret (xpub (ser32 (PubKeyFlag h)) (bZ (Zb d + 1)) (fingerprint H K) (ser32 i) ci Ki, None) /\
  PublicKeyExtended T (xpub v d f n c K) = xpub v d f n c K.
Proof. exact C80_public_l. Qed.
Print Assumptions C80_public.

Theorem C80_absent : forall H T k i, prims_ok H -> wf_key k ->
  (nth 45 k x00 = x00 -> PvtFlagToHDBytesSlice T (be_Z (slice 0 4 k)) = None \/ PvtFlagToHDBytesSlice T (be_Z (slice 0 4 k)) = Some [] ->
     NewChildKey H T k i = Ret (repeat x00 78, Some ErrUnSupportedHDVersionBytes)) /\
  (nth 45 k x00 <> x00 -> PubFlagToHDBytesSlice T (be_Z (slice 0 4 k)) = None \/ PubFlagToHDBytesSlice T (be_Z (slice 0 4 k)) = Some [] -> i < 2 ^ 31 ->
     NewChildKey H T k i = Ret (repeat x00 78, Some ErrUnSupportedHDVersionBytes)).
Proof. exact C80_absent_l. Qed.
Print Assumptions C80_absent.

Theorem C80_no_panic : forall H T k i, prims_ok H -> wf_key k -> exists k' e, NewChildKey H T k i = Ret (k', e) /\ wf_key k' /\ wf_key (PublicKeyExtended T k).
Proof. exact C80_no_panic_l. Qed.
Print Assumptions C80_no_panic.

Theorem C80_register_keeps : forall H T hs k i h r, (nth 45 k x00 = x00 /\ PvtFlagToHDBytesSlice T (be_Z (slice 0 4 k)) = Some (h :: r) \/
                       nth 45 k x00 <> x00 /\ PubFlagToHDBytesSlice T (be_Z (slice 0 4 k)) = Some (h :: r)) ->
  NewChildKey H (fold_left register hs T) k i = NewChildKey H T k i /\ PublicKeyExtended (fold_left register hs T) k = PublicKeyExtended T k.
Proof. exact C80_register_keeps_l. Qed.
Print Assumptions C80_register_keeps.

Theorem C80_register_new : forall H T x d f n c k i k', prims_ok H -> 0 <= PvtKeyFlag x < 2 ^ 32 -> 0 <= PubKeyFlag x < 2 ^ 32 ->
  PvtFlagToHDBytesSlice T (PvtKeyFlag x) = None -> PubFlagToHDBytesSlice T (PubKeyFlag x) = None ->
  fields_ok (ser32 (PvtKeyFlag x)) f n c -> scalar_ok k -> 0 <= i < 2 ^ 31 -> CKDpriv H k c i <> None -> IL (I_pub H (kG k) c i) <> 0 ->
  let K := xprv (ser32 (PvtKeyFlag x)) d f n c k in
  NewChildKey H T K i = Ret (repeat x00 78, Some ErrUnSupportedHDVersionBytes) /\
  (NewChildKey H (register T x) K i = Ret (k', None) ->
   PublicKeyExtended (register T x) K = xpub (ser32 (PubKeyFlag x)) d f n c (kG k) /\
   NewChildKey H (register T x) (PublicKeyExtended (register T x) K) i = Ret (PublicKeyExtended (register T x) k', None)) /\
  (exists k'', NewChildKey H (register T x) K i = Ret (k'', None)).
Proof. exact C80_register_new_l. Qed.
Print Assumptions C80_register_new.

Example C80_ex : PvtFlagToHDBytesSlice tables0 7 = None /\ PvtFlagToHDBytesSlice (register tables0 (mkVB (B "x") 7 [] 8 [] [] [])) 7 = Some [mkVB (B "x") 7 [] 8 [] [] []] /\
  fields_ok (ser32 7) z4 z4 z32 /\ scalar_ok 1 /\
  (exists H, prims_ok H /\ CKDpriv H 1 z32 5 <> None /\ IL (I_pub H (kG 1) z32 5) <> 0).
Proof. exact C80_ex_l. Qed.
