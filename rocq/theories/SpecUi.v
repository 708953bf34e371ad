(** SpecUi.v - vocabulary for the properties of the example program: what its fields should say about each other. *)
From Verif Require Import Base GoStr Prims Secp Base58 Bip39 UtilMnemonic SpecUtil Bip32Path Bip32Reg Bip32 Util.

(** A seed that the program cannot handle: the text writes at least 16 bytes, and the master key they give is not a
    private key (probability below 2^-127 for HMAC-SHA512). For util/util.go:56-76. *)
Definition bad_seed (H : Prims) (s : bytes) : Prop :=
  exists b, hexes s b /\ (16 <= length b)%nat /\ NewMasterKey H b = Ret (None, Some ErrInvalidPrivateKey).
(** The text is not the base58 form of any key. For bip32/bip32.go:382-386. *)
Definition undecodable (H : Prims) (s : bytes) : Prop := forall k, B58Deserialize H s <> Ret (k, None).
(** An invalid derivation path counts as "m". For util/util.go:91-124. *)
Definition path_of (s : bytes) : bytes := if PathIsValid s then s else B "m".
(** The keys that belong to a root key and the text of the path field. For util/util.go:91-124. *)
Definition keys_of (H : Prims) (T : tables) (root path : bytes) (kps : list KeyPath) : Prop :=
  exists e, DeriveBIP32Result H T root (path_of path) = Ret (kps, e).
(** The root key of a seed; the zero key if the seed is no seed. For util/util.go:56-76. *)
Definition root_of (H : Prims) (seed root : bytes) : Prop := exists e, RootKeyFromSeed H seed = Ret (Some root, e).
(** The seed of a mnemonic; empty if the mnemonic is not valid. For util/util.go:47-53. *)
Definition seed_of (H : Prims) (wst : wstate) (m pass : bytes) : bytes :=
  if IsMnemonicValid H wst m then HexEncode (NewSeed H m pass) else [].
(** The six labels of a key. For examples/ui/one/main.go:27-165. *)
Definition labels (H : Prims) (T : tables) (kp : KeyPath) (l : list bytes) : Prop :=
  exists a, AddrHex H T (KKey kp) = Ret a /\
    l = [PathString (KPath kp); B58Serialize H (KKey kp); B58Serialize H (PublicKeyExtended T (KKey kp)); PrivateKeyHex (KKey kp);
         PublicKeyHex T (PublicKeyExtended T (KKey kp)); a].
