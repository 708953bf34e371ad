(** Bip32Vars.v - the exported variables of package bip32 that other packages can change: DefaultMainnetVersion and the
    maps of registered version bytes (which are already an argument of the functions in Bip32.v). *)
From Verif Require Import Base GoStr Prims Bip32Path Bip32Reg Bip32 Util.

(** NewMasterKey when DefaultMainnetVersion has the value [d]: bip32/bip32.go:79-101, read at line 96. *)
Definition NewMasterKey_v (H : Prims) (d : VersionBytes) (seed : bytes) : outcome (option bytes * option err) :=
  let intermediary := p_hmac512 H (B "Bitcoin seed") seed in
  let! keyBytes := arr 32 (firstn 32 intermediary) in
  let! chainCode := arr 32 (skipn 32 intermediary) in
  match ValidatePrivateKey keyBytes with
  | Some e => Ret (None, Some e)
  | None => Ret (Some (setPvtKeyBytes keyBytes (setChainCode chainCode (SetVersion (PvtKeyFlagBytes d) zero_key))), None)
  end.
(** PublicKeyExtended: bip32/bip32.go:202-225, read at lines 210 and 220. *)
Definition PublicKeyExtended_v (T : tables) (d : VersionBytes) (key : bytes) : bytes :=
  let vs := slice 0 4 key in
  let vsVal := be_Z vs in
  if IsPrivate key then
    let vs := match lookup0 (PvtFlagToHDBytesSlice T) vsVal with None => PubKeyFlagBytes d | Some h => PubKeyFlagBytes h end in
    SetVersion vs (copy_at 45 78 (publicKeyForPrivateKey (skipn 46 key)) key)
  else
    let vs := match lookup0 (PubFlagToHDBytesSlice T) vsVal with None => PubKeyFlagBytes d | Some _ => vs end in
    SetVersion vs key.
(** RootKeyFromSeed: util/util.go:56-75, through NewMasterKey. *)
Definition RootKeyFromSeed_v (H : Prims) (d : VersionBytes) (seed : bytes) : outcome (option bytes * option err) :=
  match HexDecode seed with
  | None => Ret (Some zero_key, Some ErrHex)
  | Some seedBs =>
    if Nat.ltb (length seedBs) 16 then Ret (Some zero_key, Some ErrInvalidBIP39Seed)
    else
      let! (rootKey, _) := NewMasterKey_v H d seedBs in
      match rootKey with
      | None => Panic
      | Some k =>
        match Serialize H k with
        | (_, Some e) => Ret (Some k, Some e)
        | (ser, None) => let! (_, e) := Deserialize H ser in Ret (Some k, e)
        end
      end
  end.
(** A caller that adds a version pair of its own does to the two maps what init does, bip32/reg_ver_bytes.go:430-433. *)
Definition register (T : tables) (h : VersionBytes) : tables :=
  mkTables (gappend (PubFlagToHDBytesSlice T) (PubKeyFlag h) h) (gappend (PvtFlagToHDBytesSlice T) (PvtKeyFlag h) h)
           (HDVersionBytesSlice T) (PurposeToHDBytesSlice T) (PurposeFullToHDBytesSlice T) (CoinTypeToHDBytesSlice T).
