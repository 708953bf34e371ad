(** Util.v - model of util/util.go:55-127 and util/key_path.go. *)
From Verif Require Import Base GoStr Prims Secp Base58 Bip32Path Bip32Reg Bip32.

(** RootKeyFromSeed: util/util.go:56-75. The result is a pointer: None is nil. When NewMasterKey fails it
    returns nil, its error is overwritten, and rootKey.Serialize ranges over a nil array pointer
    (bip32/bip32.go:248), which panics. *)
Definition RootKeyFromSeed (H : Prims) (seed : bytes) : outcome (option bytes * option err) :=
  match HexDecode seed with
  | None => Ret (Some zero_key, Some ErrHex)
  | Some seedBs =>
    if Nat.ltb (length seedBs) 16 then Ret (Some zero_key, Some ErrInvalidBIP39Seed)
    else
      let! (rootKey, _) := NewMasterKey H seedBs in
      match rootKey with
      | None => Panic
      | Some k =>
        match Serialize H k with
        | (_, Some e) => Ret (Some k, Some e)
        | (ser, None) => let! (_, e) := Deserialize H ser in Ret (Some k, e)
        end
      end
  end.

(** KeyPath: util/key_path.go:11-14 *)
Record KeyPath := mkKP { KPath : bytes; KKey : bytes }.

(** The text appended for a value: util/util.go:114-117 and util/key_path.go:94-97. *)
Definition append_val (derivedPath : bytes) (val : Z) : bytes :=
  let d := derivedPath ++ B "/" ++ Itoa (val mod FirstHardenedChild) in
  if val >=? FirstHardenedChild then d ++ B "'" else d.

(** The loop of DeriveBIP32Result, util/util.go:113-123; the error of NewChildKey is dropped. *)
Fixpoint derive_loop (H : Prims) (T : tables) (derivedPath currentKey : bytes) (vals : list Z) : outcome (list KeyPath) :=
  match vals with
  | [] => Ret []
  | val :: r =>
    let derivedPath := append_val derivedPath val in
    let! (currentKey, _) := NewChildKey H T currentKey val in
    let! rest := derive_loop H T derivedPath currentKey r in
    Ret (mkKP (Formatted derivedPath) currentKey :: rest)
  end.

(** Generator.DeriveBIP32Result: util/util.go:91-127; [rootKey] is the generator's only field (util/util.go:79-89).
    The disjunction is evaluated from left to right, every test is free of effects. *)
Definition DeriveBIP32Result (H : Prims) (T : tables) (rootKey p : bytes) : outcome (list KeyPath * option err) :=
  let! v := KeyIsValid H rootKey in
  if negb v || negb (IsPrivate rootKey) || negb (Byte.eqb (key_at 4 rootKey) x00) then Ret ([], Some ErrInvalidRootKey)
  else if negb (PathIsValid p) then Ret ([], Some ErrUtilUnSupportedOrInvalidPath)
  else
    match ValuesAtDepth p with
    | (_, Some e) => Ret ([], Some e)
    | (pathItems, None) =>
      let! rest := derive_loop H T (B "m") rootKey (tl pathItems) in
      Ret (mkKP (B "m") rootKey :: rest, None)
    end.

(** KeyPath.AddrHex: util/key_path.go:16-26. Bytes() of a big integer drops leading zeros. *)
Definition AddrHex (H : Prims) (T : tables) (key : bytes) : outcome bytes :=
  match HexDecode (PublicKeyHex T key) with
  | None => Ret []
  | Some pbs =>
    let! (x, y) := ExpandPublicKey pbs in
    Ret (HexEncode (skipn 12 (p_keccak256 H (Z_bytes x ++ Z_bytes y))))
  end.

(** KeyPath.AddrP2SH: util/key_path.go:28-44 *)
Definition AddrP2SH (H : Prims) (T : tables) (key : bytes) (verPrefix : byte) : bytes :=
  match HexDecode (PublicKeyHex T key) with
  | None => []
  | Some pbs =>
    let verPubKeyHash := [verPrefix] ++ HashRipeMD160onSha256 H pbs in
    Encode58 (verPubKeyHash ++ ChecksumDblSha256 H verPubKeyHash)
  end.

(** KeyPathRange: util/key_path.go:69-74 *)
Record KeyPathRange := mkKPR { StartIndex : Z; EndIndex : Z; RKeyPath : KeyPath; KeyPaths : list KeyPath }.

(** The loop of GenerateRange, util/key_path.go:93-103. The fuel bounds the number of iterations; i stays at
    most endIndex, so [end - start] iterations are enough (UtilFacts.range_fuel). *)
Fixpoint range_loop (H : Prims) (T : tables) (fuel : nat) (derivedPath currentKey : bytes) (i endIndex : Z) : outcome (list KeyPath) :=
  match fuel with
  | O => Ret []
  | S f =>
    if i <? endIndex then
      let derivedPath := append_val derivedPath i in
      let! (currentKey, _) := NewChildKey H T currentKey i in
      let! rest := range_loop H T f derivedPath currentKey (u32 (i + 1)) endIndex in
      Ret (mkKP (Formatted derivedPath) currentKey :: rest)
    else Ret []
  end.

(** KeyPathRange.GenerateRange: util/key_path.go:76-106. [endIndex-startIndex < 1] is a comparison of uint32
    values. *)
Definition GenerateRange (H : Prims) (T : tables) (k : KeyPathRange) : outcome (KeyPathRange * option err) :=
  let startIndex := StartIndex k in
  let endIndex := EndIndex k in
  if u32 (endIndex - startIndex) <? 1 then Ret (k, Some ErrInvalidRangeProvided)
  else
    let! v := KeyIsValid H (KKey (RKeyPath k)) in
    if negb v then Ret (k, Some ErrInvalidRootKey)
    else if negb (PathIsValid (KPath (RKeyPath k))) then Ret (k, Some ErrUtilUnSupportedOrInvalidPath)
    else
      let! keyPaths := range_loop H T (Z.to_nat (endIndex - startIndex)) (PathString (KPath (RKeyPath k))) (KKey (RKeyPath k)) startIndex endIndex in
      Ret (mkKPR startIndex endIndex (RKeyPath k) keyPaths, None).
