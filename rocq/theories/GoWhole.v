(** GoWhole.v - bip39, bip32 and util once more, with every call of a library replaced by the library function as it is written: hash objects
    (GoHash), numbers of 64-bit words (GoNat, GoNatUse), the curve in field words (GoField, GoCurve), texts (GoStrLit, GoFmt),
    regular expressions compiled from their texts (GoRegexp, GoRegexpParse), encoders (GoCodec, GoNatUse), the random source (GoRand). What is left of Go
    itself is the language: slices, arrays, maps, loops. *)
From Verif Require Import Base GoStr GoStrLit Prims Secp Base58 Bip32Path Bip32Reg Bip32 Bip39 Util GoHash GoCodec GoField GoCurve GoNat GoNatUse GoRegexp GoRegexpParse GoFmt GoRand.

(** What the libraries keep: the number buffer of fmt, the table of points and the parameters of the curve. bip32/utils.go:17-18 *)
Record env := mkEnv { e_buf : bytes; e_tab : list (list jac); e_P : list Z; e_N : list Z; e_B : list Z }.

(** ** Hashes *)
(** sha256: bip39/bip39.go:294, bip32/utils.go:32-37, 42 *)
Definition gSha256 (x : bytes) : outcome bytes := dg_sum Sha256 0 (dg_write Sha256 (dg_new Sha256) x).
(** ripemd160: bip32/utils.go:21-28 *)
Definition gRipemd160 (x : bytes) : outcome bytes := dg_sum_le Ripemd160 (dg_write Ripemd160 (dg_new Ripemd160) x).
(** sha3.NewLegacyKeccak256: util/key_path.go:23-25 *)
Definition gKeccak (x : bytes) : outcome bytes := let! d := sp_writes sp_new [x] in Ret (sp_sum d).
(** hmac.New(sha512.New, key), Write, Sum(nil): bip32/bip32.go:80-86, 189-195 *)
Definition gHmac (key x : bytes) : outcome bytes :=
  let! h := hmac_New key in
  let! (_, s) := hmac_Sum (hmac_Write h x) [] in
  Ret s.
(** HashRipeMD160onSha256: bip32/utils.go:31-39 *)
Definition gHash160 (data : bytes) : outcome bytes := let! s := gSha256 data in gRipemd160 s.
(** ChecksumDblSha256: bip32/utils.go:41-44 *)
Definition gChecksum (data : bytes) : outcome bytes :=
  let! a := gSha256 data in
  let! b := gSha256 a in
  Ret (firstn 4 b).
(** AddChecksumDblSha256ToBytes: bip32/utils.go:46-52 *)
Definition gAddChecksumToBytes (data : bytes) : outcome bytes := let! c := gChecksum data in Ret (data ++ c).

(** ** The curve *)
(** x.Sign() == 0; bip32/utils.go:134 *)
Definition gIsZero (x : list Z) : bool := match x with [] => true | _ => false end.
(** jacobianToBigAffine: bip32/utils.go:64, 70 *)
Definition gToBig (p : jac) : list Z * list Z := let p := ToAffine p in (setBytes (FieldBytes (jX p)), setBytes (FieldBytes (jY p))).
(** bigAffineToJacobian: bip32/utils.go:70 *)
Definition gFromBig (x y : list Z) : jac := mkJ (SetByteSlice (natBytes x)) (SetByteSlice (natBytes y)) (SetInt 1).
(** KoblitzCurve.Add: bip32/utils.go:70 *)
Definition gCurveAdd (x1 y1 x2 y2 : list Z) : list Z * list Z :=
  if gIsZero x1 && gIsZero y1 then (x2, y2)
  else if gIsZero x2 && gIsZero y2 then (x1, y1)
  else gToBig (AddNonConst (gFromBig x1 y1) (gFromBig x2 y2)).
(** KoblitzCurve.ScalarBaseMult: bip32/utils.go:64 *)
Definition gScalarBaseMult (E : env) (k : bytes) : outcome (list Z * list Z) :=
  let! k := if (32 <? length k)%nat then (let! (_, r) := natDiv (setBytes k) (e_N E) in Ret (natBytes r)) else Ret k in
  let! p := base_loop (e_tab E) (ScalarBytes (ScalarSetByteSlice k)) jInf in
  Ret (gToBig p).
(** publicKeyForPrivateKey: bip32/utils.go:63-65 *)
Definition gPublicKeyForPrivateKey (E : env) (key : bytes) : outcome bytes :=
  let! (x, y) := gScalarBaseMult E key in Ret (wCompress x y).
(** ExpandPublicKey: bip32/utils.go:107-130 *)
Definition gExpand (E : env) (key : bytes) : outcome (list Z * list Z) := wExpand 512 (e_P E) (e_B E) key.
(** validateChildPublicKey: bip32/utils.go:132-140 *)
Definition gValidateChildPublicKey (E : env) (key : bytes) : outcome (option err) :=
  let! (x, y) := gExpand E key in
  Ret (if gIsZero x || gIsZero y then Some ErrInvalidPublicKey else None).
(** addPublicKeys: bip32/utils.go:67-71 *)
Definition gAddPublicKeys (E : env) (key1 key2 : bytes) : outcome bytes :=
  let! (x1, y1) := gExpand E key1 in
  let! (x2, y2) := gExpand E key2 in
  let '(x, y) := gCurveAdd x1 y1 x2 y2 in
  Ret (wCompress x y).
(** ValidatePrivateKey: bip32/utils.go:54-60 *)
Definition gValidatePrivateKey (E : env) (key : bytes) : outcome (option err) := GoValidatePrivateKey (e_buf E) (natBytes (e_N E)) key.

(** ** Keys *)
(** NewMasterKey: bip32/bip32.go:79-101 *)
Definition gNewMasterKey (E : env) (seed : bytes) : outcome (option bytes * option err) :=
  let! intermediary := gHmac (B "Bitcoin seed") seed in
  let! keyBytes := arr 32 (firstn 32 intermediary) in
  let! chainCode := arr 32 (skipn 32 intermediary) in
  let! e := gValidatePrivateKey E keyBytes in
  match e with
  | Some e => Ret (None, Some e)
  | None =>
    let! v := GoUint32Bytes (PvtKeyFlag DefaultMainnetVersion) in
    Ret (Some (setPvtKeyBytes keyBytes (setChainCode chainCode (SetVersion v zero_key))), None)
  end.
(** getIntermediary: bip32/bip32.go:174-196 *)
Definition gGetIntermediary (E : env) (key : bytes) (childIdx : Z) : outcome bytes :=
  let data0 := repeat x00 33 in
  let! data :=
    if childIdx >=? FirstHardenedChild then Ret (copy_at 1 33 (slice 46 78 key) data0)
    else if IsPrivate key then (let! p := gPublicKeyForPrivateKey E (slice 46 78 key) in Ret (copy_at 0 33 p data0))
    else Ret (copy_at 0 33 (skipn 45 key) data0) in
  let! i := GoUint32Bytes childIdx in
  gHmac (slice 13 45 key) (data ++ i).
(** NewChildKey: bip32/bip32.go:108-172 *)
Definition gNewChildKey (E : env) (T : tables) (key : bytes) (childIdx : Z) : outcome (bytes * option err) :=
  if negb (IsPrivate key) && (childIdx >=? FirstHardenedChild) then Ret (zero_key, Some ErrHardenedChildPublicKey)
  else
    let! intermediary := gGetIntermediary E key childIdx in
    let vs := slice 0 4 key in
    let! vsVal := GoUint32 vs in
    match lookup0 (if IsPrivate key then PvtFlagToHDBytesSlice T else PubFlagToHDBytesSlice T) vsVal with
    | None => Ret (zero_key, Some ErrUnSupportedHDVersionBytes)
    | Some h =>
      let! vs := if IsPrivate key then Ret vs else GoUint32Bytes (PubKeyFlag h) in
      let! i := GoUint32Bytes childIdx in
      let! cn := arr 4 i in
      let! cc := arr 32 (skipn 32 intermediary) in
      let c1 := SetVersion vs (setDepth (bZ (Zb (key_at 4 key) + 1)) (setChainCode cc (setChildNumber cn zero_key))) in
      if IsPrivate key then
        let! p := gPublicKeyForPrivateKey E (slice 46 78 key) in
        let! h := gHash160 p in
        let! fp := arr 4 h in
        let c2 := setFingerPrint fp c1 in
        let! s := wAddPrivateKeys (e_N E) (firstn 32 intermediary) (skipn 46 key) in
        let! kbs := arr 32 s in
        let c3 := setPvtKeyBytes kbs c2 in
        let! e := gValidatePrivateKey E (GetPvtKeyBytes c3) in
        Ret (c3, e)
      else
        let! keyBytes := gPublicKeyForPrivateKey E (firstn 32 intermediary) in
        let! verr := gValidateChildPublicKey E keyBytes in
        match verr with
        | Some e => Ret (c1, Some e)
        | None =>
          let! fp := gHash160 (skipn 45 key) in
          let c2 := copy_at 5 9 fp c1 in
          let! sum := gAddPublicKeys E keyBytes (skipn 45 key) in
          let! kbs := arr 33 sum in
          Ret (setPubKeyBytes kbs c2, None)
        end
    end.
(** PublicKeyExtended: bip32/bip32.go:202-225 *)
Definition gPublicKeyExtended (E : env) (T : tables) (key : bytes) : outcome bytes :=
  let vs := slice 0 4 key in
  let! vsVal := GoUint32 vs in
  if IsPrivate key then
    let! vs := GoUint32Bytes (PubKeyFlag (match lookup0 (PvtFlagToHDBytesSlice T) vsVal with None => DefaultMainnetVersion | Some h => h end)) in
    let! p := gPublicKeyForPrivateKey E (skipn 46 key) in
    Ret (SetVersion vs (copy_at 45 78 p key))
  else
    let! vs := match lookup0 (PubFlagToHDBytesSlice T) vsVal with
               | None => GoUint32Bytes (PubKeyFlag DefaultMainnetVersion)
               | Some _ => Ret vs
               end in
    Ret (SetVersion vs key).
(** PrivateKeyHex: bip32/bip32.go:228-233 *)
Definition gPrivateKeyHex (key : bytes) : outcome bytes := if IsPrivate key then GoHexEncode (slice 46 78 key) else Ret [].
(** PublicKeyHex: bip32/bip32.go:236-242 *)
Definition gPublicKeyHex (E : env) (T : tables) (key : bytes) : outcome bytes :=
  if IsPrivate key then (let! p := gPublicKeyExtended E T key in GoHexEncode (slice 45 78 p)) else GoHexEncode (slice 45 78 key).
(** Serialize: bip32/bip32.go:246-263 *)
Definition gSerialize (key : bytes) : outcome (bytes * option err) :=
  if forallb (fun v => Byte.eqb v x00) key then Ret ([], Some ErrEmptyKey)
  else let! s := gAddChecksumToBytes key in Ret (s, None).
(** B58Serialize: bip32/bip32.go:266-272 *)
Definition gB58Serialize (key : bytes) : outcome bytes :=
  let! (s, e) := gSerialize key in
  match e with Some _ => Ret [] | None => wEncode58 s end.
(** Deserialize: bip32/bip32.go:293-313 *)
Definition gDeserialize (data : bytes) : outcome (bytes * option err) :=
  if negb (Nat.eqb (length data) 82) then
    let data := if Nat.ltb (length data) 82 then data ++ repeat x00 (82 - length data) else data in
    let! k := arr 78 (firstn 78 data) in Ret (k, Some ErrSerializedKeyWrongSize)
  else
    let! cs1 := gChecksum (firstn 78 data) in
    let cs2 := skipn 78 data in
    let! k := arr 78 (firstn 78 data) in
    Ret (k, if bytes_eqb cs1 cs2 then None else Some ErrInvalidChecksum).
(** B58Deserialize: bip32/bip32.go:382-385 *)
Definition gB58Deserialize (data : bytes) : outcome (bytes * option err) := let! d := wDecode58 data in gDeserialize d.
(** Key.IsValid: bip32/bip32.go:280-290 *)
Definition gKeyIsValid (key : bytes) : outcome bool :=
  let! (bs, e) := gSerialize key in
  match e with
  | Some _ => Ret false
  | None => let! (_, e) := gDeserialize bs in Ret (match e with None => true | Some _ => false end)
  end.

(** ** Paths *)
(** Path.String: bip32/path.go:24-27 *)
Definition gPathString (p : bytes) : outcome bytes := let! re := MustCompileText (B "\s") in ReplaceAllString re p [].
(** Path.ValuesAtDepth, the loop: bip32/path.go:54-74 *)
Fixpoint gValues_loop (pathArr : list Z) (comps : list bytes) : outcome (list Z * option err) :=
  match comps with
  | [] => Ret (pathArr, None)
  | s :: r =>
    if GoContains s (B "'") then
      let! fmtStr := GoReplaceAll s (B "'") [] in
      match Atoi fmtStr with
      | (_, Some e) => Ret (pathArr, Some e)
      | (val, None) =>
        if u32 val >=? FirstHardenedChild then Ret (pathArr, Some ErrUnSupportedOrInvalidPath)
        else gValues_loop (pathArr ++ [u32 (u32 val + FirstHardenedChild)]) r
      end
    else
      match Atoi s with
      | (_, Some e) => Ret (pathArr, Some e)
      | (val, None) => gValues_loop (pathArr ++ [u32 val]) r
      end
  end.
(** Path.ValuesAtDepth: bip32/path.go:45-76; pth[1:] panics on an empty slice *)
Definition gValuesAtDepth (p : bytes) : outcome (list Z * option err) :=
  let! re := MustCompileText (B "^[mM](/\d+')*(/\d+)*$") in
  let! s := gPathString p in
  let! ok := MatchString re s in
  if negb ok then Ret ([], Some ErrUnSupportedOrInvalidPath)
  else
    let! pth := GoSplit s (B "/") in
    match pth with
    | [] => Panic
    | _ :: comps => gValues_loop [0] comps
    end.
(** Path.IsValid: bip32/path.go:33-36 *)
Definition gPathIsValid (p : bytes) : outcome bool :=
  let! (_, e) := gValuesAtDepth p in Ret (match e with None => true | Some _ => false end).
(** Path.ValueAtDepth: bip32/path.go:81-90 *)
Definition gValueAtDepth (p : bytes) (b : byte) : outcome (Z * option err) :=
  let! (vals, e) := gValuesAtDepth p in
  match e with
  | Some e => Ret (0, Some e)
  | None =>
    if negb (Zb b <? Zb (bZ (Z.of_nat (length vals)))) then Ret (0, Some ErrUnSupportedOrInvalidPath)
    else let! v := get vals (Z.to_nat (Zb b)) in Ret (v, None)
  end.
(** Path.ReplaceValueAtDepth: bip32/path.go:91-107 *)
Definition gReplaceValueAtDepth (E : env) (p : bytes) (b : byte) (val : Z) : outcome (bytes * option err) :=
  let! (vals, e) := gValuesAtDepth p in
  match e with
  | Some e => Ret (p, Some e)
  | None =>
    if negb (Zb b <? Zb (bZ (Z.of_nat (length vals)))) then Ret (p, Some ErrUnSupportedOrInvalidPath)
    else
      let! s := gPathString p in
      let! valsArr := GoSplit s (B "/") in
      let! t := GoValText (e_buf E) val in
      let! valsArr := put valsArr (Z.to_nat (Zb b)) t in
      Ret (GoJoin valsArr (B "/"), None)
  end.
(** VersionBytes.IsValid: bip32/reg_ver_bytes.go:74-77 *)
Definition gVBIsValid (h : VersionBytes) : outcome bool :=
  let! re := MustCompileText (B "^m/\d{0,8}'/\d{0,8}'$") in
  let! s := gPathString (VPath h) in
  MatchString re s.
(** VersionBytes.PurposeVal and CoinVal: bip32/reg_ver_bytes.go:86-118 *)
Definition gComp_val (idx : nat) (h : VersionBytes) (e : err) : outcome (Z * option err) :=
  let! v := gVBIsValid h in
  if negb v then Ret (0, Some ErrUnSupportedHDVersionBytes)
  else
    let! s := gPathString (VPath h) in
    let! pathArr := GoSplit s (B "/") in
    let! c := get pathArr idx in
    let! str := GoReplaceAll c (B "'") [] in
    match Atoi str with
    | (_, Some er) => Ret (0, Some er)
    | (v, None) => if u32 v >=? FirstHardenedChild then Ret (0, Some e) else Ret (u32 v, None)
    end.
(** VersionBytes.PurposeValFull and CoinValFull: bip32/reg_ver_bytes.go:120-139 *)
Definition gVal_full (idx : nat) (h : VersionBytes) (e : err) : outcome (Z * option err) :=
  let! v := gVBIsValid h in
  if negb v then Ret (0, Some ErrUnSupportedHDVersionBytes)
  else
    let! (v, er) := gComp_val idx h e in
    match er with Some er => Ret (0, Some er) | None => Ret (u32 (v + FirstHardenedChild), None) end.
(** init, the inner loop: bip32/reg_ver_bytes.go:429-440 *)
Fixpoint gInit_loop (T : tables) (l : list VersionBytes) : outcome tables :=
  match l with
  | [] => Ret T
  | h :: r =>
    let! (pv, _) := gComp_val 1 h ErrInvalidPurpose in
    let! (pf, _) := gVal_full 1 h ErrInvalidPurpose in
    let! (cv, _) := gComp_val 2 h ErrInvalidCoin in
    gInit_loop (mkTables (gappend (PubFlagToHDBytesSlice T) (PubKeyFlag h) h)
                         (gappend (PvtFlagToHDBytesSlice T) (PvtKeyFlag h) h)
                         (HDVersionBytesSlice T)
                         (gappend (PurposeToHDBytesSlice T) pv h)
                         (gappend (PurposeFullToHDBytesSlice T) pf h)
                         (gappend (CoinTypeToHDBytesSlice T) cv h)) r
  end.
(** init, the outer loop: bip32/reg_ver_bytes.go:427-441 *)
Fixpoint gInit_outer (T : tables) (ord : list (bytes * list VersionBytes)) : outcome tables :=
  match ord with
  | [] => Ret T
  | (_, arr) :: r =>
    let! T := gInit_loop (mkTables (PubFlagToHDBytesSlice T) (PvtFlagToHDBytesSlice T) (HDVersionBytesSlice T ++ arr)
                                   (PurposeToHDBytesSlice T) (PurposeFullToHDBytesSlice T) (CoinTypeToHDBytesSlice T)) arr in
    gInit_outer T r
  end.
(** init: bip32/reg_ver_bytes.go:426-442; [ord]: the order in which the map is walked *)
Definition gInit (ord : list (bytes * list VersionBytes)) : outcome tables := gInit_outer tables0 ord.

(** ** util *)
(** RootKeyFromSeed: util/util.go:56-75 *)
Definition gRootKeyFromSeed (E : env) (seed : bytes) : outcome (option bytes * option err) :=
  let! (seedBs, e) := GoHexDecode seed in
  match e with
  | Some _ => Ret (Some zero_key, Some ErrHex)
  | None =>
    if Nat.ltb (length seedBs) 16 then Ret (Some zero_key, Some ErrInvalidBIP39Seed)
    else
      let! (rootKey, _) := gNewMasterKey E seedBs in
      match rootKey with
      | None => Panic
      | Some k =>
        let! (ser, e) := gSerialize k in
        match e with
        | Some e => Ret (Some k, Some e)
        | None => let! (_, e) := gDeserialize ser in Ret (Some k, e)
        end
      end
  end.
(** the text appended for a value: util/util.go:115-118, util/key_path.go:94-97 *)
Definition gAppend_val (E : env) (derivedPath : bytes) (val : Z) : outcome bytes :=
  let! d := GoAppendVal (e_buf E) derivedPath (val mod FirstHardenedChild) in
  Ret (if val >=? FirstHardenedChild then d ++ B "'" else d).
(** DeriveBIP32Result, the loop: util/util.go:113-123 *)
Fixpoint gDerive_loop (E : env) (T : tables) (derivedPath currentKey : bytes) (vals : list Z) : outcome (list KeyPath) :=
  match vals with
  | [] => Ret []
  | val :: r =>
    let! derivedPath := gAppend_val E derivedPath val in
    let! (currentKey, _) := gNewChildKey E T currentKey val in
    let! formatted := gPathString derivedPath in
    let! rest := gDerive_loop E T derivedPath currentKey r in
    Ret (mkKP formatted currentKey :: rest)
  end.
(** Generator.DeriveBIP32Result: util/util.go:91-127 *)
Definition gDeriveBIP32Result (E : env) (T : tables) (rootKey p : bytes) : outcome (list KeyPath * option err) :=
  let! v := gKeyIsValid rootKey in
  if negb v || negb (IsPrivate rootKey) || negb (Byte.eqb (key_at 4 rootKey) x00) then Ret ([], Some ErrInvalidRootKey)
  else
    let! ok := gPathIsValid p in
    if negb ok then Ret ([], Some ErrUtilUnSupportedOrInvalidPath)
    else
      let! (pathItems, e) := gValuesAtDepth p in
      match e with
      | Some e => Ret ([], Some e)
      | None =>
        let! rest := gDerive_loop E T (B "m") rootKey (tl pathItems) in
        Ret (mkKP (B "m") rootKey :: rest, None)
      end.
(** KeyPath.AddrHex: util/key_path.go:16-26 *)
Definition gAddrHex (E : env) (T : tables) (key : bytes) : outcome bytes :=
  let! t := gPublicKeyHex E T key in
  let! (pbs, e) := GoHexDecode t in
  match e with
  | Some _ => Ret []
  | None =>
    let! (x, y) := gExpand E pbs in
    let! h := gKeccak (natBytes x ++ natBytes y) in
    GoHexEncode (skipn 12 h)
  end.
(** KeyPath.AddrP2SH: util/key_path.go:28-44 *)
Definition gAddrP2SH (E : env) (T : tables) (key : bytes) (verPrefix : byte) : outcome bytes :=
  let! t := gPublicKeyHex E T key in
  let! (pbs, e) := GoHexDecode t in
  match e with
  | Some _ => Ret []
  | None =>
    let! h := gHash160 pbs in
    let verPubKeyHash := [verPrefix] ++ h in
    let! c := gChecksum verPubKeyHash in
    wEncode58 (verPubKeyHash ++ c)
  end.
(** KeyPathRange.GenerateRange, the loop: util/key_path.go:93-103. Running out of [fuel] is Panic. *)
Fixpoint gRange_loop (E : env) (T : tables) (fuel : nat) (derivedPath currentKey : bytes) (i endIndex : Z) : outcome (list KeyPath) :=
  if i <? endIndex then
    match fuel with
    | O => Panic
    | S f =>
      let! derivedPath := gAppend_val E derivedPath i in
      let! (currentKey, _) := gNewChildKey E T currentKey i in
      let! formatted := gPathString derivedPath in
      let! rest := gRange_loop E T f derivedPath currentKey (u32 (i + 1)) endIndex in
      Ret (mkKP formatted currentKey :: rest)
    end
  else Ret [].
(** KeyPathRange.GenerateRange: util/key_path.go:76-106 *)
Definition gGenerateRange (E : env) (T : tables) (k : KeyPathRange) : outcome (KeyPathRange * option err) :=
  let startIndex := StartIndex k in
  let endIndex := EndIndex k in
  if u32 (endIndex - startIndex) <? 1 then Ret (k, Some ErrInvalidRangeProvided)
  else
    let! v := gKeyIsValid (KKey (RKeyPath k)) in
    if negb v then Ret (k, Some ErrInvalidRootKey)
    else
      let! ok := gPathIsValid (KPath (RKeyPath k)) in
      if negb ok then Ret (k, Some ErrUtilUnSupportedOrInvalidPath)
      else
        let! s := gPathString (KPath (RKeyPath k)) in
        let! keyPaths := gRange_loop E T (Z.to_nat (endIndex - startIndex)) s (KKey (RKeyPath k)) startIndex endIndex in
        Ret (mkKPR startIndex endIndex (RKeyPath k) keyPaths, None).

(** ** bip39 *)
(** computeChecksum(data)[0]: bip39/bip39.go:153, 269-270, 293-296 *)
Definition gFirstByte (data : bytes) : outcome Z :=
  let! h := gSha256 data in
  let! b := get h 0 in
  Ret (Zb b).
(** addChecksum: bip39/bip39.go:267-291 *)
Definition gAddChecksum (data : bytes) : outcome bytes :=
  let! first := gFirstByte data in
  let! d := wAddChecksum_loop (length data / 4) 0 first (setBytes data) in
  Ret (natBytes d).
(** NewMnemonic, the loop: bip39/bip39.go:199-209; the words are put from the last to the first *)
Fixpoint gNewMnemonic_loop (wl : list bytes) (n : nat) (x : list Z) (acc : list bytes) : outcome (list bytes) :=
  match n with
  | O => Ret acc
  | S k =>
    let word := natAnd x (setWord 2047) in
    let! (x, _) := natDiv x (setWord 2048) in
    let wordBytes := padByteSlice (natBytes word) 2 in
    let! i := GoUint16 wordBytes in
    let! w := get wl (Z.to_nat i) in
    gNewMnemonic_loop wl k x (w :: acc)
  end.
(** NewMnemonic: bip39/bip39.go:170-212 *)
Definition gNewMnemonic (st : wstate) (entropy : bytes) : outcome (bytes * option err) :=
  let entropyBitLength := Z.of_nat (length entropy) * 8 in
  let checksumBitLength := entropyBitLength / 32 in
  let sentenceLength := (entropyBitLength + checksumBitLength) / 11 in
  match validateEntropyBitSize entropyBitLength with
  | Some e => Ret ([], Some e)
  | None =>
    let! entropy := gAddChecksum entropy in
    let! words := gNewMnemonic_loop (wordList st) (Z.to_nat sentenceLength) (setBytes entropy) [] in
    Ret (GoJoin words (B " "), None)
  end.
(** EntropyFromMnemonic, the loop: bip39/bip39.go:127-136; the array of two bytes is used again in each round *)
Fixpoint gDecode_words (wm : list (bytes * Z)) (ws : list bytes) (wordBytes : bytes) (b : list Z) : outcome (list Z + err) :=
  match ws with
  | [] => Ret (inl b)
  | v :: r =>
    match map_get wm v with
    | None => Ret (inr (ErrWord v))
    | Some index =>
      let! wordBytes := GoPutUint16 wordBytes index in
      let! b := natMul b (setWord 2048) in
      gDecode_words wm r wordBytes (natOr b (setBytes wordBytes))
    end
  end.
(** EntropyFromMnemonic: bip39/bip39.go:115-165, 338-351 *)
Definition gEntropyFromMnemonic (st : wstate) (m : bytes) : outcome (bytes * option err) :=
  let! ws := GoFields m in
  if negb (validWordCount (length ws)) then Ret ([], Some ErrInvalidMnemonic)
  else
    let! r := gDecode_words (wordMap st) ws [x00; x00] (setWord 0) in
    match r with
    | inr e => Ret ([], Some e)
    | inl b =>
      let n := length ws in
      let mask := setWord (checksumMask n) in
      let checksum := natAnd b mask in
      let! (b, _) := natDiv b (natAdd mask (setWord 1)) in
      let entropy := padByteSlice (natBytes b) (n / 3 * 4) in
      let! first := gFirstByte entropy in
      let entropyChecksum := setWord first in
      let! entropyChecksum := if (n =? 24)%nat then Ret entropyChecksum
                              else (let! (q, _) := natDiv entropyChecksum (setWord (checksumShift n)) in Ret q) in
      Ret (if natCmp checksum entropyChecksum =? 0 then (entropy, None) else ([], Some ErrChecksumIncorrect))
    end.
(** MnemonicToByteArray: bip39/bip39.go:217-238 *)
Definition gMnemonicToByteArray (st : wstate) (m : bytes) (raw : bool) : outcome (bytes * option err) :=
  let! mnemonicSlice := GoSplit m (B " ") in
  let entropyBitSize := (Z.of_nat (length mnemonicSlice)) * 11 in
  let checksumBitSize := entropyBitSize mod 32 in
  let fullByteSize := (entropyBitSize - checksumBitSize) / 8 + 1 in
  let! (e, er) := gEntropyFromMnemonic st m in
  match er with
  | Some er => Ret ([], Some er)
  | None =>
    if raw then Ret (e, None)
    else let! c := gAddChecksum e in Ret (padByteSlice c (Z.to_nat fullByteSize), None)
  end.
(** NewSeed: bip39/bip39.go:253-255 *)
Definition gNewSeed (m password : bytes) : outcome bytes := pbkdf2_Key m (B "mnemonic" ++ password) 2048 64.
(** NewSeedWithErrorChecking: bip39/bip39.go:242-249 *)
Definition gNewSeedWithErrorChecking (st : wstate) (m password : bytes) : outcome (bytes * option err) :=
  let! (_, e) := gMnemonicToByteArray st m false in
  match e with
  | Some e => Ret ([], Some e)
  | None => let! s := gNewSeed m password in Ret (s, None)
  end.
(** IsMnemonicValid: bip39/bip39.go:260-263 *)
Definition gIsMnemonicValid (st : wstate) (m : bytes) : outcome bool :=
  let! (_, e) := gEntropyFromMnemonic st m in Ret (match e with None => true | Some _ => false end).
(** DeriveSeedFromMnemonic: util/util.go:47-53 *)
Definition gDeriveSeedFromMnemonic (st : wstate) (m pass : bytes) : outcome (bytes * option err) :=
  let! (_, e) := gEntropyFromMnemonic st m in
  match e with
  | Some e => Ret ([], Some e)
  | None =>
    let! s := gNewSeed m pass in
    let! t := GoHexEncode s in
    Ret (t, None)
  end.
(** GenerateMnemonic: util/util.go:20-45; None: the random source keeps it waiting for more than [fuel] reads *)
Definition gGenerateMnemonic (fuel : nat) (s : source) (st : wstate) (wordsCount : Z) : option (outcome (bytes * option err)) :=
  let bitSize :=
    if wordsCount =? 12 then Some 128
    else if wordsCount =? 15 then Some 160
    else if wordsCount =? 18 then Some 192
    else if wordsCount =? 21 then Some 224
    else if wordsCount =? 24 then Some 256
    else None in
  match bitSize with
  | None => Some (Ret ([], Some ErrInvalidMnemonicWordsCount))
  | Some n =>
    match NewEntropyFrom fuel s n with
    | None => None
    | Some (_, Some e) => Some (Ret ([], Some e))
    | Some (bs, None) =>
      Some (let! (m, e) := gNewMnemonic st bs in
            match e with Some e => Ret ([], Some e) | None => Ret (m, None) end)
    end
  end.
