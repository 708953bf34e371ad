(** Bip32.v - model of bip32/bip32.go and bip32/utils.go. A Key ([78]byte, bip32/bip32.go:27) is a list of 78
    bytes; a function that can panic returns an [outcome]. *)
From Verif Require Import Base GoStr Prims Secp Base58 Bip32Path Bip32Reg.

(** The error-or-panic plumbing of Go statements. E.g. bip32/utils.go:67-71. *)
Definition bind {A C} (x : outcome A) (f : A -> outcome C) : outcome C :=
  match x with Ret a => f a | Panic => Panic end.
Notation "'let!' x ':=' e 'in' b" := (bind e (fun x => b)) (at level 200, x pattern, e at level 100, b at level 200).

(** Go conversion of a slice to an array of n bytes: panics when the slice is shorter. E.g. bip32/bip32.go:298, 313. *)
Definition arr (n : nat) (l : bytes) : outcome bytes :=
  if Nat.leb n (length l) then Ret (firstn n l) else Panic.
(** Go [copy(dst[lo:hi], src)]: at most hi-lo bytes are copied. E.g. bip32/bip32.go:181-186, 321-374. *)
Definition copy_at (lo hi : nat) (src dst : bytes) : bytes := overwrite lo (firstn (hi - lo) src) dst.

(** bip32/bip32.go:27: the zero Key. *)
Definition zero_key : bytes := repeat x00 78.
(** bip32/bip32.go:27 *)
Definition wf_key (k : bytes) : Prop := length k = 78%nat.

(** ** bip32/utils.go *)
(** bip32/utils.go:143-147 *)
Definition uint32Bytes (i : Z) : bytes := Z_be 4 i.
(** bip32/utils.go:21-28; writing to a hash never fails. *)
Definition hashRipeMD160 (H : Prims) (data : bytes) : bytes := p_ripemd160 H data.
(** bip32/utils.go:31-39 *)
Definition HashRipeMD160onSha256 (H : Prims) (data : bytes) : bytes := hashRipeMD160 H (p_sha256 H data).
(** bip32/utils.go:41-44; chainhash.DoubleHashB is SHA256(SHA256(.)). *)
Definition ChecksumDblSha256 (H : Prims) (data : bytes) : bytes := firstn 4 (p_sha256 H (p_sha256 H data)).
(** bip32/utils.go:46-52 *)
Definition AddChecksumDblSha256ToBytes (H : Prims) (data : bytes) : bytes := data ++ ChecksumDblSha256 H data.

(** bytes.Compare(a, b) >= 0 (used at bip32/utils.go:56): lexicographic order. *)
Fixpoint bytes_geb (a b : bytes) : bool :=
  match a, b with
  | _, [] => true
  | [], _ :: _ => false
  | x :: a', y :: b' => if Zb x =? Zb y then bytes_geb a' b' else Zb y <? Zb x
  end.
(** bip32/utils.go:54-60 *)
Definition ValidatePrivateKey (key : bytes) : option err :=
  if bytes_eqb (HexEncode key) (repeat x30 64) || bytes_geb key (Z_bytes secp_n) then Some ErrInvalidPrivateKey
  else None.

(** bip32/utils.go:90-104 *)
Definition compressPublicKey (P : Z * Z) : bytes :=
  let '(x, y) := P in
  let xBytes := Z_bytes x in
  bZ (2 + y mod 2) :: repeat x00 (32 - length xBytes) ++ xBytes.
(** bip32/utils.go:63-65 *)
Definition publicKeyForPrivateKey (key : bytes) : bytes := compressPublicKey (ScalarBaseMult key).

(** bip32/utils.go:107-130; key[1:] and key[0] panic on the empty slice. ModSqrt leaves Y = 0 when there is no
    root; [uint64(key[0]) - 2] wraps around. *)
Definition ExpandPublicKey (key : bytes) : outcome (Z * Z) :=
  match key with
  | [] => Panic
  | k0 :: xs =>
    let X := be_Z xs in
    let ySquared := X ^ 3 + secp_b in
    let Y := match ModSqrt ySquared with Some y => y | None => 0 end in
    let signY := (Zb k0 - 2) mod 2 ^ 64 in
    Ret (X, if signY =? Y mod 2 then Y else secp_p - Y)
  end.
(** bip32/utils.go:132-140 *)
Definition validateChildPublicKey (key : bytes) : outcome (option err) :=
  let! (x, y) := ExpandPublicKey key in
  Ret (if (x =? 0) || (y =? 0) then Some ErrInvalidPublicKey else None).
(** bip32/utils.go:67-71 *)
Definition addPublicKeys (key1 key2 : bytes) : outcome bytes :=
  let! P1 := ExpandPublicKey key1 in
  let! P2 := ExpandPublicKey key2 in
  Ret (compressPublicKey (CurveAdd P1 P2)).
(** bip32/utils.go:73-88 *)
Definition addPrivateKeys (key1 key2 : bytes) : bytes :=
  let b := Z_bytes ((be_Z key1 + be_Z key2) mod secp_n) in
  if Nat.ltb (length b) 32 then repeat x00 (32 - length b) ++ b else b.

(** ** Key accessors (bip32/bip32.go:28-43 give the offsets) *)
(** bip32/bip32.go:320-322 *)
Definition SetVersion (v : bytes) (key : bytes) : bytes := copy_at 0 4 v key.
(** bip32/bip32.go:315-318 *)
Definition SetVersionUint32 (v : Z) (key : bytes) : bytes := SetVersion (uint32Bytes v) key.
(** bip32/bip32.go:324-326 *)
Definition GetVersion (key : bytes) : Z := be_Z (slice 0 4 key).
(** bip32/bip32.go:333-335 *)
Definition setChainCode (c : bytes) (key : bytes) : bytes := copy_at 13 45 c key.
(** bip32/bip32.go:328-331: unexported and unused; the conversion of a 4-byte slice to [32]byte. *)
Definition setChainCodeUint32 (code : Z) (key : bytes) : outcome bytes :=
  let! c := arr 32 (uint32Bytes code) in Ret (setChainCode c key).
(** bip32/bip32.go:337-339 *)
Definition GetChainCode (key : bytes) : bytes := slice 13 45 key.
(** bip32/bip32.go:341-343 *)
Definition setFingerPrint (f : bytes) (key : bytes) : bytes := copy_at 5 9 f key.
(** bip32/bip32.go:345-347 *)
Definition GetFingerPrint (key : bytes) : bytes := slice 5 9 key.
(** bip32/bip32.go:349-351 *)
Definition setDepth (d : byte) (key : bytes) : bytes := overwrite 4 [d] key.
(** bip32/bip32.go:353-355 *)
Definition GetDepth (key : bytes) : bytes := slice 4 5 key.
(** bip32/bip32.go:357-359 *)
Definition setPvtKeyBytes (b : bytes) (key : bytes) : bytes := copy_at 46 78 b key.
(** bip32/bip32.go:361-363 *)
Definition GetPvtKeyBytes (key : bytes) : bytes := slice 46 78 key.
(** bip32/bip32.go:365-367 *)
Definition setPubKeyBytes (b : bytes) (key : bytes) : bytes := copy_at 45 78 b key.
(** bip32/bip32.go:369-371 *)
Definition GetKeyBytes (key : bytes) : bytes := slice 45 78 key.
(** bip32/bip32.go:373-375 *)
Definition setChildNumber (c : bytes) (key : bytes) : bytes := copy_at 9 13 c key.
(** bip32/bip32.go:377-379 *)
Definition GetChildNumber (key : bytes) : bytes := slice 9 13 key.
(** key[i] for an index inside the array. E.g. bip32/bip32.go:103-105. *)
Definition key_at (i : nat) (key : bytes) : byte := nth i key x00.
(** bip32/bip32.go:103-105 *)
Definition IsPrivate (key : bytes) : bool := Byte.eqb (key_at 45 key) x00.

(** bip32/bip32.go:52: DefaultMainnetVersion (the package variable is taken at its initial value). *)
Definition DefaultMainnetVersion : VersionBytes := Bitcoinxprvxpub.
(** bip32/bip32.go:53 *)
Definition DefaultTestnetVersion : VersionBytes := Bitcointprvtpub.

(** bip32/bip32.go:79-101; the first component is the returned pointer (None: nil). *)
Definition NewMasterKey (H : Prims) (seed : bytes) : outcome (option bytes * option err) :=
  let intermediary := p_hmac512 H (B "Bitcoin seed") seed in
  let! keyBytes := arr 32 (firstn 32 intermediary) in
  let! chainCode := arr 32 (skipn 32 intermediary) in
  match ValidatePrivateKey keyBytes with
  | Some e => Ret (None, Some e)
  | None =>
    Ret (Some (setPvtKeyBytes keyBytes (setChainCode chainCode
                (SetVersion (PvtKeyFlagBytes DefaultMainnetVersion) zero_key))), None)
  end.

(** bip32/bip32.go:174-196; hm.Write never fails. *)
Definition getIntermediary (H : Prims) (key : bytes) (childIdx : Z) : bytes :=
  let data0 := repeat x00 33 in
  let data :=
    if childIdx >=? FirstHardenedChild then copy_at 1 33 (slice 46 78 key) data0
    else if IsPrivate key then copy_at 0 33 (publicKeyForPrivateKey (slice 46 78 key)) data0
    else copy_at 0 33 (skipn 45 key) data0 in
  p_hmac512 H (slice 13 45 key) (data ++ uint32Bytes childIdx).

(** hdBsArr, ok := M[v]; [!ok || len(hdBsArr) == 0] gives None, otherwise hdBsArr[0].
    bip32/bip32.go:108-172, 202-225. *)
Definition lookup0 (m : gomap) (v : Z) : option VersionBytes :=
  match m v with Some (h :: _) => Some h | _ => None end.

(** bip32/bip32.go:108-172. On an error at lines 145-166 the partially filled child is returned with it. *)
Definition NewChildKey (H : Prims) (T : tables) (key : bytes) (childIdx : Z) : outcome (bytes * option err) :=
  if negb (IsPrivate key) && (childIdx >=? FirstHardenedChild) then Ret (zero_key, Some ErrHardenedChildPublicKey)
  else
    let intermediary := getIntermediary H key childIdx in
    let vs := slice 0 4 key in
    let vsVal := be_Z vs in
    match lookup0 (if IsPrivate key then PvtFlagToHDBytesSlice T else PubFlagToHDBytesSlice T) vsVal with
    | None => Ret (zero_key, Some ErrUnSupportedHDVersionBytes)
    | Some h =>
      let vs := if IsPrivate key then vs else PubKeyFlagBytes h in
      let! cn := arr 4 (uint32Bytes childIdx) in
      let! cc := arr 32 (skipn 32 intermediary) in
      let c1 := SetVersion vs (setDepth (bZ (Zb (key_at 4 key) + 1)) (setChainCode cc (setChildNumber cn zero_key))) in
      if IsPrivate key then
        let! fp := arr 4 (HashRipeMD160onSha256 H (publicKeyForPrivateKey (slice 46 78 key))) in
        let c2 := setFingerPrint fp c1 in
        let! kbs := arr 32 (addPrivateKeys (firstn 32 intermediary) (skipn 46 key)) in
        let c3 := setPvtKeyBytes kbs c2 in
        Ret (c3, ValidatePrivateKey (GetPvtKeyBytes c3))
      else
        let keyBytes := publicKeyForPrivateKey (firstn 32 intermediary) in
        let! verr := validateChildPublicKey keyBytes in
        match verr with
        | Some e => Ret (c1, Some e)
        | None =>
          let c2 := copy_at 5 9 (HashRipeMD160onSha256 H (skipn 45 key)) c1 in
          let! sum := addPublicKeys keyBytes (skipn 45 key) in
          let! kbs := arr 33 sum in
          Ret (setPubKeyBytes kbs c2, None)
        end
    end.

(** bip32/bip32.go:202-225 *)
Definition PublicKeyExtended (T : tables) (key : bytes) : bytes :=
  let vs := slice 0 4 key in
  let vsVal := be_Z vs in
  if IsPrivate key then
    let vs := match lookup0 (PvtFlagToHDBytesSlice T) vsVal with
              | None => PubKeyFlagBytes DefaultMainnetVersion
              | Some h => PubKeyFlagBytes h
              end in
    SetVersion vs (copy_at 45 78 (publicKeyForPrivateKey (skipn 46 key)) key)
  else
    let vs := match lookup0 (PubFlagToHDBytesSlice T) vsVal with
              | None => PubKeyFlagBytes DefaultMainnetVersion
              | Some _ => vs
              end in
    SetVersion vs key.

(** bip32/bip32.go:228-233 *)
Definition PrivateKeyHex (key : bytes) : bytes := if IsPrivate key then HexEncode (slice 46 78 key) else [].
(** bip32/bip32.go:236-242 *)
Definition PublicKeyHex (T : tables) (key : bytes) : bytes :=
  if IsPrivate key then HexEncode (slice 45 78 (PublicKeyExtended T key)) else HexEncode (slice 45 78 key).

(** bip32/bip32.go:246-263; the loop looks for a non-zero byte. *)
Definition Serialize (H : Prims) (key : bytes) : bytes * option err :=
  if forallb (fun v => Byte.eqb v x00) key then ([], Some ErrEmptyKey)
  else (AddChecksumDblSha256ToBytes H key, None).
(** bip32/bip32.go:266-272 *)
Definition B58Serialize (H : Prims) (key : bytes) : bytes :=
  match Serialize H key with
  | (_, Some _) => []
  | (s, None) => Encode58 s
  end.
(** bip32/bip32.go:276-278 *)
Definition KeyString := B58Serialize.

(** bip32/bip32.go:293-313. data[:78] cannot be out of range: the slice has at least 82 bytes there. *)
Definition Deserialize (H : Prims) (data : bytes) : outcome (bytes * option err) :=
  if negb (Nat.eqb (length data) 82) then
    let data := if Nat.ltb (length data) 82 then data ++ repeat x00 (82 - length data) else data in
    let! k := arr 78 (firstn 78 data) in Ret (k, Some ErrSerializedKeyWrongSize)
  else
    let cs1 := ChecksumDblSha256 H (firstn 78 data) in
    let cs2 := skipn 78 data in
    let! k := arr 78 (firstn 78 data) in
    Ret (k, if bytes_eqb cs1 cs2 then None else Some ErrInvalidChecksum).
(** bip32/bip32.go:382-385 *)
Definition B58Deserialize (H : Prims) (data : bytes) : outcome (bytes * option err) := Deserialize H (Decode58 data).
(** bip32/bip32.go:280-290 *)
Definition KeyIsValid (H : Prims) (key : bytes) : outcome bool :=
  match Serialize H key with
  | (_, Some _) => Ret false
  | (bs, None) => let! (_, e) := Deserialize H bs in Ret (match e with None => true | Some _ => false end)
  end.
