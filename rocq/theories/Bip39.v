(** Bip39.v - model of bip39/bip39.go. The package variables wordList and wordMap are an explicit
    state. [len] arithmetic is on Z without overflow (lengths are far below 2^63). *)
From Verif Require Import Base GoStr Prims.

(** Package state: bip39/bip39.go:47-51. A Go map from string to int is an association list in
    which the first entry for a key counts. *)
Record wstate := mkW { wordList : list bytes; wordMap : list (bytes * Z) }.

(** reading wordMap, bip39/bip39.go:93, 128 *)
Fixpoint map_get {A} (m : list (bytes * A)) (k : bytes) : option A :=
  match m with
  | [] => None
  | (k', v) :: r => if bytes_eqb k k' then Some v else map_get r k
  end.

(** The loop of SetWordList (bip39/bip39.go:81-83): wordMap[v] = i for each index in order. *)
Fixpoint fill_map (i : Z) (l : list bytes) (m : list (bytes * Z)) : list (bytes * Z) :=
  match l with
  | [] => m
  | v :: r => fill_map (i + 1) r ((v, i) :: m)
  end.

(** SetWordList: bip39/bip39.go:77-84. *)
Definition SetWordList (l : list bytes) : wstate := mkW l (fill_map 0 l []).

(** GetWordList: bip39/bip39.go:87-89. *)
Definition GetWordList (st : wstate) : list bytes := wordList st.

(** GetWordIndex: bip39/bip39.go:92-95. A missing key gives the zero value and false. *)
Definition GetWordIndex (st : wstate) (w : bytes) : Z * bool :=
  match map_get (wordMap st) w with Some i => (i, true) | None => (0, false) end.

(** validateEntropyBitSize: bip39/bip39.go:300-306 (Go's % truncates: Z.rem). *)
Definition validateEntropyBitSize (n : Z) : option err :=
  if negb (Z.rem n 32 =? 0) || (n <? 128) || (n >? 256) then Some ErrEntropyLengthInvalid else None.

(** padByteSlice: bip39/bip39.go:310-320. *)
Definition padByteSlice (s : bytes) (n : nat) : bytes := repeat x00 (n - length s) ++ s.

(** NewEntropy: bip39/bip39.go:101-110. [rd] is what the random source delivers before it
    stops (all that is asked for unless it fails); line 107 ignores both count and error. *)
Definition NewEntropy (rd : bytes) (bitSize : Z) : bytes * option err :=
  match validateEntropyBitSize bitSize with
  | Some e => ([], Some e)
  | None =>
    let n := Z.to_nat (Z.quot bitSize 8) in
    (firstn n rd ++ repeat x00 (n - length (firstn n rd)), None)
  end.

(** computeChecksum: bip39/bip39.go:293-296; first byte of the digest as used at lines 153, 270. *)
Definition firstChecksumByte (H : Prims) (data : bytes) : Z := Zb (hd x00 (p_sha256 H data)).

(** addChecksum: bip39/bip39.go:267-291. The loop runs over i = 0 .. len(data)/4 - 1. *)
Fixpoint addChecksum_loop (n : nat) (i first d : Z) : Z :=
  match n with
  | O => d
  | S k =>
    let d := d * 2 in
    let d := if Z.testbit first (7 - i) then Z.lor d 1 else d in
    addChecksum_loop k (i + 1) first d
  end.
(** bip39/bip39.go:267-291 *)
Definition addChecksum (H : Prims) (data : bytes) : bytes :=
  Z_bytes (addChecksum_loop (length data / 4) 0 (firstChecksumByte H data) (be_Z data)).

(** NewMnemonic: bip39/bip39.go:170-212. [Panic] is the out-of-range index at line 208. *)
Fixpoint NewMnemonic_loop (wl : list bytes) (n : nat) (x : Z) (acc : list bytes) : outcome (list bytes) :=
  match n with
  | O => Ret acc
  | S k =>
    let word := Z.land x 2047 in
    let x := x / 2048 in
    let idx := be_Z (padByteSlice (Z_bytes word) 2) in
    match nth_error wl (Z.to_nat idx) with
    | Some w => NewMnemonic_loop wl k x (w :: acc)
    | None => Panic
    end
  end.
(** bip39/bip39.go:170-212 *)
Definition NewMnemonic (H : Prims) (st : wstate) (entropy : bytes) : outcome (bytes * option err) :=
  let entropyBitLength := Z.of_nat (length entropy) * 8 in
  let checksumBitLength := entropyBitLength / 32 in
  let sentenceLength := (entropyBitLength + checksumBitLength) / 11 in
  match validateEntropyBitSize entropyBitLength with
  | Some e => Ret ([], Some e)
  | None =>
    match NewMnemonic_loop (wordList st) (Z.to_nat sentenceLength) (be_Z (addChecksum H entropy)) [] with
    | Ret words => Ret (Join (B " ") words, None)
    | Panic => Panic
    end
  end.

(** splitMnemonicWords: bip39/bip39.go:338-351. *)
Definition validWordCount (n : nat) : bool :=
  (Nat.modulo n 3 =? 0)%nat && (12 <=? n)%nat && (n <=? 24)%nat.
(** bip39/bip39.go:338-351 *)
Definition splitMnemonicWords (m : bytes) : list bytes * bool :=
  let words := Fields m in
  if validWordCount (length words) then (words, true) else ([], false).

(** The tables wordLengthChecksumMasksMapping and wordLengthChecksumShiftMapping:
    bip39/bip39.go:30-45. The lengths 12..24 are the only ones looked up. *)
Definition checksumMask (n : nat) : Z :=
  match n with
  | 12%nat => 15 | 15%nat => 31 | 18%nat => 63 | 21%nat => 127 | _ => 255
  end.
(** bip39/bip39.go:38-45 *)
Definition checksumShift (n : nat) : Z :=
  match n with
  | 12%nat => 16 | 15%nat => 8 | 18%nat => 4 | 21%nat => 2 | _ => 1
  end.

(** The word loop of EntropyFromMnemonic: bip39/bip39.go:127-136. *)
Fixpoint decode_words (wm : list (bytes * Z)) (ws : list bytes) (b : Z) : Z + err :=
  match ws with
  | [] => inl b
  | v :: r =>
    match map_get wm v with
    | None => inr (ErrWord v)
    | Some index => decode_words wm r (Z.lor (b * 2048) (be_Z (Z_be 2 index)))
    end
  end.

(** EntropyFromMnemonic: bip39/bip39.go:115-165. A nil slice is the empty list. *)
Definition entropyOfWords (H : Prims) (st : wstate) (ws : list bytes) : bytes * option err :=
  match decode_words (wordMap st) ws 0 with
  | inr e => ([], Some e)
  | inl b =>
    let n := length ws in
    let mask := checksumMask n in
    let checksum := Z.land b mask in
    let b := b / (mask + 1) in
    let entropy := padByteSlice (Z_bytes b) (n / 3 * 4) in
    let entropyChecksum := firstChecksumByte H entropy in
    let entropyChecksum := if (n =? 24)%nat then entropyChecksum else entropyChecksum / checksumShift n in
    if checksum =? entropyChecksum then (entropy, None) else ([], Some ErrChecksumIncorrect)
  end.
(** bip39/bip39.go:115-165 *)
Definition EntropyFromMnemonic (H : Prims) (st : wstate) (m : bytes) : bytes * option err :=
  match splitMnemonicWords m with
  | (_, false) => ([], Some ErrInvalidMnemonic)
  | (ws, true) => entropyOfWords H st ws
  end.

(** MnemonicToByteArray: bip39/bip39.go:217-238; [raw] is raw[0] if given. *)
Definition MnemonicToByteArray (H : Prims) (st : wstate) (m : bytes) (raw : bool) : bytes * option err :=
  let entropyBitSize := (Z.of_nat (length (Split x20 m))) * 11 in
  let checksumBitSize := entropyBitSize mod 32 in
  let fullByteSize := (entropyBitSize - checksumBitSize) / 8 + 1 in
  match EntropyFromMnemonic H st m with
  | (_, Some e) => ([], Some e)
  | (e, None) =>
    if raw then (e, None)
    else (padByteSlice (addChecksum H e) (Z.to_nat fullByteSize), None)
  end.

(** NewSeed: bip39/bip39.go:253-255. *)
Definition NewSeed (H : Prims) (m password : bytes) : bytes := p_pbkdf2 H m (B "mnemonic" ++ password).

(** NewSeedWithErrorChecking: bip39/bip39.go:242-249. *)
Definition NewSeedWithErrorChecking (H : Prims) (st : wstate) (m password : bytes) : bytes * option err :=
  match MnemonicToByteArray H st m false with
  | (_, Some e) => ([], Some e)
  | (_, None) => (NewSeed H m password, None)
  end.

(** IsMnemonicValid: bip39/bip39.go:260-263. *)
Definition IsMnemonicValid (H : Prims) (st : wstate) (m : bytes) : bool :=
  match snd (EntropyFromMnemonic H st m) with None => true | Some _ => false end.

(** SetWordList as its separate writes (bip39/bip39.go:78, 79, 82): the state after each of them.
    Used for interleavings with readers in other goroutines. *)
Fixpoint fill_states (wl : list bytes) (i : Z) (l : list bytes) (m : list (bytes * Z)) : list wstate :=
  match l with
  | [] => []
  | v :: r => let m' := (v, i) :: m in mkW wl m' :: fill_states wl (i + 1) r m'
  end.
(** bip39/bip39.go:78-83 *)
Definition SetWordList_states (old : wstate) (l : list bytes) : list wstate :=
  mkW l (wordMap old) :: mkW l [] :: fill_states l 0 l [].
