(** GoNatUse.v - the functions of bip32, bip39 and base58 that calculate with big.Int, written on the vectors of words of [GoNat]: every
    number of theirs is such a vector, every operation the one of math/big. None of them handles a negative number. The package math/big is
    not in /repo; it is written down from the published source of Go 1.22 (go.mod:3). *)
From Verif Require Import Base GoStr Prims Bip39 Bip32 Base58 GoCodec GoBig GoNat.

(** ** bip32 *)
(** addPrivateKeys: bip32/utils.go:73-88. [N]: curve.Params().N *)
Definition wAddPrivateKeys (N : list Z) (key1 key2 : bytes) : outcome bytes :=
  let key1Int := setBytes key1 in
  let key2Int := setBytes key2 in
  let key1Int := natAdd key1Int key2Int in
  let! (_, key1Int) := natDiv key1Int N in
  let b := natBytes key1Int in
  Ret (if (length b <? 32)%nat then repeat x00 (32 - length b) ++ b else b).
(** Int.Bit(0): bip32/utils.go:94 *)
Definition wBit0 (x : list Z) : Z := match x with [] => 0 | w :: _ => Z.land w 1 end.
(** compressPublicKey: bip32/utils.go:90-104 *)
Definition wCompress (x y : list Z) : bytes :=
  let xBytes := natBytes x in
  bZ (2 + wBit0 y) :: repeat x00 (32 - length xBytes) ++ xBytes.
(** bits.TrailingZeros; bip32/utils.go:119 *)
Definition wordTrailing (w : Z) : Z := match w with Zpos p => tzb p | _ => 64 end.
(** nat.trailingZeroBits; bip32/utils.go:119 *)
Fixpoint natTrailing (x : list Z) : Z :=
  match x with
  | [] => 0
  | w :: x => if w =? 0 then 64 + natTrailing x else wordTrailing w
  end.
(** the loop of Jacobi; bip32/utils.go:119. Running out of [fuel] is Panic. *)
Fixpoint wJacobi_loop (fuel : nat) (a b : list Z) (j : Z) : outcome Z :=
  match fuel with
  | O => Panic
  | S fuel =>
    if natCmp b (setWord 1) =? 0 then Ret j
    else match a with
         | [] => Ret 0
         | _ =>
           let! (_, a) := natDiv a b in
           match a with
           | [] => Ret 0
           | _ =>
             let s := natTrailing a in
             let! b0 := get b 0 in
             let j := if negb (Z.land s 1 =? 0) then
                        let bmod8 := Z.land b0 7 in if (bmod8 =? 3) || (bmod8 =? 5) then - j else j
                      else j in
             let c := natShr a s in
             let! c0 := get c 0 in
             let j := if (Z.land b0 3 =? 3) && (Z.land c0 3 =? 3) then - j else j in
             wJacobi_loop fuel b c j
           end
         end
  end.
(** Jacobi for numbers that are not negative; bip32/utils.go:119 *)
Definition wJacobi (fuel : nat) (x y : list Z) : outcome Z :=
  match y with
  | [] => Panic
  | y0 :: _ => if Z.land y0 1 =? 0 then Panic else wJacobi_loop fuel x y 1
  end.
(** Int.ModSqrt of a number that is not negative, a prime that is 3 modulo 4; bip32/utils.go:119. [None] is nil. *)
Definition wModSqrt (fuel : nat) (x p : list Z) : outcome (option (list Z)) :=
  let! j := wJacobi fuel x p in
  if j =? -1 then Ret None
  else if j =? 0 then Ret (Some [])
  else
    let! x := if 0 <=? natCmp x p then (let! (_, r) := natDiv x p in Ret r) else Ret x in
    let! p0 := get p 0 in
    if p0 mod 4 =? 3 then
      let e := natShr (natAdd p (setWord 1)) 2 in
      let! z := expNN x e p in
      Ret (Some z)
    else Panic.
(** ExpandPublicKey: bip32/utils.go:107-130. [P], [Bc]: curveParams.P and curveParams.B; [fuel] is for Jacobi. *)
Definition wExpand (fuel : nat) (P Bc : list Z) (key : bytes) : outcome (list Z * list Z) :=
  match key with
  | [] => Panic
  | k0 :: xs =>
    let X := setBytes xs in
    let! ySquared := expNN X (setWord 3) [] in
    let ySquared := natAdd ySquared Bc in
    let! r := wModSqrt fuel ySquared P in
    let Y := match r with Some y => y | None => [] end in
    let! (_, Ymod2) := natDiv Y (setWord 2) in
    let signY := ww (Zb k0 - 2) in
    let! Y := if signY =? nth 0 Ymod2 0 then Ret Y else natSub P Y in
    Ret (X, Y)
  end.

(** ** bip39 *)
(** addChecksum, the loop: bip39/bip39.go:280-288 *)
Fixpoint wAddChecksum_loop (n : nat) (i first : Z) (d : list Z) : outcome (list Z) :=
  match n with
  | O => Ret d
  | S k =>
    let! d := natMul d (setWord 2) in
    let d := if Z.testbit first (7 - i) then natOr d (setWord 1) else d in
    wAddChecksum_loop k (i + 1) first d
  end.
(** addChecksum: bip39/bip39.go:267-291 *)
Definition wAddChecksum (H : Prims) (data : bytes) : outcome bytes :=
  let! d := wAddChecksum_loop (length data / 4) 0 (firstChecksumByte H data) (setBytes data) in Ret (natBytes d).
(** NewMnemonic, the loop: bip39/bip39.go:199-209 *)
Fixpoint wNewMnemonic_loop (wl : list bytes) (n : nat) (x : list Z) (acc : list bytes) : outcome (list bytes) :=
  match n with
  | O => Ret acc
  | S k =>
    let word := natAnd x (setWord 2047) in
    let! (x, _) := natDiv x (setWord 2048) in
    let wordBytes := padByteSlice (natBytes word) 2 in
    let! w := get wl (Z.to_nat (be_Z wordBytes)) in
    wNewMnemonic_loop wl k x (w :: acc)
  end.
(** NewMnemonic: bip39/bip39.go:170-212 *)
Definition wNewMnemonic (H : Prims) (st : wstate) (entropy : bytes) : outcome (bytes * option err) :=
  let entropyBitLength := Z.of_nat (length entropy) * 8 in
  let checksumBitLength := entropyBitLength / 32 in
  let sentenceLength := (entropyBitLength + checksumBitLength) / 11 in
  match validateEntropyBitSize entropyBitLength with
  | Some e => Ret ([], Some e)
  | None =>
    let! entropy := wAddChecksum H entropy in
    let! words := wNewMnemonic_loop (wordList st) (Z.to_nat sentenceLength) (setBytes entropy) [] in
    Ret (Join (B " ") words, None)
  end.
(** EntropyFromMnemonic, the loop: bip39/bip39.go:127-136 *)
Fixpoint wDecode_words (wm : list (bytes * Z)) (ws : list bytes) (b : list Z) : outcome (list Z + err) :=
  match ws with
  | [] => Ret (inl b)
  | v :: r =>
    match map_get wm v with
    | None => Ret (inr (ErrWord v))
    | Some index =>
      let! b := natMul b (setWord 2048) in
      wDecode_words wm r (natOr b (setBytes (Z_be 2 index)))
    end
  end.
(** EntropyFromMnemonic after splitMnemonicWords: bip39/bip39.go:120-165 *)
Definition wEntropyOfWords (H : Prims) (st : wstate) (ws : list bytes) : outcome (bytes * option err) :=
  let! r := wDecode_words (wordMap st) ws (setWord 0) in
  match r with
  | inr e => Ret ([], Some e)
  | inl b =>
    let n := length ws in
    let mask := setWord (checksumMask n) in
    let checksum := natAnd b mask in
    let! (b, _) := natDiv b (natAdd mask (setWord 1)) in
    let entropy := padByteSlice (natBytes b) (n / 3 * 4) in
    let entropyChecksum := setWord (firstChecksumByte H entropy) in
    let! entropyChecksum := if (n =? 24)%nat then Ret entropyChecksum
                            else (let! (q, _) := natDiv entropyChecksum (setWord (checksumShift n)) in Ret q) in
    Ret (if natCmp checksum entropyChecksum =? 0 then (entropy, None) else ([], Some ErrChecksumIncorrect))
  end.

(** ** base58 *)
(** Decode, the loop: bip32/bip32.go:383 *)
Fixpoint wDec_loop (n : nat) (b : bytes) (answer j : list Z) : outcome (option (list Z)) :=
  match n with
  | O => Ret (Some answer)
  | S i =>
    let! c := get b i in
    let! tmp := get b58_table (Z.to_nat (Zb c)) in
    if tmp =? 255 then Ret None
    else
      let scratch := setWord tmp in
      let! scratch := natMul j scratch in
      let answer := natAdd answer scratch in
      let! j := natMul j (setWord 58) in
      wDec_loop i b answer j
  end.
(** Decode: bip32/bip32.go:383 *)
Definition wDecode58 (b : bytes) : outcome bytes :=
  let! r := wDec_loop (length b) b (setWord 0) (setWord 1) in
  match r with
  | None => Ret []
  | Some answer =>
    let tmpval := natBytes answer in
    let! numZeros := num_zeros (length b) b 0 in
    Ret (copy_from (repeat x00 (numZeros + length tmpval)) numZeros tmpval)
  end.
(** Encode, the loop: bip32/bip32.go:271, util/key_path.go:43 *)
Fixpoint wEnc_loop (fuel : nat) (x : list Z) (answer : bytes) : outcome bytes :=
  if 0 <? natCmp x (setWord 0) then
    match fuel with
    | O => Panic
    | S f =>
      let! (x, mod') := natDiv x (setWord 58) in
      let! c := get alphabet (Z.to_nat (nth 0 mod' 0)) in
      wEnc_loop f x (answer ++ [c])
    end
  else Ret answer.
(** Encode: bip32/bip32.go:271, util/key_path.go:43 *)
Definition wEncode58 (b : bytes) : outcome bytes :=
  let! answer := wEnc_loop (8 * length b) (setBytes b) [] in
  let answer := enc_zeros b answer in
  swap_loop (length answer / 2) 0 answer.
