(** UtilMnemonic.v - model of util/util.go:18-53. *)
From Verif Require Import Base GoStr Prims Bip39.

(** GenerateMnemonic: util/util.go:20-45. [rd] is what the random source delivers (see NewEntropy). *)
Definition GenerateMnemonic (H : Prims) (st : wstate) (rd : bytes) (wordsCount : Z) : outcome (bytes * option err) :=
  let bitSize :=
    if wordsCount =? 12 then Some 128
    else if wordsCount =? 15 then Some 160
    else if wordsCount =? 18 then Some 192
    else if wordsCount =? 21 then Some 224
    else if wordsCount =? 24 then Some 256
    else None in
  match bitSize with
  | None => Ret ([], Some ErrInvalidMnemonicWordsCount)
  | Some n =>
    match NewEntropy rd n with
    | (_, Some e) => Ret ([], Some e)
    | (bs, None) =>
      match NewMnemonic H st bs with
      | Panic => Panic
      | Ret (_, Some e) => Ret ([], Some e)
      | Ret (m, None) => Ret (m, None)
      end
    end
  end.

(** DeriveSeedFromMnemonic: util/util.go:47-53. *)
Definition DeriveSeedFromMnemonic (H : Prims) (st : wstate) (m pass : bytes) : bytes * option err :=
  match EntropyFromMnemonic H st m with
  | (_, Some e) => ([], Some e)
  | (_, None) => (HexEncode (NewSeed H m pass), None)
  end.
