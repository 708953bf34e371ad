(** Base58.v - github.com/btcsuite/btcutil v1.0.2 base58.Encode / base58.Decode, used at
    bip32/bip32.go:271,383 and util/util.go (AddrP2SH). The library is not in /repo; the algorithm
    below is its big-integer algorithm. *)
From Verif Require Import Base.

(** base58, bip32/bip32.go:271, 383, util/key_path.go:43 *)
Definition alphabet : bytes := B "123456789ABCDEFGHJKLMNPQRSTUVWXYZabcdefghijkmnopqrstuvwxyz".

(** base58, bip32/bip32.go:271, 383, util/key_path.go:43 *)
Definition b58char (d : Z) : byte := nth (Z.to_nat d) alphabet x31.
(** base58, bip32/bip32.go:271, 383, util/key_path.go:43 *)
Fixpoint index_of (c : byte) (l : bytes) (i : Z) : option Z :=
  match l with
  | [] => None
  | x :: r => if Byte.eqb c x then Some i else index_of c r (i + 1)
  end.
(** base58, bip32/bip32.go:271, 383, util/key_path.go:43 *)
Definition b58val (c : byte) : option Z := index_of c alphabet 0.

(** Number of leading occurrences. Base58, bip32/bip32.go:271, 383, util/key_path.go:43. *)
Fixpoint count_lead (c : byte) (l : bytes) : nat :=
  match l with
  | x :: r => if Byte.eqb x c then S (count_lead c r) else O
  | [] => O
  end.

(** Encode: repeated division by 58, then one '1' for each leading zero byte.
    bip32/bip32.go:271, util/key_path.go:43. *)
Definition Encode58 (b : bytes) : bytes :=
  repeat x31 (count_lead x00 b) ++ rev (map b58char (digits 58 (be_Z b))).

(** Decode: the empty slice when a character is not in the alphabet.
    Base58, bip32/bip32.go:271, 383, util/key_path.go:43. *)
Fixpoint b58digits (s : bytes) : option (list Z) :=
  match s with
  | [] => Some []
  | c :: r => match b58val c, b58digits r with
              | Some d, Some l => Some (d :: l)
              | _, _ => None
              end
  end.
(** bip32/bip32.go:383 *)
Definition Decode58 (s : bytes) : bytes :=
  match b58digits s with
  | None => []
  | Some ds =>
    let v := fold_left (fun a d => a * 58 + d) ds 0 in
    repeat x00 (count_lead x31 s) ++ Z_bytes v
  end.
