(** Base.v - bytes, strings, big-endian integers, outcomes of Go calls.
    Go library semantics used by every package of /repo. *)
From Coq Require Export ZArith NArith List Bool Lia Permutation.
From Coq Require Export Strings.Byte.
Export ListNotations.
Open Scope Z_scope.

(** Go [byte] is [Byte.byte]; Go [[]byte] and [string] are lists of bytes. *)
Notation bytes := (list byte).

(** String literals: [B "abc"] is the list of the bytes of the literal.
    String literals of the source, e.g. bip32/bip32.go:81. *)
Inductive bstr := BStr : list byte -> bstr.
(** the bytes of a literal, e.g. bip32/bip32.go:81 *)
Definition unB (s : bstr) : bytes := match s with BStr l => l end.
Declare Scope bs_scope.
Delimit Scope bs_scope with bs.
String Notation bstr BStr unB : bs_scope.
Bind Scope bs_scope with bstr.
(** a literal as bytes, e.g. bip32/bip32.go:81, bip39/bip39.go:254 *)
Definition B (s : bstr) : bytes := unB s.
Arguments B s%bs.

(** Numeric value of a byte, and Go's conversion [byte(z)] (truncation).
    Bytes read as numbers, e.g. bip32/utils.go:124. *)
Definition Zb (b : byte) : Z := Z.of_N (Byte.to_N b).
(** byte(...), e.g. bip32/path.go:86, bip32/utils.go:94 *)
Definition bZ (z : Z) : byte :=
  match Byte.of_N (Z.to_N (z mod 256)) with Some b => b | None => x00 end.

(** Go [==] on strings / [bytes.Equal]. E.g. bip32/bip32.go:307-311, examples/ui/one/main.go:184-199. *)
Fixpoint bytes_eqb (a b : bytes) : bool :=
  match a, b with
  | [], [] => true
  | x :: a', y :: b' => Byte.eqb x y && bytes_eqb a' b'
  | _, _ => false
  end.

(** math/big [big.Int.SetBytes]: big-endian unsigned value. E.g. bip39/bip39.go:191, bip32/utils.go:76-77, 110. *)
Definition be_Z (l : bytes) : Z := fold_left (fun a b => a * 256 + Zb b) l 0.

(** encoding/binary [BigEndian.PutUint16/PutUint32] (n = 2, 4): the low n bytes, big endian.
    bip39/bip39.go:133, bip32/utils.go:143-147, bip32/reg_ver_bytes.go:64, 70. *)
Fixpoint Z_be (n : nat) (z : Z) : bytes :=
  match n with
  | O => []
  | S k => Z_be k (z / 256) ++ [bZ z]
  end.

(** math/big [big.Int.Bytes] for non-negative values: big endian without leading zero bytes
    (the empty slice for 0). Number of bytes of big.Int.Bytes, e.g. bip32/utils.go:82. *)
Definition nbytes (z : Z) : nat := if z <=? 0 then O else S (Z.to_nat (Z.log2 z / 8)).
(** big.Int.Bytes: bip39/bip39.go:148, 205, 290, bip32/utils.go:56, 82, 97, util/key_path.go:22 *)
Definition Z_bytes (z : Z) : bytes := Z_be (nbytes z) z.

(** Little-endian digits in base b of a non-negative integer: the repeated [DivMod] loop used by
    decimal printing and base58. The fuel [log2 n + 1] always suffices for b >= 2 (BaseFacts).
    Used at bip32/path.go:102-104 (%d) and bip32/bip32.go:271 (base58). *)
Fixpoint digs (fuel : nat) (b n : Z) : list Z :=
  match fuel with
  | O => []
  | S f => if n <=? 0 then [] else (n mod b) :: digs f b (n / b)
  end.
(** as above: bip32/path.go:102-104, bip32/bip32.go:271 *)
Definition digits (b n : Z) : list Z := digs (S (Z.to_nat (Z.log2 n))) b n.

(** modulus of uint32, e.g. bip32/path.go:62-71 *)
Definition TWO32 : Z := 4294967296.
(** Go conversion [uint32(z)]. E.g. bip32/path.go:62-71, bip32/reg_ver_bytes.go:96-99. *)
Definition u32 (z : Z) : Z := z mod TWO32.

(** Outcome of a Go call that may panic. E.g. an index out of range at bip39/bip39.go:208. *)
Inductive outcome (A : Type) := Ret (a : A) | Panic.
Arguments Ret {A} a.
Arguments Panic {A}.

(** All error values produced by the modelled code.
    bip39/bip39.go:54-69, bip32/bip32.go:55-75, bip32/err.go:5-9, bip32/path.go:11-13,
    util/err.go:5-18; ErrWord is bip39/bip39.go:130, ErrSyntax/ErrRange are strconv's,
    ErrHex is encoding/hex's. *)
Inductive err :=
| ErrInvalidMnemonic | ErrEntropyLengthInvalid | ErrChecksumIncorrect | ErrWord (w : bytes)
| ErrSerializedKeyWrongSize | ErrHardenedChildPublicKey | ErrInvalidChecksum
| ErrInvalidPrivateKey | ErrInvalidPublicKey | ErrEmptyKey
| ErrUnSupportedHDVersionBytes | ErrInvalidPurpose | ErrInvalidCoin
| ErrUnSupportedOrInvalidPath
| ErrInvalidMnemonicWordsCount | ErrInvalidBIP39Seed | ErrInvalidRootKey | ErrInvalidRangeProvided
| ErrUtilUnSupportedOrInvalidPath
| ErrSyntax | ErrRange | ErrHex | ErrRand.

(** slice[lo:hi] on lists. E.g. bip32/bip32.go:181-190. *)
Definition slice {A} (lo hi : nat) (l : list A) : list A := firstn (hi - lo) (skipn lo l).

(** Go [copy(dst[at:], src)] where the source fits: overwrite at a position. E.g. bip32/bip32.go:321-374. *)
Definition overwrite (at_ : nat) (src dst : bytes) : bytes :=
  firstn at_ dst ++ src ++ skipn (at_ + length src) dst.
