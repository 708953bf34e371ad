(** SpecFmt.v - what fmt.Sprintf prints for the verbs used in /repo, and the order of byte strings.
    Independent of the library code in GoFmt.v. *)
From Verif Require Import Base GoStr SpecPath SpecCoins GoFmt.

(** The two digits of a byte. For bip32/utils.go:55. *)
Definition two (c : byte) : bytes := [nth (Z.to_nat (Zb c / 16)) (B "0123456789abcdef") x00; nth (Z.to_nat (Zb c mod 16)) (B "0123456789abcdef") x00].
(** What an argument prints with a verb: decimal numbers for d and v, lower-case hexadecimal numbers for x, the text itself for s and v, two
    digits for each byte with x. For bip32/utils.go:55, bip32/path.go:102-104, bip39/bip39.go:130, bip44/coin.go:17-29, util/util.go:115. *)
Inductive prints : arg -> byte -> bytes -> Prop :=
| PrD : forall u v t, v = x64 \/ v = x76 -> 0 <= u < 2 ^ 64 -> decimal t u -> prints (AUint u) v t
| PrX : forall u t, 0 <= u < 2 ^ 64 -> hexadecimal t u -> prints (AUint u) x78 t
| PrS : forall s v, v = x73 \/ v = x76 -> prints (AString s) v s
| PrB : forall b, prints (ABytes b) x78 (flat_map two b).
(** What a format and its arguments print: text without percent signs stands for itself, the arguments are used in order and up.
    For bip32/utils.go:55, bip32/path.go:102-104, bip39/bip39.go:130, bip44/coin.go:17-29, util/util.go:115. *)
Inductive formats : bytes -> list arg -> bytes -> Prop :=
| FmNil : formats [] [] []
| FmLit : forall c f a t, c <> x25 -> formats f a t -> formats (c :: f) a (c :: t)
| FmArg : forall v x s f a t, prints x v s -> formats f a t -> formats (x25 :: v :: f) (x :: a) (s ++ t).
(** The lexicographic order: a proper prefix, or smaller at the first byte that differs. For bip32/utils.go:56. *)
Definition lex_lt (a b : bytes) : Prop := (exists c r, b = a ++ c :: r) \/ (exists p x y r s, a = p ++ x :: r /\ b = p ++ y :: s /\ Zb x < Zb y).
