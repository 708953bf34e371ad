(** SpecNat.v - which number a vector of 64-bit words stands for, and which vectors are the right ones for it. *)
From Verif Require Import Base.

(** The value of a vector, lowest word first; bip32/utils.go:76, bip39/bip39.go:191 *)
Fixpoint val (x : list Z) : Z := match x with [] => 0 | w :: x => w + 18446744073709551616 * val x end.
(** 64-bit words; bip32/utils.go:76 *)
Definition words (x : list Z) : Prop := Forall (fun w => 0 <= w < 18446744073709551616) x.
(** The vector that math/big keeps for a number: words, no leading zero; bip32/utils.go:76, bip39/bip39.go:191 *)
Definition stands (x : list Z) (v : Z) : Prop := words x /\ last x 1 <> 0 /\ val x = v.
