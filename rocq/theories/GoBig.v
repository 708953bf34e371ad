(** GoBig.v - Jacobi and Int.ModSqrt of math/big, as the sources of Go 1.22 have them (go.mod:3): the square root
    bip32/utils.go:119 takes. The package is not in /repo; it is written down from its published source. Numbers are
    [Z]: Mod, Rsh, Add and Exp are the operations their documentation describes. *)
From Verif Require Import Base.

(** nat.trailingZeroBits, math/big; reached from bip32/utils.go:119. *)
Fixpoint tzb (p : positive) : Z := match p with xO q => 1 + tzb q | _ => 0 end.
(** as above; bip32/utils.go:119 *)
Definition trailingZeroBits (z : Z) : Z := match Z.abs z with Zpos p => tzb p | _ => 0 end.
(** The loop of Jacobi, math/big; reached from bip32/utils.go:119. [fuel] bounds its rounds; running out is a [Panic] here, and C96 proves
    that it does not happen. *)
Fixpoint jacobi_loop (fuel : nat) (a b j : Z) : outcome Z :=
  match fuel with
  | O => Panic
  | S fuel =>
    if b =? 1 then Ret j
    else if a =? 0 then Ret 0
    else
      let a := a mod b in
      if a =? 0 then Ret 0
      else
        let s := trailingZeroBits a in
        let j := if negb (Z.land s 1 =? 0) then
                   let bmod8 := Z.land b 7 in if (bmod8 =? 3) || (bmod8 =? 5) then - j else j
                 else j in
        let c := Z.shiftr a s in
        let j := if (Z.land b 3 =? 3) && (Z.land c 3 =? 3) then - j else j in
        jacobi_loop fuel b c j
  end.
(** Jacobi, math/big; reached from bip32/utils.go:119. An even y panics. *)
Definition Jacobi (x y : Z) : outcome Z :=
  if (y =? 0) || (Z.land (Z.abs y) 1 =? 0) then Panic
  else
    let j := if (y <? 0) && (x <? 0) then -1 else 1 in
    let b := Z.abs y in
    jacobi_loop (Z.to_nat (2 * Z.log2 b + 2)) x b j.
(** Int.modSqrt3Mod4Prime, math/big; reached from bip32/utils.go:119. *)
Definition modSqrt3Mod4Prime (x p : Z) : Z :=
  let e := p + 1 in
  let e := Z.shiftr e 2 in
  (x ^ e) mod p.
(** Int.ModSqrt, math/big, bip32/utils.go:119; [None] is nil. The algorithms for p = 5 mod 8 and for the other p (Tonelli and Shanks)
    are not written out: bip32 calls ModSqrt with the prime of the curve only, which is 3 mod 4. *)
Definition BigModSqrt (x p : Z) : outcome (option Z) :=
  match Jacobi x p with
  | Panic => Panic
  | Ret j =>
    if j =? -1 then Ret None
    else if j =? 0 then Ret (Some 0)
    else
      let x := if (x <? 0) || (p <=? x) then x mod p else x in
      if Z.land p 3 =? 3 then Ret (Some (modSqrt3Mod4Prime x p)) else Panic
  end.
