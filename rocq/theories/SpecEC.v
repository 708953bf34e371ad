(** SpecEC.v - specification: the group of secp256k1 points over the prime field, independent of the
    model's algorithms. Chord-and-tangent addition ([aadd] of ECGroup.v), multiples by repeated addition,
    SEC1 compressed encoding. *)
From Verif Require Import Base Secp SecpPrime Fp ECGroup.

Notation point := (pt Fp).
Notation PInf := (Inf Fp).
Notation PAff := (Aff Fp).
(** For bip32/utils.go:63-71, 107-140. *)
Definition Fb : Fp := toF secp_b.
(** y^2 = x^3 + 7. For bip32/utils.go:63-71, 107-140. *)
Definition oncurve : point -> Prop := on Fp Fadd Fmul Fb.
(** For bip32/utils.go:63-71, 107-140. *)
Definition cadd : point -> point -> point := aadd Fp F0 F1 Fadd Fmul Fsub Fdiv Feqb.
(** For bip32/utils.go:63-71, 107-140. *)
Definition cneg : point -> point := neg Fp Fopp.
(** For bip32/utils.go:63-71, 107-140. *)
Definition pG : point := PAff (toF secp_Gx) (toF secp_Gy).
(** k.P as the k-fold sum P + (P + ...). For bip32/utils.go:63-71, 107-140. *)
Definition smul (k : Z) (P : point) : point := nmul Fp F0 F1 Fadd Fmul Fsub Fdiv Feqb (Z.to_nat k) P.
(** point(k) of BIP-32. For bip32/utils.go:63-71, 107-140. *)
Definition kG (k : Z) : point := smul k pG.
(** serP of BIP-32: 02/03 by parity of y, then x in 32 bytes (infinity has no encoding). For bip32/utils.go:90-104. *)
Definition serP (P : point) : option bytes :=
  match P with
  | Inf _ => None
  | Aff _ x y => Some ((if Z.even (fv y) then x02 else x03) :: Z_be 32 (fv x))
  end.
