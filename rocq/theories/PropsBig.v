(** PropsBig.v - the square roots of math/big (C96).
    Every theorem is closed by the lemma of the same name in ClaimsBig.v; an Example beside it shows that its
    hypotheses can be met. *)
From Verif Require Import Base BaseFacts GoStr HexFacts Prims Hash HashFacts Secp SecpPrime Fp ECGroup SpecEC SecpGroup SecpOrder SecpFacts Base58 Base58Facts SpecBip32 SpecPath Bip32Path Bip32Reg Bip32 Bip32RegFacts Bip32KeyFacts Bip32Facts Bip32Facts2 Claims32 QuadRec GoBig GoBigFacts.
From Coq Require Import Znumtheory.
From Verif Require Import ClaimsBig.

(** C96: the square root of math/big that expandPublicKey takes. [issq p x]: x is a square modulo p. *)

Theorem C96_legendre : forall p x, prime p -> p mod 4 = 3 -> exists j, Jacobi x p = Ret j /\
  (j = 0 <-> x mod p = 0) /\ (j = 1 <-> x mod p <> 0 /\ issq p x) /\ (j = -1 <-> ~ issq p x).
Proof. exact C96_legendre_l. Qed.
Print Assumptions C96_legendre.

Theorem C96_jacobi : forall x y, 0 < y -> y mod 2 = 1 -> exists j, Jacobi x y = Ret j /\ (j = 0 \/ j = 1 \/ j = -1) /\ (j = 0 <-> Z.gcd x y <> 1) /\
  Jacobi (x mod y) y = Ret j /\ (Z.gcd x y = 1 -> issq y x -> j = 1).
Proof. exact C96_jacobi_l. Qed.
Print Assumptions C96_jacobi.

Theorem C96_multiplicative : forall a b y, 0 < y -> y mod 2 = 1 -> exists j k, Jacobi a y = Ret j /\ Jacobi b y = Ret k /\ Jacobi (a * b) y = Ret (j * k).
Proof. exact C96_multiplicative_l. Qed.
Print Assumptions C96_multiplicative.

Theorem C96_reciprocity : forall a b, 0 < a -> 0 < b -> a mod 2 = 1 -> b mod 2 = 1 -> Z.gcd a b = 1 -> exists j k, Jacobi a b = Ret j /\ Jacobi b a = Ret k /\
  j * k = if (a mod 4 =? 3) && (b mod 4 =? 3) then -1 else 1.
Proof. exact C96_reciprocity_l. Qed.
Print Assumptions C96_reciprocity.

Theorem C96_even : forall x y, y mod 2 = 0 -> Jacobi x y = Panic.
Proof. exact C96_even_l. Qed.
Print Assumptions C96_even.

Theorem C96_negative : forall x y, y < 0 -> y mod 2 = 1 -> exists j, Jacobi x (- y) = Ret j /\ Jacobi x y = Ret (if x <? 0 then - j else j).
Proof. exact C96_negative_l. Qed.
Print Assumptions C96_negative.

Example C96_negative_sat : Jacobi 0 (-1) = Ret 1 /\ Jacobi (-2) (-3) = Ret (-1) /\ Jacobi 2 (-3) = Ret (-1).
Proof. exact C96_negative_sat_l. Qed.

Theorem C96_root : forall p x, prime p -> p mod 4 = 3 ->
  (BigModSqrt x p = Ret None /\ ~ issq p x) \/
  exists z, BigModSqrt x p = Ret (Some z) /\ 0 <= z < p /\ (z * z) mod p = x mod p /\ issq p z /\
    forall w, 0 <= w < p -> (w * w) mod p = x mod p -> issq p w -> w = z.
Proof. exact C96_root_l. Qed.
Print Assumptions C96_root.

Theorem C96_model : forall a, BigModSqrt a secp_p = Ret (ModSqrt a).
Proof. exact C96_model_l. Qed.
Print Assumptions C96_model.

Theorem C96_curve : forall x, exists r, BigModSqrt (x ^ 3 + secp_b) secp_p = Ret r /\ (r = None <-> forall y, ~ oncurve (PAff (toF x) y)) /\
  (forall y, r = Some y -> 0 <= y < secp_p /\ oncurve (PAff (toF x) (toF y))).
Proof. exact C96_curve_l. Qed.
Print Assumptions C96_curve.

Example C96_ex : BigModSqrt 2 7 = Ret (Some 4) /\ BigModSqrt 3 7 = Ret None /\ BigModSqrt 14 7 = Ret (Some 0) /\ BigModSqrt (-5) 7 = Ret (Some 4) /\ prime 7.
Proof. exact C96_ex_l. Qed.
