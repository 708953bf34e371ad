(** PropsNat.v - the numbers of math/big, word by word (C101).
    Every theorem is closed by the lemma of the same name in ClaimsNat.v; an Example beside it shows that its
    hypotheses can be met. *)
From Verif Require Import Base BaseFacts GoStr Prims Bip39 Bip39Facts Bip32 Base58 GoCodec GoCodecFacts Secp SecpFacts Bip32KeyFacts GoBig GoBigFacts GoNat SpecNat GoNatFacts GoNatOps GoNatKara GoNatWW GoNatDiv GoNatBytes GoNatExp GoNatUse GoNatUseFacts.
From Coq Require Import Znumtheory.
From Verif Require Import ClaimsNat.

(** C101: the numbers of math/big, word by word. *)

Theorem C101_repr : forall v, 0 <= v -> exists! x, stands x v.
Proof. exact C101_repr_l. Qed.
Print Assumptions C101_repr.

Theorem C101_arith : forall x y a b, stands x a -> stands y b ->
  stands (natAdd x y) (a + b) /\ stands (natAnd x y) (Z.land a b) /\ stands (natOr x y) (Z.lor a b) /\
  natCmp x y = (if a <? b then -1 else if a =? b then 0 else 1) /\
  (b <= a -> exists z, natSub x y = Ret z /\ stands z (a - b)) /\
  (exists z, natMul x y = Ret z /\ stands z (a * b)) /\
  (exists z, natSqr x = Ret z /\ stands z (a ^ 2)).
Proof. exact C101_arith_l. Qed.
Print Assumptions C101_arith.

Example C101_arith_sat : stands [18446744073709551615; 1] 36893488147419103231 /\ stands [1] 1 /\ natAdd [18446744073709551615; 1] [1] = [0; 2] /\ natSub [0; 2] [1] = Ret [18446744073709551615; 1] /\
  natSub [0; 1] [1] = Ret [18446744073709551615] /\ natSub [1] [2] = Panic /\ natMul [18446744073709551615; 1] [18446744073709551615; 1] = Ret [1; 18446744073709551612; 3] /\ natCmp [5] [0; 1] = -1 /\ natAnd [6; 1] [3] = [2].
Proof. exact C101_arith_sat_l. Qed.

Theorem C101_long : forall x y, words x -> words y -> length x = length y ->
  (exists z, karatsuba (S (length y)) x y = Ret z /\ words z /\ length z = (2 * length y)%nat /\ val z = val x * val y) /\
  (exists z, karatsubaSqr (S (length x)) x = Ret z /\ words z /\ length z = (2 * length x)%nat /\ val z = val x * val x) /\
  words (basicMul x y) /\ length (basicMul x y) = (length x + length y)%nat /\ val (basicMul x y) = val x * val y /\
  words (basicSqr x) /\ length (basicSqr x) = (2 * length x)%nat /\ val (basicSqr x) = val x * val x.
Proof. exact C101_long_l. Qed.
Print Assumptions C101_long.

Example C101_long_sat : let m := 18446744073709551615 in
  karatsuba 41 (repeat m 40) (repeat m 40) = Ret (1 :: repeat 0 39 ++ (m - 1) :: repeat m 39) /\
  karatsuba 41 (repeat 0 20 ++ repeat 1 20) (repeat 1 20 ++ repeat 0 20) = Ret (repeat 0 20 ++ map Z.of_nat (seq 1 20) ++ rev (map Z.of_nat (seq 1 19)) ++ repeat 0 21) /\
  basicSqr (repeat m 20) = 1 :: repeat 0 19 ++ (m - 1) :: repeat m 19 /\
  natMul (repeat 0 40 ++ [5]) (repeat 0 41 ++ [3]) = Ret (repeat 0 81 ++ [15]).
Proof. exact C101_long_sat_l. Qed.

Theorem C101_cut : forall n t, (0 < t)%nat -> exists i, karatsubaLen n n t = (2 ^ i * (n / 2 ^ i))%nat /\ (n / 2 ^ i <= t)%nat /\ forall j, (j < i)%nat -> (t < n / 2 ^ j)%nat.
Proof. exact C101_cut_l. Qed.
Print Assumptions C101_cut.

Example C101_cut_sat : map (fun n => karatsubaLen n n 40) [40; 41; 85; 100]%nat = [40; 40; 84; 100]%nat.
Proof. exact C101_cut_sat_l. Qed.

Theorem C101_power : forall x a v, stands x a -> 0 <= v < 2 ^ 64 -> exists z, expNN x (setWord v) [] = Ret z /\ stands z (a ^ v).
Proof. exact C101_power_l. Qed.
Print Assumptions C101_power.

Example C101_power_sat : stands [3] 3 /\ expNN [3] (setWord 100) [] = Ret [15462121228172006353; 7437528029733189493; 1514558410] /\ expNN [] (setWord 0) [] = Ret [1].
Proof. exact C101_power_sat_l. Qed.

Theorem C101_shift : forall x a s, stands x a -> 0 <= s -> stands (natShl x s) (a * 2 ^ s) /\ stands (natShr x s) (a / 2 ^ s).
Proof. exact C101_shift_l. Qed.
Print Assumptions C101_shift.

Example C101_shift_sat : natShl [1] 130 = [0; 0; 4] /\ natShr [0; 0; 4] 129 = [2] /\ natShr [18446744073709551615; 1] 1 = [18446744073709551615] /\ natShl [9223372036854775809] 1 = [2; 1].
Proof. exact C101_shift_sat_l. Qed.

Theorem C101_trailing : forall x a, stands x a -> (a = 0 -> natTrailing x = 0) /\ (a <> 0 -> 0 <= natTrailing x /\ exists c, a = 2 ^ natTrailing x * c /\ c mod 2 = 1).
Proof. exact C101_trailing_l. Qed.
Print Assumptions C101_trailing.

Example C101_trailing_sat : natTrailing [0; 8] = 67 /\ natTrailing [] = 0 /\ natTrailing [9223372036854775808; 1] = 63.
Proof. exact C101_trailing_sat_l. Qed.

Theorem C101_word_div : forall y x1 x0, 0 < y < 2 ^ 64 -> 0 <= x1 < y -> 0 <= x0 < 2 ^ 64 ->
  exists m, reciprocalWord y = Ret m /\ divWW x1 x0 y m = ((x1 * 2 ^ 64 + x0) / y, (x1 * 2 ^ 64 + x0) mod y).
Proof. exact C101_word_div_l. Qed.
Print Assumptions C101_word_div.

Example C101_word_div_sat : reciprocalWord 3 = Ret 6148914691236517205 /\ divWW 2 5 3 6148914691236517205 = (12297829382473034412, 1) /\ (2 * 2 ^ 64 + 5) / 3 = 12297829382473034412.
Proof. exact C101_word_div_sat_l. Qed.

Theorem C101_div : forall x y a b, stands x a -> stands y b ->
  (b = 0 -> natDiv x y = Panic) /\
  (0 < b -> (length y < 100)%nat -> exists q r, natDiv x y = Ret (q, r) /\ stands q (a / b) /\ stands r (a mod b)).
Proof. exact C101_div_l. Qed.
Print Assumptions C101_div.

Example C101_div_sat : natDiv [0; 0; 9223372036854775808; 9223372036854775807] [18446744073709551615; 0; 9223372036854775808] = Ret ([18446744073709551614], [18446744073709551614; 2; 9223372036854775807]) /\
  natDiv [3; 0; 9223372036854775808] [1; 0; 2305843009213693952] = Ret ([3], [0; 0; 2305843009213693952]) /\ natDiv [5; 7] [3] = Ret ([6148914691236517207; 2], []) /\ natDiv [1] [0; 1] = Ret ([], [1]).
Proof. exact C101_div_sat_l. Qed.

Theorem C101_bytes : forall b, stands (setBytes b) (be_Z b) /\ natBytes (setBytes b) = Z_bytes (be_Z b) /\ forall x a, stands x a -> natBytes x = Z_bytes a.
Proof. exact C101_bytes_l. Qed.
Print Assumptions C101_bytes.

Example C101_bytes_sat : setBytes [x00; x01; x02; x03; x04; x05; x06; x07; x08; x09] = [144964032628459529; 1] /\ natBytes [144964032628459529; 1] = [x01; x02; x03; x04; x05; x06; x07; x08; x09].
Proof. exact C101_bytes_sat_l. Qed.

Theorem C101_inverse : forall m0, Z.odd m0 = true -> (m0 * mont_k0 m0 + 1) mod 2 ^ 64 = 0 /\ 0 <= mont_k0 m0 < 2 ^ 64.
Proof. exact C101_inverse_l. Qed.
Print Assumptions C101_inverse.

Example C101_inverse_sat : mont_k0 3 = 6148914691236517205 /\ Z.odd 3 = true.
Proof. exact C101_inverse_sat_l. Qed.

Theorem C101_montgomery : forall x y m, words x -> words y -> words m -> length x = length m -> length y = length m -> Z.odd (val m) = true ->
  exists z, montgomery x y m (mont_k0 (nth 0 m 0)) = Ret z /\ words z /\ length z = length m /\ (val z * 2 ^ (64 * Z.of_nat (length m)) - val x * val y) mod val m = 0.
Proof. exact C101_montgomery_l. Qed.
Print Assumptions C101_montgomery.

Theorem C101_exp : forall x y m a b M, stands x a -> stands y b -> stands m M -> Z.odd M = true -> (length m < 100)%nat -> 2 ^ 64 <= b -> exists z, expNN x y m = Ret z /\ stands z (a ^ b mod M).
Proof. exact C101_exp_l. Qed.
Print Assumptions C101_exp.

Example C101_exp_sat : stands [3] 3 /\ stands [1; 1] (2 ^ 64 + 1) /\ stands [7] 7 /\ 2 ^ 64 <= 2 ^ 64 + 1 /\ expNN [3] [1; 1] [7] = Ret [5] /\ montgomery [3] [4] [7] (mont_k0 7) = Ret [6].
Proof. exact C101_exp_sat_l. Qed.

Theorem C101_sqrt : forall fuel x p a P, stands x a -> stands p P -> (length p < 100)%nat -> prime P -> P mod 4 = 3 -> 2 ^ 66 <= P < 2 ^ 256 -> (512 <= fuel)%nat ->
  exists r, wModSqrt fuel x p = Ret r /\
    match r with
    | None => forall z, (z * z) mod P <> a mod P
    | Some z => exists v, stands z v /\ 0 <= v < P /\ (v * v) mod P = a mod P
    end.
Proof. exact C101_sqrt_l. Qed.
Print Assumptions C101_sqrt.

Example C101_sqrt_sat : prime secp_p /\ secp_p mod 4 = 3 /\ 2 ^ 66 <= secp_p < 2 ^ 256.
Proof. exact C101_sqrt_sat_l. Qed.

Theorem C101_expand : forall fuel P b key, stands P secp_p -> stands b secp_b -> (512 <= fuel)%nat ->
  match ExpandPublicKey key with
  | Panic => wExpand fuel P b key = Panic
  | Ret (X, Y) => exists x y, wExpand fuel P b key = Ret (x, y) /\ stands x X /\ stands y Y
  end.
Proof. exact C101_expand_l. Qed.
Print Assumptions C101_expand.

Example C101_expand_sat : stands (setBytes (Z_be 32 secp_p)) secp_p /\ stands [7] secp_b /\
  (exists x y, wExpand 512 (setBytes (Z_be 32 secp_p)) [7] [x02; x01] = Ret (x, y) /\ stands x 1 /\ stands y 29896722852569046015560700294576055776214335159245303116488692907525646231534) /\
  wExpand 512 (setBytes (Z_be 32 secp_p)) [7] [x03; x05] = Ret ([5], setBytes (Z_be 32 secp_p)) /\ wExpand 512 (setBytes (Z_be 32 secp_p)) [7] [] = Panic.
Proof. exact C101_expand_sat_l. Qed.

Theorem C101_compress : forall x y a b, stands x a -> stands y b -> wCompress x y = compressPublicKey (a, b).
Proof. exact C101_compress_l. Qed.
Print Assumptions C101_compress.

Theorem C101_private : forall N k1 k2, stands N secp_n -> wAddPrivateKeys N k1 k2 = Ret (addPrivateKeys k1 k2).
Proof. exact C101_private_l. Qed.
Print Assumptions C101_private.

Example C101_private_sat : stands (setBytes (Z_be 32 secp_n)) secp_n /\ wAddPrivateKeys (setBytes (Z_be 32 secp_n)) (Z_be 32 (secp_n - 1)) [x03] = Ret (Z_be 32 2).
Proof. exact C101_private_sat_l. Qed.

Theorem C101_mnemonic : forall H st, (forall e, wNewMnemonic H st e = NewMnemonic H st e) /\ (forall ws, wEntropyOfWords H st ws = Ret (entropyOfWords H st ws)) /\ (forall d, wAddChecksum H d = Ret (addChecksum H d)).
Proof. exact C101_mnemonic_l. Qed.
Print Assumptions C101_mnemonic.

Theorem C101_base58 : forall b, wEncode58 b = Ret (Encode58 b) /\ wDecode58 b = Ret (Decode58 b).
Proof. exact C101_base58_l. Qed.
Print Assumptions C101_base58.

Example C101_base58_sat : wEncode58 [x00; x01; xff] = Ret (B "19p") /\ wDecode58 (B "19p") = Ret [x00; x01; xff] /\ wDecode58 (B "10p") = Ret [].
Proof. exact C101_base58_sat_l. Qed.
