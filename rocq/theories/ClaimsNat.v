(** ClaimsNat.v - the property statements of PropsNat.v with their proofs. *)
From Verif Require Import Base BaseFacts GoStr Prims Bip39 Bip39Facts Bip32 Base58 GoCodec GoCodecFacts Secp SecpFacts Bip32KeyFacts GoBig GoBigFacts GoNat SpecNat GoNatFacts GoNatOps GoNatKara GoNatWW GoNatDiv GoNatBytes GoNatExp GoNatUse GoNatUseFacts SecpPrime ClaimsBig.
From Coq Require Import Znumtheory Lia.
From Coq Require Import ZifyBool ZifyNat ZifyN.

Lemma C101_repr_l : forall v, 0 <= v -> exists! x, stands x v.
Proof.
intros v Hv. exists (setBytes (Z_bytes v)). split; [pose proof (setBytes_ok (Z_bytes v)) as S; rewrite be_Z_bytes in S by exact Hv; exact S|].
intros y Sy. pose proof (setBytes_ok (Z_bytes v)) as S. rewrite be_Z_bytes in S by exact Hv. exact (stands_unique _ _ _ S Sy).
Qed.

Lemma C101_arith_l : forall x y a b, stands x a -> stands y b ->
  stands (natAdd x y) (a + b) /\ stands (natAnd x y) (Z.land a b) /\ stands (natOr x y) (Z.lor a b) /\
  natCmp x y = (if a <? b then -1 else if a =? b then 0 else 1) /\
  (b <= a -> exists z, natSub x y = Ret z /\ stands z (a - b)) /\
  (exists z, natMul x y = Ret z /\ stands z (a * b)) /\
  (exists z, natSqr x = Ret z /\ stands z (a ^ 2)).
Proof.
intros x y a b Sx Sy. split; [apply natAdd_ok; assumption|]. split; [apply natAnd_ok; assumption|]. split; [apply natOr_ok; assumption|]. split.
{ rewrite (natCmp_ok x y a b Sx Sy). destruct (a ?= b) eqn:C; [apply Z.compare_eq in C; subst b; rewrite Z.ltb_irrefl, Z.eqb_refl; reflexivity| |].
  - apply (proj1 (Z.compare_lt_iff a b)) in C. replace (a <? b) with true by lia. reflexivity.
  - apply (proj1 (Z.compare_gt_iff a b)) in C. replace (a <? b) with false by lia. replace (a =? b) with false by lia. reflexivity. }
split; [intro L; apply natSub_ok; assumption|]. split; [apply natMul_ok; assumption|]. replace (a ^ 2) with (a * a) by ring. apply natSqr_ok; assumption.
Qed.

Lemma C101_arith_sat_l : stands [18446744073709551615; 1] 36893488147419103231 /\ stands [1] 1 /\ natAdd [18446744073709551615; 1] [1] = [0; 2] /\ natSub [0; 2] [1] = Ret [18446744073709551615; 1] /\
  natSub [0; 1] [1] = Ret [18446744073709551615] /\ natSub [1] [2] = Panic /\ natMul [18446744073709551615; 1] [18446744073709551615; 1] = Ret [1; 18446744073709551612; 3] /\ natCmp [5] [0; 1] = -1 /\ natAnd [6; 1] [3] = [2].
Proof.
split; [split; [repeat constructor; lia|split; [cbn; lia|reflexivity]]|]. split; [split; [repeat constructor; lia|split; [cbn; lia|reflexivity]]|]. repeat split.
Qed.

Lemma C101_long_l : forall x y, words x -> words y -> length x = length y ->
  (exists z, karatsuba (S (length y)) x y = Ret z /\ words z /\ length z = (2 * length y)%nat /\ val z = val x * val y) /\
  (exists z, karatsubaSqr (S (length x)) x = Ret z /\ words z /\ length z = (2 * length x)%nat /\ val z = val x * val x) /\
  words (basicMul x y) /\ length (basicMul x y) = (length x + length y)%nat /\ val (basicMul x y) = val x * val y /\
  words (basicSqr x) /\ length (basicSqr x) = (2 * length x)%nat /\ val (basicSqr x) = val x * val x.
Proof.
intros x y Wx Wy L. split; [apply karatsuba_ok; try assumption; lia|]. split; [apply karatsubaSqr_ok; [assumption|lia]|]. destruct (basicMul_ok x y Wx Wy) as [V W]. destruct (basicSqr_ok x Wx) as (V2 & W2 & L2). split; [exact W|]. split; [apply basicMul_len; assumption|]. split; [exact V|]. split; [exact W2|]. split; [exact L2|exact V2].
Qed.

Lemma C101_long_sat_l : let m := 18446744073709551615 in
  karatsuba 41 (repeat m 40) (repeat m 40) = Ret (1 :: repeat 0 39 ++ (m - 1) :: repeat m 39) /\
  karatsuba 41 (repeat 0 20 ++ repeat 1 20) (repeat 1 20 ++ repeat 0 20) = Ret (repeat 0 20 ++ map Z.of_nat (seq 1 20) ++ rev (map Z.of_nat (seq 1 19)) ++ repeat 0 21) /\
  basicSqr (repeat m 20) = 1 :: repeat 0 19 ++ (m - 1) :: repeat m 19 /\
  natMul (repeat 0 40 ++ [5]) (repeat 0 41 ++ [3]) = Ret (repeat 0 81 ++ [15]).
Proof.
cbv zeta. vm_compute. repeat split.
Qed.

Lemma C101_cut_l : forall n t, (0 < t)%nat -> exists i, karatsubaLen n n t = (2 ^ i * (n / 2 ^ i))%nat /\ (n / 2 ^ i <= t)%nat /\ forall j, (j < i)%nat -> (t < n / 2 ^ j)%nat.
Proof.
intros n t Ht. apply karatsubaLen_spec; [exact Ht|lia].
Qed.

Lemma C101_cut_sat_l : map (fun n => karatsubaLen n n 40) [40; 41; 85; 100]%nat = [40; 40; 84; 100]%nat.
Proof.
reflexivity.
Qed.

Lemma C101_power_l : forall x a v, stands x a -> 0 <= v < 2 ^ 64 -> exists z, expNN x (setWord v) [] = Ret z /\ stands z (a ^ v).
Proof.
intros x a v Sx Hv. apply expNN_plain_ok; [exact Sx|rewrite BW_pow; exact Hv].
Qed.

Lemma C101_power_sat_l : stands [3] 3 /\ expNN [3] (setWord 100) [] = Ret [15462121228172006353; 7437528029733189493; 1514558410] /\ expNN [] (setWord 0) [] = Ret [1].
Proof.
split; [split; [repeat constructor; lia|split; [cbn; lia|reflexivity]]|]. vm_compute. split; reflexivity.
Qed.

Lemma C101_shift_l : forall x a s, stands x a -> 0 <= s -> stands (natShl x s) (a * 2 ^ s) /\ stands (natShr x s) (a / 2 ^ s).
Proof.
intros x a s S H. split; [apply natShl_ok|apply natShr_ok]; assumption.
Qed.

Lemma C101_shift_sat_l : natShl [1] 130 = [0; 0; 4] /\ natShr [0; 0; 4] 129 = [2] /\ natShr [18446744073709551615; 1] 1 = [18446744073709551615] /\ natShl [9223372036854775809] 1 = [2; 1].
Proof.
repeat split.
Qed.

Lemma C101_trailing_l : forall x a, stands x a -> (a = 0 -> natTrailing x = 0) /\ (a <> 0 -> 0 <= natTrailing x /\ exists c, a = 2 ^ natTrailing x * c /\ c mod 2 = 1).
Proof.
intros x a S. rewrite (natTrailing_ok x a S). pose proof (stands_nonneg x a S) as R. split; [intros ->; reflexivity|]. intros N. destruct a as [|p|p]; [contradiction| |lia]. cbn [trailingZeroBits Z.abs].
destruct (tzb_spec p) as (T & c & E & _ & O). split; [exact T|]. exists c. split; assumption.
Qed.

Lemma C101_trailing_sat_l : natTrailing [0; 8] = 67 /\ natTrailing [] = 0 /\ natTrailing [9223372036854775808; 1] = 63.
Proof.
repeat split.
Qed.

Lemma C101_word_div_l : forall y x1 x0, 0 < y < 2 ^ 64 -> 0 <= x1 < y -> 0 <= x0 < 2 ^ 64 ->
  exists m, reciprocalWord y = Ret m /\ divWW x1 x0 y m = ((x1 * 2 ^ 64 + x0) / y, (x1 * 2 ^ 64 + x0) mod y).
Proof.
rewrite <- BW_pow. intros y x1 x0 Hy H1 H0. destruct (reciprocal_ok y Hy) as (m & E & _). exists m. split; [exact E|]. apply divWW_ok; assumption.
Qed.

Lemma C101_word_div_sat_l : reciprocalWord 3 = Ret 6148914691236517205 /\ divWW 2 5 3 6148914691236517205 = (12297829382473034412, 1) /\ (2 * 2 ^ 64 + 5) / 3 = 12297829382473034412.
Proof.
repeat split.
Qed.

Lemma C101_div_l : forall x y a b, stands x a -> stands y b ->
  (b = 0 -> natDiv x y = Panic) /\
  (0 < b -> (length y < 100)%nat -> exists q r, natDiv x y = Ret (q, r) /\ stands q (a / b) /\ stands r (a mod b)).
Proof.
intros x y a b Sx Sy. split; [intros ->; rewrite (stands_nil y Sy); reflexivity|]. intros Hb L. apply natDiv_ok; assumption.
Qed.

Lemma C101_div_sat_l : natDiv [0; 0; 9223372036854775808; 9223372036854775807] [18446744073709551615; 0; 9223372036854775808] = Ret ([18446744073709551614], [18446744073709551614; 2; 9223372036854775807]) /\
  natDiv [3; 0; 9223372036854775808] [1; 0; 2305843009213693952] = Ret ([3], [0; 0; 2305843009213693952]) /\ natDiv [5; 7] [3] = Ret ([6148914691236517207; 2], []) /\ natDiv [1] [0; 1] = Ret ([], [1]).
Proof.
repeat split.
Qed.

Lemma C101_bytes_l : forall b, stands (setBytes b) (be_Z b) /\ natBytes (setBytes b) = Z_bytes (be_Z b) /\ forall x a, stands x a -> natBytes x = Z_bytes a.
Proof.
intros b. split; [apply setBytes_ok|]. split; [apply natBytes_ok; apply setBytes_ok|exact natBytes_ok].
Qed.

Lemma C101_bytes_sat_l : setBytes [x00; x01; x02; x03; x04; x05; x06; x07; x08; x09] = [144964032628459529; 1] /\ natBytes [144964032628459529; 1] = [x01; x02; x03; x04; x05; x06; x07; x08; x09].
Proof.
vm_compute. repeat split.
Qed.

Lemma C101_inverse_l : forall m0, Z.odd m0 = true -> (m0 * mont_k0 m0 + 1) mod 2 ^ 64 = 0 /\ 0 <= mont_k0 m0 < 2 ^ 64.
Proof.
intros m0 O. rewrite <- BW_pow. split; [|apply ww_range]. destruct (k0_ok m0 O) as [t E]. rewrite E. replace (-1 + BW * t + 1) with (t * BW) by ring. apply Z_mod_mult.
Qed.

Lemma C101_inverse_sat_l : mont_k0 3 = 6148914691236517205 /\ Z.odd 3 = true.
Proof.
repeat split.
Qed.

Lemma C101_montgomery_l : forall x y m, words x -> words y -> words m -> length x = length m -> length y = length m -> Z.odd (val m) = true ->
  exists z, montgomery x y m (mont_k0 (nth 0 m 0)) = Ret z /\ words z /\ length z = length m /\ (val z * 2 ^ (64 * Z.of_nat (length m)) - val x * val y) mod val m = 0.
Proof.
intros x y m Wx Wy Wm Lx Ly O. destruct m as [|m0 mr] eqn:Em; [discriminate|]. rewrite <- Em in *. assert (L : length m = S (length mr)) by (rewrite Em; reflexivity).
pose proof (val_range m Wm) as R. assert (P : 0 < val m) by (destruct (Z.eq_dec (val m) 0) as [E|E]; [rewrite E in O; discriminate|lia]).
destruct (k_ok m (length mr) Wm L O P) as [K1 K2]. destruct (montgomery_ok m _ (length mr) Wm L K1 x y Wx Wy ltac:(lia) ltac:(lia) P) as (z & E & W & Lz & C). exists z. split; [exact E|]. split; [exact W|]. split; [lia|].
destruct C as [t C]. unfold pw in C. rewrite <- L, BW_pow, <- Z.pow_mul_r in C by lia. rewrite C. replace (val x * val y + val m * t - val x * val y) with (t * val m) by ring. apply Z_mod_mult.
Qed.

Lemma C101_exp_l : forall x y m a b M, stands x a -> stands y b -> stands m M -> Z.odd M = true -> (length m < 100)%nat -> 2 ^ 64 <= b -> exists z, expNN x y m = Ret z /\ stands z (a ^ b mod M).
Proof.
intros x y m a b M Sx Sy Sm O L Hb. rewrite <- BW_pow in Hb. pose proof (stands_nonneg m M Sm) as R. assert (P : 0 < M) by (destruct (Z.eq_dec M 0) as [E|E]; [rewrite E in O; discriminate|lia]). apply expNN_mod_ok; assumption.
Qed.

Lemma C101_exp_sat_l : stands [3] 3 /\ stands [1; 1] (2 ^ 64 + 1) /\ stands [7] 7 /\ 2 ^ 64 <= 2 ^ 64 + 1 /\ expNN [3] [1; 1] [7] = Ret [5] /\ montgomery [3] [4] [7] (mont_k0 7) = Ret [6].
Proof.
split; [split; [repeat constructor; lia|split; [cbn; lia|reflexivity]]|]. split; [split; [repeat constructor; lia|split; [cbn; lia|reflexivity]]|]. split; [split; [repeat constructor; lia|split; [cbn; lia|reflexivity]]|]. split; [lia|]. vm_compute. split; reflexivity.
Qed.

Lemma C101_sqrt_l : forall fuel x p a P, stands x a -> stands p P -> (length p < 100)%nat -> prime P -> P mod 4 = 3 -> 2 ^ 66 <= P < 2 ^ 256 -> (512 <= fuel)%nat ->
  exists r, wModSqrt fuel x p = Ret r /\
    match r with
    | None => forall z, (z * z) mod P <> a mod P
    | Some z => exists v, stands z v /\ 0 <= v < P /\ (v * v) mod P = a mod P
    end.
Proof.
intros fuel x p a P Sx Sp Lp Pr P4 R F.
assert (R4 : 4 * BW <= P < 2 ^ 256) by (rewrite BW_pow; lia).
destruct (C96_root_l P a Pr P4) as [(E & N)|(v & E & V1 & V2 & _)].
- destruct (wModSqrt_ok fuel x p a P None Sx Sp Lp P4 R4 F E) as (r & E2 & S2). exists r. split; [exact E2|]. destruct r as [z|]; [contradiction|]. intros z Ez. apply N. exists z. exact Ez.
- destruct (wModSqrt_ok fuel x p a P (Some v) Sx Sp Lp P4 R4 F E) as (r & E2 & S2). exists r. split; [exact E2|]. destruct r as [z|]; [|contradiction]. exists v. split; [exact S2|]. split; assumption.
Qed.

Lemma C101_sqrt_sat_l : prime secp_p /\ secp_p mod 4 = 3 /\ 2 ^ 66 <= secp_p < 2 ^ 256.
Proof.
split; [exact secp_p_prime|]. split; [vm_compute; reflexivity|split; [vm_compute; discriminate|vm_compute; reflexivity]].
Qed.

Lemma short_p : forall p P, 0 <= p < 2 ^ 256 -> stands P p -> (length P < 100)%nat.
Proof.
intros p P R S. assert (T : stands [0; 0; 0; 0; 1] (2 ^ 256)). { split; [repeat constructor; rewrite ?BW_pow; lia|]. split; [cbn; lia|reflexivity]. }
pose proof (len_lt P p _ S R _ T) as L. cbn [length] in L. lia.
Qed.
Lemma expand_gen : forall p q (sq : Z -> option Z) fuel P b key, (forall a, BigModSqrt a p = Ret (sq a)) -> (forall a y, sq a = Some y -> 0 <= y < p) -> p mod 4 = 3 -> 2 ^ 66 <= p < 2 ^ 256 ->
  stands P p -> stands b q -> (512 <= fuel)%nat ->
  match (match key with
         | [] => Panic
         | k0 :: xs => Ret (be_Z xs, if (Zb k0 - 2) mod 2 ^ 64 =? (match sq (be_Z xs ^ 3 + q) with Some y => y | None => 0 end) mod 2 then match sq (be_Z xs ^ 3 + q) with Some y => y | None => 0 end else p - match sq (be_Z xs ^ 3 + q) with Some y => y | None => 0 end)
         end) with
  | Panic => wExpand fuel P b key = Panic
  | Ret (X, Y) => exists x y, wExpand fuel P b key = Ret (x, y) /\ stands x X /\ stands y Y
  end.
Proof.
intros p q sq fuel P b key HS HR P4 RP SP Sb F. assert (R4 : 4 * BW <= p < 2 ^ 256) by (rewrite BW_pow; lia).
pose proof (wExpand_ok fuel P b p q key SP Sb (short_p p P ltac:(lia) SP) P4 R4 F) as W. destruct key as [|k0 xs]; [exact W|].
specialize (W (sq (be_Z xs ^ 3 + q)) (HS _) (HR _)). exact W.
Qed.

Lemma C101_expand_l : forall fuel P b key, stands P secp_p -> stands b secp_b -> (512 <= fuel)%nat ->
  match ExpandPublicKey key with
  | Panic => wExpand fuel P b key = Panic
  | Ret (X, Y) => exists x y, wExpand fuel P b key = Ret (x, y) /\ stands x X /\ stands y Y
  end.
Proof.
intros fuel P b key SP Sb F.
refine (expand_gen secp_p secp_b ModSqrt fuel P b key BigModSqrt_ModSqrt (fun a y E => proj1 (ModSqrt_sound a y E)) _ _ SP Sb F); [vm_compute; reflexivity|split; [vm_compute; discriminate|vm_compute; reflexivity]].
Qed.

Lemma C101_expand_sat_l : stands (setBytes (Z_be 32 secp_p)) secp_p /\ stands [7] secp_b /\
  (exists x y, wExpand 512 (setBytes (Z_be 32 secp_p)) [7] [x02; x01] = Ret (x, y) /\ stands x 1 /\ stands y 29896722852569046015560700294576055776214335159245303116488692907525646231534) /\
  wExpand 512 (setBytes (Z_be 32 secp_p)) [7] [x03; x05] = Ret ([5], setBytes (Z_be 32 secp_p)) /\ wExpand 512 (setBytes (Z_be 32 secp_p)) [7] [] = Panic.
Proof.
split; [pose proof (setBytes_ok (Z_be 32 secp_p)) as S; assert (E : be_Z (Z_be 32 secp_p) = secp_p) by (vm_compute; reflexivity); rewrite E in S; exact S|]. split; [split; [repeat constructor; lia|split; [cbn; lia|reflexivity]]|]. split; [|split; vm_compute; reflexivity].
pose proof (setBytes_ok (Z_be 32 secp_p)) as S; assert (E : be_Z (Z_be 32 secp_p) = secp_p) by (vm_compute; reflexivity); rewrite E in S.
assert (T : stands [7] secp_b) by (split; [repeat constructor; lia|split; [cbn; lia|reflexivity]]).
pose proof (C101_expand_l 512 _ [7] [x02; x01] S T ltac:(lia)) as W. assert (Q : ExpandPublicKey [x02; x01] = Ret (1, 29896722852569046015560700294576055776214335159245303116488692907525646231534)) by (vm_compute; reflexivity). rewrite Q in W. exact W.
Qed.

Lemma C101_compress_l : forall x y a b, stands x a -> stands y b -> wCompress x y = compressPublicKey (a, b).
Proof.
exact wCompress_ok.
Qed.

Lemma C101_private_l : forall N k1 k2, stands N secp_n -> wAddPrivateKeys N k1 k2 = Ret (addPrivateKeys k1 k2).
Proof.
intros N k1 k2 S. assert (R : 0 < secp_n < 2 ^ 256) by (split; vm_compute; reflexivity). apply (wAddPrivateKeys_ok N secp_n k1 k2 S (proj1 R)). apply (short_p secp_n); [|exact S]. clear - R. revert R. generalize secp_n. intros; lia.
Qed.

Lemma C101_private_sat_l : stands (setBytes (Z_be 32 secp_n)) secp_n /\ wAddPrivateKeys (setBytes (Z_be 32 secp_n)) (Z_be 32 (secp_n - 1)) [x03] = Ret (Z_be 32 2).
Proof.
split; [pose proof (setBytes_ok (Z_be 32 secp_n)) as S; assert (E : be_Z (Z_be 32 secp_n) = secp_n) by (vm_compute; reflexivity); rewrite E in S; exact S|vm_compute; reflexivity].
Qed.

Lemma C101_mnemonic_l : forall H st, (forall e, wNewMnemonic H st e = NewMnemonic H st e) /\ (forall ws, wEntropyOfWords H st ws = Ret (entropyOfWords H st ws)) /\ (forall d, wAddChecksum H d = Ret (addChecksum H d)).
Proof.
intros H st. split; [exact (wNewMnemonic_ok H st)|]. split; [exact (wEntropyOfWords_ok H st)|exact (wAddChecksum_ok H)].
Qed.

Lemma C101_base58_l : forall b, wEncode58 b = Ret (Encode58 b) /\ wDecode58 b = Ret (Decode58 b).
Proof.
intros b. split; [apply wEncode58_ok|apply wDecode58_ok].
Qed.

Lemma C101_base58_sat_l : wEncode58 [x00; x01; xff] = Ret (B "19p") /\ wDecode58 (B "19p") = Ret [x00; x01; xff] /\ wDecode58 (B "10p") = Ret [].
Proof.
vm_compute. repeat split.
Qed.
