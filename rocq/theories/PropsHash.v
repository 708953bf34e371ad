(** PropsHash.v - the hash functions: Go objects and standards (C85, C86).
    Every theorem is closed by the lemma of the same name in ClaimsHash.v; an Example beside it shows that its
    hypotheses can be met. *)
From Verif Require Import Base Prims Secp Bip32 Bip39 Hash HashFacts GoHash GoHashFacts SpecHash SpecPrims SpecSha2Facts SpecRmdFacts SpecKeccakFacts HashStdFacts ClaimsHash.

(** sha256.Sum256, sha512.New, ripemd160.New and sha3.NewLegacyKeccak256 as the libraries write them (a buffer of one block, Write in pieces of any size, padding in Sum): no slice is out of range, checkSum never panics, and the digest depends only on the bytes written, not on how they were split. *)

Theorem C85_writes : forall ps, Z.of_nat (length (concat ps)) < 2 ^ 61 ->
dg_sum Sha256 0 (fold_left (dg_write Sha256) ps (dg_new Sha256)) = Ret (sha256 (concat ps)) /\
dg_sum Sha512 8 (fold_left (dg_write Sha512) ps (dg_new Sha512)) = Ret (sha512 (concat ps)) /\
dg_sum_le Ripemd160 (fold_left (dg_write Ripemd160) ps (dg_new Ripemd160)) = Ret (ripemd160 (concat ps)) /\
(exists d, sp_writes sp_new ps = Ret d /\ sp_sum d = keccak256 (concat ps)).
Proof. exact C85_writes_l. Qed.
Print Assumptions C85_writes.

Example C85_writes_ex : Z.of_nat (length (concat [B "a"; []; B "bc"])) < 2 ^ 61 /\ concat [B "a"; []; B "bc"] = B "abc" /\
firstn 4 (sha256 (B "abc")) = [xba; x78; x16; xbf] /\ firstn 4 (sha512 (B "abc")) = [xdd; xaf; x35; xa1] /\
firstn 4 (ripemd160 (B "abc")) = [x8e; xb2; x08; xf7] /\ firstn 4 (keccak256 (B "abc")) = [x4e; x03; x65; x7a].
Proof. exact C85_writes_ex_l. Qed.

(** An hmac object (hmac.New(sha512.New, key)) under any sequence of Write, Reset and Sum(in): every Sum is the bytes handed in followed by the code of everything written since the last Reset; the states saved by the first Reset are those of the pads. *)

Theorem C85_hmac : forall key ops, Z.of_nat (length key) < 2 ^ 61 -> Z.of_nat (length (written ops)) < 2 ^ 61 - 128 ->
exists h rs, hmac_New key = Ret h /\ hmac_run h ops = Ret rs /\ mac_says (HMAC sha512 128 key) [] ops rs.
Proof. exact C85_hmac_l. Qed.
Print Assumptions C85_hmac.

Example C85_hmac_ex : exists (key : bytes) ops, Z.of_nat (length key) < 2 ^ 61 /\ Z.of_nat (length (written ops)) < 2 ^ 61 - 128 /\
ops = [HWrite (B "a"); HSum []; HWrite (B "b"); HSum (B "x"); HReset; HWrite (B "a"); HSum []].
Proof. exact C85_hmac_ex_l. Qed.

(** pbkdf2.Key written out (one hmac object, Reset before every use, the blocks appended to dk and cut at keyLen) is PBKDF2 of RFC 8018 for every count and key length. *)

Theorem C85_pbkdf2 : forall pw salt iter keyLen, Z.of_nat (length pw) < 2 ^ 61 -> Z.of_nat (length salt) < 2 ^ 61 - 132 ->
pbkdf2_Key pw salt iter keyLen = Ret (PBKDF2 (HMAC sha512 128) 64 pw salt iter keyLen).
Proof. exact C85_pbkdf2_l. Qed.
Print Assumptions C85_pbkdf2.

Example C85_pbkdf2_ex : Z.of_nat (length (B "password")) < 2 ^ 61 /\ Z.of_nat (length (B "salt")) < 2 ^ 61 - 132 /\
(exists r, pbkdf2_Key (B "password") (B "salt") 2 70 = Ret r /\ length r = 70%nat /\ firstn 4 r = [xe1; xd9; xc1; x6a]).
Proof. exact C85_pbkdf2_ex_l. Qed.

(** The calls of /repo, made on these objects, return what the record RealPrims says. *)

Theorem C85_calls : (forall x, Z.of_nat (length x) < 2 ^ 61 -> dg_sum Sha256 0 (dg_write Sha256 (dg_new Sha256) x) = Ret (p_sha256 RealPrims x)) /\
(forall x, Z.of_nat (length x) < 2 ^ 61 -> dg_sum_le Ripemd160 (dg_write Ripemd160 (dg_new Ripemd160) x) = Ret (p_ripemd160 RealPrims x)) /\
(forall x, exists d, sp_writes sp_new [x] = Ret d /\ sp_sum d = p_keccak256 RealPrims x) /\
(forall k x, Z.of_nat (length k) < 2 ^ 61 -> Z.of_nat (length x) < 2 ^ 61 - 128 ->
  exists h h', hmac_New k = Ret h /\ hmac_Sum (hmac_Write h x) [] = Ret (h', p_hmac512 RealPrims k x)) /\
(forall pw salt, Z.of_nat (length pw) < 2 ^ 61 -> Z.of_nat (length salt) < 2 ^ 61 - 132 ->
  pbkdf2_Key pw salt 2048 64 = Ret (p_pbkdf2 RealPrims pw salt)).
Proof. exact C85_calls_l. Qed.
Print Assumptions C85_calls.

Example C85_calls_ex : Z.of_nat (length (B "Bitcoin seed")) < 2 ^ 61 /\ p_hmac512 RealPrims = hmac512.
Proof. exact C85_calls_ex_l. Qed.

(** sha256 of the model is SHA-256 of FIPS 180-4, its constants being the first bits of the fractional parts of the cube and square roots of the first primes; likewise SHA-512. *)

Theorem C86_sha2 : (forall K IV m dg, sha2_constants FIPS256 K IV -> (sha2_digest FIPS256 K IV m dg <-> dg = sha256 m)) /\
(forall K IV m dg, sha2_constants FIPS512 K IV -> (sha2_digest FIPS512 K IV m dg <-> dg = sha512 m)).
Proof. exact C86_sha2_l. Qed.
Print Assumptions C86_sha2.

Example C86_sha2_ex : (exists K IV, sha2_constants FIPS256 K IV /\ K O = 0x428a2f98 /\ IV O = 0x6a09e667) /\
(exists K IV, sha2_constants FIPS512 K IV /\ K O = 0x428a2f98d728ae22 /\ IV O = 0x6a09e667f3bcc908).
Proof. exact C86_sha2_ex_l. Qed.

(** HMAC-SHA512 of RFC 2104 and PBKDF2 of RFC 8018. *)

Theorem C86_hmac : (forall k m, hmac512 k m = HMAC sha512 128 k m) /\
(forall pw salt, pbkdf2 pw salt = PBKDF2 (HMAC sha512 128) 64 pw salt 2048 64).
Proof. exact C86_hmac_l. Qed.
Print Assumptions C86_hmac.

Example C86_hmac_ex : firstn 4 (HMAC sha512 128 (B "Jefe") (B "what do ya want for nothing?")) = [x16; x4b; x7a; x7b].
Proof. exact C86_hmac_ex_l. Qed.

(** ripemd160 of the model is RIPEMD-160 as its authors define it, and keccak256 the sponge over Keccak-f[1600] with rate 1088 and the padding bits 1 0* 1. *)

Theorem C86_rmd_keccak : (forall K K' m dg, rmd_constants K K' -> (rmd_digest K K' m dg <-> dg = ripemd160 m)) /\
(forall off m dg, rho_offsets off -> (keccak_digest off m dg <-> dg = keccak256 m)).
Proof. exact C86_rmd_keccak_l. Qed.
Print Assumptions C86_rmd_keccak.

Example C86_rmd_keccak_ex : (exists K K', rmd_constants K K' /\ K 16%nat = 0x5a827999 /\ K' O = 0x50a28be6) /\
(exists off, rho_offsets off /\ off 1%nat 2%nat = 10).
Proof. exact C86_rmd_keccak_ex_l. Qed.

(** The standards fix one record of hash functions, and it is the one the executable model uses; every theorem stated for all records of the right output lengths therefore holds for the wallet with the real hash functions. *)

Theorem C86_prims : standard_prims RealPrims /\
(forall H, standard_prims H ->
  prims_ok H /\
  (forall x, p_sha256 H x = p_sha256 RealPrims x) /\ (forall x, p_ripemd160 H x = p_ripemd160 RealPrims x) /\
  (forall x, p_keccak256 H x = p_keccak256 RealPrims x) /\ (forall k x, p_hmac512 H k x = p_hmac512 RealPrims k x) /\
  (forall pw salt, p_pbkdf2 H pw salt = p_pbkdf2 RealPrims pw salt)).
Proof. exact C86_prims_l. Qed.
Print Assumptions C86_prims.

Example C86_prims_ex : is_sha512 sha512.
Proof. exact C86_prims_ex_l. Qed.

(** What NewSeed and NewMasterKey compute, down to the standards. *)

Theorem C86_seed : forall H h, standard_prims H -> is_sha512 h ->
(forall m password, NewSeed H m password = PBKDF2 (HMAC h 128) 64 m (B "mnemonic" ++ password) 2048 64) /\
(forall seed, let I := HMAC h 128 (B "Bitcoin seed") seed in
  (1 <= be_Z (firstn 32 I) < secp_n ->
    NewMasterKey H seed = Ret (Some ([x04; x88; xad; xe4] ++ repeat x00 9 ++ skipn 32 I ++ [x00] ++ firstn 32 I), None)) /\
  (~ 1 <= be_Z (firstn 32 I) < secp_n -> exists e, NewMasterKey H seed = Ret (None, Some e))).
Proof. exact C86_seed_l. Qed.
Print Assumptions C86_seed.

Example C86_seed_ex : standard_prims RealPrims /\ is_sha512 sha512 /\ 1 <= be_Z (firstn 32 (HMAC sha512 128 (B "Bitcoin seed") (repeat x00 16))) < secp_n.
Proof. exact C86_seed_ex_l. Qed.
