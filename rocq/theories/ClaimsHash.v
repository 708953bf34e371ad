(** ClaimsHash.v - the property statements of PropsHash.v with their proofs. *)
From Verif Require Import Base Prims Secp Bip32 Bip39 Hash HashFacts GoHash GoHashFacts SpecHash SpecPrims SpecSha2Facts SpecRmdFacts SpecKeccakFacts HashStdFacts.
From Coq Require Import ZifyBool ZifyNat ZifyN.

Lemma C85_writes_l : forall ps, Z.of_nat (length (concat ps)) < 2 ^ 61 ->
dg_sum Sha256 0 (fold_left (dg_write Sha256) ps (dg_new Sha256)) = Ret (sha256 (concat ps)) /\
dg_sum Sha512 8 (fold_left (dg_write Sha512) ps (dg_new Sha512)) = Ret (sha512 (concat ps)) /\
dg_sum_le Ripemd160 (fold_left (dg_write Ripemd160) ps (dg_new Ripemd160)) = Ret (ripemd160 (concat ps)) /\
(exists d, sp_writes sp_new ps = Ret d /\ sp_sum d = keccak256 (concat ps)).
Proof.
intros ps H. exact (conj (sha256_writes ps H) (conj (sha512_writes ps H) (conj (ripemd160_writes ps H) (keccak256_writes ps)))).
Qed.

Lemma C85_writes_ex_l : Z.of_nat (length (concat [B "a"; []; B "bc"])) < 2 ^ 61 /\ concat [B "a"; []; B "bc"] = B "abc" /\
firstn 4 (sha256 (B "abc")) = [xba; x78; x16; xbf] /\ firstn 4 (sha512 (B "abc")) = [xdd; xaf; x35; xa1] /\
firstn 4 (ripemd160 (B "abc")) = [x8e; xb2; x08; xf7] /\ firstn 4 (keccak256 (B "abc")) = [x4e; x03; x65; x7a].
Proof.
vm_compute. repeat split.
Qed.

Lemma C85_hmac_l : forall key ops, Z.of_nat (length key) < 2 ^ 61 -> Z.of_nat (length (written ops)) < 2 ^ 61 - 128 ->
exists h rs, hmac_New key = Ret h /\ hmac_run h ops = Ret rs /\ mac_says (HMAC sha512 128 key) [] ops rs.
Proof.
intros key ops Hk Ho. destruct (hmac_New_ok key Hk) as (h & E & Hh).
destruct (hmac_run_ok key ops [] h) as (rs & Er & S); [cbn [length Nat.add]; exact Ho|exact Hh|].
exists h, rs. split; [exact E|]. split; [exact Er|]. clear - S.
induction S; try (constructor; assumption). rewrite hmac512_HMAC. constructor. assumption.
Qed.

Lemma C85_hmac_ex_l : exists (key : bytes) ops, Z.of_nat (length key) < 2 ^ 61 /\ Z.of_nat (length (written ops)) < 2 ^ 61 - 128 /\
ops = [HWrite (B "a"); HSum []; HWrite (B "b"); HSum (B "x"); HReset; HWrite (B "a"); HSum []].
Proof.
exists (B "Bitcoin seed"). eexists. split; [reflexivity|]. split; [|reflexivity]. reflexivity.
Qed.

Lemma C85_pbkdf2_l : forall pw salt iter keyLen, Z.of_nat (length pw) < 2 ^ 61 -> Z.of_nat (length salt) < 2 ^ 61 - 132 ->
pbkdf2_Key pw salt iter keyLen = Ret (PBKDF2 (HMAC sha512 128) 64 pw salt iter keyLen).
Proof.
intros pw salt iter keyLen Hp Hs. rewrite (pbkdf2_Key_eq pw salt iter keyLen Hp Hs). f_equal.
apply PBKDF2_ext. exact hmac512_HMAC.
Qed.

Lemma C85_pbkdf2_ex_l : Z.of_nat (length (B "password")) < 2 ^ 61 /\ Z.of_nat (length (B "salt")) < 2 ^ 61 - 132 /\
(exists r, pbkdf2_Key (B "password") (B "salt") 2 70 = Ret r /\ length r = 70%nat /\ firstn 4 r = [xe1; xd9; xc1; x6a]).
Proof.
split; [reflexivity|]. split; [reflexivity|].
rewrite pbkdf2_Key_eq by reflexivity. eexists. split; [reflexivity|]. vm_compute. repeat split.
Qed.

Lemma C85_calls_l : (forall x, Z.of_nat (length x) < 2 ^ 61 -> dg_sum Sha256 0 (dg_write Sha256 (dg_new Sha256) x) = Ret (p_sha256 RealPrims x)) /\
(forall x, Z.of_nat (length x) < 2 ^ 61 -> dg_sum_le Ripemd160 (dg_write Ripemd160 (dg_new Ripemd160) x) = Ret (p_ripemd160 RealPrims x)) /\
(forall x, exists d, sp_writes sp_new [x] = Ret d /\ sp_sum d = p_keccak256 RealPrims x) /\
(forall k x, Z.of_nat (length k) < 2 ^ 61 -> Z.of_nat (length x) < 2 ^ 61 - 128 ->
  exists h h', hmac_New k = Ret h /\ hmac_Sum (hmac_Write h x) [] = Ret (h', p_hmac512 RealPrims k x)) /\
(forall pw salt, Z.of_nat (length pw) < 2 ^ 61 -> Z.of_nat (length salt) < 2 ^ 61 - 132 ->
  pbkdf2_Key pw salt 2048 64 = Ret (p_pbkdf2 RealPrims pw salt)).
Proof.
split; [|split; [|split; [|split]]].
- intros x Hx. pose proof (sha256_writes [x]) as E. cbn [concat fold_left] in E. rewrite app_nil_r in E. exact (E Hx).
- intros x Hx. pose proof (ripemd160_writes [x]) as E. cbn [concat fold_left] in E. rewrite app_nil_r in E. exact (E Hx).
- intros x. destruct (keccak256_writes [x]) as (d & E & F). cbn [concat] in F. rewrite app_nil_r in F. exists d. split; [exact E|exact F].
- intros k x Hk Hx. destruct (hmac_New_ok k Hk) as (h & E & Hh). exists h.
  pose proof (hmac_Write_ok k [] h x Hh) as Hw. destruct (hmac_Sum_ok k ([] ++ x) (hmac_Write h x) [] Hx Hw) as (h' & E' & _).
  exists h'. split; [exact E|exact E'].
- intros pw salt Hp Hs. rewrite (pbkdf2_Key_eq pw salt 2048 64 Hp Hs). f_equal. symmetry. apply pbkdf2_PBKDF2.
Qed.

Lemma C85_calls_ex_l : Z.of_nat (length (B "Bitcoin seed")) < 2 ^ 61 /\ p_hmac512 RealPrims = hmac512.
Proof.
split; reflexivity.
Qed.

Lemma C86_sha2_l : (forall K IV m dg, sha2_constants FIPS256 K IV -> (sha2_digest FIPS256 K IV m dg <-> dg = sha256 m)) /\
(forall K IV m dg, sha2_constants FIPS512 K IV -> (sha2_digest FIPS512 K IV m dg <-> dg = sha512 m)).
Proof.
exact (conj sha256_fips sha512_fips).
Qed.

Lemma C86_sha2_ex_l : (exists K IV, sha2_constants FIPS256 K IV /\ K O = 0x428a2f98 /\ IV O = 0x6a09e667) /\
(exists K IV, sha2_constants FIPS512 K IV /\ K O = 0x428a2f98d728ae22 /\ IV O = 0x6a09e667f3bcc908).
Proof.
split; eexists; eexists; [split; [exact constants256|split; reflexivity]|split; [exact constants512|split; reflexivity]].
Qed.

Lemma C86_hmac_l : (forall k m, hmac512 k m = HMAC sha512 128 k m) /\
(forall pw salt, pbkdf2 pw salt = PBKDF2 (HMAC sha512 128) 64 pw salt 2048 64).
Proof.
split; [exact hmac512_HMAC|]. intros pw salt. rewrite pbkdf2_PBKDF2. apply PBKDF2_ext. exact hmac512_HMAC.
Qed.

Lemma C86_hmac_ex_l : firstn 4 (HMAC sha512 128 (B "Jefe") (B "what do ya want for nothing?")) = [x16; x4b; x7a; x7b].
Proof.
vm_compute. reflexivity.
Qed.

Lemma C86_rmd_keccak_l : (forall K K' m dg, rmd_constants K K' -> (rmd_digest K K' m dg <-> dg = ripemd160 m)) /\
(forall off m dg, rho_offsets off -> (keccak_digest off m dg <-> dg = keccak256 m)).
Proof.
exact (conj (fun K K' m dg H => rmd_digest_iff K K' H m dg) keccak_digest_iff).
Qed.

Lemma C86_rmd_keccak_ex_l : (exists K K', rmd_constants K K' /\ K 16%nat = 0x5a827999 /\ K' O = 0x50a28be6) /\
(exists off, rho_offsets off /\ off 1%nat 2%nat = 10).
Proof.
split; [eexists; eexists; split; [exact rmd_constants_ok|split; reflexivity]|exists keccak_off; split; [exact keccak_off_ok|reflexivity]].
Qed.

Lemma C86_prims_l : standard_prims RealPrims /\
(forall H, standard_prims H ->
  prims_ok H /\
  (forall x, p_sha256 H x = p_sha256 RealPrims x) /\ (forall x, p_ripemd160 H x = p_ripemd160 RealPrims x) /\
  (forall x, p_keccak256 H x = p_keccak256 RealPrims x) /\ (forall k x, p_hmac512 H k x = p_hmac512 RealPrims k x) /\
  (forall pw salt, p_pbkdf2 H pw salt = p_pbkdf2 RealPrims pw salt)).
Proof.
exact (conj real_standard standard_unique).
Qed.

Lemma C86_prims_ex_l : is_sha512 sha512.
Proof.
exact sha512_is.
Qed.

Lemma C86_seed_l : forall H h, standard_prims H -> is_sha512 h ->
(forall m password, NewSeed H m password = PBKDF2 (HMAC h 128) 64 m (B "mnemonic" ++ password) 2048 64) /\
(forall seed, let I := HMAC h 128 (B "Bitcoin seed") seed in
  (1 <= be_Z (firstn 32 I) < secp_n ->
    NewMasterKey H seed = Ret (Some ([x04; x88; xad; xe4] ++ repeat x00 9 ++ skipn 32 I ++ [x00] ++ firstn 32 I), None)) /\
  (~ 1 <= be_Z (firstn 32 I) < secp_n -> exists e, NewMasterKey H seed = Ret (None, Some e))).
Proof.
exact seed_standard.
Qed.

Lemma C86_seed_ex_l : standard_prims RealPrims /\ is_sha512 sha512 /\ 1 <= be_Z (firstn 32 (HMAC sha512 128 (B "Bitcoin seed") (repeat x00 16))) < secp_n.
Proof.
split; [exact real_standard|]. split; [exact sha512_is|]. rewrite <- hmac512_HMAC. vm_compute. split; [discriminate|reflexivity].
Qed.
