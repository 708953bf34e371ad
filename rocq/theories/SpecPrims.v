(** SpecPrims.v - the hash functions of the standards as one record: bip39/bip39.go:254, 294,
    bip32/bip32.go:81, 190, bip32/utils.go:22, 32, util/key_path.go:23. *)
From Verif Require Import Base Prims SpecHash.

(** [h] is SHA-512: bip32/bip32.go:81, 190, bip39/bip39.go:254 *)
Definition is_sha512 (h : bytes -> bytes) : Prop :=
  forall K IV m, sha2_constants FIPS512 K IV -> sha2_digest FIPS512 K IV m (h m).
(** Every field is the function of its standard: bip39/bip39.go:254, 294, bip32/bip32.go:81, 190,
    bip32/utils.go:22, 32, util/key_path.go:23. *)
Definition standard_prims (H : Prims) : Prop :=
  (forall K IV m, sha2_constants FIPS256 K IV -> sha2_digest FIPS256 K IV m (p_sha256 H m)) /\
  (forall K K' m, rmd_constants K K' -> rmd_digest K K' m (p_ripemd160 H m)) /\
  (forall off m, rho_offsets off -> keccak_digest off m (p_keccak256 H m)) /\
  (forall h k m, is_sha512 h -> p_hmac512 H k m = HMAC h 128 k m) /\
  (forall h pw salt, is_sha512 h -> p_pbkdf2 H pw salt = PBKDF2 (HMAC h 128) 64 pw salt 2048 64).
