(** Prims.v - the hash functions used by /repo, as a record of functions passed explicitly.
    crypto/sha256.Sum256 (bip39/bip39.go:294, bip32/utils.go:32, chainhash.DoubleHashB bip32/utils.go:42),
    golang.org/x/crypto/ripemd160 (bip32/utils.go:22), crypto/hmac with sha512
    (bip32/bip32.go:81,190), golang.org/x/crypto/sha3 NewLegacyKeccak256 (util/key_path.go:40),
    golang.org/x/crypto/pbkdf2 with 2048 rounds, 64 bytes, sha512 (bip39/bip39.go:254).
    The theorems quantify over every such record satisfying [prims_ok], i.e. they use nothing about
    the functions except their output lengths. [RealPrims] in Hash.v is the standard instance. *)
From Verif Require Import Base.

(** bip39/bip39.go:254, 294 (pbkdf2, sha256), bip32/bip32.go:81, 190 (hmac), bip32/utils.go:22, 32, 42, util/key_path.go:23 *)
Record Prims := mkPrims {
  p_sha256 : bytes -> bytes;
  p_ripemd160 : bytes -> bytes;
  p_hmac512 : bytes -> bytes -> bytes;   (* key, message *)
  p_keccak256 : bytes -> bytes;
  p_pbkdf2 : bytes -> bytes -> bytes }.  (* password, salt *)

(** sizes of the results used at bip32/bip32.go:81-95, bip32/utils.go:22-42, util/key_path.go:23-25 *)
Definition prims_ok (H : Prims) : Prop :=
  (forall x, length (p_sha256 H x) = 32%nat) /\
  (forall x, length (p_ripemd160 H x) = 20%nat) /\
  (forall k x, length (p_hmac512 H k x) = 64%nat) /\
  (forall x, length (p_keccak256 H x) = 32%nat) /\
  (forall p s, length (p_pbkdf2 H p s) = 64%nat).
