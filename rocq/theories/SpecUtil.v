(** SpecUtil.v - specification for the util package: hexadecimal text, paths written from their values, addresses.
    Independent of the model. *)
From Verif Require Import Base Prims Secp Fp ECGroup SpecEC SpecBip32.

(** [hexes s b]: s writes the bytes b with two hexadecimal digits each, in either case. For util/util.go:56-60. *)
Definition hexdig (c : byte) (n : Z) : Prop :=
  0 <= n /\ (nth_error (B "0123456789abcdef") (Z.to_nat n) = Some c \/ nth_error (B "0123456789ABCDEF") (Z.to_nat n) = Some c).
(** For util/util.go:56-60. *)
Inductive hexes : bytes -> bytes -> Prop :=
| hexes_nil : hexes [] []
| hexes_cons c d h l s x b : hexdig c h -> hexdig d l -> Zb x = 16 * h + l -> hexes s b -> hexes (c :: d :: s) (x :: b).

(** A depth-0 private key, as a wallet root: 78 bytes, not all zero, depth byte 0, key data starting with 0.
    For util/util.go:83-95. *)
Definition root_key (k : bytes) : Prop :=
  length k = 78%nat /\ (exists x, In x k /\ x <> x00) /\ nth 45 k x00 = x00 /\ nth 4 k x00 = x00.

(** Indices from 2^31 on are hardened. In a path they are written primed and come before the others.
    For util/util.go:91-124. *)
Definition hardened_first (vs : list Z) : Prop :=
  exists hs ss, vs = hs ++ ss /\ Forall (fun v => 2 ^ 31 <= v) hs /\ Forall (fun v => v < 2 ^ 31) ss.

(** Ethereum (yellow paper, appendix F): the last 20 bytes of Keccak-256 of the 64-byte public key x || y.
    For util/key_path.go:16-26. *)
Definition eth_address (H : Prims) (x y : Z) : bytes := skipn 12 (p_keccak256 H (Z_be 32 x ++ Z_be 32 y)).
(** The shortest big-endian form of a number. For util/key_path.go:16-26. *)
Definition minimal (b : bytes) (z : Z) : Prop := be_Z b = z /\ match b with [] => True | x :: _ => x <> x00 end.

(** Base58Check payload of an address: version byte, 20-byte hash, 4 checksum bytes. For bip32/utils.go:41-51. *)
Definition with_check (H : Prims) (b : bytes) : bytes := b ++ firstn 4 (p_sha256 H (p_sha256 H b)).
(** Pay to public key hash; pay to script hash (BIP-16) of the P2WPKH redeem script 0 <hash160> (BIP-49).
    For util/key_path.go:28-43. *)
Definition p2pkh_payload (H : Prims) (ver : byte) (pub : bytes) : bytes := with_check H (ver :: hash160 H pub).
(** For util/key_path.go:28-43. *)
Definition p2sh_payload (H : Prims) (ver : byte) (script : bytes) : bytes := with_check H (ver :: hash160 H script).
(** For util/key_path.go:28-43. *)
Definition p2wpkh_script (H : Prims) (pub : bytes) : bytes := x00 :: x14 :: hash160 H pub.
