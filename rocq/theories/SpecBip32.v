(** SpecBip32.v - specification: BIP-32 (bitcoin/bips bip-0032.mediawiki) and the version pairs of SLIP-132,
    written from the documents, independent of the model. *)
From Verif Require Import Base Prims Secp Fp ECGroup SpecEC.

(** "Conventions": ser32, ser256, parse256, serP. For bip32/utils.go:54-88, 143-148. *)
Definition ser32 (i : Z) : bytes := Z_be 4 i.
(** For bip32/utils.go:54-88, 143-148. *)
Definition ser256 (k : Z) : bytes := Z_be 32 k.
(** For bip32/utils.go:54-88, 143-148. *)
Definition parse256 (b : bytes) : Z := be_Z b.
(** For bip32/utils.go:90-104. *)
Definition serPb (P : point) : bytes := match serP P with Some b => b | None => [] end.
(** For bip32/bip32.go:108-112, 174-196. *)
Definition HARD : Z := 2 ^ 31.

(** "Serialization format": version, depth, parent fingerprint, child number, chain code, key data.
    For bip32/bip32.go:246-263, 315-380. *)
Definition xkey (v : bytes) (d : byte) (f n c data : bytes) : bytes := v ++ [d] ++ f ++ n ++ c ++ data.
(** For bip32/bip32.go:246-263, 315-380. *)
Definition xprv v d f n c (k : Z) : bytes := xkey v d f n c (x00 :: ser256 k).
(** For bip32/bip32.go:246-263, 315-380. *)
Definition xpub v d f n c (K : point) : bytes := xkey v d f n c (serPb K).
(** Field lengths. For bip32/bip32.go:246-263, 315-380. *)
Definition fields_ok (v f n c : bytes) : Prop :=
  length v = 4%nat /\ length f = 4%nat /\ length n = 4%nat /\ length c = 32%nat.
(** For bip32/utils.go:54-60. *)
Definition scalar_ok (k : Z) : Prop := 1 <= k < secp_n.

(** "Key identifiers": the first 32 bits of HASH160 of the serialised public key.
    For bip32/utils.go:21-38, bip32/bip32.go:125-165. *)
Definition hash160 (H : Prims) (b : bytes) : bytes := p_ripemd160 H (p_sha256 H b).
(** For bip32/utils.go:21-38, bip32/bip32.go:125-165. *)
Definition fingerprint (H : Prims) (K : point) : bytes := firstn 4 (hash160 H (serPb K)).

(** "Private parent key -> private child key". For bip32/bip32.go:174-196. *)
Definition I_priv (H : Prims) (k : Z) (c : bytes) (i : Z) : bytes :=
  p_hmac512 H c ((if HARD <=? i then x00 :: ser256 k else serPb (kG k)) ++ ser32 i).
(** For bip32/bip32.go:88-95, 113-165. *)
Definition IL (I : bytes) : Z := parse256 (firstn 32 I).
(** For bip32/bip32.go:88-95, 113-165. *)
Definition IR (I : bytes) : bytes := skipn 32 I.
(** For bip32/bip32.go:108-171. *)
Definition CKDpriv (H : Prims) (k : Z) (c : bytes) (i : Z) : option (Z * bytes) :=
  let I := I_priv H k c i in
  let ki := (IL I + k) mod secp_n in
  if (secp_n <=? IL I) || (ki =? 0) then None else Some (ki, IR I).
(** "Public parent key -> public child key" (non-hardened only). For bip32/bip32.go:174-196. *)
Definition I_pub (H : Prims) (K : point) (c : bytes) (i : Z) : bytes := p_hmac512 H c (serPb K ++ ser32 i).
(** For bip32/bip32.go:108-171. *)
Definition CKDpub (H : Prims) (K : point) (c : bytes) (i : Z) : option (point * bytes) :=
  if HARD <=? i then None
  else
    let I := I_pub H K c i in
    if secp_n <=? IL I then None
    else match cadd (kG (IL I)) K with
         | Inf _ => None
         | Aff _ x y => Some (PAff x y, IR I)
         end.
(** "Master key generation". For bip32/bip32.go:79-100. *)
Definition I_master (H : Prims) (seed : bytes) : bytes := p_hmac512 H (B "Bitcoin seed") seed.
(** For bip32/bip32.go:79-100. *)
Definition master (H : Prims) (seed : bytes) : option (Z * bytes) :=
  let I := I_master H seed in
  if (IL I =? 0) || (secp_n <=? IL I) then None else Some (IL I, IR I).

(** SLIP-132: private and public version numbers belonging together. For bip32/reg_ver_bytes.go:426-440. *)
Definition slip132 : list (Z * Z) :=
  [ (0x0488ade4, 0x0488b21e); (0x049d7878, 0x049d7cb2); (0x04b2430c, 0x04b24746);
    (0x0295b005, 0x0295b43f); (0x02aa7a99, 0x02aa7ed3); (0x04358394, 0x043587cf);
    (0x044a4e28, 0x044a5262); (0x045f18bc, 0x045f1cf6); (0x024285b5, 0x024289ef);
    (0x02575048, 0x02575483); (0x019d9cfe, 0x019da462); (0x01b26792, 0x01b26ef6);
    (0x0436ef7d, 0x0436f6e1); (0x426c6b73, 0x42696720); (0x03e25945, 0x03e25d7e) ].
(** For bip32/reg_ver_bytes.go:426-440. *)
Definition pvt_registered (v : bytes) : Prop := exists q, In (be_Z v, q) slip132.
(** For bip32/reg_ver_bytes.go:426-440. *)
Definition pub_registered (v : bytes) : Prop := exists p, In (p, be_Z v) slip132.
(** For bip32/reg_ver_bytes.go:426-440. *)
Definition paired (v w : bytes) : Prop := In (be_Z v, be_Z w) slip132.

(** "Serialization format", last paragraph, and "invalid extended keys" of the BIP-32 test vectors: a valid extended
    key has a registered version matching its kind of key data, key data that is a usable key, and a zero parent
    fingerprint and child number at depth 0. For bip32/bip32.go:280-312. *)
Definition valid_xkey (k : bytes) : Prop :=
  exists v d f n c, fields_ok v f n c /\
    (d = x00 -> f = repeat x00 4 /\ n = repeat x00 4) /\
    ((pvt_registered v /\ exists s, scalar_ok s /\ k = xprv v d f n c s) \/
     (pub_registered v /\ exists P, oncurve P /\ P <> PInf /\ k = xpub v d f n c P)).
