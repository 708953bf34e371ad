(** PropsCodec.v - base58, hexadecimal and CRC-32 of the libraries (C87, C88).
    Every theorem is closed by the lemma of the same name in ClaimsCodec.v; an Example beside it shows that its
    hypotheses can be met. *)
From Verif Require Import Base Bip32 Bip39 Hash GoStr Base58 WordLists Bip39InitFacts GoCodec GoCodecFacts GoCrcFacts SpecCodec SpecCodecFacts CrcErrFacts ClaimsCodec.

(** base58.Encode and base58.Decode as btcutil writes them (big-integer division into a byte slice, the zero bytes, the exchange of ends; the table of 256 entries, the copy behind the zeros): no index is out of range, and the results are those of the model. *)

Theorem C87_base58 : forall b, GoEncode58 b = Ret (Encode58 b) /\ GoDecode58 b = Ret (Decode58 b).
Proof. exact C87_base58_l. Qed.
Print Assumptions C87_base58.

Example C87_base58_ex : GoEncode58 [x00; x01; xff] = Ret (B "19p") /\ GoDecode58 (B "19p") = Ret [x00; x01; xff] /\ GoDecode58 (B "10p") = Ret [].
Proof. exact C87_base58_ex_l. Qed.

(** hex.EncodeToString and hex.DecodeString as encoding/hex writes them, decoding in place: no index is out of range, decoding returns exactly the bytes and the error that the text determines, and no more than that is used by /repo. *)

Theorem C87_hex : (forall s, GoHexEncode s = Ret (HexEncode s)) /\
(forall s b e, GoHexDecode s = Ret (b, e) <-> hex_reads s b e) /\
(forall s, exists b e, GoHexDecode s = Ret (b, e) /\ HexDecode s = match e with None => Some b | Some _ => None end).
Proof. exact C87_hex_l. Qed.
Print Assumptions C87_hex.

Example C87_hex_ex : GoHexEncode [x0a; xff] = Ret (B "0aff") /\ GoHexDecode (B "0aFf") = Ret ([x0a; xff], None) /\
GoHexDecode (B "0aFg") = Ret ([x0a], Some (InvalidByteError x67)) /\ GoHexDecode (B "0aF") = Ret ([x0a], Some HexErrLength) /\
GoHexDecode (B "0ag") = Ret ([x0a], Some (InvalidByteError x67)).
Proof. exact C87_hex_ex_l. Qed.

(** crc32.ChecksumIEEE as hash/crc32 writes it (eight tables, eight bytes at a time from 16 bytes on, the rest one at a time). *)

Theorem C87_crc : forall p, GoChecksumIEEE p = Ret (crc32 p).
Proof. exact C87_crc_l. Qed.
Print Assumptions C87_crc.

Example C87_crc_ex : crc32 (B "123456789") = 0xcbf43926 /\ (16 <= length (B "The quick brown fox jumps over the lazy dog"))%nat /\
GoChecksumIEEE (B "The quick brown fox jumps over the lazy dog") = Ret 0x414fa339.
Proof. exact C87_crc_ex_l. Qed.

(** The checksum is the one of IEEE 802.3, the complemented remainder of a polynomial over GF(2); the init functions of the word lists accept a text exactly when that checksum, in hexadecimal, is the literal. *)

Theorem C88_polynomial : (forall m c, crc_of m c <-> c = crc32 m) /\
(forall m c, GoChecksumIEEE m = Ret c <-> crc_of m c) /\
(forall text lit, wl_init text lit = Ret tt <-> exists c, crc_of text c /\ Sprintf_x c = lit).
Proof. exact C88_polynomial_l. Qed.
Print Assumptions C88_polynomial.

Example C88_polynomial_ex : G = 0x104c11db7 /\ message_poly (B "ab") = 0x8646 /\ crc_of (B "123456789") 0xcbf43926 /\ wl_init (B "123456789") (B "cbf43926") = Ret tt.
Proof. exact C88_polynomial_ex_l. Qed.

(** A text that init accepts, changed in up to 32 consecutive bits at any bit, or in any two bits less than 2^32 - 1 apart, makes init panic. *)

Theorem C88_noticed : (forall t t' j, length t = length t' -> t <> t' -> 0 <= j -> (forall i, 0 <= i < j \/ j + 32 <= i -> bit_of t i = bit_of t' i) ->
  crc32 t <> crc32 t' /\ forall lit, wl_init t lit = Ret tt -> wl_init t' lit = Panic) /\
(forall t t' i j, length t = length t' -> 0 <= i < j -> j - i < 2 ^ 32 - 1 ->
  (forall k, 0 <= k -> (bit_of t k <> bit_of t' k <-> k = i \/ k = j)) ->
  crc32 t <> crc32 t' /\ forall lit, wl_init t lit = Ret tt -> wl_init t' lit = Panic).
Proof. exact C88_noticed_l. Qed.
Print Assumptions C88_noticed.

Example C88_noticed_ex : (let t := B "abandon" in let t' := B "abcndon" in length t = length t' /\ t <> t' /\ forall i, 0 <= i < 17 \/ 17 + 32 <= i -> bit_of t i = bit_of t' i) /\
(let t := B "abandon" in let t' := B "acandoo" in length t = length t' /\ forall k, 0 <= k -> (bit_of t k <> bit_of t' k <-> k = 8 \/ k = 48)).
Proof. exact C88_noticed_ex_l. Qed.
