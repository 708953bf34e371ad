(** SpecCodec.v - the texts hexadecimal decoding reads, and CRC-32 as IEEE 802.3 defines it: remainder of polynomials over GF(2). A number stands for the polynomial
    whose coefficients are its binary digits. Nothing here uses the model. *)
From Verif Require Import Base.

(** x^32 + x^26 + x^23 + x^22 + x^16 + x^12 + x^11 + x^10 + x^8 + x^7 + x^5 + x^4 + x^2 + x + 1, for
    bip39/wordlists/english.go:14 (others alike). *)
Definition G : Z := fold_left (fun a k => Z.lxor a (2 ^ k)) [32; 26; 23; 22; 16; 12; 11; 10; 8; 7; 5; 4; 2; 1; 0] 0.
(** The multiples of [g]: sums of products x^k g. Addition of polynomials is exclusive or. For
    bip39/wordlists/english.go:14 (others alike). *)
Inductive multiple (g : Z) : Z -> Prop :=
| multiple_0 : multiple g 0
| multiple_add v k : multiple g v -> 0 <= k -> multiple g (Z.lxor v (g * 2 ^ k)).
(** The polynomial of a message: its bits in the order of transmission, bytes from the first, each from its lowest bit; the
    first one has the highest degree. For bip39/wordlists/english.go:14 (others alike). *)
Definition message_poly (m : bytes) : Z :=
  fold_left (fun a b => 2 * a + Z.b2z b) (flat_map (fun c => map (Z.testbit (Zb c)) [0; 1; 2; 3; 4; 5; 6; 7]) m) 0.
(** The check value: the first 32 bits of the message (followed by 32 zeros) are complemented, the whole divided by [G], and
    the remainder complemented; its coefficient of x^31 is transmitted first, so it is the lowest bit. For
    bip39/wordlists/english.go:14 (others alike). *)
Definition crc_of (m : bytes) (c : Z) : Prop :=
  exists R, 0 <= R < 2 ^ 32 /\
    multiple G (Z.lxor (Z.lxor (message_poly m * 2 ^ 32) ((2 ^ 32 - 1) * 2 ^ (8 * Z.of_nat (length m)))) R) /\
    0 <= c < 2 ^ 32 /\ forall i, 0 <= i < 32 -> Z.testbit c i = negb (Z.testbit R (31 - i)).
(** Bit [i] of a message in the order of transmission, for bip39/wordlists/english.go:14 (others alike). *)
Definition bit_of (m : bytes) (i : Z) : bool := Z.testbit (Zb (nth (Z.to_nat (i / 8)) m x00)) (i mod 8).

(** ** Hexadecimal *)
(** A digit and its value, for util/util.go:58, util/key_path.go:17, 29. *)
Definition hex_digit (c : byte) (d : Z) : Prop :=
  (48 <= Zb c <= 57 /\ d = Zb c - 48) \/ (97 <= Zb c <= 102 /\ d = Zb c - 87) \/ (65 <= Zb c <= 70 /\ d = Zb c - 55).
(** The errors of hex.DecodeString, for util/util.go:58, util/key_path.go:17, 29. *)
Inductive hex_err : Set := InvalidByteError (b : byte) | HexErrLength.
(** What a text gives: the bytes of the pairs of digits before the first that is none, and the error, if any. For
    util/util.go:58, util/key_path.go:17, 29. *)
Inductive hex_reads : bytes -> bytes -> option hex_err -> Prop :=
| reads_end : hex_reads [] [] None
| reads_pair p q a b r bs e : hex_digit p a -> hex_digit q b -> hex_reads r bs e -> hex_reads (p :: q :: r) (bZ (16 * a + b) :: bs) e
| reads_first p r : (forall a, ~ hex_digit p a) -> hex_reads (p :: r) [] (Some (InvalidByteError p))
| reads_second p q a r : hex_digit p a -> (forall b, ~ hex_digit q b) -> hex_reads (p :: q :: r) [] (Some (InvalidByteError q))
| reads_odd p a : hex_digit p a -> hex_reads [p] [] (Some HexErrLength).
