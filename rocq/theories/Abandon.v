(** Abandon.v - the sentence of the all-zero 128-bit entropy (bip39/bip39_test.go:265) in three spacings. *)
From Verif Require Import Base GoStr.

(** Sixteen zero bytes; twelve words. For bip39/bip39_test.go:265. *)
Definition abandon_words : list bytes := repeat (B "abandon") 11 ++ [B "about"].
(** For bip39/bip39_test.go:265. *)
Definition abandon_spaces : bytes := Join [x20] abandon_words.
(** For bip39/bip39_test.go:265. *)
Definition abandon_tabs : bytes := Join [x09] abandon_words.
(** For bip39/bip39_test.go:265. *)
Definition abandon_two_spaces : bytes := Join [x20; x20] abandon_words.
(** For bip39/bip39_test.go:265. *)
Definition zero16 : bytes := repeat x00 16.
