(** SpecBip39.v - specification of BIP-39 on bit strings, independent of the big-integer code. *)
From Verif Require Import Base GoStr Prims.

(** Bits of a byte / byte string, most significant first. For bip39/bip39.go:170-212, 267-297. *)
Definition bits_of_byte (b : byte) : list bool :=
  map (fun i => Z.testbit (Zb b) i) [7; 6; 5; 4; 3; 2; 1; 0].
(** For bip39/bip39.go:170-212, 267-297. *)
Definition bits_of (s : bytes) : list bool := flat_map bits_of_byte s.
(** For bip39/bip39.go:170-212, 267-297. *)
Definition bits_val (l : list bool) : Z := fold_left (fun a b => 2 * a + (if b : bool then 1 else 0)) l 0.

(** Entropy sizes BIP-39 allows: 16, 20, 24, 28, 32 bytes. For bip39/bip39.go:300-306. *)
Definition entropy_size_ok (e : bytes) : Prop :=
  In (length e) [16; 20; 24; 28; 32]%nat.

(** Entropy followed by the first ENT/32 bits of its SHA-256. For bip39/bip39.go:170-212, 267-297. *)
Definition bip39_bits (H : Prims) (e : bytes) : list bool :=
  bits_of e ++ firstn (length e * 8 / 32) (bits_of (p_sha256 H e)).

(** Groups of 11 bits; k groups. For bip39/bip39.go:170-212, 267-297. *)
Fixpoint groups11 (k : nat) (l : list bool) : list (list bool) :=
  match k with
  | O => []
  | S k' => firstn 11 l :: groups11 k' (skipn 11 l)
  end.

(** Number of words: MS = (ENT + CS) / 11. For bip39/bip39.go:170-212, 267-297. *)
Definition bip39_count (e : bytes) : nat := (length e * 8 + length e * 8 / 32) / 11.

(** For bip39/bip39.go:170-212, 267-297. *)
Definition bip39_indices (H : Prims) (e : bytes) : list Z :=
  map bits_val (groups11 (bip39_count e) (bip39_bits H e)).
(** For bip39/bip39.go:170-212, 267-297. *)
Definition bip39_words (H : Prims) (wl : list bytes) (e : bytes) : list bytes :=
  map (fun i => nth (Z.to_nat i) wl []) (bip39_indices H e).

(** A usable word list. For bip39/bip39.go:77-84. *)
Definition good_list (wl : list bytes) : Prop := length wl = 2048%nat /\ NoDup wl.

(** Words that survive splitting a text on white space: a word is its own only field. For bip39/bip39.go:77-84. *)
Definition text_words (ws : list bytes) : Prop := Forall (fun w => Fields w = [w]) ws.

(** The positions of the words of a sentence in the list, and their 11-bit codes. For bip39/bip39.go:115-163. *)
Definition bits11 (i : Z) : list bool := map (Z.testbit i) [10; 9; 8; 7; 6; 5; 4; 3; 2; 1; 0].
(** For bip39/bip39.go:115-163. *)
Definition sentence_indices (wl ws : list bytes) (is : list Z) : Prop :=
  Forall2 (fun w i => 0 <= i < 2048 /\ nth_error wl (Z.to_nat i) = Some w) ws is.

(** UTF-8 encodings of the Unicode White_Space characters. For bip39/bip39.go:338-345. *)
Definition ws_chars : list bytes :=
  [[x09]; [x0a]; [x0b]; [x0c]; [x0d]; [x20]; [xc2; x85]; [xc2; xa0]; [xe1; x9a; x80];
   [xe2; x80; x80]; [xe2; x80; x81]; [xe2; x80; x82]; [xe2; x80; x83]; [xe2; x80; x84]; [xe2; x80; x85];
   [xe2; x80; x86]; [xe2; x80; x87]; [xe2; x80; x88]; [xe2; x80; x89]; [xe2; x80; x8a];
   [xe2; x80; xa8]; [xe2; x80; xa9]; [xe2; x80; xaf]; [xe2; x81; x9f]; [xe3; x80; x80]].
(** For bip39/bip39.go:338-345. *)
Inductive blanks : bytes -> Prop :=
| bl_nil : blanks []
| bl_cons c s : In c ws_chars -> blanks s -> blanks (c ++ s).
(** [spaced ws m]: the text m is the words ws with white space between, before and after them. For bip39/bip39.go:338-345. *)
Inductive spaced : list bytes -> bytes -> Prop :=
| sp_end s : blanks s -> spaced [] s
| sp_last s w : blanks s -> spaced [w] (s ++ w)
| sp_cons s w c ws m : blanks s -> In c ws_chars -> spaced ws m -> spaced (w :: ws) (s ++ w ++ c ++ m).
