(** SpecMem.v - what a caller can observe of memory. *)
From Verif Require Import Base Mem.

(** The byte at an address: block and position. For bip32/bip32.go:79-100, 202-225. *)
Definition byte_at (h : mem) (b i : nat) : option byte := nth_error (block h b) i.
(** Positions of a slice's backing array, relative to the start of the slice, from lo to hi (exclusive).
    For bip32/bip32.go:79-100, 202-225. *)
Definition in_part (s : sl) (lo hi b i : nat) : Prop := b = sblk s /\ (soff s + lo <= i < soff s + hi)%nat.
(** A pointer to a key: 78 bytes of some block. For bip32/bip32.go:79-100, 202-225. *)
Definition wf_kptr (h : mem) (k : kptr) : Prop := (kblk k < length h)%nat /\ (koff k + 78 <= length (block h (kblk k)))%nat.
(** Nothing a caller could already reach differs. For bip32/bip32.go:79-100, 202-225. *)
Definition memory_kept (h h' : mem) : Prop := forall b i, (b < length h)%nat -> byte_at h' b i = byte_at h b i.
