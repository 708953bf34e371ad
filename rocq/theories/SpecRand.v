(** SpecRand.v - what a random source has delivered, said without the loops that ask for it. *)
From Verif Require Import Base GoRand.

(** answers are not longer than the buffer (the contract of io.Reader and of the system call); bip32/bip32.go:391 *)
Definition fits (d : device) : Prop := forall c m, (length (fst (d c m)) <= m)%nat.
(** a device read until m bytes have come or an error: what came, and the error; EAGAIN is no error; bip32/bip32.go:391 *)
Inductive delivers (d : device) : nat -> nat -> bytes -> option rerr -> Prop :=
| dl_done c : delivers d c 0 [] None
| dl_more c m w e w' e' : (0 < m)%nat -> d c m = (w, e) -> e = None \/ e = Some EAGAIN ->
    delivers d (S c) (m - length w) w' e' -> delivers d c m (w ++ w') e'
| dl_stop c m w e : (0 < m)%nat -> d c m = (w, Some e) -> e <> EAGAIN ->
    delivers d c m w (if (length w =? m)%nat then None else Some e).
(** every read brings something; bip32/bip32.go:391 *)
Definition progress (d : device) : Prop := forall c m, (0 < m)%nat -> fst (d c m) <> [] \/ exists e, snd (d c m) = Some e /\ e <> EAGAIN.
(** calls of at most max bytes that were all answered in full; bip32/bip32.go:391 *)
Inductive filled (d : device) (max : nat) : nat -> nat -> bytes -> Prop :=
| fl_done c : filled d max c 0 []
| fl_more c m w w' : (0 < m)%nat -> d c (Nat.min m max) = (w, None) -> length w = Nat.min m max ->
    filled d max (S c) (m - length w) w' -> filled d max c m (w ++ w').
(** a source of the system: bip32/bip32.go:391 *)
Definition source_ok (s : source) : Prop := fits (s_sys s) /\ fits (s_file s) /\ (forall max, s_max s = Some max -> (0 < max)%nat).
(** the system call filled m bytes with w: bip32/bip32.go:391 *)
Definition answered (s : source) (m : nat) (w : bytes) : Prop := exists max, s_max s = Some max /\ filled (s_sys s) max 0 m w.
(** the error that io.ReadFull makes of an error after n bytes: bip32/bip32.go:391 *)
Definition eof (n : nat) (e : option rerr) : option rerr :=
  match e with Some EOF => if (0 <? n)%nat then Some ErrUnexpectedEOF else Some EOF | _ => e end.
