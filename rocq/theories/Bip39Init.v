(** Bip39Init.v - the initialisation of the packages bip39 and bip39/wordlists, and compareByteSlices. *)
From Verif Require Import Base GoStr Prims Hash Bip39 WordLists.

(** The loop of compareByteSlices: bip39/bip39.go:329-333. [a] holds the elements not yet visited, the first of
    which has index [i]; b[i] panics when out of range. *)
Fixpoint compare_loop (a b : bytes) (i : nat) : outcome bool :=
  match a with
  | [] => Ret true
  | x :: r =>
    match nth_error b i with
    | None => Panic
    | Some y => if negb (Byte.eqb x y) then Ret false else compare_loop r b (S i)
    end
  end.

(** compareByteSlices: bip39/bip39.go:324-336 *)
Definition compareByteSlices (a b : bytes) : outcome bool :=
  if negb (Nat.eqb (length a) (length b)) then Ret false else compare_loop a b 0.

(** The init functions of the word lists, run in the order of the files: bip39/wordlists/english.go:9-18 (others alike). *)
Fixpoint wl_inits (files : list (bytes * bytes)) : outcome unit :=
  match files with
  | [] => Ret tt
  | (text, crc) :: r => match wl_init text crc with Panic => Panic | Ret _ => wl_inits r end
  end.

(** Initialisation of package bip39, bip39/bip39.go:71-73: the imported package is initialised first, then the
    English list becomes the active one. [files] are the texts and checksums of the imported package. *)
Definition boot (files : list (bytes * bytes)) (english_text : bytes) : outcome wstate :=
  match wl_inits files with Panic => Panic | Ret _ => Ret (SetWordList (wl_words english_text)) end.
