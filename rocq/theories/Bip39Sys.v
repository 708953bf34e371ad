(** Bip39Sys.v - the package state of bip39 seen through aliases and by several goroutines. *)
From Verif Require Import Base GoStr Prims Bip39.

(** ** Aliasing. Arrays of strings live in a heap; a slice is a whole array (simplification: no
    sub-slices). SetWordList (bip39/bip39.go:78) stores the caller's slice, GetWordList
    (bip39/bip39.go:87-89) hands it out, so both sides write to the same array. *)
Record astate := mkA { heap : list (list bytes); cur : nat; amap : list (bytes * Z) }.
(** bip39/bip39.go:77-89 *)
Inductive aop :=
| OSet (a : nat)                        (* SetWordList(arrays[a]), bip39/bip39.go:77-84 *)
| OWrite (a i : nat) (w : bytes).       (* arrays[a][i] = w by any holder of the slice *)
(** assignment to an element, as list[i] = w by a caller of bip39/bip39.go:77-89 *)
Fixpoint set_nth {A} (i : nat) (x : A) (l : list A) : list A :=
  match l, i with
  | [], _ => []
  | _ :: r, O => x :: r
  | y :: r, S k => y :: set_nth k x r
  end.
(** bip39/bip39.go:77-84 *)
Definition astep (s : astate) (o : aop) : astate :=
  match o with
  | OSet a => mkA (heap s) a (fill_map 0 (nth a (heap s) []) [])
  | OWrite a i w => mkA (set_nth a (set_nth i w (nth a (heap s) [])) (heap s)) (cur s) (amap s)
  end.
(** What the functions of the package see. bip39/bip39.go:47-51. *)
Definition aview (s : astate) : wstate := mkW (nth (cur s) (heap s) []) (amap s).

(** ** One writer, one reader. The reader's n-th access to a package variable happens after
    [t n] of the writer's writes (SetWordList_states). *)
(** bip39/bip39.go:77-84 *)
Definition trace (old : wstate) (l : list bytes) : list wstate := old :: SetWordList_states old l.
(** bip39/bip39.go:77-84 *)
Definition state_at (old : wstate) (l : list bytes) (t : nat) : wstate := nth t (trace old l) (SetWordList l).

(** NewMnemonic (bip39/bip39.go:196-209): one read of wordList per iteration; the n-th iteration
    reads in state [rd n]. *)
Fixpoint NewMnemonic_loop_at (rd : nat -> wstate) (j n : nat) (x : Z) (acc : list bytes) : outcome (list bytes) :=
  match n with
  | O => Ret acc
  | S k =>
    let word := Z.land x 2047 in
    let x := x / 2048 in
    let idx := be_Z (padByteSlice (Z_bytes word) 2) in
    match nth_error (wordList (rd j)) (Z.to_nat idx) with
    | Some w => NewMnemonic_loop_at rd (S j) k x (w :: acc)
    | None => Panic
    end
  end.
(** bip39/bip39.go:170-212 *)
Definition NewMnemonic_at (H : Prims) (rd : nat -> wstate) (entropy : bytes) : outcome (bytes * option err) :=
  let entropyBitLength := Z.of_nat (length entropy) * 8 in
  let checksumBitLength := entropyBitLength / 32 in
  let sentenceLength := (entropyBitLength + checksumBitLength) / 11 in
  match validateEntropyBitSize entropyBitLength with
  | Some e => Ret ([], Some e)
  | None =>
    match NewMnemonic_loop_at rd 0 (Z.to_nat sentenceLength) (be_Z (addChecksum H entropy)) [] with
    | Ret words => Ret (Join (B " ") words, None)
    | Panic => Panic
    end
  end.
(** EntropyFromMnemonic (bip39/bip39.go:127-136): one read of wordMap per word. *)
Fixpoint decode_words_at (rd : nat -> wstate) (j : nat) (ws : list bytes) (b : Z) : Z + err :=
  match ws with
  | [] => inl b
  | v :: r =>
    match map_get (wordMap (rd j)) v with
    | None => inr (ErrWord v)
    | Some index => decode_words_at rd (S j) r (Z.lor (b * 2048) (be_Z (Z_be 2 index)))
    end
  end.
(** bip39/bip39.go:115-165 *)
Definition EntropyFromMnemonic_at (H : Prims) (rd : nat -> wstate) (m : bytes) : bytes * option err :=
  match splitMnemonicWords m with
  | (_, false) => ([], Some ErrInvalidMnemonic)
  | (ws, true) =>
    match decode_words_at rd 0 ws 0 with
    | inr e => ([], Some e)
    | inl b =>
      let n := length ws in
      let mask := checksumMask n in
      let checksum := Z.land b mask in
      let b := b / (mask + 1) in
      let entropy := padByteSlice (Z_bytes b) (n / 3 * 4) in
      let entropyChecksum := firstChecksumByte H entropy in
      let entropyChecksum := if (n =? 24)%nat then entropyChecksum else entropyChecksum / checksumShift n in
      if checksum =? entropyChecksum then (entropy, None) else ([], Some ErrChecksumIncorrect)
    end
  end.

(** ** Any number of goroutines inside SetWordList. Program counter of one of them: *)
(** bip39/bip39.go:77-84 *)
Inductive pc :=
| P0 (l : list bytes)              (* before line 78: wordList = list *)
| P1                               (* before line 79: wordMap = map[string]int{} *)
| P2                               (* before line 81: range evaluates the package variable wordList *)
| P3 (i : Z) (r : list bytes)      (* inside the loop, line 82, remaining words *)
| PDone.
(** one write or read of bip39/bip39.go:78-82 *)
Definition pstep (st : wstate) (p : pc) : wstate * pc :=
  match p with
  | P0 l => (mkW l (wordMap st), P1)
  | P1 => (mkW (wordList st) [], P2)
  | P2 => (st, P3 0 (wordList st))
  | P3 i [] => (st, PDone)
  | P3 i (v :: r) => (mkW (wordList st) ((v, i) :: wordMap st), P3 (i + 1) r)
  | PDone => (st, PDone)
  end.
(** bip39/bip39.go:47-51 and the program counters *)
Definition sys := (wstate * list pc)%type.
(** one goroutine executes one step of bip39/bip39.go:78-82 *)
Definition sstep (s : sys) (tid : nat) : sys :=
  let (st, ps) := s in
  match nth_error ps tid with
  | Some p => let (st', p') := pstep st p in (st', set_nth tid p' ps)
  | None => s
  end.
(** a schedule of steps of bip39/bip39.go:78-82 *)
Definition srun (s : sys) (sched : list nat) : sys := fold_left sstep sched s.
