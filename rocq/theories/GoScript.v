(** GoScript.v - bip44/script.go on the library functions as written (GoStrLit, GoFmt), with its effects: the embedded file that it
    reads, the end of the program by log.Fatal, and the file that it writes.

    The embedded file system is a function from names to an answer, os.WriteFile one from a file to whether it succeeded; both may be anything. *)
From Verif Require Import Base GoStr GoStrLit Bip32 Bip44 GoCodec GoFmt.

(** How the function ends: the program stopped by log.Fatal, or a return after one call of os.WriteFile. bip44/script.go:25-28, 65 *)
Inductive ending := Fatal | Wrote (name contents : bytes).
(** An index expression on a slice of strings: bip44/script.go:36-49 *)
Definition field (fields : list bytes) (i : nat) : outcome bytes := match nth_error fields i with Some x => Ret x | None => Panic end.
(** strconv.ParseUint(s, 10, 32) with its two results: bip44/script.go:41, 44 *)
Definition ParseUint32 (s : bytes) : Z * option err := ParseUint 4294967295 s.
(** fields[2] and strings.Join(fields[3:], " "): the slice expression panics on a shorter slice. bip44/script.go:47-52 *)
Definition gNames (fields : list bytes) : outcome (bytes * bytes) :=
  let! s := field fields 2 in
  if Nat.eqb (length fields) 3 then Ret ([], s)
  else if Nat.ltb (length fields) 3 then Panic else Ret (s, GoJoin (skipn 3 fields) (B " ")).
(** The conjunction of bip44/script.go:36-38: the last field is read only if there are more than two. *)
Definition gCanParse (fields : list bytes) : outcome bool :=
  if Nat.ltb 2 (length fields) then
    let! x := field fields (length fields - 1) in
    Ret (negb (GoContains x (B "reserved")) && negb (GoContains x (B "dead")))
  else Ret false.
(** One line: bip44/script.go:31-58. Split(...)[1:] panics on an empty slice. The result is what is appended. *)
Definition gLine (eachLine : bytes) : outcome (list Coin) :=
  let! parts := GoSplit eachLine (B "| ") in
  match parts with
  | [] => Panic
  | _ :: fields =>
    let fields := map GoTrimSpace fields in
    let! canParse := gCanParse fields in
    if canParse then
      let! f0 := field fields 0 in
      let (coinType, e) := ParseUint32 f0 in
      match e with
      | Some _ => Ret []
      | None =>
        let! f1 := field fields 1 in
        let (pathComp, e) := ParseUint32 f1 in
        match e with
        | Some _ => Ret []
        | None =>
          let! (symbol, name) := gNames fields in
          if negb (bytes_eqb symbol [] && bytes_eqb name []) then Ret [mkCoin coinType pathComp symbol name] else Ret []
        end
      end
    else Ret []
  end.
(** for _, eachLine := range multiLines: bip44/script.go:31 *)
Fixpoint gLines (multiLines : list bytes) (registeredCoins : list Coin) : outcome (list Coin) :=
  match multiLines with
  | [] => Ret registeredCoins
  | l :: r => let! c := gLine l in gLines r (registeredCoins ++ c)
  end.
(** for _, regCoin := range registeredCoins: bip44/script.go:60-63 *)
Fixpoint gContents (buf : bytes) (coins : list Coin) (contents : bytes) : outcome bytes :=
  match coins with
  | [] => Ret contents
  | c :: r => let! t := GoStringForMD buf c in gContents buf r (contents ++ (t ++ (B "," ++ [x0a])))
  end.
(** generateFileFromSlip44MD: bip44/script.go:23-66. [ReadFile] answers None for an error. *)
Definition gGenerate (buf : bytes) (ReadFile : bytes -> option bytes) : outcome ending :=
  match ReadFile (B "slip-0044.md") with
  | None => Ret Fatal
  | Some st =>
    let! multiLines := GoSplit st [x0a] in
    let! registeredCoins := gLines multiLines [] in
    let! contents := gContents buf registeredCoins [] in
    Ret (Wrote (B "testing.go") contents)
  end.
