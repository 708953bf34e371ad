(** GoFmt.v - fmt.Sprintf, strings.Join, strings.Repeat, bytes.Compare, bytes.Buffer and encoding/binary as Go 1.22 (go.mod:3) writes them, as far as
    the calls in /repo need them. The packages are not in /repo. Indices out of range are Panic; a verb, flag or kind of argument that no
    call in /repo uses is a Panic too (see DESIGN.md). *)
From Verif Require Import Base GoStr Bip32 Bip44 WordLists GoCodec.

(** ** fmt *)
(** ldigits, the digits of fmt; bip32/path.go:102-104 *)
Definition ldigits : bytes := B "0123456789abcdefx".
(** fmt.fmtInteger, the loop for base 10: the digits are written from the end of the buffer, [i] is the index of the last one written.
    bip32/path.go:102-104, util/util.go:115 *)
Fixpoint int_dec (fuel : nat) (u : Z) (i : nat) (buf : bytes) : outcome (Z * nat * bytes) :=
  if u >=? 10 then
    match fuel, i with
    | S fuel, S i =>
      let next := u / 10 in
      let! buf := put buf i (bZ (48 + u - next * 10)) in
      int_dec fuel next i buf
    | _, _ => Panic
    end
  else Ret (u, i, buf).
(** the loop for base 16; bip44/coin.go:17-20, bip39/wordlists/english.go:15 *)
Fixpoint int_hex (fuel : nat) (u : Z) (i : nat) (buf : bytes) : outcome (Z * nat * bytes) :=
  if u >=? 16 then
    match fuel, i with
    | S fuel, S i =>
      let! d := get ldigits (Z.to_nat (Z.land u 15)) in
      let! buf := put buf i d in
      int_hex fuel (Z.shiftr u 4) i buf
    | _, _ => Panic
    end
  else Ret (u, i, buf).
(** fmt.fmtInteger of an unsigned number without flags; [buf] is intbuf of 68 bytes with what is left in it from before.
    bip32/path.go:102-104, util/util.go:115, util/key_path.go:94, bip44/coin.go:17-29, bip39/wordlists/english.go:15 *)
Definition fmtInteger (base u : Z) (buf : bytes) : outcome (bytes * bytes) :=
  let i := length buf in
  let! (u, i, buf) := if base =? 10 then int_dec i u i buf else int_hex i u i buf in
  match i with
  | S i =>
    let! d := get ldigits (Z.to_nat u) in
    let! buf := put buf i d in
    Ret (skipn i buf, buf)
  | O => Panic
  end.
(** fmt.fmtSbx without flags: bip32/utils.go:55 *)
Fixpoint fmtSbx (b : bytes) (out : bytes) : outcome bytes :=
  match b with
  | [] => Ret out
  | c :: b =>
    let! d1 := get ldigits (Z.to_nat (Z.shiftr (Zb c) 4)) in
    let! d2 := get ldigits (Z.to_nat (Z.land (Zb c) 15)) in
    fmtSbx b (out ++ [d1; d2])
  end.
(** the arguments: uint32 (as uint64), string, array of bytes; bip32/utils.go:55, bip32/path.go:102-104, bip39/bip39.go:130, bip44/coin.go:17-29 *)
Inductive arg := AUint (u : Z) | AString (s : bytes) | ABytes (b : bytes).
(** printArg, with fmtInteger, fmtString and fmtBytes of type pp: the text and the buffer for numbers.
    bip32/utils.go:55, bip32/path.go:102-104, bip39/bip39.go:130, bip44/coin.go:17-29 *)
Definition printArg (a : arg) (verb : byte) (buf : bytes) : outcome (bytes * bytes) :=
  match a with
  | AUint u =>
    if Byte.eqb verb x76 || Byte.eqb verb x64 then fmtInteger 10 u buf
    else if Byte.eqb verb x78 then fmtInteger 16 u buf
    else Panic
  | AString s => if Byte.eqb verb x76 || Byte.eqb verb x73 then Ret (s, buf) else Panic
  | ABytes b => if Byte.eqb verb x78 then let! t := fmtSbx b [] in Ret (t, buf) else Panic
  end.
(** doPrintf: literal bytes are copied, a percent sign and a small letter print the next argument. Flags, missing and superfluous arguments are not
    written out. bip32/utils.go:55, bip32/path.go:102-104, bip39/bip39.go:130, bip44/coin.go:17-29, util/util.go:115 *)
Fixpoint doPrintf (format : bytes) (a : list arg) (buf out : bytes) : outcome bytes :=
  match format with
  | [] => match a with [] => Ret out | _ => Panic end
  | c :: format =>
    if Byte.eqb c x25 then
      match format, a with
      | v :: format, x :: a =>
        if in_rng 97 122 v then
          let! (t, buf) := printArg x v buf in
          doPrintf format a buf (out ++ t)
        else Panic
      | _, _ => Panic
      end
    else doPrintf format a buf (out ++ [c])
  end.
(** fmt.Sprintf; [buf] is the buffer for numbers of the printer taken from the pool.
    bip32/utils.go:55, bip32/path.go:102-104, bip39/bip39.go:130, bip44/coin.go:17-29, util/util.go:115 *)
Definition GoSprintf (buf : bytes) (format : bytes) (a : list arg) : outcome bytes := doPrintf format a buf [].

(** ** strings *)
(** strings.Join, the loop; bip32/path.go:106 *)
Fixpoint join_loop (elems : list bytes) (sep out : bytes) : bytes :=
  match elems with
  | [] => out
  | s :: elems => join_loop elems sep ((out ++ sep) ++ s)
  end.
(** strings.Join: bip32/path.go:106, bip39/bip39.go:211, bip44/script.go:51 *)
Definition GoJoin (elems : list bytes) (sep : bytes) : bytes :=
  match elems with
  | [] => []
  | [s] => s
  | s :: elems => join_loop elems sep s
  end.
(** strings.Repeat, the loop; [n] is the length wanted. bip32/utils.go:55 *)
Fixpoint repeat_loop (fuel : nat) (n chunkMax : nat) (b : bytes) : outcome bytes :=
  if (length b <? n)%nat then
    match fuel with
    | O => Panic
    | S fuel =>
      let chunk := (n - length b)%nat in
      let chunk := if (length b <? chunk)%nat then length b else chunk in
      let chunk := if (chunkMax <? chunk)%nat then chunkMax else chunk in
      repeat_loop fuel n chunkMax (b ++ firstn chunk b)
    end
  else Ret b.
(** strings.Repeat for results of at most 8192 bytes: bip32/utils.go:55 *)
Definition GoRepeat (s : bytes) (count : nat) : outcome bytes :=
  match count with
  | O => Ret []
  | 1%nat => Ret s
  | _ =>
    let n := (length s * count)%nat in
    if (n =? 0)%nat then Ret [] else repeat_loop n n n s
  end.

(** ** bytes *)
(** bytes.Compare: bip32/utils.go:56 *)
Fixpoint GoCompare (a b : bytes) : Z :=
  match a, b with
  | c1 :: a, c2 :: b => if Zb c1 <? Zb c2 then -1 else if Zb c2 <? Zb c1 then 1 else GoCompare a b
  | [], [] => 0
  | [], _ :: _ => -1
  | _ :: _, [] => 1
  end.

(** ** encoding/binary *)
(** BigEndian.Uint32: panics on less than four bytes. bip32/bip32.go:119, 204, 325 *)
Definition GoUint32 (b : bytes) : outcome Z :=
  let! b3 := get b 3 in
  let! b2 := get b 2 in
  let! b1 := get b 1 in
  let! b0 := get b 0 in
  Ret (Z.lor (Z.lor (Z.lor (Zb b3) (Z.shiftl (Zb b2) 8)) (Z.shiftl (Zb b1) 16)) (Z.shiftl (Zb b0) 24)).
(** BigEndian.PutUint32 into a slice of at least four bytes: bip32/utils.go:145, bip32/reg_ver_bytes.go:64, 70 *)
Definition GoPutUint32 (b : bytes) (v : Z) : outcome bytes :=
  let! b := put b 0 (bZ (Z.shiftr v 24)) in
  let! b := put b 1 (bZ (Z.shiftr v 16)) in
  let! b := put b 2 (bZ (Z.shiftr v 8)) in
  put b 3 (bZ v).
(** BigEndian.Uint16: bip39/bip39.go:208 *)
Definition GoUint16 (b : bytes) : outcome Z :=
  let! b1 := get b 1 in
  let! b0 := get b 0 in
  Ret (Z.lor (Zb b1) (Z.shiftl (Zb b0) 8)).
(** BigEndian.PutUint16: bip39/bip39.go:133 *)
Definition GoPutUint16 (b : bytes) (v : Z) : outcome bytes :=
  let! b := put b 0 (bZ (Z.shiftr v 8)) in
  put b 1 (bZ v).

(** ** the calls *)
(** fmt.Sprintf("%s/%d", p, v): util/util.go:115, util/key_path.go:94 *)
Definition GoAppendVal (buf p : bytes) (v : Z) : outcome bytes := GoSprintf buf (B "%s/%d") [AString p; AUint v].
(** fmt.Sprintf("%d'", v) and fmt.Sprintf("%d", v): bip32/path.go:101-105 *)
Definition GoValText (buf : bytes) (val : Z) : outcome bytes :=
  if val >=? 2147483648 then GoSprintf buf (B "%d'") [AUint (val mod 2147483648)] else GoSprintf buf (B "%d") [AUint val].
(** fmt.Sprintf("%x", key) == strings.Repeat("0", 64) || bytes.Compare(key[:], n) >= 0: bip32/utils.go:54-60 *)
Definition GoValidatePrivateKey (buf n key : bytes) : outcome (option err) :=
  let! t := GoSprintf buf (B "%x") [ABytes key] in
  let! z := GoRepeat (B "0") 64 in
  Ret (if bytes_eqb t z then Some ErrInvalidPrivateKey else if GoCompare key n >=? 0 then Some ErrInvalidPrivateKey else None).
(** the text of fmt.Errorf: bip39/bip39.go:130 *)
Definition GoWordError (buf v : bytes) : outcome bytes := GoSprintf buf (B "word `%v` not found in reverse map") [AString v].
(** Coin.StringForMD: bip44/coin.go:16-20 *)
Definition GoStringForMD (buf : bytes) (c : Coin) : outcome bytes :=
  GoSprintf buf (B "{Type: %d, PathComponent: 0x%x, Symbol: ""%s"", Name: ""%s""}") [AUint (CType c); AUint (PathComponent c); AString (Symbol c); AString (CName c)].
(** Coin.String: bip44/coin.go:22-31 *)
Definition GoCoinString (buf : bytes) (c : Coin) : outcome bytes :=
  let name := match Symbol c with [] => CName c | _ => (Symbol c ++ B " - ") ++ CName c end in
  GoSprintf buf (B "%s (Type %d)") [AString name; AUint (CType c)].
(** init of a word list: bip39/wordlists/english.go:13-18 (others alike) *)
Definition GoWlInit (buf text crc : bytes) : outcome unit :=
  let! checksum := GoChecksumIEEE text in
  let! t := GoSprintf buf (B "%x") [AUint checksum] in
  if bytes_eqb t crc then Ret tt else Panic.
(** uint32Bytes: bip32/utils.go:143-147 *)
Definition GoUint32Bytes (i : Z) : outcome bytes := GoPutUint32 [x00; x00; x00; x00] i.
