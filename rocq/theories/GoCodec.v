(** GoCodec.v - the encoders the library calls, written out as their packages write them: base58 of
    btcutil v1.0.2 (go.mod:11), encoding/hex and hash/crc32 (the portable slicing-by-8 code) of Go 1.22.
    The packages are not in /repo. Reads and writes out of range are Panic. *)
From Verif Require Import Base Bip32 GoStr Base58 SpecCodec.

(** l[i]: e.g. bip32/bip32.go:383 *)
Definition get {A} (l : list A) (i : nat) : outcome A := match nth_error l i with Some a => Ret a | None => Panic end.
(** l[i] = a: e.g. bip32/bip32.go:271 *)
Fixpoint put {A} (l : list A) (i : nat) (a : A) : outcome (list A) :=
  match l, i with
  | _ :: r, O => Ret (a :: r)
  | x :: r, S i => let! r := put r i a in Ret (x :: r)
  | [], _ => Panic
  end.

(** ** base58 *)
(** the array b58: bip32/bip32.go:383 *)
Definition b58_table : list Z :=
  repeat 255 48 ++
  [255; 0; 1; 2; 3; 4; 5; 6; 7; 8; 255; 255; 255; 255; 255; 255;
   255; 9; 10; 11; 12; 13; 14; 15; 16; 255; 17; 18; 19; 20; 21; 255;
   22; 23; 24; 25; 26; 27; 28; 29; 30; 31; 32; 255; 255; 255; 255; 255;
   255; 33; 34; 35; 36; 37; 38; 39; 40; 41; 42; 43; 255; 44; 45; 46;
   47; 48; 49; 50; 51; 52; 53; 54; 55; 56; 57; 255; 255; 255; 255; 255] ++
  repeat 255 128.
(** for i := len(b) - 1; i >= 0; i--: [n] is i + 1; None when a character is refused. bip32/bip32.go:383. *)
Fixpoint dec_loop (n : nat) (b : bytes) (answer j : Z) : outcome (option Z) :=
  match n with
  | O => Ret (Some answer)
  | S i =>
    let! c := get b i in
    let! tmp := get b58_table (Z.to_nat (Zb c)) in
    if tmp =? 255 then Ret None else dec_loop i b (answer + j * tmp) (j * 58)
  end.
(** for numZeros = 0; numZeros < len(b); numZeros++: bip32/bip32.go:383 *)
Fixpoint num_zeros (fuel : nat) (b : bytes) (k : nat) : outcome nat :=
  match fuel with
  | O => Ret k
  | S f =>
    if (k <? length b)%nat then
      let! c := get b k in
      if Byte.eqb c x31 then num_zeros f b (S k) else Ret k
    else Ret k
  end.
(** copy(val[numZeros:], tmpval): as many bytes as fit. bip32/bip32.go:383. *)
Definition copy_from (val : bytes) (k : nat) (src : bytes) : bytes :=
  firstn k val ++ firstn (length val - k) src ++ skipn (k + length src) val.
(** Decode: bip32/bip32.go:383 *)
Definition GoDecode58 (b : bytes) : outcome bytes :=
  let! r := dec_loop (length b) b 0 1 in
  match r with
  | None => Ret []
  | Some answer =>
    let tmpval := Z_bytes answer in
    let! numZeros := num_zeros (length b) b 0 in
    Ret (copy_from (repeat x00 (numZeros + length tmpval)) numZeros tmpval)
  end.
(** for x.Cmp(bigZero) > 0: bip32/bip32.go:271, util/key_path.go:43. Running out of [fuel] is Panic. *)
Fixpoint enc_loop (fuel : nat) (x : Z) (answer : bytes) : outcome bytes :=
  if 0 <? x then
    match fuel with
    | O => Panic
    | S f =>
      let! c := get alphabet (Z.to_nat (x mod 58)) in
      enc_loop f (x / 58) (answer ++ [c])
    end
  else Ret answer.
(** the loop over the leading zero bytes: bip32/bip32.go:271, util/key_path.go:43 *)
Fixpoint enc_zeros (b : bytes) (answer : bytes) : bytes :=
  match b with
  | [] => answer
  | i :: b => if Byte.eqb i x00 then enc_zeros b (answer ++ [x31]) else answer
  end.
(** for i := 0; i < alen/2; i++, exchanging answer[i] and answer[alen-1-i]: [n] is alen/2 - i.
    bip32/bip32.go:271, util/key_path.go:43. *)
Fixpoint swap_loop (n i : nat) (answer : bytes) : outcome bytes :=
  match n with
  | O => Ret answer
  | S n =>
    let j := (length answer - 1 - i)%nat in
    let! a := get answer j in
    let! b := get answer i in
    let! answer := put answer i a in
    let! answer := put answer j b in
    swap_loop n (S i) answer
  end.
(** Encode: bip32/bip32.go:271, util/key_path.go:43 *)
Definition GoEncode58 (b : bytes) : outcome bytes :=
  let! answer := enc_loop (8 * length b) (be_Z b) [] in
  let answer := enc_zeros b answer in
  swap_loop (length answer / 2) 0 answer.

(** ** encoding/hex *)
(** the digits: bip32/bip32.go:230-241 *)
Definition hextable : bytes := B "0123456789abcdef".
(** Encode into a slice of twice the length, two writes for each byte: bip32/bip32.go:230-241, util/util.go:52,
    util/key_path.go:25 *)
Fixpoint hex_enc_loop (src : bytes) (j : nat) (dst : bytes) : outcome bytes :=
  match src with
  | [] => Ret dst
  | v :: src =>
    let! h := get hextable (Z.to_nat (Z.shiftr (Zb v) 4)) in
    let! dst := put dst j h in
    let! l := get hextable (Z.to_nat (Z.land (Zb v) 15)) in
    let! dst := put dst (j + 1) l in
    hex_enc_loop src (j + 2) dst
  end.
(** EncodeToString: bip32/bip32.go:230-241, util/util.go:52, util/key_path.go:25 *)
Definition GoHexEncode (src : bytes) : outcome bytes := hex_enc_loop src 0 (repeat x00 (length src * 2)).
(** the string reverseHexTable: util/util.go:58, util/key_path.go:17, 29 *)
Definition reverseHexTable : list Z :=
  repeat 255 48 ++
  [0; 1; 2; 3; 4; 5; 6; 7; 8; 9; 255; 255; 255; 255; 255; 255;
   255; 10; 11; 12; 13; 14; 15; 255; 255; 255; 255; 255; 255; 255; 255; 255] ++
  repeat 255 16 ++
  [255; 10; 11; 12; 13; 14; 15; 255; 255; 255; 255; 255; 255; 255; 255; 255] ++
  repeat 255 144.
(** Decode(src, src), as DecodeString calls it: the digits are read from the slice that receives the bytes.
    The number of bytes written comes with the error. util/util.go:58, util/key_path.go:17, 29. *)
Fixpoint hex_dec_loop (fuel : nat) (src : bytes) (i j : nat) : outcome (bytes * nat * option hex_err) :=
  match fuel with
  | O => Panic
  | S f =>
    if (j <? length src)%nat then
      let! p := get src (j - 1) in
      let! q := get src j in
      let! a := get reverseHexTable (Z.to_nat (Zb p)) in
      let! b := get reverseHexTable (Z.to_nat (Zb q)) in
      if 15 <? a then Ret (src, i, Some (InvalidByteError p))
      else if 15 <? b then Ret (src, i, Some (InvalidByteError q))
      else
        let! src := put src i (bZ (Z.lor (Z.shiftl a 4) b)) in
        hex_dec_loop f src (i + 1) (j + 2)
    else if Nat.odd (length src) then
      let! p := get src (j - 1) in
      let! a := get reverseHexTable (Z.to_nat (Zb p)) in
      if 15 <? a then Ret (src, i, Some (InvalidByteError p)) else Ret (src, i, Some HexErrLength)
    else Ret (src, i, None)
  end.
(** DecodeString: src[:n] and the error. util/util.go:58, util/key_path.go:17, 29. *)
Definition GoHexDecode (s : bytes) : outcome (bytes * option hex_err) :=
  let! (src, n, e) := hex_dec_loop (S (length s)) s 0 1 in
  Ret (firstn n src, e).

(** ** hash/crc32 *)
(** the inner loop of simplePopulateTable: bip39/wordlists/english.go:14 (others alike) *)
Fixpoint crc_shift (n : nat) (crc : Z) : Z :=
  match n with
  | O => crc
  | S n => crc_shift n (if Z.land crc 1 =? 1 then Z.lxor (Z.shiftr crc 1) 0xedb88320 else Z.shiftr crc 1)
  end.
(** simplePopulateTable(IEEE, t): bip39/wordlists/english.go:14 (others alike) *)
Definition simple_table : list Z := map (fun i => crc_shift 8 (Z.of_nat i)) (seq 0 256).
(** one more table from the one before, slicingMakeTable: bip39/wordlists/english.go:14 (others alike) *)
Fixpoint next_entries (t0 : list Z) (l : list Z) : outcome (list Z) :=
  match l with
  | [] => Ret []
  | crc :: l =>
    let! e := get t0 (Z.to_nat (Z.land crc 255)) in
    let! r := next_entries t0 l in
    Ret (Z.lxor e (Z.shiftr crc 8) :: r)
  end.
(** the tables 1 to 7: bip39/wordlists/english.go:14 (others alike) *)
Fixpoint more_tables (n : nat) (t0 last : list Z) : outcome (list (list Z)) :=
  match n with
  | O => Ret []
  | S n =>
    let! t := next_entries t0 last in
    let! ts := more_tables n t0 t in
    Ret (t :: ts)
  end.
(** slicingMakeTable(IEEE): bip39/wordlists/english.go:14 (others alike) *)
Definition slicing_tables : outcome (list (list Z)) :=
  let! ts := more_tables 7 simple_table simple_table in
  Ret (simple_table :: ts).
(** ^crc on uint32: bip39/wordlists/english.go:14 (others alike) *)
Definition not32 (x : Z) : Z := 2 ^ 32 - 1 - x.
(** simpleUpdate: bip39/wordlists/english.go:14 (others alike) *)
Fixpoint simple_loop (tab : list Z) (crc : Z) (p : bytes) : outcome Z :=
  match p with
  | [] => Ret crc
  | v :: p =>
    let! e := get tab (Z.to_nat (Z.lxor (crc mod 256) (Zb v))) in
    simple_loop tab (Z.lxor e (Z.shiftr crc 8)) p
  end.
(** simpleUpdate: bip39/wordlists/english.go:14 (others alike) *)
Definition simple_update (crc : Z) (tab : list Z) (p : bytes) : outcome Z :=
  let! crc := simple_loop tab (not32 crc) p in Ret (not32 crc).
(** tab[k][i]: bip39/wordlists/english.go:14 (others alike) *)
Definition entry (ts : list (list Z)) (k : nat) (i : Z) : outcome Z := let! t := get ts k in get t (Z.to_nat i).
(** for len(p) > 8: bip39/wordlists/english.go:14 (others alike) *)
Fixpoint slicing_loop (fuel : nat) (ts : list (list Z)) (crc : Z) (p : bytes) : outcome (Z * bytes) :=
  match p with
  | p0 :: p1 :: p2 :: p3 :: p4 :: p5 :: p6 :: p7 :: ((_ :: _) as r) =>
    match fuel with
    | O => Panic
    | S f =>
      let crc := Z.lxor crc (Z.lor (Z.lor (Z.lor (Zb p0) (Z.shiftl (Zb p1) 8)) (Z.shiftl (Zb p2) 16)) (Z.shiftl (Zb p3) 24)) in
      let! e0 := entry ts 0 (Zb p7) in
      let! e1 := entry ts 1 (Zb p6) in
      let! e2 := entry ts 2 (Zb p5) in
      let! e3 := entry ts 3 (Zb p4) in
      let! e4 := entry ts 4 (Z.shiftr crc 24) in
      let! e5 := entry ts 5 (Z.land (Z.shiftr crc 16) 255) in
      let! e6 := entry ts 6 (Z.land (Z.shiftr crc 8) 255) in
      let! e7 := entry ts 7 (Z.land crc 255) in
      slicing_loop f ts (Z.lxor (Z.lxor (Z.lxor (Z.lxor (Z.lxor (Z.lxor (Z.lxor e0 e1) e2) e3) e4) e5) e6) e7) r
    end
  | _ => Ret (crc, p)
  end.
(** slicingUpdate: bip39/wordlists/english.go:14 (others alike) *)
Definition slicing_update (crc : Z) (ts : list (list Z)) (p : bytes) : outcome Z :=
  let! (crc, p) :=
    (if (16 <=? length p)%nat then
       let! (crc, p) := slicing_loop (length p) ts (not32 crc) p in Ret (not32 crc, p)
     else Ret (crc, p)) in
  match p with
  | [] => Ret crc
  | _ => let! t := get ts 0 in simple_update crc t p
  end.
(** ChecksumIEEE without the processor's own instruction: bip39/wordlists/english.go:14 (others alike) *)
Definition GoChecksumIEEE (p : bytes) : outcome Z :=
  let! ts := slicing_tables in slicing_update 0 ts p.
