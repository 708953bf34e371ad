(** GoStr.v - the parts of Go's strings, unicode/utf8, strconv, fmt and encoding/hex that /repo uses. *)
From Verif Require Import Base.

(** ** unicode/utf8.DecodeRuneInString (Go 1.22): rune and width; invalid encodings give
    (0xFFFD, 1). Used by the range loops inside strings.Fields / strings.TrimSpace, called from
    bip39/bip39.go:340, bip44/coin.go:35, bip39/wordlists/*.go:22. *)
Definition in_rng (lo hi : Z) (b : byte) : bool := (lo <=? Zb b) && (Zb b <=? hi).
(** UTF-8 continuation bytes, for strings.Fields, bip39/bip39.go:340; strings.TrimSpace, bip44/coin.go:34, bip44/script.go:34, bip39/wordlists/english.go:22 *)
Definition cont (b : byte) : bool := in_rng 128 191 b.
(** for strings.Fields, bip39/bip39.go:340; strings.TrimSpace, bip44/coin.go:34, bip44/script.go:34, bip39/wordlists/english.go:22 *)
Definition decode_rune (s : bytes) : Z * nat :=
  let bad := (65533, 1%nat) in
  match s with
  | [] => (65533, O)
  | a :: r =>
    let x := Zb a in
    if x <? 128 then (x, 1%nat)
    else if in_rng 194 223 a then
      match r with
      | b :: _ => if cont b then ((x - 192) * 64 + (Zb b - 128), 2%nat) else bad
      | _ => bad
      end
    else if in_rng 224 239 a then
      match r with
      | b :: c :: _ =>
        let lo := if x =? 224 then 160 else 128 in
        let hi := if x =? 237 then 159 else 191 in
        if in_rng lo hi b && cont c
        then ((x - 224) * 4096 + (Zb b - 128) * 64 + (Zb c - 128), 3%nat) else bad
      | _ => bad
      end
    else if in_rng 240 244 a then
      match r with
      | b :: c :: d :: _ =>
        let lo := if x =? 240 then 144 else 128 in
        let hi := if x =? 244 then 143 else 191 in
        if in_rng lo hi b && cont c && cont d
        then ((x - 240) * 262144 + (Zb b - 128) * 4096 + (Zb c - 128) * 64 + (Zb d - 128), 4%nat)
        else bad
      | _ => bad
      end
    else bad
  end.

(** unicode.IsSpace (White_Space property). For ASCII strings strings.Fields uses the table
    asciiSpace, which lists the same six ASCII characters.
    For strings.Fields, bip39/bip39.go:340; strings.TrimSpace, bip44/coin.go:34, bip44/script.go:34, bip39/wordlists/english.go:22. *)
Definition is_space (r : Z) : bool :=
  ((9 <=? r) && (r <=? 13)) || (r =? 32) || (r =? 133) || (r =? 160) || (r =? 5760)
  || ((8192 <=? r) && (r <=? 8202)) || (r =? 8232) || (r =? 8233) || (r =? 8239)
  || (r =? 8287) || (r =? 12288).

(** A string cut into its runes, each flagged as white space or not. The fuel [length s] suffices
    because every rune has width >= 1.
    For strings.Fields, bip39/bip39.go:340; strings.TrimSpace, bip44/coin.go:34, bip44/script.go:34, bip39/wordlists/english.go:22. *)
Fixpoint runes (fuel : nat) (s : bytes) : list (bytes * bool) :=
  match fuel with
  | O => []
  | S f =>
    match s with
    | [] => []
    | _ => let (c, w) := decode_rune s in (firstn w s, is_space c) :: runes f (skipn w s)
    end
  end.
(** for strings.Fields, bip39/bip39.go:340; strings.TrimSpace, bip44/coin.go:34, bip44/script.go:34, bip39/wordlists/english.go:22 *)
Definition runes_of (s : bytes) := runes (length s) s.

(** strings.Fields: bip39/bip39.go:340. *)
Definition emit (cur : bytes) : list bytes := match cur with [] => [] | _ => [cur] end.
(** bip39/bip39.go:340 *)
Fixpoint group_fields (cs : list (bytes * bool)) (cur : bytes) : list bytes :=
  match cs with
  | [] => emit cur
  | (_, true) :: r => emit cur ++ group_fields r []
  | (c, false) :: r => group_fields r (cur ++ c)
  end.
(** bip39/bip39.go:340 *)
Definition Fields (s : bytes) : list bytes := group_fields (runes_of s) [].

(** strings.TrimSpace. Go trims the right end with DecodeLastRune; a white-space encoding starts
    with a byte that is never a continuation byte, so cutting forward gives the same result.
    bip44/coin.go:34, bip44/script.go:34, bip39/wordlists/english.go:22. *)
Fixpoint drop_spaces (cs : list (bytes * bool)) : list (bytes * bool) :=
  match cs with
  | (_, true) :: r => drop_spaces r
  | _ => cs
  end.
(** bip44/coin.go:34, bip44/script.go:34, bip39/wordlists/english.go:22 *)
Definition TrimSpace (s : bytes) : bytes :=
  concat (map fst (rev (drop_spaces (rev (drop_spaces (runes_of s)))))).

(** strings.Split with a one-byte separator (bip32/path.go:53,100; bip32/reg_ver_bytes.go:90,108;
    bip39/bip39.go:219; bip39/wordlists/*.go:22). *)
Fixpoint Split (sep : byte) (s : bytes) : list bytes :=
  match s with
  | [] => [[]]
  | c :: r =>
    if Byte.eqb c sep then [] :: Split sep r
    else match Split sep r with
         | [] => [[c]]
         | w :: ws => (c :: w) :: ws
         end
  end.

(** strings.Join with a separator. bip39/bip39.go:211, bip32/path.go:106, bip44/script.go:51. *)
Fixpoint Join (sep : bytes) (ws : list bytes) : bytes :=
  match ws with
  | [] => []
  | [w] => w
  | w :: r => w ++ sep ++ Join sep r
  end.

(** strings.Contains(s, c) and strings.ReplaceAll(s, c, "") for a one-byte c. bip32/path.go:55. *)
Definition ContainsB (c : byte) (s : bytes) : bool := existsb (Byte.eqb c) s.
(** bip32/path.go:57, bip32/reg_ver_bytes.go:91, 109 *)
Definition RemoveB (c : byte) (s : bytes) : bytes := filter (fun x => negb (Byte.eqb c x)) s.

(** ** Decimal numbers *)
(** for strconv, bip32/path.go:58, 67, and the class of bip32/path.go:22 *)
Definition is_digit (c : byte) : bool := in_rng 48 57 c.
(** for strconv, bip32/path.go:58, 67, bip44/script.go:41-44 *)
Definition dec_val (s : bytes) : Z := fold_left (fun a c => a * 10 + (Zb c - 48)) s 0.
(** for strconv.Atoi, bip32/path.go:58, 67 *)
Definition MaxInt : Z := 9223372036854775807.

(** strconv.ParseUint(s, 10, bits), the loop over the bytes; [maxVal] is 2^bits - 1 and
    [cutoff] is (2^64 - 1) / 10 + 1. A letter is a digit above 9 to Go and gives the same syntax error
    as any other byte. The range error comes as soon as the value is too large, whatever follows.
    bip32/path.go:58, 67, bip32/reg_ver_bytes.go:92, 110, bip44/script.go:41-44. *)
Definition cutoff : Z := 1844674407370955162.
(** bip32/path.go:58, 67, bip32/reg_ver_bytes.go:92, 110, bip44/script.go:41-44 *)
Fixpoint parse_uint (maxVal : Z) (s : bytes) (n : Z) : Z * option err :=
  match s with
  | [] => (n, None)
  | c :: r =>
    if negb (is_digit c) then (0, Some ErrSyntax)
    else if n >=? cutoff then (maxVal, Some ErrRange)
    else
      let n := n * 10 mod 18446744073709551616 in
      let n1 := (n + (Zb c - 48)) mod 18446744073709551616 in
      if (n1 <? n) || (n1 >? maxVal) then (maxVal, Some ErrRange)
      else parse_uint maxVal r n1
  end.
(** strconv.ParseUint(s, 10, bits) with maxVal = 2^bits - 1. bip32/path.go:58, 67, bip32/reg_ver_bytes.go:92, 110, bip44/script.go:41-44 *)
Definition ParseUint (maxVal : Z) (s : bytes) : Z * option err :=
  match s with [] => (0, Some ErrSyntax) | _ => parse_uint maxVal s 0 end.
(** strconv.ParseInt(s, 10, 0) where int has 64 bits. bip32/path.go:58, 67, bip32/reg_ver_bytes.go:92, 110 *)
Definition ParseInt10 (s : bytes) : Z * option err :=
  match s with
  | [] => (0, Some ErrSyntax)
  | c :: r =>
    let neg := Byte.eqb c x2d in
    let ds := if Byte.eqb c x2b || neg then r else s in
    let '(un, e) := ParseUint 18446744073709551615 ds in
    match e with
    | Some ErrSyntax => (0, e)
    | _ =>
      if negb neg && (un >=? MaxInt + 1) then (MaxInt, Some ErrRange)
      else if neg && (un >? MaxInt + 1) then (- (MaxInt + 1), Some ErrRange)
      else (if neg then - un else un, None)
    end
  end.
(** strconv.Atoi, the fast path's loop; at most 18 digits, so the sum stays far below 2^63.
    bip32/path.go:58, 67, bip32/reg_ver_bytes.go:92, 110 *)
Fixpoint atoi_loop (s : bytes) (n : Z) : option Z :=
  match s with
  | [] => Some n
  | c :: r =>
    let ch := (Zb c - 48) mod 256 in
    if ch >? 9 then None else atoi_loop r (n * 10 + ch)
  end.
(** strconv.Atoi on a platform with 64-bit int (amd64, arm64, wasm): a fast path for texts of 1 to 18
    bytes, ParseInt for the others. bip32/path.go:58, 67, bip32/reg_ver_bytes.go:92, 110, examples/ui/one/main.go:93. *)
Definition Atoi (s : bytes) : Z * option err :=
  match s with
  | c :: r =>
    if (length s <? 19)%nat then
      let neg := Byte.eqb c x2d in
      let ds := if neg || Byte.eqb c x2b then r else s in
      if (length ds <? 1)%nat then (0, Some ErrSyntax)
      else match atoi_loop ds 0 with
           | None => (0, Some ErrSyntax)
           | Some n => (if neg then - n else n, None)
           end
    else ParseInt10 s
  | [] => ParseInt10 s
  end.

(** fmt.Sprintf("%d", n) for unsigned n.
    bip32/path.go:102-104, util/util.go:115, util/key_path.go:94, bip44/coin.go:17-29. *)
Definition Itoa (n : Z) : bytes :=
  if n <=? 0 then B "0" else rev (map (fun d => bZ (48 + d)) (digits 10 n)).

(** ** encoding/hex *)
(** for hex.EncodeToString, bip32/bip32.go:230-241 *)
Definition hexdigit (n : Z) : byte := if n <? 10 then bZ (48 + n) else bZ (87 + n).
(** bip32/bip32.go:230-241, util/util.go:52, util/key_path.go:25; also %x at bip32/utils.go:55 *)
Definition HexEncode (s : bytes) : bytes :=
  flat_map (fun b => [hexdigit (Zb b / 16); hexdigit (Zb b mod 16)]) s.
(** for hex.DecodeString, util/util.go:58, util/key_path.go:17, 29 *)
Definition hexval (c : byte) : option Z :=
  if in_rng 48 57 c then Some (Zb c - 48)
  else if in_rng 97 102 c then Some (Zb c - 87)
  else if in_rng 65 70 c then Some (Zb c - 55)
  else None.
(** hex.DecodeString; None stands for any of its errors (odd length, bad digit). The callers in
    /repo drop the partial result that accompanies an error. util/util.go:58, util/key_path.go:17, 29. *)
Fixpoint HexDecode (s : bytes) : option bytes :=
  match s with
  | [] => Some []
  | a :: b :: r =>
    match hexval a, hexval b, HexDecode r with
    | Some x, Some y, Some l => Some (bZ (x * 16 + y) :: l)
    | _, _, _ => None
    end
  | _ => None
  end.
