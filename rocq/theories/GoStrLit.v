(** GoStrLit.v - strings.TrimSpace and strings.Fields as Go 1.22's library writes them: the ASCII
    fast paths, the backward decoding of the last rune, the counted result slice. [GoStr.TrimSpace]
    and [GoStr.Fields], which the model of /repo calls, cut the string into runes from the left;
    GoStrLitFacts.v proves that both give the same strings. *)
From Verif Require Import Base GoStr Bip32 Bip44.

(** utf8.RuneStart: the byte is not a continuation byte. For strings.TrimSpace, bip44/coin.go:34, bip44/script.go:34, bip39/wordlists/english.go:22 *)
Definition rune_start (b : byte) : bool := negb (Z.land (Zb b) 192 =? 128).

(** utf8.DecodeLastRuneInString, the loop [for start--; start >= lim; start--]: [start] is where the
    loop stands, at most three steps remain. For bip44/coin.go:34, bip44/script.go:34, bip39/wordlists/english.go:22 *)
Fixpoint look_back (fuel : nat) (s : bytes) (start lim : Z) : Z :=
  match fuel with
  | O => start
  | S f =>
    if start <? lim then start
    else if rune_start (nth (Z.to_nat start) s x00) then start
    else look_back f s (start - 1) lim
  end.
(** utf8.DecodeLastRuneInString. For bip44/coin.go:34, bip44/script.go:34, bip39/wordlists/english.go:22 *)
Definition decode_last_rune (s : bytes) : Z * nat :=
  let n := Z.of_nat (length s) in
  if n =? 0 then (65533, O)
  else
    let c := Zb (nth (Z.to_nat (n - 1)) s x00) in
    if c <? 128 then (c, 1%nat)
    else
      let lim := if n - 4 <? 0 then 0 else n - 4 in
      let start0 := look_back 4 s (n - 2) lim in
      let start := if start0 <? 0 then 0 else start0 in
      let (r, size) := decode_rune (skipn (Z.to_nat start) s) in
      if start + Z.of_nat size =? n then (r, size) else (65533, 1%nat).

(** strings.lastIndexFunc(s, unicode.IsSpace, false): the index where the last rune that is not white
    space starts; [i] bytes of the string are left. For bip44/coin.go:34, bip44/script.go:34, bip39/wordlists/english.go:22 *)
Fixpoint last_index_nonspace (fuel : nat) (s : bytes) (i : nat) : option nat :=
  match fuel with
  | O => None
  | S f =>
    match i with
    | O => None
    | _ =>
      let (r, size) := decode_last_rune (firstn i s) in
      if is_space r then last_index_nonspace f s (i - size) else Some (i - size)%nat
    end
  end.
(** strings.TrimRightFunc(s, unicode.IsSpace). For bip44/coin.go:34, bip44/script.go:34, bip39/wordlists/english.go:22 *)
Definition TrimRightSpace (s : bytes) : bytes :=
  match last_index_nonspace (length s) s (length s) with
  | None => []
  | Some i =>
    if 128 <=? Zb (nth i s x00)
    then firstn (i + snd (decode_rune (skipn i s))) s
    else firstn (i + 1) s
  end.
(** strings.TrimLeftFunc(s, unicode.IsSpace): from the first rune that is not white space. For bip44/coin.go:34, bip44/script.go:34, bip39/wordlists/english.go:22 *)
Fixpoint trim_left (fuel : nat) (s : bytes) : bytes :=
  match fuel with
  | O => []
  | S f =>
    match s with
    | [] => []
    | _ => let (r, w) := decode_rune s in if is_space r then trim_left f (skipn w s) else s
    end
  end.
(** strings.TrimFunc(s, unicode.IsSpace). For bip44/coin.go:34, bip44/script.go:34, bip39/wordlists/english.go:22 *)
Definition TrimFuncSpace (s : bytes) : bytes := TrimRightSpace (trim_left (length s) s).
(** The table asciiSpace: tab, newline, vertical tab, form feed, carriage return, space. For bip39/bip39.go:340, bip44/coin.go:34, bip44/script.go:34, bip39/wordlists/english.go:22 *)
Definition ascii_space (b : byte) : bool :=
  (Zb b =? 9) || (Zb b =? 10) || (Zb b =? 11) || (Zb b =? 12) || (Zb b =? 13) || (Zb b =? 32).
(** strings.TrimSpace, second loop, over the reversed rest. For bip44/coin.go:34, bip44/script.go:34, bip39/wordlists/english.go:22 *)
Fixpoint trim_stop (r : bytes) : bytes :=
  match r with
  | [] => []
  | c :: r' =>
    if 128 <=? Zb c then TrimRightSpace (rev r)
    else if ascii_space c then trim_stop r'
    else rev r
  end.
(** strings.TrimSpace, first loop. bip44/coin.go:34, bip44/script.go:34, bip39/wordlists/english.go:22 *)
Fixpoint GoTrimSpace (s : bytes) : bytes :=
  match s with
  | [] => []
  | c :: s' =>
    if 128 <=? Zb c then TrimFuncSpace s
    else if ascii_space c then GoTrimSpace s'
    else trim_stop (rev s)
  end.

(** strings.Fields, the counting loop: number of fields of an ASCII string. bip39/bip39.go:340 *)
Fixpoint count_fields (s : bytes) (was_space : bool) : nat :=
  match s with
  | [] => O
  | c :: r =>
    let sp := ascii_space c in
    ((if was_space && negb sp then 1 else 0) + count_fields r sp)%nat
  end.
(** strings.FieldsFunc(s, unicode.IsSpace): the spans (start, end) of the fields; [pos] is the byte
    index of the range loop, [start] is None where Go's start is negative. bip39/bip39.go:340 *)
Fixpoint field_spans (fuel : nat) (s : bytes) (pos : nat) (start : option nat) : list (nat * nat) :=
  match fuel with
  | O => []
  | S f =>
    match s with
    | [] => match start with Some b => [(b, pos)] | None => [] end
    | _ =>
      let (r, w) := decode_rune s in
      if is_space r then
        match start with
        | Some b => (b, pos) :: field_spans f (skipn w s) (pos + w) None
        | None => field_spans f (skipn w s) (pos + w) None
        end
      else
        field_spans f (skipn w s) (pos + w) (match start with Some b => Some b | None => Some pos end)
    end
  end.
(** Go's s[a:b] for a <= b <= len(s). bip39/bip39.go:340 *)
Definition sub_string (s : bytes) (a b : nat) : bytes := firstn (b - a) (skipn a s).
(** strings.FieldsFunc. bip39/bip39.go:340 *)
Definition FieldsFuncSpace (s : bytes) : list bytes :=
  map (fun '(a, b) => sub_string s a b) (field_spans (S (length s)) s O None).
(** a[na] = x on a slice of n strings: panics when na is not below n. bip39/bip39.go:340 *)
Fixpoint store (a : list bytes) (na : nat) (x : bytes) : outcome (list bytes) :=
  match a, na with
  | [], _ => Panic
  | _ :: r, O => Ret (x :: r)
  | y :: r, S k => let! r' := store r k x in Ret (y :: r')
  end.
(** strings.Fields, skipping a run of white space: [for i < len(s) && asciiSpace[s[i]] != 0 { i++ }]. bip39/bip39.go:340 *)
Fixpoint skip_ascii (s : bytes) : nat :=
  match s with
  | c :: r => if ascii_space c then S (skip_ascii r) else O
  | [] => O
  end.
(** strings.Fields, the fast path's main loop. bip39/bip39.go:340 *)
Fixpoint fields_loop (fuel : nat) (s : bytes) (i field_start na : nat) (a : list bytes) : outcome (list bytes) :=
  match fuel with
  | O => Panic
  | S f =>
    if (i <? length s)%nat then
      if negb (ascii_space (nth i s x00)) then fields_loop f s (S i) field_start na a
      else
        let! a := store a na (sub_string s field_start i) in
        let i := (S i + skip_ascii (skipn (S i) s))%nat in
        fields_loop f s i i (S na) a
    else if (field_start <? length s)%nat
    then store a na (sub_string s field_start (length s))
    else Ret a
  end.
(** strings.Fields. bip39/bip39.go:340 *)
Definition GoFields (s : bytes) : outcome (list bytes) :=
  let n := count_fields s true in
  if 128 <=? fold_left (fun acc c => Z.lor acc (Zb c)) s 0 then Ret (FieldsFuncSpace s)
  else
    let i := skip_ascii s in
    fields_loop (S (length s)) s i i O (repeat [] n).

(** strings.Index: where the first occurrence of [sub] starts. bip32/path.go:53-57, bip39/bip39.go:219, bip44/script.go:30-38 *)
Fixpoint Index (s sub : bytes) : option nat :=
  if is_prefix sub s then Some O
  else match s with [] => None | _ :: r => option_map S (Index r sub) end.
(** strings.Contains. bip32/path.go:55, bip44/script.go:37-38 *)
Definition GoContains (s sub : bytes) : bool := match Index s sub with Some _ => true | None => false end.
(** strings.Count for a non-empty [sub]. bip32/path.go:53-57, bip39/bip39.go:219, bip44/script.go:30-32 *)
Fixpoint Count (fuel : nat) (s sub : bytes) : nat :=
  match fuel with
  | O => O
  | S f => match Index s sub with None => O | Some i => S (Count f (skipn (i + length sub) s) sub) end
  end.
(** strings.genSplit(s, sep, 0, -1), the loop [for i < n]: [k] is n - i. bip32/path.go:53, 100, bip32/reg_ver_bytes.go:90, 108, bip39/bip39.go:219, bip44/script.go:30-32 *)
Fixpoint split_loop (k : nat) (s sep : bytes) (i : nat) (a : list bytes) : outcome (list bytes) :=
  let finish := let! a := store a i s in Ret (firstn (S i) a) in
  match k with
  | O => finish
  | S k' =>
    match Index s sep with
    | None => finish
    | Some m =>
      let! a := store a i (firstn m s) in
      split_loop k' (skipn (m + length sep) s) sep (S i) a
    end
  end.
(** strings.Split for a non-empty separator. bip32/path.go:53, 100, bip32/reg_ver_bytes.go:90, 108, bip39/bip39.go:219, bip44/script.go:30-32 *)
Definition GoSplit (s sep : bytes) : outcome (list bytes) :=
  let n := (Count (length s) s sep + 1)%nat in
  let n := if (length s + 1 <? n)%nat then (length s + 1)%nat else n in
  split_loop (n - 1) s sep O (repeat [] n).
(** strings.Replace(s, old, new, -1), the loop over the occurrences; s[start:j] with j < start panics. bip32/path.go:57, bip32/reg_ver_bytes.go:91, 109 *)
Fixpoint replace_loop (k : nat) (s old new : bytes) : outcome bytes :=
  match k with
  | O => Ret s
  | S k' =>
    match Index s old with
    | None => Panic
    | Some m => let! r := replace_loop k' (skipn (m + length old) s) old new in Ret (firstn m s ++ new ++ r)
    end
  end.
(** strings.ReplaceAll for old <> "" and old <> new. bip32/path.go:57, bip32/reg_ver_bytes.go:91, 109 *)
Definition GoReplaceAll (s old new : bytes) : outcome bytes :=
  match Count (length s) s old with
  | O => Ret s
  | m => replace_loop m s old new
  end.
