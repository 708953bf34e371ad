(** Bip44.v - model of bip44/coin.go, bip44/coins.go (init) and bip44/script.go. *)
From Verif Require Import Base GoStr.
From Coq Require Import Permutation Sorted.

(** Coin: bip44/coin.go:8-14 *)
Record Coin := mkCoin { CType : Z; PathComponent : Z; Symbol : bytes; CName : bytes }.

(** fmt's %x of an unsigned number. bip44/coin.go:17. *)
Definition hex_text (n : Z) : bytes := if n <=? 0 then B "0" else rev (map hexdigit (digits 16 n)).

(** Coin.StringForMD: bip44/coin.go:16-20 *)
Definition StringForMD (c : Coin) : bytes :=
  B "{Type: " ++ Itoa (CType c) ++ B ", PathComponent: 0x" ++ hex_text (PathComponent c) ++
  B ", Symbol: " ++ [x22] ++ Symbol c ++ [x22] ++ B ", Name: " ++ [x22] ++ CName c ++ [x22] ++ B "}".

(** Coin.String: bip44/coin.go:22-31 *)
Definition CoinString (c : Coin) : bytes :=
  let name := match Symbol c with [] => CName c | _ => Symbol c ++ B " - " ++ CName c end in
  name ++ B " (Type " ++ Itoa (CType c) ++ B ")".

(** Coin.IsValid: bip44/coin.go:33-37; the addition is of uint32 values. *)
Definition CoinIsValid (c : Coin) : bool :=
  negb (bytes_eqb (TrimSpace (CName c) ++ TrimSpace (Symbol c)) []) &&
  (CType c <? 0x80000000) && (PathComponent c >=? 0x80000000) &&
  (u32 (CType c + 0x80000000) =? PathComponent c).

(** Go maps as association lists, newest entry first. bip44/coins.go:7-12. *)
Definition zmap (V : Type) : Type := list (Z * V).
(** reading a map of bip44/coins.go:7-12 *)
Fixpoint zget {V} (k : Z) (m : zmap V) : option V :=
  match m with [] => None | (k', v) :: r => if k =? k' then Some v else zget k r end.
(** bip44/coins.go:7-12 *)
Definition smap (V : Type) : Type := list (bytes * V).
(** reading a map of bip44/coins.go:7-12 *)
Fixpoint sget {V} (k : bytes) (m : smap V) : option V :=
  match m with [] => None | (k', v) :: r => if bytes_eqb k k' then Some v else sget k r end.

(** The package variables: bip44/coins.go:7-12 *)
Record Registry := mkReg {
  RegCoins : list Coin;
  RegBip44CoinsTypeToValMap : zmap Coin;
  RegBip44CoinsPathCompToValMap : zmap Coin;
  RegBip44CoinsNameToValMap : smap Coin
}.

(** One iteration of the loop in init, on the coin at position i: bip44/coins.go:1155-1163. *)
Definition fix_coin (c : Coin) : Coin :=
  if negb (CoinIsValid c) then mkCoin (PathComponent c mod 0x80000000) (PathComponent c) (Symbol c) (CName c) else c.
(** bip44/coins.go:1155-1163 *)
Definition init_step (R : Registry) (c : Coin) : Registry :=
  let c := fix_coin c in
  mkReg (RegCoins R ++ [c])
        ((CType c, c) :: RegBip44CoinsTypeToValMap R)
        ((PathComponent c, c) :: RegBip44CoinsPathCompToValMap R)
        ((CName c, c) :: RegBip44CoinsNameToValMap R).
(** The loop of init over the sorted slice: bip44/coins.go:1155-1163; the slice is updated in place, position by
    position. *)
Definition init_coins (sorted : list Coin) : Registry := fold_left init_step sorted (mkReg [] [] [] []).

(** Go's < on strings: byte-wise lexicographic. bip44/coins.go:1153. *)
Fixpoint bytes_ltb (a b : bytes) : bool :=
  match a, b with
  | _, [] => false
  | [], _ :: _ => true
  | x :: a', y :: b' => if Zb x =? Zb y then bytes_ltb a' b' else Zb x <? Zb y
  end.
(** sort.Slice by Name (bip44/coins.go:1152-1154) is not stable: any rearrangement of its input in which no coin is
    preceded by a coin with a greater name may result. *)
Definition sort_result (coins sorted : list Coin) : Prop :=
  Permutation sorted coins /\ StronglySorted (fun a b => bytes_ltb (CName b) (CName a) = false) sorted.

(** ** bip44/script.go *)

(** strings.Split(line, "| "): bip44/script.go:32. *)
Fixpoint SplitBar (s : bytes) : list bytes :=
  match s with
  | [] => [[]]
  | x :: r =>
    match r with
    | y :: r' =>
      if Byte.eqb x x7c && Byte.eqb y x20 then [] :: SplitBar r'
      else match SplitBar r with [] => [[x]] | w :: ws => (x :: w) :: ws end
    | [] => [[x]]
    end
  end.
(** strings.Contains: bip44/script.go:37-38. *)
Fixpoint is_prefix (p s : bytes) : bool :=
  match p, s with
  | [], _ => true
  | _, [] => false
  | x :: p', y :: s' => Byte.eqb x y && is_prefix p' s'
  end.
(** bip44/script.go:37-38 *)
Fixpoint Contains (s sub : bytes) : bool :=
  is_prefix sub s || match s with [] => false | _ :: r => Contains r sub end.
(** strconv.ParseUint(s, 10, 32); None stands for an error. bip44/script.go:41-44. *)
Definition ParseUint10 (s : bytes) : option Z :=
  match ParseUint 4294967295 s with (v, None) => Some v | _ => None end.

(** The coin read from one line, if any: bip44/script.go:32-57. [parse] is the parser of the second field, which the
    code calls with base 10. Split returns at least one element, so the slice expression [1:] does not panic. *)
Definition md_line (parse : bytes -> option Z) (line : bytes) : option Coin :=
  let fields := map TrimSpace (tl (SplitBar line)) in
  let last_ := last fields [] in
  if Nat.ltb 2 (length fields) && negb (Contains last_ (B "reserved")) && negb (Contains last_ (B "dead")) then
    match ParseUint10 (nth 0 fields []) with
    | None => None
    | Some t =>
      match parse (nth 1 fields []) with
      | None => None
      | Some pc =>
        let c := if Nat.eqb (length fields) 3 then mkCoin t pc [] (nth 2 fields [])
                 else mkCoin t pc (nth 2 fields []) (Join (B " ") (skipn 3 fields)) in
        match Symbol c, CName c with [], [] => None | _, _ => Some c end
      end
    end
  else None.
(** bip44/script.go:30-58 *)
Definition registered_coins (parse : bytes -> option Z) (st : bytes) : list Coin :=
  flat_map (fun l => match md_line parse l with Some c => [c] | None => [] end) (Split x0a st).
(** generateFileFromSlip44MD: bip44/script.go:23-66; the result is what is written to testing.go. *)
Definition generateFileFromSlip44MD (st : bytes) : bytes :=
  concat (map (fun c => StringForMD c ++ B "," ++ [x0a]) (registered_coins ParseUint10 st)).
