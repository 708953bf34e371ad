(** SpecCoins.v - specification of SLIP-44 coins, independent of the model. *)
From Verif Require Import Base SpecPath Bip44.

(** The characters with the Unicode property White_Space, in UTF-8. For bip44/coin.go:33-37. *)
Definition space_chars : list bytes :=
  [[x09]; [x0a]; [x0b]; [x0c]; [x0d]; [x20]; [xc2; x85]; [xc2; xa0]; [xe1; x9a; x80];
   [xe2; x80; x80]; [xe2; x80; x81]; [xe2; x80; x82]; [xe2; x80; x83]; [xe2; x80; x84]; [xe2; x80; x85];
   [xe2; x80; x86]; [xe2; x80; x87]; [xe2; x80; x88]; [xe2; x80; x89]; [xe2; x80; x8a];
   [xe2; x80; xa8]; [xe2; x80; xa9]; [xe2; x80; xaf]; [xe2; x81; x9f]; [xe3; x80; x80]].
(** For bip44/coin.go:33-37. *)
Definition blank (s : bytes) : Prop := exists ws, Forall (fun w => In w space_chars) ws /\ s = concat ws.

(** The fields hold uint32 values. For bip44/coin.go:8-14, 33-37. *)
Definition coin_range (c : Coin) : Prop := 0 <= CType c < 2 ^ 32 /\ 0 <= PathComponent c < 2 ^ 32.
(** SLIP-44: the path component is the type, hardened; a coin has a name or a symbol. For bip44/coin.go:8-14, 33-37. *)
Definition coin_ok (c : Coin) : Prop :=
  ~ (blank (CName c) /\ blank (Symbol c)) /\ CType c < 2 ^ 31 /\ PathComponent c = CType c + 2 ^ 31.

(** The names that occur twice in bip44/coins.go. For bip44/coins.go:1-20. *)
Definition shared_names : list bytes :=
  [B "Nexus"; B "Lynx"; B "Helium"; B "Credits"; B "Pledger"; B "Quai Network"; B "Arthera"].
(** The coins whose type and path component disagree in bip44/coins.go, and the type after init. For bip44/coins.go:1-20. *)
Definition mistyped : list (Coin * Z) :=
  [(mkCoin 1856 0x80000743 (B "TES") (B "Teslacoin"), 1859);
   (mkCoin 2182 0x80000888 (B "CHZ") (B "Chiliz"), 2184);
   (mkCoin 200665 0x80011000 (B "GENOM") (B "GENOM"), 69632);
   (mkCoin 999999 0x800c9061 (B "WTC") (B "WaltonChain"), 823393)].

(** ** Rows of the SLIP-44 table *)
(** For bip44/slip-0044.md:1-30. *)
Definition pad (n : nat) : bytes := repeat x20 n.
(** A row: cells without '|', each preceded by "| ". For bip44/slip-0044.md:1-30. *)
Definition no_bar (s : bytes) : Prop := ~ In x7c s.
(** For bip44/slip-0044.md:1-30. *)
Definition row (cells : list bytes) : bytes := concat (map (fun c => B "| " ++ c) cells).
(** The value of a hexadecimal digit, either case. For bip44/slip-0044.md:1-30. *)
Definition hex_digit (c : byte) (n : Z) : Prop :=
  0 <= n /\ (nth_error (B "0123456789abcdef") (Z.to_nat n) = Some c \/ nth_error (B "0123456789ABCDEF") (Z.to_nat n) = Some c).
(** For bip44/slip-0044.md:1-30. *)
Definition is_hexes (h : bytes) : Prop := Forall (fun c => exists n, hex_digit c n) h.
(** A row as in slip-0044.md: the second cell is 0x and hexadecimal digits. For bip44/slip-0044.md:1-30. *)
Definition slip_row (l : bytes) : Prop :=
  exists t i h j rest, Forall no_bar (t :: rest) /\ is_hexes h /\
    l = row (t :: (pad i ++ B "0x" ++ h ++ pad j) :: rest).
(** No white space at either end. For bip44/slip-0044.md:1-30. *)
Definition tight (w : bytes) : Prop :=
  forall c, In c space_chars -> (forall r, w <> c ++ r) /\ (forall r, w <> r ++ c).

(** The value of a string of hexadecimal digits. For bip44/slip-0044.md:1-30. *)
Inductive hex_number : bytes -> Z -> Prop :=
| hex_nil : hex_number [] 0
| hex_snoc h c n v : hex_number h v -> hex_digit c n -> hex_number (h ++ [c]) (16 * v + n).
(** Decimal and lower-case hexadecimal texts without leading zeros. For bip44/slip-0044.md:1-30. *)
Definition decimal (t : bytes) (n : Z) : Prop :=
  numeral t /\ number t = n /\ (t = B "0" \/ forall r, t <> x30 :: r).
(** For bip44/slip-0044.md:1-30. *)
Definition hexadecimal (h : bytes) (n : Z) : Prop :=
  h <> [] /\ hex_number h n /\ Forall (fun c => In c (B "0123456789abcdef")) h /\ (h = B "0" \/ forall r, h <> x30 :: r).
(** The row of slip-0044.md for a coin. For bip44/slip-0044.md:1-30. *)
Definition coin_row (l : bytes) (c : Coin) : Prop :=
  exists d h i j k m, numeral d /\ number d = CType c /\ hex_number h (PathComponent c) /\
    l = row [d ++ pad i; B "0x" ++ h ++ pad j; Symbol c ++ pad k; CName c ++ pad m].
(** Rows without a coin: only a number, or marked as reserved. For bip44/slip-0044.md:1-30. *)
Definition unassigned_row (l : bytes) : Prop :=
  exists d h i j k, numeral d /\ is_hexes h /\
    (l = row [d ++ pad i; B "0x" ++ h ++ pad j; pad k] \/
     exists m, l = row [d ++ pad i; B "0x" ++ h ++ pad j; B "---" ++ pad k; B "reserved" ++ pad m]).

(** ** What the reader of the table makes of a row *)
(** For bip44/script.go:23-66. *)
Definition occurs (t s : bytes) : Prop := exists a b, s = a ++ t ++ b.
(** A cell: a word without white space at its ends, between spaces. For bip44/script.go:23-66. *)
Definition cell_of (c w : bytes) : Prop := exists i j, c = pad i ++ w ++ pad j /\ no_bar w /\ tight w /\ ~ In x0a w.
(** Words separated by single spaces. For bip44/script.go:23-66. *)
Fixpoint sentence (ws : list bytes) : bytes :=
  match ws with [] => [] | [w] => w | w :: r => w ++ B " " ++ sentence r end.
(** The coin of a row: two decimal numbers below 2^32, then the name, or the symbol and the words of the name; the last
    cell mentions neither "reserved" nor "dead". For bip44/script.go:23-66. *)
Definition row_coin (ws : list bytes) (c : Coin) : Prop :=
  exists t p rest, ws = t :: p :: rest /\ numeral t /\ numeral p /\ number t < 2 ^ 32 /\ number p < 2 ^ 32 /\
    CType c = number t /\ PathComponent c = number p /\
    ((rest = [CName c] /\ Symbol c = []) \/ exists n ns, rest = Symbol c :: n :: ns /\ CName c = sentence (n :: ns)) /\
    Symbol c ++ CName c <> [] /\ ~ occurs (B "reserved") (last rest []) /\ ~ occurs (B "dead") (last rest []).
