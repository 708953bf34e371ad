(** Props44.v - properties of the bip44 package (C48-C51, C63-C64).
    Every theorem is closed by the lemma of the same name in Claims44.v; an Example beside it shows that its
    hypotheses can be met. *)
From Verif Require Import Base BaseFacts GoStr GoStrFacts WordLists Bip44 Bip44Coins Slip44 SpecPath Bip32PathFacts SpecCoins Bip44Facts Bip44MdFacts Claims44.

(** (** ** C48: the coin registry after init. [booted R] ranges over the states init can leave, one for every outcome of
    the unstable sort. *) *)

Theorem C48_every_coin_valid : forall R, booted R -> length (RegCoins R) = 1136%nat /\
  forall c, In c (RegCoins R) -> CoinIsValid c = true /\ coin_ok c.
Proof. exact C48_every_coin_valid_l. Qed.
Print Assumptions C48_every_coin_valid.

Example C48_every_coin_valid_ex : exists R, booted R.
Proof. exact C48_every_coin_valid_ex_l. Qed.

Theorem C48_same_coins : forall R, booted R ->
  Permutation (map (fun c => (PathComponent c, Symbol c, CName c)) (RegCoins R)) (map (fun c => (PathComponent c, Symbol c, CName c)) RegCoins0) /\
  forall i j a b, (i < j)%nat -> nth_error (RegCoins R) i = Some a -> nth_error (RegCoins R) j = Some b -> bytes_ltb (CName b) (CName a) = false.
Proof. exact C48_same_coins_l. Qed.
Print Assumptions C48_same_coins.

Example C48_same_coins_ex : exists R, booted R.
Proof. exact C48_same_coins_ex_l. Qed.

Theorem C48_types_changed : forall R, booted R -> forall c, In c RegCoins0 ->
  (coin_ok c /\ In c (RegCoins R)) \/
  (exists t, In (c, t) mistyped /\ ~ coin_ok c /\ t <> CType c /\ In (mkCoin t (PathComponent c) (Symbol c) (CName c)) (RegCoins R)).
Proof. exact C48_types_changed_l. Qed.
Print Assumptions C48_types_changed.

Example C48_types_changed_ex : (exists c, In c RegCoins0 /\ coin_ok c) /\ exists c t, In (c, t) mistyped /\ In c RegCoins0.
Proof. exact C48_types_changed_ex_l. Qed.

Theorem C48_lookup_by_type : forall R, booted R -> forall t c, zget t (RegBip44CoinsTypeToValMap R) = Some c <-> In c (RegCoins R) /\ CType c = t.
Proof. exact C48_lookup_by_type_l. Qed.
Print Assumptions C48_lookup_by_type.

Example C48_lookup_by_type_ex : exists R c, booted R /\ In c (RegCoins R) /\ CType c = 0.
Proof. exact C48_lookup_by_type_ex_l. Qed.

Theorem C48_lookup_by_path_component : forall R, booted R -> forall p c, zget p (RegBip44CoinsPathCompToValMap R) = Some c <-> In c (RegCoins R) /\ PathComponent c = p.
Proof. exact C48_lookup_by_path_component_l. Qed.
Print Assumptions C48_lookup_by_path_component.

Example C48_lookup_by_path_component_ex : exists R c, booted R /\ In c (RegCoins R) /\ PathComponent c = 2 ^ 31.
Proof. exact C48_lookup_by_path_component_ex_l. Qed.

Theorem C48_lookups_agree : forall R, booted R -> forall t, zget t (RegBip44CoinsTypeToValMap R) = zget (t + 2 ^ 31) (RegBip44CoinsPathCompToValMap R).
Proof. exact C48_lookups_agree_l. Qed.
Print Assumptions C48_lookups_agree.

Example C48_lookups_agree_ex : exists R, booted R.
Proof. exact C48_lookups_agree_ex_l. Qed.

Theorem C48_order_irrelevant_for_numbers : forall R R', booted R -> booted R' ->
  forall t, zget t (RegBip44CoinsTypeToValMap R) = zget t (RegBip44CoinsTypeToValMap R') /\
            zget t (RegBip44CoinsPathCompToValMap R) = zget t (RegBip44CoinsPathCompToValMap R').
Proof. exact C48_order_irrelevant_for_numbers_l. Qed.
Print Assumptions C48_order_irrelevant_for_numbers.

Example C48_order_irrelevant_for_numbers_ex : exists R R', booted R /\ booted R'.
Proof. exact C48_order_irrelevant_for_numbers_ex_l. Qed.

(** (** Deviation: four coins cannot be found under the type the table gives them. *) *)

Theorem C48_source_type_refuted : forall R, booted R -> forall c t, In (c, t) mistyped -> In c RegCoins0 /\ zget (CType c) (RegBip44CoinsTypeToValMap R) <> Some c /\
  (forall d, zget (CType c) (RegBip44CoinsTypeToValMap R) = Some d -> CName d <> CName c) /\
  zget t (RegBip44CoinsTypeToValMap R) = Some (mkCoin t (PathComponent c) (Symbol c) (CName c)).
Proof. exact C48_source_type_refuted_l. Qed.
Print Assumptions C48_source_type_refuted.

Example C48_source_type_refuted_ex : exists R c t, booted R /\ In (c, t) mistyped.
Proof. exact C48_source_type_refuted_ex_l. Qed.

(** (** ** C49: lookup by name. *) *)

Theorem C49_lookup_by_name : forall R, booted R ->
  (forall n c, sget n (RegBip44CoinsNameToValMap R) = Some c -> In c (RegCoins R) /\ CName c = n) /\
  (forall c, In c (RegCoins R) -> exists d, sget (CName c) (RegBip44CoinsNameToValMap R) = Some d) /\
  (forall c, In c (RegCoins R) -> ~ In (CName c) shared_names -> sget (CName c) (RegBip44CoinsNameToValMap R) = Some c).
Proof. exact C49_lookup_by_name_l. Qed.
Print Assumptions C49_lookup_by_name.

Example C49_lookup_by_name_ex : exists R c, booted R /\ In c (RegCoins R) /\ ~ In (CName c) shared_names.
Proof. exact C49_lookup_by_name_ex_l. Qed.

(** (** Deviation: in every state, for each of the seven shared names some registered coin is not found by its name. *) *)

Theorem C49_every_coin_found_by_name_refuted : forall R, booted R -> forall n, In n shared_names ->
  exists c d, In c (RegCoins R) /\ CName c = n /\ sget n (RegBip44CoinsNameToValMap R) = Some d /\ CType d <> CType c.
Proof. exact C49_every_coin_found_by_name_refuted_l. Qed.
Print Assumptions C49_every_coin_found_by_name_refuted.

Example C49_every_coin_found_by_name_refuted_ex : exists R n, booted R /\ In n shared_names.
Proof. exact C49_every_coin_found_by_name_refuted_ex_l. Qed.

(** (** Deviation: the result for a shared name depends on what the unstable sort does: either coin may win. *) *)

Theorem C49_lookup_by_name_deterministic_refuted : forall n, In n shared_names -> exists R R' c c', booted R /\ booted R' /\
  sget n (RegBip44CoinsNameToValMap R) = Some c /\ sget n (RegBip44CoinsNameToValMap R') = Some c' /\ CType c <> CType c'.
Proof. exact C49_lookup_by_name_deterministic_refuted_l. Qed.
Print Assumptions C49_lookup_by_name_deterministic_refuted.

Example C49_lookup_by_name_deterministic_refuted_ex : In (B "Lynx") shared_names /\ In (B "Arthera") shared_names.
Proof. exact C49_lookup_by_name_deterministic_refuted_ex_l. Qed.

(** (** ** C50: Coin.IsValid. *) *)

Theorem C50_is_valid : forall c, coin_range c -> CoinIsValid c = true <-> coin_ok c.
Proof. exact C50_is_valid_l. Qed.
Print Assumptions C50_is_valid.

Example C50_is_valid_ex : (exists c, coin_range c /\ coin_ok c) /\ (exists c, coin_range c /\ ~ coin_ok c) /\
(exists c, coin_range c /\ CType c < 2 ^ 31 /\ PathComponent c = CType c + 2 ^ 31 /\ CName c = [xe2; x80; x83] /\ ~ coin_ok c).
Proof. exact C50_is_valid_ex_l. Qed.

(** (** ** C51: reading slip-0044.md. *) *)

Theorem C51_lines_independent : forall ls, ls <> [] -> Forall (fun l => ~ In x0a l) ls ->
  generateFileFromSlip44MD (Join [x0a] ls) = concat (map generateFileFromSlip44MD ls).
Proof. exact C51_lines_independent_l. Qed.
Print Assumptions C51_lines_independent.

Example C51_lines_independent_ex : Join [x0a] [B "ab"; B "c"] = [x61; x62; x0a; x63] /\ Forall (fun l => ~ In x0a l) [B "ab"; B "c"].
Proof. exact C51_lines_independent_ex_l. Qed.

(** (** Deviation: rows as those of slip-0044.md, with the path component in hexadecimal, yield nothing. *) *)

Theorem C51_hexadecimal_rows_imported_refuted : forall ls, Forall (fun l => ~ In x0a l /\ (l = [] \/ slip_row l)) ls -> generateFileFromSlip44MD (Join [x0a] ls) = [].
Proof. exact C51_hexadecimal_rows_imported_refuted_l. Qed.
Print Assumptions C51_hexadecimal_rows_imported_refuted.

Example C51_hexadecimal_rows_imported_refuted_ex : exists l, In l slip44_lines /\ ~ In x0a l /\ slip_row l.
Proof. exact C51_hexadecimal_rows_imported_refuted_ex_l. Qed.

Theorem C51_bundled_file_refuted : generateFileFromSlip44MD slip44_md = [] /\ length slip44_lines = 1312%nat.
Proof. exact C51_bundled_file_refuted_l. Qed.
Print Assumptions C51_bundled_file_refuted.

(** (** Companion: what the reader does with decimal path components. *) *)

Theorem C51_decimal_row : forall t p s n a b c d e f g h, numeral t -> numeral p -> number t < 2 ^ 32 -> number p < 2 ^ 32 ->
  Forall no_bar [s; n] -> Forall (fun w => tight w /\ ~ In x0a w) [s; n] -> s ++ n <> [] ->
  Contains n (B "reserved") = false -> Contains n (B "dead") = false ->
  generateFileFromSlip44MD (row [pad a ++ t ++ pad b; pad c ++ p ++ pad d; pad e ++ s ++ pad f; pad g ++ n ++ pad h]) =
  StringForMD (mkCoin (number t) (number p) s n) ++ B "," ++ [x0a].
Proof. exact C51_decimal_row_l. Qed.
Print Assumptions C51_decimal_row.

Example C51_decimal_row_ex : generateFileFromSlip44MD (B "| 60 | 2147483708 | ETH | Ether") = B "{Type: 60, PathComponent: 0x8000003c, Symbol: ""ETH"", Name: ""Ether""}," ++ [x0a] /\
numeral (B "60") /\ tight (B "60") /\ no_bar (B "ETH").
Proof. exact C51_decimal_row_ex_l. Qed.

(** (** What the reader makes of any row of trimmed cells. *) *)

Theorem C51_every_row : forall pre cs ws, no_bar pre -> ~ In x0a pre -> Forall2 cell_of cs ws ->
  (forall c, row_coin ws c -> generateFileFromSlip44MD (pre ++ row cs) = StringForMD c ++ B "," ++ [x0a]) /\
  ((forall c, ~ row_coin ws c) -> generateFileFromSlip44MD (pre ++ row cs) = []).
Proof. exact C51_every_row_l. Qed.
Print Assumptions C51_every_row.

Example C51_every_row_ex : Forall2 cell_of [B "60 "; B " 2147483708"; B "1"] [B "60"; B "2147483708"; B "1"] /\
row_coin [B "60"; B "2147483708"; B "Ether"] (mkCoin 60 2147483708 [] (B "Ether")) /\
row_coin [B "1"; B "2"; B "A"; B "B"; B "C"] (mkCoin 1 2 (B "A") (B "B C")) /\
(forall c, ~ row_coin [B "60"; B "2147483708"] c) /\ (forall c, ~ row_coin [B "60"; B "2147483708"; B "A"; B "reserved"] c).
Proof. exact C51_every_row_ex_l. Qed.

(** (** ** C63: the coin table and the bundled slip-0044.md. *) *)

Theorem C63_every_coin_has_a_row : forall c, In c RegCoins0 -> exists l, In l slip44_lines /\ coin_row l c.
Proof. exact C63_every_coin_has_a_row_l. Qed.
Print Assumptions C63_every_coin_has_a_row.

Theorem C63_every_row_accounted_for : forall l, In l slip44_lines -> (exists c, In c RegCoins0 /\ coin_row l c) \/ unassigned_row l.
Proof. exact C63_every_row_accounted_for_l. Qed.
Print Assumptions C63_every_row_accounted_for.

Example C63_ex : coin_row (B "| 0          | 0x80000000                    | BTC     | Bitcoin                           ") (mkCoin 0 0x80000000 (B "BTC") (B "Bitcoin")) /\
unassigned_row (B "| 658        | 0x80000292                    |         ").
Proof. exact C63_ex_l. Qed.

(** (** ** C64: the text forms of coins. *) *)

Theorem C64_string_shows_type : forall c c', coin_range c -> coin_range c' -> CoinString c = CoinString c' -> CType c = CType c'.
Proof. exact C64_string_shows_type_l. Qed.
Print Assumptions C64_string_shows_type.

Theorem C64_registered_strings_distinct : forall R, booted R -> forall c c', In c (RegCoins R) -> In c' (RegCoins R) -> CoinString c = CoinString c' -> c = c'.
Proof. exact C64_registered_strings_distinct_l. Qed.
Print Assumptions C64_registered_strings_distinct.

Example C64_registered_strings_distinct_ex : exists R c, booted R /\ In c (RegCoins R) /\ CoinString c = B "BTC - Bitcoin (Type 0)".
Proof. exact C64_registered_strings_distinct_ex_l. Qed.

Theorem C64_string_injective_refuted : exists c c', coin_range c /\ coin_range c' /\ coin_ok c /\ coin_ok c' /\ c <> c' /\ CoinString c = CoinString c'.
Proof. exact C64_string_injective_refuted_l. Qed.
Print Assumptions C64_string_injective_refuted.

Theorem C64_md_injective : forall c c', coin_range c -> coin_range c' -> ~ In x22 (Symbol c) -> ~ In x22 (Symbol c') -> StringForMD c = StringForMD c' -> c = c'.
Proof. exact C64_md_injective_l. Qed.
Print Assumptions C64_md_injective.

Example C64_md_injective_ex : coin_range (mkCoin 5 0x80000005 (B "A") (B "B")) /\ ~ In x22 (B "A") /\
StringForMD (mkCoin 5 0x80000005 (B "A") (B "B")) = B "{Type: 5, PathComponent: 0x80000005, Symbol: ""A"", Name: ""B""}".
Proof. exact C64_md_injective_ex_l. Qed.

Theorem C64_md_injective_refuted : exists c c', coin_range c /\ coin_range c' /\ coin_ok c /\ coin_ok c' /\ c <> c' /\ StringForMD c = StringForMD c'.
Proof. exact C64_md_injective_refuted_l. Qed.
Print Assumptions C64_md_injective_refuted.

(** The formats of the two printers, written out. *)

Theorem C64_formats : forall c, coin_range c -> exists t h, decimal t (CType c) /\ hexadecimal h (PathComponent c) /\
  StringForMD c = B "{Type: " ++ t ++ B ", PathComponent: 0x" ++ h ++ B ", Symbol: """ ++ Symbol c ++ B """, Name: """ ++ CName c ++ B """}" /\
  (Symbol c = [] -> CoinString c = CName c ++ B " (Type " ++ t ++ B ")") /\
  (Symbol c <> [] -> CoinString c = Symbol c ++ B " - " ++ CName c ++ B " (Type " ++ t ++ B ")").
Proof. exact C64_formats_l. Qed.
Print Assumptions C64_formats.

Example C64_formats_ex : coin_range (mkCoin 60 0x8000003c (B "ETH") (B "Ether")) /\ decimal (B "60") 60 /\ hexadecimal (B "8000003c") 0x8000003c /\ CoinString (mkCoin 60 0x8000003c (B "ETH") (B "Ether")) = B "ETH - Ether (Type 60)".
Proof. exact C64_formats_ex_l. Qed.
