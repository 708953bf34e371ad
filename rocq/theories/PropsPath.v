(** PropsPath.v - properties of derivation paths (C35-C39).
    Every theorem is closed by the lemma of the same name in ClaimsPath.v; an Example beside it shows that its
    hypotheses can be met. *)
From Verif Require Import Base BaseFacts GoStr GoStrFacts Rx RxFacts SpecPath Bip32Path Bip32Reg Bip32RegFacts Bip32PathFacts ClaimsPath.

(** C35. Which paths are accepted. *)

Theorem C35_grammar : forall p s, stripped p s ->
  (PathIsValid p = true <-> exists hs ss, path_grammar s hs ss /\
     Forall (fun a => number a < 2 ^ 63 /\ number a mod 2 ^ 32 < 2 ^ 31) hs /\ Forall (fun a => number a < 2 ^ 63) ss) /\
  (PathIsValid p = true <-> exists l, ValuesAtDepth p = (l, None)).
Proof. exact C35_grammar_l. Qed.
Print Assumptions C35_grammar.

Theorem C35_unambiguous : forall s hs ss hs' ss', path_grammar s hs ss -> path_grammar s hs' ss' -> hs = hs' /\ ss = ss'.
Proof. exact C35_unambiguous_l. Qed.
Print Assumptions C35_unambiguous.

Example C35_ex : stripped (B "m / 44' /0") (B "m/44'/0") /\ path_grammar (B "m/44'/0") [B "44"] [B "0"].
Proof. exact C35_ex_l. Qed.

(** C36. The values of a path. *)

Theorem C36_values : forall p s hs ss l, stripped p s -> path_grammar s hs ss -> ValuesAtDepth p = (l, None) ->
  l = 0 :: map (fun a => number a mod 2 ^ 32 + 2 ^ 31) hs ++ map (fun a => number a mod 2 ^ 32) ss /\
  (Forall (fun a => number a < 2 ^ 32) (hs ++ ss) -> l = 0 :: path_values hs ss).
Proof. exact C36_values_l. Qed.
Print Assumptions C36_values.

Theorem C36_truncation_refuted : ValuesAtDepth (B "m/4294967296") = ([0; 0], None) /\ ValuesAtDepth (B "m/0") = ([0; 0], None) /\
ValuesAtDepth (B "m/4294967296'") = ([0; 2147483648], None) /\
(forall a, numeral a -> number a < 2 ^ 63 -> ValuesAtDepth (B "m/" ++ a) = ([0; number a mod 2 ^ 32], None)).
Proof. exact C36_truncation_refuted_l. Qed.
Print Assumptions C36_truncation_refuted.

Theorem C36_errors : forall p s, stripped p s ->
  ((~ exists hs ss, path_grammar s hs ss) -> ValuesAtDepth p = ([], Some ErrUnSupportedOrInvalidPath)) /\
  (forall hs a hs' ss, path_grammar s (hs ++ a :: hs') ss -> Forall (fun b => number b < 2 ^ 63 /\ number b mod 2 ^ 32 < 2 ^ 31) hs ->
     let before := 0 :: map (fun b => number b mod 2 ^ 32 + 2 ^ 31) hs in
     (2 ^ 63 <= number a -> ValuesAtDepth p = (before, Some ErrRange)) /\
     (number a < 2 ^ 63 -> 2 ^ 31 <= number a mod 2 ^ 32 -> ValuesAtDepth p = (before, Some ErrUnSupportedOrInvalidPath))) /\
  (forall hs ss a ss', path_grammar s hs (ss ++ a :: ss') -> Forall (fun b => number b < 2 ^ 63 /\ number b mod 2 ^ 32 < 2 ^ 31) hs ->
     Forall (fun b => number b < 2 ^ 63) ss -> 2 ^ 63 <= number a ->
     ValuesAtDepth p = (0 :: map (fun b => number b mod 2 ^ 32 + 2 ^ 31) hs ++ map (fun b => number b mod 2 ^ 32) ss, Some ErrRange)).
Proof. exact C36_errors_l. Qed.
Print Assumptions C36_errors.

Example C36_ex : ValuesAtDepth (B "m/44'/7") = ([0; 2147483692; 7], None) /\ numeral (B "4294967296") /\ number (B "4294967296") = 2 ^ 32 /\
ValuesAtDepth (B "m/1'/2147483648'/3") = ([0; 2147483649], Some ErrUnSupportedOrInvalidPath) /\ 2 ^ 63 <= number (B "9223372036854775808") /\
ValuesAtDepth (B "m/1'/2/9223372036854775808/3") = ([0; 2147483649; 2], Some ErrRange) /\ ValuesAtDepth (B "x") = ([], Some ErrUnSupportedOrInvalidPath).
Proof. exact C36_ex_l. Qed.

(** C37. Formatting. *)

Theorem C37_formatting : forall p s, stripped p s ->
  PathString p = s /\ Formatted p = s /\ PathString s = s /\ PathIsValid s = PathIsValid p /\ ValuesAtDepth s = ValuesAtDepth p.
Proof. exact C37_formatting_l. Qed.
Print Assumptions C37_formatting.

Theorem C37_print_parse : forall hs ss, Forall (fun v => 0 <= v < 2 ^ 31) hs -> Forall (fun v => 0 <= v < 2 ^ 32) ss ->
  ValuesAtDepth (path_text x6d (map Itoa hs) (map Itoa ss)) = (0 :: map (fun v => v + 2 ^ 31) hs ++ ss, None).
Proof. exact C37_print_parse_l. Qed.
Print Assumptions C37_print_parse.

Theorem C37_itoa : forall v, 0 <= v -> numeral (Itoa v) /\ number (Itoa v) = v.
Proof. exact C37_itoa_l. Qed.
Print Assumptions C37_itoa.

Example C37_ex : stripped (B " m /0") (B "m/0") /\ path_text x6d (map Itoa [44; 0]) (map Itoa [5]) = B "m/44'/0'/5" /\ Forall (fun v => 0 <= v < 2 ^ 31) [44; 0].
Proof. exact C37_ex_l. Qed.

(** C38. ValueAtDepth. *)

Theorem C38_value_at_depth : forall p b, ValueAtDepth p b <> Panic /\
  (forall l, ValuesAtDepth p = (l, None) -> (length l <= 255)%nat ->
     (Zb b < Z.of_nat (length l) -> exists v, nth_error l (Z.to_nat (Zb b)) = Some v /\ ValueAtDepth p b = Ret (v, None)) /\
     (Z.of_nat (length l) <= Zb b -> ValueAtDepth p b = Ret (0, Some ErrUnSupportedOrInvalidPath))) /\
  (forall l e, ValuesAtDepth p = (l, Some e) -> ValueAtDepth p b = Ret (0, Some e)).
Proof. exact C38_value_at_depth_l. Qed.
Print Assumptions C38_value_at_depth.

Theorem C38_count_mod_256 : forall p b l, ValuesAtDepth p = (l, None) ->
  (Z.of_nat (length l) mod 256 <= Zb b -> ValueAtDepth p b = Ret (0, Some ErrUnSupportedOrInvalidPath)) /\
  (Zb b < Z.of_nat (length l) mod 256 -> exists v, nth_error l (Z.to_nat (Zb b)) = Some v /\ ValueAtDepth p b = Ret (v, None)).
Proof. exact C38_count_mod_256_l. Qed.
Print Assumptions C38_count_mod_256.

Theorem C38_count_mod_256_refuted : exists p l, ValuesAtDepth p = (l, None) /\ length l = 256%nat /\ (forall b, ValueAtDepth p b = Ret (0, Some ErrUnSupportedOrInvalidPath)).
Proof. exact C38_count_mod_256_refuted_l. Qed.
Print Assumptions C38_count_mod_256_refuted.

Example C38_ex : ValuesAtDepth (B "m/1/2") = ([0; 1; 2], None) /\ ValueAtDepth (B "m/1/2") x02 = Ret (2, None).
Proof. exact C38_ex_l. Qed.

(** C39. ReplaceValueAtDepth. *)

Theorem C39_replace : forall p s b val l, stripped p s -> ValuesAtDepth p = (l, None) -> 0 <= val < 2 ^ 32 ->
  1 <= Zb b < Z.of_nat (length l) mod 256 ->
  exists r, ReplaceValueAtDepth p b val = Ret (r, None) /\
    (let n := Z.to_nat (Zb b) in
     let txt := if val <? 2 ^ 31 then Itoa val else Itoa (val - 2 ^ 31) ++ B "'" in
     r = Join (B "/") (firstn n (Split x2f s) ++ txt :: skipn (S n) (Split x2f s)) /\
     (forall l', ValuesAtDepth r = (l', None) -> l' = firstn n l ++ val :: skipn (S n) l)).
Proof. exact C39_replace_l. Qed.
Print Assumptions C39_replace.

Theorem C39_result_valid : forall p s hs ss b val, stripped p s -> path_grammar s hs ss -> PathIsValid p = true ->
  0 <= val < 2 ^ 32 -> 1 <= Zb b < Z.of_nat (S (length hs + length ss)) mod 256 ->
  exists r, ReplaceValueAtDepth p b val = Ret (r, None) /\
    (PathIsValid r = true <->
       (val < 2 ^ 31 -> Z.of_nat (length hs) <= Zb b) /\ (2 ^ 31 <= val -> Zb b <= Z.of_nat (length hs) + 1)).
Proof. exact C39_result_valid_l. Qed.
Print Assumptions C39_result_valid.

Theorem C39_no_panic : forall p b val, ReplaceValueAtDepth p b val <> Panic /\
  (forall l e, ValuesAtDepth p = (l, Some e) -> ReplaceValueAtDepth p b val = Ret (p, Some e)) /\
  (forall l, ValuesAtDepth p = (l, None) -> Z.of_nat (length l) mod 256 <= Zb b -> ReplaceValueAtDepth p b val = Ret (p, Some ErrUnSupportedOrInvalidPath)).
Proof. exact C39_no_panic_l. Qed.
Print Assumptions C39_no_panic.

Theorem C39_depth_zero_refuted : forall p val l, ValuesAtDepth p = (l, None) -> Z.of_nat (length l) mod 256 <> 0 -> 0 <= val < 2 ^ 32 ->
  exists r, ReplaceValueAtDepth p x00 val = Ret (r, None) /\ PathIsValid r = false.
Proof. exact C39_depth_zero_refuted_l. Qed.
Print Assumptions C39_depth_zero_refuted.

Theorem C39_order_refuted : ReplaceValueAtDepth (B "m/0/0") x02 2147483648 = Ret (B "m/0/0'", None) /\ PathIsValid (B "m/0/0") = true /\ PathIsValid (B "m/0/0'") = false /\
ReplaceValueAtDepth (B "m/0'/0'") x01 7 = Ret (B "m/7/0'", None) /\ PathIsValid (B "m/0'/0'") = true /\ PathIsValid (B "m/7/0'") = false.
Proof. exact C39_order_refuted_l. Qed.
Print Assumptions C39_order_refuted.

Example C39_ex : stripped (B "m/44'/0") (B "m/44'/0") /\ path_grammar (B "m/44'/0") [B "44"] [B "0"] /\ PathIsValid (B "m/44'/0") = true /\
ReplaceValueAtDepth (B "m/44'/0") x02 5 = Ret (B "m/44'/5", None).
Proof. exact C39_ex_l. Qed.
