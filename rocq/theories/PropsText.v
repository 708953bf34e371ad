(** PropsText.v - the text functions of the Go library (C84).
    Every theorem is closed by the lemma of the same name in ClaimsText.v; an Example beside it shows that its
    hypotheses can be met. *)
From Verif Require Import Base GoStr SpecPath SpecText SpecCoins Bip32 Bip32PathFacts Bip44 GoStrLit GoStrLitFacts ClaimsText.

(** strings.Fields as the library writes it (the counted slice for ASCII texts, the spans for others) never runs past its slice and gives the words of the model. *)

Theorem C84_fields : forall s, GoFields s = Ret (Fields s).
Proof. exact C84_fields_l. Qed.
Print Assumptions C84_fields.

Example C84_fields_ex : GoFields (B " a  bc ") = Ret [B "a"; B "bc"] /\ GoFields [x61; xc2; xa0; x62; xe3; x80; x80] = Ret [[x61]; [x62]] /\ GoFields [xa0; x20; xff] = Ret [[xa0]; [xff]].
Proof. exact C84_fields_ex_l. Qed.

(** strings.TrimSpace as the library writes it: ASCII fast paths at both ends, DecodeLastRune at the right end. *)

Theorem C84_trim : forall s, GoTrimSpace s = TrimSpace s.
Proof. exact C84_trim_l. Qed.
Print Assumptions C84_trim.

Example C84_trim_ex : GoTrimSpace [x20; xc2; xa0; x61; x20; x62; xe3; x80; x80; x0a] = [x61; x20; x62] /\ GoTrimSpace [x61; xa0] = [x61; xa0] /\ GoTrimSpace [x20; x09] = [].
Proof. exact C84_trim_ex_l. Qed.

(** strings.Split: for every separator the pieces joined by it are the text and none of them contains it; for the separators of /repo they are those of the model. *)

Theorem C84_split : (forall s sep, sep <> [] -> exists ps, GoSplit s sep = Ret ps /\ Join sep ps = s /\ Forall (fun p => forall a b, p <> a ++ sep ++ b) ps) /\
(forall s c, GoSplit s [c] = Ret (Split c s)) /\
(forall s, GoSplit s (B "| ") = Ret (SplitBar s)).
Proof. exact C84_split_l. Qed.
Print Assumptions C84_split.

Example C84_split_ex : GoSplit (B "m/44'/0") (B "/") = Ret [B "m"; B "44'"; B "0"] /\ GoSplit (B "| 1 || 2") (B "| ") = Ret [[]; B "1 |"; B "2"] /\ GoSplit [] (B "/") = Ret [[]].
Proof. exact C84_split_ex_l. Qed.

(** strings.Contains and strings.ReplaceAll(s, c, ""). *)

Theorem C84_replace : (forall s sub, GoContains s sub = true <-> exists a b, s = a ++ sub ++ b) /\
(forall s sub, GoContains s sub = Contains s sub) /\
(forall s c, GoContains s [c] = ContainsB c s) /\
(forall s c, GoReplaceAll s [c] [] = Ret (RemoveB c s)).
Proof. exact C84_replace_l. Qed.
Print Assumptions C84_replace.

Example C84_replace_ex : GoContains (B "44'") (B "'") = true /\ GoReplaceAll (B "4'4'") (B "'") [] = Ret (B "44") /\ GoContains (B "undead") (B "dead") = true.
Proof. exact C84_replace_ex_l. Qed.

(** strconv.Atoi on every text. *)

Theorem C84_atoi : forall s,
(forall v, int_text s v -> - 2 ^ 63 <= v < 2 ^ 63 -> Atoi s = (v, None)) /\
(forall v, int_text s v -> v < - 2 ^ 63 -> Atoi s = (- 2 ^ 63, Some ErrRange)) /\
(forall v, int_text s v -> 2 ^ 63 <= v -> Atoi s = (2 ^ 63 - 1, Some ErrRange)) /\
((forall v, ~ int_text s v) -> too_long s -> Atoi s = (if negative s then - 2 ^ 63 else 2 ^ 63 - 1, Some ErrRange)) /\
((forall v, ~ int_text s v) -> ~ too_long s -> Atoi s = (0, Some ErrSyntax)).
Proof. exact C84_atoi_l. Qed.
Print Assumptions C84_atoi.

Example C84_atoi_ex : int_text (B "-12") (-12) /\ too_long (B "18446744073709551616x") /\ Atoi (B "18446744073709551616x") = (2 ^ 63 - 1, Some ErrRange) /\
Atoi (B "18446744073709551615x") = (0, Some ErrSyntax) /\ Atoi (B "-9223372036854775808") = (- 2 ^ 63, None).
Proof. exact C84_atoi_ex_l. Qed.
