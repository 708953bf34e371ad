(** ClaimsText.v - the property statements of PropsText.v with their proofs. *)
From Verif Require Import Base GoStr SpecPath SpecText SpecCoins Bip32 Bip32PathFacts Bip44 GoStrLit GoStrLitFacts.
From Coq Require Import ZifyBool ZifyNat ZifyN.

Lemma C84_fields_l : forall s, GoFields s = Ret (Fields s).
Proof.
exact GoFields_ok.
Qed.

Lemma C84_fields_ex_l : GoFields (B " a  bc ") = Ret [B "a"; B "bc"] /\ GoFields [x61; xc2; xa0; x62; xe3; x80; x80] = Ret [[x61]; [x62]] /\ GoFields [xa0; x20; xff] = Ret [[xa0]; [xff]].
Proof.
vm_compute. repeat split.
Qed.

Lemma C84_trim_l : forall s, GoTrimSpace s = TrimSpace s.
Proof.
exact GoTrimSpace_ok.
Qed.

Lemma C84_trim_ex_l : GoTrimSpace [x20; xc2; xa0; x61; x20; x62; xe3; x80; x80; x0a] = [x61; x20; x62] /\ GoTrimSpace [x61; xa0] = [x61; xa0] /\ GoTrimSpace [x20; x09] = [].
Proof.
vm_compute. repeat split.
Qed.

Lemma C84_split_l : (forall s sep, sep <> [] -> exists ps, GoSplit s sep = Ret ps /\ Join sep ps = s /\ Forall (fun p => forall a b, p <> a ++ sep ++ b) ps) /\
(forall s c, GoSplit s [c] = Ret (Split c s)) /\
(forall s, GoSplit s (B "| ") = Ret (SplitBar s)).
Proof.
exact (conj GoSplit_spec (conj GoSplit_ok GoSplitBar_ok)).
Qed.

Lemma C84_split_ex_l : GoSplit (B "m/44'/0") (B "/") = Ret [B "m"; B "44'"; B "0"] /\ GoSplit (B "| 1 || 2") (B "| ") = Ret [[]; B "1 |"; B "2"] /\ GoSplit [] (B "/") = Ret [[]].
Proof.
vm_compute. repeat split.
Qed.

Lemma C84_replace_l : (forall s sub, GoContains s sub = true <-> exists a b, s = a ++ sub ++ b) /\
(forall s sub, GoContains s sub = Contains s sub) /\
(forall s c, GoContains s [c] = ContainsB c s) /\
(forall s c, GoReplaceAll s [c] [] = Ret (RemoveB c s)).
Proof.
refine (conj _ (conj Contains_ok (conj ContainsB_ok GoReplaceAll_ok))). exact GoContains_iff.
Qed.

Lemma C84_replace_ex_l : GoContains (B "44'") (B "'") = true /\ GoReplaceAll (B "4'4'") (B "'") [] = Ret (B "44") /\ GoContains (B "undead") (B "dead") = true.
Proof.
vm_compute. repeat split.
Qed.

Lemma C84_atoi_l : forall s,
(forall v, int_text s v -> - 2 ^ 63 <= v < 2 ^ 63 -> Atoi s = (v, None)) /\
(forall v, int_text s v -> v < - 2 ^ 63 -> Atoi s = (- 2 ^ 63, Some ErrRange)) /\
(forall v, int_text s v -> 2 ^ 63 <= v -> Atoi s = (2 ^ 63 - 1, Some ErrRange)) /\
((forall v, ~ int_text s v) -> too_long s -> Atoi s = (if negative s then - 2 ^ 63 else 2 ^ 63 - 1, Some ErrRange)) /\
((forall v, ~ int_text s v) -> ~ too_long s -> Atoi s = (0, Some ErrSyntax)).
Proof.
exact Atoi_exact.
Qed.

Lemma C84_atoi_ex_l : int_text (B "-12") (-12) /\ too_long (B "18446744073709551616x") /\ Atoi (B "18446744073709551616x") = (2 ^ 63 - 1, Some ErrRange) /\
Atoi (B "18446744073709551615x") = (0, Some ErrSyntax) /\ Atoi (B "-9223372036854775808") = (- 2 ^ 63, None).
Proof.
split; [exists (B "-"), (B "12"); split; [reflexivity|]; split; [apply Bip32PathFacts.numeral_iff; split; [discriminate|reflexivity]|right; split; reflexivity]|].
split; [|vm_compute; repeat split].
exists [], (B "18446744073709551616"), (B "x"). split; [reflexivity|]. split; [auto|]. split; [apply Bip32PathFacts.numeral_iff; split; [discriminate|reflexivity]|vm_compute; discriminate].
Qed.
