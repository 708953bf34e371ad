(** PropsOnePass.v - the one-pass engine of package regexp (C108).
    Every theorem is closed by the lemma of the same name in ClaimsOnePass.v; an Example beside it shows that its
    hypotheses can be met. *)
From Verif Require Import Base BaseFacts GoStr GoRegexp SpecRegexp GoRegexpIn GoRegexpLink GoRegexpParse GoRegexpParseFacts SpecPattern PatternFacts GoRegexpExact ClaimsOnePass.

(** C108: the one-pass engine of package regexp, for every pattern. *)

Theorem C108_text : forall text R s, MustCompileText text = Ret R -> MatchString R s = Ret true ->
  exists t i j, Parse text = POk t /\ boundary s i /\ Den s t i j.
Proof. exact C108_text_l. Qed.
Print Assumptions C108_text.

Example C108_text_sat : exists R, MustCompileText (B "^x(a*b)*[mM]+$") = Ret R /\ re_onepass R <> None /\ re_prefix R = B "x" /\ MatchString R (B "xaabbMm") = Ret true /\ MatchString R (B "xaabam") = Ret false.
Proof. exact C108_text_sat_l. Qed.

Theorem C108_written : forall p R s, p_ok p -> p_within p -> (length (w_pat p) <= 1000)%nat -> MustCompileText (w_pat p) = Ret R -> MatchString R s = Ret true ->
  exists i j, boundary s i /\ ML s p i j.
Proof. exact C108_written_l. Qed.
Print Assumptions C108_written.

Example C108_written_sat : exists R, p_ok version_pat /\ p_within version_pat /\ (length (w_pat version_pat) <= 1000)%nat /\ MustCompileText (w_pat version_pat) = Ret R /\ MatchString R (B "m/44'/0'") = Ret true.
Proof. exact C108_written_sat_l. Qed.

Theorem C108_exact : forall text t R s, Parse text = POk t -> MustCompileText text = Ret R -> tables_ok R = true ->
  exists b, MatchString R s = Ret b /\ (b = true <-> exists i j, boundary s i /\ Den s t i j).
Proof. exact C108_exact_l. Qed.
Print Assumptions C108_exact.

Example C108_exact_sat : exists t R, Parse (B "^x(a*b)*[mM]+$") = POk t /\ MustCompileText (B "^x(a*b)*[mM]+$") = Ret R /\ tables_ok R = true /\ re_onepass R <> None.
Proof. exact C108_exact_sat_l. Qed.

Theorem C108_exact_written : forall p R s, p_ok p -> p_within p -> (length (w_pat p) <= 1000)%nat -> MustCompileText (w_pat p) = Ret R -> tables_ok R = true ->
  exists b, MatchString R s = Ret b /\ (b = true <-> exists i j, boundary s i /\ ML s p i j).
Proof. exact C108_exact_written_l. Qed.
Print Assumptions C108_exact_written.

Example C108_exact_written_sat : exists R, p_ok version_pat /\ p_within version_pat /\ (length (w_pat version_pat) <= 1000)%nat /\ MustCompileText (w_pat version_pat) = Ret R /\ tables_ok R = true /\ re_onepass R <> None.
Proof. exact C108_exact_written_sat_l. Qed.

Example C108_tables_sat : Forall (fun text => exists R, MustCompileText text = Ret R /\ re_onepass R <> None /\ tables_ok R = true)
  [B "^m/\d{0,8}'/\d{0,8}'$"; B "^x(a*b)*[mM]+$"; B "^(ab?)+$"; B "^$"; B "^a$"; B "^[a-z]+(-[a-z]+)*$"; B "^a?b?c?d?e?$"; B "^\w+ \d+$"; B "^(a+b+)+$"; B "^((a?b)?c)?$"].
Proof. exact C108_tables_sat_l. Qed.

Theorem C108_engines : forall text R s, MustCompileText text = Ret R ->
  exists o, doExecute R s 0 0 = Ret o /\ (MatchString R s = Ret true -> o <> None) /\
    (tables_ok R = true -> MatchString R s = Ret (match o with Some _ => true | None => false end)).
Proof. exact C108_engines_l. Qed.
Print Assumptions C108_engines.

Example C108_engines_sat : exists R caps, MustCompileText (B "^x(a*b)*[mM]+$") = Ret R /\ re_onepass R <> None /\ tables_ok R = true /\ doExecute R (B "xabm") 0 0 = Ret (Some caps) /\ doExecute R (B "xaM") 0 0 = Ret None.
Proof. exact C108_engines_sat_l. Qed.
