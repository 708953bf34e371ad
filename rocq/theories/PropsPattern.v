(** PropsPattern.v - the parser of package regexp (C106).
    Every theorem is closed by the lemma of the same name in ClaimsPattern.v; an Example beside it shows that its
    hypotheses can be met. *)
From Verif Require Import Base BaseFacts GoStr GoRegexp SpecRegexp GoRegexpIn GoRegexpLink GoRegexpParse GoRegexpParseFacts SpecPattern PatternFacts ClaimsPattern.

(** C106: the parser of package regexp on all patterns of the operators used in /repo. *)

Theorem C106_parse : forall p, p_ok p -> (length (w_pat p) <= 1000)%nat ->
  (p_within p -> exists re, Parse (w_pat p) = POk re /\ re_ok re /\ forall s i j, Den s re i j <-> ML s p i j) /\
  (~ p_within p -> Parse (w_pat p) = PError).
Proof. exact C106_parse_l. Qed.
Print Assumptions C106_parse.

Example C106_parse_sat : p_ok (PCons (AClass true true [CRange (Plain x61) (Plain x63); CPerl false x73] true) (QExact 3) (PCons (AGroup (PCons (AEsc x2e) QQuest PNil)) (QRep 2 5) PNil)) /\
p_within (PCons (AClass true true [CRange (Plain x61) (Plain x63); CPerl false x73] true) (QExact 3) (PCons (AGroup (PCons (AEsc x2e) QQuest PNil)) (QRep 2 5) PNil)) /\
w_pat (PCons (AClass true true [CRange (Plain x61) (Plain x63); CPerl false x73] true) (QExact 3) (PCons (AGroup (PCons (AEsc x2e) QQuest PNil)) (QRep 2 5) PNil)) = B "[^]a-c\s-]{3}(\.?){2,5}" /\
p_ok (PCons (AGroup (PCons (AChar x78) (QRep 0 40) PNil)) (QExact 40) PNil) /\ ~ p_within (PCons (AGroup (PCons (AChar x78) (QRep 0 40) PNil)) (QExact 40) PNil).
Proof. exact C106_parse_sat_l. Qed.

Theorem C106_repo : (p_ok path_pat /\ p_within path_pat /\ w_pat path_pat = B "^[mM](/\d+')*(/\d+)*$") /\ (p_ok space_pat /\ p_within space_pat /\ w_pat space_pat = B "\s") /\
(p_ok version_pat /\ p_within version_pat /\ w_pat version_pat = B "^m/\d{0,8}'/\d{0,8}'$") /\
(forall s i j, Den s path_re i j <-> ML s path_pat i j) /\ (forall s i j, Den s space_re i j <-> ML s space_pat i j) /\ (forall s i j, Den s version_re i j <-> ML s version_pat i j).
Proof. exact C106_repo_l. Qed.
Print Assumptions C106_repo.

Theorem C106_match : forall p R s, p_ok p -> p_within p -> (length (w_pat p) <= 1000)%nat -> MustCompileText (w_pat p) = Ret R -> re_onepass R = None ->
  exists b, MatchString R s = Ret b /\ (b = true <-> exists i j, boundary s i /\ ML s p i j).
Proof. exact C106_match_l. Qed.
Print Assumptions C106_match.

Example C106_match_sat : exists p R, p_ok p /\ p_within p /\ (length (w_pat p) <= 1000)%nat /\ w_pat p = B "^[mM](/\d+')*(/\d+)*$" /\ MustCompileText (w_pat p) = Ret R /\ re_onepass R = None /\ MatchString R (B "M/44'/0") = Ret true.
Proof. exact C106_match_sat_l. Qed.
