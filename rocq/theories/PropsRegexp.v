(** PropsRegexp.v - the regular expressions of package regexp (C97).
    Every theorem is closed by the lemma of the same name in ClaimsRegexp.v; an Example beside it shows that its
    hypotheses can be met. *)
From Verif Require Import Base BaseFacts GoStr GoStrLit SpecPath Rx RxFacts Bip32 GoCodec Bip32Path Bip32PathFacts Bip32Reg Bip32RegFacts GoRegexp SpecRegexp GoRegexpIn GoRegexpRun GoRegexpPike GoRegexpCode GoRegexpComp GoRegexpSimp GoRegexpMain GoRegexpLink GoRegexpOne GoRegexpSpace GoRegexpParse GoRegexpParseFacts ClaimsRegexp.

(** C97: package regexp of Go, as far as the three patterns of /repo use it: compiler, backtracking engine, Pike's machine, one-pass engine.
   [Den s re i j]: the pattern describes the bytes from i up to j of s (SpecRegexp.v). [re_ok]: ASCII literals, classes in order, bounds in order. *)

Theorem C97_match : forall parsed R s, re_ok parsed -> MustCompile parsed = Ret R -> re_onepass R = None ->
  exists b, MatchString R s = Ret b /\ (b = true <-> exists i j, boundary s i /\ Den s parsed i j).
Proof. exact C97_match_l. Qed.
Print Assumptions C97_match.

Example C97_match_sat : exists R, re_ok path_re /\ MustCompile path_re = Ret R /\ re_onepass R = None /\ MatchString R (B "M/44'/0") = Ret true /\ MatchString R (B "M/44'0") = Ret false.
Proof. exact C97_match_sat_l. Qed.

Theorem C97_engines : forall parsed R s pos ncap, re_ok parsed -> MustCompile parsed = Ret R -> (pos <= length s)%nat -> ncap <> 1%nat ->
  exists o o', backtrack (re_prog R) (re_start R) (re_cond R) s pos ncap = Ret o /\ machine (re_prog R) (re_start R) (re_cond R) s pos ncap = Ret o' /\
    (o <> None <-> o' <> None).
Proof. exact C97_engines_l. Qed.
Print Assumptions C97_engines.

Example C97_engines_sat : exists R, re_ok space_re /\ MustCompile space_re = Ret R /\ backtrack (re_prog R) (re_start R) (re_cond R) (B "m / 0") 2 2 = Ret (Some [3; 4]) /\
  machine (re_prog R) (re_start R) (re_cond R) (B "m / 0") 2 2 = Ret (Some [3; 4]).
Proof. exact C97_engines_sat_l. Qed.

Theorem C97_compiler : forall parsed, re_ok parsed -> exists p start, Compile (Simplify parsed) = Ret (p, start) /\
  forall s i, (i <= length s)%nat -> acc p s (start, i) <-> exists j, Den s parsed i j.
Proof. exact C97_compiler_l. Qed.
Print Assumptions C97_compiler.

Example C97_compiler_sat : re_ok (OpStar (OpRepeat 2 5 (OpPlus (OpLiteral true [97])))) /\ Den (B "aAa") (OpStar (OpRepeat 2 5 (OpPlus (OpLiteral true [97])))) 0 3.
Proof. exact C97_compiler_sat_l. Qed.

Theorem C97_path_match : forall s, exists b, GoPathMatch s = Ret b /\ (b = true <-> exists hs ss, path_grammar s hs ss).
Proof. exact C97_path_match_l. Qed.
Print Assumptions C97_path_match.

Theorem C97_version_match : forall s, exists b, GoVersionMatch s = Ret b /\
  (b = true <-> exists x y, s = B "m/" ++ x ++ B "'/" ++ y ++ B "'" /\ Forall digit x /\ Forall digit y /\ (length x <= 8)%nat /\ (length y <= 8)%nat).
Proof. exact C97_version_match_l. Qed.
Print Assumptions C97_version_match.

Theorem C97_strip : forall p, exists s, GoPathString p = Ret s /\ stripped p s.
Proof. exact C97_strip_l. Qed.
Print Assumptions C97_strip.

Theorem C97_model : forall s h, GoPathString s = Ret (PathString s) /\ GoPathMatch s = Ret (rx_match PathRegex s) /\
  (let! t := GoPathString (VPath h) in GoVersionMatch t) = Ret (VBIsValid h).
Proof. exact C97_model_l. Qed.
Print Assumptions C97_model.

Theorem C97_parse : Parse (B "^[mM](/\d+')*(/\d+)*$") = POk path_re /\ Parse (B "\s") = POk space_re /\ Parse (B "^m/\d{0,8}'/\d{0,8}'$") = POk version_re.
Proof. exact C97_parse_l. Qed.
Print Assumptions C97_parse.

Theorem C97_text : forall text R s, MustCompileText text = Ret R -> re_onepass R = None ->
  exists t b, Parse text = POk t /\ re_ok t /\ MatchString R s = Ret b /\ (b = true <-> exists i j, boundary s i /\ Den s t i j).
Proof. exact C97_text_l. Qed.
Print Assumptions C97_text.

Example C97_text_sat : exists R, MustCompileText (B "[^a-c](x{2,3}/)+\.") = Ret R /\ re_onepass R = None /\ MatchString R (B "axx/.") = Ret false /\ MatchString R (B "a-xx/xxx/.") = Ret true.
Proof. exact C97_text_sat_l. Qed.

Theorem C97_text_ends : forall fuel text, (length text < fuel)%nat -> parse_loop fuel text [] 0 false = parse_loop (S (length text)) text [] 0 false.
Proof. exact C97_text_ends_l. Qed.
Print Assumptions C97_text_ends.
