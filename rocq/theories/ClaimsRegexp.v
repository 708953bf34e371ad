(** ClaimsRegexp.v - the property statements of PropsRegexp.v with their proofs. *)
From Verif Require Import Base BaseFacts GoStr GoStrLit SpecPath Rx RxFacts Bip32 GoCodec Bip32Path Bip32PathFacts Bip32Reg Bip32RegFacts GoRegexp SpecRegexp GoRegexpIn GoRegexpRun GoRegexpPike GoRegexpCode GoRegexpComp GoRegexpSimp GoRegexpMain GoRegexpLink GoRegexpOne GoRegexpSpace GoRegexpParse GoRegexpParseFacts.
From Coq Require Import ZifyBool ZifyNat ZifyN.

Lemma C97_match_l : forall parsed R s, re_ok parsed -> MustCompile parsed = Ret R -> re_onepass R = None ->
  exists b, MatchString R s = Ret b /\ (b = true <-> exists i j, boundary s i /\ Den s parsed i j).
Proof.
exact MatchString_ok.
Qed.

Lemma C97_match_sat_l : exists R, re_ok path_re /\ MustCompile path_re = Ret R /\ re_onepass R = None /\ MatchString R (B "M/44'/0") = Ret true /\ MatchString R (B "M/44'0") = Ret false.
Proof.
destruct (MustCompile path_re) as [R|] eqn:E; [|vm_compute in E; discriminate]. exists R. split; [exact path_re_ok|]. split; [reflexivity|].
vm_compute in E. injection E as <-. split; [reflexivity|]. split; vm_compute; reflexivity.
Qed.

Lemma C97_engines_l : forall parsed R s pos ncap, re_ok parsed -> MustCompile parsed = Ret R -> (pos <= length s)%nat -> ncap <> 1%nat ->
  exists o o', backtrack (re_prog R) (re_start R) (re_cond R) s pos ncap = Ret o /\ machine (re_prog R) (re_start R) (re_cond R) s pos ncap = Ret o' /\
    (o <> None <-> o' <> None).
Proof.
intros parsed R s pos ncap Ok E L N. destruct (MustCompile_good _ _ Ok E) as (W & T & (fuel & Es) & _).
destruct (backtrack_ok (re_prog R) s W fuel (re_start R) (re_cond R) pos ncap Es T L N) as (o & Eo & Ho).
destruct (machine_ok (re_prog R) s W ncap N (re_start R) (re_cond R) fuel Es T pos L) as (o' & Eo' & Ho').
exists o, o'. split; [exact Eo|]. split; [exact Eo'|]. rewrite Ho, Ho'. tauto.
Qed.

Lemma C97_engines_sat_l : exists R, re_ok space_re /\ MustCompile space_re = Ret R /\ backtrack (re_prog R) (re_start R) (re_cond R) (B "m / 0") 2 2 = Ret (Some [3; 4]) /\
  machine (re_prog R) (re_start R) (re_cond R) (B "m / 0") 2 2 = Ret (Some [3; 4]).
Proof.
destruct (MustCompile space_re) as [R|] eqn:E; [|vm_compute in E; discriminate]. exists R. split; [exact space_re_ok|]. split; [reflexivity|].
vm_compute in E. injection E as <-. split; vm_compute; reflexivity.
Qed.

Lemma C97_compiler_l : forall parsed, re_ok parsed -> exists p start, Compile (Simplify parsed) = Ret (p, start) /\
  forall s i, (i <= length s)%nat -> acc p s (start, i) <-> exists j, Den s parsed i j.
Proof.
intros parsed Ok. destruct (Simplify_ok parsed Ok) as [Ok' Nr]. destruct (Compile_ok _ Ok' Nr) as (p & start & n & E & W & T & C & M & _).
exists p, start. split; [exact E|]. intros s i Li. rewrite (code_acc p s _ _ _ i C M Li). split; intros (j & D); exists j; apply (Simplify_den s parsed Ok); exact D.
Qed.

Lemma C97_compiler_sat_l : re_ok (OpStar (OpRepeat 2 5 (OpPlus (OpLiteral true [97])))) /\ Den (B "aAa") (OpStar (OpRepeat 2 5 (OpPlus (OpLiteral true [97])))) 0 3.
Proof.
split. { cbn. split; [lia|]. constructor; [|constructor]. split; [lia|]. intros _ Q. repeat destruct Q as [Q|Q]; lia. }
assert (A : forall i c, nth_error (B "aAa") i = Some c -> Zb c = 97 \/ Zb c = 65 -> Den (B "aAa") (OpPlus (OpLiteral true [97])) i (i + 1)).
{ intros i c N H. eapply D_plus; [|apply D_star0]. eapply D_litS; [apply (ascii_rune _ _ c N); lia| |apply D_lit0]. unfold lit_rune. destruct H as [-> | ->]; [left; reflexivity|].
  right. split; [reflexivity|]. right. split; lia. }
eapply D_starS; [|apply D_star0]. eapply D_repS; [exact (A 0%nat x61 eq_refl (or_introl eq_refl))|]. eapply D_repS; [exact (A 1%nat x41 eq_refl (or_intror eq_refl))|].
eapply D_repS; [exact (A 2%nat x61 eq_refl (or_introl eq_refl))|]. apply D_rep0.
Qed.

Lemma C97_path_match_l : forall s, exists b, GoPathMatch s = Ret b /\ (b = true <-> exists hs ss, path_grammar s hs ss).
Proof.
intros s. exists (rx_match PathRegex s). split; [apply GoPathMatch_ok|apply PathRegex_spec].
Qed.

Lemma C97_version_match_l : forall s, exists b, GoVersionMatch s = Ret b /\
  (b = true <-> exists x y, s = B "m/" ++ x ++ B "'/" ++ y ++ B "'" /\ Forall digit x /\ Forall digit y /\ (length x <= 8)%nat /\ (length y <= 8)%nat).
Proof.
intros s. exists (rx_match hd_rx s). split; [apply GoVersionMatch_ok|]. rewrite hd_rx_spec.
assert (D : forall x, all_digits x <-> Forall digit x).
{ intros x. unfold all_digits. rewrite forallb_forall, Forall_forall. split; intros H c Hc; apply H in Hc; apply digit_iff; exact Hc. }
split; intros (x & y & E & Dx & Dy & L); exists x, y; (split; [exact E|]); (split; [apply D; exact Dx|]); (split; [apply D; exact Dy|exact L]).
Qed.

Lemma C97_strip_l : forall p, exists s, GoPathString p = Ret s /\ stripped p s.
Proof.
intros p. exists (PathString p). split; [apply GoPathString_ok|apply stripped_iff; reflexivity].
Qed.

Lemma C97_model_l : forall s h, GoPathString s = Ret (PathString s) /\ GoPathMatch s = Ret (rx_match PathRegex s) /\
  (let! t := GoPathString (VPath h) in GoVersionMatch t) = Ret (VBIsValid h).
Proof.
intros s h. split; [apply GoPathString_ok|]. split; [apply GoPathMatch_ok|]. rewrite GoPathString_ok. cbn [bind]. apply GoVersionMatch_ok.
Qed.

Lemma C97_parse_l : Parse (B "^[mM](/\d+')*(/\d+)*$") = POk path_re /\ Parse (B "\s") = POk space_re /\ Parse (B "^m/\d{0,8}'/\d{0,8}'$") = POk version_re.
Proof.
split; [|split]; vm_compute; reflexivity.
Qed.

Lemma C97_text_l : forall text R s, MustCompileText text = Ret R -> re_onepass R = None ->
  exists t b, Parse text = POk t /\ re_ok t /\ MatchString R s = Ret b /\ (b = true <-> exists i j, boundary s i /\ Den s t i j).
Proof.
intros text R s E N. unfold MustCompileText in E. destruct (Parse text) as [t| |] eqn:P; try discriminate. pose proof (Parse_ok _ _ P) as Ok.
destruct (MatchString_ok t R s Ok E N) as (b & E1 & E2). exists t, b. split; [reflexivity|]. split; [exact Ok|]. split; [exact E1|exact E2].
Qed.

Lemma C97_text_sat_l : exists R, MustCompileText (B "[^a-c](x{2,3}/)+\.") = Ret R /\ re_onepass R = None /\ MatchString R (B "axx/.") = Ret false /\ MatchString R (B "a-xx/xxx/.") = Ret true.
Proof.
destruct (MustCompileText (B "[^a-c](x{2,3}/)+\.")) as [R|] eqn:E; [|vm_compute in E; discriminate]. exists R. split; [reflexivity|].
vm_compute in E. injection E as <-. split; [reflexivity|]. split; vm_compute; reflexivity.
Qed.

Lemma C97_text_ends_l : forall fuel text, (length text < fuel)%nat -> parse_loop fuel text [] 0 false = parse_loop (S (length text)) text [] 0 false.
Proof.
intros fuel text L. apply parse_fuel; lia.
Qed.
