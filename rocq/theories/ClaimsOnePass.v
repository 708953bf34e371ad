(** ClaimsOnePass.v - the property statements of PropsOnePass.v with their proofs. *)
From Verif Require Import Base BaseFacts GoStr GoRegexp SpecRegexp GoRegexpIn GoRegexpLink GoRegexpParse GoRegexpParseFacts SpecPattern PatternFacts GoRegexpRun GoRegexpMain GoRegexpSound GoRegexpExact ClaimsPattern.
From Coq Require Import ZifyBool ZifyNat ZifyN.

Lemma C108_text_l : forall text R s, MustCompileText text = Ret R -> MatchString R s = Ret true ->
  exists t i j, Parse text = POk t /\ boundary s i /\ Den s t i j.
Proof.
intros text R s E M. unfold MustCompileText in E. destruct (Parse text) as [t| |] eqn:P; try discriminate. destruct (MatchString_sound t R s (Parse_ok _ _ P) E M) as (i & j & Bd & D). exists t, i, j. auto.
Qed.

Lemma C108_text_sat_l : exists R, MustCompileText (B "^x(a*b)*[mM]+$") = Ret R /\ re_onepass R <> None /\ re_prefix R = B "x" /\ MatchString R (B "xaabbMm") = Ret true /\ MatchString R (B "xaabam") = Ret false.
Proof.
destruct (MustCompileText (B "^x(a*b)*[mM]+$")) as [R|] eqn:E; [|vm_compute in E; discriminate]. exists R. split; [reflexivity|].
vm_compute in E. injection E as <-. split; [discriminate|]. split; [reflexivity|]. split; vm_compute; reflexivity.
Qed.

Lemma C108_written_l : forall p R s, p_ok p -> p_within p -> (length (w_pat p) <= 1000)%nat -> MustCompileText (w_pat p) = Ret R -> MatchString R s = Ret true ->
  exists i j, boundary s i /\ ML s p i j.
Proof.
intros p R s O W L E M. destruct (C108_text_l _ R s E M) as (t & i & j & P & Bd & D). destruct (proj1 (Parse_written p O L) W) as (re & E' & K). assert (t = re) by congruence. subst t. exists i, j. split; [exact Bd|]. apply K. exact D.
Qed.

Lemma C108_written_sat_l : exists R, p_ok version_pat /\ p_within version_pat /\ (length (w_pat version_pat) <= 1000)%nat /\ MustCompileText (w_pat version_pat) = Ret R /\ MatchString R (B "m/44'/0'") = Ret true.
Proof.
destruct (proj1 (proj2 (proj2 C106_repo_l))) as (O & W & T). rewrite T.
destruct (MustCompileText (B "^m/\d{0,8}'/\d{0,8}'$")) as [R|] eqn:E; [|vm_compute in E; discriminate]. exists R. split; [exact O|]. split; [exact W|]. split; [apply Nat.leb_le; reflexivity|]. split; [reflexivity|].
vm_compute in E. injection E as <-. vm_compute. reflexivity.
Qed.

Lemma C108_exact_l : forall text t R s, Parse text = POk t -> MustCompileText text = Ret R -> tables_ok R = true ->
  exists b, MatchString R s = Ret b /\ (b = true <-> exists i j, boundary s i /\ Den s t i j).
Proof.
intros text t R s P E T. unfold MustCompileText in E. rewrite P in E. exact (MatchString_exact t R s (Parse_ok _ _ P) E T).
Qed.

Lemma C108_exact_sat_l : exists t R, Parse (B "^x(a*b)*[mM]+$") = POk t /\ MustCompileText (B "^x(a*b)*[mM]+$") = Ret R /\ tables_ok R = true /\ re_onepass R <> None.
Proof.
destruct (Parse (B "^x(a*b)*[mM]+$")) as [t| |] eqn:P; try (vm_compute in P; discriminate).
destruct (MustCompileText (B "^x(a*b)*[mM]+$")) as [R|] eqn:E; [|vm_compute in E; discriminate]. exists t, R. split; [reflexivity|]. split; [reflexivity|].
vm_compute in E. injection E as <-. split; [vm_compute; reflexivity|discriminate].
Qed.

Lemma C108_exact_written_l : forall p R s, p_ok p -> p_within p -> (length (w_pat p) <= 1000)%nat -> MustCompileText (w_pat p) = Ret R -> tables_ok R = true ->
  exists b, MatchString R s = Ret b /\ (b = true <-> exists i j, boundary s i /\ ML s p i j).
Proof.
intros p R s O W L E T. destruct (proj1 (Parse_written p O L) W) as (re & E' & K). destruct (C108_exact_l _ re R s E' E T) as (b & Eb & H). exists b. split; [exact Eb|]. rewrite H.
split; intros (i & j & Bd & D); exists i, j; (split; [exact Bd|]); apply K; exact D.
Qed.

Lemma C108_exact_written_sat_l : exists R, p_ok version_pat /\ p_within version_pat /\ (length (w_pat version_pat) <= 1000)%nat /\ MustCompileText (w_pat version_pat) = Ret R /\ tables_ok R = true /\ re_onepass R <> None.
Proof.
destruct (proj1 (proj2 (proj2 C106_repo_l))) as (O & W & T). rewrite T.
destruct (MustCompileText (B "^m/\d{0,8}'/\d{0,8}'$")) as [R|] eqn:E; [|vm_compute in E; discriminate]. exists R. split; [exact O|]. split; [exact W|]. split; [apply Nat.leb_le; reflexivity|]. split; [reflexivity|].
vm_compute in E. injection E as <-. split; [vm_compute; reflexivity|discriminate].
Qed.

Lemma C108_tables_sat_l : Forall (fun text => exists R, MustCompileText text = Ret R /\ re_onepass R <> None /\ tables_ok R = true)
  [B "^m/\d{0,8}'/\d{0,8}'$"; B "^x(a*b)*[mM]+$"; B "^(ab?)+$"; B "^$"; B "^a$"; B "^[a-z]+(-[a-z]+)*$"; B "^a?b?c?d?e?$"; B "^\w+ \d+$"; B "^(a+b+)+$"; B "^((a?b)?c)?$"].
Proof.
assert (K : forall text, match MustCompileText text with Ret R => match re_onepass R with Some _ => tables_ok R | None => false end | Panic => false end = true ->
  exists R, MustCompileText text = Ret R /\ re_onepass R <> None /\ tables_ok R = true).
{ intros text. destruct (MustCompileText text) as [R|]; [|discriminate]. destruct (re_onepass R) eqn:O; [|discriminate]. intros T. exists R. rewrite O. split; [reflexivity|]. split; [discriminate|exact T]. }
repeat constructor; apply K; vm_compute; reflexivity.
Qed.

Lemma C108_engines_l : forall text R s, MustCompileText text = Ret R ->
  exists o, doExecute R s 0 0 = Ret o /\ (MatchString R s = Ret true -> o <> None) /\
    (tables_ok R = true -> MatchString R s = Ret (match o with Some _ => true | None => false end)).
Proof.
intros text R s E. pose proof (fun M => C108_text_l text R s E M) as Sd. unfold MustCompileText in E. destruct (Parse text) as [t| |] eqn:P; try discriminate.
pose proof (Parse_ok _ _ P) as Ok. destruct (doExecute_ok t R s 0 0 (MustCompile_good _ _ Ok E) ltac:(lia) ltac:(discriminate)) as (o & Eo & H). exists o. split; [exact Eo|].
assert (X : o <> None <-> exists i j, boundary s i /\ Den s t i j).
{ rewrite H. split; intros (i & j & F & D); exists i, j; (split; [apply from_boundary, F|exact D]). }
split.
- intros M. apply X. destruct (Sd M) as (t' & i & j & P' & Bd & D). injection P' as ->. exists i, j. auto.
- intros T. destruct (MatchString_exact t R s Ok E T) as (b & Eb & Hb). rewrite Eb. f_equal. rewrite <- X in Hb. destruct o, b; try reflexivity; exfalso.
  + assert (false = true) by (apply Hb; discriminate). discriminate.
  + apply (proj1 Hb eq_refl). reflexivity.
Qed.

Lemma C108_engines_sat_l : exists R caps, MustCompileText (B "^x(a*b)*[mM]+$") = Ret R /\ re_onepass R <> None /\ tables_ok R = true /\ doExecute R (B "xabm") 0 0 = Ret (Some caps) /\ doExecute R (B "xaM") 0 0 = Ret None.
Proof.
destruct (MustCompileText (B "^x(a*b)*[mM]+$")) as [R|] eqn:E; [|vm_compute in E; discriminate]. vm_compute in E. injection E as <-.
eexists. eexists. split; [reflexivity|]. split; [discriminate|]. split; [vm_compute; reflexivity|]. split; vm_compute; reflexivity.
Qed.
