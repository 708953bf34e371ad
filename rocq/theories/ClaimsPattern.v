(** ClaimsPattern.v - the property statements of PropsPattern.v with their proofs. *)
From Verif Require Import Base BaseFacts GoStr GoRegexp SpecRegexp GoRegexpIn GoRegexpLink GoRegexpParse GoRegexpParseFacts SpecPattern PatternFacts ClaimsRegexp.
From Coq Require Import ZifyBool ZifyNat ZifyN.

Lemma C106_parse_l : forall p, p_ok p -> (length (w_pat p) <= 1000)%nat ->
  (p_within p -> exists re, Parse (w_pat p) = POk re /\ re_ok re /\ forall s i j, Den s re i j <-> ML s p i j) /\
  (~ p_within p -> Parse (w_pat p) = PError).
Proof.
intros p O L. destruct (Parse_written p O L) as [A N]. split; [|exact N]. intros W. destruct (A W) as (re & E & D). exists re. split; [exact E|]. split; [exact (Parse_ok _ _ E)|exact D].
Qed.

Lemma C106_parse_sat_l : p_ok (PCons (AClass true true [CRange (Plain x61) (Plain x63); CPerl false x73] true) (QExact 3) (PCons (AGroup (PCons (AEsc x2e) QQuest PNil)) (QRep 2 5) PNil)) /\
p_within (PCons (AClass true true [CRange (Plain x61) (Plain x63); CPerl false x73] true) (QExact 3) (PCons (AGroup (PCons (AEsc x2e) QQuest PNil)) (QRep 2 5) PNil)) /\
w_pat (PCons (AClass true true [CRange (Plain x61) (Plain x63); CPerl false x73] true) (QExact 3) (PCons (AGroup (PCons (AEsc x2e) QQuest PNil)) (QRep 2 5) PNil)) = B "[^]a-c\s-]{3}(\.?){2,5}" /\
p_ok (PCons (AGroup (PCons (AChar x78) (QRep 0 40) PNil)) (QExact 40) PNil) /\ ~ p_within (PCons (AGroup (PCons (AChar x78) (QRep 0 40) PNil)) (QExact 40) PNil).
Proof.
split.
{ cbn [p_ok a_ok q_ok]. split; [|split; [lia|split; [|split; [lia|exact I]]]].
  - split; [|split; [left; reflexivity|split; [discriminate|]]].
    + apply Forall_cons; [|apply Forall_cons; [right; left; reflexivity|apply Forall_nil]]. cbn [citem_ok own_in_class char_is]. split; [split; [reflexivity|intros Q; cbn in Q; decompose [or] Q; try discriminate; assumption]|]. split; [split; [reflexivity|intros Q; cbn in Q; decompose [or] Q; try discriminate; assumption]|]. exists 97, 99. split; [reflexivity|]. split; [reflexivity|lia].
    + split; [exists 48|exists 93]; (split; [unfold rune; lia|]).
      * cbn [class_mem]. split; [unfold rune; lia|]. unfold bracket_mem. intros [(i & [<-|[<-|[]]] & M)|[[_ M]|[_ M]]]; [|cbn in M; lia|lia|lia]. cbn [item_mem char_is] in M. destruct M as (a & b & -> & -> & M). vm_compute in M. destruct M as [M _]. apply M. reflexivity.
      * split; [lia|]. cbn [class_mem]. intros [_ M]. apply M. right. left. split; reflexivity.
  - split; [exists 46; reflexivity|split; [exact I|exact I]]. }
split; [cbn; lia|]. split; [reflexivity|].
split; [cbn [p_ok a_ok q_ok]; split; [|split; [lia|exact I]]; split; [|split; [lia|exact I]]; split; [reflexivity|intros Q; cbn in Q; decompose [or] Q; try discriminate; assumption]|].
intros (_ & L & _). apply Nat.leb_le in L. vm_compute in L. discriminate L.
Qed.

Lemma C106_repo_l : (p_ok path_pat /\ p_within path_pat /\ w_pat path_pat = B "^[mM](/\d+')*(/\d+)*$") /\ (p_ok space_pat /\ p_within space_pat /\ w_pat space_pat = B "\s") /\
(p_ok version_pat /\ p_within version_pat /\ w_pat version_pat = B "^m/\d{0,8}'/\d{0,8}'$") /\
(forall s i j, Den s path_re i j <-> ML s path_pat i j) /\ (forall s i j, Den s space_re i j <-> ML s space_pat i j) /\ (forall s i j, Den s version_re i j <-> ML s version_pat i j).
Proof.
assert (OC : forall c, existsb (Byte.eqb c) (B "/'m") = true -> own_char c) by (intros c K; destruct c; try discriminate K; (split; [reflexivity|intros Q; cbn in Q; decompose [or] Q; try discriminate; assumption])).
assert (P1 : p_ok path_pat /\ p_within path_pat /\ w_pat path_pat = B "^[mM](/\d+')*(/\d+)*$").
{ split; [|split; [cbn; lia|reflexivity]]. cbn [path_pat p_ok a_ok q_ok]. repeat match goal with |- _ /\ _ => split | |- True => exact I | |- own_char _ => apply OC; reflexivity | |- perl_letter _ => left; reflexivity end.
  - apply Forall_cons; [|apply Forall_cons; [|apply Forall_nil]]; (split; [reflexivity|intros Q; cbn in Q; decompose [or] Q; try discriminate; assumption]).
  - right. right. discriminate.
  - discriminate.
  - split; [exists 109|exists 48]; (split; [unfold rune; lia|]).
    { left. exists (COne (Plain x6d)). split; [left; reflexivity|reflexivity]. }
    split; [lia|]. intros [(i & [<-|[<-|[]]] & M)|[[M _]|[M _]]]; cbn in M; discriminate M. }
assert (P2 : p_ok space_pat /\ p_within space_pat /\ w_pat space_pat = B "\s") by (split; [split; [right; left; reflexivity|split; exact I]|split; [cbn; lia|reflexivity]]).
assert (P3 : p_ok version_pat /\ p_within version_pat /\ w_pat version_pat = B "^m/\d{0,8}'/\d{0,8}'$").
{ split; [|split; [cbn; lia|reflexivity]]. cbn [version_pat p_ok a_ok q_ok]. repeat match goal with |- _ /\ _ => split | |- True => exact I | |- own_char _ => apply OC; reflexivity | |- perl_letter _ => left; reflexivity end; lia. }
destruct C97_parse_l as (E1 & E2 & E3).
assert (D : forall p re t, p_ok p /\ p_within p /\ w_pat p = t -> Parse t = POk re -> (length t <=? 1000)%nat = true -> forall s i j, Den s re i j <-> ML s p i j).
{ intros p re t (O & W & T) E L. subst t. apply Nat.leb_le in L. destruct (proj1 (Parse_written p O L) W) as (re' & E' & D'). assert (re' = re) by congruence. subst re'. exact D'. }
split; [exact P1|]. split; [exact P2|]. split; [exact P3|]. split; [exact (D _ _ _ P1 E1 eq_refl)|]. split; [exact (D _ _ _ P2 E2 eq_refl)|exact (D _ _ _ P3 E3 eq_refl)].
Qed.

Lemma C106_match_l : forall p R s, p_ok p -> p_within p -> (length (w_pat p) <= 1000)%nat -> MustCompileText (w_pat p) = Ret R -> re_onepass R = None ->
  exists b, MatchString R s = Ret b /\ (b = true <-> exists i j, boundary s i /\ ML s p i j).
Proof.
intros p R s O W L M ON. destruct (C97_text_l (w_pat p) R s M ON) as (t & b & E & _ & MS & BI). destruct (proj1 (Parse_written p O L) W) as (re & E' & D). assert (t = re) by congruence. subst t.
exists b. split; [exact MS|]. rewrite BI. split; intros (i & j & Bd & K); exists i, j; (split; [exact Bd|]); apply D; exact K.
Qed.

Lemma C106_match_sat_l : exists p R, p_ok p /\ p_within p /\ (length (w_pat p) <= 1000)%nat /\ w_pat p = B "^[mM](/\d+')*(/\d+)*$" /\ MustCompileText (w_pat p) = Ret R /\ re_onepass R = None /\ MatchString R (B "M/44'/0") = Ret true.
Proof.
destruct (proj1 C106_repo_l) as (O & W & T). destruct C97_match_sat_l as (R & _ & MC & ON & MS & _). exists path_pat, R. split; [exact O|]. split; [exact W|]. split; [rewrite T; apply Nat.leb_le; reflexivity|]. split; [exact T|]. split; [|split; [exact ON|exact MS]].
unfold MustCompileText. rewrite T, (proj1 C97_parse_l). exact MC.
Qed.
