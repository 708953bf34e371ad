(** GoRegexpParseFacts.v - the trees that the parser of package regexp answers. *)
From Verif Require Import Base BaseFacts GoStr GoRegexp GoRegexpParse SpecRegexp.

(** a range of an ASCII pattern: within ASCII, or open upwards *)
(** In proofs; for bip32/path.go:22, 25, bip32/reg_ver_bytes.go:75. *)
Definition rng (p : Z * Z) : Prop := 0 <= fst p <= snd p /\ fst p <= 128 /\ (snd p < 128 \/ snd p = 0x10ffff).
(** In proofs; for bip32/path.go:22, 25, bip32/reg_ver_bytes.go:75. *)
Definition single_ok (it : item) : Prop := match it with SRe (OpCharClass [a; b]) => a = b -> a < 128 | _ => True end.
(** In proofs; for bip32/path.go:22, 25, bip32/reg_ver_bytes.go:75. *)
Definition item_ok (it : item) : Prop := match it with SRe re => re_ok re /\ single_ok it | SLeftParen _ => True end.

Lemma maybeConcat_none : forall st, Forall item_ok st -> Forall item_ok (fst (maybeConcat st None)).
Proof.
  intros st H. unfold maybeConcat. destruct st as [|[re|] st]; try exact H. destruct re as [|f1 r1| | | | | | | | |]; try exact H.
  destruct st as [|[re|] st]; try exact H. destruct re as [|f2 r2| | | | | | | | |]; try exact H.
  destruct (Bool.eqb f1 f2) eqn:E; [|exact H]. apply eqb_prop in E. subst f2. inversion_clear H. inversion_clear H1. cbn in *.
  constructor; [|assumption]. cbn. split; [apply Forall_app; tauto|exact I].
Qed.
Lemma push_rune_ok : forall c f st, Forall item_ok st -> 0 <= c < 128 -> (f = true -> ~ In c [75; 83; 107; 115]) -> Forall item_ok (push_rune c f st).
Proof.
  intros c f st H Hc Hf. assert (Lit : item_ok (SRe (OpLiteral f [c]))) by (split; [cbn; constructor; [split; assumption|constructor]|exact I]).
  unfold push_rune, maybeConcat. destruct st as [|[re|] st]; try (constructor; assumption). destruct re as [|f1 r1| | | | | | | | |]; try (constructor; assumption).
  destruct st as [|[re|] st]; try (constructor; assumption). destruct re as [|f2 r2| | | | | | | | |]; try (constructor; assumption).
  destruct (Bool.eqb f1 f2) eqn:E; [|constructor; assumption]. apply eqb_prop in E. subst f2. inversion_clear H. inversion_clear H1.
  constructor; [assumption|]. constructor; [|assumption]. cbn in *. split; [apply Forall_app; tauto|exact I].
Qed.
Lemma fold_ascii : forall a c, 0 <= a -> a < c -> FoldASCII a = c -> FoldASCII c = a -> a < 128 /\ ~ In a [75; 83; 107; 115].
Proof.
  intros a c H0 L E1 E2. unfold FoldASCII, SimpleFold in *.
  destruct (a =? 107) eqn:A1; destruct (a =? 115) eqn:A2; destruct (c =? 107) eqn:C1; destruct (c =? 115) eqn:C2;
  destruct ((65 <=? a) && (a <=? 90)) eqn:A3; destruct ((97 <=? a) && (a <=? 122)) eqn:A4;
  destruct ((65 <=? c) && (c <=? 90)) eqn:C3; destruct ((97 <=? c) && (c <=? 122)) eqn:C4; cbn [In]; lia.
Qed.
Lemma push_ok : forall it st, Forall item_ok st -> item_ok it -> Forall item_ok (push it st).
Proof.
  intros it st H Hi. assert (P : Forall item_ok (it :: fst (maybeConcat st None))) by (constructor; [assumption|apply maybeConcat_none; assumption]).
  unfold push. destruct it as [re|]; [|exact P]. destruct re as [| |rs| | | | | | | |]; try exact P.
  destruct rs as [|a [|b [|c [|d [|]]]]]; try exact P; cbn in Hi.
  - destruct (a =? b) eqn:E; [apply push_rune_ok; [assumption|lia|discriminate]|].
    destruct ((a + 1 =? b) && (FoldASCII a =? b) && (FoldASCII b =? a)) eqn:F; [|exact P].
    apply andb_true_iff in F as [F F3]. apply andb_true_iff in F as [F1 F2]. destruct (fold_ascii a b) as [Q1 Q2]; try lia.
    apply push_rune_ok; [assumption|lia|intros _; exact Q2].
  - destruct ((a =? b) && (c =? d) && (FoldASCII a =? c) && (FoldASCII c =? a)) eqn:F; [|exact P].
    apply andb_true_iff in F as [F F4]. apply andb_true_iff in F as [F F3]. destruct (fold_ascii a c) as [Q1 Q2]; try lia.
    apply push_rune_ok; [assumption|lia|intros _; exact Q2].
Qed.

(** classes *)
Lemma join_ok : forall lo hi l h p, rng (lo, hi) -> rng (l, h) -> join_range lo hi l h = Some p -> rng p.
Proof.
  intros lo hi l h p H1 H2 E. unfold join_range in E. destruct (_ && _) eqn:G; [|discriminate]. injection E as <-. unfold rng in *. cbn in *. lia.
Qed.
Lemma appendRange_ok : forall c lo hi, Forall rng c -> rng (lo, hi) -> Forall rng (appendRange c lo hi).
Proof.
  intros c lo hi H Hp. unfold appendRange. destruct c as [|[l1 h1] c]; [constructor; assumption|]. pose proof (Forall_inv H) as H0. pose proof (Forall_inv_tail H) as Ht.
  destruct (join_range lo hi l1 h1) eqn:E1; [constructor; [exact (join_ok _ _ _ _ _ Hp H0 E1)|assumption]|].
  destruct c as [|[l2 h2] c]; [constructor; [|constructor]; assumption|]. pose proof (Forall_inv Ht) as H1. pose proof (Forall_inv_tail Ht) as Ht2.
  destruct (join_range lo hi l2 h2) eqn:E2; [|repeat (constructor; try assumption)].
  constructor; [assumption|]. constructor; [exact (join_ok _ _ _ _ _ Hp H1 E2)|assumption].
Qed.
Lemma append_ranges_ok : forall g c, Forall rng c -> Forall rng g -> Forall rng (append_ranges c g).
Proof.
  unfold append_ranges. induction g as [|[lo hi] g IH]; intros c H G; [exact H|]. inversion_clear G. cbn. apply IH; [|assumption]. apply appendRange_ok; assumption.
Qed.
Lemma rng_intro : forall lo hi, 0 <= lo <= hi -> lo <= 128 -> hi < 128 \/ hi = 0x10ffff -> rng (lo, hi).
Proof. intros. unfold rng. cbn. tauto. Qed.
Lemma perl_escape_ok : forall c g, perl_escape c = Some g -> Forall rng g /\ class_ok 0 (flat g) /\ flat g <> [] /\ single_ok (SRe (OpCharClass (flat g))).
Proof.
  intros c g E. destruct c; cbn in E; try discriminate; injection E as <-;
  (split; [repeat (constructor; [apply rng_intro; lia|]); constructor|]; split; [cbn; lia|]; split; [discriminate|]; cbn; first [exact I|lia]).
Qed.
(** In proofs; for bip32/path.go:22, 25, bip32/reg_ver_bytes.go:75. *)
Definition low (p q : Z * Z) : Prop := fst p <= fst q.
Lemma insert_in : forall p l, Forall rng l -> rng p -> Forall rng (range_insert p l).
Proof. induction l as [|q l IH]; intros H Hp; cbn; [constructor; assumption|]. destruct (range_le p q); [constructor; assumption|]. inversion_clear H. constructor; [assumption|apply IH; assumption]. Qed.
(** In proofs; for bip32/path.go:22, 25, bip32/reg_ver_bytes.go:75. *)
Inductive asc : Z -> list (Z * Z) -> Prop := asc0 x : asc x [] | ascS x p l : x <= fst p -> asc (fst p) l -> asc x (p :: l).
Lemma insert_asc : forall p l x, asc x l -> x <= fst p -> asc x (range_insert p l).
Proof.
  induction l as [|q l IH]; intros x H Hp; cbn; [constructor; [assumption|constructor]|]. inversion_clear H. unfold range_le.
  destruct ((fst p <? fst q) || ((fst p =? fst q) && (snd q <=? snd p))) eqn:E; [constructor; [assumption|]; constructor; [lia|assumption]|].
  constructor; [assumption|]. apply IH; [assumption|lia].
Qed.
Lemma merge_ok : forall l lo hi from, asc lo l -> Forall rng l -> rng (lo, hi) -> from <= lo ->
  Forall rng (merge_ranges lo hi l) /\ class_ok from (flat (merge_ranges lo hi l)).
Proof.
  induction l as [|[l1 h1] l IH]; intros lo hi from A F R L.
  - cbn. split; [constructor; [assumption|constructor]|]. unfold rng in R. cbn in R. lia.
  - inversion_clear A. inversion_clear F. cbn [fst] in *. cbn [merge_ranges]. destruct (l1 <=? hi + 1) eqn:E.
    + apply IH; [|assumption| |assumption].
      * clear -H H0. inversion H0; subst; constructor; [lia|assumption].
      * unfold rng in *. cbn in *. destruct (hi <? h1) eqn:G; lia.
    + destruct (IH l1 h1 (hi + 1)) as [F C]; try assumption; [lia|]. split; [constructor; assumption|].
      change (flat ((lo, hi) :: merge_ranges l1 h1 l)) with (lo :: hi :: flat (merge_ranges l1 h1 l)). cbn [class_ok]. split; [unfold rng in R; cbn in R; lia|exact C].
Qed.
Lemma clean_ok : forall c, Forall rng c -> Forall rng (cleanClass c) /\ class_ok 0 (flat (cleanClass c)).
Proof.
  intros c H. unfold cleanClass. assert (A : Forall rng (fold_right range_insert [] c) /\ asc 0 (fold_right range_insert [] c)).
  { induction H as [|p c Hp H IH]; cbn; [split; constructor|]. destruct IH. split; [apply insert_in; assumption|]. apply insert_asc; [assumption|]. unfold rng in Hp. lia. }
  destruct (fold_right range_insert [] c) as [|[lo hi] l]; [split; [constructor|exact I]|]. destruct A as [F A]. inversion_clear F. inversion_clear A.
  apply merge_ok; assumption.
Qed.
Lemma negated_ok : forall g next from, Forall rng g -> class_ok next (flat g) -> 0 <= from <= next -> next <= 128 \/ 0x10ffff < next ->
  Forall rng (negated next g) /\ class_ok from (flat (negated next g)).
Proof.
  induction g as [|[lo hi] g IH]; intros next from F C L N; cbn [negated].
  - destruct (next <=? 0x10ffff) eqn:E; [|split; [constructor|exact I]]. split; [constructor; [apply rng_intro; lia|constructor]|cbn; lia].
  - inversion_clear F. unfold rng in H. cbn in H. change (flat ((lo, hi) :: g)) with (lo :: hi :: flat g) in C. cbn [class_ok] in C. destruct C as [C1 C2].
    destruct (next <=? lo - 1) eqn:E.
    + destruct (IH (hi + 1) (lo - 1 + 1)) as [F' C']; try assumption; try lia. split; [constructor; [apply rng_intro; lia|exact F']|].
      change (flat ([(next, lo - 1)] ++ negated (hi + 1) g)) with (next :: lo - 1 :: flat (negated (hi + 1) g)). cbn [class_ok]. split; [lia|exact C'].
    + cbn [app]. apply IH; try assumption; lia.
Qed.
Lemma single_flat : forall c, Forall rng c -> single_ok (SRe (OpCharClass (flat c))).
Proof.
  intros c F. destruct c as [|[a b] [|[d e] c]]; cbn; try exact I. intros ->. inversion_clear F. unfold rng in H. cbn in H. lia.
Qed.
Lemma parseEscape_ok : forall t r t', parseEscape t = POk (r, t') -> 0 <= r < 128.
Proof.
  intros t r t' E. destruct t as [|c0 [|c t]]; try discriminate. unfold parseEscape in E. destruct (128 <=? Zb c) eqn:E1; [discriminate|].
  destruct (_ || _) in E; [discriminate|]. pose proof (Zb_range c).
  assert (K : r = 7 \/ r = 12 \/ r = 10 \/ r = 13 \/ r = 9 \/ r = 11 \/ r = Zb c).
  { revert E. generalize (negb (IsWordChar (Zb c)) || (Zb c =? 95)). intros b E. destruct c; try (injection E; intros; subst; tauto);
    (destruct b; [injection E; intros; subst; tauto|discriminate E]). }
  lia.
Qed.
Lemma parseClassChar_ok : forall t r t', parseClassChar t = POk (r, t') -> 0 <= r < 128.
Proof.
  intros t r t' E. destruct t as [|c t]; [discriminate|]. pose proof (Zb_range c) as Hc. unfold parseClassChar in E.
  destruct (Byte.eqb c x5c); [exact (parseEscape_ok _ _ _ E)|]. destruct (128 <=? Zb c) eqn:G; [discriminate|]. injection E as <- _. lia.
Qed.
Lemma parseClassRange_ok : forall t lo hi t', parseClassRange t = POk (lo, hi, t') -> rng (lo, hi).
Proof.
  intros t lo hi t' E. unfold parseClassRange in E. destruct (parseClassChar t) as [[l u]| |] eqn:E1; try discriminate. cbn [pbind] in E. apply parseClassChar_ok in E1.
  destruct (_ && _); [|injection E as <- <- _; apply rng_intro; lia].
  destruct (parseClassChar (tl u)) as [[h v]| |] eqn:E2; try discriminate. cbn [pbind] in E. apply parseClassChar_ok in E2. destruct (h <? l) eqn:G; [discriminate|].
  injection E as <- <- _. apply rng_intro; lia.
Qed.
Lemma parsePerl_ok : forall t g t', parsePerl t = Some (g, t') -> exists e, perl_escape e = Some g.
Proof.
  intros t g t' E. destruct t as [|d [|e t]]; try discriminate. unfold parsePerl in E. destruct (Byte.eqb d x5c); [|discriminate].
  exists e. destruct (perl_escape e); [|discriminate]. injection E as <- _. reflexivity.
Qed.
Lemma class_loop_ok : forall fuel t first c r t', Forall rng c -> class_loop fuel t first c = POk (r, t') -> Forall rng r.
Proof.
  induction fuel as [|fuel IH]; [discriminate|]. intros t first c r t' F E. cbn [class_loop] in E.
  destruct (_ && _); [injection E as <- _; exact F|]. destruct (_ && _); [discriminate|]. destruct (at_escape _ _); [discriminate|].
  destruct (parsePerl t) as [[g u]|] eqn:Ep.
  - apply parsePerl_ok in Ep. destruct Ep as [e Ee]. refine (IH _ _ _ _ _ _ E). apply append_ranges_ok; [exact F|]. apply (perl_escape_ok e g Ee).
  - destruct (parseClassRange t) as [[[lo hi] u]| |] eqn:Er; try discriminate. cbn [pbind] in E. refine (IH _ _ _ _ _ _ E).
    apply appendRange_ok; [exact F|]. exact (parseClassRange_ok _ _ _ _ Er).
Qed.
Lemma parseClass_ok : forall t re t', parseClass t = POk (re, t') -> item_ok (SRe re).
Proof.
  intros t re t' E. unfold parseClass in E. destruct (at_byte t x5e).
  - destruct (class_loop _ _ _ _) as [[c u]| |] eqn:Ec; try discriminate. cbn [pbind] in E.
    destruct (clean_ok (rev c)) as [F C]. { apply Forall_rev. exact (class_loop_ok _ _ _ _ _ _ (Forall_nil _) Ec). }
    destruct (negated_ok _ 0 0 F C) as [F' C']; try lia. destruct (negated 0 (cleanClass (rev c))) as [|p l] eqn:En; [discriminate|]. injection E as <- _.
    split; [split; [exact C'|destruct p; discriminate]|apply single_flat; exact F'].
  - destruct (class_loop _ _ _ _) as [[c u]| |] eqn:Ec; try discriminate. cbn [pbind] in E.
    destruct (clean_ok (rev c)) as [F C]. { apply Forall_rev. exact (class_loop_ok _ _ _ _ _ _ (Forall_nil _) Ec). }
    destruct (cleanClass (rev c)) as [|p l] eqn:En; [discriminate|]. injection E as <- _.
    split; [split; [exact C|destruct p; discriminate]|apply single_flat; exact F].
Qed.

(** the stack *)
Lemma above_ok : forall st subs l st', above st subs = (l, st') -> Forall item_ok st -> Forall (fun re => item_ok (SRe re)) subs ->
  Forall (fun re => item_ok (SRe re)) l /\ Forall item_ok st'.
Proof.
  induction st as [|[re|] st IH]; intros subs l st' E F S; cbn in E; try (injection E as <- <-; split; assumption).
  inversion_clear F. apply IH in E; [exact E|assumption|constructor; assumption].
Qed.
Lemma collapse_ok : forall l, Forall (fun re => item_ok (SRe re)) l -> item_ok (SRe (collapse l)).
Proof.
  intros [|re l] F; [split; exact I|]. inversion_clear F. cbn [collapse]. revert re H H0. induction l as [|b l IH]; intros re H F; [exact H|]. inversion_clear F. cbn. apply IH; [|assumption].
  split; [|exact I]. destruct H, H0. split; assumption.
Qed.
Lemma concat_ok : forall st, Forall item_ok st -> Forall item_ok (concat_top st).
Proof.
  intros st F. unfold concat_top. destruct (above (fst (maybeConcat st None)) []) as [l st'] eqn:E.
  destruct (above_ok _ _ _ _ E (maybeConcat_none _ F) (Forall_nil _)) as [H1 H2]. apply push_ok; [exact H2|]. apply collapse_ok. exact H1.
Qed.
Lemma alternate_ok : forall st st', alternate_top st = POk st' -> st' = st.
Proof.
  intros st st' E. unfold alternate_top in E. destruct st as [|[re|] st]; try (injection E as <-; reflexivity).
  destruct re as [| |rs| | | | | | | |]; try (injection E as <-; reflexivity).
  destruct rs as [|a [|b [|c [|d [|]]]]]; try (injection E as <-; reflexivity); (destruct (_ && _) in E; [discriminate|injection E as <-; reflexivity]).
Qed.
Lemma right_ok : forall st st', Forall item_ok st -> parseRightParen st = POk st' -> Forall item_ok st'.
Proof.
  intros st st' F E. unfold parseRightParen in E. destruct (alternate_top (concat_top st)) as [u| |] eqn:Ea; try discriminate. cbn [pbind] in E. apply alternate_ok in Ea. subst u.
  apply concat_ok in F. destruct (concat_top st) as [|[re|] [|[re'|cap] u]]; try discriminate. injection E as <-. inversion_clear F. inversion_clear H0.
  apply (push_ok (SRe (OpCapture cap re)) u); [assumption|]. destruct H. split; [assumption|exact I].
Qed.
Lemma repeat_ok : forall mk last after st st', Forall item_ok st -> (forall re, re_ok re -> item_ok (SRe (mk re))) ->
  repeat_top mk last after st = POk st' -> Forall item_ok st'.
Proof.
  intros mk last after st st' F M E. unfold repeat_top in E. destruct last; [discriminate|]. destruct (at_byte after x3f); [discriminate|].
  destruct st as [|[re|] st]; try discriminate. inversion_clear F. destruct H. destruct (match mk re with OpRepeat _ _ _ => _ | _ => _ end); [discriminate|].
  injection E as <-. constructor; [apply M; assumption|assumption].
Qed.
Lemma literal_ok : forall r, 0 <= r < 128 -> item_ok (SRe (OpLiteral false [r])).
Proof. intros r H. split; [|exact I]. cbn. constructor; [|constructor]. split; [exact H|discriminate]. Qed.
Lemma parse_loop_ok : forall fuel t st ncap last st', Forall item_ok st -> parse_loop fuel t st ncap last = POk st' -> Forall item_ok st'.
Proof.
  induction fuel as [|fuel IH]; [discriminate|]. intros t st ncap last st' F E. cbn [parse_loop] in E.
  assert (R : forall mk after, (forall re, re_ok re -> item_ok (SRe (mk re))) ->
    pbind (repeat_top mk last after st) (fun st => parse_loop fuel after st ncap true) = POk st' -> Forall item_ok st').
  { intros mk after M Q. destruct (repeat_top mk last after st) as [u| |] eqn:Er; try discriminate. cbn [pbind] in Q. exact (IH _ _ _ _ _ (repeat_ok _ _ _ _ _ F M Er) Q). }
  assert (L : forall r t, 0 <= r < 128 -> parse_loop fuel t (push (SRe (OpLiteral false [r])) st) ncap false = POk st' -> Forall item_ok st').
  { intros r u Hr Q. refine (IH _ _ _ _ _ _ Q). apply push_ok; [exact F|apply literal_ok; exact Hr]. }
  destruct t as [|c t]; [injection E as <-; exact F|]. pose proof (Zb_range c) as Hc.
  destruct (Byte.eqb c x28); [destruct (at_byte t x3f); [discriminate|]; refine (IH _ _ _ _ _ _ E); apply push_ok; [exact F|exact I]|].
  destruct (Byte.eqb c x7c); [discriminate|].
  destruct (Byte.eqb c x29). { destruct (parseRightParen st) as [u| |] eqn:Er; try discriminate. cbn [pbind] in E. exact (IH _ _ _ _ _ (right_ok _ _ F Er) E). }
  destruct (Byte.eqb c x5e); [refine (IH _ _ _ _ _ _ E); apply push_ok; [exact F|split; exact I]|].
  destruct (Byte.eqb c x24); [refine (IH _ _ _ _ _ _ E); apply push_ok; [exact F|split; exact I]|].
  destruct (Byte.eqb c x2e); [discriminate|].
  destruct (Byte.eqb c x5b). { destruct (parseClass t) as [[re u]| |] eqn:Ec; try discriminate. cbn [pbind] in E. refine (IH _ _ _ _ _ _ E). apply push_ok; [exact F|]. exact (parseClass_ok _ _ _ Ec). }
  destruct (Byte.eqb c x2a); [refine (R _ _ _ E); intros re Hr; split; [exact Hr|exact I]|].
  destruct (Byte.eqb c x2b); [refine (R _ _ _ E); intros re Hr; split; [exact Hr|exact I]|].
  destruct (Byte.eqb c x3f); [refine (R _ _ _ E); intros re Hr; split; [exact Hr|exact I]|].
  destruct (Byte.eqb c x7b).
  { destruct (parseRepeat (c :: t)) as [[[min max] after]|]; [|refine (L _ _ _ E); cbn; lia].
    destruct (_ || _) eqn:G; [discriminate|]. destruct (max <? 0) eqn:G2; [discriminate|]. refine (R _ _ _ E). intros re Hr. split; [|exact I]. cbn [re_ok].
    split; [|exact Hr]. apply orb_false_iff in G as [G G1]. lia. }
  destruct (Byte.eqb c x5c).
  { destruct (at_escape _ _); [discriminate|]. destruct (parsePerl (c :: t)) as [[g u]|] eqn:Ep.
    - apply parsePerl_ok in Ep. destruct Ep as [e Ee]. destruct (perl_escape_ok e g Ee) as (_ & P1 & P2 & P3). refine (IH _ _ _ _ _ _ E). apply push_ok; [exact F|].
      split; [split; assumption|exact P3].
    - destruct (parseEscape (c :: t)) as [[r u]| |] eqn:Er; try discriminate. cbn [pbind] in E. exact (L _ _ (parseEscape_ok _ _ _ Er) E). }
  destruct (128 <=? Zb c) eqn:G; [discriminate|]. refine (L _ _ _ E). lia.
Qed.
Theorem Parse_ok : forall s re, Parse s = POk re -> re_ok re.
Proof.
  intros s re E. unfold Parse in E. destruct (1000 <? length s)%nat; [discriminate|]. destruct (parse_loop _ s [] 0 false) as [st| |] eqn:El; try discriminate. cbn [pbind] in E.
  destruct (alternate_top (concat_top st)) as [u| |] eqn:Ea; try discriminate. cbn [pbind] in E. apply alternate_ok in Ea. subst u.
  pose proof (concat_ok _ (parse_loop_ok _ _ _ _ _ _ (Forall_nil _) El)) as F. destruct (concat_top st) as [|[re'|] [|]]; try discriminate. injection E as <-.
  inversion_clear F. destruct H. assumption.
Qed.

(** the fuel never runs out: any larger amount gives the same answer *)
Lemma escape_len : forall t r t', parseEscape t = POk (r, t') -> (length t' < length t)%nat.
Proof.
  intros t r t' E. destruct t as [|c0 [|c t]]; try discriminate. unfold parseEscape in E. destruct (128 <=? Zb c); [discriminate|]. destruct (_ || _) in E; [discriminate|].
  assert (K : t' = t).
  { revert E. generalize (negb (IsWordChar (Zb c)) || (Zb c =? 95)). intros b E. destruct c; try (injection E; intros; subst; reflexivity);
    (destruct b; [injection E; intros; subst; reflexivity|discriminate E]). }
  subst t'. cbn. lia.
Qed.
Lemma char_len : forall t r t', parseClassChar t = POk (r, t') -> (length t' < length t)%nat.
Proof.
  intros t r t' E. destruct t as [|c t]; [discriminate|]. unfold parseClassChar in E. destruct (Byte.eqb c x5c); [exact (escape_len _ _ _ E)|].
  destruct (128 <=? Zb c); [discriminate|]. injection E as _ <-. cbn. lia.
Qed.
Lemma tl_len : forall t : bytes, (length (tl t) <= length t)%nat.
Proof. destruct t; cbn; lia. Qed.
Lemma range_len : forall t lo hi t', parseClassRange t = POk (lo, hi, t') -> (length t' < length t)%nat.
Proof.
  intros t lo hi t' E. unfold parseClassRange in E. destruct (parseClassChar t) as [[l u]| |] eqn:E1; try discriminate. cbn [pbind] in E. apply char_len in E1.
  destruct (_ && _); [|injection E as _ _ <-; exact E1].
  destruct (parseClassChar (tl u)) as [[h v]| |] eqn:E2; try discriminate. cbn [pbind] in E. apply char_len in E2. destruct (h <? l); [discriminate|].
  injection E as _ _ <-. pose proof (tl_len u). lia.
Qed.
Lemma perl_len : forall t g t', parsePerl t = Some (g, t') -> (length t' < length t)%nat.
Proof.
  intros t g t' E. destruct t as [|d [|e t]]; try discriminate. unfold parsePerl in E. destruct (Byte.eqb d x5c); [|discriminate]. destruct (perl_escape e); [|discriminate].
  injection E as _ <-. cbn. lia.
Qed.
Lemma class_fuel : forall f1 f2 t first c, (length t < f1)%nat -> (length t < f2)%nat -> class_loop f1 t first c = class_loop f2 t first c.
Proof.
  induction f1 as [|f1 IH]; intros f2 t first c L1 L2; [lia|]. destruct f2 as [|f2]; [lia|]. cbn [class_loop].
  destruct (_ && _); [reflexivity|]. destruct (_ && _); [reflexivity|]. destruct (at_escape _ _); [reflexivity|].
  destruct (parsePerl t) as [[g u]|] eqn:Ep; [apply perl_len in Ep; apply IH; lia|].
  destruct (parseClassRange t) as [[[lo hi] u]| |] eqn:Er; try reflexivity. apply range_len in Er. cbn [pbind]. apply IH; lia.
Qed.
Lemma class_loop_len : forall fuel t first c r t', class_loop fuel t first c = POk (r, t') -> (length t' <= length t)%nat.
Proof.
  induction fuel as [|fuel IH]; [discriminate|]. intros t first c r t' E. cbn [class_loop] in E.
  destruct (_ && _); [injection E as _ <-; apply tl_len|]. destruct (_ && _); [discriminate|]. destruct (at_escape _ _); [discriminate|].
  destruct (parsePerl t) as [[g u]|] eqn:Ep; [apply perl_len in Ep; apply IH in E; lia|].
  destruct (parseClassRange t) as [[[lo hi] u]| |] eqn:Er; try discriminate. apply range_len in Er. cbn [pbind] in E. apply IH in E. lia.
Qed.
Lemma class_len : forall t re t', parseClass t = POk (re, t') -> (length t' <= length t)%nat.
Proof.
  intros t re t' E. unfold parseClass in E. destruct (class_loop _ _ _ _) as [[c u]| |] eqn:Ec; try discriminate. cbn [pbind] in E. apply class_loop_len in Ec.
  assert (L : (length u <= length t)%nat) by (destruct (at_byte t x5e); [pose proof (tl_len t)|]; lia).
  revert E. generalize (if at_byte t x5e then negated 0 (cleanClass (rev c)) else cleanClass (rev c)). intros [|p l] E; [discriminate|]. injection E as _ <-. exact L.
Qed.
Lemma split_len : forall t d r, digits_split t = (d, r) -> (length r <= length t)%nat.
Proof.
  induction t as [|c t IH]; intros d r E; cbn in E; [injection E as _ <-; apply le_n|]. destruct (_ && _); [|injection E as _ <-; apply le_n].
  destruct (digits_split t) as [d' r']. injection E as _ <-. specialize (IH _ _ eq_refl). cbn. lia.
Qed.
Lemma int_len : forall t n r, parseInt t = Some (n, r) -> (length r <= length t)%nat.
Proof.
  intros t n r E. unfold parseInt in E. destruct (digits_split t) as [[|c ds] r'] eqn:D; [discriminate|]. apply split_len in D. destruct (_ && _); [discriminate|].
  injection E as _ <-. exact D.
Qed.
Lemma repeat_len : forall t min max r, t <> [] -> parseRepeat t = Some (min, max, r) -> (length r < length t)%nat.
Proof.
  intros t min max r N E. destruct t as [|c t]; [congruence|]. unfold parseRepeat in E. cbn [tl] in E. destruct (parseInt t) as [[mn s]|] eqn:E1; [|discriminate]. apply int_len in E1.
  pose proof (tl_len s). pose proof (tl_len (tl s)). cbn [length].
  destruct (negb (at_byte s x2c)); [destruct (at_byte s x7d); [injection E as _ _ <-; lia|discriminate]|].
  destruct (at_byte (tl s) x7d); [injection E as _ _ <-; lia|].
  destruct (parseInt (tl s)) as [[mx s']|] eqn:E2; [|discriminate]. apply int_len in E2. pose proof (tl_len s').
  destruct (at_byte s' x7d); [injection E as _ _ <-; lia|discriminate].
Qed.
Lemma parse_fuel : forall f1 f2 t st ncap last, (length t < f1)%nat -> (length t < f2)%nat -> parse_loop f1 t st ncap last = parse_loop f2 t st ncap last.
Proof.
  induction f1 as [|f1 IH]; intros f2 t st ncap last L1 L2; [lia|]. destruct f2 as [|f2]; [lia|]. cbn [parse_loop]. destruct t as [|c t]; [reflexivity|].
  cbn [length] in L1, L2.
  assert (R : forall mk after, (length after <= length t)%nat -> pbind (repeat_top mk last after st) (fun st => parse_loop f1 after st ncap true) =
    pbind (repeat_top mk last after st) (fun st => parse_loop f2 after st ncap true)).
  { intros mk after L. destruct (repeat_top mk last after st); try reflexivity. cbn [pbind]. apply IH; lia. }
  destruct (Byte.eqb c x28); [destruct (at_byte t x3f); [reflexivity|apply IH; lia]|]. destruct (Byte.eqb c x7c); [reflexivity|].
  destruct (Byte.eqb c x29); [destruct (parseRightParen st); try reflexivity; cbn [pbind]; apply IH; lia|].
  destruct (Byte.eqb c x5e); [apply IH; lia|]. destruct (Byte.eqb c x24); [apply IH; lia|]. destruct (Byte.eqb c x2e); [reflexivity|].
  destruct (Byte.eqb c x5b). { destruct (parseClass t) as [[re u]| |] eqn:E; try reflexivity. cbn [pbind]. apply class_len in E. apply IH; lia. }
  destruct (Byte.eqb c x2a); [apply R; lia|]. destruct (Byte.eqb c x2b); [apply R; lia|]. destruct (Byte.eqb c x3f); [apply R; lia|].
  destruct (Byte.eqb c x7b).
  { destruct (parseRepeat (c :: t)) as [[[min max] after]|] eqn:E; [|apply IH; lia]. apply repeat_len in E; [|discriminate]. cbn [length] in E.
    destruct (_ || _); [reflexivity|]. destruct (max <? 0); [reflexivity|]. apply R. lia. }
  destruct (Byte.eqb c x5c).
  { destruct (at_escape _ _); [reflexivity|]. destruct (parsePerl (c :: t)) as [[g u]|] eqn:E; [apply perl_len in E; cbn [length] in E; apply IH; lia|].
    destruct (parseEscape (c :: t)) as [[r u]| |] eqn:Er; try reflexivity. apply escape_len in Er. cbn [length pbind] in *. apply IH; lia. }
  destruct (128 <=? Zb c); [reflexivity|]. apply IH; lia.
Qed.
