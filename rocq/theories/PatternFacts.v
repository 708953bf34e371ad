(** PatternFacts.v - the parser of package regexp against the written form of patterns (SpecPattern.v). *)
From Verif Require Import Base BaseFacts GoStr GoStrFacts GoRegexp SpecRegexp GoRegexpParse GoRegexpParseFacts SpecPattern.
From Coq Require Import ZifyBool ZifyNat ZifyN.

(** ** Classes as sets *)
(** In proofs; for bip32/path.go:22, 25, bip32/reg_ver_bytes.go:75. *)
Definition inset (c : list (Z * Z)) (x : Z) : Prop := Exists (fun p => fst p <= x <= snd p) c.
Lemma inset_cons p c x : inset (p :: c) x <-> fst p <= x <= snd p \/ inset c x.
Proof. unfold inset. rewrite Exists_cons. reflexivity. Qed.
Lemma inset_nil x : inset [] x <-> False.
Proof. unfold inset. rewrite Exists_nil. reflexivity. Qed.
Lemma inset_app c d x : inset (c ++ d) x <-> inset c x \/ inset d x.
Proof. unfold inset. rewrite Exists_app. reflexivity. Qed.
Lemma inset_rev c x : inset (rev c) x <-> inset c x.
Proof. unfold inset. split; intros H; [apply Exists_rev in H; rewrite rev_involutive in H|apply Exists_rev]; exact H. Qed.
Lemma in_flat c x : in_class (flat c) x <-> inset c x.
Proof. induction c as [|[lo hi] c IH]; [cbn; rewrite inset_nil; reflexivity|]. change (flat ((lo, hi) :: c)) with (lo :: hi :: flat c). cbn [in_class]. rewrite inset_cons, IH. reflexivity. Qed.
Lemma join_set lo hi l h p x : lo <= hi -> l <= h -> join_range lo hi l h = Some p -> (fst p <= x <= snd p <-> lo <= x <= hi \/ l <= x <= h).
Proof. intros L1 L2 E. unfold join_range in E. destruct (_ && _) eqn:G; [|discriminate]. injection E as <-. cbn [fst snd]. lia. Qed.
Lemma appendRange_set c lo hi x : Forall rng c -> lo <= hi -> inset (appendRange c lo hi) x <-> inset c x \/ lo <= x <= hi.
Proof.
  intros F L. unfold appendRange. destruct c as [|[l1 h1] c]; [rewrite inset_cons, inset_nil; cbn; tauto|]. pose proof (Forall_inv F) as R1. pose proof (Forall_inv_tail F) as F2. unfold rng in R1. cbn [fst snd] in R1.
  destruct (join_range lo hi l1 h1) as [p|] eqn:E1; [rewrite !inset_cons; pose proof (join_set lo hi l1 h1 p x L ltac:(lia) E1); cbn [fst snd]; tauto|].
  destruct c as [|[l2 h2] c]; [rewrite !inset_cons, inset_nil; cbn [fst snd]; tauto|]. pose proof (Forall_inv F2) as R2. unfold rng in R2. cbn [fst snd] in R2.
  destruct (join_range lo hi l2 h2) as [p|] eqn:E2; [rewrite !inset_cons; pose proof (join_set lo hi l2 h2 p x L ltac:(lia) E2); cbn [fst snd]; tauto|].
  rewrite !inset_cons. cbn [fst snd]. tauto.
Qed.
Lemma append_ranges_set g : forall c x, Forall rng c -> Forall rng g -> inset (append_ranges c g) x <-> inset c x \/ inset g x.
Proof.
  unfold append_ranges. induction g as [|[lo hi] g IH]; intros c x F G; cbn [fold_left]; [rewrite inset_nil; tauto|]. inversion_clear G. cbn [fst snd].
  rewrite IH; [|apply appendRange_ok; assumption|assumption]. rewrite appendRange_set, inset_cons; [cbn [fst snd]; tauto|assumption|unfold rng in H; cbn in H; lia].
Qed.
Lemma insert_set p l x : inset (range_insert p l) x <-> fst p <= x <= snd p \/ inset l x.
Proof. induction l as [|q l IH]; cbn [range_insert]; [rewrite inset_cons; reflexivity|]. destruct (range_le p q); rewrite !inset_cons; [reflexivity|]. rewrite IH. tauto. Qed.
Lemma merge_set l : forall lo hi x, asc lo l -> Forall rng l -> lo <= hi -> inset (merge_ranges lo hi l) x <-> lo <= x <= hi \/ inset l x.
Proof.
  induction l as [|[l1 h1] l IH]; intros lo hi x A F L; cbn [merge_ranges]; [rewrite inset_cons, inset_nil; cbn [fst snd]; tauto|].
  inversion_clear A. inversion_clear F. cbn [fst] in *. unfold rng in H1. cbn [fst snd] in H1. rewrite (inset_cons (l1, h1)). cbn [fst snd].
  destruct (l1 <=? hi + 1) eqn:E.
  - rewrite IH; [|clear -H H0; inversion H0; subst; constructor; [lia|assumption]|assumption|destruct (hi <? h1) eqn:G; lia]. destruct (hi <? h1) eqn:G; [assert (lo <= x <= h1 <-> lo <= x <= hi \/ l1 <= x <= h1) by lia|assert (lo <= x <= hi <-> lo <= x <= hi \/ l1 <= x <= h1) by lia]; tauto.
  - rewrite inset_cons. cbn [fst snd]. rewrite IH; [tauto|assumption|assumption|lia].
Qed.
Lemma clean_set c x : Forall rng c -> inset (cleanClass c) x <-> inset c x.
Proof.
  intros H. unfold cleanClass. assert (A : Forall rng (fold_right range_insert [] c) /\ asc 0 (fold_right range_insert [] c) /\ (inset (fold_right range_insert [] c) x <-> inset c x)).
  { induction H as [|p c Hp H IH]; cbn; [split; [constructor|split; [constructor|reflexivity]]|]. destruct IH as (I1 & I2 & I3). split; [apply insert_in; assumption|]. split; [apply insert_asc; [assumption|]; unfold rng in Hp; lia|]. rewrite insert_set, inset_cons, I3. reflexivity. }
  destruct A as (F & A & <-). destruct (fold_right range_insert [] c) as [|[lo hi] l]; [reflexivity|]. inversion_clear F. inversion_clear A. unfold rng in H0. cbn [fst snd] in *.
  rewrite merge_set, inset_cons; [reflexivity|assumption|assumption|lia].
Qed.
Lemma inset_low g : forall next x, class_ok next (flat g) -> inset g x -> next <= x.
Proof.
  induction g as [|[lo hi] g IH]; intros next x C I; [apply inset_nil in I; destruct I|]. change (flat ((lo, hi) :: g)) with (lo :: hi :: flat g) in C. cbn [class_ok] in C. destruct C as [C1 C2]. apply inset_cons in I. cbn [fst snd] in I. destruct I as [I|I]; [lia|]. pose proof (IH _ _ C2 I). lia.
Qed.
Lemma negated_set g : forall next x, class_ok next (flat g) -> Forall rng g -> inset (negated next g) x <-> next <= x <= 0x10ffff /\ ~ inset g x.
Proof.
  induction g as [|[lo hi] g IH]; intros next x C F; cbn [negated].
  - destruct (next <=? 0x10ffff) eqn:E; rewrite ?inset_cons, inset_nil; cbn [fst snd]; lia.
  - inversion_clear F. unfold rng in H. cbn [fst snd] in H. change (flat ((lo, hi) :: g)) with (lo :: hi :: flat g) in C. cbn [class_ok] in C. destruct C as [C1 C2].
    rewrite inset_app, IH by assumption. rewrite (inset_cons (lo, hi) g). cbn [fst snd].
    assert (P : inset (if next <=? lo - 1 then [(next, lo - 1)] else []) x <-> next <= x <= lo - 1). { destruct (next <=? lo - 1) eqn:E; rewrite ?inset_cons, inset_nil; cbn [fst snd]; lia. }
    rewrite P. split.
    + intros [K|[K1 K2]]; [|split; [lia|]; intros [Q|Q]; [lia|tauto]]. split; [lia|]. intros [Q|Q]; [lia|]. pose proof (inset_low g _ x C2 Q). lia.
    + intros [K1 K2]. destruct (Z_le_gt_dec x (lo - 1)) as [G|G]; [left; lia|]. right. split; [|tauto]. assert (~ lo <= x <= hi) by tauto. lia.
Qed.

(** ** Characters and members of classes *)
Lemma esc_facts c v t : escaped c = Some v -> 0 <= v < 128 /\ parseEscape (x5c :: c :: t) = POk (v, t) /\ parsePerl (x5c :: c :: t) = None /\
  at_escape (x5c :: c :: t) [x70; x50] = false /\ at_escape (x5c :: c :: t) (B "AbBCQzpP") = false.
Proof. intros E. destruct c; try discriminate E; injection E as <-; (split; [split; [intros Q; vm_compute in Q; discriminate Q|reflexivity]|]); repeat split; reflexivity. Qed.
Lemma in_bytes_eqb c l : ~ In c l -> forall d, In d l -> Byte.eqb c d = false.
Proof. intros N d I. destruct (Byte.eqb c d) eqn:E; [|reflexivity]. apply byte_eqb_spec in E. subst. contradiction. Qed.
Lemma perl_facts neg c : perl_letter c -> exists g, perl_escape (upper neg c) = Some g /\ (forall x, inset g x <-> perl_mem neg c x) /\
  (forall t, at_escape (x5c :: upper neg c :: t) [x70; x50] = false) /\ (forall t, at_escape (x5c :: upper neg c :: t) (B "AbBCQzpP") = false) /\ (exists x, rune x /\ x <> 10 /\ ~ perl_mem neg c x).
Proof.
  intros [<-|[<-|[<-|[]]]]; destruct neg; (eexists; split; [reflexivity|]); (split; [intros x; cbn; rewrite ?inset_cons, inset_nil; cbn; unfold rune; lia|]);
  (split; [reflexivity|]); (split; [reflexivity|]); unfold rune; cbn.
  - exists 48. lia.
  - exists 65. lia.
  - exists 32. lia.
  - exists 65. lia.
  - exists 48. lia.
  - exists 33. lia.
Qed.
Lemma char_is_fun x a b : char_is x a -> char_is x b -> a = b.
Proof. destruct x; cbn; congruence. Qed.
Lemma char_facts x : own_in_class x -> exists v, char_is x v /\ 0 <= v < 128 /\ (forall t, parseClassChar (w_char x ++ t) = POk (v, t)) /\
  forall t, at_byte (w_char x ++ t) x5d = false /\ at_byte (w_char x ++ t) x2d = false /\ at_byte (w_char x ++ t) x5b = false /\ parsePerl (w_char x ++ t) = None /\ at_escape (w_char x ++ t) [x70; x50] = false.
Proof.
  destruct x as [c|c]; cbn [own_in_class char_is w_char app].
  - intros [L N]. exists (Zb c). pose proof (Zb_range c). split; [reflexivity|]. split; [lia|]. pose proof (in_bytes_eqb c _ N) as Q.
    assert (Q1 : Byte.eqb c x5c = false) by (apply Q; cbn; tauto). assert (Q2 : Byte.eqb c x5d = false) by (apply Q; cbn; tauto). assert (Q3 : Byte.eqb c x2d = false) by (apply Q; cbn; tauto). assert (Q4 : Byte.eqb c x5b = false) by (apply Q; cbn; tauto).
    split; [intros t; cbn [parseClassChar]; rewrite Q1; assert (128 <=? Zb c = false) as -> by lia; reflexivity|].
    intros t. cbn [at_byte]. split; [exact Q2|]. split; [exact Q3|]. split; [exact Q4|]. unfold parsePerl, at_escape. destruct t as [|e t]; [split; reflexivity|]. rewrite Q1. split; reflexivity.
  - intros [v E]. exists v. split; [exact E|]. split; [exact (proj1 (esc_facts c v [] E))|]. split; [intros t; destruct (esc_facts c v t E) as (_ & P & _); exact P|].
    intros t. destruct (esc_facts c v t E) as (_ & _ & P & A & _). split; [reflexivity|]. split; [reflexivity|]. split; [reflexivity|]. split; [exact P|exact A].
Qed.
(** no range is read off the rest of a class *)
(** In proofs; for bip32/path.go:22, 25, bip32/reg_ver_bytes.go:75. *)
Definition no_range (rest : bytes) : Prop := at_byte rest x2d = false \/ exists r, rest = x2d :: x5d :: r.
Lemma one_range v t rest : parseClassChar t = POk (v, rest) -> no_range rest -> parseClassRange t = POk (v, v, rest).
Proof.
  intros E [N|(r & ->)]; unfold parseClassRange; rewrite E; cbn [pbind]; [rewrite N; reflexivity|]. cbn [at_byte tl]. change (Byte.eqb x5d x5d) with true. cbn [negb]. rewrite andb_false_r. reflexivity.
Qed.
Lemma class_step fuel t first c : at_byte t x5d && negb first = false -> at_byte t x5b = false -> at_escape t [x70; x50] = false ->
  class_loop (S fuel) t first c = match parsePerl t with
         | Some (g, t) => class_loop fuel t false (append_ranges c g)
         | None => pbind (parseClassRange t) (fun r => let '(lo, hi, t) := r in class_loop fuel t false (appendRange c lo hi))
         end.
Proof. intros E1 E2 E3. cbn [class_loop]. rewrite E1, E2, E3, andb_false_r. reflexivity. Qed.
Lemma rng_char v : 0 <= v < 128 -> rng (v, v).
Proof. intros. apply rng_intro; lia. Qed.
Lemma item_step i rest : citem_ok i -> no_range rest -> exists g, Forall rng g /\ (forall x, inset g x <-> item_mem i x) /\
  (forall fuel first c, class_loop (S fuel) (w_item i ++ rest) first c = class_loop fuel rest false (append_ranges c g)).
Proof.
  intros O N. destruct i as [x|lo hi|neg c]; cbn [citem_ok item_mem w_item] in *.
  - destruct (char_facts x O) as (v & CV & V & PC & F). exists [(v, v)]. split; [constructor; [apply rng_char; exact V|constructor]|]. split.
    { intros y. rewrite inset_cons, inset_nil. cbn [fst snd]. split; [intros [K|[]]; replace y with v by lia; exact CV|]. intros K. rewrite (char_is_fun _ _ _ K CV). lia. }
    intros fuel first c. destruct (F rest) as (F1 & F2 & F3 & F4 & F5). rewrite class_step by (rewrite ?F1; auto). rewrite F4, (one_range v _ rest (PC rest) N). reflexivity.
  - destruct O as (O1 & O2 & a & b & CA & CB & AB). destruct (char_facts lo O1) as (v & CV & V & PC & F). destruct (char_facts hi O2) as (u & CU & U & PU & FU).
    rewrite (char_is_fun _ _ _ CA CV) in *. rewrite (char_is_fun _ _ _ CB CU) in *. exists [(v, u)]. split; [constructor; [apply rng_intro; lia|constructor]|]. split.
    { intros y. rewrite inset_cons, inset_nil. cbn [fst snd]. split; [intros [K|[]]; exists v, u; auto|]. intros (a' & b' & K1 & K2 & K3). rewrite (char_is_fun _ _ _ K1 CV), (char_is_fun _ _ _ K2 CU) in K3. left. exact K3. }
    intros fuel first c. rewrite <- !app_assoc. destruct (F (B "-" ++ w_char hi ++ rest)) as (F1 & F2 & F3 & F4 & F5). rewrite class_step by (rewrite ?F1; auto). rewrite F4.
    unfold parseClassRange. rewrite PC. cbn [pbind]. change (B "-" ++ w_char hi ++ rest) with (x2d :: (w_char hi ++ rest)). cbn [tl at_byte]. destruct (FU rest) as (G1 & _). rewrite G1. change (Byte.eqb x2d x2d) with true.
    assert (L : (2 <=? length (x2d :: (w_char hi ++ rest)))%nat = true) by (apply Nat.leb_le; destruct hi; cbn; lia). rewrite L. cbn [andb negb]. rewrite PU. cbn [pbind]. assert (u <? v = false) as -> by lia. reflexivity.
  - destruct (perl_facts neg c O) as (g & PE & GS & A1 & _ & _). exists g. split; [exact (proj1 (perl_escape_ok _ _ PE))|]. split; [exact GS|]. intros fuel first d. cbn [app]. rewrite class_step; [|reflexivity|reflexivity|apply A1].
    unfold parsePerl. change (Byte.eqb x5c x5c) with true. cbv iota. rewrite PE. reflexivity.
Qed.
Lemma append_ranges_app c g h : append_ranges c (g ++ h) = append_ranges (append_ranges c g) h.
Proof. unfold append_ranges. apply fold_left_app. Qed.
Lemma item_first i rest : citem_ok i -> at_byte (w_item i ++ rest) x2d = false /\ at_byte (w_item i ++ rest) x5d = false.
Proof.
  intros O. destruct i as [x|lo hi|neg c]; cbn [citem_ok w_item] in *; [| |split; reflexivity].
  - destruct (char_facts x O) as (v & _ & _ & _ & F). destruct (F rest) as (F1 & F2 & _). split; assumption.
  - destruct O as (O1 & _). destruct (char_facts lo O1) as (v & _ & _ & _ & F). rewrite <- app_assoc. destruct (F ((B "-" ++ w_char hi) ++ rest)) as (F1 & F2 & _). split; assumption.
Qed.
Lemma items_no_range items tail : Forall citem_ok items -> no_range tail -> no_range (flat_map w_item items ++ tail).
Proof. intros F N. destruct items as [|i items]; [exact N|]. inversion_clear F. left. cbn [flat_map]. rewrite <- app_assoc. apply (item_first i _ H). Qed.
Lemma items_step items tail : Forall citem_ok items -> no_range tail -> exists g, Forall rng g /\ (forall x, inset g x <-> exists i, In i items /\ item_mem i x) /\
  forall fuel first c, class_loop (length items + fuel) (flat_map w_item items ++ tail) first c = class_loop fuel tail (match items with [] => first | _ => false end) (append_ranges c g).
Proof.
  intros F N. induction F as [|i items O F IH]; [exists []; split; [constructor|]; split; [intros x; rewrite inset_nil; split; [tauto|intros (i & [] & _)]|reflexivity]|].
  destruct IH as (g & R & S & L). destruct (item_step i (flat_map w_item items ++ tail) O (items_no_range items tail F N)) as (h & HR & HS & HL).
  exists (h ++ g). split; [apply Forall_app; split; assumption|]. split.
  { intros x. rewrite inset_app, HS, S. split; [intros [K|(j & J & K)]; [exists i; split; [left; reflexivity|exact K]|exists j; split; [right; exact J|exact K]]|]. intros (j & [<-|J] & K); [left; exact K|right; exists j; split; assumption]. }
  intros fuel first c. cbn [length flat_map Nat.add]. rewrite <- app_assoc, HL, L, append_ranges_app. destruct items; reflexivity.
Qed.
Lemma close_step fuel rest c : class_loop (S fuel) (x5d :: rest) false c = POk (c, rest).
Proof. reflexivity. Qed.
Lemma single_step fuel b v rest first c : b = x5d /\ first = true /\ v = 93 \/ b = x2d /\ v = 45 -> no_range rest -> class_loop (S fuel) (b :: rest) first c = class_loop fuel rest false (appendRange c v v).
Proof.
  intros K N. rewrite class_step; [|destruct K as [(-> & -> & _)|(-> & _)]; reflexivity|destruct K as [(-> & _)|(-> & _)]; reflexivity|unfold at_escape; destruct rest; [reflexivity|]; destruct K as [(-> & _)|(-> & _)]; reflexivity].
  assert (P : parsePerl (b :: rest) = None) by (unfold parsePerl; destruct rest; [reflexivity|]; destruct K as [(-> & _)|(-> & _)]; reflexivity). rewrite P.
  rewrite (one_range v _ rest); [reflexivity| |exact N]. destruct K as [(-> & _ & ->)|(-> & ->)]; reflexivity.
Qed.
(** the class as a whole *)
(** In proofs; for bip32/path.go:22, 25, bip32/reg_ver_bytes.go:75. *)
Definition class_text (neg lead : bool) (items : list citem) (trail : bool) : bytes :=
  (if neg then B "^" else []) ++ (if lead then B "]" else []) ++ flat_map w_item items ++ (if trail then B "-" else []) ++ B "]".
Lemma body_ok lead items trail rest : Forall citem_ok items -> (items = [] -> lead = true \/ trail = true) ->
  let t := (if lead then B "]" else []) ++ flat_map w_item items ++ (if trail then B "-" else []) ++ B "]" ++ rest in
  exists c, class_loop (S (length t)) t true [] = POk (c, rest) /\ Forall rng c /\ forall x, inset c x <-> bracket_mem lead items trail x.
Proof.
  intros F NE t. set (tl2 := B "]" ++ rest). set (tl1 := (if trail then B "-" else []) ++ tl2).
  assert (N1 : no_range tl1) by (unfold tl1; destruct trail; [right; exists rest; reflexivity|left; reflexivity]).
  destruct (items_step items tl1 F N1) as (g & R & GS & L). set (c0 := if lead then [(93, 93)] else []). set (c1 := append_ranges c0 g). set (c2 := if trail then appendRange c1 45 45 else c1).
  assert (R0 : Forall rng c0) by (unfold c0; destruct lead; [constructor; [apply rng_char; lia|constructor]|constructor]). assert (R1 : Forall rng c1) by (apply append_ranges_ok; assumption).
  exists c2. split; [|split].
  - rewrite (class_fuel (S (length t)) ((if lead then 1 else 0) + (length items + (2 + S (length t))))); [|lia|lia].
    assert (E : class_loop ((if lead then 1 else 0) + (length items + (2 + S (length t)))) t true [] = class_loop (length items + (2 + S (length t))) (flat_map w_item items ++ tl1) (negb lead) c0).
    { unfold t, c0. destruct lead; [|reflexivity]. change (B "]" ++ flat_map w_item items ++ (if trail then B "-" else []) ++ B "]" ++ rest) with (x5d :: flat_map w_item items ++ tl1). cbn [Nat.add]. rewrite (single_step _ x5d 93 _ true); [reflexivity|left; auto|apply items_no_range; assumption]. }
    rewrite E, L. assert (FF : trail = false -> match items with [] => negb lead | _ => false end = false) by (intros T; destruct items; [destruct (NE eq_refl) as [->|Q]; [reflexivity|congruence]|reflexivity]).
    revert FF. generalize (match items with [] => negb lead | _ => false end). intros b FF. unfold tl1, tl2, c2. destruct trail.
    + change (B "-" ++ B "]" ++ rest) with (x2d :: x5d :: rest). cbn [Nat.add]. rewrite (single_step _ x2d 45); [apply close_step|right; auto|left; reflexivity].
    + rewrite (FF eq_refl). apply close_step.
  - unfold c2. destruct trail; [apply appendRange_ok; [exact R1|apply rng_char; lia]|exact R1].
  - intros x. unfold bracket_mem. rewrite <- GS. assert (C0 : inset c0 x <-> lead = true /\ x = 93) by (unfold c0; destruct lead; rewrite ?inset_cons, inset_nil; cbn [fst snd]; lia).
    assert (C1 : inset c1 x <-> inset c0 x \/ inset g x) by (apply append_ranges_set; assumption).
    assert (C2 : inset c2 x <-> inset c1 x \/ trail = true /\ x = 45). { unfold c2. destruct trail; [rewrite appendRange_set by (try assumption; lia)|]; split; intros K; try (destruct K; [tauto|right; lia]); try tauto. destruct K as [K|[K _]]; [exact K|discriminate K]. }
    rewrite C2, C1, C0. tauto.
Qed.
Lemma class_parse neg lead items trail rest : a_ok (AClass neg lead items trail) -> exists rs, (forall x, in_class rs x <-> class_mem neg lead items trail x) /\
  parseClass (class_text neg lead items trail ++ rest) = POk (OpCharClass rs, rest).
Proof.
  intros (F & NC & NE & PR). destruct (body_ok lead items trail rest F NE) as (c & L & R & S). set (t := (if lead then B "]" else []) ++ flat_map w_item items ++ (if trail then B "-" else []) ++ B "]" ++ rest) in *. cbv zeta in L.
  assert (T : class_text neg lead items trail ++ rest = (if neg then B "^" else []) ++ t) by (unfold class_text, t; rewrite <- !app_assoc; reflexivity). rewrite T.
  assert (AT : at_byte ((if neg then B "^" else []) ++ t) x5e = neg).
  { destruct neg; [reflexivity|]. cbn [app]. unfold t. destruct lead; [reflexivity|]. destruct NC as [Q|[Q|NC]]; try discriminate Q. destruct items as [|i items].
    - destruct (NE eq_refl) as [Q| ->]; [discriminate Q|reflexivity].
    - cbn [flat_map app]. inversion_clear F. destruct i as [[a|a]|[a|a] hi|n a]; cbn [w_item w_char app at_byte no_caret] in *; try reflexivity; (destruct (Byte.eqb a x5e) eqn:Q; [apply byte_eqb_spec in Q; contradiction|reflexivity]). }
  assert (RV : Forall rng (rev c)) by (apply Forall_rev; exact R). destruct (clean_ok (rev c) RV) as [RC CO].
  set (d := if neg then negated 0 (cleanClass (rev c)) else cleanClass (rev c)).
  assert (D : forall x, inset d x <-> class_mem neg lead items trail x).
  { intros x. unfold d, class_mem. destruct neg; [rewrite negated_set by assumption|]; rewrite clean_set, inset_rev, S by assumption; [unfold rune|]; tauto. }
  exists (flat d). split; [intros x; rewrite in_flat; apply D|].
  unfold parseClass. cbv zeta. rewrite AT. assert (TL : (if neg then tl ((if neg then B "^" else []) ++ t) else (if neg then B "^" else []) ++ t) = t) by (destruct neg; reflexivity). rewrite TL, L. cbn [pbind]. fold d.
  destruct d as [|p d'] eqn:ED; [|reflexivity]. exfalso. destruct PR as [(x & _ & K) _]. apply D in K. apply inset_nil in K. exact K.
Qed.

(** ** Repetitions *)
(** In proofs; for bip32/path.go:22, 25, bip32/reg_ver_bytes.go:75. *)
Definition mk_of (q : quant) (re : regexp) : regexp :=
  match q with QOne => re | QStar => OpStar re | QPlus => OpPlus re | QQuest => OpQuest re | QExact m => OpRepeat m m re | QRep m n => OpRepeat m n re end.
Section QUANT.
Variables (s : bytes) (re : regexp) (a : atom).
Hypothesis EQ : forall i j, Den s re i j <-> MA s a i j.
Lemma star_den i j : Den s (OpStar re) i j <-> exists k, MN s a k i j.
Proof.
  split.
  - intros D. remember (OpStar re) as r. induction D; inversion Heqr; subst; [exists O; constructor|]. destruct (IHD2 eq_refl) as (k' & K). exists (S k'). apply MN_S with j; [apply EQ; assumption|exact K].
  - intros (k & K). revert i K. induction k as [|k IH]; intros i K; inversion K; subst; [apply D_star0|]. apply D_starS with j0; [apply EQ; assumption|apply IH; assumption].
Qed.
Lemma rep_den n : forall m i j, Den s (OpRepeat m n re) i j <-> exists k, (m <= k <= n)%nat /\ MN s a k i j.
Proof.
  induction n as [|n IH]; intros m i j; split.
  - intros D. inversion D; subst. exists O. split; [lia|constructor].
  - intros (k & L & K). assert (k = O) by lia. subst k. assert (m = O) by lia. subst m. inversion K; subst. apply D_rep0.
  - intros D. inversion D; subst; [exists O; split; [lia|constructor]|]. match goal with H : Den s (OpRepeat _ n re) _ _ |- _ => apply IH in H; destruct H as (k & L & K) end. exists (S k). split; [lia|]. eapply MN_S; [apply EQ; eassumption|exact K].
  - intros (k & L & K). destruct k as [|k]; inversion K; subst; [assert (m = O) by lia; subst m; apply D_rep0|]. eapply D_repS; [apply EQ; eassumption|]. apply IH. exists k. split; [lia|assumption].
Qed.
Lemma one_den i j : MN s a 1 i j <-> MA s a i j.
Proof. split; [intros K; inversion K; subst; match goal with H : MN _ _ 0 _ _ |- _ => inversion H; subst end; assumption|intros K; apply MN_S with j; [exact K|constructor]]. Qed.
Lemma quant_den q i j : Den s (mk_of q re) i j <-> exists k, times q k /\ MN s a k i j.
Proof.
  destruct q as [| | | |m|m n]; cbn [mk_of times].
  - rewrite EQ, <- one_den. split; [intros K; exists 1%nat; split; [reflexivity|exact K]|intros (k & -> & K); exact K].
  - rewrite star_den. split; [intros (k & K); exists k; split; [exact I|exact K]|intros (k & _ & K); exists k; exact K].
  - split.
    + intros D. inversion D; subst. match goal with H : Den s (OpStar re) _ _ |- _ => apply star_den in H; destruct H as (k & K) end. exists (S k). split; [lia|]. eapply MN_S; [apply EQ; eassumption|exact K].
    + intros (k & L & K). destruct k as [|k]; [lia|]. inversion K; subst. eapply D_plus; [apply EQ; eassumption|]. apply star_den. exists k. assumption.
  - split.
    + intros D. inversion D; subst; [exists O; split; [lia|constructor]|]. exists 1%nat. split; [lia|]. apply one_den, EQ. assumption.
    + intros (k & L & K). destruct k as [|k]; [inversion K; subst; apply D_quest0|]. assert (k = O) by lia. subst k. apply D_quest1, EQ, one_den. exact K.
  - rewrite rep_den. split; intros (k & L & K); exists k; (split; [lia|exact K]).
  - apply rep_den.
Qed.
End QUANT.
(** In proofs; for bip32/path.go:22, 25, bip32/reg_ver_bytes.go:75. *)
Fixpoint rb (re : regexp) : nat :=
  match re with
  | OpRepeat _ max a => if (max =? 0)%nat then 1 else max * rb a
  | OpCapture _ a | OpStar a | OpPlus a | OpQuest a => rb a
  | OpConcat a b => Nat.max (rb a) (rb b)
  | _ => 1
  end.
Lemma rb_pos re : (1 <= rb re)%nat.
Proof. induction re; cbn [rb]; try lia. destruct (max =? 0)%nat eqn:E; [lia|]. apply Nat.eqb_neq in E. nia. Qed.
Lemma rb_valid re : forall n, (rb re <= n)%nat -> repeatIsValid re n = true.
Proof.
  induction re; intros k L; cbn [rb repeatIsValid] in *; try reflexivity; try (apply IHre; exact L).
  - destruct (max =? 0)%nat eqn:E; [reflexivity|]. apply Nat.eqb_neq in E. pose proof (rb_pos re). assert (max * 1 <= max * rb re)%nat by (apply Nat.mul_le_mono_l; lia). assert ((k <? max)%nat = false) as -> by (apply Nat.ltb_ge; lia).
    apply IHre. apply Nat.div_le_lower_bound; [exact E|exact L].
  - rewrite IHre1, IHre2 by lia. reflexivity.
Qed.
Lemma rb_invalid re : forall n, (1 <= n < rb re)%nat -> repeatIsValid re n = false.
Proof.
  induction re; intros k L; cbn [rb repeatIsValid] in *; try lia; try (apply IHre; exact L).
  - destruct (max =? 0)%nat eqn:E; [lia|]. apply Nat.eqb_neq in E. destruct (k <? max)%nat eqn:G; [reflexivity|]. apply Nat.ltb_ge in G. apply IHre. split; [apply Nat.div_le_lower_bound; lia|]. apply Nat.div_lt_upper_bound; lia.
  - destruct (Nat.max_spec (rb re1) (rb re2)) as [[_ E]|[_ E]]; rewrite E in L; [rewrite IHre2 by lia; apply andb_false_r|rewrite IHre1 by lia; reflexivity].
Qed.
Lemma rb_mk q re : rb (mk_of q re) = q_bound q (rb re).
Proof. destruct q; reflexivity. Qed.
Lemma q_bound_mono q a b : (a <= b)%nat -> (q_bound q a <= q_bound q b)%nat.
Proof. intros L. destruct q as [| | | |m|m n]; cbn; try exact L; [destruct (m =? 0)%nat|destruct (n =? 0)%nat]; try lia; apply Nat.mul_le_mono_l; exact L. Qed.

(** ** Numbers in braces *)
(** In proofs; for bip32/path.go:22, 25, bip32/reg_ver_bytes.go:75. *)
Definition isdig (c : byte) : bool := (48 <=? Zb c) && (Zb c <=? 57).
Lemma split_digits d : forall c r, forallb isdig d = true -> isdig c = false -> digits_split (d ++ c :: r) = (d, c :: r).
Proof.
  induction d as [|e d IH]; intros c r F N; cbn [app digits_split]; [unfold isdig in N; rewrite N; reflexivity|]. cbn [forallb] in F. apply andb_true_iff in F as [F1 F2]. unfold isdig in F1. rewrite F1, (IH c r F2 N). reflexivity.
Qed.
(** In proofs; for bip32/path.go:22, 25, bip32/reg_ver_bytes.go:75. *)
Definition num_ok (n : nat) : bool :=
  match Itoa (Z.of_nat n) with
  | [] => false
  | c :: ds => forallb isdig (c :: ds) && negb (Byte.eqb c x30 && negb (match ds with [] => true | _ => false end)) && negb (Byte.eqb c x7d) &&
      (fold_left (fun n d => if (n <? 0) || (100000000 <=? n) then -1 else n * 10 + (Zb d - 48)) (c :: ds) 0 =? Z.of_nat n)
  end.
Lemma nums_ok : forallb num_ok (seq 0 1001) = true.
Proof. vm_compute. reflexivity. Qed.
Lemma int_ok n c r : (n <= 1000)%nat -> isdig c = false -> parseInt (Itoa (Z.of_nat n) ++ c :: r) = Some (Z.of_nat n, c :: r) /\ at_byte (Itoa (Z.of_nat n) ++ c :: r) x7d = false.
Proof.
  intros L N. assert (O : num_ok n = true) by (apply (proj1 (forallb_forall _ _) nums_ok); apply in_seq; lia). unfold num_ok in O. unfold parseInt.
  destruct (Itoa (Z.of_nat n)) as [|e ds]; [discriminate O|]. apply andb_true_iff in O as [O O4]. apply andb_true_iff in O as [O O3]. apply andb_true_iff in O as [O1 O2]. split.
  - rewrite (split_digits (e :: ds) c r O1 N). apply negb_true_iff in O2. rewrite O2. apply Z.eqb_eq in O4. rewrite O4. reflexivity.
  - cbn [app at_byte]. apply negb_true_iff. exact O3.
Qed.
(** In proofs; for bip32/path.go:22, 25, bip32/reg_ver_bytes.go:75. *)
Definition q_bounds (q : quant) : option (nat * nat) := match q with QExact m => Some (m, m) | QRep m n => Some (m, n) | _ => None end.
Lemma repeat_read q m n rest : q_bounds q = Some (m, n) -> (m <= 1000)%nat -> (n <= 1000)%nat -> parseRepeat (w_quant q ++ rest) = Some (Z.of_nat m, Z.of_nat n, rest).
Proof.
  intros E Lm Ln. destruct q as [| | | |k|k l]; try discriminate E; injection E as <- <-; cbn [w_quant].
  - rewrite <- !app_assoc. change (B "{" ++ Itoa (Z.of_nat k) ++ B "}" ++ rest) with (x7b :: (Itoa (Z.of_nat k) ++ x7d :: rest)). unfold parseRepeat. cbn [tl]. rewrite (proj1 (int_ok k x7d rest Lm eq_refl)). reflexivity.
  - rewrite <- !app_assoc. change (B "{" ++ Itoa (Z.of_nat k) ++ B "," ++ Itoa (Z.of_nat l) ++ B "}" ++ rest) with (x7b :: (Itoa (Z.of_nat k) ++ x2c :: (Itoa (Z.of_nat l) ++ x7d :: rest))). unfold parseRepeat. cbn [tl].
    rewrite (proj1 (int_ok k x2c _ Lm eq_refl)). destruct (int_ok l x7d rest Ln eq_refl) as [I1 I2]. cbn [at_byte tl]. change (Byte.eqb x2c x2c) with true. cbn [negb]. rewrite I2, I1. cbn [at_byte tl]. change (Byte.eqb x7d x7d) with true. cbv iota.
    assert (Z.of_nat l <? 0 = false) as -> by lia. reflexivity.
Qed.

(** ** The stack *)
(** In proofs; for bip32/path.go:22, 25, bip32/reg_ver_bytes.go:75. *)
Fixpoint seg_den (s : bytes) (st : list item) (i k : nat) : Prop :=
  match st with SRe re :: st => exists j, seg_den s st i j /\ Den s re j k | _ => i = k end.
(** In proofs; for bip32/path.go:22, 25, bip32/reg_ver_bytes.go:75. *)
Fixpoint base (st : list item) : list item := match st with SRe _ :: st => base st | _ => st end.
(** In proofs; for bip32/path.go:22, 25, bip32/reg_ver_bytes.go:75. *)
Fixpoint seg_rb (st : list item) : nat := match st with SRe re :: st => Nat.max (rb re) (seg_rb st) | _ => 1 end.
(** In proofs; for bip32/path.go:22, 25, bip32/reg_ver_bytes.go:75. *)
Definition not_any (re : regexp) : Prop := match re with OpCharClass rs => exists x, rune x /\ x <> 10 /\ ~ in_class rs x | _ => True end.
(** In proofs; for bip32/path.go:22, 25, bip32/reg_ver_bytes.go:75. *)
Fixpoint fine (st : list item) : Prop := match st with SRe re :: st => not_any re /\ fine st | _ => True end.
(** In proofs; for bip32/path.go:22, 25, bip32/reg_ver_bytes.go:75. *)
Definition same (st st' : list item) : Prop :=
  (forall s i j, seg_den s st' i j <-> seg_den s st i j) /\ base st' = base st /\ seg_rb st' = seg_rb st /\ (fine st -> fine st').
Lemma same_refl st : same st st.
Proof. unfold same. split; [reflexivity|]. split; [reflexivity|]. split; [reflexivity|auto]. Qed.
Lemma seg_pos st : (1 <= seg_rb st)%nat.
Proof. induction st as [|[re|] st IH]; cbn [seg_rb]; lia. Qed.
Lemma lit_app s f a b : forall i k, Den s (OpLiteral f (a ++ b)) i k <-> exists j, Den s (OpLiteral f a) i j /\ Den s (OpLiteral f b) j k.
Proof.
  induction a as [|r a IH]; intros i k; cbn [app]; split.
  - intros D. exists i. split; [constructor|exact D].
  - intros (j & D1 & D2). inversion D1; subst. exact D2.
  - intros D. inversion D; subst. match goal with H : Den _ (OpLiteral f (a ++ b)) _ _ |- _ => apply IH in H; destruct H as (j & D1 & D2) end. exists j. split; [eapply D_litS; eassumption|exact D2].
  - intros (j & D1 & D2). inversion D1; subst. eapply D_litS; [eassumption|eassumption|]. apply IH. exists j. split; assumption.
Qed.
Lemma maybe_same st : same st (fst (maybeConcat st None)).
Proof.
  unfold maybeConcat. destruct st as [|[re|] st]; try apply same_refl. destruct re as [|f1 r1| | | | | | | | |]; try apply same_refl.
  destruct st as [|[re|] st]; try apply same_refl. destruct re as [|f2 r2| | | | | | | | |]; try apply same_refl.
  destruct (Bool.eqb f1 f2) eqn:E; [|apply same_refl]. apply eqb_prop in E. subst f2. cbn [fst]. split; [|split; [reflexivity|split; [cbn [seg_rb rb]; lia|cbn; tauto]]].
  intros s i j. cbn [seg_den]. split.
  - intros (m & S1 & D). apply lit_app in D as (l & D1 & D2). exists l. split; [exists m; split; assumption|exact D2].
  - intros (l & (m & S1 & D1) & D2). exists m. split; [exact S1|]. apply lit_app. exists l. split; assumption.
Qed.
Lemma push_rune_eq c f st : push_rune c f st = SRe (OpLiteral f [c]) :: fst (maybeConcat st None).
Proof.
  unfold push_rune, maybeConcat. destruct st as [|[re|] st]; try reflexivity. destruct re as [|f1 r1| | | | | | | | |]; try reflexivity.
  destruct st as [|[re|] st]; try reflexivity. destruct re as [|f2 r2| | | | | | | | |]; try reflexivity. destruct (Bool.eqb f1 f2); reflexivity.
Qed.
Lemma lit_one s f r i j : Den s (OpLiteral f [r]) i j <-> exists c w, rune_at s i c w /\ lit_rune f r c /\ j = (i + w)%nat.
Proof.
  split.
  - intros D. inversion D; subst. match goal with H : Den _ (OpLiteral f []) _ _ |- _ => inversion H; subst end. eexists _, _. eauto.
  - intros (c & w & R & L & ->). eapply D_litS; [exact R|exact L|constructor].
Qed.
Lemma class_den s rs i j : Den s (OpCharClass rs) i j <-> exists c w, rune_at s i c w /\ in_class rs c /\ j = (i + w)%nat.
Proof. split; [intros D; inversion D; subst; eexists _, _; eauto|]. intros (c & w & R & L & ->). eapply D_class; eassumption. Qed.
Lemma lit_class s f r rs : (forall c, lit_rune f r c <-> in_class rs c) -> forall i j, Den s (OpLiteral f [r]) i j <-> Den s (OpCharClass rs) i j.
Proof. intros E i j. rewrite lit_one, class_den. split; intros (c & w & R & L & J); exists c, w; (split; [exact R|]; split; [apply E; exact L|exact J]). Qed.
Lemma fold_pair a c : FoldASCII a = c -> FoldASCII c = a -> forall x, lit_rune true a x <-> in_class [a; a; c; c] x.
Proof.
  intros E1 E2 x. unfold lit_rune. cbn [in_class]. revert E1 E2. unfold FoldASCII, SimpleFold.
  destruct (a =? 107) eqn:A1; destruct (a =? 115) eqn:A2; destruct (c =? 107) eqn:C1; destruct (c =? 115) eqn:C2;
  destruct ((65 <=? a) && (a <=? 90)) eqn:A3; destruct ((97 <=? a) && (a <=? 122)) eqn:A4;
  destruct ((65 <=? c) && (c <=? 90)) eqn:C3; destruct ((97 <=? c) && (c <=? 122)) eqn:C4; intros E1 E2; try (exfalso; lia); (split; [intros [K|[_ K]]; lia|intros [K|[K|[]]]; [left; lia|]]); first [left; lia|right; split; [reflexivity|lia]].
Qed.
Lemma push_sem re st : exists re', push (SRe re) st = SRe re' :: fst (maybeConcat st None) /\ (forall s i j, Den s re' i j <-> Den s re i j) /\ rb re' = rb re /\ (not_any re -> not_any re').
Proof.
  assert (P : push (SRe re) st = SRe re :: fst (maybeConcat st None) -> exists re', push (SRe re) st = SRe re' :: fst (maybeConcat st None) /\ (forall s i j, Den s re' i j <-> Den s re i j) /\ rb re' = rb re /\ (not_any re -> not_any re')).
  { intros E. exists re. split; [exact E|]. split; [reflexivity|]. split; [reflexivity|auto]. }
  destruct re as [| |rs| | | | | | | |]; try (apply P; reflexivity). unfold push in *. destruct rs as [|a [|b [|c [|d [|]]]]]; try (apply P; reflexivity).
  - destruct (a =? b) eqn:E.
    + apply Z.eqb_eq in E. subst b. rewrite push_rune_eq. eexists. split; [reflexivity|]. split; [intros s; apply lit_class; intros c; unfold lit_rune; cbn [in_class]; split; [intros [->|[Q _]]; [lia|discriminate Q]|intros [Q|[]]; left; lia]|]. split; [reflexivity|intros _; exact I].
    + destruct ((a + 1 =? b) && (FoldASCII a =? b) && (FoldASCII b =? a)) eqn:F; [|apply P; reflexivity]. exfalso. apply andb_true_iff in F as [F F3]. apply andb_true_iff in F as [F1 F2].
      unfold FoldASCII, SimpleFold in F2. clear F3 P. destruct (a =? 107) eqn:A1; [lia|]. destruct (a =? 115) eqn:A2; [lia|]. destruct ((65 <=? a) && (a <=? 90)) eqn:A3; [lia|]. destruct ((97 <=? a) && (a <=? 122)) eqn:A4; lia.
  - destruct ((a =? b) && (c =? d) && (FoldASCII a =? c) && (FoldASCII c =? a)) eqn:F; [|apply P; reflexivity]. apply andb_true_iff in F as [F F4]. apply andb_true_iff in F as [F F3]. apply andb_true_iff in F as [F1 F2].
    apply Z.eqb_eq in F1, F2, F3, F4. subst b d. rewrite push_rune_eq. eexists. split; [reflexivity|]. split; [intros s; apply lit_class; intros x; apply fold_pair; assumption|]. split; [reflexivity|intros _; exact I].
Qed.
Lemma push_paren n st : push (SLeftParen n) st = SLeftParen n :: fst (maybeConcat st None).
Proof. reflexivity. Qed.
(** the trees of a segment, the lowest first *)
(** In proofs; for bip32/path.go:22, 25, bip32/reg_ver_bytes.go:75. *)
Fixpoint DL (s : bytes) (l : list regexp) (i k : nat) : Prop := match l with [] => i = k | re :: l => exists j, Den s re i j /\ DL s l j k end.
Lemma frb_pos l : (1 <= fold_right (fun re n => Nat.max (rb re) n) 1%nat l)%nat.
Proof. induction l; cbn [fold_right]; lia. Qed.
Lemma above_sem st : forall subs, exists l, above st subs = (l, base st) /\ (forall s i k, DL s l i k <-> exists j, seg_den s st i j /\ DL s subs j k) /\
  fold_right (fun re n => Nat.max (rb re) n) 1%nat l = Nat.max (seg_rb st) (fold_right (fun re n => Nat.max (rb re) n) 1%nat subs) /\ (fine st -> Forall not_any subs -> Forall not_any l).
Proof.
  induction st as [|[re|n] st IH]; intros subs; cbn [above base seg_den seg_rb fine].
  1,3: (exists subs; split; [reflexivity|]; split; [intros s i k; split; [intros D; exists i; split; [reflexivity|exact D]|intros (j & -> & D); exact D]|]; split; [pose proof (frb_pos subs); lia|auto]).
  destruct (IH (re :: subs)) as (l & A & D & R & F). exists l. split; [exact A|]. split; [|split].
  - intros s i k. rewrite D. cbn [DL]. split; [intros (j & S1 & m & D1 & D2); exists m; split; [exists j; split; assumption|exact D2]|intros (m & (j & S1 & D1) & D2); exists j; split; [exact S1|]; exists m; split; assumption].
  - cbn [fold_right] in R. lia.
  - intros [N FF] FS. apply F; [exact FF|constructor; assumption].
Qed.
Lemma fold_concat_den s l : forall re i k, Den s (fold_left OpConcat l re) i k <-> exists j, Den s re i j /\ DL s l j k.
Proof.
  induction l as [|b l IH]; intros re i k; cbn [fold_left DL]; [split; [intros D; exists k; split; [exact D|reflexivity]|intros (j & D & ->); exact D]|]. rewrite IH. split.
  - intros (j & D & L). inversion D; subst. eexists. split; [eassumption|]. eexists. split; eassumption.
  - intros (j & D1 & m & D2 & L). exists m. split; [eapply D_cat; eassumption|exact L].
Qed.
Lemma fold_concat_rb l : forall re, rb (fold_left OpConcat l re) = Nat.max (rb re) (fold_right (fun re n => Nat.max (rb re) n) 1%nat l).
Proof. induction l as [|b l IH]; intros re; cbn [fold_left fold_right]; [pose proof (rb_pos re); lia|]. rewrite IH. cbn [rb]. lia. Qed.
Lemma fold_concat_any l : forall re, l <> [] \/ not_any re -> not_any (fold_left OpConcat l re).
Proof. induction l as [|b l IH]; intros re N; cbn [fold_left]; [destruct N as [N|N]; [contradiction N; reflexivity|exact N]|]. apply IH. right. exact I. Qed.
Lemma collapse_sem l : (forall s i k, Den s (collapse l) i k <-> DL s l i k) /\ rb (collapse l) = fold_right (fun re n => Nat.max (rb re) n) 1%nat l /\ (Forall not_any l -> not_any (collapse l)).
Proof.
  destruct l as [|re l]; cbn [collapse].
  - split; [intros s i k; cbn [DL]; split; [intros D; inversion D; reflexivity|intros ->; constructor]|]. split; [reflexivity|intros _; exact I].
  - split; [intros s i k; apply fold_concat_den|]. split; [rewrite fold_concat_rb; reflexivity|]. intros F. inversion_clear F. apply fold_concat_any. right. assumption.
Qed.
Lemma base_top st : fst (maybeConcat (base st) None) = base st.
Proof. induction st as [|[re|] st IH]; [reflexivity|exact IH|reflexivity]. Qed.
Lemma concat_sem st : exists re, concat_top st = SRe re :: base st /\ (forall s i j, Den s re i j <-> seg_den s st i j) /\ rb re = seg_rb st /\ (fine st -> not_any re).
Proof.
  unfold concat_top. destruct (maybe_same st) as (SD & SB & SR & SF). destruct (above_sem (fst (maybeConcat st None)) []) as (l & A & D & R & F). rewrite A, SB.
  destruct (collapse_sem l) as (CD & CR & CA). destruct (push_sem (collapse l) (base st)) as (re & P & PD & PR & PA). rewrite P, base_top. exists re. split; [reflexivity|]. split; [|split].
  - intros s i j. rewrite PD, CD, D, <- SD. cbn [DL]. split; [intros (m & K & ->); exact K|intros K; exists j; split; [exact K|reflexivity]].
  - cbn [fold_right] in R. pose proof (seg_pos (fst (maybeConcat st None))). lia.
  - intros FF. apply PA, CA, F; [apply SF; exact FF|constructor].
Qed.
Lemma alternate_sem re b : not_any re -> alternate_top (SRe re :: b) = POk (SRe re :: b).
Proof.
  intros N. unfold alternate_top. destruct re as [| |rs| | | | | | | |]; try reflexivity. cbn [not_any] in N. destruct N as (x & R & X & O). unfold rune in R. destruct rs as [|a1 [|b1 [|c1 [|d1 [|]]]]]; try reflexivity; cbn [in_class] in O.
  - destruct ((a1 =? 0) && (b1 =? 1114111)) eqn:E; [|reflexivity]. exfalso. lia.
  - destruct ((a1 =? 0) && (b1 =? 9) && (c1 =? 11) && (d1 =? 1114111)) eqn:E; [|reflexivity]. exfalso. lia.
Qed.

(** ** The loop of parse *)
(** In proofs; for bip32/path.go:22, 25, bip32/reg_ver_bytes.go:75. *)
Definition PL (t : bytes) (st : list item) (n : nat) (l : bool) : pres (list item) := parse_loop (S (length t)) t st n l.
Lemma pl_fuel f t st n l : (length t < f)%nat -> parse_loop f t st n l = PL t st n l.
Proof. intros L. apply parse_fuel; [exact L|lia]. Qed.
Lemma pl_char c t st n l : own_char c -> PL (c :: t) st n l = PL t (push (SRe (OpLiteral false [Zb c])) st) n false.
Proof.
  intros [A N]. pose proof (in_bytes_eqb c _ N) as Q. unfold PL. cbn [length]. remember (S (length t)) as f. cbn [parse_loop].
  assert (Q1 : Byte.eqb c x28 = false) by (apply Q; cbn; tauto). assert (Q2 : Byte.eqb c x7c = false) by (apply Q; cbn; tauto). assert (Q3 : Byte.eqb c x29 = false) by (apply Q; cbn; tauto).
  assert (Q4 : Byte.eqb c x5e = false) by (apply Q; cbn; tauto). assert (Q5 : Byte.eqb c x24 = false) by (apply Q; cbn; tauto). assert (Q6 : Byte.eqb c x2e = false) by (apply Q; cbn; tauto).
  assert (Q7 : Byte.eqb c x5b = false) by (apply Q; cbn; tauto). assert (Q8 : Byte.eqb c x2a = false) by (apply Q; cbn; tauto). assert (Q9 : Byte.eqb c x2b = false) by (apply Q; cbn; tauto).
  assert (Qa : Byte.eqb c x3f = false) by (apply Q; cbn; tauto). assert (Qb : Byte.eqb c x7b = false) by (apply Q; cbn; tauto). assert (Qc : Byte.eqb c x5c = false) by (apply Q; cbn; tauto).
  rewrite Q1, Q2, Q3, Q4, Q5, Q6, Q7, Q8, Q9, Qa, Qb, Qc, (proj2 (Z.leb_gt 128 (Zb c)) A). subst f. reflexivity.
Qed.
Lemma pl_back c t st n l : at_escape (x5c :: c :: t) (B "AbBCQzpP") = false ->
  PL (x5c :: c :: t) st n l = match parsePerl (x5c :: c :: t) with
    | Some (g, u) => parse_loop (S (S (length t))) u (push (SRe (OpCharClass (flat g))) st) n false
    | None => pbind (parseEscape (x5c :: c :: t)) (fun r => let (r, u) := r in parse_loop (S (S (length t))) u (push (SRe (OpLiteral false [r])) st) n false) end.
Proof. intros A. unfold PL. cbn [length]. generalize (S (S (length t))). intros f. cbn [parse_loop]. rewrite A. reflexivity. Qed.
Lemma pl_esc c v t st n l : escaped c = Some v -> PL (x5c :: c :: t) st n l = PL t (push (SRe (OpLiteral false [v])) st) n false.
Proof.
  intros E. destruct (esc_facts c v t E) as (_ & P & NP & _ & A). rewrite (pl_back c t st n l A), NP, P. cbn [pbind]. apply pl_fuel. lia.
Qed.
Lemma pl_perl neg c t st n l : perl_letter c -> exists g, perl_escape (upper neg c) = Some g /\ PL (x5c :: upper neg c :: t) st n l = PL t (push (SRe (OpCharClass (flat g))) st) n false.
Proof.
  intros O. destruct (perl_facts neg c O) as (g & PE & _ & _ & A & _). exists g. split; [exact PE|]. rewrite (pl_back _ t st n l (A t)).
  assert (P : parsePerl (x5c :: upper neg c :: t) = Some (g, t)) by (unfold parsePerl; rewrite PE; reflexivity). rewrite P. apply pl_fuel. lia.
Qed.
Lemma pl_class t re rest st n l : parseClass t = POk (re, rest) -> PL (x5b :: t) st n l = PL rest (push (SRe re) st) n false.
Proof.
  intros P. unfold PL at 1. cbn [length]. remember (S (length t)) as f. cbn [parse_loop]. change (Byte.eqb x5b x28) with false. change (Byte.eqb x5b x5b) with true. cbv iota. rewrite P. cbn [pbind]. apply pl_fuel. pose proof (class_len _ _ _ P). lia.
Qed.
Lemma pl_begin t st n l : PL (x5e :: t) st n l = PL t (push (SRe OpBeginText) st) n false.
Proof. reflexivity. Qed.
Lemma pl_end t st n l : PL (x24 :: t) st n l = PL t (push (SRe OpEndText) st) n false.
Proof. reflexivity. Qed.
Lemma pl_open t st n l : at_byte t x3f = false -> PL (x28 :: t) st n l = PL t (push (SLeftParen (S n)) st) (S n) false.
Proof. intros A. unfold PL at 1. cbn [length]. remember (S (length t)) as f. cbn [parse_loop]. change (Byte.eqb x28 x28) with true. cbv iota. rewrite A. subst f. reflexivity. Qed.
Lemma pl_close t st n l : PL (x29 :: t) st n l = pbind (parseRightParen st) (fun st => PL t st n false).
Proof. reflexivity. Qed.
Lemma top_ok q re rest st : q <> QOne -> q_ok q -> (q_bound q (rb re) <= 1000)%nat -> at_byte rest x3f = false -> repeat_top (mk_of q) false rest (SRe re :: st) = POk (SRe (mk_of q re) :: st).
Proof.
  intros NQ Q L A. unfold repeat_top. rewrite A. assert (V : repeatIsValid (mk_of q re) 1000 = true) by (apply rb_valid; rewrite rb_mk; exact L). rewrite V. cbn [negb]. destruct q; cbn [mk_of]; rewrite ?andb_false_r; try reflexivity. contradiction NQ; reflexivity.
Qed.
Lemma pl_simple c q re rest st n : In (c, q) [(x2a, QStar); (x2b, QPlus); (x3f, QQuest)] -> at_byte rest x3f = false ->
  PL (c :: rest) (SRe re :: st) n false = PL rest (SRe (mk_of q re) :: st) n true.
Proof.
  intros I A. unfold PL. cbn [length]. generalize (S (length rest)). intros f. assert (T : forall mk, (mk re = OpStar re \/ mk re = OpPlus re \/ mk re = OpQuest re) -> repeat_top mk false rest (SRe re :: st) = POk (SRe (mk re) :: st)).
  { intros mk M. unfold repeat_top. rewrite A. destruct M as [->|[->| ->]]; reflexivity. }
  destruct I as [I|[I|[I|[]]]]; injection I as <- <-; cbn [parse_loop mk_of].
  - change (pbind (repeat_top OpStar false rest (SRe re :: st)) (fun st0 => parse_loop f rest st0 n true) = parse_loop f rest (SRe (OpStar re) :: st) n true). rewrite T by auto. reflexivity.
  - change (pbind (repeat_top OpPlus false rest (SRe re :: st)) (fun st0 => parse_loop f rest st0 n true) = parse_loop f rest (SRe (OpPlus re) :: st) n true). rewrite T by auto. reflexivity.
  - change (pbind (repeat_top OpQuest false rest (SRe re :: st)) (fun st0 => parse_loop f rest st0 n true) = parse_loop f rest (SRe (OpQuest re) :: st) n true). rewrite T by auto. reflexivity.
Qed.
Lemma pl_brace q a b re rest st n : q_bounds q = Some (a, b) -> (a <= b)%nat -> (b <= 1000)%nat ->
  PL (w_quant q ++ rest) (SRe re :: st) n false = pbind (repeat_top (OpRepeat a b) false rest (SRe re :: st)) (fun st => PL rest st n true).
Proof.
  intros QB AB B1. pose proof (repeat_read q a b rest QB ltac:(lia) B1) as RR.
  assert (W : exists u, w_quant q ++ rest = x7b :: u /\ (length rest < S (length u))%nat) by (destruct q; try discriminate QB; (eexists; split; [reflexivity|]; rewrite !app_length; lia)). destruct W as (u & W & WL). rewrite W in *.
  unfold PL at 1. cbn [length]. revert WL. generalize (S (length u)). intros f WL. cbn [parse_loop]. rewrite RR.
  assert ((Z.of_nat a <? 0) || (1000 <? Z.of_nat a) || (1000 <? Z.of_nat b) || ((0 <=? Z.of_nat b) && (Z.of_nat b <? Z.of_nat a)) = false) as -> by lia. assert (Z.of_nat b <? 0 = false) as -> by lia. rewrite !Nat2Z.id.
  change (pbind (repeat_top (OpRepeat a b) false rest (SRe re :: st)) (fun st0 => parse_loop f rest st0 n true) = pbind (repeat_top (OpRepeat a b) false rest (SRe re :: st)) (fun st0 => PL rest st0 n true)).
  destruct (repeat_top (OpRepeat a b) false rest (SRe re :: st)) as [st1| |]; cbn [pbind]; [|reflexivity|reflexivity]. apply pl_fuel. lia.
Qed.
Lemma q_brace q m n : q_ok q -> q_bounds q = Some (m, n) -> (m <= n)%nat /\ (n <= 1000)%nat /\ mk_of q = OpRepeat m n /\ forall b, q_bound q b = if (n =? 0)%nat then 1%nat else (n * b)%nat.
Proof. intros Q E. destruct q; try discriminate E; injection E as <- <-; cbn [q_ok] in Q; (split; [lia|]; split; [lia|]; split; reflexivity). Qed.
Lemma pl_quant q re rest st n : q_ok q -> (q_bound q (rb re) <= 1000)%nat -> at_byte rest x3f = false ->
  PL (w_quant q ++ rest) (SRe re :: st) n false = PL rest (SRe (mk_of q re) :: st) n (match q with QOne => false | _ => true end).
Proof.
  intros Q L A. destruct (q_bounds q) as [[m k]|] eqn:QB.
  - destruct (q_brace q m k Q QB) as (L1 & L2 & MK & _). rewrite (pl_brace q m k re rest st n QB L1 L2). pose proof (top_ok q re rest st ltac:(destruct q; discriminate) Q L A) as T. rewrite MK in *. rewrite T. cbn [pbind]. destruct q; try discriminate QB; reflexivity.
  - destruct q; try discriminate QB; [reflexivity| | |]; (apply pl_simple; [cbn; tauto|exact A]).
Qed.
Lemma pl_quant_bad q re rest st n : q_ok q -> (rb re <= 1000 < q_bound q (rb re))%nat -> at_byte rest x3f = false -> PL (w_quant q ++ rest) (SRe re :: st) n false = PError.
Proof.
  intros Q L A. destruct (q_bounds q) as [[m k]|] eqn:QB; [|destruct q; try discriminate QB; cbn [q_bound] in L; lia].
  destruct (q_brace q m k Q QB) as (L1 & L2 & MK & QK). rewrite (pl_brace q m k re rest st n QB L1 L2).
  assert (B2 : (2 <= k)%nat) by (rewrite QK in L; destruct k as [|[|k]]; cbn [Nat.eqb Nat.mul] in L; lia).
  assert (V : repeatIsValid (OpRepeat m k re) 1000 = false) by (apply rb_invalid; rewrite <- MK, rb_mk; lia).
  unfold repeat_top. rewrite A, V. assert ((2 <=? k)%nat = true) as -> by (apply Nat.leb_le; exact B2). rewrite orb_true_r. reflexivity.
Qed.

(** ** Patterns *)
Scheme atom_pat := Induction for atom Sort Prop with pat_atom := Induction for pat Sort Prop.
Combined Scheme pattern_ind from atom_pat, pat_atom.
Lemma within_dec : (forall a, a_within a \/ ~ a_within a) /\ (forall p, p_within p \/ ~ p_within p).
Proof.
  apply pattern_ind; intros; cbn [a_within p_within]; try (left; exact I); try assumption. destruct (Nat.le_gt_cases (q_bound q (a_bound a)) 1000); [|right; intros (_ & K & _); lia]. destruct H; [|tauto]. destruct H0; tauto.
Qed.
Lemma bound_pos : (forall a, 1 <= a_bound a)%nat /\ (forall p, 1 <= p_bound p)%nat.
Proof. apply pattern_ind; intros; cbn [a_bound p_bound]; lia. Qed.
Lemma within_bound : (forall a, a_within a -> (a_bound a <= 1000)%nat) /\ (forall p, p_within p -> (p_bound p <= 1000)%nat).
Proof. apply pattern_ind; intros; cbn [a_bound p_bound a_within p_within] in *; try lia; auto. destruct H1 as (W1 & W2 & W3). specialize (H0 W3). lia. Qed.
Lemma atom_first a rest : a_ok a -> at_byte (w_atom a ++ rest) x3f = false.
Proof.
  destruct a as [c|c|neg c|neg lead items trail| | |p]; intros O; cbn [w_atom]; try reflexivity. destruct O as [_ N]. cbn [app at_byte]. apply (in_bytes_eqb c _ N). cbn. tauto.
Qed.
Lemma pat_first p rest : p_ok p -> at_byte rest x3f = false -> at_byte (w_pat p ++ rest) x3f = false.
Proof. destruct p as [|a q p]; intros O A; [exact A|]. cbn [w_pat]. rewrite <- app_assoc. apply atom_first. exact (proj1 O). Qed.
(** In proofs; for bip32/path.go:22, 25, bip32/reg_ver_bytes.go:75. *)
Definition atom_good (a : atom) : Prop := a_ok a -> forall st n l rest,
  (a_within a -> exists re st' n', PL (w_atom a ++ rest) st n l = PL rest (SRe re :: st') n' false /\ (forall s i j, Den s re i j <-> MA s a i j) /\ rb re = a_bound a /\ not_any re /\ same st st') /\
  (~ a_within a -> PL (w_atom a ++ rest) st n l = PError).
(** In proofs; for bip32/path.go:22, 25, bip32/reg_ver_bytes.go:75. *)
Definition pat_good (p : pat) : Prop := p_ok p -> forall st n l rest, at_byte rest x3f = false ->
  (p_within p -> exists st' n' l', PL (w_pat p ++ rest) st n l = PL rest st' n' l' /\ (forall s i k, seg_den s st' i k <-> exists j, seg_den s st i j /\ ML s p j k) /\ base st' = base st /\
    seg_rb st' = Nat.max (seg_rb st) (p_bound p) /\ (fine st -> fine st')) /\
  (~ p_within p -> PL (w_pat p ++ rest) st n l = PError).
Lemma one_atom a re0 st n l rest : a_within a -> PL (w_atom a ++ rest) st n l = PL rest (push (SRe re0) st) n false -> (forall s i j, Den s re0 i j <-> MA s a i j) -> rb re0 = a_bound a -> not_any re0 ->
  (a_within a -> exists re st' n', PL (w_atom a ++ rest) st n l = PL rest (SRe re :: st') n' false /\ (forall s i j, Den s re i j <-> MA s a i j) /\ rb re = a_bound a /\ not_any re /\ same st st') /\
  (~ a_within a -> PL (w_atom a ++ rest) st n l = PError).
Proof.
  intros W E D R N. split; [intros _|contradiction]. destruct (push_sem re0 st) as (re & P & PD & PR & PA). exists re, (fst (maybeConcat st None)), n. rewrite P in E. split; [exact E|]. split; [intros s i j; rewrite PD; apply D|]. split; [rewrite PR; exact R|]. split; [apply PA; exact N|apply maybe_same].
Qed.
Lemma mn_q s a q re : (forall i j, Den s re i j <-> MA s a i j) -> forall i j, Den s (mk_of q re) i j <-> exists k, times q k /\ MN s a k i j.
Proof. intros EQ i j. apply quant_den. exact EQ. Qed.
Lemma all_good : (forall a, atom_good a) /\ (forall p, pat_good p).
Proof.
  apply pattern_ind.
  - intros c O st n l rest. apply (one_atom (AChar c) (OpLiteral false [Zb c])); [exact I|apply pl_char; exact O| |reflexivity|exact I].
    intros s i j. rewrite lit_one. split; [intros (x & w & R & [->|[Q _]] & ->); [constructor; exact R|discriminate Q]|]. intros M. inversion M; subst. eexists _, _. split; [eassumption|]. split; [left; reflexivity|reflexivity].
  - intros c [v E] st n l rest. apply (one_atom (AEsc c) (OpLiteral false [v])); [exact I|apply pl_esc; exact E| |reflexivity|exact I].
    intros s i j. rewrite lit_one. split; [intros (x & w & R & [->|[Q _]] & ->); [apply MA_esc with v; assumption|discriminate Q]|]. intros M. inversion M; subst. assert (x = v) by congruence. subst x. eexists _, _. split; [eassumption|]. split; [left; reflexivity|reflexivity].
  - intros neg c O st n l rest. destruct (pl_perl neg c rest st n l O) as (g & PE & P). destruct (perl_facts neg c O) as (g' & PE' & GS & _ & _ & NA). assert (g' = g) by congruence. subst g'.
    apply (one_atom (APerl neg c) (OpCharClass (flat g))); [exact I|exact P| |reflexivity|].
    + intros s i j. rewrite class_den. split; [intros (x & w & R & C & ->); apply MA_perl with x; [apply GS, in_flat; exact C|exact R]|]. intros M. inversion M; subst. eexists _, _. split; [eassumption|]. split; [apply in_flat, GS; assumption|reflexivity].
    + destruct NA as (x & X1 & X2 & X3). exists x. split; [exact X1|]. split; [exact X2|]. rewrite in_flat, GS. exact X3.
  - intros neg lead items trail O st n l rest. destruct (class_parse neg lead items trail rest O) as (rs & RS & P). destruct O as (_ & _ & _ & _ & x & X1 & X2 & X3).
    apply (one_atom (AClass neg lead items trail) (OpCharClass rs)); [exact I| | |reflexivity|].
    + change (w_atom (AClass neg lead items trail) ++ rest) with (x5b :: (class_text neg lead items trail ++ rest)). apply pl_class. exact P.
    + intros s i j. rewrite class_den. split; [intros (y & w & R & C & ->); apply MA_class with y; [apply RS; exact C|exact R]|]. intros M. inversion M; subst. eexists _, _. split; [eassumption|]. split; [apply RS; assumption|reflexivity].
    + exists x. split; [exact X1|]. split; [exact X2|]. rewrite RS. exact X3.
  - intros O st n l rest. apply (one_atom ABegin OpBeginText); [exact I|apply pl_begin| |reflexivity|exact I]. intros s i j. split; intros M; inversion M; subst; constructor.
  - intros O st n l rest. apply (one_atom AEnd OpEndText); [exact I|apply pl_end| |reflexivity|exact I]. intros s i j. split; intros M; inversion M; subst; constructor.
  - intros p IH O st n l rest. cbn [a_ok] in O. change (w_atom (AGroup p) ++ rest) with (x28 :: (w_pat p ++ B ")") ++ rest). rewrite <- app_assoc.
    rewrite pl_open by (apply pat_first; [exact O|reflexivity]). rewrite push_paren. set (st0 := fst (maybeConcat st None)).
    destruct (IH O (SLeftParen (S n) :: st0) (S n) false (B ")" ++ rest) eq_refl) as [IG IB]. split; [|exact IB]. intros W. destruct (IG W) as (st1 & n1 & l1 & E & D & SB & SR & SF). rewrite E. change (B ")" ++ rest) with (x29 :: rest). rewrite pl_close. unfold parseRightParen.
    destruct (concat_sem st1) as (re & CT & CD & CR & CA). rewrite CT, SB. cbn [base]. rewrite alternate_sem by (apply CA, SF; exact I). cbn [pbind].
    destruct (push_sem (OpCapture (S n) re) st0) as (re' & P & PD & PR & PA). rewrite P. exists re', (fst (maybeConcat st0 None)), n1. split; [reflexivity|]. split; [|split; [|split]].
    + intros s i j. rewrite PD. transitivity (Den s re i j); [split; [intros K; inversion K; subst; assumption|intros K; constructor; exact K]|]. rewrite CD, D. cbn [seg_den]. split; [intros (k & -> & K); constructor; exact K|intros K; inversion K; subst; exists i; split; [reflexivity|assumption]].
    + rewrite PR. cbn [rb a_bound]. cbn [seg_rb] in SR. pose proof (proj2 bound_pos p). lia.
    + apply PA. exact I.
    + destruct (maybe_same st) as (A1 & A2 & A3 & A4). destruct (maybe_same st0) as (B1 & B2 & B3 & B4). fold st0 in A1, A2, A3, A4. split; [intros s i j; rewrite B1; apply A1|]. split; [congruence|]. split; [congruence|auto].
  - intros O st n l rest A. split; [intros _|intros N; contradiction N; exact I]. exists st, n, l. split; [reflexivity|]. split; [intros s i k; split; [intros K; exists k; split; [exact K|constructor]|intros (j & K & M); inversion M; subst; exact K]|]. split; [reflexivity|]. split; [cbn [p_bound]; pose proof (seg_pos st); lia|auto].
  - intros a IHa q p IHp (OA & OQ & OP) st n l rest A. cbn [w_pat p_within p_bound]. rewrite <- !app_assoc.
    destruct (IHa OA st n l (w_quant q ++ w_pat p ++ rest)) as [AG AB]. destruct (proj1 within_dec a) as [WA|WA]; [|split; [intros (K & _); contradiction|intros _; exact (AB WA)]].
    destruct (AG WA) as (re & st1 & n1 & E & D & R & NA & SD & SB & SR & SF). rewrite E. rewrite <- R. pose proof (proj1 within_bound a WA) as LA. rewrite <- R in LA.
    destruct (Nat.le_gt_cases (q_bound q (rb re)) 1000) as [LQ|LQ]; [|split; [intros (_ & K & _); lia|intros _; apply pl_quant_bad; [exact OQ|lia|apply pat_first; assumption]]].
    rewrite (pl_quant q re _ st1 n1 OQ LQ) by (apply pat_first; assumption).
    destruct (IHp OP (SRe (mk_of q re) :: st1) n1 (match q with QOne => false | _ => true end) rest A) as [PG PB]. split; [|intros N; apply PB; tauto].
    intros (_ & _ & WP). destruct (PG WP) as (st2 & n2 & l2 & E2 & D2 & SB2 & SR2 & SF2). exists st2, n2, l2. split; [exact E2|]. split; [|split; [|split]].
    + intros s i k. rewrite D2. cbn [seg_den]. split.
      * intros (j & (m & K1 & K2) & K3). apply (mn_q s a q re (D s)) in K2 as (t & T1 & T2). exists m. split; [apply SD; exact K1|]. eapply ML_cons; eassumption.
      * intros (m & K1 & M). inversion M; subst. eexists. split; [exists m; split; [apply SD; exact K1|]|eassumption]. apply (mn_q s a q re (D s)). eexists. split; eassumption.
    + rewrite SB2. exact SB.
    + cbn [seg_rb] in SR2. rewrite rb_mk in SR2. lia.
    + intros F. apply SF2. cbn [fine]. split; [destruct q; cbn [mk_of]; try exact I; exact NA|apply SF; exact F].
Qed.
Theorem Parse_written p : p_ok p -> (length (w_pat p) <= 1000)%nat ->
  (p_within p -> exists re, Parse (w_pat p) = POk re /\ forall s i j, Den s re i j <-> ML s p i j) /\ (~ p_within p -> Parse (w_pat p) = PError).
Proof.
  intros O L. destruct (proj2 all_good p O [] 0%nat false [] eq_refl) as [G B']. rewrite app_nil_r in G, B'. unfold PL in G at 1. unfold PL in B'. unfold Parse. assert ((1000 <? length (w_pat p))%nat = false) as -> by (apply Nat.ltb_ge; exact L). split.
  - intros W. destruct (G W) as (st & n & l & E & D & SB & _ & SF). rewrite E. unfold PL. cbn [parse_loop length pbind]. destruct (concat_sem st) as (re & CT & CD & _ & CA). rewrite CT, SB. cbn [base]. rewrite alternate_sem by (apply CA, SF; exact I). cbn [pbind].
    exists re. split; [reflexivity|]. intros s i j. rewrite CD, D. cbn [seg_den]. split; [intros (k & -> & K); exact K|intros K; exists i; split; [reflexivity|exact K]].
  - intros N. rewrite (B' N). reflexivity.
Qed.
