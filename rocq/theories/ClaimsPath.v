(** ClaimsPath.v - the property statements of PropsPath.v with their proofs. *)
From Verif Require Import Base BaseFacts GoStr GoStrFacts Rx RxFacts SpecPath Bip32Path Bip32Reg Bip32RegFacts Bip32PathFacts.
From Coq Require Import ZifyBool ZifyNat ZifyN.

Lemma q_quote a : ContainsB x27 (q a) = true.
Proof. unfold q. rewrite ContainsB_app. apply orb_true_r. Qed.
Lemma num_quote a : numeral a -> ContainsB x27 a = false.
Proof. intros Ha. apply numeral_iff in Ha as [_ Ha]. apply digit_not_quote. exact Ha. Qed.
Lemma q_inj a b : q a = q b -> a = b.
Proof. apply app_inv_tail. Qed.
Lemma comps_inj hs : forall ss hs' ss', Forall numeral ss -> Forall numeral ss' ->
  map q hs ++ ss = map q hs' ++ ss' -> hs = hs' /\ ss = ss'.
Proof.
  induction hs as [|a hs IH]; intros ss [|b hs'] ss' Hs Hs' E; cbn [map app] in E.
  - split; [reflexivity|exact E].
  - exfalso. subst ss. inversion Hs as [|? ? N]. apply num_quote in N. rewrite q_quote in N. discriminate.
  - exfalso. subst ss'. inversion Hs' as [|? ? N]. apply num_quote in N. rewrite q_quote in N. discriminate.
  - assert (E1 : q a = q b) by congruence. assert (E2 : map q hs ++ ss = map q hs' ++ ss') by congruence. apply q_inj in E1. subst b.
    destruct (IH ss hs' ss' Hs Hs' E2) as [-> ->]. split; reflexivity.
Qed.
Lemma grammar_unique s hs ss hs' ss' : path_grammar s hs ss -> path_grammar s hs' ss' -> hs = hs' /\ ss = ss'.
Proof.
  intros (m & Hm & H1 & H2 & E) (m' & Hm' & H1' & H2' & E'). pose proof (path_split m hs ss Hm H1 H2) as P. pose proof (path_split m' hs' ss' Hm' H1' H2') as P'.
  rewrite <- E in P. rewrite <- E' in P'. rewrite P in P'. apply (comps_inj hs ss hs' ss' H2 H2'). congruence.
Qed.
Lemma hard_all hs : Forall numeral hs -> (forallb hard_ok hs = true <-> Forall (fun a => number a < 2 ^ 63 /\ number a mod 2 ^ 32 < 2 ^ 31) hs).
Proof.
  intros HN. rewrite forallb_forall, Forall_forall. rewrite Forall_forall in HN. split; intros HA a Ha; specialize (HA a Ha); destruct (proj1 (numeral_iff a) (HN a Ha)) as [_ D].
  - apply hard_ok_spec in HA; [|exact D]. rewrite number_dec. change MaxInt with (2 ^ 63 - 1) in HA. lia.
  - apply hard_ok_spec; [exact D|]. rewrite number_dec in HA. change MaxInt with (2 ^ 63 - 1). lia.
Qed.
Lemma soft_all ss : (forallb soft_ok ss = true <-> Forall (fun a => number a < 2 ^ 63) ss).
Proof.
  rewrite forallb_forall, Forall_forall.
  assert (E : forall a, soft_ok a = true <-> number a < 2 ^ 63).
  { intros a. unfold soft_ok. rewrite Z.leb_le, <- number_dec. change MaxInt with (2 ^ 63 - 1). lia. }
  split; intros HA a Ha; apply E, HA; exact Ha.
Qed.
Lemma number_range a : numeral a -> 0 <= number a.
Proof. intros Ha. apply numeral_iff in Ha as [_ Ha]. rewrite number_dec. apply dec_val_range. exact Ha. Qed.
Lemma vals_mod hs ss : vals_of hs ss = map (fun a => number a mod 2 ^ 32 + 2 ^ 31) hs ++ map (fun a => number a mod 2 ^ 32) ss.
Proof.
  unfold vals_of. f_equal; apply map_ext; intros a; rewrite number_dec; reflexivity.
Qed.

Lemma C35_grammar_l : forall p s, stripped p s ->
  (PathIsValid p = true <-> exists hs ss, path_grammar s hs ss /\
     Forall (fun a => number a < 2 ^ 63 /\ number a mod 2 ^ 32 < 2 ^ 31) hs /\ Forall (fun a => number a < 2 ^ 63) ss) /\
  (PathIsValid p = true <-> exists l, ValuesAtDepth p = (l, None)).
Proof.
intros p s HS. apply stripped_iff in HS. subst s. split; [|apply PathIsValid_spec]. rewrite PathIsValid_spec. split.
  - intros (l & E). apply Values_valid in E as (hs & ss & G & H1 & H2 & _). exists hs, ss. split; [exact G|].
    destruct G as (m & _ & N1 & N2 & _). apply hard_all in H1; [|exact N1]. apply soft_all in H2. tauto.
  - intros (hs & ss & G & H1 & H2). exists (0 :: vals_of hs ss). apply Values_valid. exists hs, ss. split; [exact G|].
    destruct G as (m & _ & N1 & N2 & _). apply hard_all in H1; [|exact N1]. apply soft_all in H2. tauto.
Qed.

Lemma C35_unambiguous_l : forall s hs ss hs' ss', path_grammar s hs ss -> path_grammar s hs' ss' -> hs = hs' /\ ss = ss'.
Proof.
exact grammar_unique.
Qed.

Lemma C35_ex_l : stripped (B "m / 44' /0") (B "m/44'/0") /\ path_grammar (B "m/44'/0") [B "44"] [B "0"].
Proof.
split; [apply stripped_iff; reflexivity|]. exists x6d. split; [left; reflexivity|].
  split; [constructor; [apply numeral_iff; split; [discriminate|reflexivity]|constructor]|]. split; [constructor; [apply numeral_iff; split; [discriminate|reflexivity]|constructor]|reflexivity].
Qed.

Lemma C36_values_l : forall p s hs ss l, stripped p s -> path_grammar s hs ss -> ValuesAtDepth p = (l, None) ->
  l = 0 :: map (fun a => number a mod 2 ^ 32 + 2 ^ 31) hs ++ map (fun a => number a mod 2 ^ 32) ss /\
  (Forall (fun a => number a < 2 ^ 32) (hs ++ ss) -> l = 0 :: path_values hs ss).
Proof.
intros p s hs ss l HS G E. apply stripped_iff in HS. subst s. apply Values_valid in E as (hs' & ss' & G' & _ & _ & ->).
  destruct (grammar_unique _ _ _ _ _ G G') as [<- <-]. rewrite vals_mod. split; [reflexivity|]. intros HB. f_equal. unfold path_values.
  destruct G as (m & _ & N1 & N2 & _). rewrite Forall_forall in *.
  f_equal; apply map_ext_in; intros a Ha; rewrite Z.mod_small; try reflexivity; (split; [apply number_range; auto|apply HB, in_or_app; tauto]).
Qed.

Lemma C36_truncation_refuted_l : ValuesAtDepth (B "m/4294967296") = ([0; 0], None) /\ ValuesAtDepth (B "m/0") = ([0; 0], None) /\
ValuesAtDepth (B "m/4294967296'") = ([0; 2147483648], None) /\
(forall a, numeral a -> number a < 2 ^ 63 -> ValuesAtDepth (B "m/" ++ a) = ([0; number a mod 2 ^ 32], None)).
Proof.
split; [reflexivity|]. split; [reflexivity|]. split; [reflexivity|]. intros a Ha Hb. apply Values_valid. exists [], [a].
  assert (E : B "m/" ++ a = path_text x6d [] [a]) by (unfold path_text, soft_text; cbn [map concat app]; rewrite app_nil_r; reflexivity). rewrite E. split.
  - rewrite PathString_nows by (apply path_text_nows; [left; reflexivity|constructor|repeat constructor; apply Ha]).
    exists x6d. split; [left; reflexivity|]. split; [constructor|]. split; [repeat constructor; apply Ha|reflexivity].
  - split; [reflexivity|]. split; [apply soft_all; repeat constructor; exact Hb|]. rewrite vals_mod. reflexivity.
Qed.

Lemma loop_hards hs : forall acc r, Forall numeral hs -> forallb hard_ok hs = true ->
  values_loop acc (map q hs ++ r) = values_loop (acc ++ map (fun a => u32 (dec_val a) + FirstHardenedChild) hs) r.
Proof.
  induction hs as [|a hs IH]; intros acc r HN HB; [cbn; rewrite app_nil_r; reflexivity|]. inversion HN; subst. cbn [forallb] in HB. apply andb_true_iff in HB as [B1 B2].
  unfold hard_ok in B1. apply andb_true_iff in B1 as [B0 B1]. cbn [map app]. rewrite loop_hard, B0, B1 by assumption. rewrite IH by assumption. rewrite <- app_assoc. reflexivity.
Qed.
Lemma loop_softs_then ss : forall acc r, Forall numeral ss -> forallb soft_ok ss = true ->
  values_loop acc (ss ++ r) = values_loop (acc ++ map (fun a => u32 (dec_val a)) ss) r.
Proof.
  induction ss as [|a ss IH]; intros acc r HN HB; [cbn; rewrite app_nil_r; reflexivity|]. inversion HN; subst. cbn [forallb] in HB. apply andb_true_iff in HB as [B0 B2].
  unfold soft_ok in B0. cbn [map app]. rewrite loop_soft, B0 by assumption. rewrite IH by assumption. rewrite <- app_assoc. reflexivity.
Qed.
Lemma values_of_grammar p m hs ss : m = x6d \/ m = x4d -> Forall numeral hs -> Forall numeral ss -> PathString p = path_text m hs ss ->
  ValuesAtDepth p = values_loop [0] (map q hs ++ ss).
Proof.
  intros Hm H1 H2 E. unfold ValuesAtDepth. rewrite E. assert (rx_match PathRegex (path_text m hs ss) = true) as ->.
  { apply PathRegex_spec. exists hs, ss, m. auto. }
  cbn [negb]. rewrite path_split by assumption. reflexivity.
Qed.

Lemma C36_errors_l : forall p s, stripped p s ->
  ((~ exists hs ss, path_grammar s hs ss) -> ValuesAtDepth p = ([], Some ErrUnSupportedOrInvalidPath)) /\
  (forall hs a hs' ss, path_grammar s (hs ++ a :: hs') ss -> Forall (fun b => number b < 2 ^ 63 /\ number b mod 2 ^ 32 < 2 ^ 31) hs ->
     let before := 0 :: map (fun b => number b mod 2 ^ 32 + 2 ^ 31) hs in
     (2 ^ 63 <= number a -> ValuesAtDepth p = (before, Some ErrRange)) /\
     (number a < 2 ^ 63 -> 2 ^ 31 <= number a mod 2 ^ 32 -> ValuesAtDepth p = (before, Some ErrUnSupportedOrInvalidPath))) /\
  (forall hs ss a ss', path_grammar s hs (ss ++ a :: ss') -> Forall (fun b => number b < 2 ^ 63 /\ number b mod 2 ^ 32 < 2 ^ 31) hs ->
     Forall (fun b => number b < 2 ^ 63) ss -> 2 ^ 63 <= number a ->
     ValuesAtDepth p = (0 :: map (fun b => number b mod 2 ^ 32 + 2 ^ 31) hs ++ map (fun b => number b mod 2 ^ 32) ss, Some ErrRange)).
Proof.
intros p s HS. apply stripped_iff in HS. symmetry in HS.
  assert (VH : forall hs : list bytes, map (fun a => u32 (dec_val a) + FirstHardenedChild) hs = map (fun b => number b mod 2 ^ 32 + 2 ^ 31) hs).
  { intros hs. apply map_ext. intros a. rewrite number_dec. reflexivity. }
  assert (VS : forall hs : list bytes, map (fun a => u32 (dec_val a)) hs = map (fun b => number b mod 2 ^ 32) hs).
  { intros hs. apply map_ext. intros a. rewrite number_dec. reflexivity. }
  split; [|split].
  - intros N. unfold ValuesAtDepth. rewrite HS. destruct (rx_match PathRegex s) eqn:R; [|reflexivity]. elim N. apply PathRegex_spec. exact R.
  - intros hs a hs' ss (m & Hm & N1 & N2 & Es) FB before. apply Forall_app in N1 as N1'. destruct N1' as [Nh Na']. inversion Na' as [|? ? Na Nh']; subst x l.
    apply (hard_all hs Nh) in FB. rewrite (values_of_grammar p m (hs ++ a :: hs') ss Hm N1 N2) by congruence.
    rewrite map_app, <- app_assoc. rewrite (loop_hards hs [0] _ Nh FB), VH. cbn [map app]. rewrite loop_hard by exact Na. rewrite <- number_dec. fold before.
    change MaxInt with (2 ^ 63 - 1). change (u32 (number a)) with (number a mod 2 ^ 32). change FirstHardenedChild with (2 ^ 31). split.
    + intros G. destruct (Z.leb_spec (number a) (2 ^ 63 - 1)); [lia|reflexivity].
    + intros L G. destruct (Z.leb_spec (number a) (2 ^ 63 - 1)); [|lia]. destruct (Z.ltb_spec (number a mod 2 ^ 32) (2 ^ 31)); [lia|reflexivity].
  - intros hs ss a ss' (m & Hm & N1 & N2 & Es) FB FS G. apply Forall_app in N2 as N2'. destruct N2' as [Ns Na']. inversion Na' as [|? ? Na Ns']; subst x l.
    apply (hard_all hs N1) in FB. apply soft_all in FS. rewrite (values_of_grammar p m hs (ss ++ a :: ss') Hm N1 N2) by congruence.
    rewrite (loop_hards hs [0] _ N1 FB), VH. rewrite (loop_softs_then ss _ _ Ns FS), VS. rewrite loop_soft by exact Na. rewrite <- number_dec.
    change MaxInt with (2 ^ 63 - 1). destruct (Z.leb_spec (number a) (2 ^ 63 - 1)); [lia|]. reflexivity.
Qed.

Lemma C36_ex_l : ValuesAtDepth (B "m/44'/7") = ([0; 2147483692; 7], None) /\ numeral (B "4294967296") /\ number (B "4294967296") = 2 ^ 32 /\
ValuesAtDepth (B "m/1'/2147483648'/3") = ([0; 2147483649], Some ErrUnSupportedOrInvalidPath) /\ 2 ^ 63 <= number (B "9223372036854775808") /\
ValuesAtDepth (B "m/1'/2/9223372036854775808/3") = ([0; 2147483649; 2], Some ErrRange) /\ ValuesAtDepth (B "x") = ([], Some ErrUnSupportedOrInvalidPath).
Proof.
split; [reflexivity|]. split; [apply numeral_iff; split; [discriminate|reflexivity]|]. split; [reflexivity|]. split; [reflexivity|]. split; [vm_compute; discriminate|]. split; reflexivity.
Qed.

Lemma C37_formatting_l : forall p s, stripped p s ->
  PathString p = s /\ Formatted p = s /\ PathString s = s /\ PathIsValid s = PathIsValid p /\ ValuesAtDepth s = ValuesAtDepth p.
Proof.
intros p s HS. apply stripped_iff in HS. subst s. split; [reflexivity|]. split; [reflexivity|]. split; [apply PathString_idem|].
  unfold PathIsValid. rewrite ValuesAtDepth_String. split; reflexivity.
Qed.

Lemma C37_print_parse_l : forall hs ss, Forall (fun v => 0 <= v < 2 ^ 31) hs -> Forall (fun v => 0 <= v < 2 ^ 32) ss ->
  ValuesAtDepth (path_text x6d (map Itoa hs) (map Itoa ss)) = (0 :: map (fun v => v + 2 ^ 31) hs ++ ss, None).
Proof.
exact printed_values.
Qed.

Lemma C37_itoa_l : forall v, 0 <= v -> numeral (Itoa v) /\ number (Itoa v) = v.
Proof.
intros v Hv. split; [apply Itoa_numeral; exact Hv|]. rewrite number_dec. apply dec_Itoa. exact Hv.
Qed.

Lemma C37_ex_l : stripped (B " m /0") (B "m/0") /\ path_text x6d (map Itoa [44; 0]) (map Itoa [5]) = B "m/44'/0'/5" /\ Forall (fun v => 0 <= v < 2 ^ 31) [44; 0].
Proof.
split; [apply stripped_iff; reflexivity|]. split; [reflexivity|]. repeat constructor; discriminate.
Qed.

Lemma C38_value_at_depth_l : forall p b, ValueAtDepth p b <> Panic /\
  (forall l, ValuesAtDepth p = (l, None) -> (length l <= 255)%nat ->
     (Zb b < Z.of_nat (length l) -> exists v, nth_error l (Z.to_nat (Zb b)) = Some v /\ ValueAtDepth p b = Ret (v, None)) /\
     (Z.of_nat (length l) <= Zb b -> ValueAtDepth p b = Ret (0, Some ErrUnSupportedOrInvalidPath))) /\
  (forall l e, ValuesAtDepth p = (l, Some e) -> ValueAtDepth p b = Ret (0, Some e)).
Proof.
intros p b. rewrite ValueAtDepth_spec. split; [discriminate|]. pose proof (Zb_range b) as RB. split.
  - intros l -> L. rewrite Z.mod_small by lia. split; intros HB.
    + assert (Zb b <? Z.of_nat (length l) = true) as -> by lia. exists (nth (Z.to_nat (Zb b)) l 0). split; [|reflexivity].
      apply nth_error_nth'. lia.
    + assert (Zb b <? Z.of_nat (length l) = false) as -> by lia. reflexivity.
  - intros l e ->. reflexivity.
Qed.

Lemma C38_count_mod_256_l : forall p b l, ValuesAtDepth p = (l, None) ->
  (Z.of_nat (length l) mod 256 <= Zb b -> ValueAtDepth p b = Ret (0, Some ErrUnSupportedOrInvalidPath)) /\
  (Zb b < Z.of_nat (length l) mod 256 -> exists v, nth_error l (Z.to_nat (Zb b)) = Some v /\ ValueAtDepth p b = Ret (v, None)).
Proof.
intros p b l E. rewrite ValueAtDepth_spec, E. pose proof (Zb_range b) as RB. split; intros HB.
  - assert (Zb b <? Z.of_nat (length l) mod 256 = false) as -> by lia. reflexivity.
  - assert (Zb b <? Z.of_nat (length l) mod 256 = true) as -> by lia. exists (nth (Z.to_nat (Zb b)) l 0). split; [|reflexivity].
    apply nth_error_nth'. pose proof (Z.mod_le (Z.of_nat (length l)) 256 ltac:(lia) ltac:(lia)). lia.
Qed.

Lemma C38_count_mod_256_refuted_l : exists p l, ValuesAtDepth p = (l, None) /\ length l = 256%nat /\ (forall b, ValueAtDepth p b = Ret (0, Some ErrUnSupportedOrInvalidPath)).
Proof.
exists (printed [] (repeat 0 255)). eexists. split; [apply printed_values; [constructor|]|].
  - apply Forall_forall. intros v Hv. apply repeat_spec in Hv. subst v. split; [discriminate|reflexivity].
  - cbn [map app]. split; [cbn [length]; rewrite repeat_length; reflexivity|]. intros b. eapply (fun E => proj1 (C38_count_mod_256_l _ b _ E)).
    + apply printed_values; [constructor|]. apply Forall_forall. intros v Hv. apply repeat_spec in Hv. subst v. split; [discriminate|reflexivity].
    + cbn [map app length]. rewrite repeat_length. change (Z.of_nat 256 mod 256) with 0. apply Zb_range.
Qed.

Lemma C38_ex_l : ValuesAtDepth (B "m/1/2") = ([0; 1; 2], None) /\ ValueAtDepth (B "m/1/2") x02 = Ret (2, None).
Proof.
split; reflexivity.
Qed.

Lemma replaced_cons {A} i (x a : A) l : replaced (S i) x (a :: l) = a :: replaced i x l.
Proof. reflexivity. Qed.
Lemma replaced_app1 {A} (x : A) l2 : forall l1 i, (i < length l1)%nat -> replaced i x (l1 ++ l2) = replaced i x l1 ++ l2.
Proof.
  induction l1 as [|a l1 IH]; intros i Hi; [cbn in Hi; lia|]. destruct i as [|i]; [reflexivity|]. cbn [app]. rewrite !replaced_cons. cbn [app]. f_equal. apply IH. cbn in Hi. lia.
Qed.
Lemma replaced_app2 {A} (x : A) l2 : forall l1 i, replaced (length l1 + i) x (l1 ++ l2) = l1 ++ replaced i x l2.
Proof. induction l1 as [|a l1 IH]; intros i; [reflexivity|]. cbn [length app Nat.add]. rewrite replaced_cons. f_equal. apply IH. Qed.
Lemma map_replaced_q i x hs : map q (replaced i x hs) = replaced i (q x) (map q hs).
Proof. apply map_replaced. Qed.
Lemma val_text_hard val : 2 ^ 31 <= val -> val_text val = q (Itoa (val mod 2 ^ 31)).
Proof. intros Hv. unfold val_text. change FirstHardenedChild with (2 ^ 31). assert (val >=? 2 ^ 31 = true) as -> by lia. reflexivity. Qed.
Lemma val_text_soft val : val < 2 ^ 31 -> val_text val = Itoa val.
Proof. intros Hv. unfold val_text. change FirstHardenedChild with (2 ^ 31). assert (val >=? 2 ^ 31 = false) as -> by lia. reflexivity. Qed.
(** The quotes of a component list in grammar order never come after a component without quote. *)
Lemma mono_quotes hs ss i a b : Forall numeral ss -> nth_error (map q hs ++ ss) i = Some a -> nth_error (map q hs ++ ss) (S i) = Some b ->
  ContainsB x27 a = false -> ContainsB x27 b = false.
Proof.
  intros HN. revert i. induction hs as [|h hs IH]; intros i Ha Hb Ca; cbn [map app] in *.
  - rewrite Forall_forall in HN. apply num_quote, HN. exact (nth_error_In _ _ Hb).
  - destruct i as [|i]; [cbn in Ha; assert (a = q h) by congruence; subst a; rewrite q_quote in Ca; discriminate|]. exact (IH i Ha Hb Ca).
Qed.
Lemma nth_replaced_eq {A} (x : A) l : forall i, (i < length l)%nat -> nth_error (replaced i x l) i = Some x.
Proof. induction l as [|a l IH]; intros i Hi; [cbn in Hi; lia|]. destruct i; [reflexivity|]. rewrite replaced_cons. cbn [nth_error]. apply IH. cbn in Hi. lia. Qed.
Lemma nth_replaced_ne {A} (x : A) l : forall i j, (i < length l)%nat -> i <> j -> nth_error (replaced i x l) j = nth_error l j.
Proof.
  induction l as [|a l IH]; intros i j Hi N; [cbn in Hi; lia|]. destruct i as [|i]; destruct j as [|j]; try congruence; try reflexivity.
  rewrite replaced_cons. cbn [nth_error]. apply IH; [cbn in Hi; lia|congruence].
Qed.
Lemma nth_q_hard hs ss i : (i < length hs)%nat -> exists a, nth_error (map q hs ++ ss) i = Some a /\ ContainsB x27 a = true.
Proof.
  intros Hi. rewrite nth_error_app1 by (rewrite map_length; exact Hi). destruct (nth_error (map q hs) i) as [a|] eqn:E.
  - exists a. split; [reflexivity|]. apply nth_error_In, in_map_iff in E as (h & <- & _). apply q_quote.
  - apply nth_error_None in E. rewrite map_length in E. lia.
Qed.
Lemma nth_q_soft hs ss i : Forall numeral ss -> (length hs <= i < length hs + length ss)%nat -> exists a, nth_error (map q hs ++ ss) i = Some a /\ ContainsB x27 a = false.
Proof.
  intros HN Hi. rewrite nth_error_app2 by (rewrite map_length; lia). rewrite map_length. destruct (nth_error ss (i - length hs)) as [a|] eqn:E.
  - exists a. split; [reflexivity|]. rewrite Forall_forall in HN. apply num_quote, HN. exact (nth_error_In _ _ E).
  - apply nth_error_None in E. lia.
Qed.
Lemma val_text_quote val : 0 <= val -> ContainsB x27 (val_text val) = (2 ^ 31 <=? val).
Proof.
  intros Hv. destruct (Z.leb_spec (2 ^ 31) val) as [L|L].
  - rewrite val_text_hard by exact L. apply q_quote.
  - rewrite val_text_soft by exact L. apply num_quote, Itoa_numeral. exact Hv.
Qed.
Lemma Forall_replaced {A} (P : A -> Prop) i x l : Forall P l -> P x -> Forall P (replaced i x l).
Proof. intros HA HX. apply Forall_forall. intros y Hy. apply in_replaced in Hy as [->|Hy]; [exact HX|]. rewrite Forall_forall in HA. exact (HA y Hy). Qed.
Lemma Itoa_hard_ok v : 0 <= v < 2 ^ 31 -> hard_ok (Itoa v) = true.
Proof.
  intros Hv. apply hard_ok_spec; [apply numeral_iff, Itoa_numeral; lia|]. rewrite dec_Itoa by lia. change MaxInt with (2 ^ 63 - 1). rewrite Z.mod_small; lia.
Qed.
Lemma Itoa_soft_ok v : 0 <= v < 2 ^ 32 -> soft_ok (Itoa v) = true.
Proof. intros Hv. unfold soft_ok. rewrite dec_Itoa by lia. change MaxInt with (2 ^ 63 - 1). lia. Qed.
Lemma forallb_Forall {A} (f : A -> bool) l : forallb f l = true <-> Forall (fun a => f a = true) l.
Proof. rewrite forallb_forall, Forall_forall. reflexivity. Qed.
(** Components in grammar order with values in range make a valid path. *)
Lemma build_valid m hs ss : m = x6d \/ m = x4d -> Forall numeral hs -> Forall numeral ss ->
  Forall (fun a => hard_ok a = true) hs -> Forall (fun a => soft_ok a = true) ss ->
  PathIsValid (Join (B "/") ([m] :: map q hs ++ ss)) = true.
Proof.
  intros Hm N1 N2 O1 O2. rewrite <- path_text_Join. apply PathIsValid_spec. exists (0 :: vals_of hs ss). apply Values_valid. exists hs, ss.
  rewrite PathString_nows by (apply path_text_nows; assumption). split; [exists m; tauto|]. rewrite !forallb_Forall. tauto.
Qed.
Theorem replace_valid p s hs ss val i : stripped p s -> path_grammar s hs ss -> PathIsValid p = true -> 0 <= val < 2 ^ 32 ->
  (i < length hs + length ss)%nat ->
  (PathIsValid (Join (B "/") (replaced (S i) (val_text val) (Split x2f s))) = true <->
   (val < 2 ^ 31 -> (length hs <= S i)%nat) /\ (2 ^ 31 <= val -> (i <= length hs)%nat)).
Proof.
  intros HS G V Hval Hi. apply stripped_iff in HS. subst s.
  assert (O : forallb hard_ok hs = true /\ forallb soft_ok ss = true).
  { apply PathIsValid_spec in V as (l & V). apply Values_valid in V as (hs' & ss' & G' & O1 & O2 & _). destruct (grammar_unique _ _ _ _ _ G G') as [<- <-]. tauto. }
  destruct O as [O1 O2]. rewrite forallb_Forall in O1, O2.
  destruct (replaced_text p (S i) val) as [RT1 RT2]; [lia|]. destruct G as (m & Hm & N1 & N2 & E). rewrite E in *. rewrite path_split in * by assumption.
  rewrite replaced_cons in *. assert (L : length (map q hs ++ ss) = (length hs + length ss)%nat) by (rewrite app_length, map_length; reflexivity).
  split.
  - intros VR. apply PathIsValid_spec in VR as (l & VR). apply Values_valid in VR as (hs' & ss' & (m' & Hm' & N1' & N2' & E') & _).
    rewrite RT1 in E'. assert (SE : [m] :: replaced i (val_text val) (map q hs ++ ss) = [m'] :: map q hs' ++ ss').
    { rewrite <- RT2, E'. apply path_split; assumption. }
    assert (SE' : replaced i (val_text val) (map q hs ++ ss) = map q hs' ++ ss') by congruence. clear SE.
    assert (NI : nth_error (map q hs' ++ ss') i = Some (val_text val)) by (rewrite <- SE'; apply nth_replaced_eq; lia).
    split; intros B.
    + destruct (Nat.le_gt_cases (length hs) (S i)) as [Le|Gt]; [exact Le|exfalso].
      destruct (nth_q_hard hs ss (S i) Gt) as (b & Hb & Cb). rewrite <- (nth_replaced_ne (val_text val) (map q hs ++ ss) i) in Hb by lia. rewrite SE' in Hb.
      pose proof (mono_quotes hs' ss' i _ _ N2' NI Hb) as M. rewrite val_text_quote in M by lia. rewrite Cb in M. assert (2 ^ 31 <=? val = false) as Q by lia. rewrite Q in M. discriminate (M eq_refl).
    + destruct (Nat.le_gt_cases i (length hs)) as [Le|Gt]; [exact Le|exfalso]. destruct i as [|i]; [lia|].
      destruct (nth_q_soft hs ss i N2 ltac:(lia)) as (b & Hb & Cb). rewrite <- (nth_replaced_ne (val_text val) (map q hs ++ ss) (S i)) in Hb by lia. rewrite SE' in Hb.
      pose proof (mono_quotes hs' ss' i _ _ N2' Hb NI Cb) as M. rewrite val_text_quote in M by lia. lia.
  - intros [H1 H2]. destruct (Z.ltb_spec val (2 ^ 31)) as [B|B].
    + specialize (H1 B). rewrite val_text_soft by exact B. assert (NV : numeral (Itoa val)) by (apply Itoa_numeral; lia). pose proof (Itoa_soft_ok val Hval) as OV.
      destruct (Nat.le_gt_cases (length hs) i) as [Le|Gt].
      * replace i with (length (map q hs) + (i - length hs))%nat by (rewrite map_length; lia). rewrite replaced_app2.
        apply build_valid; try assumption; apply Forall_replaced; assumption.
      * assert (ES : S i = length hs) by lia. destruct (exists_last (l := hs)) as (h0 & a & ->); [intros C; rewrite C in Gt; cbn in Gt; lia|].
        rewrite app_length in ES. cbn [length] in ES. assert (i = length (map q h0) + 0)%nat as -> by (rewrite map_length; lia).
        rewrite map_app. cbn [map]. rewrite <- app_assoc. cbn [app]. rewrite replaced_app2. change (replaced 0 (Itoa val) (q a :: ss)) with (Itoa val :: ss).
        apply Forall_app in N1 as [N1 _]. apply Forall_app in O1 as [O1 _]. apply build_valid; try assumption; constructor; assumption.
    + specialize (H2 B). rewrite val_text_hard by exact B. pose proof (Z.mod_pos_bound val (2 ^ 31) eq_refl) as R.
      assert (NV : numeral (Itoa (val mod 2 ^ 31))) by (apply Itoa_numeral; lia). pose proof (Itoa_hard_ok _ R) as OV.
      destruct (Nat.lt_ge_cases i (length hs)) as [Lt|Ge].
      * rewrite replaced_app1 by (rewrite map_length; exact Lt). rewrite <- map_replaced_q. apply build_valid; try assumption; apply Forall_replaced; assumption.
      * assert (i = length (map q hs) + 0)%nat as -> by (rewrite map_length; lia). rewrite replaced_app2. destruct ss as [|a ss]; [cbn in Hi; rewrite map_length in Hi; lia|].
        change (replaced 0 (q (Itoa (val mod 2 ^ 31))) (a :: ss)) with ([q (Itoa (val mod 2 ^ 31))] ++ ss). rewrite app_assoc.
        replace (map q hs ++ [q (Itoa (val mod 2 ^ 31))]) with (map q (hs ++ [Itoa (val mod 2 ^ 31)])) by (rewrite map_app; reflexivity).
        apply build_valid; [exact Hm|apply Forall_app; split; [exact N1|repeat constructor; apply NV]|inversion N2; assumption|apply Forall_app; split; [exact O1|repeat constructor; exact OV]|inversion O2; assumption].
Qed.
Lemma txt_eq val : 0 <= val < 2 ^ 32 -> (if val <? 2 ^ 31 then Itoa val else Itoa (val - 2 ^ 31) ++ B "'") = val_text val.
Proof.
  intros Hval. destruct (Z.ltb_spec val (2 ^ 31)) as [C|C]; [symmetry; apply val_text_soft; exact C|]. rewrite val_text_hard by exact C. unfold q. do 2 f_equal.
  apply (Z.mod_unique _ _ 1); lia.
Qed.

Lemma C39_replace_l : forall p s b val l, stripped p s -> ValuesAtDepth p = (l, None) -> 0 <= val < 2 ^ 32 ->
  1 <= Zb b < Z.of_nat (length l) mod 256 ->
  exists r, ReplaceValueAtDepth p b val = Ret (r, None) /\
    (let n := Z.to_nat (Zb b) in
     let txt := if val <? 2 ^ 31 then Itoa val else Itoa (val - 2 ^ 31) ++ B "'" in
     r = Join (B "/") (firstn n (Split x2f s) ++ txt :: skipn (S n) (Split x2f s)) /\
     (forall l', ValuesAtDepth r = (l', None) -> l' = firstn n l ++ val :: skipn (S n) l)).
Proof.
intros p s b val l HS E Hval HB. apply stripped_iff in HS. subst s. eexists. pose proof (Z.mod_le (Z.of_nat (length l)) 256 ltac:(lia) ltac:(lia)) as L. split.
  - rewrite Replace_spec, E. assert (Zb b <? Z.of_nat (length l) mod 256 = true) as -> by lia. reflexivity.
  - assert (TX : (if val <? 2 ^ 31 then Itoa val else Itoa (val - 2 ^ 31) ++ B "'") = val_text val).
    { apply txt_eq. exact Hval. }
    cbv zeta. rewrite TX. split; [reflexivity|]. intros l' E'. apply (Replace_values p l (Z.to_nat (Zb b)) val _ E) with (l' := l') in E'; [exact E'|lia|exact Hval|reflexivity].
Qed.

Lemma C39_result_valid_l : forall p s hs ss b val, stripped p s -> path_grammar s hs ss -> PathIsValid p = true ->
  0 <= val < 2 ^ 32 -> 1 <= Zb b < Z.of_nat (S (length hs + length ss)) mod 256 ->
  exists r, ReplaceValueAtDepth p b val = Ret (r, None) /\
    (PathIsValid r = true <->
       (val < 2 ^ 31 -> Z.of_nat (length hs) <= Zb b) /\ (2 ^ 31 <= val -> Zb b <= Z.of_nat (length hs) + 1)).
Proof.
intros p s hs ss b val HS G V Hval HB. pose proof V as V'. apply PathIsValid_spec in V' as (l & E).
  assert (LL : length l = S (length hs + length ss)).
  { pose proof HS as HS'. apply stripped_iff in HS'. subst s. apply Values_valid in E as (hs' & ss' & G' & _ & _ & ->). destruct (grammar_unique _ _ _ _ _ G G') as [<- <-].
    unfold vals_of. cbn [length]. rewrite app_length, !map_length. reflexivity. }
  destruct (C39_replace_l p s b val l HS E Hval ltac:(rewrite LL; exact HB)) as (r & ER & Er & _). cbv zeta in Er. pose proof (txt_eq val Hval) as TX. exists r. split; [exact ER|].
  pose proof (Z.mod_le (Z.of_nat (S (length hs + length ss))) 256 ltac:(lia) ltac:(lia)) as L. revert L HB. generalize (Z.of_nat (S (length hs + length ss)) mod 256). intros mm L HB.
  rewrite TX in Er. change (r = Join (B "/") (replaced (Z.to_nat (Zb b)) (val_text val) (Split x2f s))) in Er. subst r. destruct (Z.to_nat (Zb b)) as [|i] eqn:EB; [lia|]. rewrite (replace_valid p s hs ss val i HS G V Hval) by lia. lia.
Qed.

Lemma C39_no_panic_l : forall p b val, ReplaceValueAtDepth p b val <> Panic /\
  (forall l e, ValuesAtDepth p = (l, Some e) -> ReplaceValueAtDepth p b val = Ret (p, Some e)) /\
  (forall l, ValuesAtDepth p = (l, None) -> Z.of_nat (length l) mod 256 <= Zb b -> ReplaceValueAtDepth p b val = Ret (p, Some ErrUnSupportedOrInvalidPath)).
Proof.
intros p b val. rewrite Replace_spec. split; [discriminate|]. split; [intros l e ->; reflexivity|]. intros l -> HB.
  assert (Zb b <? Z.of_nat (length l) mod 256 = false) as -> by lia. reflexivity.
Qed.

Lemma C39_depth_zero_refuted_l : forall p val l, ValuesAtDepth p = (l, None) -> Z.of_nat (length l) mod 256 <> 0 -> 0 <= val < 2 ^ 32 ->
  exists r, ReplaceValueAtDepth p x00 val = Ret (r, None) /\ PathIsValid r = false.
Proof.
intros p val l E L Hval. eexists. split.
  - rewrite Replace_spec, E. assert (LP : (0 < length l)%nat) by (apply Values_valid in E as (? & ? & _ & _ & _ & ->); cbn [length]; lia).
    change (Zb x00) with 0. pose proof (Z.mod_pos_bound (Z.of_nat (length l)) 256 ltac:(lia)). assert (0 <? Z.of_nat (length l) mod 256 = true) as -> by lia. reflexivity.
  - pose proof (Replace_zero p val ltac:(lia)) as Z. unfold PathIsValid. change (Z.to_nat 0) with 0%nat. destruct (ValuesAtDepth (Join _ _)) as [l' [e|]]; [reflexivity|cbn [snd] in Z; congruence].
Qed.

Lemma C39_order_refuted_l : ReplaceValueAtDepth (B "m/0/0") x02 2147483648 = Ret (B "m/0/0'", None) /\ PathIsValid (B "m/0/0") = true /\ PathIsValid (B "m/0/0'") = false /\
ReplaceValueAtDepth (B "m/0'/0'") x01 7 = Ret (B "m/7/0'", None) /\ PathIsValid (B "m/0'/0'") = true /\ PathIsValid (B "m/7/0'") = false.
Proof.
repeat split.
Qed.

Lemma C39_ex_l : stripped (B "m/44'/0") (B "m/44'/0") /\ path_grammar (B "m/44'/0") [B "44"] [B "0"] /\ PathIsValid (B "m/44'/0") = true /\
ReplaceValueAtDepth (B "m/44'/0") x02 5 = Ret (B "m/44'/5", None).
Proof.
split; [apply stripped_iff; reflexivity|]. split; [exact (proj2 C35_ex_l)|]. split; reflexivity.
Qed.
