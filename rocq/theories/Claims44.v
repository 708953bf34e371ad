(** Claims44.v - the property statements of Props44.v with their proofs. *)
From Verif Require Import Base BaseFacts GoStr GoStrFacts WordLists Bip44 Bip44Coins Slip44 SpecPath Bip32PathFacts SpecCoins Bip44Facts Bip44MdFacts.
From Coq Require Import ZifyBool ZifyNat ZifyN.

(** ** Checks evaluated on the table *)
Lemma table_rangeb : forallb (fun c => (0 <=? CType c) && (CType c <? 4294967296) && (2147483648 <=? PathComponent c) && (PathComponent c <? 4294967296)) RegCoins0 = true.
Proof. vm_compute. reflexivity. Qed.
Lemma table_mistyped : filter (fun c => negb (CoinIsValid c)) RegCoins0 = map fst mistyped.
Proof. vm_compute. reflexivity. Qed.
Lemma table_pcs : tnodup (map (fun c => Z_be 4 (PathComponent c)) RegCoins0) TLeaf = true.
Proof. vm_compute. reflexivity. Qed.
(** In proofs; for bip44/coins.go:7-12. *)
Definition is_shared (n : bytes) : bool := existsb (bytes_eqb n) shared_names.
Lemma table_names : tnodup (map CName (filter (fun c => negb (is_shared (CName c))) RegCoins0)) TLeaf = true.
Proof. vm_compute. reflexivity. Qed.
Lemma table_shared : forallb (fun n => match filter (fun c => bytes_eqb (CName c) n) RegCoins0 with [a; b] => negb (PathComponent a =? PathComponent b) | _ => false end) shared_names = true.
Proof. vm_compute. reflexivity. Qed.
Lemma table_length : length RegCoins0 = 1136%nat.
Proof. vm_compute. reflexivity. Qed.
Lemma table_walk : walk slip44_lines RegCoins0 = true.
Proof. vm_compute. reflexivity. Qed.

Lemma table_range c : In c RegCoins0 -> 0 <= CType c < 4294967296 /\ 2147483648 <= PathComponent c < 4294967296.
Proof. intros H. pose proof table_rangeb as T. rewrite forallb_forall in T. specialize (T c H). cbv beta in T. lia. Qed.
Lemma is_shared_In n : is_shared n = true <-> In n shared_names.
Proof.
  unfold is_shared. rewrite existsb_exists. split.
  - intros (x & H & E). apply bytes_eqb_true in E. subst. exact H.
  - intros H. exists n. split; [exact H|apply bytes_eqb_refl].
Qed.
Lemma table_invalid c : In c RegCoins0 -> CoinIsValid c = false -> exists t, In (c, t) mistyped.
Proof.
  intros H E. assert (F : In c (filter (fun c => negb (CoinIsValid c)) RegCoins0)) by (apply filter_In; rewrite E; auto).
  rewrite table_mistyped in F. apply in_map_iff in F as ([d t] & <- & F). exists t. exact F.
Qed.
Lemma mistyped_invalid c t : In (c, t) mistyped -> In c RegCoins0 /\ CoinIsValid c = false.
Proof.
  intros F. assert (G : In c (map fst mistyped)) by (apply in_map_iff; exists (c, t); auto). rewrite <- table_mistyped in G.
  apply filter_In in G as [G1 G2]. split; [exact G1|]. apply negb_true_iff. exact G2.
Qed.
Lemma mistyped_fix c t : In (c, t) mistyped -> fix_coin c = mkCoin t (PathComponent c) (Symbol c) (CName c) /\ coin_ok (fix_coin c) /\ CType c <> t.
Proof.
  intros F. assert (V : forallb (fun ct => let '(c, t) := ct in CoinIsValid (fix_coin c) && negb (CType c =? t) && (CType (fix_coin c) =? t)) mistyped = true) by (vm_compute; reflexivity).
  rewrite forallb_forall in V. specialize (V _ F). cbn beta iota in V. apply andb_true_iff in V as [V V3]. apply andb_true_iff in V as [V1 V2].
  destruct (mistyped_invalid _ _ F) as [Hin Hv].
  split; [|split].
  - unfold fix_coin in V3 |- *. rewrite Hv in V3 |- *. cbn [negb CType] in V3 |- *. f_equal. lia.
  - apply CoinIsValid_iff; [|exact V1]. pose proof (table_range c Hin). unfold coin_range. rewrite fix_pc. change (2 ^ 32) with 4294967296.
    split; [|lia]. unfold fix_coin in V3 |- *. rewrite Hv in V3 |- *. cbn [negb CType] in V3 |- *.
    pose proof (Z.mod_pos_bound (PathComponent c) 0x80000000 ltac:(lia)). lia.
  - lia.
Qed.
Lemma fix_cases c : In c RegCoins0 -> (fix_coin c = c /\ coin_ok c) \/ exists t, In (c, t) mistyped /\ fix_coin c = mkCoin t (PathComponent c) (Symbol c) (CName c).
Proof.
  intros H. destruct (CoinIsValid c) eqn:E.
  - left. split; [unfold fix_coin; rewrite E; reflexivity|]. apply CoinIsValid_iff in E; [exact E|].
    pose proof (table_range c H). unfold coin_range. change (2 ^ 32) with 4294967296. lia.
  - right. destruct (table_invalid c H E) as (t & Ht). exists t. split; [exact Ht|]. exact (proj1 (mistyped_fix _ _ Ht)).
Qed.
Lemma fix_ok c : In c RegCoins0 -> coin_ok (fix_coin c).
Proof.
  intros H. destruct (fix_cases c H) as [[-> K]|(t & Ht & _)]; [exact K|]. exact (proj1 (proj2 (mistyped_fix _ _ Ht))).
Qed.
Lemma fix_valid c : In c RegCoins0 -> CoinIsValid (fix_coin c) = true.
Proof.
  intros H. apply CoinIsValid_iff; [|apply fix_ok; exact H]. pose proof (fix_ok c H) as (_ & K1 & K2). rewrite fix_pc in K2.
  pose proof (table_range c H). unfold coin_range. rewrite fix_pc. change (2 ^ 32) with 4294967296. change (2 ^ 31) with 2147483648 in *. lia.
Qed.
Lemma pcs_nodup : NoDup (map PathComponent RegCoins0).
Proof.
  pose proof (proj1 (tnodup_ok _ _ table_pcs)) as N. rewrite <- (map_map PathComponent (Z_be 4)) in N. apply NoDup_map_inv in N. exact N.
Qed.
Lemma booted_sorted R : booted R -> exists l, sort_result RegCoins0 l /\ R = init_coins l /\ (forall c, In c l <-> In c RegCoins0) /\
  NoDup (map PathComponent (map fix_coin l)) /\ NoDup (map CType (map fix_coin l)).
Proof.
  intros (l & [P S] & ->). exists l. assert (I : forall c, In c l <-> In c RegCoins0).
  { intros c. split; apply Permutation_in; [exact P|symmetry; exact P]. }
  split; [split; assumption|]. split; [reflexivity|]. split; [exact I|].
  assert (NP : NoDup (map PathComponent (map fix_coin l))).
  { rewrite map_map. rewrite (map_ext _ _ fix_pc). eapply Permutation_NoDup; [|exact pcs_nodup]. apply Permutation_map. symmetry. exact P. }
  split; [exact NP|].
  apply (NoDup_map_inv (fun t => t + 2 ^ 31)). rewrite map_map. rewrite (map_ext_in _ PathComponent); [exact NP|].
  intros c Hc. apply in_map_iff in Hc as (d & <- & Hd). apply I in Hd. destruct (fix_ok d Hd) as (_ & _ & K). symmetry. exact K.
Qed.
Lemma booted_coin R c : booted R -> In c (RegCoins R) <-> exists d, In d RegCoins0 /\ c = fix_coin d.
Proof.
  intros HB. destruct (booted_sorted R HB) as (l & _ & -> & I & _). rewrite init_coins_eq. cbn [RegCoins]. rewrite in_map_iff. split.
  - intros (d & <- & H). exists d. rewrite <- I. auto.
  - intros (d & H & ->). exists d. rewrite I. auto.
Qed.
Lemma name_unique c d : In c RegCoins0 -> In d RegCoins0 -> CName c = CName d -> ~ In (CName c) shared_names -> c = d.
Proof.
  intros Hc Hd E N. pose proof (proj1 (tnodup_ok _ _ table_names)) as T.
  assert (S : is_shared (CName c) = false) by (destruct (is_shared (CName c)) eqn:S; [apply is_shared_In in S; contradiction|reflexivity]).
  assert (Ic : In c (filter (fun c => negb (is_shared (CName c))) RegCoins0)) by (apply filter_In; rewrite S; auto).
  assert (Id : In d (filter (fun c => negb (is_shared (CName c))) RegCoins0)) by (apply filter_In; rewrite <- E, S; auto).
  clear Hc Hd S N. revert Ic Id. generalize dependent (filter (fun c => negb (is_shared (CName c))) RegCoins0).
  intros L T. induction L as [|x L IH]; intros Hc Hd; [destruct Hc|]. cbn in T. inversion T as [|? ? T1 T2]; subst.
  destruct Hc as [<-|Hc], Hd as [<-|Hd]; [reflexivity| | |apply IH; assumption].
  - exfalso. apply T1. rewrite E. apply in_map. exact Hd.
  - exfalso. apply T1. rewrite <- E. apply in_map. exact Hc.
Qed.
Lemma shared_pair n : In n shared_names -> exists a b, In a RegCoins0 /\ In b RegCoins0 /\ CName a = n /\ CName b = n /\
  PathComponent a <> PathComponent b /\ forall c, In c RegCoins0 -> CName c = n -> c = a \/ c = b.
Proof.
  intros H. pose proof table_shared as T. rewrite forallb_forall in T. specialize (T n H). cbv beta in T.
  destruct (filter (fun c => bytes_eqb (CName c) n) RegCoins0) as [|a [|b [|]]] eqn:F; try discriminate T.
  assert (A : forall c, In c [a; b] <-> In c RegCoins0 /\ CName c = n).
  { intros c. rewrite <- F, filter_In. rewrite bytes_eqb_spec. tauto. }
  exists a, b. destruct (proj1 (A a) (or_introl eq_refl)) as [A1 A2]. destruct (proj1 (A b) (or_intror (or_introl eq_refl))) as [B1 B2].
  repeat (split; [assumption|]). split; [lia|]. intros c Hc E. destruct (proj2 (A c) (conj Hc E)) as [<-|[<-|[]]]; auto.
Qed.
Lemma last_wins c : In c RegCoins0 -> exists R, booted R /\ sget (CName c) (RegBip44CoinsNameToValMap R) = Some (fix_coin c).
Proof.
  intros H. destruct (any_last c RegCoins0 H) as (p & q & S & Q). exists (init_coins (p ++ c :: q)). split; [exists (p ++ c :: q); auto|].
  rewrite init_coins_eq. cbn [RegBip44CoinsNameToValMap]. rewrite !map_app. cbn [map]. rewrite rev_app_distr. cbn [rev]. rewrite <- app_assoc. cbn [app].
  rewrite fix_name. apply sget_last. apply Forall_forall. intros e He. rewrite <- in_rev in He. apply in_map_iff in He as (d' & <- & Hd). apply in_map_iff in Hd as (d & <- & Hd).
  cbn [fst]. rewrite fix_name. rewrite Forall_forall in Q. specialize (Q d Hd). cbv beta in Q. intros E. rewrite E, bytes_ltb_irrefl in Q. discriminate.
Qed.
Lemma booted_exists : exists R, booted R.
Proof. exists (init_coins (isort RegCoins0)). exists (isort RegCoins0). split; [apply isort_result|reflexivity]. Qed.

Lemma C48_every_coin_valid_l : forall R, booted R -> length (RegCoins R) = 1136%nat /\
  forall c, In c (RegCoins R) -> CoinIsValid c = true /\ coin_ok c.
Proof.
intros R HB. split.
- destruct (booted_sorted R HB) as (l & [P _] & -> & _). rewrite init_coins_eq. cbn [RegCoins]. rewrite map_length, (Permutation_length P). exact table_length.
- intros c Hc. apply (booted_coin R c HB) in Hc as (d & Hd & ->). split; [apply fix_valid, Hd|apply fix_ok, Hd].
Qed.

Lemma C48_every_coin_valid_ex_l : exists R, booted R.
Proof.
exact booted_exists.
Qed.

Lemma C48_same_coins_l : forall R, booted R ->
  Permutation (map (fun c => (PathComponent c, Symbol c, CName c)) (RegCoins R)) (map (fun c => (PathComponent c, Symbol c, CName c)) RegCoins0) /\
  forall i j a b, (i < j)%nat -> nth_error (RegCoins R) i = Some a -> nth_error (RegCoins R) j = Some b -> bytes_ltb (CName b) (CName a) = false.
Proof.
intros R HB. destruct (booted_sorted R HB) as (l & [P S] & -> & _). rewrite init_coins_eq. cbn [RegCoins]. split.
- rewrite map_map. rewrite (map_ext _ (fun c => (PathComponent c, Symbol c, CName c))); [apply Permutation_map; exact P|].
  intros c. rewrite fix_pc, fix_sym, fix_name. reflexivity.
- clear P HB. induction S as [|c l S IH F]; intros i j a b L Ea Eb; [destruct i; discriminate|].
  destruct j as [|j]; [lia|]. cbn [map nth_error] in Eb. destruct i as [|i].
  + cbn [map nth_error] in Ea. injection Ea as <-. apply nth_error_In in Eb. apply in_map_iff in Eb as (d & <- & Hd). rewrite !fix_name.
    rewrite Forall_forall in F. exact (F d Hd).
  + cbn [map nth_error] in Ea. apply (IH i j a b); [lia|assumption..].
Qed.

Lemma C48_same_coins_ex_l : exists R, booted R.
Proof.
exact booted_exists.
Qed.

Lemma C48_types_changed_l : forall R, booted R -> forall c, In c RegCoins0 ->
  (coin_ok c /\ In c (RegCoins R)) \/
  (exists t, In (c, t) mistyped /\ ~ coin_ok c /\ t <> CType c /\ In (mkCoin t (PathComponent c) (Symbol c) (CName c)) (RegCoins R)).
Proof.
intros R HB c H. destruct (fix_cases c H) as [[E K]|(t & Ht & E)].
- left. split; [exact K|]. apply (booted_coin R c HB). exists c. auto.
- right. exists t. split; [exact Ht|]. destruct (mistyped_invalid _ _ Ht) as [_ V]. split; [|split].
  + intros K. apply CoinIsValid_iff in K; [congruence|]. pose proof (table_range c H). unfold coin_range. change (2 ^ 32) with 4294967296. lia.
  + destruct (mistyped_fix _ _ Ht) as (_ & _ & N). congruence.
  + apply (booted_coin R _ HB). exists c. auto.
Qed.

Lemma C48_types_changed_ex_l : (exists c, In c RegCoins0 /\ coin_ok c) /\ exists c t, In (c, t) mistyped /\ In c RegCoins0.
Proof.
split.
- assert (H : In (mkCoin 0 0x80000000 (B "BTC") (B "Bitcoin")) RegCoins0) by (left; reflexivity).
  exists (mkCoin 0 0x80000000 (B "BTC") (B "Bitcoin")). split; [exact H|]. apply CoinIsValid_iff; [|reflexivity]. cbv; repeat split; discriminate.
- eexists _, _. split; [left; reflexivity|]. apply (mistyped_invalid _ 1859). left. reflexivity.
Qed.

Lemma C48_lookup_by_type_l : forall R, booted R -> forall t c, zget t (RegBip44CoinsTypeToValMap R) = Some c <-> In c (RegCoins R) /\ CType c = t.
Proof.
intros R HB t c. destruct (booted_sorted R HB) as (l & _ & -> & _ & _ & NT). rewrite init_coins_eq. cbn [RegCoins RegBip44CoinsTypeToValMap]. apply zget_keyed. exact NT.
Qed.

Lemma C48_lookup_by_type_ex_l : exists R c, booted R /\ In c (RegCoins R) /\ CType c = 0.
Proof.
destruct booted_exists as [R HB]. exists R, (mkCoin 0 0x80000000 (B "BTC") (B "Bitcoin")). split; [exact HB|]. split; [|reflexivity].
apply (booted_coin R _ HB). exists (mkCoin 0 0x80000000 (B "BTC") (B "Bitcoin")). split; [left; reflexivity|reflexivity].
Qed.

Lemma C48_lookup_by_path_component_l : forall R, booted R -> forall p c, zget p (RegBip44CoinsPathCompToValMap R) = Some c <-> In c (RegCoins R) /\ PathComponent c = p.
Proof.
intros R HB p c. destruct (booted_sorted R HB) as (l & _ & -> & _ & NP & _). rewrite init_coins_eq. cbn [RegCoins RegBip44CoinsPathCompToValMap]. apply zget_keyed. exact NP.
Qed.

Lemma C48_lookup_by_path_component_ex_l : exists R c, booted R /\ In c (RegCoins R) /\ PathComponent c = 2 ^ 31.
Proof.
destruct booted_exists as [R HB]. exists R, (mkCoin 0 0x80000000 (B "BTC") (B "Bitcoin")). split; [exact HB|]. split; [|reflexivity].
apply (booted_coin R _ HB). exists (mkCoin 0 0x80000000 (B "BTC") (B "Bitcoin")). split; [left; reflexivity|reflexivity].
Qed.

Lemma C48_lookups_agree_l : forall R, booted R -> forall t, zget t (RegBip44CoinsTypeToValMap R) = zget (t + 2 ^ 31) (RegBip44CoinsPathCompToValMap R).
Proof.
intros R HB t. pose proof (C48_lookup_by_type_l R HB t) as A. pose proof (C48_lookup_by_path_component_l R HB (t + 2 ^ 31)) as A'.
assert (K : forall c, In c (RegCoins R) -> PathComponent c = CType c + 2 ^ 31).
{ intros c Hc. exact (proj2 (proj2 (proj2 (proj2 (C48_every_coin_valid_l R HB) c Hc)))). }
destruct (zget t (RegBip44CoinsTypeToValMap R)) as [c|] eqn:E.
- symmetry. apply A'. destruct (proj1 (A c) eq_refl) as [H1 H2]. split; [exact H1|]. rewrite (K c H1), H2. reflexivity.
- destruct (zget (t + 2 ^ 31) (RegBip44CoinsPathCompToValMap R)) as [c|] eqn:E'; [|reflexivity]. exfalso.
  destruct (proj1 (A' c) eq_refl) as [H1 H2]. rewrite (K c H1) in H2. assert (CType c = t) as H3 by lia. pose proof (proj2 (A c) (conj H1 H3)). discriminate.
Qed.

Lemma C48_lookups_agree_ex_l : exists R, booted R.
Proof.
exact booted_exists.
Qed.

Lemma C48_order_irrelevant_for_numbers_l : forall R R', booted R -> booted R' ->
  forall t, zget t (RegBip44CoinsTypeToValMap R) = zget t (RegBip44CoinsTypeToValMap R') /\
            zget t (RegBip44CoinsPathCompToValMap R) = zget t (RegBip44CoinsPathCompToValMap R').
Proof.
intros R R' HB HB'. assert (A : forall t, zget t (RegBip44CoinsTypeToValMap R) = zget t (RegBip44CoinsTypeToValMap R')).
{ intros t. pose proof (C48_lookup_by_type_l R HB t) as A. pose proof (C48_lookup_by_type_l R' HB' t) as A'.
  assert (S : forall c, In c (RegCoins R) <-> In c (RegCoins R')) by (intros c; rewrite (booted_coin R c HB), (booted_coin R' c HB'); reflexivity).
  destruct (zget t (RegBip44CoinsTypeToValMap R)) as [c|] eqn:E.
  - symmetry. apply A'. rewrite <- S. apply A. reflexivity.
  - destruct (zget t (RegBip44CoinsTypeToValMap R')) as [c|] eqn:E'; [|reflexivity]. exfalso.
    pose proof (proj1 (A' c) eq_refl) as K. rewrite <- S in K. apply A in K. discriminate. }
intros t. split; [apply A|]. pose proof (C48_lookups_agree_l R HB (t - 2 ^ 31)) as K. pose proof (C48_lookups_agree_l R' HB' (t - 2 ^ 31)) as K'.
replace (t - 2 ^ 31 + 2 ^ 31) with t in K, K' by lia. rewrite <- K, <- K'. apply A.
Qed.

Lemma C48_order_irrelevant_for_numbers_ex_l : exists R R', booted R /\ booted R'.
Proof.
destruct booted_exists as [R HB]. exists R, R. auto.
Qed.

Lemma C48_source_type_refuted_l : forall R, booted R -> forall c t, In (c, t) mistyped -> In c RegCoins0 /\ zget (CType c) (RegBip44CoinsTypeToValMap R) <> Some c /\
  (forall d, zget (CType c) (RegBip44CoinsTypeToValMap R) = Some d -> CName d <> CName c) /\
  zget t (RegBip44CoinsTypeToValMap R) = Some (mkCoin t (PathComponent c) (Symbol c) (CName c)).
Proof.
intros R HB c t Ht. destruct (mistyped_invalid _ _ Ht) as [H V]. destruct (mistyped_fix _ _ Ht) as (E & K & N).
assert (U : forall d, zget (CType c) (RegBip44CoinsTypeToValMap R) = Some d -> CName d <> CName c).
{ intros d Ed Q. apply (C48_lookup_by_type_l R HB) in Ed as [Hd Td]. apply (booted_coin R d HB) in Hd as (e & He & ->). rewrite fix_name in Q.
  assert (e = c) as ->.
  { apply name_unique; [exact He|exact H|exact Q|]. rewrite Q. intros S. apply is_shared_In in S. revert S.
    assert (A : forallb (fun ct => negb (is_shared (CName (fst ct)))) mistyped = true) by (vm_compute; reflexivity).
    rewrite forallb_forall in A. specialize (A _ Ht). cbn [fst] in A. destruct (is_shared (CName c)); [discriminate A|discriminate]. }
  rewrite E in Td. cbn [CType] in Td. congruence. }
split; [exact H|]. split; [intros A; apply U in A; congruence|]. split; [exact U|].
apply (C48_lookup_by_type_l R HB). split; [|reflexivity]. apply (booted_coin R _ HB). exists c. auto.
Qed.

Lemma C48_source_type_refuted_ex_l : exists R c t, booted R /\ In (c, t) mistyped.
Proof.
destruct booted_exists as [R HB]. exists R. eexists _, _. split; [exact HB|]. left. reflexivity.
Qed.

Lemma C49_lookup_by_name_l : forall R, booted R ->
  (forall n c, sget n (RegBip44CoinsNameToValMap R) = Some c -> In c (RegCoins R) /\ CName c = n) /\
  (forall c, In c (RegCoins R) -> exists d, sget (CName c) (RegBip44CoinsNameToValMap R) = Some d) /\
  (forall c, In c (RegCoins R) -> ~ In (CName c) shared_names -> sget (CName c) (RegBip44CoinsNameToValMap R) = Some c).
Proof.
intros R HB. assert (A : forall n c, sget n (RegBip44CoinsNameToValMap R) = Some c -> In c (RegCoins R) /\ CName c = n).
{ intros n c. destruct (booted_sorted R HB) as (l & _ & -> & _). rewrite init_coins_eq. cbn [RegCoins RegBip44CoinsNameToValMap].
  intros E. apply sget_In in E. rewrite <- in_rev in E. apply in_map_iff in E as (d & E & H). injection E as <- <-. auto. }
assert (A' : forall c, In c (RegCoins R) -> exists d, sget (CName c) (RegBip44CoinsNameToValMap R) = Some d).
{ intros c. destruct (booted_sorted R HB) as (l & _ & -> & _). rewrite init_coins_eq. cbn [RegCoins RegBip44CoinsNameToValMap].
  intros H. apply (sget_Some _ _ c). rewrite <- in_rev. apply in_map_iff. exists c. auto. }
split; [exact A|]. split; [exact A'|]. intros c Hc N. destruct (A' c Hc) as [d Ed]. rewrite Ed. f_equal. apply A in Ed as [Hd E].
apply (booted_coin R _ HB) in Hc as (c0 & Hc & ->). apply (booted_coin R _ HB) in Hd as (d0 & Hd & ->). rewrite !fix_name in *. f_equal.
symmetry. apply name_unique; try assumption. symmetry. exact E.
Qed.

Lemma C49_lookup_by_name_ex_l : exists R c, booted R /\ In c (RegCoins R) /\ ~ In (CName c) shared_names.
Proof.
destruct booted_exists as [R HB]. exists R, (mkCoin 0 0x80000000 (B "BTC") (B "Bitcoin")). split; [exact HB|]. split.
- apply (booted_coin R _ HB). exists (mkCoin 0 0x80000000 (B "BTC") (B "Bitcoin")). split; [left; reflexivity|reflexivity].
- intros H. apply is_shared_In in H. discriminate H.
Qed.

Lemma C49_every_coin_found_by_name_refuted_l : forall R, booted R -> forall n, In n shared_names ->
  exists c d, In c (RegCoins R) /\ CName c = n /\ sget n (RegBip44CoinsNameToValMap R) = Some d /\ CType d <> CType c.
Proof.
intros R HB n Hn. destruct (shared_pair n Hn) as (a & b & Ha & Hb & Na & Nb & D & _).
assert (Ia : In (fix_coin a) (RegCoins R)) by (apply (booted_coin R _ HB); exists a; auto).
assert (Ib : In (fix_coin b) (RegCoins R)) by (apply (booted_coin R _ HB); exists b; auto).
destruct (C49_lookup_by_name_l R HB) as (A & A' & _). destruct (A' _ Ia) as [d Ed]. rewrite fix_name, Na in Ed.
assert (T : CType (fix_coin a) <> CType (fix_coin b)).
{ intros T. apply D. destruct (fix_ok a Ha) as (_ & _ & Ka). destruct (fix_ok b Hb) as (_ & _ & Kb). rewrite fix_pc in Ka, Kb. lia. }
destruct (Z.eq_dec (CType d) (CType (fix_coin a))) as [E|E].
- exists (fix_coin b), d. rewrite fix_name. repeat split; try assumption. congruence.
- exists (fix_coin a), d. rewrite fix_name. repeat split; assumption.
Qed.

Lemma C49_every_coin_found_by_name_refuted_ex_l : exists R n, booted R /\ In n shared_names.
Proof.
destruct booted_exists as [R HB]. exists R, (B "Nexus"). split; [exact HB|]. left. reflexivity.
Qed.

Lemma C49_lookup_by_name_deterministic_refuted_l : forall n, In n shared_names -> exists R R' c c', booted R /\ booted R' /\
  sget n (RegBip44CoinsNameToValMap R) = Some c /\ sget n (RegBip44CoinsNameToValMap R') = Some c' /\ CType c <> CType c'.
Proof.
intros n Hn. destruct (shared_pair n Hn) as (a & b & Ha & Hb & Na & Nb & D & _).
destruct (last_wins a Ha) as (R & HR & E). destruct (last_wins b Hb) as (R' & HR' & E'). exists R, R', (fix_coin a), (fix_coin b).
rewrite Na in E. rewrite Nb in E'. repeat (split; [assumption|]).
intros T. apply D. destruct (fix_ok a Ha) as (_ & _ & Ka). destruct (fix_ok b Hb) as (_ & _ & Kb). rewrite fix_pc in Ka, Kb. lia.
Qed.

Lemma C49_lookup_by_name_deterministic_refuted_ex_l : In (B "Lynx") shared_names /\ In (B "Arthera") shared_names.
Proof.
split; apply is_shared_In; reflexivity.
Qed.

Lemma C50_is_valid_l : forall c, coin_range c -> CoinIsValid c = true <-> coin_ok c.
Proof.
exact CoinIsValid_iff.
Qed.

Lemma C50_is_valid_ex_l : (exists c, coin_range c /\ coin_ok c) /\ (exists c, coin_range c /\ ~ coin_ok c) /\
(exists c, coin_range c /\ CType c < 2 ^ 31 /\ PathComponent c = CType c + 2 ^ 31 /\ CName c = [xe2; x80; x83] /\ ~ coin_ok c).
Proof.
split; [|split].
- exists (mkCoin 3 0x80000003 (B "DOGE") (B "Dogecoin")). assert (coin_range (mkCoin 3 0x80000003 (B "DOGE") (B "Dogecoin"))) as R by (cbv; repeat split; discriminate).
  split; [exact R|]. apply CoinIsValid_iff; [exact R|reflexivity].
- exists (mkCoin 3 3 (B "DOGE") (B "Dogecoin")). split; [cbv; repeat split; discriminate|]. intros (_ & _ & K). discriminate K.
- exists (mkCoin 3 0x80000003 (B " ") [xe2; x80; x83]). assert (coin_range (mkCoin 3 0x80000003 (B " ") [xe2; x80; x83])) as R by (cbv; repeat split; discriminate).
  split; [exact R|]. repeat (split; [reflexivity|]). intros K. apply CoinIsValid_iff in K; [discriminate K|exact R].
Qed.

Lemma C51_lines_independent_l : forall ls, ls <> [] -> Forall (fun l => ~ In x0a l) ls ->
  generateFileFromSlip44MD (Join [x0a] ls) = concat (map generateFileFromSlip44MD ls).
Proof.
intros ls N H. unfold generateFileFromSlip44MD. rewrite coins_Join by assumption. clear N.
induction H as [|l ls Hl _ IH]; [reflexivity|]. cbn [flat_map map concat]. rewrite map_app, concat_app, IH. rewrite coins_one by exact Hl. reflexivity.
Qed.

Lemma C51_lines_independent_ex_l : Join [x0a] [B "ab"; B "c"] = [x61; x62; x0a; x63] /\ Forall (fun l => ~ In x0a l) [B "ab"; B "c"].
Proof.
split; [reflexivity|]. repeat constructor; intros H; cbn in H; repeat (destruct H as [H|H]; [discriminate H|]); destruct H.
Qed.

Lemma C51_hexadecimal_rows_imported_refuted_l : forall ls, Forall (fun l => ~ In x0a l /\ (l = [] \/ slip_row l)) ls -> generateFileFromSlip44MD (Join [x0a] ls) = [].
Proof.
intros ls H. destruct ls as [|l0 ls0]; [reflexivity|]. rewrite C51_lines_independent_l; [|discriminate|eapply Forall_impl; [|exact H]; intros l Hl; exact (proj1 Hl)].
generalize dependent (l0 :: ls0). intros ls H. induction H as [|l ls [Hn [->|Hl]] _ IH]; [reflexivity|exact IH|]. cbn [map concat]. rewrite IH, app_nil_r.
unfold generateFileFromSlip44MD. rewrite coins_one by exact Hn. rewrite slip_row_none by exact Hl. reflexivity.
Qed.

Lemma C51_hexadecimal_rows_imported_refuted_ex_l : exists l, In l slip44_lines /\ ~ In x0a l /\ slip_row l.
Proof.
exists (B "| 0          | 0x80000000                    | BTC     | Bitcoin                           "). split; [left; reflexivity|]. split.
- intros H. cbn in H. repeat (destruct H as [H|H]; [discriminate H|]). destruct H.
- exists (B "0" ++ pad 10), 0%nat, (B "80000000"), 20%nat, [B "BTC" ++ pad 5; B "Bitcoin" ++ pad 27]. split; [|split; [|vm_compute; reflexivity]].
  + repeat constructor; intros H; cbn in H; repeat (destruct H as [H|H]; [discriminate H|]); destruct H.
  + apply is_hexes_all. reflexivity.
Qed.

Lemma C51_bundled_file_refuted_l : generateFileFromSlip44MD slip44_md = [] /\ length slip44_lines = 1312%nat.
Proof.
split; vm_compute; reflexivity.
Qed.

Lemma C51_decimal_row_l : forall t p s n a b c d e f g h, numeral t -> numeral p -> number t < 2 ^ 32 -> number p < 2 ^ 32 ->
  Forall no_bar [s; n] -> Forall (fun w => tight w /\ ~ In x0a w) [s; n] -> s ++ n <> [] ->
  Contains n (B "reserved") = false -> Contains n (B "dead") = false ->
  generateFileFromSlip44MD (row [pad a ++ t ++ pad b; pad c ++ p ++ pad d; pad e ++ s ++ pad f; pad g ++ n ++ pad h]) =
  StringForMD (mkCoin (number t) (number p) s n) ++ B "," ++ [x0a].
Proof.
intros t p s n a b c d e f g h Nt Np Lt Lp NB TI NE CR CD. inversion NB as [|? ? NBs NB']; subst. inversion NB' as [|? ? NBn _]; subst.
inversion TI as [|? ? [Ts Ls] TI']; subst. inversion TI' as [|? ? [Tn Ln] _]; subst. clear NB NB' TI TI'.
assert (DL : forall d, numeral d -> ~ In x0a d).
{ intros x [_ Hx] K. rewrite Forall_forall in Hx. specialize (Hx _ K). repeat (destruct Hx as [Hx|Hx]; [discriminate Hx|]). destruct Hx. }
assert (PL : forall n, ~ In x0a (pad n)) by (intros k K; apply repeat_spec in K; discriminate).
assert (AL : forall x y : bytes, ~ In x0a x -> ~ In x0a y -> ~ In x0a (x ++ y)) by (intros x y H1 H2 K; apply in_app_or in K as [K|K]; auto).
assert (BL : ~ In x0a (B "| ")) by (intros [K|[K|[]]]; discriminate K).
unfold generateFileFromSlip44MD. rewrite coins_one.
2:{ unfold row. cbn [map concat]. repeat apply AL; auto. }
unfold md_line. rewrite SplitBar_row.
2:{ repeat constructor; repeat apply app_no_bar; try apply pad_no_bar; try assumption; apply digits_no_bar; [exact (proj2 Nt)|exact (proj2 Np)]. }
cbn [tl map]. rewrite !TrimSpace_pad. rewrite (TrimSpace_tight t), (TrimSpace_tight p), (TrimSpace_tight s), (TrimSpace_tight n); try assumption; try (apply numeral_tight; [exact (proj2 Nt) || exact (proj2 Np)]).
cbn [length Nat.ltb Nat.leb last nth skipn Nat.eqb Join]. rewrite CR, CD. cbn [negb andb]. rewrite !ParseUint10_numeral by assumption. cbv zeta. cbn [Symbol CName].
destruct s as [|x s], n as [|y n]; cbn [map concat]; rewrite ?app_nil_r; try reflexivity. now elim NE.
Qed.

Lemma C51_decimal_row_ex_l : generateFileFromSlip44MD (B "| 60 | 2147483708 | ETH | Ether") = B "{Type: 60, PathComponent: 0x8000003c, Symbol: ""ETH"", Name: ""Ether""}," ++ [x0a] /\
numeral (B "60") /\ tight (B "60") /\ no_bar (B "ETH").
Proof.
assert (N : numeral (B "60")) by (apply numeral_iff; split; [discriminate|reflexivity]).
split; [vm_compute; reflexivity|]. split; [exact N|]. split; [apply numeral_tight; exact (proj2 N)|]. intros [K|[K|[K|[]]]]; discriminate K.
Qed.

Lemma C51_every_row_l : forall pre cs ws, no_bar pre -> ~ In x0a pre -> Forall2 cell_of cs ws ->
  (forall c, row_coin ws c -> generateFileFromSlip44MD (pre ++ row cs) = StringForMD c ++ B "," ++ [x0a]) /\
  ((forall c, ~ row_coin ws c) -> generateFileFromSlip44MD (pre ++ row cs) = []).
Proof.
exact file_row.
Qed.

Lemma C51_every_row_ex_l : Forall2 cell_of [B "60 "; B " 2147483708"; B "1"] [B "60"; B "2147483708"; B "1"] /\
row_coin [B "60"; B "2147483708"; B "Ether"] (mkCoin 60 2147483708 [] (B "Ether")) /\
row_coin [B "1"; B "2"; B "A"; B "B"; B "C"] (mkCoin 1 2 (B "A") (B "B C")) /\
(forall c, ~ row_coin [B "60"; B "2147483708"] c) /\ (forall c, ~ row_coin [B "60"; B "2147483708"; B "A"; B "reserved"] c).
Proof.
assert (N60 : numeral (B "60")) by (apply numeral_iff; split; [discriminate|reflexivity]).
assert (NP : numeral (B "2147483708")) by (apply numeral_iff; split; [discriminate|reflexivity]).
assert (N1 : numeral (B "1")) by (apply numeral_iff; split; [discriminate|reflexivity]).
assert (N2 : numeral (B "2")) by (apply numeral_iff; split; [discriminate|reflexivity]).
assert (NO : forall t s, Contains s t = false -> ~ occurs t s) by (intros t s E K; apply Contains_iff in K; congruence).
split; [|split; [|split; [|split]]].
- repeat constructor.
  + exists 0%nat, 1%nat. split; [reflexivity|]. split; [apply digits_no_bar; exact (proj2 N60)|]. split; [apply numeral_tight; exact (proj2 N60)|]. intros [K|[K|[]]]; discriminate K.
  + exists 1%nat, 0%nat. split; [reflexivity|]. split; [apply digits_no_bar; exact (proj2 NP)|]. split; [apply numeral_tight; exact (proj2 NP)|]. intros K. cbn in K. repeat (destruct K as [K|K]; [discriminate K|]). destruct K.
  + exists 0%nat, 0%nat. split; [reflexivity|]. split; [apply digits_no_bar; exact (proj2 N1)|]. split; [apply numeral_tight; exact (proj2 N1)|]. intros [K|[]]; discriminate K.
- exists (B "60"), (B "2147483708"), [B "Ether"]. split; [reflexivity|]. split; [exact N60|]. split; [exact NP|]. repeat (split; [reflexivity|]). split; [left; split; reflexivity|].
  split; [discriminate|]. split; apply NO; reflexivity.
- exists (B "1"), (B "2"), [B "A"; B "B"; B "C"]. split; [reflexivity|]. split; [exact N1|]. split; [exact N2|]. repeat (split; [reflexivity|]). split; [right; exists (B "B"), [B "C"]; split; reflexivity|].
  split; [discriminate|]. split; apply NO; reflexivity.
- intros c (t & p & rest & E & _ & _ & _ & _ & _ & _ & [(X & _)|(n & ns & X & _)] & _); subst rest; discriminate E.
- intros c (t & p & rest & E & _ & _ & _ & _ & _ & _ & _ & _ & K & _). injection E as _ _ <-. apply K. exists [], []. reflexivity.
Qed.

Lemma C63_every_coin_has_a_row_l : forall c, In c RegCoins0 -> exists l, In l slip44_lines /\ coin_row l c.
Proof.
exact (proj1 (walk_ok slip44_lines RegCoins0 table_walk)).
Qed.

Lemma C63_every_row_accounted_for_l : forall l, In l slip44_lines -> (exists c, In c RegCoins0 /\ coin_row l c) \/ unassigned_row l.
Proof.
exact (proj2 (walk_ok slip44_lines RegCoins0 table_walk)).
Qed.

Lemma C63_ex_l : coin_row (B "| 0          | 0x80000000                    | BTC     | Bitcoin                           ") (mkCoin 0 0x80000000 (B "BTC") (B "Bitcoin")) /\
unassigned_row (B "| 658        | 0x80000292                    |         ").
Proof.
split; [eapply coin_rowb_ok|eapply unassigned_rowb_ok]; reflexivity.
Qed.

Lemma C64_string_shows_type_l : forall c c', coin_range c -> coin_range c' -> CoinString c = CoinString c' -> CType c = CType c'.
Proof.
intros c c' [[H _] _] [[H' _] _]. apply CoinString_type; assumption.
Qed.

Lemma C64_registered_strings_distinct_l : forall R, booted R -> forall c c', In c (RegCoins R) -> In c' (RegCoins R) -> CoinString c = CoinString c' -> c = c'.
Proof.
intros R HB c c' Hc Hc' E. assert (P : forall c, In c (RegCoins R) -> 0 <= CType c).
{ intros x Hx. destruct (proj2 (C48_every_coin_valid_l R HB) x Hx) as [_ (_ & _ & K)]. apply (booted_coin R x HB) in Hx as (d & Hd & ->). rewrite fix_pc in K.
  pose proof (table_range d Hd). change (2 ^ 31) with 2147483648 in K. lia. }
apply CoinString_type in E; [|apply P; assumption..].
pose proof (proj2 (C48_lookup_by_type_l R HB (CType c) c) (conj Hc eq_refl)) as A. pose proof (proj2 (C48_lookup_by_type_l R HB (CType c) c') (conj Hc' (eq_sym E))) as A'. congruence.
Qed.

Lemma C64_registered_strings_distinct_ex_l : exists R c, booted R /\ In c (RegCoins R) /\ CoinString c = B "BTC - Bitcoin (Type 0)".
Proof.
destruct booted_exists as [R HB]. exists R, (mkCoin 0 0x80000000 (B "BTC") (B "Bitcoin")). split; [exact HB|]. split; [|reflexivity].
apply (booted_coin R _ HB). exists (mkCoin 0 0x80000000 (B "BTC") (B "Bitcoin")). split; [left; reflexivity|reflexivity].
Qed.

Lemma C64_string_injective_refuted_l : exists c c', coin_range c /\ coin_range c' /\ coin_ok c /\ coin_ok c' /\ c <> c' /\ CoinString c = CoinString c'.
Proof.
exists (mkCoin 5 0x80000005 (B "A") (B "B - C")), (mkCoin 5 0x80000005 (B "A - B") (B "C")).
assert (R1 : coin_range (mkCoin 5 0x80000005 (B "A") (B "B - C"))) by (cbv; repeat split; discriminate).
assert (R2 : coin_range (mkCoin 5 0x80000005 (B "A - B") (B "C"))) by (cbv; repeat split; discriminate).
split; [exact R1|]. split; [exact R2|]. split; [apply CoinIsValid_iff; [exact R1|reflexivity]|]. split; [apply CoinIsValid_iff; [exact R2|reflexivity]|].
split; [discriminate|reflexivity].
Qed.

Lemma C64_md_injective_l : forall c c', coin_range c -> coin_range c' -> ~ In x22 (Symbol c) -> ~ In x22 (Symbol c') -> StringForMD c = StringForMD c' -> c = c'.
Proof.
exact StringForMD_inj.
Qed.

Lemma C64_md_injective_ex_l : coin_range (mkCoin 5 0x80000005 (B "A") (B "B")) /\ ~ In x22 (B "A") /\
StringForMD (mkCoin 5 0x80000005 (B "A") (B "B")) = B "{Type: 5, PathComponent: 0x80000005, Symbol: ""A"", Name: ""B""}".
Proof.
split; [cbv; repeat split; discriminate|]. split; [intros [K|[]]; discriminate K|vm_compute; reflexivity].
Qed.

Lemma C64_md_injective_refuted_l : exists c c', coin_range c /\ coin_range c' /\ coin_ok c /\ coin_ok c' /\ c <> c' /\ StringForMD c = StringForMD c'.
Proof.
exists (mkCoin 5 0x80000005 (B "A") (B "C"", Name: ""D")), (mkCoin 5 0x80000005 (B "A"", Name: ""C") (B "D")).
assert (R1 : coin_range (mkCoin 5 0x80000005 (B "A") (B "C"", Name: ""D"))) by (cbv; repeat split; discriminate).
assert (R2 : coin_range (mkCoin 5 0x80000005 (B "A"", Name: ""C") (B "D"))) by (cbv; repeat split; discriminate).
split; [exact R1|]. split; [exact R2|]. split; [apply CoinIsValid_iff; [exact R1|reflexivity]|]. split; [apply CoinIsValid_iff; [exact R2|reflexivity]|].
split; [discriminate|vm_compute; reflexivity].
Qed.

Lemma C64_formats_l : forall c, coin_range c -> exists t h, decimal t (CType c) /\ hexadecimal h (PathComponent c) /\
  StringForMD c = B "{Type: " ++ t ++ B ", PathComponent: 0x" ++ h ++ B ", Symbol: """ ++ Symbol c ++ B """, Name: """ ++ CName c ++ B """}" /\
  (Symbol c = [] -> CoinString c = CName c ++ B " (Type " ++ t ++ B ")") /\
  (Symbol c <> [] -> CoinString c = Symbol c ++ B " - " ++ CName c ++ B " (Type " ++ t ++ B ")").
Proof.
intros c [R1 R2]. exists (Itoa (CType c)), (hex_text (PathComponent c)).
split; [apply Itoa_decimal; lia|]. split; [apply hex_text_hexadecimal; lia|]. split; [|split].
- unfold StringForMD. change (B ", Symbol: """) with (B ", Symbol: " ++ [x22]). change (B """, Name: """) with ([x22] ++ B ", Name: " ++ [x22]). change (B """}") with ([x22] ++ B "}").
  rewrite <- !app_assoc. reflexivity.
- intros E. unfold CoinString. rewrite E. reflexivity.
- intros E. unfold CoinString. destruct (Symbol c) as [|x s]; [now elim E|]. rewrite <- !app_assoc. reflexivity.
Qed.

Lemma C64_formats_ex_l : coin_range (mkCoin 60 0x8000003c (B "ETH") (B "Ether")) /\ decimal (B "60") 60 /\ hexadecimal (B "8000003c") 0x8000003c /\ CoinString (mkCoin 60 0x8000003c (B "ETH") (B "Ether")) = B "ETH - Ether (Type 60)".
Proof.
split; [unfold coin_range; cbn; lia|]. split; [apply (Itoa_decimal 60); lia|]. split; [apply (hex_text_hexadecimal 0x8000003c); lia|reflexivity].
Qed.
