(** Bip32RegFacts.v - the tables built by init, whatever the map iteration order. *)
From Verif Require Import Base BaseFacts GoStr GoStrFacts Rx RxFacts Bip32Path Bip32Reg Bip32 SpecBip32.

(** ** Shape of the paths accepted by VersionBytes.IsValid *)
(** In proofs; for bip32/reg_ver_bytes.go:14-31, 426-442. *)
Definition all_digits (s : bytes) : Prop := forallb is_digit s = true.
Lemma digit_not_slash s : all_digits s -> ContainsB x2f s = false.
Proof.
  unfold all_digits, ContainsB. induction s as [|c s IH]; [reflexivity|]. cbn [forallb existsb]. intros H.
  apply andb_true_iff in H as [H1 H2]. rewrite (IH H2), orb_false_r.
  destruct (Byte.eqb x2f c) eqn:E; [|reflexivity]. apply byte_eqb_spec in E. subst. discriminate.
Qed.
Lemma digit_not_quote s : all_digits s -> ContainsB x27 s = false.
Proof.
  unfold all_digits, ContainsB. induction s as [|c s IH]; [reflexivity|]. cbn [forallb existsb]. intros H.
  apply andb_true_iff in H as [H1 H2]. rewrite (IH H2), orb_false_r.
  destruct (Byte.eqb x27 c) eqn:E; [|reflexivity]. apply byte_eqb_spec in E. subst. discriminate.
Qed.
Lemma RemoveB_none c s : ContainsB c s = false -> RemoveB c s = s.
Proof.
  unfold ContainsB, RemoveB. induction s as [|x s IH]; [reflexivity|]. cbn [existsb filter].
  destruct (Byte.eqb c x); [discriminate|]. cbn [orb negb]. intros H. rewrite IH by exact H. reflexivity.
Qed.
Lemma RemoveB_app c a b : RemoveB c (a ++ b) = RemoveB c a ++ RemoveB c b.
Proof. apply filter_app. Qed.
Lemma ContainsB_app c a b : ContainsB c (a ++ b) = ContainsB c a || ContainsB c b.
Proof. apply existsb_app. Qed.
Lemma hd_rx_spec s : rx_match hd_rx s = true <->
  exists a b, s = B "m/" ++ a ++ B "'/" ++ b ++ B "'" /\ all_digits a /\ all_digits b /\
    (length a <= 8)%nat /\ (length b <= 8)%nat.
Proof.
  rewrite rx_match_spec. unfold hd_rx. cbv zeta. split.
  - intros H. apply Matches_cat in H as (m & r & -> & Hm & H). apply Matches_chr in Hm. subst m.
    apply Matches_cat in H as (u & w & -> & Hu & Hw).
    apply Matches_cat in Hu as (s1 & u1 & -> & Hs1 & Hu). apply Matches_chr in Hs1. subst s1.
    apply Matches_cat in Hu as (a & q & -> & Ha & Hq). apply Matches_chr in Hq. subst q.
    apply Matches_cat in Hw as (s1 & u1 & -> & Hs1 & Hw). apply Matches_chr in Hs1. subst s1.
    apply Matches_cat in Hw as (b & q & -> & Hb & Hq). apply Matches_chr in Hq. subst q.
    apply Matches_upto_cls in Ha as [La Ha]. apply Matches_upto_cls in Hb as [Lb Hb].
    exists a, b. repeat split; try assumption. change (B "m/") with [x6d; x2f]. change (B "'/") with [x27; x2f].
    change (B "'") with [x27]. rewrite <- !app_assoc. reflexivity.
  - intros (a & b & -> & Ha & Hb & La & Lb).
    replace (B "m/" ++ a ++ B "'/" ++ b ++ B "'") with ([x6d] ++ ([x2f] ++ (a ++ [x27])) ++ ([x2f] ++ (b ++ [x27])))
      by (rewrite <- !app_assoc; reflexivity).
    assert (C : forall t, all_digits t -> (length t <= 8)%nat ->
      Matches (Rcat (Rchr x2f) (Rcat (Rupto 8 (Rcls is_digit)) (Rchr x27))) ([x2f] ++ (t ++ [x27]))).
    { intros t Ht Lt. apply MCat; [apply Matches_chr; reflexivity|]. apply MCat; [|apply Matches_chr; reflexivity].
      apply Matches_upto_cls. split; assumption. }
    apply MCat; [apply Matches_chr; reflexivity|]. apply MCat; apply C; assumption.
Qed.
Lemma hd_split a b : all_digits a -> all_digits b ->
  Split x2f (B "m/" ++ a ++ B "'/" ++ b ++ B "'") = [B "m"; a ++ B "'"; b ++ B "'"].
Proof.
  intros Ha Hb. change (B "m/" ++ ?r) with (B "m" ++ x2f :: r). rewrite Split_app by reflexivity. f_equal.
  replace (a ++ B "'/" ++ b ++ B "'") with ((a ++ B "'") ++ x2f :: b ++ B "'")
    by (rewrite <- !app_assoc; reflexivity).
  rewrite Split_app by (rewrite ContainsB_app, digit_not_slash by exact Ha; reflexivity). f_equal.
  apply Split_nosep. rewrite ContainsB_app, digit_not_slash by exact Hb. reflexivity.
Qed.
Lemma quote_removed a : all_digits a -> RemoveB x27 (a ++ B "'") = a.
Proof. intros Ha. rewrite RemoveB_app, RemoveB_none by (apply digit_not_quote; exact Ha). apply app_nil_r. Qed.

(** Atoi on digit strings *)
Lemma is_digit_range c : is_digit c = true -> 0 <= Zb c - 48 <= 9.
Proof. unfold is_digit, in_rng. lia. Qed.
Lemma dec_val_snoc s c : dec_val (s ++ [c]) = dec_val s * 10 + (Zb c - 48).
Proof. unfold dec_val. rewrite fold_left_app. reflexivity. Qed.
Lemma dec_val_range s : all_digits s -> 0 <= dec_val s < 10 ^ Z.of_nat (length s).
Proof.
  unfold all_digits. induction s as [|c s IH] using rev_ind; [intros _; cbn; lia|].
  rewrite forallb_app. intros H. apply andb_true_iff in H as [H1 H2]. cbn [forallb] in H2. rewrite andb_true_r in H2.
  apply is_digit_range in H2. specialize (IH H1). rewrite dec_val_snoc, app_length. cbn [length].
  rewrite Nat2Z.inj_add, Z.pow_add_r by lia. change (10 ^ Z.of_nat 1) with 10. lia.
Qed.
Lemma fold_dec_ge s : forall n, 0 <= n -> all_digits s -> n <= fold_left (fun a c => a * 10 + (Zb c - 48)) s n.
Proof.
  induction s as [|c s IH]; intros n Hn H; cbn [fold_left]; [lia|]. unfold all_digits in H. cbn [forallb] in H. apply andb_true_iff in H as [Hc Hs].
  apply is_digit_range in Hc. specialize (IH (n * 10 + (Zb c - 48)) ltac:(lia) Hs). lia.
Qed.
Lemma parse_uint_digits m s : 9 <= m < 2 ^ 64 -> all_digits s -> forall n, 0 <= n <= m ->
  parse_uint m s n = let v := fold_left (fun a c => a * 10 + (Zb c - 48)) s n in if v >? m then (m, Some ErrRange) else (v, None).
Proof.
  change (2 ^ 64) with 18446744073709551616. intros Hm. induction s as [|c s IH]; intros Hs n Hn; cbn [parse_uint fold_left]; cbv zeta.
  - assert (n >? m = false) as -> by lia. reflexivity.
  - unfold all_digits in Hs. cbn [forallb] in Hs. apply andb_true_iff in Hs as [Hc Hs]. rewrite Hc. cbn [negb]. apply is_digit_range in Hc.
    pose proof (fold_dec_ge s (n * 10 + (Zb c - 48)) ltac:(lia) Hs) as G.
    destruct (n >=? cutoff) eqn:E1.
    { unfold cutoff in E1. assert (fold_left (fun a c0 => a * 10 + (Zb c0 - 48)) s (n * 10 + (Zb c - 48)) >? m = true) as -> by lia. reflexivity. }
    unfold cutoff in E1. rewrite (Z.mod_small (n * 10)) by lia.
    destruct (n * 10 + (Zb c - 48) >? m) eqn:E2.
    + assert (fold_left (fun a c0 => a * 10 + (Zb c0 - 48)) s (n * 10 + (Zb c - 48)) >? m = true) as -> by lia.
      destruct (Z_lt_dec (n * 10 + (Zb c - 48)) 18446744073709551616) as [L|L].
      * rewrite Z.mod_small by lia. rewrite E2, orb_true_r. reflexivity.
      * assert ((n * 10 + (Zb c - 48)) mod 18446744073709551616 <? n * 10 = true) as ->; [|reflexivity].
        rewrite <- (Z.mod_unique (n * 10 + (Zb c - 48)) 18446744073709551616 1 (n * 10 + (Zb c - 48) - 18446744073709551616)); lia.
    + rewrite (Z.mod_small (n * 10 + _)) by lia. rewrite E2. assert (n * 10 + (Zb c - 48) <? n * 10 = false) as -> by lia. cbn [orb].
      rewrite IH by (try assumption; lia). reflexivity.
Qed.
Lemma atoi_loop_digits s : forall n, atoi_loop s n = if forallb is_digit s then Some (fold_left (fun a c => a * 10 + (Zb c - 48)) s n) else None.
Proof.
  induction s as [|c s IH]; intros n; [reflexivity|]. cbn [atoi_loop forallb fold_left]. pose proof (Zb_range c) as Hr.
  destruct (is_digit c) eqn:E.
  - apply is_digit_range in E. rewrite Z.mod_small by lia. assert (Zb c - 48 >? 9 = false) as -> by lia. cbn [andb]. apply IH.
  - cbn [andb]. assert ((Zb c - 48) mod 256 >? 9 = true) as ->; [|reflexivity]. unfold is_digit, in_rng in E.
    destruct (Z_lt_dec (Zb c) 48); [rewrite <- (Z.mod_unique (Zb c - 48) 256 (-1) (Zb c - 48 + 256)); lia|rewrite Z.mod_small; lia].
Qed.
Lemma dec_val_18 a : all_digits a -> (length a <= 18)%nat -> 0 <= dec_val a < 10 ^ 18.
Proof.
  intros Ha La. pose proof (dec_val_range a Ha).
  assert (10 ^ Z.of_nat (length a) <= 10 ^ 18) by (apply Z.pow_le_mono_r; lia). lia.
Qed.
Lemma digit_no_sign c : is_digit c = true -> Byte.eqb c x2d = false /\ Byte.eqb c x2b = false.
Proof. destruct c; intros H; split; (reflexivity || discriminate H). Qed.
Lemma Atoi_digits s : s <> [] -> all_digits s -> Atoi s = (if dec_val s >? MaxInt then (MaxInt, Some ErrRange) else (dec_val s, None)).
Proof.
  intros Hn Hd. unfold Atoi. destruct s as [|c s]; [congruence|].
  assert (Hc : is_digit c = true) by (unfold all_digits in Hd; cbn [forallb] in Hd; apply andb_true_iff in Hd; tauto).
  destruct (digit_no_sign c Hc) as [E1 E2]. destruct (length (c :: s) <? 19)%nat eqn:El.
  - rewrite E1, E2. cbn [orb]. change (length (c :: s) <? 1)%nat with false. cbv iota.
    rewrite atoi_loop_digits. unfold all_digits in Hd. rewrite Hd. fold (dec_val (c :: s)).
    apply Nat.ltb_lt in El. pose proof (dec_val_18 (c :: s) Hd ltac:(lia)) as R. change (10 ^ 18) with 1000000000000000000 in R.
    assert (dec_val (c :: s) >? MaxInt = false) as -> by (unfold MaxInt; lia). reflexivity.
  - unfold ParseInt10. rewrite E1, E2. cbn [orb negb andb]. unfold ParseUint.
    rewrite parse_uint_digits by (try assumption; lia). cbv zeta. fold (dec_val (c :: s)).
    destruct (dec_val (c :: s) >? 18446744073709551615) eqn:Ev.
    + assert (dec_val (c :: s) >? MaxInt = true) as -> by (unfold MaxInt; lia). reflexivity.
    + destruct (dec_val (c :: s) >? MaxInt) eqn:Em.
      * assert (dec_val (c :: s) >=? MaxInt + 1 = true) as -> by lia. reflexivity.
      * assert (dec_val (c :: s) >=? MaxInt + 1 = false) as -> by lia. reflexivity.
Qed.
Lemma Atoi_nil : Atoi [] = (0, Some ErrSyntax). Proof. reflexivity. Qed.

Lemma dec_val_8 a : all_digits a -> (length a <= 8)%nat -> 0 <= dec_val a < 10 ^ 8.
Proof.
  intros Ha La. pose proof (dec_val_range a Ha).
  assert (10 ^ Z.of_nat (length a) <= 10 ^ 8) by (apply Z.pow_le_mono_r; lia). lia.
Qed.
(** What the accessors return. *)
Lemma comp_val_digits idx h e a : (idx = 1 \/ idx = 2)%nat -> all_digits a -> (length a <= 8)%nat ->
  nth_error (Split x2f (PathString (VPath h))) idx = Some (a ++ B "'") ->
  comp_val idx h e = Ret (match a with [] => (0, Some ErrSyntax) | _ => (dec_val a, None) end).
Proof.
  intros _ Ha La E. unfold comp_val. rewrite E, quote_removed by exact Ha.
  destruct a as [|c a'] eqn:Ea; [reflexivity|]. rewrite <- Ea in *.
  rewrite Atoi_digits by (try assumption; rewrite Ea; discriminate).
  pose proof (dec_val_8 a Ha La) as Hv. change (10 ^ 8) with 100000000 in Hv.
  assert (dec_val a >? MaxInt = false) as -> by (unfold MaxInt; lia). unfold u32, TWO32.
  rewrite Z.mod_small by lia. assert (dec_val a >=? FirstHardenedChild = false) as -> by (unfold FirstHardenedChild; lia).
  reflexivity.
Qed.
Lemma PurposeVal_spec h a b : PathString (VPath h) = B "m/" ++ a ++ B "'/" ++ b ++ B "'" ->
  all_digits a -> all_digits b -> (length a <= 8)%nat -> (length b <= 8)%nat ->
  VBIsValid h = true /\
  PurposeVal h = Ret (match a with [] => (0, Some ErrSyntax) | _ => (dec_val a, None) end) /\
  CoinVal h = Ret (match b with [] => (0, Some ErrSyntax) | _ => (dec_val b, None) end).
Proof.
  intros E Ha Hb La Lb.
  assert (V : VBIsValid h = true) by (unfold VBIsValid; apply hd_rx_spec; exists a, b; tauto).
  split; [exact V|]. unfold PurposeVal, CoinVal. rewrite V. cbn [negb].
  split; (apply comp_val_digits; [tauto|assumption..|rewrite E, hd_split by assumption; reflexivity]).
Qed.
Lemma VBIsValid_spec h : VBIsValid h = true -> exists a b,
  PathString (VPath h) = B "m/" ++ a ++ B "'/" ++ b ++ B "'" /\ all_digits a /\ all_digits b /\
  (length a <= 8)%nat /\ (length b <= 8)%nat.
Proof. intros H. apply hd_rx_spec. exact H. Qed.
Lemma accessors_no_panic h : PurposeVal h <> Panic /\ CoinVal h <> Panic /\ PurposeValFull h <> Panic /\ CoinValFull h <> Panic.
Proof.
  unfold PurposeValFull, CoinValFull, val_full. destruct (VBIsValid h) eqn:V.
  - destruct (VBIsValid_spec h V) as (a & b & E & Ha & Hb & La & Lb).
    destruct (PurposeVal_spec h a b E Ha Hb La Lb) as (_ & -> & ->). cbn [negb].
    destruct a, b; repeat split; discriminate.
  - unfold PurposeVal, CoinVal. rewrite V. repeat split; discriminate.
Qed.

(** ** The tables *)
(** In proofs; for bip32/reg_ver_bytes.go:14-31, 426-442. *)
Definition tbl (f : VersionBytes -> Z) (l : list VersionBytes) : gomap :=
  fun x => match filter (fun h => f h =? x) l with [] => None | r => Some r end.
(** In proofs; for bip32/reg_ver_bytes.go:14-31, 426-442. *)
Definition valOf (r : outcome (Z * option err)) : Z := match r with Ret (v, _) => v | Panic => 0 end.
(** In proofs; for bip32/reg_ver_bytes.go:14-31, 426-442. *)
Definition tbl_ok (T : tables) (done flat : list VersionBytes) : Prop :=
  (forall x, PubFlagToHDBytesSlice T x = tbl PubKeyFlag done x) /\
  (forall x, PvtFlagToHDBytesSlice T x = tbl PvtKeyFlag done x) /\
  HDVersionBytesSlice T = flat /\
  (forall x, PurposeToHDBytesSlice T x = tbl (fun h => valOf (PurposeVal h)) done x) /\
  (forall x, PurposeFullToHDBytesSlice T x = tbl (fun h => valOf (PurposeValFull h)) done x) /\
  (forall x, CoinTypeToHDBytesSlice T x = tbl (fun h => valOf (CoinVal h)) done x).

Lemma gappend_tbl f m done h : (forall x, m x = tbl f done x) ->
  forall x, gappend m (f h) h x = tbl f (done ++ [h]) x.
Proof.
  intros Hm x. unfold gappend, tbl. rewrite filter_app. cbn [filter]. rewrite Z.eqb_sym.
  destruct (Z.eqb_spec (f h) x) as [<-|N].
  - rewrite Hm. unfold tbl. destruct (filter (fun h0 => f h0 =? f h) done); reflexivity.
  - rewrite Hm, app_nil_r. reflexivity.
Qed.
Lemma drop_err_val r : r <> Panic -> drop_err r = Ret (valOf r).
Proof. destruct r as [[v e]|]; [reflexivity|congruence]. Qed.
Lemma init_one_ok T done flat h : tbl_ok T done flat -> exists T', init_one T h = Ret T' /\ tbl_ok T' (done ++ [h]) flat.
Proof.
  intros (H1 & H2 & H3 & H4 & H5 & H6). destruct (accessors_no_panic h) as (P1 & P2 & P3 & P4).
  unfold init_one. rewrite !drop_err_val by assumption. eexists. split; [reflexivity|].
  repeat split; cbn [PubFlagToHDBytesSlice PvtFlagToHDBytesSlice HDVersionBytesSlice PurposeToHDBytesSlice PurposeFullToHDBytesSlice CoinTypeToHDBytesSlice].
  - exact (gappend_tbl PubKeyFlag _ done h H1).
  - exact (gappend_tbl PvtKeyFlag _ done h H2).
  - exact H3.
  - exact (gappend_tbl (fun h => valOf (PurposeVal h)) _ done h H4).
  - exact (gappend_tbl (fun h => valOf (PurposeValFull h)) _ done h H5).
  - exact (gappend_tbl (fun h => valOf (CoinVal h)) _ done h H6).
Qed.
Lemma init_loop_ok l : forall T done flat, tbl_ok T done flat -> exists T', init_loop T l = Ret T' /\ tbl_ok T' (done ++ l) flat.
Proof.
  induction l as [|h l IH]; intros T done flat H; cbn [init_loop].
  - exists T. rewrite app_nil_r. split; [reflexivity|exact H].
  - destruct (init_one_ok T done flat h H) as (T1 & -> & H1). destruct (IH T1 _ _ H1) as (T2 & E & H2).
    exists T2. split; [exact E|]. rewrite <- app_assoc in H2. exact H2.
Qed.
Lemma init_outer_ok ord : forall T done flat, tbl_ok T done flat ->
  exists T', init_outer T ord = Ret T' /\ tbl_ok T' (done ++ concat (map snd ord)) (flat ++ concat (map snd ord)).
Proof.
  induction ord as [|[p a] ord IH]; intros T done flat H; cbn [init_outer map snd concat].
  - exists T. rewrite !app_nil_r. split; [reflexivity|exact H].
  - cbv zeta.
    match goal with |- context [init_loop ?X a] => set (T1 := X) end.
    assert (H1 : tbl_ok T1 done (flat ++ a)).
    { destruct H as (H1 & H2 & H3 & H4 & H5 & H6). unfold T1. repeat split; try assumption. cbn. rewrite H3. reflexivity. }
    destruct (init_loop_ok a T1 _ _ H1) as (T2 & -> & H2). destruct (IH T2 _ _ H2) as (T3 & E & H3).
    exists T3. split; [exact E|]. rewrite <- !app_assoc in H3. exact H3.
Qed.
Lemma tables0_ok : tbl_ok tables0 [] [].
Proof. repeat split. Qed.
Theorem init_tables_ok ord : exists T, init_tables ord = Ret T /\ tbl_ok T (concat (map snd ord)) (concat (map snd ord)).
Proof. exact (init_outer_ok ord tables0 [] [] tables0_ok). Qed.

(** ** The registered entries *)
(** In proofs; for bip32/reg_ver_bytes.go:14-31, 426-442. *)
Definition registered : list VersionBytes := concat (map snd PathToHDBytesSlice).
Lemma Permutation_concat {A} (l l' : list (list A)) : Permutation l l' -> Permutation (concat l) (concat l').
Proof.
  induction 1; cbn [concat].
  - constructor.
  - apply Permutation_app_head. assumption.
  - rewrite !app_assoc. apply Permutation_app_tail, Permutation_app_comm.
  - eapply Permutation_trans; eassumption.
Qed.
Lemma after_init_tbl T : after_init T -> exists l, Permutation l registered /\ tbl_ok T l l.
Proof.
  intros (ord & HP & E). destruct (init_tables_ok ord) as (T' & E' & H). assert (T' = T) by congruence. subst T'.
  exists (concat (map snd ord)). split; [|exact H]. apply Permutation_concat, Permutation_map, HP.
Qed.
Lemma after_init_exists ord : Permutation ord PathToHDBytesSlice -> exists T, init_tables ord = Ret T /\ after_init T.
Proof.
  intros HP. destruct (init_tables_ok ord) as (T & E & _). exists T. split; [exact E|]. exists ord. split; assumption.
Qed.

Lemma lookup0_tbl (m : gomap) f l v : (forall x, m x = tbl f l x) ->
  match lookup0 m v with
  | Some h => In h l /\ f h = v
  | None => forall h, In h l -> f h <> v
  end.
Proof.
  intros Hm. unfold lookup0. rewrite Hm. unfold tbl.
  destruct (filter (fun h => f h =? v) l) as [|h r] eqn:E.
  - intros h Hh C. assert (In h (filter (fun h => f h =? v) l)) by (apply filter_In; split; [assumption|apply Z.eqb_eq; exact C]).
    rewrite E in H. exact H.
  - assert (In h (filter (fun h => f h =? v) l)) as Hi by (rewrite E; left; reflexivity).
    apply filter_In in Hi as [H1 H2]. apply Z.eqb_eq in H2. split; assumption.
Qed.

(** Flags of the registered entries against the SLIP-132 pairs. *)
(** In proofs; for bip32/reg_ver_bytes.go:14-31, 426-442. *)
Definition pair_eqb (a b : Z * Z) : bool := (fst a =? fst b) && (snd a =? snd b).
Lemma reg_pairs : forallb (fun h => existsb (pair_eqb (PvtKeyFlag h, PubKeyFlag h)) slip132) registered = true.
Proof. vm_compute. reflexivity. Qed.
Lemma slip_reg : forallb (fun p => existsb (fun h => pair_eqb (PvtKeyFlag h, PubKeyFlag h) p) registered) slip132 = true.
Proof. vm_compute. reflexivity. Qed.
Lemma pair_eqb_spec a b : pair_eqb a b = true -> a = b.
Proof.
  destruct a, b. unfold pair_eqb. cbn [fst snd]. intros H. apply andb_true_iff in H as [H1 H2].
  apply Z.eqb_eq in H1, H2. subst. reflexivity.
Qed.
Lemma reg_in_slip h : In h registered -> In (PvtKeyFlag h, PubKeyFlag h) slip132.
Proof.
  intros H. pose proof (proj1 (forallb_forall _ _) reg_pairs h H) as E. apply existsb_exists in E as (p & Hp & E).
  apply pair_eqb_spec in E. rewrite E. exact Hp.
Qed.
Lemma slip_in_reg p : In p slip132 -> exists h, In h registered /\ (PvtKeyFlag h, PubKeyFlag h) = p.
Proof.
  intros H. pose proof (proj1 (forallb_forall _ _) slip_reg p H) as E. apply existsb_exists in E as (h & Hh & E).
  apply pair_eqb_spec in E. exists h. split; assumption.
Qed.
Lemma slip_nodup_chk : forallb (fun a => forallb (fun b => (negb (fst a =? fst b) && negb (snd a =? snd b)) || pair_eqb a b) slip132) slip132 = true.
Proof. vm_compute. reflexivity. Qed.
Lemma slip_unique a b : In a slip132 -> In b slip132 -> fst a = fst b \/ snd a = snd b -> a = b.
Proof.
  intros Ha Hb E. pose proof (proj1 (forallb_forall _ _) (proj1 (forallb_forall _ _) slip_nodup_chk a Ha) b Hb) as C.
  apply orb_true_iff in C as [C|C]; [|apply pair_eqb_spec; exact C].
  apply andb_true_iff in C as [C1 C2]. apply negb_true_iff, Z.eqb_neq in C1. apply negb_true_iff, Z.eqb_neq in C2. tauto.
Qed.
Lemma slip_range_chk : forallb (fun p => (0 <=? fst p) && (fst p <? 4294967296) && (0 <=? snd p) && (snd p <? 4294967296)) slip132 = true.
Proof. vm_compute. reflexivity. Qed.
Lemma slip_range p q : In (p, q) slip132 -> 0 <= p < 2 ^ 32 /\ 0 <= q < 2 ^ 32.
Proof.
  intros H. pose proof (proj1 (forallb_forall _ _) slip_range_chk _ H) as C. cbn [fst snd] in C. lia.
Qed.

(** Lookups after init. *)
Theorem lookup_pvt T v : after_init T -> match lookup0 (PvtFlagToHDBytesSlice T) v with
  | Some h => In (v, PubKeyFlag h) slip132 /\ PvtKeyFlag h = v
  | None => forall q, ~ In (v, q) slip132 end.
Proof.
  intros HT. destruct (after_init_tbl T HT) as (l & HP & _ & H2 & _).
  pose proof (lookup0_tbl _ _ _ v H2) as L. destruct (lookup0 (PvtFlagToHDBytesSlice T) v) as [h|].
  - destruct L as [Hi E]. split; [|exact E]. rewrite <- E. apply reg_in_slip. eapply Permutation_in; eassumption.
  - intros q Hq. apply slip_in_reg in Hq as (h & Hh & E). injection E as E1 E2. apply (L h); [|exact E1].
    eapply Permutation_in; [symmetry; exact HP|exact Hh].
Qed.
Theorem lookup_pub T v : after_init T -> match lookup0 (PubFlagToHDBytesSlice T) v with
  | Some h => In (PvtKeyFlag h, v) slip132 /\ PubKeyFlag h = v
  | None => forall q, ~ In (q, v) slip132 end.
Proof.
  intros HT. destruct (after_init_tbl T HT) as (l & HP & H1 & _).
  pose proof (lookup0_tbl _ _ _ v H1) as L. destruct (lookup0 (PubFlagToHDBytesSlice T) v) as [h|].
  - destruct L as [Hi E]. split; [|exact E]. rewrite <- E. apply reg_in_slip. eapply Permutation_in; eassumption.
  - intros q Hq. apply slip_in_reg in Hq as (h & Hh & E). injection E as E1 E2. apply (L h); [|exact E2].
    eapply Permutation_in; [symmetry; exact HP|exact Hh].
Qed.

(** Every registered entry has a purpose and a coin. *)
(** In proofs; for bip32/reg_ver_bytes.go:14-31, 426-442. *)
Definition acc_chk (h : VersionBytes) : bool :=
  match PurposeVal h, PurposeValFull h, CoinVal h with
  | Ret (a, None), Ret (b, None), Ret (_, None) => b =? a + 2 ^ 31
  | _, _, _ => false
  end.
Lemma acc_chk_all : forallb acc_chk registered = true.
Proof. vm_compute. reflexivity. Qed.
Lemma reg_accessors h : In h registered ->
  PurposeVal h = Ret (valOf (PurposeVal h), None) /\ PurposeValFull h = Ret (valOf (PurposeVal h) + 2 ^ 31, None) /\ CoinVal h = Ret (valOf (CoinVal h), None).
Proof.
  intros Hh. pose proof (proj1 (forallb_forall _ _) acc_chk_all h Hh) as C. unfold acc_chk in C.
  destruct (PurposeVal h) as [[a [e|]]|]; try discriminate. destruct (PurposeValFull h) as [[b [e|]]|]; try discriminate.
  destruct (CoinVal h) as [[c [e|]]|]; try discriminate. apply Z.eqb_eq in C. subst b. repeat split.
Qed.
(** Every entry is listed under its own path, which contains no white space, and no list is empty. *)
Lemma own_chk : forallb (fun p => match snd p with [] => false | _ => true end &&
   forallb (fun h => bytes_eqb (fst p) (VPath h) && bytes_eqb (PathString (VPath h)) (VPath h)) (snd p)) PathToHDBytesSlice = true.
Proof. vm_compute. reflexivity. Qed.
Lemma reg_own p : In p PathToHDBytesSlice -> forall h, In h (snd p) -> PathString (VPath h) = VPath h /\ fst p = VPath h.
Proof.
  intros Hp h Hh. pose proof (proj1 (forallb_forall _ _) own_chk p Hp) as C. apply andb_true_iff in C as [_ C].
  pose proof (proj1 (forallb_forall _ _) C h Hh) as D. apply andb_true_iff in D as [D1 D2]. apply bytes_eqb_spec in D1, D2. tauto.
Qed.
Lemma reg_paths p : In p PathToHDBytesSlice -> exists h, In h (snd p) /\ VPath h = fst p.
Proof.
  intros Hp. pose proof (proj1 (forallb_forall _ _) own_chk p Hp) as C. apply andb_true_iff in C as [C _].
  pose proof (reg_own p Hp) as O. destruct (snd p) as [|h l]; [discriminate|]. exists h. split; [left; reflexivity|].
  symmetry. exact (proj2 (O h (or_introl eq_refl))).
Qed.
Lemma reg_nows h : In h registered -> PathString (VPath h) = VPath h.
Proof.
  intros Hh. unfold registered in Hh. apply in_concat in Hh as (l & Hl & Hh). apply in_map_iff in Hl as (p & <- & Hp).
  exact (proj1 (reg_own p Hp h Hh)).
Qed.
