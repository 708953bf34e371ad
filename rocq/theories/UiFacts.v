(** UiFacts.v - invariants of the example program's state. *)
From Verif Require Import Base BaseFacts GoStr GoStrFacts Prims Secp Base58 Bip39 SpecBip39 UtilMnemonic UtilMnemonicFacts SpecPath SpecBip32 SpecUtil SpecUi.
From Verif Require Import Bip32Path Bip32Reg Bip32 Bip32RegFacts Bip32KeyFacts Bip32Facts Bip32PathFacts Util UtilFacts Claims32 ClaimsUtil Ui.

(** [safe H P o]: the outcome satisfies P, or it is a panic caused by a bad seed. *)
(** In proofs; for examples/ui/one/main.go:91-104, 297-407. *)
Definition safe {A} (H : Prims) (P : A -> Prop) (o : outcome A) : Prop :=
  match o with Ret x => P x | Panic => exists s, bad_seed H s end.
Lemma safe_bind {A C} H (P : A -> Prop) (Q : C -> Prop) o f : safe H P o -> (forall x, P x -> safe H Q (f x)) -> safe H Q (bind o f).
Proof. destruct o as [x|]; cbn; auto. Qed.
Lemma safe_impl {A} H (P Q : A -> Prop) o : (forall x, P x -> Q x) -> safe H P o -> safe H Q o.
Proof. destruct o; cbn; auto. Qed.

(** ** Total operations *)
Lemma Derive_total H T k p : prims_ok H -> after_init T -> wf_key k ->
  exists kps e, DeriveBIP32Result H T k p = Ret (kps, e) /\ Forall (fun kp => wf_key (KKey kp)) kps.
Proof.
  intros HP HT HK. pose proof (KeyIsValid_l H k HP HK) as EV. set (v := negb _) in EV. clearbody v.
  unfold DeriveBIP32Result. rewrite EV. cbn [bind]. destruct (negb v || _ || _); [eauto|]. destruct (negb (PathIsValid p)); [eauto|].
  destruct (ValuesAtDepth p) as [l [e|]]; [eauto|]. destruct (derive_loop_ok H T (tl l) HP HT (B "m") k HK) as (kps & -> & L). cbn [bind].
  exists (mkKP (B "m") k :: kps), None. split; [reflexivity|]. constructor; [exact HK|]. clear EV. revert HK. induction L as [|dp k v' k' e r kps E L IH]; intros HK; [constructor|].
  destruct (NewChildKey_total H T k v' HP HT HK) as (q & E' & W). rewrite E in E'. injection E' as <-. constructor; [exact W|]. apply IH. exact W.
Qed.
Lemma zero_wf : wf_key zero_key. Proof. reflexivity. Qed.
Lemma RootKey_safe H s : prims_ok H -> safe H (fun r => exists k, fst r = Some k /\ wf_key k) (RootKeyFromSeed H s).
Proof.
  intros HP. destruct (HexDecode s) as [b|] eqn:E.
  2:{ unfold RootKeyFromSeed. rewrite E. exists zero_key. split; [reflexivity|apply zero_wf]. }
  destruct (Nat.ltb (length b) 16) eqn:L.
  - unfold RootKeyFromSeed. rewrite E, L. exists zero_key. split; [reflexivity|apply zero_wf].
  - apply Nat.ltb_ge in L. rewrite (RootKey_spec H s b HP E L). destruct (master H b) as [[k c]|] eqn:M; cbn [safe fst].
    + eexists. split; [reflexivity|]. apply xprv_wf. unfold master in M. cbv zeta in M. destruct (_ || _); [discriminate|].
      assert (c = IR (I_master H b)) as -> by congruence. repeat split. apply IR_length. apply HP.
    + exists s, b. split; [apply hexes_iff; exact E|]. split; [exact L|]. rewrite NewMasterKey_spec by exact HP. rewrite M. reflexivity.
Qed.
Lemma seed_of_eq H wst m pw : prims_ok H -> fst (DeriveSeedFromMnemonic H wst m pw) = seed_of H wst m pw.
Proof.
  intros HP. destruct (seed_gating H wst m pw HP) as (_ & A & N). unfold seed_of. destruct (IsMnemonicValid H wst m).
  - destruct (A eq_refl) as (_ & h & -> & _ & ->). reflexivity.
  - destruct (N eq_refl) as (x & _ & _ & ->). reflexivity.
Qed.
Lemma eff_path H T k s : DeriveBIP32Result H T k (if PathIsValid (Formatted s) then PathString (Formatted s) else B "m") = DeriveBIP32Result H T k (path_of s).
Proof.
  assert (EV : forall q, ValuesAtDepth (PathString q) = ValuesAtDepth q) by (intros q; unfold ValuesAtDepth; rewrite PathString_idem; reflexivity).
  unfold path_of, Formatted. unfold PathIsValid at 1 2. rewrite EV. destruct (ValuesAtDepth s) as [l [e|]] eqn:E; [reflexivity|].
  apply C41_values_only_l. rewrite !EV. reflexivity.
Qed.
Lemma path_of_String H T k s s' : PathString s = PathString s' -> DeriveBIP32Result H T k (path_of s) = DeriveBIP32Result H T k (path_of s').
Proof. intros E. rewrite <- !eff_path. unfold Formatted. rewrite E. reflexivity. Qed.
Lemma B58_total H s : prims_ok H -> exists k e, B58Deserialize H s = Ret (k, e) /\ wf_key k.
Proof. intros HP. unfold B58Deserialize. destruct (C16_deserialize_l H (Decode58 s) HP) as (k & e & E & L & _). exists k, e. auto. Qed.

(** ** The invariants *)
Section INV.
Variables (H : Prims) (T : tables) (wl : list bytes).
Hypothesis HP : prims_ok H.
Hypothesis HT : after_init T.
Hypothesis HG : good_list wl.
Hypothesis HW : text_words wl.
Let wst := SetWordList wl.

(** In proofs; for examples/ui/one/main.go:91-104, 297-407. *)
Definition newsel (s : Z) (t : list KeyPath) : Z := if s >=? Z.of_nat (length t) then Z.of_nat (length t) - 1 else s.
(** In proofs; for examples/ui/one/main.go:91-104, 297-407. *)
Definition I0 (u : ui) : Prop :=
  wf_key (bps u) /\ Forall (fun kp => wf_key (KKey kp)) (tabs u) /\ -1 <= selected u /\ selected u <= Z.max 0 (Z.of_nat (length (tabs u)) - 1).
(** In proofs; for examples/ui/one/main.go:91-104, 297-407. *)
Definition Rel (u : ui) : Prop :=
  derivationPath u = Formatted (derivationStr u) /\
  (mnemonic u = [] \/ seed u = seed_of H wst (mnemonic u) (passPhrase u)) /\
  (mnemonic u = [] /\ seed u = [] \/ root_of H (seed u) (bps u)) /\
  (rootKeyStr u = B58Serialize H (bps u) /\ keys_of H T (bps u) (derivationStr u) (tabs u) \/
   bps u = zero_key /\ undecodable H (rootKeyStr u) /\ mnemonic u = [] /\ seed u = []).

Lemma okp_ok u : I0 u -> exists t e, DeriveBIP32Result H T (bps u) (if PathIsValid (derivationPath u) then PathString (derivationPath u) else B "m") = Ret (t, e) /\
  I0 (set_tabs t (newsel (selected u) t) u) /\ onKeyPathChange H T u = Ret (set_tabs t (newsel (selected u) t) u).
Proof.
  intros (W & F & S1 & S2). destruct (Derive_total H T (bps u) (if PathIsValid (derivationPath u) then PathString (derivationPath u) else B "m") HP HT W) as (t & e & E & Ft).
  exists t, e. split; [exact E|]. split.
  - split; [exact W|]. split; [exact Ft|]. cbn [selected set_tabs tabs]. unfold newsel. destruct (selected u >=? Z.of_nat (length t)) eqn:C; rewrite Z.geb_leb in C; [apply Z.leb_le in C|apply Z.leb_gt in C]; lia.
  - unfold onKeyPathChange. cbv zeta. rewrite E. reflexivity.
Qed.
Lemma I0_ext u u' : bps u' = bps u -> tabs u' = tabs u -> selected u' = selected u -> I0 u -> I0 u'.
Proof. unfold I0. intros -> -> ->. auto. Qed.
Lemma rfs_ok u : I0 u -> derivationPath u = Formatted (derivationStr u) -> safe H (fun u' => exists k t, wf_key k /\ root_of H (seed u) k /\ keys_of H T k (derivationStr u) t /\
  u' = set_rootStr (B58Serialize H k) (set_tabs t (newsel (selected u) t) (set_root k u)) /\ I0 u') (rootFromSeed H T u).
Proof.
  intros HI HD. unfold rootFromSeed. pose proof (RootKey_safe H (seed u) HP) as RS. destruct (RootKeyFromSeed H (seed u)) as [[r e]|] eqn:ER; [|exact RS].
  destruct RS as (k & Ek & W). cbn [fst] in Ek. subst r. cbn [bind]. destruct HI as (_ & F & S1 & S2).
  destruct (okp_ok (set_root k u)) as (t & e' & E & I & EO); [split; [exact W|]; split; [exact F|]; split; [exact S1|exact S2]|].
  rewrite EO. cbn [bind safe]. exists k, t. split; [exact W|]. split; [exists e; exact ER|]. split.
  - exists e'. cbn [bps derivationPath set_root] in E. rewrite HD, eff_path in E. exact E.
  - split; [reflexivity|]. revert I. apply I0_ext; reflexivity.
Qed.

(** Each handler preserves the relations and says which fields agree with their variables afterwards. *)
(** In proofs; for examples/ui/one/main.go:91-104, 297-407. *)
Definition syncM u := mnemonicField u = mnemonic u.
(** In proofs; for examples/ui/one/main.go:91-104, 297-407. *)
Definition syncP u := passField u = passPhrase u.
(** In proofs; for examples/ui/one/main.go:91-104, 297-407. *)
Definition syncS u := seedField u = seed u.
(** In proofs; for examples/ui/one/main.go:91-104, 297-407. *)
Definition syncR u := rootField u = rootKeyStr u.
(** In proofs; for examples/ui/one/main.go:91-104, 297-407. *)
Definition syncD u := PathString (derivationField u) = PathString (derivationStr u).
(** In proofs; for examples/ui/one/main.go:91-104, 297-407. *)
Definition Inv u := I0 u /\ Rel u.

Lemma seedFrom_seed u : seed (seedFromMnemonic H wst u) = seed_of H wst (mnemonic u) (passPhrase u).
Proof. unfold seedFromMnemonic. cbn [seed set_seed]. apply seed_of_eq. exact HP. Qed.

Lemma gen_ok rd u : Inv u -> safe H (fun u' => Inv u' /\ syncM u' /\ (syncP u -> syncP u')) (onAutoCreateMnemonicClicked H T wst rd u).
Proof.
  intros [HI (HD & _)]. unfold onAutoCreateMnemonicClicked. cbv zeta.
  assert (G : exists m e, GenerateMnemonic H wst rd (fst (Atoi (radio u)) mod 256) = Ret (m, e)).
  { set (n := _ mod 256). destruct (in_dec Z.eq_dec n [12; 15; 18; 21; 24]) as [I|N].
    - destruct (GenerateMnemonic_ok H wl rd n HP HG HW I) as (e & m & E & _). exists m, None. exact E.
    - exists [], (Some ErrInvalidMnemonicWordsCount). apply GenerateMnemonic_bad. exact N. }
  destruct G as (m & e & ->). cbn [bind].
  eapply safe_impl; [|apply rfs_ok; [revert HI; apply I0_ext; reflexivity|exact HD]].
  intros u' (k & t & W & RO & KO & E & I). split; [split; [exact I|]|].
  - subst u'. split; [exact HD|]. split; [right; exact (seedFrom_seed (set_mnemonic m u))|]. split; [right; exact RO|]. left. split; [reflexivity|exact KO].
  - subst u'. split; [reflexivity|]. intros S. exact S.
Qed.
Lemma mnem_ok u : Inv u -> safe H (fun u' => Inv u' /\ syncM u' /\ (syncP u -> syncP u')) (onMnemonicChange H T wst u).
Proof.
  intros [HI (HD & _)]. unfold onMnemonicChange.
  eapply safe_impl; [|apply rfs_ok; [revert HI; apply I0_ext; reflexivity|exact HD]].
  intros u' (k & t & W & RO & KO & E & I). split; [split; [exact I|]|].
  - subst u'. split; [exact HD|]. split; [right; exact (seedFrom_seed (set_mnemonic (mnemonicField u) u))|]. split; [right; exact RO|]. left. split; [reflexivity|exact KO].
  - subst u'. split; [reflexivity|]. intros S. exact S.
Qed.
Lemma pass_ok u : Inv u -> safe H (fun u' => Inv u' /\ (syncM u -> syncM u') /\ syncP u') (onMnemonicPassphraseChange H T wst u).
Proof.
  intros [HI (HD & _)]. unfold onMnemonicPassphraseChange.
  eapply safe_impl; [|apply rfs_ok; [revert HI; apply I0_ext; reflexivity|exact HD]].
  intros u' (k & t & W & RO & KO & E & I). split; [split; [exact I|]|].
  - subst u'. split; [exact HD|]. split; [right; exact (seedFrom_seed (set_pass (passField u) u))|]. split; [right; exact RO|]. left. split; [reflexivity|exact KO].
  - subst u'. split; [|reflexivity]. intros S. exact S.
Qed.
Lemma seed_ok u : Inv u -> safe H (fun u' => Inv u' /\ syncM u' /\ (syncP u -> syncP u') /\ syncS u') (onSeedChange H T u).
Proof.
  intros [HI (HD & _)]. unfold onSeedChange.
  eapply safe_impl; [|apply rfs_ok; [revert HI; apply I0_ext; reflexivity|exact HD]].
  intros u' (k & t & W & RO & KO & E & I). split; [split; [exact I|]|].
  - subst u'. split; [exact HD|]. split; [left; reflexivity|]. split; [right; exact RO|]. left. split; [reflexivity|exact KO].
  - subst u'. split; [reflexivity|]. split; [intros S; exact S|reflexivity].
Qed.
Lemma root_ok u : Inv u -> safe H (fun u' => Inv u' /\ syncM u' /\ (syncP u -> syncP u') /\ syncS u' /\ syncR u') (onRootKeyStrChange H T u).
Proof.
  intros [HI (HD & _)]. unfold onRootKeyStrChange. cbv zeta. set (v := set_seed [] (set_mnemonic [] (set_rootStr (rootField u) u))).
  destruct (B58_total H (rootKeyStr v) HP) as (k & e & ED & W). rewrite ED. cbn [bind]. destruct HI as (_ & F & S1 & S2). destruct e as [e|].
  - cbn [safe]. split; [split|].
    + split; [apply zero_wf|]. split; [exact F|]. split; [exact S1|exact S2].
    + split; [exact HD|]. split; [left; reflexivity|]. split; [left; split; reflexivity|]. right. split; [reflexivity|]. split; [|split; reflexivity].
      intros k' C. change (rootKeyStr (set_root zero_key v)) with (rootKeyStr v) in C. rewrite ED in C. discriminate.
    + split; [reflexivity|]. split; [intros S; exact S|]. split; reflexivity.
  - destruct (okp_ok (set_root k v)) as (t & e' & E & I & EO); [split; [exact W|]; split; [exact F|]; split; [exact S1|exact S2]|].
    rewrite EO. cbn [bind safe]. split; [split; [revert I; apply I0_ext; reflexivity|]|].
    + split; [exact HD|]. split; [left; reflexivity|]. split; [left; split; reflexivity|]. left. split; [reflexivity|].
      exists e'. cbn [bps derivationPath set_root] in E. change (derivationPath v) with (derivationPath u) in E. rewrite HD, eff_path in E. exact E.
    + split; [reflexivity|]. split; [intros S; exact S|]. split; reflexivity.
Qed.
Lemma path_ok u : Inv u -> safe H (fun u' => Inv u' /\ (syncM u -> syncM u') /\ (syncP u -> syncP u') /\ (syncS u -> syncS u') /\ syncR u' /\ syncD u') (OnDerivationPathChange H T u).
Proof.
  intros [HI (HD & HM & HS & HR)]. unfold OnDerivationPathChange. set (v := set_path (derivationField u) (Formatted (derivationField u)) u).
  destruct (okp_ok v) as (t & e & E & I & EO); [revert HI; apply I0_ext; reflexivity|]. rewrite EO. cbn [bind safe]. split; [split; [revert I; apply I0_ext; reflexivity|]|].
  - split; [reflexivity|]. split; [exact HM|]. split; [exact HS|]. left. split; [reflexivity|].
    exists e. change (derivationPath v) with (Formatted (derivationField u)) in E. rewrite eff_path in E. exact E.
  - split; [intros S; exact S|]. split; [intros S; exact S|]. split; [intros S; exact S|]. split; reflexivity.
Qed.

(** In proofs; for examples/ui/one/main.go:91-104, 297-407. *)
Definition synced u := syncM u /\ syncP u /\ syncS u /\ syncR u /\ syncD u.
Lemma handlers_ok i u : Inv u -> safe H (fun u' => Inv u' /\ synced u') (handlers H T wst i u).
Proof.
  intros HI. unfold handlers. cbv zeta. set (u0 := set_path _ _ u).
  assert (H0 : Inv u0). { destruct HI as [HI (HD & HR)]. split; [revert HI; apply I0_ext; reflexivity|]. split; [reflexivity|exact HR]. }
  clearbody u0. clear u HI.
  apply (safe_bind H Inv). { unfold when. destruct (gen_click i); [|exact H0]. eapply safe_impl; [|apply gen_ok; exact H0]. cbv beta. tauto. }
  clear u0 H0. intros u HI. apply (safe_bind H (fun u => Inv u /\ syncM u)).
  { unfold when. destruct (bytes_eqb (mnemonicField u) (mnemonic u)) eqn:C; cbn [negb]. { apply bytes_eqb_spec in C. split; assumption. }
    eapply safe_impl; [|apply mnem_ok; exact HI]. cbv beta. tauto. }
  clear u HI. intros u [HI HM]. apply (safe_bind H (fun u => Inv u /\ syncM u /\ syncP u)).
  { unfold when. destruct (bytes_eqb (passField u) (passPhrase u)) eqn:C; cbn [negb]. { apply bytes_eqb_spec in C. repeat (split; [assumption|]); assumption. }
    eapply safe_impl; [|apply pass_ok; exact HI]. cbv beta. tauto. }
  clear u HI HM. intros u (HI & HM & HPs). apply (safe_bind H (fun u => Inv u /\ syncM u /\ syncP u /\ syncS u)).
  { unfold when. destruct (bytes_eqb (seedField u) (seed u)) eqn:C; cbn [negb]. { apply bytes_eqb_spec in C. repeat (split; [assumption|]); assumption. }
    eapply safe_impl; [|apply seed_ok; exact HI]. cbv beta. tauto. }
  clear u HI HM HPs. intros u (HI & HM & HPs & HS). apply (safe_bind H (fun u => Inv u /\ syncM u /\ syncP u /\ syncS u /\ syncR u)).
  { unfold when. destruct (bytes_eqb (rootKeyStr u) (rootField u)) eqn:C; cbn [negb]. { apply bytes_eqb_spec in C. repeat (split; [assumption|]). symmetry. assumption. }
    eapply safe_impl; [|apply root_ok; exact HI]. cbv beta. tauto. }
  clear u HI HM HPs HS. intros u (HI & HM & HPs & HS & HR).
  unfold when. destruct (bytes_eqb _ _) eqn:C; cbn [negb]. { apply bytes_eqb_spec in C. unfold synced. split; [assumption|]. repeat (split; [assumption|]). exact C. }
  eapply safe_impl; [|apply path_ok; exact HI]. cbv beta. unfold synced. tauto.
Qed.

(** ** Layout *)
(** In proofs; for examples/ui/one/main.go:91-104, 297-407. *)
Definition sel_only (u u' : ui) : Prop := u' = set_tabs (tabs u) (selected u') u.
Lemma sel_refl u : sel_only u u. Proof. unfold sel_only. destruct u; reflexivity. Qed.
Lemma sel_trans u v w : sel_only u v -> sel_only v w -> sel_only u w.
Proof. unfold sel_only. intros E1 E2. rewrite E1 in E2. exact E2. Qed.
(** In proofs; for examples/ui/one/main.go:91-104, 297-407. *)
Definition tight (u : ui) : Prop := -1 <= selected u <= Z.of_nat (length (tabs u)) - 1.
Lemma tabs_layout_ok l : forall u, tight u -> exists u', tabs_layout l u = Ret u' /\ sel_only u u' /\ tight u'.
Proof.
  induction l as [|i r IH]; intros u HI; cbn [tabs_layout].
  - exists u. split; [reflexivity|]. split; [apply sel_refl|exact HI].
  - destruct (Nat.ltb i (length (tabs u))) eqn:C; [|apply IH; exact HI]. apply Nat.ltb_lt in C. unfold tab_click.
    destruct (nth_error (tabs u) i) as [kp|] eqn:N; [|apply nth_error_None in N; lia]. cbn [bind].
    destruct (IH (set_tabs (tabs u) (Z.of_nat i) u)) as (u' & E & S & TI). { unfold tight. cbn [selected set_tabs tabs]. lia. }
    exists u'. split; [exact E|]. split; [|exact TI]. revert S. apply sel_trans. reflexivity.
Qed.
Lemma tab_bar_ok i u : I0 u -> exists u', tab_bar i u = Ret u' /\ sel_only u u' /\ I0 u'.
Proof.
  intros HI. pose proof HI as (W & F & S1 & S2). unfold tab_bar. destruct (length (tabs u)) as [|n] eqn:L.
  - exists u. split; [reflexivity|]. split; [apply sel_refl|exact HI].
  - cbn [Nat.eqb]. cbv zeta.
    set (u1 := if left_click i && (selected u >? 0) then _ else u).
    assert (T1 : sel_only u u1 /\ tight u1).
    { unfold u1. destruct (left_click i && (selected u >? 0)) eqn:C.
      - split; [reflexivity|]. unfold tight. cbn [selected set_tabs tabs]. apply andb_true_iff in C as [_ C]. rewrite Z.gtb_ltb in C. apply Z.ltb_lt in C. lia.
      - split; [apply sel_refl|]. unfold tight. rewrite L. lia. }
    clearbody u1. destruct T1 as [O1 T1].
    set (u2 := if right_click i && _ then _ else u1).
    assert (T2 : sel_only u u2 /\ tight u2).
    { unfold u2. destruct (right_click i && (selected u1 <? Z.of_nat (length (tabs u1)) - 1)) eqn:C.
      - split; [apply (sel_trans u u1); [exact O1|reflexivity]|]. unfold tight in *. cbn [selected set_tabs tabs]. apply andb_true_iff in C as [_ C]. apply Z.ltb_lt in C. lia.
      - split; assumption. }
    clearbody u2. destruct T2 as [O2 T2]. destruct (tabs_layout_ok (tab_clicks i) u2 T2) as (u' & E & O3 & T3). exists u'. split; [exact E|].
    pose proof (sel_trans _ _ _ O2 O3) as O. split; [exact O|]. unfold tight in T3. split; [rewrite O; exact W|]. split; [rewrite O; exact F|].
    split; [apply T3|]. lia.
Qed.
Lemma display_ok u : I0 u -> exists c, display H T u = Ret c /\
  ((c = None /\ (selected u < 0 \/ tabs u = [])) \/ exists kp l, 0 <= selected u /\ nth_error (tabs u) (Z.to_nat (selected u)) = Some kp /\ labels H T kp l /\ c = Some l).
Proof.
  intros (W & F & S1 & S2). unfold display. cbv zeta.
  destruct ((selected u <? Z.of_nat (length (tabs u))) && negb (Nat.eqb (length (tabs u)) 0) && (selected u >=? 0)) eqn:C; cbn [negb].
  - apply andb_true_iff in C as [C C3]. apply andb_true_iff in C as [C1 C2]. apply Z.ltb_lt in C1. rewrite Z.geb_leb in C3. apply Z.leb_le in C3.
    assert (selected u <? 0 = false) as -> by (apply Z.ltb_ge; exact C3). destruct (nth_error (tabs u) (Z.to_nat (selected u))) as [kp|] eqn:N.
    2:{ apply nth_error_None in N. lia. }
    assert (WK : wf_key (KKey kp)). { rewrite Forall_forall in F. apply F. apply nth_error_In in N. exact N. }
    destruct (C45_total_l H T (KKey kp) HP HT WK) as (a & EA & _). rewrite EA. cbn [bind]. eexists. split; [reflexivity|]. right.
    exists kp. eexists. split; [exact C3|]. split; [reflexivity|]. split; [exists a; split; [exact EA|reflexivity]|reflexivity].
  - exists None. split; [reflexivity|]. left. split; [reflexivity|]. destruct (tabs u) as [|t r] eqn:ET; [right; reflexivity|]. left.
    cbn [length Nat.eqb negb] in C. rewrite andb_true_r in C. apply andb_false_iff in C as [C|C]; [apply Z.ltb_ge in C; cbn [length] in S2; lia|].
    rewrite Z.geb_leb in C. apply Z.leb_gt in C. lia.
Qed.

(** What a frame shows. *)
(** In proofs; for examples/ui/one/main.go:91-104, 297-407. *)
Definition shows (u : ui) : Prop :=
  match screen u with
  | None => selected u < 0 \/ tabs u = []
  | Some l => exists kp, 0 <= selected u /\ nth_error (tabs u) (Z.to_nat (selected u)) = Some kp /\ labels H T kp l
  end.
Lemma Rel_sel u u' : sel_only u u' -> Rel u -> Rel u'.
Proof. intros O R. rewrite O. exact R. Qed.
Lemma synced_sel u u' : sel_only u u' -> synced u -> synced u'.
Proof. intros O R. rewrite O. exact R. Qed.
Lemma frame_ok i u : Inv u -> safe H (fun u' => Inv u' /\ synced u' /\ shows u') (frame H T wst i u).
Proof.
  intros HI. unfold frame. apply (safe_bind H (fun u' => Inv u' /\ synced u')); [apply handlers_ok; exact HI|].
  clear u HI. intros u [[HI HR] HS]. destruct (tab_bar_ok i u HI) as (u1 & -> & O & I1). cbn [bind].
  destruct (display_ok u1 I1) as (c & -> & D). cbn [bind safe]. apply (Rel_sel u u1 O) in HR. apply (synced_sel u u1 O) in HS.
  split; [split; [exact I1|exact HR]|]. split; [exact HS|]. unfold shows. cbn [screen set_screen tabs selected].
  destruct D as [[-> D]|(kp & l & A & N & L & ->)]; [exact D|]. exists kp. auto.
Qed.
Lemma step_ok u e : Inv u -> safe H Inv (step H T wst u e).
Proof. intros HI. destruct e; try exact HI. cbn [step]. eapply safe_impl; [|apply frame_ok; exact HI]. cbv beta. tauto. Qed.
Lemma run_ok es : forall u, Inv u -> safe H Inv (run H T wst u es).
Proof.
  induction es as [|e r IH]; intros u HI; cbn [run]; [exact HI|]. apply (safe_bind H Inv); [apply step_ok; exact HI|]. apply IH.
Qed.
Lemma Derive_zero p : DeriveBIP32Result H T zero_key p = Ret ([], Some ErrInvalidRootKey).
Proof. apply (C41_rejects_l H T zero_key p HP eq_refl). intros (_ & (x & I & N) & _). apply N. exact (repeat_spec _ _ _ I). Qed.
Lemma zero_String : B58Serialize H zero_key = []. Proof. reflexivity. Qed.
Lemma init_ok : Inv ui0.
Proof.
  split.
  - split; [apply zero_wf|]. split; [constructor|]. cbn. lia.
  - split; [reflexivity|]. split; [left; reflexivity|]. split; [left; split; reflexivity|]. left. split; [reflexivity|]. exists (Some ErrInvalidRootKey). apply Derive_zero.
Qed.
Lemma run_app es fs : forall u, run H T wst u (es ++ fs) = (let! v := run H T wst u es in run H T wst v fs).
Proof. induction es as [|e r IH]; intros u; [reflexivity|]. cbn [app run]. destruct (step H T wst u e) as [v|]; [|reflexivity]. cbn [bind]. apply IH. Qed.
(** After any session that ends with a frame. *)
Theorem session_ok es i : safe H (fun u => Inv u /\ synced u /\ shows u) (run H T wst ui0 (es ++ [Frame i])).
Proof.
  rewrite run_app. apply (safe_bind H Inv); [apply run_ok, init_ok|]. intros u HI. cbn [run step]. apply (safe_bind H (fun u => Inv u /\ synced u /\ shows u)); [apply frame_ok; exact HI|].
  intros x X. exact X.
Qed.
End INV.
