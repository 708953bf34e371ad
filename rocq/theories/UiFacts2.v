(** UiFacts2.v - what single edits and clicks do to the example program's state. *)
From Verif Require Import Base BaseFacts GoStr GoStrFacts Prims Secp Base58 Bip39 SpecBip39 UtilMnemonic UtilMnemonicFacts SpecPath SpecBip32 SpecUtil SpecUi.
From Verif Require Import Bip32Path Bip32Reg Bip32 Bip32RegFacts Bip32KeyFacts Bip32Facts Bip32PathFacts Util UtilFacts Claims32 ClaimsUtil Ui UiFacts.

Lemma when_same x y f u : x = y -> when (negb (bytes_eqb x y)) f u = Ret u.
Proof. intros ->. unfold when. rewrite bytes_eqb_refl. reflexivity. Qed.
Lemma when_diff x y f u : x <> y -> when (negb (bytes_eqb x y)) f u = f u.
Proof. intros N. apply bytes_eqb_neq in N. unfold when. rewrite N. reflexivity. Qed.
Lemma set_path_id u : derivationPath u = Formatted (derivationStr u) -> set_path (derivationStr u) (Formatted (derivationStr u)) u = u.
Proof. destruct u; cbn. intros <-. reflexivity. Qed.
Lemma safe_ret {A} H (P : A -> Prop) o x : safe H P o -> o = Ret x -> P x.
Proof. intros S ->. exact S. Qed.
Lemma bind_ret {A C} (o : outcome A) (f : A -> outcome C) x : bind o f = Ret x -> exists y, o = Ret y /\ f y = Ret x.
Proof. destruct o as [y|]; cbn; [|discriminate]. intros E. exists y. auto. Qed.

Section UI2.
Variables (H : Prims) (T : tables) (wl : list bytes).
Hypothesis HP : prims_ok H.
Hypothesis HT : after_init T.
Hypothesis HG : good_list wl.
Hypothesis HW : text_words wl.
Let wst := SetWordList wl.
Let Inv := Inv H T wl.

(** The handlers from the passphrase on, and all of them. *)
(** In proofs; for examples/ui/one/main.go:91-104, 297-407. *)
Definition from_root u :=
  let! u := when (negb (bytes_eqb (rootKeyStr u) (rootField u))) (onRootKeyStrChange H T) u in
  when (negb (bytes_eqb (PathString (derivationField u)) (PathString (derivationStr u)))) (OnDerivationPathChange H T) u.
(** In proofs; for examples/ui/one/main.go:91-104, 297-407. *)
Definition from_seed u := let! u := when (negb (bytes_eqb (seedField u) (seed u))) (onSeedChange H T) u in from_root u.
(** In proofs; for examples/ui/one/main.go:91-104, 297-407. *)
Definition from_pass u := let! u := when (negb (bytes_eqb (passField u) (passPhrase u))) (onMnemonicPassphraseChange H T wst) u in from_seed u.
(** In proofs; for examples/ui/one/main.go:91-104, 297-407. *)
Definition from_mnem u := let! u := when (negb (bytes_eqb (mnemonicField u) (mnemonic u))) (onMnemonicChange H T wst) u in from_pass u.
Lemma handlers_eq i u : derivationPath u = Formatted (derivationStr u) ->
  handlers H T wst i u = (let! u := when (gen_click i) (onAutoCreateMnemonicClicked H T wst (rand i)) u in from_mnem u).
Proof. intros E. unfold handlers. cbv zeta. rewrite set_path_id by exact E. reflexivity. Qed.

(** In proofs; for examples/ui/one/main.go:91-104, 297-407. *)
Definition dp_ok u := derivationPath u = Formatted (derivationStr u).
(** The last stage keeps everything but the path, the tabs and the root key text. *)
Lemma path_stage u u' : I0 u -> when (negb (bytes_eqb (PathString (derivationField u)) (PathString (derivationStr u)))) (OnDerivationPathChange H T) u = Ret u' ->
  mnemonicField u' = mnemonicField u /\ mnemonic u' = mnemonic u /\ seedField u' = seedField u /\ seed u' = seed u /\ bps u' = bps u /\ passField u' = passField u /\ passPhrase u' = passPhrase u.
Proof.
  intros HI. unfold when. destruct (negb _); [|intros E; injection E as <-; repeat split]. unfold OnDerivationPathChange.
  set (v := set_path _ _ u). destruct (okp_ok H T HP HT v) as (t & e & E & I & ->); [revert HI; apply I0_ext; reflexivity|]. cbn [bind]. intros E'. injection E' as <-. repeat split.
Qed.
Lemma from_root_synced u u' : I0 u -> syncR u -> from_root u = Ret u' ->
  mnemonicField u' = mnemonicField u /\ mnemonic u' = mnemonic u /\ seedField u' = seedField u /\ seed u' = seed u /\ bps u' = bps u /\ passField u' = passField u /\ passPhrase u' = passPhrase u.
Proof. intros HI HR. unfold from_root. rewrite when_same by (symmetry; exact HR). cbn [bind]. apply path_stage. exact HI. Qed.
Lemma from_seed_synced u u' : I0 u -> syncS u -> syncR u -> from_seed u = Ret u' ->
  mnemonicField u' = mnemonicField u /\ mnemonic u' = mnemonic u /\ seedField u' = seedField u /\ seed u' = seed u /\ bps u' = bps u /\ passField u' = passField u /\ passPhrase u' = passPhrase u.
Proof. intros HI HS HR. unfold from_seed. rewrite when_same by exact HS. cbn [bind]. apply from_root_synced; assumption. Qed.
Lemma from_pass_synced u u' : I0 u -> dp_ok u -> syncS u -> syncR u -> from_pass u = Ret u' ->
  mnemonicField u' = mnemonicField u /\ mnemonic u' = mnemonic u /\ passField u' = passField u.
Proof.
  intros HI HD HS HR E. unfold from_pass in E. destruct (list_eq_dec (fun a b => Byte.byte_eq_dec a b) (passField u) (passPhrase u)) as [EP|NP].
  - rewrite when_same in E by exact EP. cbn [bind] in E. apply from_seed_synced in E; [|assumption..]. tauto.
  - rewrite when_diff in E by exact NP. apply bind_ret in E as (v & E1 & E2). unfold onMnemonicPassphraseChange in E1.
    eapply safe_ret in E1; [|apply (rfs_ok H T HP HT); [revert HI; apply I0_ext; reflexivity|exact HD]]. destruct E1 as (k & t & W & RO & KO & E1 & I). subst v.
    apply from_seed_synced in E2; [|exact I|reflexivity..]. split; [|split]; etransitivity; [apply E2|reflexivity|apply E2|reflexivity|apply E2|reflexivity].
Qed.

Lemma gen_result i u u' : I0 u -> dp_ok u -> gen_click i = true -> handlers H T wst i u = Ret u' ->
  exists e, GenerateMnemonic H wst (rand i) (fst (Atoi (radio u)) mod 256) = Ret (mnemonicField u', e) /\ passField u' = passField u.
Proof.
  intros HI HD HC E. rewrite handlers_eq in E by exact HD. rewrite HC in E. cbn [when] in E. apply bind_ret in E as (v & E1 & E2).
  unfold onAutoCreateMnemonicClicked in E1. cbv zeta in E1. apply bind_ret in E1 as ([m e] & EG & E1).
  eapply safe_ret in E1; [|apply (rfs_ok H T HP HT); [revert HI; apply I0_ext; reflexivity|exact HD]]. destruct E1 as (k & t & W & RO & KO & E1 & I). subst v.
  unfold from_mnem in E2. rewrite when_same in E2 by reflexivity. cbn [bind] in E2. apply from_pass_synced in E2; [|exact I|exact HD|reflexivity..].
  exists e. rewrite EG. destruct E2 as (-> & _ & E2). split; [reflexivity|exact E2].
Qed.
Lemma mnem_result i u u' : I0 u -> dp_ok u -> gen_click i = false -> mnemonicField u <> mnemonic u -> handlers H T wst i u = Ret u' ->
  mnemonicField u' = mnemonicField u /\ passField u' = passField u.
Proof.
  intros HI HD HC HN E. rewrite handlers_eq in E by exact HD. rewrite HC in E. cbn [when bind] in E. unfold from_mnem in E. rewrite when_diff in E by exact HN.
  apply bind_ret in E as (v & E1 & E2). unfold onMnemonicChange in E1.
  eapply safe_ret in E1; [|apply (rfs_ok H T HP HT); [revert HI; apply I0_ext; reflexivity|exact HD]]. destruct E1 as (k & t & W & RO & KO & E1 & I). subst v.
  apply from_pass_synced in E2; [|exact I|exact HD|reflexivity..]. destruct E2 as (-> & _ & ->). split; reflexivity.
Qed.
Lemma seed_result i u u' : I0 u -> dp_ok u -> gen_click i = false -> syncM u -> syncP u -> seedField u <> seed u -> handlers H T wst i u = Ret u' ->
  mnemonicField u' = [] /\ seedField u' = seedField u /\ passField u' = passField u /\ root_of H (seedField u) (bps u').
Proof.
  intros HI HD HC HM HPs HN E. rewrite handlers_eq in E by exact HD. rewrite HC in E. cbn [when bind] in E. unfold from_mnem in E. rewrite when_same in E by exact HM. cbn [bind] in E.
  unfold from_pass in E. rewrite when_same in E by exact HPs. cbn [bind] in E. unfold from_seed in E. rewrite when_diff in E by exact HN.
  apply bind_ret in E as (v & E1 & E2). unfold onSeedChange in E1.
  eapply safe_ret in E1; [|apply (rfs_ok H T HP HT); [revert HI; apply I0_ext; reflexivity|exact HD]]. destruct E1 as (k & t & W & RO & KO & E1 & I). subst v.
  apply from_root_synced in E2; [|exact I|reflexivity]. destruct E2 as (-> & _ & -> & _ & -> & -> & _). split; [reflexivity|]. split; [reflexivity|]. split; [reflexivity|]. exact RO.
Qed.
(** The result of the root key handler. *)
Lemma root_handler u : I0 u -> dp_ok u -> exists u', onRootKeyStrChange H T u = Ret u' /\ I0 u' /\
  ((exists k t, B58Deserialize H (rootField u) = Ret (k, None) /\ keys_of H T k (derivationStr u) t /\
      u' = set_rootStr (B58Serialize H k) (set_tabs t (newsel (selected u) t) (set_root k (set_seed [] (set_mnemonic [] (set_rootStr (rootField u) u)))))) \/
   (undecodable H (rootField u) /\ u' = set_root zero_key (set_seed [] (set_mnemonic [] (set_rootStr (rootField u) u))))).
Proof.
  intros (W0 & F & S1 & S2) HD. unfold onRootKeyStrChange. cbv zeta. set (v := set_seed [] (set_mnemonic [] (set_rootStr (rootField u) u))).
  destruct (B58_total H (rootField u) HP) as (k & e & ED & W). change (rootKeyStr v) with (rootField u). rewrite ED. cbn [bind]. destruct e as [e|].
  - eexists. split; [reflexivity|]. split; [split; [apply zero_wf|]; split; [exact F|]; split; [exact S1|exact S2]|]. right. split; [|reflexivity]. intros k' C. congruence.
  - destruct (okp_ok H T HP HT (set_root k v)) as (t & e' & E & I & EO); [split; [exact W|]; split; [exact F|]; split; [exact S1|exact S2]|].
    rewrite EO. cbn [bind]. eexists. split; [reflexivity|]. split; [revert I; apply I0_ext; reflexivity|]. left. exists k, t. split; [reflexivity|]. split; [|reflexivity].
    exists e'. cbn [bps derivationPath set_root] in E. change (derivationPath v) with (derivationPath u) in E. rewrite HD, eff_path in E. exact E.
Qed.
Lemma root_result i u : I0 u -> dp_ok u -> gen_click i = false -> syncM u -> syncP u -> syncS u -> syncD u -> rootField u <> rootKeyStr u ->
  handlers H T wst i u = onRootKeyStrChange H T u.
Proof.
  intros HI HD HC HM HPs HS HDD HN. rewrite handlers_eq by exact HD. rewrite HC. cbn [when bind]. unfold from_mnem. rewrite when_same by exact HM. cbn [bind].
  unfold from_pass. rewrite when_same by exact HPs. cbn [bind]. unfold from_seed. rewrite when_same by exact HS. cbn [bind].
  unfold from_root. rewrite when_diff by congruence. destruct (root_handler u HI HD) as (v & EV & IV & D). rewrite EV. cbn [bind].
  apply when_same. destruct D as [(k & t & _ & _ & ->)|[_ ->]]; exact HDD.
Qed.
(** The empty seed gives the zero key and no tabs. *)
Lemma rfs_empty u : seed u = [] -> rootFromSeed H T u = Ret (set_rootStr [] (set_tabs [] (newsel (selected u) []) (set_root zero_key u))).
Proof.
  intros E. unfold rootFromSeed. rewrite E. change (RootKeyFromSeed H []) with (Ret (A := option bytes * option err) (Some zero_key, Some ErrInvalidBIP39Seed)). cbn [bind].
  unfold onKeyPathChange. cbv zeta. change (bps (set_root zero_key u)) with zero_key. rewrite (Derive_zero H T HP). reflexivity.
Qed.
Lemma pass_empty i u : I0 u -> dp_ok u -> gen_click i = false -> syncM u -> syncS u -> syncR u -> syncD u -> passField u <> passPhrase u ->
  seed_of H wst (mnemonic u) (passField u) = [] ->
  handlers H T wst i u = Ret (set_rootStr [] (set_tabs [] (newsel (selected u) []) (set_root zero_key (set_seed [] (set_pass (passField u) u))))).
Proof.
  intros HI HD HC HM HS HR HDD HN E0. rewrite handlers_eq by exact HD. rewrite HC. cbn [when bind]. unfold from_mnem. rewrite when_same by exact HM. cbn [bind].
  unfold from_pass. rewrite when_diff by exact HN. unfold onMnemonicPassphraseChange.
  assert (ES : seedFromMnemonic H wst (set_pass (passField u) u) = set_seed [] (set_pass (passField u) u)).
  { unfold seedFromMnemonic. f_equal. etransitivity; [apply (seed_of_eq H wst _ _ HP)|exact E0]. }
  rewrite ES, rfs_empty by reflexivity. cbn [bind]. unfold from_seed. rewrite when_same by reflexivity. cbn [bind]. unfold from_root. rewrite when_same by reflexivity. cbn [bind].
  apply when_same. exact HDD.
Qed.
Lemma mnem_empty i u : I0 u -> dp_ok u -> gen_click i = false -> syncP u -> syncD u -> mnemonicField u <> mnemonic u ->
  seed_of H wst (mnemonicField u) (passPhrase u) = [] ->
  handlers H T wst i u = Ret (set_rootStr [] (set_tabs [] (newsel (selected u) []) (set_root zero_key (set_seed [] (set_mnemonic (mnemonicField u) u))))).
Proof.
  intros HI HD HC HPs HDD HN E0. rewrite handlers_eq by exact HD. rewrite HC. cbn [when bind]. unfold from_mnem. rewrite when_diff by exact HN. unfold onMnemonicChange.
  assert (ES : seedFromMnemonic H wst (set_mnemonic (mnemonicField u) u) = set_seed [] (set_mnemonic (mnemonicField u) u)).
  { unfold seedFromMnemonic. f_equal. etransitivity; [apply (seed_of_eq H wst _ _ HP)|exact E0]. }
  rewrite ES, rfs_empty by reflexivity. cbn [bind]. unfold from_pass. rewrite when_same by exact HPs. cbn [bind]. unfold from_seed. rewrite when_same by reflexivity. cbn [bind].
  unfold from_root. rewrite when_same by reflexivity. cbn [bind]. apply when_same. exact HDD.
Qed.
Lemma path_result i u : I0 u -> dp_ok u -> gen_click i = false -> syncM u -> syncP u -> syncS u -> syncR u -> PathString (derivationField u) <> PathString (derivationStr u) ->
  exists t, keys_of H T (bps u) (derivationField u) t /\
    let u' := set_rootStr (B58Serialize H (bps u)) (set_tabs t (newsel (selected u) t) (set_path (derivationField u) (Formatted (derivationField u)) u)) in
    handlers H T wst i u = Ret u' /\ I0 u'.
Proof.
  intros HI HD HC HM HPs HS HR HN. rewrite handlers_eq by exact HD. rewrite HC. cbn [when bind]. unfold from_mnem. rewrite when_same by exact HM. cbn [bind].
  unfold from_pass. rewrite when_same by exact HPs. cbn [bind]. unfold from_seed. rewrite when_same by exact HS. cbn [bind].
  unfold from_root. rewrite when_same by (symmetry; exact HR). cbn [bind]. rewrite when_diff by exact HN. unfold OnDerivationPathChange.
  set (v := set_path _ _ u). destruct (okp_ok H T HP HT v) as (t & e & E & I & ->); [revert HI; apply I0_ext; reflexivity|]. cbn [bind]. exists t. split.
  - exists e. change (derivationPath v) with (Formatted (derivationField u)) in E. rewrite eff_path in E. exact E.
  - cbv zeta. split; [reflexivity|]. revert I. apply I0_ext; reflexivity.
Qed.
Lemma idle i u : dp_ok u -> gen_click i = false -> synced u -> handlers H T wst i u = Ret u.
Proof.
  intros HD HC (HM & HPs & HS & HR & HDD). rewrite handlers_eq by exact HD. rewrite HC. cbn [when bind]. unfold from_mnem, from_pass, from_seed, from_root.
  rewrite when_same by exact HM. cbn [bind]. rewrite when_same by exact HPs. cbn [bind]. rewrite when_same by exact HS. cbn [bind].
  rewrite when_same by (symmetry; exact HR). cbn [bind]. apply when_same. exact HDD.
Qed.

(** ** The selected index *)
Lemma okp_sel u u' : selected u < 0 -> onKeyPathChange H T u = Ret u' -> selected u' = selected u.
Proof.
  intros HN. unfold onKeyPathChange. cbv zeta. intros E. apply bind_ret in E as ([t e] & _ & E). injection E as <-. cbn [selected set_tabs].
  assert (selected u >=? Z.of_nat (length t) = false) as ->; [|reflexivity]. rewrite Z.geb_leb. apply Z.leb_gt. lia.
Qed.
Lemma rfs_sel u u' : selected u < 0 -> rootFromSeed H T u = Ret u' -> selected u' = selected u.
Proof.
  intros HN E. unfold rootFromSeed in E. apply bind_ret in E as ([[k|] e] & _ & E); [|discriminate]. apply bind_ret in E as (v & E1 & E2). injection E2 as <-.
  apply okp_sel in E1; [exact E1|exact HN].
Qed.
Lemma when_sel b f u u' : (forall u', f u = Ret u' -> selected u' = selected u) -> when b f u = Ret u' -> selected u' = selected u.
Proof. intros Hf. unfold when. destruct b; [apply Hf|]. intros E. injection E as <-. reflexivity. Qed.
Lemma handlers_sel i u u' : selected u < 0 -> handlers H T wst i u = Ret u' -> selected u' = selected u.
Proof.
  intros HN E. unfold handlers in E. cbv zeta in E. set (u0 := set_path _ _ u) in E. change (selected u) with (selected u0) in *. clearbody u0.
  apply bind_ret in E as (u1 & E1 & E). apply when_sel in E1.
  2:{ intros v. unfold onAutoCreateMnemonicClicked. cbv zeta. intros EV. apply bind_ret in EV as ([m e] & _ & EV). apply rfs_sel in EV; [exact EV|exact HN]. }
  rewrite <- E1 in *. clear u0 u E1. apply bind_ret in E as (u2 & E1 & E). apply when_sel in E1.
  2:{ intros v EV. apply rfs_sel in EV; [exact EV|exact HN]. }
  rewrite <- E1 in *. clear u1 E1. apply bind_ret in E as (u3 & E1 & E). apply when_sel in E1.
  2:{ intros v EV. apply rfs_sel in EV; [exact EV|exact HN]. }
  rewrite <- E1 in *. clear u2 E1. apply bind_ret in E as (u4 & E1 & E). apply when_sel in E1.
  2:{ intros v EV. apply rfs_sel in EV; [exact EV|exact HN]. }
  rewrite <- E1 in *. clear u3 E1. apply bind_ret in E as (u5 & E1 & E). apply when_sel in E1.
  2:{ intros v EV. unfold onRootKeyStrChange in EV. cbv zeta in EV. apply bind_ret in EV as ([k [e|]] & _ & EV); [injection EV as <-; reflexivity|].
      apply bind_ret in EV as (w & E2 & E3). injection E3 as <-. apply okp_sel in E2; [exact E2|exact HN]. }
  rewrite <- E1 in *. clear u4 E1. apply when_sel in E; [exact E|].
  intros v EV. unfold OnDerivationPathChange in EV. apply bind_ret in EV as (w & E2 & E3). injection E3 as <-. apply okp_sel in E2; [exact E2|exact HN].
Qed.
Lemma frame_sel i u u' : selected u < 0 -> right_click i = false -> tab_clicks i = [] -> frame H T wst i u = Ret u' -> selected u' = selected u /\ screen u' = None.
Proof.
  intros HN HR HC E. unfold frame in E. apply bind_ret in E as (u1 & E1 & E). apply handlers_sel in E1; [|exact HN].
  apply bind_ret in E as (u2 & E2 & E). assert (u2 = u1) as ->.
  { unfold tab_bar in E2. destruct (Nat.eqb _ 0); [injection E2 as <-; reflexivity|]. cbv zeta in E2. rewrite HR, HC in E2. cbn [andb tabs_layout] in E2.
    assert (selected u1 >? 0 = false) as C by (rewrite Z.gtb_ltb; apply Z.ltb_ge; lia). rewrite C, andb_false_r in E2. injection E2 as <-. reflexivity. }
  assert (D : display H T u1 = Ret None).
  { unfold display. cbv zeta. assert (selected u1 >=? 0 = false) as -> by (rewrite Z.geb_leb; apply Z.leb_gt; lia). rewrite andb_false_r. reflexivity. }
  rewrite D in E. cbn [bind] in E. injection E as <-. split; [exact E1|reflexivity].
Qed.
(** ** Frames *)
Lemma tabs_layout_nonneg l : forall u u', 0 <= selected u -> tabs_layout l u = Ret u' -> 0 <= selected u'.
Proof.
  induction l as [|i r IH]; intros u u' HN E; cbn [tabs_layout] in E; [injection E as <-; exact HN|].
  destruct (Nat.ltb i (length (tabs u))); [|apply IH in E; assumption]. apply bind_ret in E as (v & E1 & E2). apply IH in E2; [exact E2|].
  unfold tab_click in E1. destruct (nth_error _ _); [|discriminate]. injection E1 as <-. cbn. lia.
Qed.
Lemma tab_bar_nonneg i u u' : 0 <= selected u -> tab_bar i u = Ret u' -> 0 <= selected u'.
Proof.
  intros HN E. unfold tab_bar in E. destruct (Nat.eqb _ 0); [injection E as <-; exact HN|]. cbv zeta in E. revert E. apply tabs_layout_nonneg.
  set (u1 := if left_click i && _ then _ else u). assert (0 <= selected u1).
  { unfold u1. destruct (left_click i && (selected u >? 0)) eqn:C; [|exact HN]. apply andb_true_iff in C as [_ C]. rewrite Z.gtb_ltb in C. apply Z.ltb_lt in C. cbn [selected set_tabs]. lia. }
  clearbody u1. destruct (right_click i && _); [cbn [selected set_tabs]; lia|assumption].
Qed.
Lemma frame_split i u u' : Inv u -> frame H T wst i u = Ret u' -> exists u1, handlers H T wst i u = Ret u1 /\ Inv u1 /\ synced u1 /\
  u' = set_screen (screen u') (set_tabs (tabs u1) (selected u') u1).
Proof.
  intros HI E. unfold frame in E. apply bind_ret in E as (u1 & E1 & E). exists u1. split; [exact E1|].
  eapply safe_ret in E1; [|apply (handlers_ok H T wl HP HT HG HW); exact HI]. destruct E1 as [HI1 HS]. split; [exact HI1|]. split; [exact HS|].
  destruct (tab_bar_ok i u1 (proj1 HI1)) as (u2 & E2 & O & _). rewrite E2 in E. cbn [bind] in E. apply bind_ret in E as (c & E3 & E). injection E as <-.
  cbn [screen set_screen selected]. rewrite <- O. reflexivity.
Qed.
(** A frame whose handlers leave one tab, selected, shows it. *)
Lemma frame_one i u u1 kp : handlers H T wst i u = Ret u1 -> I0 u1 -> tabs u1 = [kp] -> selected u1 = 0 ->
  exists l, labels H T kp l /\ frame H T wst i u = Ret (set_screen (Some l) u1).
Proof.
  intros E HI HT1 HS1. unfold frame. rewrite E. cbn [bind]. destruct (tab_bar_ok i u1 HI) as (u2 & E2 & O & I2). rewrite E2. cbn [bind].
  assert (S2 : selected u2 = 0). { apply tab_bar_nonneg in E2; [|lia]. destruct I2 as (_ & _ & _ & B2). rewrite O in B2. cbn [tabs set_tabs selected] in B2. rewrite HT1 in B2. cbn in B2. lia. }
  assert (u2 = u1) as ->. { rewrite O, S2, <- HS1. destruct u1; reflexivity. }
  destruct (display_ok H T HP HT u1 I2) as (c & -> & [[_ [D|D]]|(kp' & l & _ & N & L & ->)]); [lia|congruence|]. cbn [bind].
  rewrite S2, HT1 in N. cbn in N. injection N as <-. exists l. split; [exact L|reflexivity].
Qed.
Lemma frame_none i u u1 : handlers H T wst i u = Ret u1 -> tabs u1 = [] -> frame H T wst i u = Ret (set_screen None u1).
Proof. intros E HT1. unfold frame. rewrite E. cbn [bind]. unfold tab_bar. rewrite HT1. cbn [length Nat.eqb bind]. unfold display. rewrite HT1. cbn [length Nat.eqb negb]. rewrite andb_false_r. reflexivity. Qed.
Lemma keys_m k t : root_key k -> keys_of H T k [] t -> t = [mkKP (B "m") k].
Proof.
  intros (W & NZ & H45 & H4) (e & E). destruct (Derive_spec H T k (B "m") HP HT W NZ H45 H4 [] eq_refl) as (kps & E' & L). inversion L. subst kps.
  change (path_of []) with (B "m") in E. rewrite E in E'. congruence.
Qed.
End UI2.
