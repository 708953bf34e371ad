(** ClaimsUi.v - the property statements of PropsUi.v with their proofs. *)
From Verif Require Import Base BaseFacts GoStr GoStrFacts HexFacts Prims Hash HashFacts Secp Base58 Base58Facts Bip39 SpecBip39 UtilMnemonic UtilMnemonicFacts WordLists WlEnglish AllLists SpecPath SpecBip32 SpecUtil SpecUi Bip32Path Bip32Reg Bip32 Bip32RegFacts Bip32KeyFacts Bip32Facts Bip32PathFacts Util UtilFacts Claims32 ClaimsUtil Claims39 Ui UiFacts UiFacts2.
From Coq Require Import ZifyBool ZifyNat ZifyN.

(** A session up to and including a frame, from the start of the program. *)
Lemma C_session H T wl es i u : prims_ok H -> after_init T -> good_list wl -> text_words wl -> run H T (SetWordList wl) ui0 (es ++ [Frame i]) = Ret u ->
  Inv H T wl u /\ synced u /\ shows H T u.
Proof. intros HP HT HG HW E. exact (safe_ret H _ _ u (session_ok H T wl HP HT HG HW es i) E). Qed.
Lemma bad_nonempty H s : bad_seed H s -> s <> [].
Proof. intros (b & D & L & _) ->. inversion D. subst b. cbn in L. lia. Qed.
Lemma bad_panics H s : prims_ok H -> bad_seed H s -> RootKeyFromSeed H s = Panic.
Proof. intros HP (b & D & L & M). exact (C40_panic_refuted_l H s b HP D L M). Qed.
Lemma b58_back H k : prims_ok H -> wf_key k -> k <> zero_key -> B58Deserialize H (B58Serialize H k) = Ret (k, None).
Proof. intros HP W N. apply (C15_roundtrip_l H k HP W N). Qed.
Lemma root_nz k : root_key k -> k <> zero_key.
Proof. intros (_ & (x & I & N) & _) ->. apply N. exact (repeat_spec _ _ _ I). Qed.
Lemma undec_len H s : prims_ok H -> length (Decode58 s) <> 82%nat -> undecodable H s.
Proof. intros HP N k E. unfold B58Deserialize in E. destruct (C16_deserialize_l H (Decode58 s) HP) as (k' & e & E' & _ & _ & A & _). rewrite (A N) in E'. rewrite E in E'. discriminate. Qed.
Lemma undec_nil H : prims_ok H -> undecodable H [].
Proof. intros HP. apply undec_len; [exact HP|discriminate]. Qed.
Lemma b58_nonempty H k : prims_ok H -> root_key k -> B58Serialize H k <> [].
Proof. intros HP R C. apply (undec_nil H HP k). rewrite <- C. apply b58_back; [exact HP|apply R|apply root_nz; exact R]. Qed.
Lemma empty_invalid H wst p : seed_of H wst [] p = []. Proof. reflexivity. Qed.
(** In proofs; for examples/ui/one/main.go:91-104, 297-407. *)
Definition quiet_frame : frame_in := mkFrame false [] false false [].
(** In proofs; for examples/ui/one/main.go:91-104, 297-407. *)
Definition k1 : bytes := xprv xprv_version x00 z4 z4 z32 1.
Lemma k1_root : root_key k1. Proof. apply xprv_root; [apply xv|apply one_ok]. Qed.
(** Typing a root key at the start. *)
Lemma type_root H T wl k i : prims_ok H -> after_init T -> good_list wl -> text_words wl -> root_key k -> gen_click i = false ->
  exists l u, run H T (SetWordList wl) ui0 [EditRoot (B58Serialize H k); Frame i] = Ret u /\ labels H T (mkKP (B "m") k) l /\
    u = set_screen (Some l) (set_rootStr (B58Serialize H k) (set_tabs [mkKP (B "m") k] 0 (set_root k ui0))).
Proof.
  intros HP HT HG HW R HC. cbn [run step bind]. set (u := mkUi _ _ _ _ _ _ _ _ _ _ _ _ _ _ _ _).
  assert (HI : I0 u) by exact (proj1 (init_ok H T wl HP)).
  pose proof (root_result H T wl HP HT i u HI eq_refl HC eq_refl eq_refl eq_refl eq_refl (b58_nonempty H k HP R)) as E.
  destruct (root_handler H T HP HT u HI eq_refl) as (v & EV & IV & [(k' & t & ED & KO & EV')|[U _]]).
  2:{ exfalso. apply (U k). apply b58_back; [exact HP|apply R|apply root_nz; exact R]. }
  change (rootField u) with (B58Serialize H k) in ED. rewrite b58_back in ED; [|exact HP|apply R|apply root_nz; exact R]. injection ED as <-.
  apply (keys_m H T HP HT) in KO; [|exact R]. subst t v. rewrite EV in E.
  destruct (frame_one H T wl HP HT i u _ (mkKP (B "m") k) E IV eq_refl eq_refl) as (l & L & F). rewrite F. cbn [bind].
  exists l. eexists. split; [reflexivity|]. split; [exact L|reflexivity].
Qed.

Lemma C54_no_panic_l : forall H T wl es, prims_ok H -> after_init T -> good_list wl -> text_words wl ->
  run H T (SetWordList wl) ui0 es = Panic -> exists s, bad_seed H s.
Proof.
intros H T wl es HP HT HG HW E. pose proof (run_ok H T wl HP HT HG HW es ui0 (init_ok H T wl HP)) as S. rewrite E in S. exact S.
Qed.

Lemma C54_in_range_l : forall H T wl es u, prims_ok H -> after_init T -> good_list wl -> text_words wl ->
  run H T (SetWordList wl) ui0 es = Ret u -> -1 <= selected u /\ selected u <= Z.max 0 (Z.of_nat (length (tabs u)) - 1).
Proof.
intros H T wl es u HP HT HG HW E. eapply safe_ret in E; [|apply (run_ok H T wl HP HT HG HW es ui0 (init_ok H T wl HP))]. destruct E as [(_ & _ & A) _]. exact A.
Qed.

Lemma C54_shown_l : forall H T wl es i u, prims_ok H -> after_init T -> good_list wl -> text_words wl ->
  run H T (SetWordList wl) ui0 (es ++ [Frame i]) = Ret u ->
  (forall l, screen u = Some l -> exists kp, 0 <= selected u < Z.of_nat (length (tabs u)) /\ nth_error (tabs u) (Z.to_nat (selected u)) = Some kp /\ labels H T kp l) /\
  (screen u = None -> selected u = -1 \/ tabs u = []).
Proof.
intros H T wl es i u HP HT HG HW E. apply C_session in E as ([(_ & _ & S1 & S2) _] & _ & S); [|assumption..]. unfold shows in S. split.
- intros l EL. rewrite EL in S. destruct S as (kp & A & N & L). exists kp. split; [|split; assumption]. assert (Z.to_nat (selected u) < length (tabs u))%nat by (apply nth_error_Some; congruence). lia.
- intros EN. rewrite EN in S. destruct S as [S|S]; [left; lia|right; exact S].
Qed.

Lemma C54_bad_seed_refuted_l : forall H T wl s i, prims_ok H -> after_init T -> good_list wl -> text_words wl -> bad_seed H s -> gen_click i = false ->
  run H T (SetWordList wl) ui0 [EditSeed s; Frame i] = Panic.
Proof.
intros H T wl s i HP HT HG HW BS HC. cbn [run step bind]. unfold frame, handlers. cbv zeta. rewrite HC. cbn [when bind].
set (u := set_path _ _ _). change (mnemonicField u) with (mnemonic u). rewrite when_same by reflexivity. cbn [bind]. rewrite when_same by reflexivity. cbn [bind].
rewrite when_diff by exact (bad_nonempty H s BS). unfold onSeedChange, rootFromSeed. change (seed (set_mnemonic [] (set_seed (seedField u) u))) with s.
rewrite (bad_panics H s HP BS). reflexivity.
Qed.

Lemma C54_ex_l : good_list english /\ text_words english /\ after_init T0 /\ (exists H s, prims_ok H /\ bad_seed H s) /\
(exists es u l, run RealPrims T0 (SetWordList english) ui0 (es ++ [Frame quiet_frame]) = Ret u /\ screen u = Some l) /\
(exists es u, run RealPrims T0 (SetWordList english) ui0 (es ++ [Frame quiet_frame]) = Ret u /\ screen u = None).
Proof.
split; [exact (proj1 english_list)|]. split; [exact (proj2 english_list)|]. split; [exact T0_ok|]. split; [|split].
- destruct C40_ex_l as (_ & _ & HX & (H & HP & M) & _). exists H, (repeat x30 32). split; [exact HP|]. exists (repeat x00 16). split; [exact HX|]. split; [cbn; lia|exact M].
- destruct (type_root RealPrims T0 english k1 quiet_frame real_prims_ok T0_ok (proj1 english_list) (proj2 english_list) k1_root eq_refl) as (l & u & E & _ & EU).
  exists [EditRoot (B58Serialize RealPrims k1)], u, l. split; [exact E|]. rewrite EU. reflexivity.
- exists []. eexists. split; [reflexivity|]. reflexivity.
Qed.

Lemma C55_fields_l : forall H T wl es i u, prims_ok H -> after_init T -> good_list wl -> text_words wl ->
  run H T (SetWordList wl) ui0 (es ++ [Frame i]) = Ret u ->
  mnemonicField u = mnemonic u /\ passField u = passPhrase u /\ seedField u = seed u /\ rootField u = rootKeyStr u /\
  PathString (derivationField u) = PathString (derivationStr u).
Proof.
intros H T wl es i u HP HT HG HW E. apply C_session in E as (_ & S & _); [|assumption..]. exact S.
Qed.

Lemma C55_root_text_l : forall H T wl es i u, prims_ok H -> after_init T -> good_list wl -> text_words wl ->
  run H T (SetWordList wl) ui0 (es ++ [Frame i]) = Ret u ->
  (rootField u = B58Serialize H (bps u) \/ undecodable H (rootField u) /\ bps u = repeat x00 78) /\
  (forall k, B58Deserialize H (rootField u) = Ret (k, None) -> bps u = k).
Proof.
intros H T wl es i u HP HT HG HW E. apply C_session in E as ([(W & _) (_ & _ & _ & R)] & (_ & _ & _ & S & _) & _); [|assumption..]. unfold syncR in S. rewrite S.
destruct R as [[R _]|(R & U & _)].
- split; [left; exact R|]. intros k ED. rewrite R in ED. destruct (list_eq_dec Byte.byte_eq_dec (bps u) zero_key) as [EZ|NZ].
  + rewrite EZ in ED. exfalso. exact (undec_nil H HP k ED).
  + rewrite b58_back in ED by assumption. congruence.
- split; [right; split; assumption|]. intros k ED. exfalso. exact (U k ED).
Qed.

Lemma C55_ex_l : (exists u, run RealPrims T0 (SetWordList english) ui0 ([EditRoot (B58Serialize RealPrims k1)] ++ [Frame quiet_frame]) = Ret u /\ rootField u = B58Serialize RealPrims k1 /\ bps u = k1) /\
undecodable RealPrims [].
Proof.
split; [|apply undec_nil; exact real_prims_ok].
destruct (type_root RealPrims T0 english k1 quiet_frame real_prims_ok T0_ok (proj1 english_list) (proj2 english_list) k1_root eq_refl) as (l & u & E & _ & EU).
exists u. split; [exact E|]. rewrite EU. split; reflexivity.
Qed.

Lemma C56_fresh_l : forall H T wl es i u, prims_ok H -> after_init T -> good_list wl -> text_words wl ->
  run H T (SetWordList wl) ui0 (es ++ [Frame i]) = Ret u ->
  keys_of H T (bps u) (derivationField u) (tabs u) \/ (bps u = repeat x00 78 /\ undecodable H (rootField u)).
Proof.
intros H T wl es i u HP HT HG HW E. apply C_session in E as ([(W & _) (_ & _ & _ & R)] & (_ & _ & _ & S & D) & _); [|assumption..]. unfold syncR, syncD in *.
destruct R as [[_ (e & R)]|(R & U & _)]; [left|right].
- exists e. rewrite (path_of_String H T (bps u) _ _ D). exact R.
- rewrite S. split; assumption.
Qed.

Lemma C56_stale_refuted_l : forall H T wl k s i j, prims_ok H -> after_init T -> good_list wl -> text_words wl -> root_key k -> undecodable H s -> gen_click i = false -> gen_click j = false ->
  exists u l, run H T (SetWordList wl) ui0 [EditRoot (B58Serialize H k); Frame i; EditRoot s; Frame j] = Ret u /\
    bps u = repeat x00 78 /\ rootField u = s /\ tabs u = [mkKP (B "m") k] /\ ~ keys_of H T (bps u) (derivationField u) (tabs u) /\
    screen u = Some l /\ nth_error l 1 = Some (B58Serialize H k) /\ nth_error l 3 = Some (PrivateKeyHex k).
Proof.
intros H T wl k s i j HP HT HG HW R U Hi Hj.
change [EditRoot (B58Serialize H k); Frame i; EditRoot s; Frame j] with ([EditRoot (B58Serialize H k); Frame i] ++ [EditRoot s; Frame j]).
rewrite (run_app H T wl). destruct (type_root H T wl k i HP HT HG HW R Hi) as (l0 & u0 & E0 & L0 & EU). 
assert (N : s <> B58Serialize H k). { intros ->. apply (U k). apply b58_back; [exact HP|apply R|apply root_nz; exact R]. }
pose proof (C_session H T wl [EditRoot (B58Serialize H k)] i u0 HP HT HG HW E0) as ([HI0 _] & _).
rewrite E0. cbn [bind run step]. set (u := mkUi _ _ _ _ _ _ _ _ _ _ _ _ _ _ _ _).
assert (HI : I0 u) by (revert HI0; apply I0_ext; reflexivity).
assert (E : handlers H T (SetWordList wl) j u = onRootKeyStrChange H T u).
{ apply (root_result H T wl HP HT); [exact HI|subst u0; reflexivity|exact Hj|subst u0; reflexivity..|]. unfold u. cbn [rootField rootKeyStr]. subst u0. exact N. }
assert (HD : dp_ok u) by (subst u0; reflexivity).
destruct (root_handler H T HP HT u HI HD) as (v & EV & IV & [(k' & t & ED & _)|[_ EV']]).
{ exfalso. exact (U k' ED). }
rewrite EV in E. assert (TV : tabs v = [mkKP (B "m") k]) by (rewrite EV'; subst u0; reflexivity).
destruct (frame_one H T wl HP HT j u v (mkKP (B "m") k) E IV TV) as (l & L & F). { rewrite EV'. subst u0. reflexivity. }
rewrite F. cbn [bind]. exists (set_screen (Some l) v), l. split; [reflexivity|].
split; [rewrite EV'; reflexivity|]. split; [rewrite EV'; reflexivity|]. split; [exact TV|]. split.
- intros (e & K). change (bps (set_screen (Some l) v)) with (bps v) in K. replace (bps v) with zero_key in K by (rewrite EV'; reflexivity).
  rewrite (Derive_zero H T HP) in K. injection K as K _. change (tabs (set_screen (Some l) v)) with (tabs v) in K. rewrite TV in K. discriminate.
- destruct L as (a & _ & ->). repeat split.
Qed.

Lemma C56_ex_l : root_key k1 /\ undecodable RealPrims (B "x") /\ (exists k s, root_key k /\ s <> [] /\ undecodable RealPrims s).
Proof.
assert (U : undecodable RealPrims (B "x")) by (apply undec_len; [exact real_prims_ok|vm_compute; discriminate]).
split; [exact k1_root|]. split; [exact U|]. exists k1, (B "x"). split; [exact k1_root|]. split; [discriminate|exact U].
Qed.

(** In proofs; for examples/ui/one/main.go:91-104, 297-407. *)
Definition no_select (e : event) : Prop := match e with Frame i => right_click i = false /\ tab_clicks i = [] | _ => True end.
Lemma run_sel H T wl es : forall u u', selected u < 0 -> Forall no_select es -> run H T (SetWordList wl) u es = Ret u' -> selected u' = selected u.
Proof.
  induction es as [|e r IH]; intros u u' HN HF E; [injection E as <-; reflexivity|]. cbn [run] in E. apply bind_ret in E as (v & E1 & E2). inversion HF as [|x y He HF']. subst.
  assert (S : selected v = selected u). { destruct e; cbn [step] in E1; try (injection E1 as <-; reflexivity). destruct He as [R C]. apply (frame_sel H T wl i u v HN R C E1). }
  apply IH in E2; [congruence|lia|exact HF'].
Qed.

Lemma C57_stays_lost_l : forall H T wl es u u', selected u < 0 -> Forall (fun e => match e with Frame i => right_click i = false /\ tab_clicks i = [] | _ => True end) es ->
  run H T (SetWordList wl) u es = Ret u' -> selected u' = selected u /\ (forall es' i, es = es' ++ [Frame i] -> screen u' = None).
Proof.
intros H T wl es u u' HN HF E. split; [exact (run_sel H T wl es u u' HN HF E)|]. intros es' i ->. rewrite (run_app H T wl) in E. apply bind_ret in E as (v & E1 & E2).
apply Forall_app in HF as [HF1 HF2]. apply Forall_inv in HF2. destruct HF2 as [R C]. cbn [run step] in E2. apply bind_ret in E2 as (w & E2 & E3). injection E3 as <-.
apply (run_sel H T wl es' u v HN HF1) in E1. apply (frame_sel H T wl i v w) in E2; [apply E2|lia|exact R|exact C].
Qed.

Lemma C57_lost_refuted_l : forall H T wl m k i j, prims_ok H -> after_init T -> good_list wl -> text_words wl -> root_key k -> m <> [] -> IsMnemonicValid H (SetWordList wl) m = false ->
  gen_click i = false -> gen_click j = false -> right_click j = false -> tab_clicks j = [] ->
  exists u, run H T (SetWordList wl) ui0 [EditMnemonic m; Frame i; EditRoot (B58Serialize H k); Frame j] = Ret u /\
    bps u = k /\ rootField u = B58Serialize H k /\ tabs u = [mkKP (B "m") k] /\ selected u = -1 /\ screen u = None.
Proof.
intros H T wl m k i j HP HT HG HW R NM IV Hi Hj Rj Cj. cbn [run step bind]. set (u := mkUi _ _ _ _ _ _ _ _ _ _ _ _ _ _ _ _).
assert (HI : I0 u) by exact (proj1 (init_ok H T wl HP)).
assert (SO : seed_of H (SetWordList wl) (mnemonicField u) (passPhrase u) = []) by (unfold seed_of, u; cbn [mnemonicField]; rewrite IV; reflexivity).
pose proof (mnem_empty H T wl HP i u HI eq_refl Hi eq_refl eq_refl NM SO) as E. rewrite (frame_none H T wl i u _ E eq_refl). cbn [bind].
set (v := mkUi _ _ _ _ _ _ _ _ _ _ _ _ _ _ _ _). 
assert (HIv : I0 v). { split; [apply zero_wf|]. split; [constructor|]. cbn. lia. }
pose proof (root_result H T wl HP HT j v HIv eq_refl Hj eq_refl eq_refl eq_refl eq_refl (b58_nonempty H k HP R)) as Ej.
destruct (root_handler H T HP HT v HIv eq_refl) as (w & EV & IW & [(k' & t & ED & KO & EW)|[U _]]).
2:{ exfalso. apply (U k). apply b58_back; [exact HP|apply R|apply root_nz; exact R]. }
change (rootField v) with (B58Serialize H k) in ED. rewrite b58_back in ED; [|exact HP|apply R|apply root_nz; exact R]. injection ED as <-.
apply (keys_m H T HP HT) in KO; [|exact R]. subst t. rewrite EV in Ej.
destruct (tab_bar_ok j w IW) as (w2 & E2 & O & I2). destruct (display_ok H T HP HT w2 I2) as (c & Ec & _).
assert (EF : frame H T (SetWordList wl) j v = Ret (set_screen c w2)). { unfold frame. rewrite Ej. cbn [bind]. rewrite E2. cbn [bind]. rewrite Ec. reflexivity. }
pose proof (frame_sel H T wl j v _ (eq_refl : selected v < 0) Rj Cj EF) as [S1 S2]. cbn [selected set_screen screen] in S1, S2. subst c.
rewrite EF. cbn [bind]. eexists. split; [reflexivity|]. cbn [bps set_screen rootField tabs selected screen].
split; [rewrite O, EW; reflexivity|]. split; [rewrite O, EW; reflexivity|]. split; [rewrite O, EW; reflexivity|]. split; [exact S1|reflexivity].
Qed.

Lemma C57_right_arrow_recovers_l : forall H T wl es i u j, prims_ok H -> after_init T -> good_list wl -> text_words wl ->
  run H T (SetWordList wl) ui0 (es ++ [Frame i]) = Ret u -> selected u = -1 -> tabs u <> [] ->
  gen_click j = false -> left_click j = false -> right_click j = true -> tab_clicks j = [] ->
  exists u' kp l, run H T (SetWordList wl) u [Frame j] = Ret u' /\ selected u' = 0 /\ nth_error (tabs u) 0 = Some kp /\ labels H T kp l /\ screen u' = Some l.
Proof.
intros H T wl es i u j HP HT HG HW E S N Gj Lj Rj Cj. apply C_session in E as ([HI (HD & _)] & SY & _); [|assumption..]. cbn [run step].
unfold frame. rewrite (idle H T wl j u HD Gj SY). cbn [bind]. destruct (tabs u) as [|kp r] eqn:ET; [contradiction|].
set (u1 := set_tabs (tabs u) 0 u). assert (EB : tab_bar j u = Ret u1).
{ unfold tab_bar. rewrite Lj, Rj, Cj, ET, S. cbn [length Nat.eqb andb tabs_layout]. cbv zeta. rewrite S, ET.
  assert (-1 <? Z.of_nat (length (kp :: r)) - 1 = true) as -> by (apply Z.ltb_lt; cbn [length]; lia). unfold u1. rewrite ET. reflexivity. }
rewrite EB. cbn [bind]. assert (I1 : I0 u1). { destruct HI as (A & B1 & C & D). split; [exact A|]. split; [exact B1|]. cbn [selected set_tabs tabs u1]. lia. }
destruct (display_ok H T HP HT u1 I1) as (c & -> & [[_ [D|D]]|(kp' & l & _ & NT & L & ->)]); [cbn in D; lia|cbn in D; congruence|]. cbn [bind].
exists (set_screen (Some l) u1), kp, l. split; [reflexivity|]. split; [reflexivity|]. split; [reflexivity|]. cbn [tabs set_tabs u1 selected] in NT. rewrite ET in NT. cbn in NT. injection NT as <-. split; [exact L|reflexivity].
Qed.

Lemma C57_ex_l : IsMnemonicValid RealPrims (SetWordList english) (B "abandon") = false /\
(exists u, run RealPrims T0 (SetWordList english) ui0 ([EditMnemonic (B "abandon"); Frame quiet_frame; EditRoot (B58Serialize RealPrims k1)] ++ [Frame quiet_frame]) = Ret u /\ selected u = -1 /\ tabs u <> []).
Proof.
assert (IV : IsMnemonicValid RealPrims (SetWordList english) (B "abandon") = false) by reflexivity.
split; [exact IV|].
destruct (C57_lost_refuted_l RealPrims T0 english (B "abandon") k1 quiet_frame quiet_frame real_prims_ok T0_ok (proj1 english_list) (proj2 english_list) k1_root ltac:(discriminate) IV eq_refl eq_refl eq_refl eq_refl) as (u & E & _ & _ & ET & ES & _).
exists u. split; [exact E|]. split; [exact ES|]. rewrite ET. discriminate.
Qed.

Lemma C67_wallet_l : forall H T wl es i u, prims_ok H -> after_init T -> good_list wl -> text_words wl ->
  run H T (SetWordList wl) ui0 (es ++ [Frame i]) = Ret u ->
  (mnemonicField u <> [] -> seedField u = seed_of H (SetWordList wl) (mnemonicField u) (passField u)) /\
  (seedField u <> [] -> root_of H (seedField u) (bps u)) /\
  (undecodable H (rootField u) -> rootField u <> [] -> mnemonicField u = [] /\ seedField u = []).
Proof.
intros H T wl es i u HP HT HG HW E. apply C_session in E as ([(W & _) (_ & M & SR & R)] & (S1 & S2 & S3 & S4 & _) & _); [|assumption..]. unfold syncM, syncP, syncS, syncR in *.
rewrite S1, S2, S3, S4. split; [intros N; destruct M as [M|M]; [contradiction|exact M]|]. split; [intros N; destruct SR as [[_ SR]|SR]; [contradiction|exact SR]|].
intros U N. destruct R as [[R _]|(_ & _ & A)]; [|exact A]. destruct (list_eq_dec Byte.byte_eq_dec (bps u) zero_key) as [EZ|NZ].
- exfalso. apply N. rewrite R, EZ. reflexivity.
- exfalso. apply (U (bps u)). rewrite R. apply b58_back; assumption.
Qed.

Lemma C67_invalid_mnemonic_l : forall H T wl es i u, prims_ok H -> after_init T -> good_list wl -> text_words wl ->
  run H T (SetWordList wl) ui0 (es ++ [Frame i]) = Ret u -> mnemonicField u <> [] -> IsMnemonicValid H (SetWordList wl) (mnemonicField u) = false ->
  seedField u = [] /\ bps u = repeat x00 78 /\ rootField u = [] /\ tabs u = [] /\ screen u = None.
Proof.
intros H T wl es i u HP HT HG HW E N IV. apply C_session in E as ([(W & _) (_ & M & SR & R)] & (S1 & S2 & S3 & S4 & _) & SH); [|assumption..]. unfold syncM, syncP, syncS, syncR in *.
rewrite S1 in *. destruct M as [M|M]; [contradiction|]. unfold seed_of in M. rewrite IV in M. rewrite S3, S4. split; [exact M|].
destruct SR as [[SR _]|(e & SR)]; [contradiction|]. rewrite M in SR. change (RootKeyFromSeed H []) with (Ret (A := option bytes * option err) (Some zero_key, Some ErrInvalidBIP39Seed)) in SR.
assert (EB : bps u = zero_key) by congruence. split; [exact EB|]. destruct R as [[R1 (e' & R2)]|(_ & _ & C & _)]; [|contradiction]. rewrite EB in *. split; [exact R1|].
rewrite (Derive_zero H T HP) in R2. assert (ET : tabs u = []) by congruence. split; [exact ET|]. unfold shows in SH. destruct (screen u); [|reflexivity]. destruct SH as (kp & _ & C & _). rewrite ET in C. destruct (Z.to_nat (selected u)); discriminate.
Qed.

Lemma C69_generate_l : forall H T wl es u i u' n, prims_ok H -> after_init T -> good_list wl -> text_words wl ->
  run H T (SetWordList wl) ui0 es = Ret u -> In n [12; 15; 18; 21; 24] -> radio u = Itoa n -> gen_click i = true -> run H T (SetWordList wl) u [Frame i] = Ret u' ->
  exists e, Z.of_nat (length (Fields (mnemonicField u'))) = n /\ Z.of_nat (length e) = n * 4 / 3 /\
    EntropyFromMnemonic H (SetWordList wl) (mnemonicField u') = (e, None) /\ ((length e <= length (rand i))%nat -> e = firstn (length e) (rand i)) /\
    passField u' = passField u /\ seedField u' = HexEncode (NewSeed H (mnemonicField u') (passField u)).
Proof.
intros H T wl es u i u' n HP HT HG HW E Hn ER HC E'. assert (HI : Inv H T wl u). { eapply safe_ret in E; [|apply (run_ok H T wl HP HT HG HW es ui0 (init_ok H T wl HP))]. exact E. }
assert (ES : run H T (SetWordList wl) ui0 (es ++ [Frame i]) = Ret u') by (rewrite (run_app H T wl), E; exact E').
cbn [run step] in E'. apply bind_ret in E' as (v & E' & EV). injection EV as ->.
apply (frame_split H T wl HP HT HG HW) in E' as (u1 & E1 & _ & _ & EU); [|exact HI].
apply (gen_result H T wl HP HT) in E1 as (e & EG & EP); [|apply HI|apply HI|exact HC].
assert (EA : fst (Atoi (radio u)) mod 256 = n). { rewrite ER. clear - Hn. simpl in Hn. destruct Hn as [<-|[<-|[<-|[<-|[<-|[]]]]]]; reflexivity. }
rewrite EA in EG. destruct (GenerateMnemonic_ok H wl (rand i) n HP HG HW Hn) as (ent & m & EM & A1 & A2 & A3 & A4 & A5). rewrite EG in EM. injection EM as EM _.
assert (F1 : mnemonicField u' = m) by (rewrite EU; exact EM). assert (F2 : passField u' = passField u) by (rewrite EU; exact EP).
exists ent. rewrite F1, F2. split; [exact A1|]. split; [exact A2|]. split; [exact A3|]. split; [exact A5|]. split; [reflexivity|].
destruct (C67_wallet_l H T wl es i u' HP HT HG HW ES) as (W1 & _). rewrite F1, F2 in W1. rewrite W1; [unfold seed_of; rewrite A4; reflexivity|].
intros C. rewrite C in A1. change (Z.of_nat (length (Fields []))) with 0 in A1. clear - A1 Hn. simpl in Hn. lia.
Qed.

Lemma C69_first_click_l : forall H T wl i u, prims_ok H -> after_init T -> good_list wl -> text_words wl -> gen_click i = true -> run H T (SetWordList wl) ui0 [Frame i] = Ret u ->
  exists e, length (Fields (mnemonicField u)) = 12%nat /\ length e = 16%nat /\ EntropyFromMnemonic H (SetWordList wl) (mnemonicField u) = (e, None) /\
    ((16 <= length (rand i))%nat -> e = firstn 16 (rand i)) /\ seedField u = HexEncode (NewSeed H (mnemonicField u) []).
Proof.
intros H T wl i u HP HT HG HW HC E. destruct (C69_generate_l H T wl [] ui0 i u 12 HP HT HG HW eq_refl (or_introl eq_refl) eq_refl HC E) as (e & A1 & A2 & A3 & A4 & A5 & A6).
exists e. change (12 * 4 / 3) with 16 in A2. assert (L : length e = 16%nat) by lia. rewrite L in A4. split; [lia|]. split; [exact L|]. split; [exact A3|]. split; [exact A4|]. exact A6.
Qed.

(** In proofs; for examples/ui/one/main.go:91-104, 297-407. *)
Definition okP : Prims := constP (ILbytes 1).
Lemma okP_ok : prims_ok okP. Proof. apply constP_ok, ILbytes_length. Qed.
Lemma okP_master seed : exists kc, master okP seed = Some kc.
Proof. unfold master. cbv zeta. change (I_master okP seed) with (ILbytes 1). rewrite IL_ILbytes by lia. eexists. reflexivity. Qed.
Lemma okP_no_bad s : ~ bad_seed okP s.
Proof. intros (b & _ & _ & M). rewrite (NewMasterKey_spec okP b okP_ok) in M. destruct (okP_master b) as ([k c] & E). rewrite E in M. discriminate. Qed.
(** In proofs; for examples/ui/one/main.go:91-104, 297-407. *)
Definition gen_frame : frame_in := mkFrame true (repeat x00 16) false false [].
Lemma gen_session : exists u, run okP T0 (SetWordList english) ui0 [Frame gen_frame] = Ret u /\ mnemonicField u <> [] /\ seedField u <> [].
Proof.
  pose proof (run_ok okP T0 english okP_ok T0_ok (proj1 english_list) (proj2 english_list) [Frame gen_frame] ui0 (init_ok okP T0 english okP_ok)) as S.
  destruct (run okP T0 (SetWordList english) ui0 [Frame gen_frame]) as [u|] eqn:E.
  2:{ destruct S as (s & S). exfalso. exact (okP_no_bad s S). }
  destruct (C69_generate_l okP T0 english [] ui0 gen_frame u 12 okP_ok T0_ok (proj1 english_list) (proj2 english_list) eq_refl (or_introl eq_refl) eq_refl eq_refl E) as (e & A1 & _ & _ & _ & _ & A2).
  exists u. split; [reflexivity|]. split; [intros C; rewrite C in A1; discriminate|]. rewrite A2. intros C. 
  apply (f_equal (@length byte)) in C. rewrite HexEncode_length, (proj1 (seed_gating okP (SetWordList english) _ _ okP_ok)) in C. discriminate.
Qed.

Lemma C69_ex_l : exists H, prims_ok H /\ (forall s, ~ bad_seed H s) /\
(exists u, run H T0 (SetWordList english) ui0 [Frame gen_frame] = Ret u /\ mnemonicField u <> [] /\ seedField u <> []) /\
(exists u, run H T0 (SetWordList english) ui0 ([EditMnemonic (B "abandon")] ++ [Frame quiet_frame]) = Ret u /\ mnemonicField u <> [] /\ IsMnemonicValid H (SetWordList english) (mnemonicField u) = false) /\
radio ui0 = Itoa 12 /\ (exists u, run H T0 (SetWordList english) ui0 ([EditRoot (B "x")] ++ [Frame quiet_frame]) = Ret u /\ rootField u = B "x" /\ undecodable H (rootField u)).
Proof.
assert (UX : undecodable okP (B "x")) by (apply undec_len; [exact okP_ok|vm_compute; discriminate]).
exists okP. split; [exact okP_ok|]. split; [exact okP_no_bad|]. split; [exact gen_session|]. split; [|split; [reflexivity|]].
- cbn [app run step bind]. set (u := mkUi _ _ _ _ _ _ _ _ _ _ _ _ _ _ _ _). assert (HI : I0 u) by exact (proj1 (init_ok okP T0 english okP_ok)).
  pose proof (mnem_empty okP T0 english okP_ok quiet_frame u HI eq_refl eq_refl eq_refl eq_refl ltac:(discriminate) eq_refl) as E. rewrite (frame_none okP T0 english quiet_frame u _ E eq_refl). cbn [bind].
  eexists. split; [reflexivity|]. split; [discriminate|]. reflexivity.
- cbn [app run step bind]. set (u := mkUi _ _ _ _ _ _ _ _ _ _ _ _ _ _ _ _). assert (HI : I0 u) by exact (proj1 (init_ok okP T0 english okP_ok)).
  pose proof (root_result okP T0 english okP_ok T0_ok quiet_frame u HI eq_refl eq_refl eq_refl eq_refl eq_refl eq_refl ltac:(discriminate)) as E.
  destruct (root_handler okP T0 okP_ok T0_ok u HI eq_refl) as (v & EV & IV & [(k' & t & ED & _)|[_ EV']]); [exfalso; exact (UX k' ED)|]. rewrite EV in E.
  rewrite (frame_none okP T0 english quiet_frame u v E) by (rewrite EV'; reflexivity). cbn [bind]. eexists. split; [reflexivity|]. rewrite EV'. split; [reflexivity|]. exact UX.
Qed.

Lemma C68_wiped_refuted_l : forall H T wl es i u p j, prims_ok H -> after_init T -> good_list wl -> text_words wl ->
  run H T (SetWordList wl) ui0 (es ++ [Frame i]) = Ret u -> mnemonicField u = [] -> p <> passField u -> gen_click j = false ->
  exists u', run H T (SetWordList wl) u [EditPass p; Frame j] = Ret u' /\
    bps u' = repeat x00 78 /\ seedField u' = [] /\ rootField u' = [] /\ tabs u' = [] /\ screen u' = None.
Proof.
intros H T wl es i u p j HP HT HG HW E EM NP Hj. apply C_session in E as ([HI (HD & _)] & (S1 & S2 & S3 & S4 & S5) & _); [|assumption..]. cbn [run step bind].
set (v := mkUi _ _ _ _ _ _ _ _ _ _ _ _ _ _ _ _). assert (HIv : I0 v) by (revert HI; apply I0_ext; reflexivity).
assert (EH := pass_empty H T wl HP j v HIv HD Hj S1 S3 S4 S5). unfold syncM, syncP in *. change (passField v) with p in EH. change (passPhrase v) with (passPhrase u) in EH. change (mnemonic v) with (mnemonic u) in EH.
rewrite <- S1, EM in EH. specialize (EH ltac:(congruence) (empty_invalid H (SetWordList wl) p)).
rewrite (frame_none H T wl j v _ EH eq_refl). cbn [bind]. eexists. split; [reflexivity|]. repeat split.
Qed.

Lemma C68_ex_l : exists u, run RealPrims T0 (SetWordList english) ui0 ([EditRoot (B58Serialize RealPrims k1)] ++ [Frame quiet_frame]) = Ret u /\ mnemonicField u = [] /\ B "x" <> passField u /\ bps u = k1 /\ tabs u <> [].
Proof.
destruct (type_root RealPrims T0 english k1 quiet_frame real_prims_ok T0_ok (proj1 english_list) (proj2 english_list) k1_root eq_refl) as (l & u & E & _ & EU).
exists u. split; [exact E|]. rewrite EU. split; [reflexivity|]. split; [discriminate|]. split; [reflexivity|discriminate].
Qed.

Lemma C70_mnemonic_l : forall H T wl es u m j u', prims_ok H -> after_init T -> good_list wl -> text_words wl ->
  run H T (SetWordList wl) ui0 es = Ret u -> m <> mnemonic u -> gen_click j = false -> run H T (SetWordList wl) u [EditMnemonic m; Frame j] = Ret u' ->
  mnemonicField u' = m /\ passField u' = passField u.
Proof.
intros H T wl es u m j u' HP HT HG HW E NM Hj E'. assert (HI : Inv H T wl u). { eapply safe_ret in E; [|apply (run_ok H T wl HP HT HG HW es ui0 (init_ok H T wl HP))]. exact E. }
cbn [run step bind] in E'. apply bind_ret in E' as (w & E' & EV). injection EV as ->. set (v := mkUi _ _ _ _ _ _ _ _ _ _ _ _ _ _ _ _) in E'.
assert (HIv : Inv H T wl v) by exact HI. apply (frame_split H T wl HP HT HG HW) in E' as (u1 & E1 & _ & _ & EU); [|exact HIv].
apply (mnem_result H T wl HP HT) in E1 as (A1 & A2); [|apply HIv|apply HIv|exact Hj|exact NM]. rewrite EU. split; [exact A1|exact A2].
Qed.

Lemma C70_seed_l : forall H T wl es i u s j u', prims_ok H -> after_init T -> good_list wl -> text_words wl ->
  run H T (SetWordList wl) ui0 (es ++ [Frame i]) = Ret u -> s <> seedField u -> gen_click j = false -> run H T (SetWordList wl) u [EditSeed s; Frame j] = Ret u' ->
  seedField u' = s /\ mnemonicField u' = [] /\ passField u' = passField u /\ root_of H s (bps u').
Proof.
intros H T wl es i u s j u' HP HT HG HW E NS Hj E'. apply C_session in E as (HI & (S1 & S2 & S3 & S4 & S5) & _); [|assumption..].
cbn [run step bind] in E'. apply bind_ret in E' as (w & E' & EV). injection EV as ->. set (v := mkUi _ _ _ _ _ _ _ _ _ _ _ _ _ _ _ _) in E'.
assert (HIv : Inv H T wl v) by exact HI. apply (frame_split H T wl HP HT HG HW) in E' as (u1 & E1 & _ & _ & EU); [|exact HIv].
apply (seed_result H T wl HP HT) in E1 as (A1 & A2 & A3 & A4); [|apply HIv|apply HIv|exact Hj|exact S1|exact S2|]. 2:{ unfold syncS in S3. cbn. congruence. }
rewrite EU. split; [exact A2|]. split; [exact A1|]. split; [exact A3|]. exact A4.
Qed.

Lemma C70_root_l : forall H T wl es i u s k j, prims_ok H -> after_init T -> good_list wl -> text_words wl ->
  run H T (SetWordList wl) ui0 (es ++ [Frame i]) = Ret u -> B58Deserialize H s = Ret (k, None) -> s <> rootField u -> gen_click j = false ->
  exists u', run H T (SetWordList wl) u [EditRoot s; Frame j] = Ret u' /\ bps u' = k /\ rootField u' = B58Serialize H k /\ mnemonicField u' = [] /\ seedField u' = [] /\
    passField u' = passField u /\ keys_of H T k (derivationField u') (tabs u').
Proof.
intros H T wl es i u s k j HP HT HG HW E ED NS Hj. apply C_session in E as (HI & (S1 & S2 & S3 & S4 & S5) & _); [|assumption..].
cbn [run step bind]. set (v := mkUi _ _ _ _ _ _ _ _ _ _ _ _ _ _ _ _). assert (HIv : Inv H T wl v) by exact HI.
assert (HIv0 : I0 v) by apply HIv. assert (HDv : dp_ok v) by apply HIv.
pose proof (root_result H T wl HP HT j v HIv0 HDv Hj S1 S2 S3 S5) as EH. specialize (EH ltac:(unfold syncR in S4; cbn; congruence)).
destruct (root_handler H T HP HT v HIv0 HDv) as (w & EV & IW & [(k' & t & ED' & KO & EW)|[U _]]); [|exfalso; exact (U k ED)].
change (rootField v) with s in ED'. rewrite ED in ED'. injection ED' as <-. rewrite EV in EH.
destruct (tab_bar_ok j w IW) as (w2 & E2 & O & I2). destruct (display_ok H T HP HT w2 I2) as (c & Ec & _).
unfold frame. rewrite EH. cbn [bind]. rewrite E2. cbn [bind]. rewrite Ec. cbn [bind]. eexists. split; [reflexivity|]. cbn [bps rootField mnemonicField seedField passField derivationField tabs set_screen].
rewrite O, EW. cbn [bps rootField mnemonicField seedField passField derivationField tabs set_tabs set_rootStr set_root set_seed set_mnemonic]. repeat (split; [reflexivity|]).
destruct KO as (e & KO). exists e. etransitivity; [|exact KO]. apply path_of_String. exact S5.
Qed.

Lemma C70_path_l : forall H T wl es i u p j, prims_ok H -> after_init T -> good_list wl -> text_words wl ->
  run H T (SetWordList wl) ui0 (es ++ [Frame i]) = Ret u -> PathString p <> PathString (derivationField u) -> gen_click j = false ->
  exists u', run H T (SetWordList wl) u [EditPath p; Frame j] = Ret u' /\ derivationField u' = p /\ bps u' = bps u /\ rootField u' = B58Serialize H (bps u) /\
    mnemonicField u' = mnemonicField u /\ passField u' = passField u /\ seedField u' = seedField u /\ keys_of H T (bps u) p (tabs u').
Proof.
intros H T wl es i u p j HP HT HG HW E NP Hj. apply C_session in E as (HI & (S1 & S2 & S3 & S4 & S5) & _); [|assumption..].
cbn [run step bind]. set (v := mkUi _ _ _ _ _ _ _ _ _ _ _ _ _ _ _ _). assert (HIv : Inv H T wl v) by exact HI.
assert (HIv0 : I0 v) by apply HIv. assert (HDv : dp_ok v) by apply HIv.
destruct (path_result H T wl HP HT j v HIv0 HDv Hj S1 S2 S3 S4) as (t & KO & EH & IW). { unfold syncD in S5. unfold v. cbn [derivationField derivationStr]. congruence. }
set (w := set_rootStr _ _) in *. destruct (tab_bar_ok j w IW) as (w2 & E2 & O & I2). destruct (display_ok H T HP HT w2 I2) as (c & Ec & _).
unfold frame. rewrite EH. cbn [bind]. rewrite E2. cbn [bind]. rewrite Ec. cbn [bind]. eexists. split; [reflexivity|]. cbn [bps rootField mnemonicField seedField passField derivationField tabs set_screen].
rewrite O. split; [reflexivity|]. split; [reflexivity|]. split; [reflexivity|]. split; [reflexivity|]. split; [reflexivity|]. split; [reflexivity|]. exact KO.
Qed.

Lemma C70_ex_l : B58Deserialize RealPrims (B58Serialize RealPrims k1) = Ret (k1, None) /\ PathString (B "m/0") <> PathString (derivationField ui0) /\
(exists u, run RealPrims T0 (SetWordList english) ui0 ([] ++ [Frame quiet_frame]) = Ret u /\ B58Serialize RealPrims k1 <> rootField u /\ B "00" <> seedField u /\ B "abandon" <> mnemonic u).
Proof.
split; [apply b58_back; [exact real_prims_ok|apply k1_root|apply root_nz, k1_root]|]. split; [discriminate|].
eexists. split; [reflexivity|]. split; [exact (b58_nonempty _ _ real_prims_ok k1_root)|]. split; discriminate.
Qed.
