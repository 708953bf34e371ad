(** ClaimsWallet.v - the property statements of PropsWallet.v with their proofs. *)
From Verif Require Import Base BaseFacts GoStr GoStrFacts HexFacts Prims Hash HashFacts Bip39 SpecBip39 UtilMnemonic WordLists WlEnglish AllLists Secp SpecPath SpecBip32 SpecUtil SpecWallet Bip32Path Bip32Reg Bip32 Bip32PathFacts Bip32Facts Bip32KeyFacts Bip32Facts2 Bip32RegFacts UtilFacts Util Fp ECGroup SpecEC SecpFacts Base58 Base58Facts Bip39Facts Abandon SpecUi Ui UiFacts Claims39 Claims32 ClaimsPath ClaimsUtil ClaimsUi.
From Coq Require Import ZifyBool ZifyNat ZifyN.

From Coq Require Import ZifyBool ZifyNat ZifyN.
(** In proofs; for util/util.go:91-124. *)
Definition node_ok (nd : node) : Prop := length (n_fp nd) = 4%nat /\ length (n_chain nd) = 32%nat /\ scalar_ok (n_key nd).
Lemma node_fields v nd : length v = 4%nat -> node_ok nd -> fields_ok v (n_fp nd) (ser32 (n_index nd)) (n_chain nd).
Proof. intros L (A & C & _). repeat split; assumption || apply ser32_length. Qed.
Lemma master_ok H seed nd : prims_ok H -> master_node H seed = Some nd -> node_ok nd /\ n_depth nd = 0 /\ n_fp nd = repeat x00 4 /\ n_index nd = 0 /\ master H seed = Some (n_key nd, n_chain nd).
Proof.
  intros HP. unfold master_node. destruct (master H seed) as [[k c]|] eqn:M; [|discriminate]. intros E. injection E as <-. cbn. repeat split; try reflexivity.
  - unfold master in M. cbv zeta in M. destruct ((_ =? 0) || (_ <=? _)) in M; [discriminate|]. injection M as <- <-. apply IR_length, prims_hmac; exact HP.
  - unfold master in M. cbv zeta in M. destruct ((_ =? 0) || (_ <=? _)) eqn:C in M; [discriminate|]. injection M as <- <-. pose proof (IL_nonneg (I_master H seed)). cbn [n_key]. lia.
  - unfold master in M. cbv zeta in M. destruct ((_ =? 0) || (_ <=? _)) eqn:C in M; [discriminate|]. injection M as <- <-. cbn [n_key]. lia.
Qed.
Lemma child_ok H nd i nd' : prims_ok H -> node_ok nd -> child_node H nd i = Some nd' -> node_ok nd'.
Proof.
  intros HP (A & C & D). unfold child_node. destruct (CKDpriv H (n_key nd) (n_chain nd) i) as [[k c]|] eqn:E; [|discriminate]. intros E'. injection E' as <-.
  unfold CKDpriv in E. cbv zeta in E. destruct (secp_n <=? IL (I_priv H (n_key nd) (n_chain nd) i)) eqn:L; [discriminate|]. cbn [orb] in E.
  destruct ((IL (I_priv H (n_key nd) (n_chain nd) i) + n_key nd) mod secp_n =? 0) eqn:Z0; [discriminate|]. injection E as <- <-.
  repeat split; cbn [n_fp n_chain n_key].
  - apply fpc_length; exact HP.
  - apply IR_length, prims_hmac; exact HP.
  - pose proof (Z.mod_pos_bound (IL (I_priv H (n_key nd) (n_chain nd) i) + n_key nd) secp_n secp_n_pos). lia.
  - pose proof (Z.mod_pos_bound (IL (I_priv H (n_key nd) (n_chain nd) i) + n_key nd) secp_n secp_n_pos). lia.
Qed.
Lemma child_step H T v nd i nd' : prims_ok H -> after_init T -> length v = 4%nat -> pvt_registered v -> node_ok nd -> 0 <= i < 2 ^ 32 -> child_node H nd i = Some nd' ->
  NewChildKey H T (node_xprv v nd) i = Ret (node_xprv v nd', None).
Proof.
  intros HP HT L HV HN Hi E. pose proof HN as (_ & _ & Hk). unfold child_node in E. destruct (CKDpriv H (n_key nd) (n_chain nd) i) as [[k c]|] eqn:EC; [|discriminate]. injection E as <-.
  unfold node_xprv. cbn [n_depth n_fp n_index n_chain n_key]. rewrite (C20_CKDpriv_l H T v (bZ (n_depth nd)) _ _ _ _ i k c HP HT (node_fields v nd L HN) Hk HV Hi EC).
  do 3 f_equal. apply Zb_inj. rewrite !Zb_bZ. rewrite Zplus_mod_idemp_l. reflexivity.
Qed.
Lemma nodes_linked H T v vs : prims_ok H -> after_init T -> length v = 4%nat -> pvt_registered v -> Forall (fun i => 0 <= i < 2 ^ 32) vs ->
  forall nd l dp kps, node_ok nd -> path_nodes H nd vs = Some l -> linked H T dp (node_xprv v nd) vs kps -> map KKey kps = map (node_xprv v) l /\ Forall node_ok l.
Proof.
  intros HP HT L HV. induction vs as [|i vs IH]; intros HI nd l dp kps HN E LK; inversion LK; subst.
  - injection E as <-. split; [reflexivity|constructor].
  - inversion HI as [|? ? Hi HI']; subst. cbn [path_nodes] in E. destruct (child_node H nd i) as [nd'|] eqn:EC; [|discriminate].
    destruct (path_nodes H nd' vs) as [l'|] eqn:EP; [|discriminate]. injection E as <-.
    match goal with H0 : NewChildKey _ _ _ _ = Ret (?a, _) |- _ => rewrite (child_step H T v nd i nd' HP HT L HV HN Hi EC) in H0; assert (a = node_xprv v nd') by congruence; subst a end.
    pose proof (child_ok H nd i nd' HP HN EC) as HN'.
    match goal with H0 : linked _ _ _ (node_xprv v nd') vs _ |- _ => destruct (IH HI' nd' l' _ _ HN' EP H0) as [A C] end.
    split; [cbn [map KKey]; f_equal; exact A|constructor; assumption].
Qed.
Lemma pub_hex T v d f n c k : after_init T -> fields_ok v f n c -> scalar_ok k -> PublicKeyHex T (xprv v d f n c k) = HexEncode (serPb (kG k)).
Proof.
  intros HT HF Hk. destruct (C47_hex_l T v d f n c k HT HF Hk) as (_ & _ & _ & E).
  assert (G : exists x, PublicKeyHex T (xprv v d f n c k) = HexEncode x) by (unfold PublicKeyHex; destruct (IsPrivate _); eexists; reflexivity).
  destruct G as (x & G). rewrite G in *. rewrite HexDecode_Encode in E. congruence.
Qed.
Lemma node_nonzero v nd : length v = 4%nat -> node_ok nd -> node_xprv v nd <> repeat x00 78.
Proof.
  intros L HN E. pose proof (xprv_nonzero v (bZ (n_depth nd)) _ _ _ (n_key nd) (node_fields v nd L HN) (proj2 (proj2 HN))) as Z0. fold (node_xprv v nd) in Z0.
  rewrite E in Z0. vm_compute in Z0. discriminate.
Qed.
Lemma node_shows H T v w nd : prims_ok H -> after_init T -> length v = 4%nat -> length w = 4%nat -> paired v w -> node_ok nd ->
  PublicKeyExtended T (node_xprv v nd) = node_xpub w nd /\
  B58Serialize H (node_xprv v nd) = Encode58 (with_check H (node_xprv v nd)) /\
  B58Serialize H (node_xpub w nd) = Encode58 (with_check H (node_xpub w nd)) /\
  PrivateKeyHex (node_xprv v nd) = HexEncode (ser256 (n_key nd)) /\
  PublicKeyHex T (node_xprv v nd) = HexEncode (serPb (kG (n_key nd))) /\
  (forall ver, AddrP2SH H T (node_xprv v nd) ver = Encode58 (p2pkh_payload H ver (serPb (kG (n_key nd))))) /\
  (forall x y, kG (n_key nd) = PAff x y -> 2 ^ 248 <= fv x -> 2 ^ 248 <= fv y -> AddrHex H T (node_xprv v nd) = Ret (HexEncode (eth_address H (fv x) (fv y)))).
Proof.
  intros HP HT Lv Lw PW HN. pose proof (node_fields v nd Lv HN) as HF. pose proof (node_fields w nd Lw HN) as HFw. pose proof (proj2 (proj2 HN)) as Hk.
  assert (EP : PublicKeyExtended T (node_xprv v nd) = node_xpub w nd) by exact (proj1 (C28_private_l T v (bZ (n_depth nd)) _ _ _ _ HT HF Hk) w Lw PW).
  pose proof (xprv_wf v (bZ (n_depth nd)) _ _ _ (n_key nd) HF) as W. pose proof (xpub_wf w (bZ (n_depth nd)) _ _ _ (kG (n_key nd)) HFw (scalar_aff _ Hk)) as Ww.
  fold (node_xprv v nd) in W. fold (node_xpub w nd) in Ww. split; [exact EP|]. split; [|split; [|split; [|split; [|split]]]].
  - rewrite (proj2 (proj2 (C15_roundtrip_l H _ HP W (node_nonzero v nd Lv HN)))). f_equal. rewrite (proj1 (C15_serialize_l H _ HP W (node_nonzero v nd Lv HN))). reflexivity.
  - assert (N : node_xpub w nd <> repeat x00 78).
    { intros E. pose proof (proj2 (proj2 (C28_fields_l T (node_xprv v nd) W))) as A. rewrite EP, E in A. apply A. reflexivity. }
    rewrite (proj2 (proj2 (C15_roundtrip_l H _ HP Ww N))). f_equal. rewrite (proj1 (C15_serialize_l H _ HP Ww N)). reflexivity.
  - exact (proj1 (C47_hex_l T v (bZ (n_depth nd)) _ _ _ _ HT HF Hk)).
  - apply pub_hex; assumption.
  - intros ver. apply p2sh_text. exact (proj2 (proj2 (proj2 (C47_hex_l T v (bZ (n_depth nd)) _ _ _ _ HT HF Hk)))).
  - intros x y E Hx Hy. apply C45_ethereum_l; assumption.
Qed.
Lemma path_range hs ss : Forall numeral (hs ++ ss) -> Forall (fun a => number a < 2 ^ 31) (hs ++ ss) -> Forall (fun i => 0 <= i < 2 ^ 32) (path_values hs ss).
Proof.
  intros N F. apply Forall_app in N as [N1 N2], F as [F1 F2]. unfold path_values. apply Forall_app. split; apply Forall_map; apply Forall_forall; intros a Ha.
  - pose proof (proj1 (Forall_forall _ _) F1 a Ha). pose proof (number_range a (proj1 (Forall_forall _ _) N1 a Ha)). cbv beta in *. lia.
  - pose proof (proj1 (Forall_forall _ _) F2 a Ha). pose proof (number_range a (proj1 (Forall_forall _ _) N2 a Ha)). cbv beta in *. lia.
Qed.

Lemma C81_wallet_l : forall H T wl m e pw p s hs ss nd l, prims_ok H -> after_init T -> good_list wl -> entropy_size_ok e -> Fields m = bip39_words H wl e ->
  master_node H (p_pbkdf2 H m (B "mnemonic" ++ pw)) = Some nd ->
  stripped p s -> path_grammar s hs ss -> Forall (fun a => number a < 2 ^ 31) (hs ++ ss) -> path_nodes H nd (path_values hs ss) = Some l ->
  let sd := HexEncode (p_pbkdf2 H m (B "mnemonic" ++ pw)) in
  let root := node_xprv (ser32 0x0488ade4) nd in
  exists kps, DeriveSeedFromMnemonic H (SetWordList wl) m pw = (sd, None) /\ RootKeyFromSeed H sd = Ret (Some root, None) /\
    DeriveBIP32Result H T root p = Ret (kps, None) /\
    B58Deserialize H (B58Serialize H root) = Ret (root, None) /\
    map KKey kps = map (node_xprv (ser32 0x0488ade4)) (nd :: l) /\
    (forall j kp, nth_error kps j = Some kp ->
       KPath kp = B "m" ++ concat (map (fun v => if v <? 2 ^ 31 then soft_text (Itoa v) else hard_text (Itoa (v - 2 ^ 31))) (firstn j (path_values hs ss)))).
Proof.
intros H T wl m e pw p s hs ss nd l HP HT HW HE HM HN HS HG HB HL.
  set (sd := p_pbkdf2 H m (B "mnemonic" ++ pw)) in *.
  destruct (master_ok H sd nd HP HN) as (OK & D0 & F0 & I0 & M).
  assert (ER : node_xprv (ser32 0x0488ade4) nd = xprv xprv_version x00 z4 (ser32 0) (n_chain nd) (n_key nd)).
  { unfold node_xprv. rewrite D0, F0, I0. reflexivity. }
  assert (V : IsMnemonicValid H (SetWordList wl) m = true) by (apply (proj2 (C03_accepts_exactly_l H wl m HP HW)); exists e; split; assumption).
  destruct (C08_seed_gating_l H (SetWordList wl) m pw HP) as (L64 & ES & A & _). destruct (A V) as (_ & h & EH & _ & Eh).
  rewrite ES in Eh. fold sd in Eh.
  assert (L : length sd = 64%nat) by (unfold sd; rewrite <- ES; exact L64).
  cbv zeta. fold sd. subst h.
  assert (HR : RootKeyFromSeed H (HexEncode sd) = Ret (Some (node_xprv (ser32 0x0488ade4) nd), None)).
  { rewrite (RootKey_spec H _ sd HP (HexDecode_Encode sd)) by lia. rewrite M, ER. reflexivity. }
  pose proof HG as (mm & _ & N1 & N2 & _).
  assert (EV : ValuesAtDepth p = (0 :: path_values hs ss, None)).
  { destruct (C35_grammar_l p s HS) as [G1 G2]. assert (PV : PathIsValid p = true).
    { apply G1. exists hs, ss. split; [exact HG|]. apply Forall_app in HB as [B1 B2]. split; apply Forall_forall; intros a Ha.
      - pose proof (proj1 (Forall_forall _ _) B1 a Ha). pose proof (number_range a (proj1 (Forall_forall _ _) N1 a Ha)). cbv beta in *. rewrite Z.mod_small; lia.
      - pose proof (proj1 (Forall_forall _ _) B2 a Ha). cbv beta in *. lia. }
    apply G2 in PV as (l0 & E0). rewrite E0. f_equal. apply (proj2 (C36_values_l p s hs ss l0 HS HG E0)).
    eapply Forall_impl; [|exact HB]. intros a Ha. cbv beta in *. lia. }
  pose proof (node_fields xprv_version nd eq_refl OK) as HF.
  assert (RK : root_key (node_xprv (ser32 0x0488ade4) nd)). { rewrite ER. apply xprv_root; [|exact (proj2 (proj2 OK))]. rewrite F0, I0 in HF. exact HF. }
  destruct (root_derive H T _ p _ HP HT RK EV) as (kps & E & LK).
  exists (mkKP (B "m") (node_xprv (ser32 0x0488ade4) nd) :: kps). split; [exact EH|]. split; [exact HR|]. split; [exact E|].
  split.
  - apply C15_roundtrip_l; [exact HP|apply xprv_wf; exact HF|apply node_nonzero; [reflexivity|exact OK]].
  - split; [|exact (C43_path_text_l H T _ p _ _ HP HT RK EV E)].
    cbn [map KKey]. f_equal. refine (proj1 (nodes_linked H T xprv_version _ HP HT eq_refl xprv_reg _ nd l _ _ OK HL LK)).
    apply path_range; [apply Forall_app; split; assumption|exact HB].
Qed.

Lemma C81_shown_l : forall H T seed nd vs l a v w, prims_ok H -> after_init T -> master_node H seed = Some nd -> path_nodes H nd vs = Some l -> In a (nd :: l) ->
  length v = 4%nat -> length w = 4%nat -> paired v w ->
  PublicKeyExtended T (node_xprv v a) = node_xpub w a /\
  B58Serialize H (node_xprv v a) = Encode58 (with_check H (node_xprv v a)) /\
  B58Serialize H (node_xpub w a) = Encode58 (with_check H (node_xpub w a)) /\
  PrivateKeyHex (node_xprv v a) = HexEncode (ser256 (n_key a)) /\
  PublicKeyHex T (node_xprv v a) = HexEncode (serPb (kG (n_key a))) /\
  (forall ver, AddrP2SH H T (node_xprv v a) ver = Encode58 (p2pkh_payload H ver (serPb (kG (n_key a))))) /\
  (forall x y, kG (n_key a) = PAff x y -> 2 ^ 248 <= fv x -> 2 ^ 248 <= fv y -> AddrHex H T (node_xprv v a) = Ret (HexEncode (eth_address H (fv x) (fv y)))).
Proof.
intros H T seed nd vs l a v w HP HT HM HL HA Lv Lw PW. apply node_shows; try assumption.
  pose proof (proj1 (master_ok H seed nd HP HM)) as OK. clear HM.
  assert (F : Forall node_ok (nd :: l)); [|exact (proj1 (Forall_forall _ _) F a HA)]. constructor; [exact OK|]. clear HA. revert nd l OK HL.
  induction vs as [|i vs IH]; intros nd l OK HL; cbn [path_nodes] in HL; [injection HL as <-; constructor|].
  destruct (child_node H nd i) as [nd'|] eqn:EC; [|discriminate]. destruct (path_nodes H nd' vs) as [l'|] eqn:EP; [|discriminate]. injection HL as <-.
  pose proof (child_ok H nd i nd' HP OK EC) as OK'. constructor; [exact OK'|]. exact (IH nd' l' OK' EP).
Qed.

Lemma const_child i nd : 0 < n_key nd < 100 -> child_node (constP (ILbytes 1)) nd i = Some (mkNode (n_depth nd + 1) (fingerprint (constP (ILbytes 1)) (kG (n_key nd))) i (IR (ILbytes 1)) (1 + n_key nd)).
Proof.
  intros R. unfold child_node, CKDpriv. cbv zeta. change (I_priv (constP (ILbytes 1)) (n_key nd) (n_chain nd) i) with (ILbytes 1). rewrite IL_ILbytes by lia.
  change (secp_n <=? 1) with false. cbn [orb]. rewrite Z.mod_small by (unfold secp_n; lia). assert (1 + n_key nd =? 0 = false) as -> by lia. reflexivity.
Qed.

Lemma C81_ex_l : exists H wl m e s hs ss nd l, prims_ok H /\ good_list wl /\ entropy_size_ok e /\ Fields m = bip39_words H wl e /\
  master_node H (p_pbkdf2 H m (B "mnemonic" ++ B "x")) = Some nd /\ stripped (B "m/44' /7") s /\ path_grammar s hs ss /\
  Forall (fun a => number a < 2 ^ 31) (hs ++ ss) /\ path_nodes H nd (path_values hs ss) = Some l /\ length l = 2%nat.
Proof.
assert (HP : prims_ok (constP (ILbytes 1))) by (apply constP_ok, ILbytes_length).
  destruct C01_roundtrip_ex_l as (_ & G & W & E & _).
  exists (constP (ILbytes 1)), english, (Join (B " ") (bip39_words (constP (ILbytes 1)) english zero16)), zero16, (B "m/44'/7"), [B "44"], [B "7"].
  exists (mkNode 0 (repeat x00 4) 0 (IR (ILbytes 1)) 1).
  eexists. split; [exact HP|]. split; [exact G|]. split; [exact E|].
  split; [apply Fields_bip39; assumption|]. split.
  { unfold master_node, master. change (I_master _ _) with (ILbytes 1). cbv zeta. rewrite IL_ILbytes by lia. reflexivity. }
  split; [apply stripped_iff; vm_compute; reflexivity|]. split.
  { exists x6d. split; [left; reflexivity|]. split; [constructor; [split; [discriminate|repeat constructor; cbn; tauto]|constructor]|].
    split; [constructor; [split; [discriminate|repeat constructor; cbn; tauto]|constructor]|]. reflexivity. }
  split; [repeat constructor|]. split; [|shelve].
  cbn [path_values map app path_nodes]. rewrite !const_child by (cbn; lia). reflexivity.
  Unshelve. reflexivity.
Qed.

Lemma nodes_ok_all H vs : prims_ok H -> forall nd l, node_ok nd -> path_nodes H nd vs = Some l -> Forall node_ok (nd :: l).
Proof.
  intros HP. induction vs as [|i vs IH]; intros nd l OK HL; cbn [path_nodes] in HL; [injection HL as <-; constructor; [exact OK|constructor]|].
  destruct (child_node H nd i) as [nd'|] eqn:EC; [|discriminate]. destruct (path_nodes H nd' vs) as [l'|] eqn:EP; [|discriminate]. injection HL as <-.
  pose proof (child_ok H nd i nd' HP OK EC) as OK'. constructor; [exact OK|]. exact (IH nd' l' OK' EP).
Qed.
Lemma nodes_nth H vs : forall nd l, path_nodes H nd vs = Some l -> forall j a i b, nth_error (nd :: l) j = Some a -> nth_error vs j = Some i -> nth_error l j = Some b ->
  child_node H a i = Some b.
Proof.
  induction vs as [|i0 vs IH]; intros nd l HL j a i b Ha Hi Hb; [destruct j; discriminate|]. cbn [path_nodes] in HL.
  destruct (child_node H nd i0) as [nd'|] eqn:EC; [|discriminate]. destruct (path_nodes H nd' vs) as [l'|] eqn:EP; [|discriminate]. injection HL as <-.
  destruct j as [|j]; cbn in Ha, Hi, Hb; [congruence|]. exact (IH nd' l' EP j a i b Ha Hi Hb).
Qed.
Lemma ILpub H k c i : i < 2 ^ 31 -> I_priv H k c i = I_pub H (kG k) c i.
Proof. intros L. unfold I_priv, I_pub. assert (HARD <=? i = false) as -> by (unfold HARD; lia). reflexivity. Qed.

Lemma C82_import_l : forall H T seed nd0 us l0 nd v w, prims_ok H -> after_init T -> master_node H seed = Some nd0 -> path_nodes H nd0 us = Some l0 -> In nd (nd0 :: l0) ->
  length v = 4%nat -> length w = 4%nat -> paired v w ->
  B58Deserialize H (B58Serialize H (PublicKeyExtended T (node_xprv v nd))) = Ret (node_xpub w nd, None).
Proof.
intros H T seed nd0 us l0 nd v w HP HT HM HL HA Lv Lw PW.
  assert (OK : node_ok nd). { exact (proj1 (Forall_forall _ _) (nodes_ok_all H us HP nd0 l0 (proj1 (master_ok H seed nd0 HP HM)) HL) nd HA). }
  destruct (node_shows H T v w nd HP HT Lv Lw PW OK) as (EP & _). rewrite EP.
  pose proof (node_fields w nd Lw OK) as HFw. apply C15_roundtrip_l; [exact HP|apply xpub_wf; [exact HFw|apply scalar_aff, OK]|].
  intros E. pose proof (proj2 (proj2 (C28_fields_l T (node_xprv v nd) (xprv_wf _ _ _ _ _ _ (node_fields v nd Lv OK))))) as A. rewrite EP, E in A. apply A. reflexivity.
Qed.

Lemma C82_derive_l : forall H T seed nd0 us l0 nd is l v w, prims_ok H -> after_init T -> master_node H seed = Some nd0 -> path_nodes H nd0 us = Some l0 -> In nd (nd0 :: l0) ->
  length v = 4%nat -> length w = 4%nat -> paired v w -> Forall (fun i => 0 <= i < 2 ^ 31) is -> path_nodes H nd is = Some l ->
  forall j a i b, nth_error (nd :: l) j = Some a -> nth_error is j = Some i -> nth_error l j = Some b -> IL (I_priv H (n_key a) (n_chain a) i) <> 0 ->
    NewChildKey H T (node_xprv v a) i = Ret (node_xprv v b, None) /\ NewChildKey H T (node_xpub w a) i = Ret (node_xpub w b, None).
Proof.
intros H T seed nd0 us l0 nd is l v w HP HT HM HL HA Lv Lw PW HI HL' j a i b Ja Ji Jb NZ.
  assert (OK : node_ok nd). { exact (proj1 (Forall_forall _ _) (nodes_ok_all H us HP nd0 l0 (proj1 (master_ok H seed nd0 HP HM)) HL) nd HA). }
  pose proof (nodes_ok_all H is HP nd l OK HL') as OKs. pose proof (proj1 (Forall_forall _ _) OKs a (nth_error_In _ _ Ja)) as OKa.
  pose proof (proj1 (Forall_forall _ _) OKs b (or_intror (nth_error_In _ _ Jb))) as OKb.
  pose proof (proj1 (Forall_forall _ _) HI i (nth_error_In _ _ Ji)) as Hi. cbv beta in Hi.
  pose proof (nodes_nth H is nd l HL' j a i b Ja Ji Jb) as EC.
  assert (HV : pvt_registered v) by (exists (be_Z w); exact PW).
  assert (E1 : NewChildKey H T (node_xprv v a) i = Ret (node_xprv v b, None)) by (apply child_step; try assumption; lia).
  split; [exact E1|]. destruct (node_shows H T v w a HP HT Lv Lw PW OKa) as (EA & _). destruct (node_shows H T v w b HP HT Lv Lw PW OKb) as (EB & _).
  rewrite <- EA, <- EB. unfold node_xprv. refine (C22_commute_l H T v _ _ _ _ _ i _ HP HT (node_fields v a Lv OKa) (proj2 (proj2 OKa)) Hi _ E1).
  rewrite <- ILpub by lia. unfold child_node, CKDpriv in EC. cbv zeta in EC. set (I := I_priv H (n_key a) (n_chain a) i) in *.
  destruct (Z.leb_spec secp_n (IL I)) as [|LI]; [discriminate|]. pose proof (IL_nonneg I). rewrite Z.mod_small; lia.
Qed.

Lemma C82_addresses_l : forall H T seed nd0 us l0 nd v w, prims_ok H -> after_init T -> master_node H seed = Some nd0 -> path_nodes H nd0 us = Some l0 -> In nd (nd0 :: l0) ->
  length v = 4%nat -> length w = 4%nat -> paired v w ->
  AddrHex H T (node_xpub w nd) = AddrHex H T (node_xprv v nd) /\ (forall ver, AddrP2SH H T (node_xpub w nd) ver = AddrP2SH H T (node_xprv v nd) ver) /\
  PublicKeyHex T (node_xpub w nd) = PublicKeyHex T (node_xprv v nd) /\ PublicKeyExtended T (node_xpub w nd) = PublicKeyExtended T (node_xprv v nd) /\
  PrivateKeyHex (node_xpub w nd) = [].
Proof.
intros H T seed nd0 us l0 nd v w HP HT HM HL HA Lv Lw PW.
  assert (OK : node_ok nd). { exact (proj1 (Forall_forall _ _) (nodes_ok_all H us HP nd0 l0 (proj1 (master_ok H seed nd0 HP HM)) HL) nd HA). }
  destruct (node_shows H T v w nd HP HT Lv Lw PW OK) as (EP & _). rewrite <- EP.
  pose proof (xprv_wf v (bZ (n_depth nd)) _ _ _ (n_key nd) (node_fields v nd Lv OK)) as W. fold (node_xprv v nd) in W.
  pose proof (proj1 (C47_hex_public_l T (node_xprv v nd) HT W)) as EX.
  unfold AddrHex, AddrP2SH. rewrite EX. split; [reflexivity|]. split; [reflexivity|]. split; [reflexivity|].
  split; [apply C28_idempotent_l; assumption|]. destruct (C28_fields_l T (node_xprv v nd) W) as (W' & _ & N45).
  exact (proj1 (proj2 (proj2 (C47_hex_public_l T _ HT W')) N45)).
Qed.

Lemma C82_ex_l : exists H seed nd0 l0 nd l, prims_ok H /\ master_node H seed = Some nd0 /\ path_nodes H nd0 [HARD + 44] = Some l0 /\ In nd l0 /\ path_nodes H nd [0; 5] = Some l /\
  (forall a i, In a (nd :: l) -> In i [0; 5] -> IL (I_priv H (n_key a) (n_chain a) i) <> 0) /\
  length (ser32 0x04b2430c) = 4%nat /\ paired (ser32 0x04b2430c) (ser32 0x04b24746).
Proof.
assert (HP : prims_ok (constP (ILbytes 1))) by (apply constP_ok, ILbytes_length).
  exists (constP (ILbytes 1)), [], (mkNode 0 (repeat x00 4) 0 (IR (ILbytes 1)) 1). do 3 eexists. split; [exact HP|]. split.
  { unfold master_node, master. change (I_master _ _) with (ILbytes 1). cbv zeta. rewrite IL_ILbytes by lia. reflexivity. }
  split; [cbn [path_nodes]; rewrite !const_child by (cbn; lia); reflexivity|]. split; [left; reflexivity|].
  split; [cbn [path_nodes]; rewrite !const_child by (cbn; lia); reflexivity|].
  split; [intros a i _ _; change (I_priv _ _ _ _) with (ILbytes 1); rewrite IL_ILbytes by lia; discriminate|]. split; [reflexivity|].
  unfold paired. vm_compute. tauto.
Qed.

Lemma C83_program_l : forall H T wl es i u e s hs ss nd l, prims_ok H -> after_init T -> good_list wl -> text_words wl ->
  run H T (SetWordList wl) ui0 (es ++ [Frame i]) = Ret u ->
  entropy_size_ok e -> Fields (mnemonicField u) = bip39_words H wl e ->
  master_node H (p_pbkdf2 H (mnemonicField u) (B "mnemonic" ++ passField u)) = Some nd ->
  stripped (derivationField u) s -> path_grammar s hs ss -> Forall (fun a => number a < 2 ^ 31) (hs ++ ss) -> path_nodes H nd (path_values hs ss) = Some l ->
  seedField u = HexEncode (p_pbkdf2 H (mnemonicField u) (B "mnemonic" ++ passField u)) /\
  rootField u = Encode58 (with_check H (node_xprv (ser32 0x0488ade4) nd)) /\
  map KKey (tabs u) = map (node_xprv (ser32 0x0488ade4)) (nd :: l) /\
  (forall t, screen u = Some t -> exists j a, 0 <= selected u /\ j = Z.to_nat (selected u) /\ nth_error (nd :: l) j = Some a /\
     nth_error t 0 = Some (B "m" ++ concat (map (fun v => if v <? 2 ^ 31 then soft_text (Itoa v) else hard_text (Itoa (v - 2 ^ 31))) (firstn j (path_values hs ss)))) /\
     nth_error t 1 = Some (Encode58 (with_check H (node_xprv (ser32 0x0488ade4) a))) /\
     nth_error t 2 = Some (Encode58 (with_check H (node_xpub (ser32 0x0488b21e) a))) /\
     nth_error t 3 = Some (HexEncode (ser256 (n_key a))) /\
     nth_error t 4 = Some (HexEncode (serPb (kG (n_key a)))) /\
     (forall x y, kG (n_key a) = PAff x y -> 2 ^ 248 <= fv x -> 2 ^ 248 <= fv y -> nth_error t 5 = Some (HexEncode (eth_address H (fv x) (fv y))))).
Proof.
intros H T wl es i u e s hs ss nd l HP HT HW HX HR HE HM HN HS HG HB HL.
  pose proof (C81_wallet_l H T wl (mnemonicField u) e (passField u) (derivationField u) s hs ss nd l HP HT HW HE HM HN HS HG HB HL) as W0. cbv zeta in W0.
  destruct W0 as (kps & E1 & E2 & E3 & E4 & E5 & E6). remember (HexEncode (p_pbkdf2 H (mnemonicField u) (B "mnemonic" ++ passField u))) as sd eqn:ESD.
  remember (node_xprv (ser32 0x0488ade4) nd) as root eqn:ER.
  assert (V : IsMnemonicValid H (SetWordList wl) (mnemonicField u) = true) by (apply (proj2 (C03_accepts_exactly_l H wl _ HP HW)); exists e; split; assumption).
  assert (NM : mnemonicField u <> []).
  { intros Z0. rewrite Z0 in HM. change (Fields []) with (@nil bytes) in HM. pose proof (proj2 (proj1 (C02_NewMnemonic_l H (SetWordList wl) e HP ltac:(cbn; destruct HW; lia)) HE)) as LL.
    cbn [GetWordList SetWordList wordList] in LL. rewrite <- HM in LL. unfold entropy_size_ok in HE. cbn in HE. cbn [length] in LL.
    destruct HE as [Q|[Q|[Q|[Q|[Q|[]]]]]]; rewrite <- Q in LL; cbv in LL; discriminate. }
  destruct (C67_wallet_l H T wl es i u HP HT HW HX HR) as (W1 & W2 & _). specialize (W1 NM).
  destruct (C08_seed_gating_l H (SetWordList wl) (mnemonicField u) (passField u) HP) as (L64 & ES & A & _). destruct (A V) as (_ & h & EH & Lh & Eh).
  assert (SD : seedField u = sd) by (unfold seed_of in W1; rewrite V in W1; congruence).
  assert (NS : seedField u <> []) by (intros Z0; rewrite SD in Z0; assert (HSD : h = sd) by congruence; rewrite HSD, Z0 in Lh; discriminate).
  destruct (W2 NS) as (e0 & R0). assert (BR : bps u = root) by (rewrite SD in R0; congruence).
  destruct (master_ok H _ nd HP HN) as (OK & _).
  assert (NZ : bps u <> repeat x00 78) by (rewrite BR, ER; apply node_nonzero; [reflexivity|exact OK]).
  split; [exact SD|].
  assert (RF : rootField u = B58Serialize H (bps u)).
  { destruct (C55_root_text_l H T wl es i u HP HT HW HX HR) as [[Q|[_ Q]] _]; [exact Q|contradiction]. }
  assert (P45 : paired (ser32 0x0488ade4) (ser32 0x0488b21e)) by (vm_compute; tauto).
  assert (SH : forall a, In a (nd :: l) -> node_ok a) by (intros a Ha; exact (proj1 (Forall_forall _ _) (nodes_ok_all H _ HP nd l OK HL) a Ha)).
  split.
  { rewrite RF, BR, ER. apply (node_shows H T (ser32 0x0488ade4) (ser32 0x0488b21e) nd HP HT eq_refl eq_refl P45 OK). }
  assert (TB : tabs u = kps).
  { destruct (C56_fresh_l H T wl es i u HP HT HW HX HR) as [(e1 & K)|[Q _]]; [|contradiction]. unfold path_of in K.
    assert (PathIsValid (derivationField u) = true) as PV.
    { destruct (PathIsValid (derivationField u)) eqn:PV; [reflexivity|]. exfalso. unfold DeriveBIP32Result in E3. rewrite PV in E3.
      destruct (KeyIsValid H root) as [[]|]; cbn [bind negb orb] in E3; try discriminate. destruct (negb (IsPrivate root) || _); discriminate. }
    rewrite PV in K. rewrite BR in K. congruence. }
  split; [rewrite TB; exact E5|]. intros t ST.
  destruct (C54_shown_l H T wl es i u HP HT HW HX HR) as [SHW _]. destruct (SHW t ST) as (kp & SR & NK & (a0 & AH & LB)).
  assert (NE : nth_error (map KKey (tabs u)) (Z.to_nat (selected u)) = Some (KKey kp)) by (rewrite nth_error_map, NK; reflexivity).
  rewrite TB, E5, nth_error_map in NE. destruct (nth_error (nd :: l) (Z.to_nat (selected u))) as [a|] eqn:NA; [|discriminate]. cbn [option_map] in NE.
  assert (EK : KKey kp = node_xprv (ser32 0x0488ade4) a) by congruence.
  destruct (node_shows H T (ser32 0x0488ade4) (ser32 0x0488b21e) a HP HT eq_refl eq_refl P45 (SH a (nth_error_In _ _ NA))) as (S1 & S2 & S3 & S4 & S5 & _ & S7).
  rewrite EK in *. exists (Z.to_nat (selected u)), a. split; [lia|]. split; [reflexivity|]. split; [exact NA|]. rewrite LB. cbn [nth_error].
  split.
  { f_equal. rewrite TB in NK. rewrite (E6 _ _ NK). pose proof HG as (mm & _ & N1 & N2 & _).
    assert (RV : Forall (fun i => 0 <= i < 2 ^ 32) (path_values hs ss)) by (apply path_range; [apply Forall_app; split; assumption|exact HB]).
    assert (RV' : Forall (fun v => 0 <= v < 2 ^ 32) (firstn (Z.to_nat (selected u)) (path_values hs ss))) by (rewrite <- (firstn_skipn (Z.to_nat (selected u)) (path_values hs ss)) in RV; apply Forall_app in RV; tauto).
    rewrite <- dtext_spec by exact RV'. apply dtext_nows; [left; reflexivity|]. eapply Forall_impl; [|exact RV']. intros v Hv. exact (proj1 Hv). }
  pose proof (proj1 (C47_hex_public_l T (node_xprv (ser32 0x0488ade4) a) HT (xprv_wf _ _ _ _ _ _ (node_fields (ser32 0x0488ade4) a eq_refl (SH a (nth_error_In _ _ NA)))))) as SX.
  rewrite SX, S1, S2, S3, S4, S5. repeat split. intros x y K1 K2 K3. rewrite (S7 x y K1 K2 K3) in AH. congruence.
Qed.

Lemma C83_ex_l : exists H wl es u e s hs ss nd l, prims_ok H /\ good_list wl /\ text_words wl /\ run H T0 (SetWordList wl) ui0 (es ++ [Frame quiet_frame]) = Ret u /\
  entropy_size_ok e /\ Fields (mnemonicField u) = bip39_words H wl e /\ master_node H (p_pbkdf2 H (mnemonicField u) (B "mnemonic" ++ passField u)) = Some nd /\
  stripped (derivationField u) s /\ path_grammar s hs ss /\ Forall (fun a => number a < 2 ^ 31) (hs ++ ss) /\ path_nodes H nd (path_values hs ss) = Some l /\ length l = 2%nat.
Proof.
assert (HP : prims_ok (constP (ILbytes 1))) by (apply constP_ok, ILbytes_length).
  destruct C01_roundtrip_ex_l as (_ & G & W & E & _). revert G W. generalize english. intros wl G W. generalize dependent zero16. intros z16 E. set (H := constP (ILbytes 1)) in *.
  set (m := Join (B " ") (bip39_words H wl z16)). assert (FM : Fields m = bip39_words H wl z16) by (apply Fields_bip39; assumption).
  assert (Nm : m <> []).
  { intros Z0. rewrite Z0 in FM. change (Fields []) with (@nil bytes) in FM.
    pose proof (proj2 (proj1 (C02_NewMnemonic_l H (SetWordList wl) z16 HP ltac:(cbn [SetWordList GetWordList wordList]; destruct G; lia)) E)) as LL.
    cbn [GetWordList SetWordList wordList] in LL. rewrite <- FM in LL. unfold entropy_size_ok in E. cbn in E. cbn [length] in LL. destruct E as [Q|[Q|[Q|[Q|[Q|[]]]]]]; rewrite <- Q in LL; cbv in LL; discriminate. }
  clearbody m.
  assert (NB : forall s, ~ bad_seed H s).
  { intros s (b & _ & _ & Q). rewrite NewMasterKey_spec in Q by exact HP. unfold master in Q. cbv zeta in Q. change (I_master H b) with (ILbytes 1) in Q. rewrite IL_ILbytes in Q by lia. discriminate Q. }
  set (p := B "m/44'/7").
  assert (A : exists es u, run H T0 (SetWordList wl) ui0 (es ++ [Frame quiet_frame]) = Ret u /\ mnemonicField u = m /\ stripped (derivationField u) p).
  { destruct (run H T0 (SetWordList wl) ui0 [EditMnemonic m; Frame quiet_frame]) as [u|] eqn:R.
    2: { exfalso. apply (C54_no_panic_l H T0 wl _ HP T0_ok G W) in R as (s & Q). exact (NB s Q). }
    assert (Q : mnemonicField u = m) by (apply (C70_mnemonic_l H T0 wl [] ui0 m quiet_frame u HP T0_ok G W eq_refl Nm eq_refl R)).
    destruct (list_eq_dec Byte.byte_eq_dec (PathString p) (PathString (derivationField u))) as [EQ|NE].
    - exists [EditMnemonic m], u. split; [exact R|]. split; [exact Q|]. apply stripped_iff. rewrite <- EQ. reflexivity.
    - destruct (C70_path_l H T0 wl [EditMnemonic m] quiet_frame u p quiet_frame HP T0_ok G W R NE eq_refl) as (u' & R' & D & _ & _ & M' & _).
      exists [EditMnemonic m; Frame quiet_frame; EditPath p], u'. split; [|split; [congruence|rewrite D; apply stripped_iff; reflexivity]].
      change ([EditMnemonic m; Frame quiet_frame; EditPath p] ++ [Frame quiet_frame]) with ([EditMnemonic m; Frame quiet_frame] ++ [EditPath p; Frame quiet_frame]).
      rewrite (run_app H T0 wl), R. exact R'. }
  destruct A as (es & u & R & M & D).
  exists H, wl, es, u, z16, p, [B "44"], [B "7"], (mkNode 0 (repeat x00 4) 0 (IR (ILbytes 1)) 1).
  eexists. split; [exact HP|]. split; [exact G|]. split; [exact W|]. split; [exact R|]. split; [exact E|].
  split; [rewrite M; exact FM|]. split.
  { unfold master_node, master. change (I_master _ _) with (ILbytes 1). cbv zeta. rewrite IL_ILbytes by lia. reflexivity. }
  split; [exact D|]. split.
  { exists x6d. split; [left; reflexivity|]. split; [constructor; [split; [discriminate|repeat constructor; cbn; tauto]|constructor]|].
    split; [constructor; [split; [discriminate|repeat constructor; cbn; tauto]|constructor]|]. reflexivity. }
  split; [repeat constructor|]. split; [|shelve].
  cbn [path_values map app path_nodes]. unfold H. rewrite !const_child by (cbn; lia). reflexivity.
  Unshelve. reflexivity.
Qed.
