(** ClaimsVars.v - the property statements of PropsVars.v with their proofs. *)
From Verif Require Import Base BaseFacts GoStr GoStrFacts Prims Hash HashFacts Bip39 SpecBip39 WordLists Bip39Init Bip39InitFacts WlEnglish AllLists Secp SpecPath SpecBip32 SpecUtil Bip32Path Bip32Reg Bip32 Bip32PathFacts Bip32Facts Bip32KeyFacts Bip32Facts2 Bip32RegFacts UtilFacts Util Generator GeneratorFacts Fp ECGroup SpecEC SecpFacts Bip32Vars Bip32PrefixFacts Claims32 ClaimsPath ClaimsUtil.
From Coq Require Import ZifyBool ZifyNat ZifyN.

Lemma NewMasterKey_v_spec H d seed : prims_ok H ->
  NewMasterKey_v H d seed = Ret (match master H seed with
    | None => (None, Some ErrInvalidPrivateKey)
    | Some (k, c) => (Some (xprv (ser32 (PvtKeyFlag d)) x00 (repeat x00 4) (ser32 0) c k), None)
    end).
Proof.
  intros HP. pose proof (prims_hmac H HP (B "Bitcoin seed") seed) as L.
  unfold NewMasterKey_v, master, I_master, IL, IR, parse256. cbv zeta.
  set (I := p_hmac512 H (B "Bitcoin seed") seed) in *.
  assert (L1 : length (firstn 32 I) = 32%nat) by (rewrite firstn_length, L; reflexivity).
  assert (L2 : length (skipn 32 I) = 32%nat) by (rewrite skipn_length, L; reflexivity).
  rewrite !arr_exact by assumption. cbn [bind]. rewrite ValidatePrivateKey_spec by exact L1.
  destruct ((be_Z (firstn 32 I) =? 0) || (secp_n <=? be_Z (firstn 32 I))); [reflexivity|].
  f_equal. f_equal. f_equal. rewrite zero_key_x.
  assert (L4 : length (PvtKeyFlagBytes d) = 4%nat) by apply Z_be_length.
  rewrite set_ver by (exact zeros_ok || exact L4).
  rewrite set_cc by ((repeat split; exact L4) || exact L2).
  rewrite (set_pvt _ _ _ _ _ x00 (repeat x00 32)); [|repeat split; assumption|reflexivity|exact L1].
  unfold xprv, ser256. rewrite Z_be_be_Z by exact L1. reflexivity.
Qed.
Lemma master_ok H seed s c : prims_ok H -> master H seed = Some (s, c) -> scalar_ok s /\ length c = 32%nat.
Proof.
  intros HP M. unfold master in M. cbv zeta in M. destruct ((_ =? 0) || (_ <=? _)) eqn:C in M; [discriminate|]. injection M as <- <-.
  pose proof (IL_nonneg (I_master H seed)). split; [unfold scalar_ok; lia|]. apply IR_length, prims_hmac; exact HP.
Qed.
Lemma skip4_xkey v w d f n c data : length v = 4%nat -> w ++ skipn 4 (xkey v d f n c data) = xkey w d f n c data.
Proof. intros L. unfold xkey. rewrite skipn_exact by exact L. reflexivity. Qed.
Lemma set_ver_any a (k : bytes) : length a = 4%nat -> SetVersion a k = a ++ skipn 4 k.
Proof. intros L. unfold SetVersion, copy_at, overwrite. change (4 - 0)%nat with 4%nat. rewrite (firstn_all2 a) by lia. rewrite L. reflexivity. Qed.
Lemma set_ver_twice a b (k : bytes) : length a = 4%nat -> length b = 4%nat -> SetVersion a (SetVersion b k) = SetVersion a k.
Proof. intros La Lb. rewrite !set_ver_any by assumption. rewrite skipn_exact by exact Lb. reflexivity. Qed.
Lemma Neuter_v T d k : PublicKeyExtended_v T d k =
  if match lookup0 (if IsPrivate k then PvtFlagToHDBytesSlice T else PubFlagToHDBytesSlice T) (be_Z (slice 0 4 k)) with None => true | Some _ => false end
  then SetVersion (PubKeyFlagBytes d) (PublicKeyExtended T k) else PublicKeyExtended T k.
Proof.
  unfold PublicKeyExtended_v, PublicKeyExtended. cbv zeta. destruct (IsPrivate k).
  - destruct (lookup0 (PvtFlagToHDBytesSlice T) (be_Z (slice 0 4 k))); [reflexivity|]. symmetry. apply set_ver_twice; apply Z_be_length.
  - destruct (lookup0 (PubFlagToHDBytesSlice T) (be_Z (slice 0 4 k))); [reflexivity|]. symmetry. apply set_ver_twice; apply Z_be_length.
Qed.
Lemma flag_range h : In h registered -> 0 <= PvtKeyFlag h < 2 ^ 32 /\ 0 <= PubKeyFlag h < 2 ^ 32.
Proof.
  intros Hh. apply reg_in_slip in Hh. revert Hh. generalize (PvtKeyFlag h), (PubKeyFlag h). intros a b Hh.
  assert (C : forallb (fun p => (0 <=? fst p) && (fst p <? 2 ^ 32) && ((0 <=? snd p) && (snd p <? 2 ^ 32))) slip132 = true) by (vm_compute; reflexivity).
  pose proof (proj1 (forallb_forall _ _) C (a, b) Hh) as D. cbn [fst snd] in D. lia.
Qed.
Lemma ser32_back z : 0 <= z < 2 ^ 32 -> be_Z (ser32 z) = z.
Proof. intros R. unfold ser32. rewrite be_Z_be. apply Z.mod_small. exact R. Qed.
Lemma GetVersion_x v d f n c data : length v = 4%nat -> GetVersion (xkey v d f n c data) = be_Z v.
Proof. intros L. unfold GetVersion, slice, xkey. cbn [skipn Nat.sub]. rewrite firstn_exact by exact L. reflexivity. Qed.

Lemma C79_initial_l : forall H T s k, NewMasterKey_v H DefaultMainnetVersion s = NewMasterKey H s /\
  RootKeyFromSeed_v H DefaultMainnetVersion s = RootKeyFromSeed H s /\ PublicKeyExtended_v T DefaultMainnetVersion k = PublicKeyExtended T k.
Proof.
intros H T s k. split; [reflexivity|]. split; reflexivity.
Qed.

Lemma C79_master_l : forall H d seed, prims_ok H ->
  (NewMasterKey H seed = Ret (None, Some ErrInvalidPrivateKey) /\ NewMasterKey_v H d seed = Ret (None, Some ErrInvalidPrivateKey)) \/
  (exists k, NewMasterKey H seed = Ret (Some k, None) /\ NewMasterKey_v H d seed = Ret (Some (ser32 (PvtKeyFlag d) ++ skipn 4 k), None)).
Proof.
intros H d seed HP. rewrite NewMasterKey_spec, NewMasterKey_v_spec by exact HP. destruct (master H seed) as [[s c]|]; [right|left; split; reflexivity].
  eexists. split; [reflexivity|]. unfold xprv. rewrite skip4_xkey by reflexivity. reflexivity.
Qed.

Lemma C79_registered_l : forall H T d seed k, prims_ok H -> after_init T -> In d registered -> NewMasterKey_v H d seed = Ret (Some k, None) ->
  exists s c, scalar_ok s /\ length c = 32%nat /\ k = xprv (ser32 (PvtKeyFlag d)) x00 (repeat x00 4) (ser32 0) c s /\ valid_xkey k /\
    PublicKeyExtended_v T d k = xpub (ser32 (PubKeyFlag d)) x00 (repeat x00 4) (ser32 0) c (kG s) /\
    forall d', PublicKeyExtended_v T d' k = PublicKeyExtended_v T d k.
Proof.
intros H T d seed k HP HT HD E. rewrite NewMasterKey_v_spec in E by exact HP. destruct (master H seed) as [[s c]|] eqn:M; [|discriminate].
  injection E as <-. destruct (master_ok H seed s c HP M) as [Hs Lc]. exists s, c. destruct (flag_range d HD) as [R1 R2].
  assert (HF : fields_ok (ser32 (PvtKeyFlag d)) (repeat x00 4) (ser32 0) c) by (repeat split; try assumption; apply ser32_length).
  assert (HV : paired (ser32 (PvtKeyFlag d)) (ser32 (PubKeyFlag d))) by (unfold paired; rewrite !ser32_back by assumption; apply reg_in_slip; exact HD).
  split; [exact Hs|]. split; [exact Lc|]. split; [reflexivity|]. split.
  { exists (ser32 (PvtKeyFlag d)), x00, (repeat x00 4), (ser32 0), c. split; [exact HF|]. split; [split; reflexivity|]. left.
    split; [eexists; exact HV|]. exists s. split; [exact Hs|reflexivity]. }
  destruct (pub_version T _ _ HT (ser32_length _) HV) as (h & EL & EW).
  assert (EN : forall d', PublicKeyExtended_v T d' (xprv (ser32 (PvtKeyFlag d)) x00 (repeat x00 4) (ser32 0) c s) =
     xpub (ser32 (PubKeyFlag d)) x00 (repeat x00 4) (ser32 0) c (kG s)).
  { intros d'. rewrite Neuter_v. rewrite (neuter_xprv T) by assumption. rewrite xprv_private by exact HF.
    assert (EV : slice 0 4 (xprv (ser32 (PvtKeyFlag d)) x00 (repeat x00 4) (ser32 0) c s) = ser32 (PvtKeyFlag d)) by (unfold xprv; apply get_ver; exact HF).
    rewrite EV, EL. rewrite EW. reflexivity. }
  split; [apply EN|]. intros d'. rewrite !EN. reflexivity.
Qed.

Lemma C79_prefix_l : forall H T d seed k, prims_ok H -> after_init T -> In d registered -> ~ In (Coin d) [B "Nexa"; B "Nexa Testnet"; B "Vertcoin"] ->
  NewMasterKey_v H d seed = Ret (Some k, None) ->
  firstn 4 (B58Serialize H k) = PvKeyPrefix d /\ firstn 4 (B58Serialize H (PublicKeyExtended_v T d k)) = PubKeyPrefix d.
Proof.
intros H T d seed k HP HT HD HM E. destruct (C79_registered_l H T d seed k HP HT HD E) as (s & c & Hs & Lc & -> & _ & -> & _).
  destruct (flag_range d HD) as [R1 R2].
  assert (W1 : wf_key (xprv (ser32 (PvtKeyFlag d)) x00 (repeat x00 4) (ser32 0) c s)) by (apply xprv_wf; repeat split; try assumption; apply ser32_length).
  assert (W2 : wf_key (xpub (ser32 (PubKeyFlag d)) x00 (repeat x00 4) (ser32 0) c (kG s))).
  { unfold wf_key, xpub. rewrite xkey_length by (repeat split; try assumption; apply ser32_length). rewrite serPb_length by (apply scalar_aff; exact Hs). reflexivity. }
  destruct (C30_prefixes_l H d _ HP HD W1 HM) as [A _]. destruct (C30_prefixes_l H d _ HP HD W2 HM) as [_ C].
  split; [apply A|apply C]; [unfold xprv|unfold xpub]; rewrite GetVersion_x by apply ser32_length; apply ser32_back; assumption.
Qed.

Lemma C79_testnet_l : forall H T seed k, prims_ok H -> after_init T -> NewMasterKey_v H DefaultTestnetVersion seed = Ret (Some k, None) ->
  firstn 4 (B58Serialize H k) = B "tprv" /\ firstn 4 (B58Serialize H (PublicKeyExtended_v T DefaultTestnetVersion k)) = B "tpub".
Proof.
intros H T seed k HP HT E. apply (C79_prefix_l H T DefaultTestnetVersion seed k HP HT).
  - do 5 right. left. reflexivity.
  - intros C. cbn in C. intuition discriminate.
  - exact E.
Qed.

Lemma C79_unregistered_refuted_l : forall H T d seed k, prims_ok H -> after_init T -> ~ pvt_registered (ser32 (PvtKeyFlag d)) -> NewMasterKey_v H d seed = Ret (Some k, None) ->
  (forall i, NewChildKey H T k i = Ret (repeat x00 78, Some ErrUnSupportedHDVersionBytes)) /\
  (forall p vs, ValuesAtDepth p = (0 :: vs, None) -> exists kps, DeriveBIP32Result H T k p = Ret (mkKP (B "m") k :: kps, None) /\
     length kps = length vs /\ Forall (fun kp => KKey kp = repeat x00 78) kps).
Proof.
intros H T d seed k HP HT N E. rewrite NewMasterKey_v_spec in E by exact HP. destruct (master H seed) as [[s c]|] eqn:M; [|discriminate].
  injection E as <-. destruct (master_ok H seed s c HP M) as [Hs Lc].
  assert (HF : fields_ok (ser32 (PvtKeyFlag d)) (repeat x00 4) (ser32 0) c) by (repeat split; try assumption; apply ser32_length).
  assert (EV : slice 0 4 (xprv (ser32 (PvtKeyFlag d)) x00 (repeat x00 4) (ser32 0) c s) = ser32 (PvtKeyFlag d)) by (unfold xprv; apply get_ver; exact HF).
  pose proof (xprv_root _ _ _ _ _ HF Hs) as HR. split.
  - intros i. destruct (C32_unregistered_l H T _ i HP HT (proj1 HR)) as (A & _). apply A; [exact (proj1 (proj2 (proj2 HR)))|]. rewrite EV. exact N.
  - intros p vs EP. apply C42_unregistered_refuted_l; assumption.
Qed.

Lemma C79_public_l : forall T d k, after_init T -> wf_key k ->
  (nth 45 k x00 = x00 /\ pvt_registered (slice 0 4 k) \/ nth 45 k x00 <> x00 /\ pub_registered (slice 0 4 k) -> PublicKeyExtended_v T d k = PublicKeyExtended T k) /\
  (nth 45 k x00 = x00 /\ ~ pvt_registered (slice 0 4 k) \/ nth 45 k x00 <> x00 /\ ~ pub_registered (slice 0 4 k) ->
     PublicKeyExtended_v T d k = ser32 (PubKeyFlag d) ++ skipn 4 (PublicKeyExtended T k)).
Proof.
intros T d k HT HK. rewrite Neuter_v. assert (EI : IsPrivate k = Byte.eqb (nth 45 k x00) x00) by reflexivity. rewrite EI. split.
  - intros [[E R]|[E R]].
    + rewrite E. change (Byte.eqb x00 x00) with true. cbv iota. destruct (pvt_lookup T _ HT R) as (h & ->). reflexivity.
    + apply byte_eqb_neq in E. rewrite E. destruct (pub_lookup T _ HT R) as (h & ->). reflexivity.
  - assert (EW : SetVersion (PubKeyFlagBytes d) (PublicKeyExtended T k) = ser32 (PubKeyFlag d) ++ skipn 4 (PublicKeyExtended T k)).
    { destruct (C28_fields_l T k HK) as (W & _). destruct (key_split _ W) as (v & dd & f & n & c & data & -> & HF & LD).
      rewrite set_ver by (exact HF || apply Z_be_length). rewrite skip4_xkey by exact (proj1 HF). reflexivity. }
    intros [[E R]|[E R]].
    + rewrite E. change (Byte.eqb x00 x00) with true. cbv iota. rewrite (pvt_unreg T _ HT R). exact EW.
    + apply byte_eqb_neq in E. rewrite E. rewrite (pub_unreg T _ HT R). exact EW.
Qed.

Lemma C79_ex_l : In DefaultTestnetVersion registered /\ In DefaultMainnetVersion registered /\ DefaultTestnetVersion <> DefaultMainnetVersion /\
  ~ pvt_registered (ser32 (PvtKeyFlag (mkVB (B "x") 7 [] 8 [] [] []))) /\
  (exists H seed k, prims_ok H /\ NewMasterKey_v H DefaultTestnetVersion seed = Ret (Some k, None)).
Proof.
split; [do 5 right; left; reflexivity|]. split; [left; reflexivity|]. split; [discriminate|]. split.
  - intros (q & Hq). change (be_Z (ser32 (PvtKeyFlag (mkVB (B "x") 7 [] 8 [] [] [])))) with 7 in Hq. cbn in Hq. intuition discriminate.
  - exists (constP (ILbytes 1)), []. eexists. split; [apply constP_ok, ILbytes_length|]. rewrite NewMasterKey_v_spec by apply constP_ok, ILbytes_length.
    unfold master. change (I_master (constP (ILbytes 1)) []) with (ILbytes 1). rewrite IL_ILbytes by lia. reflexivity.
Qed.

Lemma lookup0_hit (m : gomap) v h r : m v = Some (h :: r) -> lookup0 m v = Some h.
Proof. intros E. unfold lookup0. rewrite E. reflexivity. Qed.
Lemma lookup0_miss (m : gomap) v : m v = None \/ m v = Some [] -> lookup0 m v = None.
Proof. intros [E|E]; unfold lookup0; rewrite E; reflexivity. Qed.
Lemma gappend_kept (m : gomap) v h r k x : m v = Some (h :: r) -> exists r', gappend m k x v = Some (h :: r').
Proof.
  intros E. unfold gappend. destruct (Z.eqb_spec v k) as [->|].
  - rewrite E. cbn [app]. eexists. reflexivity.
  - exists r. exact E.
Qed.
Lemma gappend_new (m : gomap) k x : m k = None \/ m k = Some [] -> gappend m k x k = Some [x].
Proof. intros [E|E]; unfold gappend; rewrite Z.eqb_refl, E; reflexivity. Qed.
Lemma registers_pvt hs : forall T v h r, PvtFlagToHDBytesSlice T v = Some (h :: r) -> exists r', PvtFlagToHDBytesSlice (fold_left register hs T) v = Some (h :: r').
Proof.
  induction hs as [|x hs IH]; intros T v h r E; cbn [fold_left]; [exists r; exact E|].
  destruct (gappend_kept _ _ _ _ (PvtKeyFlag x) x E) as (r' & E'). exact (IH (register T x) v h r' E').
Qed.
Lemma registers_pub hs : forall T v h r, PubFlagToHDBytesSlice T v = Some (h :: r) -> exists r', PubFlagToHDBytesSlice (fold_left register hs T) v = Some (h :: r').
Proof.
  induction hs as [|x hs IH]; intros T v h r E; cbn [fold_left]; [exists r; exact E|].
  destruct (gappend_kept _ _ _ _ (PubKeyFlag x) x E) as (r' & E'). exact (IH (register T x) v h r' E').
Qed.

Lemma C80_private_l : forall H T v d f n c k i ki ci h r, prims_ok H -> fields_ok v f n c -> scalar_ok k -> PvtFlagToHDBytesSlice T (be_Z v) = Some (h :: r) ->
  (0 <= i < 2 ^ 32 -> CKDpriv H k c i = Some (ki, ci) ->
   NewChildKey H T (xprv v d f n c k) i = Ret (xprv v (bZ (Zb d + 1)) (fingerprint H (kG k)) (ser32 i) ci ki, None)) /\
  PublicKeyExtended T (xprv v d f n c k) = xpub (ser32 (PubKeyFlag h)) d f n c (kG k).
Proof.
intros H T v d f n c k i ki ci h r HP HF Hk HL. pose proof (lookup0_hit _ _ _ _ HL) as EL. split.
  - intros Hi E. rewrite NewChildKey_priv0 by (try assumption; apply scalar_256; exact Hk). cbv zeta. rewrite EL.
    rewrite I_any_priv by exact Hk. rewrite fingerprint_fpc by (apply scalar_aff; exact Hk). unfold CKDpriv in E. cbv zeta in E.
    destruct (secp_n <=? IL (I_priv H k c i)); [discriminate|]. cbn [orb] in E.
    destruct ((IL (I_priv H k c i) + k) mod secp_n =? 0); [discriminate|]. injection E as <- <-. reflexivity.
  - rewrite Neuter_priv by (exact HF || apply scalar_256; exact Hk). rewrite EL, comp_aff by (apply scalar_aff; exact Hk). reflexivity.
Qed.

Lemma C80_public_l : forall H T v d f n c K i Ki ci h r, prims_ok H -> fields_ok v f n c -> oncurve K -> K <> PInf -> PubFlagToHDBytesSlice T (be_Z v) = Some (h :: r) ->
  0 <= i < 2 ^ 31 -> CKDpub H K c i = Some (Ki, ci) -> IL (I_pub H K c i) <> 0 ->
  NewChildKey H T (xpub v d f n c K) i = Ret (xpub (ser32 (PubKeyFlag h)) (bZ (Zb d + 1)) (fingerprint H K) (ser32 i) ci Ki, None) /\
  PublicKeyExtended T (xpub v d f n c K) = xpub v d f n c K.
Proof.
intros H T v d f n c K i Ki ci h r HP HF HO NK HL Hi E HN. pose proof (lookup0_hit _ _ _ _ HL) as EL. split.
  - unfold xpub at 1. rewrite NewChildKey_pub0; try assumption; [|apply serPb_length; exact NK|apply serPb_head; exact NK].
    unfold CKDpub in E. change (2 ^ 31) with HARD in Hi. assert (HARD <=? i = false) as EH by lia. rewrite EH in *. cbv zeta in *. rewrite EL.
    change (p_hmac512 H c (serPb K ++ ser32 i)) with (I_pub H K c i). set (I := I_pub H K c i) in *.
    destruct (Z.leb_spec secp_n (IL I)) as [|L]; [discriminate|]. pose proof (IL_nonneg I).
    assert (EM : IL I mod secp_n <> 0) by (rewrite Z.mod_small by lia; exact HN). apply Z.eqb_neq in EM. rewrite EM. apply Z.eqb_neq in EM.
    rewrite sumkey_point by assumption. destruct (cadd (kG (IL I)) K) as [|x y]; [discriminate|]. injection E as <- <-. reflexivity.
  - unfold xpub. rewrite Neuter_pub by (exact HF || apply serPb_head; exact NK). rewrite EL. reflexivity.
Qed.

Lemma C80_absent_l : forall H T k i, prims_ok H -> wf_key k ->
  (nth 45 k x00 = x00 -> PvtFlagToHDBytesSlice T (be_Z (slice 0 4 k)) = None \/ PvtFlagToHDBytesSlice T (be_Z (slice 0 4 k)) = Some [] ->
     NewChildKey H T k i = Ret (repeat x00 78, Some ErrUnSupportedHDVersionBytes)) /\
  (nth 45 k x00 <> x00 -> PubFlagToHDBytesSlice T (be_Z (slice 0 4 k)) = None \/ PubFlagToHDBytesSlice T (be_Z (slice 0 4 k)) = Some [] -> i < 2 ^ 31 ->
     NewChildKey H T k i = Ret (repeat x00 78, Some ErrUnSupportedHDVersionBytes)).
Proof.
intros H T k i HP HK. split.
  - intros E HL. apply lookup0_miss in HL. unfold NewChildKey. assert (EI : IsPrivate k = true) by (unfold IsPrivate, key_at; rewrite E; reflexivity).
    rewrite EI. cbv iota zeta. cbn [negb andb]. rewrite HL. reflexivity.
  - intros E HL Hi. apply lookup0_miss in HL. unfold NewChildKey. assert (EI : IsPrivate k = false) by (apply byte_eqb_neq; exact E).
    rewrite EI. cbv iota zeta. rewrite hard_eq. change (2 ^ 31) with HARD in Hi. assert (HARD <=? i = false) as -> by lia. cbn [negb andb]. rewrite HL. reflexivity.
Qed.

Lemma C80_no_panic_l : forall H T k i, prims_ok H -> wf_key k -> exists k' e, NewChildKey H T k i = Ret (k', e) /\ wf_key k' /\ wf_key (PublicKeyExtended T k).
Proof.
intros H T k i HP HK. assert (X : exists r, NewChildKey H T k i = Ret r /\ wf_key (fst r)).
  { destruct (key_split k HK) as (v & d & f & n & c & data & -> & HF & LD). pose proof HF as (lv & lf & ln & lc).
    destruct (Byte.eqb (nth 0 data x00) x00) eqn:E.
    - apply byte_eqb_spec in E. destruct (data_split data LD) as (k0 & r & -> & Lr). cbn [nth] in E. subst k0.
      replace (xkey v d f n c (x00 :: r)) with (xprv v d f n c (be_Z r)) by (unfold xprv, ser256; rewrite Z_be_be_Z by exact Lr; reflexivity).
      rewrite NewChildKey_priv0; try assumption.
      + eexists. split; [reflexivity|]. cbv zeta. destruct (lookup0 (PvtFlagToHDBytesSlice T) (be_Z v)); [|reflexivity]. cbn [fst].
        unfold wf_key, xprv. rewrite xkey_length; [cbn [length]; rewrite ser256_length; reflexivity|].
        repeat split; (exact lv || (apply fpc_length; exact HP) || (apply IR_length, prims_hmac, HP)).
      + pose proof (be_Z_range r) as R. rewrite Lr, p256_32 in R. exact R.
    - apply byte_eqb_neq in E. rewrite NewChildKey_pub0 by assumption. eexists. split; [reflexivity|].
      destruct (HARD <=? i); [reflexivity|]. cbv zeta. destruct (lookup0 (PubFlagToHDBytesSlice T) (be_Z v)) as [h|]; [|reflexivity].
      destruct (IL _ mod secp_n =? 0); cbn [fst]; unfold wf_key; rewrite xkey_length.
      + reflexivity.
      + repeat split; (apply Z_be_length || (apply IR_length, prims_hmac, HP)).
      + unfold sumkey. match goal with |- context [addPublicKeys ?a data] => assert (N1 : a <> []) end.
        { intros C. match type of C with comp ?P = _ => pose proof (comp_length P) as Q end. rewrite C in Q. discriminate. }
        assert (N2 : data <> []) by (intros C; rewrite C in LD; discriminate).
        destruct (addPublicKeys_total _ _ N1 N2) as (s & -> & Ls). rewrite firstn_length. lia.
      + repeat split; (apply Z_be_length || (apply fpc_length; exact HP) || (apply IR_length, prims_hmac, HP)). }
  destruct X as ([k' e] & E & W). exists k', e. split; [exact E|]. split; [exact W|]. exact (proj1 (C28_fields_l T k HK)).
Qed.

Lemma C80_register_keeps_l : forall H T hs k i h r, (nth 45 k x00 = x00 /\ PvtFlagToHDBytesSlice T (be_Z (slice 0 4 k)) = Some (h :: r) \/
                       nth 45 k x00 <> x00 /\ PubFlagToHDBytesSlice T (be_Z (slice 0 4 k)) = Some (h :: r)) ->
  NewChildKey H (fold_left register hs T) k i = NewChildKey H T k i /\ PublicKeyExtended (fold_left register hs T) k = PublicKeyExtended T k.
Proof.
intros H T hs k i h r [[E HL]|[E HL]].
  - destruct (registers_pvt hs T _ h r HL) as (r' & HL'). apply lookup0_hit in HL, HL'.
    assert (EI : IsPrivate k = true) by (unfold IsPrivate, key_at; rewrite E; reflexivity).
    unfold NewChildKey, PublicKeyExtended. rewrite EI. cbv iota zeta. rewrite HL, HL'. split; reflexivity.
  - destruct (registers_pub hs T _ h r HL) as (r' & HL'). apply lookup0_hit in HL, HL'. assert (EI : IsPrivate k = false) by (apply byte_eqb_neq; exact E).
    unfold NewChildKey, PublicKeyExtended. rewrite EI. cbv iota zeta. rewrite HL, HL'. split; reflexivity.
Qed.

Lemma C80_register_new_l : forall H T x d f n c k i k', prims_ok H -> 0 <= PvtKeyFlag x < 2 ^ 32 -> 0 <= PubKeyFlag x < 2 ^ 32 ->
  PvtFlagToHDBytesSlice T (PvtKeyFlag x) = None -> PubFlagToHDBytesSlice T (PubKeyFlag x) = None ->
  fields_ok (ser32 (PvtKeyFlag x)) f n c -> scalar_ok k -> 0 <= i < 2 ^ 31 -> CKDpriv H k c i <> None -> IL (I_pub H (kG k) c i) <> 0 ->
  let K := xprv (ser32 (PvtKeyFlag x)) d f n c k in
  NewChildKey H T K i = Ret (repeat x00 78, Some ErrUnSupportedHDVersionBytes) /\
  (NewChildKey H (register T x) K i = Ret (k', None) ->
   PublicKeyExtended (register T x) K = xpub (ser32 (PubKeyFlag x)) d f n c (kG k) /\
   NewChildKey H (register T x) (PublicKeyExtended (register T x) K) i = Ret (PublicKeyExtended (register T x) k', None)) /\
  (exists k'', NewChildKey H (register T x) K i = Ret (k'', None)).
Proof.
intros H T x d f n c k i k' HP R1 R2 N1 N2 HF Hk Hi HC HN K. change (2 ^ 31) with HARD in Hi.
  assert (L1 : PvtFlagToHDBytesSlice (register T x) (be_Z (ser32 (PvtKeyFlag x))) = Some [x]).
  { rewrite ser32_back by exact R1. apply gappend_new. left. exact N1. }
  assert (L2 : PubFlagToHDBytesSlice (register T x) (be_Z (ser32 (PubKeyFlag x))) = Some [x]).
  { rewrite ser32_back by exact R2. apply gappend_new. left. exact N2. }
  destruct (CKDpriv H k c i) as [[ki ci]|] eqn:EC; [|congruence]. assert (HH : HARD = 2 ^ 31) by reflexivity.
  assert (E1 : NewChildKey H (register T x) K i = Ret (xprv (ser32 (PvtKeyFlag x)) (bZ (Zb d + 1)) (fingerprint H (kG k)) (ser32 i) ci ki, None)).
  { apply (proj1 (C80_private_l H (register T x) _ d f n c k i ki ci x [] HP HF Hk L1)); [lia|exact EC]. }
  assert (EP : I_priv H k c i = I_pub H (kG k) c i) by (unfold I_priv, I_pub; assert (HARD <=? i = false) as -> by lia; reflexivity).
  pose proof EC as EC'. unfold CKDpriv in EC'. cbv zeta in EC'. rewrite EP in EC'. set (I := I_pub H (kG k) c i) in *.
  destruct (Z.leb_spec secp_n (IL I)) as [|LI]; [discriminate|]. cbn [orb] in EC'.
  destruct ((IL I + k) mod secp_n =? 0) eqn:EZ; [discriminate|]. injection EC' as EK ECI. apply Z.eqb_neq in EZ.
  pose proof (IL_nonneg I) as HI0. unfold scalar_ok in Hk.
  assert (Hki : scalar_ok ki). { pose proof (Z.mod_pos_bound (IL I + k) secp_n secp_n_pos). unfold scalar_ok. lia. }
  split; [|split; [|eexists; exact E1]].
  - rewrite (proj1 (C80_absent_l H T K i HP (xprv_wf _ _ _ _ _ _ HF))); [reflexivity| |].
    + unfold K, xprv. fold (key_at 45 (xkey (ser32 (PvtKeyFlag x)) d f n c (x00 :: ser256 k))). rewrite get_45 by exact HF. reflexivity.
    + left. unfold K, xprv. rewrite get_ver by exact HF. rewrite ser32_back by exact R1. exact N1.
  - intros E'. rewrite E1 in E'. injection E' as <-.
    pose proof (proj2 (C80_private_l H (register T x) _ d f n c k i ki ci x [] HP HF Hk L1)) as EN. fold K in EN. split; [exact EN|]. rewrite EN.
    assert (HF' : fields_ok (ser32 (PvtKeyFlag x)) (fingerprint H (kG k)) (ser32 i) ci).
    { repeat split; try apply ser32_length; [apply fpc_length; exact HP|]. rewrite <- ECI. apply IR_length, prims_hmac; exact HP. }
    rewrite (proj2 (C80_private_l H (register T x) _ (bZ (Zb d + 1)) _ _ _ ki i ki ci x [] HP HF' Hki L1)).
    assert (HFP : fields_ok (ser32 (PubKeyFlag x)) f n c) by (destruct HF as (_ & a); split; [apply ser32_length|exact a]).
    refine (proj1 (C80_public_l H (register T x) _ d f n c (kG k) i (kG ki) ci x [] HP HFP (kG_on k) (scalar_aff k Hk) L2 _ _ HN)); [lia|].
    unfold CKDpub. assert (HARD <=? i = false) as -> by lia. cbv zeta. fold I. assert (secp_n <=? IL I = false) as -> by lia.
    assert (EA : cadd (kG (IL I)) (kG k) = kG ki). { rewrite <- kG_add by lia. rewrite <- EK. symmetry. apply kG_mod_n. lia. }
    rewrite EA. pose proof (scalar_aff ki Hki) as NA. rewrite <- ECI. destruct (kG ki); [congruence|reflexivity].
Qed.

Lemma C80_ex_l : PvtFlagToHDBytesSlice tables0 7 = None /\ PvtFlagToHDBytesSlice (register tables0 (mkVB (B "x") 7 [] 8 [] [] [])) 7 = Some [mkVB (B "x") 7 [] 8 [] [] []] /\
  fields_ok (ser32 7) z4 z4 z32 /\ scalar_ok 1 /\
  (exists H, prims_ok H /\ CKDpriv H 1 z32 5 <> None /\ IL (I_pub H (kG 1) z32 5) <> 0).
Proof.
split; [reflexivity|]. split; [reflexivity|]. split; [repeat split|]. split; [split; [lia|reflexivity]|].
  exists (constP (ILbytes 1)). split; [apply constP_ok, ILbytes_length|]. unfold CKDpriv. cbv zeta. change (I_priv (constP (ILbytes 1)) 1 z32 5) with (ILbytes 1).
  change (I_pub (constP (ILbytes 1)) (kG 1) z32 5) with (ILbytes 1). rewrite IL_ILbytes by lia. split; discriminate.
Qed.
