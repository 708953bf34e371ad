(** ClaimsUtil.v - the property statements of PropsUtil.v with their proofs. *)
From Verif Require Import Base BaseFacts GoStr GoStrFacts HexFacts Prims Hash HashFacts Secp Fp ECGroup SpecEC SecpGroup SecpOrder SecpFacts Cert130 Base58 Base58Facts SpecPath SpecBip32 SpecUtil Bip32Path Bip32Reg Bip32 Bip32RegFacts Bip32KeyFacts Bip32Facts Bip32Facts2 Bip32PathFacts Util UtilFacts Claims32 ClaimsPath.
From Coq Require Import ZifyBool ZifyNat ZifyN.

Lemma nth_error_Some_lt {A} (l : list A) n x : nth_error l n = Some x -> (n < length l)%nat.
Proof. intros E. apply nth_error_Some. rewrite E. discriminate. Qed.
Lemma hexdig_val c n : hexdig c n <-> hexval c = Some n.
Proof.
  split.
  - intros [Hn [E|E]]; assert (Z.to_nat n < 16)%nat as L by (apply nth_error_Some_lt in E; exact E); rewrite <- (Z2Nat.id n Hn); clear Hn;
      revert c E; generalize dependent (Z.to_nat n); intros m; do 16 (destruct m as [|m]; [intros _ c E; injection E as <-; reflexivity|]); lia.
  - intros E. assert (A : forall c, match hexval c with Some n => (0 <=? n) && ((match nth_error (B "0123456789abcdef") (Z.to_nat n) with Some d => Byte.eqb d c | None => false end) ||
      (match nth_error (B "0123456789ABCDEF") (Z.to_nat n) with Some d => Byte.eqb d c | None => false end)) | None => true end = true) by (intros []; reflexivity).
    specialize (A c). rewrite E in A. apply andb_true_iff in A as [A1 A2]. split; [lia|]. apply orb_true_iff in A2 as [A|A]; [left|right].
    + destruct (nth_error (B "0123456789abcdef") (Z.to_nat n)) as [d|]; [|discriminate]. apply byte_eqb_spec in A. subst. reflexivity.
    + destruct (nth_error (B "0123456789ABCDEF") (Z.to_nat n)) as [d|]; [|discriminate]. apply byte_eqb_spec in A. subst. reflexivity.
Qed.
Lemma hexval_range c n : hexval c = Some n -> 0 <= n < 16.
Proof. intros E. apply hexdig_val in E as [Hn [E|E]]; apply nth_error_Some_lt in E; cbn [B length] in E; change (length (B _)) with 16%nat in E; lia. Qed.
Lemma hexes_iff s b : hexes s b <-> HexDecode s = Some b.
Proof.
  split.
  - induction 1 as [|c d h l s x b Hc Hd Hx _ IH]; [reflexivity|]. cbn [HexDecode]. apply hexdig_val in Hc, Hd. rewrite Hc, Hd, IH. do 2 f_equal.
    rewrite Z.mul_comm, <- Hx. apply bZ_Zb.
  - assert (G : forall n s b, (length s <= n)%nat -> HexDecode s = Some b -> hexes s b).
    { clear s b. induction n as [|n IH]; intros s b Hn E.
      - destruct s; [|cbn in Hn; lia]. injection E as <-. constructor.
      - destruct s as [|c [|d s]]; [injection E as <-; constructor|discriminate|]. cbn [HexDecode] in E.
        destruct (hexval c) as [h|] eqn:Ec; [|discriminate]. destruct (hexval d) as [l|] eqn:Ed; [|discriminate].
        destruct (HexDecode s) as [r|] eqn:Es; [|discriminate]. assert (b = bZ (h * 16 + l) :: r) as -> by congruence.
        pose proof (hexval_range _ _ Ec). pose proof (hexval_range _ _ Ed). cbn [length] in Hn.
        apply hexes_cons with (h := h) (l := l); [apply hexdig_val; exact Ec|apply hexdig_val; exact Ed| |apply IH; [lia|exact Es]].
        rewrite Zb_bZ, Z.mod_small by lia. lia. }
    apply (G (length s)). apply Nat.le_refl.
Qed.
Lemma xprv_nonzero v d f n c s : fields_ok v f n c -> scalar_ok s -> forallb (fun v => Byte.eqb v x00) (xprv v d f n c s) = false.
Proof.
  intros HF Hs. destruct (forallb _ _) eqn:Z0; [|reflexivity]. exfalso. apply allzero in Z0. rewrite (xprv_wf _ _ _ _ _ _ HF) in Z0.
  pose proof (xprv_pvt v d f n c s HF) as Q. rewrite Z0 in Q. destruct Hs as [H1 H2].
  assert (R : be_Z (ser256 s) = s) by (apply ser256_back; unfold secp_n in H2; lia). rewrite <- Q in R. change (0 = s) in R. lia.
Qed.
Lemma xprv_root v f n c s : fields_ok v f n c -> scalar_ok s -> root_key (xprv v x00 f n c s).
Proof.
  intros HF Hs. split; [apply xprv_wf; exact HF|]. split; [apply exists_nonzero, xprv_nonzero; assumption|].
  split; [exact (get_45 v x00 f n c (x00 :: ser256 s) HF)|exact (get_dep v x00 f n c (x00 :: ser256 s) HF)].
Qed.
Lemma RootKey_spec H s b : prims_ok H -> HexDecode s = Some b -> (16 <= length b)%nat ->
  RootKeyFromSeed H s = match master H b with Some (k, c) => Ret (Some (xprv xprv_version x00 z4 (ser32 0) c k), None) | None => Panic end.
Proof.
  intros HP E L. unfold RootKeyFromSeed. rewrite E. assert (Nat.ltb (length b) 16 = false) as -> by (apply Nat.ltb_ge; exact L).
  rewrite NewMasterKey_spec by exact HP. destruct (master H b) as [[k c]|] eqn:M; [|reflexivity]. cbn [bind].
  change (repeat x00 4) with z4.
  assert (MK : scalar_ok k /\ length c = 32%nat).
  { unfold master in M. cbv zeta in M. destruct ((IL (I_master H b) =? 0) || (secp_n <=? IL (I_master H b))) eqn:C; [discriminate|].
    assert (k = IL (I_master H b)) by congruence. assert (c = IR (I_master H b)) by congruence. subst k c.
    assert (LI : length (I_master H b) = 64%nat) by apply HP. split; [|unfold IR; rewrite skipn_length, LI; reflexivity].
    apply orb_false_iff in C as [C1 C2]. unfold scalar_ok, IL, parse256 in *. pose proof (be_Z_range (firstn 32 (I_master H b))). lia. }
  destruct MK as [Hk Lc]. assert (HF : fields_ok xprv_version z4 (ser32 0) c) by (repeat split; exact Lc).
  pose proof (xprv_wf xprv_version x00 z4 (ser32 0) c k HF) as HK. rewrite Serialize_spec by exact HK. rewrite (xprv_nonzero _ _ _ _ _ _ HF Hk).
  rewrite Deserialize_spec by exact HP. cbn [bind]. rewrite app_length, HK, checksum_length by exact HP. cbn [Nat.add Nat.eqb].
  rewrite firstn_exact, skipn_exact by exact HK. rewrite bytes_eqb_refl. reflexivity.
Qed.

Lemma C40_root_key_l : forall H s k, prims_ok H ->
  (RootKeyFromSeed H s = Ret (k, None) <->
   exists b key, hexes s b /\ (16 <= length b)%nat /\ k = Some key /\ NewMasterKey H b = Ret (Some key, None)).
Proof.
intros H s k HP. split.
  - intros E. destruct (HexDecode s) as [b|] eqn:D; [|unfold RootKeyFromSeed in E; rewrite D in E; discriminate].
    destruct (Nat.ltb (length b) 16) eqn:L; [unfold RootKeyFromSeed in E; rewrite D, L in E; discriminate|]. apply Nat.ltb_ge in L.
    rewrite (RootKey_spec H s b HP D L) in E. exists b. pose proof (NewMasterKey_spec H b HP) as M. change (repeat x00 4) with z4 in M. destruct (master H b) as [[z c]|]; [|discriminate].
    eexists. split; [apply hexes_iff; exact D|]. split; [exact L|]. split; [|exact M]. congruence.
  - intros (b & key & D & L & -> & M). apply hexes_iff in D. rewrite (RootKey_spec H s b HP D L). rewrite NewMasterKey_spec in M by exact HP.
    change (repeat x00 4) with z4 in M. destruct (master H b) as [[z c]|]; [|discriminate]. congruence.
Qed.

Lemma C40_rejects_l : forall H s, ((forall b, ~ hexes s b) -> RootKeyFromSeed H s = Ret (Some (repeat x00 78), Some ErrHex)) /\
  (forall b, hexes s b -> (length b < 16)%nat -> RootKeyFromSeed H s = Ret (Some (repeat x00 78), Some ErrInvalidBIP39Seed)).
Proof.
intros H s. split.
  - intros N. unfold RootKeyFromSeed. destruct (HexDecode s) as [b|] eqn:D; [|reflexivity]. exfalso. apply (N b). apply hexes_iff. exact D.
  - intros b D L. apply hexes_iff in D. unfold RootKeyFromSeed. rewrite D. apply Nat.ltb_lt in L. rewrite L. reflexivity.
Qed.

Lemma C40_panic_refuted_l : forall H s b, prims_ok H -> hexes s b -> (16 <= length b)%nat ->
  NewMasterKey H b = Ret (None, Some ErrInvalidPrivateKey) -> RootKeyFromSeed H s = Panic.
Proof.
intros H s b HP D L M. apply hexes_iff in D. rewrite (RootKey_spec H s b HP D L). rewrite NewMasterKey_spec in M by exact HP.
  destruct (master H b) as [[z c]|]; [discriminate|reflexivity].
Qed.

Lemma C40_ex_l : hexes (B "00Ff") [x00; xff] /\ (forall b, ~ hexes (B "0g") b) /\ hexes (repeat x30 32) (repeat x00 16) /\
(exists H, prims_ok H /\ NewMasterKey H (repeat x00 16) = Ret (None, Some ErrInvalidPrivateKey)) /\
(exists H key, prims_ok H /\ NewMasterKey H (repeat x00 16) = Ret (Some key, None)).
Proof.
split; [apply hexes_iff; reflexivity|]. split; [intros b Hb; apply hexes_iff in Hb; discriminate|]. split; [apply hexes_iff; reflexivity|]. split.
  - exists (constP (ILbytes 0)). split; [apply constP_ok, ILbytes_length|]. rewrite NewMasterKey_spec by apply constP_ok, ILbytes_length.
    unfold master. change (I_master (constP (ILbytes 0)) (repeat x00 16)) with (ILbytes 0). rewrite IL_ILbytes by lia. reflexivity.
  - exists (constP (ILbytes 1)). eexists. split; [apply constP_ok, ILbytes_length|]. rewrite NewMasterKey_spec by apply constP_ok, ILbytes_length.
    unfold master. change (I_master (constP (ILbytes 1)) (repeat x00 16)) with (ILbytes 1). rewrite IL_ILbytes by lia. reflexivity.
Qed.

Lemma root_derive H T root p vs : prims_ok H -> after_init T -> root_key root -> ValuesAtDepth p = (0 :: vs, None) ->
  exists kps, DeriveBIP32Result H T root p = Ret (mkKP (B "m") root :: kps, None) /\ linked H T (B "m") root vs kps.
Proof. intros HP HT (L & NZ & H45 & H4) EV. apply Derive_spec; assumption. Qed.

Lemma C41_chain_l : forall H T root p vs, prims_ok H -> after_init T -> root_key root -> ValuesAtDepth p = (0 :: vs, None) ->
  exists kps, DeriveBIP32Result H T root p = Ret (kps, None) /\ length kps = S (length vs) /\
    nth_error kps 0 = Some (mkKP (B "m") root) /\
    (forall j v, nth_error vs j = Some v -> exists kp kp' e, nth_error kps j = Some kp /\ nth_error kps (S j) = Some kp' /\
       NewChildKey H T (KKey kp) v = Ret (KKey kp', e)).
Proof.
intros H T root p vs HP HT HR EV. destruct (root_derive H T root p vs HP HT HR EV) as (kps & E & L). exists (mkKP (B "m") root :: kps).
  split; [exact E|]. split; [cbn [length]; f_equal; apply (linked_length _ _ _ _ _ _ L)|]. split; [reflexivity|]. intros j v Hj.
  destruct (linked_nth _ _ _ _ _ _ L j v Hj) as (kp' & prev & e & A & C & D). change (root :: map KKey kps) with (map KKey (mkKP (B "m") root :: kps)) in C.
  rewrite nth_error_map in C. destruct (nth_error (mkKP (B "m") root :: kps) j) as [kp|] eqn:N; [|discriminate]. cbn [option_map] in C.
  exists kp, kp', e. split; [reflexivity|]. split; [exact A|]. congruence.
Qed.

Lemma C41_prefix_l : forall H T root p p' vs ws, prims_ok H -> after_init T -> root_key root -> ValuesAtDepth p = (0 :: vs, None) -> ValuesAtDepth p' = (0 :: vs ++ ws, None) ->
  exists kps more, DeriveBIP32Result H T root p = Ret (kps, None) /\ DeriveBIP32Result H T root p' = Ret (kps ++ more, None) /\ length more = length ws.
Proof.
intros H T root p p' vs ws HP HT HR EV EV'. destruct (root_derive H T root p vs HP HT HR EV) as (kps & E & L). destruct (root_derive H T root p' (vs ++ ws) HP HT HR EV') as (kps' & E' & L').
  exists (mkKP (B "m") root :: kps), (skipn (length vs) kps'). split; [exact E|]. pose proof (linked_length _ _ _ _ _ _ L') as LL. rewrite app_length in LL.
  split; [|rewrite skipn_length; lia]. rewrite E'. pose proof (linked_fun _ _ _ _ _ _ _ L (linked_app _ _ _ _ _ _ _ L')) as F. rewrite F at 1. cbn [app]. rewrite firstn_skipn. reflexivity.
Qed.

Lemma C41_values_only_l : forall H T root p p', ValuesAtDepth p = ValuesAtDepth p' -> DeriveBIP32Result H T root p = DeriveBIP32Result H T root p'.
Proof.
intros H T root p p' E. unfold DeriveBIP32Result, PathIsValid. rewrite E. reflexivity.
Qed.

Lemma C41_rejects_l : forall H T root p, prims_ok H -> length root = 78%nat ->
  (~ root_key root -> DeriveBIP32Result H T root p = Ret ([], Some ErrInvalidRootKey)) /\
  (root_key root -> PathIsValid p = false -> DeriveBIP32Result H T root p = Ret ([], Some ErrUtilUnSupportedOrInvalidPath)).
Proof.
intros H T root p HP HK. unfold DeriveBIP32Result. rewrite KeyIsValid_l by assumption. cbn [bind]. split.
  - intros N. destruct (forallb _ root) eqn:Z0; [reflexivity|]. cbn [negb orb]. unfold IsPrivate, key_at.
    destruct (Byte.eqb (nth 45 root x00) x00) eqn:E45; [|reflexivity]. destruct (Byte.eqb (nth 4 root x00) x00) eqn:E4; [|reflexivity].
    exfalso. apply N. apply byte_eqb_spec in E45, E4. split; [exact HK|]. split; [apply exists_nonzero; exact Z0|]. split; assumption.
  - intros (_ & NZ & E45 & E4) EV. apply exists_nonzero in NZ. rewrite NZ. unfold IsPrivate, key_at. rewrite E45, E4, byte_eqb_refl. cbn [negb orb]. rewrite EV. reflexivity.
Qed.

Lemma C41_ex_l : root_key (xprv xprv_version x00 z4 z4 z32 1) /\ ValuesAtDepth (B "m/44'/1") = ([0; 2147483692; 1], None) /\ ~ root_key (xprv xprv_version x01 z4 z4 z32 1) /\
ValuesAtDepth (B " M/44' /1") = ValuesAtDepth (B "m/44'/1").
Proof.
split; [|split; [vm_compute; reflexivity|split; [|vm_compute; reflexivity]]].
  - split; [vm_compute; reflexivity|]. split; [exists x04; split; [vm_compute; tauto|discriminate]|]. split; vm_compute; reflexivity.
  - intros (_ & _ & _ & E). vm_compute in E. discriminate.
Qed.

Lemma zero_not_registered : ~ pvt_registered (slice 0 4 (repeat x00 78)).
Proof. intros (q & Hq). change (be_Z (slice 0 4 (repeat x00 78))) with 0 in Hq. cbn in Hq. intuition discriminate. Qed.
Lemma zero_child H T v : prims_ok H -> after_init T -> NewChildKey H T (repeat x00 78) v = Ret (repeat x00 78, Some ErrUnSupportedHDVersionBytes).
Proof.
  intros HP HT. destruct (C32_unregistered_l H T (repeat x00 78) v HP HT eq_refl) as (A & _). apply A; [reflexivity|exact zero_not_registered].
Qed.
Lemma linked_zero H T vs : prims_ok H -> after_init T -> forall dp kps, linked H T dp (repeat x00 78) vs kps -> Forall (fun kp => KKey kp = repeat x00 78) kps.
Proof.
  intros HP HT. induction vs as [|v vs IH]; intros dp kps L; inversion L; subst; [constructor|].
  match goal with H0 : NewChildKey _ _ _ _ = Ret (?a, _) |- _ => rewrite zero_child in H0 by assumption; assert (a = repeat x00 78) by congruence; subst a end.
  constructor; [reflexivity|]. eapply IH. eassumption.
Qed.
(** The keys of successful derivations. *)
(** In proofs; for util/util.go:91-127. *)
Inductive derived (H : Prims) (T : tables) : bytes -> list Z -> list bytes -> Prop :=
| derived_nil k : derived H T k [] []
| derived_cons k v k' vs ks : NewChildKey H T k v = Ret (k', None) -> derived H T k' vs ks -> derived H T k (v :: vs) (k' :: ks).
Lemma derives_derived H T vs : forall k k', derives H T k vs k' -> exists ks, derived H T k vs ks /\ last (k :: ks) k = k'.
Proof.
  induction vs as [|v vs IH]; intros k k' D; inversion D; subst; [exists []; split; [constructor|reflexivity]|].
  match goal with H0 : derives _ _ ?a _ _ |- _ => destruct (IH _ _ H0) as (ks & A & C); exists (a :: ks) end. split; [econstructor; eassumption|].
  rewrite <- C. destruct ks as [|x ks]; [reflexivity|]. change (last (x :: ks) k = last (x :: ks) k'0). clear. revert x. induction ks as [|y ks IH]; intros x; [reflexivity|]. apply IH.
Qed.
Lemma linked_derived H T vs : forall dp k kps ks, linked H T dp k vs kps -> derived H T k vs ks -> map KKey kps = ks.
Proof.
  induction vs as [|v vs IH]; intros dp k kps ks L D; inversion L; inversion D; subst; [reflexivity|].
  match goal with H0 : NewChildKey _ _ _ _ = Ret (?a, _), H1 : NewChildKey _ _ _ _ = Ret (?b, None) |- _ => assert (a = b) by congruence; subst a end.
  cbn [map KKey]. f_equal. eapply IH; eassumption.
Qed.
Lemma derived_valid H T vs : prims_ok H -> after_init T -> forall v d f n c s ks, fields_ok v f n c -> scalar_ok s -> pvt_registered v ->
  derived H T (xprv v d f n c s) vs ks -> forall j i, nth_error vs j = Some i -> exists f' c' s', nth_error ks j = Some (xprv v (bZ (Zb d + Z.of_nat (S j))) f' (ser32 i) c' s') /\
    fields_ok v f' (ser32 i) c' /\ scalar_ok s'.
Proof.
  intros HP HT. induction vs as [|i0 vs IH]; intros v d f n c s ks HF Hs HV D j i Hj; [destruct j; discriminate|]. inversion D as [|? ? k1 ? ks1 E D']; subst.
  destruct (child_priv_inv H T HP HT _ i0 k1 (xprv_wf _ _ _ _ _ _ HF) ltac:(unfold xprv; rewrite get_45 by exact HF; reflexivity) E) as (v' & d' & f' & n' & c' & s' & EX & HF' & Hs' & HV' & Hk & Ek).
  unfold xprv in EX. apply xkey_inj in EX as (<- & <- & <- & <- & <- & ED); [|assumption..].
  cbv zeta in Hk, Ek. pose proof (child_fields H HP _ _ _ _ s' i0 HF) as HF2.
  destruct j as [|j].
  - cbn in Hj. assert (i0 = i) by congruence. subst i0. cbn [nth_error]. rewrite Ek. do 3 eexists. split; [reflexivity|]. split; [exact HF2|exact Hk].
  - rewrite Ek in D'. destruct (IH _ _ _ _ _ _ _ HF2 Hk HV D' j i Hj) as (f1 & c1 & s1 & A & C & F). exists f1, c1, s1. split; [|split; assumption].
    cbn [nth_error]. rewrite A. do 2 f_equal. rewrite Zb_bZ. apply Zb_inj. rewrite !Zb_bZ, Zplus_mod_idemp_l. f_equal. lia.
Qed.

Lemma C42_unregistered_refuted_l : forall H T root p vs, prims_ok H -> after_init T -> root_key root -> ~ pvt_registered (slice 0 4 root) -> ValuesAtDepth p = (0 :: vs, None) ->
  exists kps, DeriveBIP32Result H T root p = Ret (mkKP (B "m") root :: kps, None) /\ length kps = length vs /\ Forall (fun kp => KKey kp = repeat x00 78) kps.
Proof.
intros H T root p vs HP HT HR N EV. destruct (root_derive H T root p vs HP HT HR EV) as (kps & E & L). exists kps. split; [exact E|]. split; [apply (linked_length _ _ _ _ _ _ L)|].
  destruct L as [|dp k v k' e r kps EC L]; [constructor|]. destruct HR as (HK & _ & H45 & _).
  destruct (C32_unregistered_l H T k v HP HT HK) as (A & _). rewrite (A H45 N) in EC. assert (k' = repeat x00 78) by congruence. subst k'.
  constructor; [reflexivity|]. apply (linked_zero H T r HP HT _ _ L).
Qed.

Lemma C42_zero_scalar_refuted_l : forall H T v f n c s p i vs, prims_ok H -> after_init T -> fields_ok v f n c -> scalar_ok s -> pvt_registered v -> ValuesAtDepth p = (0 :: i :: vs, None) ->
  (IL (I_priv H s c i) + s) mod secp_n = 0 ->
  exists kps kp f', DeriveBIP32Result H T (xprv v x00 f n c s) p = Ret (kps, None) /\ nth_error kps 1 = Some kp /\
    KKey kp = xprv v x01 f' (ser32 i) (IR (I_priv H s c i)) 0 /\ ~ valid_xkey (KKey kp).
Proof.
intros H T v f n c s p i vs HP HT HF Hs HV EV E.
  pose proof (xprv_root v f n c s HF Hs) as HR.
  destruct (root_derive H T _ p (i :: vs) HP HT HR EV) as (kps & ED & L). inversion L as [|? ? ? k' e ? kps' EC L']; subst.
  rewrite child_priv in EC by assumption. cbv zeta in EC. rewrite E in EC. change (bZ (Zb x00 + 1)) with x01 in EC.
  exists (mkKP (B "m") (xprv v x00 f n c s) :: mkKP (Formatted (append_val (B "m") i)) k' :: kps'). eexists. exists (fingerprint H (kG s)).
  split; [exact ED|]. split; [reflexivity|]. cbn [KKey]. assert (EK : k' = xprv v x01 (fingerprint H (kG s)) (ser32 i) (IR (I_priv H s c i)) 0) by congruence.
  split; [exact EK|]. intros HVK. rewrite EK in HVK. apply valid_xprv in HVK as [_ [X _]]; [lia| |lia].
  destruct HF as (lv & lf & ln & lc). split; [exact lv|]. split; [|split; [apply Z_be_length|]].
  + unfold fingerprint, hash160. destruct HP as (_ & LR & _). rewrite firstn_length, LR. reflexivity.
  + unfold IR, I_priv. rewrite skipn_length. destruct HP as (_ & _ & LH & _). rewrite LH. reflexivity.
Qed.

Lemma C42_valid_entries_l : forall H T v f n c s p vs k', prims_ok H -> after_init T -> fields_ok v f n c -> scalar_ok s -> pvt_registered v ->
  ValuesAtDepth p = (0 :: vs, None) -> derives H T (xprv v x00 f n c s) vs k' ->
  exists kps, DeriveBIP32Result H T (xprv v x00 f n c s) p = Ret (kps, None) /\
    forall j i, nth_error vs j = Some i -> exists q f' c' s', nth_error kps (S j) = Some (mkKP q (xprv v (bZ (Z.of_nat (S j))) f' (ser32 i) c' s')) /\
      fields_ok v f' (ser32 i) c' /\ scalar_ok s'.
Proof.
intros H T v f n c s p vs k' HP HT HF Hs HV EV D. destruct (derives_derived H T vs _ _ D) as (ks & DD & _).
  pose proof (xprv_root v f n c s HF Hs) as HR.
  destruct (root_derive H T _ p vs HP HT HR EV) as (kps & ED & L). exists (mkKP (B "m") (xprv v x00 f n c s) :: kps). split; [exact ED|]. intros j i Hj.
  destruct (derived_valid H T vs HP HT _ _ _ _ _ _ _ HF Hs HV DD j i Hj) as (f' & c' & s' & A & C & F). rewrite <- (linked_derived _ _ _ _ _ _ _ L DD), nth_error_map in A.
  cbn [nth_error]. destruct (nth_error kps j) as [[q key]|]; [|discriminate]. cbn [option_map KKey] in A. exists q, f', c', s'. split; [|split; assumption].
  do 2 f_equal. change (Zb x00 + Z.of_nat (S j)) with (Z.of_nat (S j)) in A. congruence.
Qed.

Lemma C42_ex_l : root_key (xprv z4 x00 z4 z4 z32 1) /\ ~ pvt_registered (slice 0 4 (xprv z4 x00 z4 z4 z32 1)) /\
(exists H, prims_ok H /\ (IL (I_priv H 1 z32 5) + 1) mod secp_n = 0) /\
(exists H k', prims_ok H /\ derives H T0 (xprv xprv_version x00 z4 z4 z32 1) [0; 5] k') /\ ValuesAtDepth (B "m/0/5") = ([0; 0; 5], None).
Proof.
split; [split; [vm_compute; reflexivity|split; [exists x01; split; [vm_compute; tauto|discriminate]|split; vm_compute; reflexivity]]|].
  split; [intros (q & Hq); change (be_Z (slice 0 4 (xprv z4 x00 z4 z4 z32 1))) with 0 in Hq; cbn in Hq; intuition discriminate|]. split; [|split; [|vm_compute; reflexivity]].
  - exists (constP (ILbytes (secp_n - 1))). split; [apply constP_ok, ILbytes_length|]. change (I_priv (constP (ILbytes (secp_n - 1))) 1 z32 5) with (ILbytes (secp_n - 1)).
    rewrite IL_ILbytes by (unfold secp_n; lia). rewrite Z.sub_add. apply Z.mod_same. discriminate.
  - exists (constP (ILbytes 1)). destruct (two_steps (constP (ILbytes 1)) (constP_ok _ (ILbytes_length 1)) (fun _ _ => eq_refl)) as (k' & D). exists k'.
    split; [apply constP_ok, ILbytes_length|]. clear - D. induction D; econstructor; eassumption.
Qed.

Lemma dtext_spec vs : Forall (fun v => 0 <= v < 2 ^ 32) vs ->
  dtext (B "m") vs = B "m" ++ concat (map (fun v => if v <? 2 ^ 31 then soft_text (Itoa v) else hard_text (Itoa (v - 2 ^ 31))) vs).
Proof.
  intros HV. unfold dtext. do 2 f_equal. apply map_ext_in. intros v Hv. rewrite Forall_forall in HV. rewrite <- txt_eq by (apply HV; exact Hv).
  destruct (v <? 2 ^ 31); reflexivity.
Qed.

Lemma C43_path_text_l : forall H T root p vs kps, prims_ok H -> after_init T -> root_key root -> ValuesAtDepth p = (0 :: vs, None) -> DeriveBIP32Result H T root p = Ret (kps, None) ->
  forall j kp, nth_error kps j = Some kp ->
    KPath kp = B "m" ++ concat (map (fun v => if v <? 2 ^ 31 then soft_text (Itoa v) else hard_text (Itoa (v - 2 ^ 31))) (firstn j vs)).
Proof.
intros H T root p vs kps HP HT HR EV E j kp Hj. destruct (root_derive H T root p vs HP HT HR EV) as (kps' & E' & L). assert (kps = mkKP (B "m") root :: kps') as -> by congruence.
  destruct (values_range p _ EV) as (vs' & EV' & RV). assert (vs' = vs) by congruence. subst vs'. destruct j as [|j].
  - cbn [nth_error] in Hj. assert (mkKP (B "m") root = kp) as <- by congruence. reflexivity.
  - cbn [nth_error] in Hj. rewrite (linked_path _ _ _ _ _ _ L (Forall_impl _ (fun v (Hv : 0 <= v < 2 ^ 32) => proj1 Hv) RV) j kp Hj).
    assert (RV' : Forall (fun v => 0 <= v < 2 ^ 32) (firstn (S j) vs)) by (rewrite <- (firstn_skipn (S j) vs) in RV; apply Forall_app in RV; tauto).
    rewrite <- dtext_spec by exact RV'. apply dtext_nows; [left; reflexivity|]. eapply Forall_impl; [|exact RV']. intros v Hv. exact (proj1 Hv).
Qed.

Lemma C43_path_values_l : forall H T root p vs kps, prims_ok H -> after_init T -> root_key root -> ValuesAtDepth p = (0 :: vs, None) -> DeriveBIP32Result H T root p = Ret (kps, None) ->
  forall j kp, nth_error kps j = Some kp ->
    (PathIsValid (KPath kp) = true <-> hardened_first (firstn j vs)) /\
    (forall l, ValuesAtDepth (KPath kp) = (l, None) -> l = 0 :: firstn j vs).
Proof.
intros H T root p vs kps HP HT HR EV E j kp Hj. rewrite (C43_path_text_l H T root p vs kps HP HT HR EV E j kp Hj).
  destruct (values_range p _ EV) as (vs' & EV' & RV). assert (vs' = vs) by congruence. subst vs'.
  assert (RV' : Forall (fun v => 0 <= v < 2 ^ 32) (firstn j vs)) by (rewrite <- (firstn_skipn j vs) in RV; apply Forall_app in RV; tauto).
  rewrite <- dtext_spec by exact RV'. apply (dtext_valid x6d); [left; reflexivity|exact RV'].
Qed.

Lemma C43_own_path_rejected_refuted_l : forall H T root, prims_ok H -> after_init T -> root_key root ->
  PathIsValid (B "m/0/2147483648") = true /\
  exists kps kp, DeriveBIP32Result H T root (B "m/0/2147483648") = Ret (kps, None) /\ nth_error kps 2 = Some kp /\ KPath kp = B "m/0/0'" /\ PathIsValid (KPath kp) = false.
Proof.
intros H T root HP HT HR. assert (EV : ValuesAtDepth (B "m/0/2147483648") = ([0; 0; 2147483648], None)) by (vm_compute; reflexivity).
  split; [unfold PathIsValid; rewrite EV; reflexivity|]. destruct (C41_chain_l H T root _ _ HP HT HR EV) as (kps & E & L & _).
  destruct (nth_error kps 2) as [kp|] eqn:N; [|apply nth_error_None in N; rewrite L in N; cbn in N; lia]. exists kps, kp.
  assert (K : KPath kp = B "m/0/0'") by (rewrite (C43_path_text_l H T root _ _ _ HP HT HR EV E 2%nat kp N); vm_compute; reflexivity).
  split; [exact E|]. split; [exact N|]. split; [exact K|]. rewrite K. vm_compute. reflexivity.
Qed.

Lemma C43_ex_l : root_key (xprv xprv_version x00 z4 z4 z32 1) /\ hardened_first [2147483692; 5] /\ ~ hardened_first [0; 2147483648].
Proof.
split; [exact (proj1 C41_ex_l)|]. split.
  - exists [2147483692], [5]. split; [reflexivity|]. split; constructor; try constructor; lia.
  - intros (hs & ss & E & Hh & Hs). destruct hs as [|h [|h2 hs]]; cbn [app] in E.
    + subst ss. inversion Hs as [|? ? _ Hs']. inversion Hs' as [|? ? X _]. lia.
    + assert (h = 0) by congruence. subst h. inversion Hh. lia.
    + assert (h = 0) by congruence. subst h. inversion Hh. lia.
Qed.

Lemma range_derive H T kr : prims_ok H -> after_init T -> length (KKey (RKeyPath kr)) = 78%nat -> (exists x, In x (KKey (RKeyPath kr)) /\ x <> x00) ->
  PathIsValid (KPath (RKeyPath kr)) = true -> 0 <= StartIndex kr < EndIndex kr -> EndIndex kr < 2 ^ 32 ->
  exists kps, GenerateRange H T kr = Ret (mkKPR (StartIndex kr) (EndIndex kr) (RKeyPath kr) kps, None) /\
    linked H T (PathString (KPath (RKeyPath kr))) (KKey (RKeyPath kr)) (zseq (StartIndex kr) (Z.to_nat (EndIndex kr - StartIndex kr))) kps.
Proof.
  intros HP HT HK NZ HV HS HE. unfold GenerateRange. rewrite u32_small by lia. assert (EndIndex kr - StartIndex kr <? 1 = false) as -> by lia.
  rewrite KeyIsValid_l by assumption. apply exists_nonzero in NZ. rewrite NZ. cbn [bind negb]. rewrite HV. cbn [negb].
  destruct (range_loop_ok H T (Z.to_nat (EndIndex kr - StartIndex kr)) HP HT (PathString (KPath (RKeyPath kr))) (KKey (RKeyPath kr)) (StartIndex kr) (EndIndex kr)) as (kps & E & L); [exact HK|lia|lia|lia|].
  exists kps. rewrite E. cbn [bind]. split; [reflexivity|exact L].
Qed.
Lemma zseq_range n : forall i, 0 <= i -> i + Z.of_nat n <= 2 ^ 32 -> Forall (fun v => 0 <= v < 2 ^ 32) (zseq i n).
Proof. induction n as [|n IH]; intros i Hi Hn; cbn [zseq]; [constructor|]. constructor; [lia|]. apply IH; lia. Qed.
Lemma nth_error_firstn {A} (l : list A) n j : (j < n)%nat -> nth_error (firstn n l) j = nth_error l j.
Proof. revert n j. induction l as [|x l IH]; intros [|n] [|j] Hj; try lia; try reflexivity. cbn [firstn nth_error]. apply IH. lia. Qed.
Lemma last_nth_error {A} (l : list A) d j : length l = S j -> Some (last l d) = nth_error l j.
Proof.
  revert j. induction l as [|x l IH]; intros j L; [discriminate|]. destruct l as [|y l]; [destruct j; [reflexivity|discriminate]|].
  destruct j as [|j]; [discriminate|]. change (last (x :: y :: l) d) with (last (y :: l) d). apply IH. cbn [length] in *. lia.
Qed.
Lemma PathString_app a b : PathString (a ++ b) = PathString a ++ PathString b.
Proof. apply filter_app. Qed.
Lemma zseq_app n m : forall i, zseq i (n + m) = zseq i n ++ zseq (i + Z.of_nat n) m.
Proof.
  induction n as [|n IH]; intros i; cbn [Nat.add zseq app]; [f_equal; lia|]. f_equal. rewrite IH. do 2 f_equal. lia.
Qed.

Lemma C44_chain_l : forall H T kr, prims_ok H -> after_init T -> length (KKey (RKeyPath kr)) = 78%nat -> (exists x, In x (KKey (RKeyPath kr)) /\ x <> x00) ->
  PathIsValid (KPath (RKeyPath kr)) = true -> 0 <= StartIndex kr < EndIndex kr -> EndIndex kr < 2 ^ 32 ->
  exists kps, GenerateRange H T kr = Ret (mkKPR (StartIndex kr) (EndIndex kr) (RKeyPath kr) kps, None) /\ Z.of_nat (length kps) = EndIndex kr - StartIndex kr /\
    (forall j, (j < length kps)%nat -> exists prev kp e, nth_error (KKey (RKeyPath kr) :: map KKey kps) j = Some prev /\ nth_error kps j = Some kp /\
       NewChildKey H T prev (StartIndex kr + Z.of_nat j) = Ret (KKey kp, e)).
Proof.
intros H T kr HP HT HK NZ HV HS HE. destruct (range_derive H T kr HP HT HK NZ HV HS HE) as (kps & E & L). exists kps. split; [exact E|].
  pose proof (linked_length _ _ _ _ _ _ L) as LL. rewrite zseq_length in LL. split; [lia|]. intros j Hj.
  destruct (linked_nth _ _ _ _ _ _ L j (StartIndex kr + Z.of_nat j)) as (kp & prev & e & A & C & D); [apply zseq_nth; lia|].
  exists prev, kp, e. split; [exact C|]. split; [exact A|exact D].
Qed.

Lemma C44_paths_l : forall H T kr kps s, prims_ok H -> after_init T -> length (KKey (RKeyPath kr)) = 78%nat -> 0 <= StartIndex kr < EndIndex kr -> EndIndex kr < 2 ^ 32 ->
  stripped (KPath (RKeyPath kr)) s -> GenerateRange H T kr = Ret (mkKPR (StartIndex kr) (EndIndex kr) (RKeyPath kr) kps, None) ->
  (exists x, In x (KKey (RKeyPath kr)) /\ x <> x00) -> PathIsValid (KPath (RKeyPath kr)) = true ->
  forall j kp, nth_error kps j = Some kp -> KPath kp = s ++ concat (map (fun v => if v <? 2 ^ 31 then soft_text (Itoa v) else hard_text (Itoa (v - 2 ^ 31)))
    (map (fun i => StartIndex kr + Z.of_nat i) (seq 0 (S j)))).
Proof.
intros H T kr kps s HP HT HK HS HE ST E NZ HV j kp Hj. destruct (range_derive H T kr HP HT HK NZ HV HS HE) as (kps' & E' & L).
  assert (kps' = kps) by congruence. subst kps'. clear E E'. apply stripped_iff in ST.
  set (n := Z.to_nat (EndIndex kr - StartIndex kr)) in *. pose proof (zseq_range n (StartIndex kr) ltac:(lia) ltac:(lia)) as RV.
  pose proof (linked_length _ _ _ _ _ _ L) as LL. rewrite zseq_length in LL. assert (Hjn : (j < length kps)%nat) by (apply nth_error_Some; rewrite Hj; discriminate).
  assert (RV0 : Forall (fun v => 0 <= v) (zseq (StartIndex kr) n)) by (eapply Forall_impl; [|exact RV]; intros v Hv; exact (proj1 Hv)).
  rewrite (linked_path _ _ _ _ _ _ L RV0 j kp Hj). subst s.
  assert (Q : firstn (S j) (zseq (StartIndex kr) n) = map (fun i => StartIndex kr + Z.of_nat i) (seq 0 (S j))).
  { replace n with (S j + (n - S j))%nat by lia. rewrite zseq_app, firstn_exact by apply zseq_length. clear. generalize (StartIndex kr) as i, (S j) as m. intros i m.
    assert (G : forall m b, zseq (i + Z.of_nat b) m = map (fun k => i + Z.of_nat k) (seq b m)).
    { clear. induction m as [|m IH]; intros b; cbn [zseq seq map]; [reflexivity|]. f_equal. rewrite <- IH. f_equal. lia. }
    rewrite <- (G m 0%nat). f_equal. lia. }
  rewrite <- Q. assert (RV' : Forall (fun v => 0 <= v < 2 ^ 32) (firstn (S j) (zseq (StartIndex kr) n))) by (rewrite <- (firstn_skipn (S j)) in RV; apply Forall_app in RV; tauto).
  unfold dtext. rewrite PathString_app. f_equal; [apply PathString_idem|].
  revert RV'. generalize (firstn (S j) (zseq (StartIndex kr) n)) as vs. clear. intros vs HV. induction HV as [|v vs Hv HV IH]; [reflexivity|].
  cbn [map concat]. rewrite PathString_app, IH. f_equal. rewrite <- (txt_eq v Hv). rewrite PathString_nows.
  + destruct (v <? 2 ^ 31); reflexivity.
  + rewrite (txt_eq v Hv). apply Forall_app. split; [repeat constructor|]. apply val_text_nows. exact (proj1 Hv).
Qed.

Lemma C44_not_siblings_refuted_l : forall H T kr j k', prims_ok H -> after_init T -> length (KKey (RKeyPath kr)) = 78%nat -> (exists x, In x (KKey (RKeyPath kr)) /\ x <> x00) ->
  PathIsValid (KPath (RKeyPath kr)) = true -> 0 <= StartIndex kr < EndIndex kr -> EndIndex kr < 2 ^ 32 ->
  (1 <= j <= 255)%nat -> Z.of_nat j < EndIndex kr - StartIndex kr ->
  derives H T (KKey (RKeyPath kr)) (map (fun i => StartIndex kr + Z.of_nat i) (seq 0 (S j))) k' ->
  exists kps kp, GenerateRange H T kr = Ret (mkKPR (StartIndex kr) (EndIndex kr) (RKeyPath kr) kps, None) /\ nth_error kps j = Some kp /\ KKey kp = k' /\
    (forall sibling, NewChildKey H T (KKey (RKeyPath kr)) (StartIndex kr + Z.of_nat j) = Ret (sibling, None) -> KKey kp <> sibling).
Proof.
intros H T kr j k' HP HT HK NZ HV HS HE Hj Hj2 D. destruct (range_derive H T kr HP HT HK NZ HV HS HE) as (kps & E & L). exists kps.
  set (n := Z.to_nat (EndIndex kr - StartIndex kr)) in *. pose proof (linked_length _ _ _ _ _ _ L) as LL. rewrite zseq_length in LL.
  destruct (nth_error kps j) as [kp|] eqn:N; [|apply nth_error_None in N; lia]. exists kp. split; [exact E|]. split; [reflexivity|].
  assert (K : KKey kp = k').
  { assert (Q : zseq (StartIndex kr) (S j) = map (fun i => StartIndex kr + Z.of_nat i) (seq 0 (S j))).
    { clear. generalize (StartIndex kr) as i, (S j) as m. intros i m.
      assert (G : forall m b, zseq (i + Z.of_nat b) m = map (fun k => i + Z.of_nat k) (seq b m)).
      { clear. induction m as [|m IH]; intros b; cbn [zseq seq map]; [reflexivity|]. f_equal. rewrite <- IH. f_equal. lia. }
      rewrite <- (G m 0%nat). f_equal. lia. }
    rewrite <- Q in D. destruct (derives_derived H T _ _ _ D) as (ks & DD & EL).
    replace n with (S j + (n - S j))%nat in L by lia. rewrite zseq_app in L. apply linked_app in L. pose proof (linked_derived _ _ _ _ _ _ _ L DD) as M. rewrite zseq_length in M.
    assert (N' : nth_error ks j = Some (KKey kp)) by (rewrite <- M, nth_error_map, nth_error_firstn by lia; rewrite N; reflexivity).
    assert (LK : length ks = S j) by (rewrite <- M, map_length, firstn_length; lia).
    rewrite <- EL. destruct ks as [|x ks]; [discriminate|]. symmetry. change (last (x :: ks) (KKey (RKeyPath kr)) = KKey kp). pose proof (last_nth_error (x :: ks) (KKey (RKeyPath kr)) j LK) as Q2. congruence. }
  split; [exact K|]. intros sib ES EQ. rewrite K in EQ. subst sib.
  pose proof (derives_depth H T _ _ _ HP HT HK D) as D1. destruct (child_depth_any H T _ _ _ HP HT HK ES) as [D2 _]. rewrite D2, Zb_bZ, map_length, seq_length in D1.
  clear - D1 Hj. set (d := Zb (key_at 4 (KKey (RKeyPath kr)))) in *.
  assert (Q : (Z.of_nat (S j) - 1) mod 256 = 0).
  { replace (Z.of_nat (S j) - 1) with ((d + Z.of_nat (S j)) - (d + 1)) by lia. rewrite Zminus_mod, D1, Z.sub_diag. reflexivity. }
  rewrite Z.mod_small in Q by lia. lia.
Qed.

Lemma C44_start_above_end_refuted_l : forall H T kr, prims_ok H -> length (KKey (RKeyPath kr)) = 78%nat -> (exists x, In x (KKey (RKeyPath kr)) /\ x <> x00) ->
  PathIsValid (KPath (RKeyPath kr)) = true -> 0 <= EndIndex kr < StartIndex kr -> StartIndex kr < 2 ^ 32 ->
  GenerateRange H T kr = Ret (mkKPR (StartIndex kr) (EndIndex kr) (RKeyPath kr) [], None).
Proof.
intros H T kr HP HK NZ HV HS HE. unfold GenerateRange.
  assert (u32 (EndIndex kr - StartIndex kr) <? 1 = false) as ->.
  { change (u32 (EndIndex kr - StartIndex kr)) with ((EndIndex kr - StartIndex kr) mod 4294967296). rewrite <- (Z.mod_unique (EndIndex kr - StartIndex kr) 4294967296 (-1) (EndIndex kr - StartIndex kr + 4294967296)) by lia. lia. }
  rewrite KeyIsValid_l by assumption. apply exists_nonzero in NZ. rewrite NZ. cbn [bind negb]. rewrite HV. cbn [negb].
  replace (Z.to_nat (EndIndex kr - StartIndex kr)) with 0%nat by lia. reflexivity.
Qed.

Lemma C44_rejects_l : forall H T kr, prims_ok H -> length (KKey (RKeyPath kr)) = 78%nat ->
  (StartIndex kr = EndIndex kr -> GenerateRange H T kr = Ret (kr, Some ErrInvalidRangeProvided)) /\
  (0 <= StartIndex kr < 2 ^ 32 -> 0 <= EndIndex kr < 2 ^ 32 -> StartIndex kr <> EndIndex kr ->
    (KKey (RKeyPath kr) = repeat x00 78 -> GenerateRange H T kr = Ret (kr, Some ErrInvalidRootKey)) /\
    (KKey (RKeyPath kr) <> repeat x00 78 -> PathIsValid (KPath (RKeyPath kr)) = false -> GenerateRange H T kr = Ret (kr, Some ErrUtilUnSupportedOrInvalidPath))) /\
  (forall r e, GenerateRange H T kr = Ret (r, Some e) -> r = kr).
Proof.
intros H T kr HP HK. split; [|split].
  - intros E. unfold GenerateRange. rewrite E, Z.sub_diag. reflexivity.
  - intros HS HE NE. assert (u32 (EndIndex kr - StartIndex kr) <? 1 = false) as U.
    { change (u32 (EndIndex kr - StartIndex kr)) with ((EndIndex kr - StartIndex kr) mod 4294967296). destruct (Z.lt_ge_cases (EndIndex kr) (StartIndex kr)).
      - rewrite <- (Z.mod_unique (EndIndex kr - StartIndex kr) 4294967296 (-1) (EndIndex kr - StartIndex kr + 4294967296)) by lia. lia.
      - rewrite Z.mod_small by lia. lia. }
    split.
    + intros EZ. unfold GenerateRange. rewrite U, KeyIsValid_l by assumption. rewrite EZ. reflexivity.
    + intros NZ PV. unfold GenerateRange. rewrite U, KeyIsValid_l by assumption. rewrite nonzero_chk by assumption. cbn [bind negb]. rewrite PV. reflexivity.
  - intros r e. unfold GenerateRange. rewrite KeyIsValid_l by assumption. destruct (u32 _ <? 1); [congruence|]. cbn [bind]. destruct (negb (negb _)); [congruence|].
    destruct (negb _); [congruence|]. destruct (range_loop _ _ _ _ _ _ _); cbn [bind]; congruence.
Qed.

Lemma C44_ex_l : exists H k', prims_ok H /\ derives H T0 (xprv xprv_version x00 z4 z4 z32 1) (map (fun i => 4 + Z.of_nat i) (seq 0 2)) k' /\ PathIsValid (B "m") = true.
Proof.
exists (constP (ILbytes 1)). set (H := constP (ILbytes 1)). assert (HP : prims_ok H) by apply constP_ok, ILbytes_length.
  assert (one : forall d f n c k i, fields_ok xprv_version f n c -> 1 <= k <= 2 -> exists f' c', fields_ok xprv_version f' (ser32 i) c' /\
    NewChildKey H T0 (xprv xprv_version d f n c k) i = Ret (xprv xprv_version (bZ (Zb d + 1)) f' (ser32 i) c' (1 + k), None)).
  { intros d f n c k i HF Hk. assert (SK : scalar_ok k) by (unfold scalar_ok, secp_n; lia). exists (fingerprint H (kG k)), (IR (ILbytes 1)). split; [apply one_fields; assumption|].
    pose proof (Z.mod_small (1 + k) secp_n ltac:(unfold secp_n; lia)) as MS. rewrite <- MS at 1.
    apply one_step; [exact HP|exact (fun _ _ => eq_refl)|exact HF|exact SK|exact xprv_reg|rewrite Z.mod_small by (unfold secp_n; lia); lia]. }
  destruct (one x00 z4 z4 z32 1 4) as (f1 & c1 & F1 & E1); [repeat split|lia|]. destruct (one (bZ (Zb x00 + 1)) f1 (ser32 4) c1 2 5 F1 ltac:(lia)) as (f2 & c2 & F2 & E2).
  eexists. split; [exact HP|]. split; [|vm_compute; reflexivity]. econstructor; [exact E1|]. econstructor; [exact E2|]. constructor.
Qed.

Lemma minimal_iff b z : minimal b z <-> 0 <= z /\ b = Z_bytes z.
Proof.
  split.
  - intros [<- E]. split; [apply be_Z_range|]. symmetry. apply Z_bytes_nolead. exact E.
  - intros [Hz ->]. split; [apply be_Z_bytes; exact Hz|apply Z_bytes_head; exact Hz].
Qed.
Lemma Z_bytes_32 z : 2 ^ 248 <= z < 2 ^ 256 -> Z_bytes z = Z_be 32 z.
Proof. intros Hz. apply (Z_bytes_full z 31). change (p256 31) with (2 ^ 248). change (p256 32) with (2 ^ 256). exact Hz. Qed.
Lemma secp_p_lt : secp_p < 2 ^ 256. Proof. reflexivity. Qed.
Lemma xpub_45 v d f n c P : fields_ok v f n c -> P <> PInf -> nth 45 (xpub v d f n c P) x00 <> x00.
Proof. intros HF HN. change (key_at 45 (xpub v d f n c P) <> x00). unfold xpub. rewrite get_45 by exact HF. apply serPb_head. exact HN. Qed.
Lemma addr_priv H T v d f n c s x y : after_init T -> fields_ok v f n c -> scalar_ok s -> kG s = PAff x y ->
  AddrHex H T (xprv v d f n c s) = Ret (HexEncode (skipn 12 (p_keccak256 H (Z_bytes (fv x) ++ Z_bytes (fv y))))).
Proof.
  intros HT HF Hs E. unfold AddrHex. destruct (C47_hex_l T v d f n c s HT HF Hs) as (_ & _ & _ & ->). rewrite E.
  rewrite (proj2 (C33_expand_compress_l x y ltac:(rewrite <- E; apply kG_on))). reflexivity.
Qed.

Lemma C45_private_l : forall H T v d f n c s x y bx by_, after_init T -> fields_ok v f n c -> scalar_ok s -> kG s = PAff x y -> minimal bx (fv x) -> minimal by_ (fv y) ->
  AddrHex H T (xprv v d f n c s) = Ret (HexEncode (skipn 12 (p_keccak256 H (bx ++ by_)))).
Proof.
intros H T v d f n c s x y bx by_ HT HF Hs E Hx Hy. apply minimal_iff in Hx as [_ ->]. apply minimal_iff in Hy as [_ ->]. apply addr_priv; assumption.
Qed.

Lemma C45_public_l : forall H T v d f n c x y bx by_, after_init T -> fields_ok v f n c -> oncurve (PAff x y) -> minimal bx (fv x) -> minimal by_ (fv y) ->
  AddrHex H T (xpub v d f n c (PAff x y)) = Ret (HexEncode (skipn 12 (p_keccak256 H (bx ++ by_)))).
Proof.
intros H T v d f n c x y bx by_ HT HF HO Hx Hy. apply minimal_iff in Hx as [_ ->]. apply minimal_iff in Hy as [_ ->].
  assert (HN : PAff x y <> PInf) by discriminate. unfold AddrHex.
  destruct (C47_hex_public_l T (xpub v d f n c (PAff x y)) HT (xpub_wf v d f n c (PAff x y) HF HN)) as (_ & _ & A).
  rewrite (proj2 (A ltac:(apply xpub_45; assumption))). unfold xpub. rewrite get_data by exact HF. rewrite (proj2 (C33_expand_compress_l x y HO)). reflexivity.
Qed.

Lemma C45_total_l : forall H T k, prims_ok H -> after_init T -> length k = 78%nat -> exists a, AddrHex H T k = Ret a /\ length a = 40%nat.
Proof.
intros H T k HP HT HK. unfold AddrHex. assert (E : exists b, PublicKeyHex T k = HexEncode b /\ b <> []).
  { unfold PublicKeyHex. destruct (C28_fields_l T k HK) as (W & _). assert (A : forall q : bytes, length q = 78%nat -> slice 45 78 q <> []).
    { intros q Q E. assert (length (slice 45 78 q) = 33%nat) as L by (rewrite slice_length by (rewrite Q; lia); reflexivity). rewrite E in L. discriminate. }
    destruct (IsPrivate k); eexists; (split; [reflexivity|]); apply A; assumption. }
  destruct E as (b & -> & NB). rewrite HexDecode_Encode. destruct (Expand_total b NB) as ([x y] & ->). cbn [bind]. eexists. split; [reflexivity|].
  rewrite HexEncode_length, skipn_length. destruct HP as (_ & _ & _ & LK & _). rewrite LK. reflexivity.
Qed.

Lemma C45_ethereum_l : forall H T v d f n c s x y, after_init T -> fields_ok v f n c -> scalar_ok s -> kG s = PAff x y -> 2 ^ 248 <= fv x -> 2 ^ 248 <= fv y ->
  AddrHex H T (xprv v d f n c s) = Ret (HexEncode (eth_address H (fv x) (fv y))).
Proof.
intros H T v d f n c s x y HT HF Hs E Hx Hy. rewrite (addr_priv H T v d f n c s x y HT HF Hs E). unfold eth_address.
  pose proof (fv_range x). pose proof (fv_range y). pose proof secp_p_lt. rewrite !Z_bytes_32 by lia. reflexivity.
Qed.

Lemma C45_ethereum_public_l : forall H T v d f n c x y, after_init T -> fields_ok v f n c -> oncurve (PAff x y) -> 2 ^ 248 <= fv x -> 2 ^ 248 <= fv y ->
  AddrHex H T (xpub v d f n c (PAff x y)) = Ret (HexEncode (eth_address H (fv x) (fv y))).
Proof.
intros H T v d f n c x y HT HF HO Hx Hy. pose proof (fv_range x). pose proof (fv_range y). pose proof secp_p_lt.
  rewrite (C45_public_l H T v d f n c x y (Z_bytes (fv x)) (Z_bytes (fv y)) HT HF HO) by (apply minimal_iff; split; [lia|reflexivity]).
  unfold eth_address. rewrite !Z_bytes_32 by lia. reflexivity.
Qed.

Lemma fv_x130 : fv (toF x130) = x130. Proof. apply fv_toF_small. unfold x130, secp_p. lia. Qed.
Lemma fv_y130 : fv (toF y130) = y130. Proof. apply fv_toF_small. unfold y130, secp_p. lia. Qed.
Lemma keccak_130 : bytes_eqb (skipn 12 (keccak256 (Z_bytes x130 ++ Z_bytes y130))) (skipn 12 (keccak256 (Z_be 32 x130 ++ Z_be 32 y130))) = false.
Proof. vm_compute. reflexivity. Qed.

Lemma C45_leading_zero_refuted_l : exists k s x y, k = xprv xprv_version x00 z4 z4 z32 s /\ valid_xkey k /\ scalar_ok s /\ kG s = PAff x y /\
  forall T, after_init T -> exists a, AddrHex RealPrims T k = Ret a /\ a <> HexEncode (eth_address RealPrims (fv x) (fv y)).
Proof.
exists (xprv xprv_version x00 z4 z4 z32 130), 130, (toF x130), (toF y130). assert (S130 : scalar_ok 130) by (unfold scalar_ok, secp_n; lia).
  split; [reflexivity|]. split.
  { exists xprv_version, x00, z4, z4, z32. split; [exact xv|]. split; [split; reflexivity|]. left. split; [exact xprv_reg|]. exists 130. split; [exact S130|reflexivity]. }
  split; [exact S130|]. split; [exact kG_130|]. intros T HT. eexists. split; [exact (addr_priv RealPrims T xprv_version x00 z4 z4 z32 130 _ _ HT xv S130 kG_130)|].
  rewrite fv_x130, fv_y130. unfold eth_address. intros E. apply HexEncode_inj in E.
  change (p_keccak256 RealPrims) with keccak256 in E. pose proof keccak_130 as K. rewrite E, bytes_eqb_refl in K. discriminate.
Qed.

Lemma C45_ex_l : kG 130 = PAff (toF x130) (toF y130) /\ 2 ^ 248 <= fv (toF x130) /\ fv (toF y130) < 2 ^ 248 /\
kG 1 = PAff (toF secp_Gx) (toF secp_Gy) /\ 2 ^ 248 <= fv (toF secp_Gx) /\ 2 ^ 248 <= fv (toF secp_Gy).
Proof.
split; [exact kG_130|]. rewrite fv_x130, fv_y130. split; [unfold x130; lia|]. split; [unfold y130; lia|]. split; [apply cadd_inf_r|].
  rewrite !fv_toF_small by (unfold secp_Gx, secp_Gy, secp_p; lia). unfold secp_Gx, secp_Gy. lia.
Qed.

Lemma p2sh_text H T k b ver : HexDecode (PublicKeyHex T k) = Some b -> AddrP2SH H T k ver = Encode58 (p2pkh_payload H ver b).
Proof. intros E. unfold AddrP2SH. rewrite E. reflexivity. Qed.
Lemma app_inv_length {A} (a b c d : list A) : length a = length b -> a ++ c = b ++ d -> a = b /\ c = d.
Proof.
  revert b. induction a as [|x a IH]; intros [|y b] L E; try discriminate; [split; [reflexivity|exact E]|]. cbn [app length] in *.
  destruct (IH b) as [-> ->]; [congruence|congruence|]. split; [f_equal; congruence|reflexivity].
Qed.
Lemma payload_inj H a b h h' : length h = length h' -> with_check H (a :: h) = with_check H (b :: h') -> a = b /\ h = h'.
Proof.
  intros L E. unfold with_check in E. apply app_inv_length in E as [E _]; [|cbn [length]; congruence]. split; congruence.
Qed.

Lemma C46_private_l : forall H T v d f n c s ver, after_init T -> fields_ok v f n c -> scalar_ok s ->
  Decode58 (AddrP2SH H T (xprv v d f n c s) ver) = ver :: hash160 H (serPb (kG s)) ++ firstn 4 (p_sha256 H (p_sha256 H (ver :: hash160 H (serPb (kG s))))) /\
  AddrP2SH H T (xprv v d f n c s) ver <> [].
Proof.
intros H T v d f n c s ver HT HF Hs. destruct (C47_hex_l T v d f n c s HT HF Hs) as (_ & _ & _ & E). rewrite (p2sh_text H T _ _ ver E). split; [apply Decode_Encode|].
  intros N. apply (proj1 (Encode_nil _)) in N. discriminate.
Qed.

Lemma C46_public_l : forall H T k ver, after_init T -> length k = 78%nat -> nth 45 k x00 <> x00 ->
  Decode58 (AddrP2SH H T k ver) = ver :: hash160 H (skipn 45 k) ++ firstn 4 (p_sha256 H (p_sha256 H (ver :: hash160 H (skipn 45 k)))) /\ AddrP2SH H T k ver <> [].
Proof.
intros H T k ver HT HK N45. destruct (C47_hex_public_l T k HT HK) as (_ & _ & A). rewrite (p2sh_text H T _ _ ver (proj2 (A N45))). split; [apply Decode_Encode|].
  intros N. apply (proj1 (Encode_nil _)) in N. discriminate.
Qed.

Lemma C46_recoverable_l : forall H T k k' ver ver' b b', prims_ok H -> HexDecode (PublicKeyHex T k) = Some b -> HexDecode (PublicKeyHex T k') = Some b' ->
  AddrP2SH H T k ver = AddrP2SH H T k' ver' -> ver = ver' /\ hash160 H b = hash160 H b'.
Proof.
intros H T k k' ver ver' b b' HP E E' A. rewrite (p2sh_text H T _ _ ver E), (p2sh_text H T _ _ ver' E') in A.
  apply (f_equal Decode58) in A. rewrite !Decode_Encode in A. apply (payload_inj H); [|exact A]. unfold hash160. rewrite !(proj1 (proj2 HP)). reflexivity.
Qed.

Lemma C46_not_script_hash_refuted_l : forall H T k ver b, prims_ok H -> HexDecode (PublicKeyHex T k) = Some b ->
  Decode58 (AddrP2SH H T k ver) = p2pkh_payload H ver b /\
  (Decode58 (AddrP2SH H T k ver) = p2sh_payload H ver (p2wpkh_script H b) -> hash160 H (p2wpkh_script H b) = hash160 H b).
Proof.
intros H T k ver b HP E. rewrite (p2sh_text H T _ _ ver E), Decode_Encode. split; [reflexivity|]. intros A. apply (payload_inj H) in A as [_ A]; [congruence|].
  unfold hash160. rewrite !(proj1 (proj2 HP)). reflexivity.
Qed.

Lemma C46_ex_l : fields_ok xprv_version z4 z4 z32 /\ scalar_ok 1 /\ (exists b, HexDecode (PublicKeyHex T0 (xprv xprv_version x00 z4 z4 z32 1)) = Some b) /\
(exists H b, prims_ok H /\ hash160 H (p2wpkh_script H b) <> hash160 H b).
Proof.
split; [exact xv|]. split; [exact one_ok|]. split.
  - eexists. apply (C47_hex_l T0 xprv_version x00 z4 z4 z32 1 T0_ok xv one_ok).
  - exists (mkPrims (fun b => repeat (hd x00 b) 32) (fun b => repeat (hd x00 b) 20) (fun _ _ => repeat x00 64) (fun _ => repeat x00 32) (fun _ _ => repeat x00 64)), [x01].
    split; [repeat split; intros; apply repeat_length|]. vm_compute. discriminate.
Qed.
