(** Claims32.v - the property statements of Props32.v with their proofs. *)
From Verif Require Import Base BaseFacts GoStr HexFacts Prims Hash HashFacts Secp Fp ECGroup SpecEC SecpGroup SecpOrder SecpFacts Base58 Base58Facts SpecBip32 SpecPath Bip32Path Bip32Reg Bip32 Bip32RegFacts Bip32KeyFacts Bip32Facts Bip32Facts2 Bip32PathFacts Bip32PrefixFacts.
From Coq Require Import ZifyBool ZifyNat ZifyN.

(** Hash functions with a fixed HMAC output, and a fixed package state, for witnesses. *)
(** In proofs; for bip32/bip32.go:79-380. *)
Definition constP (I : bytes) : Prims :=
  mkPrims (fun _ => repeat x00 32) (fun _ => repeat x00 20) (fun _ _ => I) (fun _ => repeat x00 32) (fun _ _ => repeat x00 64).
Lemma constP_ok I : length I = 64%nat -> prims_ok (constP I).
Proof. intros L. exact (conj (fun _ => eq_refl) (conj (fun _ => eq_refl) (conj (fun _ _ => L) (conj (fun _ => eq_refl) (fun _ _ => eq_refl))))). Qed.
(** In proofs; for bip32/bip32.go:79-380. *)
Definition T0 : tables := match init_tables PathToHDBytesSlice with Ret T => T | Panic => tables0 end.
Lemma T0_ok : after_init T0.
Proof.
  destruct (after_init_exists PathToHDBytesSlice (Permutation_refl _)) as (T & E & HT).
  unfold T0. rewrite E. exact HT.
Qed.
(** In proofs; for bip32/bip32.go:79-380. *)
Definition z4 : bytes := repeat x00 4.
(** In proofs; for bip32/bip32.go:79-380. *)
Definition z32 : bytes := repeat x00 32.
Lemma z_fields v : length v = 4%nat -> fields_ok v z4 z4 z32.
Proof. intros L. repeat split. exact L. Qed.
Lemma xv : fields_ok xprv_version z4 z4 z32. Proof. apply z_fields. reflexivity. Qed.
Lemma xpv : fields_ok xpub_version z4 z4 z32. Proof. apply z_fields. reflexivity. Qed.
Lemma one_ok : scalar_ok 1. Proof. split; [lia|reflexivity]. Qed.
(** In proofs; for bip32/bip32.go:79-380. *)
Definition ILbytes (z : Z) : bytes := ser256 z ++ z32.
Lemma ILbytes_length z : length (ILbytes z) = 64%nat.
Proof. unfold ILbytes. rewrite app_length, ser256_length. reflexivity. Qed.
Lemma IL_ILbytes z : 0 <= z < 2 ^ 256 -> IL (ILbytes z) = z.
Proof. intros Hz. unfold IL, ILbytes, parse256. rewrite firstn_exact by apply ser256_length. apply ser256_back. exact Hz. Qed.
Lemma xprv_wf v d f n c k : fields_ok v f n c -> wf_key (xprv v d f n c k).
Proof. intros HF. unfold wf_key, xprv. rewrite xkey_length by exact HF. cbn [length]. rewrite ser256_length. reflexivity. Qed.
Lemma xpub_wf v d f n c P : fields_ok v f n c -> P <> PInf -> wf_key (xpub v d f n c P).
Proof. intros HF NP. unfold wf_key, xpub. rewrite xkey_length by exact HF. rewrite serPb_length by exact NP. reflexivity. Qed.
Lemma wf_cases k : wf_key k ->
  exists v d f n c, fields_ok v f n c /\
    ((key_at 45 k = x00 /\ exists s, 0 <= s < 2 ^ 256 /\ k = xprv v d f n c s) \/
     (key_at 45 k <> x00 /\ exists data, length data = 33%nat /\ nth 0 data x00 <> x00 /\ k = xkey v d f n c data)).
Proof.
  intros HK. destruct (key_split k HK) as (v & d & f & n & c & data & -> & HF & LD). exists v, d, f, n, c. split; [exact HF|].
  rewrite get_45 by exact HF. destruct (data_split data LD) as (k0 & r & -> & Lr). cbn [nth].
  destruct (Byte.eqb k0 x00) eqn:E.
  - apply byte_eqb_spec in E. subst k0. left. split; [reflexivity|]. exists (be_Z r). split.
    + pose proof (be_Z_range r) as R. rewrite Lr, p256_32 in R. exact R.
    + unfold xprv, ser256. rewrite Z_be_be_Z by exact Lr. reflexivity.
  - apply byte_eqb_neq in E. right. split; [exact E|]. exists (k0 :: r). split; [exact LD|]. split; [exact E|reflexivity].
Qed.
Lemma ver_of k v d f n c data : fields_ok v f n c -> k = xkey v d f n c data -> slice 0 4 k = v.
Proof. intros HF ->. apply get_ver. exact HF. Qed.
Lemma exists_nonzero (k : bytes) : forallb (fun v => Byte.eqb v x00) k = false <-> exists x, In x k /\ x <> x00.
Proof.
  induction k as [|y k IH]; [split; [discriminate|intros (x & [] & _)]|]. cbn [forallb]. destruct (Byte.eqb y x00) eqn:E; cbn [andb].
  - rewrite IH. split; intros (x & Hx & N); exists x; (split; [|exact N]); [right; exact Hx|].
    destruct Hx as [->|Hx]; [apply byte_eqb_spec in E; congruence|exact Hx].
  - split; [|reflexivity]. intros _. exists y. split; [left; reflexivity|]. apply byte_eqb_neq. exact E.
Qed.
Lemma KeyIsValid_l H k : prims_ok H -> wf_key k -> KeyIsValid H k = Ret (negb (forallb (fun v => Byte.eqb v x00) k)).
Proof.
  intros HP HK. unfold KeyIsValid. rewrite Serialize_spec by exact HK. destruct (forallb _ k); [reflexivity|].
  rewrite Deserialize_spec by exact HP. assert (L : length (k ++ checksum H k) = 82%nat) by (rewrite app_length, HK, checksum_length by exact HP; reflexivity).
  rewrite L. cbn [Nat.eqb bind]. rewrite firstn_exact by exact HK. rewrite skipn_exact by exact HK. rewrite bytes_eqb_refl. reflexivity.
Qed.
(** The two kinds of valid extended keys are told apart by byte 45. *)
Lemma valid_data v d f n c data : fields_ok v f n c -> valid_xkey (xkey v d f n c data) ->
  (d = x00 -> f = repeat x00 4 /\ n = repeat x00 4) /\
  ((pvt_registered v /\ exists s, scalar_ok s /\ data = x00 :: ser256 s) \/
   (pub_registered v /\ exists P, oncurve P /\ P <> PInf /\ data = serPb P)).
Proof.
  intros HF (v' & d' & f' & n' & c' & HF' & D0 & [[HV (s & Hs & E)]|[HV (P & HO & NP & E)]]);
    apply xkey_inj in E as (-> & -> & -> & -> & -> & ->); try assumption; (split; [exact D0|]).
  - left. split; [exact HV|]. exists s. tauto.
  - right. split; [exact HV|]. exists P. tauto.
Qed.
Lemma ser256_inj a b : 0 <= a < 2 ^ 256 -> 0 <= b < 2 ^ 256 -> ser256 a = ser256 b -> a = b.
Proof. intros Ha Hb E. rewrite <- (ser256_back a Ha), <- (ser256_back b Hb), E. reflexivity. Qed.
Lemma valid_xprv v d f n c s : fields_ok v f n c -> 0 <= s < 2 ^ 256 -> valid_xkey (xprv v d f n c s) -> pvt_registered v /\ scalar_ok s.
Proof.
  intros HF Hs HV. apply valid_data in HV as [_ [[HR (t & Ht & E)]|[_ (P & _ & NP & E)]]]; [| |exact HF].
  - assert (E' : ser256 s = ser256 t) by exact (f_equal (@tl byte) E). apply ser256_inj in E'; [|exact Hs|apply scalar_256; exact Ht]. subst t. tauto.
  - exfalso. apply (serPb_head P NP). rewrite <- E. reflexivity.
Qed.
Lemma off_zero y : ~ oncurve (PAff (toF 0) y).
Proof. intros C. exact (x_nonzero (toF 0) y C eq_refl). Qed.
Lemma infkey_invalid v d f n c : fields_ok v f n c -> ~ valid_xkey (xkey v d f n c (x02 :: z32)).
Proof.
  intros HF HV. apply valid_data in HV as [_ [[_ (t & Ht & E)]|[_ (P & HO & NP & E)]]]; [| |exact HF].
  - discriminate.
  - destruct P as [|x y]; [congruence|]. cbn [serPb serP] in E.
    assert (E' : z32 = Z_be 32 (fv x)) by exact (f_equal (@tl byte) E). apply (x_nonzero x y HO).
    assert (E2 : be_Z z32 = be_Z (Z_be 32 (fv x))) by (f_equal; exact E'). rewrite be_Z_be, Z.mod_small in E2 by apply fv_p256. rewrite <- E2. reflexivity.
Qed.

Lemma C15_serialize_l : forall H k, prims_ok H -> wf_key k -> k <> repeat x00 78 ->
  Serialize H k = (k ++ firstn 4 (p_sha256 H (p_sha256 H k)), None) /\ length (fst (Serialize H k)) = 82%nat.
Proof.
intros H k HP HK HN. rewrite Serialize_spec, nonzero_chk by assumption. split; [reflexivity|]. cbn [fst].
  rewrite app_length, HK, checksum_length by exact HP. reflexivity.
Qed.

Lemma C15_roundtrip_l : forall H k, prims_ok H -> wf_key k -> k <> repeat x00 78 ->
  Deserialize H (fst (Serialize H k)) = Ret (k, None) /\ B58Deserialize H (B58Serialize H k) = Ret (k, None) /\
  B58Serialize H k = Encode58 (fst (Serialize H k)).
Proof.
intros H k HP HK HN.
  assert (D : Deserialize H (k ++ checksum H k) = Ret (k, None)).
  { rewrite Deserialize_spec by exact HP. rewrite app_length, HK, checksum_length by exact HP. cbn [Nat.add Nat.eqb].
    rewrite firstn_exact, skipn_exact by exact HK. rewrite bytes_eqb_refl. reflexivity. }
  unfold B58Deserialize, B58Serialize. rewrite Serialize_spec, nonzero_chk by assumption. cbn [fst]. rewrite Decode_Encode.
  split; [exact D|]. split; [exact D|reflexivity].
Qed.

Lemma C15_injective_l : forall H k1 k2, prims_ok H -> wf_key k1 -> wf_key k2 ->
  (Serialize H k1 = Serialize H k2 -> k1 = k2) /\ (B58Serialize H k1 = B58Serialize H k2 -> k1 = k2).
Proof.
intros H k1 k2 HP H1 H2.
  assert (Z : forall k, wf_key k -> forallb (fun v => Byte.eqb v x00) k = true -> k = repeat x00 78).
  { intros k W E. apply allzero in E. unfold wf_key in W. rewrite W in E. exact E. }
  assert (A : forall l1 l2, k1 ++ l1 = k2 ++ l2 -> k1 = k2).
  { intros l1 l2 E. rewrite <- (firstn_exact 78 k1 l1 H1), E. apply firstn_exact. exact H2. }
  unfold B58Serialize. rewrite !Serialize_spec by assumption.
  destruct (forallb _ k1) eqn:E1, (forallb _ k2) eqn:E2.
  - rewrite (Z k1), (Z k2) by assumption. split; reflexivity.
  - split; [discriminate|]. intros E. symmetry in E. apply (proj1 (Encode_nil _)) in E. apply app_eq_nil in E as [E _]. rewrite E in H2. discriminate.
  - split; [discriminate|]. intros E. apply (proj1 (Encode_nil _)) in E. apply app_eq_nil in E as [E _]. rewrite E in H1. discriminate.
  - split; intros E.
    + injection E as E. exact (A _ _ E).
    + apply Encode_inj in E. exact (A _ _ E).
Qed.

Lemma C15_zero_key_l : forall H, Serialize H (repeat x00 78) = ([], Some ErrEmptyKey) /\ B58Serialize H (repeat x00 78) = [].
Proof.
intros H. split; reflexivity.
Qed.

Lemma C15_ex_l : prims_ok RealPrims /\ wf_key (xprv xprv_version x00 z4 z4 z32 1) /\ xprv xprv_version x00 z4 z4 z32 1 <> repeat x00 78.
Proof.
split; [exact real_prims_ok|]. split; [apply xprv_wf, xv|]. intros C. discriminate (f_equal (fun l => nth 0 l x00) C).
Qed.

Lemma C16_deserialize_l : forall H data, prims_ok H -> exists k e, Deserialize H data = Ret (k, e) /\ length k = 78%nat /\
  (e = None <-> length data = 82%nat /\ skipn 78 data = firstn 4 (p_sha256 H (p_sha256 H (firstn 78 data)))) /\
  (length data <> 82%nat -> e = Some ErrSerializedKeyWrongSize) /\
  (length data = 82%nat -> k = firstn 78 data /\ (e = None \/ e = Some ErrInvalidChecksum)).
Proof.
intros H data HP. rewrite Deserialize_spec by exact HP. destruct (Nat.eqb_spec (length data) 82) as [E|E].
  - exists (firstn 78 data). eexists. split; [reflexivity|]. split; [rewrite firstn_length, E; reflexivity|].
    fold (checksum H (firstn 78 data)). destruct (bytes_eqb (checksum H (firstn 78 data)) (skipn 78 data)) eqn:C.
    + apply bytes_eqb_spec in C. split; [split; [intros _; split; [exact E|congruence]|reflexivity]|]. split; [congruence|]. intros _. tauto.
    + apply bytes_eqb_neq in C. split; [split; [discriminate|intros [_ C']; congruence]|]. split; [congruence|]. intros _. tauto.
  - eexists. eexists. split; [reflexivity|]. split.
    + rewrite firstn_length, app_length, repeat_length. lia.
    + split; [split; [discriminate|intros [C _]; congruence]|]. split; [reflexivity|congruence].
Qed.

Lemma C16_b58_canonical_l : forall H s k, prims_ok H -> B58Deserialize H s = Ret (k, None) ->
  wf_key k /\ (k <> repeat x00 78 -> B58Serialize H k = s) /\
  s = Encode58 (k ++ firstn 4 (p_sha256 H (p_sha256 H k))).
Proof.
intros H s k HP E. unfold B58Deserialize in E. rewrite Deserialize_spec in E by exact HP.
  destruct (Nat.eqb_spec (length (Decode58 s)) 82) as [L|L]; [|discriminate].
  pose proof (firstn_skipn 78 (Decode58 s)) as FS. assert (W : wf_key (firstn 78 (Decode58 s))) by (unfold wf_key; rewrite firstn_length, L; reflexivity).
  remember (firstn 78 (Decode58 s)) as k1 eqn:EF. remember (skipn 78 (Decode58 s)) as cs eqn:EC. clear EF EC.
  destruct (bytes_eqb (checksum H k1) cs) eqn:C in E; [|discriminate]. assert (k1 = k) by congruence. subst k1. apply bytes_eqb_spec in C.
  assert (ES : s = Encode58 (k ++ checksum H k)).
  { rewrite C, FS. destruct (b58digits s) as [ds|] eqn:D; [symmetry; exact (Encode_Decode s ds D)|].
    rewrite (Decode_bad s D) in L. discriminate. }
  split; [exact W|]. split; [|exact ES]. intros N. unfold B58Serialize. rewrite Serialize_spec, nonzero_chk by assumption. symmetry. exact ES.
Qed.

Lemma C16_b58_zero_l : forall H, prims_ok H -> exists s, s <> [] /\ B58Deserialize H s = Ret (repeat x00 78, None) /\ B58Serialize H (repeat x00 78) = [].
Proof.
intros H HP. exists (Encode58 (zero_key ++ checksum H zero_key)). split; [|split; [|reflexivity]].
  - rewrite Encode_nil. discriminate.
  - unfold B58Deserialize. rewrite Decode_Encode, Deserialize_spec by exact HP.
    rewrite app_length, checksum_length by exact HP. change (length zero_key + 4)%nat with 82%nat. cbn [Nat.eqb].
    rewrite firstn_exact, skipn_exact by reflexivity. rewrite bytes_eqb_refl. reflexivity.
Qed.

Lemma C16_ex_l : prims_ok RealPrims /\ exists s k, B58Deserialize RealPrims s = Ret (k, None) /\ k <> repeat x00 78.
Proof.
split; [exact real_prims_ok|]. destruct C15_ex_l as (HP & W & N).
  exists (B58Serialize RealPrims (xprv xprv_version x00 z4 z4 z32 1)), (xprv xprv_version x00 z4 z4 z32 1).
  split; [|exact N]. exact (proj1 (proj2 (C15_roundtrip_l RealPrims _ HP W N))).
Qed.

Lemma C17_isvalid_l : forall H k, prims_ok H -> wf_key k ->
  exists b, KeyIsValid H k = Ret b /\ (b = true <-> exists x, In x k /\ x <> x00).
Proof.
intros H k HP HK. eexists. split; [apply KeyIsValid_l; assumption|]. rewrite negb_true_iff. apply exists_nonzero.
Qed.

Lemma C17_valid_accepted_l : forall H k, prims_ok H -> valid_xkey k -> KeyIsValid H k = Ret true.
Proof.
intros H k HP (v & d & f & n & c & HF & _ & HV).
  assert (HN : forall v, (exists q, In (be_Z v, q) slip132) \/ (exists p, In (p, be_Z v) slip132) -> exists x, In x v /\ x <> x00).
  { intros w HW. apply exists_nonzero. destruct (forallb _ w) eqn:E; [|reflexivity]. exfalso. apply allzero in E. apply be_zero in E.
    rewrite E in HW. destruct HW as [(q & Hq)|(q & Hq)]; cbn in Hq; intuition discriminate. }
  assert (W : wf_key k /\ exists x, In x k /\ x <> x00).
  { destruct HV as [[HV (s & Hs & ->)]|[HV (P & HO & NP & ->)]].
    - split; [apply xprv_wf; exact HF|]. destruct (HN v (or_introl HV)) as (x & Hx & N). exists x. split; [|exact N]. unfold xprv, xkey. apply in_or_app. left. exact Hx.
    - split; [apply xpub_wf; assumption|]. destruct (HN v (or_intror HV)) as (x & Hx & N). exists x. split; [|exact N]. unfold xpub, xkey. apply in_or_app. left. exact Hx. }
  destruct W as [W N]. rewrite KeyIsValid_l by assumption. apply exists_nonzero in N. rewrite N. reflexivity.
Qed.

Lemma C17_accepts_invalid_refuted_l : forall H, prims_ok H ->
  (exists k, wf_key k /\ KeyIsValid H k = Ret true /\ ~ valid_xkey k /\ k = xprv xprv_version x00 z4 z4 z32 0) /\
  (exists k, wf_key k /\ KeyIsValid H k = Ret true /\ ~ valid_xkey k /\ k = xprv xprv_version x00 z4 z4 z32 secp_n) /\
  (exists k, wf_key k /\ KeyIsValid H k = Ret true /\ ~ valid_xkey k /\ k = xkey xpub_version x00 z4 z4 z32 (x02 :: repeat x00 32)) /\
  (exists k, wf_key k /\ KeyIsValid H k = Ret true /\ ~ valid_xkey k /\ k = xprv xpub_version x00 z4 z4 z32 1) /\
  (exists k, wf_key k /\ KeyIsValid H k = Ret true /\ ~ valid_xkey k /\ k = xprv xprv_version x00 (repeat x01 4) z4 z32 1).
Proof.
intros H HP.
  assert (NZ : forall k x, wf_key k -> In x k -> x <> x00 -> KeyIsValid H k = Ret true).
  { intros k x W Hx N. rewrite KeyIsValid_l by assumption. assert (E : exists x, In x k /\ x <> x00) by (exists x; tauto). apply exists_nonzero in E. rewrite E. reflexivity. }
  assert (I4 : forall d f n c data, In x04 (xkey xprv_version d f n c data)) by (intros; left; reflexivity).
  assert (I5 : forall d f n c data, In x04 (xkey xpub_version d f n c data)) by (intros; left; reflexivity).
  assert (F1 : fields_ok xprv_version (repeat x01 4) z4 z32) by (repeat split).
  split; [|split; [|split; [|split]]]; eexists; (split; [|split; [|split; [|reflexivity]]]).
  - apply xprv_wf, xv.
  - apply (NZ _ x04); [apply xprv_wf, xv|apply I4|discriminate].
  - intros C. apply valid_xprv in C as [_ [C _]]; [lia|exact xv|split; [lia|reflexivity]].
  - apply xprv_wf, xv.
  - apply (NZ _ x04); [apply xprv_wf, xv|apply I4|discriminate].
  - intros C. apply valid_xprv in C as [_ [_ C]]; [lia|exact xv|split; [discriminate|reflexivity]].
  - reflexivity.
  - apply (NZ _ x04); [reflexivity|apply I5|discriminate].
  - apply infkey_invalid, xpv.
  - apply xprv_wf, xpv.
  - apply (NZ _ x04); [apply xprv_wf, xpv|apply I5|discriminate].
  - intros C. apply valid_xprv in C as [(q & C) _]; [|exact xpv|split; [discriminate|reflexivity]]. cbn in C. intuition discriminate.
  - apply xprv_wf, F1.
  - apply (NZ _ x04); [apply xprv_wf, F1|apply I4|discriminate].
  - intros C. apply valid_data in C as [C _]; [|exact F1]. destruct (C eq_refl) as [C' _]. discriminate.
Qed.

Lemma C17_ex_l : prims_ok RealPrims /\ valid_xkey (xprv xprv_version x00 z4 z4 z32 1) /\ wf_key (xprv xprv_version x00 z4 z4 z32 1).
Proof.
split; [exact real_prims_ok|]. split; [|apply xprv_wf, xv]. exists xprv_version, x00, z4, z4, z32. split; [exact xv|].
  split; [split; reflexivity|]. left. split; [exact xprv_reg|]. exists 1. split; [exact one_ok|reflexivity].
Qed.

Lemma C18_base58_l : (forall b, Decode58 (Encode58 b) = b) /\
(forall s, Forall (fun c => In c (B "123456789ABCDEFGHJKLMNPQRSTUVWXYZabcdefghijkmnopqrstuvwxyz")) s -> Encode58 (Decode58 s) = s) /\
(forall s, (exists c, In c s /\ ~ In c (B "123456789ABCDEFGHJKLMNPQRSTUVWXYZabcdefghijkmnopqrstuvwxyz")) -> Decode58 s = []) /\
(forall b, Forall (fun c => In c (B "123456789ABCDEFGHJKLMNPQRSTUVWXYZabcdefghijkmnopqrstuvwxyz")) (Encode58 b)).
Proof.
split; [exact Decode_Encode|]. split; [|split; [|exact Encode_alphabet]].
  - intros s HS. destruct (b58digits_some s HS) as (ds & D). exact (Encode_Decode s ds D).
  - intros s HS. apply Decode_bad. apply b58digits_none. exact HS.
Qed.

Lemma C18_ex_l : Forall (fun c => In c alphabet) (B "11xpub") /\ Encode58 [x00; x00; xff] = B "115Q" /\ Decode58 (B "0") = [].
Proof.
split; [apply Forall_forall; intros c Hc; cbn in Hc; intuition (subst; cbn; tauto)|]. split; reflexivity.
Qed.

Lemma C19_master_l : forall H seed, prims_ok H ->
  let I := p_hmac512 H (B "Bitcoin seed") seed in
  let k := parse256 (firstn 32 I) in
  (k = 0 \/ secp_n <= k -> NewMasterKey H seed = Ret (None, Some ErrInvalidPrivateKey)) /\
  (1 <= k < secp_n -> NewMasterKey H seed =
     Ret (Some (ser32 0x0488ade4 ++ [x00] ++ repeat x00 4 ++ ser32 0 ++ skipn 32 I ++ x00 :: firstn 32 I), None)) /\
  (NewMasterKey H seed = Ret (None, Some ErrInvalidPrivateKey) \/ exists key, NewMasterKey H seed = Ret (Some key, None) /\ valid_xkey key).
Proof.
intros H seed HP I k. rewrite NewMasterKey_spec by exact HP. unfold master. fold (I_master H seed).
  change (IL (I_master H seed)) with k. pose proof (be_Z_range (firstn 32 I)) as R. change (be_Z (firstn 32 I)) with k in R.
  assert (L : length (firstn 32 I) = 32%nat) by (unfold I; rewrite firstn_length, prims_hmac by exact HP; reflexivity).
  assert (LR : length (IR I) = 32%nat) by (apply IR_length, prims_hmac; exact HP).
  split; [|split].
  - intros C. assert ((k =? 0) || (secp_n <=? k) = true) as -> by lia. reflexivity.
  - intros C. assert ((k =? 0) || (secp_n <=? k) = false) as -> by lia. unfold xprv, xkey, IR. change (I_master H seed) with I.
    unfold ser256, k, parse256. rewrite Z_be_be_Z by exact L. reflexivity.
  - destruct ((k =? 0) || (secp_n <=? k)) eqn:C; [left; reflexivity|]. right. eexists. split; [reflexivity|].
    exists xprv_version, x00, (repeat x00 4), (ser32 0), (IR I). split; [repeat split; exact LR|]. split; [split; reflexivity|].
    left. split; [exact xprv_reg|]. exists k. split; [unfold scalar_ok; lia|reflexivity].
Qed.

Lemma C19_ex_l : (exists H seed, prims_ok H /\ 1 <= parse256 (firstn 32 (p_hmac512 H (B "Bitcoin seed") seed)) < secp_n) /\
(exists H seed, prims_ok H /\ parse256 (firstn 32 (p_hmac512 H (B "Bitcoin seed") seed)) = 0).
Proof.
split.
  - exists (constP (ILbytes 1)), []. split; [apply constP_ok, ILbytes_length|]. change (1 <= IL (ILbytes 1) < secp_n). rewrite IL_ILbytes by lia. split; [lia|reflexivity].
  - exists (constP (ILbytes 0)), []. split; [apply constP_ok, ILbytes_length|]. change (IL (ILbytes 0) = 0). apply IL_ILbytes. lia.
Qed.

Lemma C20_CKDpriv_l : forall H T v d f n c k i ki ci, prims_ok H -> after_init T -> fields_ok v f n c -> scalar_ok k -> pvt_registered v ->
  0 <= i < 2 ^ 32 -> CKDpriv H k c i = Some (ki, ci) ->
  NewChildKey H T (xprv v d f n c k) i = Ret (xprv v (bZ (Zb d + 1)) (fingerprint H (kG k)) (ser32 i) ci ki, None).
Proof.
intros H T v d f n c k i ki ci HP HT HF Hk HV Hi E. rewrite child_priv by assumption. unfold CKDpriv in E. cbv zeta in *.
  destruct (secp_n <=? IL (I_priv H k c i)); [discriminate|]. cbn [orb] in E.
  destruct ((IL (I_priv H k c i) + k) mod secp_n =? 0); [discriminate|]. injection E as <- <-. reflexivity.
Qed.

Lemma C20_zero_child_l : forall H T v d f n c k i, prims_ok H -> after_init T -> fields_ok v f n c -> scalar_ok k -> pvt_registered v ->
  0 <= i < 2 ^ 32 -> (IL (I_priv H k c i) + k) mod secp_n = 0 ->
  CKDpriv H k c i = None /\ exists r, NewChildKey H T (xprv v d f n c k) i = Ret (r, Some ErrInvalidPrivateKey).
Proof.
intros H T v d f n c k i HP HT HF Hk HV Hi E. split.
  - unfold CKDpriv. cbv zeta. rewrite E. cbn [Z.eqb]. rewrite orb_true_r. reflexivity.
  - rewrite child_priv by assumption. cbv zeta. rewrite E. eexists. reflexivity.
Qed.

Lemma C20_ex_l : after_init T0 /\ fields_ok xprv_version z4 z4 z32 /\ scalar_ok 1 /\ pvt_registered xprv_version /\
(exists H ki ci, prims_ok H /\ CKDpriv H 1 z32 HARD = Some (ki, ci)) /\
(exists H, prims_ok H /\ (IL (I_priv H 1 z32 HARD) + 1) mod secp_n = 0).
Proof.
split; [exact T0_ok|]. split; [exact xv|]. split; [exact one_ok|]. split; [exact xprv_reg|]. split.
  - exists (constP (ILbytes 1)), 2, z32. split; [apply constP_ok, ILbytes_length|]. unfold CKDpriv. cbv zeta.
    change (I_priv (constP (ILbytes 1)) 1 z32 HARD) with (ILbytes 1). rewrite IL_ILbytes by lia. reflexivity.
  - exists (constP (ILbytes (secp_n - 1))). split; [apply constP_ok, ILbytes_length|].
    change (I_priv (constP (ILbytes (secp_n - 1))) 1 z32 HARD) with (ILbytes (secp_n - 1)). rewrite IL_ILbytes by (split; [discriminate|reflexivity]). reflexivity.
Qed.

Lemma C21_CKDpub_l : forall H T v d f n c K i Ki ci, prims_ok H -> after_init T -> fields_ok v f n c -> oncurve K -> K <> PInf -> pub_registered v ->
  0 <= i < 2 ^ 31 -> CKDpub H K c i = Some (Ki, ci) -> IL (I_pub H K c i) <> 0 ->
  NewChildKey H T (xpub v d f n c K) i = Ret (xpub v (bZ (Zb d + 1)) (fingerprint H K) (ser32 i) ci Ki, None).
Proof.
intros H T v d f n c K i Ki ci HP HT HF HO NK HV Hi E HN. change (2 ^ 31) with HARD in Hi. rewrite child_pub by (try assumption; lia).
  unfold CKDpub in E. assert (HARD <=? i = false) as EH by lia. rewrite EH in E. cbv zeta in *.
  set (I := I_pub H K c i) in *. destruct (Z.leb_spec secp_n (IL I)) as [|L]; [discriminate|].
  pose proof (IL_nonneg I). rewrite Z.mod_small by lia. assert (IL I =? 0 = false) as -> by lia.
  destruct (cadd (kG (IL I)) K) as [|x y]; [discriminate|]. injection E as <- <-. reflexivity.
Qed.

Lemma C21_zero_IL_refuted_l : forall H T v d f n c K i, prims_ok H -> after_init T -> fields_ok v f n c -> oncurve K -> K <> PInf -> pub_registered v ->
  0 <= i < 2 ^ 31 -> IL (I_pub H K c i) = 0 ->
  CKDpub H K c i = Some (K, IR (I_pub H K c i)) /\
  exists r, NewChildKey H T (xpub v d f n c K) i = Ret (r, Some ErrInvalidPublicKey).
Proof.
intros H T v d f n c K i HP HT HF HO NK HV Hi E. change (2 ^ 31) with HARD in Hi. split.
  - unfold CKDpub. assert (HARD <=? i = false) as -> by lia. cbv zeta. rewrite E.
    assert (secp_n <=? 0 = false) as -> by reflexivity. change (kG 0) with PInf. rewrite cadd_comm, cadd_inf_r. destruct K; [congruence|reflexivity].
  - rewrite child_pub by (try assumption; lia). cbv zeta. rewrite E. eexists. reflexivity.
Qed.

Lemma C21_ex_l : after_init T0 /\ fields_ok xpub_version z4 z4 z32 /\ oncurve (kG 1) /\ kG 1 <> PInf /\ pub_registered xpub_version /\
(exists H Ki ci, prims_ok H /\ CKDpub H (kG 1) z32 0 = Some (Ki, ci) /\ IL (I_pub H (kG 1) z32 0) <> 0) /\
(exists H, prims_ok H /\ IL (I_pub H (kG 1) z32 0) = 0).
Proof.
split; [exact T0_ok|]. split; [exact xpv|]. split; [apply kG_on|]. split; [apply scalar_aff, one_ok|]. split; [exact xpub_reg|]. split.
  - exists (constP (ILbytes 1)), (kG 2), z32. split; [apply constP_ok, ILbytes_length|]. unfold CKDpub. cbv zeta.
    change (I_pub (constP (ILbytes 1)) (kG 1) z32 0) with (ILbytes 1). rewrite IL_ILbytes by lia. split; [|lia].
    assert (HARD <=? 0 = false) as -> by reflexivity. assert (secp_n <=? 1 = false) as -> by reflexivity.
    rewrite <- kG_add by lia. change (1 + 1) with 2. assert (N : kG 2 <> PInf) by (apply scalar_aff; split; [lia|reflexivity]).
    destruct (kG 2) as [|x y]; [congruence|]. reflexivity.
  - exists (constP (ILbytes 0)). split; [apply constP_ok, ILbytes_length|]. apply IL_ILbytes. lia.
Qed.

Lemma C22_commute_l : forall H T v d f n c k i k', prims_ok H -> after_init T -> fields_ok v f n c -> scalar_ok k -> 0 <= i < 2 ^ 31 ->
  IL (I_pub H (kG k) c i) mod secp_n <> 0 ->
  NewChildKey H T (xprv v d f n c k) i = Ret (k', None) ->
  NewChildKey H T (PublicKeyExtended T (xprv v d f n c k)) i = Ret (PublicKeyExtended T k', None).
Proof.
intros H T v d f n c k i k' HP HT HF Hk Hi HN E. apply commute; try assumption. unfold HARD. lia.
Qed.

Lemma C22_zero_IL_refuted_l : forall H T v d f n c k i, prims_ok H -> after_init T -> fields_ok v f n c -> scalar_ok k -> pvt_registered v -> 0 <= i < 2 ^ 31 ->
  IL (I_pub H (kG k) c i) mod secp_n = 0 ->
  (exists k', NewChildKey H T (xprv v d f n c k) i = Ret (k', None)) /\
  (exists r, NewChildKey H T (PublicKeyExtended T (xprv v d f n c k)) i = Ret (r, Some ErrInvalidPublicKey)).
Proof.
intros H T v d f n c k i HP HT HF Hk HV Hi HN. change (2 ^ 31) with HARD in Hi. split.
  - rewrite child_priv by assumption. cbv zeta. rewrite I_pub_priv by lia. rewrite <- Zplus_mod_idemp_l, HN.
    unfold scalar_ok in Hk. rewrite Z.mod_small by lia. assert (0 + k =? 0 = false) as -> by lia. eexists. reflexivity.
  - destruct (pvt_lookup T v HT HV) as (h & EL). destruct (pub_version_reg T v h HT EL) as [PW LW].
    rewrite neuter_xprv, EL by assumption. pose proof HF as (lv & lf & ln & lc).
    rewrite child_pub; [|assumption|assumption|repeat split; assumption|apply kG_on|apply scalar_aff; exact Hk|exact (paired_pub _ _ PW)|lia].
    cbv zeta. rewrite HN. eexists. reflexivity.
Qed.

Lemma C22_ex_l : (exists H k', prims_ok H /\ IL (I_pub H (kG 1) z32 0) mod secp_n <> 0 /\ NewChildKey H T0 (xprv xprv_version x00 z4 z4 z32 1) 0 = Ret (k', None)) /\
(exists H, prims_ok H /\ IL (I_pub H (kG 1) z32 0) mod secp_n = 0).
Proof.
split.
  - exists (constP (ILbytes 1)). eexists. split; [apply constP_ok, ILbytes_length|]. split.
    + change (I_pub (constP (ILbytes 1)) (kG 1) z32 0) with (ILbytes 1). rewrite IL_ILbytes by lia. discriminate.
    + rewrite child_priv; [|apply constP_ok, ILbytes_length|exact T0_ok|exact xv|exact one_ok|exact xprv_reg]. cbv zeta.
      change (I_priv (constP (ILbytes 1)) 1 z32 0) with (ILbytes 1). rewrite IL_ILbytes by lia. reflexivity.
  - exists (constP (ILbytes 0)). split; [apply constP_ok, ILbytes_length|]. change (I_pub (constP (ILbytes 0)) (kG 1) z32 0) with (ILbytes 0). rewrite IL_ILbytes by lia. reflexivity.
Qed.

Lemma one_step H v d f n c k i : prims_ok H -> (forall key msg, p_hmac512 H key msg = ILbytes 1) -> fields_ok v f n c -> scalar_ok k -> pvt_registered v ->
  (1 + k) mod secp_n <> 0 ->
  NewChildKey H T0 (xprv v d f n c k) i = Ret (xprv v (bZ (Zb d + 1)) (fingerprint H (kG k)) (ser32 i) (IR (ILbytes 1)) ((1 + k) mod secp_n), None).
Proof.
  intros HP HH HF Hk HV N. rewrite child_priv by (assumption || exact T0_ok). cbv zeta. unfold I_priv. rewrite HH. rewrite IL_ILbytes by lia.
  apply Z.eqb_neq in N. rewrite N. reflexivity.
Qed.
Lemma one_fields H k i : prims_ok H -> scalar_ok k -> fields_ok xprv_version (fingerprint H (kG k)) (ser32 i) (IR (ILbytes 1)).
Proof.
  intros HP Hk. rewrite <- fingerprint_fpc by (apply scalar_aff; exact Hk).
  exact (conj eq_refl (conj (fpc_length _ _ HP) (conj (ser32_length _) (IR_length _ (ILbytes_length 1))))).
Qed.
Lemma two_ok : scalar_ok 2. Proof. split; [lia|reflexivity]. Qed.
Lemma two_steps H : prims_ok H -> (forall key msg, p_hmac512 H key msg = ILbytes 1) ->
  exists k', derives_nz H T0 (xprv xprv_version x00 z4 z4 z32 1) [0; 5] k'.
Proof.
  intros HP HH. assert (E : forall k c i, IL (I_priv H k c i) mod secp_n <> 0) by (intros; unfold I_priv; rewrite HH, IL_ILbytes by lia; discriminate).
  eexists. eapply nz_cons; [exact xv|exact one_ok|apply E| |].
  - apply one_step; [exact HP|exact HH|exact xv|exact one_ok|exact xprv_reg|discriminate].
  - change ((1 + 1) mod secp_n) with 2. eapply nz_cons; [exact (one_fields H 1 0 HP one_ok)|exact two_ok|apply E| |apply nz_nil].
    apply one_step; [exact HP|exact HH|exact (one_fields H 1 0 HP one_ok)|exact two_ok|exact xprv_reg|discriminate].
Qed.

Lemma C23_watch_only_l : forall H T k is k', prims_ok H -> after_init T -> Forall (fun i => 0 <= i < 2 ^ 31) is -> derives_nz H T k is k' ->
  derives H T (PublicKeyExtended T k) is (PublicKeyExtended T k').
Proof.
intros H T k is k' HP HT HI D. apply watch_only; try assumption. eapply Forall_impl; [|exact HI]. unfold HARD. intros; lia.
Qed.

Lemma C23_ex_l : exists H k', prims_ok H /\ derives_nz H T0 (xprv xprv_version x00 z4 z4 z32 1) [0; 5] k'.
Proof.
exists (constP (ILbytes 1)). assert (HP : prims_ok (constP (ILbytes 1))) by (apply constP_ok, ILbytes_length).
  destruct (two_steps (constP (ILbytes 1)) HP (fun _ _ => eq_refl)) as (k' & D). exists k'. split; [exact HP|exact D].
Qed.

Lemma C24_no_hardened_public_l : forall H T k i, wf_key k -> nth 45 k x00 <> x00 -> 2 ^ 31 <= i ->
  NewChildKey H T k i = Ret (repeat x00 78, Some ErrHardenedChildPublicKey).
Proof.
intros H T k i HK HN Hi. unfold NewChildKey, IsPrivate, key_at. apply byte_eqb_neq in HN. rewrite HN.
  assert (i >=? FirstHardenedChild = true) as -> by (unfold FirstHardenedChild; lia). reflexivity.
Qed.

Lemma C24_ex_l : wf_key (xpub xpub_version x00 z4 z4 z32 (kG 1)) /\ nth 45 (xpub xpub_version x00 z4 z4 z32 (kG 1)) x00 <> x00.
Proof.
assert (N : kG 1 <> PInf) by (apply scalar_aff, one_ok). split; [apply xpub_wf; [exact xpv|exact N]|].
  change (key_at 45 (xpub xpub_version x00 z4 z4 z32 (kG 1)) <> x00). unfold xpub. rewrite get_45 by exact xpv. apply serPb_head. exact N.
Qed.

Lemma C25_private_usable_l : forall H T k i k', prims_ok H -> after_init T -> wf_key k -> nth 45 k x00 = x00 -> NewChildKey H T k i = Ret (k', None) ->
  exists v d f n c s, fields_ok v f n c /\ scalar_ok s /\ pvt_registered v /\ k' = xprv v d f n c s /\
    oncurve (kG s) /\ kG s <> PInf /\
    PublicKeyExtended T k' = xpub (slice 0 4 (PublicKeyExtended T k')) d f n c (kG s) /\
    (forall j, exists k'' e, NewChildKey H T k' j = Ret (k'', e) /\ (e = None \/ e = Some ErrInvalidPrivateKey /\ (IL (I_priv H s c j) + s) mod secp_n = 0)).
Proof.
intros H T k i k' HP HT HK HZ E. destruct (child_priv_inv H T HP HT k i k' HK HZ E) as (v & d & f & n & c & s & _ & HF & Hs & HV & Hk & ->).
  cbv zeta in *. set (I := I_any H s c i) in *. set (ki := (IL I + s) mod secp_n) in *.
  assert (HF' : fields_ok v (fpc H (comp (kG s))) (ser32 i) (IR I)) by (apply child_fields with (f := f) (n := n); assumption).
  do 6 eexists. split; [exact HF'|]. split; [exact Hk|]. split; [exact HV|]. split; [reflexivity|]. split; [apply kG_on|].
  split; [apply scalar_aff; exact Hk|]. split.
  - rewrite neuter_xprv by assumption. unfold xpub at 1 3. rewrite get_ver; [reflexivity|].
    destruct HF' as (_ & a & b & c'). repeat split; try assumption. destruct (lookup0 _ _); apply Z_be_length.
  - intros j. rewrite child_priv by assumption. cbv zeta. do 2 eexists. split; [reflexivity|].
    destruct (Z.eqb_spec ((IL (I_priv H ki (IR I) j) + ki) mod secp_n) 0) as [Z|Z]; [right; split; [reflexivity|exact Z]|left; reflexivity].
Qed.

Lemma C25_master_usable_l : forall H T seed k, prims_ok H -> after_init T -> NewMasterKey H seed = Ret (Some k, None) ->
  exists s c, scalar_ok s /\ k = xprv (ser32 0x0488ade4) x00 (repeat x00 4) (ser32 0) c s /\ valid_xkey k /\
    PublicKeyExtended T k = xpub (ser32 0x0488b21e) x00 (repeat x00 4) (ser32 0) c (kG s).
Proof.
intros H T seed k HP HT E. destruct (C19_master_l H seed HP) as (_ & _ & [C|(key & C & V)]); [congruence|].
  assert (key = k) by congruence. subst key.
  rewrite NewMasterKey_spec in E by exact HP. destruct (master H seed) as [[s c]|] eqn:M; [|discriminate]. injection E as <-.
  assert (Hs : scalar_ok s /\ c = IR (I_master H seed)).
  { unfold master in M. cbv zeta in M. destruct ((_ =? 0) || (_ <=? _)) eqn:C' in M; [discriminate|]. injection M as <- <-. split; [|reflexivity].
    pose proof (IL_nonneg (I_master H seed)). unfold scalar_ok. lia. }
  destruct Hs as [Hs ->]. exists s, (IR (I_master H seed)). split; [exact Hs|]. split; [reflexivity|]. split; [exact V|].
  assert (HF : fields_ok xprv_version (repeat x00 4) (ser32 0) (IR (I_master H seed))) by (repeat split; apply IR_length, prims_hmac; exact HP).
  rewrite neuter_xprv by assumption. destruct (pub_version T xprv_version xpub_version HT eq_refl xpub_paired) as (h & -> & ->). reflexivity.
Qed.

Lemma C25_public_infinity_l : forall H T v d f n c K i, prims_ok H -> after_init T -> fields_ok v f n c -> oncurve K -> K <> PInf -> pub_registered v ->
  0 <= i < 2 ^ 31 -> kG (IL (I_pub H K c i)) = cneg K ->
  CKDpub H K c i = None /\
  exists k', NewChildKey H T (xpub v d f n c K) i = Ret (k', None) /\ skipn 45 k' = x02 :: repeat x00 32 /\ ~ valid_xkey k'.
Proof.
intros H T v d f n c K i HP HT HF HO NK HV Hi E. change (2 ^ 31) with HARD in Hi.
  assert (S : cadd (kG (IL (I_pub H K c i))) K = PInf) by (rewrite E, cadd_comm; apply cadd_neg).
  assert (N : IL (I_pub H K c i) mod secp_n <> 0).
  { intros C. apply kG_inf_iff in C; [|apply IL_nonneg]. rewrite C in S. rewrite cadd_comm, cadd_inf_r in S. contradiction. }
  split.
  - unfold CKDpub. destruct (HARD <=? i); [reflexivity|]. cbv zeta. destruct (secp_n <=? _); [reflexivity|]. rewrite S. reflexivity.
  - rewrite child_pub by (try assumption; lia). cbv zeta. apply Z.eqb_neq in N. rewrite N, S. eexists. split; [reflexivity|].
    assert (HF' : fields_ok v (fingerprint H K) (ser32 i) (IR (I_pub H K c i))).
    { rewrite <- fingerprint_fpc by exact NK. repeat split; (exact (proj1 HF) || (apply fpc_length; exact HP) || (apply IR_length, prims_hmac; exact HP)). }
    split; [apply get_data; exact HF'|apply infkey_invalid; exact HF'].
Qed.

Lemma C25_public_infinity_refuted_l : exists H T k i k', prims_ok H /\ after_init T /\ valid_xkey k /\ 0 <= i < 2 ^ 31 /\
  NewChildKey H T k i = Ret (k', None) /\ ~ valid_xkey k'.
Proof.
exists (constP (ILbytes (secp_n - 1))), T0, (xpub xpub_version x00 z4 z4 z32 (kG 1)), 0.
  assert (HP : prims_ok (constP (ILbytes (secp_n - 1)))) by (apply constP_ok, ILbytes_length).
  assert (N : kG 1 <> PInf) by (apply scalar_aff, one_ok).
  destruct (C25_public_infinity_l (constP (ILbytes (secp_n - 1))) T0 xpub_version x00 z4 z4 z32 (kG 1) 0 HP T0_ok xpv (kG_on 1) N xpub_reg) as (_ & k' & E & _ & V).
  - lia.
  - change (I_pub (constP (ILbytes (secp_n - 1))) (kG 1) z32 0) with (ILbytes (secp_n - 1)). rewrite IL_ILbytes by (split; [discriminate|reflexivity]).
    symmetry. apply cneg_kG. split; [lia|discriminate].
  - exists k'. split; [exact HP|]. split; [exact T0_ok|]. split; [|split; [lia|split; [exact E|exact V]]].
    exists xpub_version, x00, z4, z4, z32. split; [exact xpv|]. split; [split; reflexivity|]. right. split; [exact xpub_reg|]. exists (kG 1). split; [apply kG_on|]. split; [exact N|reflexivity].
Qed.

Lemma C25_ex_l : (exists H k', prims_ok H /\ NewChildKey H T0 (xprv xprv_version x00 z4 z4 z32 1) 0 = Ret (k', None)) /\
nth 45 (xprv xprv_version x00 z4 z4 z32 1) x00 = x00 /\
(exists H seed k, prims_ok H /\ NewMasterKey H seed = Ret (Some k, None)).
Proof.
destruct C22_ex_l as [(H & k' & HP & _ & E) _]. split; [exists H, k'; split; [exact HP|exact E]|]. split; [reflexivity|].
  destruct C19_ex_l as [(H' & seed & HP' & R) _]. exists H', seed. eexists. split; [exact HP'|].
  exact (proj1 (proj2 (C19_master_l H' seed HP')) R).
Qed.

Lemma C26_over_range_l : forall H T v d f n c k i, prims_ok H -> after_init T -> fields_ok v f n c -> scalar_ok k -> pvt_registered v -> 0 <= i < 2 ^ 32 ->
  let I := I_priv H k c i in
  secp_n <= IL I ->
  CKDpriv H k c i = None /\
  NewChildKey H T (xprv v d f n c k) i =
    Ret (xprv v (bZ (Zb d + 1)) (fingerprint H (kG k)) (ser32 i) (IR I) ((IL I mod secp_n + k) mod secp_n),
         if (IL I mod secp_n + k) mod secp_n =? 0 then Some ErrInvalidPrivateKey else None).
Proof.
intros H T v d f n c k i HP HT HF Hk HV Hi I HI. split.
  - unfold CKDpriv. cbv zeta. assert (secp_n <=? IL (I_priv H k c i) = true) as -> by (apply Z.leb_le; exact HI). reflexivity.
  - rewrite child_priv by assumption. cbv zeta. rewrite Zplus_mod_idemp_l. reflexivity.
Qed.

Lemma C26_over_range_public_l : forall H T v d f n c K i, prims_ok H -> after_init T -> fields_ok v f n c -> oncurve K -> K <> PInf -> pub_registered v -> 0 <= i < 2 ^ 31 ->
  let I := I_pub H K c i in
  secp_n <= IL I -> IL I mod secp_n <> 0 -> cadd (kG (IL I mod secp_n)) K <> PInf ->
  CKDpub H K c i = None /\
  NewChildKey H T (xpub v d f n c K) i =
    Ret (xpub v (bZ (Zb d + 1)) (fingerprint H K) (ser32 i) (IR I) (cadd (kG (IL I mod secp_n)) K), None).
Proof.
intros H T v d f n c K i HP HT HF HO NK HV Hi I HI HN HA. change (2 ^ 31) with HARD in Hi. split.
  - unfold CKDpub. destruct (HARD <=? i); [reflexivity|]. cbv zeta. assert (secp_n <=? IL (I_pub H K c i) = true) as -> by (apply Z.leb_le; exact HI). reflexivity.
  - rewrite child_pub by (try assumption; lia). cbv zeta. fold I. apply Z.eqb_neq in HN. rewrite HN.
    rewrite kG_mod_n in HA by apply IL_nonneg. rewrite (kG_mod_n (IL I)) by apply IL_nonneg. unfold xpub. rewrite comp_aff by exact HA. reflexivity.
Qed.

Lemma C26_over_range_refuted_l : exists H T k i k', prims_ok H /\ after_init T /\ valid_xkey k /\ 0 <= i < 2 ^ 31 /\
  NewChildKey H T k i = Ret (k', None) /\ exists s c, k = xprv (slice 0 4 k) x00 z4 z4 c s /\ CKDpriv H s c i = None.
Proof.
exists (constP (ILbytes (secp_n + 1))), T0, (xprv xprv_version x00 z4 z4 z32 1), 0.
  assert (HP : prims_ok (constP (ILbytes (secp_n + 1)))) by (apply constP_ok, ILbytes_length).
  assert (EI : IL (ILbytes (secp_n + 1)) = secp_n + 1) by (apply IL_ILbytes; split; [discriminate|reflexivity]).
  destruct (C26_over_range_l (constP (ILbytes (secp_n + 1))) T0 xprv_version x00 z4 z4 z32 1 0 HP T0_ok xv one_ok xprv_reg) as [E1 E2].
  - lia.
  - change (secp_n <= IL (ILbytes (secp_n + 1))). rewrite EI. lia.
  - change (I_priv (constP (ILbytes (secp_n + 1))) 1 z32 0) with (ILbytes (secp_n + 1)) in E2. rewrite EI in E2.
    eexists. split; [exact HP|]. split; [exact T0_ok|]. split; [exact (proj1 (proj2 C17_ex_l))|]. split; [lia|]. split; [exact E2|].
    exists 1, z32. split; [reflexivity|exact E1].
Qed.

Lemma C26_ex_l : exists H, prims_ok H /\ secp_n <= IL (I_priv H 1 z32 0) /\ secp_n <= IL (I_pub H (kG 1) z32 0) /\
  IL (I_pub H (kG 1) z32 0) mod secp_n <> 0 /\ cadd (kG (IL (I_pub H (kG 1) z32 0) mod secp_n)) (kG 1) <> PInf.
Proof.
exists (constP (ILbytes (secp_n + 1))). split; [apply constP_ok, ILbytes_length|].
  change (I_priv (constP (ILbytes (secp_n + 1))) 1 z32 0) with (ILbytes (secp_n + 1)). change (I_pub (constP (ILbytes (secp_n + 1))) (kG 1) z32 0) with (ILbytes (secp_n + 1)).
  rewrite IL_ILbytes by (split; [discriminate|reflexivity]). split; [lia|]. split; [lia|]. change ((secp_n + 1) mod secp_n) with 1. split; [discriminate|].
  rewrite <- kG_add by lia. apply scalar_aff. split; [lia|reflexivity].
Qed.

Lemma C27_depth_l : forall H T k i k', prims_ok H -> after_init T -> wf_key k -> NewChildKey H T k i = Ret (k', None) ->
  Zb (nth 4 k' x00) = (Zb (nth 4 k x00) + 1) mod 256.
Proof.
intros H T k i k' HP HT HK E. destruct (child_depth_any H T k i k' HP HT HK E) as [D _]. unfold key_at in D. rewrite D. apply Zb_bZ.
Qed.

Lemma C27_depth_counts_l : forall H T k is k', prims_ok H -> after_init T -> wf_key k -> derives H T k is k' ->
  Zb (nth 4 k' x00) = (Zb (nth 4 k x00) + Z.of_nat (length is)) mod 256.
Proof.
intros H T k is k' HP HT HK D. exact (derives_depth H T is k k' HP HT HK D).
Qed.

Lemma C27_depth_wraps_refuted_l : forall H T k i k', prims_ok H -> after_init T -> wf_key k -> nth 4 k x00 = xff -> NewChildKey H T k i = Ret (k', None) ->
  nth 4 k' x00 = x00.
Proof.
intros H T k i k' HP HT HK HD E. destruct (child_depth_any H T k i k' HP HT HK E) as [D _]. unfold key_at in D. rewrite D, HD. reflexivity.
Qed.

Lemma C27_ex_l : exists H k', prims_ok H /\ wf_key (xprv xprv_version xff z4 z4 z32 1) /\ nth 4 (xprv xprv_version xff z4 z4 z32 1) x00 = xff /\
  NewChildKey H T0 (xprv xprv_version xff z4 z4 z32 1) 0 = Ret (k', None) /\ derives H T0 (xprv xprv_version xff z4 z4 z32 1) [0] k'.
Proof.
exists (constP (ILbytes 1)).
  assert (HP : prims_ok (constP (ILbytes 1))) by (apply constP_ok, ILbytes_length).
  assert (E : exists k', NewChildKey (constP (ILbytes 1)) T0 (xprv xprv_version xff z4 z4 z32 1) 0 = Ret (k', None)).
  { rewrite child_priv; [|exact HP|exact T0_ok|exact xv|exact one_ok|exact xprv_reg]. cbv zeta.
    change (I_priv (constP (ILbytes 1)) 1 z32 0) with (ILbytes 1). rewrite IL_ILbytes by lia. eexists. reflexivity. }
  destruct E as (k' & E). exists k'. split; [exact HP|]. split; [apply xprv_wf, xv|]. split; [reflexivity|]. split; [exact E|].
  eapply derives_cons; [exact E|apply derives_nil].
Qed.

Lemma C28_private_l : forall T v d f n c k, after_init T -> fields_ok v f n c -> scalar_ok k ->
  (forall w, length w = 4%nat -> paired v w -> PublicKeyExtended T (xprv v d f n c k) = xpub w d f n c (kG k)) /\
  (~ pvt_registered v -> PublicKeyExtended T (xprv v d f n c k) = xpub (ser32 0x0488b21e) d f n c (kG k)).
Proof.
intros T v d f n c k HT HF Hk. rewrite neuter_xprv by assumption. split.
  - intros w Lw PW. destruct (pub_version T v w HT Lw PW) as (h & -> & ->). reflexivity.
  - intros N. rewrite pvt_unreg by assumption. reflexivity.
Qed.

Lemma C28_public_l : forall T k, after_init T -> wf_key k -> nth 45 k x00 <> x00 ->
  (pub_registered (slice 0 4 k) -> PublicKeyExtended T k = k) /\
  (~ pub_registered (slice 0 4 k) -> PublicKeyExtended T k = ser32 0x0488b21e ++ skipn 4 k).
Proof.
intros T k HT HK HN. destruct (wf_cases k HK) as (v & d & f & n & c & HF & [[C _]|[_ (data & LD & ND & ->)]]); [contradiction|].
  rewrite get_ver by exact HF. rewrite Neuter_pub by assumption. split.
  - intros HR. destruct (pub_lookup T v HT HR) as (h & ->). reflexivity.
  - intros N. rewrite pub_unreg by assumption. unfold xkey. rewrite skipn_exact by exact (proj1 HF). reflexivity.
Qed.

Lemma C28_idempotent_l : forall T k, after_init T -> wf_key k -> PublicKeyExtended T (PublicKeyExtended T k) = PublicKeyExtended T k.
Proof.
intros T k HT HK. destruct (wf_cases k HK) as (v & d & f & n & c & HF & [[_ (s & Hs & ->)]|[_ (data & LD & ND & ->)]]); pose proof HF as (lv & lf & ln & lc).
  - rewrite Neuter_priv by assumption. destruct (lookup0 _ _) as [h|] eqn:EL.
    + destruct (pub_version_reg T v h HT EL) as [PW LW]. rewrite Neuter_pub; [|repeat split; assumption|apply comp_head].
      destruct (pub_lookup T _ HT (paired_pub _ _ PW)) as (h' & ->). reflexivity.
    + rewrite Neuter_pub; [|repeat split; assumption|apply comp_head]. destruct (pub_lookup T _ HT xpub_reg) as (h' & ->). reflexivity.
  - rewrite (Neuter_pub T v) by assumption. destruct (lookup0 _ _) as [h|] eqn:EL.
    + rewrite Neuter_pub, EL by assumption. reflexivity.
    + rewrite Neuter_pub; [|repeat split; assumption|exact ND]. destruct (pub_lookup T _ HT xpub_reg) as (h' & ->). reflexivity.
Qed.

Lemma C28_fields_l : forall T k, wf_key k -> wf_key (PublicKeyExtended T k) /\ slice 4 45 (PublicKeyExtended T k) = slice 4 45 k /\
  nth 45 (PublicKeyExtended T k) x00 <> x00.
Proof.
intros T k HK.
  assert (S : forall v d f n c data, fields_ok v f n c -> slice 4 45 (xkey v d f n c data) = [d] ++ f ++ n ++ c).
  { intros v d f n c data (lv & lf & ln & lc). unfold xkey. replace ([d] ++ f ++ n ++ c ++ data) with (([d] ++ f ++ n ++ c) ++ data) by (rewrite <- !app_assoc; reflexivity).
    apply slice_mid; [exact lv|]. rewrite !app_length, lf, ln, lc. reflexivity. }
  change (nth 45 (PublicKeyExtended T k) x00) with (key_at 45 (PublicKeyExtended T k)).
  destruct (wf_cases k HK) as (v & d & f & n & c & HF & [[_ (s & Hs & ->)]|[_ (data & LD & ND & ->)]]); pose proof HF as (lv & lf & ln & lc).
  - rewrite Neuter_priv by assumption.
    assert (HF' : fields_ok (match lookup0 (PvtFlagToHDBytesSlice T) (be_Z v) with None => xpub_version | Some h => PubKeyFlagBytes h end) f n c)
      by (repeat split; try assumption; destruct (lookup0 _ _); apply Z_be_length).
    rewrite get_45 by exact HF'. unfold xprv. rewrite !S by assumption. split; [|split; [reflexivity|apply comp_head]].
    unfold wf_key. rewrite xkey_length by exact HF'. rewrite comp_length. reflexivity.
  - rewrite Neuter_pub by assumption.
    assert (HF' : fields_ok (match lookup0 (PubFlagToHDBytesSlice T) (be_Z v) with None => xpub_version | Some _ => v end) f n c)
      by (repeat split; try assumption; destruct (lookup0 _ _); [exact lv|apply Z_be_length]).
    rewrite get_45 by exact HF'. rewrite !S by assumption. split; [|split; [reflexivity|exact ND]].
    unfold wf_key. rewrite xkey_length by exact HF'. rewrite LD. reflexivity.
Qed.

Lemma C28_injective_l : forall j k, scalar_ok j -> scalar_ok k -> serPb (kG j) = serPb (kG k) -> j = k.
Proof.
exact serPb_kG_inj.
Qed.

Lemma C28_ex_l : after_init T0 /\ fields_ok xprv_version z4 z4 z32 /\ scalar_ok 1 /\ paired xprv_version xpub_version /\ ~ pvt_registered z4 /\
pub_registered xpub_version /\ ~ pub_registered z4.
Proof.
split; [exact T0_ok|]. split; [exact xv|]. split; [exact one_ok|]. split; [exact xpub_paired|].
  split; [intros (q & Hq); cbn in Hq; intuition discriminate|]. split; [exact xpub_reg|]. intros (q & Hq); cbn in Hq; intuition discriminate.
Qed.

Lemma C29_order_irrelevant_l : forall H T1 T2 k i, after_init T1 -> after_init T2 ->
  PublicKeyExtended T1 k = PublicKeyExtended T2 k /\ NewChildKey H T1 k i = NewChildKey H T2 k i.
Proof.
intros H T1 T2 k i H1 H2. split; [apply Neuter_agree; assumption|apply NewChildKey_agree; assumption].
Qed.

Lemma C29_init_terminates_l : forall ord, Permutation ord PathToHDBytesSlice -> exists T, init_tables ord = Ret T.
Proof.
intros ord HP. destruct (after_init_exists ord HP) as (T & E & _). exists T. exact E.
Qed.

Lemma C29_one_flag_l : forall T, after_init T ->
  (forall v l h h', PvtFlagToHDBytesSlice T v = Some l -> In h l -> In h' l -> PubKeyFlag h = PubKeyFlag h' /\ PvtKeyFlag h = v) /\
  (forall v l h h', PubFlagToHDBytesSlice T v = Some l -> In h l -> In h' l -> PvtKeyFlag h = PvtKeyFlag h' /\ PubKeyFlag h = v).
Proof.
intros T HT. destruct (after_init_tbl T HT) as (l0 & HP & (H1 & H2 & _)).
  assert (A : forall f v l h, tbl f l0 v = Some l -> In h l -> In h registered /\ f h = v).
  { intros f v l h E Hh. unfold tbl in E. destruct (filter _ l0) as [|x r] eqn:EF; [discriminate|].
    assert (l = x :: r) by congruence. subst l. rewrite <- EF in Hh. apply filter_In in Hh as [Hh1 Hh2]. apply Z.eqb_eq in Hh2.
    split; [|exact Hh2]. apply (Permutation_in h HP Hh1). }
  split; intros v l h h' E Hh Hh'.
  - rewrite H2 in E. destruct (A _ _ _ _ E Hh) as [R1 E1]. destruct (A _ _ _ _ E Hh') as [R2 E2]. split; [|exact E1].
    pose proof (slip_unique _ _ (reg_in_slip h R1) (reg_in_slip h' R2) (or_introl (eq_trans E1 (eq_sym E2)))) as EE. congruence.
  - rewrite H1 in E. destruct (A _ _ _ _ E Hh) as [R1 E1]. destruct (A _ _ _ _ E Hh') as [R2 E2]. split; [|exact E1].
    pose proof (slip_unique _ _ (reg_in_slip h R1) (reg_in_slip h' R2) (or_intror (eq_trans E1 (eq_sym E2)))) as EE. congruence.
Qed.

Lemma C29_slice_permutation_l : forall T, after_init T -> Permutation (HDVersionBytesSlice T) (concat (map snd PathToHDBytesSlice)) /\ length (HDVersionBytesSlice T) = 29%nat.
Proof.
intros T HT. destruct (after_init_tbl T HT) as (l0 & HP & (_ & _ & H3 & _)). rewrite H3. split; [exact HP|].
  rewrite (Permutation_length HP). reflexivity.
Qed.

Lemma C29_ex_l : after_init T0 /\ exists T, init_tables (rev PathToHDBytesSlice) = Ret T /\ after_init T.
Proof.
split; [exact T0_ok|]. apply after_init_exists. symmetry. apply Permutation_rev.
Qed.

Lemma misdoc_iff h : misdocumented h = true <-> In (Coin h) [B "Nexa"; B "Nexa Testnet"; B "Vertcoin"].
Proof.
  unfold misdocumented. rewrite !orb_true_iff, !bytes_eqb_spec. cbn [In]. intuition congruence.
Qed.
Lemma misdoc_not h : ~ In (Coin h) [B "Nexa"; B "Nexa Testnet"; B "Vertcoin"] <-> misdocumented h = false.
Proof. rewrite <- misdoc_iff. apply not_true_iff_false. Qed.

Lemma C30_prefixes_l : forall H h k, prims_ok H -> In h registered -> wf_key k -> ~ In (Coin h) [B "Nexa"; B "Nexa Testnet"; B "Vertcoin"] ->
  (GetVersion k = PvtKeyFlag h -> firstn 4 (B58Serialize H k) = PvKeyPrefix h /\ length (B58Serialize H k) = 111%nat) /\
  (GetVersion k = PubKeyFlag h -> firstn 4 (B58Serialize H k) = PubKeyPrefix h /\ length (B58Serialize H k) = 111%nat).
Proof.
intros H h k HP Hh HK HM. apply misdoc_not in HM. destruct (prefix_text H h k HP Hh HK) as [A1 A2].
  pose proof (proj1 (forallb_forall _ _) prefix_chk h Hh) as C. cbv beta in C. rewrite HM in C. cbn [negb] in C. apply andb_true_iff in C as [C1 C2].
  apply eqb_prop in C1, C2. symmetry in C1, C2. apply bytes_eqb_spec in C1, C2.
  pose proof (proj1 (forallb_forall _ _) ndig_chk h Hh) as N. cbv beta in N. rewrite HM in N. cbn [orb] in N. apply andb_true_iff in N as [N1 N2]. apply Nat.eqb_eq in N1, N2.
  split; intros E.
  - destruct (A1 E) as [E1 E2]. rewrite E1, E2, N1. split; [exact C1|reflexivity].
  - destruct (A2 E) as [E1 E2]. rewrite E1, E2, N2. split; [exact C2|reflexivity].
Qed.

Lemma C30_constant_prefix_l : forall H h k k', prims_ok H -> In h registered -> wf_key k -> wf_key k' -> GetVersion k = GetVersion k' ->
  GetVersion k = PvtKeyFlag h \/ GetVersion k = PubKeyFlag h ->
  firstn 4 (B58Serialize H k) = firstn 4 (B58Serialize H k') /\ length (B58Serialize H k) = length (B58Serialize H k').
Proof.
intros H h k k' HP Hh HK HK' EV HV. destruct (prefix_text H h k HP Hh HK) as [A1 A2]. destruct (prefix_text H h k' HP Hh HK') as [B1 B2].
  rewrite <- EV in B1, B2. destruct HV as [E|E].
  - destruct (A1 E) as [-> ->], (B1 E) as [-> ->]. split; reflexivity.
  - destruct (A2 E) as [-> ->], (B2 E) as [-> ->]. split; reflexivity.
Qed.

Lemma C30_misdocumented_refuted_l : forall H h k, prims_ok H -> In h registered -> wf_key k -> In (Coin h) [B "Nexa"; B "Nexa Testnet"; B "Vertcoin"] ->
  (GetVersion k = PvtKeyFlag h -> firstn 4 (B58Serialize H k) <> PvKeyPrefix h) /\
  (GetVersion k = PubKeyFlag h -> firstn 4 (B58Serialize H k) <> PubKeyPrefix h).
Proof.
intros H h k HP Hh HK HM. apply misdoc_iff in HM. destruct (prefix_text H h k HP Hh HK) as [A1 A2].
  pose proof (proj1 (forallb_forall _ _) prefix_chk h Hh) as C. cbv beta in C. rewrite HM in C. cbn [negb] in C. apply andb_true_iff in C as [C1 C2].
  apply eqb_prop in C1, C2. symmetry in C1, C2. apply bytes_eqb_neq in C1, C2.
  split; intros E; [destruct (A1 E) as [-> _]; exact C1|destruct (A2 E) as [-> _]; exact C2].
Qed.

Lemma C30_ex_l : In Bitcoinxprvxpub registered /\ ~ In (Coin Bitcoinxprvxpub) [B "Nexa"; B "Nexa Testnet"; B "Vertcoin"] /\ In Vertcoinvtcpvtcv registered /\ In (Coin Vertcoinvtcpvtcv) [B "Nexa"; B "Nexa Testnet"; B "Vertcoin"] /\
wf_key (xprv xprv_version x00 z4 z4 z32 1) /\ GetVersion (xprv xprv_version x00 z4 z4 z32 1) = PvtKeyFlag Bitcoinxprvxpub .
Proof.
split; [left; reflexivity|]. split; [apply misdoc_not; reflexivity|]. split; [unfold registered; cbn; tauto|]. split; [apply misdoc_iff; reflexivity|]. split; [apply xprv_wf, xv|reflexivity].
Qed.

Lemma C31_accessors_l : forall h s, stripped (VPath h) s ->
  (forall a b, s = B "m/" ++ a ++ B "'/" ++ b ++ B "'" -> numeral a -> numeral b -> (length a <= 8)%nat -> (length b <= 8)%nat ->
     PurposeVal h = Ret (number a, None) /\ CoinVal h = Ret (number b, None) /\
     PurposeValFull h = Ret (number a + 2 ^ 31, None) /\ CoinValFull h = Ret (number b + 2 ^ 31, None) /\
     0 <= number a < 2 ^ 31 /\ 0 <= number b < 2 ^ 31) /\
  (forall v, PurposeVal h = Ret (v, None) \/ PurposeValFull h = Ret (v, None) ->
     exists a b, s = B "m/" ++ a ++ B "'/" ++ b ++ B "'" /\ numeral a /\ Forall digit b /\ (length a <= 8)%nat /\ (length b <= 8)%nat) /\
  (forall v, CoinVal h = Ret (v, None) \/ CoinValFull h = Ret (v, None) ->
     exists a b, s = B "m/" ++ a ++ B "'/" ++ b ++ B "'" /\ Forall digit a /\ numeral b /\ (length a <= 8)%nat /\ (length b <= 8)%nat) /\
  PurposeVal h <> Panic /\ CoinVal h <> Panic /\ PurposeValFull h <> Panic /\ CoinValFull h <> Panic.
Proof.
intros h s HS. apply stripped_iff in HS. subst s. split; [|split; [|split; [|exact (accessors_no_panic h)]]].
  - intros a b E Ha Hb La Lb. apply numeral_iff in Ha as [Na Da]. apply numeral_iff in Hb as [Nb Db].
    destruct (PurposeVal_spec h a b E Da Db La Lb) as (V & P & C). rewrite !number_dec.
    pose proof (dec_val_8 a Da La) as Ra. pose proof (dec_val_8 b Db Lb) as Rb. change (10 ^ 8) with 100000000 in *. change (2 ^ 31) with 2147483648.
    unfold PurposeValFull, CoinValFull, val_full. rewrite V, P, C. cbn [negb]. destruct a as [|a0 a']; [congruence|]. destruct b as [|b0 b']; [congruence|].
    unfold u32, TWO32, FirstHardenedChild. rewrite !Z.mod_small by lia. repeat split; lia.
  - intros v HV. destruct (VBIsValid h) eqn:V.
    + destruct (VBIsValid_spec h V) as (a & b & E & Da & Db & La & Lb). exists a, b. split; [exact E|].
      destruct (PurposeVal_spec h a b E Da Db La Lb) as (_ & P & C). unfold PurposeValFull, val_full in HV. rewrite V, P in HV. cbn [negb] in HV.
      rewrite Forall_digit, numeral_iff. destruct a; [destruct HV; discriminate|]. repeat split; try assumption; discriminate.
    + unfold PurposeValFull, val_full, PurposeVal in HV. rewrite V in HV. cbn [negb] in HV. destruct HV; discriminate.
  - intros v HV. destruct (VBIsValid h) eqn:V.
    + destruct (VBIsValid_spec h V) as (a & b & E & Da & Db & La & Lb). exists a, b. split; [exact E|].
      destruct (PurposeVal_spec h a b E Da Db La Lb) as (_ & P & C). unfold CoinValFull, val_full in HV. rewrite V, C in HV. cbn [negb] in HV.
      rewrite Forall_digit, numeral_iff. destruct b; [destruct HV; discriminate|]. repeat split; try assumption; discriminate.
    + unfold CoinValFull, val_full, CoinVal in HV. rewrite V in HV. cbn [negb] in HV. destruct HV; discriminate.
Qed.

Lemma C31_errors_l : forall h s v e, stripped (VPath h) s ->
  let shape a b := s = B "m/" ++ a ++ B "'/" ++ b ++ B "'" /\ Forall digit a /\ Forall digit b /\ (length a <= 8)%nat /\ (length b <= 8)%nat in
  (PurposeVal h = Ret (v, Some e) \/ PurposeValFull h = Ret (v, Some e) ->
     v = 0 /\ ((e = ErrUnSupportedHDVersionBytes /\ forall a b, ~ shape a b) \/ (e = ErrSyntax /\ exists b, shape [] b))) /\
  (CoinVal h = Ret (v, Some e) \/ CoinValFull h = Ret (v, Some e) ->
     v = 0 /\ ((e = ErrUnSupportedHDVersionBytes /\ forall a b, ~ shape a b) \/ (e = ErrSyntax /\ exists a, shape a []))).
Proof.
intros h s v e HS. apply stripped_iff in HS. subst s. cbv zeta.
  destruct (VBIsValid h) eqn:V.
  - destruct (VBIsValid_spec h V) as (a & b & E & Da & Db & La & Lb).
    destruct (PurposeVal_spec h a b E Da Db La Lb) as (_ & P & C).
    unfold PurposeValFull, CoinValFull, val_full. rewrite V, P, C. cbn [negb]. split.
    + intros HV. destruct a as [|a0 a']; [|destruct HV; discriminate].
      assert (EQ : (v, e) = (0, ErrSyntax)) by (destruct HV as [HV|HV]; injection HV as <- <-; reflexivity).
      injection EQ as -> ->. split; [reflexivity|]. right. split; [reflexivity|]. exists b. rewrite !Forall_digit. repeat split; assumption.
    + intros HV. destruct b as [|b0 b']; [|destruct HV; discriminate].
      assert (EQ : (v, e) = (0, ErrSyntax)) by (destruct HV as [HV|HV]; injection HV as <- <-; reflexivity).
      injection EQ as -> ->. split; [reflexivity|]. right. split; [reflexivity|]. exists a. rewrite !Forall_digit. repeat split; assumption.
  - assert (NS : forall a b, ~ (PathString (VPath h) = B "m/" ++ a ++ B "'/" ++ b ++ B "'" /\ Forall digit a /\ Forall digit b /\ (length a <= 8)%nat /\ (length b <= 8)%nat)).
    { intros a b (E & Da & Db & La & Lb). rewrite Forall_digit in Da, Db.
      destruct (PurposeVal_spec h a b E Da Db La Lb) as (V' & _). congruence. }
    unfold PurposeValFull, CoinValFull, val_full, PurposeVal, CoinVal. rewrite V. cbn [negb]. split.
    + intros HV. assert (EQ : (v, e) = (0, ErrUnSupportedHDVersionBytes)) by (destruct HV as [HV|HV]; injection HV as <- <-; reflexivity).
      injection EQ as -> ->. split; [reflexivity|]. left. split; [reflexivity|exact NS].
    + intros HV. assert (EQ : (v, e) = (0, ErrUnSupportedHDVersionBytes)) by (destruct HV as [HV|HV]; injection HV as <- <-; reflexivity).
      injection EQ as -> ->. split; [reflexivity|]. left. split; [reflexivity|exact NS].
Qed.

Lemma C31_empty_component_refuted_l : exists h, CoinVal h = Ret (5, None) /\ VBIsValid h = true /\ PurposeVal h = Ret (0, Some ErrSyntax) /\ VPath h = B "m/'/5'".
Proof.
exists (mkVB [] 0 [] 0 [] [] (B "m/'/5'")). repeat split.
Qed.

Lemma C31_registered_l : forall T h, after_init T -> In h registered -> exists pv cv, 
  PurposeVal h = Ret (pv, None) /\ PurposeValFull h = Ret (pv + 2 ^ 31, None) /\ CoinVal h = Ret (cv, None) /\
  (exists l, PurposeToHDBytesSlice T pv = Some l /\ In h l) /\
  (exists l, PurposeFullToHDBytesSlice T (pv + 2 ^ 31) = Some l /\ In h l) /\
  (exists l, CoinTypeToHDBytesSlice T cv = Some l /\ In h l) /\
  (forall v l h', PurposeToHDBytesSlice T v = Some l -> In h' l -> PurposeVal h' = Ret (v, None)) /\
  (forall v l h', CoinTypeToHDBytesSlice T v = Some l -> In h' l -> CoinVal h' = Ret (v, None)).
Proof.
intros T h HT Hh. pose proof (reg_accessors h Hh) as (RP & RF & RC).
  exists (valOf (PurposeVal h)), (valOf (CoinVal h)). split; [exact RP|]. split; [exact RF|]. split; [exact RC|].
  destruct (after_init_tbl T HT) as (l0 & HP & (_ & _ & _ & H4 & H5 & H6)).
  assert (IN : forall f, exists l, tbl f l0 (f h) = Some l /\ In h l).
  { intros f. unfold tbl. assert (Hf : In h (filter (fun h0 => f h0 =? f h) l0)).
    { apply filter_In. split; [apply (Permutation_in h (Permutation_sym HP) Hh)|apply Z.eqb_refl]. }
    destruct (filter (fun h0 => f h0 =? f h) l0) as [|x r]; [destruct Hf|]. exists (x :: r). split; [reflexivity|exact Hf]. }
  assert (OUT : forall f v l h', tbl f l0 v = Some l -> In h' l -> In h' registered /\ f h' = v).
  { intros f v l h' E Hh'. unfold tbl in E. destruct (filter _ l0) as [|x r] eqn:EF; [discriminate|].
    assert (l = x :: r) by congruence. subst l. rewrite <- EF in Hh'. apply filter_In in Hh' as [Hh1 Hh2]. apply Z.eqb_eq in Hh2.
    split; [|exact Hh2]. apply (Permutation_in h' HP Hh1). }
  split; [rewrite H4; apply (IN (fun h => valOf (PurposeVal h)))|]. split.
  { rewrite H5. destruct (IN (fun h => valOf (PurposeValFull h))) as (l & E & Hl). exists l. split; [|exact Hl]. rewrite RF in E. exact E. }
  split; [rewrite H6; apply (IN (fun h => valOf (CoinVal h)))|]. split.
  - intros v l h' E Hh'. rewrite H4 in E. destruct (OUT _ _ _ _ E Hh') as [R EV]. rewrite <- EV. exact (proj1 (reg_accessors h' R)).
  - intros v l h' E Hh'. rewrite H6 in E. destruct (OUT _ _ _ _ E Hh') as [R EV]. rewrite <- EV. exact (proj2 (proj2 (reg_accessors h' R))).
Qed.

Lemma C31_ex_l : In Bitcoinxprvxpub registered /\ stripped (VPath Bitcoinxprvxpub) (B "m/44'/0'") /\ numeral (B "44") /\ numeral (B "0") /\
CoinVal Nexaxprvxpub = Ret (29223, None) /\ PurposeVal (mkVB [] 0 [] 0 [] [] (B "m/x")) = Ret (0, Some ErrUnSupportedHDVersionBytes).
Proof.
split; [left; reflexivity|]. split; [apply stripped_iff; reflexivity|]. split; [apply numeral_iff; split; [discriminate|reflexivity]|]. split; [apply numeral_iff; split; [discriminate|reflexivity]|split; reflexivity].
Qed.

Lemma C32_unregistered_l : forall H T k i, prims_ok H -> after_init T -> wf_key k ->
  (nth 45 k x00 = x00 -> ~ pvt_registered (slice 0 4 k) -> NewChildKey H T k i = Ret (repeat x00 78, Some ErrUnSupportedHDVersionBytes)) /\
  (nth 45 k x00 <> x00 -> ~ pub_registered (slice 0 4 k) -> i < 2 ^ 31 -> NewChildKey H T k i = Ret (repeat x00 78, Some ErrUnSupportedHDVersionBytes)) /\
  (nth 45 k x00 = x00 -> pvt_registered (slice 0 4 k) -> forall r, NewChildKey H T k i <> Ret (r, Some ErrUnSupportedHDVersionBytes)) /\
  (nth 45 k x00 <> x00 -> pub_registered (slice 0 4 k) -> forall r, NewChildKey H T k i <> Ret (r, Some ErrUnSupportedHDVersionBytes)).
Proof.
intros H T k i HP HT HK. change (nth 45 k x00) with (key_at 45 k).
  destruct (wf_cases k HK) as (v & d & f & n & c & HF & [[C (s & Hs & ->)]|[C (data & LD & ND & ->)]]).
  - assert (EV : slice 0 4 (xprv v d f n c s) = v) by (unfold xprv; apply get_ver; exact HF). rewrite EV.
    rewrite NewChildKey_priv by assumption. cbv zeta. split; [|split; [congruence|split; [|congruence]]].
    + intros _ N. rewrite pvt_unreg by assumption. reflexivity.
    + intros _ R r. destruct (pvt_lookup T v HT R) as (h & ->). destruct (_ =? 0); intros E; discriminate.
  - rewrite get_ver by exact HF. rewrite NewChildKey_pub by assumption. cbv zeta. split; [congruence|]. split; [|split; [congruence|]].
    + intros _ N Hi. assert (HARD <=? i = false) as -> by (unfold HARD; lia). rewrite pub_unreg by assumption. reflexivity.
    + intros _ R r. destruct (pub_lookup T v HT R) as (h & ->). destruct (HARD <=? i); [intros E; discriminate|]. destruct (_ =? 0); intros E; discriminate.
Qed.

Lemma C32_ex_l : wf_key (xprv z4 x00 z4 z4 z32 1) /\ ~ pvt_registered (slice 0 4 (xprv z4 x00 z4 z4 z32 1)) /\
wf_key (xpub z4 x00 z4 z4 z32 (kG 1)) /\ ~ pub_registered (slice 0 4 (xpub z4 x00 z4 z4 z32 (kG 1))).
Proof.
assert (F : fields_ok z4 z4 z4 z32) by (repeat split). split; [apply xprv_wf, F|].
  split; [intros (q & Hq); cbn in Hq; intuition discriminate|]. split; [apply xpub_wf; [exact F|apply scalar_aff, one_ok]|].
  unfold xpub. rewrite get_ver by exact F. intros (q & Hq); cbn in Hq; intuition discriminate.
Qed.

Lemma C33_expand_compress_l : forall x y, oncurve (PAff x y) ->
  compressPublicKey (fv x, fv y) = serPb (PAff x y) /\ ExpandPublicKey (serPb (PAff x y)) = Ret (fv x, fv y).
Proof.
intros x y HO. split; [exact (compress_enc (PAff x y))|]. apply (Expand_ser (PAff x y)); [exact HO|discriminate].
Qed.

Lemma C33_compress_expand_l : forall k0 xs y, k0 = x02 \/ k0 = x03 -> length xs = 32%nat -> be_Z xs < secp_p -> oncurve (PAff (toF (be_Z xs)) y) ->
  exists P, ExpandPublicKey (k0 :: xs) = Ret P /\ compressPublicKey P = k0 :: xs.
Proof.
intros k0 xs y Hk Lx Hp HO.
  assert (P : exists Q, oncurve Q /\ Q <> PInf /\ serPb Q = k0 :: xs).
  { assert (EX : Z_be 32 (fv (toF (be_Z xs))) = xs).
    { rewrite fv_toF, Z.mod_small by (split; [apply be_Z_range|exact Hp]). apply Z_be_be_Z. exact Lx. }
    pose proof (y_nonzero _ _ HO) as Y. pose proof (fv_opp y Y) as EO.
    assert (PE : Z.even (secp_p - fv y) = negb (Z.even (fv y))) by (rewrite Z.even_sub, p_odd; destruct (Z.even (fv y)); reflexivity).
    assert (HO' : oncurve (PAff (toF (be_Z xs)) (Fopp y))) by exact (cneg_on _ HO).
    destruct (Z.even (fv y)) eqn:EY.
    - destruct Hk as [-> | ->].
      + exists (PAff (toF (be_Z xs)) y). split; [exact HO|]. split; [discriminate|]. cbn [serPb serP]. rewrite EY, EX. reflexivity.
      + exists (PAff (toF (be_Z xs)) (Fopp y)). split; [exact HO'|]. split; [discriminate|]. cbn [serPb serP]. rewrite EO, PE, EX. reflexivity.
    - destruct Hk as [-> | ->].
      + exists (PAff (toF (be_Z xs)) (Fopp y)). split; [exact HO'|]. split; [discriminate|]. cbn [serPb serP]. rewrite EO, PE, EX. reflexivity.
      + exists (PAff (toF (be_Z xs)) y). split; [exact HO|]. split; [discriminate|]. cbn [serPb serP]. rewrite EY, EX. reflexivity. }
  destruct P as (Q & HQ & NQ & EQ). exists (enc Q). rewrite <- EQ. split; [apply Expand_ser; assumption|]. rewrite compress_enc. apply comp_aff. exact NQ.
Qed.

Lemma C33_off_curve_refuted_l : (forall k0 xs, (forall y, ~ oncurve (PAff (toF (be_Z xs)) y)) ->
   ExpandPublicKey (k0 :: xs) = Ret (be_Z xs, if Byte.eqb k0 x02 then 0 else secp_p)) /\
(forall y, ~ oncurve (PAff (toF (be_Z (repeat x00 32))) y)) /\
ExpandPublicKey (x02 :: repeat x00 32) = Ret (0, 0).
Proof.
assert (A : forall y, ~ oncurve (PAff (toF (be_Z (repeat x00 32))) y)) by (change (be_Z (repeat x00 32)) with 0; exact off_zero).
  split; [exact Expand_off|]. split; [exact A|]. rewrite Expand_off by exact A. reflexivity.
Qed.

Lemma cube_mod x : ((x mod secp_p) ^ 3 + secp_b) mod secp_p = (x ^ 3 + secp_b) mod secp_p.
Proof.
  rewrite (Z.add_mod ((x mod secp_p) ^ 3)), (Z.add_mod (x ^ 3)) by apply secp_p_nz. f_equal. f_equal.
  replace (x ^ 3) with (x * x * x) by ring. replace ((x mod secp_p) ^ 3) with ((x mod secp_p) * (x mod secp_p) * (x mod secp_p)) by ring.
  rewrite (Z.mul_mod (x * x)), (Z.mul_mod x x), Z.mul_mod, (Z.mul_mod (x mod secp_p) (x mod secp_p)), !Z.mod_mod by apply secp_p_nz. reflexivity.
Qed.
Lemma curve_dec x : (exists y, oncurve (PAff (toF x) y)) \/ (ModSqrt (x ^ 3 + secp_b) = None /\ forall y, ~ oncurve (PAff (toF x) y)).
Proof.
  destruct (ModSqrt (x ^ 3 + secp_b)) as [z|] eqn:E.
  - left. exists (toF z). apply ModSqrt_sound in E as [_ E]. unfold oncurve, on. rewrite E. unfold Fb. rewrite <- !toF_mul, <- toF_add. f_equal. ring.
  - right. split; [reflexivity|]. intros y HO. pose proof (curve_sq _ _ HO) as Q. destruct (ModSqrt_square y) as (z & S & _). rewrite <- Q in S. rewrite fv_toF in S.
    rewrite cube_mod, ModSqrt_mod in S. congruence.
Qed.
Lemma expand_on k0 xs y : oncurve (PAff (toF (be_Z xs)) y) -> exists y', ExpandPublicKey (k0 :: xs) = Ret (be_Z xs, y') /\ y' <> 0 /\ (be_Z xs) mod secp_p <> 0.
Proof.
  intros HO. rewrite Expand_cons. pose proof (curve_sq _ _ HO) as Q. destruct (ModSqrt_square y) as (z & S & R & Ez). rewrite <- Q, fv_toF in S.
  rewrite cube_mod, ModSqrt_mod in S. rewrite S.
  eexists. split; [reflexivity|]. split.
  - assert (NZ : z <> 0). { intros ->. assert (E0 : toF 0 = F0) by reflexivity. pose proof (y_nonzero _ _ HO) as Y. rewrite E0 in Ez. destruct Ez as [C|C]; [congruence|].
      apply Y, Fp_eq. destruct (Z.eq_dec (fv y) 0) as [W|W]; [exact W|exfalso]. pose proof (fv_opp y Y) as O. rewrite <- C in O. pose proof (fv_range y) as RR. change (fv F0) with 0 in O. lia. }
    unfold sel_y. destruct (_ =? _); lia.
  - pose proof (x_nonzero _ _ HO) as X. rewrite fv_toF in X. exact X.
Qed.
Lemma five_nonsquare : ModSqrt 132 = None.
Proof. vm_compute. reflexivity. Qed.
Lemma five_nonsquare_eq : (fv (toF 5) ^ 3 + secp_b) mod secp_p = 132.
Proof. vm_compute. reflexivity. Qed.

Lemma C33_validate_l : forall k0 xs,
  let refused := be_Z xs = 0 \/ (k0 = x02 /\ forall y, ~ oncurve (PAff (toF (be_Z xs)) y)) in
  (refused -> validateChildPublicKey (k0 :: xs) = Ret (Some ErrInvalidPublicKey)) /\
  (~ refused -> validateChildPublicKey (k0 :: xs) = Ret None).
Proof.
intros k0 xs refused. unfold validateChildPublicKey. destruct (curve_dec (be_Z xs)) as [(y & HO)|[_ HN]].
  - destruct (expand_on k0 xs y HO) as (y' & -> & Y & X). cbn [bind]. split.
    + intros [Z0|[_ C]]; [rewrite Z0; reflexivity|exfalso; exact (C y HO)].
    + intros N. destruct (Z.eqb_spec (be_Z xs) 0) as [E|_]; [exfalso; apply N; left; exact E|]. destruct (Z.eqb_spec y' 0); [contradiction|reflexivity].
  - rewrite (Expand_off k0 xs HN). cbn [bind]. split.
    + intros [Z0|[-> _]]; [rewrite Z0; reflexivity|]. change (Byte.eqb x02 x02) with true. rewrite orb_comm. reflexivity.
    + intros N. destruct (Z.eqb_spec (be_Z xs) 0) as [E|_]; [exfalso; apply N; left; exact E|]. destruct (Byte.eqb k0 x02) eqn:Eb; [exfalso; apply N; right; split; [apply byte_eqb_spec; exact Eb|exact HN]|]. reflexivity.
Qed.

Lemma C33_validate_refuted_l : (forall k0 xs, k0 <> x02 -> be_Z xs <> 0 -> (forall y, ~ oncurve (PAff (toF (be_Z xs)) y)) -> validateChildPublicKey (k0 :: xs) = Ret None) /\
(exists xs, length xs = 32%nat /\ be_Z xs <> 0 /\ forall y, ~ oncurve (PAff (toF (be_Z xs)) y)).
Proof.
split.
  - intros k0 xs N2 NZ HN. apply (C33_validate_l k0 xs). intros [E|[E _]]; contradiction.
  - exists (Z_be 32 5). split; [apply Z_be_length|]. assert (E5 : be_Z (Z_be 32 5) = 5) by (vm_compute; reflexivity). rewrite E5. split; [discriminate|].
    destruct (curve_dec 5) as [(y & HO)|[_ HN]]; [exfalso|exact HN]. pose proof (curve_sq _ _ HO) as Q. destruct (ModSqrt_square y) as (z & S & _). rewrite <- Q in S.
    revert S. rewrite five_nonsquare_eq, five_nonsquare. discriminate.
Qed.

Lemma C33_ex_l : (exists x y, oncurve (PAff x y)) /\ exists k0 xs y, (k0 = x02 \/ k0 = x03) /\ length xs = 32%nat /\ be_Z xs < secp_p /\ oncurve (PAff (toF (be_Z xs)) y).
Proof.
split; [exists (toF secp_Gx), (toF secp_Gy); exact pG_on|]. exists x02, (Z_be 32 secp_Gx), (toF secp_Gy). split; [left; reflexivity|].
  split; [apply Z_be_length|]. rewrite be_Z_be, Z.mod_small by (split; [discriminate|reflexivity]). split; [reflexivity|exact pG_on].
Qed.

Lemma C34_leak_l : forall H T v d f n c k i v' d' f' n' c' ki, prims_ok H -> after_init T -> fields_ok v f n c -> scalar_ok k -> 0 <= i < 2 ^ 31 ->
  fields_ok v' f' n' c' -> scalar_ok ki ->
  NewChildKey H T (xprv v d f n c k) i = Ret (xprv v' d' f' n' c' ki, None) ->
  k = (ki - IL (p_hmac512 H c (serPb (kG k) ++ ser32 i))) mod secp_n.
Proof.
intros H T v d f n c k i v' d' f' n' c' ki HP HT HF Hk Hi HF' Hki E. change (2 ^ 31) with HARD in Hi.
  assert (HV : pvt_registered v).
  { rewrite NewChildKey_priv in E by (try assumption; apply scalar_256; exact Hk). cbv zeta in E.
    destruct (lookup0 _ _) as [h|] eqn:EL; [|discriminate]. exact (pvt_found T v h HT EL). }
  rewrite child_priv in E by assumption. cbv zeta in E. rewrite I_pub_priv in E by lia.
  change (p_hmac512 H c (serPb (kG k) ++ ser32 i)) with (I_pub H (kG k) c i). set (I := I_pub H (kG k) c i) in *.
  assert (E' : xprv v (bZ (Zb d + 1)) (fingerprint H (kG k)) (ser32 i) (IR I) ((IL I + k) mod secp_n) = xprv v' d' f' n' c' ki) by congruence. clear E.
  assert (R : 0 <= (IL I + k) mod secp_n < 2 ^ 256) by (pose proof (Z.mod_pos_bound (IL I + k) secp_n secp_n_pos); pose proof n_lt as N; rewrite p256_32 in N; lia).
  apply xprv_inj in E' as (_ & _ & _ & _ & _ & <-); [|rewrite <- fingerprint_fpc by (apply scalar_aff; exact Hk); repeat split; (exact (proj1 HF) || (apply fpc_length; exact HP) || apply ser32_length || (apply IR_length, prims_hmac; exact HP))|exact HF'|exact R|apply scalar_256; exact Hki].
  rewrite Zminus_mod_idemp_l. replace (IL I + k - IL I) with k by ring. unfold scalar_ok in Hk. rewrite Z.mod_small; lia.
Qed.

Lemma C34_hardened_input_l : forall H T v d f n c k i k', prims_ok H -> after_init T -> fields_ok v f n c -> scalar_ok k -> 2 ^ 31 <= i < 2 ^ 32 ->
  NewChildKey H T (xprv v d f n c k) i = Ret (k', None) ->
  let I := p_hmac512 H c ((x00 :: ser256 k) ++ ser32 i) in
  slice 13 45 k' = skipn 32 I /\ skipn 46 k' = ser256 ((IL I + k) mod secp_n).
Proof.
intros H T v d f n c k i k' HP HT HF Hk Hi E I. change (2 ^ 31) with HARD in Hi.
  assert (HV : pvt_registered v).
  { rewrite NewChildKey_priv in E by (try assumption; apply scalar_256; exact Hk). cbv zeta in E.
    destruct (lookup0 _ _) as [h|] eqn:EL; [|discriminate]. exact (pvt_found T v h HT EL). }
  assert (EI : I_priv H k c i = I) by (unfold I_priv; assert (HARD <=? i = true) as -> by lia; reflexivity).
  rewrite child_priv in E by assumption. cbv zeta in E. rewrite EI in E. assert (EK : k' = xprv v (bZ (Zb d + 1)) (fingerprint H (kG k)) (ser32 i) (IR I) ((IL I + k) mod secp_n)) by congruence.
  assert (HF' : fields_ok v (fingerprint H (kG k)) (ser32 i) (IR I)).
  { rewrite <- fingerprint_fpc by (apply scalar_aff; exact Hk). repeat split; (exact (proj1 HF) || (apply fpc_length; exact HP) || apply ser32_length || (apply IR_length, prims_hmac; exact HP)). }
  rewrite EK. unfold xprv. rewrite get_cc, get_46 by exact HF'. split; reflexivity.
Qed.

Lemma C34_ex_l : (exists H k', prims_ok H /\ NewChildKey H T0 (xprv xprv_version x00 z4 z4 z32 1) 0 = Ret (k', None) /\
   exists v' d' f' n' c' ki, fields_ok v' f' n' c' /\ scalar_ok ki /\ k' = xprv v' d' f' n' c' ki) /\
(exists H k', prims_ok H /\ NewChildKey H T0 (xprv xprv_version x00 z4 z4 z32 1) HARD = Ret (k', None)).
Proof.
split.
  - destruct C22_ex_l as [(H & k' & HP & _ & E) _]. exists H, k'. split; [exact HP|]. split; [exact E|].
    destruct (C25_private_usable_l H T0 _ 0 k' HP T0_ok (xprv_wf _ _ _ _ _ _ xv) eq_refl E) as (v & d & f & n & c & s & HF & Hs & _ & -> & _).
    exists v, d, f, n, c, s. tauto.
  - exists (constP (ILbytes 1)). eexists. split; [apply constP_ok, ILbytes_length|].
    rewrite child_priv; [|apply constP_ok, ILbytes_length|exact T0_ok|exact xv|exact one_ok|exact xprv_reg]. cbv zeta.
    change (I_priv (constP (ILbytes 1)) 1 z32 HARD) with (ILbytes 1). rewrite IL_ILbytes by lia. reflexivity.
Qed.

Lemma C47_hex_l : forall T v d f n c k, after_init T -> fields_ok v f n c -> scalar_ok k ->
  PrivateKeyHex (xprv v d f n c k) = HexEncode (ser256 k) /\ length (PrivateKeyHex (xprv v d f n c k)) = 64%nat /\
  HexDecode (PrivateKeyHex (xprv v d f n c k)) = Some (ser256 k) /\
  HexDecode (PublicKeyHex T (xprv v d f n c k)) = Some (serPb (kG k)).
Proof.
intros T v d f n c k HT HF Hk. unfold PrivateKeyHex, PublicKeyHex. rewrite xprv_private, xprv_pvt by exact HF.
  split; [reflexivity|]. split; [rewrite HexEncode_length, ser256_length; reflexivity|]. split; [apply HexDecode_Encode|].
  rewrite HexDecode_Encode, neuter_xprv by assumption. unfold xpub. rewrite get_data_slice; [reflexivity| |apply serPb_length, scalar_aff; exact Hk].
  destruct HF as (lv & lf & ln & lc). repeat split; try assumption. destruct (lookup0 _ _); apply Z_be_length.
Qed.

Lemma C47_hex_public_l : forall T k, after_init T -> wf_key k ->
  PublicKeyHex T (PublicKeyExtended T k) = PublicKeyHex T k /\ length (PublicKeyHex T k) = 66%nat /\
  (nth 45 k x00 <> x00 -> PrivateKeyHex k = [] /\ HexDecode (PublicKeyHex T k) = Some (skipn 45 k)).
Proof.
intros T k HT HK. destruct (C28_fields_l T k HK) as (W & _ & N). pose proof (C28_idempotent_l T k HT HK) as ID.
  assert (PN : IsPrivate (PublicKeyExtended T k) = false) by (apply byte_eqb_neq; exact N).
  assert (LP : forall k, wf_key k -> length (slice 45 78 k) = 33%nat) by (intros q Q; rewrite slice_length by (rewrite Q; lia); reflexivity).
  unfold PublicKeyHex at 1. rewrite PN. split.
  - unfold PublicKeyHex. destruct (IsPrivate k) eqn:P; [reflexivity|]. f_equal. apply byte_eqb_neq in P.
    destruct (wf_cases k HK) as (v & d & f & n & c & HF & [[C _]|[_ (data & LD & ND & ->)]]); [contradiction|]. rewrite Neuter_pub by assumption.
    destruct HF as (lv & lf & ln & lc). rewrite !get_data_slice; try assumption; try reflexivity; (repeat split; try assumption). destruct (lookup0 _ _); [exact lv|apply Z_be_length].
  - split.
    + unfold PublicKeyHex. destruct (IsPrivate k); rewrite HexEncode_length, LP by assumption; reflexivity.
    + intros Q. assert (P : IsPrivate k = false) by (apply byte_eqb_neq; exact Q). unfold PrivateKeyHex, PublicKeyHex. rewrite P. split; [reflexivity|].
      rewrite HexDecode_Encode. f_equal. unfold slice. rewrite firstn_all2; [reflexivity|]. rewrite skipn_length, HK. lia.
Qed.

Lemma C47_ex_l : after_init T0 /\ fields_ok xprv_version z4 z4 z32 /\ scalar_ok 1 /\ wf_key (xprv xprv_version x00 z4 z4 z32 1).
Proof.
split; [exact T0_ok|]. split; [exact xv|]. split; [exact one_ok|apply xprv_wf, xv].
Qed.

Lemma C60_no_panic_l : forall H T k i seed data s, prims_ok H -> after_init T -> wf_key k ->
  NewMasterKey H seed <> Panic /\ NewChildKey H T k i <> Panic /\ Deserialize H data <> Panic /\ B58Deserialize H s <> Panic /\
  KeyIsValid H k <> Panic /\ (forall r e, NewChildKey H T k i = Ret (r, e) -> wf_key r).
Proof.
intros H T k i seed data s HP HT HK. destruct (NewChildKey_total H T k i HP HT HK) as ([r e] & E & W).
  split; [rewrite NewMasterKey_spec by exact HP; discriminate|]. split; [congruence|].
  split; [rewrite Deserialize_spec by exact HP; discriminate|]. split; [unfold B58Deserialize; rewrite Deserialize_spec by exact HP; discriminate|].
  split; [rewrite KeyIsValid_l by assumption; discriminate|]. intros r' e' E'. assert (r' = r) by congruence. subst r'. exact W.
Qed.

Lemma C60_panics_l : (forall code key, setChainCodeUint32 code key = Panic) /\
(forall key, ExpandPublicKey key = Panic <-> key = []) /\
(forall key, validateChildPublicKey key = Panic <-> key = []) /\
(forall k1 k2, addPublicKeys k1 k2 = Panic <-> k1 = [] \/ k2 = []).
Proof.
assert (EX : forall key, ExpandPublicKey key = Panic <-> key = []).
  { intros key. split; [|intros ->; reflexivity]. intros E. destruct key as [|k0 xs]; [reflexivity|].
    destruct (Expand_total (k0 :: xs)) as (P & E'); [discriminate|congruence]. }
  split; [reflexivity|]. split; [exact EX|]. split.
  - intros key. rewrite <- EX. unfold validateChildPublicKey. destruct (ExpandPublicKey key) as [[x y]|]; cbn [bind]; split; congruence.
  - intros k1 k2. rewrite <- (EX k1), <- (EX k2). unfold addPublicKeys. destruct (ExpandPublicKey k1) as [P|]; cbn [bind]; [|tauto].
    destruct (ExpandPublicKey k2) as [Q|]; cbn [bind]; [|tauto]. split; [discriminate|intros [|]; discriminate].
Qed.

Lemma C60_ex_l : prims_ok RealPrims /\ after_init T0 /\ wf_key (xprv xprv_version x00 z4 z4 z32 1).
Proof.
split; [exact real_prims_ok|]. split; [exact T0_ok|apply xprv_wf, xv].
Qed.

Lemma copy_form lo hi (s k : bytes) : (lo <= hi)%nat -> (hi <= length k)%nat -> length s = (hi - lo)%nat ->
  copy_at lo hi s k = firstn lo k ++ s ++ skipn hi k.
Proof.
  intros H1 H2 HS. unfold copy_at, overwrite. rewrite <- HS, firstn_all. do 3 f_equal. lia.
Qed.

Lemma C61_setters_l : forall k v d f n c data p, wf_key k -> length v = 4%nat -> length f = 4%nat -> length n = 4%nat -> length c = 32%nat ->
  length data = 33%nat -> length p = 32%nat ->
  SetVersion v k = v ++ skipn 4 k /\ setDepth d k = firstn 4 k ++ [d] ++ skipn 5 k /\
  setFingerPrint f k = firstn 5 k ++ f ++ skipn 9 k /\ setChildNumber n k = firstn 9 k ++ n ++ skipn 13 k /\
  setChainCode c k = firstn 13 k ++ c ++ skipn 45 k /\ setPubKeyBytes data k = firstn 45 k ++ data /\
  setPvtKeyBytes p k = firstn 46 k ++ p.
Proof.
intros k v d f n c data p HK Lv Lf Ln Lc Ld Lp. unfold wf_key in HK.
  assert (S78 : skipn 78 k = []) by (apply skipn_all2; lia).
  unfold SetVersion, setFingerPrint, setChildNumber, setChainCode, setPubKeyBytes, setPvtKeyBytes.
  rewrite !copy_form by lia. rewrite S78, !app_nil_r. split; [reflexivity|]. split; [|repeat split].
  change (setDepth d k) with (copy_at 4 5 [d] k). apply copy_form; cbn; lia.
Qed.

Lemma C61_getters_l : forall k, wf_key k ->
  k = uint32Bytes (GetVersion k) ++ GetDepth k ++ GetFingerPrint k ++ GetChildNumber k ++ GetChainCode k ++ GetKeyBytes k /\
  GetKeyBytes k = nth 45 k x00 :: GetPvtKeyBytes k /\ 0 <= GetVersion k < 2 ^ 32 /\
  length (GetDepth k) = 1%nat /\ length (GetFingerPrint k) = 4%nat /\ length (GetChildNumber k) = 4%nat /\
  length (GetChainCode k) = 32%nat /\ length (GetKeyBytes k) = 33%nat.
Proof.
intros k HK. destruct (key_split k HK) as (v & d & f & n & c & data & -> & HF & LD). pose proof HF as (lv & lf & ln & lc).
  unfold GetVersion, GetDepth, GetFingerPrint, GetChildNumber, GetChainCode, GetKeyBytes, GetPvtKeyBytes, uint32Bytes.
  rewrite get_ver, get_dep_slice, get_fp, get_num, get_cc, get_data_slice, get_pvt by assumption. rewrite Z_be_be_Z by exact lv.
  split; [reflexivity|]. split.
  - change (data = key_at 45 (xkey v d f n c data) :: skipn 1 data). rewrite get_45 by exact HF. destruct data; [discriminate|reflexivity].
  - pose proof (be_Z_range v) as R. rewrite lv in R. repeat split; (assumption || apply R).
Qed.

Lemma C61_version_uint32_l : forall k v, wf_key k -> 0 <= v < 2 ^ 32 ->
  GetVersion (SetVersionUint32 v k) = v /\ skipn 4 (SetVersionUint32 v k) = skipn 4 k /\ wf_key (SetVersionUint32 v k).
Proof.
intros k v HK Hv. unfold SetVersionUint32. unfold wf_key in HK. unfold SetVersion. rewrite copy_form; [|lia|lia|apply Z_be_length].
  assert (L : length (uint32Bytes v) = 4%nat) by apply Z_be_length. cbn [firstn app].
  split; [|split].
  - unfold GetVersion, slice. cbn [skipn]. change (4 - 0)%nat with 4%nat. rewrite firstn_exact by exact L. unfold uint32Bytes. rewrite be_Z_be. apply Z.mod_small. exact Hv.
  - apply skipn_exact. exact L.
  - unfold wf_key. rewrite app_length, L, skipn_length, HK. reflexivity.
Qed.

Lemma C61_ex_l : wf_key (xprv xprv_version x00 z4 z4 z32 1) /\ 0 <= 0x0488ade4 < 2 ^ 32 /\ length z4 = 4%nat /\ length z32 = 32%nat.
Proof.
split; [apply xprv_wf, xv|]. repeat split; discriminate.
Qed.

Lemma C62_is_registered_l : forall h, (IsRegistered h = true <-> exists s, stripped (VPath h) s /\ exists h', In h' registered /\ VPath h' = s) /\
  (In h registered -> IsRegistered h = true /\ VBIsValid h = true).
Proof.
assert (A : forall p, In p PathToHDBytesSlice -> exists h', In h' (snd p) /\ VPath h' = fst p) by (apply reg_paths).
  assert (C : forall h', In h' registered -> exists p, In p PathToHDBytesSlice /\ fst p = VPath h').
  { intros h' Hh. unfold registered in Hh. apply in_concat in Hh as (l & Hl & Hh). apply in_map_iff in Hl as (p & <- & Hp). exists p. split; [exact Hp|].
    exact (proj2 (reg_own p Hp h' Hh)). }
  assert (S : forall h, IsRegistered h = true <-> exists h', In h' registered /\ VPath h' = PathString (VPath h)).
  { intros h. unfold IsRegistered. rewrite existsb_exists. split.
    - intros (p & Hp & E). apply bytes_eqb_spec in E. destruct (A p Hp) as (h' & Hh' & E'). exists h'. split; [|congruence].
      unfold registered. apply in_concat. exists (snd p). split; [apply in_map; exact Hp|exact Hh'].
    - intros (h' & Hh' & E). destruct (C h' Hh') as (p & Hp & E'). exists p. split; [exact Hp|]. apply bytes_eqb_spec. congruence. }
  intros h. split.
  - rewrite S. split.
    + intros (h' & Hh' & E). exists (PathString (VPath h)). split; [apply stripped_iff; reflexivity|]. exists h'. tauto.
    + intros (s & Hs & h' & Hh' & E). apply stripped_iff in Hs. exists h'. split; [exact Hh'|congruence].
  - intros Hh. split.
    + apply S. exists h. split; [exact Hh|]. symmetry. apply reg_nows. exact Hh.
    + destruct (reg_accessors h Hh) as (E & _). unfold PurposeVal in E. destruct (VBIsValid h); [reflexivity|discriminate].
Qed.

Lemma C62_unregistered_flags_refuted_l : forall a b, exists h, PvtKeyFlag h = a /\ PubKeyFlag h = b /\ IsRegistered h = true /\ VBIsValid h = true.
Proof.
intros a b. exists (mkVB [] a [] b [] [] (B "m/44'/0'")). repeat split.
Qed.

Lemma C62_ex_l : In Bitcoinxprvxpub registered /\ exists h, IsRegistered h = false.
Proof.
split; [left; reflexivity|]. exists (mkVB [] 0 [] 0 [] [] (B "m")). reflexivity.
Qed.
