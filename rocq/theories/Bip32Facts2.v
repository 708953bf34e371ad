(** Bip32Facts2.v - consequences of Bip32Facts.v used by the property theorems. *)
From Verif Require Import Base BaseFacts GoStr HexFacts Prims Secp Fp ECGroup SpecEC SecpGroup SecpOrder SecpFacts Base58 Base58Facts SpecBip32
  Bip32Path Bip32Reg Bip32 Bip32RegFacts Bip32KeyFacts Bip32Facts.

(** ** Version tables *)
Lemma pvt_lookup T v : after_init T -> pvt_registered v ->
  exists h, lookup0 (PvtFlagToHDBytesSlice T) (be_Z v) = Some h.
Proof.
  intros HT (q & Hq). pose proof (lookup_pvt T (be_Z v) HT) as L. destruct (lookup0 _ _) as [h|]; [exists h; reflexivity|].
  exfalso. exact (L q Hq).
Qed.
Lemma pub_lookup T v : after_init T -> pub_registered v ->
  exists h, lookup0 (PubFlagToHDBytesSlice T) (be_Z v) = Some h.
Proof.
  intros HT (q & Hq). pose proof (lookup_pub T (be_Z v) HT) as L. destruct (lookup0 _ _) as [h|]; [exists h; reflexivity|].
  exfalso. exact (L q Hq).
Qed.
Lemma pvt_unreg T v : after_init T -> ~ pvt_registered v -> lookup0 (PvtFlagToHDBytesSlice T) (be_Z v) = None.
Proof.
  intros HT N. pose proof (lookup_pvt T (be_Z v) HT) as L. destruct (lookup0 _ _) as [h|]; [|reflexivity].
  exfalso. apply N. exists (PubKeyFlag h). tauto.
Qed.
Lemma pub_unreg T v : after_init T -> ~ pub_registered v -> lookup0 (PubFlagToHDBytesSlice T) (be_Z v) = None.
Proof.
  intros HT N. pose proof (lookup_pub T (be_Z v) HT) as L. destruct (lookup0 _ _) as [h|]; [|reflexivity].
  exfalso. apply N. exists (PvtKeyFlag h). tauto.
Qed.
Lemma pvt_found T v h : after_init T -> lookup0 (PvtFlagToHDBytesSlice T) (be_Z v) = Some h -> pvt_registered v.
Proof. intros HT E. pose proof (lookup_pvt T (be_Z v) HT) as L. rewrite E in L. exists (PubKeyFlag h). tauto. Qed.
Lemma pub_found T v h : after_init T -> lookup0 (PubFlagToHDBytesSlice T) (be_Z v) = Some h -> pub_registered v.
Proof. intros HT E. pose proof (lookup_pub T (be_Z v) HT) as L. rewrite E in L. exists (PvtKeyFlag h). tauto. Qed.
(** The public version chosen for a private version. *)
Lemma pub_version T v w : after_init T -> length w = 4%nat -> paired v w ->
  exists h, lookup0 (PvtFlagToHDBytesSlice T) (be_Z v) = Some h /\ PubKeyFlagBytes h = w.
Proof.
  intros HT Lw HP. pose proof (lookup_pvt T (be_Z v) HT) as L. destruct (lookup0 _ _) as [h|].
  - exists h. split; [reflexivity|]. destruct L as [L _]. pose proof (slip_unique _ _ L HP (or_introl eq_refl)) as E.
    injection E as E. unfold PubKeyFlagBytes. rewrite E. apply Z_be_be_Z. exact Lw.
  - exfalso. exact (L _ HP).
Qed.
Lemma pub_version_reg T v h : after_init T -> lookup0 (PvtFlagToHDBytesSlice T) (be_Z v) = Some h ->
  paired v (PubKeyFlagBytes h) /\ length (PubKeyFlagBytes h) = 4%nat.
Proof.
  intros HT E. pose proof (lookup_pvt T (be_Z v) HT) as L. rewrite E in L. destruct L as [L _]. split; [|apply Z_be_length].
  unfold paired. unfold PubKeyFlagBytes. rewrite be_Z_be. apply slip_range in L as R. change (p256 4) with (2 ^ 32). rewrite Z.mod_small by lia. exact L.
Qed.
Lemma paired_pub v w : paired v w -> pub_registered w.
Proof. intros H. exists (be_Z v). exact H. Qed.
Lemma xpub_paired : paired xprv_version xpub_version.
Proof. left. reflexivity. Qed.
Lemma xpub_reg : pub_registered xpub_version.
Proof. exact (paired_pub _ _ xpub_paired). Qed.
Lemma xprv_reg : pvt_registered xprv_version.
Proof. exists 0x0488b21e. left. reflexivity. Qed.
(** Choice of the version does not depend on the iteration order. *)
Lemma lookup_agree_pvt T1 T2 v : after_init T1 -> after_init T2 ->
  match lookup0 (PvtFlagToHDBytesSlice T1) v, lookup0 (PvtFlagToHDBytesSlice T2) v with
  | Some h1, Some h2 => PubKeyFlag h1 = PubKeyFlag h2 | None, None => True | _, _ => False end.
Proof.
  intros H1 H2. pose proof (lookup_pvt T1 v H1) as L1. pose proof (lookup_pvt T2 v H2) as L2.
  destruct (lookup0 (PvtFlagToHDBytesSlice T1) v) as [h1|], (lookup0 (PvtFlagToHDBytesSlice T2) v) as [h2|].
  - pose proof (slip_unique _ _ (proj1 L1) (proj1 L2) (or_introl eq_refl)) as E. congruence.
  - exact (L2 _ (proj1 L1)).
  - exact (L1 _ (proj1 L2)).
  - exact I.
Qed.
Lemma lookup_agree_pub T1 T2 v : after_init T1 -> after_init T2 ->
  match lookup0 (PubFlagToHDBytesSlice T1) v, lookup0 (PubFlagToHDBytesSlice T2) v with
  | Some h1, Some h2 => PubKeyFlag h1 = PubKeyFlag h2 | None, None => True | _, _ => False end.
Proof.
  intros H1 H2. pose proof (lookup_pub T1 v H1) as L1. pose proof (lookup_pub T2 v H2) as L2.
  destruct (lookup0 (PubFlagToHDBytesSlice T1) v) as [h1|], (lookup0 (PubFlagToHDBytesSlice T2) v) as [h2|].
  - destruct L1 as [_ ->], L2 as [_ ->]. reflexivity.
  - exact (L2 _ (proj1 L1)).
  - exact (L1 _ (proj1 L2)).
  - exact I.
Qed.
Lemma Neuter_agree T1 T2 k : after_init T1 -> after_init T2 -> PublicKeyExtended T1 k = PublicKeyExtended T2 k.
Proof.
  intros H1 H2. unfold PublicKeyExtended. cbv zeta. destruct (IsPrivate k).
  - pose proof (lookup_agree_pvt T1 T2 (be_Z (slice 0 4 k)) H1 H2) as A. destruct (lookup0 _ _), (lookup0 _ _); try contradiction; [|reflexivity].
    unfold PubKeyFlagBytes. rewrite A. reflexivity.
  - pose proof (lookup_agree_pub T1 T2 (be_Z (slice 0 4 k)) H1 H2) as A. destruct (lookup0 _ _), (lookup0 _ _); try contradiction; reflexivity.
Qed.
Lemma NewChildKey_agree H T1 T2 k i : after_init T1 -> after_init T2 -> NewChildKey H T1 k i = NewChildKey H T2 k i.
Proof.
  intros H1 H2. unfold NewChildKey. cbv zeta. destruct (IsPrivate k).
  - pose proof (lookup_agree_pvt T1 T2 (be_Z (slice 0 4 k)) H1 H2) as A. destruct (lookup0 _ _), (lookup0 _ _); try contradiction; reflexivity.
  - pose proof (lookup_agree_pub T1 T2 (be_Z (slice 0 4 k)) H1 H2) as A. destruct (lookup0 _ _), (lookup0 _ _); try contradiction; [|reflexivity].
    unfold PubKeyFlagBytes. rewrite A. reflexivity.
Qed.

(** ** Points of scalars *)
Lemma kG_aff k : 0 <= k -> k mod secp_n <> 0 -> kG k <> PInf.
Proof. intros H0 N C. apply kG_inf_iff in C; [contradiction|exact H0]. Qed.
Lemma scalar_aff k : scalar_ok k -> kG k <> PInf.
Proof. intros Hk. apply kG_aff; unfold scalar_ok in Hk; [lia|]. rewrite Z.mod_small; lia. Qed.
Lemma scalar_256 k : scalar_ok k -> 0 <= k < 2 ^ 256.
Proof. unfold scalar_ok. pose proof n_lt as N. rewrite p256_32 in N. lia. Qed.
Lemma serPb_length P : P <> PInf -> length (serPb P) = 33%nat.
Proof. intros N. rewrite <- comp_aff by exact N. apply comp_length. Qed.
Lemma serPb_head P : P <> PInf -> nth 0 (serPb P) x00 <> x00.
Proof. intros N. rewrite <- comp_aff by exact N. apply comp_head. Qed.
Lemma serPb_inj P Q : oncurve P -> oncurve Q -> P <> PInf -> Q <> PInf -> serPb P = serPb Q -> P = Q.
Proof.
  intros HP HQ NP NQ E. pose proof (Expand_ser P HP NP) as A. rewrite E, (Expand_ser Q HQ NQ) in A. injection A as A.
  symmetry. apply enc_inj; assumption.
Qed.
Lemma serPb_kG_inj j k : scalar_ok j -> scalar_ok k -> serPb (kG j) = serPb (kG k) -> j = k.
Proof.
  intros Hj Hk E. apply serPb_inj in E; try apply kG_on; try (apply scalar_aff; assumption).
  apply kG_inj; unfold scalar_ok in *; lia || exact E.
Qed.
Lemma IL_nonneg I : 0 <= IL I. Proof. apply be_Z_range. Qed.
Lemma IL_range I : length I = 64%nat -> 0 <= IL I < 2 ^ 256.
Proof. intros L. unfold IL, parse256. pose proof (be_Z_range (firstn 32 I)) as R. rewrite firstn_length, L in R. exact R. Qed.

(** ** Child key derivation *)
Section Derive.
Variables (H : Prims) (T : tables).
Hypothesis HP : prims_ok H.
Hypothesis HT : after_init T.

Lemma fingerprint_fpc P : P <> PInf -> fpc H (comp P) = fingerprint H P.
Proof. intros N. rewrite comp_aff by exact N. reflexivity. Qed.
(** Private parent with a usable scalar. *)
Lemma child_priv v d f n c k i : fields_ok v f n c -> scalar_ok k -> pvt_registered v ->
  NewChildKey H T (xprv v d f n c k) i = Ret (
    let I := I_priv H k c i in
    let ki := (IL I + k) mod secp_n in
    (xprv v (bZ (Zb d + 1)) (fingerprint H (kG k)) (ser32 i) (IR I) ki, if ki =? 0 then Some ErrInvalidPrivateKey else None)).
Proof.
  intros HF Hk HV. rewrite NewChildKey_priv by (try assumption; apply scalar_256; exact Hk). cbv zeta.
  destruct (pvt_lookup T v HT HV) as (h & ->). rewrite I_any_priv by exact Hk. rewrite fingerprint_fpc by (apply scalar_aff; exact Hk). reflexivity.
Qed.
Lemma child_pub v d f n c P i : fields_ok v f n c -> oncurve P -> P <> PInf -> pub_registered v -> i < HARD ->
  NewChildKey H T (xpub v d f n c P) i = Ret (
    let I := I_pub H P c i in
    if IL I mod secp_n =? 0 then
      (xkey v (bZ (Zb d + 1)) (repeat x00 4) (ser32 i) (IR I) (repeat x00 33), Some ErrInvalidPublicKey)
    else (xkey v (bZ (Zb d + 1)) (fingerprint H P) (ser32 i) (IR I) (comp (cadd (kG (IL I)) P)), None)).
Proof.
  intros HF HO NP HV Hi. unfold xpub. rewrite NewChildKey_pub; try assumption; [|apply serPb_length; exact NP|apply serPb_head; exact NP].
  assert (HARD <=? i = false) as -> by lia. cbv zeta. destruct (pub_lookup T v HT HV) as (h & ->).
  change (p_hmac512 H c (serPb P ++ ser32 i)) with (I_pub H P c i).
  destruct (Z.eqb_spec (IL (I_pub H P c i) mod secp_n) 0) as [E|E]; [reflexivity|].
  rewrite sumkey_point by (try assumption; apply IL_nonneg). reflexivity.
Qed.
Lemma I_pub_priv k c i : i < HARD -> I_priv H k c i = I_pub H (kG k) c i.
Proof. intros Hi. unfold I_priv, I_pub. assert (HARD <=? i = false) as -> by lia. reflexivity. Qed.

Lemma neuter_xprv v d f n c k : fields_ok v f n c -> scalar_ok k ->
  PublicKeyExtended T (xprv v d f n c k) =
  xpub (match lookup0 (PvtFlagToHDBytesSlice T) (be_Z v) with None => xpub_version | Some h => PubKeyFlagBytes h end) d f n c (kG k).
Proof. intros HF Hk. rewrite Neuter_priv by (exact HF || apply scalar_256; exact Hk). rewrite comp_aff by (apply scalar_aff; exact Hk). reflexivity. Qed.

(** A private key any of whose children can be derived is of this form. *)
Lemma child_priv_inv k i k' : wf_key k -> key_at 45 k = x00 -> NewChildKey H T k i = Ret (k', None) ->
  exists v d f n c s, k = xprv v d f n c s /\ fields_ok v f n c /\ 0 <= s < 2 ^ 256 /\ pvt_registered v /\
    let I := I_any H s c i in let ki := (IL I + s) mod secp_n in
    scalar_ok ki /\ k' = xprv v (bZ (Zb d + 1)) (fpc H (comp (kG s))) (ser32 i) (IR I) ki.
Proof.
  intros HK HZ E. destruct (key_split k HK) as (v & d & f & n & c & data & -> & HF & LD).
  rewrite get_45 in HZ by exact HF.
  destruct (data_split data LD) as (k0 & r & -> & Lr). cbn [nth] in HZ. subst k0.
  assert (EX : xkey v d f n c (x00 :: r) = xprv v d f n c (be_Z r)) by (unfold xprv, ser256; rewrite Z_be_be_Z by exact Lr; reflexivity).
  rewrite EX in *. pose proof (be_Z_range r) as R. rewrite Lr, p256_32 in R.
  exists v, d, f, n, c, (be_Z r). split; [reflexivity|]. split; [exact HF|]. split; [exact R|].
  rewrite NewChildKey_priv in E by assumption. cbv zeta in *.
  destruct (lookup0 _ _) as [h|] eqn:EL; [|discriminate]. split; [apply (pvt_found T v h HT EL)|].
  destruct (Z.eqb_spec ((IL (I_any H (be_Z r) c i) + be_Z r) mod secp_n) 0) as [|N]; [discriminate|]. injection E as <-.
  split; [|reflexivity]. unfold scalar_ok. pose proof (Z.mod_pos_bound (IL (I_any H (be_Z r) c i) + be_Z r) secp_n secp_n_pos). lia.
Qed.
Lemma child_fields v f n c k i : fields_ok v f n c -> fields_ok v (fpc H (comp (kG k))) (ser32 i) (IR (I_any H k c i)).
Proof.
  intros HF. repeat split; (exact (proj1 HF) || (apply fpc_length; exact HP) || apply ser32_length || (apply IR_length, prims_hmac; exact HP)).
Qed.

(** ** Public and private derivation commute *)
Theorem commute v d f n c k i k' : fields_ok v f n c -> scalar_ok k -> i < HARD ->
  IL (I_pub H (kG k) c i) mod secp_n <> 0 ->
  NewChildKey H T (xprv v d f n c k) i = Ret (k', None) ->
  NewChildKey H T (PublicKeyExtended T (xprv v d f n c k)) i = Ret (PublicKeyExtended T k', None).
Proof.
  intros HF Hk Hi Hil E.
  assert (HV : pvt_registered v).
  { rewrite NewChildKey_priv in E by (try assumption; apply scalar_256; exact Hk). cbv zeta in E.
    destruct (lookup0 _ _) as [h|] eqn:EL; [|discriminate]. exact (pvt_found T v h HT EL). }
  rewrite child_priv in E by assumption. cbv zeta in E. rewrite I_pub_priv in E by exact Hi.
  set (I := I_pub H (kG k) c i) in *.
  destruct (Z.eqb_spec ((IL I + k) mod secp_n) 0) as [|N]; [discriminate|]. injection E as <-.
  destruct (pvt_lookup T v HT HV) as (h & EL). destruct (pub_version_reg T v h HT EL) as [PW LW].
  rewrite neuter_xprv, EL by assumption. pose proof HF as (lv & lf & ln & lc).
  assert (LI : length I = 64%nat) by (apply prims_hmac; exact HP).
  rewrite child_pub; [|repeat split; assumption|apply kG_on|apply scalar_aff; exact Hk|exact (paired_pub _ _ PW)|exact Hi].
  cbv zeta. fold I. assert (IL I mod secp_n =? 0 = false) as -> by (apply Z.eqb_neq; exact Hil).
  set (ki := (IL I + k) mod secp_n) in *.
  assert (Sk : scalar_ok ki) by (unfold scalar_ok; pose proof (Z.mod_pos_bound (IL I + k) secp_n secp_n_pos); fold ki in H0; lia).
  rewrite neuter_xprv, EL.
  - f_equal. f_equal. unfold xpub. f_equal.
    assert (S : cadd (kG (IL I)) (kG k) = kG ki).
    { rewrite <- kG_add by (apply IL_nonneg || (unfold scalar_ok in Hk; lia)). unfold ki. rewrite kG_mod_n; [reflexivity|].
      pose proof (IL_nonneg I). unfold scalar_ok in Hk; lia. }
    rewrite S. apply comp_aff. apply scalar_aff. exact Sk.
  - rewrite <- fingerprint_fpc by (apply scalar_aff; exact Hk). repeat split; (exact lv || (apply fpc_length; exact HP) || apply ser32_length || (apply IR_length; exact LI)).
  - exact Sk.
Qed.
End Derive.

(** ** Derivation along a list of indices *)
(** In proofs; for bip32/bip32.go:108-263. *)
Inductive derives (H : Prims) (T : tables) : bytes -> list Z -> bytes -> Prop :=
| derives_nil k : derives H T k [] k
| derives_cons k i k' is k'' : NewChildKey H T k i = Ret (k', None) -> derives H T k' is k'' -> derives H T k (i :: is) k''.
(** The same from a private key, with IL mod n <> 0 at every step. *)
(** In proofs; for bip32/bip32.go:108-263. *)
Inductive derives_nz (H : Prims) (T : tables) : bytes -> list Z -> bytes -> Prop :=
| nz_nil k : derives_nz H T k [] k
| nz_cons v d f n c s i k' is k'' : fields_ok v f n c -> scalar_ok s -> IL (I_priv H s c i) mod secp_n <> 0 ->
    NewChildKey H T (xprv v d f n c s) i = Ret (k', None) -> derives_nz H T k' is k'' ->
    derives_nz H T (xprv v d f n c s) (i :: is) k''.
Lemma xprv_inj v d f n c s v' d' f' n' c' s' : fields_ok v f n c -> fields_ok v' f' n' c' -> 0 <= s < 2 ^ 256 -> 0 <= s' < 2 ^ 256 ->
  xprv v d f n c s = xprv v' d' f' n' c' s' -> v = v' /\ d = d' /\ f = f' /\ n = n' /\ c = c' /\ s = s'.
Proof.
  intros F F' Hs Hs' E. apply xkey_inj in E as (-> & -> & -> & -> & -> & E); try assumption. assert (E' : ser256 s = ser256 s') by exact (f_equal (@tl byte) E).
  repeat split. rewrite <- (ser256_back s Hs), <- (ser256_back s' Hs'), E'. reflexivity.
Qed.
Lemma xprv_mod v d f n c s : xprv v d f n c s = xprv v d f n c (s mod 2 ^ 256).
Proof. unfold xprv, ser256. rewrite <- p256_32, Z_be_mod. reflexivity. Qed.

Theorem watch_only H T k is k' : prims_ok H -> after_init T -> Forall (fun i => i < HARD) is -> derives_nz H T k is k' ->
  derives H T (PublicKeyExtended T k) is (PublicKeyExtended T k').
Proof.
  intros HP HT HI D. induction D as [k|v d f n c s i k' is k'' HF HS HN E D IH]; [constructor|].
  inversion HI as [|? ? Hi HI']; subst. econstructor; [|exact (IH HI')].
  rewrite (I_pub_priv H s c i Hi) in HN. apply commute; assumption.
Qed.
(** Depth. *)
Lemma child_depth_any H T k i k' : prims_ok H -> after_init T -> wf_key k -> NewChildKey H T k i = Ret (k', None) ->
  key_at 4 k' = bZ (Zb (key_at 4 k) + 1) /\ wf_key k'.
Proof.
  intros HP HT HK E. split; [|destruct (NewChildKey_total H T k i HP HT HK) as (r & E' & W); rewrite E in E'; injection E' as <-; exact W].
  destruct (key_split k HK) as (v & d & f & n & c & data & -> & HF & LD). pose proof HF as (lv & lf & ln & lc).
  rewrite get_dep by exact HF. destruct (Byte.eqb (nth 0 data x00) x00) eqn:E0.
  - apply byte_eqb_spec in E0. destruct (child_priv_inv H T HP HT _ i k' HK ltac:(rewrite get_45 by exact HF; exact E0) E)
      as (v' & d' & f' & n' & c' & s & EX & HF' & _ & _ & _ & ->).
    apply xkey_inj in EX as (-> & -> & -> & -> & -> & _); [|assumption..]. unfold xprv. apply get_dep. apply child_fields with (f := f') (n := n'); assumption.
  - apply byte_eqb_neq in E0. rewrite NewChildKey_pub in E by assumption. destruct (HARD <=? i); [discriminate|]. cbv zeta in E.
    destruct (lookup0 _ _); [|discriminate]. destruct (_ =? 0); [discriminate|]. injection E as <-. apply get_dep.
    repeat split; (exact lv || (apply fpc_length; exact HP) || apply ser32_length || (apply IR_length, prims_hmac; exact HP)).
Qed.
Lemma derives_depth H T is : forall k k', prims_ok H -> after_init T -> wf_key k -> derives H T k is k' ->
  Zb (key_at 4 k') = (Zb (key_at 4 k) + Z.of_nat (length is)) mod 256.
Proof.
  induction is as [|i is IH]; intros k k' HP HT HK D; inversion D; subst.
  - cbn [length Z.of_nat]. rewrite Z.add_0_r, Z.mod_small by apply Zb_range. reflexivity.
  - match goal with E : NewChildKey _ _ _ _ = _ |- _ => destruct (child_depth_any H T k i _ HP HT HK E) as [ED W] end.
    rewrite (IH _ k' HP HT W ltac:(eassumption)), ED, Zb_bZ. cbn [length]. rewrite Nat2Z.inj_succ, Zplus_mod_idemp_l. f_equal. lia.
Qed.
