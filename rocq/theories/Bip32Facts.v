(** Bip32Facts.v - what NewMasterKey, NewChildKey, PublicKeyExtended, Serialize and Deserialize return. *)
From Verif Require Import Base BaseFacts GoStr HexFacts Prims Secp Fp ECGroup SpecEC SecpFacts Base58 Base58Facts SpecBip32
  Bip32Path Bip32Reg Bip32 Bip32RegFacts Bip32KeyFacts.

Lemma prims_sha H : prims_ok H -> forall x, length (p_sha256 H x) = 32%nat. Proof. intros (h & _). exact h. Qed.
Lemma prims_rip H : prims_ok H -> forall x, length (p_ripemd160 H x) = 20%nat. Proof. intros (_ & h & _). exact h. Qed.
Lemma prims_hmac H : prims_ok H -> forall k x, length (p_hmac512 H k x) = 64%nat. Proof. intros (_ & _ & h & _). exact h. Qed.

(** ** NewMasterKey *)
(** In proofs; for bip32/bip32.go:79-263. *)
Definition xprv_version : bytes := ser32 0x0488ade4.
(** In proofs; for bip32/bip32.go:79-263. *)
Definition xpub_version : bytes := ser32 0x0488b21e.
Lemma zeros_ok : fields_ok (repeat x00 4) (repeat x00 4) (repeat x00 4) (repeat x00 32).
Proof. repeat split. Qed.
Theorem NewMasterKey_spec H seed : prims_ok H ->
  NewMasterKey H seed = Ret (match master H seed with
    | None => (None, Some ErrInvalidPrivateKey)
    | Some (k, c) => (Some (xprv xprv_version x00 (repeat x00 4) (ser32 0) c k), None)
    end).
Proof.
  intros HP. pose proof (prims_hmac H HP (B "Bitcoin seed") seed) as L.
  unfold NewMasterKey, master, I_master, IL, IR, parse256. cbv zeta.
  set (I := p_hmac512 H (B "Bitcoin seed") seed) in *.
  assert (L1 : length (firstn 32 I) = 32%nat) by (rewrite firstn_length, L; reflexivity).
  assert (L2 : length (skipn 32 I) = 32%nat) by (rewrite skipn_length, L; reflexivity).
  rewrite !arr_exact by assumption. cbn [bind]. rewrite ValidatePrivateKey_spec by exact L1.
  destruct ((be_Z (firstn 32 I) =? 0) || (secp_n <=? be_Z (firstn 32 I))); [reflexivity|].
  f_equal. f_equal. f_equal. rewrite zero_key_x.
  rewrite set_ver by (exact zeros_ok || reflexivity).
  rewrite set_cc by ((repeat split; reflexivity) || exact L2).
  rewrite (set_pvt _ _ _ _ _ x00 (repeat x00 32)); [|repeat split; exact L2|reflexivity|exact L1].
  unfold xprv, ser256. rewrite Z_be_be_Z by exact L1. reflexivity.
Qed.

(** ** NewChildKey, private parent *)
(** In proofs; for bip32/bip32.go:79-263. *)
Definition child_depth (d : byte) : byte := bZ (Zb d + 1).
(** In proofs; for bip32/bip32.go:79-263. *)
Definition fpc (H : Prims) (b : bytes) : bytes := firstn 4 (hash160 H b).
Lemma fpc_length H b : prims_ok H -> length (fpc H b) = 4%nat.
Proof. intros HP. unfold fpc, hash160. rewrite firstn_length, prims_rip by exact HP. reflexivity. Qed.

(** HMAC input of a private parent, for any 256-bit number k. *)
(** In proofs; for bip32/bip32.go:79-263. *)
Definition I_any (H : Prims) (k : Z) (c : bytes) (i : Z) : bytes :=
  p_hmac512 H c ((if HARD <=? i then x00 :: ser256 k else comp (kG k)) ++ ser32 i).
Lemma I_any_priv H k c i : scalar_ok k -> I_any H k c i = I_priv H k c i.
Proof.
  intros Hk. unfold I_any, I_priv. rewrite comp_aff; [reflexivity|]. intros E. apply kG_inf_iff in E; [|unfold scalar_ok in Hk; lia].
  rewrite Z.mod_small in E; unfold scalar_ok in Hk; lia.
Qed.
Lemma hard_eq i : (i >=? FirstHardenedChild) = (HARD <=? i).
Proof. rewrite Z.geb_leb. reflexivity. Qed.
Lemma ser256_back k : 0 <= k < 2 ^ 256 -> be_Z (ser256 k) = k.
Proof. intros H. unfold ser256. rewrite be_Z_be. apply Z.mod_small. exact H. Qed.
Lemma ser256_length k : length (ser256 k) = 32%nat. Proof. apply Z_be_length. Qed.
Lemma ser32_length k : length (ser32 k) = 4%nat. Proof. apply Z_be_length. Qed.
Lemma pub_of_scalar k : 0 <= k < 2 ^ 256 -> publicKeyForPrivateKey (ser256 k) = comp (kG k).
Proof. intros H. rewrite publicKey_spec, be_kG, ser256_back by exact H. reflexivity. Qed.
Lemma copy_all (s : bytes) m : length s = m -> copy_at 0 m s (repeat x00 m) = s.
Proof.
  intros L. rewrite <- (app_nil_r (repeat x00 m)). change (repeat x00 m ++ []) with ([] ++ repeat x00 m ++ []).
  rewrite copy_mid; [apply app_nil_r|reflexivity|rewrite repeat_length; reflexivity|rewrite repeat_length; exact L].
Qed.

Section Priv.
Variables (H : Prims) (v : bytes) (d : byte) (f n c : bytes) (k : Z).
Hypothesis HP : prims_ok H.
Hypothesis HF : fields_ok v f n c.
Hypothesis Hk : 0 <= k < 2 ^ 256.
Notation K := (xprv v d f n c k).
Lemma xprv_private : IsPrivate K = true.
Proof. unfold xprv. rewrite IsPrivate_x by exact HF. reflexivity. Qed.
Lemma xprv_pvt : slice 46 78 K = ser256 k.
Proof. unfold xprv. rewrite get_pvt; [reflexivity|exact HF|]. cbn [length]. rewrite ser256_length. reflexivity. Qed.
Lemma xprv_46 : skipn 46 K = ser256 k.
Proof. unfold xprv. rewrite get_46 by exact HF. reflexivity. Qed.
Lemma getIntermediary_priv i : getIntermediary H K i = I_any H k c i.
Proof.
  unfold getIntermediary, I_any. cbv zeta. rewrite hard_eq, xprv_private, xprv_pvt.
  assert (E : slice 13 45 K = c) by (unfold xprv; apply get_cc; exact HF). rewrite E. f_equal. f_equal.
  destruct (HARD <=? i).
  - rewrite <- (app_nil_r (repeat x00 33)). change (repeat x00 33 ++ []) with ([x00] ++ repeat x00 32 ++ []).
    rewrite copy_mid; [cbn [app]; rewrite app_nil_r; reflexivity|reflexivity|reflexivity|apply ser256_length].
  - rewrite pub_of_scalar by exact Hk. apply copy_all, comp_length.
Qed.
Lemma IR_length I : length I = 64%nat -> length (IR I) = 32%nat.
Proof. intros L. unfold IR. rewrite skipn_length, L. reflexivity. Qed.

Theorem NewChildKey_priv0 T i : NewChildKey H T K i = Ret (
  let I := I_any H k c i in
  let ki := (IL I + k) mod secp_n in
  match lookup0 (PvtFlagToHDBytesSlice T) (be_Z v) with
  | None => (zero_key, Some ErrUnSupportedHDVersionBytes)
  | Some _ => (xprv v (child_depth d) (fpc H (comp (kG k))) (ser32 i) (IR I) ki,
               if ki =? 0 then Some ErrInvalidPrivateKey else None)
  end).
Proof.
  unfold NewChildKey. rewrite getIntermediary_priv, xprv_private, xprv_pvt, xprv_46. cbn [negb andb]. cbv zeta.
  assert (EV : slice 0 4 K = v) by (unfold xprv; apply get_ver; exact HF). rewrite EV.
  set (I := I_any H k c i).
  assert (L : length I = 64%nat) by (apply prims_hmac; exact HP).
  destruct (lookup0 (PvtFlagToHDBytesSlice T) (be_Z v)); [|reflexivity].
  rewrite (arr_exact 4) by apply ser32_length. rewrite (arr_exact 32 (skipn 32 I)) by (apply IR_length; exact L). cbn [bind].
  rewrite pub_of_scalar by exact Hk. rewrite arr_firstn by (unfold HashRipeMD160onSha256, hashRipeMD160; rewrite prims_rip by exact HP; lia).
  cbn [bind]. rewrite addPrivateKeys_spec, ser256_back by exact Hk. rewrite arr_exact by apply Z_be_length. cbn [bind].
  change (uint32Bytes i) with (ser32 i). change (skipn 32 I) with (IR I).
  change (firstn 4 (HashRipeMD160onSha256 H (comp (kG k)))) with (fpc H (comp (kG k))).
  change (be_Z (firstn 32 I)) with (IL I). set (ki := (IL I + k) mod secp_n).
  assert (ED : key_at 4 K = d) by (unfold xprv; apply get_dep; exact HF). rewrite ED. fold (child_depth d).
  pose proof HF as (lv & _). pose proof (fpc_length H (comp (kG k)) HP) as lfp. pose proof (IR_length I L) as lir.
  assert (S : setPvtKeyBytes (Z_be 32 ki) (setFingerPrint (fpc H (comp (kG k))) (SetVersion v (setDepth (child_depth d) (setChainCode (IR I) (setChildNumber (ser32 i) zero_key)))))
     = xprv v (child_depth d) (fpc H (comp (kG k))) (ser32 i) (IR I) ki).
  { rewrite zero_key_x.
    rewrite set_num by (exact zeros_ok || apply ser32_length).
    rewrite set_cc by ((repeat split; apply ser32_length) || exact lir).
    rewrite set_dep by (repeat split; (apply ser32_length || exact lir)).
    rewrite set_ver by ((repeat split; (apply ser32_length || exact lir)) || exact lv).
    unfold setFingerPrint. rewrite set_fp by ((repeat split; (apply ser32_length || exact lir || exact lv)) || exact lfp).
    change (repeat x00 33) with (x00 :: repeat x00 32).
    rewrite set_pvt by ((repeat split; (apply ser32_length || exact lir || exact lv || exact lfp)) || reflexivity || apply Z_be_length).
    reflexivity. }
  rewrite S. f_equal. f_equal. unfold GetPvtKeyBytes, xprv.
  rewrite get_pvt by ((repeat split; (apply ser32_length || exact lir || exact lv || exact lfp)) || (cbn [length]; rewrite ser256_length; reflexivity)).
  cbn [skipn]. rewrite ValidatePrivateKey_spec by apply ser256_length.
  assert (Hki : 0 <= ki < secp_n) by (apply Z.mod_pos_bound, secp_n_pos).
  rewrite ser256_back by (pose proof n_lt; rewrite p256_32 in *; lia).
  assert (secp_n <=? ki = false) as -> by lia. rewrite orb_false_r. reflexivity.
Qed.
Theorem NewChildKey_priv T i : after_init T -> NewChildKey H T K i = Ret (
  let I := I_any H k c i in
  let ki := (IL I + k) mod secp_n in
  match lookup0 (PvtFlagToHDBytesSlice T) (be_Z v) with
  | None => (zero_key, Some ErrUnSupportedHDVersionBytes)
  | Some _ => (xprv v (child_depth d) (fpc H (comp (kG k))) (ser32 i) (IR I) ki,
               if ki =? 0 then Some ErrInvalidPrivateKey else None)
  end).
Proof. intros _. apply NewChildKey_priv0. Qed.
End Priv.

(** ** NewChildKey, public parent *)
Lemma validateChild_comp j : 0 <= j < secp_n ->
  validateChildPublicKey (comp (kG j)) = Ret (if j =? 0 then Some ErrInvalidPublicKey else None).
Proof.
  intros Hj. unfold validateChildPublicKey.
  destruct (kG j) as [|x y] eqn:E.
  - apply kG_inf_iff in E; [|lia]. rewrite Z.mod_small in E by exact Hj. subst j. cbn [comp]. rewrite Expand_cons. cbn [bind].
    change (be_Z (repeat x00 32)) with 0. reflexivity.
  - assert (HO : oncurve (PAff x y)) by (rewrite <- E; apply kG_on).
    rewrite comp_aff by discriminate. rewrite Expand_ser by (exact HO || discriminate). cbn [bind enc].
    assert (fv x =? 0 = false) as -> by (apply Z.eqb_neq; exact (x_nonzero x y HO)).
    assert (fv y =? 0 = false) as -> by (apply Z.eqb_neq; intros C; apply (y_nonzero x y HO); apply Fp_eq; exact C).
    destruct (Z.eqb_spec j 0) as [->|]; [discriminate|reflexivity].
Qed.
Lemma Expand_total k : k <> [] -> exists P, ExpandPublicKey k = Ret P.
Proof. destruct k as [|k0 xs]; [congruence|]. intros _. rewrite Expand_cons. eexists. reflexivity. Qed.
Lemma addPublicKeys_total a b : a <> [] -> b <> [] -> exists s, addPublicKeys a b = Ret s /\ (33 <= length s)%nat.
Proof.
  intros Ha Hb. unfold addPublicKeys. destruct (Expand_total a Ha) as (P & ->). destruct (Expand_total b Hb) as (Q & ->). cbn [bind].
  eexists. split; [reflexivity|]. destruct (CurveAdd P Q). apply compress_length.
Qed.
(** The sum of two serialised points. *)
Lemma addPublicKeys_points P Q : oncurve P -> oncurve Q -> P <> PInf -> Q <> PInf ->
  addPublicKeys (serPb P) (serPb Q) = Ret (comp (cadd P Q)).
Proof.
  intros HP HQ NP NQ. unfold addPublicKeys. rewrite !Expand_ser by assumption. cbn [bind].
  rewrite CurveAdd_spec by assumption. rewrite compress_enc. reflexivity.
Qed.

(** In proofs; for bip32/bip32.go:79-263. *)
Definition sumkey (il : Z) (data : bytes) : bytes :=
  match addPublicKeys (comp (kG il)) data with Ret s => firstn 33 s | Panic => [] end.
Section Pub.
Variables (H : Prims) (v : bytes) (d : byte) (f n c : bytes) (data : bytes).
Hypothesis HP : prims_ok H.
Hypothesis HF : fields_ok v f n c.
Hypothesis LD : length data = 33%nat.
Hypothesis ND : nth 0 data x00 <> x00.
Notation K := (xkey v d f n c data).
Lemma xpub_public : IsPrivate K = false.
Proof. rewrite IsPrivate_x by exact HF. apply byte_eqb_neq. exact ND. Qed.
Lemma getIntermediary_pub i : i < HARD -> getIntermediary H K i = p_hmac512 H c (data ++ ser32 i).
Proof.
  intros Hi. unfold getIntermediary. cbv zeta. rewrite hard_eq, xpub_public.
  assert (HARD <=? i = false) as -> by lia. rewrite get_cc, get_data by exact HF. f_equal. f_equal.
  apply copy_all. exact LD.
Qed.
(** Whatever the tables contain: the child has the public flag of the entry found. *)
Theorem NewChildKey_pub0 T i : NewChildKey H T K i = Ret (
  if HARD <=? i then (zero_key, Some ErrHardenedChildPublicKey)
  else
  let I := p_hmac512 H c (data ++ ser32 i) in
  match lookup0 (PubFlagToHDBytesSlice T) (be_Z v) with
  | None => (zero_key, Some ErrUnSupportedHDVersionBytes)
  | Some h =>
    if IL I mod secp_n =? 0 then
      (xkey (PubKeyFlagBytes h) (child_depth d) (repeat x00 4) (ser32 i) (IR I) (repeat x00 33), Some ErrInvalidPublicKey)
    else (xkey (PubKeyFlagBytes h) (child_depth d) (fpc H data) (ser32 i) (IR I) (sumkey (IL I) data), None)
  end).
Proof.
  unfold NewChildKey. rewrite hard_eq, xpub_public. cbn [negb andb].
  destruct (Z.leb_spec HARD i) as [Hi|Hi]; [reflexivity|]. cbv zeta.
  rewrite getIntermediary_pub by exact Hi. rewrite get_ver, get_data by exact HF.
  set (I := p_hmac512 H c (data ++ ser32 i)).
  assert (L : length I = 64%nat) by (apply prims_hmac; exact HP).
  destruct (lookup0 (PubFlagToHDBytesSlice T) (be_Z v)) as [h|]; [|reflexivity].
  assert (lv : length (PubKeyFlagBytes h) = 4%nat) by apply Z_be_length.
  rewrite (arr_exact 4) by apply ser32_length. rewrite (arr_exact 32 (skipn 32 I)) by (apply IR_length; exact L). cbn [bind].
  change (uint32Bytes i) with (ser32 i). change (skipn 32 I) with (IR I).
  pose proof (IR_length I L) as lir. rewrite get_dep by exact HF. fold (child_depth d).
  assert (S : SetVersion (PubKeyFlagBytes h) (setDepth (child_depth d) (setChainCode (IR I) (setChildNumber (ser32 i) zero_key)))
     = xkey (PubKeyFlagBytes h) (child_depth d) (repeat x00 4) (ser32 i) (IR I) (repeat x00 33)).
  { rewrite zero_key_x.
    rewrite set_num by (exact zeros_ok || apply ser32_length).
    rewrite set_cc by ((repeat split; apply ser32_length) || exact lir).
    rewrite set_dep by (repeat split; (apply ser32_length || exact lir)).
    rewrite set_ver by ((repeat split; (apply ser32_length || exact lir)) || exact lv).
    reflexivity. }
  rewrite S. rewrite publicKey_spec. change (be_Z (firstn 32 I)) with (IL I).
  rewrite validateChild_comp by (apply Z.mod_pos_bound, secp_n_pos). cbn [bind].
  destruct (IL I mod secp_n =? 0); [reflexivity|].
  rewrite (kG_mod_n (IL I)) by apply be_Z_range.
  assert (N1 : comp (kG (IL I)) <> []) by (intros C; pose proof (comp_length (kG (IL I))) as Q; rewrite C in Q; discriminate).
  assert (N2 : data <> []) by (intros C; rewrite C in LD; discriminate).
  destruct (addPublicKeys_total _ _ N1 N2) as (s & Es & Ls). unfold sumkey. rewrite Es. cbn [bind].
  rewrite arr_firstn by exact Ls. cbn [bind]. f_equal. f_equal.
  assert (LF : length (firstn 33 s) = 33%nat) by (rewrite firstn_length; lia).
  assert (EF : forall K', copy_at 5 9 (HashRipeMD160onSha256 H data) K' = copy_at 5 9 (fpc H data) K').
  { intros K'. unfold copy_at. change (9 - 5)%nat with 4%nat. f_equal. unfold fpc. rewrite firstn_firstn. reflexivity. }
  rewrite EF, set_fp by ((repeat split; (apply ser32_length || exact lir || exact lv)) || apply fpc_length; exact HP).
  unfold setPubKeyBytes. apply set_data; [repeat split; (apply ser32_length || exact lir || exact lv || apply fpc_length; exact HP)|reflexivity|exact LF].
Qed.
Theorem NewChildKey_pub T i : after_init T -> NewChildKey H T K i = Ret (
  if HARD <=? i then (zero_key, Some ErrHardenedChildPublicKey)
  else
  let I := p_hmac512 H c (data ++ ser32 i) in
  match lookup0 (PubFlagToHDBytesSlice T) (be_Z v) with
  | None => (zero_key, Some ErrUnSupportedHDVersionBytes)
  | Some _ =>
    if IL I mod secp_n =? 0 then
      (xkey v (child_depth d) (repeat x00 4) (ser32 i) (IR I) (repeat x00 33), Some ErrInvalidPublicKey)
    else (xkey v (child_depth d) (fpc H data) (ser32 i) (IR I) (sumkey (IL I) data), None)
  end).
Proof.
  intros HT. rewrite NewChildKey_pub0. pose proof (lookup_pub T (be_Z v) HT) as LK.
  destruct (lookup0 (PubFlagToHDBytesSlice T) (be_Z v)) as [h|]; [|reflexivity]. destruct LK as [_ LK].
  assert (PubKeyFlagBytes h = v) as -> by (unfold PubKeyFlagBytes; rewrite LK; apply Z_be_be_Z; exact (proj1 HF)). reflexivity.
Qed.
End Pub.
Lemma sumkey_point il K : oncurve K -> K <> PInf -> 0 <= il -> il mod secp_n <> 0 -> sumkey il (serPb K) = comp (cadd (kG il) K).
Proof.
  intros HK NK H0 Hil. unfold sumkey.
  assert (NI : kG il <> PInf) by (intros C; apply kG_inf_iff in C; [congruence|exact H0]).
  rewrite comp_aff by exact NI. rewrite addPublicKeys_points; [|apply kG_on|assumption..].
  rewrite firstn_all2; [reflexivity|]. rewrite comp_length. lia.
Qed.
(** NewChildKey never panics. *)
Theorem NewChildKey_total H T k i : prims_ok H -> after_init T -> wf_key k -> exists r, NewChildKey H T k i = Ret r /\ wf_key (fst r).
Proof.
  intros HP HT HK. destruct (key_split k HK) as (v & d & f & n & c & data & -> & HF & LD).
  pose proof HF as (lv & lf & ln & lc).
  destruct (Byte.eqb (nth 0 data x00) x00) eqn:E.
  - apply byte_eqb_spec in E. destruct (data_split data LD) as (k0 & r & -> & Lr). cbn [nth] in E. subst k0.
    replace (xkey v d f n c (x00 :: r)) with (xprv v d f n c (be_Z r)) by (unfold xprv, ser256; rewrite Z_be_be_Z by exact Lr; reflexivity).
    rewrite NewChildKey_priv; try assumption.
    + eexists. split; [reflexivity|]. cbv zeta. destruct (lookup0 (PvtFlagToHDBytesSlice T) (be_Z v)); [|reflexivity]. cbn [fst].
      unfold wf_key, xprv. rewrite xkey_length; [cbn [length]; rewrite ser256_length; reflexivity|].
      repeat split; (exact lv || (apply fpc_length; exact HP) || (apply IR_length, prims_hmac, HP)).
    + pose proof (be_Z_range r) as R. rewrite Lr, p256_32 in R. exact R.
  - apply byte_eqb_neq in E. rewrite NewChildKey_pub by assumption. eexists. split; [reflexivity|].
    destruct (HARD <=? i); [reflexivity|]. cbv zeta. destruct (lookup0 (PubFlagToHDBytesSlice T) (be_Z v)); [|reflexivity].
    destruct (IL _ mod secp_n =? 0); cbn [fst]; unfold wf_key; rewrite xkey_length.
    + reflexivity.
    + repeat split; (exact lv || (apply IR_length, prims_hmac, HP)).
    + unfold sumkey. match goal with |- context [addPublicKeys ?a data] => assert (N1 : a <> []) end.
      { intros C. match type of C with comp ?P = _ => pose proof (comp_length P) as Q end. rewrite C in Q. discriminate. }
      assert (N2 : data <> []) by (intros C; rewrite C in LD; discriminate).
      destruct (addPublicKeys_total _ _ N1 N2) as (s & -> & Ls). rewrite firstn_length. lia.
    + repeat split; (exact lv || (apply fpc_length; exact HP) || (apply IR_length, prims_hmac, HP)).
Qed.

(** ** PublicKeyExtended *)
Theorem Neuter_priv T v d f n c k : fields_ok v f n c -> 0 <= k < 2 ^ 256 ->
  PublicKeyExtended T (xprv v d f n c k) =
  xkey (match lookup0 (PvtFlagToHDBytesSlice T) (be_Z v) with None => xpub_version | Some h => PubKeyFlagBytes h end)
       d f n c (comp (kG k)).
Proof.
  intros HF Hk. unfold PublicKeyExtended. cbv zeta. rewrite xprv_private, xprv_46 by exact HF.
  assert (EV : slice 0 4 (xprv v d f n c k) = v) by (unfold xprv; apply get_ver; exact HF). rewrite EV.
  rewrite pub_of_scalar by exact Hk. unfold xprv. rewrite set_data; [|exact HF|cbn [length]; rewrite ser256_length; reflexivity|apply comp_length].
  apply set_ver; [exact HF|]. destruct (lookup0 _ _); apply Z_be_length.
Qed.
Theorem Neuter_pub T v d f n c data : fields_ok v f n c -> nth 0 data x00 <> x00 ->
  PublicKeyExtended T (xkey v d f n c data) =
  xkey (match lookup0 (PubFlagToHDBytesSlice T) (be_Z v) with None => xpub_version | Some _ => v end) d f n c data.
Proof.
  intros HF ND. unfold PublicKeyExtended. cbv zeta. rewrite (xpub_public v d f n c data HF ND), get_ver by exact HF.
  apply set_ver; [exact HF|]. destruct (lookup0 _ _); [exact (proj1 HF)|apply Z_be_length].
Qed.

(** ** Serialisation *)
(** In proofs; for bip32/bip32.go:79-263. *)
Definition checksum (H : Prims) (b : bytes) : bytes := firstn 4 (p_sha256 H (p_sha256 H b)).
Lemma checksum_length H b : prims_ok H -> length (checksum H b) = 4%nat.
Proof. intros HP. unfold checksum. rewrite firstn_length, prims_sha by exact HP. reflexivity. Qed.
Lemma allzero k : forallb (fun v => Byte.eqb v x00) k = true <-> k = repeat x00 (length k).
Proof.
  induction k as [|x k IH]; [split; reflexivity|]. cbn [forallb length repeat]. rewrite andb_true_iff, byte_eqb_spec, IH.
  split; [intros [-> E]; f_equal; exact E|intros E; injection E as -> E; split; [reflexivity|exact E]].
Qed.
Lemma Serialize_spec H k : wf_key k -> Serialize H k = if forallb (fun v => Byte.eqb v x00) k then ([], Some ErrEmptyKey) else (k ++ checksum H k, None).
Proof. reflexivity. Qed.
Lemma nonzero_chk k : wf_key k -> k <> zero_key -> forallb (fun v => Byte.eqb v x00) k = false.
Proof.
  intros L N. destruct (forallb _ k) eqn:E; [|reflexivity]. exfalso. apply N. apply allzero in E. unfold wf_key in L. rewrite L in E. exact E.
Qed.
Theorem Deserialize_spec H data : prims_ok H -> Deserialize H data = Ret (
  if Nat.eqb (length data) 82 then
    (firstn 78 data, if bytes_eqb (checksum H (firstn 78 data)) (skipn 78 data) then None else Some ErrInvalidChecksum)
  else (firstn 78 (data ++ repeat x00 (82 - length data)), Some ErrSerializedKeyWrongSize)).
Proof.
  intros HP. unfold Deserialize. destruct (Nat.eqb_spec (length data) 82) as [E|E]; cbn [negb].
  - cbv zeta. rewrite arr_exact by (rewrite firstn_length, E; reflexivity). reflexivity.
  - destruct (Nat.ltb_spec (length data) 82) as [E'|E'].
    + rewrite arr_exact; [reflexivity|]. rewrite firstn_length, app_length, repeat_length. lia.
    + rewrite arr_exact by (rewrite firstn_length; lia). replace (82 - length data)%nat with O by lia.
      cbn [repeat bind]. rewrite app_nil_r. reflexivity.
Qed.
