(** SecpFacts.v - the executable secp256k1 model computes the group operations of SpecEC.v. *)
From Coq Require Import Znumtheory Zpow_facts Field Ring.
From Verif Require Import Base BaseFacts Prime Secp SecpPrime Fp ECGroup SpecEC.
From Verif Require Export SecpGroup SecpOrder.

(** ** Projective model *)
(** In proofs; for bip32/utils.go:16-19, 64. *)
Definition tripF (A : ptrip) : Fp * Fp * Fp := let '(X, Y, Z_) := A in (toF X, toF Y, toF Z_).
(** In proofs; for bip32/utils.go:16-19, 64. *)
Definition prep (A : ptrip) (P : point) : Prop :=
  let '(X, Y, Z_) := A in
  0 <= Z_ < secp_p /\ rep Fp F0 Fmul (tripF A) P.

Lemma toF_21 : toF 21 = Fmul (Fadd (Fadd F1 F1) F1) Fb. Proof. apply Fp_eq. vm_compute. reflexivity. Qed.
Lemma toF_63 : toF 63 = Fmul (Fadd (Fadd F1 F1) F1) (Fmul (Fadd (Fadd F1 F1) F1) Fb).
Proof. apply Fp_eq. vm_compute. reflexivity. Qed.

Lemma padd_c_F A B : tripF (padd_c A B) = padd Fp F1 Fadd Fmul Fsub Fb (tripF A) (tripF B).
Proof.
  destruct A as [[X1 Y1] Z1], B as [[X2 Y2] Z2]. unfold padd_c, tripF, padd. cbv zeta.
  repeat (rewrite ?toF_fsub, ?toF_fadd, ?toF_fmul, ?toF_add, ?toF_sub, ?(toF_mul 21), ?(toF_mul 63), ?(toF_mul 3)).
  rewrite toF_21, toF_63, toF_3.
  generalize (toF X1) (toF Y1) (toF Z1) (toF X2) (toF Y2) (toF Z2) Fb. intros.
  f_equal; [f_equal|]; ring.
Qed.
Lemma padd_c_range A B : 0 <= snd (padd_c A B) < secp_p.
Proof. destruct A as [[X1 Y1] Z1], B as [[X2 Y2] Z2]. apply fadd_range. Qed.
Lemma prep_add A B P Q : oncurve P -> oncurve Q -> prep A P -> prep B Q -> prep (padd_c A B) (cadd P Q).
Proof.
  intros HP HQ HA HB. pose proof (padd_c_F A B) as E.
  destruct A as [[X1 Y1] Z1], B as [[X2 Y2] Z2]. unfold prep in HA, HB.
  pose proof (padd_rep _ _ _ _ _ _ _ _ _ Fp_field _ Feqb_spec _ secp_two secp_no_root
    _ _ _ _ HP HQ (proj2 HA) (proj2 HB)) as R.
  rewrite <- E in R.
  pose proof (padd_c_range (X1, Y1, Z1) (X2, Y2, Z2)) as HR.
  destruct (padd_c (X1, Y1, Z1) (X2, Y2, Z2)) as [[X3 Y3] Z3].
  split; [exact HR|exact R].
Qed.
Lemma prep_mul k A P : oncurve P -> prep A P -> prep (pmul_c k A) (smul (Zpos k) P).
Proof.
  intros HP HA. induction k as [k IH|k IH|]; cbn [pmul_c].
  - replace (Zpos k~1) with (1 + (Zpos k + Zpos k)) by lia.
    rewrite !smul_add, smul_1 by (try lia; assumption).
    apply prep_add; [assumption|apply cadd_on; apply smul_on; assumption|assumption|].
    apply prep_add; try (apply smul_on; assumption); assumption.
  - replace (Zpos k~0) with (Zpos k + Zpos k) by lia.
    rewrite !smul_add by (try lia; assumption).
    apply prep_add; try (apply smul_on; assumption); assumption.
  - rewrite smul_1. exact HA.
Qed.
Lemma prep_G : prep (secp_Gx, secp_Gy, 1) pG.
Proof.
  split; [split; [lia|reflexivity]|]. unfold tripF, rep, pG. split.
  - exact F1_neq_F0.
  - split.
    + rewrite <- toF_mul, Z.mul_1_r. reflexivity.
    + rewrite <- toF_mul, Z.mul_1_r. reflexivity.
Qed.

(** Affine coordinates as the library returns them: (0,0) for infinity. *)
(** In proofs; for bip32/utils.go:16-19, 64. *)
Definition enc (P : point) : Z * Z := match P with Inf _ => (0, 0) | Aff _ x y => (fv x, fv y) end.

Lemma to_affine_spec A P : prep A P -> to_affine A = enc P.
Proof.
  destruct A as [[X Y] Z_]. intros [HZ HR]. unfold to_affine.
  destruct P as [|x y]; cbn [tripF rep] in HR.
  - destruct HR as (_ & EZ & _). apply (f_equal fv) in EZ. rewrite fv_toF_small in EZ by exact HZ.
    rewrite EZ. reflexivity.
  - destruct HR as (NZ & EX & EY).
    destruct (Z_ =? 0) eqn:E0; [apply Z.eqb_eq in E0; subst Z_; exfalso; apply NZ; reflexivity|].
    cbn [enc]. f_equal.
    + rewrite <- (fv_toF_small _ (fmul_range X (finv Z_))). f_equal. rewrite toF_fmul, toF_finv, EX.
      field. exact NZ.
    + rewrite <- (fv_toF_small _ (fmul_range Y (finv Z_))). f_equal. rewrite toF_fmul, toF_finv, EY.
      field. exact NZ.
Qed.

Theorem ScalarBaseMult_spec k : ScalarBaseMult k = enc (kG (be_Z k mod secp_n)).
Proof.
  unfold ScalarBaseMult, kG. pose proof (Z.mod_pos_bound (be_Z k) secp_n secp_n_pos) as Hr.
  destruct (be_Z k mod secp_n) as [|e|e] eqn:E; [reflexivity| |lia].
  apply to_affine_spec. apply prep_mul; [apply pG_on|apply prep_G].
Qed.

Lemma smul_mod_n k P : 0 <= k -> oncurve P -> smul secp_n P = PInf -> smul (k mod secp_n) P = smul k P.
Proof.
  intros Hk HP HI. rewrite (Z.div_mod k secp_n) at 2 by apply secp_n_nz.
  pose proof (Z.mod_pos_bound k secp_n secp_n_pos). pose proof (Z.div_pos k secp_n Hk secp_n_pos).
  rewrite smul_add by (first [assumption|lia|apply Z.mul_nonneg_nonneg; [vm_compute; discriminate|assumption]]).
  rewrite Z.mul_comm, smul_mul by (try assumption; vm_compute; discriminate).
  rewrite HI, smul_inf. reflexivity.
Qed.
Lemma kG_mod_n k : 0 <= k -> kG (k mod secp_n) = kG k.
Proof. intros Hk. apply smul_mod_n; [exact Hk|apply pG_on|apply nG_inf]. Qed.
Lemma kG_add j k : 0 <= j -> 0 <= k -> kG (j + k) = cadd (kG j) (kG k).
Proof. intros. apply smul_add; [assumption..|apply pG_on]. Qed.

(** The multiples that vanish are those of n. *)
Lemma kG_gcd j k : 0 <= k -> 0 <= j -> kG j = PInf -> kG k = PInf -> kG (Z.gcd j k) = PInf.
Proof.
  intros Hk Hj. revert j Hj.
  apply (Z_lt_induction (fun k => 0 <= k -> forall j, 0 <= j -> kG j = PInf -> kG k = PInf ->
    kG (Z.gcd j k) = PInf)); [|exact Hk|exact Hk]. clear k Hk.
  intros k IH Hk j Hj Ej Ek. destruct (Z.eq_dec k 0) as [->|Hk0].
  - rewrite Z.gcd_0_r, Z.abs_eq by lia. exact Ej.
  - assert (Hkp : 0 < k) by lia. pose proof (Z.mod_pos_bound j k Hkp).
    rewrite Z.gcd_comm, <- Z.gcd_mod, Z.gcd_comm by lia.
    apply IH; [lia|lia|lia|exact Ek|].
    rewrite (Z.div_mod j k) in Ej by lia. pose proof (Z.div_pos j k Hj Hkp).
    rewrite kG_add in Ej by (try lia; apply Z.mul_nonneg_nonneg; lia).
    unfold kG at 1 in Ej. rewrite Z.mul_comm, smul_mul in Ej by (try lia; apply pG_on).
    fold (kG k) in Ej. rewrite Ek, smul_inf in Ej. exact Ej.
Qed.
Theorem kG_inf_iff k : 0 <= k -> (kG k = PInf <-> k mod secp_n = 0).
Proof.
  intros Hk. split.
  - intros E. destruct (Z.eq_dec (k mod secp_n) 0) as [|Hn]; [assumption|exfalso].
    pose proof (kG_gcd k secp_n ltac:(vm_compute; discriminate) Hk E nG_inf) as Hg.
    assert (Hg1 : Z.gcd k secp_n = 1).
    { assert (RP : rel_prime secp_n k).
      { apply prime_rel_prime; [apply secp_n_prime|]. intros D. apply Hn. apply Z.mod_divide; [apply secp_n_nz|exact D]. }
      rewrite Z.gcd_comm. apply Zgcd_1_rel_prime. exact RP. }
    rewrite Hg1 in Hg. unfold kG in Hg. rewrite smul_1 in Hg. discriminate.
  - intros E. rewrite <- kG_mod_n, E by exact Hk. reflexivity.
Qed.
Theorem kG_inj j k : 0 <= j < secp_n -> 0 <= k < secp_n -> kG j = kG k -> j = k.
Proof.
  assert (W : forall j k, 0 <= j -> j <= k -> k < secp_n -> kG j = kG k -> j = k).
  { intros j' k' Hj Hjk Hkn E.
    replace k' with (j' + (k' - j')) in E by ring. rewrite kG_add in E by lia.
    rewrite <- (cadd_inf_r (kG j')) in E at 1.
    apply cadd_cancel_l in E; [|apply kG_on|exact Logic.I|apply kG_on].
    symmetry in E. apply kG_inf_iff in E; [|lia].
    rewrite Z.mod_small in E by lia. lia. }
  intros Hj Hk E. destruct (Z.le_ge_cases j k).
  - apply W; [lia|assumption|lia|exact E].
  - symmetry. apply W; [lia|assumption|lia|symmetry; exact E].
Qed.
Lemma cneg_kG k : 0 <= k <= secp_n -> cneg (kG k) = kG (secp_n - k).
Proof.
  intros Hk. symmetry. apply cadd_inf_iff; [apply kG_on..|].
  rewrite <- kG_add by lia. replace (k + (secp_n - k)) with secp_n by ring. apply nG_inf.
Qed.

(** ** curve.Add *)
Lemma origin_off : ~ oncurve (PAff F0 F0).
Proof. intros H. apply (f_equal fv) in H. vm_compute in H. discriminate. Qed.
Lemma enc_inf_iff P : oncurve P -> (enc P = (0, 0) <-> P = PInf).
Proof.
  intros HP. split; [|intros ->; reflexivity]. destruct P as [|x y]; [reflexivity|].
  cbn [enc]. intros E. injection E as Ex Ey. exfalso. apply origin_off.
  replace F0 with x at 1 by (apply Fp_eq; exact Ex). replace F0 with y by (apply Fp_eq; exact Ey). exact HP.
Qed.
Lemma enc_inj P Q : oncurve P -> oncurve Q -> enc P = enc Q -> P = Q.
Proof.
  intros HP HQ E. destruct P as [|x1 y1], Q as [|x2 y2].
  - reflexivity.
  - symmetry in E. apply enc_inf_iff in E; [congruence|exact HQ].
  - apply enc_inf_iff in E; [congruence|exact HP].
  - cbn [enc] in E. injection E as Ex Ey. f_equal; apply Fp_eq; assumption.
Qed.

Lemma fred_fv a : fred (fv a) = fv a. Proof. rewrite fred_mod. apply fv_mod. Qed.

Lemma field32_small x : 0 <= x < 2 ^ 256 -> field32 x = x.
Proof.
  intros Hx. unfold field32. rewrite firstn_all2; [apply be_Z_bytes; lia|]. rewrite Z_bytes_length. unfold nbytes. destruct (Z.leb_spec x 0) as [|P]; [lia|].
  assert (L : Z.log2 x < 256) by (apply Z.log2_lt_pow2; lia). pose proof (Z.log2_nonneg x). assert (Z.log2 x / 8 < 32) by (apply Z.div_lt_upper_bound; lia). pose proof (Z.div_pos (Z.log2 x) 8 ltac:(lia) ltac:(lia)). lia.
Qed.
Lemma field32_fv a : field32 (fv a) = fv a.
Proof. apply field32_small. pose proof (fv_range a). unfold secp_p in *. lia. Qed.
Theorem CurveAdd_spec P Q : oncurve P -> oncurve Q -> CurveAdd (enc P) (enc Q) = enc (cadd P Q).
Proof.
  intros HP HQ. unfold CurveAdd.
  assert (Z0 : forall R, oncurve R -> (fst (enc R) =? 0) && (snd (enc R) =? 0) = true -> R = PInf).
  { intros R HR E. apply andb_true_iff in E as [E1 E2]. apply Z.eqb_eq in E1, E2.
    apply enc_inf_iff; [exact HR|]. destruct (enc R); simpl in *. congruence. }
  destruct (enc P) as [x1 y1] eqn:EP. destruct (enc Q) as [x2 y2] eqn:EQ.
  destruct ((x1 =? 0) && (y1 =? 0)) eqn:C1.
  { specialize (Z0 P HP). rewrite EP in Z0. rewrite (Z0 C1). rewrite <- EQ. reflexivity. }
  destruct ((x2 =? 0) && (y2 =? 0)) eqn:C2.
  { specialize (Z0 Q HQ). rewrite EQ in Z0. rewrite (Z0 C2). rewrite cadd_inf_r. symmetry; exact EP. }
  destruct P as [|X1 Y1]; [cbn in EP; injection EP as <- <-; discriminate|].
  destruct Q as [|X2 Y2]; [cbn in EQ; injection EQ as <- <-; discriminate|].
  cbn [enc] in EP, EQ. injection EP as <- <-. injection EQ as <- <-. clear Z0 C1 C2.
  cbv zeta. rewrite !field32_fv, !fred_fv.
  assert (Hy0 : (fv Y1 =? 0) = Feqb Y1 F0) by reflexivity.
  change (fv X1 =? fv X2) with (Feqb X1 X2). change (fv Y1 =? fv Y2) with (Feqb Y1 Y2).
  rewrite Hy0. unfold cadd, aadd.
  assert (L : forall l l', toF l = l' -> 
    (let x3 := fsub (fsub (fmul l l) (fv X1)) (fv X2) in
     (x3, fsub (fmul l (fsub (fv X1) x3)) (fv Y1))) =
    enc (line_add Fp Fmul Fsub l' X1 Y1 X2)).
  { intros l l' <-. unfold line_add. cbn [enc]. cbv zeta.
    set (x3 := fsub (fsub (fmul l l) (fv X1)) (fv X2)).
    assert (E3 : toF x3 = Fsub (Fsub (Fmul (toF l) (toF l)) X1) X2)
      by (unfold x3; rewrite !toF_fsub, toF_fmul, !toF_fv; reflexivity).
    f_equal.
    - rewrite <- E3. symmetry. apply fv_toF_small. apply fsub_range.
    - rewrite <- E3. rewrite <- (fv_toF_small (fsub _ _)) at 1 by apply fsub_range. f_equal.
      rewrite toF_fsub, toF_fmul, toF_fsub, !toF_fv. reflexivity. }
  destruct (Feqb X1 X2) eqn:EX.
  - destruct (Feqb Y1 Y2) eqn:EY; [|reflexivity]. cbn [andb].
    destruct (Feqb Y1 F0) eqn:EY0; [reflexivity|]. cbn [negb].
    apply L. rewrite toF_fmul, toF_finv, !toF_mul, toF_fmul, toF_fv, toF_fv, toF_2, toF_3. reflexivity.
  - apply L. rewrite toF_fmul, toF_finv, !toF_fsub, !toF_fv. reflexivity.
Qed.

(** ** Square roots *)
Lemma Fermat_F a : a <> F0 -> toF (fv a ^ (secp_p - 1)) = F1.
Proof.
  intros Ha. apply toF_eq. rewrite (fermat secp_p (fv a) secp_p_prime (fv_nonzero a Ha)).
  symmetry. apply Z.mod_1_l. reflexivity.
Qed.
Theorem ModSqrt_square y : exists z, ModSqrt (fv (Fmul y y)) = Some z /\ 0 <= z < secp_p /\
  (toF z = y \/ toF z = Fopp y).
Proof.
  set (a := Fmul y y). set (e := (secp_p + 1) / 4).
  assert (Hz : toF (fpow_pos (fred (fv a)) (Z.to_pos e)) = y \/ toF (fpow_pos (fred (fv a)) (Z.to_pos e)) = Fopp y).
  { assert (Hsq : Fmul (toF (fpow_pos (fred (fv a)) (Z.to_pos e))) (toF (fpow_pos (fred (fv a)) (Z.to_pos e))) = Fmul y y).
    { rewrite fred_fv, fpow_pos_spec, Z2Pos.id by reflexivity. rewrite toF_mod, <- toF_mul.
      rewrite <- Z.pow_add_r by (vm_compute; discriminate).
      destruct (Feqb y F0) eqn:Ey.
      { apply Feqb_spec in Ey. unfold a. subst y.
        replace (fv (Fmul F0 F0)) with 0 by (vm_compute; reflexivity).
        rewrite Z.pow_0_l by (vm_compute; reflexivity). apply Fp_eq. vm_compute. reflexivity. }
      assert (Hy : y <> F0) by (intros E; apply Feqb_spec in E; congruence).
      assert (Ha : a <> F0) by (unfold a; intros E; apply Fmul_integral in E as [E|E]; contradiction).
      transitivity (toF (fv y ^ (secp_p - 1) * (fv y * fv y))).
      2:{ rewrite toF_mul, Fermat_F, toF_mul, !toF_fv by exact Hy. ring. }
      apply toF_eq. unfold a at 1. unfold Fmul. rewrite fv_toF, <- Zpower_mod by apply secp_p_pos.
      f_equal. replace (fv y * fv y) with (fv y ^ 2) by ring.
      rewrite <- Z.pow_mul_r, <- Z.pow_add_r by (vm_compute; discriminate).
      f_equal. }
    set (z := toF _) in *. 
    assert (E : Fmul (Fsub z y) (Fadd z y) = F0) by (transitivity (Fsub (Fmul z z) (Fmul y y)); [ring|rewrite Hsq; ring]).
    apply Fmul_integral in E as [E|E].
    - left. transitivity (Fadd (Fsub z y) y); [ring|]. rewrite E. ring.
    - right. transitivity (Fsub (Fadd z y) y); [ring|]. rewrite E. ring. }
  exists (fpow_pos (fred (fv a)) (Z.to_pos e)).
  assert (Hr : 0 <= fpow_pos (fred (fv a)) (Z.to_pos e) < secp_p)
    by (rewrite fpow_pos_spec; apply Z.mod_pos_bound, secp_p_pos).
  split; [|split; [exact Hr|exact Hz]].
  unfold ModSqrt. fold e. cbv zeta.
  assert (E : fmul (fpow_pos (fred (fv a)) (Z.to_pos e)) (fpow_pos (fred (fv a)) (Z.to_pos e)) = fred (fv a)).
  { rewrite <- (fv_toF_small _ (fmul_range _ _)), toF_fmul, fred_fv. f_equal.
    unfold a. rewrite fred_fv in Hz. fold a. destruct Hz as [->| ->]; [reflexivity|]. unfold a; ring. }
  rewrite E, Z.eqb_refl. reflexivity.
Qed.
Lemma ModSqrt_sound v z : ModSqrt v = Some z -> 0 <= z < secp_p /\ Fmul (toF z) (toF z) = toF v.
Proof.
  unfold ModSqrt. cbv zeta. intros H.
  set (zz := fpow_pos (fred v) (Z.to_pos ((secp_p + 1) / 4))) in *.
  assert (Hr : 0 <= zz < secp_p) by (unfold zz; rewrite fpow_pos_spec; apply Z.mod_pos_bound, secp_p_pos).
  clearbody zz. destruct (fmul zz zz =? fred v) eqn:E; [|discriminate]. injection H as <-.
  split; [exact Hr|].
  apply Z.eqb_eq in E. apply (f_equal toF) in E. rewrite toF_fmul, toF_fred in E. exact E.
Qed.
Lemma ModSqrt_mod v : ModSqrt (v mod secp_p) = ModSqrt v.
Proof. unfold ModSqrt. rewrite !fred_mod, Z.mod_mod by apply secp_p_nz. reflexivity. Qed.
