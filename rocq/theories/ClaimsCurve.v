(** ClaimsCurve.v - the property statements of PropsCurve.v with their proofs. *)
From Verif Require Import Base BaseFacts GoStr HexFacts Prims Hash HashFacts Secp SecpPrime Fp ECGroup SpecEC SecpGroup SecpOrder SecpFacts Base58 Base58Facts SpecBip32 SpecPath Bip32Path Bip32Reg Bip32 Bip32RegFacts Bip32KeyFacts Bip32Facts Bip32Facts2 Claims32 GoField GoFieldFacts GoFieldBytes GoCurve GoCurveFacts.
From Coq Require Import Lia ZifyBool.
From Coq Require Import ZifyBool ZifyNat ZifyN.

Lemma C92_points_l : forall P Q, oncurve P -> oncurve Q -> KoblitzAdd (fst (enc P)) (snd (enc P)) (fst (enc Q)) (snd (enc Q)) = enc (cadd P Q).
Proof.
intros P Q HP HQ. rewrite KoblitzAdd_CurveAdd; [rewrite <- !surjective_pairing; apply CurveAdd_spec; assumption|..];
  (destruct P as [|x1 y1]; destruct Q as [|x2 y2]; cbn [enc fst snd]; try (pose proof (fv_range x1); pose proof (fv_range y1)); try (pose proof (fv_range x2); pose proof (fv_range y2)); lia).
Qed.

Lemma C92_affine_l : forall x1 y1 x2 y2 : Fp, PAff x1 y1 <> PAff F0 F0 -> PAff x2 y2 <> PAff F0 F0 ->
  KoblitzAdd (fv x1) (fv y1) (fv x2) (fv y2) = enc (cadd (PAff x1 y1) (PAff x2 y2)).
Proof.
intros x1 y1 x2 y2 H1 H2. unfold KoblitzAdd.
assert (Z0 : forall x y : Fp, PAff x y <> PAff F0 F0 -> (fv x =? 0) && (fv y =? 0) = false).
{ intros x y N. apply not_true_iff_false. rewrite andb_true_iff, !Z.eqb_eq. intros [A B]. apply N. f_equal; apply Fp_eq; assumption. }
rewrite !Z0 by assumption. apply affine_rep. apply Add_rep; [exact H1|exact H2|apply big_rep|apply big_rep].
Qed.

Lemma C92_add_l : forall x1 y1 x2 y2, 0 <= x1 -> 0 <= y1 -> 0 <= x2 -> 0 <= y2 -> KoblitzAdd x1 y1 x2 y2 = CurveAdd (x1, y1) (x2, y2).
Proof.
intros x1 y1 x2 y2. apply KoblitzAdd_CurveAdd.
Qed.

Lemma C92_residues_l : forall x1 y1 x2 y2, 0 <= x1 < 2 ^ 256 -> 0 <= y1 < 2 ^ 256 -> 0 <= x2 < 2 ^ 256 -> 0 <= y2 < 2 ^ 256 ->
  ~ (x1 = 0 /\ y1 = 0) -> ~ (x2 = 0 /\ y2 = 0) -> ~ (x1 mod secp_p = 0 /\ y1 mod secp_p = 0) -> ~ (x2 mod secp_p = 0 /\ y2 mod secp_p = 0) ->
  KoblitzAdd x1 y1 x2 y2 =
    if (x1 mod secp_p =? x2 mod secp_p) && (negb (x1 =? x2) || negb (y1 =? y2)) then (0, 0)
    else enc (cadd (PAff (toF x1) (toF y1)) (PAff (toF x2) (toF y2))).
Proof.
intros x1 y1 x2 y2 A1 B1 A2 B2 N1 N2 M1 M2. rewrite KoblitzAdd_CurveAdd by lia. unfold CurveAdd.
destruct ((x1 =? 0) && (y1 =? 0)) eqn:E1; [exfalso; apply N1; lia|]. destruct ((x2 =? 0) && (y2 =? 0)) eqn:E2; [exfalso; apply N2; lia|].
cbv zeta. rewrite !field32_small by assumption. rewrite !fred_mod.
pose proof (C92_affine_l (toF x1) (toF y1) (toF x2) (toF y2)) as W.
assert (P1 : PAff (toF x1) (toF y1) <> PAff F0 F0) by (intros E; apply M1; split; [apply (toF_eq x1 0); exact (f_equal (fun P => match P with Inf _ => F0 | Aff _ a _ => a end) E)|apply (toF_eq y1 0); exact (f_equal (fun P => match P with Inf _ => F0 | Aff _ _ a => a end) E)]).
assert (P2 : PAff (toF x2) (toF y2) <> PAff F0 F0) by (intros E; apply M2; split; [apply (toF_eq x2 0); exact (f_equal (fun P => match P with Inf _ => F0 | Aff _ a _ => a end) E)|apply (toF_eq y2 0); exact (f_equal (fun P => match P with Inf _ => F0 | Aff _ _ a => a end) E)]).
specialize (W P1 P2). rewrite !fv_toF in W.
assert (S : forall z, 0 <= z mod secp_p < 2 ^ 256) by (intros z; pose proof (Z.mod_pos_bound z secp_p secp_p_pos); unfold secp_p in *; lia).
rewrite <- W. rewrite KoblitzAdd_CurveAdd by apply S. unfold CurveAdd.
assert (E1' : (x1 mod secp_p =? 0) && (y1 mod secp_p =? 0) = false) by (apply not_true_iff_false; rewrite andb_true_iff, !Z.eqb_eq; exact M1).
assert (E2' : (x2 mod secp_p =? 0) && (y2 mod secp_p =? 0) = false) by (apply not_true_iff_false; rewrite andb_true_iff, !Z.eqb_eq; exact M2).
rewrite E1', E2'. cbv zeta. rewrite !field32_small by apply S. rewrite !fred_mod, !Z.mod_mod by exact secp_p_nz.
destruct (Z.eqb_spec x1 x2) as [->|Nx].
- rewrite Z.eqb_refl. destruct (Z.eqb_spec y1 y2) as [->|Ny]; [rewrite Z.eqb_refl; reflexivity|reflexivity].
- destruct (x1 mod secp_p =? x2 mod secp_p) eqn:Em; reflexivity.
Qed.

Lemma C92_residues_refuted_l : exists x1 x2 y, 0 <= x1 < 2 ^ 256 /\ x1 mod secp_p = x2 mod secp_p /\ oncurve (PAff (toF x2) (toF y)) /\ KoblitzAdd x1 y x2 y = (0, 0) /\ KoblitzAdd x2 y x2 y <> (0, 0).
Proof.
exists (secp_p + 1), 1, (match ModSqrt 8 with Some y => y | None => 0 end). split; [unfold secp_p; lia|]. split; [vm_compute; reflexivity|]. split.
- unfold oncurve, on. apply Fp_eq. vm_compute. reflexivity.
- rewrite !KoblitzAdd_CurveAdd by (try (unfold secp_p; lia); vm_compute; discriminate). split; [vm_compute; reflexivity|]. vm_compute. discriminate.
Qed.

Lemma C92_ex_l : exists P Q, oncurve P /\ oncurve Q /\ P <> PInf /\ Q <> PInf /\ cadd P Q <> PInf /\ P <> Q.
Proof.
exists (kG 1), (kG 2). split; [apply kG_on|]. split; [apply kG_on|].
assert (NI : forall k, 0 < k < secp_n -> kG k <> PInf) by (intros k Hk E; apply kG_inf_iff in E; [rewrite Z.mod_small in E by lia; lia|lia]).
split; [apply NI; unfold secp_n; lia|]. split; [apply NI; unfold secp_n; lia|]. rewrite <- kG_add by lia. split; [apply NI; unfold secp_n; lia|].
intros E. apply kG_inj in E; [discriminate|unfold secp_n; lia|unfold secp_n; lia].
Qed.

Lemma C93_base_l : forall tab k, bytePoints_ok tab -> KoblitzScalarBaseMult tab k = Ret (enc (kG (be_Z k))).
Proof.
intros tab k. apply KoblitzScalarBaseMult_spec.
Qed.

Lemma C93_model_l : forall tab k, bytePoints_ok tab -> KoblitzScalarBaseMult tab k = Ret (ScalarBaseMult k).
Proof.
intros tab k H. rewrite KoblitzScalarBaseMult_spec by exact H. rewrite ScalarBaseMult_spec. do 2 f_equal. symmetry. apply kG_mod_n. apply be_Z_range.
Qed.

Lemma C93_scalar_l : forall k, (length k <= 32)%nat -> ScalarBytes (ScalarSetByteSlice k) = Z_be 32 (be_Z k mod secp_n).
Proof.
intros k. apply Scalar_spec.
Qed.

Lemma C93_infinity_l : forall tab k, bytePoints_ok tab -> (KoblitzScalarBaseMult tab k = Ret (0, 0) <-> be_Z k mod secp_n = 0).
Proof.
intros tab k H. rewrite KoblitzScalarBaseMult_spec by exact H. rewrite <- (kG_inf_iff (be_Z k)) by apply be_Z_range. rewrite <- (enc_inf_iff (kG (be_Z k))) by apply kG_on. split; [congruence|intros ->; reflexivity].
Qed.

Lemma C93_ex_l : exists tab, bytePoints_ok tab.
Proof.
exists (map (fun i => map (fun b => table_point (kG (Z.of_nat b * 256 ^ (31 - Z.of_nat i)))) (seq 0 256)) (seq 0 32)). split; [reflexivity|].
set (f := fun i : nat => _). intros i row E. assert (L : length (map f (seq 0 32)) = 32%nat) by (rewrite map_length; apply seq_length). rewrite L.
assert (Hi : (i < 32)%nat) by (rewrite <- L; apply nth_error_Some; congruence).
rewrite (map_nth_error f i (seq 0 32) (d := i)) in E by (rewrite <- (Nat.add_0_l i) at 2; apply nth_error_seq_some; exact Hi). injection E as <-. unfold f. clear f L. split; [rewrite map_length; apply seq_length|].
intros b p E. assert (Hb : (b < 256)%nat) by (rewrite <- (seq_length 256 0), <- (map_length (fun b => table_point (kG (Z.of_nat b * 256 ^ (31 - Z.of_nat i))))); apply nth_error_Some; congruence).
rewrite (map_nth_error _ b (seq 0 256) (d := b)) in E by (rewrite <- (Nat.add_0_l b) at 2; apply nth_error_seq_some; exact Hb). injection E as <-. reflexivity.
Qed.

Lemma C94_add_l : forall m m' f g, 0 <= m -> 0 <= m' -> m + m' <= 60 -> mag m f -> mag m' g -> mag (m + m') (Add f g) /\ lval (Add f g) mod secp_p = (lval f + lval g) mod secp_p.
Proof.
intros m m' f g A B C F G. destruct (R_Add m m' f g _ _ A B C (conj F eq_refl) (conj G eq_refl)) as [H E]. split; [exact H|]. apply toF_eq. rewrite E. symmetry. apply toF_add.
Qed.

Lemma C94_mul_l : forall m m' f g, 0 <= m <= 8 -> 0 <= m' <= 8 -> mag m f -> mag m' g -> mag 1 (Mul f g) /\ lval (Mul f g) mod secp_p = (lval f * lval g) mod secp_p.
Proof.
intros m m' f g A B F G. destruct (R_Mul m m' f g _ _ A B (conj F eq_refl) (conj G eq_refl)) as [H E]. split; [exact H|]. apply toF_eq. rewrite E. symmetry. apply toF_mul.
Qed.

Lemma C94_square_l : forall m f, 0 <= m <= 8 -> mag m f -> mag 1 (Square f) /\ lval (Square f) mod secp_p = (lval f * lval f) mod secp_p.
Proof.
intros m f A F. destruct (R_Sq m f _ A (conj F eq_refl)) as [H E]. split; [exact H|]. apply toF_eq. rewrite E. symmetry. apply toF_mul.
Qed.

Lemma C94_mulint_l : forall k m f, 0 <= k -> 0 <= m -> k * m <= 60 -> mag m f -> mag (k * m) (MulInt k f) /\ lval (MulInt k f) mod secp_p = (k * lval f) mod secp_p.
Proof.
intros k m f A B C F. destruct (R_MulInt k m f _ A B C (conj F eq_refl)) as [H E]. split; [exact H|]. apply toF_eq. rewrite E. symmetry. apply toF_mul.
Qed.

Lemma C94_negate_l : forall m f, 0 <= m <= 40 -> mag m f -> mag (m + 1) (Negate m f) /\ lval (Negate m f) mod secp_p = (- lval f) mod secp_p.
Proof.
intros m f A F. destruct (R_Neg m f _ A (conj F eq_refl)) as [H E]. split; [exact H|]. apply toF_eq. rewrite E. symmetry. apply toF_opp.
Qed.

Lemma C94_normalize_l : forall m f, 0 <= m <= 32 -> mag m f -> length (Normalize f) = 10%nat /\ Forall (fun d => 0 <= d < 2 ^ 26) (Normalize f) /\ lval (Normalize f) = lval f mod secp_p.
Proof.
intros m f A F. exact (R_Normalize m f _ A (conj F eq_refl)).
Qed.

Lemma C94_inverse_l : forall f, mag 1 f -> mag 1 (Inverse f) /\ (lval f mod secp_p <> 0 -> (lval (Inverse f) * lval f) mod secp_p = 1) /\ (lval f mod secp_p = 0 -> lval (Inverse f) mod secp_p = 0).
Proof.
intros f F. destruct (R_Inverse f _ (conj F eq_refl)) as [H E]. split; [exact H|]. split.
- intros NZ. change 1 with (1 mod secp_p). apply toF_eq. rewrite toF_mul, E. apply Finv_l. intros C. apply NZ. apply (toF_eq _ 0). exact C.
- intros Z0. change 0 with (0 mod secp_p). apply toF_eq. rewrite E. assert (E0 : toF (lval f) = F0) by (apply (toF_eq _ 0); exact Z0). rewrite E0. apply Finv_0.
Qed.

Lemma C94_affine_l : forall p, mag 1 (jX p) -> mag 1 (jY p) -> mag 1 (jZ p) ->
  let q := ToAffine p in
  (forall f, In f [jX q; jY q; jZ q] -> length f = 10%nat /\ Forall (fun d => 0 <= d < 2 ^ 26) f /\ 0 <= lval f < secp_p) /\ lval (jZ q) = 1 /\
  (lval (jZ p) mod secp_p <> 0 -> (lval (jX q) * lval (jZ p) ^ 2) mod secp_p = lval (jX p) mod secp_p /\ (lval (jY q) * lval (jZ p) ^ 3) mod secp_p = lval (jY p) mod secp_p) /\
  (lval (jZ p) mod secp_p = 0 -> lval (jX q) = 0 /\ lval (jY q) = 0).
Proof.
intros p A B C q. pose proof (R_Inverse _ _ (conj C eq_refl)) as I. assert (RX : R 1 (jX p) (toF (lval (jX p)))) by (split; [exact A|reflexivity]). assert (RY : R 1 (jY p) (toF (lval (jY p)))) by (split; [exact B|reflexivity]).
set (X := toF (lval (jX p))) in *. set (Y := toF (lval (jY p))) in *. set (Zz := toF (lval (jZ p))) in *.
assert (NX : N (jX q) (Fmul X (Fmul (Finv Zz) (Finv Zz)))). { unfold q, ToAffine. cbv zeta. cbn [jX]. set (z := Inverse (jZ p)) in *. clearbody z. eapply RN; [rr|lia|ring]. }
assert (NY : N (jY q) (Fmul Y (Fmul (Fmul (Finv Zz) (Finv Zz)) (Finv Zz)))). { unfold q, ToAffine. cbv zeta. cbn [jY]. set (z := Inverse (jZ p)) in *. clearbody z. eapply RN; [rr|lia|ring]. }
assert (NZ : N (jZ q) F1) by (apply (SetInt_N 1); lia).
split. { intros f [<-|[<-|[<-|[]]]]; [destruct NX as (L & D & V)|destruct NY as (L & D & V)|destruct NZ as (L & D & V)]; (split; [exact L|split; [exact D|rewrite V; apply fv_range]]). }
destruct NX as (_ & _ & VX). destruct NY as (_ & _ & VY). destruct NZ as (_ & _ & VZ). split; [exact VZ|]. split.
- intros Nz. assert (Zn : Zz <> F0) by (intros E; apply Nz; apply (toF_eq _ 0); exact E). split; apply toF_eq; rewrite toF_mul.
  + rewrite VX, toF_fv. replace (lval (jZ p) ^ 2) with (lval (jZ p) * lval (jZ p)) by ring. rewrite toF_mul. fold Zz. fold X. replace (Fmul (Fmul X (Fmul (Finv Zz) (Finv Zz))) (Fmul Zz Zz)) with (Fmul X (Fmul (Fmul (Finv Zz) Zz) (Fmul (Finv Zz) Zz))) by ring. rewrite Finv_l by exact Zn. ring.
  + rewrite VY, toF_fv. replace (lval (jZ p) ^ 3) with (lval (jZ p) * lval (jZ p) * lval (jZ p)) by ring. rewrite !toF_mul. fold Zz. fold Y. replace (Fmul (Fmul Y (Fmul (Fmul (Finv Zz) (Finv Zz)) (Finv Zz))) (Fmul (Fmul Zz Zz) Zz)) with (Fmul Y (Fmul (Fmul (Finv Zz) Zz) (Fmul (Fmul (Finv Zz) Zz) (Fmul (Finv Zz) Zz)))) by ring. rewrite Finv_l by exact Zn. ring.
- intros Z0. assert (E : Zz = F0) by (apply (toF_eq _ 0); exact Z0). rewrite VX, VY, E, Finv_0. split; (transitivity (fv F0); [f_equal; ring|reflexivity]).
Qed.

Lemma C94_bytes_l : (forall b, (length b <= 32)%nat -> length (SetByteSlice b) = 10%nat /\ Forall (fun d => 0 <= d < 2 ^ 26) (SetByteSlice b) /\ lval (SetByteSlice b) = be_Z b) /\
(forall b, (32 <= length b)%nat -> SetByteSlice b = SetByteSlice (firstn 32 b)) /\
(forall f, length f = 10%nat -> Forall (fun d => 0 <= d < 2 ^ 26) f -> lval f < 2 ^ 256 -> FieldBytes f = Z_be 32 (lval f)).
Proof.
split; [exact SetByteSlice_spec|]. split.
- intros b L. unfold SetByteSlice, bytes32. rewrite firstn_firstn. reflexivity.
- intros f L D V. destruct (FieldBytes_spec f (lval f) V (conj L (conj D eq_refl))) as [E L']. rewrite <- (Z_be_be_Z (FieldBytes f) 32 L'). congruence.
Qed.

Lemma C94_compare_l : forall f g, length f = 10%nat -> length g = 10%nat -> Forall (fun d => 0 <= d < 2 ^ 26) f -> Forall (fun d => 0 <= d < 2 ^ 26) g ->
  (Equals f g = true <-> lval f = lval g) /\ (IsZero f = true <-> lval f = 0) /\ (IsOne f = true <-> lval f = 1).
Proof.
intros f g Lf Lg Df Dg. split; [|split].
- rewrite Equals_iff by congruence. split; [intros ->; reflexivity|]. intros E. apply lval_inj; [congruence|assumption..|exact E].
- rewrite IsZero_iff by exact Lf. split; [intros ->; reflexivity|]. intros E. apply lval_inj; [rewrite Lf; reflexivity|exact Df| |exact E]. apply (SetInt_N 0). lia.
- rewrite IsOne_iff by exact Lf. split; [intros ->; reflexivity|]. intros E. apply lval_inj; [rewrite Lf; reflexivity|exact Df| |exact E]. apply (SetInt_N 1). lia.
Qed.

Lemma C94_ex_l : mag 1 (SetInt 5) /\ lval (SetInt 5) mod secp_p <> 0 /\ mag 8 (MulInt 8 (SetInt 5)) /\ (exists f, mag 1 f /\ secp_p <= lval f < 2 ^ 256) /\
Forall (fun d => 0 <= d < 2 ^ 26) (SetInt 5).
Proof.
assert (M5 : mag 1 (SetInt 5)) by (apply (N_R _ _ (SetInt_N 5 ltac:(lia)))). split; [exact M5|]. split; [vm_compute; discriminate|]. split; [apply (C94_mulint_l 8 1); (lia || exact M5)|]. split.
- exists (SetByteSlice (Z_be 32 (secp_p + 1))). pose proof (SetByteSlice_spec (Z_be 32 (secp_p + 1)) ltac:(rewrite Z_be_length; lia)) as H.
  assert (V : be_Z (Z_be 32 (secp_p + 1)) = secp_p + 1) by (vm_compute; reflexivity). rewrite V in H. split; [apply (U_R _ (secp_p + 1)); [unfold secp_p; lia|exact H]|]. destruct H as (_ & _ & ->). unfold secp_p. lia.
- apply (SetInt_N 5). lia.
Qed.

Lemma Expand_alias xs y : oncurve (PAff (toF (be_Z xs)) y) -> ExpandPublicKey ((if Z.even (fv y) then x02 else x03) :: xs) = Ret (be_Z xs, fv y).
Proof.
  intros HO. rewrite Expand_cons. f_equal. f_equal. pose proof (curve_sq _ _ HO) as Q. destruct (ModSqrt_square y) as (z & S & R & Ez). rewrite <- Q, fv_toF in S.
  rewrite cube_mod, ModSqrt_mod in S. rewrite S. apply sel_y_spec; [exact (y_nonzero _ _ HO)|exact R|exact Ez].
Qed.
Lemma CurveAdd_alias W xs y : oncurve W -> W <> PInf -> length xs = 32%nat -> oncurve (PAff (toF (be_Z xs)) y) ->
  CurveAdd (enc W) (be_Z xs, fv y) = if (secp_p <=? be_Z xs) && (fst (enc W) =? be_Z xs mod secp_p) then (0, 0) else enc (cadd W (PAff (toF (be_Z xs)) y)).
Proof.
  intros OW NW Lx HO. pose proof (be_Z_range xs) as RX. rewrite Lx in RX. change (p256 32) with (2 ^ 256) in RX. set (X := be_Z xs) in *. clearbody X. clear xs Lx.
  destruct W as [|x1 y1]; [contradiction|]. cbn [enc fst]. rewrite <- KoblitzAdd_CurveAdd by (try (pose proof (fv_range x1); pose proof (fv_range y1); pose proof (fv_range y); lia)).
  assert (S : forall a : Fp, 0 <= fv a < 2 ^ 256) by (intros a; pose proof (fv_range a); unfold secp_p in *; lia).
  assert (Y1 : fv y1 <> 0) by (intros C; apply (y_nonzero _ _ OW), Fp_eq; exact C). assert (Y : fv y <> 0) by (intros C; apply (y_nonzero _ _ HO), Fp_eq; exact C).
  rewrite C92_residues_l; [|apply S|apply S|exact RX|apply S|lia|lia|rewrite !fv_mod; lia|rewrite !fv_mod; lia]. rewrite !fv_mod, !toF_fv.
  destruct (Z.leb_spec secp_p X) as [G|G]; cbn [andb].
  - pose proof (fv_range x1). replace (fv x1 =? X) with false by lia. cbn [negb orb]. rewrite andb_true_r. reflexivity.
  - rewrite (Z.mod_small X) by lia. destruct (Z.eqb_spec (fv x1) X) as [E|E]; cbn [negb andb orb]; [|reflexivity].
    destruct (Z.eqb_spec (fv y1) (fv y)) as [E2|E2]; cbn [negb]; [reflexivity|]. assert (EX : x1 = toF X) by (apply Fp_eq; rewrite fv_toF, Z.mod_small by lia; exact E). subst x1.
    unfold cadd, aadd. rewrite Feqb_refl. replace (Feqb y1 y) with false; [reflexivity|]. symmetry. apply Feqb_neq. congruence.
Qed.

Lemma C95_child_l : forall H T v d f n c xs y i, prims_ok H -> after_init T -> fields_ok v f n c -> pub_registered v -> 0 <= i < 2 ^ 31 -> length xs = 32%nat ->
  oncurve (PAff (toF (be_Z xs)) y) ->
  let K := PAff (toF (be_Z xs)) y in
  let key := (if Z.even (fv y) then x02 else x03) :: xs in
  let I := p_hmac512 H c (key ++ ser32 i) in
  let W := kG (IL I) in
  IL I mod secp_n <> 0 ->
  exists fp, NewChildKey H T (xkey v d f n c key) i = Ret (xkey v (bZ (Zb d + 1)) fp (ser32 i) (IR I)
    (if (secp_p <=? be_Z xs) && (fst (enc W) =? be_Z xs mod secp_p) then x02 :: repeat x00 32 else comp (cadd W K)), None).
Proof.
intros H T v d f n c xs y i HP HT HF HV Hi Lx HO K key I W Hil. exists (fpc H key).
rewrite (NewChildKey_pub H v d f n c key HP HF); [|cbn [key length]; congruence|unfold key; destruct (Z.even (fv y)); discriminate|exact HT].
assert (E : HARD <=? i = false) by (apply Z.leb_gt; exact (proj2 Hi)). rewrite E. clear E. cbv zeta. destruct (pub_lookup T v HT HV) as (h & ->). fold I.
destruct (Z.eqb_spec (IL I mod secp_n) 0) as [C|_]; [contradiction|]. do 3 f_equal.
unfold sumkey. fold W. assert (NW : W <> PInf) by (intros C; apply kG_inf_iff in C; [contradiction|apply IL_nonneg]).
assert (OW : oncurve W) by apply kG_on. clearbody W. unfold addPublicKeys. rewrite comp_aff by exact NW. rewrite (Expand_ser W OW NW). cbn [bind].
unfold key. rewrite (Expand_alias xs y HO). cbn [bind]. rewrite (CurveAdd_alias W xs y OW NW Lx HO). fold K.
destruct ((secp_p <=? be_Z xs) && (fst (enc W) =? be_Z xs mod secp_p)); [reflexivity|]. rewrite compress_enc. apply firstn_all2. rewrite comp_length. lia.
Qed.

Lemma C95_accepted_refuted_l : exists xs y, length xs = 32%nat /\ secp_p <= be_Z xs /\ oncurve (PAff (toF (be_Z xs)) y) /\
  validateChildPublicKey ((if Z.even (fv y) then x02 else x03) :: xs) = Ret None.
Proof.
exists (Z_be 32 (secp_p + 1)), (toF (match ModSqrt 8 with Some y => y | None => 0 end)).
assert (V : be_Z (Z_be 32 (secp_p + 1)) = secp_p + 1) by (vm_compute; reflexivity).
assert (HO : oncurve (PAff (toF (secp_p + 1)) (toF (match ModSqrt 8 with Some y => y | None => 0 end)))) by (unfold oncurve, on; apply Fp_eq; vm_compute; reflexivity).
split; [apply Z_be_length|]. rewrite V. split; [lia|]. split; [exact HO|]. apply C33_validate_l. rewrite V. intros [E|[_ E]]; [unfold secp_p in E; lia|exact (E _ HO)].
Qed.

Lemma C95_ex_l : exists H T v f n c xs y i, prims_ok H /\ after_init T /\ fields_ok v f n c /\ pub_registered v /\ 0 <= i < 2 ^ 31 /\ length xs = 32%nat /\ secp_p <= be_Z xs /\
  oncurve (PAff (toF (be_Z xs)) y) /\ IL (p_hmac512 H c (((if Z.even (fv y) then x02 else x03) :: xs) ++ ser32 i)) mod secp_n <> 0.
Proof.
destruct C95_accepted_refuted_l as (xs & y & L & G & O & _).
exists (constP (ILbytes 1)), T0, xpub_version, z4, z4, z32, xs, y, 0. split; [apply constP_ok, ILbytes_length|]. split; [exact T0_ok|]. split; [exact xpv|]. split; [exact xpub_reg|]. split; [lia|]. split; [exact L|]. split; [exact G|]. split; [exact O|].
change (IL (ILbytes 1) mod secp_n <> 0). rewrite IL_ILbytes by lia. discriminate.
Qed.
