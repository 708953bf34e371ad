(** SecpGroup.v - the points of SpecEC.v form a group. *)
From Coq Require Import Znumtheory Zpow_facts Field Ring.
From Verif Require Import Base BaseFacts Prime Secp SecpPrime Fp ECGroup SpecEC.

#[global] Strategy 1000 [fold256 fred fmul fadd fsub finv fpow_pos toF Fadd Fmul Fsub Fopp Finv Fdiv secp_p secp_n ModSqrt].

Lemma secp_two : Fadd F1 F1 <> F0.
Proof. intros H. apply (f_equal fv) in H. vm_compute in H. discriminate. Qed.

Lemma Fmul_integral x y : Fmul x y = F0 -> x = F0 \/ y = F0.
Proof. exact (integral Fp F0 F1 Fadd Fmul Fsub Fopp Fdiv Finv Fp_field Feqb Feqb_spec x y). Qed.

(** -7 is not a cube. *)
Lemma secp_no_root x : Fadd (Fmul (Fmul x x) x) Fb <> F0.
Proof.
  intros H.
  assert (E : toF (fv x ^ 3) = toF (-7)).
  { replace (fv x ^ 3) with (fv x * fv x * fv x) by ring. rewrite !toF_mul, !toF_fv.
    transitivity (Fsub (Fadd (Fmul (Fmul x x) x) Fb) Fb); [ring|]. rewrite H.
    unfold F0, Fb. rewrite <- toF_sub. reflexivity. }
  apply toF_eq in E.
  assert (Hx : fv x mod secp_p <> 0).
  { intros E0. rewrite Zpower_mod, E0 in E by apply secp_p_pos.
    assert (C : (0 ^ 3 mod secp_p =? -7 mod secp_p) = false) by (vm_compute; reflexivity).
    rewrite E, Z.eqb_refl in C. discriminate. }
  pose proof (fermat secp_p (fv x) secp_p_prime Hx) as HF.
  replace (secp_p - 1) with (3 * ((secp_p - 1) / 3)) in HF by (vm_compute; reflexivity).
  rewrite Z.pow_mul_r in HF by (vm_compute; discriminate).
  rewrite Zpower_mod, E, <- Zpower_mod in HF by apply secp_p_pos.
  rewrite <- (Z2Pos.id ((secp_p - 1) / 3)) in HF by reflexivity.
  rewrite <- (pow_red_spec red_p secp_p _ _ red_p_mod secp_p_nz) in HF.
  assert (C : (pow_red red_p (-7) (Z.to_pos ((secp_p - 1) / 3)) =? 1) = false) by (vm_compute; reflexivity).
  rewrite HF in C. discriminate.
Qed.

(** ** Group laws *)
Lemma cadd_on P Q : oncurve P -> oncurve Q -> oncurve (cadd P Q).
Proof. exact (aadd_on _ _ _ _ _ _ _ _ _ Fp_field _ Feqb_spec _ secp_two secp_no_root P Q). Qed.
Lemma cadd_comm P Q : cadd P Q = cadd Q P.
Proof. exact (aadd_comm _ _ _ _ _ _ _ _ _ Fp_field _ Feqb_spec P Q). Qed.
Lemma cadd_assoc P Q R : oncurve P -> oncurve Q -> oncurve R -> cadd (cadd P Q) R = cadd P (cadd Q R).
Proof. exact (aadd_assoc _ _ _ _ _ _ _ _ _ Fp_field _ Feqb_spec _ secp_two secp_no_root P Q R). Qed.
Lemma cneg_on P : oncurve P -> oncurve (cneg P).
Proof. exact (on_neg _ _ _ _ _ _ _ _ _ Fp_field _ P). Qed.
Lemma cadd_neg P : cadd P (cneg P) = PInf.
Proof. exact (aadd_neg _ _ _ _ _ _ _ _ _ Fp_field _ Feqb_spec secp_two P). Qed.
Lemma cadd_inf_r P : cadd P PInf = P.
Proof. destruct P; reflexivity. Qed.
Lemma cadd_inf_iff P Q : oncurve P -> oncurve Q -> cadd P Q = PInf <-> Q = cneg P.
Proof. exact (aadd_inf_iff _ _ _ _ _ _ _ _ _ Fp_field _ Feqb_spec _ secp_two secp_no_root P Q). Qed.
Lemma cadd_cancel_l P Q R : oncurve P -> oncurve Q -> oncurve R -> cadd P Q = cadd P R -> Q = R.
Proof. exact (aadd_cancel_l _ _ _ _ _ _ _ _ _ Fp_field _ Feqb_spec _ secp_two secp_no_root P Q R). Qed.
Lemma y_nonzero x y : oncurve (PAff x y) -> y <> F0.
Proof. exact (on_y_neq _ _ _ _ _ _ _ _ _ Fp_field _ secp_no_root x y). Qed.

Lemma smul_on k P : oncurve P -> oncurve (smul k P).
Proof. exact (nmul_on _ _ _ _ _ _ _ _ _ Fp_field _ Feqb_spec _ secp_two secp_no_root (Z.to_nat k) P). Qed.
Lemma smul_add j k P : 0 <= j -> 0 <= k -> oncurve P -> smul (j + k) P = cadd (smul j P) (smul k P).
Proof.
  intros Hj Hk HP. unfold smul. rewrite Z2Nat.inj_add by assumption.
  exact (nmul_add _ _ _ _ _ _ _ _ _ Fp_field _ Feqb_spec _ secp_two secp_no_root _ _ P HP).
Qed.
Lemma smul_mul j k P : 0 <= j -> 0 <= k -> oncurve P -> smul (j * k) P = smul j (smul k P).
Proof.
  intros Hj Hk HP. unfold smul. rewrite Z2Nat.inj_mul by assumption.
  exact (nmul_mul _ _ _ _ _ _ _ _ _ Fp_field _ Feqb_spec _ secp_two secp_no_root _ _ P HP).
Qed.
Lemma smul_0 P : smul 0 P = PInf. Proof. reflexivity. Qed.
Lemma smul_1 P : smul 1 P = P. Proof. apply cadd_inf_r. Qed.
Lemma smul_inf k : smul k PInf = PInf.
Proof. apply nmul_inf. Qed.
Lemma pG_on : oncurve pG.
Proof. unfold oncurve, pG, on. apply Fp_eq. vm_compute. reflexivity. Qed.
Lemma kG_on k : oncurve (kG k).
Proof. apply smul_on, pG_on. Qed.
Lemma toF_2 : toF 2 = Fadd F1 F1. Proof. apply Fp_eq. vm_compute. reflexivity. Qed.
Lemma toF_3 : toF 3 = Fadd (Fadd F1 F1) F1. Proof. apply Fp_eq. vm_compute. reflexivity. Qed.
Lemma two_y_neq y : y <> F0 -> Fmul (Fadd F1 F1) y <> F0.
Proof. intros Hy E. apply Fmul_integral in E as [E|E]; [exact (secp_two E)|contradiction]. Qed.
