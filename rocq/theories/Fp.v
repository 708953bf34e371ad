(** Fp.v - the prime field of secp256k1 as a type with Leibniz equality (mathematics, used by the
    specification and the proofs). *)
From Coq Require Import Znumtheory Zpow_facts Field Ring Eqdep_dec.
From Verif Require Import Base Prime Secp SecpPrime.

(** For the curve library called at bip32/utils.go:63-71, 107-140. *)
Record Fp := mkFp { fv : Z; fok : (fv mod secp_p =? fv) = true }.

Lemma secp_p_pos : 0 < secp_p. Proof. reflexivity. Qed.
Lemma secp_p_nz : secp_p <> 0. Proof. discriminate. Qed.
Lemma secp_n_pos : 0 < secp_n. Proof. reflexivity. Qed.
Lemma secp_n_nz : secp_n <> 0. Proof. discriminate. Qed.

Lemma Fp_eq (a b : Fp) : fv a = fv b -> a = b.
Proof.
  destruct a as [a Ha], b as [b Hb]; simpl. intros <-. f_equal.
  apply UIP_dec. apply bool_dec.
Qed.
Lemma toF_ok z : ((z mod secp_p) mod secp_p =? z mod secp_p) = true.
Proof. rewrite Z.mod_mod by apply secp_p_nz. apply Z.eqb_refl. Qed.
(** For the curve library called at bip32/utils.go:63-71, 107-140. *)
Definition toF (z : Z) : Fp := mkFp (z mod secp_p) (toF_ok z).
Lemma fv_mod a : fv a mod secp_p = fv a.
Proof. destruct a as [a Ha]; simpl. apply Z.eqb_eq; exact Ha. Qed.
Lemma fv_range a : 0 <= fv a < secp_p.
Proof. rewrite <- fv_mod. apply Z.mod_pos_bound, secp_p_pos. Qed.
Lemma fv_toF z : fv (toF z) = z mod secp_p. Proof. reflexivity. Qed.
Lemma toF_fv a : toF (fv a) = a.
Proof. apply Fp_eq. simpl. apply fv_mod. Qed.
Lemma toF_eq a b : toF a = toF b <-> a mod secp_p = b mod secp_p.
Proof.
  split; [intros H; apply (f_equal fv) in H; exact H|]. intros H. apply Fp_eq. exact H.
Qed.
Lemma toF_mod z : toF (z mod secp_p) = toF z.
Proof. apply toF_eq. apply Z.mod_mod, secp_p_nz. Qed.

(** For the curve library called at bip32/utils.go:63-71, 107-140. *)
Definition F0 := toF 0.
(** For the curve library called at bip32/utils.go:63-71, 107-140. *)
Definition F1 := toF 1.
(** For the curve library called at bip32/utils.go:63-71, 107-140. *)
Definition Fadd a b := toF (fv a + fv b).
(** For the curve library called at bip32/utils.go:63-71, 107-140. *)
Definition Fmul a b := toF (fv a * fv b).
(** For the curve library called at bip32/utils.go:63-71, 107-140. *)
Definition Fsub a b := toF (fv a - fv b).
(** For the curve library called at bip32/utils.go:63-71, 107-140. *)
Definition Fopp a := toF (- fv a).
(** For the curve library called at bip32/utils.go:63-71, 107-140. *)
Definition Finv a := toF (fv a ^ (secp_p - 2)).
(** For the curve library called at bip32/utils.go:63-71, 107-140. *)
Definition Fdiv a b := Fmul a (Finv b).
(** For the curve library called at bip32/utils.go:63-71, 107-140. *)
Definition Feqb a b := fv a =? fv b.

Lemma toF_add a b : toF (a + b) = Fadd (toF a) (toF b).
Proof. apply toF_eq. simpl. apply Zplus_mod. Qed.
Lemma toF_mul a b : toF (a * b) = Fmul (toF a) (toF b).
Proof. apply toF_eq. simpl. apply Zmult_mod. Qed.
Lemma toF_sub a b : toF (a - b) = Fsub (toF a) (toF b).
Proof. apply toF_eq. simpl. apply Zminus_mod. Qed.
Lemma toF_opp a : toF (- a) = Fopp (toF a).
Proof.
  apply toF_eq. simpl. rewrite <- (Z.sub_0_l a), Zminus_mod, <- (Z.sub_0_l (a mod _)).
  rewrite (Zminus_mod 0 (a mod secp_p)), Z.mod_mod by apply secp_p_nz. reflexivity.
Qed.
Lemma Feqb_spec a b : Feqb a b = true <-> a = b.
Proof.
  unfold Feqb. rewrite Z.eqb_eq. split; [apply Fp_eq|intros ->; reflexivity].
Qed.

Lemma Fp_ring : ring_theory F0 F1 Fadd Fmul Fsub Fopp (@eq Fp).
Proof.
  constructor; intros.
  - rewrite <- (toF_fv x). unfold F0. rewrite <- toF_add. f_equal.
  - unfold Fadd. f_equal. ring.
  - rewrite <- (toF_fv x), <- (toF_fv y), <- (toF_fv z). rewrite <- !toF_add. f_equal. ring.
  - rewrite <- (toF_fv x). unfold F1. rewrite <- toF_mul. f_equal. ring.
  - unfold Fmul. f_equal. ring.
  - rewrite <- (toF_fv x), <- (toF_fv y), <- (toF_fv z). rewrite <- !toF_mul. f_equal. ring.
  - rewrite <- (toF_fv x), <- (toF_fv y), <- (toF_fv z). rewrite <- !toF_mul, <- !toF_add, <- !toF_mul. f_equal. ring.
  - rewrite <- (toF_fv x), <- (toF_fv y). rewrite <- toF_opp, <- toF_sub, <- toF_add. f_equal.
  - rewrite <- (toF_fv x). unfold F0. rewrite <- toF_opp, <- toF_add. f_equal. ring.
Qed.

Lemma F1_neq_F0 : F1 <> F0.
Proof. intros H. apply (f_equal fv) in H. vm_compute in H. discriminate. Qed.

Lemma fv_nonzero a : a <> F0 -> fv a mod secp_p <> 0.
Proof. intros H E. apply H. apply Fp_eq. rewrite <- fv_mod, E. reflexivity. Qed.

Lemma Finv_l a : a <> F0 -> Fmul (Finv a) a = F1.
Proof.
  intros H. pose proof (fermat secp_p (fv a) secp_p_prime (fv_nonzero a H)) as HF.
  rewrite <- (toF_fv a) at 2. unfold Finv. rewrite <- toF_mul. unfold F1. apply toF_eq.
  rewrite Z.mul_comm, <- Z.pow_succ_r by (vm_compute; discriminate).
  replace (Z.succ (secp_p - 2)) with (secp_p - 1) by (vm_compute; reflexivity).
  rewrite HF. symmetry. apply Z.mod_1_l. reflexivity.
Qed.

Lemma Fp_field : field_theory F0 F1 Fadd Fmul Fsub Fopp Fdiv Finv (@eq Fp).
Proof.
  constructor.
  - apply Fp_ring.
  - apply F1_neq_F0.
  - reflexivity.
  - exact Finv_l.
Qed.
Add Field Fpf : Fp_field.

(** Powers. For the curve library called at bip32/utils.go:63-71, 107-140. *)
Fixpoint Fpow (a : Fp) (n : nat) : Fp := match n with O => F1 | S k => Fmul a (Fpow a k) end.
Lemma toF_pow a e : 0 <= e -> toF (a ^ e) = Fpow (toF a) (Z.to_nat e).
Proof.
  intros He. rewrite <- (Z2Nat.id e) at 1 by exact He. generalize (Z.to_nat e) as n.
  induction n as [|n IH]; [reflexivity|].
  rewrite Nat2Z.inj_succ, Z.pow_succ_r by lia. rewrite toF_mul, IH. reflexivity.
Qed.

(** ** The reduction used by the model is [mod p] *)
Lemma fold256_mod a : fold256 a mod secp_p = a mod secp_p.
Proof.
  unfold fold256.
  change 0xFFFFFFFFFFFFFFFFFFFFFFFFFFFFFFFFFFFFFFFFFFFFFFFFFFFFFFFFFFFFFFFF with (Z.ones 256).
  rewrite Z.land_ones, Z.shiftr_div_pow2 by lia.
  pose proof (Z.div_mod a (2 ^ 256) ltac:(vm_compute; discriminate)) as E. revert E.
  generalize (a / 2 ^ 256) as q. generalize (a mod 2 ^ 256) as r. intros r q ->.
  replace (2 ^ 256) with (secp_p + 4294968273) by (vm_compute; reflexivity).
  replace ((secp_p + 4294968273) * q + r) with (q * 4294968273 + r + q * secp_p) by ring.
  rewrite Z.mod_add by apply secp_p_nz. reflexivity.
Qed.
Lemma fred_mod a : fred a = a mod secp_p.
Proof.
  unfold fred. set (r := fold256 (fold256 a)).
  assert (E : r mod secp_p = a mod secp_p) by (unfold r; rewrite !fold256_mod; reflexivity).
  destruct ((0 <=? r) && (r <? secp_p)) eqn:C; [|exact E].
  apply andb_true_iff in C as [C1 C2]. rewrite <- E. symmetry. apply Z.mod_small.
  split; [apply Z.leb_le|apply Z.ltb_lt]; assumption.
Qed.
Lemma toF_fred a : toF (fred a) = toF a. Proof. rewrite fred_mod. apply toF_mod. Qed.
Lemma toF_fmul a b : toF (fmul a b) = Fmul (toF a) (toF b).
Proof. unfold fmul. rewrite toF_fred. apply toF_mul. Qed.
Lemma toF_fadd a b : toF (fadd a b) = Fadd (toF a) (toF b).
Proof. unfold fadd. rewrite toF_fred. apply toF_add. Qed.
Lemma toF_fsub a b : toF (fsub a b) = Fsub (toF a) (toF b).
Proof. unfold fsub. rewrite toF_fred. apply toF_sub. Qed.
Lemma fred_range a : 0 <= fred a < secp_p.
Proof. rewrite fred_mod. apply Z.mod_pos_bound, secp_p_pos. Qed.
Lemma fmul_range a b : 0 <= fmul a b < secp_p. Proof. apply fred_range. Qed.
Lemma fadd_range a b : 0 <= fadd a b < secp_p. Proof. apply fred_range. Qed.
Lemma fsub_range a b : 0 <= fsub a b < secp_p. Proof. apply fred_range. Qed.
Lemma fpow_pos_spec a e : fpow_pos a e = a ^ Zpos e mod secp_p.
Proof.
  induction e as [e IH|e IH|]; cbn [fpow_pos].
  - rewrite IH. unfold fmul. rewrite !fred_mod. rewrite <- Zmult_mod, Zmult_mod_idemp_r.
    rewrite (Pos2Z.inj_xI e), Z.pow_add_r, Z.pow_1_r by lia.
    replace (2 * Z.pos e) with (Z.pos e + Z.pos e) by ring. rewrite Z.pow_add_r by lia.
    f_equal. ring.
  - rewrite IH. unfold fmul. rewrite fred_mod, <- Zmult_mod, (Pos2Z.inj_xO e).
    replace (2 * Z.pos e) with (Z.pos e + Z.pos e) by ring. rewrite Z.pow_add_r by lia. reflexivity.
  - rewrite Z.pow_1_r. apply fred_mod.
Qed.
Lemma toF_finv a : toF (finv a) = Finv (toF a).
Proof.
  unfold finv, Finv. rewrite fpow_pos_spec, Z2Pos.id by reflexivity.
  rewrite toF_mod. apply toF_eq. rewrite fv_toF, <- Zpower_mod by apply secp_p_pos. reflexivity.
Qed.
Lemma toF_eqb a b : 0 <= a < secp_p -> 0 <= b < secp_p -> (a =? b) = Feqb (toF a) (toF b).
Proof. intros Ha Hb. unfold Feqb. rewrite !fv_toF, !Z.mod_small by assumption. reflexivity. Qed.
Lemma fv_toF_small a : 0 <= a < secp_p -> fv (toF a) = a.
Proof. intros H. rewrite fv_toF. apply Z.mod_small; exact H. Qed.
