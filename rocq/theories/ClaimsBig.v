(** ClaimsBig.v - the property statements of PropsBig.v with their proofs. *)
From Verif Require Import Base BaseFacts GoStr HexFacts Prims Hash HashFacts Secp SecpPrime Fp ECGroup SpecEC SecpGroup SecpOrder SecpFacts Base58 Base58Facts SpecBip32 SpecPath Bip32Path Bip32Reg Bip32 Bip32RegFacts Bip32KeyFacts Bip32Facts Bip32Facts2 Claims32 QuadRec GoBig GoBigFacts.
From Coq Require Import Znumtheory Zpow_facts Lia ZifyBool.
From Coq Require Import ZifyBool ZifyNat ZifyN.

(** x is a square modulo p; bip32/utils.go:119 *)
Definition issq (p x : Z) : Prop := exists z, (z * z) mod p = x mod p.

Lemma C96_legendre_l : forall p x, prime p -> p mod 4 = 3 -> exists j, Jacobi x p = Ret j /\
  (j = 0 <-> x mod p = 0) /\ (j = 1 <-> x mod p <> 0 /\ issq p x) /\ (j = -1 <-> ~ issq p x).
Proof.
intros p x Pp P4. destruct (Jacobi_legendre p Pp P4 x) as (j & E & A & B & C). exists j. split; [exact E|]. split; [exact A|]. split; [exact B|].
rewrite C. unfold issq. split; [intros H (z & Z); exact (H z Z)|intros H z Z; apply H; eauto].
Qed.

Lemma C96_jacobi_l : forall x y, 0 < y -> y mod 2 = 1 -> exists j, Jacobi x y = Ret j /\ (j = 0 \/ j = 1 \/ j = -1) /\ (j = 0 <-> Z.gcd x y <> 1) /\
  Jacobi (x mod y) y = Ret j /\ (Z.gcd x y = 1 -> issq y x -> j = 1).
Proof.
intros x y Hy Oy. exists (symbol y x). rewrite !Jacobi_spec, symbol_mod by assumption. split; [reflexivity|]. unfold symbol.
destruct (Z.eqb_spec (Z.gcd x y) 1) as [G|G].
- destruct (chi_one y x) as [C|C]; rewrite C; (split; [auto|]; split; [split; [discriminate|contradiction]|]; split; [reflexivity|]; intros _ (z & Z)); [reflexivity|exfalso].
  assert (Gz : Z.gcd z y = 1). { apply Zgcd_1_rel_prime. apply Zgcd_1_rel_prime in G. apply rel_prime_sym in G. apply rel_prime_sym. apply Zgcd_1_rel_prime.
    assert (Gm : Z.gcd y (z * z) = 1) by (rewrite <- Z.gcd_mod, Z, Z.gcd_mod by lia; apply Zgcd_1_rel_prime; exact G).
    apply Z.gcd_unique; [lia|apply Z.divide_1_l|apply Z.divide_1_l|]. intros q Qy Qz. rewrite <- Gm. apply Z.gcd_greatest; [exact Qy|]. apply Z.divide_mul_l, Qz. }
  rewrite <- (chi_mod y Hy _ _ Z), chi_mul in C by assumption. destruct (chi_one y z) as [D|D]; rewrite D in C; discriminate.
- split; [auto|]. split; [tauto|]. split; [reflexivity|]. contradiction.
Qed.

Lemma C96_multiplicative_l : forall a b y, 0 < y -> y mod 2 = 1 -> exists j k, Jacobi a y = Ret j /\ Jacobi b y = Ret k /\ Jacobi (a * b) y = Ret (j * k).
Proof.
intros a b y Hy Oy. exists (symbol y a), (symbol y b). rewrite !Jacobi_spec by assumption. split; [reflexivity|]. split; [reflexivity|]. f_equal. unfold symbol.
assert (D : forall u v, Z.gcd u y <> 1 -> Z.gcd (u * v) y <> 1).
{ intros u v N C. apply N. apply Z.gcd_unique; [lia|apply Z.divide_1_l|apply Z.divide_1_l|]. intros q Qu Qy. rewrite <- C. apply Z.gcd_greatest; [apply Z.divide_mul_l, Qu|exact Qy]. }
destruct (Z.eqb_spec (Z.gcd a y) 1) as [Ga|Ga].
- destruct (Z.eqb_spec (Z.gcd b y) 1) as [Gb|Gb].
  + assert (G : Z.gcd (a * b) y = 1) by (apply Zgcd_1_rel_prime, rel_prime_sym, rel_prime_mult; apply rel_prime_sym, Zgcd_1_rel_prime; assumption).
    rewrite G. cbn [Z.eqb Pos.eqb]. apply chi_mul; assumption.
  + destruct (Z.eqb_spec (Z.gcd (a * b) y) 1) as [C|_]; [|ring]. rewrite Z.mul_comm in C. destruct (D b a Gb C).
- destruct (Z.eqb_spec (Z.gcd (a * b) y) 1) as [C|_]; [destruct (D a b Ga C)|reflexivity].
Qed.

Lemma C96_reciprocity_l : forall a b, 0 < a -> 0 < b -> a mod 2 = 1 -> b mod 2 = 1 -> Z.gcd a b = 1 -> exists j k, Jacobi a b = Ret j /\ Jacobi b a = Ret k /\
  j * k = if (a mod 4 =? 3) && (b mod 4 =? 3) then -1 else 1.
Proof.
intros a b Ha Hb Oa Ob G. exists (symbol b a), (symbol a b). rewrite !Jacobi_spec by assumption. split; [reflexivity|]. split; [reflexivity|].
unfold symbol. rewrite (Z.gcd_comm b a), G. cbn [Z.eqb Pos.eqb]. rewrite (reciprocity b a), par_half by assumption. rewrite andb_comm.
destruct (chi_one a b) as [-> | ->]; destruct ((a mod 4 =? 3) && (b mod 4 =? 3)); reflexivity.
Qed.

Lemma C96_even_l : forall x y, y mod 2 = 0 -> Jacobi x y = Panic.
Proof.
exact Jacobi_even.
Qed.

Lemma C96_negative_l : forall x y, y < 0 -> y mod 2 = 1 -> exists j, Jacobi x (- y) = Ret j /\ Jacobi x y = Ret (if x <? 0 then - j else j).
Proof.
intros x y Hy Oy. assert (O : (- y) mod 2 = 1) by (rewrite Z_mod_nz_opp_full by lia; rewrite Oy; reflexivity). exists (symbol (- y) x). split; [apply Jacobi_spec; [lia|exact O]|].
unfold Jacobi. rewrite land1. replace (Z.abs y) with (- y) by lia. replace (y =? 0) with false by lia. rewrite O. replace (y <? 0) with true by lia. cbn [Z.eqb Pos.eqb orb andb].
rewrite (loop_spec (Z.to_nat (Z.log2 (- y) + 1))); [destruct (x <? 0); f_equal; ring|lia|exact O| |pose proof (Z.log2_nonneg (- y)); lia].
pose proof (Z.log2_nonneg (- y)). rewrite Z2Nat.id by lia. rewrite Z.add_1_r. apply Z.log2_spec. lia.
Qed.

Lemma C96_negative_sat_l : Jacobi 0 (-1) = Ret 1 /\ Jacobi (-2) (-3) = Ret (-1) /\ Jacobi 2 (-3) = Ret (-1).
Proof.
repeat split.
Qed.

Lemma C96_root_l : forall p x, prime p -> p mod 4 = 3 ->
  (BigModSqrt x p = Ret None /\ ~ issq p x) \/
  exists z, BigModSqrt x p = Ret (Some z) /\ 0 <= z < p /\ (z * z) mod p = x mod p /\ issq p z /\
    forall w, 0 <= w < p -> (w * w) mod p = x mod p -> issq p w -> w = z.
Proof.
intros p x Pp P4. pose proof (p_pos p Pp P4) as Hp. pose proof (p_odd p P4) as Op. rewrite (BigModSqrt_spec p Pp P4).
assert (U : forall z w, 0 <= z < p -> 0 <= w < p -> (z * z) mod p = x mod p -> (w * w) mod p = x mod p -> issq p z -> issq p w -> w = z).
{ intros z w Bz Bw Ez Ew (u & Su) (v & Sv). rewrite <- Ez in Ew. assert (D : ((w - z) * (w + z)) mod p = 0).
  { replace ((w - z) * (w + z)) with (w * w - z * z) by ring. rewrite Zminus_mod, Ew, Z.sub_diag. apply Z.mod_0_l. lia. }
  apply Z.mod_divide in D; [|lia]. apply (prime_mult p Pp) in D as [D|D]; destruct D as [q D].
  - assert (q = 0) by (revert D Bz Bw Hp; clear; intros; nia). subst q. clear - D. lia.
  - assert (Q : q = 0 \/ q = 1) by (revert D Bz Bw Hp; clear; intros; assert (-1 < q) by nia; assert (q < 2) by nia; lia). destruct Q as [-> | ->]; [clear - D Bz Bw; lia|].
    assert (Nz : z mod p <> 0) by (rewrite Z.mod_small by assumption; intros ->; clear - D Bz Bw; lia).
    assert (Nw : w mod p <> 0) by (rewrite Z.mod_small by assumption; intros ->; clear - D Bz Bw; lia).
    pose proof (square_chi p Pp P4 z u Nz Su) as Cz. pose proof (square_chi p Pp P4 w v Nw Sv) as Cw.
    pose proof (gauss p z Pp Op Nz) as Gz. pose proof (gauss p w Pp Op Nw) as Gw. rewrite Cz in Gz. rewrite Cw in Gw.
    assert (W : w mod p = (-1 * z) mod p) by (replace w with (-1 * z + 1 * p) by (clear - D; lia); apply Z_mod_plus_full).
    rewrite Zpower_mod, W, <- Zpower_mod, Z.pow_mul_l in Gw by (clear - Hp; lia).
    rewrite (minus_one p Pp P4), Z.mul_mod, Gz, <- Z.mul_mod in Gw by (clear - Hp; lia). rewrite Z.mul_1_r in Gw.
    assert (E2 : 2 mod p = 0). { change 2 with (1 - -1). rewrite Zminus_mod, Gw, Z.sub_diag. apply Z.mod_0_l. clear - Hp; lia. }
    rewrite Z.mod_small in E2 by (clear - Hp; lia). discriminate. }
destruct (Z.eqb_spec ((x ^ ((p + 1) / 4) * x ^ ((p + 1) / 4)) mod p) (x mod p)) as [E|E].
- right. exists (x ^ ((p + 1) / 4) mod p). split; [reflexivity|]. split; [apply Z.mod_pos_bound; lia|].
  assert (Sq : (x ^ ((p + 1) / 4) mod p * (x ^ ((p + 1) / 4) mod p)) mod p = x mod p) by (rewrite <- Z.mul_mod by lia; exact E). split; [exact Sq|].
  assert (Q : 0 <= (p + 1) / 4) by (apply Z.div_pos; lia).
  assert (I : issq p (x ^ ((p + 1) / 4) mod p)).
  { exists ((x ^ ((p + 1) / 4)) ^ ((p + 1) / 4)). rewrite Z.mod_mod by lia. rewrite <- Z.pow_mul_l. rewrite Zpower_mod, E, <- Zpower_mod by lia. reflexivity. }
  split; [exact I|]. intros w Bw Ew Iw. apply U; [apply Z.mod_pos_bound; lia|exact Bw|exact Sq|exact Ew|exact I|exact Iw].
- left. split; [reflexivity|]. intros (z & Z). apply E. destruct (Z.eq_dec (x mod p) 0) as [N|N].
  + rewrite N, Z.mul_mod, Zpower_mod, N by lia. rewrite Z.pow_0_l by (apply Z.div_str_pos; pose proof (Z.div_mod p 4 ltac:(lia)); lia). reflexivity.
  + rewrite (root_sq p Pp P4 x N). rewrite (square_chi p Pp P4 x z N Z), Z.mul_1_l. reflexivity.
Qed.

Lemma C96_model_l : forall a, BigModSqrt a secp_p = Ret (ModSqrt a).
Proof.
exact BigModSqrt_ModSqrt.
Qed.

Lemma C96_curve_l : forall x, exists r, BigModSqrt (x ^ 3 + secp_b) secp_p = Ret r /\ (r = None <-> forall y, ~ oncurve (PAff (toF x) y)) /\
  (forall y, r = Some y -> 0 <= y < secp_p /\ oncurve (PAff (toF x) (toF y))).
Proof.
intros x. exists (ModSqrt (x ^ 3 + secp_b)). split; [apply BigModSqrt_ModSqrt|].
assert (S : forall y, ModSqrt (x ^ 3 + secp_b) = Some y -> 0 <= y < secp_p /\ oncurve (PAff (toF x) (toF y))).
{ intros y E. apply ModSqrt_sound in E as [B E]. split; [exact B|]. unfold oncurve, on. rewrite E. unfold Fb. rewrite <- !toF_mul, <- toF_add. f_equal. ring. }
split; [|exact S]. destruct (curve_dec x) as [(y & HO)|[-> HN]]; [|tauto]. split.
- intros E. exfalso. destruct (curve_sq _ _ HO). destruct (ModSqrt_square y) as (z & Sz & _). pose proof (curve_sq _ _ HO) as Q. rewrite <- Q, fv_toF, cube_mod, ModSqrt_mod in Sz. congruence.
- intros HN. destruct (HN y HO).
Qed.

Lemma C96_ex_l : BigModSqrt 2 7 = Ret (Some 4) /\ BigModSqrt 3 7 = Ret None /\ BigModSqrt 14 7 = Ret (Some 0) /\ BigModSqrt (-5) 7 = Ret (Some 4) /\ prime 7.
Proof.
do 4 (split; [vm_compute; reflexivity|]). apply prime_alt. split; [lia|]. intros q Hq. assert (E : q = 2 \/ q = 3 \/ q = 4 \/ q = 5 \/ q = 6) by lia. rewrite <- Z.mod_divide by lia. destruct E as [->|[->|[->|[->| ->]]]]; discriminate.
Qed.
