(** GoBigFacts.v - the symbol that math/big computes is the one of QuadRec.v, and its square root is the model's. *)
From Verif Require Import Base BaseFacts Secp SecpPrime Fp SecpFacts QuadRec GoBig.
From Coq Require Import Znumtheory Zpow_facts Lia ZifyBool.

Lemma land1 z : Z.land z 1 = z mod 2. Proof. exact (Z.land_ones z 1 ltac:(lia)). Qed.
Lemma land3 z : Z.land z 3 = z mod 4. Proof. exact (Z.land_ones z 2 ltac:(lia)). Qed.
Lemma land7 z : Z.land z 7 = z mod 8. Proof. exact (Z.land_ones z 3 ltac:(lia)). Qed.
Lemma tzb_spec p : 0 <= tzb p /\ exists c, Zpos p = 2 ^ tzb p * c /\ 0 < c /\ c mod 2 = 1.
Proof.
  induction p as [p _|p [N (c & E & Hc & O)]|]; cbn [tzb].
  - split; [lia|]. exists (Zpos p~1). split; [lia|]. split; [lia|]. rewrite Pos2Z.inj_xI, Z.add_comm, Z.mul_comm. apply Z_mod_plus_full.
  - split; [lia|]. exists c. split; [|split; assumption]. rewrite Z.pow_add_r by lia. rewrite Pos2Z.inj_xO, E. ring.
  - split; [lia|]. exists 1. repeat split; lia.
Qed.
Lemma tz_spec a : 0 < a -> 0 <= trailingZeroBits a /\ a = 2 ^ trailingZeroBits a * Z.shiftr a (trailingZeroBits a) /\ 0 < Z.shiftr a (trailingZeroBits a) /\ Z.shiftr a (trailingZeroBits a) mod 2 = 1.
Proof.
  intros Ha. unfold trailingZeroBits. destruct a as [|p|p]; try lia. cbn [Z.abs]. destruct (tzb_spec p) as (N & c & E & Hc & O).
  assert (S : Z.shiftr (Zpos p) (tzb p) = c). { rewrite Z.shiftr_div_pow2, E by exact N. rewrite Z.mul_comm. apply Z.div_mul. pose proof (Z.pow_pos_nonneg 2 (tzb p)). lia. }
  rewrite S. repeat split; assumption.
Qed.

(** the symbol: [chi] with 0 when the numbers are not coprime *)
(** In proofs; for bip32/utils.go:119. *)
Definition symbol (n a : Z) : Z := if Z.gcd a n =? 1 then chi n a else 0.
Lemma par_half b c : b mod 2 = 1 -> c mod 2 = 1 -> par (half b * half c) = if (b mod 4 =? 3) && (c mod 4 =? 3) then -1 else 1.
Proof.
  intros Ob Oc. unfold par.
  assert (H : forall z, z mod 2 = 1 -> half z mod 2 = if z mod 4 =? 3 then 1 else 0).
  { clear. intros z O. pose proof (half_eq z O) as E. pose proof (Z.div_mod z 4 ltac:(lia)) as D. pose proof (Z.mod_pos_bound z 4 ltac:(lia)) as B.
    assert (R : z mod 4 = 1 \/ z mod 4 = 3) by (pose proof (Z.div_mod z 2 ltac:(lia)); lia).
    destruct R as [R|R]; rewrite R in *.
    - replace (half z) with (0 + (z / 4) * 2) by lia. rewrite Z_mod_plus_full. reflexivity.
    - replace (half z) with (1 + (z / 4) * 2) by lia. rewrite Z_mod_plus_full. reflexivity. }
  rewrite Z.mul_mod, !H by (try assumption; lia). destruct (b mod 4 =? 3), (c mod 4 =? 3); reflexivity.
Qed.
Lemma gcd_odd_pow b s c : 0 <= s -> b mod 2 = 1 -> Z.gcd (2 ^ s * c) b = Z.gcd c b.
Proof.
  intros Hs Ob. rewrite Z.gcd_comm, (Z.gcd_comm c). apply Z.gcd_unique; [apply Z.gcd_nonneg|apply Z.gcd_divide_l|apply Z.divide_mul_r, Z.gcd_divide_r|].
  intros q Qb Qc. apply Z.gcd_greatest; [exact Qb|]. apply (Gauss q (2 ^ s) c Qc). apply rel_prime_Zpower_r; [exact Hs|].
  apply rel_prime_sym. apply prime_rel_prime; [exact prime_2|]. intros D. assert (D2 : (2 | b)) by (eapply Z.divide_trans; eassumption).
  apply Z.mod_divide in D2; lia.
Qed.
Lemma gcd_two b : b mod 2 = 1 -> Z.gcd 2 b = 1.
Proof. intros O. rewrite <- (Z.mul_1_r 2). change (2 * 1) with (2 ^ 1 * 1). rewrite gcd_odd_pow by (lia || exact O). apply Z.gcd_1_l. Qed.
Lemma symbol_step b a : 1 < b -> b mod 2 = 1 -> 0 < a ->
  let s := trailingZeroBits a in let c := Z.shiftr a s in
  symbol b a = (if negb (s mod 2 =? 0) && ((b mod 8 =? 3) || (b mod 8 =? 5)) then -1 else 1) * (if (b mod 4 =? 3) && (c mod 4 =? 3) then -1 else 1) * symbol c b.
Proof.
  intros Hb Ob Ha s c. destruct (tz_spec a Ha) as (Hs & E & Hc & Oc). fold s in Hs, E, Hc, Oc. fold c in E, Hc, Oc. unfold symbol.
  assert (G : Z.gcd a b = Z.gcd c b) by (rewrite E; apply gcd_odd_pow; assumption).
  rewrite G, (Z.gcd_comm b c). destruct (Z.eqb_spec (Z.gcd c b) 1) as [C|C]; [|ring].
  assert (G2 : Z.gcd (2 ^ s) b = 1) by (rewrite <- (Z.mul_1_r (2 ^ s)), gcd_odd_pow by assumption; apply Z.gcd_1_l).
  rewrite E at 1. rewrite chi_mul by (assumption || lia). rewrite chi_pow by (try assumption; try lia; apply gcd_two, Ob).
  rewrite (reciprocity b c) by (assumption || lia). rewrite par_half by assumption. rewrite Z.mul_assoc. f_equal. f_equal.
  rewrite chi_2 by (assumption || lia). destruct ((b mod 8 =? 3) || (b mod 8 =? 5)).
  - rewrite andb_true_r. pose proof (Z.div_mod s 2 ltac:(lia)) as D. destruct (mod2 s) as [M|M]; rewrite M in *; cbn [Z.eqb negb].
    + rewrite D, Z.add_0_r, Z.pow_mul_r by lia. change ((-1) ^ 2) with 1. apply Z.pow_1_l. lia.
    + rewrite D, Z.pow_add_r, Z.pow_mul_r by lia. change ((-1) ^ 2) with 1. rewrite Z.pow_1_l by lia. reflexivity.
  - rewrite andb_false_r. apply Z.pow_1_l. exact Hs.
Qed.
Lemma symbol_mod b a : 0 < b -> b mod 2 = 1 -> symbol b (a mod b) = symbol b a.
Proof.
  intros Hb Ob. unfold symbol. rewrite Z.gcd_mod, (Z.gcd_comm b a) by lia. destruct (_ =? 1); [|reflexivity]. apply chi_mod; [exact Hb|]. apply Z.mod_mod. lia.
Qed.
Lemma symbol_1 a : symbol 1 a = 1. Proof. unfold symbol. rewrite Z.gcd_1_r. reflexivity. Qed.
Lemma symbol_0 b : 1 < b -> symbol b 0 = 0.
Proof. intros Hb. unfold symbol. rewrite Z.gcd_0_l, Z.abs_eq by lia. destruct (Z.eqb_spec b 1); [lia|reflexivity]. Qed.
Lemma loop_step f a b j : 0 < b -> b mod 2 = 1 ->
  jacobi_loop (S f) a b j = Ret (j * symbol b a) \/
  exists c j', 0 < c /\ c mod 2 = 1 /\ c <= a mod b /\ jacobi_loop (S f) a b j = jacobi_loop f b c j' /\ j * symbol b a = j' * symbol c b.
Proof.
  intros Hb Ob. cbn [jacobi_loop]. destruct (Z.eqb_spec b 1) as [->|N1]; [left; rewrite symbol_1, Z.mul_1_r; reflexivity|].
  destruct (Z.eqb_spec a 0) as [->|Na]; [left; rewrite symbol_0 by lia; rewrite Z.mul_0_r; reflexivity|]. cbv zeta.
  rewrite <- (symbol_mod b a) by assumption. pose proof (Z.mod_pos_bound a b Hb) as B. destruct (Z.eqb_spec (a mod b) 0) as [E|E]; [left; rewrite E, symbol_0 by lia; rewrite Z.mul_0_r; reflexivity|].
  set (r := a mod b) in *. clearbody r. assert (Hr : 0 < r) by lia. destruct (tz_spec r Hr) as (Hs & Er & Hc & Oc). pose proof (symbol_step b r ltac:(lia) Ob Hr) as S. cbv zeta in S.
  right. exists (Z.shiftr r (trailingZeroBits r)). rewrite !land1, !land3, !land7.
  eexists. split; [exact Hc|]. split; [exact Oc|]. split; [|split; [reflexivity|]].
  - pose proof (Z.pow_pos_nonneg 2 (trailingZeroBits r) ltac:(lia) Hs) as PP. revert Er Hc PP. clear. generalize (Z.shiftr r (trailingZeroBits r)) (2 ^ trailingZeroBits r). intros; nia.
  - rewrite S. destruct (trailingZeroBits r mod 2 =? 0), ((b mod 8 =? 3) || (b mod 8 =? 5)), ((b mod 4 =? 3) && (Z.shiftr r (trailingZeroBits r) mod 4 =? 3)); cbn [negb andb]; ring.
Qed.
(** Two rounds halve the denominator. *)
Lemma loop_spec k : forall f a b j, 0 < b -> b mod 2 = 1 -> b < 2 ^ Z.of_nat k -> (2 * k <= f)%nat -> jacobi_loop f a b j = Ret (j * symbol b a).
Proof.
  induction k as [|k IH]; intros f a b j Hb Ob B F; [cbn in B; lia|]. destruct f as [|[|f]]; [lia|lia|].
  destruct (loop_step (S f) a b j Hb Ob) as [D|(c & j1 & Hc & Oc & Lc & -> & ->)]; [exact D|].
  destruct (loop_step f b c j1 Hc Oc) as [D|(d & j2 & Hd & Od & Ld & -> & ->)]; [exact D|].
  apply IH; [exact Hd|exact Od| |lia]. pose proof (Z.mod_pos_bound a b Hb) as Ba. pose proof (Z.mod_pos_bound b c Hc) as Bb. pose proof (Z.div_mod b c ltac:(lia)) as Db.
  assert (1 <= b / c) by (apply Z.div_le_lower_bound; lia). rewrite Nat2Z.inj_succ, Z.pow_succ_r in B by lia. revert B Ld Lc Ba Bb Db H Hc. clear. intros. assert (c <= c * (b / c)) by nia. lia.
Qed.
Theorem Jacobi_spec x y : 0 < y -> y mod 2 = 1 -> Jacobi x y = Ret (symbol y x).
Proof.
  intros Hy Oy. unfold Jacobi. rewrite land1, Z.abs_eq by lia. destruct (Z.eqb_spec y 0); [lia|]. rewrite Oy. cbn [Z.eqb orb]. destruct (Z.ltb_spec y 0); [lia|]. cbn [andb].
  rewrite (loop_spec (Z.to_nat (Z.log2 y + 1))); [rewrite Z.mul_1_l; reflexivity|exact Hy|exact Oy| |pose proof (Z.log2_nonneg y); lia].
  pose proof (Z.log2_nonneg y). rewrite Z2Nat.id by lia. rewrite Z.add_1_r. apply Z.log2_spec. exact Hy.
Qed.
Theorem Jacobi_even x y : y mod 2 = 0 -> Jacobi x y = Panic.
Proof.
  intros E. unfold Jacobi. rewrite land1. assert (A : Z.abs y mod 2 = 0). { destruct (Z.abs_eq_or_opp y) as [-> | ->]; [exact E|]. apply Z_mod_zero_opp_full. exact E. }
  rewrite A, orb_true_r. reflexivity.
Qed.
(** Modulo a prime that is 3 mod 4 the power (p+1)/4 is the root or shows that there is none. *)
Section P34.
Variable p : Z.
Hypothesis Pp : prime p.
Hypothesis P4 : p mod 4 = 3.
Lemma p_pos : 2 < p. Proof. pose proof (prime_ge_2 p Pp). assert (p <> 2) by (intros ->; discriminate P4). lia. Qed.
Lemma p_odd : p mod 2 = 1. Proof. pose proof (Z.div_mod p 4 ltac:(lia)). replace p with (1 + (2 * (p / 4) + 1) * 2) by lia. apply Z_mod_plus_full. Qed.
Lemma p_symbol x : symbol p x = if x mod p =? 0 then 0 else chi p x.
Proof.
  pose proof p_pos. unfold symbol. destruct (Z.eqb_spec (x mod p) 0) as [E|E].
  - destruct (Z.eqb_spec (Z.gcd x p) 1) as [G|G]; [exfalso|reflexivity]. assert (D : (p | 1)) by (rewrite <- G; apply Z.gcd_greatest; [apply Z.mod_divide; [lia|exact E]|apply Z.divide_refl]).
    apply Z.divide_1_r_nonneg in D; lia.
  - assert (G : Z.gcd x p = 1). { apply Zgcd_1_rel_prime, rel_prime_sym, prime_rel_prime; [exact Pp|]. intros D. apply E. apply Z.mod_divide; [lia|exact D]. }
    rewrite G. reflexivity.
Qed.
Lemma root_sq x : x mod p <> 0 -> (x ^ ((p + 1) / 4) * x ^ ((p + 1) / 4)) mod p = (chi p x * x) mod p.
Proof.
  intros N. pose proof p_pos. pose proof (Z.div_mod p 4 ltac:(lia)) as D. rewrite P4 in D. pose proof (half_eq p p_odd) as HE.
  assert (Q : (p + 1) / 4 = p / 4 + 1) by (symmetry; apply (Z.div_unique (p + 1) 4 (p / 4 + 1) 0); lia).
  assert (0 <= p / 4) by (apply Z.div_pos; lia). rewrite <- Z.pow_add_r by lia. replace ((p + 1) / 4 + (p + 1) / 4) with (half p + 1) by lia.
  rewrite Z.pow_add_r, Z.pow_1_r by (pose proof (half_nonneg p ltac:(lia) p_odd); lia). rewrite Z.mul_mod, gauss, <- Z.mul_mod by (try assumption; try exact p_odd; lia). reflexivity.
Qed.
Lemma minus_one : (-1) ^ half p = -1.
Proof.
  pose proof p_pos. pose proof (half_eq p p_odd) as HE. pose proof (Z.div_mod p 4 ltac:(lia)) as D4. rewrite P4 in D4. assert (0 <= p / 4) by (apply Z.div_pos; lia).
  replace (half p) with (2 * (p / 4) + 1) by lia. rewrite Z.pow_add_r, Z.pow_mul_r by lia. change ((-1) ^ 2) with 1. rewrite Z.pow_1_l by lia. reflexivity.
Qed.
Lemma square_chi x z : x mod p <> 0 -> (z * z) mod p = x mod p -> chi p x = 1.
Proof.
  intros N E. pose proof p_pos. assert (G : Z.gcd z p = 1).
  { apply Zgcd_1_rel_prime, rel_prime_sym, prime_rel_prime; [exact Pp|]. intros D. apply N. rewrite <- E. apply Z.mod_divide; [lia|]. apply Z.divide_mul_l, D. }
  rewrite <- (chi_mod p ltac:(lia) (z * z) x E). rewrite chi_mul by (try assumption; try exact p_odd; lia). destruct (chi_one p z) as [-> | ->]; reflexivity.
Qed.
Lemma chi_square x : x mod p <> 0 -> chi p x = 1 <-> exists z, (z * z) mod p = x mod p.
Proof.
  intros N. split; [|intros (z & E); exact (square_chi x z N E)]. intros C. exists (x ^ ((p + 1) / 4)). rewrite root_sq, C, Z.mul_1_l by exact N. reflexivity.
Qed.
(** The symbol computed by math/big is Legendre's. *)
Theorem Jacobi_legendre x : exists j, Jacobi x p = Ret j /\ (j = 0 <-> x mod p = 0) /\ (j = 1 <-> x mod p <> 0 /\ exists z, (z * z) mod p = x mod p) /\ (j = -1 <-> forall z, (z * z) mod p <> x mod p).
Proof.
  pose proof p_pos. exists (symbol p x). split; [apply Jacobi_spec; [lia|exact p_odd]|]. rewrite p_symbol. destruct (Z.eqb_spec (x mod p) 0) as [E|E].
  - split; [tauto|]. split; [split; [discriminate|intros [C _]; contradiction]|]. split; [discriminate|]. intros C. exfalso. apply (C 0). rewrite E. reflexivity.
  - pose proof (chi_square x E) as CS. destruct (chi_one p x) as [C|C]; rewrite C in *.
    + split; [split; [discriminate|contradiction]|]. split; [tauto|]. split; [discriminate|]. intros A. destruct (proj1 CS eq_refl) as (z & Z). destruct (A z Z).
    + split; [split; [discriminate|contradiction]|]. split; [split; [discriminate|intros [_ (z & Z)]; apply CS; eauto]|]. split; [|reflexivity]. intros _ z Z. assert (-1 = 1) by (apply CS; eauto). discriminate.
Qed.
Theorem BigModSqrt_spec x : BigModSqrt x p = Ret (if (x ^ ((p + 1) / 4) * x ^ ((p + 1) / 4)) mod p =? x mod p then Some (x ^ ((p + 1) / 4) mod p) else None).
Proof.
  pose proof p_pos. unfold BigModSqrt. rewrite Jacobi_spec by (try exact p_odd; lia). cbn iota beta. rewrite p_symbol, land3, P4. cbn [Z.eqb Pos.eqb].
  assert (Q : 0 < (p + 1) / 4) by (apply Z.div_str_pos; pose proof p_pos; pose proof (Z.div_mod p 4 ltac:(lia)); lia).
  destruct (Z.eqb_spec (x mod p) 0) as [E|E].
  - cbn [Z.eqb Pos.eqb]. assert (Z0 : x ^ ((p + 1) / 4) mod p = 0) by (rewrite Zpower_mod, E, Z.pow_0_l by lia; apply Z.mod_0_l; lia).
    rewrite Z.mul_mod, Z0, E by lia. rewrite Z.mod_0_l by lia. reflexivity.
  - rewrite root_sq by exact E. destruct (chi_one p x) as [C|C]; rewrite C; cbn [Z.eqb Pos.eqb].
    + rewrite Z.mul_1_l, Z.eqb_refl. unfold modSqrt3Mod4Prime. rewrite Z.shiftr_div_pow2 by lia. change (2 ^ 2) with 4. do 2 f_equal.
      destruct ((x <? 0) || (p <=? x)); [|reflexivity]. symmetry. apply Zpower_mod. lia.
    + destruct (Z.eqb_spec ((-1 * x) mod p) (x mod p)) as [D|D]; [exfalso|reflexivity]. apply E.
      assert (D2 : (2 * x) mod p = 0). { replace (2 * x) with (x - -1 * x) by ring. rewrite Zminus_mod, D, Z.sub_diag. apply Z.mod_0_l. lia. }
      apply (prime_rel p ltac:(lia) 2 x); [apply gcd_two, p_odd|exact D2].
Qed.
End P34.
(** The model's square root is math/big's. *)
Theorem BigModSqrt_ModSqrt a : BigModSqrt a secp_p = Ret (ModSqrt a).
Proof.
  rewrite (BigModSqrt_spec secp_p secp_p_prime eq_refl). unfold ModSqrt. cbv zeta.
  rewrite fpow_pos_spec, Z2Pos.id by reflexivity. rewrite !fred_mod, <- Zpower_mod by apply secp_p_pos.
  generalize (a ^ ((secp_p + 1) / 4)). intros r. unfold fmul. rewrite fred_mod, <- Z.mul_mod by apply secp_p_nz. reflexivity.
Qed.
