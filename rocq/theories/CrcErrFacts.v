(** CrcErrFacts.v - which changes of a text the checksum of the word lists notices: bursts of up to 32 bits at any bit, and any
    two bits less than 2^32 - 1 apart. *)
From Coq Require Import ZifyBool ZifyNat Znumtheory.
From Verif Require Import Base BaseFacts Hash Bip39InitFacts GoCrcFacts SpecCodec SpecCodecFacts.

Lemma le_val_bit m : forall i, 0 <= i -> Z.testbit (le_val m) i = bit_of m i.
Proof.
  unfold bit_of. induction m as [|c m IH]; intros i Hi.
  - cbn [le_val]. rewrite Z.bits_0. replace (nth (Z.to_nat (i / 8)) [] x00) with x00 by (destruct (Z.to_nat (i / 8)); reflexivity).
    change (Zb x00) with 0. rewrite Z.bits_0. reflexivity.
  - cbn [le_val]. rewrite Z.lxor_spec. replace (2 ^ 8 * le_val m) with (le_val m * 2 ^ 8) by lia. destruct (Z_lt_ge_dec i 8) as [L|L].
    + rewrite Z.mul_pow2_bits_low by lia. rewrite Bool.xorb_false_r. rewrite Z.div_small, Z.mod_small by lia. reflexivity.
    + rewrite Z.mul_pow2_bits by lia. rewrite (high_bit (Zb c) 8) by (lia || apply Zb_range). rewrite Bool.xorb_false_l. rewrite IH by lia.
      replace i with (i - 8 + 1 * 8) at 3 4 by lia. rewrite Z.div_add, Z.mod_add by lia.
      replace (Z.to_nat ((i - 8) / 8 + 1)) with (S (Z.to_nat ((i - 8) / 8))) by lia. reflexivity.
Qed.
Lemma crc32_eq_iff m m' : length m = length m' -> crc32 m = crc32 m' <-> crc_bits (8 * length m) (Z.lxor (le_val m) (le_val m')) = 0.
Proof.
  intros L. change (crc32 m) with (Z.lxor (crc_run M32 m) M32). change (crc32 m') with (Z.lxor (crc_run M32 m') M32).
  rewrite !crc_run_val, <- L. rewrite !crc_bits_lxor. generalize (crc_bits (8 * length m) M32) (crc_bits (8 * length m) (le_val m)) (crc_bits (8 * length m) (le_val m')).
  intros a b c. split.
  - intros E. rewrite !(Z.lxor_comm _ M32) in E. apply lxor_cancel in E. apply lxor_cancel in E. subst c. apply Z.lxor_nilpotent.
  - intros E. apply Z.lxor_eq in E. subst c. reflexivity.
Qed.
Lemma crc_pow N j F : (j <= N)%nat -> crc_bits N (F * 2 ^ Z.of_nat j) = crc_bits (N - j) F.
Proof.
  intros L. replace N with (j + (N - j))%nat at 1 by lia. rewrite crc_bits_add. f_equal.
  pose proof (crc_bits_high j 0 F) as E. rewrite Z.lxor_0_l, crc_bits_0, Z.lxor_0_l in E. rewrite Z.mul_comm. exact E.
Qed.
Lemma crc_zero n c : 0 <= c < 2 ^ 32 -> crc_bits n c = 0 -> c = 0.
Proof. intros Hc E. apply (crc_bits_inj n); [exact Hc|lia|]. rewrite crc_bits_0. exact E. Qed.
Lemma le_pow m : 0 <= le_val m < 2 ^ Z.of_nat (8 * length m).
Proof.
  pose proof (le_val_nonneg m). pose proof (le_val_lt m) as L. change 256 with (2 ^ 8) in L. rewrite <- Z.pow_mul_r in L by lia.
  replace (Z.of_nat (8 * length m)) with (8 * Z.of_nat (length m)) by lia. lia.
Qed.
Theorem burst_noticed m m' j : length m = length m' -> m <> m' -> 0 <= j ->
  (forall i, 0 <= i < j \/ j + 32 <= i -> bit_of m i = bit_of m' i) -> crc32 m <> crc32 m'.
Proof.
  intros L N Hj Hb E. apply (crc32_eq_iff m m' L) in E. set (D := Z.lxor (le_val m) (le_val m')) in *.
  pose proof (le_pow m) as Rm. pose proof (le_pow m') as Rm'. rewrite <- L in Rm'.
  assert (RD : 0 <= D < 2 ^ Z.of_nat (8 * length m)) by (apply lxor_lt; lia).
  assert (ND : D <> 0). { intros E0. apply N. apply le_val_inj; [exact L|]. apply Z.lxor_eq. exact E0. }
  assert (BD : forall i, 0 <= i -> i < j \/ j + 32 <= i -> Z.testbit D i = false).
  { intros i Hi Hc. unfold D. rewrite Z.lxor_spec, !le_val_bit by exact Hi. rewrite Hb by lia. apply Bool.xorb_nilpotent. }
  set (F := Z.shiftr D j).
  assert (ED : D = F * 2 ^ j).
  { unfold F. rewrite <- Z.shiftl_mul_pow2 by exact Hj. apply Z.bits_inj'. intros i Hi. destruct (Z_lt_ge_dec i j) as [Q|Q].
    - rewrite Z.shiftl_spec_low by exact Q. apply BD; lia.
    - rewrite Z.shiftl_spec by exact Hi. rewrite Z.shiftr_spec by lia. f_equal. lia. }
  assert (F0 : 0 <= F) by (apply Z.shiftr_nonneg; lia).
  assert (RF : F < 2 ^ 32).
  { destruct (Z.eq_dec F 0) as [->|NF]; [lia|]. apply Z.log2_lt_pow2; [lia|]. destruct (Z_lt_ge_dec (Z.log2 F) 32) as [Q|Q]; [exact Q|].
    pose proof (Z.bit_log2 F ltac:(lia)) as B. unfold F at 1 in B. rewrite Z.shiftr_spec in B by lia. rewrite BD in B by lia. discriminate B. }
  assert (NF : F <> 0) by (intros E0; rewrite E0 in ED; apply ND; rewrite ED; lia).
  assert (Lj : (Z.to_nat j <= 8 * length m)%nat).
  { destruct (Z_lt_ge_dec j (Z.of_nat (8 * length m))) as [Q|Q]; [lia|].
    assert (2 ^ Z.of_nat (8 * length m) <= 2 ^ j) by (apply Z.pow_le_mono_r; lia). pose proof (Z.pow_pos_nonneg 2 j ltac:(lia) Hj).
    assert (2 ^ j <= F * 2 ^ j) by (rewrite <- (Z.mul_1_l (2 ^ j)) at 1; apply Z.mul_le_mono_nonneg_r; lia). lia. }
  rewrite ED in E. replace (2 ^ j) with (2 ^ Z.of_nat (Z.to_nat j)) in E by (f_equal; lia). rewrite crc_pow in E by exact Lj.
  apply crc_zero in E; [contradiction|lia].
Qed.

(** ** The order of x *)
(** the checksum after [n] zero bits, [n] a number: bip39/wordlists/english.go:14 (others alike) *)
Definition zeros (n : Z) (v : Z) : Z := crc_bits (Z.to_nat n) v.
Lemma zeros_add a b v : 0 <= a -> 0 <= b -> zeros (a + b) v = zeros b (zeros a v).
Proof. intros Ha Hb. unfold zeros. rewrite Z2Nat.inj_add by lia. apply crc_bits_add. Qed.
Lemma zeros_range n v : 0 <= v < 2 ^ 32 -> 0 <= zeros n v < 2 ^ 32. Proof. apply crc_bits_range. Qed.
Lemma zeros_mul a b : 0 <= a -> 0 <= b -> zeros a 1 = 1 -> zeros (a * b) 1 = 1.
Proof.
  intros Ha Hb E. pattern b. apply natlike_ind; [rewrite Z.mul_0_r; reflexivity| |exact Hb].
  intros x Hx IH. rewrite Z.mul_succ_r. rewrite Z.add_comm. rewrite zeros_add by nia. rewrite E. exact IH.
Qed.
(** n a multiple of one period, plus one more, is again a period *)
Lemma zeros_sub a b : 0 <= a -> 0 <= b -> zeros a 1 = 1 -> zeros (a + b) 1 = 1 -> zeros b 1 = 1.
Proof. intros Ha Hb E E2. rewrite zeros_add in E2 by assumption. rewrite E in E2. exact E2. Qed.
Lemma zeros_gcd : forall a, 0 <= a -> forall b, 0 <= b -> zeros a 1 = 1 -> zeros b 1 = 1 -> zeros (Z.gcd a b) 1 = 1.
Proof.
  intros a Ha. pattern a. apply Zlt_0_ind; [|exact Ha]. clear a Ha. intros a IH Ha b Hb Ea Eb.
  destruct (Z.eq_dec a 0) as [->|Na].
  - rewrite Z.gcd_0_l, Z.abs_eq by exact Hb. exact Eb.
  - rewrite <- Z.gcd_mod by exact Na. pose proof (Z.mod_pos_bound b a ltac:(lia)) as R.
    assert (Em : zeros (b mod a) 1 = 1).
    { apply (zeros_sub (a * (b / a))); [apply Z.mul_nonneg_nonneg; [lia|apply Z.div_pos; lia]|lia|apply zeros_mul; [lia|apply Z.div_pos; lia|exact Ea]|].
      rewrite <- Z.div_mod by exact Na. exact Eb. }
    rewrite Z.gcd_comm || idtac. destruct (Z.eq_dec (b mod a) 0) as [E0|E0].
    + rewrite E0. rewrite ?Z.gcd_0_l, ?Z.gcd_0_r, Z.abs_eq by lia. exact Ea.
    + rewrite Z.gcd_comm || idtac. first [apply IH; [lia|lia|assumption|assumption] | rewrite Z.gcd_comm; apply IH; [lia|lia|assumption|assumption]].
Qed.
(** A linear map by the images of the 32 bits, for bip39/wordlists/english.go:14 (others alike). *)
Fixpoint lin (cols : list Z) (v : Z) : Z :=
  match cols with [] => 0 | c :: r => Z.lxor (if Z.odd v then c else 0) (lin r (Z.shiftr v 1)) end.
(** the images after [n] zero bits: bip39/wordlists/english.go:14 (others alike) *)
Definition cols_of (n : Z) (k j : nat) : list Z := map (fun i => zeros n (2 ^ Z.of_nat i)) (seq j k).
Lemma lin_ok n : forall k j v, 0 <= v < 2 ^ Z.of_nat k -> lin (cols_of n k j) v = zeros n (v * 2 ^ Z.of_nat j).
Proof.
  induction k as [|k IH]; intros j v Hv.
  - change (2 ^ Z.of_nat 0) with 1 in Hv. replace v with 0 by lia. cbn. unfold zeros. rewrite crc_bits_0. reflexivity.
  - change (cols_of n (S k) j) with (zeros n (2 ^ Z.of_nat j) :: cols_of n k (S j)). cbn [lin].
    assert (E2 : 2 ^ Z.of_nat (S k) = 2 * 2 ^ Z.of_nat k) by (rewrite Nat2Z.inj_succ; apply Z.pow_succ_r; lia).
    assert (Hs : Z.shiftr v 1 = v / 2) by (rewrite Z.shiftr_div_pow2 by lia; reflexivity).
    rewrite IH by (rewrite Hs; lia). rewrite Nat2Z.inj_succ, Z.pow_succ_r by lia.
    assert (Ev : v * 2 ^ Z.of_nat j = Z.lxor (if Z.odd v then 2 ^ Z.of_nat j else 0) (v / 2 * (2 * 2 ^ Z.of_nat j))).
    { replace (v / 2 * (2 * 2 ^ Z.of_nat j)) with ((v / 2 * 2) * 2 ^ Z.of_nat j) by lia.
      replace (if Z.odd v then 2 ^ Z.of_nat j else 0) with (Z.b2z (Z.odd v) * 2 ^ Z.of_nat j) by (destruct (Z.odd v); cbn [Z.b2z]; lia).
      rewrite <- !Z.shiftl_mul_pow2 by lia. rewrite <- Z.shiftl_lxor. f_equal.
      rewrite Z.lxor_comm. pose proof (Zmod_odd v) as O. pose proof (Z.div_mod v 2 ltac:(lia)) as DM.
      rewrite <- (Z.shiftl_mul_pow2 _ 1) by lia.
      apply Z.bits_inj'. intros i Hi. rewrite Z.lxor_spec. destruct (Z.eq_dec i 0) as [->|Ni].
      - rewrite Z.shiftl_spec_low by lia. rewrite Z.b2z_bit0, Z.bit0_odd. destruct (Z.odd v); reflexivity.
      - rewrite Z.shiftl_spec by lia. rewrite (high_bit (Z.b2z (Z.odd v)) 1) by (destruct (Z.odd v); cbn; lia). rewrite Bool.xorb_false_r.
        replace (v / 2) with (Z.shiftr v 1) by exact Hs. rewrite Z.shiftr_spec by lia. f_equal. lia. }
    rewrite Ev. unfold zeros. rewrite crc_bits_lxor. rewrite Hs. f_equal. destruct (Z.odd v); [reflexivity|rewrite crc_bits_0; reflexivity].
Qed.
(** the columns of n + n from those of n: bip39/wordlists/english.go:14 (others alike) *)
Definition twice (cols : list Z) : list Z := map (lin cols) cols.
Lemma twice_ok n : 0 <= n -> twice (cols_of n 32 0) = cols_of (2 * n) 32 0.
Proof.
  intros Hn. unfold twice. unfold cols_of at 2 3. rewrite map_map. apply map_ext_in. intros i Hi. apply in_seq in Hi.
  assert (R : 0 <= 2 ^ Z.of_nat i < 2 ^ 32) by (split; [apply Z.pow_nonneg; lia|apply Z.pow_lt_mono_r; lia]).
  rewrite lin_ok by (apply zeros_range; exact R). change (2 ^ Z.of_nat 0) with 1. rewrite Z.mul_1_r.
  replace (2 * n) with (n + n) by lia. rewrite zeros_add by lia. reflexivity.
Qed.
(** the value after [p] zero bits by repeated squaring: bip39/wordlists/english.go:14 (others alike) *)
Fixpoint fast (p : positive) (cols : list Z) (v : Z) : Z :=
  match p with
  | xH => lin cols v
  | xO q => fast q (twice cols) v
  | xI q => fast q (twice cols) (lin cols v)
  end.
Lemma fast_ok p : forall n v, 0 <= n -> 0 <= v < 2 ^ 32 -> fast p (cols_of n 32 0) v = zeros (Zpos p * n) v.
Proof.
  induction p as [p IH|p IH|]; intros n v Hn Hv; cbn [fast].
  - rewrite twice_ok by exact Hn. rewrite lin_ok by exact Hv. change (2 ^ Z.of_nat 0) with 1. rewrite Z.mul_1_r.
    rewrite IH by (lia || apply zeros_range; exact Hv). replace (Zpos p~1 * n) with (n + Zpos p * (2 * n)) by lia. rewrite zeros_add by lia. reflexivity.
  - rewrite twice_ok by exact Hn. rewrite IH by (lia || exact Hv). f_equal. lia.
  - rewrite lin_ok by exact Hv. change (2 ^ Z.of_nat 0) with 1. rewrite Z.mul_1_r. f_equal. lia.
Qed.
Lemma zeros_fast p : zeros (Zpos p) 1 = fast p (cols_of 1 32 0) 1.
Proof. rewrite fast_ok by lia. f_equal. lia. Qed.
Lemma period : zeros (2 ^ 32 - 1) 1 = 1.
Proof. change (2 ^ 32 - 1) with (Zpos 4294967295). rewrite zeros_fast. vm_compute. reflexivity. Qed.
Lemma no_period q : In q [1431655765; 858993459; 252645135; 16711935; 65535] -> zeros q 1 <> 1.
Proof.
  cbn [In]. intros [<- | [<- | [<- | [<- | [<- | []]]]]]; rewrite zeros_fast; vm_compute; discriminate.
Qed.

Lemma trial p s : 1 < p -> p < (Z.of_nat s + 2) ^ 2 -> forallb (fun k => negb (p mod (2 + Z.of_nat k) =? 0) || (2 + Z.of_nat k =? p)) (seq 0 s) = true -> prime p.
Proof.
  intros H1 H2 H. apply prime_alt. split; [exact H1|]. intros n Hn [q E].
  assert (A : forall d e, 1 < d < p -> p = d * e -> d < Z.of_nat s + 2 -> False).
  { intros d e Hd Ep Hs. rewrite forallb_forall in H. specialize (H (Z.to_nat (d - 2)) ltac:(apply in_seq; lia)).
    replace (2 + Z.of_nat (Z.to_nat (d - 2))) with d in H by lia. rewrite Ep, Z.mul_comm, Z.mod_mul in H by lia. lia. }
  assert (Hq : 1 < q < p) by nia.
  destruct (Z_lt_ge_dec n (Z.of_nat s + 2)) as [Q|Q]; [apply (A n q); [lia|lia|exact Q]|].
  destruct (Z_lt_ge_dec q (Z.of_nat s + 2)) as [Q'|Q']; [apply (A q n); [lia|lia|exact Q']|]. nia.
Qed.
Lemma prime5 : prime 5. Proof. apply (trial 5 1); [lia|reflexivity|reflexivity]. Qed.
Lemma prime17 : prime 17. Proof. apply (trial 17 3); [lia|reflexivity|reflexivity]. Qed.
Lemma prime257 : prime 257. Proof. apply (trial 257 15); [lia|reflexivity|reflexivity]. Qed.
Lemma prime65537 : prime 65537. Proof. apply (trial 65537 255); [lia|reflexivity|vm_compute; reflexivity]. Qed.
(** a proper divisor of p * r divides r or has the form p * h with h a proper divisor of r *)
Lemma divisor_split p r g : prime p -> 0 < g -> 0 < r -> (g | p * r) -> (g | r) \/ exists h, g = p * h /\ 0 < h /\ (h | r).
Proof.
  intros Hp Hg Hr [k E]. destruct (Zdivide_dec p g) as [[h Eh]|Np].
  - right. exists h. destruct Hp as [Hp _]. split; [lia|]. split; [nia|]. exists k. apply (Z.mul_reg_l _ _ p); [lia|]. rewrite E, Eh. lia.
  - left. apply Gauss with p; [exists k; exact E|]. apply rel_prime_sym, prime_rel_prime; assumption.
Qed.
Lemma proper_divisor g : 0 < g < 2 ^ 32 - 1 -> (g | 2 ^ 32 - 1) -> exists q, In q [1431655765; 858993459; 252645135; 16711935; 65535] /\ (g | q).
Proof.
  intros Hg Hd. change (2 ^ 32 - 1) with (3 * 1431655765) in Hd.
  destruct (divisor_split 3 1431655765 g prime_3 ltac:(lia) ltac:(lia) Hd) as [D|(h & -> & Hh & D)]; [exists 1431655765; cbn [In]; tauto|].
  change 1431655765 with (5 * 286331153) in D.
  destruct (divisor_split 5 286331153 h prime5 ltac:(lia) ltac:(lia) D) as [D2|(i & -> & Hi & D2)].
  { exists 858993459. cbn [In]. split; [tauto|]. change 858993459 with (3 * 286331153). apply Z.mul_divide_mono_l. exact D2. }
  change 286331153 with (17 * 16843009) in D2.
  destruct (divisor_split 17 16843009 i prime17 ltac:(lia) ltac:(lia) D2) as [D3|(j & -> & Hj & D3)].
  { exists 252645135. cbn [In]. split; [tauto|]. change 252645135 with (3 * (5 * 16843009)). do 2 apply Z.mul_divide_mono_l. exact D3. }
  change 16843009 with (257 * 65537) in D3.
  destruct (divisor_split 257 65537 j prime257 ltac:(lia) ltac:(lia) D3) as [D4|(k & -> & Hk & D4)].
  { exists 16711935. cbn [In]. split; [tauto|]. change 16711935 with (3 * (5 * (17 * 65537))). do 3 apply Z.mul_divide_mono_l. exact D4. }
  change 65537 with (65537 * 1) in D4.
  destruct (divisor_split 65537 1 k prime65537 ltac:(lia) ltac:(lia) D4) as [D5|(l & -> & Hl & D5)].
  { exists 65535. cbn [In]. split; [tauto|]. change 65535 with (3 * (5 * (17 * (257 * 1)))). do 4 apply Z.mul_divide_mono_l. exact D5. }
  exfalso. lia.
Qed.
Theorem order d : 0 < d < 2 ^ 32 - 1 -> zeros d 1 <> 1.
Proof.
  intros Hd E. pose proof (zeros_gcd d ltac:(lia) (2 ^ 32 - 1) ltac:(lia) E period) as Eg.
  pose proof (Z.gcd_divide_l d (2 ^ 32 - 1)) as Dl. pose proof (Z.gcd_divide_r d (2 ^ 32 - 1)) as Dr. pose proof (Z.gcd_nonneg d (2 ^ 32 - 1)) as Ng.
  assert (Pg : 0 < Z.gcd d (2 ^ 32 - 1)). { destruct (Z.eq_dec (Z.gcd d (2 ^ 32 - 1)) 0) as [E0|]; [apply Z.gcd_eq_0_l in E0; lia|lia]. }
  pose proof (Z.divide_pos_le (Z.gcd d (2 ^ 32 - 1)) d ltac:(lia) Dl) as Lg.
  destruct (proper_divisor (Z.gcd d (2 ^ 32 - 1)) ltac:(lia) Dr) as (q & Hq & k & Ek). apply (no_period q Hq).
  rewrite Ek, Z.mul_comm. apply zeros_mul; [lia| |exact Eg].
  assert (0 < q) by (cbn [In] in Hq; lia). nia.
Qed.
Theorem two_noticed m m' i j : length m = length m' -> 0 <= i < j -> j - i < 2 ^ 32 - 1 ->
  (forall k, 0 <= k -> (bit_of m k <> bit_of m' k <-> k = i \/ k = j)) -> crc32 m <> crc32 m'.
Proof.
  intros L Hij Hd Hb E. apply (crc32_eq_iff m m' L) in E. set (D := Z.lxor (le_val m) (le_val m')) in *.
  pose proof (le_pow m) as Rm. pose proof (le_pow m') as Rm'. rewrite <- L in Rm'.
  assert (RD : 0 <= D < 2 ^ Z.of_nat (8 * length m)) by (apply lxor_lt; lia).
  assert (BD : forall k, 0 <= k -> Z.testbit D k = ((k =? i) || (k =? j))).
  { intros k Hk. unfold D. rewrite Z.lxor_spec, !le_val_bit by exact Hk. specialize (Hb k Hk).
    destruct (bit_of m k), (bit_of m' k); cbn [xorb]; destruct (Z.eqb_spec k i), (Z.eqb_spec k j); cbn [orb]; try reflexivity; exfalso; intuition congruence. }
  assert (ED : D = Z.lxor 1 (2 ^ (j - i) * 1) * 2 ^ i).
  { rewrite Z.mul_1_r. rewrite <- (Z.shiftl_mul_pow2 _ i) by lia. apply Z.bits_inj'. intros k Hk. rewrite BD by exact Hk.
    destruct (Z_lt_ge_dec k i) as [Q|Q].
    - rewrite Z.shiftl_spec_low by exact Q. destruct (Z.eqb_spec k i), (Z.eqb_spec k j); reflexivity || lia.
    - rewrite Z.shiftl_spec, Z.lxor_spec by exact Hk. rewrite (Z.pow2_bits_eqb (j - i)) by lia. change 1 with (2 ^ 0) at 1. rewrite Z.pow2_bits_eqb by lia.
      destruct (Z.eqb_spec k i), (Z.eqb_spec k j), (Z.eqb_spec 0 (k - i)), (Z.eqb_spec (j - i) (k - i)); reflexivity || lia. }
  assert (Lj : (Z.to_nat j < 8 * length m)%nat).
  { destruct (Z_lt_ge_dec j (Z.of_nat (8 * length m))) as [Q|Q]; [lia|].
    pose proof (BD j ltac:(lia)) as B. rewrite (high_bit D (Z.of_nat (8 * length m))) in B by lia. rewrite Z.eqb_refl, Bool.orb_true_r in B. discriminate B. }
  rewrite ED in E. replace (2 ^ i) with (2 ^ Z.of_nat (Z.to_nat i)) in E by (f_equal; lia). rewrite crc_pow in E by lia.
  replace (8 * length m - Z.to_nat i)%nat with (Z.to_nat (j - i) + (8 * length m - Z.to_nat j))%nat in E by lia. rewrite crc_bits_add in E.
  replace (2 ^ (j - i)) with (2 ^ Z.of_nat (Z.to_nat (j - i))) in E by (f_equal; lia). rewrite crc_bits_high in E.
  apply crc_zero in E.
  - apply Z.lxor_eq in E. exact (order (j - i) ltac:(lia) E).
  - apply lxor_lt; [lia|apply crc_bits_range; lia|lia].
Qed.
