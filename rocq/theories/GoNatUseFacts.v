(** GoNatUseFacts.v - the functions on vectors of words calculate what the model's functions on numbers do. *)
From Verif Require Import Base BaseFacts GoStr Prims Bip39 Bip39Facts Bip32 Base58 GoCodec GoCodecFacts Secp GoBig GoBigFacts GoNat SpecNat GoNatFacts GoNatOps GoNatKara GoNatWW GoNatDiv GoNatBytes GoNatExp GoNatUse.

(** ** small numbers *)
Lemma small_stands : forall w, 0 <= w < 65536 -> stands (setWord w) w.
Proof. intros w H. apply setWord_stands. pose proof BW_big. lia. Qed.
Lemma small_len : forall w, (length (setWord w) <= 1)%nat.
Proof. intros w. unfold setWord. destruct (w =? 0); cbn [length]; lia. Qed.
Lemma len_lt : forall x v b, stands x v -> 0 <= v < b -> forall m, stands m b -> (length x <= length m)%nat.
Proof.
  intros x v b Sx Hv m Sm. destruct (list_eq_dec Z.eq_dec x []) as [->|Nx]; [cbn [length]; lia|]. pose proof (stands_low x v Sx Nx) as Lo. pose proof (stands_nonneg m b Sm) as Rm.
  destruct (Nat.le_gt_cases (length x) (length m)) as [G|G]; [exact G|exfalso]. pose proof (pw_mono (length m) (length x - 1) ltac:(lia)). lia.
Qed.
Lemma div_small : forall x a w, stands x a -> 0 < w < 65536 -> exists q r, natDiv x (setWord w) = Ret (q, r) /\ stands q (a / w) /\ stands r (a mod w) /\ nth 0 r 0 = a mod w.
Proof.
  intros x a w Sx Hw. destruct (natDiv_ok x (setWord w) a w Sx (small_stands w ltac:(lia)) ltac:(lia)) as (q & r & E & Sq & Sr); [pose proof (small_len w); lia|].
  exists q, r. repeat split; try assumption; try apply Sq; try apply Sr. pose proof (Z.mod_pos_bound a w ltac:(lia)) as MB.
  assert (S2 : stands (setWord (a mod w)) (a mod w)) by (apply small_stands; lia). rewrite (stands_unique r _ _ Sr S2). unfold setWord. destruct (a mod w =? 0) eqn:E0; cbn [nth]; lia.
Qed.
Lemma mul_small : forall x a w, stands x a -> 0 <= w < 65536 -> exists z, natMul x (setWord w) = Ret z /\ stands z (a * w).
Proof. intros x a w Sx Hw. apply natMul_ok; [exact Sx|apply small_stands; exact Hw]. Qed.
Lemma cmp_eq : forall x y a b, stands x a -> stands y b -> (natCmp x y =? 0) = (a =? b).
Proof. intros x y a b Sx Sy. rewrite (natCmp_ok x y a b Sx Sy). destruct (a ?= b) eqn:C; [apply Z.compare_eq in C|apply (proj1 (Z.compare_lt_iff a b)) in C|apply (proj1 (Z.compare_gt_iff a b)) in C]; cbn [Z.eqb]; lia. Qed.

(** ** bip32 *)
Lemma wAddPrivateKeys_ok : forall N n k1 k2, stands N n -> 0 < n -> (length N < 100)%nat ->
  wAddPrivateKeys N k1 k2 = Ret (let b := Z_bytes ((be_Z k1 + be_Z k2) mod n) in if Nat.ltb (length b) 32 then repeat x00 (32 - length b) ++ b else b).
Proof.
  intros N n k1 k2 SN Hn LN. unfold wAddPrivateKeys. destruct (natDiv_ok _ N _ n (natAdd_ok _ _ _ _ (setBytes_ok k1) (setBytes_ok k2)) SN Hn LN) as (q & r & E & _ & Sr). rewrite E. cbn [bind]. rewrite (natBytes_ok r _ Sr). reflexivity.
Qed.
Lemma head_mod : forall w x k, 0 <= k <= 64 -> val (w :: x) mod 2 ^ k = w mod 2 ^ k.
Proof.
  intros w x k Hk. rewrite val_cons. assert (E : BW = 2 ^ (64 - k) * 2 ^ k) by (rewrite <- Z.pow_add_r by lia; replace (64 - k + k) with 64 by lia; exact BW_pow). rewrite E.
  replace (w + 2 ^ (64 - k) * 2 ^ k * val x) with (w + (2 ^ (64 - k) * val x) * 2 ^ k) by ring. apply Z_mod_plus_full.
Qed.
Lemma wBit0_ok : forall x a, stands x a -> wBit0 x = a mod 2.
Proof. intros x a (_ & _ & V). rewrite <- V. destruct x as [|w x]; [reflexivity|]. unfold wBit0. rewrite land1. change 2 with (2 ^ 1). symmetry. apply head_mod. lia. Qed.
Lemma wCompress_ok : forall x y a b, stands x a -> stands y b -> wCompress x y = compressPublicKey (a, b).
Proof. intros x y a b Sx Sy. unfold wCompress, compressPublicKey. rewrite (natBytes_ok x a Sx), (wBit0_ok y b Sy). reflexivity. Qed.
Lemma tzb_unique : forall p s c, 0 <= s -> Zpos p = 2 ^ s * c -> c mod 2 = 1 -> tzb p = s.
Proof.
  intros p s c Hs E O. destruct (tzb_spec p) as (N & d & E2 & _ & O2). set (t := tzb p) in *. clearbody t.
  destruct (Z.lt_trichotomy s t) as [L|[L|L]]; [exfalso|symmetry; exact L|exfalso].
  - assert (K : c = 2 * (2 ^ (t - s - 1) * d)). { apply (Z.mul_reg_l _ _ (2 ^ s)); [pose proof (Z.pow_pos_nonneg 2 s ltac:(lia) Hs); lia|]. rewrite <- E, E2. replace t with (s + (1 + (t - s - 1))) at 1 by lia. rewrite !Z.pow_add_r by lia. ring. }
    rewrite K, Z.mul_comm, Z_mod_mult in O. discriminate.
  - assert (K : d = 2 * (2 ^ (s - t - 1) * c)). { apply (Z.mul_reg_l _ _ (2 ^ t)); [pose proof (Z.pow_pos_nonneg 2 t ltac:(lia) N); lia|]. rewrite <- E2, E. replace s with (t + (1 + (s - t - 1))) at 1 by lia. rewrite !Z.pow_add_r by lia. ring. }
    rewrite K, Z.mul_comm, Z_mod_mult in O2. discriminate.
Qed.
Lemma natTrailing_spec : forall x, words x -> 0 < val x -> 0 <= natTrailing x /\ exists c, val x = 2 ^ natTrailing x * c /\ c mod 2 = 1.
Proof.
  induction x as [|w x IH]; intros W P; [cbn [val] in P; lia|]. destruct (proj1 (words_cons _ _) W) as [Hw Wx]. rewrite val_cons in *. cbn [natTrailing]. destruct (w =? 0) eqn:E.
  - assert (w = 0) by lia. subst w. assert (Px : 0 < val x) by (pose proof BW_big; nia). destruct (IH Wx Px) as (N & c & E1 & O). split; [lia|]. exists c. split; [|exact O]. rewrite E1, Z.pow_add_r, <- BW_pow by lia. ring.
  - destruct w as [|p|p]; [discriminate| |lia]. cbn [wordTrailing]. destruct (tzb_spec p) as (N & c & E1 & Pc & O). split; [exact N|].
    assert (L : tzb p < 64). { destruct (Z_lt_ge_dec (tzb p) 64) as [L|L]; [exact L|exfalso]. rewrite BW_pow in Hw. pose proof (Z.pow_le_mono_r 2 64 (tzb p) ltac:(lia) ltac:(lia)). nia. }
    exists (c + 2 * (2 ^ (63 - tzb p) * val x)). split.
    + assert (EB : BW = 2 ^ tzb p * (2 * 2 ^ (63 - tzb p))). { rewrite BW_pow. change 2 with (2 ^ 1) at 3. rewrite <- !Z.pow_add_r by lia. f_equal. lia. } rewrite E1, EB at 1. ring.
    + rewrite (Z.mul_comm 2), Z_mod_plus_full. exact O.
Qed.
Lemma natTrailing_ok : forall x a, stands x a -> natTrailing x = trailingZeroBits a.
Proof.
  intros x a S. pose proof (stands_nonneg x a S) as R. destruct S as (W & N & V). destruct (Z.eq_dec a 0) as [->|Na].
  - assert (x = []) by (apply stands_nil; split; [exact W|split; assumption]). subst x. reflexivity.
  - destruct (natTrailing_spec x W ltac:(lia)) as (P & c & E & O). rewrite V in E. unfold trailingZeroBits. rewrite Z.abs_eq by lia. destruct a as [|p|p]; try lia. symmetry. apply (tzb_unique p _ c P E O).
Qed.
Lemma get0 : forall x a, stands x a -> 0 < a -> exists w, get x 0 = Ret w /\ forall k, 0 <= k <= 64 -> w mod 2 ^ k = a mod 2 ^ k.
Proof.
  intros x a (_ & _ & V) P. destruct x as [|w x]; [cbn [val] in V; lia|]. exists w. split; [reflexivity|]. intros k Hk. rewrite <- V. symmetry. apply head_mod. exact Hk.
Qed.
Lemma wJacobi_loop_ok : forall fuel a b j A Bv, stands a A -> stands b Bv -> 0 < Bv -> (length b < 100)%nat -> wJacobi_loop fuel a b j = jacobi_loop fuel A Bv j.
Proof.
  induction fuel as [|fuel IH]; intros a b j A Bv Sa Sb Pb Lb; [reflexivity|]. cbn [wJacobi_loop jacobi_loop]. rewrite (cmp_eq b (setWord 1) Bv 1 Sb (small_stands 1 ltac:(lia))).
  destruct (Bv =? 1); [reflexivity|]. pose proof (stands_nonneg a A Sa) as Ra.
  destruct a as [|a0 ar] eqn:Ea.
  { destruct Sa as (_ & _ & V). cbn [val] in V. subst A. reflexivity. }
  rewrite <- Ea in *. assert (NA : A =? 0 = false). { apply Z.eqb_neq. intros ->. apply stands_nil in Sa. rewrite Ea in Sa. discriminate. }
  rewrite NA. destruct (natDiv_ok a b A Bv Sa Sb Pb Lb) as (q & r & E & _ & Sr).
  rewrite E. cbn [bind].
  cbv zeta. pose proof (Z.mod_pos_bound A Bv Pb) as MB.
  destruct r as [|r0 rr] eqn:Er.
  { destruct Sr as (_ & _ & V). cbn [val] in V. rewrite <- V. reflexivity. }
  rewrite <- Er in *. assert (NR : A mod Bv =? 0 = false). { apply Z.eqb_neq. intros Z0. rewrite Z0 in Sr. apply stands_nil in Sr. rewrite Er in Sr. discriminate. }
  rewrite NR. apply Z.eqb_neq in NR.
  rewrite (natTrailing_ok r _ Sr). destruct (tz_spec (A mod Bv) ltac:(lia)) as (T0 & T1 & T2 & T3). set (s := trailingZeroBits (A mod Bv)) in *.
  destruct (get0 b Bv Sb Pb) as (b0 & Gb & Mb). rewrite Gb. cbn [bind]. pose proof (natShr_ok r s (A mod Bv) T0 Sr) as Sc. rewrite <- Z.shiftr_div_pow2 in Sc by lia.
  destruct (get0 _ _ Sc T2) as (c0 & Gc & Mc). rewrite Gc. cbn [bind].
  rewrite (IH b (natShr r s) _ Bv (Z.shiftr (A mod Bv) s) Sb Sc T2).
  - pose proof (Mb 2 ltac:(lia)) as M2. pose proof (Mb 3 ltac:(lia)) as M3. pose proof (Mc 2 ltac:(lia)) as N2. change (2 ^ 2) with 4 in M2, N2. change (2 ^ 3) with 8 in M3. rewrite !land3, !land7, M2, M3, N2. reflexivity.
  - apply Nat.le_lt_trans with (length b); [|exact Lb]. apply (len_lt _ _ Bv Sc); [|exact Sb]. split; [lia|]. apply Z.le_lt_trans with (A mod Bv); [|lia]. pose proof (Z.pow_pos_nonneg 2 s ltac:(lia) T0) as P2. rewrite Z.shiftr_div_pow2 by exact T0. apply Z.div_le_upper_bound; [exact P2|]. clear - P2 MB. nia.
Qed.
Lemma wJacobi_ok : forall fuel x p a P, stands x a -> stands p P -> 0 < P -> (length p < 100)%nat -> P mod 2 = 1 -> P < 2 ^ 256 -> (512 <= fuel)%nat -> wJacobi fuel x p = Jacobi a P.
Proof.
  intros fuel x p a P Sx Sp HP Lp Op Lt F. rewrite (Jacobi_spec a P HP Op). unfold wJacobi. destruct (get0 p P Sp HP) as (w & G & M). destruct p as [|p0 pr]; [discriminate|]. assert (w = p0) by (cbn in G; congruence). subst w.
  rewrite land1. specialize (M 1 ltac:(lia)). change (2 ^ 1) with 2 in M. rewrite M, Op. cbn [Z.eqb]. rewrite (wJacobi_loop_ok fuel x _ 1 a P Sx Sp HP Lp). rewrite (loop_spec 256 fuel a P 1 HP Op Lt) by lia. f_equal. lia.
Qed.
Lemma expNN_mod_ok : forall x y m a b M, stands x a -> stands y b -> stands m M -> Z.odd M = true -> 0 < M -> (length m < 100)%nat -> BW <= b -> exists z, expNN x y m = Ret z /\ stands z (a ^ b mod M).
Proof.
  intros x y m a b M Sx Sy Sm Om PM Lm Hb. pose proof BW_big as BB. pose proof (stands_nonneg x a Sx) as Ra.
  destruct m as [|m0 mr] eqn:Em; [destruct Sm as (_ & _ & V); cbn [val] in V; lia|]. rewrite <- Em in *.
  assert (Z0 : stands [] 0) by (split; [exact words_nil|]; split; [cbn; lia|reflexivity]).
  unfold expNN. rewrite Em. rewrite <- Em.
  destruct ((length m =? 1)%nat && (m0 =? 1)) eqn:C1.
  { apply andb_true_iff in C1. destruct C1 as [C1 C2]. assert (H : m = [1]). { rewrite Em in *. destruct mr; [|discriminate]. f_equal. lia. }
    assert (M = 1) by (destruct Sm as (_ & _ & V); rewrite H, val_one in V; lia). subst M. exists []. rewrite Z.mod_1_r. split; [reflexivity|exact Z0]. }
  assert (M1 : M <> 1). { intros ->. assert (H : m = [1]) by (apply (stands_unique m _ 1 Sm); exact (small_stands 1 ltac:(lia))). rewrite H in Em. injection Em as E1 E2. rewrite H, <- E1 in C1. discriminate. }
  destruct y as [|y0 yr] eqn:Ey; [destruct Sy as (_ & _ & V); cbn [val] in V; lia|]. rewrite <- Ey in *.
  assert (Ly : (1 <? length y)%nat = true). { rewrite Ey. destruct yr; [exfalso|reflexivity]. destruct Sy as (W & _ & V). rewrite Ey, val_one in V. rewrite Ey in W. destruct (proj1 (words_cons _ _) W) as [R _]. lia. }
  destruct x as [|x0 xr] eqn:Ex.
  { destruct Sx as (_ & _ & V). cbn [val] in V. subst a. exists []. split; [reflexivity|]. rewrite Z.pow_0_l by lia. rewrite Z.mod_0_l by lia. exact Z0. }
  rewrite <- Ex in *.
  assert (G : exists z, (if (length x =? 1)%nat && (nth 0 x 0 =? 1) then Ret [1] else if (1 <? length y)%nat && Z.odd m0 then expNNMontgomery x y m else Panic) = Ret z /\ stands z (a ^ b mod M)); [|exact G].
  destruct ((length x =? 1)%nat && (nth 0 x 0 =? 1)) eqn:C2.
  { apply andb_true_iff in C2. destruct C2 as [C2 C3]. assert (H : x = [1]). { rewrite Ex in *. destruct xr; [|discriminate]. cbn [nth] in C3. f_equal. lia. }
    assert (a = 1) by (destruct Sx as (_ & _ & V); rewrite H, val_one in V; lia). subst a. exists [1]. split; [reflexivity|]. rewrite Z.pow_1_l by lia. rewrite Z.mod_1_l by lia. exact (small_stands 1 ltac:(lia)). }
  rewrite Ly. cbn [andb]. replace (Z.odd m0) with true. { apply expNNMontgomery_ok; assumption. }
  pose proof (m0_odd m (length mr)) as MO. pose proof Sm as (Wm & _ & Vm). rewrite Vm in MO. symmetry. replace m0 with (nth 0 m 0) by (rewrite Em; reflexivity). apply MO; try assumption. rewrite Em. reflexivity.
Qed.
Lemma exp_bits_ok : forall count x a v z A, stands x a -> stands z A -> (count <= 64)%nat -> 0 <= v < BW ->
  exists r, exp_bits count x v z = Ret r /\ stands r (A ^ (2 ^ Z.of_nat count) * a ^ (v / 2 ^ (64 - Z.of_nat count))).
Proof.
  induction count as [|count IH]; intros x a v z A Sx Sz Hc Hv.
  - exists z. split; [reflexivity|]. change (2 ^ Z.of_nat 0) with 1. change (64 - Z.of_nat 0) with 64. rewrite <- BW_pow, Z.div_small, Z.pow_0_r, Z.mul_1_r, Z.pow_1_r by exact Hv. exact Sz.
  - cbn [exp_bits]. destruct (natSqr_ok z A Sz) as (z1 & E1 & S1). rewrite E1. cbn [bind].
    set (bit := if Z.testbit v 63 then 1 else 0).
    assert (Q : exists z2, (if Z.testbit v 63 then natMul z1 x else Ret z1) = Ret z2 /\ stands z2 (A * A * a ^ bit)).
    { unfold bit. destruct (Z.testbit v 63); [rewrite Z.pow_1_r; apply natMul_ok; assumption|]. exists z1. rewrite Z.pow_0_r, Z.mul_1_r. split; [reflexivity|exact S1]. }
    destruct Q as (z2 & E2 & S2). rewrite E2. cbn [bind].
    assert (Vb : v = bit * 2 ^ 63 + v mod 2 ^ 63).
    { unfold bit. rewrite (Z.div_mod v (2 ^ 63)) at 1 by discriminate. pose proof (Z.mod_pos_bound v (2 ^ 63) ltac:(reflexivity)) as R. rewrite BW_pow in Hv. rewrite Z.testbit_odd, Z.shiftr_div_pow2 by lia.
      assert (D : v / 2 ^ 63 = 0 \/ v / 2 ^ 63 = 1). { pose proof (Z.div_pos v (2 ^ 63) ltac:(lia) ltac:(reflexivity)). pose proof (Z.div_lt_upper_bound v (2 ^ 63) 2 ltac:(reflexivity) ltac:(change (2 ^ 63 * 2) with (2 ^ 64); lia)). lia. }
      destruct D as [-> | ->]; cbn [Z.odd]; lia. }
    assert (Sh : ww (Z.shiftl v 1) = 2 * (v mod 2 ^ 63)).
    { rewrite Z.shiftl_mul_pow2 by lia. change (2 ^ 1) with 2. unfold ww. rewrite BW_pow. change (2 ^ 64) with (2 ^ 63 * 2). rewrite Zmult_mod_distr_r. lia. }
    destruct (IH x a (ww (Z.shiftl v 1)) z2 _ Sx S2 ltac:(lia) (ww_range _)) as (r & Er & Sr). exists r. split; [exact Er|].
    replace (A ^ (2 ^ Z.of_nat (S count)) * a ^ (v / 2 ^ (64 - Z.of_nat (S count)))) with ((A * A * a ^ bit) ^ (2 ^ Z.of_nat count) * a ^ (ww (Z.shiftl v 1) / 2 ^ (64 - Z.of_nat count))); [exact Sr|].
    rewrite Sh. assert (Bn : 0 <= bit) by (unfold bit; destruct (Z.testbit v 63); lia). pose proof (Z.pow_pos_nonneg 2 (Z.of_nat count) ltac:(lia) ltac:(lia)) as Pc. pose proof (Z.mod_pos_bound v (2 ^ 63) ltac:(reflexivity)) as Rm.
    replace (64 - Z.of_nat (S count)) with (63 - Z.of_nat count) by lia. replace (64 - Z.of_nat count) with (1 + (63 - Z.of_nat count)) by lia. rewrite (Z.pow_add_r 2 1) by lia. change (2 ^ 1) with 2.
    pose proof (Z.pow_pos_nonneg 2 (63 - Z.of_nat count) ltac:(lia) ltac:(lia)) as Pd. rewrite Z.div_mul_cancel_l by lia.
    assert (Dv : v / 2 ^ (63 - Z.of_nat count) = bit * 2 ^ Z.of_nat count + v mod 2 ^ 63 / 2 ^ (63 - Z.of_nat count)).
    { rewrite Vb at 1. replace (2 ^ 63) with (2 ^ Z.of_nat count * 2 ^ (63 - Z.of_nat count)) at 1 by (rewrite <- Z.pow_add_r by lia; f_equal; lia). rewrite Z.mul_assoc, Z.div_add_l by lia. reflexivity. }
    assert (N1 : 0 <= bit * 2 ^ Z.of_nat count) by (apply Z.mul_nonneg_nonneg; lia). assert (N2 : 0 <= v mod 2 ^ 63 / 2 ^ (63 - Z.of_nat count)) by (apply Z.div_pos; lia).
    rewrite Dv. rewrite (Z.pow_add_r a) by assumption. rewrite !Z.pow_mul_l, <- (Z.pow_mul_r a bit) by lia. replace (Z.of_nat (S count)) with (1 + Z.of_nat count) by lia. rewrite (Z.pow_add_r 2 1) by lia. change (2 ^ 1) with 2.
    replace (2 * 2 ^ Z.of_nat count) with (2 ^ Z.of_nat count + 2 ^ Z.of_nat count) by lia. rewrite Z.pow_add_r by lia. ring.
Qed.
Lemma expNN_plain_ok : forall x a v, stands x a -> 0 <= v < BW -> exists z, expNN x (setWord v) [] = Ret z /\ stands z (a ^ v).
Proof.
  intros x a v Sx Hv. unfold setWord. destruct (v =? 0) eqn:V0.
  { assert (v = 0) by lia. subst v. rewrite Z.pow_0_r. exists [1]. split; [destruct x; reflexivity|exact (small_stands 1 ltac:(lia))]. }
  destruct x as [|x0 xr] eqn:Ex.
  { destruct Sx as (_ & _ & V). cbn [val] in V. subst a. rewrite Z.pow_0_l by lia. exists []. split; [reflexivity|]. split; [exact words_nil|]. split; [cbn; lia|reflexivity]. }
  rewrite <- Ex in *. unfold expNN. rewrite Ex. rewrite <- Ex.
  assert (G : exists z, (if (length x =? 1)%nat && (nth 0 x 0 =? 1) then Ret [1] else if v =? 1 then Ret x else let s := nlz v + 1 in exp_bits (Z.to_nat (64 - s)) x (ww (Z.shiftl v s)) x) = Ret z /\ stands z (a ^ v)); [|exact G].
  destruct ((length x =? 1)%nat && (nth 0 x 0 =? 1)) eqn:C2.
  { apply andb_true_iff in C2. destruct C2 as [C2 C3]. assert (H : x = [1]). { rewrite Ex in *. destruct xr; [|discriminate]. cbn [nth] in C3. f_equal. lia. }
    assert (a = 1) by (destruct Sx as (_ & _ & V); rewrite H, val_one in V; lia). subst a. exists [1]. split; [reflexivity|]. rewrite Z.pow_1_l by lia. exact (small_stands 1 ltac:(lia)). }
  destruct (v =? 1) eqn:V1; [assert (v = 1) by lia; subst v; rewrite Z.pow_1_r; exists x; split; [reflexivity|exact Sx]|]. cbv zeta.
  unfold nlz. rewrite V0. pose proof (Z.log2_spec v ltac:(lia)) as Ls. pose proof (Z.log2_nonneg v) as Ln. set (L := Z.log2 v) in *. rewrite BW_pow in Hv. assert (L64 : L < 64) by (apply (proj1 (Z.log2_lt_pow2 v 64 ltac:(lia))); lia).
  replace (64 - (63 - L + 1)) with L by lia. replace (63 - L + 1) with (64 - L) by lia.
  destruct (exp_bits_ok (Z.to_nat L) x a (ww (Z.shiftl v (64 - L))) x a Sx Sx ltac:(lia) (ww_range _)) as (r & Er & Sr). rewrite Z2Nat.id in Sr by lia. exists r. split; [exact Er|].
  replace (a ^ v) with (a ^ 2 ^ L * a ^ (ww (Z.shiftl v (64 - L)) / 2 ^ (64 - L))); [exact Sr|].
  pose proof (Z.pow_pos_nonneg 2 L ltac:(lia) Ln) as PL. pose proof (Z.pow_pos_nonneg 2 (64 - L) ltac:(lia) ltac:(lia)) as PK.
  assert (Q : ww (Z.shiftl v (64 - L)) = (v - 2 ^ L) * 2 ^ (64 - L)).
  { rewrite Z.shiftl_mul_pow2 by lia. unfold ww. rewrite BW_pow. replace (2 ^ 64) with (2 ^ L * 2 ^ (64 - L)) by (rewrite <- Z.pow_add_r by lia; f_equal; lia). rewrite Zmult_mod_distr_r. f_equal. symmetry. apply (Z.mod_unique v (2 ^ L) 1 (v - 2 ^ L)); [left; rewrite Z.pow_succ_r in Ls by lia; lia|lia]. }
  rewrite Q, Z.div_mul, <- Z.pow_add_r by lia. f_equal. lia.
Qed.
Lemma expNN_cube_ok : forall x a, stands x a -> exists z, expNN x (setWord 3) [] = Ret z /\ stands z (a ^ 3).
Proof. intros x a Sx. apply expNN_plain_ok; [exact Sx|pose proof BW_big; lia]. Qed.
Lemma wModSqrt_ok : forall fuel x p a P ro, stands x a -> stands p P -> (length p < 100)%nat -> P mod 4 = 3 -> 4 * BW <= P < 2 ^ 256 -> (512 <= fuel)%nat -> BigModSqrt a P = Ret ro ->
  exists r, wModSqrt fuel x p = Ret r /\ match r, ro with Some z, Some v => stands z v | None, None => True | _, _ => False end.
Proof.
  intros fuel x p a P ro Sx Sp Lp P4 RP F EB. pose proof BW_big as BB. assert (PP : 0 < P) by lia. assert (P2 : P mod 2 = 1). { pose proof (Z.div_mod P 4 ltac:(lia)) as D. rewrite P4 in D. rewrite D. replace (4 * (P / 4) + 3) with (1 + (2 * (P / 4) + 1) * 2) by ring. apply Z_mod_plus_full. }
  pose proof (stands_nonneg x a Sx) as Ra.
  unfold wModSqrt. rewrite (wJacobi_ok fuel x p a P Sx Sp PP Lp P2 (proj2 RP) F). unfold BigModSqrt in EB. destruct (Jacobi a P) as [j|]; [|discriminate]. cbn [bind].
  destruct (j =? -1). { assert (ro = None) by congruence. subst ro. exists None. split; [reflexivity|exact I]. }
  destruct (j =? 0). { assert (ro = Some 0) by congruence. subst ro. exists (Some []). split; [reflexivity|]. split; [exact words_nil|]. split; [cbn; lia|reflexivity]. }
  rewrite land3, P4 in EB. cbn [Z.eqb Pos.eqb] in EB.
  assert (Q : exists x1, (if 0 <=? natCmp x p then bind (natDiv x p) (fun q => let (_, r) := q in Ret r) else Ret x) = Ret x1 /\ stands x1 (if (a <? 0) || (P <=? a) then a mod P else a)).
  { rewrite (natCmp_ok x p a P Sx Sp). destruct (natDiv_ok x p a P Sx Sp PP Lp) as (q & r & E & _ & Sr). rewrite E. cbn [bind]. destruct (a ?= P) eqn:C; cbn [Z.leb Z.compare].
    - apply Z.compare_eq in C. replace ((a <? 0) || (P <=? a)) with true by lia. exists r. split; [reflexivity|exact Sr].
    - apply (proj1 (Z.compare_lt_iff a P)) in C. replace ((a <? 0) || (P <=? a)) with false by lia. exists x. split; [reflexivity|exact Sx].
    - apply (proj1 (Z.compare_gt_iff a P)) in C. replace ((a <? 0) || (P <=? a)) with true by lia. exists r. split; [reflexivity|exact Sr]. }
  destruct Q as (x1 & E1 & S1). rewrite E1. cbn [bind]. set (a1 := if (a <? 0) || (P <=? a) then a mod P else a) in *. clearbody a1.
  destruct (get0 p P Sp PP) as (w & G & M). rewrite G. cbn [bind]. specialize (M 2 ltac:(lia)). change (2 ^ 2) with 4 in M. rewrite M, P4. cbn [Z.eqb Pos.eqb].
  pose proof (natShr_ok _ 2 _ ltac:(lia) (natAdd_ok p (setWord 1) P 1 Sp (small_stands 1 ltac:(lia)))) as Se. change (2 ^ 2) with 4 in Se.
  assert (Hb : BW <= (P + 1) / 4) by (apply Z.div_le_lower_bound; lia).
  assert (Od : Z.odd P = true). { rewrite Zodd_mod, P2. reflexivity. }
  destruct (expNN_mod_ok x1 _ p a1 _ P S1 Se Sp Od PP Lp Hb) as (z & E & Sz). rewrite E. cbn [bind]. exists (Some z). split; [reflexivity|].
  assert (ER : ro = Some (modSqrt3Mod4Prime a1 P)) by congruence. subst ro. unfold modSqrt3Mod4Prime. cbv zeta. rewrite Z.shiftr_div_pow2 by lia. change (2 ^ 2) with 4. exact Sz.
Qed.
Lemma wExpand_ok : forall fuel P Bc p bc key, stands P p -> stands Bc bc -> (length P < 100)%nat -> p mod 4 = 3 -> 4 * BW <= p < 2 ^ 256 -> (512 <= fuel)%nat ->
  match key with
  | [] => wExpand fuel P Bc key = Panic
  | k0 :: xs => forall ro, BigModSqrt (be_Z xs ^ 3 + bc) p = Ret ro -> (forall v, ro = Some v -> 0 <= v < p) ->
    let Y := match ro with Some y => y | None => 0 end in
    exists x y, wExpand fuel P Bc key = Ret (x, y) /\ stands x (be_Z xs) /\ stands y (if (Zb k0 - 2) mod 2 ^ 64 =? Y mod 2 then Y else p - Y)
  end.
Proof.
  intros fuel P Bc p bc key SP SB LP P4 RP F. destruct key as [|k0 xs]; [reflexivity|]. intros ro EB RR Y. unfold wExpand. pose proof BW_big as BB.
  destruct (expNN_cube_ok _ _ (setBytes_ok xs)) as (ys & E1 & S1). rewrite E1. cbn [bind].
  destruct (wModSqrt_ok fuel _ P _ p ro (natAdd_ok _ _ _ _ S1 SB) SP LP P4 RP F EB) as (r & E2 & S2). rewrite E2. cbn [bind].
  assert (SY : stands (match r with Some y => y | None => [] end) Y). { unfold Y. destruct r as [z|], ro as [v|]; try contradiction; [exact S2|]. split; [exact words_nil|]. split; [cbn; lia|reflexivity]. }
  assert (RY : 0 <= Y < p). { unfold Y. destruct ro as [v|]; [apply RR; reflexivity|lia]. }
  destruct (div_small _ Y 2 SY ltac:(lia)) as (q & r2 & E3 & _ & _ & N). rewrite E3. cbn [bind]. rewrite N. unfold ww. rewrite BW_pow.
  destruct ((Zb k0 - 2) mod 2 ^ 64 =? Y mod 2); cbn [bind].
  - eexists _, _. split; [reflexivity|]. split; [apply setBytes_ok|exact SY].
  - destruct (natSub_ok P _ p Y SP SY ltac:(lia)) as (d & E4 & Sd). rewrite E4. cbn [bind]. eexists _, _. split; [reflexivity|]. split; [apply setBytes_ok|exact Sd].
Qed.

(** ** bip39 *)
Lemma wAddChecksum_loop_ok : forall n i first d D, stands d D -> exists z, wAddChecksum_loop n i first d = Ret z /\ stands z (addChecksum_loop n i first D).
Proof.
  induction n as [|n IH]; intros i first d D S; [exists d; split; [reflexivity|exact S]|]. cbn [wAddChecksum_loop addChecksum_loop]. destruct (mul_small d D 2 S ltac:(lia)) as (z & E & Sz). rewrite E. cbn [bind]. apply IH.
  destruct (Z.testbit first (7 - i)); [|exact Sz]. apply natOr_ok; [exact Sz|apply small_stands; lia].
Qed.
Lemma wAddChecksum_ok : forall H data, wAddChecksum H data = Ret (addChecksum H data).
Proof.
  intros H data. unfold wAddChecksum, addChecksum. destruct (wAddChecksum_loop_ok (length data / 4) 0 (firstChecksumByte H data) _ _ (setBytes_ok data)) as (z & E & S). rewrite E. cbn [bind]. rewrite (natBytes_ok z _ S). reflexivity.
Qed.
Lemma wNewMnemonic_loop_ok : forall wl n x X acc, stands x X -> wNewMnemonic_loop wl n x acc = NewMnemonic_loop wl n X acc.
Proof.
  intros wl. induction n as [|n IH]; intros x X acc S; [reflexivity|]. cbn [wNewMnemonic_loop NewMnemonic_loop]. destruct (div_small x X 2048 S ltac:(lia)) as (q & r & E & Sq & _). rewrite E. cbn [bind].
  rewrite (natBytes_ok _ _ (natAnd_ok x (setWord 2047) X 2047 S (small_stands 2047 ltac:(lia)))). unfold get. destruct (nth_error wl _) as [w|]; [|reflexivity]. cbn [bind]. apply IH. exact Sq.
Qed.
Lemma wNewMnemonic_ok : forall H st e, wNewMnemonic H st e = NewMnemonic H st e.
Proof.
  intros H st e. unfold wNewMnemonic, NewMnemonic. destruct (validateEntropyBitSize _); [reflexivity|]. rewrite wAddChecksum_ok. cbn [bind]. rewrite (wNewMnemonic_loop_ok _ _ _ _ [] (setBytes_ok _)). destruct (NewMnemonic_loop _ _ _ _); reflexivity.
Qed.
Lemma wDecode_words_ok : forall wm ws b Bv, stands b Bv ->
  match decode_words wm ws Bv with inl v => exists z, wDecode_words wm ws b = Ret (inl z) /\ stands z v | inr e => wDecode_words wm ws b = Ret (inr e) end.
Proof.
  intros wm. induction ws as [|v ws IH]; intros b Bv S; cbn [decode_words wDecode_words]; [exists b; split; [reflexivity|exact S]|]. destruct (map_get wm v) as [i|]; [|reflexivity].
  destruct (mul_small b Bv 2048 S ltac:(lia)) as (z & E & Sz). rewrite E. cbn [bind]. apply IH. apply natOr_ok; [exact Sz|apply setBytes_ok].
Qed.
Lemma wEntropyOfWords_ok : forall H st ws, wEntropyOfWords H st ws = Ret (entropyOfWords H st ws).
Proof.
  intros H st ws. unfold wEntropyOfWords, entropyOfWords. pose proof (wDecode_words_ok (wordMap st) ws (setWord 0) 0 (small_stands 0 ltac:(lia))) as D. destruct (decode_words (wordMap st) ws 0) as [b|e]; [|rewrite D; reflexivity].
  destruct D as (z & E & S). rewrite E. cbn [bind]. cbv zeta. set (n := length ws).
  assert (RM : 0 <= checksumMask n < 256) by (unfold checksumMask; repeat (match goal with |- context [match ?k with O => _ | S _ => _ end] => destruct k end); lia).
  assert (RS : 0 < checksumShift n < 65536) by (unfold checksumShift; repeat (match goal with |- context [match ?k with O => _ | S _ => _ end] => destruct k end); lia).
  pose proof (small_stands (checksumMask n) ltac:(lia)) as SM. pose proof (natAdd_ok _ _ _ _ SM (small_stands 1 ltac:(lia))) as SM1.
  assert (L1 : (length (natAdd (setWord (checksumMask n)) (setWord 1)) < 100)%nat). { rewrite (stands_unique _ _ _ SM1 (small_stands (checksumMask n + 1) ltac:(lia))). pose proof (small_len (checksumMask n + 1)). lia. }
  destruct (natDiv_ok z _ b _ S SM1 ltac:(lia) L1) as (q & r & E1 & Sq & _). rewrite E1. cbn [bind]. rewrite (natBytes_ok q _ Sq). set (ent := padByteSlice (Z_bytes (b / (checksumMask n + 1))) (n / 3 * 4)).
  assert (RF : 0 <= firstChecksumByte H ent < 256) by apply Zb_range. pose proof (small_stands (firstChecksumByte H ent) ltac:(lia)) as SF.
  pose proof (natAnd_ok z _ b _ S SM) as SA.
  destruct (n =? 24)%nat; cbn [bind].
  - rewrite (cmp_eq _ _ _ _ SA SF). reflexivity.
  - destruct (div_small _ _ _ SF RS) as (q2 & r2 & E2 & Sq2 & _). rewrite E2. cbn [bind]. rewrite (cmp_eq _ _ _ _ SA Sq2). reflexivity.
Qed.

(** ** base58 *)
Lemma b58_range : Forall (fun d => 0 <= d < 256) b58_table.
Proof. unfold b58_table. repeat apply Forall_app_2 || (apply Forall_forall; intros x Hx; apply repeat_spec in Hx; subst; lia) || (repeat constructor; lia). Qed.
Lemma wDec_loop_ok : forall n b ans j A J, stands ans A -> stands j J ->
  match dec_loop n b A J with Panic => wDec_loop n b ans j = Panic | Ret None => wDec_loop n b ans j = Ret None | Ret (Some v) => exists z, wDec_loop n b ans j = Ret (Some z) /\ stands z v end.
Proof.
  induction n as [|n IH]; intros b ans j A J SA SJ; cbn [dec_loop wDec_loop]; [exists ans; split; [reflexivity|exact SA]|]. destruct (get b n) as [c|]; [|reflexivity]. cbn [bind].
  destruct (get b58_table (Z.to_nat (Zb c))) as [tmp|] eqn:G; [|reflexivity]. cbn [bind]. destruct (tmp =? 255); [reflexivity|].
  assert (RT : 0 <= tmp < 256). { unfold get in G. destruct (nth_error b58_table (Z.to_nat (Zb c))) as [d|] eqn:N; [|discriminate]. apply nth_error_In in N. pose proof (proj1 (Forall_forall _ _) b58_range d N) as Q. cbv beta in Q. assert (tmp = d) by congruence. subst d. exact Q. }
  destruct (mul_small j J tmp SJ ltac:(lia)) as (s & E1 & S1). rewrite E1. cbn [bind]. destruct (mul_small j J 58 SJ ltac:(lia)) as (j2 & E2 & S2). rewrite E2. cbn [bind]. apply IH; [apply natAdd_ok; assumption|exact S2].
Qed.
Lemma wDecode58_ok : forall b, wDecode58 b = Ret (Decode58 b).
Proof.
  intros b. rewrite <- GoDecode58_ok. unfold wDecode58, GoDecode58. pose proof (wDec_loop_ok (length b) b (setWord 0) (setWord 1) 0 1 (small_stands 0 ltac:(lia)) (small_stands 1 ltac:(lia))) as D.
  destruct (dec_loop (length b) b 0 1) as [[v|]|]; [|rewrite D; reflexivity|rewrite D; reflexivity]. destruct D as (z & E & S). rewrite E. cbn [bind]. rewrite (natBytes_ok z v S). reflexivity.
Qed.
Lemma wEnc_loop_ok : forall fuel x X ans, stands x X -> wEnc_loop fuel x ans = enc_loop fuel X ans.
Proof.
  assert (C : forall x X, stands x X -> (0 <? natCmp x (setWord 0)) = (0 <? X)).
  { intros x X S. rewrite (natCmp_ok x _ X 0 S (small_stands 0 ltac:(lia))). destruct (X ?= 0) eqn:C; [apply Z.compare_eq in C|apply (proj1 (Z.compare_lt_iff X 0)) in C|apply (proj1 (Z.compare_gt_iff X 0)) in C]; cbn [Z.ltb Z.compare]; lia. }
  induction fuel as [|fuel IH]; intros x X ans S; cbn [wEnc_loop enc_loop]; rewrite (C x X S); [reflexivity|]. destruct (0 <? X); [|reflexivity]. destruct (div_small x X 58 S ltac:(lia)) as (q & r & E & Sq & _ & N). rewrite E. cbn [bind]. rewrite N.
  destruct (get alphabet (Z.to_nat (X mod 58))); [|reflexivity]. cbn [bind]. apply IH. exact Sq.
Qed.
Lemma wEncode58_ok : forall b, wEncode58 b = Ret (Encode58 b).
Proof. intros b. rewrite <- GoEncode58_ok. unfold wEncode58, GoEncode58. rewrite (wEnc_loop_ok _ _ _ [] (setBytes_ok b)). reflexivity. Qed.
