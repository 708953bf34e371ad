(** GoNatWW.v - division of the numbers of math/big: two words by one with a reciprocal. *)
From Verif Require Import Base BaseFacts Bip32 GoCodec GoNat SpecNat GoNatFacts GoNatOps.

Lemma nlz_ok : forall y, 0 < y < BW -> 0 <= nlz y < 64 /\ BW <= 2 * (y * 2 ^ nlz y) /\ y * 2 ^ nlz y < BW.
Proof.
  intros y H. unfold nlz. replace (y =? 0) with false by lia. destruct (Z.log2_spec y ltac:(lia)) as [L1 L2]. pose proof (Z.log2_nonneg y).
  assert (L3 : Z.log2 y < 64) by (apply Z.log2_lt_pow2; [lia|]; rewrite <- BW_pow; lia). split; [lia|]. rewrite BW_pow.
  pose proof (Z.pow_pos_nonneg 2 (63 - Z.log2 y) ltac:(lia) ltac:(lia)).
  assert (E1 : 2 ^ 64 = 2 * (2 ^ Z.log2 y * 2 ^ (63 - Z.log2 y))). { rewrite <- Z.pow_add_r by lia. replace (Z.log2 y + (63 - Z.log2 y)) with 63 by lia. reflexivity. }
  assert (E2 : 2 ^ 64 = 2 ^ Z.succ (Z.log2 y) * 2 ^ (63 - Z.log2 y)). { rewrite <- Z.pow_add_r by lia. f_equal. lia. }
  split; [rewrite E1; nia|rewrite E2; nia].
Qed.
Lemma scaled : forall y, 0 < y < BW -> ww (Z.shiftl y (nlz y)) = y * 2 ^ nlz y.
Proof. intros y H. destruct (nlz_ok y H) as (A & B & C). rewrite Z.shiftl_mul_pow2 by lia. apply ww_small. split; [|exact C]. pose proof (Z.pow_pos_nonneg 2 (nlz y) ltac:(lia) ltac:(lia)). nia. Qed.
Lemma reciprocal_ok : forall y, 0 < y < BW -> exists m, reciprocalWord y = Ret m /\ m + BW = (BW * BW - 1) / (y * 2 ^ nlz y) /\ 0 <= m < BW.
Proof.
  intros y H. destruct (nlz_ok y H) as (A & B & C). unfold reciprocalWord. cbv zeta. rewrite scaled by exact H. set (u := y * 2 ^ nlz y) in *. pose proof BW_big. assert (U : 0 < u) by lia. clearbody u.
  unfold bitsDiv. replace ((u =? 0) || (u <=? BW - 1 - u)) with false by lia. cbn [bind]. eexists. split; [reflexivity|].
  replace ((BW - 1 - u) * BW + (BW - 1)) with (BW * BW - 1 + (- BW) * u) by ring. rewrite Z_div_plus_full by lia. split; [lia|].
  assert (BW <= (BW * BW - 1) / u) by (apply Z.div_le_lower_bound; nia). assert ((BW * BW - 1) / u < 2 * BW) by (apply Z.div_lt_upper_bound; nia). lia.
Qed.

(** the division of two words by a word with its highest bit set *)
(** In proofs; for bip32/utils.go:116, 119. *)
Definition div21 (x1 x0 d m : Z) : Z * Z :=
  let (t1, t0) := bitsMul m x1 in
  let (_, c) := bitsAdd t0 x0 0 in
  let (t1, _) := bitsAdd t1 x1 c in
  let qq := t1 in
  let (dq1, dq0) := bitsMul d qq in
  let (r0, b) := bitsSub x0 dq0 0 in
  let (r1, _) := bitsSub x1 dq1 b in
  let (qq, r0) := if r1 =? 0 then (qq, r0) else (ww (qq + 1), ww (r0 - d)) in
  if r0 <? d then (qq, r0) else (ww (qq + 1), ww (r0 - d)).
Lemma guess_bounds : forall W d x1 x0 v q, 0 < d < W -> W <= 2 * d -> 0 <= x1 < d -> 0 <= x0 < W -> v * d <= W * W - 1 -> W * W - d <= v * d -> 0 <= v ->
  q * W <= v * x1 + x0 -> v * x1 + x0 < (q + 1) * W -> q * d <= x1 * W + x0 /\ x1 * W + x0 - q * d < W + d.
Proof.
  intros W d x1 x0 v q Hd Hn H1 H0 V1 V2 V0 Q1 Q2. split.
  - assert (q * d * W <= (x1 * W + x0) * W); [|nia].
    apply Z.le_trans with (v * d * x1 + x0 * d); [nia|]. assert (v * d * x1 <= (W * W - 1) * x1) by nia. assert (x0 * d <= x0 * W) by nia. nia.
  - assert ((x1 * W + x0 - q * d) * W < (W + d) * W); [|nia].
    assert (A : (q + 1) * W * d >= (v * x1 + x0 + 1) * d) by nia. assert (B : v * d * x1 >= (W * W - d) * x1) by nia.
    assert (C : (x1 * W + x0) * W - q * d * W <= W * d + d * x1 + x0 * (W - d) - d) by nia.
    assert (D : d * x1 <= d * (d - 1)) by nia. assert (E : x0 * (W - d) <= (W - 1) * (W - d)) by nia. nia.
Qed.
Lemma two_lt : forall W d x1 x0, 0 <= x0 < W -> x1 < d -> x1 * W + x0 < d * W.
Proof. intros. nia. Qed.
Lemma bit_one : forall k, 0 <= k <= 1 -> k = 0 \/ k = 1. Proof. intros. lia. Qed.
Lemma high_word : forall W d r r0 r1 k, 0 < d < W -> 0 <= r < W + d -> r = r0 + W * (r1 - W * k) -> 0 <= r0 < W -> 0 <= r1 < W -> 0 <= k <= 1 -> k = 0 /\ (r1 = 0 \/ r1 = 1).
Proof. intros W d r r0 r1 k Hd Hr E H0 H1 Hk. destruct (bit_one k Hk) as [-> | ->]; [split; [reflexivity|]; nia|exfalso; nia]. Qed.
Lemma div21_ok : forall d x1 x0 m, 0 < d < BW -> BW <= 2 * d -> 0 <= x1 < d -> 0 <= x0 < BW -> m + BW = (BW * BW - 1) / d -> 0 <= m < BW ->
  div21 x1 x0 d m = ((x1 * BW + x0) / d, (x1 * BW + x0) mod d).
Proof.
  intros d x1 x0 m Hd Hn H1 H0 Em Hm. unfold div21. pose proof BW_big as BB.
  destruct (bitsMul m x1) as [t1 t0] eqn:E1. destruct (bitsMul_ok _ _ _ _ E1 Hm ltac:(lia)) as (A1 & A2 & A3).
  destruct (bitsAdd t0 x0 0) as [s c] eqn:E2. destruct (bitsAdd_ok _ _ _ _ _ E2 A2 H0 ltac:(lia)) as (B1 & B2 & B3).
  pose proof (Z.div_mod (BW * BW - 1) d ltac:(lia)) as DM. pose proof (Z.mod_pos_bound (BW * BW - 1) d ltac:(lia)) as MB. rewrite <- Em in DM.
  set (q := t1 + x1 + c). assert (Q1 : q * BW + s = (m + BW) * x1 + x0) by (subst q; lia).
  destruct (guess_bounds BW d x1 x0 (m + BW) q) as [G1 G2]; try lia.
  assert (Qr : 0 <= q < BW). { split; [subst q; lia|]. apply (Z.mul_lt_mono_pos_r d); [lia|]. rewrite (Z.mul_comm BW). apply Z.le_lt_trans with (x1 * BW + x0); [exact G1|apply two_lt; lia]. }
  destruct (bitsAdd t1 x1 c) as [q' k] eqn:E3. destruct (bitsAdd_ok _ _ _ _ _ E3 ltac:(lia) ltac:(lia) B3) as (C1 & C2 & C3).
  assert (q' = q) by (fold q in C1; clear - C1 C2 C3 Qr; destruct (bit_one k C3) as [-> | ->]; lia). subst q'. clear E3 C1 C2 C3 k. clearbody q. clear E1 E2 A1 A2 A3 B1 B2 B3.
  destruct (bitsMul d q) as [dq1 dq0] eqn:E1. destruct (bitsMul_ok _ _ _ _ E1 ltac:(lia) Qr) as (A1 & A2 & A3).
  destruct (bitsSub x0 dq0 0) as [r0 b] eqn:E2. destruct (bitsSub_ok _ _ _ _ _ E2 H0 A2 ltac:(lia)) as (B1 & B2 & B3).
  destruct (bitsSub x1 dq1 b) as [r1 k] eqn:E3. destruct (bitsSub_ok _ _ _ _ _ E3 ltac:(lia) ltac:(lia) B3) as (C1 & C2 & C3).
  set (N := x1 * BW + x0) in *. assert (R : N - q * d = r0 + BW * (r1 - BW * k)) by (subst N; lia).
  destruct (high_word BW d (N - q * d) r0 r1 k Hd ltac:(lia) R B2 C2 C3) as [-> R1]. rewrite Z.mul_0_r, Z.sub_0_r in R.
  assert (Fin : forall q' r', N = q' * d + r' -> 0 <= r' < d -> (q', r') = (N / d, N mod d)).
  { intros q' r' E Hr. f_equal; [apply (Z.div_unique N d q' r')|apply (Z.mod_unique N d q' r')]; lia. }
  assert (Nd : N < d * BW) by (subst N; apply two_lt; lia).
  assert (Qm : forall q', q' * d <= N -> q' < BW) by (intros q' L; apply (Z.mul_lt_mono_pos_r d); lia).
  destruct R1 as [-> | ->]; cbn [Z.eqb].
  - destruct (r0 <? d) eqn:L; [apply Fin; lia|]. rewrite (ww_small (r0 - d)) by lia. rewrite ww_small by (split; [lia|apply Qm; lia]). apply Fin; lia.
  - assert (Rr : r0 + BW - d < BW) by lia. assert (W1 : ww (r0 - d) = r0 + BW - d). { unfold ww. symmetry. apply (Z.mod_unique (r0 - d) BW (-1)); lia. }
    rewrite W1. rewrite (ww_small (q + 1)) by (split; [lia|apply Qm; lia]). destruct (r0 + BW - d <? d) eqn:L; [apply Fin; lia|]. rewrite (ww_small (r0 + BW - d - d)) by lia. rewrite ww_small by (split; [lia|apply Qm; lia]). apply Fin; lia.
Qed.
Lemma divWW_ok : forall y x1 x0 m, 0 < y < BW -> reciprocalWord y = Ret m -> 0 <= x1 < y -> 0 <= x0 < BW -> divWW x1 x0 y m = ((x1 * BW + x0) / y, (x1 * BW + x0) mod y).
Proof.
  intros y x1 x0 m Hy Em H1 H0. destruct (reciprocal_ok y Hy) as (m' & Em' & V & Hm). assert (m' = m) by congruence. subst m'. clear Em'. destruct (nlz_ok y Hy) as (S1 & S2 & S3).
  set (s := nlz y) in *. pose proof (Z.pow_pos_nonneg 2 s ltac:(lia) ltac:(lia)) as P.
  assert (E : divWW x1 x0 y m = (let (q, r) := div21 (x1 * 2 ^ s + Z.shiftr x0 (64 - s)) (ww (Z.shiftl x0 s)) (y * 2 ^ s) m in (q, Z.shiftr r s))).
  { unfold divWW. fold s. destruct (s =? 0) eqn:E0.
    - replace s with 0 by lia. change (2 ^ 0) with 1. rewrite Z.shiftl_0_r, !Z.mul_1_r, (ww_small x0) by lia. replace (Z.shiftr x0 (64 - 0)) with 0.
      2:{ rewrite Z.shiftr_div_pow2 by lia. change (64 - 0) with 64. rewrite <- BW_pow. symmetry. apply Z.div_small. lia. }
      rewrite Z.add_0_r. unfold div21. destruct (bitsMul m x1), (bitsAdd z0 x0 0), (bitsAdd z x1 z2), (bitsMul y z3), (bitsSub x0 z6 0), (bitsSub x1 z5 z8), (z9 =? 0); (destruct (_ <? y); reflexivity).
    - unfold s at 3 5. rewrite scaled by exact Hy. fold s.
      assert (L : Z.lor (ww (Z.shiftl x1 s)) (Z.shiftr x0 (64 - s)) = x1 * 2 ^ s + Z.shiftr x0 (64 - s)).
      { rewrite Z.shiftl_mul_pow2 by lia. rewrite ww_small by nia. rewrite Z.lor_comm, <- (Z.shiftl_mul_pow2 x1 s) by lia. rewrite lor_shift; [rewrite Z.shiftl_mul_pow2 by lia; ring|lia| |lia].
        rewrite Z.shiftr_div_pow2 by lia. split; [apply Z.div_pos; [lia|apply Z.pow_pos_nonneg; lia]|]. apply Z.div_lt_upper_bound; [apply Z.pow_pos_nonneg; lia|]. rewrite <- Z.pow_add_r by lia.
        replace (64 - s + s) with 64 by lia. rewrite <- BW_pow. lia. }
      rewrite L. unfold div21. generalize (x1 * 2 ^ s + Z.shiftr x0 (64 - s)) (ww (Z.shiftl x0 s)) (y * 2 ^ s). intros a b d.
      destruct (bitsMul m a), (bitsAdd z0 b 0), (bitsAdd z a z2), (bitsMul d z3), (bitsSub b z6 0), (bitsSub a z5 z8), (z9 =? 0); (destruct (_ <? d); reflexivity). }
  rewrite E. set (h := Z.shiftr x0 (64 - s)). set (l := ww (Z.shiftl x0 s)).
  assert (HL : x0 * 2 ^ s = l + BW * h /\ 0 <= h < 2 ^ s).
  { subst h l. destruct (Z.eq_dec s 0) as [->|Ns].
    - change (2 ^ 0) with 1. rewrite Z.shiftl_0_r, ww_small by lia. rewrite Z.shiftr_div_pow2 by lia. change (64 - 0) with 64. rewrite <- BW_pow, Z.div_small by lia. lia.
    - split; [apply shl_word; lia|]. pose proof (shr_lt x0 (64 - s) ltac:(lia) H0) as R. replace (64 - (64 - s)) with s in R by lia. exact R. }
  destruct HL as [HL Hh]. assert (Hl : 0 <= l < BW) by (apply ww_range). clearbody h l.
  rewrite div21_ok by (assumption || lia || nia).
  assert (N : (x1 * 2 ^ s + h) * BW + l = (x1 * BW + x0) * 2 ^ s) by (transitivity (x1 * 2 ^ s * BW + (l + BW * h)); [ring|]; rewrite <- HL; ring). rewrite N.
  rewrite Z.div_mul_cancel_r by lia. rewrite Zmult_mod_distr_r. rewrite Z.shiftr_div_pow2 by lia. rewrite Z.div_mul by lia. reflexivity.
Qed.

