(** GoNatExp.v - Montgomery's multiplication and the powers of math/big. *)
From Verif Require Import Base BaseFacts Bip32 GoCodec GoNat SpecNat GoNatFacts GoNatOps GoNatWW GoNatDiv.
From Coq Require Import Znumtheory Zpow_facts.

(** congruence *)
(** In proofs; for bip32/utils.go:119. *)
Definition cong (M a b : Z) : Prop := exists t, a = b + M * t.
Lemma cong_refl : forall M a, cong M a a. Proof. intros. exists 0. ring. Qed.
Lemma cong_eq : forall M a b, a = b -> cong M a b. Proof. intros M a b ->. apply cong_refl. Qed.
Lemma cong_sym : forall M a b, cong M a b -> cong M b a. Proof. intros M a b [t ->]. exists (- t). ring. Qed.
Lemma cong_trans : forall M a b c, cong M a b -> cong M b c -> cong M a c. Proof. intros M a b c [t ->] [u ->]. exists (t + u). ring. Qed.
Lemma cong_mul : forall M a b c d, cong M a b -> cong M c d -> cong M (a * c) (b * d).
Proof. intros M a b c d [t ->] [u ->]. exists (b * u + t * d + M * t * u). ring. Qed.
Lemma cong_add : forall M a b c d, cong M a b -> cong M c d -> cong M (a + c) (b + d). Proof. intros M a b c d [t ->] [u ->]. exists (t + u). ring. Qed.
Lemma cong_opp : forall M a b, cong M a b -> cong M (- a) (- b). Proof. intros M a b [t ->]. exists (- t). ring. Qed.
Lemma cong_mod : forall M a b, M <> 0 -> cong M a b -> a mod M = b mod M.
Proof. intros M a b H [t ->]. rewrite Z.mul_comm. apply Z_mod_plus_full. Qed.
Lemma mod_cong : forall M a, M <> 0 -> cong M (a mod M) a. Proof. intros M a H. exists (- (a / M)). pose proof (Z.div_mod a M H). lia. Qed.
Lemma cong_pow : forall M a b n, 0 <= n -> cong M a b -> cong M (a ^ n) (b ^ n).
Proof. intros M a b n Hn H. revert n Hn. apply natlike_ind; [apply cong_refl|]. intros n Hn IH. rewrite !Z.pow_succ_r by exact Hn. apply cong_mul; assumption. Qed.
Lemma cong_cancel : forall M r a b, rel_prime M r -> cong M (a * r) (b * r) -> cong M a b.
Proof.
  intros M r a b RP [t E]. assert (D : (M | r * (a - b))) by (exists t; rewrite Z.mul_sub_distr_l, (Z.mul_comm r a), E; ring).
  destruct (Gauss _ _ _ D RP) as [u K]. exists u. lia.
Qed.
Lemma ww_cong : forall a, cong BW (ww a) a. Proof. intros a. unfold ww. apply mod_cong. pose proof BW_big. lia. Qed.

(** the inverse of the lowest word *)
Lemma newton_ok : forall m0 r t k, cong BW (m0 * k) (1 - t ^ 2) -> cong BW (m0 * newton r t k) (1 - t ^ (2 ^ (Z.of_nat r + 1))).
Proof.
  intros m0. induction r as [|r IH]; intros t k H.
  - exact H.
  - cbn [newton]. set (t' := ww (t * t)). assert (T : cong BW t' (t * t)) by apply ww_cong. clearbody t'.
    eapply cong_trans; [apply IH|].
    + eapply cong_trans; [apply cong_mul; [apply cong_refl|apply ww_cong]|]. eapply cong_trans; [apply cong_mul; [apply cong_refl|apply cong_mul; [apply cong_refl|apply ww_cong]]|].
      rewrite Z.mul_assoc. eapply cong_trans; [apply cong_mul; [exact H|apply cong_refl]|].
      assert (E : cong BW ((1 - t ^ 2) * (t' + 1)) ((1 - t') * (t' + 1))). { apply cong_mul; [|apply cong_refl]. unfold Z.sub. apply cong_add; [apply cong_refl|]. apply cong_opp. replace (t ^ 2) with (t * t) by ring. apply cong_sym. exact T. }
      eapply cong_trans; [exact E|]. apply cong_eq. ring.
    + unfold Z.sub. apply cong_add; [apply cong_refl|]. apply cong_opp. replace (Z.of_nat (S r) + 1) with (1 + (Z.of_nat r + 1)) by lia. rewrite (Z.pow_add_r 2 1) by lia. rewrite (Z.pow_mul_r t) by (try apply Z.pow_nonneg; lia).
      change (2 ^ 1) with 2. replace (t ^ 2) with (t * t) by ring. apply cong_pow; [apply Z.pow_nonneg; lia|exact T].
Qed.
Lemma k0_ok : forall m0, Z.odd m0 = true -> cong BW (m0 * mont_k0 m0) (- 1).
Proof.
  intros m0 Ho. unfold mont_k0. eapply cong_trans; [apply cong_mul; [apply cong_refl|apply ww_cong]|]. rewrite Z.mul_opp_r. apply (cong_opp BW _ 1).
  set (t := ww (m0 - 1)). assert (T : cong BW t (m0 - 1)) by apply ww_cong.
  eapply cong_trans; [apply (newton_ok m0 6 t)|].
  - eapply cong_trans; [apply cong_mul; [apply cong_refl|apply ww_cong]|]. assert (E : cong BW (1 - (m0 - 1) ^ 2) (1 - t ^ 2)). { unfold Z.sub at 1 3. apply cong_add; [apply cong_refl|]. apply cong_opp. apply cong_pow; [lia|]. apply cong_sym. exact T. }
    eapply cong_trans; [|exact E]. apply cong_eq. ring.
  - change (Z.of_nat 6 + 1) with 7. change (2 ^ 7) with 128. replace 1 with (1 - 0) at 2 by lia. unfold Z.sub. apply cong_add; [apply cong_refl|]. apply cong_opp.
    eapply cong_trans; [apply cong_pow; [lia|exact T]|]. destruct (Zodd_ex m0) as [u Eu]; [apply Zodd_bool_iff; exact Ho|]. replace (m0 - 1) with (2 * u) by lia. rewrite Z.pow_mul_l. replace 128 with (64 + 64) at 1 by lia. rewrite Z.pow_add_r by lia. rewrite <- BW_pow.
    exists (BW * u ^ 128). ring.
Qed.

(** one multiplication *)
Lemma carry_sum : forall c c2 c3, 0 <= c <= 1 -> 0 <= c2 < BW -> 0 <= c3 < BW -> let cx := ww (c + c2) in let cy := ww (cx + c3) in let k := if (cx <? c2) || (cy <? c3) then 1 else 0 in cy + BW * k = c + c2 + c3 /\ 0 <= cy < BW /\ 0 <= k <= 1.
Proof.
  intros c c2 c3 Hc H2 H3 cx cy k. assert (Ry : 0 <= cy < BW) by apply ww_range. assert (Rk : 0 <= k <= 1) by (unfold k; destruct (_ || _); lia). split; [|split; assumption].
  assert (Wr : forall z, BW <= z < 2 * BW -> ww z = z - BW) by (intros z Hz; unfold ww; symmetry; apply (Z.mod_unique z BW 1); lia).
  destruct (Z_lt_ge_dec (c + c2) BW) as [A|A].
  - assert (Ex : cx = c + c2) by (apply ww_small; lia). destruct (Z_lt_ge_dec (cx + c3) BW) as [B|B].
    + assert (Ey : cy = cx + c3) by (apply ww_small; lia). unfold k. replace ((cx <? c2) || (cy <? c3)) with false by lia. lia.
    + assert (Ey : cy = cx + c3 - BW) by (apply Wr; lia). unfold k. replace ((cx <? c2) || (cy <? c3)) with true by lia. lia.
  - assert (Ex : cx = c + c2 - BW) by (apply Wr; lia). assert (Ex0 : cx = 0) by lia. assert (Ey : cy = cx + c3) by (apply ww_small; lia). pose proof BW_big. unfold k. replace ((cx <? c2) || (cy <? c3)) with true by lia. lia.
Qed.
Section Mont.
Variables (m : list Z) (k : Z) (n : nat).
Hypothesis Wm : words m.
Hypothesis Lm : length m = S n.
Hypothesis Hk : cong BW (val m * k) (- 1).
Hypothesis Rk : 0 <= k < BW.
Lemma mont_step_ok : forall x win c d, words x -> words win -> length x = S n -> length win = S n -> 0 <= c <= 1 -> 0 <= d < BW ->
  exists win' c' t, mont_step x m k win c d = Ret (win', c') /\ words win' /\ length win' = S n /\ 0 <= c' <= 1 /\ 0 <= t < BW /\
    BW * (val win' + pw (S n) * c') = val win + pw (S n) * c + d * val x + t * val m.
Proof.
  intros x win c d Wx Ww Lx Lw Hc Hd. unfold mont_step.
  destruct (addMulVVW win x d 0) as [z c2] eqn:E1. destruct (addMulVVW_ok _ _ _ _ _ _ E1 ltac:(lia) Ww Wx Hd ltac:(pose proof BW_big; lia)) as (A1 & A2 & A3 & A4).
  destruct z as [|z0 z]; [cbn [length] in A3; lia|]. change (get (z0 :: z) 0) with (Ret z0). cbn [bind]. set (t := ww (z0 * k)). assert (Rt : 0 <= t < BW) by apply ww_range.
  destruct (addMulVVW (z0 :: z) m t 0) as [z' c3] eqn:E2. destruct (addMulVVW_ok _ _ _ _ _ _ E2 ltac:(lia) A2 Wm Rt ltac:(pose proof BW_big; lia)) as (B1 & B2 & B3 & B4).
  destruct z' as [|z0' z']; [cbn [length] in B3; lia|]. cbn [tl].
  destruct (carry_sum c c2 c3 Hc A4 B4) as (C1 & C2 & C3). cbv zeta in C1, C2, C3. set (cy := ww (ww (c + c2) + c3)) in *. set (k' := if (ww (c + c2) <? c2) || (cy <? c3) then 1 else 0) in *.
  destruct (proj1 (words_cons _ _) B2) as [Hz0 Wz].
  assert (Z0 : z0' = 0).
  { assert (D : cong BW z0' 0).
    { assert (E : cong BW z0' (z0 + t * val m)). { rewrite !val_cons, Lm, pw_S in B1. exists (val z - val z' - pw n * c3). lia. }
      eapply cong_trans; [exact E|]. assert (F : cong BW (t * val m) (- z0)).
      { eapply cong_trans; [apply cong_mul; [apply ww_cong|apply cong_refl]|]. replace (z0 * k * val m) with (z0 * (val m * k)) by ring. eapply cong_trans; [apply cong_mul; [apply cong_refl|exact Hk]|]. apply cong_eq. ring. }
      eapply cong_trans; [apply cong_add; [apply cong_refl|exact F]|]. apply cong_eq. ring. }
    destruct D as [q D]. destruct (Z.eq_dec q 0) as [->|Nq]; [lia|exfalso]. nia. }
  exists (z' ++ [cy]), k', t. split; [reflexivity|]. split; [apply words_snoc; assumption|]. split; [rewrite app_length; cbn [length] in *; lia|]. split; [exact C3|]. split; [exact Rt|].
  rewrite val_app, val_one. cbn [length] in B3, A3. assert (Lz : length z' = n) by lia. rewrite Lz, pw_S.
  rewrite Lm, pw_S, val_cons, Z0 in B1. rewrite Lx, pw_S in A1.
  transitivity (BW * val z' + pw n * BW * (cy + BW * k')); [ring|]. rewrite C1. lia.
Qed.
Lemma mont_loop_ok : forall y x win c, words x -> words y -> words win -> length x = S n -> length win = S n -> 0 <= c <= 1 -> val win + pw (S n) * c < val m + val x ->
  exists win' c' T, mont_loop x m k win c y = Ret (win', c') /\ words win' /\ length win' = S n /\ 0 <= c' <= 1 /\ val win' + pw (S n) * c' < val m + val x /\
    pw (length y) * (val win' + pw (S n) * c') = val win + pw (S n) * c + val x * val y + T * val m.
Proof.
  induction y as [|d y IH]; intros x win c Wx Wy Ww Lx Lw Hc Hlt.
  - exists win, c, 0. cbn [mont_loop length val]. rewrite pw_0. repeat split; try assumption; lia.
  - destruct (proj1 (words_cons _ _) Wy) as [Hd Wy']. destruct (mont_step_ok x win c d Wx Ww Lx Lw Hc Hd) as (w1 & c1 & t & E & A1 & A2 & A3 & A4 & A5).
    pose proof (val_range m Wm) as Rm. pose proof (val_range x Wx) as Rx. pose proof BW_big as BB.
    assert (Hlt1 : val w1 + pw (S n) * c1 < val m + val x).
    { apply (Z.mul_lt_mono_pos_l BW); [lia|]. rewrite A5. assert (d * val x <= (BW - 1) * val x) by (apply Z.mul_le_mono_nonneg_r; lia). assert (t * val m <= (BW - 1) * val m) by (apply Z.mul_le_mono_nonneg_r; lia). lia. }
    destruct (IH x w1 c1 Wx Wy' A1 Lx A2 A3 Hlt1) as (w2 & c2 & T & E2 & B1 & B2 & B3 & B4 & B5).
    exists w2, c2, (t + BW * T). cbn [mont_loop]. rewrite E. cbn [bind]. rewrite E2. repeat split; try assumption; try lia.
    cbn [length]. rewrite pw_S, val_cons. rewrite <- Z.mul_assoc, B5. transitivity (BW * (val w1 + pw (S n) * c1) + BW * (val x * val y) + BW * T * val m); [ring|]. rewrite A5. ring.
Qed.
Lemma montgomery_ok : forall x y, words x -> words y -> length x = S n -> length y = S n -> 0 < val m ->
  exists z, montgomery x y m k = Ret z /\ words z /\ length z = S n /\ cong (val m) (val z * pw (S n)) (val x * val y).
Proof.
  intros x y Wx Wy Lx Ly Pm. unfold montgomery. rewrite Lm, Lx, Ly, Nat.eqb_refl. cbn [andb negb].
  pose proof (val_range x Wx) as Rx. pose proof (val_range m Wm) as Rm. rewrite Lx in Rx. rewrite Lm in Rm.
  destruct (mont_loop_ok y x (repeat 0 (S n)) 0 Wx Wy (words_repeat0 _) Lx (repeat_length _ _) ltac:(lia)) as (w & c & T & E & A1 & A2 & A3 & A4 & A5). { rewrite val_repeat0. lia. }
  rewrite E. cbn [bind]. eexists. split; [reflexivity|]. rewrite val_repeat0, Ly in A5. destruct (bit_one c A3) as [-> | ->]; cbn [Z.eqb].
  - repeat split; try assumption. exists T. lia.
  - destruct (subVV w m 0) as [r b] eqn:E2. cbn [fst]. destruct (subVV_ok _ _ _ _ _ E2 ltac:(lia) A1 Wm ltac:(lia)) as (B1 & B2 & B3 & B4). rewrite A2 in B1, B3. split; [exact B2|]. split; [lia|].
    pose proof (val_range r B2) as Rr. rewrite B3 in Rr. pose proof (val_range w A1) as Rw. rewrite A2 in Rw.
    assert (b = 1) by (destruct (bit_one b B4) as [-> | ->]; [exfalso; lia|reflexivity]). subst b.
    exists (T - pw (S n)). replace (val r) with (val w + pw (S n) * 1 - val m) by lia. lia.
Qed.
End Mont.

(** the powers *)
Section Powers.
Variables (m : list Z) (n : nat) (X : Z).
Hypothesis Wm : words m.
Hypothesis Lm : length m = S n.
Hypothesis Om : Z.odd (val m) = true.
Hypothesis Pm : 0 < val m.
Let k := mont_k0 (nth 0 m 0).
Let M := val m.
Let R := pw (S n).
Lemma m0_odd : Z.odd (nth 0 m 0) = true /\ cong BW (val m) (nth 0 m 0).
Proof.
  destruct m as [|m0 r] eqn:E; [discriminate|]. cbn [nth]. rewrite val_cons. split.
  - assert (O : Z.odd (m0 + BW * val r) = true) by (rewrite <- val_cons; exact Om). rewrite Z.odd_add, Z.odd_mul in O. replace (Z.odd BW) with false in O by reflexivity. cbn [andb] in O. rewrite Bool.xorb_false_r in O. exact O.
  - exists (val r). reflexivity.
Qed.
Lemma k_ok : cong BW (val m * k) (- 1) /\ 0 <= k < BW.
Proof.
  destruct m0_odd as [O C]. split; [|apply ww_range]. eapply cong_trans; [apply cong_mul; [exact C|apply cong_refl]|]. apply k0_ok. exact O.
Qed.
Lemma R_prime : rel_prime M R.
Proof.
  unfold R, pw. rewrite BW_pow, <- Z.pow_mul_r by lia. apply rel_prime_Zpower_r; [lia|]. apply bezout_rel_prime.
  destruct (Zodd_ex (val m)) as [u E]; [apply Zodd_bool_iff; exact Om|]. apply (Bezout_intro M 2 1 1 (- u)). unfold M. lia.
Qed.
(** [z] holds the [e]-th power of [X], times [R] *)
(** In proofs; for bip32/utils.go:119. *)
Definition holds (z : list Z) (e : Z) : Prop := words z /\ length z = S n /\ 0 <= e /\ cong M (val z) (X ^ e * R).
Lemma mont_mul : forall a b e f, holds a e -> holds b f -> exists z, montgomery a b m k = Ret z /\ holds z (e + f).
Proof.
  intros a b e f (Wa & La & He & Ca) (Wb & Lb & Hf & Cb). destruct k_ok as [K1 K2]. destruct (montgomery_ok m k n Wm Lm K1 a b Wa Wb La Lb Pm) as (z & E & W & L & C).
  exists z. split; [exact E|]. split; [exact W|]. split; [exact L|]. split; [lia|]. apply (cong_cancel M R); [exact R_prime|]. eapply cong_trans; [exact C|]. eapply cong_trans; [apply cong_mul; [exact Ca|exact Cb]|].
  rewrite Z.pow_add_r by assumption. apply cong_eq. ring.
Qed.
Lemma powers_ok : forall count p1 last e, holds p1 1 -> holds last e -> exists ps, mont_powers count m k p1 last = Ret ps /\ length ps = count /\ forall i, (i < count)%nat -> exists p, nth_error ps i = Some p /\ holds p (e + 1 + Z.of_nat i).
Proof.
  induction count as [|count IH]; intros p1 last e H1 Hl; [exists []; repeat split; intros; lia|].
  cbn [mont_powers]. destruct (mont_mul last p1 e 1 Hl H1) as (p & E & Hp). rewrite E. cbn [bind]. destruct (IH p1 p (e + 1) H1 Hp) as (ps & E' & L & F). rewrite E'. cbn [bind]. exists (p :: ps). split; [reflexivity|]. split; [cbn [length]; lia|].
  intros [|i] Hi; [exists p; split; [reflexivity|]; rewrite Z.add_0_r; exact Hp|]. destruct (F i ltac:(lia)) as (q & Q1 & Q2). exists q. split; [exact Q1|]. replace (e + 1 + Z.of_nat (S i)) with (e + 1 + 1 + Z.of_nat i) by lia. exact Q2.
Qed.
Variable powers : list (list Z).
Hypothesis Hp : forall i, (i < 16)%nat -> exists p, nth_error powers i = Some p /\ holds p (Z.of_nat i).
Lemma window_value : forall yi c, 0 <= yi < BW -> 0 <= c -> 4 * c <= 60 ->
  yi / 2 ^ (64 - 4 * (c + 1)) = (yi / 2 ^ 60) * 16 ^ c + ww (yi * 16) / 2 ^ (64 - 4 * c) /\ 0 <= yi / 2 ^ 60 < 16.
Proof.
  intros yi c Hy Hc H4. rewrite BW_pow in Hy. pose proof (Z.div_mod yi (2 ^ 60) ltac:(lia)) as DM. pose proof (Z.mod_pos_bound yi (2 ^ 60) ltac:(lia)) as MB.
  assert (Hh : 0 <= yi / 2 ^ 60 < 16). { split; [apply Z.div_pos; lia|]. apply Z.div_lt_upper_bound; lia. }
  split; [|exact Hh]. set (h := yi / 2 ^ 60) in *. set (l := yi mod 2 ^ 60) in *. clearbody h l. subst yi.
  assert (E16 : ww ((2 ^ 60 * h + l) * 16) = l * 16). { unfold ww. symmetry. apply (Z.mod_unique _ _ h); [left; rewrite BW_pow; lia|rewrite BW_pow; lia]. }
  rewrite E16. assert (P : 0 < 2 ^ (60 - 4 * c)) by (apply Z.pow_pos_nonneg; lia).
  replace (64 - 4 * (c + 1)) with (60 - 4 * c) by lia. replace (64 - 4 * c) with (4 + (60 - 4 * c)) by lia. rewrite (Z.pow_add_r 2 4) by lia. change (2 ^ 4) with 16. rewrite (Z.mul_comm 16), Z.div_mul_cancel_r by lia.
  assert (E60 : 2 ^ 60 = 16 ^ c * 2 ^ (60 - 4 * c)). { change 16 with (2 ^ 4). rewrite <- Z.pow_mul_r, <- Z.pow_add_r by lia. f_equal. lia. }
  rewrite E60. replace (16 ^ c * 2 ^ (60 - 4 * c) * h + l) with (h * 16 ^ c * 2 ^ (60 - 4 * c) + l) by ring. rewrite Z.div_add_l by lia. reflexivity.
Qed.
Lemma windows_ok : forall count first yi z e, (count <= 16)%nat -> 0 <= yi < BW -> holds z e -> (first = true -> e = 0) ->
  exists z', mont_windows count m k powers first yi z = Ret z' /\ holds z' (e * 16 ^ Z.of_nat count + yi / 2 ^ (64 - 4 * Z.of_nat count)).
Proof.
  induction count as [|count IH]; intros first yi z e Hc Hy Hz Hf.
  - exists z. split; [reflexivity|]. change (64 - 4 * Z.of_nat 0) with 64. rewrite <- BW_pow, Z.div_small by exact Hy. change (16 ^ Z.of_nat 0) with 1. rewrite Z.mul_1_r, Z.add_0_r. exact Hz.
  - cbn [mont_windows].
    assert (Q : exists z1, (if first then Ret z else bind (montgomery z z m k) (fun zz => bind (montgomery zz zz m k) (fun z => bind (montgomery z z m k) (fun zz => montgomery zz zz m k)))) = Ret z1 /\ holds z1 (e * 16)).
    { destruct first.
      - exists z. split; [reflexivity|]. rewrite (Hf eq_refl) in *. exact Hz.
      - destruct (mont_mul z z e e Hz Hz) as (a & Ea & Ha). rewrite Ea. cbn [bind]. destruct (mont_mul a a _ _ Ha Ha) as (b & Eb & Hb). rewrite Eb. cbn [bind]. destruct (mont_mul b b _ _ Hb Hb) as (c & Ec & Hc'). rewrite Ec. cbn [bind].
        destruct (mont_mul c c _ _ Hc' Hc') as (d & Ed & Hd). exists d. split; [exact Ed|]. replace (e * 16) with (e + e + (e + e) + (e + e + (e + e)) + (e + e + (e + e) + (e + e + (e + e)))) by ring. exact Hd. }
    destruct Q as (z1 & E1 & H1). rewrite E1. cbn [bind].
    destruct (window_value yi (Z.of_nat count) Hy ltac:(lia) ltac:(lia)) as [WV Rh]. rewrite Z.shiftr_div_pow2 by lia. set (h := yi / 2 ^ 60) in *.
    destruct (Hp (Z.to_nat h) ltac:(lia)) as (p & Ep & Hpp). unfold get at 1. rewrite Ep. cbn [bind]. destruct (mont_mul z1 p _ _ H1 Hpp) as (z2 & E2 & H2). rewrite E2. cbn [bind]. rewrite Z2Nat.id in H2 by lia.
    rewrite Z.shiftl_mul_pow2 by lia. change (2 ^ 4) with 16.
    destruct (IH false (ww (yi * 16)) z2 (e * 16 + h) ltac:(lia) (ww_range _) H2) as (z3 & E3 & H3); [discriminate|]. exists z3. split; [exact E3|].
    replace (Z.of_nat (S count)) with (Z.of_nat count + 1) by lia. rewrite WV. rewrite Z.pow_add_r by lia. change (16 ^ 1) with 16.
    replace (e * (16 ^ Z.of_nat count * 16) + (h * 16 ^ Z.of_nat count + ww (yi * 16) / 2 ^ (64 - 4 * Z.of_nat count))) with ((e * 16 + h) * 16 ^ Z.of_nat count + ww (yi * 16) / 2 ^ (64 - 4 * Z.of_nat count)) by ring. exact H3.
Qed.
Lemma mont_words_ok : forall y first z e, words y -> holds z e -> (first = true -> e = 0) -> exists z', mont_words m k powers first y z = Ret z' /\ holds z' (e * pw (length y) + val (rev y)).
Proof.
  induction y as [|yi y IH]; intros first z e Wy Hz Hf.
  - exists z. split; [reflexivity|]. cbn [length rev val]. rewrite pw_0, Z.mul_1_r, Z.add_0_r. exact Hz.
  - destruct (proj1 (words_cons _ _) Wy) as [Hy Wy']. cbn [mont_words]. destruct (windows_ok 16 first yi z e ltac:(lia) Hy Hz Hf) as (z1 & E1 & H1). rewrite E1. cbn [bind].
    change (64 - 4 * Z.of_nat 16) with 0 in H1. change (2 ^ 0) with 1 in H1. rewrite Z.div_1_r in H1. replace (16 ^ Z.of_nat 16) with BW in H1 by reflexivity.
    destruct (IH false z1 _ Wy' H1) as (z2 & E2 & H2); [discriminate|]. exists z2. split; [exact E2|]. cbn [length rev]. rewrite pw_S, val_app, val_one, rev_length.
    replace (e * (BW * pw (length y)) + (val (rev y) + pw (length y) * yi)) with ((e * BW + yi) * pw (length y) + val (rev y)) by ring. exact H2.
Qed.
End Powers.
Lemma pad_ok : forall x n, words x -> (length x <= n)%nat -> words (pad_words n x) /\ length (pad_words n x) = n /\ val (pad_words n x) = val x.
Proof.
  intros x n W L. unfold pad_words. split; [apply words_app; split; [exact W|apply words_repeat0]|]. split; [rewrite app_length, repeat_length; lia|]. rewrite val_app, val_repeat0. lia.
Qed.
Lemma expNNMontgomery_ok : forall x y m a b M, stands x a -> stands y b -> stands m M -> Z.odd M = true -> 0 < M -> (length m < 100)%nat -> exists z, expNNMontgomery x y m = Ret z /\ stands z (a ^ b mod M).
Proof.
  intros x y m a b M Sx Sy Sm Om Pm Lm. destruct m as [|m0 mr] eqn:Em; [destruct Sm as (_ & _ & V); cbn [val] in V; lia|]. rewrite <- Em in *. set (n := length mr). assert (Ln : length m = S n) by (rewrite Em; reflexivity).
  pose proof Sm as (Wm & Nm & Vm). assert (Ovm : Z.odd (val m) = true) by (rewrite Vm; exact Om). assert (Pvm : 0 < val m) by lia.
  unfold expNNMontgomery. rewrite Ln.
  assert (Qx : exists x1, (if (S n <? length x)%nat then bind (natDiv x m) (fun p => let (q, r) := p in Ret r) else Ret x) = Ret x1 /\ words x1 /\ (length x1 <= S n)%nat /\ cong M (val x1) a).
  { destruct (S n <? length x)%nat eqn:C.
    - destruct (natDiv_ok x m a M Sx Sm Pm Lm) as (q & r & E & _ & Sr). rewrite E. cbn [bind]. exists r. split; [reflexivity|]. pose proof Sr as (Wr & _ & Vr). split; [exact Wr|]. split.
      + destruct (list_eq_dec Z.eq_dec r []) as [->|Nr]; [cbn [length]; lia|]. pose proof (stands_low r _ Sr Nr) as Lo. pose proof (Z.mod_pos_bound a M Pm). pose proof (stands_nonneg m M Sm) as Rm. rewrite Ln in Rm.
        destruct (Nat.le_gt_cases (length r) (S n)) as [G|G]; [exact G|exfalso]. pose proof (pw_mono (S n) (length r - 1) ltac:(lia)). lia.
      + rewrite Vr. apply mod_cong. lia.
    - exists x. apply Nat.ltb_ge in C. destruct Sx as (Wx & _ & Vx). repeat split; try assumption. rewrite Vx. apply cong_refl. }
  destruct Qx as (x1 & E1 & Wx1 & Lx1 & Cx1). rewrite E1. cbn [bind]. destruct (pad_ok x1 (S n) Wx1 Lx1) as (Wp & Lp & Vp). set (xp := pad_words (S n) x1) in *.
  replace (get m 0) with (Ret m0) by (rewrite Em; reflexivity). cbn [bind].
  assert (K0 : mont_k0 m0 = mont_k0 (nth 0 m 0)) by (rewrite Em; reflexivity). rewrite K0.
  assert (S1 : stands (setWord 1) 1) by (apply setWord_stands; pose proof BW_big; lia).
  pose proof (natShl_ok (setWord 1) (2 * Z.of_nat (S n) * 64) 1 ltac:(lia) S1) as Ssh.
  assert (ER : 1 * 2 ^ (2 * Z.of_nat (S n) * 64) = pw (S n) * pw (S n)). { unfold pw. rewrite BW_pow, <- Z.pow_mul_r, <- Z.pow_add_r by lia. rewrite Z.mul_1_l. f_equal. lia. }
  rewrite ER in Ssh. destruct (natDiv_ok _ m _ M Ssh Sm Pm Lm) as (q & RR & E2 & _ & SRR). rewrite E2. cbn [bind].
  assert (LRR : (length RR <= S n)%nat). { destruct (list_eq_dec Z.eq_dec RR []) as [->|Nr]; [cbn [length]; lia|]. pose proof (stands_low RR _ SRR Nr) as Lo. pose proof (Z.mod_pos_bound (pw (S n) * pw (S n)) M Pm). pose proof (stands_nonneg m M Sm) as Rm. rewrite Ln in Rm.
        destruct (Nat.le_gt_cases (length RR) (S n)) as [G|G]; [exact G|exfalso]. pose proof (pw_mono (S n) (length RR - 1) ltac:(lia)). lia. }
  pose proof SRR as (WRR & _ & VRR). destruct (pad_ok RR (S n) WRR LRR) as (WRp & LRp & VRp). set (RRp := pad_words (S n) RR) in *.
  replace (S n - 1)%nat with n by lia. set (one := 1 :: repeat 0 n).
  assert (Wone : words one) by (apply words_cons; split; [pose proof BW_big; lia|apply words_repeat0]). assert (Lone : length one = S n) by (unfold one; cbn [length]; rewrite repeat_length; reflexivity). assert (Vone : val one = 1) by (unfold one; rewrite val_cons, val_repeat0; lia).
  assert (CRR : cong M (val RRp) (pw (S n) * pw (S n))) by (rewrite VRp, VRR; apply mod_cong; lia).
  destruct (k_ok m n Wm Ln Ovm Pvm) as [K1 K2]. pose proof (R_prime m n Ln Ovm) as RP. rewrite Vm in RP.
  destruct (montgomery_ok m _ n Wm Ln K1 one RRp Wone WRp Lone LRp Pvm) as (p0 & F0 & W0 & L0 & C0). rewrite F0. cbn [bind].
  destruct (montgomery_ok m _ n Wm Ln K1 xp RRp Wp WRp Lp LRp Pvm) as (p1 & F1 & W1 & L1 & C1). rewrite F1. cbn [bind]. rewrite Vm in C0, C1.
  assert (H0 : holds m n a p0 0). { split; [exact W0|]. split; [exact L0|]. split; [lia|]. rewrite Vm. apply (cong_cancel M (pw (S n))); [exact RP|]. eapply cong_trans; [exact C0|]. rewrite Vone, Z.pow_0_r, !Z.mul_1_l. exact CRR. }
  assert (H1 : holds m n a p1 1). { split; [exact W1|]. split; [exact L1|]. split; [lia|]. rewrite Vm. apply (cong_cancel M (pw (S n))); [exact RP|]. eapply cong_trans; [exact C1|]. rewrite Z.pow_1_r, Vp, <- Z.mul_assoc. apply cong_mul; assumption. }
  destruct (powers_ok m n a Wm Ln Ovm Pvm 14 p1 p1 1 H1 H1) as (ps & F2 & Lps & Hps). rewrite F2. cbn [bind].
  assert (HP : forall i, (i < 16)%nat -> exists p, nth_error (p0 :: p1 :: ps) i = Some p /\ holds m n a p (Z.of_nat i)).
  { intros [|[|i]] Hi; [exists p0; split; [reflexivity|exact H0]|exists p1; split; [reflexivity|exact H1]|]. destruct (Hps i ltac:(lia)) as (p & Q1 & Q2). exists p. split; [exact Q1|]. replace (Z.of_nat (S (S i))) with (1 + 1 + Z.of_nat i) by lia. exact Q2. }
  pose proof Sy as (Wy & _ & Vy).
  destruct (mont_words_ok m n a Wm Ln Ovm Pvm (p0 :: p1 :: ps) HP (rev y) true p0 0 (Forall_rev Wy) H0 (fun _ => eq_refl)) as (z & F3 & Hz). rewrite F3. cbn [bind]. rewrite Z.mul_0_l, Z.add_0_l, rev_involutive, Vy in Hz.
  destruct Hz as (Wz & Lz & _ & Cz). rewrite Vm in Cz.
  destruct (montgomery_ok m _ n Wm Ln K1 z one Wz Wone Lz Lone Pvm) as (zz & F4 & Wzz & Lzz & Czz). rewrite F4. cbn [bind]. rewrite Vm, Vone, Z.mul_1_r in Czz.
  assert (Fin : cong M (val zz) (a ^ b)). { apply (cong_cancel M (pw (S n))); [exact RP|]. eapply cong_trans; [exact Czz|exact Cz]. }
  pose proof (val_range zz Wzz) as Rzz.
  rewrite (natCmp_words zz m) by (try assumption; lia). rewrite Vm. destruct (val zz ?= M) eqn:C; cbn [Z.ltb Z.compare].
  2:{ apply (proj1 (Z.compare_lt_iff (val zz) M)) in C. eexists. split; [reflexivity|]. apply norm_stands; [exact Wzz|]. rewrite <- (cong_mod M _ _ ltac:(lia) Fin). symmetry. apply Z.mod_small. lia. }
  all: assert (Ge : M <= val zz) by (try (apply Z.compare_eq in C; lia); apply (proj1 (Z.compare_gt_iff (val zz) M)) in C; lia).
  all: assert (Szz : stands zz (val zz)).
  1,3: split; [exact Wzz|]; split; [|reflexivity]; destruct (snoc zz) as (z0 & t & Et & Lt); [intro Q; rewrite Q in Lzz; discriminate|]; rewrite Et, last_last; intro; subst t;
    pose proof (stands_low m M Sm ltac:(rewrite Em; discriminate)) as Lo; rewrite Et in Wzz; destruct (top_word _ _ Wzz) as [TW _]; rewrite <- Et in TW; rewrite Ln, Lt in *; rewrite Lzz in TW; lia.
  all: destruct (natSub_ok zz m (val zz) M Szz Sm Ge) as (d & F5 & Sd); rewrite F5; cbn [bind]; rewrite (natCmp_ok d m (val zz - M) M Sd Sm).
  all: assert (Fd : cong M (val zz - M) (a ^ b)) by (destruct Fin as [t Ft]; exists (t - 1); lia).
  all: destruct (val zz - M ?= M) eqn:C2; cbn [Z.ltb Z.compare].
  all: try (apply (proj1 (Z.compare_lt_iff (val zz - M) M)) in C2; exists d; split; [reflexivity|]; replace (a ^ b mod M) with (val zz - M); [exact Sd|]; rewrite <- (cong_mod M _ _ ltac:(lia) Fd); symmetry; apply Z.mod_small; lia).
  all: destruct (natDiv_ok d m _ M Sd Sm Pm Lm) as (q2 & r2 & F6 & _ & Sr2); rewrite F6; cbn [bind]; exists r2; split; [reflexivity|]; rewrite <- (cong_mod M _ _ ltac:(lia) Fd); exact Sr2.
Qed.
