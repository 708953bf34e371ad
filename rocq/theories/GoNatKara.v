(** GoNatKara.v - squares and products of long numbers of math/big: basicSqr, Karatsuba's method, nat.mul and nat.sqr. *)
From Verif Require Import Base BaseFacts Bip32 GoCodec GoNat SpecNat GoNatFacts GoNatOps.

Lemma basicMul_loop_len : forall y x z, (length x + length y <= length z)%nat -> words x -> words y -> words z -> length (basicMul_loop z x y) = length z.
Proof.
  induction y as [|d y IH]; intros x z L Wx Wy Wz; cbn [basicMul_loop]; [reflexivity|]. apply words_cons in Wy as [Hd Wy]. cbn [length] in L. set (z' := if d =? 0 then z else _).
  assert (Z' : length z' = length z /\ words z').
  { subst z'. destruct (d =? 0); [split; [reflexivity|exact Wz]|]. destruct (addMulVVW (firstn (length x) z) x d 0) as [lo c] eqn:E1. pose proof BW_big.
    destruct (addMulVVW_ok _ _ _ _ _ _ E1 ltac:(apply firstn_length_le; lia) (words_firstn _ _ Wz) Wx Hd ltac:(lia)) as (_ & A2 & A3 & A4).
    split; [rewrite !app_length, skipn_length, A3; cbn [length]; lia|]. apply words_app. split; [exact A2|]. apply words_cons. split; [lia|apply words_skipn; exact Wz]. }
  clearbody z'. destruct Z' as [Lz W]. destruct z' as [|z0 z'']; [cbn in Lz; lia|]. cbn [length] in *. apply words_cons in W as [_ W]. rewrite (IH x z'') by (assumption || lia). exact Lz.
Qed.
Lemma basicMul_len : forall x y, words x -> words y -> length (basicMul x y) = (length x + length y)%nat.
Proof. intros x y Wx Wy. unfold basicMul. rewrite basicMul_loop_len; [apply repeat_length|rewrite repeat_length; lia|exact Wx|exact Wy|apply words_repeat0]. Qed.

(** ** adding and subtracting in the middle *)
Lemma skipn_add : forall (z : list Z) n i, skipn n (skipn i z) = skipn (i + n) z.
Proof. induction z as [|a z IH]; intros n i; [rewrite !skipn_nil; reflexivity|]. destruct i; [reflexivity|]. cbn [skipn Nat.add]. apply IH. Qed.
Lemma val_parts : forall z i n, (i + n <= length z)%nat -> val z = val (firstn i z) + pw i * (val (firstn n (skipn i z)) + pw n * val (skipn (i + n) z)).
Proof.
  intros z i n L. rewrite <- (firstn_skipn i z) at 1. rewrite val_app, firstn_length_le by lia. f_equal. f_equal.
  rewrite <- (firstn_skipn n (skipn i z)) at 1. rewrite val_app, firstn_length_le by (rewrite skipn_length; lia). rewrite skipn_add. reflexivity.
Qed.
(** In proofs; for bip32/utils.go:119. *)
Definition place_add (z x : list Z) (i : nat) : list Z :=
  let n := length x in
  let (m, c) := addVV (firstn n (skipn i z)) x 0 in
  firstn i z ++ m ++ (if c =? 0 then skipn (i + n) z else fst (addVW (skipn (i + n) z) c)).
(** In proofs; for bip32/utils.go:119. *)
Definition place_sub (z x : list Z) (i : nat) : list Z :=
  let n := length x in
  let (m, c) := subVV (firstn n (skipn i z)) x 0 in
  firstn i z ++ m ++ (if c =? 0 then skipn (i + n) z else fst (subVW (skipn (i + n) z) c)).
Lemma place_add_ok : forall z x i, words z -> words x -> (i + length x <= length z)%nat ->
  words (place_add z x i) /\ length (place_add z x i) = length z /\ exists k, 0 <= k /\ val (place_add z x i) + pw (length z) * k = val z + pw i * val x.
Proof.
  intros z x i Wz Wx L. unfold place_add. set (n := length x) in *. assert (Lm : length (firstn n (skipn i z)) = length x) by (apply firstn_length_le; rewrite skipn_length; lia).
  destruct (addVV (firstn n (skipn i z)) x 0) as [m c] eqn:E. destruct (addVV_ok _ _ _ _ _ E Lm (words_firstn _ _ (words_skipn _ _ Wz)) Wx ltac:(lia)) as (A1 & A2 & A3 & A4). rewrite Lm in A1, A3. fold n in A1, A3.
  set (h := if c =? 0 then _ else _). assert (H : words h /\ length h = length (skipn (i + n) z) /\ exists k, 0 <= k /\ val h + pw (length (skipn (i + n) z)) * k = val (skipn (i + n) z) + c).
  { subst h. destruct (c =? 0) eqn:C; [split; [apply words_skipn; exact Wz|]; split; [reflexivity|]; exists 0; lia|]. destruct (addVW (skipn (i + n) z) c) as [h c2] eqn:E2.
    destruct (addVW_ok _ _ _ _ E2 (words_skipn _ _ Wz) A4) as (B1 & B2 & B3 & B4). cbn [fst]. split; [exact B2|]. split; [exact B3|]. exists c2. lia. }
  clearbody h. destruct H as (H1 & H2 & k & K0 & K1). rewrite skipn_length in H2, K1. assert (Lf : length (firstn i z) = i) by (apply firstn_length_le; lia).
  split; [apply words_app; split; [apply words_firstn; exact Wz|]; apply words_app; split; assumption|]. split; [rewrite !app_length, Lf, A3, H2; lia|]. exists k. split; [exact K0|].
  rewrite !val_app, Lf, A3, (val_parts z i n L). replace (length z) with (i + (n + (length z - (i + n))))%nat at 1 by lia. rewrite !pw_add.
  transitivity (val (firstn i z) + pw i * (val m + pw n * (val h + pw (length z - (i + n)) * k))); [ring|]. rewrite K1.
  transitivity (val (firstn i z) + pw i * (val m + pw n * c + pw n * val (skipn (i + n) z))); [ring|]. rewrite A1. ring.
Qed.
Lemma place_sub_ok : forall z x i, words z -> words x -> (i + length x <= length z)%nat ->
  words (place_sub z x i) /\ length (place_sub z x i) = length z /\ exists k, 0 <= k /\ val (place_sub z x i) - pw (length z) * k = val z - pw i * val x.
Proof.
  intros z x i Wz Wx L. unfold place_sub. set (n := length x) in *. assert (Lm : length (firstn n (skipn i z)) = length x) by (apply firstn_length_le; rewrite skipn_length; lia).
  destruct (subVV (firstn n (skipn i z)) x 0) as [m c] eqn:E. destruct (subVV_ok _ _ _ _ _ E Lm (words_firstn _ _ (words_skipn _ _ Wz)) Wx ltac:(lia)) as (A1 & A2 & A3 & A4). rewrite Lm in A1, A3. fold n in A1, A3.
  set (h := if c =? 0 then _ else _). assert (H : words h /\ length h = length (skipn (i + n) z) /\ exists k, 0 <= k /\ val h - pw (length (skipn (i + n) z)) * k = val (skipn (i + n) z) - c).
  { subst h. destruct (c =? 0) eqn:C; [split; [apply words_skipn; exact Wz|]; split; [reflexivity|]; exists 0; lia|]. destruct (subVW (skipn (i + n) z) c) as [h c2] eqn:E2.
    destruct (subVW_ok _ _ _ _ E2 (words_skipn _ _ Wz) A4) as (B1 & B2 & B3 & B4). cbn [fst]. split; [exact B2|]. split; [exact B3|]. exists c2. lia. }
  clearbody h. destruct H as (H1 & H2 & k & K0 & K1). rewrite skipn_length in H2, K1. assert (Lf : length (firstn i z) = i) by (apply firstn_length_le; lia).
  split; [apply words_app; split; [apply words_firstn; exact Wz|]; apply words_app; split; assumption|]. split; [rewrite !app_length, Lf, A3, H2; lia|]. exists k. split; [exact K0|].
  rewrite !val_app, Lf, A3, (val_parts z i n L). replace (length z) with (i + (n + (length z - (i + n))))%nat at 1 by lia. rewrite !pw_add.
  transitivity (val (firstn i z) + pw i * (val m + pw n * (val h - pw (length z - (i + n)) * k))); [ring|]. rewrite K1.
  transitivity (val (firstn i z) + pw i * (val m - pw n * c + pw n * val (skipn (i + n) z))); [ring|]. rewrite A1. ring.
Qed.
Lemma karatsubaAdd_eq : forall z x n, length x = n -> karatsubaAdd z x n = place_add z x (Nat.div2 n).
Proof. intros z x n <-. reflexivity. Qed.
Lemma karatsubaSub_eq : forall z x n, length x = n -> karatsubaSub z x n = place_sub z x (Nat.div2 n).
Proof. intros z x n <-. reflexivity. Qed.
Lemma wrap_eq : forall P v t k, 0 <= v < P -> 0 <= t < P -> v + P * k = t -> v = t.
Proof. intros P v t k Hv Ht E. assert (k = 0) by nia. subst k. lia. Qed.
Lemma addAt_ok : forall z x i v, words z -> stands x v -> val z + pw i * v < pw (length z) ->
  exists r, addAt z x i = Ret r /\ words r /\ length r = length z /\ val r = val z + pw i * v.
Proof.
  intros z x i v Wz Sx B. pose proof (val_range z Wz) as Rz. pose proof (pw_pos i) as Pi. pose proof (stands_nonneg x v Sx) as Rv. unfold addAt. destruct (length x =? 0)%nat eqn:E.
  - apply Nat.eqb_eq in E. destruct x; [|discriminate E]. destruct Sx as (_ & _ & <-). cbn [val]. exists z. split; [reflexivity|]. split; [exact Wz|]. split; [reflexivity|lia].
  - apply Nat.eqb_neq in E. assert (Nx : x <> []) by (intros ->; apply E; reflexivity). pose proof (stands_low x v Sx Nx) as Lo. destruct Sx as (Wx & _ & Vx).
    assert (Le : (i + length x <= length z)%nat).
    { destruct (Nat.le_gt_cases (i + length x) (length z)) as [G|G]; [exact G|exfalso]. pose proof (pw_mono (length z) (i + (length x - 1)) ltac:(lia)) as M. rewrite pw_add in M. nia. }
    destruct (length z <? i + length x)%nat eqn:G; [apply Nat.ltb_lt in G; lia|]. destruct (place_add_ok z x i Wz Wx Le) as (A1 & A2 & k & K0 & K1). exists (place_add z x i).
    split; [unfold place_add; cbv zeta; destruct (addVV _ _ _); reflexivity|]. split; [exact A1|]. split; [exact A2|]. rewrite Vx in K1. pose proof (val_range _ A1) as Rr. rewrite A2 in Rr.
    apply (wrap_eq (pw (length z)) _ _ k); [exact Rr| |exact K1]. nia.
Qed.

(** ** Karatsuba's method *)
Lemma halfDiff_ok : forall a b d s, halfDiff a b = (d, s) -> length a = length b -> words a -> words b ->
  words d /\ length d = length a /\ val d = if s then val b - val a else val a - val b.
Proof.
  intros a b d s E L Wa Wb. unfold halfDiff in E. destruct (subVV a b 0) as [d1 c] eqn:E1. destruct (subVV_ok _ _ _ _ _ E1 L Wa Wb ltac:(lia)) as (A1 & A2 & A3 & A4). destruct (c =? 0) eqn:C.
  - injection E as <- <-. split; [exact A2|]. split; [exact A3|]. nia.
  - destruct (subVV b a 0) as [d2 c2] eqn:E2. destruct (subVV_ok _ _ _ _ _ E2 (eq_sym L) Wb Wa ltac:(lia)) as (B1 & B2 & B3 & B4). cbn [fst] in E. injection E as <- <-.
    split; [exact B2|]. split; [congruence|]. pose proof (val_range _ A2) as R1. pose proof (val_range _ B2) as R2. rewrite A3 in R1. rewrite B3, <- L in R2. rewrite <- L in B1. pose proof (pw_pos (length a)). assert (c = 1) by lia. subst c.
    assert (c2 = 0 \/ c2 = 1) as [-> | ->] by lia; lia.
Qed.
Lemma even_half : forall n, Nat.odd n = false -> (Nat.div2 n + Nat.div2 n = n)%nat.
Proof. intros n H. pose proof (Nat.div2_odd n) as D. rewrite H in D. cbn [Nat.b2n] in D. lia. Qed.
Lemma kara_combine : forall (z0 z2 p : list Z) n X0 X1 Y0 Y1 (neg : bool), Nat.odd n = false -> words z0 -> words z2 -> words p -> length z0 = n -> length z2 = n -> length p = n ->
  0 <= X0 < pw (Nat.div2 n) -> 0 <= X1 < pw (Nat.div2 n) -> 0 <= Y0 < pw (Nat.div2 n) -> 0 <= Y1 < pw (Nat.div2 n) ->
  val z0 = X0 * Y0 -> val z2 = X1 * Y1 -> val p = (if neg then -1 else 1) * ((X1 - X0) * (Y0 - Y1)) ->
  let z := karatsubaAdd (karatsubaAdd (z0 ++ z2) z0 n) z2 n in
  let r := if neg then karatsubaSub z p n else karatsubaAdd z p n in
  words r /\ length r = (2 * n)%nat /\ val r = (X0 + pw (Nat.div2 n) * X1) * (Y0 + pw (Nat.div2 n) * Y1).
Proof.
  intros z0 z2 p n X0 X1 Y0 Y1 neg Ev W0 W2 Wp L0 L2 Lp R0 R1 S0 S1 V0 V2 Vp. cbv zeta. pose proof (even_half n Ev) as Hn. set (h := Nat.div2 n) in *.
  rewrite (karatsubaAdd_eq _ z0 n L0). fold h. assert (Wz : words (z0 ++ z2)) by (apply words_app; split; assumption). assert (Lz : length (z0 ++ z2) = (2 * n)%nat) by (rewrite app_length; lia).
  assert (Vz : val (z0 ++ z2) = X0 * Y0 + pw n * (X1 * Y1)) by (rewrite val_app, L0, V0, V2; reflexivity).
  destruct (place_add_ok (z0 ++ z2) z0 h Wz W0 ltac:(lia)) as (A1 & A2 & k1 & _ & A3). rewrite Lz in A2, A3. rewrite Vz, V0 in A3. set (zA := place_add (z0 ++ z2) z0 h) in *. clearbody zA.
  rewrite (karatsubaAdd_eq _ z2 n L2). fold h. destruct (place_add_ok zA z2 h A1 W2 ltac:(lia)) as (B1 & B2 & k2 & _ & B3). rewrite A2 in B2, B3. rewrite V2 in B3. set (zB := place_add zA z2 h) in *. clearbody zB.
  assert (E2 : pw (2 * n) = pw h * pw h * (pw h * pw h)) by (replace (2 * n)%nat with (h + h + (h + h))%nat by lia; rewrite !pw_add; reflexivity).
  assert (En : pw n = pw h * pw h) by (rewrite <- pw_add, Hn; reflexivity).
  assert (T : 0 <= (X0 + pw h * X1) * (Y0 + pw h * Y1) < pw (2 * n)).
  { rewrite E2. assert (U : forall a b, 0 <= a < pw h -> 0 <= b < pw h -> 0 <= a + pw h * b < pw h * pw h) by (clear; intros a b Ha Hb; nia).
    pose proof (U _ _ R0 R1) as U1. pose proof (U _ _ S0 S1) as U2. generalize dependent (X0 + pw h * X1). generalize dependent (Y0 + pw h * Y1). generalize (pw h * pw h). clear. intros. nia. }
  assert (F : forall r k, words r -> length r = (2 * n)%nat -> val r + pw (2 * n) * k = val zB + pw h * ((X1 - X0) * (Y0 - Y1)) -> words r /\ length r = (2 * n)%nat /\ val r = (X0 + pw h * X1) * (Y0 + pw h * Y1)).
  { intros r k Wr Lr Er. split; [exact Wr|]. split; [exact Lr|]. pose proof (val_range r Wr) as Rr. rewrite Lr in Rr. apply (wrap_eq (pw (2 * n)) _ _ (k + k1 + k2)); [exact Rr|exact T|].
    transitivity (val r + pw (2 * n) * k + pw (2 * n) * k1 + pw (2 * n) * k2); [ring|]. rewrite Er.
    transitivity (val zB + pw (2 * n) * k2 + pw (2 * n) * k1 + pw h * ((X1 - X0) * (Y0 - Y1))); [ring|]. rewrite B3.
    transitivity (val zA + pw (2 * n) * k1 + pw h * (X1 * Y1) + pw h * ((X1 - X0) * (Y0 - Y1))); [ring|]. rewrite A3, En. ring. }
  destruct neg.
  - rewrite (karatsubaSub_eq _ p n Lp). fold h. destruct (place_sub_ok zB p h B1 Wp ltac:(lia)) as (C1 & C2 & k3 & _ & C3). rewrite B2 in C2, C3. apply (F _ (- k3) C1 C2). rewrite Vp in C3. lia.
  - rewrite (karatsubaAdd_eq _ p n Lp). fold h. destruct (place_add_ok zB p h B1 Wp ltac:(lia)) as (C1 & C2 & k3 & _ & C3). rewrite B2 in C2, C3. apply (F _ k3 C1 C2). rewrite Vp in C3. lia.
Qed.
Lemma halves : forall x n, length x = n -> Nat.odd n = false -> words x ->
  length (firstn (Nat.div2 n) x) = Nat.div2 n /\ length (skipn (Nat.div2 n) x) = Nat.div2 n /\ words (firstn (Nat.div2 n) x) /\ words (skipn (Nat.div2 n) x) /\
  val x = val (firstn (Nat.div2 n) x) + pw (Nat.div2 n) * val (skipn (Nat.div2 n) x).
Proof.
  intros x n L Ev W. pose proof (even_half n Ev). assert (Lf : length (firstn (Nat.div2 n) x) = Nat.div2 n) by (apply firstn_length_le; lia). split; [exact Lf|].
  split; [rewrite skipn_length; lia|]. split; [apply words_firstn; exact W|]. split; [apply words_skipn; exact W|]. rewrite <- (firstn_skipn (Nat.div2 n) x) at 1. rewrite val_app, Lf. reflexivity.
Qed.
Lemma karatsuba_ok : forall fuel x y, length x = length y -> words x -> words y -> (length y < fuel)%nat ->
  exists z, karatsuba fuel x y = Ret z /\ words z /\ length z = (2 * length y)%nat /\ val z = val x * val y.
Proof.
  induction fuel as [|fuel IH]; intros x y L Wx Wy F; [lia|]. cbn [karatsuba]. set (n := length y) in *. destruct (Nat.odd n || (n <? 40)%nat || (n <? 2)%nat) eqn:C.
  - exists (basicMul x y). destruct (basicMul_ok x y Wx Wy) as [V W]. split; [reflexivity|]. split; [exact W|]. split; [rewrite basicMul_len by assumption; fold n; lia|exact V].
  - apply Bool.orb_false_iff in C as [C C3]. apply Bool.orb_false_iff in C as [Ev C2]. apply Nat.ltb_ge in C2. pose proof (even_half n Ev) as Hn.
    destruct (halves x n L Ev Wx) as (X1 & X2 & X3 & X4 & X5). destruct (halves y n eq_refl Ev Wy) as (Y1 & Y2 & Y3 & Y4 & Y5). set (h := Nat.div2 n) in *.
    destruct (IH (firstn h x) (firstn h y) ltac:(congruence) X3 Y3 ltac:(lia)) as (z0 & E0 & W0 & L0 & V0). rewrite E0. cbn [bind].
    destruct (IH (skipn h x) (skipn h y) ltac:(congruence) X4 Y4 ltac:(lia)) as (z2 & E2 & W2 & L2 & V2). rewrite E2. cbn [bind].
    destruct (halfDiff (skipn h x) (firstn h x)) as [xd sx] eqn:Dx. destruct (halfDiff_ok _ _ _ _ Dx ltac:(congruence) X4 X3) as (D1 & D2 & D3).
    destruct (halfDiff (firstn h y) (skipn h y)) as [yd sy] eqn:Dy. destruct (halfDiff_ok _ _ _ _ Dy ltac:(congruence) Y3 Y4) as (G1 & G2 & G3).
    destruct (IH xd yd ltac:(congruence) D1 G1 ltac:(lia)) as (p & Ep & Wp & Lp & Vp). rewrite Ep. cbn [bind]. eexists. split; [reflexivity|].
    pose proof (val_range _ X3) as R0. pose proof (val_range _ X4) as R1. pose proof (val_range _ Y3) as S0. pose proof (val_range _ Y4) as S1. rewrite X1 in R0. rewrite X2 in R1. rewrite Y1 in S0. rewrite Y2 in S1.
    pose proof (kara_combine z0 z2 p n _ _ _ _ (negb (Bool.eqb sx sy)) Ev W0 W2 Wp ltac:(lia) ltac:(lia) ltac:(lia) R0 R1 S0 S1 V0 V2) as K. fold h in K. cbv zeta in K.
    rewrite X5, Y5. destruct (Bool.eqb sx sy) eqn:S; cbn [negb] in K; apply K; rewrite Vp, D3, G3; destruct sx, sy; try discriminate S; ring.
Qed.
Lemma karatsubaLen_le : forall fuel n t, (karatsubaLen fuel n t <= n)%nat.
Proof.
  induction fuel as [|fuel IH]; intros n t; cbn [karatsubaLen]; [lia|]. destruct (t <? n)%nat; [|lia]. specialize (IH (Nat.div2 n) t). pose proof (Nat.div2_odd n). lia.
Qed.
Lemma karatsubaLen_pos : forall fuel n t, (0 < t)%nat -> (0 < n)%nat -> (0 < karatsubaLen fuel n t)%nat.
Proof.
  induction fuel as [|fuel IH]; intros n t Ht Hn; cbn [karatsubaLen]; [exact Hn|]. destruct (t <? n)%nat eqn:E; [|exact Hn]. apply Nat.ltb_lt in E. pose proof (Nat.div2_odd n) as D. destruct (Nat.odd n); cbn [Nat.b2n] in D; specialize (IH (Nat.div2 n) t Ht ltac:(lia)); lia.
Qed.
(** the least number of halvings that brings n down to the threshold *)
Lemma karatsubaLen_spec : forall fuel n t, (0 < t)%nat -> (n <= fuel)%nat ->
  exists i, karatsubaLen fuel n t = (2 ^ i * (n / 2 ^ i))%nat /\ (n / 2 ^ i <= t)%nat /\ forall j, (j < i)%nat -> (t < n / 2 ^ j)%nat.
Proof.
  induction fuel as [|fuel IH]; intros n t Ht Hn; cbn [karatsubaLen]; [exists 0%nat; rewrite Nat.pow_0_r, Nat.div_1_r; split; [lia|]; split; [lia|]; intros j Hj; lia|].
  destruct (t <? n)%nat eqn:E.
  - apply Nat.ltb_lt in E. pose proof (Nat.div2_odd n) as D. destruct (IH (Nat.div2 n) t Ht ltac:(destruct (Nat.odd n); cbn [Nat.b2n] in D; lia)) as (i & A & B & C). exists (S i). rewrite A, Nat.div2_div in *.
    assert (P : forall j, (2 ^ j <> 0)%nat) by (intros j; apply Nat.pow_nonzero; lia).
    assert (Q : forall j, (n / 2 ^ S j = n / 2 / 2 ^ j)%nat) by (intros j; rewrite Nat.pow_succ_r', Nat.div_div by (lia || apply P); reflexivity).
    rewrite Q. split; [rewrite Nat.pow_succ_r'; lia|]. split; [exact B|]. intros [|j] Hj; [rewrite Nat.pow_0_r, Nat.div_1_r; exact E|]. rewrite Q. apply C. lia.
  - apply Nat.ltb_ge in E. exists 0%nat. rewrite Nat.pow_0_r, Nat.div_1_r. split; [lia|]. split; [exact E|]. intros j Hj. lia.
Qed.

(** ** nat.mul *)
Lemma val_cut : forall k x, val x = val (firstn k x) + pw k * val (skipn k x).
Proof.
  intros k x. destruct (Nat.le_gt_cases k (length x)) as [L|L].
  - rewrite <- (firstn_skipn k x) at 1. rewrite val_app, firstn_length_le by lia. reflexivity.
  - rewrite firstn_all2, skipn_all2 by lia. cbn [val]. lia.
Qed.
Lemma last_skipn : forall k (x : list Z), last x 1 <> 0 -> last (skipn k x) 1 <> 0.
Proof.
  intros k x H. destruct (skipn k x) as [|a r] eqn:E; [discriminate|]. rewrite <- (firstn_skipn k x), E in H. assert (N : a :: r <> []) by discriminate. destruct (exists_last N) as (q & b & Q). rewrite Q in *. rewrite app_assoc in H. rewrite last_last in *. exact H.
Qed.
Lemma stands_skipn : forall k x v, stands x v -> stands (skipn k x) (val (skipn k x)).
Proof. intros k x v (W & L & _). split; [apply words_skipn; exact W|]. split; [apply last_skipn; exact L|reflexivity]. Qed.
Lemma norm_len : forall x, (length (norm x) <= length x)%nat.
Proof. induction x as [|a x IH]; [reflexivity|]. cbn [norm]. destruct (norm x); [destruct (a =? 0); cbn [length]; lia|cbn [length] in *; lia]. Qed.
Lemma mul_blocks_ok : forall (mul : list Z -> list Z -> outcome (list Z)) bound k x y0 y1 Y0 Y1,
  (forall p q u v, stands p u -> stands q v -> (length p + length q < bound)%nat -> exists z, mul p q = Ret z /\ stands z (u * v)) ->
  (0 < k)%nat -> words x -> stands y0 Y0 -> stands y1 Y1 -> (k + length y0 < bound)%nat -> (k + length y1 < bound)%nat ->
  forall count i z, words z -> (length x - i < count)%nat -> val z + pw i * (val (skipn i x) * (Y0 + pw k * Y1)) < pw (length z) ->
  exists r, mul_blocks mul count k i x y0 y1 z = Ret r /\ words r /\ val r = val z + pw i * (val (skipn i x) * (Y0 + pw k * Y1)).
Proof.
  intros mul bound k x y0 y1 Y0 Y1 Hm Hk Wx S0 S1 B0 B1. pose proof (stands_nonneg _ _ S0) as R0. pose proof (stands_nonneg _ _ S1) as R1. pose proof (pw_pos k) as Pk.
  induction count as [|count IH]; intros i z Wz Hc Hb; [lia|]. cbn [mul_blocks]. destruct (i <? length x)%nat eqn:E.
  - apply Nat.ltb_lt in E. set (xi := firstn k (skipn i x)) in *. assert (Wi : words xi) by (apply words_firstn, words_skipn; exact Wx). pose proof (norm_stands xi _ Wi eq_refl) as Si. pose proof (norm_len xi) as Li. assert (Lk : (length xi <= k)%nat) by (unfold xi; rewrite firstn_length; lia).
    assert (Cut : val (skipn i x) = val xi + pw k * val (skipn (i + k) x)) by (rewrite (val_cut k (skipn i x)), skipn_add; reflexivity).
    pose proof (val_range _ Wi) as Ri. pose proof (val_range _ (words_skipn (i + k) _ Wx)) as Rr. pose proof (pw_pos i) as Pi. rewrite Cut in *.
    set (V := val xi) in *. set (T := val (skipn (i + k) x)) in *. set (p := pw i) in *. assert (Epk : pw (i + k) = p * pw k) by apply pw_add.
    assert (N1 : 0 <= p * (V * Y0)) by (clear - R0 Ri Pi; assert (0 <= V * Y0) by (apply Z.mul_nonneg_nonneg; lia); apply Z.mul_nonneg_nonneg; lia).
    assert (N2 : 0 <= p * pw k * (V * Y1)) by (clear - R1 Ri Pi Pk; assert (0 <= V * Y1) by (apply Z.mul_nonneg_nonneg; lia); apply Z.mul_nonneg_nonneg; [apply Z.mul_nonneg_nonneg; lia|lia]).
    assert (N3 : 0 <= p * pw k * (T * (Y0 + pw k * Y1))).
    { clear - R0 R1 Rr Pi Pk. assert (0 <= pw k * Y1) by (apply Z.mul_nonneg_nonneg; lia). assert (0 <= T * (Y0 + pw k * Y1)) by (apply Z.mul_nonneg_nonneg; lia). apply Z.mul_nonneg_nonneg; [apply Z.mul_nonneg_nonneg; lia|lia]. }
    assert (Tot : p * ((V + pw k * T) * (Y0 + pw k * Y1)) = p * (V * Y0) + p * pw k * (V * Y1) + p * pw k * (T * (Y0 + pw k * Y1))) by ring. rewrite Tot in *.
    destruct (Hm (norm xi) y0 V Y0 Si S0 ltac:(lia)) as (t1 & E1 & St1). rewrite E1. cbn [bind]. destruct (addAt_ok z t1 i _ Wz St1) as (za & Ea & Wa & La & Va); [fold p; lia|]. fold p in Va. rewrite Ea. cbn [bind].
    destruct (Hm (norm xi) y1 V Y1 Si S1 ltac:(lia)) as (t2 & E2 & St2). rewrite E2. cbn [bind]. destruct (addAt_ok za t2 (i + k) _ Wa St2) as (zb & Eb & Wb & Lb & Vb); [rewrite Epk, La, Va; lia|]. rewrite Eb. cbn [bind]. rewrite Epk, Va in Vb.
    destruct (IH (i + k)%nat zb Wb ltac:(lia)) as (r & Er & Wr & Vr); [fold T; rewrite Epk, Lb, La, Vb; lia|]. exists r. split; [exact Er|]. split; [exact Wr|]. fold T in Vr. rewrite Vr, Epk, Vb. ring.
  - apply Nat.ltb_ge in E. exists z. split; [reflexivity|]. split; [exact Wz|]. rewrite skipn_all2 by lia. cbn [val]. lia.
Qed.
Lemma natMul_f_ok : forall fuel x y a b, stands x a -> stands y b -> (length x + length y < fuel)%nat -> exists z, natMul_f fuel x y = Ret z /\ stands z (a * b).
Proof.
  induction fuel as [|fuel IH]; intros x y a b Sx Sy F; [lia|]. cbn [natMul_f].
  assert (G : forall x y a b, stands x a -> stands y b -> (length y <= length x)%nat -> (length x + length y < S fuel)%nat -> exists z, match y with
    | [] => Ret []
    | [y0] => Ret (mulAddWW x y0 0)
    | _ => if (length y <? 40)%nat then Ret (norm (basicMul x y)) else
        let m := length x in
        let n := length y in
        let k := karatsubaLen n n 40 in
        let x0 := firstn k x in
        let y0 := firstn k y in
        let! z := karatsuba (S k) x0 y0 in
        let z := z ++ repeat 0 (m + n - 2 * k) in
        if (k <? n)%nat || negb (m =? n)%nat then
          let y1 := skipn k y in
          let! t := natMul_f fuel (norm x0) y1 in
          let! z := addAt z t k in
          let! z := mul_blocks (natMul_f fuel) (S m) k k x (norm y0) y1 z in
          Ret (norm z)
        else Ret (norm z) end = Ret z /\ stands z (a * b)).
  { clear x y a b Sx Sy F. intros x y a b Sx Sy L F. destruct y as [|y0 [|y1 yr]].
    - exists []. split; [reflexivity|]. destruct Sy as (? & ? & <-). cbn [val]. rewrite Z.mul_0_r. split; [constructor|split; [discriminate|reflexivity]].
    - exists (mulAddWW x y0 0). split; [reflexivity|]. destruct Sy as (Wy & _ & <-). apply words_cons in Wy as [Hy _]. rewrite val_one. pose proof BW_big. rewrite <- (Z.add_0_r (a * y0)). apply mulAddWW_ok; [exact Sx|lia|lia].
    - set (y := y0 :: y1 :: yr) in *. destruct (length y <? 40)%nat eqn:E.
      + eexists. split; [reflexivity|]. destruct Sx as (Wx & _ & <-), Sy as (Wy & _ & <-). destruct (basicMul_ok x _ Wx Wy). apply norm_stands; assumption.
      + apply Nat.ltb_ge in E. clearbody y. cbv zeta. set (m := length x) in *. set (n := length y) in *. pose proof (karatsubaLen_le n n 40) as Kn. pose proof (karatsubaLen_pos n n 40 ltac:(lia) ltac:(lia)) as Kp. set (k := karatsubaLen n n 40) in *. clearbody k.
        pose proof Sx as (Wx & _ & Vx). pose proof Sy as (Wy & _ & Vy). assert (Lx0 : length (firstn k x) = k) by (apply firstn_length_le; fold m; lia). assert (Ly0 : length (firstn k y) = k) by (apply firstn_length_le; fold n; lia).
        destruct (karatsuba_ok (S k) (firstn k x) (firstn k y) ltac:(congruence) (words_firstn _ _ Wx) (words_firstn _ _ Wy) ltac:(lia)) as (z & Ez & Wz & Lz & Vz). rewrite Ez. cbn [bind]. rewrite Ly0 in Lz.
        set (z1 := z ++ repeat 0 (m + n - 2 * k)). assert (W1 : words z1) by (apply words_app; split; [exact Wz|apply words_repeat0]). assert (L1 : length z1 = (m + n)%nat) by (unfold z1; rewrite app_length, repeat_length; lia).
        assert (V1 : val z1 = val (firstn k x) * val (firstn k y)) by (unfold z1; rewrite val_app, val_repeat0, Vz; lia). clearbody z1.
        pose proof (val_cut k x) as Cx. pose proof (val_cut k y) as Cy. rewrite Vx in Cx. rewrite Vy in Cy.
        pose proof (stands_nonneg x a Sx) as Ra. pose proof (stands_nonneg y b Sy) as Rb. fold m in Ra. fold n in Rb.
        assert (Tot : a * b < pw (m + n)) by (rewrite pw_add; clear - Ra Rb; nia).
        pose proof (val_range _ (words_firstn k _ Wx)) as P0. pose proof (val_range _ (words_firstn k _ Wy)) as Q0. pose proof (val_range _ (words_skipn k _ Wx)) as P1. pose proof (val_range _ (words_skipn k _ Wy)) as Q1.
        destruct ((k <? n)%nat || negb (m =? n)%nat) eqn:C.
        * assert (KK : (2 * k < m + n)%nat). { apply Bool.orb_true_iff in C as [C|C]; [apply Nat.ltb_lt in C; lia|]. apply Bool.negb_true_iff, Nat.eqb_neq in C. lia. }
          pose proof (norm_stands _ _ (words_firstn k _ Wx) eq_refl) as SX0. pose proof (norm_stands _ _ (words_firstn k _ Wy) eq_refl) as SY0. pose proof (norm_len (firstn k x)) as NX. pose proof (norm_len (firstn k y)) as NY.
          pose proof (stands_skipn k y b Sy) as SY1. assert (LY1 : length (skipn k y) = (n - k)%nat) by apply skipn_length. set (y1v := skipn k y) in *.
          set (X0 := val (firstn k x)) in *. set (X1 := val (skipn k x)) in *. set (Y0 := val (firstn k y)) in *. set (Y1 := val y1v) in *. pose proof (pw_pos k) as Pk. set (K := pw k) in *.
          assert (Ex : a * b = X0 * Y0 + K * (X0 * Y1) + K * (X1 * (Y0 + K * Y1))) by (rewrite Cx, Cy; ring).
          assert (M2 : 0 <= K * (X1 * (Y0 + K * Y1))). { clear - P1 Q0 Q1 Pk. assert (0 <= K * Y1) by (apply Z.mul_nonneg_nonneg; lia). apply Z.mul_nonneg_nonneg; [lia|]. apply Z.mul_nonneg_nonneg; lia. }
          destruct (IH (norm (firstn k x)) y1v X0 Y1 SX0 SY1 ltac:(lia)) as (t & Et & St). rewrite Et. cbn [bind].
          destruct (addAt_ok z1 t k _ W1 St) as (z2 & E2 & W2 & L2 & V2); [fold K; rewrite L1, V1; lia|]. rewrite E2. cbn [bind]. fold K in V2. rewrite V1 in V2.
          destruct (mul_blocks_ok (natMul_f fuel) fuel k x (norm (firstn k y)) y1v Y0 Y1 IH Kp Wx SY0 SY1 ltac:(lia) ltac:(lia) (S m) k z2 W2 ltac:(fold m; lia)) as (r & Er & Wr & Vr); [fold K X1; rewrite L2, L1, V2; lia|].
          rewrite Er. cbn [bind]. eexists. split; [reflexivity|]. apply norm_stands; [exact Wr|]. fold K X1 in Vr. rewrite Vr, V2, Ex. ring.
        * apply Bool.orb_false_iff in C as [C1 C2]. apply Nat.ltb_ge in C1. apply Bool.negb_false_iff, Nat.eqb_eq in C2. eexists. split; [reflexivity|]. apply norm_stands; [exact W1|]. rewrite V1, !firstn_all2 by lia. congruence. }
  destruct (length x <? length y)%nat eqn:E.
  - apply Nat.ltb_lt in E. rewrite Z.mul_comm. apply G; try assumption; lia.
  - apply Nat.ltb_ge in E. apply G; try assumption; lia.
Qed.
Lemma natMul_ok : forall x y a b, stands x a -> stands y b -> exists z, natMul x y = Ret z /\ stands z (a * b).
Proof. intros x y a b Sx Sy. apply natMul_f_ok; [exact Sx|exact Sy|lia]. Qed.

(** ** nat.sqr *)
Lemma squares_ok : forall x, words x -> words (squares x) /\ length (squares x) = (2 * length x)%nat.
Proof.
  induction x as [|d x IH]; intros W; [split; [constructor|reflexivity]|]. apply words_cons in W as [Hd W]. destruct (IH W) as [A B]. unfold squares in *. cbn [flat_map]. destruct (bitsMul d d) as [hi lo] eqn:E. destruct (bitsMul_ok _ _ _ _ E Hd Hd) as (E1 & E2 & E3).
  split; [apply words_app; split; [apply words_cons; split; [exact E2|]; apply words_cons; split; [lia|constructor]|exact A]|]. rewrite app_length, B. cbn [length]. lia.
Qed.
Lemma squares_snoc : forall x d, words x -> 0 <= d < BW -> val (squares (x ++ [d])) = val (squares x) + pw (length x) * pw (length x) * (d * d).
Proof.
  intros x d W Hd. unfold squares. rewrite flat_map_app, val_app. fold (squares x). destruct (squares_ok x W) as [_ L]. rewrite L. cbn [flat_map]. destruct (bitsMul d d) as [hi lo] eqn:E. destruct (bitsMul_ok _ _ _ _ E Hd Hd) as (E1 & E2 & E3).
  cbn [app]. rewrite val_cons, val_one. replace (2 * length x)%nat with (length x + length x)%nat by lia. rewrite pw_add, E1. reflexivity.
Qed.
Lemma sqr_loop_ok : forall todo p u N, words p -> words todo -> words u -> p <> [] -> length u = (2 * length p - 1)%nat -> N = (2 * (length p + length todo))%nat -> hd 1 u = 0 ->
  2 * val u + val (squares p) = val p * val p ->
  exists u', sqr_loop (p ++ todo) (length p) todo (u ++ repeat 0 (N - length u)) = u' ++ [0] /\ words u' /\ length u' = (2 * length (p ++ todo) - 1)%nat /\ hd 1 u' = 0 /\
    2 * val u' + val (squares (p ++ todo)) = val (p ++ todo) * val (p ++ todo).
Proof.
  induction todo as [|d todo IH]; intros p u N Wp Wt Wu Np Lu EN Hu V; cbn [sqr_loop].
  - exists u. rewrite app_nil_r. assert (1 <= length p)%nat by (destruct p; [contradiction|cbn [length]; lia]). cbn [length] in EN. replace (N - length u)%nat with 1%nat by lia. split; [reflexivity|]. split; [exact Wu|]. split; [exact Lu|]. split; [exact Hu|exact V].
  - assert (Lp : (1 <= length p)%nat) by (destruct p; [contradiction|cbn [length]; lia]). apply words_cons in Wt as [Hd Wt]. cbn [length] in EN. set (i := length p) in *.
    assert (Er : repeat 0 (N - length u) = 0 :: 0 :: repeat 0 (N - length u - 2)) by (replace (N - length u)%nat with (S (S (N - length u - 2))) at 1 by lia; reflexivity).
    rewrite Er. rewrite (firstn_app i p), (firstn_all2 p) by (fold i; lia). replace (i - length p)%nat with 0%nat by (fold i; lia). cbn [firstn]. rewrite app_nil_r.
    assert (F1 : firstn i (skipn i (u ++ 0 :: 0 :: repeat 0 (N - length u - 2))) = skipn i u ++ [0]).
    { rewrite skipn_app. replace (i - length u)%nat with 0%nat by lia. cbn [skipn]. rewrite firstn_app, (firstn_all2 (skipn i u)) by (rewrite skipn_length; lia). f_equal. rewrite skipn_length. replace (i - (length u - i))%nat with 1%nat by lia. reflexivity. }
    assert (F2 : firstn i (u ++ 0 :: 0 :: repeat 0 (N - length u - 2)) = firstn i u) by (rewrite firstn_app; replace (i - length u)%nat with 0%nat by lia; cbn [firstn]; apply app_nil_r).
    assert (F3 : skipn (2 * i + 1) (u ++ 0 :: 0 :: repeat 0 (N - length u - 2)) = repeat 0 (N - length u - 2)) by (rewrite skipn_app, skipn_all2 by lia; replace (2 * i + 1 - length u)%nat with 2%nat by lia; reflexivity).
    rewrite F1, F2, F3. assert (W0 : words (skipn i u ++ [0])) by (apply words_snoc; [apply words_skipn; exact Wu|pose proof BW_big; lia]).
    destruct (addMulVVW (skipn i u ++ [0]) p d 0) as [r c] eqn:E. pose proof BW_big as BB. destruct (addMulVVW_ok _ _ _ _ _ _ E ltac:(rewrite app_length, skipn_length; cbn [length]; fold i; lia) W0 Wp Hd ltac:(lia)) as (A1 & A2 & A3 & A4). fold i in A1, A3.
    set (u2 := firstn i u ++ r ++ [c]). assert (Lf : length (firstn i u) = i) by (apply firstn_length_le; lia). assert (L2 : length u2 = (2 * length (p ++ [d]) - 1)%nat) by (unfold u2; rewrite !app_length, Lf, A3; cbn [length]; fold i; lia).
    assert (W2 : words u2) by (apply words_app; split; [apply words_firstn; exact Wu|apply words_snoc; assumption]).
    assert (V2 : val u2 = val u + pw i * (val p * d)).
    { unfold u2. rewrite !val_app, Lf, A3, val_one, A1, (val_cut i u), val_app, val_one. ring. }
    assert (H2 : hd 1 u2 = 0). { unfold u2. destruct u as [|u0 ur]; [cbn [length] in Lu; lia|]. destruct i; [lia|]. exact Hu. }
    destruct (IH (p ++ [d]) u2 N ltac:(apply words_snoc; assumption) Wt W2 ltac:(destruct p; discriminate) L2 ltac:(rewrite app_length; cbn [length]; fold i; lia) H2) as (u' & Eu & Wu' & Lu' & Hu' & Vu').
    { rewrite V2, squares_snoc by assumption. rewrite val_app, val_one. fold i. lia. }
    exists u'. replace ((p ++ [d]) ++ todo) with (p ++ d :: todo) in * by (rewrite <- app_assoc; reflexivity). rewrite app_length in Eu. cbn [length] in Eu. fold i in Eu. replace (i + 1)%nat with (S i) in Eu by lia.
    assert (Q : u2 ++ repeat 0 (N - length u2) = firstn i u ++ r ++ [c] ++ repeat 0 (N - length u - 2)).
    { unfold u2 at 1. rewrite <- !app_assoc. do 4 f_equal. rewrite L2, app_length. cbn [length]. fold i. lia. }
    rewrite Q in Eu. split; [exact Eu|]. split; [exact Wu'|]. split; [exact Lu'|]. split; [exact Hu'|exact Vu'].
Qed.
Lemma basicSqr_ok : forall x, words x -> val (basicSqr x) = val x * val x /\ words (basicSqr x) /\ length (basicSqr x) = (2 * length x)%nat.
Proof.
  intros x W. unfold basicSqr. destruct (length x <? 20)%nat eqn:E; [destruct (basicMul_ok x x W W); split; [assumption|]; split; [assumption|rewrite basicMul_len by assumption; lia]|]. apply Nat.ltb_ge in E.
  destruct x as [|x0 xr] eqn:Ex; [cbn [length] in E; lia|]. destruct (proj1 (words_cons _ _) W) as [H0 Wr]. cbn [tl].
  destruct (sqr_loop_ok xr [x0] [0] (2 * length (x0 :: xr))) as (u & Eu & Wu & Lu & Hu & Vu); try assumption; try reflexivity.
  { apply words_cons. split; [exact H0|constructor]. } { apply words_cons. split; [pose proof BW_big; lia|constructor]. } { discriminate. }
  { unfold squares. cbn [flat_map]. destruct (bitsMul x0 x0) as [hi lo] eqn:Eb. destruct (bitsMul_ok _ _ _ _ Eb H0 H0) as (E1 & _). cbn [app]. rewrite !val_one, val_cons, val_one. lia. }
  cbn [app] in *. replace (0 :: repeat 0 (2 * length (x0 :: xr) - length [0])) with (repeat 0 (2 * length (x0 :: xr))) in Eu.
  2: { cbn [length]. replace (2 * S (length xr))%nat with (S (2 * S (length xr) - 1)) at 1 by lia. reflexivity. }
  change (length [x0]) with 1%nat in Eu. rewrite Eu. rewrite <- Ex in *. set (n := length x) in *. destruct u as [|u0 ur]; [cbn [length] in Lu; lia|]. cbn [hd] in Hu. subst u0. cbn [app skipn firstn]. cbn [length] in Lu.
  rewrite firstn_app. replace (2 * n - 2 - length ur)%nat with 0%nat by lia. cbn [firstn]. rewrite app_nil_r, firstn_all2 by lia. apply words_cons in Wu as [_ Wu].
  destruct (shlVU ur 1) as [r c] eqn:Es. destruct (shlVU_ok ur 1 r c ltac:(lia) Wu Es) as (S1 & S2 & S3 & S4). change (2 ^ 1) with 2 in *. pose proof BW_big as BB.
  destruct (squares_ok x W) as [Q1 Q2]. fold n in Q2. assert (Wt : words (0 :: r ++ [c])) by (apply words_cons; split; [lia|apply words_snoc; [exact S2|lia]]).
  destruct (addVV (squares x) (0 :: r ++ [c]) 0) as [z cc] eqn:Ea. destruct (addVV_ok _ _ _ _ _ Ea ltac:(rewrite Q2; cbn [length]; rewrite app_length; cbn [length]; lia) Q1 Wt ltac:(lia)) as (A1 & A2 & A3 & A4). rewrite Q2 in A1, A3. cbn [fst].
  split; [|split; [exact A2|exact A3]]. rewrite val_cons, val_app, val_one, S3, S1 in A1. rewrite val_cons in Vu. pose proof (val_range x W) as Rx. pose proof (val_range z A2) as Rz. rewrite A3 in Rz. fold n in Rx.
  apply (wrap_eq (pw (2 * n)) _ _ cc); [exact Rz| |lia]. replace (2 * n)%nat with (n + n)%nat by lia. rewrite pw_add. clear - Rx. nia.
Qed.
Lemma karatsubaSqr_ok : forall fuel x, words x -> (length x < fuel)%nat -> exists z, karatsubaSqr fuel x = Ret z /\ words z /\ length z = (2 * length x)%nat /\ val z = val x * val x.
Proof.
  induction fuel as [|fuel IH]; intros x Wx F; [lia|]. cbn [karatsubaSqr]. remember (length x) as n eqn:En. destruct (Nat.odd n || (n <? 260)%nat || (n <? 2)%nat) eqn:C.
  - exists (basicSqr x). destruct (basicSqr_ok x Wx) as (V & W & L). split; [reflexivity|]. split; [exact W|]. split; [lia|exact V].
  - apply Bool.orb_false_iff in C as [C C3]. apply Bool.orb_false_iff in C as [Ev C2]. apply Nat.ltb_ge in C3. pose proof (even_half n Ev) as Hn.
    destruct (halves x n (eq_sym En) Ev Wx) as (X1 & X2 & X3 & X4 & X5). set (h := Nat.div2 n) in *.
    destruct (IH (firstn h x) X3 ltac:(lia)) as (z0 & E0 & W0 & L0 & V0). rewrite E0. cbn [bind]. destruct (IH (skipn h x) X4 ltac:(lia)) as (z2 & E2 & W2 & L2 & V2). rewrite E2. cbn [bind].
    destruct (halfDiff (skipn h x) (firstn h x)) as [xd sx] eqn:Dx. destruct (halfDiff_ok _ _ _ _ Dx ltac:(congruence) X4 X3) as (D1 & D2 & D3).
    destruct (IH xd D1 ltac:(lia)) as (p & Ep & Wp & Lp & Vp). rewrite Ep. cbn [bind]. eexists. split; [reflexivity|].
    pose proof (val_range _ X3) as R0. pose proof (val_range _ X4) as R1. rewrite X1 in R0. rewrite X2 in R1.
    pose proof (kara_combine z0 z2 p n _ _ _ _ true Ev W0 W2 Wp ltac:(lia) ltac:(lia) ltac:(lia) R0 R1 R0 R1 V0 V2) as K. fold h in K. cbv zeta in K.
    rewrite X5. apply K. rewrite Vp, D3. destruct sx; ring.
Qed.
Lemma natSqr_f_ok : forall fuel x a, stands x a -> (length x < fuel)%nat -> exists z, natSqr_f fuel x = Ret z /\ stands z (a * a).
Proof.
  induction fuel as [|fuel IH]; intros x a Sx F; [lia|]. cbn [natSqr_f]. destruct x as [|x0 [|x1 xr]].
  - exists []. split; [reflexivity|]. destruct Sx as (? & ? & <-). split; [constructor|split; [discriminate|reflexivity]].
  - destruct Sx as (Wx & _ & <-). apply words_cons in Wx as [Hx _]. rewrite val_one. destruct (bitsMul x0 x0) as [z1 z0] eqn:E. destruct (bitsMul_ok _ _ _ _ E Hx Hx) as (A1 & A2 & A3). eexists. split; [reflexivity|].
    apply norm_stands; [apply words_cons; split; [exact A2|]; apply words_cons; split; [lia|constructor]|]. rewrite val_cons, val_one. lia.
  - set (x := x0 :: x1 :: xr) in *. clearbody x. clear x0 x1 xr. set (n := length x) in *. pose proof Sx as (Wx & _ & Vx). destruct (n <? 20)%nat eqn:E20.
    { eexists. split; [reflexivity|]. destruct (basicMul_ok x x Wx Wx) as [V W]. apply norm_stands; [exact W|congruence]. }
    destruct (n <? 260)%nat eqn:E.
    { eexists. split; [reflexivity|]. destruct (basicSqr_ok x Wx) as (V & W & _). apply norm_stands; [exact W|congruence]. }
    apply Nat.ltb_ge in E, E20. pose proof (karatsubaLen_le n n 260) as Kn. pose proof (karatsubaLen_pos n n 260 ltac:(lia) ltac:(lia)) as Kp. set (k := karatsubaLen n n 260) in *. clearbody k.
    assert (Lx0 : length (firstn k x) = k) by (apply firstn_length_le; fold n; lia). destruct (karatsubaSqr_ok (S k) (firstn k x) (words_firstn _ _ Wx) ltac:(lia)) as (z & Ez & Wz & Lz & Vz). rewrite Ez. cbn [bind]. rewrite Lx0 in Lz.
    set (z1 := z ++ repeat 0 (2 * n - 2 * k)). assert (W1 : words z1) by (apply words_app; split; [exact Wz|apply words_repeat0]). assert (L1 : length z1 = (n + n)%nat) by (unfold z1; rewrite app_length, repeat_length; lia).
    assert (V1 : val z1 = val (firstn k x) * val (firstn k x)) by (unfold z1; rewrite val_app, val_repeat0, Vz; lia). clearbody z1. destruct (k <? n)%nat eqn:C.
    + apply Nat.ltb_lt in C. pose proof (val_cut k x) as Cx. rewrite Vx in Cx. pose proof (stands_nonneg x a Sx) as Ra. fold n in Ra. assert (Tot : a * a < pw (n + n)) by (rewrite pw_add; clear - Ra; nia).
      pose proof (val_range _ (words_firstn k _ Wx)) as P0. pose proof (val_range _ (words_skipn k _ Wx)) as P1. pose proof (norm_stands _ _ (words_firstn k _ Wx) eq_refl) as SX0. pose proof (stands_skipn k x a Sx) as SX1. assert (LX1 : length (skipn k x) = (n - k)%nat) by apply skipn_length.
      set (X0 := val (firstn k x)) in *. set (X1 := val (skipn k x)) in *. pose proof (pw_pos k) as Pk. set (K := pw k) in *.
      assert (Ex : a * a = X0 * X0 + K * (X0 * X1) + K * (X0 * X1) + K * K * (X1 * X1)) by (rewrite Cx; ring).
      assert (M1 : 0 <= K * (X0 * X1)) by (apply Z.mul_nonneg_nonneg; [lia|apply Z.mul_nonneg_nonneg; lia]). assert (M2 : 0 <= K * K * (X1 * X1)) by (apply Z.mul_nonneg_nonneg; apply Z.mul_nonneg_nonneg; lia).
      destruct (natMul_ok _ _ _ _ SX0 SX1) as (t & Et & St). rewrite Et. cbn [bind].
      destruct (addAt_ok z1 t k _ W1 St) as (z2 & E2 & W2 & L2 & V2); [fold K; rewrite L1, V1; lia|]. rewrite E2. cbn [bind]. fold K in V2. rewrite V1 in V2.
      destruct (addAt_ok z2 t k _ W2 St) as (z3 & E3 & W3 & L3 & V3); [fold K; rewrite L2, L1, V2; lia|]. rewrite E3. cbn [bind]. fold K in V3. rewrite V2 in V3.
      destruct (IH _ _ SX1 ltac:(lia)) as (t2 & Et2 & St2). rewrite Et2. cbn [bind]. assert (E2k : pw (2 * k) = K * K) by (replace (2 * k)%nat with (k + k)%nat by lia; apply pw_add).
      destruct (addAt_ok z3 t2 (2 * k) _ W3 St2) as (z4 & E4 & W4 & L4 & V4); [rewrite E2k, L3, L2, L1, V3; lia|]. replace (k + (k + 0))%nat with (2 * k)%nat by lia. rewrite E4. cbn [bind]. eexists. split; [reflexivity|]. apply norm_stands; [exact W4|]. rewrite V4, E2k, V3, Ex. ring.
    + apply Nat.ltb_ge in C. eexists. split; [reflexivity|]. apply norm_stands; [exact W1|]. rewrite V1, !firstn_all2 by (fold n; lia). congruence.
Qed.
Lemma natSqr_ok : forall x a, stands x a -> exists z, natSqr x = Ret z /\ stands z (a * a).
Proof. intros x a Sx. apply natSqr_f_ok; [exact Sx|lia]. Qed.
