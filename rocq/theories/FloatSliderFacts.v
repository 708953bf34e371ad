(** FloatSliderFacts.v - the slider with machine arithmetic: nothing overflows, how far it is from the exact one. *)
From Coq Require Import QArith Qpower Qround Qabs Qminmax Lqa Lia ZifyBool.
From Verif Require Import Base GoStr Prims Bip39 Bip32Reg Bip32 Util Ui Slider SpecSlider SliderFacts Float FloatFacts FloatSlider.
Open Scope Q_scope.

(** ** float32 and float64 *)
(** float32 rounding without overflow, examples/ui/one/slider.go:58 *)
Definition r (q : Q) : Q := fround 24 (-149) q.
(** float64 rounding without overflow, examples/ui/one/slider.go:58 *)
Definition r64 (q : Q) : Q := fround 53 (-1074) q.
(** Half a unit in the last place of a number below 1, examples/ui/one/slider.go:58 *)
Definition u : Q := 1 # 33554432.
Lemma r_mono a b : a <= b -> r a <= r b. Proof. apply fround_mono. lia. Qed.
Lemma r_comp a b : a == b -> r a == r b. Proof. apply fround_comp. Qed.
Lemma r_opp a : r (- a) == - r a. Proof. apply fround_opp. Qed.
Global Instance r_Proper : Proper (Qeq ==> Qeq) r. Proof. intros a b. apply r_comp. Qed.
Lemma r_Z n : (Z.abs n <= 2 ^ 24)%Z -> r (inject_Z n) == inject_Z n.
Proof.
  intros H. assert (C : (Z.abs n < 2 ^ 24 \/ Z.abs n = 2 ^ 24)%Z) by lia. destruct C as [C|C].
  - apply (fround_exact _ _ _ n 0); [change (Qpower 2 0) with 1; ring|]. intros N.
    assert (L : (flog2 (Qabs (inject_Z n)) < 24)%Z).
    { apply flog2_lt; [apply nz_abs, N|]. rewrite pow_Z by lia. change (Qabs (inject_Z n)) with (inject_Z (Z.abs n)). rewrite <- Zlt_Qlt. exact C. }
    unfold fexp. lia.
  - assert (E : (n = 2 ^ 24 \/ n = - 2 ^ 24)%Z) by lia. destruct E as [-> | ->]; reflexivity.
Qed.
Lemma r_0 : r 0 == 0. Proof. reflexivity. Qed.
Lemma r_1 : r 1 == 1. Proof. reflexivity. Qed.
Lemma r_2 : r 2 == 2. Proof. reflexivity. Qed.
Lemma r_h : r (1 # 2) == 1 # 2. Proof. reflexivity. Qed.
Lemma r_m1 : r (-1) == -1. Proof. reflexivity. Qed.
Lemma r_mh : r (- (1 # 2)) == - (1 # 2). Proof. reflexivity. Qed.
Lemma r_le a k : r k == k -> a <= k -> r a <= k.
Proof. intros E L. rewrite <- E. apply r_mono, L. Qed.
Lemma r_ge a k : r k == k -> k <= a -> k <= r a.
Proof. intros E L. rewrite <- E. apply r_mono, L. Qed.
Lemma f32_some q : Qabs q <= Qpower 2 127 -> f32 q = Some (r q).
Proof.
  intros H. apply Qabs_Qle_condition in H as [H1 H2]. unfold f32. fold (r q).
  assert (A : r q <= Qpower 2 127) by (apply Qle_trans with (r (Qpower 2 127)); [apply r_mono, H2|vm_compute; discriminate]).
  assert (B : - Qpower 2 127 <= r q) by (apply Qle_trans with (r (- Qpower 2 127)); [vm_compute; discriminate|apply r_mono, H1]).
  destruct (Qle_bool (Qpower 2 128) (Qabs (r q))) eqn:E; [|reflexivity]. apply Qle_bool_iff in E. exfalso.
  assert (C : Qabs (r q) <= Qpower 2 127) by (apply Qabs_Qle_condition; split; assumption).
  assert (Qpower 2 127 < Qpower 2 128) by reflexivity. lra.
Qed.
Lemma f32_small q : -8 <= q -> q <= 8 -> f32 q = Some (r q).
Proof. intros A B. apply f32_some. apply Qle_trans with 8; [apply Qabs_Qle_condition; split; assumption|discriminate]. Qed.
Lemma err_pow q k : Qabs q < Qpower 2 k -> (-125 <= k)%Z -> q - Qpower 2 (k - 25) <= r q /\ r q <= q + Qpower 2 (k - 25).
Proof.
  intros H K. pose proof (fround_abs 24 (-149) q k H ltac:(lia)) as E. replace (k - 24 - 1)%Z with (k - 25)%Z in E by lia.
  apply Qabs_Qle_condition in E. fold (r q) in E. lra.
Qed.
Lemma err1 q : -1 <= q -> q <= 1 -> q - u <= r q /\ r q <= q + u.
Proof.
  intros A B. destruct (Qlt_le_dec q 1) as [L|L].
  - destruct (Qlt_le_dec (-1) q) as [L'|L'].
    + apply (err_pow q 0); [|lia]. apply Qabs_case; intros; change (Qpower 2 0) with 1; lra.
    + assert (E : q == -1) by lra. rewrite E, r_m1. split; discriminate.
  - assert (E : q == 1) by lra. rewrite E, r_1. split; discriminate.
Qed.
Lemma err2 q : -2 < q -> q < 2 -> q - 2 * u <= r q /\ r q <= q + 2 * u.
Proof.
  intros A B. assert (K : Qabs q < Qpower 2 1) by (apply Qabs_case; intros; change (Qpower 2 1) with 2; lra).
  pose proof (err_pow q 1 K ltac:(lia)) as E. assert (X : Qpower 2 (1 - 25) == 2 * u) by reflexivity. rewrite X in E. exact E.
Qed.
Lemma err4 q : -4 < q -> q < 4 -> q - 4 * u <= r q /\ r q <= q + 4 * u.
Proof.
  intros A B. assert (K : Qabs q < Qpower 2 2) by (apply Qabs_case; intros; change (Qpower 2 2) with 4; lra).
  pose proof (err_pow q 2 K ltac:(lia)) as E. assert (X : Qpower 2 (2 - 25) == 4 * u) by reflexivity. rewrite X in E. exact E.
Qed.
Lemma rel32 q : Qpower 2 (-126) <= q -> q * (1 - 2 * u) <= r q /\ r q <= q * (1 + 2 * u).
Proof.
  intros H. pose proof (fround_rel 24 (-149) q H) as E. apply Qabs_Qle_condition in E. fold (r q) in E.
  assert (X : Qpower 2 (- (24)) == 2 * u) by reflexivity. rewrite X in E. lra.
Qed.

(** ** Easing *)
Lemma mul_near a a0 b b0 al be B A0 : - al <= a - a0 -> a - a0 <= al -> - be <= b - b0 -> b - b0 <= be -> - B <= b -> b <= B -> - A0 <= a0 -> a0 <= A0 ->
  0 <= al -> 0 <= be -> - (al * B + A0 * be) <= a * b - a0 * b0 /\ a * b - a0 * b0 <= al * B + A0 * be.
Proof.
  intros. assert (E : a * b - a0 * b0 == (a - a0) * b + a0 * (b - b0)) by ring.
  assert (P : Qabs ((a - a0) * b) <= al * B).
  { rewrite Qabs_Qmult. assert (Qabs (a - a0) <= al) by (apply Qabs_Qle_condition; split; assumption).
    assert (Qabs b <= B) by (apply Qabs_Qle_condition; split; assumption). pose proof (Qabs_nonneg (a - a0)). pose proof (Qabs_nonneg b). nra. }
  assert (P2 : Qabs (a0 * (b - b0)) <= A0 * be).
  { rewrite Qabs_Qmult. assert (Qabs (b - b0) <= be) by (apply Qabs_Qle_condition; split; assumption).
    assert (Qabs a0 <= A0) by (apply Qabs_Qle_condition; split; assumption). pose proof (Qabs_nonneg (b - b0)). pose proof (Qabs_nonneg a0). nra. }
  apply Qabs_Qle_condition in P, P2. rewrite E. lra.
Qed.
Lemma mul_mono a a' b b' : 0 <= a -> a <= a' -> 0 <= b -> b <= b' -> a * b <= a' * b'.
Proof. intros. assert (0 <= (a' - a) * b') by (apply Qmult_le_0_compat; lra). assert (0 <= a * (b' - b)) by (apply Qmult_le_0_compat; lra). lra. Qed.
Section Fused.
Variable fma : nat -> bool.
(** The same without overflow, examples/ui/one/slider.go:126-132 *)
Definition low_b (t : Q) : Q := r (r (4 * t) * t).
(** 2*t-2: examples/ui/one/slider.go:131 *)
Definition high_b (f : bool) (t : Q) : Q := r ((if f then 2 * t else r (2 * t)) + -2).
(** (t-1)*(2*t-2): examples/ui/one/slider.go:131 *)
Definition high_p (t : Q) : Q := r (r (t + -1) * high_b (fma 0) t).
(** the last sum: examples/ui/one/slider.go:131 *)
Definition high_v (t : Q) : Q := r ((if fma 2 then high_p t * high_b (fma 1) t else r (high_p t * high_b (fma 1) t)) + 1).
Lemma low_facts t : 0 <= t -> t <= 1 # 2 -> 0 <= r (4 * t) /\ r (4 * t) <= 2 /\ 0 <= r (4 * t) * t /\ r (4 * t) * t <= 1 /\
  0 <= low_b t /\ low_b t <= 1 /\ 0 <= low_b t * t /\ low_b t * t <= 1 # 2.
Proof.
  intros A B. assert (A1 : 0 <= r (4 * t)) by (apply r_ge; [exact r_0|lra]). assert (A2 : r (4 * t) <= 2) by (apply r_le; [exact r_2|lra]).
  assert (A3 : 0 <= r (4 * t) * t) by (apply Qmult_le_0_compat; assumption). assert (A4 : r (4 * t) * t <= 1) by (pose proof (mul_mono (r (4 * t)) 2 t (1 # 2) A1 A2 A B); lra).
  assert (A5 : 0 <= low_b t) by (apply r_ge; [exact r_0|assumption]).
  assert (A6 : low_b t <= 1) by (apply r_le; [exact r_1|assumption]).
  assert (A7 : 0 <= low_b t * t) by (apply Qmult_le_0_compat; assumption). repeat split; try assumption.
  pose proof (mul_mono (low_b t) 1 t (1 # 2) A5 A6 A B); lra.
Qed.
Lemma high_b_facts f t : 1 # 2 <= t -> t <= 1 -> -1 <= high_b f t /\ high_b f t <= 0.
Proof.
  intros A B. unfold high_b. assert (1 <= r (2 * t)) by (apply r_ge; [exact r_1|lra]). assert (r (2 * t) <= 2) by (apply r_le; [exact r_2|lra]).
  split; [apply r_ge; [exact r_m1|]|apply r_le; [exact r_0|]]; destruct f; lra.
Qed.
Lemma high_facts t : 1 # 2 <= t -> t <= 1 -> - (1 # 2) <= r (t + -1) /\ r (t + -1) <= 0 /\ 0 <= r (t + -1) * high_b (fma 0) t /\ r (t + -1) * high_b (fma 0) t <= 1 # 2 /\
  0 <= high_p t /\ high_p t <= 1 # 2 /\ - (1 # 2) <= high_p t * high_b (fma 1) t /\ high_p t * high_b (fma 1) t <= 0 /\
  1 # 2 <= high_v t /\ high_v t <= 1.
Proof.
  intros A B. destruct (high_b_facts (fma 0) t A B) as [B1 B2]. destruct (high_b_facts (fma 1) t A B) as [C1 C2].
  assert (A1 : - (1 # 2) <= r (t + -1)) by (apply r_ge; [exact r_mh|lra]). assert (A2 : r (t + -1) <= 0) by (apply r_le; [exact r_0|lra]).
  assert (A3 : 0 <= r (t + -1) * high_b (fma 0) t) by (pose proof (mul_mono 0 (- r (t + -1)) 0 (- high_b (fma 0) t)); lra).
  assert (A4 : r (t + -1) * high_b (fma 0) t <= 1 # 2) by (pose proof (mul_mono (- r (t + -1)) (1 # 2) (- high_b (fma 0) t) 1); lra).
  assert (A5 : 0 <= high_p t) by (apply r_ge; [exact r_0|assumption]).
  assert (A6 : high_p t <= 1 # 2) by (apply r_le; [exact r_h|assumption]).
  assert (A7 : - (1 # 2) <= high_p t * high_b (fma 1) t) by (pose proof (mul_mono (high_p t) (1 # 2) (- high_b (fma 1) t) 1); lra).
  assert (A8 : high_p t * high_b (fma 1) t <= 0) by (pose proof (mul_mono 0 (high_p t) 0 (- high_b (fma 1) t)); lra).
  assert (A9 : - (1 # 2) <= r (high_p t * high_b (fma 1) t)) by (apply r_ge; [exact r_mh|assumption]).
  assert (A10 : r (high_p t * high_b (fma 1) t) <= 0) by (apply r_le; [exact r_0|assumption]).
  repeat split; try assumption; unfold high_v; [apply r_ge; [exact r_h|]|apply r_le; [exact r_1|]]; destruct (fma 2); lra.
Qed.
Lemma easeF_low t : 0 <= t -> t < 1 # 2 -> easeF fma t = Some (mkVal (r (low_b t * t)) (low_b t * t)).
Proof.
  intros A B. destruct (low_facts t A ltac:(lra)) as (A1 & A2 & A3 & A4 & A5 & A6 & A7 & A8). unfold easeF.
  rewrite (proj2 (Qle_bool_false (1 # 2) t) B). cbn [negb]. unfold fmul. cbn [value plain obind].
  rewrite f32_small by lra. cbn [obind value]. rewrite f32_small by lra. cbn [obind value]. fold (low_b t). rewrite f32_small by lra. reflexivity.
Qed.
Lemma easeF_high t : 1 # 2 <= t -> t <= 1 -> easeF fma t = Some (plain (high_v t)).
Proof.
  intros A B. destruct (high_facts t A B) as (A1 & A2 & A3 & A4 & A5 & A6 & A7 & A8 & A9 & A10).
  destruct (high_b_facts (fma 0) t A B) as [B1 B2]. destruct (high_b_facts (fma 1) t A B) as [C1 C2].
  assert (M1 : 1 <= r (2 * t)) by (apply r_ge; [exact r_1|lra]). assert (M2 : r (2 * t) <= 2) by (apply r_le; [exact r_2|lra]).
  unfold easeF. rewrite (proj2 (Qle_bool_iff (1 # 2) t) A). cbn [negb]. unfold fplus, fmul. cbn [value exact plain obind].
  rewrite (f32_small (t + -1)) by lra. cbn [obind value plain]. rewrite (f32_small (2 * t)) by lra. cbn [obind value exact plain].
  rewrite (f32_small ((if fma 0 then 2 * t else r (2 * t)) + -2)) by (destruct (fma 0); lra). cbn [obind value exact plain].
  rewrite (f32_small ((if fma 1 then 2 * t else r (2 * t)) + -2)) by (destruct (fma 1); lra). cbn [obind value exact plain].
  fold (high_b (fma 0) t). fold (high_b (fma 1) t). rewrite (f32_small (r (t + -1) * high_b (fma 0) t)) by lra. cbn [obind value exact plain]. fold (high_p t).
  rewrite (f32_small (high_p t * high_b (fma 1) t)) by lra. cbn [obind value exact plain].
  assert (A11 : - (1 # 2) <= r (high_p t * high_b (fma 1) t)) by (apply r_ge; [exact r_mh|assumption]).
  assert (A12 : r (high_p t * high_b (fma 1) t) <= 0) by (apply r_le; [exact r_0|assumption]).
  rewrite f32_small by (destruct (fma 2); lra). cbn [obind]. reflexivity.
Qed.
(** The curve as two numbers, examples/ui/one/slider.go:126-132 *)
Definition ease_v (t : Q) : Q := if Qle_bool (1 # 2) t then high_v t else r (low_b t * t).
(** the same before the last rounding, if that was of a product: examples/ui/one/slider.go:126-132 *)
Definition ease_e (t : Q) : Q := if Qle_bool (1 # 2) t then high_v t else low_b t * t.
Lemma easeF_eq t : 0 <= t -> t <= 1 -> easeF fma t = Some (mkVal (ease_v t) (ease_e t)).
Proof.
  intros A B. unfold ease_v, ease_e. destruct (Qle_bool (1 # 2) t) eqn:E.
  - apply Qle_bool_iff in E. exact (easeF_high t E B).
  - apply Qle_bool_false in E. exact (easeF_low t A E).
Qed.
Lemma ease_range t : 0 <= t -> t <= 1 -> 0 <= ease_v t /\ ease_v t <= 1 /\ 0 <= ease_e t /\ ease_e t <= 1.
Proof.
  intros A B. unfold ease_v, ease_e. destruct (Qle_bool (1 # 2) t) eqn:E.
  - apply Qle_bool_iff in E. destruct (high_facts t E B) as (_ & _ & _ & _ & _ & _ & _ & _ & A9 & A10). lra.
  - apply Qle_bool_false in E. destruct (low_facts t A ltac:(lra)) as (_ & _ & _ & _ & _ & _ & A7 & A8).
    assert (0 <= r (low_b t * t)) by (apply r_ge; [exact r_0|lra]). assert (r (low_b t * t) <= 1) by (apply r_le; [exact r_1|lra]). lra.
Qed.
Lemma ease_mono t t' : 0 <= t -> t <= t' -> t' <= 1 -> ease_v t <= ease_v t' /\ ease_e t <= ease_e t'.
Proof.
  intros A L B. unfold ease_v, ease_e. destruct (Qle_bool (1 # 2) t) eqn:E, (Qle_bool (1 # 2) t') eqn:E';
    try apply Qle_bool_iff in E; try apply Qle_bool_iff in E'; try apply Qle_bool_false in E; try apply Qle_bool_false in E'.
  - assert (K : high_v t <= high_v t'); [|split; exact K].
    destruct (high_facts t E ltac:(lra)) as (A1 & A2 & A3 & A4 & A5 & A6 & A7 & A8 & A9 & A10).
    destruct (high_facts t' E' B) as (B1 & B2 & B3 & B4 & B5 & B6 & B7 & B8 & B9 & B10).
    assert (Hb : forall f, high_b f t <= high_b f t').
    { intros f. unfold high_b. apply r_mono. destruct f; [lra|]. pose proof (r_mono (2 * t) (2 * t') ltac:(lra)). lra. }
    assert (Ha : r (t + -1) <= r (t' + -1)) by (apply r_mono; lra).
    destruct (high_b_facts (fma 0) t E ltac:(lra)) as [C1 C2]. destruct (high_b_facts (fma 1) t E ltac:(lra)) as [D1 D2].
    destruct (high_b_facts (fma 0) t' E' B) as [C1' C2']. destruct (high_b_facts (fma 1) t' E' B) as [D1' D2'].
    assert (Hp : high_p t' <= high_p t).
    { unfold high_p. apply r_mono. pose proof (mul_mono (- r (t' + -1)) (- r (t + -1)) (- high_b (fma 0) t') (- high_b (fma 0) t)) as M.
      specialize (Hb (fma 0)). specialize (M ltac:(lra) ltac:(lra) ltac:(lra) ltac:(lra)). lra. }
    assert (Hx : high_p t * high_b (fma 1) t <= high_p t' * high_b (fma 1) t').
    { pose proof (mul_mono (high_p t') (high_p t) (- high_b (fma 1) t') (- high_b (fma 1) t)) as M. specialize (Hb (fma 1)).
      specialize (M ltac:(lra) ltac:(lra) ltac:(lra) ltac:(lra)). lra. }
    unfold high_v. apply r_mono. pose proof (r_mono _ _ Hx). destruct (fma 2); lra.
  - lra.
  - destruct (low_facts t A ltac:(lra)) as (_ & _ & _ & _ & _ & _ & A7 & A8). destruct (high_facts t' E' B) as (_ & _ & _ & _ & _ & _ & _ & _ & B9 & B10).
    assert (r (low_b t * t) <= 1 # 2) by (apply r_le; [exact r_h|assumption]). lra.
  - destruct (low_facts t A ltac:(lra)) as (A1 & A2 & A3 & A4 & A5 & A6 & A7 & A8).
    destruct (low_facts t' ltac:(lra) ltac:(lra)) as (B1 & B2 & B3 & B4 & B5 & B6 & B7 & B8).
    assert (K1 : r (4 * t) <= r (4 * t')) by (apply r_mono; lra).
    assert (K2 : low_b t <= low_b t') by (unfold low_b; apply r_mono, mul_mono; lra).
    assert (K3 : low_b t * t <= low_b t' * t') by (apply mul_mono; lra).
    split; [apply r_mono; exact K3|exact K3].
Qed.
(** How far from the exact curve. *)
Lemma ease_err t : 0 <= t -> t <= 1 -> - (16 * u) <= ease_v t - eased t /\ ease_v t - eased t <= 16 * u /\ - (16 * u) <= ease_e t - eased t /\ ease_e t - eased t <= 16 * u.
Proof.
  intros A B. unfold ease_v, ease_e. destruct (Qle_bool (1 # 2) t) eqn:E; [apply Qle_bool_iff in E|apply Qle_bool_false in E].
  - assert (K : - (16 * u) <= high_v t - eased t /\ high_v t - eased t <= 16 * u); [|tauto].
    destruct (high_facts t E B) as (A1 & A2 & A3 & A4 & A5 & A6 & A7 & A8 & A9 & A10).
    assert (Ee : eased t == (t - 1) * (2 * t - 2) * (2 * t - 2) + 1).
    { rewrite <- ease_is_eased. unfold easeInOutCubic. rewrite (proj2 (Qle_bool_iff (1 # 2) t) E). cbn [negb]. reflexivity. }
    assert (Hb : forall f, - (6 * u) <= high_b f t - (2 * t - 2) /\ high_b f t - (2 * t - 2) <= 6 * u).
    { intros f. unfold high_b. destruct (err4 (2 * t) ltac:(lra) ltac:(lra)) as [M1 M2].
      assert (1 <= r (2 * t)) by (apply r_ge; [exact r_1|lra]). assert (r (2 * t) <= 2) by (apply r_le; [exact r_2|lra]).
      destruct f.
      - destruct (err2 (2 * t + -2) ltac:(lra) ltac:(lra)). unfold u in *. lra.
      - destruct (err2 (r (2 * t) + -2) ltac:(lra) ltac:(lra)). lra. }
    destruct (Hb (fma 0)) as [H1 H2]. destruct (Hb (fma 1)) as [H3 H4].
    destruct (high_b_facts (fma 0) t E B) as [C1 C2]. destruct (high_b_facts (fma 1) t E B) as [D1 D2].
    destruct (err1 (t + -1) ltac:(lra) ltac:(lra)) as [E1 E2].
    assert (U0 : 0 <= u) by discriminate.
    destruct (mul_near (r (t + -1)) (t - 1) (high_b (fma 0) t) (2 * t - 2) u (6 * u) 1 (1 # 2)) as [F1 F2]; try lra.
    destruct (err1 (r (t + -1) * high_b (fma 0) t) ltac:(lra) ltac:(lra)) as [G1 G2]. fold (high_p t) in G1, G2.
    assert (P0 : 0 <= (t - 1) * (2 * t - 2)) by nra. assert (P1 : (t - 1) * (2 * t - 2) <= 1 # 2) by nra.
    destruct (mul_near (high_p t) ((t - 1) * (2 * t - 2)) (high_b (fma 1) t) (2 * t - 2) (5 * u) (6 * u) 1 (1 # 2)) as [I1 I2]; try lra.
    destruct (err1 (high_p t * high_b (fma 1) t) ltac:(lra) ltac:(lra)) as [J1 J2].
    assert (A11 : - (1 # 2) <= r (high_p t * high_b (fma 1) t)) by (apply r_ge; [exact r_mh|assumption]).
    assert (A12 : r (high_p t * high_b (fma 1) t) <= 0) by (apply r_le; [exact r_0|assumption]).
    rewrite Ee. unfold high_v.
    destruct (fma 2).
    + destruct (err2 (high_p t * high_b (fma 1) t + 1) ltac:(lra) ltac:(lra)) as [K1 K2]. lra.
    + destruct (err2 (r (high_p t * high_b (fma 1) t) + 1) ltac:(lra) ltac:(lra)) as [K1 K2]. lra.
  - destruct (low_facts t A ltac:(lra)) as (A1 & A2 & A3 & A4 & A5 & A6 & A7 & A8).
    assert (Ee : eased t == 4 * t * t * t) by (destruct (eased_cases t) as [[_ X]|[X _]]; [exact X|lra]).
    assert (U0 : 0 <= u) by discriminate.
    destruct (err4 (4 * t) ltac:(lra) ltac:(lra)) as [E1 E2].
    destruct (mul_near (r (4 * t)) (4 * t) t t (4 * u) 0 (1 # 2) 2) as [F1 F2]; try lra.
    destruct (err2 (r (4 * t) * t) ltac:(lra) ltac:(lra)) as [G1 G2]. fold (low_b t) in G1, G2.
    assert (P0 : 0 <= 4 * t * t) by nra. assert (P1 : 4 * t * t <= 1) by nra.
    destruct (mul_near (low_b t) (4 * t * t) t t (4 * u) 0 (1 # 2) 1) as [I1 I2]; try lra.
    destruct (err1 (low_b t * t) ltac:(lra) ltac:(lra)) as [J1 J2].
    rewrite Ee. lra.
Qed.

(** ** Positions *)
(** How far the old picture has left, as a part of the width, examples/ui/one/slider.go:96, 106 *)
Definition gap (o : Q) : Q := - r ((if fma 3 then ease_e o else ease_v o) + -1).
(** the same in whole pixels: examples/ui/one/slider.go:96, 106 *)
Definition shiftF (w : Z) (o : Q) : Z := trunc (r (inject_Z w * gap o)).
Lemma gap_range o : 0 <= o -> o <= 1 -> 0 <= gap o /\ gap o <= 1.
Proof.
  intros A B. destruct (ease_range o A B) as (R1 & R2 & R3 & R4). unfold gap.
  assert (-1 <= r ((if fma 3 then ease_e o else ease_v o) + -1)) by (apply r_ge; [exact r_m1|destruct (fma 3); lra]).
  assert (r ((if fma 3 then ease_e o else ease_v o) + -1) <= 0) by (apply r_le; [exact r_0|destruct (fma 3); lra]). lra.
Qed.
Lemma gap_mono o o' : 0 <= o -> o <= o' -> o' <= 1 -> gap o' <= gap o.
Proof.
  intros A L B. destruct (ease_mono o o' A L B) as (M1 & M2). unfold gap.
  assert (r ((if fma 3 then ease_e o else ease_v o) + -1) <= r ((if fma 3 then ease_e o' else ease_v o') + -1)); [|lra].
  apply r_mono. destruct (fma 3); lra.
Qed.
Lemma gap_err o : 0 <= o -> o <= 1 -> - (17 * u) <= gap o - (1 - eased o) /\ gap o - (1 - eased o) <= 17 * u.
Proof.
  intros A B. destruct (ease_range o A B) as (R1 & R2 & R3 & R4). destruct (ease_err o A B) as (E1 & E2 & E3 & E4). unfold gap.
  destruct (err1 ((if fma 3 then ease_e o else ease_v o) + -1)) as [H1 H2]; [destruct (fma 3); lra|destruct (fma 3); lra|].
  destruct (fma 3); lra.
Qed.
Lemma w_abs w : (0 <= w <= 2 ^ 24)%Z -> Qabs (inject_Z w) <= Qpower 2 127.
Proof. intros H. rewrite Qabs_pos by (rewrite <- (Zle_Qle 0); lia). apply Qle_trans with (inject_Z (2 ^ 24)); [rewrite <- Zle_Qle; lia|discriminate]. Qed.
Lemma wm_range w m : (0 <= w)%Z -> 0 <= m -> m <= 1 -> 0 <= inject_Z w * m /\ inject_Z w * m <= inject_Z w.
Proof.
  intros W A B. assert (W0 : 0 <= inject_Z w) by (rewrite <- (Zle_Qle 0); lia).
  pose proof (mul_mono (inject_Z w) (inject_Z w) m 1 W0 ltac:(lra) A B). pose proof (Qmult_le_0_compat _ _ W0 A). lra.
Qed.
Lemma trunc_mono a b : 0 <= a -> a <= b -> (trunc a <= trunc b)%Z.
Proof. intros A L. rewrite !trunc_floor by lra. apply Qfloor_resp_le, L. Qed.
Lemma trunc_Z n : trunc (inject_Z n) = n.
Proof. unfold trunc. cbn [inject_Z Qnum Qden]. apply Z.quot_1_r. Qed.
Lemma shiftF_range w o : (0 <= w <= 2 ^ 24)%Z -> 0 <= o -> o <= 1 -> (0 <= shiftF w o <= w)%Z.
Proof.
  intros W A B. destruct (gap_range o A B) as [G1 G2]. destruct (wm_range w (gap o) ltac:(lia) G1 G2) as [M1 M2].
  assert (R1 : 0 <= r (inject_Z w * gap o)) by (apply r_ge; [exact r_0|exact M1]).
  assert (R2 : r (inject_Z w * gap o) <= inject_Z w) by (apply r_le; [apply r_Z; lia|exact M2]).
  unfold shiftF. split.
  - change 0%Z with (trunc (inject_Z 0)). apply trunc_mono; [discriminate|exact R1].
  - rewrite <- (trunc_Z w) at 2. apply trunc_mono; assumption.
Qed.
Lemma shiftF_mono w o o' : (0 <= w)%Z -> 0 <= o -> o <= o' -> o' <= 1 -> (shiftF w o' <= shiftF w o)%Z.
Proof.
  intros W A L B. destruct (gap_range o A ltac:(lra)) as [G1 G2]. destruct (gap_range o' ltac:(lra) B) as [G3 G4]. pose proof (gap_mono o o' A L B).
  destruct (wm_range w (gap o') W G3 G4) as [M1 M2].
  unfold shiftF. apply trunc_mono; [apply r_ge; [exact r_0|exact M1]|].
  apply r_mono. apply mul_mono; [rewrite <- (Zle_Qle 0); lia|lra|lra|lra].
Qed.
Lemma shiftF_real w o : (0 <= w <= 2 ^ 24)%Z -> 0 <= o -> o <= 1 -> exists p, shiftF w o = Qfloor p /\
  - (inject_Z w * (19 * u)) <= p - inject_Z w * (1 - eased o) /\ p - inject_Z w * (1 - eased o) <= inject_Z w * (19 * u).
Proof.
  intros W A B. destruct (gap_range o A B) as [G1 G2]. destruct (gap_err o A B) as [E1 E2]. destruct (wm_range w (gap o) ltac:(lia) G1 G2) as [M1 M2].
  exists (r (inject_Z w * gap o)). split; [apply trunc_floor; apply r_ge; [exact r_0|exact M1]|].
  assert (W0 : 0 <= inject_Z w) by (rewrite <- (Zle_Qle 0); lia).
  assert (R : inject_Z w * gap o - inject_Z w * (2 * u) <= r (inject_Z w * gap o) /\ r (inject_Z w * gap o) <= inject_Z w * gap o + inject_Z w * (2 * u)).
  { destruct (Z.eq_dec w 0) as [->|N].
    - assert (X : inject_Z 0 * gap o == 0) by (change (inject_Z 0) with 0; ring). rewrite X, r_0. split; discriminate.
    - destruct (Z.log2_spec w ltac:(lia)) as [L1 L2]. pose proof (Z.log2_nonneg w) as L0.
      destruct (err_pow (inject_Z w * gap o) (Z.log2 w + 1)) as [P1 P2]; [|lia|].
      + rewrite Qabs_pos by exact M1. apply Qle_lt_trans with (inject_Z w); [exact M2|]. rewrite pow_Z by lia. rewrite <- Zlt_Qlt. rewrite Z.add_1_r. exact L2.
      + assert (X : Qpower 2 (Z.log2 w + 1 - 25) == inject_Z (2 ^ Z.log2 w) * (2 * u)).
        { replace (Z.log2 w + 1 - 25)%Z with (Z.log2 w + (-24))%Z by lia. rewrite pow_add, pow_Z by lia.
          assert (Y : Qpower 2 (-24) == 2 * u) by reflexivity. rewrite Y. reflexivity. }
        rewrite X in P1, P2.
        assert (inject_Z (2 ^ Z.log2 w) * (2 * u) <= inject_Z w * (2 * u)) by (apply Qmult_le_compat_r; [rewrite <- Zle_Qle; lia|discriminate]). lra. }
  assert (M3 : inject_Z w * gap o - inject_Z w * (1 - eased o) == inject_Z w * (gap o - (1 - eased o))) by ring.
  assert (M4 : inject_Z w * (gap o - (1 - eased o)) <= inject_Z w * (17 * u)) by (rewrite !(Qmult_comm (inject_Z w)); apply Qmult_le_compat_r; lra).
  assert (M5 : inject_Z w * (- (17 * u)) <= inject_Z w * (gap o - (1 - eased o))) by (rewrite !(Qmult_comm (inject_Z w)); apply Qmult_le_compat_r; lra).
  lra.
Qed.
Lemma gap_1 : gap 1 == 0.
Proof. unfold gap, ease_v, ease_e. cbn [Qle_bool]. unfold high_v, high_p, high_b. destruct (fma 0), (fma 1), (fma 2), (fma 3); vm_compute; reflexivity. Qed.
Lemma shiftF_1 w : shiftF w 1 = 0%Z.
Proof. unfold shiftF. rewrite gap_1. rewrite Qmult_0_r, r_0. reflexivity. Qed.
Lemma smoothF_neg t : t < 0 -> -1 <= t -> smoothF fma t = Some (mkVal (- ease_v (- t)) (- ease_e (- t))).
Proof.
  intros A B. unfold smoothF. rewrite (proj2 (Qle_bool_false 0 t) A). cbn [negb]. rewrite easeF_eq by lra. reflexivity.
Qed.
Lemma smoothF_pos t : 0 <= t -> t <= 1 -> smoothF fma t = Some (mkVal (ease_v t) (ease_e t)).
Proof. intros A B. unfold smoothF. rewrite (proj2 (Qle_bool_iff 0 t) A). cbn [negb]. apply easeF_eq; assumption. Qed.
Lemma positionF_pos w o : (0 <= w <= 2 ^ 24)%Z -> 0 < o -> o <= 1 -> positionF fma w o (-1) = Some (- shiftF w o)%Z.
Proof.
  intros W A B. destruct (ease_range o ltac:(lra) B) as (R1 & R2 & R3 & R4). destruct (gap_range o ltac:(lra) B) as [G1 G2].
  unfold positionF. rewrite smoothF_pos by lra. cbn [obind]. rewrite (f32_some (inject_Z w)) by (apply w_abs; exact W). cbn [obind].
  unfold fplus. cbn [value exact]. rewrite f32_small by (destruct (fma 3); lra). cbn [obind]. unfold fmul. cbn [value plain].
  set (m := r ((if fma 3 then ease_e o else ease_v o) + -1)).
  assert (Em : m == - gap o) by (unfold gap, m; ring).
  assert (Ew : r (inject_Z w) == inject_Z w) by (apply r_Z; lia).
  destruct (wm_range w (gap o) ltac:(lia) G1 G2) as [M1 M2].
  rewrite f32_some. 2:{ rewrite Ew, Em. apply Qle_trans with (Qabs (inject_Z w)); [|apply w_abs; exact W].
    rewrite (Qabs_pos (inject_Z w)) by lra. apply Qabs_Qle_condition. lra. }
  cbn [obind value]. f_equal. unfold shiftF. rewrite <- trunc_opp. apply trunc_comp. rewrite <- r_opp. apply r_comp. rewrite Ew, Em. ring.
Qed.
Lemma positionF_neg w o : (0 <= w <= 2 ^ 24)%Z -> 0 < o -> o <= 1 -> forall o', o' == - o -> positionF fma w o' 1 = Some (shiftF w (- o')).
Proof.
  intros W A B o' Eo. assert (A' : 0 < - o') by lra. assert (B' : - o' <= 1) by lra.
  destruct (ease_range (- o') ltac:(lra) B') as (R1 & R2 & R3 & R4). destruct (gap_range (- o') ltac:(lra) B') as [G1 G2].
  unfold positionF. rewrite smoothF_neg by lra. cbn [obind]. rewrite (f32_some (inject_Z w)) by (apply w_abs; exact W). cbn [obind].
  unfold fplus. cbn [value exact]. rewrite f32_small by (destruct (fma 3); lra). cbn [obind]. unfold fmul. cbn [value plain].
  set (m := r ((if fma 3 then - ease_e (- o') else - ease_v (- o')) + 1)).
  assert (Em : m == gap (- o')).
  { unfold gap, m. rewrite <- r_opp. apply r_comp. destruct (fma 3); ring. }
  assert (Ew : r (inject_Z w) == inject_Z w) by (apply r_Z; lia).
  destruct (wm_range w (gap (- o')) ltac:(lia) G1 G2) as [M1 M2].
  rewrite f32_some. 2:{ rewrite Ew, Em. apply Qle_trans with (Qabs (inject_Z w)); [|apply w_abs; exact W].
    rewrite (Qabs_pos (inject_Z w)) by lra. apply Qabs_Qle_condition. lra. }
  cbn [obind value]. f_equal. unfold shiftF. apply trunc_comp. apply r_comp. rewrite Ew, Em. reflexivity.
Qed.
End Fused.

(** ** Seconds and movement *)
Lemma r64_mono a b : a <= b -> r64 a <= r64 b. Proof. apply fround_mono. lia. Qed.
Lemma r64_Z n : (Z.abs n < 2 ^ 53)%Z -> r64 (inject_Z n) == inject_Z n.
Proof.
  intros C. apply (fround_exact _ _ _ n 0); [change (Qpower 2 0) with 1; ring|]. intros N.
  assert (L : (flog2 (Qabs (inject_Z n)) < 53)%Z).
  { apply flog2_lt; [apply nz_abs, N|]. rewrite pow_Z by lia. change (Qabs (inject_Z n)) with (inject_Z (Z.abs n)). rewrite <- Zlt_Qlt. exact C. }
  unfold fexp. lia.
Qed.
Lemma f64_some q : 0 <= q -> q <= Qpower 2 100 -> f64 q = Some (r64 q).
Proof.
  intros H1 H2. unfold f64. fold (r64 q).
  assert (A : r64 q <= Qpower 2 100) by (apply Qle_trans with (r64 (Qpower 2 100)); [apply r64_mono, H2|vm_compute; discriminate]).
  assert (B : 0 <= r64 q) by (apply Qle_trans with (r64 0); [vm_compute; discriminate|apply r64_mono, H1]).
  destruct (Qle_bool (Qpower 2 1024) (Qabs (r64 q))) eqn:E; [|reflexivity]. apply Qle_bool_iff in E. exfalso.
  rewrite Qabs_pos in E by exact B. assert (Qpower 2 100 < Qpower 2 1024) by reflexivity. lra.
Qed.
(** Half a unit in the last place of a float64, relatively, examples/ui/one/slider.go:58 *)
Definition v : Q := 1 # 9007199254740992.
(** a is b, up to a relative error of e: examples/ui/one/slider.go:58 *)
Definition near (e a b : Q) : Prop := b * (1 - e) <= a /\ a <= b * (1 + e).
Global Instance near_Proper : Proper (Qeq ==> Qeq ==> Qeq ==> iff) near.
Proof. intros e e' E a a' Ea b b' Eb. unfold near. rewrite E, Ea, Eb. tauto. Qed.
Lemma r64_near q : q == 0 \/ Qpower 2 (-1022) <= q -> near v (r64 q) q.
Proof.
  intros [H|H]; unfold near.
  - assert (E : r64 q == 0) by (unfold r64; rewrite (fround_comp _ _ _ _ H); reflexivity). rewrite E, H. split; vm_compute; discriminate.
  - pose proof (fround_rel 53 (-1074) q H) as E. apply Qabs_Qle_condition in E. fold (r64 q) in E.
    assert (X : Qpower 2 (- (53)) == v) by reflexivity. rewrite X in E. lra.
Qed.
Lemma r_near q : q == 0 \/ Qpower 2 (-126) <= q -> near (2 * u) (r q) q.
Proof.
  intros [H|H]; unfold near.
  - assert (E : r q == 0) by (rewrite (r_comp _ _ H); reflexivity). rewrite E, H. split; vm_compute; discriminate.
  - apply rel32, H.
Qed.

Lemma near_comp e a b c : near e a b -> b == c -> near e a c.
Proof. unfold near. intros H E. rewrite <- E. exact H. Qed.
Lemma Seconds_near d : (0 <= d < 2 ^ 63)%Z -> exists x, Seconds d = Some x /\ near (4 * v) x (inject_Z d / 1000000000).
Proof.
  intros Hd. set (sec := (d / 1000000000)%Z). set (ns := (d mod 1000000000)%Z).
  assert (Dm : (d = 1000000000 * sec + ns)%Z) by (apply Z.div_mod; lia).
  assert (Hn : (0 <= ns < 1000000000)%Z) by (apply Z.mod_pos_bound; lia).
  assert (Hs : (0 <= sec < 2 ^ 53)%Z) by lia.
  assert (Qn : Z.quot d 1000000000 = sec) by (apply Z.quot_div_nonneg; lia). assert (Rn : Z.rem d 1000000000 = ns) by (apply Z.rem_mod_nonneg; lia).
  assert (Qs : 0 <= inject_Z sec /\ inject_Z sec <= Qpower 2 60) by (split; [rewrite <- (Zle_Qle 0); lia|rewrite pow_Z by lia; rewrite <- Zle_Qle; lia]).
  assert (Qr : 0 <= inject_Z ns /\ inject_Z ns <= 1000000000) by (split; [rewrite <- (Zle_Qle 0); lia|change 1000000000 with (inject_Z 1000000000); rewrite <- Zle_Qle; lia]).
  assert (E60 : Qpower 2 60 == 1152921504606846976) by reflexivity. assert (E100 : Qpower 2 100 == 1267650600228229401496703205376) by reflexivity.
  unfold Seconds. rewrite Qn, Rn.
  rewrite (f64_some (inject_Z sec)) by lra. cbn [obind]. rewrite (f64_some (inject_Z ns)) by lra. cbn [obind].
  set (a := r64 (inject_Z sec)). set (b := r64 (inject_Z ns)).
  assert (Ea : a == inject_Z sec) by (apply r64_Z; lia). assert (Eb : b == inject_Z ns) by (apply r64_Z; lia).
  assert (Bd : b / 1000000000 == inject_Z ns * (1 # 1000000000)) by (rewrite Eb; unfold Qdiv; reflexivity).
  rewrite (f64_some (b / 1000000000)) by (rewrite Bd; lra). cbn [obind]. set (c := r64 (b / 1000000000)).
  assert (Nz : ns = 0%Z \/ 1 <= inject_Z ns) by (destruct (Z.eq_dec ns 0); [left; assumption|right; change 1 with (inject_Z 1); rewrite <- Zle_Qle; lia]).
  assert (T : Qpower 2 (-1022) <= 1 # 1000000000) by (vm_compute; discriminate).
  assert (Nc : near v c (b / 1000000000)).
  { apply r64_near. destruct Nz as [N|N]; [left; rewrite Bd, N; reflexivity|right; rewrite Bd; lra]. }
  assert (Dv : inject_Z d / 1000000000 == inject_Z sec + inject_Z ns * (1 # 1000000000)).
  { rewrite Dm at 1. rewrite inject_Z_plus, inject_Z_mult. change (inject_Z 1000000000) with 1000000000. field. }
  assert (T2 : 0 <= a + c /\ a + c <= Qpower 2 100 /\ (a + c == 0 \/ Qpower 2 (-1022) <= a + c)).
  { unfold near, v in Nc. rewrite Ea. split; [lra|]. split; [lra|]. destruct Nz as [N|N].
    - destruct (Z.eq_dec sec 0) as [S0|S0].
      + left. assert (X : inject_Z ns == 0) by (rewrite N; reflexivity). assert (Y : inject_Z sec == 0) by (rewrite S0; reflexivity). lra.
      + right. assert (1 <= inject_Z sec) by (change 1 with (inject_Z 1); rewrite <- Zle_Qle; lia). lra.
    - right. assert (T3 : Qpower 2 (-1022) <= 1 # 2000000000) by (vm_compute; discriminate). lra. }
  destruct T2 as (T2 & T3 & T4). exists (r64 (a + c)). split; [apply f64_some; assumption|].
  pose proof (r64_near _ T4) as N2. unfold near, v in *. rewrite Dv. rewrite Ea in *. lra.
Qed.
Lemma Seconds32 d : (0 <= d < 2 ^ 63)%Z -> exists x, (let? a := Seconds d in f32 a) = Some x /\ near (3 * u) x (inject_Z d / 1000000000).
Proof.
  intros Hd. destruct (Seconds_near d Hd) as (x & E & N). rewrite E. cbn [obind].
  assert (Qd : inject_Z d / 1000000000 == inject_Z d * (1 # 1000000000)) by (unfold Qdiv; reflexivity). rewrite Qd in N.
  assert (D0 : 0 <= inject_Z d) by (rewrite <- (Zle_Qle 0); lia).
  assert (D1 : inject_Z d <= 9223372036854775808) by (change 9223372036854775808 with (inject_Z 9223372036854775808); rewrite <- Zle_Qle; lia).
  assert (T : x == 0 \/ Qpower 2 (-126) <= x).
  { unfold near, v in N. destruct (Z.eq_dec d 0) as [Z0|Z0].
    - left. assert (inject_Z d == 0) by (rewrite Z0; reflexivity). lra.
    - right. assert (1 <= inject_Z d) by (change 1 with (inject_Z 1); rewrite <- Zle_Qle; lia).
      assert (Qpower 2 (-126) <= 1 # 2000000000) by (vm_compute; discriminate). lra. }
  assert (Ab : Qabs x <= Qpower 2 127).
  { assert (E127 : 100000000000 <= Qpower 2 127) by (vm_compute; discriminate). unfold near, v in N. apply Qabs_Qle_condition. lra. }
  exists (r x). split; [apply f32_some, Ab|]. pose proof (r_near x T) as N2. unfold near, u, v in *. rewrite Qd. lra.
Qed.
Lemma movementF_near d D : (0 <= d < 2 ^ 63)%Z -> (0 < D < 2 ^ 63)%Z -> exists m, movementF d D = Some m /\ near (10 * u) m (inject_Z d / inject_Z D).
Proof.
  intros Hd HD. destruct (Seconds32 d Hd) as (a & Ea & Na). destruct (Seconds32 D ltac:(lia)) as (b & Eb & Nb).
  assert (X : movementF d D = fdiv a b).
  { unfold movementF. destruct (Seconds d) as [a0|]; [|discriminate]. cbn [obind] in *. rewrite Ea. cbn [obind].
    destruct (Seconds D) as [b0|]; [|discriminate]. cbn [obind] in *. rewrite Eb. reflexivity. }
  rewrite X. clear X Ea Eb.
  assert (Qd : inject_Z d / 1000000000 == inject_Z d * (1 # 1000000000)) by (unfold Qdiv; reflexivity). rewrite Qd in Na.
  assert (QD : inject_Z D / 1000000000 == inject_Z D * (1 # 1000000000)) by (unfold Qdiv; reflexivity). rewrite QD in Nb.
  assert (D0 : 0 <= inject_Z d) by (rewrite <- (Zle_Qle 0); lia).
  assert (D1 : inject_Z d <= 9223372036854775808) by (change 9223372036854775808 with (inject_Z 9223372036854775808); rewrite <- Zle_Qle; lia).
  assert (P0 : 1 <= inject_Z D) by (change 1 with (inject_Z 1); rewrite <- Zle_Qle; lia).
  assert (P1 : inject_Z D <= 9223372036854775808) by (change 9223372036854775808 with (inject_Z 9223372036854775808); rewrite <- Zle_Qle; lia).
  unfold near, u in Na, Nb. assert (B0 : 0 < b) by lra.
  set (q := inject_Z d / inject_Z D). assert (Eq : inject_Z d == q * inject_Z D) by (unfold q; field; lra).
  assert (Q0 : 0 <= q) by (unfold q; apply Qle_shift_div_l; lra).
  assert (Q1 : q <= 9223372036854775808) by (unfold q; apply Qle_shift_div_r; [lra|]; nra).
  set (p := a / b). assert (Ep : a == p * b) by (unfold p; field; lra).
  assert (Np : near (7 * u) p q).
  { unfold near, u, p. split; [apply Qle_shift_div_l; [exact B0|]|apply Qle_shift_div_r; [exact B0|]].
    - apply Qle_trans with (inject_Z d * (1 # 1000000000) * (1 - 3 * (1 # 33554432))); [|tauto]. rewrite Eq.
      assert (q * b <= q * (inject_Z D * (1 # 1000000000) * (1 + 3 * (1 # 33554432)))) by (rewrite !(Qmult_comm q); apply Qmult_le_compat_r; tauto).
      assert (0 <= q * inject_Z D) by (apply Qmult_le_0_compat; lra). lra.
    - apply Qle_trans with (inject_Z d * (1 # 1000000000) * (1 + 3 * (1 # 33554432))); [tauto|]. rewrite Eq.
      assert (q * (inject_Z D * (1 # 1000000000) * (1 - 3 * (1 # 33554432))) <= q * b) by (rewrite !(Qmult_comm q); apply Qmult_le_compat_r; tauto).
      assert (0 <= q * inject_Z D) by (apply Qmult_le_0_compat; lra). lra. }
  assert (T : p == 0 \/ Qpower 2 (-126) <= p).
  { unfold near, u in Np. destruct (Z.eq_dec d 0) as [Z0|Z0].
    - left. assert (q == 0) by (unfold q; rewrite Z0; unfold Qdiv; ring). lra.
    - right. assert (1 <= inject_Z d) by (change 1 with (inject_Z 1); rewrite <- Zle_Qle; lia).
      assert (1 # 9223372036854775808 <= q).
      { unfold q. apply Qle_shift_div_l; [lra|]. lra. }
      assert (Qpower 2 (-126) <= 1 # 20000000000000000000) by (vm_compute; discriminate). lra. }
  assert (Ab : Qabs p <= Qpower 2 127).
  { assert (E127 : 100000000000000000000 <= Qpower 2 127) by (vm_compute; discriminate). unfold near, u in Np. apply Qabs_Qle_condition. lra. }
  exists (r p). split.
  - unfold fdiv. destruct (Qeq_bool b 0) eqn:E0; [apply Qeq_bool_iff in E0; lra|]. fold p. apply f32_some, Ab.
  - pose proof (r_near p T) as N2. unfold near, u in *. lra.
Qed.
