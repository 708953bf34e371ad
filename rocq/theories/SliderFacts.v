(** SliderFacts.v - the slider of the example program: easing, positions, histories of frames. *)
From Coq Require Import QArith Qround Qminmax Lqa Lia.
From Verif Require Import Base GoStr Prims Bip39 Bip32Reg Bip32 Util Ui Slider SpecSlider.

(** ** Easing *)
Lemma ease_eased q : (easeInOutCubic (1 - q) == 1 - eased q)%Q.
Proof.
  unfold easeInOutCubic, eased.
  destruct (Qle_bool (1 # 2) (1 - q)) eqn:E1, (Qle_bool q (1 # 2)) eqn:E2; cbn [negb];
    try apply Qle_bool_iff in E1; try apply Qle_bool_iff in E2.
  - ring.
  - exfalso. assert (~ q <= 1 # 2)%Q by (intro K; apply Qle_bool_iff in K; congruence). lra.
  - exfalso. assert (~ 1 # 2 <= 1 - q)%Q by (intro K; apply Qle_bool_iff in K; congruence). lra.
  - ring.
Qed.

Lemma eased_cases q : (q <= 1 # 2 /\ eased q == 4 * q * q * q \/ 1 # 2 < q /\ eased q == 1 - 4 * (1 - q) * (1 - q) * (1 - q))%Q.
Proof.
  unfold eased. destruct (Qle_bool q (1 # 2)) eqn:E.
  - left. split; [apply Qle_bool_iff, E|reflexivity].
  - right. split; [|reflexivity]. apply Qnot_le_lt. intro K. apply Qle_bool_iff in K. congruence.
Qed.

Global Instance eased_comp : Proper (Qeq ==> Qeq) eased.
Proof.
  intros a b E. destruct (eased_cases a) as [[A1 A2]|[A1 A2]], (eased_cases b) as [[B1 B2]|[B1 B2]];
    rewrite A2, B2; try lra; rewrite E; reflexivity.
Qed.

Lemma eased_mono a b : (0 <= a -> a <= b -> b <= 1 -> eased a <= eased b)%Q.
Proof.
  intros A L B1. destruct (eased_cases a) as [[A1 A2]|[A1 A2]], (eased_cases b) as [[C1 C2]|[C1 C2]]; rewrite A2, C2.
  - assert (0 <= (b - a) * (a * a + a * b + b * b))%Q by (apply Qmult_le_0_compat; [lra|]; nra). nra.
  - assert (4 * a * a * a <= 1 # 2)%Q.
    { assert (0 <= ((1 # 2) - a) * (a * a + a * (1 # 2) + (1 # 4)))%Q by (apply Qmult_le_0_compat; nra). nra. }
    assert (4 * (1 - b) * (1 - b) * (1 - b) <= 1 # 2)%Q.
    { assert (0 <= ((1 # 2) - (1 - b)) * ((1 - b) * (1 - b) + (1 - b) * (1 # 2) + (1 # 4)))%Q by (apply Qmult_le_0_compat; nra). nra. }
    lra.
  - lra.
  - assert (0 <= (b - a) * ((1 - a) * (1 - a) + (1 - a) * (1 - b) + (1 - b) * (1 - b)))%Q by (apply Qmult_le_0_compat; [lra|]; nra). nra.
Qed.

Lemma eased_0 : (eased 0 == 0)%Q. Proof. reflexivity. Qed.
Lemma eased_1 : (eased 1 == 1)%Q. Proof. reflexivity. Qed.
Lemma eased_range q : (0 <= q -> q <= 1 -> 0 <= eased q /\ eased q <= 1)%Q.
Proof.
  intros A B. split.
  - rewrite <- eased_0. apply eased_mono; lra.
  - rewrite <- eased_1 at 1. apply eased_mono; lra.
Qed.
Lemma eased_sym q : (eased (1 - q) == 1 - eased q)%Q.
Proof.
  destruct (eased_cases q) as [[A1 A2]|[A1 A2]], (eased_cases (1 - q)) as [[B1 B2]|[B1 B2]]; rewrite A2, B2; try lra; try ring.
  assert (E : (q == 1 # 2)%Q) by lra. rewrite E. reflexivity.
Qed.
(** No jumps: the curve is Lipschitz with constant 3. *)
Lemma eased_lip_low a b : (0 <= a -> a <= b -> b <= 1 # 2 -> 4 * b * b * b - 4 * a * a * a <= 3 * (b - a))%Q.
Proof.
  intros A L B1.
  assert (S : (a * a + a * b + b * b <= 3 # 4)%Q) by nra.
  assert (0 <= (b - a) * ((3 # 4) - (a * a + a * b + b * b)))%Q by (apply Qmult_le_0_compat; lra). nra.
Qed.
Lemma eased_lip a b : (0 <= a -> a <= b -> b <= 1 -> eased b - eased a <= 3 * (b - a))%Q.
Proof.
  intros A L B1. destruct (eased_cases a) as [[A1 A2]|[A1 A2]], (eased_cases b) as [[C1 C2]|[C1 C2]]; rewrite A2, C2.
  - apply eased_lip_low; lra.
  - pose proof (eased_lip_low a (1 # 2) ltac:(lra) ltac:(lra) ltac:(lra)) as P1.
    pose proof (eased_lip_low (1 - b) (1 # 2) ltac:(lra) ltac:(lra) ltac:(lra)) as P2. lra.
  - lra.
  - pose proof (eased_lip_low (1 - b) (1 - a) ltac:(lra) ltac:(lra) ltac:(lra)) as P. lra.
Qed.

(** ** smooth *)
Global Instance ease_comp : Proper (Qeq ==> Qeq) easeInOutCubic.
Proof.
  intros a b E. pose proof (ease_eased (1 - a)) as Ha. pose proof (ease_eased (1 - b)) as Hb.
  unfold easeInOutCubic. rewrite E.
  destruct (Qle_bool (1 # 2) b); cbn [negb]; rewrite E; reflexivity.
Qed.
Lemma ease_at u : (easeInOutCubic u == 1 - eased (1 - u))%Q.
Proof. rewrite <- ease_eased. apply ease_comp. ring. Qed.
Lemma ease_is_eased u : (easeInOutCubic u == eased u)%Q.
Proof. rewrite ease_at, eased_sym. ring. Qed.
Lemma smooth_pos u : (0 <= u -> smooth u == eased u)%Q.
Proof. intro L. unfold smooth. rewrite (proj2 (Qle_bool_iff 0 u) L). apply ease_is_eased. Qed.
Lemma smooth_neg u : (u < 0 -> smooth u == - eased (- u))%Q.
Proof.
  intro L. unfold smooth. destruct (Qle_bool 0 u) eqn:E; [apply Qle_bool_iff in E; lra|]. cbn [negb]. rewrite ease_is_eased. reflexivity.
Qed.
Lemma smooth_odd u : (smooth (- u) == - smooth u)%Q.
Proof.
  destruct (Qlt_le_dec u 0) as [L|L].
  - rewrite (smooth_pos (- u)), (smooth_neg u) by lra. ring.
  - destruct (Qlt_le_dec 0 u) as [L'|L'].
    + rewrite (smooth_neg (- u)), (smooth_pos u) by lra. rewrite Qopp_involutive. reflexivity.
    + assert (E : (u == 0)%Q) by lra. rewrite (smooth_pos (- u)), (smooth_pos u) by lra. rewrite E. reflexivity.
Qed.

(** ** Pixels *)
Global Instance trunc_comp : Proper (Qeq ==> eq) trunc.
Proof.
  intros [a b] [c d] E. unfold Qeq in E. cbn in E. unfold trunc; cbn [Qnum Qden].
  rewrite <- (Z.quot_mul_cancel_r a (Zpos b) (Zpos d)) by lia.
  rewrite <- (Z.quot_mul_cancel_r c (Zpos d) (Zpos b)) by lia. rewrite E. f_equal. lia.
Qed.
Lemma trunc_floor x : (0 <= x)%Q -> trunc x = Qfloor x.
Proof. destruct x as [a b]. unfold Qle. cbn. intro L. unfold trunc. cbn. apply Z.quot_div_nonneg; lia. Qed.
Lemma trunc_opp x : trunc (- x) = - trunc x.
Proof. destruct x as [a b]. unfold trunc. cbn. apply Z.quot_opp_l. lia. Qed.

(** ** Histories *)
Section Hist.
Context {A : Type}.

(** The press that a frame brings, then its Layout. *)
(** In proofs; for examples/ui/one/slider.go:53-115. *)
Definition press (d : Z) (s : slider) : slider := if d =? 0 then s else if d >? 0 then PushLeft s else PushRight s.
(** In proofs; for examples/ui/one/slider.go:53-115. *)
Definition show1 (x : act A) (s : slider) (h : list A) : slider * list A * bool * list (Z * A) :=
  Layout (time x) (width x) (pic x) (press (dir x) s) h.
(** In proofs; for examples/ui/one/slider.go:53-115. *)
Fixpoint play (s : slider) (h : list A) (l : list (act A)) : slider * list A :=
  match l with
  | [] => (s, h)
  | x :: r => let '(s, h, _, _) := show1 x s h in play s h r
  end.
(** The zero value of a Slider but for its Duration. *)
(** In proofs; for examples/ui/one/slider.go:53-115. *)
Definition idle (D : Z) : slider := mkSlider D 0 None None None None 0.
(** In proofs; for examples/ui/one/slider.go:53-115. *)
Definition effective (D : Z) : Z := if D =? 0 then defaultDuration else D.

Lemma play_app l l' s h : play s h (l ++ l') = let (s, h) := play s h l in play s h l'.
Proof. revert s h. induction l as [|x r IH]; intros s h; [reflexivity|]. cbn [play app]. destruct (show1 x s h) as [[[s' h'] b] o]. apply IH. Qed.

Lemma list_set_length (h : list A) b a : length (list_set h b a) = length h.
Proof. revert b. induction h as [|x h IH]; intros [|b]; cbn; auto. Qed.
Lemma list_set_same (h : list A) b a : (b < length h)%nat -> nth_error (list_set h b a) b = Some a.
Proof. revert b. induction h as [|x h IH]; intros [|b] L; cbn in *; try lia; auto. apply IH. lia. Qed.
Lemma list_set_other (h : list A) b c a : b <> c -> nth_error (list_set h b a) c = nth_error h c.
Proof. revert b c. induction h as [|x h IH]; intros [|b] [|c] N; cbn; auto; try congruence. Qed.

(** The remaining part of a slide. *)
(** In proofs; for examples/ui/one/slider.go:53-115. *)
Definition remains (D t now : Z) : Q := (if D <=? now - t then 0 else 1 - inject_Z (now - t) / inject_Z D)%Q.

(** In proofs; for examples/ui/one/slider.go:53-115. *)
Definition good_old (s : slider) (h : list A) (old : option A) : Prop :=
  match old with
  | None => lastCall s = None
  | Some a => exists c, lastCall s = Some c /\ nth_error h c = Some a /\ Some c <> next s
  end.
(** In proofs; for examples/ui/one/slider.go:53-115. *)
Definition slide_inv (D tl : Z) (cur : option (Z * Z * option A)) (s : slider) (h : list A) : Prop :=
  match cur with
  | None => t0 s = None /\ (offset s == 0)%Q
  | Some (d, t, old) => (d = 1 \/ d = -1) /\ t <= tl /\ t0 s = Some tl /\ (offset s == inject_Z d * remains (effective D) t tl)%Q /\
      good_old s h old
  end.
(** In proofs; for examples/ui/one/slider.go:53-115. *)
Definition shown (prev : option A) (s : slider) (h : list A) : Prop :=
  match prev with
  | None => next s = None /\ nextCall s = None
  | Some a => exists b, next s = Some b /\ nextCall s = Some b /\ nth_error h b = Some a
  end.
(** In proofs; for examples/ui/one/slider.go:53-115. *)
Definition Inv (D tl : Z) (prev : option A) (cur : option (Z * Z * option A)) (s : slider) (h : list A) : Prop :=
  Duration s = D /\ push s = 0 /\ shown prev s h /\ slide_inv D tl cur s h.

Lemma remains_range D t now : 0 < D -> t <= now -> (0 <= remains D t now /\ remains D t now <= 1)%Q.
Proof.
  intros P L. unfold remains. destruct (Z.leb_spec D (now - t)); [lra|].
  assert (0 < inject_Z D)%Q by (rewrite <- (Zlt_Qlt 0); lia).
  assert (0 <= inject_Z (now - t) / inject_Z D)%Q.
  { apply Qle_shift_div_l; [assumption|]. rewrite Qmult_0_l, <- (Zle_Qle 0). lia. }
  assert (inject_Z (now - t) / inject_Z D <= 1)%Q.
  { apply Qle_shift_div_r; [assumption|]. rewrite Qmult_1_l, <- Zle_Qle. lia. }
  lra.
Qed.
Lemma remains_pos D t now : 0 < D -> t <= now -> now - t < D -> (0 < remains D t now)%Q.
Proof.
  intros P L L2. unfold remains. destruct (Z.leb_spec D (now - t)); [lia|].
  assert (0 < inject_Z D)%Q by (rewrite <- (Zlt_Qlt 0); lia).
  assert (inject_Z (now - t) / inject_Z D < 1)%Q.
  { apply Qlt_shift_div_r; [assumption|]. rewrite Qmult_1_l, <- Zlt_Qlt. lia. }
  lra.
Qed.
(** Moving by the time since the last frame. *)
Lemma remains_move D t tl now : 0 < D -> t <= tl -> tl <= now ->
  (remains D t now == Qmax 0 (remains D t tl - inject_Z (now - tl) / inject_Z D))%Q.
Proof.
  intros P L L2. assert (PD : (0 < inject_Z D)%Q) by (rewrite <- (Zlt_Qlt 0); lia).
  assert (N : (0 <= inject_Z (now - tl) / inject_Z D)%Q).
  { apply Qle_shift_div_l; [assumption|]. rewrite Qmult_0_l, <- (Zle_Qle 0). lia. }
  unfold remains. destruct (Z.leb_spec D (tl - t)).
  - destruct (Z.leb_spec D (now - t)); [|lia]. rewrite Q.max_l; lra.
  - assert (E : (1 - inject_Z (tl - t) / inject_Z D - inject_Z (now - tl) / inject_Z D == 1 - inject_Z (now - t) / inject_Z D)%Q).
    { setoid_replace (inject_Z (now - t)) with (inject_Z (tl - t) + inject_Z (now - tl))%Q;
        [field; lra|rewrite <- inject_Z_plus; apply inject_Z_injective; lia]. }
    rewrite E. destruct (Z.leb_spec D (now - t)).
    + rewrite Q.max_l; [reflexivity|].
      assert (1 <= inject_Z (now - t) / inject_Z D)%Q; [|lra].
      apply Qle_shift_div_l; [assumption|]. rewrite Qmult_1_l, <- Zle_Qle. lia.
    + rewrite Q.max_r; [reflexivity|].
      assert (inject_Z (now - t) / inject_Z D <= 1)%Q; [|lra].
      apply Qle_shift_div_r; [assumption|]. rewrite Qmult_1_l, <- Zle_Qle. lia.
Qed.

Lemma remains_start D now : 0 < D -> (remains D now now == 1)%Q.
Proof.
  intro P. unfold remains. destruct (Z.leb_spec D (now - now)); [lia|]. rewrite Z.sub_diag.
  unfold Qdiv. rewrite Qmult_0_l. ring.
Qed.

Lemma Qeq_bool_false x : Qeq_bool x 0 = false <-> ~ (x == 0)%Q.
Proof. split; intros K; [intro E; apply Qeq_bool_iff in E; congruence|]. destruct (Qeq_bool x 0) eqn:E; [|reflexivity]. apply Qeq_bool_iff in E. contradiction. Qed.
Lemma Qle_bool_false x y : Qle_bool x y = false <-> (y < x)%Q.
Proof.
  split; intro K.
  - apply Qnot_le_lt. intro E. apply Qle_bool_iff in E. congruence.
  - destruct (Qle_bool x y) eqn:E; [|reflexivity]. apply Qle_bool_iff in E. lra.
Qed.

(** [move] brings the remaining part of the slide up to date. *)
Lemma move_remains s D d t tl now s' again : 0 < D -> effective (Duration s) = D -> d = 1 \/ d = -1 -> t <= tl -> tl <= now ->
  (offset s == inject_Z d * remains D t tl)%Q -> move (now - tl) s = (s', again) ->
  s' = set_offset (offset s') s /\ (offset s' == inject_Z d * remains D t now)%Q /\ again = (tl - t <? D).
Proof.
  intros P ED Dd L L2 EO M. pose proof (remains_range D t tl P L) as [R0 R1].
  pose proof (remains_move D t tl now P L L2) as RM. unfold move in M.
  fold (effective (Duration s)) in M. rewrite ED in M.
  set (m := (inject_Z (now - tl) / inject_Z D)%Q) in *.
  destruct (Qeq_bool (offset s) 0) eqn:E0.
  - apply Qeq_bool_iff in E0. injection M as <- <-.
    assert (Z0 : (remains D t tl == 0)%Q).
    { rewrite EO in E0. destruct Dd as [-> | ->]; change (inject_Z 1) with 1%Q in *; change (inject_Z (-1)) with (-1)%Q in *; lra. }
    assert (C : D <= tl - t).
    { destruct (Z.le_gt_cases D (tl - t)); [assumption|]. pose proof (remains_pos D t tl P L ltac:(lia)). lra. }
    repeat split.
    + destruct s; reflexivity.
    + rewrite E0. unfold remains. destruct (Z.leb_spec D (now - t)); [ring|lia].
    + symmetry. apply Z.ltb_ge. lia.
  - apply Qeq_bool_false in E0.
    assert (NZ : (0 < remains D t tl)%Q).
    { destruct (Qlt_le_dec 0 (remains D t tl)); [assumption|]. exfalso. apply E0. rewrite EO.
      assert (Z0 : (remains D t tl == 0)%Q) by lra. rewrite Z0. ring. }
    assert (C : tl - t < D).
    { destruct (Z.lt_ge_cases (tl - t) D); [assumption|]. exfalso. unfold remains in NZ.
      destruct (Z.leb_spec D (tl - t)); [lra|lia]. }
    assert (again = true) as -> by (destruct (negb (Qle_bool 0 (offset s))); injection M as <- <-; reflexivity).
    rewrite (proj2 (Z.ltb_lt _ _) C).
    destruct Dd as [-> | ->]; change (inject_Z 1) with 1%Q in *; change (inject_Z (-1)) with (-1)%Q in *.
    + destruct (Qle_bool 0 (offset s)) eqn:E1; [|apply Qle_bool_false in E1; lra]. cbn [negb] in M. injection M as <-.
      cbn [offset set_offset]. repeat split.
      rewrite RM. destruct (Qle_bool (offset s - m) 0) eqn:E2.
      * apply Qle_bool_iff in E2. rewrite Q.max_l; lra.
      * apply Qle_bool_false in E2. rewrite Q.max_r; lra.
    + destruct (Qle_bool 0 (offset s)) eqn:E1; [apply Qle_bool_iff in E1; lra|]. cbn [negb] in M. injection M as <-.
      cbn [offset set_offset]. repeat split.
      rewrite RM. destruct (Qle_bool 0 (offset s + m)) eqn:E2.
      * apply Qle_bool_iff in E2. rewrite Q.max_l; lra.
      * apply Qle_bool_false in E2. rewrite Q.max_r; lra.
Qed.

(** What is drawn for a given remaining part. *)
Lemma draw_slide w s (h : list A) d D t now old a b : 0 < D -> 0 <= w -> d = 1 \/ d = -1 -> t <= now -> now - t < D ->
  (offset s == inject_Z d * remains D t now)%Q -> good_old s h old -> nextCall s = Some b -> nth_error h b = Some a ->
  draw w s h = beside d (pixels (eased (inject_Z (now - t) / inject_Z D)) w) w old a.
Proof.
  intros P W Dd L C EO GO NC NB. pose proof (remains_pos D t now P L C) as RP. pose proof (remains_range D t now P L) as [_ R1].
  set (q := (inject_Z (now - t) / inject_Z D)%Q) in *.
  assert (RQ : remains D t now = (1 - q)%Q) by (unfold remains; destruct (Z.leb_spec D (now - t)); [lia|reflexivity]).
  rewrite RQ in *. clearbody q.
  assert (ER : (0 <= eased q /\ eased q <= 1)%Q) by (apply eased_range; lra).
  assert (W0 : (0 <= inject_Z w)%Q) by (rewrite <- (Zle_Qle 0); lia).
  assert (AO : forall x, add h x (lastCall s) = opt_at x old).
  { intro x. unfold good_old in GO. destruct old as [o|]; cbn [opt_at].
    - destruct GO as (c & E & N & _). rewrite E. cbn [add]. rewrite N. reflexivity.
    - rewrite GO. reflexivity. }
  assert (AN : forall x, add h x (nextCall s) = [(x, a)]) by (intro x; rewrite NC; cbn [add]; rewrite NB; reflexivity).
  assert (WP : (0 <= inject_Z w * eased q)%Q) by (apply Qmult_le_0_compat; tauto).
  unfold draw, beside, pixels.
  destruct Dd as [-> | ->]; change (inject_Z 1) with 1%Q in *; change (inject_Z (-1)) with (-1)%Q in *.
  - rewrite (proj2 (Qeq_bool_false (offset s))) by lra. rewrite (proj2 (Qle_bool_false (offset s) 0)) by lra. cbn [negb].
    assert (X : trunc (inject_Z w * (smooth (offset s) - 1)) = - Qfloor (inject_Z w * eased q)).
    { rewrite <- (trunc_floor _ WP), <- trunc_opp. apply trunc_comp. rewrite smooth_pos by lra.
      rewrite EO, Qmult_1_l, eased_sym. ring. }
    rewrite X, AO, AN. set (F := Qfloor _). replace (- (1) * F) with (- F) by lia. replace (1 * w) with w by lia. reflexivity.
  - rewrite (proj2 (Qeq_bool_false (offset s))) by lra. rewrite (proj2 (Qle_bool_iff (offset s) 0)) by lra. cbn [negb].
    assert (X : trunc (inject_Z w * (smooth (offset s) + 1)) = Qfloor (inject_Z w * eased q)).
    { rewrite <- (trunc_floor _ WP). apply trunc_comp. rewrite smooth_neg by lra.
      assert (E : (- offset s == 1 - q)%Q) by lra. rewrite E, eased_sym. ring. }
    rewrite X, AO, AN. set (F := Qfloor _). replace (- (-1) * F) with F by lia. replace (-1 * w) with (- w) by lia. reflexivity.
Qed.

Lemma draw_rest w s (h : list A) a b : (offset s == 0)%Q -> nextCall s = Some b -> nth_error h b = Some a -> draw w s h = [(0, a)].
Proof. intros E NC NB. unfold draw. rewrite (proj2 (Qeq_bool_iff _ _) E), NC. cbn [add]. rewrite NB. reflexivity. Qed.

(** Recording the new picture leaves the old one alone. *)
Lemma record_spec a s (h : list A) s' h' : record a s h = (s', h') ->
  (forall b, next s = Some b -> (b < length h)%nat) ->
  Duration s' = Duration s /\ push s' = push s /\ t0 s' = t0 s /\ offset s' = offset s /\ lastCall s' = lastCall s /\
  (exists b, next s' = Some b /\ nextCall s' = Some b /\ nth_error h' b = Some a /\ (next s = Some b \/ next s = None /\ b = length h)) /\
  (forall c, Some c <> next s -> (c < length h)%nat -> nth_error h' c = nth_error h c).
Proof.
  intros R Lb. unfold record in R. destruct (next s) as [b|] eqn:E; injection R as <- <-; cbn [Duration push t0 offset lastCall next nextCall]; repeat (split; [reflexivity|]).
  - split.
    + exists b. repeat split; auto. apply list_set_same. auto.
    + intros c N _. apply list_set_other. congruence.
  - split.
    + exists (length h). repeat split; auto. rewrite nth_error_app2, Nat.sub_diag by lia. reflexivity.
    + intros c _ L. apply nth_error_app1. exact L.
Qed.

(** One frame. *)
Lemma show1_spec D tl prev cur s h x s' h' again o : 0 <= D -> Inv D tl prev cur s h -> (cur = None \/ tl <= time x) ->
  dir x = 0 \/ dir x = 1 \/ dir x = -1 -> 0 <= width x -> show1 x s h = (s', h', again, o) ->
  let cur' := if dir x =? 0 then cur else Some (dir x, time x, prev) in
  Inv D (time x) (Some (pic x)) cur' s' h' /\
  again = (negb (dir x =? 0) || match cur with None => false | Some (_, t, _) => tl - t <? effective D end) /\
  o = match cur' with
      | None => [(0, pic x)]
      | Some (d, t, old) =>
          if effective D <=? time x - t then [(0, pic x)]
          else beside d (pixels (eased (inject_Z (time x - t) / inject_Z (effective D))) (width x)) (width x) old (pic x)
      end.
Proof.
  intros PD (ID & IP & IS & IC) Ht Hd Hw S. cbn zeta.
  assert (P : 0 < effective D) by (unfold effective, defaultDuration; destruct (Z.eqb_spec D 0); lia).
  unfold show1, Layout in S.
  (* after the push and the clock *)
  assert (Pre : exists s1 delta, elapsed (time x) (start_slide (time x) (press (dir x) s)) = (s1, delta) /\
    Duration s1 = D /\ push s1 = 0 /\
    (dir x = 0 /\ next s1 = next s /\ nextCall s1 = nextCall s /\ lastCall s1 = lastCall s /\ offset s1 = offset s /\
       (cur = None -> t0 s1 = None /\ delta = 0) /\ (cur <> None -> t0 s1 = Some (time x) /\ delta = time x - tl) \/
     dir x <> 0 /\ next s1 = None /\ nextCall s1 = nextCall s /\ lastCall s1 = nextCall s /\ offset s1 = inject_Z (dir x) /\
       t0 s1 = Some (time x) /\ delta = time x - time x)).
  { destruct (Z.eqb_spec (dir x) 0) as [E|E].
    - unfold press. rewrite E. cbn [Z.eqb]. unfold start_slide. rewrite IP. cbn [Z.eqb negb]. unfold elapsed.
      destruct cur as [[[d t] old]|].
      + destruct IC as (_ & _ & T0 & _). rewrite T0. eexists; eexists; split; [reflexivity|]. cbn [Duration push next nextCall lastCall offset t0].
        split; [assumption|]. split; [assumption|]. left. repeat split; auto; congruence.
      + destruct IC as (T0 & _). rewrite T0. eexists; eexists; split; [reflexivity|].
        split; [assumption|]. split; [assumption|]. left. repeat split; auto; congruence.
    - assert (Ep : push (press (dir x) s) = dir x /\ Duration (press (dir x) s) = D /\ nextCall (press (dir x) s) = nextCall s).
      { unfold press. destruct (Z.eqb_spec (dir x) 0); [contradiction|]. destruct Hd as [?|[Hd|Hd]]; [contradiction| |]; rewrite Hd; cbn; auto. }
      destruct Ep as (Ep1 & Ep2 & Ep3). unfold start_slide. rewrite Ep1. destruct (Z.eqb_spec (dir x) 0); [contradiction|]. cbn [negb].
      unfold elapsed. cbn [t0 Duration push next nextCall lastCall offset]. eexists; eexists; split; [reflexivity|].
      cbn [t0 Duration push next nextCall lastCall offset]. rewrite Ep2, Ep3. repeat split; auto. right. repeat split; auto. }
  destruct Pre as (s1 & delta & Ee & D1 & P1 & Pre). rewrite Ee in S.
  destruct (move delta s1) as [s2 ag] eqn:Em. destruct (record (pic x) s2 h) as [s3 h3] eqn:Er.
  injection S as <- <- <- <-.
  set (cur' := if dir x =? 0 then cur else Some (dir x, time x, prev)).
  (* after the movement *)
  assert (Mid : s2 = set_offset (offset s2) s1 /\
    match cur' with
    | None => t0 s2 = None /\ (offset s2 == 0)%Q /\ ag = false
    | Some (d, t, old) => (d = 1 \/ d = -1) /\ t <= time x /\ t0 s2 = Some (time x) /\
        (offset s2 == inject_Z d * remains (effective D) t (time x))%Q /\
        ag = (negb (dir x =? 0) || match cur with None => false | Some (_, t, _) => tl - t <? effective D end)
    end).
  { unfold cur'. destruct Pre as [(E & _ & _ & _ & Eo & Pn & Ps)|(E & _ & _ & _ & Eo & Et & Edl)].
    - rewrite E. cbn [Z.eqb negb orb]. destruct cur as [[[d t] old]|].
      + destruct IC as (Dd & L & T0 & EO & _). destruct (Ps ltac:(discriminate)) as [Et ->].
        destruct Ht as [?|Ht]; [discriminate|].
        rewrite <- Eo in EO. rewrite <- D1 in P at 1.
        destruct (move_remains s1 (effective D) d t tl (time x) s2 ag ltac:(rewrite D1 in P; exact P) ltac:(rewrite D1; reflexivity) Dd L Ht EO Em) as (M1 & M2 & M3).
        split; [exact M1|]. repeat split; auto; try lia. rewrite M1. cbn. exact Et.
      + destruct IC as (T0 & EO). destruct (Pn eq_refl) as [Et ->]. rewrite <- Eo in EO.
        unfold move in Em. rewrite (proj2 (Qeq_bool_iff _ _) EO) in Em. injection Em as <- <-.
        split; [destruct s1; reflexivity|]. auto.
    - destruct (Z.eqb_spec (dir x) 0); [contradiction|]. cbn [negb orb].
      assert (Dd : dir x = 1 \/ dir x = -1) by tauto.
      assert (EO : (offset s1 == inject_Z (dir x) * remains (effective D) (time x) (time x))%Q).
      { rewrite Eo, remains_start by exact P. ring. }
      rewrite Edl in Em.
      destruct (move_remains s1 (effective D) (dir x) (time x) (time x) (time x) s2 ag P ltac:(rewrite D1; reflexivity) Dd ltac:(lia) ltac:(lia) EO Em) as (M1 & M2 & M3).
      split; [exact M1|]. repeat split; auto; try lia.
      + rewrite M1. cbn. exact Et.
      + rewrite M3. apply Z.ltb_lt. lia. }
  destruct Mid as (E2 & Mid).
  assert (F2 : Duration s2 = D /\ push s2 = 0 /\ next s2 = next s1 /\ nextCall s2 = nextCall s1 /\ lastCall s2 = lastCall s1)
    by (rewrite E2; cbn; auto).
  destruct F2 as (D2 & P2 & N2 & NC2 & L2).
  assert (Lb : forall b, next s2 = Some b -> (b < length h)%nat).
  { intros b Eb. rewrite N2 in Eb. destruct Pre as [(_ & En & _)|(_ & En & _)]; rewrite En in Eb; [|discriminate].
    unfold shown in IS. destruct prev as [a|].
    - destruct IS as (b' & S1 & S2 & S3). rewrite S1 in Eb. injection Eb as ->. apply nth_error_Some. congruence.
    - destruct IS as (S1 & _). congruence. }
  destruct (record_spec (pic x) s2 h s3 h3 Er Lb) as (R1 & R2 & R3 & R4 & R5 & (b & B1 & B2 & B3 & B4) & R7).
  assert (GO : match cur' with None => True | Some (_, _, old) => good_old s3 h3 old end).
  { unfold cur'. destruct Pre as [(E & En & Enc & El & _)|(E & En & Enc & El & _)].
    - rewrite E. cbn [Z.eqb]. destruct cur as [[[d t] old]|]; [|exact I].
      destruct IC as (_ & _ & _ & _ & G). unfold good_old in *. destruct old as [a|]; [|congruence].
      destruct G as (c & G1 & G2 & G3). exists c.
      assert (Lc : (c < length h)%nat) by (apply nth_error_Some; congruence).
      repeat split; [congruence| |].
      + rewrite R7; [exact G2|congruence|exact Lc].
      + rewrite B1. intro K. injection K as ->. destruct B4 as [B4|[B4 B5]]; [congruence|lia].
    - destruct (Z.eqb_spec (dir x) 0); [contradiction|]. unfold good_old, shown in *. destruct prev as [a|].
      + destruct IS as (c & S1 & S2 & S3). exists c. assert (Lc : (c < length h)%nat) by (apply nth_error_Some; congruence).
        repeat split; [congruence| |].
        * rewrite R7; [exact S3|congruence|exact Lc].
        * rewrite B1. intro K. injection K as ->. destruct B4 as [B4|[B4 B5]]; [congruence|lia].
      + destruct IS as (S1 & S2). congruence. }
  split; [|split].
  - repeat split; try congruence.
    + exists b. auto.
    + unfold slide_inv. destruct cur' as [[[d t] old]|].
      * destruct Mid as (M1 & M2 & M3 & M4 & M5). rewrite R3, R4. auto 10.
      * destruct Mid as (M1 & M2 & M3). rewrite R3, R4. auto.
  - unfold cur' in *. destruct (Z.eqb_spec (dir x) 0) as [E|E]; cbn [negb orb] in *.
    + destruct cur as [[[d t] old]|]; tauto.
    + tauto.
  - destruct cur' as [[[d t] old]|] eqn:Ec.
    + destruct Mid as (M1 & M2 & M3 & M4 & M5). rewrite <- R4 in M4.
      destruct (Z.leb_spec (effective D) (time x - t)) as [C|C].
      * apply draw_rest with (b := b); auto. rewrite M4. unfold remains. destruct (Z.leb_spec (effective D) (time x - t)); [ring|lia].
      * eapply draw_slide; eauto.
    + destruct Mid as (M1 & M2 & M3). apply draw_rest with (b := b); auto. rewrite R4. exact M2.
Qed.

(** In proofs; for examples/ui/one/slider.go:53-115. *)
Definition last_time (tl : Z) (l : list (act A)) : Z := last (map time l) tl.
(** In proofs; for examples/ui/one/slider.go:53-115. *)
Definition last_pic (prev : option A) (l : list (act A)) : option A := last (map (fun x => Some (pic x)) l) prev.

Lemma last_cons_default {B} (l : list B) (a d : B) : last (a :: l) d = last l a.
Proof. revert a. induction l as [|b l IH]; intro a; [reflexivity|]. change (last (b :: l) d = last (b :: l) a). rewrite (IH b). destruct l; [reflexivity|]. cbn. clear. revert b0. induction l; intro; cbn; auto. Qed.

Lemma play_spec D : 0 <= D -> forall l tl prev cur s h, Inv D tl prev cur s h ->
  (cur = None \/ sorted tl l) -> in_order l -> proper l ->
  let (s', h') := play s h l in Inv D (last_time tl l) (last_pic prev l) (last_push prev cur l) s' h'.
Proof.
  intro PD. induction l as [|x r IH]; intros tl prev cur s h I So Io Pr; [exact I|].
  inversion Pr as [|? ? [Hd Hw] Pr' E1]; subst. cbn [play].
  destruct (show1 x s h) as [[[s' h'] again] o] eqn:S.
  destruct (show1_spec D tl prev cur s h x s' h' again o PD I) as (I' & _ & _); auto.
  { destruct So as [?|[? ?]]; auto. }
  assert (Sr : sorted (time x) r) by (exact Io).
  specialize (IH (time x) (Some (pic x)) (if dir x =? 0 then cur else Some (dir x, time x, prev)) s' h' I' (or_intror Sr)).
  destruct (play s' h' r) as [s'' h''] eqn:Ep.
  unfold last_time, last_pic. cbn [map]. rewrite !last_cons_default. cbn [last_push]. apply IH; [|exact Pr'].
  destruct r; [exact Logic.I|]. exact (proj2 Sr).
Qed.

Lemma Inv_idle D tl : Inv D tl None None (idle D) [].
Proof. repeat split. Qed.

Lemma last_push_app l l' prev cur : last_push prev cur (l ++ l') = last_push (last_pic prev l) (last_push prev cur l) l'.
Proof.
  revert prev cur. induction l as [|x r IH]; intros prev cur; [reflexivity|]. cbn [app last_push]. rewrite IH.
  unfold last_pic. cbn [map]. rewrite last_cons_default. reflexivity.
Qed.
Lemma sorted_app (l l' : list (act A)) t : sorted t (l ++ l') <-> sorted t l /\ sorted (last_time t l) l'.
Proof.
  revert t. induction l as [|x r IH]; intro t; cbn [app sorted]; [unfold last_time; cbn; tauto|].
  rewrite IH. unfold last_time. cbn [map]. rewrite last_cons_default. tauto.
Qed.
Lemma in_order_app (l l' : list (act A)) x : in_order (l ++ x :: l') -> in_order l /\ in_order (x :: l') /\
  (l <> [] -> forall t, last_time t l <= time x).
Proof.
  destruct l as [|y r]; intro K; [cbn in *; repeat split; auto; congruence|]. cbn [app in_order] in K. apply sorted_app in K. destruct K as [K1 K2].
  cbn [in_order]. cbn [sorted] in K2. repeat split; try tauto. intros _ t. unfold last_time in *. cbn [map]. rewrite last_cons_default. tauto.
Qed.

Lemma last_push_nil_None (l : list (act A)) : l = [] -> last_push None None l = None.
Proof. intros ->. reflexivity. Qed.

(** A frame after any history. *)
Theorem layout_shows D (l : list (act A)) x : 0 <= D -> in_order (l ++ [x]) -> proper (l ++ [x]) ->
  let (s, h) := play (idle D) [] l in snd (show1 x s h) = shows (effective D) l x.
Proof.
  intros PD Io Pr. destruct (in_order_app l [] x Io) as (Io1 & _ & Lt).
  unfold proper in Pr. apply Forall_app in Pr. destruct Pr as [Pr1 Pr2]. inversion Pr2 as [|? ? [Hd Hw] _ E]; subst.
  pose proof (play_spec D PD l 0 None None (idle D) [] (Inv_idle D 0) (or_introl eq_refl) Io1 Pr1) as I.
  destruct (play (idle D) [] l) as [s h]. destruct (show1 x s h) as [[[s' h'] again] o] eqn:S. cbn [snd].
  destruct (show1_spec D _ _ _ s h x s' h' again o PD I) as (_ & _ & O); auto.
  { destruct l as [|y r]; [left; reflexivity|right]. apply Lt. discriminate. }
  rewrite O. unfold shows. rewrite last_push_app. cbn [last_push]. reflexivity.
Qed.

(** Whether the frame asks for another one. *)
(** In proofs; for examples/ui/one/slider.go:53-115. *)
Definition sliding_before (D : Z) (l : list (act A)) : bool :=
  match last_push None None l with None => false | Some (_, t, _) => last_time 0 l - t <? D end.
Theorem layout_again D (l : list (act A)) x : 0 <= D -> in_order (l ++ [x]) -> proper (l ++ [x]) ->
  let (s, h) := play (idle D) [] l in snd (fst (show1 x s h)) = negb (dir x =? 0) || sliding_before (effective D) l.
Proof.
  intros PD Io Pr. destruct (in_order_app l [] x Io) as (Io1 & _ & Lt).
  unfold proper in Pr. apply Forall_app in Pr. destruct Pr as [Pr1 Pr2]. inversion Pr2 as [|? ? [Hd Hw] _ E]; subst.
  pose proof (play_spec D PD l 0 None None (idle D) [] (Inv_idle D 0) (or_introl eq_refl) Io1 Pr1) as I.
  destruct (play (idle D) [] l) as [s h]. destruct (show1 x s h) as [[[s' h'] again] o] eqn:S. cbn [snd fst].
  destruct (show1_spec D _ _ _ s h x s' h' again o PD I) as (_ & O & _); auto.
  destruct l as [|y r]; [left; reflexivity|right]. apply Lt. discriminate.
Qed.
End Hist.

(** ** What a frame may show *)
Section Shows.
Context {A : Type}.
Lemma last_push_split (l : list (act A)) prev cur d t old : last_push prev cur l = Some (d, t, old) ->
  (cur = Some (d, t, old) /\ Forall (fun y => dir y = 0) l) \/
  exists l1 z l2, l = l1 ++ z :: l2 /\ dir z = d /\ d <> 0 /\ time z = t /\ Forall (fun y => dir y = 0) l2 /\ old = last_pic prev l1.
Proof.
  revert prev cur. induction l as [|x r IH]; intros prev cur E; cbn [last_push] in E; [left; auto|].
  destruct (IH _ _ E) as [[E1 F]|(l1 & z & l2 & E1 & E2 & E3 & E4 & F & E5)].
  - destruct (Z.eqb_spec (dir x) 0) as [Z0|Z0]; [left; auto|]. right. injection E1 as <- <- <-. exists [], x, r. auto 10.
  - right. exists (x :: l1), z, l2. rewrite E1. repeat split; auto. rewrite E5. unfold last_pic. cbn [map]. rewrite last_cons_default. reflexivity.
Qed.
Lemma last_pic_Some (l : list (act A)) a : last_pic None l = Some a -> exists l1 y, l = l1 ++ [y] /\ pic y = a.
Proof.
  destruct l as [|x l _] using rev_ind; [discriminate|]. unfold last_pic. rewrite map_app. cbn [map]. rewrite last_last. intro E. injection E as <-. eauto.
Qed.
(** A frame shows its own picture, and at most the picture of the frame before the last push, and that only while the slide lasts. *)
Lemma shows_only D (l : list (act A)) (x : act A) p a : In (p, a) (shows D l x) -> a = pic x \/
  exists l1 y z l2, l ++ [x] = l1 ++ y :: z :: l2 /\ a = pic y /\ dir z <> 0 /\ Forall (fun y => dir y = 0) l2 /\ time x - time z < D.
Proof.
  unfold shows. destruct (last_push None None (l ++ [x])) as [[[d t] old]|] eqn:E.
  - destruct (Z.leb_spec D (time x - t)) as [C|C].
    + intros [K|[]]. injection K as _ <-. auto.
    + unfold beside. intro K. apply in_app_or in K. destruct K as [K|[K|[]]].
      * destruct old as [o|]; [|destruct K]. destruct K as [K|[]]. injection K as _ ->. right.
        destruct (last_push_split _ _ _ _ _ _ E) as [[? _]|(l1 & z & l2 & E1 & E2 & E3 & E4 & F & E5)]; [discriminate|].
        symmetry in E5. apply last_pic_Some in E5. destruct E5 as (l0 & y & -> & Ey). subst a. exists l0, y, z, l2. rewrite E1, <- app_assoc. cbn.
        repeat split; auto; [congruence|lia].
      * injection K as _ <-. auto.
  - intros [K|[]]. injection K as _ <-. auto.
Qed.
Lemma shows_current D (l : list (act A)) (x : act A) : exists p, In (p, pic x) (shows D l x).
Proof.
  unfold shows. destruct (last_push None None (l ++ [x])) as [[[d t] old]|]; [destruct (D <=? time x - t)|].
  - exists 0. left. reflexivity.
  - eexists. unfold beside. apply in_or_app. right. left. reflexivity.
  - exists 0. left. reflexivity.
Qed.
Lemma pixels_range q w : 0 <= w -> (0 <= q)%Q -> (q <= 1)%Q -> 0 <= pixels (eased q) w <= w.
Proof.
  intros W Q0 Q1. destruct (eased_range q Q0 Q1) as [E0 E1]. unfold pixels.
  assert (W0 : (0 <= inject_Z w)%Q) by (rewrite <- (Zle_Qle 0); lia).
  split.
  - apply (Qfloor_resp_le 0). apply Qmult_le_0_compat; assumption.
  - rewrite <- (Qfloor_Z w) at 2. apply Qfloor_resp_le. nra.
Qed.
Lemma pixels_mono q q' w : 0 <= w -> (0 <= q)%Q -> (q <= q')%Q -> (q' <= 1)%Q -> pixels (eased q) w <= pixels (eased q') w.
Proof.
  intros W Q0 Q1 Q2. pose proof (eased_mono q q' Q0 Q1 Q2) as E. unfold pixels.
  assert (W0 : (0 <= inject_Z w)%Q) by (rewrite <- (Zle_Qle 0); lia).
  apply Qfloor_resp_le. rewrite (Qmult_comm (inject_Z w)), (Qmult_comm (inject_Z w)). apply Qmult_le_compat_r; assumption.
Qed.
End Shows.

(** ** The program *)
Section Prog.
Variable H : Prims.
Variable T : tables.
Variable wst : wstate.

Lemma press_push d s : push s = 0 -> d = 0 \/ d = 1 \/ d = -1 -> press d s = set_push d s.
Proof.
  intros P [-> | [-> | ->]]; unfold press; cbn; auto. destruct s. cbn in *. subst. reflexivity.
Qed.
Lemma set_push_push d d' s : set_push d (set_push d' s) = set_push d s.
Proof. reflexivity. Qed.

Lemma tabs_set t v u : tabs (set_tabs t v u) = t. Proof. reflexivity. Qed.
Lemma selected_set t v u : selected (set_tabs t v u) = v. Proof. reflexivity. Qed.

Lemma tabs_layout_s_spec l : forall u d s, d = 0 \/ d = 1 \/ d = -1 ->
  tabs_layout_s l (u, set_push d s) =
  let! u' := tabs_layout l u in
  Ret (u', set_push (last_move d (selected u) (filter (fun v => v <? Z.of_nat (length (tabs u))) (map Z.of_nat l))) s).
Proof.
  induction l as [|i r IH]; intros u d s Hd; [reflexivity|]. cbn [tabs_layout_s tabs_layout fst map filter].
  destruct (Nat.ltb_spec i (length (tabs u))) as [L|L].
  - rewrite (proj2 (Z.ltb_lt _ _)) by lia. cbn [last_move]. unfold tab_click_s, tab_click.
    destruct (nth_error (tabs u) i) as [kp|] eqn:En; [|apply nth_error_None in En; lia].
    cbn [bind]. set (v := Z.of_nat i).
    replace (if selected u <? v then PushLeft (set_push d s) else if selected u >? v then PushRight (set_push d s) else set_push d s)
      with (set_push (Z.sgn (v - selected u) + (if v =? selected u then d else 0)) s).
    + rewrite IH. 2:{ destruct (Z.eqb_spec v (selected u)) as [->|N]; [rewrite Z.sub_diag; cbn; lia|]. lia. }
      rewrite tabs_set, selected_set. reflexivity.
    + unfold PushLeft, PushRight. rewrite !set_push_push. rewrite Z.gtb_ltb.
      destruct (Z.ltb_spec (selected u) v), (Z.ltb_spec v (selected u)), (Z.eqb_spec v (selected u)); try lia; f_equal; lia.
  - destruct (Z.ltb_spec (Z.of_nat i) (Z.of_nat (length (tabs u)))); [lia|]. apply IH. exact Hd.
Qed.

Lemma last_move_range l : forall d cur, d = 0 \/ d = 1 \/ d = -1 -> let m := last_move d cur l in m = 0 \/ m = 1 \/ m = -1.
Proof.
  induction l as [|v r IH]; intros d cur Hd; [exact Hd|]. cbn [last_move]. apply IH.
  destruct (Z.eqb_spec v cur) as [->|N]; [rewrite Z.sub_diag; cbn; lia|]. lia.
Qed.
Lemma turn_range i u : turn i u = 0 \/ turn i u = 1 \/ turn i u = -1.
Proof. apply last_move_range. auto. Qed.

Lemma tab_bar_s_spec i u s : push s = 0 ->
  tab_bar_s i (u, s) = let! u' := tab_bar i u in Ret (u', press (turn i u) s).
Proof.
  intro P. rewrite press_push by (auto using turn_range). unfold tab_bar_s, tab_bar, turn, selections.
  destruct (Nat.eqb_spec (length (tabs u)) 0) as [E|E].
  - rewrite E. cbn. destruct s; cbn in P; subst; reflexivity.
  - destruct (Z.eqb_spec (Z.of_nat (length (tabs u))) 0) as [?|_]; [lia|].
    set (n := Z.of_nat (length (tabs u))). set (c := selected u).
    set (v1 := if left_click i then Z.max (c - 1) (Z.min c 0) else c).
    set (v2 := if right_click i then Z.min (v1 + 1) (Z.max v1 (n - 1)) else v1).
    assert (E1 : (if left_click i && (c >? 0) then (set_tabs (tabs u) (c - 1) u, PushRight s) else (u, s)) =
                 (if left_click i && (c >? 0) then set_tabs (tabs u) (c - 1) u else u, set_push (Z.sgn (v1 - c)) s) /\
                 selected (if left_click i && (c >? 0) then set_tabs (tabs u) (c - 1) u else u) = v1 /\
                 tabs (if left_click i && (c >? 0) then set_tabs (tabs u) (c - 1) u else u) = tabs u).
    { unfold v1. rewrite Z.gtb_ltb. destruct (left_click i); cbn [andb].
      - destruct (Z.ltb_spec 0 c); rewrite ?tabs_set, ?selected_set; repeat split; try (fold c; lia).
        + unfold PushRight. do 2 f_equal. lia.
        + replace (Z.sgn (Z.max (c - 1) (Z.min c 0) - c)) with 0 by lia. rewrite <- P. destruct s; reflexivity.
      - rewrite Z.sub_diag. cbn. repeat split. rewrite <- P. destruct s; reflexivity. }
    destruct E1 as (E1 & Es1 & Et1). rewrite E1. clear E1.
    set (u1 := if left_click i && (c >? 0) then set_tabs (tabs u) (c - 1) u else u) in *.
    rewrite Es1, Et1. fold n.
    assert (E2 : (if right_click i && (v1 <? n - 1) then (set_tabs (tabs u) (v1 + 1) u1, PushLeft (set_push (Z.sgn (v1 - c)) s))
                  else (u1, set_push (Z.sgn (v1 - c)) s)) =
                 (if right_click i && (v1 <? n - 1) then set_tabs (tabs u) (v1 + 1) u1 else u1,
                  set_push (Z.sgn (v2 - v1) + (if v2 =? v1 then Z.sgn (v1 - c) else 0)) s) /\
                 selected (if right_click i && (v1 <? n - 1) then set_tabs (tabs u) (v1 + 1) u1 else u1) = v2 /\
                 tabs (if right_click i && (v1 <? n - 1) then set_tabs (tabs u) (v1 + 1) u1 else u1) = tabs u).
    { unfold v2. clearbody v1. destruct (right_click i); cbn [andb].
      - destruct (Z.ltb_spec v1 (n - 1)); rewrite ?tabs_set, ?selected_set; repeat split; try lia; auto.
        + unfold PushLeft. rewrite set_push_push. do 2 f_equal. destruct (Z.eqb_spec (Z.min (v1 + 1) (Z.max v1 (n - 1))) v1); lia.
        + do 2 f_equal. destruct (Z.eqb_spec (Z.min (v1 + 1) (Z.max v1 (n - 1))) v1); lia.
      - rewrite Z.sub_diag, Z.eqb_refl. cbn [Z.sgn Z.add]. auto. }
    destruct E2 as (E2 & Es2 & Et2). rewrite E2. clear E2. set (u2 := if right_click i && (v1 <? n - 1) then _ else u1) in *.
    rewrite tabs_layout_s_spec.
    + rewrite Es2, Et2. fold n. cbn [last_move].
      replace (Z.sgn (v1 - c) + (if v1 =? c then 0 else 0)) with (Z.sgn (v1 - c)) by (destruct (v1 =? c); lia). reflexivity.
    + destruct (Z.eqb_spec v2 v1) as [->|N]; [rewrite Z.sub_diag; cbn; lia|]. lia.
Qed.

(** A frame of the program is a frame of the wallet state and a frame of the slider. *)
Lemma frame_s_spec now w i p : push (a_slider p) = 0 ->
  frame_s H T wst now w i p =
  let! u1 := handlers H T wst i (a_ui p) in
  let! u' := frame H T wst i (a_ui p) in
  let '(s, h, again, d) := show1 (mkAct (turn i u1) now w (screen u')) (a_slider p) (a_heap p) in
  Ret (mkProg u' s h d again).
Proof.
  intro P. unfold frame_s, frame. destruct (handlers H T wst i (a_ui p)) as [u1|]; [|reflexivity]. cbn [bind].
  rewrite tab_bar_s_spec by exact P. destruct (tab_bar i u1) as [u2|]; [|reflexivity]. cbn [bind].
  destruct (display H T u2) as [c|]; [|reflexivity]. cbn [bind]. unfold show1. cbn [dir time width pic screen set_screen]. reflexivity.
Qed.

Lemma run_s_app p es es' : run_s H T wst p (es ++ es') = let! p := run_s H T wst p es in run_s H T wst p es'.
Proof. revert p. induction es as [|e r IH]; intro p; [reflexivity|]. cbn [app run_s]. destruct (step_s H T wst p e); cbn [bind]; auto. Qed.

Lemma clock_app es es' : clock (es ++ es') = clock es ++ clock es'.
Proof. apply flat_map_app. Qed.

(** In proofs; for examples/ui/one/slider.go:53-115. *)
Definition same_clock (l : list (act (option (list bytes)))) (l' : list (act unit)) : Prop :=
  map time l = map time l' /\ map width l = map width l'.
Lemma same_clock_sorted (l : list (act (option (list bytes)))) (l' : list (act unit)) : map time l = map time l' -> forall t, sorted t l <-> sorted t l'.
Proof.
  revert l'. induction l as [|x r IH]; intros [|y r'] E; try discriminate; intro t; cbn; [tauto|]. injection E as E1 E2. rewrite E1, (IH r' E2). tauto.
Qed.
Lemma same_clock_in_order l l' : same_clock l l' -> in_order l <-> in_order l'.
Proof.
  intros [E _]. destruct l as [|x r], l' as [|y r']; try discriminate; cbn; [tauto|]. injection E as E1 E2. rewrite E1. apply same_clock_sorted, E2.
Qed.

(** In proofs; for examples/ui/one/slider.go:53-115. *)
Definition slider_ok (l : list (act (option (list bytes)))) (p : prog) : Prop :=
  play (idle 0) [] l = (a_slider p, a_heap p) /\
  match l with
  | [] => window p = [] /\ wants p = false
  | _ => exists l' x, l = l' ++ [x] /\ window p = shows defaultDuration l' x /\
      wants p = negb (dir x =? 0) || sliding_before defaultDuration l'
  end.

Lemma run_s_filmed u0 es : in_order (clock es) -> Forall (fun x => 0 <= width x) (clock es) ->
  forall p, run_s H T wst (prog0 u0) es = Ret p ->
  exists l, filmed H T wst u0 es (a_ui p) l /\ same_clock l (clock es) /\ proper l /\ slider_ok l p.
Proof.
  induction es as [|[[e t] w] es IH] using rev_ind; intros Io Wd p R.
  - cbn in R. injection R as <-. exists []. split; [constructor|]. split; [split; reflexivity|]. split; [constructor|]. repeat split.
  - rewrite run_s_app in R. destruct (run_s H T wst (prog0 u0) es) as [p1|] eqn:R1; [|discriminate].
    cbn [bind run_s] in R. rewrite clock_app in Io, Wd. apply Forall_app in Wd. destruct Wd as [Wd1 Wd2].
    assert (Io1 : in_order (clock es)).
    { destruct (clock [(e, t, w)]) as [|y r] eqn:E; [rewrite app_nil_r in Io; exact Io|]. apply in_order_app in Io. tauto. }
    destruct (IH Io1 Wd1 p1 eq_refl) as (l & F & SC & Pr & PL & SO).
    pose proof (play_spec 0 (Z.le_refl 0) l 0 None None (idle 0) [] (Inv_idle 0 0) (or_introl eq_refl)
      (proj2 (same_clock_in_order _ _ SC) Io1) Pr) as I0.
    rewrite PL in I0. destruct I0 as (_ & P0 & _).
    destruct (step_s H T wst p1 (e, t, w)) as [p2|] eqn:S; [|discriminate]. cbn [bind] in R. injection R as <-.
    rewrite clock_app.
    assert (Hedit : (forall i, e <> Frame i) -> exists u', step H T wst (a_ui p1) e = Ret u' /\
              p2 = mkProg u' (a_slider p1) (a_heap p1) (window p1) (wants p1)).
    { intro N. unfold step_s in S. destruct e; try (exfalso; eapply N; reflexivity);
        (destruct (step H T wst (a_ui p1) _) as [u'|] eqn:St; [|discriminate]; cbn [bind] in S; injection S as <-; eauto). }
    destruct e as [s|s|s|s|s|s|i].
    1-6: destruct Hedit as (u' & St & ->); [discriminate|]; cbn [clock flat_map app]; rewrite app_nil_r;
         exists l; split; [eapply filmed_edit; eauto; discriminate|]; split; [exact SC|]; split; [exact Pr|]; split; [exact PL|exact SO].
    clear Hedit. cbn [step_s] in S. rewrite frame_s_spec in S by exact P0.
    destruct (handlers H T wst i (a_ui p1)) as [u1|] eqn:Eh; [|discriminate]. cbn [bind] in S.
    destruct (frame H T wst i (a_ui p1)) as [u'|] eqn:Ef; [|discriminate]. cbn [bind] in S.
    set (x := mkAct (turn i u1) t w (screen u')) in *.
    destruct (show1 x (a_slider p1) (a_heap p1)) as [[[s h] again] d] eqn:Sh. injection S as <-.
    cbn [clock flat_map app] in *.
    assert (SC' : same_clock (l ++ [x]) (clock es ++ [mkAct 0 t w tt])).
    { destruct SC as [S1 S2]. split; rewrite !map_app; cbn; congruence. }
    assert (Pr' : proper (l ++ [x])).
    { apply Forall_app. split; [exact Pr|]. constructor; [|constructor]. split; [apply turn_range|].
      inversion Wd2; subst. assumption. }
    assert (Io' : in_order (l ++ [x])) by (apply (same_clock_in_order _ _ SC'), Io).
    exists (l ++ [x]). split; [eapply filmed_frame; eauto|]. split; [exact SC'|]. split; [exact Pr'|]. split.
    + rewrite play_app, PL. cbn [play]. rewrite Sh. reflexivity.
    + pose proof (layout_shows 0 l x (Z.le_refl 0) Io' Pr') as Ls. pose proof (layout_again 0 l x (Z.le_refl 0) Io' Pr') as La.
      rewrite PL, Sh in Ls, La. cbn [snd fst] in Ls, La.
      assert (exists l' x0, l ++ [x] = l' ++ [x0] /\ d = shows defaultDuration l' x0 /\
                again = negb (dir x0 =? 0) || sliding_before defaultDuration l') by (exists l, x; auto).
      destruct (l ++ [x]) as [|y r] eqn:E; [destruct l; discriminate|]. exact H0.
Qed.

(** The slider does not influence the wallet state. *)
Lemma run_s_erase es : forall p, push (a_slider p) = 0 ->
  match run_s H T wst p es with
  | Ret p' => run H T wst (a_ui p) (map (fun e => fst (fst e)) es) = Ret (a_ui p')
  | Panic => run H T wst (a_ui p) (map (fun e => fst (fst e)) es) = Panic
  end.
Proof.
  induction es as [|[[e t] w] es IH]; intros p P; [reflexivity|]. cbn [run_s map fst run].
  destruct e as [s|s|s|s|s|s|i].
  1-6: cbn [step_s step bind]; match goal with |- context [run_s H T wst ?q _] => exact (IH q P) end.
  cbn [step_s step]. rewrite frame_s_spec by exact P.
  destruct (handlers H T wst i (a_ui p)) as [u1|] eqn:Eh.
  2:{ unfold frame. rewrite Eh. reflexivity. }
  cbn [bind]. destruct (frame H T wst i (a_ui p)) as [u'|] eqn:Ef; [|reflexivity]. cbn [bind].
  destruct (show1 _ (a_slider p) (a_heap p)) as [[[s h] again] d] eqn:Sh. cbn [bind].
  apply (IH (mkProg u' s h d again)). cbn [a_slider].
  (* Layout clears the pending push *)
  revert Sh. unfold show1, Layout.
  assert (Pp : forall d0, push (start_slide t (press d0 (a_slider p))) = 0).
  { intro d0. unfold start_slide. destruct (push (press d0 (a_slider p)) =? 0) eqn:E; cbn [negb push]; [apply Z.eqb_eq, E|reflexivity]. }
  cbn [dir time width pic]. specialize (Pp (turn i u1)). set (s1 := start_slide t (press (turn i u1) (a_slider p))) in *. clearbody s1.
  assert (Pe : push (fst (elapsed t s1)) = 0) by (unfold elapsed; destruct (t0 s1); exact Pp).
  destruct (elapsed t s1) as [s2 delta]. cbn [fst] in Pe.
  assert (Pm : push (fst (move delta s2)) = 0).
  { unfold move. destruct (Qeq_bool (offset s2) 0); [exact Pe|]. destruct (negb (Qle_bool 0 (offset s2))); exact Pe. }
  destruct (move delta s2) as [s3 ag]. cbn [fst] in Pm.
  unfold record. destruct (next s3); intro K; injection K as <- _ _ _; exact Pm.
Qed.
End Prog.

Lemma tabs_layout_end l : forall u u', tabs_layout l u = Ret u' -> tabs u' = tabs u /\
  selected u' = last (filter (fun v => v <? Z.of_nat (length (tabs u))) (map Z.of_nat l)) (selected u).
Proof.
  induction l as [|i r IH]; intros u u' E; cbn [tabs_layout map filter] in *; [injection E as <-; auto|].
  destruct (Nat.ltb_spec i (length (tabs u))) as [L|L].
  - rewrite (proj2 (Z.ltb_lt _ _)) by lia. unfold tab_click in E. destruct (nth_error (tabs u) i); [|discriminate]. cbn [bind] in E.
    destruct (IH _ _ E) as [E1 E2]. rewrite tabs_set in E1, E2. rewrite selected_set in E2. rewrite last_cons_default. auto.
  - destruct (Z.ltb_spec (Z.of_nat i) (Z.of_nat (length (tabs u)))); [lia|]. apply IH, E.
Qed.
Lemma tab_bar_end i u u' : tab_bar i u = Ret u' -> tabs u' = tabs u /\
  selected u' = last (selections (Z.of_nat (length (tabs u))) (selected u) i) (selected u).
Proof.
  unfold tab_bar, selections. intro E. destruct (Nat.eqb_spec (length (tabs u)) 0) as [L|L].
  - injection E as <-. rewrite L. auto.
  - destruct (Z.eqb_spec (Z.of_nat (length (tabs u))) 0) as [?|_]; [lia|]. rewrite !last_cons_default.
    apply tabs_layout_end in E. destruct E as [E1 E2].
    set (c := selected u) in *. set (u1 := if left_click i && (c >? 0) then set_tabs (tabs u) (c - 1) u else u) in *.
    assert (T1 : tabs u1 = tabs u) by (unfold u1; destruct (left_click i && (c >? 0)); reflexivity).
    assert (S1 : selected u1 = if left_click i then Z.max (c - 1) (Z.min c 0) else c).
    { unfold u1. rewrite Z.gtb_ltb. destruct (left_click i); cbn [andb]; [|reflexivity].
      destruct (Z.ltb_spec 0 c); rewrite ?selected_set; fold c; lia. }
    rewrite T1 in *. clearbody u1. set (v1 := if left_click i then _ else c) in *. rewrite S1 in *.
    set (n := Z.of_nat (length (tabs u))) in *.
    set (u2 := if right_click i && (v1 <? n - 1) then set_tabs (tabs u) (v1 + 1) u1 else u1) in *.
    assert (T2 : tabs u2 = tabs u) by (unfold u2; destruct (right_click i && (v1 <? n - 1)); [reflexivity|exact T1]).
    assert (S2 : selected u2 = if right_click i then Z.min (v1 + 1) (Z.max v1 (n - 1)) else v1).
    { unfold u2. destruct (right_click i); cbn [andb]; [|exact S1].
      destruct (Z.ltb_spec v1 (n - 1)); rewrite ?selected_set; rewrite ?S1; lia. }
    rewrite T2, S2 in *. auto.
Qed.
Lemma tab_bar_tabs i u u' : tab_bar i u = Ret u' -> tabs u' = tabs u.
Proof. intro E. apply tab_bar_end in E. tauto. Qed.
Lemma last_move_0 l : forall d cur, last_move d cur l = 0 -> last l cur = cur /\ d = 0.
Proof.
  induction l as [|v r IH]; intros d cur E; [auto|]. cbn [last_move] in E. rewrite last_cons_default. destruct (IH _ _ E) as [E1 E2].
  rewrite E1. destruct (Z.eqb_spec v cur) as [->|N]; [rewrite Z.sub_diag in E2; cbn in E2; auto|]. exfalso. lia.
Qed.
Lemma turn_direction i u u' : tab_bar i u = Ret u' ->
  (turn i u = 0 -> selected u' = selected u) /\
  ((length (tab_clicks i) + (if left_click i then 1 else 0) + (if right_click i then 1 else 0) <= 1)%nat -> turn i u = Z.sgn (selected u' - selected u)).
Proof.
  intro E. apply tab_bar_end in E. destruct E as [_ E]. rewrite E. split.
  - intro E0. apply last_move_0 in E0. tauto.
  - intro L. unfold turn, selections. destruct (Z.of_nat (length (tabs u)) =? 0); [cbn [last last_move]; lia|].
    set (n := Z.of_nat (length (tabs u))). set (c := selected u).
    destruct (tab_clicks i) as [|t [|? ?]]; cbn [length] in L; [| |lia].
    + cbn [map filter]. destruct (left_click i), (right_click i); try lia; cbn [last last_move].
      * set (v := Z.max (c - 1) (Z.min c 0)). rewrite Z.sub_diag, Z.eqb_refl. destruct (v =? c); lia.
      * rewrite Z.sub_diag, Z.eqb_refl. cbn [Z.sgn Z.add]. destruct (_ =? c); lia.
      * rewrite Z.sub_diag, Z.eqb_refl. reflexivity.
    + destruct (left_click i), (right_click i); try lia. cbn [map filter]. destruct (Z.of_nat t <? n); cbn [last last_move];
        rewrite !Z.sub_diag, !Z.eqb_refl; cbn [Z.sgn Z.add]; [|reflexivity]. destruct (_ =? c); lia.
Qed.
