(** FloatHist.v - histories of frames with machine arithmetic. *)
From Coq Require Import QArith Qpower Qround Qabs Qminmax Lqa Lia ZifyBool.
From Verif Require Import Base GoStr Prims Bip39 Bip32Reg Bip32 Util Ui Slider SpecSlider SliderFacts SpecFloat Float FloatFacts FloatSlider FloatSliderFacts.
Open Scope Q_scope.

Section Hist.
Variable fma : nat -> bool.
Context {A : Type}.
(** The press that a frame brings, then its Layout: examples/ui/one/slider.go:30-116 *)
Definition show1F (x : act A) (s : slider) (h : list A) : option (slider * list A * bool * list (Z * A)) :=
  LayoutF fma (time x) (width x) (pic x) (press (dir x) s) h.
(** Frame after frame: examples/ui/one/slider.go:30-116 *)
Fixpoint playF (s : slider) (h : list A) (l : list (act A)) : option (slider * list A) :=
  match l with
  | [] => Some (s, h)
  | x :: r => let? (s, h, _, _) := show1F x s h in playF s h r
  end.
(** What the frame x asks for and draws after the history l, from a zero Slider: examples/ui/one/slider.go:30-116 *)
Definition filmF (D : Z) (l : list (act A)) (x : act A) : option (bool * list (Z * A)) :=
  let? (s, h) := playF (idle D) [] l in
  let? (_, _, again, drawn) := show1F x s h in Some (again, drawn).
Lemma playF_app l l' s h : playF s h (l ++ l') = let? (s, h) := playF s h l in playF s h l'.
Proof.
  revert s h. induction l as [|x r IH]; intros s h; [reflexivity|]. cbn [playF app].
  destruct (show1F x s h) as [[[[s' h'] b] o]|]; cbn [obind]; [apply IH|reflexivity].
Qed.

(** What is left of a slide: examples/ui/one/slider.go:53-69 *)
Definition left_over (d : Z) (s : slider) : Q := if (d >? 0)%Z then offset s else - offset s.
(** The bounds on it: examples/ui/one/slider.go:53-69 *)
Definition rem (D n E : Z) (o : Q) : Prop :=
  r o == o /\ 0 <= o /\ o <= 1 /\ 1 - (1 + 10 * u) * part D E - inject_Z n * u <= o /\ (o == 0 \/ o <= 1 - (1 - 10 * u) * part D E + inject_Z n * u).
(** The invariant of a running slide: examples/ui/one/slider.go:46-72 *)
Definition slide_invF (D tl n : Z) (cur : option (Z * Z * option A)) (s : slider) (h : list A) : Prop :=
  match cur with
  | None => t0 s = None /\ offset s == 0
  | Some (d, t, old) => (d = 1 \/ d = -1)%Z /\ (0 <= t <= tl)%Z /\ t0 s = Some tl /\ (0 <= n)%Z /\ rem (effective D) n (tl - t) (left_over d s) /\ good_old s h old
  end.
(** The invariant over histories: examples/ui/one/slider.go:30-116 *)
Definition InvF (D tl n : Z) (prev : option A) (cur : option (Z * Z * option A)) (s : slider) (h : list A) : Prop :=
  Duration s = D /\ push s = 0%Z /\ shown prev s h /\ slide_invF D tl n cur s h.

Lemma part_add D a b : (0 < D)%Z -> part D (a + b) == part D a + part D b.
Proof. intros H. unfold part. rewrite inject_Z_plus. field. assert (0 < inject_Z D) by (rewrite <- (Zlt_Qlt 0); lia). lra. Qed.
Lemma part_nonneg D a : (0 < D)%Z -> (0 <= a)%Z -> 0 <= part D a.
Proof. intros H K. unfold part. apply Qle_shift_div_l; [rewrite <- (Zlt_Qlt 0); lia|]. rewrite Qmult_0_l, <- (Zle_Qle 0). lia. Qed.
Lemma part_0 D : part D 0 == 0.
Proof. unfold part, Qdiv. change (inject_Z 0) with 0. ring. Qed.
(** One movement. *)
Lemma step_rem D n E delta o m : (0 < D)%Z -> (0 <= n)%Z -> (0 <= E)%Z -> (0 <= delta)%Z -> rem D n E o -> near (10 * u) m (part D delta) ->
  let o' := if Qle_bool (r (o - m)) 0 then 0 else r (o - m) in
  rem D (n + 1) (E + delta) o' /\ o' <= o /\ (delta = 0%Z -> o' == o).
Proof.
  intros HD Hn HE Hd (R0 & R1 & R2 & R3 & R4) [N1 N2] o'. pose proof (part_nonneg D delta HD Hd) as Pd. pose proof (part_nonneg D E HD HE) as PE.
  assert (Pn : 0 <= inject_Z n) by (rewrite <- (Zle_Qle 0); lia).
  assert (M0 : 0 <= m) by (unfold u in *; lra).
  assert (I : inject_Z (n + 1) == inject_Z n + 1) by (rewrite inject_Z_plus; reflexivity).
  assert (Rm : r (o - m) <= o) by (rewrite <- R0 at 2; apply r_mono; lra).
  assert (Lo : 1 - (1 + 10 * u) * part D (E + delta) - inject_Z (n + 1) * u <= o - m - u).
  { rewrite (part_add D E delta HD), I. lra. }
  assert (Up : o == 0 \/ o - m + u <= 1 - (1 - 10 * u) * part D (E + delta) + inject_Z (n + 1) * u).
  { destruct R4 as [Z|R4]; [left; exact Z|right]. rewrite (part_add D E delta HD), I. lra. }
  unfold o'. destruct (Qle_bool (r (o - m)) 0) eqn:B.
  - apply Qle_bool_iff in B. split; [|split; [exact R1|]].
    + split; [reflexivity|]. split; [apply Qle_refl|]. split; [discriminate|]. split; [|left; reflexivity].
      destruct (Qlt_le_dec (o - m) (-1)) as [L|L]; [unfold u in *; lra|]. destruct (err1 (o - m) L ltac:(lra)) as [E1 E2]. lra.
    + intros ->. assert (m == 0) by (rewrite part_0 in N1, N2; lra). assert (X : r (o - m) == o) by (rewrite <- R0 at 2; apply r_comp; lra). lra.
  - apply Qle_bool_false in B. split; [|split; [exact Rm|]].
    + split; [unfold r; apply fround_idem; lia|]. split; [lra|]. split; [lra|].
      assert (L : -1 <= o - m).
      { destruct (Qlt_le_dec (o - m) 0) as [L|L]; [|lra]. exfalso. assert (r (o - m) <= 0) by (apply r_le; [exact r_0|lra]). lra. }
      destruct (err1 (o - m) L ltac:(lra)) as [E1 E2]. split; [lra|]. destruct Up as [Z|Up]; [|right; lra].
      exfalso. assert (r (o - m) <= 0) by (apply r_le; [exact r_0|lra]). lra.
    + intros ->. assert (m == 0) by (rewrite part_0 in N1, N2; lra). rewrite <- R0 at 2. apply r_comp. lra.
Qed.
Lemma Sub_ok now t : (0 <= t <= now)%Z -> (now < 2 ^ 63)%Z -> Sub now t = (now - t)%Z.
Proof. unfold Sub. lia. Qed.
Lemma Qle_bool_opp a b : a == - b -> Qle_bool 0 a = Qle_bool b 0.
Proof. intros E. destruct (Qle_bool b 0) eqn:B; [apply Qle_bool_iff in B; apply Qle_bool_iff; lra|apply Qle_bool_false in B; apply Qle_bool_false; lra]. Qed.
Lemma rem_comp D n E o o' : o == o' -> rem D n E o -> rem D n E o'.
Proof. intros X. unfold rem. rewrite X. tauto. Qed.
Lemma moveF_spec s D n d E delta : (0 < D < 2 ^ 63)%Z -> effective (Duration s) = D -> (d = 1 \/ d = -1)%Z -> (0 <= n)%Z -> (0 <= E)%Z -> (0 <= delta < 2 ^ 63)%Z ->
  rem D n E (left_over d s) ->
  exists s' again, moveF delta s = Some (s', again) /\ s' = set_offset (offset s') s /\ rem D (n + 1) (E + delta) (left_over d s') /\
    left_over d s' <= left_over d s /\ (delta = 0%Z -> left_over d s' == left_over d s) /\ again = negb (Qeq_bool (offset s) 0).
Proof.
  intros HD ED Dd Hn HE Hd R. destruct (movementF_near delta D Hd HD) as (m & Em & Nm). change (near (10 * u) m (part D delta)) in Nm.
  pose proof (step_rem D n E delta (left_over d s) m ltac:(lia) Hn HE ltac:(lia) R Nm) as (S1 & S2 & S3).
  pose proof R as (R0 & R1 & R2 & R3 & R4). unfold moveF. fold (effective (Duration s)). rewrite ED.
  destruct (Qeq_bool (offset s) 0) eqn:E0.
  - apply Qeq_bool_iff in E0. exists s, false. split; [reflexivity|]. split; [destruct s; reflexivity|].
    assert (Z0 : left_over d s == 0) by (unfold left_over; destruct (d >? 0)%Z; lra).
    split; [|split; [apply Qle_refl|split; [reflexivity|reflexivity]]].
    assert (X : (if Qle_bool (r (left_over d s - m)) 0 then 0 else r (left_over d s - m)) == left_over d s).
    { assert (P : 0 <= part D delta) by (apply part_nonneg; lia). destruct Nm as [N1 N2].
      destruct (Qle_bool (r (left_over d s - m)) 0) eqn:B; [rewrite Z0; reflexivity|]. apply Qle_bool_false in B. exfalso.
      assert (r (left_over d s - m) <= 0) by (apply r_le; [exact r_0|unfold u in *; lra]). lra. }
    exact (rem_comp _ _ _ _ _ X S1).
  - apply Qeq_bool_false in E0. rewrite Em. cbn [obind negb].
    assert (P : 0 <= part D delta) by (apply part_nonneg; lia). destruct Nm as [N1 N2].
    assert (M0 : 0 <= m) by (unfold u in *; lra).
    assert (Pm : part D delta <= 9223372036854775808).
    { unfold part. apply Qle_shift_div_r; [rewrite <- (Zlt_Qlt 0); lia|]. change 9223372036854775808 with (inject_Z 9223372036854775808). rewrite <- inject_Z_mult, <- Zle_Qle. nia. }
    assert (E127 : 100000000000000000000 <= Qpower 2 127) by (vm_compute; discriminate).
    destruct Dd as [-> | ->]; unfold left_over in *; change (1 >? 0)%Z with true in *; change (-1 >? 0)%Z with false in *; cbv iota in *.
    + rewrite (proj2 (Qle_bool_iff 0 (offset s)) R1). cbn [negb].
      rewrite f32_some by (apply Qabs_Qle_condition; unfold u in *; lra). cbn [obind].
      eexists; eexists; split; [reflexivity|]. split; [reflexivity|]. cbn [offset set_offset]. auto.
    + assert (L0 : offset s < 0) by lra. rewrite (proj2 (Qle_bool_false 0 (offset s)) L0). cbn [negb].
      rewrite f32_some by (apply Qabs_Qle_condition; unfold u in *; lra). cbn [obind].
      eexists; eexists; split; [reflexivity|]. split; [reflexivity|]. cbn [offset set_offset].
      assert (X : r (offset s + m) == - r (- offset s - m)) by (rewrite <- r_opp; apply r_comp; ring).
      rewrite (Qle_bool_opp _ _ X).
      assert (Y : (if Qle_bool (r (- offset s - m)) 0 then 0 else r (- offset s - m)) == - (if Qle_bool (r (- offset s - m)) 0 then 0 else r (offset s + m))).
      { destruct (Qle_bool (r (- offset s - m)) 0); [reflexivity|]. rewrite X. ring. }
      split; [exact (rem_comp _ _ _ _ _ Y S1)|]. rewrite <- Y. auto.
Qed.
Lemma drawF_rest w s (h : list A) a b : offset s == 0 -> nextCall s = Some b -> nth_error h b = Some a -> drawF fma w s h = Some [(0%Z, a)].
Proof. intros E NC NB. unfold drawF. rewrite (proj2 (Qeq_bool_iff _ _) E), NC. cbn [add]. rewrite NB. reflexivity. Qed.
Lemma drawF_slide w s (h : list A) d old a b : (0 <= w <= 2 ^ 24)%Z -> (d = 1 \/ d = -1)%Z -> 0 < left_over d s -> left_over d s <= 1 ->
  good_old s h old -> nextCall s = Some b -> nth_error h b = Some a ->
  drawF fma w s h = Some (beside d (shiftF fma w (left_over d s)) w old a).
Proof.
  intros W Dd L0 L1 GO NC NB.
  assert (AO : forall x, add h x (lastCall s) = opt_at x old).
  { intro x. unfold good_old in GO. destruct old as [o|]; cbn [opt_at].
    - destruct GO as (c & E & N & _). rewrite E. cbn [add]. rewrite N. reflexivity.
    - rewrite GO. reflexivity. }
  assert (AN : forall x, add h x (nextCall s) = [(x, a)]) by (intro x; rewrite NC; cbn [add]; rewrite NB; reflexivity).
  unfold drawF, beside. destruct Dd as [-> | ->]; unfold left_over in *; cbn [Z.gtb Z.compare] in *.
  - rewrite (proj2 (Qeq_bool_false (offset s))) by lra. rewrite (proj2 (Qle_bool_false (offset s) 0)) by lra. cbn [negb].
    rewrite positionF_pos by (assumption || lra). cbn [obind]. rewrite AO, AN. set (F := shiftF fma w _).
    replace (- (1) * F)%Z with (- F)%Z by lia. replace (1 * w)%Z with w by lia. reflexivity.
  - rewrite (proj2 (Qeq_bool_false (offset s))) by lra. rewrite (proj2 (Qle_bool_iff (offset s) 0)) by lra. cbn [negb].
    rewrite (positionF_neg fma w (- offset s) W L0 L1 (offset s)) by ring. cbn [obind]. rewrite AO, AN. set (F := shiftF fma w _).
    replace (- (-1) * F)%Z with F by lia. replace (-1 * w)%Z with (- w)%Z by lia. reflexivity.
Qed.

Lemma show1F_spec D tl n prev cur s h x : (0 <= D < 2 ^ 63)%Z -> InvF D tl n prev cur s h -> (cur = None \/ tl <= time x)%Z ->
  (dir x = 0 \/ dir x = 1 \/ dir x = -1)%Z -> (0 <= width x <= 2 ^ 24)%Z -> (0 <= time x < 2 ^ 63)%Z ->
  let cur' := if (dir x =? 0)%Z then cur else Some (dir x, time x, prev) in
  let n' := (if dir x =? 0 then n + 1 else 0)%Z in
  exists s' h' again o, show1F x s h = Some (s', h', again, o) /\ InvF D (time x) n' (Some (pic x)) cur' s' h' /\
  again = (negb (dir x =? 0)%Z || negb (Qeq_bool (offset s) 0)) /\
  match cur' with
  | None => o = [(0%Z, pic x)]
  | Some (d, t, old) => offset s' == 0 /\ o = [(0%Z, pic x)] \/
      0 < left_over d s' /\ o = beside d (shiftF fma (width x) (left_over d s')) (width x) old (pic x)
  end /\
  (if (dir x =? 0)%Z then match cur with None => True | Some (d, _, _) => left_over d s' <= left_over d s end else left_over (dir x) s' == 1).
Proof.
  intros PD (ID & IP & IS & IC) Ht Hd Hw Htx. cbn zeta.
  assert (P : (0 < effective D < 2 ^ 63)%Z) by (unfold effective, defaultDuration; destruct (Z.eqb_spec D 0); lia).
  unfold show1F, LayoutF.
  assert (Pre : exists s1 delta, elapsedF (time x) (start_slide (time x) (press (dir x) s)) = (s1, delta) /\
    Duration s1 = D /\ push s1 = 0%Z /\
    (dir x = 0%Z /\ next s1 = next s /\ nextCall s1 = nextCall s /\ lastCall s1 = lastCall s /\ offset s1 = offset s /\
       (cur = None -> t0 s1 = None) /\ (cur <> None -> t0 s1 = Some (time x) /\ delta = (time x - tl)%Z /\ (0 <= tl)%Z) \/
     dir x <> 0%Z /\ next s1 = None /\ nextCall s1 = nextCall s /\ lastCall s1 = nextCall s /\ offset s1 = inject_Z (dir x) /\
       t0 s1 = Some (time x) /\ delta = 0%Z)).
  { destruct (Z.eqb_spec (dir x) 0) as [E|E].
    - unfold press. rewrite E. cbn [Z.eqb]. unfold start_slide. rewrite IP. cbn [Z.eqb negb]. unfold elapsedF, elapsed.
      destruct cur as [[[d t] old]|].
      + destruct IC as (_ & Lt & T0 & _). rewrite T0. eexists; eexists; split; [reflexivity|]. cbn [Duration push next nextCall lastCall offset t0 fst].
        split; [assumption|]. split; [assumption|]. left. destruct Ht as [?|Ht]; [discriminate|]. repeat split; auto; try congruence; [apply Sub_ok; lia|lia].
      + destruct IC as (T0 & _). rewrite T0. eexists; eexists; split; [reflexivity|].
        split; [assumption|]. split; [assumption|]. left. repeat split; auto; congruence.
    - assert (Ep : push (press (dir x) s) = dir x /\ Duration (press (dir x) s) = D /\ nextCall (press (dir x) s) = nextCall s).
      { unfold press. destruct (Z.eqb_spec (dir x) 0); [contradiction|]. destruct Hd as [?|[Hd|Hd]]; [contradiction| |]; rewrite Hd; cbn; auto. }
      destruct Ep as (Ep1 & Ep2 & Ep3). unfold start_slide. rewrite Ep1. destruct (Z.eqb_spec (dir x) 0); [contradiction|]. cbn [negb].
      unfold elapsedF, elapsed. cbn [t0 Duration push next nextCall lastCall offset fst]. eexists; eexists; split; [reflexivity|].
      cbn [t0 Duration push next nextCall lastCall offset]. rewrite Ep2, Ep3. repeat split; auto. right. repeat split; auto. rewrite Sub_ok by lia. lia. }
  destruct Pre as (s1 & delta & Ee & D1 & P1 & Pre). rewrite Ee.
  set (cur' := if (dir x =? 0)%Z then cur else Some (dir x, time x, prev)).
  assert (Mid : exists s2 ag, moveF delta s1 = Some (s2, ag) /\ s2 = set_offset (offset s2) s1 /\
    ag = (negb (dir x =? 0)%Z || negb (Qeq_bool (offset s) 0)) /\
    match cur' with
    | None => t0 s2 = None /\ offset s2 == 0
    | Some (d, t, old) => (d = 1 \/ d = -1)%Z /\ (0 <= t <= time x)%Z /\ t0 s2 = Some (time x) /\
        (0 <= (if dir x =? 0 then n + 1 else 0))%Z /\ rem (effective D) (if dir x =? 0 then n + 1 else 0)%Z (time x - t) (left_over d s2)
    end /\
    (if (dir x =? 0)%Z then match cur with None => True | Some (d, _, _) => left_over d s2 <= left_over d s end else left_over (dir x) s2 == 1)).
  { unfold cur'. destruct Pre as [(E & _ & _ & _ & Eo & Pn & Ps)|(E & _ & _ & _ & Eo & Et & Edl)].
    - rewrite E. cbn [Z.eqb negb orb]. destruct cur as [[[d t] old]|].
      + destruct IC as (Dd & L & T0 & N0 & R & _). destruct (Ps ltac:(discriminate)) as (Et & -> & Tl).
        destruct Ht as [?|Ht]; [discriminate|].
        assert (LO : left_over d s1 = left_over d s) by (unfold left_over; rewrite Eo; reflexivity). rewrite <- LO in R.
        destruct (moveF_spec s1 (effective D) n d (tl - t) (time x - tl) P ltac:(rewrite D1; reflexivity) Dd N0 ltac:(lia) ltac:(lia) R) as (s2 & ag & M1 & M2 & M3 & M4 & _ & M6).
        exists s2, ag. split; [exact M1|]. split; [exact M2|]. split; [rewrite M6, Eo; reflexivity|]. split.
        * split; [exact Dd|]. split; [lia|]. split; [rewrite M2; exact Et|]. split; [lia|]. replace (time x - t)%Z with (tl - t + (time x - tl))%Z by lia. exact M3.
        * rewrite <- LO. exact M4.
      + destruct IC as (T0 & EO). exists s1, false. unfold moveF. rewrite Eo. rewrite (proj2 (Qeq_bool_iff _ _) EO). split; [reflexivity|].
        split; [rewrite <- Eo; destruct s1; reflexivity|]. split; [reflexivity|]. split; [|exact Logic.I]. split; [exact (Pn eq_refl)|exact EO].
    - destruct (Z.eqb_spec (dir x) 0) as [?|_]; [contradiction|]. cbn [negb orb].
      assert (Dd : (dir x = 1 \/ dir x = -1)%Z) by tauto.
      assert (L1 : left_over (dir x) s1 == 1) by (unfold left_over; rewrite Eo; destruct Dd as [-> | ->]; reflexivity).
      assert (R : rem (effective D) (-1 + 1) 0 (left_over (dir x) s1)).
      { apply (rem_comp _ _ _ 1); [symmetry; exact L1|]. unfold rem. rewrite part_0. change (inject_Z (-1 + 1)) with 0. unfold u.
        split; [exact r_1|]. repeat split; try lra. }
      destruct (moveF_spec s1 (effective D) 0 (dir x) 0 delta P ltac:(rewrite D1; reflexivity) Dd ltac:(lia) ltac:(lia) ltac:(lia) R) as (s2 & ag & M1 & M2 & M3 & M4 & M5 & M6).
      specialize (M5 Edl). exists s2, ag. split; [exact M1|]. split; [exact M2|]. split.
      + rewrite M6. rewrite (proj2 (Qeq_bool_false (offset s1))); [reflexivity|]. rewrite Eo. destruct Dd as [-> | ->]; intro K; discriminate K.
      + split; [|rewrite M5; exact L1]. split; [exact Dd|]. split; [lia|]. split; [rewrite M2; exact Et|]. split; [lia|].
        rewrite Z.sub_diag. apply (rem_comp _ _ _ (left_over (dir x) s1)); [symmetry; exact M5|exact R]. }
  destruct Mid as (s2 & ag & Em & E2 & Ag & Mid & Mono). rewrite Em. cbn [obind].
  destruct (record (pic x) s2 h) as [s3 h3] eqn:Er.
  assert (F2 : Duration s2 = D /\ push s2 = 0%Z /\ next s2 = next s1 /\ nextCall s2 = nextCall s1 /\ lastCall s2 = lastCall s1)
    by (rewrite E2; cbn; auto).
  destruct F2 as (D2 & P2 & N2 & NC2 & L2).
  assert (Lb : forall b, next s2 = Some b -> (b < length h)%nat).
  { intros b Eb. rewrite N2 in Eb. destruct Pre as [(_ & En & _)|(_ & En & _)]; rewrite En in Eb; [|discriminate].
    unfold shown in IS. destruct prev as [a|].
    - destruct IS as (b' & S1 & S2 & S3). rewrite S1 in Eb. injection Eb as ->. apply nth_error_Some. congruence.
    - destruct IS as (S1 & _). congruence. }
  destruct (record_spec (pic x) s2 h s3 h3 Er Lb) as (R1 & R2 & R3 & R4 & R5 & (b & B1 & B2 & B3 & B4) & R7).
  assert (GO : match cur' with None => True | Some (_, _, old) => good_old s3 h3 old end).
  { unfold cur'. destruct Pre as [(E & En & Enc & El & _)|(E & En & Enc & El & _)].
    - rewrite E. cbn [Z.eqb]. destruct cur as [[[d t] old]|]; [|exact I].
      destruct IC as (_ & _ & _ & _ & _ & G). unfold good_old in *. destruct old as [a|]; [|congruence].
      destruct G as (c & G1 & G2 & G3). exists c.
      assert (Lc : (c < length h)%nat) by (apply nth_error_Some; congruence).
      repeat split; [congruence| |].
      + rewrite R7; [exact G2|congruence|exact Lc].
      + rewrite B1. intro K. injection K as ->. destruct B4 as [B4|[B4 B5]]; [congruence|lia].
    - destruct (Z.eqb_spec (dir x) 0); [contradiction|]. unfold good_old, shown in *. destruct prev as [a|].
      + destruct IS as (c & S1 & S2 & S3). exists c. assert (Lc : (c < length h)%nat) by (apply nth_error_Some; congruence).
        repeat split; [congruence| |].
        * rewrite R7; [exact S3|congruence|exact Lc].
        * rewrite B1. intro K. injection K as ->. destruct B4 as [B4|[B4 B5]]; [congruence|lia].
      + destruct IS as (S1 & S2). congruence. }
  assert (LO3 : forall d, left_over d s3 = left_over d s2) by (intros d; unfold left_over; rewrite R4; reflexivity).
  assert (I3 : InvF D (time x) (if dir x =? 0 then n + 1 else 0)%Z (Some (pic x)) cur' s3 h3).
  { repeat split; try congruence.
    + exists b. auto.
    + unfold slide_invF. destruct cur' as [[[d t] old]|].
      * destruct Mid as (M1 & M2 & M3 & M4 & M5). rewrite R3, LO3. auto 10.
      * destruct Mid as (M1 & M2). rewrite R3, R4. auto. }
  assert (Mono3 : if (dir x =? 0)%Z then match cur with None => True | Some (d, _, _) => left_over d s3 <= left_over d s end else left_over (dir x) s3 == 1).
  { destruct (dir x =? 0)%Z; [|rewrite LO3; exact Mono]. destruct cur as [[[d t] old]|]; [|exact I]. rewrite LO3. exact Mono. }
  assert (Dr : exists o, drawF fma (width x) s3 h3 = Some o /\
    match cur' with
    | None => o = [(0%Z, pic x)]
    | Some (d, t, old) => offset s3 == 0 /\ o = [(0%Z, pic x)] \/
        0 < left_over d s3 /\ o = beside d (shiftF fma (width x) (left_over d s3)) (width x) old (pic x)
    end).
  { destruct cur' as [[[d t] old]|].
    - destruct Mid as (M1 & M2 & M3 & M4 & M5). rewrite <- LO3 in M5. destruct M5 as (_ & Q0 & Q1 & _).
      destruct (Qlt_le_dec 0 (left_over d s3)) as [L|L].
      + eexists. split; [eapply drawF_slide; eauto|]. right. auto.
      + assert (Z0 : offset s3 == 0) by (unfold left_over in *; destruct (d >? 0)%Z; lra).
        eexists. split; [eapply drawF_rest; eauto|]. left. auto.
    - destruct Mid as (M1 & M2). eexists. split; [eapply drawF_rest; eauto; rewrite R4; exact M2|reflexivity]. }
  destruct Dr as (o & Dr & Od). rewrite Dr. cbn [obind]. exists s3, h3, ag, o. auto 10.
Qed.

Lemma InvF_idle D tl n : InvF D tl n None None (idle D) [].
Proof. repeat split. Qed.
Lemma playF_spec D : (0 <= D < 2 ^ 63)%Z -> forall l tl n prev cur s h, InvF D tl n prev cur s h ->
  (cur = None \/ sorted tl l) -> in_order l -> proper l -> machine l ->
  exists s' h', playF s h l = Some (s', h') /\ InvF D (last_time tl l) (frames_since n l) (last_pic prev l) (last_push prev cur l) s' h'.
Proof.
  intro PD. induction l as [|x l' IH]; intros tl n prev cur s h I So Io Pr Ma; [exists s, h; auto|].
  inversion Pr as [|? ? [Hd Hw] Pr' E1]; subst. inversion Ma as [|? ? [Ht Hw'] Ma' E1]; subst. cbn [playF].
  destruct (show1F_spec D tl n prev cur s h x PD I) as (s' & h' & again & o & S & I' & _); auto.
  { destruct So as [?|[? ?]]; auto. }
  rewrite S. cbn [obind].
  assert (Sr : sorted (time x) l') by (exact Io).
  destruct (IH (time x) _ (Some (pic x)) (if (dir x =? 0)%Z then cur else Some (dir x, time x, prev)) s' h' I' (or_intror Sr)) as (s2 & h2 & P2 & I2); auto.
  { destruct l'; [exact Logic.I|]. exact (proj2 Sr). }
  exists s2, h2. split; [exact P2|]. unfold last_time, last_pic. cbn [map]. rewrite !last_cons_default. cbn [last_push frames_since]. exact I2.
Qed.
Lemma frames_since_app (l l' : list (act A)) n : frames_since n (l ++ l') = frames_since (frames_since n l) l'.
Proof. revert n. induction l as [|x r' IH]; intros n; [reflexivity|]. apply IH. Qed.
(** The state before a frame, and the frame. *)
Lemma before D (l : list (act A)) x : (0 <= D < 2 ^ 63)%Z -> in_order (l ++ [x]) -> proper (l ++ [x]) -> machine (l ++ [x]) ->
  exists s h s' h' again o, playF (idle D) [] l = Some (s, h) /\ show1F x s h = Some (s', h', again, o) /\
  InvF D (time x) (frames_since 0 (l ++ [x])) (Some (pic x)) (last_push None None (l ++ [x])) s' h' /\
  again = (negb (dir x =? 0)%Z || negb (Qeq_bool (offset s) 0)) /\
  match last_push None None (l ++ [x]) with
  | None => o = [(0%Z, pic x)] /\ offset s == 0 /\ dir x = 0%Z
  | Some (d, t, old) => offset s' == 0 /\ o = [(0%Z, pic x)] \/
      0 < left_over d s' /\ o = beside d (shiftF fma (width x) (left_over d s')) (width x) old (pic x)
  end /\
  (if (dir x =? 0)%Z then match last_push None None l with None => True | Some (d, _, _) => left_over d s' <= left_over d s end else left_over (dir x) s' == 1) /\
  (last_push None None (l ++ [x]) = None -> offset s == 0 /\ again = false).
Proof.
  intros PD Io Pr Ma. destruct (in_order_app l [] x Io) as (Io1 & _ & Lt).
  unfold proper in Pr. apply Forall_app in Pr. destruct Pr as [Pr1 Pr2]. inversion Pr2 as [|? ? [Hd Hw] _ E]; subst.
  unfold machine in Ma. apply Forall_app in Ma. destruct Ma as [Ma1 Ma2]. inversion Ma2 as [|? ? [Ht Hw'] _ E]; subst.
  destruct (playF_spec D PD l 0 0 None None (idle D) [] (InvF_idle D 0 0) (or_introl eq_refl) Io1 Pr1 Ma1) as (s & h & P1 & I).
  destruct (show1F_spec D _ _ _ _ s h x PD I) as (s' & h' & again & o & S & I' & Ag & O & Mo); auto.
  { destruct l as [|y r']; [left; reflexivity|right]. apply Lt. discriminate. }
  exists s, h, s', h', again, o. rewrite last_push_app, frames_since_app. cbn [last_push frames_since].
  split; [exact P1|]. split; [exact S|]. split; [exact I'|]. split; [exact Ag|].
  assert (Nn : (if (dir x =? 0)%Z then last_push None None l else Some (dir x, time x, last_pic None l)) = None -> offset s == 0 /\ dir x = 0%Z /\ again = false).
  { destruct (Z.eqb_spec (dir x) 0) as [E|E]; [|discriminate]. intros En. destruct I as (_ & _ & _ & C). rewrite En in C. cbn in C.
    split; [exact (proj2 C)|]. split; [exact E|]. rewrite Ag. rewrite (proj2 (Qeq_bool_iff _ _) (proj2 C)). reflexivity. }
  split; [|split; [exact Mo|intros En; destruct (Nn En) as (? & ? & ?); auto]].
  destruct (if (dir x =? 0)%Z then last_push None None l else Some (dir x, time x, last_pic None l)) as [[[d t] old]|]; [exact O|].
  destruct (Nn eq_refl) as (? & ? & ?). auto.
Qed.
Theorem filmF_spec D (l : list (act A)) x : (0 <= D < 2 ^ 63)%Z -> in_order (l ++ [x]) -> proper (l ++ [x]) -> machine (l ++ [x]) ->
  exists again drawn, filmF D l x = Some (again, drawn) /\
  match last_push None None (l ++ [x]) with
  | None => at_rest x drawn /\ again = false
  | Some (d, t, old) => exists o, (0 <= time x - t)%Z /\ (0 <= frames_since 0 (l ++ [x]))%Z /\ rem (effective D) (frames_since 0 (l ++ [x])) (time x - t) o /\
      (o == 0 /\ at_rest x drawn \/ 0 < o /\ again = true /\ drawn = beside d (shiftF fma (width x) o) (width x) old (pic x))
  end.
Proof.
  intros PD Io Pr Ma. destruct (before D l x PD Io Pr Ma) as (s & h & s' & h' & again & o & P1 & S & I' & Ag & O & Mo & Nn).
  exists again, o. split; [unfold filmF; rewrite P1; cbn [obind]; rewrite S; reflexivity|].
  destruct I' as (_ & _ & _ & C). pose proof (last_push_app l [x] None None) as La. cbn [last_push] in La.
  destruct (last_push None None (l ++ [x])) as [[[d t] old]|].
  - destruct C as (Dd & Ht & _ & N0 & R & _). exists (left_over d s'). split; [lia|]. split; [exact N0|]. split; [exact R|].
    destruct O as [[O1 O2]|[O1 O2]]; [left|right].
    + split; [unfold left_over; destruct (d >? 0)%Z; lra|exact O2].
    + split; [exact O1|]. split; [|exact O2]. rewrite Ag. destruct (Z.eqb_spec (dir x) 0) as [E|E]; [|reflexivity]. cbn [negb orb].
      rewrite <- La in Mo. rewrite (proj2 (Qeq_bool_false (offset s))); [reflexivity|]. intro K. unfold left_over in *. destruct (d >? 0)%Z; lra.
  - destruct O as (O1 & _). split; [exact O1|]. apply Nn. reflexivity.
Qed.
(** From one frame to the next. *)
Theorem filmF_forward D (l : list (act A)) x y : (0 <= D < 2 ^ 63)%Z -> in_order (l ++ [x; y]) -> proper (l ++ [x; y]) -> machine (l ++ [x; y]) ->
  dir y = 0%Z -> width y = width x ->
  exists ax dx ay dy, filmF D l x = Some (ax, dx) /\ filmF D (l ++ [x]) y = Some (ay, dy) /\
  (at_rest y dy \/ exists d old sx sy, (sx <= sy)%Z /\ sliding d old x sx dx /\ sliding d old y sy dy).
Proof.
  intros PD Io Pr Ma Dy Wy. change [x; y] with ([x] ++ [y]) in *. rewrite app_assoc in Io, Pr, Ma.
  assert (Io1 : in_order (l ++ [x])) by (apply (in_order_app (l ++ [x]) [] y) in Io; tauto).
  assert (Pr1 : proper (l ++ [x])) by (unfold proper in *; apply Forall_app in Pr; tauto).
  assert (Ma1 : machine (l ++ [x])) by (unfold machine in *; apply Forall_app in Ma; tauto).
  destruct (before D l x PD Io1 Pr1 Ma1) as (s & h & s1 & h1 & ax & dx & P1 & S1 & I1 & _ & O1 & _).
  destruct (before D (l ++ [x]) y PD Io Pr Ma) as (s1' & h1' & s2 & h2 & ay & dy & P2 & S2 & I2 & _ & O2 & Mo & _).
  assert (E : s1' = s1 /\ h1' = h1).
  { rewrite playF_app, P1 in P2. cbn [obind playF] in P2. rewrite S1 in P2. cbn [obind] in P2. injection P2 as <- <-. auto. }
  destruct E as [-> ->]. exists ax, dx, ay, dy.
  split; [unfold filmF; rewrite P1; cbn [obind]; rewrite S1; reflexivity|]. split; [unfold filmF; rewrite P2; cbn [obind]; rewrite S2; reflexivity|].
  rewrite Dy in Mo. cbn [Z.eqb] in Mo. pose proof (last_push_app (l ++ [x]) [y] None None) as La. cbn [last_push] in La. rewrite Dy in La. cbn [Z.eqb] in La.
  rewrite La in O2, I2. destruct I2 as (_ & _ & _ & C2). destruct I1 as (_ & _ & _ & C1).
  destruct (last_push None None (l ++ [x])) as [[[d t] old]|]; [|left; exact (proj1 O2)].
  destruct O2 as [[_ O2]|[L2 O2]]; [left; exact O2|right].
  destruct C1 as (_ & _ & _ & _ & (_ & Q0 & Q1 & _) & _). destruct C2 as (_ & _ & _ & _ & (_ & Q2 & Q3 & _) & _).
  destruct O1 as [[Z0 _]|[L1 O1]].
  { exfalso. unfold left_over in *. destruct (d >? 0)%Z; lra. }
  assert (W : (0 <= width x <= 2 ^ 24)%Z).
  { unfold proper in Pr1. unfold machine in Ma1. apply Forall_app in Pr1, Ma1. destruct Pr1 as [_ Pr1], Ma1 as [_ Ma1]. inversion Pr1; inversion Ma1; subst. lia. }
  exists d, old, (shiftF fma (width x) (left_over d s1)), (shiftF fma (width x) (left_over d s2)).
  split; [apply shiftF_mono; lia || lra|]. split; (split; [rewrite ?Wy; apply shiftF_range; assumption || lra|]).
  - exact O1.
  - rewrite Wy in *. exact O2.
Qed.
(** The frame of the push itself. *)
Theorem filmF_push D (l : list (act A)) x : (0 <= D < 2 ^ 63)%Z -> in_order (l ++ [x]) -> proper (l ++ [x]) -> machine (l ++ [x]) -> dir x <> 0%Z ->
  filmF D l x = Some (true, beside (dir x) 0 (width x) (last_pic None l) (pic x)).
Proof.
  intros PD Io Pr Ma Dx. destruct (before D l x PD Io Pr Ma) as (s & h & s1 & h1 & ax & dx & P1 & S1 & I1 & Ag & O1 & Mo & _).
  unfold filmF. rewrite P1. cbn [obind]. rewrite S1. cbn [obind]. rewrite last_push_app in O1, I1. cbn [last_push] in O1, I1.
  destruct (Z.eqb_spec (dir x) 0) as [?|_]; [contradiction|]. cbn [negb orb] in Ag. subst ax.
  destruct I1 as (_ & _ & _ & _ & _ & _ & _ & (_ & Q0 & Q1 & _) & _).
  destruct O1 as [[Z0 _]|[_ O1]]; [exfalso; unfold left_over in *; destruct (dir x >? 0)%Z; lra|].
  assert (Sh : shiftF fma (width x) (left_over (dir x) s1) = 0%Z).
  { assert (W : (0 <= width x <= 2 ^ 24)%Z).
    { unfold proper in Pr. unfold machine in Ma. apply Forall_app in Pr, Ma. destruct Pr as [_ Pr], Ma as [_ Ma]. inversion Pr; inversion Ma; subst. lia. }
    pose proof (shiftF_range fma (width x) (left_over (dir x) s1) W Q0 Q1). pose proof (shiftF_mono fma (width x) 1 (left_over (dir x) s1)) as M.
    rewrite shiftF_1 in M. specialize (M ltac:(lia) ltac:(lra) ltac:(lra) Q1). lia. }
  rewrite Sh in O1. rewrite O1. reflexivity.
Qed.
End Hist.

(** ** How far from the exact slide *)
Lemma ulp_u : ulp = u. Proof. reflexivity. Qed.
Lemma rem_close D n E o : (0 < D)%Z -> (0 <= n)%Z -> (0 <= E)%Z -> rem D n E o -> 0 < o ->
  - ((10 + inject_Z n) * u) <= 1 - o - Qmin 1 (part D E) /\ 1 - o - Qmin 1 (part D E) <= (10 + inject_Z n) * u.
Proof.
  intros HD Hn HE (_ & R1 & R2 & R3 & R4) O. pose proof (part_nonneg D E HD HE) as P. assert (N : 0 <= inject_Z n) by (rewrite <- (Zle_Qle 0); lia).
  destruct R4 as [Z|R4]; [lra|]. destruct (Qlt_le_dec 1 (part D E)) as [L|L].
  - rewrite Q.min_l by lra. unfold u in *. lra.
  - rewrite Q.min_r by lra. unfold u in *. lra.
Qed.
Lemma eased_close a b e : 0 <= a -> a <= 1 -> 0 <= b -> b <= 1 -> - e <= a - b -> a - b <= e -> - (3 * e) <= eased a - eased b /\ eased a - eased b <= 3 * e.
Proof.
  intros A0 A1 B0 B1 L1 L2. destruct (Qlt_le_dec a b) as [L|L].
  - pose proof (eased_lip a b A0 ltac:(lra) B1). pose proof (eased_mono a b A0 ltac:(lra) B1). lra.
  - pose proof (eased_lip b a B0 L A1). pose proof (eased_mono b a B0 L A1). lra.
Qed.
Lemma shift_close fma D n E o w : (0 < D)%Z -> (0 <= n)%Z -> (0 <= E)%Z -> rem D n E o -> 0 < o -> (0 <= w <= 2 ^ 24)%Z ->
  exists p, shiftF fma w o = Qfloor p /\
  - (inject_Z w * ((49 + 3 * inject_Z n) * u)) <= p - inject_Z w * eased (Qmin 1 (part D E)) /\
  p - inject_Z w * eased (Qmin 1 (part D E)) <= inject_Z w * ((49 + 3 * inject_Z n) * u).
Proof.
  intros HD Hn HE R O W. destruct (rem_close D n E o HD Hn HE R O) as [C1 C2]. destruct R as (_ & R1 & R2 & _ & _).
  pose proof (part_nonneg D E HD HE) as P. set (q := Qmin 1 (part D E)) in *.
  assert (Q0 : 0 <= q) by (apply Q.min_glb; [discriminate|exact P]). assert (Q1 : q <= 1) by apply Q.le_min_l.
  destruct (eased_close (1 - o) q ((10 + inject_Z n) * u) ltac:(lra) ltac:(lra) Q0 Q1 C1 C2) as [E1 E2].
  destruct (shiftF_real fma w o W R1 R2) as (p & Ep & P1 & P2). exists p. split; [exact Ep|].
  assert (W0 : 0 <= inject_Z w) by (rewrite <- (Zle_Qle 0); lia).
  pose proof (eased_sym o) as Es.
  assert (M1 : inject_Z w * (eased (1 - o) - eased q) <= inject_Z w * (3 * ((10 + inject_Z n) * u))) by (rewrite !(Qmult_comm (inject_Z w)); apply Qmult_le_compat_r; lra).
  assert (M2 : inject_Z w * (- (3 * ((10 + inject_Z n) * u))) <= inject_Z w * (eased (1 - o) - eased q)) by (rewrite !(Qmult_comm (inject_Z w)); apply Qmult_le_compat_r; lra).
  assert (X : inject_Z w * (1 - eased o) == inject_Z w * eased (1 - o)) by (rewrite Es; reflexivity). rewrite X in P1, P2.
  split; lra.
Qed.
Lemma floor_1 p : Qfloor (p + 1) = (Qfloor p + 1)%Z.
Proof.
  assert (L1 : inject_Z (Qfloor p + 1) <= p + 1) by (rewrite inject_Z_plus; pose proof (Qfloor_le p); change (inject_Z 1) with 1; lra).
  assert (L2 : p + 1 < inject_Z (Qfloor p + 1 + 1)) by (rewrite inject_Z_plus; pose proof (Qlt_floor p); change (inject_Z 1) with 1; lra).
  apply Qfloor_resp_le in L1. rewrite Qfloor_Z in L1. pose proof (Qfloor_le (p + 1)) as L3.
  assert (L4 : inject_Z (Qfloor (p + 1)) < inject_Z (Qfloor p + 1 + 1)) by lra. rewrite <- Zlt_Qlt in L4. lia.
Qed.
Section Claims.
Context {A : Type}.
(** The whole picture of a frame. *)
Theorem film_positions fma D (l : list (act A)) x : (0 <= D < 2 ^ 63)%Z -> in_order (l ++ [x]) -> proper (l ++ [x]) -> machine (l ++ [x]) ->
  exists again drawn, filmF fma D l x = Some (again, drawn) /\
  match last_push None None (l ++ [x]) with
  | None => at_rest x drawn /\ again = false
  | Some (d, t, old) =>
      let q := part (effective D) (time x - t) in let n := inject_Z (frames_since 0 (l ++ [x])) in
      (at_rest x drawn /\ 1 <= (1 + 10 * ulp) * q + n * ulp) \/
      (exists shift, sliding d old x shift drawn /\ again = true /\ (1 - 10 * ulp) * q < 1 + n * ulp /\
         inject_Z shift <= inject_Z (width x) * (eased (Qmin 1 q) + (49 + 3 * n) * ulp) /\
         inject_Z (width x) * (eased (Qmin 1 q) - (49 + 3 * n) * ulp) < inject_Z shift + 1)
  end.
Proof.
  intros PD Io Pr Ma. destruct (filmF_spec fma D l x PD Io Pr Ma) as (again & drawn & F & C). exists again, drawn. split; [exact F|].
  assert (P : (0 < effective D < 2 ^ 63)%Z) by (unfold effective, defaultDuration; destruct (Z.eqb_spec D 0); lia).
  destruct (last_push None None (l ++ [x])) as [[[d t] old]|]; [|exact C]. cbn zeta. rewrite ulp_u.
  destruct C as (o & Ht & Hn & R & [[Z O]|(L & Ag & O)]).
  - left. split; [exact O|]. destruct R as (_ & _ & _ & R3 & _). lra.
  - right. assert (W : (0 <= width x <= 2 ^ 24)%Z).
    { unfold proper in Pr. unfold machine in Ma. apply Forall_app in Pr, Ma. destruct Pr as [_ Pr], Ma as [_ Ma]. inversion Pr; inversion Ma; subst. lia. }
    destruct (shift_close fma (effective D) _ _ o (width x) ltac:(lia) Hn Ht R L W) as (p & Ep & P1 & P2). destruct R as (_ & R1 & R2 & _ & R4).
    exists (shiftF fma (width x) o). split; [split; [apply shiftF_range; assumption|exact O]|]. split; [exact Ag|].
    split; [destruct R4 as [Z|R4]; lra|]. rewrite Ep. pose proof (Qfloor_le p). pose proof (Qlt_floor p) as Lf. rewrite inject_Z_plus in Lf. change (inject_Z 1) with 1 in Lf. split; lra.
Qed.
(** Within one pixel of the exact position. *)
Theorem film_one_pixel fma D (l : list (act A)) x : (0 <= D < 2 ^ 63)%Z -> in_order (l ++ [x]) -> proper (l ++ [x]) -> machine (l ++ [x]) ->
  (width x * (49 + 3 * frames_since 0 (l ++ [x])) <= 2 ^ 25)%Z ->
  exists again drawn, filmF fma D l x = Some (again, drawn) /\
  match last_push None None (l ++ [x]) with
  | None => at_rest x drawn
  | Some (d, t, old) => at_rest x drawn \/
      exists shift, sliding d old x shift drawn /\ (Z.abs (shift - pixels (eased (Qmin 1 (part (effective D) (time x - t)))) (width x)) <= 1)%Z
  end.
Proof.
  intros PD Io Pr Ma Sm. destruct (filmF_spec fma D l x PD Io Pr Ma) as (again & drawn & F & C). exists again, drawn. split; [exact F|].
  assert (P : (0 < effective D < 2 ^ 63)%Z) by (unfold effective, defaultDuration; destruct (Z.eqb_spec D 0); lia).
  destruct (last_push None None (l ++ [x])) as [[[d t] old]|]; [|exact (proj1 C)].
  destruct C as (o & Ht & Hn & R & [[Z O]|(L & Ag & O)]); [left; exact O|right].
  assert (W : (0 <= width x <= 2 ^ 24)%Z).
  { unfold proper in Pr. unfold machine in Ma. apply Forall_app in Pr, Ma. destruct Pr as [_ Pr], Ma as [_ Ma]. inversion Pr; inversion Ma; subst. lia. }
  destruct (shift_close fma (effective D) _ _ o (width x) ltac:(lia) Hn Ht R L W) as (p & Ep & P1 & P2). destruct R as (_ & R1 & R2 & _ & R4).
  exists (shiftF fma (width x) o). split; [split; [apply shiftF_range; assumption|exact O]|].
  set (n := frames_since 0 (l ++ [x])) in *.
  assert (B : inject_Z (width x) * ((49 + 3 * inject_Z n) * u) <= 1).
  { rewrite Zle_Qle in Sm. rewrite inject_Z_mult, inject_Z_plus, inject_Z_mult in Sm. change (inject_Z (2 ^ 25)) with 33554432 in Sm.
    change (inject_Z 49) with 49 in Sm. change (inject_Z 3) with 3 in Sm. unfold u. lra. }
  set (p0 := inject_Z (width x) * eased (Qmin 1 (part (effective D) (time x - t)))) in *. unfold pixels. fold p0. rewrite Ep.
  assert (F1 : (Qfloor p <= Qfloor p0 + 1)%Z).
  { rewrite <- floor_1. apply Qfloor_resp_le. lra. }
  assert (F2 : (Qfloor p0 <= Qfloor p + 1)%Z) by (rewrite <- floor_1; apply Qfloor_resp_le; lra).
  lia.
Qed.
(** The end of a slide. *)
Theorem film_rest fma D (l : list (act A)) x : (0 <= D < 2 ^ 63)%Z -> in_order (l ++ [x]) -> proper (l ++ [x]) -> machine (l ++ [x]) ->
  (forall d t old, last_push None None (l ++ [x]) = Some (d, t, old) ->
     1 + inject_Z (frames_since 0 (l ++ [x])) * ulp <= (1 - 10 * ulp) * part (effective D) (time x - t)) ->
  exists again, filmF fma D l x = Some (again, [(0%Z, pic x)]).
Proof.
  intros PD Io Pr Ma K. destruct (film_positions fma D l x PD Io Pr Ma) as (again & drawn & F & C).
  destruct (last_push None None (l ++ [x])) as [[[d t] old]|].
  - cbn zeta in C. destruct C as [[C _]|(sh & _ & _ & C & _)].
    + exists again. rewrite F, C. reflexivity.
    + exfalso. specialize (K d t old eq_refl). lra.
  - exists again. rewrite F, (proj1 C). reflexivity.
Qed.
(** Once at rest, no frame is asked for. *)
Theorem film_quiet fma D (l : list (act A)) x y : (0 <= D < 2 ^ 63)%Z -> in_order (l ++ [x; y]) -> proper (l ++ [x; y]) -> machine (l ++ [x; y]) -> dir y = 0%Z ->
  (forall d t old, last_push None None (l ++ [x]) = Some (d, t, old) ->
     1 + inject_Z (frames_since 0 (l ++ [x])) * ulp <= (1 - 10 * ulp) * part (effective D) (time x - t)) ->
  filmF fma D (l ++ [x]) y = Some (false, [(0%Z, pic y)]).
Proof.
  intros PD Io Pr Ma Dy K. change [x; y] with ([x] ++ [y]) in *. rewrite app_assoc in Io, Pr, Ma.
  assert (Io1 : in_order (l ++ [x])) by (apply (in_order_app (l ++ [x]) [] y) in Io; tauto).
  assert (Pr1 : proper (l ++ [x])) by (unfold proper in *; apply Forall_app in Pr; tauto).
  assert (Ma1 : machine (l ++ [x])) by (unfold machine in *; apply Forall_app in Ma; tauto).
  destruct (before fma D l x PD Io1 Pr1 Ma1) as (s & h & s1 & h1 & ax & dx & P1 & S1 & I1 & _ & O1 & _ & _).
  destruct (before fma D (l ++ [x]) y PD Io Pr Ma) as (s1' & h1' & s2 & h2 & ay & dy & P2 & S2 & I2 & Ag & O2 & Mo & _).
  assert (E : s1' = s1 /\ h1' = h1).
  { rewrite playF_app, P1 in P2. cbn [obind playF] in P2. rewrite S1 in P2. cbn [obind] in P2. injection P2 as <- <-. auto. }
  destruct E as [-> ->]. unfold filmF. rewrite P2. cbn [obind]. rewrite S2. cbn [obind].
  pose proof (last_push_app (l ++ [x]) [y] None None) as La. cbn [last_push] in La. rewrite Dy in La, Mo, Ag. cbn [Z.eqb negb orb] in La, Mo, Ag. rewrite La in O2, I2.
  destruct I1 as (_ & _ & _ & C1). destruct I2 as (_ & _ & _ & C2).
  assert (Z0 : offset s1 == 0).
  { destruct (last_push None None (l ++ [x])) as [[[d t] old]|]; [|exact (proj2 C1)]. specialize (K d t old eq_refl). rewrite ulp_u in K.
    destruct C1 as (_ & _ & _ & _ & (_ & Q0 & _ & _ & Q4) & _). destruct Q4 as [Q4|Q4]; [|assert (Q5 : left_over d s1 == 0) by lra; clear Q4; rename Q5 into Q4];
      unfold left_over in Q4; destruct (d >? 0)%Z; lra. }
  assert (Od : dy = [(0%Z, pic y)]).
  { destruct (last_push None None (l ++ [x])) as [[[d t] old]|]; [|exact (proj1 O2)]. destruct O2 as [[_ O2]|[L2 _]]; [exact O2|].
    exfalso. unfold left_over in *. destruct (d >? 0)%Z; lra. }
  rewrite Ag, Od. rewrite (proj2 (Qeq_bool_iff _ _) Z0). reflexivity.
Qed.
End Claims.

(** ** Frames that come too fast *)
Section Fast.
Context {A : Type}.
(** Frames without a push, each at most 8 ns after the one before, examples/ui/one/slider.go:46-72 *)
Fixpoint hurried (t : Z) (l : list (act A)) : Prop :=
  match l with [] => True | x :: r => dir x = 0%Z /\ (t <= time x <= t + 8)%Z /\ (0 <= time x < 2 ^ 63)%Z /\ (0 <= width x <= 2 ^ 24)%Z /\ hurried (time x) r end.
Lemma stuck delta (s : slider) : (0 <= delta <= 8)%Z -> Duration s = 0%Z -> offset s = 1 -> moveF delta s = Some (set_offset 1 s, true).
Proof.
  intros H D O. unfold moveF. rewrite D, O. cbn [Qeq_bool Z.eqb].
  assert (C : exists m, movementF delta defaultDuration = Some m /\ f32 (1 - m) = Some 1).
  { assert (K : (delta = 0 \/ delta = 1 \/ delta = 2 \/ delta = 3 \/ delta = 4 \/ delta = 5 \/ delta = 6 \/ delta = 7 \/ delta = 8)%Z) by lia.
    repeat match type of K with _ \/ _ => destruct K as [-> | K] | _ => subst delta end;
      match goal with |- exists m, ?e = _ /\ _ => let v := eval vm_compute in e in match v with Some ?q => exists q end end; split; vm_compute; reflexivity. }
  destruct C as (m & C1 & C2). change (Qeq_bool 1 0) with false. cbn [obind]. rewrite C1. cbn [obind]. change (Qle_bool 0 1) with true. cbn [negb]. rewrite C2. reflexivity.
Qed.
Lemma hurried_state fma l : forall t (a b : A), (0 <= t)%Z -> hurried t l ->
  exists t' b', playF fma (mkSlider 0 0 (Some 1%nat) (Some 1%nat) (Some 0%nat) (Some t) 1) [a; b] l =
    Some (mkSlider 0 0 (Some 1%nat) (Some 1%nat) (Some 0%nat) (Some t') 1, [a; b']) /\ t' = last_time t l.
Proof.
  induction l as [|x l' IH]; intros t a b Ht Hu; [exists t, b; auto|]. destruct Hu as (Dx & Tx & Mx & Wx & Hu). cbn [playF]. unfold show1F, LayoutF.
  unfold press. rewrite Dx. cbn [Z.eqb]. unfold start_slide. cbn [push Z.eqb negb]. unfold elapsedF, elapsed. cbn [t0 fst Duration push next nextCall lastCall offset].
  rewrite (stuck (Sub (time x) t)) by (try reflexivity; rewrite Sub_ok; lia). cbn [obind set_offset Duration push next nextCall lastCall t0 record list_set].
  unfold drawF. cbn [offset]. change (Qeq_bool 1 0) with false. change (Qle_bool 1 0) with false. cbn [negb].
  rewrite positionF_pos by (assumption || reflexivity || discriminate). cbn [obind].
  destruct (IH (time x) a (pic x) ltac:(lia) Hu) as (t' & b' & E & Et). exists t', b'. split; [exact E|]. rewrite Et. unfold last_time. cbn [map]. rewrite last_cons_default. reflexivity.
Qed.
Theorem film_stuck fma (y z x : act A) l : dir y = 0%Z -> (dir z = 1)%Z -> (0 <= time y <= time z)%Z -> (time z < 2 ^ 63)%Z ->
  (0 <= width y <= 2 ^ 24)%Z -> (0 <= width z <= 2 ^ 24)%Z -> hurried (time z) (l ++ [x]) ->
  filmF fma 0 ([y; z] ++ l) x = Some (true, [(0%Z, pic y); (width x, pic x)]).
Proof.
  intros Dy Dz Ty Tz Wy Wz Hu. unfold filmF. rewrite playF_app.
  assert (P : playF fma (idle 0) [] [y; z] = Some (mkSlider 0 0 (Some 1%nat) (Some 1%nat) (Some 0%nat) (Some (time z)) 1, [pic y; pic z])).
  { assert (S1 : show1F fma y (idle 0) [] = Some (mkSlider 0 0 (Some 0%nat) (Some 0%nat) None None 0, [pic y], false, [(0%Z, pic y)])).
    { unfold show1F, LayoutF, press. rewrite Dy. reflexivity. }
    cbn [playF]. rewrite S1. cbn [obind]. unfold show1F, LayoutF, press. rewrite Dz. change (1 =? 0)%Z with false. change (1 >? 0)%Z with true. cbv iota.
    unfold start_slide, PushLeft, set_push. cbn [push Z.eqb negb Duration next nextCall lastCall t0 offset]. unfold elapsedF, elapsed. cbn [t0 fst Duration push next nextCall lastCall offset].
    rewrite (stuck (Sub (time z) (time z))) by (try reflexivity; rewrite Sub_ok; lia). cbn [obind set_offset Duration push next nextCall lastCall t0 record length app].
    unfold drawF. cbn [offset]. change (Qeq_bool 1 0) with false. change (Qle_bool 1 0) with false. cbn [negb].
    rewrite positionF_pos by (assumption || reflexivity || discriminate). reflexivity. }
  rewrite P. cbn [obind].
  assert (Hl : hurried (time z) l /\ hurried (last_time (time z) l) [x] /\ (0 <= last_time (time z) l)%Z).
  { clear - Hu Ty. revert Hu Ty. generalize (time z). induction l as [|v l' IH]; intros t Hu Ty; [cbn in *; unfold last_time; cbn; split; [exact I|]; split; [exact Hu|lia]|].
    cbn [app hurried] in Hu. destruct Hu as (A1 & A2 & A3 & A4 & Hu). destruct (IH (time v) Hu ltac:(lia)) as (B1 & B2 & B3).
    unfold last_time in *. cbn [map]. rewrite last_cons_default. cbn [hurried]. auto 10. }
  destruct Hl as (Hl & (Dx & Tx & Mx & Wx & _) & L0).
  destruct (hurried_state fma l (time z) (pic y) (pic z) ltac:(lia) Hl) as (t' & b' & E & Et). rewrite E. cbn [obind]. unfold show1F, LayoutF.
  unfold press. rewrite Dx. cbn [Z.eqb]. unfold start_slide. cbn [push Z.eqb negb]. unfold elapsedF, elapsed. cbn [t0 fst Duration push next nextCall lastCall offset].
  rewrite (stuck (Sub (time x) t')) by (try reflexivity; rewrite Sub_ok; lia). cbn [obind set_offset Duration push next nextCall lastCall t0 record list_set].
  unfold drawF. cbn [offset]. change (Qeq_bool 1 0) with false. change (Qle_bool 1 0) with false. cbn [negb].
  rewrite positionF_pos by (assumption || reflexivity || discriminate). cbn [obind lastCall nextCall add nth_error app]. rewrite shiftF_1. reflexivity.
Qed.
End Fast.

(** ** The four choices of the compiler *)
Section Ext.
Variables f g : nat -> bool.
Hypothesis E : f 0%nat = g 0%nat /\ f 1%nat = g 1%nat /\ f 2%nat = g 2%nat /\ f 3%nat = g 3%nat.
Lemma easeF_ext t : easeF f t = easeF g t.
Proof. destruct E as (E0 & E1 & E2 & _). unfold easeF. rewrite E0, E1, E2. reflexivity. Qed.
Lemma positionF_ext w o k : positionF f w o k = positionF g w o k.
Proof. unfold positionF, smoothF. rewrite !easeF_ext. destruct E as (_ & _ & _ & E3). rewrite E3. reflexivity. Qed.
Context {A : Type}.
Lemma show1F_ext (x : act A) s h : show1F f x s h = show1F g x s h.
Proof.
  unfold show1F, LayoutF. destruct (elapsedF _ _) as [s1 dl]. destruct (moveF dl s1) as [[s2 ag]|]; [|reflexivity]. cbn [obind]. destruct (record (pic x) s2 h) as [s3 h3].
  unfold drawF. rewrite !positionF_ext. reflexivity.
Qed.
Lemma playF_ext l : forall s (h : list A), playF f s h l = playF g s h l.
Proof. induction l as [|x l' IH]; intros s h; [reflexivity|]. cbn [playF]. rewrite show1F_ext. destruct (show1F g x s h) as [[[[s' h'] ag] o]|]; [apply IH|reflexivity]. Qed.
Lemma filmF_ext D (l : list (act A)) x : filmF f D l x = filmF g D l x.
Proof. unfold filmF. rewrite playF_ext. destruct (playF g (idle D) [] l) as [[s h]|]; [|reflexivity]. cbn [obind]. rewrite show1F_ext. reflexivity. Qed.
End Ext.
(** Four booleans as such a choice, examples/ui/one/slider.go:96, 106, 131 *)
Definition choice (a b c d : bool) (n : nat) : bool := match n with O => a | 1%nat => b | 2%nat => c | _ => d end.
Lemma filmF_choice fma {A} D (l : list (act A)) x : filmF fma D l x = filmF (choice (fma 0%nat) (fma 1%nat) (fma 2%nat) (fma 3%nat)) D l x.
Proof. apply filmF_ext. repeat split. Qed.

(** ** The program *)
Section Prog.
Variable fma : nat -> bool.
Variable H : Prims.
Variable T : tables.
Variable wst : wstate.
Lemma frameF_spec now w i p : push (a_slider p) = 0%Z ->
  frameF fma H T wst now w i p =
  let! u1 := handlers H T wst i (a_ui p) in
  let! u' := frame H T wst i (a_ui p) in
  Ret (let? (s, h, again, d) := show1F fma (mkAct (turn i u1) now w (screen u')) (a_slider p) (a_heap p) in Some (mkProg u' s h d again)).
Proof.
  intro P. unfold frameF, frame. destruct (handlers H T wst i (a_ui p)) as [u1|]; [|reflexivity]. cbn [bind].
  rewrite tab_bar_s_spec by exact P. destruct (tab_bar i u1) as [u2|]; [|reflexivity]. cbn [bind].
  destruct (display H T u2) as [c|]; [|reflexivity]. cbn [bind]. unfold show1F. cbn [dir time width pic screen set_screen]. reflexivity.
Qed.
Lemma runF_app p es es' : runF fma H T wst p (es ++ es') =
  let! o := runF fma H T wst p es in match o with Some p => runF fma H T wst p es' | None => Ret None end.
Proof.
  revert p. induction es as [|e es1 IH]; intro p; [reflexivity|]. cbn [app runF]. destruct (stepF fma H T wst p e) as [[q|]|]; cbn [bind]; auto.
Qed.
Lemma run_app u es es' : run H T wst u (es ++ es') = let! u := run H T wst u es in run H T wst u es'.
Proof. revert u. induction es as [|e es1 IH]; intro u; [reflexivity|]. cbn [app run]. destruct (step H T wst u e); cbn [bind]; auto. Qed.
Theorem runF_filmed u0 es : in_order (clock es) -> Forall (fun x => 0 <= width x)%Z (clock es) -> machine (clock es) ->
  match runF fma H T wst (prog0 u0) es with
  | Panic => run H T wst u0 (map (fun e => fst (fst e)) es) = Panic
  | Ret None => False
  | Ret (Some p) => run H T wst u0 (map (fun e => fst (fst e)) es) = Ret (a_ui p) /\
      exists l, filmed H T wst u0 es (a_ui p) l /\ same_clock l (clock es) /\ proper l /\ machine l /\
        playF fma (idle 0) [] l = Some (a_slider p, a_heap p) /\
        (l = [] -> window p = []) /\ (forall l' x, l = l' ++ [x] -> filmF fma 0 l' x = Some (wants p, window p))
  end.
Proof.
  induction es as [|[[e t] w] es IH] using rev_ind; intros Io Wd Ma.
  - cbn. split; [reflexivity|]. exists []. split; [constructor|]. split; [split; reflexivity|]. split; [constructor|]. split; [constructor|]. split; [reflexivity|].
    split; [reflexivity|]. intros l' x K. destruct l'; discriminate.
  - rewrite clock_app in Io, Wd, Ma. apply Forall_app in Wd. destruct Wd as [Wd1 Wd2]. unfold machine in Ma. apply Forall_app in Ma. destruct Ma as [Ma1 Ma2].
    assert (Io1 : in_order (clock es)).
    { destruct (clock [(e, t, w)]) as [|y l'] eqn:E; [rewrite app_nil_r in Io; exact Io|]. apply in_order_app in Io. tauto. }
    specialize (IH Io1 Wd1 Ma1). rewrite runF_app, map_app, run_app. cbn [map fst].
    destruct (runF fma H T wst (prog0 u0) es) as [[p1|]|]; cbn [bind]; [|destruct IH|rewrite IH; reflexivity].
    destruct IH as (R1 & l & F & SC & Pr & Ml & PL & SO1 & SO2). rewrite R1. cbn [bind runF run].
    destruct (playF_spec fma 0 ltac:(lia) l 0 0 None None (idle 0) [] (InvF_idle 0 0 0) (or_introl eq_refl)
      (proj2 (same_clock_in_order _ _ SC) Io1) Pr Ml) as (s0 & h0 & PL' & I0).
    rewrite PL in PL'. injection PL' as <- <-. destruct I0 as (_ & P0 & _).
    rewrite clock_app.
    destruct e as [b|b|b|b|b|b|i].
    1-6: cbn [stepF step bind clock flat_map app]; rewrite app_nil_r; (split; [reflexivity|]);
         exists l; (split; [eapply filmed_edit; eauto; discriminate|]); (split; [exact SC|]); (split; [exact Pr|]); (split; [exact Ml|]); (split; [exact PL|]); (split; [exact SO1|exact SO2]).
    cbn [stepF step]. rewrite frameF_spec by exact P0.
    destruct (handlers H T wst i (a_ui p1)) as [u1|] eqn:Eh.
    2:{ cbn [bind]. unfold frame. rewrite Eh. reflexivity. }
    cbn [bind]. destruct (frame H T wst i (a_ui p1)) as [u'|] eqn:Ef; [|reflexivity]. cbn [bind].
    set (x := mkAct (turn i u1) t w (screen u')) in *. cbn [clock flat_map app] in *.
    assert (SC' : same_clock (l ++ [x]) (clock es ++ [mkAct 0 t w tt])).
    { destruct SC as [S1 S2]. split; rewrite !map_app; cbn; congruence. }
    assert (Pr' : proper (l ++ [x])).
    { apply Forall_app. split; [exact Pr|]. constructor; [|constructor]. split; [apply turn_range|]. inversion Wd2; subst. assumption. }
    assert (Ml' : machine (l ++ [x])).
    { apply Forall_app. split; [exact Ml|]. constructor; [|constructor]. inversion Ma2; subst. assumption. }
    assert (Io' : in_order (l ++ [x])) by (apply (same_clock_in_order _ _ SC'), Io).
    destruct (before fma 0 l x ltac:(lia) Io' Pr' Ml') as (s & h & s' & h' & again & o & P1 & S & _). rewrite PL in P1. injection P1 as <- <-.
    rewrite S. cbn [obind bind a_ui]. split; [reflexivity|]. exists (l ++ [x]).
    split; [eapply filmed_frame; eauto|]. split; [exact SC'|]. split; [exact Pr'|]. split; [exact Ml'|]. cbn [a_slider a_heap window wants]. split.
    + rewrite playF_app, PL. cbn [obind playF]. rewrite S. reflexivity.
    + split; [intros K; destruct l; discriminate|]. intros l' x' K. apply app_inj_tail in K. destruct K as [<- <-].
      unfold filmF. rewrite PL. cbn [obind]. rewrite S. reflexivity.
Qed.
End Prog.

(** ** A slide that never ends *)
(** Frames 8 ns apart, examples/ui/one/slider.go:46-72 *)
Fixpoint ticks (t : Z) (n : nat) : list (act nat) :=
  match n with O => [] | S n => mkAct 0 (t + 8) 100 8%nat :: ticks (t + 8) n end.
Lemma ticks_last n : forall t, ticks t (S n) = ticks t n ++ [mkAct 0 (t + 8 * Z.of_nat (S n)) 100 8%nat].
Proof.
  induction n as [|n IH]; intro t; [cbn; do 3 f_equal; lia|]. change (ticks t (S (S n))) with (mkAct 0 (t + 8) 100 8%nat :: ticks (t + 8) (S n)).
  rewrite IH. cbn [ticks app]. do 4 f_equal. lia.
Qed.
Lemma ticks_ok n : forall t, (0 <= t)%Z -> (t + 8 * Z.of_nat n < 2 ^ 63)%Z ->
  hurried t (ticks t n) /\ sorted t (ticks t n) /\ proper (ticks t n) /\ machine (ticks t n) /\ (forall p c, last_push p c (ticks t n) = c).
Proof.
  induction n as [|n IH]; intros t H0 H1; [cbn; repeat split; constructor|]. destruct (IH (t + 8)%Z ltac:(lia) ltac:(lia)) as (A1 & A2 & A3 & A4 & A5).
  cbn [ticks hurried sorted last_push dir time width pic Z.eqb]. repeat split; try lia; auto; constructor; cbn; auto; lia.
Qed.
Theorem film_endless fma E : (0 <= E < 2 ^ 62)%Z -> exists l x, in_order (l ++ [x]) /\ proper (l ++ [x]) /\ machine (l ++ [x]) /\
  last_push None None (l ++ [x]) = Some (1, 0, Some 7%nat)%Z /\ (E <= time x - 0)%Z /\
  filmF fma 0 l x = Some (true, [(0, 7%nat); (100, 8%nat)])%Z.
Proof.
  intros HE. set (n := Z.to_nat (E / 8)). set (y := mkAct 0 0 100 7%nat). set (z := mkAct 1 0 100 8%nat).
  exists ([y; z] ++ ticks 0 n), (mkAct 0 (0 + 8 * Z.of_nat (S n)) 100 8%nat).
  assert (Nn : (Z.of_nat n = E / 8)%Z) by (unfold n; rewrite Z2Nat.id by (apply Z.div_pos; lia); reflexivity).
  pose proof (Z.mul_div_le E 8 eq_refl). pose proof (Z.mul_succ_div_gt E 8 eq_refl).
  destruct (ticks_ok (S n) 0 ltac:(lia) ltac:(rewrite Nat2Z.inj_succ, Nn; lia)) as (A1 & A2 & A3 & A4 & A5).
  assert (Eq : ([y; z] ++ ticks 0 n) ++ [mkAct 0 (0 + 8 * Z.of_nat (S n)) 100 8%nat] = y :: z :: ticks 0 (S n)) by (rewrite ticks_last, <- app_assoc; reflexivity).
  rewrite Eq. split; [cbn [in_order sorted time y z]; split; [lia|exact A2]|].
  split; [constructor; [cbn; lia|constructor; [cbn; lia|exact A3]]|]. split; [constructor; [cbn; lia|constructor; [cbn; lia|exact A4]]|].
  split; [cbn [last_push dir time pic y z Z.eqb]; apply A5|]. split; [cbn [time]; lia|].
  apply (film_stuck fma y z); cbn [dir time width y z]; try lia. rewrite <- ticks_last. exact A1.
Qed.
