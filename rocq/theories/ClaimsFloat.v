(** ClaimsFloat.v - the property statements of PropsFloat.v with their proofs. *)
From Verif Require Import Base GoStr Prims Hash Bip39 WordLists WlEnglish AllLists Bip32Path Bip32Reg Bip32 Base58 Util Ui Claims32 ClaimsUtil Claims39 ClaimsUi.
From Coq Require Import QArith Qabs Qminmax Lqa Lia.
From Verif Require Import Slider SpecSlider SliderFacts SpecFloat Float FloatFacts RoundFacts FloatSlider FloatSliderFacts FloatHist.
Open Scope Z_scope.
From Coq Require Import ZifyBool ZifyNat ZifyN.

Lemma C89_rounding_l : forall prec emin q, 2 <= prec -> nearest_even prec emin q (fround prec emin q).
Proof.
intros prec emin q H. apply fround_nearest, H.
Qed.

Lemma C89_rounding_unique_l : forall prec emin q y y', 2 <= prec -> nearest_even prec emin q y -> nearest_even prec emin q y' -> (y == y')%Q.
Proof.
intros prec emin q y y' H. apply nearest_unique, H.
Qed.

Lemma C89_overflow_l : forall q, (Qabs q <= Qpower 2 127 -> exists y, f32 q = Some y /\ nearest_even 24 (-149) q y)%Q.
Proof.
intros q H. exists (r q). split; [apply f32_some, H|]. apply fround_nearest. lia.
Qed.

Lemma C89_smooth_l : forall fma t, (-1 <= t -> t <= 1 -> exists v, smoothF fma t = Some v /\ -1 <= value v /\ value v <= 1 /\ Qabs (value v - smooth t) <= 16 * ulp)%Q.
Proof.
intros fma t A B. destruct (Qlt_le_dec t 0) as [L|L].
- eexists. split; [apply smoothF_neg; assumption|]. cbn [value].
  destruct (ease_range fma (- t) ltac:(lra) ltac:(lra)) as (R1 & R2 & _). destruct (ease_err fma (- t) ltac:(lra) ltac:(lra)) as (E1 & E2 & _).
  split; [lra|]. split; [lra|]. rewrite smooth_neg by exact L. apply Qabs_Qle_condition. rewrite ulp_u. lra.
- eexists. split; [apply smoothF_pos; assumption|]. cbn [value].
  destruct (ease_range fma t L B) as (R1 & R2 & _). destruct (ease_err fma t L B) as (E1 & E2 & _).
  split; [lra|]. split; [lra|]. rewrite smooth_pos by exact L. apply Qabs_Qle_condition. rewrite ulp_u. lra.
Qed.

Lemma C89_monotone_l : forall fma a b, (-1 <= a -> a <= b -> b <= 1 -> exists va vb, smoothF fma a = Some va /\ smoothF fma b = Some vb /\ value va <= value vb)%Q.
Proof.
intros fma a b A L B. destruct (Qlt_le_dec a 0) as [La|La], (Qlt_le_dec b 0) as [Lb|Lb].
- eexists; eexists. split; [apply smoothF_neg; lra|]. split; [apply smoothF_neg; lra|]. cbn [value]. destruct (ease_mono fma (- b) (- a) ltac:(lra) ltac:(lra) ltac:(lra)). lra.
- eexists; eexists. split; [apply smoothF_neg; lra|]. split; [apply smoothF_pos; lra|]. cbn [value].
  destruct (ease_range fma (- a) ltac:(lra) ltac:(lra)) as (R1 & R2 & _). destruct (ease_range fma b ltac:(lra) ltac:(lra)) as (R3 & R4 & _). lra.
- lra.
- eexists; eexists. split; [apply smoothF_pos; lra|]. split; [apply smoothF_pos; lra|]. cbn [value]. destruct (ease_mono fma a b ltac:(lra) ltac:(lra) ltac:(lra)). lra.
Qed.

Lemma C89_ends_l : forall fma, (exists v, smoothF fma 0 = Some v /\ value v == 0) /\ (exists v, smoothF fma 1 = Some v /\ value v == 1) /\ (exists v, smoothF fma (-1) = Some v /\ value v == -1).
Proof.
intros fma. split; [|split].
- eexists. split; [apply smoothF_pos; discriminate|]. cbn [value]. vm_compute. reflexivity.
- eexists. split; [apply smoothF_pos; discriminate|]. cbn [value]. unfold ease_v. cbn [Qle_bool]. unfold high_v, high_p, high_b. destruct (fma 0%nat), (fma 1%nat), (fma 2%nat); vm_compute; reflexivity.
- eexists. split; [apply smoothF_neg; [reflexivity|discriminate]|]. cbn [value]. unfold ease_v, high_v, high_p, high_b. destruct (fma 0%nat), (fma 1%nat), (fma 2%nat); vm_compute; reflexivity.
Qed.

Lemma C89_odd_l : forall fma t, (-1 <= t -> t <= 1 -> exists v v', smoothF fma t = Some v /\ smoothF fma (- t) = Some v' /\ value v' == - value v)%Q.
Proof.
intros fma t A B. assert (O : forall q : Q, (- - q)%Q = q) by (intros [a b]; unfold Qopp; cbn; rewrite Z.opp_involutive; reflexivity).
destruct (Qlt_le_dec t 0) as [L|L].
- eexists; eexists. split; [apply smoothF_neg; lra|]. split; [apply smoothF_pos; lra|]. cbn [value]. ring.
- destruct (Qlt_le_dec 0 t) as [L'|L'].
  + eexists; eexists. split; [apply smoothF_pos; lra|]. split; [apply smoothF_neg; lra|]. cbn [value]. rewrite O. ring.
  + eexists; eexists. split; [apply smoothF_pos; lra|]. split; [apply smoothF_pos; lra|]. cbn [value].
    assert (Z : forall q, (q == 0 -> ease_v fma q == 0)%Q).
    { intros q E. destruct (ease_range fma q ltac:(lra) ltac:(lra)) as (R1 & R2 & _). destruct (ease_mono fma q 0 ltac:(lra) ltac:(lra) ltac:(discriminate)) as [M _].
      assert (Z0 : (ease_v fma 0 == 0)%Q) by (vm_compute; reflexivity). lra. }
    rewrite (Z t), (Z (- t)%Q) by lra. reflexivity.
Qed.

Lemma C89_ex_l : (exists q y, nearest_even 24 (-149) q y /\ ~ y == q)%Q /\ exists v, smoothF (fun _ => false) (1 # 10) = Some v /\ ~ (value v == smooth (1 # 10))%Q.
Proof.
split.
- exists (1 # 3)%Q, (fround 24 (-149) (1 # 3)). split; [apply fround_nearest; lia|]. vm_compute. discriminate.
- eexists. split; [vm_compute; reflexivity|]. vm_compute. discriminate.
Qed.

Lemma C90_positions_l : forall fma (A : Type) D (l : list (act A)) x, 0 <= D < 2 ^ 63 -> in_order (l ++ [x]) -> proper (l ++ [x]) -> machine (l ++ [x]) ->
  exists again drawn, filmF fma D l x = Some (again, drawn) /\
  match last_push None None (l ++ [x]) with
  | None => at_rest x drawn /\ again = false
  | Some (d, t, old) =>
      let q := part (effective D) (time x - t) in let n := inject_Z (frames_since 0 (l ++ [x])) in
      (at_rest x drawn /\ 1 <= (1 + 10 * ulp) * q + n * ulp)%Q \/
      (exists shift, sliding d old x shift drawn /\ again = true /\ ((1 - 10 * ulp) * q < 1 + n * ulp)%Q /\
         (inject_Z shift <= inject_Z (width x) * (eased (Qmin 1 q) + (49 + 3 * n) * ulp))%Q /\
         (inject_Z (width x) * (eased (Qmin 1 q) - (49 + 3 * n) * ulp) < inject_Z shift + 1)%Q)
  end.
Proof.
intros fma A. exact (film_positions fma).
Qed.

Lemma C90_one_pixel_l : forall fma (A : Type) D (l : list (act A)) x, 0 <= D < 2 ^ 63 -> in_order (l ++ [x]) -> proper (l ++ [x]) -> machine (l ++ [x]) ->
  width x * (49 + 3 * frames_since 0 (l ++ [x])) <= 2 ^ 25 ->
  exists again drawn, filmF fma D l x = Some (again, drawn) /\
  match last_push None None (l ++ [x]) with
  | None => at_rest x drawn
  | Some (d, t, old) => at_rest x drawn \/
      exists shift, sliding d old x shift drawn /\ Z.abs (shift - pixels (eased (Qmin 1 (part (effective D) (time x - t)))) (width x)) <= 1
  end.
Proof.
intros fma A. exact (film_one_pixel fma).
Qed.

Lemma C90_push_l : forall fma (A : Type) D (l : list (act A)) x, 0 <= D < 2 ^ 63 -> in_order (l ++ [x]) -> proper (l ++ [x]) -> machine (l ++ [x]) -> dir x <> 0 ->
  filmF fma D l x = Some (true, beside (dir x) 0 (width x) (last (map (fun y => Some (pic y)) l) None) (pic x)).
Proof.
intros fma A. exact (filmF_push fma).
Qed.

Lemma C90_forward_l : forall fma (A : Type) D (l : list (act A)) x y, 0 <= D < 2 ^ 63 -> in_order (l ++ [x; y]) -> proper (l ++ [x; y]) -> machine (l ++ [x; y]) ->
  dir y = 0 -> width y = width x ->
  exists ax dx ay dy, filmF fma D l x = Some (ax, dx) /\ filmF fma D (l ++ [x]) y = Some (ay, dy) /\
  (at_rest y dy \/ exists d old sx sy, sx <= sy /\ sliding d old x sx dx /\ sliding d old y sy dy).
Proof.
intros fma A. exact (filmF_forward fma).
Qed.

Lemma C90_rest_l : forall fma (A : Type) D (l : list (act A)) x, 0 <= D < 2 ^ 63 -> in_order (l ++ [x]) -> proper (l ++ [x]) -> machine (l ++ [x]) ->
  (forall d t old, last_push None None (l ++ [x]) = Some (d, t, old) ->
     1 + inject_Z (frames_since 0 (l ++ [x])) * ulp <= (1 - 10 * ulp) * part (effective D) (time x - t))%Q ->
  exists again, filmF fma D l x = Some (again, [(0, pic x)]).
Proof.
intros fma A. exact (film_rest fma).
Qed.

Lemma C90_quiet_l : forall fma (A : Type) D (l : list (act A)) x y, 0 <= D < 2 ^ 63 -> in_order (l ++ [x; y]) -> proper (l ++ [x; y]) -> machine (l ++ [x; y]) -> dir y = 0 ->
  (forall d t old, last_push None None (l ++ [x]) = Some (d, t, old) ->
     1 + inject_Z (frames_since 0 (l ++ [x])) * ulp <= (1 - 10 * ulp) * part (effective D) (time x - t))%Q ->
  filmF fma D (l ++ [x]) y = Some (false, [(0, pic y)]).
Proof.
intros fma A. exact (film_quiet fma).
Qed.

Lemma C90_on_time_refuted_l : forall fma, exists (l : list (act nat)) x d t old, in_order (l ++ [x]) /\ proper (l ++ [x]) /\ machine (l ++ [x]) /\
  last_push None None (l ++ [x]) = Some (d, t, old) /\ time x - t = effective 0 /\
  filmF fma 0 l x = Some (true, [(-100, 7%nat); (0, 8%nat)]).
Proof.
intros fma. exists [mkAct 0 0 100 7%nat; mkAct 1 1000000000 100 8%nat; mkAct 0 1100000000 100 8%nat; mkAct 0 1200000000 100 8%nat], (mkAct 0 1300000000 100 8%nat), 1, 1000000000, (Some 7%nat).
split; [cbn; lia|]. split; [repeat constructor; cbn; lia|]. split; [repeat constructor; cbn; lia|]. split; [reflexivity|]. split; [reflexivity|].
rewrite filmF_choice. destruct (fma 0%nat), (fma 1%nat), (fma 2%nat), (fma 3%nat); vm_compute; reflexivity.
Qed.

Lemma C90_ends_refuted_l : forall fma E, 0 <= E < 2 ^ 62 -> exists (l : list (act nat)) x, in_order (l ++ [x]) /\ proper (l ++ [x]) /\ machine (l ++ [x]) /\
  last_push None None (l ++ [x]) = Some (1, 0, Some 7%nat) /\ E <= time x - 0 /\
  filmF fma 0 l x = Some (true, [(0, 7%nat); (100, 8%nat)]).
Proof.
exact film_endless.
Qed.

Lemma C90_ex_l : (exists (l : list (act nat)) x, in_order (l ++ [x]) /\ proper (l ++ [x]) /\ machine (l ++ [x]) /\ frames_since 0 (l ++ [x]) = 1 /\
   width x * (49 + 3 * frames_since 0 (l ++ [x])) <= 2 ^ 25 /\ filmF (fun _ => true) 0 l x = Some (true, [(-50, 7%nat); (50, 8%nat)])) /\
exists (l : list (act nat)) x y, in_order (l ++ [x; y]) /\ proper (l ++ [x; y]) /\ machine (l ++ [x; y]) /\ dir y = 0 /\ width y = width x /\
  last_push None None (l ++ [x]) = Some (-1, 1000000000, Some 7%nat) /\
  (forall d t old, last_push None None (l ++ [x]) = Some (d, t, old) ->
     1 + inject_Z (frames_since 0 (l ++ [x])) * ulp <= (1 - 10 * ulp) * part (effective 0) (time x - t))%Q.
Proof.
split.
- exists [mkAct 0 0 100 7%nat; mkAct 1 1000000000 100 8%nat], (mkAct 0 1150000000 100 8%nat).
  split; [cbn; lia|]. split; [repeat constructor; cbn; lia|]. split; [repeat constructor; cbn; lia|]. split; [reflexivity|]. split; [cbn; lia|]. vm_compute. reflexivity.
- exists [mkAct 0 0 100 7%nat; mkAct (-1) 1000000000 100 8%nat], (mkAct 0 1300001000 100 8%nat), (mkAct 0 1400000000 100 9%nat).
  split; [cbn; lia|]. split; [repeat constructor; cbn; lia|]. split; [repeat constructor; cbn; lia|]. split; [reflexivity|]. split; [reflexivity|]. split; [reflexivity|].
  intros d t old E. injection E as <- <- <-. vm_compute. discriminate.
Qed.

Lemma C91_session_l : forall fma H T wst u es, in_order (clock es) -> Forall (fun x => 0 <= width x) (clock es) -> machine (clock es) ->
  match runF fma H T wst (prog0 u) es with
  | Panic => run H T wst u (map (fun e => fst (fst e)) es) = Panic
  | Ret None => False
  | Ret (Some p) => run H T wst u (map (fun e => fst (fst e)) es) = Ret (a_ui p) /\
      exists l, filmed H T wst u es (a_ui p) l /\ in_order l /\ proper l /\ machine l /\
        (l = [] -> window p = []) /\ (forall l' x, l = l' ++ [x] -> filmF fma 0 l' x = Some (wants p, window p))
  end.
Proof.
intros fma H T wst u es Io W M. pose proof (runF_filmed fma H T wst u es Io W M) as K. destruct (runF fma H T wst (prog0 u) es) as [[p|]|]; auto.
destruct K as (R & l & F & SC & Pr & Ml & _ & S1 & S2). split; [exact R|]. exists l. split; [exact F|]. split; [apply (same_clock_in_order _ _ SC), Io|]. auto.
Qed.

Lemma C91_window_l : forall fma H T wst u es p, in_order (clock es) -> Forall (fun x => 0 <= width x) (clock es) -> machine (clock es) -> runF fma H T wst (prog0 u) es = Ret (Some p) ->
  exists l, filmed H T wst u es (a_ui p) l /\
    forall l' x, l = l' ++ [x] -> width x * (49 + 3 * frames_since 0 l) <= 2 ^ 25 ->
      match last_push None None l with
      | None => at_rest x (window p)
      | Some (d, t, old) => at_rest x (window p) \/
          exists shift, sliding d old x shift (window p) /\ Z.abs (shift - pixels (eased (Qmin 1 (part (300 * 1000000) (time x - t)))) (width x)) <= 1
      end.
Proof.
intros fma H T wst u es p Io W M R. pose proof (runF_filmed fma H T wst u es Io W M) as K. rewrite R in K.
destruct K as (_ & l & F & SC & Pr & Ml & _ & _ & S2). exists l. split; [exact F|]. intros l' x E Wx. specialize (S2 l' x E). rewrite E in *.
destruct (film_one_pixel fma 0 l' x ltac:(lia) (proj2 (same_clock_in_order _ _ SC) Io) Pr Ml Wx) as (ag & dr & E' & C). rewrite S2 in E'. injection E' as _ E'. rewrite E'. exact C.
Qed.

Lemma C91_ex_l : exists es p, length (clock es) = 2%nat /\ in_order (clock es) /\ Forall (fun x => 0 <= width x) (clock es) /\ machine (clock es) /\
  runF (fun _ => true) RealPrims T0 (SetWordList english) (prog0 ui0) es = Ret (Some p) /\ tabs (a_ui p) <> [].
Proof.
destruct C57_ex_l as (_ & u & R & _ & Tn).
set (es := [(EditMnemonic (B "abandon"), 0, 0); (Frame quiet_frame, 1000, 100); (EditRoot (B58Serialize RealPrims k1), 0, 0); (Frame quiet_frame, 2000, 100)]).
assert (A1 : in_order (clock es)) by (cbn; lia). assert (A2 : Forall (fun x => 0 <= width x) (clock es)) by (repeat constructor; cbn; lia).
assert (A3 : machine (clock es)) by (repeat constructor; cbn; lia).
pose proof (runF_filmed (fun _ => true) RealPrims T0 (SetWordList english) ui0 es A1 A2 A3) as K.
change (map (fun e => fst (fst e)) es) with [EditMnemonic (B "abandon"); Frame quiet_frame; EditRoot (B58Serialize RealPrims k1); Frame quiet_frame] in K. cbn [app] in R.
rewrite R in K. destruct (runF (fun _ => true) RealPrims T0 (SetWordList english) (prog0 ui0) es) as [[p|]|] eqn:Rs; [|destruct K|discriminate].
destruct K as [K _]. injection K as K. exists es, p. split; [reflexivity|]. split; [exact A1|]. split; [exact A2|]. split; [exact A3|]. split; [exact Rs|]. rewrite <- K. exact Tn.
Qed.
