(** PropsFloat.v - the slider with machine arithmetic (C89-C91).
    Every theorem is closed by the lemma of the same name in ClaimsFloat.v; an Example beside it shows that its
    hypotheses can be met. *)
From Verif Require Import Base GoStr Prims Hash Bip39 WordLists WlEnglish AllLists Bip32Path Bip32Reg Bip32 Base58 Util Ui Claims32 ClaimsUtil Claims39 ClaimsUi.
From Coq Require Import QArith Qabs Qminmax Lqa Lia.
From Verif Require Import Slider SpecSlider SliderFacts SpecFloat Float FloatFacts RoundFacts FloatSlider FloatSliderFacts FloatHist ClaimsFloat.

(** C89: the floating-point numbers of the slider: [fround] is rounding to nearest, ties to even, and the easing curve *)

(** computed with them, with every choice of fused multiply-adds. *)

Theorem C89_rounding : forall prec emin q, 2 <= prec -> nearest_even prec emin q (fround prec emin q).
Proof. exact C89_rounding_l. Qed.
Print Assumptions C89_rounding.

Theorem C89_rounding_unique : forall prec emin q y y', 2 <= prec -> nearest_even prec emin q y -> nearest_even prec emin q y' -> (y == y')%Q.
Proof. exact C89_rounding_unique_l. Qed.
Print Assumptions C89_rounding_unique.

Theorem C89_overflow : forall q, (Qabs q <= Qpower 2 127 -> exists y, f32 q = Some y /\ nearest_even 24 (-149) q y)%Q.
Proof. exact C89_overflow_l. Qed.
Print Assumptions C89_overflow.

Theorem C89_smooth : forall fma t, (-1 <= t -> t <= 1 -> exists v, smoothF fma t = Some v /\ -1 <= value v /\ value v <= 1 /\ Qabs (value v - smooth t) <= 16 * ulp)%Q.
Proof. exact C89_smooth_l. Qed.
Print Assumptions C89_smooth.

Theorem C89_monotone : forall fma a b, (-1 <= a -> a <= b -> b <= 1 -> exists va vb, smoothF fma a = Some va /\ smoothF fma b = Some vb /\ value va <= value vb)%Q.
Proof. exact C89_monotone_l. Qed.
Print Assumptions C89_monotone.

Theorem C89_ends : forall fma, (exists v, smoothF fma 0 = Some v /\ value v == 0) /\ (exists v, smoothF fma 1 = Some v /\ value v == 1) /\ (exists v, smoothF fma (-1) = Some v /\ value v == -1).
Proof. exact C89_ends_l. Qed.
Print Assumptions C89_ends.

Theorem C89_odd : forall fma t, (-1 <= t -> t <= 1 -> exists v v', smoothF fma t = Some v /\ smoothF fma (- t) = Some v' /\ value v' == - value v)%Q.
Proof. exact C89_odd_l. Qed.
Print Assumptions C89_odd.

Example C89_ex : (exists q y, nearest_even 24 (-149) q y /\ ~ y == q)%Q /\ exists v, smoothF (fun _ => false) (1 # 10) = Some v /\ ~ (value v == smooth (1 # 10))%Q.
Proof. exact C89_ex_l. Qed.

(** C90: the slider with machine arithmetic, over every history of frames. [frames_since] counts the frames since the last *)

(** push; D is below 2^63 ns, times fit into int64, widths are at most 2^24. *)

Theorem C90_positions : forall fma (A : Type) D (l : list (act A)) x, 0 <= D < 2 ^ 63 -> in_order (l ++ [x]) -> proper (l ++ [x]) -> machine (l ++ [x]) ->
  exists again drawn, filmF fma D l x = Some (again, drawn) /\
  match last_push None None (l ++ [x]) with
  | None => at_rest x drawn /\ again = false
  | Some (d, t, old) =>
      let q := part (effective D) (time x - t) in let n := inject_Z (frames_since 0 (l ++ [x])) in
      (at_rest x drawn /\ 1 <= (1 + 10 * ulp) * q + n * ulp)%Q \/
      (exists shift, sliding d old x shift drawn /\ again = true /\ ((1 - 10 * ulp) * q < 1 + n * ulp)%Q /\
         (inject_Z shift <= inject_Z (width x) * (eased (Qmin 1 q) + (49 + 3 * n) * ulp))%Q /\
         (inject_Z (width x) * (eased (Qmin 1 q) - (49 + 3 * n) * ulp) < inject_Z shift + 1)%Q)
  end.
Proof. exact C90_positions_l. Qed.
Print Assumptions C90_positions.

Theorem C90_one_pixel : forall fma (A : Type) D (l : list (act A)) x, 0 <= D < 2 ^ 63 -> in_order (l ++ [x]) -> proper (l ++ [x]) -> machine (l ++ [x]) ->
  width x * (49 + 3 * frames_since 0 (l ++ [x])) <= 2 ^ 25 ->
  exists again drawn, filmF fma D l x = Some (again, drawn) /\
  match last_push None None (l ++ [x]) with
  | None => at_rest x drawn
  | Some (d, t, old) => at_rest x drawn \/
      exists shift, sliding d old x shift drawn /\ Z.abs (shift - pixels (eased (Qmin 1 (part (effective D) (time x - t)))) (width x)) <= 1
  end.
Proof. exact C90_one_pixel_l. Qed.
Print Assumptions C90_one_pixel.

Theorem C90_push : forall fma (A : Type) D (l : list (act A)) x, 0 <= D < 2 ^ 63 -> in_order (l ++ [x]) -> proper (l ++ [x]) -> machine (l ++ [x]) -> dir x <> 0 ->
  filmF fma D l x = Some (true, beside (dir x) 0 (width x) (last (map (fun y => Some (pic y)) l) None) (pic x)).
Proof. exact C90_push_l. Qed.
Print Assumptions C90_push.

Theorem C90_forward : forall fma (A : Type) D (l : list (act A)) x y, 0 <= D < 2 ^ 63 -> in_order (l ++ [x; y]) -> proper (l ++ [x; y]) -> machine (l ++ [x; y]) ->
  dir y = 0 -> width y = width x ->
  exists ax dx ay dy, filmF fma D l x = Some (ax, dx) /\ filmF fma D (l ++ [x]) y = Some (ay, dy) /\
  (at_rest y dy \/ exists d old sx sy, sx <= sy /\ sliding d old x sx dx /\ sliding d old y sy dy).
Proof. exact C90_forward_l. Qed.
Print Assumptions C90_forward.

Theorem C90_rest : forall fma (A : Type) D (l : list (act A)) x, 0 <= D < 2 ^ 63 -> in_order (l ++ [x]) -> proper (l ++ [x]) -> machine (l ++ [x]) ->
  (forall d t old, last_push None None (l ++ [x]) = Some (d, t, old) ->
     1 + inject_Z (frames_since 0 (l ++ [x])) * ulp <= (1 - 10 * ulp) * part (effective D) (time x - t))%Q ->
  exists again, filmF fma D l x = Some (again, [(0, pic x)]).
Proof. exact C90_rest_l. Qed.
Print Assumptions C90_rest.

Theorem C90_quiet : forall fma (A : Type) D (l : list (act A)) x y, 0 <= D < 2 ^ 63 -> in_order (l ++ [x; y]) -> proper (l ++ [x; y]) -> machine (l ++ [x; y]) -> dir y = 0 ->
  (forall d t old, last_push None None (l ++ [x]) = Some (d, t, old) ->
     1 + inject_Z (frames_since 0 (l ++ [x])) * ulp <= (1 - 10 * ulp) * part (effective D) (time x - t))%Q ->
  filmF fma D (l ++ [x]) y = Some (false, [(0, pic y)]).
Proof. exact C90_quiet_l. Qed.
Print Assumptions C90_quiet.

(** With exact arithmetic a slide is over when D has passed (C73_rest). Three frames of 100 ms do not add up to 300 ms. *)

Theorem C90_on_time_refuted : forall fma, exists (l : list (act nat)) x d t old, in_order (l ++ [x]) /\ proper (l ++ [x]) /\ machine (l ++ [x]) /\
  last_push None None (l ++ [x]) = Some (d, t, old) /\ time x - t = effective 0 /\
  filmF fma 0 l x = Some (true, [(-100, 7%nat); (0, 8%nat)]).
Proof. exact C90_on_time_refuted_l. Qed.
Print Assumptions C90_on_time_refuted.

(** Nor does a slide end at all if the frames come 8 ns apart: no time E is long enough. *)

Theorem C90_ends_refuted : forall fma E, 0 <= E < 2 ^ 62 -> exists (l : list (act nat)) x, in_order (l ++ [x]) /\ proper (l ++ [x]) /\ machine (l ++ [x]) /\
  last_push None None (l ++ [x]) = Some (1, 0, Some 7%nat) /\ E <= time x - 0 /\
  filmF fma 0 l x = Some (true, [(0, 7%nat); (100, 8%nat)]).
Proof. exact C90_ends_refuted_l. Qed.
Print Assumptions C90_ends_refuted.

Example C90_ex : (exists (l : list (act nat)) x, in_order (l ++ [x]) /\ proper (l ++ [x]) /\ machine (l ++ [x]) /\ frames_since 0 (l ++ [x]) = 1 /\
   width x * (49 + 3 * frames_since 0 (l ++ [x])) <= 2 ^ 25 /\ filmF (fun _ => true) 0 l x = Some (true, [(-50, 7%nat); (50, 8%nat)])) /\
exists (l : list (act nat)) x y, in_order (l ++ [x; y]) /\ proper (l ++ [x; y]) /\ machine (l ++ [x; y]) /\ dir y = 0 /\ width y = width x /\
  last_push None None (l ++ [x]) = Some (-1, 1000000000, Some 7%nat) /\
  (forall d t old, last_push None None (l ++ [x]) = Some (d, t, old) ->
     1 + inject_Z (frames_since 0 (l ++ [x])) * ulp <= (1 - 10 * ulp) * part (effective 0) (time x - t))%Q.
Proof. exact C90_ex_l. Qed.

(** C91: sessions of the example program with machine arithmetic in the slider. *)

Theorem C91_session : forall fma H T wst u es, in_order (clock es) -> Forall (fun x => 0 <= width x) (clock es) -> machine (clock es) ->
  match runF fma H T wst (prog0 u) es with
  | Panic => run H T wst u (map (fun e => fst (fst e)) es) = Panic
  | Ret None => False
  | Ret (Some p) => run H T wst u (map (fun e => fst (fst e)) es) = Ret (a_ui p) /\
      exists l, filmed H T wst u es (a_ui p) l /\ in_order l /\ proper l /\ machine l /\
        (l = [] -> window p = []) /\ (forall l' x, l = l' ++ [x] -> filmF fma 0 l' x = Some (wants p, window p))
  end.
Proof. exact C91_session_l. Qed.
Print Assumptions C91_session.

(** What the program's window shows with machine arithmetic is one pixel off at most, or at rest. *)

Theorem C91_window : forall fma H T wst u es p, in_order (clock es) -> Forall (fun x => 0 <= width x) (clock es) -> machine (clock es) -> runF fma H T wst (prog0 u) es = Ret (Some p) ->
  exists l, filmed H T wst u es (a_ui p) l /\
    forall l' x, l = l' ++ [x] -> width x * (49 + 3 * frames_since 0 l) <= 2 ^ 25 ->
      match last_push None None l with
      | None => at_rest x (window p)
      | Some (d, t, old) => at_rest x (window p) \/
          exists shift, sliding d old x shift (window p) /\ Z.abs (shift - pixels (eased (Qmin 1 (part (300 * 1000000) (time x - t)))) (width x)) <= 1
      end.
Proof. exact C91_window_l. Qed.
Print Assumptions C91_window.

Example C91_ex : exists es p, length (clock es) = 2%nat /\ in_order (clock es) /\ Forall (fun x => 0 <= width x) (clock es) /\ machine (clock es) /\
  runF (fun _ => true) RealPrims T0 (SetWordList english) (prog0 ui0) es = Ret (Some p) /\ tabs (a_ui p) <> [].
Proof. exact C91_ex_l. Qed.
