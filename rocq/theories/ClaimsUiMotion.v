(** ClaimsUiMotion.v - the property statements of PropsUiMotion.v with their proofs. *)
From Verif Require Import Base BaseFacts GoStr Prims Hash HashFacts Bip39 SpecBip39 WordLists WlEnglish AllLists Bip32Reg Bip32 Util GoRand SpecRand GoWhole GoWholeFacts SpecUi Ui UiFacts UiWhole SpecUiWhole UiWholeFacts Slider SpecSlider Float SpecFloat FloatSlider UiMotion SpecUiMotion UiMotionFacts SliderFacts FloatFacts RoundFacts FloatSliderFacts FloatHist ClaimsFloat ClaimsUiWhole.
From Coq Require Import Lia QArith Qabs Qminmax. Open Scope Z_scope.
From Coq Require Import ZifyBool ZifyNat ZifyN.

Lemma C107_run_l : forall fma E T wl es r, env_ok E -> after_init T -> good_list wl -> text_words wl -> short_words wl -> Forall g_ok (untimed es) ->
  gRunF fma E T (SetWordList wl) (prog0 ui0) es = Some r -> exists es', Forall2 same_timed es es' /\ r = runF fma RealPrims T (SetWordList wl) (prog0 ui0) es'.
Proof.
intros fma E T wl es r EO HT HG HW SW F G. destruct (runF_eq fma E T wl EO HT HG HW SW es (prog0 ui0) r (ok0 T wl) F G) as (es' & S & Q & _). exists es'. split; [exact S|exact Q].
Qed.

Lemma C107_run_sat_l : Forall g_ok (untimed [(GEdit FRadio (B "24"), 0, 0); (GFrame (mkGFrame (mkFrame false [] false false []) 0 some_source), 1000, 100)]) /\
(forall E T, exists p, gRunF (fun _ => true) E T (SetWordList english) (prog0 ui0) [(GEdit FRadio (B "24"), 0, 0); (GFrame (mkGFrame (mkFrame false [] false false []) 0 some_source), 1000, 100)] = Some (Ret (Some p)) /\
  a_ui p = edit FRadio (B "24") ui0 /\ window p = [(0, None)] /\ wants p = false).
Proof.
split; [apply Forall_cons; [vm_compute; reflexivity|]; apply Forall_cons; [discriminate|apply Forall_nil]|]. intros E T. generalize (SetWordList english). intros w. eexists. split; [reflexivity|]. repeat split.
Qed.

Lemma C107_window_l : forall fma E T wl es p, env_ok E -> after_init T -> good_list wl -> text_words wl -> short_words wl -> Forall g_ok (untimed es) ->
  in_order (g_clock es) -> Forall (fun x => 0 <= width x) (g_clock es) -> machine (g_clock es) ->
  gRunF fma E T (SetWordList wl) (prog0 ui0) es = Some (Ret (Some p)) ->
  gRun E T (SetWordList wl) ui0 (untimed es) = Some (Ret (a_ui p)) /\
  exists es' l, Forall2 same_timed es es' /\ filmed RealPrims T (SetWordList wl) ui0 es' (a_ui p) l /\ (l = [] -> window p = []) /\
    forall l' x, l = l' ++ [x] -> pic x = screen (a_ui p) /\ (width x * (49 + 3 * frames_since 0 l) <= 2 ^ 25 ->
      match last_push None None l with
      | None => at_rest x (window p)
      | Some (d, t, old) => at_rest x (window p) \/
          exists shift, sliding d old x shift (window p) /\ Z.abs (shift - pixels (eased (Qmin 1 (part (300 * 1000000) (time x - t)))) (width x)) <= 1
      end).
Proof.
intros fma E T wl es p EO HT HG HW SW F Io Wi M G. destruct (runF_eq fma E T wl EO HT HG HW SW es (prog0 ui0) _ (ok0 T wl) F G) as (es' & S & Q & _ & WA). split; [exact WA|].
rewrite <- (clock_same _ _ S) in Io, Wi, M. symmetry in Q. pose proof (runF_filmed fma RealPrims T (SetWordList wl) ui0 es' Io Wi M) as K. rewrite Q in K.
destruct K as (_ & l & FL & SC & Pr & Ml & _ & S1 & S2). exists es', l. split; [exact S|]. split; [exact FL|]. split; [exact S1|]. intros l' x E'. split; [exact (filmed_last _ _ _ _ _ _ _ FL l' x E')|]. intros Wx. specialize (S2 l' x E'). rewrite E' in *.
destruct (film_one_pixel fma 0 l' x ltac:(lia) (proj2 (same_clock_in_order _ _ SC) Io) Pr Ml Wx) as (ag & dr & E2 & C). rewrite S2 in E2. injection E2 as _ E2. rewrite E2. exact C.
Qed.

Lemma C107_window_sat_l : let es := [(GEdit FRadio (B "24"), 0, 0); (GFrame (mkGFrame (mkFrame false [] false false []) 0 some_source), 1000, 100)] in
Forall g_ok (untimed es) /\ in_order (g_clock es) /\ Forall (fun x => 0 <= width x) (g_clock es) /\ machine (g_clock es) /\ (forall E T, exists p, gRunF (fun _ => true) E T (SetWordList english) (prog0 ui0) es = Some (Ret (Some p)) /\ window p = [(0, None)]).
Proof.
cbv zeta. split; [apply Forall_cons; [vm_compute; reflexivity|]; apply Forall_cons; [discriminate|apply Forall_nil]|]. split; [exact I|]. split; [repeat constructor; cbn; lia|]. split; [repeat constructor; cbn; lia|]. intros E T. generalize (SetWordList english). intros w. eexists. split; reflexivity.
Qed.

Lemma C107_ends_l : forall fma E T wl es, env_ok E -> after_init T -> good_list wl -> text_words wl -> short_words wl -> Forall g_ok (untimed es) -> Forall g_ends (untimed es) ->
  in_order (g_clock es) -> Forall (fun x => 0 <= width x) (g_clock es) -> machine (g_clock es) ->
  (exists p, gRunF fma E T (SetWordList wl) (prog0 ui0) es = Some (Ret (Some p))) \/
  (gRunF fma E T (SetWordList wl) (prog0 ui0) es = Some Panic /\ exists s, bad_seed RealPrims s).
Proof.
intros fma E T wl es EO HT HG HW SW F N Io Wi M. destruct (runF_ends fma E T wl EO HT HG HW SW es (prog0 ui0) (ok0 T wl) F N) as (r & G).
destruct (runF_eq fma E T wl EO HT HG HW SW es (prog0 ui0) _ (ok0 T wl) F G) as (es' & S & Q & _ & WA). rewrite <- (clock_same _ _ S) in Io, Wi, M. pose proof (C91_session_l fma RealPrims T (SetWordList wl) ui0 es' Io Wi M) as K.
rewrite <- Q in K. destruct r as [[p|]|].
- left. exists p. exact G.
- destruct K.
- right. split; [exact G|]. destruct (C105_ends_l E T wl (untimed es) EO HT HG HW SW F N) as (r & Gr & Pr). apply Pr. cbn [wallet] in WA. change (a_ui (prog0 ui0)) with ui0 in WA. congruence.
Qed.

Lemma C107_ends_sat_l : let es := [(GFrame (mkGFrame (mkFrame true [] false false []) 32 some_source), 1000, 100)] in
Forall g_ok (untimed es) /\ Forall g_ends (untimed es) /\ in_order (g_clock es) /\ Forall (fun x => 0 <= width x) (g_clock es) /\ machine (g_clock es).
Proof.
destruct C105_ends_sat_l as [A1 A2]. split; [exact A1|]. split; [exact A2|]. split; [exact I|]. split; repeat constructor; cbn; lia.
Qed.
