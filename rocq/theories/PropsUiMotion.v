(** PropsUiMotion.v - the example program with its moving pages on the libraries as written (C107).
    Every theorem is closed by the lemma of the same name in ClaimsUiMotion.v; an Example beside it shows that its
    hypotheses can be met. *)
From Verif Require Import Base BaseFacts GoStr Prims Hash HashFacts Bip39 SpecBip39 WordLists WlEnglish AllLists Bip32Reg Bip32 Util GoRand SpecRand GoWhole GoWholeFacts SpecUi Ui UiFacts UiWhole SpecUiWhole UiWholeFacts Slider SpecSlider Float SpecFloat FloatSlider UiMotion SpecUiMotion UiMotionFacts.
From Coq Require Import QArith Qminmax. Open Scope Z_scope.
From Verif Require Import ClaimsUiWhole ClaimsUiMotion.

(** C107: the example program with its moving pages, on the libraries as written. *)

Theorem C107_run : forall fma E T wl es r, env_ok E -> after_init T -> good_list wl -> text_words wl -> short_words wl -> Forall g_ok (untimed es) ->
  gRunF fma E T (SetWordList wl) (prog0 ui0) es = Some r -> exists es', Forall2 same_timed es es' /\ r = runF fma RealPrims T (SetWordList wl) (prog0 ui0) es'.
Proof. exact C107_run_l. Qed.
Print Assumptions C107_run.

Example C107_run_sat : Forall g_ok (untimed [(GEdit FRadio (B "24"), 0, 0); (GFrame (mkGFrame (mkFrame false [] false false []) 0 some_source), 1000, 100)]) /\
(forall E T, exists p, gRunF (fun _ => true) E T (SetWordList english) (prog0 ui0) [(GEdit FRadio (B "24"), 0, 0); (GFrame (mkGFrame (mkFrame false [] false false []) 0 some_source), 1000, 100)] = Some (Ret (Some p)) /\
  a_ui p = edit FRadio (B "24") ui0 /\ window p = [(0, None)] /\ wants p = false).
Proof. exact C107_run_sat_l. Qed.

Theorem C107_window : forall fma E T wl es p, env_ok E -> after_init T -> good_list wl -> text_words wl -> short_words wl -> Forall g_ok (untimed es) ->
  in_order (g_clock es) -> Forall (fun x => 0 <= width x) (g_clock es) -> machine (g_clock es) ->
  gRunF fma E T (SetWordList wl) (prog0 ui0) es = Some (Ret (Some p)) ->
  gRun E T (SetWordList wl) ui0 (untimed es) = Some (Ret (a_ui p)) /\
  exists es' l, Forall2 same_timed es es' /\ filmed RealPrims T (SetWordList wl) ui0 es' (a_ui p) l /\ (l = [] -> window p = []) /\
    forall l' x, l = l' ++ [x] -> pic x = screen (a_ui p) /\ (width x * (49 + 3 * frames_since 0 l) <= 2 ^ 25 ->
      match last_push None None l with
      | None => at_rest x (window p)
      | Some (d, t, old) => at_rest x (window p) \/
          exists shift, sliding d old x shift (window p) /\ Z.abs (shift - pixels (eased (Qmin 1 (part (300 * 1000000) (time x - t)))) (width x)) <= 1
      end).
Proof. exact C107_window_l. Qed.
Print Assumptions C107_window.

Example C107_window_sat : let es := [(GEdit FRadio (B "24"), 0, 0); (GFrame (mkGFrame (mkFrame false [] false false []) 0 some_source), 1000, 100)] in
Forall g_ok (untimed es) /\ in_order (g_clock es) /\ Forall (fun x => 0 <= width x) (g_clock es) /\ machine (g_clock es) /\ (forall E T, exists p, gRunF (fun _ => true) E T (SetWordList english) (prog0 ui0) es = Some (Ret (Some p)) /\ window p = [(0, None)]).
Proof. exact C107_window_sat_l. Qed.

Theorem C107_ends : forall fma E T wl es, env_ok E -> after_init T -> good_list wl -> text_words wl -> short_words wl -> Forall g_ok (untimed es) -> Forall g_ends (untimed es) ->
  in_order (g_clock es) -> Forall (fun x => 0 <= width x) (g_clock es) -> machine (g_clock es) ->
  (exists p, gRunF fma E T (SetWordList wl) (prog0 ui0) es = Some (Ret (Some p))) \/
  (gRunF fma E T (SetWordList wl) (prog0 ui0) es = Some Panic /\ exists s, bad_seed RealPrims s).
Proof. exact C107_ends_l. Qed.
Print Assumptions C107_ends.

Example C107_ends_sat : let es := [(GFrame (mkGFrame (mkFrame true [] false false []) 32 some_source), 1000, 100)] in
Forall g_ok (untimed es) /\ Forall g_ends (untimed es) /\ in_order (g_clock es) /\ Forall (fun x => 0 <= width x) (g_clock es) /\ machine (g_clock es).
Proof. exact C107_ends_sat_l. Qed.
