(** UiMotion.v - the example program with its moving pages, every library function as it is written: the frames of UiWhole.v with the
    slider of FloatSlider.v. *)
From Verif Require Import Base GoStr Prims Bip39 Bip32Reg Bip32 Util GoWhole Ui UiWhole Slider Float FloatSlider.

Section Motion.
Variable fma : nat -> bool.
Variable E : env.
Variable T : tables.
Variable wst : wstate.

(** A frame: examples/ui/one/main.go:177-410. [None]: the random source keeps the program waiting; the inner [None]: an infinity or a NaN
    in the slider. *)
Definition gFrameF (now w : Z) (i : gframe_in) (p : prog) : option (outcome (option prog)) :=
  match gHandlers1 E T wst i (a_ui p) with
  | None => None
  | Some r => Some (
    let! u := r in
    let! u := gHandlers2 E T wst u in
    let! (u, s) := tab_bar_s (g_in i) (u, a_slider p) in
    let! c := gDisplay E T u in
    Ret (let? (s, h, again, d) := LayoutF fma now w c s (a_heap p) in Some (mkProg (set_screen c u) s h d again)))
  end.
(** The effect of one event: examples/ui/one/main.go:173-412 *)
Definition gStepF (p : prog) (e : gevent * Z * Z) : option (outcome (option prog)) :=
  let '(e, now, w) := e in
  match e with
  | GFrame i => gFrameF now w i p
  | GEdit f s => Some (Ret (Some (mkProg (edit f s (a_ui p)) (a_slider p) (a_heap p) (window p) (wants p))))
  end.
(** A session: examples/ui/one/main.go:173-412 *)
Fixpoint gRunF (p : prog) (es : list (gevent * Z * Z)) : option (outcome (option prog)) :=
  match es with
  | [] => Some (Ret (Some p))
  | e :: r => match gStepF p e with None => None | Some Panic => Some Panic | Some (Ret None) => Some (Ret None) | Some (Ret (Some p)) => gRunF p r end
  end.
End Motion.
