(** SpecUiMotion.v - sessions with times and widths, for C107. *)
From Verif Require Import Base GoStr Prims Bip39 Util GoWhole Ui UiWhole SpecUiWhole Slider SpecSlider.

(** The events of a session without their times; for examples/ui/one/main.go:173-412 *)
Definition untimed {A} (es : list (A * Z * Z)) : list A := map (fun e => fst (fst e)) es.
(** The times and widths of its frames; for examples/ui/one/main.go:177 *)
Definition g_clock (es : list (gevent * Z * Z)) : list (act unit) :=
  flat_map (fun e => match e with (GFrame _, t, w) => [mkAct 0 t w tt] | _ => [] end) es.
(** The same event at the same time with the same width; for examples/ui/one/main.go:173-412 *)
Definition same_timed (g : gevent * Z * Z) (e : event * Z * Z) : Prop :=
  same_event (fst (fst g)) (fst (fst e)) /\ snd (fst g) = snd (fst e) /\ snd g = snd e.
