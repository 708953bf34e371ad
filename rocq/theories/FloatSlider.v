(** FloatSlider.v - examples/ui/one/slider.go again, with float32 and float64 arithmetic as the machine does it (Float.v),
    where Slider.v computes exactly. The parts that compute nothing are those of Slider.v. [fma] says at which of the four
    places that allow it the compiler uses a fused multiply-add. *)
From Coq Require Import QArith Qround Qabs.
From Verif Require Import Base GoStr Prims Bip39 Bip32Reg Bip32 Util Ui Slider Float.

Section Fused.
Variable fma : nat -> bool.

(** easeInOutCubic: examples/ui/one/slider.go:126-132 *)
Definition easeF (t : Q) : option val :=
  if negb (Qle_bool (1 # 2) t) then
    let? a := fmul (plain 4) (plain t) in
    let? b := fmul a (plain t) in
    fmul b (plain t)
  else
    let? a := fplus false (plain t) (-1) in
    let? m := fmul (plain 2) (plain t) in
    let? b := fplus (fma 0) m (-2) in
    let? m := fmul (plain 2) (plain t) in
    let? c := fplus (fma 1) m (-2) in
    let? p := fmul a b in
    let? p := fmul p c in
    fplus (fma 2) p 1.
(** smooth: examples/ui/one/slider.go:118-124 *)
Definition smoothF (t : Q) : option val :=
  if negb (Qle_bool 0 t) then let? e := easeF (- t) in Some (fneg e) else easeF t.
(** now.Sub(s.t0), which saturates: examples/ui/one/slider.go:49 *)
Definition Sub (now t : Z) : Z := Z.max (- 2 ^ 63) (Z.min (2 ^ 63 - 1) (now - t)).
(** time.Duration.Seconds: examples/ui/one/slider.go:58 *)
Definition Seconds (d : Z) : option Q :=
  let? sec := f64 (inject_Z (Z.quot d 1000000000)) in
  let? nsec := f64 (inject_Z (Z.rem d 1000000000)) in
  let? part := f64 (nsec / 1000000000) in
  f64 (sec + part).
(** movement: examples/ui/one/slider.go:58 *)
Definition movementF (delta duration : Z) : option Q :=
  let? a := Seconds delta in
  let? a := f32 a in
  let? b := Seconds duration in
  let? b := f32 b in
  fdiv a b.
(** Lines 46-51: examples/ui/one/slider.go:46-51 *)
Definition elapsedF (now : Z) (s : slider) : slider * Z :=
  match t0 s with
  | None => (s, 0)
  | Some t => (fst (elapsed now s), Sub now t)
  end.
(** Lines 53-72: examples/ui/one/slider.go:53-72 *)
Definition moveF (delta : Z) (s : slider) : option (slider * bool) :=
  if Qeq_bool (offset s) 0 then Some (s, false)
  else
    let duration := if Duration s =? 0 then defaultDuration else Duration s in
    let? movement := movementF delta duration in
    if negb (Qle_bool 0 (offset s)) then
      let? o := f32 (offset s + movement) in Some (set_offset (if Qle_bool 0 o then 0 else o)%Q s, true)
    else
      let? o := f32 (offset s - movement) in Some (set_offset (if Qle_bool o 0 then 0 else o)%Q s, true).
(** int(float32(dims.Size.X) * (offset + k)): examples/ui/one/slider.go:96, 106 *)
Definition positionF (w : Z) (o : Q) (k : Q) : option Z :=
  let? e := smoothF o in
  let? x := f32 (inject_Z w) in
  let? m := fplus (fma 3) e k in
  let? p := fmul (plain x) m in
  Some (trunc (value p)).

Section Pictures.
Context {A : Type}.
(** Lines 87-115: examples/ui/one/slider.go:87-115 *)
Definition drawF (w : Z) (s : slider) (h : list A) : option (list (Z * A)) :=
  if Qeq_bool (offset s) 0 then Some (add h 0 (nextCall s))
  else if negb (Qle_bool (offset s) 0) then
    let? x := positionF w (offset s) (-1) in Some (add h x (lastCall s) ++ add h (x + w) (nextCall s))
  else
    let? x := positionF w (offset s) 1 in Some (add h x (lastCall s) ++ add h (x + - w) (nextCall s)).
(** Layout: examples/ui/one/slider.go:36-116 *)
Definition LayoutF (now w : Z) (a : A) (s : slider) (h : list A) : option (slider * list A * bool * list (Z * A)) :=
  let s := start_slide now s in
  let (s, delta) := elapsedF now s in
  let? (s, again) := moveF delta s in
  let (s, h) := record a s h in
  let? d := drawF w s h in
  Some (s, h, again, d).
End Pictures.

(** A frame: examples/ui/one/main.go:177-410. The inner [None] is an infinity or a NaN in the slider. *)
Definition frameF (H : Prims) (T : tables) (wst : wstate) (now w : Z) (i : frame_in) (p : prog) : outcome (option prog) :=
  let! u := handlers H T wst i (a_ui p) in
  let! (u, s) := tab_bar_s i (u, a_slider p) in
  let! c := display H T u in
  Ret (let? (s, h, again, d) := LayoutF now w c s (a_heap p) in Some (mkProg (set_screen c u) s h d again)).
(** The effect of one event: examples/ui/one/main.go:173-412 *)
Definition stepF (H : Prims) (T : tables) (wst : wstate) (p : prog) (e : event * Z * Z) : outcome (option prog) :=
  let '(e, now, w) := e in
  match e with
  | Frame i => frameF H T wst now w i p
  | _ => let! u := step H T wst (a_ui p) e in Ret (Some (mkProg u (a_slider p) (a_heap p) (window p) (wants p)))
  end.
(** A session: examples/ui/one/main.go:173-412 *)
Fixpoint runF (H : Prims) (T : tables) (wst : wstate) (p : prog) (es : list (event * Z * Z)) : outcome (option prog) :=
  match es with
  | [] => Ret (Some p)
  | e :: r => let! p := stepF H T wst p e in match p with Some p => runF H T wst p r | None => Ret None end
  end.
End Fused.
