(** Slider.v - model of examples/ui/one/slider.go: the slide between an old and a new widget, and of the calls that the tab
    bar makes to it (examples/ui/one/main.go:297-372).

    Simplifications: float32 arithmetic is exact rational arithmetic (no rounding); a point in time is a number of
    nanoseconds, the zero time.Time is [None]; an op.Ops buffer is one cell of a heap holding what was recorded last, and
    an op.CallOp is a reference to a cell (the zero CallOp draws nothing). *)
From Coq Require Import QArith.
From Verif Require Import Base GoStr Prims Bip39 Bip32Reg Bip32 Util Ui.

(** type Slider: examples/ui/one/slider.go:15-28 *)
Record slider := mkSlider { Duration : Z; push : Z; next : option nat; nextCall : option nat; lastCall : option nat;
  t0 : option Z; offset : Q }.
(** var tabsSlider Slider, the zero value: examples/ui/one/main.go:75 *)
Definition slider0 : slider := mkSlider 0 0 None None None None 0.
(** defaultDuration, in nanoseconds: examples/ui/one/slider.go:13 *)
Definition defaultDuration : Z := 300 * 1000000.
(** Assignment to the field push: examples/ui/one/slider.go:31, 34 *)
Definition set_push (d : Z) (s : slider) : slider :=
  mkSlider (Duration s) d (next s) (nextCall s) (lastCall s) (t0 s) (offset s).
(** PushLeft: examples/ui/one/slider.go:30-31 *)
Definition PushLeft (s : slider) : slider := set_push 1 s.
(** PushRight: examples/ui/one/slider.go:33-34 *)
Definition PushRight (s : slider) : slider := set_push (-1) s.

(** easeInOutCubic: examples/ui/one/slider.go:126-132 *)
Definition easeInOutCubic (t : Q) : Q :=
  (if negb (Qle_bool (1 # 2) t) then 4 * t * t * t else (t - 1) * (2 * t - 2) * (2 * t - 2) + 1)%Q.
(** smooth: examples/ui/one/slider.go:118-124 *)
Definition smooth (t : Q) : Q := (if negb (Qle_bool 0 t) then - easeInOutCubic (- t) else easeInOutCubic t)%Q.
(** The conversion int(x) drops the fraction: examples/ui/one/slider.go:96, 106 *)
Definition trunc (x : Q) : Z := Z.quot (Qnum x) (Zpos (Qden x)).

(** Lines 38-44 of examples/ui/one/slider.go: a pending push starts a new slide. For examples/ui/one/slider.go:38-44. *)
Definition start_slide (now : Z) (s : slider) : slider :=
  if negb (push s =? 0) then mkSlider (Duration s) 0 None (nextCall s) (nextCall s) (Some now) (inject_Z (push s)) else s.
(** Lines 46-51 of examples/ui/one/slider.go: the time since the last call. For examples/ui/one/slider.go:46-51. *)
Definition elapsed (now : Z) (s : slider) : slider * Z :=
  match t0 s with
  | None => (s, 0)
  | Some t => (mkSlider (Duration s) (push s) (next s) (nextCall s) (lastCall s) (Some now) (offset s), now - t)
  end.
(** Assignment to the field offset: examples/ui/one/slider.go:60-68 *)
Definition set_offset (o : Q) (s : slider) : slider :=
  mkSlider (Duration s) (push s) (next s) (nextCall s) (lastCall s) (t0 s) o.
(** Lines 53-72 of examples/ui/one/slider.go: the movement; the flag says that another frame is requested (line 71).
    For examples/ui/one/slider.go:53-72. *)
Definition move (delta : Z) (s : slider) : slider * bool :=
  if Qeq_bool (offset s) 0 then (s, false)
  else
    let duration := if Duration s =? 0 then defaultDuration else Duration s in
    let movement := (inject_Z delta / inject_Z duration)%Q in
    if negb (Qle_bool 0 (offset s)) then
      let o := (offset s + movement)%Q in (set_offset (if Qle_bool 0 o then 0 else o)%Q s, true)
    else
      let o := (offset s - movement)%Q in (set_offset (if Qle_bool o 0 then 0 else o)%Q s, true).

(** Replace the cell [b] of a heap (op.Ops.Reset and Record: examples/ui/one/slider.go:81-84). *)
Fixpoint list_set {A} (h : list A) (b : nat) (a : A) : list A :=
  match h, b with
  | [], _ => []
  | _ :: r, O => a :: r
  | x :: r, S b => x :: list_set r b a
  end.

Section Pictures.
(** What a widget records into an op.Ops buffer. *)
Context {A : Type}.
(** Lines 76-84 of examples/ui/one/slider.go: record the widget into the buffer [next], a new one if there is none.
    For examples/ui/one/slider.go:76-84. *)
Definition record (a : A) (s : slider) (h : list A) : slider * list A :=
  match next s with
  | None => (mkSlider (Duration s) (push s) (Some (length h)) (Some (length h)) (lastCall s) (t0 s) (offset s), h ++ [a])
  | Some b => (mkSlider (Duration s) (push s) (Some b) (Some b) (lastCall s) (t0 s) (offset s), list_set h b a)
  end.
(** CallOp.Add at a horizontal position: examples/ui/one/slider.go:88, 98, 103, 108, 113 *)
Definition add (h : list A) (x : Z) (c : option nat) : list (Z * A) :=
  match c with
  | None => []
  | Some b => match nth_error h b with Some a => [(x, a)] | None => [] end
  end.
(** Lines 87-115 of examples/ui/one/slider.go: what is drawn, and where. The second Offset is pushed on top of the first.
    For examples/ui/one/slider.go:87-115. *)
Definition draw (w : Z) (s : slider) (h : list A) : list (Z * A) :=
  if Qeq_bool (offset s) 0 then add h 0 (nextCall s)
  else
    let o := smooth (offset s) in
    if negb (Qle_bool (offset s) 0) then
      let x := trunc (inject_Z w * (o - 1)) in add h x (lastCall s) ++ add h (x + w) (nextCall s)
    else
      let x := trunc (inject_Z w * (o + 1)) in add h x (lastCall s) ++ add h (x + - w) (nextCall s).
(** Layout: examples/ui/one/slider.go:36-116. [a] is what the widget draws, [w] its width, [now] the time of the frame. The
    result: the slider, the buffers, whether another frame is requested, and what is drawn. *)
Definition Layout (now w : Z) (a : A) (s : slider) (h : list A) : slider * list A * bool * list (Z * A) :=
  let s := start_slide now s in
  let (s, delta) := elapsed now s in
  let (s, again) := move delta s in
  let (s, h) := record a s h in
  (s, h, again, draw w s h).
End Pictures.

(** ** The tab bar with its pushes *)

(** One click on a tab: examples/ui/one/main.go:320-329. *)
Definition tab_click_s (us : ui * slider) (tabIdx : nat) : outcome (ui * slider) :=
  let (u, s) := us in
  let s := if selected u <? Z.of_nat tabIdx then PushLeft s
           else if selected u >? Z.of_nat tabIdx then PushRight s else s in
  let! u := tab_click u tabIdx in Ret (u, s).
(** The clicks in the order in which the list lays out its tabs: examples/ui/one/main.go:320. *)
Fixpoint tabs_layout_s (l : list nat) (us : ui * slider) : outcome (ui * slider) :=
  match l with
  | [] => Ret us
  | i :: r => if Nat.ltb i (length (tabs (fst us))) then let! us := tab_click_s us i in tabs_layout_s r us else tabs_layout_s r us
  end.
(** The tab bar: examples/ui/one/main.go:297-372. *)
Definition tab_bar_s (i : frame_in) (us : ui * slider) : outcome (ui * slider) :=
  let (u, s) := us in
  if Nat.eqb (length (tabs u)) 0 then Ret (u, s)
  else
    let (u, s) := if left_click i && (selected u >? 0) then (set_tabs (tabs u) (selected u - 1) u, PushRight s) else (u, s) in
    let (u, s) := if right_click i && (selected u <? Z.of_nat (length (tabs u)) - 1)
                  then (set_tabs (tabs u) (selected u + 1) u, PushLeft s) else (u, s) in
    tabs_layout_s (tab_clicks i) (u, s).

(** The program's state together with the slider and its buffers; a picture is the list of labels, or nothing:
    examples/ui/one/main.go:53-75. [window] is what the slider drew last, [wants] whether it asked for another frame. *)
Record prog := mkProg { a_ui : ui; a_slider : slider; a_heap : list (option (list bytes)); window : list (Z * option (list bytes));
  wants : bool }.
(** A frame: examples/ui/one/main.go:177-410; its time and the width of the labels are supplied by Gio. *)
Definition frame_s (H : Prims) (T : tables) (wst : wstate) (now w : Z) (i : frame_in) (p : prog) : outcome prog :=
  let! u := handlers H T wst i (a_ui p) in
  let! (u, s) := tab_bar_s i (u, a_slider p) in
  let! c := display H T u in
  let '(s, h, again, d) := Layout now w c s (a_heap p) in
  Ret (mkProg (set_screen c u) s h d again).
(** The effect of one event: examples/ui/one/main.go:173-412. Only frames look at the time and the width. *)
Definition step_s (H : Prims) (T : tables) (wst : wstate) (p : prog) (e : event * Z * Z) : outcome prog :=
  let '(e, now, w) := e in
  match e with
  | Frame i => frame_s H T wst now w i p
  | _ => let! u := step H T wst (a_ui p) e in Ret (mkProg u (a_slider p) (a_heap p) (window p) (wants p))
  end.
(** A session: examples/ui/one/main.go:173-412. *)
Fixpoint run_s (H : Prims) (T : tables) (wst : wstate) (p : prog) (es : list (event * Z * Z)) : outcome prog :=
  match es with
  | [] => Ret p
  | e :: r => let! p := step_s H T wst p e in run_s H T wst p r
  end.
(** The start of the program: examples/ui/one/main.go:53-75, 77-88. *)
Definition prog0 (u : ui) : prog := mkProg u slider0 [] [] false.
