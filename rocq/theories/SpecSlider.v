(** SpecSlider.v - what a slide should look like, as a function of the history of frames and of the time alone. *)
From Coq Require Import ZArith QArith Qround List.
Import ListNotations.
Open Scope Z_scope.

(** Eased progress: the cubic curve that is slow at both ends. For examples/ui/one/slider.go:119-132. *)
Definition eased (q : Q) : Q := (if Qle_bool q (1 # 2) then 4 * q * q * q else 1 - 4 * (1 - q) * (1 - q) * (1 - q))%Q.

(** One frame: 1 for a push to the left, -1 for a push to the right, 0 for none; time; width; picture.
    For examples/ui/one/slider.go:31-51. *)
Record act (A : Type) := mkAct { dir : Z; time : Z; width : Z; pic : A }.
Arguments mkAct {A}. Arguments dir {A}. Arguments time {A}. Arguments width {A}. Arguments pic {A}.

Section Spec.
Context {A : Type}.
(** The last push of a history: its direction, its time, and the picture of the frame before.
    For examples/ui/one/slider.go:31-51. *)
Fixpoint last_push (prev : option A) (cur : option (Z * Z * option A)) (l : list (act A)) : option (Z * Z * option A) :=
  match l with
  | [] => cur
  | x :: r => last_push (Some (pic x)) (if dir x =? 0 then cur else Some (dir x, time x, prev)) r
  end.
(** For examples/ui/one/slider.go:87-115. *)
Definition opt_at (x : Z) (a : option A) : list (Z * A) := match a with None => [] | Some a => [(x, a)] end.
(** The old picture [d * shift] pixels to the left of its place, the new one right beside it.
    For examples/ui/one/slider.go:87-115. *)
Definition beside (d shift w : Z) (old : option A) (a : A) : list (Z * A) :=
  opt_at (- d * shift) old ++ [(- d * shift + d * w, a)].
(** The whole pixels of a non-negative fraction of a width. For examples/ui/one/slider.go:119-132. *)
Definition pixels (q : Q) (w : Z) : Z := Qfloor (inject_Z w * q).
(** What the frame [x] shows after the history [l] if a slide takes the time [D]: the picture alone at rest, otherwise the old
    and the new picture side by side, moved by the eased fraction of the time that has passed.
    For examples/ui/one/slider.go:87-115. *)
Definition shows (D : Z) (l : list (act A)) (x : act A) : list (Z * A) :=
  match last_push None None (l ++ [x]) with
  | None => [(0, pic x)]
  | Some (d, t, old) =>
      if D <=? time x - t then [(0, pic x)]
      else beside d (pixels (eased (inject_Z (time x - t) / inject_Z D)) (width x)) (width x) old (pic x)
  end.
(** Time does not run backwards. For examples/ui/one/slider.go:46-51. *)
Fixpoint sorted (t : Z) (l : list (act A)) : Prop :=
  match l with [] => True | x :: r => t <= time x /\ sorted (time x) r end.
(** For examples/ui/one/slider.go:46-51. *)
Definition in_order (l : list (act A)) : Prop := match l with [] => True | x :: r => sorted (time x) r end.
(** Directions are -1, 0 or 1, widths are not negative. For examples/ui/one/slider.go:46-51. *)
Definition proper (l : list (act A)) : Prop := Forall (fun x => (dir x = 0 \/ dir x = 1 \/ dir x = -1) /\ 0 <= width x) l.
End Spec.

(** ** Sessions of the example program *)
From Verif Require Import Base GoStr Prims Bip39 Bip32Reg Util Ui.

(** The selections that the clicks of one frame go through, beginning with [cur], among [n] tabs: left arrow, right arrow,
    then the tabs that were clicked. For examples/ui/one/main.go:168-413. *)
Definition selections (n cur : Z) (i : frame_in) : list Z :=
  if n =? 0 then []
  else
    let v1 := if left_click i then Z.max (cur - 1) (Z.min cur 0) else cur in
    let v2 := if right_click i then Z.min (v1 + 1) (Z.max v1 (n - 1)) else v1 in
    v1 :: v2 :: filter (fun v => v <? n) (map Z.of_nat (tab_clicks i)).
(** The direction of the last change of selection: 1 if it went up (the old page leaves to the left), -1 if it went down, 0 if
    there was none. For examples/ui/one/main.go:168-413. *)
Fixpoint last_move (d cur : Z) (l : list Z) : Z :=
  match l with [] => d | v :: r => last_move (Z.sgn (v - cur) + (if v =? cur then d else 0)) v r end.
(** For examples/ui/one/main.go:168-413. *)
Definition turn (i : frame_in) (u : ui) : Z := last_move 0 (selected u) (selections (Z.of_nat (length (tabs u))) (selected u) i).

(** The frames of a session, as a history: direction, time, width and picture of each. For examples/ui/one/main.go:168-413. *)
Inductive filmed (H : Prims) (T : tables) (wst : wstate) (u0 : ui) : list (event * Z * Z) -> ui -> list (act (option (list bytes))) -> Prop :=
| filmed_start : filmed H T wst u0 [] u0 []
| filmed_edit es u l e t w u' : filmed H T wst u0 es u l -> (forall i, e <> Frame i) -> step H T wst u e = Ret u' ->
    filmed H T wst u0 (es ++ [(e, t, w)]) u' l
| filmed_frame es u l i t w u1 u' : filmed H T wst u0 es u l -> handlers H T wst i u = Ret u1 -> frame H T wst i u = Ret u' ->
    filmed H T wst u0 (es ++ [(Frame i, t, w)]) u' (l ++ [mkAct (turn i u1) t w (screen u')]).
(** The times and widths of the frames of a session. For examples/ui/one/main.go:168-413. *)
Definition clock (es : list (event * Z * Z)) : list (act unit) :=
  flat_map (fun e => match e with (Frame _, t, w) => [mkAct 0 t w tt] | _ => [] end) es.
