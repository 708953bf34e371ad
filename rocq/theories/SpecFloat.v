(** SpecFloat.v - what rounding to a floating-point number is, and how far a slide may be from the exact one. *)
From Coq Require Import ZArith QArith Qabs Qround List.
From Verif Require Import SpecSlider.
Import ListNotations.
Open Scope Z_scope.

(** The finite floating-point numbers of [prec] binary digits, none below 2^emin, ignoring the greatest exponent.
    For examples/ui/one/slider.go:58. *)
Definition representable (prec emin : Z) (q : Q) : Prop :=
  exists n e, Z.abs n < 2 ^ prec /\ emin <= e /\ (q == inject_Z n * Qpower 2 e)%Q.
(** A significand of full length, or the smallest exponent. For examples/ui/one/slider.go:58. *)
Definition canonical (prec emin n e : Z) : Prop := emin <= e /\ Z.abs n < 2 ^ prec /\ (e = emin \/ 2 ^ (prec - 1) <= Z.abs n).
(** Rounding to nearest, ties to even (IEEE 754-2019, 4.3.1). For examples/ui/one/slider.go:58. *)
Definition nearest_even (prec emin : Z) (q y : Q) : Prop :=
  representable prec emin y /\
  (forall x, representable prec emin x -> (Qabs (y - q) <= Qabs (x - q))%Q) /\
  (forall x, representable prec emin x -> (~ x == y)%Q -> (Qabs (x - q) == Qabs (y - q))%Q ->
     exists n e, canonical prec emin n e /\ Z.even n = true /\ (y == inject_Z n * Qpower 2 e)%Q).

Section Spec.
Context {A : Type}.
(** The frames since the last push. For examples/ui/one/slider.go:36-116. *)
Fixpoint frames_since (n : Z) (l : list (act A)) : Z :=
  match l with [] => n | x :: r => frames_since (if dir x =? 0 then n + 1 else 0) r end.
(** Times fit into int64, widths into the significand of a float32. For examples/ui/one/slider.go:49, 96. *)
Definition machine (l : list (act A)) : Prop := Forall (fun x => 0 <= time x < 2 ^ 63 /\ width x <= 2 ^ 24) l.
(** [drawn] is the frame at rest. For examples/ui/one/slider.go:87-90. *)
Definition at_rest (x : act A) (drawn : list (Z * A)) : Prop := drawn = [(0, pic x)].
(** [drawn] is the old and the new picture side by side, [shift] pixels on the way. For examples/ui/one/slider.go:94-114. *)
Definition sliding (d : Z) (old : option A) (x : act A) (shift : Z) (drawn : list (Z * A)) : Prop :=
  0 <= shift <= width x /\ drawn = beside d shift (width x) old (pic x).
End Spec.
(** The unit in which errors are counted, 2^-25. For examples/ui/one/slider.go:58. *)
Definition ulp : Q := 1 # 33554432.
(** The part of the time [D] that has passed. For examples/ui/one/slider.go:58. *)
Definition part (D E : Z) : Q := (inject_Z E / inject_Z D)%Q.
