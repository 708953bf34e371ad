(** Float.v - the floating-point operations that examples/ui/one/slider.go uses, as IEEE 754 defines them: a finite
    value is a rational number, the result of an operation is the exact one rounded to nearest, ties to even, with
    gradual underflow. [None] stands for an infinity or a NaN. The sign of zero is not kept (no operation of the
    slider depends on it). *)
From Coq Require Import QArith Qround Qabs.
From Verif Require Import Base.

(** The exponent of the leading binary digit of q > 0: examples/ui/one/slider.go:58 *)
Definition flog2 (q : Q) : Z :=
  let k := Z.log2 (Qnum q) - Z.log2 (Zpos (Qden q)) in
  if Qle_bool (Qpower 2 k) q then k else k - 1.
(** The nearest integer, the even one of two: examples/ui/one/slider.go:58 *)
Definition rne (q : Q) : Z :=
  let f := Qfloor q in
  match Qcompare (q - inject_Z f) (1 # 2) with
  | Lt => f
  | Gt => f + 1
  | Eq => if Z.even f then f else f + 1
  end.
(** The exponent of the last digit kept: [prec] digits, none below 2^emin. examples/ui/one/slider.go:58 *)
Definition fexp (prec emin : Z) (q : Q) : Z := Z.max (flog2 (Qabs q) - (prec - 1)) emin.
(** Rounding, but for overflow: examples/ui/one/slider.go:58 *)
Definition fround (prec emin : Z) (q : Q) : Q :=
  if Qeq_bool q 0 then 0
  else let e := fexp prec emin q in Qred (inject_Z (rne (q * Qpower 2 (- e))) * Qpower 2 e).
(** Rounding to float32: examples/ui/one/slider.go:41, 58, 60, 65, 96, 106, 126-132 *)
Definition f32 (q : Q) : option Q :=
  let r := fround 24 (-149) q in if Qle_bool (Qpower 2 128) (Qabs r) then None else Some r.
(** Rounding to float64, inside time.Duration.Seconds: examples/ui/one/slider.go:58 *)
Definition f64 (q : Q) : option Q :=
  let r := fround 53 (-1074) q in if Qle_bool (Qpower 2 1024) (Qabs r) then None else Some r.
(** Sequencing of operations that may overflow: examples/ui/one/slider.go:58 *)
Definition obind {A B} (o : option A) (f : A -> option B) : option B := match o with Some a => f a | None => None end.
Notation "'let?' x := e 'in' b" := (obind e (fun x => b)) (at level 200, x pattern, e at level 100, b at level 200).
(** A quotient of float32s: examples/ui/one/slider.go:58 *)
Definition fdiv (a b : Q) : option Q := if Qeq_bool b 0 then None else f32 (a / b).

(** A float32 together with the product it was rounded from, if the last operation was a multiplication: Go may add to the
    unrounded product ("fused multiply-add", the language specification under Floating-point operators), also across
    statements. examples/ui/one/slider.go:96, 106, 126-132 *)
Record val := mkVal { value : Q; exact : Q }.
(** A value that is not a product: examples/ui/one/slider.go:126-132 *)
Definition plain (q : Q) : val := mkVal q q.
(** x * y: examples/ui/one/slider.go:128, 131 *)
Definition fmul (x y : val) : option val :=
  let p := (value x * value y)%Q in let? r := f32 p in Some (mkVal r p).
(** x + k, fused or not: examples/ui/one/slider.go:96, 106, 131 *)
Definition fplus (fuse : bool) (x : val) (k : Q) : option val :=
  let? r := f32 ((if fuse then exact x else value x) + k) in Some (plain r).
(** - x: examples/ui/one/slider.go:121 *)
Definition fneg (x : val) : val := mkVal (- value x) (- exact x).
