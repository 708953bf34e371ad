(** GoCurve.v - curve.go and ellipticadaptor.go of github.com/decred/dcrd/dcrec/secp256k1/v4 v4.2.0 (go.mod:12), on the field
    of GoField.v: what curve.ScalarBaseMult and curve.Add (bip32/utils.go:64, 70) run. Written down from the published source.
    A result may be the same object as the first argument; no function reads a coordinate of an argument after it has written
    that coordinate of the result, so arguments and results are values here. *)
From Verif Require Import Base Secp GoField.

(** type JacobianPoint: bip32/utils.go:64, 70 *)
Record jac := mkJ { jX : FieldVal; jY : FieldVal; jZ : FieldVal }.
(** the point at infinity that the functions return: bip32/utils.go:64, 70 *)
Definition jInf : jac := mkJ (SetInt 0) (SetInt 0) (SetInt 0).
(** normalising the results: bip32/utils.go:64, 70 *)
Definition jNorm (x3 y3 z3 : FieldVal) : jac := mkJ (Normalize x3) (Normalize y3) (Normalize z3).

(** doubleZ1EqualsOne and doubleGeneric but for the first statement, which computes z3: bip32/utils.go:64, 70 *)
Definition double_with (z3 : FieldVal) (p : jac) : jac :=
  let x1 := jX p in let y1 := jY p in
  let a := Square x1 in
  let b := Square y1 in
  let c := Square b in
  let b := Square (Add b x1) in
  let d := Negate 2 (Add a c) in
  let d := MulInt 2 (Add d b) in
  let e := MulInt 3 a in
  let f := Square e in
  let x3 := Negate 16 (MulInt 2 d) in
  let x3 := Add x3 f in
  let f := Normalize (Add (Negate 18 x3) d) in
  let y3 := Negate 8 (MulInt 8 c) in
  let y3 := Add y3 (Mul f e) in
  jNorm x3 y3 z3.
(** DoubleNonConst: bip32/utils.go:64, 70 *)
Definition DoubleNonConst (p : jac) : jac :=
  if IsZero (jY p) || IsZero (jZ p) then jInf
  else if IsOne (jZ p) then double_with (MulInt 2 (jY p)) p
  else double_with (MulInt 2 (Mul (jY p) (jZ p))) p.
(** addZ1AndZ2EqualsOne: bip32/utils.go:64, 70 *)
Definition addZ1AndZ2EqualsOne (p1 p2 : jac) : jac :=
  let x1 := jX p1 in let y1 := jY p1 in let x2 := jX p2 in let y2 := jY p2 in
  if Equals x1 x2 then if Equals y1 y2 then DoubleNonConst p1 else jInf
  else
    let h := Add (Negate 1 x1) x2 in
    let i := MulInt 4 (Square h) in
    let j := Mul h i in
    let r := MulInt 2 (Add (Negate 1 y1) y2) in
    let v := Mul x1 i in
    let negJ := Negate 1 j in
    let neg2V := Negate 2 (MulInt 2 v) in
    let x3 := Add (Add (Square r) negJ) neg2V in
    let negX3 := Negate 6 x3 in
    let j := Negate 2 (MulInt 2 (Mul j y1)) in
    let y3 := Add (Mul (Add v negX3) r) j in
    let z3 := MulInt 2 h in
    jNorm x3 y3 z3.
(** addZ1EqualsZ2: bip32/utils.go:64, 70 *)
Definition addZ1EqualsZ2 (p1 p2 : jac) : jac :=
  let x1 := jX p1 in let y1 := jY p1 in let z1 := jZ p1 in let x2 := jX p2 in let y2 := jY p2 in
  if Equals x1 x2 then if Equals y1 y2 then DoubleNonConst p1 else jInf
  else
    let negX1 := Negate 1 x1 in
    let negY1 := Negate 1 y1 in
    let a := Add negX1 x2 in
    let b := Square a in
    let c := Add negY1 y2 in
    let d := Square c in
    let e := Mul x1 b in
    let negE := Negate 1 e in
    let f := Mul x2 b in
    let x3 := Add (Negate 2 (Add e f)) d in
    let negX3 := Negate 4 x3 in
    let y3 := Negate 1 (Mul y1 (Add f negE)) in
    let y3 := Add y3 (Mul (Add e negX3) c) in
    let z3 := Mul z1 a in
    jNorm x3 y3 z3.
(** addZ2EqualsOne: bip32/utils.go:64, 70 *)
Definition addZ2EqualsOne (p1 p2 : jac) : jac :=
  let x1 := jX p1 in let y1 := jY p1 in let z1 := jZ p1 in let x2 := jX p2 in let y2 := jY p2 in
  let z1z1 := Square z1 in
  let u2 := Normalize (Mul x2 z1z1) in
  let s2 := Normalize (Mul (Mul y2 z1z1) z1) in
  if Equals x1 u2 then if Equals y1 s2 then DoubleNonConst p1 else jInf
  else
    let negX1 := Negate 1 x1 in
    let h := Add u2 negX1 in
    let hh := Square h in
    let i := MulInt 4 hh in
    let j := Mul h i in
    let negY1 := Negate 1 y1 in
    let r := MulInt 2 (Add s2 negY1) in
    let rr := Square r in
    let v := Mul x1 i in
    let x3 := Negate 3 (Add (MulInt 2 v) j) in
    let x3 := Add x3 rr in
    let negX3 := Negate 5 x3 in
    let y3 := Negate 2 (MulInt 2 (Mul y1 j)) in
    let y3 := Add y3 (Mul (Add v negX3) r) in
    let z3 := Square (Add z1 h) in
    let z3 := Add z3 (Negate 2 (Add z1z1 hh)) in
    jNorm x3 y3 z3.
(** addGeneric: bip32/utils.go:64, 70 *)
Definition addGeneric (p1 p2 : jac) : jac :=
  let x1 := jX p1 in let y1 := jY p1 in let z1 := jZ p1 in let x2 := jX p2 in let y2 := jY p2 in let z2 := jZ p2 in
  let z1z1 := Square z1 in
  let z2z2 := Square z2 in
  let u1 := Normalize (Mul x1 z2z2) in
  let u2 := Normalize (Mul x2 z1z1) in
  let s1 := Normalize (Mul (Mul y1 z2z2) z2) in
  let s2 := Normalize (Mul (Mul y2 z1z1) z1) in
  if Equals u1 u2 then if Equals s1 s2 then DoubleNonConst p1 else jInf
  else
    let negU1 := Negate 1 u1 in
    let h := Add u2 negU1 in
    let i := Square (MulInt 2 h) in
    let j := Mul h i in
    let negS1 := Negate 1 s1 in
    let r := MulInt 2 (Add s2 negS1) in
    let rr := Square r in
    let v := Mul u1 i in
    let x3 := Negate 3 (Add (MulInt 2 v) j) in
    let x3 := Add x3 rr in
    let negX3 := Negate 5 x3 in
    let y3 := Negate 2 (MulInt 2 (Mul s1 j)) in
    let y3 := Add y3 (Mul (Add v negX3) r) in
    let z3 := Square (Add z1 z2) in
    let z3 := Add z3 (Negate 2 (Add z1z1 z2z2)) in
    let z3 := Mul z3 h in
    jNorm x3 y3 z3.
(** AddNonConst: bip32/utils.go:64, 70 *)
Definition AddNonConst (p1 p2 : jac) : jac :=
  if (IsZero (jX p1) && IsZero (jY p1)) || IsZero (jZ p1) then p2
  else if (IsZero (jX p2) && IsZero (jY p2)) || IsZero (jZ p2) then p1
  else
    let isZ1One := IsOne (jZ p1) in
    let isZ2One := IsOne (jZ p2) in
    if isZ1One && isZ2One then addZ1AndZ2EqualsOne p1 p2
    else if Equals (jZ p1) (jZ p2) then addZ1EqualsZ2 p1 p2
    else if isZ2One then addZ2EqualsOne p1 p2
    else addGeneric p1 p2.
(** JacobianPoint.ToAffine: bip32/utils.go:64, 70 *)
Definition ToAffine (p : jac) : jac :=
  let zInv := Inverse (jZ p) in
  let tempZ := Square zInv in
  mkJ (Normalize (Mul (jX p) tempZ)) (Normalize (Mul (jY p) (Mul tempZ zInv))) (SetInt 1).
(** jacobianToBigAffine: bip32/utils.go:64, 70 *)
Definition jacobianToBigAffine (p : jac) : Z * Z :=
  let p := ToAffine p in (be_Z (FieldBytes (jX p)), be_Z (FieldBytes (jY p))).
(** bigAffineToJacobian: bip32/utils.go:70 *)
Definition bigAffineToJacobian (x y : Z) : jac := mkJ (SetByteSlice (Z_bytes x)) (SetByteSlice (Z_bytes y)) (SetInt 1).
(** KoblitzCurve.Add: bip32/utils.go:70 *)
Definition KoblitzAdd (x1 y1 x2 y2 : Z) : Z * Z :=
  if (x1 =? 0) && (y1 =? 0) then (x2, y2)
  else if (x2 =? 0) && (y2 =? 0) then (x1, y1)
  else jacobianToBigAffine (AddNonConst (bigAffineToJacobian x1 y1) (bigAffineToJacobian x2 y2)).
(** scalarBaseMultNonConstFast, the loop over the bytes of the scalar: bytePoints is a table of 32 times 256 points.
    bip32/utils.go:64 *)
Fixpoint base_loop (tab : list (list jac)) (kb : bytes) (result : jac) : outcome jac :=
  match kb, tab with
  | [], _ => Ret result
  | b :: kb, row :: tab =>
      match nth_error row (Z.to_nat (Zb b)) with
      | Some pt => base_loop tab kb (AddNonConst result pt)
      | None => Panic
      end
  | _, [] => Panic
  end.
(** moduloReduce: bip32/utils.go:64 *)
Definition moduloReduce (k : bytes) : bytes := if Nat.ltb 32 (length k) then Z_bytes (be_Z k mod secp_n) else k.
(** KoblitzCurve.ScalarBaseMult: bip32/utils.go:64 *)
Definition KoblitzScalarBaseMult (tab : list (list jac)) (k : bytes) : outcome (Z * Z) :=
  match base_loop tab (ScalarBytes (ScalarSetByteSlice (moduloReduce k))) jInf with
  | Ret p => Ret (jacobianToBigAffine p)
  | Panic => Panic
  end.
