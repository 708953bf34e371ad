(** Secp.v - the secp256k1 operations that /repo takes from
    github.com/decred/dcrd/dcrec/secp256k1/v4 (S256: ScalarBaseMult, Add, Params) and from math/big
    (ModSqrt). The library is not part of /repo; what is modelled is its documented result. The
    algorithm below (complete projective formulas, binary double-and-add) is not decred's (windowed
    Jacobian): it is chosen to be executable and is proved equal to repeated chord-and-tangent addition in
    SecpFacts.v. *)
From Verif Require Import Base.

(** curveParams.P, N, B, Gx, Gy (bip32/utils.go:16-19). *)
Definition secp_p : Z := 0xFFFFFFFFFFFFFFFFFFFFFFFFFFFFFFFFFFFFFFFFFFFFFFFFFFFFFFFEFFFFFC2F.
(** curveParams, bip32/utils.go:16-19 *)
Definition secp_n : Z := 0xFFFFFFFFFFFFFFFFFFFFFFFFFFFFFFFEBAAEDCE6AF48A03BBFD25E8CD0364141.
(** curveParams, bip32/utils.go:16-19 *)
Definition secp_b : Z := 7.
(** curveParams, bip32/utils.go:16-19 *)
Definition secp_Gx : Z := 0x79BE667EF9DCBBAC55A06295CE870B07029BFCDB2DCE28D959F2815B16F81798.
(** curveParams, bip32/utils.go:16-19 *)
Definition secp_Gy : Z := 0x483ADA7726A3C4655DA4FBFC0E1108A8FD17B448A68554199C47D08FFB10D4B8.

(** Arithmetic mod p. [fred] is [x mod p] computed by folding at bit 256 (2^256 = 4294968273 mod p).
    For curve.ScalarBaseMult and curve.Add, bip32/utils.go:64, 70. *)
Definition fold256 (a : Z) : Z :=
  Z.shiftr a 256 * 4294968273
  + Z.land a 0xFFFFFFFFFFFFFFFFFFFFFFFFFFFFFFFFFFFFFFFFFFFFFFFFFFFFFFFFFFFFFFFF.
(** for curve.ScalarBaseMult and curve.Add, bip32/utils.go:64, 70 *)
Definition fred (a : Z) : Z :=
  let r := fold256 (fold256 a) in
  if (0 <=? r) && (r <? secp_p) then r else r mod secp_p.
(** for curve.ScalarBaseMult and curve.Add, bip32/utils.go:64, 70 *)
Definition fmul (a b : Z) : Z := fred (a * b).
(** for curve.ScalarBaseMult and curve.Add, bip32/utils.go:64, 70 *)
Definition fadd (a b : Z) : Z := fred (a + b).
(** for curve.ScalarBaseMult and curve.Add, bip32/utils.go:64, 70 *)
Definition fsub (a b : Z) : Z := fred (a - b).
(** for curve.ScalarBaseMult and curve.Add, bip32/utils.go:64, 70 *)
Fixpoint fpow_pos (a : Z) (e : positive) : Z :=
  match e with
  | xH => fred a
  | xO e' => let r := fpow_pos a e' in fmul r r
  | xI e' => let r := fpow_pos a e' in fmul a (fmul r r)
  end.
(** Field inverse (FieldVal.Inverse: a^(p-2)); 0 has inverse 0.
    For curve.ScalarBaseMult and curve.Add, bip32/utils.go:64, 70. *)
Definition finv (a : Z) : Z := fpow_pos a (Z.to_pos (secp_p - 2)).

(** Complete projective addition and doubling, b3 = 21.
    For curve.ScalarBaseMult and curve.Add, bip32/utils.go:64, 70. *)
Definition ptrip : Type := Z * Z * Z.
(** for curve.ScalarBaseMult and curve.Add, bip32/utils.go:64, 70 *)
Definition padd_c (P Q : ptrip) : ptrip :=
  let '(X1, Y1, Z1) := P in
  let '(X2, Y2, Z2) := Q in
  let t0 := fmul X1 X2 in
  let t1 := fmul Y1 Y2 in
  let t2 := 21 * fmul Z1 Z2 in
  let xy := fmul X1 Y2 + fmul X2 Y1 in
  let yz := fmul Y1 Z2 + fmul Y2 Z1 in
  let xz := fmul X1 Z2 + fmul X2 Z1 in
  let m := t1 - t2 in
  let q := t1 + t2 in
  (fsub (fmul xy m) (21 * fmul yz xz),
   fadd (fmul q m) (63 * fmul t0 xz),
   fadd (fmul yz q) (3 * fmul t0 xy)).
(** for curve.ScalarBaseMult and curve.Add, bip32/utils.go:64, 70 *)
Fixpoint pmul_c (k : positive) (P : ptrip) : ptrip :=
  match k with
  | xH => P
  | xO k' => let R := pmul_c k' P in padd_c R R
  | xI k' => let R := pmul_c k' P in padd_c P (padd_c R R)
  end.
(** jacobianToBigAffine: the point at infinity becomes (0, 0).
    For curve.ScalarBaseMult and curve.Add, bip32/utils.go:64, 70. *)
Definition to_affine (P : ptrip) : Z * Z :=
  let '(X, Y, Z_) := P in
  if Z_ =? 0 then (0, 0) else let zi := finv Z_ in (fmul X zi, fmul Y zi).

(** curve.ScalarBaseMult(k): k is reduced modulo N first (bip32/utils.go:64). *)
Definition ScalarBaseMult (k : bytes) : Z * Z :=
  match be_Z k mod secp_n with
  | Zpos e => to_affine (pmul_c e (secp_Gx, secp_Gy, 1))
  | _ => (0, 0)
  end.

(** The number that FieldVal.SetByteSlice reads from the bytes of x, of which it takes the first 32: bip32/utils.go:70. *)
Definition field32 (x : Z) : Z := be_Z (firstn 32 (Z_bytes x)).

(** curve.Add(x1,y1,x2,y2) (bip32/utils.go:70): (0,0) is the point at infinity, other
    coordinates are taken modulo p, points are not checked to be on the curve. The library compares
    coordinates before it reduces them (only a foreign public key with x >= p is not reduced): the sum of two
    names of one point is (0,0). GoCurve.v writes the library out and C92_add proves that this is what it computes. *)
Definition CurveAdd (P Q : Z * Z) : Z * Z :=
  let '(x1, y1) := P in
  let '(x2, y2) := Q in
  if (x1 =? 0) && (y1 =? 0) then Q
  else if (x2 =? 0) && (y2 =? 0) then P
  else
    let x1 := field32 x1 in let y1 := field32 y1 in let x2 := field32 x2 in let y2 := field32 y2 in
    let same_x := x1 =? x2 in let same_y := y1 =? y2 in
    let x1 := fred x1 in let y1 := fred y1 in let x2 := fred x2 in let y2 := fred y2 in
    let line l := let x3 := fsub (fsub (fmul l l) x1) x2 in (x3, fsub (fmul l (fsub x1 x3)) y1) in
    if same_x then
      if same_y && negb (y1 =? 0) then line (fmul (3 * fmul x1 x1) (finv (2 * y1)))
      else (0, 0)
    else if x1 =? x2 then (0, 0)
    else line (fmul (fsub y2 y1) (finv (fsub x2 x1))).

(** big.Int.ModSqrt(a, P) for P = 3 mod 4: a^((P+1)/4) when a is a square mod P, nil otherwise. bip32/utils.go:119. *)
Definition ModSqrt (a : Z) : option Z :=
  let a' := fred a in
  let z := fpow_pos a' (Z.to_pos ((secp_p + 1) / 4)) in
  if fmul z z =? a' then Some z else None.
