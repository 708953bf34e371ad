(** GoField.v - the field and scalar arithmetic of github.com/decred/dcrd/dcrec/secp256k1/v4 v4.2.0 (go.mod:12), field.go and
    modnscalar.go, which curve.ScalarBaseMult and curve.Add (bip32/utils.go:64, 70) run on: ten words of 26 bits in
    uint32, eight words of 32 bits. The package is not in /repo; it is written down from its published source.
    Its unrolled sums of products are loops here. Wrapping is applied once to each sum (it commutes with sums and products). *)
From Verif Require Import Base.

(** uint32 and uint64 arithmetic, bip32/utils.go:64, 70 *)
Definition w32 (z : Z) : Z := z mod 2 ^ 32.
(** bip32/utils.go:64, 70 *)
Definition w64 (z : Z) : Z := z mod 2 ^ 64.
(** fieldBaseMask and fieldMSBMask, bip32/utils.go:64, 70 *)
Definition fieldBaseMask : Z := 0x3ffffff.
(** bip32/utils.go:64, 70 *)
Definition fieldMSBMask : Z := 0x3fffff.
(** fieldPrimeWordZero and fieldPrimeWordOne, bip32/utils.go:64, 70 *)
Definition fieldPrimeWordZero : Z := 0x3fffc2f.
(** bip32/utils.go:64, 70 *)
Definition fieldPrimeWordOne : Z := 0x3ffffbf.
(** constantTimeEq, constantTimeLess, constantTimeGreater, constantTimeGreaterOrEq; bip32/utils.go:64, 70 *)
Definition ctEq (a b : Z) : Z := w32 (Z.shiftr (w64 (Z.lxor a b - 1)) 63).
(** bip32/utils.go:64, 70 *)
Definition ctLess (a b : Z) : Z := w32 (Z.shiftr (w64 (a - b)) 63).
(** bip32/utils.go:64, 70 *)
Definition ctLessOrEq (a b : Z) : Z := w32 (Z.shiftr (w64 (a - b - 1)) 63).
(** bip32/utils.go:64, 70 *)
Definition ctGreater (a b : Z) : Z := ctLess b a.
(** bip32/utils.go:64, 70 *)
Definition ctGreaterOrEq (a b : Z) : Z := ctLessOrEq b a.

(** type FieldVal: ten words, the least significant first; bip32/utils.go:64, 70 *)
Definition FieldVal : Type := list Z.
(** m = (m >> fieldBase) + x; t = m & fieldBaseMask, for every x: the masked words, and the last m >> fieldBase.
    bip32/utils.go:64, 70 *)
Fixpoint carry (wr : Z -> Z) (c : Z) (l : list Z) : list Z * Z :=
  match l with
  | [] => ([], c)
  | x :: r =>
      let m := wr (c + x) in
      let (t, c') := carry wr (Z.shiftr m 26) r in (Z.land m fieldBaseMask :: t, c')
  end.

(** FieldVal.SetInt: bip32/utils.go:64, 70 *)
Definition SetInt (n : Z) : FieldVal := n :: repeat 0 9.
(** FieldVal.SetBytes: bip32/utils.go:70 *)
Definition SetBytes (b : list Z) : FieldVal :=
  match b with
  | [b0; b1; b2; b3; b4; b5; b6; b7; b8; b9; b10; b11; b12; b13; b14; b15;
     b16; b17; b18; b19; b20; b21; b22; b23; b24; b25; b26; b27; b28; b29; b30; b31] =>
      let or4 a b c d := Z.lor (Z.lor (Z.lor a b) c) d in
      let s := Z.shiftl in let r := Z.shiftr in
      [or4 b31 (s b30 8) (s b29 16) (s (Z.land b28 3) 24);
       or4 (r b28 2) (s b27 6) (s b26 14) (s (Z.land b25 15) 22);
       or4 (r b25 4) (s b24 4) (s b23 12) (s (Z.land b22 63) 20);
       or4 (r b22 6) (s b21 2) (s b20 10) (s b19 18);
       or4 b18 (s b17 8) (s b16 16) (s (Z.land b15 3) 24);
       or4 (r b15 2) (s b14 6) (s b13 14) (s (Z.land b12 15) 22);
       or4 (r b12 4) (s b11 4) (s b10 12) (s (Z.land b9 63) 20);
       or4 (r b9 6) (s b8 2) (s b7 10) (s b6 18);
       or4 b5 (s b4 8) (s b3 16) (s (Z.land b2 3) 24);
       Z.lor (Z.lor (r b2 2) (s b1 6)) (s b0 14)]
  | _ => []
  end.
(** SetByteSlice of FieldVal and ModNScalar: at most 32 bytes, aligned to the right. bip32/utils.go:64, 70 *)
Definition bytes32 (b : bytes) : list Z :=
  let b := firstn 32 b in map Zb (repeat x00 (32 - length b) ++ b).
(** FieldVal.SetByteSlice: bip32/utils.go:70 *)
Definition SetByteSlice (b : bytes) : FieldVal := SetBytes (bytes32 b).
(** FieldVal.Bytes: bip32/utils.go:64, 70 *)
Definition FieldBytes (f : FieldVal) : bytes :=
  match f with
  | [n0; n1; n2; n3; n4; n5; n6; n7; n8; n9] =>
      let byt x k := Z.land (Z.shiftr x k) 255 in
      let mix x k m y n j := Z.lor (Z.land (Z.shiftr x k) m) (Z.shiftl (Z.land y n) j) in
      map bZ
        [byt n9 14; byt n9 6; mix n8 24 3 n9 63 2; byt n8 16; byt n8 8; byt n8 0;
         byt n7 18; byt n7 10; byt n7 2; mix n6 20 63 n7 3 6; byt n6 12; byt n6 4; mix n5 22 15 n6 15 4; byt n5 14; byt n5 6;
         mix n4 24 3 n5 63 2; byt n4 16; byt n4 8; byt n4 0;
         byt n3 18; byt n3 10; byt n3 2; mix n2 20 63 n3 3 6; byt n2 12; byt n2 4; mix n1 22 15 n2 15 4; byt n1 14; byt n1 6;
         mix n0 24 3 n1 63 2; byt n0 16; byt n0 8; byt n0 0]
  | _ => []
  end.
(** FieldVal.Normalize: bip32/utils.go:64, 70 *)
Definition Normalize (f : FieldVal) : FieldVal :=
  match f with
  | [n0; n1; n2; n3; n4; n5; n6; n7; n8; n9] =>
      let m := Z.shiftr n9 22 in
      let t9 := Z.land n9 fieldMSBMask in
      let (t, c) := carry w32 0 [n0 + m * 977; n1 + Z.shiftl m 6; n2; n3; n4; n5; n6; n7; n8] in
      let t9 := w32 (c + t9) in
      match t with
      | [t0; t1; t2; t3; t4; t5; t6; t7; t8] =>
          let m := ctEq t9 fieldMSBMask in
          let m := Z.land m (ctEq (Z.land (Z.land (Z.land (Z.land (Z.land (Z.land t8 t7) t6) t5) t4) t3) t2) fieldBaseMask) in
          let m := Z.land m (ctGreater (w32 (t1 + 64 + Z.shiftr (w32 (t0 + 977)) 26)) fieldBaseMask) in
          let m := Z.lor m (Z.shiftr t9 22) in
          let (t, c) := carry w32 0 [t0 + m * 977; t1 + Z.shiftl m 6; t2; t3; t4; t5; t6; t7; t8] in
          t ++ [Z.land (w32 (c + t9)) fieldMSBMask]
      | _ => []
      end
  | _ => []
  end.
(** FieldVal.IsZero: bip32/utils.go:64, 70 *)
Definition IsZero (f : FieldVal) : bool := fold_right Z.lor 0 f =? 0.
(** FieldVal.IsOne: bip32/utils.go:64, 70 *)
Definition IsOne (f : FieldVal) : bool := match f with n0 :: r => fold_right Z.lor (Z.lxor n0 1) r =? 0 | [] => false end.
(** FieldVal.Equals, with the words combined by xor and or: bip32/utils.go:64, 70 *)
Fixpoint zipw (op : Z -> Z -> Z) (f g : list Z) : list Z :=
  match f, g with a :: f, b :: g => op a b :: zipw op f g | _, _ => [] end.
(** bip32/utils.go:64, 70 *)
Definition Equals (f g : FieldVal) : bool := fold_right Z.lor 0 (zipw Z.lxor f g) =? 0.
(** FieldVal.NegateVal(val, magnitude): bip32/utils.go:64, 70 *)
Definition Negate (magnitude : Z) (f : FieldVal) : FieldVal :=
  zipw (fun p x => w32 ((magnitude + 1) * p - x))
    (fieldPrimeWordZero :: fieldPrimeWordOne :: repeat fieldBaseMask 7 ++ [fieldMSBMask]) f.
(** FieldVal.Add and Add2: bip32/utils.go:64, 70 *)
Definition Add (f g : FieldVal) : FieldVal := zipw (fun a b => w32 (a + b)) f g.
(** FieldVal.MulInt: bip32/utils.go:64, 70 *)
Definition MulInt (k : Z) (f : FieldVal) : FieldVal := map (fun x => w32 (x * k)) f.
(** The sums of products for each power of the base, in Mul2; bip32/utils.go:64, 70 *)
Fixpoint addw (f g : list Z) : list Z :=
  match f, g with
  | a :: f, b :: g => a + b :: addw f g
  | [], g => g
  | f, [] => f
  end.
(** bip32/utils.go:64, 70 *)
Fixpoint products (f g : list Z) : list Z :=
  match f with [] => [] | a :: f => addw (map (Z.mul a) g) (0 :: products f g) end.
(** The same in SquareVal, products of two different words once and doubled; bip32/utils.go:64, 70 *)
Fixpoint squares (f : list Z) : list Z :=
  match f with [] => [] | a :: f => a * a :: addw (map (fun b => 2 * (a * b)) f) (match f with [] => [] | _ => 0 :: squares f end) end.
(** The reduction at the end of Mul2 and SquareVal: bip32/utils.go:64, 70 *)
Definition reduce (cols : list Z) : FieldVal :=
  let (t, t19) := carry w64 0 cols in
  match t with
  | [t0; t1; t2; t3; t4; t5; t6; t7; t8; t9; t10; t11; t12; t13; t14; t15; t16; t17; t18] =>
      let (t, c) := carry w64 0 [t0 + t10 * 15632; t1 + t10 * 1024 + t11 * 15632; t2 + t11 * 1024 + t12 * 15632;
        t3 + t12 * 1024 + t13 * 15632; t4 + t13 * 1024 + t14 * 15632; t5 + t14 * 1024 + t15 * 15632;
        t6 + t15 * 1024 + t16 * 15632; t7 + t16 * 1024 + t17 * 15632; t8 + t17 * 1024 + t18 * 15632] in
      let m := w64 (c + t9 + t18 * 1024 + t19 * 68719492368) in
      let t9 := Z.land m fieldMSBMask in
      let m := Z.shiftr m 22 in
      match t with
      | [t0; t1; t2; t3; t4; t5; t6; t7; t8] =>
          let n := w64 (t0 + m * 977) in
          let n' := w64 (Z.shiftr n 26 + t1 + m * 64) in
          map w32 [Z.land n fieldBaseMask; Z.land n' fieldBaseMask; w64 (Z.shiftr n' 26 + t2); t3; t4; t5; t6; t7; t8; t9]
      | _ => []
      end
  | _ => []
  end.
(** FieldVal.Mul and Mul2: bip32/utils.go:64, 70 *)
Definition Mul (f g : FieldVal) : FieldVal := reduce (products f g).
(** FieldVal.Square and SquareVal: bip32/utils.go:64, 70 *)
Definition Square (f : FieldVal) : FieldVal := reduce (squares f).
(** ten squarings in FieldVal.Inverse: bip32/utils.go:64, 70 *)
Definition sq10 (f : FieldVal) : FieldVal := Nat.iter 10 Square f.
(** FieldVal.Inverse: bip32/utils.go:64, 70 *)
Definition Inverse (f : FieldVal) : FieldVal :=
  let a2 := Square f in
  let a3 := Mul a2 f in
  let a4 := Square a2 in
  let a10 := Mul (Square a4) a2 in
  let a11 := Mul a10 f in
  let a21 := Mul a10 a11 in
  let a42 := Square a21 in
  let a45 := Mul a42 a3 in
  let a63 := Mul a42 a21 in
  let a1019 := Mul (Square (Square (Square (Square a63)))) a11 in
  let a1023 := Mul a1019 a4 in
  let f := Nat.iter 21 (fun f => Mul (sq10 f) a1023) a63 in
  let f := Mul (sq10 f) a1019 in
  let f := Mul (sq10 f) a1023 in
  let f := Mul (sq10 f) a1023 in
  Mul (sq10 f) a45.

(** type ModNScalar: eight words; bip32/utils.go:64 *)
Definition ModNScalar : Type := list Z.
(** the words of the group order and of 2^256 minus it: bip32/utils.go:64 *)
Definition orderWords : list Z := [0xd0364141; 0xbfd25e8c; 0xaf48a03b; 0xbaaedce6; 0xfffffffe; 0xffffffff; 0xffffffff; 0xffffffff].
(** bip32/utils.go:64 *)
Definition orderComplement : list Z := [0x2fc9bebf; 0x402da173; 0x50b75fc4; 0x45512319; 1; 0; 0; 0].
(** ModNScalar.overflows: bip32/utils.go:64 *)
Definition overflows (s : ModNScalar) : Z :=
  match s, orderWords with
  | [s0; s1; s2; s3; s4; s5; s6; s7], [o0; o1; o2; o3; o4; o5; o6; o7] =>
      let e := ctEq s7 o7 in
      let e := Z.land e (ctEq s6 o6) in
      let e := Z.land e (ctEq s5 o5) in
      let o := Z.land e (ctGreater s4 o4) in
      let e := Z.land e (ctEq s4 o4) in
      let o := Z.lor o (Z.land e (ctGreater s3 o3)) in
      let e := Z.land e (ctEq s3 o3) in
      let o := Z.lor o (Z.land e (ctGreater s2 o2)) in
      let e := Z.land e (ctEq s2 o2) in
      let o := Z.lor o (Z.land e (ctGreater s1 o1)) in
      let e := Z.land e (ctEq s1 o1) in
      Z.lor o (Z.land e (ctGreaterOrEq s0 o0))
  | _, _ => 0
  end.
(** ModNScalar.reduce256: bip32/utils.go:64 *)
Fixpoint reduce256 (over c : Z) (s comp : list Z) : ModNScalar :=
  match s, comp with
  | x :: s, k :: comp => let c := w64 (c + x + over * k) in Z.land c 0xffffffff :: reduce256 over (Z.shiftr c 32) s comp
  | _, _ => []
  end.
(** ModNScalar.SetBytes: bip32/utils.go:64 *)
Fixpoint words32 (b : list Z) : list Z :=
  match b with
  | b0 :: b1 :: b2 :: b3 :: r => words32 r ++ [Z.lor (Z.lor (Z.lor b3 (Z.shiftl b2 8)) (Z.shiftl b1 16)) (Z.shiftl b0 24)]
  | _ => []
  end.
(** ModNScalar.SetByteSlice: bip32/utils.go:64 *)
Definition ScalarSetByteSlice (b : bytes) : ModNScalar :=
  let s := words32 (bytes32 b) in reduce256 (overflows s) 0 s orderComplement.
(** ModNScalar.Bytes: bip32/utils.go:64 *)
Definition ScalarBytes (s : ModNScalar) : bytes :=
  concat (map (fun x => map bZ [Z.shiftr x 24; Z.shiftr x 16; Z.shiftr x 8; x]) (rev s)).
