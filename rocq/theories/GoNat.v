(** GoNat.v - the unsigned numbers of math/big as the sources of Go 1.22 have them (go.mod:3): vectors of 64-bit words, the lowest first.
    The package is not in /repo; it is written down from its published source (nat.go, natdiv.go, arith.go), the part that
    bip39/bip39.go and bip32/utils.go reach. Vectors are values: the reuse of memory (the six-fold scratch area of karatsuba, the pool of
    getNat) is left out. Divisors of 100 words and more (divRecursive) are a [Panic] here; the divisors in /repo are the curve's and small. *)
From Verif Require Import Base Bip32 GoCodec.

(** the base of the words, 2^64; bip32/utils.go:74 *)
Definition BW : Z := 18446744073709551616.
(** truncation to a Word; bip32/utils.go:74 *)
Definition ww (z : Z) : Z := z mod BW.

(** bits.Add: sum and carry; bip32/utils.go:79 *)
Definition bitsAdd (x y c : Z) : Z * Z := (ww (x + y + c), (x + y + c) / BW).
(** bits.Sub: difference and borrow; bip32/utils.go:80 *)
Definition bitsSub (x y b : Z) : Z * Z := (ww (x - y - b), if x <? y + b then 1 else 0).
(** bits.Mul: high and low word; bip32/utils.go:116 *)
Definition bitsMul (x y : Z) : Z * Z := (x * y / BW, ww (x * y)).
(** bits.Div: quotient and remainder; panics if the quotient does not fit. bip39/bip39.go:202 *)
Definition bitsDiv (hi lo y : Z) : outcome (Z * Z) :=
  if (y =? 0) || (y <=? hi) then Panic else Ret ((hi * BW + lo) / y, (hi * BW + lo) mod y).
(** nlz, the number of leading zeros of a word; bip32/utils.go:80 *)
Definition nlz (x : Z) : Z := if x =? 0 then 64 else 63 - Z.log2 x.

(** nat.norm: leading zero words are dropped; bip32/utils.go:76 *)
Fixpoint norm (z : list Z) : list Z :=
  match z with
  | [] => []
  | x :: z => match norm z with [] => if x =? 0 then [] else [x] | r => x :: r end
  end.
(** nat.setWord, big.NewInt; bip32/utils.go:116, 122 *)
Definition setWord (x : Z) : list Z := if x =? 0 then [] else [x].

(** addVV; bip32/utils.go:79 *)
Fixpoint addVV (x y : list Z) (c : Z) : list Z * Z :=
  match x, y with
  | xi :: x, yi :: y => let (zi, c) := bitsAdd xi yi c in let (z, c) := addVV x y c in (zi :: z, c)
  | _, _ => ([], c)
  end.
(** addVW; bip32/utils.go:79 *)
Fixpoint addVW (x : list Z) (c : Z) : list Z * Z :=
  match x with
  | xi :: x => let (zi, c) := bitsAdd xi c 0 in let (z, c) := addVW x c in (zi :: z, c)
  | [] => ([], c)
  end.
(** subVV; bip32/utils.go:80, 126 *)
Fixpoint subVV (x y : list Z) (c : Z) : list Z * Z :=
  match x, y with
  | xi :: x, yi :: y => let (zi, c) := bitsSub xi yi c in let (z, c) := subVV x y c in (zi :: z, c)
  | _, _ => ([], c)
  end.
(** subVW; bip32/utils.go:126 *)
Fixpoint subVW (x : list Z) (c : Z) : list Z * Z :=
  match x with
  | xi :: x => let (zi, c) := bitsSub xi c 0 in let (z, c) := subVW x c in (zi :: z, c)
  | [] => ([], c)
  end.
(** shlVU of the words above, [w1] the word below them: the shifted words and the bits that leave at the top; bip32/utils.go:80 *)
Fixpoint shlVU_loop (x : list Z) (s below : Z) : list Z * Z :=
  match x with
  | [] => ([], Z.shiftr below (64 - s))
  | w :: x => let (z, c) := shlVU_loop x s w in (Z.lor (ww (Z.shiftl w s)) (Z.shiftr below (64 - s)) :: z, c)
  end.
(** shlVU; bip32/utils.go:80 *)
Definition shlVU (x : list Z) (s : Z) : list Z * Z := if s =? 0 then (x, 0) else shlVU_loop x s 0.
(** shrVU; bip32/utils.go:80 *)
Fixpoint shrVU_loop (x : list Z) (s : Z) : list Z :=
  match x with
  | [] => []
  | w :: x => Z.lor (Z.shiftr w s) (match x with w1 :: _ => ww (Z.shiftl w1 (64 - s)) | [] => 0 end) :: shrVU_loop x s
  end.
(** shrVU; bip32/utils.go:80 *)
Definition shrVU (x : list Z) (s : Z) : list Z := if s =? 0 then x else shrVU_loop x s.
(** mulAddWWW_g: high and low word of x*y + c; bip39/bip39.go:282 *)
Definition mulAddWWW (x y c : Z) : Z * Z :=
  let (hi, lo) := bitsMul x y in let (lo, cc) := bitsAdd lo c 0 in (ww (hi + cc), lo).
(** mulAddVWW; bip39/bip39.go:282 *)
Fixpoint mulAddVWW (x : list Z) (y c : Z) : list Z * Z :=
  match x with
  | xi :: x => let (c, zi) := mulAddWWW xi y c in let (z, c) := mulAddVWW x y c in (zi :: z, c)
  | [] => ([], c)
  end.
(** addMulVVW: z + x*y; bip32/utils.go:116 *)
Fixpoint addMulVVW (z x : list Z) (y c : Z) : list Z * Z :=
  match z, x with
  | zi :: z, xi :: x =>
    let (z1, z0) := mulAddWWW xi y zi in
    let (lo, cc) := bitsAdd z0 c 0 in
    let (r, c) := addMulVVW z x y (ww (cc + z1)) in (lo :: r, c)
  | _, _ => ([], c)
  end.

(** nat.add; bip32/utils.go:79, 117 *)
Definition natAdd (x y : list Z) : list Z :=
  let (x, y) := if (length x <? length y)%nat then (y, x) else (x, y) in
  match x, y with
  | [], _ => []
  | _, [] => x
  | _, _ =>
    let n := length y in
    let (lo, c) := addVV (firstn n x) y 0 in
    let (hi, c) := addVW (skipn n x) c in
    norm (lo ++ hi ++ [c])
  end.
(** nat.sub; a negative result panics. bip32/utils.go:126 *)
Definition natSub (x y : list Z) : outcome (list Z) :=
  if (length x <? length y)%nat then Panic
  else match x, y with
       | [], _ => Ret []
       | _, [] => Ret x
       | _, _ =>
         let n := length y in
         let (lo, c) := subVV (firstn n x) y 0 in
         let (hi, c) := subVW (skipn n x) c in
         if c =? 0 then Ret (norm (lo ++ hi)) else Panic
       end.
(** nat.cmp from the highest word on, equal lengths; bip39/bip39.go:160 *)
Fixpoint cmp_loop (x y : list Z) : Z :=
  match x, y with
  | a :: x, b :: y => if a <? b then -1 else if b <? a then 1 else cmp_loop x y
  | _, _ => 0
  end.
(** nat.cmp; bip39/bip39.go:160 *)
Definition natCmp (x y : list Z) : Z :=
  if (length x <? length y)%nat then -1
  else if (length y <? length x)%nat then 1
  else cmp_loop (rev x) (rev y).
(** nat.and; bip39/bip39.go:201 *)
Definition natAnd (x y : list Z) : list Z := norm (map (fun p => Z.land (fst p) (snd p)) (combine x y)).
(** nat.or; bip39/bip39.go:135, 286 *)
Definition natOr (x y : list Z) : list Z :=
  let (x, y) := if (length x <? length y)%nat then (y, x) else (x, y) in
  norm (map (fun p => Z.lor (fst p) (snd p)) (combine x y) ++ skipn (length y) x).
(** nat.shl; bip32/utils.go:119 *)
Definition natShl (x : list Z) (s : Z) : list Z :=
  if s =? 0 then x
  else match x with
       | [] => []
       | _ => let (z, c) := shlVU x (s mod 64) in norm (repeat 0 (Z.to_nat (s / 64)) ++ z ++ [c])
       end.
(** nat.shr; bip32/utils.go:119 *)
Definition natShr (x : list Z) (s : Z) : list Z :=
  if s =? 0 then x
  else if Z.of_nat (length x) <=? s / 64 then []
  else norm (shrVU (skipn (Z.to_nat (s / 64)) x) (s mod 64)).

(** nat.mulAddWW; bip39/bip39.go:282 *)
Definition mulAddWW (x : list Z) (y r : Z) : list Z :=
  match x with
  | [] => setWord r
  | _ => if y =? 0 then setWord r else let (z, c) := mulAddVWW x y r in norm (z ++ [c])
  end.
(** basicMul; [z] is the vector from the word on that is worked at. bip32/utils.go:116 *)
Fixpoint basicMul_loop (z x y : list Z) : list Z :=
  match y with
  | [] => z
  | d :: y =>
    let z := if d =? 0 then z
             else let n := length x in let (lo, c) := addMulVVW (firstn n z) x d 0 in lo ++ [c] ++ skipn (S n) z in
    match z with [] => [] | z0 :: z => z0 :: basicMul_loop z x y end
  end.
(** basicMul; bip32/utils.go:116 *)
Definition basicMul (x y : list Z) : list Z := basicMul_loop (repeat 0 (length x + length y)) x y.
(** karatsubaAdd: [x] is added to [n] words of z from the word n/2 on, the carry to the n/2 words above them; bip32/utils.go:116 *)
Definition karatsubaAdd (z x : list Z) (n : nat) : list Z :=
  let n2 := Nat.div2 n in
  let (m, c) := addVV (firstn n (skipn n2 z)) x 0 in
  firstn n2 z ++ m ++ (if c =? 0 then skipn (n2 + n) z else fst (addVW (skipn (n2 + n) z) c)).
(** karatsubaSub; bip32/utils.go:116 *)
Definition karatsubaSub (z x : list Z) (n : nat) : list Z :=
  let n2 := Nat.div2 n in
  let (m, c) := subVV (firstn n (skipn n2 z)) x 0 in
  firstn n2 z ++ m ++ (if c =? 0 then skipn (n2 + n) z else fst (subVW (skipn (n2 + n) z) c)).
(** karatsuba, the difference of two halves without its sign, and whether it was negative; bip32/utils.go:116 *)
Definition halfDiff (a b : list Z) : list Z * bool :=
  let (d, c) := subVV a b 0 in if c =? 0 then (d, false) else (fst (subVV b a 0), true).
(** karatsuba; the halves get shorter, [fuel] is the number of words. bip32/utils.go:116 *)
Fixpoint karatsuba (fuel : nat) (x y : list Z) : outcome (list Z) :=
  match fuel with
  | O => Panic
  | S fuel =>
    let n := length y in
    if Nat.odd n || (n <? 40)%nat || (n <? 2)%nat then Ret (basicMul x y)
    else
      let n2 := Nat.div2 n in
      let x1 := skipn n2 x in let x0 := firstn n2 x in
      let y1 := skipn n2 y in let y0 := firstn n2 y in
      let! z0 := karatsuba fuel x0 y0 in
      let! z2 := karatsuba fuel x1 y1 in
      let (xd, sx) := halfDiff x1 x0 in
      let (yd, sy) := halfDiff y0 y1 in
      let! p := karatsuba fuel xd yd in
      let z := z0 ++ z2 in
      let z := karatsubaAdd z z0 n in
      let z := karatsubaAdd z z2 n in
      Ret (if Bool.eqb sx sy then karatsubaAdd z p n else karatsubaSub z p n)
  end.
(** karatsubaLen; [fuel] is n. bip32/utils.go:116 *)
Fixpoint karatsubaLen (fuel n threshold : nat) : nat :=
  match fuel with
  | O => n
  | S fuel => if (threshold <? n)%nat then (2 * karatsubaLen fuel (Nat.div2 n) threshold)%nat else n
  end.
(** addAt: z + x << (64*i); bip32/utils.go:116 *)
Definition addAt (z x : list Z) (i : nat) : outcome (list Z) :=
  let n := length x in
  if (n =? 0)%nat then Ret z
  else if (length z <? i + n)%nat then Panic
  else
    let (m, c) := addVV (firstn n (skipn i z)) x 0 in
    Ret (firstn i z ++ m ++ (if c =? 0 then skipn (i + n) z else fst (addVW (skipn (i + n) z) c))).
(** nat.mul, the blocks of k words of x above the lowest; the loop goes round at most [count] times. bip32/utils.go:116 *)
Fixpoint mul_blocks (mul : list Z -> list Z -> outcome (list Z)) (count k i : nat) (x y0 y1 z : list Z) : outcome (list Z) :=
  match count with
  | O => Panic
  | S count =>
    if (i <? length x)%nat then
      let xi := norm (firstn k (skipn i x)) in
      let! t := mul xi y0 in
      let! z := addAt z t i in
      let! t := mul xi y1 in
      let! z := addAt z t (i + k) in
      mul_blocks mul count k (i + k) x y0 y1 z
    else Ret z
  end.
(** nat.mul; [fuel]: more than the words of both numbers. bip32/utils.go:116, bip39/bip39.go:282 *)
Fixpoint natMul_f (fuel : nat) (x y : list Z) : outcome (list Z) :=
  match fuel with
  | O => Panic
  | S fuel =>
    let (x, y) := if (length x <? length y)%nat then (y, x) else (x, y) in
    match y with
    | [] => Ret []
    | [y0] => Ret (mulAddWW x y0 0)
    | _ =>
      if (length y <? 40)%nat then Ret (norm (basicMul x y))
      else
        let m := length x in
        let n := length y in
        let k := karatsubaLen n n 40 in
        let x0 := firstn k x in
        let y0 := firstn k y in
        let! z := karatsuba (S k) x0 y0 in
        let z := z ++ repeat 0 (m + n - 2 * k) in
        if (k <? n)%nat || negb (m =? n)%nat then
          let y1 := skipn k y in
          let! t := natMul_f fuel (norm x0) y1 in
          let! z := addAt z t k in
          let! z := mul_blocks (natMul_f fuel) (S m) k k x (norm y0) y1 z in
          Ret (norm z)
        else Ret (norm z)
    end
  end.
(** nat.mul; bip32/utils.go:116, bip39/bip39.go:282 *)
Definition natMul (x y : list Z) : outcome (list Z) := natMul_f (S (length x + length y)) x y.
(** basicSqr, the squares of the words; bip32/utils.go:116 *)
Definition squares (x : list Z) : list Z := flat_map (fun d => let (hi, lo) := bitsMul d d in [lo; hi]) x.
(** basicSqr, the products of each word from the i-th on ([todo]) with the words below it; bip32/utils.go:116 *)
Fixpoint sqr_loop (x : list Z) (i : nat) (todo t : list Z) : list Z :=
  match todo with
  | [] => t
  | d :: todo =>
    let (r, c) := addMulVVW (firstn i (skipn i t)) (firstn i x) d 0 in
    sqr_loop x (S i) todo (firstn i t ++ r ++ [c] ++ skipn (2 * i + 1) t)
  end.
(** basicSqr; bip32/utils.go:116 *)
Definition basicSqr (x : list Z) : list Z :=
  let n := length x in
  if (n <? 20)%nat then basicMul x x
  else
    let t := sqr_loop x 1 (tl x) (repeat 0 (2 * n)) in
    let (r, c) := shlVU (firstn (2 * n - 2) (skipn 1 t)) 1 in
    fst (addVV (squares x) (firstn 1 t ++ r ++ [c]) 0).
(** karatsubaSqr; bip32/utils.go:116 *)
Fixpoint karatsubaSqr (fuel : nat) (x : list Z) : outcome (list Z) :=
  match fuel with
  | O => Panic
  | S fuel =>
    let n := length x in
    if Nat.odd n || (n <? 260)%nat || (n <? 2)%nat then Ret (basicSqr x)
    else
      let n2 := Nat.div2 n in
      let x1 := skipn n2 x in let x0 := firstn n2 x in
      let! z0 := karatsubaSqr fuel x0 in
      let! z2 := karatsubaSqr fuel x1 in
      let (xd, _) := halfDiff x1 x0 in
      let! p := karatsubaSqr fuel xd in
      let z := z0 ++ z2 in
      let z := karatsubaAdd z z0 n in
      let z := karatsubaAdd z z2 n in
      Ret (karatsubaSub z p n)
  end.
(** nat.sqr; [fuel]: more than the words. bip32/utils.go:116 *)
Fixpoint natSqr_f (fuel : nat) (x : list Z) : outcome (list Z) :=
  match fuel with
  | O => Panic
  | S fuel =>
    let n := length x in
    match x with
    | [] => Ret []
    | [d] => let (z1, z0) := bitsMul d d in Ret (norm [z0; z1])
    | _ =>
      if (n <? 20)%nat then Ret (norm (basicMul x x))
      else if (n <? 260)%nat then Ret (norm (basicSqr x))
      else
        let k := karatsubaLen n n 260 in
        let x0 := firstn k x in
        let! z := karatsubaSqr (S k) x0 in
        let z := z ++ repeat 0 (2 * n - 2 * k) in
        if (k <? n)%nat then
          let x1 := skipn k x in
          let! t := natMul (norm x0) x1 in
          let! z := addAt z t k in
          let! z := addAt z t k in
          let! t := natSqr_f fuel x1 in
          let! z := addAt z t (2 * k) in
          Ret (norm z)
        else Ret (norm z)
    end
  end.
(** nat.sqr; bip32/utils.go:116 *)
Definition natSqr (x : list Z) : outcome (list Z) := natSqr_f (S (length x)) x.

(** reciprocalWord; bip39/bip39.go:202 *)
Definition reciprocalWord (d1 : Z) : outcome Z :=
  let u := ww (Z.shiftl d1 (nlz d1)) in
  let! (rec, rem) := bitsDiv (BW - 1 - u) (BW - 1) u in Ret rec.
(** divWW: two words by one with the reciprocal [m]; bip39/bip39.go:202 *)
Definition divWW (x1 x0 y m : Z) : Z * Z :=
  let s := nlz y in
  let '(x1, x0, d) :=
    if s =? 0 then (x1, x0, y)
    else (Z.lor (ww (Z.shiftl x1 s)) (Z.shiftr x0 (64 - s)), ww (Z.shiftl x0 s), ww (Z.shiftl y s)) in
  let (t1, t0) := bitsMul m x1 in
  let (_, c) := bitsAdd t0 x0 0 in
  let (t1, _) := bitsAdd t1 x1 c in
  let qq := t1 in
  let (dq1, dq0) := bitsMul d qq in
  let (r0, b) := bitsSub x0 dq0 0 in
  let (r1, _) := bitsSub x1 dq1 b in
  let (qq, r0) := if r1 =? 0 then (qq, r0) else (ww (qq + 1), ww (r0 - d)) in
  let (qq, r0) := if r0 <? d then (qq, r0) else (ww (qq + 1), ww (r0 - d)) in
  (qq, Z.shiftr r0 s).
(** divWVW from the highest word down; [x] highest first, [z] the quotient so far. bip39/bip39.go:202 *)
Fixpoint divWVW_loop (x : list Z) (r y m : Z) (z : list Z) : list Z * Z :=
  match x with
  | [] => (z, r)
  | xi :: x => let (q, r) := divWW r xi y m in divWVW_loop x r y m (q :: z)
  end.
(** divWVW; bip39/bip39.go:202 *)
Definition divWVW (x : list Z) (y : Z) : outcome (list Z * Z) :=
  match x with
  | [x0] => let! (q, r) := bitsDiv 0 x0 y in Ret ([q], r)
  | _ => let! rec := reciprocalWord y in Ret (divWVW_loop (rev x) 0 y rec [])
  end.
(** nat.divW; bip39/bip39.go:202, bip32/utils.go:122 *)
Definition divW (x : list Z) (y : Z) : outcome (list Z * Z) :=
  if y =? 0 then Panic
  else if y =? 1 then Ret (x, 0)
  else match x with
       | [] => Ret ([], 0)
       | _ => let! (z, r) := divWVW x y in Ret (norm z, r)
       end.
(** divBasic, the loop that lowers the guess; it goes round at most twice, [fuel] is 3. bip32/utils.go:80 *)
Fixpoint refine (fuel : nat) (qhat rhat vn1 vn2 ujn2 : Z) : outcome Z :=
  match fuel with
  | O => Panic
  | S fuel =>
    let (x1, x2) := bitsMul qhat vn2 in
    if (rhat <? x1) || ((x1 =? rhat) && (ujn2 <? x2)) then
      let qhat := ww (qhat - 1) in
      let prev := rhat in
      let rhat := ww (rhat + vn1) in
      if rhat <? prev then Ret qhat else refine fuel qhat rhat vn1 vn2 ujn2
    else Ret qhat
  end.
(** divBasic, one digit of the quotient. [win]: u[j:j+n], [top]: u[j+n] unless u ends below it. Answers the digit, the new window and
    top word. bip32/utils.go:80 *)
Definition div_digit (v : list Z) (vn1 vn2 rec : Z) (win : list Z) (top : option Z) : outcome (Z * list Z * option Z) :=
  let n := length v in
  let ujn := match top with Some t => t | None => 0 end in
  let! qhat :=
    if ujn =? vn1 then Ret (BW - 1)
    else
      let! u1 := get win (n - 1) in
      let! u2 := get win (n - 2) in
      let (qhat, rhat) := divWW ujn u1 vn1 rec in
      refine 3 qhat rhat vn1 vn2 u2 in
  let (qv, qn) := mulAddVWW v qhat 0 in
  match top with
  | Some t =>
    let (u, c) := subVV (win ++ [t]) (qv ++ [qn]) 0 in
    let win := firstn n u in
    let t := nth n u 0 in
    if c =? 0 then Ret (qhat, win, Some t)
    else let (win, c) := addVV win v 0 in Ret (ww (qhat - 1), win, Some (ww (t + c)))
  | None =>
    if negb (qn =? 0) then Panic
    else
      let (win, c) := subVV win qv 0 in
      if c =? 0 then Ret (qhat, win, None)
      else let (win, _) := addVV win v 0 in Ret (ww (qhat - 1), win, None)
  end.
(** divBasic, the digits below the first. [low]: the words of u below the window, the highest first; [tops]: the words of u above it;
    [q]: the digits so far. bip32/utils.go:80 *)
Fixpoint divBasic_loop (v : list Z) (vn1 vn2 rec : Z) (low win tops q : list Z) : outcome (list Z * list Z) :=
  match low with
  | [] => Ret (q, win ++ tops)
  | x :: low =>
    let! t := get win (length v - 1) in
    let! r := div_digit v vn1 vn2 rec (x :: removelast win) (Some t) in
    match r with
    | (qhat, win, Some t) => divBasic_loop v vn1 vn2 rec low win (t :: tops) (qhat :: q)
    | _ => Panic
    end
  end.
(** divBasic as divLarge calls it, with no room in q for a first digit, which must be 0: quotient and what is left of u.
    bip32/utils.go:80 *)
Definition divBasic (u v : list Z) : outcome (list Z * list Z) :=
  let n := length v in
  let! vn1 := get v (n - 1) in
  let! vn2 := get v (n - 2) in
  let! rec := reciprocalWord vn1 in
  let m := (length u - n)%nat in
  let! r := div_digit v vn1 vn2 rec (skipn m u) None in
  match r with
  | (qhat, win, _) => if negb (qhat =? 0) then Panic else divBasic_loop v vn1 vn2 rec (rev (firstn m u)) win [] []
  end.
(** nat.divLarge, without divRecursive; bip32/utils.go:80 *)
Definition divLarge (u v : list Z) : outcome (list Z * list Z) :=
  let! vtop := get v (length v - 1) in
  let s := nlz vtop in
  let (v, _) := shlVU v s in
  let (u, c) := shlVU u s in
  if (100 <=? length v)%nat then Panic
  else let! (q, u) := divBasic (u ++ [c]) v in Ret (norm q, norm (shrVU u s)).
(** nat.div: quotient and remainder; bip32/utils.go:80, 122, bip39/bip39.go:143, 202 *)
Definition natDiv (u v : list Z) : outcome (list Z * list Z) :=
  match v with
  | [] => Panic
  | [v0] => let! (q, r) := divW u v0 in Ret (q, setWord r)
  | _ => if natCmp u v <? 0 then Ret ([], u) else divLarge u v
  end.

(** nat.setBytes, whole words from the end; bip32/utils.go:76, 110, bip39/bip39.go:135, 191, 278. [b]: the bytes, the last first *)
Fixpoint setBytes_loop (fuel : nat) (b : bytes) : list Z :=
  match fuel with
  | O => []
  | S fuel =>
    match b with
    | [] => []
    | _ => be_Z (rev (firstn 8 b)) :: setBytes_loop fuel (skipn 8 b)
    end
  end.
(** nat.setBytes; bip32/utils.go:76, 110, bip39/bip39.go:135, 191, 278 *)
Definition setBytes (b : bytes) : list Z := norm (setBytes_loop (length b) (rev b)).
(** nat.bytes, the bytes of a word, the lowest first; bip32/utils.go:82 *)
Fixpoint word_bytes (n : nat) (d : Z) : bytes := match n with O => [] | S n => bZ d :: word_bytes n (Z.shiftr d 8) end.
(** leading zeros are skipped; bip32/utils.go:82 *)
Fixpoint skip0 (b : bytes) : bytes := match b with x00 :: b => skip0 b | _ => b end.
(** Int.Bytes; bip32/utils.go:82, 97, bip39/bip39.go:148, 205, 290 *)
Definition natBytes (x : list Z) : bytes := skip0 (rev (concat (map (word_bytes 8) x))).

(** nat.montgomery, one word of y: the vector from the next word on and the carry; bip32/utils.go:119 *)
Definition mont_step (x m : list Z) (k : Z) (win : list Z) (c d : Z) : outcome (list Z * Z) :=
  let (z, c2) := addMulVVW win x d 0 in
  let! z0 := get z 0 in
  let t := ww (z0 * k) in
  let (z, c3) := addMulVVW z m t 0 in
  let cx := ww (c + c2) in
  let cy := ww (cx + c3) in
  Ret (tl z ++ [cy], if (cx <? c2) || (cy <? c3) then 1 else 0).
(** the loop of nat.montgomery; bip32/utils.go:119 *)
Fixpoint mont_loop (x m : list Z) (k : Z) (win : list Z) (c : Z) (y : list Z) : outcome (list Z * Z) :=
  match y with
  | [] => Ret (win, c)
  | d :: y => let! (win, c) := mont_step x m k win c d in mont_loop x m k win c y
  end.
(** nat.montgomery; bip32/utils.go:119 *)
Definition montgomery (x y m : list Z) (k : Z) : outcome (list Z) :=
  let n := length m in
  if negb ((length x =? n)%nat && (length y =? n)%nat) then Panic
  else
    let! (win, c) := mont_loop x m k (repeat 0 n) 0 y in
    Ret (if c =? 0 then win else fst (subVV win m 0)).
(** expNNMontgomery, -1/m0 modulo the base; bip32/utils.go:119 *)
Fixpoint newton (rounds : nat) (t k0 : Z) : Z :=
  match rounds with
  | O => k0
  | S r => let t := ww (t * t) in newton r t (ww (k0 * ww (t + 1)))
  end.
(** expNNMontgomery, k0; bip32/utils.go:119 *)
Definition mont_k0 (m0 : Z) : Z := ww (- newton 6 (ww (m0 - 1)) (ww (2 - m0))).
(** expNNMontgomery, the powers from the third on; bip32/utils.go:119 *)
Fixpoint mont_powers (count : nat) (m : list Z) (k : Z) (p1 last : list Z) : outcome (list (list Z)) :=
  match count with
  | O => Ret []
  | S count => let! p := montgomery last p1 m k in let! ps := mont_powers count m k p1 p in Ret (p :: ps)
  end.
(** expNNMontgomery, the windows of four bits of one word; bip32/utils.go:119 *)
Fixpoint mont_windows (count : nat) (m : list Z) (k : Z) (powers : list (list Z)) (first : bool) (yi : Z) (z : list Z) : outcome (list Z) :=
  match count with
  | O => Ret z
  | S count =>
    let! z := if first then Ret z
              else let! zz := montgomery z z m k in let! z := montgomery zz zz m k in
                   let! zz := montgomery z z m k in montgomery zz zz m k in
    let! p := get powers (Z.to_nat (Z.shiftr yi 60)) in
    let! z := montgomery z p m k in
    mont_windows count m k powers false (ww (Z.shiftl yi 4)) z
  end.
(** expNNMontgomery, the words of the exponent, the highest first; bip32/utils.go:119 *)
Fixpoint mont_words (m : list Z) (k : Z) (powers : list (list Z)) (first : bool) (y : list Z) (z : list Z) : outcome (list Z) :=
  match y with
  | [] => Ret z
  | yi :: y => let! z := mont_windows 16 m k powers first yi z in mont_words m k powers false y z
  end.
(** a vector lengthened with zeros; bip32/utils.go:119 *)
Definition pad_words (n : nat) (x : list Z) : list Z := x ++ repeat 0 (n - length x).
(** nat.expNNMontgomery; bip32/utils.go:119 *)
Definition expNNMontgomery (x y m : list Z) : outcome (list Z) :=
  let n := length m in
  let! x := if (n <? length x)%nat then (let! (q, r) := natDiv x m in Ret r) else Ret x in
  let x := pad_words n x in
  let! m0 := get m 0 in
  let k := mont_k0 m0 in
  let! (q, RR) := natDiv (natShl (setWord 1) (2 * Z.of_nat n * 64)) m in
  let RR := pad_words n RR in
  let one := 1 :: repeat 0 (n - 1) in
  let! p0 := montgomery one RR m k in
  let! p1 := montgomery x RR m k in
  let! ps := mont_powers 14 m k p1 p1 in
  let! z := mont_words m k (p0 :: p1 :: ps) true (rev y) p0 in
  let! zz := montgomery z one m k in
  if natCmp zz m <? 0 then Ret (norm zz)
  else
    let! zz := natSub zz m in
    if natCmp zz m <? 0 then Ret zz else (let! (q, r) := natDiv zz m in Ret r).
(** expNN, the bits of the exponent below the highest, one by one, without a modulus; [v] is shifted to the left. bip32/utils.go:116 *)
Fixpoint exp_bits (count : nat) (x : list Z) (v : Z) (z : list Z) : outcome (list Z) :=
  match count with
  | O => Ret z
  | S count =>
    let! z := natSqr z in
    let! z := if Z.testbit v 63 then natMul z x else Ret z in
    exp_bits count x (ww (Z.shiftl v 1)) z
  end.
(** expNN; with a modulus only the case of odd moduli and long exponents is written out, without one only exponents of one word.
    bip32/utils.go:116, 119 *)
Definition expNN (x y m : list Z) : outcome (list Z) :=
  match m with
  | [] =>
    match x, y with
    | _, [] => Ret [1]
    | [], _ => Ret []
    | _, [v] =>
      if (length x =? 1)%nat && (nth 0 x 0 =? 1) then Ret [1]
      else if v =? 1 then Ret x
      else let s := nlz v + 1 in exp_bits (Z.to_nat (64 - s)) x (ww (Z.shiftl v s)) x
    | _, _ => Panic
    end
  | m0 :: _ =>
    if (length m =? 1)%nat && (m0 =? 1) then Ret []
    else match x, y with
         | _, [] => Ret [1]
         | [], _ => Ret []
         | _, _ =>
           if (length x =? 1)%nat && (nth 0 x 0 =? 1) then Ret [1]
           else if (1 <? length y)%nat && Z.odd m0 then expNNMontgomery x y m else Panic
         end
  end.
