(** GoSort.v - sort.Slice of Go 1.22 (sort/slice.go, sort/zsortfunc.go, sort/sort.go) as it is written: pattern-defeating quicksort with
    insertion sort, heap sort and the shuffling of bad patterns, on a slice whose elements are compared and swapped by index.

    [lt] is the comparison of two elements; an index outside the slice panics. [Next] is one step of the pseudo-random generator of
    breakPatterns, any function. Loops carry fuel; running out of it is a panic. *)
From Verif Require Import Base GoStr Bip32 Bip44.

(** Replace an element of a slice: bip44/coins.go:1152 *)
Fixpoint lset {A} (l : list A) (i : nat) (x : A) : list A :=
  match l, i with
  | [], _ => []
  | _ :: r, O => x :: r
  | y :: r, S i => y :: lset r i x
  end.

Section Sort.
Context {A : Type}.
Variable lt : A -> A -> bool.
Variable Next : Z -> Z.

(** An index expression: bip44/coins.go:1153 *)
Definition at_ (l : list A) (i : Z) : outcome A :=
  if i <? 0 then Panic else match nth_error l (Z.to_nat i) with Some x => Ret x | None => Panic end.
(** less(i, j): bip44/coins.go:1152-1154 *)
Definition Less (l : list A) (i j : Z) : outcome bool :=
  let! x := at_ l i in
  let! y := at_ l j in
  Ret (lt x y).
(** reflectlite.Swapper(x)(i, j): bip44/coins.go:1152 *)
Definition Swap (l : list A) (i j : Z) : outcome (list A) :=
  let! x := at_ l i in
  let! y := at_ l j in
  Ret (lset (lset l (Z.to_nat i) y) (Z.to_nat j) x).

(** ** insertionSort_func *)
(** for j := i; j > a && data.Less(j, j-1); j-- { data.Swap(j, j-1) }; bip44/coins.go:1152 *)
Fixpoint ins_inner (fuel : nat) (l : list A) (a j : Z) : outcome (list A) :=
  match fuel with
  | O => Panic
  | S fuel =>
    if j >? a then
      let! c := Less l j (j - 1) in
      if c then let! l := Swap l j (j - 1) in ins_inner fuel l a (j - 1) else Ret l
    else Ret l
  end.
(** for i := a + 1; i < b; i++; bip44/coins.go:1152 *)
Fixpoint ins_outer (fuel : nat) (l : list A) (a b i : Z) : outcome (list A) :=
  match fuel with
  | O => Panic
  | S fuel =>
    if i <? b then let! l := ins_inner (S (Z.to_nat (i - a))) l a i in ins_outer fuel l a b (i + 1) else Ret l
  end.
(** insertionSort_func: bip44/coins.go:1152 *)
Definition insertionSort (l : list A) (a b : Z) : outcome (list A) := ins_outer (S (Z.to_nat (b - a))) l a b (a + 1).

(** ** heapSort_func *)
(** siftDown_func: bip44/coins.go:1152 *)
Fixpoint siftDown (fuel : nat) (l : list A) (root hi first : Z) : outcome (list A) :=
  match fuel with
  | O => Panic
  | S fuel =>
    let child := 2 * root + 1 in
    if child >=? hi then Ret l
    else
      let! c := if child + 1 <? hi then Less l (first + child) (first + child + 1) else Ret false in
      let child := if c then child + 1 else child in
      let! c := Less l (first + root) (first + child) in
      if negb c then Ret l
      else
        let! l := Swap l (first + root) (first + child) in
        siftDown fuel l child hi first
  end.
(** Build heap with greatest element at top: for i := (hi - 1) / 2; i >= 0; i--; bip44/coins.go:1152 *)
Fixpoint heap_build (fuel : nat) (l : list A) (i hi first : Z) : outcome (list A) :=
  match fuel with
  | O => Panic
  | S fuel =>
    if i >=? 0 then let! l := siftDown (S (Z.to_nat hi)) l i hi first in heap_build fuel l (i - 1) hi first else Ret l
  end.
(** Pop elements, largest first, into end of data: for i := hi - 1; i >= 0; i--; bip44/coins.go:1152 *)
Fixpoint heap_pop (fuel : nat) (l : list A) (i first : Z) : outcome (list A) :=
  match fuel with
  | O => Panic
  | S fuel =>
    if i >=? 0 then
      let! l := Swap l first (first + i) in
      let! l := siftDown (S (Z.to_nat i)) l 0 i first in
      heap_pop fuel l (i - 1) first
    else Ret l
  end.
(** heapSort_func: bip44/coins.go:1152 *)
Definition heapSort (l : list A) (a b : Z) : outcome (list A) :=
  let hi := b - a in
  let! l := heap_build (S (S (Z.to_nat hi))) l (Z.quot (hi - 1) 2) hi a in
  heap_pop (S (Z.to_nat hi)) l (hi - 1) a.

(** ** partition_func, partitionEqual_func *)
(** for i <= j && data.Less(i, a) { i++ }; bip44/coins.go:1152 *)
Fixpoint up_less (fuel : nat) (l : list A) (a i j : Z) : outcome Z :=
  match fuel with
  | O => Panic
  | S fuel => if i <=? j then let! c := Less l i a in if c then up_less fuel l a (i + 1) j else Ret i else Ret i
  end.
(** for i <= j && !data.Less(j, a) { j-- }; bip44/coins.go:1152 *)
Fixpoint down_notless (fuel : nat) (l : list A) (a i j : Z) : outcome Z :=
  match fuel with
  | O => Panic
  | S fuel => if i <=? j then let! c := Less l j a in if negb c then down_notless fuel l a i (j - 1) else Ret j else Ret j
  end.
(** The loop of partition_func after the first swap; bip44/coins.go:1152 *)
Fixpoint part_loop (fuel : nat) (l : list A) (a i j : Z) : outcome (list A * Z) :=
  match fuel with
  | O => Panic
  | S fuel =>
    let! i := up_less (S (Z.to_nat (j + 1 - i))) l a i j in
    let! j := down_notless (S (Z.to_nat (j + 1 - i))) l a i j in
    if i >? j then Ret (l, j)
    else let! l := Swap l i j in part_loop fuel l a (i + 1) (j - 1)
  end.
(** partition_func: the slice, newpivot and alreadyPartitioned; bip44/coins.go:1152 *)
Definition partition (l : list A) (a b pivot : Z) : outcome (list A * Z * bool) :=
  let! l := Swap l a pivot in
  let i := a + 1 in
  let j := b - 1 in
  let! i := up_less (S (Z.to_nat (j + 1 - i))) l a i j in
  let! j := down_notless (S (Z.to_nat (j + 1 - i))) l a i j in
  if i >? j then
    let! l := Swap l j a in Ret (l, j, true)
  else
    let! l := Swap l i j in
    let! (l, j) := part_loop (S (Z.to_nat (j + 1 - i))) l a (i + 1) (j - 1) in
    let! l := Swap l j a in
    Ret (l, j, false).
(** for i <= j && !data.Less(a, i) { i++ }; bip44/coins.go:1152 *)
Fixpoint up_notgreater (fuel : nat) (l : list A) (a i j : Z) : outcome Z :=
  match fuel with
  | O => Panic
  | S fuel => if i <=? j then let! c := Less l a i in if negb c then up_notgreater fuel l a (i + 1) j else Ret i else Ret i
  end.
(** for i <= j && data.Less(a, j) { j-- }; bip44/coins.go:1152 *)
Fixpoint down_greater (fuel : nat) (l : list A) (a i j : Z) : outcome Z :=
  match fuel with
  | O => Panic
  | S fuel => if i <=? j then let! c := Less l a j in if c then down_greater fuel l a i (j - 1) else Ret j else Ret j
  end.
(** The loop of partitionEqual_func; bip44/coins.go:1152 *)
Fixpoint parteq_loop (fuel : nat) (l : list A) (a i j : Z) : outcome (list A * Z) :=
  match fuel with
  | O => Panic
  | S fuel =>
    let! i := up_notgreater (S (Z.to_nat (j + 1 - i))) l a i j in
    let! j := down_greater (S (Z.to_nat (j + 1 - i))) l a i j in
    if i >? j then Ret (l, i)
    else let! l := Swap l i j in parteq_loop fuel l a (i + 1) (j - 1)
  end.
(** partitionEqual_func: bip44/coins.go:1152 *)
Definition partitionEqual (l : list A) (a b pivot : Z) : outcome (list A * Z) :=
  let! l := Swap l a pivot in
  parteq_loop (S (Z.to_nat (b - a))) l a (a + 1) (b - 1).

(** ** partialInsertionSort_func *)
(** for i < b && !data.Less(i, i-1) { i++ }; bip44/coins.go:1152 *)
Fixpoint pis_skip (fuel : nat) (l : list A) (b i : Z) : outcome Z :=
  match fuel with
  | O => Panic
  | S fuel => if i <? b then let! c := Less l i (i - 1) in if negb c then pis_skip fuel l b (i + 1) else Ret i else Ret i
  end.
(** Shift the smaller one to the left: for j := i - 1; j >= 1; j--; bip44/coins.go:1152 *)
Fixpoint pis_left (fuel : nat) (l : list A) (j : Z) : outcome (list A) :=
  match fuel with
  | O => Panic
  | S fuel =>
    if j >=? 1 then
      let! c := Less l j (j - 1) in
      if negb c then Ret l else let! l := Swap l j (j - 1) in pis_left fuel l (j - 1)
    else Ret l
  end.
(** Shift the greater one to the right: for j := i + 1; j < b; j++; bip44/coins.go:1152 *)
Fixpoint pis_right (fuel : nat) (l : list A) (b j : Z) : outcome (list A) :=
  match fuel with
  | O => Panic
  | S fuel =>
    if j <? b then
      let! c := Less l j (j - 1) in
      if negb c then Ret l else let! l := Swap l j (j - 1) in pis_right fuel l b (j + 1)
    else Ret l
  end.
(** for j := 0; j < maxSteps; j++, with [steps] rounds left; bip44/coins.go:1152 *)
Fixpoint pis_loop (steps : nat) (l : list A) (a b i : Z) : outcome (list A * bool) :=
  match steps with
  | O => Ret (l, false)
  | S steps =>
    let! i := pis_skip (S (Z.to_nat (b - i))) l b i in
    if i =? b then Ret (l, true)
    else if b - a <? 50 then Ret (l, false)
    else
      let! l := Swap l i (i - 1) in
      let! l := if i - a >=? 2 then pis_left (S (Z.to_nat i)) l (i - 1) else Ret l in
      let! l := if b - i >=? 2 then pis_right (S (Z.to_nat (b - i))) l b (i + 1) else Ret l in
      pis_loop steps l a b i
  end.
(** partialInsertionSort_func: bip44/coins.go:1152 *)
Definition partialInsertionSort (l : list A) (a b : Z) : outcome (list A * bool) := pis_loop 5 l a b (a + 1).

(** ** breakPatterns_func, choosePivot_func, reverseRange_func *)
(** nextPowerOfTwo: 1 << bits.Len(length); bip44/coins.go:1152 *)
Definition nextPowerOfTwo (length_ : Z) : Z := 2 ^ (if length_ =? 0 then 0 else Z.log2 length_ + 1).
(** for i := 0; i < 3; i++ of breakPatterns_func; bip44/coins.go:1152 *)
Fixpoint bp_loop (n : nat) (l : list A) (a length_ modulus idx i random : Z) : outcome (list A) :=
  match n with
  | O => Ret l
  | S n =>
    let random := Next random in
    let other := Z.land random (modulus - 1) in
    let other := if other >=? length_ then other - length_ else other in
    let! l := Swap l (idx - 1 + i) (a + other) in
    bp_loop n l a length_ modulus idx (i + 1) random
  end.
(** breakPatterns_func: bip44/coins.go:1152 *)
Definition breakPatterns (l : list A) (a b : Z) : outcome (list A) :=
  let length_ := b - a in
  if length_ >=? 8 then bp_loop 3 l a length_ (nextPowerOfTwo length_) (a + Z.quot length_ 4 * 2 - 1) 0 length_ else Ret l.
(** order2_func: bip44/coins.go:1152 *)
Definition order2 (l : list A) (a b swaps : Z) : outcome (Z * Z * Z) :=
  let! c := Less l b a in Ret (if c then (b, a, swaps + 1) else (a, b, swaps)).
(** median_func: bip44/coins.go:1152 *)
Definition median (l : list A) (a b c swaps : Z) : outcome (Z * Z) :=
  let! (ab, swaps) := order2 l a b swaps in
  let (a, b) := ab in
  let! (bc, swaps) := order2 l b c swaps in
  let (b, c) := bc in
  let! (ab, swaps) := order2 l a b swaps in
  let (a, b) := ab in
  Ret (b, swaps).
(** sortedHint: bip44/coins.go:1152 *)
Inductive hint := unknownHint | increasingHint | decreasingHint.
(** choosePivot_func: bip44/coins.go:1152 *)
Definition choosePivot (l : list A) (a b : Z) : outcome (Z * hint) :=
  let len := b - a in
  let i := a + Z.quot len 4 * 1 in
  let j := a + Z.quot len 4 * 2 in
  let k := a + Z.quot len 4 * 3 in
  let! (j, swaps) :=
    if len >=? 8 then
      let! (ijk, swaps) :=
        if len >=? 50 then
          let! (i, swaps) := median l (i - 1) i (i + 1) 0 in
          let! (j, swaps) := median l (j - 1) j (j + 1) swaps in
          let! (k, swaps) := median l (k - 1) k (k + 1) swaps in
          Ret (i, j, k, swaps)
        else Ret (i, j, k, 0) in
      let '(i, j, k) := ijk in
      median l i j k swaps
    else Ret (j, 0) in
  Ret (j, if swaps =? 0 then increasingHint else if swaps =? 12 then decreasingHint else unknownHint).
(** for i < j { data.Swap(i, j); i++; j-- }; bip44/coins.go:1152 *)
Fixpoint rev_loop (fuel : nat) (l : list A) (i j : Z) : outcome (list A) :=
  match fuel with
  | O => Panic
  | S fuel => if i <? j then let! l := Swap l i j in rev_loop fuel l (i + 1) (j - 1) else Ret l
  end.
(** reverseRange_func: bip44/coins.go:1152 *)
Definition reverseRange (l : list A) (a b : Z) : outcome (list A) := rev_loop (S (Z.to_nat (b - a))) l a (b - 1).

(** ** pdqsort_func *)
(** A test that must not be made: the second half of a conjunction whose first half is false; bip44/coins.go:1152 *)
Definition and_then (c : bool) (d : outcome bool) : outcome bool := if c then d else Ret false.
(** The loop of pdqsort_func with its variables limit, wasBalanced, wasPartitioned; bip44/coins.go:1152 *)
Fixpoint pdq_loop (fuel : nat) (l : list A) (a b limit : Z) (wasBalanced wasPartitioned : bool) : outcome (list A) :=
  match fuel with
  | O => Panic
  | S fuel =>
    let length_ := b - a in
    if length_ <=? 12 then insertionSort l a b
    else if limit =? 0 then heapSort l a b
    else
      let! l := if negb wasBalanced then breakPatterns l a b else Ret l in
      let limit := if negb wasBalanced then limit - 1 else limit in
      let! (pivot, h) := choosePivot l a b in
      let! l := match h with decreasingHint => reverseRange l a b | _ => Ret l end in
      let pivot := match h with decreasingHint => (b - 1) - (pivot - a) | _ => pivot end in
      let increasing := match h with unknownHint => false | _ => true end in
      let! (l, sorted_) :=
        if wasBalanced && wasPartitioned && increasing then partialInsertionSort l a b else Ret (l, false) in
      if sorted_ then Ret l
      else
        let! c := and_then (a >? 0) (let! c := Less l (a - 1) pivot in Ret (negb c)) in
        if c then
          let! (l, mid) := partitionEqual l a b pivot in
          pdq_loop fuel l mid b limit wasBalanced wasPartitioned
        else
          let! (lm, alreadyPartitioned) := partition l a b pivot in
          let (l, mid) := lm in
          let leftLen := mid - a in
          let rightLen := b - mid in
          let balanceThreshold := Z.quot length_ 8 in
          if leftLen <? rightLen then
            let! l := pdq_loop fuel l a mid limit true true in
            pdq_loop fuel l (mid + 1) b limit (leftLen >=? balanceThreshold) alreadyPartitioned
          else
            let! l := pdq_loop fuel l (mid + 1) b limit true true in
            pdq_loop fuel l a mid limit (rightLen >=? balanceThreshold) alreadyPartitioned
  end.
(** sort.Slice: limit is bits.Len of the length; bip44/coins.go:1152 *)
Definition SortSlice (l : list A) : outcome (list A) :=
  let n := Z.of_nat (length l) in
  let limit := if n =? 0 then 0 else Z.log2 n + 1 in
  pdq_loop (S (length l)) l 0 n limit true true.
End Sort.

(** xorshift.Next on 64-bit words: bip44/coins.go:1152 *)
Definition xorshift_Next (r : Z) : Z :=
  let r := Z.lxor r (Z.shiftl r 13 mod 2 ^ 64) in
  let r := Z.lxor r (Z.shiftr r 7) in
  Z.lxor r (Z.shiftl r 17 mod 2 ^ 64).

(** The comparison of the sort call: bip44/coins.go:1152-1154 *)
Definition byName (a b : Coin) : bool := bytes_ltb (CName a) (CName b).
(** init of bip44, with the sorting as it is written: bip44/coins.go:1151-1164 *)
Definition GoInitCoins (Next : Z -> Z) (coins : list Coin) : outcome Registry :=
  let! sorted_ := SortSlice byName Next coins in
  Ret (init_coins sorted_).
