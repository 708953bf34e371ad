(** SpecPattern.v - the written form of patterns and what it describes, after the documentation of package regexp/syntax (for C106): single
    characters, escapes, \d \s \w, bracketed classes, ^ and $, groups, * + ? {m} {m,n}. Nothing here knows of the parser. *)
From Verif Require Import Base GoStr GoRegexp SpecRegexp.

(** The rune written by a backslash and c: a control character, or a punctuation character itself; bip32/path.go:22, 25 *)
Definition escaped (c : byte) : option Z :=
  match c with
  | x61 => Some 7 | x66 => Some 12 | x6e => Some 10 | x72 => Some 13 | x74 => Some 9 | x76 => Some 11
  | _ => let v := Zb c in
         if (v <? 48) || (57 <? v) && (v <? 65) || (90 <? v) && (v <? 97) || (122 <? v) && (v <? 128) then Some v else None
  end.
(** The sets of \d, \s, \w; bip32/path.go:22, 25, bip32/reg_ver_bytes.go:75 *)
Definition perl_set (c : byte) (x : Z) : Prop :=
  match c with
  | x64 => 48 <= x <= 57
  | x73 => x = 9 \/ x = 10 \/ x = 12 \/ x = 13 \/ x = 32
  | x77 => 48 <= x <= 57 \/ 65 <= x <= 90 \/ x = 95 \/ 97 <= x <= 122
  | _ => False
  end.
(** The runes; bip32/path.go:22 *)
Definition rune (x : Z) : Prop := 0 <= x <= 0x10ffff.

(** A character in brackets: itself or escaped; bip32/path.go:22 *)
Inductive cchar := Plain (c : byte) | Esc (c : byte).
(** What stands in brackets: a character, a range, \d \s \w ([neg]: \D \S \W); bip32/path.go:22 *)
Inductive citem := COne (x : cchar) | CRange (lo hi : cchar) | CPerl (neg : bool) (c : byte).
(** How often: once, * + ? {m} {m,n}; bip32/path.go:22, bip32/reg_ver_bytes.go:75 *)
Inductive quant := QOne | QStar | QPlus | QQuest | QExact (m : nat) | QRep (m n : nat).
(** The atoms of a pattern. A class may start with a closing bracket [lead] and end with a minus sign [trail]; bip32/path.go:22, 25,
    bip32/reg_ver_bytes.go:75 *)
Inductive atom :=
| AChar (c : byte) | AEsc (c : byte) | APerl (neg : bool) (c : byte) | AClass (neg lead : bool) (items : list citem) (trail : bool)
| ABegin | AEnd | AGroup (p : pat)
with pat := PNil | PCons (a : atom) (q : quant) (p : pat).

(** ** The written form *)
(** \D, \S, \W for the complements; bip32/path.go:22 *)
Definition upper (neg : bool) (c : byte) : byte := if neg then bZ (Zb c - 32) else c.
(** bip32/path.go:22 *)
Definition w_char (x : cchar) : bytes := match x with Plain c => [c] | Esc c => [x5c; c] end.
(** bip32/path.go:22 *)
Definition w_item (i : citem) : bytes :=
  match i with COne x => w_char x | CRange lo hi => w_char lo ++ B "-" ++ w_char hi | CPerl neg c => [x5c; upper neg c] end.
(** bip32/path.go:22, bip32/reg_ver_bytes.go:75 *)
Definition w_quant (q : quant) : bytes :=
  match q with
  | QOne => [] | QStar => B "*" | QPlus => B "+" | QQuest => B "?"
  | QExact m => B "{" ++ Itoa (Z.of_nat m) ++ B "}"
  | QRep m n => B "{" ++ Itoa (Z.of_nat m) ++ B "," ++ Itoa (Z.of_nat n) ++ B "}"
  end.
(** bip32/path.go:22, 25, bip32/reg_ver_bytes.go:75 *)
Fixpoint w_atom (a : atom) : bytes :=
  match a with
  | AChar c => [c]
  | AEsc c => [x5c; c]
  | APerl neg c => [x5c; upper neg c]
  | AClass neg lead items trail =>
    B "[" ++ (if neg then B "^" else []) ++ (if lead then B "]" else []) ++ flat_map w_item items ++ (if trail then B "-" else []) ++ B "]"
  | ABegin => B "^"
  | AEnd => B "$"
  | AGroup p => B "(" ++ w_pat p ++ B ")"
  end
(** bip32/path.go:22, 25, bip32/reg_ver_bytes.go:75 *)
with w_pat (p : pat) : bytes := match p with PNil => [] | PCons a q p => w_atom a ++ w_quant q ++ w_pat p end.

(** ** What it describes *)
(** bip32/path.go:22 *)
Definition char_is (x : cchar) (v : Z) : Prop := match x with Plain c => v = Zb c | Esc c => escaped c = Some v end.
(** bip32/path.go:22 *)
Definition perl_mem (neg : bool) (c : byte) (x : Z) : Prop := if neg then rune x /\ ~ perl_set c x else perl_set c x.
(** bip32/path.go:22 *)
Definition item_mem (i : citem) (x : Z) : Prop :=
  match i with COne y => char_is y x | CRange lo hi => exists a b, char_is lo a /\ char_is hi b /\ a <= x <= b | CPerl neg c => perl_mem neg c x end.
(** bip32/path.go:22 *)
Definition bracket_mem (lead : bool) (items : list citem) (trail : bool) (x : Z) : Prop :=
  (exists i, In i items /\ item_mem i x) \/ lead = true /\ x = 93 \/ trail = true /\ x = 45.
(** bip32/path.go:22 *)
Definition class_mem (neg lead : bool) (items : list citem) (trail : bool) (x : Z) : Prop :=
  if neg then rune x /\ ~ bracket_mem lead items trail x else bracket_mem lead items trail x.
(** k times in a row is allowed; bip32/path.go:22, bip32/reg_ver_bytes.go:75 *)
Definition times (q : quant) (k : nat) : Prop :=
  match q with
  | QOne => k = 1%nat | QStar => True | QPlus => (1 <= k)%nat | QQuest => (k <= 1)%nat | QExact m => k = m | QRep m n => (m <= k <= n)%nat
  end.
(** The bytes from i up to j are described by the atom, by k times the atom, by the pattern; bip32/path.go:22, 25, bip32/reg_ver_bytes.go:75 *)
Inductive MA (s : bytes) : atom -> nat -> nat -> Prop :=
| MA_char c i w : rune_at s i (Zb c) w -> MA s (AChar c) i (i + w)
| MA_esc c x i w : escaped c = Some x -> rune_at s i x w -> MA s (AEsc c) i (i + w)
| MA_perl neg c x i w : perl_mem neg c x -> rune_at s i x w -> MA s (APerl neg c) i (i + w)
| MA_class neg lead items trail x i w : class_mem neg lead items trail x -> rune_at s i x w -> MA s (AClass neg lead items trail) i (i + w)
| MA_begin : MA s ABegin 0 0
| MA_end : MA s AEnd (length s) (length s)
| MA_group p i j : ML s p i j -> MA s (AGroup p) i j
with MN (s : bytes) : atom -> nat -> nat -> nat -> Prop :=
| MN_0 a i : MN s a 0 i i
| MN_S a k i j l : MA s a i j -> MN s a k j l -> MN s a (S k) i l
with ML (s : bytes) : pat -> nat -> nat -> Prop :=
| ML_nil i : ML s PNil i i
| ML_cons a q p k i j l : times q k -> MN s a k i j -> ML s p j l -> ML s (PCons a q p) i l.

(** ** Well-formed patterns *)
(** Characters that stand for themselves outside brackets; bip32/path.go:22 *)
Definition own_char (c : byte) : Prop := Zb c < 128 /\ ~ In c (B "\^$.|?*+()[{").
(** ... and inside; bip32/path.go:22 *)
Definition own_in_class (x : cchar) : Prop := match x with Plain c => Zb c < 128 /\ ~ In c (B "\[]-") | Esc c => exists v, escaped c = Some v end.
(** bip32/path.go:22, 25 *)
Definition perl_letter (c : byte) : Prop := In c (B "dsw").
(** bip32/path.go:22 *)
Definition citem_ok (i : citem) : Prop :=
  match i with
  | COne x => own_in_class x
  | CRange lo hi => own_in_class lo /\ own_in_class hi /\ exists a b, char_is lo a /\ char_is hi b /\ a <= b
  | CPerl _ c => perl_letter c
  end.
(** Does not start with a circumflex; bip32/path.go:22 *)
Definition no_caret (items : list citem) : Prop :=
  match items with COne (Plain c) :: _ | CRange (Plain c) _ :: _ => c <> x5e | _ => True end.
(** Largest product of nested upper bounds in braces; bip32/reg_ver_bytes.go:75 *)
Definition q_bound (q : quant) (b : nat) : nat :=
  match q with QExact m | QRep _ m => if (m =? 0)%nat then 1 else m * b | _ => b end.
(** bip32/reg_ver_bytes.go:75 *)
Fixpoint a_bound (a : atom) : nat := match a with AGroup p => p_bound p | _ => 1 end
(** bip32/reg_ver_bytes.go:75 *)
with p_bound (p : pat) : nat := match p with PNil => 1 | PCons a q p => Nat.max (q_bound q (a_bound a)) (p_bound p) end.
(** Bounds in order and at most 1000; bip32/reg_ver_bytes.go:75 *)
Definition q_ok (q : quant) : Prop := match q with QExact m => (m <= 1000)%nat | QRep m n => (m <= n <= 1000)%nat | _ => True end.
(** Nested bounds multiply to at most 1000; bip32/reg_ver_bytes.go:75 *)
Fixpoint a_within (a : atom) : Prop := match a with AGroup p => p_within p | _ => True end
(** bip32/reg_ver_bytes.go:75 *)
with p_within (p : pat) : Prop := match p with PNil => True | PCons a q p => a_within a /\ (q_bound q (a_bound a) <= 1000)%nat /\ p_within p end.
(** Classes hold a rune and leave out another one than the line feed (the others become the any-character operators); bip32/path.go:22 *)
Definition proper (S : Z -> Prop) : Prop := (exists x, rune x /\ S x) /\ (exists x, rune x /\ x <> 10 /\ ~ S x).
(** bip32/path.go:22, 25, bip32/reg_ver_bytes.go:75 *)
Fixpoint a_ok (a : atom) : Prop :=
  match a with
  | AChar c => own_char c
  | AEsc c => exists v, escaped c = Some v
  | APerl _ c => perl_letter c
  | AClass neg lead items trail =>
    Forall citem_ok items /\ (neg = true \/ lead = true \/ no_caret items) /\ (items = [] -> lead = true \/ trail = true) /\
    proper (class_mem neg lead items trail)
  | ABegin | AEnd => True
  | AGroup p => p_ok p
  end
(** bip32/path.go:22, 25, bip32/reg_ver_bytes.go:75 *)
with p_ok (p : pat) : Prop := match p with PNil => True | PCons a q p => a_ok a /\ q_ok q /\ p_ok p end.

(** The pattern of bip32/path.go:22 *)
Definition path_pat : pat :=
  let step q := PCons (AChar x2f) QOne (PCons (APerl false x64) QPlus q) in
  PCons ABegin QOne (PCons (AClass false false [COne (Plain x6d); COne (Plain x4d)] false) QOne
    (PCons (AGroup (step (PCons (AChar x27) QOne PNil))) QStar (PCons (AGroup (step PNil)) QStar (PCons AEnd QOne PNil)))).
(** The pattern of bip32/path.go:25 *)
Definition space_pat : pat := PCons (APerl false x73) QOne PNil.
(** The pattern of bip32/reg_ver_bytes.go:75 *)
Definition version_pat : pat :=
  let step q := PCons (AChar x2f) QOne (PCons (APerl false x64) (QRep 0 8) (PCons (AChar x27) QOne q)) in
  PCons ABegin QOne (PCons (AChar x6d) QOne (step (step (PCons AEnd QOne PNil)))).
